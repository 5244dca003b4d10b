(* The data file data/freed/compounds.json.gz of the Gibbs energies of formation that
   entries/freed.py:16 reads, written out in the order of the file: the formula, its
   number of atoms (counted from the formula, not in the file), and the energies of one formula
   unit at 300, 400, 500, ... K in millionths of an eV. Simplification: the file has about 16
   decimals, here they are rounded to six. *)
From Coq Require Import String.
From Verif Require Import Prelude.
Open Scope string_scope.
Open Scope Z_scope.
Open Scope list_scope.

Definition freed_1 : list (string * Z * list Z) := [
  ("Ag2CO3", 6, [-4523491; -4285741; -4051591]);
  ("Ag2O", 3, [-115665; -47425; 19256]);
  ("Ag2S", 3, [-403555; -430812; -457405; -486852; -515306; -543014; -559019; -524511; -490471; -463609; -426071; -382443]);
  ("Ag2SO4", 7, [-6402380; -6063912; -5721669; -5380693; -5043167; -4733578; -4417042; -4068804]);
  ("Ag2Se", 3, [-521357; -545954; -590182; -623653; -656741; -689576; -722159; -754382]);
  ("Ag2Te", 3, [-431204; -452385; -489441; -530487; -571168; -591510]);
  ("Ag3Sb", 4, [-233428; -232056; -232038; -234052; -238466; -245478]);
  ("AgBr", 2, [-1006507; -963474; -908667; -857385; -811648; -783869; -757810; -733083; -709415; -686590]);
  ("AgCl", 2, [-1137238; -1079086; -1024139; -972039; -922829; -889130; -862565; -837365; -813216; -789864; -760921; -728974]);
  ("AgI", 2, [-687109; -700333; -687847; -652588; -619266; -587537; -565301; -547924; -531565; -516057]);
  ("AgNO3", 5, [-341056; -27206; 272155; 540045]);
  ("AgO", 2, [143182; 231961; 319058; 2633281; 2533206; 2434144; 2336087; 2239025; 2142950; 2047853; 1959909; 1876352; 1793793; 1712169; 1631425; 1551509; 1472378; 1393992]);
  ("AgS", 2, [3495884; 3305412; 3125119; 2950673; 2780501; 2613765; 2461343; 2361884; 2263593; 2166448; 2076613; 1991315; 1907162; 1824085; 1742025; 1660929; 1580750; 1501447]);
  ("Al(HO)2", 5, [-6413281; -6327827; -6238510; -6146781; -6053352; -5958584; -5862656; -5757741; -5648028; -5537705; -5426886; -5315658; -5204084; -5092215; -4980089; -4867737; -4755181; -4642438]);
  ("Al(HO)3", 7, [-11963701; -11481433; -10999149; -10520267; -10046490]);
  ("Al2(SO4)3", 17, [-32115924; -30924690; -29715350; -28505051; -27298986; -26098661; -24869940; -23479476; -22089532]);
  ("Al2Fe3(SiO4)3", 20, [-51198447; -50075607; -48956340; -47843520; -46737224; -45636416; -44539650; -43428858; -42308567; -41188323]);
  ("Al2FeO4", 7, [-19175393; -18772833; -18370951; -17970679; -17571892; -17174107; -16776743; -16363167; -15940402; -15517208; -15094158; -14672199; -14251300]);
  ("Al2H12(SO6)3", 35, [-47874399; -45471265; -43059391]);
  ("Al2NiCl8", 11, [-14858467; -14480236; -14106576; -13736455; -13368568; -13002803; -12638702; -12259914]);
  ("Al2NiO4", 7, [-18828254; -18403018; -17975193; -17545314; -17113378; -16680322; -16246538; -15796375; -15338272]);
  ("Al2O", 3, [-1794248; -1888864; -1980529; -2069736; -2156615; -2241144; -2323233; -2386949; -2440485; -2492115; -2542000; -2590275; -2637054; -2682435; -2726504; -2769334; -2810993; -2851538]);
  ("Al2O3", 5, [-16393046; -16066934; -15740586; -15415396; -15091606; -14769078; -14447544; -14110875; -13767081; -13424266; -13082437; -12741592; -12401717; -12062798; -11724815; -11387748; -11051575; -10716275]);
  ("Al2S", 3, [1814217; 1628699; 1454402; 1286888; 1124621; 966881; 824694; 752692; 690906; 631070; 573025; 516639; 461797; 408404; 356373; 305632; 256114; 207760]);
  ("Al2S3", 5, [-6635475; -6593647; -6529310; -6454705; -6373860; -6288650; -6165880; -5873270; -5574079; -5276362; -4980084; -4685201]);
  ("Al2Si(O2F)2", 9, [-30156195; -29550847; -28946632; -28345817; -27748845; -27155437; -26565014; -25961077]);
  ("Al2Si2H4O9", 17, [-39363746; -38248175; -37132248; -36019899; -34912037; -33808378; -32708148; -31594570]);
  ("Al2SiO5", 8, [-25319726; -24795645; -24280086; -23766695; -23255544; -22746502; -22239204; -21717418; -21191537; -20668080; -20146316; -19626159; -19107516; -18590291; -18070354; -17524725]);
  ("Al4C3", 7, [-2034356; -1990780; -1947432; -1904239; -1860583; -1815830; -1769424; -1689261; -1591601; -1492899; -1393429; -1293435; -1193133; -1092715; -992347; -892179; -792341; -692946]);
  ("Al4SiC4", 9, [-1959113; -1908907; -1857370; -1804441; -1749751; -1692865; -1633360; -1539215; -1426736; -1312408; -1196522; -1079335; -961072; -841936; -718072; -566760; -415228; -263607]);
  ("Al6Si2O13", 21, [-66869770; -65552647; -64233955; -62919551; -61610956; -60308033; -59009992; -57668350; -56307010; -54950110; -53597517; -52249081; -50904648; -49564081; -48219181; -46824077; -45432838; -44045390]);
  ("AlB12", 13, [-2142669; -2162386; -2180645; -2195808; -2207309; -2215549; -2221080; -2216536; -2206563; -2195779; -2184683; -2173707; -2163217; -2153534; -2144931; -2137644; -2131879; -2127813]);
  ("AlB2", 3, [-676955; -670950; -664256; -656698; -648227; -638914; -628838; -610153; -587071; -563826; -540586]);
  ("AlBO2", 4, [-5705369; -5734839; -5761351; -5785401; -5807253; -5827073; -5844943; -5852986; -5855365; -5856256; -5855768; -5853987; -5850981; -5846806; -5841506; -5835118; -5827672; -5819193]);
  ("AlBr", 2, [-255136; -361037; -449632; -536502; -621754; -705423; -787508; -860081; -927276; -993255; -1058126; -1121976; -1184883; -1246912; -1308121; -1368561; -1428277; -1487308]);
  ("AlBr3", 4, [-5059732; -4895457; -4717696; -4580608; -4458038; -4336729; -4284647; -4223837; -4158354; -4092299; -4025723; -3958667; -3891168; -3823255; -3754954; -3686289; -3617279; -3547942]);
  ("AlC", 2, [2591290; 2479204; 2367586; 2256845; 2147222; 2038885; 1931959; 1834453; 1742287; 1651331; 1561504; 1472735; 1384959; 1298120; 1212166; 1127052; 1042738; 959187]);
  ("AlC2", 3, [6443438; 6221962; 6000274; 5779381; 5559817; 5341897; 5125821; 4919630; 4719255; 4520567; 4323474; 4127892; 3933744; 3740958; 3549468; 3359215; 3170144; 2982207]);
  ("AlCl", 2, [-807048; -897148; -985326; -1071798; -1156660; -1239939; -1321633; -1393809; -1460600; -1526171; -1590627; -1654058; -1716541; -1778142; -1838918; -1898922; -1958198; -2016787]);
  ("AlCl2", 3, [-3023508; -3061802; -3098325; -3133327; -3166902; -3199065; -3229796; -3251147; -3267238; -3282218; -3296179; -3309201; -3321350; -3332682; -3343245; -3353084; -3362234; -3370730]);
  ("AlCl2F", 4, [-8067205; -8023577; -7978927; -7933551; -7887512; -7840776; -7793266; -7736980; -7675987; -7614392; -7552247; -7489596; -7426473; -7362910; -7298931; -7234559; -7169813; -7104714]);
  ("AlCl3", 4, [-6525128; -6265226; -6068185; -5941645; -5815996; -5690960; -5595182; -5532695; -5465533; -5397794; -5329528; -5260777; -5191572; -5121944; -5051915; -4981509; -4910742; -4839632]);
  ("AlClF", 3, [-5202957; -5244774; -5284541; -5322638; -5359222; -5394344; -5428001; -5452254; -5471227; -5489071; -5505879; -5521732; -5536694; -5550825; -5564173; -5576784; -5588697; -5599947]);
  ("AlClF2", 4, [-10216059; -10168582; -10119687; -10069836; -10019179; -9967731; -9915443; -9854330; -9788472; -9721979; -9654911; -9587313; -9519222; -9450672; -9381689; -9312297; -9242519; -9172375]);
  ("AlClO", 3, [-7620056; -7425729; -7232968; -7042060; -6852944; -6665433; -6479298; -6286382; -3630490; -3617755; -3604392; -3590446; -3575953; -3560945; -3545450; -3529491; -3513090; -3496266]);
  ("AlF", 2, [-3019022; -3106154; -3191077; -3274117; -3355431; -3435087; -3513102; -3581557; -3644597; -3706388; -3767040; -3826646; -3885281; -3943013; -3999899; -4055990; -4111330; -4165958]);
  ("AlF2", 3, [-7301226; -7333939; -7364262; -7392710; -7419516; -7444774; -7468505; -7482789; -7491755; -7499564; -7506312; -7512082; -7516942; -7520951; -7524162; -7526619; -7528365; -7529436]);
  ("AlF3", 4, [-14827707; -14553179; -14281417; -14012601; -13746725; -13484311; -13223898; -12956980; -12687452; -12419283; -12152416; -11886802; -11622400; -11452862; -11371416; -11289546; -11207275; -11124625]);
  ("AlH", 2, [2394198; 2298249; 2204958; 2113800; 2024454; 1936745; 1850592; 1773873; 1702426; 1632072; 1562702; 1494226; 1426572; 1359681; 1293503; 1227996; 1163124; 1098856]);
  ("AlH2", 3, [2391766; 2338264; 2289174; 2243351; 2200049; 2158820; 2119401; 2089555; 2065044; 2041641; 2019204; 1997624; 1976819; 1956725; 1937290; 1918475; 1900247; 1882579]);
  ("AlH28S2NO20", 52, [-51118476]);
  ("AlH3", 4, [485526; 690743; 901169; 2297370; 2333383; 2371458; 2411150; 2460115; 2514056; 2568713; 2623932; 2679604; 2735655; 2792033; 2848704; 2905646; 2962847; 3020300]);
  ("AlH4S2NO8", 16, [-21113501; -20017808; -18909838; -17799631]);
  ("AlHO", 3, [-1927343; -1944830; -1957189; -1965863; -1971691; -1975163; -1976574; -1968189; -1954271; -1939075; -1922769; -1905485; -1887327; -1868382; -1848718; -1828393; -1807456; -1785947]);
  ("AlHO2", 4, [-9540035; -9265261; -8989080; -8720332; -8473555; -4361231; -4301655; -4232839; -4158954; -4084185; -4008645; -3932420; -3855577; -3778171; -3700247; -3621839; -3542978; -3463688]);
  ("AlI", 2, [202708; 41133; -76685; -164235; -250171; -334529; -417305; -490568; -558451; -625117; -690671; -755201; -818784; -881485; -943360; -1004461; -1064833; -1124515]);
  ("AlI3", 4, [-3004086; -2948977; -2886264; -2765487; -2645705; -2588023; -2537526; -2478299; -2414397; -2349917; -2284909; -2219409; -2153453; -2087066; -2020271; -1953089; -1885536; -1817626]);
  ("AlN", 2, [-2954894; -2845946; -2735941; -2625749; -2515662; -2405713; -2295818; -2177937; -2056081; -1934300; -1812595; -1690960; -1569388; -1447875; -1326416; -1205012; -1083668; -962390]);
  ("AlO", 2, [-2074529; -2083684; -2091733; -2098930; -2105290; -2110748; -2115215; -2110688; -2101236; -2090972; -2079958; -2068247; -2055882; -2042903; -2029343; -2015231; -2000593; -1985453]);
  ("AlO2", 3, [-950632; -969195; -987178; -1004791; -1021990; -1038656; -1054650; -1061931; -1064534; -1066545; -1068001; -1068934; -1069371; -1069334; -1068844; -1067918; -1066572; -1064818]);
  ("AlOF", 3, [-6043115; -6047147; -6049655; -6051126; -6051712; -6051424; -6050212; -6040091; -6025139; -6009471; -5993145; -5976210; -5958705; -5940664; -5922117; -5903088; -5883602; -5863680]);
  ("AlOF2", 4, [-11364137; -11320716; -11276117; -11230807; -11184906; -11138389; -11091177; -11035259; -10974691; -10913566; -10851930; -10789816; -10727254; -10664269; -10600884; -10537118; -10472993; -10408526]);
  ("AlPO4", 6, [-16761013; -16354604; -15947005; -15530102; -15104570; -14682876; -14266381; -13845705]);
  ("AlS", 2, [244289; 152964; 71658; -4061; -75749; -144169; -198349; -191626; -179862; -167181; -153655; -139345; -124300; -108563; -92173; -75161; -57558; -39390]);
  ("AlS2", 3, [1960131; 1769513; 1597637; 1435964; 1281479; 1132650; 1011370; 1002985; 999857; 997858; 996911; 996951; 997922; 999777; 1002471; 1005966; 1010227; 1015220]);
  ("AlSb", 2, [-499167; -488826; -477834; -466186; -453786; -440501; -426174; -380837; -329623; -277629; -224993; -216870; -228702]);
  ("AlSi2HO6", 10, [-27289691; -26638199; -25986621; -25337530; -24691811; -24049816; -23411790; -22770127; -22129412; -21494395]);
  ("As2O3", 5, [-5964665; -5686430; -5415619; -5154822; -4935423; -4757097; -4559748; -4301593]);
  ("As2O5", 7, [-8097613; -7601589; -7108067; -6619016]);
  ("As2S3", 5, [-935559; -927977; -899751; -870192; -885053; -904796]);
  ("As2Se3", 5, [-1049584; -1044825; -1037122; -990311; -957184; -941187]);
  ("AsBr3", 4, [-1653340; -1657626; -1615934; -1574243; -1532485; -1490602; -1438702; -1355938]);
  ("AsCl3", 4, [-2555937; -2514809; -2473941; -2433171; -2392375; -2351462; -2300517; -2218680; -2137390; -2056582; -1976208; -1896225; -1816597; -1737293; -1658286; -1579551; -1501067; -1422813]);
  ("AsF3", 4, [-7984967; -7931079; -7876071; -7820455; -7764430; -7708072; -7641553; -7544055]);
  ("AsH3", 4, [716259; 730142; 750862; 776154; 804583; 835208; 877253; 951109]);
  ("AsI3", 4, [-612495; -606771; -533835; -394359; -315290; -279330; -233348; -156490]);
  ("AsS", 2, [-723588; -718033; -705617; -691484; -682463; -303429; -305855; -225693; -146149; -67156; 11343; 89395; 167041; 120051; 70971; 21956; -26984; -75838]);
  ("AsSe", 2, [1619439; 1446123; 1277685; 1125887; 978406; 834533; 703674; 606400; 557882; 519180; 480837; 442807; 405045; 367516; 330188; 293031; 256020; 219132]);
  ("AuO", 2, [3780862; 3675753; 3571674; 3468642; 3366632; 3265584; 3165438; 3066159; 2967745; 2870229; 2773680; 2684170; 2599310; 2515437; 2432498; 2350445; 2269234; 2188828]);
  ("AuS", 2, [1800137; 1608192; 1426501; 1250747; 1079306; 911258; 757284; 656231; 556187; 457165; 359220; 268412; 182344; 97346; 13359; -69671; -151789; -233040]);
  ("AuSe", 2, [-99262; -84684; -69587; -41841; -13566]);
  ("B(HO)2", 5, [-6034341; -5853267; -5668728; -5482223; -5294588; -5106356; -4917856; -4729295; -4540801; -4352449; -4164282; -3976320; -3788566; -3601014; -3413650; -3226455; -3039405; -2852476]);
  ("B(HO)3", 7, [-10040306; -9602407; -9194820; -8874398; -8604364; -8333205; -8061484; -7789558; -7517655; -7245921; -6974445; -6703278; -6432447; -6161958; -5891805; -5621975; -5352446; -5083192]);
  ("B2C", 3, [7433259; 7216075; 6997093; 6778184; 6560169; 6343371; 6127922; 5913877; 5701252; 5490047; 5280251; 5071854; 4864845; 4659212; 4454948; 4252046; 4050500; 3850309]);
  ("B2O", 3, [645047; 527659; 411276; 296632; 183909; 73042; -36074; -143544; -249458; -353888; -456891; -558514; -658792; -757751; -855410; -951784; -1046882; -1140708]);
  ("B2O3", 5, [-12373569; -12098317; -11823555; -11549865; -11277590; -11034499; -10803890; -10577121; -10353567; -10132744; -9914262; -9697803; -9483098; -9269922; -9058079; -8847395]);
  ("B2PbO4", 7, [-15024097; -14655500; -14289575; -13927721; -13562308; -13201881; -12846678; -12496686; -12151780; -11811775; -11476460; -11145600; -10818951; -10496278; -10177356; -9861973; -9549934; -9241055]);
  ("B2S", 3, [5594950; 5383232; 5177804; 4976087; 4777366; 4581210; 4398725; 4268710; 4139469; 4011058; 3883516; 3756878; 3631168; 3506412; 3382627; 3259833; 3138045; 3017276]);
  ("B2S3", 5, [-2565387; -2550067; -2520132; -2485418; -2449070; -2412772; -2381544; -2221990; -1812600; -1812872; -1812677; -1811960; -1810671; -1808762; -1806190; -1802916; -1798905; -1794123]);
  ("B4C", 5, [-730290; -728311; -727029; -725783; -724135; -721956; -719183; -715779; -711716; -706970; -701520; -695348; -688438; -680776; -672351; -663153; -653175; -642411]);
  ("B4PbO7", 12, [-27630540; -26968239; -26308999; -25655303; -25000205; -24352725; -23713377; -23082286; -22459380; -21844417; -21237064; -20636917; -20043540; -19456501; -18875379; -18299769; -17729285; -17163560]);
  ("B5H7", 12, [1003980; 1414169; 1804914; 2160149; 2520821; 2884575; 3249904; 3615870; 3981905; 4347687; 4713056; 5077955; 5442399; 5806450; 6170196; 6533746; 6897216; 7260728]);
  ("B5H9", 14, [1789551; 2189610; 2578340; 2980433; 3391018; 3806758; 4225485; 4645805; 5066832; 5488020; 5909048; 6329748; 6750054; 7169973; 7589556; 8008888; 8428072; 8847223]);
  ("B5W2", 7, [-2047006; -2038317; -2028597; -2018068; -2006461; -1993681; -1979656; -1964322; -1947622; -1929504; -1909916; -1888810; -1866140]);
  ("B6PbO10", 17, [-40627266; -39671619; -38719996; -37776170; -36834554; -35905321; -34989667; -34087885; -33199655; -32324210; -31460703; -30608177; -29765679; -28932315; -28107267; -27289795; -26479240; -25675015]);
  ("BBr", 2, [2023159; 1907543; 1807028; 1706861; 1607291; 1508397; 1410198; 1312695; 1215880; 1119743; 1024272; 929460; 835299; 741780; 648900; 556655; 465040; 374054]);
  ("BBr2", 3, [226190; 150549; 105775; 61499; 17844; -25175; -67564; -109334; -150495; -191056; -231020; -270392; -309173; -347366; -384970; -421985; -458412; -494250]);
  ("BBr2Cl", 4, [-2980961; -2969520; -2927817; -2886302; -2844845; -2803402; -2761940; -2720429; -2678839; -2637142; -2595307; -2553309; -2511123; -2468724; -2426092; -2383206; -2340050; -2296607]);
  ("BBr2F", 4, [-5490626; -5476971; -5432441; -5387660; -5342624; -5297370; -5251922; -5206291; -5160475; -5114466; -5068251; -5021816; -4975143; -4928218; -4881024; -4833545; -4785768; -4737678]);
  ("BBr3", 4, [-2395956; -2390868; -2340337; -2290104; -2240009; -2189984; -2139981; -2089962; -2039888; -1989726; -1939443; -1889011; -1838401; -1787588; -1736550; -1685267; -1633719; -1581890])].

Definition freed_2 : list (string * Z * list Z) := [
  ("BBrCl", 3, [-405170; -471200; -521634; -571503; -620701; -669224; -717087; -764309; -810904; -856883; -902254; -947022; -991192; -1034764; -1077742; -1120125; -1161914; -1203111]);
  ("BBrCl2", 4, [-3507382; -3480204; -3437979; -3395845; -3353704; -3311528; -3269296; -3226987; -3184578; -3142043; -3099357; -3056496; -3013437; -2970158; -2926638; -2882858; -2838802; -2794454]);
  ("BBrF", 3, [2206384; 2143917; 2097561; 2052127; 2007618; 1963964; 1921102; 1878982; 1837568; 1796833; 1756757; 1717327; 1678533; 1640367; 1602825; 1565901; 1529593; 1493897]);
  ("BBrF2", 4, [-8504311; -8472398; -8424102; -8374959; -8325136; -8274785; -8224008; -8172868; -8121403; -8069632; -8017564; -7965199; -7912534; -7859561; -7806272; -7752658; -7698710; -7644417]);
  ("BBrO", 3, [-2801673; -2835768; -2854879; -2873924; -2892720; -2911218; -2929402; -2947268; -2964812; -2982031; -2998920; -3015473; -3031680; -3047534; -3063024; -3078138; -3092866; -3107196]);
  ("BC", 2, [7974154; 7768886; 7562591; 7356515; 7151213; 6946908; 6743697; 6541614; 6340663; 6140837; 5942117; 5744485; 5547920; 5352402; 5157911; 4964429; 4771941; 4580430]);
  ("BC2", 3, [7514271; 7284724; 7052780; 6820338; 6588300; 6357086; 6126903; 5897851; 5669976; 5443292; 5217794; 4993472; 4770308; 4548285; 4327383; 4107586; 3888876; 3671241]);
  ("BCl", 2, [1251673; 1151999; 1052151; 952721; 853947; 755895; 658574; 561976; 466088; 370894; 276381; 182537; 89352; -3182; -95070; -186319; -276929; -366904]);
  ("BCl2", 3, [-2387407; -2336542; -2286165; -2235987; -2185869; -2135764; -2085641; -2035470; -1985225; -1934878; -1884403; -1833775; -1782970; -1731968; -1680747; -1629289; -1634101; -1671370]);
  ("BCl2F", 4, [-6554198; -6509759; -6464878; -6419558; -6373846; -6327812; -6281506; -6234954; -6188170; -6141154; -6093903; -6046406; -5998652; -5950629; -5902321; -5853717; -5804803; -5755566]);
  ("BCl3", 4, [-4028313; -3976275; -3924298; -3872246; -3820070; -3767774; -3715362; -3662825; -3610152; -3557324; -3504323; -3451128; -3397720; -3344077; -3290183; -3236019; -3181571; -3126823]);
  ("BClF", 3, [-3394797; -3441985; -3488342; -3533697; -3578062; -3621517; -3664135; -3705975; -3747081; -3787484; -3827208; -3866271; -3904684; -3942457; -3979597; -4016110; -4052001; -4087272]);
  ("BClF2", 4, [-9086925; -9039153; -8990139; -8940139; -8889366; -8837995; -8786149; -8733901; -8681299; -8628368; -8575121; -8521562; -8467689; -8413498; -8358981; -8304131; -8248938; -8193395]);
  ("BClO", 3, [-5349813; -5254224; -5159334; -5065098; -4971429; -4878280; -4785600; -4693341; -4601451; -4509881; -4418582; -4327507; -4236611; -4145850; -4055182; -3964568; -3873968; -3783346]);
  ("BF", 2, [-1555784; -1652544; -1749056; -1844770; -1939521; -2033309; -2126172; -2218156; -2309305; -2399655; -2489236; -2578075; -2666190; -2753599; -2840314; -2926344; -3011697; -3096378]);
  ("BF2", 3, [-7309363; -7257526; -7204651; -7150927; -7096529; -7041611; -6986279; -6930599; -6874610; -6818334; -6761779; -6704947; -6647834; -6675841; -6704661; -6732840; -6760385; -6787300]);
  ("BF3", 4, [-11600201; -11541267; -11480413; -11418095; -11354657; -11290369; -11225410; -11159901; -11093919; -11027514; -10960715; -10893539; -10825996; -10758088; -10689814; -10621172; -10552157; -10482763]);
  ("BH", 2, [4312185; 4207622; 4103132; 3999319; 3896366; 3794281; 3693023; 3592541; 3492787; 3393715; 3295288; 3197475; 3100248; 3003586; 2907471; 2811888; 2716826; 2622275]);
  ("BH2", 3, [2883720; 2825764; 2769905; 2716111; 2664161; 2613787; 2564749; 2516854; 2469942; 2423887; 2378590; 2333973; 2289973; 2246544; 2203652; 2161270; 2119383; 2077981]);
  ("BH2O", 4, [-701815; -694673; -684542; -672109; -657897; -642311; -625642; -608097; -589821; -570919; -551464; -531510; -511093; -490238; -468960; -447269; -425167; -402656]);
  ("BH2O2F", 6, [-10354603; -10173920; -9988589; -9800528; -9610816; -9420128; -9228891; -9037374; -8845750; -8654126; -8462569; -8271116; -8079783; -7888574; -7697483; -7506496; -7315595; -7124760]);
  ("BH3", 4, [477429; 569733; 667859; 769780; 874141; 980023; 1086817; 1194118; 1246348; 1286261; 1326984; 1368386; 1410369; 1452867; 1495835; 1539246; 1583089; 1627365]);
  ("BH3O", 5, [-2773446; -2693091; -2606425; -2515399; -2421334; -2325141; -2227440; -2128653; -2029073; -1928905; -1828291; -1727328; -1626084; -1524604; -1422915; -1321031; -1218961; -1116702]);
  ("BH3O2", 6, [-6210790; -6048700; -5880518; -5708567; -5534230; -5358401; -5181652; -5004361; -4826773; -4649051; -4471300; -4293587; -4115949; -3938406; -3760962; -3583614; -3406349; -3229151]);
  ("BH6N", 8, [-407099; -136677; 146312; 437595; 734338; 1034597; 1337055; 1640820; 1945292; 2250051; 2554814; 2859402; 3163705; 3467655; 3771217; 4074376; 4377129; 4679487]);
  ("BHO", 3, [-3968664; -3887766; -3804477; -3719641; -3633820; -3547408; -3460659; -3373735; -3286735; -3199717; -3112710; -3025727; -2938767; -2851819; -2764869; -2677898; -2590882; -2503800]);
  ("BHO2", 4, [-7632414; -7396932; -7161638; -6956191; -6759834; -6568697; -6381875; -6198700; -6018655; -5841331; -5666395; -5493570; -5322623; -5138571; -5063538; -5010951; -4957909; -4904414]);
  ("BHOF", 4, [-4795636; -4778632; -4759689; -4739174; -4717392; -4694603; -4670996; -4646704; -4621823; -4596417; -4570532; -4544199; -4517438; -4490261; -4462675; -4434682; -4406279; -4377463]);
  ("BHOF2", 5, [-10996776; -10886709; -10773783; -10659056; -10543150; -10426480; -10309313; -10191816; -10074096; -9956221; -9838228; -9720137; -9601956; -9483682; -9365308; -9246822; -9128210; -9009453]);
  ("BI", 2, [2641124; 2470258; 2340863; 2240301; 2140295; 2040938; 1942262; 1844273; 1746965; 1650330; 1554360; 1459045; 1364380; 1270356; 1176970; 1084218; 992098; 900608]);
  ("BI2", 3, [1932346; 1746927; 1645238; 1601098; 1557543; 1514604; 1472285; 1430580; 1389485; 1348995; 1309108; 1269821; 1231133; 1193043; 1155552; 1118659; 1082366; 1046674]);
  ("BI3", 4, [213255; 51321; 13830; 61440; 108743; 155869; 202903; 249911; 296947; 344056; 391278; 438649; 486200; 533958; 581949; 630196; 678717; 727533]);
  ("BMo", 2, [-1254683; -1244827; -1234786; -1224478; -1213799; -1202718; -1191229; -1179337; -1167048; -1154369; -1141302; -1127850; -1114009; -1099774; -1085137; -1070084; -1054602; -1038674]);
  ("BMo2", 3, [-1337410; -1326662; -1316793; -1307701; -1299169; -1291063; -1283290; -1275781; -1268482; -1261346; -1254329; -1247386; -1240471; -1233536; -1226533; -1219406; -1212102; -1204560]);
  ("BN", 2, [-2367408; -2276864; -2185325; -2093321; -2001178; -1909121; -1817281; -1725726; -1634481; -1543548; -1452910; -1362539; -1272401; -1182458; -1092668; -1002990; -913382; -823800]);
  ("BO", 2, [-35012; -133734; -232303; -330094; -426902; -522707; -617542; -711453; -804485; -896679; -988070; -1078688; -1168557; -1257694; -1346115; -1433831; -1520849; -1607173]);
  ("BO2", 3, [-3171874; -3191763; -3212218; -3232896; -3253620; -3274320; -3294948; -3315464; -3335832; -3356020; -3375997; -3395734; -3415205; -3434385; -3453252; -3471786; -3489967; -3507780]);
  ("BOF", 3, [-7873866; -7774332; -7674361; -7574220; -7474071; -7374032; -7274165; -7174491; -7075007; -6975697; -6876534; -6777490; -6678534; -6579633; -6480759; -6468675; -6477041; -6484976]);
  ("BOF2", 4, [-8537951; -8491989; -8444644; -8396368; -8347433; -8298027; -8248264; -8198207; -8147886; -8097311; -8046483; -7995393; -7944030; -7892381; -7840431; -7788167; -7735578; -7682651]);
  ("BP", 2, [-1134011; -1110198; -1083847; -1044707; -993349; -941908; -890590; -839587; -789070]);
  ("BS", 2, [413083; 313146; 220965; 132962; 47914; -34855; -104370; -121910; -139215; -156262; -173027; -189488; -205627; -221424; -236864; -251930; -266608; -280884]);
  ("BS2", 3, [676976; 486445; 311736; 145261; -15576; -172146; -302499; -329185; -355686; -381951; -407938; -433610; -458934; -483881; -508428; -532551; -556230; -579447]);
  ("BW", 2, [-741376; -758737; -776782; -795560; -814910; -834696; -854796; -875102; -895522; -915977; -936393; -956711; -976873]);
  ("BW2", 3, [-852404; -901828; -952824; -1004949; -1057868; -1111377; -1165326; -1219601; -1274108; -1328769; -1383520; -1438304; -1493071]);
  ("Ba(FeO2)2", 7, [-12196574; -11840223; -11487422; -11137288; -10790288; -10446511; -10105435; -9766307; -9417813; -9070732; -8727282]);
  ("Ba(HO)2", 5, [-8903135; -8604520; -8310904; -8020381; -7738074; -7481252; -7229090; -6981098; -6728796; -6479453; -6232991; -5989166; -4994873; -4877847; -4760042; -4641511; -4522297; -4402437]);
  ("Ba(IO3)2", 9, [-8953503; -8386825; -7748334; -7062621; -6387046]);
  ("Ba(NO3)2", 9, [-8244785; -7567709; -6896013; -6229877; -5570950; -4920479]);
  ("Ba2SiO4", 7, [-22537458; -22146628; -21756509; -21364394; -20971650; -20579325; -20187286; -19796017; -19389717; -18983864; -18579083; -18175542; -17773315; -17372473; -16969044; -16540203; -16113083; -15687731]);
  ("Ba2TiO4", 7, [-22100515; -21720102; -21342096; -20962904; -20583368; -20204171; -19824899; -19445805; -19050892; -18653819; -18254866; -17856254; -17457907; -17059740; -16661665; -16263589]);
  ("Ba3N2", 5, [-3059908; -2825740; -2590879; -2351389; -2110164; -1869627; -1630305]);
  ("BaAl2O4", 7, [-22692698; -22270045; -21846750; -21423962; -21002534; -20580431; -20157354; -19717542; -19261269; -18804540; -18347835; -17891390; -17435372; -16979932; -16525205; -16071314; -15618367; -15166463]);
  ("BaBr", 2, [-1554505; -1656444; -1739231; -1816972; -1890692; -1961242; -2028829; -2093919; -2148793; -2201337; -2251987; -2300928; -2348283; -2394161; -2438654; -2481848; -2523816; -2564625]);
  ("BaBr2", 3, [-7636877; -7502343; -7339612; -7177260; -7015699; -6855333; -6696031; -6537992; -6373284; -6230603; -6098681; -5968645; -5840483; -5714188; -5589751; -5467168; -5346431; -5227537]);
  ("BaC2", 3, [-823970; -841247; -861597; -881797; -901585; -920960; -939552; -957422; -966560; -974639; -981930; -988498; -994368]);
  ("BaCO3", 5, [-11729311; -11457221; -11186997; -10917186; -10648468; -10381459; -10116185; -9852989; -9588061; -9339620; -9096028; -8856768; -8620498; -8386965]);
  ("BaCl", 2, [-1737526; -1823625; -1906031; -1983458; -2056902; -2127196; -2194539; -2259390; -2314027; -2366337; -2416755; -2465467; -2512599; -2558260; -2602548; -2645548; -2687339; -2727990]);
  ("BaCl2", 3, [-8395535; -8229933; -8066603; -7903212; -7740103; -7577706; -7415983; -7255275; -7087821; -6921830; -6781350; -6648080; -6517051; -6388108; -6261117; -6135959; -6012528; -5890729]);
  ("BaF", 2, [-3595106; -3678818; -3758838; -3833905; -3905008; -3972976; -4037997; -4100527; -4152838; -4202813; -4250882; -4297230; -4341979; -4385237; -4427097; -4467643; -4506950; -4545085]);
  ("BaF2", 3, [-12072615; -11899614; -11728799; -11558001; -11387670; -11218287; -11049811; -10882572; -10709175; -10538372; -10372519; -10212187; -10055069; -9900898; -9757930; -9621790; -9486825; -9352967]);
  ("BaH", 2, [1825951; 1733585; 1645533; 1562654; 1483718; 1407773; 1334566; 1263614; 1202635; 1143745; 1086514; 1030761; 976367; 923220; 871225; 820288; 770325; 721257]);
  ("BaH2", 3, [-1565868; -1429279; -1289053; -1144490; -996967; -847574; -698664; -554239; -401851; -249143; -96345; 56531; 204783; 340092; 475287; 610403; 745465; 880499]);
  ("BaHO", 3, [-2417030; -2438599; -2456512; -2469732; -2479318; -2486109; -2490288; -2492296; -2484390; -2474437; -2462852; -2449808; -2435414; -2419767; -2402953; -2385048; -2366119; -2346228]);
  ("BaI", 2, [-931412; -1089116; -1201166; -1279599; -1353998; -1425218; -1493468; -1559214; -1614739; -1667929; -1719218; -1768795; -1816781; -1863284; -1908400; -1952211; -1994793; -2036210]);
  ("BaI2", 3, [-6198393; -6177473; -6075312; -5916376; -5758231; -5601305; -5445469; -5295401; -5163545; -5034634; -4908655; -4785413; -4664706; -4546360; -4430225; -4316164; -4204061; -4093809]);
  ("BaMoO4", 6, [-14909732; -14541336; -14175305; -13810080; -13446271; -13084395; -12724410; -12366599; -12003103; -11641698]);
  ("BaO", 2, [-5385935; -5288649; -5191696; -5093284; -4994007; -4894376; -4794324; -4694099; -4585797; -4477156; -4368479; -4259843; -4151277; -4042806; -3934453; -3826240; -2221831; -2248185]);
  ("BaS", 2, [-4754779; -4736752; -4710335; -4677846; -4641371; -4602225; -4549452; -4444638; -4331675; -4218318; -4104889; -3991466; -3878120; -3764874; -3651763; -3538818; -3426068; -3313538]);
  ("BaSO4", 6, [-14115138; -13727749; -13333545; -12935656; -12536087; -12135851; -11723663; -11260814; -10790946; -10321609; -9852967]);
  ("BaSiO3", 5, [-15959406; -15670061; -15380912; -15090789; -14800429; -14510376; -14220574; -13931278; -13634597; -13338282; -13042658; -12747821; -12453819; -12160702; -11864476; -11542300; -11221291; -10901480]);
  ("BaTiO3", 5, [-16292609; -15990469; -15690853; -15391374; -15092153; -14793409; -14494880; -14196671; -13890771; -13583182; -13273944; -12965257; -12657064; -12349297; -12041878; -11734724]);
  ("BaUO4", 6, [-19552073; -19172050; -18795501; -18420219; -18046113; -17673048; -17300384; -16926186; -16540926]);
  ("BaZrO3", 5, [-17559231; -17265521; -16972797; -16679413; -16385947; -16092795; -15798894; -15504041; -15200150; -14892913; -14585348; -14278219; -13971407; -13664816]);
  ("Be(BO2)2", 7, [-13681105; -13571748; -13461093; -13349408; -13236910; -13123794; -13010163; -12896059; -12781476; -12666382; -12550728; -12434453; -12317493; -12195285; -12067100; -11938289; -11808828; -11678695]);
  ("Be(HO)2", 5, [-10170847; -9863443; -9556310; -9251173; -8948922; -8650030; -6572646; -6269866; -5711407; -5591390; -5471367; -5351317; -5231211; -5106524; -4976562; -4846707; -4716968; -4587346]);
  ("Be2C", 3, [-1189320; -1180825; -1170782; -1158509; -1143887; -1126986; -1107939; -1086896; -1064003; -1039398; -1013205; -985537; -956491; -917164; -866314; -814842; -762892; -710597]);
  ("Be2SiO4", 7, [-19873217; -19473748; -19073552; -18674772; -18278364; -17884721; -17493914; -17105806; -16720149; -16336609; -15954936; -15574885; -15196235; -14809794; -14410026; -13984714]);
  ("Be3(BO3)2", 11, [-30448831; -29871135; -29291673; -28713464; -28138485; -27568010; -27002706; -26442776; -25888054; -25338074; -24792412; -24250570; -23712125; -23163200; -22601456; -22042814]);
  ("Be3Al2(SiO3)6", 29, [-88070966; -86305074; -84536238; -82772607; -81016993; -79269997; -77531291; -75784371; -74036769; -72296121; -70562030; -68834173; -67112314; -65382838; -63619551; -61701416]);
  ("Be3N2", 5, [-5519994; -5325974; -5130747; -4935943; -4742205; -4549725; -4358485; -4168368; -3979218; -3790870; -3603161; -3415941; -3229072; -3028947]);
  ("Be4Si2H2O9", 17, [-44498604; -43501938; -42502345; -41505270; -40512973; -39526229; -38545085; -37569217; -36598122; -35631207; -34667848; -33707414]);
  ("BeAl2O4", 7, [-22571200; -22144341; -21716894; -21290908; -20866883; -20444741; -20024185; -19589029; -19147225; -18706812; -18267744; -17830006; -17393513; -16953709; -16509919; -16067606; -15626931; -15188121]);
  ("BeAl6O10", 17, [-55120178; -54048977; -52976970; -51909005; -50846040; -49787653; -48732948; -47633459; -46513195; -45396419; -44283133; -43173313; -42066921; -40959418; -39850096; -38744327; -37642107; -36543427]);
  ("BeAlSiHO5", 9, [-24555763; -23988123; -23419873; -22853830; -22290897; -21731194; -21174511; -20612610; -20049290; -19488404; -18929783; -18373285; -17818798; -17261753; -16697425; -16108327]);
  ("BeBO2", 4, [-5135001; -5180331; -5223620; -5265061; -5304848; -5343155; -5380105; -5415781; -5450231; -5483485; -5515556; -5546447; -5576154; -5600171; -5617825; -5634517; -5650271; -5665109]);
  ("BeBr", 2, [800502; 685849; 587568; 490359; 394195; 299037; 204852; 111614; 19304; -72091; -162579; -252167; -340856; -424149; -501385; -577975; -653958; -729367]);
  ("BeBr2", 3, [-3495358; -3368165; -3213955; -3063003; -2915007; -2851044; -2869127; -2886811; -2904067; -2920869; -2937186; -2952991; -2968258; -2978463; -2982924; -2987032; -2990809; -2994273]);
  ("BeCO3", 5, [-9999070; -9718502; -9439606; -9163097; -8889065; -8617477; -8348289; -8081469]);
  ("BeCl", 2, [328676; 229081; 130546; 33136; -63181; -158451; -252714; -346001; -438336; -529734; -620209; -709766; -798409; -881643; -958806; -1035312; -1111198; -1186496]);
  ("BeCl2", 3, [-4651597; -4491299; -4334546; -4180845; -4087969; -4049271; -4010863; -3972624; -3949621; -3967132; -3984144; -4000634; -4016575; -4027446; -4032565; -4037324; -4041744; -4045844]);
  ("BeClF", 3, [-6015682; -6040546; -6065039; -6089072; -6112644; -6135759; -6158411; -6180591; -6202283; -6223466; -6244121; -6264225; -6283757; -6298198; -6306866; -6315158; -6323095; -6330698]);
  ("BeF", 2, [-2055356; -2153037; -2249359; -2344298; -2437946; -2530396; -2621722; -2711977; -2801202; -2889425; -2976667; -3062942; -3148258; -3228127; -3301890; -3374966; -3447396; -3519217]);
  ("BeF2", 3, [-10147689; -9983963; -9822724; -9664534; -9507800; -9352568; -9203654; -9058740; -8915982; -8775074; -8422561; -8431794; -8440416; -8443913; -8441609; -8438902; -8435817; -8432376]);
  ("BeH", 2, [3282079; 3176943; 3073081; 2970525; 2869161; 2768878; 2669585; 2571215; 2473723; 2377074; 2281249; 2186235; 2092025; 2003116; 1920171; 1837779; 1755907; 1674527]);
  ("BeH2", 3, [163684; 286315; 412408; 1115117; 1092775; 1071939; 1052230; 1033404; 1015305; 997836; 980940; 964588; 948769; 937983; 932902; 928129; 923645; 919436]);
  ("BeH2SO5", 9, [-13908064; -13320850; -12729036]);
  ("BeH4SO6", 12, [-16507623; -15721040; -14926693]);
  ("BeH8SO8", 18, [-21502104; -20301984; -19094105]);
  ("BeHO", 3, [-1288220; -1320382; -1350644; -1379440; -1407051; -1433652; -1459357; -1484240; -1508346; -1531707; -1554338; -1576250; -1597445; -1613427; -1623530; -1633165; -1642366; -1651162]);
  ("BeI", 2, [1233208; 1062249; 934003; 835300; 737587; 640847; 545056; 450198; 356257; 263223; 171088; 79849; -10496; -95449; -174348; -252604; -330254; -407331])].

Definition freed_3 : list (string * Z * list Z) := [
  ("BeI2", 3, [-1939760; -1928252; -1838174; -1695569; -1556998; -1486962; -1508250; -1529167; -1549675; -1569738; -1589323; -1608397; -1626932; -1640403; -1648124; -1655486; -1662509; -1669211]);
  ("BeN", 2, [4101593; 3994693; 3888542; 3783208; 3678682; 3574948; 3471997; 3369826; 3268436; 3167835; 3068029; 2969029; 2870844; 2777983; 2691116; 2604838; 2519117; 2433926]);
  ("BeO", 2, [-6008320; -5905854; -5803011; -5700403; -5598274; -5496712; -5395724; -5295269; -5195276; -5095668; -4996344; -4897259; -4798367; -4695137; -4586880; -4478988; -4371483; -4264384]);
  ("BeS", 2, [-2414345; -2408082; -2394622; -2378407; -2360938; -2342912; -2313296; -2233280; -2154512; -2076874; -2000256; -1924554; -1849676; -1771036; -1687894; -1605592; -1524104; -1443404]);
  ("BeSO4", 6, [-11287170; -10897677; -10501149; -10103162; -9705959; -9310948; -8908345; -8480954; -8061403; -7648007; -7240635; -6839032; -6442890; -6047378; -5651498; -5260333; -4873606; -4491050]);
  ("BeWO4", 6, [-14553507; -14176673; -13801724; -13429516; -13060299; -12694136; -12331024; -11970936; -11613841; -11259710; -10908514; -10560230; -10214838; -9867828; -9518525; -9172338; -8829302; -8489451]);
  ("Bi2O", 3, [695048; 614818; 537539; 487005; 458314; 431622; 406508; 382702; 359294; 320708]);
  ("Bi2O3", 5, [-5109655; -4833561; -4563033; -4272757; -3966547; -3663484; -3363459; -3066366; -2804194; -2563385; -2328801]);
  ("Bi2S3", 5, [-1835981; -1824069; -1792559; -1728632; -1640679; -1550188; -1424300; -1146809; -924955; -740502; 552800; 625846; 699223; 772933; 846982; 921374; 18142491; 19058084]);
  ("Bi2Se3", 5, [-1449586; -1448037; -1442672; -1372063; -1276610; -1177260; -1075001; -974753; -820163]);
  ("Bi2Te3", 5, [-810564; -808282; -804202; -773820; -721660; -608881; -549891; -563418]);
  ("Bi3As", 4, [1610792; 1415335; 1225963; 1078421; 965258; 856593; 761532; 700386; 641322; 584109; 528567; 474555; 421958]);
  ("Bi3O4", 7, [-3901630; -3748519; -3596460; -3408843; -3192246; -2975827; -2759757; -2544075; -2328766; -2113790]);
  ("BiAs", 2, [782994; 682121; 584191; 500986; 429936; 361027; 303816; 278915; 254706; 231112; 208073; 185542; 163481]);
  ("BiAs3", 4, [1226154; 1018014; 815495; 630004; 458741; 291526; 157492; 118779; 80744; 43312; 6427; -29957; -65876]);
  ("BiBr3", 4, [-2583253; -2395189; -2175517; -1993549; -1811464; -1715278; -1650827; -1586245; -1521556; -1456779; -1391926; -1327004; -1262018]);
  ("BiCl3", 4, [-3262793; -3044839; -2833869; -2664769; -2499587; -2415866]);
  ("BiF3", 4, [-8682469; -8438214; -8199165; -7953041; -7702131; -7456923; -7219060; -7009790; -6816325]);
  ("BiI3", 4, [-1541649; -1525376; -1389025; -1159726; -936619; -770243; -693274; -629536; -565663; -501672; -437573; -373372; -309072]);
  ("BiO", 2, [-213836; -228398; -242318; -243463; -234129; -224132; -213610; -202649; -191303; -179611]);
  ("BiS", 2, [631750; 542286; 462683; 400740; 352559; 307466; 276187; 297288; 286522; 229974; 174157; 119011; 64488; 10548; -42847; -95728; 3681171; 3799807]);
  ("BrCl", 2, [-10870; -32161; -38117; -44078; -50038; -55993; -61941; -67882; -73816; -79744; -85667; -91586; -97503; -103418; -109332; -115245; -121159; -127074]);
  ("BrF", 2, [-766946; -787229; -792109; -796975; -801829; -806669; -811495; -816305; -821103; -825889; -830668; -835441; -840213; -844986; -849764; -854550; -859345; -864154]);
  ("BrF3", 4, [-2376535; -2253047; -2115369; -1978921; -1843610; -1709319; -1575935; -1443358; -1311503; -1180295; -1049672; -919580; -789972; -660810; -532058; -403686; -275669; -147984]);
  ("BrF5", 6, [-3638773; -3338434; -3025774; -2716228; -2409560; -2105485; -1803735; -1504074; -1206298; -910231; -615723; -322645; -30883; 259658; 549064; 837409; 1124758; 1411167]);
  ("BrN", 2, [2920364; 2887349; 2869320; 2850891; 2832098; 2812994; 2793624; 2774031; 2754250; 2734309; 2714235; 2694048; 2673765; 2653403; 2632975; 2612491; 2591962; 2571396]);
  ("BrNO", 3, [854217; 888351; 937962; 987497; 1036882; 1086088; 1135110; 1183953; 1232626; 1281143; 1329515; 1377757; 1425882; 1473903; 1521830; 1569676; 1617452; 1665168]);
  ("C(ClF)2", 5, [-4689480; -4554200; -4419411; -4285426; -4152306; -4020020; -3888506; -3757696; -3627521; -3497916; -3368823; -3240191; -3111976; -2984138; -2856644; -2729464; -2602575; -2475957]);
  ("C2N", 3, [2647021; 2606154; 2562959; 2518406; 2473057; 2427249; 2381187; 2335001; 2288776; 2242565; 2196404; 2150316; 2104316; 2058415; 2012620; 1966937; 1921369; 1875921]);
  ("CBr", 2, [4819361; 4693869; 4581922; 4469057; 4355780; 4242393; 4129079; 4015952; 3903082; 3790511; 3678264; 3566354; 3454786; 3343561; 3232674; 3122119; 3011890; 2901978]);
  ("CBr4", 5, [496477; 696643; 895034; 1031499; 1166026; 1298974; 1430614; 1561155; 1690761; 1819560; 1947655; 2075131; 2202054]);
  ("CBrF3", 5, [-6451666; -6326893; -6186561; -6046554; -5907079; -5768204; -5629931; -5492232; -5355068; -5218396; -5082173; -4946358; -4810916; -4675814; -4541022; -4406517; -4272278; -4138288]);
  ("CBrN", 3, [1710000; 1668735; 1641419; 1613227; 1584483; 1555380; 1526032; 1496509; 1466853; 1437089; 1407233; 1377296; 1347287; 1317213; 1287081; 1256898; 1226674; 1196418]);
  ("CCl", 2, [1028012; 1007507; 985555; 962773; 939511; 915974; 892287; 868530; 844753; 820989; 797261; 773583; 749965; 726414; 702933; 679527; 656197; 632947]);
  ("CCl2", 3, [112990; 171241; 228071; 283802; 338665; 392829; 446417; 499524; 552224; 604577; 656631; 708424; 759989; 811354; 862542; 913571; 964460; 1015221]);
  ("CCl2O", 4, [-2133314; -2084267; -2035615; -1987321; -1939311; -1891521; -1843896; -1796398; -1748995; -1701662; -1654377; -1607126; -1559893; -1512665; -1465434; -1418187; -1370917; -1323616]);
  ("CCl3", 4, [-256205; -111512; 30115; 169190; 306140; 441297; 574918; 707208; 838330; 968418; 1097581; 1225915; 1353499; 1480402; 1526473; 1565530; 1604570; 1643603]);
  ("CCl3F", 5, [-2581986; -2445934; -2311341; -2178181; -2046308; -1915565; -1785808; -1656912; -1528773; -1401300; -1274416; -1148058; -1022171; -896706; -771625; -646893; -522482; -398367]);
  ("CCl4", 5, [-672160; -480079; -336692; -195350; -55693; 82567; 219651; 355736; 490959; 625433; 759250; 892485; 1025201; 1157452; 1289282; 1420730; 1551831; 1682611]);
  ("CClF3", 5, [-6914296; -6772654; -6630528; -6488559; -6347013; -6205988; -6065509; -5925563; -5786119; -5647142; -5508593; -5370436; -5232637; -5095166; -4957995; -4821103; -4684469; -4548078]);
  ("CF", 2, [62116; 46049; 29151; 11788; -5835; -23598; -41423; -59263; -77085; -94867; -112593; -130254; -147841; -165350; -182777; -200118; -217373; -234539]);
  ("CF2", 3, [-3230927; -3170414; -3110131; -3050110; -2990352; -2930847; -2871575; -2812517; -2753653; -2694965; -2636435; -2578047; -2519788; -2461644; -2409997; -2437134; -2463924; -2490378]);
  ("CF3", 4, [-6517374; -6368249; -6219410; -6071269; -5923947; -5777449; -5631731; -5486734; -5342394; -5198648; -5055437; -4912710; -4770421; -4628529; -4487001; -4345807; -4204923; -4064330]);
  ("CF4", 5, [-9206159; -9049507; -8891314; -8732567; -8573751; -8415107; -8256750; -8098732; -7941067; -7783749; -7626764; -7470092; -7313713; -7157606; -7001752; -6846135; -6690740; -6535557]);
  ("CI4", 5, [2247393; 2103826; 2123876; 2255369; 2384723; 2512380; 2638657; 2763787; 2887948; 3011279; 3133893; 3255884; 3377331]);
  ("CIF3", 5, [-5918091; -5850804; -5741736; -5604593; -5468083; -5332240; -5197043; -5062453; -4928420; -4794894; -4661828; -4529178; -4396905; -4264973; -4133354; -4002022; -3870955; -3740135]);
  ("CIN", 3, [2037973; 1940154; 1882662; 1852827; 1822457; 1791769; 1760898; 1729930; 1698919; 1667901; 1636900; 1605935; 1575016; 1544154; 1513356; 1482629; 1451980; 1421416]);
  ("CN", 2, [1541831; 1521067; 1499154; 1476560; 1453567; 1430345; 1406997; 1383587; 1360156; 1336728; 1313320; 1289945; 1266608; 1243317; 1220077; 1196891; 1173766; 1150705]);
  ("CNCl", 3, [1357435; 1332514; 1306411; 1279566; 1252249; 1224623; 1196788; 1168807; 1140720; 1112550; 1084315; 1056024; 1027685; 999303; 970883; 942427; 913939; 885423]);
  ("CNF", 3, [303093; 279275; 254745; 229847; 204782; 179665; 154563; 129514; 104542; 79658; 54870; 30182; 5595; -18889; -43270; -67545; -91713; -115772]);
  ("CO", 2, [-1423212; -1516604; -1610634; -1704561; -1798076; -1891049; -1983430; -2075207; -2166387; -2256989; -2347034; -2436546; -2525548; -2614062; -2702110; -2789710; -2876881; -2963639]);
  ("CO2", 3, [-4087437; -4090323; -4092981; -4095387; -4097531; -4099416; -4101055; -4102461; -4103652; -4104642; -4105447; -4106079; -4106549; -4106866; -4107039; -4107074; -4106976; -4106748]);
  ("COF2", 4, [-6459500; -6404370; -6347818; -6290416; -6232473; -6174162; -6115589; -6056820; -5997896; -5938843; -5879677; -5820410; -5761047; -5701594; -5642052; -5582422; -5522705; -5462900]);
  ("CS", 2, [2433589; 2256026; 2086460; 1921283; 1759277; 1599801; 1453844; 1360126; 1266890; 1174141; 1081875; 990087; 898766; 807904; 717490; 627513; 537964; 448833]);
  ("CS2", 3, [689588; 518808; 364196; 217813; 76923; -59881; -170664; -177988; -185345; -192699; -200021; -207291; -214490; -221603; -228619; -235529; -242325; -248999]);
  ("CSO", 3, [-1752391; -1845234; -1929961; -2010506; -2088207; -2163755; -2226175; -2236751; -2247232; -2257606; -2267866; -2278006; -2288022; -2297911; -2307672; -2317301; -2326797; -2336156]);
  ("CSe", 2, [3260697; 3080800; 2903653; 2741773; 2583261; 2427657; 2274667; 2124138; 2022768; 1931611; 1841199; 1751467; 1662352; 1573796; 1485745; 1398151; 1310967; 1224152]);
  ("CSe2", 3, [2138950; 1961572; 1788519; 1644392; 1505307; 1370377; 1239104; 1111289; 1080436; 1068764; 1057437; 1046417; 1035668; 1025153; 1014837; 1004689; 994680; 984780]);
  ("Ca(BO2)2", 7, [-19941705; -19570352; -19200649; -18832721; -18466408; -18100644; -17736160; -17372869; -17010448; -16642206; -16274983; -15909650; -15581997; -15279656; -14983744]);
  ("Ca(FeO2)2", 7, [-14635164; -14264613; -13899832; -13539156; -13181047; -12823237; -12465475; -12106416; -11743605; -11371593; -10998333; -10626623; -10256366; -9955267; -9664600; -9270821]);
  ("Ca(HO)2", 5, [-9306537; -9003270; -8703194; -8406337; -8112326; -7819818; -5448896; -5345187; -5240026; -5126800; -5012454; -4897987; -4783424; -4668785; -4554087; -4334180; -4130041; -3927007]);
  ("Ca(NO3)2", 9, [-7689049; -7012554; -6343111; -5682312; -5030819; -4388079]);
  ("Ca1043Mn3515Zn442(SiO3)5000", 25000, [-67343038103; -65946520226; -64552844129; -63163780795; -61780417289; -60399007186; -59025929420; -57659918820; -56295433586; -54922124810; -53519480414]);
  ("Ca12Al14O33", 59, [-191332888; -187981559; -184642760; -181323820; -178022614; -174722310; -171427080; -168021263; -164556826; -161011767; -157471992; -153947810; -150434034; -146932642; -143445454]);
  ("Ca223Mn4777(SiO3)5000", 25000, [-65279287716; -63937626213; -62607527045; -61292250649; -59991676875; -58704590337; -57429840499; -56163646562; -54897741343; -53637535515; -52382923716]);
  ("Ca2Al2Si(HO4)2", 15, [-42206419; -41275167; -40343967; -39415206; -38489269; -37564049; -36640878; -35703631; -34759906; -33804721; -32852079; -31904113; -30960993; -30022868; -29085836; -28049501]);
  ("Ca2Al2Si3(HO6)2", 21, [-60260455; -58947104; -57635384; -56329984; -55031967; -53739048; -52451958; -51153780; -49851255; -48538513]);
  ("Ca2Al2Si3HO11", 19, [-60782205; -59647530; -58522245; -57409576; -56309617; -55219390; -54139104; -53051435; -51962796; -50867047]);
  ("Ca2Al2SiO7", 12, [-39193122; -38501045; -37809952; -37121828; -36436766; -35752286; -35069306; -34371290; -33665460; -32946483; -32228093; -31512170; -30798682; -30087625; -29374980; -28427584]);
  ("Ca2Al3Si3HO13", 22, [-67295124; -65916363; -64538180; -63165393; -61799192; -60437473; -59081185; -57705735; -56322255; -54929297]);
  ("Ca2B2O5", 9, [-26909612; -26431297; -25956484; -25485723; -25018494; -24551759; -24093215; -23637231; -23182267; -22714559; -22247574; -21782973; -21320526; -20869959; -20479135; -19882609; -19321960]);
  ("Ca2Fe2O5", 9, [-20768927; -20294789; -19829461; -19371502; -18918833; -18467583; -18017738; -17567465; -17113663; -16643948; -16172934; -15704165; -15237342; -14772201; -14308138; -13678909; -13115034]);
  ("Ca2H2S2O9", 15, [-29769483; -28792477; -27811741]);
  ("Ca2Mg5Si8(HO12)2", 41, [-119927140; -117393895; -114865201; -112349918; -109849086; -107359698; -104882594; -102378941]);
  ("Ca2MgSi2O7", 12, [-38007929; -37326587; -36649047; -35974507; -35302503; -34630622; -33960130; -33282917; -32603979; -31912239; -31221496; -30498173; -29718121; -28942166; -28162175; -27307310]);
  ("Ca2P2O7", 11, [-32447535; -31724011; -31001299; -30260515; -29501538; -28746063; -27995249; -27248737; -26505798; -25753080; -25004331; -24261466; -23529030; -22803699; -22133082; -21412051; -20598793; -19795925]);
  ("Ca2SiO4", 7, [-22806846; -22401354; -21997299; -21595229; -21195111; -20794814; -20395758; -19997750; -19600175; -19200198; -18803789; -18410192; -18019516; -17631869; -17243318; -16760731; -16179536; -15601719]);
  ("Ca2V2O7", 11, [-29970719; -29311507; -28658231; -28011026; -27369131; -26729805; -26094033; -25461356]);
  ("Ca3(BO3)2", 11, [-20771865; -20184730; -19602498; -19024909; -18450911; -17876667; -17303880; -16731974; -16159829; -15567371; -14975245; -14386302; -13800504; -13217818; -12638216; -11781497; -11031451]);
  ("Ca3(PO4)2", 13, [-40249527; -39424677; -38599596; -37756116; -36895080; -36038064; -35187753; -34344379; -33507499; -32657629; -31815866; -30988579; -30176719; -29368966; -28564994; -27648067; -26580942; -25518185]);
  ("Ca3Al2(SiO4)3", 20, [-65010703; -63752018; -62495672; -61245557; -60002043; -58761381; -57524798; -56275198; -55019017; -53743810; -52469781; -51199363; -49932139; -48667736; -47393721; -45725681]);
  ("Ca3Al2O6", 11, [-35347984; -34736562; -34128848; -33525021; -32924076; -32321957; -31720067; -31101690; -30473714; -29824150; -29173626; -28524957; -27878054; -27232822; -26589160; -25631483]);
  ("Ca3Fe2(SiO4)3", 20, [-56237643; -55046746; -53861926; -52685289; -51516239; -50350438; -49188718; -48029043]);
  ("Ca3Mg(SiO4)2", 14, [-44970946; -44181561; -43395985; -42615233; -41838850; -41063109; -40289566; -39509558; -38727362; -37925027; -37123157; -36289112; -35398825; -34513302; -33624666]);
  ("Ca3N2", 5, [-3808363; -3590555; -3376583; -3166535; -2960071; -2753904; -2550165]);
  ("Ca3Si2O7", 12, [-39097041; -38403677; -37713642; -37027866; -36345949; -35664224; -34984339; -34305546; -33626500; -32926876; -32227068; -31529676]);
  ("Ca3Si3(HO5)2", 18, [-50593562; -49498511; -48405585; -47316790; -46231923; -45147422; -44065082; -42984351; -41904114; -40804311; -39705551; -38610709; -37519757; -36432681; -35337365; -34048709]);
  ("Ca3SiO5", 9, [-28883913; -28379888; -27880074; -27384935; -26893996; -26403665; -25915717; -25429553; -24943977; -24438806; -23934567; -23433985; -22936898; -22443150; -21948563; -21114636]);
  ("Ca3V2O8", 13, [-36890217; -36138682; -35394556; -34657840; -33927476; -33199445; -32475273; -31754252]);
  ("Ca4Al6Si6CO27", 44, [-136072608; -133469501; -130873459; -128291153; -125722662; -123162642; -120612667; -118023743; -115418603; -112795040]);
  ("Ca5P3HO13", 22, [-65676845; -64283660; -62895203; -61483051; -60046198; -58614391; -57190278; -55772740; -54359794; -52917931; -51481448; -50055096; -48638800]);
  ("Ca5P3O12F", 21, [-67262116; -65935612; -64613765; -63267251; -61895888; -60528739; -59168238; -57813051; -56460990; -55078318; -53699211; -52328217; -50965099; -49609654]);
  ("Ca5Si2C2O13", 22, [-62325055; -61089286; -59863741; -58648969; -57443701; -56241533; -55045105; -53853176; -52663572; -51442548]);
  ("Ca5Si2CO11", 19, [-57270714; -56187552; -55113142; -54047750; -52990029; -51933578; -50881071; -49831316; -48782194; -47700017; -46618881]);
  ("CaAl2(SiO4)2", 13, [-41529163; -40743141; -39958188; -39176717; -38399084; -37624034; -36851919; -36066449; -35275295; -34479927; -33687299; -32898470; -32113544; -31332650; -30547866; -29674778]);
  ("CaAl2O4", 7, [-22884950; -22475416; -22066079; -21657914; -21250842; -20843555; -20436481; -20013436; -19582188; -19144258; -18706630; -18270329; -17835399; -17401864; -16969739; -16433869]);
  ("CaAl2Si2(H2O5)2", 19, [-46756501; -45516378; -44275631; -43040163]);
  ("CaAl2SiO6", 10, [-32356187; -31742846; -31130803; -30521997; -29916596; -29313256; -28712261; -28097243; -27475778; -26849206; -26224342; -25602064; -24982281; -24364903; -23745809; -22996874]);
  ("CaAl4O7", 12, [-39078929; -38356430; -37633953; -36913911; -36196479; -35480178; -34765110; -34018875; -33257151; -32489429; -31722559; -30957402; -30193821; -29431647; -28670685; -27805564]);
  ("CaAl4Si2(HO6)2", 21, [-60658557; -59317360; -57975916; -56639782; -55310513; -53987134; -52669823; -51326051; -49971281; -48614758])].

Definition freed_4 : list (string * Z * list Z) := [
  ("CaB4O7", 12, [-32826208; -32153474; -31482023; -30813623; -30148652; -29486156; -28826790; -28170362; -27516489; -26858502; -26241486; -25692795; -25157334; -24633994; -24121808; -23514763]);
  ("CaBr", 2, [-931696; -1037625; -1126198; -1212876; -1297674; -1379615; -1459505; -1537345; -1612915; -1679648; -1744530; -1808598; -1871913; -1934527; -1996487; -1952673; -1924091; -1896106]);
  ("CaBr2", 3, [-6877733; -6747673; -6590788; -6437025; -6285743; -6135487; -5986731; -5839237; -5718764; -5599183; -5482601; -5369674; -5260136; -5153757; -5050336; -4844535; -4657167; -4473423]);
  ("CaC2", 3, [-672620; -693352; -718794; -747207; -777388; -813699; -851336; -888316; -924172; -952162; -979149]);
  ("CaCO3", 5, [-11697023; -11425745; -11157874; -10893167; -10631096; -10370236; -10111056; -9853302; -9596569; -9334149]);
  ("CaCl", 2, [-1289480; -1379977; -1468540; -1555248; -1640097; -1722097; -1802049; -1879949; -1955576; -2022361; -2087290; -2151400; -2214750; -2277394; -2339378; -2295584; -2267016; -2239039]);
  ("CaCl2", 3, [-7750524; -7587001; -7427140; -7270016; -7114965; -6960581; -6807418; -6655346; -6519714; -6392284; -6267128; -6144835; -6025085; -5907597; -5792131; -5573311; -5023658; -4941982]);
  ("CaF", 2, [-3087957; -3176538; -3263118; -3347820; -3430653; -3510629; -3588550; -3664409; -3737987; -3802713; -3865573; -3927603; -3988862; -4049402; -4109268; -4063341; -4032623; -4002479]);
  ("CaF2", 3, [-12194995; -12015083; -11838709; -11665506; -11494946; -11325564; -11157805; -10991452; -10826211; -10655576; -10486671; -10321583; -10161951; -10006234; -9856109; -9619926; -8326841; -8240839]);
  ("CaFe(SiO3)2", 10, [-27821654; -27252562; -26686088; -26123654; -25565045; -25008434; -24453632; -23899468; -23344181; -22781461]);
  ("CaFe3Si2HO9", 16, [-35609308; -34725058; -33850283; -32985124; -32128361; -31277580; -30432243]);
  ("CaH", 2, [2082710; 1985986; 1891808; 1799720; 1709502; 1622018; 1536402; 1452628; 1370905; 1297801; 1226336; 1155485; 1085195; 1015425; 946139; 982465; 1003406; 1023604]);
  ("CaH2", 3, [-1427741; -1290215; -1149869; -1007723; -864400; -719346; -573676; -427620; -284206; -137294; 4976; 133161; 260319; 386547; 511931; 741704; 954964; 1166437]);
  ("CaH4SO6", 12, [-18616700; -17832015; -17041383]);
  ("CaHO", 3, [-2090209; -2115693; -2139113; -2160857; -2181013; -2198617; -2214472; -2228568; -2240674; -2244211; -2246153; -2247525; -2248377; -2248751; -2248683; -2143043; -2052827; -1963388]);
  ("CaI", 2, [-554732; -716497; -834397; -921812; -1007315; -1089929; -1170461; -1248913; -1325064; -1392349; -1457752; -1522311; -1586087; -1649132; -1711493; -1668050; -1639810; -1612136]);
  ("CaI2", 3, [-5524935; -5505572; -5406671; -5253980; -5104049; -4955502; -4808851; -4663869; -4540049; -4433058; -4328215; -4226240; -4126925; -4030087; -3935566; -3738064; -3558425; -3381870]);
  ("CaMg(CO3)2", 10, [-22395123; -21830839; -21270724; -20715510; -20165036; -19617979; -19074819; -18527466; -17981190]);
  ("CaMg(SiO3)2", 10, [-31413766; -30806610; -30200625; -29598449; -29000668; -28406270; -27815807; -27221092; -26627169; -26029294; -25434057; -24806570; -24122359; -23441934; -22785176; -22028642; -21296128]);
  ("CaMgSiO4", 7, [-22231553; -21823671; -21417646; -21014181; -20613120; -20213181; -19814881; -19410125; -19004131; -18592388; -18181737; -17737590; -17235785; -16737166; -16237671]);
  ("CaMoO4", 6, [-14863062; -14493979; -14129114; -13768767; -13412715; -13059639; -12709976; -12363350; -12019167; -11670487; -11323922]);
  ("CaO", 2, [-6252563; -6143253; -6035304; -5928534; -5822599; -5716212; -5609931; -5503548; -5396679; -5282623; -5168240; -5054473; -4941299; -4828700; -4716657; -4566339; -4365400; -4165424]);
  ("CaS", 2, [-4851505; -4832780; -4807020; -4777928; -4746608; -4712557; -4665429; -4566344; -4466696; -4359790; -4252487; -4145732; -4039504; -3933782; -3828550; -3684978; -3490724; -3297373]);
  ("CaSO3", 5, [-11141810; -10851084; -10555038; -10258200; -9962142; -9666704; -9361813; -9008826]);
  ("CaSO4", 6, [-13696240; -13304500; -12906380; -12506771; -12107536; -11708799; -11300758; -10845010; -10393357; -9939455; -9490463; -9047574]);
  ("CaSiBHO5", 9, [-24020250; -23465021; -22909391; -22355690; -21804896; -21256372; -20710875; -20168101]);
  ("CaSiO3", 5, [-16051128; -15754243; -15458607; -15164805; -14872826; -14581507; -14291427; -14002353; -13713842; -13419121; -13124989; -12832311; -12541979; -12252643; -11960132; -11536367]);
  ("CaTiO3", 5, [-16321554; -16026345; -15734803; -15446828; -15161739; -14877885; -14595515; -14314176; -14033293; -13744371; -13453987; -13165197; -12877909; -12593027; -12309675; -11922057]);
  ("CaTiSiO5", 8, [-25506008; -25014673; -24526058; -24040761; -23558441; -23077650; -22598763; -22121418; -21645097; -21161345; -20676762; -20194414; -19714209; -19236057; -18779033; -18248526]);
  ("CaUO4", 6, [-19633737; -19266153; -18903312; -18544000; -18187299; -17831538; -17476970; -17121460; -16764022; -16399657]);
  ("CaV2O6", 9, [-22475802; -21922345; -21373363; -20829198; -20289429; -19752600; -19219137; -18688781]);
  ("CaWO4", 6, [-15937964; -15568672; -15203378; -14842051; -14484244; -14128557; -13775465; -13424719; -13075916; -12722359; -12370943]);
  ("CaZrO3", 5, [-17515864; -17218768; -16925266; -16635176; -16347859; -16061717; -15777038; -15493394; -15210215; -14918430; -14626174; -14335593; -14046544]);
  ("Cd100H534S100O667", 1401, [-1517035588; -1425110122; -1333327064]);
  ("Cd3As2", 5, [-372407; -351692; -330383]);
  ("Cd3SO6", 10, [-13261759; -12686620; -12111940; -11541556; -10947854; -10361448; -9770706; -9136360; -8331628]);
  ("CdBr2", 3, [-3069414; -2936786; -2777623; -2621503; -2458570; -2298928; -2166854; -2055598]);
  ("CdCO3", 5, [-7018998; -6737481; -6458930; -6183742; -5903154]);
  ("CdCl2", 3, [-3561664; -3398778; -3239885; -3083690; -2920215; -2759473; -2624998; -2511431]);
  ("CdH2SO5", 9, [-11068927; -10472553; -9869958]);
  ("CdI2", 3, [-2086188; -2072976; -1980908; -1835193; -1695676; -1580790; -1470397; -1363989]);
  ("CdO", 2, [-2366154; -2263792; -2162849; -2062443; -1952759; -1843889; -1735797; -1628456; -1462433; -1258178; -1055388; -853991; -653926; 771474; 811881; 852413; 893070; 933852]);
  ("CdS", 2, [-1511798; -1498524; -1478056; -1453585; -1416778; -1378517; -1327864; -1226115; -1065619; 572800; 611190; 649732; 688420; 727250; 766216; 805314; 844541; 883892]);
  ("CdSO4", 6, [-8521333; -8135217; -7742485; -7347843; -6943895; -6542170]);
  ("CdSb", 2, [-155807; -158072; -160529; -162856; -155845; -182026; -221786]);
  ("CdSe", 2, [-1496364; -1494710; -1491558; -1473878; -1444009; -1412655; -1380156; -1346674; -1206088; -1017790; -830927; -645473; -461406]);
  ("CdSiO3", 5, [-11451337; -11160599; -10871078; -10582642; -10285884; -9991175; -9698689; -9408568]);
  ("CdTe", 2, [-1026103; -1019486; -1012398; -1004295; -985671; -947386; -903304; -859491]);
  ("Ce2C3", 5, [-1868765; -1885613; -1908253; -1934438; -1962578; -1991588; -2020718; -2049380; -2068099; -2078542; -2088255; -2097295; -2105725]);
  ("Ce2O3", 5, [-17672937; -17362205; -17058299; -16760170; -16466759; -16177220; -15890901; -15607242]);
  ("Ce2S3", 5, [-12129599; -12065756; -11982673; -11891059; -11794136; -11693348; -11555269; -11263265; -10963140; -10656502; -10350826; -10046090; -9742278; -9439376; -9137373; -8836260; -8536029; -8236675]);
  ("CeB6", 7, [-3539035; -3506174; -3475048; -3443451; -3410227; -3374979; -3337556; -3297879; -3251393; -3199084; -3144847; -3088812; -3031088; -2971770; -2910940; -2848668; -2785012; -2720022]);
  ("CeBr3", 4, [-8860115; -8668046; -8435385; -8207244; -7982985; -7762150; -7544392; -7329410; -7164879; -7004774; -6849709; -5997803; -5939291; -5880287; -5820812; -5760877; -5700491; -5639657]);
  ("CeC2", 3, [-1026276; -1035701; -1048905; -1064320; -1080930; -1098076; -1115322; -1132344; -1144393; -1152299; -1159839; -1167048; -1173966]);
  ("CeCl3", 4, [-10123754; -9861140; -9604206; -9352714; -9105964; -8863345; -8624416; -8388866; -8162271; -7977901; -7799201; -6917706; -6866327; -6814457; -6762115; -6709312; -6656056; -6602349]);
  ("CeF3", 4, [-16694338; -16427515; -16165830; -15908125; -15653636; -15401879; -15152564; -14905503; -14656084; -14405284; -14157035; -13911541; -13669019; -13429697; -13193815; -12991384; -12794570; -12599872]);
  ("CeI3", 4, [-6675422; -6645359; -6494977; -6263286; -6035403; -5810931; -5589571; -5371056; -5186224; -5020103; -4858993; -4244376; -4192171; -4139454; -4086246; -4032558; -3978398; -3923771]);
  ("CeN", 2, [-2998821; -2870991; -2743600; -2616717; -2490212; -2363930; -2237732; -2111463; -1980476; -1845658; -1710813; -1575989; -1441226; -1306558; -1172018; -1037634; -903431; -769433]);
  ("CeO", 2, [-1617959; -1693127; -1765657; -1835893; -1903997; -1970057; -2034130; -2096221; -2151812; -2201894; -2250360; -2297331; -2342908; -2387181; -2430225; -2472108; -2512888; -2552618]);
  ("CeO2", 3, [-10615791; -10394344; -10175097; -9957889; -9742408; -9528330; -9315363; -9103224; -8887155; -8667951; -8449345; -8231328; -8013899; -7797064; -7580838; -7365243; -7150305; -6936061]);
  ("CeS", 2, [-4680832; -4653075; -4618650; -4581476; -4542898; -4503603; -4452610; -4351159; -4246441; -4139402; -4033900; -3930024; -3827855; -3727461; -3628902; -3532233; -3437502; -3344752]);
  ("Cl2O", 3, [1011761; 1071500; 1130998; 1190135; 1248917; 1307377; 1365557; 1423496; 1481227; 1538782; 1596184; 1653458; 1710621; 1767691; 1824682; 1881607; 1938475; 1995296]);
  ("ClF", 2, [-536787; -541889; -546877; -551799; -556679; -561531; -566362; -571174; -575969; -580748; -585512; -590259; -594992; -599709; -604412; -609102; -613780; -618448]);
  ("ClF3", 4, [-1229852; -1091163; -953304; -816468; -680637; -545736; -411677; -278379; -145768; -13776; 117652; 248567; 379013; 509026; 638640; 767882; 896779; 1025350]);
  ("ClF5", 6, [-1515441; -1197476; -881936; -569157; -259034; 48643; 354097; 657536; 959145; 1259088; 1557505; 1854519; 2150239; 2444759; 2738160; 3030514; 3321884; 3612325]);
  ("ClO", 2, [1016472; 1003441; 990262; 976915; 963418; 949796; 936068; 922252; 908361; 894406; 880399; 866347; 852259; 838142; 824001; 809844; 795677; 781504]);
  ("Co100S89", 189, [-215532575; -214090890; -212047950; -209774405; -207397921; -204919305; -201431688; -193479402]);
  ("Co2B", 3, [-470898; -464404; -457852; -451069; -443864; -434847; -425315; -415015; -403705; -391130; -376925; -360519; -342405]);
  ("Co2SiO4", 7, [-13554025; -13196555; -12843104; -12493901; -12148532; -11805158; -11464590; -11126114]);
  ("Co3N", 4, [357659; 447427; 536130; 623730]);
  ("Co3O4", 7, [-8307422; -7901497; -7496153; -7092455; -6690375; -6287985; -5887766; -5490383]);
  ("Co3S4", 7, [-3588796; -3540874; -3466375; -3381388; -3291347; -3197017; -3056405]);
  ("Co3Se4", 7, [-899420; -895662; -889618; -832965; -772761; -708438; -644233; -583928]);
  ("Co3Te4", 7, [-2004013; -2017391; -2030478; -2042362; -2052397; -1980528; -1883871; -1786545]);
  ("CoB", 2, [-680927; -676919; -673443; -670188; -666921; -662903; -658787; -654480; -649915; -645035; -639739; -633830; -627651; -621907; -616899; -628605]);
  ("CoCl", 2, [1675573; 1568892; 1464316; 1361731; 1261067; 1162909; 1066526; 971981; 879340; 788687; 700168; 614034; 530012; 447472; 366198; 289017; 219559; 151701]);
  ("CoCl2", 3, [-2792378; -2646624; -2506026; -2369429; -2236036; -2104633; -1975477; -1850877; -1771459; -1694217; -1618648; -1582320; -1617311; -1651380; -1684706; -1714427; -1736883; -1758162]);
  ("CoCl3", 4, [-1601031; -1569719; -1538796; -1508020; -1477106; -1445186; -1412770; -1379624; -1345546; -1310346; -1273791; -1235558; -1195861; -1155282; -1113994; -1069134; -1017044; -963818]);
  ("CoF2", 3, [-6499860; -6345900; -6196052; -6049655; -5906091; -5764224; -5624350; -5486059; -5348999; -5212855; -5077286; -4941873; -4849579; -4299765; -4323845; -4343997; -4356587; -4367730]);
  ("CoF3", 4, [-7446768; -7201936; -6962653; -6727538; -6495574; -6265414; -6037249; -5810632; -5585206; -5360675; -5136729; -4912988]);
  ("CoH", 2, [4276469; 4149815; 4026185; 3905169; 3786467; 3670506; 3556446; 3444275]);
  ("CoH12SO10", 24, [-23137182; -21580426; -20033788]);
  ("CoH14SO11", 27, [-25600831; -23841776; -22093485]);
  ("CoH2SO5", 9, [-10790389; -10241113; -9691436]);
  ("CoO", 2, [-2218631; -2138409; -2061248; -1986101; -1912380; -1839041; -1766469; -1694340; -1622385; -1550372; -1478049; -1405090; -1331730; -1258583; -1185874; -1110801; 1318757; 1254064]);
  ("CoS2", 3, [-1526949; -1504762; -1468967; -1427555; -1383210; -1336634; -1266508; -1095234]);
  ("CoSO4", 6, [-8103121; -7734776; -7361811; -6988775; -6616930; -6246112; -5865815; -5437862; -5014376; -4593608; -4175261; -3758955]);
  ("CoSi", 2, [-1022789; -1016825; -1010980; -1005124; -999079; -992070; -984699; -976820; -968317; -959088; -948990; -937788; -925791; -913670; -897659; -878046; -868752; -860002]);
  ("CoSi2", 3, [-989349; -959947; -924345; -883416; -837800; -787346; -733125; -675351; -614186; -549740; -482034; -410963; -336933; -260689; -218101; -117703]);
  ("CoWO4", 6, [-10629715; -10272742; -9921416; -9575491; -9234307; -8896598; -8562524; -8231875; -7905989]);
  ("Cr(AgO2)2", 7, [-6647307; -6337058; -6030354; -5726814]);
  ("Cr(CO)6", 13, [-8815653; -8622923; -8440201; -8263937]);
  ("Cr11Ge19", 30, [-2575575; -2688608; -2812993; -2945083; -3084431; -3230672; -3383061; -3540513; -3701704; -3865158]);
  ("Cr2(SO4)3", 17, [-27105220; -25947265; -24774484; -23602520; -22437165; -21280868; -20100150]);
  ("Cr23C6", 29, [-4205677; -4247694; -4301730; -4363168; -4430867; -4503571; -4579660; -4657364; -4734960; -4810892; -4883770; -4952345; -5015514; -5072313; -5121912; -5163607; -5196811; -5221048]);
  ("Cr2CuO4", 7, [-12615902; -12264763; -11916419; -11571377; -11229811; -10891751; -10557009; -10227878; -9900019]);
  ("Cr2FeO4", 7, [-13920773; -13571216; -13224853; -12881492; -12540729; -12202038; -11864856; -11528389; -11191349; -10854104; -10516933; -10180511; -9844556; -9508805; -9172828; -8836078; -8491358; -8144914]);
  ("Cr2H16S3O20", 41, [-48208001; -45444835; -42675014]);
  ("Cr2H28S3O26", 59, [-63226000; -59260533; -55302773]);
  ("Cr2H30(SO9)3", 62, [-65658159; -61490030; -57332177])].

Definition freed_5 : list (string * Z * list Z) := [
  ("Cr2H32S3O28", 65, [-68064311; -63698537; -59346703]);
  ("Cr2H34S3O29", 68, [-70596196; -66070891; -61561013]);
  ("Cr2N", 3, [-1057861; -978033; -900181; -823886; -749024; -675491; -603172; -531940; -461665; -392220; -323486; -255351; -187716; -120489; -53588; 13057; 79509; 145824]);
  ("Cr2O3", 5, [-10970164; -10690450; -10414978; -10142932; -9873659; -9606617; -9341382; -9077601; -8814955; -8553131; -8291815; -8030717; -7769549; -7508054; -7246005; -6983211; -6719517; -6454798]);
  ("Cr2S3", 5, [-3551325; -3553583; -3533565; -3502682; -3465176; -3423332; -3344354; -3112137; -2881928; -2653657; -2427252; -2202643; -1979766]);
  ("Cr3C2", 5, [-985122; -990704; -999967; -1011738; -1025468; -1040755; -1057248; -1074628; -1092606; -1110922; -1129345; -1147673; -1165726; -1183353; -1200419; -1216815; -1232445; -1247232]);
  ("Cr3Si", 4, [-1291184; -1288319; -1285796; -1283573; -1282040; -1281481; -1282038; -1283758]);
  ("Cr5Si3", 8, [-2667957; -2677454; -2689463; -2703025; -2717975; -2734102; -2751076; -2768489; -2785932; -2803066; -2819674; -2835679; -2851188; -2866503; -2869998; -2793679; -2719596; -2760350]);
  ("Cr7C3", 10, [-1934068; -1957050; -1985686; -2017779; -2052583; -2089523; -2128011; -2167448; -2207255; -2246893; -2285879; -2323786; -2360248; -2394957; -2427660; -2458157; -2486298; -2511977]);
  ("CrB", 2, [-763521; -758234; -753416; -748717; -744059; -739448; -734879; -730336; -725789; -721203]);
  ("CrB2", 3, [-1207015; -1198478; -1190631; -1182460; -1173840; -1164946; -1155986; -1147148; -1138592; -1130449]);
  ("CrBr3", 4, [-4196896; -4005678; -3773465; -3545199; -3320258; -3098192; -2878635; -2661275; -2445846]);
  ("CrBr4", 5, [-2957384; -2919207; -2821048; -2723765; -2627108; -2530886; -2434930; -2339081; -2243191; -2147126; -2050763]);
  ("CrCl2", 3, [-3689696; -3556010; -3426092; -3299166; -3174836; -3052810; -2932837; -2814693; -2701847; -2618217; -2536945]);
  ("CrCl3", 4, [-5036260; -4795607; -4560058; -4328765; -4101221; -3877020; -3655811; -3437280; -3221147; -3007161]);
  ("CrCl4", 5, [-4095800; -3987612; -3880729; -3774665; -3669179; -3564088; -3459227; -3354443; -3249599; -3144565; -3039229]);
  ("CrF2", 3, [-7632116; -7489425; -7349718; -7212390; -7077140; -6943760; -6812087; -6681982; -6553328; -6426022]);
  ("CrF3", 4, [-11432401; -11191846; -10954554; -10720178; -10488401; -10258909; -10031407; -9805640; -9581392; -9358486]);
  ("CrGe", 2, [-126017; -133312; -141610; -150679; -160486; -170995; -182135; -193812; -205917; -218332; -202646]);
  ("CrN", 2, [-960225; -877280; -796544; -717439; -639576; -562699; -486602; -411106; -336053; -261305; -186739; -112247; -37736; 36878; 111666; 186689; 262000; 337645]);
  ("CrO", 2, [1600072; 1483983; 1369822; 1257452; 1146672; 1037348; 929412; 822837; 717622; 613781; 511336; 410313; 310738; 212634; 116024; 20926; -72644; -164673]);
  ("CrO2", 3, [-906334; -946909; -985278; -1021838; -1056897; -1090630; -1123121; -1154396; -1184448; -1213253; -1240777; -1266983; -1291833; -1315292; -1337328; -1357911; -1377018; -1394627]);
  ("CrO3", 4, [-2832958; -2764020; -2693295; -2621510; -2549028; -2476000; -2402458; -2328372; -2253681; -2178310; -2102178; -2025209; -1947327; -1868465; -1788561; -1707561; -1625415; -1542084]);
  ("CrS", 2, [-1426545; -1434095; -1435379; -1434481; -1432157; -1428843; -1413383; -1346896; -1280978; -1215471; -1150231; -1085132; -1020062; -954922; -889632; -824122]);
  ("CrSb2", 3, [-193616; -195322; -199169; -204366; -210454; -217091; -224002; -188254]);
  ("CrSi", 2, [-606349; -609525; -613460; -617899; -622752; -627936; -633357; -638916; -644516; -650065; -655477; -660676; -665595; -670176; -670332]);
  ("CrSi2", 3, [-992842; -987104; -981343; -975451; -969519; -963632; -957851; -952214; -946754; -941498; -936474; -931714; -927254; -923138; -911340; -899485; -910054]);
  ("Cs2CO3", 6, [-10894132; -10592159; -10294041; -10000463; -9711544; -9427356; -9147969; -8802881]);
  ("Cs2CrO4", 7, [-13653152; -13250406; -12850198; -12453802; -12061860; -11674879; -11293810; -10850150; -10343191; -9844177; -9370800; -8913159; -8459810]);
  ("Cs2MoO4", 7, [-14575891; -14188736; -13804994; -13426271; -13053322; -12686668; -12329501; -11908561; -11417066; -10932377]);
  ("Cs2O", 3, [-3193652; -3048488; -2903381; -2759265; -2616525; -1190715; -1199820; -1135894; -994820; -853631; -712321; -570887; -429323; -287626; -145792; -3819; 138296; 280556]);
  ("Cs2O2", 4, [880002; 757161; 639576; 525914; 415555; 308086; 203203; 171247; 216361; 261526; 306756; 352064; 397458; 442944; 488528; 534212; 580000; 625895]);
  ("Cs2SO4", 7, [-13713401; -13282187; -12844790; -12407419; -11972918; -11543384; -11109256; -10562684; -9949164; -9343052; -8751242; -8188422; -7631020; -7078620; -6530863; -5987434; -5448053; -4912472]);
  ("Cs2UO4", 7, [-18385709; -17946291; -17508901; -17073696; -16640185; -16207832; -15776136; -15272383; -14690646]);
  ("Cs3CrO4", 8, [-14770952; -14343260; -13919531; -13502442; -13093792; -12695453; -12305108; -11813664]);
  ("CsAl(SiO3)2", 10, [-30375281; -29787418; -29199069; -28612795]);
  ("CsBr", 2, [-4055751; -3966070; -3861822; -3758670; -3656836; -3556587; -3458234; -3351605; -3212844; -3077684; -2945822; -2816998]);
  ("CsCl", 2, [-4294770; -4189298; -4085042; -3982121; -3880478; -3783892; -3692124; -3586085; -3449264; -3315712; -3185151; -3057346; -2784997; -2750621; -2716162; -2681627; -2647019; -2612343]);
  ("CsF", 2, [-5446181; -5342792; -5241226; -5142630; -5047894; -4957732; -4872723; -4763824; -4639640; -4518809; -4401039; -4286087; -3977476; -3940522; -3903463; -3866303; -3829047; -3791699]);
  ("CsHO", 3, [-3839337; -3673774; -3515496; -3374456; -3244106; -3116646; -2991652; -2833506; -2639776; -2448676; -2299199; -2209352; -2119643; -2030064; -1940608; -1851268; -1762036; -1672902]);
  ("CsI", 2, [-3529335; -3497182; -3423991; -3323288; -3223807; -3125792; -3029537; -2929587; -2794273; -2661819; -2531983; -2404559]);
  ("CsNO3", 5, [-4201601; -3849754; -3512287; -3187765; -2878605]);
  ("CsPO3", 5, [-11912994; -11586715; -11261222; -10926906; -10584471; -10246034]);
  ("CsU2O6", 9, [-27213470; -26652725; -26098957; -25551463; -25008983; -24470304; -23934369]);
  ("Cu(HO)2", 5, [-3716272; -3425331; -3136542; -2849841; -2565116]);
  ("Cu2O", 3, [-1531625; -1452392; -1373594; -1295588; -1218439; -1142091; -1066455; -991452; -917035; -843189; -769936; -688890; -597269; -543347; -497825; -453276]);
  ("Cu2S", 3, [-840187; -870598; -915169; -956142; -994122; -1031483; -1055812; -1028770; -1001728; -974686; -947644; -916301; -879164; -842027]);
  ("Cu2SO4", 7, [-6774523; -6436184; -6093630; -5752154; -5413881; -5079952; -4750935]);
  ("Cu2SO5", 8, [-8126462; -7667315; -7203701; -6741009; -6280824; -5823637; -5358171; -4845436; -4337003; -3832786; -3332817]);
  ("Cu2Se", 3, [-741693; -765672; -808108; -838380; -867856; -896621; -924658; -951835]);
  ("Cu2Te", 3, [-408560; -413885; -421836; -434498; -459178; -468745]);
  ("Cu6PS5Br", 13, [-5002569; -4983560; -4915467]);
  ("Cu6PS5Cl", 13, [-5253808; -5237435; -5189435]);
  ("Cu6PS5I", 13, [-4676850; -4707699; -4662329]);
  ("CuBr", 2, [-1053593; -1009027; -952878; -900014; -856652; -826810; -804412; -783528; -763734; -744717; -726237; -703891; -676106; -283539; -353384; -422411; -490668; -558197]);
  ("CuBr2", 3, [-1259702; -1137785; -989173; -843722]);
  ("CuCN", 3, [1123155; 1166996]);
  ("CuCl", 2, [-1436265; -1379118; -1325269; -1274241; -1229036; -1204343; -1181360; -1159622; -1138820; -1118732; -1099178; -1075782; -1046965; -1018467; -990292; -750494; -733638; -725995]);
  ("CuCl2", 3, [-1798931; -1647847; -1500860; -1357322; -1217032; -1080221; -945731]);
  ("CuF", 2, [-1951644; -1881475; -1814796; -1751143; -1690161; -1631567; -1575109; -1520560; -1467704; -1416329; -1366229; -637261; -708408; -778618; -847953; -916467; -984207; -1051217]);
  ("CuF2", 3, [-5104173; -4942559; -4784757; -4630670; -4480111; -4332875; -4188763; -4047587; -3909172; -3820520; -3739322; -3656361; -3569888; -3485483; -3403009; -3322347; -3243390; -3166043]);
  ("CuH", 2, [2875426; 2775555; 2678366; 2583306; 2489956; 2398016; 2307278; 2217602; 2128908; 2041156; 1954343; 1872716; 1797757; 1723659; 1650360; 1577812; 1505971; 1434799]);
  ("CuH10SO9", 21, [-19460393; -18066881; -16672803]);
  ("CuH2SO5", 9, [-9505353; -8920826; -8334058]);
  ("CuH4(ClO)2", 9, [-6830865; -6284107; -5736192]);
  ("CuH6SO7", 15, [-14492850; -13501460; -12507775]);
  ("CuI", 2, [-719221; -722253; -686946; -626518; -576809; -538841; -506790; -483410; -461686; -441191; -421569; -398297; -369677; -341358; -307931; -376574; -444435; -511558]);
  ("CuO", 2, [-1323863; -1228133; -1133996; -1041510; -950540; -860903; -772424; -684953; -598375; -512606; -427596; -339100; 1058280; 976706; 895825; 815583; 735929; 656821]);
  ("CuS", 2, [-582841; -584024; -578733; -570930; -561995]);
  ("CuSO4", 6, [-6854709; -6474318; -6088563; -5702670; -5318384; -4936484; -4545964; -4108022; -3674304; -3244689]);
  ("CuSbS2", 4, [-1375600; -1381152; -1374556; -1363472; -1350490; -1336903; -1300646]);
  ("CuTe", 2, [-251909; -255676; -260747; -267176]);
  ("D10CuSO9", 21, [-19750029; -18299413; -16840339]);
  ("D2O", 3, [-2430009; -2377556; -2322807; -2266436; -2208882; -2150449; -2091355; -2031759; -1971780; -1911512; -1851023; -1790369; -1729589; -1668718; -1607777; -1546783; -1485750; -1424684]);
  ("D2S", 3, [-366585; -402668; -427942; -447435; -463183; -476298; -476068; -423936; -371750; -319556; -267382; -215242; -163142; -111085; -59069; -7094; 44843; 96744]);
  ("D3N", 4, [-267559; -151335; -30978; 91797; 215977; 340942; 466298; 591789; 717245; 842554; 967642; 1092462; 1216984; 1341192; 1465080; 1588648; 1711902; 1834851]);
  ("DCl", 2, [-994583; -1003187; -1011033; -1018304; -1025159; -1031712; -1038046; -1044219; -1050274; -1056240; -1062140; -1067989; -1073798; -1079575; -1085324; -1091048; -1096747; -1102423]);
  ("DCu", 2, [2895438; 2796773; 2700460; 2605950; 2512882; 2421017; 2330195; 2240321; 2151346; 2063255; 1976067; 1894044; 1818682; 1744180; 1670487; 1597558; 1525353; 1453834]);
  ("DF", 2, [-2873634; -2879440; -2884737; -2889516; -2893815; -2897687; -2901184; -2904355; -2907246; -2909892; -2912328; -2914582; -2916676; -2918630; -2920460; -2922179; -2923796; -2925321]);
  ("DNi", 2, [3721989; 3605748; 3492785; 3382631; 3275307; 3169891; 3066007; 2963505; 2862291; 2762304; 2663504; 2565863; 2469361; 2373985; 2279726; 2193986; 2112219; 2031487]);
  ("DS", 2, [1134079; 1035514; 945379; 859645; 776854; 696230; 628688; 612912; 597129; 581342; 565554; 549769; 533993; 518232; 502494; 486784; 471111; 455482]);
  ("Dy2O3", 5, [-18354638; -18038818; -17728482; -17423018; -17121731; -16823970; -16529148; -16236732; -15946237; -15657219; -15369261; -15081975; -14794991; -14508005; -14216626; -13910879; -13604449; -13297354]);
  ("DyBr3", 4, [-5911632; -5916935; -5875654; -5833979; -5791981; -5749677; -5707045; -5664033; -5620560; -5576530; -5531826; -5486321; -5439872; -5392331; -5341304; -5282162; -5221813; -5160320]);
  ("DyCl3", 4, [-9465926; -9204278; -8947767; -8695639; -8447344; -8202453; -7960599; -7744303; -7540659; -7342176; -7148222; -6523570; -6484258; -6443854; -6399962; -6347954; -6294736; -6240371]);
  ("DyF3", 4, [-16727734; -16461399; -16200593; -15944482; -15692473; -15444129; -15199104; -14957112; -14717899; -14481238; -14246916; -14014729; -13814747; -13631244; -13448863; -13262691; -13079382; -12898778]);
  ("DyI3", 4, [-4012977; -4189187; -4239444; -4203658; -4167545; -4131117; -4094346; -4057178; -4019531; -3981307; -3942391; -3902652; -3861951; -3820137; -3774816; -3721362; -3666680; -3610833]);
  ("DyO", 2, [-1029060; -1110165; -1188640; -1265135; -1340001; -1413430; -1485514; -1556281; -1625713; -1693762; -1760352; -1825389; -1888767; -1950363; -2007813; -2056517; -2103408; -2148574]);
  ("DyS", 2, [1197366; 1036406; 886556; 743109; 604272; 469098; 348423; 280908; 214800; 150150; 87031; 25533; -34238; -92163; -145881; -190796; -233843; -275117]);
  ("Er2O3", 5, [-18742107; -18434712; -18130902; -17830419; -17532820; -17237682; -16944630; -16653337; -16363510; -16074886; -15787222; -15500292; -15213884; -14927795; -14641830; -14354652; -14045712; -13737056]);
  ("Er6WO12", 19, [-66498826; -65288075; -64096690; -62922522; -61763767; -60619037; -59487255; -58375712; -57267188; -56157994; -55050004; -53944772; -52843594]);
  ("ErBr3", 4, [-5975783; -5982226; -5942038; -5901342; -5860154; -5818463; -5776244; -5733461; -5690076; -5646044; -5601319; -5555851; -5509590; -5462485; -5414484; -5364957; -5303669; -5241676]);
  ("ErCl3", 4, [-9515048; -9253988; -8998105; -8746534; -8498717; -8254259; -8012864; -7774291; -7555115; -7356280; -7161791; -6502964; -6464215; -6424621; -6384130; -6342114; -6288334; -6233848]);
  ("ErF3", 4, [-16746521; -16480940; -16221124; -15965953; -15714671; -15466757; -15221839; -14979645; -14739972; -14502666; -14267607; -14036919; -13845032; -13660012; -13477736; -13297356; -13108439; -12921869]);
  ("ErI3", 4, [-4093637; -4270709; -4321779; -4286688; -4251102; -4215004; -4178364; -4141145; -4103307; -4064804; -4025590; -3985614; -3944827; -3903175; -3860608; -3816496; -3760602; -3703983]);
  ("ErN", 2, [-3423050; -3329245; -3237173; -3146470; -3056868; -2968159; -2880175; -2792778; -2705846; -2619273; -2532963; -2446824; -2360774; -2274733; -2188626; -2101805; -2004016; -1906304]);
  ("ErO", 2, [-679796; -760097; -837701; -913204; -986930; -1059073; -1129751; -1199036; -1266972; -1333579; -1398866; -1462830; -1525458; -1586735; -1646637; -1704562; -1750299; -1794928]);
  ("ErS", 2, [1637902; 1479236; 1331718; 1190716; 1054474; 922050; 804252; 739696; 676567; 614840; 554502; 495554; 438004; 381867; 327163; 274489; 234059; 194790]);
  ("Eu(HO)3", 7, [-10945999; -10469948; -9999263]);
  ("Eu2O3", 5, [-16228475; -15898184; -15575941; -15260523; -14950777; -14645706; -14344442; -14046212; -13748565; -13437241; -13128059; -12763155; -12460053; -12158673; -11858954; -11560836; -11098593; -10639695]);
  ("Eu6WO12", 19, [-58561944; -57281401; -56029600; -54805091; -53604574; -52424699; -51262408; -50114950; -48974589; -47798224; -46633048; -45478638; -44334628])].

Definition freed_6 : list (string * Z * list Z) := [
  ("EuBr2", 3, [-7168785; -7009383; -6824319; -6643387; -6465954; -6291525; -6119685; -5962213; -5822287; -5677513; -5535581; -5396267; -5259378]);
  ("EuBr3", 4, [-7422183; -7200399; -6940572; -6687452]);
  ("EuCl3", 4, [-8866596; -8593323; -8327912; -8069074; -7815911; -7567744; -7325792; -7145939; -6970198; -6791012; -6615941; -6160457; -6108661; -6056677; -6004490; -5952079; -5816590; -5681764]);
  ("EuF3", 4, [-15563414; -15282845; -15009260; -14741452; -14478610; -14220183; -13965791; -13721818; -13484303; -13244193; -13008961; -12778211; -12551603; -11040869; -10982861; -10924607; -10783255; -10642552]);
  ("EuFeO3", 5, [-12187984; -11872458; -11560990; -11253170; -10948847; -10647904; -10350223; -10055439]);
  ("EuI3", 4, [-3890590; -4052222; -4090478; -4044613; -3999869; -3955884; -3912330; -3868903; -3824440; -3771855; -3719094; -3666150; -3613011; -3559664; -3506093; -3452280; -3315371; -3179109]);
  ("EuO", 2, [-5896042; -5796951; -5699731; -5603831; -5508806; -5414316; -5320087; -5225885; -5130620; -5027284; -4923892; -4820500; -4717155; -4613894; -4510746; -1760139; -1721432; -1682575]);
  ("EuP", 2, [-3036892; -2989985; -2943593; -2886921; -2819915; -2754078; -2689042; -2624484; -2559234; -2486210; -2413367; -2340709; -2268242; -2195971; -2123899; -2052030; -1897533; -1744173]);
  ("EuS", 2, [-4713339; -4697870; -4675638; -4650297; -4622921; -4593954; -4552192; -4458705; -4364169; -4261580; -4158971; -4056425; -3954027; -3851866; -3750028; -3648603; -3464845; -3282607]);
  ("EuSe", 2, [-4024512; -4009504; -3992589; -3961565; -3928385; -3893434; -3856853; -3818607; -3730909; -3625675; -3520360; -3415052; -3309829; -3204758; -3099896]);
  ("EuTe", 2, [-3998459; -3983395; -3966955; -3949040; -3929501; -3888685; -3840115; -3789544; -3736123; -3673029; -3608431; -3520360; -3417903; -3315516; -3213245]);
  ("Fe(CO)5", 11, [-7195003; -7065639; -6943188; -6824909; -6708977; -6594175; -6479658; -6364573]);
  ("Fe(SbS2)2", 7, [-2650564; -2646875; -2618941; -2580977; -2536989; -2488619; -2391051]);
  ("Fe1000Se1143", 2143, [-722095393; -736147584; -753733843; -757895975; -763249713; -767949763; -771341092; -772999850]);
  ("Fe1000Se1333", 2333, [-762149411; -773315568; -785035529; -780270047; -774420247; -767801131; -760867807; -754675272; -686457819]);
  ("Fe1000Se961", 1961, [-697419965; -699615473; -702845866; -694989775; -687198100; -688578963; -692781243; -695283690]);
  ("Fe10Cu7S20", 37, [-17551943; -17419314; -17154800; -16834768; -16484768]);
  ("Fe10Cu9S20", 39, [-17828640; -17780313; -17606313; -17382175; -17132972]);
  ("Fe10Te9", 19, [-2657614; -2742839; -2826882; -2904127; -2969696; -2843875; -2646142; -2424265; -2169704; -1890117]);
  ("Fe2(SO4)3", 17, [-23433292; -22314817; -21175470; -20031128; -18887053; -17745171; -16571820; -15249423; -13930733; -12616515; -11307405; -10004882]);
  ("Fe20Cu17S40", 77, [-35519009; -35380231; -34986999; -34490803; -33942025]);
  ("Fe20Cu19S40", 79, [-35795758; -35741300; -35438599; -35038314; -34590351]);
  ("Fe2B", 3, [-604724; -615026; -626721; -638954; -650982; -662170; -671949; -679344; -682401; -682450; -680625; -678817; -676970; -675034]);
  ("Fe2CoO4", 7, [-10693201; -10324440; -9964327; -9611929; -9266277; -8925800; -8590264; -8255716]);
  ("Fe2CuO4", 7, [-8925681; -8565344; -8213076; -7869484; -7534710; -7209736; -6890243; -6573052; -6255880; -5939785; -5625670; -5310998; -4994094]);
  ("Fe2N", 3, [113509; 163595; 212812; 261764; 310938; 360797; 411779; 464746]);
  ("Fe2NiCl8", 11, [-8499258; -8228638; -7963756; -7702435; -7442703; -7183971; -6925424; -6665806]);
  ("Fe2NiO4", 7, [-9932697; -9555924; -9185380; -8821363; -8463080; -8111114; -7766194; -7424740; -7082517; -6740282; -6398699; -6059264; -5721590; -5385341; -5049861; -4706843]);
  ("Fe2O3", 5, [-7688586; -7406208; -7129185; -6857454; -6590483; -6327760; -6069027; -5814171; -5558312; -5301505; -5044577; -4789163; -4534993; -4281837; -4029131; -3776060]);
  ("Fe2SiO4", 7, [-14290442; -13944416; -13602035; -13263213; -12927215; -12593244; -12260588; -11928189; -11594062; -11259561; -10925880; -10595004; -10273413; -10013381; -9753120; -9468723; -9172967]);
  ("Fe3C", 4, [206606; 185396; 157881; 127505; 96915; 67169; 39160; 14351; -4343; -18955; -31228; -44045; -57371]);
  ("Fe3O4", 7, [-10516128; -10161534; -9815319; -9477721; -9148825; -8828287; -8518346; -8212372; -7903912; -7593638; -7282469; -6972795; -6664293; -6356781; -6049621; -5741827; -5435454; -5180498]);
  ("Fe3Si", 4, [-980481; -983924; -987802; -992104; -996913; -1001080; -1008615; -1015142; -1017367; -1018006; -1019509]);
  ("Fe4Cu3S8", 15, [-7048452; -7003832; -6907080; -6788658; -6658740]);
  ("Fe4N", 5, [47246; 98189; 148598; 199740; 252608; 308147; 367243; 431636]);
  ("Fe5(Cu2S5)2", 19, [-8845159; -8799924; -8690300; -8554262; -8404465]);
  ("Fe7Si8(HO12)2", 41, [-92871326; -90582294; -88302121; -86036936; -83787965; -81554874; -79336844]);
  ("Fe877S1000", 1877, [-1107769166; -1112795582; -1113178550; -1113087887; -1113576727; -1112962725; -1099519072; -1033879025; -966901190; -899246411; -831573266; -764925556; -699526619; -635621476]);
  ("Fe947O1000", 1947, [-2539335056; -2467495637; -2398207501; -2330729663; -2264448113; -2198851882; -2133518783; -2067879707; -2000932753; -1933257855; -1865360411; -1798118411; -1731499666; -1665483575; -1609375805; -1563757319; -1511756304; -1459391255]);
  ("FeB", 2, [-625371; -629119; -634072; -639575; -645134; -650381; -655006; -658509; -659904; -659851; -658916; -658039; -657193; -656348; -655300; -653707; -644569; -657786]);
  ("FeBr2", 3, [-2459458; -2356422; -2227507; -2102371; -1980629; -1861772; -1745000; -1649243; -1589260; -1531081; -1553778; -1604560; -1654651; -1704058; -1752608; -1799988; -1839223; -1876764]);
  ("FeCO3", 5, [-6929197; -6677346; -6428700; -6183609; -5942387; -5705300]);
  ("FeCl", 2, [2232751; 2110439; 1989647; 1870516; 1753194; 1637845; 1524640; 1413973; 1306747; 1202231; 1099803; 998468; 898213; 799021; 701065; 604649; 516743; 430888]);
  ("FeCl2", 3, [-3129343; -2995054; -2865193; -2738659; -2614657; -2492555; -2371832; -2275453; -2203379; -2132689; -2050438; -2084434; -2117717; -2150299; -2182004; -2212522; -2234878; -2255526]);
  ("FeCl3", 4, [-3472706; -3254609; -3043018; -2855473; -2733407; -2642646; -2551527; -2459448; -2408867; -2379622; -2348734; -2317160; -2284882; -2251883; -2217968; -2182806; -2139404; -2094201]);
  ("FeClO", 3, [-3766126; -3603983; -3445893; -3291208; -3139476]);
  ("FeCu5S4", 10, [-4069510; -4109840; -4128852; -4162567; -4202257; -4245887; -4247125; -4049290; -3857629; -3672355]);
  ("FeCuO2", 4, [-4762988; -4580488; -4399547; -4220209; -4042124; -3864826; -3687855; -3510558; -3331871; -3152761; -2973492; -2790671; -2616348; -2475023]);
  ("FeCuS2", 4, [-1796645; -1795585; -1782358; -1764658; -1744652; -1723798; -1689537; -1564374; -1445056; -1349308; -1278887; -1206818; -1131269]);
  ("FeF", 2, [147329; 32940; -79082; -188815; -296244; -401294; -503862; -603600; -699646; -792759; -883585; -973136; -1061441; -1148526; -1234229; -1318250; -1393624; -1466812]);
  ("FeF2", 3, [-6870963; -6724685; -6581429; -6440471; -6301250; -6163275; -6026108; -5889119; -5751193; -5612864; -5508927; -5412145; -5317217; -5223952; -5132000; -5040896; -4621139; -4634292]);
  ("FeF3", 4, [-10047235; -9809779; -9578055; -9349400; -9122899; -8897856; -8673746; -8449918; -8225276; -8103319; -8057773; -8011475; -7964412; -7916574; -7867769; -7817668; -7759285; -7699063]);
  ("FeH14SO11", 27, [-25980848; -24228667; -22488670]);
  ("FeH2SO5", 9, [-11202678; -10637097; -10070178]);
  ("FeH8SO8", 18, [-18613675; -17454593; -16300913]);
  ("FeI2", 3, [-1158550; -1177809; -1118498; -1005680; -896228; -790828; -711504; -668340; -627333; -588701; -552640; -544655; -591305; -637269; -682373; -726305; -762091; -796186]);
  ("FeO", 2, [-2603972; -2534037; -2466573; -2400847; -2336310; -2272502; -2209031; -2145325; -2080336; -2014671; -1967816; -1922194; -1877646; -1834030; -1791042; -1748258; -1698602; -1648438]);
  ("FeS", 2, [-1035551; -1036582; -1040491; -1046041; -1052272; -1057383; -1049778; -990069; -928954; -867091; -805106; -744050; -691928; -655181; -618817; -582753; -546917; -511243]);
  ("FeS2", 3, [-1658305; -1615305; -1556996; -1491408; -1421118; -1347312; -1247838; -1044838; -810758; -608029; -405612; -204457]);
  ("FeSO4", 6, [-8578101; -8215690; -7847750; -7479393; -7112166; -6746532; -6371117; -5946516; -5523270; -5101802]);
  ("FeSb2", 3, [-277093; -267728; -259051; -250598; -242056; -233180; -223772; -169675]);
  ("FeSe2", 3, [-1185783; -1155373; -1122368; -1062695; -1001183; -941686; -905356; -894541]);
  ("FeSi", 2, [-758781; -757178; -755024; -752157; -748507; -743996; -738536; -731805; -722963; -712795; -701973; -691532; -681526; -672005; -666177; -669810]);
  ("FeSi2", 3, [-811841; -801649; -790281; -777580; -763553; -748208; -731537; -713290; -692692; -670585]);
  ("FeTe2", 3, [-667737; -639690; -610250; -578955; -545374; -470147; -380323]);
  ("FeWO4", 6, [-11091824; -10743724; -10400212; -10061281; -9726331; -9394642; -9065535; -8738174; -8411296; -8085338; -7760695]);
  ("Ga2O", 3, [-1298957; -1362491; -1420320; -1474932; -1527034; -1577058; -1625295; -1671956; -1717204; -1761169; -1803957; -1845656; -1886340; -1926073; -1964909; -2002896; -2040077; -2076486]);
  ("Ga2O3", 5, [-10341719; -9988641; -9635168; -9283730; -8934728; -8588224; -8244143; -7902358; -7562732; -7225129; -6889423; -6555500; -6223261; -5892620; -5563500; -5235839; -4909586; -4584698]);
  ("Ga2Se3", 5, [-4146423; -4076841; -4000321; -3882099; -3758639; -3631669; -3502192; -3370670; -3096956; -2797799; -2501500]);
  ("GaAs", 2, [-872235; -840027; -806190; -771719; -736846; -701729; -656638; -580854; -505928; -431888; -358755; -286547; -215273; -207772]);
  ("GaCl", 2, [-1004187; -1075199; -1143463; -1210073; -1275338; -1339464; -1402599; -1464855; -1526324; -1587081; -1647188; -1706698; -1765658; -1824105; -1882076; -1939601; -1996706; -2053417]);
  ("GaCl2", 3, [-2615790; -2634355; -2650427; -2665091; -2678625; -2691203; -2702947; -2713950; -2724284; -2734011; -2743181; -2751836; -2760014; -2767746; -2775060; -2781980; -2788528; -2794722]);
  ("GaCl3", 4, [-4692038; -4443341; -4279601; -4134603; -4028294; -3955594; -3882825; -3809996; -3737113; -3664178; -3591194; -3518161; -3445080; -3371950; -3298770; -3225540; -3152258; -3078921]);
  ("GaF", 2, [-2676991; -2745485; -2811086; -2874971; -2937477; -2998823; -3059163; -3118614; -3177265; -3235194; -3292463; -3349124; -3405222; -3460796; -3515882; -3570508; -3624701; -3678484]);
  ("GaF2", 3, [-5675187; -5692026; -5705814; -5717894; -5728675; -5738398; -5747223; -5755260; -5762590; -5769279; -5775378; -5780929; -5785969; -5790528; -5794634; -5798312; -5801584; -5804472]);
  ("GaF3", 4, [-11402869; -11128756; -10858268; -10591604; -10328575; -10069082; -9813073; -9560526; -9311432; -9065795; -8823620; -8584920; -8465936; -8387890; -8309755; -8231531; -8153222; -8074831]);
  ("GaH", 2, [1930171; 1853833; 1781101; 1710493; 1641446; 1573599; 1506710; 1440609; 1375174; 1310315; 1245961; 1182060; 1118570; 1055455; 992690; 930252; 868122; 806284]);
  ("GaHO", 3, [-1420612; -1432286; -1441527; -1449537; -1456620; -1462955; -1468662; -1473828; -1478524; -1482804; -1486714; -1490292; -1493570; -1496574; -1499325; -1501841; -1504138; -1506226]);
  ("GaN", 2, [-833631; -710608; -587020; -464306; -342754; -222473; -103502; 14142; 130455; 245437; 359093; 471429; 582453; 692173]);
  ("GaO", 2, [1462715; 1392246; 1324580; 1258497; 1193663; 1129873; 1066992; 1004922; 943586; 882923; 822882; 763421; 704502; 646094; 588167; 530696; 473657; 417030]);
  ("GaP", 2, [-1123593; -1070304; -1014344; -946478; -867245; -788576; -710451; -632852; -555763; -479170; -403061; -327427; -252259]);
  ("GaS", 2, [-2121400; -2085705; -2042353; -1996445; -1949618; -1902699; -1844757; -1737058]);
  ("GaSb", 2, [-401666; -371748; -340404; -308597; -276524; -244266; -211838; -167610; -180966; -194775]);
  ("GaSe", 2, [-1607531; -1574829; -1539837; -1491163; -1440957; -1389785; -1337972; -1285665; -1186141; -1078312]);
  ("GaTe", 2, [-3401131; -3376669; -3350999; -3324935; -3298529; -3252292; -3199903; -3147278; -3094605; -3080367; -3077960]);
  ("Gd2O3", 5, [-18024000; -17720366; -17419738; -17122333; -16827668; -16535329; -16244975; -15956312; -15669080; -15383039; -15097960; -14813624; -14530382; -14244946; -13947416; -13650412; -13353967; -13058111]);
  ("GdBr3", 4, [-8259887; -8052757; -7804015; -7559134; -7317427; -7078391; -6841680; -6607070; -6390360; -6199480; -6012757; -5404840; -5358311; -5308329; -5251330; -5193646; -5135309; -5076352]);
  ("GdCl3", 4, [-9670375; -9412664; -9160206; -8912324; -8668430; -8428175; -8203538; -8020157; -7842031; -7668572; -7499285; -6735021; -6695796; -6653121; -6603428; -6553050; -6502019; -6450367]);
  ("GdF3", 4, [-16810424; -16545591; -16285325; -16029204; -15776579; -15526935; -15279864; -15035042; -14792205; -14551130; -14311633; -14076188; -13845515; -13648923; -13450023; -13253170; -12079442; -12020929]);
  ("GdI3", 4, [-6108567; -6080680; -5931951; -5701619; -5474671; -5250579; -5028924; -4809363; -4593200; -4380685; -4217014; -3755796; -3715298; -3671328; -3620320; -3568605; -3516218; -3463189]);
  ("GdO", 2, [-973044; -1056395; -1136979; -1215536; -1292319; -1367489; -1441153; -1513381; -1584217; -1653689; -1721814; -1788596; -1854035; -1915514; -1969499; -2022348; -2074120; -2124867]);
  ("GdP", 2, [-3167896; -3136516; -3103569; -3059028; -3003195; -2947872; -2892953; -2838354; -2784001; -2729829; -2675777; -2621786; -2567801; -2511159; -2448284; -2385498; -2322825; -2260290]);
  ("GdS", 2, [-4688923; -4671325; -4646249; -4617804; -4587226; -4555109; -4510391; -4414268; -4318407; -4222717; -4127113; -4031520; -3935863; -3837465; -3732739; -3627993; -3523244; -3418507]);
  ("GeAs", 2, [-864232; -863156; -862035; -861044; -860345; -860058; -850418; -810669; -821551]);
  ("GeBr4", 5, [-3297482; -3229546; -3101880; -2975594; -2850474; -2726323; -2602959; -2480206; -2357898; -2235876]);
  ("GeCl", 2, [436076; 329644; 223965; 118861; 14267; -89831; -193420; -296472; -398948; -500804; -573702; -642771; -711328; -779395; -846997; -914154; -980892; -1047230]);
  ("GeCl2", 3, [-1901823; -1944398; -1985901; -2026467; -2066193; -2105146; -2143362; -2180861; -2217644; -2253700; -2260717; -2263846; -2266418; -2268469; -2270030; -2271127; -2271786; -2272026]);
  ("GeCl3", 4, [-3230675; -3199438; -3168664; -3138201; -3107943; -3077802; -3047705; -3017578; -2987353; -2956961; -2898041; -2835704; -2773247; -2710674; -2647989; -2585197; -2522300; -2459300]);
  ("GeCl4", 5, [-4781725; -4649131; -4518021; -4388184; -4259420; -4131558; -4004447; -3877950; -3751940; -3626301; -3472630; -3316000; -3159674; -3003628; -2847839; -2692287; -2536953; -2381819]);
  ("GeF", 2, [-1005778; -1110317; -1213972; -1316979; -1419426; -1521338; -1622705; -1723501; -1823690; -1923230; -1993782; -2060478; -2126634; -2192274; -2257423; -2322104; -2386340; -2450154])].

Definition freed_7 : list (string * Z * list Z) := [
  ("GeF2", 3, [-6063832; -6101008; -6136563; -6170905; -6204259; -6236753; -6268458; -6299408; -6329611; -6359061; -6359447; -6355920; -6351811; -6347155; -6341983; -6336323; -6330200; -6323637]);
  ("GeF3", 4, [-7687598; -7648196; -7608265; -7568137; -7527926; -7487656; -7447311; -7406853; -7366233; -7325392; -7255976; -7183101; -7110063; -7036870; -6963528; -6890039; -6816410; -6742642]);
  ("GeF4", 5, [-11916223; -11776180; -11635965; -11496101; -11356760; -11217967; -11079685; -10941841; -10804350; -10667115; -10501751; -10333341; -10165156; -9997177; -9829389; -9661778; -9494333; -9327044]);
  ("GeI4", 5, [-1104204; -1258898; -1248083; -1124461; -1002004; -880513; -759808; -639719; -520082; -400737]);
  ("GeO", 2, [-648967; -741245; -831660; -920639; -1008437; -1095214; -1181062; -1266036; -1350159; -1433437; -1487569; -1537713; -1587208; -1636095; -1684407; -1732178; -1779434; -1826201]);
  ("GeO2", 3, [-5399538; -5196073; -4993996; -4793931; -4595913; -4399806; -4205433; -4012629; -3821252; -3631190; -3414071; -3104113; -2910396; -2717737; -2526091; -2335420]);
  ("GeS", 2, [-798039; -800271; -796134; -789548; -781896; -773894; -754573; -701341; -659520; -728403; -782640; -832815; -882268; -931042; -979175; -1026700; -1073647; -1120043]);
  ("GeS2", 3, [-1287287; -1283145; -1264404; -1238919; -1209371; -1177116; -1120156; -960989; -803041; -771142; -748229; -721699; -694851; -667691; -640223; -612453; -584385; -556022]);
  ("GeSe", 2, [551184; 372917; 199269; 41975; -111293; -261231; -408248; -552546; -647430; -731821; -786852; -837714; -887772; -937089; -985723; -1033722; -1081131; -1127989]);
  ("GeSe2", 3, [-1212335; -1208376; -1202107; -1169154; -1133616; -1096513; -1058415; -1019545]);
  ("GeTe", 2, [-528246; -537050; -546329; -556071; -566620; -557219; -540790; -527487; -552146; -578635; -578161; -560004; -613052; -665262; -716682; -767361; -817348; -866687]);
  ("H100C120S(NO5)2", 233, [738553; 5387680]);
  ("H10SO8", 19, [-17454005; -16340307; -15251086; -14187830; -13150336; -12138217; -11139697; -10115440]);
  ("H2C", 3, [354904; 385122; 419187; 455914; 494513; 534451; 575356; 616965; 659084; 701572; 744324; 787261; 830325; 873475; 916679; 959918; 1003179; 1046454]);
  ("H2N", 3, [777093; 940421; 1057403; 1176255; 1296123; 1416493; 1537040; 1657559; 1777914; 1898016; 2017809; 2137256; 2256337; 2375040; 2493362; 2611304; 2728872; 2781677]);
  ("H2O", 3, [-2455188; -2320649; -2270397; -2218129; -2164289; -2109203; -2053117; -1996222; -1938664; -1880560; -1822007; -1763083; -1703850; -1644363; -1584664; -1524788; -1464766; -1404622]);
  ("H2O2", 4, [-1097933; -990552; -879757; -766777; -652338; -536890; -420729; -304055; -187010; -69692; 47824; 165485; 283250; 306335; 277341; 248524; 219869; 191362]);
  ("H2S", 3, [-347545; -388313; -417714; -440712; -459365; -474856; -476556; -425991; -375086; -323954; -272680; -221323; -169926; -118517; -67116; -15729; 35640; 86997]);
  ("H2SO4", 7, [-7143685; -6717251; -6295630; -5883794; -5568073; -5260489; -4941176; -4571541; -4203372; -3836652; -3471339; -3107379; -2744715; -2383286; -2023032; -1663896; -1305820; -948753]);
  ("H2Se", 3, [161065; 116682; 77962; 56051; 38254; 23624; 11560; 1710; 40636; 89302; 138177; 187151; 236127; 285025; 333773; 382308; 430573; 478516]);
  ("H30S2O21", 53, [-47329589; -44276651; -41305608; -38407323; -35573331; -32797113; -30050827; -27252470]);
  ("H340C200S", 541, [267789; 15991983]);
  ("H3C", 4, [-168799; -74751; 25306; 129446; 236393; 345276; 455489; 566601; 1679864; 1703944; 1728565; 1753624; 1779045; 1804764; 1830734; 1856917; 1883285; 1909817]);
  ("H3N", 4, [-168510; -62475; 48712; 163383; 280460; 399218; 519154; 639903; 761202; 882853; 1004708; 1126656; 1248613; 1370517; 1492321; 1613993; 1735512; 1856866]);
  ("H4BrN", 6, [-1806436; -1440007; -1065593]);
  ("H4C", 5, [-524312; -435664; -339208; -237142; -131050; -22053; 89041; 201647; 315332; 429775; 544741; 660054; 775592; 891259; 1007004; 1122773; 1238534; 1354266]);
  ("H4CO", 6, [-1718239; -1532836; -1380065; -1221136]);
  ("H4IN", 6, [-1161573; -847303; -490484; -105932; 276779; 656944]);
  ("H4N2O3", 9, [-1894402; -1269793; -671772; -85160; 497281; 1076482; 1653132]);
  ("H4NCl", 6, [-2105746; -1718761; -1337566; -962202]);
  ("H4NClO4", 10, [-901954; -179836; 544590; 1253528]);
  ("H4NF", 6, [-3644915; -3241724; -2836710; -2456901; -2083647]);
  ("H4SO5", 10, [-9839334; -9232845; -8638139; -8057676; -7491895; -6940883; -6393239; -5809930]);
  ("H5C2", 7, [-85523; 110038; 314788; 525738; 740699]);
  ("H5NF2", 8, [-6811611; -6283987]);
  ("H6SO6", 13, [-12420243; -11640918; -10878819; -10138929; -9423319; -8733223; -8058087; -7359530]);
  ("H8C3", 11, [-238383; 51413; 356468; 671540; 993273; 1319440; 1648518; 1979444; 2311465; 2644046; 2976811; 3309501; 3641944]);
  ("H8S(NO2)2", 15, [-9348962; -8373530; -7387210; -6399917]);
  ("H8SO7", 16, [-14949925; -14002503; -13074628; -12169950; -11289654; -10434310; -9592862; -8726552]);
  ("HBr", 2, [-554900; -580654; -590040; -598650; -606690; -614312; -621626; -628711; -635626; -642415; -649111; -655737; -662314; -668854; -675369; -681866; -688351; -694828]);
  ("HC", 2, [215757; 252748; 283571; 315766; 348657; 382152; 416057; 450235; 851182; 823515; 796046; 768747; 741594; 714568; 687651; 660832; 634101; 607449]);
  ("HCN", 3, [1292011; 1256065; 1220612; 1185649; 1151157; 1117096; 1083421; 1050085; 1017043; 984257; 951691; 919315; 887107; 855046; 823117; 791308; 759612; 728025]);
  ("HCNO", 4, [-956798; -923435; -888624; -852829; -816299; -779195; -741632; -703696; -665453; -626955; -588242; -549348; -510295; -471104; -431788; -392357; -352816; -313167]);
  ("HCl", 2, [-987911; -997852; -1006951; -1015338; -1023158; -1030530; -1037548; -1044284; -1050793; -1057121; -1063302; -1069365; -1075331; -1081218; -1087040; -1092808; -1098532; -1104217]);
  ("HClO", 3, [-638806; -593099; -545477; -496596; -446841; -396455; -345598; -294382; -242887; -191169; -139271; -87227; -35061; 17206; 69561; 121991; 174485; 227036]);
  ("HF", 2, [-2863692; -2861524; -2868113; -2874163; -2879693; -2884743; -2889358; -2893584; -2897460; -2901025; -2904313; -2907352; -2910170; -2912789; -2915230; -2917510; -2919646; -2921651]);
  ("HI", 2, [14747; -66281; -104427; -113266; -121593; -129574; -137324; -144921; -152420; -159857; -167259; -174645; -182028; -189414; -196810; -204219; -211642; -219079]);
  ("HIO", 3, [-3929426; -3953525; -3934072; -3884963; -3835100; -3784693; -3733882; -3682763; -3631404; -3579855; -3528152; -3476325; -3424395; -3372376; -3320282; -3268121; -3215899; -3163622]);
  ("HN", 2, [1259354; 1314960; 1373133; 1432937; 1493764; 1555211; 1616994; 1678916; 1740831; 1802634; 1864247; 1925614; 1986692; 2047451; 2107873; 2167943; 2227655; 2287009]);
  ("HNO3", 5, [-763229; -550930; -335607; -119117; 97622; 314129; 530144; 745532; 960225; 1174196; 1387444; 1599982; 1811832; 2023020; 2233575; 2443527; 2652904; 2861736]);
  ("HO2", 3, [150178; 194376; 240520; 287944; 336249; 385178; 434559; 484272; 534229; 584366; 634633; 684993; 735416; 785880; 836367; 886860; 937349; 987825]);
  ("HOF", 3, [-872164; -826743; -779329; -730562; -680838; -630413; -579461; -528107; -476440; -424525; -372414; -320142; -267738; -215223; -162613; -109920; -57152; -4314]);
  ("HPb", 2, [2168507; 2076547; 1987627; 1901123; 1824931; 1750524; 1677503; 1605618; 1534685; 1464560; 1395131; 1326317; 1258061; 1190318; 1123048; 1056218; 989797; 923759]);
  ("HS", 2, [-29901; -64258; -88980; -108608; -124859; -138664; -139213; -87902; 595697; 579745; 563867; 548051; 532289; 516576; 500908; 485282; 469699; 454158]);
  ("HfB2", 3, [-3442732; -3430147; -3418619; -3407703; -3397094; -3386675; -3376387; -3366196; -3356081; -3346029; -3336026; -3326064; -3316133]);
  ("HfBr4", 5, [-7601284; -7361143; -7068496; -6783958; -6621988; -6507003; -6392383; -6277996]);
  ("HfC", 2, [-2311617; -2302225; -2293892; -2286277; -2279078; -2272076; -2265115; -2258085; -2250909; -2243529; -2235905; -2228007; -2219814; -2211310; -2202484; -2193328; -2183835; -2174003]);
  ("HfCl4", 5, [-9335183; -9029942; -8732039; -8458955; -8341870; -8225325; -8109145; -7993192]);
  ("HfF4", 5, [-18963609; -18617925; -18277451; -17941929; -17610866; -17283800; -16960350; -16640202; -16323099; -16008829; -15825879; -15713854; -15601658]);
  ("HfI4", 5, [-5098418; -5081699; -4909865; -4633917; -4366735; -4107377; -3953728; -3832938]);
  ("HfN", 2, [-3588863; -3494424; -3400553; -3307429; -3215031; -3123293; -3032150; -2941540; -2851411; -2761720; -2672429; -2583507; -2494928; -2406670; -2318714; -2231044; -2143646; -2056507]);
  ("HfO", 2, [415780; 324599; 235804; 148941; 63747; -19940; -102231; -183201; -262909; -341399; -418704; -494852; -569867; -643768; -716570; -788289; -858937; -928525]);
  ("HfO2", 3, [-10994949; -10799945; -10607522; -10417683; -10230208; -10044841; -9861344; -9679508; -9499154; -9320129; -9142302; -8965565; -8789824; -8615000; -8441028; -8267853]);
  ("HfS2", 3, [-5996402; -5969082; -5927310; -5878967; -5826715; -5771894; -5692505; -5511056; -5330994; -5152242; -4974735; -4798420; -4623252; -4449192; -4276207; -4104269]);
  ("HgBr", 2, [-939641; -863719; -774767; -688043; 475912; 504413; 533083; 561895; 590825; 619854; 648966; 678147; 707386; 736672; 765998; 795354; 824735; 854133]);
  ("HgBr2", 3, [-1637266; -1513495; -1362711; -1256137; -1184489; -1084317; -984635; -885382; -786512; -687986; -589771; -491840; -394170; -296741; -199536; -102539; -5736; 90886]);
  ("HgCl", 2, [-1089595; -996254; -904966; -815625; 371891; 400715; 429732; 458918; 488252; 517717; 547298; 576981; 606754; 636608; 666535; 696525; 726573; 756672]);
  ("HgCl2", 3, [-1849476; -1692730; -1539656; -1433690; -1358938; -1255652; -1152847; -1050463; -948454; -846782; -745416; -644330; -543502; -442913; -342546; -242387; -142422; -42638]);
  ("HgF", 2, [-2213804; -2114538; -2017449; -1922409; -1761159; -1573575; -1388529; -308810; -277982; -247014; -215919; -184710; -153398; -121992; -90503; -58938; -27304; 4391]);
  ("HgF2", 3, [-3875236; -3709636; -3548353; -3390744; -3168278; -2920689; -2676777; -2539681; -2428400; -2317454; -2206809; -2096436; -1986311; -1876412; -1766721; -1657220; -1547895; -1438733]);
  ("HgI", 2, [-575695; -558618; -502074; -428666; 603874; 630232; 656639; 683065; 709486; 735883; 762239; 788541; 814777; 840937; 867013; 892995; 918877; 944653]);
  ("HgI2", 3, [-1059471; -1041751; -951329; -834736; -737229; -637788; -538818; -440262; -342075; -244218; -146659; -49370; 47670; 144484; 241087; 337497; 433728; 529791]);
  ("HgO", 2, [-604758; -493161; -383031; -274709; -100128; 119318; 160310; 201407; 242606; 283902; 325292; 366774; 408345; 450004; 491747; 533575; 575486; 617478]);
  ("HgS", 2, [-484627; -457046; -422598; -385478; -284764; -156641; -17868; 450873; 488350; 525982; 563763; 601688; 639751; 677948; 716273; 754723; 793293; 831979]);
  ("HgSe", 2, [-513699; -495707; -477316; -446325; -346587; -218554; -91451; 34721]);
  ("HgTe", 2, [-255570; -242628; -229789; -216803; -135336; -5749; 129394]);
  ("Ho2O3", 5, [-18563312; -18255950; -17953973; -17656620; -17363148; -17072901; -16785292; -16499784; -16215876; -15933093; -15650977; -15369083; -15086975; -14804225; -14520409; -14222404; -13917879; -13612979]);
  ("HoBr3", 4, [-8376652; -8167680; -7917788; -7672212; -7430332; -7191672; -6955859; -6722598; -6491647; -6266316; -6084342; -5572297; -5525317; -5477134; -5427595; -5370190; -5308799; -5246536]);
  ("HoCl3", 4, [-9625991; -9364318; -9107895; -8855605; -8606642; -8360502; -8116907; -7877994; -7673018; -7473083; -7277568; -6587780; -6548872; -6508761; -6467294; -6417959; -6364636; -6310437]);
  ("HoF3", 4, [-16788044; -16521152; -16258990; -16000882; -15746299; -15494775; -15245880; -14999218; -14754425; -14511159; -14269104; -14028220; -13823115; -13624277; -13424834; -13218213; -13008235; -12797964]);
  ("HoI3", 4, [-4164332; -4340530; -4390901; -4355273; -4319321; -4283022; -4246325; -4209154; -4171414; -4132993; -4093771; -4053613; -4012380; -3969924; -3926091; -3874372; -3818648; -3762032]);
  ("HoN", 2, [-3207018; -3113659; -3022304; -2932568; -2844180; -2756914; -2670565; -2584937; -2499839; -2415084; -2330485; -2245855; -2161006; -2075753; -1989908; -1896930; -1800675; -1704234]);
  ("HoO", 2, [-873439; -953355; -1030738; -1106184; -1180031; -1252463; -1323567; -1393366; -1461835; -1528921; -1594544; -1658606; -1720996; -1781589; -1840255; -1890502; -1936226; -1980556]);
  ("HoS", 2, [1036442; 873755; 722056; 576708; 435948; 298837; 176217; 106752; 38692; -27911; -92982; -156425; -218134; -277987; -335854; -385246; -430060; -473428]);
  ("IBr", 2, [36048; -55766; -90436; -96571; -102720; -108878; -115044; -121217; -127397; -133586; -139784; -145995; -152220; -158463; -164727; -171015; -177330; -183677]);
  ("ICl", 2, [-146342; -140302; -174821; -180809; -186805; -192803; -198798; -204787; -210769; -216744; -222712; -228673; -234628; -240576; -246518; -252455; -258386; -264312]);
  ("IF", 2, [-1220835; -1295886; -1329111; -1333814; -1338551; -1343322; -1348124; -1352958; -1357821; -1362716; -1367641; -1372596; -1377582; -1382598; -1387643; -1392716; -1397815; -1402939]);
  ("IF5", 6, [-7993359; -7751671; -7471335; -7165618; -6862809; -6562606; -6264734; -5968952; -5675054; -5382862; -5092225; -4803012; -4515111; -4228424; -3942867; -3658364; -3374851; -3092271]);
  ("IF7", 8, [-8655328; -8217480; -7742259; -7243214; -6748615; -6258066; -5771177; -5287596; -4807016; -4329168; -3853821; -3380775; -2909856; -2440910; -1973807; -1508428; -1044672; -582450]);
  ("INO", 3, [1080023; 1057185; 1076112; 1123413; 1170495; 1217355; 1264001; 1310448; 1356711; 1402809; 1448758; 1494573; 1540269; 1585861; 1631362; 1676784; 1722138; 1767435]);
  ("In2(SO4)3", 17, [-24700886; -23515135; -22300066; -21077310; -19857140; -18642530; -17401258; -16017813; -14648077]);
  ("In2O", 3, [-695855; -776261; -840470; -895842; -947884; -997125; -1043943; -1088619; -1131372; -1172378; -1211783; -1249709; -1286257; -1321517; -1355565; -1388470; -1420290; -1451078]);
  ("In2O3", 5, [-8603263; -8273599; -7935190; -7594628; -7256584; -6920893; -6587375; -6255869; -5926236; -5598361; -5272148; -4947517; -4624399; -4302737]);
  ("In2S3", 5, [-3536041; -3482550; -3396150; -3294938; -3188478; -3079961; -2935909; -2640443; -2349019; -2065559; -1785988]);
  ("In2Se", 3, [1124557; 946663; 787478; 651957; 522565; 398245; 278308; 162329; 96809; 42657; -9705; -60427; -109640; -157455; -203971; -249273; -293438; -336535]);
  ("In2Se3", 5, [-3212459; -3169433; -3112312; -3016669; -2916274]);
  ("InAs", 2, [-551512; -532390; -506744; -478121; -449182; -420127; -381247; -311833; -243437; -176089; -166620]);
  ("InCl", 2, [-1712482; -1642127; -1576967; -1550990; -1528384; -1508647; -1491409; -1476383; -1525254; -1585365; -1644616; -1703080; -1760815; -1817875; -1874305; -1930146; -1985433; -2040198]);
  ("InCl2", 3, [-2398467; -2429565; -2452973; -2472185; -2489866; -2506238; -2521462; -2535666; -2548950; -2561397; -2573076; -2584045; -2594355; -2604049; -2613166; -2621737; -2629794; -2637361]);
  ("InCl3", 4, [-4785454; -4529640; -4273894; -4020513; -3771475; -3526546; -3378377; -3290277; -3226117; -3161679; -3096982; -3032044; -2966879; -2901497; -2835908; -2770119; -2704135; -2637962])].

Definition freed_8 : list (string * Z * list Z) := [
  ("InF", 2, [-2247089; -2325462; -2395751; -2461543; -2525562; -2588068; -2649252; -2709264; -2768222; -2826226; -2883358; -2939688; -2995277; -3050178; -3104439; -3158099; -3211196; -3263763]);
  ("InF2", 3, [-5045741; -5076673; -5099606; -5118208; -5135220; -5150894; -5165407; -5178887; -5191437; -5203135; -5214048; -5224233; -5233736; -5242600; -5250862; -5258555; -5265708; -5272350]);
  ("InF3", 4, [-11549693; -11291592; -11032519; -10774980; -10521097; -10270752; -10023886; -9780469; -9540489; -9303944; -9070837; -8841174; -8640205; -8463229; -8289364; -8118416; -7950216; -7784612]);
  ("InH", 2, [1962676; 1877104; 1800405; 1728619; 1658775; 1590457; 1523384; 1457353; 1392216; 1327862; 1264206; 1201178; 1138725; 1076804; 1015377; 954414; 893889; 833779]);
  ("InHO", 3, [-1145237; -1167277; -1181693; -1192095; -1201175; -1209154; -1216190; -1222405; -1227896; -1232742; -1237008; -1240747; -1244006; -1246824; -1249232; -1251259; -1252927; -1254256]);
  ("InI", 2, [-392351; -543246; -644117; -711818; -777646; -841876; -904713; -966312; -1026798; -1086272; -1144816; -1202503; -1259391; -1315534; -1370977; -1425760; -1479919; -1533486]);
  ("InI2", 3, [-795383; -969452; -1052144; -1073493; -1093286; -1111752; -1129059; -1145336; -1160682; -1175181; -1188900; -1201898; -1214222; -1225915; -1237014; -1247551; -1257555; -1267052]);
  ("InI3", 4, [-1770869; -1931206; -1959873; -1899875; -1839351; -1778382; -1717025; -1655320; -1593298; -1530982; -1468394; -1405549; -1342462; -1279142; -1215602; -1151850; -1087893; -1023739]);
  ("InN", 2, [-963049; -849020; -729361; -607339; -485474; -363883; -242652; -121852; -1541; 118234; 237430; 356009]);
  ("InO", 2, [1537156; 1458344; 1387591; 1321248; 1256588; 1193362; 1131394; 1070549; 1010723; 951829; 893797; 836566; 780087; 724314; 669208; 614736; 560869; 507579]);
  ("InP", 2, [-708478; -668657; -621126; -559001; -485151; -411501; -338029; -265001; -192221; -119873; -48153]);
  ("InS", 2, [-1328837; -1308080; -1274654; -1235841; -1195503; -1154421; -1101664; -1012057; -948902; -886945; -826074; -766195; 719822; 662550; 606010; 550165; 494982; 440431]);
  ("InSb", 2, [-263217; -245032; -220546; -193150; -165365; -139093; -173417; -186641]);
  ("InSe", 2, [-1164825; -1144945; -1117478; -1073341; -1026981; -978957; -929614; -908040]);
  ("InTe", 2, [-740146; -737365; -727236; -713114; -697586; -661336; -618191; -587684; -581587; -574914]);
  ("Ir2S3", 5, [-1999378; -1949752; -1878906; -1798797; -1713578; -1625397; -1501372; -1225363; -952620; -683093]);
  ("IrBr3", 4, [-1419522; -1183888; -909260; -640460; -376706; -117453]);
  ("IrF6", 7, [-4709936; -4401583; -4095503; -3791950; -3490759; -3191677; -2894443; -2598821; -2304600; -2011596; -1719651; -1428626; -1138399; -848865; -559932; -271520; 16442; 304016]);
  ("IrO", 2, [4883226; 4770476; 4659721; 4550542; 4442718; 4336116; 4230649; 4126254; 4022885; 3920507; 3819092; 3718618; 3619067; 3520424; 3422677; 3325816; 3229833; 3134721]);
  ("IrO2", 3, [-1995261; -1799452; -1605522; -1413755; -1224120; -1036522; -850870; -667082; -485093; -304848]);
  ("IrS2", 3, [-1273123; -1240951; -1194101; -1140717; -1083686; -1024525; -941379; -756869; -574537; -394383; -216409; -40619]);
  ("J2Zy", 3, [-3664438; -3536662; -3414396; -3296738; -3178059; -3058032; -2965457; -2894066]);
  ("K2B4O7", 13, [-32497861; -31797049; -31084855; -30369998; -29654057; -28937824; -28221614; -27505497; -26712735; -25949885; -25204299; -24475210; -23761895; -23063679]);
  ("K2B8O13", 23, [-58148761; -56876417; -55593454; -54307468; -53021348; -51737812; -50458802; -49185458; -47829449; -46494423]);
  ("K2CO3", 6, [-11028038; -10721686; -10412074; -10105961; -9804198; -9507308; -9215637; -8929420; -8560068; -8135440; -7736581; -7344934; -6959918; -6581039; -6207870; -5840034; -5477201; -5119072]);
  ("K2Cr2O7", 11, [-19490445; -18858955; -18234179; -17628301; -17051919; -16540013]);
  ("K2Mg2(SO4)3", 19, [-38673833; -37484694; -36268396; -35046637; -33825143; -32606457; -31357551; -29946173; -28449521; -26892700]);
  ("K2O", 3, [-3119993; -2976046; -2827061; -2679118; -2532588; -2387622; -2244252; -2102443; -1873356]);
  ("K2O2", 4, [-4436886; -4196328; -3953349; -3714143; -3479144; -3248550; 312558; 202414; 183023; 232969; 282946; 332964; 383027; 433135; 483289; 533488; 583734; 634030]);
  ("K2S", 3, [-4065724; -4005910; -3931542; -3852939; -3772147; -3690277; -3596684; -3454497; -3231121; -2947487; -2680643; -2419969; -2162260; -1907309; -1654935; -1404976; -1157289; -911743]);
  ("K2S5", 7, [-4767206; -4724079; -4662217; -4648839]);
  ("K2SO4", 7, [-13669726; -13247964; -12814079; -12379702; -11947659; -11519699; -11089819; -10619103; -10064444; -9447328; -8837120; -8248965; -7677150; -7109984; -6547135; -5988308; -5433244; -4881709]);
  ("K2Si2O5", 9, [-24471981; -23954579; -23431776; -22913335; -22398665; -21888043; -21382395; -20881697; -20295141; -19643587; -18995887; -18375580; -17766665; -17163733]);
  ("K2SiO3", 6, [-14811986; -14481010; -14144432; -13809047; -13475613; -13144542; -12816067; -12490312; -12078577; -11602252]);
  ("K3AlF6", 10, [-32408479; -31831453; -31252387; -30680362; -30115941; -29559351; -29010572; -28461471; -27782680; -27009923; -26273811; -25623688; -24987277]);
  ("KAl(SO4)2", 12, [-23207148; -22397923; -21573546; -20747469; -19923179; -19102229; -18262624; -17318874; -16334068]);
  ("KAl(SiO3)2", 10, [-29599509; -29027250; -28451447; -27877583; -27306991; -26740565; -26179209; -25615536; -25005887; -24363976; -23724233; -23086480; -22450582; -21816429; -21175865; -20483054]);
  ("KAl3H6(SO7)2", 26, [-48298110; -46502824; -44692022; -42883921; -41083149]);
  ("KAl3Si3(HO6)2", 21, [-58104222; -56769250; -55431111; -54098573; -52773774; -51457129; -50165178; -48859027]);
  ("KAlFe3Si3(HO6)2", 22, [-49708701; -48485856; -47269256; -46064645; -44872257; -43691327; -42520765; -41350804]);
  ("KAlH24(SO10)2", 48, [-53236502]);
  ("KAlO2", 4, [-11047575; -10821788; -10592989; -10365071; -10138533; -9913529; -9691249; -9461919; -9184900; -8874862; -8566395; -8259445]);
  ("KAlSi3O8", 13, [-38773301; -37982078; -37201794; -36427808; -35657029; -34889818; -34126098; -33357703; -32544093; -31699826; -30859389; -30022646]);
  ("KAlSiO4", 7, [-20642699; -20233677; -19821379; -19410610; -19002344; -18596949; -18195230; -17788062; -17334516; -16848949; -16365705; -15884526; -15405200; -14927552; -14447394; -13941715]);
  ("KB3O5", 9, [-22683341; -22191000; -21693566; -21193962; -20692958; -20191485; -19690341; -19190143; -18646940]);
  ("KBF4", 6, [-18513958; -18180980; -17849999; -17536106; -17241200; -16949674; -16673868]);
  ("KBH4", 6, [-1655921; -1417188; -1174737; -931163; -687037]);
  ("KBO2", 4, [-9703729; -9495909; -9285325; -9075425; -8866658; -8659287; -8453428; -8249098; -8001863; -7722306; -7467266; -7222507; -6982332; -6746375; -6559356; -6476241; -6392715; -6308763]);
  ("KBr", 2, [-3941883; -3858360; -3757814; -3658474; -3560494; -3463954; -3368883; -3275277; -3163404; -3021489; -2882125; -2745111; -2436273; -2387124; -2350573; -2313952; -2277267; -2240522]);
  ("KCN", 3, [-1056683; -1014091; -971102; -929418; -888495; -847984; -808482; -785607; -719084; -619385; -520977; -423705; -327446; -232096; -137572; -43799; 49285; 141735]);
  ("KCl", 2, [-4235716; -4134643; -4031966; -3930564; -3830527; -3731907; -3634798; -3539373; -3415796; -3272398; -3131919; -2994129; -2858832; -2580005; -2543555; -2507031; -2470440; -2433784]);
  ("KClO4", 6, [-3129041; -2673483; -2219952; -1780903; -1367105; -959444]);
  ("KF", 2, [-5570086; -5462886; -5354012; -5246369; -5140086; -5035198; -4931681; -4829474; -4684108; -4525081; -4376190; -4229272; -4084271; -3746867; -3659579; -3620907; -3582156; -3543331]);
  ("KH", 2, [-350470; -262343; -171038; -80346; 9136; 97131; 818134; 768162; 763444; 793261; 822961; 852555; 882052; 911461; 940791; 970050; 999249; 1028394]);
  ("KHF2", 4, [-8904606; -8663652; -8429211]);
  ("KHO", 3, [-3924722; -3761884; -3598933; -3448871; -3307910; -3180902; -3057001; -2935787; -2772522; -2577584; -2385347; -1962935; -1869353; -1775901; -1682573; -1589364; -1496268; -1403274]);
  ("KI", 2, [-3347383; -3321852; -3252954; -3156838; -3062207; -2969131; -2877634; -2799724; -2693435; -2555173; -2419369; -2285829; -2022295; -1985810; -1949245; -1912605; -1875898; -1839126]);
  ("KMg3AlSi3(HO6)2", 22, [-60716676; -59368437; -58016906; -56669808; -55328629; -53993449; -52663754; -51307347]);
  ("KMg3AlSi3(O5F)2", 20, [-62400110; -61193694; -59986370; -58783498; -57585379; -56391696; -55201995; -53984382; -52715155; -51415491; -50119886; -48721642; -47148258; -45582252; -44069288; -42622786]);
  ("KMnO4", 6, [-7634887; -7283888; -6933697]);
  ("KNO2", 4, [-3128791; -2908622; -2689505; -2473182; -2259346; -2069841; -1885977; -1704614; -1480997; -1225493; -972476; -721707; -472990]);
  ("KNO3", 5, [-4085113; -3735054; -3401305; -3075692; -2773137; -2479022]);
  ("KO2", 3, [-2491079; -2336987; -2185794; -2039637; -1898026; -1760558]);
  ("KS", 2, [679605; 530113; 394902; 266449; 142813; 22927; -82477; -134829; -141592; -113491; -85190; -56694; -28008; 864; 29917; 59146; 88549; 118124]);
  ("La(HO)3", 7, [-13237846; -12775831; -12323379]);
  ("La2O3", 5, [-17675941; -17373312; -17074966; -16779955; -16487811; -16198568; -15911673; -15626676; -15343209; -15056277; -14758261; -14461457; -14165847; -13871408; -13578120; -13285957; -12994895; -12704906]);
  ("La2S3", 5, [-12392342; -12342735; -12272918; -12193961; -12109644; -12022215; -11898282; -11621279; -11346102; -11067720; -10778487; -10490679; -10204264; -9919218; -9635518; -9353147; -9072092; -8792340]);
  ("La2Se3", 5, [-9549335; -9508514; -9464898; -9381411; -9294027; -9204471; -9113118; -9019885; -8784144; -8517533; -8240625; -7965698; -7692713]);
  ("La2Te3", 5, [-8033458; -8001192; -7969075; -7935956; -7901239; -7806378; -7691788; -7574705; -7455273; -7328898; -7188291; -6979557; -6729694]);
  ("LaB6", 7, [-4121466; -4112613; -4104147; -4094263; -4082338; -4068616; -4053172; -4036151; -4017719; -3995698; -3966575; -3936763; -3906498; -3875993; -3845447; -3815040; -3784941; -3755307]);
  ("LaBr3", 4, [-9067403; -8860438; -8612922; -8369995; -8131236; -7896545; -7665559; -7437976; -7234393; -7064987; -6893491; -6087595; -6029642; -5971117; -5912052; -5852474; -5792410; -5731880]);
  ("LaCl3", 4, [-10312132; -10052517; -9798886; -9550295; -9306307; -9066820; -8831475; -8599979; -8372088; -8180284; -8003408; -7831859; -7665246; -6954331; -6903034; -6851224; -6798927; -6746164]);
  ("LaF3", 4, [-16824913; -16564493; -16309041; -16057662; -15809737; -15564939; -15322743; -15082793; -14844894; -14606652; -14364467; -14124786; -13887986; -13654513; -13424879; -13209632; -13018246; -12830987]);
  ("LaFeO3", 5, [-13586469; -13304105; -13025730; -12750560; -12478190; -12208505; -11941119; -11675488]);
  ("LaI3", 4, [-6859720; -6831722; -6683594; -6454162; -6228431; -6006181; -5787140; -5571342; -5386080; -5231666; -5076328; -4430723; -4379167; -4327017; -4274306; -4221062; -4167310; -4113071]);
  ("LaN", 2, [-2807151; -2694949; -2583399; -2472461; -2362146; -2252623; -2143716; -2035274; -1927167; -1816941; -1700825; -1585000; -1469487; -1354304; -1239469; -1124996]);
  ("LaO", 2, [-1506808; -1588337; -1667504; -1744525; -1819695; -1893431; -1965767; -2036725; -2106321; -2172225; -2230771; -2288230; -2344700; -2400269; -2455010; -2508994; -2562278; -2614918]);
  ("LaPO4", 6, [-18456687; -18029519; -17602571; -17166321; -16721365; -16279802; -15841431; -15406081; -14973611; -14541561; -14106161; -13673592; -13243879; -12817044]);
  ("LaS", 2, [-4662127; -4639354; -4609315; -4575616; -4539552; -4501986; -4451784; -4350091; -4248543; -4144681; -4034737; -3924890; -3815164; -3705578; -3596152; -3486900; -3377839; -3268984]);
  ("Li2B4O7", 13, [-37986891; -37527627; -37297151; -37175134; -37119531; -37106297; -37122347; -37160004; -37214524; -36078221; -36266276; -36468700; -36684401; -36912441; -37036768; -37102026; -37178347; -37265120]);
  ("Li2B8O13", 23, [-57930285; -56715734; -55498654; -54277622; -53059790; -51845046; -50633221; -49424173]);
  ("Li2BeF4", 7, [-22520880; -22167163; -21809501; -21447631; -21090522; -20782563; -20504314; -20234691; -19972687; -19717488; -19468421; -19224918; -18986496]);
  ("Li2CO3", 6, [-11728639; -11436557; -11138065; -10833867; -10535314; -10243469; -9955545; -9676191; -9446136; -9221070; -9000488; -8783973; -8571175; -8361799; -8040352; -7651970; -7267223; -6885893]);
  ("Li2ClF", 4, [-7804616; -7798377; -7780594; -7750998; -7718114; -7682693; -7645213; -7606002; -7565296; -7523270; -7480059; -7435774; -7390501; -7344316; -7182044; -6949097; -6716290; -6483619]);
  ("Li2H2SO5", 10, [-16150615; -15538657; -14911506]);
  ("Li2MoO4", 7, [-14601972; -14218950; -13832561; -13441350; -13053295; -12668916; -12288616; -11926346; -11608217; -11295573; -10987852; -10684579; -10385346]);
  ("Li2O", 3, [-5814864; -5686265; -5549519; -5404224; -5258726; -5113614; -4969233; -4825802; -4683463; -4542310; -4402412; -4263815; -4126552; -3990648; -3740879; -3422615]);
  ("Li2O2", 4, [-5935514; -5721415; -5500578; 797920; 661820; 528516; 397599; 268773; 141811; 16534; -107203; -229522; -350524; -470296; -473674; -406082; -338342; -270458]);
  ("Li2SO4", 7, [-13685546; -13282854; -12866714; -12441833; -12018653; -11599068; -11191254; -10756050; -10327852; -9911101; -9501865; -9097147; -8696573; -8299822; -7791377; -7216353; -6645299; -6077979]);
  ("Li2Si2O5", 9, [-25018231; -24512360; -23999233; -23479839; -22962979; -22449342; -21939226; -21432737; -20929882; -20430612; -19935788]);
  ("Li2SiO3", 6, [-16129261; -15811985; -15487354; -15155528; -14824947; -14496166; -14169459; -13844960; -13522727; -13202778; -12885100; -12569669]);
  ("Li2Ti3O7", 12, [-34501495; -33803252; -33102889; -32400679; -31705029; -31016494; -30335399; -29661961]);
  ("Li2TiO3", 6, [-16368148; -16051910; -15729387; -15399934; -15071451; -14744143; -14418055; -14093174; -13769466; -13445247; -13120294; -12796766; -12475764; -12163359; -11737954; -11244682; -10804792; -10376372]);
  ("Li3AlF6", 10, [-33237817; -32685012; -32128284; -31566509; -31011699; -30465765; -29929518; -29393766; -28898102; -28462871; -28038870; -27625200; -27221094]);
  ("Li3N", 4, [-1331005; -1204314; -1065390; -913874; -762773; -613475; -466944; -323866]);
  ("Li4P2O7", 13, [-32483533; -31714234; -30929426; -30106745; -29263566; -28425094; -27592348]);
  ("LiAl(Si2O5)2", 16, [-47769782; -46808201; -45842847; -44877229; -43916690; -42961648; -42011968; -41059380; -40107615; -39160437; -38217593]);
  ("LiAl(SiO3)2", 10, [-29750589; -29146343; -28537933; -27926990; -27318425; -26712792; -26110261; -25502867; -24919419; -24345427; -23774553; -23206791; -22642162; -22080715; -21456840]);
  ("LiAlCl4", 6, [-10887750; -10483049; -10122017; -9777198; -9441848; -9114334; -8793420; -8470228]);
  ("LiAlF4", 6, [-18838129; -18695085; -18546627; -18392902; -18238119; -18082490; -17926064; -17760902; -17591104; -17420790; -17250020; -17078836; -16907273; -16735358; -16505495; -16240383; -15975422; -15710607])].

Definition freed_9 : list (string * Z * list Z) := [
  ("LiAlH4", 6, [-496810; -255049; -6123; 249521; 506788; 764951; 1023766; 1291083; 1562779; 1834746; 2106948; 2379373; 2652016; 2924882; 3255593; 3621474; 3987146; 4352631]);
  ("LiAlO2", 4, [-11717601; -11499741; -11278001; -11052630; -10827743; -10603454; -10379740; -10148617; -9914158; -9680463; -9447582; -9215551; -8984401; -8754153; -8467209; -8146262; -7826709; -7508535]);
  ("LiAlSiO4", 7, [-20711607; -20313478; -19911419; -19507000; -19105048; -18705927; -18309590; -17907874; -17504588; -17103534; -16704440; -16308661; -15915792; -15525940]);
  ("LiB3O5", 9, [-22806959; -22326992; -21846410; -21363191; -20880765; -20399179; -19918495; -19438743; -18959920; -18481994]);
  ("LiBF4", 6, [-18155883; -17841326; -17526959; -17215978; -16932020]);
  ("LiBH4", 6, [-1288958; -1058937; -823100; -581789; -339762; -97663]);
  ("LiBO2", 4, [-9978001; -9782318; -9582908; -9379607; -9176741; -8974850; -8774358; -8575617; -8378921; -8211420; -8053864; -7900524; -7751033; -7605078; -7404764; -7172529; -6943543; -6728615]);
  ("LiBeF3", 5, [-16310630; -16048802; -15785737; -15521884]);
  ("LiBr", 2, [-3543099; -3479008; -3398041; -3314578; -3232473; -3151932; -3090385; -3035953; -2983351; -2932415; -2883008; -2835014; -2680563; -2725903; -2718011; -2674616; -2631135; -2587575]);
  ("LiC", 2, [-290642; -285502; -278209; -267858; -258116; -248939; -240273; -232073; -224306; -216949; -209985; -203404; -197198; -191364; -128282; -30629; 66211; 162260]);
  ("LiCl", 2, [-3982192; -3898967; -3814023; -3726515; -3640345; -3555689; -3476560; -3418113; -3361229; -3305765; -3251605; -3198647; -2974077; -2992861; -2984780; -2941191; -2897516; -2853764]);
  ("LiClO4", 6, [-2626868; -2188067; -1751730; -1373960; -1010028; -653152; -302267; 43431; 384568; 721643; 1055062; 1385162; 1712227]);
  ("LiF", 2, [-6089341; -5991489; -5891141; -5787625; -5684843; -5582958; -5482104; -5382415; -5284028; -5206781; -5136315; -5067200; -4705548; -4664241; -4575481; -4460382; -4345355; -4287556]);
  ("LiFeO2", 4, [-7196554; -7004539; -6810944; -6614883; -6419909; -6225774; -6032177; -5838578; -5643912; -5448849; -5253905; -5060027; -4867221; -4675535; -4427253; -4144854; -3856894; -3569976]);
  ("LiH", 2, [-707239; -628936; -546122; -458949; -372071; -286059; -201409; -127726; -71260; -16847; 36009; 87725; 458408; 402549; 404769; 442359; 479915; 517437]);
  ("LiH3O2", 6, [-7051673; -6677738; -6299266]);
  ("LiHO", 3, [-4546839; -4386823; -4223762; -4057734; -3893038; -3746521; -3616129; -3488747; -3364038; -3241728; -3121587; -3003421; -2887065; -2772375; -2601608; -2397332; -2199019; -2100053]);
  ("LiI", 2, [-2801398; -2797838; -2751261; -2673975; -2598405; -2536655; -2485461; -2436041; -2388220; -2341859; -2296836; -2253049; -2141877; -2140504; -2133089; -2090175; -2047182; -2004119]);
  ("LiN", 2, [3210172; 3124901; 3044779; 2970227; 2897151; 2825272; 2754408; 2684432; 2615247; 2546778; 2478963; 2411752; 2345102; 2278977; 2270963; 2298353; 2325737; 2353118]);
  ("LiNO2", 4, [-3063551; -2814394; -2567983; -2338161; -2110615; -1884918; -1660732; -1437794; -1215897; -994884; -774628; -555032; -336020]);
  ("LiNO3", 5, [-3943801; -3589958; -3236508; -2919330; -2624743; -2337061; -2055261]);
  ("LiPO3", 5, [-12060174; -11741638; -11420146; -11085610; -10742524; -10402933; -10066858]);
  ("Lu2O3", 5, [-18534846; -18225727; -17919946; -17617517; -17318049; -17021125; -16726368; -16433439; -16142027; -15851841; -15562606; -15274049; -14985906; -14697915; -14409811; -14121333; -13832216; -13529441]);
  ("LuCl3", 4, [-6388876; -6354707; -6320656; -6286636; -6252555; -6218322; -6183850; -6149054; -6113852; -6078161; -6041897; -6004977; -5967315; -5928829; -5889431; -5849036; -5807558; -5758532]);
  ("LuF3", 4, [-16614810; -16347544; -16084525; -15825206; -15569131; -15315949; -15065396; -14817267; -14571401; -14327667; -14100553; -13881076; -13671873; -13476004; -13281764; -13089543; -12082749; -12025295]);
  ("LuFeO3", 5, [-13079363; -12802097; -12529246; -12259759; -11993004; -11728524; -11465958; -11204768]);
  ("LuO", 2, [-253465; -343666; -431612; -517854; -602670; -686207; -768547; -849726; -929755; -1008624; -1086308; -1162773; -1237975; -1311864; -1384385; -1455476; -1525075; -1586738]);
  ("LuS", 2, [1530576; 1357588; 1195334; 1039221; 887537; 739375; 605583; 524811; 445281; 367000; 289993; 214290; 139935; 66974; -4540; -74550; -142997; -203439]);
  ("Mg(FeO2)2", 7, [-13643310; -13258723; -12879979; -12507324; -12141747; -11780922; -11422282; -11056216; -10685795; -10314083; -9942319; -9535610; -9069638; -8605428; -8142749; -7681081]);
  ("Mg(HO)2", 5, [-8639002; -8322502; -8007413; -7694774; -7384615; -7076698; -6770814; -4834581; -4710259; -4585227; -4459486; -4297512; -4075165; -3853303; -3631909; -3410966; -3190457; -2970365]);
  ("Mg(NO3)2", 9, [-6094250; -5395350; -4702322; -4018631]);
  ("Mg2Al4Si5O18", 29, [-89603645; -87823544; -86041376; -84265138; -82497006; -80736724; -78983207; -77187935; -75377836; -73573315; -71774273; -69909683; -67931404; -65961397; -63979784]);
  ("Mg2C3", 5, [681717; 660060; 633432; 603569; 571792; 539021; 505894; 488543; 476003; 464067; 452888; 513626; 694631; 874237; 1052508; 1229496; 1405242; 1579782]);
  ("Mg2Si", 3, [-780561; -771706; -762590; -753218; -743538; -733488; -723009; -696355; -664761; -632617; -599893; -507576; -331620; -157373; 19319; 221442; 422006; 621095]);
  ("Mg2SiO4", 7, [-21288701; -20873185; -20458125; -20044611; -19632858; -19222835; -18814429; -18391821; -17966152; -17541720; -17118399; -16625017; -16013179; -15404488; -14794762; -14160972; -13530052; -12901852]);
  ("Mg2TiO4", 7, [-21198709; -20787614; -20378311; -19971462; -19566990; -19164673; -18764287; -18349947; -17932773; -17515423; -17097616; -16610422; -16005492; -15404474; -14807271; -14213791]);
  ("Mg3(PO4)2", 13, [-36661709; -35814772; -34966947; -34100348; -33216231; -32338276; -31466189; -30576145; -29684800; -28798558; -27917215; -26934004; -25776339; -24626630; -23543419]);
  ("Mg3Al2(SiO4)3", 20, [-61485495; -60264505; -59044575; -57829970; -56621593; -55419157; -54221945; -52989765; -51747024; -50507987; -49272245; -47932860; -46417110]);
  ("Mg3N2", 5, [-4147350; -3938447; -3729618; -3520641; -3311342; -3101599; -2892310; -2659267; -2419171; -2178627; -1936750; -1586789; -1056195; -527431; -364; 525123; 1049133; 1571756]);
  ("Mg3Si2H4O9", 18, [-41773592; -40632576; -39492669; -38358502; -37231433; -36111433; -34997874]);
  ("Mg3Si4(HO6)2", 21, [-57190000; -55866994; -54545535; -53229841; -51921051; -50621173]);
  ("Mg7Si8(HO12)2", 41, [-117522905; -114995562; -112476396; -109972859; -107486151; -105015606; -102559997; -100063077; -97563050; -95074253]);
  ("MgAl2O4", 7, [-22551413; -22124151; -21696715; -21270632; -20846146; -20423121; -20001312; -19556792; -19103275; -18651141; -18200466; -17715794; -17173045; -16633132; -16096088; -15561943; -15030722; -14502449]);
  ("MgB2", 3, [-927585; -918787; -909395; -898731; -886557; -872895; -857836; -833642; -806062; -777413; -747792; -681762]);
  ("MgB4", 5, [-1074919; -1070138; -1063474; -1053843; -1041132; -1025669; -1007825; -980079; -948337]);
  ("MgBr", 2, [-787269; -894130; -983557; -1071129; -1156982; -1241206; -1323862; -1397157; -1466769; -1534948; -1601726; -1631610; -1600489; -1569248; -1537898; -1506448; -1474904; -1443275]);
  ("MgBr2", 3, [-5222919; -5089061; -4928187; -4770481; -4615512; -4462914; -4312412; -4162635; -4048313; -3937083; -3828589; -3687010; -3568566; -3477447; -3386548; -3295857; -3205361; -3115049]);
  ("MgC2", 3, [835477; 822466; 805733; 786534; 765786; 744111; 721938; 707405; 695081; 682898; 670957; 694856; 778784; 861918; 944296; 1025950; 1106905; 1187181]);
  ("MgCO3", 5, [-10663274; -10372526; -10083547; -9796862; -9512573; -9230713; -8951314; -8666576]);
  ("MgCl", 2, [-728146; -819357; -908536; -995889; -1081536; -1165558; -1248013; -1321104; -1390509; -1458478; -1525044; -1554713; -1523375; -1491916; -1460347; -1428677; -1396914; -1365066]);
  ("MgCl2", 3, [-6161158; -5991214; -5825111; -5662119; -5501651; -5343304; -5186824; -5032684; -4912186; -4793680; -4676902; -4526104; -4316963; -4110179; -3969364; -3877272; -3785365; -3693630]);
  ("MgClF", 3, [-5950608; -5967090; -5981617; -5994476; -6005797; -6015654; -6024091; -6023296; -6018932; -6013234; -6006222; -5962391; -5857618; -5752782; -5647881; -5542918; -5437890; -5332799]);
  ("MgCr2O4", 7, [-17292148; -16894784; -16500029; -16108248; -15719267; -15332719; -14948178; -14557374; -14165541; -13774520; -13383973; -12958068; -12472392; -11987554; -11503313; -11019450]);
  ("MgF", 2, [-2724783; -2813595; -2900210; -2984910; -3067854; -3149142; -3228844; -3299168; -3365795; -3430977; -3494747; -3521610; -3487457; -3453171; -3418763; -3384239; -3349608; -3314874]);
  ("MgF2", 3, [-11098083; -10914625; -10733595; -10554834; -10378043; -10202943; -10029303; -9849088; -9667783; -9487477; -9308068; -9093949; -8820911; -8574965; -8345390; -8117991; -7892643; -7669231]);
  ("MgFe5Si8(HO12)2", 40, [-94868587; -92586009; -90318551; -88073325; -85851498; -83651631; -81471253; -79298589]);
  ("MgH", 2, [1456120; 1359146; 1264823; 1172626; 1082219; 993394; 906016; 827844; 753179; 679767; 607575; 572105; 597476; 622812; 648117; 673392; 698642; 723871]);
  ("MgH12SO10", 24, [-27255150; -25674019; -24097925]);
  ("MgH14SO11", 27, [-29733261; -27935190; -26146971]);
  ("MgH2", 3, [-373991; -234132; -89967; 57144; 179833; 300154; 418580]);
  ("MgH2SO5", 9, [-14878355; -14275598; -13673213]);
  ("MgH4SO6", 12, [-17251559; -16447853; -15642124]);
  ("MgH8SO8", 18, [-22271986; -21066412; -19859675]);
  ("MgHO", 3, [-2319995; -2338769; -2353319; -2364870; -2374085; -2381354; -2386923; -2383110; -2375666; -2366886; -2356833; -2310027; -2202369; -2094750; -1987179; -1879664; -1772210; -1664819]);
  ("MgI", 2, [-308151; -490554; -629227; -737660; -844538; -949948; -1053952; -1148753; -1240029; -1330030; -1418788; -1470807; -1461978; -1453186; -1444440; -1435749; -1427120; -1418561]);
  ("MgI2", 3, [-3743614; -3717092; -3610834; -3450837; -3293776; -3139298; -2987101; -2860805; -2737707; -2617285; -2555410; -2525928; -2435813; -2345919; -2256232; -2166737; -2077421; -1988272]);
  ("MgMoO4", 6, [-13421991; -13057754; -12696891; -12339877; -11986652; -11637001; -11290655; -10939483; -10588832; -10240622]);
  ("MgN", 2, [2692682; 2593911; 2496785; 2401065; 2306664; 2213549; 2121709; 2038982; 1959726; 1881722; 1804963; 1764966; 1785859; 1806773; 1827711; 1848676; 1869670; 1890696]);
  ("MgNi2", 3, [-560869; -556447; -550549]);
  ("MgO", 2, [-5897448; -5785109; -5673037; -5561464; -5450357; -5339616; -5229132; -5110961; -4990653; -4870344; -4749972; -4593955; -4378111; -4163256; -3949343; -3736327; -3524166; -3312825]);
  ("MgS", 2, [-3538395; -3522185; -3498599; -3471464; -3441997; -3410768; -3366698; -3263131; -3157379; -3051575; -2945658; -2804051; -2602575; -2402056; -2202453; -2003727; -1805847; -1608782]);
  ("MgSO4", 6, [-12165333; -11765956; -11359547; -10951234; -10542864; -10135372; -9717913; -9243979; -8770978; -8301100; -7834304; -7335014; -6789685; -6247527; -5708284; -5171747; -4637731; -4106074]);
  ("MgSiO3", 5, [-15195302; -14907842; -14621487; -14336885; -14054200; -13773431; -13494502; -13209449; -12732537; -12427521; -12123484; -11785063; -11387216; -10990679; -10591296; -10166083; -9764075; -9384605]);
  ("MgTi2O5", 8, [-24510863; -24014860; -23521851; -23032333; -22546084; -22062772; -21582093; -21095945; -20609762; -20122303; -19633067; -19110815; -18531296; -17955246; -17382529; -16813013]);
  ("MgTiO3", 5, [-15428414; -15139645; -14853105; -14569151; -14287541; -14007938; -13730029; -13445701; -13160373; -12874431; -12587541; -12266250; -11886302; -11508443; -11132552; -10758516]);
  ("MgUO4", 6, [-18123658; -17752233; -17385293; -17021729; -16660667; -16301377; -15943222; -15576101; -15203930; -14830576; -14458255; -14051290]);
  ("MgWO4", 6, [-14720762; -14333841; -13949842; -13569115; -13191514; -12816848; -12444965; -12067913; -11691262; -11317186; -10945666; -10541174; -10079580; -9621755; -9167706; -8717437; -8270961; -7828286]);
  ("Mn(FeO2)2", 7, [-11538738; -11198690; -10870267; -10554490; -10248294]);
  ("Mn10Si17", 27, [-9292882; -9208770; -9122920; -9034936; -8943469; -8847173; -8744902; -8631010; -8490822; -8343384; -8189004; -8021256]);
  ("Mn15C4", 19, [-679908; -301459; 77181; 459502; 847217; 1241198; 1641882; 2056533; 2506104; 2961113; 3420334; 3892764; 4405039]);
  ("Mn23C6", 29, [-2577867; -2591791; -2605066; -2612405; -2611205; -2600164; -2578649; -2535553; -2438781; -2333557; -2221778; -2089654; -1896341]);
  ("Mn2B", 3, [-939026; -934599; -928972; -922270; -914484; -905624; -895696; -883763; -867042; -849462; -831179; -810981; -785303; -744475; -699816; -654296]);
  ("Mn2O3", 5, [-9127167; -8857239; -8589026; -8322533; -8057586; -7794008; -7531653; -7269457; -7004536; -6740735; -6478136]);
  ("Mn2P", 3, [-1729769; -1712752; -1694334; -1664266; -1622855; -1581884; -1541232; -1499853; -1454877; -1410155; -1365775]);
  ("Mn2SiO4", 7, [-16889052; -16540582; -16193983; -15849525; -15506856; -15165560; -14825265; -14484719; -14140886; -13797490; -13454518; -13110621; -12762119; -12399249; -12075860; -11740040; -11407371; -11077660]);
  ("Mn3B4", 7, [-2453685; -2452302; -2451974; -2452048; -2451924; -2451314; -2450037; -2446547; -2436569; -2425915; -2414753; -2401206; -2379877; -2336218; -2287166; -2237138; -2186324; -2134889]);
  ("Mn3C", 4, [57079; 59060; 59186; 58268; 56982; 55790; 54984; 56155; 63573; 71381; 79339; 78686; 83169; 108752; 138752; 168969]);
  ("Mn3O4", 7, [-13318007; -12964085; -12613475; -12265858; -11920449; -11576443; -11233150; -10888656; -10538577; -10188923; -9840398; -9491982; -9146113; -8785353; -8420297; -8055123]);
  ("Mn3P", 4, [-1760098; -1710417; -1663168; -1607379; -1542551; -1479778; -1418371; -1356353; -1289076; -1222030; -1155106]);
  ("Mn3Si", 4, [-1079987; -1068909; -1059073; -1050682; -1043736; -1038182; -1033960; -1029601]);
  ("Mn4N", 5, [-1082035; -999499; -919827; -842528]);
  ("Mn5N2", 7, [-1605937; -1438607; -1276712; -1120563; -970475; -826726]);
  ("Mn5Si3", 8, [-2905606; -2929366; -2953642; -2977782; -3001329; -3023951; -3045402; -3063145; -3070077; -3075915; -3080966; -3082143; -3070486; -3052614; -3098706; -3064657; -3031646; -2999614]);
  ("Mn7C3", 10, [-1124445; -1125574; -1130467; -1136317; -1141654; -1145669; -1147910; -1144826; -1126535; -1106725; -1085924; -1059900; -1016205]);
  ("Mn7SiO12", 20, [-40866154; -39772843; -38686048; -37606361; -36533020; -35465137; -34401941; -33339511; -32267599; -31199557; -30135612; -29071263; -27993822]);
  ("MnAs", 2, [-636168; -650562; -666239; -681637; -696603]);
  ("MnB", 2, [-748568; -746390; -743882; -740885; -737305; -733133; -728381; -722592; -714392; -705761; -696790; -686887; -674279; -654142; -632144; -609777; -587121; -564248]);
  ("MnB2", 3, [-977522; -977300; -976099; -973969; -970846; -966748; -961703; -955266; -946066; -936087; -925420; -913472; -898468; -875583; -850479; -824646; -798160; -771089]);
  ("MnCO3", 5, [-8448688; -8194886; -7943557; -7694997; -7448721]);
  ("MnCl2", 3, [-4563022; -4423417; -4287257; -4153865; -4022779; -3893665; -3766279; -3672792; -3589115; -3507195; -3426839; -3347212])].

Definition freed_10 : list (string * Z * list Z) := [
  ("MnF2", 3, [-8362655; -8217643; -8075597; -7935991; -7798433; -7662634; -7528378; -7395030; -7262698; -7132159]);
  ("MnH10SO9", 21, [-22342886; -20971521; -19610789]);
  ("MnH14SO11", 27, [-27215895; -25439691; -23671635]);
  ("MnH2SO5", 9, [-12527503; -11944884; -11360284]);
  ("MnH8SO8", 18, [-19880388; -18702006; -17523370]);
  ("MnO", 2, [-3759916; -3682944; -3606941; -3531618; -3456715; -3382036; -3307434; -3232333; -3155261; -3078125; -3000959; -2923130; -2842832; -2755199; -2665900; -2576378; -2486688; -2396877]);
  ("MnO2", 3, [-4817646; -4627175; -4437878; -4249941; -4063187; -3877393]);
  ("MnP", 2, [-1146516; -1136041; -1124420; -1101396; -1067175; -1033435; -999963; -966114; -930354; -894528; -858612]);
  ("MnS", 2, [-2270820; -2286834; -2295992; -2301771; -2305171; -2306634; -2295008; -2230982; -2164830; -2098453; -2031895; -1964541; -1894619; -1817318; -1738336; -1659206; -1594556; 598466]);
  ("MnS2", 3, [-2331773; -2333503; -2321114; -2302323; -2279682]);
  ("MnSO4", 6, [-9919133; -9542505; -9160138; -8777107; -8395074; -8014746; -7625029; -7186537; -6749382]);
  ("MnSe", 2, [-1828799; -1845552; -1860793; -1861940; -1860792; -1857694; -1852814; -1845714; -1788187; -1721036; -1653709; -1585577; -1514837; -1436640]);
  ("MnSi", 2, [-810264; -805668; -801004; -796235; -791310; -786182; -780817; -774717; -766471; -758028; -749458; -740150; -728318; -729900; -745360; -734173; -723397; -713008]);
  ("MnSiO3", 5, [-12852808; -12573721; -12295812; -12019542; -11744826; -11471466; -11199263; -10927565; -10654821; -10382858; -10111632; -9840429; -9567368; -9287529; -9002451; -8690659]);
  ("MnTe", 2, [-1190825; -1204782; -1218881; -1231803; -1243207]);
  ("MnWO4", 6, [-12725635; -12372482; -12023151; -11677660; -11335619; -10996627; -10660344; -10326021; -9992040; -9660184; -9330379; -9001896; -8672846]);
  ("Mo(CO)6", 13, [-8945747; -8771166; -8607918; -8452145]);
  ("Mo(ClO)2", 5, [-6190991; -6067587; -5944633; -5822413; -5700928; -5580105; -5459855; -5340088; -5220716; -5101657; -4982834; -4864174; -4745608; -4627069; -4508494; -4389821; -4270989; -4151940]);
  ("Mo2C", 3, [-524444; -528006; -532966; -539009; -545863; -553355; -561378; -569863; -578756; -588014; -597594; -607448; -617525; -642959; -668624; -694454; -720363; -746264]);
  ("Mo2N", 3, [-566067; -473566; -383201; -295367; -210095; -127330; -46991; 31011; 106775; 180405; 252010; 321708; 389622]);
  ("Mo2S3", 5, [-4099607; -4055896; -3990781; -3916382; -3836821; -3754197; -3635578; -3364783; -3097016; -2832189; -2570217; -2311021; -2054524; -1800648; -1549316; -1300448; -1053965; -809785]);
  ("Mo3Se4", 7, [-3364042; -3321942; -3274403; -3172153; -3062871; -2948220; -2829075; -2705701; -2390947; -2040233; -1691078; -1343405; -997132; -652174; -308439]);
  ("MoBr", 2, [4227905; 4091211; 3971537; 3853343; 3736492; 3620874; 3506396; 3392983; 3280575; 3169124; 3058594; 2948960; 2840202; 2732312; 2625286; 2519127; 2413841; 2309441]);
  ("MoBr2", 3, [-1928449; -1807520; -1660927; -1518314; -1379027; -1242631; -1108816; -977348; -848043; -720747; -595332; -471686; 605192; 549252; 493679; 438523; 383829; 329637]);
  ("MoBr3", 4, [-2683563; -2503679; -2284813; -2071596; -1863148; -1658876; -1458355; -1261262; -1067342; -302645; -280537; -258309; -235943; -213414; -190695; -167753; -144553; -121053]);
  ("MoBr4", 5, [-2767397; -2513273; -2207390; -1796809; -1697744; -1599453; -1501773; -1404577; -1307762; -1211242; -1114941; -1018791; -922727; -826689; -730618; -634457; -538150; -441640]);
  ("MoC", 2, [-301854; -303908; -305469; -306572; -307260; -307576; -307562; -307254; -306678; -305851; -304786; -303483; -301939]);
  ("MoCl3", 4, [-3314587; -3064197; -2820020; -2581299; -2347409; -2117852; -1892221; -1670167]);
  ("MoCl4", 5, [-3956747; -3632312; -3460819; -3358423; -3257028; -3156407; -3056393; -2956856; -2857693; -2758817; -2660151; -2561627; -2463182; -2364756; -2266292; -2167734; -2069028; -1970120]);
  ("MoCl5", 6, [-4383142; -4030856; -3706474; -3482396; -3296471; -3112172; -2929233; -2747444; -2566639; -2386680; -2207448; -2028840; -1850765; -1673137; -1495881; -1318922; -1142193; -965627]);
  ("MoCl6", 7, [-3688800; -3403705; -3123599; -2847403; -2574347; -2303883; -2035604; -1769199; -1504417; -1241054; -978934; -717906; -457833; -198592; 59931; 317841; 575240; 832223]);
  ("MoF", 2, [2569824; 2450436; 2332910; 2216960; 2102406; 1989120; 1877001; 1765972; 1655971; 1546952; 1438879; 1331724; 1225469; 1120103; 1015618; 912014; 809295; 707466]);
  ("MoF2", 3, [-1812713; -1854974; -1897639; -1940422; -1983125; -2025624; -2067839; -2109718; -2151223; -2192325; -2232998; -2273217; -2312958; -2352194; -2390900; -2429047; -2466603; -2503536]);
  ("MoF3", 4, [-6177616; -6138979; -6099890; -6060576; -6021090; -5981449; -5941662; -5901735; -5861669; -5821460; -5781100; -5740577; -5699872; -5658964; -5617827; -5576429; -5534738; -5492716]);
  ("MoF4", 5, [-9494880; -9385821; -9277156; -9169080; -9061576; -8954575; -8847999; -8741767; -8635806; -8530045; -8424417; -8318862; -8213319; -8107732; -8002046; -7896208; -7790168; -7683875]);
  ("MoF5", 6, [-12282104; -12087953; -11895607; -11705356; -11517071; -11330533; -11145514; -10961801; -10779206; -10597562; -10416721; -10236553; -10056942; -9877786; -9698993; -9520479; -9342170; -9163997]);
  ("MoI", 2, [4571612; 4377878; 4227564; 4107241; 3988232; 3870435; 3753764; 3638146; 3523523; 3409847; 3297082; 3185202; 3074188; 2964028; 2854717; 2746255; 2638648; 2531904]);
  ("MoI2", 3, [-1092260; -1091898; -1013635; -882880; -756029; -632599; -512242; -394692; -279740; -167212; -56961; 1224052; 1164390; 1105053; 1046096; 987569; 929516; 871979]);
  ("MoI3", 4, [1271434; 1076677; 1006970; 1022769; 1038549; 1054377; 1070287; 1086294; 1102408; 1118637; 1134993; 1151490; 1168147; 1184987; 1202039; 1219333; 1236907; 1254800]);
  ("MoI4", 5, [696007; 514007; 497468; 593817; 689172; 783766; 877769; 971310; 1064492; 1157404; 1250122; 1342716; 1435251; 1527788; 1620386; 1713102; 1805994; 1899117]);
  ("MoO", 2, [2879373; 2765339; 2652214; 2540051; 2428873; 2318677; 2209441; 2101139; 1993746; 1887239; 1781602; 1676821; 1572891; 1469808; 1367578; 1266206; 1165706; 1066093]);
  ("MoO2", 3, [-5521187; -5327714; -5136315; -4947213; -4760363; -4575664; -4393017; -4212333; -4033540; -3856578; -3681400; -3507965; -3336243; -3166208; -2997840; -2831125; -2666051; -2502609]);
  ("MoO3", 4, [-6918603; -6652210; -6389056; -6129117; -5872231; -5618256; -5367093; -5118672; -4884781; -4689946; -4498850; -4311116; -2738125; -2679059; -2619597; -2559697; -2499317; -2438412]);
  ("MoOF4", 6, [-12368590; -12154746; -11941451; -11729317; -11518442; -11308768; -11100186; -10892576; -10685817; -10479797; -10274408; -10069551; -9865133; -9661067; -9457272; -9253670; -9050190; -8846762]);
  ("MoS2", 3, [-2768154; -2734136; -2685545; -2630417; -2571412; -2509836; -2423655; -2235341; -2048309; -1862447; -1677659; -1493859; -1310966; -1128906; -947610; -767010; -587041; -407640]);
  ("MoSe2", 3, [-1571878; -1546027; -1517850; -1462758; -1404547; -1343980; -1281430; -1216967; -1056966; -879092; -702068; -525828; -350307]);
  ("N2O", 3, [1080977; 1158470; 1236413; 1314234; 1391695; 1468696; 1545201; 1621205; 1696719; 1771764; 1846362; 1920540; 1994322; 2067734; 2140798; 2213539; 2285978; 2358134]);
  ("N2O3", 5, [1457826; 1655397; 1853433; 2051051; 2247905; 2443861; 2638881; 2832978; 3026186; 3218549; 3410119; 3600948; 3791087; 3980587; 4169497; 4357864; 4545732; 4733143]);
  ("N2O5", 7, [1229146; 1600052; 1969403; 2335988; 2699559; 3060199; 3418111; 3773530; 4126689; 4477809; 4827089; 5174707; 5520819; 5865564; 6209062; 6551416; 6892716; 7233038]);
  ("N79O21", 100, [-1333446; -1777928; -2222410; -2666892; -3111374; -3555856; -4000338; -4444820; -4889302; -5333784; -5778266; -6222748; -6667230; -7111712; -7556194; -8000676; -8445158; -8889641]);
  ("NClO", 3, [685776; 735887; 786059; 836093; 885910; 935482; 984801; 1033868; 1082691; 1131278; 1179641; 1227791; 1275738; 1323494; 1371068; 1418472; 1465715; 1512807]);
  ("NClO2", 4, [561641; 707892; 854914; 1001862; 1148372; 1294285; 1439546; 1584145; 1728099; 1871439; 2014200; 2156419; 2298134; 2439379; 2580189; 2720595; 2860627; 3000309]);
  ("NF", 2, [564658; 635007; 705916; 776827; 847501; 917839; 987804; 1057394; 1126620; 1195504; 1264067; 1332332; 1400322; 1468058; 1535557; 1602836; 1669910; 1736790]);
  ("NF2", 3, [416475; 570418; 691627; 743330; 794940; 846372; 897599; 948618; 999443; 1050092; 1100584; 1150939; 1201174; 1251306; 1301348; 1351312; 1401207; 1451040]);
  ("NF3", 4, [-936468; -791317; -645506; -499937; -354962; -210708; -67204; 75570; 217655; 359096; 499945; 640247; 780046; 919382; 1058289; 1196796; 1334930; 1472712]);
  ("NO", 2, [896877; 883964; 870966; 857928; 844867; 831788; 818692; 805577; 792443; 779291; 766121; 752935; 739736; 726526; 713311; 700094; 686883; 673682]);
  ("NO2", 3, [509683; 597217; 662505; 728370; 794486; 860675; 926840; 992932; 1058924; 1124807; 1190579; 1256248; 1321819; 1387303; 1452712; 1518055; 1583344; 1648588]);
  ("NO2F", 4, [-686010; -537601; -388017; -238250; -88746; 60292; 208776; 356676; 503996; 650754; 796978; 942698; 1087947; 1232756; 1377156; 1521175; 1664839; 1808173]);
  ("NOF", 3, [-520352; -466403; -412014; -357512; -303039; -248655; -194388; -140248; -86236; -32346; 21430; 75101; 128677; 182168; 235585; 288938; 342238; 395494]);
  ("NOF3", 5, [-994999; -762050; -528875; -296513; -65337; 164543; 393126; 620463; 846624; 1071683; 1295718; 1518800; 1740996; 1962367; 2182968; 2402849; 2622054; 2840622]);
  ("Na1900Ca100Mg475Al29Fe4525Si7971(H127O1600)15", 40905, [-98369848962; -95975466067; -93573768567; -91183238972; -88806514619; -86442979362; -84090702639; -81741998434; -79393310978]);
  ("Na24Al24Si51(H2O7)25", 324, [-793233243; -774067481; -754783155; -735602123]);
  ("Na2B4O7", 13, [-32087808; -31403025; -30706440; -30011249; -29319042; -28630784; -27947076; -27268362]);
  ("Na2B8O13", 23, [-57612577; -56375888; -55126697; -53879674; -52637164; -51400526; -50170377; -48946907]);
  ("Na2CO3", 6, [-10828669; -10533747; -10230870; -9932709; -9640597; -9355504; -9074111; -8796886; -8524570; -8239147; -7833677; -7433844; -7039190; -6649320; -6263893; -5882610; -5505208; -5131451]);
  ("Na2Ca2(SiO3)3", 16, [-46189298; -44976763; -43754795; -42537265; -41326923; -40127697; -38937691; -37751201; -36567360; -35333269; -33970989; -32614918; -31264986]);
  ("Na2Ca2Si2O7", 13, [-36915496; -35934998; -34946758; -33963445; -32985338; -32010162; -31039077; -30071609; -29106874; -28091903; -26948665]);
  ("Na2CaSiO4", 8, [-20958138; -20359268; -19750458; -19144774; -18544489; -17950359; -17364503; -16785650; -16212332; -15597669; -14856263]);
  ("Na2CrO4", 7, [-12791835; -12415436; -12031162; -11651133; -11276920; -10922643; -10573162; -10228336; -9896751; -9545689; -9067461; -8594045]);
  ("Na2H14SO11", 28, [-30373567; -28537529; -26697281]);
  ("Na2H16O9", 27, [-25601268]);
  ("Na2H20SO14", 37, [-37745921; -35371808; -33000985]);
  ("Na2Mg3Al2Si8(HO12)2", 41, [-116355263; -113794868; -111220533; -108653333; -106097630; -103554833; -101024954; -98467971; -95908119; -93319866]);
  ("Na2MoO4", 7, [-14027944; -13628576; -13221288; -12817490; -12417669; -12046802; -11686916; -11351790; -11038159; -10690297; -10215951; -9747129; -9283349]);
  ("Na2O", 3, [-3918688; -3779091; -3628250; -3477487; -3327494; -3178641; -3031171; -2885265; -2741393; -2560940; -2253518]);
  ("Na2O2", 4, [-4640587; -4416052; -4182528; -3951279; -3722896; -3498822; -3284001; 366135; 248251; 171447; 227301; 283235; 339240; 395312; 451446; 507639; 563891; 620200]);
  ("Na2S", 3, [-3673941; -3628836; -3566250; -3500737; -3433972; -3366816; -3288363; -3159893; -3033213; -2870424; -2583695; -2306625; -2042712; -1787465; -1534225; -1282868; -1033279; -785358]);
  ("Na2SO4", 7, [-13154312; -12738136; -12304639; -11890239; -11481761; -11076814; -10664446; -10205947; -9753062; -9275390; -8683108; -8095943; -7513485; -6935378; -6361311; -5791008; -5224225; -4660742]);
  ("Na2Si2O5", 9, [-24030254; -23517733; -22995054; -22475783; -21961421; -21452470; -20948930; -20450970; -19961908; -19458793; -18845115; -18237403; -17635143; -17037900; -16437224; -15787023; -15141163; -14499386]);
  ("Na2SiO3", 6, [-15134575; -14802367; -14459254; -14117584; -13778446; -13442373; -13109616; -12780269; -12454326; -12092302; -11602469; -11132243; -10690477; -10252381; -9813655; -9351185; -8891843; -8435446]);
  ("Na2Ti3O7", 12, [-33973659; -33266824; -32553474; -31845630; -31143377; -30446288; -29753796; -29065279; -28380182; -27653699; -26793354; -25938082; -25202989; -24478026; -23761200; -23051758]);
  ("Na2Ti6O13", 21, [-61722992; -60455391; -59184978; -57924308; -56673070; -55430153; -54194323; -52964457; -51739630; -50469836; -49061830; -47661033; -46267224; -44880283]);
  ("Na2TiO3", 6, [-15090320; -14755452; -14412042; -14072061; -13735819; -13402736; -13073111; -12747148; -12424981; -12065626; -11577318; -11245906; -10924337; -10607476]);
  ("Na2U2O7", 11, [-31104863; -30434635; -29758996; -29087831; -28420137; -27754778; -27090649; -26423359]);
  ("Na2UO4", 7, [-18429397; -18014419; -17591012; -17169976; -16751272; -16334610; -15919611; -15504190; -15086743]);
  ("Na2WO4", 7, [-14858278; -14456317; -14046103; -13639174; -13236063; -12836959; -12457195; -12115441; -11799965; -11450694]);
  ("Na2ZrO3", 6, [-16468465; -16128875; -15780908; -15436265; -15095250; -14757660; -14423123; -14091120; -13761869]);
  ("Na3AlF6", 10, [-32660057; -32083659; -31496245; -30914549; -30339749; -29772713; -29220630; -28670019; -28121347; -27520309; -26743507; -26055135; -25380708; -24719272; -24069993; -23432136; -22805047; -22188141]);
  ("Na3UO4", 8, [-19420171; -18982589; -18530168; -18079176; -17629847; -17182054; -16735514; -16288193; -15838507; -15329057]);
  ("Na4Ca(SiO3)3", 17, [-44979585; -43698291; -42397838; -41102693; -39813967; -38530796; -37253761; -35982506; -34716411; -33369649; -31765546; -30169875]);
  ("Na5Al3F14", 22, [-74337708; -73040146; -71725818; -70422222; -69129664; -67847766; -66575912; -65289675]);
  ("Na8690Ca1121Mn300Al1410Fe8962(Si9869O30000)2", 100221, [-260232539048; -254275576087; -248277419724; -242296617587; -236335847406; -230393315224; -224467459501; -218540963840; -212606974500; -206494508805]);
  ("Na8Al8Si17O50", 83, [-240836953; -235983365; -231088164; -226217455; -221383294; -216590858; -211841335; -207070073]);
  ("Na8Fe2O7", 17, [-26136418; -25346090; -24513617; -23683531; -22857338; -22035364; -21217707; -20404088; -19593112; -18628751]);
  ("NaAl(SiO3)2", 10, [-29550181; -28924854; -28293194; -27662938; -27035079; -26409952; -25787593; -25159966; -24531009; -23884922]);
  ("NaAl3Si3(HO6)2", 21, [-57690602; -56360446; -55023430; -53690701; -52364608; -51045965]);
  ("NaAlCl4", 6, [-10792620; -10454612; -10153023; -9873070; -9600921; -9335217; -9074914; -8811265]);
  ("NaAlF4", 6, [-18643697; -18494380; -18337483; -18179233; -18020115; -17860297; -17699793; -17530632; -17356874; -17162882; -16902852; -16643055; -16383479; -16124107; -15864926; -15605922; -15347084; -15088401]);
  ("NaAlH2CO5", 10, [-18499863; -17876931]);
  ("NaAlO2", 4, [-11098510; -10873273; -10641902; -10410713; -10180229; -9951715; -9724692; -9490315; -9252612; -8995937; -8674489; -8354554; -8036131; -7719222; -7403828; -7089951; -6777591; -6466750])].

Definition freed_11 : list (string * Z * list Z) := [
  ("NaAlSi3O8", 13, [-38454964; -37673704; -36885892; -36105339; -35342701; -34583900; -33828861; -33069403; -32309336; -31532770; -30693666; -29879419]);
  ("NaAlSiO4", 7, [-20499735; -20097742; -19700493; -19306232; -18914276; -18524600; -18136941; -17743029; -17267339; -16841948; -16353164; -15866530; -15381867; -14880606; -14409899; -13915109]);
  ("NaB3O5", 9, [-22436045; -21955316; -21468535; -20982707; -20498788; -20017322; -19538606; -19062831; -18483069]);
  ("NaBF4", 6, [-18132317; -17804211; -17477584; -17171100; -16876823; -16604555; -16337568]);
  ("NaBH4", 6, [-1313196; -1084314; -847611; -609669; -371599]);
  ("NaBO2", 4, [-9538230; -9340015; -9136351; -8933131; -8730860; -8529866; -8330327; -8132311; -7935798; -7720993]);
  ("NaBr", 2, [-3615488; -3538898; -3442737; -3347732; -3254046; -3161794; -3071129; -2982289; -2916788; -2838817; -2697001; -2557439; -2236201; -2148630; -2108976; -2069254; -2029471; -1989633]);
  ("NaCN", 3, [-799552; -764158; -726572; -690822; -656332; -622740; -597132; -576872; -557927; -520351; -418132; -317381; -217954; -119730; -22606; 73505; 168681; 213956]);
  ("NaCl", 2, [-3978952; -3883471; -3783819; -3685271; -3588003; -3492160; -3397878; -3305288; -3221668; -3140370; -2995268; -2852458; -2711776; -2573080; -2436244; -2301156; -2216239; -2176358]);
  ("NaClO3", 5, [-2711868; -2352464; -1993889; -1674325]);
  ("NaClO4", 6, [-2638310; -2193109; -1749826; -1323304]);
  ("NaF", 2, [-5630039; -5523188; -5411878; -5301510; -5192253; -5084204; -4977423; -4871960; -4767854; -4645428; -4467427; -4310685; -4156173; -4003738; -3853248; -3704586; -3364439; -3322507]);
  ("NaFe(SiO3)2", 10, [-26021899; -25425591; -24824403; -24224923; -23627520; -23032158; -22438584; -21846161; -21253603; -20641421]);
  ("NaFeO2", 4, [-6627135; -6423137; -6215581; -6010174; -5806979; -5606097; -5407865; -5211094; -5014082; -4797677; -4517073; -4240016; -3965021; -3691875; -3446109; -3209759; -2969329; -2731027]);
  ("NaH", 2, [-344688; -262186; -173663; -85496; 1610; 87292; 771337; 717836; 665103; 632790; 666681; 700489; 734213; 767859; 801432; 834937; 868380; 901767]);
  ("NaH3O2", 6, [-6515810; -6146806; -5772394]);
  ("NaH5O3", 9, [-9040357]);
  ("NaHCO3", 6, [-8815731; -8472847; -8124644]);
  ("NaHO", 3, [-3929650; -3767524; -3601458; -3442431; -3308079; -3177440; -3049952; -2925160; -2802677; -2662462; -2458411; -2256549; -2056652; -1858527; -1662003; -1466932; -1349423; -1254942]);
  ("NaI", 2, [-2948425; -2931215; -2868131; -2777769; -2688884; -2601668; -2516357; -2450539; -2395712; -2322955; -2186264; -2051744; -1749548; -1710084; -1670539; -1630922; -1591238; -1551494]);
  ("NaLiSO4", 7, [-13443674; -13034744; -12611103; -12184586; -11763198; -11352167; -10964120; -10536477; -10115707; -9681207]);
  ("NaN3", 4, [977021; 1228718; 1482987; 1734136]);
  ("NaNO2", 4, [-2944566; -2688254; -2440473; -2218520; -2018613]);
  ("NaNO3", 5, [-3797320; -3446215; -3095221; -2764027; -2466451; -2175641]);
  ("NaO2", 3, [-2264432; -2118791; -1971330; -1827044; -1685933; -1547933]);
  ("NaUO3", 5, [-14631177; -14344199; -14054747; -13767676; -13482551; -13198898; -12916250; -12632488]);
  ("Nb100B197", 297, [-256844702; -255780831; -254826516; -253945038; -253105882; -252294780; -251502532; -250722303; -249948526; -249176359; -248401397; -247619509; -246826740; -246019252; -245193289; -244345150; -243471174; -242567728]);
  ("Nb100C87", 187, [-135841250; -135074643; -134411408; -133821671; -133283459; -132782486; -132309609; -131858930; -131426572; -131009911; -130607097; -130216747; -129837748; -129469133; -129109991; -128759419; -128416486; -128080205]);
  ("Nb2C", 3, [-1923582; -1909034; -1895315; -1882163; -1869381; -1856845; -1844475; -1832219; -1820045; -1807927; -1795845; -1783781; -1771719; -1759641; -1747529; -1735365; -1723126; -1710792]);
  ("Nb2N", 3, [-2320590; -2228862; -2138083; -2048199; -1959198; -1871052; -1783720; -1697151; -1611287; -1526064; -1441419; -1357286; -1273600; -1190296; -1107310; -1024578; -942038; -859629]);
  ("Nb2O5", 7, [-18293843; -17831509; -17374036; -16921547; -16473775; -16030370; -15590967; -15155202; -14722699; -14293158; -13866293; -13441890; -13019786; -12599866; -12182059; -11775342; -11423165; -11075461]);
  ("Nb4C3", 7, [-4977807; -4945011; -4915621; -4888763; -4863809; -4840364; -4818185; -4797120; -4777071; -4757972; -4739775; -4722438; -4705928; -4690207; -4675237; -4660979; -4647387; -4634413]);
  ("Nb50C49", 99, [-70886784; -70553046; -70279502; -70055548; -69870405; -69715593; -69584661; -69472655; -69375689; -69290633; -69214900; -69146293; -69082907; -69023050; -68965190; -68907915; -68849909; -68789923]);
  ("Nb5Si3", 8, [-4689849; -4691724; -4693110; -4694147; -4694953; -4695611; -4696174; -4696674; -4697125; -4697529; -4697877; -4698151; -4698330; -4698384; -4686171; -4593006; -4500078; -4407334]);
  ("NbBr5", 6, [-5271373; -4948060; -4556067; -4207889; -3965735; -3768735; -3573163; -3378813; -3185518; -2993133; -2801534; -2610615; -2420278; -2230436; -2041012; -1851934; -1663134; -1474550]);
  ("NbCl3", 4, [-3034167; -2805446; -2581901; -2362824; -2147707; -1936170]);
  ("NbCl3O", 5, [-7434124; -7313610; -7194051; -7075460; -6957745; -6840791; -6724483; -6608717; -6493397; -6378438; -6263760; -6149294; -6034974; -5920741; -5806538; -5692315; -5578023; -5463618]);
  ("NbCl4", 5, [-6271135; -5966636; -5669915; -5379565; -5094498; -4946060; -4850106; -4754703]);
  ("NbCl5", 6, [-7083133; -6695534; -6332729; -6122087; -5934151; -5747856; -5562956; -5379254; -5196583; -5014804; -4833796; -4653452; -4473677; -4294385; -4115495; -3936935; -3758636; -3580535]);
  ("NbF5", 6, [-17607908; -17235646; -16891678]);
  ("NbN", 2, [-2133496; -2032582; -1932857; -1834711; -1738220; -1643349; -1550026; -1458166; -1367676; -1278467; -1190452; -1103548; -1017673; -932753; -850212; -769613; -689723; -610455]);
  ("NbO", 2, [-3923970; -3830275; -3737465; -3645531; -3554424; -3464092; -3374491; -3285581; -3197324; -3109687; -3022636; -2936139; -2850164; -2764679; -2679653; -2595052; -2510844; -2426997]);
  ("NbO2", 3, [-7670992; -7478060; -7287212; -7098700; -6912413; -6728320; -6546567; -6367663; -6193259; -6022753; -5854261; -5687197; -5521393; -5356704; -5193000; -5030165; -4868096; -4706697]);
  ("NbOF3", 5, [-13417991; -13290698; -13163232; -13036090; -12909426; -12783261; -12657559; -12532261; -12407299; -12282605; -12158112; -12033755; -11909476; -11785218; -11660930; -11536564; -11412077; -11287427]);
  ("NbS", 2, [3900481; 3715049; 3540146; 3371262; 3206702; 3045548; 2898617; 2804523; 2711438; 2619323; 2528146; 2437886; 2348525; 2260053; 2172462; 2085748; 1999908; 1914945]);
  ("NbSi2", 3, [-1412801; -1406575; -1399780; -1392336; -1384299; -1375758; -1366799; -1357501; -1347935; -1338162; -1328239; -1318216; -1308136; -1298041; -1279897; -1207968; -1136442; -1065339]);
  ("Nd2O3", 5, [-17829472; -17529142; -17233273; -16941199; -16652204; -16365656; -16080998; -15797721; -15515350; -15229527; -14941570; -14644290; -14348353; -14053299; -13759046; -13465525; -13172675; -12880443]);
  ("Nd2S3", 5, [-11497069; -11438156; -11358545; -11269392; -11174079; -11074067; -10935857; -10642752; -10349485; -10051628; -9750455; -9438715; -9126738; -8814582; -8502300; -8189941; -7877545; -7565152]);
  ("NdB6", 7, [-3141781; -3139068; -3136833; -3133623; -3129039; -3123305; -3116751; -3109695; -3102406; -3093158; -3083006; -3068686; -3055674; -3044274; -3034748; -3027326; -3022213; -3019585]);
  ("NdBr3", 4, [-8721351; -8515979; -8269699; -8027838; -7789848; -7555288; -7323789; -7117511; -6943560; -6772665; -6604978; -5865409; -5807882; -5749563; -5690496; -5630714; -5570240; -5509089]);
  ("NdCl3", 4, [-10012365; -9754034; -9501469; -9253875; -9010763; -8771781; -8536647; -8305121; -8111577; -7936375; -7763675; -6939195; -6888940; -6837892; -6786097; -6733587; -6680382; -6626496]);
  ("NdF3", 4, [-16614175; -16353198; -16097456; -15845990; -15598048; -15353054; -15110552; -14870171; -14631600; -14392623; -14153889; -13911793; -13671531; -13433167; -13214261; -13016646; -11999726; -11941934]);
  ("NdFeO3", 5, [-13185350; -12870102; -12558204; -12249452; -11943707; -11640823; -11340647; -11042785]);
  ("NdI3", 4, [-6578720; -6552361; -6405717; -6178073; -5954620; -5734942; -5527647; -5330857; -5152488; -5000887; -4852539; -4247861; -4196437; -4144200; -4091194; -4037454; -3983002; -3927853]);
  ("NdO", 2, [-1547030; -1627380; -1704961; -1780142; -1853065; -1923770; -1992237; -2058410; -2122214; -2181606; -2237365; -2285986; -2332737; -2377737; -2421088; -2462885; -2503209; -2542133]);
  ("NdPO4", 6, [-18354351; -17922416; -17491343; -17051640; -16603655; -16159037; -15717489; -15278733; -14842515; -14406650; -13971803; -13534374; -13099550; -12667384]);
  ("NdS", 2, [-4759916; -4741082; -4715269; -4686128; -4654721; -4621469; -4575143; -4476785; -4377912; -4276343; -4172739; -4063497; -3953798; -3843690; -3733211; -3622397; -3511281; -3399890]);
  ("Ni(CO)4", 9, [-5850119; -5805779; -5767681; -5732960; -5699564; -5667189; -5635450; -5604006]);
  ("Ni(HO)2", 5, [-2413882; -2333124; -2247230; -2158022; -2066120; -1972771; -1878517; -1783585; -1688101; -1592129; -1495698; -1398815; -1301474; -1203660; -1105355; -999125; -889492; -779365]);
  ("Ni10Te11", 21, [-5925625; -5920735; -5911131; -5891919; -5856025; -5593514; -5255356; -4905743]);
  ("Ni20Se21", 41, [-15573261; -15590675; -15587002; -15299846; -14971978; -14627326; -14277229; -13926963]);
  ("Ni2B", 3, [-662630; -662926; -662057; -659782; -655295; -649997; -644362; -638508; -632501; -626380; -620166]);
  ("Ni3B", 4, [-898115; -889728; -879976; -868502; -854052; -838657; -822958; -807069; -791038; -774878; -758581; -742132]);
  ("Ni3C", 4, [356339; 342138; 324988; 306905; 290008; 272814]);
  ("Ni3S2", 5, [-2197601; -2174323; -2135759; -2089726; -2037994; -1984386; -1954559; -1851349; -1760670; -1687119; -1617890; -1552421; -1490225; -1430882; -1374018; -1297068]);
  ("Ni3S4", 7, [-3023340; -2986517; -2922020; -2846466; -2764970; -2683025; -2557890; -2235188; -1922261]);
  ("Ni3Te4", 7, [-2055401; -2058024; -2058832; -2056141; -2047886; -1957965; -1842180]);
  ("Ni41B29", 70, [-18681864; -18709535; -18711095; -18683555; -18610587; -18521147; -18425074; -18324806; -18221725; -18116611]);
  ("Ni4Se5", 9, [-3399162; -3387321; -3370340; -3288540; -3200812; -3110241; -3018839; -2927901]);
  ("Ni4W", 5, [-320537; -317869; -311965; -302521; -288167; -271830; -254544; -236603; -218192]);
  ("Ni50Se57", 107, [-41030991; -41023845; -40872013; -40087034; -39208135; -38288790; -37355565; -36420092]);
  ("Ni79B61", 140, [-37465939; -37533358; -37559168; -37534382; -37425820; -37288476; -37140859; -36987393; -36830555; -36671718; -36511596]);
  ("NiB", 2, [-458578; -450705; -442240; -433052; -422720; -411956; -401009; -389951; -378824; -367658; -356471]);
  ("NiBr", 2, [1421763; 1293944; 1183987; 1076272; 970958; 867215; 764737; 663430; 563236; 464125; 366075; 269074; 173111; 78177; -15738; -101230; -182855; -263554]);
  ("NiBr2", 3, [-2010472; -1884954; -1731992; -1581429; -1432375; -1285195; -1139915; -996477; -854871; -756826; -801382; -845519; -889201; -932391; -975058; -1009763; -1041023; -1071746]);
  ("NiCl", 2, [1522840; 1410210; 1300057; 1192132; 1086604; 982653; 879977; 778484; 678120; 578853; 480665; 383542; 287471; 192445; 98451; 12891; -68792; -149540]);
  ("NiCl2", 3, [-2683278; -2524753; -2369336; -2216391; -2065009; -1915435; -1767564; -1621245; -1476424; -1333148; -1324384; -1367812; -1410736; -1453122; -1494942; -1528760; -1559098; -1588869]);
  ("NiF", 2, [747318; 636572; 528548; 422881; 319682; 218101; 117820; 18736; -79210; -176051; -271810; -366501; -460137; -552728; -644285; -727408; -806655; -884970]);
  ("NiF2", 3, [-6322588; -6159000; -5997221; -5836826; -5677127; -5518563; -5361171; -5204863; -5049578; -4895285; -4741981; -4589693; -4438468; -4288377; -4107518; -4131630; -4152148; -4171979]);
  ("NiH", 2, [3717490; 3599850; 3485777; 3374820; 3266958; 3161218; 3057174; 2954633; 2853468; 2753587; 2654927; 2557444; 2461104; 2365884; 2271768; 2186157; 2104500; 2023864]);
  ("NiH12SO10", 24, [-23035015; -21439091; -19842155]);
  ("NiH14SO11", 27, [-25486732; -23693981; -21896388]);
  ("NiH18(IN3)2", 27, [-3790131; -2270669; -650926]);
  ("NiH2SO5", 9, [-10574516; -9983919; -9390826]);
  ("NiH6(IN)2", 11, [-1974695; -1462438; -862372]);
  ("NiH8SO8", 18, [-18083063; -16889271; -15694631]);
  ("NiI", 2, [1992094; 1809106; 1670449; 1562590; 1457134; 1353256; 1250651; 1149224; 1048919; 949705; 851562; 754474; 658431; 563423; 469439; 383880; 302191; 221425]);
  ("NiI2", 3, [-788162; -774014; -679871; -531360]);
  ("NiO", 2, [-2191227; -2094288; -1999415; -1907527; -1816430; -1726155; -1636612; -1547640; -1459138; -1371048; -1283341; -1196000; -1109015; -1022377; -936074; -842674; -746693; -651025]);
  ("NiS", 2, [-930499; -920032; -902326; -881356; -865688; -851531; -826003; -750500; -676846; -605080; -547304; -503116; -460141; -418229; 1287128; 1201560; 1119906; 1039244]);
  ("NiS2", 3, [-1293158; -1268160; -1228673; -1182277; -1131195; -1077450; -999276; -819240; -640824; -463975; -299318; -178756; -59451; 58763; 176029; 299887]);
  ("NiSO4", 6, [-7897875; -7511934; -7119619; -6726004; -6332364; -5940099; -5538357; -5088308; -4641538; -4197842]);
  ("NiSe2", 3, [-832397; -820605; -806710; -765950; -721672; -675283; -627388; -578194]);
  ("NiWO4", 6, [-10653166; -10288615; -9927530; -9570023; -9215679; -8865134; -8518568; -8176002; -7837445; -7502903]);
  ("NpBr3", 4, [-7316021; -7136197; -6916420; -6695887; -6473724; -6255460; -6037743; -5815269]);
  ("NpBr4", 5, [-7643114; -7399398; -7100745; -6801672; -6501279; -6205073; -5909712; -5609920]);
  ("NpCl3", 4, [-8615632; -8387844; -8165518; -7941848; -7716010; -7493583; -7271282; -7043888]);
  ("NpCl4", 5, [-9282871; -8980996; -8684262; -8385913; -8085186; -7787712; -7567160; -7354588]);
  ("NpF3", 4, [-15130740; -14895959; -14665992; -14434078; -14199437; -13967691; -13735601; -13497988]);
  ("NpF4", 5, [-18480330; -18169874; -17864646; -17557744; -17248323; -16941977; -16635457; -16323580])].

Definition freed_12 : list (string * Z * list Z) := [
  ("NpF6", 7, [-19241092; -18909598; -18620011; -18326049; -18027138; -17728914; -17428073; -17119333]);
  ("NpO", 2, [-319990; -410058; -496019; -572685; -640163; -704640; -763258; -811114; -855538; -897475; -937126; -974663; -1010231; -1043956; -1075946; -1106300; -1135100; -1162424]);
  ("O2F", 3, [277410; 326531; 375492; 424192; 472622; 520801; 568756; 616513; 664098; 711534; 758842; 806043; 853151; 900184; 947156; 994077; 1040962; 1087818]);
  ("OF", 2, [1087898; 1074634; 1061191; 1047577; 1033820; 1019942; 1005962; 991896; 977756; 963552; 949292; 934985; 920638; 906257; 891848; 877417; 862969; 848511]);
  ("OF2", 3, [434020; 494281; 554707; 615021; 675138; 735044; 794746; 854267; 913628; 972853; 1031963; 1090976; 1149911; 1208781; 1267599; 1326375; 1385117; 1443832]);
  ("Os(CO)5", 11, [-10366957; -10257929; -10157344; -10062355; -9971144; -9882580; -9795943; -9710752]);
  ("OsO", 2, [4233754; 4128408; 4024791; 3922519; 3821401; 3721319; 3622192; 3523964; 3426589; 3330031; 3234261; 3139256; 3044994; 2951459; 2858636; 2766511; 2675073; 2584314]);
  ("OsS2", 3, [-1399080; -1352158; -1290287; -1221747; -1149351; -1074494; -975454; -774275; -574624; -376421; -179598; 15904]);
  ("P2O3", 5, [-10799538; -10568176; -10332845; -10074582; -9794643; -9516887; -9241201; -8967442; -8695465; -8425130; -8156310; -7888888; -7622760; -7357835; -7094029; -6831271; -6569497; -6308651]);
  ("P2O5", 7, [-14104440; -13601244; -13097561; -12575922; -12089310; -11629227; -11172088; -10717773; -10266127; -9816982; -9370174; -8925546; -8482954; -8042266; -7603361; -7166131; -6730481; -6296323]);
  ("P2S5", 7, [-1806220; -1742154; -1640769; -1519241; -1406906]);
  ("P3N5", 8, [-1796758; -1360820; -933600; -486732; -21300; 427913]);
  ("P4S3", 7, [-1736972; -1785076; -1805646; -1769371; -1679909; -1587086; -1457546; -1174812; -893884; -614520; -336529; -59754; 215932; 490639; 764459; 1037472; 1309748; 1581350]);
  ("PBr", 2, [1272394; 1171666; 1088844; 1018643; 960577; 902708; 845027; 787520; 730176; 672982; 615925; 558996; 502183; 445479; 388875; 332364; 275940; 219597]);
  ("PBr3", 4, [-1758200; -1738786; -1672294; -1594530; -1505806; -1417919; -1330759; -1244240; -1158294; -1072865; -987906; -903377; -819244; -735476; -652045; -568928; -486102; -403546]);
  ("PBr3O", 5, [-4168401; -4054734; -3894284; -3723099; -3541574; -3361513; -3182790; -3005285; -2828896; -2653528; -2479100; -2305539; -2132781; -1960767; -1789448; -1618777; -1448713; -1279219]);
  ("PC", 2, [4135164; 3962244; 3791520; 3633515; 3487951; 3342986; 3198659; 3054977; 2911932; 2769507; 2627682; 2486434; 2345741; 2205581; 2065932; 1926773; 1788086; 1649851]);
  ("PCl", 2, [1070696; 985391; 902570; 832333; 774214; 716286; 658547; 600987; 543596; 486362; 429273; 372318; 315487; 258771; 202162; 145652; 89236; 32907]);
  ("PCl3", 4, [-2793259; -2724563; -2654632; -2573318; -2480974; -2389416; -2298547; -2208289; -2118579; -2029367; -1940609; -1852266; -1764305; -1676698; -1589418; -1502441; -1415745; -1329309]);
  ("PCl3O", 5, [-5313507; -5152769; -4990976; -4818262; -4635087; -4453293; -4272772; -4093422; -3915148; -3737864; -3561492; -3385965; -3211220; -3037202; -2863864; -2691161; -2519052; -2347505]);
  ("PCl5", 6, [-3156880; -2912823; -2669790; -2417423; -2155841; -1896655; -1639595; -1384444; -1131020; -879170; -628766; -379694; -131858; 114829; 360446; 605060; 848737; 1091533]);
  ("PF", 2, [-799148; -881301; -960579; -1027035; -1081224; -1135125; -1188771; -1242189; -1295402; -1348430; -1401289; -1453996; -1506567; -1559014; -1611353; -1663596; -1715756; -1767846]);
  ("PF2", 3, [-5119710; -5135872; -5148847; -5148931; -5136781; -5124419; -5111895; -5099237; -5086463; -5073585; -5060611; -5047544; -5034390; -5021151; -5007831; -4994433; -4980960; -4967415]);
  ("PF3", 4, [-9710296; -9631759; -9550223; -9456272; -9350654; -9245404; -9140557; -9036114; -8932060; -8828374; -8725034; -8622015; -8519295; -8416854; -8314674; -8212738; -8111033; -8009547]);
  ("PF5", 6, [-15757731; -15497371; -15233971; -14958833; -14672974; -14388519; -14105506; -13823904; -13543651; -13264673; -12986891; -12710231; -12434622; -12160001; -11886310; -11613498; -11341520; -11070337]);
  ("PH", 2, [2166330; 2076753; 1990609; 1917743; 1857476; 1797725; 1738375; 1679342; 1620558; 1561970; 1503538; 1445228; 1387014; 1328875; 1270794; 1212757; 1154754; 1096774]);
  ("PH2", 3, [995991; 958543; 926499; 908974; 904831; 901699; 899278; 897360; 895796; 894481; 893339; 892316; 891373; 890484; 889631; 888803; 887995; 887204]);
  ("PH3", 4, [139515; 174015; 216413; 274721; 347134; 420873; 495390; 570318; 645411; 720502; 795479; 870268; 944822; 1019114; 1093129; 1166864; 1240322; 1313513]);
  ("PH3O4", 8, [-11588381; -11069940; -10569408; -10073058; -9583413; -9113893; -8665637; -8239548]);
  ("PN", 2, [1545529; 1472041; 1401549; 1343906; 1298503; 1253333; 1208350; 1163521; 1118822; 1074238; 1029758; 985373; 941077; 896868; 852742; 808699; 764737; 720856]);
  ("PO", 2, [-489961; -568766; -644857; -708199; -759314; -810168; -860790; -911203; -961428; -1011483; -1061380; -1111132; -1160745; -1210228; -1259586; -1308821; -1357936; -1406933]);
  ("PO2", 3, [-3284158; -3288135; -3288885; -3276853; -3252738; -3228568; -3204383; -3180200; -3156022; -3131844; -3107662; -3083468; -3059253; -3035011; -3010735; -2986420; -2962062; -2937656]);
  ("POF3", 5, [-12049169; -11876585; -11700431; -11511807; -11311714; -11112315; -10913704; -10715904; -10518906; -10322681; -10127193; -9932402; -9738268; -9544753; -9351822; -9159443; -8967586; -8776226]);
  ("PS", 2, [1077702; 915649; 764441; 629928; 510556; 393497; 289689; 237827; 186141; 134630; 83293; 32125; -18875; -69712; -120389; -170909; -221275; -271490]);
  ("PaBr4", 5, [-8182471; -7927931; -7619359; -7316922; -7019856; -6727640; -6439893; -6156325]);
  ("PaBr5", 6, [-8490501; -8184065; -7812598; -7480136; -7195162; -6919426; -6651567; -6390536]);
  ("PaCl4", 5, [-9878154; -9567142; -9262851; -8964109; -8670247; -8380835; -8095576; -7814256]);
  ("PaCl5", 6, [-10689811; -10312455; -9946237; -9600916; -9309715; -9027323; -8752390; -8483884]);
  ("PaF4", 5, [-19199214; -18881404; -18569726; -18262928; -17960304; -17661417; -17365981; -17073796]);
  ("PaI4", 5, [-5352203; -5313921; -5117047; -4813156; -4515506; -4223424; -3936413; -3654089]);
  ("Pb2SO5", 8, [-10595018; -10126832; -9652706; -9177412; -8686504; -8198126; -7702379; -7161394; -6627633; -6101686]);
  ("Pb3O4", 7, [-6228126; -5824845; -5429371; -5041412; -4635125; -4234343; -3838969; -3448843]);
  ("Pb3SO6", 10, [-12529810; -11964713; -11398855; -10836214; -10253448; -9676629; -9095749; -8472841; -7860290; -7258624]);
  ("Pb5SO8", 14, [-16619575; -15843381; -15067859; -14296769; -13489827; -12689550; -11886147; -11041791; -10208974]);
  ("PbBr", 2, [326316; 224300; 139837; 57348; -15020; -85645; -154843; -222815; -289721; -355691; -420833; -485229; -548940; -612015; -674497; -736426; -797835; -858756]);
  ("PbBr2", 3, [-2715440; -2594768; -2447948; -2305148; -2173205; -2059144; -1950877; -1847784; -1749366; -1655220; -1662924; -1671989; -1680431; -1688288; -1695593; -1702377; -1708666; -1714484]);
  ("PbBr4", 5, [-4906623; -4834780; -4702950; -4572025; -4433363; -4294983; -4156929; -4019194; -3881768; -3744641; -3607808; -3471253; -3334952; -3198880; -3063020; -2927353; -2791863; -2656536]);
  ("PbCO3", 5, [-6514563; -6260145; -6009660; -5763704; -5514488; -5270744]);
  ("PbCl", 2, [-102613; -187628; -270532; -351517; -422408; -491568; -559299; -625797; -691219; -755694; -819329; -882209; -944396; -1005941; -1066892; -1127290; -1187173; -1246576]);
  ("PbCl2", 3, [-3252987; -3098328; -2948074; -2801558; -2650126; -2510504; -2396948; -2289692; -2189152; -2095667; -2070250; -2079869; -2088863; -2097270; -2105124; -2112455; -2119289; -2125650]);
  ("PbCl4", 5, [-5323552; -5190642; -5059251; -4928844; -4790743; -4652944; -4515479; -4378329; -4241481; -4104928; -3968660; -3832665; -3696918; -3561398; -3426086; -3290965; -3156020; -3021237]);
  ("PbF", 2, [-1092095; -1177559; -1260890; -1342312; -1413654; -1483272; -1551465; -1618424; -1684304; -1749229; -1813308; -1876622; -1939233; -2001191; -2062543; -2123329; -2183587; -2243350]);
  ("PbF2", 3, [-6393591; -6233125; -6076648; -5924114; -5770345; -5625846; -5487424; -5352418; -5220203; -5104981; -4993910; -4886271; -4724891; -4728535; -4731613; -4734155; -4736185; -4737726]);
  ("PbF4", 5, [-11322310; -11181093; -11040871; -10901447; -10754256; -10607338; -10460738; -10314445; -10168443; -10022721; -9877268; -9732067; -9587090; -9442312; -9297713; -9153271; -9008970; -8864793]);
  ("PbI", 2, [628172; 471132; 358137; 275686; 203374; 132825; 63726; -4122; -70879; -136676; -201622; -265803; -329280; -392106; -454329; -515990; -577127; -637776]);
  ("PbI2", 3, [-1798822; -1785856; -1693007; -1546118; -1399920; -1287998; -1181375; -1079489; -981887; -991472; -1006151; -1020145; -1033500; -1046255; -1058444; -1070096; -1081238; -1091893]);
  ("PbI4", 5, [-2852057; -3010308; -3002674; -2881703; -2752968; -2624489; -2496308; -2368416; -2240805; -2113466; -1986391; -1859566; -1732966; -1606569; -1480354; -1354303; -1228402; -1102637]);
  ("PbO", 2, [-1956264; -1852628; -1750545; -1649794; -1541892; -1435926; -1332338; -1229833; -1128441; -1037568; -961234; -885798; -811187; -737165; -664009; -591508; -519618; -458372]);
  ("PbO2", 3, [-2259206; -2054973; -1852942; -1653054; -1446892]);
  ("PbS", 2, [-1001496; -994673; -980947; -964017; -936733; -907997; -866934; -774877; -683612; -593152; -503516; -416586; -343002; -281058; -330349; -379006; -427060; -474538]);
  ("PbSO4", 6, [-8454007; -8080889; -7700319; -7317297; -6925918; -6536156; -6138035; -5693647; -5255420; -4823916; -4399629; -3982954]);
  ("PbSe", 2, [-1052043; -1046911; -1040581; -1020658; -990714; -959401; -927164; -894214; -813900; -725202; -637627; -563440; -513155; -426987; -476351; -525028; -573065; -620504]);
  ("PbWO4", 6, [-10627250; -10277932; -9933851; -9594783; -9251850; -8912775; -8577334; -8245296; -7916469]);
  ("Pd4S", 5, [-708558; -703491; -688973; -669751; -647733; -624016; -587928; -500982]);
  ("PdO", 2, [-881837; -775466; -667307; -558217; -448772; -339390; -230398; -122053; -14567; 91885; 1285285; 1197447; 1110598; 1024718; 939786; 855786; 779629; 707075]);
  ("Pr1000O1833", 2833, [-10514710898; -10328041840; -10145255439; -9966154045; -9790385643; -9618503588; -9450838097; -9286042738; -9123110186]);
  ("Pr2O3", 5, [-17823782; -17516555; -17215500; -16919465; -16627383; -16338398; -16051838; -15767171; -15482033; -15194411; -14896900; -14600062; -14304445; -14010114; -13717128; -13425536]);
  ("Pr3S4", 7, [-15795973; -15695478; -15568047; -15427786; -15278862; -15123109; -14915885; -14501705; -14084150; -13660242; -13218904; -12776006; -12332392; -11888182; -11443481; -10998384; -10552976; -10107333]);
  ("PrBr3", 4, [-8895222; -8686125; -8437027; -8193129; -7953769; -7718437; -7486735; -7275686; -7101835; -6930681; -6758092; -5987262; -5927696; -5867447; -5806564; -5745084; -5683034; -5620433]);
  ("PrCl3", 4, [-10160657; -9899854; -9645347; -9396387; -9152399; -8912953; -8677718; -8446434; -8238220; -8060780; -7880837; -7703389; -7528470; -6922054; -6868788; -6814924; -6760487; -6705495]);
  ("PrF3", 4, [-16707796; -16444830; -16187451; -15934990; -15686760; -15442109; -15200459; -14961312; -14723287; -14485213; -14243259; -14002617; -13763503; -13525924; -13299859; -13101170; -12133586; -12073905]);
  ("PrFeO3", 5, [-13287234; -12962226; -12640483; -12322165; -12007261; -11695698; -11387385; -11081997]);
  ("PrI3", 4, [-6722214; -6691833; -6541531; -6310506; -6083856; -5861115; -5641903; -5425912; -5261013; -5104369; -4945901; -4334414; -4281216; -4227315; -4172759; -4117586; -4061824; -4005490]);
  ("PrO", 2, [-1706129; -1781744; -1854735; -1925437; -1993955; -2060317; -2124525; -2186573; -2245482; -2300408; -2347783; -2392999; -2436426; -2478176; -2518350; -2557033; -2594303; -2630228]);
  ("PrS", 2, [-4575950; -4553752; -4524923; -4493090; -4459271; -4423869; -4375670; -4275749; -4174714; -4071575; -3962636; -3853185; -3743502; -3633624; -3523583; -3413408; -3303123; -3192753]);
  ("PtO", 2, [4091309; 3996565; 3903986; 3813114; 3723702; 3635597; 3548696; 3462923; 3378220; 3294542; 3211852; 3130120; 3049319; 2969428; 2890426; 2812298; 2735026; 2658598]);
  ("PtS", 2, [-805054; -784041; -755273; -723045; -688888; -653603; -606285; -508255; -411292; -315398; -220577; -126832; -34165]);
  ("PtS2", 3, [-1048242; -1013387; -964044; -908333; -849005; -787435; -701636; -514122; -328338; -144203; 38349; 219375; 398925]);
  ("Pu(SO4)2", 11, [-20848202; -20060395; -19250489; -18437460; -17626273; -16819638; -15996950; -15079809; -14174123; -13280680; -12399705; -11531304; -10675487]);
  ("Pu25C22", 47, [-13253766; -13563430; -13677322; -13769893; -13832549; -13857242; -13852566; -13781015; -13697917; -13624970; -13574537; -13559659; -13593889; -13691177; -13865783; -14132217]);
  ("Pu2C3", 5, [-1819912; -1843330; -1853088; -1862606; -1870791; -1876640; -1880490; -1878983; -1876172; -1873407; -1871275; -1870402; -1871444]);
  ("Pu2O3", 5, [-17818559; -17545781; -17263613; -16987115; -16715652; -16448123; -16184470; -15920779; -15660444; -15404096; -15151561; -14902681; -14657309; -14415303; -14176532; -13940868; -13708186; -13478365]);
  ("Pu2S3", 5, [-10171193; -10145047; -10078199; -9998024; -9908709; -9811924; -9675262; -9379108; -9082483; -8786291; -8490602; -8195478; -7900972]);
  ("Pu50C41", 91, [-25206825; -25674165; -25745227; -25780855; -25771103; -25703348; -25595535; -25371477; -25139247; -24938599; -24789828; -24713955; -24732538]);
  ("PuBr3", 4, [-7937066; -7746080; -7505343; -7267794; -7032975; -6800337; -6569898; -6367954; -6202299; -6040340; -5881761; -5726293; -5573707]);
  ("PuBrO", 3, [-8625824; -8476137; -8307894; -8143263; -7981722; -7822671; -7666095; -7510071; -7356341; -7205270; -7056824; -6910974; -6767698]);
  ("PuC2", 3, [-398110; -432660; -459124; -484871; -509730; -533368; -555982; -575822; -594779; -613338; -631565; -649520; -667253; -684806; -702213; -719505; -736705; -753830]);
  ("PuCl3", 4, [-9244925; -9007265; -8765275; -8525918; -8288831; -8053565; -7820234; -7587030; -7398810; -7234885; -7073994; -6915891; -6760370]);
  ("PuClO", 3, [-9086084; -8921293; -8752392; -8586338; -8422711; -8260993; -8101230; -7941553; -7783747; -7628213; -7474947; -7323948; -7175215]);
  ("PuF3", 4, [-15360299; -15119271; -14873046; -14629080; -14387189; -14146985; -13908589; -13670174; -13433553; -13199143; -12966949; -12736975; -12509224; -12283698; -12060733; -11873139; -11688247; -11505907]);
  ("PuF4", 5, [-17452585; -17129692; -16803449; -16480657; -16160677; -15842791; -15526870; -15210891; -14896503; -14583983; -14273214; -13995527; -13725184]);
  ("PuF6", 7, [-17270854; -16904137; -16591175; -16278535; -15966099; -15653455; -15340678; -15025891; -14710861; -14395963; -14081169; -13766453; -13451794; -13137174; -12822579; -12507998; -12193420; -11878840]);
  ("PuI3", 4, [-5960090; -5933125; -5777815; -5540722; -5306951; -5075872; -4847436; -4619690; -4419313; -4247577; -4079553; -3914947; -3753508]);
  ("PuIO", 3, [-8296394; -8201848; -8063300; -7900645; -7741780; -7586008; -7433238; -7281489; -7132458; -6986471; -6843459; -6703368; -6566153]);
  ("PuN", 2, [-2830191; -2739645; -2640602; -2540873; -2440555; -2339476; -2237930; -2134232; -2030310; -1926680; -1823432; -1720642; -1618379; -1516703]);
  ("PuO", 2, [-5580657; -5489497; -5390400; -5291149; -5191786; -5092079; -4992258; -4890571; -4788887; -4687660; -4586922; -4486694; -4386989; -4287813; -4189170; -4091054; -3993462; -3896384]);
  ("PuO2", 3, [-10336455; -10134962; -9927789; -9722868; -9519923; -9318369; -9118141; -8917259; -8717420; -8518952; -8321799; -8125925; -7931309; -7737945; -7545836; -7354993; -7165438; -6977196]);
  ("PuOF", 3, [-11176110; -11003577; -10826146; -10650878; -10477422; -10305314; -10134649; -9963597; -9793984; -9626247; -9460414; -9296519; -9134591]);
  ("PuS", 2, [-3732611; -3716408; -3682227; -3642214; -3598095; -3550585; -3489139; -3373443; -3257237; -3141066; -3025036; -2909238; -2793744; -2678615; -2563902; -2449648; -2335888; -2222652]);
  ("Rb2CO3", 6, [-10972336; -10664213; -10357177; -10054508; -9756556; -9463383; -9174980; -8852274; -8421161])].

Definition freed_13 : list (string * Z * list Z) := [
  ("Rb2CrO4", 7, [-13465902; -13067966; -12669954; -12275900; -11886613; -11502141; -11123199; -10714062; -10205484; -9704229; -9221793; -8761056; -8304875]);
  ("Rb2SO4", 7, [-13640863; -13212802; -12775736; -12338229; -11903239; -11472878; -11039565; -10528765; -9910493; -9298972; -8694535; -8115246; -7553085; -6995918; -6443386; -5895176; -5351008; -4810636]);
  ("Rb2ZrO3", 6, [-16950352; -16609940; -16271918; -15940329; -15615807; -15298507]);
  ("RbBF4", 6, [-18473360; -18132211; -17794840; -17482610; -17178569; -16877514; -16589912; -16300136]);
  ("RbCl", 2, [-2562832; -2617859; -2668499; -2716675; -2762955; -2807704; -2851178; -2874044; -2839408; -2804648; -2769779; -2734812; -2699759; -2664627; -2629423; -2594152; -2558820; -2523429]);
  ("RbF", 2, [-5476396; -5369052; -5261914; -5156411; -5052741; -4950992; -4851207; -4733885; -4569978; -4425883; -4284525; -4145687]);
  ("RbHO", 3, [-3197222; -3125923; -3051845; -2976717; -2900885; -2824532; -2747787; -2651231; -2497903; -2345122; -2192850; -2053608; -1962961; -1872436; -1782025; -1691721; -1601519; -1511412]);
  ("RbO2", 3, [-2416280; -2255351; -2098672; -1947009]);
  ("RbPO3", 5, [-11854246; -11523460; -11192494; -10852913; -10505607]);
  ("Re2O7", 9, [-11277663; -10675984; -10081500; -9495028; -9035059]);
  ("Re2S7", 9, [-4274558; -4131332; -3937305; -3719802; -3488183]);
  ("ReO", 2, [3796597; 3690295; 3586121; 3483628; 3382569; 3282792; 3184197; 3086713; 2990287; 2894877; 2800452; 2706984; 2614452; 2522834; 2432115; 2342279; 2253311; 2165198]);
  ("ReO2", 3, [-4050597; -3850156; -3651291; -3454515; -3259862; -3067205; -2876376; -2687213; -2499582; -2313381; -2128539; -1945017]);
  ("ReO3", 4, [-5251156; -4967722; -4687866; -4411893; -4139676; -3870980; -3605545; -3343113]);
  ("ReS2", 3, [-1727390; -1683395; -1625058; -1560469; -1492357; -1422079; -1327639; -1131542; -937226; -744606; -553610; -364177; -176254]);
  ("RhO", 2, [3786174; 3676282; 3568410; 3462276; 3357729; 3254666; 3153010; 3052704; 2953706; 2855986; 2759525; 2664312; 2570346; 2477632; 2386179; 2296005; 2207130; 2119579]);
  ("Ru(CO)5", 11, [-10592613; -10486849; -10389823; -10298388; -10210580; -10125205; -10041523; -9959056]);
  ("RuO", 2, [3514549; 3400719; 3288728; 3178331; 3069383; 2961774; 2855413; 2750226; 2646152; 2543146; 2441174; 2340212; 2240247; 2141274; 2043296; 1946322; 1850368; 1755454]);
  ("RuO2", 3, [-2615568; -2434337; -2255706; -2080135; -1907488; -1737533; -1570053; -1404861; -1241800; -1080737]);
  ("RuS2", 3, [-1947559; -1906383; -1851060; -1789261; -1723439; -1654790; -1561235; -1365239; -1170232; -976141; -782916; -590527; -398956]);
  ("RuSe2", 3, [-1574753; -1541048; -1504646; -1440969; -1373899; -1304302; -1232648; -1159094; -990091; -803369]);
  ("S(ClO)2", 5, [-3213750; -3057125; -2892572; -2724806; -2555465; -2385335; -2203439; -1971014; -1739746; -1509547; -1280337; -1052039; -824584; -597907; -371952; -146665; 78001; 302086]);
  ("S(OF)2", 5, [-7376042; -7210681; -7035678; -6856429; -6674942; -6492218; -6297413; -6051847; -5807259; -5563601; -5320817; -5078849; -4837643; -4597144; -4357304; -4118078; -3879427; -3641314]);
  ("S2Cl", 3, [453190; 336285; 236003; 144116; 57752; -24563; -80928; -33923; 12953; 59733; 106448; 153122; 199777; 246432; 293105; 339808; 386556; 433360]);
  ("S2O", 3, [-732476; -831963; -913946; -987041; -1054330; -1117406; -1154434; -1088033; -1021723; -955484; -889291; -823124; -756961; -690786; -624582; -558335; -492033; -425669]);
  ("SBr", 2, [-48017; -83126; -95327; -103964; -110387; -115270; -107614; -48673]);
  ("SCl", 2, [-148960; -168230; -179921; -188050; -193981; -198394; -190293; -130926; -72009; -13494; 44665; 102509; 160076; 728852; 713771; 698729; 683730; 668777]);
  ("SCl2", 3, [-264543; -290137; -307504; -320774; -331376; -340037; -335798; -279939; -224204; -168569; -113014; -57520; -2072; 53343; 108738; 164125; 219513; 274912]);
  ("SClF5", 7, [-9739887; -9394957; -9042525; -8687969; -8333092; -7978673; -7613674; -7199250; -6787002; -6376766; -5968390; -5561734; -5156673; -4753097; -4350908; -3950017; -3550351; -3151841]);
  ("SF", 2, [-2119613; -2131065; -2134284; -2133554; -2130361; -2125451; -2107860; -2038862; -1970188; -1901801; -1833668; -1765761; -1698054; -1630525; -1563156; -1495930; -1428831; -1361850]);
  ("SF2", 3, [-3145543; -3166850; -3179260; -3187185; -3192205; -3195133; -3185056; -3123283; -3061573; -2999911; -2938283; -2876675; -2815074; -2753471; -2691854; -2630217; -2568553; -2506858]);
  ("SF3", 4, [-5039203; -4975897; -4903604; -4827123; -4748188; -4667663; -4574642; -4430423; -4286741; -4143557; -4000830; -3858521; -3716595; -3575018; -3433762; -3292802; -3152115; -3011685]);
  ("SF4", 5, [-7480878; -7336073; -7183762; -7028552; -6871984; -6714765; -6545867; -6326489; -6108287; -5891158; -5675008; -5459752; -5245317; -5031638; -4818657; -4606325; -4394598; -4183440]);
  ("SF5", 6, [-9639860; -9284866; -8922697; -8558769; -8194896; -7831847; -7458559; -7036156; -6616209; -6211865; -5899996; -5589446; -5280115; -4971913; -4664763; -4358598; -4053361; -3749001]);
  ("SF6", 7, [-11565112; -11200349; -10826868; -10450540; -10073441; -9696505; -9308787; -8871496; -8436271; -8002969; -7571455; -7141600; -6713287; -6286412; -5860884; -5436621; -5013553; -4591621]);
  ("SN", 2, [2452092; 2356359; 2268956; 2185756; 2105300; 2026837; 1961311; 1947432; 1933453; 1919395; 1905277; 1891117; 1876930; 1862730; 1848528; 1834336; 1820161; 1806012]);
  ("SO", 2, [-219269; -307579; -387214; -462386; -534596; -604628; -661564; -666719; -671866; -677002; -682128; -687242; -692345; -697435; -702512; -707577; -712630; -717671]);
  ("SO2", 3, [-3110525; -3119105; -3118159; -3112362; -3103453; -3092346; -3068194; -2992348; -2916597; -2840946; -2765394; -2689934; -2614558; -2539255; -2464015; -2388828; -2313682; -2238569]);
  ("SO3", 4, [-3843460; -3754197; -3655138; -3551402; -3444911; -3336644; -3215775; -3043652; -2872045; -2700938; -2530306; -2360118; -2190340; -2020941; -1851886; -1683147; -1514692; -1346494]);
  ("SOF2", 4, [-5456251; -5393278; -5321446; -5245526; -5167228; -5087401; -4995131; -4851706; -4708859; -4566545; -4424719; -4283339; -4142366; -4001763; -3861499; -3721545; -3581876; -3442471]);
  ("Sb2O3", 5, [-6569199; -6272021; -5977857; -5686407; -5397168; -5109631; -4824384; -4546659; -4290090; -4038401; -3791134; -3547907; -3308397; -3072325; -2839453]);
  ("Sb2O5", 7, [-8585056; -8088363; -7591505; -7094657; -6597624]);
  ("Sb2S3", 5, [-1453967; -1445993; -1417794; -1381001; -1339520; -1295252; -1256535; -1039023; -389538; -314163; -237722; -160268; -81848; -2502; 77734; 158828; 17115237; 18010441]);
  ("Sb2Se3", 5, [-1303350; -1296633; -1286714; -1236474; -1181597; -1123208; -1069331; -1026163]);
  ("Sb2Te3", 5, [-604948; -611494; -617668; -623027; -627225; -571490; -505819; -502875]);
  ("Sb3S2", 5, [991216; 783782; 596001; 419163; 250240; 87790; -46122; -8165; 35002; 80495; 128135; 177771; 229275; 282535; 337454; 393946; 25532627; 26798603]);
  ("Sb4S3", 7, [993534; 787681; 608268; 442985; 287698; 140493; 34617; 174213; 319923; 467988; 618242; 770542; 924767; 1080812; 1238584; 1398002; 44939691; 47234080]);
  ("SbBr3", 4, [-2329205; -2334758; -2294344; -2253910; -2213346; -2172530; -2131329; -2067710]);
  ("SbCl3", 4, [-3124867; -3082490; -3040240; -2998005; -2955659; -2913070; -2870097; -2804707]);
  ("SbF3", 4, [-8796828; -8569611; -8348517; -8150975; -8079139; -8029172; -7978792; -7905969]);
  ("SbI3", 4, [-1038179; -1027103; -927901; -778467; -673631; -640929; -607833; -552304]);
  ("SbO2", 3, [-4121198; -3927985; -3736244; -3545806; -3356378; -3167688; -2979491; -2769682; -2559219; -2349003]);
  ("SbS", 2, [159328; 108029; 65025; 26299; -9484; -42948; -63017; -8955; 46476; 102355; 158654; 151273; 94197; 37781; -18010; -73211; 3844279; 3961420]);
  ("SbS2", 3, [154744; 47906; -42705; -125125; -202067; -274855; -321436; -242344; -162074; -81520; -683; 80433; 161826; 243495; 325436; 407648; 9843203; 10380390]);
  ("Sc2O", 3, [-545012; -644050; -738446; -829236; -916970; -1001957; -1084371; -1164306; -1241806; -1316877; -1389500; -1459642; -1527253; -1592274; -1649696; -1703687; -1740634; -1772942]);
  ("Sc2O3", 5, [-18851246; -18540818; -18232165; -17925873; -17621937; -17320144; -17020212; -16721841; -16424736; -16128619; -15833227; -15538318; -15243666; -14949060; -14649363; -14348632; -14033164; -13715283]);
  ("ScCl3", 4, [-8835667; -8587614; -8344344; -8105208; -7869534; -7636804; -7406728; -7179240; -6954490; -6732817; -6547248; -6387391]);
  ("ScF3", 4, [-15955222; -15707782; -15464247; -15224093; -14986780; -14751847; -14518920; -14287686; -14057885; -13829290; -13601706; -13374959; -13148891; -12923359; -12695759; -12468089; -12259940; -12059005]);
  ("ScN", 2, [-2939223; -2834673; -2730432; -2626835; -2523899; -2421549; -2319688; -2218215; -2117029; -2016037; -1915149; -1814279; -1713345; -1612268; -1508502; -1404094; -1292204; -1179006]);
  ("ScO", 2, [-2555895; -2558599; -2558714; -2557051; -2554015; -2549821; -2544578; -2538338; -2531117; -2522909; -2513694; -2503443; -2492118; -2479679; -2463611; -2445989; -2419997; -2391831]);
  ("ScO2", 3, [-4358236; -4380030; -4399314; -4416883; -4433097; -4448127; -4462054; -4474909; -4486693; -4497389; -4506969; -4515400; -4522642; -4528652; -4530915; -4531504; -4523607; -4513417]);
  ("ScPO4", 6, [-18436995; -18017109; -17597381; -17169021; -16732484; -16299375; -15869318; -15441961; -15016989; -14594125; -14173122; -13753761; -13335845; -12919194; -12501171; -12083744]);
  ("ScS", 2, [1349502; 1176807; 1014826; 859041; 707779; 560152; 427014; 347014; 268365; 191062; 115114; 40535; -32652; -104422; -172272; -238289; -295671; -350620]);
  ("SeBr", 2, [-67366; -106918; -129320; -137688; -144003; -148720; -152087; -154188]);
  ("SeBr2", 3, [-597205; -657183; -684030; -696330; -706138; -713964; -720088; -724625; -680825; -627577; -574290; -520975; -467641; -414293; -360939; -307585; -254235; -200895]);
  ("SeCl", 2, [-184223; -207502; -229015; -236510; -241955; -245800; -248283; -249486]);
  ("SeCl2", 3, [-440852; -471248; -499295; -512848; -523940; -533062; -540488; -546327; -503827; -451875; -399881; -347856; -295807; -243744; -191672; -139598; -87527; -35464]);
  ("SeF", 2, [-712258; -803766; -892252; -965751; -1036396; -1104742; -1171109; -1235641; -1251615; -1257939; -1264043; -1269954; -1275696; -1281288; -1286750; -1292098; -1297346; -1302508]);
  ("SeF2", 3, [-3315480; -3339564; -3360898; -3367565; -3371671; -3373736; -3374045; -3372716; -3323000; -3263790; -3204500; -3145144; -3085734; -3026283; -2966801; -2907299; -2847785; -2788267]);
  ("SeF4", 5, [-7941996; -7783057; -7621305; -7445633; -7268356; -7090023; -6910894; -6731040; -6503669; -6267628; -6032292; -5797637; -5563647; -5330304; -5097593; -4865503; -4634021; -4403138]);
  ("SeF5", 6, [-9042389; -8806449; -8569944; -8321261; -8072372; -7823586; -7574985; -7326503; -7031244; -6727969; -6425982; -6125205; -5825568; -5527015; -5229493; -4932959; -4637372; -4342698]);
  ("SeF6", 7, [-10528167; -10178268; -9828329; -9466933; -9106047; -8745933; -8386615; -8027979; -7623083; -7210649; -6799948; -6390873; -5983331; -5577241; -5172534; -4769147; -4367026; -3966122]);
  ("SeO", 2, [276054; 185148; 97222; 24186; -46122; -114268; -180568; -245158; -261305; -267907; -274381; -280744; -287009; -293189; -299293; -305331; -311313; -317246]);
  ("SeO2", 3, [-1773529; -1587127; -1402442; -1207622; -1197268; -1188733; -1178572; -1166900; -1106960; -1037628; -968302; -898981; -829662]);
  ("Si(HBr)2", 5, [-1998944; -1938837; -1844237; -1747534; -1649684; -1551246; -1452559; -1353826; -1255174; -1156676; -1058375; -960290; -862430; -764790; -663327; -535145; -407307; -279791]);
  ("Si(HCl)2", 5, [-2998696; -2906748; -2810713; -2712386; -2612787; -2512514; -2411928; -2311247; -2210606; -2110087; -2009735; -1909574; -1809615; -1709857; -1606258; -1475926; -1345926; -1216241]);
  ("Si(HI)2", 5, [-584738; -636523; -601216; -506909; -411587; -315763; -219744; -123715; -27789; 67970; 163524; 258858; 353969; 448860; 547578; 673022; 798129; 922921]);
  ("Si(NiO2)2", 7, [-13384033; -12988925; -12596644; -12208928; -11825264; -11446559; -11072536; -10702558; -10336045; -9972591; -9611932; -9253930; -8898554; -8545865; -8191963; -7799343]);
  ("Si(PbO2)2", 7, [-12972154; -12588669; -12210019; -11836467; -11451080; -11069993; -10693319; -10321035]);
  ("Si193Ni104", 297, [-92154957; -91946421; -91723301; -91456723; -91093318; -90699975; -90299822; -89899571; -89504000; -89116213]);
  ("Si2C", 3, [4932553; 4727010; 4522954; 4320701; 4120302; 3921731; 3724933; 3529843; 3336394; 3144520; 2954154; 2765233; 2577694; 2391474; 2214586; 2092738; 1971717; 1851474]);
  ("Si2Mo", 3, [-1357599; -1356215; -1354644; -1352779; -1350589; -1348077; -1345266; -1342187; -1338870; -1335345; -1331639; -1327775; -1323774; -1319650; -1307346; -1241103; -1175082; -1109279]);
  ("Si2N", 3, [3737267; 3610623; 3485372; 3361327; 3238376; 3116446; 2995492; 2875482; 2756391; 2638196; 2520874; 2404405; 2288766; 2173933; 2067952; 2016564; 1965587; 1914999]);
  ("Si2N2O", 5, [-8928339; -8628890; -8329606; -8032042; -7736464; -7442860; -7151146; -6861207; -6572905; -6286153; -6000854; -5716938; -5434346; -5153032; -4864887; -4524115; -4184848; -3847063]);
  ("Si2W", 3, [-943160; -936586; -929743; -922570; -915073; -907277; -899214; -890917; -882421; -873760; -864967; -856075; -847119; -838130; -821069; -750202; -679713; -609628]);
  ("Si3Mo5", 8, [-3242703; -3251072; -3259207; -3266793; -3273697; -3279914; -3285499; -3290525; -3295060; -3299161; -3302866; -3306192; -3309136; -3311676; -3301666; -3210395; -3119026; -3027457]);
  ("Si3N4", 7, [-7004381; -6613992; -6219953; -5824489; -5428678; -5033131; -4638231; -4244238; -3851333; -3459647; -3069282; -2680310; -2292789; -1906762; -1510153; -1034336; -560560; -88823]);
  ("Si3W5", 8, [-1427536; -1437781; -1447474; -1456640; -1465447; -1474070; -1482668; -1491381; -1500334; -1509634; -1519383; -1529671; -1540582; -1552194; -1552473; -1472839; -1394590; -1317778]);
  ("SiBr", 2, [1963311; 1838341; 1729109; 1620511; 1512636; 1405509; 1299128; 1193478; 1088538; 984283; 880686; 777721; 675360; 573577; 476381; 406631; 337224; 268140]);
  ("SiBr2", 3, [-958930; -1031584; -1072663; -1112892; -1152308; -1190952; -1228860; -1266065; -1302600; -1338491; -1373767; -1408452; -1442572; -1476148; -1505168; -1506769; -1508049; -1509024]);
  ("SiBr3", 4, [-2415412; -2425053; -2388820; -2352710; -2316668; -2280645; -2244599; -2208498; -2172317; -2136035; -2099636; -2063108; -2026441; -1989630; -1948634; -1880566; -1812505; -1744446]);
  ("SiBr4", 5, [-4599731; -4429980; -4274612; -4143108; -4012628; -3883005; -3754103; -3625811; -3498042; -3370721; -3243787; -3117190; -2990886; -2864840; -2734986; -2578414; -2422181; -2266264]);
  ("SiC", 2, [-651622; -643220; -634920; -626823; -618894; -611086; -603354; -595668; -588001; -580336; -572657; -564953; -557214; -549431; -537559; -498707; -459945; -421260]);
  ("SiC2", 3, [5733051; 5518177; 5302543; 5087188; 4872606; 4659047; 4446631; 4235414; 4025410; 3816612; 3608999; 3402540; 3197202; 2992946; 2793769; 2622516; 2452068; 2282392]);
  ("SiCl", 2, [1721512; 1610518; 1500373; 1391187; 1282957; 1175651; 1069225; 963636; 858840; 754798; 651472; 548827; 446829; 345447; 248688; 179406; 110499; 41943]);
  ("SiCl2", 3, [-1870154; -1910532; -1949984; -1988553; -2026289; -2063238; -2099440; -2134932; -2169748; -2203916; -2237465; -2270421; -2302806; -2334643; -2361918; -2361767; -2361286; -2360490]);
  ("SiCl3", 4, [-3936431; -3899952; -3863520; -3827141; -3790783; -3754412; -3717996; -3681505; -3644915; -3608208; -3571368; -3534384; -3497248; -3459955; -3418466; -3349896; -3281323; -3212746]);
  ("SiCl3F", 5, [-8347202; -8224859; -8103713; -7983631; -7864462; -7746071; -7628341; -7511172; -7394483; -7278202; -7162274; -7046648; -6931284; -6816149; -6697178; -6551466; -6406070; -6260973]);
  ("SiCl4", 5, [-6452441; -6314121; -6176815; -6040480; -5905007; -5770281; -5636200; -5502670; -5369616; -5236970; -5104678; -4972691; -4840971; -4709485; -4574169; -4412117; -4250387; -4088962]);
  ("SiClF3", 5, [-13268637; -13137752; -13006516; -12875443; -12744727; -12614424; -12484530; -12355018; -12225848; -12096979; -11968374; -11839997; -11711816; -11583808; -11451913; -11293232; -11134829; -10976691])].

Definition freed_14 : list (string * Z * list Z) := [
  ("SiF", 2, [-536166; -644912; -752432; -858762; -963985; -1068181; -1171425; -1273778; -1375298; -1476030; -1576019; -1675303; -1773917; -1871892; -1965224; -2031055; -2096490; -2161548]);
  ("SiF2", 3, [-6201363; -6236484; -6269828; -6301782; -6332587; -6362397; -6391318; -6419424; -6446771; -6473403; -6499358; -6524668; -6549360; -6573463; -6592965; -6585007; -6576691; -6568036]);
  ("SiF3", 4, [-11122435; -11079283; -11034689; -10989234; -10943217; -10896795; -10850050; -10803028; -10755752; -10708232; -10660475; -10612485; -10564263; -10515814; -10463106; -10383260; -10303362; -10223417]);
  ("SiF4", 5, [-16297530; -16149574; -16000220; -15850335; -15700335; -15550418; -15400674; -15251134; -15101802; -14952668; -14803711; -14654913; -14506254; -14357717; -14205250; -14025959; -13846914; -13668104]);
  ("SiH", 2, [3548897; 3431803; 3316427; 3202605; 3090124; 2978799; 2868482; 2759056; 2650427; 2542520; 2435275; 2328643; 2222583; 2117063; 2016091; 1942529; 1869281; 1796335]);
  ("SiH2", 3, [2362428; 2304475; 2249687; 2196674; 2144559; 2092857; 2041314; 1989816; 1938326; 1886849; 1835411; 1784049; 1732800; 1681702; 1634819; 1615059; 1595360; 1575734]);
  ("SiH2F2", 5, [-7915761; -7818511; -7715992; -7610417; -7503059; -7394672; -7285714; -7176473; -7067125; -6957783; -6848513; -6739356; -6630332; -6521449; -6408674; -6269117; -6129849; -5990857]);
  ("SiH3", 4, [2164568; 2166686; 2174498; 2185967; 2199788; 2215134; 2231478; 2248478; 2265910; 2283626; 2301532; 2319567; 2337695; 2355894; 2378194; 2427475; 2476664; 2525774]);
  ("SiH3Br", 5, [-722480; -655741; -567680; -476072; -382354; -287404; -191768; -95796; 289; 96345; 192282; 288046; 383608; 478956; 578125; 704006; 829536; 954735]);
  ("SiH3Cl", 5, [-1170198; -1087474; -998611; -906087; -811377; -715380; -618657; -521567; -424339; -327122; -230009; -133056; -36293; 60264; 160651; 287757; 414518; 540953]);
  ("SiH3F", 5, [-3661071; -3575625; -3483412; -3387132; -3288405; -3188215; -3087177; -2985682; -2883980; -2782233; -2680540; -2578966; -2477545; -2376296; -2271188; -2139336; -2007809; -1876592]);
  ("SiH3I", 5, [-15970; -5417; 52680; 142724; 234776; 327994; 421850; 516012; 610264; 704471; 798548; 892444; 986133; 1079604; 1176895; 1300897; 1424549; 1547872]);
  ("SiH4", 5, [590086; 673705; 765071; 861231; 960344; 1061261; 1163245; 1265819; 1368670; 1471593; 1574454; 1677171; 1779695; 1882000; 1988114; 2120927; 2253372; 2385472]);
  ("SiHBr3", 5, [-3249974; -3186848; -3076370; -2965384; -2854297; -2743323; -2632569; -2522088; -2411899; -2302004; -2192393; -2083051; -1973961; -1865104; -1752427; -1613026; -1473964; -1335221]);
  ("SiHCl3", 5, [-4847014; -4736836; -4625003; -4512438; -4399617; -4286792; -4174101; -4061616; -3949370; -3837377; -3725634; -3614134; -3502864; -3391807; -3276912; -3135279; -2993969; -2852962]);
  ("SiHF3", 5, [-12100426; -11982762; -11861695; -11738794; -11614914; -11490537; -11365940; -11241286; -11116667; -10992134; -10867715; -10743419; -10619251; -10495205; -10367241; -10212468; -10057958; -9903699]);
  ("SiHI3", 5, [-1134324; -1240908; -1221172; -1115534; -1009970; -904632; -799592; -694876; -590487; -486412; -382635; -279133; -175885; -72867; 33976; 167549; 300792; 433725]);
  ("SiI", 2, [2700648; 2521798; 2384914; 2276963; 2169521; 2062660; 1956417; 1850806; 1745828; 1641477; 1537740; 1434600; 1332039; 1230036; 1132607; 1062612; 992954; 923613]);
  ("SiI2", 3, [380356; 197070; 98281; 57445; 17421; -21826; -60331; -98125; -135239; -171700; -207535; -242768; -277423; -311524; -341055; -343155; -344921; -346370]);
  ("SiI3", 4, [-209733; -388504; -442241; -410575; -379049; -347578; -316100; -284569; -252951; -221220; -189358; -157352; -125192; -92871; -56351; 7254; 70866; 134487]);
  ("SiI4", 5, [-1986281; -1981817; -1869848; -1678360; -1555686; -1433925; -1312916; -1192532; -1072671; -953251; -834206; -715480; -597029; -478816; -356772; -207990; -59525; 88644]);
  ("SiMo3", 4, [-1228618; -1229104; -1229223; -1228704; -1227504; -1225679; -1223322; -1220527; -1217380; -1213951; -1210290; -1206435; -1202402; -1198194; -1189764; -1154205; -1118558; -1082774]);
  ("SiN", 2, [3541895; 3436817; 3333061; 3230437; 3128801; 3028048; 2928099; 2828886; 2730353; 2632450; 2535130; 2438348; 2342062; 2246230; 2154845; 2090753; 2026833; 1963049]);
  ("SiNi", 2, [-887562; -885510; -883074; -880156; -876298; -872109; -867741; -863181; -858401; -853371; -860787; -892692; -925844]);
  ("SiNi2", 3, [-1450800; -1448482; -1444950; -1439658; -1431667; -1422348; -1412239; -1401593; -1390658; -1379687; -1368942; -1358690; -1349711; -1357955; -1380631; -1362260]);
  ("SiO", 2, [-1312291; -1404827; -1495781; -1585349; -1673701; -1760969; -1847251; -1932626; -2017155; -2100890; -2183875; -2266149; -2347744; -2428694; -2504990; -2553776; -2602156; -2650151]);
  ("SiO2", 3, [-8875248; -8686128; -8497161; -8309181; -8122584; -7937549; -7755017; -7574145; -7394183; -7215010; -7036796; -6859232; -6682276; -6505896; -6326036; -6119925; -5914484; -5711536]);
  ("SiOF2", 4, [-9852673; -9796049; -9737024; -9676574; -9615208; -9553205; -9490725; -9427860; -9364667; -9301179; -9237418; -9173395; -9109122; -9044606; -8975818; -8879882; -8783884; -8687827]);
  ("SiPbO3", 5, [-10998882; -10707675; -10418933; -10133009; -9841387; -9552030; -9264890; -8979868]);
  ("SiS", 2, [-1789613; -1801467; -1806680; -1808955; -1809568; -1809194; -1796857; -1733844; -1671910; -1611051; -1551266; -1501309; -1467592; -1435235; -1060847; -1110812; -1160330; -1209420]);
  ("SiS2", 3, [-2955892; -2946929; -2922986; -2892033; -2856926; -2819196; -2757014; -2593035; -2430833; -2270442; -2111894; -1960070; -1818745; -1679719; -1353602; -1325694; -1297598; -1269314]);
  ("SiSe", 2, [1562493; 1384246; 1210250; 1052422; 898533; 747937; 600237; 455224; 359568; 274310; 189978; 106507; 23841; -58075; -135251; -184848; -233985; -282696]);
  ("SiTe", 2, [1732573; 1553217; 1377610; 1205613; 1037108; 891480; 754946; 621495; 490854; 362792; 237119; 135821; 49824; -35317; -115609; -168210; -220243; -271751]);
  ("Sm2O3", 5, [-18000840; -17690251; -17383320; -17078544; -16778815; -16481446; -16184635; -15888277; -15592232; -15295769; -14995592; -14688555; -14375557; -14062498; -13749356; -13436114; -13122758; -12809275]);
  ("Sm6WO12", 19, [-63958662; -62749554; -61553499; -60367995; -59190879; -58021106; -56858272; -55702201; -54552706; -53407830; -52254614; -51085989; -49905120]);
  ("SmC2", 3, [-1018645; -1029355; -1044859; -1062779; -1081782; -1101174; -1120595; -1139849; -1158809; -1177098; -1192532; -1203925; -1214209; -1225626; -1236624; -1247255; -1257569; -1267618]);
  ("SmCl3", 4, [-9843407; -9583406; -9328265; -9076629; -8827777; -8581370; -8337255; -8120730; -7933219; -7749134; -7565936]);
  ("SmF3", 4, [-16490124; -16225511; -15967304; -15712953; -15461070; -15212119; -14967901; -14725659; -14484801; -14245145; -14005025; -13763923; -13523092; -13295892; -13096758; -12900162; -12705954; -12514001]);
  ("SmFeO3", 5, [-13162442; -12853245; -12546620; -12242150; -11939762; -11639568; -11341756; -11046294]);
  ("SmN", 2, [-3053935; -2959607; -2865787; -2771524; -2676383; -2580232; -2483076; -2384956; -2285909; -2185667; -2082121; -1974138; -1862285; -1749613; -1636200; -1522117; -1407424; -1292180]);
  ("SmO", 2, [-1476551; -1561906; -1643353; -1720899; -1794698; -1865018; -1932143; -1996329; -2057771; -2116333; -2170009; -2217753; -2260205; -2300477; -2338700; -2374990; -2409452; -2442177]);
  ("SmS", 2, [442137; 274063; 118363; -29010; -169642; -304556; -423111; -486875; -547819; -605808; -658840; -705874; -747551; -786988; -824318; -859659; -893115; -924783]);
  ("Sn2S3", 5, [-2527824; -2488080; -2426546; -2327500]);
  ("Sn3Pb", 4, [102513; 35292; -33565; -61544; -79009; -96615; -114221; -131827; -149433; -167039; -184644; -202250; -219856; -237462; -255068; -272673; -290279; -307885]);
  ("SnBr2", 3, [-2367060; -2251609; -2110080; -1994443; -1886036; -1783239; -1685341; -1591790]);
  ("SnBr4", 5, [-3438246; -3366265; -3233702; -3087992; -2942160; -2796884; -2652109; -2507784]);
  ("SnCl", 2, [77477; -15033; -104997; -179159; -251059; -321752; -391464; -460361; -528571; -596190; -663292; -729933; -796156; -861994; -927468; -992595; -1057384; -1121839]);
  ("SnCl2", 3, [-2964261; -2821942; -2684444; -2561750; -2450209; -2343868; -2257347; -2266097; -2274003; -2281138; -2287561; -2293324; -2298472; -2303042; -2307069; -2310582; -2313607; -2316169]);
  ("SnCl4", 5, [-4557875; -4339303; -4203550; -4054639; -3905596; -3757095; -3609081; -3461505]);
  ("SnF", 2, [-1261439; -1352140; -1440217; -1512473; -1582463; -1651243; -1719039; -1786018; -1852305; -1917994; -1983159; -2047854; -2112121; -2175991; -2239484; -2302615; -2365391; -2427813]);
  ("SnF2", 3, [-6231150; -6070136; -5916101; -5774004; -5637453; -5506205; -5379537; -5256897; -5192976; -5195636; -5197575; -5198844; -5199487; -5199538; -5199032; -5197994; -5196450; -5194421]);
  ("SnH4", 5, [1947055; 2038953; 2138106; 2255382; 2375854; 2497634; 2620006; 2742551]);
  ("SnI2", 3, [-1494892; -1489563; -1404699; -1255000; -1138627; -1027265; -920281; -817184]);
  ("SnI4", 5, [-2229139; -2215691; -2085156; -1848398; -1681543; -1539683; -1398294; -1257317]);
  ("SnO", 2, [-2663787; -2564819; -2467718; -2358581; -2250408; -2143842; -2038792; -1935185; -1478906; -1408408; -1337074; -1264969; -1192149; -1118663; -1044552; -985253; -955428; -998029]);
  ("SnO2", 3, [-5385870; -5174223; -4962953; -4739431; -4517307; -4297504; -4080022; -3864768; -3651617; -3440429; -3231069; -3023413; -2817351; -2612787; -2409639; -2207844]);
  ("SnPb", 2, [50731; 20112; -11817; -30505; -40485; -50320; -60155; -69990; -79825; -89660; -99495; -109330; -119165; -129000; -138835; -148669; -158504; -168339]);
  ("SnPb3", 4, [98870; 50917; -603; -40005; -54205; -68515; -82825; -97136; -111446; -125756; -140066; -154376; -168686; -182997; -197307; -211617; -225927; -240237]);
  ("SnS", 2, [-1107998; -1100417; -1085623; -1053880; -1019906; -985478; -940130; -844692; -750276; -670390; -607761; -385349; -434144; -482211; -529588; -576311; -622411; -667916]);
  ("SnS2", 3, [-1466213; -1434965; -1389036; -1322593; -1251496; -1177907; -1079914; -880117]);
  ("SnSe", 2, [-867599; -858906; -849009; -811941; -772896; -733153; -693478; -652182; -562890; -485913; -423612; -319321; -368674; -417239; -465076; -512233; -558757; -604687]);
  ("SnSe2", 3, [-1138536; -1112802; -1084351; -1014897; -941559]);
  ("SnTe", 2, [-640276; -639019; -636222; -618277; -598417; -557952; -510579; -462195; -425604; -415323; -40437; -107710; -159631; -210660; -260849; -310250; -358911; -406881]);
  ("Sr(HO)2", 5, [-9137529; -8835034; -8532644; -8232516; -7936051; -7649007; -7390859; -7138898; -6887875; -5072125; -4966001; -4859305; -4752094; -4644415; -4497015; -4303536; -4110508; -3917905]);
  ("Sr(IO3)2", 9, [-8855737; -8284294; -7643650; -6960784; -6292628]);
  ("Sr(NO3)2", 9, [-8072841; -7386475; -6706831; -6035849; -5374427; -4722942; -4080748]);
  ("Sr2SiO4", 7, [-22702286; -22309338; -21920230; -21535038; -21153111; -20773754; -20394997; -20017399; -19631947; -19241931; -18854059; -18468303; -18084644; -17703068; -17240945; -16662603; -16088122; -15517400]);
  ("Sr2TiO4", 7, [-22549371; -22150332; -21754086; -21360042; -20967403; -20575460; -20182267; -19788407; -19384874; -18973319; -18560249; -18147811; -17735937; -17324548; -16834968; -16254322]);
  ("Sr3N2", 5, [-3390156; -3171952; -2958611; -2748432; -2540171; -2332907; -2123902; -1914214; -1690518; -1457923; -1226631]);
  ("SrAl2O4", 7, [-23110948; -22705502; -22301277; -21899577; -21500131; -21102305; -20704732; -20292877; -19869353; -19443320; -19018260; -18594279; -18171470; -17749919; -17290413; -16786631; -16285141; -15785955]);
  ("SrBr", 2, [-1344149; -1450024; -1538095; -1623822; -1707248; -1788392; -1866585; -1942364; -2011436; -2075621; -2138419; -2199939; -2260275; -2319508; -2338417; -2310677; -2282846; -2254926]);
  ("SrBr2", 3, [-7251366; -7124512; -6970633; -6819579; -6670812; -6524002; -6378288; -6254229; -6135449; -6017404; -5903113; -5792282; -5684660; -5580029; -5438907; -5254735; -5073868; -4896124]);
  ("SrC2", 3, [-803402; -814021; -828844; -846111; -864685; -883826; -902361; -920487]);
  ("SrCO3", 5, [-11796337; -11519265; -11245287; -10973636; -10703518; -10434491; -10165676; -9897601; -9626147; -9353969; -9100244; -8849120; -8600348]);
  ("SrCl", 2, [-1558384; -1648704; -1736663; -1822333; -1905732; -1986867; -2065061; -2140846; -2209926; -2274121; -2336927; -2398454; -2458796; -2518033; -2536945; -2509205; -2481372; -2453448]);
  ("SrCl2", 3, [-8091660; -7927888; -7768136; -7611502; -7457426; -7305615; -7155380; -7008683; -6865998; -6732441; -6608269; -6486257; -6366245; -6248093; -6092391; -5892640; -5695251; -5500090]);
  ("SrF", 2, [-3320753; -3408728; -3494335; -3577674; -3658760; -3737591; -3813483; -3886963; -3953730; -4015603; -4076076; -4135258; -4193242; -4250111; -4266643; -4236512; -4206278; -4175944]);
  ("SrF2", 3, [-12068485; -11891307; -11717522; -11546600; -11377961; -11211044; -11044696; -10879088; -10709739; -10538504; -10369369; -10203535; -10042854; -9887485; -9696495; -9471026; -9256634; -9044375]);
  ("SrH", 2, [1976708; 1880002; 1786268; 1695029; 1606037; 1519166; 1435035; 1353082; 1277599; 1206768; 1137102; 1068504; 1000893; 934201; 907660; 927608; 947497; 967332]);
  ("SrH2", 3, [-1457742; -1320291; -1180162; -1038176; -894850; -750525; -604762; -458272; -306893; -157302; -9971; 123033; 251318; 379077; 545662; 757517; 968183; 1177749]);
  ("SrHO", 3, [-2211787; -2237537; -2260952; -2282347; -2301799; -2319317; -2334214; -2347008; -2353388; -2355159; -2355806; -2355425; -2354098; -2351896; -2309586; -2220831; -2132179; -2043620]);
  ("SrI", 2, [-186802; -348572; -466047; -552616; -636882; -718865; -797898; -874520; -944436; -1009470; -1073120; -1135495; -1196690; -1256786; -1276563; -1249694; -1222738; -1195698]);
  ("SrI2", 3, [-5790485; -5774258; -5678371; -5528690; -5381863; -5237558; -5118044; -5005011; -4890782; -4776666; -4665737; -4557744; -4452471; -4349733; -4210076; -4026967; -3846782; -3669359]);
  ("SrO", 2, [-5808150; -5704752; -5602616; -5501467; -5400988; -5300898; -5200275; -5099447; -4993944; -4885439; -4777302; -4669532; -4562128; -4455088; -4309119; -4117828; -1089483; -1050424]);
  ("SrS", 2, [-4807185; -4789523; -4764617; -4736168; -4705304; -4672519; -4625979; -4527341; -4423916; -4317387; -4211134; -4105165; -3999488; -3894108; -3749741; -3560001; -3371401; -3183899]);
  ("SrSiO3", 5, [-16052446; -15760249; -15469366; -15180111; -14892270; -14605559; -14319037; -14033018; -13743026; -13450735; -13159524; -12869402; -12580383; -12292478; -11962376; -11560818; -11161398; -10764080]);
  ("SrTiO3", 5, [-16457176; -16165969; -15876664; -15589209; -15303230; -15018298; -14733326; -14448481; -14159144; -13865211; -13569749; -13274853; -12980416; -12686330; -12353203; -11974548]);
  ("SrZrO3", 5, [-17434619; -17142541; -16855356; -16572797; -16294035; -16018251; -15744065; -15471422; -15195539; -14915615; -14636198; -14358415; -14082083; -13807040; -13493853; -13136009; -12779899; -12425375]);
  ("Ta2C", 3, [-2204900; -2203079; -2202042; -2201604; -2201607; -2201955; -2202607; -2203549; -2204782; -2206318; -2208171; -2210354; -2212880; -2215759; -2218996; -2222596; -2226558; -2230878]);
  ("Ta2N", 3, [-2457968; -2337876; -2218535; -2100328; -1983467; -1868099; -1754341; -1642285; -1532006; -1423566; -1317014; -1212391; -1109727; -1009047; -910369; -813703; -719058; -626436]);
  ("Ta2O5", 7, [-19798085; -19331557; -18870541; -18415158; -17965147; -17520180; -17079925; -16644057; -16212250; -15784154; -15359554; -14938229; -14520045; -14104904; -13692737; -13283488; -12877113; -12473575]);
  ("TaB2", 3, [-1923592; -1914536; -1905770; -1896897; -1887740; -1878315; -1868681; -1858907; -1849059; -1839194; -1829363; -1819606; -1809957; -1800442; -1791081; -1781891; -1772880; -1764055]);
  ("TaBr5", 6, [-5119074; -4991722; -4790743; -4592248; -4395783; -4201018; -4007702; -3815640; -3624673; -3434672]);
  ("TaC", 2, [-1558837; -1581205; -1604581; -1628703; -1653351; -1678379; -1703696; -1729248; -1755001; -1780935; -1807042; -1833314; -1859750; -1886348; -1913106; -1940023; -1967098; -1994328]);
  ("TaCl", 2, [3399212; 3290367; 3183467; 3078178; 2974277; 2871605; 2770035; 2669467; 2569821; 2471032; 2373046; 2275819; 2179317]);
  ("TaCl2", 3, [-798941; -833702; -868036; -901990; -935573; -968792; -1001656; -1034173; -1066350; -1098192; -1129703; -1160885; -1191736]);
  ("TaCl3", 4, [-5045133; -4818837; -4597621; -4380819; -4167939; -3958619; -3752587; -3549633; -2993552; -2961480; -2929235; -2896805; -2864176]);
  ("TaCl3O", 5, [-7725973; -7604373; -7483633; -7363809; -7244822; -7126573; -7008966; -6891916; -6775346; -6659188; -6543382; -6427871; -6312607; -6197541; -6082631; -5967837; -5853118; -5738440]);
  ("TaCl4", 5, [-6355015; -6053804; -5760279; -5473070; -5191102; -5048898; -4941052; -4833766; -4726954; -4620548; -4514488; -4408723; -4303208]);
  ("TaCl5", 6, [-7729952; -7344950; -6976596; -6783348; -6599545; -6417403; -6236683; -6057194; -5878786; -5701332; -5524726; -5348874; -5173696; -4999115; -4825067; -4651487; -4478317; -4305503])].

Definition freed_15 : list (string * Z * list Z) := [
  ("TaN", 2, [-2309516; -2211060; -2113599; -2017135; -1921597; -1826918; -1733044; -1639930; -1547543; -1455854; -1364838; -1274474; -1184744; -1095628; -1007110; -919173]);
  ("TaO", 2, [1693227; 1594191; 1497425; 1402409; 1308820; 1216426; 1125051; 1034558; 944837; 855802; 767383; 679525; 592185; 505331; 418939; 332991; 247476; 162390]);
  ("TaO2", 3, [-2185969; -2219221; -2250299; -2279902; -2308376; -2335914; -2362635; -2388617; -2413912; -2438556; -2462575; -2485987; -2508805; -2531037; -2552690; -2573766; -2594266; -2614192]);
  ("TaOF3", 5, [-13063175; -12936077; -12808782; -12681814; -12555325; -12429338; -12303832; -12178766; -12054092; -11929758; -11805717; -11681920; -11558322; -11434878; -11311548; -11188291; -11065070; -10941847]);
  ("TaS2", 3, [-3574388; -3540827; -3493280; -3439572; -3382385; -3323095; -3239744; -3054879; -2871978; -2690992; -2511879; -2334605; -2159137; -1985447; -1813508; -1643297]);
  ("TaSi2", 3, [-1223912; -1219955; -1216084; -1212280; -1208508; -1204737; -1200944; -1197115; -1193242; -1189322; -1185357; -1181351; -1177312; -1173251; -1161108; -1095129; -1029484; -964181]);
  ("Tb1000O1719", 2719, [-9353536737; -9179736108; -9008411208; -8839434150; -8672529787; -8507461155; -8344047903; -8182156719]);
  ("Tb250O453", 703, [-2354068956; -2308197176; -2262915363; -2218240821; -2174106606; -2130434650; -2087150289]);
  ("Tb2O3", 5, [-18407450; -18102180; -17802592; -17507938; -17217285; -16929870; -16645098; -16362507; -16081724; -15802444; -15524403; -15247373; -14971146; -14693066; -14403363; -14110358]);
  ("TbBr3", 4, [-5915758; -5920933; -5879511; -5837668; -5795422; -5752757; -5709641; -5666031; -5621872; -5577103; -5531658; -5485462; -5438435; -5389260; -5333055; -5273972; -5214059; -5153347]);
  ("TbCl3", 4, [-9541975; -9281164; -9025798; -8775184; -8528790; -8289428; -8080541; -7890449; -7705807; -7525941; -7350285; -6668976; -6629626; -6588129; -6539601; -6488195; -6435956; -6382915]);
  ("TbF3", 4, [-16886181; -16620183; -16359366; -16103195; -15851121; -15602664; -15357426; -15115074; -14875329; -14637959; -14402762; -14169571; -13959385; -13772083; -13581814; -13392484; -13205926; -13021986]);
  ("TbFeO3", 5, [-13151705; -12845363; -12543006; -12244369; -11948686]);
  ("TbI3", 4, [-6232423; -6203068; -6053292; -5822484; -5595466; -5371486; -5150124; -4931360; -4715697; -4503544; -4329418; -3908987; -3867906; -3824657; -3774357; -3721159; -3667110; -3612243]);
  ("TbO", 2, [-993333; -1076907; -1157801; -1236560; -1313404; -1388436; -1461709; -1533245; -1603050; -1671115; -1737424; -1801953; -1864670; -1924309; -1976034; -2024048; -2070447; -2115313]);
  ("TbS", 2, [1132147; 968285; 815563; 669398; 528140; 390930; 268643; 199942; 133050; 67970; 4716; -56690; -116223; -172615; -221037; -265691; -308676; -350075]);
  ("Te2Au", 3, [-177108; -171729; -165873; -159225; -151654]);
  ("Te2Mo", 3, [-762445; -749372; -736236; -722319; -707023; -650918; -581053; -509022; -435022; -359206]);
  ("Te2Pd", 3, [-530906; -519697; -507529; -493954; -478676; -422523; -352750; -281123]);
  ("Te2Ru", 3, [-1333036; -1292804; -1251353; -1207914; -1161943; -1074122; -971638; -866244; -758298; -648127; -536022; -377948; -192015]);
  ("Te3As2", 5, [-408379; -415265; -420793; -425677; -470468; -518174; -544843]);
  ("Te4Mo3", 7, [-1638247; -1621060; -1603312; -1583215; -1559490; -1453292; -1318761; -1179137; -1034861; -886281; -733677; -488655; -187110; 113555]);
  ("TeAs", 2, [1842848; 1668847; 1499176; 1333535; 1171720; 1033062; 913591; 828083; 744775; 663461; 583972; 528314; 487434; 446906; 406707; 366812; 327194; 287825]);
  ("TeCl2", 3, [-1273078; -1306211; -1337467; -1366760; -1394018; -1399705; -1397486; -1393272; -1387259; -1379603; -1370440; -1337726; -1290490; -1243133; -1195656; -1148065; -1100369; -1052583]);
  ("TeCl4", 5, [-2439748; -2141241; -1854455; -1622927; -1413039]);
  ("TeF", 2, [-1182421; -1274520; -1364109; -1451275; -1536039; -1598925; -1653641; -1706131; -1756612; -1805266; -1852242; -1875514; -1884123; -1892481; -1900600; -1908496; -1916187; -1923695]);
  ("TeF2", 3, [-4060097; -4081916; -4101008; -4117706; -4132102; -4124738; -4109322; -4091795; -4072370; -4051222; -4028495; -3982160; -3921253; -3860183; -3798962; -3737600; -3676116; -3614527]);
  ("TeF4", 5, [-9419020; -9282592; -9145617; -9008306; -8870509; -8712550; -8547951; -8382503; -8216297; -8049406; -7881891; -7691650; -7487659; -7284275; -7081461; -6879191; -6677445; -6476210]);
  ("TeF5", 6, [-11708929; -11362043; -11016289; -10681263; -10459489; -10218375; -9971348; -9724118; -9476714; -9229153; -8981453; -8711476; -8428165; -8145849; -7864469; -7583976; -7304332; -7025507]);
  ("TeF6", 7, [-13187946; -12854585; -12522705; -12192465; -11863513; -11515966; -11163173; -10810782; -10458763; -10107091; -9755744; -9382551; -8996428; -8611679; -8228224; -7845996; -7464939; -7085009]);
  ("TeH2", 3, [880989; 833695; 791327; 752951; 718016; 705647; 701895; 700642; 701538; 704304; 708710; 736716; 779228; 821789; 864345; 906847; 949245; 991489]);
  ("TeO", 2, [456916; 371128; 286184; 202407; 120109; 59005; 5552; -46075; -96012; -144376; -191271; -214636; -223485; -232207; -240799; -249261; -257598; -265821]);
  ("TeO2", 3, [-2798470; -2618387; -2441124; -2266101; -2092732; -1901053; -1704391; -1508389; -1342041; -1181436; -1024480; -848708; -662790]);
  ("TePb", 2, [-697247; -692311; -686560; -679674; -663141; -625593; -580851; -534905; -488009; 99; -93164; -161965; -215401; -267933; -319615; -370499; -420635; -470072]);
  ("Th(SO4)2", 11, [-23887946; -23085875; -22270183; -21452076; -20636509; -19826557; -19001597; -18085266]);
  ("Th2S3", 5, [-11159740; -11132790; -11084831; -11027211; -10963636; -10895921; -10790930; -10532318; -10275170; -10019304; -9764568; -9510834; -9257996; -9005960; -8751671; -8496845; -8242885; -7989680]);
  ("Th3N4", 7, [-12564910; -12211979; -11863575; -11519708; -11179900; -10843640; -10510483; -10180055; -9852046; -9526200; -9202304; -8880179; -8559673; -8240656; -7918554; -7595952; -7274963; -6955429]);
  ("Th50C97", 147, [-77433454; -77830230; -78357915; -78956177; -79589417; -80236835; -80886278; -81530737; -82166344; -82791172; -83404518; -84006443; -84597487; -85178477; -85675974; -86313060; -87139140; -87956955]);
  ("ThBr2O", 4, [-11153555; -10905488; -10631490; -10361569; -10095156; -9831808; -9571183; -9313009; -9057071; -8803189; -8551216; -8301029; -8052519]);
  ("ThBr4", 5, [-9582203; -9313015; -8989717; -8672528; -8361033; -8060016; -7763162; -7490365; -7270254; -7128068; -7012730; -6897116; -6781178; -6664878; -6546693; -6427486; -6307962; -6188068]);
  ("ThCl2O", 4, [-11953518; -11682037; -11414553; -11150701; -10890204; -10632768; -10378107; -10125964; -9876121; -9628403; -9382680; -9138861; -8896895]);
  ("ThCl4", 5, [-11339203; -11023181; -10714159; -10410999; -10114534; -9828693; -9547005; -9269165; -9030754; -8823302; -8678338; -8576410; -8474157; -8371539; -8267034; -8161505; -8055656; -7949434]);
  ("ThF2", 3, [-6903060; -6942500; -6980200; -7016323; -7050953; -7084149; -7115960; -7146427; -7175585; -7203467; -7230100; -7255508; -7279713; -7302734; -7323099; -7341716; -7359330; -7375923]);
  ("ThF3", 4, [-12221886; -12202891; -12183691; -12164192; -12144274; -12123842; -12102823; -12081164; -12058825; -12035774; -12011988; -11987448; -11962137; -11936043; -11907667; -11877893; -11847446; -11816287]);
  ("ThF4", 5, [-20759731; -20435022; -20116339; -19802583; -19492903; -19186667; -18883396; -18582720; -18284348; -17988047; -17693624; -17406263; -17146517; -16888221; -16629727; -16371791; -16115025; -15931588]);
  ("ThH2", 3, [-1086107; -945344; -801918; -658143; -515241; -373855; -234306; -96737]);
  ("ThI2O", 4, [-9933593; -9795419; -9578392; -9308367; -9041871; -8778451; -8517752; -8259494; -8003448; -7749430; -7497284; -7246880; -6998107]);
  ("ThI4", 5, [-6868322; -6823189; -6618129; -6305029; -5997237; -5694100; -5432176; -5200886; -4976518; -4839258; -4732854; -4626141; -4519076; -4411620; -4302249; -4191827; -4081060; -3969894]);
  ("ThN", 2, [-3765165; -3669355; -3574930; -3481816; -3389862; -3298926; -3208886; -3119645; -3031122; -2943251; -2855977; -2769254; -2683044; -2597315; -2510549; -2423616; -2337228; -2251337]);
  ("ThO", 2, [-524859; -610274; -692991; -773482; -852013; -928772; -1003901; -1077520; -1149729; -1220614; -1290250; -1358702; -1426030; -1492287; -1556029; -1618195; -1679554; -1740112]);
  ("ThO2", 3, [-12110181; -11911072; -11714341; -11519804; -11327142; -11136071; -10946356; -10757812; -10570289; -10383665; -10197840; -10012731; -9828267; -9644388; -9459552; -9274609; -9090250; -8906409]);
  ("ThOF2", 4, [-16502136; -16237709; -15977333; -15720421; -15466491; -15215180; -14966218; -14719397; -14474559; -14231576; -13990346; -13750785; -13512824]);
  ("ThS", 2, [-4092614; -4075083; -4050232; -4021980; -3991607; -3959730; -3915302; -3819539; -3724129; -3629005; -3534111; -3439398; -3344825; -3250358; -3154475; -3058045; -2961773; -2865611]);
  ("ThS2", 3, [-6438514; -6414100; -6375283; -6329852; -6280374; -6228084; -6150883; -5971189; -5792374; -5614299; -5436855; -5259956; -5083538; -4907554; -4730485; -4553208; -4376448; -4200182]);
  ("ThSe", 2, [3118567; 2946604; 2780058; 2630617; 2485800; 2344694; 2206656; 2071275; 1985064; 1908960; 1833432; 1758399; 1683826; 1609734; 1537593; 1466562; 1395947; 1325818]);
  ("ThSe2", 3, [1408941; 1217378; 1033683; 881638; 736825; 598012; 464469; 335843; 305528; 295665; 287364; 280545; 275142; 271095; 269842; 270443; 272127; 274886]);
  ("ThTe", 2, [3680089; 3507477; 3339828; 3176586; 3017226; 2880774; 2753167; 2628207; 2505520; 2384856; 2266060; 2171238; 2091401; 2012206; 1935200; 1859543; 1784553; 1710301]);
  ("ThTe2", 3, [2405663; 2214045; 2029458; 1851515; 1679987; 1553687; 1445095; 1342247; 1244643; 1151878; 1063615; 1023875; 1014555; 1006807; 1002080; 999432; 998083; 998009]);
  ("Ti(FeO2)2", 7, [-14683472; -14347242; -14015087; -13686741; -13361495; -13038573; -12717281; -12396587; -12074556; -11750974; -11426962; -11106835; -10790812; -10479149]);
  ("Ti2O3", 5, [-14856536; -14555906; -14261443; -13974764; -13693529; -13417015; -13144580; -12875675; -12609834; -12343374; -12075583; -11810558; -11548011; -11287660; -11029235; -10772478; -10517148; -10254792]);
  ("Ti3O5", 8, [-24012196; -23522950; -23056541; -22609128; -22166558; -21727639; -21291751; -20858589; -20428016; -19995041; -19559079; -19126685; -18697767; -18272168; -17849682; -17430057; -17013006; -16585869]);
  ("Ti4O7", 11, [-33254213; -32590469; -31934124; -31285149; -30642856; -30006528; -29375537; -28749343; -28127486; -27502988; -26874755; -26251256; -25632143; -25017045; -24405581; -23797373; -23192048; -22572792]);
  ("TiAl2O5", 8, [-25387295; -24878748; -24372377; -23869429; -23369739; -22872807; -22378084; -21869235; -21354127; -20839104; -20323906; -19810665; -19299310; -18789766; -18281959; -17775816]);
  ("TiAl3", 4, [-1445312; -1420008; -1392987; -1364510; -1334455; -1302554; -1268502; -1208286; -1134149; -1056837; -976434; -895395]);
  ("TiB", 2, [-1655250; -1652720; -1649765; -1646684; -1643438; -1639941; -1636095; -1631799; -1626961; -1619858; -1610232; -1600220; -1589754; -1578766; -1567186; -1554950; -1541994; -1524153]);
  ("TiB2", 3, [-3360752; -3345984; -3330751; -3314875; -3298266; -3280969; -3263045; -3244549; -3225526; -3204368; -3180918; -3157390; -3133783; -3110079; -3086249; -3062257; -3038063; -3009512]);
  ("TiBr", 2, [1725910; 1600622; 1491851; 1383970; 1276861; 1170483; 1064829; 959908; 855736; 753975; 654827; 556109; 457850; 360083; 262847; 166181; 70122; -21181]);
  ("TiBr2", 3, [-3970441; -3830213; -3663712; -3500673; -3340497; -3182774; -3027205; -2873559; -2721656; -2569705; -2577763; -2600893; -2623561; -2645745; -2667420; -2688559; -2709137; -2725014]);
  ("TiBr3", 4, [-5428899; -5248450; -5028474; -4814953; -4608383; -4409510; -4000055; -3959800; -3919274; -3876756; -3831996; -3787137; -3742119; -3696877; -3651346; -3605462; -3559166; -3508287]);
  ("TiBr4", 5, [-6107244; -5926976; -5703711; -5575139; -5450789; -5326788; -5202985; -5079254; -4955492; -4829968; -4702426; -4574998; -4447616; -4320207; -4192696; -4065011; -3937082; -3804730]);
  ("TiC", 2, [-1874589; -1862178; -1850284; -1838859; -1827723; -1816691; -1805600; -1794321; -1782751; -1769169; -1753337; -1737427; -1721387; -1705196; -1688828; -1672257; -1655463; -1634315]);
  ("TiCl", 2, [1267463; 1157297; 1048232; 940020; 832563; 725828; 619815; 514536; 410010; 307900; 208408; 109353; 10763; -87329; -184882; -281859; -378220; -469820]);
  ("TiCl2", 3, [-4825542; -4655063; -4487669; -4322896; -4160428; -4000044; -3841580; -3684911; -3529937; -3374936; -3219656; -3066241; -2914628; -2795337; -2808659; -2821441; -2833656; -2841166]);
  ("TiCl2O", 4, [-6828791; -6792088; -6755132; -6717943; -6680456; -6642593; -6604281; -6565456; -6526065; -6484417; -6440287; -6395838; -6351027; -6305804; -6260115; -6213908; -6167129; -6115616]);
  ("TiCl3", 4, [-6771003; -6540825; -6315859; -6094920; -5877277; -5662427; -5449984; -5239640; -5058925; -5005440; -4949678; -4893785; -4837707; -4781382; -4724749; -4667746; -4610315; -4548289]);
  ("TiCl4", 5, [-7637625; -7413631; -7280640; -7156580; -7033033; -6909815; -6786770; -6663774; -6540724; -6415890; -6289018; -6162243; -6035499; -5908715; -5781821; -5654745; -5527421; -5395670]);
  ("TiClO", 3, [-2591325; -2610213; -2628065; -2645118; -2661435; -2677026; -2691877; -2705968; -2719278; -2730142; -2738355; -2746098; -2753341; -2760045; -2766168; -2771664; -2776489; -2776488]);
  ("TiF", 2, [-1020993; -1129246; -1236323; -1342518; -1447944; -1552634; -1656591; -1759797; -1862233; -1962234; -2059595; -2156496; -2252910; -2348799; -2444126; -2538851; -2632937; -2722235]);
  ("TiF2", 3, [-7202567; -7225118; -7246893; -7267979; -7288364; -7308016; -7326904; -7345001; -7362288; -7377106; -7389262; -7400949; -7412153; -7422853; -7433023; -7442637; -7451670; -7455987]);
  ("TiF3", 4, [-14110871; -13858178; -13610151; -13365718; -13124311; -12885583; -12649312; -12415350; -12183604; -11952378; -11721462; -11654419; -11601681; -11548662; -11495301; -11441540; -11387322; -11328484]);
  ("TiF4", 5, [-16154567; -15846307; -15546857; -15326273; -15200923; -15075725; -14950587; -14825415; -14700125; -14572996; -14443774; -14314598; -14185401; -14056113; -13926663; -13796984; -13667011; -13532571]);
  ("TiFe2O5", 8, [-16801769; -16347667; -15900056; -15458005; -15020234; -14585529; -14152826; -13720748; -13287010; -12851032; -12413545; -11978452; -11545532; -11114577; -10685035; -10256095]);
  ("TiFeO3", 5, [-12011225; -11743573; -11479107; -11217491; -10958102; -10700374; -10443865; -10187954; -9931516; -9673417; -9413877; -9155902; -8899351; -8644119; -8424943; -8232223; -8035965; -7838159]);
  ("TiH2", 3, [-831372; -691576; -547398; -401232; -254395; -107589; 38828; 184695; 329961; 476282; 623893; 770664; 916686; 1062063; 1206902; 1351312; 1495394; 1643359]);
  ("TiI", 2, [2280608; 2099280; 1960929; 1852013; 1743863; 1636438; 1529730; 1423750; 1318513; 1215681; 1115454; 1015652; 916300; 817434; 719092; 621313; 524136; 431707]);
  ("TiI2", 3, [-2682782; -2652679; -2545092; -2385182; -2229176; -2076457; -1926566; -1779151; -1633932; -1489036; -1344089; -1270234; -1292388; -1314044; -1335176; -1355758; -1375763; -1391054]);
  ("TiI3", 4, [-3462305; -3439746; -3301004; -3083849; -2872638; -2666451; -2464610; -2266588; -2084195; -2041977; -1997500; -1952908; -1908141; -1863135; -1817822; -1772138; -1726020; -1675294]);
  ("TiI4", 5, [-3841975; -3817649; -3693944; -3479826; -3315594; -3196598; -3077826; -2959131; -2840399; -2719892; -2597349; -2474901; -2352477; -2230002; -2107403; -1984606; -1861544; -1734038]);
  ("TiMnO3", 5, [-13271572; -12997862; -12727103; -12459089; -12193294; -11929223; -11666456; -11404183; -11140734; -10876201; -10610288; -10344426; -10076685; -9802090]);
  ("TiN", 2, [-3204926; -3105223; -3006106; -2907884; -2810522; -2713906; -2617915; -2522437; -2427376; -2331002; -2233059; -2135682; -2038803; -1942352; -1846258; -1750450; -1654862; -1555320]);
  ("TiNiO3", 5, [-11509236; -11214313; -10919385; -10624669; -10329864; -10035696; -9742416; -9450097; -9158789; -8866886]);
  ("TiO", 2, [-5316866; -5214683; -5113485; -5013387; -4914319; -4816192; -4718936; -4622505; -4526870; -4430377; -702739; -788637; -873711; -957945; -1041316; -1123797; -1205361; -1281867]);
  ("TiO2", 3, [-9209848; -9018251; -8828141; -8639783; -8453078; -8267817; -8083761; -7900675; -7718377; -7534987; -7350236; -7166236; -6982910; -6800187; -6617999; -6436286; -6254989; -6069944]);
  ("TiOF", 3, [-4538161; -4553831; -4568146; -4581491; -4594004; -4605728; -4616672; -4626827; -4636176; -4643059; -4647275; -4651004; -4654218; -4656879; -4658945; -4660372; -4661118; -4657027]);
  ("TiOF2", 4, [-9424099; -9369870; -9314323; -9257993; -9201050; -9143533; -9085437; -9026734; -8967392; -8905735; -8841548; -8776998; -8712047; -8646649; -8580752; -8514307; -8447264; -8375464]);
  ("TiS", 2, [-2873122; -2865699; -2851173; -2833225; -2813055; -2791258; -2756785; -2670857; -2585170; -2498024; -2409186; -2320814; -2232862; -2145277; -2058004; -1970989; -1884178; -1793408]);
  ("TiS2", 3, [-4167959; -4148423; -4114462; -4073792; -4029011; -3981502; -3909401]);
  ("TiZn2O4", 7, [-15892555; -15499024; -15109042; -14722929; -14338809; -13937336; -13538510; -13142267; -12748515; -12315022; -11721114; -11131410; -10545647; -9963558; -9384883; -8809362]);
  ("Tl2CO3", 6, [-6362892; -6068979]);
  ("Tl2O", 3, [-1485439; -1398571; -1314826; -1228071; -1131433; -1036759; -961922; -909883])].

Definition freed_16 : list (string * Z * list Z) := [
  ("Tl2O3", 5, [-3228194; -2943386; -2663504; -2382794; -2094116; -1808945; -1526913; -1247701]);
  ("Tl2S", 3, [-967902; -972560; -971937; -964100; -943712; -949378; -954844; -911140]);
  ("Tl2SO4", 7, [-8604511; -8252186; -7897280; -7540311; -7177432; -6822436; -6462011; -6077796]);
  ("Tl2Se", 3, [-988066; -993004; -998494; -986459; -973203; -977879]);
  ("Tl2Te", 3, [-820122; -815531; -809877; -797542; -772034; -750720]);
  ("TlBr", 2, [-1740269; -1690183; -1626693; -1562412; -1494109; -1443744; -1404480; -1367878; -1333292; -1300180]);
  ("TlCl", 2, [-1915460; -1849958; -1786478; -1721962; -1653025; -1608661; -1568660; -1531720; -1509462; -1570352; -1630271; -1689291; -1747474]);
  ("TlF", 2, [-3147901; -3077907; -3011136; -2945268; -2899774; -2857209; -2817173; -2779361; -2743532; -2781198; -2840148; -2898254; -2955578; -3012175; -3068092; -3070843; -3028584; -2986159]);
  ("TlH", 2, [1854515; 1767568; 1683570; 1604632; 1533562; 1464018; 1395722; 1328477; 1262138; 1196597; 1131769; 1067588; 1004000; 940960; 878429; 868902; 904235; 939588]);
  ("TlHO", 3, [-943336; -967668; -990337; -1008830; -1020032; -1030087; -1039148; -1047338; -1054752; -1061472; -1067564; -1073084; -1078081; -1082593; -1086656; -1037771; -944078; -850410]);
  ("TlI", 2, [-1300495; -1302936; -1266610; -1201864; -1133263; -1085541; -1043999; -1005151; -968722; -934488]);
  ("TlO", 2, [-2283015; -2365442; -2445929; -2522289; -2591636; -2660227; -2728258; -2795845; -2863060; -2929942; -2996512; -3062781; -3128751; -3194421; -3259786; -3272313; -3240112; -3207988]);
  ("TlSe", 2, [-662362; -671099; -678491; -669522; -683735; -707179]);
  ("Tm2O3", 5, [-18592517; -18268595; -17950827; -17638125; -17329464; -17024031; -16721192; -16420454; -16121425; -15823790; -15527289; -15231710; -14936872; -14642623; -14348996; -14056323; -13747961; -13435868]);
  ("TmBr3", 4, [-5961742; -5965149; -5922307; -5879269; -5835967; -5792325; -5748272; -5703746; -5658699; -5613089; -5566886; -5520066; -5472611; -5424511; -5375759; -5326352; -5268346; -5207764]);
  ("TmCl3", 4, [-6792143; -6756498; -6720947; -6685371; -6649633; -6613615; -6577221; -6540375; -6503019; -6465108; -6426607; -6387491; -6347742; -6307347; -6266299; -6224597; -6174294; -6121413]);
  ("TmF3", 4, [-16347139; -16078524; -15815804; -15557952; -15304197; -15053947; -14806743; -14562223; -14320101; -14080149; -13842187; -13623260; -13426154; -13238723; -13054361; -12872840; -12686014; -12499731]);
  ("TmI3", 4, [-3981293; -4155818; -4204724; -4167783; -4130576; -4093020; -4055041; -4016575; -3977569; -3937984; -3897787; -3856954; -3815466; -3773313; -3730487; -3686987; -3634866; -3580149]);
  ("TmO", 2, [-541667; -619486; -694989; -768705; -840877; -911629; -981034; -1049136; -1115969; -1181558; -1245926; -1309096; -1371091; -1431932; -1491643; -1550250; -1599830; -1646430]);
  ("TmS", 2, [1195198; 1040534; 896635; 758939; 625776; 496265; 381264; 319413; 258908; 199719; 141820; 85185; 29789; -24393; -77387; -129221; -171975; -211696]);
  ("U(BrO)2", 5, [-11048081; -10739237; -10405687]);
  ("U(ClO)2", 5, [-11868997; -11532237; -11200309; -10872463; -10548145; -10226916]);
  ("U(OF)2", 5, [-16135137; -15803713]);
  ("U10S19", 29, [-53292741; -53264366; -53113005; -52906899; -52665664; -52397034; -51887516; -50380077; -48841844; -47290192; -45748236; -44215576; -42626794; -41034138; -39443163; -37854042; -36266937]);
  ("U2C3", 5, [-1944612; -1969846; -2001487; -2036788; -2073667; -2110600; -2146459; -2177037; -2199312; -2217095; -2235382; -2254490; -2261750; -2268035; -2274887; -2282776; -2292171; -2303539]);
  ("U2F9", 11, [-39497860; -38798883; -38113163; -37437261]);
  ("U2S3", 5, [-9114481; -9115617; -9097596; -9070598; -9037461; -8999253; -8922152; -8685823; -8442383; -8195402; -7949584; -7704920; -7448387; -7190491; -6932389; -6674160; -6415874; -6157594]);
  ("U2Se3", 5, [-7501763; -7545409; -7586653; -7587626; -7583320; -7574243; -7560334; -7537755; -7363128; -7156732; -6951535; -6747582; -6531896; -6315018; -6098140; -5881367; -5664794; -5448507]);
  ("U3As4", 7, [-7507184; -7524059; -7541063; -7556828; -7570255; -7580379; -7546927; -7380816]);
  ("U3Sb4", 7, [-4736414; -4754650; -4773094; -4790568; -4805947; -4818131; -4826039]);
  ("U3Si", 4, [-1093942; -1099431; -1106027; -1113241; -1120543; -1127344; -1133004; -1131836; -1122109; -1108237]);
  ("U4F17", 21, [-77331618; -76009003; -74712564; -73435511]);
  ("U4O9", 13, [-44296753; -43491413; -42703604; -41927540; -41160010; -40398502; -39640928; -38878794; -38105801; -37329206; -36558557; -35793995; -35018559; -34244702]);
  ("U50B99", 149, [-89141861; -88840359; -88613052; -88421560; -88238706; -88045741; -87825418; -87477118; -86925063; -86260862; -85603222; -84952019; -83981048; -82952262; -81897820; -80825112; -79744253; -78668209]);
  ("U50C97", 147, [-46606014; -47243406; -48081284; -49044127; -50076147; -51135995; -52191606; -53133351; -53880500; -54522535; -55178004; -55848005; -56208536; -56523825; -56824479; -57114045]);
  ("UAs2", 3, [-2606283; -2608136; -2610216; -2611998; -2613069]);
  ("UB12", 13, [-4546485; -4568736; -4596295; -4625958; -4655224; -4682747; -4707579; -4727306; -4740128; -4747674]);
  ("UB4", 5, [-2537130; -2535825; -2536946; -2539201; -2541664; -2543812; -2545246; -2543951; -2538440; -2530591]);
  ("UBr2O", 4, [-9633157; -9418304; -9179246; -8945743; -8716832; -8491662; -8269489]);
  ("UBr3", 4, [-6978568; -6794944; -6572244; -6355055; -6142375; -5933430; -5727579; -5522597]);
  ("UBr3O", 5, [-9339681; -9062814; -8747689; -8439217; -8136330; -7838109; -7543764; -7250936; -6957839]);
  ("UBr4", 5, [-7956122; -7708614; -7407041; -7111300; -6820376; -6538595; -6320635; -6106802]);
  ("UBr5", 6, [-7971002; -7670413; -7304214; -6946923; -6597049; -6253487; -5915351; -5580228]);
  ("UC", 2, [-1024848; -1030521; -1039707; -1051172; -1063946; -1077270; -1090530; -1101539; -1108679; -1113733; -1119063; -1124685; -1124115; -1122637; -1120863; -1118871; -1116732; -1114518]);
  ("UCl2O", 4, [-10319781; -10076994; -9839849; -9607398; -9378793; -9153314]);
  ("UCl3", 4, [-8231362; -8001154; -7776402; -7555667; -7338096; -7123082; -6910135; -6697166]);
  ("UCl3O", 5, [-11073827; -10750526; -10433357; -10121083; -9812882; -9508142; -9206361]);
  ("UCl4", 5, [-9634135; -9328562; -9029743; -8736347; -8447507; -8162578; -7901384; -7677468]);
  ("UCl5", 6, [-9836398; -9464238; -9101618; -8746439; -8460770; -8183506]);
  ("UCl6", 7, [-9970659; -9528332; -9120688; -8752376]);
  ("UF", 2, [-747411; -851060; -953095; -1053737; -1153022; -1250694; -1346428; -1438255; -1524717; -1607716; -1689702; -1770755; -1844437; -1916063; -1986268; -2055141; -2122759; -2189193]);
  ("UF2", 3, [-5646917; -5694616; -5743652; -5793139; -5842453; -5891103; -5938666; -5983095; -6022871; -6059849; -6096442; -6132702; -6162171; -6190147; -6217254; -6243572; -6269174; -6294129]);
  ("UF3", 4, [-14919429; -14683448; -14452441; -14225173; -14000842; -13778852; -13558718; -13338348; -10709369; -10675411; -10641147; -10606615; -10565342; -10522617; -10479050; -10434709; -10389654; -10343940]);
  ("UF4", 5, [-18963516; -18652765; -18348747; -18049775; -17754595; -17462233; -17171896; -16881247; -16588534; -16295417; -16004148; -15749457; -15229980]);
  ("UF5", 6, [-20417451; -20031290; -19671392; -19316141; -19027347; -18760743; -18574979; -18402038; -18224902; -18045353; -17865738; -17686049; -17499777]);
  ("UF6", 7, [-21432102; -21094329; -20807737; -20523376; -20240554; -19958620; -19676982; -19393431; -19106302; -18817318; -18528779; -18240632; -17946327; -17651082; -17355445; -17059429; -16763049; -16466315]);
  ("UI3", 4, [-4766079; -4754641; -4625383; -4416512; -4212580; -4012729]);
  ("UI4", 5, [-5249016; -5216118; -5024439; -4725968; -4433761; -4157560]);
  ("UN", 2, [-2754082; -2668473; -2584542; -2501858; -2419959; -2338409; -2256803; -2173088; -2085732; -1996572; -1908000; -1820048; -1726235; -1631840; -1537463; -1443166; -1349001; -1255017]);
  ("UO", 2, [-75286; -185358; -292451; -396806; -498442; -597281; -693182; -784304; -869280; -950080; -1029211; -1106794; -1176427; -1243456; -1308538; -1371785; -1433290; -1493141]);
  ("UO2", 3, [-10690191; -10506441; -10324592; -10144964; -9969172; -9795318; -9622516; -9448568; -9271802; -9093909; -8917170; -8741463; -8560240; -8378724; -8197494; -8016628; -7836229; -7656434]);
  ("UO3", 4, [-11873472; -11604229; -11338636; -11076000; -10815525; -10556499; -10298294]);
  ("UP", 2, [-2734836; -2719049; -2701879; -2672838; -2632005; -2590934; -2549264; -2504979; -2456575; -2405906; -2355380; -2305034; -2248391; -2190726]);
  ("US", 2, [-3325763; -3320390; -3308116; -3292508; -3274522; -3254468; -3220998; -3133362; -3041787; -2948096; -2854675; -2761545; -2662216; -2561958; -2461366; -2360492; -2259381; -2158076]);
  ("US2", 3, [-5386705; -5380924; -5361571; -5335902; -5306067; -5272962; -5214186; -5050206; -4882947; -4714177; -4546239; -4379120; -4206304; -4033042; -3859913; -3686957; -273067; -241709]);
  ("US3", 4, [-5617172; -5606079; -5574390; -5533361; -5486474; -5435278; -5346353; -5101396; -4854031]);
  ("USO6", 8, [-17462607; -16909357; -16352422; -15796021; -15241645; -14690073; -14130374; -13522166]);
  ("USb2", 3, [-1821936; -1822418; -1823207; -1824016; -1824359]);
  ("USe", 2, [-2869795; -2874081; -2877715; -2867938; -2856293; -2842837; -2827442; -2808167; -2736729; -2653845; -2571317; -2489176; -2400945; -2311900; -2222644; -2133233; -2043717; -1954143]);
  ("USe2", 3, [-4422868; -4422890; -4421176; -4392614; -4360644; -4325713; -4287884; -4245259; -4102748; -3939912; -3777920; -3616786; -3450013; -3282862; -3115925; -2949247; -2782873; -2616841]);
  ("UTe", 2, [3594562; 3407943; 3226488; 3049922; 2878157; 2730705; 2593970; 2463835; 2341442; 2224645; 2110795; 2021808; 1955059; 1890805; 1828392; 1767710; 1708662; 1651158]);
  ("UTe2", 3, [2528953; 2348890; 2175061; 2007556; 1846543; 1731190; 1634314; 1545939; 1467050; 1395366; 1328120; 1309278; 1327192; 1347718; 1370196; 1394508; 1420539; 1448178]);
  ("V200N93", 293, [-246712971; -236962037; -227201373; -217501714; -207890107; -198376709; -188963987; -179650496; -170432637; -161305550; -152263599; -143300658; -134410280; -125585802; -116820416; -108107214]);
  ("V25C22", 47, [-25653203; -25426382; -25214138; -25018503; -24837950; -24670651; -24515002; -24369631; -24233327; -24104973; -23983496; -23867837; -23756925; -23649671; -23544953; -23441617; -23338472; -23234292]);
  ("V2B3", 5, [-3527334; -3510738; -3494382; -3477934; -3461312; -3444630; -3427996; -3411480; -3395109; -3378872; -3362735; -3346753; -3330958; -3315384; -3300061; -3285013; -3270265; -3255838]);
  ("V2C", 3, [-1175382; -1162205; -1148978; -1136005; -1123402; -1111210; -1099431; -1088049; -1077031; -1066338; -1055920; -1045726; -1035697; -1025774; -1015893; -1005989]);
  ("V2O3", 5, [-11896890; -11622503; -11353210; -11088775; -10828639; -10572242; -10319106; -10068848; -9821174; -9575871; -9332792; -9091851; -8853012; -8616281; -8381699; -8149343]);
  ("V2O5", 7, [-14702143; -14247496; -13797247; -13351942; -12911423; -12475342; -12043289; -11650016; -11297306; -10948186; -10602125; -10258672; -9917439]);
  ("V2S3", 5, [-5338400; -5304815; -5247362; -5179957; -5107613; -5032907; -4923187; -4662439; -4405976; -4153778]);
  ("V3B2", 5, [-3111992; -3100022; -3088175; -3076213; -3064105; -3051954; -3039862; -3027904; -3016125; -3004556; -2993196; -2982088; -2971271; -2960785; -2950670; -2940965; -2931706; -2922929]);
  ("V3B4", 7, [-4975671; -4953336; -4931314; -4909160; -4886768; -4864295; -4841891; -4819656; -4797631; -4775805; -4754145; -4732717; -4711572; -4690762; -4670328; -4650307; -4630735; -4611644]);
  ("V3Si", 4, [-1706232; -1701962; -1696648; -1690464; -1683779; -1676452; -1668507; -1659960; -1650812; -1641053; -1630663; -1619612; -1607863]);
  ("V5B6", 11, [-7590872; -7483469; -7376527; -7269369; -7161844; -7054198; -6946663; -6839398; -6732473; -6625879; -6519578; -6413664; -6308229; -6203352; -6099103; -5995545; -5892735; -5790728]);
  ("VB", 2, [-1418124; -1412430; -1406824; -1401197; -1395516; -1389806; -1384099; -1378421; -1372793; -1367231; -1361750; -1356362; -1351078; -1345907; -1340862; -1335950; -1331183; -1326572]);
  ("VB2", 3, [-2078868; -2067968; -2057235; -2046451; -2035557; -2024622; -2013714; -2002874; -1992095; -1981391; -1970746; -1960171; -1949679; -1939288; -1929017; -1918881; -1908897; -1899076]);
  ("VCl2", 3, [-4201916; -4043576; -3888707; -3736686; -3587112; -3439703; -3294249; -3150581; -3008562; -2868073; -2729011]);
  ("VCl3", 4, [-5300179; -5062274; -4829526; -4601154; -4376552; -4155255; -3936895]);
  ("VCl3O", 5, [-6830821; -6704728; -6579066; -6453960; -6329386; -6205274; -6081537; -5958081]);
  ("VCl4", 5, [-5254061; -5042118; -4903768; -4793845; -4684602; -4575879; -4467543; -4359477; -4251580; -4143763; -4035944; -3928049; -3820011]);
  ("VF3", 4, [-12709428; -12468116; -12232349; -12001186; -11773824; -11549632; -11328113; -11108867]);
  ("VF5", 6, [-14232142; -14014245; -13796615; -13579848; -13364072; -13149249; -12935283; -12722056; -12509448; -12297343; -12085629; -11874202; -11662967; -11451833; -11240718; -11029543; -10818237; -10606732]);
  ("VH10SO10", 22, [-24893120; -23408703; -21929400]);
  ("VH12SO11", 25, [-27337452; -25652315; -23973793]);
  ("VH2SO6", 10, [-14759432; -14077185; -13395089]);
  ("VH6SO8", 16, [-19902607; -18819207; -17738119]);
  ("VN", 2, [-1977954; -1887382; -1797416; -1708382; -1620343; -1533273; -1447114; -1361797; -1277244; -1193378; -1110120; -1027388; -945103; -863184; 3633872; 3537638; 3442405; 3348193]);
  ("VO", 2, [-4187448; -4092661; -4000028; -3909348; -3820422; -3733097; -3647259; -3562817; -3479695; -3397827; -3317152; -3237609; -3159139; -3081682; -3005180; -2929569; -435201; -515864]);
  ("VO2", 3, [-6828294; -6648459; -6477020; -6308232; -6141823; -5977602; -5815393; -5655027; -5496323; -5339088; -5183158; -5028342; -4874487; -4721475; -4569233; -4417730; -4293912; -4177513]);
  ("VSO5", 7, [-12123455; -11641361; -11154994; -10669334; -10186144; -9706184; -9218323; -8683526; -8153108]);
  ("VSi2", 3, [-1229599; -1221794; -1214221; -1206828; -1199505; -1192152; -1184699; -1177095; -1169311; -1161333; -1153159; -1144798; -1136268; -1127592; -1110728; -1039944; -969432; -940667])].

Definition freed_17 : list (string * Z * list Z) := [
  ("W(CO)6", 13, [-8596062; -8415905; -8246687; -8084794]);
  ("W2C", 3, [-226724; -214656; -208515; -207278; -210128; -216457; -225808; -237832; -252257; -268867; -287488; -307974; -330205; -354078; -379505; -406410; -434724; -464390]);
  ("W3O8", 11, [-16403974; -15967758; -15538726; -15116388; -14699835; -14288213; -13880794; -13476974; -13076246; -12678189; -12282444; -11888703; -11496702; -11106209; -10717021; -10328958; -9941859; -9555580]);
  ("WBr", 2, [5566110; 5430359; 5311728; 5194579; 5078712; 4963980; 4850269; 4737492; 4625578; 4514467; 4404109; 4294463; 4185491; 4077160; 3969440; 3862307; 3755734; 3649701]);
  ("WBr5", 6, [-2791608; -2487663; -2119668; -1776639; -1550395; -1370918; -1192962; -1016316; -840814; -666318; -492717; -319914; -147831; 23603; 194445; 364748; 534556; 703910]);
  ("WBr6", 7, [-3010295; -2639221; -2190956; -1756523; -1442699; -1163981; -887575; -613178; -340545; -69479; 200190; 468604; 735883; 1002136; 1267454; 1531921; 1795609; 2058586]);
  ("WC", 2, [-396787; -390836; -385931; -381811; -378224; -374983; -371964; -369083; -366286; -363539; -360822; -358124; -355440; -352772; -350122; -347498; -344906; -342355]);
  ("WCl", 2, [5371231; 5250347; 5131245; 5013634; 4897313; 4782135; 4667988; 4554783; 4442446; 4330919; 4220152; 4110099; 4000725; 3891996; 3783883; 3676360; 3569402; 3462990]);
  ("WCl2", 3, [-2278046; -2151603; -2030317; -1913326; -1800133; -1690414; -1583944; -681946; -735925; -789666; -843187; -896509; -949651; -1002636; -1055485; -1108221; -1160868; -1213447]);
  ("WCl4", 5, [-3720896; -3436623; -3162711; -2897762; -2774977; -2678348; -2582450; -2487157; -2392369; -2298004; -2203995; -2110285; -2016825; -1923573; -1830492; -1737548; -1644712; -1551957]);
  ("WCl5", 6, [-4158279; -3780151; -3416129; -3143032; -2961504; -2781733; -2603456; -2426466; -2250598; -2075716; -1901709; -1728483; -1555958; -1384067; -1212752; -1041963; -871655; -701791]);
  ("WCl6", 7, [-4713650; -4242412; -3791714; -3396609; -3105176; -2830091; -2557306; -2286518; -2017480; -1749995; -1483895; -1219038; -955302; -692581; -430782; -169821; 90377; 349881]);
  ("WF", 2, [3639775; 3520074; 3402316; 3286138; 3171311; 3057675; 2945108; 2833515; 2722820; 2612958; 2503875; 2395526; 2287871; 2180875; 2074509; 1968746; 1863561; 1758933]);
  ("WF6", 7, [-16912557; -16602564; -16294603; -15989054; -15685848; -15384797; -15085687; -14788316; -14492499; -14198070; -13904887; -13612822; -13321764; -13031617; -12742295; -12453725; -12165842; -11878589]);
  ("WO", 2, [4339610; 4226403; 4115330; 4005911; 3897854; 3790971; 3685132; 3580246; 3476242; 3373070; 3270686; 3169058; 3068158; 2967962; 2868450; 2769604; 2671408; 2573849]);
  ("WO2", 3, [-5529893; -5336597; -5145246; -4956266; -4769646; -4585212; -4402747; -4222051; -4042956; -3865340; -3689126; -3514276; -3340794; -3168720; -2998124; -2829105; -321773; -356964]);
  ("WO3", 4, [-7915374; -7642760; -7373261; -7107167; -6844312; -6584392; -6327089; -6072130; -5820105; -5570786; -5323138; -5077045; -4832421; -4589200; -4347329; -4130061; -3935723; -3743834]);
  ("WOF4", 6, [-13447372; -13078336; -12785952; -12573490; -12362323; -12152438; -11943738; -11736105; -11529425; -11323594; -11118521; -10914123; -10710325; -10507062; -10304275; -10101909; -9899914; -9698243]);
  ("WS2", 3, [-2405533; -2372824; -2325657; -2272109; -2214830; -2155093; -2070829; -1884478; -1699426; -1515545; -1332727; -1150881; -969932]);
  ("XeF2", 3, [-758332; -641785; -526111; -411225; -297012; -183377; -70246; 42435]);
  ("XeF6", 7, [-1740933]);
  ("Y10W2O21", 33, [-113013458; -110930034; -108863463; -106820483; -104800093; -102799629; -100816299; -98847566; -96891222; -94945370; -93008379; -91078840; -89155531; -87237380]);
  ("Y14W4O33", 51, [-169391170; -166120326; -162878564; -159671273; -156496163; -153349605; -150228104; -147128613; -144048550; -140985736; -137938328; -134904752; -131883657]);
  ("Y2(WO4)3", 17, [-44418107; -43315417; -42224536; -41147724; -40084433; -39033578; -37994073; -36964963; -35945431; -34934789; -33932452; -32937922; -31950768]);
  ("Y2O", 3, [-323789; -421218; -513900; -602815; -688484; -771226; -851249; -928703; -1003696; -1076312; -1146620; -1214674; -1280519; -1344196; -1405739; -1462243; -1500395; -1535972]);
  ("Y2O3", 5, [-18822747; -18515986; -18212478; -17912195; -17614729; -17319625; -17026461; -16734867; -16444522; -16155149; -15866509; -15579165; -15292732; -15006738; -14721033; -14432551; -14127834; -13822534]);
  ("Y2WO6", 9, [-28243129; -27641625; -27047550; -26461546; -25883157; -25311767; -24746803; -24187778; -23634283; -23085979; -22542580; -22003844; -21469564]);
  ("Y3Fe5O12", 20, [-48188479; -47060055; -45951627; -44862361; -43786995]);
  ("Y6WO12", 19, [-65866137; -64685257; -63514198; -62354265; -61204700; -60064433; -58932471; -57807968; -56690218; -55578637; -54472737; -53372105; -52276391]);
  ("YCl3", 4, [-9611373; -9363084; -9119425; -8879749; -8643487; -8410189; -8179497; -7953096; -7761164; -7573657; -7390126]);
  ("YF3", 4, [-17001969; -16735364; -16473795; -16216654; -15963250; -15713003; -15465451; -15220227; -14977039; -14735649; -14495861; -14270101; -14073808; -13886045; -13700917; -13516747]);
  ("YFeO3", 5, [-13469160; -13169487; -12873580; -12580809; -12290833; -12003420; -11718397; -11435391]);
  ("YN", 2, [-2781756; -2675450; -2569589; -2464396; -2359854; -2255888; -2152419; -2049374; -1946691; -1844314; -1742199; -1640307; -1538605; -1437064; -1335659; -1232903; -1122106; -1011130]);
  ("YO", 2, [-2894920; -2896248; -2895055; -2892077; -2887680; -2882067; -2875356; -2867619; -2858902; -2849235; -2838638; -2827124; -2814704; -2801384; -2787171; -2770603; -2745013; -2718283]);
  ("YO2", 3, [-4601015; -4622835; -4642398; -4660373; -4677040; -4692532; -4706918; -4720238; -4732511; -4743753; -4753971; -4763172; -4771360; -4778539; -4784713; -4788418; -4782988; -4776304]);
  ("YS", 2, [1262986; 1091879; 931624; 777707; 628448; 482942; 352018; 274289; 197932; 122902; 49163; -23317; -94564; -164600; -233446; -299652; -356565; -412076]);
  ("Yb2O3", 5, [-17891500; -17589860; -17293918; -17001867; -16713312; -16427799; -16144764; -15863743; -15581398; -15284480; -14987991; -14692038; -14336874; -13861830; -13389228; -12918904; -12450711; -11984517]);
  ("YbCl3", 4, [-6545810; -6520569; -6495206; -6469101; -6442391; -6415154; -6387368; -6359016; -6328607; -6289664; -6249807; -6209102; -6137620; -6005243; -5873200; -5741469; -5610026; -5478854]);
  ("YbF3", 4, [-15483596; -15224837; -14971660; -14722574; -14477095; -14234843; -13995454; -13758668; -13522825; -13281342; -13050137; -12832942; -12601706; -12319755; -12040650; -11764214; -10519230; -10380354]);
  ("YbN", 2, [-3492748; -3403700; -3319075; -3237424; -3158332; -3081480; -3006549; -2933292; -2860035; -2780152; -2701140; -2622961; -2515600; -2348863; -2183915; -2020679; -1859083; -1699067]);
  ("YbO", 2, [-1013269; -1103732; -1191664; -1277093; -1360535; -1442312; -1522567; -1601405; -1677428; -1744229; -1809486; -1873312; -1905820; -1876925; -1847888; -1818712; -1789402; -1759960]);
  ("YbS", 2, [2217679; 2049589; 1892337; 1741924; 1596435; 1454811; 1327844; 1254124; 1183281; 1121722; 1061766; 1003301; 976211; 1010581; 1045147; 1079905; 1114850; 1149978]);
  ("Zn(FeO2)2", 7, [-11122565; -10758484; -10399521; -10045719; -9695269; -9337508; -8981514; -8625972; -8268625; -7890305; -7431737; -6975895]);
  ("Zn2SiO4", 7, [-15779651; -15385135; -14993323; -14605403; -14219870; -13817563; -13418594; -13022964; -12630629; -12201028; -11613690; -11031052; -10452867; -9878898]);
  ("Zn3N2", 5, [411369; 625546; 837109; 1045560; 1252996]);
  ("Zn3S2O9", 14, [-21310716; -20457818; -19594726; -18731289; -17867651; -16976151; -16064800; -15056041; -14053245; -12995545; -11702258]);
  ("ZnBr2", 3, [-3234152; -3111759; -2960491; -2811298; -2669717; -2541364; -2418845; -2301496]);
  ("ZnCO3", 5, [-7600480; -7318841; -7039926]);
  ("ZnCl2", 3, [-3825646; -3668971; -3515717; -3370694; -3239831]);
  ("ZnF2", 3, [-7392050; -7216824; -7044612; -6875134; -6707333; -6531527; -6357754; -6186033; -6016701; -5831908; -5596135; -5370469; -5147907]);
  ("ZnH12SO10", 24, [-24067352; -22495598; -20940505]);
  ("ZnH14SO11", 27, [-26527701; -24737176; -22955440]);
  ("ZnH2SO5", 9, [-11724825; -11126350; -10529865]);
  ("ZnO", 2, [-3319749; -3215904; -3112875; -3010619; -2908185; -2795948; -2683974; -2572307; -2460977; -2329770; -2118522; -1908526; -1699738; -1492121; -1285643; -1080275; -875992; -672772]);
  ("ZnS", 2, [-2068998; -2052131; -2028002; -2000517; -1970116; -1927898; -1872975; -1766674; -1660777; -1535046; -1329301; -1124816; -921534; -719406; -518386; -318437; 854162; 896164]);
  ("ZnSO4", 6, [-8998175; -8609754; -8214947; -7819064; -7423422; -7019753; -6607662; -6148882; -5712094; -5260533]);
  ("ZnSe", 2, [1873554; 1703558; 1538443; 1390051; 1246945; 1117973; 992572; 870415; 798080; 756781; 797179; 837891; 878886; 920136]);
  ("ZnTe", 2, [-1193868; -1179577; -1164607; -1148806; -1131258; -1082915; -1027603; -971355; -914456; -836901; -678698; 914928; 953549; 992536]);
  ("ZnWO4", 6, [-11570610; -11194051; -10822026; -10454778; -10091154; -9721178; -9354520; -8990799]);
  ("Zr(SO4)2", 11, [-20794887; -19972017; -19138075; -18302957; -17468359; -16634107; -15776727; -14817426]);
  ("Zr25C24", 49, [-51481793; -51207262; -50966887; -50749452; -50544019; -50342374; -50138679; -49928870; -49710163; -49425367; -49108157; -48790685; -48472023; -48151615; -47829198; -47504741; -47178400; -46850484]);
  ("ZrB2", 3, [-3297186; -3281892; -3266502; -3250428; -3233353; -3215186; -3195897; -3175487; -3153965; -3129128; -3102384; -3075056; -3047129; -3018588; -2989419; -2959610; -2929148; -2898021]);
  ("ZrBr", 2, [2654767; 2533214; 2429355; 2327550; 2227565; 2129207; 2032322; 1936782; 1842484; 1751555; 1662534; 1574051; 1486086; 1398626; 1311663; 1225193; 1139216; 1053736]);
  ("ZrBr2", 3, [-3959145; -3819200; -3654806; -3495322; -3339913; -3188010; -3039194; -2965265; -2893455; -2821283; -2749912; -2680463; -2612742; -2586066; -2607439; -2628445; -2649083; -2669355]);
  ("ZrBr3", 4, [-6295186; -6100894; -5865790; -5634815; -5407182; -4646974; -4607381; -4567130; -4526196; -4482350; -4436969; -4391354; -4345468; -4299278; -4252757; -4205879; -4158623; -4110968]);
  ("ZrBr4", 5, [-7514440; -7264132; -6959817; -6661548; -6494289; -6378021; -6261887; -6145774; -6029591; -5911052; -5791487; -5672157; -5552990; -5433925; -5314908; -5195890; -5076829; -4957686]);
  ("ZrC", 2, [-1258564; -1268422; -1279410; -1291225; -1303581; -1316256; -1329079; -1341917; -1354670; -1365045; -1374372; -1383912; -1393601; -1403382; -1413208; -1423042; -1432848; -1442599]);
  ("ZrCl", 2, [1806674; 1700517; 1596702; 1494938; 1394994; 1296680; 1199843; 1104355; 1010115; 919251; 830300; 741894; 654012; 566641; 479772; 393402; 307531; 222161]);
  ("ZrCl2", 3, [-3994125; -3838780; -3686911; -3537894; -3391312; -3246874; -3104361; -2963608; -2852478; -2740988; -2630311; -2521563; -2414549; -2352362; -2371396; -2390057; -2408346; -2426265]);
  ("ZrCl3", 4, [-6694495; -6461789; -6234394; -6011346; -5791990; -5575856; -5362596; -5151940; -5035900; -4996202; -4955348; -4914617; -4873950; -4833295; -4792603; -4751830; -4710933; -4669877]);
  ("ZrCl4", 5, [-9219199; -8909127; -8606182; -8309087; -8173769; -8055522; -7937409; -7819313; -7701143; -7580611; -7459048; -7337713; -7216537; -7095455; -6974412; -6853361; -6732255; -6611054]);
  ("ZrF", 2, [537467; 431779; 328412; 227040; 127422; 29367; -67278; -162636; -256809; -347665; -436666; -525179; -613223; -700811; -787951; -874646; -960897; -1046700]);
  ("ZrF2", 3, [-9456440; -9285451; -9116926; -8950597; -8786283; -8623828; -8463093; -8303948; -8146277; -7996121; -7872144; -7750863; -7632025; -7515411; -7400830; -7288114; -7177116; -7067702]);
  ("ZrF3", 4, [-13733607; -13471160; -13212537; -12957442; -12705518; -12456425; -12209858; -11965545; -11723244; -11480523; -11238579; -10998543; -10828498; -10782584; -10736603; -10690513; -10644275; -10597851]);
  ("ZrF4", 5, [-18752285; -18402962; -18058899; -17719534; -17384312; -17052788; -16724611; -16399508; -16077262; -15795544; -15663444; -15531528; -15399725; -15267973; -15136219; -15004415; -14872522; -14740504]);
  ("ZrH", 2, [5003581; 4889510; 4778353; 4669514; 4562594; 4457330; 4353544; 4251114; 4149954; 4052216; 3956460; 3861341; 3766859; 3673018; 3579823; 3487281; 3395397; 3304181]);
  ("ZrI", 2, [3620880; 3441600; 3306388; 3201726; 3098873; 2997689; 2898065; 2799913; 2703165; 2609976; 2518904; 2428594; 2339037; 2250224; 2162149; 2074805; 1988186; 1902287]);
  ("ZrI2", 3, [-2864031; -2855297; -2771193; -2636196; -2506386; -2418241; -2334849; -2256642; -2183913; -2114683; -2054785; -2083712; -2111917; -2139398; -2166152; -2192180; -2217481; -2242054]);
  ("ZrI3", 4, [-4032072; -4013388; -3875109; -3655715; -3439969; -3227219; -3016973; -1961134; -1923641; -1883213; -1841231; -1798993; -1756463; -1713608; -1670399; -1626813; -1582826; -1538418]);
  ("ZrI4", 5, [-4999421; -4963868; -4767924; -4463404; -4163693; -4044428; -3930029; -3815629; -3701143; -3584279; -3466365; -3348660; -3231093; -3113600; -2996127; -2878625; -2761050; -2643364]);
  ("ZrN", 2, [-3483244; -3384080; -3285703; -3188213; -3091518; -2995493; -2900022; -2805004; -2710356; -2613792; -2516646; -2420180; -2324324; -2229018; -2134211; -2039857; -1945915; -1852351]);
  ("ZrO", 2, [383640; 296232; 211353; 128665; 47879; -31301; -109151; -185921; -261825; -334825; -406455; -478136; -549919; -621831; -693879; -766049; -838308; -910609]);
  ("ZrO2", 3, [-10804360; -10604130; -10405364; -10208213; -10012570; -9818279; -9625181; -9433132; -9241993; -9049425; -8856699; -8665014; -8475480; -8291157; -8107525; -7924488; -7741961; -7559867]);
  ("ZrS", 2, [2662289; 2483548; 2315816; 2154614; 1998263; 1845845; 1708178; 1623865; 1541071; 1461956; 1385081; 1309096; 1233993; 1159767; 1086412; 1013924; 942297; 871529]);
  ("ZrSiO4", 6, [-19881617; -19483744; -19087568; -18693944; -18302877; -17914180; -17527631; -17143020; -16760160; -16376669; -15993789; -15612699; -15233246; -14855294; -14474678; -14068395; -13663409; -13259608]);
  ("ZyBr2", 3, [-7257903; -7133323; -6981961; -6833834; -6683546; -6530963; -6381015; -6251344; -6132003; -5975855; -5783116; -5594984; -5411124; -5231248; -5055102; -4882465; -4713137; -4546942])].

Definition freed_table : list (string * Z * list Z) := concat [freed_1; freed_2; freed_3; freed_4; freed_5; freed_6; freed_7; freed_8; freed_9; freed_10; freed_11; freed_12; freed_13; freed_14; freed_15; freed_16; freed_17].
