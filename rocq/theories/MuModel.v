(* The data file data/mu_elements.json (data/__init__.py:17, G_ELEMS) of the elemental
   chemical potentials that entries/gibbs.py:195-213 reads, written out. The rows are in
   the order of the file, the elements numbered by their place in its first row:
   0 Ag, 1 Al, 2 Am, 3 As, 4 Au, 5 Ba, 6 Be, 7 Bi, 8 Br, 9 B, 10 Ca, 11 Cd, 12 Ce,
   13 Cl, 14 Co, 15 Cr, 16 Cs, 17 Cu, 18 C, 19 Dy, 20 Er, 21 Eu, 22 Fe, 23 F, 24 Ga,
   25 Gd, 26 Ge, 27 Hf, 28 Hg, 29 Ho, 30 H, 31 In, 32 Ir, 33 I, 34 K, 35 La, 36 Li,
   37 Lu, 38 Mg, 39 Mn, 40 Mo, 41 Na, 42 Nb, 43 Nd, 44 Ni, 45 Np, 46 N, 47 Os, 48 O,
   49 Pb, 50 Pd, 51 Pr, 52 Pt, 53 Pu, 54 P, 55 Rb, 56 Re, 57 Rh, 58 Rn, 59 Ru, 60 Sb,
   61 Sc, 62 Se, 63 Si, 64 Sm, 65 Sn, 66 Sr, 67 S, 68 Ta, 69 Tb, 70 Tc, 71 Te, 72 Th,
   73 Ti, 74 Tl, 75 Tm, 76 U, 77 V, 78 W, 79 Yb, 80 Y, 81 Zn, 82 Zr.
   The numbers are the decimals of the file (a float is the nearest double). *)
From Verif Require Import Prelude NumQ.

(* one row: the values in the order of the elements *)
Definition number (l : list Q) : list (nat * Q) := combine (seq 0 (length l)) l.

Definition row_300 : list Q := [
  (-132696274032233 # 1000000000000000); (-8791625641291392 # 100000000000000000); (-17225579105560448 # 100000000000000000);
  (-11097061719438255 # 100000000000000000); (-14768305954293415 # 100000000000000000); (-19425506555423125 # 100000000000000000);
  (-29352749131989427 # 1000000000000000000); (-17640773177177801 # 100000000000000000); (-23662849147535886 # 100000000000000000);
  (-18140643623361145 # 1000000000000000000); (-12931025548012645 # 100000000000000000); (-1610623412965746 # 10000000000000000);
  (-21595584805928383 # 100000000000000000); (-3466398922112246 # 10000000000000000); (-9340519251697156 # 100000000000000000);
  (-7320308856298907 # 100000000000000000); (-26474892470332173 # 100000000000000000); (-10311758304399647 # 100000000000000000);
  (-1784733378245323 # 100000000000000000); (-23286728507021817 # 100000000000000000); (-22753381354614705 # 100000000000000000);
  (-2418458827797067 # 10000000000000000); (-8482251127118205 # 100000000000000000); (-31509561071669173 # 100000000000000000);
  (-12697828678032855 # 100000000000000000); (-21127325491008966 # 100000000000000000); (-966606208218894 # 10000000000000000);
  (-13544177851479505 # 100000000000000000); (-23639529460537906 # 100000000000000000); (-23325801938125099 # 100000000000000000);
  (-2029916567342074 # 10000000000000000); (-17978960460175156 # 100000000000000000); (-11039850754003212 # 100000000000000000);
  (-18056122713375136 # 100000000000000000); (-20107996061563974 # 100000000000000000); (-17692801989946624 # 100000000000000000);
  (-9043478260869565 # 100000000000000000); (-15845468207493393 # 100000000000000000); (-10158470228532933 # 100000000000000000);
  (-995304969684407 # 10000000000000000); (-8894232264082501 # 100000000000000000); (-15999067212520082 # 100000000000000000);
  (-11337824532310721 # 100000000000000000); (-22102917551951082 # 100000000000000000); (-9264445250557081 # 100000000000000000);
  (-15689485412240245 # 100000000000000000); (-29771467067419805 # 100000000000000000); (-10147380421827228 # 100000000000000000);
  (-318761465512774 # 1000000000000000); (-20143752914960875 # 100000000000000000); (-1176058454682075 # 10000000000000000);
  (-22987511012074416 # 100000000000000000); (-12944395501891484 # 100000000000000000); (-16933720267399077 # 100000000000000000);
  (-12772140747266414 # 100000000000000000); (-23872726330517696 # 100000000000000000); (-11357205783282376 # 100000000000000000);
  (-9796134114111 # 100000000000000); (-547627092294139 # 1000000000000000); (-8872467222884386 # 100000000000000000);
  (-14154220863346634 # 100000000000000000); (-10771829818106442 # 100000000000000000); (-1313955537130124 # 10000000000000000);
  (-5851790433746178 # 100000000000000000); (-21608540187593928 # 100000000000000000); (-1591832927398041 # 10000000000000000);
  (-17317095921645853 # 100000000000000000); (-9967248795149505 # 100000000000000000); (-12894646836295798 # 100000000000000000);
  (-22792454785717986 # 100000000000000000); (-10407524485671349 # 100000000000000000); (-15304347826086956 # 100000000000000000);
  (-16599989635694667 # 100000000000000000); (-9563973674664455 # 100000000000000000); (-1995636627455045 # 10000000000000000);
  (-23013525418458827 # 100000000000000000); (-15637352956418096 # 100000000000000000); (-899714981603358 # 10000000000000000);
  (-1015505000777323 # 10000000000000000); (-1860340985645437 # 10000000000000000); (-13816033580349277 # 100000000000000000);
  (-12971135409649168 # 100000000000000000); (-12085609162045913 # 100000000000000000)
]%Q.
Definition row_400 : list Q := [
  (-18107685132404 # 100000000000000); (-1212530445146914 # 10000000000000000); (-23386018552106544 # 100000000000000000);
  (-15200912058869254 # 100000000000000000); (-20104990413017568 # 100000000000000000); (-2637394413639426 # 10000000000000000);
  (-42022075970358085 # 1000000000000000000); (-23939368813805256 # 100000000000000000); (-3512136601544281 # 10000000000000000);
  (-26267295434523504 # 1000000000000000000); (-1766689122661554 # 10000000000000000); (-21902990102088407 # 100000000000000000);
  (-29238845416385967 # 100000000000000000); (-46498678551070116 # 100000000000000000); (-12873607296470954 # 100000000000000000);
  (-10152977146706742 # 100000000000000000); (-36527543141420943 # 100000000000000000); (-14151629787013525 # 100000000000000000);
  (-25354200134735973 # 1000000000000000000); (-3150603720785614 # 10000000000000000); (-30796082292584337 # 100000000000000000);
  (-32695755816966365 # 100000000000000000); (-11725864123957093 # 100000000000000000); (-42271959371923096 # 100000000000000000);
  (-19238534487225992 # 100000000000000000); (-28706431051458775 # 100000000000000000); (-13274705912836193 # 100000000000000000);
  (-18482043841011558 # 100000000000000000); (-3197077265896253 # 10000000000000000); (-3154697621391926 # 10000000000000000);
  (-2730134217754055 # 10000000000000000); (-24411359278644348 # 100000000000000000); (-15128465564595533 # 100000000000000000);
  (-2481447893454941 # 10000000000000000); (-2777561278955278 # 10000000000000000); (-2403264756179717 # 10000000000000000);
  (-12471990464839094 # 100000000000000000); (-21562729958024562 # 100000000000000000); (-13956262631497124 # 100000000000000000);
  (-13710732238171736 # 100000000000000000); (-12254754625071254 # 100000000000000000); (-2201948489402498 # 10000000000000000);
  (-15522205524174743 # 100000000000000000); (-2992309685443333 # 10000000000000000); (-12781157692905631 # 100000000000000000);
  (-21418873400010363 # 100000000000000000); (-39932165621599214 # 100000000000000000); (-1393356480281909 # 10000000000000000);
  (-42741876975695703 # 100000000000000000); (-27299062030367416 # 100000000000000000); (-16107063274084055 # 100000000000000000);
  (-3109954915271804 # 10000000000000000); (-1768243768461419 # 10000000000000000); (-23136860651914803 # 100000000000000000);
  (-1762242835673939 # 10000000000000000); (-32984816292687985 # 100000000000000000); (-15557444162305023 # 100000000000000000);
  (-1347328600300565 # 10000000000000000); (-7335492563610924 # 10000000000000000); (-12222417992434056 # 100000000000000000);
  (-19286935793128465 # 100000000000000000); (-1478157226511893 # 10000000000000000); (-17934290304192363 # 100000000000000000);
  (-8140747266414469 # 100000000000000000); (-29312431984246257 # 100000000000000000); (-21672798880655025 # 100000000000000000);
  (-23530082396227392 # 100000000000000000); (-13761517334300669 # 100000000000000000); (-17606778255687414 # 100000000000000000);
  (-308580608384723 # 1000000000000000); (-14275483235736125 # 100000000000000000); (-20824998704461833 # 100000000000000000);
  (-2258475410685599 # 10000000000000000); (-1317085557340519 # 10000000000000000); (-2704016168316319 # 10000000000000000);
  (-311257708452091 # 1000000000000000); (-21309840907913147 # 100000000000000000); (-12409286417577862 # 100000000000000000);
  (-13938746955485307 # 100000000000000000); (-25238016271959374 # 100000000000000000); (-18855884334352488 # 100000000000000000);
  (-17712390527024927 # 100000000000000000); (-16527957713634245 # 100000000000000000)
]%Q.
Definition row_500 : list Q := [
  (-23622531999792715 # 100000000000000000); (-16131626677721925 # 100000000000000000); (-3023817173653936 # 10000000000000000);
  (-19967559724309478 # 100000000000000000); (-2611566564750998 # 10000000000000000); (-3419712908742291 # 10000000000000000);
  (-598642276001451 # 10000000000000000); (-30934963984038966 # 100000000000000000); (-4860791832927398 # 10000000000000000);
  (-38434989894802304 # 1000000000000000000); (-2310701145255739 # 10000000000000000); (-28409493703684513 # 100000000000000000);
  (-37622635642846036 # 100000000000000000); (-5879437218220449 # 10000000000000000); (-17107218738664043 # 100000000000000000);
  (-13640462248017826 # 100000000000000000); (-47418873400010364 # 100000000000000000); (-1865357309426336 # 10000000000000000);
  (-3591335440742084 # 100000000000000000); (-40460382442866766 # 100000000000000000); (-3958169663678292 # 10000000000000000);
  (-41931284655645956 # 100000000000000000); (-15677566461107945 # 100000000000000000); (-5346515002331969 # 10000000000000000);
  (-26550344613152305 # 100000000000000000); (-3704451469140281 # 10000000000000000); (-1752168730890812 # 10000000000000000);
  (-24117738508576464 # 100000000000000000); (-410210913613515 # 1000000000000000); (-40496035653210344 # 100000000000000000);
  (-34685287868580605 # 100000000000000000); (-32145203917707416 # 100000000000000000); (-19884541638596673 # 100000000000000000);
  (-3625890034720423 # 10000000000000000); (-3653013421775405 # 10000000000000000); (-3108908120433228 # 10000000000000000);
  (-16937969632585376 # 100000000000000000); (-2798072239208167 # 10000000000000000); (-18436959112815465 # 100000000000000000);
  (-18212468259314918 # 100000000000000000); (-16270301083069907 # 100000000000000000); (-2936757008861481 # 10000000000000000);
  (-2036938384204799 # 10000000000000000); (-3849531015183707 # 10000000000000000); (-17026480800124372 # 100000000000000000);
  (-28037518785303417 # 100000000000000000); (-5047572161475877 # 10000000000000000); (-18376535212727366 # 100000000000000000);
  (-5400160646732652 # 10000000000000000); (-35177799657977926 # 100000000000000000); (-2115178525159351 # 10000000000000000);
  (-39952635124630775 # 100000000000000000); (-23111260817743692 # 100000000000000000); (-31179147017671144 # 100000000000000000);
  (-2319821733948282 # 10000000000000000); (-43020054930818263 # 100000000000000000); (-20434575322589002 # 100000000000000000);
  (-17831165466134632 # 100000000000000000); (-9249147535886406 # 10000000000000000); (-16211120899621703 # 100000000000000000);
  (-25097994506918175 # 100000000000000000); (-19477431725138622 # 100000000000000000); (-23489868891537546 # 100000000000000000);
  (-11006166761672798 # 100000000000000000); (-37882779706690156 # 100000000000000000); (-2818033891278437 # 10000000000000000);
  (-3046971031766596 # 10000000000000000); (-18861688345338654 # 100000000000000000); (-2299497331191377 # 10000000000000000);
  (-39672384308441727 # 100000000000000000); (-18799917085557338 # 100000000000000000); (-2702824273203089 # 10000000000000000);
  (-29318132352179094 # 100000000000000000); (-1747805358345857 # 10000000000000000); (-3484251438047365 # 10000000000000000);
  (-3994942218997771 # 10000000000000000); (-27758200756594287 # 100000000000000000); (-16505881743276157 # 100000000000000000);
  (-18374047779447583 # 100000000000000000); (-3259822770378816 # 10000000000000000); (-24606622791107427 # 100000000000000000);
  (-23142353733740997 # 100000000000000000); (-21648235477017153 # 100000000000000000)
]%Q.
Definition row_600 : list Q := [
  (-2968741255117376 # 10000000000000000); (-2069741410581956 # 10000000000000000); (-3766875680157537 # 10000000000000000);
  (-2527501684199616 # 10000000000000000); (-3267274705912836 # 10000000000000000); (-4292200860237343 # 10000000000000000);
  (-8226460071513707 # 100000000000000000); (-39734051925169717 # 100000000000000000); (-6248105923200498 # 10000000000000000);
  (-54472715966212365 # 1000000000000000000); (-2914059180183448 # 10000000000000000); (-3556977768565062 # 10000000000000000);
  (-4662621132818573 # 10000000000000000); (-7146587552469297 # 10000000000000000); (-2192641343213971 # 10000000000000000);
  (-17672384308441727 # 100000000000000000); (-5896097839042338 # 10000000000000000); (-23696740425972948 # 100000000000000000);
  (-4949577654557703 # 100000000000000000); (-5000134735969322 # 10000000000000000); (-4896709333056952 # 10000000000000000);
  (-5174389801523552 # 10000000000000000); (-20240970098979116 # 100000000000000000); (-6501497642120536 # 10000000000000000);
  (-3442213815619008 # 10000000000000000); (-4596994351453594 # 10000000000000000); (-22288438617401668 # 100000000000000000);
  (-30330310410944705 # 100000000000000000); (-5063895942374462 # 10000000000000000); (-500323366326372 # 1000000000000000);
  (-4237446235166088 # 10000000000000000); (-4072788516349692 # 10000000000000000); (-2518370731201741 # 10000000000000000);
  (-5094154531792506 # 10000000000000000); (-45926206146033066 # 100000000000000000); (-38755350572627867 # 100000000000000000);
  (-22394983676219102 # 100000000000000000); (-3496014924599679 # 10000000000000000); (-23483857594444735 # 100000000000000000);
  (-23344975902990103 # 100000000000000000); (-20824791418355185 # 100000000000000000); (-373534746333627 # 1000000000000000);
  (-257569570399544 # 1000000000000000); (-47699020573146084 # 100000000000000000); (-2191687827123387 # 10000000000000000);
  (-3597761310048194 # 10000000000000000); (-6132818572835156 # 10000000000000000); (-23350987200082915 # 100000000000000000);
  (-6558547960822926 # 10000000000000000); (-43651344768616884 # 100000000000000000); (-26764574804373736 # 100000000000000000);
  (-49426853915116337 # 100000000000000000); (-29101829299891174 # 100000000000000000); (-40024459760584546 # 100000000000000000);
  (-2932341814789864 # 10000000000000000); (-5370700108825206 # 10000000000000000); (-2586246566823859 # 10000000000000000);
  (-22754003212934654 # 100000000000000000); (-11206187490283464 # 10000000000000000); (-20718868217857697 # 100000000000000000);
  (-3146126340882002 # 10000000000000000); (-2473296367310981 # 10000000000000000); (-30858268124578947 # 100000000000000000);
  (-14357257604809037 # 100000000000000000); (-47208270715655287 # 100000000000000000); (-366784474270612 # 1000000000000000);
  (-3800932787479919 # 10000000000000000); (-24753795926828004 # 100000000000000000); (-2893330569518578 # 10000000000000000);
  (-49083277193346114 # 100000000000000000); (-23865160387625017 # 100000000000000000); (-33783696947712083 # 100000000000000000);
  (-36675027206301497 # 100000000000000000); (-22367310980981497 # 100000000000000000); (-435165051562419 # 1000000000000000);
  (-4934134839612375 # 10000000000000000); (-3487329636731098 # 10000000000000000); (-2116380784577914 # 10000000000000000);
  (-23338550033683994 # 100000000000000000); (-4059563662745504 # 10000000000000000); (-30937244131212105 # 100000000000000000);
  (-2914370109343421 # 10000000000000000); (-27322796289578694 # 100000000000000000)
]%Q.
Definition row_700 : list Q := [
  (-36219515986940976 # 100000000000000000); (-25747007306835257 # 100000000000000000); (-4560626004042079 # 10000000000000000);
  (-31042338187283 # 100000000000000); (-396918692024667 # 1000000000000000); (-5236254340052858 # 10000000000000000);
  (-10870083432657926 # 100000000000000000); (-4999264134321397 # 10000000000000000); (-766777737472146 # 1000000000000000);
  (-7409649168264497 # 100000000000000000); (-357003679328393 # 1000000000000000); (-44258485774990936 # 100000000000000000);
  (-5617070010882521 # 10000000000000000); (-8445437114577395 # 10000000000000000); (-27259055811784216 # 100000000000000000);
  (-2217339482821164 # 10000000000000000); (-7104130175674975 # 10000000000000000); (-2919904648390942 # 10000000000000000);
  (-659812406073483 # 10000000000000000); (-6003586049645022 # 10000000000000000); (-5885899362595222 # 10000000000000000);
  (-6203648235477017 # 10000000000000000); (-2535782764160232 # 10000000000000000); (-7686946157433798 # 10000000000000000);
  (-4275690521842774 # 10000000000000000); (-5540011400735866 # 10000000000000000); (-274926672539773 # 1000000000000000);
  (-3703912525262994 # 10000000000000000); (-6745908690470022 # 10000000000000000); (-6006011297092813 # 10000000000000000);
  (-5031808053065243 # 10000000000000000); (-49819557444162305 # 100000000000000000); (-30943877286624866 # 100000000000000000);
  (-6595071772814427 # 10000000000000000); (-5584598642276002 # 10000000000000000); (-4693942063533192 # 10000000000000000);
  (-28365238119915015 # 100000000000000000); (-42412188423070946 # 100000000000000000); (-29019640358604964 # 100000000000000000);
  (-29030108306990726 # 100000000000000000); (-2583800590765404 # 10000000000000000); (-45856247085039126 # 100000000000000000);
  (-31602632533554437 # 100000000000000000); (-5745898326164689 # 10000000000000000); (-27407265378038037 # 100000000000000000);
  (-45167642638752137 # 100000000000000000); (-7244214126548169 # 10000000000000000); (-28774109965279576 # 100000000000000000);
  (-7744742706120121 # 10000000000000000); (-5346012333523346 # 10000000000000000); (-3285899362595222 # 10000000000000000);
  (-5944768616883453 # 10000000000000000); (-3556905218427735 # 10000000000000000); (-4959475566150179 # 10000000000000000);
  (-3590547753536819 # 10000000000000000); (-6492978183137276 # 10000000000000000); (-3175799347048764 # 10000000000000000);
  (-28164896097839043 # 100000000000000000); (-13199295227237393 # 10000000000000000); (-2566813494325543 # 10000000000000000);
  (-38295486345027724 # 100000000000000000); (-30465253666373016 # 100000000000000000); (-3882323677255532 # 10000000000000000);
  (-18126859097269007 # 100000000000000000); (-5721003264756179 # 10000000000000000); (-45750738456754936 # 100000000000000000);
  (-46065916981914284 # 100000000000000000); (-3124931336477173 # 10000000000000000); (-3533658081567083 # 10000000000000000);
  (-5901290356013889 # 10000000000000000); (-29394620925532466 # 100000000000000000); (-4101031248380578 # 10000000000000000);
  (-44572420583510386 # 100000000000000000); (-2775156760118153 # 10000000000000000); (-5329947660258071 # 10000000000000000);
  (-5921189822252163 # 10000000000000000); (-42591076333108774 # 100000000000000000); (-26298699279680776 # 100000000000000000);
  (-2875058299217495 # 10000000000000000); (-4911830854536975 # 10000000000000000); (-37762346478727266 # 100000000000000000);
  (-3572099290045085 # 10000000000000000); (-33470487640565894 # 100000000000000000)
]%Q.
Definition row_800 : list Q := [
  (-43160698554179405 # 100000000000000000); (-3122868839716018 # 10000000000000000); (-5400103643053324 # 10000000000000000);
  (-3721158729336166 # 10000000000000000); (-47113126392703525 # 100000000000000000); (-6242265637145671 # 10000000000000000);
  (-1387635383738405 # 10000000000000000); (-6067637456599472 # 10000000000000000); (-9115266621754676 # 10000000000000000);
  (-9701611649479194 # 100000000000000000); (-42848629320619785 # 100000000000000000); (-5338860962843965 # 10000000000000000);
  (-6620200031092917 # 10000000000000000); (-9771663989221122 # 10000000000000000); (-33111157174690364 # 100000000000000000);
  (-2709073949318547 # 10000000000000000); (-8358138570762295 # 10000000000000000); (-35101829299891174 # 100000000000000000);
  (-8521013629061512 # 100000000000000000); (-7050018137534332 # 10000000000000000); (-6919282790070995 # 10000000000000000);
  (-7274001140073586 # 10000000000000000); (-30996113385500335 # 100000000000000000); (-8898989480230087 # 10000000000000000);
  (-5148696688604446 # 10000000000000000); (-6527522412810282 # 10000000000000000); (-3307674768098668 # 10000000000000000);
  (-44185935637663887 # 100000000000000000); (-8756791211069077 # 10000000000000000); (-70511582111209 # 100000000000000);
  (-5848048919521169 # 10000000000000000); (-5934590869047002 # 10000000000000000); (-3710794424003731 # 10000000000000000);
  (-8124019277607919 # 10000000000000000); (-6620946261076851 # 10000000000000000); (-5555402394154532 # 10000000000000000);
  (-347673731668135 # 1000000000000000); (-5027651966626937 # 10000000000000000); (-3499010208840752 # 10000000000000000);
  (-3521138000725501 # 10000000000000000); (-3125159351194486 # 10000000000000000); (-5479359485930455 # 10000000000000000);
  (-3784681556718661 # 10000000000000000); (-6772555319479712 # 10000000000000000); (-3336632637197492 # 10000000000000000);
  (-5494221899777167 # 10000000000000000); (-8378462973519201 # 10000000000000000); (-3458713789708245 # 10000000000000000);
  (-8955402394154531 # 10000000000000000); (-6372441312121055 # 10000000000000000); (-39373788671814275 # 100000000000000000);
  (-6996496864797637 # 10000000000000000); (-42452194641654145 # 100000000000000000); (-5981416800538943 # 10000000000000000);
  (-4287868580608385 # 10000000000000000); (-7660848836606726 # 10000000000000000); (-3806197854588796 # 10000000000000000);
  (-34009016945639214 # 100000000000000000); (-1522328859408198 # 1000000000000000); (-3100409390060631 # 10000000000000000);
  (-45547079856972583 # 100000000000000000); (-3661688345338654 # 10000000000000000); (-47287661294501737 # 100000000000000000);
  (-22264600715137067 # 100000000000000000); (-6783023267865471 # 10000000000000000); (-5524651500233196 # 10000000000000000);
  (-5458060838472302 # 10000000000000000); (-38235477017152925 # 100000000000000000); (-4214292377053428 # 10000000000000000);
  (-694084054516246 # 1000000000000000); (-35334093382391046 # 100000000000000000); (-5063958128206457 # 10000000000000000);
  (-5295175415867751 # 10000000000000000); (-3356646110794424 # 10000000000000000); (-6352376016997461 # 10000000000000000);
  (-6950344613152303 # 10000000000000000); (-5087319272425765 # 10000000000000000); (-3185013214489299 # 10000000000000000);
  (-34552106545058814 # 100000000000000000); (-580915168160854 # 1000000000000000); (-450223350779914 # 1000000000000000);
  (-4376680313002021 # 10000000000000000); (-400353422811836 # 1000000000000000)
]%Q.
Definition row_900 : list Q := [
  (-5046857024407939 # 10000000000000000); (-37107322381717367 # 100000000000000000); (-6281639633103592 # 10000000000000000);
  (-43739545006995906 # 100000000000000000); (-5489143390164274 # 10000000000000000); (-7301321448929886 # 10000000000000000);
  (-17212623723894904 # 100000000000000000); (-7172430947815722 # 10000000000000000); (-10587168989998446 # 10000000000000000);
  (-1229631548945432 # 10000000000000000); (-5045758408042701 # 10000000000000000); (-6290459656941494 # 10000000000000000);
  (-7668031300202104 # 10000000000000000); (-11121982691610095 # 10000000000000000); (-3938664041042649 # 10000000000000000);
  (-3238607037363321 # 10000000000000000); (-9652319013318131 # 10000000000000000); (-41361558791521996 # 100000000000000000);
  (-10700834326579262 # 100000000000000000); (-8134860340985645 # 10000000000000000); (-7992174949474011 # 10000000000000000);
  (-8380276726952377 # 10000000000000000); (-37144012022594186 # 100000000000000000); (-10134621961963 # 10000000000000);
  (-6056215992123128 # 10000000000000000); (-7555050007773229 # 10000000000000000); (-38998289889620147 # 100000000000000000);
  (-5172700419754366 # 10000000000000000); (-10794672747059129 # 10000000000000000); (-8134217754055034 # 10000000000000000);
  (-6683531118826761 # 10000000000000000); (-6925107529667823 # 10000000000000000); (-4363434730787169 # 10000000000000000);
  (-9677535368191946 # 10000000000000000); (-7695952738767684 # 10000000000000000); (-6456164170596466 # 10000000000000000);
  (-4154552521117272 # 10000000000000000); (-5851023475151578 # 10000000000000000); (-4135658392496243 # 10000000000000000);
  (-41845675493600043 # 100000000000000000); (-37021195004404833 # 100000000000000000); (-6410706327408405 # 10000000000000000);
  (-44444421412654816 # 100000000000000000); (-7846525366637301 # 10000000000000000); (-3972607141006374 # 10000000000000000);
  (-65550085505519 # 100000000000000); (-9533103591231797 # 10000000000000000); (-4074602269782868 # 10000000000000000);
  (-10187956677203711 # 10000000000000000); (-7437871171684718 # 10000000000000000); (-46263046069337205 # 100000000000000000);
  (-8094470643105146 # 10000000000000000); (-49706171943825467 # 100000000000000000); (-7062113281857284 # 10000000000000000);
  (-5019381250971654 # 10000000000000000); (-886857024407939 # 1000000000000000); (-44730061667616733 # 100000000000000000);
  (-4024470124889879 # 10000000000000000); (-17274270612012228 # 10000000000000000); (-36686635228273823 # 100000000000000000);
  (-5317956158988444 # 10000000000000000); (-4314681038503394 # 10000000000000000); (-561872829973571 # 1000000000000000);
  (-26731409027309944 # 100000000000000000); (-7902451158211121 # 10000000000000000); (-6511177903301031 # 10000000000000000);
  (-63584598642276 # 100000000000000); (-46730372596776704 # 100000000000000000); (-49305695185780174 # 100000000000000000);
  (-8023008757838006 # 10000000000000000); (-4164294968129761 # 10000000000000000); (-6133191687827123 # 10000000000000000);
  (-6176877234803337 # 10000000000000000); (-3976545577032699 # 10000000000000000); (-7413380318184174 # 10000000000000000);
  (-8017868062393118 # 10000000000000000); (-5969767321345287 # 10000000000000000); (-37773850857646263 # 100000000000000000);
  (-40699797896046014 # 100000000000000000); (-6746551277400632 # 10000000000000000); (-5267222884386175 # 10000000000000000);
  (-5222024148831425 # 10000000000000000); (-46976524848422035 # 100000000000000000)
]%Q.
Definition row_1000 : list Q := [
  (-5811131263927035 # 10000000000000000); (-4414613670518734 # 10000000000000000); (-7198808104886769 # 10000000000000000);
  (-5059242369280199 # 10000000000000000); (-6299238223558066 # 10000000000000000); (-840545162460486 # 1000000000000000);
  (-20853189614966058 # 100000000000000000); (-8309187956677203 # 10000000000000000); (-12080815670829663 # 10000000000000000);
  (-15170544644245218 # 100000000000000000); (-5849002435611753 # 10000000000000000); (-7276333108773384 # 10000000000000000);
  (-8757786184380992 # 10000000000000000); (-12493817691869202 # 10000000000000000); (-46061356687568017 # 100000000000000000);
  (-3803119655905063 # 10000000000000000); (-11354635435559932 # 10000000000000000); (-47944965538684764 # 100000000000000000);
  (-13120795978649533 # 100000000000000000); (-9254837539513915 # 10000000000000000); (-9101051976991242 # 10000000000000000);
  (-9518464009949732 # 10000000000000000); (-43812509716536246 # 100000000000000000); (-11391449448100741 # 10000000000000000);
  (-6994403275120485 # 10000000000000000); (-8619142871949008 # 10000000000000000); (-4522547546250713 # 10000000000000000);
  (-596276105094056 # 1000000000000000); (-12856537285588434 # 10000000000000000); (-925226719179147 # 1000000000000000);
  (-7536254340052858 # 10000000000000000); (-794918381095507 # 1000000000000000); (-5049085350054412 # 10000000000000000);
  (-11252940871638077 # 10000000000000000); (-8805513810436856 # 10000000000000000); (-7393397937503239 # 10000000000000000);
  (-48656889671969733 # 100000000000000000); (-6708213711975954 # 10000000000000000); (-4882945535575478 # 10000000000000000);
  (-4894667564906462 # 10000000000000000); (-43112504534383583 # 100000000000000000); (-7375395139140799 # 10000000000000000);
  (-5136021143182878 # 10000000000000000); (-896552832046432 # 1000000000000000); (-46447323418147896 # 100000000000000000);
  (-7745556304088719 # 10000000000000000); (-10706228947504794 # 10000000000000000); (-4721656215992123 # 10000000000000000);
  (-11440332694201172 # 10000000000000000); (-8537586153288075 # 10000000000000000); (-5349100896512412 # 10000000000000000);
  (-923622324713686 # 1000000000000000); (-5729564180960771 # 10000000000000000); (-8213152303466861 # 10000000000000000);
  (-5781282064569622 # 10000000000000000); (-10328589936259522 # 10000000000000000); (-5172804062807691 # 10000000000000000);
  (-46839197802767274 # 100000000000000000); (-19349256361092397 # 10000000000000000); (-42684769653313986 # 100000000000000000);
  (-6335513292221588 # 10000000000000000); (-5002414883142458 # 10000000000000000); (-6548012644452506 # 10000000000000000);
  (-31496502046950303 # 100000000000000000); (-9075794164896098 # 10000000000000000); (-7530538425662019 # 10000000000000000);
  (-7295776545577033 # 10000000000000000); (-6065885888998289 # 10000000000000000); (-5678830906358501 # 10000000000000000);
  (-914474788827279 # 1000000000000000); (-48289578690988233 # 100000000000000000); (-724234855158833 # 1000000000000000);
  (-709895838731409 # 1000000000000000); (-4631694045706587 # 10000000000000000); (-8508680105715914 # 10000000000000000);
  (-9120671606985542 # 10000000000000000); (-6922060423900088 # 10000000000000000); (-4403596413950355 # 10000000000000000);
  (-4716018033891278 # 10000000000000000); (-7720143027413587 # 10000000000000000); (-6067741099652796 # 10000000000000000);
  (-6103580867492356 # 10000000000000000); (-542634606415505 # 1000000000000000)
]%Q.
Definition row_1100 : list Q := [
  (-6606394776390113 # 10000000000000000); (-5191304347826087 # 10000000000000000); (-8164833912007047 # 10000000000000000);
  (-5774348344302224 # 10000000000000000); (-7138974970202622 # 10000000000000000); (-9635083173550293 # 10000000000000000);
  (-24776804684666012 # 100000000000000000); (-9474477898118878 # 10000000000000000); (-13594076799502515 # 10000000000000000);
  (-1830398507540032 # 10000000000000000); (-6693413483961238 # 10000000000000000); (-8890552935689485 # 10000000000000000);
  (-9932404000621858 # 10000000000000000); (-13885085764626626 # 10000000000000000); (-5312058869254288 # 10000000000000000);
  (-44005493081826186 # 100000000000000000); (-13444659791677462 # 10000000000000000); (-5482624242110172 # 10000000000000000);
  (-15764833912007048 # 100000000000000000); (-10407783593304658 # 10000000000000000); (-1024323988184692 # 1000000000000000);
  (-10687474737005753 # 10000000000000000); (-5092200860237343 # 10000000000000000); (-1266751826708815 # 1000000000000000);
  (-7960169974607452 # 10000000000000000); (-9717013007203192 # 10000000000000000); (-5173498471264963 # 10000000000000000);
  (-6786018552106545 # 10000000000000000); (-14939980307819867 # 10000000000000000); (-10403378763538373 # 10000000000000000);
  (-840465875524693 # 1000000000000000); (-9003451313675701 # 10000000000000000); (-5765196662693683 # 10000000000000000);
  (-1284810074104783 # 1000000000000000); (-10408871845364565 # 10000000000000000); (-8364916826449706 # 10000000000000000);
  (-5606767891382081 # 10000000000000000); (-7596901072705602 # 10000000000000000); (-5687671658807069 # 10000000000000000);
  (-5662590039902575 # 10000000000000000); (-49498574908016785 # 100000000000000000); (-8370233715085246 # 10000000000000000);
  (-585660983572576 # 1000000000000000); (-1012803026377157 # 1000000000000000); (-535015805565632 # 1000000000000000);
  (-8990309374514173 # 10000000000000000); (-11896305125148987 # 10000000000000000); (-5397160180338912 # 10000000000000000);
  (-12710799606156398 # 10000000000000000); (-9667824014095455 # 10000000000000000); (-6102938280561745 # 10000000000000000);
  (-10429393169922785 # 10000000000000000); (-651926206146033 # 1000000000000000); (-9412136601544282 # 10000000000000000);
  (-6570513551329222 # 10000000000000000); (-12361548427216664 # 10000000000000000); (-5902834637508421 # 10000000000000000);
  (-5376597398559362 # 10000000000000000); (-21445810229569364 # 10000000000000000); (-48973933772088923 # 100000000000000000);
  (-739476602580712 # 1000000000000000); (-5722547546250712 # 10000000000000000); (-7968388868736073 # 10000000000000000);
  (-36534798155153647 # 100000000000000000); (-10300264289785979 # 10000000000000000); (-8579437218220448 # 10000000000000000);
  (-8302523708348447 # 10000000000000000); (-7478074312069233 # 10000000000000000); (-6456164170596466 # 10000000000000000);
  (-1030367414624035 # 1000000000000000); (-552487951495051 # 1000000000000000); (-8385852723221225 # 10000000000000000);
  (-8058661968181583 # 10000000000000000); (-532015339171892 # 1000000000000000); (-963481370161165 # 1000000000000000);
  (-1025613307768047 # 1000000000000000); (-7955640773177178 # 10000000000000000); (-5061035394102711 # 10000000000000000);
  (-5390661760895477 # 10000000000000000); (-8741648960978391 # 10000000000000000); (-6901010519769912 # 10000000000000000);
  (-701771259781313 # 1000000000000000); (-6187303725967767 # 10000000000000000)
]%Q.
Definition row_1200 : list Q := [
  (-7430636886562678 # 10000000000000000); (-5997937503238845 # 10000000000000000); (-916365238119915 # 1000000000000000);
  (-6517054464424522 # 10000000000000000); (-8006488055138105 # 10000000000000000); (-1090436855469762 # 1000000000000000);
  (-28966056900036274 # 100000000000000000); (-10665564595532984 # 10000000000000000); (-1512521117272115 # 1000000000000000);
  (-21678810177747837 # 100000000000000000); (-7642607659221641 # 10000000000000000); (-10918692024667047 # 10000000000000000);
  (-1118007980515106 # 1000000000000000); (-15294071617349847 # 10000000000000000); (-6055749598383169 # 10000000000000000);
  (-5029320619785459 # 10000000000000000); (-15554251956262632 # 10000000000000000); (-6198538632948126 # 10000000000000000);
  (-1861864538529305 # 10000000000000000); (-1159242369280199 # 1000000000000000); (-11416645074363891 # 10000000000000000);
  (-11903777789293672 # 10000000000000000); (-5869492667253977 # 10000000000000000); (-13961196040835364 # 10000000000000000);
  (-8950987200082915 # 10000000000000000); (-1084643208788931 # 1000000000000000); (-5850795460434265 # 10000000000000000);
  (-7640161683163187 # 10000000000000000); (-17043042960045602 # 10000000000000000); (-11586288024045188 # 10000000000000000);
  (-9287479919158418 # 10000000000000000); (-10085163496916618 # 10000000000000000); (-6509685443333161 # 10000000000000000);
  (-1446129450173602 # 1000000000000000); (-12360211431828783 # 10000000000000000); (-9392371871275328 # 10000000000000000);
  (-6375011659843499 # 10000000000000000); (-8515323625434006 # 10000000000000000); (-6524775871897186 # 10000000000000000);
  (-6466476654402239 # 10000000000000000); (-5615733015494636 # 10000000000000000); (-9634409493703685 # 10000000000000000);
  (-6603917707415661 # 10000000000000000); (-11352552210188114 # 10000000000000000); (-6086655956884489 # 10000000000000000);
  (-1027776338290926 # 1000000000000000); (-13102046950303157 # 10000000000000000); (-6098885837176763 # 10000000000000000);
  (-13997927138933512 # 10000000000000000); (-10825506555423121 # 10000000000000000); (-6885484790381925 # 10000000000000000);
  (-11680416645074363 # 10000000000000000); (-7337409960097424 # 10000000000000000); (-10650982017930248 # 10000000000000000);
  (-7489101932942945 # 10000000000000000); (-14414095455252112 # 10000000000000000); (-6660869565217391 # 10000000000000000);
  (-6100295382701975 # 10000000000000000); (-235619733637353 # 100000000000000); (-5553453904752034 # 10000000000000000);
  (-8483619215422086 # 10000000000000000); (-6473244545784319 # 10000000000000000); (-9531647406332591 # 10000000000000000);
  (-41825672384308443 # 100000000000000000); (-11576224283567393 # 10000000000000000); (-9655169197284551 # 10000000000000000);
  (-9382080116080219 # 10000000000000000); (-8907985697258641 # 10000000000000000); (-726018552106545 # 1000000000000000);
  (-11497963414002177 # 10000000000000000); (-6249997408923667 # 10000000000000000); (-9560180338912784 # 10000000000000000);
  (-9053780380370005 # 10000000000000000); (-6053231072187386 # 10000000000000000); (-1078897237912629 # 1000000000000000);
  (-11422013784526093 # 10000000000000000); (-9048929885474427 # 10000000000000000); (-5747629165155206 # 10000000000000000);
  (-6091703373581386 # 10000000000000000); (-9873286003005648 # 10000000000000000); (-7764761361869721 # 10000000000000000);
  (-8148675959993782 # 10000000000000000); (-7001699746074519 # 10000000000000000)
]%Q.
Definition row_1300 : list Q := [
  (-8345131367570089 # 10000000000000000); (-6832036067782556 # 10000000000000000); (-10193625952220553 # 10000000000000000);
  (-7285474426076591 # 10000000000000000); (-890035756853397 # 1000000000000000); (-12209048038555217 # 10000000000000000);
  (-33406228947504796 # 100000000000000000); (-11880178266051717 # 10000000000000000); (-16672752241281026 # 10000000000000000);
  (-2527988806550241 # 10000000000000000); (-8634057107322382 # 10000000000000000); (-1296480281909105 # 1000000000000000);
  (-1246035134995077 # 1000000000000000); (-16719339793750323 # 10000000000000000); (-6837435870860755 # 10000000000000000);
  (-5688293517127014 # 10000000000000000); (-17681774369072913 # 10000000000000000); (-694084054516246 # 1000000000000000);
  (-21669275016841993 # 100000000000000000); (-12808021972327304 # 10000000000000000); (-12619629994299633 # 10000000000000000);
  (-13147867544177851 # 10000000000000000); (-6676250194330725 # 10000000000000000); (-15271114681038505 # 10000000000000000);
  (-9964782090480385 # 10000000000000000); (-12005710732238173 # 10000000000000000); (-683588122506089 # 1000000000000000);
  (-8523273047623984 # 10000000000000000); (-19164066953412449 # 10000000000000000); (-12800259107633312 # 10000000000000000);
  (-10183702129864745 # 10000000000000000); (-11192019484894025 # 10000000000000000); (-7280841581592994 # 10000000000000000);
  (-16091117790330103 # 10000000000000000); (-14329533088044775 # 10000000000000000); (-10511032803026377 # 10000000000000000);
  (-7168098668186764 # 10000000000000000); (-946218583199461 # 1000000000000000); (-7391542726848733 # 10000000000000000);
  (-7303674146240349 # 10000000000000000); (-630712545991605 # 1000000000000000); (-11534673783489662 # 10000000000000000);
  (-7376048090376742 # 10000000000000000); (-12629776649220086 # 10000000000000000); (-685239156345546 # 1000000000000000);
  (-116046017515676 # 100000000000000); (-14322371353060062 # 10000000000000000); (-6824957247240504 # 10000000000000000);
  (-15300481940197959 # 10000000000000000); (-12008094522464632 # 10000000000000000); (-7694802300875784 # 10000000000000000);
  (-13306617608954758 # 10000000000000000); (-8182111208996218 # 10000000000000000); (-11926361610613048 # 10000000000000000);
  (-8880427009379697 # 10000000000000000); (-16484593460123336 # 10000000000000000); (-744503290666943 # 1000000000000000);
  (-685311706482873 # 1000000000000000); (-25696118567653 # 10000000000000); (-6235020987718298 # 10000000000000000);
  (-95996165207027 # 100000000000000); (-72530756076074 # 100000000000000); (-11111950044048298 # 10000000000000000);
  (-4735171270145619 # 10000000000000000); (-12919458983261647 # 10000000000000000); (-1075551640151319 # 1000000000000000);
  (-10495755816966368 # 10000000000000000); (-10354277867025963 # 10000000000000000); (-8088936104057626 # 10000000000000000);
  (-12726175053117066 # 10000000000000000); (-7002601440638442 # 10000000000000000); (-1076266777219257 # 1000000000000000);
  (-10082448048919521 # 10000000000000000); (-6837529149608746 # 10000000000000000); (-11968824169560035 # 10000000000000000);
  (-1261646888117324 # 1000000000000000); (-10175322589003473 # 10000000000000000); (-6461698709643986 # 10000000000000000);
  (-681737057573716 # 1000000000000000); (-11036710369487486 # 10000000000000000); (-8657107322381717 # 10000000000000000);
  (-10124806964813182 # 10000000000000000); (-7853821837591336 # 10000000000000000)
]%Q.
Definition row_1400 : list Q := [
  (-9318474374255066 # 10000000000000000); (-7691475358864072 # 10000000000000000); (-1127622946572006 # 1000000000000000);
  (-8077680468466601 # 10000000000000000); (-9881681090324921 # 10000000000000000); (-1354569104005804 # 1000000000000000);
  (-38085090946779293 # 100000000000000000); (-13116484427631236 # 10000000000000000); (-1823548219930559 # 1000000000000000);
  (-2909364149867855 # 10000000000000000); (-9653438358294035 # 10000000000000000); (-15027506866352283 # 10000000000000000);
  (-1377072083743587 # 1000000000000000); (-18159682852256829 # 10000000000000000); (-7658589418044255 # 10000000000000000);
  (-6376618127170026 # 10000000000000000); (-19825848577499094 # 10000000000000000); (-7750893921334923 # 10000000000000000);
  (-24905114784681556 # 100000000000000000); (-14054236409804632 # 10000000000000000); (-13850899103487588 # 10000000000000000);
  (-14417598590454477 # 10000000000000000); (-7510887702751723 # 10000000000000000); (-16596113385500337 # 10000000000000000);
  (-10999771985282687 # 10000000000000000); (-13193543037777893 # 10000000000000000); (-7875918536560087 # 10000000000000000);
  (-9433725449551744 # 10000000000000000); (-21301694563921854 # 10000000000000000); (-14044960356532101 # 10000000000000000);
  (-11092454785717987 # 10000000000000000); (-12322070788205421 # 10000000000000000); (-8077182981810643 # 10000000000000000);
  (-17736394258174846 # 10000000000000000); (-16315468725708657 # 10000000000000000); (-11657065865160388 # 10000000000000000);
  (-7984090791314712 # 10000000000000000); (-10436513447686169 # 10000000000000000); (-8598155153650827 # 10000000000000000);
  (-8178494066435197 # 10000000000000000); (-7022573457014044 # 10000000000000000); (-13451531326112869 # 10000000000000000);
  (-8171446338809141 # 10000000000000000); (-13995667720371043 # 10000000000000000); (-7645862051096026 # 10000000000000000);
  (-1296761154583614 # 1000000000000000); (-1555632481732912 # 1000000000000000); (-7573830129035602 # 10000000000000000);
  (-16617391304347826 # 10000000000000000); (-13213556511374824 # 10000000000000000); (-8529253251800798 # 10000000000000000);
  (-1498128206456962 # 1000000000000000); (-9051728247914184 # 10000000000000000); (-1323545628854226 # 1000000000000000);
  (-10286604135357829 # 10000000000000000); (-18571674353526453 # 10000000000000000); (-8253738923148676 # 10000000000000000);
  (-76334559776131 # 100000000000000); (-27846846660102607 # 10000000000000000); (-6940736902109136 # 10000000000000000);
  (-10740653987666475 # 10000000000000000); (-8060921386744053 # 10000000000000000); (-12708068611701302 # 10000000000000000);
  (-5309830543607815 # 10000000000000000); (-14337067938021455 # 10000000000000000); (-11878561434419859 # 10000000000000000);
  (-11640918277452452 # 10000000000000000); (-11815815929937294 # 10000000000000000); (-8940767995025134 # 10000000000000000);
  (-13987200082914442 # 10000000000000000); (-7781250971653624 # 10000000000000000); (-1257216147587708 # 1000000000000000);
  (-11143099963724932 # 10000000000000000); (-7645903508317355 # 10000000000000000); (-1317237912628906 # 1000000000000000);
  (-13837891900295383 # 10000000000000000); (-11332269264652537 # 10000000000000000); (-7201896667875836 # 10000000000000000);
  (-7566108721562937 # 10000000000000000); (-1222949681297611 # 1000000000000000); (-9576452298284707 # 10000000000000000);
  (-1211752085816448 # 1000000000000000); (-8728994144167487 # 10000000000000000)
]%Q.
Definition row_1500 : list Q := [
  (-10316608799295228 # 10000000000000000); (-8574441623050215 # 10000000000000000); (-12463336269886511 # 10000000000000000);
  (-9567072601958853 # 10000000000000000); (-10921252008084157 # 10000000000000000); (-14911488832461004 # 10000000000000000);
  (-4299176037726071 # 10000000000000000); (-14372949163082345 # 10000000000000000); (-19812354251956263 # 10000000000000000);
  (-3310835881225061 # 10000000000000000); (-10698761465512774 # 10000000000000000); (-17105612271337514 # 10000000000000000);
  (-1510901176348655 # 1000000000000000); (-19614048815878116 # 10000000000000000); (-8515271803907344 # 10000000000000000);
  (-7093703684510546 # 10000000000000000); (-21985334507954604 # 10000000000000000); (-8643447167953568 # 10000000000000000);
  (-2831569674042597 # 10000000000000000); (-15331056640928642 # 10000000000000000); (-15109415971394518 # 10000000000000000);
  (-157111364460797 # 100000000000000); (-837203710421309 # 1000000000000000); (-17935186816603617 # 10000000000000000);
  (-1205444369591128 # 1000000000000000); (-14408778566616574 # 10000000000000000); (-8936404622480177 # 10000000000000000);
  (-10370098979115925 # 10000000000000000); (-23454713167849923 # 10000000000000000); (-1532031922060424 # 1000000000000000);
  (-12013007203192205 # 10000000000000000); (-13473679846608282 # 10000000000000000); (-8897486655956884 # 10000000000000000);
  (-19396144478416335 # 10000000000000000); (-18316826449707209 # 10000000000000000); (-12828532932580194 # 10000000000000000);
  (-8821288283152822 # 10000000000000000); (-11437601699746074 # 10000000000000000); (-10478385241229207 # 10000000000000000);
  (-9107394931854692 # 10000000000000000); (-776088511167539 # 1000000000000000); (-15383790226460072 # 10000000000000000);
  (-8988785821630305 # 10000000000000000); (-153976991242162 # 100000000000000); (-8465782245944966 # 10000000000000000);
  (-14364201689381768 # 10000000000000000); (-16803078198683734 # 10000000000000000); (-8344136394258175 # 10000000000000000);
  (-17947732808208532 # 10000000000000000); (-14440234233300513 # 10000000000000000); (-9387448826242422 # 10000000000000000);
  (-16687796030471058 # 10000000000000000); (-994488262424211 # 1000000000000000); (-14575851168575427 # 10000000000000000);
  (-11706607244649427 # 10000000000000000); (-20674156604653575 # 10000000000000000); (-9085660983572577 # 10000000000000000);
  (-8439871482613879 # 10000000000000000); (-3001297611027621 # 1000000000000000); (-7669471938643312 # 10000000000000000);
  (-11904938591490906 # 10000000000000000); (-8895890552935689 # 10000000000000000); (-14318951132300357 # 10000000000000000);
  (-5905259884956211 # 10000000000000000); (-15821495569259472 # 10000000000000000); (-130226874643727 # 100000000000000);
  (-12815328807586672 # 10000000000000000); (-13291630823444058 # 10000000000000000); (-9814219826916101 # 10000000000000000);
  (-15280261180494379 # 10000000000000000); (-8584681556718661 # 10000000000000000); (-14249826397885683 # 10000000000000000);
  (-1223438876509302 # 1000000000000000); (-8477265896253303 # 10000000000000000); (-14397947867544179 # 10000000000000000);
  (-15084894024977977 # 10000000000000000); (-12585023578794632 # 10000000000000000); (-7967114059180184 # 10000000000000000);
  (-8336632637197492 # 10000000000000000); (-13749287454008394 # 10000000000000000); (-1052142820127481 # 1000000000000000);
  (-14125636109239779 # 10000000000000000); (-9625890034720422 # 10000000000000000)
]%Q.
Definition row_1600 : list Q := [
  (-1133789708244805 # 1000000000000000); (-9479359485930456 # 10000000000000000); (-13729626366792764 # 10000000000000000);
  (-11127760791832928 # 10000000000000000); (-11982225216354874 # 10000000000000000); (-16304181997201637 # 10000000000000000);
  (-4866207182463595 # 10000000000000000); (-1564822511271182 # 1000000000000000); (-2140245115821112 # 1000000000000000);
  (-37313675700886145 # 100000000000000000); (-11768274861377417 # 10000000000000000); (-191980826035135 # 100000000000000);
  (-16473368917448308 # 10000000000000000); (-21081541172202933 # 10000000000000000); (-9400062185831994 # 10000000000000000);
  (-7839166709851272 # 10000000000000000); (-2415923718712753 # 1000000000000000); (-9558718971860911 # 10000000000000000);
  (-3189158936622273 # 10000000000000000); (-16638658858889983 # 10000000000000000); (-1639438254650982 # 1000000000000000);
  (-1702689537233767 # 1000000000000000); (-9258537596517593 # 10000000000000000); (-1928746437270042 # 1000000000000000);
  (-13127491319894284 # 10000000000000000); (-1567648857335337 # 1000000000000000); (-10015992123127948 # 10000000000000000);
  (-1133118101259263 # 1000000000000000); (-25622107063274084 # 10000000000000000); (-16626542985956367 # 10000000000000000);
  (-12944721977509457 # 10000000000000000); (-14645385293050732 # 10000000000000000); (-9740643623361145 # 10000000000000000);
  (-21069549670933303 # 10000000000000000); (-2033258019381251 # 1000000000000000); (-1402371353060061 # 1000000000000000);
  (-9678219412343888 # 10000000000000000); (-12464942737213038 # 10000000000000000); (-1237298025599834 # 1000000000000000);
  (-10136290615121522 # 10000000000000000); (-8521065450588174 # 10000000000000000); (-17330424418303363 # 10000000000000000);
  (-9826947193864332 # 10000000000000000); (-16833466341918435 # 10000000000000000); (-9311043167331711 # 10000000000000000);
  (-15792195678084677 # 10000000000000000); (-18061880084987303 # 10000000000000000); (-9134725605016323 # 10000000000000000);
  (-19290703218116807 # 10000000000000000); (-15686738871327148 # 10000000000000000); (-10268217857698088 # 10000000000000000);
  (-18424014095455252 # 10000000000000000); (-10860382442866767 # 10000000000000000); (-15945452661035395 # 10000000000000000);
  (-13139524278385242 # 10000000000000000); (-2279103487588744 # 1000000000000000); (-9939596828522568 # 10000000000000000);
  (-9271088770275173 # 10000000000000000); (-32193480851945897 # 10000000000000000); (-8420241488314245 # 10000000000000000);
  (-13090915686376121 # 10000000000000000); (-9757288697725035 # 10000000000000000); (-1594364927190755 # 1000000000000000);
  (-6520371042130901 # 10000000000000000); (-17340653987666474 # 10000000000000000); (-14186495310151837 # 10000000000000000);
  (-1401702855366119 # 1000000000000000); (-14780867492356327 # 10000000000000000); (-10707902782815981 # 10000000000000000);
  (-16617049282271856 # 10000000000000000); (-9411836036689641 # 10000000000000000); (-15942851220396954 # 10000000000000000);
  (-13355153650826552 # 10000000000000000); (-9330756076074002 # 10000000000000000); (-15644058661968183 # 10000000000000000);
  (-16356262631497123 # 10000000000000000); (-1387478882727885 # 1000000000000000); (-8756407731771778 # 10000000000000000);
  (-9127802249054258 # 10000000000000000); (-15895859460019692 # 10000000000000000); (-11490843136238793 # 10000000000000000);
  (-16148126651811163 # 10000000000000000); (-10543483443022232 # 10000000000000000)
]%Q.
Definition row_1700 : list Q := [
  (-12380877856661656 # 10000000000000000); (-1040485049489558 # 1000000000000000); (-15023039850754003 # 10000000000000000);
  (-12700523397419288 # 10000000000000000); (-13063263719749183 # 10000000000000000); (-17721925687930766 # 10000000000000000);
  (-5496160024874333 # 10000000000000000); (-16941120381406436 # 10000000000000000); (-2300497486655957 # 1000000000000000);
  (-41700264289785977 # 100000000000000000); (-1286047572161476 # 1000000000000000); (-21304036896926983 # 10000000000000000);
  (-17862165103383947 # 10000000000000000); (-2256136186972068 # 1000000000000000); (-1031053531637042 # 1000000000000000);
  (-861276882416956 # 1000000000000000); (-26346696377675287 # 10000000000000000); (-10495279058921076 # 10000000000000000);
  (-356241902886459 # 1000000000000000); (-17999803078198684 # 10000000000000000); (-17705166606208218 # 10000000000000000);
  (-18363476188008498 # 10000000000000000); (-1016935274913199 # 1000000000000000); (-20652179095196144 # 10000000000000000);
  (-14217754055034462 # 10000000000000000); (-17031144737523967 # 10000000000000000); (-111134684147795 # 100000000000000);
  (-12315872933616625 # 10000000000000000); (-2780297455563041 # 1000000000000000); (-17964015131885784 # 10000000000000000);
  (-13887044618334456 # 10000000000000000); (-15835943410892885 # 10000000000000000); (-10605721096543503 # 10000000000000000);
  (-2275593097372649 # 1000000000000000); (-22361848992071307 # 10000000000000000); (-15241135927864435 # 10000000000000000);
  (-1127814686220656 # 1000000000000000); (-13518215266621754 # 10000000000000000); (-14281048867699644 # 10000000000000000);
  (-11210654505881743 # 10000000000000000); (-9302295693631134 # 10000000000000000); (-1929053220707882 # 1000000000000000);
  (-10684987303725968 # 10000000000000000); (-18300865419495258 # 10000000000000000); (-10180680934860342 # 10000000000000000);
  (-17249727936985024 # 10000000000000000); (-19332056796393222 # 10000000000000000); (-9944571695082137 # 10000000000000000);
  (-2064559776131005 # 1000000000000000); (-16951899258952168 # 10000000000000000); (-11170637922993212 # 10000000000000000);
  (-201880810488677 # 100000000000000); (-11797170544644244 # 10000000000000000); (-17342447012488988 # 10000000000000000);
  (-14584577913665335 # 10000000000000000); (-24921438565580143 # 10000000000000000); (-10814541120381407 # 10000000000000000);
  (-10125998859926413 # 10000000000000000); (-3438745919054776 # 1000000000000000); (-9192268228222004 # 10000000000000000);
  (-14297248276934238 # 10000000000000000); (-1066929574545266 # 1000000000000000); (-17581313157485619 # 10000000000000000);
  (-7200487122350624 # 10000000000000000); (-18892345960511996 # 10000000000000000); (-15368730890812043 # 10000000000000000);
  (-15347131678499248 # 10000000000000000); (-16282784888842827 # 10000000000000000); (-1162067678913821 # 1000000000000000);
  (-18045012178058764 # 10000000000000000); (-10261771259781314 # 10000000000000000); (-17650303155930975 # 10000000000000000);
  (-1451563455459398 # 1000000000000000); (-10205710732238171 # 10000000000000000); (-16909415971394517 # 10000000000000000);
  (-17650940560708919 # 10000000000000000); (-15196092656889673 # 10000000000000000); (-9568958905529358 # 10000000000000000);
  (-9938632948126651 # 10000000000000000); (-18055905062963153 # 10000000000000000); (-1248367103694875 # 1000000000000000);
  (-18184090791314713 # 10000000000000000); (-11480914131730322 # 10000000000000000)
]%Q.
Definition row_1800 : list Q := [
  (-13444276312380163 # 10000000000000000); (-11349722754832359 # 10000000000000000); (-16341980618749028 # 10000000000000000);
  (-14284640099497332 # 10000000000000000); (-1416318598745919 # 1000000000000000); (-19163206716069856 # 10000000000000000);
  (-6143866922319532 # 10000000000000000); (-18250608902938281 # 10000000000000000); (-24619230968544334 # 10000000000000000);
  (-4625972949163082 # 10000000000000000); (-14184609006581335 # 10000000000000000); (-23422656371456703 # 10000000000000000);
  (-19273949318546926 # 10000000000000000); (-2405280613566876 # 1000000000000000); (-1127550396434679 # 1000000000000000);
  (-941442711302275 # 1000000000000000); (-2854698657822459 # 1000000000000000); (-11451873348188837 # 10000000000000000);
  (-3950593356480282 # 10000000000000000); (-19459698398714826 # 10000000000000000); (-19047012488987927 # 10000000000000000);
  (-20767715188889464 # 10000000000000000); (-1110360159610302 # 1000000000000000); (-22028636575633516 # 10000000000000000);
  (-15324226563714567 # 10000000000000000); (-18408457273151266 # 10000000000000000); (-12227797066901591 # 10000000000000000);
  (-13323241954707985 # 10000000000000000); (-29996517593408303 # 10000000000000000); (-19402984919935742 # 10000000000000000);
  (-14839472456858578 # 10000000000000000); (-17044245219464165 # 10000000000000000); (-11491879566772036 # 10000000000000000);
  (-2445471835000259 # 1000000000000000); (-2440381406436234 # 1000000000000000); (-16479483857594444 # 10000000000000000);
  (-13096647147224958 # 10000000000000000); (-1459723273047624 # 1000000000000000); (-16201803389127845 # 10000000000000000);
  (-123130849354822 # 100000000000000); (-10103912525262995 # 10000000000000000); (-21263315541275847 # 10000000000000000);
  (-11562108099704618 # 10000000000000000); (-19798010053376174 # 10000000000000000); (-11149670933305695 # 10000000000000000);
  (-18734829248069649 # 10000000000000000); (-20613022749650205 # 10000000000000000); (-10772772969891693 # 10000000000000000);
  (-22011779033010312 # 10000000000000000); (-18234710058558325 # 10000000000000000); (-12093962792143857 # 10000000000000000);
  (-21978369694771205 # 10000000000000000); (-12754324506399959 # 10000000000000000); (-1876521739130435 # 1000000000000000);
  (-1604106337772711 # 1000000000000000); (-2706456962222107 # 1000000000000000); (-11709571435974504 # 10000000000000000);
  (-11003534228118361 # 10000000000000000); (-36594113074571175 # 10000000000000000); (-9984951028657304 # 10000000000000000);
  (-1552271337513603 # 1000000000000000); (-11610343576721769 # 10000000000000000); (-192311706482873 # 100000000000000);
  (-816007669585946 # 1000000000000000); (-20474674819920193 # 10000000000000000); (-16568337047209412 # 10000000000000000);
  (-17433673628025081 # 10000000000000000); (-1779671451520962 # 1000000000000000); (-1255160905840286 # 1000000000000000);
  (-19521376379748148 # 10000000000000000); (-11133637352956418 # 10000000000000000); (-19371368606519148 # 10000000000000000);
  (-1571035912317977 # 1000000000000000); (-11101622013784527 # 10000000000000000); (-18718173809400425 # 10000000000000000);
  (-18967984660828108 # 10000000000000000); (-16547079856972586 # 10000000000000000); (-10404083536300979 # 10000000000000000);
  (-10768264497072084 # 10000000000000000); (-2022863657563352 # 1000000000000000); (-13513654972275484 # 10000000000000000);
  (-2023273047623983 # 1000000000000000); (-12437508420998082 # 10000000000000000)
]%Q.
Definition row_1900 : list Q := [
  (-1452696274032233 # 1000000000000000); (-1231287764937555 # 1000000000000000); (-17685018396641965 # 10000000000000000);
  (-1587948903974711 # 1000000000000000); (-1528095558895165 # 1000000000000000); (-20626812457895007 # 10000000000000000);
  (-6808446908845935 # 10000000000000000); (-19575757889827436 # 10000000000000000); (-26244602787998135 # 10000000000000000);
  (-5098481629268798 # 10000000000000000); (-16182090480385551 # 10000000000000000); (-25553267347256052 # 10000000000000000);
  (-20707457117686685 # 10000000000000000); (-2555526765818521 # 1000000000000000); (-12328258278488884 # 10000000000000000);
  (-1024413121210551 # 1000000000000000); (-3075944447323418 # 1000000000000000); (-12427392858993627 # 10000000000000000);
  (-43529875110120747 # 100000000000000000); (-20948365030833807 # 10000000000000000); (-2052137637974815 # 1000000000000000);
  (-23116525884852566 # 10000000000000000); (-12147059128361921 # 10000000000000000); (-23416230502150595 # 10000000000000000);
  (-16446007151370678 # 10000000000000000); (-19807182463595379 # 10000000000000000); (-1335803492770897 # 1000000000000000);
  (-14352438202829456 # 10000000000000000); (-3220204176815049 # 1000000000000000); (-2090240970098979 # 1000000000000000);
  (-15801559827952532 # 10000000000000000); (-18269285381147329 # 10000000000000000); (-12398362439757475 # 10000000000000000);
  (-2616541949525833 # 1000000000000000); (-2645780173083899 # 1000000000000000); (-1773759651759341 # 1000000000000000);
  (-14927138933512982 # 10000000000000000); (-15701912214333833 # 10000000000000000); (-18134528683215008 # 10000000000000000);
  (-13442037622428358 # 10000000000000000); (-10925356272995803 # 10000000000000000); (-23248080012437167 # 10000000000000000);
  (-12457604809037675 # 10000000000000000); (-21323273047623985 # 10000000000000000); (-12173000984609006 # 10000000000000000);
  (-20246152251645335 # 10000000000000000); (-2190424418303363 # 1000000000000000); (-11618531377934394 # 10000000000000000);
  (-23388702907187646 # 10000000000000000); (-1953429030419236 # 1000000000000000); (-1311223506244494 # 1000000000000000);
  (-2379339793750324 # 1000000000000000); (-13731025548012643 # 10000000000000000); (-20212323159040264 # 10000000000000000);
  (-17508369176555942 # 10000000000000000); (-2921976473026896 # 1000000000000000); (-12623910452401927 # 10000000000000000);
  (-11902782815981758 # 10000000000000000); (-38812748095558893 # 10000000000000000); (-10797761310048193 # 10000000000000000);
  (-16537601699746074 # 10000000000000000); (-12647820904803855 # 10000000000000000); (-2089254806446598 # 1000000000000000);
  (-9135337099030938 # 10000000000000000); (-22085920091205886 # 10000000000000000); (-17784318806032027 # 10000000000000000);
  (-19532217443125874 # 10000000000000000); (-19322065606052756 # 10000000000000000); (-13499922267710007 # 10000000000000000);
  (-21024521946416543 # 10000000000000000); (-12026719179147018 # 10000000000000000); (-2110533243509354 # 1000000000000000);
  (-16931595584805927 # 10000000000000000); (-12018116805721097 # 10000000000000000); (-209880499559517 # 100000000000000);
  (-20385977094885215 # 10000000000000000); (-17926102502979737 # 10000000000000000); (-11261211587293363 # 10000000000000000);
  (-1161591957299062 # 1000000000000000); (-22413338860962844 # 10000000000000000); (-14645716950821372 # 10000000000000000);
  (-22293351298129243 # 10000000000000000); (-13412737731253563 # 10000000000000000)
]%Q.
Definition row_2000 : list Q := [
  (-15627911074260248 # 10000000000000000); (-13293361662434575 # 10000000000000000); (-19050888739182257 # 10000000000000000);
  (-17484494999222677 # 10000000000000000); (-1641561900813598 # 1000000000000000); (-2211177903301031 # 1000000000000000);
  (-7489133025858942 # 10000000000000000); (-21420904803855523 # 10000000000000000); (-2788054619889102 # 1000000000000000);
  (-5586868425143805 # 10000000000000000); (-18190962325750117 # 10000000000000000); (-2769520650878375 # 1000000000000000);
  (-22161538062911332 # 10000000000000000); (-27068181582629425 # 10000000000000000); (-134030989272944 # 100000000000000);
  (-1110201585738716 # 1000000000000000); (-32983500025910764 # 10000000000000000); (-13420832253718193 # 10000000000000000);
  (-47689589055293574 # 100000000000000000); (-2246426905736643 # 1000000000000000); (-2201686272477587 # 1000000000000000);
  (-25476685495154685 # 10000000000000000); (-1321634450950925 # 1000000000000000); (-24814396020106755 # 10000000000000000);
  (-17582277037881537 # 10000000000000000); (-2122618023526973 # 1000000000000000); (-1450334248846971 # 1000000000000000);
  (-1540267399077577 # 1000000000000000); (-3441890449292636 # 1000000000000000); (-2242579675597243 # 1000000000000000);
  (-16772907705861013 # 10000000000000000); (-19510203658599783 # 10000000000000000); (-13324527128569208 # 10000000000000000);
  (-2788759392651708 # 1000000000000000); (-28523179768875995 # 10000000000000000); (-1901443747732808 # 1000000000000000);
  (-16769000362750688 # 10000000000000000); (-16901207441571227 # 10000000000000000); (-2007860289164119 # 1000000000000000);
  (-14596103021195004 # 10000000000000000); (-1176617090739493 # 1000000000000000); (-25244193397937504 # 10000000000000000);
  (-13370917759237186 # 10000000000000000); (-22875151577965487 # 10000000000000000); (-13219847644711613 # 10000000000000000);
  (-2178224594496554 # 1000000000000000); (-23205233974192883 # 10000000000000000); (-12481142146447635 # 10000000000000000);
  (-24775856350728094 # 10000000000000000); (-20849862672954345 # 10000000000000000); (-14174410530134216 # 10000000000000000);
  (-256318909675079 # 100000000000000); (-14726527439498367 # 10000000000000000); (-2168247914183552 # 1000000000000000);
  (-18985935637663884 # 10000000000000000); (-31386402031403846 # 10000000000000000); (-13556811939679743 # 10000000000000000);
  (-1282286365756335 # 1000000000000000); (-41042721666580295 # 10000000000000000); (-11630232678654713 # 10000000000000000);
  (-1821902886459035 # 1000000000000000); (-13719106596880344 # 10000000000000000); (-22564839094159717 # 10000000000000000);
  (-10125449551743795 # 10000000000000000); (-23724568585790538 # 10000000000000000); (-1901583665854796 # 1000000000000000);
  (-2164218272270301 # 1000000000000000); (-20858304399647616 # 10000000000000000); (-14464953101518372 # 10000000000000000);
  (-2255303933253874 # 1000000000000000); (-12940353422811837 # 10000000000000000); (-22851572783334198 # 10000000000000000);
  (-18177944758252578 # 10000000000000000); (-13001948489402497 # 10000000000000000); (-2326988651085661 # 1000000000000000);
  (-2184378919002954 # 1000000000000000); (-1933167849924859 # 1000000000000000); (-1213989739337721 # 1000000000000000);
  (-12480924496035652 # 10000000000000000); (-24609390060631187 # 10000000000000000); (-15799502513344044 # 10000000000000000);
  (-24365310670052343 # 10000000000000000); (-14406146033062135 # 10000000000000000)
]%Q.

(* data/__init__.py:17 G_ELEMS *)
Definition mu_table : list (Z * list (nat * Q)) :=
  [(300%Z, number row_300); (400%Z, number row_400); (500%Z, number row_500); (600%Z, number row_600)
   ; (700%Z, number row_700); (800%Z, number row_800); (900%Z, number row_900); (1000%Z, number row_1000)
   ; (1100%Z, number row_1100); (1200%Z, number row_1200); (1300%Z, number row_1300); (1400%Z, number row_1400)
   ; (1500%Z, number row_1500); (1600%Z, number row_1600); (1700%Z, number row_1700); (1800%Z, number row_1800)
   ; (1900%Z, number row_1900); (2000%Z, number row_2000)].
