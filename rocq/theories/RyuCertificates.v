(** * Neighbouring fractions around the multipliers of the printer *)
(** Generated by tools/ryu_certificates.py. Nothing here is trusted: RyuScaled.v checks every row. *)
From Coq Require Import ZArith List.
Import ListNotations.
Local Open Scope Z_scope.

(** For e2 from -1076 to 969: p1, q1, p2 and q2; zeros where the multiplier is exact. *)
Definition CERTIFICATES : list (Z * Z * Z * Z) :=
  [(432763133094560385, 35036893314668236, 32931890100779056, 2666195504826559);
   (827945814303909057, 33515619686293472, 65863780201558112, 2666195504826559);
   (1223128495513257729, 24756396357626413, 1354856055916373953, 27422591862452972);
   (2446256991026515458, 24756396357626413, 1354856055916373953, 13711295931226486);
   (218280187022028301, 11045100426399927, 700015494850289050, 35421178376932649);
   (436560374044056602, 11045100426399927, 1354856055916373953, 34278239828066215);
   (2664537178048543759, 33706770553632998, 1791416429960430555, 22661670127233071);
   (514837462096027093, 32563832004766564, 358283285992086111, 22661670127233071);
   (514837462096027093, 16281916002383282, 716566571984172222, 22661670127233071);
   (1947970606064371537, 30802628128424712, 1433133143968344444, 22661670127233071);
   (22275848463947367, 1761203876341852, 448009916704184992, 35421178376932649);
   (22275848463947367, 880601938170926, 896019833408369984, 35421178376932649);
   (22275848463947367, 440300969085463, 1814315515280687335, 35861479346018112);
   (22275848463947367, 2201504845427315, 362863103056137467, 35861479346018112);
   (407414799984032201, 20132244518436371, 362863103056137467, 17930739673009056);
   (1177692703024201869, 29097614354940899, 362863103056137467, 8965369836504528);
   (2718248509104541205, 33580299273193163, 362863103056137467, 4482684918252264);
   (543649701820908241, 33580299273193163, 362863103056137467, 22413424591261320);
   (1087299403641816482, 33580299273193163, 362863103056137467, 11206712295630660);
   (2174598807283632964, 33580299273193163, 362863103056137467, 5603356147815330);
   (289774520234271606, 22373586977562503, 362863103056137467, 28016780739076650);
   (579549040468543212, 22373586977562503, 362863103056137467, 14008390369538325);
   (942412143524680679, 18190988673550414, 1668138349636955613, 32199379043088739);
   (43337187482481149, 4182598304012089, 335691518769944593, 32398567111582824);
   (86674374964962298, 4182598304012089, 682389018629793785, 32929676771839768);
   (1029086518489642977, 24830034993944062, 855737768559718381, 20647436689931973);
   (2740562055609079739, 33062454186904004, 1711475537119436762, 20647436689931973);
   (483175303585807949, 29145410713020387, 136477803725958757, 8232419192959942);
   (1102828410897574655, 33261620309500358, 136477803725958757, 4116209596479971);
   (2194650840705244711, 33095648540670063, 272955607451917514, 4116209596479971);
   (220565682179514931, 16630810154750179, 272955607451917514, 20581047982399855);
   (493521289631432445, 18605929068575017, 545911214903835028, 20581047982399855);
   (987042579262864890, 18605929068575017, 1039432504535267473, 19593488525487436);
   (197408515852572978, 18605929068575017, 249798441124975561, 23543726353137112);
   (394817031705145956, 18605929068575017, 644615472830121517, 30377792245143573);
   (789634063410291912, 18605929068575017, 1039432504535267473, 24491860656859295);
   (1579268126820583824, 18605929068575017, 1829066567945559385, 21548894862717156);
   (481828186053248193, 28382960754723617, 365813313589111877, 21548894862717156);
   (963656372106496386, 28382960754723617, 365813313589111877, 10774447431358578);
   (2293126057802104649, 33770184470402906, 365813313589111877, 5387223715679289);
   (312299886124776179, 22995737039044328, 365813313589111877, 26936118578396445);
   (312299886124776179, 11497868519522164, 731626627178223754, 26936118578396445);
   (1775553140481223687, 32685052838157527, 1463253254356447508, 26936118578396445);
   (312299886124776179, 28744671298805410, 167730696421379030, 15438250058874281);
   (312299886124776179, 14372335649402705, 647761278967534239, 29810585708276986);
   (1272361051217086597, 29277628503541198, 647761278967534239, 14905292854138493);
   (2567883609152155075, 29544107105909092, 1295522557935068478, 14905292854138493);
   (513576721830431015, 29544107105909092, 268369114274206448, 15438250058874281);
   (513576721830431015, 14772053552954546, 1050314950378843911, 30210303611828827);
   (513576721830431015, 7386026776477273, 2100629900757687822, 30210303611828827);
   (102715344366086203, 7386026776477273, 457184390900308574, 32875089635507767);
   (205430688732172406, 7386026776477273, 970761112730739589, 34902611758947066);
   (410861377464344812, 7386026776477273, 1792483867659429213, 32223359432428079);
   (381053705903934819, 34250881555867378, 29807671560409993, 2679252326518987);
   (381053705903934819, 17125440777933689, 440669049024754805, 19804693104452676);
   (1202776460832624443, 27027787330160027, 440669049024754805, 9902346552226338);
   (2846221970690003691, 31978960606273196, 440669049024754805, 4951173276113169);
   (554742915761278705, 31164297852423586, 88133809804950961, 4951173276113169);
   (1259813394200886393, 35386842030664469, 176267619609901922, 4951173276113169);
   (2493686731470199847, 35022527481728326, 352535239219803844, 4951173276113169);
   (287216202762157663, 20169007653388819, 352535239219803844, 24755866380565845);
   (639751441981961507, 22462437016977332, 705070478439607688, 24755866380565845);
   (639751441981961507, 11231218508488666, 2049892398861176883, 35987084889054511);
   (101822673813333829, 8937789144900153, 334283420541960020, 29342725107742871);
   (639751441981961507, 28078046271221665, 436106094355293849, 19140257126321512);
   (1279502883963923014, 28078046271221665, 436106094355293849, 9570128563160756);
   (2995111862283139877, 32863110552802043, 436106094355293849, 4785064281580378);
   (337358715843451666, 18507917708060909, 436106094355293849, 23925321407901890);
   (1110823526042197181, 30470578412011854, 436106094355293849, 11962660703950945);
   (1110823526042197181, 15235289206005927, 1983035714752784879, 27197949909956872);
   (492051677883200769, 33743206914066836, 126720170275795643, 8690032201895963);
   (492051677883200769, 16871603457033418, 745492018434792055, 25561635658929381);
   (492051677883200769, 8435801728516709, 1983035714752784879, 33997437387446090);
   (193854870509283947, 16617372983654164, 298196807373916822, 25561635658929381);
   (790248485257117591, 33870322150756463, 596393614747833644, 25561635658929381);
   (1580496970514235182, 33870322150756463, 1386642100004951235, 29715978904842922);
   (3160993941028470364, 33870322150756463, 1386642100004951235, 14857989452421461);
   (665038161019558141, 35629705681989166, 277328420000990247, 14857989452421461);
   (1219695001021538635, 32672842293416044, 554656840001980494, 14857989452421461);
   (2329008681025499623, 31194410599129483, 1109313680003960988, 14857989452421461);
   (243939000204307727, 16336421146708022, 377496679391037807, 25280683821983239);
   (243939000204307727, 8168210573354011, 998932358986383341, 33448894395337250);
   (487878000408615454, 8168210573354011, 1974688359803614249, 33060868344376647);
   (190515928529615695, 15948395095747419, 297362071878999759, 24892657771022636);
   (678393928938231149, 28394723981258737, 297362071878999759, 12446328885511318);
   (1654149929755462057, 34617888424014396, 297362071878999759, 6223164442755659);
   (3438322361029460611, 35978437540274175, 594724143757999518, 6223164442755659);
   (449774814702692315, 23532108654762857, 594724143757999518, 31115822213778295);
   (899549629405384630, 23532108654762857, 1044498958460691833, 27323965434270576);
   (1799099258810769260, 23532108654762857, 1044498958460691833, 13661982717135288);
   (359819851762153852, 23532108654762857, 324859254936384129, 21245696276150726);
   (719639703524307704, 23532108654762857, 1044498958460691833, 34154956792838220);
   (1439279407048615408, 23532108654762857, 1044498958460691833, 17077478396419110);
   (78956089717584715, 6454630258343747, 412850240720014113, 33750349915345574);
   (157912179435169430, 6454630258343747, 728674599590352973, 29784435474360281);
   (1202411137895861263, 24574163124695761, 886586779025522403, 18119532866352014);
   (3291409054817244929, 33633929557871768, 886586779025522403, 9059766433176007);
   (126329743548135544, 6454630258343747, 633927291929251315, 32389571649192541);
   (1265576009669929035, 32331361470455638, 1012916522573657947, 25876731212111891);
   (1265576009669929035, 16165680735227819, 2025833045147315894, 25876731212111891);
   (253115201933985807, 16165680735227819, 507141833543401052, 32389571649192541);
   (506230403867971614, 16165680735227819, 760257035477386859, 24277626192210180);
   (1012460807735943228, 16165680735227819, 1772717843213330087, 28304493831332909);
   (353814424902322467, 28246283652596006, 101610652643766098, 8111945456982361);
   (353814424902322467, 14123141826298003, 557035730189854663, 22235087283280364);
   (1264664579994499597, 25240685467938185, 557035730189854663, 11117543641640182);
   (171644393883887041, 17128740010955824, 192695668152983811, 19229489098622543);
   (171644393883887041, 8564370005477912, 557035730189854663, 27793859104100455);
   (1285715854263596367, 32076044106839411, 1114071460379709326, 27793859104100455);
   (2399787314643305693, 29934951605469933, 2228142920759418652, 27793859104100455);
   (548615220482215955, 34217136608208889, 376970826598328914, 23511674101361499);
   (925586047080544869, 28864405354785194, 753941653196657828, 23511674101361499);
   (925586047080544869, 14432202677392597, 1507883306393315656, 23511674101361499);
   (438892176385772764, 34217136608208889, 47801694308999341, 3726740170545207);
   (877784352771545528, 34217136608208889, 486693870694772105, 18971938389377048);
   (1755568705543091056, 34217136608208889, 486693870694772105, 9485969194688524);
   (295487093458774741, 28796145120716585, 97338774138954421, 9485969194688524);
   (688312961056503903, 33539129718060847, 97338774138954421, 4742984597344262);
   (1473964696251962227, 35910622016732978, 97338774138954421, 2371492298672131);
   (2836707534197324121, 34555757099071406, 194677548277908842, 2371492298672131);
   (450534977872719519, 27441280203055013, 194677548277908842, 11857461493360655);
   (1034567622706446045, 31506832341568489, 389355096555817684, 11857461493360655);
   (2202632912373899097, 33539608410825227, 778710193111635368, 11857461493360655);
   (413827049082578418, 31506832341568489, 182441572014528475, 13890237562617393);
   (596268621097106893, 22698534952092941, 364883144029056950, 13890237562617393);
   (1192537242194213786, 22698534952092941, 961151765126163843, 18294386257355167);
   (377338734679672723, 35910981036306263, 145953257611622780, 13890237562617393);
   (523291992291295503, 24900609299461828, 291906515223245560, 13890237562617393);
   (523291992291295503, 12450304649730914, 1107105022737786623, 26340542212348307);
   (523291992291295503, 6225152324865457, 2737502037766868749, 32565694537213764);
   (523291992291295503, 31125761624327285, 233525212178596448, 13890237562617393);
   (1046583984582591006, 31125761624327285, 756817204469891951, 22507999593472339);
   (1803401189052482957, 26816880608899812, 1513634408939783902, 22507999593472339);
   (57953356022539811, 4308881015427473, 470474000534067304, 34980139689667181);
   (115906712045079622, 4308881015427473, 876147492691845981, 32571153398829746);
   (1803401189052482957, 33521100761124765, 1571587764962323713, 29212219745697292);
   (231813424090159244, 21544405077137365, 221592183356401045, 20594457714842346);
   (685219031536719533, 31841633934558538, 221592183356401045, 10297228857421173);
   (1128403398249521623, 26218045824700442, 443184366712802090, 10297228857421173);
   (1128403398249521623, 13109022912350221, 2014772131675125803, 23406251769771394);
   (596582158194159115, 34653427989487586, 177273746685120836, 10297228857421173);
   (951129651564400787, 27623942852164966, 354547493370241672, 10297228857421173);
   (951129651564400787, 13811971426082483, 1660224638304884131, 24109200283503656);
   (238632863277663646, 17326713994743793, 473863925009073495, 34406429140924829);
   (712496788286737141, 25866571567834311, 947727850018146990, 34406429140924829);
   (1424993576573474282, 25866571567834311, 1660224638304884131, 30136500354379570);
   (143860078275848947, 13056785208198534, 379091140007258796, 34406429140924829);
   (143860078275848947, 6528392604099267, 758182280014517592, 34406429140924829);
   (1189762514842064433, 26995803476611315, 902042358290366539, 20467410872512048);
   (2379525029684128866, 26995803476611315, 902042358290366539, 10233705436256024);
   (410584596899431623, 23290490644454558, 245728880695467458, 13939018268412781);
   (410584596899431623, 11645245322227279, 902042358290366539, 25584263590640060);
   (1723211552089229785, 24437377117547309, 902042358290366539, 12792131795320030);
   (344642310417845957, 24437377117547309, 212757737454674625, 15085904741505532);
   (689284620835691914, 24437377117547309, 902042358290366539, 31980329488300075);
   (1591326979126058453, 28208853302923692, 1804084716580733078, 31980329488300075);
   (399883649379880553, 35442933324079736, 42551547490934925, 3771476185376383);
   (740296029307359953, 32807371403545400, 85103094981869850, 3771476185376383);
   (1591326979126058453, 35261066628654615, 170206189963739700, 3771476185376383);
   (1761533169089798153, 19516271407015499, 2101945549017277553, 23287747592391882);
   (604131077336368193, 33466261883678984, 68082475985495880, 3771476185376383);
   (1284955837191326993, 35590511868721407, 136164951970991760, 3771476185376383);
   (1693450693104302273, 23452470212425278, 1965780597046285793, 27223946397801661);
   (495199115759574785, 34289874983845964, 54465980788396704, 3771476185376383);
   (1039858923643541825, 36002318418804897, 108931961576793408, 3771476185376383);
   (1584518731527508865, 27429849672843406, 1802382654681095681, 31201325858219789);
   (316903746305501773, 27429849672843406, 217863923153586816, 18857380926881915);
   (316903746305501773, 13714924836421703, 752631592612675405, 32572305763303618);
   (633807492611003546, 13714924836421703, 1386439085223678951, 30001077718073512);
   (1267614985222007092, 13714924836421703, 2654054070445686043, 28715463695458459);
   (483281174088468465, 26144235650228353, 301052637045070162, 16286152881651809);
   (784333811133538627, 21215194265940081, 602105274090140324, 16286152881651809);
   (1568667622267077254, 21215194265940081, 1386439085223678951, 18750673573795945);
   (386624939270774772, 26144235650228353, 204396402227376469, 13821632189507673);
   (773249878541549544, 26144235650228353, 591021341498151241, 19982933919868013);
   (1364271220039700785, 23063584785048183, 1182042682996302482, 19982933919868013);
   (272854244007940157, 23063584785048183, 363479950972482011, 30723915244195516);
   (545708488015880314, 23063584785048183, 363479950972482011, 15361957622097758);
   (1091416976031760628, 23063584785048183, 1454896927004242639, 30744563596097062);
   (2182833952063521256, 23063584785048183, 1454896927004242639, 15372281798048531);
   (195424622862919, 10324175950773, 681816814063629733, 36020009410615832);
   (727546175813552779, 19217933291548357, 727155326567826941, 19207609115597584);
   (1455092351627105558, 19217933291548357, 2182247678194932499, 28821737849347149);
   (436605875337276835, 28832062025297922, 145274725615275053, 9593480381848019);
   (436605875337276835, 14416031012648961, 727155326567826941, 24009511394496980);
   (873211750674553670, 14416031012648961, 1600367077242380611, 26420786709897451);
   (174642350134910734, 14416031012648961, 377870626298005473, 31191716460944528);
   (349284700269821468, 14416031012648961, 727155326567826941, 30011889243121225);
   (698569400539642936, 14416031012648961, 1076440026837648409, 22213960127885093);
   (3172148228456577217, 32731026582915988, 1775009427377291345, 18314995570267027);
   (687135030128369334, 35450163922710751, 355001885475458269, 18314995570267027);
   (1042136915603827603, 26882579746488889, 710003770950916538, 18314995570267027);
   (1752140686554744141, 22598787658377958, 1420007541901833076, 18314995570267027);
   (66426628930582213, 4283792088110931, 556461365804264307, 35885680705893032);
   (132853257861164426, 4283792088110931, 1087874397248922011, 35078008705390240);
   (1619287428693579715, 26106588528916982, 1353580912971250863, 21822796440806051);
   (323857485738715943, 26106588528916982, 382008455755103034, 30794216617279309);
   (323857485738715943, 13053294264458491, 764016911510206068, 30794216617279309);
   (647714971477431886, 13053294264458491, 1735589368726353897, 34977049705327391);
   (1295429942954863772, 13053294264458491, 2383304340203785783, 24015171984892941);
   (559683086323133861, 28198005072941023, 176063770308596050, 8870461176410409);
   (1119366172646267722, 28198005072941023, 735746856631729911, 18534233124675716);
   (2238732345292535444, 28198005072941023, 735746856631729911, 9267116562337858);
   (454044824137976231, 28594660458868472, 140851016246876840, 8870461176410409);
   (454044824137976231, 14297330229434236, 735746856631729911, 23167791405844645);
   (1925538537401436053, 30316456520561763, 1471493713263459822, 23167791405844645);
   (454044824137976231, 35743325573585590, 112680812997501472, 8870461176410409);
   (679406450132979175, 26742123963203204, 904768076127982119, 35612585139613613);
   (679406450132979175, 13371061981601602, 1809536152255964238, 35612585139613613);
   (135881290026595835, 13371061981601602, 314841961963410053, 30981243900450443);
   (135881290026595835, 6685530990800801, 629683923926820106, 30981243900450443);
   (271762580053191670, 6685530990800801, 1309090374059799281, 32204449427227224);
   (543525160106383340, 6685530990800801, 2396140694272565961, 29473286695215214);
   (108705032021276668, 6685530990800801, 548155149910862605, 33712406632462453);
   (217410064042553336, 6685530990800801, 1091680310017245945, 33570030793233229);
   (434820128085106672, 6685530990800801, 2178730630230012625, 33498842873618617);
   (434820128085106672, 33427654954004005, 435746126046002525, 33498842873618617);
   (869640256170213344, 33427654954004005, 870566254131109197, 33463248913811311);
   (1739280512340426688, 33427654954004005, 1740206510301322541, 33445451933907658);
   (347670902875906167, 33409857974100352, 348596900836802020, 33498842873618617);
   (347670902875906167, 16704928987050176, 697193801673604040, 33498842873618617);
   (347670902875906167, 8352464493525088, 1394387603347208080, 33498842873618617);
   (347670902875906167, 4176232246762544, 2788775206694416160, 33498842873618617);
   (347670902875906167, 20881161233812720, 557755041338883232, 33498842873618617);
   (347670902875906167, 10440580616906360, 1115510082677766464, 33498842873618617);
   (347670902875906167, 5220290308453180, 2231020165355532928, 33498842873618617);
   (347670902875906167, 26101451542265900, 168067310770381652, 12617681639805897);
   (347670902875906167, 13050725771132950, 683805524416669471, 25668407410938847);
   (347670902875906167, 6525362885566475, 1715281951709245109, 32193770296505322);
   (347670902875906167, 32626814427832375, 203988029191486555, 19143044525372372);
   (695341805751812334, 32626814427832375, 203988029191486555, 9571522262686186);
   (1390683611503624668, 32626814427832375, 203988029191486555, 4785761131343093);
   (1594671640695111223, 18706287779587734, 2002647699078084333, 23492048910930827);
   (533933888899381137, 31316544190478461, 81595211676594622, 4785761131343093);
   (1105100370635543491, 32408436054940056, 163190423353189244, 4785761131343093);
   (1431481217341921979, 20989979158813121, 1757862064048300467, 25775740290156214);
   (90467735444557303, 6632695764783842, 416848582150935791, 30561501421499307);
   (924164899746428885, 33877849303891228, 833697164301871582, 30561501421499307);
   (924164899746428885, 16938924651945614, 1667394328603743164, 30561501421499307);
   (184832979949285777, 16938924651945614, 373563468958742725, 34235034543877237);
   (184832979949285777, 8469462325972807, 747126937917485450, 34235034543877237);
   (369665959898571554, 8469462325972807, 1301625877765342781, 29821710760897829);
   (739331919797143108, 8469462325972807, 2410623757461057443, 27615048869408125);
   (405073552264360241, 23201725086428717, 334258367532782867, 19145586543435318);
   (1144405472061503349, 32774518358146376, 334258367532782867, 9572793271717659);
   (1144405472061503349, 16387259179073188, 1812922207127069083, 25960052450790847);
   (95177747399187523, 6814465907355529, 478161240267190688, 34235034543877237);
   (954049977263128303, 34153682040327441, 763694482464753257, 27339216132971912);
   (1908099954526256606, 34153682040327441, 763694482464753257, 13669608066485956);
   (380710989596750092, 34072329536777645, 76596698573600633, 6855142159130427);
   (610501085317551991, 27318878007084463, 763694482464753257, 34174020166214890);
   (1221002170635103982, 27318878007084463, 763694482464753257, 17087010083107445);
   (2442004341270207964, 27318878007084463, 1984696653099857239, 22202944045095954);
   (91461537634070145, 5115933961988509, 612773588588805064, 34275710795652135);
   (182923075268140290, 5115933961988509, 1253004352027296079, 35043624264785849);
   (2167619728367997529, 30311647037364197, 1801773577831716949, 25195713075375688);
   (73169230107256116, 5115933961988509, 484727435901106861, 33891754061085278);
   (146338460214512232, 5115933961988509, 923742816544643557, 32293678916508166);
   (292676920429024464, 5115933961988509, 1801773577831716949, 31494641344219610);
   (292676920429024464, 25579669809942545, 301819331480538497, 26378707382231101);
   (594496251909562961, 25979188596086823, 603638662961076994, 26378707382231101);
   (1188992503819125922, 25979188596086823, 1198134914870639955, 26178947989158962);
   (2377985007638251844, 25979188596086823, 1198134914870639955, 13089473994579481);
   (460969143845227916, 25180151023798267, 239626982974127991, 13089473994579481);
   (1179850092767611889, 32224286503768355, 479253965948255982, 13089473994579481);
   (2617611990612379835, 35746354243753399, 958507931896511964, 13089473994579481);
   (523522398122475967, 35746354243753399, 434985533774035997, 29701015729144006);
   (1047044796244951934, 35746354243753399, 434985533774035997, 14850507864572003);
   (1482030330018987931, 25298431054162701, 869971067548071994, 14850507864572003);
   (70829491478751976, 6045338514609393, 399570788034660009, 34103600404125311);
   (612059262470915937, 26119807973976745, 470400279513411985, 20074469459367352);
   (1224118524941831874, 26119807973976745, 470400279513411985, 10037234729683676);
   (2918637329397075733, 31138425338818583, 470400279513411985, 5018617364841838);
   (660715987732698205, 35245309937888803, 94080055902682397, 5018617364841838);
   (1321431975465396410, 35245309937888803, 94080055902682397, 2509308682420919);
   (2544472702200267571, 33933161404680375, 188160111805364794, 2509308682420919);
   (358366450995761679, 23895926674996699, 188160111805364794, 12546543412104595);
   (922846786411856061, 30767778455655242, 376320223610729588, 12546543412104595);
   (1675487233633315237, 27930432639932216, 752640447221459176, 12546543412104595);
   (34041267838079377, 2837345815723026, 412227768840665406, 34359258903292715);
   (34041267838079377, 1418672907861513, 858496805519410189, 35777931811154228);
   (1607404697957156483, 33494367892053757, 1539322162280997729, 32075694984192244);
   (3214809395914312966, 33494367892053757, 1539322162280997729, 16037847492096122);
   (362330460997126549, 18875193307819148, 588495850641935590, 30657022076330731);
   (362330460997126549, 9437596653909574, 1176991701283871180, 30657022076330731);
   (362330460997126549, 4718798326954787, 2716313863564868909, 35375820403285518);
   (362330460997126549, 23593991634773935, 470796680513548472, 30657022076330731);
   (833127141510675021, 27125506855552333, 941593361027096944, 30657022076330731);
   (1666254283021350042, 27125506855552333, 1774720502537771965, 28891264465941532);
   (246477880991132470, 20062476413995537, 354944100507554393, 28891264465941532);
   (847899862489819333, 34508108646966303, 354944100507554393, 14445632232970766);
   (1695799724979638666, 34508108646966303, 354944100507554393, 7222816116485383);
   (3470520227517410631, 35311094614696609, 709888201015108786, 7222816116485383);
   (552126405300460369, 28088278498211226, 157761795714648417, 8025802084215689);
   (552126405300460369, 14044139249105613, 867649996729757203, 22069941333321302);
   (1971902807330677941, 25079109915766264, 867649996729757203, 11034970666660651);
   (47320562774232707, 3009168582444962, 536406057310128254, 34110673256188521);
   (47320562774232707, 1504584291222481, 1120132677394489215, 35615257547411002);
   (1971902807330677941, 31348887394707830, 1877261681782212527, 29844303103485349);
   (413308786575828671, 32853471685930311, 318667661027363257, 25330550229817906);
   (826617573151657342, 32853471685930311, 318667661027363257, 12665275114908953);
   (1653235146303314684, 32853471685930311, 1145285234179020599, 22759373400419632);
   (101589982424858817, 10094098285510679, 332565374780150063, 33044080718012728);
   (203179964849717634, 10094098285510679, 535745339629867697, 26616138644517043);
   (406359929699435268, 10094098285510679, 1145285234179020599, 28449216750524540);
   (1958005093577891135, 24318706660772949, 1145285234179020599, 14224608375262270);
   (391601018715578227, 24318706660772949, 362083196747864145, 22485628554765452);
   (783202037431156454, 24318706660772949, 1145285234179020599, 35561520938155675);
   (1928487271610177053, 29940113799464312, 2290570468358041198, 35561520938155675);
   (407737845269147644, 31651019084802937, 72416639349572829, 5621407138691363);
   (914654320716157447, 35500434527821239, 144833278699145658, 5621407138691363);
   (1638820714211885737, 31803735110639027, 289666557398291316, 5621407138691363);
   (211897519883060621, 20560920833256301, 289666557398291316, 28107035693456815);
   (423795039766121242, 20560920833256301, 501564077281351937, 24333978263356558);
   (1349154156813594421, 32727909964934580, 501564077281351937, 12166989131678279);
   (2352282311376298295, 28530944114145569, 1003128154562703874, 12166989131678279);
   (470456462275259659, 28530944114145569, 532671692287444215, 32304001544245826);
   (940912924550519318, 28530944114145569, 532671692287444215, 16152000772122913);
   (1473584616837963533, 22341472443134241, 1065343384574888430, 16152000772122913);
   (408241232263075103, 30947358355056640, 213068676914977686, 16152000772122913);
   (834378586093030475, 31625679949651233, 426137353829955372, 16152000772122913);
   (1260515939922985847, 23888840360887073, 852274707659910744, 16152000772122913);
   (333751434437212190, 31625679949651233, 259261636611349277, 24567161955481666);
   (667502868874424380, 31625679949651233, 259261636611349277, 12283580977740833);
   (926764505485773657, 21954630463696033, 1445287778708472211, 34238211441436866);
   (1853529010971547314, 21954630463696033, 1445287778708472211, 17119105720718433);
   (534002295099539504, 31625679949651233, 125761062836464401, 7448056234763233);
   (1068004590199079008, 31625679949651233, 659763357936003905, 19536868092207233);
   (1727767948135082913, 25581274020929233, 1319526715872007810, 19536868092207233);
   (408241232263075103, 30222029643610000, 263905343174401562, 19536868092207233);
   (936051918611878227, 34647882914012233, 527810686348803124, 19536868092207233);
   (1463862604960681351, 27092375503109733, 1055621372697606248, 19536868092207233);
   (278765204176168874, 25796176373207767, 129476028086906229, 11981360681304733);
   (667193288436887561, 30870129208560983, 258952056173812458, 11981360681304733);
   (1334386576873775122, 30870129208560983, 926145344610700019, 21425744944932858);
   (2668773153747550244, 30870129208560983, 926145344610700019, 10712872472466429);
   (348525561827370045, 20157256736094554, 577619782783329974, 33407105626237591);
   (348525561827370045, 10078628368047277, 1155239565566659948, 33407105626237591);
   (2200816251048770083, 31821495365189711, 1503765127394029993, 21742866997142434);
   (139410224730948018, 10078628368047277, 388483329546445849, 28085308041333954);
   (278820449461896036, 10078628368047277, 946124228470237921, 34199910756761531);
   (557640898923792072, 10078628368047277, 1782585576855926029, 32217897930451681);
   (290719387320455318, 26271859451522131, 133460755801668377, 12060641194357127);
   (691101654725460449, 31226891517296756, 266921511603336754, 12060641194357127);
   (691101654725460449, 15613445758648378, 1224944677932133957, 27674086953005505);
   (691101654725460449, 7806722879324189, 3140991010589728363, 35480809832329694);
   (339344114497698956, 19166250322939629, 351757540227761493, 19867364073681316);
   (1030445769223159405, 29099932359780287, 351757540227761493, 9933682036840658);
   (2412649078674080303, 34066773378200616, 351757540227761493, 4966841018420329);
   (412178307689263762, 29099932359780287, 351757540227761493, 24834205092101645);
   (763935847917025255, 26967068725940966, 703515080455522986, 24834205092101645);
   (763935847917025255, 13483534362970483, 1407030160911045972, 24834205092101645);
   (152787169583405051, 13483534362970483, 337519973827210615, 29786284919714844);
   (305574339166810102, 13483534362970483, 643094312994020717, 28376676822827905);
   (611148678333620204, 13483534362970483, 1559817330494451023, 34413639955869677);
   (1222297356667240408, 13483534362970483, 2170966008828071227, 23948587159420080);
   (543644683568178081, 29985550292461852, 135007989530884246, 7446571229928711);
   (543644683568178081, 14992775146230926, 813660662629946573, 22439346376159637);
   (543644683568178081, 7496387573115463, 2170966008828071227, 29935733949275100);
   (326909355229835068, 22538979062533141, 216735328338343013, 14942958803044174);
   (870554038798013149, 30010458464055228, 216735328338343013, 7471479401522087);
   (1304024695474699175, 22476708633549701, 1737495352151385201, 29948188035071788);
   (260804939094939835, 22476708633549701, 172665717581746191, 14880688374060734);
   (521609878189879670, 22476708633549701, 694275595771625861, 29917052820580068);
   (1043219756379759340, 22476708633549701, 694275595771625861, 14958526410290034);
   (2086439512759518680, 22476708633549701, 2780715108531144541, 29955971838694718);
   (417287902551903736, 22476708633549701, 276987693219722125, 14919607392175384);
   (834575805103807472, 22476708633549701, 1111563498323529597, 29936512329637393);
   (1669151610207614944, 22476708633549701, 1946139303427337069, 26206610481593547);
   (505803298684782019, 34055604358827739, 55397538643944425, 3729901848043846);
   (1067004136013508463, 35920555282849662, 55397538643944425, 1864950924021923);
   (2064159831604508113, 34744835957622138, 110795077287888850, 1864950924021923);
   (424392687743753133, 35717811410488388, 22159015457577770, 1864950924021923);
   (823254965980152993, 34643464021441501, 44318030915155540, 1864950924021923);
   (1665297553368108253, 35038765788929019, 88636061830311080, 1864950924021923);
   (3349382728144018773, 35236416672672778, 177272123660622160, 1864950924021923);
   (654846448502561941, 34445813137697742, 35454424732124432, 1864950924021923);
   (1363934943145050581, 35872415809068101, 70908849464248864, 1864950924021923);
   (2711203082965778997, 35653241682742319, 141817698928497728, 1864950924021923);
   (428786457450357617, 28193437986654627, 141817698928497728, 9324754620109615);
   (570604156378855345, 18759096303382121, 854239554235850801, 28083850923491736);
   (1995447866993561491, 32801021765127989, 854239554235850801, 14041925461745868);
   (228241662551542138, 18759096303382121, 397756229132766525, 32691434701965098);
   (456483325103084276, 18759096303382121, 854239554235850801, 35104813654364670);
   (912966650206168552, 18759096303382121, 854239554235850801, 17552406827182335);
   (1767206204442019353, 18155751565282228, 3475685312913720955, 35708158392464563);
   (376932079276530971, 19362441041482014, 695137062582744191, 35708158392464563);
   (376932079276530971, 9681220520741007, 1390274125165488382, 35708158392464563);
   (1767206204442019353, 22694689456602785, 2780548250330976764, 35708158392464563);
   (504214072599016259, 32375909977343792, 254563986644970576, 16345717350982549);
   (504214072599016259, 16187954988671896, 1013342045888957411, 32533672339654445);
   (504214072599016259, 8093977494335948, 2026684091777914822, 32533672339654445);
   (401405697802843050, 32218147615033139, 102808374796173209, 8251739856646601);
   (504214072599016259, 20234943735839870, 709830822191362677, 28486683592486471);
   (504214072599016259, 10117471867919935, 1419661644382725354, 28486683592486471);
   (1008428145198032518, 10117471867919935, 2932303862179774131, 29419549598123138);
   (642249116484548880, 32218147615033139, 183089514356741819, 9184605862283268);
   (1284498232969097760, 32218147615033139, 183089514356741819, 4592302931141634);
   (2752085980294937339, 34514299080603956, 183089514356741819, 2296151465570817);
   (513799293187639104, 32218147615033139, 183089514356741819, 11480757327854085);
   (696888807544380923, 21849452471443612, 1063067836257864561, 33330209799297697);
   (696888807544380923, 10924726235721806, 2126135672515729122, 33330209799297697);
   (132283911532358914, 10368695143589527, 432320984479663095, 33886240891429976);
   (696888807544380923, 27311815589304515, 432320984479663095, 16943120445714988);
   (1826098599568424941, 35783375812162009, 432320984479663095, 8471560222857494);
   (356207252337570418, 34900355272232647, 86464196895932619, 8471560222857494);
   (712414504675140836, 34900355272232647, 86464196895932619, 4235780111428747);
   (1317663882946669169, 32275408026116938, 172928393791865238, 4235780111428747);
   (2701091033281591073, 33080824458773457, 345856787583730476, 4235780111428747);
   (332704134106079929, 20373484124487216, 345856787583730476, 21178900557143735);
   (1024417709273540881, 31365642619387343, 691713575167460952, 21178900557143735);
   (2048835418547081762, 31365642619387343, 1716131284441001833, 26272271588265539);
   (332704134106079929, 25466855155609020, 210144603245768395, 16085529526021931);
   (332704134106079929, 12733427577804510, 752993340597616719, 28818957103826441);
   (1838690815301313367, 35185670892728696, 1505986681195233438, 28818957103826441);
   (332704134106079929, 31833568944511275, 168115682596614716, 16085529526021931);
   (500819816702694645, 23959549235266603, 336231365193229432, 16085529526021931);
   (1001639633405389290, 23959549235266603, 837051181895924077, 20022539380644267);
   (1838690815301313367, 21991044307955435, 1674102363791848154, 20022539380644267);
   (400655853362155716, 23959549235266603, 236067401852690503, 14117024598710763);
   (801311706724311432, 23959549235266603, 636723255214846219, 19038286916988683);
   (1438034961939157651, 21498918076127643, 1273446510429692438, 19038286916988683);
   (386360063293510658, 28880811553544523, 221771611784045445, 16577655757849723);
   (608131675077556103, 22729233655697123, 443543223568090890, 16577655757849723);
   (1216263350155112206, 22729233655697123, 1051674898645646993, 19653444706773423);
   (342005740936701569, 31956600502468223, 177417289427236356, 16577655757849723);
   (519423030363937925, 24267128130158973, 354834578854472712, 16577655757849723);
   (1038846060727875850, 24267128130158973, 874257609218410637, 20422391944004348);
   (2951949730674162337, 34478324102161147, 874257609218410637, 10211195972002174);
   (415538424291150340, 24267128130158973, 458719184927260297, 26788851729851897);
   (831076848582300680, 24267128130158973, 874257609218410637, 25527989930005435);
   (1705334457800711317, 24897559030082204, 1748515218436821274, 25527989930005435);
   (332430739432920272, 24267128130158973, 375611500069030229, 27419282629775128);
   (664861478865840544, 24267128130158973, 375611500069030229, 13709641314887564);
   (1705334457800711317, 31121948787602755, 375611500069030229, 6854820657443782);
   (115699991518724126, 10557486815271409, 375611500069030229, 34274103287218910);
   (607011483106478481, 27694538458880864, 375611500069030229, 17137051643609455);
   (607011483106478481, 13847269229440432, 1358234483244538939, 30984320873049887);
   (607011483106478481, 6923634614720216, 2716468966489077878, 30984320873049887);
   (607011483106478481, 34618173073601080, 179086903433928487, 10213417028889239);
   (607011483106478481, 17309086536800540, 965185289974335455, 27522503565689779);
   (607011483106478481, 8654543268400270, 1930370579948670910, 27522503565689779);
   (220937367116744299, 15750212776311571, 386074115989734182, 27522503565689779);
   (607011483106478481, 21636358171000675, 772148231979468364, 27522503565689779);
   (1214022966212956962, 21636358171000675, 1379159715085946845, 24579430868345227);
   (386527137161388855, 34443498249967694, 275831943017189369, 24579430868345227);
   (386527137161388855, 17221749124983847, 551663886034378738, 24579430868345227);
   (938191023195767593, 20900589996664537, 1103327772068757476, 24579430868345227);
   (2041518795264525069, 22740010432504882, 2206655544137514952, 24579430868345227);
   (309221709729111084, 17221749124983847, 474358458602100967, 26418851304185572);
   (1092801878060323135, 30431174777076633, 474358458602100967, 13209425652092786);
   (2185603756120646270, 30431174777076633, 474358458602100967, 6604712826046393);
   (437120751224129254, 30431174777076633, 474358458602100967, 33023564130231965);
   (911479209826230221, 31727369453654299, 948716917204201934, 33023564130231965);
   (1822958419652460442, 31727369453654299, 1860196127030432155, 32375466791943132);
   (334801518028114718, 29134980100498967, 372039225406086431, 32375466791943132);
   (669603036056229436, 29134980100498967, 372039225406086431, 16187733395971566);
   (1339206072112458872, 29134980100498967, 372039225406086431, 8093866697985783);
   (3199402199142891027, 34802156795213941, 744078450812172862, 8093866697985783);
   (491064749666143633, 26708290097228158, 253013701146029229, 13761043392700757);
   (491064749666143633, 13354145048614079, 997092151958202091, 27115188441314836);
   (1979221651290489357, 26911739269271497, 997092151958202091, 13557594220657418);
   (527264859504476586, 35846451092482867, 2992530525182965, 203449172043339);
   (985122029857470231, 33487087207556867, 991107090907836161, 33690536379600206);
   (1970244059714940462, 33487087207556867, 991107090907836161, 16845268189800103);
   (423723303333145997, 36008887174729172, 2394024420146372, 203449172043339);
   (845071601278907469, 35907970727178418, 4788048840292744, 203449172043339);
   (988713066487689789, 21005722944239294, 998289164168275277, 21209172116282633);
   (988713066487689789, 10502861472119647, 2985291394824240343, 31712033588402280);
   (585566961748145483, 31101686072272263, 201573052369772153, 10706310644162986);
   (1171133923496290966, 31101686072272263, 201573052369772153, 5353155322081493);
   (2178999185345151731, 28933731341339864, 2582145290084696037, 34286886663421357);
   (355170616121121485, 23580576019258371, 403146104739544306, 26765776610407465);
   (710341232242242970, 23580576019258371, 758316720860665791, 25173176314832918);
   (1420682464484485940, 23580576019258371, 758316720860665791, 12586588157416459);
   (284136492896897188, 23580576019258371, 190043735066871415, 15771788748565553);
   (568272985793794376, 23580576019258371, 474180227963768603, 19676182383911962);
   (1136545971587588752, 23580576019258371, 1610726199551357355, 33418667211214352);
   (2273091943175177504, 23580576019258371, 1610726199551357355, 16709333605607176);
   (662365743623820149, 34356212068255975, 322145239910271471, 16709333605607176);
   (1324731487247640298, 34356212068255975, 322145239910271471, 8354666802803588);
   (2649462974495280596, 34356212068255975, 322145239910271471, 4177333401401794);
   (465463546917001825, 30178878666854181, 322145239910271471, 20886667007008970);
   (930927093834003650, 30178878666854181, 322145239910271471, 10443333503504485);
   (1897362813564818063, 30754439588683818, 644290479820542942, 10443333503504485);
   (372370837533601460, 30178878666854181, 135959821143470741, 11018894425334122);
   (880701496210673661, 35688325879521242, 135959821143470741, 5509447212667061);
   (1152621138497615143, 23353610152427682, 1424540780784556625, 28863057365094743);
   (1152621138497615143, 11676805076213841, 2849081561569113250, 28863057365094743);
   (582804826183792493, 29520968015974462, 569816312313822650, 28863057365094743);
   (582804826183792493, 14760484007987231, 1139632624627645300, 28863057365094743);
   (1165609652367584986, 14760484007987231, 1722437450811437793, 21811770686540987);
   (354878301258263433, 22469681337420706, 455853049851058120, 28863057365094743);
   (354878301258263433, 11234840668710353, 911706099702116240, 28863057365094743);
   (1266584400960379673, 20048949016902548, 1823412199404232480, 28863057365094743);
   (172537081317840185, 13655572989228511, 364682439880846496, 28863057365094743);
   (537219521198686681, 21259315177161627, 729364879761692992, 28863057365094743);
   (1266584400960379673, 25061186271128185, 1458729759523385984, 28863057365094743);
   (138029665054272148, 13655572989228511, 330175023617278459, 32664928459061301);
   (468204688671550607, 23160250724144906, 660350047234556918, 32664928459061301);
   (468204688671550607, 11580125362072453, 1320700094469113836, 32664928459061301);
   (936409377343101214, 11580125362072453, 2725314160483765657, 33702652272639330);
   (16782794309107597, 1037723813578029, 567187902542734080, 35070702911645627);
   (919626583033993617, 28431451498392118, 886060994415778423, 27393727684814089);
   (919626583033993617, 14215725749196059, 1772121988831556846, 27393727684814089);
   (197351552054084801, 15253449562774088, 327571926871739214, 25318280057658031);
   (197351552054084801, 7626724781387044, 852495405797563229, 32945004839045075);
   (197351552054084801, 3813362390693522, 1704990811595126458, 32945004839045075);
   (197351552054084801, 19066811953467610, 222587231086574411, 21504917666964509);
   (197351552054084801, 9533405976733805, 642526014227233623, 31038323643698314);
   (1431932222443572827, 34585973775316767, 1037229118335403225, 25052567798582962);
   (2863864444887145654, 34585973775316767, 1037229118335403225, 12526283899291481);
   (581960384549258559, 35140745984377544, 207445823667080645, 12526283899291481);
   (996852031883419849, 30096656891480253, 414891647334161290, 12526283899291481);
   (2241526973885903719, 33837754294677348, 829783294668322580, 12526283899291481);
   (416003725615594043, 31399648581180449, 165956658933664516, 12526283899291481);
   (913873702416587591, 34489250139527446, 331913317867329032, 12526283899291481);
   (1577700338151245655, 29770908969055204, 663826635734658064, 12526283899291481);
   (315540067630249131, 29770908969055204, 348286568104408933, 32860510527402201);
   (315540067630249131, 14885454484527602, 696573136208817866, 32860510527402201);
   (315540067630249131, 7442727242263801, 1393146272417635732, 32860510527402201);
   (631080135260498262, 7442727242263801, 2970846610568881387, 35037073369360603);
   (163126840198821637, 9619290084222203, 467953295061676625, 27594346127096802);
   (794206975459319899, 23416463147770604, 467953295061676625, 13797173063548401);
   (1730113565582673149, 25505404637433703, 935906590123353250, 13797173063548401);
   (419844339409978599, 30946811742329708, 187181318024670650, 13797173063548401);
   (794206975459319899, 29270578934713255, 374362636049341300, 13797173063548401);
   (1917294883607343799, 35331049062679229, 748725272098682600, 13797173063548401);
   (270099284990242079, 24886341614363734, 149745054419736520, 13797173063548401);
   (569589393829715119, 26240343870730268, 299490108839473040, 13797173063548401);
   (1168569611508661199, 26917344998913535, 598980217678946080, 13797173063548401);
   (1767549829187607279, 20357259031230968, 2965510264545499439, 34154432094779369);
   (569589393829715119, 32800429838412835, 239592087071578432, 13797173063548401);
   (809181480901293551, 23298801450980618, 479184174143156864, 13797173063548401);
   (1767549829187607279, 25446573789038710, 958368348286313728, 13797173063548401);
   (293835218883513385, 21151029112922526, 221511043134266781, 15944945401606493);
   (293835218883513385, 10575514556461263, 736857305152046947, 26520459958067756);
   (1324527742919073717, 23835744535495141, 736857305152046947, 13260229979033878);
   (117534087553405354, 10575514556461263, 384255042491830885, 34574606225785601);
   (235068175106810708, 10575514556461263, 736857305152046947, 33150574947584695);
   (971925480258857655, 21863044752022979, 1473714610304093894, 33150574947584695);
   (2445640090562951549, 27506809849803837, 2947429220608187788, 33150574947584695);
   (388770192103543062, 21863044752022979, 501789130045236239, 28218825488904290);
   (777540384207086124, 21863044752022979, 1279329514252322363, 35972457496475124);
   (1555080768414172248, 21863044752022979, 1279329514252322363, 17986228748237562);
   (55150250832369977, 3876816003785417, 507226002599142685, 35655719688191972);
   (110300501664739954, 3876816003785417, 948428009258102501, 33335123859237654);
   (1610231019246542225, 28298009940975078, 1389630015917062317, 24421193937189661);
   (322046203849308445, 28298009940975078, 101445200519828537, 8913929922047993);
   (322046203849308445, 14149004970487539, 524936604888965519, 23062934892535532);
   (644092407698616890, 14149004970487539, 1169029012587582409, 25680472416755305);
   (3101306235683433079, 34063743664108961, 1813121420286199299, 19914738693621422);
   (257636963079446756, 14149004970487539, 524936604888965519, 28828668615669415);
   (515273926158893512, 14149004970487539, 1297847494127305787, 35637841763566016);
   (1030547852317787024, 14149004970487539, 2328395346445092811, 31967925852270547);
   (358759212565211057, 24628094029679609, 313029427187364910, 21488836793078477);
   (671788639752575967, 23058465411379043, 626058854374729820, 21488836793078477);
   (1343577279505151934, 23058465411379043, 1297847494127305787, 22273651102228760);
   (296153327127738075, 25412908338829892, 250423541749891928, 21488836793078477);
   (296153327127738075, 12706454169414946, 797000410627521931, 34195290962493423);
   (296153327127738075, 6353227084707473, 1594000821255043862, 34195290962493423);
   (1890154148382781937, 20274259023600448, 3188001642510087724, 34195290962493423);
   (118461330851095230, 6353227084707473, 587079509020734407, 31485797186220037);
   (236922661702190460, 6353227084707473, 1179386163276210557, 31625966304878701);
   (1890154148382781937, 25342823779500560, 1416308824978401017, 18989596694793087);
   (94769064680876184, 6353227084707473, 468618178169639177, 31415712626890705);
   (189538129361752368, 6353227084707473, 942463501574020097, 31590924025214035);
   (1890154148382781937, 31678529724375700, 1511077889659277201, 25325302639668227);
   (379076258723504736, 31766135423537365, 226400326187154493, 18972075554960754);
   (758152517447009472, 31766135423537365, 226400326187154493, 9486037777480377);
   (1437353496008472951, 30112124377989248, 452800652374308986, 9486037777480377);
   (1437353496008472951, 15056062188994624, 2342954800757090923, 24542099966475001);
   (393821137453665586, 20626086600508871, 649711221101141779, 34028137743955378);
   (787642274907331172, 20626086600508871, 649711221101141779, 17014068871977689);
   (2736775938210756509, 35834146608220969, 1299422442202283558, 17014068871977689);
   (370229331485408226, 24238104329040053, 232298277679218833, 15208060007712098);
   (972756940650035285, 31842134332896102, 232298277679218833, 7604030003856049);
   (1901950051366910617, 31129127174160149, 464596555358437666, 7604030003856049);
   (194551388130007057, 15921067166448051, 270045167228430609, 22099082852832194);
   (389102776260014114, 15921067166448051, 659147943488444723, 26970608592864148);
   (1437353496008472951, 29406371462880125, 659147943488444723, 13485304296432074);
   (2874706992016945902, 29406371462880125, 659147943488444723, 6742652148216037);
   (47623043612633402, 2435762870015977, 659147943488444723, 33713260741080185);
   (706770987101078125, 18074511805548081, 1318295886976889446, 33713260741080185);
   (1413541974202156250, 18074511805548081, 2025066874077967571, 25893886273314133);
   (282708394840431250, 18074511805548081, 328816505035380071, 21022360533282179);
   (565416789680862500, 18074511805548081, 611524899875811321, 19548436169415130);
   (1130833579361725000, 18074511805548081, 1742358479237536321, 27848729890255646);
   (226166715872345000, 18074511805548081, 385358184003466321, 30796578617989744);
   (452333431744690000, 18074511805548081, 837691615748156321, 33472801114542953);
   (904666863489380000, 18074511805548081, 1290025047492846321, 25773656460045517);
   (180933372697876000, 18074511805548081, 204424811305590321, 20421211466939099);
   (361866745395752000, 18074511805548081, 385358184003466321, 19247861636243590);
   (723733490791504000, 18074511805548081, 1109091674794970321, 27698442623669876);
   (1447466981583008000, 18074511805548081, 2556558656377978321, 31923733117383019);
   (289493396316601600, 18074511805548081, 530104882161767121, 33097082948078528);
   (578986792633203200, 18074511805548081, 1109091674794970321, 34623053279587345);
   (1157973585266406400, 18074511805548081, 1688078467428173521, 26348782542567713);
   (231594717053281280, 18074511805548081, 298510165108485841, 23296841879550079);
   (463189434106562560, 18074511805548081, 530104882161767121, 20685676842549080);
   (926378868213125120, 18074511805548081, 1456483750374892241, 28417350226822621);
   (185275773642625024, 18074511805548081, 344829108519142097, 33639680300824619);
   (370551547285250048, 18074511805548081, 530104882161767121, 25857096053186350);
   (741103094570500096, 18074511805548081, 1271207976732267217, 31003059832141256);
   (1482206189141000192, 18074511805548081, 2753414165873267409, 33576041721618709);
   (42199642481746595, 2572981889477453, 553814054542575102, 33766957459236439);
   (84399284963493190, 2572981889477453, 1102409406805280837, 33607861011221664);
   (1440006546659253597, 21949894284565738, 1271207976732267217, 19376912395088285);
   (33759713985397276, 2572981889477453, 460974841082732593, 35132996627982553);
   (67519427970794552, 2572981889477453, 899851122892897181, 34290880595594721);
   (1507525974630048149, 28723858800445899, 1372487118688459045, 26150876910968446);
   (135038855941589104, 12864909447387265, 274497423737691809, 26150876910968446);
   (544575135620870017, 25940347902871488, 274497423737691809, 13075438455484223);
   (1093569983096253635, 26045612406919967, 548994847475383618, 13075438455484223);
   (2740554525522404489, 32635963886686318, 1097989694950767236, 13075438455484223);
   (437427993238501454, 26045612406919967, 330280850856132891, 19665789935250574);
   (1205136837333135799, 35878507374545254, 330280850856132891, 9832894967625287);
   (1865698539045401581, 27772148654897914, 660561701712265782, 9832894967625287);
   (474983195966032558, 35352184854302859, 23197313218279153, 1726536247977947);
   (590969762057428323, 21992433047096297, 637364388493986629, 23718969295074244);
   (1819303912608843275, 33851917694633419, 637364388493986629, 11859484647537122);
   (363860782521768655, 33851917694633419, 273503605972217974, 25445505543052191);
   (727721565043537310, 33851917694633419, 637364388493986629, 29648711618842805);
   (1365085953537523939, 31750314656738112, 1274728776987973258, 29648711618842805);
   (1365085953537523939, 15875157328369056, 2549457553975946516, 29648711618842805);
   (582177252034829848, 33851917694633419, 200731449467864243, 11671951252578442);
   (1164354504069659696, 33851917694633419, 200731449467864243, 5835975626289221);
   (1365085953537523939, 19843946660461320, 1766548852473252425, 25679922286750541);
   (305156642053572484, 22179966442054977, 353309770494650485, 25679922286750541);
   (658466412548222969, 23929944364402759, 706619540989300970, 25679922286750541);
   (1365085953537523939, 24804933325576650, 1413239081978601940, 25679922286750541);
   (234494687954642387, 21304977480881086, 282647816395720388, 25679922286750541);
   (234494687954642387, 10652488740440543, 565295632791440776, 25679922286750541);
   (799790320746083163, 18166205513595542, 1130591265582881552, 25679922286750541);
   (799790320746083163, 9083102756797771, 3060972851911846267, 34763025043548312);
   (27637686214497277, 1569385983642772, 633964203459099501, 35999197882132223);
   (27637686214497277, 784692991821386, 1267928406918199002, 35999197882132223);
   (27637686214497277, 392346495910693, 2535856813836398004, 35999197882132223);
   (27637686214497277, 1961732479553465, 496116288281480690, 35214504890310837);
   (634304719353967075, 22511583644039081, 579029346924972521, 20549851164485616);
   (1268609438707934150, 22511583644039081, 1847638785632906671, 32786509226281889);
   (253721887741586830, 22511583644039081, 325307459183385691, 28863044267174959);
   (507443775483173660, 22511583644039081, 579029346924972521, 25687313955607020);
   (1014887550966347320, 22511583644039081, 1593916897891319841, 35355240621842591);
   (2608804448857667161, 28933412132940836, 3187833795782639682, 35355240621842591);
   (405955020386538928, 22511583644039081, 579029346924972521, 32109142444508775);
   (811910040773077856, 22511583644039081, 984984367311511449, 27310363044273928);
   (1623820081546155712, 22511583644039081, 984984367311511449, 13655181522136964);
   (452531159156159995, 31367985765941198, 266226604077675727, 18453960922371811);
   (452531159156159995, 15683992882970599, 984984367311511449, 34137953805342410);
   (1890046685623831439, 32752969785641804, 984984367311511449, 17068976902671205);
   (181012463662463998, 15683992882970599, 260934512661655457, 22608912981473629);
   (362024927324927996, 15683992882970599, 803971903649047451, 34830445815192713);
   (724049854649855992, 15683992882970599, 1165996830973975447, 25257219349081656);
   (2614096540273687431, 28312602557511427, 1165996830973975447, 12628609674540828);
   (635660459385032101, 34423368974370969, 176778790529647782, 9573226466111057);
   (812439249914679883, 21998297720241013, 1165996830973975447, 31571524186352070);
   (1624878499829359766, 21998297720241013, 1165996830973975447, 15785762093176035);
   (416752033736948817, 28210833347305991, 374622398618513315, 25358988559287092);
   (833504067473897634, 28210833347305991, 374622398618513315, 12679494279643546);
   (2041630533566308583, 34550580487127764, 374622398618513315, 6339747139821773);
   (393291979644849997, 33278465359559814, 74924479723702663, 6339747139821773);
   (842838857987065975, 35658474099245226, 149848959447405326, 6339747139821773);
   (1442234695776687279, 30508731329266159, 299697918894810652, 6339747139821773);
   (2940724290250740539, 31103733514187512, 599395837789621304, 6339747139821773);
   (468265690492223847, 24763986374365739, 599395837789621304, 31698735699108865);
   (936531380984447694, 24763986374365739, 1067661528281845151, 28231361036737302);
   (1873062761968895388, 24763986374365739, 1067661528281845151, 14115680518368651);
   (535692799131189125, 35412292230362827, 265984364575328013, 17583055180740214);
   (1071385598262378250, 35412292230362827, 265984364575328013, 8791527590370107);
   (1337369962837706263, 22101909910366467, 1869338691988362289, 30893437500736574);
   (428554239304951300, 35412292230362827, 51707244922852363, 4272672860743854);
   (857108478609902600, 35412292230362827, 51707244922852363, 2136336430371927);
   (908815723532754963, 18774314330367377, 1012230213378459689, 20910650760739304);
   (1817631447065509926, 18774314330367377, 2829861660443969615, 29229639710737029);
   (685686782887922080, 35412292230362827, 565972332088793923, 29229639710737029);
   (1251659114976716003, 32320965970549928, 1131944664177587846, 29229639710737029);
   (1251659114976716003, 16160482985274964, 2263889328355175692, 29229639710737029);
   (548549426310337664, 35412292230362827, 154560262356040675, 9977830465649166);
   (1097098852620675328, 35412292230362827, 154560262356040675, 4988915232824583);
   (1251659114976716003, 20200603731593705, 1560779639688797353, 25189518964418288);
   (386121645782888223, 31158205398424363, 61824104942416270, 4988915232824583);
   (818890380379802113, 33040306014098222, 123648209884832540, 4988915232824583);
   (1313483219919132273, 26497983472698277, 1560779639688797353, 31486898705522860);
   (2626966439838264546, 26497983472698277, 1560779639688797353, 15743449352761430);
   (670512528518003065, 33817009668385903, 98918567907866032, 4988915232824583);
   (1165105368057333225, 29380792916254409, 1362942503873065289, 34369708149078992);
   (2330210736114666450, 29380792916254409, 1362942503873065289, 17184854074539496);
   (466042147222933290, 29380792916254409, 430858209427198709, 27162684540188662);
   (932084294445866580, 29380792916254409, 430858209427198709, 13581342270094331);
   (1864168588891733160, 29380792916254409, 1362942503873065289, 21481067593174370);
   (372833717778346632, 29380792916254409, 244441350538025393, 19262959217108623);
   (745667435556693264, 29380792916254409, 617275068316372025, 24321876066681516);
   (1491334871113386528, 29380792916254409, 617275068316372025, 12160938033340758);
   (256784734480642478, 25294584247864465, 123455013663274405, 12160938033340758);
   (637024482624559361, 31375053264534844, 123455013663274405, 6080469016670379);
   (1377754564604205791, 33928933682278559, 246910027326548810, 6080469016670379);
   (2612304701236949841, 32165639382815227, 493820054653097620, 6080469016670379);
   (538260471693939837, 33138347563998176, 98764010930619524, 6080469016670379);
   (1130844537277656981, 34810580832010225, 197528021861239048, 6080469016670379);
   (2118484646583852221, 32606462957681060, 395056043722478096, 6080469016670379);
   (344685720572274825, 26525993941010681, 395056043722478096, 30402345083351895);
   (739741764294752921, 28464169512181288, 790112087444956192, 30402345083351895);
   (739741764294752921, 14232084756090644, 1580224174889912384, 30402345083351895);
   (275748576457819860, 26525993941010681, 188244611379113201, 18108435898431858);
   (739741764294752921, 35580211890226610, 188244611379113201, 9054217949215929);
   (739741764294752921, 17790105945113305, 1116230987052979323, 26844323894329234);
   (1479483528589505842, 17790105945113305, 2595714515642485165, 31212267892277922);
   (441197722332511776, 26525993941010681, 519142903128497033, 31212267892277922);
   (882395444665023552, 26525993941010681, 519142903128497033, 15606133946138961);
   (1401538347793520585, 21066063943574821, 1038285806256994066, 15606133946138961);
   (280307669558704117, 21066063943574821, 477670467139585832, 35898541843545163);
   (560615339117408234, 21066063943574821, 757978136698289949, 28482302893559992);
   (1879208814933106417, 35307215390354817, 757978136698289949, 14241151446779996);
   (363252541536526519, 34124562483974125, 78945119032352686, 7416238949985171);
   (600087898633584577, 28186639666964819, 757978136698289949, 35602878616949990);
   (1200175797267169154, 28186639666964819, 757978136698289949, 17801439308474995);
   (1958153933965459103, 22994039487719907, 1515956273396579898, 17801439308474995);
   (88439532113775841, 5192600179244912, 543121420145045647, 31888594570680943);
   (88439532113775841, 2596300089622456, 1174682372403867135, 34484894660303399);
   (88439532113775841, 1298150044811228, 2437804276921510111, 35783044705114627);
   (88439532113775841, 6490750224056140, 469872948961546854, 34484894660303399);
   (88439532113775841, 3245375112028070, 939745897923093708, 34484894660303399);
   (88439532113775841, 1622687556014035, 1879491795846187416, 34484894660303399);
   (88439532113775841, 8113437780070175, 358210452746482315, 32862207104289364);
   (176879064227551682, 8113437780070175, 711968581201585679, 32657979112285032);
   (1419484838111792407, 32555865116282866, 1065726709656689043, 24442427336212691);
   (1419484838111792407, 16277932558141433, 2131453419313378086, 24442427336212691);
   (425400219004399827, 24391370338211608, 568684400102992753, 32606922114283949);
   (425400219004399827, 12195685169105804, 1137368800205985506, 32606922114283949);
   (425400219004399827, 6097842584552902, 2274737600411971012, 32606922114283949);
   (425400219004399827, 30489212922764510, 369867476281514237, 26509079529731047);
   (425400219004399827, 15244606461382255, 739734952563028474, 26509079529731047);
   (850800438008799654, 15244606461382255, 1165135171567428301, 20876842995556651);
   (44426194178308472, 3980133393033463, 358760927736937119, 32141316063905443);
   (403187121915245591, 18060724728469453, 717521855473874238, 32141316063905443);
   (806374243830491182, 18060724728469453, 1120708977389119829, 25101020396187448);
   (1612748487660982364, 18060724728469453, 2733457465050102193, 30611234926563177);
   (98407902054372507, 5510214530375729, 628669467117257294, 35201478338589975);
   (196815804108745014, 5510214530375729, 1120708977389119829, 31376275495234310);
   (1514340585606609857, 21198352277992884, 1120708977389119829, 15688137747617155);
   (381594438764819977, 26708566808368613, 369557269312149926, 25866060964858581);
   (763188877529639954, 26708566808368613, 751151708076969903, 26287313886613597);
   (1514340585606609857, 26497940347491105, 1502303416153939806, 26287313886613597);
   (310090418792924002, 27129819730123629, 298053249340253951, 26076687425736089);
   (608143668133177953, 26603253577929859, 596106498680507902, 26076687425736089);
   (1216287336266355906, 26603253577929859, 1204250166813685855, 26339970501832974);
   (2432574672532711812, 26603253577929859, 1204250166813685855, 13169985250916487);
   (505774405630814444, 27656385882317399, 240850033362737171, 13169985250916487);
   (1228324505719025957, 33583170817533430, 481700066725474342, 13169985250916487);
   (2191724639169974641, 29961570659683202, 963400133450948684, 13169985250916487);
   (298649775597420646, 20413185566616943, 332375178926764019, 22718370343982746);
   (929674730121605311, 31772370738608316, 332375178926764019, 11359185171991373);
   (929674730121605311, 15886185369304158, 1594425087975133349, 27245370541295531);
   (344889569385167426, 29467185961242513, 79965197117090153, 6832184974678588);
   (769744335887425005, 32883278448581807, 79965197117090153, 3416092487339294);
   (1619453868891940163, 34591324692251454, 79965197117090153, 1708046243669647);
   (1939314657360300775, 20711754833465021, 2099245051594481081, 22419801077134668);
   (387862931472060155, 20711754833465021, 547793325706240461, 29251986051813256);
   (775725862944120310, 20711754833465021, 1323519188650360771, 35337747859371649);
   (1551451725888240620, 20711754833465021, 2099245051594481081, 28024751346418335);
   (310290345177648124, 20711754833465021, 237502980528592337, 15853227731301549);
   (620580690355296248, 20711754833465021, 547793325706240461, 18282491282383285);
   (1241161380710592496, 20711754833465021, 1168374016061536709, 19497123057924153);
   (277347222001740814, 23141018384546757, 204559857352685027, 17067859506842417);
   (554694444003481628, 23141018384546757, 481907079354425841, 20104438945694587);
   (1036601523357907469, 21622728665120672, 963814158708851682, 20104438945694587);
   (2964229840775610833, 30915803278254923, 1927628317417703364, 20104438945694587);
   (680190805733989111, 35470672436533178, 178205358811959179, 9293074613134251);
   (1036601523357907469, 27028410831400840, 356410717623918358, 9293074613134251);
   (1749422958605744185, 22807280028834671, 2462244393853580901, 32100354641968922);
   (349884591721148837, 22807280028834671, 362936843526687879, 23658093036836584);
   (699769183442297674, 22807280028834671, 1062706026968985553, 34636326547252963);
   (1399538366884595348, 22807280028834671, 1762475210411283227, 28721803288043817);
   (134732935966243918, 10978233510416379, 362936843526687879, 29572616296045730);
   (269465871932487836, 10978233510416379, 632402715459175715, 25764541658439244);
   (1171334459324151387, 23860504339636001, 632402715459175715, 12882270829219622);
   (2975071634107478489, 30301639754245812, 632402715459175715, 6441135414609811);
   (698421858454445915, 35567761308252462, 126480543091835143, 6441135414609811);
   (1204344030821786487, 30666151483345853, 252961086183670286, 6441135414609811);
   (2469149461740137917, 31435914278197454, 505922172367340572, 6441135414609811);
   (392645457874559469, 24994778863587643, 505922172367340572, 32205677073049055);
   (898567630241900041, 28600227968318349, 1011844344734681144, 32205677073049055);
   (1910411974976581185, 30402952520683702, 2023688689469362288, 32205677073049055);
   (382082394995316237, 30402952520683702, 113276714492781103, 9013622761826765);
   (382082394995316237, 15201476260341851, 608635823980878443, 24215099022168616);
   (764164789990632474, 15201476260341851, 1372800613971510917, 27309025771426159);
   (183938751200077301, 18295403009599394, 212348536390400571, 21121172272911073);
   (183938751200077301, 9147701504799697, 608635823980878443, 30268873777710770);
   (367877502400154602, 9147701504799697, 1344390828781187647, 33429839898454779);
   (1712268331181342249, 21288770701627238, 2688781657562375294, 33429839898454779);
   (540452339524102595, 33597438327170944, 195302665276206609, 12141069196827541);
   (931057670076515813, 28939788360413013, 390605330552413218, 12141069196827541);
   (2102873661733755467, 32681497975447818, 781210661104826436, 12141069196827541);
   (108090467904820519, 8399359581792736, 456939257390364879, 35507267238759497);
   (108090467904820519, 4199679790896368, 913878514780729758, 35507267238759497);
   (108090467904820519, 2099839895448184, 1827757029561459516, 35507267238759497);
   (108090467904820519, 10499199477240920, 279079031588435488, 27107907656966761);
   (108090467904820519, 5249599738620460, 666248531081691495, 32357507395587221);
   (108090467904820519, 2624799869310230, 1440587530068203509, 34982307264897451);
   (108090467904820519, 1312399934655115, 2881175060136407018, 34982307264897451);
   (108090467904820519, 6561999673275575, 532998824865353196, 32357507395587221);
   (216180935809641038, 6561999673275575, 1073451164389455791, 32583752880982548);
   (1505813036008737867, 22853876113766849, 1073451164389455791, 16291876440491274);
   (432361871619282076, 32809998366377875, 128217858554034743, 9729876767215699);
   (817015447281386305, 30999814334012486, 256435717108069486, 9729876767215699);
   (817015447281386305, 15499907167006243, 1329886881497525277, 25229783934221942);
   (163403089456277261, 15499907167006243, 349468344759861711, 33149476669072252);
   (326806178912554522, 15499907167006243, 676274523672416233, 32074645501542369);
   (653612357825109044, 15499907167006243, 1003080702584970755, 23787276334274306);
   (1307224715650218088, 15499907167006243, 2310305418235188843, 27393545334143396);
   (504760153582241484, 29924983166482603, 200616140516994151, 11893638167137153);
   (1106608575133223937, 32802948833947031, 401232281033988302, 11893638167137153);
   (2213217150266447874, 32802948833947031, 1507840856167212239, 22348293500542092);
   (141075258819847127, 10454655333404939, 379238785608435223, 28104224835470948);
   (282150517639694254, 10454655333404939, 943539820887823731, 34961423084545352);
   (564301035279388508, 10454655333404939, 1507840856167212239, 27935366875677615);
   (37012449934190657, 3428599124537202, 379238785608435223, 35130281044338685);
   (37012449934190657, 1714299562268601, 758477571216870446, 35130281044338685);
   (1017564720756205045, 23565188990109446, 943539820887823731, 21850889427840845);
   (1017564720756205045, 11782594495054723, 2904644362531852507, 33633483922895568);
   (203512944151241009, 11782594495054723, 462489032716960399, 26776285673821164);
   (407025888302482018, 11782594495054723, 869514921019442417, 25170737331965305);
   (814051776604964036, 11782594495054723, 2090592585926888471, 30259260408564737);
   (303435452876194262, 21959640648253587, 255308161864384887, 18476665913510014);
   (862179067616773411, 31197973605008594, 255308161864384887, 9238332956755007);
   (1372795391345543185, 24837319759259304, 1883411715074312959, 34075652716014311);
   (274559078269108637, 24837319759259304, 236057245459661137, 21354345024515731);
   (274559078269108637, 12418659879629652, 746673569188430911, 33773004904145383);
   (274559078269108637, 6209329939814826, 1493347138376861822, 33773004904145383);
   (274559078269108637, 3104664969907413, 2986694276753723644, 33773004904145383);
   (274559078269108637, 15523324849537065, 487515224043101274, 27563674964330557);
   (549118156538217274, 15523324849537065, 762074302312209911, 21543499906933811);
   (1098236313076434548, 15523324849537065, 2409428771926861733, 34056737227772503);
   (311520837766178237, 22016387112979011, 262238491770085437, 18533412378235438);
   (885280167302441911, 31283093302096730, 262238491770085437, 9266706189117719);
   (1934234134382783659, 34174959029283803, 524476983540170874, 9266706189117719);
   (281951430168522557, 24908252840166084, 242525553371648317, 21425278105422511);
   (281951430168522557, 12454126420083042, 767002536911819191, 33879404525505553);
   (281951430168522557, 6227063210041521, 1534005073823638382, 33879404525505553);
   (563902860337045114, 6227063210041521, 2943762224666251167, 32507360287856579);
   (563902860337045114, 31135316050207605, 250410728731023165, 13826170657732016);
   (1127805720674090228, 31135316050207605, 250410728731023165, 6913085328866008);
   (2506022170079203621, 34591858714640609, 250410728731023165, 3456542664433004);
   (502736340231018301, 34697586995882885, 50082145746204633, 3456542664433004);
   (1005472680462036602, 34697586995882885, 50082145746204633, 1728271332216502);
   (2061027506670277837, 35561722661991136, 50082145746204633, 864135666108251);
   (372139784737091861, 32105179997558132, 50082145746204633, 4320678330541255);
   (772796950706728925, 33335303320944086, 100164291492409266, 4320678330541255);
   (1574111282646003053, 33950364982637063, 200328582984818532, 4320678330541255);
   (2575754197570095713, 27776878317671669, 2976411363539732777, 32097556648212924);
   (354887973126164317, 19135521656589159, 400657165969637064, 21603391652706275);
   (709775946252328634, 19135521656589159, 755545139095801381, 20369456654647717);
   (1465321085348130015, 19752489155618438, 1511090278191602762, 20369456654647717);
   (293064217069626003, 19752489155618438, 338833409913098750, 22837326650764833);
   (293064217069626003, 9876244577809219, 970731036895823503, 32713571228574052);
   (586128434139252006, 9876244577809219, 1556859471035075509, 26233030192096245);
   (157530853104386503, 13271948119140631, 271066727930479000, 22837326650764833);
   (743659287243638509, 31326585504093363, 428597581034865503, 18054637384952732);
   (1487318574487277018, 31326585504093363, 428597581034865503, 9027318692476366);
   (3403234730009419539, 35840244850331546, 428597581034865503, 4513659346238183);
   (423488397380964606, 22299266811616997, 428597581034865503, 22568296731190915);
   (852085978415830109, 22433781771403956, 857195162069731006, 22568296731190915);
   (852085978415830109, 11216890885701978, 2566476302555292121, 33785187616892893);
   (168373522221605663, 11082375925915019, 515338933972618783, 33919702576679852);
   (852085978415830109, 28042227214254945, 515338933972618783, 16959851288339926);
   (1704171956831660218, 28042227214254945, 515338933972618783, 8479925644169963);
   (237766604571808287, 19562301570084982, 277572329400810496, 22837326650764833);
   (237766604571808287, 9781150785042491, 792911263373429279, 32618477435807324);
   (475533209143616574, 9781150785042491, 1743977681660662427, 35871540287988644);
   (2695044099947895575, 27716920929036813, 1743977681660662427, 17935770143994322);
   (539008819989579115, 27716920929036813, 665960041681504197, 34245008861897984);
   (1078017639979158230, 27716920929036813, 665960041681504197, 17122504430948992);
   (2156035279958316460, 27716920929036813, 665960041681504197, 8561252215474496);
   (431207055991663292, 27716920929036813, 234752985689840905, 15089340148335667);
   (862414111983326584, 27716920929036813, 665960041681504197, 21403130538686240);
   (1724828223966653168, 27716920929036813, 665960041681504197, 10701565269343120);
   (290355264577758749, 23329146050044266, 187802388551872724, 15089340148335667);
   (290355264577758749, 11664573025022133, 665960041681504197, 26753913173357800);
   (1246670570837021695, 25041529611701033, 665960041681504197, 13376956586678900);
   (3159301183355547587, 31730007905040483, 665960041681504197, 6688478293339450);
   (498668228334808678, 25041529611701033, 665960041681504197, 33442391466697250);
   (997336456669617356, 25041529611701033, 665960041681504197, 16721195733348625);
   (1994672913339234712, 25041529611701033, 1663296498351121553, 20881362672524829);
   (531485148663092206, 33361863490053441, 200108733674979047, 12561028794172421);
   (731593882338071253, 22961446142112931, 1131811349688029347, 35522474936285352);
   (1463187764676142506, 22961446142112931, 1131811349688029347, 17761237468142676);
   (358912835932851133, 28161654816083186, 386449256877589107, 30322266262315097);
   (358912835932851133, 14080827408041593, 772898513755178214, 30322266262315097);
   (717825671865702266, 14080827408041593, 1131811349688029347, 22201546835178345);
   (60767998808675037, 5960107980904841, 353217679013652044, 34643489154778919);
   (657057673057027229, 32222014529651562, 535521675439677155, 26261906548746721);
   (657057673057027229, 16111007264825781, 1071043350879354310, 26261906548746721);
   (1314115346114054458, 16111007264825781, 1728101023936381539, 21186456906786251);
   (442849002881156367, 27146564887691092, 428417340351741724, 26261906548746721);
   (442849002881156367, 13573282443845546, 856834680703483448, 26261906548746721);
   (442849002881156367, 6786641221922773, 2156518364288123263, 33048547770669494);
   (442849002881156367, 33933206109613865, 77024470552699559, 5901982882978402);
   (885698005762312734, 33933206109613865, 77024470552699559, 2950991441489201);
   (962722476315012293, 18442098775551533, 1116771417420411411, 21393090217040734);
   (161734707041922635, 15491107334062332, 315783648147321753, 30246064541508337);
   (161734707041922635, 7745553667031166, 631567296294643506, 30246064541508337);
   (161734707041922635, 3872776833515583, 1424869299631209647, 34118841375023920);
   (323469414083845270, 3872776833515583, 2718746955966590727, 32550528021574292);
   (0, 0, 0, 0);
   (0, 0, 0, 0);
   (0, 0, 0, 0);
   (0, 0, 0, 0);
   (0, 0, 0, 0);
   (0, 0, 0, 0);
   (0, 0, 0, 0);
   (0, 0, 0, 0);
   (0, 0, 0, 0);
   (0, 0, 0, 0);
   (0, 0, 0, 0);
   (0, 0, 0, 0);
   (0, 0, 0, 0);
   (0, 0, 0, 0);
   (0, 0, 0, 0);
   (0, 0, 0, 0);
   (0, 0, 0, 0);
   (0, 0, 0, 0);
   (0, 0, 0, 0);
   (0, 0, 0, 0);
   (0, 0, 0, 0);
   (0, 0, 0, 0);
   (0, 0, 0, 0);
   (0, 0, 0, 0);
   (0, 0, 0, 0);
   (0, 0, 0, 0);
   (0, 0, 0, 0);
   (0, 0, 0, 0);
   (0, 0, 0, 0);
   (0, 0, 0, 0);
   (0, 0, 0, 0);
   (0, 0, 0, 0);
   (0, 0, 0, 0);
   (0, 0, 0, 0);
   (0, 0, 0, 0);
   (0, 0, 0, 0);
   (0, 0, 0, 0);
   (0, 0, 0, 0);
   (0, 0, 0, 0);
   (0, 0, 0, 0);
   (0, 0, 0, 0);
   (0, 0, 0, 0);
   (0, 0, 0, 0);
   (0, 0, 0, 0);
   (0, 0, 0, 0);
   (0, 0, 0, 0);
   (0, 0, 0, 0);
   (0, 0, 0, 0);
   (0, 0, 0, 0);
   (0, 0, 0, 0);
   (0, 0, 0, 0);
   (0, 0, 0, 0);
   (0, 0, 0, 0);
   (0, 0, 0, 0);
   (0, 0, 0, 0);
   (0, 0, 0, 0);
   (0, 0, 0, 0);
   (0, 0, 0, 0);
   (0, 0, 0, 0);
   (0, 0, 0, 0);
   (0, 0, 0, 0);
   (0, 0, 0, 0);
   (0, 0, 0, 0);
   (0, 0, 0, 0);
   (0, 0, 0, 0);
   (0, 0, 0, 0);
   (0, 0, 0, 0);
   (0, 0, 0, 0);
   (0, 0, 0, 0);
   (0, 0, 0, 0);
   (0, 0, 0, 0);
   (0, 0, 0, 0);
   (0, 0, 0, 0);
   (0, 0, 0, 0);
   (0, 0, 0, 0);
   (0, 0, 0, 0);
   (0, 0, 0, 0);
   (0, 0, 0, 0);
   (0, 0, 0, 0);
   (0, 0, 0, 0);
   (0, 0, 0, 0);
   (0, 0, 0, 0);
   (0, 0, 0, 0);
   (0, 0, 0, 0);
   (0, 0, 0, 0);
   (0, 0, 0, 0);
   (0, 0, 0, 0);
   (0, 0, 0, 0);
   (0, 0, 0, 0);
   (0, 0, 0, 0);
   (0, 0, 0, 0);
   (0, 0, 0, 0);
   (0, 0, 0, 0);
   (0, 0, 0, 0);
   (0, 0, 0, 0);
   (0, 0, 0, 0);
   (0, 0, 0, 0);
   (0, 0, 0, 0);
   (0, 0, 0, 0);
   (0, 0, 0, 0);
   (0, 0, 0, 0);
   (0, 0, 0, 0);
   (0, 0, 0, 0);
   (0, 0, 0, 0);
   (0, 0, 0, 0);
   (0, 0, 0, 0);
   (0, 0, 0, 0);
   (0, 0, 0, 0);
   (0, 0, 0, 0);
   (0, 0, 0, 0);
   (0, 0, 0, 0);
   (0, 0, 0, 0);
   (0, 0, 0, 0);
   (0, 0, 0, 0);
   (0, 0, 0, 0);
   (0, 0, 0, 0);
   (0, 0, 0, 0);
   (0, 0, 0, 0);
   (0, 0, 0, 0);
   (0, 0, 0, 0);
   (0, 0, 0, 0);
   (0, 0, 0, 0);
   (0, 0, 0, 0);
   (0, 0, 0, 0);
   (0, 0, 0, 0);
   (0, 0, 0, 0);
   (0, 0, 0, 0);
   (0, 0, 0, 0);
   (0, 0, 0, 0);
   (0, 0, 0, 0);
   (0, 0, 0, 0);
   (0, 0, 0, 0);
   (0, 0, 0, 0);
   (0, 0, 0, 0);
   (0, 0, 0, 0);
   (0, 0, 0, 0);
   (0, 0, 0, 0);
   (0, 0, 0, 0);
   (0, 0, 0, 0);
   (0, 0, 0, 0);
   (0, 0, 0, 0);
   (0, 0, 0, 0);
   (0, 0, 0, 0);
   (0, 0, 0, 0);
   (0, 0, 0, 0);
   (0, 0, 0, 0);
   (0, 0, 0, 0);
   (0, 0, 0, 0);
   (0, 0, 0, 0);
   (0, 0, 0, 0);
   (0, 0, 0, 0);
   (0, 0, 0, 0);
   (0, 0, 0, 0);
   (0, 0, 0, 0);
   (0, 0, 0, 0);
   (0, 0, 0, 0);
   (0, 0, 0, 0);
   (0, 0, 0, 0);
   (0, 0, 0, 0);
   (0, 0, 0, 0);
   (0, 0, 0, 0);
   (0, 0, 0, 0);
   (0, 0, 0, 0);
   (0, 0, 0, 0);
   (0, 0, 0, 0);
   (0, 0, 0, 0);
   (0, 0, 0, 0);
   (0, 0, 0, 0);
   (0, 0, 0, 0);
   (0, 0, 0, 0);
   (0, 0, 0, 0);
   (0, 0, 0, 0);
   (1, 1, 36028797018963969, 36028797018963968);
   (2, 1, 72057594037927937, 36028797018963968);
   (4, 1, 144115188075855873, 36028797018963968);
   (8, 1, 288230376151711745, 36028797018963968);
   (16, 1, 576460752303423489, 36028797018963968);
   (32, 1, 1152921504606846977, 36028797018963968);
   (64, 1, 2305843009213693953, 36028797018963968);
   (64, 5, 461168601842738765, 36028797018963966);
   (128, 5, 922337203685477581, 36028797018963968);
   (256, 5, 1844674407370954957, 36028797018963964);
   (256, 25, 368934881474190889, 36028797018963954);
   (512, 25, 737869762948381737, 36028797018963952);
   (1024, 25, 1475739525896763433, 36028797018963951);
   (2048, 25, 2951479051793527849, 36028797018963963);
   (2048, 125, 590295810358704341, 36028797018963888);
   (4096, 125, 1180591620717410517, 36028797018963944);
   (8192, 125, 2361183241434814677, 36028797018963847);
   (8192, 625, 472236648286961297, 36028797018963722);
   (16384, 625, 944473296573922961, 36028797018963736);
   (32768, 625, 1888946593147846289, 36028797018963743);
   (32768, 3125, 377789318629549597, 36028797018961868);
   (65536, 3125, 755578637259105821, 36028797018962184);
   (131072, 3125, 1511157274518218269, 36028797018962342);
   (262144, 3125, 3022314549036443165, 36028797018962421);
   (262144, 15625, 604462909807288633, 36028797018962421);
   (524288, 15625, 1208925819614421305, 36028797018957773);
   (1048576, 15625, 2417851639228686649, 36028797018955449);
   (1048576, 78125, 483570327844898469, 36028797018892949);
   (2097152, 78125, 967140655691024037, 36028797018938662);
   (4194304, 78125, 1934281311381178021, 36028797018922456);
   (4194304, 390625, 386856262272880161, 36028797018609956);
   (8388608, 390625, 773712524547264033, 36028797018679978);
   (16777216, 390625, 1547425049096031777, 36028797018714989);
   (33554432, 390625, 3094850098210344481, 36028797018927807);
   (33554432, 1953125, 618970019621936237, 36028797017755932);
   (67108864, 1953125, 1237940039274372205, 36028797018643591);
   (134217728, 1953125, 2475880078512135277, 36028797018110858);
   (134217728, 9765625, 495176015595052873, 36028797010298358);
   (268435456, 9765625, 990352031209627465, 36028797011008554);
   (536870912, 9765625, 1980704062438776649, 36028797011363652);
   (536870912, 48828125, 396140812273006965, 36028796991832402);
   (1073741824, 48828125, 792281624335169909, 36028796982244326);
   (2147483648, 48828125, 1584563248459495797, 36028796977450288);
   (4294967296, 48828125, 3169126496708147573, 36028796975053269);
   (4294967296, 244140625, 633825296764649137, 36028796828568894);
   (8589934592, 244140625, 1267650594346122929, 36028796851784447);
   (17179869184, 244140625, 2535301198099005105, 36028796985462536);
   (17179869184, 1220703125, 507060239619801021, 36028796985462536);
   (34359738368, 1220703125, 1014120470813032381, 36028796686090643);
   (68719476736, 1220703125, 2028240898839756733, 36028795926053134);
   (68719476736, 6103515625, 405648138536265305, 36028792263943759);
   (137438953472, 6103515625, 811296254771373657, 36028791273573442);
   (274877906944, 6103515625, 1622592624680543833, 36028793830146096);
   (549755813888, 6103515625, 3245185364498884185, 36028795108432423);
   (549755813888, 30517578125, 649037072899776837, 36028795108432423);
   (1099511627776, 30517578125, 1298073838973624645, 36028786592302149);
   (2199023255552, 30517578125, 2596147371121320261, 36028782334237012);
   (2199023255552, 152587890625, 519228154810310721, 36028690781502637);
   (4398046511104, 152587890625, 1038459326887993409, 36028795463993506);
   (8796093022208, 152587890625, 2076917272996847681, 36028771511293628);
   (8796093022208, 762939453125, 415379936162160653, 36028466335512378);
   (17592186044416, 762939453125, 830766633042911245, 36028759534943689);
   (35184372088832, 762939453125, 1661522434618368013, 36028524664932782);
   (70368744177664, 762939453125, 3323069222141370381, 36028788699653891);
   (70368744177664, 3814697265625, 664557549432931945, 36025736941841391);
   (140737488355328, 3814697265625, 1329190338190968425, 36027776307834758);
   (281474976710656, 3814697265625, 2658315178218686057, 36026888642198629);
   (281474976710656, 19073486328125, 531550445653052949, 36019259247667379);
   (562949953421312, 19073486328125, 1063256676659482133, 36024537460747752);
   (1125899906842624, 19073486328125, 2126106188718919189, 36017639824123876);
   (1125899906842624, 95367431640625, 424996057762415313, 35998566337795751);
   (2251799813685248, 95367431640625, 849460322642084561, 35976044033155688);
   (4503599627370496, 95367431640625, 1700640652215108305, 36012466596655969);
   (9007199254740992, 95367431640625, 3398497711733785297, 35982994162585797);
   (9007199254740992, 476837158203125, 677898102495808861, 35887626730945172);
   (18014398509481984, 476837158203125, 1344430847346642269, 35586788218988211);
   (36028797018963968, 476837158203125, 2695510735557791069, 35674787542111293);
   (36028797018963968, 2384185791015625, 517484868900179833, 34244276067501918);
   (72057594037927936, 2384185791015625, 1021888027165675385, 33811438570860334);
   (144115188075855872, 2384185791015625, 2174809531772522361, 35979205613555167);
   (144115188075855872, 11920928955078125, 348492793508990949, 28826648240508292);
   (288230376151711744, 11920928955078125, 636723169660702693, 26334253075332271);
   (576460752303423488, 11920928955078125, 1501414298115837925, 31048519970283323);
   (1152921504606846976, 11920928955078125, 3230796555026108389, 33405653417758849);
   (276177892680255903, 14278062402553651, 600565719246335170, 31048519970283323);
   (552355785360511806, 14278062402553651, 876743611926591073, 22663291186418487);
   (1429099397287102879, 18470676794486069, 1753487223853182146, 22663291186418487);
   (156064748830988869, 10085448010621233, 480452575397068136, 31048519970283323);
   (948646821890034743, 30652432001073511, 636517324228057005, 20566983990452278);
   (1897293643780069486, 30652432001073511, 636517324228057005, 10283491995226139);
   (369652065632732674, 29860256062653887, 127303464845611401, 10283491995226139);
   (751562460169566877, 30355366024166152, 254606929691222802, 10283491995226139);
   (1769990178934458085, 35744667002535354, 509213859382445604, 10283491995226139);
   (2788417897699349293, 28155825496493816, 1018427718764891208, 10283491995226139);
   (353998035786891617, 17872333501267677, 664429682977999591, 33545126474863018);
   (1372425754551782825, 34644896738699186, 664429682977999591, 16772563237431509);
   (1372425754551782825, 17322448369349593, 2701285120507782007, 34095011606781102);
   (274485150910356565, 17322448369349593, 505403913224929487, 31895471079108766);
   (548970301820713130, 17322448369349593, 1054374215045642617, 33270183908903976);
   (1097940603641426260, 17322448369349593, 2152314818687068877, 33957540323801581);
   (219588120728285252, 17322448369349593, 395609852860786861, 31208114664211161);
   (439176241456570504, 17322448369349593, 615197973589072113, 24265281516780377);
   (878352482913141008, 17322448369349593, 1054374215045642617, 20793864943064985);
   (105261803729627558, 10379615221918809, 281283535862129167, 27736698090495769);
   (597068947051011841, 29437771878126098, 386545339591756725, 19058156656207289);
   (1370159626234525291, 33777042595270338, 773090679183513450, 19058156656207289);
   (1370159626234525291, 16888521297635169, 2916340984601552191, 35946677953842458);
   (442450811214309151, 27268136519553978, 309236271673405380, 19058156656207289);
   (1060923354561119911, 32692224915984278, 618472543346810760, 19058156656207289);
   (2297868441254741431, 35404269114199428, 1236945086693621520, 19058156656207289);
   (318756302544946999, 24556092321338828, 247389017338724304, 19058156656207289);
   (813534337222395607, 31336202816876703, 494778034677448608, 19058156656207289);
   (1308312371899844215, 25197179736541996, 989556069354897216, 19058156656207289);
   (261662474379968843, 25197179736541996, 204568646214990687, 19699244071410457);
   (261662474379968843, 12598589868270998, 670799766809950217, 32297833939681455);
   (261662474379968843, 6299294934135499, 1341599533619900434, 32297833939681455);
   (523324948759937686, 6299294934135499, 2649911905519744649, 31897154305179475);
   (523324948759937686, 31496474670677495, 111322422095998781, 6699974568637479);
   (1046649897519875372, 31496474670677495, 634647370855936467, 19098224619657487);
   (1681297268375811839, 25297349645167491, 1269294741711872934, 19098224619657487);
   (82400505332787781, 6199125025510004, 445289688383995124, 33499872843187395);
   (82400505332787781, 3099562512755002, 890579376767990248, 33499872843187395);
   (82400505332787781, 1549781256377501, 1863559258868768277, 35049654099564896);
   (82400505332787781, 7748906281887505, 339751649640638543, 31950091586809894);
   (164801010665575562, 7748906281887505, 669353670971789667, 31472858357179957);
   (1493358724299667477, 35108694883308741, 1163756702968516353, 27359788601421236);
   (2986717448599334954, 35108694883308741, 1163756702968516353, 13679894300710618);
   (558293510601059427, 32813543390614412, 100910532061242821, 5930988018823113);
   (961935638846030711, 28268747732953432, 1163756702968516353, 34199735751776545);
   (961935638846030711, 14134373866476716, 2327513405937032706, 34199735751776545);
   (415704532009629913, 30541145561783922, 273115553418200399, 20065361885299829);
   (961935638846030711, 35335934666191790, 546231106836400798, 20065361885299829);
   (961935638846030711, 17667967333095895, 1092462213672801596, 20065361885299829);
   (387618709608238817, 35597156516992927, 26105314965354177, 2397394552203934);
   (775237419216477634, 35597156516992927, 26105314965354177, 1198697276101967);
   (1532291553211748767, 35179688761974985, 52210629930708354, 1198697276101967);
   (1897765962726707245, 21785284847344377, 2002187222588123953, 22983982123446344);
   (379553192545341449, 21785284847344377, 483974452406758157, 27778771227854212);
   (759106385090682898, 21785284847344377, 1243080837497441055, 35674670461271483);
   (1518212770181365796, 21785284847344377, 2002187222588123953, 28729977654307930);
   (13257882592218265, 951206426453718, 497232334998976422, 35674670461271483);
   (13257882592218265, 475603213226859, 994464669997952844, 35674670461271483);
   (1007722552590171109, 18075136837249171, 1988929339995905688, 35674670461271483);
   (5303153036887306, 475603213226859, 397859953348130919, 35681314665157070);
   (10606306073774612, 475603213226859, 800899584151566175, 35913579435199177);
   (1002419399553283803, 22475020243254749, 981206787405734579, 21999417030027890);
   (2004838799106567606, 22475020243254749, 2986045586512302185, 33474728758268694);
   (213211447199186295, 11950914941467663, 597209117302460437, 33474728758268694);
   (1023632011700833027, 28688279320602010, 597209117302460437, 16737364379134347);
   (2218050246305753901, 31081504039435352, 1194418234604920874, 16737364379134347);
   (170569157759349036, 11950914941467663, 511924538422785919, 35867953477102036);
   (853062853941483991, 29884891680018681, 511924538422785919, 17933976738551018);
   (1706125707882967982, 29884891680018681, 511924538422785919, 8966988369275509);
   (34070418522922045, 2983926572192154, 409713282854019784, 35883162129801083);
   (34070418522922045, 1491963286096077, 819426565708039568, 35883162129801083);
   (1126060332414337973, 24655415852332888, 1057919495368493883, 23163452566236811);
   (1126060332414337973, 12327707926166444, 3241899323151325739, 35491160492403255);
   (27256334818337636, 1491963286096077, 635446305684260525, 34783200481102834);
   (1126060332414337973, 30819269815416110, 1071547662777662701, 29327306529320033);
   (1126060332414337973, 15409634907708055, 2143095325555325402, 29327306529320033);
   (472229200820405298, 32311233101512187, 181601930773527377, 12425708335515901);
   (653831131593932675, 22368470718514044, 1017034993140987429, 34794179054029945);
   (653831131593932675, 11184235359257022, 2034069986281974858, 34794179054029945);
   (130766226318786535, 11184235359257022, 334109044137749903, 28575835599808439);
   (130766226318786535, 5592117679628511, 798984314594286341, 34167953279436950);
   (261532452637573070, 5592117679628511, 1583581672507005551, 33860329678604008);
   (523064905275146140, 5592117679628511, 3152776388332443971, 33706517878187537);
   (104612981055029228, 5592117679628511, 642064843011742499, 34321765079853421);
   (209225962110058456, 5592117679628511, 1165129748286888639, 31141176738997988);
   (418451924220116912, 5592117679628511, 2420485520947239375, 32346941408384527);
   (418451924220116912, 27960588398142555, 484097104189447875, 32346941408384527);
   (836903848440233824, 27960588398142555, 902549028409564787, 30153764903263541);
   (1673807696880467648, 27960588398142555, 1739452876849798611, 29057176650703048);
   (321632503382227337, 26864000145582062, 387277683351558300, 32346941408384527);
   (321632503382227337, 13432000072791031, 774555366703116600, 32346941408384527);
   (643265006764454674, 13432000072791031, 1096187870085343937, 22889470740587779);
   (3025982890378707959, 31592735479480436, 1739452876849798611, 18160735406689405);
   (166721430041604017, 8703264738892657, 619644293362493280, 32346941408384527);
   (1119808583487305331, 29228367812531249, 786365723404097297, 20525103073638592);
   (2239617166974610662, 29228367812531249, 786365723404097297, 10262551536819296);
   (290650288714102673, 18965816275711953, 495715434689994624, 32346941408384527);
   (581300577428205346, 18965816275711953, 786365723404097297, 25656378842048240);
   (1948966878260507989, 31794005696736073, 786365723404097297, 12828189421024120);
   (75247086290462679, 6137626854687833, 410130291951783902, 33452812831681435);
   (150494172580925358, 6137626854687833, 786365723404097297, 32070473552560300);
   (1087354068565948013, 22172863630967983, 786365723404097297, 16035236776280150);
   (2961073860535993323, 30190482019108058, 786365723404097297, 8017618388140075);
   (675732303555859778, 34448117340343649, 36877806616079173, 1879991533452242);
   (1388342413727798729, 35388113107069770, 36877806616079173, 939995766726121);
   (1462098026959957075, 18634052320261006, 1535853640192115421, 19574048086987127);
   (292419605391991415, 18634052320261006, 366175218624149761, 23334031153891611);
   (292419605391991415, 9317026160130503, 1024770042640290937, 32651057314022114);
   (584839210783982830, 9317026160130503, 2194448464208256597, 34959580977272063);
   (116967842156796566, 9317026160130503, 439930831856308107, 35042512484402770);
   (233935684313593132, 9317026160130503, 673866516169901239, 26838282402331888);
   (467871368627186264, 9317026160130503, 1609609253424273767, 32053193521426950);
   (344274280101557279, 34278785677546192, 41199029508542995, 4102115041035441);
   (426672339118643269, 21241507879808537, 509070398135729259, 25343622920843978);
   (1362415076373015797, 33913319340230526, 509070398135729259, 12671811460421989);
   (2380555872644474315, 29628471130537252, 1018140796271458518, 12671811460421989);
   (476111174528894863, 29628471130537252, 542029621742563655, 33730586171572693);
   (476111174528894863, 14814235565268626, 1084059243485127310, 33730586171572693);
   (476111174528894863, 7407117782634313, 2168118486970254620, 33730586171572693);
   (42487477134843939, 3305002741598872, 433623697394050924, 33730586171572693);
   (42487477134843939, 1652501370799436, 909734871922945787, 35383087542372129);
   (42487477134843939, 826250685399718, 1819469743845891574, 35383087542372129);
   (42487477134843939, 4131253426998590, 355396453342209527, 34556836856972411);
   (42487477134843939, 2065626713499295, 710792906684419054, 34556836856972411);
   (753280383819262993, 18311231785235853, 1421585813368838108, 34556836856972411);
   (1506560767638525986, 18311231785235853, 2174866197188101101, 26434034321104132);
   (570933166269120825, 34696541175101312, 133661085909915023, 8122802535868279);
   (1105577509908780917, 33593875659287214, 267322171819830046, 8122802535868279);
   (1105577509908780917, 16796937829643607, 1640221853548441009, 24919740365511886);
   (114186633253824165, 8674135293775328, 420457710385835927, 31939877385566067);
   (114186633253824165, 4337067646887664, 840915420771671854, 31939877385566067);
   (114186633253824165, 2168533823443832, 1796017474797167873, 34108411209009899);
   (22837326650764833, 2168533823443832, 357265895798983394, 33924425168088079);
   (22837326650764833, 1084266911721916, 737369118248731621, 35008692079809995);
   (22837326650764833, 542133455860958, 1497575563148228075, 35550825535670953);
   (22837326650764833, 271066727930479, 3017988452947220983, 35821892263601432);
   (22837326650764833, 1355333639652395, 599030225259291230, 35550825535670953);
   (45674653301529666, 1355333639652395, 1169963391528412055, 34717083263490414);
   (91349306603059332, 1355333639652395, 2357504377368183371, 34977878947226342);
   (91349306603059332, 6776668198261975, 416691291511801075, 30911878028269157);
   (182698613206118664, 6776668198261975, 873437824527097735, 32397609509789516);
   (1238835050939335063, 22975472953156733, 873437824527097735, 16198804754894758);
   (365397226412237328, 33883340991309875, 174687564905419547, 16198804754894758);
   (730794452824474656, 33883340991309875, 174687564905419547, 8099402377447379);
   (1254857147540733297, 29090774061826006, 349375129810839094, 8099402377447379);
   (2652357666784089673, 30744191785807761, 698750259621678188, 8099402377447379);
   (390721481432482297, 22644789408360382, 308028778189195891, 17852222478876513);
   (390721481432482297, 11322394704180191, 1006779037810874079, 29174617183056704);
   (781442962864964594, 11322394704180191, 1788222000675838673, 25909703295708543);
   (465972457940691315, 33757576309463828, 45067214989181897, 3264913887348161);
   (826510177854146491, 29938443704124558, 916644607832510285, 33203357591472719);
   (826510177854146491, 14969221852062279, 1833289215665020570, 33203357591472719);
   (93194491588138263, 8439394077365957, 366657843133004114, 33203357591472719);
   (459852334721142377, 20821375834419338, 733315686266008228, 33203357591472719);
   (459852334721142377, 10410687917209669, 1466631372532016456, 33203357591472719);
   (2846188376695443587, 32217710671550863, 1926483707253158833, 21807022754341194);
   (623651816989081049, 35297441947376793, 17414873673717865, 985646919921856);
   (1264718507651879963, 35790265407337721, 17414873673717865, 492823459960928);
   (2529437015303759926, 35790265407337721, 17414873673717865, 246411729980464);
   (505828694417744013, 35786111918039021, 3482974734743573, 246411729980464);
   (1015140363570231599, 35909317783029253, 3482974734743573, 123205864990232);
   (2033763701875206771, 35970920715524369, 3482974734743573, 61602932495116);
   (405359550481143925, 35847714850534137, 3482974734743573, 308014662475580);
   (814202075697031423, 36001722181771927, 3482974734743573, 154007331237790);
   (1628404151394062846, 36001722181771927, 3482974734743573, 77003665618895);
   (3254953352519311437, 35981217012897946, 6965949469487146, 77003665618895);
   (648204290716067429, 35827209681660156, 6965949469487146, 385018328094475);
   (1303003540847859153, 36009466261270403, 13931898938974292, 385018328094475);
   (2431487354904776805, 33597975418461439, 2459351152782725389, 33982993746555914);
   (486297470980955361, 33597975418461439, 514161268858903945, 35523067058933814);
   (972594941961910722, 33597975418461439, 514161268858903945, 17761533529466907);
   (1945189883923821444, 33597975418461439, 1486756210820814667, 25679754473964173);
   (252769165559445199, 21829571193019423, 205664507543561578, 17761533529466907);
   (458433673103006777, 19795552361243165, 411329015087123156, 17761533529466907);
   (869762688190129933, 18778542945355036, 822658030174246312, 17761533529466907);
   (869762688190129933, 9389271472677518, 2515078748538622557, 27150805002144425);
   (192794400844379435, 10406280888565647, 484173886501371063, 26133795586256296);
   (869762688190129933, 23473178681693795, 484173886501371063, 13066897793128148);
   (1739525376380259866, 23473178681693795, 2223699262881630929, 30006627578257869);
   (154235520675503548, 10406280888565647, 484173886501371063, 32667244482820370);
   (792644927852378159, 26739903129975832, 484173886501371063, 16333622241410185);
   (792644927852378159, 13369951564987916, 1760992700855120285, 29703573806398101);
   (88247847510330045, 7442610212143378, 352198540171024057, 29703573806398101);
   (792644927852378159, 33424878912469790, 704397080342048114, 29703573806398101);
   (792644927852378159, 16712439456234895, 1408794160684096228, 29703573806398101);
   (1585289855704756318, 16712439456234895, 2201439088536474387, 23208006631316498);
   (70598278008264036, 3721305106071689, 616149232831718069, 32477835875408015);
   (827944066856510177, 21820875596811541, 686747510839982105, 18099570490739852);
   (1655888133713020354, 21820875596811541, 2342635644553002459, 30870660842181467);
   (419742614201052565, 27656310775728371, 137349502167996421, 9049785245369926);
   (976834730570101551, 32181203398413334, 137349502167996421, 4524892622684963);
   (2075630747914072919, 34190172189946519, 274699004335992842, 4524892622684963);
   (305246547848417447, 25140386944576593, 274699004335992842, 22624463113424815);
   (579945552184410289, 23882425029000704, 549398008671985684, 22624463113424815);
   (579945552184410289, 11941212514500352, 1678741569528381657, 34565675627925167);
   (579945552184410289, 5970606257250176, 3357483139056763314, 34565675627925167);
   (579945552184410289, 29853031286250880, 555507517374470605, 28595069370674991);
   (579945552184410289, 14926515643125440, 1111015034748941210, 28595069370674991);
   (579945552184410289, 7463257821562720, 2222030069497882420, 28595069370674991);
   (135539538284833805, 8721219737138609, 444406013899576484, 28595069370674991);
   (579945552184410289, 18658144553906800, 888812027799152968, 28595069370674991);
   (579945552184410289, 9329072276953400, 1777624055598305936, 28595069370674991);
   (108431630627867044, 8721219737138609, 363082290928676201, 29202921910489782);
   (579945552184410289, 23322680692383500, 363082290928676201, 14601460955244891);
   (579945552184410289, 11661340346191750, 1306110134041762691, 26262801301436641);
   (579945552184410289, 5830670173095875, 3192165820267935671, 32093471474532516);
   (579945552184410289, 29153350865479375, 174476722306058903, 8770790782149016);
   (1159891104368820578, 29153350865479375, 1334367826674879481, 33538746256553883);
   (2494258931043700059, 31346048561016629, 2668735653349758962, 33538746256553883);
   (394165752825104670, 24767955474404867, 568642475131163573, 35731443952091137);
   (962808227956268243, 30249699713248002, 1137284950262327146, 35731443952091137);
   (962808227956268243, 15124849856624001, 2274569900524654292, 35731443952091137);
   (315332602260083736, 24767955474404867, 332143023436100771, 26088338334310271);
   (630665204520167472, 24767955474404867, 647475625696184507, 25428146904357569);
   (1278140830216351979, 25098051189381218, 1294951251392369014, 25428146904357569);
   (363653918241025275, 35704221473338618, 3362084235203407, 330095714976351);
   (733483184113400045, 36007375060368614, 6724168470406814, 330095714976351);
   (1284864998686758793, 31537611844214698, 1298313335627572421, 31867707559191049);
   (1284864998686758793, 15768805922107349, 2596626671255144842, 31867707559191049);
   (508566664698378066, 31207516129238347, 267731669290002661, 16428997352060051);
   (1017133329396756132, 31207516129238347, 776298333988380727, 23818256740649199);
   (1793431663385136859, 27512886434943773, 1552596667976761454, 23818256740649199);
   (48166999081675081, 3694629694294574, 444755689098234591, 34114800734470793);
   (48166999081675081, 1847314847147287, 937678377278144263, 35962115581618080);
   (96333998163350162, 1847314847147287, 1804684360748295721, 34606891415134623);
   (96333998163350162, 9236574235736435, 303136473251649047, 29064946873692762);
   (688472465905049695, 33005621908319251, 495804469578349371, 23769047672582816);
   (1376944931810099390, 33005621908319251, 495804469578349371, 11884523836291408);
   (2753889863620198780, 33005621908319251, 495804469578349371, 5942261918145704);
   (550777972724039756, 33005621908319251, 495804469578349371, 29711309590728520);
   (1101555945448079512, 33005621908319251, 495804469578349371, 14855654795364260);
   (2203111890896159024, 33005621908319251, 495804469578349371, 7427827397682130);
   (43978802516552308, 3294312317590731, 451825667061797063, 33844824670819919);
   (583762074611453987, 21863880811796056, 495804469578349371, 18569568494205325);
   (583762074611453987, 10931940405898028, 1575371013768152729, 29501508900103353);
   (339053955884307134, 31746817764568249, 81569372909048951, 7637628088307297);
   (583762074611453987, 27329851014745070, 746900820429551889, 34967479103052367);
   (583762074611453987, 13664925507372535, 1493801640859103778, 34967479103052367);
   (2077563715470557765, 24316202305212451, 2987603281718207556, 34967479103052367);
   (415512743094111553, 24316202305212451, 494526823153538238, 28940181683987129);
   (831025486188223106, 24316202305212451, 910039566247649791, 26628191994599790);
   (1662050972376446212, 24316202305212451, 910039566247649791, 13314095997299895);
   (467560717914860355, 34202624335076729, 31605632023770674, 2311989689387339);
   (815222670176337769, 29817255459168729, 878433934223879117, 32129245148556068);
   (1630445340352675538, 29817255459168729, 878433934223879117, 16064622574278034);
   (125117775606742745, 11440643195503356, 376658079308568186, 34441234837943407);
   (125117775606742745, 5720321597751678, 753316158617136372, 34441234837943407);
   (125117775606742745, 2860160798875839, 1506632317234272744, 34441234837943407);
   (2132221195267986469, 24371019416161301, 1881985644054500979, 21510858617285462);
   (50047110242697098, 2860160798875839, 580760777744376431, 33190112315655496);
   (100094220485394196, 2860160798875839, 1181326100656741607, 33756020951082782);
   (1982079864539895175, 28318653671044747, 1781891423569106783, 25458492872168908);
   (396415972907979035, 28318653671044747, 196227531937190643, 14017849676665552);
   (792831945815958070, 28318653671044747, 989059477753148713, 35327578509377523);
   (1585663891631916140, 28318653671044747, 1781891423569106783, 31823116090211135);
   (317132778326383228, 28318653671044747, 196227531937190643, 17522312095831940);
   (634265556652766456, 28318653671044747, 196227531937190643, 8761156047915970);
   (1268531113305532912, 28318653671044747, 1464758645242723555, 32699231695002732);
   (2537062226611065824, 28318653671044747, 1464758645242723555, 16349615847501366);
   (486400123271252847, 27145957422714173, 292951729048544711, 16349615847501366);
   (1265751975591050405, 35320765346464856, 292951729048544711, 8174807923750683);
   (2437558891785229249, 34009998520733794, 585903458097089422, 8174807923750683);
   (253150395118210081, 17660382673232428, 332753062978879341, 23213656945520987);
   (253150395118210081, 8830191336616214, 918656521075968763, 32043848282137201);
   (253150395118210081, 4415095668308107, 1837313042151937526, 32043848282137201);
   (253150395118210081, 22075478341540535, 316832529406745489, 27628752613829094);
   (823133319643165651, 35889854648455082, 316832529406745489, 13814376306914547);
   (823133319643165651, 17944927324227541, 1456798378456656629, 31759303631142088);
   (3103065017742987931, 33824579139798585, 1456798378456656629, 15879651815571044);
   (367146980023201195, 20010202832884038, 544825699216727717, 29694028122485591);
   (367146980023201195, 10005101416442019, 1089651398433455434, 29694028122485591);
   (2191092338503059019, 29854666185905824, 1456798378456656629, 19849564769463805);
   (146858792009280478, 10005101416442019, 428786834391693283, 29212113932224892);
   (293717584018560956, 10005101416442019, 1016222002428815195, 34616259798996484);
   (587435168037121912, 10005101416442019, 1603657170465937107, 27313231315940261);
   (384190767551358873, 32717377182711853, 203244400485763039, 17308129899498242);
   (768381535102717746, 32717377182711853, 203244400485763039, 8654064949749121);
   (1378114736560006863, 29339786015979608, 406488800971526078, 8654064949749121);
   (2191092338503059019, 23323957957738925, 3004069940446111175, 31978022907488046);
   (388650374235392314, 20685721066230487, 600813988089222235, 31978022907488046);
   (777300748470784628, 20685721066230487, 600813988089222235, 15989011453744023);
   (2579742712738451333, 34326377713731278, 1201627976178444470, 15989011453744023);
   (416812355617251287, 27730785484960183, 240325595235688894, 15989011453744023);
   (657137950852940181, 21859898469352103, 480651190471377788, 15989011453744023);
   (2099091522267073545, 34913466415292086, 961302380942755576, 15989011453744023);
   (419818304453414709, 34913466415292086, 121665772035926158, 10118124438135943);
   (419818304453414709, 17456733207646043, 663149848525267025, 27574857645781986);
   (839636608906829418, 17456733207646043, 1502786457432096443, 31244162030537036);
   (3182059675245755279, 33078814222914561, 1502786457432096443, 15622081015268518);
   (441746699791669203, 22960689784778618, 265259939410106810, 13787428822890993);
   (972266578611882823, 25267773715280302, 530519878820213620, 13787428822890993);
   (972266578611882823, 12633886857640151, 2033306336252310063, 26421315680531144);
   (547850675555711927, 35594576642418769, 212207951528085448, 13787428822890993);
   (760058627083797375, 24691002732654881, 424415903056170896, 13787428822890993);
   (1520117254167594750, 24691002732654881, 1184474530139968271, 19239215777772937);
   (304023450833518950, 24691002732654881, 272404177639411421, 22123070690900042);
   (608046901667037900, 24691002732654881, 880451079306449321, 35752538078104902);
   (1216093803334075800, 24691002732654881, 880451079306449321, 17876269039052451);
   (2096544882640525121, 21283635885853666, 1760902158612898642, 17876269039052451);
   (486437521333630320, 24691002732654881, 637232318639634161, 32345171231303687);
   (972875042667260640, 24691002732654881, 1123669839973264481, 28518086981979284);
   (1945750085334521280, 24691002732654881, 1123669839973264481, 14259043490989642);
   (389150017066904256, 24691002732654881, 345369805839455969, 21913211989638448);
   (778300034133808512, 24691002732654881, 1123669839973264481, 35647608727474105);
   (1901969874107072993, 30169305730064493, 2247339679946528962, 35647608727474105);
   (242246052485632211, 19212699735245269, 345369805839455969, 27391514987048060);
   (829861910810720391, 32908457228769299, 345369805839455969, 13695757493524030);
   (1659723821621440782, 32908457228769299, 345369805839455969, 6847878746762015);
   (124722880820614575, 12364820988483254, 345369805839455969, 34239393733810075);
   (124722880820614575, 6182410494241627, 690739611678911938, 34239393733810075);
   (1314354015781984813, 32575723102509105, 1064908254140755663, 26393312608267478);
   (2628708031563969626, 32575723102509105, 1064908254140755663, 13196656304133739);
   (99778304656491660, 6182410494241627, 566016730858297363, 35071229049460560);
   (199556609312983320, 6182410494241627, 965129949484264003, 29900435513213534);
   (1364243168110230643, 21132628250848394, 965129949484264003, 14950217756606767);
   (79822643725193328, 6182410494241627, 406371443407910707, 31474215323342446);
   (159645287450386656, 6182410494241627, 885307305759070675, 34284339144396104);
   (1204597880659843987, 23324580066439679, 885307305759070675, 17142169572198052);
   (319290574900773312, 30912052471208135, 177061461151814135, 17142169572198052);
   (638581149801546624, 30912052471208135, 177061461151814135, 8571084786099026);
   (1454223760754907383, 35197594864257648, 177061461151814135, 4285542393049513);
   (2870715449969420463, 34740967004326876, 354122922303628270, 4285542393049513);
   (533504162765473881, 32281936051000451, 70824584460725654, 4285542393049513);
   (1170925422912004767, 35425908794223034, 141649168921451308, 4285542393049513);
   (2304118774283615231, 34855123969309569, 283298337842902616, 4285542393049513);
   (404164087288142523, 30569581576260056, 283298337842902616, 21427711965247565);
   (404164087288142523, 15284790788130028, 566596675685805232, 21427711965247565);
   (404164087288142523, 7642395394065014, 1537357438659752987, 29070107359312579);
   (15859782098563421, 1499474216947477, 372444523091015681, 35213028536430116);
   (404164087288142523, 19105988485162535, 372444523091015681, 17606514268215058);
   (1180772697667300727, 27909245619270064, 372444523091015681, 8803257134107529);
   (1925661743849332089, 22757879943742561, 2670550790031363451, 31561137077850090);
   (87176730297053873, 5151365675527503, 570535585587923616, 33713554319482639);
   (1006419237073192981, 29735191348560077, 832065776479085235, 24583825673032574);
   (2012838474146385962, 29735191348560077, 832065776479085235, 12291912836516287);
   (348706921188215492, 25756828377637515, 166413155295817047, 12291912836516287);
   (847946387075666633, 31316283443593188, 332826310591634094, 12291912836516287);
   (1513599008258934821, 27950054558312881, 665652621183268188, 12291912836516287);
   (36458753178479689, 3366228885280307, 373982595755430676, 34529733100338979);
   (775028880718707255, 35779125419211178, 702111374361747877, 32412896533930871);
   (775028880718707255, 17889562709605589, 1404222748723495754, 32412896533930871);
   (2179251629442203009, 25151229621768230, 2808445497446991508, 32412896533930871);
   (310011552287482902, 17889562709605589, 319182315717305597, 18418771851207616);
   (620023104574965804, 17889562709605589, 939205420292271401, 27098948635209397);
   (1240046209149931608, 17889562709605589, 1559228524867237205, 22494255672407493);
   (304509094229589285, 21965046530805466, 311845704973447441, 22494255672407493);
   (928200504176484167, 33476778937810226, 623691409946894882, 22494255672407493);
   (928200504176484167, 16738389468905113, 1247382819893789764, 22494255672407493);
   (121803637691835714, 10982523265402733, 319182315717305597, 28779331017511900);
   (243607275383671428, 10982523265402733, 562789591100977025, 25372188774158683);
   (806396866484648453, 18177356019780708, 1125579182201954050, 25372188774158683);
   (806396866484648453, 9088678009890354, 3057555230888556553, 34460866784049037);
   (356165193603866833, 20071201275293087, 450231672880781620, 25372188774158683);
   (806396866484648453, 22721695024725885, 900463345761563240, 25372188774158683);
   (1706860212246211693, 24046941899442284, 1800926691523126480, 25372188774158683);
   (266118859027710509, 18745954400576688, 360185338304625296, 25372188774158683);
   (986489535636961101, 34745165974447027, 720370676609250592, 25372188774158683);
   (1706860212246211693, 30058677374302855, 1440741353218501184, 25372188774158683);
   (266118859027710509, 23432443000720860, 234924498838158135, 20685700174014511);
   (735967856704026779, 32401921674374941, 469848997676316270, 20685700174014511);
   (1471935713408053558, 32401921674374941, 1205816854380343049, 26543810924194726);
   (2943871426816107116, 32401921674374941, 1205816854380343049, 13271905462097363);
   (454058458098237017, 24988126962457793, 375879198141053016, 20685700174014511);
   (829937656239290033, 22836913568236152, 751758396282106032, 20685700174014511);
   (829937656239290033, 11418456784118076, 2333454448803502097, 32104156958132587);
   (197259235230731607, 13569670178339717, 435419185777826819, 29952943563910946);
   (829937656239290033, 28546141960295190, 435419185777826819, 14976471781955473);
   (829937656239290033, 14273070980147595, 1700776027794943671, 29249542762103068);
   (412750360012381262, 35491914008536197, 8180143063272721, 703400801807878);
   (833680863088035245, 35843614409440136, 8180143063272721, 351700400903939);
   (1651695169415307345, 35506827249917018, 1668055455541852787, 35858527650820957);
   (1651695169415307345, 17753413624958509, 3336110911083705574, 35858527650820957);
   (330339033883061469, 17753413624958509, 363059606136152353, 19511915629478204);
   (660678067766122938, 17753413624958509, 1023737673902275291, 27509371439697611);
   (1321356135532245876, 17753413624958509, 1684415741668398229, 22631392532328060);
   (119047384651988234, 7997455810219407, 482106990788140587, 32387350347067162);
   (720201760092117055, 24191130983752988, 482106990788140587, 16193675173533581);
   (720201760092117055, 12095565491876494, 1684415741668398229, 28289240665410075);
   (144040352018423411, 12095565491876494, 388052573502587530, 32586113900161929);
   (144040352018423411, 6047782745938247, 776105147005175060, 32586113900161929);
   (288080704036846822, 6047782745938247, 1496306907097292115, 31412513814926582);
   (576161408073693644, 6047782745938247, 3224791131318373047, 33849605145278032);
   (576161408073693644, 30238913729691235, 299261381419458423, 15706256907463291);
   (1152322816147387288, 30238913729691235, 875422789493152067, 22972585318577263);
   (2027745605640539355, 26605749524134249, 1750845578986304134, 22972585318577263);
   (405549121128107871, 26605749524134249, 534198215601980521, 35045678020483568);
   (811098242256215742, 26605749524134249, 534198215601980521, 17522839010241784);
   (1622196484512431484, 26605749524134249, 2156394700114412005, 35367169029255141);
   (328359664443784281, 26927240532905822, 431278940022882401, 35367169029255141);
   (328359664443784281, 13463620266452911, 862557880045764802, 35367169029255141);
   (1190917544489549083, 24415394647854026, 1725115760091529604, 35367169029255141);
   (1190917544489549083, 12207697323927013, 3450231520183059208, 35367169029255141);
   (287191954212145033, 14719543208978809, 451862795138702025, 23159471705328128);
   (1026246703562992091, 26299279061642873, 451862795138702025, 11579735852664064);
   (2504356202264686207, 32089146987974905, 451862795138702025, 5789867926332032);
   (516159903654397297, 33068640560569821, 90372559027740405, 5789867926332032);
   (1122692366336534999, 35963574523735837, 90372559027740405, 2894933963166016);
   (2245384732673069998, 35963574523735837, 90372559027740405, 1447466981583008);
   (437933552118261898, 35071174460378385, 18074511805548081, 1447466981583008);
   (893941616042071877, 35794907951169889, 18074511805548081, 723733490791504);
   (1787883232084143754, 35794907951169889, 18074511805548081, 361866745395752);
   (3593840975973835589, 35975841323867765, 18074511805548081, 180933372697876);
   (704308585750328653, 35252107833076261, 18074511805548081, 904666863489380);
   (1426691683306205387, 35704441264820951, 18074511805548081, 452333431744690);
   (2871457878417958855, 35930607980693296, 18074511805548081, 226166715872345);
   (574291575683591771, 35930607980693296, 18074511805548081, 1130833579361725);
   (1116526929850034201, 34927807680772523, 36149023611096162, 1130833579361725);
   (2237146661794015223, 34991824320492999, 72298047222192324, 1130833579361725);
   (418510113469926115, 32730157161769549, 72298047222192324, 5654167896808625);
   (780000349580887735, 30500498322906337, 144596094444384648, 5654167896808625);
   (1792173010691580271, 35039836800283356, 289192188888769296, 5654167896808625);
   (300596164360562195, 29385668903474731, 289192188888769296, 28270839484043125);
   (589788353249331491, 28828254193758928, 578384377777538592, 28270839484043125);
   (589788353249331491, 14414127096879464, 1156768755555077184, 28270839484043125);
   (589788353249331491, 7207063548439732, 2903325864359485859, 35477903032482857);
   (480953862976899512, 29385668903474731, 108834490272431979, 6649648838723929);
   (589788353249331491, 18017658871099330, 807457333794195449, 24667307709823259);
   (589788353249331491, 9008829435549665, 2204703020837722389, 33676137145372924);
   (30890078431920715, 2359180596825736, 466228039521648631, 35607424790445381);
   (30890078431920715, 1179590298412868, 932456079043297262, 35607424790445381);
   (30890078431920715, 589795149206434, 1864912158086594524, 35607424790445381);
   (6178015686384143, 589795149206434, 376010377668016061, 35896492993476311);
   (6178015686384143, 294897574603217, 752020755336032122, 35896492993476311);
   (12356031372768286, 294897574603217, 1499560653388513425, 35789549760232784);
   (24712062745536572, 294897574603217, 3006996480866244317, 35883526930912629);
   (24712062745536572, 1474487873016085, 596456883624141549, 35588629356309412);
   (893001636570580413, 26641241916251216, 843577511079507269, 25166754043235131);
   (893001636570580413, 13320620958125608, 1687155022159014538, 25166754043235131);
   (416509605217519938, 31064705535299471, 158830677117686825, 11846133085109523);
   (893001636570580413, 33301552395314020, 317661354235373650, 11846133085109523);
   (893001636570580413, 16650776197657010, 1528324345041327713, 28496909282766533);
   (384743469793982573, 35869348647846958, 127064541694149460, 11846133085109523);
   (638872553182281493, 29780807409033002, 254129083388298920, 11846133085109523);
   (638872553182281493, 14890403704516501, 1147130719958879333, 26736536789626024);
   (2424875826323442319, 28258672099329513, 1147130719958879333, 13368268394813012);
   (537220919826961925, 31302942718736491, 203303266710639136, 11846133085109523);
   (740524186537601061, 21574537901923007, 1147130719958879333, 33420670987032530);
   (1481048373075202122, 21574537901923007, 1147130719958879333, 16710335493516265);
   (429776735861569540, 31302942718736491, 95859082745246751, 6981930676702781);
   (525635818606816291, 19142436697719636, 717353984097309793, 26124367374422417);
   (525635818606816291, 9571218348859818, 1960343786801435877, 35695585723282235);
   (343821388689255632, 31302942718736491, 181814429917560659, 16553149025562599);
   (525635818606816291, 23928045872149545, 363628859835121318, 16553149025562599);
   (1051271637213632582, 23928045872149545, 889264678441937609, 20240597448856072);
   (2102543274427265164, 23928045872149545, 2991807952869202773, 34048344596577581);
   (242655719197065511, 13807747147721509, 403953240047806587, 22985999326697162);
   (485311438394131022, 13807747147721509, 889264678441937609, 25300746811070090);
   (970622876788262044, 13807747147721509, 1859887555230199653, 26458120553256554);
   (16271639669264887, 1157373742186464, 498745326379580321, 35474897215200089);
   (16271639669264887, 578686871093232, 997490652759160642, 35474897215200089);
   (16271639669264887, 289343435546616, 2011252945187586171, 35764240650746705);
   (16271639669264887, 1446717177733080, 392487605235958302, 34896210344106857);
   (16271639669264887, 723358588866540, 801246850141181491, 35619568932973397);
   (16271639669264887, 361679294433270, 1618765339951627869, 35981248227406667);
   (16271639669264887, 180839647216635, 3237530679903255738, 35981248227406667);
   (16271639669264887, 904198236083175, 634488824245239238, 35257889638540127);
   (1203996212669510283, 33452413950725626, 1171452933330980509, 32548215714642451);
   (1203996212669510283, 16726206975362813, 2342905866661961018, 32548215714642451);
   (292868489475549695, 20342999919695513, 227781930798490147, 15822008739279638);
   (813518909749589537, 28254004289335332, 227781930798490147, 7911004369639819);
   (1724646632943550125, 29949010883947304, 455563861596980294, 7911004369639819);
   (344929326588710025, 29949010883947304, 110634535008270269, 9606010964251791);
   (344929326588710025, 14974505441973652, 566198396605250563, 24580516406225443);
   (344929326588710025, 7487252720986826, 1477326119799211151, 32067769127212269);
   (344929326588710025, 3743626360493413, 3299581566187132327, 35811395487705682);
   (68985865317742005, 3743626360493413, 609132818795194132, 33055549379285303);
   (137971730635484010, 3743626360493413, 1230005606654872177, 33374093311863010);
   (275943461270968020, 3743626360493413, 2609722913009712277, 35405178458398570);
   (55188692254193604, 3743626360493413, 512552607350355325, 34768090593243156);
   (110377384508387208, 3743626360493413, 954062145383904157, 32358550738595230);
   (220754769016774416, 3743626360493413, 2057835990467776237, 34897407171764680);
   (220754769016774416, 18718131802467065, 323265290486845481, 27410154450777854);
   (441509538033548832, 18718131802467065, 764774828520394313, 32423209027855992);
   (883019076067097664, 18718131802467065, 1647793904587491977, 34929736316395061);
   (2530812980654589641, 26823934059431063, 3295587809174983954, 34929736316395061);
   (200252664722760203, 10612329545503067, 564522163797634110, 29916681739316923);
   (1165280157965914719, 30876835187913062, 764774828520394313, 20264505642409995);
   (1165280157965914719, 15438417593956531, 2694829815006703345, 35702923236366526);
   (87348231963233381, 5786241497049603, 538965963001340669, 35702923236366526);
   (713662426927807431, 23637703115232866, 538965963001340669, 17851461618183263);
   (1791594352930488769, 29670313175799696, 1077931926002681338, 17851461618183263);
   (212611070956148191, 17605093054666036, 288440285015511049, 23884071678750093);
   (212611070956148191, 8802546527333018, 789491640987170289, 32686618206083111);
   (212611070956148191, 4401273263666509, 1578983281974340578, 32686618206083111);
   (1791594352930488769, 18543945734874810, 3157966563948681156, 32686618206083111);
   (613452155733475583, 31747765525874337, 188230013821179201, 9741399207541792);
   (1226904311466951166, 31747765525874337, 188230013821179201, 4870699603770896);
   (2642038636755081533, 34183115327759785, 188230013821179201, 2435349801885448);
   (415469719058308786, 26877065922103441, 188230013821179201, 12176749009427240);
   (1019169451937796773, 32965440426817061, 188230013821179201, 6088374504713620);
   (2226568917696772747, 36009627679173871, 188230013821179201, 3044187252356810);
   (370021778010882869, 29921253174460251, 188230013821179201, 15220936261784050);
   (740043556021765738, 29921253174460251, 188230013821179201, 7610468130892025);
   (928273569842944939, 18765860652676138, 1304733597485303341, 26376328783568163);
   (3537740764813551621, 35759259109906232, 2609467194970606682, 26376328783568163);
   (35070702911645627, 1772462195446044, 682778649461425550, 34507416263568037);
   (35070702911645627, 886231097723022, 1400628001834496727, 35393647361291059);
   (35070702911645627, 443115548861511, 2836326706580639081, 35836762910152570);
   (35070702911645627, 2215577744307555, 546222919569140440, 34507416263568037);
   (721576434127368575, 22792652492552906, 651435028304077321, 20577074748245351);
   (721576434127368575, 11396326246276453, 2024446490735523217, 31973400994521804);
   (144315286825473715, 11396326246276453, 436978335655312352, 34507416263568037);
   (288630573650947430, 11396326246276453, 869924196131733497, 34348197501198698);
   (577261147301894860, 11396326246276453, 1447185343433628357, 28570424996875802);
   (115452229460378972, 11396326246276453, 292663048829838637, 28888862521614480);
   (230904458920757944, 11396326246276453, 523567507750596581, 25840757507083693);
   (461808917841515888, 11396326246276453, 1216280884512870413, 30014868122956526);
   (923617835683031776, 11396326246276453, 2139898720195902189, 26403760307754716);
   (310914524507244983, 19181544677351096, 301788786668541810, 18618541876680073);
   (310914524507244983, 9590772338675548, 914492097844328603, 28209314215355621);
   (310914524507244983, 4795386169337774, 2139898720195902189, 33004700384693395);
   (310914524507244983, 23976930846688870, 241431029334833448, 18618541876680073);
   (310914524507244983, 11988465423344435, 793776583176911879, 30607007300024508);
   (1415605632191401845, 27291969073356689, 793776583176911879, 15303503650012254);
   (283121126438280369, 27291969073356689, 227534330300351141, 21933580103347892);
   (566242252876560738, 27291969073356689, 227534330300351141, 10966790051673946);
   (1132484505753121476, 27291969073356689, 1360018836053472617, 32775364099193662);
   (2264969011506242952, 27291969073356689, 1360018836053472617, 16387682049596831);
   (180990035090554067, 10904287023759858, 455068660600702282, 27416975129184865);
   (180990035090554067, 5452143511879929, 1091127356291958631, 32869118641064794);
   (361980070181108134, 5452143511879929, 2177067566835283033, 32790989856172184);
   (361980070181108134, 27260717559399645, 290621485294613353, 21886702832412326);
   (723960140362216268, 27260717559399645, 290621485294613353, 10943351416206163);
   (1014581625656829621, 19102034487802904, 1595824596246056327, 30045385904009067);
   (86667731013520583, 8158683071596741, 321239777548664957, 30240707866240592);
   (173335462027041166, 8158683071596741, 667910701602747289, 31437720076313778);
   (1014581625656829621, 23877543109753630, 667910701602747289, 15718860038156889);
   (1014581625656829621, 11938771554876815, 2350403028862324199, 27657631593033704);
   (341584694752998857, 20097454626473556, 331412236150831907, 19498948521436963);
   (341584694752998857, 10048727313236778, 1004409167054662671, 29547675834673741);
   (341584694752998857, 5024363656618389, 2350403028862324199, 34572039491292130);
   (341584694752998857, 25121818283091945, 333446727871265297, 24523312178055352);
   (683169389505997714, 25121818283091945, 333446727871265297, 12261656089027676);
   (1699785506883260725, 31252646327605783, 333446727871265297, 6130828044513838);
   (339957101376652145, 31252646327605783, 333446727871265297, 30654140222569190);
   (679914202753304290, 31252646327605783, 333446727871265297, 15327070111284595);
   (1013360930624569587, 23289858219445189, 666893455742530594, 15327070111284595);
   (2026721861249139174, 23289858219445189, 1680254386367100181, 19308464165364892);
   (543931362202643432, 31252646327605783, 197463887320604439, 11345676057204298);
   (1087862724405286864, 31252646327605783, 197463887320604439, 5672838028602149);
   (1285326611725891303, 18462742178103966, 1680254386367100181, 24135580206706115);
   (178079767416936485, 12789904149501817, 394927774641208878, 28364190143010745);
   (356159534833872970, 12789904149501817, 929167076892018333, 33366951295758098);
   (1641486146559764273, 29473379797380866, 929167076892018333, 16683475647879049);
   (142463813933549188, 12789904149501817, 359311821157821581, 32257761641387977);
   (284927627867098376, 12789904149501817, 786703262958469145, 35313737044946714);
   (1356558518692665897, 30446772671975174, 786703262958469145, 17656868522473357);
   (2929965044609604187, 32880254858460944, 1573406525916938290, 17656868522473357);
   (412514603142502923, 23146326112517864, 314681305183387658, 17656868522473357);
   (1041877213509278239, 29230031578732289, 629362610366775316, 17656868522473357);
   (1671239823876053555, 23443450050602823, 1258725220733550632, 17656868522473357);
   (334247964775210711, 23443450050602823, 255981326407918499, 17953992460558316);
   (668495929550421422, 23443450050602823, 924477255958339921, 32420446280881981);
   (1336991859100842844, 23443450050602823, 1592973185508761343, 27931948165742402);
   (216202106538584869, 18954951935463244, 255981326407918499, 22442490575697895);
   (216202106538584869, 9477475967731622, 728164759354421867, 31919966543429517);
   (216202106538584869, 4738737983865811, 1456329518708843734, 31919966543429517);
   (432404213077169738, 4738737983865811, 2969744264478937817, 32545566215245097);
   (432404213077169738, 23693689919329055, 248025482434051773, 13590614279781853);
   (864808426154339476, 23693689919329055, 680429695511221511, 18642152099555454);
   (2410046547819900463, 33014765969106782, 680429695511221511, 9321076049777727);
   (73751492257247186, 5051537819773601, 459175218739479953, 31450766789567832);
   (754181187768468697, 25828459034331118, 606678203253974325, 20776921214557517);
   (754181187768468697, 12914229517165559, 1967537594276417347, 33691150731723076);
   (268838625165289237, 23017305156712761, 242671281301589730, 20776921214557517);
   (511509906466878967, 21897113185635139, 485342562603179460, 20776921214557517);
   (996852469070058427, 21337017200096328, 970685125206358920, 20776921214557517);
   (996852469070058427, 10668508600048164, 2938222719482776267, 31445429814605681);
   (608578418987514859, 32565621785683303, 388274050082543568, 20776921214557517);
   (996852469070058427, 26671271500120410, 776548100165087136, 20776921214557517);
   (996852469070058427, 13335635750060205, 2549948669400232699, 34112556964617722);
   (440608737809942582, 29471751427814465, 111248746252023169, 7441285464497312);
   (992466221871908333, 33192394160063121, 111248746252023169, 3720642732248656);
   (2096181189995839835, 35052715526187449, 111248746252023169, 1860321366124328);
   (419236237999167967, 35052715526187449, 111248746252023169, 9301606830621640);
   (838472475998335934, 35052715526187449, 111248746252023169, 4650803415310820);
   (1676944951996671868, 35052715526187449, 111248746252023169, 2325401707655410);
   (3353889903993343736, 35052715526187449, 111248746252023169, 1162700853827705);
   (581778983797050212, 30401912110876629, 111248746252023169, 5813504269138525);
   (1360520207561212395, 35548220997423152, 222497492504046338, 5813504269138525);
   (1360520207561212395, 17774110498711576, 1805515192569305071, 23587614767850101);
   (272104041512242479, 17774110498711576, 444994985008092676, 29067521345692625);
   (272104041512242479, 8887055249355788, 889989970016185352, 29067521345692625);
   (272104041512242479, 4443527624677894, 2052083981544613183, 33511048970370519);
   (272104041512242479, 22217638123389470, 301575179704025645, 24623993721014731);
   (272104041512242479, 11108819061694735, 875254400920293769, 35732812782709466);
   (544208083024484958, 11108819061694735, 1419462483944778727, 28975225453049468);
   (1088416166048969916, 11108819061694735, 2507878649993748643, 25596431788219469);
   (151473969630632221, 7730025396864736, 633994257157073253, 32354019117879467);
   (151473969630632221, 3865012698432368, 1267988514314146506, 32354019117879467);
   (151473969630632221, 1932506349216184, 2687450998258925233, 34286525467095651);
   (151473969630632221, 9662531746080920, 446605817873405714, 28489006419447099);
   (151473969630632221, 4831265873040460, 1044685605377443649, 33320272292487559);
   (151473969630632221, 2415632936520230, 2240845180385519519, 35735905229007789);
   (151473969630632221, 12078164682601150, 326989860372598127, 26073373482926869);
   (151473969630632221, 6039082341300575, 805453690375828475, 32112455824227444);
   (1411349568898357359, 28134392594714872, 1108401629637092917, 22095310253414297);
   (302947939261264442, 30195411706502875, 161090738075165695, 16056227912113722);
   (605895878522528884, 30195411706502875, 161090738075165695, 8028113956056861);
   (1411349568898357359, 35167990743393590, 322181476150331390, 8028113956056861);
   (1411349568898357359, 17583995371696795, 2055712521199020139, 25612109327753656);
   (509241435677429467, 31723179166085948, 128872590460132556, 8028113956056861);
   (1024731797517959691, 31917817495156696, 257745180920265112, 8028113956056861);
   (1024731797517959691, 15958908747578348, 1540222159358489915, 23987022703635209);
   (408642933774563725, 31820498330621322, 308044431871697983, 23987022703635209);
   (408642933774563725, 15910249165310661, 616088863743395966, 23987022703635209);
   (1024731797517959691, 19948635934472935, 1232177727486791932, 23987022703635209);
   (163457173509825490, 15910249165310661, 207445929968832241, 20191933845811370);
   (326914347019650980, 15910249165310661, 534360276988483221, 26006216088216346);
   (1188188971027785181, 28913357209418834, 534360276988483221, 13003108044108173);
   (2256909525004751623, 27459786648817590, 1068720553976966442, 13003108044108173);
   (261531477615720784, 15910249165310661, 403594538180622829, 24552645527615102);
   (926657493412064397, 28186571929118212, 403594538180622829, 12276322763807551);
   (926657493412064397, 14093285964559106, 1733846569773310055, 26369608728366657);
   (233118865502740375, 17727212366062216, 346769313954662011, 26369608728366657);
   (926657493412064397, 35233214911397765, 693538627909324022, 26369608728366657);
   (1620196121321388419, 30801411819882211, 1387077255818648044, 26369608728366657);
   (46623773100548075, 4431803091515554, 361354247606590394, 34348375628491097);
   (46623773100548075, 2215901545757777, 722708495213180788, 34348375628491097);
   (93247546201096150, 2215901545757777, 1515312637922498063, 36009350953186653);
   (186495092402192300, 2215901545757777, 2914025830938940313, 34623937069776654);
   (37299018480438460, 2215901545757777, 601486685151755793, 35733789511901096);
   (74598036960876920, 2215901545757777, 1198270980838771153, 35594107122012764);
   (149196073921753840, 2215901545757777, 2391839572212801873, 35524265927068598);
   (29839214784350768, 2215901545757777, 482129826014352721, 35803630706845262);
   (59678429568701536, 2215901545757777, 959557262563965009, 35629027719484847);
   (119356859137403072, 2215901545757777, 1854733706094488049, 34433775452925751);
   (119356859137403072, 11079507728788885, 323203997563936381, 30001972361410197);
   (681274574976145597, 31620247773888426, 442560856701339453, 20540740045099541);
   (681274574976145597, 15810123886944213, 885121713402678906, 20540740045099541);
   (1362549149952291194, 15810123886944213, 2928945438331115697, 33985555852966090);
   (231740402305151577, 13444815807866549, 435587540731684886, 25271356203254869);
   (1130808747647139617, 32802901813427258, 667327943036836463, 19358086005560709);
   (1130808747647139617, 16401450906713629, 2465464633720812543, 35759536912274338);
   (411554071373549185, 29846266714580178, 307700604900041247, 22314721104407789);
   (411554071373549185, 14923133357290089, 615401209800082494, 22314721104407789);
   (823108142747098370, 14923133357290089, 1850063423920730049, 33542060588139028);
   (164621628549419674, 14923133357290089, 368468766975952983, 33402102725084339);
   (329243257098839348, 14923133357290089, 533090395525372657, 24162618041187214);
   (658486514197678696, 14923133357290089, 1191576909723051353, 27004442377883696);
   (2508549938118408745, 28425354546231937, 1191576909723051353, 13502221188941848);
   (501709987623681749, 28425354546231937, 188156934475687855, 10660396852245366);
   (1003419975247363498, 28425354546231937, 1191576909723051353, 33755552972354620);
   (2006839950494726996, 28425354546231937, 1191576909723051353, 16877776486177310);
   (438949171820299933, 31086898169659720, 75262773790275142, 5330198426122683);
   (890525814561950785, 31534044363197909, 150525547580550284, 5330198426122683);
   (1041051362142501069, 18432121394660296, 1342102457303601637, 23762319820782979);
   (356210325824780314, 31534044363197909, 328630710492940441, 29092518246905662);
   (712420651649560628, 31534044363197909, 328630710492940441, 14546259123452831);
   (1041051362142501069, 23040151743325370, 657261420985880882, 14546259123452831);
   (1041051362142501069, 11520075871662685, 2355574204114262833, 26066334995115516);
   (603496994415683957, 33390913343992257, 54694295965852139, 3026183251790146);
   (1261688284797220053, 34904004969887330, 54694295965852139, 1513091625895073);
   (2027408428319149999, 28043643866209176, 2136797020250854277, 29556735492104249);
   (339848530504807433, 23504368988523957, 449237122436511711, 31069827117999322);
   (679697061009614866, 23504368988523957, 449237122436511711, 15534913558999661);
   (2027408428319149999, 35054554832761470, 898474244873023422, 15534913558999661);
   (46091987714620631, 3984727714762148, 391462380012196481, 33842562932614677);
   (46091987714620631, 1992363857381074, 829016747739013593, 35834926789995751);
   (46091987714620631, 996181928690537, 1658033495478027186, 35834926789995751);
   (92183975429241262, 996181928690537, 3271253065489749271, 35350647147082273);
   (92183975429241262, 4980909643452685, 598940227840405097, 32362101361010662);
   (783308178698887621, 21161960323958016, 598940227840405097, 16181050680505331);
   (783308178698887621, 10580980161979008, 1981188634379697815, 26762030842484339);
   (387070451822948058, 26142869967410701, 396237726875939563, 26762030842484339);
   (783308178698887621, 26452450404947520, 792475453751879126, 26762030842484339);
   (783308178698887621, 13226225202473760, 1584950907503758252, 26762030842484339);
   (423950996621620625, 35792243133760538, 3666910021196602, 309580437536819);
   (783308178698887621, 33065563006184400, 790641998741280825, 33375143443721219);
   (783308178698887621, 16532781503092200, 1581283997482561650, 33375143443721219);
   (783308178698887621, 8266390751546100, 3162567994965123300, 33375143443721219);
   (150794579705862961, 7956810314009281, 632513598993024660, 33375143443721219);
   (783308178698887621, 20665976878865250, 1265027197986049320, 33375143443721219);
   (783308178698887621, 10332988439432625, 2530054395972098640, 33375143443721219);
   (277297299504467893, 18289798753441906, 506010879194419728, 33375143443721219);
   (277297299504467893, 9144899376720953, 1012021758388839456, 33375143443721219);
   (1843913656902243135, 30404920786942039, 1289319057893307349, 21260021410221086);
   (368782731380448627, 30404920786942039, 182970863751961468, 15085344690279313);
   (737565462760897254, 30404920786942039, 551753595132410095, 22745132738610676);
   (1475130925521794508, 30404920786942039, 551753595132410095, 11372566369305338);
   (2950261851043589016, 30404920786942039, 551753595132410095, 5686283184652669);
   (632896751487466617, 32612657057004146, 110350719026482019, 5686283184652669);
   (1295001065646358731, 33365178082460080, 220701438052964038, 5686283184652669);
   (2619209693964142959, 33741438595188047, 441402876105928076, 5686283184652669);
   (170719637908086131, 10996305856577371, 441402876105928076, 28431415923263345);
   (612122514014014207, 19713860889920358, 882805752211856152, 28431415923263345);
   (612122514014014207, 9856930444960179, 1765611504423712304, 28431415923263345);
   (395575923455740651, 31849542158114921, 108273295279136778, 8717555033342987);
   (503849218734877429, 20283548595728954, 720395809293150985, 29001103629071941);
   (503849218734877429, 10141774297864477, 1440791618586301970, 29001103629071941);
   (1944640837321179399, 19571438963468209, 2881583237172603940, 29001103629071941);
   (215690895017617035, 10853883930125222, 576316647434520788, 29001103629071941);
   (1368324189886658611, 34428045594134552, 1152633294869041576, 29001103629071941);
   (1368324189886658611, 17214022797067276, 2305266589738083152, 29001103629071941);
   (86276358007046814, 5426941965062611, 505560609816190471, 31800694334710270);
   (172552716014093628, 5426941965062611, 1023218757858471355, 32181173062542968);
   (1368324189886658611, 21517528496334095, 1023218757858471355, 16090586531271484);
   (345105432028187256, 27134709825313055, 204643751571694271, 16090586531271484);
   (894854615628068783, 35180003090948797, 204643751571694271, 8045293265635742);
   (1789709231256137566, 35180003090948797, 204643751571694271, 4022646632817871);
   (317013095936888659, 31157356458130926, 204643751571694271, 20113233164089355);
   (726300599080277201, 35691911393154818, 409287503143388542, 20113233164089355);
   (726300599080277201, 17845955696577409, 818575006286777084, 20113233164089355);
   (1452601198160554402, 17845955696577409, 1544875605367054285, 18979594430333382);
   (525675834940321831, 32290995191886899, 308975121073410857, 18979594430333382);
   (1051351669880643662, 32290995191886899, 308975121073410857, 9489797215166691);
   (1978277033100876233, 30380193418693486, 617950242146821714, 9489797215166691);
   (148475309761446561, 11400598988360104, 320999622623928592, 24647788099113247);
   (148475309761446561, 5700299494180052, 790474555009303745, 30348087593293299);
   (148475309761446561, 2850149747090026, 1729424419780054051, 33198237340383325);
   (148475309761446561, 14250748735450130, 316189822003721498, 30348087593293299);
   (148475309761446561, 7125374367725065, 632379644007442996, 30348087593293299);
   (1077805573291782679, 25862105348234247, 780854953768889557, 18736730980509182);
   (2155611146583565358, 25862105348234247, 2936466100352454915, 35230470838488838);
   (393731486372092409, 23619114225704721, 587293220070490983, 35230470838488838);
   (787462972744184818, 23619114225704721, 587293220070490983, 17615235419244419);
   (1374756192814675801, 20617174822474570, 1174586440140981966, 17615235419244419);
   (40033950534738767, 3001939403230151, 453975330515684160, 34041267838079377);
   (80067901069477534, 3001939403230151, 894348786397810597, 33531300636805519);
   (1294688291745198267, 24270498826478137, 1134552489606243199, 21268559423247986);
   (290964818776830667, 27272438229708288, 130829016637875599, 12262741213557533);
   (290964818776830667, 13636219114854144, 552622852052581865, 25898960328411677);
   (290964818776830667, 6818109557427072, 1396210522881994397, 32717069885838749);
   (290964818776830667, 3409054778713536, 2792421045763988794, 32717069885838749);
   (290964818776830667, 17045273893567680, 442098281642065492, 25898960328411677);
   (290964818776830667, 8522636946783840, 1175161382060961651, 34421597275195517);
   (290964818776830667, 4261318473391920, 2350322764121923302, 34421597275195517);
   (290964818776830667, 21306592366959600, 411871589069018527, 30160278801803597);
   (290964818776830667, 10653296183479800, 823743178138037054, 30160278801803597);
   (290964818776830667, 5326648091739900, 1938451175052904775, 35486926893543497);
   (290964818776830667, 26633240458699500, 387690235010580955, 35486926893543497);
   (290964818776830667, 13316620229349750, 775380470021161910, 35486926893543497);
   (290964818776830667, 6658310114674875, 1550760940042323820, 35486926893543497);
   (581929637553661334, 6658310114674875, 3005585033926477155, 34389238733458936);
   (581929637553661334, 33291550573374375, 601117006785295431, 34389238733458936);
   (1163859275107322668, 33291550573374375, 601117006785295431, 17194619366729468);
   (2327718550214645336, 33291550573374375, 601117006785295431, 8597309683364734);
   (345320308685869981, 24694240890009641, 255796698099425450, 18292307526814029);
   (690640617371739962, 24694240890009641, 601117006785295431, 21493274208411835);
   (1291757624157035393, 23093757549210738, 1202234013570590862, 21493274208411835);
   (294160969065984891, 26294724230808544, 204637358479540360, 18292307526814029);
   (294160969065984891, 13147362115404272, 703435686025065611, 31439669642218301);
   (294160969065984891, 6573681057702136, 1406871372050131222, 31439669642218301);
   (294160969065984891, 3286840528851068, 3107903713166247335, 34726510171069369);
   (294160969065984891, 16434202644255340, 621580742633249467, 34726510171069369);
   (294160969065984891, 8217101322127670, 1243161485266498934, 34726510171069369);
   (294160969065984891, 4108550661063835, 2486322970532997868, 34726510171069369);
   (294160969065984891, 20542753305319175, 320768012667008639, 22400858187877864);
   (909089950798978421, 31743182399258107, 320768012667008639, 11200429093938932);
   (1818179901597956842, 31743182399258107, 320768012667008639, 5600214546969466);
   (171175172719386185, 14942538758349709, 320768012667008639, 28001072734847330);
   (663118358105781009, 28943075125773374, 320768012667008639, 14000536367423665);
   (663118358105781009, 14471537562886687, 1304654383439798287, 28472073930310352);
   (2630891099651360305, 28707574528041863, 1304654383439798287, 14236036965155176);
   (526178219930272061, 28707574528041863, 252297943579254165, 13765035769692154);
   (1052356439860544122, 28707574528041863, 1304654383439798287, 35590092412887940);
   (2104712879721088244, 28707574528041863, 1304654383439798287, 17795046206443970);
   (497300963986184959, 33915087953451234, 100919177431701666, 6882517884846077);
   (900977673712991623, 30722579746417771, 201838354863403332, 6882517884846077);
   (1102816028576394955, 18802548815631924, 1506492738303201619, 25685066700478001);
   (220563205715278991, 18802548815631924, 403676709726806664, 34412589424230385);
   (220563205715278991, 9401274407815962, 807353419453613328, 34412589424230385);
   (220563205715278991, 4700637203907981, 1614706838907226656, 34412589424230385);
   (441126411430557982, 4700637203907981, 3158649278914179593, 33658524925793126);
   (441126411430557982, 23503186019539905, 278828726638389533, 14855976110161202);
   (882252822861115964, 23503186019539905, 1161081549499505497, 30931174074620506);
   (1764505645722231928, 23503186019539905, 1161081549499505497, 15465587037310253);
   (9153328589189473, 609610927149051, 539350796098400120, 35920718421104903);
   (585117439044347485, 19484386528425079, 566810781865968539, 18874775601276028);
   (1170234878088694970, 19484386528425079, 1737045659954663509, 28921774329063093);
   (234046975617738994, 19484386528425079, 332763806248229545, 27702552474764991);
   (468093951235477988, 19484386528425079, 566810781865968539, 23593469501595035);
   (936187902470955976, 19484386528425079, 1034904733101446527, 21538928015010057);
   (1872375804941911952, 19484386528425079, 1971092635572402503, 20511657271717568);
   (334988428736186170, 17429845041840101, 433705259366676721, 22566198758302546);
   (1103682116839049061, 28712944420991374, 433705259366676721, 11283099379151273);
   (1103682116839049061, 14356472210495687, 1971092635572402503, 25639571589646960);
   (267990742988948936, 17429845041840101, 299709887872202253, 19492825926958132);
   (535981485977897872, 17429845041840101, 835691373850100125, 27176258005319167);
   (1371672859827997997, 22303051523579634, 1671382747700200250, 27176258005319167);
   (368843211207877847, 29986483601940669, 334276549540040050, 27176258005319167);
   (703119760747917897, 28581370803629918, 668553099080080100, 27176258005319167);
   (703119760747917897, 14290685401814959, 1337106198160160200, 27176258005319167);
   (2040225958908078097, 20733471703567063, 2674212396320320400, 27176258005319167);
   (435698521115885857, 22138584501877814, 534842479264064080, 27176258005319167);
   (435698521115885857, 11069292250938907, 1069684958528128160, 27176258005319167);
   (1505383479644014017, 19122775128129037, 2139369917056256320, 27176258005319167);
   (221761529410260225, 14085101624687684, 427873983411251264, 27176258005319167);
   (1077509496232762753, 34218808817663009, 855747966822502528, 27176258005319167);
   (1933257463055265281, 30697533411491088, 1711495933645005056, 27176258005319167);
   (44352305882052045, 3521275406171921, 425279063065495751, 33764303247610126);
   (88704611764104090, 3521275406171921, 868802121886016201, 34488528654664668);
   (177409223528208180, 3521275406171921, 1755848239527057101, 34850641358191939);
   (35481844705641636, 3521275406171921, 336574451301391661, 33402190544082855);
   (70963689411283272, 3521275406171921, 655911053652166385, 32546834599815072);
   (141927378822566544, 3521275406171921, 1365547947764999105, 33879794330767141);
   (1791330084232698737, 22221810274641452, 1507475326587565649, 18700534868469531);
   (415036968375566365, 25743085680813373, 546219179105999642, 33879794330767141);
   (830073936751132730, 25743085680813373, 961256147481566007, 29811440005790257);
   (1791330084232698737, 27777262843301815, 1922512294963132014, 29811440005790257);
   (332029574700453092, 25743085680813373, 463211785430886369, 35913971493255583);
   (664059149400906184, 25743085680813373, 795241360131339461, 30828528587034478);
   (1328118298801812368, 25743085680813373, 795241360131339461, 15414264293517239);
   (160677891176015852, 15572199868371163, 211521156318441203, 20499707199738344);
   (532876938670472907, 25822053468240335, 211521156318441203, 10249853599869172);
   (1277275033659387017, 30946980268174921, 211521156318441203, 5124926799934586);
   (2766071223637215237, 33509443668142214, 211521156318441203, 2562463399967293);
   (383997319672690085, 23259590068273042, 211521156318441203, 12812316999836465);
   (807039632309572491, 24442112033972986, 423042312636882406, 12812316999836465);
   (807039632309572491, 12221056016986493, 1653124257583337303, 25033373016822958);
   (153598927869076034, 11629795034136521, 346242848702344389, 26215894982522902);
   (307197855738152068, 11629795034136521, 653440704440496457, 24737742525397972);
   (1267836415916800593, 23998666296835507, 653440704440496457, 12368871262698986);
   (115070143702422363, 10890718805574056, 269185280369037047, 25476818753960437);
   (115070143702422363, 5445359402787028, 653440704440496457, 30922178156747465);
   (1421951552583415277, 33644857858140979, 1306881408880992914, 30922178156747465);
   (2843903105166830554, 33644857858140979, 2728832961464408191, 32283518007444222);
   (115070143702422363, 6806699253483785, 499738534811912693, 29560838306050708);
   (729878822216757419, 21587118406509139, 499738534811912693, 14780419153025354);
   (1959496179245427531, 28977327983021816, 499738534811912693, 7390209576512677);
   (192003821924320429, 14196908829996462, 307734712887592264, 22754139052566923);
   (192003821924320429, 7098454414998231, 807473247699504957, 29852593467565154);
   (1575488535396786673, 29123205563779039, 1191480891548145815, 22024751148780808);
   (384007643848640858, 35492272074991155, 238296178309629163, 22024751148780808);
   (768015287697281716, 35492272074991155, 238296178309629163, 11012375574390404);
   (1536030575394563432, 35492272074991155, 238296178309629163, 5506187787195202);
   (3072061150789126864, 35492272074991155, 238296178309629163, 2753093893597601);
   (471434523172047875, 27232990394198352, 238296178309629163, 13765469467988005);
   (948026879791306201, 27381964665087181, 476592356619258326, 13765469467988005);
   (2377803949649081179, 34339186534525598, 953184713238516652, 13765469467988005);
   (94286904634409575, 6808247598549588, 481750190066468777, 34786109347192085);
   (94286904634409575, 3404123799274794, 963500380132937554, 34786109347192085);
   (94286904634409575, 1702061899637397, 1927000760265875108, 34786109347192085);
   (18857380926881915, 1702061899637397, 380695524261558078, 34361470965693871);
   (37714761853763830, 1702061899637397, 776700523726078293, 35052385429039604);
   (75429523707527660, 1702061899637397, 1530995760801354893, 34546811710893772);
   (150859047415055320, 1702061899637397, 3190445282366963413, 35996086751458253);
   (30171809483011064, 1702061899637397, 625841476311022973, 35305172288112520);
   (60343618966022128, 1702061899637397, 1229277665971244253, 34673205140430230);
   (120687237932044256, 1702061899637397, 2436150045291686813, 34357221566589085);
   (120687237932044256, 8510309498186985, 414817666299110809, 29251035867676894);
   (897566618027287833, 31646136930212417, 656192142163199321, 23135827432025432);
   (1795133236054575666, 31646136930212417, 656192142163199321, 11567913716012716);
   (227788218778275269, 20078223214199701, 200615704606648783, 17683122151664178);
   (455576437556550538, 20078223214199701, 656192142163199321, 28919784290031790);
   (1567345017276300397, 34538115359215596, 656192142163199321, 14459892145015895);
   (1567345017276300397, 17269057679607798, 2879729301602699039, 31728949824623693);
   (50992146589980351, 2809165534591903, 649486378656654079, 35780308775384736);
   (101984293179960702, 2809165534591903, 1261392137736418291, 34745147595243786);
   (1669329310456261099, 22990904866805699, 1465360724096339695, 20181739332213796);
   (497040731179189343, 34227567005173311, 293072144819267939, 20181739332213796);
   (994081462358378686, 34227567005173311, 293072144819267939, 10090869666106898);
   (1988162924716757372, 34227567005173311, 293072144819267939, 5045434833053449);
   (221789298051790711, 19091262506012964, 293072144819267939, 25227174165267245);
   (807933587690326589, 34772805418273727, 586144289638535878, 25227174165267245);
   (1394077877328862467, 29999989791770486, 1172288579277071756, 25227174165267245);
   (1394077877328862467, 14999994895885243, 2344577158554143512, 25227174165267245);
   (633678452348637631, 34091257401898207, 190099856245056209, 10227179269382002);
   (1267356904697275262, 34091257401898207, 190099856245056209, 5113589634691001);
   (2598055898412668725, 34943192422367607, 380199712490112418, 5113589634691001);
   (519611179682533745, 34943192422367607, 380199712490112418, 25567948173455005);
   (1039222359365067490, 34943192422367607, 899810892172646163, 30255570297911306);
   (2078444718730134980, 34943192422367607, 899810892172646163, 15127785148955653);
   (415688943746026996, 34943192422367607, 68433004680592171, 5752540900043051);
   (831377887492053992, 34943192422367607, 484121948426619167, 20347866661205329);
   (1315499835918673159, 27645529541786468, 968243896853238334, 20347866661205329);
   (1315499835918673159, 13822764770893234, 3251987629625149827, 34170631432098563);
   (138902375626173930, 7297662880581139, 620987957787803509, 32625509451560475);
   (1315499835918673159, 34556911927233085, 1037695084666325299, 27259249046651946);
   (2630999671837346318, 34556911927233085, 1037695084666325299, 13629624523325973);
   (111121900500939144, 7297662880581139, 482085582161629579, 31659808213724170);
   (222243801001878288, 7297662880581139, 926573184165386155, 30425229868024363);
   (1593304587171021019, 26159109254883890, 1148816985167264443, 18861446374302751);
   (407558437834955519, 33456772135465029, 370629273666154462, 30425229868024363);
   (778187711501109981, 31941001001744696, 741258547332308924, 30425229868024363);
   (778187711501109981, 15970500500872348, 1482517094664617848, 30425229868024363);
   (778187711501109981, 7985250250436174, 2965034189329235696, 30425229868024363);
   (340818415935484838, 17486271634592681, 437369295565625143, 22439979617588189);
   (778187711501109981, 19963125626090435, 874738591131250286, 22439979617588189);
   (1556375423002219962, 19963125626090435, 1652926302632360267, 21201552621839312);
   (552246274848760790, 35417424351510571, 19310175926028061, 1238426995748877);
   (1112241376703574559, 35665903614114002, 38620351852056122, 1238426995748877);
   (1575685598928248023, 25263513781550263, 1652926302632360267, 26501940777299140);
   (284240838304004707, 22786659790052509, 361481542008116951, 28978794768796894);
   (568481676608009414, 22786659790052509, 361481542008116951, 14489397384398447);
   (929963218616126365, 18638028587225478, 1652926302632360267, 33127425971623925)].
