(** The files of fitted models: /repo/bfit/data/kl_fpi_results.json and
    /repo/bfit/data/kl_slsqp_results.json, both of one line, entry by entry. *)
From Coq Require Import String Ascii List.
From Verif Require Import PyText SpecParse.
Import ListNotations.
Local Open Scope string_scope.

(** The text between the braces: the entries with commas between them. *)
Fixpoint joined (l : list string) : list ascii :=
  match l with
  | [] => []
  | [p] => str p
  | p :: l => (str p ++ str ", " ++ joined l)%list
  end.

(** bfit/data/kl_fpi_results.json:1 *)
Definition fpi_entries : list string := [
"""h"": {""num_s"": 20, ""num_p"": 0, ""coeffs"": [9.755680376998416e-09, 2.686098936382615e-08, 1.233180414261348e-07, 4.741406641490994e-07, 1.5322119339127971e-06, 5.961578427138845e-06, 2.337036422252344e-05, 7.964767768801529e-05, 0.00030200251173498284, 0.001022689793924565, 0.0034672216579778067, 0.01050373011820885, 0.02865918703409256, 0.06547974410528253, 0.125853826928909, 0.18631775783364277, 0.2204094131576206, 0.19452110963282723, 0.14588829002209505, 0.017463881286310358], ""exps"": [16616.76293015443, 3760.4352436225354, 1989.5539150543218, 1323.4449277312945, 700.1146604836373, 290.50531481944245, 176.5138354077671, 90.50971941167646, 44.6494428641957, 24.949035626916718, 12.860110588961899, 6.9290185575333485, 3.9900747288720178, 2.235366876446615, 1.3784263938358912, 0.8591473947826095, 0.5563235595623377, 0.38399340081535027, 0.23642288607484643, 0.13062534262904696]}";
"""he"": {""num_s"": 21, ""num_p"": 0, ""coeffs"": [1.1037368930581307e-08, 4.2791302786081475e-08, 1.8369294916056958e-07, 6.309151206304175e-07, 2.0915063205635194e-06, 9.776064803472636e-06, 3.566180113326278e-05, 0.0001159090101136795, 0.0004762628517420836, 0.0013963048461911691, 0.005184160688119381, 0.015389328692300275, 0.041095879129832244, 0.0968602446909245, 0.18748192579256034, 0.30303492420623424, 0.3862043187731209, 0.3978715418811879, 0.3223970632481147, 0.21954173694250587, 0.022902001426169515], ""exps"": [65658.86212796661, 14745.608065400247, 9241.112583806194, 6001.462635637288, 2193.681385805911, 1108.2728921435933, 789.5130406441378, 287.41502320604025, 180.09891803117247, 103.43047601714753, 45.99106598088809, 28.99449231480792, 14.816853523895688, 8.805767829983967, 5.131091944794194, 3.094194609688231, 1.9696428481548844, 1.2252405085809293, 0.844385284982089, 0.4971806864882868, 0.2642484354726365]}";
"""li"": {""num_s"": 25, ""num_p"": 0, ""coeffs"": [1.00736329675914e-08, 1.749375803288967e-08, 1.0431689345459547e-07, 4.1371691430200325e-07, 1.1454296850013085e-06, 3.7383000680282525e-06, 1.6990370235632986e-05, 5.385776423631336e-05, 0.00021120653430477222, 0.0008243688791400322, 0.0020135256270409096, 0.007527871807759556, 0.02199349808452237, 0.054003458810540306, 0.1244230047489039, 0.21350361867079004, 0.3457862919554156, 0.3871282657567362, 0.39519289148510056, 0.28277277263414335, 0.09412409577678818, 0.22419824076152292, 0.3876816972516383, 0.31998863992510757, 0.13855027382512167], ""exps"": [204300.09153554038, 31197.66494728029, 18503.02075096841, 15425.683752669223, 11344.864652649589, 2905.391444962976, 2053.3615326679796, 1566.1747784431448, 427.9155681079761, 373.2170637665097, 185.21632051490278, 89.96073215388918, 57.64515113328915, 30.164227937517165, 17.52628258681071, 11.561174153275129, 5.783350691645969, 5.364070897879748, 2.300684358771159, 2.3006800404827636, 2.3006793372138947, 0.12056055638618154, 0.12056055581457853, 0.08017822230624003, 0.04845237909182103]}";
"""be"": {""num_s"": 25, ""num_p"": 0, ""coeffs"": [1.9287240864228682e-08, 1.0379215088329268e-07, 3.425093115863741e-07, 7.396385563272822e-07, 3.6172440290492874e-06, 1.4366874817279518e-05, 3.7278626258007256e-05, 0.00025222814306548097, 0.0009831429710672416, 0.0016554832497585113, 0.0073997213354621534, 0.019762182592577, 0.05675436483692374, 0.1254046489584731, 0.2628954701385271, 0.39924642515479875, 0.37708986640637326, 0.3806024820934746, 0.24007429157950716, 0.11462065874426744, 0.3769922405423952, 0.5631766247033663, 0.3683320391268729, 0.6660466523123016, 0.03865500913231411], ""exps"": [143301.82871740195, 47575.77102627166, 39304.011468939454, 18498.88313739565, 5796.478122230615, 4777.272487684822, 3273.268492290023, 741.284994518907, 718.1450303106974, 304.2506828860805, 160.4006856096706, 120.92254889187203, 47.66590731738049, 39.361188850217395, 15.095401979074856, 14.847254066676276, 5.605284014874595, 5.605283871603415, 5.6052838695952, 0.26417216641258373, 0.2641721664106929, 0.2641721664067458, 0.2623578928461035, 0.12492281481597997, 0.06545914134760382]}";
"""b"": {""num_s"": 25, ""num_p"": 15, ""coeffs"": [4.602447834567881e-07, 7.284396656844756e-07, 4.6877303829439005e-07, 4.133716318144676e-06, 1.8274238133484667e-05, 4.989194193316887e-05, 3.064061406368879e-05, 0.00025317734330653613, 0.0010061291629896488, 0.002712214480114377, 0.0049326662651237845, 0.010723617064294118, 0.024829239219676988, 0.053416665125158504, 0.10085327327451259, 0.15734934384209537, 0.19883177830636398, 0.19805966518497412, 0.14832363417065808, 0.10062933748583067, 0.2147511586670213, 0.32659338878934463, 0.36704089335559115, 0.2969520548999944, 0.19904905194467754, 0.005787791373476381, 0.02156795126968397, 0.04560509582387869, 0.09260006898070422, 0.1600817048944528, 0.21421596135183288, 0.226278304350817, 0.17763696873615006, 0.06831869157556858, 0.206048303795739, 0.3756030041588717, 0.44393400334796845, 0.3723213231088935, 0.17629478587946001, 0.0072941547820736755], ""exps"": [48328.35202453351, 48111.02440623816, 5582.33016350322, 5545.1956526154345, 5536.990185656182, 5528.266147408644, 821.8128956029298, 790.4907661033212, 785.2222321237269, 779.5972144842615, 709.0224518917191, 243.60733953285018, 128.1371867272716, 70.02294086947984, 40.07150343681273, 23.756919236504174, 14.870358074590156, 9.709139274002403, 6.914706139079852, 1.2265261500909042, 0.6591103841927939, 0.4363448479878485, 0.3113920084713075, 0.24684051053931078, 0.12470217279365506, 552.0951708983418, 322.25745879162736, 161.79364470339635, 90.31946558022072, 50.80025900471365, 29.22880164288378, 17.741623735511446, 10.35406687410382, 6.954796100234711, 1.429959218151207, 0.9354527149174772, 0.6146035911279801, 0.3706687494200502, 0.2178132786782184, 0.0835663699486098]}";
"""c"": {""num_s"": 23, ""num_p"": 15, ""coeffs"": [1.0865970465032532e-06, 3.9970015327490003e-07, 4.106114645664862e-06, 1.7951548432504056e-05, 4.881893463620982e-05, 7.366859216646808e-05, 0.0005000638567449099, 0.001870060171847482, 0.0047693080061391585, 0.008715333700227422, 0.017828176754785003, 0.03961243754441219, 0.07926826919694228, 0.1346084273733831, 0.18906852477414088, 0.20860818906963965, 0.18261093873089498, 0.09932432340858427, 0.22593855132635807, 0.3774322884537657, 0.46334425749939895, 0.43473224284450934, 0.3111421995121115, 0.014613337322763265, 0.030201132437732918, 0.07198548567614334, 0.13115023881074298, 0.1961191092325087, 0.23793530735274906, 0.20790635240538125, 0.13126531635446506, 0.19077161964455042, 0.4081715161475335, 0.5604056498679343, 0.5066049259231957, 0.3569735809686564, 0.1632684726330115, 0.013108331479287994], ""exps"": [73524.28692680491, 8380.179074475116, 8261.614161552227, 8249.10214442886, 8236.461405863776, 1083.3942885287, 1065.3772588556235, 1056.5970326117151, 1036.6890633636751, 535.0276131346787, 265.30795752267204, 132.26151402449526, 74.46986259207151, 43.14518458581601, 26.38951279852682, 17.087037824734207, 11.098835514307405, 3.3584318476791113, 1.232369041982449, 0.8035998863472437, 0.5473283965984038, 0.3739087878299923, 0.2861857412549744, 570.4927391260741, 312.3520116296849, 169.94300063377298, 94.77249450769855, 54.11773762797962, 32.04676423936352, 19.02992445087363, 11.811635776292064, 2.4550027875955887, 1.7416890334846373, 1.087090429461013, 0.7172592575275575, 0.4261232033494331, 0.22860106127808552, 0.12556763738823717]}";
"""n"": {""num_s"": 23, ""num_p"": 16, ""coeffs"": [2.729745715436459e-07, 1.1161077501060326e-06, 2.1938230912409433e-06, 1.4300618924356856e-05, 8.482065919348969e-05, 0.00031433195148202267, 0.0007894939462709451, 0.0019776103989903844, 0.003912709235871868, 0.010367147614921758, 0.02548479802550733, 0.05524609403464414, 0.10487454642037318, 0.1627227978621678, 0.20625012236629814, 0.20644699183468643, 0.1624663653847804, 0.21237966849289505, 0.3886684630739307, 0.5435632275596086, 0.5759540354298258, 0.45173073344513803, 0.2921450740988336, 0.004580538451233421, 0.007057329953154141, 0.021217853395986648, 0.04863492046917987, 0.09542978018280744, 0.1674638077186651, 0.22031580683615182, 0.23776793880011823, 0.18504031398376275, 0.12617190923099286, 0.38069719421316284, 0.6149709443094478, 0.6771402560826593, 0.5458007129563052, 0.2513912769015173, 0.010922501132397767], ""exps"": [59075.50331832322, 57142.69340509326, 56220.89183783164, 4658.730889378901, 4626.518691747811, 4591.239381582344, 4298.601178437089, 1780.1460092585335, 926.4218942557711, 463.2678287595517, 244.06659624201217, 136.42832373689527, 78.38089167873117, 46.69176002806219, 29.202480515639586, 18.77790264404666, 10.452522510206148, 2.432071268512222, 1.4151769198273019, 0.936837180493368, 0.637712598301879, 0.5011900659829484, 0.24546320132126398, 2161.8488159631675, 826.9023409509126, 648.6460117500088, 313.4391118139806, 178.07421228320942, 99.70030484198857, 57.55830135151314, 34.59034276833849, 19.540472697207132, 4.866074919056243, 2.9690491337272578, 1.9043342536362098, 1.2381156894144143, 0.7310631202615625, 0.42782683113785247, 0.16366043741360456]}";
"""o"": {""num_s"": 23, ""num_p"": 16, ""coeffs"": [3.321689242241512e-08, 2.7532262907904486e-07, 1.0609290337831572e-06, 2.2618377730780048e-06, 2.579106942682938e-05, 0.0001413547175825311, 0.0004895544214117317, 0.0010447573293369938, 0.002428042851514212, 0.006156343880571251, 0.014480814903469294, 0.036056637585048706, 0.07325194978588358, 0.12967467179757744, 0.1843864046199502, 0.21491501327531315, 0.19260630367399892, 0.17990029127293053, 0.346371244139597, 0.5555214286252186, 0.6827834982793258, 0.6450790466357548, 0.4826137204844415, 0.0048328124737345955, 0.013842089132349642, 0.025549110814841965, 0.07101462179956605, 0.12033364182267929, 0.19717645433410422, 0.23237285043393857, 0.23073630758534877, 0.1387185757570476, 0.28435230645279, 0.5854716701412217, 0.7815517354704505, 0.7512518548256096, 0.5379952300172106, 0.25591999925184505, 0.020950238965416583], ""exps"": [749602.243752171, 75929.75167048992, 73671.8683164953, 69403.28991546495, 6713.172438488839, 6608.104136803321, 6454.014894285788, 3887.2497394594343, 2154.39535377826, 858.5297752357139, 466.32578124019574, 249.5294123980934, 142.90675992312163, 83.04107119883994, 50.71183517342198, 31.805720760010985, 21.41786889545649, 5.683769812746157, 2.592734274994727, 1.6065743952296885, 1.0811519996724162, 0.7040607244313897, 0.5153976047417269, 2762.421341264044, 1072.063185395013, 674.893107782049, 332.2114384442694, 184.53613169653556, 104.6234202147048, 61.3418769452138, 36.30364999835617, 19.94561653685835, 5.174706111010429, 3.3566930631391516, 2.1058747369039574, 1.3432552320654372, 0.7539736834588064, 0.38709777437850684, 0.20331506599921936]}";
"""f"": {""num_s"": 24, ""num_p"": 16, ""coeffs"": [1.5054915604741033e-06, 5.407628371764587e-07, 4.480825222500441e-06, 2.260155152485885e-05, 7.057660955172176e-05, 0.00012581530558528945, 0.00020021691299791335, 0.0005893251715751892, 0.0016185554932863927, 0.0029528307155089, 0.009090154038329412, 0.02068980292188375, 0.04734906372835757, 0.09285805614973447, 0.15168217448865987, 0.20403835059914968, 0.21913160102536036, 0.19250693124339002, 0.2642877117186194, 0.4860565179165593, 0.7014880373423048, 0.7641818283795303, 0.6529722875338969, 0.45062309211132695, 0.004067613957676924, 0.02438034967994142, 0.0360909181915863, 0.08665722611933606, 0.1510609039852551, 0.2145989285577782, 0.24907893881817897, 0.21417710522839048, 0.157040217138389, 0.4693798079310922, 0.7710672432514216, 0.9006010235028649, 0.7387726465593784, 0.48405142382859573, 0.2192530823665876, 0.01718051279725356], ""exps"": [129216.39355061894, 126884.77421847294, 10565.666364751036, 10553.241576457309, 10544.800676887226, 10508.025180971663, 9052.876485874303, 3728.4549024962325, 3283.370709325606, 2756.5090960889206, 867.1271484094451, 484.3298539830999, 258.7755371393328, 148.86251670588064, 87.47841163742977, 54.12189843252032, 33.96932249048726, 18.57782054780122, 4.758680603945065, 2.761794150784513, 1.8003708892415489, 1.2196363906530365, 0.7941846823671245, 0.5761824225215005, 3363.4454373413587, 1230.259895254787, 604.2011262889964, 342.3522556582186, 189.7392766284271, 108.7244309017069, 64.51182044716472, 35.49416213079978, 10.64956368601565, 5.718438976477124, 3.726177430296846, 2.3058376694548857, 1.4678516080939996, 0.8358504168036368, 0.4346238256782281, 0.23126979803286987]}";
"""ne"": {""num_s"": 23, ""num_p"": 16, ""coeffs"": [3.484159826564213e-07, 4.01108342803848e-06, 1.6083115794585893e-05, 3.712852320425465e-05, 4.5509524948161486e-05, 0.00033561834083755445, 0.0013208904580890243, 0.003530593814802293, 0.006356313582110054, 0.01227745956595337, 0.028152404371121265, 0.059630638663183515, 0.11150669467873092, 0.17016799892725615, 0.21487133520689544, 0.21354027830865346, 0.2072985195028882, 0.38546826465431105, 0.6453950017227209, 0.8357541399757965, 0.8234311529107621, 0.6446599208151754, 0.41562178237233754, 0.006757857816181055, 0.023880906140262195, 0.05201768404203747, 0.10183386477353931, 0.1765882803173704, 0.22791376682707726, 0.24947884765946254, 0.1846478706339654, 0.29464337857363704, 0.6552132544872149, 0.943520718845676, 0.9658440868430408, 0.7117583280931135, 0.42579997355724425, 0.1866258838456055, 0.014053208973223154], ""exps"": [28762.818072119346, 28679.140526966483, 28673.985439561322, 28668.267261477165, 2674.3282928736085, 2671.507597914983, 2670.489160811296, 2669.2181872679002, 2638.5064949776875, 978.2295718817927, 489.65474894058286, 271.0568833175974, 155.19009952620922, 93.2185990975825, 57.78300163682195, 37.2770242394187, 12.413830532461267, 4.964807935830611, 3.0384777662275404, 2.0032100181730166, 1.3591917947706245, 0.8921266982569803, 0.6411088035445948, 1619.5463238508494, 1279.169566904022, 609.7466506086241, 352.45580817150875, 196.2448301533784, 114.25339220014554, 67.20981259380979, 36.68938847461497, 10.092988922227601, 6.226902204312262, 4.001993233446605, 2.490531679207493, 1.5750705283124706, 0.9171236982511212, 0.4889797394933668, 0.26448268422721444]}";
"""na"": {""num_s"": 27, ""num_p"": 16, ""coeffs"": [1.2322774511884236e-08, 2.963236728786343e-07, 1.0193406996052299e-06, 1.0966459257697573e-06, 3.063287246275626e-05, 0.0001631679802500157, 0.00055471671142247, 0.0009708527138893037, 0.0024797188181222784, 0.005609701168298052, 0.013764487244822803, 0.035360416911601265, 0.07264741596649425, 0.1299416350308308, 0.18755599157776232, 0.2265437401911994, 0.2118844716014209, 0.2649055144962123, 0.5083054299713206, 0.7735239716486147, 0.8817611642146465, 0.7605728518286389, 0.5110864330627868, 0.2398710761291869, 0.32080728964819527, 0.4237888827140635, 0.11136552646631899, 0.005670925862079729, 0.012429428936975432, 0.025282664163848376, 0.07134595998317793, 0.12031446132253072, 0.19929752318352906, 0.24045175065355429, 0.25532270467198, 0.1512733498673861, 0.46624908102488166, 0.8342150649132036, 1.0383010268753226, 0.8929305105612516, 0.5565799734043915, 0.23946785105792678, 0.2073702099163269], ""exps"": [2398781.7449484426, 177712.04722426864, 177433.4326567781, 175745.24366871154, 12576.392477644677, 12559.082218946583, 12529.329330417082, 7445.965421613505, 4164.767444067301, 1608.747809411019, 882.2038713311118, 479.5651885983685, 278.1506779163849, 160.57794973436728, 98.6387919733105, 58.85343324336122, 39.65286743691152, 9.444900960240961, 5.176036724881986, 3.3390173712182856, 2.282026867812152, 1.5943963074572065, 1.1491419684178221, 0.57035206175368, 0.08782788462399914, 0.07242322851189667, 0.041288934718824936, 5232.697109923076, 1917.4945447707623, 1435.3848400004492, 647.5668088338435, 362.2816808840816, 201.59491045614288, 119.20362757304702, 65.56886599839227, 28.349609851437208, 11.131343440251703, 6.8525039017137646, 4.3744150196900575, 2.8255173706194063, 1.7699179592621124, 1.1821321435205465, 0.2003156264832784]}";
"""mg"": {""num_s"": 27, ""num_p"": 16, ""coeffs"": [6.856759788282603e-07, 1.1794681541617416e-06, 1.1903072857584957e-06, 1.25359930492626e-05, 5.569883519697639e-05, 0.000215773982664878, 0.0005601121698388914, 0.0012793308199863529, 0.00252651731478665, 0.007967254763712708, 0.017862086466545933, 0.04353351727944957, 0.08685885592052013, 0.1465345931039249, 0.20325977055880035, 0.22793965684443618, 0.2184673737823531, 0.3539322530689771, 0.633592597822236, 0.8689775575994697, 0.8813572996019655, 0.6747681377909934, 0.3743795709630571, 0.35818335317446454, 0.4979426361426338, 0.47895077716769635, 0.12288427426934079, 0.004694005199327973, 0.02309050290233258, 0.02978166825568394, 0.08439020415264692, 0.14213802027114716, 0.2136306469476149, 0.25525510501141396, 0.23353725810601747, 0.23273353415631062, 0.6174968609091023, 0.9767603953638632, 1.0589558250110591, 0.7848053495603765, 0.4052117061332589, 0.27741456965530165, 0.4580597573733016], ""exps"": [249335.9916431118, 247516.15681568044, 16338.431462523855, 15876.462155821215, 15820.299649253382, 15763.686072233233, 15206.475705717105, 5828.205894511108, 5185.836308573432, 1671.141578486161, 924.5682794354971, 492.80230439691917, 286.5847243385035, 167.4638380811256, 103.51912143359303, 63.728772979995014, 31.278534496859596, 9.357083352004544, 5.543790415405384, 3.6961520522620805, 2.6029217926612116, 1.8821649484142093, 1.1381970424286445, 0.24767433952706003, 0.11045423963961452, 0.10620970228821072, 0.05931846154147133, 6616.021575702161, 2274.1439734799083, 1235.1587205436556, 665.188933475712, 368.249090583131, 209.3306602474661, 123.46460211160257, 67.33788080430104, 20.028502058200317, 11.415322989510274, 7.420731299380923, 4.78471295635676, 3.1178625588719853, 1.985047316740125, 0.428547499594118, 0.23637177309463958]}";
"""al"": {""num_s"": 27, ""num_p"": 19, ""coeffs"": [6.288987569544962e-08, 3.490937487125848e-07, 1.1061325724451608e-06, 1.9084696297249312e-07, 1.4421746800507125e-05, 8.142202915989556e-05, 0.0002935270912654985, 0.0006893279875476335, 0.0017477034456254157, 0.0028312451470867217, 0.009456023915472334, 0.02266592227507001, 0.05160133127158835, 0.10071930109329756, 0.1612620166974197, 0.2144719578176148, 0.2264008489694014, 0.24014618016254993, 0.4560104666961024, 0.7552733137633699, 0.9297437820514577, 0.852591838797526, 0.5621143421200441, 0.34184296267044817, 0.4888667796113254, 0.48306364730276713, 0.43522144900495985, 0.005188443434529038, 0.007193684238272783, 0.025140971447555015, 0.04139394666665669, 0.09312352851580866, 0.16401193430331928, 0.22488083901266068, 0.2615142385043399, 0.21215578708870297, 0.3511947755015813, 0.7733866568589415, 1.091469923285804, 1.0140654550481574, 0.6795274838638228, 0.16669600400014006, 0.53038377192168, 0.6160711339706589, 0.3922225083960876, 0.013267393310221037], ""exps"": [311903.12899820035, 311818.4983816446, 311788.9073788998, 310338.9505187727, 17305.40056494104, 17301.045132324743, 17295.394264254403, 17190.521435172755, 6468.187123363208, 4645.746578764109, 1684.3808080739493, 914.4252545434688, 507.7448447360198, 293.62127966791815, 175.1197134261487, 108.07043234926228, 68.18565902941965, 23.06090478462555, 9.606400578600898, 6.008674880753119, 4.073940209331306, 2.941076708649083, 2.3357165352789844, 0.45697886260299203, 0.2476978064456703, 0.17960837511917982, 0.08112619628396438, 7804.716526710693, 2473.6562255878653, 2423.1944645421245, 1122.7306697983554, 678.7588225823329, 374.5797216047371, 216.65932491144537, 126.87238364502646, 67.61521454730895, 19.523248778162067, 12.160044986314217, 7.913553291365608, 5.202243854902637, 3.253999418353711, 2.0727268923617235, 0.5233044155371575, 0.3006318212841687, 0.168744556605562, 0.05148555985979424]}";
"""si"": {""num_s"": 27, ""num_p"": 19, ""coeffs"": [7.200780729226559e-08, 3.8083478538328267e-07, 1.164895963076526e-06, 1.3130023393613816e-06, 2.3400933304456234e-05, 0.00012544328418789198, 0.00043297426273020064, 0.0008489257413047284, 0.002224330992650977, 0.0037273870183486654, 0.011032338573950284, 0.027924693249776967, 0.06061407977117684, 0.11479390845111537, 0.17497309839177605, 0.2253831469276365, 0.2245309700862894, 0.2882660646194076, 0.5561517716412511, 0.8477660760585379, 0.9424511040181057, 0.7687230789470267, 0.378376602570787, 0.4916860533776059, 0.6198260307060016, 0.5433289724178157, 0.40222618615242345, 0.006468610113485601, 0.009028185797331674, 0.026235482546851818, 0.05466524003149173, 0.10468002821416264, 0.1840953868901303, 0.23411869060174126, 0.26998106001635025, 0.1805425442533116, 0.49338723082369257, 0.9133292942709516, 1.1435535618223671, 0.9278412552947791, 0.49755673402445566, 0.4727733144089071, 0.6821220105026397, 0.7401609126942844, 0.35629843647503473, 0.01772245225164466], ""exps"": [378263.1069903677, 378197.8764049126, 378175.4197358259, 19021.915174387115, 19006.957882889816, 19004.629362961008, 19001.05968311592, 18617.30213247769, 7333.428569977109, 2590.5509685680154, 1719.9260579639897, 908.0199253123351, 522.3862934091485, 301.2740941899191, 183.50432007323022, 109.87438468414261, 73.76122273868098, 18.855194658441164, 9.91609934476876, 6.547820382275122, 4.599083230070471, 3.5013066297243562, 2.3924358371352827, 0.41727827405946555, 0.2733757893157543, 0.22235527259437743, 0.10918293234636589, 8887.482395548146, 2778.9149779838576, 2669.655847546276, 1165.2592640097762, 698.4324910902583, 381.15750861460634, 224.32387417479418, 125.56256727556666, 60.50471548332485, 21.43449745682644, 12.886133467220025, 8.693189427280625, 5.563951387974121, 3.820373657559139, 0.8075893894146569, 0.5640758504317017, 0.3305890031319214, 0.18857818816636315, 0.07574800059677277]}";
"""p"": {""num_s"": 27, ""num_p"": 19, ""coeffs"": [2.2811130368446737e-09, 7.09500028749769e-08, 3.2813984324971255e-07, 9.97739351687671e-07, 2.926382649748842e-06, 4.2900159409513495e-05, 0.00022061068228764044, 0.0007325308147175529, 0.0009092160316997965, 0.0024855562616580835, 0.004757655488184015, 0.012831292121484131, 0.03375431218631902, 0.07095819550028575, 0.12869536689923483, 0.19084443287529845, 0.23461356123876223, 0.23529613502743507, 0.3530292808068733, 0.6605432985744766, 0.9251836969927718, 0.9463896684881148, 0.6706860139660739, 0.38622440842060396, 0.6529130343714495, 0.7563397317535635, 0.6249738971239444, 0.006474455439301756, 0.011316234901912813, 0.02705941803472722, 0.06899610121233413, 0.11981005698260784, 0.19903783153069055, 0.252385794995505, 0.26816467063645144, 0.211784903387389, 0.6273379684113959, 1.0563320888097256, 1.1462638375907122, 0.8695693076438785, 0.23521096064651126, 0.7992625158574378, 0.9175922542004172, 0.8409862014204696, 0.4127023761977829, 0.03728390076691853], ""exps"": [12629425.863325357, 470055.54893035337, 470034.193742647, 470019.9298966695, 23462.73405656287, 23458.457749545072, 23457.589326930312, 23455.97337870348, 11410.661868705334, 8187.465286441815, 2729.6238225668894, 1671.709560183773, 915.6779068955532, 537.2897619731981, 308.9720213035412, 190.21619823912994, 112.48362335719652, 66.69648420889683, 17.788091493461863, 10.404013356788232, 6.953313379018928, 5.122836959190654, 4.279039262189958, 0.6881464053758325, 0.39166579540890534, 0.30166010250410136, 0.2341844615760856, 9894.679145909495, 3239.3260026534904, 2961.986392442943, 1240.7016555410758, 709.6577121749821, 389.5742419248345, 230.6799345474379, 122.30487495907862, 42.30429039369899, 21.55809337364936, 13.744726673142562, 9.226237196259234, 5.683045361070192, 4.560533030147669, 0.9436659236050815, 0.6461978693583388, 0.38404557315339716, 0.1977274347979038, 0.10949578307856406]}";
"""s"": {""num_s"": 27, ""num_p"": 19, ""coeffs"": [2.074947715363392e-09, 7.793889494156798e-08, 3.2493141044113213e-07, 9.041201419085902e-07, 5.049588781897903e-06, 5.098912428224447e-05, 0.0002445826999237585, 0.0007636220739570338, 0.0011664477586096087, 0.002641992047530228, 0.005986520844135823, 0.014950327558759954, 0.0399036376151635, 0.080925871367344, 0.14153434427162054, 0.201584835200852, 0.23627824310445356, 0.2413898315415515, 0.4308177450047802, 0.7525242951531915, 0.965070651385895, 0.8999802010450192, 0.5217148392912956, 0.5494268921121227, 0.7849637181744578, 0.811369555481057, 0.6215984946772768, 0.006229510628705619, 0.01547612589191783, 0.026902057279259473, 0.084220377091035, 0.13278312451329177, 0.21349580190262943, 0.2583917163416754, 0.2542004928760099, 0.3029056393161226, 0.7424566957707072, 1.1442293693618302, 1.0937924049199501, 0.7279190305215939, 0.48781451270731074, 1.0024652265648726, 1.0248237657199852, 0.7669913720699009, 0.3747029190892854, 0.03530586118157207], ""exps"": [14770579.259198323, 558157.233567154, 558098.689551054, 558054.1094787583, 26613.770673482293, 26607.129822389234, 26604.961537973108, 26598.919281242568, 9961.818326265065, 9334.149491041513, 3045.6859995035757, 1585.9718111920981, 936.5454815380685, 549.935339327174, 320.6663802080964, 198.25774531166343, 119.44541271167046, 54.165271372671505, 18.025484350414903, 11.22551974104928, 7.561371093338369, 5.869908127121464, 4.8592386647957095, 0.6899379274907504, 0.4536491414550107, 0.3383831320146869, 0.2547210419063947, 11386.034330437633, 3851.4640670564977, 3153.2226810993025, 1317.8114884031475, 717.5143576984665, 404.1146196226002, 236.50902126512028, 128.97790193676963, 38.54421940259671, 21.921908517160766, 14.968552787674936, 9.537673243328502, 6.533653903078791, 1.2362450870693689, 1.0662814597894321, 0.6752696969307965, 0.4289765881179674, 0.22305889226666809, 0.12369773319498976]}";
"""cl"": {""num_s"": 27, ""num_p"": 19, ""coeffs"": [3.275115181581173e-08, 1.774819611276481e-07, 5.545119191612202e-07, 3.533644278648792e-07, 1.0025678710224185e-05, 5.9279501743002465e-05, 0.00022153617158337767, 0.0005615236039773081, 0.0014197246579467418, 0.0027919802020125854, 0.007879660982939745, 0.017996357865212233, 0.04561703510959764, 0.09095388402292275, 0.15269041964149127, 0.21228557984599383, 0.23598186671344604, 0.27426218582058715, 0.5258954305119687, 0.8523762296266801, 1.0187661758395694, 0.8435466284750629, 0.25259619672451183, 0.7152782695830314, 0.9473022860884421, 0.8429433652400236, 0.7061571152759734, 0.005280942867458376, 0.003874650473267875, 0.025165409957210585, 0.029191919026994615, 0.09148213906780492, 0.14849418389287178, 0.2222493346766906, 0.26915353471510955, 0.23361897337563511, 0.40122422826925896, 0.8990749873872764, 1.2072109612115414, 1.116162182207732, 0.5288897103382567, 0.8342854632641012, 1.283493448728462, 1.3371409293305008, 0.5985181333936299, 0.01789499250019425], ""exps"": [688290.4776803582, 688162.5706553994, 688114.507254356, 687739.4615497333, 32704.615952639193, 32702.22810748197, 32699.502909974402, 32677.338568767947, 10966.768497744975, 10806.727527965546, 3213.491472554805, 1707.526820100649, 954.480130259564, 560.4863581760536, 330.81033126325616, 203.1282107291664, 127.33780606986237, 43.28462452363447, 18.432952509737774, 11.742471401385274, 8.32532853025426, 7.298814781635403, 1.1239484320449145, 0.596283439689637, 0.5186070474310815, 0.3964163107759508, 0.20437831599357925, 13513.066918071072, 4450.227277254114, 4383.760877175642, 2407.107537765927, 1313.778983511487, 721.0295611995482, 414.16581785626556, 238.64649776678556, 127.76532395493771, 38.89819305278038, 22.472549309003107, 16.099352298685414, 9.255617811113103, 8.253185582899414, 1.461418329640095, 1.2042387021884948, 0.6981934570414828, 0.3877329494303749, 0.13254717513981742]}";
"""ar"": {""num_s"": 26, ""num_p"": 19, ""coeffs"": [5.260092833763817e-08, 2.295722400254271e-07, 6.083355603404964e-07, 1.4870498019568838e-06, 1.9724452416749506e-05, 0.00010585181011230219, 0.00036765810202581725, 0.0007463530308681368, 0.0018033544139201523, 0.002075456719715206, 0.008912638275113344, 0.02177923261058612, 0.05087137231553526, 0.10124403935966389, 0.16213247855740717, 0.22500248953852797, 0.23817211223735008, 0.3181517557453547, 0.6233619119194492, 0.9236930330491021, 1.0237210177044953, 0.7410469491816982, 0.4463428151508669, 0.9077476059805412, 1.1377735270764673, 0.993584107921442, 0.006146100295382249, 0.008319542029315157, 0.028678519519640802, 0.04023584006673366, 0.09367152008778229, 0.16819522100103124, 0.2249442409802937, 0.2909513577721665, 0.20810524221491278, 0.5058756217333824, 1.0674357826298435, 1.1691148860509875, 1.0743670498009215, 0.12345075002808628, 1.261963221347573, 1.5809313311613673, 1.485422242695145, 0.6726084592929505, 0.06092520844739116], ""exps"": [890923.9042811522, 890912.333176769, 890906.4156780227, 34715.181975214946, 34713.53571543731, 34713.08642537798, 34712.41016381502, 34668.6576025143, 13424.362431414322, 7411.675226083874, 3142.2146787919237, 1725.3243843919074, 976.1503161048128, 567.4780332006193, 341.7928658285033, 200.70440148560047, 138.80173806901064, 38.49409968740762, 19.57229992463369, 12.19705952926636, 9.389554888182843, 8.697456642012893, 0.904750935321011, 0.623342243582245, 0.5297335752193115, 0.42429392961245616, 15906.120129262725, 4680.275657913133, 4666.705009632823, 2081.455496422674, 1341.966412115134, 720.5237811485298, 424.66380412806353, 233.25029374060713, 107.55701435886174, 37.123812101645626, 24.30861240408095, 15.631575195656577, 10.173617448367207, 9.638855069931939, 1.7461907312913925, 1.365286219672443, 0.7543154812397191, 0.3486760432308663, 0.18552034757967847]}";
"""k"": {""num_s"": 29, ""num_p"": 19, ""coeffs"": [6.456616550411535e-08, 2.759713295231259e-07, 7.191334575547677e-07, 2.146711040198853e-06, 2.6714295017832265e-05, 0.00014039927445951464, 0.0004784002448116611, 0.0008633159181831346, 0.002177924174489698, 0.0030316669334272328, 0.010259279755149352, 0.025457792461260367, 0.05765085093203298, 0.1114639848533405, 0.17409530367989576, 0.23306435150991792, 0.2440711278729297, 0.3582522170158716, 0.6871565643221701, 0.9662388882085529, 0.9742522538104792, 0.5837884325527459, 0.5735182300406562, 0.9251662252286365, 0.9731223633932083, 0.7273538196613968, 0.3625777658884784, 0.7197899198126086, 0.10630540984025037, 0.0072873289587359405, 0.009541459645590467, 0.030307096725640213, 0.04835240121592674, 0.10361445644739406, 0.18129272772622515, 0.23817956366083554, 0.2912140520595971, 0.22734404175027229, 0.6154923168210368, 1.1389960418627159, 1.1916163476713018, 0.8887280732534617, 0.5969640689964005, 1.44036073425006, 1.4545575382337792, 1.0213591746009922, 0.42409478531357686, 0.27039138274449476], ""exps"": [910383.3187384135, 910374.0028855678, 910369.2977810468, 35758.18121275604, 35757.068786617114, 35756.73854318834, 35756.20780716796, 35646.33459790425, 13997.651124703903, 4224.538771514516, 3224.228585583785, 1728.6666720305095, 997.8199404130122, 578.1536096350058, 352.66812976687766, 205.09772921382742, 132.50837203573371, 34.650780551085575, 20.32507254826803, 13.223089983083682, 11.093433285547244, 10.147321622372203, 1.004027799010042, 0.7734254064039989, 0.6316739190825309, 0.5250512988593877, 0.2765360715883296, 0.05175318914820724, 0.02986360774300577, 16630.53546021677, 4926.880798957969, 4899.122115894198, 2131.384335288618, 1364.7518684682518, 732.3068409412168, 434.4069856722875, 233.91393854179566, 90.86684908953434, 37.349665177066406, 26.437536638441397, 15.408625789395959, 12.13053031019623, 2.114217502739066, 2.0341806593350484, 1.44908266571679, 0.9714671294091962, 0.6540341358386914, 0.1156786558107368]}";
"""ca"": {""num_s"": 29, ""num_p"": 19, ""coeffs"": [6.643371022256894e-08, 2.4715395419686717e-07, 5.71915492204744e-07, 5.091616256598939e-06, 5.446801418524715e-05, 0.0002746411544123485, 0.0009009163503268305, 0.0008170837727337138, 0.002344212159707394, 0.0036867366578551804, 0.01117985302179716, 0.029481099380760087, 0.06494449775987221, 0.121888479877872, 0.18763218526508016, 0.23808196976100404, 0.2549590052744185, 0.41698449047158576, 0.7456065751671983, 1.014931198640714, 0.9279652283754899, 0.21845626227630824, 0.7017425729740177, 0.986801095107436, 0.9167264210377418, 0.5977244567219657, 0.545394984327109, 0.6861343439855124, 0.18288283479693906, 0.007196448127355975, 0.011013592809808577, 0.030876807465540845, 0.059537024769948606, 0.11393746952266835, 0.1934240133207758, 0.25673150489929186, 0.277943018271527, 0.2565475874993557, 0.759073628882253, 1.133662258002444, 1.3052943705386413, 0.7333556726847903, 0.9715118202808644, 1.7354735779249655, 1.4680145792213104, 0.8776859288640406, 0.432526091664099, 0.5185930157988635], ""exps"": [1121530.6990435387, 1121527.0508331016, 1121525.0499053085, 41754.01631333123, 41753.93902182778, 41753.909872087446, 41753.85408529538, 16828.178767303914, 15353.4234962836, 4198.576379423923, 3179.290072026843, 1723.6742231695523, 1014.74202049281, 588.9066460577994, 360.30644847356245, 215.89450601874836, 115.66664752648254, 33.80443801414886, 20.245736316452373, 14.311894130087168, 13.40350911423105, 11.616211540061075, 1.0216935180381939, 0.8541213416413456, 0.7455568810787351, 0.5799717316632177, 0.1553298854493473, 0.069237465621235, 0.043652737662547965, 18162.661441630502, 5464.2750581892, 5408.912730169928, 2265.341822969617, 1378.117069271326, 749.4354350561222, 437.1746054013883, 235.0838230410563, 82.00651582707182, 39.49392117911703, 28.673068925774437, 15.762865164687, 15.25586288906549, 2.4499309105929665, 2.375778607140694, 1.5972896539626218, 1.1468030403420808, 0.20741772335663508, 0.11843042112881308]}";
"""sc"": {""num_s"": 30, ""num_p"": 20, ""coeffs"": [6.211106104372056e-08, 2.1432510438915887e-07, 4.210648287045712e-07, 4.612719781261457e-07, 8.849000352347164e-06, 5.5457694904615005e-05, 0.00021655905178491589, 0.0005892463154800354, 0.0007854170451095159, 0.0018526698441289995, 0.004052528723182488, 0.012048773255648876, 0.03380645577861687, 0.07252278263252701, 0.13151574642049907, 0.1998429647874473, 0.24134786012938084, 0.2791015521422068, 0.4870184555479073, 0.8118796048939197, 1.0424830856338767, 0.8764776757998132, 0.34800134236551744, 0.8133040362149623, 1.034686246341805, 0.9117986035401419, 0.6579783260716106, 0.6085973406804326, 0.6487215147398462, 0.16861774623991208, 0.0020859550669497617, 0.005746227851124953, 0.012727413582090168, 0.029423413485799747, 0.07313744142046257, 0.12452974567963852, 0.20244215763067705, 0.273959966076304, 0.26294204119309517, 0.30748327892458066, 0.8821462148132093, 1.1310601588383125, 1.3064372579649843, 0.5428178380879355, 1.2949368536570065, 1.9186514498680194, 1.464471374028164, 0.7429464075658888, 0.5213144707011804, 0.5134283339005897], ""exps"": [1420318.2254836415, 1420317.658122408, 1420317.2665591384, 45182.35430791674, 45182.144200155344, 45182.09340040112, 45182.048343256036, 45181.943646153006, 44953.93434290347, 17920.055499086822, 4545.8337472126905, 2884.4185017840377, 1737.5660094075772, 1037.031541114141, 601.636895379349, 366.3628100000344, 228.95352059242768, 100.65234997816802, 35.439584385823345, 20.514820444886226, 15.617151013172503, 14.950517033930131, 1.44691194251484, 1.1397189592967891, 0.9679831313564718, 0.7854296454639405, 0.4399684007970631, 0.17048335800427364, 0.07610718262217347, 0.04780515146874366, 21427.602567624726, 21427.45815486063, 6379.53682905644, 6247.35359060787, 2462.8430763050837, 1381.344231745269, 767.1364144164697, 439.56306679803157, 228.78544123066055, 70.953224642708, 42.22140788842586, 29.17276734068347, 17.441524459231623, 17.252778917168946, 2.765348048627802, 2.660166501749904, 1.6515518433793492, 1.2263102313869734, 0.2374245420198952, 0.13082311871342672]}";
"""ti"": {""num_s"": 30, ""num_p"": 20, ""coeffs"": [6.973833661095569e-08, 2.619141482301004e-07, 5.736945952627652e-07, 4.82292073392943e-07, 1.045454842604322e-05, 6.547172256634276e-05, 0.0002549217126171178, 0.0006908506293378476, 0.0008342774634453907, 0.0020758518123248325, 0.0047227879736626895, 0.01375711206301827, 0.03796479778457409, 0.07964390584345399, 0.13977228870556155, 0.2081694517169298, 0.2407892742914993, 0.30431406793380933, 0.5772687588091376, 0.9143033978919257, 1.0801802594064924, 0.8251103624058823, 0.5300925098949115, 1.0136080248837254, 1.1759374847029476, 0.9680311230759358, 0.8093594846381504, 0.6326408404179544, 0.6362413107037611, 0.15331079615717016, 0.0023877776448310863, 0.006222652404038512, 0.014531525915990318, 0.03157335620989166, 0.08170597680034376, 0.13495637009752803, 0.2094516719238974, 0.28278273387887515, 0.24472911145874404, 0.40284513596811106, 1.0283988076748705, 1.2243957732378143, 1.223154818337159, 0.12117448888492922, 1.5092330103429634, 1.9412815668444332, 1.545668180803912, 0.6368350792009394, 0.5046251509168971, 0.5048955566254569], ""exps"": [1351789.2099721017, 1351788.4246767233, 1351787.9218114943, 46739.8840118478, 46739.54387129853, 46739.47642115172, 46739.417066557144, 46739.27591182033, 45643.21247986933, 18258.969604059526, 4771.761455838323, 2882.0589763948237, 1765.60354925886, 1059.2027113791873, 616.9453890696217, 374.0297902886791, 244.25684783133113, 88.33388117247439, 36.23316621193203, 22.274848098431395, 17.566084076698, 16.355848619018335, 1.5793645020211327, 1.322048748256898, 1.1635533857756397, 0.8343232718205326, 0.4246482777961188, 0.18236944603920555, 0.08100698325267909, 0.05069045714321544, 22081.937582279246, 22081.7156287313, 6629.381226784866, 6436.5144595408065, 2526.807002501357, 1396.1565058076187, 782.702794673977, 444.3755655579988, 223.6240924500126, 62.007550975413565, 43.470005119087645, 25.76885698707051, 18.828454185733897, 3.6406832742570585, 3.252393413732407, 2.805742769253403, 1.7539783765105867, 1.145263620101697, 0.2616151008174679, 0.1426100306157433]}";
"""v"": {""num_s"": 30, ""num_p"": 20, ""coeffs"": [3.4369748742448514e-08, 1.525736404100347e-07, 4.086306097562349e-07, 5.58566155440877e-07, 1.4922305537538238e-05, 8.949125890322183e-05, 0.0003391445560754505, 0.0008908542573190974, 0.0010266085368100585, 0.0020702935767871384, 0.005394475432095913, 0.015370665127561576, 0.04247855929688698, 0.08724435689673452, 0.1485717360065673, 0.21601236510333335, 0.2433442726818433, 0.314313334984562, 0.6130867504956402, 0.9395539383701078, 1.0466858926466567, 0.7120098259567006, 0.6882988852834465, 1.18858741640626, 1.3032481648806291, 1.0022154440068256, 0.7554437010492926, 0.6250310660252427, 0.6009344953966429, 0.1417331866937105, 0.002945751028075089, 0.004664554189975676, 0.018914119979083495, 0.02833442579414085, 0.09451851580429864, 0.14593012862295474, 0.21739606439382778, 0.28839218513232573, 0.24015253700126976, 0.4715108973518563, 1.061313453127655, 1.2476593897932733, 1.0875416337668105, 0.6244381453555965, 1.7511559272229653, 1.894964919394942, 1.5231113573185842, 0.5843802899019204, 0.5365074997701974, 0.4821772036779206], ""exps"": [1872867.5044595213, 1872866.2077232536, 1872865.4977043257, 56814.46800301618, 56814.111243615174, 56814.0672361813, 56814.02234676048, 56813.84628352515, 21221.16886887845, 20915.36213223948, 5441.725649041882, 2721.9855451738113, 1787.0861005882125, 1079.9420818588756, 633.895130748359, 382.41205828865526, 249.8910422480179, 81.41190495606142, 37.471576860022076, 23.42137552612669, 19.42111611586728, 17.840669291298962, 1.8169167574385294, 1.4110986987971852, 1.2510996230052827, 1.0077554810440608, 0.4219123297837533, 0.1879681274416979, 0.08538676355212112, 0.05333076771691096, 25101.937059407366, 25101.680779151044, 7639.535951303932, 7062.2232329023245, 2697.6802449294755, 1406.9808081717238, 800.8746310257646, 451.99396398507986, 218.59106879253366, 65.2011480786648, 46.92608921686231, 27.37702091757584, 21.275688864118784, 3.8459076882665872, 3.727072088937332, 2.7520002929576357, 1.7424689084034064, 0.9039089817961329, 0.28325324881406366, 0.15037004434961448]}";
"""cr"": {""num_s"": 30, ""num_p"": 20, ""coeffs"": [1.8697901357532684e-05, 2.8263979974929605e-05, 1.7159186815987696e-07, 3.1829967496305265e-06, 2.0776258302075752e-05, 8.378595011496737e-05, 0.00023745362368950086, 0.00045667695078490815, 0.0009388547032764296, 0.0018579754908253352, 0.006287181662969137, 0.01732951446318517, 0.047170420492803664, 0.09454217045790585, 0.1576953432542456, 0.2233582929075332, 0.24675157546573073, 0.33819106358152945, 0.6560152526963904, 0.9705924558668177, 1.0171932890102229, 0.5542751509311261, 0.8935760227757191, 1.3902496568608267, 1.4904742198654084, 1.1659490588624934, 0.8023524321153149, 0.6485519242828711, 0.5801615910023211, 0.0943695790132186, 0.0006273410165442723, 0.0038836247135392256, 0.00477950176983654, 0.02351178871181874, 0.02890544394222303, 0.10474995675202116, 0.1550687608865219, 0.22792837929464502, 0.29144623557885235, 0.23843341676369872, 0.5528490125825768, 1.0941874414674113, 1.277770105156723, 0.9578602401200004, 0.9358584213211187, 2.005017737659562, 1.9837679206758976, 1.5242726969726499, 0.755703228075114, 0.4346467115236696], ""exps"": [284568.8895603087, 284568.80805108394, 77836.4716141596, 77120.28360058638, 76992.91989571272, 76903.61153570897, 76764.77421192707, 75692.09683332746, 21502.67490736629, 21234.343399409245, 5786.657722934937, 2726.2450508803095, 1817.8512224743438, 1096.7301403225479, 648.9657561575528, 389.70936623116387, 251.60320866364725, 72.73249363444475, 38.113584836903556, 25.28317159361645, 21.204785430433176, 17.809479058571, 2.212912705127976, 1.5759551233192777, 1.2670758812315948, 0.9232147808027055, 0.49221421716996117, 0.16200929236713846, 0.09535468225234114, 0.05260806000372273, 91841.55557174142, 26602.789997487656, 26601.627160502052, 8153.9732704380895, 6932.119390775641, 2739.043892652697, 1420.0867118104543, 814.8374020207559, 455.30865859026, 210.70920332751447, 70.59815932331774, 49.12648110873181, 29.285851588488278, 23.435392931907533, 4.28295216317095, 4.067387493284393, 2.683612455635847, 1.7023572725543352, 0.8110381127765572, 0.3500979996778355]}";
"""mn"": {""num_s"": 30, ""num_p"": 20, ""coeffs"": [2.498371872580577e-07, 2.222527192867413e-07, 4.140043034057704e-07, 6.8838752702224695e-06, 4.389359089384555e-05, 0.0001744444698905974, 0.00048695594161331603, 0.0008990995474708413, 0.0016798633842215792, 0.0021205224627874916, 0.008036024580565036, 0.02015804957322374, 0.050249820278669734, 0.10099793141481689, 0.16554792743013716, 0.23017976128044723, 0.2520850057251616, 0.38147484130662396, 0.7247960972682144, 1.0415367062185759, 1.0278547899445258, 0.3507768719897096, 1.0315356969025615, 1.4841478706045432, 1.4871274278644389, 1.091944967964606, 0.7620981464480799, 0.7221777831843943, 0.6659725079252301, 0.15456038736866412, 0.0015703770277166293, 0.006465458360210341, 0.009753267849931567, 0.03467189059804782, 0.03744219387445501, 0.0983870532780015, 0.16802766934303887, 0.2361778757781938, 0.29592717061668133, 0.24066323652491675, 0.6759717585394307, 1.1652222794181577, 1.3791140377887272, 0.8704547666086592, 1.202536466724717, 2.201507678830109, 2.035206618265598, 1.3817984658879021, 0.6153653489005538, 0.5850652209905582], ""exps"": [2547365.042907268, 2547364.916365755, 66181.92698008944, 66181.91112630015, 66181.90601504438, 66181.90168818149, 66181.89318545179, 66181.48205027264, 26476.91772642429, 6264.411684025147, 5633.848251360251, 3169.9847300740266, 1847.7477663266957, 1092.7401617799478, 661.0142495676429, 391.7196525117099, 247.76037759469187, 66.55066933305682, 38.27586401449506, 26.512635612273023, 23.431495138494988, 3.973916786919387, 2.2873552700453392, 1.7119628877368758, 1.3509204758492406, 1.008900640203981, 0.39464287867400255, 0.13253448053392197, 0.10280956634849722, 0.05945567469913028, 30858.212757026096, 30858.201302531757, 8765.46472461191, 8763.751388043134, 3783.8256449583196, 2625.260261046271, 1403.8152718486313, 824.356155740765, 451.45081527576207, 194.4322637409968, 74.68561852319822, 51.26236873270926, 29.808375982971473, 26.651992160629288, 4.711861026332162, 4.3746495413682736, 2.825941712549741, 1.824199784540962, 0.831145788984714, 0.28615409405177716]}";
"""fe"": {""num_s"": 31, ""num_p"": 20, ""coeffs"": [9.288695059864905e-08, 2.340624835119785e-07, 2.657464438793458e-07, 4.6886861466554586e-07, 7.71769302399582e-06, 4.910759977209025e-05, 0.00019470063384172055, 0.0005416267022817245, 0.000987089704252593, 0.0018565200622976783, 0.002545494589386975, 0.009028124195605692, 0.02260701025602115, 0.055230215837646555, 0.10803971229557989, 0.1755282175466552, 0.23582982793483775, 0.2582799150229091, 0.41039588782373465, 0.7526690812242652, 1.0430129608729977, 0.9703114847379474, 0.5801107097522048, 1.238523183268489, 1.6418202036903087, 1.5516489789066061, 1.1226341779360007, 0.7699779405562862, 0.7092528019382148, 0.6304251876292378, 0.14525000923152825, 0.0017673074873076186, 0.0070279624456059415, 0.011038318172571115, 0.03753540065893004, 0.04242310523459563, 0.10704394585807023, 0.17533459239602278, 0.2511989517986699, 0.2920474827074318, 0.23624040784268505, 0.7657540971783037, 1.1611592255399148, 1.3650586736618107, 0.7028567210027985, 1.4659727868381969, 2.312448053688258, 2.111033219544444, 1.289537276786854, 0.6338155277227469, 0.5939479941431135], ""exps"": [2440396.1527631325, 2440396.064120076, 2440395.9843031303, 67391.08495758577, 67391.06580919493, 67391.05966927491, 67391.05448406357, 67391.04425836216, 67390.49623907203, 26992.94892515432, 6298.982758195263, 5712.7264572856475, 3178.446332991232, 1885.3539882729842, 1103.4760604664425, 673.0779016782025, 399.78618599579545, 240.23665985496254, 65.4496113695689, 38.605442695374286, 28.081758734959234, 25.242181810100107, 3.746311796355126, 2.513316867736632, 1.9355570663269406, 1.4388486929128397, 0.9899517600637813, 0.39763218580221815, 0.13889701313434244, 0.10805860840865822, 0.062399364270190466, 31466.846978006408, 31466.83290798383, 8942.980791959466, 8940.53412368796, 3782.442129937945, 2649.448100534272, 1409.8539836890002, 834.140697085767, 442.4907107943269, 178.9350921724159, 79.35504791246282, 53.73824390317227, 31.91703391441501, 29.60688191526066, 5.410553410098777, 4.577116314425905, 2.881330617816399, 1.830880606101857, 0.8316887771997912, 0.30161330845228695]}";
"""co"": {""num_s"": 31, ""num_p"": 20, ""coeffs"": [7.014583709543354e-08, 1.719927562775851e-07, 1.9579419514634935e-07, 5.319609904001648e-07, 8.460378138095411e-06, 5.2955591936655925e-05, 0.00020748238468353485, 0.0005681676571600663, 0.0008839859288658497, 0.0017149429289922814, 0.002913140740812098, 0.009297199323440097, 0.025688118790527036, 0.060159212955225076, 0.1160340114656685, 0.1860961451305427, 0.2413019596908166, 0.2727177425806871, 0.45502856945628556, 0.8021341927674484, 1.0571181107286047, 0.9168182599829828, 0.7490889206545308, 1.4334283486780495, 1.7931245483617058, 1.6089277592933622, 1.142335081649458, 0.7739744521597883, 0.6927630824543457, 0.598812903484506, 0.13696865682025788, 0.001988603792389591, 0.00658861510424054, 0.012217720253018803, 0.03572664375934715, 0.05295008305454657, 0.11182661664771143, 0.18687935860034277, 0.26541407391026534, 0.2866534735754097, 0.26245373244966674, 0.8520341688619455, 1.191022243160295, 1.3323360628456904, 0.453548657995441, 1.7710901751965429, 2.4519292335439946, 2.187837612389568, 1.2334381116249367, 0.6363393008869543, 0.5895581303578253], ""exps"": [3120675.725923396, 3120675.646794952, 3120675.574983264, 76164.85742136996, 76164.84889520037, 76164.84605860434, 76164.84355503874, 76164.83818327123, 76163.4505630397, 30428.826811379902, 6527.242881451121, 5680.516882472736, 3135.598186618151, 1915.4728607610411, 1114.4695328498449, 684.1300910792589, 411.42688779282514, 219.34306305781604, 66.15679780454906, 39.98632980031348, 30.26608590847833, 27.071875431534334, 3.889170121802683, 2.6577965240218715, 2.098908763454252, 1.5324765446232675, 0.9944047654406412, 0.40357450694296, 0.14469240196636093, 0.1125829726380766, 0.06502132858667553, 35626.574364938235, 35626.57040931768, 10063.302151942988, 10056.000788236932, 4096.180622178995, 2703.9150965728822, 1431.4316151230496, 838.3715425784688, 429.66371119030805, 148.17716239381775, 80.66920876126522, 53.28174164547947, 33.714867560437405, 31.083146458968145, 6.149117354548057, 4.766579212104978, 2.9970314577305994, 1.8145086495190779, 0.832332393713195, 0.31363144811534216]}";
"""ni"": {""num_s"": 30, ""num_p"": 20, ""coeffs"": [7.070026988416797e-08, 1.795555232145069e-07, 2.214196581397593e-07, 5.998592649396607e-07, 9.64964842261036e-06, 6.021336438509285e-05, 0.00023507638028909462, 0.0006403779391774403, 0.0009329067449426494, 0.001827159780376953, 0.0031730022784326965, 0.009987105035743609, 0.028127460952158078, 0.06464756679945487, 0.12264586084846803, 0.19281525244578848, 0.24316585056284132, 0.2843704767630163, 0.5072974045148695, 0.8702150200692491, 1.1129831734705076, 0.9185411812480043, 0.8920043143303235, 1.5917435719526445, 1.9076450968565728, 1.6411146850614808, 1.1649514701471382, 0.8405261017851589, 1.0317824076491502, 0.12477985871332929, 0.002232217088277438, 0.007083348127224258, 0.013536943622638948, 0.038038071540750513, 0.05918796128280042, 0.11839691447973529, 0.19552808325962842, 0.2712705556517459, 0.27973996255622446, 0.31994587711798694, 0.9240687570291223, 1.267632651397675, 1.3585110955310034, 0.49130886818020014, 1.9726650740547502, 2.50825695456519, 2.2218329588839674, 1.186754376513908, 0.6183898238222791, 0.5893961883780559], ""exps"": [3239389.3979603914, 3239389.3374694786, 3239389.2845642744, 78649.42019054691, 78649.41385569239, 78649.41180855822, 78649.40999843462, 78649.40605651154, 78647.4735538032, 31473.54924352457, 6616.711241812783, 5619.940249114981, 3147.6173265185193, 1935.4507854408268, 1132.1792739141117, 699.2078674705414, 424.48597661240365, 200.74682051470336, 67.6766430026339, 40.52241632836066, 31.095121770624935, 27.577864667650232, 4.097630240580701, 2.761043567116475, 2.222399609613682, 1.596685204411807, 0.9789145778523741, 0.36080051806016483, 0.12467665476025823, 0.06685203791304664, 36850.7832683522, 36850.781176244775, 10435.426861923046, 10428.10096534865, 4214.449651540736, 2745.968472884017, 1457.5809932566617, 852.9798368192814, 435.20414337008503, 135.27835979681095, 82.78274916480342, 52.95992962787268, 35.1504996060014, 7.453354751371536, 6.607204874542856, 4.755377343745997, 3.041773302053983, 1.6849740747162372, 0.746687806749783, 0.2920848306280394]}";
"""cu"": {""num_s"": 30, ""num_p"": 20, ""coeffs"": [6.716821465208374e-08, 1.8276321702336808e-07, 2.589472437351048e-07, 6.556502859338607e-07, 1.0786361972992685e-05, 6.696852451314727e-05, 0.0002602370365143067, 0.000704193951978065, 0.0008670392410975673, 0.0018842577296102148, 0.003562546602018167, 0.011013458833825325, 0.03136163197157595, 0.06974078013002553, 0.1296485233060194, 0.19859944470657967, 0.245067577999024, 0.2906251344571823, 0.5395683814119482, 0.8957998386417737, 1.094266186561357, 0.8369514068212808, 1.0948026443285204, 1.778809931259731, 2.0520856696353116, 1.7592302556522157, 1.2383024837493075, 0.8197913420438417, 0.6841351356538076, 0.11091311318243963, 0.0023980159162885145, 0.007018543997313386, 0.01428636302087348, 0.037601795116099755, 0.06732577670905905, 0.12387797782915617, 0.20426342584309995, 0.2733224291724604, 0.27563180949417154, 0.3726338549053013, 0.9496476574310877, 1.287660745738935, 1.2480323782533371, 0.8133503376899921, 2.175350204746903, 2.6029968957616965, 2.192250667357194, 1.2893501216008234, 0.7172016809664934, 0.45772918398154905], ""exps"": [3331008.600060524, 3331008.5115091, 3331008.4388972344, 83501.82767674178, 83501.8185812926, 83501.81579078376, 83501.81328871503, 83501.80758908148, 83482.42079202598, 33321.963722919994, 7141.099483334921, 5630.813524809675, 3228.2130148457677, 1975.7834263876825, 1157.6308197028675, 717.6605168104463, 434.2573932852483, 187.2366448670035, 69.68201931011188, 42.989227103013754, 33.30172643259596, 27.422877506348357, 4.578770224619176, 3.051133789609999, 2.2863284591046664, 1.584607775240571, 1.009295505695298, 0.4786330694491832, 0.11887881778614749, 0.061055931468140576, 39197.56491880371, 39197.560813546006, 11143.585846983286, 11126.172043940778, 4442.110094240476, 2772.8867516088867, 1486.9935247884755, 870.113487822627, 445.0995222569775, 135.1053797518297, 86.49992361508832, 55.540936461445, 38.04357265034427, 8.007703980422987, 6.975418322418234, 4.708055442366114, 3.0472371542286045, 1.6803586214235404, 0.8124468487964086, 0.3272129258053116]}";
"""zn"": {""num_s"": 30, ""num_p"": 21, ""coeffs"": [4.031930831379618e-07, 1.5010396758587734e-06, 2.5323059496272065e-06, 8.637072895556467e-06, 3.206065813180815e-05, 7.943280080643078e-05, 0.00016578278058625517, 0.00036469550696108374, 0.0005175441169364708, 0.0013230145745985835, 0.003439780799601437, 0.011382500475558676, 0.034092497028134244, 0.07439515623861036, 0.13632487363809365, 0.2050267811690965, 0.24741677689399574, 0.3040419205014316, 0.582092747587453, 0.9325966385519617, 1.0801541938958914, 0.6939563541533932, 1.2703540401678355, 1.9431796585325198, 2.1229335128200435, 1.7144229516660157, 1.168957204695257, 0.8073146950132297, 0.9250040493833845, 0.10870278631837366, 0.0009238231494476091, 0.0027920002446534726, 0.006660171962710773, 0.015967345871244532, 0.03652715899770276, 0.08008005115038139, 0.12960439001063545, 0.21296713953600777, 0.27834511446258153, 0.2709772478441961, 0.43451056777876773, 0.999864569951308, 1.3172230469728017, 1.141271476470524, 1.1107604316298385, 2.4418966115684375, 2.6824872886636717, 2.1319704034766485, 1.1592227120254073, 0.6082869153461543, 0.5693768092792196], ""exps"": [375982.1609908995, 375979.88981343416, 375976.48970867594, 375970.14567447104, 375955.3579486574, 375652.93591351603, 138691.58281048108, 137045.96290252273, 37012.85978591409, 37003.51810959606, 7297.051969659804, 4833.131195382323, 3226.8113779477894, 1989.7341874389042, 1175.3154745366528, 730.4290302558742, 444.18480079577887, 169.96982501493525, 71.17899483980749, 45.79672786193885, 36.427270724119076, 25.944755138456365, 4.7843761003520395, 3.220200441743728, 2.444964340171799, 1.715865548358347, 1.0120704088349253, 0.3759262109184551, 0.13160072117889182, 0.07103711617857847, 161127.79205929535, 45271.32811292476, 45271.327313729984, 12548.46104594892, 12533.377930869705, 4789.868998838726, 2779.9918028476645, 1518.3378950317888, 879.9972670388805, 445.272073804424, 134.46635422935964, 89.62319374062668, 56.6553286486164, 41.430137650243985, 8.557196837208494, 7.474952409828396, 4.85186520806286, 3.169139736209503, 1.650837028654418, 0.7216269504809828, 0.301882005704384]}";
"""ga"": {""num_s"": 30, ""num_p"": 22, ""coeffs"": [4.096873419033111e-08, 1.2394827036372854e-07, 2.1720577591290204e-07, 1.0672984417134955e-06, 1.839406879996876e-05, 0.00011198494431052758, 0.00042859728450684166, 0.0011357272846378962, 0.0008171850252554282, 0.0019478810588028873, 0.0039808131349724695, 0.012754591369853132, 0.03741182030695689, 0.07995355689835514, 0.1434077394049758, 0.21254092890690363, 0.25120313352217294, 0.33066680419566236, 0.6465977908355148, 1.0067247239494042, 1.1167577467819652, 0.5070870029622055, 1.3647936278946757, 2.010370911946333, 2.0910660028371377, 1.5972317518957941, 1.0507997469220942, 0.7774576233060498, 0.6456311387672069, 0.43594974655540647, 0.0028268141555230475, 0.0065957377888092835, 0.01720922147264192, 0.03832179593537815, 0.08653529708281707, 0.13720128009232477, 0.22043513827262673, 0.285871368042816, 0.26864190473487065, 0.5158026113762649, 1.0956079028623606, 1.4034481225240303, 1.1042621754304967, 1.3711387865172622, 2.69554213322497, 2.704548543741657, 1.9989351227646348, 0.9771734761248462, 0.6431296617063103, 0.6588181744077359, 0.4264087416227523, 0.014697568637695745], ""exps"": [4495101.057125117, 4495100.994400813, 4495100.948589892, 99518.43062386925, 99518.4293128279, 99518.42895837461, 99518.42862170126, 99518.4277073609, 37957.677534587485, 37867.5483224558, 7786.546316680893, 4976.66187154657, 3292.1602148756715, 2023.8318638041796, 1194.9136301470821, 739.1926025590232, 451.8610448804677, 152.84467245697806, 72.12537979214942, 47.51294070963441, 39.042895916933226, 11.367132089275863, 4.737786563975601, 3.327790901441335, 2.5832339481284046, 1.8818062628478769, 0.9652508830117202, 0.37406404835328594, 0.21030589594899032, 0.08291877209442769, 44751.42222228066, 44751.42151336052, 12742.559698362893, 12721.61938603878, 4852.666304539568, 2794.3274941547584, 1534.7784109446375, 883.9573820732295, 432.1328434791629, 134.72758189949386, 92.31550781335473, 56.130896204960436, 44.26298784353938, 8.73232999789438, 7.925544039085474, 5.106728693138701, 3.365713976614688, 1.7557814463487618, 0.6587241383373799, 0.3266618122797908, 0.17937089442627657, 0.050995354211931194]}";
"""ge"": {""num_s"": 30, ""num_p"": 22, ""coeffs"": [3.3922479360353724e-08, 1.1549139864056096e-07, 2.3822157780362267e-07, 1.0269646334638134e-06, 1.8494585982700252e-05, 0.00011055145789558009, 0.00041799691145651585, 0.0010914570832058564, 0.0009220112689223567, 0.0019939914061774945, 0.0044472418023262655, 0.014319025768859834, 0.04111487846135818, 0.08562297188524527, 0.15020720706448898, 0.2177890829908246, 0.25215900301157057, 0.34945941820473664, 0.6759789331775463, 1.0199221896511284, 1.0829203482097856, 0.75616411417005, 1.575352485173602, 2.1540047093588566, 2.1009650633064916, 1.5089113553284463, 0.9728655570167432, 0.8979072076975383, 0.7244043378314261, 0.4777008063265636, 0.003152163997935434, 0.006112993380485834, 0.01871382717398997, 0.036959286767752765, 0.09611420488132191, 0.1437737782927561, 0.22741020346825305, 0.2874555794385395, 0.2613220472138335, 0.5758415288538723, 1.114823559445525, 1.3989595677003472, 0.9721479674113789, 1.5927172321476726, 2.7808576595869248, 2.714847173292822, 1.8254874180050475, 0.789786643550382, 0.8713975148681861, 0.7948717550119645, 0.403350459910693, 0.017125581795605287], ""exps"": [4749614.211200682, 4749614.082634228, 4749613.997232725, 107030.9643104215, 107030.96015464702, 107030.9591713025, 107030.95818011917, 107030.95485381091, 40360.45308796616, 40281.020032270484, 8553.71997484583, 4882.662137653538, 3383.7987685941416, 2061.0252751759576, 1223.80532504064, 752.3905513610011, 461.2355573930455, 141.51346397694783, 73.19979489982076, 50.090820386066, 40.849203338261454, 8.737418816069344, 5.10954982941283, 3.649491450817215, 2.7794989747443073, 2.042819911106691, 0.7506005325727255, 0.34328768222608, 0.23623097531565326, 0.10643967384216686, 47803.280398807416, 47803.27797040724, 13614.367156782095, 13564.798101957453, 5061.684599370755, 2785.4544926398007, 1560.6224882670497, 888.7232465588404, 432.3103747379234, 143.63705583220957, 94.73615822878973, 59.44881786483019, 47.07007868489993, 9.723401671845608, 8.091199866439014, 5.291442488454435, 3.4818902344865745, 1.7806505806355235, 0.6155837384078117, 0.32616652751768366, 0.19225184053790986, 0.0695671510570399]}";
"""as"": {""num_s"": 30, ""num_p"": 22, ""coeffs"": [3.899562330865862e-09, 2.187167588794559e-08, 6.997599998040212e-08, 1.243872626574372e-07, 2.1911020113818457e-06, 2.3704859977851655e-05, 0.00012435258961034193, 0.0004242493485222553, 0.0006938820822965164, 0.0011731705351860852, 0.002249107849946455, 0.004731583463591653, 0.015258366029225942, 0.04426731929991884, 0.09076675010351576, 0.1566991227602891, 0.22280025499701314, 0.2525333684162577, 0.372311220436022, 0.7074608513665223, 1.0339729858895426, 1.039867716578948, 0.9245215693614575, 1.7708484629697854, 2.2789817050903123, 2.0916232482549972, 1.464175424005043, 1.0200455623916571, 1.0288986442988737, 0.830331615570738, 0.008269568280209815, 0.004662742897884532, 0.02309104703857434, 0.027648830177373115, 0.10992282673644745, 0.15042071680076713, 0.23496510584007602, 0.2892568882035936, 0.2481610839632854, 0.6530100571345536, 1.134631937344145, 1.3985835806494702, 0.8062218060168909, 1.8922754553048688, 2.942351572303928, 2.7665896248878785, 1.6457834554399697, 0.6639459063255287, 1.1285157375563044, 0.9416190048026107, 0.5246755224659184, 0.050610879959304314], ""exps"": [6912077.870535723, 6912076.517294441, 6912076.11650662, 6912075.643384742, 127580.40257790791, 127580.4023206967, 127580.40221989635, 127580.40206698666, 127580.37849059199, 44900.87095909917, 44897.57478831102, 9761.135509895515, 4659.785332836078, 3406.116227882479, 2075.8435417235705, 1248.6800485548956, 761.6846821297764, 472.7123757337981, 133.24192583017685, 74.35012509785311, 52.90933974817854, 43.88452260076383, 8.494899243719859, 5.273263859799844, 3.9851549189104194, 2.9405970265717727, 1.9473028488515483, 0.5733521864717949, 0.3270993783864081, 0.23631782507131013, 53924.09334561765, 15206.208713352373, 15205.395703825208, 14888.190380151247, 5356.203005154368, 2767.324351940903, 1587.5684049357237, 883.0203379116962, 425.1785072610114, 150.49586202293648, 96.64160402599599, 61.40980292526436, 50.54421246424583, 10.88532494817348, 8.306239212040227, 5.5967476430142415, 3.482916318124793, 1.204984557632511, 0.6135892595312654, 0.354099406826464, 0.19021576521766204, 0.10482412110269868]}";
"""se"": {""num_s"": 30, ""num_p"": 21, ""coeffs"": [1.199781721159932e-07, 1.5238463692664507e-07, 5.711696785397344e-07, 7.726970387681795e-06, 4.20710811245035e-05, 0.00014495917606951433, 0.0003459231251932053, 0.0007236227146063978, 0.0004584295099179183, 0.0012976868511553534, 0.0023888896212908347, 0.005234787718709851, 0.016869071618025873, 0.0478479992260954, 0.09596655394272259, 0.1639152173241103, 0.2289658043306443, 0.2552016537395838, 0.40039313991561, 0.7495002156872174, 1.0599401677769351, 1.0032095111823711, 1.0506906812407912, 1.9055582823236434, 2.3242576023970285, 2.0006016228942665, 1.3041505416740795, 1.195782698707333, 1.1319085672682991, 0.8615442150703805, 0.008640175578013044, 0.026349472730500832, 0.03274222643035555, 0.11885995762165576, 0.15600069778503467, 0.24508720713820806, 0.29298022404827, 0.22855750996524085, 0.755553217207073, 1.1754471597441214, 1.4100237282700856, 0.5761632556940881, 2.188516283814745, 3.0770671153081355, 2.68559699246242, 1.4230110387332355, 1.045028131106669, 1.200546489997649, 0.9840932698284472, 0.5128405626455456, 0.04994679721709348], ""exps"": [6543071.847723913, 6543071.470761465, 131169.92110370434, 131169.9210143696, 131169.9209947403, 131169.92097806264, 131169.92093875803, 131169.92061743123, 44890.533173491065, 44884.79012948312, 44880.627549644705, 9703.422198554359, 4641.549991584809, 3468.5202666911314, 2092.0332576864594, 1267.3238184335116, 764.7535179257605, 483.36071952518586, 127.31541774155569, 75.2331630355945, 55.96390596328566, 47.03687937855854, 8.39275096935553, 5.447606855421214, 4.240001119107924, 3.317712891060755, 1.7483256298278094, 0.6019934908356792, 0.34807880203848196, 0.25384858134533944, 54170.899918702395, 15298.290052476903, 15176.382930201939, 5390.557859120174, 2755.2477998391737, 1601.6696098822536, 858.6146397842946, 398.53962230589536, 154.84280488075524, 96.11636130801072, 63.29826882930783, 51.36899287534499, 11.779709895597021, 8.914509890165519, 5.8943880865902125, 3.941561154888153, 1.0071509460205366, 0.6249422407317524, 0.3841903063423593, 0.2067021666717123, 0.11524015143490206]}";
"""br"": {""num_s"": 30, ""num_p"": 21, ""coeffs"": [6.162031665594244e-09, 3.277035726035182e-08, 1.0095845339109622e-07, 1.6363516584222025e-07, 2.9463862180696207e-06, 3.0173751978114896e-05, 0.0001546810499560555, 0.0005171566810330513, 0.0006573443751224755, 0.0013415204877988342, 0.0023414166456773534, 0.007223138211707268, 0.018012862285398726, 0.05039760720812382, 0.10024152580718831, 0.17124745723902898, 0.23562324293481907, 0.2655365494011799, 0.4376102213319562, 0.8148700574406752, 1.1406010261067034, 1.0457175840373103, 1.1435923292179504, 1.9942850336826181, 2.3174507666181747, 1.87444375660291, 1.2150338637630196, 1.419668526719346, 1.2780386087944573, 1.00167585086497, 0.008777775035020864, 0.01129508208133534, 0.04492865010681441, 0.02882277221282829, 0.11399325574345859, 0.16171748482541887, 0.25801075105695764, 0.2971267740382526, 0.23256512739641494, 0.8545546895140659, 1.2693977846992104, 1.5251062038002734, 0.5072998498019203, 2.385622204723584, 3.1533478226385965, 2.5745351510576375, 1.1547359891000626, 1.4256478529979089, 1.524367388603778, 0.900910732227554, 0.03092110713318649], ""exps"": [6532742.430703321, 6532741.010266083, 6532740.558002732, 6532739.974496435, 135658.8187793885, 135658.8182648966, 135658.81804465296, 135658.8176838319, 135658.37951606864, 47875.09488764743, 47866.981361204074, 10565.203888219958, 5401.375434897587, 3502.2190242863257, 2085.0094302672474, 1270.7878414451147, 763.753843201309, 466.41830979881814, 124.09323391350904, 74.14138766915393, 55.08074084107272, 46.944929479034414, 8.26050662920823, 5.523839505032375, 4.4612984633604915, 3.6585054141359414, 1.201628467275759, 0.5550516360625294, 0.4002577499182388, 0.1867992508973499, 57312.84624679806, 16181.800883411383, 16181.72831657273, 7375.057181308698, 5086.799609085462, 2730.384581811027, 1600.2735653569896, 826.984119779677, 340.95347839924796, 154.63233595744921, 96.5436445599495, 62.53518029042783, 15.674172538572405, 11.960109482142407, 9.36521375373783, 6.09096017051799, 4.2420082176379585, 1.0171784652210243, 0.6124520024220395, 0.356138826952246, 0.12301201011514461]}";
"""kr"": {""num_s"": 30, ""num_p"": 20, ""coeffs"": [1.0833501053747929e-08, 5.036939049726094e-08, 4.837072125750083e-07, 2.2162149911167244e-06, 6.311387970079619e-06, 5.650249964406803e-06, 5.3707027382051615e-05, 0.0003827145258304688, 0.0015154535815731546, 0.004053902176201632, 0.007152404552159899, 0.010659728955975745, 0.022543022228574995, 0.055682715164206587, 0.10776394729456927, 0.17859752316410973, 0.24079100962744385, 0.27533251901649136, 0.4605536769730993, 0.8346018025276091, 1.127417195658362, 0.969285771769764, 1.291096047405135, 2.1289107322463403, 2.3313182739983622, 1.7259995247061148, 1.2948920975331246, 1.5730352404420909, 1.3414812105094478, 1.0212320187923423, 0.00973750582085299, 0.0402889411286321, 0.03954667109769557, 0.11027569589233922, 0.17230478802758542, 0.26210678796547, 0.2985697727305463, 0.25942180387666314, 0.8706234055135621, 1.283700608319429, 1.4424405606981108, 0.8864662791142074, 2.639001871294769, 3.131726918238295, 2.494232603615297, 0.6559700256367219, 1.7397044814137352, 1.7490444870377095, 0.880849872713293, 0.029619957192181787], ""exps"": [37337434.92318999, 898443.3094425368, 898443.3094420953, 898443.3094419729, 898443.3094418895, 898443.3094416595, 37591.81049864865, 37591.8104969795, 37591.81049617157, 37591.81049523477, 37591.81048072003, 12137.65900862532, 6718.941086953394, 3727.2500641177116, 2145.8035220550864, 1304.842432439265, 772.3010126020977, 443.4824088904301, 127.4950741285115, 76.60177148002279, 58.348842493557505, 48.607471394503584, 8.644745481495223, 5.722633476007826, 4.915842400309792, 4.320084893024346, 0.9640412667616401, 0.5608880652658157, 0.4394890639999828, 0.21187248208264875, 16772.028125441906, 16771.09089975327, 6814.412137021505, 5183.399582244275, 2713.808528411421, 1619.1527236027885, 820.9161657066359, 300.08640651425105, 158.0499512698991, 100.55143272692446, 67.03174303136873, 14.538076476776265, 12.95533283113956, 9.296700110582968, 6.230196776403821, 3.9850764960790883, 1.1825244138768651, 0.6761672598069035, 0.3910768080078451, 0.13978188639399142]}";
"""rb"": {""num_s"": 30, ""num_p"": 20, ""coeffs"": [5.353794629627911e-07, 2.4431312895998974e-06, 6.3088433767111674e-06, 3.664387462749624e-06, 6.024541837938123e-05, 0.0004178107573165295, 0.0016337416031423394, 0.0043202020768652915, 0.007355123990627172, 0.010731604046308827, 0.024172424382814212, 0.05837787981650384, 0.11288004895055045, 0.1839358274236555, 0.24357055077116377, 0.2836541863370153, 0.4924759742871024, 0.86547677887268, 1.1192409208769472, 0.8654864826150827, 1.4544139791593207, 2.2527103666677446, 2.3512952213266285, 1.6551524885661897, 1.345530018512024, 1.442179794891468, 1.1592145235182434, 0.6982630362905697, 0.8291156086003688, 0.1317324390495832, 0.011786345608841514, 0.04147195253562489, 0.045533141461162684, 0.11309784044296349, 0.18155604755592533, 0.26628148602555, 0.2964500379699436, 0.30329775197311876, 0.8969607464837529, 1.312940392906175, 1.3534318594115589, 1.1573818824716948, 2.8484698929504026, 3.1782426453523205, 2.3312319608585197, 0.9938159915207364, 1.7070396329889332, 1.3854925542027714, 0.7750171648145064, 0.20709044191561], ""exps"": [1029049.262259581, 1029049.2622595421, 1029049.262259522, 1029049.2622594578, 39552.232509901514, 39552.23250974058, 39552.23250965613, 39552.232509551686, 39552.23250662495, 12340.122901971656, 6347.117701341206, 3742.120010061089, 2157.843395859526, 1327.8253841577002, 785.5483217884579, 415.03796183787034, 131.06022969122768, 80.42499548326663, 62.67883396477991, 48.102371301131804, 8.829014322964506, 6.110895417868058, 5.163555391354977, 4.231672213654677, 0.977872455239712, 0.6106222693524475, 0.4592578616147681, 0.28165543812448973, 0.04878173668983368, 0.02741397889165922, 17637.384330055298, 17636.769286906903, 6977.618098281555, 5312.108350578388, 2743.2717425917895, 1642.8909545814138, 828.0356194748855, 273.72369672495745, 161.52777786488417, 102.32268516772022, 72.00154941513932, 15.5505392242989, 13.657599631724912, 9.712001965253945, 6.56553426498053, 1.6273832514731428, 1.1792004563770728, 0.8127634902581152, 0.5458634363589049, 0.10732144287927559]}";
"""sr"": {""num_s"": 30, ""num_p"": 21, ""coeffs"": [1.4834029651378933e-07, 7.029148576571578e-08, 1.0020806444411566e-05, 8.482479536266062e-05, 0.000400897425939688, 0.0012383094341506255, 0.0007463996431828563, 0.001967735288939383, 0.002376981169686311, 0.00788478710752065, 0.023414921660517656, 0.05875864124101454, 0.11598039444324224, 0.1877978055416168, 0.24541049638033446, 0.29249196234839486, 0.5333334060900278, 0.9094097149672773, 1.1246080907004206, 0.6813637331785917, 1.550187200611097, 2.278942437836179, 2.2297106969179854, 1.3495233564334255, 1.4820630271259152, 1.4658967452091554, 1.043501261408999, 0.7584052391747171, 1.1183208135933784, 0.1662137855986821, 0.010100803839430125, 0.015692426446329823, 0.04785283376067361, 0.05121072221559147, 0.11927721187790218, 0.19032456750678559, 0.27100017615162375, 0.2942875210719166, 0.3574545737536874, 0.9469153601673839, 1.3597755780076068, 1.28336873815277, 1.4277724818291857, 3.0699681611479974, 3.157432725174667, 2.0775857152226807, 1.4726946732841735, 1.8145122569892096, 1.308999124556745, 0.4999411534118592, 0.5937892906678013], ""exps"": [9368713.946801245, 9368713.792118073, 153746.40388202117, 153746.40386745604, 153746.40385872163, 153746.4038377091, 57633.56909945748, 57629.07882889562, 10543.321191396435, 9726.98103355825, 5450.662006446257, 3576.4487492093804, 2129.9859344571723, 1339.8197391251144, 795.8038289909098, 384.869379081009, 134.1023635580222, 84.24556900136298, 68.36678130189671, 44.38902496355165, 8.633740046535854, 6.541283706116847, 5.8355553340992286, 4.575294846822416, 0.9849015566553546, 0.6841295101591438, 0.5830964170368474, 0.1573311629783284, 0.06283290612427131, 0.03722071472279717, 68056.02313030051, 18584.798543388304, 18584.590523914176, 7154.309156328057, 5472.62409364787, 2781.406798851979, 1667.4219644788545, 832.994200540516, 254.322674596438, 165.7369373948833, 101.28630074982838, 77.60903031102968, 16.291526774593972, 14.715344676120843, 10.04513402230049, 7.267174329082831, 1.7032677263448115, 1.3647245634964238, 0.8652525086201566, 0.6724359678200401, 0.12432919057383837]}";
"""y"": {""num_s"": 30, ""num_p"": 22, ""coeffs"": [2.443905930985307e-07, 7.528813648231502e-07, 1.3019324979084825e-05, 8.060870703337881e-05, 0.00031193416464607156, 0.0008409316848849486, 0.0008740037274991368, 0.0017019653608859495, 0.0026563567221176273, 0.00854537559508514, 0.02571303772892891, 0.06255858702159665, 0.12190950313568653, 0.19393015883471934, 0.24956618217127766, 0.3063302283339565, 0.587893119144324, 0.9814779404901559, 1.176822214898485, 0.6406602052239303, 1.6729631590755218, 2.319281893614842, 2.127781593871583, 0.7906651334553657, 1.5140323299573677, 1.498572465117234, 1.0665163208228232, 0.7687417963348522, 1.0543980596098403, 0.14716087489237392, 0.002676122147213357, 0.008220474739633839, 0.016414874880478512, 0.04757742650628547, 0.056730316928785544, 0.12265463662342173, 0.19889817664672937, 0.2757354662534645, 0.2947761181098831, 0.42102906924842964, 1.033080299933037, 1.4555912223006275, 1.2841778162451558, 1.6947083861330767, 3.2800016257398075, 3.190424472540387, 1.8229531770989702, 1.8903309898434317, 2.1195603939257803, 1.349824698347388, 0.44424681843930625, 0.6683874210747522], ""exps"": [9307953.620603269, 153742.63006025134, 153742.62995135604, 153742.629917825, 153742.62988787485, 153742.6298204724, 153741.75644320343, 61138.67351501486, 10912.229498637316, 9875.509738235329, 5593.112556539177, 3631.3590353826903, 2162.6616898050397, 1361.645716579452, 806.0873561956695, 353.973454416728, 135.35460306118597, 86.23885075077766, 71.08963432015376, 16.374817309178667, 8.495473673031293, 7.079868993479621, 6.614597726420948, 3.2819496586316563, 0.907393153443799, 0.6668307152332176, 0.5543537544869497, 0.17003201166382473, 0.0704763140975136, 0.04154308921501142, 71502.84492876983, 71502.84491651908, 19430.790786530426, 19430.270964897336, 7524.637170761718, 5526.768390212149, 2820.349954120343, 1683.8347406850728, 835.4285247639367, 247.6134853627986, 169.5208120663731, 100.94323790208394, 80.56488101988178, 16.677665964317978, 15.268185448190664, 9.990288780346772, 8.05834213328872, 1.6985214839516056, 1.5662918958731369, 0.8731213576853823, 0.2780548746586457, 0.13834463424243162]}";
"""zr"": {""num_s"": 30, ""num_p"": 22, ""coeffs"": [1.7867000800700626e-07, 1.1370118556470362e-06, 1.9255323946544548e-05, 0.00011748860971344836, 0.00045000449440378614, 0.0011954756461424253, 0.0006094274596963553, 0.001618665297651129, 0.0027746515355964252, 0.008977730080334053, 0.028194407193527136, 0.06611734477047602, 0.12785079286579226, 0.19845591230958143, 0.25260056669028574, 0.31182352191510215, 0.6075182480953929, 0.9913469549694328, 1.1466522921988231, 0.8280576935246748, 1.8363943562151022, 2.393515125619414, 2.076578102580025, 1.0878539772942803, 1.6011361225641956, 1.533933434180831, 1.1217224875978553, 0.8470428469860702, 0.9410010563022281, 0.13793163656554697, 0.0026998642677090274, 0.007295466979315996, 0.01675963856790375, 0.04461237994823005, 0.06566405531298973, 0.12363925573382607, 0.20908417905678459, 0.2753894612973009, 0.2956070208032409, 0.4620238076307344, 1.042698378331342, 1.4589305143213813, 1.1705876908118098, 1.9381547252256934, 3.3491056199876525, 3.1652575943347747, 1.515136377752592, 2.002039641482628, 2.073844730256402, 1.321310362610625, 0.6483614355618528, 0.6603069051572287], ""exps"": [11619896.751270242, 173896.88101089236, 173896.88099471142, 173896.88098970306, 173896.8809850208, 173896.88097336155, 66527.15343436149, 66503.75119940966, 11412.467851291054, 9446.686884858496, 5769.0016466954485, 3667.4641818947, 2204.0058213951634, 1391.4216731839563, 813.8662106948483, 328.29491930536153, 137.25668066526873, 89.58464879403958, 74.58268188565232, 15.103554254580676, 8.949002615426924, 7.702007024790242, 7.15007917542682, 1.537896263204317, 0.9534429759051803, 0.6960244538395939, 0.49718020505063215, 0.18304445012056153, 0.07531355010659521, 0.04457286334059514, 78389.57434301284, 78389.57433850341, 21328.69064523108, 21327.494653857444, 8247.511412505568, 5591.605811388082, 2886.1794276956507, 1708.7770975498122, 855.3806186196498, 254.1176935808239, 174.24289123774062, 104.46123780574445, 86.15501479554948, 18.15176035955271, 15.6867930713215, 10.346175745133781, 8.710229481074837, 1.841674234974026, 1.596202046036451, 0.8968504748105158, 0.2967610634937627, 0.14594422874490015]}";
"""nb"": {""num_s"": 31, ""num_p"": 23, ""coeffs"": [3.4858553463542173e-06, 5.236072512080836e-06, 1.4315553368553673e-05, 4.523748069755637e-05, 7.94960359955413e-05, 0.0001764035117033192, 0.0003758579811177176, 0.00039197960062284685, 0.0010162944876061393, 0.0025563209039715933, 0.008947521050348912, 0.029225643492902884, 0.06829431704873686, 0.13236022182365836, 0.20195534337474014, 0.2545578344403633, 0.32244089848407026, 0.628359285187284, 1.0017242646091025, 1.1111964149164948, 0.9581788457654513, 1.9672437247151533, 2.419637304962184, 1.9672982231055665, 1.201378945593643, 1.715968074471772, 1.6776663789965083, 1.245538684441262, 0.8730310651266932, 0.7583798016550255, 0.08641082796577434, 0.0010878306608910384, 0.00318889184764231, 0.007794489659829765, 0.018290620743667215, 0.04553762196056381, 0.07503544747425624, 0.12619033445556457, 0.2187866316657383, 0.2755523212184559, 0.29466880594369205, 0.5086312593528859, 1.0484293721002114, 1.4660280100357526, 1.0400004068992181, 2.2157249350283053, 3.41552613651005, 3.137410914410685, 1.1206721661064636, 2.291259418522591, 2.2181865515277592, 1.5196577590276859, 0.7815147820244145, 0.5363670441139997], ""exps"": [717402.9202203875, 717402.8019231362, 717402.549956414, 717401.5998009838, 717167.7014249489, 267368.3000044923, 266761.66674256924, 70895.86100554728, 70895.57792598796, 10361.449823801036, 8070.77371211565, 5696.136756302909, 3603.933918149853, 2221.2005371115324, 1412.5902110575414, 821.0019436218341, 298.75247129419256, 139.1900077257859, 93.4114964031551, 79.34212295208815, 14.987034662460474, 9.35121299065469, 8.453013294104764, 7.981793682659406, 1.3920455611754556, 0.9174163124929879, 0.6934907661108092, 0.49183578401820316, 0.23272781579002824, 0.08692454156758804, 0.04794312536364618, 311718.178303525, 86328.72086317274, 86328.72086257207, 22833.269733882724, 22832.846077939757, 8718.20039245306, 5675.560696045441, 2943.048316897397, 1728.3248632452676, 869.3502022477322, 261.8503181543147, 176.78016163960564, 106.8915282414991, 92.43954083775186, 19.732023831355058, 15.943552025003799, 10.710139389400785, 9.641983619240932, 2.018102826434848, 1.6690667339032152, 0.9033845144872411, 0.3748101799007948, 0.18440831696001472]}";
"""mo"": {""num_s"": 30, ""num_p"": 23, ""coeffs"": [3.75331565489149e-06, 5.606500634416469e-06, 1.5208002462621386e-05, 4.81288560561414e-05, 8.555228512654662e-05, 0.00018982988273587124, 0.0004038578046871558, 0.00042704299973682136, 0.001100605253793645, 0.0027716287156725164, 0.009683057980683694, 0.031100039514941745, 0.07164049070945774, 0.13715404046043156, 0.2055139766097938, 0.2545327565429558, 0.3412329015689259, 0.656224775961467, 1.017668255644796, 1.0749792358527686, 1.105722921402001, 2.1617395232506174, 2.5348161345067033, 1.934035173055143, 1.2739456097976058, 1.7919352397676955, 1.7562190335432843, 1.3696296797211165, 1.0620023372994685, 0.19676764941351055, 0.0011603035622114162, 0.0034085398589827234, 0.008261725750873361, 0.019380321630607374, 0.04767003902445113, 0.07976895376083204, 0.13030556410528452, 0.2256130360168661, 0.2756462758977005, 0.28719422633096603, 0.5723286346722272, 1.0578406495993833, 1.4765720888830762, 0.8750608739525084, 2.6678338191772095, 3.654037506927662, 3.2407742660071386, 0.4552020177180498, 2.5544494053359017, 2.406985600036465, 1.5772938405107195, 0.8636309644158447, 0.527987299025745], ""exps"": [720074.6279692764, 720074.4910986979, 720074.1932468694, 720073.0765574613, 719821.310691616, 268316.23217815894, 267676.25142509665, 71340.83763906437, 71340.49768572612, 10506.706292000035, 8082.669522115532, 5795.135652857309, 3620.9917642506766, 2256.5150155268175, 1435.9715259524082, 836.7057711465224, 271.5764206051565, 141.63471494886852, 98.23848637343121, 84.80395911652346, 14.672287360765345, 9.685079665738748, 9.03588382260605, 8.643888023298627, 1.2399266916552927, 0.9067436962816295, 0.6639145694741339, 0.4567436172472489, 0.19495871461598419, 0.05787501429599135, 312914.3125307288, 86860.12208956835, 86860.1220887513, 23079.66252702365, 23079.179238582245, 8830.795216618919, 5703.374209694366, 2976.068176202364, 1737.4383645108992, 880.5777915389666, 271.6507996592321, 174.59909488221683, 109.50830036748242, 98.2619611277187, 21.148381979676824, 15.626603878355647, 11.103428958574897, 2.519871597698497, 2.1197094436910913, 1.752064746224533, 0.9037056559745538, 0.34088730486976976, 0.13753150966704009]}";
"""tc"": {""num_s"": 32, ""num_p"": 22, ""coeffs"": [2.9542099162895053e-08, 6.60435462352782e-08, 7.52573296825574e-08, 1.5427722251696198e-06, 2.2490191711160205e-05, 0.00013384128975306233, 0.0005049431224091859, 0.0013120746551514584, 0.0007206700804346916, 0.0016906227240120217, 0.00310357850236625, 0.01078543144299665, 0.03377985021830464, 0.07563940828738393, 0.1423121945574143, 0.20906985483771645, 0.2525821247963103, 0.36448972100164406, 0.6934409582183989, 1.0437858863590053, 1.0488266388367133, 1.2015409306422884, 2.2166990391036197, 2.4746460332282205, 1.7544648227262463, 1.3681153420154972, 1.804088032062965, 1.6756791071844945, 1.2215581018939137, 0.8870295434716238, 0.8196313909501919, 0.11562716309616776, 0.0033635200765491664, 0.0077282540771633846, 0.01991733482060577, 0.04752639353105657, 0.08597829107165406, 0.13344059456116816, 0.2316985383954156, 0.2752287913118257, 0.27218292895913276, 0.6542286205836926, 1.0905334704639156, 1.484605565186322, 0.6635270096715568, 2.8671316004246576, 3.7017939676575273, 3.0449864223892407, 1.2609891597899126, 2.7035129403301372, 2.251796569902279, 1.4267401860018758, 0.7554182642540144, 0.5963900674281429], ""exps"": [13880488.376044748, 13880488.350856366, 13880488.327993799, 193192.59139885576, 193192.591390959, 193192.59138822625, 193192.59138550775, 193192.59137764646, 73988.32063410897, 73984.18207145947, 11491.941576376508, 8302.1663368646, 6019.780752074504, 3681.5998469384667, 2303.076955492188, 1462.318659773996, 862.3135020494004, 253.59484365120736, 143.9221018217484, 103.87034168653763, 90.0086485502287, 14.665212514525571, 10.416762600092037, 9.965345072297767, 9.596531279013467, 1.2956810276794324, 0.9479785964324635, 0.7282905591182961, 0.4869077407884043, 0.2111782971634678, 0.08664732374563772, 0.05085865349703758, 87096.1538713764, 87096.15387059649, 23750.709050285655, 23749.85217573599, 9056.43184890882, 5672.857268541929, 3009.1152554907003, 1732.9909363166287, 891.335752817305, 280.60667043428214, 168.6678279506694, 113.32431000881319, 101.54469732251069, 22.684833565297414, 16.02885329725736, 12.231537498502147, 2.4239223900947966, 2.3211672582488423, 1.7719903359227807, 0.9852648058048926, 0.36622719154553907, 0.17055958923161185]}";
"""ru"": {""num_s"": 31, ""num_p"": 22, ""coeffs"": [3.694602060397878e-05, 1.2202358282091794e-05, 2.042306949201482e-05, 4.9664265139049283e-05, 7.315299203417769e-05, 0.0002185542948130902, 0.00043305080876746195, 0.0004976016054943818, 0.0011888100358060432, 0.0032410310772576383, 0.011938255314670063, 0.036509362476421336, 0.07968812260425012, 0.1474244373377167, 0.21360508345985604, 0.2515742368573994, 0.3999761161035478, 0.7674776681441977, 1.1440918630055188, 1.114703507414556, 1.2894873284741868, 2.2188839683834876, 2.359077295610391, 1.4959338279927397, 1.4337895584515508, 1.8885073749786612, 1.7811341433069383, 1.3136170315889995, 1.0223463303978286, 0.7346075137648691, 0.11419908801669679, 0.0010593322041976465, 0.003748691264994197, 0.007877818149941923, 0.02059188451754934, 0.04613703123718596, 0.09567036951605534, 0.1370954541325065, 0.23701832706215348, 0.27812716068109766, 0.25515023641724205, 0.7804747377634256, 1.2044247745844887, 1.636256833319023, 0.4398933219635688, 2.939179930964081, 3.715592604336883, 2.7992415160440616, 1.767127643643561, 3.1230784685448088, 2.339167312448866, 1.5499408642527068, 0.7988021358263427], ""exps"": [835580.5614729208, 835580.5416304534, 835580.2251057015, 835569.5750908472, 287892.0192574256, 285977.9164915272, 285215.81997844495, 77162.21293111584, 77161.22242703631, 11892.202491576953, 8046.754696195657, 6176.1859495791305, 3747.4914827607954, 2337.829184259965, 1479.4577507080944, 887.5121803094279, 238.02104331675795, 141.34172557066108, 103.77422966661547, 91.43550185061906, 13.945496368873194, 11.304566842377604, 10.992664987498397, 10.62871810015076, 1.2675868349877915, 0.9366593794250045, 0.7129234008440632, 0.48588562126268364, 0.192118810254735, 0.10177510843456924, 0.053811772598576224, 336761.8264353504, 94188.2882738032, 94188.288268505, 25128.744423338434, 25127.047176473923, 9417.653202381116, 5584.916394373845, 3031.1366986501184, 1713.4241204637704, 875.7738631311572, 279.81131650096455, 158.14096257326162, 112.57220062742334, 27.388389367423457, 23.62848974712999, 16.11435582511275, 13.357194992642778, 2.5079001505431164, 2.467329376585384, 1.7080257623551245, 0.9798792104789739, 0.42547432115427053]}";
"""rh"": {""num_s"": 32, ""num_p"": 21, ""coeffs"": [1.5199679043075418e-08, 3.7733904543609415e-08, 5.118862337716979e-08, 2.07141534152204e-06, 2.456593908499449e-05, 0.00013405601468413817, 0.0004757916047429172, 0.0011058677813443889, 0.0007804069203927176, 0.001519117425454581, 0.003247663941558205, 0.013125080413786228, 0.03931743425211212, 0.08391368895752405, 0.15211606920085866, 0.21889290874944772, 0.2523014429858846, 0.40741012986148994, 0.774009947895755, 1.1355518089573349, 1.0678092233320333, 1.457013703382159, 2.295908713909044, 2.3138391037781436, 1.161556654592258, 1.519943926134477, 1.9499161023239575, 1.7978437859817082, 1.3082822175275077, 0.998039152841922, 0.697064690343814, 0.10923043119150762, 0.004448604197593279, 0.0057179083042521875, 0.021805643821580373, 0.042164389579353125, 0.1086157071077293, 0.14161759543502211, 0.24026131376058973, 0.28499566968518697, 0.2383413240144788, 0.7935823624201368, 1.2210333570191425, 1.5864807965812138, 0.9067017540143477, 2.957562125859114, 3.7073202721746443, 2.4839718406597053, 2.260111444626605, 3.52928669228946, 2.4088395086942653, 1.5207560456030251, 0.7760097814010168], ""exps"": [19940215.234238315, 19940215.11897919, 19940215.015680663, 229063.86612126083, 229063.86611606242, 229063.8661141123, 229063.86611158965, 229063.866090385, 86429.45277339077, 86428.27804470979, 12762.267820263767, 7829.527137875378, 6319.681889326218, 3819.435924327155, 2378.8653175186296, 1476.9430241570087, 922.4573093923912, 244.03610198176477, 140.95754597798748, 106.61754879017928, 93.01808012937698, 14.792463749269187, 12.656078789234904, 12.312802334619509, 11.753363820954705, 1.2436366373282721, 0.9560297296122441, 0.7296323751377072, 0.4955447388725364, 0.19771794571457565, 0.10115954753431078, 0.05343740433673641, 102041.04367713092, 102041.04367661358, 27499.138179380432, 27497.223764684742, 9925.98504537341, 5446.5219871478375, 3073.3039117365374, 1685.0932295870707, 856.1972296006508, 297.8600409354011, 168.2389275463247, 120.58071300139324, 27.911463731203, 23.78019346299748, 15.956620795947321, 14.739145762117783, 2.6427979607295384, 2.6177850984716518, 1.7249189248176333, 1.0255968640326647, 0.4540191686397431]}";
"""pd"": {""num_s"": 29, ""num_p"": 22, ""coeffs"": [5.4071499374210684e-08, 1.9623463250041782e-08, 4.937021445195346e-07, 7.56657926832435e-06, 4.778096941158535e-05, 0.0001890423761588037, 0.0005255434288405729, 0.0008917710777154454, 0.0008511916849581768, 0.0016388460865859136, 0.003072530998847793, 0.013572041906547868, 0.04086224210552527, 0.0869169401163807, 0.1563882335032814, 0.22456976385322155, 0.2554584369282245, 0.42045418761233366, 0.7913253714834511, 1.1304869760610445, 0.9985466885932853, 1.7009118820143228, 2.5017373042092745, 2.4011820497908127, 0.4288984987526669, 1.6986384389691485, 2.2425170461080315, 2.0913275379513014, 1.304692824181197, 0.001889399098042573, 0.008260952959747624, 0.00402907730477034, 0.02306369351114166, 0.038835813956888884, 0.12030493313249235, 0.14601746485372502, 0.24621129262624833, 0.29374937436633025, 0.2209758720497409, 0.837493001806868, 1.247222205976684, 1.5328642834627682, 1.3495426404109747, 3.169896448227254, 3.861657078908214, 2.2856178999873666, 2.925486208684316, 4.359301530603422, 3.0607066993205736, 1.7206416966182314, 0.050521125716482505], ""exps"": [25229832.847312905, 25229832.74849291, 246177.45385451653, 246177.45385439077, 246177.4538543457, 246177.45385430654, 246177.4538542306, 246177.45384894084, 91291.40427597314, 91291.28389271487, 12764.03483029249, 7597.598881429258, 6300.7170289269225, 3803.6677261008367, 2398.3128623699254, 1461.5328040700267, 953.0400957252825, 244.3843196888579, 143.40035509157545, 111.78069666108777, 94.07115935953897, 15.84866106000273, 14.049167605301717, 13.672762682512662, 1.6983161333962271, 1.081403727591515, 0.9134054043908184, 0.7357520645740663, 0.22029743232729138, 107879.03736123143, 107879.03736122677, 28846.74083814152, 28846.663298587635, 28845.47886342839, 10184.619013309286, 5395.764106611591, 3109.129825302146, 1641.8341879486447, 806.6684083707319, 308.24714415032815, 173.68019394853604, 127.30376104592028, 30.72571186845008, 23.218557907863143, 16.46198301428524, 15.80751301390556, 2.6895515804328776, 2.675921058876318, 1.3746655271138315, 0.575007227903058, 0.12304497325281882]}";
"""ag"": {""num_s"": 31, ""num_p"": 21, ""coeffs"": [5.807625662921517e-08, 3.326588943993327e-08, 7.3928367674809985e-06, 7.097088171911324e-05, 0.00035701388115756005, 0.0011716125216462484, 0.0002732210693002799, 0.0010044386538665014, 0.0018909765517047229, 0.003319399848887289, 0.014512867696641646, 0.04326235556480371, 0.09071547924828442, 0.16215584952708773, 0.23265164676998681, 0.2650214926495451, 0.43268981166463333, 0.8073289240313806, 1.1170005122118467, 0.8784336944630797, 1.811066312947675, 2.5146667804365794, 2.298584034241276, 0.7068542722955223, 1.5968458687955374, 1.953091866717336, 1.7378545306751283, 1.2445327459002962, 0.9050148900447813, 0.6490045497233893, 0.10184013220993665, 0.010376939558307943, 0.004538004360316213, 0.024452410579216925, 0.040013975913372815, 0.12729311235100668, 0.15021083805937277, 0.25489094999440526, 0.3068315733947087, 0.21084535390562936, 0.8692492789604686, 1.2769426607117274, 1.4644961802445833, 1.6747692627235036, 3.310836883686047, 3.7523675015864444, 1.897561827350862, 3.1856419534289038, 4.2778982471423115, 2.4776523649944737, 1.405725052728862, 0.706181892923532], ""exps"": [23453242.763887182, 23453242.528836444, 252500.6429946978, 252500.64299466868, 252500.64299465512, 252500.64299463198, 90858.73605658446, 90858.28452201541, 90858.22906109187, 13309.971299741868, 7667.792990033709, 6389.322029393932, 3818.97990942995, 2415.1383120579867, 1432.09251864309, 963.0222394294017, 244.5862992054464, 146.83121174569774, 119.40647079607852, 95.86279210468507, 16.686138785197926, 15.445952776569088, 15.064933679703847, 1.4968069452590191, 1.1994647633520001, 0.9880227477404829, 0.7457601277958791, 0.5095643445314502, 0.2055121287454532, 0.09968053711925297, 0.052730984703271276, 107987.37576004014, 29072.600767279684, 29072.53123192744, 29071.103968318257, 10245.934782306429, 5377.12290639792, 3130.741866983172, 1574.6554438266453, 690.4656306871631, 313.7893227251045, 175.47894248949623, 136.56106120459756, 32.992997629670114, 22.17808328654604, 17.890960129242554, 17.075520669811702, 2.917017505539742, 2.906843687014597, 1.7512165955790329, 1.1348271760813744, 0.516265487195646]}";
"""cd"": {""num_s"": 31, ""num_p"": 20, ""coeffs"": [2.51509246908355e-08, 4.884501650612017e-08, 3.386770460871399e-08, 7.914622418360348e-06, 7.399200709205706e-05, 0.00036931507737994034, 0.0012045141792029234, 0.00030557625116068947, 0.0010785272689847827, 0.00198926416877638, 0.0036039090192809733, 0.015583744640268574, 0.0460203342479606, 0.09506404697219183, 0.16897818790354627, 0.23968408304560515, 0.27885990679383604, 0.45595893926517284, 0.8447642508940864, 1.12980199585764, 0.6534042398757206, 1.8668818622329402, 2.4697005408200754, 2.144854107526593, 0.9138398827218167, 1.7589437753790362, 2.0115730168436357, 1.642418897811925, 1.8876296311468002, 1.4356585460543698, 0.19797014093501772, 0.010711846182281715, 0.0055876784490866945, 0.026371792121637982, 0.03933933579459522, 0.13483559338355447, 0.15519518601390497, 0.2656034471643335, 0.3139500085825918, 0.24680701765922303, 0.8650069459633701, 1.362554883270265, 1.4390761138672659, 1.8759029586235791, 3.5760339940100185, 3.7585523378885006, 1.48166521562045, 3.7453750318267507, 4.606070697240673, 2.739905989325462, 1.0852306753588257], ""exps"": [22369079.176022794, 22369079.061153024, 22369078.89525496, 256987.89358537144, 256987.8935853252, 256987.89358530284, 256987.89358526326, 92192.71967758628, 92192.19385031107, 92192.09794566371, 14248.820911897454, 7772.822376001142, 6481.516279360774, 3841.6210183293315, 2433.247386121933, 1424.934771081699, 908.1560548178901, 251.76666108401056, 150.3793253303148, 130.0278227852135, 81.0461619480191, 17.39871658724388, 16.80521934438121, 16.5213540217254, 1.3874530287043154, 1.232358950282029, 1.1168118043414434, 0.8549453040234147, 0.30721432321948544, 0.13265290856623718, 0.06660870547316873, 109692.14373951603, 29594.82580565006, 29594.777553135566, 29591.999264790393, 10363.189052416861, 5362.74563306498, 3144.7701082124076, 1528.4105539027744, 556.283809883188, 317.6875304292274, 173.24418993396728, 151.03693383803738, 34.616703717997495, 21.389569742407932, 19.916761278608845, 18.955332200787446, 3.100991364247079, 3.089001357792177, 1.7171954953899806, 0.8691904878548137]}";
"""in"": {""num_s"": 30, ""num_p"": 22, ""coeffs"": [7.657021150651661e-06, 7.897384848695579e-05, 0.0003245390094491379, 0.000743594354056799, 0.0003633125674708118, 0.00011073101487190818, 0.0004495851561487049, 0.0012140432436021226, 0.0021226216016042416, 0.004142510958572599, 0.01701271490486165, 0.0492523221103481, 0.09983830851430263, 0.1743281421187134, 0.24317445023955786, 0.2866464308302403, 0.48843124335038735, 0.8936667090019532, 1.1659570505837762, 0.7893728181392088, 1.9418620325553315, 2.4570848702997212, 2.0181048319548145, 0.9849200987956281, 1.7168601340136673, 1.8461634424972535, 1.4373412819034248, 1.2374473519790323, 0.9868809348529294, 0.719748641801063, 0.010393867383992733, 0.030879632519748016, 0.04089506380878111, 0.14034691358982937, 0.1616764188901054, 0.269904349700644, 0.3128595197154923, 0.29733379319618813, 0.884381583727149, 1.4487496412311982, 1.443616902972281, 1.7614099482307402, 3.835237513059157, 3.7684537129927915, 0.9135503659992832, 4.294031026010235, 4.851549895107582, 2.554733076215742, 0.8927304005504209, 0.8404657695782871, 0.6618284565599788, 0.021320769738746068], ""exps"": [271954.11788327695, 271954.1178832669, 271954.1178832644, 271954.1178832606, 271954.11788312363, 94472.51066938014, 94472.45591994481, 94472.4286973087, 94472.35278817119, 15354.115678067106, 8007.59215056436, 6591.82613886833, 3929.492874658411, 2469.8740044621595, 1449.390548350527, 852.2245432164087, 256.9255115716472, 153.26564469106333, 133.43559553195107, 33.00901651093071, 18.76041870399114, 18.457812079756245, 18.253580346941433, 1.3884518090836926, 1.2797459325335534, 1.1817458198309958, 0.907396148458121, 0.43757028786161284, 0.19442998291806154, 0.08184366080353302, 113219.84022622448, 30582.225801565583, 30577.840540539175, 10582.161210032575, 5372.99284455358, 3171.85547507441, 1548.3736305160257, 519.4803261293771, 321.1576304260424, 176.96024903472644, 157.70734729147563, 31.650444677527833, 21.614973562358454, 21.411486321427926, 21.056704792117948, 3.3134994622270564, 3.3065717565301855, 1.9147282399296999, 1.1108763187202368, 0.41489918803566367, 0.19479750212784147, 0.048999968968587444]}";
"""sn"": {""num_s"": 30, ""num_p"": 22, ""coeffs"": [3.587252455877656e-07, 1.6589778677524596e-06, 4.359382890059669e-06, 3.1408206766451347e-06, 5.938899318690783e-05, 0.00042887944803469665, 0.0017069466035865657, 0.0045722702140502045, 0.008052662940177346, 0.00935125125387525, 0.018980843306906647, 0.05371088338824794, 0.10526469077189411, 0.17739153232998833, 0.24398989982638208, 0.2840008632098864, 0.48783874555750917, 0.883046184806357, 1.1179058875689987, 0.9694663851191865, 2.148440581171537, 2.6215842638012044, 2.0365100328287067, 1.1053304039315668, 1.8076708138302189, 1.8481452482157552, 1.3655855429219101, 1.1419666498541825, 0.9973542237613892, 0.7551006674580354, 0.009928198097061787, 0.050195752533827326, 0.029297988156015694, 0.12158012688519164, 0.16812101939241894, 0.26495277603078893, 0.30935769807484165, 0.3301472279044758, 0.8320247210316052, 1.4491243133780538, 1.3474677576083782, 2.0248969500876286, 4.0406401146242095, 3.7417602507616152, 0.9930857651234285, 4.417591550824763, 4.6666012438892075, 2.4576909388479846, 0.8549905407483157, 1.0165945133438379, 0.6592648909052194, 0.021220400628501526], ""exps"": [2286467.2486287495, 2286467.248628749, 2286467.248628741, 2286467.248628741, 71857.42449889822, 71857.4244988976, 71857.42449889718, 71857.42449889678, 71857.42449889303, 22543.589842226163, 12109.25022094904, 6996.387717142135, 4120.757479101378, 2535.7672948618847, 1482.4703666419305, 820.6105892237597, 264.6514194877638, 158.0653890438385, 142.34067231861977, 31.296994592755258, 21.106241658010905, 20.754638269281067, 20.413833696427602, 1.3981473518866165, 1.2960171503283444, 1.222075231940951, 1.0732478232725278, 0.37024630687533544, 0.20642171185172586, 0.09759779143985575, 31424.83043397753, 31424.809026368774, 12949.696171865844, 10178.161692622993, 5358.488755450497, 3212.4339369430777, 1619.3204523548616, 528.6387827368359, 328.0355955847522, 183.5675084507034, 172.15769658851883, 26.58195773661757, 23.09927824274891, 22.77326449018851, 3.5374391979719624, 3.5278166281855907, 3.519629568145596, 1.9221025582656839, 0.6598041145660594, 0.3390120973984325, 0.19287963086154494, 0.06319910059543092]}";
"""sb"": {""num_s"": 30, ""num_p"": 22, ""coeffs"": [6.25800801518288e-08, 4.975911782152077e-07, 1.828510921667531e-06, 4.012633845410244e-06, 3.2850972136617643e-07, 6.636697318914588e-05, 0.0004547590230664982, 0.001770319409569757, 0.004653802517576363, 0.007673569161516431, 0.008542069246078341, 0.020753785904743687, 0.054538147702756556, 0.10927617242021855, 0.17923646003751537, 0.24573067423302603, 0.2851731257415921, 0.510567124990467, 0.8992112160733351, 1.1082378068367302, 1.0191419706286375, 2.1268823119687164, 2.501197296576821, 1.8000675010161746, 1.1971706120783863, 1.7437738574873007, 1.7053102277519057, 1.2158402070254501, 1.3337666966712884, 1.1673303256614995, 0.013750291227937365, 0.04807173559606987, 0.04281285531234772, 0.11516433350191899, 0.18145861196706242, 0.2594665931038782, 0.3110724119728962, 0.3647038608155104, 0.8597890120473984, 1.4391967099857024, 1.2533859273851429, 2.299210778794764, 4.162893838805749, 3.617484309750315, 1.7344680323930208, 4.632428787341373, 4.530482420096533, 2.347777146649384, 1.354922998211401, 1.305473374943833, 0.8028469818178435, 0.07676585116158614], ""exps"": [2983311.215071223, 2983311.215071223, 2983311.215071223, 2983311.215071223, 78017.79087086524, 78017.7908708648, 78017.7908708648, 78017.7908708648, 78017.7908708648, 78017.7908708648, 22405.01911908818, 11085.035715347662, 6941.116765137229, 4138.521095130808, 2583.308752061305, 1494.7682411272128, 772.176739836264, 264.91572537585665, 164.5523975918215, 144.53945822060382, 32.11521265465997, 22.730651009460768, 22.575895057603564, 22.369434372190952, 1.486145331136961, 1.443134891919762, 1.3841172275380105, 0.8378758266891085, 0.31488223781495106, 0.21284456277809258, 33949.52626380657, 33949.506956596524, 12624.28192663919, 10644.031836035834, 5358.219577995298, 3261.6914014862446, 1671.231150596138, 530.1496544493189, 326.66337558799916, 192.4682468805632, 176.05832155992456, 25.305299737467923, 25.13212914984351, 25.081545339940366, 3.7790180439947965, 3.766205114925254, 3.753118375312711, 2.0544031329623467, 0.5751160011128009, 0.3204518740614071, 0.1720463251034085, 0.09328582975996123]}";
"""te"": {""num_s"": 30, ""num_p"": 23, ""coeffs"": [2.0067126839946105e-08, 2.1465806083423844e-08, 3.1160829355899545e-07, 1.4215562678332493e-05, 0.0001041325177423916, 0.00046165326655197626, 0.0013271928750984284, 0.0005515349912947637, 0.00138883818596511, 0.0015001776144683717, 0.005121112501541016, 0.01868821097913734, 0.051914935633539154, 0.10922987745560864, 0.17972070152334862, 0.24656631020869235, 0.28961488701105337, 0.5401862972526147, 0.923920936746471, 1.1069864506854064, 1.1191253725377444, 2.1451558757275513, 2.4277521698629028, 1.5565871676216532, 1.2693307670682892, 1.6625044225554664, 1.5202782125309517, 1.2794950672500098, 1.4308604607206765, 1.201185427560275, 0.011181790580001374, 0.018213434488813535, 0.05550845666071162, 0.049353677113378354, 0.12133814131927956, 0.19191555482041586, 0.2610086783222084, 0.31151619072854564, 0.40047839702710497, 0.9090272785525408, 1.4377949732020268, 1.1547287221398617, 2.5552351372031, 4.2175336248975785, 3.416686951355332, 2.3587897232770594, 4.9908225139274665, 4.522765135304771, 2.0547475051449613, 1.6091961663973438, 1.3976512774619514, 0.7893296367951891, 0.07560427156317312], ""exps"": [44465382.041010715, 44465381.77948795, 311024.295849743, 311024.29584967083, 311024.295849662, 311024.29584965593, 311024.29584963486, 118088.85536781028, 118088.82610498497, 14434.351847070951, 13472.527820309633, 8831.099413548207, 6232.593231801417, 4012.5838725681856, 2568.4268674462874, 1502.4858858976038, 713.825097392149, 264.04742093599543, 171.9086383657255, 144.272569354701, 27.254444304572242, 24.625597683405303, 24.53301092691853, 24.357318782166523, 1.524985175827321, 1.5040609379822507, 1.4651020098680185, 0.5523360596248224, 0.30822703068772406, 0.22597656832325247, 138830.0577538871, 36059.31602893555, 36059.31449214081, 13019.621774256751, 11160.148492661006, 5474.057687485466, 3304.668509117004, 1705.4906738515322, 529.8536053169403, 323.01773725180163, 202.6790029717004, 175.13771395074474, 26.7739935163776, 26.75762186381612, 26.750344876066396, 4.021036984830528, 4.009436085893751, 3.9980640607811653, 2.167752614023697, 0.5950594154232607, 0.3403523841018179, 0.18357171117912022, 0.10077242692393738]}";
"""i"": {""num_s"": 30, ""num_p"": 22, ""coeffs"": [2.42100095497054e-08, 2.7580039791029897e-08, 2.9502490001679237e-07, 1.4985883500789668e-05, 0.00011010030709793682, 0.0004883454945608334, 0.0014047475950875459, 0.0005898409991615029, 0.001481223114125329, 0.001613256844602327, 0.005466773905086182, 0.019688867750687143, 0.05419450086527339, 0.11280770714016004, 0.1836094892959125, 0.24853486569282576, 0.29815722130608, 0.5701019778892841, 0.9500737315135316, 1.1031218578847028, 1.1974884478313454, 2.1158936594719266, 2.3065474663243, 1.2087423036990763, 1.3185288781019688, 1.584598276381713, 1.3328294746493068, 1.6181678294138897, 1.7075704802205298, 1.523758567919633, 0.011776647409186191, 0.01914496412037671, 0.05788953363389365, 0.05160791220112885, 0.12512187784461123, 0.19713214123266312, 0.2644228899785482, 0.30911738177904813, 0.4350795747761242, 0.9589322836020666, 1.4475318067565215, 1.0498726338460767, 2.8724324214734303, 4.363526687358346, 3.268639314954445, 2.9665261105783776, 5.36830259972497, 4.518630611342285, 1.4251827607822347, 2.3473589898342424, 1.430246642435417, 0.045938990012043546], ""exps"": [41084848.180856116, 41084848.02659562, 311542.5927306067, 311542.5927305105, 311542.5927304999, 311542.59273049183, 311542.5927304664, 118351.95526890918, 118351.92186434106, 14614.425453852598, 13633.538467698438, 8931.042737657226, 6258.919337539635, 4056.728191234049, 2593.080467760769, 1524.5181557152068, 658.7942966383338, 263.6542983137992, 179.56861330029002, 145.27817034188277, 26.79677342843844, 26.42346407608972, 26.379685710665516, 26.23631807920572, 1.5634709809938407, 1.5483028989724044, 1.5145287231918139, 0.45476110605654396, 0.32827401706449766, 0.1611148033872113, 139149.68346648675, 36260.61648019477, 36260.61466450147, 13167.2303461316, 11217.074054120265, 5526.7059862172655, 3322.0410954452996, 1724.6221523293264, 532.519838722638, 318.0880948723797, 212.8951748490762, 172.51015204468078, 28.588803217270616, 28.586852274576078, 28.58560884228182, 4.268650128767314, 4.2565056107043295, 4.244118624880197, 2.2778718453812843, 0.62779785359439, 0.3223682372385959, 0.10621503640587025]}";
"""xe"": {""num_s"": 31, ""num_p"": 22, ""coeffs"": [9.294454123676054e-09, 2.1160943060682948e-08, 3.213793739939782e-08, 3.200213363031996e-07, 1.581045085399958e-05, 0.0001153508187523734, 0.000509274429454645, 0.001456210881906077, 0.0006283647033172492, 0.0015647095249687233, 0.0017530990847881428, 0.005877994342853107, 0.020881972921850307, 0.05665666560630572, 0.11658559002065216, 0.18767449404140835, 0.24993849443085764, 0.31077136378250947, 0.6052271068879086, 0.9862881185850928, 1.1067141791200663, 1.260510096084733, 2.0885600500091086, 2.195737825989925, 0.5757271459052447, 1.6279020857601445, 1.8695784463032228, 1.5372422764323277, 1.6320108375416762, 1.6366197228828432, 1.4373418014881982, 0.01220438381753926, 0.01997376451440085, 0.05948434367650742, 0.05429902712658163, 0.12816630806338322, 0.20242534754398395, 0.2680247356746316, 0.30475990527937263, 0.4720223334119621, 1.022791971131992, 1.4809166770294915, 0.9402768799181467, 3.2490296546853545, 4.591039984981436, 3.1522932481706336, 3.5535082038407375, 5.674451993122085, 4.419888825729217, 1.2194163233890039, 2.2389006479475575, 1.3716984655167206, 0.050537504750440373], ""exps"": [38546620.77710993, 38546620.65958821, 38546620.58398702, 314774.17902844783, 314774.1790283163, 314774.1790283021, 314774.179028292, 314774.1790282572, 119526.02687577366, 119525.98605247759, 14943.029003892503, 13895.653357883159, 9092.759937934354, 6307.354259863487, 4103.989763320828, 2621.0386117652242, 1548.5534996836966, 611.4156371053774, 262.24763210268674, 187.26499502673698, 146.49169469172145, 28.275055490743014, 28.193929461013926, 28.175929266267584, 27.975948850072108, 1.5903484812076214, 1.5833621751956677, 1.562959959633731, 0.47630921806992244, 0.3275886569967532, 0.17870536582819077, 140591.61542264294, 36726.88045790917, 36726.877752527085, 13425.518485479359, 11282.479797066619, 5578.068023188466, 3334.4380852227278, 1734.2070451140087, 537.1066557602439, 310.5590999155341, 223.49991854725263, 163.13327116686864, 30.632325221874446, 30.632136855476126, 30.63196959239448, 4.504495639074575, 4.489198661566761, 4.469360170833627, 0.7409042387604747, 0.6215222667260879, 0.33885019478523387, 0.12179913969047686]}"].
Definition fpi_json : list ascii := (str "{" ++ joined fpi_entries ++ str "}")%list.

(** bfit/data/kl_slsqp_results.json:1 *)
Definition slsqp_entries : list string := [
"""h"": {""num_s"": 20, ""num_p"": 0, ""coeffs"": [7.528456525284823e-09, 7.599729007655432e-08, 1e-12, 5.678372124356373e-07, 1.0420003917620366e-06, 1.2399705128596899e-05, 5.65699564820997e-06, 0.00011145652998821511, 0.00025206087663810507, 0.0010528575775644675, 0.0035240776511000008, 0.010703872433201428, 0.026563381052303037, 0.07412956314893661, 0.11123240324282804, 0.21850682484528705, 0.30819431320232976, 0.19693294907979145, 0.046477398189793205, 0.0022995823941327383], ""exps"": [16616.76293015438, 3760.4352436221143, 1989.5539150536883, 1323.4449277296653, 700.1146604654556, 290.50531488289175, 176.51383485024897, 90.50971807272096, 44.64943440936026, 24.949033671446372, 12.859712281931879, 6.929419880011891, 3.985543480641581, 2.243685496832185, 1.350802942149029, 0.8612446574786057, 0.4934421181426604, 0.28280816844603135, 0.167034498268308, 0.09914503752003527]}";
"""he"": {""num_s"": 21, ""num_p"": 0, ""coeffs"": [1.0527124324875343e-08, 1.1140665589346961e-07, 1e-12, 5.657285875443004e-07, 4.919224943689412e-06, 1.0000000096425977e-12, 3.596965611138181e-05, 0.00027775695215365376, 1e-12, 0.0019780621372580617, 0.005328724455242886, 0.013203235863594889, 0.04845745017010418, 0.08100235343134254, 0.21449513691860925, 0.2712101598487574, 0.431661983228038, 0.5395716209495822, 0.31597715489138795, 0.07307399426138267, 0.0037225724534772167], ""exps"": [65658.86212796661, 14745.60806540009, 9241.112583805945, 6001.462635630552, 2193.6813858374676, 1108.2728921284718, 789.5130393168054, 287.415035131694, 180.09891639326963, 103.43030708032667, 45.99124968465561, 28.99356811617534, 14.819510972946759, 8.796776170561385, 5.148453703631756, 3.0535209752181176, 1.9703386150959195, 1.1153165396805718, 0.6204974220405554, 0.35492334167548933, 0.20408739356336394]}";
"""li"": {""num_s"": 25, ""num_p"": 0, ""coeffs"": [1.2070372271864862e-08, 1.0000000917455726e-12, 1e-12, 3.7149244603360876e-07, 1.654763604463413e-06, 1e-12, 1.0000002347409566e-12, 9.291201288499988e-05, 0.0005900463939348022, 1.0000011990951947e-12, 0.0034585861188284207, 0.0047717573753155015, 0.022774851059453875, 0.0656538078741872, 1e-12, 0.29596665072139416, 0.27061001861087675, 0.4890766159658833, 0.445383989744991, 0.32353938007635774, 0.008033012246281104, 0.3066076194184803, 0.4700289146375735, 0.2861430575954421, 0.00726906418894125], ""exps"": [204300.09153553998, 31197.66494728298, 18503.020750968473, 15425.683752577022, 11344.864652691038, 2905.3914449260747, 2053.3615326483496, 1566.1745192643268, 427.9170829123291, 373.2170632594198, 185.20665385366348, 89.9632022718396, 57.57543972420226, 30.347250471289623, 16.655647860698252, 13.90625546765894, 5.656444954475816, 5.658026885616244, 2.3016275332569407, 2.3016487928933493, 2.301722512321302, 0.11456886452944619, 0.11456840988145328, 0.05825460744809616, 0.030975047734629033]}";
"""be"": {""num_s"": 25, ""num_p"": 0, ""coeffs"": [2.024989747037446e-08, 1e-12, 3.8289933960429136e-07, 1.4343174613354406e-06, 1.000000537683307e-12, 1e-12, 7.344002048783975e-05, 1.000008016284829e-12, 0.0010238853336438543, 0.0029259626793860967, 0.003338269956166827, 0.023064147986539413, 0.05586244065753513, 0.12542682614685569, 0.25005477043268587, 0.4120524633672303, 0.3772819513415919, 0.38088502581138867, 0.24014741885457014, 0.1137602897853396, 0.37620124760882157, 0.5623366467175696, 0.36747787753603245, 0.6676968348812399, 0.0403912401580281], ""exps"": [143301.82871740175, 47575.77102627231, 39304.01146893595, 18498.88313733716, 5796.478122231922, 4777.272487684825, 3273.2684815266753, 741.2849866855764, 718.14502979473, 304.2510907074571, 160.40030597880545, 120.92649943041707, 47.6321381113929, 39.463434678536224, 14.929256370744135, 14.978111100914365, 5.606339114752341, 5.608234172440156, 5.605592751314852, 0.26393490829398003, 0.26393614776656293, 0.2639356688184199, 0.263934811780292, 0.1253259332887616, 0.06599699030123782]}";
"""b"": {""num_s"": 25, ""num_p"": 15, ""coeffs"": [9.261582003482301e-07, 1.00000000075477e-12, 1.000000001683131e-12, 1.0000000059256995e-12, 1e-12, 7.795969813342693e-05, 0.005703495230776173, 1.0000001613141401e-12, 1.0000004135729306e-12, 1e-12, 1.0000089655474185e-12, 1.0000002689432864e-12, 0.08713444040734271, 0.03375906973111934, 0.10997980812425387, 0.1870531279130405, 0.13335150157858397, 0.4117952148431885, 0.09082329888546323, 0.02235132766410927, 0.23527757532165536, 0.3581606323390756, 0.3778626469728274, 0.31537992851987645, 0.06425053660003437, 0.005934125334420044, 0.00850476091997116, 0.015654898549004915, 0.09207451108657308, 0.14524473911981212, 0.1927043264303612, 0.19626155798889877, 0.10146934349397066, 0.11041825530003466, 0.24172185397780296, 0.4877899106775506, 0.5041575557535386, 0.3230138328898959, 0.14137457805492595, 0.0007172836657501654], ""exps"": [48328.35202456768, 48111.02440623849, 5582.330163497667, 5545.195652614419, 5536.990185368224, 5528.266133212885, 821.8130149785698, 790.4907664498577, 785.2222317501524, 779.597225582543, 709.0224445579067, 243.6072353279188, 128.1372223868279, 70.02377864538063, 40.06716843571588, 23.768671972532744, 14.849213017602375, 9.730886753887296, 6.910794207270808, 1.216700038978022, 0.640800827376561, 0.4725183957364972, 0.32919793429208893, 0.23031183835097713, 0.09348762782660038, 552.0952803367923, 322.257044989998, 161.7942874549958, 90.32186990340495, 50.78107107496472, 29.279584345415863, 17.646658002993377, 10.444020473423059, 6.887119123997431, 1.5128196853369473, 0.8779422043992229, 0.49963959022820237, 0.2919317046258974, 0.1776119210734198, 0.06195496400359521]}";
"""c"": {""num_s"": 23, ""num_p"": 15, ""coeffs"": [5.937692244420547e-07, 1.00000001945041e-12, 1e-12, 1e-12, 8.307687520511423e-05, 0.005400111649710039, 1e-12, 1.0000006823489779e-12, 1e-12, 0.026598632290992668, 1.000000042027749e-12, 1.0000055595872933e-12, 0.022569741105904827, 0.1330981076070716, 0.15345283767171108, 0.34847345814925984, 0.03487323568075899, 0.07382743771025004, 0.22421355220872088, 0.39799990719710115, 0.4867545603915347, 0.4436113674058094, 0.40305225436056524, 0.016154124031123485, 0.05889938057507378, 0.1074710889069167, 0.1627354146892783, 0.20326713135389082, 0.22775886868072706, 0.20639050030344974, 0.19307570832340912, 0.22986391020819966, 0.37278583916217045, 0.601689281674316, 0.5321356722060221, 0.31523173222003315, 0.01790279731900643, 0.0006331246821283986], ""exps"": [73524.28692685292, 8380.17907447233, 8261.614161553132, 8249.102144428198, 8236.461373249818, 1083.3946883918873, 1065.3772657047284, 1056.597034413069, 1036.6890644685107, 535.0280417172713, 265.30794566194476, 132.2617719047484, 74.4672470760297, 43.15145873436664, 26.377773455736097, 17.110015672956045, 11.084266804429713, 3.362383863896026, 1.2229493482536211, 0.7892772949156538, 0.5569408101119032, 0.3995903813165371, 0.20239828217202507, 570.4937983058461, 312.3495891280904, 169.9478559181596, 94.76716969681112, 54.137320425311515, 32.00807089595257, 19.091174730280297, 11.717501653092125, 2.4894682579210454, 1.6836706833668325, 1.079615447427186, 0.6473214269570298, 0.38564333813579355, 0.14038995906126703, 0.0858851068556894]}";
"""n"": {""num_s"": 23, ""num_p"": 16, ""coeffs"": [1.0000000157204308e-12, 1.0000000157596641e-12, 5.248057959284774e-06, 0.00044800662811154745, 1.0000001407822927e-12, 1.0000000871881685e-12, 1.0000003473378426e-12, 0.0007907012543607056, 0.0013809085213722237, 0.027115609318416178, 0.08479562668905594, 0.013291590603023963, 0.14367753049029383, 0.16847680802403592, 0.14803081879577876, 0.34952184112024853, 0.19993011050685683, 0.19365308714309337, 0.4371941867960228, 0.5969531881465596, 0.5989459097477606, 0.4926031264575686, 0.0985107228590797, 0.0006650484652175317, 1.0000001834600962e-12, 1.0000003887452816e-12, 0.0209316969732133, 0.10170154484378087, 0.14662842293512737, 0.20932026534121842, 0.21012059927309532, 0.10466815424724399, 0.09899222317973443, 0.39172779088810805, 0.7490637222480635, 0.7226400916967813, 0.4865465992678674, 0.20057181305335006, 0.0011006090802169043], ""exps"": [59075.50331832318, 57142.69340509299, 56220.8918378142, 4658.730910744038, 4626.518691724495, 4591.239381300391, 4298.601178321949, 1780.1460159090286, 926.4218969056919, 463.26777674263457, 244.06694367961913, 136.428375972693, 78.38013304953716, 46.695175894101055, 29.195974374260434, 18.784275786149696, 10.445718436532122, 2.4265578769032174, 1.4058073978431203, 0.9320460982751977, 0.6873827289570815, 0.4375400209672121, 0.1845102642781363, 2161.848814206093, 826.9023335751605, 648.645885079668, 313.439532842852, 178.07302401085084, 99.69749966966313, 57.57212110146279, 34.55900488292266, 19.566040306140444, 4.8230898379915255, 3.04908450384878, 1.80816162932123, 1.0383947027300509, 0.600407012030468, 0.351573010845909, 0.12118451270440524]}";
"""o"": {""num_s"": 23, ""num_p"": 16, ""coeffs"": [1.0000000006562745e-12, 1e-12, 1e-12, 5.327374158681559e-06, 0.00033023996685290066, 1.0000028201746851e-12, 1.000001023784482e-12, 1.0000001752204003e-12, 0.0014857951042895634, 0.004708026080108031, 0.055179852079477384, 0.06650311606044004, 0.06944416685422322, 0.13774620017749403, 0.18541917778554579, 0.18751589588003476, 0.2560662548957683, 0.1878439356220399, 0.35328854316346114, 0.5977202588251034, 0.7189430839852619, 0.663552031888122, 0.6038063947907134, 0.00045134644851352773, 1e-12, 1e-12, 0.04645177579168604, 0.12098008304715671, 0.18957629860919487, 0.23249772441890174, 0.21316971603350043, 0.114120970894564, 0.2626998960254332, 0.5896101983630329, 0.8649950061798528, 0.758820445180603, 0.48353128614237384, 0.0322615832892902, 0.0012791382485003377], ""exps"": [749602.243752171, 75929.75167048992, 73671.86831649528, 69403.28991541169, 6713.172438314974, 6608.104136891208, 6454.0148945357405, 3887.24973979045, 2154.3953512954376, 858.5298047236802, 466.32568862346614, 249.5295101312731, 142.90672838984585, 83.04096636825844, 50.71270627098616, 31.80378056535084, 21.41776353630978, 5.683333298290203, 2.5857927272486214, 1.5981272973393688, 1.082771258406289, 0.7531832575778517, 0.3459246871540388, 2762.4213376472044, 1072.0631974809419, 674.8930171165001, 332.21180319009505, 184.53559133022824, 104.62332838386047, 61.34463456549845, 36.29659604874746, 19.95386279590489, 5.167708137212634, 3.3471284298275066, 2.040776584859399, 1.190347823773237, 0.6909754192559165, 0.23498015785934617, 0.1393747563474339]}";
"""f"": {""num_s"": 24, ""num_p"": 16, ""coeffs"": [1e-12, 3.0798710407692164e-06, 0.00019458610110872435, 1.000000113086339e-12, 1e-12, 1e-12, 1.000000037169205e-12, 1e-12, 0.0007737220015999442, 0.0007815143603097511, 0.03297813973189218, 0.03898041233269041, 0.03093196474649412, 0.11342152441421048, 0.16998116063709479, 0.11786808164944977, 0.36584725974288557, 0.2392370372317371, 0.3199381924907764, 0.5094525102883134, 0.7238555527730701, 0.7917588121400968, 0.6856369193614235, 0.57608551591785, 0.00024196470749626687, 1e-12, 0.02999258718884101, 0.0839060113526503, 0.13937979377021392, 0.20492570384305078, 0.2334351570583015, 0.11857344893977187, 0.0962043524508953, 0.44630632389048563, 0.8101542702336925, 0.890490715905225, 0.7432488030600091, 0.4546340288515702, 0.029677876401941326, 0.0011076792937555727], ""exps"": [129216.39355061842, 126884.77421820372, 10565.666372555434, 10553.24157676424, 10544.800677853982, 10508.025180981656, 9052.876485440114, 3728.454900145423, 3283.3707454031655, 2756.509145918863, 867.128350443544, 484.33097394479836, 258.77588810148245, 148.8700326852517, 87.49000372207492, 54.10833739454055, 33.95894946743454, 18.581595705272044, 4.778158942099963, 2.759206951407022, 1.807921685541793, 1.2183172748940718, 0.8464353843329067, 0.3993827927726376, 3363.4451380584123, 1230.2598409389325, 604.1994697939866, 342.3523373682798, 189.73253131451554, 108.73406074345803, 64.48072654456335, 35.49640782050814, 10.56605180318388, 5.9751602696805675, 3.622439156030315, 2.2573153360759917, 1.366547804319884, 0.7951648316615731, 0.2712413241006495, 0.16061274217441063]}";
"""ne"": {""num_s"": 23, ""num_p"": 16, ""coeffs"": [1e-12, 1e-12, 1.0000001932755852e-12, 7.430521987598431e-05, 0.008292802701439375, 1.000000211202912e-12, 1.000017363858557e-12, 1e-12, 1e-12, 1.0000093101890449e-12, 0.09113477006164351, 0.0719449839094123, 0.13025854385286215, 0.16659277114719945, 0.22212346531903956, 0.2031377258388439, 0.21355651029544603, 0.39360925747254094, 0.6475209986067799, 0.8582049457038877, 0.8511319242577451, 0.66417889014259, 0.477310730697663, 0.008306088939908494, 0.0055838406248660466, 0.015320697619826885, 0.085957695271859, 0.17151574952936827, 0.22293131060183446, 0.25470965459344125, 0.18275742958882932, 0.2779091318710372, 0.6761130015091924, 0.9236149064091459, 1.0156639532121796, 0.7427939473949444, 0.39466830846994294, 0.022322734528838154, 0.0007634312734074902], ""exps"": [28762.818072119484, 28679.140526965555, 28673.98543920949, 28668.267260125827, 2674.3283038668683, 2671.5076044152825, 2670.4891664527336, 2669.2181900239393, 2638.5064938613336, 978.229546669916, 489.65484270587524, 271.05679945464277, 155.19031113070344, 93.21835648100789, 57.78331243185064, 37.276938936689454, 12.415490860116208, 4.9680159858580755, 3.02832651886467, 1.9927201431058592, 1.3397454558571322, 0.9167695471988542, 0.4421122052607291, 1619.5463305577166, 1279.169541308707, 609.7468546645126, 352.4552622218869, 196.2458526998901, 114.25237656328203, 67.21056574201369, 36.68804030935042, 10.08105999414239, 6.24762898521954, 3.968057263546922, 2.4781953497811924, 1.4693530694135508, 0.8585374343610406, 0.30386572621513896, 0.18146565335225628]}";
"""na"": {""num_s"": 27, ""num_p"": 16, ""coeffs"": [1e-12, 1e-12, 1e-12, 3.977938271557746e-06, 0.0003606375344076715, 1e-12, 1e-12, 1e-12, 0.0013568437848422961, 0.006076104342326068, 0.0454151706788708, 0.02997025090306632, 0.10615485462999587, 0.3482075893742346, 0.024863155452173692, 0.486471368950307, 0.4060899947838794, 0.44357676243992944, 0.5658109948516478, 0.7893137223889922, 0.8853856713064595, 0.7927540900602048, 0.5380928798037428, 0.13585810550247765, 0.6144707760442765, 0.2131713796885322, 0.012633869189138898, 0.0005011572440571671, 1e-12, 1e-12, 0.031127849091221346, 0.046480294581206734, 0.08007445950391882, 0.20286642193449014, 0.010417771868584766, 0.055745705024469884, 0.3128597476084793, 0.8765685836291143, 0.9795850117824402, 0.864639513781818, 0.6476567487829498, 0.30033607122513944, 0.14510726185247308], ""exps"": [2398781.7449484426, 177712.04722426867, 177433.43265677802, 175745.2436683843, 12576.392469219683, 12559.082218794056, 12529.329330289498, 7445.965421633007, 4164.767371334628, 1608.7477424547849, 882.2024939250216, 479.56490955190634, 278.14789299217387, 160.57990806598374, 98.63446762087538, 58.86334632894779, 39.65142660995765, 9.458173311289743, 5.18899359644785, 3.3535824089513464, 2.286124261609574, 1.594223015867285, 1.1085930503356054, 0.19696862372745658, 0.0836843283600599, 0.050246701810650066, 0.03078450388916419, 5232.697054296115, 1917.494558846494, 1435.3848048708674, 647.571226748914, 362.2689624370751, 201.61845850282995, 119.17045232414674, 65.58937751714053, 28.3582267680557, 11.199690278125713, 6.840029860676842, 4.3185722432351925, 2.8591492778139638, 1.7892626611688842, 1.0183929785427885, 0.17382818211993806]}";
"""mg"": {""num_s"": 27, ""num_p"": 16, ""coeffs"": [1e-12, 3.01781125727049e-06, 0.00031692117658341305, 1e-12, 1e-12, 1.0000000071342924e-12, 1e-12, 1e-12, 0.0012977801233192913, 0.02956752737496001, 0.01930532042226235, 0.0964485221281093, 0.0016831768203294157, 0.27609844057034905, 0.0630366342247361, 0.4093221216840036, 0.26831772144448757, 0.38937437378045375, 0.6373625691211695, 0.8561561713626313, 0.9082946968674938, 0.6808116040518356, 0.24735338431271886, 0.37647473675923754, 0.8746945384221032, 0.21564316507440523, 0.010518643951422829, 0.0004902935587586327, 1e-12, 0.024611369938323507, 0.06288248443492418, 0.15331943209662582, 0.1691373484957394, 0.24753573347022284, 0.1274824381900395, 0.18061926860962166, 0.6563178717717801, 0.9489213975212581, 1.0026030995406416, 0.8928556039179696, 0.39544296928342776, 0.33243534705261363, 0.4432711646718688], ""exps"": [249335.99164311204, 247516.15681554005, 16338.431467730721, 15876.462155845325, 15820.299649262653, 15763.68607232379, 15206.475705678702, 5828.205894295005, 5185.836254163223, 1671.1421922793363, 924.5677423971476, 492.8037220137036, 286.58349303749907, 167.46686712622113, 103.51467676762157, 63.729042026175215, 31.29007342357258, 9.37643575828141, 5.538830513925496, 3.687101987685072, 2.593279270447282, 1.8711399483063396, 1.4200711024984185, 0.35509323032229406, 0.11387843557485575, 0.06989756195358915, 0.043514930857098975, 6616.0215252064845, 2274.1439768200266, 1235.157518066871, 665.1924334992226, 368.2384739548914, 209.34716412237518, 123.44342672400724, 67.34634758813374, 19.968695328101454, 11.594726993580204, 7.253784961952292, 4.897412398747255, 3.091877971606374, 1.795507585990569, 0.35508394523291, 0.22442992327062825]}";
"""al"": {""num_s"": 27, ""num_p"": 19, ""coeffs"": [1e-12, 1.0000000125363555e-12, 1.0000000143128964e-12, 3.0200870021547633e-06, 0.00044232850944391275, 1e-12, 1.00000155276181e-12, 1.0000000890562055e-12, 0.0006722867975999918, 0.0005717920986736374, 0.02765388584607984, 0.01682989435461184, 0.13941531392589923, 0.2086066197051425, 0.1469047656570032, 0.17668549206697912, 0.2863613058639208, 0.2667673608441588, 0.4889839767324964, 0.7524562243679087, 0.9652227342850955, 0.8431109211488107, 0.5956361188082305, 0.2506939491042061, 1.0199517060430732, 1.0190214689322536, 0.07204775888991606, 0.0007536844005072827, 1.0000292512661313e-12, 1.0000053125083068e-12, 0.016462215187838806, 0.017891011454056815, 0.10842208114651669, 0.2290467575294242, 0.2573736018825964, 0.1728572291780032, 0.3037113261990992, 0.8033810321566396, 1.0390363678633778, 1.099017842836329, 0.5253353699590516, 0.2085470912314493, 0.38409770671805327, 0.4324616786125545, 0.12278198725411622, 0.000790404377657778], ""exps"": [311903.12899820035, 311818.4983816446, 311788.9073788998, 310338.95051848324, 17305.40046945177, 17301.045132813797, 17295.39426424685, 17190.521435219318, 6468.186476145516, 4645.747285624849, 1684.3816968976384, 914.4267220491714, 507.75041811526205, 293.62206180258005, 175.11384864733918, 108.06572555180662, 68.16491429233162, 23.093228011722292, 9.596993439739718, 6.01979488538113, 4.064315335264144, 2.9278498280178193, 2.292701188786743, 0.4090986269756033, 0.13005612730830163, 0.20144836420232243, 0.05353600445271613, 7804.716497375365, 2473.6562253174598, 2423.194484747426, 1122.7300635470358, 678.757966792458, 374.5817334427377, 216.6562628642295, 126.87556564716628, 67.6239754804131, 19.481619769085544, 12.172489654511166, 7.903225226574368, 5.120303819382341, 3.191118370140293, 2.3002339947958323, 0.5730462302215671, 0.3494909887215748, 0.09680269094783132, 0.03682233700121793]}";
"""si"": {""num_s"": 27, ""num_p"": 19, ""coeffs"": [1.0000000048388614e-12, 1e-12, 2.986493705320265e-06, 0.0005232975901733592, 1.0000002380160366e-12, 1.0000000207067668e-12, 1e-12, 1e-12, 0.000751537005941148, 0.00649785125254297, 0.011415033689113022, 0.05011165620157486, 0.12311536924453402, 0.376641313554109, 0.000816340935220959, 0.47141088790356156, 0.4075235004705846, 0.4274318627470587, 0.6308006644467573, 0.8956291120406681, 0.9575336564207717, 0.795923977149, 0.2441686420678027, 0.4601940167799978, 0.6751878040044546, 0.6109429865137469, 0.14852273145649345, 0.0009101419656784831, 0.00010545618076838087, 1e-12, 1.0000008854642163e-12, 0.003589971743136159, 0.045247049842725595, 0.2090232427598143, 0.05017026811911025, 0.08888850163513018, 0.3184636276597187, 0.9999987997225808, 1.0083455523210767, 0.9248579338537519, 0.6195896231676042, 0.6733984343239227, 0.8684607681882344, 0.7270594861507013, 0.1650623335948432, 0.0016893856405610535], ""exps"": [378263.1069903677, 378197.8764049154, 378175.4197354433, 19021.915194678135, 19006.957886442255, 19004.62936655915, 19001.05968827085, 18617.302132424535, 7333.4287632200885, 2590.550975142888, 1719.9257780561657, 908.0202077653247, 522.3838095391839, 301.2807956038961, 183.50249627816586, 109.87551166263759, 73.7570137533798, 18.84658922277987, 9.959712701503292, 6.544210630732205, 4.6630726908831015, 3.4247677368296574, 2.6792899275126683, 0.3259448091258666, 0.16111613742496092, 0.3995849254411304, 0.08349524931644016, 8887.48235586906, 2778.914977761994, 2669.6558387297687, 1165.2595308105153, 698.4308539016608, 381.1675478381584, 224.3032301616294, 125.57295363198813, 60.509554443642884, 21.38932513597724, 13.095668142826321, 8.400728590731283, 5.8379138777548, 3.666852820412709, 0.7849160943956593, 0.4564853778554234, 0.2725408162845181, 0.15000101340684044, 0.05635941475850049]}";
"""p"": {""num_s"": 27, ""num_p"": 19, ""coeffs"": [1e-12, 1.0000000520299854e-12, 1e-12, 2.5965948198016254e-06, 0.00042706236562228914, 1e-12, 1.0000003828988212e-12, 1.000000015131234e-12, 1.0000002140441436e-12, 0.0011833634028897832, 0.0067340584290477845, 0.05057350552320409, 1.0000036202131612e-12, 0.17806168956140334, 0.21316939446966665, 0.12219195371538391, 0.524953902607463, 0.3717355796061532, 0.3563234722090515, 0.6397685361557185, 0.9653043713388535, 0.9279211423359007, 0.6760992787778402, 0.33311682604631127, 0.6793593631071, 0.810052709376428, 0.6117844886859892, 0.0008481667717609868, 1.0000018405506617e-12, 1e-12, 0.0357610569542098, 0.03648955860138166, 0.12264510728867349, 0.17411085227984652, 0.05246593170241103, 0.17071330612213348, 0.6939182408734736, 0.9544420327685864, 1.2926669333886918, 0.7014360258088909, 0.3682809393200104, 0.9966101001774286, 1.2182719697310276, 0.669181869105349, 0.041909191023877246, 0.0014911757509795357], ""exps"": [12629425.863325357, 470055.54893035337, 470034.193742647, 470019.9298966523, 23462.73405666769, 23458.457749503923, 23457.58932794081, 23455.973377243525, 11410.661868662175, 8187.4652817779925, 2729.623829480552, 1671.7094991301535, 915.6779483375301, 537.2890545457841, 308.97340638589435, 190.21418553223776, 112.48687084823123, 66.69203828529182, 17.784307697559996, 10.398076079755405, 6.959691608375384, 5.142859246021953, 4.218340663809623, 0.43310497241804574, 0.38448836085844806, 0.16622956991173896, 0.23507085858316276, 9894.679133347829, 3239.326002422994, 2961.986377921771, 1240.7023569625474, 709.6556316907258, 389.57933982559393, 230.66965655371524, 122.31344075605628, 42.31888692797423, 21.529019897930525, 13.762232014595144, 9.147845100472852, 5.650137321163602, 4.416168256319989, 1.0059056711914203, 0.5979701581646365, 0.35183444269173386, 0.11878165564580788, 0.0737718569750525]}";
"""s"": {""num_s"": 27, ""num_p"": 19, ""coeffs"": [1.0000000015086912e-12, 1e-12, 1.0000000014612713e-12, 2.529365402569922e-06, 0.00042705651009745384, 1e-12, 1.0000002157725651e-12, 1e-12, 0.0010268646574917747, 1e-12, 0.011809354926823262, 0.051186611409142824, 0.03185714583980397, 0.24253324265483478, 0.22500065996252258, 1e-12, 0.24602099301965452, 0.2310265355463219, 0.62432671907812, 0.8783150910013188, 0.9573323307109705, 0.890448793261379, 0.5327661022357367, 0.27471177936711244, 0.8658526290384517, 0.40030136566359914, 0.5225615098469079, 0.0008453337208062574, 0.0003902460051606952, 1.0000000688874566e-12, 0.02832202108125892, 0.058973370024407355, 0.2099798007645567, 0.35811442596870174, 0.22686786572526121, 0.17757929086189697, 0.7394173600877778, 0.9162629984325198, 1.1690878181393873, 0.8472687961212869, 0.6769860586198402, 0.99964130136758, 1.613231143852848, 0.9751716079491252, 0.013980294199955166, 0.00037943014728589755], ""exps"": [14770579.259198323, 558157.233567154, 558098.689551054, 558054.1094783114, 26613.770636549903, 26607.129823498755, 26604.961538391493, 26598.919280862763, 9961.818708284543, 9334.149489366391, 3045.687202691785, 1585.9709910812235, 936.5477597259398, 549.9337035385092, 320.663961500909, 198.25795947276666, 119.44642297912635, 54.197878876678615, 18.114294726917073, 11.171023199704015, 7.659993542622025, 5.75575647081204, 5.0138759232343135, 0.222066758253792, 0.2637460840214119, 0.15763795568277855, 0.28097098775141477, 11386.034827524767, 3851.463925078715, 3153.2235483796894, 1317.8107559839486, 717.5157580887387, 404.1084011068001, 236.4882594028134, 128.9608730724868, 38.36802830996274, 22.351357607049597, 14.443226382349417, 10.160906767281952, 6.13042045236709, 1.465488042021973, 1.1045309682752917, 0.7489227607662483, 0.48689160879212257, 0.11448234765311051, 0.07277549542588056]}";
"""cl"": {""num_s"": 27, ""num_p"": 19, ""coeffs"": [1e-12, 1e-12, 1.0000000040205091e-12, 2.153625144793848e-06, 0.00034795534987674953, 1e-12, 1e-12, 1e-12, 1.0000013606211472e-12, 0.001173679457737735, 0.042352443791413764, 0.03750762447714312, 0.0838152579502646, 1e-12, 0.0010602366295549039, 0.019052606670143926, 0.2679060346345813, 0.0641841763399581, 1.0283899873855311, 1.448333577866032, 1.4231905739512725, 1.3615509145487272, 1.0000001096767224e-12, 0.035388262741680165, 0.3936256344125243, 0.5209033506271916, 0.06562664311138594, 0.0005867391921583889, 1.000000078957708e-12, 1e-12, 0.036259845285493024, 0.11460097095153396, 0.2595104985907554, 0.3541464618641156, 0.3517059372853792, 0.19255331523635108, 0.09663220068822617, 0.5348677367432708, 0.9759115711386174, 0.12597847854732758, 0.8344532788504221, 1.4862490751084276, 2.324977544908822, 1.7970557477683011, 0.7196064250110689, 0.0005010022955071123], ""exps"": [688290.4776803582, 688162.5706553994, 688114.507254356, 687739.4615489491, 32704.615517124643, 32702.228085766958, 32699.502910195344, 32677.338568691906, 10966.767844203145, 10806.725057989968, 3213.483845936368, 1707.5267829226607, 954.4801058339217, 560.4850356011998, 330.805580405867, 203.13409809199388, 127.37118420872002, 43.31141630412796, 18.74392651020503, 11.484342015183552, 8.556153511420915, 7.001385393465427, 0.9036889275281471, 0.6027373729965138, 0.19760910828600833, 0.2550404892320341, 0.12846701926172316, 13513.064992009484, 4450.227277862484, 4383.760883644858, 2407.1079230363944, 1313.765765614302, 721.0283267214589, 414.13204900765373, 238.65097433339827, 127.60459103507907, 38.36288295974417, 23.659079939504764, 13.982500414070655, 9.697337853326147, 7.311595605464019, 1.676493770221533, 1.0242455525331973, 0.6376260144062729, 0.4096670409492743, 0.0879344921858658]}";
"""ar"": {""num_s"": 26, ""num_p"": 19, ""coeffs"": [1.0000000000098359e-12, 1.0000000385061239e-12, 1.8893280693518434e-06, 0.0004258894536425663, 1.000000025525324e-12, 1e-12, 1.000000193434943e-12, 1e-12, 0.0004430350530983601, 0.0017861110886896441, 0.022272186509377245, 0.01498559981715545, 0.1704560475936708, 0.19848628200515683, 0.08087733560383287, 0.416108042593298, 0.44556619372413403, 0.4340160527673091, 0.6380832237938273, 0.8593149133566726, 0.8272275119548059, 0.5772503033154466, 0.009993504449510448, 0.3117391018137743, 0.815670646283536, 0.8307984619321943, 0.0006480533500487756, 1.0000060208390132e-12, 1e-12, 0.007447538701348579, 1.0000036500272062e-12, 0.0869807918986028, 0.1825334427974045, 0.0781378481612303, 0.13438618897743357, 0.5440346735668048, 0.9787748821615917, 1.4816482628500312, 1.0859995343934086, 0.33057343192929783, 2.087844064245116, 2.8065510007986805, 1.5359956736040232, 0.0028939452492448125, 5.930180360755595e-05], ""exps"": [890923.9042811522, 890912.3331767627, 890906.415676453, 34715.18196743286, 34713.53571796101, 34713.086426467176, 34712.410164602145, 34668.65760252013, 13424.362461062536, 7411.67526142884, 3142.2148204141254, 1725.3245134634792, 976.149972165497, 567.4807270250328, 341.7917995532579, 200.7034181908876, 138.7986404931249, 38.48632877935538, 19.505234750991406, 12.33999741105476, 9.313455117314518, 8.7041096056034, 0.12311559234853472, 0.20131610209548623, 0.3362297335831584, 0.33124845309554507, 15906.120132229715, 4680.275657426199, 4666.704993544171, 2081.4556392874233, 1341.9650719516173, 720.5277678062686, 424.6547414937086, 233.25147695618313, 107.56939727624234, 37.19188772873864, 23.935387114446083, 16.30801971176583, 9.591556550041469, 9.564651760842356, 1.8839609880100876, 1.0983178934757967, 0.6592277291774697, 0.14374204314005976, 0.08510434686582966]}";
"""k"": {""num_s"": 29, ""num_p"": 19, ""coeffs"": [1.0000000102319023e-12, 5.390646505969774e-08, 2.1308176448792342e-06, 0.0005182343528658579, 3.84984015144595e-06, 2.582328392386765e-05, 4.673381297971134e-07, 1.0000018235438738e-12, 0.0007006703024036451, 0.01091199166402214, 0.005314502989624702, 0.04897779650283949, 0.08552236477373115, 0.4360784839154652, 0.0015042827530257932, 0.5632252378312935, 0.41949099738814943, 0.8662345978106205, 0.8223047917007906, 0.9369452338127113, 0.7084557026983811, 0.0006821199096310178, 0.0014622682949287794, 3.530640596764918e-08, 1.0000005644996313e-12, 1.0000005884798737e-12, 0.9661354401902651, 0.07974598552318526, 1.129289292423306e-08, 0.0010552801185614892, 1.0000011780141472e-12, 1.0000015390995991e-12, 1.0000044364437842e-12, 1.0000050492610873e-12, 0.00026710820870542757, 0.18744836386132413, 1.0000042383740518e-12, 0.03205731667495664, 0.46842067657004566, 1.2804105987178274, 1.1441332640079847, 1.5772638895108948, 0.7178910818983494, 1.6349903275706918, 2.8568066761707884, 2.069063767606483, 0.9059997868341437, 0.1699552248563953], ""exps"": [910383.3187384112, 910374.0028855479, 910369.2977785295, 35758.182001427376, 35757.06851594281, 35756.738394567285, 35756.20793326337, 35646.334597243746, 13997.64641746647, 4224.54119048728, 3224.221511983812, 1728.6262845697127, 997.803613095943, 578.1473444783878, 352.65949871211194, 205.12669439928524, 132.52976311697114, 34.756325207604846, 19.967173420257033, 13.548732374670582, 10.934061022970527, 10.158917782922986, 0.01886459417031346, 0.044378599028133806, 0.753823160277594, 0.7405827507720527, 0.0703668332059476, 0.029491158380880095, 0.15930366590191522, 16630.532991573906, 4926.880796928124, 4899.122085713799, 2131.3846459206347, 1364.7510965044107, 732.316402780978, 434.26444945786756, 233.91313541747863, 90.85101632472657, 37.857247552846715, 24.43784989368494, 17.186831287158615, 11.343600764676674, 2.372608447967229, 2.252325882103633, 1.4041415934774757, 0.9160637958625438, 0.5688309302201381, 0.05193333207910008]}";
"""ca"": {""num_s"": 29, ""num_p"": 19, ""coeffs"": [1.0000000150263134e-12, 1e-12, 1.8547332142061397e-06, 1e-12, 1.4402066010721919e-06, 0.00047842787036298087, 1.0004768383025199e-12, 1.0000000002484823e-12, 0.0009731014014317464, 0.01455370851720119, 0.016102821233435163, 0.033815848403415186, 0.09143131332064809, 0.5344804515797603, 1.0000343945662217e-12, 0.4358553459813672, 0.2350180982752058, 1.1956288566090567, 1.717594453389707, 0.0362902779178164, 1.0000004298013867e-12, 0.0762069868704081, 1.0000001281595967e-12, 0.1092372201630912, 1.0785463393745909, 1.0001047695399808e-12, 0.6711405091880085, 0.003179850497224688, 9.999738472067528e-08, 0.0010477917352833827, 1.000004405436706e-12, 1.0000019993699555e-12, 0.013748586168628152, 1.00000000977008e-12, 0.0003964226663005998, 0.25824527155625987, 0.14254147703798012, 1.0000400917725849e-12, 0.4914264057601414, 1.9034169305430897, 1.1556915993141221, 1.1998130873831483, 0.9638189112433518, 1.9907397133870413, 3.5656885834482974, 1.4762439305951185, 0.20899751060379076, 0.3776539542419759], ""exps"": [1121530.6990435359, 1121527.0508329836, 1121525.0499040594, 41754.01635709409, 41753.93949609329, 41753.90993520954, 41753.85586491386, 16828.1787641415, 15353.424395872638, 4198.552576951088, 3179.317561583842, 1723.6768674817567, 1014.7025152224907, 588.8883583249379, 360.32054723321056, 215.95508376492742, 115.78274128171998, 34.679766724192966, 19.70329517089005, 13.939604109102696, 12.795607192525232, 13.213891115478624, 0.7982618553885145, 0.04192642750074668, 0.1346208832344316, 0.9978613448718172, 0.0641126489209324, 0.027377943951583102, 1.0001706465911935e-12, 18162.660989266446, 5464.275052948417, 5408.912709749457, 2265.351204239755, 1378.1155461465974, 749.4800008518098, 437.09185238346635, 234.91176186403405, 81.89524113511742, 41.208294760779204, 24.515290847728675, 14.121760040114623, 14.194002394989075, 2.6010797924487927, 2.629692312335609, 1.5168669037284357, 0.8948274875006047, 0.19576085950011526, 0.11203277022536454]}";
"""sc"": {""num_s"": 30, ""num_p"": 20, ""coeffs"": [1.000000000359372e-12, 1e-12, 1.5574262691682682e-06, 0.0005769461166694353, 1.0000001171944859e-12, 1e-12, 1.000001027270518e-12, 1.0000009501481751e-12, 1.0000002387003694e-12, 0.0005119064201153053, 0.021294285463611, 0.04736159865100243, 1e-12, 0.2020105912368011, 0.2312398340010188, 1.0000022091694094e-12, 0.30511111325373536, 0.23331905626913896, 0.7837469047102449, 0.8618251944694373, 0.9142535171766311, 0.8521992884149474, 1e-12, 1.0000057131418797e-12, 0.40426874788642886, 0.4469607299437421, 1e-12, 1.5405795123719286, 0.10384775265939618, 0.002923123216259867, 0.0012134633743609733, 1e-12, 1e-12, 1.0000002787673975e-12, 0.04178073613098364, 0.058090326492620116, 0.18974199392143545, 0.346719884621681, 0.23009509526584815, 0.23691646361422475, 0.6906642783810876, 1.5555661667569018, 1.2747684660796774, 0.46717029756588074, 1.2657877657915533, 1.8684552398235696, 1.582480952510482, 3.8096930994029305, 0.24294285255513978, 0.18589376749707348], ""exps"": [1420318.2254836415, 1420317.6581223279, 1420317.2665590732, 45182.35430739231, 45182.14419408646, 45182.09340748677, 45182.04829683945, 45181.94364654457, 44953.93434220848, 17920.055479481198, 4545.834345224941, 2884.4168144787645, 1737.5656596589545, 1037.029114237384, 601.6385899484162, 366.35717450054165, 228.95132835868813, 100.72726582656294, 35.537888180870794, 20.622534624841418, 15.48349178572984, 14.82650621055641, 1.0183841797596276, 1.6046568089897448, 0.3512187654845231, 0.16489057233417906, 0.5743660634889107, 0.10275286924219251, 0.04600956690490509, 0.029949964455797923, 21427.602347775144, 21427.458097961087, 6379.536829817261, 6247.353584154041, 2462.844208808725, 1381.3340842233451, 767.1570033942656, 439.5219962795152, 228.76441030713752, 70.47971228437568, 42.86622880579241, 27.93095305386818, 15.734366102982614, 16.445708422266005, 3.061155632615227, 3.0292578687778766, 1.0172052164314875, 1.7524971990216396, 0.22383906877738516, 0.0775609386194586]}";
"""ti"": {""num_s"": 30, ""num_p"": 20, ""coeffs"": [1e-12, 1.0000000278535732e-12, 1.9752058261936884e-06, 0.0006201087801416058, 1.0000266772477529e-12, 1e-12, 1.0000107652830432e-12, 1e-12, 1e-12, 0.000665221069452795, 0.024307336370004713, 0.0614973418773282, 0.005398041822078694, 0.12297306347915866, 0.11420316953698878, 0.41912038031313864, 0.4777301669615233, 0.23977351502324548, 0.6602106198521693, 2.7565422444074548, 0.002497257584240226, 1e-12, 1.0000026413054061e-12, 0.6242959053590876, 0.05402922540328007, 1e-12, 1.11547442832611, 1.030716352043882, 0.10935097166105572, 0.0033037650931971615, 0.0007515597942055792, 0.00048729547594096557, 1.0000016868495504e-12, 1e-12, 0.05204135634685966, 0.08751221265146027, 0.12355337378101261, 0.06881510217623318, 0.14518134083286705, 0.35674892224504934, 0.6497629759571749, 1.0645930573268605, 2.1100828895671078, 0.22107968742864673, 1.6212205969869216, 1.3726825920130932, 4.043599485618972, 1.7972649274513126, 0.265920220305464, 0.19599797656278878], ""exps"": [1351789.2099720524, 1351788.4246764844, 1351787.9218108766, 46739.88415291378, 46739.54397164591, 46739.47642852544, 46739.41707314766, 46739.2759337221, 45643.212479996444, 18258.96313552118, 4771.76027774751, 2882.02140648595, 1765.5773517018094, 1059.2074525406047, 616.9812754858026, 373.8051386425798, 244.58585830708247, 88.17294651243836, 35.65985505928691, 22.888534670145635, 17.433897516573698, 15.986434037371598, 0.6560213712147845, 0.504857295164903, 0.1578053458410114, 0.6437945886054298, 0.12556535711114125, 0.19177148814094358, 0.0498867084848394, 0.032349692667903766, 22081.949212841988, 22081.715346100733, 6629.381225842123, 6436.514451408378, 2526.809855086329, 1396.1509915710128, 782.6562095966415, 444.4112841002395, 223.51503563203136, 62.11862108497048, 40.999987366162806, 28.87459629790437, 17.876931177204824, 3.4488074115350225, 3.5060718445088424, 3.552704934672667, 2.03364397243185, 1.1791115754461738, 0.12165754405387304, 0.08498079341241735]}";
"""v"": {""num_s"": 30, ""num_p"": 20, ""coeffs"": [1e-12, 1.0000000731459258e-12, 1.390072263187884e-06, 0.000471243309345633, 1.0000197245997341e-12, 9.99999999392329e-13, 1.0000378182240606e-12, 1.000000893742481e-12, 1.00000084732605e-12, 0.0008645248108916386, 0.021597527673033915, 0.052285902586038956, 0.1470420869823179, 1e-12, 0.01688471656461114, 0.45987398217819875, 0.5787142310917449, 1e-12, 1.1198555336571037, 1.9520157106887153, 1.4218950366531584, 1.809052928091749, 1e-12, 0.39383170567764003, 0.6007497720355179, 1.0000085324027263e-12, 1.0191854706733976, 0.7982284015475308, 0.15953788301357769, 0.005917596782965339, 0.0003445869744622888, 0.0006640754615049639, 1e-12, 1.000003838416652e-12, 0.025111902441115698, 0.16442521824386028, 0.17554360067091374, 1.0000012710888925e-12, 0.07027373693718889, 0.03496344010469061, 0.44990420285880856, 0.34950395648664834, 0.7032992932771074, 1.0604989017121476, 2.188794619377522, 2.2796897869755477, 2.131018820947477, 1.9708726883900711, 0.5779110660055224, 0.25918620773702783], ""exps"": [1872867.5044595203, 1872866.2077232383, 1872865.4977042973, 56814.46808063243, 56814.1112401971, 56814.067239787015, 56814.022350731226, 56813.846283901, 21221.168870454938, 20915.362233453885, 5441.72564574056, 2721.985796955779, 1787.0862128274434, 1079.9430163133868, 633.8961264294304, 382.4163921984136, 249.90291643748932, 81.29770818156955, 37.145363619257104, 23.856977475621644, 19.131955014017002, 17.25177697633622, 0.94869860574265, 0.5835141978556441, 0.5841437122268979, 0.7199646457648992, 0.21873706297862724, 0.18422526596591626, 0.05666824953335491, 0.036138573668544144, 25101.937280325186, 25101.68061028273, 7639.5359520749735, 7062.223225006744, 2697.68104588791, 1406.984972867641, 800.8678935483379, 451.9935583003623, 218.60245311685915, 65.243344151715, 45.60031600754127, 28.62022145957586, 18.51258954671119, 4.07715137797004, 4.040952224037097, 2.2123266053098516, 2.4710575316211636, 1.3426934348212742, 0.1521860266502934, 0.09958474873009864]}";
"""cr"": {""num_s"": 30, ""num_p"": 20, ""coeffs"": [2.3303475238970664e-06, 2.060858736228237e-05, 1e-12, 1.0000001920103944e-12, 1.0000004642908863e-12, 1.000000028110906e-12, 1e-12, 0.00018857863681976303, 1.0000017322412673e-12, 0.0015196643871008117, 0.021957810092006515, 0.05633998265951976, 0.18210582842722367, 1.0000376297555111e-12, 1e-12, 0.47263394141533527, 0.5545454058927433, 0.1533281235415826, 0.9627605486225683, 1.6508562231820392, 1.405125527986046, 2.19641541261094, 1e-12, 0.646167459158475, 1.1155766756224208, 0.7585235176512584, 0.28807251049383226, 0.7339171063885808, 0.5608158368082726, 0.006966517869149385, 0.00010359273205930768, 1.0000021842541467e-12, 0.0006335614591725942, 1e-12, 1.000003135585129e-12, 0.020441236276835018, 0.1822791539493396, 0.1972722639344956, 1.0000043901371672e-12, 0.03426175831886445, 0.1604943476359152, 0.6158919329478015, 0.31862525271114567, 0.3744143342850698, 1.0162228361684686, 2.110433090680074, 4.382246566081831, 2.402741959795945, 0.37537111622815283, 0.04073425302797303], ""exps"": [284568.889563032, 284568.80804436316, 77836.47161410775, 77120.28360057063, 76992.91989661212, 76903.61153569794, 76764.77421196696, 75692.09683461003, 21502.674928772918, 21234.342764985664, 5786.658747180922, 2726.250438331759, 1817.8622952622577, 1096.729711965773, 648.9746504615237, 389.69691598817883, 251.61333195072547, 72.76906477889013, 37.84854461945835, 25.561444748299845, 21.0796162384834, 17.46396534785775, 0.8962518674640387, 0.6420929761472302, 0.6617907183350558, 0.6997621786294247, 0.2400978062196363, 0.1600450602741006, 0.09138207788784386, 0.03750511927923049, 91841.55556389825, 26602.789994687762, 26601.628213359836, 8153.973270110414, 6932.119347996052, 2739.0422695754287, 1420.0872873789174, 814.8283824965175, 455.30767509474856, 210.71086699596185, 70.72232157521408, 47.73795249625074, 30.262240334595287, 21.68318544315148, 4.5561506857476415, 4.695353612673766, 2.7152487734388404, 1.5823262699588074, 0.4204637376943595, 0.0658933656775958]}";
"""mn"": {""num_s"": 30, ""num_p"": 20, ""coeffs"": [6.077107738201596e-08, 1.0955880613325523e-06, 1e-12, 1.0000135368702814e-12, 0.0005525061292307436, 1.0000073414793993e-12, 1e-12, 1.0000033691926617e-12, 0.0005198612397471821, 0.025776358415967655, 1.0000085609388368e-12, 0.016723348099069692, 0.2225219223053155, 0.09606034635189552, 1e-12, 0.5379652678498349, 0.46772465144502406, 0.0001600135059949594, 1.7518304298827507, 1.9538798093981584, 2.5298202952926365, 0.005573805673888953, 0.10201953630440545, 0.9421984787079147, 0.8130957930293068, 0.09411540091559198, 0.7831337235114135, 1.6588481315777739, 0.21602252668500374, 0.009618746540872785, 1.0000020661527203e-12, 0.0012303842554589124, 1.0000017813566102e-12, 1e-12, 0.012645424609032906, 1e-12, 0.14454503116360695, 0.19511480116680952, 1e-12, 0.009141005157815792, 0.20149733588983532, 0.39003887706409446, 0.21417675696788285, 0.7837086766118145, 1.1137858696545795, 2.0277707899585744, 4.312549710835847, 1.767643499254732, 1.3045176991339982, 0.29348506253990664], ""exps"": [2547365.042907259, 2547364.916365714, 66181.9269695509, 66181.91114738474, 66181.90598224828, 66181.90168601816, 66181.8931809681, 66181.48205086132, 26476.91824509701, 6264.41043711554, 5633.848143837108, 3169.985250873714, 1847.7375416531088, 1092.7373576171394, 661.0128328318222, 391.69474927159075, 247.81090907830236, 66.73054077317786, 37.81444506240601, 26.71054977442749, 22.435961006232503, 3.846846546937727, 0.7236916296185546, 0.8556022066759816, 0.7490804692490605, 2.537429385367955, 0.32267804506168907, 0.1642065461275346, 0.06690373632384179, 0.04177898618336826, 30858.212428202234, 30858.200680832408, 8765.464724380638, 8763.751378625535, 3783.825479487257, 2625.2590396955998, 1403.825236780942, 824.3365710756068, 451.4446328349877, 194.41852972202813, 74.82905414089946, 48.47983719228876, 29.745236929836036, 22.19915918989131, 5.110150852524191, 5.418383617094804, 3.185439100596616, 2.0970477334526705, 1.6316154003901226, 0.12068321571096936]}";
"""fe"": {""num_s"": 31, ""num_p"": 20, ""coeffs"": [1.0000000031775075e-12, 3.6575351417673543e-07, 1.027944568731077e-06, 1.0000001872968517e-12, 1.0000051056340706e-12, 1e-12, 1.0000103826223216e-12, 0.0006360548457221616, 1e-12, 0.0005635779489404128, 0.029010595575279415, 1.0000024132274724e-12, 0.01793408785616087, 0.2410885770479307, 0.13578178322467194, 7.727854173189842e-05, 0.512875021690933, 0.33216051472899655, 0.20940389794160763, 1.9567960963997373, 1.2194992077923175, 2.671056380757265, 0.22239004640309593, 0.6827204179016979, 1.391771692275881, 1.12742134269839, 0.5868328565536856, 1.083685152160704, 0.4791298831769039, 0.07625063353117706, 0.0023899573337709847, 1e-12, 0.0014458867668501062, 1e-12, 1.000001222470375e-12, 0.01246531557906255, 1e-12, 0.1529389608478513, 0.22622105786059538, 0.06761211659873043, 1.0000008865110416e-12, 0.2366350542036286, 0.5688306075484016, 1.0000029889217255e-12, 0.8813156043344775, 1.652719027082039, 1.5247468109554472, 4.303118496479296, 2.4017422052270745, 0.5543113901463741, 0.43642776635135505], ""exps"": [2440396.1527630785, 2440396.0641200305, 2440395.9843031205, 67391.08486092681, 67391.0658060209, 67391.05960210814, 67391.05448362044, 67391.04427050702, 67390.49621916452, 26992.94937136801, 6298.994327461589, 5712.72642768749, 3178.452108131426, 1885.3779483750518, 1103.4970145627658, 673.1072001432133, 399.70294255989546, 240.21854240146538, 65.8547891935323, 38.62731245229917, 27.966764798832155, 24.249961590384657, 3.395377484583745, 1.1843496609454622, 0.7546299436117013, 0.9706977318515163, 2.374301460295996, 0.14623504925223557, 0.0913220755051563, 0.05945167841179196, 0.03877386648091694, 31466.84855111539, 31466.83157133099, 8942.980784984604, 8940.53411614489, 3782.44431908725, 2649.4477750961632, 1409.86863387614, 834.0955202417566, 442.46281106445264, 178.88944276818418, 79.66868385309105, 51.560270437494886, 31.343830980153264, 26.497598345175756, 5.8921909787091735, 5.722621488140703, 3.450233664266953, 2.0573764020700693, 0.5060027325354439, 0.2937626803955231]}";
"""co"": {""num_s"": 31, ""num_p"": 20, ""coeffs"": [9.503257637123572e-08, 4.588090549610288e-07, 5.072404436281792e-07, 1e-12, 1.0000138591542169e-12, 1e-12, 0.0005762930709106794, 1e-12, 5.0272821716726085e-05, 0.0004332396460626845, 0.03409158919384037, 0.006129634365468815, 1.000019569756624e-12, 0.2316425940635565, 0.14322512542525237, 0.22963672926660034, 0.4377536826309874, 0.14867234304942584, 1.3154860567036761, 0.9125279090452972, 0.7572727382383249, 1.3374572881698952, 0.7300991482243827, 0.3206088134386668, 0.9281709762614053, 1.6149281323971467, 1.4138532303164155, 1.1745420191294502, 1.0250969595732866, 0.029293876653165494, 0.000252448374297006, 0.0006769809824802296, 0.0008470163043441162, 1.0000097296361138e-12, 1e-12, 0.02280831092236504, 1e-12, 0.11805067838680752, 0.17218171523574374, 0.17233112296535072, 1.0000009073632222e-12, 0.27045225876967666, 1.4364736876730106, 0.044276799195694154, 1.6163230853498007, 2.4828839975134294, 2.0935356347127727, 3.580636944447029, 1.755052222272394, 0.35157705763215324, 0.09010495627913616], ""exps"": [3120675.7259233957, 3120675.646794952, 3120675.5749832634, 76164.85744133039, 76164.84889915558, 76164.84605824847, 76164.84357470053, 76164.83819389314, 76163.45051703442, 30428.82081417068, 6527.255626044983, 5680.517583630024, 3135.5941272434043, 1915.4760068559185, 1114.430353694088, 684.1671137382032, 411.4961961442231, 219.3797451447086, 66.3881512431586, 39.98892907938729, 29.7524903993089, 27.30141534813416, 3.708703564685826, 2.2777569842287293, 1.8287376749825253, 1.105858414315657, 0.7213879288343346, 0.2150931998584914, 0.12374034518999133, 0.05360092699895807, 0.03329067868363252, 35626.566900651604, 35626.56115380895, 10063.302147923978, 10056.000788468675, 4096.16307068953, 2703.8893890236136, 1431.4779525166052, 838.4013716223274, 429.65227040342484, 148.09727721604057, 80.91373582967455, 53.48152964999633, 33.441463560613094, 30.557983459372615, 6.6114765617033955, 4.77976578080558, 3.3394436081955363, 2.04324295542893, 0.48226497160631865, 0.09141388862844789]}";
"""ni"": {""num_s"": 30, ""num_p"": 20, ""coeffs"": [4.841151747075551e-07, 4.561259383535689e-11, 6.591468443370889e-07, 2.3850882768805803e-08, 0.0006852405793674646, 1.000238215845865e-12, 1.0000000061200573e-12, 1.000004959362344e-12, 3.4761395810452184e-10, 0.000451255009258635, 0.04493140521726458, 1.000039682495517e-12, 1.0000000058627676e-12, 0.26866352713212066, 0.20118209616780622, 1.0000024322602119e-12, 0.48911470951220976, 0.3465499209150207, 0.7365068296828585, 0.3285597178890775, 0.6068825071396735, 2.0758884589506046, 0.1646093380676453, 1.089878404598965, 1.6663305710709142, 1.5646597838908114, 2.3374991015769617, 1.694654880330524, 0.2683086533370355, 0.01373299917409856, 0.0016666116503411862, 1.0004127463160416e-12, 1.000001954617539e-12, 1e-12, 0.028639809073342792, 1.0000132809040236e-12, 0.15769731988283375, 0.2664740964887308, 0.13125466168278546, 0.27352509364715816, 0.8577119688973658, 1.5427452960389507, 1.0785903651265165, 0.8070979454908377, 2.266758795863434, 3.0671529650409433, 1.7058863029309101, 1.1293775131082435, 0.44412862794782193, 0.342210415644557], ""exps"": [3239389.3979603876, 3239389.3374694777, 3239389.2845642697, 78649.42018683715, 78649.41385414125, 78649.41180833128, 78649.40999295817, 78649.40606454229, 78647.47367034767, 31473.546089919542, 6616.718811609994, 5619.940290306407, 3147.617368422948, 1935.471729277229, 1132.181099369536, 699.1997211572567, 424.53288904768823, 200.6859184598675, 67.66108591169336, 40.69315644363933, 30.7544221393428, 27.035911482044916, 3.8061934571948823, 2.1700853061990624, 1.5879929750369395, 1.6786506236127947, 0.8883430219812932, 0.21578601515047754, 0.08232653102048122, 0.0502025919951552, 36850.78238024983, 36850.779769289526, 10435.426859684878, 10428.100965805126, 4214.453453233766, 2745.966125116386, 1457.575049528251, 852.9706157738109, 435.2121818546639, 135.37231429193017, 82.33829082136177, 53.64245664574352, 33.312246599985166, 7.429571672283588, 7.134452843238872, 4.554116175789999, 3.6196848412230835, 2.5182018955551237, 0.5479928287798682, 0.15459880621745556]}";
"""cu"": {""num_s"": 30, ""num_p"": 20, ""coeffs"": [5.688863457579018e-07, 6.520037926017103e-07, 1.0000001077066671e-12, 1.0000523499403122e-12, 1.000000000239362e-12, 1e-12, 1.0000137440455632e-12, 0.0006940763035544459, 1.000012495655031e-12, 0.00047201483463302256, 0.041227414946488336, 0.006637339869510617, 1e-12, 0.2911907606633488, 0.19058360871698232, 0.029106045835968562, 0.4974471026552848, 0.305959340325173, 0.7626556166365154, 0.6294349920729714, 0.9280217766453932, 2.043693404960909, 0.17445074905161007, 1.481377165404984, 2.066162203576599, 1.7485723892625837, 1.9483607360589728, 0.8506060965874404, 0.11657667074020221, 0.005488290749860621, 9.04585293710083e-06, 0.0016582363237525783, 1.0000014614721625e-12, 1e-12, 0.030624840791276572, 1e-12, 0.16680511050230265, 0.2571381224603435, 0.12353832691010977, 0.2373109635809274, 0.8335000214717206, 1.2815428681880838, 0.798748017775857, 1.170436124790986, 2.0836821846531777, 4.274831030290362, 2.2081061729136833, 0.9160009484768794, 0.34388166554033395, 0.1534751666968739], ""exps"": [3331008.6000605137, 3331008.5115091, 3331008.4388972325, 83501.82767746743, 83501.81857911585, 83501.81579016791, 83501.81331175029, 83501.80758816474, 83482.42079218225, 33321.96328559625, 7141.099088552418, 5630.813195748431, 3228.2130155120244, 1975.7821999816879, 1157.6312471669373, 717.6585101089225, 434.2684331472593, 187.2201582038272, 69.6312444395909, 43.083281108781755, 33.14035523180407, 27.151640422336918, 3.750595333722362, 2.7520806916450833, 1.5614938793359987, 1.7163458152485276, 0.6165945840670439, 0.16780594259340206, 0.06600018549068459, 0.0410690370061675, 39197.56492918171, 39197.56049483224, 11143.585843395373, 11126.17204476832, 4442.112085045147, 2772.8847697822403, 1486.9944563606227, 870.1118510110391, 445.10548222599067, 135.14534480720246, 86.18774694132317, 56.07738838652838, 37.027018167755834, 8.572483960439106, 7.55661212368945, 4.735505805402211, 2.818795937450998, 1.353643822834103, 0.40396299873976815, 0.12070586058411173]}";
"""zn"": {""num_s"": 30, ""num_p"": 21, ""coeffs"": [1e-12, 1.0000002382034673e-12, 1e-12, 1.000000885495152e-12, 1e-12, 6.149031732466985e-05, 1e-12, 9.717506164923959e-05, 1.0000006155906553e-12, 0.0008176597257007484, 0.06534945664015562, 0.0005275188727702009, 1.0000070025863678e-12, 0.041692290972493266, 0.5862344174910246, 1e-12, 0.5732437211990982, 0.22477247367501477, 1.039549619109889, 1.0286562986709458, 1.267258012335892, 1.6301621697299709, 0.0013570899374051367, 1.0652446930122448, 1.981668226123294, 1.433276662136109, 1.742288465575548, 1.473714310659301, 0.15152554445834218, 0.006232560791388235, 0.00028295855745752137, 0.0013568400953135901, 1.000000000239362e-12, 1e-12, 1.0000020400563002e-12, 0.05786888578406149, 0.040889466074034465, 1.000001753734158e-12, 0.21858053622200962, 0.08414741001496356, 0.147055039790048, 0.7653325699693512, 1.0257903129860357, 0.7562964006923795, 1.6840472645892968, 2.0044669454521937, 4.853826265150555, 2.534899777784825, 0.8492847958385557, 0.4348121377015175, 0.2273471984552656], ""exps"": [375982.1609908995, 375979.88981343416, 375976.4897087709, 375970.1456745669, 375955.35794861475, 375652.9359145764, 138691.5828108235, 137045.96288402862, 37012.8598043521, 37003.51919663388, 7297.013607923947, 4833.140513274262, 3226.811362024077, 1989.6656140855387, 1175.3398670362376, 730.4225478461434, 443.9672857505607, 169.85729650496884, 71.19709511842767, 45.780400772575206, 36.119141091279914, 26.42847148075574, 3.606518765421899, 2.5021034641633073, 1.5736047623669327, 2.3306243070401926, 0.6912194892439169, 0.19642331790640083, 0.07985491288479031, 0.04994976394640239, 161127.79205529523, 45271.32620602433, 45271.323901769254, 12548.461043761108, 12533.377933698097, 4789.856708322572, 2779.9578024493308, 1518.3630523653555, 880.0033433134182, 445.30201551886995, 134.53791576130288, 89.24535944226893, 57.223694158172876, 40.807672832787745, 9.627122356192144, 8.042320441482074, 5.210760327056054, 3.1166976095617507, 1.6314578283995398, 0.44438506825795343, 0.14328463200653208]}";
"""ga"": {""num_s"": 30, ""num_p"": 22, ""coeffs"": [3.730924686723507e-07, 5.349521910576557e-07, 6.48582265550403e-08, 1e-12, 0.0006162646966929317, 1.0000037524246123e-12, 1.0000531520714153e-12, 1e-12, 1e-12, 0.0006734137541040177, 0.058780464812169114, 0.07443511242110283, 1.0000002933438878e-12, 1e-12, 0.0963719584003214, 0.22057491580531177, 0.6150272191359473, 0.05746875454541503, 1.2226446807659073, 1.959822363645107, 2.5479784659561493, 0.013822821537458124, 1.2705533462598895, 1.8943738305436526, 1.9922040099470435, 1.471275338889903, 2.153746287894483, 1.4900657176145649, 0.9990818869758801, 0.05063457888713345, 1e-12, 0.0015774559633856078, 1e-12, 1.0000012968765118e-12, 0.08478730617142428, 0.17688701169965632, 0.2059176490322582, 0.1117230494926076, 0.028622609595265237, 1.0000006049258673e-12, 0.5656531161850701, 0.27187295815738277, 0.9480069121503638, 1.2180008145768062, 2.1867732683724306, 3.677813827798363, 1.5931526754109402, 0.5986359657161423, 0.5274165830184439, 0.5093808742202153, 0.10310847765764485, 0.0005245218415550327], ""exps"": [4495101.057125117, 4495100.994400813, 4495100.948589891, 99518.43058015134, 99518.4292963238, 99518.42895984004, 99518.42873077687, 99518.42772636481, 37957.677530828834, 37867.548210308916, 7786.55024566994, 4976.663054558058, 3292.160228879087, 2023.8703370619073, 1194.9137208376833, 739.1963925544447, 451.86889903731367, 152.72560680642184, 71.8322749007563, 47.72306322231903, 38.640505316084685, 11.34214032397167, 4.396505024932251, 3.6404621021315666, 2.578579685056817, 1.623014262588934, 1.6973585997030083, 0.2311250203859226, 0.12856982136677436, 0.049494361846796966, 44751.42228177444, 44751.421447081404, 12742.559697533865, 12721.619387761526, 4852.674500600895, 2794.3264377272003, 1534.7803417951263, 883.9554947385005, 432.133033516116, 134.80352580069763, 90.9913746555053, 57.06649186513664, 41.31945351061652, 9.064984584960623, 9.005351789108449, 5.3656992977350635, 3.1878542080646337, 1.273682764018697, 0.800552591242111, 0.4850769888073683, 0.09148666861685503, 0.0337233493594406]}";
"""ge"": {""num_s"": 30, ""num_p"": 22, ""coeffs"": [1.0006172453770643e-12, 5.484431180219656e-07, 4.605919889068903e-07, 1.0012390550104918e-12, 1.0090100992749518e-12, 0.0005681503680103931, 1.0102588830515165e-12, 1.0092181619484306e-12, 1.0004063505235378e-12, 0.0007785256614354708, 0.05377383535061387, 0.09099001451325366, 1.0032797508271206e-12, 1e-12, 1e-12, 0.5108823970037045, 0.5612740606471492, 0.3566796331678781, 0.8872801989183368, 1.3003108686729417, 2.455861427193452, 0.13454229314734595, 1.5459893082806044, 2.16963118515545, 2.050292113900777, 1.7397500985411434, 0.36382497947003944, 1.364918888803075, 0.8606830983576822, 0.11542243194273173, 1e-12, 0.0013803668704406096, 1e-12, 1.0000005050072525e-12, 0.0840173554296095, 0.19026745063578582, 0.17368445617601938, 1e-12, 0.03275717398533727, 0.1660167153824218, 0.9810961735339873, 0.5197982185864417, 0.8973879064380533, 2.1941815869464194, 1.8170590798532436, 3.9657023197293206, 1.4248132715774973, 0.9008968548049212, 0.9816486555298681, 0.87431090220978, 0.23020224578938417, 0.0013335774206954746], ""exps"": [4749614.2112006815, 4749614.082634226, 4749613.997232722, 107030.9643133675, 107030.96015170414, 107030.95891753938, 107030.95791487995, 107030.95485325149, 40360.45308020344, 40281.01820165128, 8553.708743196514, 4882.649119188053, 3383.804939434395, 2061.023141593827, 1223.8118348309763, 752.3737301657603, 461.1488850478886, 141.53371001753877, 73.07078765371028, 50.26857746918637, 40.33489507138454, 8.729079546082708, 4.7733966193419155, 3.6782683587288356, 2.6232420389869726, 1.2619281567389382, 1.0757372790740822, 0.18796619062222136, 0.22249666039696778, 0.07503620729792122, 47803.27696311228, 47803.27647520168, 13614.367155198812, 13564.798103276195, 5061.683232872386, 2785.4703239704295, 1560.6392109723738, 888.7333111485184, 432.3126860507979, 143.74850604805388, 93.67638502857477, 60.25755825260256, 44.963429324203595, 10.463594644533677, 8.698251894531753, 5.690911686168109, 3.502849413968564, 2.737280646618265, 0.7304661496727173, 0.43142355061049775, 0.14025255303845802, 0.05019354963448183]}";
"""as"": {""num_s"": 30, ""num_p"": 22, ""coeffs"": [1e-12, 1e-12, 4.5471849928696147e-07, 1.7339083915284073e-07, 1.0000252003165757e-12, 1.0000699167189535e-12, 1e-12, 9.99999999392329e-13, 0.000442062868558108, 1e-12, 0.0008841385272010066, 0.03773021751611475, 0.08268152994131238, 0.10220936314589699, 1.0000294178136639e-12, 1e-12, 0.5077009980261564, 0.5409265287793935, 0.7333116456884269, 0.8706092104095327, 0.9950795585307245, 1.462444742988262, 0.27910117808148543, 1.6181772894419644, 2.2454263858894286, 2.109219007833762, 0.9984900960540858, 1.8188422356585783, 1.6498169838917225, 1.6670704423278422, 0.0011706358259963947, 1e-12, 1e-12, 1.0000007533850888e-12, 0.04377044689591255, 0.18575198491556136, 0.1845330887953122, 1.000001750493057e-12, 0.01241494188098534, 0.1796412554660381, 1.3980363025624072, 0.5639597843668764, 1.3317189468941157, 2.638094707192069, 2.6177547120077818, 3.38880046183434, 1.6945804159976066, 0.31963887127705903, 0.5613056883345712, 0.14223539171594654, 0.016071626980354723, 0.0003738326707975578], ""exps"": [6912077.870535723, 6912076.517294441, 6912076.11650662, 6912075.643384742, 127580.40258194348, 127580.40232640081, 127580.40222048888, 127580.40208192679, 127580.3784905963, 44900.87073999504, 44897.57493987374, 9761.136078391793, 4659.784567239784, 3406.1157015439067, 2075.8430981359706, 1248.680012550623, 761.6887148402205, 472.71720843302217, 133.25151382939367, 74.32188442958554, 52.90587371773808, 43.72364392449289, 8.429688846719982, 4.944437177894875, 3.939513673154146, 3.0104139723295145, 1.4999475689438533, 0.3833808740568821, 0.1921751379992372, 0.4800633695985341, 53924.09386818109, 15206.208711813539, 15205.395703457572, 14888.190350280789, 5356.203658088263, 2767.3273563849716, 1587.5660492820198, 883.0211651683398, 425.1789361207722, 150.5232305459623, 96.40971622244888, 61.40759212470508, 50.09462577697609, 11.37141723242964, 8.247378516826272, 5.659111036375387, 3.2564705257784015, 0.8352538186734431, 0.3427874847252589, 0.14149935994516602, 0.09326947041474454, 0.0595794128139063]}";
"""se"": {""num_s"": 30, ""num_p"": 21, ""coeffs"": [1.0166850339280903e-07, 6.413457846777117e-07, 0.00031198656496517256, 1e-12, 1.0000021300590758e-12, 0.00014936685539965473, 1.0000132747958277e-12, 1.0000015648886392e-12, 1e-12, 1e-12, 0.0010853206378866737, 0.04399153021349439, 0.08019503501742112, 0.1152051698826642, 1.000014974091834e-12, 1e-12, 0.5602352802759407, 0.47176392839125764, 0.8349369528887335, 0.9191316627855612, 0.9714394743226414, 1.087828678608402, 0.21413483436888475, 1.6685860060386635, 2.2126292287595573, 1.962673922858939, 0.7480254302587006, 1.8540177353898077, 1.7987364652825582, 1.517067657702832, 0.001248912534607644, 1.0000039290880787e-12, 1e-12, 0.04948933618596673, 0.1986778348972468, 0.18240628878853168, 1.0000007467785322e-12, 0.046218046619232726, 0.34170737857542616, 1.4545167504354415, 0.7099002213327698, 1.2258872632495357, 2.942332956722846, 2.952269660849466, 3.202067957671948, 1.4903096427769584, 0.6581890643568485, 1.0440846978260097, 0.37983989130937273, 0.056785773803203037, 0.00193093885078385], ""exps"": [6543071.847723913, 6543071.470761465, 131169.92108208014, 131169.92101200004, 131169.92099458637, 131169.9217162028, 131169.92093808146, 131169.9206085101, 44890.53319707434, 44884.79015565004, 44880.627800388604, 9703.423622250142, 4641.548474973791, 3468.5060948856362, 2092.0227179944077, 1267.319782770501, 764.7602107383656, 483.387495925, 127.33258504515044, 75.28767310718447, 56.00088823439751, 47.00198561171276, 8.240081866890142, 5.163796910082991, 4.042064892751425, 3.1449546009909293, 1.7655296690688511, 0.39449884763583115, 0.41347761350830875, 0.49629348986494165, 54170.89823899033, 15298.290051894599, 15176.382921993982, 5390.553879013759, 2755.239302559609, 1601.667602505687, 858.6088774209292, 398.54329628319044, 154.81288463412938, 96.02702363648507, 63.18631868664806, 51.294977889541144, 12.533447226773127, 8.718262319622928, 6.298832077226512, 3.865515495353806, 0.9602428300707517, 0.3086674764049219, 0.19656405235907845, 0.12434882952614887, 0.0777884696924762]}";
"""br"": {""num_s"": 30, ""num_p"": 21, ""coeffs"": [1.0000000010140614e-12, 2.8538336439793354e-07, 2.5344848867778363e-08, 5.186030063945494e-07, 1e-12, 0.0004571121732300656, 1.9967338040413716e-05, 1.000000000239362e-12, 1.0000012561613973e-12, 1e-12, 0.001012409716831994, 0.05345057091006706, 1e-12, 0.1484730616629878, 0.015369067047579302, 0.2626760555708776, 0.5616107133562006, 0.4225732253039176, 1.073949679080035, 0.30190304888095953, 0.5424247986232633, 3.1557758445712247, 0.21169793910517568, 1.6126257878701022, 2.1072505514063633, 1.7868024291300129, 1.5335099979979345, 1.8372624633548387, 1.527567011250664, 0.4422979891256406, 0.0012024174371616683, 1e-12, 1.0000473972365544e-12, 0.031628875113829856, 0.03224572360521469, 0.13082415959268878, 0.06834271692675746, 1.0000020378433603e-12, 0.010871242153009835, 0.3888907462116165, 1.4129179965812269, 0.7483746226847611, 0.4496110490433542, 3.134225280809406, 3.0242686777703196, 2.935195816849411, 1.5792345619165438, 1.2694384480975474, 1.5437501799425999, 0.6343887060692426, 0.005885290480308394], ""exps"": [6532742.430703321, 6532741.010266083, 6532740.558002732, 6532739.974496435, 135658.8187908257, 135658.8183233983, 135658.8180480225, 135658.81678346012, 135658.3795217663, 47875.09502235028, 47866.982736330785, 10565.202224755658, 5401.3764860327165, 3502.219120312316, 2085.0062784065426, 1270.7866631924132, 763.7510237621794, 466.43384538990625, 124.08699939324241, 74.2317903950521, 54.8933250801568, 46.37183852829877, 8.116282532560911, 5.291403641910579, 3.9131044195838176, 3.6285843039155763, 0.9468869950662216, 0.6163310436730476, 0.33264054261974496, 0.15059552208898422, 57312.845116532946, 16181.800878834425, 16181.728320276312, 7375.060173162763, 5086.799198804526, 2730.375208186032, 1600.2691293313637, 826.9596327078903, 340.94113176332667, 154.56328316821455, 97.06596302646231, 61.238226680992305, 14.91574326001953, 13.258084768917353, 8.93414371926752, 7.154332615518794, 4.5494680346019365, 0.8861196575788239, 0.5187877898373263, 0.28863800447616117, 0.09915254899683595]}";
"""kr"": {""num_s"": 30, ""num_p"": 20, ""coeffs"": [1e-12, 1e-12, 1.000002692523245e-12, 2.9811412713893537e-05, 1e-12, 1.000003512138152e-12, 1.0000120425642712e-12, 1.0000068730101487e-12, 1.000276217194641e-12, 0.005984312654690314, 1e-12, 0.024979660217863405, 0.014866126420424503, 0.05203174655900374, 0.41371030318235713, 1e-12, 0.6787059719168275, 0.32943389457439654, 1.107337871972355, 0.2718052036990519, 0.8087966509168674, 3.011696792525477, 0.17098375126261617, 1.364990924394771, 1.8655855341335537, 1.5137556148542672, 1.3756460853758243, 2.921566364204539, 2.6754421806916198, 0.12455606342397996, 0.011074193300381228, 1.0000076709248628e-12, 0.03924604096284107, 1.0000131270610755e-12, 0.019427368807108648, 0.15567085677737205, 1.0000048815046234e-12, 0.0146134762531239, 0.4639011558305543, 1.330974340082552, 0.659438923733791, 1.6167427030235026, 2.1979711110329565, 4.580943914195501, 1.5160816148283054, 2.013823206278879, 1.220030608560852, 1.1464500285285288, 0.2808290185011382, 0.00089111032159486], ""exps"": [37337434.92318999, 898443.3094346041, 898443.3094396013, 898443.3094339373, 898443.3094368468, 898443.3094339503, 37591.818336296885, 37591.8093275591, 37591.80971547418, 37591.81083054659, 37591.81096845866, 12137.66485883394, 6718.932127745737, 3727.3012711322494, 2145.806564034245, 1304.8513778988006, 772.3254485649119, 443.3661026179088, 127.48020492877814, 76.7995384298908, 58.309793665670746, 48.42579566649396, 7.973520046673127, 5.787912858764695, 4.406010527216166, 4.075821067425611, 0.9164272170582897, 0.3243535398428249, 0.4955056624794108, 0.13730227258055216, 16772.038731854474, 16771.091141616325, 6814.419413626651, 5183.399370533972, 2713.792002399308, 1619.1513071532693, 820.9167870212199, 300.186041677578, 157.85142525264482, 100.62949539391887, 66.16577065762705, 15.535890668756087, 14.041938594170345, 9.311256745742401, 7.525881453126885, 5.300375338629586, 1.217071302868592, 0.7635895780990252, 0.2412578845538686, 0.09288990014855922]}";
"""rb"": {""num_s"": 30, ""num_p"": 20, ""coeffs"": [1.0220791447154606e-06, 3.002146212698265e-08, 2.6232674040857152e-05, 1.2437928792287698e-07, 0.005684500223181031, 4.0092370941341366e-05, 0.00016842193912304957, 2.9178167146058862e-05, 6.395736530511522e-05, 0.025342461435551997, 0.021357069856399388, 0.06928410945125557, 0.3908905628895761, 0.08213762679868673, 0.6912025097439105, 0.38815525672707407, 0.6211951042103967, 0.7928137510932972, 1.2141473797994957, 1.9153214205049383, 0.17132471066104035, 1.6394078688639069, 2.764866381448338, 1.9358711060616176, 0.9789038717731284, 1.3298768697974277, 0.6354287848893346, 1.0198198972121526, 0.0757756003851054, 0.001405195009391409, 0.01026376109516307, 1.2621132642555241e-05, 0.034182689671859785, 1.0000261027167e-12, 0.016899825266560295, 0.12096656038849685, 1.1543181578282963e-08, 0.13458605268008605, 0.7978006181044979, 1.1312915019349707, 0.9152807393921604, 2.1986907171464294, 2.298277027261432, 4.63807247567211, 1.6738078590272556, 1.7007008633728045, 1.6215218111923977, 2.399065492591618, 0.37517597831028676, 0.16287397122078515], ""exps"": [1029049.2622573273, 1029049.2622563193, 1029049.2622618942, 1029049.2625688064, 39552.23054035637, 39552.233856601495, 39552.22937786851, 39552.23277742923, 39552.23480687185, 12340.125413593227, 6347.108691404279, 3742.111043766993, 2157.860468571851, 1327.8382134101741, 785.5795053563156, 414.9931252243591, 131.04779174780398, 80.47367417064287, 62.62637651765268, 48.14973279288063, 8.519222953265283, 5.785075563349038, 4.491317772956384, 4.026409426774865, 0.3774533606511867, 0.49134388862670353, 0.44976308815171173, 0.06148651390739437, 0.02612209149842893, 0.0166816118787107, 17637.386141175746, 17636.78309616774, 6977.622052804811, 5312.1083214288155, 2743.2955021896146, 1642.8763984367106, 828.038045757701, 273.78256078803116, 161.29829690151618, 102.57717170782023, 71.5859189018466, 16.13451171374184, 14.151289663251742, 9.483968769450982, 6.974557101359902, 1.6563861695373168, 1.2341639516173946, 0.8453472895429943, 0.4462533359910117, 0.04564195784479672]}";
"""sr"": {""num_s"": 30, ""num_p"": 21, ""coeffs"": [4.0531443461429446e-07, 2.0103296957079217e-07, 0.0006357133820940667, 1.0001253380305544e-12, 9.99999999392329e-13, 2.219345980257848e-05, 1e-12, 0.0005791973484626405, 0.07756622420016447, 1.000010357775305e-12, 1e-12, 0.22481627745019406, 1e-12, 1.0000013000496871e-12, 0.6939316703741868, 0.2265824400422932, 0.3784288179020845, 1.9037627739562504, 2.2439278796986937, 1.5111771695254597, 1.0000074516565482e-12, 1.2235615842399747, 1.7416807333257012, 1.2139227959399985, 0.0014706904781177851, 1.0000035342631704e-12, 1e-12, 2.0663196651675237, 0.18365671375526157, 0.0041316748421341976, 0.0019132011408471545, 1.0000031882286878e-12, 1e-12, 0.04161914673593238, 0.049821962496246326, 0.24022144134223983, 0.19408885990366265, 0.02392657241715284, 1e-12, 0.6321827312923628, 0.3615536435854734, 0.7529498371057101, 2.1165988569785417, 2.2897854690642725, 5.958563337453823, 2.614634228792366, 2.2871305851620933, 2.278965239522825, 1.911640962383773, 2.1833069691122597, 0.3649289995350245], ""exps"": [9368713.946800862, 9368713.792118073, 153746.40385256344, 153746.40384531475, 153746.40377521896, 153746.40382902508, 57633.56912300829, 57629.081621130135, 10543.32871316538, 9726.980856628665, 5450.661957798203, 3576.4242903910776, 2129.9792359188996, 1339.8325062779631, 795.8487274132657, 384.8214921099128, 133.942118002592, 84.18848186626003, 68.12807960167976, 45.055835011893194, 7.950552107192966, 5.318153069701814, 4.665103594564632, 5.2021758870344925, 1.6763539400211434, 0.5616671671137461, 0.05695540523181155, 0.09636216396028806, 0.03892579151420488, 0.02415409854723103, 68056.02252185794, 18584.798543007233, 18584.59052506616, 7154.314602655608, 5472.632719643514, 2781.4173615783316, 1667.4368005854521, 832.9949498781099, 254.35687561499094, 164.9382947765951, 101.76314544406115, 76.55214199225392, 18.031186878857774, 16.04845765660943, 10.701119064281162, 7.151598269654307, 1.9537533383154497, 1.2571089321971074, 1.1563401473891304, 0.7198968503479168, 0.07020976247122736]}";
"""y"": {""num_s"": 30, ""num_p"": 22, ""coeffs"": [6.656436676438484e-07, 1e-12, 1.000022535703979e-12, 1.0001546371153115e-12, 1e-12, 1e-12, 0.0007973198470250448, 0.0002539472842641913, 0.08301959749215679, 1e-12, 1.0000097699133465e-12, 0.2012461658006286, 0.04574649065566622, 1.0000108249016541e-12, 0.7223314995137887, 0.21712952597093763, 0.18637413869044564, 1.3111827224214732, 4.460460444059424, 0.1741060169109195, 1.7166346308398917, 2.389305826439941, 2.320146276924199, 0.005289746405160019, 0.7803065456726963, 1.0027926160503482, 0.5748051842422146, 1.9879628929416964, 0.1750025936876649, 0.005099850545832533, 0.002180252176539758, 8.988116423482614e-06, 1e-12, 1.000003630541382e-12, 0.0456619615326419, 0.059357961475314906, 0.23104697408312386, 0.1852780646979606, 0.006972742137615943, 1.0000045777092825e-12, 0.7222370322554572, 1.0000077190439486e-12, 0.6670294573085819, 1.815676385619405, 2.793852283385884, 4.579189314930022, 1.5841929247556987, 2.6650863222687766, 2.5447820791167173, 1.6941285832076216, 0.3202692091390312, 0.723060455646119], ""exps"": [9307953.620603269, 153742.63005958952, 153742.6299394096, 153742.62986602593, 153742.63323233929, 153742.62981794006, 153741.75652821717, 61138.662534812735, 10912.256008687584, 9875.509699815575, 5593.112541673285, 3631.1498775930804, 2162.654711955451, 1361.5661669098793, 806.6452710202477, 353.8925730192723, 135.24795537550642, 86.50158362647971, 70.53128835754443, 16.255478316853328, 7.93786957954739, 7.141932967027924, 5.9203852793957905, 4.272570945452442, 0.535200227507326, 0.5880629296224824, 0.5591478382077049, 0.1542702652781792, 0.04439668482422557, 0.027737968016045327, 71502.84896865094, 71502.83644644232, 19430.790786871003, 19430.270966508004, 7524.614501035514, 5526.752802570076, 2820.555818970623, 1683.8723117516313, 835.4313341921246, 247.65220136060748, 167.72930022171317, 101.71232103116208, 75.29044518791216, 17.33505661534623, 16.416270945252105, 10.545540871652427, 6.90231537434631, 1.9938117419951107, 1.3614735743614705, 0.9936986276693367, 0.07833780519131384, 0.1192785249933878]}";
"""zr"": {""num_s"": 30, ""num_p"": 22, ""coeffs"": [4.913687467176563e-07, 1e-12, 1.0001546249074927e-12, 9.999999960041972e-13, 0.0007052882513377928, 1.000357803285516e-12, 1e-12, 0.000308891796976665, 0.0966769054612378, 1.0000063260911366e-12, 1e-12, 0.1750671059592454, 1e-12, 1e-12, 0.7188814082811537, 0.1924576954304161, 0.4137207880554654, 1e-12, 5.852482967185208, 0.017458762417784622, 1.7161263612699234, 2.465304315396197, 2.245565316248229, 0.00015898540763814202, 1.0439491943704753, 1.4064774129428819, 2.1060983381573783, 0.9424815808193356, 0.03392872413828547, 0.000546073341742861, 0.0021090914306769685, 1e-12, 1.000000803842367e-12, 1.0000012063032965e-12, 0.054411869069434904, 0.09836258476061388, 0.27082174389759295, 0.19778386613665455, 1e-12, 1.0000007601582961e-12, 0.7562894156012552, 1e-12, 0.3388883334621435, 2.953808611049238, 2.346783194335122, 3.850259292552191, 1.73067868014875, 3.286681421630475, 2.222273673382088, 1.9545177093538444, 0.40556732950434143, 0.10238115966169894], ""exps"": [11619896.751270242, 173896.8809183513, 173896.88090929325, 173896.88090177721, 173896.8809507103, 173896.88100310645, 66527.15355554382, 66503.74596063781, 11412.540220560435, 9446.686931962824, 5769.001631154645, 3667.3300366385156, 2204.011574538996, 1391.4162072455204, 813.9156130484585, 328.30945639712365, 137.09467801005567, 89.32810191237543, 73.99519731905289, 15.11080900543814, 9.077733964860963, 7.5175629469862395, 6.679627495358256, 1.1785612912904295, 0.5653950628751844, 0.5732675486420936, 0.1231118742373905, 0.22866150206884242, 0.03776136406875416, 0.024475291239567706, 78389.56493269918, 78389.54295793493, 21328.690645426268, 21327.494655550625, 8247.47369596579, 5591.594693474206, 2886.154279720189, 1708.6956039407687, 855.3831859154085, 254.17175115851686, 172.03781026260125, 104.8983771084195, 82.56533315485952, 19.031025451762662, 15.701945114259713, 11.17889326635804, 8.022848711439385, 2.1064655612150784, 1.443881399785178, 1.0969865124427003, 0.0929772811718761, 0.06282160834235596]}";
"""nb"": {""num_s"": 31, ""num_p"": 23, ""coeffs"": [1.000000713810668e-12, 1.0000025562360351e-12, 1.0000005445027823e-12, 1.0000003488859208e-12, 8.710544386207619e-05, 0.0001430554216996372, 1e-12, 1e-12, 1e-12, 0.10374336270424511, 1.0000353577083045e-12, 0.1349525273775755, 1e-12, 1.0000001667645162e-12, 1e-12, 0.7039433976548715, 0.20318225916425908, 0.7956853412214496, 1.0000043380373653e-12, 4.7161025625158, 0.15017209030806303, 1.9202085242775426, 2.570619834822721, 1.8716133637762775, 0.44225869755582786, 1.5200188374815389, 1.880051945322483, 1.4777729780155544, 0.9947748669789838, 0.07962828825159043, 0.002570517772245008, 0.00048155128082245295, 1e-12, 0.002796510105912716, 1.0000009588058335e-12, 1.0000021754432085e-12, 1e-12, 0.18148731742584262, 0.315234570997645, 0.20105768041584965, 1e-12, 0.02751372700103718, 0.8431254243878695, 1.0000004619593884e-12, 0.8822071131093034, 2.806674228781977, 3.68254209580246, 2.9471962214836367, 1.3842720604548402, 3.8207669146632677, 1.8019080562127987, 2.079186953810534, 0.33305000108624144, 0.12298574008679311], ""exps"": [717402.9202206781, 717402.8019231445, 717402.549956705, 717401.5998009886, 717167.7014198508, 267368.29999905743, 266761.66674288624, 70895.86100541931, 70895.57792587882, 10361.41337237049, 8070.773721708978, 5696.078693681564, 3603.94756358303, 2221.2006733854714, 1412.5809907967136, 820.8040778093141, 298.8327104105346, 138.93800227415772, 93.80719182135147, 79.04016468931245, 14.957624953490557, 9.450238741368684, 8.530239826097382, 7.544905132276442, 0.2983080992040023, 0.25876400151740125, 0.5467700168231684, 0.6101134459860754, 0.10965533113683808, 0.04993728159642188, 0.031386003765342174, 311718.1785803259, 86328.73637490226, 86328.71120972076, 22833.269736924, 22832.846090539326, 8718.200164285348, 5675.75026434246, 2943.030007370938, 1728.383767480421, 869.3522012290847, 261.9460032346624, 176.09050872712658, 107.00934202668896, 91.92849318147067, 20.2570931174686, 15.853261587398897, 10.396122661307535, 9.43722555207632, 2.187037172928759, 1.469936045453366, 1.1771071726475142, 0.19451280410639746, 0.08506749269219088]}";
"""mo"": {""num_s"": 30, ""num_p"": 23, ""coeffs"": [1.0000001443718466e-12, 1e-12, 1.0000003021265664e-12, 1e-12, 9.343380136477643e-05, 0.00016313233934010232, 1.000002608403076e-12, 1e-12, 1.000000116309431e-12, 0.1067830014644281, 1e-12, 0.14785095582861385, 1e-12, 1.000019171062922e-12, 1e-12, 0.6743360179451258, 0.8204931021845892, 0.4508769147781778, 0.24543710298870858, 1.4798023193854561, 0.3823321472585908, 2.016053415688891, 2.3596642975704163, 1.6461344111449476, 0.7750153457896958, 1.7928931399424097, 0.453554295018352, 1.3453829049680033, 0.13233335634280888, 0.0002811438695673497, 0.0005179753228021566, 0.00035083907292744407, 0.0027000881224087236, 1e-12, 1.0000036451385403e-12, 1e-12, 0.18918604834166616, 0.3290287852120578, 0.21014657422574223, 0.0074603647927643044, 0.26609515399681527, 1.8267507778004424, 0.20153572503681233, 2.1046065895071324, 3.536013463658108, 2.876590608949988, 4.650849337235049, 1.1061706655018935, 3.429207778391756, 4.448870520705143, 1.7706128873571467, 0.2103114785503304, 0.003520985340518336], ""exps"": [720074.6279692706, 720074.4910987545, 720074.193246868, 720073.0765574613, 719821.3107059126, 268316.2321793146, 267676.2514274332, 71340.83763886236, 71340.4976858908, 10506.7349530016, 8082.669521678402, 5795.174394219075, 3620.991690250173, 2256.5149414925527, 1435.9711614256316, 836.7071904025273, 271.6796913468975, 141.42424287023618, 98.20546956298425, 84.44208951423401, 14.70308136819399, 9.68224758812425, 9.502713426622151, 9.527165286109907, 0.13676910292175337, 0.4296851544218492, 0.08952400662059422, 0.27188792846650767, 0.05884021768454928, 0.026660933009242327, 312914.312823086, 86860.12077739695, 86860.12656542704, 23079.66253338746, 23079.179261664904, 8830.795123348333, 5703.33660369179, 2976.07900442017, 1737.4182926287062, 880.5751315305193, 271.73934260843254, 174.6715458192025, 109.26616969699009, 97.57760510312909, 20.741177465969482, 16.66348060695487, 10.745847316323843, 2.3788140516152647, 2.378783331028548, 1.4298962973100018, 0.8636954107466742, 0.22856694462329685, 0.04394999822182675]}";
"""tc"": {""num_s"": 32, ""num_p"": 22, ""coeffs"": [1.0985876412277947e-07, 3.266375490084381e-07, 1.0000001104102036e-12, 1e-12, 1e-12, 1e-12, 0.0009001336356917069, 1.0000260202822536e-12, 1.000000042585481e-12, 1e-12, 0.16144791626815397, 1e-12, 1.0000156108676345e-12, 1.0000438499205317e-12, 1e-12, 1.000061918928555e-12, 0.5125781116673341, 0.32396028681961936, 2.6471856448268403, 0.012133627914081157, 0.0881329999894611, 0.19552251410122365, 1.977596996540359, 2.1638642012819345, 1.2497700464691979, 1.3208811301321648, 1.0919941744998396, 1.4076583524068071, 0.0632755525847253, 0.013211050024257681, 0.12636109553601985, 0.0024228433962656744, 9.99999999392329e-13, 0.00296559021297383, 1.0000005542160203e-12, 1.000000639679722e-12, 0.084252590798682, 0.2387086201395924, 0.35038037000064287, 0.26970885304501446, 0.07852717261647862, 0.22159300517566746, 1.2910106817153444, 0.8242345314178413, 1.9843862584851113, 5.484311715886386, 0.4324145106402968, 5.911131937284991, 2.006016431473948, 3.4612643781063506, 5.007697102815484, 1.7987663145141177, 0.08924904605910752, 0.10448698158025427], ""exps"": [13880488.376044748, 13880488.350856366, 13880488.327993799, 193192.5913811886, 193192.591529913, 193192.59138349158, 193192.59140492397, 193192.591326405, 73988.32063409437, 73984.18207144312, 11491.95958541945, 8302.166281041431, 6019.780648698475, 3681.599889486748, 2303.0773628044362, 1462.318971198565, 862.296509916605, 253.57676363570064, 144.19057844843417, 103.84876115769657, 89.54217770414283, 14.650003566985657, 11.153622452530298, 11.370542711647248, 11.158342253179839, 0.12088298139612966, 0.18902671006217006, 0.354180732306103, 0.04923506270254973, 0.24766424603612539, 0.06561136604882664, 0.03229631820421142, 87096.15564995307, 87096.15385063976, 23750.709053248494, 23749.852187084165, 9056.42316007778, 5672.859458402809, 3009.10251564614, 1732.9920129004972, 891.3229246839517, 280.44272979839036, 169.41892829715354, 113.00553816023034, 98.66439247671256, 21.15442496118086, 16.736909133189705, 11.928354355729187, 2.5401635306528036, 2.517332953388537, 1.4687765023052108, 0.8366092778582724, 0.08793840034723084, 0.10479473261010665]}";
"""ru"": {""num_s"": 31, ""num_p"": 22, ""coeffs"": [1.0000889568753823e-12, 1.000036920476555e-12, 1.0000000074338423e-12, 7.211191784053341e-05, 0.0002443027258919328, 1e-12, 1.0000000613950745e-12, 1.0000008094249184e-12, 1.0000000282825786e-12, 0.0922525588909595, 1.0000296328609604e-12, 0.2046551875819048, 1.0001751673936495e-12, 1.0000003694011341e-12, 1.0038080630205303e-12, 0.28654069736878435, 1.0003083868957196e-12, 0.7124897147092176, 1.0000413172011726e-12, 5.496457534613154, 0.158286868122002, 1.8909818202091835, 1.9704195809138587, 0.8449884870047819, 0.4991240803817164, 1.435366864686268, 0.9914395642686465, 0.0940336115809244, 0.16890837160508715, 0.004402582557262284, 1.9924628155538434e-06, 0.0004784295089607039, 1.0054964226345117e-12, 0.0031902386068824395, 1e-12, 1.0000000003152455e-12, 0.014801745343243522, 0.2193805512919039, 0.3919032829850166, 0.36313677048140686, 0.19503725104072525, 0.48038270328563304, 0.7111841563783056, 1e-12, 1.000000470395983e-12, 5.715500040644243, 0.06387398042026943, 6.693258392458916, 2.4455831212192773, 3.7993172863831806, 5.502338284145066, 2.136844528796241, 0.4131301377872254], ""exps"": [835580.5615011666, 835580.541624377, 835580.2251050017, 835569.5750991757, 287892.0192705005, 285977.91648932965, 285215.81997846655, 77162.21293112122, 77161.22242720852, 11892.218464857122, 8046.754688647885, 6176.165352909837, 3747.4916420846052, 2337.818591720575, 1479.4554258614894, 887.5109962232415, 238.00893017493695, 141.71504125830452, 103.4706690825171, 87.78909162218322, 13.548600248168377, 12.259312624325439, 12.5791218598509, 12.337347198009086, 0.10446238853373153, 0.3198333610743283, 0.31632423867491455, 0.05604197930744605, 0.07987251532828156, 0.035141975985436655, 1.0000939735622207e-12, 336761.82645455725, 94188.28857089717, 94188.2850651299, 25128.744433573596, 25127.04720956891, 9417.649965082815, 5584.943189058277, 3031.108456157185, 1713.4379906518714, 875.7314718999058, 278.4249245623335, 159.91097265569383, 109.12065802797527, 26.210274451018428, 22.8556058217768, 13.178189430323176, 13.174710504912397, 2.6311745455851083, 2.621203213075205, 1.471087730739326, 0.802584966358331, 0.20666921202280913]}";
"""rh"": {""num_s"": 32, ""num_p"": 21, ""coeffs"": [8.414781958482003e-08, 1.545108661741625e-07, 7.781251762309437e-08, 1.0000164745396714e-12, 0.0008146735354990457, 1.0000723965464464e-12, 1e-12, 1.0003685413371043e-12, 1e-12, 1e-12, 0.06616413407821323, 1.0000507726250568e-12, 0.2920982776425156, 1e-12, 1e-12, 1.0000126704466696e-12, 0.04365310058703458, 1.0001925761325448e-12, 0.4621990923158866, 1e-12, 5.473741631014846, 1.0372890488211266, 1.36787769656434, 1.319155462760435, 1e-12, 0.5245130083990412, 1.375697511182688, 0.7416293894457063, 0.16371237780362724, 0.06802866895361073, 0.061760142980664665, 0.003876283637403213, 0.0008290798698869799, 0.0022347186304971733, 1.0000010596248587e-12, 1.0000046698407035e-12, 1.0000073732861482e-12, 0.22609784128761187, 0.42930553990053333, 0.49061591005375044, 0.2913162859951701, 0.6040522768091333, 0.891467739468368, 1e-12, 0.6154102159785417, 5.023260657766321, 4.429386625125269, 3.4167620026224204, 2.876941738238914, 4.157395448088525, 5.903858027539904, 2.251174353915652, 0.3876981511441749], ""exps"": [19940215.234238315, 19940215.11897919, 19940215.015680663, 229063.86615855683, 229063.8661568385, 229063.86686141416, 229063.86612752426, 229063.86609620045, 86429.45277341337, 86428.27804474747, 12762.357605002124, 7829.527123121721, 6319.5755425174475, 3819.435991232879, 2378.864373497425, 1477.0018748453979, 922.3698757325312, 244.02136820748436, 140.97108165760218, 106.3317273469281, 90.69734640802936, 14.067889841463964, 14.179391033988576, 13.945278941738739, 12.919056978064631, 0.09574248819626632, 0.3144927817378923, 0.3167633820030843, 0.3257068561279657, 0.054354935369831665, 0.06523498637750748, 0.03454819474250216, 102041.02855126184, 102041.00306339625, 27499.13829622876, 27497.223817389793, 9925.984825718482, 5446.731145337356, 3073.36881744176, 1685.2695701960931, 856.2704332980808, 295.8427263271202, 172.2091230117678, 118.92599060268272, 25.611688782639558, 25.02289143247613, 14.527530552537662, 14.548891957199983, 2.762169924165556, 2.7634894615475227, 1.51526246902866, 0.8102879217136529, 0.19924180663999902]}";
"""pd"": {""num_s"": 29, ""num_p"": 22, ""coeffs"": [1e-12, 2.1023044358543856e-07, 1.0322363937620242e-12, 0.0005888436276350358, 1.035871979936916e-12, 1.0373931595935148e-12, 0.0001846245879321457, 0.00015835946766013868, 1e-12, 1.0000027777502757e-12, 0.05561573684671271, 1e-12, 0.28138110553026524, 1.000094080807799e-12, 1e-12, 0.3486757767487819, 0.13200260694602747, 0.24107139270718486, 1e-12, 1.0000630179968195e-12, 5.3078051876158225, 0.3234186813923006, 0.6092886972218834, 0.5127952871513574, 1e-12, 0.42449625431610827, 2.4080929548945624, 2.377586754982448, 1.7333863968368615, 1.0008592103183895e-12, 0.004085085580821487, 0.005479195383920203, 1e-12, 1e-12, 1.0000675646348118e-12, 0.18935028937462722, 0.3175684095246088, 0.29770292619693456, 0.2752508436547783, 0.7443984043891367, 1.3792505072123689, 1e-12, 3.1851730479971407, 2.486104144009477, 5.594404347635656, 4.049153616723578, 3.0606642333641507, 4.549078905307546, 5.0921701662190735, 0.013352411539240083, 0.00027952038030533297], ""exps"": [25229832.847312905, 25229832.74849291, 246177.45387864823, 246177.45401436838, 246177.4538982367, 246177.45388417592, 246177.45386308292, 246177.45385332542, 91291.40427595346, 91291.28389269253, 12764.05886721389, 7597.598880542459, 6300.705483726233, 3803.6685189822274, 2398.3132749383835, 1461.6241909085327, 952.9184732221926, 244.36806590810016, 143.46833019379685, 111.49765573654776, 89.9327822241474, 15.734664231375762, 15.483873270109813, 16.08966939026633, 0.8825594596036209, 0.15625174007667578, 0.5973489625197799, 0.5984536964260505, 0.2960769209207906, 107879.03622844248, 107879.01637532644, 28846.749638841553, 28846.664951322782, 28845.478963201687, 10184.618620249374, 5395.764870246774, 3109.033212253948, 1641.6923467076394, 806.5688036839584, 306.38843504897216, 178.23044619852482, 125.85355830005766, 28.632733616459106, 28.242706912375084, 16.349817909661205, 16.263613679062708, 2.828461381160577, 2.819966266986766, 1.5063305420684558, 0.10301746693063504, 0.057282778620684094]}";
"""ag"": {""num_s"": 31, ""num_p"": 21, ""coeffs"": [1.6592236623488048e-08, 2.0177670116832863e-07, 1e-12, 0.0005332864927326011, 0.0004044066893521026, 1e-12, 1.000000327611449e-12, 1.0000004140017246e-12, 1.0000003844024532e-12, 0.05756378656121762, 1.0000066141209155e-12, 0.2533440760255281, 1e-12, 1.0001624932143564e-12, 0.6015792876766637, 0.4828486166432612, 0.3317484730154492, 1e-12, 1.0000566403092063e-12, 4.994458225879297, 1e-12, 1e-12, 1e-12, 0.8734799083958911, 0.2163775004455932, 0.8252371083376963, 0.07423019829565328, 1.0000329384092428e-12, 0.7554877837813414, 0.19032069511797742, 0.0024647759462860385, 0.004085391472549457, 0.0038501670521163844, 1.000053638119958e-12, 1.0000015426294549e-12, 1e-12, 0.16464036357339468, 0.19415169809491853, 1.0001184590351732e-12, 0.22151970642046545, 0.8560159544462622, 1.6665141581923992, 1e-12, 6.016607701387478, 1e-12, 6.155790400639729, 4.413881108591869, 3.7166287787891963, 4.81326933762538, 2.4268165864231723, 6.680879824894895, 0.005277617328407328], ""exps"": [23453242.763887182, 23453242.528836444, 252500.64301129483, 252500.6430309852, 252500.64300930113, 252500.64302944925, 90858.73605656922, 90858.28452197733, 90858.2290610025, 13310.003221209432, 7667.7929729673415, 6389.368530841187, 3818.980365850482, 2415.136459043067, 1432.101752066017, 963.0270621149845, 244.56441901951874, 147.01141715323695, 119.28064691188438, 89.20240742037082, 16.591299015212623, 17.0609523957891, 16.875657923205484, 0.34386435744457183, 0.08447924324700004, 0.3443289918029297, 0.05279074887467741, 0.9841229730933738, 0.15264277431916912, 0.08776424996265361, 0.03278339548836872, 107987.37334321375, 29072.616365280173, 29072.532484818683, 29071.104290967116, 10245.934363893062, 5377.2017396125875, 3130.6166397434777, 1574.656378471004, 690.6787739977916, 310.5410355612171, 180.89763181676352, 135.6857944759242, 30.913352306981473, 24.046472318858306, 17.665830057784106, 17.753398067822832, 3.071835121194945, 3.0749214643349525, 0.856286466833298, 1.6371561384135338, 0.10712874579057012]}";
"""cd"": {""num_s"": 31, ""num_p"": 20, ""coeffs"": [1.0000290761148244e-12, 1.0000000000001e-12, 2.718545762125957e-07, 1e-12, 1e-12, 0.0008796357334171532, 1.006517512966783e-12, 1e-12, 1.0000004662717215e-12, 1e-12, 0.0610812520716734, 1e-12, 0.277020572078928, 1e-12, 1.0000551517181193e-12, 0.5762472752291442, 0.6357971130717679, 0.29587514300809026, 1.0002752648946692e-12, 1.0000229757272231e-12, 2.482443128006693, 1.0000320199262024e-12, 1.0000129327918016e-12, 1.000019267695964e-12, 1.268828734034143, 0.7057615921890442, 2.823914517685973, 0.6709120517101574, 0.3729406681674625, 0.029535240569504427, 0.000258249831480862, 0.0035348096749724927, 1e-12, 1.001263015237635e-12, 1e-12, 1.0000216454089398e-12, 0.1758391976309334, 0.2146419387645521, 1e-12, 0.4886828198674252, 1.645567642171415, 1.1998718828105202, 1.7109820871994734, 5.2620128846829015, 5.2283068881213595, 5.802720238519638, 0.2185879698781387, 4.196264154078803, 5.1370489631811065, 5.796237516801854, 0.7182087573603422], ""exps"": [22369079.17602278, 22369079.06115285, 22369078.89525494, 256987.9099057008, 256987.89459634907, 256987.90082239456, 256987.91973871787, 92192.71967673097, 92192.19384974476, 92192.09794530453, 14251.8748771032, 7772.822261765154, 6474.351512152643, 3841.6213001102856, 2433.246083554644, 1423.1410157175885, 892.2930774588875, 251.72492680399333, 151.00669785631632, 130.11734422447586, 88.81096145122063, 17.11998218438628, 16.77122842341103, 16.55298980524467, 0.1435285285505783, 0.6074992024022919, 0.6077009606573115, 0.6073125778089824, 0.08385284433877215, 0.05118698040842766, 0.0308585714033097, 109691.1916861202, 29595.13493943302, 29594.645443724028, 29591.99956502322, 10363.1879665105, 5372.289016820277, 3133.095096104894, 1528.4115466469004, 556.2883178878113, 277.1991419819935, 187.05527267250145, 134.86469627918925, 34.24390236096105, 19.477738384454206, 19.490688413652705, 19.274269128610886, 3.2093444783213587, 3.2141501958521808, 1.6785443877815285, 0.33565204756300326]}";
"""in"": {""num_s"": 30, ""num_p"": 22, ""coeffs"": [1.0003822426579177e-12, 1e-12, 1e-12, 1e-12, 0.0008638148953612527, 1e-12, 1e-12, 6.509506200927986e-07, 7.961571613585547e-05, 0.11067705030376587, 1.000009356964518e-12, 0.09827599892747008, 1e-12, 1e-12, 0.6910595375319432, 0.30582169177171037, 1e-12, 4.1548832609625155, 1.1454003514264965, 1.0002533886724441e-12, 1.0006309672535813e-12, 1.0000569993837528e-12, 1e-12, 0.015401208962338866, 0.10101894579114265, 0.5018191189926464, 0.09453522678812121, 0.00022585441590335833, 1.0000044371155778e-12, 0.43064113439419505, 0.003465454797259642, 0.0015290545113066396, 1e-12, 0.10353498046775872, 0.227971919591996, 0.17868916909625385, 1.000077350732424e-12, 1.0000234287572555e-12, 0.457772676349617, 0.6250674443584442, 1.6442749762594013, 4.9786237153703725, 4.817765048639887, 4.7214101833213915, 2.0543265793370926, 4.849913502850677, 5.408325237325281, 6.942650837605572, 2.1757221349629874, 0.8213245693148008, 1.3367735926830326, 0.0001588077486819721], ""exps"": [271954.11778712604, 271954.1178648865, 271954.1178753976, 271954.1178626985, 271954.11789978674, 94472.51054187793, 94472.45588721693, 94472.43048582444, 94472.35280745685, 15354.265256082179, 8007.59206268337, 6591.717283327859, 3929.4925947287275, 2469.810379322816, 1449.7511791122176, 851.5404505258064, 256.2790629565242, 153.52467446416594, 118.34666095325072, 30.11687531792598, 21.259168300403623, 22.875980327097935, 22.3952766899364, 0.03756123676020689, 0.061047856185621405, 0.10694677925877602, 0.05985353096526867, 0.024077168921295477, 0.7703870612039216, 0.10110188626993444, 113219.82574208805, 30582.22100509805, 30577.84056788993, 10582.024135150448, 5373.294649203695, 3171.493869638171, 1548.3746753791663, 519.5478047136743, 314.2684198769113, 176.8858374060704, 116.09330424924826, 36.902914756714985, 20.960184097323356, 20.97931792202719, 21.007396613975864, 3.4689330067205963, 3.470394102019824, 1.8119987556958181, 0.8735850675922672, 0.22141031875112285, 0.40238408946129967, 4.108890408330628]}";
"""sn"": {""num_s"": 30, ""num_p"": 22, ""coeffs"": [2.2271987331757405e-05, 1.11831577407097e-11, 1.5356285807778077e-11, 1.2606330021368445e-11, 0.0030098052595241525, 0.0028204993011954112, 0.0003499934206759798, 1.336335010797416e-05, 5.352057140318097e-07, 0.028307300239629157, 0.005472428371160445, 0.17665124953779673, 1e-12, 0.43799236713131867, 0.6059416010263056, 0.375797372494099, 1.0000309737016068e-12, 4.633664064797171, 1e-12, 1e-12, 1.0003748079629271e-12, 1.0013914835286924e-12, 1e-12, 7.91964380583378e-07, 1.0000426478298228e-12, 1e-12, 1e-12, 0.006722602168480956, 0.1996243781264446, 1e-12, 0.0011078236877163131, 0.010316739850336055, 0.036401627274808494, 1e-12, 0.10286676510128963, 1.0357681343123713e-12, 1e-12, 1.0001586802774914e-12, 0.6708383481852895, 0.6032041214254977, 1.9874097264926591, 4.391573385661647, 6.240551794853639, 5.945123960301369, 0.6621202307569998, 5.05185070604975, 5.375665118655131, 6.755541028511578, 1.9234927965172817, 1.9424300160396344, 1.3732938346821948, 0.44983141923519626], ""exps"": [2286467.248618081, 2286467.248620417, 2286467.24869811, 2286467.2486183527, 71857.41213335145, 71857.41033904135, 71857.39624118255, 71857.4281654289, 71857.43232781302, 22543.59211086979, 12109.226922368602, 6996.580447266854, 4120.758688484395, 2534.791269955947, 1482.2022751801192, 820.4349877741026, 264.6244398548468, 157.79457029083818, 141.006328720815, 32.81235086039256, 21.840624206527007, 23.19215462012533, 23.133836873080373, 1.0000061739468802e-12, 0.2748810931276065, 0.20996367581358347, 1.4427408571729115, 0.043057815451717656, 0.07221693632779795, 0.35774829636926425, 31424.816422170243, 31424.840469399704, 12949.681877507503, 10178.160453086926, 5358.49990577855, 3212.4184461688387, 1619.3285631205645, 528.7792162518782, 326.45174567957633, 183.4005555760605, 128.84754175346197, 40.82705978627355, 22.756654431829038, 22.835895328309594, 3.685951892393642, 3.685516185138985, 3.6838270287618746, 1.9127907872689047, 0.8573484095610018, 0.40826906618992875, 0.22993189605191053, 0.13755004545135027]}";
"""sb"": {""num_s"": 30, ""num_p"": 22, ""coeffs"": [2.522306830632881e-06, 1.2743155720186164e-05, 1.3952621033471766e-06, 1.0727933665832687e-09, 0.002569000974758442, 0.0026389959217581415, 2.3623145223180183e-07, 0.00021621425547348978, 1.367059806233386e-05, 4.9559923658618324e-05, 0.02705274826389237, 0.027062803275564148, 0.1869093927108827, 1.0007940154652397e-12, 0.44889295094590187, 0.6294585551061262, 0.372495238134985, 1.0018402052705412e-12, 4.435601088335465, 7.48069321967086e-09, 1.0000660658246755e-12, 1.0010531362631457e-12, 1.0001112203535853e-12, 1.0000001995237187e-12, 0.05847603872825178, 1.0000077608164845e-12, 3.6565838136153198e-06, 0.00041373809973110063, 0.8584234772136017, 1.0000004747281105e-12, 2.690901750927591e-05, 0.008034659654510955, 0.025984715989900233, 1e-12, 0.10025311717205333, 1.0016705449741512e-12, 1.0001957240491245e-12, 1.000000432953651e-12, 0.8559472567078387, 0.1773918810620781, 2.3087767520463403, 3.8530920529975017, 6.859371555810454, 5.872401575660607, 1.6647972322852493, 5.179448135112824, 5.056729336534058, 6.34725312546925, 1.9316061868121035, 2.4594467456615883, 1.2491716033842788, 1.6919536651781692e-06], ""exps"": [2983311.2150696423, 2983311.215069865, 2983311.2150696414, 2983311.2150696213, 78017.79228866266, 78017.78714366167, 78017.79123725911, 78017.79177177142, 78017.79070241944, 78017.7918351908, 22405.023058589835, 11085.029258894432, 6941.126113272217, 4138.5219299187975, 2583.2974897205277, 1494.9253325830373, 772.0877963367461, 265.41536495281514, 164.2695654177352, 144.11524869121254, 38.56778707737229, 22.374945991699743, 23.580511914242063, 22.07794095946087, 0.0708810038756493, 0.08848884136904356, 1.0000329483154546e-12, 0.0407926752274572, 0.11973824054342691, 0.5775877534017648, 33949.52827025449, 33949.50435467935, 12624.27744542084, 10644.031489309886, 5358.223607374606, 3261.6778471415896, 1671.2196902114063, 529.8853458858408, 329.19613361246405, 190.86013191349198, 144.03189390142606, 45.33192328536503, 24.66115159986393, 24.721488661907824, 3.9125156787949615, 3.912301360411175, 3.9114525386185104, 2.0249699985710823, 0.8084689281645262, 0.412281226075993, 0.23768278376541943, 1.1458499273047873]}";
"""te"": {""num_s"": 30, ""num_p"": 23, ""coeffs"": [9.937998551685427e-08, 4.844913347850602e-08, 0.0009376273974560531, 6.867502727785418e-06, 0.0001778783578265849, 3.689539290985158e-05, 1.7204463813039737e-12, 1.0000012486086597e-12, 1.0000007387885384e-12, 0.04583105898795025, 1e-12, 1.0000016398946428e-12, 0.2960500655784234, 1.0010139432221625e-12, 0.3863590655215525, 0.5831591833315591, 0.6689355796190051, 1.0157729610829878e-12, 1.9865455709508684, 0.30317961372728985, 1.0005946460334256e-12, 1.0002029133289212e-12, 1.0003772131387097e-12, 1.0003373095103013e-12, 1.0001924854515367e-12, 0.30022409159207364, 4.677571640606844e-05, 0.00019891816297450818, 0.4326106147238471, 1.0000373725248702e-12, 0.005618530721801436, 0.0001716939141470435, 0.01454637018242316, 1.0000069232559096e-12, 1.000039108000921e-12, 0.06600373804632112, 0.07658486444369018, 1.000000557535915e-12, 0.24775981730693394, 1.72457804057954, 1.000210996937581e-12, 3.1234158626995465, 3.37107605160224, 9.153683941042079, 4.075578748999402, 2.6202902510253905, 5.268417658764871, 4.798771619414163, 5.7910232938210795, 2.460491301299468, 2.9232111225724173, 1.2612590851856966, 0.013228518869432755], ""exps"": [44465382.041010715, 44465381.77948795, 311024.2959869704, 311024.29605122603, 311024.2959530207, 311024.29579983343, 311024.2958820812, 118088.85536782756, 118088.8261050294, 14434.379218647886, 13472.527840901643, 8831.099372042083, 6232.578553006924, 4012.5819811678757, 2568.390455461189, 1502.5079766860256, 713.8641540765927, 265.2478831017284, 171.9088825857092, 144.0549017865795, 26.92027820214183, 25.686243108129034, 26.0914102223974, 24.96751696275016, 0.19140276895515212, 0.12058884827014849, 7.19837156959718, 0.041320622433678775, 0.12071435751660933, 0.2982811174412832, 138830.04809167207, 36059.33471611809, 36059.34165333766, 13019.621760550204, 11160.147351225038, 5474.065398409019, 3304.7189579960623, 1705.2822080648566, 528.8689326529932, 326.20927798929887, 197.00057741447085, 163.55741652218904, 50.58644186054791, 26.65413497428325, 26.646783193660166, 4.154996591053529, 4.1523571923512925, 4.1553349644987225, 2.150744691392207, 0.776939645078717, 0.4190528287360869, 0.24225765598854204, 0.08073405466292109]}";
"""i"": {""num_s"": 30, ""num_p"": 22, ""coeffs"": [2.1670512575440355e-08, 1.5224663293671586e-07, 0.00125470283151245, 1e-12, 1e-12, 1.0016340458500007e-12, 1e-12, 1.000002093056001e-12, 1.0000010321223692e-12, 0.04569410313354313, 1e-12, 1.0000209683944943e-12, 0.39642901129590347, 0.20402502514340695, 1e-12, 1e-12, 1.0000399661744427e-12, 2.503701457223082, 1.000368682185641e-12, 1e-12, 1e-12, 5.191784644840089, 0.12237249146150993, 1e-12, 1e-12, 2.4655380575802854, 1e-12, 1e-12, 0.028658508982050915, 0.31011488789208536, 0.0060679937665219915, 0.016142467281537638, 1e-12, 1e-12, 1e-12, 0.10765360633437872, 0.46702638776362393, 0.45738848828506395, 0.24999284678628883, 0.4780776150927031, 3.3834322485867423, 1.0002566400414887e-12, 3.550806809648662, 5.283574919146175, 3.597583630871551, 3.159736575491415, 5.553509744898141, 4.742347771256312, 5.014074316075917, 3.0836447994419043, 2.5773318076563263, 0.002035487076102477], ""exps"": [41084848.180856116, 41084848.02659562, 311542.5947878411, 311542.59314627096, 311542.59252264403, 311542.59333357477, 311542.5931113721, 118351.95526894994, 118351.92186435859, 14614.446238391769, 13633.538489296061, 8931.042714100835, 6259.596028701359, 4056.6427359854097, 2593.08188825815, 1524.5171043776518, 658.8503479541254, 261.87430866921454, 178.6993075382929, 145.70438466901774, 29.472250138149366, 33.452038988559906, 31.608333345235813, 30.709339134004914, 0.7945763702917498, 0.19505611753405275, 1.170280864767801, 0.35587337258058316, 0.19480575683281295, 0.11126052936005057, 139149.68608343706, 36260.78539981942, 36260.712751678824, 13167.230321118634, 11217.072574663061, 5526.729541297196, 3321.622708751522, 1723.5559822736766, 528.4233275515783, 324.9566877236885, 197.87467919014676, 187.60047254448392, 28.161990492309148, 28.24720402042295, 28.437843932606935, 4.402444575632016, 4.403627691142215, 4.404922797304123, 2.282233936866766, 0.7614392579386778, 0.41925703877183257, 0.07376386644601596]}";
"""xe"": {""num_s"": 31, ""num_p"": 22, ""coeffs"": [1.9340329640491377e-12, 2.022415773596411e-10, 2.0269184856721122e-07, 2.7119844629619624e-06, 1.0172801088068404e-06, 8.113579193064843e-07, 0.00011785152398903901, 0.0011817255989423515, 1.0000019270482194e-12, 1.0000016318328006e-12, 0.049257715882009834, 1.0000004555669017e-12, 1.0000001392560294e-12, 0.40946515348502227, 0.20616005811562443, 1.0032319317930704e-12, 1.0000010950437151e-12, 1.0000061794605128e-12, 1.2129475288070206e-07, 4.370744226438284, 1.010736206821276e-12, 2.3485688999504784, 1.2485475480951431, 2.896462200558807, 1.0016720541388514e-12, 1.0000478283842402e-12, 0.4125310815098591, 0.009434875681719709, 0.00012233961162065227, 9.93896090537901e-06, 1.7771239313342378e-07, 0.006254992332679417, 2.780910481641968e-07, 0.01611336377411275, 1e-12, 5.7818148358083406e-08, 0.11256037624955544, 0.4754085342304284, 0.44454118536329784, 0.3498719845372139, 0.2866322146381916, 0.6290205979560336, 1.0834235136347072, 1.3063516862126763, 9.775433683346922, 1.0003845058730674e-12, 7.90325678238365, 6.433766626631156, 4.292389291222719, 3.6052414416380545, 4.204079965108725, 1.1231608283247854, 8.919050229702863e-08], ""exps"": [38546620.777109884, 38546620.65958821, 38546620.583987035, 314774.1797039416, 314774.17929804005, 314774.1797924546, 314774.18307526706, 314774.4178720683, 119526.02687540889, 119525.98605227104, 14939.853638559127, 13895.65343178099, 9092.75992531455, 6315.8982792307115, 4101.513265660251, 2621.039205398918, 1548.5525505102944, 611.4197640536148, 266.44809435301005, 184.6424628852016, 150.72024269940067, 29.87334745950622, 29.8340364975655, 28.448469621079216, 26.54450382344079, 1.0998271678192428, 0.13238341924040534, 0.07813964757060538, 1.0000000044225005e-12, 0.7788066847284779, 1.0033999510123858e-12, 140590.46283836677, 36726.93252797649, 36728.02758569286, 13425.518493312724, 11282.481159029401, 5580.16027000126, 3332.573854122354, 1731.4388389949204, 523.0163030327956, 317.71485156975734, 224.4545411693457, 179.58721306803523, 30.31730488227524, 29.95427271427466, 28.224349342753346, 4.661552086775983, 4.6552983223098305, 2.3785352463695126, 0.4441212035189241, 0.8021090797674133, 0.2582307982846097, 0.371524208911302]}"].
Definition slsqp_json : list ascii := (str "{" ++ joined slsqp_entries ++ str "}")%list.
