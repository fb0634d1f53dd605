(** The data files of the library, line by line: /repo/bfit/data/{neutral,cation,anion}.  Line
    ends are dropped. *)
From Coq Require Import String List.
From Verif Require Import PyText ModelParse SpecParse.
Import ListNotations.
Local Open Scope string_scope.

(** bfit/data/neutral/ag.slater:1-50 *)
Definition ag_neutral : list string := [
"      SILVER   K(2)L(8)M(18)4S(2)4P(6)5S(1)4D(10), 2S";
"   E = -5197.698467674";
"   T =  5197.698468984     V =-10395.396936658     V/T =    -2.000000000";
"  ORBITAL ENERGIES AND EXPANSION COEFFICIENTS";
"        S                    1S             2S             3S             4S             5S";
"  BASIS/ORB.ENERGY     -913.8355964   -134.8784068    -25.9178242     -4.0014988     -0.2199797";
"              CUSP        1.0002457      1.0000318      1.0004188      1.0004755      1.0007044";
"  1S       81.922545     -0.0249463      0.0397871     -0.0173562      0.0070924     -0.0014801";
"  3S       60.961344      0.0279319     -0.0405433      0.0182861     -0.0075458      0.0015959";
"  1S       49.339744      0.9727086     -0.3810597      0.1654469     -0.0685857      0.0143847";
"  4S       36.344474     -0.0337753      0.0969467     -0.0318908      0.0107924     -0.0019778";
"  3S       22.846089     -0.0362467      0.4275905     -0.4139058      0.2086400     -0.0461251";
"  2S       22.824480      0.0960288      0.4841259     -0.2675541      0.1246272     -0.0271509";
"  4S       13.009377     -0.0042042     -0.0824896      0.4962657     -0.2527818      0.0525889";
"  4S        9.794366     -0.0009434     -0.0269850      0.2221040     -0.5035254      0.1374074";
"  2S        8.903696      0.0082152      0.1886970      0.4960442     -0.5095789      0.1320003";
"  2S        4.446178     -0.0001941     -0.0005026      0.0282383     -0.1083021     -0.0494609";
"  2S        3.589317      0.0001426      0.0004284     -0.0086790      1.4622619     -0.2588647";
"  2S        2.519920     -0.0000249     -0.0001368      0.0017522      0.1661500     -0.2187850";
"  2S        0.826013      0.0000029      0.0000216     -0.0001031     -0.0002104      0.5413805";
"  2S        0.663294     -0.0000019     -0.0000145      0.0000631      0.0004717      0.5502496";
"        P                    2P             3P             4P";
"  BASIS/ORB.ENERGY     -125.1815809    -21.9454343     -2.6768201";
"              CUSP        1.0008130      1.0008629      0.9998751";
"  2P       58.031368     -0.0119946      0.0277335     -0.0192415";
"  3P       51.182468     -0.0145273      0.0321879     -0.0221456";
"  3P       33.533569     -0.0910690      0.1548314     -0.1056304";
"  2P       23.909244      0.9163004     -0.6168692      0.3096237";
"  3P       19.551930      0.2254388     -0.0961471     -0.0107746";
"  3P       10.860119      0.0061803      0.7911584     -0.3417783";
"  3P        8.237653     -0.0019624      0.3369847     -0.6569599";
"  3P        3.358709     -0.0007372     -0.0138382     -0.3915365";
"  2P        2.956246      0.0008735      0.0238263      1.7235547";
"  2P        1.903964      0.0000515      0.0000646      0.0795092";
"  2P        0.663294     -0.0000051     -0.0000051      0.0004692";
"        D                    3D             4D";
"  BASIS/ORB.ENERGY      -14.6782003     -0.5374007";
"              CUSP        0.9991182      1.0009214";
"  3D       53.296212      0.0006646     -0.0002936";
"  4D       40.214567      0.0037211     -0.0016839";
"  3D       21.872645     -0.0072310      0.0092799";
"  3D       17.024065      0.1799224     -0.0743431";
"  3D       10.708021      0.5205360     -0.1179494";
"  3D        7.859216      0.3265622     -0.2809146";
"  3D        5.770205      0.0373867      0.1653040";
"  3D        3.610289      0.0007434      0.4851980";
"  3D        2.243262      0.0001743      0.4317110";
"  3D        1.397570     -0.0000474      0.1737644";
"  3D        0.663294      0.0000083      0.0013751";
""].
(** bfit/data/neutral/b.slater:1-26 *)
Definition b_neutral : list string := [
"      BORON   1S(2)2S(2)2P(1), 2P                                                     ";
"   E =   -24.529060725";
"   T =    24.529060725     V =   -49.058121450     V/T =    -2.000000000";
"  ORBITAL ENERGIES AND EXPANSION COEFFICIENTS";
"        S                    1S             2S ";
"  BASIS/ORB.ENERGY       -7.6953347     -0.4947058";
"              CUSP        0.9999221      0.9996615";
"  2S       16.109305     -0.0005529     -0.0001239";
"  1S        7.628062     -0.2350117      0.0122241";
"  2S        6.135799     -0.1508924      0.0355967";
"  1S        4.167618     -0.6421165     -0.1987214";
"  1S        2.488602     -0.0011507     -0.5378967";
"  2S        1.642523     -0.0008611     -0.1199728";
"  1S        0.991698      0.0004712      1.4382402";
"  1S        0.787218     -0.0002323      0.0299258";
"        P                    2P ";
"  BASIS/ORB.ENERGY       -0.3098564";
"              CUSP        1.0000209";
"  3P       12.135370      0.0000599";
"  2P        5.508493      0.0113751";
"  3P        3.930298      0.0095096";
"  2P        2.034395      0.1647518";
"  2P        1.301082      0.3367860";
"  2P        0.919434      0.4099162";
"  2P        0.787218      0.1329396";
""].
(** bfit/data/neutral/be.slater:1-15 *)
Definition be_neutral : list string := [
"      BERYLLIUM 1S(2)2S(2), 1S";
"   E =   -14.573023167";
"   T =    14.573023130     V =   -29.146046297     V/T =    -2.000000003";
"  ORBITAL ENERGIES AND EXPANSION COEFFICIENTS";
"        S                    1S             2S";
"  BASIS/ORB.ENERGY       -4.7326699     -0.3092695";
"              CUSP        1.0001235      0.9998774";
"  1S       12.683501     -0.0024917      0.0004442";
"  1S        8.105927      0.0314015     -0.0030990";
"  1S        5.152556      0.0849694     -0.0367056";
"  1S        3.472467      0.8685562      0.0138910";
"  1S        2.349757      0.0315855     -0.3598016";
"  1S        1.406429     -0.0035284     -0.2563459";
"  2S        0.821620     -0.0004149      0.2434108";
"  1S        0.786473      0.0012299      1.1150995"].
(** bfit/data/neutral/c.slater:1-26 *)
Definition c_neutral : list string := [
"      CARBON    1S(2)2S(2)2P(2), 3P";
"   E =   -37.688618960";
"   T =    37.688618960     V =   -75.377237919     V/T =    -2.000000000";
"  ORBITAL ENERGIES AND EXPANSION COEFFICIENTS";
"        S                    1S             2S";
"  BASIS/ORB.ENERGY      -11.3255187     -0.7056273";
"              CUSP        0.9999688      0.9996101";
"  2S       18.890445     -0.0005490     -0.0001371";
"  1S        9.238787     -0.2240196      0.0125129";
"  2S        7.517513     -0.1458182      0.0314257";
"  1S        5.100368     -0.6531614     -0.1900434";
"  1S        3.276630     -0.0040799     -0.4731413";
"  2S        2.270243     -0.0011082     -0.0222123";
"  1S        1.192963     -0.0002033      1.2890026";
"  1S        0.930957     -0.0000658      0.0176521";
"        P                    2P";
"  BASIS/ORB.ENERGY       -0.4333405";
"              CUSP        0.9999272";
"  3P       15.083626      0.0000552";
"  2P        6.565676      0.0137471";
"  3P        4.729110      0.0162926";
"  2P        2.494494      0.2011747";
"  2P        1.601933      0.3651183";
"  2P        1.123315      0.3811596";
"  2P        0.930957      0.0951923";
""].
(** bfit/data/neutral/ce.slater:1-56 *)
Definition ce_neutral : list string := [
"      CERIUM   [XE]6S(2)5D(1)4F(1), 1G                                                ";
"      CHARGE = 58.000000";
"      SYMMETRY SPECIES               S     P     D     F ";
"      NUMBER OF BASIS FUNCTIONS     13    10     9     6";
"      NUMBER OF CLOSED SHELLS        6     4     2     0";
"      NUMBER OF OPEN SHELLS          0     0     1     1";
"      OPEN SHELL OCCUPATION NUMBER   0     0     1     1";
"   E = -8566.872534154";
"   T =  8566.872517249     V =-17133.745051403     V/T =    -2.000000002";
"  ORBITAL ENERGIES AND EXPANSION COEFFICIENTS";
"        S                    1S             2S             3S             4S             5S             6S ";
"  BASIS/ORB.ENERGY    -1423.1026566   -225.2527451    -50.0772392    -10.8069844     -1.7493739     -0.1713884";
"  1S       76.035150      0.0376052      0.0107790     -0.0044017      0.0008657     -0.0006832      0.0000765";
"  1S       57.131650      0.9556282     -0.3476280      0.1569281     -0.0722714      0.0294582     -0.0079963";
"  2S       47.312853      0.0093994     -0.2419226      0.1200773     -0.0605894      0.0235511     -0.0068019";
"  2S       28.060473      0.0016381      1.0004787     -0.4896624      0.2401257     -0.0949849      0.0268485";
"  3S       25.534699     -0.0009821      0.2569709     -0.3811291      0.1969862     -0.0833279      0.0223828";
"  3S       14.844127      0.0009419      0.0260744      0.4864992      0.2168735     -0.1304826      0.0432763";
"  3S       12.885759     -0.0008262     -0.0155549      0.7747351     -1.3220929      0.6301005     -0.1853049";
"  3S        6.492214      0.0002999      0.0021674      0.0470196      1.1380184     -0.3975369      0.1125496";
"  3S        5.307661     -0.0002334     -0.0016915     -0.0247076      0.2727868     -0.6363608      0.2002120";
"  3S        2.782600      0.0000677      0.0004570      0.0042198      0.0089997      0.9581058     -0.2950350";
"  3S        2.081217     -0.0000392     -0.0002506     -0.0022984     -0.0019725      0.3886994     -0.2517460";
"  3S        0.887910      0.0000091      0.0000564      0.0004719      0.0003165     -0.0008409      0.6409955";
"  3S        0.637379     -0.0000049     -0.0000302     -0.0002501     -0.0001554      0.0005322      0.4839873";
"        P                    2P             3P             4P             5P ";
"  BASIS/ORB.ENERGY     -212.6180420    -44.5502668     -8.6505060     -1.0737931";
"  2P       48.894058      0.0187269     -0.0066093      0.0033058     -0.0015015";
"  2P       28.719833      0.8172122     -0.3971550      0.1827283     -0.0665316";
"  3P       24.767523      0.1924309     -0.3368059      0.2298495     -0.1062708";
"  4P       19.481959      0.0094797     -0.3913859      0.3749904     -0.1994035";
"  3P       15.389248     -0.0058948      1.3526985     -0.9533053      0.4571237";
"  3P       10.857138      0.0009451      0.3503363     -0.5320395      0.1966320";
"  3P        6.613655     -0.0004340     -0.0002937      1.1076889     -0.5222579";
"  4P        5.604644      0.0000906      0.0013787      0.3150168     -0.3418279";
"  3P        2.429195     -0.0000183     -0.0002953      0.0104913      0.9355328";
"  3P        1.653439      0.0000076      0.0001038     -0.0025236      0.3161997";
"        D                    3D             4D             5D ";
"  BASIS/ORB.ENERGY      -34.3838920     -4.8145038     -0.2979089";
"  3D       34.797518      0.0070376     -0.0025580      0.0009051";
"  3D       19.516555      0.4447579     -0.2071363      0.0559465";
"  4D       15.424922      0.5004222     -0.2323262      0.0703054";
"  4D       10.345200      0.1696865     -0.1642383      0.0049159";
"  4D        8.740820     -0.0375941      0.5088511     -0.0975771";
"  4D        5.744808      0.0043832      0.6495648     -0.2837080";
"  4D        3.775249     -0.0009669      0.1106898      0.1053767";
"  4D        2.115986      0.0001884     -0.0007505      0.6459785";
"  4D        1.206276     -0.0000430      0.0004208      0.4170737";
"        F                    4F ";
"  BASIS/ORB.ENERGY       -0.7131229";
"  4F       17.373634      0.0177006";
"  4F       10.034791      0.1365710";
"  4F        6.709780      0.3091707";
"  4F        4.338091      0.4158549";
"  4F        2.673664      0.2672594";
"  4F        1.640385      0.0601619"].
(** bfit/data/neutral/cl.slater:1-31 *)
Definition cl_neutral : list string := [
"      CHLORINE   K(2)L(8)3S(2)3P(5), 2P                                               ";
"   E =  -459.482072328";
"   T =   459.482072308     V =  -918.964144636     V/T =    -2.000000000";
"  ORBITAL ENERGIES AND EXPANSION COEFFICIENTS";
"        S                    1S             2S             3S ";
"  BASIS/ORB.ENERGY     -104.8844208    -10.6074807     -1.0729121";
"              CUSP        1.0000547      1.0000295      0.9994642";
"  2S       52.549831     -0.0002524     -0.0000722      0.0000402";
"  1S       26.643633     -0.1814618      0.0445893      0.0037577";
"  2S       22.754804     -0.1155390      0.0426753      0.0006709";
"  2S       14.248239      0.2068512      0.0759190      0.0227232";
"  1S       13.203531     -0.9022700     -0.5277537      0.1486623";
"  2S        6.587648     -0.0017631      0.7717007      0.0455228";
"  2S        5.115487      0.0004191      0.3283319     -0.4489641";
"  1S        3.103725     -0.0000254      0.0097044     -0.8603633";
"  1S        1.427728      0.0000530      0.0032987      1.6497514";
"  1S        1.006380     -0.0000081     -0.0004079      0.0275982";
"        P                    2P             3P ";
"  BASIS/ORB.ENERGY       -8.0722274     -0.5063999";
"              CUSP        1.0005299      0.9992672";
"  2P       44.251905     -0.0000618      0.0000198";
"  3P       21.017294     -0.0032830      0.0009768";
"  2P       12.370142      0.1185708     -0.0369629";
"  3P       10.884681      0.0572152     -0.0262659";
"  2P        6.217866      0.6133383     -0.0707982";
"  3P        4.148675     -0.1362286      0.1675670";
"  2P        3.863174      0.3818518     -0.4534267";
"  2P        2.015464      0.0021977      0.4593440";
"  2P        1.296207      0.0008173      0.5677005";
"  2P        1.006380      0.0002335      0.1293086";
""].
(** bfit/data/neutral/cr.slater:1-43 *)
Definition cr_neutral : list string := [
"      CHROMIUM   K(2)L(8)3S(2)3P(6)4S(1)3D(5), 7S                                     ";
"   E = -1043.356375551";
"   T =  1043.356375276     V = -2086.712750827     V/T =    -2.000000000";
"  ORBITAL ENERGIES AND EXPANSION COEFFICIENTS";
"        S                    1S             2S             3S             4S ";
"  BASIS/ORB.ENERGY     -220.3864068    -26.2096369     -3.2851612     -0.2220501";
"              CUSP        1.0002151      0.9993425      0.9995990      0.9994388";
"  1S       64.134378      0.0014070      0.0013617     -0.0005803      0.0001431";
"  3S       35.194142     -0.0110748     -0.0081648      0.0036795     -0.0009114";
"  1S       25.454647     -0.8205511     -0.1421246      0.0511424     -0.0111788";
"  3S       17.708856      0.0761683      0.0599032     -0.0255986      0.0052243";
"  2S       10.162320      0.2044973      1.2251393     -0.2189007      0.0345145";
"  1S        8.462113     -0.4296209     -0.6888312      0.1536706     -0.0293029";
"  2S        7.730720      0.0176638      0.3341940     -0.8498296      0.2087831";
"  2S        3.367156     -0.0006641      0.0090967      0.7471068     -0.1862060";
"  1S        2.316006      0.0011192     -0.0087407      0.6925615      0.0821551";
"  1S        1.537736     -0.0003022      0.0016728      0.0040460     -0.6016914";
"  2S        0.699029     -0.0000369      0.0002488     -0.0000902      0.7365812";
"  1S        0.666408      0.0000828     -0.0001737     -0.0003102      0.5513708";
"        P                    2P             3P ";
"  BASIS/ORB.ENERGY      -22.1398569     -2.0509322";
"              CUSP        1.0001605      1.0009380";
"  2P       54.119911      0.0001884      0.0000694";
"  3P       32.347673      0.0026512      0.0010266";
"  2P       16.361604     -0.1813594     -0.0207855";
"  3P       12.870877     -0.1328680      0.0473677";
"  2P        9.705787     -0.3895478     -0.2172009";
"  2P        7.719275     -0.3337827     -0.3681273";
"  3P        3.078646      0.0086859     -0.5436322";
"  2P        2.646262     -0.0135009      1.6733666";
"  2P        1.486704      0.0000344      0.0276998";
"  2P        0.666408     -0.0000003      0.0002341";
"        D                    3D ";
"  BASIS/ORB.ENERGY       -0.3736058";
"              CUSP        0.9995978";
"  3D       21.010126      0.0015166";
"  4D       16.248352      0.0064929";
"  3D        7.319431      0.0676131";
"  3D        4.807319      0.2519614";
"  3D        3.023447      0.3670945";
"  3D        1.852525      0.3299536";
"  3D        1.147532      0.1666695";
"  3D        0.666408      0.0029340"].
(** bfit/data/neutral/cs.slater:1-46 *)
Definition cs_neutral : list string := [
"      CESIUM   [XE]6S(1), 2S";
"      CHARGE = 55.000000";
"      SYMMETRY SPECIES               S     P     D";
"      NUMBER OF BASIS FUNCTIONS     13    10     7";
"      NUMBER OF CLOSED SHELLS        5     4     2";
"      NUMBER OF OPEN SHELLS          1     0     0";
"      OPEN SHELL OCCUPATION NUMBER   1     0     5";
"   E = -7553.933536555";
"   T =  7553.933539793     V =-15107.867076348     V/T =    -2.000000000";
"  ORBITAL ENERGIES AND EXPANSION COEFFICIENTS";
"        S                    1S             2S             3S             4S             5S             6S ";
"  BASIS/ORB.ENERGY    -1272.7688113   -198.1437597    -42.6930110     -8.6954702     -1.2315923     -0.1236387";
"  1S       72.432562      0.0377623      0.0103858     -0.0044410      0.0008170     -0.0005962     -0.0000189";
"  1S       54.152961      0.9551564     -0.3460218      0.1549825     -0.0695741      0.0263093     -0.0057221";
"  2S       44.781947      0.0098484     -0.2411602      0.1176682     -0.0581946      0.0209939     -0.0051315";
"  2S       26.827713      0.0016466      0.9740101     -0.4700583      0.2253993     -0.0827492      0.0194272";
"  3S       24.294310     -0.0009236      0.2843564     -0.3799401      0.1903026     -0.0742903      0.0158226";
"  3S       13.933326      0.0007609      0.0266942      0.4918863      0.1358413     -0.0825567      0.0253313";
"  3S       11.953711     -0.0006588     -0.0151287      0.7577563     -1.1867227      0.5211043     -0.1272332";
"  3S        5.980958      0.0002115      0.0018900      0.0371581      1.1149583     -0.4306240      0.1068061";
"  3S        4.692356     -0.0001554     -0.0013985     -0.0170224      0.2712921     -0.4760294      0.1109156";
"  3S        2.500713      0.0000453      0.0003806      0.0030623      0.0032891      0.7797928     -0.1899775";
"  3S        1.798027     -0.0000218     -0.0001726     -0.0013938      0.0004197      0.5114934     -0.1956432";
"  3S        0.588383      0.0000036      0.0000280      0.0002044     -0.0000297      0.0007642      1.0078373";
"  3S        0.390475     -0.0000021     -0.0000164     -0.0001189      0.0000144      0.0000802      0.0502065";
"        P                    2P             3P             4P             5P ";
"  BASIS/ORB.ENERGY     -186.3161619    -37.5959207     -6.7685193     -0.6834638";
"  2P       45.866789      0.0210501     -0.0073758      0.0037098     -0.0015482";
"  2P       27.025862      0.8198700     -0.3941551      0.1755499     -0.0576959";
"  3P       23.215568      0.1878594     -0.3249796      0.2250350     -0.0958059";
"  4P       18.118816      0.0093039     -0.3910175      0.3933548     -0.1917067";
"  3P       14.399860     -0.0058215      1.3221003     -0.9500830      0.4178221";
"  3P       10.231415      0.0008863      0.3695076     -0.4769754      0.1571339";
"  3P        5.932205     -0.0003720      0.0035781      1.0868046     -0.4645357";
"  4P        4.962671      0.0000783      0.0003709      0.2793788     -0.2648592";
"  3P        2.159681     -0.0000195     -0.0001195      0.0095076      0.7363377";
"  3P        1.445617      0.0000078      0.0000376     -0.0019457      0.4728437";
"        D                    3D             4D ";
"  BASIS/ORB.ENERGY      -28.2262125     -3.3795287";
"  3D       32.852137      0.0074132     -0.0025615";
"  3D       18.354403      0.4361883     -0.1930536";
"  4D       14.523221      0.4775524     -0.2057559";
"  4D       10.312620      0.1684697     -0.1179374";
"  4D        7.919345      0.0012654      0.4341816";
"  4D        5.157647      0.0011730      0.6417053";
"  4D        3.330606     -0.0002517      0.1309576"].
(** bfit/data/neutral/dy.slater:1-54 *)
Definition dy_neutral : list string := [
"      DYSPROSIUM   [XE]6S(2)5D(0)4F(10), 5I                                           ";
"      CHARGE = 66.000000";
"      SYMMETRY SPECIES               S     P     D     F ";
"      NUMBER OF BASIS FUNCTIONS     13    10     7     6";
"      NUMBER OF CLOSED SHELLS        6     4     2     0";
"      NUMBER OF OPEN SHELLS          0     0     0     1";
"      OPEN SHELL OCCUPATION NUMBER   0     0     0    10";
"   E =-11641.452434124";
"   T = 11641.452478555     V =-23282.904912679     V/T =    -1.999999996";
"  ORBITAL ENERGIES AND EXPANSION COEFFICIENTS";
"        S                    1S             2S             3S             4S             5S             6S ";
"  BASIS/ORB.ENERGY    -1862.5443301   -302.8642404    -68.7556452    -14.1667643     -1.9414017     -0.1761101";
"  1S       84.058350      0.0456124      0.0138031     -0.0051222      0.0009207     -0.0007742      0.0000434";
"  1S       64.905516      0.9496808     -0.3554674      0.1628540     -0.0757814      0.0290014     -0.0069760";
"  2S       53.852289      0.0065964     -0.2440576      0.1258387     -0.0646217      0.0234188     -0.0061130";
"  2S       31.254498      0.0019682      1.0763439     -0.5428898      0.2706353     -0.1000013      0.0253974";
"  3S       28.652782     -0.0013408      0.1804221     -0.3929768      0.2048257     -0.0815748      0.0192024";
"  3S       18.158666      0.0011406      0.0159297      0.3862794      0.2174741     -0.1164825      0.0346744";
"  3S       15.320686     -0.0008745     -0.0074477      0.9245936     -1.3728822      0.6039473     -0.1580676";
"  3S        7.950956      0.0002767      0.0007724      0.0431967      0.9482582     -0.3328408      0.0875092";
"  3S        6.399325     -0.0001893     -0.0005872     -0.0183353      0.4800065     -0.5720507      0.1512232";
"  3S        3.084138      0.0000450      0.0001371      0.0024917      0.0078998      0.8671143     -0.2273023";
"  3S        2.248827     -0.0000266     -0.0000745     -0.0014010     -0.0017609      0.3940960     -0.2162505";
"  3S        0.909579      0.0000069      0.0000188      0.0003255      0.0003075     -0.0017677      0.6464777";
"  3S        0.645319     -0.0000039     -0.0000106     -0.0001816     -0.0001606      0.0009200      0.4559743";
"        P                    2P             3P             4P             5P ";
"  BASIS/ORB.ENERGY     -288.1150444    -62.0833081    -11.4513485     -1.1295075";
"  2P       59.112075     -0.0104042     -0.0036024      0.0021261     -0.0008202";
"  2P       34.352966     -0.7565815     -0.3751913      0.1750186     -0.0585701";
"  3P       30.233389     -0.2607540     -0.2694833      0.1867129     -0.0694616";
"  4P       23.326779     -0.0214832     -0.1283118      0.2316143     -0.0976878";
"  3P       17.106021      0.0138536      1.1055833     -0.9162493      0.3520368";
"  3P       12.284446     -0.0035127      0.2464471     -0.4015155      0.1541107";
"  3P        7.875620      0.0010424     -0.0022252      1.1447599     -0.5132046";
"  4P        6.482252     -0.0002533      0.0015820      0.3002177     -0.2526782";
"  3P        2.749806      0.0000528     -0.0002079      0.0086526      0.7902752";
"  3P        1.839803     -0.0000212      0.0000770     -0.0019415      0.4098413";
"        D                    3D             4D ";
"  BASIS/ORB.ENERGY      -49.8142164     -6.5807502";
"  3D       41.304364      0.0047386     -0.0016462";
"  3D       23.145620      0.4338284     -0.2087639";
"  4D       18.693305      0.4838213     -0.2407385";
"  4D       13.360685      0.1597852     -0.1008913";
"  4D       10.318990     -0.0004311      0.4844709";
"  4D        6.838979      0.0019629      0.6180159";
"  4D        4.431722      0.0000036      0.1070867";
"        F                    4F ";
"  BASIS/ORB.ENERGY       -0.7031937";
"  4F       20.228223      0.0212461";
"  4F       11.715340      0.2033083";
"  4F        7.580714      0.3708166";
"  4F        4.847854      0.3668227";
"  4F        2.987440      0.2073854";
"  4F        1.843671      0.0494468"].
(** bfit/data/neutral/h.slater:1-8 *)
Definition h_neutral : list string := [
"      HYDROGEN   1S(1), 1S";
"   E =    -0.500000000";
"   T =     0.500000000     V =    -1.000000000     V/T =    -2.000000000";
"  ORBITAL ENERGIES AND EXPANSION COEFFICIENTS";
"        S                    1S";
"  BASIS/ORB.ENERGY       -0.5000000";
"              CUSP        1.0000000";
"  1S        1.00000       1.0000000"].
(** bfit/data/neutral/he.slater:1-12 *)
Definition he_neutral : list string := [
"      HELIUM   1S(2), 1S                                                              ";
"   E =    -2.861679996";
"   T =     2.861679997     V =    -5.723359992     V/T =    -2.000000000";
"  ORBITAL ENERGIES AND EXPANSION COEFFICIENTS";
"        S                    1S ";
"  BASIS/ORB.ENERGY       -0.9179556";
"              CUSP        1.0000525";
"  2S        6.437494      0.0008103";
"  1S        3.384356      0.0798826";
"  1S        2.177906      0.1801610";
"  1S        1.455077      0.7407925";
"  2S        1.354958      0.0272015"].
(** bfit/data/neutral/i.slater:1-52 *)
Definition i_neutral : list string := [
"      IODINE   K(2)L(8)M(18)4S(2)4P(6)5S(2)4D(10)5P(5), 2P                            ";
"   E = -6917.980888325";
"   T =  6917.980898267     V =-13835.961786593     V/T =    -1.999999999";
"  ORBITAL ENERGIES AND EXPANSION COEFFICIENTS";
"        S                    1S             2S             3S             4S             5S ";
"  BASIS/ORB.ENERGY    -1177.1862929   -180.9492143    -37.9344629     -7.2443588     -0.8211154";
"              CUSP        1.0002349      1.0000153      1.0003255      1.0005513      0.9996646";
"  1S       90.775507      0.0210910     -0.0436467      0.0193995      0.0082873     -0.0028487";
"  3S       67.802436     -0.0235692      0.0433924     -0.0198191     -0.0086432      0.0028272";
"  1S       55.080861     -0.9790037      0.3957606     -0.1762111     -0.0784868      0.0267557";
"  4S       39.986811      0.0303279     -0.1135201      0.0386087      0.0108011     -0.0052902";
"  3S       23.497728      0.0794190     -0.0341450      0.2259894      0.1177502     -0.0327946";
"  4S       23.479689      0.0074855      0.1489421     -0.2644256     -0.2074903      0.0701377";
"  2S       19.940176     -0.1355617     -1.0627837      0.4732098      0.1630886     -0.0531779";
"  4S       15.302284      0.0014779      0.0002187     -0.7815536     -0.6407296      0.2479146";
"  4S       11.327208     -0.0005014     -0.0003227     -0.2920549     -0.6592307      0.2646822";
"  2S        4.191130      0.0004004      0.0007952     -0.0130934      1.9855630     -0.4921759";
"  3S        2.668132      0.0005376      0.0007992     -0.0072692      0.5181791      1.1406449";
"  2S        2.302372     -0.0007565     -0.0011659      0.0115033     -0.7992448     -1.5440675";
"  2S        1.436633     -0.0000101     -0.0000038     -0.0002506      0.0179623      1.2088763";
"  2S        0.897975      0.0000046      0.0000036      0.0000380     -0.0015257      0.0294759";
"        P                    2P             3P             4P             5P ";
"  BASIS/ORB.ENERGY     -169.6603413    -33.1223069     -5.4733562     -0.4031799";
"              CUSP        1.0008014      1.0009610      1.0002136      0.9996176";
"  2P       65.960053      0.0140379      0.0235585     -0.0185441      0.0065216";
"  3P       58.378207      0.0161272      0.0264122     -0.0205994      0.0072266";
"  3P       38.587026      0.0932236      0.1255009     -0.0973088      0.0341602";
"  2P       27.259158     -0.9261995     -0.5899244      0.3299415     -0.1049812";
"  3P       22.203480     -0.2227614     -0.1360554      0.0185145      0.0039554";
"  3P       12.897653      0.0061060      0.4668668      0.2243914     -0.1161332";
"  3P       11.549105     -0.0098136      0.5427630     -1.0172720      0.4048012";
"  3P        5.203779     -0.0071616     -0.2971175      0.9310447     -0.1112487";
"  2P        4.277522      0.0104386      0.4925415     -0.2390633      0.2763217";
"  2P        3.458100     -0.0008598     -0.0721425      0.5531025     -0.9278147";
"  2P        1.408252     -0.0001304      0.0021008      0.0035396      0.6651689";
"  2P        0.963088      0.0003745     -0.0041354      0.0009474      0.7272596";
"  2P        0.897975     -0.0002868      0.0029821     -0.0003325     -0.1331586";
"        D                    3D             4D ";
"  BASIS/ORB.ENERGY      -24.2856885     -2.4012044";
"              CUSP        0.9993134      1.0009349";
"  3D       58.400845      0.0007323     -0.0004544";
"  4D       45.117174      0.0034936     -0.0022398";
"  3D       24.132009     -0.0294994      0.0330601";
"  3D       20.588554      0.1804500     -0.1129370";
"  3D       12.624386      0.5807380     -0.0728984";
"  3D       10.217388      0.1086146     -0.5296807";
"  3D        8.680013      0.2060658      0.2335904";
"  3D        4.627159      0.0026186      0.7203740";
"  3D        3.093797     -0.0005043      0.3707250";
"  3D        1.795536      0.0000452      0.0165929";
"  3D        0.897975     -0.0000121     -0.0001881";
" "].
(** bfit/data/neutral/k.slater:1-32 *)
Definition k_neutral : list string := [
"      POTASSIUM   K(2)L(8)3S(2)3P(6)4S(1), 2S                                         ";
"   E =  -599.164786322";
"   T =   599.164786943     V = -1198.329573264     V/T =    -1.999999999";
"  ORBITAL ENERGIES AND EXPANSION COEFFICIENTS";
"        S                    1S             2S             3S             4S ";
"  BASIS/ORB.ENERGY     -133.5330493    -14.4899575     -1.7487797     -0.1474751";
"              CUSP        1.0003111      0.9994803      1.0005849      1.0001341";
"  1S       48.538420     -0.0021779      0.0018667     -0.0004251      0.0001342";
"  3S       27.178567      0.0160836     -0.0102939      0.0025019     -0.0007921";
"  1S       20.222095      0.8188097     -0.1600968      0.0524504     -0.0103128";
"  3S       13.592814     -0.0820494      0.0858637     -0.0473839      0.0069127";
"  2S        7.647812     -0.2158247      1.0427023     -0.0769891      0.0276908";
"  2S        6.078224     -0.0516150      0.4336528     -0.6445475      0.0821168";
"  1S        6.077278      0.4738586     -0.6297128      0.2904986     -0.1213107";
"  1S        3.343549      0.0002719      0.0197017     -0.9094076      0.7609340";
"  2S        2.301557      0.0022252     -0.0061072      0.1553851      0.5911440";
"  1S        1.828604     -0.0034121      0.0119124      1.7112623     -1.2959807";
"  2S        0.555573     -0.0000294      0.0000855      0.0002823      1.4608731";
"  1S        0.543093      0.0000659     -0.0002013      0.0009316     -0.5367940";
"        P                    2P             3P ";
"  BASIS/ORB.ENERGY      -11.5192795     -0.9544227";
"              CUSP        1.0007902      0.9998975";
"  2P       45.863372      0.0000979      0.0000354";
"  3P       23.956536      0.0031928      0.0011040";
"  2P       13.445654     -0.0866450     -0.0153622";
"  3P        9.280990      0.0491453      0.0620133";
"  2P        7.576272     -0.6660660     -0.1765320";
"  2P        5.560868     -0.3268554     -0.3537264";
"  3P        2.249040      0.0071913     -0.3401560";
"  2P        1.893851     -0.0110148      1.3735350";
"  2P        1.290943      0.0005219      0.1055549";
"  2P        0.543093     -0.0000095      0.0010773"].
(** bfit/data/neutral/li.slater:1-16 *)
Definition li_neutral : list string := [
"      LITHIUM   1S(2)2S(1), 2S                                                        ";
"   E =    -7.432726929";
"   T =     7.432726945     V =   -14.865453874     V/T =    -1.999999998";
"  ORBITAL ENERGIES AND EXPANSION COEFFICIENTS";
"        S                    1S             2S ";
"  BASIS/ORB.ENERGY       -2.4777413     -0.1963228";
"              CUSP        1.0001519      0.9991836";
"  1S       10.335672      0.0014270      0.0002728";
"  1S        5.553473     -0.0514718     -0.0059858";
"  1S        3.453336     -0.1471640     -0.0400549";
"  1S        2.416445     -0.8105589     -0.0273618";
"  1S        1.555772     -0.0077788     -0.1448297";
"  1S        0.889955      0.0004098     -0.6053390";
"  2S        0.637402     -0.0005029      0.5955827";
"  1S        0.626614     -0.0002691      0.9979831";
""].
(** bfit/data/neutral/lr.slater:1-64 *)
Definition lr_neutral : list string := [
"      LAWRENCIUM   [RN]7S(2)6D(1)5F(14), 2D                                           ";
"      CHARGE =103.000000";
"      SYMMETRY SPECIES               S     P     D     F ";
"      NUMBER OF BASIS FUNCTIONS     15    12    11     8";
"      NUMBER OF CLOSED SHELLS        7     5     3     2";
"      NUMBER OF OPEN SHELLS          0     0     1     0";
"      OPEN SHELL OCCUPATION NUMBER   0     0     1     0";
"   E =-33557.950142251";
"   T = 33557.949960623     V =-67115.900102873     V/T =    -2.000000005";
"  ORBITAL ENERGIES AND EXPANSION COEFFICIENTS";
"        S                    1S             2S             3S             4S             5S             6S             7S ";
"  BASIS/ORB.ENERGY    -4695.8045441   -840.3630605   -222.5488222    -60.9427308    -14.1998570     -2.0646588     -0.1832377";
"  1S      117.771093      0.1348898      0.0386739     -0.0116102      0.0067641     -0.0059878      0.0021713     -0.0007261";
"  1S       99.975056      0.8674757     -0.4000069      0.1855575     -0.0994586      0.0543952     -0.0217451      0.0057628";
"  2S       82.875749     -0.0031070     -0.2570804      0.1459409     -0.0777408      0.0370899     -0.0153193      0.0037124";
"  2S       48.243474      0.0033850      1.2022357     -0.6489694      0.3469098     -0.1728307      0.0706144     -0.0176339";
"  3S       43.330365     -0.0029283      0.0787866     -0.5413372      0.3668161     -0.2185473      0.0889938     -0.0237240";
"  3S       30.477612      0.0030151      0.0002957      0.9342089     -0.2923192      0.1843332     -0.0706244      0.0213537";
"  3S       23.820947     -0.0025812      0.0002277      0.6161169     -1.4253890      0.7324444     -0.3028118      0.0714531";
"  4S       14.780478     -0.0010471      0.0002397      0.0085853      0.3185945     -1.1899105      0.6408249     -0.1774753";
"  3S       14.778913      0.0016856     -0.0005650     -0.0132723      1.4141869     -0.6330201      0.2439122     -0.0539507";
"  3S        7.443722      0.0003473      0.0000087     -0.0028491      0.0470987      1.3241385     -0.5925339      0.1633854";
"  3S        6.074548     -0.0002277      0.0000031      0.0015789     -0.0177322      0.4101951     -0.6784602      0.1864779";
"  3S        3.060811      0.0000466     -0.0000024     -0.0002637      0.0016398      0.0076581      0.9964463     -0.2655008";
"  3S        2.252852     -0.0000257      0.0000008      0.0001492     -0.0008496     -0.0015942      0.3545830     -0.2435578";
"  3S        0.959509      0.0000059     -0.0000002     -0.0000334      0.0001586      0.0002631     -0.0015066      0.6093922";
"  3S        0.673296     -0.0000031      0.0000001      0.0000174     -0.0000804     -0.0001271      0.0008019      0.5119167";
"        P                    2P             3P             4P             5P             6P ";
"  BASIS/ORB.ENERGY     -815.3378974   -210.0138679    -54.8568748    -11.6025092     -1.2473017";
"  2P       96.977915     -0.0048363     -0.0016365      0.0006210     -0.0001334      0.0001041";
"  2P       55.479157     -0.7439488     -0.3900410      0.2090696     -0.1057760      0.0388524";
"  3P       50.301898     -0.2543870     -0.2428064      0.1350043     -0.0637880      0.0247498";
"  3P       36.356365     -0.0369891      0.3124593     -0.1499656      0.0785966     -0.0297935";
"  4P       32.536565      0.0114069      0.6151048     -0.4509261      0.2962703     -0.1056906";
"  4P       18.618274      0.0062664     -0.1939711      0.7627512      0.0156985     -0.0161317";
"  3P       18.581159     -0.0080960      0.4505473     -1.0376225      0.8097177     -0.3551127";
"  3P       13.274625     -0.0021618      0.0344038      1.1804192     -2.0755484      0.9105262";
"  3P        7.476445      0.0003528     -0.0043654      0.0325246      0.9507808     -0.3524130";
"  3P        5.884212     -0.0001784      0.0018115     -0.0081793      0.6938595     -0.6481636";
"  3P        2.671872      0.0000202     -0.0001781      0.0005600      0.0090117      0.9437933";
"  3P        1.800258     -0.0000083      0.0000716     -0.0002172     -0.0020286      0.3091315";
"        D                    3D             4D             5D             6D ";
"  BASIS/ORB.ENERGY     -186.8786623    -43.5372223     -6.9518036     -0.2673657";
"  3D       68.265620      0.0017317     -0.0006377      0.0003642      0.0000105";
"  3D       39.089308      0.4240510     -0.2464425      0.1171675     -0.0283120";
"  4D       32.844237      0.4821228     -0.3230955      0.1642205     -0.0369711";
"  4D       23.518016      0.1753365     -0.0388393     -0.0068375     -0.0066248";
"  4D       17.207131     -0.0207393      0.6560846     -0.3096726      0.0978925";
"  4D       13.500854      0.0091584      0.4724791     -0.5811809      0.1248874";
"  4D        9.062463     -0.0020913      0.0348190      0.6256242     -0.1525585";
"  4D        6.166057      0.0005398     -0.0031956      0.6954557     -0.2708227";
"  4D        3.792907     -0.0001604      0.0008569      0.0573222      0.1633800";
"  4D        2.132066      0.0000443     -0.0002200     -0.0019167      0.6169521";
"  4D        1.176556     -0.0000124      0.0000587      0.0005140      0.4173943";
"        F                    4F             5F ";
"  BASIS/ORB.ENERGY      -27.6838105     -1.2482544";
"  4F       37.777105      0.0130702     -0.0046956";
"  4F       23.538779      0.2440759     -0.1055999";
"  4F       15.418134      0.6116460     -0.2368733";
"  5F       10.187920     -0.0552991      0.2697973";
"  4F       10.098580      0.2566905     -0.1373575";
"  4F        5.745369      0.0029239      0.5825077";
"  4F        3.590150     -0.0004300      0.3335069";
"  4F        2.284609      0.0000863      0.0659975"].
(** bfit/data/neutral/ne.slater:1-26 *)
Definition ne_neutral : list string := [
"      NEON   1S(2)2S(2)2P(6), 1S";
"   E =  -128.547098079";
"   T =   128.547098140     V =  -257.094196219     V/T =    -2.000000000";
"  ORBITAL ENERGIES AND EXPANSION COEFFICIENTS";
"        S                    1S             2S";
"  BASIS/ORB.ENERGY      -32.7724425     -1.9303907";
"              CUSP        1.0000603      0.9996584";
"  2S       29.214419     -0.0005654     -0.0001682";
"  1S       16.354484     -0.1341233      0.0046073";
"  2S       13.516489     -0.0891954      0.0131200";
"  1S        9.144899     -0.7527202     -0.1044881";
"  1S        6.491668     -0.0417988     -0.4632619";
"  2S        3.574219     -0.0017244      0.1258193";
"  1S        2.016153     -0.0002064      1.0809135";
"  1S        1.304155     -0.0001014      0.0127644";
"        P                    2P";
"  BASIS/ORB.ENERGY       -0.8504095";
"              CUSP        1.0000509";
"  3P       25.731219      0.0000409";
"  2P       10.674843      0.0203038";
"  3P        8.124569      0.0340866";
"  2P        4.295590      0.2801866";
"  2P        2.648660      0.3958489";
"  2P        1.710436      0.3203928";
"  2P        1.304155      0.0510413";
""].
(** bfit/data/neutral/p.slater:1-31 *)
Definition p_neutral : list string := [
"      PHOSPHORUS   K(2)L(8)3S(2)3P(3), 4S                                             ";
"   E =  -340.718780875";
"   T =   340.718780873     V =  -681.437561747     V/T =    -2.000000000";
"  ORBITAL ENERGIES AND EXPANSION COEFFICIENTS";
"        S                    1S             2S             3S ";
"  BASIS/ORB.ENERGY      -79.9697149     -7.5110960     -0.6964161";
"              CUSP        0.9999705      0.9999267      0.9990229";
"  2S       46.439666     -0.0003053     -0.0000832      0.0000516";
"  1S       23.444385     -0.2060038      0.0429022      0.0230913";
"  2S       19.934302     -0.1348631      0.0434537      0.0169021";
"  2S       12.335517      0.1932441      0.0832682      0.0630092";
"  1S       11.479363     -0.8490745     -0.5222080      0.1114601";
"  2S        6.165177     -0.0023024      0.4398440      0.1136681";
"  2S        4.690649      0.0004126      0.6399510     -0.1938357";
"  1S        2.631803     -0.0001709      0.0289095     -1.0898485";
"  1S        1.110511      0.0000788      0.0010930      1.6678177";
"  1S        0.885109     -0.0000352     -0.0000757     -0.0576567";
"        P                    2P             3P ";
"  BASIS/ORB.ENERGY       -5.4009589     -0.3917087";
"              CUSP        1.0008332      0.9993777";
"  2P       37.277335     -0.0000830      0.0000233";
"  3P       18.380101     -0.0037430      0.0009662";
"  2P       10.933923      0.1235617     -0.0317780";
"  3P        9.369244      0.0793192     -0.0258695";
"  2P        5.290342      0.5133664     -0.0918254";
"  3P        3.672062     -0.1399868      0.0001315";
"  2P        3.427525      0.4681291     -0.2476404";
"  2P        1.537478      0.0021171      0.3847957";
"  2P        1.075424     -0.0005972      0.5829971";
"  2P        0.885109      0.0002485      0.1655351";
""].
(** bfit/data/neutral/rn.slater:1-58 *)
Definition rn_neutral : list string := [
"      RADON   [XE]4F(14)6S(2)5D(10)6P(6), 1S                                          ";
"      CHARGE = 86.000000";
"      SYMMETRY SPECIES               S     P     D     F ";
"      NUMBER OF BASIS FUNCTIONS     13    12     9     6";
"      NUMBER OF CLOSED SHELLS        6     5     3     1";
"      NUMBER OF OPEN SHELLS          0     0     0     0";
"      OPEN SHELL OCCUPATION NUMBER   0     0     0     0";
"   E =-21866.772070663";
"   T = 21866.772036482     V =-43733.544107144     V/T =    -2.000000002";
"  ORBITAL ENERGIES AND EXPANSION COEFFICIENTS";
"        S                    1S             2S             3S             4S             5S             6S ";
"  BASIS/ORB.ENERGY    -3230.3128071   -556.9130894   -138.4218513    -33.9207084     -6.9057944      -.8739761";
"  1S      110.161562       .0329517      -.0132734      -.0044568       .0019112      -.0007871       .0000927";
"  1S       85.019704       .9621167       .3575218       .1682829      -.0850950       .0394232      -.0142277";
"  2S       70.796388       .0068459       .2530795       .1350895      -.0703500       .0331817      -.0126558";
"  2S       40.050427       .0012889     -1.1614697      -.6050995       .3129572      -.1469808       .0550904";
"  3S       37.065897      -.0011281      -.0951595      -.4424084       .2675298      -.1230271       .0430876";
"  3S       24.761481       .0011231      -.0122719       .5781020       .1024904      -.2149576       .1033738";
"  3S       20.686346      -.0007716       .0057686       .8318804     -1.4863022      1.1426708      -.4758569";
"  4S       14.330607       .0004377      -.0011489       .0404208      -.0909855       .8500038      -.4082278";
"  3S       10.794813      -.0003925       .0010701      -.0212498      1.6097908     -2.3660702      1.0595089";
"  3S        5.057300       .0000864      -.0002351       .0020892       .0352439      1.3240326      -.5302389";
"  3S        4.066550      -.0000650       .0001625      -.0016019      -.0163650       .1479778      -.4523669";
"  3S        2.209589       .0000137      -.0000312       .0003177       .0019142       .0078868       .7912280";
"  3S        1.500547      -.0000048       .0000112      -.0001052      -.0006415      -.0008856       .5253702";
"        P                    2P             3P             4P             5P             6P ";
"  BASIS/ORB.ENERGY     -536.6769548   -128.6715400    -29.4911484     -5.2251877      -.4279881";
"  2P       80.413094      -.0060839      -.0018905       .0006080      -.0001628       .0000892";
"  2P       45.595893      -.7571905      -.3898567       .1988549      -.0891800       .0287190";
"  3P       40.661311      -.2541249      -.2490845       .1336683      -.0582923       .0195278";
"  3P       24.299025      -.0293931       .7684302      -.4647665       .2226259      -.0727009";
"  4P       24.298213       .0190970       .2948713      -.3566654       .2168487      -.0669716";
"  4P       13.697119       .0074416      -.1090586       .5929499      -.0484333       .0284913";
"  3P       13.696884      -.0097954       .2464512      -.2976463       .2237719      -.0953641";
"  3P        9.640567      -.0024121       .0185618       .8663973     -1.2638682       .4509851";
"  3P        4.991556       .0003923      -.0020462       .0182063       .9945500      -.3030347";
"  3P        3.885248      -.0002254       .0009345      -.0057488       .4358856      -.4464629";
"  3P        1.877545       .0000328      -.0001130       .0004838       .0080774       .6989789";
"  3P        1.190797      -.0000118       .0000390      -.0001703      -.0010911       .5241515";
"        D                    3D             4D             5D ";
"  BASIS/ORB.ENERGY     -110.7013222    -21.3312892     -2.3262971";
"  3D       52.058235       .0048754      -.0019690       .0008485";
"  3D       30.769357       .4690494      -.2544344       .1008496";
"  4D       25.372633       .4931618      -.3030732       .1277505";
"  4D       16.878426       .1307111       .1072420      -.0804229";
"  4D       12.915741      -.0360688       .5705827      -.2166253";
"  4D        9.793952       .0125107       .4463191      -.3757659";
"  4D        6.388020      -.0025997       .0308617       .4139341";
"  4D        4.266585       .0007947      -.0029764       .7097149";
"  4D        2.711132      -.0001606       .0003347       .1298232";
"        F                    4F ";
"  BASIS/ORB.ENERGY      -10.1076184";
"  4F       29.091519       .0196357";
"  4F       17.792862       .2541992";
"  4F       11.693545       .4806186";
"  5F        7.686730      -.2542278";
"  4F        7.106004       .5847619";
"  4F        4.841159       .0099519"].
(** bfit/data/neutral/xe.slater:1-52 *)
Definition xe_neutral : list string := [
"      XENON   K(2)L(8)M(18)4S(2)4P(6)5S(2)4D(10)5P(6), 1S                             ";
"   E = -7232.138355835";
"   T =  7232.138367196     V =-14464.276723031     V/T =    -1.999999998";
"  ORBITAL ENERGIES AND EXPANSION COEFFICIENTS";
"        S                    1S             2S             3S             4S             5S ";
"  BASIS/ORB.ENERGY    -1224.3977738   -189.3401152    -40.1756603     -7.8563003     -0.9444127";
"              CUSP        1.0002286      1.0000408      1.0003451      1.0005828      0.9999155";
"  1S       91.946915      0.0218562     -0.0447262      0.0197549      0.0084225     -0.0029840";
"  3S       68.927732     -0.0236198      0.0431666     -0.0196116     -0.0085599      0.0029145";
"  1S       56.137679     -0.9799102      0.3974697     -0.1772367     -0.0796025      0.0280330";
"  4S       40.832514      0.0295929     -0.1107640      0.0360085      0.0087589     -0.0043887";
"  3S       24.369639      0.0726198     -0.0713156      0.2475037      0.1357616     -0.0415904";
"  4S       24.363016      0.0092328      0.1367843     -0.2446984     -0.2007813      0.0715999";
"  2S       20.633849     -0.1298499     -1.0203499      0.4503823      0.1534278     -0.0513284";
"  4S       15.760476      0.0012985     -0.0003519     -0.7781326     -0.6404184      0.2555913";
"  4S       11.686818     -0.0004369     -0.0002241     -0.3061714     -0.6740854      0.2829829";
"  2S        4.107994      0.0002222      0.0005977     -0.0127129      2.0103783     -0.9792225";
"  4S        3.311303      0.0002835      0.0005394     -0.0069935      0.6542573      0.4336087";
"  3S        2.975274     -0.0003757     -0.0007547      0.0106976     -0.9936253     -0.4596436";
"  2S        1.535005     -0.0000155     -0.0000196     -0.0000776      0.0135100      1.2135395";
"  2S        0.956336      0.0000042      0.0000048      0.0000216     -0.0012218      0.0296198";
"        P                    2P             3P             4P             5P ";
"  BASIS/ORB.ENERGY     -177.7824424    -35.2216594     -6.0083372     -0.4572897";
"              CUSP        1.0009047      1.0009980      1.0001646      0.9996993";
"  2P       66.836641      0.0155163      0.0240227     -0.0197939      0.0072922";
"  3P       59.325786      0.0173178      0.0261933     -0.0213671      0.0078545";
"  3P       39.440533      0.0971647      0.1238201     -0.1005815      0.0369923";
"  2P       27.876421     -0.9311701     -0.5896106      0.3430395     -0.1142460";
"  3P       22.662415     -0.2248277     -0.1438403      0.0231298      0.0035536";
"  3P       13.533766      0.0118617      0.1837060      0.4811889     -0.2210272";
"  3P       12.290050     -0.0150066      0.8031539     -1.2011318      0.4958651";
"  3P        5.472844     -0.0081732     -0.3429838      1.1717591     -0.1864295";
"  2P        4.492251      0.0121570      0.5925902     -0.7564621      0.5966567";
"  2P        3.729958     -0.0012015     -0.1038175      0.7677233     -1.2028480";
"  2P        1.571562     -0.0001702      0.0022938      0.0029732      0.5911428";
"  2P        1.115472      0.0002467     -0.0022069      0.0001652      0.5878277";
"  2P        0.956336     -0.0001343      0.0010511     -0.0002639      0.1111431";
"        D                    3D             4D ";
"  BASIS/ORB.ENERGY      -26.1188668     -2.7778799";
"              CUSP        0.9997529      1.0005315";
"  3D       59.845045      0.0008744     -0.0006386";
"  4D       46.464727      0.0040913     -0.0030974";
"  3D       25.986788     -0.0470460      0.0445101";
"  3D       22.364559      0.1677120     -0.1106186";
"  3D       13.517132      0.5130135     -0.0924762";
"  3D       10.630383      0.2378125     -0.4855794";
"  3D        8.943390      0.1716405      0.1699923";
"  3D        4.862982      0.0045670      0.7240230";
"  3D        3.343632     -0.0014159      0.3718553";
"  3D        2.100705      0.0002479      0.0251152";
"  3D        0.956336     -0.0000382      0.0001040";
" "].
(** bfit/data/cation/c.cat:1-31 *)
Definition c_cation : list string := [
"      CARBON+   1S(2)2S(2)2P(1), 2P                                                   ";
"";
"";
"";
"";
"   E =   -37.292223770";
"   T =    37.292223758     V =   -74.584447528     V/T =    -2.000000000";
"";
"  ORBITAL ENERGIES AND EXPANSION COEFFICIENTS";
"        S                    1S             2S ";
"  BASIS/ORB.ENERGY      -11.8982615     -1.1537787";
"              CUSP        0.9999442      0.9997385";
"  1S       22.454541     -0.0005984      0.0001428";
"  1S        9.614463      0.1852569      0.0086694";
"  2S        7.721450      0.1243627      0.0286310";
"  1S        5.166228      0.7131840     -0.1798031";
"  1S        3.178746      0.0023454     -0.7995511";
"  2S        2.397569      0.0009096     -0.3147955";
"  1S        1.425365     -0.0001368      1.8811429";
"  2S        1.345184      0.0000628     -0.0340893";
"        P                    2P ";
"  BASIS/ORB.ENERGY       -0.9047596";
"              CUSP        0.9991734";
"  3P       14.444276      0.0000857";
"  2P        6.956407      0.0092705";
"  2P        4.615855     -0.0120655";
"  2P        3.483233      0.0790120";
"  2P        2.220195      0.2559441";
"  2P        1.498940      0.6807658";
"  3P        1.345184      0.0323882";
""].
(** bfit/data/cation/cs.cat:1-56 *)
Definition cs_cation : list string := [
"      CESIUM+   K(2)L(8)M(18)4S(2)4P(6)5S(2)4D(10)5P(6), 1S                           ";
"";
"";
"";
"   E = -7553.810323574";
"   T =  7553.810329869     V =-15107.620653443     V/T =    -1.999999999";
"";
"  ORBITAL ENERGIES AND EXPANSION COEFFICIENTS";
"        S                    1S             2S             3S             4S             5S ";
"  BASIS/ORB.ENERGY    -1272.9467262   -198.3214933    -42.8705864     -8.8725658     -1.4064401";
"              CUSP        1.0002156      1.0000507      1.0001706      1.0003830      1.0003582";
"  1S       98.760139      0.0127353      0.0210118     -0.0106856      0.0055711     -0.0021201";
"  3S       71.824236     -0.0176875     -0.0256382      0.0133728     -0.0071571      0.0027273";
"  1S       57.130662     -0.9643319     -0.3522735      0.1609797     -0.0756851      0.0282372";
"  4S       31.411644     -0.1117595     -0.3727260      0.1248807     -0.0210519      0.0041219";
"  2S       28.748821     -0.1237700      0.2029496     -0.1731432      0.2312167     -0.1084769";
"  3S       27.667844      0.2209796      1.1470456     -0.6767602      0.4029282     -0.1641440";
"  2S       16.313940     -0.0321712      0.0966066      0.1738886     -1.0778497      0.5572977";
"  4S       16.020450      0.0046796     -0.0055871      0.6608274     -0.9007986      0.4263402";
"  4S       12.359898     -0.0061963      0.0028660      0.2483130     -1.0666519      0.5489866";
"  2S        8.751007      0.0087384     -0.0040269      0.1811678      1.8929460     -1.0472196";
"  4S        6.827559     -0.0003724     -0.0000648      0.0029887      0.7467415     -0.2238858";
"  3S        4.670227      0.0001595      0.0000061      0.0001595      0.3311710     -0.8046702";
"  2S        1.743863     -0.0000140      0.0000084     -0.0001856      0.0024973      1.4473516";
"  3S        1.310537      0.0000039     -0.0000007      0.0000210     -0.0000358      0.0099417";
"        P                    2P             3P             4P             5P ";
"  BASIS/ORB.ENERGY     -186.4940221    -37.7736975     -6.9459925     -0.8587533";
"              CUSP        1.0002597      0.9999972      1.0000865      1.0008178";
"  2P       89.587844     -0.0019651      0.0015983     -0.0005714      0.0001344";
"  4P       60.762602      0.0117891     -0.0098880      0.0035758     -0.0008716";
"  2P       44.632235      0.2684349     -0.1653215      0.0593224     -0.0147578";
"  4P       32.717276     -0.3530912      0.1725410     -0.0659873      0.0187958";
"  3P       28.914700      1.0968942     -0.8177270      0.2345462     -0.0349235";
"  4P       22.760208      0.0615528     -0.2615864     -0.1014696      0.0977127";
"  4P       14.746605      0.0140965     -0.0517109     -0.5028797      0.3047860";
"  4P       11.067846      0.0078162     -0.2759307     -0.1767917      0.0919619";
"  2P        9.339325     -0.0320333      1.7888014     -0.1007483     -0.2203229";
"  3P        5.716234      0.0000228      0.0008140      1.0180497     -0.3582361";
"  3P        4.236659     -0.0000508      0.0007020      0.2967616     -0.5463788";
"  2P        1.497491      0.0000081     -0.0001295      0.0043581      1.2368035";
"  3P        1.310537     -0.0000033      0.0000448     -0.0010177      0.0902897";
"        D                    3D             4D ";
"  BASIS/ORB.ENERGY      -28.4040078     -3.5568926";
"              CUSP        1.0009045      1.0001958";
"  3D       62.237359      0.0016275     -0.0003861";
"  4D       49.445122      0.0065757     -0.0015589";
"  4D       29.983739      0.0275788     -0.0042058";
"  3D       17.544157      0.4399587     -0.2291863";
"  4D       15.225789      0.1679309      0.0584164";
"  4D       13.771764      0.2940341     -0.3433722";
"  4D       10.241594      0.1512742     -0.0197732";
"  3D        5.162639      0.0034013      0.7327068";
"  3D        3.558811     -0.0006479      0.3992681";
"  3D        2.159440      0.0000369      0.0190564";
"  3D        1.310537     -0.0000126     -0.0003744";
""].
(** bfit/data/cation/xe.cat:1-57 *)
Definition xe_cation : list string := [
"      XENON+   K(2)L(8)M(18)4S(2)4P(6)5S(2)4D(10)5P(5), 2P                            ";
"";
"";
"";
"";
"   E = -7231.708943297";
"   T =  7231.708943551     V =-14463.417886848     V/T =    -2.000000000";
"";
"  ORBITAL ENERGIES AND EXPANSION COEFFICIENTS";
"        S                    1S             2S             3S             4S             5S ";
"  BASIS/ORB.ENERGY    -1224.7702760   -189.7110493    -40.5455571     -8.2240900     -1.2623967";
"              CUSP        1.0002218      1.0000508      1.0002064      1.0003953      1.0003127";
"  1S       96.682543      0.0126532     -0.0213817     -0.0109730      0.0056051     -0.0020535";
"  3S       70.320264     -0.0176855      0.0260472      0.0137602     -0.0071947      0.0026288";
"  1S       56.053992     -0.9648509      0.3528331      0.1609881     -0.0747928      0.0271416";
"  4S       30.819044     -0.1080964      0.3625977      0.1129762     -0.0184832      0.0043997";
"  2S       27.896891     -0.1237666     -0.2038968     -0.1986052      0.2170416     -0.0943675";
"  3S       27.187458      0.2191640     -1.1124099     -0.6609987      0.3704348     -0.1442425";
"  2S       17.015134     -0.0291937     -0.1160976      0.2286864     -0.6845144      0.3261800";
"  4S       15.761583      0.0038790      0.0027316      0.6978861     -0.7190801      0.3138709";
"  4S       12.040613     -0.0030610     -0.0012926      0.3034908     -0.8713257      0.4208134";
"  2S        7.628932      0.0029144      0.0014344      0.0704479      1.2973237     -0.6884700";
"  4S        6.464973     -0.0003060      0.0000546      0.0024904      0.7208448     -0.2293710";
"  3S        4.402103      0.0001279     -0.0000053      0.0000278      0.2740348     -0.7149991";
"  2S        1.646969     -0.0000121     -0.0000060     -0.0001218      0.0015422      1.4243813";
"  3S        1.254007      0.0000034      0.0000004      0.0000104      0.0000622      0.0090254";
"        P                    2P             3P             4P             5P ";
"  BASIS/ORB.ENERGY     -178.1532899    -35.5910383     -6.3748703     -0.7862673";
"              CUSP        1.0003813      1.0000061      1.0000035      1.0009648";
"  2P       87.268559     -0.0015768      0.0010383     -0.0005352      0.0001854";
"  4P       57.922849      0.0114263     -0.0076763      0.0040096     -0.0014363";
"  2P       41.459675      0.3040360     -0.1475957      0.0645506     -0.0194213";
"  4P       30.207139     -0.4202753      0.1601248     -0.0505977      0.0086318";
"  3P       27.027404      1.1166534     -0.5320307      0.2123642     -0.0509451";
"  4P       24.765204      0.0423291      0.1023852     -0.0934019      0.0491978";
"  4P       16.375537      0.0087824      0.4948319     -0.2845034      0.1254133";
"  4P       12.587933     -0.0042942      0.3326330     -0.4398413      0.2007194";
"  2P        7.994901      0.0034830      0.2244378     -0.0211723     -0.1166694";
"  3P        5.413937     -0.0004912      0.0010840      1.0233518     -0.3607355";
"  3P        3.952699      0.0001333      0.0004837      0.2442545     -0.4907688";
"  2P        1.402672     -0.0000225     -0.0001510      0.0053554      1.2267891";
"  3P        1.254007      0.0000109      0.0000328     -0.0005814      0.0840936";
"        D                    3D             4D ";
"  BASIS/ORB.ENERGY      -26.4886846     -3.1444462";
"              CUSP        1.0000030      0.9999915";
"  3D       59.068381      0.0018662     -0.0004316";
"  4D       47.231482      0.0072043     -0.0016577";
"  4D       28.807652      0.0291854     -0.0041398";
"  3D       17.246487      0.4275860     -0.2183952";
"  4D       14.742147      0.2517949      0.0051908";
"  4D       13.138062      0.2191931     -0.2953384";
"  4D       10.009289      0.1530565     -0.0095762";
"  3D        5.073014      0.0050240      0.6460145";
"  3D        3.545437     -0.0012144      0.4573096";
"  3D        2.343504      0.0001836      0.0431928";
"  3D        1.254007     -0.0000298     -0.0000161";
""].
(** bfit/data/anion/c.an:1-28 *)
Definition c_anion : list string := [
"      CARBON-   1S(2)2S(2)2P(3), 4S                                                   ";
"   E =   -37.708843613";
"   T =    37.708843614     V =   -75.417687227     V/T =    -2.000000000";
"  ORBITAL ENERGIES AND EXPANSION COEFFICIENTS";
"        S                    1S             2S ";
"  BASIS/ORB.ENERGY      -10.9563820     -0.3728268";
"              CUSP        0.9999607      0.9996898";
"  2S       18.920161     -0.0005423     -0.0001251";
"  1S        9.204405     -0.2314477      0.0128461";
"  2S        7.499563     -0.1507135      0.0309079";
"  1S        5.079154     -0.6430904     -0.1919809";
"  1S        3.263494     -0.0022351     -0.3898360";
"  2S        2.347924     -0.0014913      0.0663604";
"  1S        1.219231     -0.0001203      0.7370742";
"  1S        0.842734     -0.0003117      0.4387447";
"  1S        0.392560      0.0000043      0.0022083";
"        P                    2P ";
"  BASIS/ORB.ENERGY       -0.0770517";
"              CUSP        1.0000021";
"  3P       14.841621      0.0000477";
"  2P        6.932628      0.0062055";
"  3P        2.773007     -0.0768275";
"  2P        2.199863      0.3788502";
"  2P        1.282317      0.3930492";
"  2P        0.793656      0.3014878";
"  2P        0.523330      0.1173838";
"  2P        0.392560      0.0051184";
""].
(** bfit/data/anion/h.an:1-18 *)
Definition h_anion : list string := [
"      HYDROGEN-   1S(2), 1S                                                           ";
"";
"";
"";
"   E =    -0.487929734";
"   T =     0.487929734     V =    -0.975859469     V/T =    -2.000000000";
"";
"  ORBITAL ENERGIES AND EXPANSION COEFFICIENTS";
"        S                    1S ";
"  BASIS/ORB.ENERGY       -0.0462224";
"              CUSP        0.9999724";
"  2S        3.461036      0.0005803";
"  1S        1.704290      0.0754088";
"  1S        1.047762      0.2438040";
"  1S        0.626983      0.3476471";
"  1S        0.392736      0.3357298";
"  1S        0.304047      0.0741188";
""].

(** The files by directory and lower-case symbol. *)
Definition data_names : list (folder * string * list string) := [
(Neutral, "ag", ag_neutral);
(Neutral, "b", b_neutral);
(Neutral, "be", be_neutral);
(Neutral, "c", c_neutral);
(Neutral, "ce", ce_neutral);
(Neutral, "cl", cl_neutral);
(Neutral, "cr", cr_neutral);
(Neutral, "cs", cs_neutral);
(Neutral, "dy", dy_neutral);
(Neutral, "h", h_neutral);
(Neutral, "he", he_neutral);
(Neutral, "i", i_neutral);
(Neutral, "k", k_neutral);
(Neutral, "li", li_neutral);
(Neutral, "lr", lr_neutral);
(Neutral, "ne", ne_neutral);
(Neutral, "p", p_neutral);
(Neutral, "rn", rn_neutral);
(Neutral, "xe", xe_neutral);
(Cation, "c", c_cation);
(Cation, "cs", cs_cation);
(Cation, "xe", xe_cation);
(Anion, "c", c_anion);
(Anion, "h", h_anion)].
Definition folder_eqb (a b : folder) : bool :=
  match a, b with Neutral, Neutral | Anion, Anion | Cation, Cation => true | _, _ => false end.
Definition data_files (d : folder) (e : string) : option file :=
  match List.find (fun x => folder_eqb (fst (fst x)) d && String.eqb (snd (fst x)) e)%bool data_names with
  | Some x => Some (map str (snd x)) | None => None end.
