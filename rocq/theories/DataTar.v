(** The archive /repo/bfit/data/data.tar of data files, line by line.  Line ends are dropped.  The 24
    files that are also in the folders are identical there and in DataSlater.v; the others are
    here. *)
From Coq Require Import String Ascii List.
From Verif Require Import PyText ModelParse SpecParse DataSlater.
Import ListNotations.
Local Open Scope string_scope.

(** data.tar: neutral/ac.slater:1-62 *)
Definition ac_neutral : list string := [
"      ACTINIUM   [RN]7S(2)6D(1), 2D                                                   ";
"      CHARGE = 89.000000";
"      SYMMETRY SPECIES               S     P     D     F ";
"      NUMBER OF BASIS FUNCTIONS     15    12    11     6";
"      NUMBER OF CLOSED SHELLS        7     5     3     1";
"      NUMBER OF OPEN SHELLS          0     0     1     0";
"      OPEN SHELL OCCUPATION NUMBER   0     0     1     0";
"   E =-23722.191878737";
"   T = 23722.191934245     V =-47444.383812982     V/T =    -1.999999998";
"  ORBITAL ENERGIES AND EXPANSION COEFFICIENTS";
"        S                    1S             2S             3S             4S             5S             6S             7S ";
"  BASIS/ORB.ENERGY    -3469.6264841   -603.4075381   -152.6407512    -39.0238448     -8.8623216     -1.5355594      -.1609737";
"  1S      103.566421       .1148917       .0323053      -.0095859       .0044302      -.0034850       .0011511      -.0004716";
"  1S       86.497397       .8865817      -.3896553       .1793650      -.0914927       .0458017      -.0188380       .0056996";
"  2S       71.640446      -.0018084      -.2530307       .1419169      -.0746269       .0342622      -.0147892       .0041715";
"  2S       41.677547       .0032439      1.1779345      -.6291373       .3285305      -.1550819       .0659132      -.0190195";
"  3S       37.312088      -.0026644       .0992529      -.5028569       .3118424      -.1661853       .0687341      -.0209898";
"  3S       26.240073       .0024891       .0000240       .7302286      -.1115425       .0363420      -.0052828       .0037936";
"  3S       21.005341      -.0017243       .0004731       .7510667     -1.3488819       .7567324      -.3381737       .0966879";
"  4S       11.023570      -.0006456       .0003871      -.0143963      -.1443211      -.5036288       .2871040      -.0946630";
"  3S       11.019466       .0008148      -.0006495       .0290129      1.6772363     -1.0921824       .4984315      -.1439868";
"  3S        5.668415       .0003573      -.0001016       .0024219       .0384172      1.3679974      -.5123500       .1543836";
"  3S        4.601852      -.0002544       .0000785      -.0016462      -.0164785       .2659390      -.7947457       .2713632";
"  3S        2.470213       .0000691      -.0000225       .0003814       .0020801       .0049276      1.1273943      -.3765702";
"  3S        1.849037      -.0000388       .0000120      -.0001952      -.0010821      -.0002693       .3097277      -.2656102";
"  3S         .836903       .0000094      -.0000029       .0000437       .0002065       .0000138      -.0019019       .6435321";
"  3S         .612646      -.0000049       .0000015      -.0000225      -.0001037       .0000010       .0009616       .5053889";
"        P                    2P             3P             4P             5P             6P ";
"  BASIS/ORB.ENERGY     -582.3229610   -142.4056470    -34.3088539     -6.9980006      -.9459290";
"  2P       83.950462      -.0055220      -.0017329       .0005520      -.0001655       .0001130";
"  2P       47.379407      -.7536588      -.3893565       .2007955      -.0938109       .0363717";
"  3P       42.317464      -.2575405      -.2508140       .1356290      -.0620236       .0251220";
"  3P       25.516598      -.0304560       .7317337      -.4419165       .2184743      -.0857424";
"  4P       25.513192       .0191390       .3265106      -.3769287       .2309898      -.0852562";
"  4P       14.143135       .0077302      -.1280490       .7119587      -.1251186       .0783937";
"  3P       14.143061      -.0093363       .2625049      -.3065927       .2879628      -.1451990";
"  3P       10.014047      -.0029682       .0272547       .7528573     -1.3685537       .5779824";
"  3P        5.578447       .0006455      -.0042495       .0176378       .8894145      -.1722212";
"  3P        4.528351      -.0003654       .0020572      -.0054979       .6333244      -.8379022";
"  3P        2.122176       .0000387      -.0001796       .0002368       .0098144      1.0861069";
"  3P        1.425686      -.0000150       .0000674      -.0000925      -.0022878       .2223175";
"        D                    3D             4D             5D             6D ";
"  BASIS/ORB.ENERGY     -123.5347284    -25.6020286     -3.7189138      -.2514762";
"  3D       55.806211       .0035600      -.0013609       .0006601      -.0000872";
"  3D       32.318943       .4573200      -.2519913       .1071095      -.0304496";
"  4D       26.673684       .5003718      -.3116220       .1414353      -.0378562";
"  4D       17.487764       .1551280       .0870658      -.0895327       .0119581";
"  4D       13.909369      -.0630094       .4984930      -.1605303       .0804654";
"  4D       10.825716       .0223355       .5155794      -.4797120       .1018100";
"  4D        7.265443      -.0050780       .0527689       .3079551      -.0481489";
"  4D        5.033503       .0018910      -.0068970       .7812009      -.3603243";
"  4D        3.419505      -.0005589       .0014045       .1727998       .0330914";
"  4D        1.865952       .0001183      -.0003024       .0007864       .6591098";
"  4D        1.076193      -.0000338       .0000780       .0002087       .4462350";
"        F                    4F ";
"  BASIS/ORB.ENERGY      -13.5625485";
"  4F       30.646406       .0180943";
"  4F       18.859879       .2493732";
"  4F       12.433128       .4997068";
"  5F        8.224069      -.2180428";
"  4F        7.677769       .5299271";
"  4F        5.545284       .0090766"].
(** data.tar: neutral/al.slater:1-30 *)
Definition al_neutral : list string := [
"      ALUMINUM   K(2)L(8)3S(2)3P(1), 2P                                               ";
"   E =  -241.876707201";
"   T =   241.876707151     V =  -483.753414352     V/T =    -2.000000000";
"  ORBITAL ENERGIES AND EXPANSION COEFFICIENTS";
"        S                    1S             2S             3S ";
"  BASIS/ORB.ENERGY      -58.5010265     -4.9106719     -0.3934208";
"              CUSP        1.0000800      0.9994302      0.9991863";
"  1S       39.496080      0.0016984     -0.0006857     -0.0001786";
"  1S       28.634791     -0.0106334      0.0030978      0.0007977";
"  1S       13.079059     -0.9324788      0.2903958      0.0593803";
"  2S       11.239687     -0.0712122      0.1788086      0.0376137";
"  1S        5.819769     -0.0047377      0.4039318      0.4131777";
"  2S        4.390969     -0.0037917     -0.1398263      0.3590308";
"  1S        3.270281      0.0042404     -1.3388160     -0.8526617";
"  1S        1.825554     -0.0003400     -0.0020328     -0.8245610";
"  2S        0.707141     -0.0000438      0.0001916     -0.6786038";
"  1S        0.647998      0.0000858     -0.0005141      2.1291109";
"        P                    2P             3P ";
"  BASIS/ORB.ENERGY       -3.2183033     -0.2099507";
"              CUSP        1.0000238      0.9998750";
"  2P       32.912282     -0.0000924      0.0000180";
"  2P       19.759796      0.0018114     -0.0003532";
"  2P       11.877702      0.0035228     -0.0002071";
"  2P        7.686895      0.1462357     -0.0259716";
"  2P        5.052741      0.3034811     -0.0684621";
"  2P        3.511684      0.5033633     -0.0224624";
"  2P        2.582466      0.0995579     -0.1694494";
"  2P        1.012303      0.0023526      0.3150565";
"  2P        0.703112     -0.0008711      0.7451950";
"  3P        0.647998      0.0002671      0.0230875"].
(** data.tar: neutral/am.slater:1-62 *)
Definition am_neutral : list string := [
"      AMERICIUM   [RN]7S(2)5F(7), 8S                                                  ";
"      CHARGE = 95.000000";
"      SYMMETRY SPECIES               S     P     D     F ";
"      NUMBER OF BASIS FUNCTIONS     15    12     9     8";
"      NUMBER OF CLOSED SHELLS        7     5     3     1";
"      NUMBER OF OPEN SHELLS          0     0     0     1";
"      OPEN SHELL OCCUPATION NUMBER   0     0     0     7";
"   E =-27695.887018041";
"   T = 27695.887174718     V =-55391.774192759     V/T =    -1.999999994";
"  ORBITAL ENERGIES AND EXPANSION COEFFICIENTS";
"        S                    1S             2S             3S             4S             5S             6S             7S ";
"  BASIS/ORB.ENERGY    -3972.1938631   -700.0047380   -180.9152733    -47.8309208    -10.9526017     -1.6681180      -.1612883";
"  1S      108.514351       .1460397       .0389136      -.0109858       .0061325      -.0050704       .0017815      -.0006775";
"  1S       91.949998       .8566752      -.4005491       .1835816      -.0963816       .0506518      -.0203065       .0055068";
"  2S       76.105473      -.0035220      -.2549536       .1457190      -.0766169       .0359256      -.0149782       .0036111";
"  2S       44.549019       .0035220      1.1910776      -.6433276       .3387576      -.1647040       .0678004      -.0170005";
"  3S       39.617958      -.0029320       .0926845      -.5322748       .3502018      -.1976515       .0803468      -.0219235";
"  3S       27.944494       .0028444      -.0028822       .8949320      -.2697073       .1406855      -.0503220       .0166608";
"  3S       21.936836      -.0021445       .0018647       .6340188     -1.3406216       .7482576      -.3218277       .0776063";
"  4S       12.509773      -.0009165       .0007543       .0003242      -.0062252      -.7762846       .4284102      -.1252341";
"  3S       12.508435       .0012523      -.0012500       .0046686      1.6462872     -1.0053026       .4361602      -.1058402";
"  3S        6.663735       .0004133      -.0002088      -.0019533       .0336752      1.1844968      -.4599069       .1351714";
"  3S        5.436424      -.0002568       .0001338       .0010268      -.0099841       .5469034      -.7938077       .2143545";
"  3S        2.662610       .0000482      -.0000252      -.0001673       .0003999       .0070352      1.0383038      -.2797509";
"  3S        1.961718      -.0000274       .0000137       .0001018      -.0002179      -.0012743       .3083097      -.2343521";
"  3S         .825118       .0000070      -.0000035      -.0000261       .0000266       .0002011      -.0034847       .6849676";
"  3S         .602749      -.0000040       .0000019       .0000147      -.0000130      -.0001031       .0017022       .4333643";
"        P                    2P             3P             4P             5P             6P ";
"  BASIS/ORB.ENERGY     -677.2367483   -169.7051632    -42.5370001     -8.7743179      -.9924815";
"  2P       91.104106      -.0045020      -.0014705       .0004760      -.0001280       .0000820";
"  2P       51.359787      -.7326890      -.3806881       .1999900      -.0973701       .0361360";
"  3P       46.111052      -.2746159      -.2503600       .1365824      -.0644983       .0247506";
"  3P       28.473803      -.0406652       .5757745      -.3252391       .1652237      -.0620665";
"  4P       28.476350       .0247692       .4111776      -.3973227       .2491890      -.0904064";
"  4P       15.819973       .0141849      -.3105350      1.0201164      -.2906020       .1244550";
"  3P       14.584813      -.0168016       .5097992      -.8823064       .7910788      -.3558312";
"  3P       11.386274      -.0030283       .0126433       .9319989     -1.7800021       .7758419";
"  3P        6.553568       .0006250      -.0029013       .0214162       .8914003      -.2924829";
"  3P        5.147036      -.0003067       .0011482      -.0046461       .7233854      -.6929968";
"  3P        2.343903       .0000356      -.0001126       .0002754       .0103265       .9387166";
"  3P        1.602802      -.0000149       .0000456      -.0001096      -.0024473       .3181897";
"        D                    3D             4D             5D ";
"  BASIS/ORB.ENERGY     -149.0267494    -32.7250208     -4.9070322";
"  3D       62.341082       .0023061      -.0008545       .0004640";
"  3D       35.192142       .4438410      -.2508651       .1130190";
"  4D       29.205796       .4994426      -.3231736       .1560230";
"  4D       19.795476       .1551124       .0433156      -.0635875";
"  4D       15.067734      -.0451968       .6163186      -.2359800";
"  4D       11.821831       .0190414       .4435902      -.5495609";
"  4D        8.312521      -.0043878       .0414950       .4427289";
"  4D        5.652153       .0010181      -.0023050       .7787461";
"  4D        3.713707      -.0001955       .0003646       .1300230";
"        F                    4F             5F ";
"  BASIS/ORB.ENERGY      -19.0626502      -.7221538";
"  4F       33.485222       .0165266      -.0052732";
"  4F       20.732321       .2558343      -.0962791";
"  4F       13.553845       .5650694      -.1867930";
"  5F        8.696144      -.2009870       .2528636";
"  4F        8.184470       .4385830      -.1842378";
"  4F        4.844213       .0017356       .5515984";
"  4F        2.996931      -.0002246       .3850291";
"  4F        1.866870       .0000521       .1022711"].
(** data.tar: neutral/ar.slater:1-31 *)
Definition ar_neutral : list string := [
"      ARGON    1S(2)2S(2)2P(6)3S(2)3P(6), 1S                                          ";
"   E =  -526.817512711";
"   T =   526.817512750     V = -1053.635025461     V/T =    -2.000000000";
"  ORBITAL ENERGIES AND EXPANSION COEFFICIENTS";
"        S                    1S             2S             3S ";
"  BASIS/ORB.ENERGY     -118.6103508    -12.3221535     -1.2773530";
"              CUSP        0.9999446      1.0000183      0.9993773";
"  2S       56.024242     -0.0002716     -0.0000726      0.0000359";
"  1S       28.780167     -0.1710204      0.0279220     -0.0112280";
"  2S       24.513979     -0.1141106      0.0286702     -0.0115130";
"  2S       15.086379      0.2067242      0.0504759     -0.0092934";
"  1S       14.036870     -0.9132755     -0.4849957      0.1752091";
"  2S        6.944507     -0.0023696      0.8698150     -0.0561490";
"  2S        5.309126      0.0014535      0.2352997     -0.5300804";
"  1S        3.317218     -0.0007953      0.0088439     -0.6888917";
"  1S        1.567689      0.0001863      0.0035499      1.6573375";
"  1S        1.087214     -0.0000528     -0.0003098      0.0288341";
"        P                    2P             3P ";
"  BASIS/ORB.ENERGY       -9.5714658     -0.5910174";
"              CUSP        1.0002642      0.9992389";
"  2P       47.041050     -0.0000613      0.0000202";
"  3P       22.401098     -0.0031317      0.0009789";
"  2P       13.130477      0.1112736     -0.0362469";
"  3P       11.806433      0.0425036     -0.0220688";
"  2P        6.780130      0.6339220     -0.0797423";
"  3P        4.415953     -0.1615644      0.2302612";
"  2P        4.077204      0.4032696     -0.5119924";
"  2P        2.200943      0.0011903      0.4891912";
"  2P        1.412360     -0.0000900      0.5535620";
"  2P        1.087214      0.0000414      0.1126417";
""].
(** data.tar: neutral/as.slater:1-45 *)
Definition as_neutral : list string := [
"      ARSENIC   K(2)L(8)M(18)4S(2)4P(3), 4S                                           ";
"   E = -2234.238652211";
"   T =  2234.238652211     V = -4468.477304422     V/T =    -2.000000000";
"  ORBITAL ENERGIES AND EXPANSION COEFFICIENTS";
"        S                    1S             2S             3S             4S ";
"  BASIS/ORB.ENERGY     -432.5862026    -56.3098277     -8.0296221     -0.6858969";
"              CUSP        1.0004684      1.0002679      1.0003514      1.0004832";
"  1S       54.206035     -0.0097888      0.0472799      0.0196598      0.0054786";
"  3S       39.953981      0.0198534     -0.0526307     -0.0221499     -0.0062164";
"  1S       33.575117      0.9797520     -0.3963765     -0.1569388     -0.0436365";
"  4S       22.687547     -0.0227791      0.1035166      0.0387603      0.0098545";
"  2S       14.286912      0.0528492      0.7947179      0.4195814      0.1211463";
"  3S       13.481918     -0.0175215      0.1934033      0.3662879      0.1232891";
"  3S        6.115775     -0.0074662     -0.0413055     -0.1365817      0.0138823";
"  2S        5.148299      0.0102517      0.0681277     -1.0360940     -0.2530920";
"  2S        3.641403     -0.0001299     -0.0048316     -0.1315030     -0.5047831";
"  2S        1.809534     -0.0000951      0.0005478      0.0048884      0.4859887";
"  2S        1.278811      0.0001410     -0.0005699     -0.0050606      0.7161727";
"  1S        0.859631     -0.0001060      0.0003827      0.0031013      0.0695486";
"        P                    2P             3P             4P ";
"  BASIS/ORB.ENERGY      -50.1537452     -5.8806934     -0.3694825";
"              CUSP        1.0009799      0.9990766      1.0002607";
"  2P       50.718595     -0.0061590      0.0037916     -0.0009478";
"  3P       41.198849     -0.0140545      0.0084961     -0.0021377";
"  2P       24.082973      0.3456543     -0.1640727      0.0382923";
"  3P       19.047410      0.4376157     -0.2006209      0.0453519";
"  3P       13.627410      0.3082380     -0.2996379      0.0772161";
"  2P        6.013469      0.0200905      0.6449960     -0.1889786";
"  3P        5.462364     -0.0059676      0.4353153     -0.0794897";
"  3P        4.087596      0.0015992      0.1816630     -0.1723025";
"  3P        1.841936     -0.0002968      0.0029471      0.2164620";
"  2P        1.059631      0.0003860     -0.0016209      0.6834376";
"  2P        0.859631     -0.0001796      0.0005881      0.1978196";
"        D                    3D ";
"  BASIS/ORB.ENERGY       -2.1126572";
"              CUSP        0.9999990";
"  3D       31.332509      0.0014237";
"  4D       24.312793      0.0062462";
"  3D       10.554143      0.1460825";
"  3D        6.987846      0.3475138";
"  3D        4.485271      0.4309220";
"  3D        2.935044      0.1851549";
"  3D        1.733242      0.0082224";
"  3D        0.859631     -0.0000252";
" "].
(** data.tar: neutral/at.slater:1-58 *)
Definition at_neutral : list string := [
"      ASTATINE   [XE]4F(14)6S(2)5D(10)6P(5), 2P                                       ";
"      CHARGE = 85.000000";
"      SYMMETRY SPECIES               S     P     D     F ";
"      NUMBER OF BASIS FUNCTIONS     13    12     9     6";
"      NUMBER OF CLOSED SHELLS        6     4     3     1";
"      NUMBER OF OPEN SHELLS          0     1     0     0";
"      OPEN SHELL OCCUPATION NUMBER   0     5     0     0";
"   E =-21266.881543541";
"   T = 21266.881493653     V =-42533.763037194     V/T =    -2.000000002";
"  ORBITAL ENERGIES AND EXPANSION COEFFICIENTS";
"        S                    1S             2S             3S             4S             5S             6S ";
"  BASIS/ORB.ENERGY    -3152.6331852   -542.0100862   -134.0056106    -32.4467441     -6.4310167      -.7653618";
"  1S      108.903934       .0332539      -.0132611      -.0045107       .0018432      -.0007539       .0000881";
"  1S       84.018911       .9617942       .3573754       .1680981      -.0845897       .0387139      -.0135492";
"  2S       69.951611       .0068748       .2527617       .1346376      -.0701147       .0326496      -.0120534";
"  2S       39.611892       .0013090     -1.1579306      -.6022614       .3110138      -.1442413       .0523611";
"  3S       36.654114      -.0011376      -.0987201      -.4403680       .2630913      -.1193767       .0405555";
"  3S       24.547370       .0011100      -.0121631       .5393304       .1215167      -.2128304       .0976171";
"  3S       20.496500      -.0007588       .0055686       .8659456     -1.4765875      1.0930937      -.4386258";
"  4S       14.102471       .0003992      -.0009848       .0407013      -.0602258       .7598802      -.3560886";
"  3S       10.565212      -.0003512       .0009134      -.0207425      1.5606882     -2.2158759       .9606495";
"  3S        4.939179       .0000696      -.0001828       .0018652       .0308147      1.2910016      -.5438141";
"  3S        3.843808      -.0000505       .0001198      -.0013795      -.0130400       .1649685      -.3757999";
"  3S        2.082126       .0000123      -.0000267       .0003135       .0018798       .0046114       .7766703";
"  3S        1.407323      -.0000045       .0000098      -.0001078      -.0006396      -.0003687       .5104669";
"        P                    2P             3P             4P             5P             6P ";
"  BASIS/ORB.ENERGY     -522.0556682   -124.4155900    -28.1108579     -4.8098372      -.3798486";
"  2P       79.295777      -.0062490      -.0019388       .0006246      -.0001591       .0000880";
"  2P       45.026511      -.7574734      -.3895107       .1979189      -.0873686       .0270169";
"  3P       40.133432      -.2538335      -.2485208       .1329574      -.0569077       .0183706";
"  3P       23.914315      -.0292880       .7771505      -.4691949       .2219954      -.0696780";
"  4P       23.911162       .0192391       .2861947      -.3498446       .2120916      -.0624260";
"  4P       13.577284       .0075516      -.1079335       .5641122      -.0329344       .0226124";
"  3P       13.501981      -.0102374       .2472330      -.3049989       .2050841      -.0857368";
"  3P        9.503258      -.0021982       .0157603       .9018454     -1.2239384       .4179668";
"  3P        4.822702       .0003212      -.0015395       .0177679      1.0044047      -.3191468";
"  3P        3.674635      -.0001814       .0006590      -.0053807       .3997921      -.3710492";
"  3P        1.751098       .0000296      -.0000877       .0005156       .0074286       .6788741";
"  3P        1.110812      -.0000111       .0000329      -.0002131      -.0000056       .5205260";
"        D                    3D             4D             5D ";
"  BASIS/ORB.ENERGY     -106.7439473    -20.1321468     -2.0378931";
"  3D       50.967339       .0053403      -.0021762       .0009046";
"  3D       30.252536       .4733143      -.2553726       .0985443";
"  4D       24.929837       .4914435      -.3002285       .1230827";
"  4D       16.556179       .1264566       .1187754      -.0826159";
"  4D       12.631391      -.0341821       .5691878      -.2121996";
"  4D        9.553285       .0117780       .4388858      -.3541969";
"  4D        6.184273      -.0023889       .0296509       .4155763";
"  4D        4.084597       .0007335      -.0027925       .6923676";
"  4D        2.594201      -.0001555       .0003621       .1384108";
"        F                    4F ";
"  BASIS/ORB.ENERGY       -9.1800580";
"  4F       28.618551       .0199313";
"  4F       17.482248       .2520908";
"  4F       11.555443       .4552758";
"  5F        7.769969      -.2580323";
"  4F        7.135223       .6140219";
"  4F        4.780973       .0147295"].
(** data.tar: neutral/au.slater:1-56 *)
Definition au_neutral : list string := [
"      GOLD   [XE]4F(14)6S(1)5D(10), 2S                                                ";
"      CHARGE = 79.000000";
"      SYMMETRY SPECIES               S     P     D     F ";
"      NUMBER OF BASIS FUNCTIONS     13    10     9     6";
"      NUMBER OF CLOSED SHELLS        5     4     3     1";
"      NUMBER OF OPEN SHELLS          1     0     0     0";
"      OPEN SHELL OCCUPATION NUMBER   1     0     0     0";
"   E =-17865.399825117";
"   T = 17865.399642111     V =-35730.799467228     V/T =    -2.000000010";
"  ORBITAL ENERGIES AND EXPANSION COEFFICIENTS";
"        S                    1S             2S             3S             4S             5S             6S ";
"  BASIS/ORB.ENERGY    -2706.8328891   -457.1824282   -109.2606992    -24.3536569     -3.8087157      -.2207138";
"  1S       97.761363       .0543021       .0184536      -.0059880       .0015601      -.0011655       .0003138";
"  1S       77.616148       .9428745      -.3655835       .1694183      -.0821448       .0353116      -.0081410";
"  2S       64.400892       .0040559      -.2501566       .1347860      -.0707136       .0290014      -.0065495";
"  2S       36.850898       .0020902      1.1528366      -.6013187       .3086211      -.1286260       .0292497";
"  3S       33.489537      -.0017218       .1088843      -.4539311       .2492703      -.1121056       .0262101";
"  3S       23.594782       .0013678       .0069891       .4579027       .0763151      -.0632900       .0145596";
"  3S       18.894147      -.0008352      -.0020457       .9578920     -1.3464690       .6687089      -.1551612";
"  3S        9.575477       .0004369       .0000622       .0487899      1.3024738      -.3554815       .0544673";
"  3S        8.034410      -.0003686      -.0001485      -.0287839       .1453872      -.8961654       .2735870";
"  3S        4.758171       .0000857       .0000571       .0039194       .0162429       .9132912      -.2848893";
"  3S        3.330133      -.0000332      -.0000168      -.0013915      -.0019199       .5859752      -.1892946";
"  3S        1.328966       .0000054       .0000029       .0001906       .0003148       .0039779       .4556329";
"  3S         .813779      -.0000025      -.0000013      -.0000847      -.0001349      -.0006598       .6453387";
"        P                    2P             3P             4P             5P ";
"  BASIS/ORB.ENERGY     -438.9059637   -100.6224740    -20.5705572     -2.5342267";
"  2P       72.250241       .0077449      -.0027189       .0014393      -.0006084";
"  2P       41.486656       .7638459      -.3885513       .1908883      -.0748442";
"  3P       36.856869       .2529503      -.2865510       .1961952      -.0872579";
"  4P       29.730268       .0164249      -.1174461       .1824186      -.1000962";
"  3P       21.210778      -.0072231      1.1486521      -.9201386       .4381126";
"  3P       14.475122       .0024886       .2380258      -.6438703       .2382120";
"  3P       10.912089      -.0012906      -.0324829      1.2469365      -.5746359";
"  4P        9.042813       .0002131       .0052408       .4580559      -.5016528";
"  3P        4.012662      -.0000245      -.0006499       .0123820       .9473055";
"  3P        2.634539       .0000109       .0001571      -.0017885       .3639469";
"        D                    3D             4D             5D ";
"  BASIS/ORB.ENERGY      -84.7187008    -13.6553979      -.5209304";
"  3D       43.833656       .0107826      -.0046522       .0013473";
"  3D       26.923095       .5107522      -.2660895       .0801907";
"  4D       22.141347       .4705240      -.2778470       .0867188";
"  4D       14.590183       .0930676       .2150605      -.0858641";
"  4D       10.636243      -.0188622       .6142858      -.2105302";
"  4D        7.807086       .0064919       .3253332      -.1644004";
"  4D        4.671112      -.0011401       .0140492       .4600836";
"  4D        2.813334       .0003642      -.0011867       .5493649";
"  4D        1.632420      -.0000945       .0002807       .2129632";
"        F                    4F ";
"  BASIS/ORB.ENERGY       -4.3282579";
"  4F       25.916349       .0208736";
"  4F       15.690312       .2340553";
"  4F       10.503734       .3940648";
"  4F        7.320309       .3548888";
"  4F        4.940163       .1253131";
"  4F        3.007791       .0078850"].
(** data.tar: neutral/ba.slater:1-46 *)
Definition ba_neutral : list string := [
"      BARIUM   [XE]6S(2), 1S                                                          ";
"      CHARGE = 56.000000";
"      SYMMETRY SPECIES               S     P     D ";
"      NUMBER OF BASIS FUNCTIONS     13    10     7";
"      NUMBER OF CLOSED SHELLS        6     4     2";
"      NUMBER OF OPEN SHELLS          0     0     0";
"      OPEN SHELL OCCUPATION NUMBER   0     0     0";
"   E = -7883.543708638";
"   T =  7883.543713832     V =-15767.087422469     V/T =    -1.999999999";
"  ORBITAL ENERGIES AND EXPANSION COEFFICIENTS";
"        S                    1S             2S             3S             4S             5S             6S ";
"  BASIS/ORB.ENERGY    -1322.0933598   -207.1544237    -45.2808094     -9.5563601     -1.5126808     -0.1575083";
"  1S       73.408386      0.0389526      0.0107795     -0.0045627      0.0008967     -0.0006995      0.0000743";
"  1S       55.121608      0.9543018     -0.3471179      0.1559313     -0.0707771      0.0281535     -0.0075747";
"  2S       45.589826      0.0093847     -0.2417351      0.1185820     -0.0591276      0.0223137     -0.0064325";
"  2S       27.288659      0.0017129      0.9799271     -0.4750104      0.2298952     -0.0884563      0.0248914";
"  3S       24.735741     -0.0009738      0.2791374     -0.3811963      0.1937714     -0.0798378      0.0212647";
"  3S       14.154755      0.0008856      0.0276330      0.5106202      0.1718973     -0.1036767      0.0352075";
"  3S       12.256065     -0.0007812     -0.0165055      0.7406760     -1.2473274      0.5754007     -0.1683729";
"  3S        6.196423      0.0002732      0.0022935      0.0433847      1.0716014     -0.3781625      0.1084627";
"  3S        5.035677     -0.0002040     -0.0017122     -0.0213837      0.3266426     -0.5843751      0.1781953";
"  3S        2.516335      0.0000567      0.0004395      0.0034288      0.0074697      1.0042665     -0.3055246";
"  3S        1.862701     -0.0000347     -0.0002562     -0.0019941     -0.0016966      0.3002312     -0.2247028";
"  3S        0.807625      0.0000098      0.0000700      0.0005034      0.0003105     -0.0031825      0.6849016";
"  3S        0.594012     -0.0000055     -0.0000390     -0.0002781     -0.0001590      0.0015204      0.4392419";
"        P                    2P             3P             4P             5P ";
"  BASIS/ORB.ENERGY     -195.0559248    -40.0397552     -7.5492833     -0.9038245";
"  2P       46.966097      0.0199630     -0.0070187      0.0035009     -0.0015386";
"  2P       27.608616      0.8182538     -0.3947519      0.1783800     -0.0628028";
"  3P       23.743389      0.1904196     -0.3291007      0.2243391     -0.0999990";
"  4P       18.568484      0.0088858     -0.3918549      0.3801198     -0.1931070";
"  3P       14.716154     -0.0051839      1.3375133     -0.9427099      0.4335618";
"  3P       10.415319      0.0007757      0.3584581     -0.5023057      0.1814481";
"  3P        6.176644     -0.0003682      0.0017990      1.0980750     -0.5040309";
"  4P        5.202768      0.0000721      0.0008247      0.2931051     -0.3034165";
"  3P        2.231317     -0.0000163     -0.0002131      0.0099021      0.9052275";
"  3P        1.527034      0.0000067      0.0000801     -0.0025364      0.3249073";
"        D                    3D             4D ";
"  BASIS/ORB.ENERGY      -30.4022785     -4.0014630";
"  3D       33.450500      0.0073496     -0.0025622";
"  3D       18.748779      0.4383067     -0.1985296";
"  4D       14.846820      0.4826192     -0.2122128";
"  4D       10.453672      0.1653351     -0.1491822";
"  4D        8.414827     -0.0045282      0.4345895";
"  4D        5.487808      0.0016290      0.6594324";
"  4D        3.614287     -0.0003184      0.1440156"].
(** data.tar: neutral/bi.slater:1-60 *)
Definition bi_neutral : list string := [
"      BISMUTH   [XE]4F(14)6S(2)5D(10)6P(3), 4S                                        ";
"      CHARGE = 83.000000";
"      SYMMETRY SPECIES               S     P     D     F ";
"      NUMBER OF BASIS FUNCTIONS     13    12     9     6";
"      NUMBER OF CLOSED SHELLS        6     4     3     1";
"      NUMBER OF OPEN SHELLS          0     1     0     0";
"      OPEN SHELL OCCUPATION NUMBER   0     3     0     0";
"   E =-20095.586252534";
"   T = 20095.586220804     V =-40191.172473338     V/T =    -2.000000002";
" ";
"  ORBITAL ENERGIES AND EXPANSION COEFFICIENTS";
"        S                    1S             2S             3S             4S             5S             6S ";
"  BASIS/ORB.ENERGY    -3000.1527444   -512.8417514   -125.4049466    -29.5874663     -5.4977663     -0.5516882";
"  1S      106.328367      0.0341165     -0.0131842     -0.0045474      0.0016852     -0.0006315      0.0000292";
"  1S       82.011128      0.9609275      0.3570209      0.1676222     -0.0835377      0.0371747     -0.0119129";
"  2S       68.287892      0.0068733      0.2516096      0.1335414     -0.0695053      0.0315991     -0.0107393";
"  2S       38.691586      0.0013863     -1.1526401     -0.5976714      0.3075901     -0.1391048      0.0464098";
"  3S       35.822829     -0.0011885     -0.1029109     -0.4346625      0.2536983     -0.1111024      0.0344120";
"  3S       24.123508      0.0011064     -0.0127695      0.4668267      0.1503135     -0.2091749      0.0859595";
"  3S       20.086799     -0.0007403      0.0055944      0.9293840     -1.4522977      1.0094573     -0.3674193";
"  4S       13.611590      0.0003585     -0.0009181      0.0417890     -0.0015770      0.6240979     -0.2670749";
"  3S       10.116856     -0.0003104      0.0008509     -0.0208257      1.4684493     -1.9777161      0.7774072";
"  3S        4.757245      0.0000583     -0.0001609      0.0018976      0.0267628      1.1542176     -0.4649991";
"  3S        3.651788     -0.0000389      0.0000966     -0.0012839     -0.0098271      0.2728694     -0.2947517";
"  3S        1.800290      0.0000087     -0.0000202      0.0002627      0.0013465      0.0017622      0.7166164";
"  3S        1.214185     -0.0000036      0.0000084     -0.0001055     -0.0005222     -0.0000350      0.4890306";
"        P                    2P             3P             4P             5P             6P ";
"  BASIS/ORB.ENERGY     -493.4490188   -116.1341038    -25.4376451     -3.9946956     -0.3200945";
"  2P       77.331767     -0.0064626     -0.0019930      0.0006432     -0.0001589      0.0001014";
"  2P       43.879146     -0.7587573     -0.3891162      0.1961518     -0.0837354      0.0227372";
"  3P       39.038245     -0.2533289     -0.2484193      0.1322456     -0.0547555      0.0159566";
"  3P       23.017341     -0.0279196      0.8190471     -0.4991285      0.2292839     -0.0634256";
"  4P       23.016667      0.0186526      0.2541202     -0.3359387      0.2003211     -0.0485307";
"  4P       13.120480      0.0070199     -0.0927949      0.5089767     -0.0086403      0.0238021";
"  3P       13.118232     -0.0098684      0.2246144     -0.2343160      0.1417611     -0.0623101";
"  3P        9.144629     -0.0019658      0.0132236      0.9052883     -1.1359968      0.3290626";
"  3P        4.600151      0.0002409     -0.0010616      0.0161545      0.9326104     -0.2744868";
"  3P        3.378836     -0.0001225      0.0003731     -0.0040087      0.4395444     -0.2762268";
"  3P        1.434936      0.0000222     -0.0000563      0.0004757      0.0050712      0.6733935";
"  3P        0.962057     -0.0000106      0.0000261     -0.0002207     -0.0011365      0.4608023";
"        D                    3D             4D             5D ";
"  BASIS/ORB.ENERGY      -99.0563650    -17.8181546     -1.4771426";
"  3D       49.029127      0.0061976     -0.0025577      0.0009800";
"  3D       29.255646      0.4807398     -0.2564407      0.0929027";
"  4D       24.066237      0.4887512     -0.2947678      0.1130701";
"  4D       15.927546      0.1183975      0.1409257     -0.0842736";
"  4D       12.051763     -0.0303032      0.5729942     -0.2072524";
"  4D        9.043747      0.0103129      0.4192902     -0.3041246";
"  4D        5.731630     -0.0020116      0.0259087      0.4251471";
"  4D        3.700914      0.0006383     -0.0024127      0.6482395";
"  4D        2.334962     -0.0001485      0.0004005      0.1595972";
"        F                    4F ";
"  BASIS/ORB.ENERGY       -7.4086895";
"  4F       27.764767      0.0199837";
"  4F       16.963291      0.2393246";
"  4F       11.441274      0.3989225";
"  5F        7.601823     -0.4013883";
"  4F        6.885683      0.8246315";
"  4F        4.337840      0.0164899";
" "].
(** data.tar: neutral/bk.slater:1-64 *)
Definition bk_neutral : list string := [
"      BERKELIUM   [RN]7S(2)6D(1)5F(8), 8H                                             ";
"      CHARGE = 97.000000";
"      SYMMETRY SPECIES               S     P     D     F ";
"      NUMBER OF BASIS FUNCTIONS     15    12    11     8";
"      NUMBER OF CLOSED SHELLS        7     5     3     1";
"      NUMBER OF OPEN SHELLS          0     0     1     1";
"      OPEN SHELL OCCUPATION NUMBER   0     0     1     8";
"   E =-29099.831394080";
"   T = 29099.831194369     V =-58199.662588449     V/T =    -2.000000007";
"  ORBITAL ENERGIES AND EXPANSION COEFFICIENTS";
"        S                    1S             2S             3S             4S             5S             6S             7S ";
"  BASIS/ORB.ENERGY    -4147.5804679   -734.0871413   -191.1447862    -51.2004471    -11.9379224     -1.8650855      -.1738481";
"  1S      110.699843       .1457679       .0394389      -.0111785       .0063240      -.0054226       .0019958      -.0007173";
"  1S       93.919675       .8569284      -.4013003       .1842221      -.0972803       .0519146      -.0212320       .0058624";
"  2S       77.746438      -.0035086      -.2556131       .1462231      -.0771630       .0363682      -.0153755       .0038612";
"  2S       45.481241       .0034974      1.1943747      -.6458938       .3415480      -.1674477       .0700279      -.0181513";
"  3S       40.473190      -.0029511       .0895413      -.5385884       .3576288      -.2058191       .0855049      -.0237393";
"  3S       28.589737       .0029067      -.0027239       .9161492      -.2881508       .1604951      -.0607443       .0193666";
"  3S       22.356593      -.0022621       .0018006       .6236080     -1.3597697       .7460039      -.3235534       .0808033";
"  4S       13.102682      -.0009572       .0007151       .0035950       .0873811      -.8886224       .4972771      -.1460761";
"  3S       13.101116       .0013806      -.0012552      -.0015996      1.5847192      -.9085497       .3929104      -.0976081";
"  3S        6.776123       .0004128      -.0001742      -.0026680       .0365353      1.3133997      -.5347427       .1541836";
"  3S        5.561570      -.0002742       .0001204       .0015315      -.0126901       .4141148      -.7777131       .2246120";
"  3S        2.835207       .0000565      -.0000251      -.0002681       .0007651       .0077828      1.0483251      -.2974203";
"  3S        2.098815      -.0000313       .0000132       .0001542      -.0003906      -.0015242       .3346769      -.2491092";
"  3S         .910937       .0000073      -.0000031      -.0000355       .0000560       .0002501      -.0020504       .6123837";
"  3S         .649692      -.0000039       .0000016       .0000186      -.0000269      -.0001204       .0010264       .5156076";
"        P                    2P             3P             4P             5P             6P ";
"  BASIS/ORB.ENERGY     -710.7535667   -179.6053034    -45.7104206     -9.6496508     -1.1384830";
"  2P       93.295612      -.0043066      -.0014050       .0004688      -.0001218       .0000907";
"  2P       52.603107      -.7290202      -.3795963       .2004933      -.0988946       .0375163";
"  3P       47.296425      -.2770461      -.2494507       .1368775      -.0652655       .0258156";
"  3P       29.420392      -.0430827       .5373019      -.2959189       .1518435      -.0583176";
"  4P       29.414711       .0260676       .4278123      -.3974160       .2528225      -.0924686";
"  4P       16.415002       .0152188      -.3421105      1.0753345      -.3072139       .1396928";
"  3P       15.073667      -.0181468       .5623898     -1.0493721       .9351706      -.4300417";
"  3P       11.874683      -.0030618       .0089462      1.0134902     -1.9160768       .8512364";
"  3P        6.802757       .0006412      -.0027647       .0247082       .8914367      -.2775313";
"  3P        5.389001      -.0003229       .0011281      -.0059049       .7382556      -.7538785";
"  3P        2.469651       .0000355      -.0001046       .0003336       .0098753       .9925248";
"  3P        1.672196      -.0000144       .0000414      -.0001312      -.0022330       .2835106";
"        D                    3D             4D             5D             6D ";
"  BASIS/ORB.ENERGY     -158.3158506    -35.5248392     -5.5699323      -.2834111";
"  3D       64.293214       .0020207      -.0007475       .0004090      -.0000349";
"  3D       36.233835       .4361436      -.2483343       .1141664      -.0310459";
"  4D       30.164001       .4958913      -.3240069       .1591904      -.0412544";
"  4D       20.837165       .1604699       .0106592      -.0397578       .0027386";
"  4D       15.686011      -.0355344       .6308654      -.2756870       .0989814";
"  4D       12.214648       .0145153       .4628888      -.5355496       .1275632";
"  4D        8.219944      -.0034852       .0351893       .5357972      -.1340026";
"  4D        5.676054       .0011502      -.0040579       .7249167      -.3339863";
"  4D        3.664204      -.0003344       .0009485       .0833506       .1442840";
"  4D        2.075910       .0000845      -.0002289      -.0013088       .6443847";
"  4D        1.176063      -.0000239       .0000564       .0003197       .4067204";
"        F                    4F             5F ";
"  BASIS/ORB.ENERGY      -21.3166475      -.9885219";
"  4F       34.300865       .0164484      -.0056095";
"  4F       21.309989       .2589570      -.1037726";
"  4F       13.913638       .5839797      -.2079473";
"  5F        8.985940      -.1352509       .2528897";
"  4F        8.603271       .3500958      -.1545272";
"  4F        5.070205       .0028374       .5710814";
"  4F        3.182839      -.0003389       .3592487";
"  4F        2.022226       .0001078       .0772493"].
(** data.tar: neutral/br.slater:1-45 *)
Definition br_neutral : list string := [
"      BROMINE   K(2)L(8)M(18)4S(2)4P(5), 2P                                           ";
"   E = -2572.441331380";
"   T =  2572.441331595     V = -5144.882662976     V/T =    -2.000000000";
"  ORBITAL ENERGIES AND EXPANSION COEFFICIENTS";
"        S                    1S             2S             3S             4S ";
"  BASIS/ORB.ENERGY     -490.0603389    -65.1999591     -9.8718922     -0.9926803";
"              CUSP        1.0004209      1.0001798      1.0003448      1.0005232";
"  1S       58.508039      0.0132508      0.0450195     -0.0189118      0.0058177";
"  3S       43.044755     -0.0219336     -0.0507053      0.0216413     -0.0067230";
"  1S       35.835678     -0.9789724     -0.3924497      0.1581023     -0.0486811";
"  4S       24.607114      0.0253791      0.1059948     -0.0388122      0.0105546";
"  2S       14.767152     -0.0670808      0.8246160     -0.4284223      0.1395496";
"  3S       14.754419      0.0289285      0.1376069     -0.3156266      0.1221182";
"  3S        6.850776      0.0102296     -0.0663372      0.3531964     -0.0316647";
"  2S        5.703885     -0.0146305      0.1110553      0.6962321     -0.0508543";
"  2S        4.364524      0.0008038     -0.0121144      0.2248232     -0.7490550";
"  2S        2.073131      0.0000833      0.0007303     -0.0022267      0.6210919";
"  2S        1.496008     -0.0001113     -0.0006410      0.0032532      0.6569533";
"  1S        0.956123      0.0000698      0.0003342     -0.0014231      0.0420710";
"        P                    2P             3P             4P ";
"  BASIS/ORB.ENERGY      -58.5542228     -7.4782081     -0.4570857";
"              CUSP        1.0009235      0.9993922      0.9998378";
"  2P       53.964914     -0.0063355     -0.0039510     -0.0011454";
"  3P       44.074427     -0.0138313     -0.0085171     -0.0024762";
"  2P       25.967586      0.3363151      0.1634189      0.0445753";
"  3P       20.612559      0.4266203      0.1987104      0.0526007";
"  3P       14.804998      0.3220530      0.3063350      0.0930826";
"  2P        7.130435      0.0256818     -0.4905817     -0.1864795";
"  3P        6.280038     -0.0057859     -0.5755623     -0.1379073";
"  3P        4.641256      0.0017227     -0.1975788     -0.2798173";
"  3P        1.483284      0.0005547      0.0055771     -0.5058575";
"  2P        1.265163     -0.0006631     -0.0096331      1.5077209";
"  2P        0.956123     -0.0000497      0.0002427      0.1395336";
"        D                    3D ";
"  BASIS/ORB.ENERGY       -3.2201741";
"              CUSP        0.9992719";
"  3D       32.846999      0.0015744";
"  4D       25.721481      0.0065093";
"  3D       11.166998      0.1729358";
"  3D        7.375640      0.3589234";
"  3D        4.935945      0.4257609";
"  3D        3.345405      0.1382342";
"  3D        1.916340      0.0047765";
"  3D        0.956123     -0.0000021";
" "].
(** data.tar: neutral/ca.slater:1-33 *)
Definition ca_neutral : list string := [
"      CALCIUM   K(2)L(8)3S(2)3P(6)4S(2), 1S                                           ";
"   E =  -676.758185346";
"   T =   676.758185367     V = -1353.516370714     V/T =    -2.000000000";
"  ORBITAL ENERGIES AND EXPANSION COEFFICIENTS";
"        S                    1S             2S             3S             4S ";
"  BASIS/ORB.ENERGY     -149.3637260    -16.8227434     -2.2453758     -0.1955295";
"              CUSP        1.0002069      0.9992309      1.0003441      1.0008845";
"  1S       55.025070      0.0014243      0.0011968     -0.0003224      0.0000534";
"  3S       29.333512     -0.0129567     -0.0080951      0.0023876     -0.0004143";
"  1S       21.316999     -0.8089442     -0.1512063      0.0513616     -0.0124182";
"  3S       14.563031      0.0880966      0.0841105     -0.0422994      0.0122024";
"  2S        8.075590      0.2394273      1.1633902     -0.1555700      0.0109921";
"  1S        6.763191     -0.4761799     -0.6311882      0.1971616     -0.0234364";
"  2S        6.263443      0.0057173      0.3048988     -0.7182685      0.2343941";
"  2S        2.577548     -0.0121835     -0.0308593      1.1275138     -0.1255387";
"  1S        1.816117      0.0270307      0.0813505      0.0596091      0.7711321";
"  1S        1.500414     -0.0101743     -0.0336703      0.1150448     -1.3923824";
"  2S        0.648569     -0.0001830     -0.0008710      0.0023577      0.9198284";
"  1S        0.625347      0.0004971      0.0022405     -0.0063252      0.3965575";
"        P                    2P             3P ";
"  BASIS/ORB.ENERGY      -13.6292687     -1.3407070";
"              CUSP        1.0006656      0.9994202";
"  2P       47.329816     -0.0001120      0.0000462";
"  3P       25.506017     -0.0030349      0.0011800";
"  2P       14.174024      0.0875599     -0.0123491";
"  3P       10.249231     -0.0316728      0.0651053";
"  2P        8.135533      0.6426078     -0.2032528";
"  2P        5.982999      0.3319706     -0.3647918";
"  3P        2.330080     -0.0052519     -0.3608637";
"  2P        2.056882      0.0078938      1.4758199";
"  2P        1.208793      0.0001322      0.0280494";
"  2P        0.625347     -0.0000458      0.0009427";
""].
(** data.tar: neutral/cd.slater:1-50 *)
Definition cd_neutral : list string := [
"      CADMIUM   K(2)L(8)M(18)4S(2)4P(6)5S(2)4D(10), 1S                                ";
"   E = -5465.133137188";
"   T =  5465.133128301     V =-10930.266265490     V/T =    -2.000000002";
"  ORBITAL ENERGIES AND EXPANSION COEFFICIENTS";
"        S                    1S             2S             3S             4S             5S ";
"  BASIS/ORB.ENERGY     -955.3153555   -142.0068250    -27.7086267     -4.4505362     -0.2648549";
"              CUSP        1.0002744      1.0001851      1.0005560      1.0006439      1.0009862";
"  1S       83.516231     -0.0262527      0.0399346     -0.0174771      0.0072349     -0.0017034";
"  3S       62.584694      0.0278638     -0.0388316      0.0175762     -0.0073673      0.0017715";
"  1S       50.503156      0.9722572     -0.3803997      0.1659283     -0.0697793      0.0165520";
"  4S       37.421392     -0.0354335      0.0964796     -0.0321859      0.0108675     -0.0020934";
"  3S       23.543997     -0.0376474      0.4438033     -0.4146711      0.2127212     -0.0541342";
"  2S       23.541419      0.1006402      0.4577397     -0.2531795      0.1200659     -0.0300342";
"  4S       13.502173     -0.0040385     -0.0861852      0.5088309     -0.2482762      0.0562245";
"  4S       10.284092     -0.0009005     -0.0250434      0.2604848     -0.5139857      0.1660909";
"  2S        9.381965      0.0081164      0.2000684      0.4224946     -0.4422349      0.1423706";
"  2S        5.195588     -0.0000454     -0.0022550      0.0412859     -0.2974854     -0.0242428";
"  2S        3.843181      0.0000091      0.0013520     -0.0070211      1.5038237     -0.2301713";
"  2S        2.816065      0.0000032     -0.0004150      0.0024176      0.2473646     -0.3672162";
"  2S        0.968171     -0.0000011      0.0000415     -0.0001127     -0.0001749      0.6462728";
"  2S        0.727812      0.0000007     -0.0000243      0.0000644      0.0001399      0.4865533";
"        P                    2P             3P             4P ";
"  BASIS/ORB.ENERGY     -132.0470183    -23.5972381     -3.0535056";
"              CUSP        1.0009850      1.0005665      0.9990412";
"  2P       60.437885     -0.0173275      0.0271937     -0.0177497";
"  3P       53.012348     -0.0215550      0.0329742     -0.0213434";
"  3P       34.580438     -0.1185046      0.1545282     -0.0998002";
"  2P       24.629908      0.9550080     -0.6144704      0.3005211";
"  3P       19.895718      0.2245251     -0.1078982     -0.0034551";
"  3P       11.175126      0.0034041      0.8022408     -0.3615306";
"  3P        8.476139     -0.0000009      0.3321057     -0.6836458";
"  2P        4.269777     -0.0006380      0.0110873      0.2962730";
"  2P        3.164214      0.0003332     -0.0000626      1.0626495";
"  2P        2.145405     -0.0001008      0.0002263      0.1176349";
"  2P        0.727812      0.0000051     -0.0000021      0.0008824";
"        D                    3D             4D ";
"  BASIS/ORB.ENERGY      -16.0719750     -0.7636586";
"              CUSP        0.9992490      1.0007012";
"  3D       51.167417      0.0009064     -0.0003999";
"  4D       39.515824      0.0043120     -0.0019498";
"  3D       20.925917     -0.0232941      0.0209998";
"  3D       17.638488      0.1977432     -0.0922260";
"  3D       10.839796      0.5717083     -0.1242668";
"  3D        7.941688      0.2456392     -0.4311272";
"  3D        6.801382      0.0604243      0.2825314";
"  3D        3.849955      0.0036183      0.5211361";
"  3D        2.417483     -0.0005902      0.4469071";
"  3D        1.559278      0.0001645      0.1356698";
"  3D        0.727812     -0.0000215      0.0003908";
" "].
(** data.tar: neutral/cf.slater:1-64 *)
Definition cf_neutral : list string := [
"      CALIFORNIUM   [RN]7S(2)5F(10), 5I                                               ";
"      CHARGE = 98.000000";
"      SYMMETRY SPECIES               S     P     D     F ";
"      NUMBER OF BASIS FUNCTIONS     15    12     9     8";
"      NUMBER OF CLOSED SHELLS        7     5     3     1";
"      NUMBER OF OPEN SHELLS          0     0     0     1";
"      OPEN SHELL OCCUPATION NUMBER   0     0     0    10";
"   E =-29817.418706498";
"   T = 29817.418749675     V =-59634.837456173     V/T =    -1.999999999";
" ";
"  ORBITAL ENERGIES AND EXPANSION COEFFICIENTS";
"        S                    1S             2S             3S             4S             5S             6S             7S ";
"  BASIS/ORB.ENERGY    -4236.3515326   -751.0610407   -195.9701005    -52.5317934    -12.0761628     -1.7698462     -0.1655266";
"  1S      111.875922      0.1438653      0.0393326     -0.0111501      0.0064546     -0.0055045      0.0019724     -0.0007332";
"  1S       94.929823      0.8587662     -0.4011032      0.1843192     -0.0977235      0.0522586     -0.0208203      0.0055153";
"  2S       78.603768     -0.0034235     -0.2558131      0.1463017     -0.0771950      0.0364529     -0.0150197      0.0034926";
"  2S       45.933619      0.0034641      1.1961259     -0.6469928      0.3424971     -0.1682442      0.0685613     -0.0166608";
"  3S       40.930233     -0.0029303      0.0871355     -0.5390839      0.3606379     -0.2082502      0.0843203     -0.0224730";
"  3S       28.869705      0.0028988     -0.0020908      0.9304552     -0.3026099      0.1705347     -0.0635043      0.0201323";
"  3S       22.532170     -0.0023015      0.0014621      0.6127751     -1.3660880      0.7443860     -0.3136633      0.0719339";
"  4S       13.352997     -0.0009869      0.0006103      0.0056422      0.1076020     -0.9306212      0.5065497     -0.1430550";
"  3S       13.352629      0.0014403     -0.0011101     -0.0056517      1.5805752     -0.8870488      0.3711586     -0.0842184";
"  3S        7.005320      0.0003938     -0.0001229     -0.0028968      0.0366072      1.2037579     -0.4956960      0.1431913";
"  3S        5.716672     -0.0002457      0.0000820      0.0015487     -0.0112758      0.5363006     -0.7517861      0.1931930";
"  3S        2.804739      0.0000456     -0.0000157     -0.0002425      0.0005881      0.0077201      0.9885804     -0.2510578";
"  3S        2.067300     -0.0000255      0.0000081      0.0001399     -0.0003124     -0.0015564      0.3484117     -0.2392202";
"  3S        0.845180      0.0000062     -0.0000019     -0.0000332      0.0000466      0.0002524     -0.0029144      0.6842411";
"  3S        0.612276     -0.0000035      0.0000011      0.0000188     -0.0000246     -0.0001332      0.0014694      0.4275269";
"        P                    2P             3P             4P             5P             6P ";
"  BASIS/ORB.ENERGY     -727.4485197   -184.2665299    -46.9434955     -9.7419391     -1.0474086";
"  2P       94.276359     -0.0042445     -0.0013877      0.0004708     -0.0001242      0.0000845";
"  2P       53.232647     -0.7269172     -0.3788920      0.2006187     -0.0991731      0.0363127";
"  3P       47.902836     -0.2783860     -0.2489153      0.1369209     -0.0654102      0.0248770";
"  3P       29.893329     -0.0445325      0.5186532     -0.2822518      0.1448658     -0.0537443";
"  4P       29.884412      0.0268499      0.4355608     -0.3979065      0.2530579     -0.0900228";
"  4P       16.680927      0.0159588     -0.3636972      1.1096284     -0.3204079      0.1333142";
"  3P       15.262992     -0.0190442      0.5954029     -1.1389670      1.0245052     -0.4521538";
"  3P       12.121953     -0.0030802      0.0055279      1.0553365     -1.9965948      0.8671024";
"  3P        6.992505      0.0006142     -0.0025242      0.0256213      0.8855063     -0.3080866";
"  3P        5.450385     -0.0002911      0.0009541     -0.0053179      0.7550227     -0.6731104";
"  3P        2.459366      0.0000338     -0.0000972      0.0003535      0.0101604      0.9096380";
"  3P        1.676074     -0.0000143      0.0000399     -0.0001403     -0.0023664      0.3369377";
"        D                    3D             4D             5D ";
"  BASIS/ORB.ENERGY     -162.6732604    -36.5707736     -5.5837818";
"  3D       65.304989      0.0019301     -0.0007068      0.0004005";
"  3D       36.639006      0.4369901     -0.2497374      0.1150118";
"  4D       30.509173      0.4968820     -0.3265685      0.1612201";
"  4D       21.007637      0.1596459      0.0203560     -0.0484321";
"  4D       15.708765     -0.0390571      0.6629813     -0.2718837";
"  4D       12.348554      0.0177828      0.4160922     -0.5790154";
"  4D        8.848061     -0.0043631      0.0401529      0.4944454";
"  4D        5.968833      0.0008966     -0.0015168      0.7769690";
"  4D        3.898454     -0.0001758      0.0003440      0.1191100";
"        F                    4F             5F ";
"  BASIS/ORB.ENERGY      -22.0913840     -0.8067307";
"  4F       34.834611      0.0159877     -0.0053753";
"  4F       21.648291      0.2584705     -0.1029228";
"  4F       14.121613      0.5923681     -0.2066520";
"  5F        9.268811     -0.0682969      0.2367190";
"  4F        9.107124      0.2771927     -0.1375522";
"  4F        5.183159      0.0034340      0.5589028";
"  4F        3.200821     -0.0002859      0.3656115";
"  4F        1.986833      0.0001446      0.0954020";
" "].
(** data.tar: neutral/cm.slater:1-66 *)
Definition cm_neutral : list string := [
"      CURIUM   [RN]7S(2)6D(1)5F(7), 9D                                                ";
"      CHARGE = 96.000000";
"      SYMMETRY SPECIES               S     P     D     F ";
"      NUMBER OF BASIS FUNCTIONS     15    12    11     8";
"      NUMBER OF CLOSED SHELLS        7     5     3     1";
"      NUMBER OF OPEN SHELLS          0     0     1     1";
"      OPEN SHELL OCCUPATION NUMBER   0     0     1     7";
"   E =-28392.770961608";
"   T = 28392.770991566     V =-56785.541953174     V/T =    -1.999999999";
" ";
"  ORBITAL ENERGIES AND EXPANSION COEFFICIENTS";
"        S                    1S             2S             3S             4S             5S             6S             7S ";
"  BASIS/ORB.ENERGY    -4059.5156306   -717.0558473   -186.1140586    -49.6212756    -11.5523061     -1.8242508     -0.1715415";
"  1S      109.612751      0.1457739      0.0389593     -0.0109770      0.0061165     -0.0051989      0.0018885     -0.0006867";
"  1S       92.936745      0.8569268     -0.4006377      0.1837645     -0.0966925      0.0512726     -0.0209909      0.0058217";
"  2S       76.950992     -0.0035053     -0.2550422      0.1458250     -0.0768871      0.0361854     -0.0153598      0.0038834";
"  2S       44.998600      0.0035054      1.1931275     -0.6448156      0.3404227     -0.1663909      0.0698018     -0.0181982";
"  3S       40.035230     -0.0029462      0.0902015     -0.5360095      0.3538549     -0.2019402      0.0839028     -0.0233991";
"  3S       28.287682      0.0028771     -0.0025719      0.9037776     -0.2769535      0.1495896     -0.0556004      0.0179369";
"  3S       22.155737     -0.0021975      0.0016864      0.6316244     -1.3521588      0.7495505     -0.3275466      0.0826867";
"  4S       12.809142     -0.0009325      0.0006859      0.0021603      0.0429812     -0.8321985      0.4675772     -0.1384611";
"  3S       12.807190      0.0013121     -0.0011829      0.0013414      1.6133999     -0.9563855      0.4193337     -0.1058510";
"  3S        6.672423      0.0004205     -0.0001750     -0.0024854      0.0351851      1.3017975     -0.5171379      0.1492857";
"  3S        5.474202     -0.0002780      0.0001203      0.0014269     -0.0119188      0.4252356     -0.7981327      0.2329953";
"  3S        2.789448      0.0000571     -0.0000250     -0.0002538      0.0006370      0.0073113      1.0595774     -0.3053938";
"  3S        2.064744     -0.0000317      0.0000132      0.0001472     -0.0003243     -0.0012961      0.3270210     -0.2457436";
"  3S        0.896377      0.0000075     -0.0000031     -0.0000345      0.0000416      0.0002062     -0.0022251      0.6229734";
"  3S        0.641591     -0.0000040      0.0000016      0.0000182     -0.0000195     -0.0000985      0.0010915      0.5052593";
"        P                    2P             3P             4P             5P             6P ";
"  BASIS/ORB.ENERGY     -694.0038213   -174.7390595    -44.2293864     -9.3161166     -1.1142799";
"  2P       92.375643     -0.0043285     -0.0014223      0.0004718     -0.0001210      0.0000886";
"  2P       52.048311     -0.7287062     -0.3789511      0.1996065     -0.0979745      0.0373032";
"  3P       46.755479     -0.2779879     -0.2505372      0.1371473     -0.0650980      0.0257901";
"  3P       28.969843     -0.0422379      0.5540005     -0.3090416      0.1583838     -0.0610327";
"  4P       28.937060      0.0255911      0.4242144     -0.3994093      0.2534729     -0.0933263";
"  4P       16.155524      0.0141049     -0.2981920      1.0096628     -0.2676226      0.1231104";
"  3P       15.030526     -0.0167307      0.4990899     -0.9117542      0.8006235     -0.3704743";
"  3P       11.614807     -0.0033257      0.0193092      0.9549671     -1.8165633      0.8059597";
"  3P        6.659121      0.0006811     -0.0035789      0.0234032      0.8898696     -0.2668566";
"  3P        5.292248     -0.0003456      0.0015032     -0.0057131      0.7310071     -0.7651239";
"  3P        2.433730      0.0000377     -0.0001378      0.0003092      0.0100743      0.9962628";
"  3P        1.651093     -0.0000152      0.0000543     -0.0001223     -0.0022957      0.2836083";
"        D                    3D             4D             5D             6D ";
"  BASIS/ORB.ENERGY     -153.7545557    -34.2307509     -5.3335313     -0.3006688";
"  3D       63.281438      0.0021388     -0.0007807      0.0004338     -0.0000442";
"  3D       35.762624      0.4379510     -0.2485072      0.1133748     -0.0322109";
"  4D       29.732643      0.4977560     -0.3228816      0.1577942     -0.0427339";
"  4D       20.338402      0.1624925      0.0128543     -0.0462592      0.0037513";
"  4D       15.629075     -0.0428277      0.5816735     -0.2330614      0.0927599";
"  4D       12.194421      0.0162799      0.5063575     -0.5502053      0.1356400";
"  4D        8.106496     -0.0037116      0.0412005      0.4864189     -0.1185316";
"  4D        5.645416      0.0013245     -0.0056060      0.7395945     -0.3624088";
"  4D        3.705816     -0.0003900      0.0012931      0.0996661      0.1315444";
"  4D        2.098537      0.0000942     -0.0002952     -0.0009050      0.6580025";
"  4D        1.201851     -0.0000268      0.0000756      0.0002808      0.4023585";
"        F                    4F             5F ";
"  BASIS/ORB.ENERGY      -20.2948370     -0.9687882";
"  4F       33.822758      0.0167613     -0.0056270";
"  4F       20.974594      0.2600937     -0.1024179";
"  4F       13.682058      0.5789462     -0.2022137";
"  5F        8.829274     -0.1389546      0.2395839";
"  4F        8.445016      0.3587465     -0.1557370";
"  4F        4.983619      0.0028061      0.5680970";
"  4F        3.134988     -0.0004387      0.3696676";
"  4F        1.990129      0.0000925      0.0803504";
" "].
(** data.tar: neutral/co.slater:1-43 *)
Definition co_neutral : list string := [
"      COBALT   K(2)L(8)3S(2)3P(6)4S(2)3D(7), 4F                                       ";
"   E = -1381.414552237";
"   T =  1381.414552303     V = -2762.829104540     V/T =    -2.000000000";
"  ORBITAL ENERGIES AND EXPANSION COEFFICIENTS";
"        S                    1S             2S             3S             4S ";
"  BASIS/ORB.ENERGY     -283.0655047    -34.8683343     -4.5242891     -0.2674203";
"              CUSP        1.0002555      0.9996229      0.9996016      0.9994130";
"  1S       67.880489      0.0016519      0.0017335     -0.0008763      0.0002176";
"  3S       38.904351     -0.0106873     -0.0086171      0.0045437     -0.0011301";
"  1S       28.510966     -0.8324281     -0.1356177      0.0506573     -0.0111567";
"  3S       20.112028      0.0646578      0.0425608     -0.0149959      0.0027678";
"  2S       11.806173      0.1823705      1.2252448     -0.2355081      0.0366503";
"  1S        9.803070     -0.3900133     -0.7256070      0.1824936     -0.0286333";
"  2S        8.992577      0.0179088      0.3791099     -0.8737051      0.2205742";
"  2S        3.918210     -0.0012577      0.0105801      0.8165784     -0.1557938";
"  1S        2.729885      0.0019348     -0.0107103      0.6226990      0.1307983";
"  1S        1.879157     -0.0003799      0.0019459      0.0066042     -0.7520185";
"  2S        0.777145     -0.0000192      0.0000728      0.0004254      0.5133699";
"  1S        0.731328      0.0000448     -0.0001761     -0.0008723      0.8140936";
"        P                    2P             3P ";
"  BASIS/ORB.ENERGY      -30.1201739     -3.0062447";
"              CUSP        1.0007882      1.0006858";
"  2P       55.920505      0.0003577      0.0001529";
"  3P       37.045603      0.0028804      0.0012416";
"  2P       18.633841     -0.2018877     -0.0243883";
"  3P       14.903522     -0.1726462      0.0375714";
"  2P       10.432654     -0.4948883     -0.3921162";
"  2P        8.406347     -0.1701586     -0.2087478";
"  3P        3.670304      0.0067602     -0.5137528";
"  2P        3.170172     -0.0113278      1.6628454";
"  2P        1.761172      0.0000588      0.0237833";
"  2P        0.731328     -0.0000032      0.0003303";
"        D                    3D ";
"  BASIS/ORB.ENERGY       -0.6754181";
"              CUSP        0.9993037";
"  3D       24.172555      0.0016416";
"  4D       18.786883      0.0069451";
"  3D        8.199042      0.1090000";
"  3D        5.406704      0.3032906";
"  3D        3.442626      0.3786483";
"  3D        2.205849      0.2778314";
"  3D        1.453653      0.0886884";
"  3D        0.731328      0.0003702"].
(** data.tar: neutral/cu.slater:1-44 *)
Definition cu_neutral : list string := [
"      COPPER   K(2)L(8)3S(2)3P(6)4S(1)3D(10), 2S                                      ";
"   E = -1638.963741190";
"   T =  1638.963741770     V = -3277.927482960     V/T =    -2.000000000";
"  ORBITAL ENERGIES AND EXPANSION COEFFICIENTS";
"        S                    1S             2S             3S             4S ";
"  BASIS/ORB.ENERGY     -328.7929776    -40.8189561     -5.0119792     -0.2384929";
"              CUSP        1.0002595      0.9997478      0.9997358      0.9995025";
"  1S       70.189946      0.0020207      0.0021026      0.0010930      0.0002480";
"  3S       41.413051     -0.0112026     -0.0091215     -0.0049447     -0.0011285";
"  1S       30.509673     -0.8472089     -0.1358250     -0.0499657     -0.0090394";
"  3S       21.267318      0.0598742      0.0385834      0.0096176      0.0000444";
"  2S       12.847734      0.1357926      1.2088221      0.2570659      0.0411595";
"  1S       11.192606     -0.3188339     -0.6818951     -0.1516614     -0.0273862";
"  2S        9.712223      0.0046457      0.3440914      0.8899292      0.1693738";
"  2S        4.300548      0.0001248      0.0083590     -0.6585943     -0.1563653";
"  1S        2.962479     -0.0001392     -0.0064395     -0.8211081      0.0024820";
"  1S        1.808143      0.0000234      0.0010196     -0.0075510     -0.4028755";
"  2S        0.734806      0.0000022      0.0000782     -0.0003114      0.6643383";
"  1S        0.690642     -0.0000049     -0.0001733      0.0001435      0.5359542";
"        P                    2P             3P ";
"  BASIS/ORB.ENERGY      -35.6179440     -3.3248203";
"              CUSP        1.0007605      1.0003104";
"  2P       60.062765      0.0003582      0.0001546";
"  3P       40.162787      0.0027114      0.0011697";
"  2P       19.924473     -0.2268487     -0.0311031";
"  3P       16.048602     -0.2115354      0.0242955";
"  2P       10.881331     -0.5151920     -0.4931547";
"  2P        8.741628     -0.0877481     -0.0861930";
"  3P        3.948760      0.0077786     -0.6165142";
"  2P        3.385906     -0.0127477      1.7582236";
"  2P        1.798822      0.0000192      0.0224578";
"  2P        0.690642     -0.0000084      0.0000878";
"        D                    3D ";
"  BASIS/ORB.ENERGY       -0.4912314";
"              CUSP        1.0003681";
"  3D       26.287704      0.0015173";
"  4D       20.461389      0.0063705";
"  3D        8.922963      0.1178186";
"  3D        5.814383      0.3137382";
"  3D        3.626597      0.3693059";
"  3D        2.200138      0.2781690";
"  3D        1.349920      0.1120928";
"  3D        0.690642      0.0011723";
""].
(** data.tar: neutral/er.slater:1-54 *)
Definition er_neutral : list string := [
"      ERBIUM   [XE]6S(2)5D(0)4F(12), 3H                                               ";
"      CHARGE = 68.000000";
"      SYMMETRY SPECIES               S     P     D     F ";
"      NUMBER OF BASIS FUNCTIONS     13    10     7     6";
"      NUMBER OF CLOSED SHELLS        6     4     2     0";
"      NUMBER OF OPEN SHELLS          0     0     0     1";
"      OPEN SHELL OCCUPATION NUMBER   0     0     0    12";
"   E =-12498.152612131";
"   T = 12498.152587436     V =-24996.305199567     V/T =    -2.000000002";
"  ORBITAL ENERGIES AND EXPANSION COEFFICIENTS";
"        S                    1S             2S             3S             4S             5S             6S ";
"  BASIS/ORB.ENERGY    -1981.7246166   -324.0935547    -73.9012419    -15.1272735     -2.0217199      -.1793521";
"  1S       85.931072       .0485327       .0148697      -.0053451       .0009742      -.0008132       .0000424";
"  1S       66.831633       .9473026      -.3578143       .1642338      -.0765923       .0290884      -.0068744";
"  2S       55.449578       .0058697      -.2448440       .1274811      -.0656094       .0235773      -.0060613";
"  2S       32.064174       .0020520      1.0938547      -.5556567       .2777018      -.1017614       .0254395";
"  3S       29.377976      -.0014402       .1634661      -.3991710       .2085325      -.0824307       .0190296";
"  3S       19.035249       .0011818       .0137503       .3885230       .1902680      -.1029788       .0305394";
"  3S       15.883516      -.0008654      -.0058781       .9384419     -1.3586755       .5916649      -.1521397";
"  3S        8.283918       .0002750       .0005687       .0416494       .9392049      -.3328291       .0861686";
"  3S        6.636024      -.0001851      -.0004488      -.0170165       .4924208      -.5615885       .1455416";
"  3S        3.191019       .0000437       .0001073       .0022935       .0076897       .8476603      -.2177604";
"  3S        2.316595      -.0000256      -.0000571      -.0012783      -.0016570       .4077025      -.2139872";
"  3S         .928801       .0000066       .0000144       .0002947       .0002905      -.0015197       .6387876";
"  3S         .654626      -.0000037      -.0000081      -.0001643      -.0001516       .0008116       .4611723";
"        P                    2P             3P             4P             5P ";
"  BASIS/ORB.ENERGY     -308.8132967    -66.9369585    -12.2649240     -1.1691245";
"  2P       61.043988      -.0100085      -.0034223       .0020480      -.0007816";
"  2P       35.420505      -.7592956      -.3785849       .1772395      -.0586251";
"  3P       31.217644      -.2579810      -.2686831       .1892615      -.0692608";
"  4P       24.193456      -.0201252      -.1158590       .2303926      -.0947614";
"  3P       17.664179       .0124806      1.1102095      -.9471917       .3567340";
"  3P       12.614001      -.0032226       .2316312      -.3773797       .1459313";
"  3P        8.181173       .0010046      -.0035060      1.1517595      -.5129247";
"  4P        6.710377      -.0002378       .0017996       .2965331      -.2426016";
"  3P        2.843177       .0000490      -.0002289       .0083375       .7757857";
"  3P        1.891215      -.0000195       .0000850      -.0018204       .4197790";
"        D                    3D             4D ";
"  BASIS/ORB.ENERGY      -54.1313581     -7.1203154";
"  3D       42.909407       .0043587      -.0015138";
"  3D       24.019173       .4330911      -.2097478";
"  4D       19.467034       .4827766      -.2446104";
"  4D       13.956931       .1599957      -.0905378";
"  4D       10.665832       .0005929       .4925467";
"  4D        7.079897       .0019566       .6084119";
"  4D        4.572507       .0000476       .1013647";
"        F                    4F ";
"  BASIS/ORB.ENERGY        -.7116652";
"  4F       21.070163       .0209572";
"  4F       12.313465       .2040170";
"  4F        7.999007       .3705399";
"  4F        5.097240       .3674417";
"  4F        3.114795       .2081652";
"  4F        1.896657       .0511807"].
(** data.tar: neutral/es.slater:1-62 *)
Definition es_neutral : list string := [
"      EINSTEINIUM   [RN]7S(2)5F(11), 4I                                               ";
"      CHARGE = 99.000000";
"      SYMMETRY SPECIES               S     P     D     F ";
"      NUMBER OF BASIS FUNCTIONS     15    12     9     8";
"      NUMBER OF CLOSED SHELLS        7     5     3     1";
"      NUMBER OF OPEN SHELLS          0     0     0     1";
"      OPEN SHELL OCCUPATION NUMBER   0     0     0    11";
"   E =-30544.971971799";
"   T = 30544.972073537     V =-61089.944045336     V/T =    -1.999999997";
"  ORBITAL ENERGIES AND EXPANSION COEFFICIENTS";
"        S                    1S             2S             3S             4S             5S             6S             7S ";
"  BASIS/ORB.ENERGY    -4326.2948981   -768.4708999   -201.1061530    -54.1255716    -12.4468358     -1.8006082      -.1668187";
"  1S      113.057181       .1419005       .0395710      -.0113946       .0066097      -.0056652       .0020331      -.0007459";
"  1S       95.941596       .8606608      -.4013389       .1847590      -.0981965       .0527739      -.0209549       .0055085";
"  2S       79.416372      -.0033386      -.2565251       .1465841      -.0774860       .0366503      -.0150389       .0034642";
"  2S       46.420884       .0034388      1.1969701      -.6474645       .3434268      -.1691562       .0686639      -.0165407";
"  3S       41.383502      -.0029247       .0868766      -.5418164       .3636321      -.2114515       .0853726      -.0225860";
"  3S       29.196911       .0029161      -.0023335       .9361168      -.3069887       .1772964      -.0663777       .0208296";
"  3S       22.759322      -.0023532       .0016611       .6112334     -1.3770720       .7416387      -.3099981       .0700393";
"  4S       13.642658      -.0010049       .0006804       .0070614       .1504028      -.9850523       .5323505      -.1485996";
"  3S       13.642655       .0014981      -.0012383      -.0086374      1.5506589      -.8375474       .3447785      -.0763100";
"  3S        7.115866       .0003853      -.0001415      -.0030833       .0383352      1.2031217      -.5005692       .1434700";
"  3S        5.812747      -.0002411       .0000941       .0016558      -.0121244       .5367645      -.7404148       .1879379";
"  3S        2.845530       .0000442      -.0000177      -.0002550       .0006924       .0080291       .9771131      -.2447455";
"  3S        2.094916      -.0000246       .0000093       .0001462      -.0003664      -.0017032       .3554018      -.2386982";
"  3S         .852686       .0000059      -.0000022      -.0000345       .0000591       .0002810      -.0028443       .6792990";
"  3S         .616339      -.0000034       .0000012       .0000196      -.0000317      -.0001493       .0014407       .4309606";
"        P                    2P             3P             4P             5P             6P ";
"  BASIS/ORB.ENERGY     -744.5766531   -189.2372810    -48.4384707    -10.0610227     -1.0633203";
"  2P       94.620539      -.0044414      -.0014721       .0005254      -.0001269       .0000792";
"  2P       53.578603      -.7337124      -.3829110       .2032428      -.1009905       .0368073";
"  3P       48.286953      -.2705810      -.2480581       .1371068      -.0651127       .0245227";
"  3P       32.337911      -.0365660       .4178846      -.2225241       .1160215      -.0430135";
"  4P       30.388793       .0168048       .5523292      -.4516253       .2882260      -.1038199";
"  4P       17.224036       .0086423      -.1879467       .8087502      -.0644447       .0146462";
"  3P       17.059945      -.0107908       .3977531      -.8503501       .6991868      -.3046647";
"  3P       12.319790      -.0030559       .0344945      1.0342001     -1.9074558       .8314537";
"  3P        7.027037       .0005189      -.0044386       .0271219       .9320064      -.3420493";
"  3P        5.502393      -.0002523       .0017874      -.0062903       .7016593      -.6343600";
"  3P        2.501660       .0000293      -.0001801       .0004387       .0099792       .8955315";
"  3P        1.703475      -.0000122       .0000732      -.0001717      -.0023136       .3496188";
"        D                    3D             4D             5D ";
"  BASIS/ORB.ENERGY     -167.3375445    -37.8776539     -5.8072332";
"  3D       66.137520       .0018474      -.0006711       .0003903";
"  3D       37.115763       .4349363      -.2494555       .1155788";
"  4D       30.941761       .4959896      -.3273611       .1628010";
"  4D       21.376642       .1622752       .0130083      -.0452600";
"  4D       15.949616      -.0391932       .6679902      -.2700131";
"  4D       12.583516       .0183807       .4138067      -.6009865";
"  4D        9.109259      -.0045622       .0430046       .4940577";
"  4D        6.116274       .0008746      -.0012679       .7867131";
"  4D        3.995607      -.0001735       .0003459       .1234768";
"        F                    4F             5F ";
"  BASIS/ORB.ENERGY      -23.1249339      -.8430270";
"  4F       35.378820       .0154794      -.0052708";
"  4F       22.011322       .2560824      -.1036081";
"  4F       14.373323       .5962524      -.2119565";
"  5F        9.446536      -.0697409       .2471170";
"  4F        9.271063       .2762219      -.1395023";
"  4F        5.285284       .0033936       .5628926";
"  4F        3.259830      -.0002036       .3587591";
"  4F        2.025012       .0001508       .0914460"].
(** data.tar: neutral/eu.slater:1-54 *)
Definition eu_neutral : list string := [
"      EUROPIUM   [XE]6S(2)5D(0)4F(7), 8S                                              ";
"      CHARGE = 63.000000";
"      SYMMETRY SPECIES               S     P     D     F ";
"      NUMBER OF BASIS FUNCTIONS     13    10     7     6";
"      NUMBER OF CLOSED SHELLS        6     4     2     0";
"      NUMBER OF OPEN SHELLS          0     0     0     1";
"      OPEN SHELL OCCUPATION NUMBER   0     0     0     7";
"   E =-10423.542874688";
"   T = 10423.542867402     V =-20847.085742090     V/T =    -2.000000001";
"  ORBITAL ENERGIES AND EXPANSION COEFFICIENTS";
"        S                    1S             2S             3S             4S             5S             6S ";
"  BASIS/ORB.ENERGY    -1690.6964952   -272.3157950    -61.3119073    -12.7447150     -1.8159741      -.1709325";
"  1S       81.559162       .0396890       .0119594      -.0045411       .0007967      -.0006835       .0000407";
"  1S       62.048937       .9544307      -.3512656       .1601771      -.0742787       .0287203      -.0071187";
"  2S       51.485471       .0081860      -.2428338       .1236103      -.0630478       .0231432      -.0061940";
"  2S       29.994154       .0017165      1.0520637      -.5254346       .2603338      -.0973770       .0253892";
"  3S       27.481309      -.0011322       .2032609      -.3855261       .2004215      -.0806542       .0196043";
"  3S       16.892730       .0010130       .0193237       .4084007       .2311582      -.1254172       .0382502";
"  3S       14.428066      -.0008238      -.0100344       .8832894     -1.3684340       .6111545      -.1647640";
"  3S        7.444558       .0002645       .0011419       .0437972       .9726206      -.3401159       .0916990";
"  3S        6.018308      -.0001849      -.0008437      -.0193454       .4507848      -.5809316       .1588445";
"  3S        2.917280       .0000451       .0001963       .0026807       .0078115       .9022193      -.2450158";
"  3S        2.138866      -.0000270      -.0001096      -.0015265      -.0017536       .3687225      -.2191528";
"  3S         .880123       .0000071       .0000280       .0003602       .0003050      -.0022276       .6585999";
"  3S         .630366      -.0000040      -.0000157      -.0002005      -.0001583       .0011189       .4488125";
"        P                    2P             3P             4P             5P ";
"  BASIS/ORB.ENERGY     -258.3627485    -55.0737731    -10.2461197     -1.0654363";
"  2P       55.791864      -.0117778      -.0041233       .0023670      -.0009353";
"  2P       32.553763      -.7617137      -.3747002       .1735450      -.0590199";
"  3P       28.575313      -.2549446      -.2722306       .1859051      -.0714562";
"  4P       21.951895      -.0223334      -.1611394       .2449422      -.1080914";
"  3P       16.334643       .0155142      1.1079101      -.8751312       .3491886";
"  3P       11.814935      -.0036625       .2797576      -.4421369       .1669613";
"  3P        7.399224       .0010064      -.0000781      1.1289997      -.5100191";
"  4P        6.128648      -.0002539       .0012103       .3050669      -.2681361";
"  3P        2.600679       .0000541      -.0001777       .0091511       .8166134";
"  3P        1.754749      -.0000221       .0000658      -.0021527       .3902818";
"        D                    3D             4D ";
"  BASIS/ORB.ENERGY      -43.6025473     -5.7799968";
"  3D       39.027658       .0052766      -.0018367";
"  3D       21.857710       .4336767      -.2060677";
"  4D       17.561048       .4838806      -.2337758";
"  4D       12.522999       .1616225      -.1135126";
"  4D        9.746916      -.0008665       .4720152";
"  4D        6.446731       .0018418       .6290323";
"  4D        4.199686      -.0000649       .1150725";
"        F                    4F ";
"  BASIS/ORB.ENERGY        -.7116791";
"  4F       19.096807       .0205530";
"  4F       11.001211       .1846057";
"  4F        7.210563       .3482363";
"  4F        4.694780       .3767843";
"  4F        2.936420       .2258755";
"  4F        1.834357       .0551175"].
(** data.tar: neutral/f.slater:1-31 *)
Definition f_neutral : list string := [
"      FLUORINE   1S(2)2S(2)2P(5), 2P                                                  ";
"";
"";
"";
"";
"   E =   -99.409349369";
"   T =    99.409349306     V =  -198.818698675     V/T =    -2.000000001";
"";
"  ORBITAL ENERGIES AND EXPANSION COEFFICIENTS";
"        S                    1S             2S ";
"  BASIS/ORB.ENERGY      -26.3827600     -1.5725347";
"              CUSP        0.9999915      0.9996668";
"  2S       27.647598     -0.0004697     -0.0001318";
"  1S       14.291092     -0.1659861      0.0120793";
"  2S       11.832995     -0.1073798      0.0223256";
"  1S        8.080680     -0.7181088     -0.1484346";
"  1S        5.633450     -0.0291976     -0.4452401";
"  2S        3.182099     -0.0015668      0.1053716";
"  1S        1.812284     -0.0001671      1.1104016";
"  1S        1.208319     -0.0001024      0.0133407";
"        P                    2P ";
"  BASIS/ORB.ENERGY       -0.7300174";
"              CUSP        0.9994786";
"  3P       22.939589      0.0000474";
"  2P        9.684811      0.0187577";
"  3P        7.284146      0.0309393";
"  2P        3.846095      0.2700273";
"  2P        2.385087      0.3918133";
"  2P        1.560088      0.3293205";
"  2P        1.208319      0.0568617";
""].
(** data.tar: neutral/fe.slater:1-44 *)
Definition fe_neutral : list string := [
"      IRON   K(2)L(8)3S(2)3P(6)4S(2)3D(6), 5D                                         ";
"   E = -1262.443664689";
"   T =  1262.443664533     V = -2524.887329222     V/T =    -2.000000000";
"  ORBITAL ENERGIES AND EXPANSION COEFFICIENTS";
"        S                    1S             2S             3S             4S ";
"  BASIS/ORB.ENERGY     -261.3734219    -31.9355217     -4.1694393     -0.2581805";
"              CUSP        1.0002371      0.9995059      0.9995698      0.9994220";
"  1S       67.039851      0.0015184      0.0015653     -0.0007443      0.0001824";
"  3S       37.739652     -0.0106577     -0.0084246      0.0041962     -0.0010310";
"  1S       27.502599     -0.8270191     -0.1366790      0.0507275     -0.0113065";
"  3S       19.356262      0.0684367      0.0465236     -0.0186454      0.0039089";
"  2S       11.285074      0.1913138      1.2166161     -0.2225578      0.0331594";
"  1S        9.367472     -0.4067605     -0.7169434      0.1830688     -0.0278507";
"  2S        8.606144      0.0184840      0.3776062     -0.8655540      0.2247979";
"  2S        3.732769     -0.0013668      0.0112197      0.8448811     -0.1544478";
"  1S        2.599956      0.0022126     -0.0118535      0.5820667      0.1586917";
"  1S        1.821430     -0.0004942      0.0022054      0.0072140     -0.7886902";
"  2S        0.761362     -0.0000288      0.0000615      0.0004931      0.5508906";
"  1S        0.718583      0.0000656     -0.0001613     -0.0010485      0.7825338";
"        P                    2P             3P ";
"  BASIS/ORB.ENERGY      -27.4137116     -2.7421982";
"              CUSP        1.0008006      1.0003293";
"  2P       53.958628      0.0003539      0.0001605";
"  3P       35.552297      0.0029461      0.0013264";
"  2P       18.139253     -0.1710197     -0.0188217";
"  3P       14.420001     -0.1274017      0.0451461";
"  2P       10.398009     -0.5025877     -0.3154501";
"  2P        8.220976     -0.2353695     -0.2957612";
"  3P        3.526362      0.0067758     -0.4783269";
"  2P        3.043306     -0.0113099      1.6251079";
"  2P        1.742634      0.0000849      0.0289213";
"  2P        0.718583     -0.0000036      0.0004127";
"        D                    3D ";
"  BASIS/ORB.ENERGY       -0.6468876";
"              CUSP        1.0001477";
"  3D       23.292198      0.0016054";
"  4D       18.020857      0.0069661";
"  3D        7.891984      0.0981612";
"  3D        5.208309      0.2946262";
"  3D        3.309121      0.3855914";
"  3D        2.122232      0.2865224";
"  3D        1.404987      0.0891893";
"  3D        0.718583      0.0003175";
""].
(** data.tar: neutral/fm.slater:1-64 *)
Definition fm_neutral : list string := [
"      FERMIUM   [RN]7S(2)5F(12), 3H                                                   ";
"      CHARGE =100.000000";
"      SYMMETRY SPECIES               S     P     D     F ";
"      NUMBER OF BASIS FUNCTIONS     15    12     9     8";
"      NUMBER OF CLOSED SHELLS        7     5     3     1";
"      NUMBER OF OPEN SHELLS          0     0     0     1";
"      OPEN SHELL OCCUPATION NUMBER   0     0     0    12";
"   E =-31282.777381624";
"   T = 31282.777465902     V =-62565.554847526     V/T =    -1.999999997";
" ";
"  ORBITAL ENERGIES AND EXPANSION COEFFICIENTS";
"        S                    1S             2S             3S             4S             5S             6S             7S ";
"  BASIS/ORB.ENERGY    -4417.1859323   -786.0787044   -206.3035966    -55.7352169    -12.8177465     -1.8305956     -0.1680801";
"  1S      114.194993      0.1408700      0.0394851     -0.0114126      0.0066378     -0.0057566      0.0020730     -0.0007535";
"  1S       96.939536      0.8616598     -0.4012189      0.1849384     -0.0985176      0.0531954     -0.0210569      0.0054959";
"  2S       80.272446     -0.0033009     -0.2566108      0.1465388     -0.0776110      0.0367754     -0.0150162      0.0034289";
"  2S       46.871137      0.0034233      1.1987077     -0.6484021      0.3446116     -0.1701948      0.0687857     -0.0164367";
"  3S       41.840267     -0.0029287      0.0844499     -0.5430780      0.3656603     -0.2140152      0.0861939     -0.0226428";
"  3S       29.525508      0.0029381     -0.0016998      0.9396990     -0.3090754      0.1824828     -0.0687535      0.0213798";
"  3S       22.997665     -0.0024059      0.0013005      0.6110312     -1.3883210      0.7388707     -0.3058988      0.0681385";
"  4S       13.929243     -0.0010200      0.0005568      0.0082153      0.1913731     -1.0373638      0.5574892     -0.1538622";
"  3S       13.927724      0.0015523     -0.0010642     -0.0112320      1.5208755     -0.7884216      0.3182334     -0.0685890";
"  3S        7.220250      0.0003739     -0.0000921     -0.0031699      0.0401977      1.2108487     -0.5133332      0.1456379";
"  3S        5.896912     -0.0002344      0.0000639      0.0017035     -0.0130686      0.5286860     -0.7215356      0.1811399";
"  3S        2.884439      0.0000428     -0.0000124     -0.0002600      0.0008274      0.0081122      0.9691344     -0.2401295";
"  3S        2.118890     -0.0000238      0.0000063      0.0001482     -0.0004357     -0.0017553      0.3593683     -0.2372250";
"  3S        0.860726      0.0000057     -0.0000015     -0.0000350      0.0000756      0.0002946     -0.0028707      0.6726867";
"  3S        0.620714     -0.0000033      0.0000008      0.0000198     -0.0000410     -0.0001568      0.0014535      0.4364098";
"        P                    2P             3P             4P             5P             6P ";
"  BASIS/ORB.ENERGY     -761.9026003   -194.2690143    -49.9489780    -10.3804241     -1.0786351";
"  2P       95.277198     -0.0045122     -0.0015025      0.0005450     -0.0001242      0.0000798";
"  2P       54.082634     -0.7354322     -0.3842516      0.2044700     -0.1020537      0.0369866";
"  3P       48.811191     -0.2674683     -0.2467221      0.1366002     -0.0647394      0.0242940";
"  3P       33.394546     -0.0364398      0.3835987     -0.1991211      0.1040589     -0.0384723";
"  4P       30.941803      0.0151756      0.5755022     -0.4550108      0.2925419     -0.1047998";
"  4P       17.591402      0.0076801     -0.1778216      0.7707727     -0.0206699     -0.0057264";
"  3P       17.586481     -0.0097988      0.4007038     -0.8818673      0.7104373     -0.3067326";
"  3P       12.569014     -0.0027794      0.0341891      1.0784983     -1.9535680      0.8491683";
"  3P        7.131364      0.0004620     -0.0043278      0.0283924      0.9455603     -0.3544645";
"  3P        5.581213     -0.0002267      0.0017508     -0.0066914      0.6895804     -0.6170947";
"  3P        2.539015      0.0000266     -0.0001788      0.0004784      0.0097899      0.8848237";
"  3P        1.726341     -0.0000111      0.0000726     -0.0001864     -0.0022477      0.3575362";
"        D                    3D             4D             5D ";
"  BASIS/ORB.ENERGY     -172.0620400    -39.1994689     -6.0313576";
"  3D       66.970050      0.0017890     -0.0006497      0.0003771";
"  3D       37.554036      0.4343495     -0.2499826      0.1165277";
"  4D       31.341249      0.4947945     -0.3283106      0.1641611";
"  4D       21.738456      0.1624089      0.0104194     -0.0424192";
"  4D       16.112877     -0.0373370      0.6898988     -0.2862497";
"  4D       12.720276      0.0180682      0.3942821     -0.6089090";
"  4D        9.295969     -0.0046126      0.0425400      0.5179644";
"  4D        6.209658      0.0008258     -0.0010058      0.7858385";
"  4D        4.043504     -0.0001651      0.0003402      0.1185226";
"        F                    4F             5F ";
"  BASIS/ORB.ENERGY      -24.1728491     -0.8780935";
"  4F       35.941015      0.0149429     -0.0051511";
"  4F       22.375531      0.2538679     -0.1042033";
"  4F       14.616611      0.6017065     -0.2181763";
"  5F        9.609589     -0.0540005      0.2485000";
"  4F        9.535894      0.2571561     -0.1306147";
"  4F        5.379614      0.0035731      0.5658439";
"  4F        3.315605     -0.0001186      0.3514027";
"  4F        2.061897      0.0001753      0.0878651";
" "].
(** data.tar: neutral/fr.slater:1-60 *)
Definition fr_neutral : list string := [
"      FRANCIUM   [RN]7S(1), 2S                                                        ";
"      CHARGE = 87.000000";
"      SYMMETRY SPECIES               S     P     D     F ";
"      NUMBER OF BASIS FUNCTIONS     15    12     9     6";
"      NUMBER OF CLOSED SHELLS        6     5     3     1";
"      NUMBER OF OPEN SHELLS          1     0     0     0";
"      OPEN SHELL OCCUPATION NUMBER   1     0     0     0";
"   E =-22475.858530260";
"   T = 22475.858541552     V =-44951.717071811     V/T =    -1.999999999";
"  ORBITAL ENERGIES AND EXPANSION COEFFICIENTS";
"        S                    1S             2S             3S             4S             5S             6S             7S ";
"  BASIS/ORB.ENERGY    -3309.1448396   -572.2204642   -143.1065757    -35.6150173     -7.5757478     -1.1273000      -.1178932";
"  1S      101.978322       .1049016       .0301072      -.0091116       .0038646      -.0031233       .0009162      -.0004537";
"  1S       84.676698       .8960690      -.3859513       .1778917      -.0897664       .0439659      -.0167027       .0042257";
"  2S       70.148749      -.0011166      -.2523583       .1405389      -.0739110       .0331312      -.0132695       .0027988";
"  2S       40.722793       .0031237      1.1731369      -.6238729       .3247476      -.1497966       .0589841      -.0132290";
"  3S       36.564250      -.0025475       .1015472      -.4918961       .2982275      -.1554445       .0592265      -.0153442";
"  3S       25.685340       .0023280       .0013850       .6697092      -.0604433       .0103387       .0050434       .0031248";
"  3S       20.647336      -.0015781      -.0001159       .7955779     -1.3545903       .7399800      -.3049377       .0663145";
"  4S       10.669335      -.0005334       .0002397      -.0173030      -.1223855      -.4603996       .2393457      -.0681332";
"  3S       10.668939       .0006894      -.0004536       .0342886      1.6310878     -1.0370255       .4368223      -.0969861";
"  3S        5.409521       .0002513      -.0000293       .0029153       .0343317      1.2657293      -.4947820       .1370248";
"  3S        4.319102      -.0001689       .0000265      -.0018688      -.0135478       .3119492      -.6073945       .1392960";
"  3S        2.279605       .0000394      -.0000072       .0003784       .0016029       .0030520       .8565166      -.2072293";
"  3S        1.670162      -.0000185       .0000030      -.0001646      -.0007249       .0004655       .4813671      -.2153866";
"  3S         .557011       .0000021      -.0000003       .0000174       .0000652      -.0000381       .0004398      1.0492184";
"  3S         .310522      -.0000010       .0000002      -.0000082      -.0000299       .0000147       .0001943       .0151924";
"        P                    2P             3P             4P             5P             6P ";
"  BASIS/ORB.ENERGY     -551.7019724   -133.1951900    -31.0907931     -5.8341997      -.6285280";
"  2P       81.894857      -.0057213      -.0017966       .0005709      -.0001598       .0000940";
"  2P       46.267422      -.7533186      -.3881639       .1987343      -.0904082       .0316642";
"  3P       41.274041      -.2581576      -.2504987       .1346064      -.0597586       .0217406";
"  3P       24.715008      -.0301821       .7528279      -.4556210       .2202705      -.0781616";
"  4P       24.713525       .0192319       .3093042      -.3667702       .2220801      -.0747993";
"  4P       13.785538       .0075680      -.1174084       .6437556      -.0834275       .0464653";
"  3P       13.784914      -.0095320       .2515588      -.2877773       .2439392      -.1117125";
"  3P        9.739078      -.0026709       .0225049       .8074363     -1.2920876       .5001783";
"  3P        5.219959       .0004928      -.0028907       .0178430       .9294218      -.2648081";
"  3P        4.136671      -.0002795       .0013540      -.0054594       .5346263      -.5780156";
"  3P        1.942765       .0000382      -.0001541       .0003824       .0098489       .8186689";
"  3P        1.331098      -.0000159       .0000618      -.0001565      -.0021487       .4222476";
"        D                    3D             4D             5D ";
"  BASIS/ORB.ENERGY     -114.9255541    -22.7491306     -2.8082663";
"  3D       53.149130       .0044859      -.0017858       .0008045";
"  3D       31.255929       .4662720      -.2543195       .1033411";
"  4D       25.782513       .4952756      -.3058970       .1325415";
"  4D       17.066339       .1361156       .1060475      -.0863388";
"  4D       13.175203      -.0430281       .5548491      -.2003948";
"  4D       10.104259       .0155601       .4560006      -.4147784";
"  4D        6.779322      -.0033399       .0375433       .3682830";
"  4D        4.560110       .0009553      -.0031326       .7454395";
"  4D        2.969156      -.0001897       .0003250       .1509181";
"        F                    4F ";
"  BASIS/ORB.ENERGY      -11.2537117";
"  4F       29.655976       .0188665";
"  4F       18.197881       .2488374";
"  4F       12.033467       .4753176";
"  5F        7.920612      -.2872011";
"  4F        7.290968       .6289353";
"  4F        4.727672       .0054266"].
(** data.tar: neutral/ga.slater:1-45 *)
Definition ga_neutral : list string := [
"      GALLIUM   K(2)L(8)M(18)4S(2)4P(1), 2P                                           ";
"   E = -1923.261007857";
"   T =  1923.261007627     V = -3846.522015484     V/T =    -2.000000000";
"  ORBITAL ENERGIES AND EXPANSION COEFFICIENTS";
"        S                    1S             2S             3S             4S ";
"  BASIS/ORB.ENERGY     -378.8184251    -48.1684272     -6.3946593     -0.4245903";
"              CUSP        1.0002520      0.9998342      0.9998090      0.9998711";
"  1S       74.163075     -0.0020125      0.0021379      0.0010632      0.0002349";
"  3S       44.111552      0.0107044     -0.0090307     -0.0046042     -0.0010139";
"  1S       32.554208      0.8493642     -0.1184356     -0.0506485     -0.0130995";
"  3S       22.941369     -0.0517435      0.0130268      0.0129238      0.0058638";
"  2S       14.638429     -0.1167559      0.9606464      0.0751663     -0.0157824";
"  2S       11.507175     -0.1089497      0.8388726      0.8689100      0.2528832";
"  1S       10.651417      0.3844733     -0.9434169     -0.5220104     -0.0984525";
"  1S        6.419062     -0.0000545      0.0481297      1.4389889      0.2874108";
"  1S        3.758419     -0.0001774      0.0014032     -2.2717431     -0.2434421";
"  1S        2.128908      0.0000409      0.0004214     -0.0160811     -0.9647349";
"  2S        0.715996      0.0000080      0.0000702     -0.0003620     -0.7955805";
"  1S        0.645754     -0.0000131     -0.0001202      0.0005797      2.1805188";
"        P                    2P             3P             4P ";
"  BASIS/ORB.ENERGY      -42.4940323     -4.4823707     -0.2084987";
"              CUSP        1.0001757      0.9999700      1.0000254";
"  2P       65.541676     -0.0003531      0.0001678     -0.0000210";
"  3P       44.152054     -0.0024432      0.0011738     -0.0001513";
"  2P       22.005072      0.1795597     -0.0174948      0.0026151";
"  3P       17.824611      0.1551185      0.0378616     -0.0060864";
"  2P       12.176581      0.6582416     -0.4796254      0.0830719";
"  3P       10.192581      0.0485330      0.0568351     -0.0006801";
"  3P        6.855667      0.0027297      0.4257664     -0.0715253";
"  3P        4.730498      0.0008101      0.4598884     -0.0179081";
"  2P        3.006855      0.0002605      0.2161453     -0.2074242";
"  2P        0.905335      0.0000057      0.0015260      0.5634063";
"  2P        0.645754     -0.0000046     -0.0004680      0.5081831";
"        D                    3D ";
"  BASIS/ORB.ENERGY       -1.1933737";
"              CUSP        1.0001330";
"  3D       28.295386      0.0016169";
"  4D       22.128835      0.0066219";
"  3D        9.633176      0.1418965";
"  3D        6.261006      0.3508943";
"  3D        3.907149      0.4053581";
"  3D        2.459171      0.2240315";
"  3D        1.565609      0.0213451";
"  3D        0.645754     -0.0000074";
""].
(** data.tar: neutral/gd.slater:1-56 *)
Definition gd_neutral : list string := [
"      GADOLINIUM   [XE]6S(2)5D(1)4F(7), 9D                                            ";
"      CHARGE = 64.000000";
"      SYMMETRY SPECIES               S     P     D     F ";
"      NUMBER OF BASIS FUNCTIONS     13    10     9     6";
"      NUMBER OF CLOSED SHELLS        6     4     2     0";
"      NUMBER OF OPEN SHELLS          0     0     1     1";
"      OPEN SHELL OCCUPATION NUMBER   0     0     1     7";
"   E =-10820.661019091";
"   T = 10820.661050178     V =-21641.322069270     V/T =    -1.999999997";
"  ORBITAL ENERGIES AND EXPANSION COEFFICIENTS";
"        S                    1S             2S             3S             4S             5S             6S ";
"  BASIS/ORB.ENERGY    -1747.3347081   -282.6312784    -64.0988222    -13.5307573     -2.0073052      -.1833186";
"  1S       82.305311       .0420691       .0127455      -.0047526       .0008158      -.0006954       .0000720";
"  1S       62.993249       .9525147      -.3529691       .1611296      -.0749927       .0296509      -.0076424";
"  2S       52.253869       .0075650      -.2433260       .1246522      -.0639987       .0241160      -.0065899";
"  2S       30.386501       .0018127      1.0631018      -.5333925       .2658271      -.1019239       .0273059";
"  3S       27.824867      -.0012151       .1928545      -.3878813       .2019952      -.0830467       .0211034";
"  3S       17.377886       .0010492       .0173924       .3944648       .2180020      -.1230900       .0377354";
"  3S       14.723820      -.0008261      -.0084947       .9061253     -1.3635768       .6247937      -.1725984";
"  3S        7.512262       .0002810       .0009599       .0442898      1.0571236      -.3808640       .1024853";
"  3S        6.078866      -.0002049      -.0007538      -.0207889       .3667872      -.5910739       .1735755";
"  3S        3.063994       .0000547       .0001965       .0032025       .0076058       .9236428      -.2672035";
"  3S        2.257096      -.0000322      -.0001073      -.0017757      -.0015560       .3786176      -.2292665";
"  3S         .960339       .0000079       .0000255       .0003860       .0002614      -.0009589       .6108239";
"  3S         .672792      -.0000042      -.0000134      -.0002006      -.0001249       .0005687       .5067429";
"        P                    2P             3P             4P             5P ";
"  BASIS/ORB.ENERGY     -268.4077149    -57.7140044    -10.9533733     -1.2123702";
"  2P       57.230537      -.0107638      -.0037609       .0021707      -.0008905";
"  2P       33.299220      -.7530522      -.3712357       .1731237      -.0607787";
"  3P       29.261658      -.2644268      -.2695431       .1816029      -.0726016";
"  4P       22.463074      -.0232697      -.1395232       .2230787      -.1059017";
"  3P       16.519189       .0156807      1.1051456      -.8724022       .3667072";
"  3P       11.855231      -.0040411       .2563903      -.4477478       .1675361";
"  3P        7.661230       .0012300      -.0029274      1.1346508      -.5211082";
"  4P        6.362660      -.0003029       .0017308       .3269394      -.3039613";
"  3P        2.703895       .0000604      -.0002516       .0093536       .8732748";
"  3P        1.822405      -.0000245       .0000884      -.0021750       .3499930";
"        D                    3D             4D             5D ";
"  BASIS/ORB.ENERGY      -45.9712902     -6.3339595      -.2872464";
"  3D       39.152619       .0058312      -.0022044       .0007132";
"  3D       21.988128       .4511434      -.2162180       .0525862";
"  4D       17.542793       .5051879      -.2541038       .0679004";
"  4D       11.762997       .1405776      -.0324071      -.0155780";
"  4D        9.278723      -.0234851       .5331148      -.1157790";
"  4D        6.234138       .0048487       .5676620      -.2227439";
"  4D        3.901196      -.0008887       .0610118       .1736178";
"  4D        2.198174       .0002546      -.0017668       .6154078";
"  4D        1.221245      -.0000519       .0005846       .4040166";
"        F                    4F ";
"  BASIS/ORB.ENERGY       -1.0434271";
"  4F       19.447696       .0218561";
"  4F       11.191024       .2029585";
"  4F        7.273950       .3742865";
"  4F        4.772530       .3664927";
"  4F        3.057018       .1923501";
"  4F        1.968402       .0339587"].
(** data.tar: neutral/ge.slater:1-45 *)
Definition ge_neutral : list string := [
"      GERMANIUM   K(2)L(8)M(18)4S(2)4P(2), 3P                                         ";
"   E = -2075.359731251";
"   T =  2075.359730662     V = -4150.719461913     V/T =    -2.000000000";
"  ORBITAL ENERGIES AND EXPANSION COEFFICIENTS";
"        S                    1S             2S             3S             4S ";
"  BASIS/ORB.ENERGY     -405.2444503    -52.1503390     -7.1910003     -0.5533671";
"              CUSP        1.0003164      1.0000588      1.0000983      1.0002776";
"  1S       76.555432     -0.0018078      0.0019448      0.0009669      0.0001918";
"  3S       45.858462      0.0095437     -0.0080920     -0.0041242     -0.0008175";
"  1S       33.610460      0.8454451     -0.1103075     -0.0487858     -0.0142534";
"  3S       23.935761     -0.0516573      0.0081985      0.0126617      0.0082456";
"  2S       15.346717     -0.1204391      0.9323112      0.0633297     -0.0296369";
"  2S       12.026209     -0.1111409      0.8888362      0.8844335      0.2942394";
"  1S       11.159105      0.3934758     -0.9655455     -0.5243957     -0.0975860";
"  1S        6.438987      0.0006752      0.0470433      1.6725097      0.3053093";
"  1S        4.028666     -0.0004116     -0.0004295     -2.4962937     -0.1116297";
"  1S        2.450056      0.0001034      0.0007647     -0.0241003     -1.2393662";
"  2S        0.836054      0.0000151      0.0001016     -0.0001309     -0.7723292";
"  1S        0.758093     -0.0000258     -0.0001848      0.0000402      2.2389290";
"        P                    2P             3P             4P ";
"  BASIS/ORB.ENERGY      -46.2361639     -5.1616015     -0.2873527";
"              CUSP        1.0003013      0.9993901      0.9999647";
"  2P       69.491987     -0.0002894      0.0001467     -0.0000209";
"  3P       46.214210     -0.0021391      0.0010724     -0.0001602";
"  2P       22.646499      0.1874945     -0.0207694      0.0034417";
"  3P       18.407375      0.1674549      0.0316648     -0.0067488";
"  2P       12.503901      0.6453349     -0.4855325      0.1056609";
"  3P       10.373220      0.0412213      0.0727783      0.0000900";
"  3P        7.108357      0.0021424      0.3973735     -0.0749832";
"  3P        5.035482      0.0009650      0.4512341      0.0073854";
"  2P        3.291863      0.0001725      0.2423111     -0.3131488";
"  2P        1.061577      0.0000048      0.0017566      0.7111911";
"  2P        0.758093     -0.0000053     -0.0004771      0.3907760";
"        D                    3D ";
"  BASIS/ORB.ENERGY       -1.6348997";
"              CUSP        0.9996475";
"  3D       28.893923      0.0017565";
"  4D       22.744772      0.0068668";
"  3D        9.975534      0.1520527";
"  3D        6.535857      0.3529406";
"  3D        4.150742      0.4126107";
"  3D        2.687443      0.1985465";
"  3D        1.649905      0.0121971";
"  3D        0.758093     -0.0000393";
""].
(** data.tar: neutral/hf.slater:1-56 *)
Definition hf_neutral : list string := [
"      HAFNIUM   [XE]4F(14)6S(2)5D(2), 3F                                              ";
"      CHARGE = 72.000000";
"      SYMMETRY SPECIES               S     P     D     F ";
"      NUMBER OF BASIS FUNCTIONS     13    10     9     6";
"      NUMBER OF CLOSED SHELLS        6     4     2     1";
"      NUMBER OF OPEN SHELLS          0     0     1     0";
"      OPEN SHELL OCCUPATION NUMBER   0     0     2     0";
"   E =-14321.249598927";
"   T = 14321.249546528     V =-28642.499145454     V/T =    -2.000000004";
"  ORBITAL ENERGIES AND EXPANSION COEFFICIENTS";
"        S                    1S             2S             3S             4S             5S             6S ";
"  BASIS/ORB.ENERGY    -2231.8109979   -369.3297297    -85.4118907    -17.7976402     -2.5193441     -0.2089547";
"  1S       89.099347      0.0593139      0.0181258     -0.0062930      0.0011268     -0.0008874      0.0001295";
"  1S       70.595058      0.9380112     -0.3643254      0.1677130     -0.0785363      0.0307620     -0.0078179";
"  2S       58.530393      0.0038582     -0.2466302      0.1306699     -0.0680805      0.0254374     -0.0067590";
"  2S       33.759966      0.0023776      1.1234995     -0.5778613      0.2918173     -0.1108356      0.0290275";
"  3S       30.773278     -0.0017756      0.1369382     -0.4214634      0.2185992     -0.0885928      0.0222613";
"  3S       21.051322      0.0013330      0.0093819      0.3801780      0.1371865     -0.0834064      0.0249158";
"  3S       17.029709     -0.0008402     -0.0029128      0.9864267     -1.3270031      0.5983667     -0.1603694";
"  3S        8.701558      0.0002913      0.0001369      0.0402284      1.0890100     -0.4195729      0.1091008";
"  3S        6.910123     -0.0002098     -0.0001807     -0.0178359      0.3415474     -0.5495651      0.1614450";
"  3S        3.575255      0.0000614      0.0000647      0.0030870      0.0056986      0.8698370     -0.2485256";
"  3S        2.615632     -0.0000346     -0.0000315     -0.0016332     -0.0006965      0.4330566     -0.2348173";
"  3S        1.108804      0.0000078      0.0000069      0.0003241      0.0001214      0.0009648      0.5762309";
"  3S        0.745946     -0.0000039     -0.0000034     -0.0001592     -0.0000516     -0.0001201      0.5417487";
"        P                    2P             3P             4P             5P ";
"  BASIS/ORB.ENERGY     -352.9759429    -77.8524269    -14.6219170     -1.5322866";
"  2P       64.972139     -0.0092422     -0.0031320      0.0018434     -0.0007320";
"  2P       37.551689     -0.7645456     -0.3846335      0.1823390     -0.0631584";
"  3P       33.182576     -0.2525927     -0.2710027      0.1923718     -0.0746601";
"  4P       26.023296     -0.0176393     -0.1042114      0.2172157     -0.0979404";
"  3P       18.862732      0.0098567      1.1221942     -0.9668551      0.3906723";
"  3P       13.291252     -0.0026615      0.2167617     -0.3884827      0.1478441";
"  3P        8.935252      0.0009600     -0.0076668      1.1618042     -0.5318386";
"  4P        7.356536     -0.0002111      0.0024633      0.3203760     -0.2871176";
"  3P        3.121242      0.0000389     -0.0003136      0.0082773      0.8638762";
"  3P        2.075235     -0.0000156      0.0001076     -0.0017903      0.3533917";
"        D                    3D             4D             5D ";
"  BASIS/ORB.ENERGY      -63.9488088     -8.8809908     -0.3243898";
"  3D       37.087770      0.0211120     -0.0090204      0.0019523";
"  3D       23.120798      0.5594538     -0.2785030      0.0632842";
"  4D       18.932868      0.4371224     -0.2399802      0.0554542";
"  4D       12.064253      0.0616689      0.3585662     -0.0978792";
"  4D        8.406485     -0.0122587      0.6033008     -0.1583776";
"  4D        5.915269      0.0047823      0.2090239     -0.0579027";
"  4D        3.542840     -0.0010781      0.0081207      0.3372681";
"  4D        2.089406      0.0003847     -0.0004134      0.5642177";
"  4D        1.221170     -0.0001112      0.0001408      0.2764801";
"        F                    4F ";
"  BASIS/ORB.ENERGY       -1.4302060";
"  4F       22.572535      0.0225000";
"  4F       13.324140      0.2288594";
"  4F        8.629242      0.3954364";
"  4F        5.567960      0.3557229";
"  4F        3.525177      0.1652271";
"  4F        2.245564      0.0229193"].
(** data.tar: neutral/hg.slater:1-56 *)
Definition hg_neutral : list string := [
"      MERCURY   [XE]4F(14)6S(2)5D(10), 1S                                             ";
"      CHARGE = 80.000000";
"      SYMMETRY SPECIES               S     P     D     F ";
"      NUMBER OF BASIS FUNCTIONS     13    10     9     6";
"      NUMBER OF CLOSED SHELLS        6     4     3     1";
"      NUMBER OF OPEN SHELLS          0     0     0     0";
"      OPEN SHELL OCCUPATION NUMBER   0     0     0     0";
"   E =-18408.991254661";
"   T = 18408.991325992     V =-36817.982580653     V/T =    -1.999999996";
"  ORBITAL ENERGIES AND EXPANSION COEFFICIENTS";
"        S                    1S             2S             3S             4S             5S             6S ";
"  BASIS/ORB.ENERGY    -2778.6801370   -470.7349636   -113.1365180    -25.5732870     -4.1819252      -.2609854";
"  1S       98.407393       .0579610       .0194801      -.0063260       .0017158      -.0013031       .0002967";
"  1S       78.536315       .9396339      -.3674712       .1703640      -.0829030       .0362685      -.0092173";
"  2S       65.150893       .0034806      -.2505531       .1353694      -.0712106       .0296133      -.0076291";
"  2S       37.330051       .0022126      1.1554335      -.6037821       .3108227      -.1314979       .0337279";
"  3S       33.891651      -.0018310       .1076018      -.4588287       .2536265      -.1162904       .0296292";
"  3S       23.937157       .0014765       .0064621       .4677998       .0716950      -.0616309       .0180210";
"  3S       19.164856      -.0009038      -.0018700       .9536886     -1.3535425       .6825517      -.1795999";
"  3S        9.688704       .0005319       .0000330       .0528794      1.3570118      -.3165944       .0516334";
"  3S        8.234789      -.0004669      -.0001321      -.0333178       .0914619      -.9896312       .3312508";
"  3S        5.007613       .0001088       .0000568       .0045738       .0208747       .8675572      -.2900936";
"  3S        3.538904      -.0000408      -.0000156      -.0015571      -.0026074       .6694894      -.2681278";
"  3S        1.429284       .0000063       .0000026       .0001996       .0003808       .0040119       .5425470";
"  3S         .889673      -.0000029      -.0000012      -.0000884      -.0001569      -.0009913       .5775647";
"        P                    2P             3P             4P             5P ";
"  BASIS/ORB.ENERGY     -452.1802281   -104.3406915    -21.6988419     -2.8507898";
"  2P       73.351279       .0075136      -.0026374       .0013778      -.0005876";
"  2P       42.080191       .7624465      -.3884233       .1917436      -.0767222";
"  3P       37.417209       .2542785      -.2859315       .1950097      -.0882093";
"  4P       30.282585       .0165738      -.1117375       .1740701      -.0975212";
"  3P       21.476918      -.0070305      1.1502851      -.9187055       .4453609";
"  3P       14.469768       .0027227       .2404704      -.7318203       .2750105";
"  3P       11.281557      -.0015470      -.0441605      1.3194948      -.6064221";
"  4P        9.281333       .0002295       .0058860       .4795723      -.5367627";
"  3P        4.128865      -.0000261      -.0007330       .0132060       .9708366";
"  3P        2.755971       .0000118       .0001864      -.0020977       .3524783";
"        D                    3D             4D             5D ";
"  BASIS/ORB.ENERGY      -88.1452717    -14.6095306      -.7141274";
"  3D       45.619372       .0085415      -.0036231       .0011554";
"  3D       27.639683       .4974644      -.2606256       .0829471";
"  4D       22.702681       .4798983      -.2843293       .0947075";
"  4D       14.977821       .1024998       .1842863      -.0835224";
"  4D       11.080054      -.0224210       .5966800      -.2062859";
"  4D        8.180613       .0075717       .3659305      -.2089329";
"  4D        4.964891      -.0013650       .0178022       .4474578";
"  4D        3.064010       .0004448      -.0016043       .5721079";
"  4D        1.838315      -.0001132       .0003513       .2025146";
"        F                    4F ";
"  BASIS/ORB.ENERGY       -5.0123031";
"  4F       26.289706       .0211615";
"  4F       15.957370       .2376280";
"  4F       10.811471       .3651802";
"  4F        7.904799       .3305479";
"  4F        5.582508       .1606072";
"  4F        3.629353       .0167193"].
(** data.tar: neutral/ho.slater:1-54 *)
Definition ho_neutral : list string := [
"      HOLMIUM   [XE]6S(2)5D(0)4F(11), 4I                                              ";
"      CHARGE = 67.000000";
"      SYMMETRY SPECIES               S     P     D     F ";
"      NUMBER OF BASIS FUNCTIONS     13    10     7     6";
"      NUMBER OF CLOSED SHELLS        6     4     2     0";
"      NUMBER OF OPEN SHELLS          0     0     0     1";
"      OPEN SHELL OCCUPATION NUMBER   0     0     0    11";
"   E =-12065.289636642";
"   T = 12065.289643677     V =-24130.579280319     V/T =    -1.999999999";
"  ORBITAL ENERGIES AND EXPANSION COEFFICIENTS";
"        S                    1S             2S             3S             4S             5S             6S ";
"  BASIS/ORB.ENERGY    -1921.6715752   -313.3909892    -71.3083822    -14.6444545     -1.9815595      -.1777417";
"  1S       84.799047       .0483583       .0146698      -.0053234       .0009448      -.0007785       .0000274";
"  1S       65.843872       .9473867      -.3572651       .1637502      -.0762302       .0290376      -.0069061";
"  2S       54.615194       .0059912      -.2445157       .1269166      -.0653208       .0236160      -.0061358";
"  2S       31.642320       .0020644      1.0873835      -.5509785       .2751828      -.1013500       .0255711";
"  3S       28.972112      -.0014304       .1700867      -.3967369       .2066239      -.0817966       .0189805";
"  3S       18.655894       .0011756       .0140956       .3865806       .1935223      -.1057265       .0317524";
"  3S       15.595011      -.0008685      -.0060929       .9349763     -1.3552079       .5939760      -.1543042";
"  3S        8.081194       .0002780       .0005810       .0415528       .9751924      -.3528306       .0925957";
"  3S        6.468844      -.0001905      -.0004634      -.0174159       .4539978      -.5509131       .1434569";
"  3S        3.164079       .0000472       .0001153       .0024777       .0072734       .8306542      -.2126818";
"  3S        2.308228      -.0000272      -.0000605      -.0013585      -.0014130       .4313372      -.2242576";
"  3S         .914799       .0000068       .0000146       .0002998       .0002387      -.0009608       .6537366";
"  3S         .647160      -.0000039      -.0000083      -.0001686      -.0001250       .0005702       .4460854";
"        P                    2P             3P             4P             5P ";
"  BASIS/ORB.ENERGY     -298.3763184    -64.4903355    -11.8558629     -1.1493828";
"  2P       60.023728      -.0102617      -.0035312       .0021014      -.0008060";
"  2P       34.882305      -.7580560      -.3769851       .1761713      -.0586073";
"  3P       30.725141      -.2591686      -.2691004       .1878514      -.0694273";
"  4P       23.756830      -.0208891      -.1227144       .2306072      -.0965567";
"  3P       17.381020       .0132584      1.1111100      -.9323641       .3557015";
"  3P       12.417609      -.0034159       .2370956      -.3936912       .1506828";
"  3P        8.055475       .0010577      -.0035498      1.1471586      -.5109746";
"  4P        6.614935      -.0002506       .0018335       .3051253      -.2509516";
"  3P        2.795860       .0000515      -.0002393       .0086517       .7824373";
"  3P        1.865851      -.0000207       .0000896      -.0019296       .4148456";
"        D                    3D             4D ";
"  BASIS/ORB.ENERGY      -51.9534907     -6.8488198";
"  3D       42.149351       .0045106      -.0015664";
"  3D       23.588381       .4332153      -.2091486";
"  4D       19.082168       .4836694      -.2429797";
"  4D       13.653646       .1599460      -.0949831";
"  4D       10.485149      -.0000752       .4890742";
"  4D        6.956310       .0019829       .6125045";
"  4D        4.500166       .0000215       .1037768";
"        F                    4F ";
"  BASIS/ORB.ENERGY        -.7085302";
"  4F       20.613942       .0213636";
"  4F       11.971861       .2073761";
"  4F        7.727813       .3760613";
"  4F        4.914573       .3657866";
"  4F        3.010806       .2027725";
"  4F        1.850632       .0472901"].
(** data.tar: neutral/in.slater:1-52 *)
Definition in_neutral : list string := [
"      INDIUM   K(2)L(8)M(18)4S(2)4P(6)5S(2)4D(10)5P(1), 2P                            ";
"   E = -5740.169150772";
"   T =  5740.169150632     V =-11480.338301403     V/T =    -2.000000000";
"  ORBITAL ENERGIES AND EXPANSION COEFFICIENTS";
"        S                    1S             2S             3S             4S             5S ";
"  BASIS/ORB.ENERGY     -997.8004534   -149.3954383    -29.6246638     -4.9767023     -0.3726634";
"              CUSP        1.0003023      1.0001652      1.0004499      1.0006039      0.9999698";
"  1S       78.931670     -0.0142157      0.0546513     -0.0233526      0.0092950     -0.0025125";
"  3S       59.837425      0.0175006     -0.0480712      0.0211407     -0.0085762      0.0022335";
"  1S       50.067547      0.9859097     -0.4174548      0.1816464     -0.0764116      0.0206063";
"  4S       35.479347     -0.0178604      0.1080631     -0.0285980      0.0043357     -0.0019926";
"  3S       23.025101     -0.0139916      0.1899635     -0.5747991      0.4100931     -0.1127555";
"  2S       23.015102      0.0471222      0.5140674     -0.7205153      0.5401772     -0.1542355";
"  2S       17.915983      0.0004136      0.3007600      0.8087809     -0.8291304      0.2421598";
"  4S       13.827518      0.0002230      0.0030729      0.7432703     -0.5467518      0.1661975";
"  4S       10.265558     -0.0001413     -0.0004854      0.3022462     -0.6065028      0.1970415";
"  2S        3.763681      0.0000827     -0.0001266      0.0107650      1.5446567     -0.4929401";
"  2S        2.140831     -0.0001140     -0.0000454     -0.0045254      0.0499097     -0.6818490";
"  2S        1.711542      0.0000897      0.0000453      0.0030485     -0.0151329      0.6092617";
"  2S        0.959206     -0.0000197     -0.0000123     -0.0005282      0.0011629      0.9732952";
"  2S        0.628144      0.0000058      0.0000039      0.0001411     -0.0002013      0.0233062";
"        P                    2P             3P             4P             5P ";
"  BASIS/ORB.ENERGY     -139.1719227    -25.3742820     -3.5072154     -0.1972823";
"              CUSP        1.0009453      1.0007350      0.9995884      0.9991119";
"  2P       60.501482      0.0173853     -0.0306241     -0.0202965      0.0044821";
"  3P       53.257212      0.0210311     -0.0359791     -0.0236607      0.0052172";
"  3P       34.960599      0.1171843     -0.1678469     -0.1100237      0.0242693";
"  2P       24.975942     -0.9663332      0.6518362      0.3308470     -0.0691407";
"  3P       20.116604     -0.2129668      0.1035377      0.0000548      0.0035886";
"  3P       11.258653      0.0028118     -0.8037595     -0.2157447      0.0363128";
"  3P        9.424572     -0.0098008     -0.1741340     -0.6283409      0.1606011";
"  3P        4.754638     -0.0171060      0.3782962      0.4313917     -0.0621297";
"  2P        3.625842      0.0347689     -0.8592254      0.0293450     -0.1555203";
"  3P        2.688752      0.0112176     -0.3153626     -0.5834057     -0.0742979";
"  2P        2.453862     -0.0230396      0.6354652      1.3763632     -0.1743228";
"  2P        0.824472      0.0000491     -0.0002946      0.0010460      0.5626616";
"  2P        0.628144     -0.0000274      0.0001312     -0.0001678      0.5436137";
"        D                    3D             4D ";
"  BASIS/ORB.ENERGY      -17.5895624     -1.0631372";
"              CUSP        0.9991311      1.0005904";
"  3D       55.317221      0.0007438     -0.0003637";
"  4D       41.994493      0.0040391     -0.0020226";
"  3D       21.613292     -0.0598389      0.0428431";
"  3D       19.210472      0.2042584     -0.1058276";
"  3D       11.680393      0.5030443     -0.1202876";
"  3D        8.644928      0.3587071     -0.3285544";
"  3D        6.351845      0.0474870      0.1665113";
"  3D        3.983040      0.0001790      0.5253817";
"  3D        2.589850      0.0003136      0.4479958";
"  3D        1.716691     -0.0000944      0.1029379";
"  3D        0.628144      0.0000070      0.0003100";
""].
(** data.tar: neutral/ir.slater:1-56 *)
Definition ir_neutral : list string := [
"      IRIDIUM   [XE]4F(14)6S(2)5D(7), 4F                                              ";
"      CHARGE = 77.000000";
"      SYMMETRY SPECIES               S     P     D     F ";
"      NUMBER OF BASIS FUNCTIONS     13    10     9     6";
"      NUMBER OF CLOSED SHELLS        6     4     2     1";
"      NUMBER OF OPEN SHELLS          0     0     1     0";
"      OPEN SHELL OCCUPATION NUMBER   0     0     7     0";
"   E =-16806.112932370";
"   T = 16806.112983194     V =-33612.225915564     V/T =    -1.999999997";
"  ORBITAL ENERGIES AND EXPANSION COEFFICIENTS";
"        S                    1S             2S             3S             4S             5S             6S ";
"  BASIS/ORB.ENERGY    -2566.4847291   -431.1921506   -102.2217331    -22.4893595     -3.5447397     -0.2453197";
"  1S       95.032583      0.0575478      0.0188356     -0.0062462      0.0014064     -0.0010843      0.0002313";
"  1S       75.575655      0.9398472     -0.3660565      0.1692949     -0.0811286      0.0342940     -0.0088831";
"  2S       62.684408      0.0037623     -0.2491259      0.1337239     -0.0702059      0.0283241     -0.0074879";
"  2S       35.958786      0.0022281      1.1461907     -0.5958096      0.3048080     -0.1249572      0.0328172";
"  3S       32.687170     -0.0017968      0.1154383     -0.4463345      0.2390473     -0.1051792      0.0271978";
"  3S       23.004698      0.0013880      0.0074219      0.4224641      0.0973735     -0.0719112      0.0213428";
"  3S       18.395302     -0.0008335     -0.0020932      0.9817089     -1.3393999      0.6537300     -0.1760109";
"  3S        9.285849      0.0003797      0.0000516      0.0456034      1.2621349     -0.4328908      0.1012082";
"  3S        7.566137     -0.0003174     -0.0001412     -0.0253761      0.1770200     -0.7636726      0.2503733";
"  3S        4.491834      0.0000943      0.0000634      0.0046183      0.0124722      0.8523744     -0.2752393";
"  3S        3.226227     -0.0000405     -0.0000219     -0.0018146     -0.0015888      0.6094617     -0.2685050";
"  3S        1.331963      0.0000069      0.0000038      0.0002607      0.0002723      0.0037408      0.5479532";
"  3S        0.847928     -0.0000032     -0.0000018     -0.0001175     -0.0001132     -0.0009311      0.5742112";
"        P                    2P             3P             4P             5P ";
"  BASIS/ORB.ENERGY     -413.4681711    -93.8950542    -18.8829341     -2.3385448";
"  2P       70.152737      0.0081514     -0.0028196      0.0015418     -0.0006495";
"  2P       40.345105      0.7648176     -0.3879687      0.1886968     -0.0723548";
"  3P       35.784105      0.2521346     -0.2802834      0.1941492     -0.0845182";
"  4P       28.613630      0.0164528     -0.1084036      0.1892031     -0.1010856";
"  3P       20.480824     -0.0077627      1.1435486     -0.9405451      0.4359814";
"  3P       14.033605      0.0025114      0.2224297     -0.5539556      0.2049897";
"  3P       10.321772     -0.0012187     -0.0246838      1.2171566     -0.5678673";
"  4P        8.552420      0.0002196      0.0045298      0.4181399     -0.4443678";
"  3P        3.740117     -0.0000299     -0.0005710      0.0110103      0.9524221";
"  3P        2.489419      0.0000125      0.0001600     -0.0019747      0.3342233";
"        D                    3D             4D             5D ";
"  BASIS/ORB.ENERGY      -78.5694975    -12.3088202     -0.5739344";
"  3D       41.611811      0.0138156     -0.0059367      0.0016946";
"  3D       25.711049      0.5303204     -0.2730441      0.0802993";
"  4D       21.115165      0.4595620     -0.2660764      0.0810360";
"  4D       13.665803      0.0795686      0.2879990     -0.1091198";
"  4D        9.750244     -0.0178901      0.6260528     -0.2059996";
"  4D        7.096141      0.0071068      0.2484066     -0.1372111";
"  4D        4.480287     -0.0016453      0.0110728      0.4154586";
"  4D        2.743124      0.0005016     -0.0003291      0.5746340";
"  4D        1.639544     -0.0001317      0.0002058      0.2194030";
"        F                    4F ";
"  BASIS/ORB.ENERGY       -3.5216709";
"  4F       24.853136      0.0221288";
"  4F       14.911967      0.2421892";
"  4F        9.790906      0.4144238";
"  4F        6.623491      0.3445352";
"  4F        4.425274      0.1168838";
"  4F        2.775013      0.0071534"].
(** data.tar: neutral/kr.slater:1-44 *)
Definition kr_neutral : list string := [
"      KRYPTON   K(2)L(8)M(18)4S(2)4P(6), 1S                                           ";
"   E = -2752.054975504";
"   T =  2752.054976552     V = -5504.109952057     V/T =    -2.000000000";
"  ORBITAL ENERGIES AND EXPANSION COEFFICIENTS";
"        S                    1S             2S             3S             4S ";
"  BASIS/ORB.ENERGY     -520.1654687    -69.9030823    -10.8494654     -1.1529352";
"              CUSP        1.0003694      0.9999338      1.0001213      1.0003202";
"  1S       60.777807      0.0148759      0.0439991     -0.0185648      0.0059175";
"  3S       44.499723     -0.0234416     -0.0508013      0.0218088     -0.0070282";
"  1S       36.979014     -0.9783877     -0.3906898      0.1586820     -0.0507087";
"  4S       25.529164      0.0259097      0.1062937     -0.0384550      0.0106434";
"  2S       15.429937     -0.0689468      0.7865245     -0.4023743      0.1369390";
"  3S       15.427470      0.0291144      0.1733641     -0.3230848      0.1300108";
"  3S        7.202997      0.0095501     -0.0684596      0.4573148     -0.0513369";
"  2S        6.034988     -0.0137021      0.1177337      0.4908703      0.0963564";
"  2S        4.750173      0.0006363     -0.0134150      0.3098497     -0.9038936";
"  2S        2.188877      0.0001085      0.0005485     -0.0005023      0.6794236";
"  2S        1.592153     -0.0001339     -0.0005428      0.0025103      0.6213645";
"  1S        1.023901      0.0000824      0.0002903     -0.0010443      0.0338756";
"        P                    2P             3P             4P ";
"  BASIS/ORB.ENERGY      -63.0097850     -8.3315005     -0.5241866";
"              CUSP        1.0009666      0.9994347      0.9995559";
"  2P       55.423460     -0.0062132     -0.0039511     -0.0012127";
"  3P       45.348388     -0.0133944     -0.0084081     -0.0025837";
"  2P       26.746410      0.3355068      0.1656088      0.0478133";
"  3P       21.299661      0.4219443      0.1992198      0.0558041";
"  3P       15.365217      0.3213774      0.3102247      0.1007406";
"  2P        8.075067      0.0286895     -0.3970577     -0.1665597";
"  3P        6.762676     -0.0034907     -0.6549448     -0.1758964";
"  3P        4.956675      0.0012162     -0.2207516     -0.3108946";
"  3P        1.641161      0.0003760      0.0056800     -0.5032745";
"  2P        1.395473     -0.0004632     -0.0090577      1.5227627";
"  2P        1.023901     -0.0000170      0.0004744      0.1439485";
"        D                    3D ";
"  BASIS/ORB.ENERGY       -3.8252344";
"              CUSP        0.9994429";
"  3D       33.868162      0.0015784";
"  4D       26.569736      0.0064515";
"  3D       11.514091      0.1841738";
"  3D        7.536640      0.3761312";
"  3D        5.124374      0.4160275";
"  3D        3.510570      0.1139990";
"  3D        2.025551      0.0039681";
"  3D        1.023901      0.0000090"].
(** data.tar: neutral/la.slater:1-48 *)
Definition la_neutral : list string := [
"      LANTHANUM   [XE]6S(2)5D(1), 2D                                                  ";
"      CHARGE = 57.000000";
"      SYMMETRY SPECIES               S     P     D ";
"      NUMBER OF BASIS FUNCTIONS     13    10     9";
"      NUMBER OF CLOSED SHELLS        6     4     2";
"      NUMBER OF OPEN SHELLS          0     0     1";
"      OPEN SHELL OCCUPATION NUMBER   0     0     1";
"   E = -8221.066556283";
"   T =  8221.066541731     V =-16442.133098014     V/T =    -2.000000002";
"  ORBITAL ENERGIES AND EXPANSION COEFFICIENTS";
"        S                    1S             2S             3S             4S             5S             6S ";
"  BASIS/ORB.ENERGY    -1372.2802254   -216.2769147    -47.8443276    -10.3454502     -1.7043427     -0.1703597";
"  1S       74.686053      0.0384678      0.0108460     -0.0044792      0.0009017     -0.0006996      0.0000873";
"  1S       56.122632      0.9548115     -0.3474916      0.1564427     -0.0717595      0.0293811     -0.0081334";
"  2S       46.442201      0.0093450     -0.2418844      0.1194892     -0.0600463      0.0234359     -0.0068875";
"  2S       27.670889      0.0016865      0.9908451     -0.4829444      0.2358324     -0.0936850      0.0269649";
"  3S       25.126010     -0.0009857      0.2675671     -0.3807365      0.1960109     -0.0832184      0.0228346";
"  3S       14.473285      0.0009338      0.0269573      0.5082533      0.1936691     -0.1201522      0.0409068";
"  3S       12.560364     -0.0008241     -0.0162263      0.7480968     -1.2891416      0.6173143     -0.1849423";
"  3S        6.313598      0.0003035      0.0023328      0.0462103      1.1570722     -0.4092386      0.1174919";
"  3S        5.148584     -0.0002386     -0.0018301     -0.0245112      0.2494980     -0.6346075      0.2053043";
"  3S        2.721675      0.0000725      0.0005168      0.0044155      0.0088541      0.9794392     -0.3094400";
"  3S        2.038687     -0.0000422     -0.0002856     -0.0024153     -0.0019452      0.3763127     -0.2554968";
"  3S        0.883413      0.0000100      0.0000651      0.0005026      0.0003166     -0.0009352      0.6378111";
"  3S        0.635998     -0.0000053     -0.0000345     -0.0002636     -0.0001533      0.0005842      0.4924238";
"        P                    2P             3P             4P             5P ";
"  BASIS/ORB.ENERGY     -203.9073241    -42.4590715     -8.2588263     -1.0493592";
"  2P       47.922059      0.0193450     -0.0068441      0.0033712     -0.0015792";
"  2P       28.166523      0.8174909     -0.3957572      0.1812977     -0.0662802";
"  3P       24.260607      0.1917262     -0.3352747      0.2245080     -0.1073381";
"  4P       19.029118      0.0096392     -0.3994825      0.3689578     -0.2062746";
"  3P       15.044910     -0.0060774      1.3629184     -0.9380633      0.4672205";
"  3P       10.575140      0.0009764      0.3473940     -0.5341449      0.1921000";
"  3P        6.469568     -0.0004492     -0.0010579      1.0971261     -0.5131835";
"  4P        5.487832      0.0000934      0.0015722      0.3260132     -0.3558958";
"  3P        2.366537     -0.0000188     -0.0003336      0.0106450      0.9597379";
"  3P        1.608197      0.0000078      0.0001188     -0.0026039      0.2950228";
"        D                    3D             4D             5D ";
"  BASIS/ORB.ENERGY      -32.5535424     -4.5535119     -0.2688171";
"  3D       34.153392      0.0071691     -0.0026035      0.0008930";
"  3D       19.107963      0.4435003     -0.2047753      0.0532214";
"  4D       15.073064      0.4991228     -0.2288931      0.0670341";
"  4D       10.165703      0.1664653     -0.1460586      0.0017020";
"  4D        8.440305     -0.0306542      0.4917533     -0.0905339";
"  4D        5.562649      0.0040676      0.6480873     -0.2726263";
"  4D        3.651979     -0.0009574      0.1079708      0.1020024";
"  4D        2.027158      0.0001670     -0.0009317      0.6374399";
"  4D        1.145554     -0.0000470      0.0004376      0.4288175"].
(** data.tar: neutral/lu.slater:1-56 *)
Definition lu_neutral : list string := [
"      LUTECIUM   [XE]6S(2)5D(1)4F(14), 2D                                             ";
"      CHARGE = 71.000000";
"      SYMMETRY SPECIES               S     P     D     F ";
"      NUMBER OF BASIS FUNCTIONS     13    10     9     6";
"      NUMBER OF CLOSED SHELLS        6     4     2     1";
"      NUMBER OF OPEN SHELLS          0     0     1     0";
"      OPEN SHELL OCCUPATION NUMBER   0     0     1     0";
"   E =-13851.807781166";
"   T = 13851.807792702     V =-27703.615573867     V/T =    -1.999999999";
"  ORBITAL ENERGIES AND EXPANSION COEFFICIENTS";
"        S                    1S             2S             3S             4S             5S             6S ";
"  BASIS/ORB.ENERGY    -2167.7313827   -357.5722232    -82.2686747    -16.9378029     -2.3169459     -0.1988028";
"  1S       88.158050      0.0576387      0.0175358     -0.0061864      0.0011281     -0.0008980      0.0001001";
"  1S       69.634798      0.9394633     -0.3631523      0.1671104     -0.0780593      0.0300289     -0.0074363";
"  2S       57.735491      0.0041575     -0.2462672      0.1298612     -0.0673942      0.0246178     -0.0064745";
"  2S       33.352021      0.0023438      1.1156124     -0.5718910      0.2877386     -0.1070141      0.0275966";
"  3S       30.451377     -0.0017115      0.1444666     -0.4147604      0.2154299     -0.0859171      0.0209398";
"  3S       20.515313      0.0013103      0.0103281      0.3794722      0.1527775     -0.0878742      0.0262656";
"  3S       16.747706     -0.0008633     -0.0035161      0.9751955     -1.3356485      0.5894331     -0.1556477";
"  3S        8.641112      0.0002871      0.0002214      0.0404550      1.0165279     -0.3795159      0.0986737";
"  3S        6.885200     -0.0001989     -0.0002304     -0.0170584      0.4144969     -0.5440145      0.1517480";
"  3S        3.414551      0.0000527      0.0000694      0.0026226      0.0065050      0.8646575     -0.2360099";
"  3S        2.490551     -0.0000308     -0.0000355     -0.0014475     -0.0011621      0.4084402     -0.2254036";
"  3S        1.042682      0.0000075      0.0000084      0.0003134      0.0001953     -0.0001496      0.5962871";
"  3S        0.714282     -0.0000039     -0.0000044     -0.0001612     -0.0000910      0.0002725      0.5160913";
"        P                    2P             3P             4P             5P ";
"  BASIS/ORB.ENERGY     -341.4900455    -74.8602434    -13.8449925     -1.3757605";
"  2P       63.903538     -0.0095090     -0.0032247      0.0019176     -0.0007453";
"  2P       37.008976     -0.7636049     -0.3834107      0.1808822     -0.0609848";
"  3P       32.687216     -0.2534685     -0.2696530      0.1919663     -0.0719194";
"  4P       25.543805     -0.0182926     -0.1052442      0.2230951     -0.0950623";
"  3P       18.549954      0.0105918      1.1188188     -0.9702328      0.3755839";
"  3P       13.120080     -0.0028147      0.2181627     -0.3707397      0.1434042";
"  3P        8.701682      0.0009634     -0.0060900      1.1592111     -0.5233215";
"  4P        7.137705     -0.0002176      0.0022206      0.3057180     -0.2583804";
"  3P        3.013129      0.0000424     -0.0002813      0.0080667      0.8252859";
"  3P        2.003340     -0.0000170      0.0001016     -0.0017811      0.3776873";
"        D                    3D             4D             5D ";
"  BASIS/ORB.ENERGY      -61.2363231     -8.2648215     -0.2433199";
"  3D       36.177588      0.0231651     -0.0098965      0.0018859";
"  3D       22.585179      0.5665592     -0.2801740      0.0567396";
"  4D       18.486867      0.4308225     -0.2340335      0.0477682";
"  4D       11.757966      0.0576575      0.3727748     -0.0887625";
"  4D        8.137374     -0.0106848      0.6030118     -0.1436141";
"  4D        5.658663      0.0040573      0.1974776     -0.0376242";
"  4D        3.305766     -0.0008520      0.0070434      0.3235841";
"  4D        1.885996      0.0003061     -0.0003280      0.5505619";
"  4D        1.068929     -0.0000919      0.0001115      0.3110526";
"        F                    4F ";
"  BASIS/ORB.ENERGY       -1.0768125";
"  4F       22.312950      0.0210973";
"  4F       13.203800      0.2095382";
"  4F        8.660479      0.3716656";
"  4F        5.596255      0.3644870";
"  4F        3.496657      0.1974277";
"  4F        2.185855      0.0408131"].
(** data.tar: neutral/md.slater:1-64 *)
Definition md_neutral : list string := [
"      MENDELEVIUM   [RN]7S(2)5F(13), 2F                                               ";
"      CHARGE =101.000000";
"      SYMMETRY SPECIES               S     P     D     F ";
"      NUMBER OF BASIS FUNCTIONS     15    12     9     8";
"      NUMBER OF CLOSED SHELLS        7     5     3     1";
"      NUMBER OF OPEN SHELLS          0     0     0     1";
"      OPEN SHELL OCCUPATION NUMBER   0     0     0    13";
"   E =-32030.932747565";
"   T = 32030.932800758     V =-64061.865548323     V/T =    -1.999999998";
" ";
"  ORBITAL ENERGIES AND EXPANSION COEFFICIENTS";
"        S                    1S             2S             3S             4S             5S             6S             7S ";
"  BASIS/ORB.ENERGY    -4509.0220406   -803.8817136   -211.5596497    -57.3582275    -13.1869516     -1.8591615     -0.1692929";
"  1S      115.391891      0.1387007      0.0393327     -0.0114802      0.0067210     -0.0058566      0.0020815     -0.0007466";
"  1S       97.954198      0.8637621     -0.4009507      0.1851420     -0.0988838      0.0536066     -0.0211037      0.0054638";
"  2S       81.129010     -0.0032184     -0.2568815      0.1464984     -0.0776931      0.0368801     -0.0150194      0.0034090";
"  2S       47.332097      0.0034018      1.1999673     -0.6488705      0.3454397     -0.1710300      0.0688760     -0.0163474";
"  3S       42.320127     -0.0029223      0.0826898     -0.5431963      0.3670729     -0.2160638      0.0865612     -0.0225590";
"  3S       29.834074      0.0029566     -0.0011652      0.9430390     -0.3102048      0.1867612     -0.0699546      0.0215364";
"  3S       23.236958     -0.0024654      0.0010186      0.6091989     -1.3993738      0.7360743     -0.3030232      0.0667691";
"  4S       14.207334     -0.0010423      0.0004685      0.0090713      0.2281715     -1.0875373      0.5787286     -0.1579232";
"  3S       14.206628      0.0016115     -0.0009347     -0.0133204      1.4944859     -0.7430410      0.2951928     -0.0621286";
"  3S        7.354132      0.0003703     -0.0000608     -0.0031974      0.0423528      1.1840322     -0.4970305      0.1398206";
"  3S        6.016394     -0.0002310      0.0000448      0.0017020     -0.0139344      0.5570785     -0.7283184      0.1818166";
"  3S        2.915143      0.0000407     -0.0000088     -0.0002481      0.0009005      0.0084677      0.9656736     -0.2379489";
"  3S        2.137287     -0.0000227      0.0000043      0.0001421     -0.0004784     -0.0019402      0.3561557     -0.2333172";
"  3S        0.868222      0.0000056     -0.0000010     -0.0000338      0.0000874      0.0003303     -0.0028583      0.6685742";
"  3S        0.624338     -0.0000031      0.0000006      0.0000191     -0.0000476     -0.0001759      0.0014392      0.4396392";
"        P                    2P             3P             4P             5P             6P ";
"  BASIS/ORB.ENERGY     -779.4236486   -199.3589515    -51.4725182    -10.6982530     -1.0928626";
"  2P       95.948792     -0.0045776     -0.0015402      0.0005644     -0.0001286      0.0000836";
"  2P       54.581376     -0.7373153     -0.3856345      0.2057248     -0.1030817      0.0371323";
"  3P       49.331192     -0.2641188     -0.2458139      0.1361881     -0.0645509      0.0241469";
"  3P       34.497757     -0.0363809      0.3532552     -0.1788596      0.0933026     -0.0343753";
"  4P       31.491063      0.0133867      0.5965129     -0.4583021      0.2949639     -0.1048525";
"  4P       17.908716      0.0069554     -0.1828417      0.7737909     -0.0150088     -0.0086991";
"  3P       17.907648     -0.0088859      0.4155587     -0.9297820      0.7448659     -0.3189347";
"  3P       12.793148     -0.0024995      0.0348440      1.1038132     -1.9909940      0.8614517";
"  3P        7.268828      0.0004070     -0.0043721      0.0293378      0.9434374     -0.3575239";
"  3P        5.674396     -0.0001980      0.0017456     -0.0067581      0.6977626     -0.6089449";
"  3P        2.570074      0.0000231     -0.0001787      0.0004908      0.0096707      0.8781403";
"  3P        1.744131     -0.0000097      0.0000728     -0.0001916     -0.0022198      0.3600879";
"        D                    3D             4D             5D ";
"  BASIS/ORB.ENERGY     -176.8439742    -40.5337150     -6.2544076";
"  3D       67.396992      0.0018018     -0.0006551      0.0003824";
"  3D       37.977966      0.4340911     -0.2507179      0.1175069";
"  4D       31.739815      0.4929951     -0.3286528      0.1653317";
"  4D       22.096008      0.1634259      0.0058138     -0.0398263";
"  4D       16.329719     -0.0364908      0.6983340     -0.2894925";
"  4D       12.928930      0.0180152      0.3878846     -0.6239066";
"  4D        9.503720     -0.0046140      0.0442815      0.5283939";
"  4D        6.324569      0.0007797     -0.0008967      0.7886670";
"  4D        4.112831     -0.0001581      0.0003581      0.1179015";
"        F                    4F             5F ";
"  BASIS/ORB.ENERGY      -25.2325939     -0.9178272";
"  4F       36.511074      0.0143953     -0.0050084";
"  4F       22.750806      0.2509049     -0.1045139";
"  4F       14.880176      0.6042434     -0.2218970";
"  5F        9.847647     -0.0418247      0.2488345";
"  4F        9.835102      0.2453018     -0.1319842";
"  4F        5.518981      0.0036293      0.5670575";
"  4F        3.405016      0.0000479      0.3503629";
"  4F        2.116027      0.0001910      0.0880302";
" "].
(** data.tar: neutral/mg.slater:1-27 *)
Definition mg_neutral : list string := [
"      MAGNESIUM   K(2)L(8)3S(2), 1S                                                   ";
"   E =  -199.614636270";
"   T =   199.614636280     V =  -399.229272549     V/T =    -2.000000000";
"  ORBITAL ENERGIES AND EXPANSION COEFFICIENTS";
"        S                    1S             2S             3S ";
"  BASIS/ORB.ENERGY      -49.0317363     -3.7677216     -0.2530524";
"              CUSP        0.9999991      0.9997885      0.9995405";
"  2S       35.988252     -0.0004360      0.0001304      0.0000306";
"  1S       19.193253     -0.1729871     -0.0094505      0.0007143";
"  2S       16.093419     -0.1169158     -0.0167113     -0.0009558";
"  1S       10.773377     -0.7144360      0.1266857      0.0081759";
"  1S        7.853579     -0.0148335      0.6252975      0.1267181";
"  2S        6.023976     -0.0028713      0.1486317      0.0042013";
"  1S        2.905152     -0.0011717     -1.4729320     -0.0558535";
"  1S        1.694174      0.0000626     -0.0053579     -0.6244636";
"  2S        0.750076      0.0000076     -0.0001472      0.5390530";
"  1S        0.711410     -0.0000173      0.0003601      0.7823663";
"        P                    2P ";
"  BASIS/ORB.ENERGY       -2.2822260";
"              CUSP        0.9999847";
"  3P       32.077221      0.0000356";
"  2P       12.495413      0.0286249";
"  3P        9.644163      0.0513208";
"  2P        5.042248      0.3387086";
"  2P        3.070882      0.5624952";
"  2P        2.086080      0.0909855";
"  2P        0.711410      0.0006711"].
(** data.tar: neutral/mn.slater:1-44 *)
Definition mn_neutral : list string := [
"      MANGANESE   K(2)L(8)3S(2)3P(6)4S(2)3D(5), 6S                                    ";
"   E = -1149.866250992";
"   T =  1149.866250980     V = -2299.732501972     V/T =    -2.000000000";
"  ORBITAL ENERGIES AND EXPANSION COEFFICIENTS";
"        S                    1S             2S             3S             4S ";
"  BASIS/ORB.ENERGY     -240.5339914    -29.1094747     -3.8166459     -0.2478707";
"              CUSP        1.0002344      0.9994593      0.9996703      0.9995992";
"  1S       65.615997      0.0014463      0.0014587     -0.0006400      0.0001531";
"  3S       36.493146     -0.0107434     -0.0083000      0.0038340     -0.0009212";
"  1S       26.490049     -0.8220966     -0.1380048      0.0507934     -0.0114276";
"  3S       18.586295      0.0720820      0.0503941     -0.0224750      0.0051239";
"  2S       10.770334      0.1992914      1.2042773     -0.2078934      0.0291037";
"  1S        8.946835     -0.4216099     -0.7054832      0.1832236     -0.0268992";
"  2S        8.222221      0.0184424      0.3774786     -0.8549556      0.2278690";
"  2S        3.543574     -0.0016396      0.0124346      0.8735202     -0.1521253";
"  1S        2.463906      0.0028177     -0.0140740      0.5392017      0.1876799";
"  1S        1.753364     -0.0007213      0.0028051      0.0071191     -0.8254018";
"  2S        0.743164     -0.0000471      0.0000751      0.0005806      0.5930836";
"  1S        0.704089      0.0001067     -0.0002025     -0.0012804      0.7464188";
"        P                    2P             3P ";
"  BASIS/ORB.ENERGY      -24.8125892     -2.4795310";
"              CUSP        1.0008225      0.9992597";
"  2P       52.083296      0.0003267      0.0001576";
"  3P       33.806616      0.0029985      0.0013846";
"  2P       17.420626     -0.1595513     -0.0179796";
"  3P       13.771396     -0.1056915      0.0479529";
"  2P       10.071962     -0.5160790     -0.2875608";
"  2P        7.859711     -0.2542325     -0.3226370";
"  3P        3.390377      0.0062024     -0.4273169";
"  2P        2.922745     -0.0105067      1.5653185";
"  2P        1.760084      0.0001346      0.0402565";
"  2P        0.704089     -0.0000051      0.0005669";
"        D                    3D ";
"  BASIS/ORB.ENERGY       -0.6388473";
"              CUSP        0.9998104";
"  3D       22.242214      0.0016172";
"  4D       17.176523      0.0070783";
"  3D        7.574462      0.0876536";
"  3D        5.005562      0.2828126";
"  3D        3.189753      0.3894977";
"  3D        2.065915      0.2966932";
"  3D        1.380034      0.0910173";
"  3D        0.704089      0.0002949";
""].
(** data.tar: neutral/mo.slater:1-50 *)
Definition mo_neutral : list string := [
"      MOLYBDENUM   K(2)L(8)M(18)4S(2)4P(6)5S(1)4D(5), 7S                              ";
"   E = -3975.549497368";
"   T =  3975.549499110     V = -7951.098996477     V/T =    -2.000000000";
"  ORBITAL ENERGIES AND EXPANSION COEFFICIENTS";
"        S                    1S             2S             3S             4S             5S ";
"  BASIS/ORB.ENERGY     -721.2021977   -102.8506007    -18.5845367     -2.7629140     -0.2227295";
"              CUSP        1.0003125      1.0001306      1.0004244      1.0004356      1.0007711";
"  1S       70.970218     -0.0215607      0.0455870     -0.0197491      0.0076467     -0.0019463";
"  3S       52.859118      0.0259515     -0.0464268      0.0206067     -0.0080211      0.0020747";
"  1S       43.594250      0.9787856     -0.3926623      0.1665049     -0.0649656      0.0166004";
"  4S       30.932320     -0.0285316      0.1078837     -0.0378021      0.0128633     -0.0028652";
"  3S       19.096160     -0.0308321      0.2926818     -0.3864484      0.1859491     -0.0506314";
"  2S       19.034201      0.0784890      0.6598986     -0.3646561      0.1546092     -0.0407134";
"  4S       10.703418     -0.0037055     -0.0427041      0.3122055     -0.1343980      0.0305835";
"  4S        8.196596     -0.0014479     -0.0252897     -0.0286266     -0.2460812      0.0933510";
"  2S        6.754842      0.0085161      0.1181144      0.9712118     -0.6113319      0.2025343";
"  2S        5.299063     -0.0011190     -0.0113283     -0.0014743     -0.2268674      0.0205952";
"  2S        2.917595      0.0000728      0.0005304      0.0042619      1.3814335     -0.3400054";
"  2S        2.061635     -0.0000201     -0.0001898     -0.0000973      0.1491612     -0.3285032";
"  2S        0.766969      0.0000019      0.0000139      0.0000020     -0.0057063      1.0755090";
"  3S        0.667426     -0.0000008     -0.0000101     -0.0000090     -0.0002989      0.0968801";
"        P                    2P             3P             4P ";
"  BASIS/ORB.ENERGY      -94.4440911    -15.2865653     -1.7236325";
"              CUSP        1.0001760      0.9997048      1.0003013";
"  2P       67.532635     -0.0063586     -0.0042897     -0.0020197";
"  3P       55.500761     -0.0129245     -0.0087687     -0.0041490";
"  2P       33.311169      0.2871732      0.1502529      0.0639549";
"  3P       26.716574      0.3570015      0.1695017      0.0674084";
"  3P       19.618106      0.3400397      0.3047416      0.1527488";
"  2P       13.014445      0.1139194     -0.1282251     -0.1384363";
"  3P        9.180252     -0.0001065     -0.7567888     -0.2776544";
"  3P        6.831291      0.0005742     -0.3264058     -0.5533700";
"  3P        2.310849      0.0001843      0.0069826     -0.8546911";
"  2P        2.054575     -0.0002866     -0.0114316      2.1284585";
"  2P        0.667426     -0.0000029     -0.0000264      0.0017645";
"        D                    3D             4D ";
"  BASIS/ORB.ENERGY       -9.2842255     -0.3579177";
"              CUSP        1.0003051      1.0007086";
"  3D       44.896919      0.0008596     -0.0002537";
"  4D       34.167168      0.0044399     -0.0013349";
"  3D       16.927667      0.0047783      0.0051453";
"  3D       14.083737      0.1969213     -0.0649623";
"  3D        8.794719      0.6297033     -0.1740255";
"  4D        7.132066      0.1950172     -0.1314272";
"  3D        4.695625      0.0548687      0.0936650";
"  3D        2.791184      0.0004897      0.4339458";
"  3D        1.721238      0.0001432      0.4488221";
"  3D        1.089989     -0.0000627      0.2219144";
"  3D        0.667426      0.0000124      0.0029497";
" "].
(** data.tar: neutral/n.slater:1-26 *)
Definition n_neutral : list string := [
"      NITROGEN   1S(2)2S(2)2P(3), 4S                                                  ";
"   E =   -54.400934199";
"   T =    54.400934180     V =  -108.801868378     V/T =    -2.000000000";
"  ORBITAL ENERGIES AND EXPANSION COEFFICIENTS";
"        S                    1S             2S ";
"  BASIS/ORB.ENERGY      -15.6290601     -0.9453239";
"              CUSP        0.9999757      0.9997830";
"  2S       21.666277     -0.0005456     -0.0001302";
"  1S       10.957976     -0.1970483      0.0186923";
"  2S        8.981511     -0.1281924      0.0337130";
"  1S        6.085323     -0.6885659     -0.2066322";
"  1S        3.948957     -0.0102852     -0.4498099";
"  2S        2.648617     -0.0012032      0.0126996";
"  1S        1.406521     -0.0003913      1.2313602";
"  1S        1.065447     -0.0000291      0.0261302";
"        P                    2P ";
"  BASIS/ORB.ENERGY       -0.5675889";
"              CUSP        0.9999993";
"  3P       17.587523      0.0000533";
"  2P        7.584576      0.0160353";
"  3P        5.559658      0.0221910";
"  2P        2.932934      0.2314394";
"  2P        1.874157      0.3844061";
"  2P        1.306305      0.3515842";
"  2P        1.065447      0.0723077";
""].
(** data.tar: neutral/na.slater:1-28 *)
Definition na_neutral : list string := [
"      SODIUM   K(2)L(8)3S(1), 2S                                                      ";
"   E =  -161.858911510";
"   T =   161.858911519     V =  -323.717823029     V/T =    -2.000000000";
"  ORBITAL ENERGIES AND EXPANSION COEFFICIENTS";
"        S                    1S             2S             3S ";
"  BASIS/ORB.ENERGY      -40.4785011     -2.7970265     -0.1821026";
"              CUSP        0.9999821      0.9999429      0.9999423";
"  2S       33.255324      0.0004501     -0.0001077      0.0000179";
"  1S       17.591424      0.1721192      0.0260931     -0.0024656";
"  2S       14.711825      0.1153891      0.0324851     -0.0035309";
"  1S        9.845052      0.7194672     -0.2370856      0.0269246";
"  1S        6.517050      0.0130293     -0.5048822      0.0833110";
"  2S        5.163833      0.0021183     -0.0246135     -0.0077460";
"  1S        2.473455      0.0011034      1.3396630     -0.1263390";
"  1S        1.097424     -0.0000575      0.0054488     -0.3585874";
"  2S        0.620107     -0.0000167      0.0010882      0.8979831";
"  1S        0.603494      0.0000400     -0.0022657      0.3366263";
"        P                    2P ";
"  BASIS/ORB.ENERGY       -1.5181403";
"              CUSP        0.9996514";
"  3P       28.733630      0.0000406";
"  2P       11.509522      0.0261868";
"  3P        8.818515      0.0469221";
"  2P        4.565004      0.3344314";
"  2P        2.734448      0.4892686";
"  2P        1.904519      0.1864531";
"  2P        0.603494      0.0006350";
""].
(** data.tar: neutral/nb.slater:1-49 *)
Definition nb_neutral : list string := [
"      NIOBIUM   K(2)L(8)M(18)4S(2)4P(6)5S(1)4D(4), 6D                                 ";
"   E = -3753.597725705";
"   T =  3753.597720324     V = -7507.195446029     V/T =    -2.000000001";
"  ORBITAL ENERGIES AND EXPANSION COEFFICIENTS";
"        S                    1S             2S             3S             4S             5S ";
"  BASIS/ORB.ENERGY     -685.4440236    -96.9748345    -17.2470696     -2.5374797     -0.2155954";
"              CUSP        1.0003231      1.0001349      1.0004230      1.0004552      1.0006442";
"  1S       69.224980     -0.0207875      0.0455627     -0.0196595      0.0074814     -0.0019209";
"  3S       51.473096      0.0257242     -0.0470486      0.0207850     -0.0079572      0.0020618";
"  1S       42.500584      0.9788028     -0.3925830      0.1654445     -0.0633958      0.0163216";
"  4S       30.023131     -0.0282611      0.1083254     -0.0379852      0.0126932     -0.0030020";
"  3S       18.478494     -0.0300606      0.2805837     -0.3826565      0.1809874     -0.0489758";
"  2S       18.468216      0.0769261      0.6753090     -0.3711814      0.1544191     -0.0406997";
"  4S       10.314928     -0.0038361     -0.0410331      0.2815037     -0.1235122      0.0299072";
"  4S        7.800341     -0.0016970     -0.0268361     -0.0644218     -0.2264745      0.0843253";
"  2S        6.414258      0.0084896      0.1100242      1.0496388     -0.6930958      0.2138689";
"  2S        4.657761     -0.0008054     -0.0068085     -0.0176980     -0.1515771      0.0093458";
"  2S        2.765297      0.0001100      0.0006478      0.0056489      1.4016765     -0.3456983";
"  2S        1.901811     -0.0000300     -0.0002029     -0.0005838      0.1174194     -0.3368801";
"  2S        0.740290      0.0000039      0.0000222      0.0000622     -0.0058731      1.1020828";
"  3S        0.656651     -0.0000017     -0.0000126     -0.0000399     -0.0000076      0.0845055";
"        P                    2P             3P             4P ";
"  BASIS/ORB.ENERGY      -88.8231283    -14.0814308     -1.5569950";
"              CUSP        1.0005875      0.9998407      1.0001789";
"  2P       61.188113     -0.0095873     -0.0064429     -0.0028775";
"  3P       51.173261     -0.0172981     -0.0116229     -0.0052050";
"  2P       31.939090      0.3115825      0.1684661      0.0697544";
"  3P       25.360587      0.3837879      0.1909675      0.0749692";
"  3P       18.624521      0.3185574      0.3236150      0.1577560";
"  2P       12.519467      0.0914658     -0.1993589     -0.1638871";
"  3P        8.779237      0.0011490     -0.7640055     -0.2818878";
"  3P        6.486416      0.0001244     -0.3019044     -0.5174511";
"  3P        2.181603      0.0000384      0.0053615     -0.8453690";
"  2P        1.942735     -0.0000804     -0.0089047      2.1048178";
"  2P        0.656651      0.0000002     -0.0000132      0.0019857";
"        D                    3D             4D ";
"  BASIS/ORB.ENERGY       -8.3292977     -0.3006474";
"              CUSP        0.9999997      1.0000017";
"  3D       43.214432      0.0009259     -0.0002370";
"  4D       33.016274      0.0046595     -0.0012064";
"  3D       14.004307      0.1845676     -0.0480327";
"  4D       13.637693      0.0117910     -0.0108282";
"  3D        8.606973      0.6092961     -0.1478087";
"  4D        6.975387      0.2100029     -0.1227696";
"  3D        4.590202      0.0698855      0.0663925";
"  3D        2.663261      0.0011129      0.4007115";
"  3D        1.622145      0.0000262      0.4558844";
"  3D        1.012512      0.0000696      0.2598285";
"  3D        0.656651     -0.0000116      0.0058349"].
(** data.tar: neutral/nd.slater:1-54 *)
Definition nd_neutral : list string := [
"      NEODIUM   [XE]6S(2)5D(0)4F(4), 5I                                               ";
"      CHARGE = 60.000000";
"      SYMMETRY SPECIES               S     P     D     F ";
"      NUMBER OF BASIS FUNCTIONS     13    10     7     6";
"      NUMBER OF CLOSED SHELLS        6     4     2     0";
"      NUMBER OF OPEN SHELLS          0     0     0     1";
"      OPEN SHELL OCCUPATION NUMBER   0     0     0     4";
"   E = -9283.882809548";
"   T =  9283.882848169     V =-18567.765657716     V/T =    -1.999999996";
"  ORBITAL ENERGIES AND EXPANSION COEFFICIENTS";
"        S                    1S             2S             3S             4S             5S             6S ";
"  BASIS/ORB.ENERGY    -1527.2129254   -243.3843687    -54.2631436    -11.3957266     -1.6981295      -.1657566";
"  1S       78.361307       .0378429       .0111258      -.0044024       .0008100      -.0006654       .0000452";
"  1S       59.111063       .9556506      -.3488668       .1581856      -.0729348       .0286086      -.0073010";
"  2S       49.001140       .0090421      -.2420985       .1214622      -.0614854       .0229323      -.0063113";
"  2S       28.814173       .0016354      1.0226469      -.5048756       .2482935      -.0943298       .0252948";
"  3S       26.316115      -.0010230       .2334393      -.3818831       .1974919      -.0805002       .0202072";
"  3S       15.655808       .0009556       .0231393       .4461988       .2320015      -.1296090       .0409215";
"  3S       13.516398      -.0008153      -.0131121       .8268196     -1.3485372       .6139224      -.1708823";
"  3S        6.921522       .0002690       .0016188       .0446912      1.0099906      -.3508113       .0971663";
"  3S        5.627842      -.0001937      -.0011939      -.0208780       .4064609      -.5932509       .1681601";
"  3S        2.762145       .0000488       .0002816       .0029967       .0080325       .9369835      -.2640111";
"  3S        2.037392      -.0000294      -.0001597      -.0017147      -.0018486       .3490434      -.2239823";
"  3S         .850786       .0000078       .0000411       .0004069       .0003235      -.0025198       .6708350";
"  3S         .615797      -.0000044      -.0000231      -.0002265      -.0001680       .0012478       .4418762";
"        P                    2P             3P             4P             5P ";
"  BASIS/ORB.ENERGY     -230.2258664    -48.4545829     -9.1084665     -1.0058030";
"  2P       51.237254       .0164601      -.0057896       .0030793      -.0012579";
"  2P       30.065452       .8035708      -.3928941       .1806683      -.0626388";
"  3P       26.130120       .2083421      -.3100781       .2186397      -.0893607";
"  4P       20.429427       .0139202      -.3068321       .3457904      -.1580780";
"  3P       15.899519      -.0096932      1.2428157      -.9362265       .3934053";
"  3P       11.386007       .0016627       .3438432      -.4956144       .1872411";
"  3P        6.861663      -.0005323       .0016777      1.1195556      -.5150285";
"  4P        5.735242       .0001241       .0008998       .2923328      -.2798843";
"  3P        2.462338      -.0000275      -.0001784       .0094955       .8465628";
"  3P        1.673724       .0000112       .0000665      -.0022809       .3724328";
"        D                    3D             4D ";
"  BASIS/ORB.ENERGY      -37.7726461     -5.0359240";
"  3D       36.662542       .0060074      -.0020978";
"  3D       20.546525       .4344613      -.2033551";
"  4D       16.415952       .4832125      -.2257071";
"  4D       11.670571       .1636239      -.1270196";
"  4D        9.170058      -.0015963       .4575776";
"  4D        6.047923       .0016940       .6421118";
"  4D        3.955445      -.0001440       .1233852";
"        F                    4F ";
"  BASIS/ORB.ENERGY        -.5957342";
"  4F       18.028978       .0188220";
"  4F       10.369350       .1567141";
"  4F        6.872231       .3214716";
"  4F        4.452468       .3974978";
"  4F        2.749827       .2554202";
"  4F        1.693471       .0651307"].
(** data.tar: neutral/ni.slater:1-43 *)
Definition ni_neutral : list string := [
"      NICKEL   K(2)L(8)3S(2)3P(6)4S(2)3D(8), 3F                                       ";
"   E = -1506.870907385";
"   T =  1506.870907195     V = -3013.741814580     V/T =    -2.000000000";
"  ORBITAL ENERGIES AND EXPANSION COEFFICIENTS";
"        S                    1S             2S             3S             4S ";
"  BASIS/ORB.ENERGY     -305.6190343    -37.9178317     -4.8878363     -0.2762501";
"              CUSP        1.0002578      0.9996931      0.9996287      0.9994255";
"  1S       69.226787      0.0017658      0.0018570     -0.0009759      0.0002430";
"  3S       40.178379     -0.0107113     -0.0087143      0.0047668     -0.0011894";
"  1S       29.523561     -0.8374316     -0.1342940      0.0502696     -0.0109214";
"  3S       20.825217      0.0619061      0.0393427     -0.0119704      0.0018380";
"  2S       12.335507      0.1699209      1.2262784     -0.2460914      0.0394703";
"  1S       10.337108     -0.3687887     -0.7239600      0.1796269     -0.0288664";
"  2S        9.378273      0.0143053      0.3756137     -0.8799152      0.2164175";
"  2S        4.099637     -0.0009768      0.0103158      0.7883898     -0.1552368";
"  1S        2.864936      0.0014735     -0.0100626      0.6611584      0.1041796";
"  1S        1.935115     -0.0002638      0.0016998      0.0077496     -0.7171979";
"  2S        0.792121     -0.0000136      0.0000688      0.0004304      0.4802792";
"  1S        0.743304      0.0000313     -0.0001625     -0.0008707      0.8403130";
"        P                    2P             3P ";
"  BASIS/ORB.ENERGY      -32.9417364     -3.2776780";
"              CUSP        1.0007815      1.0000902";
"  2P       57.991635      0.0003620      0.0001624";
"  3P       38.657440      0.0027976      0.0012422";
"  2P       19.286668     -0.2159150     -0.0289838";
"  3P       15.489265     -0.1949848      0.0291239";
"  2P       10.586878     -0.5233394     -0.4624462";
"  2P        8.440193     -0.1068114     -0.1291237";
"  3P        3.827276      0.0063656     -0.5416602";
"  2P        3.303890     -0.0108025      1.6930962";
"  2P        1.779584      0.0000461      0.0204043";
"  2P        0.743304     -0.0000041      0.0002391";
"        D                    3D ";
"  BASIS/ORB.ENERGY       -0.7069318";
"              CUSP        0.9997078";
"  3D       25.058793      0.0016742";
"  4D       19.533825      0.0069410";
"  3D        8.512016      0.1192748";
"  3D        5.601915      0.3109624";
"  3D        3.574636      0.3717722";
"  3D        2.291306      0.2701439";
"  3D        1.503687      0.0879630";
"  3D        0.743304      0.0004043"].
(** data.tar: neutral/no.slater:1-62 *)
Definition no_neutral : list string := [
"      NOBELIUM   [RN]7S(2)5F(14), 1S                                                  ";
"      CHARGE =102.000000";
"      SYMMETRY SPECIES               S     P     D     F ";
"      NUMBER OF BASIS FUNCTIONS     15    12     9     8";
"      NUMBER OF CLOSED SHELLS        7     5     3     2";
"      NUMBER OF OPEN SHELLS          0     0     0     0";
"      OPEN SHELL OCCUPATION NUMBER   0     0     0     0";
"   E =-32789.511914766";
"   T = 32789.511728104     V =-65579.023642870     V/T =    -2.000000006";
"  ORBITAL ENERGIES AND EXPANSION COEFFICIENTS";
"        S                    1S             2S             3S             4S             5S             6S             7S ";
"  BASIS/ORB.ENERGY    -4601.8024651   -821.8791349   -216.8735263    -58.9939609    -13.5540254     -1.8862152      -.1704565";
"  1S      116.592615       .1364676       .0393215      -.0115945       .0068190      -.0059169       .0020751      -.0007375";
"  1S       98.971720       .8659139      -.4008501       .1853961      -.0992593       .0539525      -.0211187       .0054285";
"  2S       81.969966      -.0031134      -.2573282       .1466151      -.0778695       .0370768      -.0150525       .0033974";
"  2S       47.801013       .0033671      1.2011636      -.6494591       .3463486      -.1719749       .0689825      -.0162704";
"  3S       42.780237      -.0029063       .0814267      -.5448679       .3694243      -.2183128       .0869743      -.0225073";
"  3S       30.158811       .0029562      -.0009850       .9474120      -.3135844       .1910351      -.0711191       .0216897";
"  3S       23.466434      -.0025009       .0009497       .6084230     -1.4101384       .7352500      -.3008970       .0656491";
"  4S       14.471178      -.0010589       .0004551       .0104448       .2551998     -1.1296356       .5964934      -.1612179";
"  3S       14.467021       .0016598      -.0009204      -.0164162      1.4783337      -.7084604       .2770787      -.0569932";
"  3S        7.485979       .0003613      -.0000545      -.0033139       .0442524      1.1710426      -.4941868       .1376932";
"  3S        6.115088      -.0002233       .0000409       .0017452      -.0145965       .5735763      -.7237010       .1795510";
"  3S        2.946806       .0000390      -.0000081      -.0002508       .0009991       .0082731       .9613819      -.2353908";
"  3S        2.155517      -.0000218       .0000040       .0001437      -.0005337      -.0018701       .3549266      -.2304471";
"  3S         .876639       .0000054      -.0000010      -.0000346       .0001026       .0003172      -.0028951       .6599199";
"  3S         .629030      -.0000030       .0000005       .0000195      -.0000561      -.0001680       .0014503       .4475546";
"        P                    2P             3P             4P             5P             6P ";
"  BASIS/ORB.ENERGY     -797.1390123   -204.5063081    -53.0084495    -11.0140815     -1.1059392";
"  2P       96.397692      -.0047339      -.0016179       .0005942      -.0001556       .0001003";
"  2P       55.002426      -.7415176      -.3882385       .2076598      -.1043629       .0373332";
"  3P       49.802487      -.2578971      -.2450315       .1355469      -.0646260       .0241938";
"  3P       35.839240      -.0362544       .3229765      -.1595406       .0821625      -.0301668";
"  4P       32.064262       .0109512       .6211588      -.4645107       .2941388      -.1030213";
"  4P       18.129395       .0061198      -.2027213       .8342880      -.0702979       .0162568";
"  3P       18.025153      -.0076054       .4399591      -.9826939       .7998145      -.3404168";
"  3P       12.950104      -.0021857       .0382717      1.0841796     -1.9981090       .8579754";
"  3P        7.458310       .0003556      -.0049374       .0287858       .9280226      -.3513832";
"  3P        5.783785      -.0001667       .0019065      -.0059307       .7294651      -.6122229";
"  3P        2.597180       .0000193      -.0001964       .0004321       .0096390       .8727290";
"  3P        1.759335      -.0000081       .0000809      -.0001696      -.0022341       .3604510";
"        D                    3D             4D             5D ";
"  BASIS/ORB.ENERGY     -181.6825617    -41.8797434     -6.4759497";
"  3D       67.827414       .0018034      -.0006550       .0003875";
"  3D       38.426897       .4329225      -.2508932       .1181715";
"  4D       32.165816       .4907430      -.3284640       .1662275";
"  4D       22.509172       .1654909      -.0026462      -.0351180";
"  4D       16.602324      -.0347585       .6968628      -.2878379";
"  4D       13.180192       .0171925       .3946168      -.6363817";
"  4D        9.669792      -.0043185       .0456965       .5336724";
"  4D        6.431985       .0007127      -.0009084       .7881967";
"  4D        4.179803      -.0001478       .0003860       .1169122";
"        F                    4F             5F ";
"  BASIS/ORB.ENERGY      -26.3035481      -.9634481";
"  4F       37.081617       .0138844      -.0048541";
"  4F       23.121378       .2484870      -.1043918";
"  4F       15.134123       .6083247      -.2260613";
"  5F       10.033310      -.0399880       .2544537";
"  4F       10.032716       .2415370      -.1315052";
"  4F        5.628460       .0028220       .5692081";
"  4F        3.475147      -.0003651       .3455787";
"  4F        2.163825       .0000742       .0857519"].
(** data.tar: neutral/np.slater:1-66 *)
Definition np_neutral : list string := [
"      NEPTUNIUM   [RN]7S(2)6D(1)5F(4), 6L                                             ";
"      CHARGE = 93.000000";
"      SYMMETRY SPECIES               S     P     D     F ";
"      NUMBER OF BASIS FUNCTIONS     15    12    11     8";
"      NUMBER OF CLOSED SHELLS        7     5     3     1";
"      NUMBER OF OPEN SHELLS          0     0     1     1";
"      OPEN SHELL OCCUPATION NUMBER   0     0     1     4";
"   E =-26331.454763705";
"   T = 26331.454764105     V =-52662.909527810     V/T =    -2.000000000";
" ";
"  ORBITAL ENERGIES AND EXPANSION COEFFICIENTS";
"        S                    1S             2S             3S             4S             5S             6S             7S ";
"  BASIS/ORB.ENERGY    -3801.0470433   -667.1911327   -171.4319946    -45.0172506    -10.4290838     -1.7138667     -0.1665417";
"  1S      106.891398      0.1343917      0.0368104     -0.0105433      0.0056178     -0.0045077      0.0015484     -0.0005747";
"  1S       90.150737      0.8678982     -0.3970082      0.1821941     -0.0948431      0.0491461     -0.0201991      0.0057232";
"  2S       74.606109     -0.0029337     -0.2546249      0.1447526     -0.0760545      0.0356050     -0.0153526      0.0040282";
"  2S       43.599769      0.0034179      1.1868140     -0.6390351      0.3355096     -0.1622336      0.0688821     -0.0185318";
"  3S       38.823091     -0.0028359      0.0953727     -0.5239401      0.3390005     -0.1880471      0.0781109     -0.0222755";
"  3S       27.355986      0.0027276     -0.0024525      0.8498045     -0.2242182      0.1070633     -0.0354662      0.0122246";
"  3S       21.621181     -0.0019933      0.0016558      0.6643896     -1.3368266      0.7571182     -0.3386774      0.0895205";
"  4S       11.948682     -0.0008405      0.0007142     -0.0048067     -0.0823746     -0.6676425      0.3774725     -0.1154583";
"  3S       11.945786      0.0010931     -0.0011328      0.0134876      1.6835920     -1.0760378      0.4880384     -0.1300636";
"  3S        6.351323      0.0004426     -0.0002366     -0.0007013      0.0359330      1.2369751     -0.4223888      0.1204914";
"  3S        5.241219     -0.0002907      0.0001595      0.0003561     -0.0125797      0.4790863     -0.8931137      0.2757327";
"  3S        2.630257      0.0000555     -0.0000307     -0.0000635      0.0006273      0.0066803      1.1379661     -0.3556423";
"  3S        1.923696     -0.0000317      0.0000168      0.0000461     -0.0003354     -0.0010071      0.2577664     -0.2247304";
"  3S        0.878188      0.0000086     -0.0000045     -0.0000133      0.0000551      0.0001516     -0.0033857      0.6115717";
"  3S        0.631665     -0.0000044      0.0000023      0.0000069     -0.0000255     -0.0000661      0.0014761      0.5262049";
"        P                    2P             3P             4P             5P             6P ";
"  BASIS/ORB.ENERGY     -644.9826622   -160.5479185    -39.9176408     -8.3493011     -1.0517779";
"  2P       88.714203     -0.0048270     -0.0015541      0.0005013     -0.0001454      0.0001005";
"  2P       49.950385     -0.7422903     -0.3849882      0.2010913     -0.0969912      0.0374270";
"  3P       44.755714     -0.2670696     -0.2512748      0.1368927     -0.0643617      0.0258674";
"  3P       27.391391     -0.0356388      0.6418773     -0.3751215      0.1901189     -0.0742010";
"  4P       27.389735      0.0218842      0.3810820     -0.3935642      0.2457944     -0.0912397";
"  4P       15.204118      0.0108430     -0.2163944      0.8841048     -0.2175893      0.1119455";
"  3P       14.501265     -0.0126169      0.3756981     -0.5804887      0.5330546     -0.2553151";
"  3P       10.837432     -0.0033194      0.0286987      0.8061956     -1.5975648      0.6970016";
"  3P        6.297562      0.0007071     -0.0046485      0.0192812      0.8424604     -0.2006762";
"  3P        5.026719     -0.0003571      0.0019768     -0.0046104      0.7591643     -0.8345362";
"  3P        2.313627      0.0000371     -0.0001713      0.0002056      0.0104748      1.0321561";
"  3P        1.567881     -0.0000149      0.0000666     -0.0000843     -0.0024021      0.2596025";
"        D                    3D             4D             5D             6D ";
"  BASIS/ORB.ENERGY     -140.4735436    -30.4761898     -4.6592654     -0.3099089";
"  3D       60.460372      0.0025074     -0.0009314      0.0004951     -0.0000702";
"  3D       34.353800      0.4434644     -0.2486235      0.1107118     -0.0331798";
"  4D       28.467124      0.4999990     -0.3190699      0.1520348     -0.0435882";
"  4D       19.209070      0.1592036      0.0322588     -0.0578188      0.0076451";
"  4D       14.954731     -0.0479455      0.5559391     -0.2141228      0.0909319";
"  4D       11.585351      0.0173030      0.5151074     -0.5171513      0.1329712";
"  4D        7.657167     -0.0040757      0.0429752      0.4253201     -0.1006215";
"  4D        5.376603      0.0016040     -0.0065541      0.7519919     -0.3868394";
"  4D        3.587342     -0.0004827      0.0014416      0.1204323      0.1015471";
"  4D        2.054373      0.0001158     -0.0003336     -0.0005976      0.6756351";
"  4D        1.197641     -0.0000325      0.0000803      0.0001207      0.4010019";
"        F                    4F             5F ";
"  BASIS/ORB.ENERGY      -17.3544871     -0.7700333";
"  4F       32.467146      0.0173290     -0.0054495";
"  4F       20.059113      0.2570496     -0.0942117";
"  4F       13.102908      0.5549359     -0.1800340";
"  5F        8.251545     -0.2495822      0.2512498";
"  4F        7.711586      0.4970536     -0.1889442";
"  4F        4.587557      0.0010352      0.5524970";
"  4F        2.847582     -0.0000734      0.3919522";
"  4F        1.776473      0.0000457      0.0936136";
" "].
(** data.tar: neutral/o.slater:1-31 *)
Definition o_neutral : list string := [
"      OXYGEN   1S(2)2S(2)2P(4), 3P                                                    ";
"";
"";
"";
"";
"   E =   -74.809398459";
"   T =    74.809398458     V =  -149.618796918     V/T =    -2.000000000";
"";
"  ORBITAL ENERGIES AND EXPANSION COEFFICIENTS";
"        S                    1S             2S ";
"  BASIS/ORB.ENERGY      -20.6686570     -1.2443146";
"              CUSP        0.9999598      0.9997164";
"  2S       24.975698     -0.0004756     -0.0001236";
"  1S       12.554759     -0.1852813      0.0164417";
"  2S       10.357096     -0.1195096      0.0288443";
"  1S        7.071190     -0.6980503     -0.1793400";
"  1S        4.804646     -0.0198704     -0.4384450";
"  2S        2.785958     -0.0014337      0.0752410";
"  1S        1.606267     -0.0000556      1.1524847";
"  1S        1.124194     -0.0001180      0.0142550";
"        P                    2P ";
"  BASIS/ORB.ENERGY       -0.6319062";
"              CUSP        0.9991571";
"  3P       20.797000      0.0000481";
"  2P        8.661006      0.0171803";
"  3P        6.427925      0.0268010";
"  2P        3.402194      0.2528558";
"  2P        2.135366      0.3853260";
"  2P        1.425500      0.3433520";
"  2P        1.124194      0.0652167";
""].
(** data.tar: neutral/os.slater:1-56 *)
Definition os_neutral : list string := [
"      OSMIUM   [XE]4F(14)6S(2)5D(6), 5D                                               ";
"      CHARGE = 76.000000";
"      SYMMETRY SPECIES               S     P     D     F ";
"      NUMBER OF BASIS FUNCTIONS     13    10     9     6";
"      NUMBER OF CLOSED SHELLS        6     4     2     1";
"      NUMBER OF OPEN SHELLS          0     0     1     0";
"      OPEN SHELL OCCUPATION NUMBER   0     0     6     0";
"   E =-16290.648385123";
"   T = 16290.648421149     V =-32581.296806272     V/T =    -1.999999998";
"  ORBITAL ENERGIES AND EXPANSION COEFFICIENTS";
"        S                    1S             2S             3S             4S             5S             6S ";
"  BASIS/ORB.ENERGY    -2497.6462136   -418.4098933    -98.7155282    -21.5003182     -3.3335715      -.2387238";
"  1S       94.092123       .0560322       .0182442      -.0061114       .0013047      -.0009591       .0001916";
"  1S       74.612868       .9411707      -.3649413       .1687129      -.0804974       .0334977      -.0086843";
"  2S       61.895874       .0040197      -.2485958       .1329852      -.0697031       .0278678      -.0074008";
"  2S       35.501252       .0022058      1.1423518      -.5923818       .3022726      -.1225459       .0322926";
"  3S       32.311264      -.0017615       .1183385      -.4409395       .2342012      -.1010020       .0260813";
"  3S       22.659050       .0013422       .0080215       .4082128       .1060591      -.0764847       .0227584";
"  3S       18.132147      -.0008061      -.0022939       .9886494     -1.3352689       .6450788      -.1742512";
"  3S        9.140779       .0003351       .0000781       .0431779      1.2510503      -.4725326       .1166296";
"  3S        7.303703      -.0002764      -.0001594      -.0230068       .1858637      -.6945430       .2249225";
"  3S        4.343471       .0000907       .0000716       .0047499       .0092924       .8479381      -.2687433";
"  3S        3.121391      -.0000397      -.0000260      -.0019029      -.0008707       .5964143      -.2689985";
"  3S        1.290204       .0000069       .0000047       .0002848       .0001859       .0033887       .5538469";
"  3S         .828961      -.0000033      -.0000022      -.0001303      -.0000771      -.0008317       .5677691";
"        P                    2P             3P             4P             5P ";
"  BASIS/ORB.ENERGY     -400.9614500    -90.5438081    -17.9818379     -2.1703228";
"  2P       68.850122       .0085965      -.0029679       .0016421      -.0006856";
"  2P       39.720013       .7673270      -.3887157       .1881006      -.0709106";
"  3P       35.210952       .2493593      -.2799362       .1951698      -.0837720";
"  4P       28.070224       .0166413      -.1137471       .1984445      -.1039109";
"  3P       20.211146      -.0083861      1.1411105      -.9426703       .4298548";
"  3P       14.001487       .0025608       .2254400      -.5088358       .1874653";
"  3P       10.007660      -.0011390      -.0181768      1.1866300      -.5547657";
"  4P        8.311499       .0002232       .0039013       .3972597      -.4125104";
"  3P        3.613318      -.0000330      -.0005007       .0104369       .9402133";
"  3P        2.404538       .0000136       .0001449      -.0019585       .3331557";
"        D                    3D             4D             5D ";
"  BASIS/ORB.ENERGY      -75.5055369    -11.5773876      -.5357318";
"  3D       40.756046       .0147734      -.0063355       .0017451";
"  3D       25.241086       .5332993      -.2727412       .0774501";
"  4D       20.717645       .4571810      -.2619103       .0768707";
"  4D       13.383221       .0779981       .2909107      -.1055065";
"  4D        9.576954      -.0174478       .6086471      -.1940807";
"  4D        6.964384       .0066873       .2626230      -.1257365";
"  4D        4.270338      -.0014442       .0118827       .4032371";
"  4D        2.617713       .0004824      -.0008396       .5725606";
"  4D        1.568701      -.0001297       .0002420       .2204363";
"        F                    4F ";
"  BASIS/ORB.ENERGY       -3.0591965";
"  4F       24.530200       .0213856";
"  4F       14.751454       .2266958";
"  4F        9.837503       .3843619";
"  4F        6.692180       .3600703";
"  4F        4.453285       .1479496";
"  4F        2.851061       .0132543"].
(** data.tar: neutral/pa.slater:1-64 *)
Definition pa_neutral : list string := [
"      PROTOACTINIUM   [RN]7S(2)6D(1)5F(2), 4J                                         ";
"      CHARGE = 91.000000";
"      SYMMETRY SPECIES               S     P     D     F ";
"      NUMBER OF BASIS FUNCTIONS     15    12    11     8";
"      NUMBER OF CLOSED SHELLS        7     5     3     1";
"      NUMBER OF OPEN SHELLS          0     0     1     1";
"      OPEN SHELL OCCUPATION NUMBER   0     0     1     2";
"   E =-25007.109683472";
"   T = 25007.109737912     V =-50014.219421383     V/T =    -1.999999998";
"  ORBITAL ENERGIES AND EXPANSION COEFFICIENTS";
"        S                    1S             2S             3S             4S             5S             6S             7S ";
"  BASIS/ORB.ENERGY    -3633.4604907   -634.9240122   -161.9357772    -42.0112819     -9.6666731     -1.6337903      -.1637030";
"  1S      105.154520       .1256606       .0341863      -.0098148       .0049203      -.0039166       .0013294      -.0005253";
"  1S       88.309408       .8762828      -.3929341       .1805054      -.0930729       .0474400      -.0195784       .0057118";
"  2S       73.179755      -.0024453      -.2529999       .1429047      -.0750685       .0348917      -.0150876       .0040729";
"  2S       42.592913       .0033408      1.1836090      -.6347507       .3322846      -.1590664       .0677603      -.0187601";
"  3S       38.076008      -.0027538       .0944246      -.5110795       .3244885      -.1764763       .0734501      -.0215980";
"  3S       26.773490       .0026076      -.0001147       .7921960      -.1678046       .0697701      -.0196615       .0080482";
"  3S       21.322733      -.0018538       .0004194       .7040066     -1.3410496       .7603860      -.3410921       .0931346";
"  4S       11.450486      -.0007395       .0003408      -.0100891      -.1259436      -.5777359       .3305801      -.1048969";
"  3S       11.452736       .0009385      -.0006043       .0220511      1.6904088     -1.1024108       .5037307      -.1390012";
"  3S        6.017261       .0004092      -.0000678       .0010291       .0375163      1.3130828      -.4690024       .1375514";
"  3S        4.935803      -.0002786       .0000519      -.0007053      -.0146173       .3705680      -.8526638       .2741537";
"  3S        2.561338       .0000622      -.0000125       .0001281       .0012028       .0056215      1.1336456      -.3643954";
"  3S        1.895353      -.0000350       .0000064      -.0000581      -.0006289      -.0005017       .2850500      -.2421426";
"  3S         .856942       .0000089      -.0000016       .0000128       .0001158       .0000493      -.0027314       .6272943";
"  3S         .621841      -.0000046       .0000008      -.0000064      -.0000569      -.0000165       .0012535       .5138243";
"        P                    2P             3P             4P             5P             6P ";
"  BASIS/ORB.ENERGY     -613.2774695   -151.3769463    -37.1047233     -7.6930866     -1.0056275";
"  2P       86.263329      -.0051917      -.0016486       .0005302      -.0001552       .0001053";
"  2P       48.638467      -.7487456      -.3876137       .2012140      -.0956927       .0371577";
"  3P       43.514489      -.2615860      -.2510255       .1363246      -.0632814       .0255950";
"  3P       26.497383      -.0325777       .6832306      -.4066721       .2041402      -.0801994";
"  4P       26.436470       .0201456       .3603350      -.3894187       .2414667      -.0900730";
"  4P       14.678283       .0085048      -.1465943       .7641091      -.1407530       .0800143";
"  3P       14.575967      -.0101368       .2908115      -.4015112       .3687073      -.1809388";
"  3P       10.410317      -.0032442       .0303849       .7711521     -1.4760476       .6372965";
"  3P        5.938724       .0007086      -.0048395       .0180593       .8613806      -.1791618";
"  3P        4.794282      -.0003815       .0022274      -.0049677       .7035924      -.8508784";
"  3P        2.231963       .0000397      -.0001929       .0002054       .0105120      1.0531476";
"  3P        1.512972      -.0000157       .0000739      -.0000829      -.0024280       .2499894";
"        D                    3D             4D             5D             6D ";
"  BASIS/ORB.ENERGY     -131.9056191    -28.0317521     -4.2038931      -.2910774";
"  3D       58.112116       .0030067      -.0011295       .0005736      -.0000836";
"  3D       33.309553       .4513832      -.2510022       .1095359      -.0327833";
"  4D       27.538253       .5010479      -.3159392       .1473926      -.0419761";
"  4D       18.230484       .1583126       .0639931      -.0786231       .0115698";
"  4D       14.427148      -.0598390       .5186800      -.1771675       .0850987";
"  4D       11.238129       .0213613       .5189943      -.5061559       .1222370";
"  4D        7.505177      -.0049186       .0498426       .3506529      -.0697808";
"  4D        5.250125       .0018888      -.0071428       .7776464      -.3881995";
"  4D        3.548260      -.0005614       .0015206       .1516008       .0610383";
"  4D        1.994271       .0001250      -.0003411       .0000430       .6759252";
"  4D        1.159970      -.0000352       .0000775      -.0001011       .4204505";
"        F                    4F             5F ";
"  BASIS/ORB.ENERGY      -15.4513412      -.6117146";
"  4F       31.632165       .0174072      -.0050467";
"  4F       19.500417       .2513461      -.0859573";
"  4F       12.787924       .5307624      -.1560222";
"  5F        8.093836      -.2857608       .2457048";
"  4F        7.520518       .5656323      -.2181933";
"  4F        4.364677       .0005997       .5327375";
"  4F        2.642847       .0000249       .4243645";
"  4F        1.592222       .0000194       .1168648"].
(** data.tar: neutral/pb.slater:1-58 *)
Definition pb_neutral : list string := [
"      LEAD   [XE]4F(14)6S(2)5D(10)6P(2), 3P                                           ";
"      CHARGE = 82.000000";
"      SYMMETRY SPECIES               S     P     D     F ";
"      NUMBER OF BASIS FUNCTIONS     13    12     9     6";
"      NUMBER OF CLOSED SHELLS        6     4     3     1";
"      NUMBER OF OPEN SHELLS          0     1     0     0";
"      OPEN SHELL OCCUPATION NUMBER   0     2     0     0";
"   E =-19524.007861032";
"   T = 19524.007912162     V =-39048.015773194     V/T =    -1.999999997";
"  ORBITAL ENERGIES AND EXPANSION COEFFICIENTS";
"        S                    1S             2S             3S             4S             5S             6S ";
"  BASIS/ORB.ENERGY    -2925.3697252   -498.5941318   -121.2383588    -28.2199110     -5.0555234      -.4562203";
"  1S      104.713731       .0357835      -.0133949      -.0046674       .0016673      -.0005456      -.0000060";
"  1S       80.980311       .9594008       .3572940       .1675779      -.0831242       .0363675      -.0109998";
"  2S       67.443613       .0066848       .2507875       .1328456      -.0690761       .0311197      -.0100100";
"  2S       38.232020       .0014634     -1.1498639      -.5952044       .3056666      -.1366460       .0431166";
"  3S       35.410237      -.0012352      -.1051112      -.4319426       .2493879      -.1064756       .0310454";
"  3S       23.936443       .0011039      -.0130036       .4303434       .1572893      -.2062312       .0792624";
"  3S       19.871630      -.0007232       .0054974       .9616885     -1.4300343       .9689970      -.3316759";
"  4S       13.328775       .0003444      -.0008731       .0424207       .0444109       .5631927      -.2285084";
"  3S        9.876587      -.0002988       .0008173      -.0213589      1.4038909     -1.8737720       .6933279";
"  3S        4.707823       .0000554      -.0001519       .0020112       .0245098      1.0535374      -.4056403";
"  3S        3.603001      -.0000348       .0000855      -.0012768      -.0079952       .3641069      -.2762494";
"  3S        1.658677       .0000070      -.0000161       .0002288       .0009826       .0019375       .6948970";
"  3S        1.106132      -.0000031       .0000071      -.0000983      -.0004023      -.0002348       .4758364";
"        P                    2P             3P             4P             5P             6P ";
"  BASIS/ORB.ENERGY     -479.4813552   -112.1263511    -24.1623768     -3.6106705      -.2556834";
"  2P       76.554960      -.0064480      -.0019852       .0006398      -.0001646       .0000868";
"  2P       43.341456      -.7581928      -.3882040       .1948833      -.0816246       .0201172";
"  3P       38.511710      -.2546097      -.2489790       .1322020      -.0539589       .0141512";
"  3P       22.531112      -.0271564       .8475489      -.5216424       .2348838      -.0589523";
"  4P       22.530723       .0181643       .2339482      -.3303467       .1926048      -.0429587";
"  4P       12.764238       .0068604      -.0902468       .4957004      -.0115094       .0195882";
"  3P       12.761651      -.0095047       .2126152      -.1666253       .1080039      -.0452860";
"  3P        8.920439      -.0019622       .0135810       .8705878     -1.0823431       .2847161";
"  3P        4.517615       .0002231      -.0010285       .0148526       .8888882      -.2452225";
"  3P        3.250700      -.0001051       .0003307      -.0031175       .4730256      -.2310488";
"  3P        1.317867       .0000183      -.0000500       .0003677       .0055654       .6043551";
"  3P         .862335      -.0000089       .0000238      -.0001793      -.0010837       .5081607";
"        D                    3D             4D             5D ";
"  BASIS/ORB.ENERGY      -95.3439152    -16.7208851     -1.2204131";
"  3D       48.110533       .0066542      -.0027646       .0010049";
"  3D       28.750592       .4850206      -.2571754       .0897676";
"  4D       23.625068       .4873804      -.2921051       .1076060";
"  4D       15.597300       .1135528       .1563671      -.0854359";
"  4D       11.717172      -.0282049       .5803236      -.2073003";
"  4D        8.758467       .0096674       .4007025      -.2740188";
"  4D        5.493821      -.0018642       .0234373       .4310208";
"  4D        3.502864       .0005995      -.0021613       .6235440";
"  4D        2.194676      -.0001452       .0004025       .1733214";
"        F                    4F ";
"  BASIS/ORB.ENERGY       -6.5824179";
"  4F       27.357639       .0198836";
"  4F       16.730728       .2303157";
"  4F       11.435776       .3705979";
"  5F        7.517999      -.4764123";
"  4F        6.778528       .9348401";
"  4F        4.158712       .0189720"].
(** data.tar: neutral/pd.slater:1-50 *)
Definition pd_neutral : list string := [
"      PALLADIUM   K(2)L(8)M(18)4S(2)4P(6)5S(0)4D(10), 1S                              ";
"   E = -4937.921019011";
"   T =  4937.921019835     V = -9875.842038846     V/T =    -2.000000000";
"  ORBITAL ENERGIES AND EXPANSION COEFFICIENTS";
"        S                    1S             2S             3S             4S ";
"  BASIS/ORB.ENERGY     -873.3159338   -127.9665747    -24.2091057     -3.5873098";
"              CUSP        1.0002237      1.0000971      1.0001914      1.0001444";
"  1S       95.004581     -0.0065116     -0.0074969      0.0037378      0.0012466";
"  3S       65.455382      0.0128186      0.0134169     -0.0068092     -0.0021674";
"  1S       48.666335      0.9262564      0.3124149     -0.1361160     -0.0551328";
"  2S       36.523802      0.1171537      0.2167267     -0.1884784     -0.1745136";
"  3S       35.930115     -0.0385269     -0.0557486     -0.0723338     -0.1256310";
"  4S       32.224650      0.0085097     -0.0362660     -0.0650638     -0.1202308";
"  2S       19.506212     -0.0057155     -1.0991398      1.0491518      1.0316248";
"  4S       16.996951      0.0005375     -0.0248751      0.0402924      0.3689975";
"  4S       12.296306     -0.0006088      0.0013077     -0.3485029      0.2636284";
"  2S        7.791419      0.0006199     -0.0022260     -0.9579142     -2.0542967";
"  2S        3.447402     -0.0000306      0.0003207     -0.0061267      1.4490671";
"  3S        2.734925      0.0000568     -0.0002444      0.0007871      0.1039562";
"  2S        0.998788      0.0000839     -0.0003416      0.0010208     -0.0119308";
"  1S        0.819759     -0.0001308      0.0005348     -0.0016359      0.0201819";
"        P                    2P             3P             4P ";
"  BASIS/ORB.ENERGY     -118.5311049    -20.3742869     -2.3300901";
"              CUSP        1.0007321      0.9997147      1.0007135";
"  2P       72.015150     -0.0054593     -0.0041170     -0.0029942";
"  3P       59.578992     -0.0106678     -0.0080445     -0.0058879";
"  2P       36.479116      0.2334683      0.1174424      0.0682619";
"  3P       30.006145      0.2187363      0.0776364      0.0311137";
"  3P       24.034672      0.2042107      0.1862776      0.1419942";
"  2P       17.033197      0.4113571      0.1565152     -0.0594948";
"  3P       10.715216      0.0029849     -0.7262872     -0.2709552";
"  3P        8.150158     -0.0002034     -0.4038500     -0.6594669";
"  3P        2.806387      0.0001552      0.0142393     -0.9139537";
"  2P        2.467078     -0.0002740     -0.0224917      2.2272338";
"  2P        0.819759     -0.0000024     -0.0000745      0.0024681";
"        D                    3D             4D ";
"  BASIS/ORB.ENERGY      -13.3634422     -0.3360025";
"              CUSP        0.9998364      1.0002954";
"  3D       48.681034      0.0009741     -0.0003947";
"  4D       37.530522      0.0046706     -0.0019555";
"  3D       20.726814     -0.0137973      0.0125953";
"  3D       16.600467      0.1879478     -0.0744232";
"  3D       10.405856      0.5063660     -0.1043247";
"  3D        7.629025      0.3362414     -0.2573355";
"  3D        5.600123      0.0408972      0.1347941";
"  3D        3.476758      0.0011194      0.4653239";
"  3D        2.106938      0.0000858      0.4237954";
"  3D        1.250135     -0.0000127      0.2203384";
"  3D        0.819759      0.0000048      0.0191275";
""].
(** data.tar: neutral/pm.slater:1-54 *)
Definition pm_neutral : list string := [
"      PROMETHIUM   [XE]6S(2)5D(0)4F(5), 6H                                            ";
"      CHARGE = 61.000000";
"      SYMMETRY SPECIES               S     P     D     F ";
"      NUMBER OF BASIS FUNCTIONS     13    10     7     6";
"      NUMBER OF CLOSED SHELLS        6     4     2     0";
"      NUMBER OF OPEN SHELLS          0     0     0     1";
"      OPEN SHELL OCCUPATION NUMBER   0     0     0     5";
"   E = -9655.098830139";
"   T =  9655.098793530     V =-19310.197623669     V/T =    -2.000000004";
"  ORBITAL ENERGIES AND EXPANSION COEFFICIENTS";
"        S                    1S             2S             3S             4S             5S             6S ";
"  BASIS/ORB.ENERGY    -1580.7896409   -252.8612640    -56.5831101    -11.8481335     -1.7393242      -.1675668";
"  1S       79.583280       .0376526       .0111847      -.0043759       .0007878      -.0006554       .0000384";
"  1S       60.106967       .9559125      -.3492519       .1587153      -.0733649       .0286388      -.0072301";
"  2S       49.855683       .0089390      -.2422344       .1220530      -.0619522       .0230076      -.0062736";
"  2S       29.205148       .0016233      1.0321402      -.5114229       .2522198      -.0953906       .0253323";
"  3S       26.715753      -.0010368       .2232796      -.3828191       .1984142      -.0805159       .0199607";
"  3S       16.060435       .0009579       .0220210       .4295021       .2371947      -.1310700       .0408704";
"  3S       13.827036      -.0008066      -.0121807       .8492604     -1.3608166       .6163120      -.1697186";
"  3S        7.090212       .0002632       .0014615       .0445228      1.0041199      -.3517813       .0967379";
"  3S        5.751454      -.0001882      -.0010782      -.0204945       .4147918      -.5863252       .1637899";
"  3S        2.821153       .0000473       .0002550       .0029425       .0079073       .9190020      -.2546519";
"  3S        2.078318      -.0000283      -.0001433      -.0016728      -.0017734       .3631372      -.2247685";
"  3S         .860376       .0000075       .0000364       .0003918       .0003072      -.0023696       .6676054";
"  3S         .620681      -.0000042      -.0000205      -.0002186      -.0001598       .0011947       .4428291";
"        P                    2P             3P             4P             5P ";
"  BASIS/ORB.ENERGY     -239.4378704    -50.6317662     -9.4906396     -1.0272096";
"  2P       52.707402       .0147527      -.0051943       .0028290      -.0011446";
"  2P       30.902387       .7884088      -.3862441       .1781089      -.0613855";
"  3P       26.993566       .2253351      -.2912606       .2021721      -.0809755";
"  4P       20.940024       .0180510      -.2464740       .3006727      -.1365237";
"  3P       16.041755      -.0130505      1.1777153      -.8940152       .3700526";
"  3P       11.552711       .0025479       .3245239      -.4860081       .1830755";
"  3P        7.065332      -.0007215       .0011625      1.1177006      -.5101101";
"  4P        5.888728       .0001780       .0010222       .3047514      -.2793934";
"  3P        2.506045      -.0000385      -.0001788       .0096049       .8395816";
"  3P        1.698957       .0000158       .0000670      -.0023172       .3742202";
"        D                    3D             4D ";
"  BASIS/ORB.ENERGY      -39.6874080     -5.2871537";
"  3D       37.170325       .0060717      -.0021350";
"  3D       20.912933       .4380676      -.2062821";
"  4D       16.725468       .4860553      -.2297059";
"  4D       11.821550       .1587847      -.1275702";
"  4D        9.400657      -.0044951       .4678161";
"  4D        6.192424       .0019419       .6400471";
"  4D        4.043059      -.0001365       .1212457";
"        F                    4F ";
"  BASIS/ORB.ENERGY        -.6282612";
"  4F       18.396071       .0193596";
"  4F       10.595185       .1648643";
"  4F        7.014692       .3278102";
"  4F        4.559395       .3914749";
"  4F        2.824301       .2477985";
"  4F        1.742054       .0628556"].
(** data.tar: neutral/po.slater:1-58 *)
Definition po_neutral : list string := [
"      POLONIUM   [XE]4F(14)6S(2)5D(10)6P(4), 3P                                       ";
"      CHARGE = 84.000000";
"      SYMMETRY SPECIES               S     P     D     F ";
"      NUMBER OF BASIS FUNCTIONS     13    12     9     6";
"      NUMBER OF CLOSED SHELLS        6     4     3     1";
"      NUMBER OF OPEN SHELLS          0     1     0     0";
"      OPEN SHELL OCCUPATION NUMBER   0     4     0     0";
"   E =-20676.500744145";
"   T = 20676.500625502     V =-41353.001369647     V/T =    -2.000000006";
"  ORBITAL ENERGIES AND EXPANSION COEFFICIENTS";
"        S                    1S             2S             3S             4S             5S             6S ";
"  BASIS/ORB.ENERGY    -3075.9134407   -527.3198967   -129.6668659    -31.0025557     -5.9620735      -.6582429";
"  1S      107.662632       .0335408      -.0132086      -.0045048       .0017741      -.0007062       .0000656";
"  1S       83.017194       .9615019       .3571771       .1678249      -.0840791       .0379697      -.0127827";
"  2S       69.115164       .0068756       .2522884       .1342005      -.0698208       .0321115      -.0114235";
"  2S       39.156661       .0013521     -1.1551544      -.6000423       .3092412      -.1416106       .0495083";
"  3S       36.235025      -.0011684      -.1011324      -.4375175       .2587271      -.1155746       .0377170";
"  3S       24.316654       .0011211      -.0123808       .5051071       .1361868      -.2107195       .0919189";
"  3S       20.292194      -.0007610       .0055687       .8955109     -1.4646827      1.0493009      -.4029773";
"  4S       13.862770       .0003794      -.0009340       .0413751      -.0309827       .6851864      -.3088320";
"  3S       10.340302      -.0003299       .0008642      -.0208043      1.5144703     -2.0872272       .8665087";
"  3S        4.835940       .0000625      -.0001658       .0018627       .0284194      1.2363985      -.5170948";
"  3S        3.714369      -.0000436       .0001040      -.0013213      -.0112159       .2042944      -.3256025";
"  3S        1.941823       .0000106      -.0000235       .0002993       .0016712       .0024488       .7528444";
"  3S        1.311138      -.0000041       .0000091      -.0001107      -.0006029      -.0000500       .4946105";
"        P                    2P             3P             4P             5P             6P ";
"  BASIS/ORB.ENERGY     -507.6466157   -120.2366712    -26.7599228     -4.4001209      -.3414522";
"  2P       78.287503      -.0063816      -.0019674       .0006349      -.0001587       .0000931";
"  2P       44.424063      -.7592460      -.3899429       .1973572      -.0857188       .0249714";
"  3P       39.555229      -.2525362      -.2484097       .1326497      -.0558509       .0171766";
"  3P       23.458904      -.0281619       .8002590      -.4857414       .2268617      -.0671607";
"  4P       23.448994       .0186763       .2686797      -.3423486       .2065815      -.0558279";
"  4P       13.364416       .0071009      -.0967825       .5267164      -.0121839       .0196048";
"  3P       13.363421      -.0098751       .2327227      -.2686136       .1704978      -.0721005";
"  3P        9.337108      -.0020497       .0141570       .9121452     -1.1851851       .3755436";
"  3P        4.710557       .0002733      -.0012369       .0173308       .9634369      -.2966141";
"  3P        3.530875      -.0001476       .0004802      -.0048511       .4232643      -.3238386";
"  3P        1.603240       .0000249      -.0000658       .0005101       .0061022       .6651437";
"  3P        1.031749      -.0000103       .0000267      -.0002152      -.0005230       .5033076";
"        D                    3D             4D             5D ";
"  BASIS/ORB.ENERGY     -102.8625322    -18.9613565     -1.7552803";
"  3D       49.998233       .0057382      -.0023535       .0009415";
"  3D       29.763139       .4765483      -.2556703       .0957653";
"  4D       24.506491       .4902017      -.2975487       .1182219";
"  4D       16.257625       .1227910       .1274900      -.0825814";
"  4D       12.359076      -.0320613       .5706160      -.2104055";
"  4D        9.303793       .0109043       .4318088      -.3292536";
"  4D        5.946018      -.0021636       .0276584       .4234817";
"  4D        3.885400       .0006820      -.0026435       .6691334";
"  4D        2.463053      -.0001524       .0003925       .1458308";
"        F                    4F ";
"  BASIS/ORB.ENERGY       -8.2806734";
"  4F       28.178564       .0200415";
"  4F       17.204040       .2474073";
"  4F       11.459603       .4301177";
"  5F        7.676215      -.3205019";
"  4F        6.997082       .7061270";
"  4F        4.545544       .0151366"].
(** data.tar: neutral/pr.slater:1-54 *)
Definition pr_neutral : list string := [
"      PRASEODYMIUM   [XE]6S(2)5D(0)4F(3), 4I                                          ";
"      CHARGE = 59.000000";
"      SYMMETRY SPECIES               S     P     D     F ";
"      NUMBER OF BASIS FUNCTIONS     13    10     7     6";
"      NUMBER OF CLOSED SHELLS        6     4     2     0";
"      NUMBER OF OPEN SHELLS          0     0     0     1";
"      OPEN SHELL OCCUPATION NUMBER   0     0     0     3";
"   E = -8921.180897012";
"   T =  8921.180886172     V =-17842.361783184     V/T =    -2.000000001";
"  ORBITAL ENERGIES AND EXPANSION COEFFICIENTS";
"        S                    1S             2S             3S             4S             5S             6S ";
"  BASIS/ORB.ENERGY    -1474.5593855   -234.0802353    -51.9788709    -10.9451525     -1.6562487      -.1638991";
"  1S       77.213125       .0376499       .0108983      -.0043920       .0008225      -.0006740       .0000526";
"  1S       58.122933       .9557010      -.3481710       .1575551      -.0724435       .0285561      -.0073721";
"  2S       48.167912       .0092343      -.2418347       .1206346      -.0608708       .0227874      -.0063336";
"  2S       28.433887       .0016371      1.0115134      -.4971190       .2436858      -.0929677       .0251877";
"  3S       25.933524      -.0010022       .2449625      -.3813994       .1967026      -.0805468       .0204885";
"  3S       15.251111       .0009467       .0246909       .4629302       .2274656      -.1282231       .0410044";
"  3S       13.207237      -.0008191      -.0143684       .8038196     -1.3357974       .6109707      -.1719888";
"  3S        6.750698       .0002733       .0018340       .0450050      1.0161559      -.3492546       .0974255";
"  3S        5.502002      -.0001985      -.0013517      -.0213752       .3972320      -.6005642       .1729180";
"  3S        2.702642       .0000502       .0003180       .0030739       .0081288       .9556300      -.2741263";
"  3S        1.995310      -.0000304      -.0001820      -.0017702      -.0019072       .3345544      -.2231271";
"  3S         .841438       .0000082       .0000476       .0004272       .0003368      -.0027194       .6723950";
"  3S         .611222      -.0000046      -.0000267      -.0002371      -.0001744       .0013289       .4428469";
"        P                    2P             3P             4P             5P ";
"  BASIS/ORB.ENERGY     -221.1865703    -46.3126698     -8.7278165      -.9837826";
"  2P       49.831272       .0182506      -.0063976       .0033056      -.0013716";
"  2P       29.252859       .8181224      -.3992170       .1830785      -.0638256";
"  3P       25.247558       .1917130      -.3374234       .2394952      -.1005273";
"  4P       19.914715       .0086566      -.3805638       .3950785      -.1839208";
"  3P       15.733819      -.0050404      1.3368613      -.9908079       .4259839";
"  3P       11.166918       .0007869       .3555301      -.5075423       .1906235";
"  3P        6.703596      -.0003688       .0015074      1.1129261      -.5127085";
"  4P        5.617816       .0000711       .0009560       .2958506      -.2874084";
"  3P        2.408498      -.0000157      -.0002001       .0097956       .8606492";
"  3P        1.640987       .0000064       .0000753      -.0024030       .3611511";
"        D                    3D             4D ";
"  BASIS/ORB.ENERGY      -35.8924567     -4.7857219";
"  3D       35.619597       .0066338      -.0023388";
"  3D       20.021927       .4398358      -.2045953";
"  4D       15.934469       .4880190      -.2250791";
"  4D       11.161212       .1598971      -.1425974";
"  4D        9.030128      -.0086233       .4642317";
"  4D        5.920706       .0020821       .6491539";
"  4D        3.876835      -.0002350       .1281533";
"        F                    4F ";
"  BASIS/ORB.ENERGY        -.5491852";
"  4F       17.604838       .0185309";
"  4F       10.118322       .1480404";
"  4F        6.763135       .3037790";
"  4F        4.400819       .4000376";
"  4F        2.713060       .2727691";
"  4F        1.655041       .0745447"].
(** data.tar: neutral/pt.slater:1-56 *)
Definition pt_neutral : list string := [
"      PLATINUM   [XE]4F(14)6S(1)5D(9), 3D                                             ";
"      CHARGE = 78.000000";
"      SYMMETRY SPECIES               S     P     D     F ";
"      NUMBER OF BASIS FUNCTIONS     13    10     9     6";
"      NUMBER OF CLOSED SHELLS        5     4     2     1";
"      NUMBER OF OPEN SHELLS          1     0     1     0";
"      OPEN SHELL OCCUPATION NUMBER   1     0     9     0";
"   E =-17331.069712924";
"   T = 17331.069666319     V =-34662.139379243     V/T =    -2.000000003";
"  ORBITAL ENERGIES AND EXPANSION COEFFICIENTS";
"        S                    1S             2S             3S             4S             5S             6S ";
"  BASIS/ORB.ENERGY    -2636.1121116   -444.0126759   -105.6334064    -23.3364815     -3.6052190     -0.2227536";
"  1S       96.326260      0.0564219      0.0188347     -0.0061649      0.0015119     -0.0011155      0.0003141";
"  1S       76.585788      0.9409199     -0.3661319      0.1694500     -0.0816891      0.0347209     -0.0082844";
"  2S       63.520880      0.0038348     -0.2497546      0.1344304     -0.0705321      0.0286654     -0.0066957";
"  2S       36.406532      0.0021731      1.1499398     -0.5990768      0.3069318     -0.1266740      0.0297998";
"  3S       33.061689     -0.0017725      0.1121623     -0.4515767      0.2450292     -0.1085978      0.0262673";
"  3S       23.311950      0.0013857      0.0068843      0.4440276      0.0824652     -0.0658450      0.0156943";
"  3S       18.635661     -0.0008341     -0.0019294      0.9679411     -1.3398353      0.6587665     -0.1581776";
"  3S        9.434858      0.0004007      0.0000168      0.0461103      1.2784192     -0.4004553      0.0730283";
"  3S        7.795365     -0.0003332     -0.0001112     -0.0260532      0.1657517     -0.8189454      0.2559009";
"  3S        4.597687      0.0000854      0.0000508      0.0039709      0.0138817      0.9091481     -0.2880679";
"  3S        3.229778     -0.0000346     -0.0000154     -0.0014705     -0.0016521      0.5691530     -0.1989232";
"  3S        1.315052      0.0000060      0.0000028      0.0002134      0.0002897      0.0036314      0.4686110";
"  3S        0.814405     -0.0000027     -0.0000012     -0.0000959     -0.0001312     -0.0011112      0.6365237";
"        P                    2P             3P             4P             5P ";
"  BASIS/ORB.ENERGY     -426.0131015    -97.1515440    -19.6426475     -2.3715259";
"  2P       71.132349      0.0080028     -0.0027812      0.0014955     -0.0006284";
"  2P       40.899509      0.7649351     -0.3886250      0.1899808     -0.0734491";
"  3P       36.308364      0.2518587     -0.2828016      0.1947511     -0.0855462";
"  4P       29.162881      0.0164634     -0.1118545      0.1846430     -0.1001655";
"  3P       20.835297     -0.0075913      1.1462945     -0.9299511      0.4365823";
"  3P       14.228098      0.0025906      0.2295579     -0.6060208      0.2217194";
"  3P       10.647981     -0.0013155     -0.0293458      1.2340786     -0.5672633";
"  4P        8.812642      0.0002246      0.0049111      0.4443816     -0.4753283";
"  3P        3.881013     -0.0000282     -0.0006004      0.0116953      0.9420593";
"  3P        2.545074      0.0000120      0.0001504     -0.0017708      0.3567214";
"        D                    3D             4D             5D ";
"  BASIS/ORB.ENERGY      -81.5377355    -12.8991162     -0.4749640";
"  3D       42.292119      0.0132242     -0.0057286      0.0016021";
"  3D       26.205977      0.5249554     -0.2719710      0.0798355";
"  4D       21.565757      0.4609842     -0.2701972      0.0817939";
"  4D       14.108561      0.0839452      0.2564342     -0.0964965";
"  4D       10.150504     -0.0173010      0.6251140     -0.2107496";
"  4D        7.418553      0.0063002      0.2788872     -0.1374803";
"  4D        4.495700     -0.0012098      0.0119996      0.4537196";
"  4D        2.690771      0.0003620     -0.0002754      0.5480134";
"  4D        1.553534     -0.0001024      0.0004127      0.2178775";
"        F                    4F ";
"  BASIS/ORB.ENERGY       -3.8420545";
"  4F       25.359777      0.0216615";
"  4F       15.274529      0.2402114";
"  4F       10.107702      0.4073683";
"  4F        6.937964      0.3475160";
"  4F        4.649549      0.1182301";
"  4F        2.821879      0.0072572"].
(** data.tar: neutral/pu.slater:1-62 *)
Definition pu_neutral : list string := [
"      PLUTONIUM   [RN]7S(2)5F(6), 7F                                                  ";
"      CHARGE = 94.000000";
"      SYMMETRY SPECIES               S     P     D     F ";
"      NUMBER OF BASIS FUNCTIONS     15    12     9     8";
"      NUMBER OF CLOSED SHELLS        7     5     3     1";
"      NUMBER OF OPEN SHELLS          0     0     0     1";
"      OPEN SHELL OCCUPATION NUMBER   0     0     0     6";
"   E =-27008.719247227";
"   T = 27008.719238005     V =-54017.438485232     V/T =    -2.000000000";
"  ORBITAL ENERGIES AND EXPANSION COEFFICIENTS";
"        S                    1S             2S             3S             4S             5S             6S             7S ";
"  BASIS/ORB.ENERGY    -3886.0482295   -683.3941126   -176.0323160    -46.3070943    -10.5877387     -1.6361177      -.1599112";
"  1S      107.536668       .1436556       .0384552      -.0108789       .0059652      -.0048504       .0016712      -.0006464";
"  1S       91.001119       .8589779      -.3997613       .1831559      -.0957899       .0499698      -.0200630       .0054881";
"  2S       75.300845      -.0034071      -.2548158       .1454995      -.0764420       .0357783      -.0150051       .0036628";
"  2S       44.082884       .0035098      1.1893240      -.6418875       .3374439      -.1634792       .0676024      -.0171369";
"  3S       39.184732      -.0029156       .0943748      -.5300659       .3462940      -.1936684       .0787458      -.0216858";
"  3S       27.656392       .0028110      -.0030589       .8780865      -.2544247       .1280517      -.0444394       .0151179";
"  3S       21.755071      -.0020805       .0019434       .6462112     -1.3344042       .7497862      -.3251499       .0796825";
"  4S       12.225155      -.0008883       .0007847      -.0016041      -.0464556      -.7227331       .4000135      -.1185972";
"  3S       12.224417       .0011832      -.0012633       .0081125      1.6681655     -1.0435061       .4580358      -.1133358";
"  3S        6.549731       .0004202      -.0002363      -.0015257       .0339193      1.1736051      -.4401745       .1304115";
"  3S        5.344848      -.0002610       .0001503       .0007922      -.0102222       .5539151      -.8160559       .2240666";
"  3S        2.619722       .0000493      -.0000283      -.0001330       .0004367       .0067195      1.0496782      -.2878553";
"  3S        1.934627      -.0000281       .0000155       .0000835      -.0002406      -.0011027       .3014185      -.2343831";
"  3S         .814951       .0000072      -.0000039      -.0000215       .0000318       .0001579      -.0032962       .7013616";
"  3S         .595810      -.0000040       .0000022       .0000122      -.0000159      -.0000788       .0016022       .4186423";
"        P                    2P             3P             4P             5P             6P ";
"  BASIS/ORB.ENERGY     -660.9072378   -164.9858409    -41.1105969     -8.4614113      -.9756442";
"  2P       90.239526      -.0045190      -.0014786       .0004775      -.0001273       .0000794";
"  2P       50.777857      -.7333913      -.3805807       .1993453      -.0965141       .0360158";
"  3P       45.540763      -.2747242      -.2513376       .1368721      -.0643105       .0247544";
"  3P       27.998986      -.0394074       .5962364      -.3406972       .1726608      -.0651927";
"  4P       27.995154       .0240194       .4031346      -.3965095       .2481790      -.0908506";
"  4P       15.561206       .0129158      -.2722243       .9610987      -.2563021       .1102291";
"  3P       14.518508      -.0152814       .4555404      -.7647791       .6768772      -.3068832";
"  3P       11.137490      -.0031190       .0199546       .8869277     -1.6919159       .7386558";
"  3P        6.391201       .0006333      -.0034783       .0200532       .9001289      -.2889960";
"  3P        5.039168      -.0003160       .0014264      -.0044921       .7029094      -.6988913";
"  3P        2.307997       .0000366      -.0001393       .0002515       .0103642       .9491279";
"  3P        1.580052      -.0000152       .0000561      -.0000995      -.0024517       .3129415";
"        D                    3D             4D             5D ";
"  BASIS/ORB.ENERGY     -144.6107841    -31.4843300     -4.6912457";
"  3D       61.400727       .0024160      -.0009037       .0004816";
"  3D       34.750009       .4446110      -.2502599       .1118385";
"  4D       28.815000       .4995353      -.3215019       .1538140";
"  4D       19.517891       .1537642       .0447868      -.0627262";
"  4D       14.876307      -.0435339       .6093909      -.2385776";
"  4D       11.601501       .0177018       .4518300      -.5273033";
"  4D        8.051959      -.0040757       .0390323       .4394790";
"  4D        5.509317       .0010280      -.0026048       .7687511";
"  4D        3.624359      -.0001972       .0003716       .1277065";
"        F                    4F             5F ";
"  BASIS/ORB.ENERGY      -18.0933673      -.6543432";
"  4F       32.847883       .0174196      -.0054853";
"  4F       20.322362       .2605935      -.0953211";
"  4F       13.247147       .5671416      -.1850768";
"  5F        8.319856      -.2306420       .2536835";
"  4F        7.796263       .4611818      -.1667725";
"  4F        4.624658       .0013215       .5489358";
"  4F        2.844790      -.0001339       .3806911";
"  4F        1.765028       .0000602       .0989754"].
(** data.tar: neutral/ra.slater:1-60 *)
Definition ra_neutral : list string := [
"      RADIUM   [RN]7S(2), 1S                                                          ";
"      CHARGE = 88.000000";
"      SYMMETRY SPECIES               S     P     D     F ";
"      NUMBER OF BASIS FUNCTIONS     15    12     9     6";
"      NUMBER OF CLOSED SHELLS        7     5     3     1";
"      NUMBER OF OPEN SHELLS          0     0     0     0";
"      OPEN SHELL OCCUPATION NUMBER   0     0     0     0";
"   E =-23094.303492621";
"   T = 23094.303625461     V =-46188.607118082     V/T =    -1.999999994";
"  ORBITAL ENERGIES AND EXPANSION COEFFICIENTS";
"        S                    1S             2S             3S             4S             5S             6S             7S ";
"  BASIS/ORB.ENERGY    -3388.9410404   -587.7442073   -147.8717299    -37.3415712     -8.2531697     -1.3706758      -.1487604";
"  1S      102.772371       .1096751       .0318380      -.0096438       .0042678      -.0033412       .0010642      -.0004524";
"  1S       85.593215       .8915113      -.3886018       .1790025      -.0907842       .0449412      -.0179371       .0052870";
"  2S       70.820905      -.0014083      -.2535717       .1418275      -.0746319       .0338972      -.0142064       .0038403";
"  2S       41.242337       .0031514      1.1748681      -.6264931       .3267457      -.1525735       .0629507      -.0175042";
"  3S       36.905364      -.0025815       .1029751      -.5007628       .3066762      -.1615524       .0647567      -.0193205";
"  3S       25.990833       .0023840      -.0004920       .7018671      -.0888788       .0244735      -.0005621       .0027685";
"  3S       20.824259      -.0016251       .0007897       .7742060     -1.3498968       .7480979      -.3237033       .0889003";
"  4S       10.834095      -.0005837       .0004658      -.0157038      -.1378765      -.4802696       .2645110      -.0853782";
"  3S       10.835315       .0007414      -.0007541       .0313323      1.6577775     -1.0696024       .4730707      -.1314972";
"  3S        5.559242       .0003038      -.0001365       .0027072       .0368847      1.2903628      -.4934123       .1499719";
"  3S        4.498561      -.0002080       .0000991      -.0017672      -.0150884       .3183558      -.7063196       .2227461";
"  3S        2.306842       .0000525      -.0000258       .0003806       .0017703       .0044793      1.1129129      -.3486209";
"  3S        1.710801      -.0000306       .0000145      -.0002055      -.0009736      -.0003307       .2612706      -.2434046";
"  3S         .761325       .0000086      -.0000040       .0000540       .0002231       .0000198      -.0038689       .7068613";
"  3S         .569949      -.0000048       .0000022      -.0000298      -.0001209      -.0000031       .0018555       .4324472";
"        P                    2P             3P             4P             5P             6P ";
"  BASIS/ORB.ENERGY     -566.9427808   -137.7986607    -32.7220010     -6.4498760      -.8198116";
"  2P       83.018450      -.0055746      -.0017521       .0005561      -.0001638       .0001031";
"  2P       46.836527      -.7530880      -.3885261       .1996493      -.0920646       .0343839";
"  3P       41.801671      -.2583868      -.2509679       .1352715      -.0610444       .0237117";
"  3P       25.187270      -.0298978       .7354511      -.4453769       .2176547      -.0823287";
"  4P       25.102935       .0186963       .3267092      -.3782728       .2290386      -.0821659";
"  4P       13.925446       .0075895      -.1236610       .6849932      -.1118114       .0642914";
"  3P       13.918592      -.0093014       .2561285      -.2855077       .2624712      -.1278195";
"  3P        9.852338      -.0028118       .0253284       .7646152     -1.3244952       .5449588";
"  3P        5.415789       .0005555      -.0035764       .0170906       .9096788      -.2361147";
"  3P        4.328539      -.0003073       .0016664      -.0050457       .5881836      -.7002996";
"  3P        1.999556       .0000366      -.0001652       .0002686       .0095365      1.0306082";
"  3P        1.359217      -.0000151       .0000656      -.0001065      -.0023955       .2416654";
"        D                    3D             4D             5D ";
"  BASIS/ORB.ENERGY     -119.2287342    -24.1977967     -3.2968683";
"  3D       54.653258       .0038909      -.0015145       .0007160";
"  3D       31.812073       .4608977      -.2526540       .1050504";
"  4D       26.239889       .4986425      -.3092364       .1373652";
"  4D       17.292475       .1446404       .0969944      -.0887128";
"  4D       13.510169      -.0516686       .5329369      -.1803875";
"  4D       10.453460       .0189476       .4773240      -.4538996";
"  4D        7.146561      -.0041161       .0456041       .3245785";
"  4D        4.838823       .0011286      -.0034510       .7742441";
"  4D        3.220235      -.0002231       .0003466       .1715341";
"        F                    4F ";
"  BASIS/ORB.ENERGY      -12.4305020";
"  4F       30.150869       .0184731";
"  4F       18.531819       .2488904";
"  4F       12.237536       .4875180";
"  5F        8.036556      -.2696101";
"  4F        7.428155       .5984041";
"  4F        4.881720       .0045264"].
(** data.tar: neutral/rb.slater:1-47 *)
Definition rb_neutral : list string := [
"      RUBIDIUM   K(2)L(8)M(18)4S(2)4P(6)5S(1), 2S                                     ";
"   E = -2938.357452181";
"   T =  2938.357452286     V = -5876.714904467     V/T =    -2.000000000";
"  ORBITAL ENERGIES AND EXPANSION COEFFICIENTS";
"        S                    1S             2S             3S             4S             5S ";
"  BASIS/ORB.ENERGY     -551.4573370    -75.0493463    -12.1331981     -1.5235485     -0.1378663";
"              CUSP        1.0003960      1.0002198      1.0003872      1.0004269      0.9996370";
"  1S       61.238288     -0.0142902      0.0475276     -0.0202379      0.0068127     -0.0014356";
"  3S       45.419154      0.0216673     -0.0502724      0.0217619     -0.0073618      0.0015052";
"  1S       37.904166      0.9805321     -0.3976681      0.1630787     -0.0550419      0.0115905";
"  4S       26.159754     -0.0240895      0.1068233     -0.0391489      0.0118970     -0.0028838";
"  2S       15.837093      0.0647545      0.8075864     -0.4356763      0.1579985     -0.0332553";
"  3S       15.837028     -0.0266718      0.1603309     -0.3381059      0.1422714     -0.0294429";
"  4S        8.856530     -0.0043941     -0.0370828      0.1086089     -0.0495287      0.0140940";
"  4S        6.318787     -0.0024274     -0.0257528     -0.1943080     -0.1250338      0.0345714";
"  2S        5.309624      0.0089300      0.0887017      1.3331631     -0.7458905      0.1632246";
"  2S        2.093831     -0.0001051      0.0000388     -0.0023556      1.1888711     -0.2985853";
"  2S        1.544223      0.0001022     -0.0002100      0.0039761      0.1410895      0.0036943";
"  2S        1.011039     -0.0000457      0.0001280     -0.0016422     -0.0015651     -0.3644020";
"  2S        0.525141      0.0000215     -0.0000690      0.0007290      0.0001535      1.2376598";
"  3S        0.525102     -0.0000103      0.0000339     -0.0003476      0.0003460      0.0344657";
"        P                    2P             3P             4P ";
"  BASIS/ORB.ENERGY      -67.9062306     -9.4876941     -0.8100702";
"              CUSP        1.0009232      0.9991827      0.9995428";
"  2P       58.153213     -0.0048819     -0.0033211     -0.0011752";
"  3P       47.226370     -0.0111043     -0.0074303     -0.0026368";
"  2P       27.305393      0.3350514      0.1692676      0.0549054";
"  3P       21.943275      0.4123617      0.1983483      0.0618273";
"  3P       15.955742      0.3165616      0.3170480      0.1180470";
"  2P        9.305393      0.0365816     -0.3207522     -0.1598011";
"  3P        7.290585     -0.0009949     -0.7038279     -0.2124898";
"  3P        5.311460      0.0006207     -0.2609028     -0.3598097";
"  3P        1.664002      0.0000967      0.0049228     -0.5908893";
"  2P        1.475167     -0.0001351     -0.0076509      1.7572623";
"  2P        0.525102     -0.0000017     -0.0000070      0.0024732";
"        D                    3D ";
"  BASIS/ORB.ENERGY       -4.7322916";
"              CUSP        0.9992555";
"  3D       35.762583      0.0014099";
"  4D       27.863840      0.0061088";
"  3D       11.927910      0.1911086";
"  3D        7.697962      0.4082720";
"  3D        5.232765      0.4103741";
"  3D        3.513352      0.0783208";
"  3D        1.532313      0.0005687";
"  3D        0.525102     -0.0000269";
" "].
(** data.tar: neutral/re.slater:1-56 *)
Definition re_neutral : list string := [
"      RHENIUM   [XE]4F(14)6S(2)5D(5), 6S                                              ";
"      CHARGE = 75.000000";
"      SYMMETRY SPECIES               S     P     D     F ";
"      NUMBER OF BASIS FUNCTIONS     13    10     9     6";
"      NUMBER OF CLOSED SHELLS        6     4     2     1";
"      NUMBER OF OPEN SHELLS          0     0     1     0";
"      OPEN SHELL OCCUPATION NUMBER   0     0     5     0";
"   E =-15784.532983147";
"   T = 15784.533014053     V =-31569.065997200     V/T =    -1.999999998";
"  ORBITAL ENERGIES AND EXPANSION COEFFICIENTS";
"        S                    1S             2S             3S             4S             5S             6S ";
"  BASIS/ORB.ENERGY    -2429.7513948   -405.8241391    -95.2729560    -20.5282693     -3.1196791      -.2306295";
"  1S       92.339350       .0608749       .0192109      -.0064404       .0012762      -.0009445       .0001750";
"  1S       73.536027       .9367511      -.3665220       .1690527      -.0801299       .0328811      -.0084767";
"  2S       60.962814       .0034534      -.2481520       .1328665      -.0696831       .0274705      -.0072893";
"  2S       35.060807       .0023651      1.1399561      -.5909589       .3010568      -.1203448       .0316391";
"  3S       31.839262      -.0018646       .1219206      -.4403300       .2312138      -.0980775       .0251350";
"  3S       22.365935       .0014001       .0074216       .4040010       .1045431      -.0743190       .0222123";
"  3S       17.850392      -.0008264      -.0019718       .9915362     -1.3244010       .6301334      -.1697214";
"  3S        9.008373       .0003256      -.0000052       .0410669      1.2274202      -.4796200       .1209492";
"  3S        7.134456      -.0002623      -.0000924      -.0208435       .2074168      -.6433998       .2037938";
"  3S        4.172463       .0000883       .0000505       .0043834       .0071896       .8367429      -.2580699";
"  3S        3.011416      -.0000405      -.0000182      -.0018423      -.0004726       .5769620      -.2655703";
"  3S        1.244577       .0000073       .0000034       .0002864       .0001308       .0031160       .5556794";
"  3S         .807746      -.0000035      -.0000016      -.0001334      -.0000543      -.0007880       .5641748";
"        P                    2P             3P             4P             5P ";
"  BASIS/ORB.ENERGY     -388.6505112    -87.2554538    -17.0969519     -2.0004651";
"  2P       67.926990       .0087133      -.0029910       .0016831      -.0006958";
"  2P       39.178277       .7667356      -.3877729       .1866740      -.0690519";
"  3P       34.698572       .2501406      -.2774777       .1943937      -.0817402";
"  4P       27.543233       .0167272      -.1104203       .2026724      -.1032476";
"  3P       19.862335      -.0086089      1.1371397      -.9504868       .4231178";
"  3P       13.806206       .0025370       .2211445      -.4736898       .1743824";
"  3P        9.729731      -.0010798      -.0152577      1.1779038      -.5488668";
"  4P        8.070798       .0002179       .0035462       .3778104      -.3813638";
"  3P        3.490619      -.0000341      -.0004565       .0098565       .9217272";
"  3P        2.324200       .0000138       .0001373      -.0019205       .3380931";
"        D                    3D             4D             5D ";
"  BASIS/ORB.ENERGY      -72.5030657    -10.8609482      -.5142745";
"  3D       40.024199       .0154979      -.0066257       .0017658";
"  3D       24.780256       .5364331      -.2724478       .0744329";
"  4D       20.314071       .4555213      -.2581266       .0728879";
"  4D       13.074404       .0756556       .3004991      -.1042631";
"  4D        9.341177      -.0169360       .5999957      -.1833925";
"  4D        6.767067       .0064777       .2622232      -.1152684";
"  4D        4.115949      -.0014048       .0120350       .3770492";
"  4D        2.531393       .0004941      -.0011158       .5791345";
"  4D        1.525586      -.0001329       .0001970       .2292808";
"        F                    4F ";
"  BASIS/ORB.ENERGY       -2.6110670";
"  4F       24.113043       .0212201";
"  4F       14.483275       .2202679";
"  4F        9.678188       .3761031";
"  4F        6.537670       .3647516";
"  4F        4.313282       .1610614";
"  4F        2.781860       .0176338"].
(** data.tar: neutral/rh.slater:1-50 *)
Definition rh_neutral : list string := [
"      RHODIUM   K(2)L(8)M(18)4S(2)4P(6)5S(1)4D(8), 4F                                 ";
"   E = -4685.881699827";
"   T =  4685.881694241     V = -9371.763394069     V/T =    -2.000000001";
"  ORBITAL ENERGIES AND EXPANSION COEFFICIENTS";
"        S                    1S             2S             3S             4S             5S ";
"  BASIS/ORB.ENERGY     -834.0394739   -121.5636488    -22.8796140     -3.5038918     -0.2216190";
"              CUSP        1.0002780      1.0000799      1.0004171      1.0004844      1.0009046";
"  1S       77.024171     -0.0234303      0.0431745     -0.0188112      0.0075587     -0.0017153";
"  3S       57.422340      0.0267584     -0.0434916      0.0195000     -0.0079073      0.0018354";
"  1S       46.951633      0.9766496     -0.3882523      0.1671637     -0.0679417      0.0155290";
"  4S       33.967751     -0.0304873      0.1027462     -0.0348174      0.0117894     -0.0021563";
"  3S       21.231867     -0.0319308      0.3696220     -0.4058314      0.2013116     -0.0499831";
"  2S       21.219242      0.0847538      0.5639108     -0.3120984      0.1372687     -0.0331423";
"  4S       12.051536     -0.0034107     -0.0594986      0.4104920     -0.1665171      0.0342975";
"  4S        9.357721     -0.0008051     -0.0194587      0.0915771     -0.3036682      0.1120336";
"  2S        8.131190      0.0078500      0.1621138      0.4608221     -0.0619054      0.0985604";
"  2S        6.958132     -0.0010981     -0.0230732      0.2776354     -0.7187318      0.0833338";
"  2S        3.298265      0.0000027      0.0002728      0.0051626      1.4100085     -0.3540430";
"  2S        2.284775      0.0000026     -0.0001313     -0.0002238      0.1346605     -0.2201497";
"  2S        0.825117     -0.0000015      0.0000284      0.0000835     -0.0014940      0.5636576";
"  2S        0.665761      0.0000010     -0.0000215     -0.0000516      0.0002571      0.5515493";
"        P                    2P             3P             4P ";
"  BASIS/ORB.ENERGY     -112.3861810    -19.1795957     -2.2911493";
"              CUSP        1.0008512      0.9994689      0.9991363";
"  2P       70.788924     -0.0045047     -0.0037801     -0.0025272";
"  3P       58.080359     -0.0094416     -0.0078492     -0.0052435";
"  2P       34.589353      0.2444900      0.1342656      0.0764002";
"  3P       28.182221      0.2515044      0.1026535      0.0481172";
"  3P       22.750752      0.1487164      0.1998676      0.1495745";
"  2P       16.701338      0.4188709      0.0917079     -0.0959767";
"  3P       10.300968      0.0037532     -0.7534710     -0.2973272";
"  3P        7.763781     -0.0005301     -0.3688023     -0.6254309";
"  3P        2.693156      0.0000232      0.0102028     -0.8709591";
"  2P        2.388176     -0.0000853     -0.0167588      2.1847584";
"  2P        0.665761      0.0000003     -0.0000343      0.0015338";
"        D                    3D             4D ";
"  BASIS/ORB.ENERGY      -12.4212919     -0.4501939";
"              CUSP        0.9997218      1.0000414";
"  3D       48.021841      0.0009286     -0.0003408";
"  4D       36.790557      0.0046539     -0.0017507";
"  3D       19.119353      0.0855810     -0.0256817";
"  4D       17.773712      0.0822445     -0.0321380";
"  3D       10.020134      0.6544581     -0.2153404";
"  4D        8.170279      0.2038421     -0.1730314";
"  3D        5.403773      0.0524595      0.1507610";
"  3D        3.223903      0.0010945      0.4976056";
"  3D        1.964992      0.0004051      0.4298886";
"  3D        1.227727      0.0001290      0.1650297";
"  3D        0.665761      0.0000004      0.0007133";
" "].
(** data.tar: neutral/ru.slater:1-50 *)
Definition ru_neutral : list string := [
"      RUTHENIUM   K(2)L(8)M(18)4S(2)4P(6)5S(1)4D(7), 5F                               ";
"   E = -4441.539484252";
"   T =  4441.539473165     V = -8883.078957417     V/T =    -2.000000002";
"  ORBITAL ENERGIES AND EXPANSION COEFFICIENTS";
"        S                    1S             2S             3S             4S             5S ";
"  BASIS/ORB.ENERGY     -795.5134720   -115.1587925    -21.4138861     -3.2571280     -0.2224272";
"              CUSP        1.0002653      0.9999861      1.0003357      1.0005126      1.0009571";
"  1S       75.587991      0.0232844      0.0427250     -0.0185471      0.0073663     -0.0017416";
"  3S       56.101603     -0.0274222     -0.0443646      0.0198170     -0.0079812      0.0019308";
"  1S       45.917485     -0.9760985     -0.3870782      0.1657759     -0.0665739      0.0158502";
"  4S       33.095826      0.0306301      0.1033482     -0.0349013      0.0113269     -0.0021273";
"  2S       20.646878     -0.0848102      0.5740429     -0.3173127      0.1366179     -0.0342669";
"  3S       20.626049      0.0322299      0.3630361     -0.4040189      0.1986110     -0.0513852";
"  4S       11.711121      0.0037650     -0.0543563      0.3882453     -0.1406479      0.0288306";
"  4S        9.098967      0.0006079     -0.0189611      0.0943775     -0.2616184      0.1029374";
"  2S        7.950497     -0.0089046      0.1460586      0.4532919      0.0937876      0.0526167";
"  2S        6.803507      0.0017707     -0.0155637      0.3080575     -0.9162615      0.1498782";
"  2S        3.167893     -0.0000240      0.0000402      0.0054792      1.3957461     -0.3527653";
"  2S        2.231223      0.0000059     -0.0000458     -0.0004548      0.1378832     -0.2507132";
"  2S        0.817674     -0.0000006      0.0000053      0.0001380     -0.0006417      0.5876874";
"  2S        0.666974      0.0000004     -0.0000074     -0.0000907     -0.0011817      0.5402123";
"        P                    2P             3P             4P ";
"  BASIS/ORB.ENERGY     -106.2393929    -17.8487532     -2.1012483";
"              CUSP        1.0008391      0.9996397      0.9998091";
"  2P       68.619796     -0.0050486     -0.0041061     -0.0024685";
"  3P       56.514248     -0.0102848     -0.0083052     -0.0049999";
"  2P       33.820701      0.2701542      0.1518429      0.0792914";
"  3P       27.555949      0.2931985      0.1382257      0.0646754";
"  3P       21.389947      0.2132710      0.2520952      0.1652811";
"  2P       15.693563      0.2983828     -0.0182836     -0.1378165";
"  3P        9.931706      0.0029538     -0.7586737     -0.2946319";
"  3P        7.447787     -0.0002784     -0.3539394     -0.6032269";
"  3P        2.569516      0.0000480      0.0088514     -0.8681875";
"  2P        2.280173     -0.0001129     -0.0145826      2.1712717";
"  2P        0.666974     -0.0000001     -0.0000295      0.0015824";
"        D                    3D             4D ";
"  BASIS/ORB.ENERGY      -11.3433439     -0.4127787";
"              CUSP        0.9997955      1.0004335";
"  3D       48.181841      0.0007669     -0.0002571";
"  4D       36.523583      0.0041056     -0.0014038";
"  3D       17.717806      0.1072652     -0.0318848";
"  4D       16.634643      0.0733546     -0.0289637";
"  3D        9.655157      0.6346140     -0.1961167";
"  4D        7.941762      0.1971960     -0.1545370";
"  3D        5.347505      0.0680989      0.1002518";
"  3D        3.199141      0.0010400      0.4581675";
"  3D        1.968988      0.0004065      0.4503422";
"  3D        1.217727      0.0000600      0.2095372";
"  3D        0.666974      0.0000119      0.0029183";
""].
(** data.tar: neutral/s.slater:1-31 *)
Definition s_neutral : list string := [
"      SULFUR   K(2)L(8)3S(2)3P(4), 3P                                                 ";
"   E =  -397.504895877";
"   T =   397.504895830     V =  -795.009791707     V/T =    -2.000000000";
"  ORBITAL ENERGIES AND EXPANSION COEFFICIENTS";
"        S                    1S             2S             3S ";
"  BASIS/ORB.ENERGY      -92.0044503     -9.0042897     -0.8795274";
"              CUSP        0.9999876      0.9998969      0.9997457";
"  2S       48.422248     -0.0003311     -0.0000964      0.0000376";
"  1S       25.147985     -0.2185996      0.0340191      0.0034601";
"  2S       21.424545     -0.1458971      0.0353772      0.0007431";
"  2S       12.574205      0.2712632      0.1313550      0.0178604";
"  1S       11.445276     -0.8952737     -0.5589279      0.2001706";
"  2S        6.468338     -0.0006092      0.5184366      0.1462161";
"  2S        5.067763     -0.0004666      0.5633707     -0.2861706";
"  1S        2.950475      0.0002312      0.0316144     -1.0966241";
"  1S        1.274078      0.0000167      0.0018838      1.6354332";
"  1S        0.935274      0.0000022     -0.0001474      0.0090317";
"        P                    2P             3P ";
"  BASIS/ORB.ENERGY       -6.6825090     -0.4373688";
"              CUSP        1.0005158      0.9991449";
"  2P       40.400452     -0.0000773      0.0000233";
"  3P       19.793965     -0.0034844      0.0009714";
"  2P       11.660972      0.1229454     -0.0352972";
"  3P       10.088606      0.0714001     -0.0278951";
"  2P        5.687485      0.5908461     -0.0770693";
"  3P        3.866997     -0.1122147      0.0839057";
"  2P        3.641627      0.3682991     -0.3602018";
"  2P        1.835517      0.0025488      0.4024984";
"  2P        1.197266      0.0001394      0.5932585";
"  2P        0.935274      0.0002639      0.1586131";
""].
(** data.tar: neutral/sb.slater:1-52 *)
Definition sb_neutral : list string := [
"      ANTIMONY   K(2)L(8)M(18)4S(2)4P(6)5S(2)4D(10)5P(3), 4S                          ";
"   E = -6313.485313640";
"   T =  6313.485313897     V =-12626.970627537     V/T =    -2.000000000";
"  ORBITAL ENERGIES AND EXPANSION COEFFICIENTS";
"        S                    1S             2S             3S             4S             5S ";
"  BASIS/ORB.ENERGY    -1085.5890406   -164.7579521    -33.6362155     -6.0631831     -0.5817732";
"              CUSP        1.0002951      1.0001819      1.0004523      1.0005086      0.9995447";
"  1S       81.669053     -0.0134638     -0.0566828      0.0243091      0.0098924     -0.0031373";
"  3S       62.093595      0.0165381      0.0487504     -0.0214849     -0.0088482      0.0026430";
"  1S       52.030871      0.9868225      0.4224765     -0.1852130     -0.0799153      0.0249416";
"  4S       36.759376     -0.0172073     -0.1137046      0.0304473      0.0054239     -0.0037421";
"  3S       23.815342     -0.0124990     -0.1251989      0.6819661      0.5277022     -0.1585936";
"  2S       23.814678      0.0454536     -0.4273076      1.0660930      0.8994842     -0.2834488";
"  2S       19.636087     -0.0010285     -0.4438770     -1.2403659     -1.2924573      0.4094224";
"  4S       14.494462      0.0003053     -0.0042354     -0.7713220     -0.6111574      0.2166477";
"  4S       10.724371     -0.0002028      0.0009317     -0.2837013     -0.6259397      0.2298345";
"  2S        4.044819      0.0001734     -0.0001021     -0.0100942      1.6523122     -0.5054422";
"  3S        2.384963      0.0001234     -0.0001953     -0.0014736      0.0205380      0.4902574";
"  2S        2.360123     -0.0001884      0.0002811      0.0031291     -0.0288217     -0.7170314";
"  2S        1.204949     -0.0000311      0.0000509      0.0001909     -0.0021243      1.0659010";
"  2S        0.818182      0.0000093     -0.0000157     -0.0000390      0.0006083      0.0307137";
"        P                    2P             3P             4P             5P ";
"  BASIS/ORB.ENERGY     -154.0037842    -29.1061440     -4.4447167     -0.3347111";
"              CUSP        1.0009109      1.0009247      1.0001425      0.9995527";
"  2P       62.951697      0.0155816      0.0262122     -0.0188221      0.0055849";
"  3P       55.728392      0.0179260      0.0293208     -0.0208711      0.0061790";
"  3P       36.852535      0.1020306      0.1389143     -0.0984827      0.0291815";
"  2P       26.182019     -0.9373856     -0.6041394      0.3167541     -0.0869754";
"  3P       21.277839     -0.2221459     -0.1217624      0.0062173      0.0044981";
"  3P       12.070084     -0.0005588      0.7411645     -0.2038949      0.0427736";
"  3P       10.015351     -0.0035681      0.3190643     -0.7393844      0.2494446";
"  3P        4.633217     -0.0058771     -0.1995954      0.3806189      0.0026424";
"  2P        3.778525      0.0079479      0.3036116      0.8480010     -0.2827206";
"  2P        2.345676     -0.0003433     -0.0416820      0.1816011     -0.5316514";
"  3P        2.323959     -0.0000411      0.0143907     -0.0429905      0.1536505";
"  2P        1.067563      0.0000746     -0.0010719      0.0036478      0.8387763";
"  2P        0.818182     -0.0000352      0.0003834     -0.0012729      0.3459677";
"        D                    3D             4D ";
"  BASIS/ORB.ENERGY      -20.7980725     -1.6878644";
"              CUSP        1.0001673      1.0004110";
"  3D       56.325199      0.0007560     -0.0004604";
"  4D       43.270728      0.0037287     -0.0023689";
"  3D       23.861190     -0.0169674      0.0210008";
"  3D       19.352127      0.1735366     -0.0976386";
"  3D       12.040675      0.5423797     -0.0842374";
"  3D        9.494720      0.1962367     -0.4615684";
"  3D        7.952780      0.1532098      0.2037659";
"  3D        4.413147      0.0032512      0.5904422";
"  3D        2.960090     -0.0005976      0.4506657";
"  3D        1.974195      0.0000981      0.0669669";
"  3D        0.818182     -0.0000118      0.0004180";
" "].
(** data.tar: neutral/sc.slater:1-44 *)
Definition sc_neutral : list string := [
"      SCANDIUM   K(2)L(8)3S(2)3P(6)4S(2)3D(1), 2D                                     ";
"   E =  -759.735717426";
"   T =   759.735717464     V = -1519.471434890     V/T =    -2.000000000";
"  ORBITAL ENERGIES AND EXPANSION COEFFICIENTS";
"        S                    1S             2S             3S             4S ";
"  BASIS/ORB.ENERGY     -165.8998988    -19.0806199     -2.5673240     -0.2101086";
"              CUSP        1.0002332      0.9993251      1.0002310      1.0005513";
"  1S       57.498657      0.0013535      0.0011952     -0.0003663      0.0000757";
"  3S       30.833372     -0.0120567     -0.0079309      0.0026465     -0.0005611";
"  1S       22.361741     -0.8097734     -0.1476516      0.0513897     -0.0124367";
"  3S       15.415630      0.0850621      0.0757744     -0.0379520      0.0104546";
"  2S        8.610080      0.2364389      1.1816323     -0.1710157      0.0175538";
"  1S        7.168035     -0.4739453     -0.6559424      0.1997936     -0.0264782";
"  2S        6.645788      0.0098844      0.3207819     -0.7562835      0.2368120";
"  2S        2.786909     -0.0114407     -0.0216877      1.0889723     -0.1453304";
"  1S        1.961794      0.0244354      0.0583152      0.1562578      0.6523544";
"  1S        1.588713     -0.0087021     -0.0233924      0.0876539     -1.2841630";
"  2S        0.676641     -0.0002086     -0.0008048      0.0019419      0.8249110";
"  1S        0.648242      0.0005320      0.0019576     -0.0049723      0.5079875";
"        P                    2P             3P ";
"  BASIS/ORB.ENERGY      -15.6682466     -1.5745484";
"              CUSP        1.0005327      0.9993743";
"  2P       49.842595     -0.0001098      0.0000463";
"  3P       26.926323     -0.0029004      0.0011609";
"  2P       14.480714      0.1212841     -0.0132121";
"  3P       10.991611      0.0252489      0.0647350";
"  2P        8.492563      0.5745498     -0.2299509";
"  2P        6.351088      0.3129971     -0.3568473";
"  3P        2.504892     -0.0040544     -0.4283568";
"  2P        2.207803      0.0065817      1.5576307";
"  2P        1.218695      0.0000003      0.0198377";
"  2P        0.648242     -0.0000130      0.0006167";
"        D                    3D ";
"  BASIS/ORB.ENERGY       -0.3437122";
"              CUSP        0.9998687";
"  3D       18.112701      0.0014099";
"  4D       13.806782      0.0065323";
"  3D        6.306244      0.0442052";
"  3D        4.161485      0.1963389";
"  3D        2.673453      0.3283685";
"  3D        1.714319      0.3818901";
"  3D        1.087439      0.2068560";
"  3D        0.648242      0.0039745";
""].
(** data.tar: neutral/se.slater:1-45 *)
Definition se_neutral : list string := [
"      SELENIUM   K(2)L(8)M(18)4S(2)4P(4), 3P                                          ";
"   E = -2399.867609593";
"   T =  2399.867609725     V = -4799.735219318     V/T =    -2.000000000";
"  ORBITAL ENERGIES AND EXPANSION COEFFICIENTS";
"        S                    1S             2S             3S             4S ";
"  BASIS/ORB.ENERGY     -460.8674045    -60.6688726     -8.9321018     -0.8373814";
"              CUSP        1.0004421      1.0001755      1.0002803      1.0004072";
"  1S       56.828412      0.0116221      0.0444538     -0.0185939      0.0054869";
"  3S       41.684096     -0.0210440     -0.0512570      0.0217226     -0.0064574";
"  1S       34.728365     -0.9787411     -0.3916991      0.1564411     -0.0461073";
"  4S       23.727323      0.0252435      0.1049385     -0.0392985      0.0105428";
"  2S       14.086853     -0.0666383      0.8671612     -0.4567798      0.1407371";
"  3S       14.072696      0.0299996      0.0972875     -0.3055537      0.1126788";
"  3S        6.512291      0.0120725     -0.0629209      0.2383658     -0.0101153";
"  2S        5.392830     -0.0170254      0.1028540      0.8959612     -0.1833988";
"  2S        3.949425      0.0009320     -0.0107288      0.1561662     -0.6121357";
"  2S        1.993854      0.0000644      0.0011542     -0.0044467      0.5140505";
"  2S        1.411000     -0.0001040     -0.0009378      0.0042356      0.7311799";
"  1S        0.897613      0.0000687      0.0005024     -0.0019600      0.0642519";
"        P                    2P             3P             4P ";
"  BASIS/ORB.ENERGY      -54.2689002     -6.6615222     -0.4028543";
"              CUSP        1.0009560      0.9993304      0.9999292";
"  2P       52.491766     -0.0064723     -0.0039597     -0.0010594";
"  3P       42.761369     -0.0144032     -0.0086921     -0.0023336";
"  2P       25.120026      0.3393958      0.1630156      0.0412546";
"  3P       19.850208      0.4351493      0.2015918      0.0496825";
"  3P       14.194446      0.3162317      0.3039687      0.0849833";
"  2P        6.300767      0.0221612     -0.6238082     -0.2107925";
"  3P        5.743780     -0.0069670     -0.4717771     -0.0982097";
"  3P        4.284076      0.0019448     -0.1636869     -0.2430954";
"  3P        1.319656      0.0006140      0.0038219     -0.5070019";
"  2P        1.131217     -0.0006687     -0.0066164      1.5097405";
"  2P        0.897613     -0.0000971      0.0003477      0.1154106";
"        D                    3D ";
"  BASIS/ORB.ENERGY       -2.6496262";
"              CUSP        0.9994320";
"  3D       31.897983      0.0015379";
"  4D       24.931347      0.0064220";
"  3D       10.860020      0.1590899";
"  3D        7.194093      0.3528155";
"  3D        4.709428      0.4300900";
"  3D        3.150997      0.1600225";
"  3D        1.826977      0.0063665";
"  3D        0.897613     -0.0000598";
" "].
(** data.tar: neutral/si.slater:1-31 *)
Definition si_neutral : list string := [
"      SILICON   K(2)L(8)3S(2)3P(2), 3P                                                ";
"   E =  -288.854362454";
"   T =   288.854362538     V =  -577.708724992     V/T =    -2.000000000";
"  ORBITAL ENERGIES AND EXPANSION COEFFICIENTS";
"        S                    1S             2S             3S ";
"  BASIS/ORB.ENERGY      -68.8124558     -6.1565380     -0.5398424";
"              CUSP        1.0000798      0.9995051      0.9992066";
"  1S       40.744005      0.0027330      0.0010884     -0.0003241";
"  1S       32.345799     -0.0101378     -0.0032055      0.0009458";
"  1S       14.154495     -0.9311367     -0.2917220      0.0659012";
"  2S       12.216360     -0.0745227     -0.1774382      0.0416884";
"  1S        6.257945     -0.0042718     -0.3282571      0.6266028";
"  2S        4.879641     -0.0034503      0.3203634      0.5323327";
"  1S        3.586780      0.0037882      1.0983224     -1.3386717";
"  1S        2.070236     -0.0003537      0.0013121     -0.8164418";
"  1S        0.975003      0.0001180      0.0012855      1.6628928";
"  1S        0.770863     -0.0000551     -0.0003025     -0.0327784";
"        P                    2P             3P ";
"  BASIS/ORB.ENERGY       -4.2560538     -0.2971145";
"              CUSP        1.0005405      0.9995811";
"  2P       35.986281     -0.0000771      0.0000186";
"  2P       20.811651      0.0019986     -0.0004618";
"  2P       11.079502      0.0027286      0.0010049";
"  2P        8.569582      0.1324846     -0.0298094";
"  2P        5.733707      0.2686232     -0.0732137";
"  2P        4.091940      0.5215984     -0.0253179";
"  2P        3.057286      0.1236799     -0.2177402";
"  2P        1.252393      0.0026814      0.3957806";
"  2P        0.870155     -0.0007868      0.6899150";
"  3P        0.770863      0.0002433      0.0234931";
""].
(** data.tar: neutral/sm.slater:1-54 *)
Definition sm_neutral : list string := [
"      SAMARIUM   [XE]6S(2)5D(0)4F(6), 7F                                              ";
"      CHARGE = 62.000000";
"      SYMMETRY SPECIES               S     P     D     F ";
"      NUMBER OF BASIS FUNCTIONS     13    10     7     6";
"      NUMBER OF CLOSED SHELLS        6     4     2     0";
"      NUMBER OF OPEN SHELLS          0     0     0     1";
"      OPEN SHELL OCCUPATION NUMBER   0     0     0     6";
"   E =-10034.952404095";
"   T = 10034.952363946     V =-20069.904768040     V/T =    -2.000000004";
"  ORBITAL ENERGIES AND EXPANSION COEFFICIENTS";
"        S                    1S             2S             3S             4S             5S             6S ";
"  BASIS/ORB.ENERGY    -1635.2844965   -262.5054173    -58.9329800    -12.2979683     -1.7786280      -.1692897";
"  1S       80.553966       .0387559       .0115616      -.0044441       .0007837      -.0006638       .0000340";
"  1S       61.076422       .9551018      -.3502588       .1594399      -.0738288       .0286847      -.0071665";
"  2S       50.677558       .0085391      -.2423404       .1227711      -.0624809       .0230812      -.0062414";
"  2S       29.587248       .0016798      1.0428324      -.5188718       .2565352      -.0965237       .0254052";
"  3S       27.096630      -.0010909       .2122095      -.3836314       .1991848      -.0804862       .0197176";
"  3S       16.477257       .0009905       .0207848       .4172064       .2350371      -.1288094       .0398236";
"  3S       14.129532      -.0008191      -.0111736       .8680290     -1.3655623       .6145362      -.1675405";
"  3S        7.261204       .0002650       .0013239       .0441635       .9947914      -.3500220       .0955977";
"  3S        5.877176      -.0001879      -.0009784      -.0199835       .4263414      -.5809364       .1600779";
"  3S        2.877709       .0000471       .0002325       .0028620       .0078087       .9002921      -.2453857";
"  3S        2.119230      -.0000281      -.0001298      -.0016202      -.0017186       .3772017      -.2257178";
"  3S         .868757       .0000072       .0000325       .0003727       .0002928      -.0019767       .6681294";
"  3S         .624307      -.0000041      -.0000183      -.0002083      -.0001526       .0010134       .4401656";
"        P                    2P             3P             4P             5P ";
"  BASIS/ORB.ENERGY     -248.8171715    -52.8384493     -9.8700384     -1.0471028";
"  2P       54.405756       .0128293      -.0045170       .0025373      -.0010145";
"  2P       31.824093       .7698796      -.3777737       .1745975      -.0597995";
"  3P       27.897446       .2458547      -.2770595       .1892418      -.0740265";
"  4P       21.470139       .0215147      -.1890108       .2602644      -.1167911";
"  3P       16.141744      -.0153342      1.1256312      -.8695162       .3530641";
"  3P       11.669037       .0034048       .2977482      -.4636421       .1747008";
"  3P        7.244475      -.0009285       .0004111      1.1226711      -.5093662";
"  4P        6.017516       .0002346       .0011476       .3081420      -.2753301";
"  3P        2.554320      -.0000502      -.0001809       .0094603       .8271293";
"  3P        1.728467       .0000206       .0000676      -.0022605       .3829636";
"        D                    3D             4D ";
"  BASIS/ORB.ENERGY      -41.6310098     -5.5353812";
"  3D       38.244436       .0054904      -.0019121";
"  3D       21.430627       .4333531      -.2050253";
"  4D       17.191602       .4830415      -.2309239";
"  4D       12.265523       .1629644      -.1176802";
"  4D        9.551774      -.0005188       .4670507";
"  4D        6.314693       .0017426       .6332190";
"  4D        4.118198      -.0000812       .1172183";
"        F                    4F ";
"  BASIS/ORB.ENERGY        -.6663717";
"  4F       18.738213       .0200298";
"  4F       10.788462       .1755422";
"  4F        7.107954       .3376071";
"  4F        4.631628       .3829486";
"  4F        2.885482       .2371633";
"  4F        1.789754       .0595922"].
(** data.tar: neutral/sn.slater:1-52 *)
Definition sn_neutral : list string := [
"      TIN   K(2)L(8)M(18)4S(2)4P(6)5S(2)4D(10)5P(2), 3P                               ";
"   E = -6022.931689355";
"   T =  6022.931688354     V =-12045.863377709     V/T =    -2.000000000";
"  ORBITAL ENERGIES AND EXPANSION COEFFICIENTS";
"        S                    1S             2S             3S             4S             5S ";
"  BASIS/ORB.ENERGY    -1041.2233446   -156.9775752    -31.5989772     -5.5124997     -0.4764356";
"              CUSP        1.0002978      1.0001812      1.0004625      1.0005480      0.9997541";
"  1S       80.455846     -0.0144977      0.0553118     -0.0237180      0.0095810     -0.0028319";
"  3S       61.077522      0.0174734     -0.0481743      0.0212480     -0.0087058      0.0024527";
"  1S       51.100199      0.9862892     -0.4189688      0.1830855     -0.0780882      0.0228900";
"  4S       36.186771     -0.0179256      0.1106680     -0.0298278      0.0053864     -0.0029306";
"  3S       23.454426     -0.0137471      0.1716616     -0.6055901      0.4433990     -0.1291051";
"  2S       23.445269      0.0471833      0.4931897     -0.8110250      0.6352886     -0.1933617";
"  2S       18.620156      0.0000230      0.3362926      0.9229662     -0.9542441      0.2946869";
"  4S       14.151788      0.0002655      0.0034871      0.7575007     -0.5789994      0.1922979";
"  4S       10.492947     -0.0001719     -0.0006488      0.2915521     -0.6151320      0.2150205";
"  2S        3.907598      0.0001192     -0.0000670      0.0106519      1.5908849     -0.5092645";
"  2S        2.390486     -0.0001507     -0.0001212     -0.0038822      0.0157757     -0.7607948";
"  2S        1.849969      0.0001101      0.0001008      0.0022045      0.0041426      0.6259933";
"  2S        1.078565     -0.0000283     -0.0000276     -0.0004316     -0.0008121      0.9907551";
"  2S        0.728067      0.0000083      0.0000085      0.0001092      0.0002816      0.0244081";
"        P                    2P             3P             4P             5P ";
"  BASIS/ORB.ENERGY     -146.4892623    -27.2090410     -3.9690540     -0.2650408";
"              CUSP        1.0009718      1.0009903      1.0002072      0.9992212";
"  2P       61.677788      0.0161149      0.0277049     -0.0192541      0.0051882";
"  3P       54.522439      0.0188180      0.0314146     -0.0216506      0.0058165";
"  3P       35.964661      0.1066856      0.1484704     -0.1019300      0.0274402";
"  2P       25.612520     -0.9448192     -0.6168577      0.3168417     -0.0789461";
"  3P       20.778057     -0.2201772     -0.1127965     -0.0001023      0.0056554";
"  3P       11.733191     -0.0014636      0.7761142     -0.2749161      0.0595664";
"  3P        9.474605     -0.0026237      0.2995494     -0.7029132      0.2133200";
"  3P        4.444605     -0.0051379     -0.1569917      0.1829855      0.0530090";
"  2P        3.619249      0.0069814      0.2401865      1.0783529     -0.3399077";
"  2P        2.253177     -0.0003514     -0.0343728      0.1739445     -0.3851452";
"  3P        2.247672     -0.0000026      0.0118788     -0.0369183      0.0776064";
"  2P        0.955341      0.0000494     -0.0006735      0.0027850      0.7346774";
"  2P        0.728067     -0.0000249      0.0002595     -0.0007700      0.4209948";
"        D                    3D             4D ";
"  BASIS/ORB.ENERGY      -19.1633545     -1.3690439";
"              CUSP        0.9999257      1.0007180";
"  3D       55.746534      0.0007571     -0.0003966";
"  4D       42.546716      0.0039293     -0.0021240";
"  3D       22.054380     -0.0494597      0.0412734";
"  3D       19.421508      0.1996605     -0.1112105";
"  3D       11.855840      0.5218006     -0.1074823";
"  3D        9.048137      0.2844154     -0.3901734";
"  3D        7.315308      0.0938120      0.1673586";
"  3D        4.324680      0.0024575      0.5215272";
"  3D        2.880503     -0.0001862      0.4827935";
"  3D        1.913171      0.0000049      0.1040839";
"  3D        0.728067     -0.0000019      0.0004031";
""].
(** data.tar: neutral/sr.slater:1-46 *)
Definition sr_neutral : list string := [
"      STRONTIUM   K(2)L(8)M(18)4S(2)4P(6)5S(2), 1S                                    ";
"   E = -3131.545684546";
"   T =  3131.545683521     V = -6263.091368067     V/T =    -2.000000000";
"  ORBITAL ENERGIES AND EXPANSION COEFFICIENTS";
"        S                    1S             2S             3S             4S             5S ";
"  BASIS/ORB.ENERGY     -583.6878839    -80.3907956    -13.4750284     -1.8968116     -0.1784561";
"              CUSP        1.0003648      1.0001540      1.0004466      1.0005762      1.0009344";
"  1S       63.847506     -0.0177545      0.0454456     -0.0193042      0.0068169     -0.0017508";
"  3S       47.274210      0.0243267     -0.0485781      0.0211161     -0.0075286      0.0019640";
"  1S       39.188703      0.9789460     -0.3924185      0.1618734     -0.0574662      0.0148069";
"  4S       27.364721     -0.0267645      0.1069584     -0.0368655      0.0111915     -0.0025055";
"  2S       16.734172      0.0722193      0.7269210     -0.3930822      0.1494970     -0.0395888";
"  3S       16.730882     -0.0286976      0.2349714     -0.3618884      0.1587752     -0.0435787";
"  4S        9.349486     -0.0039470     -0.0369796      0.2088815     -0.0741743      0.0155664";
"  4S        6.986214     -0.0016704     -0.0236862     -0.0521231     -0.1367121      0.0624252";
"  2S        5.834851      0.0084713      0.0963446      1.0964473     -0.5162326      0.1793129";
"  2S        4.333246     -0.0006574     -0.0034411      0.0018149     -0.3280181      0.0246532";
"  2S        2.286303      0.0000630      0.0000634      0.0038400      1.3829402     -0.2713697";
"  2S        1.569080     -0.0000224     -0.0000410     -0.0005635      0.0537518     -0.4127011";
"  2S        0.645727      0.0000044      0.0000070      0.0001016     -0.0011331      1.1372676";
"  3S        0.597422     -0.0000021     -0.0000033     -0.0000466      0.0004443      0.0845943";
"        P                    2P             3P             4P ";
"  BASIS/ORB.ENERGY      -72.9960372    -10.6999756     -1.0981635";
"              CUSP        1.0009676      0.9998912      0.9991494";
"  2P       59.272426     -0.0052361     -0.0036550     -0.0013384";
"  3P       48.379341     -0.0114863     -0.0079301     -0.0028904";
"  2P       28.210855      0.3326967      0.1721273      0.0598089";
"  3P       22.663072      0.4104599      0.2006975      0.0680591";
"  3P       16.507289      0.3159546      0.3265554      0.1293009";
"  2P        9.969782      0.0409869     -0.3092982     -0.1659193";
"  3P        7.589743     -0.0002693     -0.7401578     -0.2553096";
"  3P        5.520342      0.0004197     -0.2459051     -0.3975636";
"  3P        1.729602      0.0000605      0.0038000     -0.8360604";
"  2P        1.558351     -0.0000878     -0.0059260      2.0197647";
"  2P        0.597422     -0.0000010     -0.0000245      0.0023142";
"        D                    3D ";
"  BASIS/ORB.ENERGY       -5.6943953";
"              CUSP        0.9996495";
"  3D       36.575295      0.0014453";
"  4D       28.607388      0.0060802";
"  3D       12.288934      0.1996775";
"  3D        7.865863      0.4315563";
"  3D        5.425616      0.3845347";
"  3D        3.736432      0.0670549";
"  3D        1.567766      0.0003473";
"  3D        0.597422     -0.0000335"].
(** data.tar: neutral/ta.slater:1-56 *)
Definition ta_neutral : list string := [
"      TANTALUM   [XE]4F(14)6S(2)5D(3), 4F                                             ";
"      CHARGE = 73.000000";
"      SYMMETRY SPECIES               S     P     D     F ";
"      NUMBER OF BASIS FUNCTIONS     13    10     9     6";
"      NUMBER OF CLOSED SHELLS        6     4     2     1";
"      NUMBER OF OPEN SHELLS          0     0     1     0";
"      OPEN SHELL OCCUPATION NUMBER   0     0     3     0";
"   E =-14799.812390171";
"   T = 14799.812372155     V =-29599.624762326     V/T =    -2.000000001";
"  ORBITAL ENERGIES AND EXPANSION COEFFICIENTS";
"        S                    1S             2S             3S             4S             5S             6S ";
"  BASIS/ORB.ENERGY    -2296.8421067   -381.2922857    -88.6287394    -18.6843854     -2.7203222     -0.2174453";
"  1S       90.555103      0.0567981      0.0178020     -0.0061247      0.0011110     -0.0008554      0.0001409";
"  1S       71.629551      0.9403201     -0.3638414      0.1677265     -0.0788913      0.0313989     -0.0080830";
"  2S       59.404889      0.0041386     -0.2471379      0.1312004     -0.0684995      0.0261277     -0.0069715";
"  2S       34.177342      0.0022758      1.1291387     -0.5819079      0.2947295     -0.1141016      0.0300936";
"  3S       31.149791     -0.0017404      0.1308367     -0.4266372      0.2218121     -0.0912585      0.0232809";
"  3S       21.516317      0.0012991      0.0090526      0.3815128      0.1287125     -0.0819476      0.0244529";
"  3S       17.314435     -0.0007993     -0.0026854      0.9937583     -1.3260955      0.6100448     -0.1646856";
"  3S        8.785183      0.0002883      0.0001092      0.0405307      1.1468343     -0.4503988      0.1167050";
"  3S        6.954670     -0.0002159     -0.0001667     -0.0188737      0.2841795     -0.5680611      0.1729182";
"  3S        3.759950      0.0000681      0.0000666      0.0036098      0.0054914      0.8619316     -0.2544259";
"  3S        2.747928     -0.0000363     -0.0000304     -0.0017927     -0.0004315      0.4752824     -0.2455030";
"  3S        1.161882      0.0000075      0.0000062      0.0003258      0.0000951      0.0018234      0.5663814";
"  3S        0.770646     -0.0000037     -0.0000030     -0.0001556     -0.0000385     -0.0003877      0.5538834";
"        P                    2P             3P             4P             5P ";
"  BASIS/ORB.ENERGY     -364.6660205    -80.9173974    -15.4245114     -1.6883189";
"  2P       65.874762     -0.0091316     -0.0031103      0.0018059     -0.0007296";
"  2P       38.086014     -0.7655184     -0.3858427      0.1838251     -0.0652326";
"  3P       33.684651     -0.2514418     -0.2728045      0.1931644     -0.0772562";
"  4P       26.517276     -0.0173825     -0.1056497      0.2130961     -0.1005102";
"  3P       19.188001      0.0095100      1.1275494     -0.9648948      0.4040978";
"  3P       13.458863     -0.0026350      0.2166180     -0.4084622      0.1537052";
"  3P        9.170764      0.0010025     -0.0096886      1.1666177     -0.5401288";
"  4P        7.578027     -0.0002177      0.0027781      0.3341146     -0.3158948";
"  3P        3.241023      0.0000384     -0.0003580      0.0086087      0.8898631";
"  3P        2.154956     -0.0000153      0.0001168     -0.0017971      0.3423313";
"        D                    3D             4D             5D ";
"  BASIS/ORB.ENERGY      -66.7324123     -9.5204319     -0.3877358";
"  3D       37.575996      0.0211239     -0.0090616      0.0021282";
"  3D       23.498893      0.5597205     -0.2808052      0.0689308";
"  4D       19.288357      0.4353746     -0.2418178      0.0606280";
"  4D       12.337771      0.0629273      0.3538458     -0.1056734";
"  4D        8.617462     -0.0127969      0.6079660     -0.1711138";
"  4D        6.109997      0.0051271      0.2086217     -0.0713431";
"  4D        3.734351     -0.0012124      0.0082707      0.3548692";
"  4D        2.242696      0.0004205     -0.0003994      0.5700377";
"  4D        1.328980     -0.0001175      0.0001384      0.2540052";
"        F                    4F ";
"  BASIS/ORB.ENERGY       -1.8046287";
"  4F       23.099473      0.0220510";
"  4F       13.699995      0.2279771";
"  4F        8.927752      0.3971811";
"  4F        5.810732      0.3598951";
"  4F        3.709864      0.1554254";
"  4F        2.355401      0.0165094"].
(** data.tar: neutral/tb.slater:1-54 *)
Definition tb_neutral : list string := [
"      TERBIUM   [XE]6S(2)5D(0)4F(9), 6H                                               ";
"      CHARGE = 65.000000";
"      SYMMETRY SPECIES               S     P     D     F ";
"      NUMBER OF BASIS FUNCTIONS     13    10     7     6";
"      NUMBER OF CLOSED SHELLS        6     4     2     0";
"      NUMBER OF OPEN SHELLS          0     0     0     1";
"      OPEN SHELL OCCUPATION NUMBER   0     0     0     9";
"   E =-11226.568217318";
"   T = 11226.568261475     V =-22453.136478793     V/T =    -1.999999996";
"  ORBITAL ENERGIES AND EXPANSION COEFFICIENTS";
"        S                    1S             2S             3S             4S             5S             6S ";
"  BASIS/ORB.ENERGY    -1804.3426848   -292.5130828    -66.2426870    -13.6939524     -1.9011971      -.1744565";
"  1S       82.955621       .0452054       .0136258      -.0050593       .0009068      -.0007520       .0000358";
"  1S       63.922571       .9499453      -.3548982       .1622609      -.0753986       .0289568      -.0070193";
"  2S       53.013606       .0067962      -.2438222       .1254358      -.0643232       .0234413      -.0061792";
"  2S       30.826568       .0019517      1.0702648      -.5386782       .2681317      -.0995665       .0255178";
"  3S       28.227966      -.0013129       .1867396      -.3907340       .2034375      -.0812468       .0192677";
"  3S       17.761599       .0011244       .0163019       .3943828       .2148288      -.1166801       .0352488";
"  3S       15.016489      -.0008721      -.0077514       .9117981     -1.3650382       .6043303      -.1598223";
"  3S        7.765122       .0002783       .0008069       .0428487       .9739416      -.3466537       .0922544";
"  3S        6.248189      -.0001927      -.0006163      -.0184814       .4528382      -.5667808       .1509373";
"  3S        3.045055       .0000474       .0001480       .0026016       .0076038       .8621931      -.2266379";
"  3S        2.229203      -.0000278      -.0000800      -.0014516      -.0015951       .4046273      -.2229462";
"  3S         .897151       .0000071       .0000197       .0003282       .0002707      -.0015104       .6582115";
"  3S         .638579      -.0000040      -.0000111      -.0001840      -.0001415       .0008117       .4448412";
"        P                    2P             3P             4P             5P ";
"  BASIS/ORB.ENERGY     -278.0292535    -59.7155423    -11.0511513     -1.1094653";
"  2P       58.126052      -.0106348      -.0036890       .0021731      -.0008451";
"  2P       33.821695      -.7549762      -.3733774       .1737835      -.0585001";
"  3P       29.746277      -.2623843      -.2685920       .1845775      -.0693617";
"  4P       22.877678      -.0224033      -.1312788       .2302509      -.0989059";
"  3P       16.799271       .0148464      1.1033909      -.9025598       .3513294";
"  3P       12.072159      -.0037819       .2498091      -.4113325       .1567666";
"  3P        7.731577       .0011143      -.0021355      1.1412611      -.5125455";
"  4P        6.372903      -.0002743       .0015753       .3045854      -.2594673";
"  3P        2.702424       .0000575      -.0002137       .0088570       .7981467";
"  3P        1.813396      -.0000232       .0000794      -.0020157       .4043243";
"        D                    3D             4D ";
"  BASIS/ORB.ENERGY      -47.7132289     -6.3159237";
"  3D       40.387469       .0050433      -.0017594";
"  3D       22.687984       .4351764      -.2086718";
"  4D       18.290794       .4843027      -.2387275";
"  4D       13.044187       .1588657      -.1056786";
"  4D       10.138627      -.0012129       .4812813";
"  4D        6.712861       .0019648       .6223791";
"  4D        4.356704      -.0000206       .1096804";
"        F                    4F ";
"  BASIS/ORB.ENERGY        -.6953593";
"  4F       19.867646       .0209293";
"  4F       11.479325       .1976790";
"  4F        7.441491       .3669672";
"  4F        4.767002       .3710036";
"  4F        2.941008       .2112048";
"  4F        1.819700       .0497230"].
(** data.tar: neutral/tc.slater:1-50 *)
Definition tc_neutral : list string := [
"      TECHNETIUM   K(2)L(8)M(18)4S(2)4P(6)5S(2)4D(5), 6S                              ";
"   E = -4204.788734656";
"   T =  4204.788744213     V = -8409.577478869     V/T =    -1.999999998";
"  ORBITAL ENERGIES AND EXPANSION COEFFICIENTS";
"        S                    1S             2S             3S             4S             5S ";
"  BASIS/ORB.ENERGY     -758.0430471   -109.0697862    -20.1318348     -3.1521904     -0.2312740";
"              CUSP        1.0002651      0.9999222      1.0003056      1.0004812      1.0008693";
"  1S       74.164305     -0.0219095      0.0415437     -0.0179065      0.0070424     -0.0017797";
"  3S       54.792743      0.0269516     -0.0445812      0.0198090     -0.0079018      0.0020377";
"  1S       44.805211      0.9754829     -0.3853652      0.1639985     -0.0652693      0.0166127";
"  4S       32.289572     -0.0300293      0.1009901     -0.0329439      0.0103547     -0.0020786";
"  3S       20.180572     -0.0320959      0.3592739     -0.3972245      0.1936762     -0.0534145";
"  2S       20.132338      0.0839449      0.5749670     -0.3158886      0.1347856     -0.0360144";
"  4S       11.529383     -0.0035569     -0.0582885      0.3800262     -0.1391842      0.0301671";
"  4S        8.882526     -0.0007969     -0.0219463      0.1675627     -0.2709719      0.1101126";
"  2S        7.851249      0.0074374      0.1449735      0.5712894     -0.1630909      0.0945927";
"  2S        5.980539     -0.0004738     -0.0036422      0.1294286     -0.6793490      0.1191161";
"  2S        3.063907      0.0000254      0.0000299      0.0043304      1.4442081     -0.3332448";
"  2S        2.193010     -0.0000069     -0.0000443     -0.0002813      0.1216703     -0.3433390";
"  2S        0.862897      0.0000008      0.0000065      0.0000825     -0.0008762      0.6036055";
"  2S        0.680109     -0.0000004     -0.0000038     -0.0000480      0.0004937      0.5643350";
"        P                    2P             3P             4P ";
"  BASIS/ORB.ENERGY     -100.4060911    -16.6995775     -2.0412188";
"              CUSP        1.0006904      1.0003689      1.0009293";
"  2P       66.630255     -0.0074757     -0.0052891     -0.0027077";
"  3P       55.413772     -0.0140336     -0.0099752     -0.0051234";
"  2P       34.081682      0.2820514      0.1530758      0.0709520";
"  3P       27.355959      0.3351059      0.1606575      0.0689970";
"  3P       20.428471      0.2995358      0.2919110      0.1620222";
"  2P       14.321864      0.1766295     -0.0898887     -0.1394585";
"  3P        9.543653      0.0015497     -0.7672772     -0.2985973";
"  3P        7.107659      0.0001183     -0.3328028     -0.5791179";
"  3P        2.425902      0.0001046      0.0066631     -0.8629667";
"  2P        2.175861     -0.0001818     -0.0111822      2.1558945";
"  2P        0.680109     -0.0000009     -0.0000173      0.0016813";
"        D                    3D             4D ";
"  BASIS/ORB.ENERGY      -10.4446387     -0.5439526";
"              CUSP        0.9991622      1.0001617";
"  3D       47.460462      0.0007022     -0.0002580";
"  4D       35.858566      0.0038386     -0.0014443";
"  3D       19.502703      0.0033116      0.0030540";
"  3D       14.581944      0.1955376     -0.0681994";
"  3D        9.140374      0.6302851     -0.1990100";
"  4D        7.498466      0.1826545     -0.1444734";
"  3D        5.110192      0.0660937      0.0882628";
"  3D        3.054737      0.0009246      0.4470187";
"  3D        1.987935      0.0001187      0.4725979";
"  3D        1.308653     -0.0000382      0.1798436";
"  3D        0.680109      0.0000065      0.0010160";
" "].
(** data.tar: neutral/te.slater:1-52 *)
Definition te_neutral : list string := [
"      TELLURIUM   K(2)L(8)M(18)4S(2)4P(6)5S(2)4D(10)5P(4), 3P                         ";
"   E = -6611.784051172";
"   T =  6611.784057214     V =-13223.568108386     V/T =    -1.999999999";
"  ORBITAL ENERGIES AND EXPANSION COEFFICIENTS";
"        S                    1S             2S             3S             4S             5S ";
"  BASIS/ORB.ENERGY    -1130.9169998   -172.7553989    -35.7548870     -6.6470174     -0.7005600";
"              CUSP        1.0002829      1.0000745      1.0003829      1.0006572      0.9997307";
"  1S       85.845242      0.0151999     -0.0498725      0.0216044      0.0088323     -0.0029369";
"  3S       64.575316     -0.0182834      0.0468219     -0.0208689     -0.0087541      0.0027536";
"  1S       53.318205     -0.9843584      0.4110387     -0.1813028     -0.0791650      0.0259641";
"  4S       38.055728      0.0214103     -0.1153153      0.0332073      0.0051485     -0.0036209";
"  4S       23.183837      0.0028794      0.0617102     -0.2361289     -0.2021387      0.0654362";
"  3S       23.181322      0.0440502      0.0052970      0.2336746      0.1344749     -0.0356080";
"  2S       20.472540     -0.0826967     -1.0339644      0.4473546      0.1497841     -0.0473504";
"  4S       14.954391      0.0000206     -0.0041994     -0.7750755     -0.6218167      0.2314581";
"  4S       11.061281      0.0001031      0.0010196     -0.2957747     -0.6458092      0.2493878";
"  2S        4.106440     -0.0001653     -0.0002770     -0.0117599      1.7987180     -0.5171862";
"  3S        2.453937     -0.0002593     -0.0006896     -0.0060266      0.2953830      1.0492647";
"  2S        2.078816      0.0003416      0.0008877      0.0091395     -0.4314743     -1.4033196";
"  2S        1.341043      0.0000063      0.0000223     -0.0003707      0.0156985      1.2109880";
"  2S        0.848330     -0.0000035     -0.0000109      0.0000523     -0.0013446      0.0337903";
"        P                    2P             3P             4P             5P ";
"  BASIS/ORB.ENERGY     -161.7343697    -31.0840450     -4.9525675     -0.3598317";
"              CUSP        1.0008571      1.0007937      1.0000011      0.9999375";
"  2P       64.520612      0.0144891      0.0230789     -0.0170852      0.0053763";
"  3P       57.342579      0.0160548      0.0249203     -0.0182751      0.0057448";
"  3P       38.066026      0.0931224      0.1205088     -0.0880124      0.0276365";
"  2P       26.860842     -0.9171997     -0.5733180      0.3037345     -0.0884720";
"  3P       21.909185     -0.2316537     -0.1379155      0.0182506      0.0010960";
"  3P       12.422323     -0.0008947      0.7025233     -0.1358468      0.0235501";
"  3P       10.518869     -0.0035780      0.3468900     -0.7774381      0.2815596";
"  3P        4.865646     -0.0056813     -0.2234750      0.5680195     -0.0382135";
"  2P        3.990216      0.0078514      0.3492052      0.5397718     -0.1099874";
"  2P        2.979535     -0.0003409     -0.0398439      0.2374484     -0.6280083";
"  2P        1.573641     -0.0001520      0.0035158     -0.0016545      0.2602240";
"  2P        1.082552      0.0001445     -0.0019367      0.0031985      0.7459288";
"  2P        0.848330     -0.0000597      0.0006263     -0.0007358      0.2649131";
"        D                    3D             4D ";
"  BASIS/ORB.ENERGY      -22.5123472     -2.0382872";
"              CUSP        0.9995050      1.0003476";
"  3D       57.659379      0.0007132     -0.0004389";
"  4D       44.352216      0.0034987     -0.0022355";
"  3D       24.129056     -0.0180595      0.0228285";
"  3D       19.832277      0.1743763     -0.1021000";
"  3D       12.290430      0.5675455     -0.0839308";
"  3D        9.774302      0.1497072     -0.5117118";
"  3D        8.292981      0.1740867      0.2449969";
"  3D        4.494608      0.0027133      0.6583887";
"  3D        3.020391     -0.0004911      0.4093601";
"  3D        1.937052      0.0000534      0.0350382";
"  3D        0.848330     -0.0000092      0.0001836";
" "].
(** data.tar: neutral/th.slater:1-62 *)
Definition th_neutral : list string := [
"      THORIUM   [RN]7S(2)6D(2), 3F                                                    ";
"      CHARGE = 90.000000";
"      SYMMETRY SPECIES               S     P     D     F ";
"      NUMBER OF BASIS FUNCTIONS     15    12    11     6";
"      NUMBER OF CLOSED SHELLS        7     5     3     1";
"      NUMBER OF OPEN SHELLS          0     0     1     0";
"      OPEN SHELL OCCUPATION NUMBER   0     0     2     0";
"   E =-24359.622254112";
"   T = 24359.622040097     V =-48719.244294209     V/T =    -2.000000009";
"  ORBITAL ENERGIES AND EXPANSION COEFFICIENTS";
"        S                    1S             2S             3S             4S             5S             6S             7S ";
"  BASIS/ORB.ENERGY    -3551.2639266   -619.2744593   -157.4776298    -40.7261123     -9.4683078     -1.6903190      -.1699638";
"  1S      104.360470       .1200990       .0333656      -.0098424       .0047034      -.0036651       .0012334      -.0004931";
"  1S       87.407443       .8815923      -.3914290       .1801121      -.0923276       .0466871      -.0196466       .0060044";
"  2S       72.395723      -.0021026      -.2532484       .1424387      -.0749325       .0347804      -.0153911       .0044220";
"  2S       42.152982       .0032826      1.1801209      -.6313994       .3302920      -.1575690       .0686177      -.0201109";
"  3S       37.702725      -.0027010       .0980253      -.5075807       .3178437      -.1711134       .0724514      -.0223145";
"  3S       26.525386       .0025422      -.0004182       .7558642      -.1333352       .0477342      -.0096437       .0049014";
"  3S       21.190267      -.0017801       .0006590       .7324852     -1.3489750       .7660402      -.3519518       .1024187";
"  4S       11.203617      -.0006966       .0004392      -.0128007      -.1490560      -.5294024       .3081223      -.1023554";
"  3S       11.206623       .0008697      -.0007177       .0262677      1.6945428     -1.1153291       .5224699      -.1534364";
"  3S        5.799329       .0004235      -.0001371       .0020856       .0410371      1.4135093      -.4789534       .1380332";
"  3S        4.767688      -.0003101       .0001062      -.0014616      -.0184517       .2480229      -.9213468       .3304689";
"  3S        2.619963       .0000798      -.0000284       .0003166       .0021163       .0062890      1.1468723      -.4054897";
"  3S        1.957576      -.0000428       .0000145      -.0001503      -.0010401      -.0005232       .3443889      -.2701008";
"  3S         .895730       .0000095      -.0000032       .0000305       .0001760       .0000586      -.0014594       .6070797";
"  3S         .642855      -.0000047       .0000016      -.0000148      -.0000830      -.0000191       .0007830       .5455172";
"        P                    2P             3P             4P             5P             6P ";
"  BASIS/ORB.ENERGY     -597.9062952   -147.0800123    -35.9153333     -7.5429120     -1.0651446";
"  2P       85.220586      -.0053421      -.0016649       .0005270      -.0001661       .0001191";
"  2P       47.923019      -.7545122      -.3902926       .2019788      -.0955038       .0381249";
"  3P       42.810133      -.2569314      -.2512736       .1363338      -.0632900       .0264673";
"  3P       25.930725      -.0298021       .7224653      -.4364264       .2179909      -.0879567";
"  4P       25.894042       .0184939       .3352140      -.3831958       .2354721      -.0888839";
"  4P       14.310752       .0075874      -.1321109       .7435981      -.1474655       .0980544";
"  3P       14.333548      -.0089373       .2655522      -.3077817       .3066336      -.1582463";
"  3P       10.146515      -.0030917       .0303413       .7214663     -1.4038035       .5986024";
"  3P        5.791359       .0007417      -.0052866       .0181174       .8197282      -.0648631";
"  3P        4.757648      -.0004193       .0025897      -.0057524       .7336526     -1.0066944";
"  3P        2.238531       .0000391      -.0001975       .0001987       .0104700      1.1210335";
"  3P        1.497187      -.0000146       .0000719      -.0000825      -.0023044       .2164715";
"        D                    3D             4D             5D             6D ";
"  BASIS/ORB.ENERGY     -127.9072706    -27.0254272     -4.1384466      -.3168688";
"  3D       56.959163       .0031826      -.0012188       .0006064      -.0001103";
"  3D       32.929578       .4492931      -.2486148       .1078376      -.0331678";
"  4D       27.232169       .4986926      -.3126712       .1446990      -.0427688";
"  4D       18.308145       .1529973       .0409978      -.0577246       .0095852";
"  4D       14.322241      -.0440481       .5472579      -.2208294       .0893049";
"  4D       10.902954       .0144247       .5212498      -.4623053       .1262592";
"  4D        6.981844      -.0034667       .0395267       .4241750      -.1102053";
"  4D        4.936825       .0015782      -.0078739       .7434343      -.3812704";
"  4D        3.242964      -.0005068       .0017235       .0967889       .0924581";
"  4D        1.958372       .0001523      -.0004956      -.0023281       .6905171";
"  4D        1.173942      -.0000396       .0001181       .0006631       .3858830";
"        F                    4F ";
"  BASIS/ORB.ENERGY      -14.7135558";
"  4F       31.067912       .0180325";
"  4F       19.143075       .2523892";
"  4F       12.571937       .5188325";
"  5F        8.226585      -.1870913";
"  4F        7.787099       .4687865";
"  4F        6.101665       .0162251"].
(** data.tar: neutral/ti.slater:1-44 *)
Definition ti_neutral : list string := [
"      TITANIUM   K(2)L(8)3S(2)3P(6)4S(2)3D(2), 3F                                     ";
"   E =  -848.405996326";
"   T =   848.405996466     V = -1696.811992791     V/T =    -2.000000000";
"  ORBITAL ENERGIES AND EXPANSION COEFFICIENTS";
"        S                    1S             2S             3S             4S ";
"  BASIS/ORB.ENERGY     -183.2727593    -21.4229135     -2.8733981     -0.2207880";
"              CUSP        1.0001991      0.9992218      0.9999241      1.0000859";
"  1S       60.289820      0.0012926      0.0012040     -0.0004162      0.0000950";
"  3S       32.299759     -0.0114605     -0.0079860      0.0029768     -0.0006892";
"  1S       23.400426     -0.8115312     -0.1445460      0.0512115     -0.0122019";
"  3S       16.255875      0.0816377      0.0678589     -0.0333406      0.0087036";
"  2S        9.147991      0.2319387      1.1968416     -0.1871558      0.0232607";
"  1S        7.563319     -0.4691019     -0.6774864      0.1939240     -0.0266562";
"  2S        7.020328      0.0151634      0.3399134     -0.7919167      0.2360628";
"  2S        2.979739     -0.0092445     -0.0077091      1.0154717     -0.1497692";
"  1S        2.113198      0.0178036      0.0247033      0.3017204      0.4197396";
"  1S        1.621186     -0.0051991     -0.0091746      0.0505037     -1.0646875";
"  2S        0.695769     -0.0001907     -0.0005404      0.0015326      0.7481798";
"  1S        0.664512      0.0004695      0.0012567     -0.0038174      0.5949651";
"        P                    2P             3P ";
"  BASIS/ORB.ENERGY      -17.7911882     -1.7950876";
"              CUSP        1.0009235      0.9995368";
"  2P       51.299773     -0.0001234      0.0000553";
"  3P       28.672833     -0.0027166      0.0011428";
"  2P       15.156461      0.1326522     -0.0117801";
"  3P       11.712761      0.0474760      0.0659143";
"  2P        8.887041      0.5621316     -0.2596441";
"  2P        6.711089      0.2922171     -0.3439841";
"  3P        2.704253     -0.0039271     -0.4611724";
"  2P        2.368233      0.0066401      1.5999717";
"  2P        1.251387     -0.0000545      0.0168819";
"  2P        0.664512      0.0000022      0.0003730";
"        D                    3D ";
"  BASIS/ORB.ENERGY       -0.4406565";
"              CUSP        0.9999891";
"  3D       19.104138      0.0015070";
"  4D       14.658566      0.0067172";
"  3D        6.716801      0.0517986";
"  3D        4.401956      0.2309356";
"  3D        2.774678      0.3736332";
"  3D        1.786630      0.3511324";
"  3D        1.173680      0.1432688";
"  3D        0.664512      0.0010332";
""].
(** data.tar: neutral/tl.slater:1-58 *)
Definition tl_neutral : list string := [
"      TALLIUM   [XE]4F(14)6S(2)5D(10)6P(1), 2P                                        ";
"      CHARGE = 81.000000";
"      SYMMETRY SPECIES               S     P     D     F ";
"      NUMBER OF BASIS FUNCTIONS     13    12     9     6";
"      NUMBER OF CLOSED SHELLS        6     4     3     1";
"      NUMBER OF OPEN SHELLS          0     1     0     0";
"      OPEN SHELL OCCUPATION NUMBER   0     1     0     0";
"   E =-18961.824641669";
"   T = 18961.824692369     V =-37923.649334038     V/T =    -1.999999997";
"  ORBITAL ENERGIES AND EXPANSION COEFFICIENTS";
"        S                    1S             2S             3S             4S             5S             6S ";
"  BASIS/ORB.ENERGY    -2851.5471549   -484.5601295   -117.1504314    -26.8833796     -4.6187318      -.3610882";
"  1S      103.436743       .0362873      -.0135523      -.0047341       .0016226      -.0004058      -.0000267";
"  1S       79.972778       .9589419       .3574259       .1674107      -.0826433       .0354640      -.0099642";
"  2S       66.565494       .0066211       .2506907       .1327365      -.0689918       .0308879      -.0091753";
"  2S       37.786246       .0015190     -1.1474438      -.5935397       .3042875      -.1346307       .0393116";
"  3S       34.935192      -.0012862      -.1079625      -.4324982       .2463570      -.1017426       .0275214";
"  3S       23.854182       .0011015      -.0123038       .3950645       .1509260      -.1948673       .0685918";
"  3S       19.646005      -.0006941       .0047949       .9966690     -1.3930532       .9191113      -.2901465";
"  4S       13.028118       .0003319      -.0007067       .0423874       .1038870       .4950242      -.1906808";
"  3S        9.620853      -.0002887       .0006847      -.0215247      1.3241911     -1.7634271       .6068776";
"  3S        4.644696       .0000517      -.0001254       .0020271       .0216616       .9924953      -.3654071";
"  3S        3.495830      -.0000305       .0000650      -.0012026      -.0060608       .4175842      -.2389689";
"  3S        1.538362       .0000058      -.0000119       .0002046       .0007527       .0021033       .6377681";
"  3S        1.003827      -.0000026       .0000053      -.0000905      -.0003113      -.0003923       .5057159";
"        P                    2P             3P             4P             5P             6P ";
"  BASIS/ORB.ENERGY     -465.7266894   -108.1967591    -22.9176368     -3.2313262      -.1923760";
"  2P       75.656351      -.0064952      -.0019997       .0006459      -.0001679       .0000629";
"  2P       42.807966      -.7572746      -.3871171       .1935249      -.0794898       .0169105";
"  3P       38.003252      -.2559114      -.2490638       .1318632      -.0528984       .0117490";
"  3P       22.085285      -.0269090       .8688399      -.5375109       .2373849      -.0513271";
"  4P       22.083330       .0181179       .2174464      -.3238680       .1855248      -.0371981";
"  4P       12.487931       .0068118      -.0867369       .4786939      -.0110430       .0098532";
"  3P       12.486752      -.0094842       .2037032      -.1209031       .0787084      -.0283733";
"  3P        8.716768      -.0019129       .0130402       .8544410     -1.0296244       .2378189";
"  3P        4.389847       .0002001      -.0009163       .0136323       .8817594      -.2194381";
"  3P        3.082472      -.0000888       .0002706      -.0025062       .4664222      -.1713440";
"  3P        1.207403       .0000150      -.0000415       .0003067       .0053703       .5027994";
"  3P         .752814      -.0000071       .0000193      -.0001462      -.0010483       .5933590";
"        D                    3D             4D             5D ";
"  BASIS/ORB.ENERGY      -91.7084442    -15.6529108      -.9682370";
"  3D       47.191938       .0071032      -.0029673       .0010243";
"  3D       28.279271       .4876249      -.2569474       .0859108";
"  4D       23.220471       .4858872      -.2891861       .1018045";
"  4D       15.344936       .1105288       .1592499      -.0811377";
"  4D       11.487604      -.0255889       .5824509      -.2041891";
"  4D        8.518873       .0084954       .3984668      -.2474161";
"  4D        5.232079      -.0015683       .0212979       .4377690";
"  4D        3.290478       .0005196      -.0020300       .5971334";
"  4D        2.031593      -.0001307       .0004139       .1872996";
"        F                    4F ";
"  BASIS/ORB.ENERGY       -5.7852023";
"  4F       26.929334       .0198621";
"  4F       16.499440       .2204053";
"  4F       11.444569       .3447011";
"  5F        7.430050      -.5466218";
"  4F        6.673895      1.0381904";
"  4F        3.999648       .0224705"].
(** data.tar: neutral/tm.slater:1-54 *)
Definition tm_neutral : list string := [
"      THULIUM   [XE]6S(2)5D(0)4F(13), 2F                                              ";
"      CHARGE = 69.000000";
"      SYMMETRY SPECIES               S     P     D     F ";
"      NUMBER OF BASIS FUNCTIONS     13    10     7     6";
"      NUMBER OF CLOSED SHELLS        6     4     2     0";
"      NUMBER OF OPEN SHELLS          0     0     0     1";
"      OPEN SHELL OCCUPATION NUMBER   0     0     0    13";
"   E =-12940.174228351";
"   T = 12940.174228651     V =-25880.348457002     V/T =    -2.000000000";
"  ORBITAL ENERGIES AND EXPANSION COEFFICIENTS";
"        S                    1S             2S             3S             4S             5S             6S ";
"  BASIS/ORB.ENERGY    -2042.6987315   -334.9668088    -76.5288169    -15.6112009     -2.0608772     -0.1809131";
"  1S       86.510536      0.0525804      0.0160166     -0.0057355      0.0010537     -0.0008459      0.0000341";
"  1S       67.746514      0.9438281     -0.3600923      0.1654252     -0.0771179      0.0291599     -0.0068199";
"  2S       56.182403      0.0050971     -0.2454348      0.1283859     -0.0662482      0.0237378     -0.0060733";
"  2S       32.500079      0.0021914      1.1014411     -0.5613504      0.2810609     -0.1026282      0.0254939";
"  3S       29.732223     -0.0015530      0.1573033     -0.4044470      0.2107338     -0.0827698      0.0188759";
"  3S       19.530983      0.0012376      0.0122290      0.3848124      0.1755639     -0.0962917      0.0286524";
"  3S       16.170154     -0.0008732     -0.0048104      0.9515652     -1.3483489      0.5847885     -0.1492318";
"  3S        8.413489      0.0002784      0.0004004      0.0406966      0.9606634     -0.3483497      0.0898065";
"  3S        6.712172     -0.0001877     -0.0003404     -0.0165209      0.4708714     -0.5433794      0.1391390";
"  3S        3.262439      0.0000456      0.0000863      0.0023078      0.0072091      0.8214232     -0.2074243";
"  3S        2.366025     -0.0000262     -0.0000443     -0.0012604     -0.0013995      0.4339192     -0.2185653";
"  3S        0.935103      0.0000066      0.0000108      0.0002816      0.0002416     -0.0010068      0.6423859";
"  3S        0.657290     -0.0000037     -0.0000061     -0.0001578     -0.0001263      0.0005962      0.4555841";
"        P                    2P             3P             4P             5P ";
"  BASIS/ORB.ENERGY     -319.4209325    -69.4177883    -12.6746101     -1.1879923";
"  2P       62.010689     -0.0098169     -0.0033363      0.0020084     -0.0007630";
"  2P       35.956011     -0.7605188     -0.3801560      0.1782536     -0.0586071";
"  3P       31.711451     -0.2567408     -0.2680982      0.1902134     -0.0690668";
"  4P       24.625796     -0.0194750     -0.1091917      0.2289664     -0.0931514";
"  3P       17.939410      0.0118209      1.1116932     -0.9612153      0.3587369";
"  3P       12.772710     -0.0030762      0.2243828     -0.3646879      0.1414263";
"  3P        8.329778      0.0009821     -0.0041181      1.1548834     -0.5123905";
"  4P        6.821091     -0.0002295      0.0018951      0.2942109     -0.2375736";
"  3P        2.888972      0.0000469     -0.0002376      0.0081770      0.7686428";
"  3P        1.916143     -0.0000186      0.0000881     -0.0017617      0.4247497";
"        D                    3D             4D ";
"  BASIS/ORB.ENERGY      -56.3424687     -7.3915558";
"  3D       43.554777      0.0042963     -0.0014923";
"  3D       24.422389      0.4343149     -0.2109784";
"  4D       19.822464      0.4830166     -0.2465645";
"  4D       14.199502      0.1584186     -0.0872883";
"  4D       10.868032      0.0001377      0.4951290";
"  4D        7.213810      0.0020536      0.6061138";
"  4D        4.653229      0.0000566      0.1004010";
"        F                    4F ";
"  BASIS/ORB.ENERGY       -0.7192092";
"  4F       21.379996      0.0215569";
"  4F       12.494944      0.2134226";
"  4F        8.057008      0.3801615";
"  4F        5.103958      0.3618109";
"  4F        3.112255      0.1988927";
"  4F        1.898043      0.0477029"].
(** data.tar: neutral/u.slater:1-66 *)
Definition u_neutral : list string := [
"      URANIUM   [RN]7S(2)6D(1)5F(3), 5L                                               ";
"      CHARGE = 92.000000";
"      SYMMETRY SPECIES               S     P     D     F ";
"      NUMBER OF BASIS FUNCTIONS     15    12    11     8";
"      NUMBER OF CLOSED SHELLS        7     5     3     1";
"      NUMBER OF OPEN SHELLS          0     0     1     1";
"      OPEN SHELL OCCUPATION NUMBER   0     0     1     3";
"   E =-25664.338075360";
"   T = 25664.338196191     V =-51328.676271551     V/T =    -1.999999995";
" ";
"  ORBITAL ENERGIES AND EXPANSION COEFFICIENTS";
"        S                    1S             2S             3S             4S             5S             6S             7S ";
"  BASIS/ORB.ENERGY    -3716.7814093   -650.9601909   -166.6549408    -43.5082580    -10.0497355     -1.6748761     -0.1651491";
"  1S      105.948569      0.1314908      0.0360605     -0.0104367      0.0054282     -0.0042967      0.0014728     -0.0005596";
"  1S       89.207514      0.8707000     -0.3958082      0.1817428     -0.0941977      0.0484274     -0.0199500      0.0057314";
"  2S       73.824657     -0.0027993     -0.2543688      0.1442157     -0.0757363      0.0353325     -0.0152640      0.0040598";
"  2S       43.135437      0.0034122      1.1844169     -0.6366599      0.3337270     -0.1605925      0.0683254     -0.0186350";
"  3S       38.435041     -0.0028187      0.0972836     -0.5195679      0.3331668     -0.1830407      0.0761320     -0.0220267";
"  3S       27.065952      0.0026946     -0.0023122      0.8245638     -0.1999833      0.0905686     -0.0284888      0.0104142";
"  3S       21.462052     -0.0019406      0.0016114      0.6819648     -1.3362989      0.7577003     -0.3396144      0.0911806";
"  4S       11.698336     -0.0008001      0.0007082     -0.0072509     -0.1067436     -0.6211925      0.3534489     -0.1100545";
"  3S       11.694677      0.0010272     -0.0011048      0.0174997      1.6897707     -1.0919565      0.4974137     -0.1348177";
"  3S        6.183263      0.0004334     -0.0002467      0.0000580      0.0368797      1.2764231     -0.4438245      0.1282830";
"  3S        5.092883     -0.0002902      0.0001694     -0.0000975     -0.0137299      0.4240410     -0.8753248      0.2754573";
"  3S        2.598643      0.0000596     -0.0000351      0.0000098      0.0009063      0.0062788      1.1316892     -0.3579043";
"  3S        1.915613     -0.0000337      0.0000192      0.0000061     -0.0004794     -0.0008014      0.2752913     -0.2339463";
"  3S        0.863923      0.0000087     -0.0000049     -0.0000029      0.0000846      0.0001061     -0.0028955      0.6309013";
"  3S        0.624455     -0.0000045      0.0000025      0.0000016     -0.0000410     -0.0000447      0.0013112      0.5074851";
"        P                    2P             3P             4P             5P             6P ";
"  BASIS/ORB.ENERGY     -629.0327310   -155.9336912    -38.5053576     -8.0228296     -1.0294800";
"  2P       87.226042     -0.0051249     -0.0016296      0.0005308     -0.0001544      0.0001039";
"  2P       49.213004     -0.7482162     -0.3878068      0.2019396     -0.0967574      0.0374712";
"  3P       44.065058     -0.2616987     -0.2507736      0.1366214     -0.0637979      0.0257179";
"  3P       26.877372     -0.0334721      0.6725172     -0.3976681      0.2011532     -0.0788096";
"  4P       26.873584      0.0207619      0.3640839     -0.3881445      0.2432007     -0.0906799";
"  4P       14.962805      0.0084427     -0.1444753      0.7651783     -0.1247374      0.0696329";
"  3P       14.943929     -0.0101210      0.2942467     -0.4382001      0.3990900     -0.1936617";
"  3P       10.636528     -0.0033276      0.0315213      0.7935277     -1.5366656      0.6684159";
"  3P        6.102765      0.0007073     -0.0049035      0.0191574      0.8571387     -0.1924570";
"  3P        4.908426     -0.0003724      0.0021978     -0.0050914      0.7235066     -0.8406671";
"  3P        2.276364      0.0000387     -0.0001905      0.0002247      0.0105908      1.0397185";
"  3P        1.544958     -0.0000154      0.0000735     -0.0000905     -0.0024430      0.2585087";
"        D                    3D             4D             5D             6D ";
"  BASIS/ORB.ENERGY     -136.1612075    -29.2484419     -4.4325509     -0.3003548";
"  3D       59.265068      0.0027152     -0.0010121      0.0005306     -0.0000765";
"  3D       33.881203      0.4452939     -0.2486259      0.1096356     -0.0328603";
"  4D       28.053792      0.5000852     -0.3169844      0.1495831     -0.0427889";
"  4D       18.841775      0.1598839      0.0339453     -0.0599203      0.0076067";
"  4D       14.814453     -0.0505788      0.5362811     -0.2012601      0.0873852";
"  4D       11.425834      0.0172429      0.5327484     -0.5089289      0.1303788";
"  4D        7.475720     -0.0040324      0.0445032      0.4056180     -0.0935432";
"  4D        5.271222      0.0016720     -0.0073936      0.7518230     -0.3848184";
"  4D        3.534011     -0.0005060      0.0016063      0.1266983      0.0913131";
"  4D        2.016503      0.0001200     -0.0003694     -0.0005318      0.6762321";
"  4D        1.175780     -0.0000336      0.0000865      0.0000319      0.4057067";
"        F                    4F             5F ";
"  BASIS/ORB.ENERGY      -16.3975013     -0.7015121";
"  4F       32.058387      0.0173262     -0.0052546";
"  4F       19.789922      0.2535423     -0.0902488";
"  4F       12.960840      0.5411790     -0.1678375";
"  5F        8.199212     -0.2693791      0.2490057";
"  4F        7.637119      0.5353342     -0.2087695";
"  4F        4.494502      0.0007264      0.5444776";
"  4F        2.762193      0.0000012      0.4097294";
"  4F        1.697246      0.0000267      0.1029628";
" "].
(** data.tar: neutral/v.slater:1-44 *)
Definition v_neutral : list string := [
"      VANADIUM   K(2)L(8)3S(2)3P(6)4S(2)3D(3), 4F                                     ";
"   E =  -942.884337023";
"   T =   942.884337250     V = -1885.768674274     V/T =    -2.000000000";
"  ORBITAL ENERGIES AND EXPANSION COEFFICIENTS";
"        S                    1S             2S             3S             4S ";
"  BASIS/ORB.ENERGY     -201.5028320    -23.8746533     -3.1831854     -0.2305788";
"              CUSP        1.0001886      0.9993330      0.9998198      0.9998577";
"  1S       62.875206      0.0012909      0.0011806     -0.0004552      0.0001085";
"  3S       33.885936     -0.0109967     -0.0076674      0.0031646     -0.0007610";
"  1S       24.457516     -0.8120094     -0.1411707      0.0506617     -0.0118527";
"  3S       17.072833      0.0800390      0.0634607     -0.0296552      0.0073434";
"  2S        9.664612      0.2292945      1.2164420     -0.2029999      0.0277623";
"  1S        7.931088     -0.4691224     -0.7029589      0.1897509     -0.0264696";
"  2S        7.398658      0.0218235      0.3505894     -0.8210458      0.2348937";
"  2S        3.165850     -0.0057876     -0.0016772      0.9478692     -0.1477421";
"  1S        2.266794      0.0102509      0.0115395      0.4151478      0.2745684";
"  1S        1.653671     -0.0024138     -0.0042834      0.0348454     -0.9304527";
"  2S        0.712906     -0.0001130     -0.0003807      0.0012974      0.6846603";
"  1S        0.679086      0.0002730      0.0008539     -0.0031509      0.6630154";
"        P                    2P             3P ";
"  BASIS/ORB.ENERGY      -20.0224908     -2.0192251";
"              CUSP        1.0003518      0.9997845";
"  2P       52.631581     -0.0001616      0.0000688";
"  3P       30.669617     -0.0026656      0.0011174";
"  2P       15.795601      0.1549919     -0.0154736";
"  3P       12.334590      0.0894393      0.0580016";
"  2P        9.301379      0.4829740     -0.2474715";
"  2P        7.202975      0.3085893     -0.3520829";
"  3P        2.875851     -0.0058317     -0.4947799";
"  2P        2.512619      0.0094079      1.6362242";
"  2P        1.286363      0.0000017      0.0144381";
"  2P        0.679086     -0.0000114      0.0002403";
"        D                    3D ";
"  BASIS/ORB.ENERGY       -0.5096201";
"              CUSP        0.9998504";
"  3D       20.118919      0.0015727";
"  4D       15.491232      0.0069095";
"  3D        6.994400      0.0636709";
"  3D        4.606157      0.2528675";
"  3D        2.904122      0.3894624";
"  3D        1.867151      0.3290693";
"  3D        1.237729      0.1139047";
"  3D        0.679086      0.0004478";
""].
(** data.tar: neutral/w.slater:1-56 *)
Definition w_neutral : list string := [
"      TUNGSTEN   [XE]4F(14)6S(2)5D(4), 5D                                             ";
"      CHARGE = 74.000000";
"      SYMMETRY SPECIES               S     P     D     F ";
"      NUMBER OF BASIS FUNCTIONS     13    10     9     6";
"      NUMBER OF CLOSED SHELLS        6     4     2     1";
"      NUMBER OF OPEN SHELLS          0     0     1     0";
"      OPEN SHELL OCCUPATION NUMBER   0     0     4     0";
"   E =-15287.546162469";
"   T = 15287.546102582     V =-30575.092265051     V/T =    -2.000000004";
"  ORBITAL ENERGIES AND EXPANSION COEFFICIENTS";
"        S                    1S             2S             3S             4S             5S             6S ";
"  BASIS/ORB.ENERGY    -2362.8237604   -393.4586772    -91.9174516    -19.5962556     -2.9211564     -0.2247659";
"  1S       91.755953      0.0563746      0.0179315     -0.0060883      0.0011494     -0.0008679      0.0001551";
"  1S       72.626980      0.9407545     -0.3641739      0.1680118     -0.0793836      0.0320888     -0.0083004";
"  2S       60.237715      0.0041240     -0.2476125      0.1318742     -0.0689624      0.0267751     -0.0071409";
"  2S       34.604318      0.0022443      1.1346802     -0.5862267      0.2977056     -0.1172269      0.0309572";
"  3S       31.511899     -0.0017492      0.1254240     -0.4322737      0.2259587     -0.0944222      0.0242500";
"  3S       21.938006      0.0013089      0.0085821      0.3903929      0.1180749     -0.0790656      0.0235910";
"  3S       17.586218     -0.0007912     -0.0024650      0.9939518     -1.3257672      0.6209382     -0.1679155";
"  3S        8.892417      0.0002976      0.0000847      0.0408103      1.1897745     -0.4689246      0.1202830";
"  3S        7.033853     -0.0002311     -0.0001547     -0.0198406      0.2430628     -0.6005327      0.1874570";
"  3S        3.956290      0.0000761      0.0000671      0.0040284      0.0059449      0.8520441     -0.2581941";
"  3S        2.878493     -0.0000379     -0.0000283     -0.0018574     -0.0003658      0.5216925     -0.2551460";
"  3S        1.206903      0.0000073      0.0000055      0.0003118      0.0001010      0.0024821      0.5606967";
"  3S        0.791160     -0.0000035     -0.0000026     -0.0001464     -0.0000408     -0.0005842      0.5601529";
"        P                    2P             3P             4P             5P ";
"  BASIS/ORB.ENERGY     -376.5591196    -84.0534222    -16.2511390     -1.8450175";
"  2P       66.950836     -0.0088709     -0.0030309      0.0017307     -0.0007074";
"  2P       38.643624     -0.7656930     -0.3865866      0.1851489     -0.0671632";
"  3P       34.200713     -0.2512816     -0.2747749      0.1931407     -0.0793745";
"  4P       27.033162     -0.0170537     -0.1065712      0.2057719     -0.1015169";
"  3P       19.511957      0.0090132      1.1323161     -0.9560905      0.4142291";
"  3P       13.606262     -0.0025931      0.2171661     -0.4433922      0.1641555";
"  3P        9.466379      0.0010549     -0.0127777      1.1720459     -0.5438365";
"  4P        7.833344     -0.0002184      0.0032033      0.3598858     -0.3508431";
"  3P        3.362330      0.0000360     -0.0004092      0.0092493      0.9098035";
"  3P        2.236298     -0.0000145      0.0001284     -0.0018751      0.3360113";
"        D                    3D             4D             5D ";
"  BASIS/ORB.ENERGY      -69.5854916    -10.1819168     -0.4463079";
"  3D       38.504169      0.0192155     -0.0082510      0.0020672";
"  3D       24.042791      0.5523440     -0.2789670      0.0726445";
"  4D       19.742726      0.4415082     -0.2479188      0.0662618";
"  4D       12.667783      0.0672031      0.3360111     -0.1081430";
"  4D        8.915037     -0.0142263      0.6086477     -0.1802547";
"  4D        6.384653      0.0056715      0.2234136     -0.0888698";
"  4D        3.919845     -0.0013207      0.0094148      0.3701479";
"  4D        2.382645      0.0004539     -0.0005802      0.5737241";
"  4D        1.423574     -0.0001242      0.0001644      0.2386444";
"        F                    4F ";
"  BASIS/ORB.ENERGY       -2.1996072";
"  4F       23.482851      0.0224768";
"  4F       13.966058      0.2342310";
"  4F        9.123084      0.4001271";
"  4F        6.021852      0.3529661";
"  4F        3.920505      0.1452384";
"  4F        2.515460      0.0142784"].
(** data.tar: neutral/y.slater:1-50 *)
Definition y_neutral : list string := [
"      YTTRIUM   K(2)L(8)M(18)4S(2)4P(6)5S(2)4D(1), 2D                                 ";
"   E = -3331.684167956";
"   T =  3331.684164641     V = -6663.368332598     V/T =    -2.000000001";
"  ORBITAL ENERGIES AND EXPANSION COEFFICIENTS";
"        S                    1S             2S             3S             4S             5S ";
"  BASIS/ORB.ENERGY     -616.7493508    -85.8109444    -14.7589165     -2.1688776     -0.1961428";
"              CUSP        1.0003497      1.0001451      1.0004379      1.0005490      1.0008333";
"  1S       65.677600     -0.0188791      0.0453698     -0.0193666      0.0070679     -0.0018682";
"  3S       48.695568      0.0248794     -0.0479545      0.0209557     -0.0077182      0.0020667";
"  1S       40.299003      0.9788154     -0.3922181      0.1630000     -0.0598562      0.0158731";
"  4S       28.271256     -0.0273292      0.1072635     -0.0370227      0.0116053     -0.0027249";
"  3S       17.344941     -0.0299991      0.2467641     -0.3653089      0.1661307     -0.0467830";
"  2S       17.267598      0.0747949      0.7115893     -0.3870696      0.1528031     -0.0416298";
"  4S        9.716539     -0.0037693     -0.0382805      0.2406295     -0.0893118      0.0201208";
"  4S        7.333781     -0.0016007     -0.0242245     -0.0298301     -0.1670977      0.0726767";
"  2S        6.106382      0.0081482      0.1010985      1.0419102     -0.5332397      0.1845392";
"  2S        4.377257     -0.0005983     -0.0041977      0.0032733     -0.3651423      0.0391904";
"  2S        2.487865      0.0000820      0.0003139      0.0041410      1.4197921     -0.2630202";
"  2S        1.782123     -0.0000271     -0.0001298     -0.0005236      0.0917744     -0.4392445";
"  2S        0.696713      0.0000033      0.0000160      0.0000687     -0.0004815      1.1174216";
"  3S        0.626327     -0.0000015     -0.0000072     -0.0000299      0.0002070      0.0943850";
"        P                    2P             3P             4P ";
"  BASIS/ORB.ENERGY      -78.1644715    -11.8541929     -1.3011877";
"              CUSP        1.0009028      0.9998498      0.9993952";
"  2P       59.900446     -0.0066340     -0.0044378     -0.0017263";
"  3P       49.386205     -0.0134569     -0.0089414     -0.0034703";
"  2P       29.527649      0.3241549      0.1684998      0.0619773";
"  3P       23.603873      0.4042563      0.1977728      0.0705726";
"  3P       17.192929      0.3246994      0.3242036      0.1366654";
"  2P       10.613393      0.0499760     -0.2691898     -0.1630263";
"  3P        7.969468     -0.0002788     -0.7553278     -0.2723236";
"  3P        5.813073      0.0004417     -0.2580804     -0.4426046";
"  3P        1.867462      0.0000805      0.0032600     -0.9067918";
"  2P        1.678620     -0.0001196     -0.0053319      2.1182057";
"  2P        0.626327     -0.0000015      0.0000100      0.0019785";
"        D                    3D             4D ";
"  BASIS/ORB.ENERGY       -6.5994805     -0.2498489";
"              CUSP        1.0000295      1.0006818";
"  3D       40.810898      0.0009670     -0.0002091";
"  4D       31.088920      0.0049518     -0.0010717";
"  3D       13.030122      0.1870176     -0.0473405";
"  4D       11.548644      0.0116097     -0.0193085";
"  3D        8.178911      0.5443438     -0.0930002";
"  4D        6.740759      0.2038900     -0.0980748";
"  3D        4.532441      0.1435513      0.0071179";
"  3D        2.474758      0.0039834      0.2950860";
"  3D        1.534569     -0.0008202      0.4826028";
"  3D        0.951074      0.0003846      0.3356767";
"  3D        0.626327     -0.0001036      0.0166744";
" "].
(** data.tar: neutral/yb.slater:1-54 *)
Definition yb_neutral : list string := [
"      YTTERBIUM   [XE]6S(2)5D(0)4F(14), 1S                                            ";
"      CHARGE = 70.000000";
"      SYMMETRY SPECIES               S     P     D     F ";
"      NUMBER OF BASIS FUNCTIONS     13    10     7     6";
"      NUMBER OF CLOSED SHELLS        6     4     2     1";
"      NUMBER OF OPEN SHELLS          0     0     0     0";
"      OPEN SHELL OCCUPATION NUMBER   0     0     0     0";
"   E =-13391.456011419";
"   T = 13391.456004461     V =-26782.912015881     V/T =    -2.000000001";
"  ORBITAL ENERGIES AND EXPANSION COEFFICIENTS";
"        S                    1S             2S             3S             4S             5S             6S ";
"  BASIS/ORB.ENERGY    -2104.5923448   -346.0090678    -79.1894306    -16.0950183     -2.0987416     -0.1824185";
"  1S       87.352555      0.0549290      0.0167699     -0.0059576      0.0011190     -0.0008872      0.0000427";
"  1S       68.693248      0.9418238     -0.3616179      0.1662702     -0.0775525      0.0292132     -0.0067844";
"  2S       56.955480      0.0046308     -0.2459661      0.1291897     -0.0667207      0.0237863     -0.0060366";
"  2S       32.933882      0.0022641      1.1081762     -0.5664495      0.2838694     -0.1031639      0.0254316";
"  3S       30.102689     -0.0016239      0.1514344     -0.4090233      0.2131653     -0.0833987      0.0188934";
"  3S       19.971201      0.0012787      0.0112489      0.3872147      0.1647104     -0.0907385      0.0268814";
"  3S       16.452439     -0.0008808     -0.0041856      0.9572081     -1.3432210      0.5792017     -0.1465111";
"  3S        8.583422      0.0002803      0.0003093      0.0401699      0.9508381     -0.3444946      0.0879407";
"  3S        6.835797     -0.0001872     -0.0002793     -0.0159956      0.4818862     -0.5405242      0.1375085";
"  3S        3.307811      0.0000450      0.0000720      0.0022075      0.0071813      0.8180796     -0.2055766";
"  3S        2.392500     -0.0000259     -0.0000364     -0.0012057     -0.0014008      0.4334979     -0.2151780";
"  3S        0.943977      0.0000065      0.0000090      0.0002710      0.0002435     -0.0009986      0.6397761";
"  3S        0.661442     -0.0000037     -0.0000051     -0.0001517     -0.0001272      0.0005900      0.4572937";
"        P                    2P             3P             4P             5P ";
"  BASIS/ORB.ENERGY     -330.1975649    -71.9311454    -13.0837156     -1.2057731";
"  2P       63.020058     -0.0095943     -0.0032402      0.0019622     -0.0007424";
"  2P       36.488320     -0.7619618     -0.3817906      0.1792671     -0.0585690";
"  3P       32.197498     -0.2553492     -0.2678048      0.1914424     -0.0689512";
"  4P       25.055410     -0.0186672     -0.1033437      0.2283450     -0.0917991";
"  3P       18.221343      0.0110206      1.1127560     -0.9749620      0.3604070";
"  3P       12.943284     -0.0028627      0.2185524     -0.3511139      0.1366692";
"  3P        8.468270      0.0009302     -0.0045317      1.1577139     -0.5118509";
"  4P        6.924058     -0.0002145      0.0019558      0.2899645     -0.2316146";
"  3P        2.933562      0.0000436     -0.0002431      0.0079605      0.7618048";
"  3P        1.939912     -0.0000172      0.0000900     -0.0016886      0.4294879";
"        D                    3D             4D ";
"  BASIS/ORB.ENERGY      -58.5851326     -7.6613698";
"  3D       44.380596      0.0041230     -0.0014343";
"  3D       24.846977      0.4346080     -0.2116265";
"  4D       20.192372      0.4834056     -0.2488589";
"  4D       14.457411      0.1576035     -0.0811826";
"  4D       11.032791     -0.0000537      0.4992367";
"  4D        7.328845      0.0021169      0.6007440";
"  4D        4.721620      0.0000638      0.0979458";
"        F                    4F ";
"  BASIS/ORB.ENERGY       -0.7323478";
"  4F       21.813503      0.0212805";
"  4F       12.812141      0.2118029";
"  4F        8.292375      0.3779314";
"  4F        5.253542      0.3633646";
"  4F        3.193592      0.2009939";
"  4F        1.935523      0.0489053"].
(** data.tar: neutral/zn.slater:1-44 *)
Definition zn_neutral : list string := [
"      ZINC   K(2)L(8)3S(2)3P(6)4S(2)3D(10), 1S                                        ";
"   E = -1777.848115134";
"   T =  1777.848115984     V = -3555.696231119     V/T =    -2.000000000";
"  ORBITAL ENERGIES AND EXPANSION COEFFICIENTS";
"        S                    1S             2S             3S             4S ";
"  BASIS/ORB.ENERGY     -353.3045393    -44.3617197     -5.6378145     -0.2925066";
"              CUSP        1.0002636      0.9997949      0.9996953      0.9995278";
"  1S       72.171558      0.0019769      0.0020741     -0.0011753      0.0002886";
"  3S       42.777264     -0.0107609     -0.0088027      0.0052002     -0.0012828";
"  1S       31.527672     -0.8494586     -0.1335176      0.0488817     -0.0102453";
"  3S       22.081772      0.0580937      0.0372026     -0.0048718     -0.0001946";
"  2S       13.336452      0.1366863      1.2357655     -0.2951158      0.0510630";
"  1S       11.561129     -0.3167347     -0.6992431      0.1540240     -0.0240702";
"  2S       10.027114      0.0052139      0.3358924     -0.8917698      0.2096709";
"  2S        4.420748     -0.0001235      0.0096691      0.6694630     -0.1313166";
"  1S        3.230588      0.0002172     -0.0091453      0.8268842      0.0055122";
"  1S        2.015129     -0.0000261      0.0009479      0.0197176     -0.6356594";
"  2S        0.818486     -0.0000022      0.0000458      0.0009397      0.4198696";
"  1S        0.764862      0.0000046     -0.0001038     -0.0019831      0.8894478";
"        P                    2P             3P ";
"  BASIS/ORB.ENERGY      -38.9248387     -3.8393723";
"              CUSP        1.0005363      1.0007244";
"  2P       62.133895      0.0003765      0.0001517";
"  3P       41.854760      0.0026902      0.0011128";
"  2P       20.683667     -0.2288154     -0.0313310";
"  3P       16.687144     -0.2182349      0.0220066";
"  2P       11.270401     -0.5142568     -0.5172974";
"  2P        9.043064     -0.0801772     -0.0634072";
"  3P        4.115574      0.0072552     -0.5877818";
"  2P        3.555618     -0.0121590      1.7359178";
"  2P        1.819362      0.0000238      0.0153842";
"  2P        0.764862     -0.0000025      0.0001286";
"        D                    3D ";
"  BASIS/ORB.ENERGY       -0.7825362";
"              CUSP        0.9992137";
"  3D       26.840425      0.0016896";
"  4D       21.076327      0.0066854";
"  3D        9.261571      0.1293386";
"  3D        6.082216      0.3220073";
"  3D        3.860363      0.3716809";
"  3D        2.445106      0.2607110";
"  3D        1.590058      0.0802155";
"  3D        0.764862      0.0003242";
""].
(** data.tar: neutral/zr.slater:1-50 *)
Definition zr_neutral : list string := [
"      ZIRCONIUM   K(2)L(8)M(18)4S(2)4P(6)5S(2)4D(2), 3F                               ";
"   E = -3538.995062775";
"   T =  3538.995058001     V = -7077.990120775     V/T =    -2.000000001";
"  ORBITAL ENERGIES AND EXPANSION COEFFICIENTS";
"        S                    1S             2S             3S             4S             5S ";
"  BASIS/ORB.ENERGY     -650.7049844    -91.3776877    -16.0550277     -2.4191936     -0.2072925";
"              CUSP        1.0003331      1.0001304      1.0004262      1.0004960      1.0007722";
"  1S       67.592359     -0.0200934      0.0451571     -0.0193800      0.0072585     -0.0019166";
"  3S       50.153491      0.0255938     -0.0474142      0.0208376     -0.0078637      0.0021032";
"  1S       41.425649      0.9785096     -0.3916837      0.1639511     -0.0618098      0.0163762";
"  4S       29.178763     -0.0282160      0.1080504     -0.0375782      0.0122299     -0.0028827";
"  3S       17.919326     -0.0300996      0.2710428     -0.3774636      0.1755691     -0.0493803";
"  2S       17.912024      0.0766117      0.6865250     -0.3754797      0.1525955     -0.0415791";
"  4S        9.994816     -0.0038354     -0.0379529      0.2634943     -0.1023089      0.0231827";
"  4S        7.642912     -0.0016429     -0.0251887     -0.0546856     -0.1785952      0.0778035";
"  2S        6.238086      0.0086180      0.1054057      1.0569892     -0.5801306      0.2025866";
"  2S        4.544157     -0.0009570     -0.0079323     -0.0150192     -0.3511833      0.0285603";
"  2S        2.661086      0.0001423      0.0008655      0.0058579      1.4278307     -0.2589845";
"  2S        1.940158     -0.0000464     -0.0003133     -0.0008924      0.1234594     -0.4372861";
"  2S        0.730087      0.0000045      0.0000312      0.0000901     -0.0002587      1.0982977";
"  3S        0.643883     -0.0000020     -0.0000140     -0.0000387      0.0001264      0.1000195";
"        P                    2P             3P             4P ";
"  BASIS/ORB.ENERGY      -83.4785412    -13.0197673     -1.4875939";
"              CUSP        1.0005325      0.9996900      0.9993684";
"  2P       60.343183     -0.0087377     -0.0057480     -0.0023582";
"  3P       50.196004     -0.0164355     -0.0107973     -0.0044263";
"  2P       30.901959      0.3174449      0.1676956      0.0650633";
"  3P       24.531890      0.3978674      0.1957775      0.0732587";
"  3P       17.884138      0.3281361      0.3259147      0.1459484";
"  2P       11.439539      0.0633748     -0.2362467     -0.1616033";
"  3P        8.353774      0.0003157     -0.7669762     -0.2856684";
"  3P        6.122179      0.0002935     -0.2724428     -0.4814032";
"  3P        2.017179      0.0000553      0.0036571     -0.8960979";
"  2P        1.812481     -0.0000931     -0.0061078      2.1353732";
"  2P        0.643883     -0.0000001      0.0000090      0.0019542";
"        D                    3D             4D ";
"  BASIS/ORB.ENERGY       -7.5158398     -0.3367585";
"              CUSP        1.0006313      0.9995394";
"  3D       42.479679      0.0009114     -0.0002287";
"  4D       32.217117      0.0048085     -0.0012234";
"  3D       13.438794      0.1898195     -0.0514088";
"  4D       12.539994      0.0069596     -0.0137274";
"  3D        8.374347      0.5779562     -0.1299196";
"  4D        6.870380      0.1954391     -0.1192217";
"  3D        4.690315      0.1162553      0.0397585";
"  3D        2.537352      0.0030268      0.3846543";
"  3D        1.602841     -0.0006565      0.4816006";
"  3D        1.043033      0.0003234      0.2414336";
"  3D        0.643884     -0.0000648      0.0043192";
" "].
(** data.tar: cation/ag.cat:1-54 *)
Definition ag_cation : list string := [
"      SILVER+   K(2)L(8)M(18)4S(2)4P(6)5S(0)4D(10), 1S                                ";
"";
"";
"";
"   E = -5197.481328160";
"   T =  5197.481329747     V =-10394.962657907     V/T =    -2.000000000";
"";
"  ORBITAL ENERGIES AND EXPANSION COEFFICIENTS";
"        S                    1S             2S             3S             4S ";
"  BASIS/ORB.ENERGY     -914.1208052   -135.1612318    -26.2007539     -4.2860603";
"              CUSP        1.0000380      1.0001164      1.0000342      0.9998109";
"  1S       96.205766     -0.3376442      0.1086918      0.0471120     -0.0222314";
"  2S       92.007782     -0.0857809      0.0268566      0.0117398     -0.0055849";
"  2S       69.316325     -0.5008874      0.2053896      0.0909734     -0.0431802";
"  3S       58.276640     -0.1699084      0.1182025      0.0557643     -0.0271832";
"  4S       37.009771      0.0127512     -0.0504422     -0.0130550      0.0033385";
"  4S       31.058364      0.0096268     -0.1351971     -0.0811930      0.0420014";
"  2S       25.210376     -0.0472836     -0.5191002     -0.2828634      0.1416154";
"  3S       20.931374      0.0025700     -0.4343667     -0.4314174      0.2702443";
"  3S       12.923312     -0.0003137     -0.0159702      0.2386286      0.3210625";
"  4S       12.019269      0.0002702      0.0023666      0.4161500     -0.1154766";
"  2S        7.600018     -0.0001834     -0.0002726      0.6169098     -1.7400495";
"  2S        3.561582      0.0000255      0.0002857      0.0022902      1.0643406";
"  1S        2.418015     -0.0000268     -0.0001337      0.0022665      0.6623517";
"  2S        1.284773      0.0000007      0.0000029     -0.0000292      0.0000744";
"        P                    2P             3P             4P ";
"  BASIS/ORB.ENERGY     -125.4650845    -22.2292242     -2.9648891";
"              CUSP        1.0004797      1.0001386      1.0000198";
"  2P       46.559221      0.0097705      0.0394441     -0.0279194";
"  3P       41.455427      0.0359924      0.0790464     -0.0544000";
"  4P       35.819990      0.0397502      0.0725368     -0.0497524";
"  2P       23.244138     -0.9205467     -0.6129768      0.3012743";
"  3P       19.003003     -0.1879899     -0.0734110     -0.0221252";
"  3P       10.859053     -0.0026539      0.7816821     -0.3215567";
"  3P        8.310115     -0.0004771      0.3350763     -0.6653775";
"  2P        4.850725      0.0008558      0.0213847      0.0392216";
"  2P        3.372303     -0.0003739     -0.0005927      0.9617731";
"  2P        2.438419      0.0001694      0.0011472      0.4334011";
"  2P        1.284773     -0.0000112     -0.0000017      0.0027405";
"        D                    3D             4D ";
"  BASIS/ORB.ENERGY      -14.9624107     -0.8253207";
"              CUSP        1.0009104      0.9997499";
"  3D       47.563072      0.0026889     -0.0005740";
"  4D       38.124644      0.0100888     -0.0021493";
"  4D       23.402528      0.0361618     -0.0052381";
"  3D       14.295548      0.4167390     -0.1608625";
"  4D       12.300093      0.2373092     -0.0337440";
"  4D       10.273766      0.2746241     -0.1832996";
"  4D        7.691333      0.1236067     -0.0286646";
"  3D        4.178313      0.0050200      0.4128593";
"  3D        2.645050      0.0000264      0.4652739";
"  3D        1.700613     -0.0000600      0.2726433";
"  3D        1.284773      0.0000366      0.0285072";
""].
(** data.tar: cation/al.cat:1-32 *)
Definition al_cation : list string := [
"      ALUMINUM+   K(2)L(8)3S(2), 1S                                                   ";
"";
"";
"";
"   E =  -241.674670411";
"   T =   241.674670713     V =  -483.349341124     V/T =    -1.999999999";
"";
"  ORBITAL ENERGIES AND EXPANSION COEFFICIENTS";
"        S                    1S             2S             3S ";
"  BASIS/ORB.ENERGY      -58.8122526     -5.2175817     -0.6522983";
"              CUSP        1.0001199      0.9997792      0.9993657";
"  3S       32.296386      0.0006361      0.0002728     -0.0000820";
"  1S       18.512920     -0.3440437      0.0623928     -0.0144223";
"  2S       15.998712     -0.1939113      0.0565499     -0.0131978";
"  1S       10.978117     -0.4935399     -0.4610859      0.1017995";
"  2S        5.628319     -0.0014659      0.3297871     -0.1589242";
"  3S        3.751762      0.0011555     -0.2665428     -0.0810561";
"  2S        3.500398     -0.0016352      1.0191844     -0.2726152";
"  3S        1.701856      0.0002794     -0.0014236      0.4002417";
"  3S        1.258305      0.0000213     -0.0001947      0.4901999";
"  1S        1.142189     -0.0006048      0.0034832      0.3115090";
"        P                    2P ";
"  BASIS/ORB.ENERGY       -3.5226697";
"              CUSP        0.9991833";
"  3P       30.684557      0.0000824";
"  2P       17.454878      0.0026588";
"  2P        7.832108      0.1407670";
"  2P        5.026460      0.3392928";
"  2P        3.397058      0.5259332";
"  2P        2.323988      0.0502777";
"  3P        1.142189      0.0002970";
""].
(** data.tar: cation/ar.cat:1-36 *)
Definition ar_cation : list string := [
"      ARGON+   K(2)L(8)3S(2)3P(5), 2P                                                 ";
"";
"";
"";
"";
"   E =  -526.274534168";
"   T =   526.274534125     V = -1052.549068293     V/T =    -2.000000000";
"";
"  ORBITAL ENERGIES AND EXPANSION COEFFICIENTS";
"        S                    1S             2S             3S ";
"  BASIS/ORB.ENERGY     -119.1332739    -12.8358070     -1.7111647";
"              CUSP        1.0000326      0.9996197      0.9996451";
"  3S       46.331015     -0.0004309      0.0002188     -0.0000809";
"  1S       25.548587      0.3263347      0.0763964     -0.0310652";
"  2S       22.367307      0.1744946      0.0585132     -0.0235645";
"  1S       15.534609      0.5275146     -0.5064536      0.1691384";
"  2S        8.247562     -0.0052807     -0.1675905     -0.2090023";
"  3S        6.654266     -0.0069316     -0.5349609     -0.2310399";
"  2S        6.002988      0.0129751      1.7604617     -0.1489902";
"  3S        3.324836     -0.0000541      0.0029013      0.4387668";
"  3S        2.287129     -0.0000237      0.0004803      0.4888735";
"  1S        1.445917      0.0000293      0.0001777      0.2636181";
"        P                    2P             3P ";
"  BASIS/ORB.ENERGY      -10.0833465     -1.0453382";
"              CUSP        1.0000189      1.0002639";
"  2P       43.087509     -0.0001504      0.0000384";
"  2P       29.402017      0.0014071     -0.0002968";
"  4P       16.361110     -0.0001129     -0.0018472";
"  2P       10.508043      0.4226293     -0.1404732";
"  3P        8.278760      0.4876776     -0.1982277";
"  4P        6.839373      0.1304970     -0.1157987";
"  2P        4.097471      0.0563709      0.0246171";
"  3P        2.976452      0.0002690      0.1924433";
"  2P        1.665758      0.0021016      0.8625749";
"  3P        1.445917     -0.0000024      0.0427211";
""].
(** data.tar: cation/as.cat:1-50 *)
Definition as_cation : list string := [
"      ARSENIC+   K(2)L(8)M(18)4S(2)4P(2), 3P                                          ";
"";
"";
"";
"";
"   E = -2233.888333415";
"   T =  2233.888335161     V = -4467.776668575     V/T =    -1.999999999";
"";
"  ORBITAL ENERGIES AND EXPANSION COEFFICIENTS";
"        S                    1S             2S             3S             4S ";
"  BASIS/ORB.ENERGY     -432.9592940    -56.6803612     -8.3989584     -1.0031201";
"              CUSP        1.0000760      1.0000900      1.0000210      1.0001840";
"  2S       62.722113      0.0318769     -0.0099435      0.0038758     -0.0012238";
"  3S       53.655034      0.0431382     -0.0126878      0.0048014     -0.0015489";
"  3S       38.205753      0.0919660     -0.0317799      0.0137016     -0.0042192";
"  1S       36.073902      0.8616716     -0.2688267      0.1047067     -0.0301507";
"  3S       27.199543      0.0099717      0.1393847     -0.0640536      0.0176691";
"  4S       16.710509      0.0013077     -0.6002070      0.2042364     -0.0549256";
"  3S       14.917489     -0.0017082      1.4998868     -0.7305630      0.2101857";
"  3S        7.870504     -0.0000966      0.0145794      0.4465399     -0.1958674";
"  3S        5.770042      0.0000352     -0.0029312      0.6404036     -0.1834757";
"  3S        4.382332     -0.0000165      0.0010880      0.1061444     -0.3277488";
"  2S        1.510080      0.0000025     -0.0000968      0.0005392      1.2201109";
"  3S        1.160525     -0.0000007      0.0000267     -0.0000095      0.0142554";
"        P                    2P             3P             4P ";
"  BASIS/ORB.ENERGY      -50.5239072     -6.2483370     -0.6734093";
"              CUSP        1.0009361      0.9998070      1.0003663";
"  2P       50.112148     -0.0062944      0.0041245     -0.0011339";
"  3P       40.770702     -0.0142165      0.0091847     -0.0025319";
"  2P       24.029652      0.3461308     -0.1654166      0.0425792";
"  3P       19.126299      0.4181209     -0.1857325      0.0461048";
"  3P       13.878221      0.3116139     -0.2975515      0.0845920";
"  2P        7.349770      0.0336384      0.3726489     -0.1294308";
"  3P        6.171504     -0.0046123      0.6721012     -0.2124741";
"  4P        5.149749      0.0018872      0.1998072     -0.0962099";
"  3P        3.373262     -0.0006076      0.0413126     -0.1760212";
"  3P        1.219263     -0.0001012      0.0002096     -0.1942612";
"  2P        1.160525      0.0001653      0.0003082      1.3575238";
"        D                    3D ";
"  BASIS/ORB.ENERGY       -2.4809459";
"              CUSP        1.0000030";
"  3D       32.338729      0.0012433";
"  4D       24.790487      0.0059792";
"  3D       10.232415      0.2488856";
"  4D        8.255651      0.1965482";
"  3D        4.658280      0.5260243";
"  4D        3.508330      0.1448670";
"  3D        2.126255      0.0226817";
"  3D        1.160525     -0.0001195";
""].
(** data.tar: cation/b.cat:1-20 *)
Definition b_cation : list string := [
"      BORON+   1S(2)2S(2), 1S                                                         ";
"";
"";
"";
"   E =   -24.237575182";
"   T =    24.237575154     V =   -48.475150336     V/T =    -2.000000001";
"";
"  ORBITAL ENERGIES AND EXPANSION COEFFICIENTS";
"        S                    1S             2S ";
"  BASIS/ORB.ENERGY       -8.1859220     -0.8738233";
"              CUSP        0.9998944      0.9996720";
"  1S       19.552542     -0.0005259      0.0001235";
"  1S        7.836769      0.2163033      0.0068743";
"  2S        6.239598      0.1451222      0.0322259";
"  1S        4.180846      0.6724596     -0.1893342";
"  1S        2.454754     -0.0030166     -0.9720114";
"  2S        1.925902      0.0040794     -0.4406588";
"  1S        1.356578     -0.0061783      1.8229831";
"  2S        1.321986      0.0009129      0.3672927";
""].
(** data.tar: cation/be.cat:1-21 *)
Definition be_cation : list string := [
"      BERYLLIUM+   1S(2)2S(1), 2S                                                     ";
"";
"";
"";
"";
"   E =   -14.277394812";
"   T =    14.277394812     V =   -28.554789624     V/T =    -2.000000000";
"";
"  ORBITAL ENERGIES AND EXPANSION COEFFICIENTS";
"        S                    1S             2S ";
"  BASIS/ORB.ENERGY       -5.1383426     -0.6661462";
"              CUSP        1.0001008      0.9995006";
"  1S       12.893979     -0.0022254      0.0005419";
"  2S        7.512987     -0.0118931      0.0019158";
"  1S        5.403531      0.3875011     -0.0349763";
"  2S        4.422860      0.1991663      0.0066219";
"  1S        3.117200      0.4717797     -0.1099453";
"  2S        1.552788      0.0094101      0.2390992";
"  2S        1.181205      0.0045259      1.1745744";
"  1S        1.154250     -0.0194427     -0.4630159";
""].
(** data.tar: cation/br.cat:1-50 *)
Definition br_cation : list string := [
"      BROMINE+   K(2)L(8)M(18)4S(2)4P(4), 3P                                          ";
"";
"";
"";
"";
"   E = -2572.045209144";
"   T =  2572.045208992     V = -5144.090418136     V/T =    -2.000000000";
"";
"  ORBITAL ENERGIES AND EXPANSION COEFFICIENTS";
"        S                    1S             2S             3S             4S ";
"  BASIS/ORB.ENERGY     -490.4737573    -65.6108392    -10.2807912     -1.3467104";
"              CUSP        1.0000635      1.0000564      1.0000146      0.9998299";
"  2S       67.294844      0.0284514     -0.0089293      0.0035506     -0.0012681";
"  3S       57.492762      0.0388811     -0.0114683      0.0044332     -0.0015722";
"  3S       40.727731      0.0865955     -0.0306397      0.0134741     -0.0048615";
"  1S       37.992484      0.8714492     -0.2734770      0.1086981     -0.0343696";
"  3S       29.205536      0.0109695      0.1295447     -0.0608860      0.0189184";
"  4S       17.993320      0.0017623     -0.5897437      0.2036528     -0.0567483";
"  3S       16.047646     -0.0023266      1.4975680     -0.7445358      0.2325419";
"  3S        8.689741     -0.0001175      0.0181583      0.3091277     -0.1866279";
"  3S        6.726462      0.0000556     -0.0045596      0.6642492     -0.1282985";
"  3S        5.212538     -0.0000222      0.0013261      0.2179823     -0.4781425";
"  2S        1.777871      0.0000033     -0.0001139      0.0019710      1.2594980";
"  3S        1.294513     -0.0000008      0.0000221     -0.0001773      0.0167008";
"        P                    2P             3P             4P ";
"  BASIS/ORB.ENERGY      -58.9647815     -7.8855309     -0.8378819";
"              CUSP        1.0009635      0.9994025      0.9991792";
"  2P       53.152376     -0.0070112     -0.0045240     -0.0013741";
"  3P       43.442647     -0.0152546     -0.0097033     -0.0029436";
"  2P       25.742380      0.3456798      0.1732765      0.0505046";
"  3P       20.365726      0.4334995      0.2079504      0.0594017";
"  3P       14.707322      0.3002518      0.3194869      0.1032941";
"  2P        8.473316      0.0276910     -0.3779156     -0.1447437";
"  3P        6.551399      0.0001093     -0.7849565     -0.3070457";
"  4P        5.251324      0.0002758     -0.1536839     -0.1866541";
"  3P        2.261388     -0.0001007     -0.0081695      0.1181508";
"  3P        1.369469     -0.0000646     -0.0037504     -0.2553266";
"  2P        1.294513      0.0001281      0.0077846      1.2729773";
"        D                    3D ";
"  BASIS/ORB.ENERGY       -3.6281638";
"              CUSP        1.0009909";
"  3D       34.378207      0.0013031";
"  4D       26.422317      0.0061606";
"  3D       10.855664      0.2787546";
"  4D        8.697743      0.2050742";
"  3D        5.068949      0.5248900";
"  4D        3.854851      0.1031747";
"  3D        2.230536      0.0083185";
"  3D        1.294513     -0.0000042";
""].
(** data.tar: cation/ca.cat:1-38 *)
Definition ca_cation : list string := [
"      CALCIUM+   K(2)L(8)3S(2)3P(6)4S(1), 2S                                          ";
"";
"";
"";
"";
"   E =  -676.570012133";
"   T =   676.570011413     V = -1353.140023546     V/T =    -2.000000001";
"";
"  ORBITAL ENERGIES AND EXPANSION COEFFICIENTS";
"        S                    1S             2S             3S             4S ";
"  BASIS/ORB.ENERGY     -149.6093523    -17.0667838     -2.4851291     -0.4163176";
"              CUSP        1.0001660      1.0004027      1.0006912      1.0005946";
"  2S       46.826729      0.0013507     -0.0001507     -0.0000629      0.0000289";
"  4S       26.932592     -0.0146473     -0.0024068      0.0025099     -0.0009068";
"  1S       24.414308      0.7237433     -0.4466923      0.1515407     -0.0415726";
"  2S       20.740056      0.3277337     -0.3582898      0.1278590     -0.0357141";
"  2S       13.257979      0.0053740     -0.5918091      0.1789414     -0.0450552";
"  3S        7.629463     -0.0007797      0.1025515     -0.1922459      0.0669014";
"  1S        6.414563      0.0034271      1.7559194     -0.5872343      0.1571400";
"  3S        4.199025      0.0000430      0.0104057      0.4276799     -0.1569863";
"  3S        2.932248     -0.0001103     -0.0021200      0.6756945     -0.1788498";
"  3S        2.139810      0.0000488      0.0011472      0.0693289     -0.1578010";
"  3S        1.063151     -0.0000239     -0.0003739     -0.0012364      0.7445941";
"  3S        0.912488      0.0000161      0.0002265      0.0015668      0.3800610";
"        P                    2P             3P ";
"  BASIS/ORB.ENERGY      -13.8741848     -1.5816550";
"              CUSP        1.0001298      0.9999410";
"  3P       36.709506      0.0005156     -0.0001618";
"  3P       27.615969     -0.0031550      0.0007140";
"  4P       20.512304     -0.0039888     -0.0005556";
"  2P       11.829735      0.4447597     -0.1741201";
"  3P        9.266923      0.5172994     -0.2906277";
"  4P        7.563502      0.1166037     -0.1787580";
"  2P        4.264903      0.0227334      0.2856854";
"  3P        3.023909     -0.0000313      0.3851140";
"  2P        1.893422      0.0000942      0.6061761";
"  3P        0.912488     -0.0000143      0.0013617";
""].
(** data.tar: cation/cd.cat:1-55 *)
Definition cd_cation : list string := [
"      CADMIUM+   K(2)L(8)M(18)4S(2)4P(6)5S(1)4D(10), 2S                               ";
"";
"";
"";
"";
"   E = -5464.878604577";
"   T =  5464.878604622     V =-10929.757209199     V/T =    -2.000000000";
"";
"  ORBITAL ENERGIES AND EXPANSION COEFFICIENTS";
"        S                    1S             2S             3S             4S             5S ";
"  BASIS/ORB.ENERGY     -955.6180274   -142.3073771    -28.0090625     -4.7513351     -0.5483349";
"              CUSP        1.0001230      0.9998528      0.9996974      1.0004908      1.0007130";
"  2S       83.241314     -0.0811541      0.0570071      0.0236004     -0.0055631      0.0008701";
"  3S       74.097257     -0.0773673      0.0527000      0.0212958     -0.0051236      0.0008094";
"  1S       57.013483     -0.7640362      0.2488285      0.0759775     -0.0159578      0.0022237";
"  3S       56.271343     -0.1286896      0.1089940      0.0499728     -0.0119079      0.0019371";
"  3S       37.173267     -0.0079223      0.0371403      0.0798285     -0.0298952      0.0068381";
"  4S       35.081552      0.0018591     -0.0866111     -0.0014448     -0.0071460      0.0030443";
"  2S       20.121467     -0.0009174     -1.0207322     -1.0684982      0.6089006     -0.1830231";
"  4S       13.161690     -0.0000772      0.0083822      0.5290895     -0.3085116      0.0890768";
"  4S       10.128010     -0.0000735      0.0099951      0.1788734     -0.4956554      0.1813758";
"  1S        6.928708      0.0004519     -0.0590514      0.7400275     -0.6916589      0.2924009";
"  2S        3.638910     -0.0000123      0.0011059      0.0060670      1.4790337     -0.3264096";
"  2S        2.408334      0.0000082     -0.0008453     -0.0009327      0.0869634     -0.0459377";
"  1S        1.385266     -0.0000055      0.0005878      0.0005805     -0.0105546     -0.6097235";
"  2S        1.047220      0.0000006     -0.0000643     -0.0000650      0.0012931      1.4029963";
"        P                    2P             3P             4P ";
"  BASIS/ORB.ENERGY     -132.3482058    -23.8984936     -3.3571296";
"              CUSP        1.0008785      1.0004704      1.0009542";
"  2P       45.590143      0.0930886      0.1233108     -0.0816099";
"  3P       40.452978      0.1822696      0.2239033     -0.1466644";
"  4P       35.227058      0.1367408      0.1667356     -0.1090997";
"  2P       24.560040     -1.2344683     -0.9822888      0.5897455";
"  3P       18.494253     -0.1942605     -0.1244708      0.0959116";
"  3P       13.375523      0.0258144      0.1402810      0.2344330";
"  4P       12.492308     -0.0121504      0.2932974     -0.0489109";
"  2P        7.727315      0.0049171      0.7745982     -1.2885544";
"  2P        3.469794     -0.0001556      0.0050509      1.0973628";
"  2P        2.496341      0.0001252     -0.0001734      0.3406406";
"  2P        1.047220     -0.0000083      0.0000184      0.0009110";
"        D                    3D             4D ";
"  BASIS/ORB.ENERGY      -16.3735959     -1.0664347";
"              CUSP        1.0008939      0.9993768";
"  3D       48.197499      0.0030242     -0.0006672";
"  4D       38.917760      0.0107823     -0.0023771";
"  4D       23.971606      0.0418654     -0.0065555";
"  3D       14.574248      0.4139823     -0.1724647";
"  4D       12.816805      0.2229933     -0.0268978";
"  4D       10.561976      0.2944709     -0.2084554";
"  4D        7.894193      0.1127872     -0.0079414";
"  3D        4.252198      0.0048100      0.4528905";
"  3D        2.707643     -0.0003696      0.4862047";
"  3D        1.782312      0.0001149      0.2195409";
"  3D        1.047220     -0.0000185      0.0012032";
""].
(** data.tar: cation/cl.cat:1-36 *)
Definition cl_cation : list string := [
"      CHLORINE+   K(2)L(8)3S(2)3P(4), 3P                                              ";
"";
"";
"";
"";
"   E =  -459.048590564";
"   T =   459.048590546     V =  -918.097181110     V/T =    -2.000000000";
"";
"  ORBITAL ENERGIES AND EXPANSION COEFFICIENTS";
"        S                    1S             2S             3S ";
"  BASIS/ORB.ENERGY     -105.3604922    -11.0759293     -1.4700820";
"              CUSP        1.0000296      0.9995560      0.9998629";
"  3S       44.031394     -0.0004405      0.0002289     -0.0000737";
"  1S       23.995962      0.3379044      0.0754831     -0.0286536";
"  2S       20.988580      0.1795108      0.0588621     -0.0222061";
"  1S       14.596904      0.5115036     -0.5022667      0.1580000";
"  2S        7.765414     -0.0010683     -0.0012269     -0.2024156";
"  3S        6.066785     -0.0030354     -0.4153756     -0.2135670";
"  2S        5.496206      0.0055606      1.4861077     -0.1863398";
"  3S        3.020085     -0.0000324      0.0023314      0.3954535";
"  3S        2.105889     -0.0000404      0.0001914      0.4715283";
"  1S        1.370245      0.0000592      0.0004336      0.3353559";
"        P                    2P             3P ";
"  BASIS/ORB.ENERGY       -8.5388327     -0.9387849";
"              CUSP        1.0000355      0.9999871";
"  2P       40.716974     -0.0001465      0.0000382";
"  2P       27.023335      0.0016952     -0.0003804";
"  4P       15.098366     -0.0014493     -0.0013191";
"  2P        9.729816      0.4251351     -0.1241108";
"  3P        7.683095      0.4582471     -0.1394890";
"  4P        6.407885      0.1222902     -0.0678899";
"  2P        4.024439      0.0910895     -0.1175171";
"  3P        2.879577      0.0004342      0.1327532";
"  2P        1.576178      0.0016382      0.9389690";
"  3P        1.370245     -0.0000453      0.0567225";
""].
(** data.tar: cation/co.cat:1-49 *)
Definition co_cation : list string := [
"      COBALT+   K(2)L(8)3S(2)3P(6)4S(0)3D(8), 3F                                      ";
"";
"";
"";
"";
"   E = -1381.128748962";
"   T =  1381.128748178     V = -2762.257497139     V/T =    -2.000000001";
"";
"  ORBITAL ENERGIES AND EXPANSION COEFFICIENTS";
"        S                    1S             2S             3S ";
"  BASIS/ORB.ENERGY     -283.1520627    -34.9255046     -4.5978996";
"              CUSP        1.0000415      0.9999843      1.0003156";
"  2S       67.496474      0.0009036     -0.0002453     -0.0000038";
"  4S       39.155732     -0.0083420      0.0001878      0.0011829";
"  1S       34.186190      0.6899407     -0.3989003      0.1451680";
"  2S       29.520403      0.3436444     -0.2727763      0.1053719";
"  2S       21.144832      0.0288215     -0.3529380      0.1126571";
"  3S       13.631425      0.0012758      0.3721613     -0.1713230";
"  1S       11.183718     -0.0038379      1.0090924     -0.3605983";
"  3S       10.403162     -0.0000602      0.2361916     -0.2735667";
"  3S        6.817563     -0.0000705      0.0084847      0.3589734";
"  3S        4.747008     -0.0000050      0.0011514      0.6478970";
"  3S        3.434196     -0.0000058      0.0003798      0.2326551";
"  2S        1.212142      0.0000003      0.0000067      0.0009348";
"        P                    2P             3P ";
"  BASIS/ORB.ENERGY      -30.1833764     -3.0996464";
"              CUSP        1.0009531      0.9998975";
"  3P       49.592869      0.0003689     -0.0002460";
"  3P       39.477482     -0.0013412      0.0008744";
"  4P       19.512676      0.0053602      0.0068328";
"  2P       16.673142      0.4426844     -0.1943389";
"  3P       13.333803      0.5234879     -0.3462100";
"  4P       10.878716      0.1047917     -0.1684569";
"  2P        5.415827      0.0124798      0.4961583";
"  3P        4.289946     -0.0003313      0.4076930";
"  2P        2.615652      0.0008585      0.4125209";
"  3P        1.212142      0.0000097      0.0008242";
"        D                    3D ";
"  BASIS/ORB.ENERGY       -0.7346443";
"              CUSP        0.9999754";
"  3D       25.360930      0.0012034";
"  4D       19.431865      0.0056485";
"  3D        8.292261      0.1582785";
"  4D        6.786806      0.1458263";
"  3D        3.803809      0.4556616";
"  4D        2.832696      0.1997187";
"  3D        1.640045      0.2139434";
"  3D        1.212142      0.0289090";
""].
(** data.tar: cation/cr.cat:1-49 *)
Definition cr_cation : list string := [
"      CHROMIUM+   K(2)L(8)3S(2)3P(6)4S(0)3D(5), 6S                                    ";
"";
"";
"";
"";
"   E = -1043.139393011";
"   T =  1043.139393255     V = -2086.278786266     V/T =    -2.000000000";
"";
"  ORBITAL ENERGIES AND EXPANSION COEFFICIENTS";
"        S                    1S             2S             3S ";
"  BASIS/ORB.ENERGY     -220.6544031    -26.4698390     -3.5506150";
"              CUSP        1.0000307      0.9999569      1.0003264";
"  2S       63.642624      0.0006238     -0.0001700     -0.0000104";
"  4S       34.903178     -0.0069634     -0.0002247      0.0013557";
"  1S       30.519477      0.6845380     -0.3660586      0.1339027";
"  2S       26.478029      0.3368015     -0.2370729      0.0920055";
"  2S       19.488185      0.0432390     -0.2957423      0.1004640";
"  3S       12.033340      0.0022752      0.4017948     -0.1571419";
"  1S        9.989731     -0.0059438      0.8608776     -0.3200947";
"  3S        9.138198     -0.0003459      0.2579397     -0.2812644";
"  3S        5.910062      0.0000153      0.0084314      0.3299124";
"  3S        4.127722     -0.0000489      0.0011197      0.6466228";
"  3S        2.997876      0.0000064      0.0003768      0.2503798";
"  2S        1.139500     -0.0000007      0.0000051      0.0007242";
"        P                    2P             3P ";
"  BASIS/ORB.ENERGY      -22.4020498     -2.3214965";
"              CUSP        1.0005445      0.9996577";
"  3P       43.775129      0.0005164     -0.0002040";
"  3P       34.909328     -0.0019458      0.0004928";
"  4P       26.686822     -0.0006679     -0.0011245";
"  2P       14.945896      0.4174336     -0.1759278";
"  3P       11.935429      0.5234438     -0.3061616";
"  4P        9.815862      0.1287976     -0.1829794";
"  2P        5.244912      0.0253353      0.3313764";
"  3P        3.976645     -0.0007669      0.3975906";
"  2P        2.344857      0.0009423      0.5594122";
"  3P        1.139500     -0.0000036      0.0011658";
"        D                    3D ";
"  BASIS/ORB.ENERGY       -0.6492303";
"              CUSP        0.9997159";
"  3D       21.704945      0.0012835";
"  4D       16.633117      0.0058799";
"  3D        7.338995      0.1186526";
"  4D        6.032009      0.1207461";
"  3D        3.400197      0.4425691";
"  4D        2.572565      0.2107620";
"  3D        1.509219      0.2574073";
"  3D        1.139500      0.0393307";
""].
(** data.tar: cation/cu.cat:1-48 *)
Definition cu_cation : list string := [
"      COPPER+   K(2)L(8)3S(2)3P(6)4S(0)3D(10), 1S                                     ";
"";
"";
"";
"   E = -1638.728241711";
"   T =  1638.728242564     V = -3277.456484275     V/T =    -1.999999999";
"";
"  ORBITAL ENERGIES AND EXPANSION COEFFICIENTS";
"        S                    1S             2S             3S ";
"  BASIS/ORB.ENERGY     -329.1080544    -41.1281635     -5.3251796";
"              CUSP        1.0000390      0.9999798      1.0003375";
"  2S       72.576390      0.0008468     -0.0002316     -0.0000355";
"  4S       42.161112     -0.0077985      0.0001291      0.0015642";
"  1S       36.610202      0.6943284     -0.4364068      0.1537632";
"  2S       31.708712      0.3405675     -0.2952454      0.1119098";
"  2S       22.469954      0.0288044     -0.4217387      0.1199788";
"  3S       14.638358      0.0017302      0.3763935     -0.2000861";
"  1S       12.456345     -0.0064270      1.1248907     -0.3734866";
"  3S       11.237667     -0.0001853      0.2298157     -0.2541269";
"  3S        7.315857     -0.0000383      0.0081142      0.3839052";
"  3S        5.096873     -0.0000152      0.0011001      0.6477049";
"  3S        3.664368     -0.0000018      0.0003541      0.2069560";
"  2S        1.272903      0.0000001      0.0000065      0.0006164";
"        P                    2P             3P ";
"  BASIS/ORB.ENERGY      -35.9287257     -3.6418773";
"              CUSP        1.0008040      0.9992550";
"  3P       54.142279      0.0003173     -0.0002452";
"  3P       42.542133     -0.0012173      0.0009251";
"  4P       21.883549      0.0024285      0.0074957";
"  2P       18.160695      0.4356965     -0.1924747";
"  3P       14.647103      0.5270238     -0.3419074";
"  4P       11.953711      0.1113997     -0.1616307";
"  2P        5.504517      0.0125458      0.5693056";
"  3P        4.493556     -0.0013115      0.3815658";
"  2P        2.786438      0.0011886      0.3477180";
"  3P        1.272903     -0.0000017      0.0007246";
"        D                    3D ";
"  BASIS/ORB.ENERGY       -0.8101413";
"              CUSP        1.0002911";
"  3D       27.700444      0.0011645";
"  4D       21.210460      0.0055366";
"  3D        8.945777      0.1802289";
"  4D        7.285798      0.1591255";
"  3D        4.067033      0.4583858";
"  4D        3.010777      0.1917747";
"  3D        1.741365      0.1924941";
"  3D        1.272903      0.0237763";
""].
(** data.tar: cation/f.cat:1-31 *)
Definition f_cation : list string := [
"      FLUORINE+   1S(2)2S(2)2P(4), 3P                                                 ";
"";
"";
"";
"";
"   E =   -98.831720195";
"   T =    98.831720181     V =  -197.663440376     V/T =    -2.000000000";
"";
"  ORBITAL ENERGIES AND EXPANSION COEFFICIENTS";
"        S                    1S             2S ";
"  BASIS/ORB.ENERGY      -27.1412915     -2.1948497";
"              CUSP        0.9999797      0.9999156";
"  1S       31.450094      0.0006932      0.0001575";
"  1S       15.057760     -0.1374212      0.0099251";
"  2S       12.278272     -0.0955170      0.0209848";
"  1S        8.102550     -0.7683816     -0.1610834";
"  1S        5.356575     -0.0182997     -0.5929072";
"  2S        3.896304     -0.0011950     -0.0993401";
"  1S        2.053128     -0.0008885      1.4467923";
"  2S        1.699484      0.0000325     -0.0009581";
"        P                    2P ";
"  BASIS/ORB.ENERGY       -1.4441222";
"              CUSP        0.9999373";
"  3P       20.487784      0.0001017";
"  2P       11.578430      0.0040208";
"  2P        5.669336      0.0541934";
"  2P        4.138776      0.1861459";
"  2P        2.810319      0.3445465";
"  2P        1.955380      0.4634053";
"  3P        1.699484      0.0154226";
""].
(** data.tar: cation/fe.cat:1-49 *)
Definition fe_cation : list string := [
"      IRON+   K(2)L(8)3S(2)3P(6)4S(1)3D(6), 6D                                        ";
"";
"";
"";
"";
"   E = -1262.213011144";
"   T =  1262.213009361     V = -2524.426020505     V/T =    -2.000000001";
"";
"  ORBITAL ENERGIES AND EXPANSION COEFFICIENTS";
"        S                    1S             2S             3S             4S ";
"  BASIS/ORB.ENERGY     -261.6772789    -32.2362827     -4.4687933     -0.5602967";
"              CUSP        1.0001230      1.0002035      1.0004776      1.0005168";
"  2S       58.921604      0.0016020     -0.0002968     -0.0000321      0.0000187";
"  4S       35.749977     -0.0130682     -0.0007217      0.0017648     -0.0005706";
"  1S       32.011180      0.7177788     -0.4819340      0.1713246     -0.0430477";
"  2S       27.362330      0.3321052     -0.3695623      0.1382057     -0.0352188";
"  2S       17.822536      0.0047755     -0.6659565      0.2065023     -0.0483298";
"  3S       10.925436     -0.0011592      0.0516262     -0.2102670      0.0631520";
"  1S        8.619044      0.0040129      1.8901577     -0.6492464      0.1570241";
"  3S        5.934390      0.0000309      0.0096256      0.4600864     -0.1761478";
"  3S        4.217590     -0.0001166     -0.0015131      0.6195035     -0.2063082";
"  3S        3.109311      0.0000647      0.0010640      0.1150377     -0.2131432";
"  3S        2.048759     -0.0000212     -0.0002515     -0.0018243     -0.1884242";
"  2S        1.058581      0.0000056      0.0003372      0.0023805      1.3333228";
"        P                    2P             3P ";
"  BASIS/ORB.ENERGY      -27.7154819     -3.0436501";
"              CUSP        1.0006218      1.0000024";
"  3P       47.283708      0.0004594     -0.0002966";
"  3P       38.579601     -0.0014223      0.0009123";
"  4P       18.556459      0.0073434      0.0065632";
"  2P       15.945298      0.4456285     -0.1939462";
"  3P       12.683425      0.5227408     -0.3438206";
"  4P       10.333394      0.1026310     -0.1641472";
"  2P        5.047108      0.0111735      0.5093886";
"  3P        4.022037     -0.0004553      0.4238623";
"  2P        2.539719      0.0006780      0.3741202";
"  3P        1.058581     -0.0000039      0.0007074";
"        D                    3D ";
"  BASIS/ORB.ENERGY       -0.9508756";
"              CUSP        0.9998306";
"  3D       24.151149      0.0013116";
"  4D       18.502081      0.0061287";
"  3D        7.967724      0.1549814";
"  4D        6.538034      0.1480021";
"  3D        3.668271      0.4812957";
"  4D        2.790752      0.1926513";
"  3D        1.708843      0.1913089";
"  3D        1.058581      0.0037473";
""].
(** data.tar: cation/ga.cat:1-48 *)
Definition ga_cation : list string := [
"      GALLIUM+   K(2)L(8)3S(2)3P(6)4S(2)3D(10), 1S                                    ";
"";
"";
"";
"   E = -1923.059720564";
"   T =  1923.059717924     V = -3846.119438488     V/T =    -2.000000001";
"";
"  ORBITAL ENERGIES AND EXPANSION COEFFICIENTS";
"        S                    1S             2S             3S             4S ";
"  BASIS/ORB.ENERGY     -379.1224398    -48.4706571     -6.6972221     -0.6880713";
"              CUSP        1.0000925      1.0001286      1.0000982      1.0005723";
"  2S       58.129217      0.0361110     -0.0111878      0.0042686     -0.0011289";
"  3S       49.800588      0.0483131     -0.0141601      0.0052733     -0.0014544";
"  3S       35.678566      0.0974941     -0.0328174      0.0137263     -0.0034416";
"  1S       34.165363      0.8504654     -0.2635809      0.1005355     -0.0249656";
"  3S       25.196439      0.0088048      0.1509324     -0.0673400      0.0158204";
"  4S       15.433431      0.0007574     -0.6084540      0.2053214     -0.0496686";
"  3S       13.795817     -0.0009580      1.4978661     -0.7155045      0.1795366";
"  3S        7.160881     -0.0000809      0.0117727      0.5315133     -0.1798279";
"  3S        5.016460      0.0000167     -0.0014358      0.6138889     -0.2078280";
"  3S        3.508628     -0.0000091      0.0006739      0.0490963     -0.1981349";
"  2S        1.226425      0.0000026     -0.0001311     -0.0013110      1.1426637";
"  3S        1.173091     -0.0000013      0.0000649      0.0005851      0.0353537";
"        P                    2P             3P ";
"  BASIS/ORB.ENERGY      -42.7958359     -4.7834381";
"              CUSP        1.0000004      0.9999970";
"  3P       58.092383      0.0003180     -0.0002384";
"  3P       45.925977     -0.0011125      0.0009019";
"  4P       24.082133      0.0018940      0.0070895";
"  2P       19.494780      0.4380129     -0.2002867";
"  3P       15.815270      0.5255413     -0.3531502";
"  4P       12.915989      0.1095861     -0.1649863";
"  2P        5.949298      0.0125567      0.6228785";
"  3P        4.802193     -0.0011714      0.4563620";
"  2P        3.013120      0.0009135      0.2332295";
"  3P        1.173091     -0.0000166      0.0004673";
"        D                    3D ";
"  BASIS/ORB.ENERGY       -1.4950928";
"              CUSP        1.0000564";
"  3D       30.050487      0.0012110";
"  4D       23.020612      0.0058046";
"  3D        9.585062      0.2166264";
"  4D        7.768024      0.1810669";
"  3D        4.351325      0.4945447";
"  4D        3.272083      0.1750008";
"  3D        2.044860      0.0978471";
"  3D        1.173091      0.0003371";
""].
(** data.tar: cation/ge.cat:1-50 *)
Definition ge_cation : list string := [
"      GERMANIUM+   K(2)L(8)M(18)4S(2)4P(1), 2P                                        ";
"";
"";
"";
"";
"   E = -2075.086490667";
"   T =  2075.086490249     V = -4150.172980916     V/T =    -2.000000000";
"";
"  ORBITAL ENERGIES AND EXPANSION COEFFICIENTS";
"        S                    1S             2S             3S             4S ";
"  BASIS/ORB.ENERGY     -405.5835199    -52.4872334     -7.5274863     -0.8440512";
"              CUSP        1.0000845      1.0001045      1.0000524      1.0003790";
"  2S       60.410419      0.0338728     -0.0105318      0.0040614     -0.0011861";
"  3S       51.716755      0.0455735     -0.0133716      0.0050184     -0.0015145";
"  3S       36.938642      0.0946232     -0.0323635      0.0137474     -0.0038561";
"  1S       35.115585      0.8563626     -0.2663158      0.1026459     -0.0277350";
"  3S       26.208278      0.0094009      0.1448229     -0.0655693      0.0168392";
"  4S       16.069421      0.0010277     -0.6057028      0.2054160     -0.0530246";
"  3S       14.353675     -0.0013253      1.5006896     -0.7238517      0.1965087";
"  3S        7.503796     -0.0000882      0.0129623      0.4950984     -0.1915558";
"  3S        5.367691      0.0000251     -0.0020415      0.6280730     -0.2022455";
"  3S        3.949425     -0.0000122      0.0008293      0.0704931     -0.2592230";
"  2S        1.367639      0.0000020     -0.0000819     -0.0001046      1.1974781";
"  3S        1.062566     -0.0000007      0.0000257      0.0000935      0.0105930";
"        P                    2P             3P             4P ";
"  BASIS/ORB.ENERGY      -46.5726601     -5.4964902     -0.5645231";
"              CUSP        1.0009700      0.9993110      1.0000233";
"  2P       48.105192     -0.0071455      0.0044105     -0.0010881";
"  3P       39.206452     -0.0159527      0.0096813     -0.0023969";
"  2P       23.258904      0.3504787     -0.1646899      0.0383415";
"  3P       18.357385      0.4317270     -0.1920360      0.0433376";
"  3P       13.225281      0.3045145     -0.2930492      0.0749122";
"  2P        6.763236      0.0253140      0.4248728     -0.1285215";
"  3P        5.752439     -0.0031426      0.6474510     -0.1896157";
"  4P        4.709079      0.0011554      0.1938902     -0.0992463";
"  3P        2.903905     -0.0002723      0.0226990     -0.1374114";
"  3P        1.082624     -0.0000506     -0.0000404     -0.0608055";
"  2P        1.062566      0.0000895      0.0005565      1.2118664";
"        D                    3D ";
"  BASIS/ORB.ENERGY       -1.9703823";
"              CUSP        1.0000259";
"  3D       31.101705      0.0012432";
"  4D       23.869970      0.0059034";
"  3D        9.908675      0.2335686";
"  4D        8.007041      0.1913422";
"  3D        4.489476      0.5112354";
"  4D        3.394937      0.1607867";
"  3D        2.150520      0.0537465";
"  3D        1.062566      0.0000082";
""].
(** data.tar: cation/i.cat:1-57 *)
Definition i_cation : list string := [
"      IODINE+   K(2)L(8)M(18)4S(2)4P(6)5S(2)4D(10)5P(4), 3P                           ";
"";
"";
"";
"";
"   E = -6917.627270253";
"   T =  6917.627269288     V =-13835.254539540     V/T =    -2.000000000";
"";
"  ORBITAL ENERGIES AND EXPANSION COEFFICIENTS";
"        S                    1S             2S             3S             4S             5S ";
"  BASIS/ORB.ENERGY    -1177.5362243   -181.2977926    -38.2822447     -7.5906252     -1.1214874";
"              CUSP        1.0002177      0.9999906      1.0001558      1.0002851      1.0001472";
"  1S       95.699405      0.0121177     -0.0207324     -0.0106515      0.0052914     -0.0018596";
"  3S       69.159533     -0.0177550      0.0264097      0.0139807     -0.0070738      0.0024700";
"  1S       55.005356     -0.9641131      0.3516209      0.1598894     -0.0732301      0.0257338";
"  4S       30.208358     -0.1083059      0.3594009      0.1084710     -0.0211268      0.0063415";
"  2S       27.514972     -0.1228957     -0.2008652     -0.2009195      0.1880442     -0.0762878";
"  3S       26.665804      0.2170969     -1.1069577     -0.6584985      0.3547063     -0.1325452";
"  2S       16.754872     -0.0275157     -0.1214900      0.2448272     -0.5368859      0.2390178";
"  4S       15.428419      0.0037404      0.0029063      0.7015212     -0.6231465      0.2554965";
"  4S       11.735418     -0.0022116     -0.0013585      0.3225209     -0.7957554      0.3638283";
"  2S        6.709553      0.0016139      0.0012441      0.0414924      1.1441542     -0.5854768";
"  4S        6.090588     -0.0003047     -0.0000566      0.0015184      0.6729804     -0.2252477";
"  3S        4.120560      0.0001247      0.0000382      0.0000342      0.2182860     -0.6227461";
"  2S        1.546919     -0.0000133     -0.0000088     -0.0000710      0.0005657      1.3996221";
"  3S        1.205350      0.0000040      0.0000017      0.0000021      0.0001858      0.0075751";
"        P                    2P             3P             4P             5P ";
"  BASIS/ORB.ENERGY     -170.0088119    -33.4695779     -5.8184596     -0.7264345";
"              CUSP        1.0009478      1.0004682      1.0003796      1.0000493";
"  2P       85.708202      0.0010124      0.0007733     -0.0004060      0.0001305";
"  4P       56.135051     -0.0085561     -0.0065209      0.0034459     -0.0011021";
"  2P       39.210062     -0.3288613     -0.1559999      0.0648998     -0.0193362";
"  4P       29.385706      0.3571027      0.1214907     -0.0299992      0.0061948";
"  3P       26.590075     -1.0193308     -0.4563591      0.1575180     -0.0398059";
"  4P       23.838904     -0.0597356      0.1279594     -0.1230928      0.0498736";
"  4P       15.749086     -0.0059199      0.5886482     -0.3891740      0.1460453";
"  4P       11.794452      0.0017021      0.3494954     -0.4984535      0.2017700";
"  2P        6.817071     -0.0009544      0.0829194      0.2555826     -0.1840762";
"  3P        5.065874      0.0003072     -0.0000684      1.0065627     -0.3549652";
"  3P        3.617986     -0.0000671      0.0004521      0.1806590     -0.4357309";
"  2P        1.304389      0.0000137     -0.0001155      0.0026251      1.2417183";
"  3P        1.205350     -0.0000069      0.0000335     -0.0001878      0.0589944";
"        D                    3D             4D ";
"  BASIS/ORB.ENERGY      -24.6333390     -2.7462794";
"              CUSP        1.0009643      0.9991979";
"  3D       55.206878      0.0027957     -0.0006319";
"  4D       44.712489      0.0097982     -0.0022166";
"  4D       27.589169      0.0419619     -0.0063956";
"  3D       15.860443      0.4812522     -0.2515393";
"  4D       14.874501      0.0262984      0.1121274";
"  4D       13.018575      0.3922233     -0.3476807";
"  4D        9.469002      0.1348872     -0.0067565";
"  3D        4.890660      0.0025978      0.6285412";
"  3D        3.350299     -0.0001471      0.4680188";
"  3D        2.218200     -0.0000723      0.0448103";
"  3D        1.205350      0.0000076     -0.0000061";
""].
(** data.tar: cation/in.cat:1-54 *)
Definition in_cation : list string := [
"      INDIUM+   K(2)L(8)M(18)4S(2)4P(6)5S(2)4D(10), 1S                                ";
"";
"";
"";
"   E = -5739.978386638";
"   T =  5739.978378069     V =-11479.956764708     V/T =    -2.000000001";
"";
"  ORBITAL ENERGIES AND EXPANSION COEFFICIENTS";
"        S                    1S             2S             3S             4S             5S ";
"  BASIS/ORB.ENERGY     -998.0711730   -149.6651800    -29.8941716     -5.2462960     -0.6070548";
"              CUSP        1.0002536      1.0000594      1.0003713      1.0004737      1.0006367";
"  1S       83.933502      0.0225622      0.0424295     -0.0185522      0.0078652     -0.0022556";
"  3S       62.707779     -0.0251208     -0.0419670      0.0188962     -0.0081027      0.0023498";
"  1S       51.070721     -0.9772211     -0.3896011      0.1705401     -0.0728895      0.0209596";
"  4S       37.358361      0.0289174      0.0977759     -0.0316202      0.0111993     -0.0028375";
"  3S       23.825100      0.0272873      0.4128459     -0.4535252      0.1839230     -0.0463873";
"  2S       23.806004     -0.0789229      0.5572575     -0.3896646      0.0450938      0.0162177";
"  3S       16.775088      0.0042432      0.2019082     -0.4212742     -0.2835875      0.1976860";
"  4S       13.128081      0.0033340      0.0475135      0.3027331     -0.3817589      0.1802430";
"  2S       11.146827     -0.0093935     -0.1836872      1.0506147      0.2480278     -0.2569267";
"  3S        9.114307     -0.0004269      0.0003397      0.3833309     -0.8810597      0.2946737";
"  2S        3.788603      0.0000701     -0.0001917      0.0068814      1.5508642     -0.5107810";
"  2S        2.378645     -0.0000366      0.0000283     -0.0006935      0.0521135     -0.4003841";
"  2S        1.102125      0.0000178     -0.0000112      0.0002494     -0.0045131      1.3109940";
"  3S        1.101866     -0.0000095      0.0000058     -0.0001245      0.0020230     -0.0268250";
"        P                    2P             3P             4P ";
"  BASIS/ORB.ENERGY     -139.4414968    -25.6432334     -3.7757510";
"              CUSP        1.0009998      1.0001841      1.0002800";
"  2P       47.152308     -0.0909388      0.1064506     -0.0694211";
"  3P       42.226582     -0.1650134      0.1820539     -0.1176530";
"  4P       37.027541     -0.1196953      0.1331028     -0.0861515";
"  2P       25.782094      1.1571852     -0.8648120      0.5183644";
"  3P       20.071104      0.2275821     -0.1736606      0.1336756";
"  4P       12.947974      0.0108207      0.2171920     -0.2111248";
"  3P       12.066104     -0.0116668      0.1747361      0.4518188";
"  2P        8.031651     -0.0024982      0.8160347     -1.3879291";
"  2P        3.549498     -0.0000042      0.0064137      1.2035959";
"  2P        2.552364     -0.0000557     -0.0009129      0.2463270";
"  2P        1.101866      0.0000044      0.0000457      0.0015249";
"        D                    3D             4D ";
"  BASIS/ORB.ENERGY      -17.8588009     -1.3319085";
"              CUSP        0.9997608      0.9992638";
"  3D       49.554320      0.0029839     -0.0006588";
"  4D       39.895199      0.0109443     -0.0024032";
"  4D       24.386414      0.0435709     -0.0065789";
"  3D       14.997417      0.4111140     -0.1815204";
"  4D       13.047140      0.2482600     -0.0281663";
"  4D       10.875056      0.2657584     -0.2247243";
"  4D        8.197538      0.1166268      0.0103087";
"  3D        4.314403      0.0037044      0.4968198";
"  3D        2.790643     -0.0001117      0.4819633";
"  3D        1.906550     -0.0000237      0.1642165";
"  3D        1.101866      0.0000110      0.0004534";
""].
(** data.tar: cation/k.cat:1-35 *)
Definition k_cation : list string := [
"      POTASSIUM+   1S(2)2S(2)2P(6)3S(2)3P(6), 1S                                      ";
"";
"";
"";
"   E =  -599.017579304";
"   T =   599.017579802     V = -1198.035159105     V/T =    -1.999999999";
"";
"  ORBITAL ENERGIES AND EXPANSION COEFFICIENTS";
"        S                    1S             2S             3S ";
"  BASIS/ORB.ENERGY     -133.7523564    -14.7081247     -1.9638222";
"              CUSP        1.0000328      0.9996661      1.0001475";
"  3S       48.500215      0.0004340      0.0002126     -0.0000714";
"  1S       27.237366     -0.3115065      0.0734156     -0.0325158";
"  2S       23.845026     -0.1697595      0.0558916     -0.0246131";
"  1S       16.459968     -0.5470770     -0.5038839      0.1771697";
"  2S        8.677200      0.0313619     -0.5408956     -0.3627896";
"  3S        7.307612      0.0298369     -0.7710328     -0.3912260";
"  2S        6.587645     -0.0592319      2.3470171      0.1571758";
"  3S        3.570365      0.0001862      0.0038665      0.4708517";
"  3S        2.457086     -0.0001790      0.0000851      0.4800659";
"  1S        1.530063      0.0002412      0.0007546      0.2315453";
"        P                    2P             3P ";
"  BASIS/ORB.ENERGY      -11.7382282     -1.1705465";
"              CUSP        0.9998379      1.0008160";
"  2P       45.464745     -0.0001615      0.0000385";
"  2P       32.055879      0.0011888     -0.0002331";
"  4P       17.643385      0.0005381     -0.0020344";
"  2P       11.285946      0.4155590     -0.1455431";
"  3P        8.917247      0.4909839     -0.2190036";
"  4P        7.386591      0.1268360     -0.1304272";
"  2P        4.520369      0.0614818      0.0688736";
"  3P        3.218533      0.0002853      0.2169543";
"  2P        1.789225      0.0003745      0.8336104";
"  3P        1.530063     -0.0000547      0.0395011";
""].
(** data.tar: cation/kr.cat:1-50 *)
Definition kr_cation : list string := [
"      KRYPTON+   K(2)L(8)M(18)4S(2)4P(5), 2P                                          ";
"";
"";
"";
"";
"   E = -2751.567391694";
"   T =  2751.567392060     V = -5503.134783755     V/T =    -2.000000000";
"";
"  ORBITAL ENERGIES AND EXPANSION COEFFICIENTS";
"        S                    1S             2S             3S             4S ";
"  BASIS/ORB.ENERGY     -520.6101576    -70.3447636    -11.2883315     -1.5313417";
"              CUSP        1.0000555      1.0000576      1.0001213      0.9997586";
"  2S       69.201790      0.0288245     -0.0090699      0.0036366     -0.0013574";
"  3S       59.177858      0.0391139     -0.0116240      0.0045913     -0.0016709";
"  3S       41.936246      0.0872321     -0.0304409      0.0132078     -0.0051250";
"  1S       39.115180      0.8705062     -0.2739195      0.1099202     -0.0360170";
"  3S       29.930317      0.0109084      0.1315698     -0.0614511      0.0201325";
"  4S       18.521771      0.0019955     -0.5852963      0.2068288     -0.0574341";
"  3S       16.538482     -0.0026601      1.4900622     -0.7539215      0.2429318";
"  3S        9.323638     -0.0001261      0.0177891      0.2018861     -0.1576341";
"  3S        7.278250      0.0000555     -0.0029199      0.7137320     -0.1358824";
"  3S        5.584657     -0.0000208      0.0008129      0.2770243     -0.5364476";
"  2S        1.906199      0.0000037     -0.0001035      0.0027137      1.2764697";
"  3S        1.353182     -0.0000008      0.0000145     -0.0002431      0.0170976";
"        P                    2P             3P             4P ";
"  BASIS/ORB.ENERGY      -63.4511838     -8.7686973     -0.9155504";
"              CUSP        1.0009817      0.9996178      0.9995298";
"  2P       55.043824     -0.0061112     -0.0041445     -0.0013491";
"  3P       45.044477     -0.0131859     -0.0088261     -0.0028718";
"  2P       26.630231      0.3362880      0.1697586      0.0522544";
"  3P       21.305871      0.4090954      0.1932593      0.0577485";
"  3P       15.531247      0.3153418      0.3168204      0.1086826";
"  2P        9.261751      0.0428210     -0.3045881     -0.1287952";
"  3P        7.023782     -0.0006273     -0.8146714     -0.3301925";
"  4P        5.660143      0.0005201     -0.1769232     -0.2055060";
"  3P        2.584145     -0.0002398     -0.0081013      0.1274863";
"  3P        1.442330     -0.0001652     -0.0024515     -0.3305165";
"  2P        1.353182      0.0002999      0.0040180      1.3442564";
"        D                    3D ";
"  BASIS/ORB.ENERGY       -4.2633016";
"              CUSP        0.9999987";
"  3D       35.500187      0.0012946";
"  4D       27.356628      0.0060604";
"  3D       11.193561      0.2919499";
"  4D        8.909671      0.2144848";
"  3D        5.278971      0.5141567";
"  4D        4.049296      0.0858503";
"  3D        2.357725      0.0070913";
"  3D        1.353182     -0.0000048";
""].
(** data.tar: cation/li.cat:1-17 *)
Definition li_cation : list string := [
"      LITHIUM+   1S(2), 1S                                                            ";
"";
"";
"";
"   E =    -7.236415201";
"   T =     7.236415202     V =   -14.472830403     V/T =    -2.000000000";
"";
"  ORBITAL ENERGIES AND EXPANSION COEFFICIENTS";
"        S                    1S ";
"  BASIS/ORB.ENERGY       -2.7923644";
"              CUSP        0.9999768";
"  1S       11.218455     -0.0008729";
"  1S        5.354960      0.0587322";
"  1S        3.261521      0.2907982";
"  2S        2.814254      0.0619097";
"  1S        2.363203      0.6128385";
""].
(** data.tar: cation/mg.cat:1-33 *)
Definition mg_cation : list string := [
"      MAGNESIUM+   K(2)L(8)3S(1), 2S                                                  ";
"";
"";
"";
"";
"   E =  -199.371809657";
"   T =   199.371809657     V =  -398.743619314     V/T =    -2.000000000";
"";
"  ORBITAL ENERGIES AND EXPANSION COEFFICIENTS";
"        S                    1S             2S             3S ";
"  BASIS/ORB.ENERGY      -49.3563633     -4.0856152     -0.5414396";
"              CUSP        1.0000584      0.9996814      1.0006132";
"  3S       30.489574      0.0006381      0.0002759     -0.0000503";
"  1S       16.928524     -0.3590905      0.0587311     -0.0150626";
"  2S       14.613007     -0.1990386      0.0551448     -0.0140141";
"  1S       10.060309     -0.4741561     -0.4445466      0.1003790";
"  2S        5.113615     -0.0023402      0.3903349     -0.1201024";
"  3S        3.040431      0.0004358     -0.5219190      0.0686226";
"  2S        2.740295     -0.0006306      1.2277256     -0.3378383";
"  3S        1.461943      0.0001132      0.0138485      0.4161351";
"  3S        1.120710      0.0000004      0.0023073      0.5688742";
"  1S        1.040615     -0.0002397     -0.0420458      0.1486247";
"        P                    2P ";
"  BASIS/ORB.ENERGY       -2.6029379";
"              CUSP        0.9999219";
"  3P       27.569118      0.0000884";
"  2P       15.967731      0.0028602";
"  2P        7.248739      0.1231105";
"  2P        4.754054      0.3114869";
"  2P        3.082852      0.5050633";
"  2P        2.257316      0.1240642";
"  3P        1.040615      0.0002805";
""].
(** data.tar: cation/mn.cat:1-49 *)
Definition mn_cation : list string := [
"      MANGANESE+   K(2)L(8)3S(2)3P(6)4S(1)3D(5), 7S                                   ";
"";
"";
"";
"";
"   E = -1149.649382169";
"   T =  1149.649382175     V = -2299.298764345     V/T =    -2.000000000";
"";
"  ORBITAL ENERGIES AND EXPANSION COEFFICIENTS";
"        S                    1S             2S             3S             4S ";
"  BASIS/ORB.ENERGY     -240.8282476    -29.4013619     -4.1059729     -0.5443642";
"              CUSP        1.0001477      1.0002283      1.0004917      1.0006952";
"  2S       55.426379      0.0018335     -0.0004037     -0.0000380      0.0000195";
"  4S       33.872469     -0.0146756     -0.0000230      0.0019222     -0.0005682";
"  1S       30.579180      0.7238474     -0.4795200      0.1643789     -0.0427564";
"  2S       26.040186      0.3279908     -0.3728588      0.1360824     -0.0357546";
"  2S       16.959344     -0.0002503     -0.6488545      0.1792920     -0.0437066";
"  3S       10.591531     -0.0024215      0.0444345     -0.2122333      0.0634878";
"  1S        8.185599      0.0079989      1.8836813     -0.6070855      0.1520821";
"  3S        5.496562      0.0000186      0.0086000      0.5146860     -0.2050341";
"  3S        3.876864     -0.0001188     -0.0014916      0.6005767     -0.2179228";
"  3S        2.817217      0.0000718      0.0009599      0.0691700     -0.2460118";
"  3S        1.840470     -0.0000285     -0.0003117     -0.0018892     -0.1991513";
"  2S        1.043421      0.0000098      0.0004775      0.0028266      1.4028190";
"        P                    2P             3P ";
"  BASIS/ORB.ENERGY      -25.1053281     -2.7705450";
"              CUSP        1.0009132      0.9999968";
"  3P       45.160487      0.0004671     -0.0002825";
"  3P       36.425345     -0.0015859      0.0009352";
"  4P       17.513833      0.0069050      0.0069608";
"  2P       15.333053      0.4403519     -0.1885147";
"  3P       12.171423      0.5234102     -0.3353237";
"  4P        9.925570      0.1084696     -0.1646224";
"  2P        4.884277      0.0121603      0.4647168";
"  3P        3.881362     -0.0004651      0.4223264";
"  2P        2.443865      0.0006119      0.4095522";
"  3P        1.043421     -0.0000042      0.0007356";
"        D                    3D ";
"  BASIS/ORB.ENERGY       -0.9332036";
"              CUSP        0.9990343";
"  3D       22.909411      0.0013545";
"  4D       17.574256      0.0062423";
"  3D        7.648261      0.1420855";
"  4D        6.276301      0.1402108";
"  3D        3.533695      0.4865370";
"  4D        2.682042      0.2127448";
"  3D        1.626089      0.1846033";
"  3D        1.043421      0.0009371";
""].
(** data.tar: cation/mo.cat:1-55 *)
Definition mo_cation : list string := [
"      MOLYBDENUM+   K(2)L(8)M(18)4S(2)4P(6)5S(0)4D(5), 6S                             ";
"";
"";
"";
"";
"   E = -3975.333700239";
"   T =  3975.333703157     V = -7950.667403396     V/T =    -1.999999999";
"";
"  ORBITAL ENERGIES AND EXPANSION COEFFICIENTS";
"        S                    1S             2S             3S             4S ";
"  BASIS/ORB.ENERGY     -721.4502631   -103.0953847    -18.8294494     -3.0098389";
"              CUSP        1.0001136      1.0000200      0.9998395      0.9997276";
"  2S       70.316851      0.2428114      0.1075843      0.0559522     -0.0232348";
"  3S       64.120950      0.1669316      0.0734835      0.0381921     -0.0158374";
"  1S       63.625487      0.5297067      0.1689908      0.0711541     -0.0277235";
"  3S       49.808698      0.1580516      0.1128272      0.0697926     -0.0302564";
"  3S       34.252894      0.0079361      0.0092148      0.0972063     -0.0516256";
"  4S       29.656433     -0.0002918     -0.0919812      0.0153991     -0.0158612";
"  2S       17.266950     -0.0000888     -1.0075960     -0.7804026      0.3519734";
"  3S       11.512370      0.0002968     -0.0382176      0.0482299     -0.1126817";
"  3S        9.035370      0.0010566     -0.0127073      0.1961093     -1.0471199";
"  4S        8.397517      0.0015077     -0.0368389     -0.6079659     -0.8304720";
"  3S        7.658879     -0.0027904      0.0632866      1.5213946      1.1652563";
"  3S        3.832086      0.0000216     -0.0000940      0.0036936      0.8502204";
"  3S        2.741544     -0.0000066      0.0000671      0.0003928      0.3948471";
"  2S        1.104770      0.0000007     -0.0000048      0.0000160      0.0015481";
"        P                    2P             3P             4P ";
"  BASIS/ORB.ENERGY      -94.6897694    -15.5326299     -1.9759108";
"              CUSP        1.0009735      0.9997907      1.0001280";
"  2P       67.334203     -0.0032884      0.0025950     -0.0012358";
"  3P       54.308953     -0.0078800      0.0061310     -0.0029311";
"  2P       30.593445      0.3463326     -0.1583131      0.0582957";
"  3P       25.228887      0.3724033     -0.1291347      0.0330569";
"  3P       20.008098      0.2227741     -0.2498777      0.1324464";
"  3P       16.554814      0.1494521      0.0363409     -0.0622980";
"  3P        9.387916      0.0052286      0.7165948     -0.2454491";
"  3P        6.998049     -0.0009241      0.3887461     -0.4794905";
"  3P        3.663438      0.0001639      0.0067935      0.3803921";
"  2P        2.173314     -0.0001437     -0.0012075      0.8696801";
"  2P        1.104770      0.0000154      0.0001964      0.0067032";
"        D                    3D             4D ";
"  BASIS/ORB.ENERGY       -9.5309348     -0.6102579";
"              CUSP        1.0001713      0.9999581";
"  3D       41.841533      0.0023119     -0.0004590";
"  4D       33.283867      0.0090703     -0.0017933";
"  4D       20.477569      0.0251736     -0.0031474";
"  3D       12.828420      0.3791761     -0.1168373";
"  4D       10.862802      0.2660570     -0.0629910";
"  4D        8.442859      0.3089784     -0.1175010";
"  4D        6.230335      0.1226452     -0.0716590";
"  3D        3.541145      0.0084224      0.2787089";
"  3D        2.200444     -0.0003599      0.4872541";
"  3D        1.415655      0.0001642      0.3562264";
"  3D        1.104770     -0.0000602      0.0533408";
""].
(** data.tar: cation/n.cat:1-31 *)
Definition n_cation : list string := [
"      NITROGEN+    1S(2)2S(2)2P(2), 3P                                                ";
"";
"";
"";
"";
"   E =   -53.888005011";
"   T =    53.888005010     V =  -107.776010021     V/T =    -2.000000000";
"";
"  ORBITAL ENERGIES AND EXPANSION COEFFICIENTS";
"        S                    1S             2S ";
"  BASIS/ORB.ENERGY      -16.2845253     -1.4624768";
"              CUSP        0.9999971      0.9998347";
"  1S       24.925633      0.0007202      0.0001677";
"  1S       11.494691     -0.1576811      0.0095678";
"  2S        9.276068     -0.1069596      0.0254290";
"  1S        6.161493     -0.7483314     -0.1746595";
"  1S        3.876285     -0.0093307     -0.7005232";
"  2S        2.839197     -0.0006600     -0.2212778";
"  1S        1.638966     -0.0005458      1.6794828";
"  2S        1.490012      0.0000317     -0.0122038";
"        P                    2P ";
"  BASIS/ORB.ENERGY       -1.1100685";
"              CUSP        1.0000003";
"  3P       16.238644      0.0000982";
"  2P        8.531627      0.0062827";
"  2P        4.960330      0.0044830";
"  2P        3.669059      0.1217127";
"  2P        2.412855      0.3138426";
"  2P        1.677083      0.5833163";
"  3P        1.490012      0.0223526";
""].
(** data.tar: cation/na.cat:1-30 *)
Definition na_cation : list string := [
"      SODIUM+   1S(2)2S(2)2P(6), 1S                                                   ";
"";
"";
"";
"   E =  -161.676962609";
"   T =   161.676962476     V =  -323.353925085     V/T =    -2.000000001";
"";
"  ORBITAL ENERGIES AND EXPANSION COEFFICIENTS";
"        S                    1S             2S ";
"  BASIS/ORB.ENERGY      -40.7597502     -3.0736875";
"              CUSP        0.9999638      1.0000883";
"  1S       38.286368     -0.0006231      0.0001173";
"  1S       18.558412      0.1289430      0.0176200";
"  2S       15.257782      0.0914534      0.0257231";
"  1S       10.016950      0.7763334     -0.1956336";
"  1S        6.613006      0.0215878     -0.5325836";
"  2S        4.947267      0.0015130     -0.0307722";
"  1S        2.474614      0.0011207      1.3468561";
"  2S        1.895886     -0.0000302      0.0026824";
"        P                    2P ";
"  BASIS/ORB.ENERGY       -1.7971924";
"              CUSP        0.9999585";
"  3P       25.035874      0.0000918";
"  2P       14.553626      0.0029693";
"  2P        6.758888      0.0948327";
"  2P        4.571932      0.2647974";
"  2P        3.037726      0.3614230";
"  2P        2.162522      0.3465004";
"  3P        1.895886      0.0078852";
""].
(** data.tar: cation/nb.cat:1-55 *)
Definition nb_cation : list string := [
"      NIOBIUM+   K(2)L(8)M(18)4S(2)4P(6)5S(0)4D(4), 5D                                ";
"";
"";
"";
"";
"   E = -3753.389511414";
"   T =  3753.389509791     V = -7506.779021205     V/T =    -2.000000000";
"";
"  ORBITAL ENERGIES AND EXPANSION COEFFICIENTS";
"        S                    1S             2S             3S             4S ";
"  BASIS/ORB.ENERGY     -685.6802449    -97.2078846    -17.4801162     -2.7719588";
"              CUSP        1.0001058      0.9999211      0.9997704      0.9998373";
"  2S       70.434246      0.1290034     -0.0704899      0.0324561     -0.0126018";
"  3S       62.938555      0.1178289     -0.0628696      0.0286478     -0.0111344";
"  1S       53.062101      0.6692351     -0.2534954      0.1100880     -0.0423697";
"  3S       48.279886      0.1513710     -0.1021364      0.0497600     -0.0194048";
"  3S       24.843872     -0.0030752      0.4544683     -0.2405728      0.0928315";
"  4S       22.087857     -0.0079037      0.1296247     -0.1750770      0.0729329";
"  4S       14.193982     -0.0065843     -0.0879710     -0.0530059     -0.0189565";
"  3S        9.738431     -0.0026120     -0.1309517      1.0722493     -0.4519600";
"  4S        8.235779     -0.0007804     -0.0027199      0.3029841     -0.3984411";
"  1S        7.847702      0.0247742      0.7029101     -0.3657820      0.1444695";
"  3S        5.162961      0.0003054     -0.0004198      0.0265299      0.0987393";
"  3S        3.580662     -0.0001080      0.0000481     -0.0001361      0.8270712";
"  3S        2.594787      0.0000307     -0.0000444      0.0008765      0.3623462";
"  2S        1.040300     -0.0000025      0.0000026     -0.0000137      0.0013187";
"        P                    2P             3P             4P ";
"  BASIS/ORB.ENERGY      -89.0570389    -14.3155872     -1.7968163";
"              CUSP        1.0009776      0.9997991      1.0001769";
"  2P       65.199713     -0.0037213      0.0026759     -0.0011827";
"  3P       52.729978     -0.0087380      0.0062071     -0.0027560";
"  2P       29.992350      0.3438854     -0.1550368      0.0554267";
"  3P       24.612792      0.3806738     -0.1400630      0.0397553";
"  3P       18.951711      0.2723413     -0.2628129      0.1252819";
"  3P       15.376183      0.0969914      0.0735162     -0.0705262";
"  3P        9.020173      0.0037839      0.7184633     -0.2424240";
"  3P        6.686836     -0.0003819      0.3749154     -0.4528530";
"  3P        3.457967      0.0000462      0.0060668      0.3691760";
"  2P        2.063821     -0.0000594     -0.0011629      0.8678025";
"  2P        1.040300      0.0000045      0.0001696      0.0062725";
"        D                    3D             4D ";
"  BASIS/ORB.ENERGY       -8.5640887     -0.5411119";
"              CUSP        0.9999991      0.9999591";
"  3D       40.650074      0.0025565     -0.0005228";
"  4D       32.437413      0.0098231     -0.0020073";
"  4D       20.078925      0.0290402     -0.0046669";
"  3D       12.080830      0.3991230     -0.1137232";
"  4D       10.464042      0.2007647     -0.0412890";
"  4D        8.390534      0.3207356     -0.1067723";
"  4D        6.101120      0.1514425     -0.0794418";
"  3D        3.367428      0.0105147      0.2495784";
"  3D        2.075086     -0.0005552      0.4717170";
"  3D        1.323833      0.0003321      0.3803110";
"  3D        1.040300     -0.0000832      0.0671058";
""].
(** data.tar: cation/ne.cat:1-31 *)
Definition ne_cation : list string := [
"      NEON+   1S(2)2S(2)2P(5), 2P                                                     ";
"";
"";
"";
"";
"   E =  -127.817814121";
"   T =   127.817814176     V =  -255.635628296     V/T =    -2.000000000";
"";
"  ORBITAL ENERGIES AND EXPANSION COEFFICIENTS";
"        S                    1S             2S ";
"  BASIS/ORB.ENERGY      -33.6122916     -2.6191339";
"              CUSP        0.9999691      1.0000185";
"  1S       34.921304      0.0006517      0.0001338";
"  1S       16.836113     -0.1300724      0.0145852";
"  2S       13.786492     -0.0911229      0.0240362";
"  1S        9.073331     -0.7765145     -0.1814771";
"  1S        5.971493     -0.0210099     -0.5609139";
"  2S        4.346384     -0.0012269     -0.0606112";
"  1S        2.266111     -0.0010239      1.3920991";
"  2S        1.792539      0.0000318      0.0016472";
"        P                    2P ";
"  BASIS/ORB.ENERGY       -1.6065983";
"              CUSP        0.9992055";
"  3P       22.917554      0.0000994";
"  2P       13.143059      0.0033089";
"  2P        6.237158      0.0737967";
"  2P        4.379686      0.2239485";
"  2P        2.949963      0.3524439";
"  2P        2.064486      0.4087274";
"  3P        1.792539      0.0118909";
""].
(** data.tar: cation/ni.cat:1-49 *)
Definition ni_cation : list string := [
"      NICKEL+   K(2)L(8)3S(2)3P(6)4S(0)3D(9), 2D                                      ";
"";
"";
"";
"";
"   E = -1506.591098366";
"   T =  1506.591100054     V = -3013.182198420     V/T =    -1.999999999";
"";
"  ORBITAL ENERGIES AND EXPANSION COEFFICIENTS";
"        S                    1S             2S             3S ";
"  BASIS/ORB.ENERGY     -305.7032626    -37.9724749     -4.9601164";
"              CUSP        1.0000373      0.9999814      1.0003041";
"  2S       70.729443      0.0008182     -0.0002173     -0.0000318";
"  4S       40.874837     -0.0075894      0.0000112      0.0015597";
"  1S       35.511860      0.6894529     -0.4132680      0.1471125";
"  2S       30.743355      0.3431853     -0.2798549      0.1070675";
"  2S       21.856456      0.0333722     -0.3904624      0.1144908";
"  3S       14.088234      0.0024364      0.3717334     -0.1901565";
"  1S       11.708916     -0.0082845      1.0701416     -0.3632219";
"  3S       10.777461     -0.0002786      0.2251446     -0.2590979";
"  3S        7.085723     -0.0000068      0.0079933      0.3690958";
"  3S        4.926433     -0.0000304      0.0012267      0.6549290";
"  3S        3.540263      0.0000019      0.0003455      0.2164717";
"  2S        1.240388     -0.0000002      0.0000072      0.0006191";
"        P                    2P             3P ";
"  BASIS/ORB.ENERGY      -33.0024940     -3.3698941";
"              CUSP        1.0006592      0.9996028";
"  3P       51.337479      0.0003800     -0.0002636";
"  3P       40.743217     -0.0013907      0.0009608";
"  4P       20.807337      0.0020599      0.0076670";
"  2P       17.513613      0.4329772     -0.1898102";
"  3P       14.089201      0.5281689     -0.3392048";
"  4P       11.498336      0.1136502     -0.1642985";
"  2P        5.414607      0.0131123      0.5236154";
"  3P        4.404412     -0.0011108      0.3871782";
"  2P        2.712694      0.0011030      0.3866437";
"  3P        1.240388      0.0000026      0.0008289";
"        D                    3D ";
"  BASIS/ORB.ENERGY       -0.7692812";
"              CUSP        1.0005223";
"  3D       26.544851      0.0011811";
"  4D       20.330270      0.0055770";
"  3D        8.617473      0.1698116";
"  4D        7.032645      0.1531816";
"  3D        3.934168      0.4568968";
"  4D        2.920576      0.1967519";
"  3D        1.683692      0.2027129";
"  3D        1.240388      0.0253192";
""].
(** data.tar: cation/o.cat:1-31 *)
Definition o_cation : list string := [
"      OXYGEN+   1S(2)2S(2)2P(3), 4S                                                   ";
"";
"";
"";
"";
"   E =   -74.372605677";
"   T =    74.372605671     V =  -148.745211348     V/T =    -2.000000000";
"";
"  ORBITAL ENERGIES AND EXPANSION COEFFICIENTS";
"        S                    1S             2S ";
"  BASIS/ORB.ENERGY      -21.3462798     -1.8007636";
"              CUSP        0.9999938      0.9998767";
"  1S       28.007046      0.0007370      0.0001693";
"  1S       13.302796     -0.1450721      0.0095572";
"  2S       10.792436     -0.0998973      0.0226110";
"  1S        7.133949     -0.7613866     -0.1669339";
"  1S        4.615700     -0.0144516     -0.6315700";
"  2S        3.338585     -0.0009627     -0.1518039";
"  1S        1.841282     -0.0006986      1.5407668";
"  2S        1.629055      0.0000368     -0.0064379";
"        P                    2P ";
"  BASIS/ORB.ENERGY       -1.3269095";
"              CUSP        0.9999828";
"  3P       18.267737      0.0001036";
"  2P        9.989752      0.0051311";
"  2P        5.270533      0.0262024";
"  2P        3.934220      0.1472171";
"  2P        2.650524      0.3428229";
"  2P        1.853557      0.5188278";
"  3P        1.629055      0.0171613";
""].
(** data.tar: cation/p.cat:1-36 *)
Definition p_cation : list string := [
"      PHOSPHORUS+   K(2)L(8)3S(2)3P(2), 3P                                            ";
"";
"";
"";
"";
"   E =  -340.349775833";
"   T =   340.349776116     V =  -680.699551949     V/T =    -1.999999999";
"";
"  ORBITAL ENERGIES AND EXPANSION COEFFICIENTS";
"        S                    1S             2S             3S ";
"  BASIS/ORB.ENERGY      -80.3809433     -7.9148822     -1.0339281";
"              CUSP        1.0000634      0.9996166      0.9996297";
"  3S       38.181169      0.0005190      0.0002508     -0.0000802";
"  1S       21.205740     -0.3479806      0.0683033     -0.0208860";
"  2S       18.450969     -0.1896623      0.0571658     -0.0174677";
"  1S       12.744580     -0.4929711     -0.4834348      0.1297079";
"  2S        6.751577     -0.0003575      0.1955318     -0.1758223";
"  3S        4.865898      0.0018506     -0.3117828     -0.1453819";
"  2S        4.474991     -0.0031639      1.1968955     -0.2789016";
"  3S        2.361960      0.0000879      0.0009384      0.3554042";
"  3S        1.695251      0.0001357      0.0001069      0.4396081";
"  1S        1.199982     -0.0003388      0.0001748      0.4217097";
"        P                    2P             3P ";
"  BASIS/ORB.ENERGY       -5.8024360     -0.7199780";
"              CUSP        1.0003396      0.9993597";
"  2P       36.179826     -0.0001255      0.0000334";
"  2P       22.490304      0.0023625     -0.0005530";
"  4P       12.983974     -0.0035419     -0.0002165";
"  2P        8.202715      0.4401183     -0.1031732";
"  3P        6.407117      0.4444320     -0.0742596";
"  4P        5.290358      0.1254342     -0.0141574";
"  2P        3.328350      0.0937758     -0.2588732";
"  3P        2.631487      0.0010757      0.0144892";
"  2P        1.329479      0.0012343      1.0531228";
"  3P        1.199982     -0.0000704      0.0780512";
""].
(** data.tar: cation/pd.cat:1-55 *)
Definition pd_cation : list string := [
"      PALLADIUM+   K(2)L(8)M(18)4S(2)4P(6)5S(0)4D(9), 2D                              ";
"";
"";
"";
"";
"   E = -4937.675923704";
"   T =  4937.675927723     V = -9875.351851427     V/T =    -1.999999999";
"";
"  ORBITAL ENERGIES AND EXPANSION COEFFICIENTS";
"        S                    1S             2S             3S             4S ";
"  BASIS/ORB.ENERGY     -873.7607586   -128.4148945    -24.6589136     -4.0314379";
"              CUSP        1.0000997      0.9999649      0.9999500      0.9997717";
"  2S       77.029845      0.2018204     -0.0970988      0.0500081     -0.0214682";
"  3S       69.840091      0.1537354     -0.0726376      0.0375038     -0.0160120";
"  1S       65.668391      0.5795954     -0.1862663      0.0803352     -0.0330746";
"  3S       54.310004      0.1546098     -0.1141952      0.0639958     -0.0282879";
"  3S       38.997941      0.0067230     -0.0228669      0.0791030     -0.0420370";
"  4S       32.710801      0.0027647      0.0825778      0.0245298     -0.0243930";
"  2S       19.272829     -0.0033387      1.0300181     -0.7038575      0.3099391";
"  4S       18.835602      0.0033351      0.0115603      0.1983130     -0.1549859";
"  3S       13.463015     -0.0043117      0.0188292     -0.1920318      0.2187004";
"  4S       12.999127      0.0016088     -0.0026725      0.5880246     -0.2442546";
"  3S        8.737583     -0.0002634      0.0004227      0.5696696     -0.8014019";
"  3S        4.594464      0.0000391     -0.0002288      0.0067751      0.5353046";
"  2S        2.953575     -0.0000210      0.0000387      0.0001840      0.8457249";
"  2S        1.242716      0.0000013     -0.0000040      0.0000600      0.0016595";
"        P                    2P             3P             4P ";
"  BASIS/ORB.ENERGY     -118.9790007    -20.8240609     -2.7662166";
"              CUSP        1.0009239      1.0000026      0.9999631";
"  2P       67.203163     -0.0103460      0.0094480     -0.0056890";
"  3P       56.595033     -0.0177789      0.0162023     -0.0097711";
"  2P       35.847961      0.3264580     -0.1689295      0.0740768";
"  3P       31.249077      0.0987869      0.0176015     -0.0363091";
"  3P       26.841348      0.3963705     -0.2734691      0.1456666";
"  3P       19.603644      0.2860596     -0.1405867      0.0242189";
"  3P       10.803310      0.0073168      0.7019128     -0.2483983";
"  3P        8.224438     -0.0017500      0.4334627     -0.5705612";
"  3P        4.449596      0.0001995      0.0097966      0.4142719";
"  2P        2.601753     -0.0001796     -0.0012499      0.8796408";
"  2P        1.242716      0.0000143      0.0002474      0.0074480";
"        D                    3D             4D ";
"  BASIS/ORB.ENERGY      -13.8122786     -0.7721714";
"              CUSP        1.0001024      0.9990278";
"  3D       46.454482      0.0025833     -0.0005500";
"  4D       37.217129      0.0097341     -0.0020708";
"  4D       22.854553      0.0335069     -0.0047590";
"  3D       14.037836      0.4078367     -0.1523392";
"  4D       11.992854      0.2570812     -0.0490615";
"  4D        9.829564      0.2709085     -0.1660975";
"  4D        7.410295      0.1207242     -0.0360650";
"  3D        4.055826      0.0067498      0.3893690";
"  3D        2.560909      0.0002826      0.4753941";
"  3D        1.630550      0.0005217      0.2870992";
"  3D        1.242716     -0.0000039      0.0292005";
""].
(** data.tar: cation/rb.cat:1-49 *)
Definition rb_cation : list string := [
"      RUBIDIUM+   K(2)L(8)M(18)4S(2)4P(6), 1S                                         ";
"";
"";
"";
"   E = -2938.219928092";
"   T =  2938.219927777     V = -5876.439855869     V/T =    -2.000000000";
"";
"  ORBITAL ENERGIES AND EXPANSION COEFFICIENTS";
"        S                    1S             2S             3S             4S ";
"  BASIS/ORB.ENERGY     -551.6587051    -75.2503198    -12.3336561     -1.7214517";
"              CUSP        1.0000480      1.0000363      1.0002432      0.9997061";
"  2S       71.149733      0.0301744     -0.0095204      0.0038461     -0.0014846";
"  3S       60.975180      0.0402781     -0.0120499      0.0048780     -0.0018046";
"  3S       43.257856      0.0902435     -0.0310742      0.0131497     -0.0054340";
"  1S       40.353213      0.8658911     -0.2731646      0.1106211     -0.0373520";
"  3S       30.610069      0.0112408      0.1354983     -0.0622954      0.0213980";
"  4S       18.978653      0.0025044     -0.5904514      0.2167486     -0.0594532";
"  3S       16.972323     -0.0033597      1.4904807     -0.7704531      0.2552836";
"  3S       10.189589     -0.0001479      0.0146678      0.1105842     -0.1218866";
"  3S        7.792649      0.0000603      0.0009157      0.7610245     -0.1623305";
"  3S        5.929193     -0.0000231     -0.0000229      0.3237940     -0.5805648";
"  2S        2.031862      0.0000045     -0.0000823      0.0035388      1.2916377";
"  3S        1.420277     -0.0000009      0.0000044     -0.0003242      0.0177554";
"        P                    2P             3P             4P ";
"  BASIS/ORB.ENERGY      -68.1074870     -9.6886678     -1.0085930";
"              CUSP        1.0008327      0.9999858      0.9993810";
"  2P       57.378975     -0.0060980     -0.0043035     -0.0014526";
"  3P       46.928310     -0.0131145     -0.0091957     -0.0030941";
"  2P       27.753521      0.3250767      0.1693817      0.0544761";
"  3P       22.214347      0.3966035      0.1902806      0.0595039";
"  3P       16.267955      0.3160838      0.3251698      0.1170630";
"  2P       10.403879      0.0632801     -0.2601739     -0.1192316";
"  3P        7.474201      0.0005540     -0.8435361     -0.3528318";
"  4P        6.039786      0.0003314     -0.1954845     -0.2200506";
"  3P        2.800968     -0.0001090     -0.0098797      0.1508235";
"  3P        1.521567     -0.0000731     -0.0039405     -0.3779373";
"  2P        1.420277      0.0001360      0.0075979      1.3744354";
"        D                    3D ";
"  BASIS/ORB.ENERGY       -4.9332490";
"              CUSP        1.0000011";
"  3D       36.707772      0.0012620";
"  4D       28.320179      0.0058734";
"  3D       11.601158      0.2972293";
"  4D        9.232610      0.2175363";
"  3D        5.523683      0.5157255";
"  4D        4.174027      0.0744064";
"  3D        2.116605      0.0030585";
"  3D        1.420277     -0.0001323";
""].
(** data.tar: cation/rh.cat:1-55 *)
Definition rh_cation : list string := [
"      RHODIUM+   K(2)L(8)M(18)4S(2)4P(6)5S(0)4D(8), 3F                                ";
"";
"";
"";
"";
"   E = -4685.664166697";
"   T =  4685.664162208     V = -9371.328328905     V/T =    -2.000000001";
"";
"  ORBITAL ENERGIES AND EXPANSION COEFFICIENTS";
"        S                    1S             2S             3S             4S ";
"  BASIS/ORB.ENERGY     -834.3119940   -121.8334278    -23.1495216     -3.7757058";
"              CUSP        1.0000957      1.0001282      1.0000760      0.9997372";
"  2S       75.823917      0.1071012     -0.0449481      0.0209247     -0.0092449";
"  3S       67.136931      0.1086305     -0.0449612      0.0207145     -0.0089484";
"  1S       59.033655      0.6578003     -0.2110404      0.0905210     -0.0368527";
"  4S       44.128347     -0.0853189      0.0640321     -0.0372273      0.0202779";
"  2S       32.577254      0.4541279     -0.0045013     -0.2116931      0.1937841";
"  2S       26.722176     -0.2336741     -0.0130796      0.3338979     -0.3027790";
"  3S       26.701689      0.0498724      0.6072363     -0.4445570      0.2620081";
"  3S       19.404845     -0.0012238      0.3892791     -0.3220519      0.1230201";
"  3S       10.124838      0.0000119      0.0104256      1.0094401     -0.2871978";
"  3S        7.383255     -0.0000255     -0.0065134      0.2256024     -0.8202565";
"  4S        7.377173      0.0000114      0.0026522     -0.0193837      0.3925951";
"  3S        4.176825      0.0000037     -0.0003493      0.0028580      0.8845411";
"  3S        3.009481     -0.0000007      0.0000600      0.0005811      0.3109005";
"  2S        1.204957      0.0000001     -0.0000057      0.0000010      0.0011770";
"        P                    2P             3P             4P ";
"  BASIS/ORB.ENERGY     -112.6567248    -19.4504794     -2.5671356";
"              CUSP        1.0009623      0.9995205      0.9993488";
"  2P       71.413902     -0.0046486      0.0037822     -0.0020453";
"  3P       58.292587     -0.0101311      0.0081678     -0.0044258";
"  2P       33.909267      0.3298160     -0.1572347      0.0627652";
"  3P       28.554803      0.2440335     -0.0585198     -0.0003663";
"  3P       24.386089      0.2846288     -0.2344154      0.1288607";
"  3P       18.626594      0.2367650     -0.0921999     -0.0002297";
"  3P       10.451995      0.0049117      0.7075393     -0.2478958";
"  3P        7.915398     -0.0006557      0.4221176     -0.5507291";
"  3P        4.257851     -0.0000520      0.0088603      0.4114183";
"  2P        2.495199     -0.0000224     -0.0011526      0.8739274";
"  2P        1.204957     -0.0000047      0.0002251      0.0069339";
"        D                    3D             4D ";
"  BASIS/ORB.ENERGY      -12.6926771     -0.7259604";
"              CUSP        1.0008953      0.9990116";
"  3D       45.122514      0.0027216     -0.0005770";
"  4D       36.167790      0.0101854     -0.0021640";
"  4D       22.243792      0.0352336     -0.0051951";
"  3D       13.619067      0.4024365     -0.1456529";
"  4D       11.800818      0.2370888     -0.0459645";
"  4D        9.470982      0.3083209     -0.1634305";
"  4D        6.973715      0.1108499     -0.0402472";
"  3D        3.912689      0.0045969      0.3670030";
"  3D        2.482661      0.0007399      0.4704867";
"  3D        1.589713      0.0000766      0.3057563";
"  3D        1.204957      0.0001085      0.0377505";
""].
(** data.tar: cation/ru.cat:1-55 *)
Definition ru_cation : list string := [
"      RUTHENIUM+   K(2)L(8)M(18)4S(2)4P(6)5S(0)4D(7), 4F                              ";
"";
"";
"";
"";
"   E = -4441.321952305";
"   T =  4441.321950672     V = -8882.643902977     V/T =    -2.000000000";
"";
"  ORBITAL ENERGIES AND EXPANSION COEFFICIENTS";
"        S                    1S             2S             3S             4S ";
"  BASIS/ORB.ENERGY     -795.7785916   -115.4209863    -21.6762130     -3.5214561";
"              CUSP        1.0001641      1.0000661      1.0000633      1.0001997";
"  2S       69.167117      0.1791679      0.1232829      0.0542101     -0.0206093";
"  3S       62.279945      0.1480122      0.1019294      0.0446273     -0.0170118";
"  1S       58.825221      0.6392339      0.2047137      0.0872987     -0.0350962";
"  3S       47.281849      0.0968192      0.1686445      0.0775141     -0.0283774";
"  3S       32.223937     -0.1003045      0.2730322      0.0836706     -0.0232034";
"  4S       24.884214     -0.0723659      0.1754813     -0.0487716      0.0207137";
"  2S       19.006287      0.1736176     -1.6089906     -0.7274971      0.2561544";
"  4S       16.362574     -0.0118142     -0.0191037     -0.0568524     -0.0968665";
"  3S       11.204522      0.0115280     -0.0050933      0.5378679      0.0446249";
"  4S       11.202035     -0.0048459      0.0008659      0.2447690     -0.2330848";
"  3S        8.027154      0.0006163     -0.0001650      0.4602255     -0.6621862";
"  3S        4.223517     -0.0000265      0.0001837      0.0056119      0.5327631";
"  2S        2.734310      0.0000143     -0.0000222      0.0002202      0.8273787";
"  2S        1.167416     -0.0000006      0.0000029      0.0000512      0.0014500";
"        P                    2P             3P             4P ";
"  BASIS/ORB.ENERGY     -106.5023968    -18.1121170     -2.3701291";
"              CUSP        1.0007378      0.9996318      0.9999292";
"  2P       69.428903     -0.0045575      0.0036738     -0.0019418";
"  3P       56.654105     -0.0099379      0.0079666     -0.0042299";
"  2P       32.958018      0.3326425     -0.1570746      0.0615651";
"  3P       27.420208      0.2991799     -0.0846934      0.0103489";
"  3P       23.034579      0.2394590     -0.2252312      0.1271941";
"  3P       18.098323      0.2232088     -0.0648898     -0.0160576";
"  3P       10.126508      0.0058703      0.7031403     -0.2431654";
"  3P        7.633018     -0.0011210      0.4205376     -0.5306555";
"  3P        4.046388      0.0001290      0.0084384      0.4079783";
"  2P        2.387330     -0.0001297     -0.0013621      0.8641498";
"  2P        1.167416      0.0000105      0.0002325      0.0068259";
"        D                    3D             4D ";
"  BASIS/ORB.ENERGY      -11.6072558     -0.6814305";
"              CUSP        0.9999982      0.9999416";
"  3D       43.919269      0.0024453     -0.0005226";
"  4D       35.195776      0.0091216     -0.0019431";
"  4D       21.834796      0.0274107     -0.0039495";
"  3D       13.398607      0.4012721     -0.1363980";
"  4D       11.367159      0.2630635     -0.0608944";
"  4D        9.051785      0.2932569     -0.1420706";
"  4D        6.719894      0.1116493     -0.0548364";
"  3D        3.829794      0.0059421      0.3354492";
"  3D        2.413988      0.0003510      0.4785517";
"  3D        1.540748      0.0001443      0.3262991";
"  3D        1.167416      0.0000460      0.0456467";
""].
(** data.tar: cation/s.cat:1-36 *)
Definition s_cation : list string := [
"      SULFUR+   K(2)L(8)3S(2)3P(3), 4S                                                ";
"";
"";
"";
"";
"   E =  -397.173182672";
"   T =   397.173182902     V =  -794.346365573     V/T =    -1.999999999";
"";
"  ORBITAL ENERGIES AND EXPANSION COEFFICIENTS";
"        S                    1S             2S             3S ";
"  BASIS/ORB.ENERGY      -92.4336816     -9.4276283     -1.2401949";
"              CUSP        1.0000427      0.9995923      0.9997585";
"  3S       41.218079      0.0004707      0.0002372     -0.0000763";
"  1S       22.586498     -0.3419043      0.0734009     -0.0244890";
"  2S       19.711791     -0.1831483      0.0589310     -0.0196349";
"  1S       13.683736     -0.5044034     -0.4954328      0.1418930";
"  2S        7.190680     -0.0004144      0.1178072     -0.2216397";
"  3S        5.486663      0.0017211     -0.3302621     -0.2198062";
"  2S        5.004489     -0.0030945      1.2894052     -0.1805025";
"  3S        2.655271      0.0000437      0.0015659      0.3695179";
"  3S        1.888789      0.0000568     -0.0005140      0.4332872";
"  1S        1.312850     -0.0001231      0.0016437      0.4167349";
"        P                    2P             3P ";
"  BASIS/ORB.ENERGY       -7.1038916     -0.8617878";
"              CUSP        1.0001432      1.0009033";
"  2P       38.722620      0.0001197      0.0000274";
"  2P       23.967182     -0.0022504     -0.0004842";
"  4P       13.185059      0.0036841     -0.0010597";
"  2P        8.930078     -0.4329361     -0.1158339";
"  3P        7.068496     -0.4385415     -0.1060264";
"  4P        5.911151     -0.1217259     -0.0459839";
"  2P        3.720582     -0.1066655     -0.1760189";
"  3P        2.375635     -0.0002544      0.1048132";
"  2P        1.457182     -0.0009481      0.9709810";
"  3P        1.312850      0.0001319      0.0517472";
""].
(** data.tar: cation/sb.cat:1-57 *)
Definition sb_cation : list string := [
"      ANTIMONY+   K(2)L(8)M(18)4S(2)4P(6)5S(2)4D(10)5P(2), 3P                         ";
"";
"";
"";
"";
"   E = -6313.165938302";
"   T =  6313.165931418     V =-12626.331869720     V/T =    -2.000000001";
"";
"  ORBITAL ENERGIES AND EXPANSION COEFFICIENTS";
"        S                    1S             2S             3S             4S             5S ";
"  BASIS/ORB.ENERGY    -1085.9106414   -165.0781955    -33.9558330     -6.3817600     -0.8558876";
"              CUSP        1.0002384      1.0000001      1.0001777      1.0002683      1.0000215";
"  1S       91.510038      0.0116119     -0.0214418     -0.0109649      0.0052125     -0.0016623";
"  3S       66.158049     -0.0173849      0.0272206      0.0143562     -0.0069221      0.0021770";
"  1S       52.818130     -0.9654298      0.3529747      0.1593518     -0.0710107      0.0230051";
"  4S       28.908909     -0.1028935      0.3540776      0.1042361     -0.0253196      0.0087925";
"  2S       26.867097     -0.1132982     -0.2089693     -0.1949356      0.1352329     -0.0469837";
"  3S       25.527436      0.1989488     -1.1061964     -0.6559897      0.3253140     -0.1106717";
"  2S       15.556395     -0.0234098     -0.1136923      0.2567280     -0.3311350      0.1267670";
"  4S       14.799417      0.0041248      0.0054368      0.6508623     -0.4201703      0.1496132";
"  4S       11.405158     -0.0018054     -0.0019461      0.3570156     -0.6425591      0.2607673";
"  4S        5.658977     -0.0007638     -0.0008477     -0.0309854      0.2119884     -0.0498818";
"  2S        4.195321      0.0013815      0.0017937      0.0733090      1.2468001     -0.6179784";
"  3S        3.487552     -0.0000274     -0.0000659     -0.0042461      0.0778633     -0.3961626";
"  2S        1.334874     -0.0000066     -0.0000040      0.0002261     -0.0001673      1.3445521";
"  3S        1.092702      0.0000026      0.0000013     -0.0000733      0.0001919      0.0005651";
"        P                    2P             3P             4P             5P ";
"  BASIS/ORB.ENERGY     -154.3238959    -29.4251989     -4.7620742     -0.5969985";
"              CUSP        1.0007928      1.0000194      0.9997563      0.9994615";
"  2P       89.334065      0.0005603      0.0004547      0.0002303      0.0000663";
"  4P       55.165158     -0.0069856     -0.0055788     -0.0028302     -0.0008089";
"  2P       37.295835     -0.3343640     -0.1557195     -0.0625881     -0.0172243";
"  4P       28.116805      0.3619419      0.1264945      0.0348453      0.0084699";
"  3P       25.320500     -1.0308796     -0.4508831     -0.1507849     -0.0381096";
"  4P       22.376940     -0.0478185      0.1484171      0.1280222      0.0420871";
"  4P       14.838804     -0.0057128      0.6218901      0.4043434      0.1274679";
"  4P       10.928259      0.0013636      0.3532486      0.4971943      0.1719594";
"  2P        4.786676     -0.0006235      0.0342938     -0.5965134     -0.2735728";
"  3P        4.370542      0.0004247     -0.0070916     -0.7336304     -0.2008144";
"  3P        3.125810     -0.0000690      0.0009196     -0.1242625     -0.3239087";
"  3P        1.380036      0.0000572     -0.0004752     -0.0020209      0.2157742";
"  2P        1.092702     -0.0000600      0.0004829      0.0010183      1.0076695";
"        D                    3D             4D ";
"  BASIS/ORB.ENERGY      -21.1175088     -2.0052258";
"              CUSP        1.0000012      0.9992233";
"  3D       52.820747      0.0022794     -0.0005038";
"  4D       42.469403      0.0083947     -0.0018472";
"  4D       26.142129      0.0305705     -0.0037541";
"  3D       16.086280      0.4190687     -0.1952983";
"  4D       13.482811      0.3222736     -0.0512190";
"  4D       11.556145      0.1697066     -0.2330723";
"  4D        9.064544      0.1413863      0.0132937";
"  3D        4.673794      0.0061150      0.5175289";
"  3D        3.165614     -0.0012427      0.5074630";
"  3D        2.193029      0.0002781      0.1139282";
"  3D        1.092702     -0.0000296      0.0004400";
""].
(** data.tar: cation/sc.cat:1-49 *)
Definition sc_cation : list string := [
"      SCANDIUM+   K(2)L(8)3S(2)3P(6)4S(1)3D(1), 3D                                    ";
"";
"";
"";
"";
"   E =  -759.539143556";
"   T =   759.539143095     V = -1519.078286651     V/T =    -2.000000001";
"";
"  ORBITAL ENERGIES AND EXPANSION COEFFICIENTS";
"        S                    1S             2S             3S             4S ";
"  BASIS/ORB.ENERGY     -166.1548822    -19.3331659     -2.8167397     -0.4492771";
"              CUSP        1.0001497      1.0003508      1.0006364      1.0003054";
"  2S       49.059902      0.0013744     -0.0001741     -0.0000600      0.0000311";
"  4S       28.467031     -0.0141542     -0.0020292      0.0024021     -0.0009679";
"  1S       25.707095      0.7213858     -0.4525443      0.1558072     -0.0423202";
"  2S       21.871156      0.3295350     -0.3593745      0.1302830     -0.0362668";
"  2S       14.040385      0.0057999     -0.6049503      0.1839606     -0.0444049";
"  3S        8.185364     -0.0007828      0.0963132     -0.2004106      0.0714847";
"  1S        6.790907      0.0032755      1.7752813     -0.5992239      0.1571996";
"  3S        4.525666      0.0000419      0.0109895      0.4130271     -0.1547434";
"  3S        3.229604     -0.0001187     -0.0025258      0.6397958     -0.1612000";
"  3S        2.464173      0.0000513      0.0013380      0.1253641     -0.1637958";
"  3S        1.144467     -0.0000155     -0.0001981      0.0001155      0.7368654";
"  3S        0.947921      0.0000100      0.0001471      0.0004046      0.3750104";
"        P                    2P             3P ";
"  BASIS/ORB.ENERGY      -15.9217724     -1.8256487";
"              CUSP        1.0004813      0.9997894";
"  3P       38.544981      0.0004909     -0.0001680";
"  3P       29.363523     -0.0027070      0.0006194";
"  4P       21.948177     -0.0026896     -0.0008905";
"  2P       12.643064      0.4335757     -0.1752494";
"  3P        9.964613      0.5194725     -0.2972561";
"  4P        8.157957      0.1222477     -0.1824344";
"  2P        4.538867      0.0240491      0.3005787";
"  3P        3.265690     -0.0001993      0.4172178";
"  2P        2.023922      0.0002814      0.5652231";
"  3P        0.947921     -0.0000107      0.0011792";
"        D                    3D ";
"  BASIS/ORB.ENERGY       -0.5999367";
"              CUSP        0.9998460";
"  3D       18.357069      0.0012672";
"  4D       13.998989      0.0058217";
"  3D        6.408209      0.0797977";
"  4D        5.251401      0.0891597";
"  3D        2.999535      0.4127642";
"  4D        2.286812      0.2378400";
"  3D        1.324813      0.3368157";
"  3D        0.947921      0.0131812";
""].
(** data.tar: cation/se.cat:1-50 *)
Definition se_cation : list string := [
"      SELENIUM+   K(2)L(8)M(18)4S(2)4P(3), 4S                                         ";
"";
"";
"";
"";
"   E = -2399.558572799";
"   T =  2399.558572004     V = -4799.117144803     V/T =    -2.000000000";
"";
"  ORBITAL ENERGIES AND EXPANSION COEFFICIENTS";
"        S                    1S             2S             3S             4S ";
"  BASIS/ORB.ENERGY     -461.2494022    -61.0488113     -9.3108839     -1.1669789";
"              CUSP        1.0000615      1.0000644      1.0000039      1.0000332";
"  2S       65.377692      0.0294886     -0.0092274      0.0036336     -0.0012246";
"  3S       55.847293      0.0403444     -0.0119081      0.0045574     -0.0015533";
"  3S       39.559848      0.0894335     -0.0309538      0.0134410     -0.0044756";
"  1S       37.014548      0.8673363     -0.2714113      0.1068069     -0.0323426";
"  3S       28.120190      0.0109127      0.1359108     -0.0630390      0.0184134";
"  4S       17.319873      0.0019235     -0.5958107      0.2046381     -0.0566440";
"  3S       15.459741     -0.0025526      1.4979871     -0.7385055      0.2224561";
"  3S        8.280939     -0.0001148      0.0157863      0.3832245     -0.1915327";
"  3S        6.220585      0.0000556     -0.0033847      0.6571684     -0.1642356";
"  3S        4.790636     -0.0000245      0.0011473      0.1528048     -0.3969999";
"  2S        1.645411      0.0000036     -0.0001014      0.0012177      1.2400194";
"  3S        1.254113     -0.0000010      0.0000239     -0.0001026      0.0165309";
"        P                    2P             3P             4P ";
"  BASIS/ORB.ENERGY      -54.6484785     -7.0388018     -0.7863995";
"              CUSP        1.0009920      0.9994884      1.0002007";
"  2P       51.128102     -0.0066788      0.0043265     -0.0012880";
"  3P       41.788098     -0.0146156      0.0093117     -0.0027829";
"  2P       24.775858      0.3490263     -0.1699996      0.0472054";
"  3P       19.694914      0.4255058     -0.1959305      0.0524476";
"  3P       14.273209      0.3045709     -0.3048252      0.0943158";
"  2P        7.647620      0.0296043      0.3968056     -0.1508313";
"  3P        6.289116     -0.0030929      0.7050527     -0.2437728";
"  4P        5.258312      0.0015606      0.1563336     -0.1027898";
"  3P        3.668718     -0.0006254      0.0361537     -0.1741987";
"  3P        1.334716     -0.0000733     -0.0007234     -0.3120666";
"  2P        1.254113      0.0001187      0.0015739      1.4884451";
"        D                    3D ";
"  BASIS/ORB.ENERGY       -3.0274234";
"              CUSP        0.9999859";
"  3D       33.211161      0.0012980";
"  4D       25.555288      0.0060971";
"  3D       10.535250      0.2649436";
"  4D        8.471194      0.2015003";
"  3D        4.847360      0.5280554";
"  4D        3.668504      0.1202120";
"  3D        2.235460      0.0137631";
"  3D        1.254113      0.0001282";
""].
(** data.tar: cation/si.cat:1-36 *)
Definition si_cation : list string := [
"      SILICON+   K(2)L(8)3S(2)3P(1), 2P                                               ";
"";
"";
"";
"";
"   E =  -288.573130997";
"   T =   288.573130976     V =  -577.146261973     V/T =    -2.000000000";
"";
"  ORBITAL ENERGIES AND EXPANSION COEFFICIENTS";
"        S                    1S             2S             3S ";
"  BASIS/ORB.ENERGY      -69.1742358     -6.5124227     -0.8384282";
"              CUSP        1.0001142      0.9997760      0.9995492";
"  3S       34.793099      0.0005962      0.0002624     -0.0000838";
"  1S       19.983744     -0.3353354      0.0664880     -0.0181474";
"  2S       17.313530     -0.1880051      0.0578910     -0.0158254";
"  1S       11.902721     -0.5071434     -0.4740273      0.1180100";
"  2S        6.092679     -0.0013365      0.2908872     -0.1834909";
"  3S        4.310043      0.0010953     -0.2408478     -0.1359697";
"  2S        4.008864     -0.0017617      1.0346409     -0.2417828";
"  3S        2.050620      0.0001144      0.0002153      0.3547082";
"  3S        1.491987      0.0001330     -0.0006158      0.4507824";
"  1S        1.082471     -0.0003908      0.0018110      0.3954924";
"        P                    2P             3P ";
"  BASIS/ORB.ENERGY       -4.6095092     -0.5858719";
"              CUSP        1.0008402      1.0000019";
"  2P       33.691090     -0.0001124      0.0000270";
"  2P       19.882253      0.0032217     -0.0007130";
"  4P       11.295611     -0.0078257      0.0008398";
"  2P        7.396430      0.4324713     -0.0841347";
"  3P        5.827720      0.3549870     -0.0194416";
"  4P        4.889860      0.0874609      0.0102279";
"  2P        3.362886      0.2180429     -0.2820027";
"  3P        2.617048      0.0069988     -0.0634605";
"  2P        1.153748      0.0009503      1.0631962";
"  3P        1.082471     -0.0000526      0.0867202";
""].
(** data.tar: cation/sn.cat:1-57 *)
Definition sn_cation : list string := [
"      TIN+   K(2)L(8)M(18)4S(2)4P(6)5S(2)4D(10)5P(1), 2P                              ";
"";
"";
"";
"";
"   E = -6022.678320408";
"   T =  6022.678328054     V =-12045.356648462     V/T =    -1.999999999";
"";
"  ORBITAL ENERGIES AND EXPANSION COEFFICIENTS";
"        S                    1S             2S             3S             4S             5S ";
"  BASIS/ORB.ENERGY    -1041.5199616   -157.2730218    -31.8940016     -5.8070563     -0.7310146";
"              CUSP        1.0002448      1.0000414      1.0002728      1.0003633      1.0001278";
"  1S       89.536877      0.0124864     -0.0217228     -0.0111344      0.0051986     -0.0015760";
"  3S       64.885326     -0.0182515      0.0271544      0.0144080     -0.0068176      0.0020403";
"  1S       51.871742     -0.9646721      0.3520699      0.1584502     -0.0696419      0.0214149";
"  4S       28.332819     -0.1045612      0.3603999      0.1049425     -0.0272050      0.0088905";
"  2S       27.174333     -0.1091101     -0.1956369     -0.1765178      0.1156790     -0.0379069";
"  3S       24.996281      0.1912018     -1.1417618     -0.6738057      0.3294724     -0.1060458";
"  2S       14.533367     -0.0205536     -0.1009394      0.2762000     -0.3357313      0.1219226";
"  4S       14.317933      0.0045282      0.0077124      0.6536666     -0.4194236      0.1418838";
"  4S       10.981514     -0.0018319     -0.0020932      0.3415724     -0.6369924      0.2447101";
"  4S        5.369886     -0.0007609     -0.0008070     -0.0240446      0.1425117     -0.0369251";
"  2S        3.998462      0.0013557      0.0016930      0.0570387      1.3447357     -0.6256212";
"  3S        3.184758     -0.0000141     -0.0000505     -0.0026985      0.0582806     -0.3312875";
"  2S        1.223362     -0.0000075     -0.0000009      0.0002340     -0.0009480      1.3114588";
"  3S        1.007489      0.0000030      0.0000005     -0.0000763      0.0003428     -0.0021416";
"        P                    2P             3P             4P             5P ";
"  BASIS/ORB.ENERGY     -146.7845589    -27.5035075     -4.2624724     -0.5075171";
"              CUSP        1.0009548      0.9999968      0.9996993      1.0009932";
"  2P       87.582417      0.0005289      0.0004188     -0.0002057      0.0000578";
"  4P       54.009271     -0.0067609     -0.0051880      0.0025475     -0.0007482";
"  2P       36.503437     -0.3345510     -0.1548468      0.0614795     -0.0155703";
"  4P       27.647593      0.3463708      0.1291665     -0.0398031      0.0083109";
"  3P       24.869429     -1.0190694     -0.4463481      0.1508946     -0.0341119";
"  4P       21.411776     -0.0459361      0.1510796     -0.1248136      0.0397016";
"  4P       14.436127     -0.0046978      0.6032523     -0.3717340      0.1078247";
"  4P       10.699225      0.0009738      0.3548783     -0.4784763      0.1576803";
"  2P        4.605819     -0.0004984      0.0469112      0.5401031     -0.2588962";
"  3P        4.331595      0.0004422     -0.0150749      0.6591199     -0.1324358";
"  3P        3.215664     -0.0001233      0.0032913      0.2173367     -0.3012657";
"  3P        2.035549      0.0000262     -0.0004414      0.0043666     -0.1896492";
"  2P        1.007489     -0.0000057      0.0000641      0.0008529      1.3245401";
"        D                    3D             4D ";
"  BASIS/ORB.ENERGY      -19.4581544     -1.6625366";
"              CUSP        1.0007338      0.9992193";
"  3D       51.597942      0.0023891     -0.0005217";
"  4D       41.349959      0.0089931     -0.0019606";
"  4D       25.387026      0.0325409     -0.0040600";
"  3D       15.528421      0.4271672     -0.1926681";
"  4D       13.034799      0.2858794     -0.0125389";
"  4D       11.515254      0.1879003     -0.2408208";
"  4D        8.788639      0.1500725     -0.0101906";
"  3D        4.556394      0.0055094      0.5000530";
"  3D        2.990519     -0.0006521      0.5149736";
"  3D        2.048564      0.0001205      0.1335755";
"  3D        1.007489     -0.0000102      0.0002978";
""].
(** data.tar: cation/sr.cat:1-52 *)
Definition sr_cation : list string := [
"      STRONTIUM+   K(2)L(8)M(18)4S(2)4P(6)5S(1), 2S                                   ";
"";
"";
"";
"";
"   E = -3131.373774334";
"   T =  3131.373773565     V = -6262.747547899     V/T =    -2.000000000";
"";
"  ORBITAL ENERGIES AND EXPANSION COEFFICIENTS";
"        S                    1S             2S             3S             4S             5S ";
"  BASIS/ORB.ENERGY     -583.9091253    -80.6114947    -13.6950162     -2.1134144     -0.3788868";
"              CUSP        1.0003557      1.0002564      1.0003171      1.0004211      1.0004578";
"  2S       55.832561     -0.0227814     -0.0465249     -0.0229133     -0.0085312      0.0026139";
"  3S       47.667376     -0.0376329     -0.0678614     -0.0336902     -0.0126028      0.0038666";
"  1S       39.546125     -0.9292809     -0.2938839     -0.1200758     -0.0426714      0.0129467";
"  4S       27.408289      0.0344681      0.1360559      0.0798547      0.0303344     -0.0093209";
"  4S       19.326156      0.0204385      0.1105562      0.1844267      0.0850966     -0.0272066";
"  2S       16.505756     -0.0747146      0.7693705      0.4486027      0.1843671     -0.0582265";
"  2S       10.753302     -0.0003537      0.0992302     -0.1112054     -0.1152506      0.0433539";
"  3S        7.969094      0.0000066     -0.0042587     -0.9110756     -0.3672756      0.1109758";
"  3S        5.847222      0.0000602      0.0020136     -0.2219798     -0.5449302      0.2139755";
"  4S        2.227859      0.0000463      0.0004976     -0.0019591     -0.0201191     -0.1659523";
"  2S        2.221386     -0.0000540     -0.0007326      0.0002874      1.3925711     -0.7394497";
"  3S        1.397258     -0.0001193     -0.0010397      0.0041917      0.0276140     -0.6255936";
"  2S        0.872953      0.0001410      0.0011764     -0.0046894     -0.0225586      1.5277797";
"  3S        0.870502     -0.0000467     -0.0003833      0.0015364      0.0078800      0.3609472";
"        P                    2P             3P             4P ";
"  BASIS/ORB.ENERGY      -73.2170576    -10.9205089     -1.3154208";
"              CUSP        1.0000000      0.9991266      1.0000000";
"  2P       62.275951     -0.0041086      0.0025912     -0.0009746";
"  3P       49.890204     -0.0100489      0.0063353     -0.0024031";
"  2P       28.352566      0.3278177     -0.1427271      0.0460990";
"  3P       22.968318      0.3928178     -0.1495711      0.0427462";
"  3P       16.945207      0.3361405     -0.2591225      0.0989934";
"  3P       12.578046      0.0431626      0.1256248     -0.0752467";
"  3P        7.939440      0.0018287      0.7116426     -0.2281066";
"  3P        5.763893      0.0001582      0.3392404     -0.3666722";
"  3P        2.759686     -0.0000027      0.0052204      0.2910393";
"  2P        1.753375     -0.0000069     -0.0020713      0.8969169";
"  2P        0.870502      0.0000017      0.0001151      0.0063026";
"        D                    3D ";
"  BASIS/ORB.ENERGY       -5.9149463";
"              CUSP        1.0008644";
"  3D       37.420815      0.0013332";
"  4D       28.965002      0.0060384";
"  3D       11.860054      0.3194722";
"  4D        9.326124      0.2456156";
"  3D        5.605752      0.4865553";
"  4D        4.182849      0.0502173";
"  3D        1.987580      0.0004941";
"  3D        0.870502      0.0000263";
""].
(** data.tar: cation/tc.cat:1-55 *)
Definition tc_cation : list string := [
"      TECHNETIUM+   K(2)L(8)M(18)4S(2)4P(6)5S(1)4D(5), 7S                             ";
"";
"";
"";
"";
"   E = -4204.594355021";
"   T =  4204.594349640     V = -8409.188704661     V/T =    -2.000000001";
"";
"  ORBITAL ENERGIES AND EXPANSION COEFFICIENTS";
"        S                    1S             2S             3S             4S             5S ";
"  BASIS/ORB.ENERGY     -758.3069709   -109.3327551    -20.3942288     -3.4125962     -0.5098328";
"              CUSP        1.0003105      1.0001525      1.0003655      1.0007209      1.0006528";
"  2S       63.459187      0.0236719     -0.0483387      0.0236122     -0.0102169      0.0032264";
"  3S       54.494318      0.0362553     -0.0668604      0.0331445     -0.0145461      0.0045900";
"  1S       44.883169      0.9264112     -0.2961286      0.1255338     -0.0501783      0.0155741";
"  4S       32.396317     -0.0307091      0.1372237     -0.0679702      0.0287014     -0.0091541";
"  4S       23.922921     -0.0117065      0.1717360     -0.1497605      0.0880150     -0.0293672";
"  2S       21.266159      0.0691396      0.4551932     -0.1821582      0.1139048     -0.0391077";
"  2S       15.024147     -0.0016270      0.3565580     -0.2921268      0.0238320      0.0022333";
"  3S        9.711884      0.0004401     -0.0011032      0.9120836     -0.3681955      0.1114915";
"  3S        7.457529     -0.0003527      0.0016908      0.3013310     -0.7526050      0.2950714";
"  4S        3.319045     -0.0001386      0.0005443     -0.0025622     -0.1628207     -0.0070789";
"  2S        2.782002      0.0001768     -0.0008705      0.0082201      1.6233489     -0.7981527";
"  3S        1.967616      0.0000923     -0.0002815      0.0004739      0.0052523     -0.3499030";
"  2S        1.010253     -0.0000792      0.0002209     -0.0003649     -0.0055635      1.4187924";
"  3S        1.009785      0.0000334     -0.0000989      0.0001441     -0.0001872      0.0752041";
"        P                    2P             3P             4P ";
"  BASIS/ORB.ENERGY     -100.6694132    -16.9624749     -2.3028127";
"              CUSP        1.0009989      0.9997485      0.9999968";
"  2P       67.772730     -0.0040050      0.0032859     -0.0016951";
"  3P       55.044142     -0.0091336      0.0073964     -0.0038277";
"  2P       31.433532      0.3484572     -0.1625861      0.0626702";
"  3P       25.888684      0.3512090     -0.0962222      0.0112120";
"  3P       22.027894      0.1627990     -0.2176192      0.1316264";
"  3P       17.679727      0.2293541     -0.0440209     -0.0287739";
"  3P        9.789992      0.0059663      0.7081094     -0.2503335";
"  3P        7.317539     -0.0010867      0.4107727     -0.5074785";
"  3P        3.784492      0.0001524      0.0073977      0.4202982";
"  2P        2.316428     -0.0001351     -0.0016141      0.8439390";
"  2P        1.009785      0.0000102      0.0001247      0.0045077";
"        D                    3D             4D ";
"  BASIS/ORB.ENERGY      -10.7077006     -0.8087252";
"              CUSP        1.0000124      0.9992094";
"  3D       43.402296      0.0021140     -0.0004487";
"  4D       34.449464      0.0084309     -0.0017880";
"  4D       21.222767      0.0224561     -0.0027313";
"  3D       13.210700      0.3910834     -0.1324984";
"  4D       11.054045      0.2796358     -0.0728155";
"  4D        8.765156      0.2781394     -0.1238812";
"  4D        6.597644      0.1264591     -0.0826318";
"  3D        3.852519      0.0094279      0.2762275";
"  3D        2.437104     -0.0002445      0.5334157";
"  3D        1.563023      0.0000699      0.3622873";
"  3D        1.009785     -0.0000092      0.0072198";
""].
(** data.tar: cation/te.cat:1-57 *)
Definition te_cation : list string := [
"      TELLURIUM+   K(2)L(8)M(18)4S(2)4P(6)5S(2)4D(10)5P(3), 4S                        ";
"";
"";
"";
"";
"   E = -6611.503390415";
"   T =  6611.503399381     V =-13223.006789796     V/T =    -1.999999999";
"";
"  ORBITAL ENERGIES AND EXPANSION COEFFICIENTS";
"        S                    1S             2S             3S             4S             5S ";
"  BASIS/ORB.ENERGY    -1131.2441875   -173.0814524    -36.0803757     -6.9715886     -0.9832149";
"              CUSP        1.0002305      1.0000398      1.0002194      1.0003673      1.0002025";
"  1S       93.590515      0.0123692     -0.0209484     -0.0107535      0.0052518     -0.0017675";
"  3S       67.811741     -0.0178768      0.0262496      0.0138996     -0.0069153      0.0023076";
"  1S       53.988581     -0.9638307      0.3512243      0.1591626     -0.0719797      0.0243631";
"  4S       29.683372     -0.1092143      0.3531079      0.1047102     -0.0225034      0.0073338";
"  2S       26.218479     -0.1331600     -0.2076912     -0.2115460      0.1612041     -0.0597461";
"  3S       26.207765      0.2310013     -1.0767087     -0.6258428      0.3094931     -0.1093386";
"  2S       16.745947     -0.0294586     -0.1358250      0.2231436     -0.3214480      0.1297798";
"  4S       15.345344      0.0039079      0.0021674      0.6393538     -0.4123160      0.1515744";
"  4S       11.865154     -0.0017628     -0.0007888      0.3837744     -0.6519567      0.2773152";
"  4S        5.915313     -0.0006921     -0.0002739     -0.0347745      0.2990226     -0.0663234";
"  2S        4.454222      0.0012756      0.0008198      0.0851227      1.1093529     -0.5781060";
"  3S        3.787930     -0.0000090     -0.0000534     -0.0043561      0.1179949     -0.4801761";
"  2S        1.441928     -0.0000078      0.0000002      0.0000746      0.0002796      1.3736657";
"  3S        1.173846      0.0000028     -0.0000007     -0.0000282      0.0001624      0.0041990";
"        P                    2P             3P             4P             5P ";
"  BASIS/ORB.ENERGY     -162.0602940    -31.4090294     -5.2760430     -0.6889578";
"              CUSP        1.0009092      1.0003957      1.0000910      0.9990270";
"  2P       87.616102      0.0006998      0.0005841     -0.0003038      0.0000899";
"  4P       55.668833     -0.0072973     -0.0060449      0.0031386     -0.0008994";
"  2P       38.210478     -0.3319198     -0.1558140      0.0637800     -0.0186065";
"  4P       29.010304      0.3218415      0.1054918     -0.0264983      0.0071787";
"  3P       26.311565     -0.9792461     -0.4286083      0.1453117     -0.0393839";
"  4P       23.126945     -0.0657524      0.1350201     -0.1238806      0.0429125";
"  4P       15.267977     -0.0051151      0.6209780     -0.4102726      0.1380763";
"  4P       11.277741      0.0010890      0.3549311     -0.5042863      0.1837167";
"  2P        5.322612     -0.0004324      0.0390623      0.4845411     -0.2471212";
"  3P        4.614815      0.0003078     -0.0052126      0.8734083     -0.3016634";
"  3P        3.200239     -0.0000719      0.0010431      0.1064180     -0.4071339";
"  2P        1.177299      0.0000245     -0.0002654     -0.0002962      1.4106682";
"  3P        1.173846     -0.0000132      0.0001289      0.0003966     -0.1044193";
"        D                    3D             4D ";
"  BASIS/ORB.ENERGY      -22.8376519     -2.3617314";
"              CUSP        0.9992165      0.9990678";
"  3D       53.731320      0.0028920     -0.0006035";
"  4D       43.429755      0.0103667     -0.0021475";
"  4D       26.567495      0.0448264     -0.0058475";
"  3D       16.127198      0.4138810     -0.2132586";
"  4D       14.562398      0.1738343      0.0194842";
"  4D       12.386016      0.3117967     -0.2841288";
"  4D        9.261869      0.1361438     -0.0059267";
"  3D        4.802362      0.0045394      0.5698709";
"  3D        3.251366     -0.0007452      0.5068548";
"  3D        2.176784      0.0001132      0.0665784";
"  3D        1.173846     -0.0000173     -0.0001401";
""].
(** data.tar: cation/ti.cat:1-49 *)
Definition ti_cation : list string := [
"      TITANIUM+   K(2)L(8)3S(2)3P(6)4S(1)3D(2), 4F                                    ";
"";
"";
"";
"";
"   E =  -848.203400164";
"   T =   848.203399259     V = -1696.406799423     V/T =    -2.000000001";
"";
"  ORBITAL ENERGIES AND EXPANSION COEFFICIENTS";
"        S                    1S             2S             3S             4S ";
"  BASIS/ORB.ENERGY     -183.5383843    -21.6860132     -3.1337020     -0.4756648";
"              CUSP        1.0001375      1.0003059      1.0005849      1.0002988";
"  2S       51.054089      0.0014110     -0.0001994     -0.0000514      0.0000297";
"  4S       29.826418     -0.0140914     -0.0017324      0.0022513     -0.0009193";
"  1S       26.886993      0.7236904     -0.4683748      0.1638083     -0.0439876";
"  2S       22.903449      0.3272178     -0.3687321      0.1355344     -0.0373086";
"  2S       14.743954      0.0045472     -0.6343711      0.1978280     -0.0472941";
"  3S        8.626215     -0.0009743      0.0972926     -0.2125113      0.0755472";
"  1S        7.241417      0.0039199      1.8198863     -0.6250466      0.1620248";
"  3S        5.000569      0.0001146      0.0120534      0.3486921     -0.1312893";
"  3S        3.610119     -0.0001735     -0.0021755      0.6278751     -0.1650577";
"  3S        2.756584      0.0000670      0.0012404      0.2129895     -0.1690146";
"  3S        1.205403     -0.0000154     -0.0000666      0.0011519      0.7445441";
"  3S        0.975361      0.0000097      0.0001168     -0.0001114      0.3553040";
"        P                    2P             3P ";
"  BASIS/ORB.ENERGY      -18.0552500     -2.0571135";
"              CUSP        1.0000002      0.9999998";
"  3P       40.380457      0.0005183     -0.0001725";
"  3P       31.345684     -0.0022986      0.0005191";
"  4P       23.398255     -0.0013068     -0.0011567";
"  2P       13.532375      0.4181733     -0.1696369";
"  3P       10.724850      0.5233268     -0.2896069";
"  4P        8.792957      0.1337181     -0.1758470";
"  2P        4.604777      0.0237843      0.2981797";
"  3P        3.480043     -0.0011755      0.4174306";
"  2P        2.151940      0.0007040      0.5448154";
"  3P        0.975361     -0.0000190      0.0010979";
"        D                    3D ";
"  BASIS/ORB.ENERGY       -0.7068254";
"              CUSP        0.9999718";
"  3D       19.217589      0.0014156";
"  4D       14.756988      0.0062383";
"  3D        6.708481      0.0972491";
"  4D        5.510605      0.1069795";
"  3D        3.130957      0.4439239";
"  4D        2.406248      0.2311861";
"  3D        1.427287      0.2806244";
"  3D        0.975361      0.0051557";
""].
(** data.tar: cation/v.cat:1-49 *)
Definition v_cation : list string := [
"      VANADIUM+   K(2)L(8)3S(2)3P(6)4S(0)3D(4), 5D                                    ";
"";
"";
"";
"";
"   E =  -942.670783347";
"   T =   942.670783660     V = -1885.341567007     V/T =    -2.000000000";
"";
"  ORBITAL ENERGIES AND EXPANSION COEFFICIENTS";
"        S                    1S             2S             3S ";
"  BASIS/ORB.ENERGY     -201.5777179    -23.9189623     -3.2444599";
"              CUSP        1.0000281      0.9999378      1.0002993";
"  2S       61.913739      0.0005695     -0.0001650      0.0000027";
"  4S       33.257642     -0.0068804     -0.0001257      0.0011416";
"  1S       29.218779      0.6843775     -0.3433807      0.1266037";
"  2S       25.396152      0.3303080     -0.2134003      0.0828371";
"  2S       19.166060      0.0466678     -0.2540462      0.0915173";
"  3S       11.604185      0.0015275      0.3954915     -0.1413273";
"  1S        9.324325     -0.0024708      0.7753106     -0.2984144";
"  3S        8.763737     -0.0002154      0.2743448     -0.2858991";
"  3S        5.579454     -0.0000188      0.0092108      0.3189353";
"  3S        3.914557     -0.0000356      0.0007623      0.6438019";
"  3S        2.854948      0.0000022      0.0004552      0.2557449";
"  2S        1.080967     -0.0000004     -0.0000003      0.0007283";
"        P                    2P             3P ";
"  BASIS/ORB.ENERGY      -20.0727180     -2.1010571";
"              CUSP        1.0006611      0.9993630";
"  3P       41.659118      0.0005444     -0.0002166";
"  3P       33.163417     -0.0021447      0.0005476";
"  4P       25.266125     -0.0009795     -0.0011096";
"  2P       14.217441      0.4196007     -0.1723165";
"  3P       11.307604      0.5239693     -0.2966805";
"  4P        9.281456      0.1298068     -0.1777800";
"  2P        4.869342      0.0234317      0.3206809";
"  3P        3.729061     -0.0010367      0.3885839";
"  2P        2.218956      0.0009180      0.5646447";
"  3P        1.080967     -0.0000061      0.0010931";
"        D                    3D ";
"  BASIS/ORB.ENERGY       -0.5842453";
"              CUSP        0.9997454";
"  3D       20.434420      0.0012879";
"  4D       15.682969      0.0057588";
"  3D        7.045584      0.1040543";
"  4D        5.769930      0.1155919";
"  3D        3.201405      0.4366822";
"  4D        2.409510      0.2133536";
"  3D        1.413679      0.2736247";
"  3D        1.080967      0.0479134";
""].
(** data.tar: cation/y.cat:1-51 *)
Definition y_cation : list string := [
"      YTTRIUM+   K(2)L(8)M(18)4S(2)4P(6)5S(2), 1S                                     ";
"";
"";
"";
"   E = -3331.472879932";
"   T =  3331.472882755     V = -6662.945762687     V/T =    -1.999999999";
"";
"  ORBITAL ENERGIES AND EXPANSION COEFFICIENTS";
"        S                    1S             2S             3S             4S             5S ";
"  BASIS/ORB.ENERGY     -617.1064976    -86.1757910    -15.1222817     -2.5193646     -0.4355506";
"              CUSP        1.0003550      1.0002691      1.0003539      1.0006135      1.0001865";
"  2S       56.850413     -0.0214884     -0.0477543     -0.0236554     -0.0093144      0.0030329";
"  3S       48.677772     -0.0352149     -0.0680503     -0.0340262     -0.0135219      0.0043603";
"  1S       40.477134     -0.9333391     -0.2958660     -0.1219242     -0.0453106      0.0147250";
"  4S       28.229729      0.0311292      0.1358306      0.0778374      0.0308867     -0.0104084";
"  4S       20.177540      0.0165528      0.1239226      0.1783849      0.0905461     -0.0296629";
"  2S       17.391445     -0.0680055      0.7123916      0.4007809      0.1833170     -0.0600751";
"  2S       11.900211      0.0005046      0.1465357     -0.0176739     -0.0893701      0.0326458";
"  3S        8.437033     -0.0002484     -0.0028644     -0.8804742     -0.3342446      0.1099516";
"  3S        6.331381      0.0001904      0.0017995     -0.2863184     -0.5835241      0.2325300";
"  4S        2.484842      0.0001119      0.0006201      0.0010634     -0.4790062      0.0354291";
"  2S        1.991798     -0.0001277     -0.0008343     -0.0038571      1.7897552     -1.0313357";
"  3S        1.509806     -0.0001698     -0.0007143      0.0006576     -0.0569498     -0.3966628";
"  2S        0.942943      0.0002001      0.0008217     -0.0007022      0.0252259      1.5611187";
"  3S        0.933328     -0.0000646     -0.0002622      0.0002222     -0.0060161      0.2140588";
"        P                    2P             3P             4P ";
"  BASIS/ORB.ENERGY      -78.5280301    -12.2164968     -1.6361016";
"              CUSP        1.0009937      0.9998368      1.0000640";
"  2P       63.029145     -0.0035942      0.0024085     -0.0009643";
"  3P       50.693725     -0.0087501      0.0057996     -0.0023296";
"  2P       28.596183      0.3391940     -0.1491701      0.0510478";
"  3P       23.345978      0.3904208     -0.1479511      0.0443389";
"  3P       17.498579      0.3104795     -0.2619028      0.1097234";
"  3P       13.559960      0.0558290      0.1089825     -0.0731069";
"  3P        8.327672      0.0025633      0.7145623     -0.2422726";
"  3P        6.071610      0.0000103      0.3564577     -0.3924729";
"  3P        2.892623      0.0000012      0.0059664      0.4418484";
"  2P        1.902480     -0.0000070     -0.0030149      0.7611566";
"  2P        0.933328      0.0000019      0.0001170      0.0074626";
"        D                    3D ";
"  BASIS/ORB.ENERGY       -6.9598776";
"              CUSP        0.9999996";
"  3D       38.369940      0.0013296";
"  4D       29.841335      0.0058586";
"  3D       12.267012      0.3227327";
"  4D        9.649812      0.2443064";
"  3D        5.936284      0.4775446";
"  4D        4.571744      0.0523989";
"  3D        2.228486      0.0007909";
"  3D        0.933328     -0.0000252";
""].
(** data.tar: cation/zn.cat:1-49 *)
Definition zn_cation : list string := [
"      ZINC+   K(2)L(8)3S(2)3P(6)4S(1)3D(10), 2S                                       ";
"";
"";
"";
"";
"   E = -1777.567542549";
"   T =  1777.567544767     V = -3555.135087316     V/T =    -1.999999999";
"";
"  ORBITAL ENERGIES AND EXPANSION COEFFICIENTS";
"        S                    1S             2S             3S             4S ";
"  BASIS/ORB.ENERGY     -353.6463669    -44.6986987     -5.9765527     -0.6117045";
"              CUSP        1.0000811      0.9999525      1.0000594      1.0007883";
"  2S       56.124784      0.0401607     -0.0124351      0.0027616     -0.0005329";
"  3S       48.111394      0.0535646     -0.0154241      0.0031872     -0.0006583";
"  3S       34.485953      0.1053009     -0.0371941      0.0091482     -0.0016591";
"  1S       33.388168      0.8376894     -0.2586573      0.0975879     -0.0225353";
"  3S       23.342782      0.0075995      0.3422737     -0.1653311      0.0393528";
"  4S       19.224010     -0.0004764      0.3342921     -0.1370100      0.0321109";
"  3S       12.474380      0.0002294      0.4271521     -0.4714750      0.1235116";
"  4S        5.031119      0.0000747     -0.0064731     -0.2009711      0.0386465";
"  2S        3.977448     -0.0001551      0.0153186      1.4344400     -0.4044626";
"  3S        1.663491     -0.0000087      0.0002046      0.0019475      0.5663940";
"  4S        1.107245     -0.0000072      0.0001739      0.0004520     -0.1282232";
"  3S        1.106078      0.0000133     -0.0003214     -0.0009017      0.6238430";
"        P                    2P             3P ";
"  BASIS/ORB.ENERGY      -39.2632347     -4.1811775";
"              CUSP        1.0003050      0.9990665";
"  3P       56.718520      0.0003053     -0.0002517";
"  3P       44.589775     -0.0011084      0.0009351";
"  4P       23.080841      0.0025926      0.0075534";
"  2P       18.783225      0.4395912     -0.1973864";
"  3P       15.170932      0.5272539     -0.3500021";
"  4P       12.348433      0.1073302     -0.1608848";
"  2P        5.638567      0.0110555      0.6182304";
"  3P        4.583586     -0.0009628      0.4012290";
"  2P        2.907812      0.0009560      0.2856661";
"  3P        1.106078     -0.0000058      0.0005108";
"        D                    3D ";
"  BASIS/ORB.ENERGY       -1.1247225";
"              CUSP        0.9994315";
"  3D       28.846191      0.0011930";
"  4D       22.109077      0.0056798";
"  3D        9.273020      0.1987342";
"  4D        7.528954      0.1730295";
"  3D        4.190940      0.4799928";
"  4D        3.116856      0.1915054";
"  3D        1.852033      0.1394555";
"  3D        1.106078      0.0005976";
""].
(** data.tar: cation/zr.cat:1-55 *)
Definition zr_cation : list string := [
"      ZIRCONIUM+   K(2)L(8)M(18)4S(2)4P(6)5S(1)4D(2), 4F                              ";
"";
"";
"";
"";
"   E = -3538.809302333";
"   T =  3538.809299988     V = -7077.618602321     V/T =    -2.000000001";
"";
"  ORBITAL ENERGIES AND EXPANSION COEFFICIENTS";
"        S                    1S             2S             3S             4S             5S ";
"  BASIS/ORB.ENERGY     -650.9437510    -91.6153963    -16.2921285     -2.6540124     -0.4444497";
"              CUSP        1.0003313      1.0002089      1.0003686      1.0005258      1.0005288";
"  2S       58.988353     -0.0249146     -0.0476167     -0.0235945     -0.0094099      0.0029843";
"  3S       50.489673     -0.0393088     -0.0679106     -0.0340347     -0.0136630      0.0043363";
"  1S       41.797820     -0.9241489     -0.2936026     -0.1219059     -0.0460527      0.0144250";
"  4S       29.344692      0.0346627      0.1421329      0.0791711      0.0319456     -0.0101868";
"  4S       20.990474      0.0181514      0.1466750      0.1844239      0.0923889     -0.0307207";
"  2S       18.163822     -0.0755356      0.6682452      0.3697017      0.1704706     -0.0565352";
"  2S       12.343777      0.0002656      0.1625641      0.0167871     -0.0781160      0.0345710";
"  3S        8.654904     -0.0002278     -0.0035853     -0.9371970     -0.4014439      0.1265748";
"  3S        6.409740      0.0002029      0.0021286     -0.2392804     -0.6471225      0.2632379";
"  4S        2.637269      0.0000935      0.0005251     -0.0017611     -0.0066072     -0.1537336";
"  2S        2.558706     -0.0001097     -0.0008104     -0.0004017      1.4622462     -0.7747059";
"  3S        1.619432     -0.0001487     -0.0006983      0.0023738      0.0251332     -0.4844275";
"  2S        0.942882      0.0001551      0.0006943     -0.0023132     -0.0183385      1.5531235";
"  3S        0.942815     -0.0000570     -0.0002534      0.0008540      0.0047692      0.1657494";
"        P                    2P             3P             4P ";
"  BASIS/ORB.ENERGY      -83.7166525    -13.2574632     -1.7238616";
"              CUSP        1.0009990      0.9998709      1.0001366";
"  2P       64.011332     -0.0037754      0.0025808     -0.0010762";
"  3P       51.677914     -0.0089619      0.0060609     -0.0025367";
"  2P       29.333676      0.3411613     -0.1518465      0.0530951";
"  3P       23.977773      0.3880556     -0.1461293      0.0432763";
"  3P       18.149720      0.2958210     -0.2646858      0.1174702";
"  3P       14.407147      0.0703046      0.0954824     -0.0734511";
"  3P        8.665279      0.0030787      0.7185904     -0.2442064";
"  3P        6.373664     -0.0001458      0.3632938     -0.4256628";
"  3P        3.175024      0.0000138      0.0057285      0.3825252";
"  2P        1.990389     -0.0000272     -0.0018345      0.8412707";
"  2P        0.942815      0.0000020      0.0001171      0.0055847";
"        D                    3D             4D ";
"  BASIS/ORB.ENERGY       -7.7537018     -0.5768903";
"              CUSP        0.9999989      0.9999287";
"  3D       39.278830      0.0024778     -0.0005023";
"  4D       31.447784      0.0092284     -0.0018692";
"  4D       19.678245      0.0252233     -0.0039917";
"  3D       12.159796      0.3525257     -0.0979810";
"  4D       10.898047      0.1835480     -0.0437676";
"  4D        8.338689      0.3667411     -0.1032314";
"  4D        5.968890      0.1714300     -0.1068578";
"  3D        3.563894      0.0192532      0.1772681";
"  3D        2.122982     -0.0004612      0.4789263";
"  3D        1.322001      0.0003320      0.4839674";
"  3D        0.942815     -0.0000739      0.0285444";
""].
(** data.tar: anion/al.an:1-32 *)
Definition al_anion : list string := [
"      ALUMINUM-   K(2)L(8)3S(2)3P(2), 3P                                              ";
"   E =  -241.878265202";
"   T =   241.878265187     V =  -483.756530389     V/T =    -2.000000000";
"   ORBITAL ENERGIES AND EXPANSION COEFFICIENTS";
"        S                    1S             2S             3S ";
"  BASIS/ORB.ENERGY      -58.3080991     -4.7169180     -0.2091064";
"              CUSP        1.0000670      1.0000219      1.0001668";
"  2S       36.399566     -0.0005862     -0.0001532      0.0000359";
"  1S       20.293399     -0.2745534      0.0179503      0.0004280";
"  2S       17.130849     -0.1936497      0.0252617     -0.0016231";
"  2S        9.373457      0.3281195      0.1929742     -0.0113958";
"  1S        8.282543     -0.8498816     -0.5672029      0.1869008";
"  2S        5.554571      0.0026152      0.3768408      0.0277493";
"  2S        3.854464     -0.0014977      0.7095238      0.0122557";
"  1S        2.087410      0.0003879      0.0306829     -0.9429818";
"  1S        0.811882     -0.0000525     -0.0008124      1.1632146";
"  1S        0.524197      0.0000287      0.0005450      0.2733734";
"  1S        0.200917     -0.0000032     -0.0000422      0.0024096";
"        P                    2P             3P ";
"  BASIS/ORB.ENERGY       -3.0257893     -0.0201837";
"              CUSP        1.0003122      0.9996203";
"  2P       35.478457     -0.0000463      0.0000070";
"  3P       15.221279     -0.0044618      0.0006386";
"  2P        9.147023      0.1384590     -0.0202861";
"  3P        7.667927      0.0994466     -0.0172449";
"  2P        4.286887      0.4739996     -0.0580203";
"  3P        2.732141     -0.2294286      0.0051942";
"  2P        2.504351      0.5686738     -0.1354115";
"  2P        1.009121      0.0010362      0.3306397";
"  2P        0.590791     -0.0000047      0.4862200";
"  2P        0.334303      0.0000596      0.3060346";
"  2P        0.200917     -0.0000031      0.0249529"].
(** data.tar: anion/as.an:1-48 *)
Definition as_anion : list string := [
"      ARSENIC-   K(2)L(8)M(18)4S(2)4P(4), 3P                                          ";
"   E = -2234.222936911";
"   T =  2234.222945522     V = -4468.445882434     V/T =    -1.999999996";
"  ORBITAL ENERGIES AND EXPANSION COEFFICIENTS";
"        S                    1S             2S             3S             4S ";
"  BASIS/ORB.ENERGY     -432.3229425    -56.0461496     -7.7652567     -0.4388616";
"              CUSP        1.0004906      1.0005452      1.0007522      1.0006366";
"  1S       54.379943     -0.0114407     -0.0464535     -0.0195849      0.0063761";
"  3S       40.312268      0.0205968      0.0502391      0.0215359     -0.0069607";
"  1S       33.668614      0.9791607      0.3937002      0.1581243     -0.0498408";
"  4S       22.964897     -0.0248538     -0.1034114     -0.0381069      0.0134196";
"  2S       13.839443      0.0637049     -0.8343164     -0.4212188      0.0844373";
"  3S       13.667421     -0.0270581     -0.1311350     -0.3198750      0.1125919";
"  3S        6.306807     -0.0117261      0.0674989      0.2082877      0.0476326";
"  2S        5.183466      0.0163492     -0.1061532      0.9440563     -0.4046830";
"  2S        3.465452     -0.0011458      0.0188074      0.2360044     -0.6373162";
"  2S        1.585163     -0.0002507      0.0189987      0.1766325      0.2844943";
"  2S        1.006385     -0.0003647      0.0204617      0.1905659     -0.2221690";
"  1S        0.884865      0.0007579     -0.0457405     -0.4253608      1.3331490";
"  1S        0.383821      0.0000044      0.0000530      0.0004741      0.0051822";
"        P                    2P             3P             4P ";
"  BASIS/ORB.ENERGY      -49.8904540     -5.6171331     -0.0736592";
"              CUSP        1.0009872      0.9991366      1.0006720";
"  2P       50.139883     -0.0061472      0.0038580     -0.0008612";
"  3P       40.762467     -0.0140127      0.0086129     -0.0019383";
"  2P       23.845046      0.3531616     -0.1689808      0.0350403";
"  3P       18.871367      0.4428732     -0.2054690      0.0412265";
"  3P       13.517094      0.2960448     -0.3025554      0.0694743";
"  2P        6.273065      0.0167162      0.6102879     -0.1635560";
"  3P        5.431821     -0.0028990      0.5229978     -0.1015518";
"  3P        3.943193      0.0008938      0.1452139     -0.1768701";
"  3P        1.157275      0.0002287     -0.0018831     -0.5636044";
"  2P        0.967964     -0.0002736      0.0037339      1.4163594";
"  2P        0.560220     -0.0000170     -0.0004695      0.2463488";
"  2P        0.383821      0.0000077      0.0001902      0.0171069";
"        D                    3D ";
"  BASIS/ORB.ENERGY       -1.8489532";
"              CUSP        1.0003812";
"  3D       32.077423      0.0012569";
"  4D       24.693333      0.0058336";
"  3D       10.836043      0.1209636";
"  3D        8.023980      0.1111971";
"  3D        6.771001      0.2610695";
"  3D        4.513535      0.4244801";
"  3D        2.963741      0.1916791";
"  3D        1.672180      0.0095066";
"  3D        0.383821      0.0000718";
""].
(** data.tar: anion/b.an:1-28 *)
Definition b_anion : list string := [
"      BORON-    1S(2)2S(2)2P(2), 3P                                                   ";
"   E =   -24.519221361";
"   T =    24.519221360     V =   -49.038442721     V/T =    -2.000000000";
"  ORBITAL ENERGIES AND EXPANSION COEFFICIENTS";
"        S                    1S             2S ";
"  BASIS/ORB.ENERGY       -7.4251668     -0.2426840";
"              CUSP        0.9999464      0.9997520";
"  2S       15.943800      0.0005772     -0.0001176";
"  1S        7.666923      0.2253930      0.0135701";
"  2S        6.168477      0.1429940      0.0352836";
"  1S        4.180044      0.6591629     -0.2012845";
"  1S        2.377138     -0.0000833     -0.4143896";
"  2S        2.095029      0.0010341      0.0986559";
"  1S        0.942132      0.0003328      0.8873742";
"  1S        0.623905      0.0001253      0.3004764";
"  1S        0.230077      0.0000050      0.0017500";
"        P                    2P ";
"  BASIS/ORB.ENERGY       -0.0264677";
"              CUSP        0.9999937";
"  3P       12.230333      0.0000408";
"  2P        5.660905      0.0059618";
"  3P        2.245340     -0.0527056";
"  2P        1.755314      0.2926410";
"  2P        1.007474      0.3761995";
"  2P        0.593488      0.3436074";
"  2P        0.353591      0.1755626";
"  2P        0.230077      0.0120746";
""].
(** data.tar: anion/br.an:1-48 *)
Definition br_anion : list string := [
"      BROMINE-   K(2)L(8)M(18)4S(2)4P(6), 1S                                          ";
"   E = -2572.536271045";
"   T =  2572.536270073     V = -5145.072541118     V/T =    -2.000000000";
"  ORBITAL ENERGIES AND EXPANSION COEFFICIENTS";
"        S                    1S             2S             3S             4S ";
"  BASIS/ORB.ENERGY     -489.7211076    -64.8610884     -9.5330584     -0.6859548";
"              CUSP        1.0004093      1.0001551      1.0004264      1.0003423";
"  1S       58.840306     -0.0150578     -0.0443478     -0.0188460      0.0066956";
"  3S       43.270254      0.0234986      0.0500429      0.0217071     -0.0076885";
"  1S       35.952413      0.9782386      0.3900522      0.1592105     -0.0551564";
"  4S       24.803745     -0.0264291     -0.1054679     -0.0377009      0.0138228";
"  2S       14.998407      0.0702309     -0.7780784     -0.3838960      0.0872892";
"  3S       14.991540     -0.0295224     -0.1802036     -0.3249610      0.1275577";
"  3S        6.938357     -0.0103410      0.0724452      0.4192798     -0.0020129";
"  2S        5.780359      0.0144823     -0.1198624      0.6001426     -0.2114816";
"  2S        4.192317     -0.0000133      0.0168493      0.3199792     -0.8345737";
"  2S        1.889531      0.0012247      0.0101188      0.1359506      0.4148850";
"  2S        1.231111      0.0011040      0.0100297      0.1335307     -0.0800800";
"  1S        1.095425     -0.0027171     -0.0239443     -0.3187011      1.1030590";
"  1S        0.527883      0.0000091      0.0000147      0.0002369      0.0061373";
"        P                    2P             3P             4P ";
"  BASIS/ORB.ENERGY      -58.2157441     -7.1404520     -0.1393300";
"              CUSP        1.0009333      0.9993407      0.9991340";
"  2P       53.913287     -0.0058597     -0.0037417     -0.0009852";
"  3P       43.927707     -0.0130567     -0.0082078     -0.0021588";
"  2P       25.707038      0.3418309      0.1669898      0.0418784";
"  3P       20.463051      0.4290415      0.2015111      0.0494357";
"  3P       14.724966      0.3135023      0.3080355      0.0858891";
"  2P        7.204263      0.0236377     -0.4961278     -0.1718187";
"  3P        6.238755     -0.0044939     -0.5952576     -0.1392965";
"  3P        4.593395      0.0014399     -0.1810018     -0.2545602";
"  3P        1.526346      0.0005042      0.0055083     -0.4752443";
"  2P        1.291162     -0.0006089     -0.0084526      1.3427977";
"  2P        0.769482     -0.0000392      0.0002975      0.2803135";
"  2P        0.527883      0.0000171     -0.0000505      0.0195208";
"        D                    3D ";
"  BASIS/ORB.ENERGY       -2.8820975";
"              CUSP        0.9999248";
"  3D       34.476213      0.0012191";
"  4D       26.582226      0.0056419";
"  3D       11.687116      0.1256612";
"  3D        8.714807      0.1527871";
"  3D        7.051196      0.2505389";
"  3D        4.996404      0.4183793";
"  3D        3.385056      0.1492843";
"  3D        1.843194      0.0056539";
"  3D        0.527883      0.0000481";
""].
(** data.tar: anion/cl.an:1-32 *)
Definition cl_anion : list string := [
"      CHLORINE-    1S(2)2S(2)2P(6)3S(2)3P(6), 1S                                      ";
"   E =  -459.576925241";
"   T =   459.576925415     V =  -919.153850656     V/T =    -2.000000000";
"  ORBITAL ENERGIES AND EXPANSION COEFFICIENTS";
"        S                    1S             2S             3S ";
"  BASIS/ORB.ENERGY     -104.5057420    -10.2294589     -0.7333806";
"              CUSP        0.9999835      0.9999461      0.9998023";
"  2S       50.991930     -0.0003374     -0.0000959      0.0000349";
"  1S       26.778785     -0.2263593      0.0297587     -0.0041815";
"  2S       22.840430     -0.1528670      0.0312668     -0.0055535";
"  2S       13.082044      0.3063227      0.1553444     -0.0132051";
"  1S       11.776618     -0.9125854     -0.5781005      0.2216085";
"  2S        6.686253      0.0008836      0.7009737      0.1088838";
"  2S        5.259265     -0.0015484      0.3956730     -0.3961622";
"  1S        3.223617      0.0009407      0.0183368     -0.9564042";
"  1S        1.606335     -0.0001036      0.0033983      0.9640923";
"  1S        1.129735      0.0000673      0.0002212      0.6906989";
"  1S        0.548276     -0.0000051      0.0000582      0.0051699";
"        P                    2P             3P ";
"  BASIS/ORB.ENERGY       -7.6958581     -0.1503032";
"              CUSP        1.0008518      0.9998417";
"  2P       44.014044     -0.0000596      0.0000173";
"  3P       20.735588     -0.0034904      0.0009464";
"  2P       12.212935      0.1197393     -0.0345178";
"  3P       10.853501      0.0486058     -0.0219891";
"  2P        6.290925      0.5956616     -0.0665949";
"  3P        4.135144     -0.1792224      0.1632088";
"  2P        3.807468      0.4467387     -0.4360400";
"  2P        2.067738      0.0008766      0.4274225";
"  2P        1.288075      0.0001823      0.4897304";
"  2P        0.805822     -0.0000258      0.2561310";
"  2P        0.548276      0.0000061      0.0169566"].
(** data.tar: anion/co.an:1-47 *)
Definition co_anion : list string := [
"      COBALT-   K(2)L(8)3S(2)3P(6)4S(2)3D(8), 3F                                      ";
"   E = -1381.351808853";
"   T =  1381.351808754     V = -2762.703617607     V/T =    -2.000000000";
"  ORBITAL ENERGIES AND EXPANSION COEFFICIENTS";
"        S                    1S             2S             3S             4S ";
"  BASIS/ORB.ENERGY     -282.6729336    -34.4531744     -4.1207854     -0.0197090";
"              CUSP        1.0002725      0.9996646      0.9997010      0.9995828";
"  1S       65.933940      0.0020523      0.0021337      0.0010735      0.0001676";
"  3S       38.602449     -0.0118902     -0.0095766     -0.0050393     -0.0007909";
"  1S       28.457199     -0.8430505     -0.1427437     -0.0522809     -0.0072314";
"  3S       19.680631      0.0639260      0.0467414      0.0135842      0.0013471";
"  2S       11.730375      0.1458467      1.2176181      0.2578680      0.0285847";
"  1S       10.183244     -0.3349229     -0.6597339     -0.1297285     -0.0136158";
"  2S        8.847546      0.0050553      0.3143338      0.8847775      0.1376758";
"  2S        3.908452      0.0003082      0.0078485     -0.6387890     -0.0919661";
"  1S        2.781132     -0.0003863     -0.0061489     -0.8508921     -0.0249661";
"  1S        1.720412      0.0000404      0.0007070     -0.0142082     -0.3472814";
"  2S        0.424477      0.0000031      0.0000646     -0.0004534     -0.4315754";
"  1S        0.328149     -0.0000044     -0.0000812      0.0005051      1.3746625";
"  1S        0.198540      0.0000001     -0.0000019      0.0000421      0.1611951";
"        P                    2P             3P ";
"  BASIS/ORB.ENERGY      -29.7092708     -2.6179963";
"              CUSP        1.0006873      1.0004597";
"  2P       55.920505      0.0003695      0.0001621";
"  3P       37.164751      0.0028970      0.0012756";
"  2P       18.833573     -0.1807020     -0.0209455";
"  3P       15.033140     -0.1445929      0.0393582";
"  2P       10.752655     -0.4880568     -0.3234830";
"  2P        8.611029     -0.2231426     -0.2817259";
"  3P        3.713220      0.0082193     -0.5216942";
"  2P        3.180785     -0.0134304      1.6521114";
"  2P        1.908317      0.0000714      0.0466046";
"  2P        0.759136     -0.0000136      0.0009828";
"  2P        0.198540      0.0000018      0.0000134";
"        D                    3D ";
"  BASIS/ORB.ENERGY       -0.2494591";
"              CUSP        0.9998764";
"  3D       24.534659      0.0014348";
"  4D       18.971063      0.0062919";
"  3D        8.326788      0.0951075";
"  3D        5.499398      0.2817124";
"  3D        3.497383      0.3561907";
"  3D        2.178992      0.2958872";
"  3D        1.360938      0.1462523";
"  3D        0.850361      0.0209828";
"  3D        0.198540      0.0000471";
""].
(** data.tar: anion/cr.an:1-47 *)
Definition cr_anion : list string := [
"      CHROMIUM-   K(2)L(8)3S(2)3P(6)4S(2)3D(5), 6S                                    ";
"   E = -1043.337096348";
"   T =  1043.337096790     V = -2086.674193137     V/T =    -2.000000000";
"  ORBITAL ENERGIES AND EXPANSION COEFFICIENTS";
"        S                    1S             2S             3S             4S ";
"  BASIS/ORB.ENERGY     -220.2255817    -26.0472445     -3.1246886     -0.0166367";
"              CUSP        1.0003223      0.9995249      0.9997540      0.9997209";
"  1S       58.382226      0.0022693      0.0025148      0.0010605      0.0001578";
"  3S       34.087668     -0.0136270     -0.0114460     -0.0050188     -0.0007501";
"  1S       25.333158     -0.8411367     -0.1534166     -0.0566354     -0.0080491";
"  3S       17.224734      0.0674976      0.0512647      0.0245196      0.0035125";
"  2S       10.248845      0.1387798      1.1326040      0.1725794      0.0151069";
"  1S        9.051773     -0.3300561     -0.5901103     -0.1329834     -0.0133734";
"  2S        7.805308      0.0019854      0.3346561      0.8441142      0.1389464";
"  2S        3.374424      0.0008220      0.0096691     -0.7922747     -0.1084656";
"  1S        2.250278     -0.0011009     -0.0086485     -0.6332073      0.0288549";
"  1S        1.494155      0.0002161      0.0016700      0.0074514     -0.4012830";
"  2S        0.380715      0.0000282      0.0002018      0.0008438     -0.4289528";
"  1S        0.296594     -0.0000351     -0.0002495     -0.0011308      1.3865670";
"  1S        0.182410     -0.0000013     -0.0000101     -0.0000042      0.1603936";
"        P                    2P             3P ";
"  BASIS/ORB.ENERGY      -21.9778185     -1.8913690";
"              CUSP        1.0008698      1.0006533";
"  2P       51.154838      0.0002672      0.0001133";
"  3P       32.222325      0.0029329      0.0012387";
"  2P       16.599417     -0.1590536     -0.0172807";
"  3P       13.016410     -0.1021738      0.0510268";
"  2P        9.775073     -0.4606878     -0.2360597";
"  2P        7.649953     -0.3136037     -0.3576656";
"  3P        3.078973      0.0081783     -0.5557029";
"  2P        2.639500     -0.0127672      1.6917057";
"  2P        1.400075      0.0000571      0.0219550";
"  2P        0.473342     -0.0000045      0.0004462";
"  2P        0.182410      0.0000014     -0.0000064";
"        D                    3D ";
"  BASIS/ORB.ENERGY       -0.2131044";
"              CUSP        1.0003221";
"  3D       21.492999      0.0013654";
"  4D       16.491301      0.0061977";
"  3D        7.450483      0.0623358";
"  3D        4.896508      0.2438060";
"  3D        3.106206      0.3547136";
"  3D        1.942927      0.3327021";
"  3D        1.224260      0.1708187";
"  3D        0.767462      0.0233789";
"  3D        0.182410      0.0000570";
""].
(** data.tar: anion/cu.an:1-46 *)
Definition cu_anion : list string := [
"      COPPER-   K(2)L(8)3S(2)3P(6)4S(2)3D(10), 1S                                     ";
"   E = -1638.964144099";
"   T =  1638.964144144     V = -3277.928288243     V/T =    -2.000000000";
"  ORBITAL ENERGIES AND EXPANSION COEFFICIENTS";
"        S                    1S             2S             3S             4S ";
"  BASIS/ORB.ENERGY     -328.5995978    -40.6264473     -4.8182965     -0.0210827";
"              CUSP        1.0002316      0.9996836      0.9995493      0.9993210";
"  1S       72.014363      0.0017678      0.0017646     -0.0009889      0.0001556";
"  3S       41.772406     -0.0105872     -0.0082616      0.0048386     -0.0007636";
"  1S       30.543805     -0.8421099     -0.1342454      0.0488660     -0.0065326";
"  3S       21.425299      0.0621223      0.0435913     -0.0087026      0.0004143";
"  2S       12.757196      0.1545816      1.2541381     -0.2906574      0.0329187";
"  1S       10.917885     -0.3452067     -0.7100510      0.1455132     -0.0165002";
"  2S        9.613085      0.0079966      0.3240586     -0.8925512      0.1312451";
"  2S        4.283572     -0.0001755      0.0063245      0.6042882     -0.0922375";
"  1S        3.026154      0.0002562     -0.0038509      0.9000576     -0.0264074";
"  1S        1.863101     -0.0000273      0.0004790      0.0134554     -0.3223327";
"  2S        0.444541     -0.0000040      0.0000366      0.0002633     -0.4289288";
"  1S        0.342667      0.0000048     -0.0000453     -0.0002741      1.3605195";
"  1S        0.205342      0.0000002     -0.0000013     -0.0000319      0.1630179";
"        P                    2P             3P ";
"  BASIS/ORB.ENERGY      -35.4252359     -3.1304996";
"              CUSP        1.0004027      0.9999074";
"  2P       60.062765      0.0004068      0.0001927";
"  3P       40.706627      0.0027730      0.0013124";
"  2P       20.710188     -0.1571512     -0.0175659";
"  3P       16.615205     -0.1214073      0.0362728";
"  2P       11.849238     -0.5375809     -0.3247554";
"  2P        9.337764     -0.2166107     -0.2970315";
"  3P        4.216232      0.0083744     -0.4556855";
"  2P        3.608526     -0.0141787      1.5545330";
"  2P        2.348113      0.0000999      0.0956067";
"  2P        0.992864     -0.0000250      0.0017393";
"  2P        0.205342      0.0000019      0.0000250";
"        D                    3D ";
"  BASIS/ORB.ENERGY       -0.2962149";
"              CUSP        0.9997199";
"  3D       26.128341      0.0015513";
"  4D       20.393292      0.0063905";
"  3D        8.948380      0.1145629";
"  3D        5.893469      0.2994371";
"  3D        3.754950      0.3521206";
"  3D        2.346669      0.2778605";
"  3D        1.470002      0.1337351";
"  3D        0.920877      0.0185435";
"  3D        0.205342      0.0000418"].
(** data.tar: anion/f.an:1-32 *)
Definition f_anion : list string := [
"      FLUORINE-   1S(2)2S(2)2P(6), 1S                                                 ";
"";
"";
"";
"   E =   -99.459453907";
"   T =    99.459453916     V =  -198.918907823     V/T =    -2.000000000";
"";
"  ORBITAL ENERGIES AND EXPANSION COEFFICIENTS";
"        S                    1S             2S ";
"  BASIS/ORB.ENERGY      -25.8296248     -1.0745878";
"              CUSP        0.9999701      0.9997582";
"  2S       27.859461     -0.0004533     -0.0001162";
"  1S       14.198763     -0.1771801      0.0165729";
"  2S       11.780767     -0.1147043      0.0264193";
"  1S        8.031062     -0.7054388     -0.1725638";
"  1S        5.581766     -0.0240787     -0.3974454";
"  2S        3.381103     -0.0016901      0.1299886";
"  1S        1.822975     -0.0002417      0.8655486";
"  1S        1.273691     -0.0003235      0.2209765";
"  1S        0.601642      0.0000010      0.0013423";
"        P                    2P ";
"  BASIS/ORB.ENERGY       -0.1809868";
"              CUSP        1.0000059";
"  3P       21.725428      0.0000591";
"  2P       11.133649      0.0041123";
"  3P        4.578593     -0.0953385";
"  2P        3.691125      0.4339485";
"  2P        2.175263      0.3711336";
"  2P        1.339077      0.2848333";
"  2P        0.854546      0.1279481";
"  2P        0.601642      0.0077227";
""].
(** data.tar: anion/fe.an:1-46 *)
Definition fe_anion : list string := [
"      IRON-   K(2)L(8)3S(2)3P(6)4S(2)3D(7), 4F                                        ";
"   E = -1262.367073348";
"   T =  1262.367073364     V = -2524.734146712     V/T =    -2.000000000";
"   ORBITAL ENERGIES AND EXPANSION COEFFICIENTS";
"        S                    1S             2S             3S             4S ";
"  BASIS/ORB.ENERGY     -260.9989271    -31.5386281     -3.7830877     -0.0188609";
"              CUSP        1.0003015      0.9996212      0.9997286      0.9996327";
"  1S       63.375942      0.0020808      0.0022667      0.0010649      0.0001649";
"  3S       37.071868     -0.0122937     -0.0102322     -0.0050139     -0.0007803";
"  1S       27.408666     -0.8425080     -0.1455793     -0.0539250     -0.0075731";
"  3S       18.882781      0.0643160      0.0459403      0.0174006      0.0020915";
"  2S       11.270772      0.1442801      1.1801846      0.2163860      0.0224245";
"  1S        9.806087     -0.3340886     -0.6409644     -0.1430997     -0.0157770";
"  2S        8.556712      0.0048405      0.3361873      0.8668394      0.1375414";
"  2S        3.753679      0.0003360      0.0087937     -0.7345330     -0.1071365";
"  1S        2.551715     -0.0004300     -0.0072711     -0.7176191      0.0166856";
"  1S        1.669625      0.0000744      0.0012345     -0.0011431     -0.3757249";
"  2S        0.409589      0.0000094      0.0001299      0.0005083     -0.4361850";
"  1S        0.317716     -0.0000116     -0.0001597     -0.0006988      1.3853983";
"  1S        0.194221     -0.0000004     -0.0000062      0.0000081      0.1576999";
"        P                    2P             3P ";
"  BASIS/ORB.ENERGY      -27.0209991     -2.3709688";
"              CUSP        1.0004600      1.0005048";
"  2P       54.334408      0.0003272      0.0001317";
"  3P       35.288558      0.0029407      0.0012041";
"  2P       17.824366     -0.2008667     -0.0243557";
"  3P       14.193502     -0.1663875      0.0393168";
"  2P       10.165385     -0.4400364     -0.3173177";
"  2P        8.274472     -0.2318938     -0.2751673";
"  3P        3.490356      0.0082595     -0.5339280";
"  2P        2.994543     -0.0132899      1.6666809";
"  2P        1.738636      0.0000526      0.0365913";
"  2P        0.651020     -0.0000084      0.0007781";
"  2P        0.194221      0.0000015      0.0000004";
"        D                    3D ";
"  BASIS/ORB.ENERGY       -0.2308898";
"              CUSP        1.0004469";
"  3D       23.619037      0.0013969";
"  4D       18.190090      0.0062623";
"  3D        8.022500      0.0846688";
"  3D        5.298464      0.2711343";
"  3D        3.366204      0.3568111";
"  3D        2.098778      0.3052414";
"  3D        1.315008      0.1540352";
"  3D        0.824717      0.0232419";
"  3D        0.194221      0.0000582"].
(** data.tar: anion/ga.an:1-48 *)
Definition ga_anion : list string := [
"      GALLIUM-   K(2)L(8)M(18)4S(2)4P(2), 3P                                          ";
"   E = -1923.260378638";
"   T =  1923.260378800     V = -3846.520757438     V/T =    -2.000000000";
"  ORBITAL ENERGIES AND EXPANSION COEFFICIENTS";
"        S                    1S             2S             3S             4S ";
"  BASIS/ORB.ENERGY     -378.6255497    -47.9752238     -6.2011076     -0.2396711";
"              CUSP        1.0001844      0.9996144      0.9995434      0.9998256";
"  1S       77.246394      0.0016949      0.0017580      0.0008658      0.0001456";
"  3S       44.687244     -0.0101154     -0.0083853     -0.0042377     -0.0007059";
"  1S       32.588265     -0.8461626     -0.1174274     -0.0504926     -0.0126634";
"  3S       22.965766      0.0573561      0.0178202      0.0160458      0.0081243";
"  2S       14.682166      0.0575343      0.8250599      0.0076372     -0.0334700";
"  1S       14.657637     -0.2422388     -0.5835042     -0.3177262     -0.0521672";
"  2S       11.466970     -0.0061075      0.5551403      0.7089844      0.2273514";
"  1S        6.395287      0.0011999      0.0466384      1.4378066      0.2509371";
"  1S        3.763203     -0.0001216      0.0010812     -2.2780802     -0.1946874";
"  1S        2.189549      0.0000328      0.0005665     -0.0186189     -0.9308754";
"  2S        0.751315      0.0000074      0.0001285     -0.0005361     -0.6545178";
"  1S        0.649165     -0.0000112     -0.0001966      0.0007160      2.0211906";
"  1S        0.189877     -0.0000003     -0.0000054      0.0000122      0.0031324";
"        P                    2P             3P             4P ";
"  BASIS/ORB.ENERGY      -42.3011389     -4.2895131     -0.0180267";
"              CUSP        0.9998009      1.0009354      0.9994408";
"  2P       48.751647      0.0046534      0.0014404     -0.0001581";
"  3P       38.849002      0.0119772      0.0038674     -0.0004214";
"  2P       22.797614     -0.2345141     -0.0503483      0.0055066";
"  3P       17.677399     -0.2684543     -0.0208644      0.0011513";
"  2P       11.175979     -0.5526942     -0.5392629      0.0743668";
"  2P        4.872316     -0.0088323      0.8743654     -0.0955657";
"  3P        4.147271      0.0032718      0.2438786      0.0156012";
"  2P        2.887329     -0.0021492      0.1213724     -0.1667349";
"  2P        1.002528      0.0001111      0.0019407      0.3475419";
"  2P        0.579895     -0.0000787     -0.0007387      0.4664435";
"  2P        0.325798      0.0000403      0.0003525      0.3096848";
"  2P        0.189877     -0.0000127     -0.0001016      0.0278590";
"        D                    3D ";
"  BASIS/ORB.ENERGY       -1.0003068";
"              CUSP        0.9999149";
"  3D       27.726545      0.0017553";
"  4D       21.855074      0.0067472";
"  3D        9.651325      0.1380717";
"  3D        6.348006      0.3353792";
"  3D        4.046633      0.3846761";
"  3D        2.625580      0.2433383";
"  3D        1.710788      0.0417798";
"  3D        0.770866      0.0006191";
"  3D        0.189877      0.0000328";
""].
(** data.tar: anion/ge.an:1-48 *)
Definition ge_anion : list string := [
"      GERMANIUM-   K(2)L(8)M(18)4S(2)4P(3), 4S                                        ";
"   E = -2075.394739699";
"   T =  2075.394740002     V = -4150.789479701     V/T =    -2.000000000";
"  ORBITAL ENERGIES AND EXPANSION COEFFICIENTS";
"        S                    1S             2S             3S             4S ";
"  BASIS/ORB.ENERGY     -404.9923365    -51.8981715     -6.9384115     -0.3199568";
"              CUSP        1.0001048      0.9993745      0.9990957      0.9994029";
"  1S       79.613972      0.0017574      0.0018709     -0.0009778      0.0001840";
"  3S       45.818924     -0.0105069     -0.0090271      0.0047956     -0.0008848";
"  1S       33.572086     -0.8526563     -0.1123216      0.0514635     -0.0148718";
"  3S       23.611760      0.0528824      0.0066706     -0.0130737      0.0095067";
"  2S       15.443246      0.0466150      0.7862753      0.0072033     -0.0457659";
"  1S       15.440255     -0.2241071     -0.5875993      0.3139092     -0.0496572";
"  2S       11.983485     -0.0035038      0.6038437     -0.7168634      0.2625505";
"  1S        6.428350      0.0005826      0.0469915     -1.6809075      0.2651306";
"  1S        4.034480     -0.0000460     -0.0013647      2.5018795     -0.0462622";
"  1S        2.518672      0.0000172      0.0012179      0.0283244     -1.2042039";
"  2S        0.914403      0.0000040      0.0002602      0.0003050     -0.5018708";
"  1S        0.791321     -0.0000062     -0.0004013     -0.0001036      1.9558819";
"  1S        0.344495     -0.0000003     -0.0000166     -0.0000186      0.0042540";
"        P                    2P             3P             4P ";
"  BASIS/ORB.ENERGY      -45.9843927     -4.9099816     -0.0593385";
"              CUSP        0.9995578      1.0009552      1.0003390";
"  2P       51.327548      0.0044823      0.0013748     -0.0002089";
"  3P       40.786772      0.0116359      0.0037326     -0.0005687";
"  2P       23.838958     -0.2242463     -0.0475567      0.0068204";
"  3P       18.479328     -0.2609266     -0.0196224      0.0008369";
"  2P       11.670561     -0.5680372     -0.5480380      0.1028912";
"  2P        5.013203     -0.0098169      0.8828678     -0.0988367";
"  3P        4.410244      0.0058178      0.1962189      0.0630848";
"  2P        3.203385     -0.0043946      0.1531944     -0.3141338";
"  2P        1.275961      0.0004199      0.0023050      0.2719311";
"  2P        0.899637     -0.0003352     -0.0007029      0.4497300";
"  2P        0.555655      0.0001247      0.0000929      0.3904679";
"  2P        0.344495     -0.0000306     -0.0000304      0.0339316";
"        D                    3D ";
"  BASIS/ORB.ENERGY       -1.3829963";
"              CUSP        0.9999854";
"  3D       29.320580      0.0016417";
"  4D       22.954779      0.0066888";
"  3D       10.041271      0.1468737";
"  3D        6.615628      0.3437621";
"  3D        4.263649      0.3884478";
"  3D        2.969233      0.1768956";
"  3D        2.331130      0.0651775";
"  3D        1.493057      0.0081431";
"  3D        0.344495      0.0000998";
""].
(** data.tar: anion/i.an:1-55 *)
Definition i_anion : list string := [
"      IODINE-   K(2)L(8)M(18)4S(2)4P(6)5S(2)4D(10)5P(6), 1S                           ";
"   E = -6918.075874765";
"   T =  6918.075851667     V =-13836.151726432     V/T =    -2.000000003";
"  ORBITAL ENERGIES AND EXPANSION COEFFICIENTS";
"        S                    1S             2S             3S             4S             5S ";
"  BASIS/ORB.ENERGY    -1176.8920583   -180.6553176    -37.6406721     -6.9506460     -0.5562936";
"              CUSP        1.0001713      1.0001405      1.0002501      1.0002888      1.0006713";
"  1S       99.544887     -0.0155173     -0.0137756     -0.0071152      0.0036292     -0.0013745";
"  3S       72.197354      0.0204136      0.0169859      0.0090567     -0.0047029      0.0018428";
"  1S       56.329742      0.9399270      0.3257493      0.1474089     -0.0674541      0.0227067";
"  3S       37.245551     -0.1302187     -0.2566192     -0.0988619      0.0334948     -0.0068857";
"  3S       27.923028     -0.0754311     -0.5308314     -0.3127303      0.1756113     -0.0680776";
"  2S       27.919883      0.2498953      0.0284192      0.0939526     -0.0209970     -0.0045298";
"  2S       17.738763      0.0106324     -0.3235624     -0.4704189      0.1733543     -0.0220064";
"  3S       12.821800     -0.0023242      0.0330144      1.0417484     -0.5273469      0.1975418";
"  4S       12.583482      0.0013565     -0.0221871      0.0968833     -0.3864838      0.1998568";
"  3S        5.587956      0.0010172     -0.0221393     -0.3641140      1.3693752     -0.2099566";
"  2S        4.521078     -0.0018215      0.0387951      0.6962698     -0.9461459      0.8604314";
"  2S        3.895939      0.0004409     -0.0087909     -0.1795455      0.8238781     -1.6350660";
"  2S        1.664154     -0.0000053      0.0000158      0.0024659     -0.0050630      0.9152105";
"  2S        1.112226      0.0000025      0.0000052     -0.0012446      0.0041826      0.4586327";
"  1S        0.508250     -0.0000006     -0.0000043      0.0003127     -0.0010541      0.0106418";
"        P                    2P             3P             4P             5P ";
"  BASIS/ORB.ENERGY     -169.3666025    -32.8288953     -5.1804600     -0.1291592";
"              CUSP        1.0009482      1.0009370      1.0000462      0.9994919";
"  2P       66.299859      0.0152038      0.0240919     -0.0185268      0.0059575";
"  3P       58.616682      0.0176077      0.0272491     -0.0207655      0.0066626";
"  3P       38.696883      0.0987903      0.1287775     -0.0977567      0.0313864";
"  2P       27.346853     -0.9311461     -0.5933682      0.3294933     -0.0965045";
"  3P       22.234664     -0.2257140     -0.1375959      0.0204090      0.0025838";
"  3P       12.733619      0.0079736      0.5140604      0.3046644     -0.1395201";
"  3P       11.610025     -0.0120916      0.4803682     -1.0946434      0.4044950";
"  3P        5.190359     -0.0090579     -0.3568584      0.9550797     -0.1209106";
"  2P        4.147298      0.0139820      0.6411659     -0.2633789      0.2882797";
"  2P        3.429415     -0.0022583     -0.1545951      0.5543373     -0.8634674";
"  3P        2.407831     -0.0001386      0.0057791     -0.0024413      0.0656231";
"  2P        1.325387      0.0001258     -0.0018849      0.0036966      0.7009569";
"  2P        0.792179     -0.0000501      0.0004812     -0.0007063      0.4626981";
"  2P        0.508250      0.0000139     -0.0001093      0.0001654      0.0345341";
"        D                    3D             4D ";
"  BASIS/ORB.ENERGY      -23.9921551     -2.1081278";
"              CUSP        0.9992250      1.0008870";
"  3D       58.715602      0.0007950     -0.0005190";
"  4D       45.423957      0.0037971     -0.0025554";
"  3D       25.126481     -0.0329864      0.0317327";
"  3D       21.192448      0.1667721     -0.1009594";
"  3D       13.004131      0.5247984     -0.1126362";
"  3D       10.015551      0.2793710     -0.4702185";
"  3D        8.247493      0.1079769      0.2106314";
"  3D        4.658977      0.0029290      0.6741838";
"  3D        3.214866     -0.0007920      0.3930051";
"  3D        1.994610      0.0001308      0.0339939";
"  3D        0.998746     -0.0000396      0.0001353";
"  3D        0.508250      0.0000103      0.0001844";
""].
(** data.tar: anion/in.an:1-55 *)
Definition in_anion : list string := [
"      INDIUM-   K(2)L(8)M(18)4S(2)4P(6)5S(2)4D(10)5P(2), 3P                           ";
"   E = -5740.175135526";
"   T =  5740.175132802     V =-11480.350268328     V/T =    -2.000000000";
"  ORBITAL ENERGIES AND EXPANSION COEFFICIENTS";
"        S                    1S             2S             3S             4S             5S ";
"  BASIS/ORB.ENERGY     -997.6146905   -149.2096277    -29.4387755     -4.7904249     -0.1971823";
"              CUSP        1.0001959      1.0000677      1.0002493      1.0003473      1.0008463";
"  1S       93.002524     -0.0136331     -0.0137526     -0.0070897      0.0033862     -0.0009792";
"  3S       66.567623      0.0201676      0.0186650      0.0099868     -0.0048606      0.0014548";
"  1S       51.788992      0.9432129      0.3270770      0.1457824     -0.0632856      0.0165804";
"  3S       33.585927     -0.1274000     -0.2783703     -0.1021796      0.0335642     -0.0058906";
"  3S       24.979585     -0.0768179     -0.5293806     -0.3449057      0.1803808     -0.0522405";
"  2S       24.848421      0.2443424     -0.0425397      0.0281979      0.0075567     -0.0085042";
"  2S       15.425961      0.0091827     -0.2375412     -0.3404917      0.0695759      0.0041360";
"  3S       11.634093     -0.0027588      0.0431033      0.9149678     -0.1568576      0.0020087";
"  3S        9.743264      0.0018663     -0.0351150      0.2893303     -0.9937052      0.3736605";
"  3S        4.673739      0.0010504     -0.0268889     -0.1928670      0.3577930      0.0539584";
"  2S        3.845632     -0.0015629      0.0391641      0.2975982      0.9446220     -0.3724439";
"  2S        2.839156      0.0001430     -0.0031227     -0.0276010      0.1809834     -0.4171006";
"  2S        1.128559     -0.0000063      0.0000755      0.0011649     -0.0022642      0.8159567";
"  2S        0.694271      0.0000029     -0.0000278     -0.0005256      0.0012266      0.3900812";
"  1S        0.206907     -0.0000006      0.0000043      0.0000970     -0.0002209      0.0065491";
"        P                    2P             3P             4P             5P ";
"  BASIS/ORB.ENERGY     -138.9862647    -25.1886875     -3.3215620     -0.0214053";
"              CUSP        1.0008776      1.0008911      0.9999838      0.9993002";
"  2P       60.694232      0.0152730      0.0281523     -0.0193177      0.0034570";
"  3P       53.463933      0.0184303      0.0329492     -0.0224288      0.0040055";
"  3P       35.070087      0.1062307      0.1554702     -0.1052887      0.0188183";
"  2P       24.998843     -0.9457889     -0.6259674      0.3178870     -0.0533416";
"  3P       20.280370     -0.2172463     -0.1034032     -0.0060455      0.0041435";
"  3P       11.448377     -0.0023621      0.7790752     -0.3014483      0.0465130";
"  3P        9.049896     -0.0013043      0.3166823     -0.6886549      0.1377247";
"  3P        4.240247     -0.0026943     -0.0937828      0.0725038      0.0425998";
"  2P        3.537174      0.0037452      0.1438543      1.1050416     -0.2226286";
"  2P        2.545946     -0.0000888     -0.0089575      0.2402464     -0.1571558";
"  3P        1.284620     -0.0000184      0.0003006      0.0017357      0.1844677";
"  2P        0.622346      0.0000175     -0.0001943     -0.0000395      0.5613938";
"  2P        0.345918     -0.0000093      0.0000845      0.0000661      0.3513951";
"  2P        0.206907      0.0000031     -0.0000263     -0.0000098      0.0282851";
"        D                    3D             4D ";
"  BASIS/ORB.ENERGY      -17.4039443     -0.8771545";
"              CUSP        0.9996336      1.0007898";
"  3D       53.933298      0.0007767     -0.0003690";
"  4D       41.326188      0.0039130     -0.0019110";
"  3D       20.719616     -0.0926586      0.0680920";
"  3D       19.105212      0.2426822     -0.1347461";
"  3D       11.620626      0.5017912     -0.1106508";
"  3D        8.696235      0.3388667     -0.3419774";
"  3D        6.701076      0.0614034      0.1446935";
"  3D        4.157477      0.0022610      0.4883661";
"  3D        2.726803     -0.0002587      0.4795704";
"  3D        1.795842      0.0000707      0.1361193";
"  3D        0.878993     -0.0000133      0.0027374";
"  3D        0.206907      0.0000009      0.0000421";
""].
(** data.tar: anion/k.an:1-35 *)
Definition k_anion : list string := [
"      POTASSIUM-   K(2)L(8)3S(2)3P(6)4S(2), 1S                                        ";
"   E =  -599.161916516";
"   T =   599.161916638     V = -1198.323833153     V/T =    -2.000000000";
"  ORBITAL ENERGIES AND EXPANSION COEFFICIENTS";
"        S                    1S             2S             3S             4S ";
"  BASIS/ORB.ENERGY     -133.4135083    -14.3703853     -1.6291547     -0.0103206";
"              CUSP        1.0002642      0.9994227      1.0002597      1.0007648";
"  1S       49.991524     -0.0018856      0.0015077      0.0004624      0.0000382";
"  3S       27.435790      0.0151693     -0.0090133     -0.0029780     -0.0002501";
"  1S       20.244148      0.8145563     -0.1592138     -0.0511508     -0.0068196";
"  3S       13.647317     -0.0871817      0.0959068      0.0398755      0.0067256";
"  2S        7.416191     -0.2673035      1.2653769      0.2452620      0.0223608";
"  2S        5.499569     -0.0999176      0.3342032      0.7481786      0.1311444";
"  1S        5.499062      0.5632550     -0.7131464     -0.0941254      0.0014498";
"  2S        2.240122     -0.0062089      0.0144756     -0.6296306     -0.0234439";
"  1S        1.788620      0.0103345     -0.0195052     -0.8065928     -0.0836240";
"  1S        0.934075     -0.0004410      0.0004432     -0.0137600     -0.4636688";
"  2S        0.304652     -0.0001566      0.0000610     -0.0032022     -0.4012869";
"  1S        0.236660      0.0002021     -0.0000898      0.0042643      1.4037720";
"  1S        0.143670      0.0000036      0.0000035      0.0000134      0.1847155";
"        P                    2P             3P ";
"  BASIS/ORB.ENERGY      -11.3997090     -0.8347531";
"              CUSP        1.0007153      0.9992661";
"  2P       46.062507      0.0000984      0.0000377";
"  3P       24.192699      0.0030373      0.0010852";
"  2P       13.842159     -0.0674562     -0.0119085";
"  3P        9.350886      0.0899587      0.0672649";
"  2P        7.517371     -0.7690332     -0.2083988";
"  2P        5.428016     -0.2810664     -0.3423672";
"  3P        2.596674      0.0036192     -0.1433941";
"  2P        2.165503     -0.0070662      0.8844800";
"  2P        1.542162      0.0007138      0.4245646";
"  2P        0.604923     -0.0000165      0.0043768";
"  2P        0.143670      0.0000032      0.0001038";
""].
(** data.tar: anion/li.an:1-21 *)
Definition li_anion : list string := [
"      LITHIUM- 1S(2)2S(2), 1S                                                         ";
"";
"";
"";
"   E =    -7.428232059";
"   T =     7.428232059     V =   -14.856464118     V/T =    -2.000000000";
"";
"  ORBITAL ENERGIES AND EXPANSION COEFFICIENTS";
"        S                    1S             2S ";
"  BASIS/ORB.ENERGY       -2.3227966     -0.0145377";
"              CUSP        1.0001300      0.9991387";
"  1S       10.425629      0.0013502      0.0001816";
"  1S        5.519814     -0.0530207     -0.0043493";
"  1S        3.412780     -0.1534049     -0.0298684";
"  1S        2.409164     -0.8060139     -0.0112505";
"  1S        1.431054     -0.0043575     -0.2120289";
"  2S        0.712248      0.0002544      0.1374335";
"  1S        0.325496     -0.0001533      0.7291380";
"  2S        0.246090      0.0001577      0.1614524";
"  1S        0.170515     -0.0001454      0.0987841";
""].
(** data.tar: anion/mn.an:1-47 *)
Definition mn_anion : list string := [
"      MANGANESE-   K(2)L(8)3S(2)3P(6)4S(2)3D(6), 5D                                   ";
"   E = -1149.729109810";
"   T =  1149.729109808     V = -2299.458219618     V/T =    -2.000000000";
"   ORBITAL ENERGIES AND EXPANSION COEFFICIENTS";
"        S                    1S             2S             3S             4S ";
"  BASIS/ORB.ENERGY     -240.1863762    -28.7403951     -3.4537643     -0.0179248";
"              CUSP        1.0002966      0.9995714      0.9997671      0.9996928";
"  1S       60.922088      0.0021852      0.0023823      0.0010296      0.0001587";
"  3S       35.578992     -0.0129756     -0.0108415     -0.0048743     -0.0007548";
"  1S       26.382693     -0.8404647     -0.1482076     -0.0551836     -0.0078539";
"  3S       18.099137      0.0655907      0.0462515      0.0220359      0.0029393";
"  2S       10.799060      0.1442246      1.1452386      0.1777468      0.0166110";
"  1S        9.428930     -0.3362495     -0.6213723     -0.1466705     -0.0164642";
"  2S        8.235703      0.0042306      0.3538115      0.8580661      0.1384264";
"  2S        3.569622      0.0004766      0.0097765     -0.7990482     -0.1171210";
"  1S        2.363017     -0.0006336     -0.0087452     -0.6291384      0.0495656";
"  1S        1.603296      0.0001352      0.0018265      0.0079291     -0.4042321";
"  2S        0.397321      0.0000160      0.0001945      0.0008665     -0.4305054";
"  1S        0.309012     -0.0000198     -0.0002392     -0.0011630      1.3831057";
"  1S        0.189340     -0.0000007     -0.0000098     -0.0000015      0.1599965";
"        P                    2P             3P ";
"  BASIS/ORB.ENERGY      -24.4475196     -2.1311674";
"              CUSP        1.0009347      1.0005578";
"  2P       52.244623      0.0003161      0.0001374";
"  3P       33.796475      0.0029734      0.0012831";
"  2P       17.288171     -0.1732351     -0.0194840";
"  3P       13.672378     -0.1255228      0.0465182";
"  2P       10.035013     -0.4631670     -0.2716405";
"  2P        7.962215     -0.2747729     -0.3262070";
"  3P        3.288979      0.0079666     -0.5458110";
"  2P        2.819590     -0.0126882      1.6827274";
"  2P        1.562578      0.0000586      0.0282639";
"  2P        0.565981     -0.0000075      0.0005931";
"  2P        0.189340      0.0000018      0.0000008";
"        D                    3D ";
"  BASIS/ORB.ENERGY       -0.2142470";
"              CUSP        1.0008263";
"  3D       22.548097      0.0013878";
"  4D       17.335339      0.0062469";
"  3D        7.728048      0.0734631";
"  3D        5.103472      0.2574239";
"  3D        3.241497      0.3561627";
"  3D        2.019729      0.3187309";
"  3D        1.263922      0.1633221";
"  3D        0.791292      0.0243887";
"  3D        0.189340      0.0000603";
""].
(** data.tar: anion/mo.an:1-53 *)
Definition mo_anion : list string := [
"      MOLYBDENUM-   K(2)L(8)M(18)4S(2)4P(6)5S(2)4D(5), 6S                             ";
"   E = -3975.526266257";
"   T =  3975.526282579     V = -7951.052548836     V/T =    -1.999999996";
"  ORBITAL ENERGIES AND EXPANSION COEFFICIENTS";
"        S                    1S             2S             3S             4S             5S ";
"  BASIS/ORB.ENERGY     -721.0457921   -102.6936002    -18.4276642     -2.6068040     -0.0172351";
"              CUSP        1.0002748      0.9999214      1.0002953      1.0004026      1.0009779";
"  1S       72.171260     -0.0213710      0.0421866     -0.0181415      0.0070173     -0.0011926";
"  3S       53.282680      0.0267711     -0.0455240      0.0201565     -0.0078732      0.0013757";
"  1S       43.695075      0.9761296     -0.3864815      0.1635538     -0.0637235      0.0108980";
"  4S       31.308097     -0.0293565      0.1020802     -0.0336357      0.0110641     -0.0014516";
"  2S       19.520212      0.0810435      0.5941859     -0.3162384      0.1185503     -0.0198315";
"  3S       19.511167     -0.0308380      0.3437923     -0.3881068      0.1757280     -0.0318419";
"  4S       11.093926     -0.0032777     -0.0447979      0.2936241     -0.0254055     -0.0136830";
"  3S        7.889569     -0.0012007     -0.0377410      0.3147814     -0.4567790      0.1474970";
"  2S        7.662932      0.0078045      0.1431093      0.4532044      0.1472042     -0.0012754";
"  2S        6.021759     -0.0006231     -0.0012863      0.1720172     -0.8237343      0.0833306";
"  2S        2.932198      0.0000261     -0.0000459      0.0044871      1.3457781     -0.2205734";
"  2S        2.127438     -0.0000075     -0.0000176     -0.0002503      0.1807776     -0.2000181";
"  2S        0.728567      0.0000005      0.0000004      0.0000391      0.0001479      0.4642576";
"  2S        0.379287     -0.0000004     -0.0000002     -0.0000308      0.0000492      0.4373041";
"  1S        0.185662      0.0000002      0.0000001      0.0000170     -0.0000363      0.2335787";
"        P                    2P             3P             4P ";
"  BASIS/ORB.ENERGY      -94.2872349    -15.1298659     -1.5684251";
"              CUSP        1.0007072      0.9995919      0.9995522";
"  2P       65.418449     -0.0058081     -0.0042985     -0.0020736";
"  3P       53.871421     -0.0118127     -0.0086949     -0.0041973";
"  2P       32.139412      0.3049834      0.1688305      0.0740938";
"  3P       25.948942      0.3639126      0.1844057      0.0767276";
"  3P       19.316894      0.2956090      0.3179430      0.1666213";
"  2P       13.511969      0.1275620     -0.1740115     -0.1686733";
"  3P        9.137267      0.0017506     -0.7720077     -0.2941074";
"  3P        6.780455     -0.0000057     -0.3098511     -0.5462047";
"  3P        2.368037      0.0000386      0.0061042     -0.7423118";
"  2P        2.109289     -0.0000898     -0.0103714      2.0297033";
"  2P        0.851790      0.0000004     -0.0000169      0.0058845";
"  2P        0.185662     -0.0000001      0.0000039      0.0000907";
"        D                    3D             4D ";
"  BASIS/ORB.ENERGY       -9.1276467     -0.1996953";
"              CUSP        1.0001121      1.0001627";
"  3D       45.537869      0.0007861     -0.0002362";
"  4D       34.510321      0.0041804     -0.0012839";
"  3D       17.073392      0.0090645      0.0038317";
"  3D       14.023118      0.1920552     -0.0644005";
"  3D        8.876223      0.6094473     -0.1656614";
"  4D        7.317837      0.1876679     -0.1183450";
"  3D        4.989926      0.0819115      0.0396706";
"  3D        3.040713      0.0014811      0.3553647";
"  3D        1.947284      0.0001400      0.4636800";
"  3D        1.238428     -0.0000559      0.2782379";
"  3D        0.779653      0.0000104      0.0465181";
"  3D        0.185662     -0.0000008      0.0001190";
""].
(** data.tar: anion/n.an:1-28 *)
Definition n_anion : list string := [
"      NITROGEN-   1S(2)2S(2)2P(4), 3P                                                 ";
"   E =   -54.321958875";
"   T =    54.321958875     V =  -108.643917750     V/T =    -2.000000000";
"  ORBITAL ENERGIES AND EXPANSION COEFFICIENTS";
"        S                    1S             2S ";
"  BASIS/ORB.ENERGY      -15.2423924     -0.5806282";
"              CUSP        0.9999604      0.9996973";
"  2S       21.938661     -0.0005078     -0.0001243";
"  1S       10.856681     -0.2080903      0.0148869";
"  2S        8.909576     -0.1346853      0.0297488";
"  1S        6.067777     -0.6711541     -0.1833422";
"  1S        4.082589     -0.0109793     -0.3856396";
"  2S        2.595892     -0.0014067      0.1068689";
"  1S        1.388357     -0.0001516      0.8429430";
"  1S        0.965463     -0.0002992      0.2729199";
"  1S        0.432913      0.0000010      0.0015565";
"        P                    2P ";
"  BASIS/ORB.ENERGY       -0.0937069";
"              CUSP        0.9999948";
"  3P       17.323397      0.0000491";
"  2P        8.244327      0.0056587";
"  3P        3.261863     -0.1054546";
"  2P        2.599742      0.4612442";
"  2P        1.481225      0.3948250";
"  2P        0.888860      0.2779229";
"  2P        0.570116      0.0979146";
"  2P        0.432913      0.0022926";
""].
(** data.tar: anion/na.an:1-29 *)
Definition na_anion : list string := [
"      SODIUM-   K(2)L(8)3S(2), 1S                                                     ";
"   E =  -161.855125940";
"   T =   161.855125937     V =  -323.710251878     V/T =    -2.000000000";
"  ORBITAL ENERGIES AND EXPANSION COEFFICIENTS";
"        S                    1S             2S             3S ";
"  BASIS/ORB.ENERGY      -40.3329106     -2.6513484     -0.0133513";
"              CUSP        0.9999545      0.9999866      1.0000026";
"  2S       33.336556     -0.0004508     -0.0001007      0.0000113";
"  1S       17.598737     -0.1704241      0.0302092     -0.0027062";
"  2S       14.711404     -0.1142421      0.0363231     -0.0033864";
"  1S        9.861039     -0.7205942     -0.2555745      0.0233291";
"  1S        6.404866     -0.0151250     -0.5003298      0.0538025";
"  2S        4.829528     -0.0015844     -0.0165269     -0.0090077";
"  1S        2.472014     -0.0010215      1.3397395     -0.0732966";
"  1S        1.193509      0.0000259      0.0035027     -0.3143869";
"  1S        0.391524     -0.0000053     -0.0002299      0.7793485";
"  2S        0.278296      0.0000069      0.0002262      0.2695675";
"  1S        0.163409     -0.0000052     -0.0001631      0.1628299";
"        P                    2P ";
"  BASIS/ORB.ENERGY       -1.3724533";
"              CUSP        0.9998866";
"  3P       30.043629      0.0000391";
"  2P       13.641469      0.0041805";
"  3P        5.586447     -0.1404590";
"  2P        4.513905      0.5696933";
"  2P        2.629663      0.4801164";
"  2P        1.869157      0.1530404";
"  2P        0.632847      0.0012768";
"  2P        0.163409      0.0000245"].
(** data.tar: anion/nb.an:1-53 *)
Definition nb_anion : list string := [
"      NIOBIUM-   K(2)L(8)M(18)4S(2)4P(6)5S(2)4D(4), 5D                                ";
"   E = -3753.578214570";
"   T =  3753.578226707     V = -7507.156441276     V/T =    -1.999999997";
"  ORBITAL ENERGIES AND EXPANSION COEFFICIENTS";
"        S                    1S             2S             3S             4S             5S ";
"  BASIS/ORB.ENERGY     -685.2898043    -96.8202404    -17.0925391     -2.3833222     -0.0173955";
"              CUSP        1.0003228      1.0001100      1.0004596      1.0005073      1.0008439";
"  1S       69.512532     -0.0205455      0.0444095     -0.0190613      0.0072548     -0.0012790";
"  3S       51.614236      0.0256215     -0.0463009      0.0204248     -0.0078252      0.0014018";
"  1S       42.515673      0.9780452     -0.3905523      0.1643599     -0.0629156      0.0111381";
"  4S       30.184309     -0.0282982      0.1052952     -0.0352373      0.0117639     -0.0018104";
"  2S       18.723442      0.0770330      0.6398451     -0.3486597      0.1318855     -0.0236862";
"  3S       18.716561     -0.0293059      0.3067306     -0.3859970      0.1727030     -0.0320344";
"  4S       10.523020     -0.0030107     -0.0429903      0.3038131     -0.0455898     -0.0004446";
"  3S        7.039269     -0.0029777     -0.0574503      0.0556090     -0.5549741      0.1400280";
"  2S        6.671101      0.0082630      0.1466040      0.8846437     -0.4477064      0.0886842";
"  2S        3.877900     -0.0000170      0.0012885      0.0024238     -0.2632190     -0.0183359";
"  2S        2.886243      0.0000100     -0.0006233      0.0043749      1.4044997     -0.1537283";
"  2S        2.110581      0.0000000      0.0000966     -0.0001634      0.2553177     -0.2690566";
"  2S        0.708176     -0.0000002     -0.0000043      0.0000342      0.0003490      0.4770890";
"  2S        0.373352      0.0000003      0.0000035     -0.0000270     -0.0000293      0.4301772";
"  1S        0.186523     -0.0000002     -0.0000019      0.0000150      0.0000010      0.2310141";
"        P                    2P             3P             4P ";
"  BASIS/ORB.ENERGY      -88.6686248    -13.9270079     -1.4033801";
"              CUSP        1.0009955      0.9992538      0.9990285";
"  2P       63.780867     -0.0045591     -0.0036751     -0.0017471";
"  3P       52.162440     -0.0098892     -0.0078177     -0.0037126";
"  2P       30.371699      0.3242591      0.1866532      0.0804228";
"  3P       24.649854      0.3821090      0.2068725      0.0856723";
"  3P       18.350796      0.2756111      0.3441840      0.1775524";
"  2P       13.080766      0.1067299     -0.2546100     -0.2024140";
"  3P        8.775199      0.0026266     -0.7715525     -0.2902968";
"  3P        6.467897     -0.0003100     -0.2972796     -0.5140535";
"  3P        2.204689     -0.0000747      0.0047976     -0.7846228";
"  2P        1.967866      0.0000724     -0.0082080      2.0491495";
"  2P        0.739804      0.0000040     -0.0000033      0.0048972";
"  2P        0.186523     -0.0000007      0.0000025      0.0000504";
"        D                    3D             4D ";
"  BASIS/ORB.ENERGY       -8.1749524     -0.1431211";
"              CUSP        1.0004842      1.0002264";
"  3D       44.354547      0.0007886     -0.0002121";
"  4D       33.570462      0.0042106     -0.0011547";
"  3D       15.734639      0.0306833     -0.0003048";
"  3D       13.220427      0.1788440     -0.0597304";
"  3D        8.597817      0.5782014     -0.1395082";
"  4D        7.171274      0.1831509     -0.0973164";
"  3D        4.931586      0.1112117      0.0009345";
"  3D        2.978717      0.0025507      0.3030998";
"  3D        1.889005      0.0001239      0.4631073";
"  3D        1.179953      0.0000291      0.3235849";
"  3D        0.726010      0.0000159      0.0737649";
"  3D        0.186523     -0.0000005      0.0002410";
""].
(** data.tar: anion/ni.an:1-46 *)
Definition ni_anion : list string := [
"      NICKEL-   K(2)L(8)3S(2)3P(6)4S(2)3D(9), 2D                                      ";
"   E = -1506.821131919";
"   T =  1506.821131914     V = -3013.642263833     V/T =    -2.000000000";
"  ORBITAL ENERGIES AND EXPANSION COEFFICIENTS";
"        S                    1S             2S             3S             4S ";
"  BASIS/ORB.ENERGY     -305.2089199    -37.4849533     -4.4675513     -0.0204937";
"              CUSP        1.0002576      0.9995851      0.9995125      0.9993036";
"  1S       69.286380      0.0017981      0.0019329     -0.0010108      0.0001617";
"  3S       40.172265     -0.0109793     -0.0090443      0.0049382     -0.0007940";
"  1S       29.477735     -0.8437800     -0.1386381      0.0506818     -0.0069246";
"  3S       20.544867      0.0624210      0.0439034     -0.0112288      0.0007890";
"  2S       12.255834      0.1479364      1.2322485     -0.2704584      0.0306498";
"  1S       10.580401     -0.3361237     -0.6822763      0.1359915     -0.0151180";
"  2S        9.238444      0.0060950      0.3213458     -0.8927781      0.1347255";
"  2S        4.090071      0.0001003      0.0073415      0.6203752     -0.0933801";
"  1S        2.913300     -0.0001061     -0.0053866      0.8766474     -0.0252236";
"  1S        1.790912      0.0000101      0.0006197      0.0154787     -0.3352612";
"  2S        0.438919     -0.0000002      0.0000573      0.0005438     -0.4209068";
"  1S        0.338644     -0.0000001     -0.0000712     -0.0006173      1.3553314";
"  1S        0.202453      0.0000002     -0.0000019     -0.0000437      0.1672362";
"        P                    2P             3P ";
"  BASIS/ORB.ENERGY      -32.5131861     -2.8727813";
"              CUSP        1.0006983      0.9992242";
"  2P       57.424455      0.0004196      0.0002154";
"  3P       38.946411      0.0029000      0.0014428";
"  2P       19.986887     -0.1509101     -0.0185258";
"  3P       15.976360     -0.1091593      0.0361878";
"  2P       11.468575     -0.5430088     -0.3001871";
"  2P        8.982149     -0.2295189     -0.3188535";
"  3P        4.070111      0.0078118     -0.4237643";
"  2P        3.484407     -0.0133892      1.5100711";
"  2P        2.298962      0.0001131      0.1104014";
"  2P        0.965531     -0.0000263      0.0019398";
"  2P        0.202453      0.0000020      0.0000268";
"        D                    3D ";
"  BASIS/ORB.ENERGY       -0.2691738";
"              CUSP        0.9999121";
"  3D       25.388665      0.0014816";
"  4D       19.711520      0.0063271";
"  3D        8.635589      0.1052036";
"  3D        5.694278      0.2915272";
"  3D        3.624230      0.3538071";
"  3D        2.264710      0.2847968";
"  3D        1.420470      0.1405086";
"  3D        0.891079      0.0209595";
"  3D        0.202453      0.0000489"].
(** data.tar: anion/o.an:1-28 *)
Definition o_anion : list string := [
"      OXYGEN-   1S(2)2S(2)2P(5), 2P                                                   ";
"   E =   -74.789745929";
"   T =    74.789745907     V =  -149.579491835     V/T =    -2.000000000";
"  ORBITAL ENERGIES AND EXPANSION COEFFICIENTS";
"        S                    1S             2S ";
"  BASIS/ORB.ENERGY      -20.1989620     -0.8136332";
"              CUSP        0.9999645      0.9996672";
"  2S       25.016765     -0.0004660     -0.0001224";
"  1S       12.463538     -0.1969044      0.0136299";
"  2S       10.294654     -0.1272168      0.0260227";
"  1S        7.040394     -0.6798388     -0.1631544";
"  1S        4.924651     -0.0195203     -0.3892215";
"  2S        2.933290     -0.0016231      0.1399950";
"  1S        1.571277     -0.0001018      0.8737968";
"  1S        1.086933     -0.0003173      0.1945784";
"  1S        0.509457      0.0000043      0.0012193";
"        P                    2P ";
"  BASIS/ORB.ENERGY       -0.1297733";
"              CUSP        0.9996035";
"  3P       18.936558      0.0000688";
"  2P        9.868234      0.0043545";
"  3P        4.069436     -0.0786626";
"  2P        3.277663      0.3879735";
"  2P        1.941449      0.3724017";
"  2P        1.183916      0.3025918";
"  2P        0.739250      0.1405451";
"  2P        0.509457      0.0085623";
""].
(** data.tar: anion/p.an:1-33 *)
Definition p_anion : list string := [
"      PHOSPHORUS-   K(2)L(8)3S(2)3P(4), 3P                                            ";
"   E =  -340.698873531";
"   T =   340.698873552     V =  -681.397747083     V/T =    -2.000000000";
"  ORBITAL ENERGIES AND EXPANSION COEFFICIENTS";
"        S                    1S             2S             3S ";
"  BASIS/ORB.ENERGY      -79.6929282     -7.2326396     -0.4367527";
"              CUSP        0.9999762      0.9999104      1.0000184";
"  2S       44.369160     -0.0004062     -0.0001141      0.0000350";
"  1S       23.598828     -0.2376169      0.0252154      0.0040189";
"  2S       20.043622     -0.1626515      0.0290864      0.0014586";
"  2S       11.349839      0.3146943      0.1588878      0.0147221";
"  1S       10.158832     -0.9009474     -0.5703849      0.2302141";
"  2S        6.412656      0.0018557      0.3484053      0.1347913";
"  2S        4.806833     -0.0018915      0.7156330     -0.0668189";
"  1S        2.815498      0.0007658      0.0557135     -1.1875647";
"  1S        1.215465     -0.0000962      0.0000245      1.0023276";
"  1S        0.851087      0.0000631      0.0008353      0.5477627";
"  1S        0.392984     -0.0000062     -0.0000317      0.0043351";
"        P                    2P             3P ";
"  BASIS/ORB.ENERGY       -5.1239164     -0.0772184";
"              CUSP        1.0007288      0.9998215";
"  2P       40.124946     -0.0000494      0.0000117";
"  3P       17.826226     -0.0040312      0.0008909";
"  2P       10.634247      0.1317716     -0.0307934";
"  3P        9.184590      0.0712995     -0.0227698";
"  2P        5.316114      0.5023535     -0.0656931";
"  3P        3.626602     -0.1722291      0.0316790";
"  2P        3.365483      0.5077528     -0.2621823";
"  2P        1.602892      0.0018818      0.3662968";
"  2P        0.997613      0.0002122      0.4974518";
"  2P        0.605218      0.0002116      0.2886559";
"  2P        0.392984     -0.0000014      0.0210666";
""].
(** data.tar: anion/pd.an:1-53 *)
Definition pd_anion : list string := [
"      PALLADIUM-   K(2)L(8)M(18)4S(2)4P(6)5S(2)4D(9), 2D                              ";
"   E = -4937.891539113";
"   T =  4937.891549244     V = -9875.783088357     V/T =    -1.999999998";
"  ORBITAL ENERGIES AND EXPANSION COEFFICIENTS";
"        S                    1S             2S             3S             4S             5S ";
"  BASIS/ORB.ENERGY     -873.3041971   -127.9611877    -24.2049841     -3.5751347     -0.0195272";
"              CUSP        1.0001474      0.9996757      1.0000041      1.0001843      1.0009418";
"  1S       82.981122      0.0256355      0.0349496     -0.0153231      0.0062041     -0.0009856";
"  3S       60.747521     -0.0312533     -0.0397232      0.0179098     -0.0073693      0.0012189";
"  1S       48.682686     -0.9650744     -0.3695798      0.1599679     -0.0657128      0.0105606";
"  4S       36.184851      0.0388574      0.0943704     -0.0336988      0.0110971     -0.0012174";
"  2S       22.659076     -0.1114253      0.4161477     -0.1478567      0.0684864     -0.0132458";
"  3S       22.631895      0.0453052      0.4544307     -0.3499105      0.1770565     -0.0321820";
"  3S       10.854225      0.0185098     -0.2255012      1.1587544     -0.2191196     -0.0010872";
"  3S        8.701432      0.0017076     -0.0649154      0.4882484     -0.9055084      0.2032059";
"  2S        8.695647     -0.0274118      0.4013997     -0.5868246      0.0241755      0.0317535";
"  3S        4.273868     -0.0030933      0.0073839     -0.0734838      0.2831394      0.0363421";
"  2S        3.566041      0.0044358     -0.0105759      0.1191386      0.8326612     -0.2283255";
"  2S        2.662568     -0.0002481      0.0005491     -0.0088652      0.3604849     -0.2143572";
"  2S        0.820846     -0.0000004      0.0000011      0.0002009     -0.0000912      0.4440534";
"  2S        0.418647      0.0000011     -0.0000026     -0.0001583      0.0003483      0.4434227";
"  1S        0.197622     -0.0000007      0.0000017      0.0000853     -0.0002145      0.2392182";
"        P                    2P             3P             4P ";
"  BASIS/ORB.ENERGY     -118.5245020    -20.3691259     -2.3055170";
"              CUSP        0.9996424      1.0003811      1.0006675";
"  2P       72.763428     -0.0124528      0.0073801     -0.0036557";
"  3P       61.391085     -0.0204308      0.0123087     -0.0061225";
"  2P       40.145578      0.2473892     -0.1233963      0.0568696";
"  3P       31.547867      0.3070254     -0.1344744      0.0571029";
"  3P       22.930719      0.3701758     -0.2646510      0.1409789";
"  2P       15.129838      0.1849301     -0.0264869     -0.0775629";
"  3P       10.566692     -0.0026556      0.7648512     -0.2963976";
"  3P        8.033038      0.0016899      0.3562503     -0.6571356";
"  3P        2.981817      0.0006865     -0.0135288     -0.6477896";
"  2P        2.638560     -0.0010108      0.0221899      1.9985808";
"  2P        1.257041     -0.0000196      0.0001089      0.0127375";
"  2P        0.197622      0.0000011     -0.0000075      0.0001049";
"        D                    3D             4D ";
"  BASIS/ORB.ENERGY      -13.3568314     -0.3110457";
"              CUSP        0.9993617      1.0008100";
"  3D       48.846187      0.0009253     -0.0003752";
"  4D       37.689441      0.0044159     -0.0018337";
"  3D       21.043128     -0.0093387      0.0091133";
"  3D       16.505499      0.1851618     -0.0712230";
"  3D       10.228470      0.6490813     -0.2284375";
"  4D        8.492879      0.1735437     -0.1878176";
"  3D        5.949300      0.0697387      0.1557415";
"  3D        3.510037      0.0024666      0.4735653";
"  3D        2.202995      0.0003901      0.4293688";
"  3D        1.383750      0.0003290      0.1971706";
"  3D        0.834115      0.0000017      0.0159927";
"  3D        0.197622      0.0000012      0.0000088";
""].
(** data.tar: anion/rb.an:1-50 *)
Definition rb_anion : list string := [
"      RUBIDIUM-   K(2)L(8)M(18)4S(2)4P(6)5S(2), 1S                                    ";
"   E = -2938.354897972";
"   T =  2938.354900435     V = -5876.709798407     V/T =    -1.999999999";
"  ORBITAL ENERGIES AND EXPANSION COEFFICIENTS";
"        S                    1S             2S             3S             4S             5S ";
"  BASIS/ORB.ENERGY     -551.3449246    -74.9369216    -12.0207611     -1.4110753     -0.0095320";
"              CUSP        1.0003901      1.0001875      1.0004013      1.0004834      1.0007701";
"  1S       61.629682     -0.0150512      0.0464682      0.0197355      0.0066518     -0.0009842";
"  3S       45.609573      0.0224292     -0.0499546     -0.0216153     -0.0073321      0.0010973";
"  1S       37.968851      0.9798815     -0.3953952     -0.1620217     -0.0547102      0.0081028";
"  4S       26.259916     -0.0250764      0.1073309      0.0385223      0.0117024     -0.0016040";
"  2S       15.906141      0.0672349      0.7910330      0.4339866      0.1506536     -0.0223578";
"  3S       15.901177     -0.0275909      0.1752496      0.3482654      0.1415211     -0.0216766";
"  4S        8.802636     -0.0036978     -0.0281660     -0.1788390     -0.0195187     -0.0004641";
"  3S        5.631993     -0.0047748     -0.0501495      0.4374275     -0.1853446      0.0428085";
"  2S        5.201952      0.0107653      0.1053812     -1.5144490     -0.7145223      0.1123919";
"  2S        2.157946     -0.0002960      0.0016869      0.0074049      1.0112855     -0.3718686";
"  3S        1.717872     -0.0001154      0.0006514      0.0032468      0.0005534     -0.2045309";
"  2S        1.716577      0.0003552     -0.0020478     -0.0106815      0.3298020      0.2220577";
"  2S        0.481476      0.0000034     -0.0000175     -0.0000746      0.0003326      0.5596823";
"  2S        0.250025     -0.0000021      0.0000105      0.0000434     -0.0001714      0.5195034";
"  2S        0.138072      0.0000008     -0.0000038     -0.0000155      0.0000613      0.0590673";
"        P                    2P             3P             4P ";
"  BASIS/ORB.ENERGY      -67.7938054     -9.3752512     -0.6975431";
"              CUSP        1.0008637      0.9992327      0.9992555";
"  2P       56.312357     -0.0062682     -0.0041421     -0.0014323";
"  3P       46.213720     -0.0132316     -0.0086167     -0.0029817";
"  2P       27.400960      0.3382369      0.1716350      0.0554268";
"  3P       21.896380      0.4181467      0.2023561      0.0631884";
"  3P       15.895409      0.3133550      0.3189967      0.1177236";
"  2P        9.262586      0.0341586     -0.3328366     -0.1625820";
"  3P        7.251847     -0.0006541     -0.7087529     -0.2179102";
"  3P        5.278655      0.0004972     -0.2493203     -0.3569470";
"  3P        1.702362      0.0000622      0.0045788     -0.5197016";
"  2P        1.505340     -0.0000914     -0.0072511      1.6934874";
"  2P        0.570910     -0.0000003      0.0000169      0.0062741";
"  2P        0.138072      0.0000001      0.0000007      0.0001394";
"        D                    3D ";
"  BASIS/ORB.ENERGY       -4.6198516";
"              CUSP        1.0000046";
"  3D       36.120235      0.0013195";
"  4D       28.064432      0.0058029";
"  3D       12.198814      0.1606932";
"  3D        8.899858      0.1633238";
"  3D        7.156927      0.3038761";
"  3D        5.245780      0.3652525";
"  3D        3.674489      0.0936727";
"  3D        2.119550      0.0021795";
"  3D        0.138072     -0.0000003";
""].
(** data.tar: anion/rh.an:1-53 *)
Definition rh_anion : list string := [
"      RHODIUM-   K(2)L(8)M(18)4S(2)4P(6)5S(2)4D(8), 3F                                ";
"   E = -4685.875577988";
"   T =  4685.875593411     V = -9371.751171398     V/T =    -1.999999997";
"  ORBITAL ENERGIES AND EXPANSION COEFFICIENTS";
"        S                    1S             2S             3S             4S             5S ";
"  BASIS/ORB.ENERGY     -833.8666941   -121.3910082    -22.7069168     -3.3308645     -0.0192305";
"              CUSP        1.0002098      0.9998639      1.0002501      1.0008031      1.0009634";
"  1S       80.746947      0.0249308      0.0352552     -0.0153756      0.0061406     -0.0010037";
"  3S       59.354316     -0.0300468     -0.0392582      0.0176636     -0.0073049      0.0012066";
"  1S       47.521316     -0.9660031     -0.3702798      0.1594030     -0.0647284      0.0106503";
"  4S       35.255376      0.0389095      0.0955393     -0.0333553      0.0095065     -0.0013597";
"  2S       22.085628     -0.1100813      0.4237072     -0.1553145      0.0734671     -0.0133213";
"  3S       22.040298      0.0434788      0.4485033     -0.3511671      0.1810363     -0.0317175";
"  3S       10.532538      0.0151440     -0.2276666      1.1387312     -0.1986703      0.0131135";
"  3S        8.319295      0.0033839     -0.0781996      0.4996869     -0.9021562      0.1900746";
"  2S        8.317816     -0.0238249      0.4102479     -0.5420463     -0.0531724      0.0274542";
"  3S        3.782996     -0.0005967      0.0011019     -0.0152188      0.1711020      0.0219766";
"  2S        3.488047      0.0007329     -0.0009610      0.0290534      1.0069678     -0.1865375";
"  2S        2.586704      0.0001401     -0.0004443      0.0021355      0.3374239     -0.2478489";
"  2S        0.801327     -0.0000057      0.0000196     -0.0000414      0.0013532      0.4516593";
"  2S        0.410571      0.0000048     -0.0000170      0.0000368     -0.0008799      0.4405954";
"  1S        0.196115     -0.0000027      0.0000094     -0.0000204      0.0004673      0.2365605";
"        P                    2P             3P             4P ";
"  BASIS/ORB.ENERGY     -112.2135077    -19.0068580     -2.1177928";
"              CUSP        0.9999653      1.0003197      1.0006008";
"  2P       70.895846     -0.0100931     -0.0062797     -0.0031093";
"  3P       59.464825     -0.0174432     -0.0110075     -0.0054710";
"  2P       37.952202      0.2584297      0.1312870      0.0598976";
"  3P       30.130460      0.3175271      0.1420873      0.0598544";
"  3P       22.069759      0.3567559      0.2739032      0.1457256";
"  2P       14.698635      0.1710861     -0.0109785     -0.0952235";
"  3P       10.218985     -0.0014847     -0.7647787     -0.2946978";
"  3P        7.728522      0.0011795     -0.3482456     -0.6331595";
"  3P        2.814291      0.0004688      0.0113424     -0.6868323";
"  2P        2.497050     -0.0007045     -0.0187208      2.0226641";
"  2P        1.130890     -0.0000129     -0.0000925      0.0097665";
"  2P        0.196115      0.0000009      0.0000079      0.0000986";
"        D                    3D             4D ";
"  BASIS/ORB.ENERGY      -12.2485268     -0.2758038";
"              CUSP        0.9996138      1.0006327";
"  3D       47.023018      0.0010334     -0.0004322";
"  4D       36.370436      0.0048355     -0.0020821";
"  3D       21.568305     -0.0053856      0.0063723";
"  3D       15.802277      0.1918578     -0.0691395";
"  3D        9.789646      0.6488541     -0.2239874";
"  4D        8.085587      0.1633596     -0.1872743";
"  3D        5.751051      0.0704605      0.1633227";
"  3D        3.321060      0.0025276      0.4692730";
"  3D        2.081540      0.0000909      0.4294401";
"  3D        1.311344      0.0002621      0.1966616";
"  3D        0.823347     -0.0000108      0.0188897";
"  3D        0.196115      0.0000015      0.0001237";
""].
(** data.tar: anion/ru.an:1-53 *)
Definition ru_anion : list string := [
"      RUTHENIUM-   K(2)L(8)M(18)4S(2)4P(6)5S(2)4D(7), 4F                              ";
"   E = -4441.528474293";
"   T =  4441.528480802     V = -8883.056955096     V/T =    -1.999999999";
"  ORBITAL ENERGIES AND EXPANSION COEFFICIENTS";
"        S                    1S             2S             3S             4S             5S ";
"  BASIS/ORB.ENERGY     -795.3455209   -114.9907969    -21.2458870     -3.0890938     -0.0188343";
"              CUSP        1.0002546      1.0000020      1.0003851      1.0006401      1.0009068";
"  1S       77.746812     -0.0249567      0.0375532     -0.0163027      0.0064550     -0.0010772";
"  3S       57.466455      0.0293870     -0.0403412      0.0180662     -0.0072952      0.0012357";
"  1S       46.317218      0.9692208     -0.3746753      0.1604227     -0.0643758      0.0108076";
"  4S       34.073622     -0.0368136      0.0972223     -0.0334736      0.0104956     -0.0015153";
"  3S       21.312636     -0.0404947      0.4241115     -0.3513257      0.1739301     -0.0311278";
"  2S       21.306721      0.1035393      0.4589601     -0.1792372      0.0793509     -0.0145206";
"  3S       10.096369     -0.0131046     -0.2222370      1.1389994     -0.2630109      0.0280405";
"  2S        7.857654      0.0210085      0.3983462     -0.4394253     -0.1153945      0.0334452";
"  3S        7.824953     -0.0036563     -0.0834676      0.4254046     -0.8640296      0.1807073";
"  4S        4.120062      0.0001132     -0.0001999      0.0002073      0.2230730      0.0019753";
"  2S        3.846079     -0.0001346      0.0014298      0.0067860      0.9198180     -0.1254160";
"  2S        2.552612     -0.0000789     -0.0001209      0.0006844      0.4790080     -0.3078610";
"  2S        0.778953      0.0000030      0.0000089      0.0000166      0.0006417      0.4582059";
"  2S        0.401619     -0.0000026     -0.0000084     -0.0000115     -0.0002401      0.4378864";
"  1S        0.194084      0.0000015      0.0000048      0.0000062      0.0001101      0.2339459";
"        P                    2P             3P             4P ";
"  BASIS/ORB.ENERGY     -106.0714106    -17.6807698     -1.9331850";
"              CUSP        1.0001439      1.0002264      1.0007915";
"  2P       68.938264     -0.0091106     -0.0058719     -0.0029117";
"  3P       57.610608     -0.0162705     -0.0106090     -0.0052860";
"  2P       36.267946      0.2685516      0.1385858      0.0626349";
"  3P       28.920214      0.3268001      0.1488179      0.0618999";
"  3P       21.287857      0.3457456      0.2822395      0.1498222";
"  2P       14.267432      0.1603924     -0.0441081     -0.1103729";
"  3P        9.883781     -0.0007972     -0.7623887     -0.2902504";
"  3P        7.431783      0.0009163     -0.3433060     -0.6087395";
"  3P        2.641987      0.0003552      0.0094050     -0.7374328";
"  2P        2.349342     -0.0005383     -0.0156048      2.0544390";
"  2P        0.987970     -0.0000094     -0.0000681      0.0069511";
"  2P        0.194084      0.0000009      0.0000080      0.0000801";
"        D                    3D             4D ";
"  BASIS/ORB.ENERGY      -11.1753674     -0.2431495";
"              CUSP        1.0003505      1.0008654";
"  3D       46.539696      0.0009267     -0.0003483";
"  4D       35.746927      0.0045099     -0.0017471";
"  3D       20.071778     -0.0038084      0.0061416";
"  3D       15.306154      0.1911556     -0.0673912";
"  3D        9.535520      0.6343085     -0.2017240";
"  4D        7.866816      0.1782613     -0.1590119";
"  3D        5.498039      0.0728860      0.1079659";
"  3D        3.241090      0.0026223      0.4395264";
"  3D        2.034099     -0.0001145      0.4450001";
"  3D        1.282084      0.0002681      0.2184439";
"  3D        0.806257     -0.0000275      0.0268344";
"  3D        0.194084      0.0000025      0.0000770";
""].
(** data.tar: anion/s.an:1-33 *)
Definition s_anion : list string := [
"      SULFUR-   K(2)L(8)3S(2)3P(5), 2P                                                ";
"   E =  -397.538430165";
"   T =   397.538430032     V =  -795.076860197     V/T =    -2.000000000";
"  ORBITAL ENERGIES AND EXPANSION COEFFICIENTS";
"        S                    1S             2S             3S ";
"  BASIS/ORB.ENERGY      -91.6764017     -8.6757286     -0.5798113";
"              CUSP        1.0000223      0.9999995      1.0000546";
"  2S       46.571054     -0.0004058     -0.0001090      0.0000369";
"  1S       25.187097     -0.2315967      0.0315749      0.0016898";
"  2S       21.415230     -0.1581716      0.0338849     -0.0006143";
"  2S       12.310795      0.2896646      0.1543413      0.0087481";
"  1S       11.127747     -0.8878870     -0.5744032      0.2140579";
"  2S        6.428186     -0.0000242      0.5464703      0.1463124";
"  2S        5.028365     -0.0007542      0.5390136     -0.2664403";
"  1S        2.996013      0.0003471      0.0269750     -1.0871038";
"  1S        1.443579     -0.0000039      0.0023661      0.9431339";
"  1S        1.005833      0.0000188      0.0002613      0.6835730";
"  1S        0.464283     -0.0000007      0.0000458      0.0052762";
"        P                    2P             3P ";
"  BASIS/ORB.ENERGY       -6.3554919     -0.1077993";
"              CUSP        1.0006871      0.9997046";
"  2P       42.238912     -0.0000545      0.0000145";
"  3P       19.367238     -0.0036483      0.0009063";
"  2P       11.466335      0.1263526     -0.0334683";
"  3P        9.996813      0.0638382     -0.0242805";
"  2P        5.755231      0.5608588     -0.0623559";
"  3P        3.903857     -0.1521249      0.0883727";
"  2P        3.629279      0.4386121     -0.3493597";
"  2P        1.858377      0.0020050      0.3929020";
"  2P        1.154252      0.0006668      0.4980531";
"  2P        0.704989      0.0003443      0.2767924";
"  2P        0.464283      0.0000226      0.0193340";
""].
(** data.tar: anion/sb.an:1-55 *)
Definition sb_anion : list string := [
"      ANTIMONY-   K(2)L(8)M(18)4S(2)4P(6)5S(2)4D(10)5P(4), 3P                         ";
"   E = -6313.481511833";
"   T =  6313.481503701     V =-12626.963015534     V/T =    -2.000000001";
"  ORBITAL ENERGIES AND EXPANSION COEFFICIENTS";
"        S                    1S             2S             3S             4S             5S ";
"  BASIS/ORB.ENERGY    -1085.3516648   -164.5205294    -33.3986527     -5.8250541     -0.3613207";
"              CUSP        1.0001788      1.0001050      1.0002453      1.0003464      1.0007016";
"  1S       96.798546     -0.0141928     -0.0131150     -0.0067904      0.0034078     -0.0011473";
"  3S       69.652001      0.0199444      0.0171203      0.0091802     -0.0047097      0.0016323";
"  1S       54.100312      0.9397293      0.3247224      0.1458471     -0.0651759      0.0198790";
"  3S       35.654960     -0.1306681     -0.2613933     -0.0987088      0.0320631     -0.0065341";
"  3S       26.659081     -0.0764538     -0.5284025     -0.3150808      0.1721080     -0.0588917";
"  2S       26.648000      0.2502062      0.0203516      0.0839064     -0.0157034     -0.0034135";
"  2S       17.135996      0.0106821     -0.3073575     -0.4307024      0.1309100     -0.0141908";
"  3S       12.212107     -0.0037390      0.0451257      0.8336697      0.1256863     -0.1177532";
"  3S       10.809756      0.0030187     -0.0392193      0.3368850     -1.1840399      0.5239394";
"  3S        5.084521      0.0012667     -0.0195442     -0.2495807      0.7808821     -0.0559575";
"  2S        4.177670     -0.0019415      0.0298046      0.4083330      0.3228149     -0.0485069";
"  2S        3.294303      0.0002286     -0.0033016     -0.0543641      0.2950699     -0.8008331";
"  2S        1.426771     -0.0000047      0.0000268      0.0016560     -0.0034688      0.8565773";
"  2S        0.923016      0.0000018     -0.0000027     -0.0007845      0.0024001      0.4478187";
"  1S        0.380412     -0.0000004     -0.0000013      0.0001823     -0.0005461      0.0095344";
"        P                    2P             3P             4P             5P ";
"  BASIS/ORB.ENERGY     -153.7665316    -28.8689004     -4.2072215     -0.0723568";
"              CUSP        1.0009048      1.0009847      1.0002512      0.9996832";
"  2P       63.108478      0.0152445      0.0261096     -0.0188258      0.0050029";
"  3P       55.799187      0.0177389      0.0295452     -0.0211213      0.0056006";
"  3P       36.824657      0.1013657      0.1398144     -0.0994919      0.0264012";
"  2P       26.158874     -0.9372823     -0.6061088      0.3189534     -0.0783335";
"  3P       21.264468     -0.2210263     -0.1206951      0.0059632      0.0042643";
"  3P       12.079975     -0.0005558      0.7299127     -0.1863522      0.0335532";
"  3P       10.066493     -0.0034130      0.3275341     -0.7442138      0.2248847";
"  3P        4.665185     -0.0052029     -0.1989825      0.4156953      0.0048074";
"  2P        3.822874      0.0072537      0.3077075      0.7229491     -0.1874018";
"  2P        2.819023     -0.0004024     -0.0324281      0.2244747     -0.3902175";
"  3P        1.833682     -0.0000713      0.0022473     -0.0010878      0.1076938";
"  2P        1.026448      0.0000724     -0.0011699      0.0025321      0.6266632";
"  2P        0.607960     -0.0000300      0.0003343     -0.0003806      0.4263521";
"  2P        0.380412      0.0000083     -0.0000806      0.0001414      0.0338499";
"        D                    3D             4D ";
"  BASIS/ORB.ENERGY      -20.5608071     -1.4501401";
"              CUSP        0.9992629      1.0006934";
"  3D       57.719626      0.0006751     -0.0003863";
"  4D       44.051548      0.0035203     -0.0020750";
"  3D       23.600649     -0.0240347      0.0241934";
"  3D       19.719256      0.1709648     -0.0946237";
"  3D       12.226480      0.5229215     -0.1144670";
"  3D        9.309346      0.2932485     -0.4164377";
"  3D        7.533815      0.0860199      0.1919972";
"  3D        4.424274      0.0027357      0.5592006";
"  3D        3.010951     -0.0005220      0.4649712";
"  3D        1.978292      0.0000965      0.0739717";
"  3D        1.023030     -0.0000228      0.0014905";
"  3D        0.380412      0.0000030      0.0001087";
" "].
(** data.tar: anion/sc.an:1-47 *)
Definition sc_anion : list string := [
"      SCANDIUM-   K(2)L(8)3S(2)3P(6)4S(2)3D(2), 3F                                    ";
"   E =  -759.688773345";
"   T =   759.688773319     V = -1519.377546664     V/T =    -2.000000000";
"  ORBITAL ENERGIES AND EXPANSION COEFFICIENTS";
"        S                    1S             2S             3S             4S ";
"  BASIS/ORB.ENERGY     -165.6114878    -18.7701497     -2.2666629     -0.0160318";
"              CUSP        1.0002609      0.9994030      1.0002248      1.0004799";
"  1S       55.382936     -0.0016163      0.0014702      0.0004637      0.0000642";
"  3S       30.410195      0.0130154     -0.0088182     -0.0030016     -0.0004231";
"  1S       22.329140      0.8154310     -0.1506719     -0.0519367     -0.0081523";
"  3S       15.370662     -0.0802930      0.0736275      0.0363948      0.0064495";
"  2S        8.591628     -0.2398332      1.2038901      0.1831352      0.0157322";
"  2S        6.585295     -0.0730315      0.4034547      0.7943552      0.1524469";
"  1S        6.585295      0.5159588     -0.7256294     -0.1890894     -0.0185463";
"  2S        2.786635      0.0018106      0.0069953     -0.9101058     -0.1106486";
"  1S        1.829409     -0.0027779     -0.0061847     -0.4672033      0.1229455";
"  1S        1.328337      0.0007526      0.0016055      0.0151767     -0.5711140";
"  2S        0.364821      0.0000753      0.0001211      0.0008749     -0.4203956";
"  1S        0.286519     -0.0000973     -0.0001598     -0.0012958      1.4141094";
"  1S        0.179063     -0.0000028     -0.0000027      0.0000341      0.1663090";
"        P                    2P             3P ";
"  BASIS/ORB.ENERGY      -15.3615756     -1.2886887";
"              CUSP        1.0000528      0.9992286";
"  2P       54.243471      0.0000671      0.0000265";
"  3P       26.893549      0.0026514      0.0010130";
"  2P       14.561742     -0.1105802     -0.0133089";
"  3P       10.907417     -0.0094599      0.0626505";
"  2P        8.549329     -0.5935204     -0.2116607";
"  2P        6.370362     -0.3183394     -0.3701283";
"  3P        2.639554      0.0048396     -0.3440426";
"  2P        2.283652     -0.0081039      1.4111325";
"  2P        1.549144      0.0001409      0.0930428";
"  2P        0.663979     -0.0000088      0.0030858";
"  2P        0.179063      0.0000012      0.0000485";
"        D                    3D ";
"  BASIS/ORB.ENERGY       -0.0621712";
"              CUSP        0.9995830";
"  3D       17.759059      0.0012426";
"  4D       13.669684      0.0052912";
"  3D        6.574908      0.0309188";
"  3D        4.202261      0.1737675";
"  3D        2.616004      0.3041901";
"  3D        1.568423      0.3713852";
"  3D        0.934889      0.2712025";
"  3D        0.546028      0.0803053";
"  3D        0.179063      0.0005065";
""].
(** data.tar: anion/se.an:1-48 *)
Definition se_anion : list string := [
"      SELENIUM-   K(2)L(8)M(18)4S(2)4P(5), 2P                                         ";
"   E = -2399.904724280";
"   T =  2399.904733005     V = -4799.809457286     V/T =    -1.999999996";
"  ORBITAL ENERGIES AND EXPANSION COEFFICIENTS";
"        S                    1S             2S             3S             4S ";
"  BASIS/ORB.ENERGY     -460.5653775    -60.3668275     -8.6296780     -0.5599473";
"              CUSP        1.0004616      1.0004840      1.0007344      1.0006654";
"  1S       56.492283     -0.0142700     -0.0459459     -0.0194517      0.0066499";
"  3S       41.849649      0.0225967      0.0498082      0.0214848     -0.0073084";
"  1S       34.849601      0.9788984      0.3920689      0.1588263     -0.0527793";
"  4S       23.890667     -0.0263316     -0.1059705     -0.0385701      0.0139074";
"  2S       14.338307      0.0693696     -0.8145290     -0.4070736      0.0874963";
"  3S       14.323000     -0.0297976     -0.1450358     -0.3171158      0.1195343";
"  3S        6.610870     -0.0109904      0.0692396      0.3155885      0.0232068";
"  2S        5.476009      0.0154286     -0.1117019      0.7759354     -0.3180606";
"  2S        3.828650     -0.0005167      0.0164892      0.2735161     -0.7305751";
"  2S        1.741750      0.0006514      0.0123772      0.1558354      0.3583077";
"  2S        1.121369      0.0005733      0.0128815      0.1607989     -0.1444863";
"  1S        0.991886     -0.0013908     -0.0297076     -0.3711167      1.2058770";
"  1S        0.450481      0.0000072      0.0000218      0.0003433      0.0058397";
"        P                    2P             3P             4P ";
"  BASIS/ORB.ENERGY      -53.9672475     -6.3600390     -0.1014667";
"              CUSP        1.0009805      0.9993955      0.9999119";
"  2P       52.021585     -0.0060016     -0.0038152     -0.0009383";
"  3P       42.345087     -0.0135145     -0.0084432     -0.0020823";
"  2P       24.776042      0.3472942      0.1681230      0.0389540";
"  3P       19.667209      0.4357847      0.2033659      0.0458730";
"  3P       14.121030      0.3052341      0.3061019      0.0787100";
"  2P        6.738664      0.0200974     -0.5503386     -0.1702394";
"  3P        5.842328     -0.0037066     -0.5603257     -0.1206358";
"  3P        4.279773      0.0011642     -0.1652721     -0.2173729";
"  3P        1.344317      0.0003573      0.0043766     -0.5105746";
"  2P        1.133042     -0.0004351     -0.0073424      1.3684020";
"  2P        0.660219     -0.0000299      0.0001133      0.2690489";
"  2P        0.450481      0.0000120     -0.0000973      0.0164944";
"        D                    3D ";
"  BASIS/ORB.ENERGY       -2.3479288";
"              CUSP        0.9998843";
"  3D       33.093837      0.0012724";
"  4D       25.549208      0.0058150";
"  3D       11.229189      0.1256747";
"  3D        8.375129      0.1218554";
"  3D        6.984656      0.2576887";
"  3D        4.764977      0.4281566";
"  3D        3.177210      0.1693564";
"  3D        1.747553      0.0069414";
"  3D        0.450481      0.0000579";
""].
(** data.tar: anion/si.an:1-33 *)
Definition si_anion : list string := [
"      SILICON-   K(2)L(8)3S(2)3P(3), 4S                                               ";
"   E =  -288.889660201";
"   T =   288.889660102     V =  -577.779320303     V/T =    -2.000000000";
"  ORBITAL ENERGIES AND EXPANSION COEFFICIENTS";
"        S                    1S             2S             3S ";
"  BASIS/ORB.ENERGY      -68.5532631     -5.8970500     -0.3018732";
"              CUSP        1.0000361      0.9999758      1.0001089";
"  2S       39.830960     -0.0005203     -0.0001399      0.0000377";
"  1S       22.047483     -0.2524369      0.0201415      0.0018499";
"  2S       18.652077     -0.1770929      0.0259300     -0.0003553";
"  2S       10.310938      0.3352238      0.1782044      0.0002560";
"  1S        9.137493     -0.8924653     -0.5717747      0.2240457";
"  2S        6.065377      0.0030277      0.3405770      0.0840205";
"  2S        4.354530     -0.0019611      0.7307786      0.0130346";
"  1S        2.503308      0.0006791      0.0494446     -1.1052918";
"  1S        1.029187     -0.0000922     -0.0006235      0.9374986";
"  1S        0.720996      0.0000595      0.0008560      0.5429274";
"  1S        0.351588     -0.0000069     -0.0000617      0.0040359";
"        P                    2P             3P ";
"  BASIS/ORB.ENERGY       -3.9982000     -0.0618071";
"              CUSP        1.0003159      1.0005105";
"  2P       37.700775     -0.0000505      0.0000094";
"  3P       16.610892     -0.0041598      0.0007747";
"  2P        9.943042      0.1334780     -0.0258912";
"  3P        8.449657      0.0858841     -0.0204900";
"  2P        4.852901      0.4492469     -0.0733688";
"  3P        3.316241     -0.1889698     -0.0130529";
"  2P        3.064639      0.5666789     -0.1668297";
"  2P        1.259502      0.0015587      0.3874979";
"  2P        0.787892     -0.0002711      0.4861129";
"  2P        0.501857      0.0001005      0.2499434";
"  2P        0.351588     -0.0000326      0.0152949";
""].
(** data.tar: anion/sn.an:1-55 *)
Definition sn_anion : list string := [
"      TIN-   K(2)L(8)M(18)4S(2)4P(6)5S(2)4D(10)5P(3), 4S                              ";
"   E = -6022.972651014";
"   T =  6022.972630571     V =-12045.945281586     V/T =    -2.000000003";
"  ORBITAL ENERGIES AND EXPANSION COEFFICIENTS";
"        S                    1S             2S             3S             4S             5S ";
"  BASIS/ORB.ENERGY    -1040.9933452   -156.7476992    -31.3690610     -5.2822290     -0.2655001";
"              CUSP        1.0001880      1.0000877      1.0002348      1.0003305      1.0007671";
"  1S       94.900535     -0.0138183     -0.0132508     -0.0068447      0.0033716     -0.0010673";
"  3S       68.137341      0.0198562      0.0175628      0.0094001     -0.0047286      0.0015475";
"  1S       52.948296      0.9410948      0.3254143      0.1455764     -0.0641719      0.0182540";
"  3S       34.761265     -0.1279953     -0.2638608     -0.0986014      0.0317580     -0.0057559";
"  3S       26.007709     -0.0749505     -0.5191222     -0.3136082      0.1690211     -0.0541201";
"  2S       25.949436      0.2451754      0.0125773      0.0779480     -0.0128240     -0.0043821";
"  2S       16.903961      0.0097245     -0.3041022     -0.4121925      0.1143258     -0.0086787";
"  3S       11.858400     -0.0023458      0.0293897      0.8990223     -0.0910092     -0.0217629";
"  3S       10.176580      0.0017831     -0.0262384      0.2807362     -1.0320301      0.4226436";
"  3S        4.868171      0.0009141     -0.0176844     -0.2110214      0.5271259      0.0160398";
"  2S        4.006024     -0.0013809      0.0263304      0.3343813      0.7176434     -0.2702319";
"  2S        3.039834      0.0001422     -0.0024133     -0.0364427      0.2118723     -0.5787906";
"  2S        1.301440     -0.0000059      0.0000485      0.0015625     -0.0032956      0.7888065";
"  2S        0.827032      0.0000029     -0.0000167     -0.0007899      0.0021796      0.4667013";
"  1S        0.348192     -0.0000008      0.0000031      0.0002104     -0.0005747      0.0108722";
"        P                    2P             3P             4P             5P ";
"  BASIS/ORB.ENERGY     -146.2595603    -26.9794956     -3.7395494     -0.0606190";
"              CUSP        1.0008952      1.0008567      1.0000324      0.9992871";
"  2P       61.557331      0.0158245      0.0274683     -0.0191676      0.0044471";
"  3P       54.446852      0.0183766      0.0309618     -0.0214240      0.0049585";
"  3P       35.958273      0.1048576      0.1465037     -0.1009453      0.0233928";
"  2P       25.603693     -0.9423005     -0.6138386      0.3153120     -0.0680307";
"  3P       20.785282     -0.2202437     -0.1130942     -0.0001419      0.0045469";
"  3P       11.749263     -0.0016597      0.7732700     -0.2781282      0.0530937";
"  3P        9.457270     -0.0022566      0.3093412     -0.7070862      0.1847434";
"  3P        4.402498     -0.0043002     -0.1387519      0.1650614      0.0459218";
"  2P        3.621333      0.0058319      0.2084323      1.1062552     -0.2893138";
"  2P        2.448783     -0.0001775     -0.0168521      0.1389558     -0.2777657";
"  3P        1.797727     -0.0000665      0.0022398     -0.0039361      0.0281210";
"  2P        0.963211      0.0000615     -0.0008740      0.0027254      0.6083342";
"  2P        0.565190     -0.0000261      0.0002544     -0.0007383      0.4959805";
"  2P        0.348192      0.0000073     -0.0000603      0.0001407      0.0416434";
"        D                    3D             4D ";
"  BASIS/ORB.ENERGY      -18.9337384     -1.1392392";
"              CUSP        0.9994001      1.0003274";
"  3D       55.822411      0.0006748     -0.0003516";
"  4D       42.711782      0.0034267     -0.0018448";
"  3D       22.202820     -0.0229624      0.0255010";
"  3D       18.939736      0.1790588     -0.0983034";
"  3D       11.836843      0.5136533     -0.1023303";
"  3D        9.058130      0.2881761     -0.3928070";
"  3D        7.334322      0.0922255      0.1654587";
"  3D        4.348937      0.0034229      0.5107462";
"  3D        2.914349     -0.0006622      0.4847946";
"  3D        1.946943      0.0001708      0.1134103";
"  3D        1.009402     -0.0000326      0.0030447";
"  3D        0.348192      0.0000041      0.0000335";
" "].
(** data.tar: anion/tc.an:1-53 *)
Definition tc_anion : list string := [
"      TECHNETIUM-   K(2)L(8)M(18)4S(2)4P(6)5S(2)4D(6), 5D                             ";
"   E = -4204.764629736";
"   T =  4204.764637773     V = -8409.529267509     V/T =    -1.999999998";
"  ORBITAL ENERGIES AND EXPANSION COEFFICIENTS";
"        S                    1S             2S             3S             4S             5S ";
"  BASIS/ORB.ENERGY     -757.7403318   -108.7601882    -19.8213204     -2.8492418     -0.0182858";
"              CUSP        1.0002703      1.0000241      1.0004155      1.0006663      1.0009401";
"  1S       75.312699      0.0243485      0.0389377     -0.0168266      0.0065729     -0.0011148";
"  3S       55.705916     -0.0289138     -0.0416455      0.0185653     -0.0073903      0.0012723";
"  1S       45.130608     -0.9712891     -0.3776308      0.1607656     -0.0636049      0.0108514";
"  4S       32.948324      0.0348639      0.0982839     -0.0333496      0.0102854     -0.0015012";
"  2S       20.612275     -0.0971986      0.4888660     -0.1994818      0.0865790     -0.0159968";
"  3S       20.612017      0.0375744      0.4036611     -0.3510232      0.1717656     -0.0312503";
"  3S        9.748223      0.0117379     -0.2096826      1.0830379     -0.2518218      0.0276461";
"  3S        7.509306      0.0038239     -0.0870840      0.3951767     -0.7946260      0.1691449";
"  2S        7.509229     -0.0192551      0.3813834     -0.3374335     -0.1494111      0.0397904";
"  4S        3.928282     -0.0000663     -0.0006892      0.0004232      0.1703339      0.0105701";
"  2S        3.511620      0.0000505      0.0021103      0.0051256      0.9448810     -0.1241593";
"  2S        2.441652      0.0000486      0.0001057      0.0003456      0.4570704     -0.3172773";
"  2S        0.754281     -0.0000020      0.0000007      0.0000229      0.0006257      0.4641094";
"  2S        0.391683      0.0000017     -0.0000014     -0.0000169     -0.0002252      0.4343993";
"  1S        0.191237     -0.0000010      0.0000009      0.0000092      0.0001026      0.2330159";
"        P                    2P             3P             4P ";
"  BASIS/ORB.ENERGY     -100.0978399    -16.3902858     -1.7513113";
"              CUSP        1.0007878      1.0003561      1.0003652";
"  2P       67.176031     -0.0066817     -0.0047041     -0.0022851";
"  3P       55.690402     -0.0128774     -0.0090929     -0.0044197";
"  2P       33.823668      0.2885507      0.1550686      0.0689589";
"  3P       27.242414      0.3455475      0.1665313      0.0696676";
"  3P       20.253084      0.3138828      0.2998679      0.1580529";
"  2P       13.943172      0.1461839     -0.1118537     -0.1406968";
"  3P        9.485245      0.0007761     -0.7756982     -0.3016106";
"  3P        7.076767      0.0003568     -0.3172883     -0.5749762";
"  3P        2.531225      0.0001805      0.0072250     -0.7069047";
"  2P        2.252153     -0.0002915     -0.0122801      2.0163096";
"  2P        0.965516     -0.0000045     -0.0000327      0.0079077";
"  2P        0.191237      0.0000004      0.0000048      0.0000933";
"        D                    3D             4D ";
"  BASIS/ORB.ENERGY      -10.1368688     -0.2138697";
"              CUSP        0.9994759      1.0002657";
"  3D       46.021191      0.0008472     -0.0002818";
"  4D       35.133830      0.0043093     -0.0014661";
"  3D       18.569919      0.0004270      0.0050921";
"  3D       14.659353      0.1955331     -0.0665411";
"  3D        9.176789      0.6242047     -0.1848279";
"  4D        7.572081      0.1788231     -0.1371490";
"  3D        5.242938      0.0772024      0.0724655";
"  3D        3.147052      0.0018975      0.3989416";
"  3D        1.997374      0.0001273      0.4524227";
"  3D        1.264586      0.0000808      0.2492072";
"  3D        0.796743      0.0000100      0.0389424";
"  3D        0.191237      0.0000000      0.0000978";
""].
(** data.tar: anion/te.an:1-55 *)
Definition te_anion : list string := [
"      TELLURIUM-   K(2)L(8)M(18)4S(2)4P(6)5S(2)4D(10)5P(5), 2P                        ";
"   E = -6611.827941644";
"   T =  6611.827930431     V =-13223.655872076     V/T =    -2.000000002";
"  ORBITAL ENERGIES AND EXPANSION COEFFICIENTS";
"        S                    1S             2S             3S             4S             5S ";
"  BASIS/ORB.ENERGY    -1130.6505376   -172.4890891    -35.4885483     -6.3804062     -0.4574659";
"              CUSP        1.0001730      1.0001057      1.0002292      1.0002859      1.0006668";
"  1S       98.696557     -0.0143932     -0.0130455     -0.0067416      0.0033951     -0.0012193";
"  3S       71.109902      0.0199657      0.0168675      0.0090121     -0.0046249      0.0017158";
"  1S       55.203765      0.9392786      0.3246354      0.1463100     -0.0661231      0.0212964";
"  3S       36.413466     -0.1323231     -0.2635481     -0.1010178      0.0342491     -0.0072532";
"  3S       27.185358     -0.0782091     -0.5381882     -0.3224378      0.1775261     -0.0647529";
"  2S       27.176295      0.2537162      0.0167374      0.0817764     -0.0157055     -0.0046540";
"  2S       17.146329      0.0113479     -0.2978286     -0.4403559      0.1459397     -0.0151956";
"  3S       12.624989     -0.0058402      0.0749923      0.7030322      0.4593905     -0.2893801";
"  3S       11.500387      0.0047792     -0.0640411      0.4583352     -1.4349070      0.6897869";
"  3S        5.338931      0.0014140     -0.0224189     -0.3030897      1.0804712     -0.1251484";
"  2S        4.354008     -0.0023001      0.0361803      0.5285607     -0.2525433      0.3129503";
"  2S        3.598887      0.0003876     -0.0057986     -0.0986951      0.4958316     -1.1398850";
"  2S        1.543469     -0.0000054      0.0000280      0.0020354     -0.0043522      0.8986827";
"  2S        1.014789      0.0000022     -0.0000018     -0.0009962      0.0032828      0.4421499";
"  1S        0.439220     -0.0000005     -0.0000020      0.0002393     -0.0007839      0.0094548";
"        P                    2P             3P             4P             5P ";
"  BASIS/ORB.ENERGY     -161.4682241    -30.8180575     -4.6866727     -0.0964573";
"              CUSP        1.0009163      1.0009650      1.0001662      0.9996142";
"  2P       64.685899      0.0151440      0.0250414     -0.0185982      0.0055130";
"  3P       57.184474      0.0176003      0.0283638     -0.0208815      0.0061761";
"  3P       37.739300      0.0998026      0.1341043     -0.0983022      0.0290949";
"  2P       26.741405     -0.9343140     -0.5997170      0.3235037     -0.0879742";
"  3P       21.741953     -0.2228118     -0.1289629      0.0130857      0.0035556";
"  3P       12.398140      0.0022257      0.6631113     -0.0273966     -0.0162770";
"  3P       10.781732     -0.0063711      0.3622625     -0.8355113      0.2836807";
"  3P        4.928817     -0.0073765     -0.2807217      0.6827556     -0.0520832";
"  2P        3.986007      0.0106251      0.4584277      0.2943408     -0.0174648";
"  2P        3.099862     -0.0010261     -0.0746964      0.3298143     -0.5822654";
"  3P        2.193439     -0.0001030      0.0043449     -0.0022837      0.0694874";
"  2P        1.200562      0.0000940     -0.0015193      0.0038092      0.6741054";
"  2P        0.704625     -0.0000374      0.0003748     -0.0000868      0.4590286";
"  2P        0.439220      0.0000102     -0.0000883      0.0001732      0.0362080";
"        D                    3D             4D ";
"  BASIS/ORB.ENERGY      -22.2462869     -1.7722084";
"              CUSP        0.9991856      1.0009202";
"  3D       58.017463      0.0007250     -0.0004218";
"  4D       44.619250      0.0035918     -0.0021485";
"  3D       23.468745     -0.0485453      0.0429167";
"  3D       20.663265      0.1881888     -0.1128511";
"  3D       12.602923      0.5306449     -0.1185071";
"  3D        9.590733      0.2876293     -0.4534113";
"  3D        7.865781      0.0895323      0.2208888";
"  3D        4.505846      0.0030475      0.6263285";
"  3D        3.085856     -0.0008033      0.4220345";
"  3D        1.975996      0.0001623      0.0456469";
"  3D        1.029740     -0.0000402      0.0008071";
"  3D        0.439220      0.0000073      0.0001145";
" "].
(** data.tar: anion/ti.an:1-47 *)
Definition ti_anion : list string := [
"      TITANIUM-   K(2)L(8)3S(2)3P(6)4S(2)3D(3), 4F                                    ";
"   E =  -848.372549024";
"   T =   848.372548985     V = -1696.745098009     V/T =    -2.000000000";
"  ORBITAL ENERGIES AND EXPANSION COEFFICIENTS";
"        S                    1S             2S             3S             4S ";
"  BASIS/ORB.ENERGY     -182.9572300    -21.0839912     -2.5466168     -0.0159223";
"              CUSP        1.0003380      0.9994026      0.9997336      0.9997433";
"  1S       53.362122      0.0025362      0.0028037      0.0010579      0.0001615";
"  3S       31.101929     -0.0154181     -0.0128454     -0.0050051     -0.0007656";
"  1S       23.254666     -0.8403807     -0.1622881     -0.0591901     -0.0090218";
"  3S       15.554931      0.0711103      0.0594676      0.0329751      0.0054373";
"  2S        9.215081      0.1304860      1.0769229      0.1275466      0.0078444";
"  1S        8.297459     -0.3228601     -0.5313497     -0.1253033     -0.0117579";
"  2S        7.042452     -0.0010891      0.3323238      0.8085384      0.1470180";
"  2S        2.986466      0.0014200      0.0113035     -0.8876738     -0.1168654";
"  1S        1.953684     -0.0020869     -0.0121618     -0.5006406      0.0983001";
"  1S        1.394125      0.0005397      0.0031173      0.0137533     -0.5034610";
"  2S        0.366573      0.0000524      0.0003056      0.0007829     -0.4297602";
"  1S        0.286915     -0.0000675     -0.0003865     -0.0011254      1.4078860";
"  1S        0.178451     -0.0000017     -0.0000133      0.0000226      0.1611872";
"        P                    2P             3P ";
"  BASIS/ORB.ENERGY      -17.4563339     -1.4839805";
"              CUSP        1.0008568      0.9992826";
"  2P       49.052804     -0.0001807      0.0000824";
"  3P       29.000740     -0.0028710      0.0012308";
"  2P       15.647648      0.0963446     -0.0108845";
"  3P       11.743528      0.0012375      0.0613050";
"  2P        9.150376      0.6014700     -0.2136355";
"  2P        6.821285      0.3306640     -0.3799511";
"  3P        2.718281     -0.0063358     -0.5104482";
"  2P        2.335949      0.0099108      1.6427784";
"  2P        1.201431     -0.0000473      0.0210885";
"  2P        0.296940      0.0000049      0.0005568";
"  2P        0.178451     -0.0000030     -0.0001902";
"        D                    3D ";
"  BASIS/ORB.ENERGY       -0.1182726";
"              CUSP        1.0002296";
"  3D       19.219515      0.0012719";
"  4D       14.720700      0.0057172";
"  3D        6.901584      0.0403062";
"  3D        4.483890      0.1974766";
"  3D        2.849417      0.3183531";
"  3D        1.773766      0.3551067";
"  3D        1.098544      0.2379290";
"  3D        0.670500      0.0567391";
"  3D        0.178451      0.0001999";
""].
(** data.tar: anion/v.an:1-46 *)
Definition v_anion : list string := [
"      VANADIUM-   K(2)L(8)3S(2)3P(6)4S(2)3D(4), 5D                                    ";
"   E =  -942.863131519";
"   T =   942.863131342     V = -1885.726262861     V/T =    -2.000000000";
"  ORBITAL ENERGIES AND EXPANSION COEFFICIENTS";
"        S                    1S             2S             3S             4S ";
"  BASIS/ORB.ENERGY     -201.1651598    -23.5130320     -2.8351836     -0.0163431";
"              CUSP        1.0003329      0.9995045      0.9998207      0.9998070";
"  1S       55.842918      0.0023893      0.0026404      0.0010204      0.0001552";
"  3S       32.594460     -0.0144058     -0.0120557     -0.0048235     -0.0007364";
"  1S       24.300504     -0.8395719     -0.1564619     -0.0578244     -0.0085395";
"  3S       16.433286      0.0688478      0.0529190      0.0300052      0.0046097";
"  2S        9.772722      0.1375056      1.0916335      0.1314529      0.0090042";
"  1S        8.674616     -0.3305081     -0.5671825     -0.1386110     -0.0148109";
"  2S        7.481430      0.0011118      0.3541262      0.8291183      0.1422670";
"  2S        3.187533      0.0009023      0.0106635     -0.8803316     -0.1244574";
"  1S        2.042488     -0.0013134     -0.0108602     -0.5224418      0.1052151";
"  1S        1.470520      0.0003736      0.0030206      0.0235315     -0.4770818";
"  2S        0.374680      0.0000385      0.0002920      0.0012842     -0.4257615";
"  1S        0.292746     -0.0000483     -0.0003638     -0.0017369      1.3910464";
"  1S        0.180793     -0.0000018     -0.0000145     -0.0000050      0.1621316";
"        P                    2P             3P ";
"  BASIS/ORB.ENERGY      -19.6650822     -1.6872792";
"              CUSP        1.0007641      0.9994982";
"  2P       49.923386      0.0002218      0.0001000";
"  3P       30.468610      0.0029367      0.0012659";
"  2P       16.001986     -0.1335673     -0.0139067";
"  3P       12.393599     -0.0589027      0.0574579";
"  2P        9.431869     -0.5295888     -0.2338441";
"  2P        7.200978     -0.3113287     -0.3639014";
"  3P        2.914974      0.0067561     -0.5230709";
"  2P        2.500856     -0.0106945      1.6573337";
"  2P        1.337711      0.0000588      0.0243782";
"  2P        0.383619     -0.0000059      0.0005206";
"  2P        0.180793      0.0000026     -0.0000803";
"        D                    3D ";
"  BASIS/ORB.ENERGY       -0.1624188";
"              CUSP        1.0001414";
"  3D       20.565465      0.0012751";
"  4D       15.711032      0.0059302";
"  3D        7.172226      0.0517129";
"  3D        4.685764      0.2233057";
"  3D        2.977741      0.3384978";
"  3D        1.864561      0.3429347";
"  3D        1.168592      0.2015450";
"  3D        0.727885      0.0379091";
"  3D        0.180793      0.0001053"].
(** data.tar: anion/y.an:1-54 *)
Definition y_anion : list string := [
"      YTTRIUM-   K(2)L(8)M(18)4S(2)4P(6)5S(2)4D(1)5P(1), 1D                           ";
"   E = -3331.683106745";
"   T =  3331.683111301     V = -6663.366218045     V/T =    -1.999999999";
"  ORBITAL ENERGIES AND EXPANSION COEFFICIENTS";
"        S                    1S             2S             3S             4S             5S ";
"  BASIS/ORB.ENERGY     -616.6282981    -85.6901983    -14.6380143     -2.0471544     -0.0772348";
"              CUSP        1.0003530      1.0001389      1.0004682      1.0004802      1.0006707";
"  1S       65.578865     -0.0182754      0.0454548     -0.0193772      0.0070922     -0.0016404";
"  3S       48.619329      0.0243727     -0.0480450      0.0210051     -0.0077223      0.0018058";
"  1S       40.255923      0.9790433     -0.3928103      0.1631921     -0.0599715      0.0140366";
"  4S       28.236248     -0.0266879      0.1064778     -0.0359939      0.0117869     -0.0023834";
"  2S       17.389229      0.0719088      0.6999329     -0.3825725      0.1422969     -0.0384671";
"  3S       17.371817     -0.0278726      0.2565795     -0.3734493      0.1619456     -0.0407286";
"  4S        9.690120     -0.0031684     -0.0368348      0.2569323     -0.0464669      0.0068044";
"  3S        6.307218     -0.0037266     -0.0587894     -0.1714163     -0.3649806      0.1339473";
"  2S        5.892936      0.0090488      0.1321206      1.1670834     -0.5908750      0.1408412";
"  2S        2.969391     -0.0001155      0.0033798     -0.0119384     -0.9124118     -0.1480929";
"  2S        2.631004      0.0001078     -0.0029259      0.0137110      2.1367505     -0.0086859";
"  2S        1.851811     -0.0000130      0.0003116     -0.0011536      0.1475888     -0.5999492";
"  2S        0.692974      0.0000011     -0.0000271      0.0001081     -0.0005864      0.6069211";
"  1S        0.361680     -0.0000007      0.0000173     -0.0000709      0.0004481      0.6250722";
"  1S        0.079350      0.0000000     -0.0000010      0.0000041     -0.0000220      0.0028749";
"        P                    2P             3P             4P             5P ";
"  BASIS/ORB.ENERGY      -78.0438362    -11.7335902     -1.1795969     -0.0031480";
"              CUSP        1.0009662      1.0004944      0.9990443      0.9994274";
"  2P       48.700078     -0.0124540      0.0168758     -0.0066349      0.0010146";
"  3P       42.737411     -0.0161212      0.0208868     -0.0081255      0.0012440";
"  3P       27.358746     -0.1094917      0.1110579     -0.0433734      0.0066175";
"  2P       19.556496      0.9316712     -0.5058391      0.1754897     -0.0264212";
"  3P       15.843922      0.2280771     -0.1510063      0.0512243     -0.0075245";
"  3P       11.432235      0.0055852      0.1775923     -0.1022261      0.0157515";
"  3P        7.974166      0.0039026      0.7067569     -0.2325234      0.0351708";
"  3P        5.932445     -0.0008232      0.2842479     -0.4365526      0.0717711";
"  4P        2.295395     -0.0001255     -0.0029711     -0.2517369      0.0291959";
"  2P        1.841004      0.0001908      0.0063396      1.4699018     -0.2529652";
"  4P        1.116257      0.0000164      0.0000677      0.0023821      0.2172600";
"  3P        0.517865     -0.0000101     -0.0000524      0.0013401      0.4515458";
"  2P        0.192877      0.0000041      0.0000239     -0.0005530      0.4531274";
"  2P        0.079350     -0.0000012     -0.0000061      0.0001216      0.0591973";
"        D                    3D             4D ";
"  BASIS/ORB.ENERGY       -6.4787442     -0.1298475";
"              CUSP        1.0002636      1.0002685";
"  3D       41.573472      0.0008979     -0.0001963";
"  4D       31.385895      0.0048905     -0.0010802";
"  3D       13.106625      0.1768026     -0.0412242";
"  4D       12.420341      0.0054093     -0.0102746";
"  3D        8.392388      0.5271644     -0.0965388";
"  4D        6.961804      0.2202650     -0.0770593";
"  3D        4.566537      0.1622557     -0.0304051";
"  3D        2.573134      0.0026656      0.2790049";
"  3D        1.539634      0.0000865      0.5038534";
"  3D        0.923170     -0.0000387      0.3291778";
"  3D        0.533884      0.0000245      0.0507976";
"  3D        0.079350     -0.0000007      0.0006043"].
(** data.tar: anion/zr.an:1-53 *)
Definition zr_anion : list string := [
"      ZIRCONIUM-   K(2)L(8)M(18)4S(2)4P(6)5S(2)4D(3), 4F                              ";
"   E = -3538.994497048";
"   T =  3538.994505207     V = -7077.989002255     V/T =    -1.999999998";
"  ORBITAL ENERGIES AND EXPANSION COEFFICIENTS";
"        S                    1S             2S             3S             4S             5S ";
"  BASIS/ORB.ENERGY     -650.4451028    -91.1116445    -15.7885879     -2.1573602     -0.0174291";
"              CUSP        1.0003366      1.0001355      1.0004669      1.0005183      1.0008643";
"  1S       67.450497     -0.0197051      0.0452642     -0.0193672      0.0072202     -0.0013063";
"  3S       50.087841      0.0251466     -0.0472109      0.0207317     -0.0077793      0.0014301";
"  1S       41.392563      0.9787454     -0.3920777      0.1639758     -0.0614383      0.0111611";
"  4S       29.203784     -0.0274623      0.1059963     -0.0357500      0.0117295     -0.0018523";
"  2S       18.041660      0.0744913      0.6707022     -0.3660594      0.1370423     -0.0253373";
"  3S       18.037815     -0.0287005      0.2811478     -0.3790909      0.1671284     -0.0318586";
"  4S       10.118813     -0.0030744     -0.0385862      0.2790722     -0.0412189     -0.0009738";
"  3S        6.735228     -0.0031680     -0.0556716     -0.0169612     -0.4668059      0.1262526";
"  2S        6.345881      0.0085295      0.1355351      0.9874193     -0.4789560      0.0992254";
"  2S        4.033866     -0.0000634      0.0012005      0.0015454     -0.2084663     -0.0134847";
"  2S        2.682391      0.0000252     -0.0004107      0.0044455      1.3595031     -0.1736661";
"  2S        1.959441     -0.0000056      0.0000800     -0.0003575      0.1965534     -0.2657894";
"  2S        0.685741      0.0000002     -0.0000050      0.0000420      0.0002784      0.4874538";
"  2S        0.366699     -0.0000001      0.0000042     -0.0000335      0.0000454      0.4249767";
"  1S        0.186704      0.0000000     -0.0000024      0.0000189     -0.0000393      0.2309974";
"        P                    2P             3P             4P ";
"  BASIS/ORB.ENERGY      -83.2136823    -12.7544245     -1.2377801";
"              CUSP        1.0009722      0.9996608      0.9993820";
"  2P       65.754581     -0.0030051     -0.0023612     -0.0010139";
"  3P       53.003930     -0.0072010     -0.0055707     -0.0023878";
"  2P       29.684560      0.3214929      0.1701449      0.0660290";
"  3P       24.275120      0.3844645      0.1914235      0.0715090";
"  3P       17.824462      0.3227414      0.3291544      0.1489441";
"  2P       11.572641      0.0615132     -0.2437134     -0.1672794";
"  3P        8.371764      0.0016671     -0.7618044     -0.2769802";
"  3P        6.151678     -0.0002697     -0.2794925     -0.4809022";
"  3P        2.061198     -0.0001622      0.0040894     -0.7835793";
"  2P        1.843327      0.0001902     -0.0069743      2.0272951";
"  2P        0.677908      0.0000087      0.0000028      0.0050135";
"  2P        0.186704     -0.0000017      0.0000015      0.0000241";
"        D                    3D             4D ";
"  BASIS/ORB.ENERGY       -7.2519211     -0.0952080";
"              CUSP        1.0000015      0.9999808";
"  3D       43.336041      0.0008059     -0.0001893";
"  4D       32.711952      0.0044072     -0.0010483";
"  3D       14.125436      0.0821292     -0.0048241";
"  3D       12.762793      0.1100197     -0.0467264";
"  3D        8.478264      0.5690147     -0.1193854";
"  4D        6.944099      0.2165166     -0.0843227";
"  3D        4.634623      0.1095572     -0.0227410";
"  3D        2.960983      0.0030234      0.2301344";
"  3D        1.857180      0.0000887      0.4476480";
"  3D        1.129865      0.0000807      0.3855142";
"  3D        0.668007      0.0000054      0.1184603";
"  3D        0.186704      0.0000011      0.0008638";
""].

(** The files of the archive by directory and lower-case symbol, without anion/ag.an. *)
Definition archive_names : list (folder * string * list string) := [
(Neutral, "ac", ac_neutral);
(Neutral, "ag", ag_neutral);
(Neutral, "al", al_neutral);
(Neutral, "am", am_neutral);
(Neutral, "ar", ar_neutral);
(Neutral, "as", as_neutral);
(Neutral, "at", at_neutral);
(Neutral, "au", au_neutral);
(Neutral, "b", b_neutral);
(Neutral, "ba", ba_neutral);
(Neutral, "be", be_neutral);
(Neutral, "bi", bi_neutral);
(Neutral, "bk", bk_neutral);
(Neutral, "br", br_neutral);
(Neutral, "c", c_neutral);
(Neutral, "ca", ca_neutral);
(Neutral, "cd", cd_neutral);
(Neutral, "ce", ce_neutral);
(Neutral, "cf", cf_neutral);
(Neutral, "cl", cl_neutral);
(Neutral, "cm", cm_neutral);
(Neutral, "co", co_neutral);
(Neutral, "cr", cr_neutral);
(Neutral, "cs", cs_neutral);
(Neutral, "cu", cu_neutral);
(Neutral, "dy", dy_neutral);
(Neutral, "er", er_neutral);
(Neutral, "es", es_neutral);
(Neutral, "eu", eu_neutral);
(Neutral, "f", f_neutral);
(Neutral, "fe", fe_neutral);
(Neutral, "fm", fm_neutral);
(Neutral, "fr", fr_neutral);
(Neutral, "ga", ga_neutral);
(Neutral, "gd", gd_neutral);
(Neutral, "ge", ge_neutral);
(Neutral, "h", h_neutral);
(Neutral, "he", he_neutral);
(Neutral, "hf", hf_neutral);
(Neutral, "hg", hg_neutral);
(Neutral, "ho", ho_neutral);
(Neutral, "i", i_neutral);
(Neutral, "in", in_neutral);
(Neutral, "ir", ir_neutral);
(Neutral, "k", k_neutral);
(Neutral, "kr", kr_neutral);
(Neutral, "la", la_neutral);
(Neutral, "li", li_neutral);
(Neutral, "lr", lr_neutral);
(Neutral, "lu", lu_neutral);
(Neutral, "md", md_neutral);
(Neutral, "mg", mg_neutral);
(Neutral, "mn", mn_neutral);
(Neutral, "mo", mo_neutral);
(Neutral, "n", n_neutral);
(Neutral, "na", na_neutral);
(Neutral, "nb", nb_neutral);
(Neutral, "nd", nd_neutral);
(Neutral, "ne", ne_neutral);
(Neutral, "ni", ni_neutral);
(Neutral, "no", no_neutral);
(Neutral, "np", np_neutral);
(Neutral, "o", o_neutral);
(Neutral, "os", os_neutral);
(Neutral, "p", p_neutral);
(Neutral, "pa", pa_neutral);
(Neutral, "pb", pb_neutral);
(Neutral, "pd", pd_neutral);
(Neutral, "pm", pm_neutral);
(Neutral, "po", po_neutral);
(Neutral, "pr", pr_neutral);
(Neutral, "pt", pt_neutral);
(Neutral, "pu", pu_neutral);
(Neutral, "ra", ra_neutral);
(Neutral, "rb", rb_neutral);
(Neutral, "re", re_neutral);
(Neutral, "rh", rh_neutral);
(Neutral, "rn", rn_neutral);
(Neutral, "ru", ru_neutral);
(Neutral, "s", s_neutral);
(Neutral, "sb", sb_neutral);
(Neutral, "sc", sc_neutral);
(Neutral, "se", se_neutral);
(Neutral, "si", si_neutral);
(Neutral, "sm", sm_neutral);
(Neutral, "sn", sn_neutral);
(Neutral, "sr", sr_neutral);
(Neutral, "ta", ta_neutral);
(Neutral, "tb", tb_neutral);
(Neutral, "tc", tc_neutral);
(Neutral, "te", te_neutral);
(Neutral, "th", th_neutral);
(Neutral, "ti", ti_neutral);
(Neutral, "tl", tl_neutral);
(Neutral, "tm", tm_neutral);
(Neutral, "u", u_neutral);
(Neutral, "v", v_neutral);
(Neutral, "w", w_neutral);
(Neutral, "xe", xe_neutral);
(Neutral, "y", y_neutral);
(Neutral, "yb", yb_neutral);
(Neutral, "zn", zn_neutral);
(Neutral, "zr", zr_neutral);
(Cation, "ag", ag_cation);
(Cation, "al", al_cation);
(Cation, "ar", ar_cation);
(Cation, "as", as_cation);
(Cation, "b", b_cation);
(Cation, "be", be_cation);
(Cation, "br", br_cation);
(Cation, "c", c_cation);
(Cation, "ca", ca_cation);
(Cation, "cd", cd_cation);
(Cation, "cl", cl_cation);
(Cation, "co", co_cation);
(Cation, "cr", cr_cation);
(Cation, "cs", cs_cation);
(Cation, "cu", cu_cation);
(Cation, "f", f_cation);
(Cation, "fe", fe_cation);
(Cation, "ga", ga_cation);
(Cation, "ge", ge_cation);
(Cation, "i", i_cation);
(Cation, "in", in_cation);
(Cation, "k", k_cation);
(Cation, "kr", kr_cation);
(Cation, "li", li_cation);
(Cation, "mg", mg_cation);
(Cation, "mn", mn_cation);
(Cation, "mo", mo_cation);
(Cation, "n", n_cation);
(Cation, "na", na_cation);
(Cation, "nb", nb_cation);
(Cation, "ne", ne_cation);
(Cation, "ni", ni_cation);
(Cation, "o", o_cation);
(Cation, "p", p_cation);
(Cation, "pd", pd_cation);
(Cation, "rb", rb_cation);
(Cation, "rh", rh_cation);
(Cation, "ru", ru_cation);
(Cation, "s", s_cation);
(Cation, "sb", sb_cation);
(Cation, "sc", sc_cation);
(Cation, "se", se_cation);
(Cation, "si", si_cation);
(Cation, "sn", sn_cation);
(Cation, "sr", sr_cation);
(Cation, "tc", tc_cation);
(Cation, "te", te_cation);
(Cation, "ti", ti_cation);
(Cation, "v", v_cation);
(Cation, "xe", xe_cation);
(Cation, "y", y_cation);
(Cation, "zn", zn_cation);
(Cation, "zr", zr_cation);
(Anion, "al", al_anion);
(Anion, "as", as_anion);
(Anion, "b", b_anion);
(Anion, "br", br_anion);
(Anion, "c", c_anion);
(Anion, "cl", cl_anion);
(Anion, "co", co_anion);
(Anion, "cr", cr_anion);
(Anion, "cu", cu_anion);
(Anion, "f", f_anion);
(Anion, "fe", fe_anion);
(Anion, "ga", ga_anion);
(Anion, "ge", ge_anion);
(Anion, "h", h_anion);
(Anion, "i", i_anion);
(Anion, "in", in_anion);
(Anion, "k", k_anion);
(Anion, "li", li_anion);
(Anion, "mn", mn_anion);
(Anion, "mo", mo_anion);
(Anion, "n", n_anion);
(Anion, "na", na_anion);
(Anion, "nb", nb_anion);
(Anion, "ni", ni_anion);
(Anion, "o", o_anion);
(Anion, "p", p_anion);
(Anion, "pd", pd_anion);
(Anion, "rb", rb_anion);
(Anion, "rh", rh_anion);
(Anion, "ru", ru_anion);
(Anion, "s", s_anion);
(Anion, "sb", sb_anion);
(Anion, "sc", sc_anion);
(Anion, "se", se_anion);
(Anion, "si", si_anion);
(Anion, "sn", sn_anion);
(Anion, "tc", tc_anion);
(Anion, "te", te_anion);
(Anion, "ti", ti_anion);
(Anion, "v", v_anion);
(Anion, "y", y_anion);
(Anion, "zr", zr_anion)].

(** [n] null characters before each string. *)
Fixpoint with_nuls (l : list (nat * string)) : string :=
  match l with [] => "" | (n, s) :: r => String.concat "" (repeat (String Ascii.zero "") n) ++ s ++ with_nuls r end.
(** data.tar: anion/ag.an:1-80.  The file is itself an archive of the other anion files; its first entries
    are those of aluminium and arsenic. *)
Definition ag_anion_start : list string :=
  with_nuls [(0, "al.an"); (95, "0000644"); (1, "0001750"); (1, "0001750"); (1, "00000003546"); (1, "13662742346"); (1, "011043"); (1, " 0"); (100, "ustar  "); (1, "pally"); (27, "pally"); (210, "      ALUMINUM-   K(2)L(8)3S(2)3P(2), 3P                                              ")]
  :: (tl al_anion ++ with_nuls [(154, "as.an"); (95, "0000644"); (1, "0001750"); (1, "0001750"); (1, "00000005653"); (1, "13662742346"); (1, "011053"); (1, " 0"); (100, "ustar  "); (1, "pally"); (27, "pally"); (210, "      ARSENIC-   K(2)L(8)M(18)4S(2)4P(4), 3P                                          ")]
  :: tl as_anion)%list.
Definition archive_files (rest : file) (d : folder) (e : string) : option file :=
  if (folder_eqb d Anion && String.eqb e "ag")%bool then Some (map str ag_anion_start ++ rest)%list else
  match List.find (fun x => folder_eqb (fst (fst x)) d && String.eqb (snd (fst x)) e)%bool archive_names with
  | Some x => Some (map str (snd x)) | None => None end.
