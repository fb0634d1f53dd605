(** The data files of the archive are read exactly. *)
From Coq Require Import String Ascii List Bool Arith ZArith Lia.
From Verif Require Import XR PyStr PyText SpecParse ProofText ModelParse SpecFile ProofConf ProofConf2 ProofFile ProofFile2 ProofFile3 ProofFile4 ProofNames ProofCheck DataSlater SpecShipped ProofShipped DataTar SpecElem ProofElem SpecTar.
Import ListNotations.
Local Open Scope list_scope.

Definition tar_hints : list (folder * string * list string * (hint * nat)) := [
(Neutral, "ac"%string, ac_neutral, (mkH 0 0 1 [17; 14; 13; 8] ["   T = "%string; "23722.191934245"%string; "     V ="%string; "-47444.383812982"%string; "     V/T =    "%string; "-1.999999998"%string; ""%string] (Some false) [Sub 7 0 2; Sub 6 2 1], 89));
(Neutral, "ag"%string, ag_neutral, (mkH 0 0 1 [17; 14; 14] ["   T =  "%string; "5197.698468984"%string; "     V ="%string; "-10395.396936658"%string; "     V/T =    "%string; "-2.000000000"%string; ""%string] (None) [Closed 1; Closed 2; Closed 3; Sub 4 0 2; Sub 4 1 6; Sub 5 0 1; Sub 4 2 10], 47));
(Neutral, "al"%string, al_neutral, (mkH 0 0 1 [13; 13] ["   T =   "%string; "241.876707151"%string; "     V =  "%string; "-483.753414352"%string; "     V/T =    "%string; "-2.000000000"%string; ""%string] (None) [Closed 1; Closed 2; Sub 3 0 2; Sub 3 1 1], 13));
(Neutral, "am"%string, am_neutral, (mkH 0 0 1 [17; 14; 11; 10] ["   T = "%string; "27695.887174718"%string; "     V ="%string; "-55391.774192759"%string; "     V/T =    "%string; "-1.999999994"%string; ""%string] (Some false) [Sub 7 0 2; Sub 5 3 7], 95));
(Neutral, "ar"%string, ar_neutral, (mkH 0 0 1 [13; 13] ["   T =   "%string; "526.817512750"%string; "     V = "%string; "-1053.635025461"%string; "     V/T =    "%string; "-2.000000000"%string; ""%string] (None) [Sub 1 0 2; Sub 2 0 2; Sub 2 1 6; Sub 3 0 2; Sub 3 1 6], 18));
(Neutral, "as"%string, as_neutral, (mkH 0 0 1 [15; 14; 11] ["   T =  "%string; "2234.238652211"%string; "     V = "%string; "-4468.477304422"%string; "     V/T =    "%string; "-2.000000000"%string; ""%string] (None) [Closed 1; Closed 2; Closed 3; Sub 4 0 2; Sub 4 1 3], 33));
(Neutral, "at"%string, at_neutral, (mkH 0 0 1 [15; 14; 11; 8] ["   T = "%string; "21266.881493653"%string; "     V ="%string; "-42533.763037194"%string; "     V/T =    "%string; "-2.000000002"%string; ""%string] (Some true) [Sub 4 3 14; Sub 6 0 2; Sub 5 2 10; Sub 6 1 5], 85));
(Neutral, "au"%string, au_neutral, (mkH 0 0 1 [15; 12; 11; 8] ["   T = "%string; "17865.399642111"%string; "     V ="%string; "-35730.799467228"%string; "     V/T =    "%string; "-2.000000010"%string; ""%string] (Some true) [Sub 4 3 14; Sub 6 0 1; Sub 5 2 10], 79));
(Neutral, "b"%string, b_neutral, (mkH 0 0 1 [11; 10] ["   T =    "%string; "24.529060725"%string; "     V =   "%string; "-49.058121450"%string; "     V/T =    "%string; "-2.000000000"%string; ""%string] (None) [Sub 1 0 2; Sub 2 0 2; Sub 2 1 1], 5));
(Neutral, "ba"%string, ba_neutral, (mkH 0 0 1 [15; 12; 9] ["   T =  "%string; "7883.543713832"%string; "     V ="%string; "-15767.087422469"%string; "     V/T =    "%string; "-1.999999999"%string; ""%string] (Some true) [Sub 6 0 2], 56));
(Neutral, "be"%string, be_neutral, (mkH 0 0 1 [11] ["   T =    "%string; "14.573023130"%string; "     V =   "%string; "-29.146046297"%string; "     V/T =    "%string; "-2.000000003"%string; ""%string] (None) [Sub 1 0 2; Sub 2 0 2], 4));
(Neutral, "bi"%string, bi_neutral, (mkH 0 1 1 [15; 14; 11; 8] ["   T = "%string; "20095.586220804"%string; "     V ="%string; "-40191.172473338"%string; "     V/T =    "%string; "-2.000000002"%string; ""%string] (Some true) [Sub 4 3 14; Sub 6 0 2; Sub 5 2 10; Sub 6 1 3], 83));
(Neutral, "bk"%string, bk_neutral, (mkH 0 0 1 [17; 14; 13; 10] ["   T = "%string; "29099.831194369"%string; "     V ="%string; "-58199.662588449"%string; "     V/T =    "%string; "-2.000000007"%string; ""%string] (Some false) [Sub 7 0 2; Sub 6 2 1; Sub 5 3 8], 97));
(Neutral, "br"%string, br_neutral, (mkH 0 0 1 [15; 14; 11] ["   T =  "%string; "2572.441331595"%string; "     V = "%string; "-5144.882662976"%string; "     V/T =    "%string; "-2.000000000"%string; ""%string] (None) [Closed 1; Closed 2; Closed 3; Sub 4 0 2; Sub 4 1 5], 35));
(Neutral, "c"%string, c_neutral, (mkH 0 0 1 [11; 10] ["   T =    "%string; "37.688618960"%string; "     V =   "%string; "-75.377237919"%string; "     V/T =    "%string; "-2.000000000"%string; ""%string] (None) [Sub 1 0 2; Sub 2 0 2; Sub 2 1 2], 6));
(Neutral, "ca"%string, ca_neutral, (mkH 0 0 1 [15; 13] ["   T =   "%string; "676.758185367"%string; "     V = "%string; "-1353.516370714"%string; "     V/T =    "%string; "-2.000000000"%string; ""%string] (None) [Closed 1; Closed 2; Sub 3 0 2; Sub 3 1 6; Sub 4 0 2], 20));
(Neutral, "cd"%string, cd_neutral, (mkH 0 0 1 [17; 14; 14] ["   T =  "%string; "5465.133128301"%string; "     V ="%string; "-10930.266265490"%string; "     V/T =    "%string; "-2.000000002"%string; ""%string] (None) [Closed 1; Closed 2; Closed 3; Sub 4 0 2; Sub 4 1 6; Sub 5 0 2; Sub 4 2 10], 48));
(Neutral, "ce"%string, ce_neutral, (mkH 0 0 1 [15; 12; 11; 8] ["   T =  "%string; "8566.872517249"%string; "     V ="%string; "-17133.745051403"%string; "     V/T =    "%string; "-2.000000002"%string; ""%string] (Some true) [Sub 6 0 2; Sub 5 2 1; Sub 4 3 1], 58));
(Neutral, "cf"%string, cf_neutral, (mkH 0 1 1 [17; 14; 11; 10] ["   T = "%string; "29817.418749675"%string; "     V ="%string; "-59634.837456173"%string; "     V/T =    "%string; "-1.999999999"%string; ""%string] (Some false) [Sub 7 0 2; Sub 5 3 10], 98));
(Neutral, "cl"%string, cl_neutral, (mkH 0 0 1 [13; 13] ["   T =   "%string; "459.482072308"%string; "     V =  "%string; "-918.964144636"%string; "     V/T =    "%string; "-2.000000000"%string; ""%string] (None) [Closed 1; Closed 2; Sub 3 0 2; Sub 3 1 5], 17));
(Neutral, "cm"%string, cm_neutral, (mkH 0 1 1 [17; 14; 13; 10] ["   T = "%string; "28392.770991566"%string; "     V ="%string; "-56785.541953174"%string; "     V/T =    "%string; "-1.999999999"%string; ""%string] (Some false) [Sub 7 0 2; Sub 6 2 1; Sub 5 3 7], 96));
(Neutral, "co"%string, co_neutral, (mkH 0 0 1 [15; 13; 11] ["   T =  "%string; "1381.414552303"%string; "     V = "%string; "-2762.829104540"%string; "     V/T =    "%string; "-2.000000000"%string; ""%string] (None) [Closed 1; Closed 2; Sub 3 0 2; Sub 3 1 6; Sub 4 0 2; Sub 3 2 7], 27));
(Neutral, "cr"%string, cr_neutral, (mkH 0 0 1 [15; 13; 11] ["   T =  "%string; "1043.356375276"%string; "     V = "%string; "-2086.712750827"%string; "     V/T =    "%string; "-2.000000000"%string; ""%string] (None) [Closed 1; Closed 2; Sub 3 0 2; Sub 3 1 6; Sub 4 0 1; Sub 3 2 5], 24));
(Neutral, "cs"%string, cs_neutral, (mkH 0 0 1 [15; 12; 9] ["   T =  "%string; "7553.933539793"%string; "     V ="%string; "-15107.867076348"%string; "     V/T =    "%string; "-2.000000000"%string; ""%string] (Some true) [Sub 6 0 1], 55));
(Neutral, "cu"%string, cu_neutral, (mkH 0 0 1 [15; 13; 11] ["   T =  "%string; "1638.963741770"%string; "     V = "%string; "-3277.927482960"%string; "     V/T =    "%string; "-2.000000000"%string; ""%string] (None) [Closed 1; Closed 2; Sub 3 0 2; Sub 3 1 6; Sub 4 0 1; Sub 3 2 10], 29));
(Neutral, "dy"%string, dy_neutral, (mkH 0 0 1 [15; 12; 9; 8] ["   T = "%string; "11641.452478555"%string; "     V ="%string; "-23282.904912679"%string; "     V/T =    "%string; "-1.999999996"%string; ""%string] (Some true) [Sub 6 0 2; Sub 5 2 0; Sub 4 3 10], 66));
(Neutral, "er"%string, er_neutral, (mkH 0 0 1 [15; 12; 9; 8] ["   T = "%string; "12498.152587436"%string; "     V ="%string; "-24996.305199567"%string; "     V/T =    "%string; "-2.000000002"%string; ""%string] (Some true) [Sub 6 0 2; Sub 5 2 0; Sub 4 3 12], 68));
(Neutral, "es"%string, es_neutral, (mkH 0 0 1 [17; 14; 11; 10] ["   T = "%string; "30544.972073537"%string; "     V ="%string; "-61089.944045336"%string; "     V/T =    "%string; "-1.999999997"%string; ""%string] (Some false) [Sub 7 0 2; Sub 5 3 11], 99));
(Neutral, "eu"%string, eu_neutral, (mkH 0 0 1 [15; 12; 9; 8] ["   T = "%string; "10423.542867402"%string; "     V ="%string; "-20847.085742090"%string; "     V/T =    "%string; "-2.000000001"%string; ""%string] (Some true) [Sub 6 0 2; Sub 5 2 0; Sub 4 3 7], 63));
(Neutral, "f"%string, f_neutral, (mkH 4 1 1 [11; 10] ["   T =    "%string; "99.409349306"%string; "     V =  "%string; "-198.818698675"%string; "     V/T =    "%string; "-2.000000001"%string; ""%string] (None) [Sub 1 0 2; Sub 2 0 2; Sub 2 1 5], 9));
(Neutral, "fe"%string, fe_neutral, (mkH 0 0 1 [15; 13; 11] ["   T =  "%string; "1262.443664533"%string; "     V = "%string; "-2524.887329222"%string; "     V/T =    "%string; "-2.000000000"%string; ""%string] (None) [Closed 1; Closed 2; Sub 3 0 2; Sub 3 1 6; Sub 4 0 2; Sub 3 2 6], 26));
(Neutral, "fm"%string, fm_neutral, (mkH 0 1 1 [17; 14; 11; 10] ["   T = "%string; "31282.777465902"%string; "     V ="%string; "-62565.554847526"%string; "     V/T =    "%string; "-1.999999997"%string; ""%string] (Some false) [Sub 7 0 2; Sub 5 3 12], 100));
(Neutral, "fr"%string, fr_neutral, (mkH 0 0 1 [17; 14; 11; 8] ["   T = "%string; "22475.858541552"%string; "     V ="%string; "-44951.717071811"%string; "     V/T =    "%string; "-1.999999999"%string; ""%string] (Some false) [Sub 7 0 1], 87));
(Neutral, "ga"%string, ga_neutral, (mkH 0 0 1 [15; 14; 11] ["   T =  "%string; "1923.261007627"%string; "     V = "%string; "-3846.522015484"%string; "     V/T =    "%string; "-2.000000000"%string; ""%string] (None) [Closed 1; Closed 2; Closed 3; Sub 4 0 2; Sub 4 1 1], 31));
(Neutral, "gd"%string, gd_neutral, (mkH 0 0 1 [15; 12; 11; 8] ["   T = "%string; "10820.661050178"%string; "     V ="%string; "-21641.322069270"%string; "     V/T =    "%string; "-1.999999997"%string; ""%string] (Some true) [Sub 6 0 2; Sub 5 2 1; Sub 4 3 7], 64));
(Neutral, "ge"%string, ge_neutral, (mkH 0 0 1 [15; 14; 11] ["   T =  "%string; "2075.359730662"%string; "     V = "%string; "-4150.719461913"%string; "     V/T =    "%string; "-2.000000000"%string; ""%string] (None) [Closed 1; Closed 2; Closed 3; Sub 4 0 2; Sub 4 1 2], 32));
(Neutral, "h"%string, h_neutral, (mkH 0 0 1 [4] ["   T =     "%string; "0.500000000"%string; "     V =    "%string; "-1.000000000"%string; "     V/T =    "%string; "-2.000000000"%string; ""%string] (None) [Sub 1 0 1], 1));
(Neutral, "he"%string, he_neutral, (mkH 0 0 1 [8] ["   T =     "%string; "2.861679997"%string; "     V =    "%string; "-5.723359992"%string; "     V/T =    "%string; "-2.000000000"%string; ""%string] (None) [Sub 1 0 2], 2));
(Neutral, "hf"%string, hf_neutral, (mkH 0 0 1 [15; 12; 11; 8] ["   T = "%string; "14321.249546528"%string; "     V ="%string; "-28642.499145454"%string; "     V/T =    "%string; "-2.000000004"%string; ""%string] (Some true) [Sub 4 3 14; Sub 6 0 2; Sub 5 2 2], 72));
(Neutral, "hg"%string, hg_neutral, (mkH 0 0 1 [15; 12; 11; 8] ["   T = "%string; "18408.991325992"%string; "     V ="%string; "-36817.982580653"%string; "     V/T =    "%string; "-1.999999996"%string; ""%string] (Some true) [Sub 4 3 14; Sub 6 0 2; Sub 5 2 10], 80));
(Neutral, "ho"%string, ho_neutral, (mkH 0 0 1 [15; 12; 9; 8] ["   T = "%string; "12065.289643677"%string; "     V ="%string; "-24130.579280319"%string; "     V/T =    "%string; "-1.999999999"%string; ""%string] (Some true) [Sub 6 0 2; Sub 5 2 0; Sub 4 3 11], 67));
(Neutral, "i"%string, i_neutral, (mkH 0 0 1 [17; 16; 14] ["   T =  "%string; "6917.980898267"%string; "     V ="%string; "-13835.961786593"%string; "     V/T =    "%string; "-1.999999999"%string; ""%string] (None) [Closed 1; Closed 2; Closed 3; Sub 4 0 2; Sub 4 1 6; Sub 5 0 2; Sub 4 2 10; Sub 5 1 5], 53));
(Neutral, "in"%string, in_neutral, (mkH 0 0 1 [17; 16; 14] ["   T =  "%string; "5740.169150632"%string; "     V ="%string; "-11480.338301403"%string; "     V/T =    "%string; "-2.000000000"%string; ""%string] (None) [Closed 1; Closed 2; Closed 3; Sub 4 0 2; Sub 4 1 6; Sub 5 0 2; Sub 4 2 10; Sub 5 1 1], 49));
(Neutral, "ir"%string, ir_neutral, (mkH 0 0 1 [15; 12; 11; 8] ["   T = "%string; "16806.112983194"%string; "     V ="%string; "-33612.225915564"%string; "     V/T =    "%string; "-1.999999997"%string; ""%string] (Some true) [Sub 4 3 14; Sub 6 0 2; Sub 5 2 7], 77));
(Neutral, "k"%string, k_neutral, (mkH 0 0 1 [15; 13] ["   T =   "%string; "599.164786943"%string; "     V = "%string; "-1198.329573264"%string; "     V/T =    "%string; "-1.999999999"%string; ""%string] (None) [Closed 1; Closed 2; Sub 3 0 2; Sub 3 1 6; Sub 4 0 1], 19));
(Neutral, "kr"%string, kr_neutral, (mkH 0 0 1 [15; 14; 11] ["   T =  "%string; "2752.054976552"%string; "     V = "%string; "-5504.109952057"%string; "     V/T =    "%string; "-2.000000000"%string; ""%string] (None) [Closed 1; Closed 2; Closed 3; Sub 4 0 2; Sub 4 1 6], 36));
(Neutral, "la"%string, la_neutral, (mkH 0 0 1 [15; 12; 11] ["   T =  "%string; "8221.066541731"%string; "     V ="%string; "-16442.133098014"%string; "     V/T =    "%string; "-2.000000002"%string; ""%string] (Some true) [Sub 6 0 2; Sub 5 2 1], 57));
(Neutral, "li"%string, li_neutral, (mkH 0 0 1 [11] ["   T =     "%string; "7.432726945"%string; "     V =   "%string; "-14.865453874"%string; "     V/T =    "%string; "-1.999999998"%string; ""%string] (None) [Sub 1 0 2; Sub 2 0 1], 3));
(Neutral, "lr"%string, lr_neutral, (mkH 0 0 1 [17; 14; 13; 10] ["   T = "%string; "33557.949960623"%string; "     V ="%string; "-67115.900102873"%string; "     V/T =    "%string; "-2.000000005"%string; ""%string] (Some false) [Sub 7 0 2; Sub 6 2 1; Sub 5 3 14], 103));
(Neutral, "lu"%string, lu_neutral, (mkH 0 0 1 [15; 12; 11; 8] ["   T = "%string; "13851.807792702"%string; "     V ="%string; "-27703.615573867"%string; "     V/T =    "%string; "-1.999999999"%string; ""%string] (Some true) [Sub 6 0 2; Sub 5 2 1; Sub 4 3 14], 71));
(Neutral, "md"%string, md_neutral, (mkH 0 1 1 [17; 14; 11; 10] ["   T = "%string; "32030.932800758"%string; "     V ="%string; "-64061.865548323"%string; "     V/T =    "%string; "-1.999999998"%string; ""%string] (Some false) [Sub 7 0 2; Sub 5 3 13], 101));
(Neutral, "mg"%string, mg_neutral, (mkH 0 0 1 [13; 10] ["   T =   "%string; "199.614636280"%string; "     V =  "%string; "-399.229272549"%string; "     V/T =    "%string; "-2.000000000"%string; ""%string] (None) [Closed 1; Closed 2; Sub 3 0 2], 12));
(Neutral, "mn"%string, mn_neutral, (mkH 0 0 1 [15; 13; 11] ["   T =  "%string; "1149.866250980"%string; "     V = "%string; "-2299.732501972"%string; "     V/T =    "%string; "-2.000000000"%string; ""%string] (None) [Closed 1; Closed 2; Sub 3 0 2; Sub 3 1 6; Sub 4 0 2; Sub 3 2 5], 25));
(Neutral, "mo"%string, mo_neutral, (mkH 0 0 1 [17; 14; 14] ["   T =  "%string; "3975.549499110"%string; "     V = "%string; "-7951.098996477"%string; "     V/T =    "%string; "-2.000000000"%string; ""%string] (None) [Closed 1; Closed 2; Closed 3; Sub 4 0 2; Sub 4 1 6; Sub 5 0 1; Sub 4 2 5], 42));
(Neutral, "n"%string, n_neutral, (mkH 0 0 1 [11; 10] ["   T =    "%string; "54.400934180"%string; "     V =  "%string; "-108.801868378"%string; "     V/T =    "%string; "-2.000000000"%string; ""%string] (None) [Sub 1 0 2; Sub 2 0 2; Sub 2 1 3], 7));
(Neutral, "na"%string, na_neutral, (mkH 0 0 1 [13; 10] ["   T =   "%string; "161.858911519"%string; "     V =  "%string; "-323.717823029"%string; "     V/T =    "%string; "-2.000000000"%string; ""%string] (None) [Closed 1; Closed 2; Sub 3 0 1], 11));
(Neutral, "nb"%string, nb_neutral, (mkH 0 0 1 [17; 14; 14] ["   T =  "%string; "3753.597720324"%string; "     V = "%string; "-7507.195446029"%string; "     V/T =    "%string; "-2.000000001"%string; ""%string] (None) [Closed 1; Closed 2; Closed 3; Sub 4 0 2; Sub 4 1 6; Sub 5 0 1; Sub 4 2 4], 41));
(Neutral, "nd"%string, nd_neutral, (mkH 0 0 1 [15; 12; 9; 8] ["   T =  "%string; "9283.882848169"%string; "     V ="%string; "-18567.765657716"%string; "     V/T =    "%string; "-1.999999996"%string; ""%string] (Some true) [Sub 6 0 2; Sub 5 2 0; Sub 4 3 4], 60));
(Neutral, "ne"%string, ne_neutral, (mkH 0 0 1 [11; 10] ["   T =   "%string; "128.547098140"%string; "     V =  "%string; "-257.094196219"%string; "     V/T =    "%string; "-2.000000000"%string; ""%string] (None) [Sub 1 0 2; Sub 2 0 2; Sub 2 1 6], 10));
(Neutral, "ni"%string, ni_neutral, (mkH 0 0 1 [15; 13; 11] ["   T =  "%string; "1506.870907195"%string; "     V = "%string; "-3013.741814580"%string; "     V/T =    "%string; "-2.000000000"%string; ""%string] (None) [Closed 1; Closed 2; Sub 3 0 2; Sub 3 1 6; Sub 4 0 2; Sub 3 2 8], 28));
(Neutral, "no"%string, no_neutral, (mkH 0 0 1 [17; 14; 11; 10] ["   T = "%string; "32789.511728104"%string; "     V ="%string; "-65579.023642870"%string; "     V/T =    "%string; "-2.000000006"%string; ""%string] (Some false) [Sub 7 0 2; Sub 5 3 14], 102));
(Neutral, "np"%string, np_neutral, (mkH 0 1 1 [17; 14; 13; 10] ["   T = "%string; "26331.454764105"%string; "     V ="%string; "-52662.909527810"%string; "     V/T =    "%string; "-2.000000000"%string; ""%string] (Some false) [Sub 7 0 2; Sub 6 2 1; Sub 5 3 4], 93));
(Neutral, "o"%string, o_neutral, (mkH 4 1 1 [11; 10] ["   T =    "%string; "74.809398458"%string; "     V =  "%string; "-149.618796918"%string; "     V/T =    "%string; "-2.000000000"%string; ""%string] (None) [Sub 1 0 2; Sub 2 0 2; Sub 2 1 4], 8));
(Neutral, "os"%string, os_neutral, (mkH 0 0 1 [15; 12; 11; 8] ["   T = "%string; "16290.648421149"%string; "     V ="%string; "-32581.296806272"%string; "     V/T =    "%string; "-1.999999998"%string; ""%string] (Some true) [Sub 4 3 14; Sub 6 0 2; Sub 5 2 6], 76));
(Neutral, "p"%string, p_neutral, (mkH 0 0 1 [13; 13] ["   T =   "%string; "340.718780873"%string; "     V =  "%string; "-681.437561747"%string; "     V/T =    "%string; "-2.000000000"%string; ""%string] (None) [Closed 1; Closed 2; Sub 3 0 2; Sub 3 1 3], 15));
(Neutral, "pa"%string, pa_neutral, (mkH 0 0 1 [17; 14; 13; 10] ["   T = "%string; "25007.109737912"%string; "     V ="%string; "-50014.219421383"%string; "     V/T =    "%string; "-1.999999998"%string; ""%string] (Some false) [Sub 7 0 2; Sub 6 2 1; Sub 5 3 2], 91));
(Neutral, "pb"%string, pb_neutral, (mkH 0 0 1 [15; 14; 11; 8] ["   T = "%string; "19524.007912162"%string; "     V ="%string; "-39048.015773194"%string; "     V/T =    "%string; "-1.999999997"%string; ""%string] (Some true) [Sub 4 3 14; Sub 6 0 2; Sub 5 2 10; Sub 6 1 2], 82));
(Neutral, "pd"%string, pd_neutral, (mkH 0 0 1 [17; 14; 14] ["   T =  "%string; "4937.921019835"%string; "     V = "%string; "-9875.842038846"%string; "     V/T =    "%string; "-2.000000000"%string; ""%string] (None) [Closed 1; Closed 2; Closed 3; Sub 4 0 2; Sub 4 1 6; Sub 5 0 0; Sub 4 2 10], 46));
(Neutral, "pm"%string, pm_neutral, (mkH 0 0 1 [15; 12; 9; 8] ["   T =  "%string; "9655.098793530"%string; "     V ="%string; "-19310.197623669"%string; "     V/T =    "%string; "-2.000000004"%string; ""%string] (Some true) [Sub 6 0 2; Sub 5 2 0; Sub 4 3 5], 61));
(Neutral, "po"%string, po_neutral, (mkH 0 0 1 [15; 14; 11; 8] ["   T = "%string; "20676.500625502"%string; "     V ="%string; "-41353.001369647"%string; "     V/T =    "%string; "-2.000000006"%string; ""%string] (Some true) [Sub 4 3 14; Sub 6 0 2; Sub 5 2 10; Sub 6 1 4], 84));
(Neutral, "pr"%string, pr_neutral, (mkH 0 0 1 [15; 12; 9; 8] ["   T =  "%string; "8921.180886172"%string; "     V ="%string; "-17842.361783184"%string; "     V/T =    "%string; "-2.000000001"%string; ""%string] (Some true) [Sub 6 0 2; Sub 5 2 0; Sub 4 3 3], 59));
(Neutral, "pt"%string, pt_neutral, (mkH 0 0 1 [15; 12; 11; 8] ["   T = "%string; "17331.069666319"%string; "     V ="%string; "-34662.139379243"%string; "     V/T =    "%string; "-2.000000003"%string; ""%string] (Some true) [Sub 4 3 14; Sub 6 0 1; Sub 5 2 9], 78));
(Neutral, "pu"%string, pu_neutral, (mkH 0 0 1 [17; 14; 11; 10] ["   T = "%string; "27008.719238005"%string; "     V ="%string; "-54017.438485232"%string; "     V/T =    "%string; "-2.000000000"%string; ""%string] (Some false) [Sub 7 0 2; Sub 5 3 6], 94));
(Neutral, "ra"%string, ra_neutral, (mkH 0 0 1 [17; 14; 11; 8] ["   T = "%string; "23094.303625461"%string; "     V ="%string; "-46188.607118082"%string; "     V/T =    "%string; "-1.999999994"%string; ""%string] (Some false) [Sub 7 0 2], 88));
(Neutral, "rb"%string, rb_neutral, (mkH 0 0 1 [17; 14; 11] ["   T =  "%string; "2938.357452286"%string; "     V = "%string; "-5876.714904467"%string; "     V/T =    "%string; "-2.000000000"%string; ""%string] (None) [Closed 1; Closed 2; Closed 3; Sub 4 0 2; Sub 4 1 6; Sub 5 0 1], 37));
(Neutral, "re"%string, re_neutral, (mkH 0 0 1 [15; 12; 11; 8] ["   T = "%string; "15784.533014053"%string; "     V ="%string; "-31569.065997200"%string; "     V/T =    "%string; "-1.999999998"%string; ""%string] (Some true) [Sub 4 3 14; Sub 6 0 2; Sub 5 2 5], 75));
(Neutral, "rh"%string, rh_neutral, (mkH 0 0 1 [17; 14; 14] ["   T =  "%string; "4685.881694241"%string; "     V = "%string; "-9371.763394069"%string; "     V/T =    "%string; "-2.000000001"%string; ""%string] (None) [Closed 1; Closed 2; Closed 3; Sub 4 0 2; Sub 4 1 6; Sub 5 0 1; Sub 4 2 8], 45));
(Neutral, "rn"%string, rn_neutral, (mkH 0 0 1 [15; 14; 11; 8] ["   T = "%string; "21866.772036482"%string; "     V ="%string; "-43733.544107144"%string; "     V/T =    "%string; "-2.000000002"%string; ""%string] (Some true) [Sub 4 3 14; Sub 6 0 2; Sub 5 2 10; Sub 6 1 6], 86));
(Neutral, "ru"%string, ru_neutral, (mkH 0 0 1 [17; 14; 14] ["   T =  "%string; "4441.539473165"%string; "     V = "%string; "-8883.078957417"%string; "     V/T =    "%string; "-2.000000002"%string; ""%string] (None) [Closed 1; Closed 2; Closed 3; Sub 4 0 2; Sub 4 1 6; Sub 5 0 1; Sub 4 2 7], 44));
(Neutral, "s"%string, s_neutral, (mkH 0 0 1 [13; 13] ["   T =   "%string; "397.504895830"%string; "     V =  "%string; "-795.009791707"%string; "     V/T =    "%string; "-2.000000000"%string; ""%string] (None) [Closed 1; Closed 2; Sub 3 0 2; Sub 3 1 4], 16));
(Neutral, "sb"%string, sb_neutral, (mkH 0 0 1 [17; 16; 14] ["   T =  "%string; "6313.485313897"%string; "     V ="%string; "-12626.970627537"%string; "     V/T =    "%string; "-2.000000000"%string; ""%string] (None) [Closed 1; Closed 2; Closed 3; Sub 4 0 2; Sub 4 1 6; Sub 5 0 2; Sub 4 2 10; Sub 5 1 3], 51));
(Neutral, "sc"%string, sc_neutral, (mkH 0 0 1 [15; 13; 11] ["   T =   "%string; "759.735717464"%string; "     V = "%string; "-1519.471434890"%string; "     V/T =    "%string; "-2.000000000"%string; ""%string] (None) [Closed 1; Closed 2; Sub 3 0 2; Sub 3 1 6; Sub 4 0 2; Sub 3 2 1], 21));
(Neutral, "se"%string, se_neutral, (mkH 0 0 1 [15; 14; 11] ["   T =  "%string; "2399.867609725"%string; "     V = "%string; "-4799.735219318"%string; "     V/T =    "%string; "-2.000000000"%string; ""%string] (None) [Closed 1; Closed 2; Closed 3; Sub 4 0 2; Sub 4 1 4], 34));
(Neutral, "si"%string, si_neutral, (mkH 0 0 1 [13; 13] ["   T =   "%string; "288.854362538"%string; "     V =  "%string; "-577.708724992"%string; "     V/T =    "%string; "-2.000000000"%string; ""%string] (None) [Closed 1; Closed 2; Sub 3 0 2; Sub 3 1 2], 14));
(Neutral, "sm"%string, sm_neutral, (mkH 0 0 1 [15; 12; 9; 8] ["   T = "%string; "10034.952363946"%string; "     V ="%string; "-20069.904768040"%string; "     V/T =    "%string; "-2.000000004"%string; ""%string] (Some true) [Sub 6 0 2; Sub 5 2 0; Sub 4 3 6], 62));
(Neutral, "sn"%string, sn_neutral, (mkH 0 0 1 [17; 16; 14] ["   T =  "%string; "6022.931688354"%string; "     V ="%string; "-12045.863377709"%string; "     V/T =    "%string; "-2.000000000"%string; ""%string] (None) [Closed 1; Closed 2; Closed 3; Sub 4 0 2; Sub 4 1 6; Sub 5 0 2; Sub 4 2 10; Sub 5 1 2], 50));
(Neutral, "sr"%string, sr_neutral, (mkH 0 0 1 [17; 14; 11] ["   T =  "%string; "3131.545683521"%string; "     V = "%string; "-6263.091368067"%string; "     V/T =    "%string; "-2.000000000"%string; ""%string] (None) [Closed 1; Closed 2; Closed 3; Sub 4 0 2; Sub 4 1 6; Sub 5 0 2], 38));
(Neutral, "ta"%string, ta_neutral, (mkH 0 0 1 [15; 12; 11; 8] ["   T = "%string; "14799.812372155"%string; "     V ="%string; "-29599.624762326"%string; "     V/T =    "%string; "-2.000000001"%string; ""%string] (Some true) [Sub 4 3 14; Sub 6 0 2; Sub 5 2 3], 73));
(Neutral, "tb"%string, tb_neutral, (mkH 0 0 1 [15; 12; 9; 8] ["   T = "%string; "11226.568261475"%string; "     V ="%string; "-22453.136478793"%string; "     V/T =    "%string; "-1.999999996"%string; ""%string] (Some true) [Sub 6 0 2; Sub 5 2 0; Sub 4 3 9], 65));
(Neutral, "tc"%string, tc_neutral, (mkH 0 0 1 [17; 14; 14] ["   T =  "%string; "4204.788744213"%string; "     V = "%string; "-8409.577478869"%string; "     V/T =    "%string; "-1.999999998"%string; ""%string] (None) [Closed 1; Closed 2; Closed 3; Sub 4 0 2; Sub 4 1 6; Sub 5 0 2; Sub 4 2 5], 43));
(Neutral, "te"%string, te_neutral, (mkH 0 0 1 [17; 16; 14] ["   T =  "%string; "6611.784057214"%string; "     V ="%string; "-13223.568108386"%string; "     V/T =    "%string; "-1.999999999"%string; ""%string] (None) [Closed 1; Closed 2; Closed 3; Sub 4 0 2; Sub 4 1 6; Sub 5 0 2; Sub 4 2 10; Sub 5 1 4], 52));
(Neutral, "th"%string, th_neutral, (mkH 0 0 1 [17; 14; 13; 8] ["   T = "%string; "24359.622040097"%string; "     V ="%string; "-48719.244294209"%string; "     V/T =    "%string; "-2.000000009"%string; ""%string] (Some false) [Sub 7 0 2; Sub 6 2 2], 90));
(Neutral, "ti"%string, ti_neutral, (mkH 0 0 1 [15; 13; 11] ["   T =   "%string; "848.405996466"%string; "     V = "%string; "-1696.811992791"%string; "     V/T =    "%string; "-2.000000000"%string; ""%string] (None) [Closed 1; Closed 2; Sub 3 0 2; Sub 3 1 6; Sub 4 0 2; Sub 3 2 2], 22));
(Neutral, "tl"%string, tl_neutral, (mkH 0 0 1 [15; 14; 11; 8] ["   T = "%string; "18961.824692369"%string; "     V ="%string; "-37923.649334038"%string; "     V/T =    "%string; "-1.999999997"%string; ""%string] (Some true) [Sub 4 3 14; Sub 6 0 2; Sub 5 2 10; Sub 6 1 1], 81));
(Neutral, "tm"%string, tm_neutral, (mkH 0 0 1 [15; 12; 9; 8] ["   T = "%string; "12940.174228651"%string; "     V ="%string; "-25880.348457002"%string; "     V/T =    "%string; "-2.000000000"%string; ""%string] (Some true) [Sub 6 0 2; Sub 5 2 0; Sub 4 3 13], 69));
(Neutral, "u"%string, u_neutral, (mkH 0 1 1 [17; 14; 13; 10] ["   T = "%string; "25664.338196191"%string; "     V ="%string; "-51328.676271551"%string; "     V/T =    "%string; "-1.999999995"%string; ""%string] (Some false) [Sub 7 0 2; Sub 6 2 1; Sub 5 3 3], 92));
(Neutral, "v"%string, v_neutral, (mkH 0 0 1 [15; 13; 11] ["   T =   "%string; "942.884337250"%string; "     V = "%string; "-1885.768674274"%string; "     V/T =    "%string; "-2.000000000"%string; ""%string] (None) [Closed 1; Closed 2; Sub 3 0 2; Sub 3 1 6; Sub 4 0 2; Sub 3 2 3], 23));
(Neutral, "w"%string, w_neutral, (mkH 0 0 1 [15; 12; 11; 8] ["   T = "%string; "15287.546102582"%string; "     V ="%string; "-30575.092265051"%string; "     V/T =    "%string; "-2.000000004"%string; ""%string] (Some true) [Sub 4 3 14; Sub 6 0 2; Sub 5 2 4], 74));
(Neutral, "xe"%string, xe_neutral, (mkH 0 0 1 [17; 16; 14] ["   T =  "%string; "7232.138367196"%string; "     V ="%string; "-14464.276723031"%string; "     V/T =    "%string; "-1.999999998"%string; ""%string] (None) [Closed 1; Closed 2; Closed 3; Sub 4 0 2; Sub 4 1 6; Sub 5 0 2; Sub 4 2 10; Sub 5 1 6], 54));
(Neutral, "y"%string, y_neutral, (mkH 0 0 1 [17; 14; 14] ["   T =  "%string; "3331.684164641"%string; "     V = "%string; "-6663.368332598"%string; "     V/T =    "%string; "-2.000000001"%string; ""%string] (None) [Closed 1; Closed 2; Closed 3; Sub 4 0 2; Sub 4 1 6; Sub 5 0 2; Sub 4 2 1], 39));
(Neutral, "yb"%string, yb_neutral, (mkH 0 0 1 [15; 12; 9; 8] ["   T = "%string; "13391.456004461"%string; "     V ="%string; "-26782.912015881"%string; "     V/T =    "%string; "-2.000000001"%string; ""%string] (Some true) [Sub 6 0 2; Sub 5 2 0; Sub 4 3 14], 70));
(Neutral, "zn"%string, zn_neutral, (mkH 0 0 1 [15; 13; 11] ["   T =  "%string; "1777.848115984"%string; "     V = "%string; "-3555.696231119"%string; "     V/T =    "%string; "-2.000000000"%string; ""%string] (None) [Closed 1; Closed 2; Sub 3 0 2; Sub 3 1 6; Sub 4 0 2; Sub 3 2 10], 30));
(Neutral, "zr"%string, zr_neutral, (mkH 0 0 1 [17; 14; 14] ["   T =  "%string; "3538.995058001"%string; "     V = "%string; "-7077.990120775"%string; "     V/T =    "%string; "-2.000000001"%string; ""%string] (None) [Closed 1; Closed 2; Closed 3; Sub 4 0 2; Sub 4 1 6; Sub 5 0 2; Sub 4 2 2], 40));
(Cation, "ag"%string, ag_cation, (mkH 3 1 1 [17; 14; 14] ["   T =  "%string; "5197.481329747"%string; "     V ="%string; "-10394.962657907"%string; "     V/T =    "%string; "-2.000000000"%string; ""%string] (None) [Closed 1; Closed 2; Closed 3; Sub 4 0 2; Sub 4 1 6; Sub 5 0 0; Sub 4 2 10], 47));
(Cation, "al"%string, al_cation, (mkH 3 1 1 [13; 10] ["   T =   "%string; "241.674670713"%string; "     V =  "%string; "-483.349341124"%string; "     V/T =    "%string; "-1.999999999"%string; ""%string] (None) [Closed 1; Closed 2; Sub 3 0 2], 13));
(Cation, "ar"%string, ar_cation, (mkH 4 1 1 [13; 13] ["   T =   "%string; "526.274534125"%string; "     V = "%string; "-1052.549068293"%string; "     V/T =    "%string; "-2.000000000"%string; ""%string] (None) [Closed 1; Closed 2; Sub 3 0 2; Sub 3 1 5], 18));
(Cation, "as"%string, as_cation, (mkH 4 1 1 [15; 14; 11] ["   T =  "%string; "2233.888335161"%string; "     V = "%string; "-4467.776668575"%string; "     V/T =    "%string; "-1.999999999"%string; ""%string] (None) [Closed 1; Closed 2; Closed 3; Sub 4 0 2; Sub 4 1 2], 33));
(Cation, "b"%string, b_cation, (mkH 3 1 1 [11] ["   T =    "%string; "24.237575154"%string; "     V =   "%string; "-48.475150336"%string; "     V/T =    "%string; "-2.000000001"%string; ""%string] (None) [Sub 1 0 2; Sub 2 0 2], 5));
(Cation, "be"%string, be_cation, (mkH 4 1 1 [11] ["   T =    "%string; "14.277394812"%string; "     V =   "%string; "-28.554789624"%string; "     V/T =    "%string; "-2.000000000"%string; ""%string] (None) [Sub 1 0 2; Sub 2 0 1], 4));
(Cation, "br"%string, br_cation, (mkH 4 1 1 [15; 14; 11] ["   T =  "%string; "2572.045208992"%string; "     V = "%string; "-5144.090418136"%string; "     V/T =    "%string; "-2.000000000"%string; ""%string] (None) [Closed 1; Closed 2; Closed 3; Sub 4 0 2; Sub 4 1 4], 35));
(Cation, "c"%string, c_cation, (mkH 4 1 1 [11; 10] ["   T =    "%string; "37.292223758"%string; "     V =   "%string; "-74.584447528"%string; "     V/T =    "%string; "-2.000000000"%string; ""%string] (None) [Sub 1 0 2; Sub 2 0 2; Sub 2 1 1], 6));
(Cation, "ca"%string, ca_cation, (mkH 4 1 1 [15; 13] ["   T =   "%string; "676.570011413"%string; "     V = "%string; "-1353.140023546"%string; "     V/T =    "%string; "-2.000000001"%string; ""%string] (None) [Closed 1; Closed 2; Sub 3 0 2; Sub 3 1 6; Sub 4 0 1], 20));
(Cation, "cd"%string, cd_cation, (mkH 4 1 1 [17; 14; 14] ["   T =  "%string; "5464.878604622"%string; "     V ="%string; "-10929.757209199"%string; "     V/T =    "%string; "-2.000000000"%string; ""%string] (None) [Closed 1; Closed 2; Closed 3; Sub 4 0 2; Sub 4 1 6; Sub 5 0 1; Sub 4 2 10], 48));
(Cation, "cl"%string, cl_cation, (mkH 4 1 1 [13; 13] ["   T =   "%string; "459.048590546"%string; "     V =  "%string; "-918.097181110"%string; "     V/T =    "%string; "-2.000000000"%string; ""%string] (None) [Closed 1; Closed 2; Sub 3 0 2; Sub 3 1 4], 17));
(Cation, "co"%string, co_cation, (mkH 4 1 1 [15; 13; 11] ["   T =  "%string; "1381.128748178"%string; "     V = "%string; "-2762.257497139"%string; "     V/T =    "%string; "-2.000000001"%string; ""%string] (None) [Closed 1; Closed 2; Sub 3 0 2; Sub 3 1 6; Sub 4 0 0; Sub 3 2 8], 27));
(Cation, "cr"%string, cr_cation, (mkH 4 1 1 [15; 13; 11] ["   T =  "%string; "1043.139393255"%string; "     V = "%string; "-2086.278786266"%string; "     V/T =    "%string; "-2.000000000"%string; ""%string] (None) [Closed 1; Closed 2; Sub 3 0 2; Sub 3 1 6; Sub 4 0 0; Sub 3 2 5], 24));
(Cation, "cs"%string, cs_cation, (mkH 3 1 1 [17; 16; 14] ["   T =  "%string; "7553.810329869"%string; "     V ="%string; "-15107.620653443"%string; "     V/T =    "%string; "-1.999999999"%string; ""%string] (None) [Closed 1; Closed 2; Closed 3; Sub 4 0 2; Sub 4 1 6; Sub 5 0 2; Sub 4 2 10; Sub 5 1 6], 55));
(Cation, "cu"%string, cu_cation, (mkH 3 1 1 [15; 13; 11] ["   T =  "%string; "1638.728242564"%string; "     V = "%string; "-3277.456484275"%string; "     V/T =    "%string; "-1.999999999"%string; ""%string] (None) [Closed 1; Closed 2; Sub 3 0 2; Sub 3 1 6; Sub 4 0 0; Sub 3 2 10], 29));
(Cation, "f"%string, f_cation, (mkH 4 1 1 [11; 10] ["   T =    "%string; "98.831720181"%string; "     V =  "%string; "-197.663440376"%string; "     V/T =    "%string; "-2.000000000"%string; ""%string] (None) [Sub 1 0 2; Sub 2 0 2; Sub 2 1 4], 9));
(Cation, "fe"%string, fe_cation, (mkH 4 1 1 [15; 13; 11] ["   T =  "%string; "1262.213009361"%string; "     V = "%string; "-2524.426020505"%string; "     V/T =    "%string; "-2.000000001"%string; ""%string] (None) [Closed 1; Closed 2; Sub 3 0 2; Sub 3 1 6; Sub 4 0 1; Sub 3 2 6], 26));
(Cation, "ga"%string, ga_cation, (mkH 3 1 1 [15; 13; 11] ["   T =  "%string; "1923.059717924"%string; "     V = "%string; "-3846.119438488"%string; "     V/T =    "%string; "-2.000000001"%string; ""%string] (None) [Closed 1; Closed 2; Sub 3 0 2; Sub 3 1 6; Sub 4 0 2; Sub 3 2 10], 31));
(Cation, "ge"%string, ge_cation, (mkH 4 1 1 [15; 14; 11] ["   T =  "%string; "2075.086490249"%string; "     V = "%string; "-4150.172980916"%string; "     V/T =    "%string; "-2.000000000"%string; ""%string] (None) [Closed 1; Closed 2; Closed 3; Sub 4 0 2; Sub 4 1 1], 32));
(Cation, "i"%string, i_cation, (mkH 4 1 1 [17; 16; 14] ["   T =  "%string; "6917.627269288"%string; "     V ="%string; "-13835.254539540"%string; "     V/T =    "%string; "-2.000000000"%string; ""%string] (None) [Closed 1; Closed 2; Closed 3; Sub 4 0 2; Sub 4 1 6; Sub 5 0 2; Sub 4 2 10; Sub 5 1 4], 53));
(Cation, "in"%string, in_cation, (mkH 3 1 1 [17; 14; 14] ["   T =  "%string; "5739.978378069"%string; "     V ="%string; "-11479.956764708"%string; "     V/T =    "%string; "-2.000000001"%string; ""%string] (None) [Closed 1; Closed 2; Closed 3; Sub 4 0 2; Sub 4 1 6; Sub 5 0 2; Sub 4 2 10], 49));
(Cation, "k"%string, k_cation, (mkH 3 1 1 [13; 13] ["   T =   "%string; "599.017579802"%string; "     V = "%string; "-1198.035159105"%string; "     V/T =    "%string; "-1.999999999"%string; ""%string] (None) [Sub 1 0 2; Sub 2 0 2; Sub 2 1 6; Sub 3 0 2; Sub 3 1 6], 19));
(Cation, "kr"%string, kr_cation, (mkH 4 1 1 [15; 14; 11] ["   T =  "%string; "2751.567392060"%string; "     V = "%string; "-5503.134783755"%string; "     V/T =    "%string; "-2.000000000"%string; ""%string] (None) [Closed 1; Closed 2; Closed 3; Sub 4 0 2; Sub 4 1 5], 36));
(Cation, "li"%string, li_cation, (mkH 3 1 1 [8] ["   T =     "%string; "7.236415202"%string; "     V =   "%string; "-14.472830403"%string; "     V/T =    "%string; "-2.000000000"%string; ""%string] (None) [Sub 1 0 2], 3));
(Cation, "mg"%string, mg_cation, (mkH 4 1 1 [13; 10] ["   T =   "%string; "199.371809657"%string; "     V =  "%string; "-398.743619314"%string; "     V/T =    "%string; "-2.000000000"%string; ""%string] (None) [Closed 1; Closed 2; Sub 3 0 1], 12));
(Cation, "mn"%string, mn_cation, (mkH 4 1 1 [15; 13; 11] ["   T =  "%string; "1149.649382175"%string; "     V = "%string; "-2299.298764345"%string; "     V/T =    "%string; "-2.000000000"%string; ""%string] (None) [Closed 1; Closed 2; Sub 3 0 2; Sub 3 1 6; Sub 4 0 1; Sub 3 2 5], 25));
(Cation, "mo"%string, mo_cation, (mkH 4 1 1 [17; 14; 14] ["   T =  "%string; "3975.333703157"%string; "     V = "%string; "-7950.667403396"%string; "     V/T =    "%string; "-1.999999999"%string; ""%string] (None) [Closed 1; Closed 2; Closed 3; Sub 4 0 2; Sub 4 1 6; Sub 5 0 0; Sub 4 2 5], 42));
(Cation, "n"%string, n_cation, (mkH 4 1 1 [11; 10] ["   T =    "%string; "53.888005010"%string; "     V =  "%string; "-107.776010021"%string; "     V/T =    "%string; "-2.000000000"%string; ""%string] (None) [Sub 1 0 2; Sub 2 0 2; Sub 2 1 2], 7));
(Cation, "na"%string, na_cation, (mkH 3 1 1 [11; 10] ["   T =   "%string; "161.676962476"%string; "     V =  "%string; "-323.353925085"%string; "     V/T =    "%string; "-2.000000001"%string; ""%string] (None) [Sub 1 0 2; Sub 2 0 2; Sub 2 1 6], 11));
(Cation, "nb"%string, nb_cation, (mkH 4 1 1 [17; 14; 14] ["   T =  "%string; "3753.389509791"%string; "     V = "%string; "-7506.779021205"%string; "     V/T =    "%string; "-2.000000000"%string; ""%string] (None) [Closed 1; Closed 2; Closed 3; Sub 4 0 2; Sub 4 1 6; Sub 5 0 0; Sub 4 2 4], 41));
(Cation, "ne"%string, ne_cation, (mkH 4 1 1 [11; 10] ["   T =   "%string; "127.817814176"%string; "     V =  "%string; "-255.635628296"%string; "     V/T =    "%string; "-2.000000000"%string; ""%string] (None) [Sub 1 0 2; Sub 2 0 2; Sub 2 1 5], 10));
(Cation, "ni"%string, ni_cation, (mkH 4 1 1 [15; 13; 11] ["   T =  "%string; "1506.591100054"%string; "     V = "%string; "-3013.182198420"%string; "     V/T =    "%string; "-1.999999999"%string; ""%string] (None) [Closed 1; Closed 2; Sub 3 0 2; Sub 3 1 6; Sub 4 0 0; Sub 3 2 9], 28));
(Cation, "o"%string, o_cation, (mkH 4 1 1 [11; 10] ["   T =    "%string; "74.372605671"%string; "     V =  "%string; "-148.745211348"%string; "     V/T =    "%string; "-2.000000000"%string; ""%string] (None) [Sub 1 0 2; Sub 2 0 2; Sub 2 1 3], 8));
(Cation, "p"%string, p_cation, (mkH 4 1 1 [13; 13] ["   T =   "%string; "340.349776116"%string; "     V =  "%string; "-680.699551949"%string; "     V/T =    "%string; "-1.999999999"%string; ""%string] (None) [Closed 1; Closed 2; Sub 3 0 2; Sub 3 1 2], 15));
(Cation, "pd"%string, pd_cation, (mkH 4 1 1 [17; 14; 14] ["   T =  "%string; "4937.675927723"%string; "     V = "%string; "-9875.351851427"%string; "     V/T =    "%string; "-1.999999999"%string; ""%string] (None) [Closed 1; Closed 2; Closed 3; Sub 4 0 2; Sub 4 1 6; Sub 5 0 0; Sub 4 2 9], 46));
(Cation, "rb"%string, rb_cation, (mkH 3 1 1 [15; 14; 11] ["   T =  "%string; "2938.219927777"%string; "     V = "%string; "-5876.439855869"%string; "     V/T =    "%string; "-2.000000000"%string; ""%string] (None) [Closed 1; Closed 2; Closed 3; Sub 4 0 2; Sub 4 1 6], 37));
(Cation, "rh"%string, rh_cation, (mkH 4 1 1 [17; 14; 14] ["   T =  "%string; "4685.664162208"%string; "     V = "%string; "-9371.328328905"%string; "     V/T =    "%string; "-2.000000001"%string; ""%string] (None) [Closed 1; Closed 2; Closed 3; Sub 4 0 2; Sub 4 1 6; Sub 5 0 0; Sub 4 2 8], 45));
(Cation, "ru"%string, ru_cation, (mkH 4 1 1 [17; 14; 14] ["   T =  "%string; "4441.321950672"%string; "     V = "%string; "-8882.643902977"%string; "     V/T =    "%string; "-2.000000000"%string; ""%string] (None) [Closed 1; Closed 2; Closed 3; Sub 4 0 2; Sub 4 1 6; Sub 5 0 0; Sub 4 2 7], 44));
(Cation, "s"%string, s_cation, (mkH 4 1 1 [13; 13] ["   T =   "%string; "397.173182902"%string; "     V =  "%string; "-794.346365573"%string; "     V/T =    "%string; "-1.999999999"%string; ""%string] (None) [Closed 1; Closed 2; Sub 3 0 2; Sub 3 1 3], 16));
(Cation, "sb"%string, sb_cation, (mkH 4 1 1 [17; 16; 14] ["   T =  "%string; "6313.165931418"%string; "     V ="%string; "-12626.331869720"%string; "     V/T =    "%string; "-2.000000001"%string; ""%string] (None) [Closed 1; Closed 2; Closed 3; Sub 4 0 2; Sub 4 1 6; Sub 5 0 2; Sub 4 2 10; Sub 5 1 2], 51));
(Cation, "sc"%string, sc_cation, (mkH 4 1 1 [15; 13; 11] ["   T =   "%string; "759.539143095"%string; "     V = "%string; "-1519.078286651"%string; "     V/T =    "%string; "-2.000000001"%string; ""%string] (None) [Closed 1; Closed 2; Sub 3 0 2; Sub 3 1 6; Sub 4 0 1; Sub 3 2 1], 21));
(Cation, "se"%string, se_cation, (mkH 4 1 1 [15; 14; 11] ["   T =  "%string; "2399.558572004"%string; "     V = "%string; "-4799.117144803"%string; "     V/T =    "%string; "-2.000000000"%string; ""%string] (None) [Closed 1; Closed 2; Closed 3; Sub 4 0 2; Sub 4 1 3], 34));
(Cation, "si"%string, si_cation, (mkH 4 1 1 [13; 13] ["   T =   "%string; "288.573130976"%string; "     V =  "%string; "-577.146261973"%string; "     V/T =    "%string; "-2.000000000"%string; ""%string] (None) [Closed 1; Closed 2; Sub 3 0 2; Sub 3 1 1], 14));
(Cation, "sn"%string, sn_cation, (mkH 4 1 1 [17; 16; 14] ["   T =  "%string; "6022.678328054"%string; "     V ="%string; "-12045.356648462"%string; "     V/T =    "%string; "-1.999999999"%string; ""%string] (None) [Closed 1; Closed 2; Closed 3; Sub 4 0 2; Sub 4 1 6; Sub 5 0 2; Sub 4 2 10; Sub 5 1 1], 50));
(Cation, "sr"%string, sr_cation, (mkH 4 1 1 [17; 14; 11] ["   T =  "%string; "3131.373773565"%string; "     V = "%string; "-6262.747547899"%string; "     V/T =    "%string; "-2.000000000"%string; ""%string] (None) [Closed 1; Closed 2; Closed 3; Sub 4 0 2; Sub 4 1 6; Sub 5 0 1], 38));
(Cation, "tc"%string, tc_cation, (mkH 4 1 1 [17; 14; 14] ["   T =  "%string; "4204.594349640"%string; "     V = "%string; "-8409.188704661"%string; "     V/T =    "%string; "-2.000000001"%string; ""%string] (None) [Closed 1; Closed 2; Closed 3; Sub 4 0 2; Sub 4 1 6; Sub 5 0 1; Sub 4 2 5], 43));
(Cation, "te"%string, te_cation, (mkH 4 1 1 [17; 16; 14] ["   T =  "%string; "6611.503399381"%string; "     V ="%string; "-13223.006789796"%string; "     V/T =    "%string; "-1.999999999"%string; ""%string] (None) [Closed 1; Closed 2; Closed 3; Sub 4 0 2; Sub 4 1 6; Sub 5 0 2; Sub 4 2 10; Sub 5 1 3], 52));
(Cation, "ti"%string, ti_cation, (mkH 4 1 1 [15; 13; 11] ["   T =   "%string; "848.203399259"%string; "     V = "%string; "-1696.406799423"%string; "     V/T =    "%string; "-2.000000001"%string; ""%string] (None) [Closed 1; Closed 2; Sub 3 0 2; Sub 3 1 6; Sub 4 0 1; Sub 3 2 2], 22));
(Cation, "v"%string, v_cation, (mkH 4 1 1 [15; 13; 11] ["   T =   "%string; "942.670783660"%string; "     V = "%string; "-1885.341567007"%string; "     V/T =    "%string; "-2.000000000"%string; ""%string] (None) [Closed 1; Closed 2; Sub 3 0 2; Sub 3 1 6; Sub 4 0 0; Sub 3 2 4], 23));
(Cation, "xe"%string, xe_cation, (mkH 4 1 1 [17; 16; 14] ["   T =  "%string; "7231.708943551"%string; "     V ="%string; "-14463.417886848"%string; "     V/T =    "%string; "-2.000000000"%string; ""%string] (None) [Closed 1; Closed 2; Closed 3; Sub 4 0 2; Sub 4 1 6; Sub 5 0 2; Sub 4 2 10; Sub 5 1 5], 54));
(Cation, "y"%string, y_cation, (mkH 3 1 1 [17; 14; 11] ["   T =  "%string; "3331.472882755"%string; "     V = "%string; "-6662.945762687"%string; "     V/T =    "%string; "-1.999999999"%string; ""%string] (None) [Closed 1; Closed 2; Closed 3; Sub 4 0 2; Sub 4 1 6; Sub 5 0 2], 39));
(Cation, "zn"%string, zn_cation, (mkH 4 1 1 [15; 13; 11] ["   T =  "%string; "1777.567544767"%string; "     V = "%string; "-3555.135087316"%string; "     V/T =    "%string; "-1.999999999"%string; ""%string] (None) [Closed 1; Closed 2; Sub 3 0 2; Sub 3 1 6; Sub 4 0 1; Sub 3 2 10], 30));
(Cation, "zr"%string, zr_cation, (mkH 4 1 1 [17; 14; 14] ["   T =  "%string; "3538.809299988"%string; "     V = "%string; "-7077.618602321"%string; "     V/T =    "%string; "-2.000000001"%string; ""%string] (None) [Closed 1; Closed 2; Closed 3; Sub 4 0 2; Sub 4 1 6; Sub 5 0 1; Sub 4 2 2], 40));
(Anion, "al"%string, al_anion, (mkH 0 0 1 [14; 14] ["   T =   "%string; "241.878265187"%string; "     V =  "%string; "-483.756530389"%string; "     V/T =    "%string; "-2.000000000"%string; ""%string] (None) [Closed 1; Closed 2; Sub 3 0 2; Sub 3 1 2], 13));
(Anion, "as"%string, as_anion, (mkH 0 0 1 [16; 15; 12] ["   T =  "%string; "2234.222945522"%string; "     V = "%string; "-4468.445882434"%string; "     V/T =    "%string; "-1.999999996"%string; ""%string] (None) [Closed 1; Closed 2; Closed 3; Sub 4 0 2; Sub 4 1 4], 33));
(Anion, "b"%string, b_anion, (mkH 0 0 1 [12; 11] ["   T =    "%string; "24.519221360"%string; "     V =   "%string; "-49.038442721"%string; "     V/T =    "%string; "-2.000000000"%string; ""%string] (None) [Sub 1 0 2; Sub 2 0 2; Sub 2 1 2], 5));
(Anion, "br"%string, br_anion, (mkH 0 0 1 [16; 15; 12] ["   T =  "%string; "2572.536270073"%string; "     V = "%string; "-5145.072541118"%string; "     V/T =    "%string; "-2.000000000"%string; ""%string] (None) [Closed 1; Closed 2; Closed 3; Sub 4 0 2; Sub 4 1 6], 35));
(Anion, "c"%string, c_anion, (mkH 0 0 1 [12; 11] ["   T =    "%string; "37.708843614"%string; "     V =   "%string; "-75.417687227"%string; "     V/T =    "%string; "-2.000000000"%string; ""%string] (None) [Sub 1 0 2; Sub 2 0 2; Sub 2 1 3], 6));
(Anion, "cl"%string, cl_anion, (mkH 0 0 1 [14; 14] ["   T =   "%string; "459.576925415"%string; "     V =  "%string; "-919.153850656"%string; "     V/T =    "%string; "-2.000000000"%string; ""%string] (None) [Sub 1 0 2; Sub 2 0 2; Sub 2 1 6; Sub 3 0 2; Sub 3 1 6], 17));
(Anion, "co"%string, co_anion, (mkH 0 0 1 [16; 14; 12] ["   T =  "%string; "1381.351808754"%string; "     V = "%string; "-2762.703617607"%string; "     V/T =    "%string; "-2.000000000"%string; ""%string] (None) [Closed 1; Closed 2; Sub 3 0 2; Sub 3 1 6; Sub 4 0 2; Sub 3 2 8], 27));
(Anion, "cr"%string, cr_anion, (mkH 0 0 1 [16; 14; 12] ["   T =  "%string; "1043.337096790"%string; "     V = "%string; "-2086.674193137"%string; "     V/T =    "%string; "-2.000000000"%string; ""%string] (None) [Closed 1; Closed 2; Sub 3 0 2; Sub 3 1 6; Sub 4 0 2; Sub 3 2 5], 24));
(Anion, "cu"%string, cu_anion, (mkH 0 0 1 [16; 14; 12] ["   T =  "%string; "1638.964144144"%string; "     V = "%string; "-3277.928288243"%string; "     V/T =    "%string; "-2.000000000"%string; ""%string] (None) [Closed 1; Closed 2; Sub 3 0 2; Sub 3 1 6; Sub 4 0 2; Sub 3 2 10], 29));
(Anion, "f"%string, f_anion, (mkH 3 1 1 [12; 11] ["   T =    "%string; "99.459453916"%string; "     V =  "%string; "-198.918907823"%string; "     V/T =    "%string; "-2.000000000"%string; ""%string] (None) [Sub 1 0 2; Sub 2 0 2; Sub 2 1 6], 9));
(Anion, "fe"%string, fe_anion, (mkH 0 0 1 [16; 14; 12] ["   T =  "%string; "1262.367073364"%string; "     V = "%string; "-2524.734146712"%string; "     V/T =    "%string; "-2.000000000"%string; ""%string] (None) [Closed 1; Closed 2; Sub 3 0 2; Sub 3 1 6; Sub 4 0 2; Sub 3 2 7], 26));
(Anion, "ga"%string, ga_anion, (mkH 0 0 1 [16; 15; 12] ["   T =  "%string; "1923.260378800"%string; "     V = "%string; "-3846.520757438"%string; "     V/T =    "%string; "-2.000000000"%string; ""%string] (None) [Closed 1; Closed 2; Closed 3; Sub 4 0 2; Sub 4 1 2], 31));
(Anion, "ge"%string, ge_anion, (mkH 0 0 1 [16; 15; 12] ["   T =  "%string; "2075.394740002"%string; "     V = "%string; "-4150.789479701"%string; "     V/T =    "%string; "-2.000000000"%string; ""%string] (None) [Closed 1; Closed 2; Closed 3; Sub 4 0 2; Sub 4 1 3], 32));
(Anion, "h"%string, h_anion, (mkH 3 1 1 [9] ["   T =     "%string; "0.487929734"%string; "     V =    "%string; "-0.975859469"%string; "     V/T =    "%string; "-2.000000000"%string; ""%string] (None) [Sub 1 0 2], 1));
(Anion, "i"%string, i_anion, (mkH 0 0 1 [18; 17; 15] ["   T =  "%string; "6918.075851667"%string; "     V ="%string; "-13836.151726432"%string; "     V/T =    "%string; "-2.000000003"%string; ""%string] (None) [Closed 1; Closed 2; Closed 3; Sub 4 0 2; Sub 4 1 6; Sub 5 0 2; Sub 4 2 10; Sub 5 1 6], 53));
(Anion, "in"%string, in_anion, (mkH 0 0 1 [18; 17; 15] ["   T =  "%string; "5740.175132802"%string; "     V ="%string; "-11480.350268328"%string; "     V/T =    "%string; "-2.000000000"%string; ""%string] (None) [Closed 1; Closed 2; Closed 3; Sub 4 0 2; Sub 4 1 6; Sub 5 0 2; Sub 4 2 10; Sub 5 1 2], 49));
(Anion, "k"%string, k_anion, (mkH 0 0 1 [16; 14] ["   T =   "%string; "599.161916638"%string; "     V = "%string; "-1198.323833153"%string; "     V/T =    "%string; "-2.000000000"%string; ""%string] (None) [Closed 1; Closed 2; Sub 3 0 2; Sub 3 1 6; Sub 4 0 2], 19));
(Anion, "li"%string, li_anion, (mkH 3 1 1 [12] ["   T =     "%string; "7.428232059"%string; "     V =   "%string; "-14.856464118"%string; "     V/T =    "%string; "-2.000000000"%string; ""%string] (None) [Sub 1 0 2; Sub 2 0 2], 3));
(Anion, "mn"%string, mn_anion, (mkH 0 0 1 [16; 14; 12] ["   T =  "%string; "1149.729109808"%string; "     V = "%string; "-2299.458219618"%string; "     V/T =    "%string; "-2.000000000"%string; ""%string] (None) [Closed 1; Closed 2; Sub 3 0 2; Sub 3 1 6; Sub 4 0 2; Sub 3 2 6], 25));
(Anion, "mo"%string, mo_anion, (mkH 0 0 1 [18; 15; 15] ["   T =  "%string; "3975.526282579"%string; "     V = "%string; "-7951.052548836"%string; "     V/T =    "%string; "-1.999999996"%string; ""%string] (None) [Closed 1; Closed 2; Closed 3; Sub 4 0 2; Sub 4 1 6; Sub 5 0 2; Sub 4 2 5], 42));
(Anion, "n"%string, n_anion, (mkH 0 0 1 [12; 11] ["   T =    "%string; "54.321958875"%string; "     V =  "%string; "-108.643917750"%string; "     V/T =    "%string; "-2.000000000"%string; ""%string] (None) [Sub 1 0 2; Sub 2 0 2; Sub 2 1 4], 7));
(Anion, "na"%string, na_anion, (mkH 0 0 1 [14; 11] ["   T =   "%string; "161.855125937"%string; "     V =  "%string; "-323.710251878"%string; "     V/T =    "%string; "-2.000000000"%string; ""%string] (None) [Closed 1; Closed 2; Sub 3 0 2], 11));
(Anion, "nb"%string, nb_anion, (mkH 0 0 1 [18; 15; 15] ["   T =  "%string; "3753.578226707"%string; "     V = "%string; "-7507.156441276"%string; "     V/T =    "%string; "-1.999999997"%string; ""%string] (None) [Closed 1; Closed 2; Closed 3; Sub 4 0 2; Sub 4 1 6; Sub 5 0 2; Sub 4 2 4], 41));
(Anion, "ni"%string, ni_anion, (mkH 0 0 1 [16; 14; 12] ["   T =  "%string; "1506.821131914"%string; "     V = "%string; "-3013.642263833"%string; "     V/T =    "%string; "-2.000000000"%string; ""%string] (None) [Closed 1; Closed 2; Sub 3 0 2; Sub 3 1 6; Sub 4 0 2; Sub 3 2 9], 28));
(Anion, "o"%string, o_anion, (mkH 0 0 1 [12; 11] ["   T =    "%string; "74.789745907"%string; "     V =  "%string; "-149.579491835"%string; "     V/T =    "%string; "-2.000000000"%string; ""%string] (None) [Sub 1 0 2; Sub 2 0 2; Sub 2 1 5], 8));
(Anion, "p"%string, p_anion, (mkH 0 0 1 [14; 14] ["   T =   "%string; "340.698873552"%string; "     V =  "%string; "-681.397747083"%string; "     V/T =    "%string; "-2.000000000"%string; ""%string] (None) [Closed 1; Closed 2; Sub 3 0 2; Sub 3 1 4], 15));
(Anion, "pd"%string, pd_anion, (mkH 0 0 1 [18; 15; 15] ["   T =  "%string; "4937.891549244"%string; "     V = "%string; "-9875.783088357"%string; "     V/T =    "%string; "-1.999999998"%string; ""%string] (None) [Closed 1; Closed 2; Closed 3; Sub 4 0 2; Sub 4 1 6; Sub 5 0 2; Sub 4 2 9], 46));
(Anion, "rb"%string, rb_anion, (mkH 0 0 1 [18; 15; 12] ["   T =  "%string; "2938.354900435"%string; "     V = "%string; "-5876.709798407"%string; "     V/T =    "%string; "-1.999999999"%string; ""%string] (None) [Closed 1; Closed 2; Closed 3; Sub 4 0 2; Sub 4 1 6; Sub 5 0 2], 37));
(Anion, "rh"%string, rh_anion, (mkH 0 0 1 [18; 15; 15] ["   T =  "%string; "4685.875593411"%string; "     V = "%string; "-9371.751171398"%string; "     V/T =    "%string; "-1.999999997"%string; ""%string] (None) [Closed 1; Closed 2; Closed 3; Sub 4 0 2; Sub 4 1 6; Sub 5 0 2; Sub 4 2 8], 45));
(Anion, "ru"%string, ru_anion, (mkH 0 0 1 [18; 15; 15] ["   T =  "%string; "4441.528480802"%string; "     V = "%string; "-8883.056955096"%string; "     V/T =    "%string; "-1.999999999"%string; ""%string] (None) [Closed 1; Closed 2; Closed 3; Sub 4 0 2; Sub 4 1 6; Sub 5 0 2; Sub 4 2 7], 44));
(Anion, "s"%string, s_anion, (mkH 0 0 1 [14; 14] ["   T =   "%string; "397.538430032"%string; "     V =  "%string; "-795.076860197"%string; "     V/T =    "%string; "-2.000000000"%string; ""%string] (None) [Closed 1; Closed 2; Sub 3 0 2; Sub 3 1 5], 16));
(Anion, "sb"%string, sb_anion, (mkH 0 0 1 [18; 17; 15] ["   T =  "%string; "6313.481503701"%string; "     V ="%string; "-12626.963015534"%string; "     V/T =    "%string; "-2.000000001"%string; ""%string] (None) [Closed 1; Closed 2; Closed 3; Sub 4 0 2; Sub 4 1 6; Sub 5 0 2; Sub 4 2 10; Sub 5 1 4], 51));
(Anion, "sc"%string, sc_anion, (mkH 0 0 1 [16; 14; 12] ["   T =   "%string; "759.688773319"%string; "     V = "%string; "-1519.377546664"%string; "     V/T =    "%string; "-2.000000000"%string; ""%string] (None) [Closed 1; Closed 2; Sub 3 0 2; Sub 3 1 6; Sub 4 0 2; Sub 3 2 2], 21));
(Anion, "se"%string, se_anion, (mkH 0 0 1 [16; 15; 12] ["   T =  "%string; "2399.904733005"%string; "     V = "%string; "-4799.809457286"%string; "     V/T =    "%string; "-1.999999996"%string; ""%string] (None) [Closed 1; Closed 2; Closed 3; Sub 4 0 2; Sub 4 1 5], 34));
(Anion, "si"%string, si_anion, (mkH 0 0 1 [14; 14] ["   T =   "%string; "288.889660102"%string; "     V =  "%string; "-577.779320303"%string; "     V/T =    "%string; "-2.000000000"%string; ""%string] (None) [Closed 1; Closed 2; Sub 3 0 2; Sub 3 1 3], 14));
(Anion, "sn"%string, sn_anion, (mkH 0 0 1 [18; 17; 15] ["   T =  "%string; "6022.972630571"%string; "     V ="%string; "-12045.945281586"%string; "     V/T =    "%string; "-2.000000003"%string; ""%string] (None) [Closed 1; Closed 2; Closed 3; Sub 4 0 2; Sub 4 1 6; Sub 5 0 2; Sub 4 2 10; Sub 5 1 3], 50));
(Anion, "tc"%string, tc_anion, (mkH 0 0 1 [18; 15; 15] ["   T =  "%string; "4204.764637773"%string; "     V = "%string; "-8409.529267509"%string; "     V/T =    "%string; "-1.999999998"%string; ""%string] (None) [Closed 1; Closed 2; Closed 3; Sub 4 0 2; Sub 4 1 6; Sub 5 0 2; Sub 4 2 6], 43));
(Anion, "te"%string, te_anion, (mkH 0 0 1 [18; 17; 15] ["   T =  "%string; "6611.827930431"%string; "     V ="%string; "-13223.655872076"%string; "     V/T =    "%string; "-2.000000002"%string; ""%string] (None) [Closed 1; Closed 2; Closed 3; Sub 4 0 2; Sub 4 1 6; Sub 5 0 2; Sub 4 2 10; Sub 5 1 5], 52));
(Anion, "ti"%string, ti_anion, (mkH 0 0 1 [16; 14; 12] ["   T =   "%string; "848.372548985"%string; "     V = "%string; "-1696.745098009"%string; "     V/T =    "%string; "-2.000000000"%string; ""%string] (None) [Closed 1; Closed 2; Sub 3 0 2; Sub 3 1 6; Sub 4 0 2; Sub 3 2 3], 22));
(Anion, "v"%string, v_anion, (mkH 0 0 1 [16; 14; 12] ["   T =   "%string; "942.863131342"%string; "     V = "%string; "-1885.726262861"%string; "     V/T =    "%string; "-2.000000000"%string; ""%string] (None) [Closed 1; Closed 2; Sub 3 0 2; Sub 3 1 6; Sub 4 0 2; Sub 3 2 4], 23));
(Anion, "y"%string, y_anion, (mkH 0 0 1 [18; 17; 15] ["   T =  "%string; "3331.683111301"%string; "     V = "%string; "-6663.366218045"%string; "     V/T =    "%string; "-1.999999999"%string; ""%string] (None) [Closed 1; Closed 2; Closed 3; Sub 4 0 2; Sub 4 1 6; Sub 5 0 2; Sub 4 2 1; Sub 5 1 1], 39));
(Anion, "zr"%string, zr_anion, (mkH 0 0 1 [18; 15; 15] ["   T =  "%string; "3538.994505207"%string; "     V = "%string; "-7077.989002255"%string; "     V/T =    "%string; "-1.999999998"%string; ""%string] (None) [Closed 1; Closed 2; Closed 3; Sub 4 0 2; Sub 4 1 6; Sub 5 0 2; Sub 4 2 3], 40))].
Lemma tar_data : map fst tar_hints = archive_names.
Proof. reflexivity. Qed.
Definition keys_eqb (x y : folder * string * list string * (hint * nat)) : bool :=
  folder_eqb (fst (fst (fst x))) (fst (fst (fst y))) && String.eqb (snd (fst (fst x))) (snd (fst (fst y))).
(** Exponents above zero and quantum numbers from one on. *)
Definition posnum (t : text) : bool := negb (starts (str "-") t) && existsb (fun c => is_digit c && negb (Ascii.eqb c "0")) t.
Definition posrows (t : tfile) : bool := forallb (fun b => forallb (fun r : nat * string * list string => Nat.leb 1 (fst (fst r)) && posnum (str (snd (fst r)))) (tb_rows b)) (tf_blocks t).
(** The first orbital of the first block: its first coefficient is not zero and the exponent of its first row is not found again. *)
Definition horner (d : text) : Z := fold_left (fun a c => (10 * a + (Z.of_nat (nat_of_ascii c) - 48))%Z) d 0%Z.
Definition differs (t u : text) : bool :=
  match split_char "." [] t, split_char "." [] u with
  | [d; e], [d'; e'] => Nat.eqb (length e) (length e') && negb (Z.eqb (horner (d ++ e)) (horner (d' ++ e')))
  | _, _ => false
  end.
Definition nonzero (t : text) : bool := existsb (fun c => is_digit c && negb (Ascii.eqb c "0")) t.
Definition leadrow (t : tfile) : bool :=
  match tf_blocks t with
  | b :: _ =>
      match tb_energy b, tb_rows b with
      | _ :: _, (_, z, c :: _) as r :: rs =>
          nonzero (str c) && forallb (fun x : nat * string * list string => differs (str z) (str (snd (fst x)))) rs &&
          Nat.leb (list_sum (map (fun x : nat * string * list string => fst (fst x)) (r :: rs))) 100
      | _, _ => false
      end
  | [] => false
  end.
Definition tar_rows (t : tfile) : bool := posrows t && leadrow t.
Definition tar_tf (h : hint) (f : list string) : tfile := file_words (heavy_of h) (h_ratio h) (parts_of h (map str f)).
Definition tar_ok (x : folder * string * list string * (hint * nat)) : bool :=
  let '(d, e, f, (h, z)) := x in
  shipped_ok h (map str f) && Bool.eqb (heavy_of h) (str_in e heavy_atoms && negb (String.eqb e "cs" && folder_eqb d Cation)) &&
  Z.eqb (Z.of_nat (counts h (map str f))) (ion_electrons d z) && match nth_error symbols (z - 1) with Some s => String.eqb (lower s) e | None => false end && Nat.ltb 0 z &&
  match d with Neutral => true | Anion => str_in e anion_atoms && negb (String.eqb e "ag") | Cation => str_in e cation_atoms end &&
  negb (String.eqb e "") && forallb is_alpha (txt e) && String.eqb (lower e) e && Nat.ltb (length f) 100 && tar_rows (tar_tf h f).
Lemma tars_ok : forallb tar_ok tar_hints = true.
Proof. vm_compute. reflexivity. Qed.
Definition key_in (d : folder) (e : string) (l : list (folder * string * list string)) : bool :=
  existsb (fun x => folder_eqb (fst (fst x)) d && String.eqb (snd (fst x)) e) l.
Fixpoint keys_distinct (l : list (folder * string * list string)) : bool :=
  match l with [] => true | x :: r => negb (key_in (fst (fst x)) (snd (fst x)) r) && keys_distinct r end.
Lemma tar_keys : keys_distinct archive_names = true.
Proof. vm_compute. reflexivity. Qed.
Lemma folder_eqb_spec a b : folder_eqb a b = true <-> a = b.
Proof. destruct a, b; cbn; split; congruence. Qed.
Lemma key_in_spec d e l : key_in d e l = true <-> exists f, In (d, e, f) l.
Proof.
  unfold key_in. rewrite existsb_exists. split.
  - intros ([[d' e'] f] & I & H). cbn [fst snd] in H. apply andb_true_iff in H. destruct H as [H1 H2]. apply folder_eqb_spec in H1. apply String.eqb_eq in H2. subst. eauto.
  - intros (f & I). exists (d, e, f). split; auto. cbn [fst snd]. rewrite String.eqb_refl, andb_true_r. now apply folder_eqb_spec.
Qed.
Lemma find_key l d e f : keys_distinct l = true -> In (d, e, f) l ->
  List.find (fun x => folder_eqb (fst (fst x)) d && String.eqb (snd (fst x)) e) l = Some (d, e, f).
Proof.
  induction l as [|[[d' e'] f'] l IH]; intros K; [intros []|]. cbn [keys_distinct fst snd] in K. apply andb_true_iff in K. destruct K as [K1 K2]. cbn [List.find fst snd].
  destruct (folder_eqb d' d && String.eqb e' e) eqn:E.
  - apply andb_true_iff in E. destruct E as [E1 E2]. apply folder_eqb_spec in E1. apply String.eqb_eq in E2. subst. intros [H|H]; [congruence|].
    apply negb_true_iff in K1. assert (X : key_in d e l = true) by (apply key_in_spec; eauto). congruence.
  - intros [H|H]; [|auto]. injection H as -> -> ->. rewrite String.eqb_refl, andb_true_r in E. assert (X : folder_eqb d d = true) by now apply folder_eqb_spec. congruence.
Qed.

Section Archive.
Context (fl : text -> res xr) (val : text -> xr) (Hfl : forall t, is_decimal t -> fl t = Ok (val t)).
Lemma tar_one d e f : In (d, e, f) archive_names -> exists h z, In (d, e, f, (h, z)) tar_hints /\ tar_ok (d, e, f, (h, z)) = true.
Proof.
  rewrite <- tar_data. intros I. apply in_map_iff in I. destruct I as ([x [h z]] & E & I). cbn [fst] in E. subst x. exists h, z. split; auto.
  assert (H := tars_ok). rewrite forallb_forall in H. exact (H _ I).
Qed.
Lemma tar_contents d e f : In (d, e, f) archive_names ->
  exists C ps z, file_lines fl (heavy_layout d e) C (map str f) /\ blocks_ok (heavy_layout d e) (ct_blocks C) /\
    config_of (heavy_layout d e) (ct_word C) ps /\ Forall piece_ok ps /\ distinct ps /\ all_occupied C ps /\ element e z /\
    Z.of_nat (list_sum (map (fun nl => count ps (fst nl) (snd nl)) (orbital_nl (ct_blocks C)))) = ion_electrons d z /\
    exists h, readable (heavy_of h) (core_of h) (h_pieces h) (word_of h) (tar_tf h f) (parts_of h (map str f)) = true /\ tar_rows (tar_tf h f) = true /\ C = contents_of val (word_of h) (tar_tf h f).
Proof.
  intros I. destruct (tar_one d e f I) as (h & z & Ih & H). unfold tar_ok in H. rewrite !andb_true_iff in H. destruct H as [[[[[[[[[[H1 H2] H3] H4] H4'] H5] H6] H7] H8] H9] H10].
  unfold shipped_ok in H1. apply andb_true_iff in H1. destruct H1 as [E R]. apply leqb_spec in E.
  apply eqb_prop in H2. fold (heavy_layout d e) in H2. rewrite <- H2.
  assert (Q : Forall piece_ok (h_pieces h)).
  { apply Forall_forall. intros x J. unfold readable in R. rewrite !andb_true_iff in R. destruct R as [[[_ R] _] _]. rewrite forallb_forall in R. apply pieceb_ok, R, in_or_app. auto. }
  assert (Cf : config_of (heavy_of h) (word_of h) (core_of h ++ h_pieces h)).
  { unfold config_of, heavy_of, word_of, core_of. destruct (h_core h) as [[|]|]; [exists (h_pieces h); auto|exists (h_pieces h); auto|reflexivity]. }
  destruct (readable_ok fl val Hfl _ _ _ _ _ _ R Cf) as (F & B & P & D & O). rewrite E in F.
  exists (contents_of val (word_of h) (file_words (heavy_of h) (h_ratio h) (parts_of h (map str f)))), (core_of h ++ h_pieces h), z. do 6 (split; auto).
  apply Nat.ltb_lt in H4'. split; [split; [lia|]|split; [rewrite (tb_nl_ok val); apply Z.eqb_eq in H3; exact H3|exists h; auto]].
  destruct (nth_error symbols (z - 1)) as [t|]; [|discriminate]. exists t. split; auto. apply String.eqb_eq in H4. apply lower_str. apply String.eqb_eq in H8. congruence.
Qed.
Lemma tar_name d e f s : In (d, e, f) archive_names -> same_name (str s) (str e) ->
  s <> ""%string /\ alphabetic (str s) /\ lower s = e /\ (d = Anion -> In e anion_atoms /\ e <> "ag"%string) /\ (d = Cation -> In e cation_atoms) /\ length f < 100.
Proof.
  intros I S. destruct (tar_one d e f I) as (h & z & _ & H). unfold tar_ok in H. rewrite !andb_true_iff in H. destruct H as [[[[[[[[[[_ _] _] _] _] H5] H6] H7] H8] H9] _].
  apply String.eqb_eq in H8. split; [intros ->; destruct e; [discriminate H6|discriminate S]|]. split; [apply (same_alphabetic (str e)); [symmetry; exact S|apply alphabetic_spec; exact H7]|].
  split; [rewrite (lower_same s e S); auto|].
  split; [intros ->; apply andb_true_iff in H5; destruct H5 as [H5 H5']; split; [now apply str_in_spec|intros ->; discriminate H5']|]. split; [intros ->; now apply str_in_spec|]. now apply Nat.ltb_lt.
Qed.
Lemma tar_file rest d e f : In (d, e, f) archive_names -> archive_files rest d e = Some (map str f).
Proof.
  intros I. unfold archive_files. rewrite (find_key _ _ _ _ tar_keys I). cbn [snd].
  destruct (folder_eqb d Anion && String.eqb e "ag") eqn:E; auto. apply andb_true_iff in E. destruct E as [E1 E2]. apply folder_eqb_spec in E1. apply String.eqb_eq in E2.
  destruct (tar_name d e f e I eq_refl) as (_ & _ & _ & X & _). destruct (X E1). congruence.
Qed.
(** Every file of the archive but those of the cesium cation and the silver anion. *)
Lemma tar_loads rest d e f s : In (d, e, f) archive_names -> (d, e) <> (Cation, "cs"%string) -> same_name (str s) (str e) -> forall fuel, 100 <= fuel ->
  exists C ps data z, file_lines fl (str_in e heavy_atoms) C (map str f) /\ config_of (str_in e heavy_atoms) (ct_word C) ps /\
    slater_atoms fl (archive_files rest) (Some s) (folder_eqb d Anion) (folder_eqb d Cation) fuel = Some (Ok data) /\ returned C ps data /\ element e z /\ zsum (sd_occ data) = ion_electrons d z /\
    blocks_ok (str_in e heavy_atoms) (ct_blocks C) /\ distinct ps /\ all_occupied C ps /\
    exists h, readable (heavy_of h) (core_of h) (h_pieces h) (word_of h) (tar_tf h f) (parts_of h (map str f)) = true /\ tar_rows (tar_tf h f) = true /\ C = contents_of val (word_of h) (tar_tf h f).
Proof.
  intros I N S fuel L. destruct (tar_name d e f s I S) as (A1 & A2 & A3 & A4 & A5 & A6). destruct (tar_contents d e f I) as (C & ps & z & F & B & Cf & P & D & O & Za & T & Hh).
  assert (E : heavy_layout d e = str_in e heavy_atoms).
  { unfold heavy_layout. destruct (String.eqb_spec e "cs") as [->|]; [|apply andb_true_r]. destruct d; auto. }
  rewrite E in F, B, Cf. exists C, ps.
  destruct (atom_loads fl (archive_files rest) s (folder_eqb d Anion) (folder_eqb d Cation) fuel (map str f) C ps) with (heavy := str_in e heavy_atoms) as (data & R & X); auto.
  - destruct d; auto.
  - rewrite A3. intros X. apply A4. destruct d; auto; discriminate.
  - rewrite A3. intros X. apply A5. destruct d; auto; discriminate.
  - rewrite A3. assert (Fs := tar_file rest d e f I). destruct d; exact Fs.
  - rewrite A3. apply str_in_spec.
  - rewrite map_length. lia.
  - exists data, z. split; auto. split; auto. split; auto. split; auto. split; auto. split; [rewrite (occ_total C ps data D X); exact T|]. auto.
Qed.
End Archive.

(** ** The lists of the loader *)
Lemma tar_lists :
  (forall e, In e (map lower symbols) -> exists f, In (Neutral, e, f) archive_names) /\
  (forall e, In e anion_atoms -> e <> "ag"%string -> exists f, In (Anion, e, f) archive_names) /\
  (forall e, In e cation_atoms -> exists f, In (Cation, e, f) archive_names).
Proof.
  assert (H1 : forallb (fun e => key_in Neutral e archive_names) (map lower symbols) = true) by (vm_compute; reflexivity).
  assert (H2 : forallb (fun e => String.eqb e "ag" || key_in Anion e archive_names) anion_atoms = true) by (vm_compute; reflexivity).
  assert (H3 : forallb (fun e => key_in Cation e archive_names) cation_atoms = true) by (vm_compute; reflexivity).
  rewrite forallb_forall in H1, H2, H3. split; [|split].
  - intros e I. now apply key_in_spec, H1.
  - intros e I N. apply key_in_spec. specialize (H2 e I). apply orb_true_iff in H2. destruct H2 as [H2|]; auto. apply String.eqb_eq in H2. congruence.
  - intros e I. now apply key_in_spec, H3.
Qed.
Lemma element_lower s n : element s n -> exists t, nth_error symbols (n - 1) = Some t /\ lower s = lower t.
Proof. intros (_ & t & J & S). exists t. split; auto. now apply lower_str. Qed.
Lemma tar_offered d s n : element s n -> offered d s -> (d, n) <> (Anion, 47) -> exists f, In (d, lower s, f) archive_names.
Proof.
  intros E O N. destruct tar_lists as (L1 & L2 & L3). destruct d; cbn [offered] in O.
  - apply L2; [now apply anion_spec|]. intros X. apply N. f_equal. apply (element_unique s); auto. split; [lia|]. exists "Ag"%string. split; [reflexivity|]. now apply lower_str.
  - apply L3. now apply cation_spec.
  - apply L1. apply element_lower in E. destruct E as (t & J & ->). apply in_map. now apply nth_error_In in J.
Qed.
Lemma tar_offered_loads fl val : (forall t, is_decimal t -> fl t = Ok (val t)) ->
  forall rest d s n, element s n -> offered d s -> (d, n) <> (Anion, 47) -> (d, n) <> (Cation, 55) -> forall heavy, (heavy = true <-> heavy_element s) -> forall fuel, 100 <= fuel ->
  exists f C ps data, archive_files rest d (lower s) = Some f /\ file_lines fl heavy C f /\ config_of heavy (ct_word C) ps /\
    slater_atoms fl (archive_files rest) (Some s) (folder_eqb d Anion) (folder_eqb d Cation) fuel = Some (Ok data) /\ returned C ps data /\ zsum (sd_occ data) = ion_electrons d n /\
    blocks_ok heavy (ct_blocks C) /\ distinct ps /\ all_occupied C ps /\
    exists h p, readable (heavy_of h) (core_of h) (h_pieces h) (word_of h) (tar_tf h p) (parts_of h (map str p)) = true /\ tar_rows (tar_tf h p) = true /\ C = contents_of val (word_of h) (tar_tf h p).
Proof.
  intros V rest d s n E O N1 N2 heavy H fuel L. destruct (tar_offered d s n E O N1) as (f & I).
  assert (S : same_name (str s) (str (lower s))) by (apply lower_str; symmetry; apply (tar_name d _ f (lower s) I eq_refl)).
  destruct (tar_loads fl val V rest d (lower s) f s I) with (fuel := fuel) as (C & ps & data & z & F & Cf & Sl & R & Ez & T & Bo & D & Oc & h & Hh); auto.
  { intros X. apply N2. injection X as -> X. f_equal. apply (element_unique s); auto. split; [lia|]. exists "Cs"%string. split; [reflexivity|]. now apply lower_str. }
  assert (Z : z = n). { apply (element_unique s); auto. destruct Ez as (P & t & J & S'). split; auto. exists t. split; auto. unfold same_name in *. congruence. }
  assert (Hv : str_in (lower s) heavy_atoms = heavy).
  { rewrite <- heavy_spec in H. destruct heavy; [apply str_in_spec; tauto|apply str_in_false; intros J; apply H in J; discriminate]. }
  rewrite Hv in *. subst z. exists (map str f), C, ps, data. split; [now apply tar_file|]. do 8 (split; auto). exists h, f. exact Hh.
Qed.

(** ** The silver anion *)
Lemma rows_grow fl fuel sub orbs line f s l r s' : read_rows fl fuel sub orbs line f s = Some (Ok (l, r, s')) -> ps_orbs s' = ps_orbs s.
Proof.
  revert line f s. induction fuel as [|k IH]; intros line f s; cbn [read_rows]; destruct (is_row sub line); try discriminate; try (now intros [= _ _ <-]).
  destruct (read_row fl sub orbs line s) as [s1|] eqn:E; [|discriminate]. destruct (readline f) as [l1 r1]. intros H. rewrite (IH _ _ _ H).
  unfold read_row in E. revert E. repeat (match goal with |- context [bind ?x _] => destruct x; [cbn [bind]|discriminate] end). now intros [= <-].
Qed.
Lemma block_grows fl heavy fuel line f s l r s' : read_block fl heavy fuel line f s = Some (Ok (l, r, s')) -> ps_orbs s' = ps_orbs s ++ tl (words line).
Proof.
  unfold read_block. destruct (py_get (words line) 0); [cbn [bindo]|discriminate]. destruct (readline f) as [l1 f1]. destruct (mapM (float fl) (tl (words l1))); [cbn [bindo]|discriminate].
  destruct (if heavy then (l1, f1) else readline f1) as [l2 f2]. destruct (if heavy then Ok [] else mapM (float fl) (tl (words l2))); [cbn [bindo]|discriminate]. destruct (readline f2) as [l3 f3].
  intros H. apply rows_grow in H. exact H.
Qed.
Lemma blocks_grow fl heavy fuel : forall line f s s', read_blocks fl heavy fuel line f s = Some (Ok s') -> exists more, ps_orbs s' = ps_orbs s ++ more.
Proof.
  induction fuel as [|k IH]; intros line f s s'; cbn [read_blocks]; destruct (is_blank line); try discriminate; try (intros [= <-]; exists []; now rewrite app_nil_r).
  destruct (is_header line).
  - destruct (read_block fl heavy k line f s) as [[[[l r] s1]|]|] eqn:E; [cbn [bindo]|discriminate|discriminate]. intros H. apply IH in H. destruct H as (m & ->). apply block_grows in E. rewrite E, <- app_assoc. eauto.
  - destruct (readline f) as [l r]. apply IH.
Qed.
Lemma make_orbs conf e t v s d k more : occupations conf = Ok [] -> ps_orbs s = k :: more -> make_data conf e t v s <> Ok d.
Proof. intros O E. unfold make_data. rewrite E. cbn [mapM]. rewrite O. cbn [bind dlookup dget]. discriminate. Qed.
Definition silver_line (n : nat) : text := nth n (map str (firstn 5 ag_anion_start)) [].
Lemma silver_first : (match words (silver_line 0) with _ :: w :: _ => match occupations (remove_char "," w) with Ok [] => true | _ => false end | _ => false end &&
  negb (is_blank (silver_line 1)) && negb (is_blank (silver_line 3)) && negb (is_header (silver_line 3)) && negb (is_blank (silver_line 4)) && is_header (silver_line 4) &&
  match words (silver_line 4) with _ :: _ :: _ => true | _ => false end)%bool = true.
Proof. vm_compute. reflexivity. Qed.
Lemma silver_lines rest : map str ag_anion_start ++ rest = silver_line 0 :: silver_line 1 :: silver_line 2 :: silver_line 3 :: silver_line 4 :: (map str (skipn 5 ag_anion_start) ++ rest).
Proof. reflexivity. Qed.
Lemma skip_filled fuel l f : is_blank l = false -> skip_blank fuel l f = Some (l, f).
Proof. intros H. destruct fuel; cbn [skip_blank]; now rewrite H. Qed.
Lemma silver_parse fl rest fuel data : parse_slater fl false fuel (map str ag_anion_start ++ rest) <> Some (Ok data).
Proof.
  rewrite silver_lines. assert (Q := silver_first). set (l0 := silver_line 0) in *. set (l1 := silver_line 1) in *. set (lt := silver_line 2). set (l3 := silver_line 3) in *. set (l4 := silver_line 4) in *. set (tail := map str (skipn 5 ag_anion_start)).
  clearbody l0 l1 lt l3 l4 tail. rewrite !andb_true_iff, !negb_true_iff in Q. destruct Q as [[[[[[Q B1] B3] H3] B4] H4] Q4]. destruct (words l0) as [|w0 [|w ws]] eqn:W; try discriminate.
  destruct (occupations (remove_char "," w)) as [[|]|] eqn:O; try discriminate. destruct (words l4) as [|a [|b ws4]] eqn:W4; try discriminate. clear Q Q4.
  unfold parse_slater. cbn [app readline]. rewrite W. change (py_get (w0 :: w :: ws) 1) with (Ok w). cbn [bindo]. rewrite (skip_filled _ _ _ B1).
  destruct (negb _); [discriminate|]. destruct (py_get _ 1) as [w1|]; [cbn [bindo]|discriminate]. destruct (float fl w1); [cbn [bindo]|discriminate].
  cbn [readline]. destruct (find_numbers 0 lt) as [|n1 [|n2 [|n3 [|]]]]; try discriminate. destruct (float fl n1); [cbn [bindo]|discriminate]. destruct (float fl n2); [cbn [bindo]|discriminate].
  cbn [readline]. rewrite (skip_filled _ _ _ B3). destruct fuel as [|k]; [cbn [read_blocks]; rewrite B3; discriminate|]. cbn [read_blocks]. rewrite B3, H3. cbn [readline].
  destruct k as [|k]; [cbn [read_blocks]; rewrite B4; discriminate|]. cbn [read_blocks]. rewrite B4, H4.
  destruct (read_block fl false k l4 (tail ++ rest) empty_state) as [[[[l r] s1]|]|] eqn:E; [cbn [bindo]|discriminate|discriminate].
  destruct (read_blocks fl false k l r s1) as [[s|]|] eqn:E2; [cbn [bindo]|discriminate|discriminate].
  apply block_grows in E. apply blocks_grow in E2. destruct E2 as (m & E2). rewrite E, W4 in E2. cbn [empty_state ps_orbs app tl] in E2.
  intros X. injection X as X. exact (make_orbs _ _ _ _ _ _ _ _ O E2 X).
Qed.
Lemma silver_fails fl rest s fuel data : same_name (str s) (str "ag") -> slater_atoms fl (archive_files rest) (Some s) true false fuel <> Some (Ok data).
Proof.
  intros S. rewrite (case_insensitive fl (archive_files rest) s "Ag" _ _ fuel S).
  change (slater_atoms fl (archive_files rest) (Some "Ag"%string) true false fuel) with (parse_slater fl false fuel (map str ag_anion_start ++ rest)). apply silver_parse.
Qed.
(** The cesium cation. *)
Lemma tar_cesium fl val rest s fuel : (forall t, is_decimal t -> fl t = Ok (val t)) -> element s 55 -> slater_atoms fl (archive_files rest) (Some s) false true fuel = Some (Raise ValueError).
Proof.
  intros Hfl (_ & t & J & S). injection J as <-. rewrite (case_insensitive fl (archive_files rest) s "Cs" _ _ fuel S). destruct (proj2 (proj2 tar_lists) "cs"%string) as (f & I); [unfold cation_atoms; cbn [In]; tauto|].
  destruct (tar_contents fl val Hfl Cation "cs" f I) as (C & ps & z & F & _ & Cf & P & _).
  apply (cesium_cation fl (archive_files rest) C ps (map str f)); auto. apply tar_file. exact I.
Qed.
Lemma tar_silver fl rest s fuel data : element s 47 -> slater_atoms fl (archive_files rest) (Some s) true false fuel <> Some (Ok data).
Proof. intros (_ & t & J & S). injection J as <-. apply silver_fails. apply lower_str in S. now apply lower_str. Qed.
