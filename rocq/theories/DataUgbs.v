(** The file of universal Gaussian exponents, line by line: /repo/bfit/data/ygbs.  Line ends are
    dropped.  Split at the lines "#BASIS SET". *)
From Coq Require Import String List.
Import ListNotations.
Local Open Scope string_scope.

(** bfit/data/ygbs:1-8 *)
Definition ugbs_head : list string := [
"# Elements                             References";
"# --------                             ----------";
"# H He Li Be B C N O F Ne Na Mg Al Si P S Cl Ar K Ca Sc Ti V Cr Mn Fe Co Ni Cu Zn Ga Ge As Se Br Kr Rb Sr Y Zr Nb Mo Tc Ru Rh Pd Ag Cd In Sn Sb Te I Xe Cs Ba La Ce Pr Nd Pm Sm Eu Gd Tb Dy Ho Er Tm Yb Lu Hf Ta W Re Os Ir Pt Au Hg Tl Pb Bi Po At Rn Fr Ra Ac Th Pu Am Cf Es Fm Md No Lr: E. V. R. de Castro and F. E. Jorge, Accurate universal Gaussian basis set for all atoms of the Periodic Table, Journal of Chemical Physics 108, 5225 (1998).";
"#";
"";
"";
"";
"BASIS ""ao basis"" PRINT"].

(** bfit/data/ygbs:9-49 *)
Definition ugbs_h : list string := [
"#BASIS SET: (20s)";
"H    S";
"  13739.0854166734           1.0000000";
"H    S";
"   7016.36109438299          1.0000000";
"H    S";
"   3583.15866840946          1.0000000";
"H    S";
"   1829.86962476550          1.0000000";
"H    S";
"    934.489134729210         1.0000000";
"H    S";
"    477.230689612032         1.0000000";
"H    S";
"    243.715119463182         1.0000000";
"H    S";
"    124.461944187287         1.0000000";
"H    S";
"     63.5609952513411        1.0000000";
"H    S";
"     32.4597220758638        1.0000000";
"H    S";
"     16.5767315800501        1.0000000";
"H    S";
"      8.46550778330153       1.0000000";
"H    S";
"      4.32321786011102       1.0000000";
"H    S";
"      2.20780762884063       1.0000000";
"H    S";
"      1.12749685157938       1.0000000";
"H    S";
"      0.575797063890464            1.0000000";
"H    S";
"      0.294051604951678            1.0000000";
"H    S";
"      0.150168091845475            1.0000000";
"H    S";
"      7.668876968794858E-002            1.0000000";
"H    S";
"      3.916389509898707E-002            1.0000000"].

(** bfit/data/ygbs:50-92 *)
Definition ugbs_he : list string := [
"#BASIS SET: (21s)";
"He    S";
"  52680.4659115022           1.0000000";
"He    S";
"  26903.1860742976           1.0000000";
"He    S";
"  13739.0854166734           1.0000000";
"He    S";
"   7016.36109438300          1.0000000";
"He    S";
"   3583.15866840946          1.0000000";
"He    S";
"   1829.86962476550          1.0000000";
"He    S";
"    934.489134729211         1.0000000";
"He    S";
"    477.230689612032         1.0000000";
"He    S";
"    243.715119463182         1.0000000";
"He    S";
"    124.461944187287         1.0000000";
"He    S";
"     63.5609952513412        1.0000000";
"He    S";
"     32.4597220758638        1.0000000";
"He    S";
"     16.5767315800501        1.0000000";
"He    S";
"      8.46550778330153       1.0000000";
"He    S";
"      4.32321786011102       1.0000000";
"He    S";
"      2.20780762884063       1.0000000";
"He    S";
"      1.12749685157938       1.0000000";
"He    S";
"      0.575797063890465            1.0000000";
"He    S";
"      0.294051604951678            1.0000000";
"He    S";
"      0.150168091845475            1.0000000";
"He    S";
"      7.668876968794860E-002            1.0000000"].

(** bfit/data/ygbs:93-143 *)
Definition ugbs_li : list string := [
"#BASIS SET: (25s)";
"Li    S";
" 201995.358823884            1.0000000";
"Li    S";
" 103156.238855453            1.0000000";
"Li    S";
"  52680.4659115021           1.0000000";
"Li    S";
"  26903.1860742975           1.0000000";
"Li    S";
"  13739.0854166734           1.0000000";
"Li    S";
"   7016.36109438299          1.0000000";
"Li    S";
"   3583.15866840945          1.0000000";
"Li    S";
"   1829.86962476550          1.0000000";
"Li    S";
"    934.489134729211         1.0000000";
"Li    S";
"    477.230689612032         1.0000000";
"Li    S";
"    243.715119463182         1.0000000";
"Li    S";
"    124.461944187287         1.0000000";
"Li    S";
"     63.5609952513411        1.0000000";
"Li    S";
"     32.4597220758638        1.0000000";
"Li    S";
"     16.5767315800501        1.0000000";
"Li    S";
"      8.46550778330153       1.0000000";
"Li    S";
"      4.32321786011102       1.0000000";
"Li    S";
"      2.20780762884063       1.0000000";
"Li    S";
"      1.12749685157938       1.0000000";
"Li    S";
"      0.575797063890465            1.0000000";
"Li    S";
"      0.294051604951678            1.0000000";
"Li    S";
"      0.150168091845475            1.0000000";
"Li    S";
"      7.668876968794858E-002            1.0000000";
"Li    S";
"      3.916389509898707E-002            1.0000000";
"Li    S";
"      2.000046011385546E-002            1.0000000"].

(** bfit/data/ygbs:144-194 *)
Definition ugbs_be : list string := [
"#BASIS SET: (25s)";
"Be    S";
" 201995.358823884            1.0000000";
"Be    S";
" 103156.238855453            1.0000000";
"Be    S";
"  52680.4659115021           1.0000000";
"Be    S";
"  26903.1860742975           1.0000000";
"Be    S";
"  13739.0854166734           1.0000000";
"Be    S";
"   7016.36109438299          1.0000000";
"Be    S";
"   3583.15866840945          1.0000000";
"Be    S";
"   1829.86962476550          1.0000000";
"Be    S";
"    934.489134729211         1.0000000";
"Be    S";
"    477.230689612032         1.0000000";
"Be    S";
"    243.715119463182         1.0000000";
"Be    S";
"    124.461944187287         1.0000000";
"Be    S";
"     63.5609952513411        1.0000000";
"Be    S";
"     32.4597220758638        1.0000000";
"Be    S";
"     16.5767315800501        1.0000000";
"Be    S";
"      8.46550778330153       1.0000000";
"Be    S";
"      4.32321786011102       1.0000000";
"Be    S";
"      2.20780762884063       1.0000000";
"Be    S";
"      1.12749685157938       1.0000000";
"Be    S";
"      0.575797063890465            1.0000000";
"Be    S";
"      0.294051604951678            1.0000000";
"Be    S";
"      0.150168091845475            1.0000000";
"Be    S";
"      7.668876968794858E-002            1.0000000";
"Be    S";
"      3.916389509898707E-002            1.0000000";
"Be    S";
"      2.000046011385546E-002            1.0000000"].

(** bfit/data/ygbs:195-275 *)
Definition ugbs_b : list string := [
"#BASIS SET: (25s,15p)";
"B    S";
" 395537.152566831            1.0000000";
"B    S";
" 201995.358823884            1.0000000";
"B    S";
" 103156.238855453            1.0000000";
"B    S";
"  52680.4659115021           1.0000000";
"B    S";
"  26903.1860742976           1.0000000";
"B    S";
"  13739.0854166734           1.0000000";
"B    S";
"   7016.36109438299          1.0000000";
"B    S";
"   3583.15866840946          1.0000000";
"B    S";
"   1829.86962476550          1.0000000";
"B    S";
"    934.489134729210         1.0000000";
"B    S";
"    477.230689612032         1.0000000";
"B    S";
"    243.715119463182         1.0000000";
"B    S";
"    124.461944187287         1.0000000";
"B    S";
"     63.5609952513411        1.0000000";
"B    S";
"     32.4597220758638        1.0000000";
"B    S";
"     16.5767315800501        1.0000000";
"B    S";
"      8.46550778330153       1.0000000";
"B    S";
"      4.32321786011102       1.0000000";
"B    S";
"      2.20780762884063       1.0000000";
"B    S";
"      1.12749685157938       1.0000000";
"B    S";
"      0.575797063890464            1.0000000";
"B    S";
"      0.294051604951678            1.0000000";
"B    S";
"      0.150168091845475            1.0000000";
"B    S";
"      7.668876968794858E-002            1.0000000";
"B    S";
"      3.916389509898707E-002            1.0000000";
"B    P";
"    477.230689612032         1.0000000";
"B    P";
"    243.715119463182         1.0000000";
"B    P";
"    124.461944187287         1.0000000";
"B    P";
"     63.5609952513411        1.0000000";
"B    P";
"     32.4597220758638        1.0000000";
"B    P";
"     16.5767315800501        1.0000000";
"B    P";
"      8.46550778330153       1.0000000";
"B    P";
"      4.32321786011102       1.0000000";
"B    P";
"      2.20780762884063       1.0000000";
"B    P";
"      1.12749685157938       1.0000000";
"B    P";
"      0.575797063890464            1.0000000";
"B    P";
"      0.294051604951678            1.0000000";
"B    P";
"      0.150168091845475            1.0000000";
"B    P";
"      7.668876968794858E-002            1.0000000";
"B    P";
"      3.916389509898707E-002            1.0000000"].

(** bfit/data/ygbs:276-352 *)
Definition ugbs_c : list string := [
"#BASIS SET: (23s,15p)";
"C    S";
" 201995.358823884            1.0000000";
"C    S";
" 103156.238855453            1.0000000";
"C    S";
"  52680.4659115022           1.0000000";
"C    S";
"  26903.1860742976           1.0000000";
"C    S";
"  13739.0854166734           1.0000000";
"C    S";
"   7016.36109438300          1.0000000";
"C    S";
"   3583.15866840946          1.0000000";
"C    S";
"   1829.86962476550          1.0000000";
"C    S";
"    934.489134729211         1.0000000";
"C    S";
"    477.230689612032         1.0000000";
"C    S";
"    243.715119463182         1.0000000";
"C    S";
"    124.461944187287         1.0000000";
"C    S";
"     63.5609952513412        1.0000000";
"C    S";
"     32.4597220758638        1.0000000";
"C    S";
"     16.5767315800501        1.0000000";
"C    S";
"      8.46550778330153       1.0000000";
"C    S";
"      4.32321786011102       1.0000000";
"C    S";
"      2.20780762884063       1.0000000";
"C    S";
"      1.12749685157938       1.0000000";
"C    S";
"      0.575797063890465            1.0000000";
"C    S";
"      0.294051604951678            1.0000000";
"C    S";
"      0.150168091845475            1.0000000";
"C    S";
"      7.668876968794860E-002            1.0000000";
"C    P";
"    477.230689612032         1.0000000";
"C    P";
"    243.715119463182         1.0000000";
"C    P";
"    124.461944187287         1.0000000";
"C    P";
"     63.5609952513411        1.0000000";
"C    P";
"     32.4597220758638        1.0000000";
"C    P";
"     16.5767315800501        1.0000000";
"C    P";
"      8.46550778330153       1.0000000";
"C    P";
"      4.32321786011102       1.0000000";
"C    P";
"      2.20780762884063       1.0000000";
"C    P";
"      1.12749685157938       1.0000000";
"C    P";
"      0.575797063890464            1.0000000";
"C    P";
"      0.294051604951678            1.0000000";
"C    P";
"      0.150168091845475            1.0000000";
"C    P";
"      7.668876968794858E-002            1.0000000";
"C    P";
"      3.916389509898707E-002            1.0000000"].

(** bfit/data/ygbs:353-431 *)
Definition ugbs_n : list string := [
"#BASIS SET: (23s,16p)";
"N    S";
" 201995.358823884            1.0000000";
"N    S";
" 103156.238855453            1.0000000";
"N    S";
"  52680.4659115022           1.0000000";
"N    S";
"  26903.1860742976           1.0000000";
"N    S";
"  13739.0854166734           1.0000000";
"N    S";
"   7016.36109438300          1.0000000";
"N    S";
"   3583.15866840946          1.0000000";
"N    S";
"   1829.86962476550          1.0000000";
"N    S";
"    934.489134729211         1.0000000";
"N    S";
"    477.230689612032         1.0000000";
"N    S";
"    243.715119463182         1.0000000";
"N    S";
"    124.461944187287         1.0000000";
"N    S";
"     63.5609952513412        1.0000000";
"N    S";
"     32.4597220758638        1.0000000";
"N    S";
"     16.5767315800501        1.0000000";
"N    S";
"      8.46550778330153       1.0000000";
"N    S";
"      4.32321786011102       1.0000000";
"N    S";
"      2.20780762884063       1.0000000";
"N    S";
"      1.12749685157938       1.0000000";
"N    S";
"      0.575797063890465            1.0000000";
"N    S";
"      0.294051604951678            1.0000000";
"N    S";
"      0.150168091845475            1.0000000";
"N    S";
"      7.668876968794860E-002            1.0000000";
"N    P";
"   1829.86962476550          1.0000000";
"N    P";
"    934.489134729211         1.0000000";
"N    P";
"    477.230689612032         1.0000000";
"N    P";
"    243.715119463182         1.0000000";
"N    P";
"    124.461944187287         1.0000000";
"N    P";
"     63.5609952513412        1.0000000";
"N    P";
"     32.4597220758638        1.0000000";
"N    P";
"     16.5767315800501        1.0000000";
"N    P";
"      8.46550778330153       1.0000000";
"N    P";
"      4.32321786011102       1.0000000";
"N    P";
"      2.20780762884063       1.0000000";
"N    P";
"      1.12749685157938       1.0000000";
"N    P";
"      0.575797063890465            1.0000000";
"N    P";
"      0.294051604951678            1.0000000";
"N    P";
"      0.150168091845475            1.0000000";
"N    P";
"      7.668876968794860E-002            1.0000000"].

(** bfit/data/ygbs:432-510 *)
Definition ugbs_o : list string := [
"#BASIS SET: (23s,16p)";
"O    S";
" 395537.152566831            1.0000000";
"O    S";
" 201995.358823884            1.0000000";
"O    S";
" 103156.238855453            1.0000000";
"O    S";
"  52680.4659115021           1.0000000";
"O    S";
"  26903.1860742975           1.0000000";
"O    S";
"  13739.0854166734           1.0000000";
"O    S";
"   7016.36109438299          1.0000000";
"O    S";
"   3583.15866840945          1.0000000";
"O    S";
"   1829.86962476550          1.0000000";
"O    S";
"    934.489134729210         1.0000000";
"O    S";
"    477.230689612032         1.0000000";
"O    S";
"    243.715119463182         1.0000000";
"O    S";
"    124.461944187287         1.0000000";
"O    S";
"     63.5609952513411        1.0000000";
"O    S";
"     32.4597220758638        1.0000000";
"O    S";
"     16.5767315800501        1.0000000";
"O    S";
"      8.46550778330153       1.0000000";
"O    S";
"      4.32321786011102       1.0000000";
"O    S";
"      2.20780762884063       1.0000000";
"O    S";
"      1.12749685157938       1.0000000";
"O    S";
"      0.575797063890464            1.0000000";
"O    S";
"      0.294051604951678            1.0000000";
"O    S";
"      0.150168091845475            1.0000000";
"O    P";
"   1829.86962476550          1.0000000";
"O    P";
"    934.489134729211         1.0000000";
"O    P";
"    477.230689612032         1.0000000";
"O    P";
"    243.715119463182         1.0000000";
"O    P";
"    124.461944187287         1.0000000";
"O    P";
"     63.5609952513412        1.0000000";
"O    P";
"     32.4597220758638        1.0000000";
"O    P";
"     16.5767315800501        1.0000000";
"O    P";
"      8.46550778330153       1.0000000";
"O    P";
"      4.32321786011102       1.0000000";
"O    P";
"      2.20780762884063       1.0000000";
"O    P";
"      1.12749685157938       1.0000000";
"O    P";
"      0.575797063890465            1.0000000";
"O    P";
"      0.294051604951678            1.0000000";
"O    P";
"      0.150168091845475            1.0000000";
"O    P";
"      7.668876968794860E-002            1.0000000"].

(** bfit/data/ygbs:511-591 *)
Definition ugbs_f : list string := [
"#BASIS SET: (24s,16p)";
"F    S";
" 774520.959152738            1.0000000";
"F    S";
" 395537.152566831            1.0000000";
"F    S";
" 201995.358823884            1.0000000";
"F    S";
" 103156.238855453            1.0000000";
"F    S";
"  52680.4659115021           1.0000000";
"F    S";
"  26903.1860742975           1.0000000";
"F    S";
"  13739.0854166734           1.0000000";
"F    S";
"   7016.36109438299          1.0000000";
"F    S";
"   3583.15866840945          1.0000000";
"F    S";
"   1829.86962476550          1.0000000";
"F    S";
"    934.489134729210         1.0000000";
"F    S";
"    477.230689612032         1.0000000";
"F    S";
"    243.715119463182         1.0000000";
"F    S";
"    124.461944187287         1.0000000";
"F    S";
"     63.5609952513411        1.0000000";
"F    S";
"     32.4597220758638        1.0000000";
"F    S";
"     16.5767315800501        1.0000000";
"F    S";
"      8.46550778330153       1.0000000";
"F    S";
"      4.32321786011102       1.0000000";
"F    S";
"      2.20780762884063       1.0000000";
"F    S";
"      1.12749685157938       1.0000000";
"F    S";
"      0.575797063890464            1.0000000";
"F    S";
"      0.294051604951678            1.0000000";
"F    S";
"      0.150168091845475            1.0000000";
"F    P";
"   1829.86962476550          1.0000000";
"F    P";
"    934.489134729211         1.0000000";
"F    P";
"    477.230689612032         1.0000000";
"F    P";
"    243.715119463182         1.0000000";
"F    P";
"    124.461944187287         1.0000000";
"F    P";
"     63.5609952513412        1.0000000";
"F    P";
"     32.4597220758638        1.0000000";
"F    P";
"     16.5767315800501        1.0000000";
"F    P";
"      8.46550778330153       1.0000000";
"F    P";
"      4.32321786011102       1.0000000";
"F    P";
"      2.20780762884063       1.0000000";
"F    P";
"      1.12749685157938       1.0000000";
"F    P";
"      0.575797063890465            1.0000000";
"F    P";
"      0.294051604951678            1.0000000";
"F    P";
"      0.150168091845475            1.0000000";
"F    P";
"      7.668876968794860E-002            1.0000000"].

(** bfit/data/ygbs:592-670 *)
Definition ugbs_ne : list string := [
"#BASIS SET: (23s,16p)";
"Ne    S";
" 395537.152566831            1.0000000";
"Ne    S";
" 201995.358823884            1.0000000";
"Ne    S";
" 103156.238855453            1.0000000";
"Ne    S";
"  52680.4659115021           1.0000000";
"Ne    S";
"  26903.1860742975           1.0000000";
"Ne    S";
"  13739.0854166734           1.0000000";
"Ne    S";
"   7016.36109438299          1.0000000";
"Ne    S";
"   3583.15866840945          1.0000000";
"Ne    S";
"   1829.86962476550          1.0000000";
"Ne    S";
"    934.489134729210         1.0000000";
"Ne    S";
"    477.230689612032         1.0000000";
"Ne    S";
"    243.715119463182         1.0000000";
"Ne    S";
"    124.461944187287         1.0000000";
"Ne    S";
"     63.5609952513411        1.0000000";
"Ne    S";
"     32.4597220758638        1.0000000";
"Ne    S";
"     16.5767315800501        1.0000000";
"Ne    S";
"      8.46550778330153       1.0000000";
"Ne    S";
"      4.32321786011102       1.0000000";
"Ne    S";
"      2.20780762884063       1.0000000";
"Ne    S";
"      1.12749685157938       1.0000000";
"Ne    S";
"      0.575797063890464            1.0000000";
"Ne    S";
"      0.294051604951678            1.0000000";
"Ne    S";
"      0.150168091845475            1.0000000";
"Ne    P";
"   1829.86962476550          1.0000000";
"Ne    P";
"    934.489134729211         1.0000000";
"Ne    P";
"    477.230689612032         1.0000000";
"Ne    P";
"    243.715119463182         1.0000000";
"Ne    P";
"    124.461944187287         1.0000000";
"Ne    P";
"     63.5609952513412        1.0000000";
"Ne    P";
"     32.4597220758638        1.0000000";
"Ne    P";
"     16.5767315800501        1.0000000";
"Ne    P";
"      8.46550778330153       1.0000000";
"Ne    P";
"      4.32321786011102       1.0000000";
"Ne    P";
"      2.20780762884063       1.0000000";
"Ne    P";
"      1.12749685157938       1.0000000";
"Ne    P";
"      0.575797063890465            1.0000000";
"Ne    P";
"      0.294051604951678            1.0000000";
"Ne    P";
"      0.150168091845475            1.0000000";
"Ne    P";
"      7.668876968794860E-002            1.0000000"].

(** bfit/data/ygbs:671-757 *)
Definition ugbs_na : list string := [
"#BASIS SET: (27s,16p)";
"Na    S";
" 774520.959152735            1.0000000";
"Na    S";
" 395537.152566831            1.0000000";
"Na    S";
" 201995.358823884            1.0000000";
"Na    S";
" 103156.238855453            1.0000000";
"Na    S";
"  52680.4659115021           1.0000000";
"Na    S";
"  26903.1860742975           1.0000000";
"Na    S";
"  13739.0854166734           1.0000000";
"Na    S";
"   7016.36109438299          1.0000000";
"Na    S";
"   3583.15866840945          1.0000000";
"Na    S";
"   1829.86962476550          1.0000000";
"Na    S";
"    934.489134729211         1.0000000";
"Na    S";
"    477.230689612032         1.0000000";
"Na    S";
"    243.715119463182         1.0000000";
"Na    S";
"    124.461944187287         1.0000000";
"Na    S";
"     63.5609952513411        1.0000000";
"Na    S";
"     32.4597220758638        1.0000000";
"Na    S";
"     16.5767315800501        1.0000000";
"Na    S";
"      8.46550778330153       1.0000000";
"Na    S";
"      4.32321786011102       1.0000000";
"Na    S";
"      2.20780762884063       1.0000000";
"Na    S";
"      1.12749685157938       1.0000000";
"Na    S";
"      0.575797063890465            1.0000000";
"Na    S";
"      0.294051604951678            1.0000000";
"Na    S";
"      0.150168091845475            1.0000000";
"Na    S";
"      7.668876968794858E-002            1.0000000";
"Na    S";
"      3.916389509898707E-002            1.0000000";
"Na    S";
"      2.000046011385546E-002            1.0000000";
"Na    P";
"   3583.15866840945          1.0000000";
"Na    P";
"   1829.86962476550          1.0000000";
"Na    P";
"    934.489134729210         1.0000000";
"Na    P";
"    477.230689612032         1.0000000";
"Na    P";
"    243.715119463182         1.0000000";
"Na    P";
"    124.461944187287         1.0000000";
"Na    P";
"     63.5609952513411        1.0000000";
"Na    P";
"     32.4597220758638        1.0000000";
"Na    P";
"     16.5767315800501        1.0000000";
"Na    P";
"      8.46550778330153       1.0000000";
"Na    P";
"      4.32321786011102       1.0000000";
"Na    P";
"      2.20780762884063       1.0000000";
"Na    P";
"      1.12749685157938       1.0000000";
"Na    P";
"      0.575797063890464            1.0000000";
"Na    P";
"      0.294051604951678            1.0000000";
"Na    P";
"      0.150168091845475            1.0000000"].

(** bfit/data/ygbs:758-844 *)
Definition ugbs_mg : list string := [
"#BASIS SET: (27s,16p)";
"Mg    S";
" 774520.959152735            1.0000000";
"Mg    S";
" 395537.152566831            1.0000000";
"Mg    S";
" 201995.358823884            1.0000000";
"Mg    S";
" 103156.238855453            1.0000000";
"Mg    S";
"  52680.4659115021           1.0000000";
"Mg    S";
"  26903.1860742975           1.0000000";
"Mg    S";
"  13739.0854166734           1.0000000";
"Mg    S";
"   7016.36109438299          1.0000000";
"Mg    S";
"   3583.15866840945          1.0000000";
"Mg    S";
"   1829.86962476550          1.0000000";
"Mg    S";
"    934.489134729211         1.0000000";
"Mg    S";
"    477.230689612032         1.0000000";
"Mg    S";
"    243.715119463182         1.0000000";
"Mg    S";
"    124.461944187287         1.0000000";
"Mg    S";
"     63.5609952513411        1.0000000";
"Mg    S";
"     32.4597220758638        1.0000000";
"Mg    S";
"     16.5767315800501        1.0000000";
"Mg    S";
"      8.46550778330153       1.0000000";
"Mg    S";
"      4.32321786011102       1.0000000";
"Mg    S";
"      2.20780762884063       1.0000000";
"Mg    S";
"      1.12749685157938       1.0000000";
"Mg    S";
"      0.575797063890465            1.0000000";
"Mg    S";
"      0.294051604951678            1.0000000";
"Mg    S";
"      0.150168091845475            1.0000000";
"Mg    S";
"      7.668876968794858E-002            1.0000000";
"Mg    S";
"      3.916389509898707E-002            1.0000000";
"Mg    S";
"      2.000046011385546E-002            1.0000000";
"Mg    P";
"   3583.15866840945          1.0000000";
"Mg    P";
"   1829.86962476550          1.0000000";
"Mg    P";
"    934.489134729210         1.0000000";
"Mg    P";
"    477.230689612032         1.0000000";
"Mg    P";
"    243.715119463182         1.0000000";
"Mg    P";
"    124.461944187287         1.0000000";
"Mg    P";
"     63.5609952513411        1.0000000";
"Mg    P";
"     32.4597220758638        1.0000000";
"Mg    P";
"     16.5767315800501        1.0000000";
"Mg    P";
"      8.46550778330153       1.0000000";
"Mg    P";
"      4.32321786011102       1.0000000";
"Mg    P";
"      2.20780762884063       1.0000000";
"Mg    P";
"      1.12749685157938       1.0000000";
"Mg    P";
"      0.575797063890464            1.0000000";
"Mg    P";
"      0.294051604951678            1.0000000";
"Mg    P";
"      0.150168091845475            1.0000000"].

(** bfit/data/ygbs:845-937 *)
Definition ugbs_al : list string := [
"#BASIS SET: (27s,19p)";
"Al    S";
" 1516627.98873367            1.0000000";
"Al    S";
" 774520.959152738            1.0000000";
"Al    S";
" 395537.152566831            1.0000000";
"Al    S";
" 201995.358823884            1.0000000";
"Al    S";
" 103156.238855453            1.0000000";
"Al    S";
"  52680.4659115021           1.0000000";
"Al    S";
"  26903.1860742976           1.0000000";
"Al    S";
"  13739.0854166734           1.0000000";
"Al    S";
"   7016.36109438299          1.0000000";
"Al    S";
"   3583.15866840946          1.0000000";
"Al    S";
"   1829.86962476550          1.0000000";
"Al    S";
"    934.489134729210         1.0000000";
"Al    S";
"    477.230689612032         1.0000000";
"Al    S";
"    243.715119463182         1.0000000";
"Al    S";
"    124.461944187287         1.0000000";
"Al    S";
"     63.5609952513411        1.0000000";
"Al    S";
"     32.4597220758638        1.0000000";
"Al    S";
"     16.5767315800501        1.0000000";
"Al    S";
"      8.46550778330153       1.0000000";
"Al    S";
"      4.32321786011102       1.0000000";
"Al    S";
"      2.20780762884063       1.0000000";
"Al    S";
"      1.12749685157938       1.0000000";
"Al    S";
"      0.575797063890464            1.0000000";
"Al    S";
"      0.294051604951678            1.0000000";
"Al    S";
"      0.150168091845475            1.0000000";
"Al    S";
"      7.668876968794858E-002            1.0000000";
"Al    S";
"      3.916389509898707E-002            1.0000000";
"Al    P";
"   7016.36109438299          1.0000000";
"Al    P";
"   3583.15866840946          1.0000000";
"Al    P";
"   1829.86962476550          1.0000000";
"Al    P";
"    934.489134729210         1.0000000";
"Al    P";
"    477.230689612032         1.0000000";
"Al    P";
"    243.715119463182         1.0000000";
"Al    P";
"    124.461944187287         1.0000000";
"Al    P";
"     63.5609952513411        1.0000000";
"Al    P";
"     32.4597220758638        1.0000000";
"Al    P";
"     16.5767315800501        1.0000000";
"Al    P";
"      8.46550778330153       1.0000000";
"Al    P";
"      4.32321786011102       1.0000000";
"Al    P";
"      2.20780762884063       1.0000000";
"Al    P";
"      1.12749685157938       1.0000000";
"Al    P";
"      0.575797063890464            1.0000000";
"Al    P";
"      0.294051604951678            1.0000000";
"Al    P";
"      0.150168091845475            1.0000000";
"Al    P";
"      7.668876968794858E-002            1.0000000";
"Al    P";
"      3.916389509898707E-002            1.0000000"].

(** bfit/data/ygbs:938-1030 *)
Definition ugbs_si : list string := [
"#BASIS SET: (27s,19p)";
"Si    S";
" 1516627.98873367            1.0000000";
"Si    S";
" 774520.959152738            1.0000000";
"Si    S";
" 395537.152566831            1.0000000";
"Si    S";
" 201995.358823884            1.0000000";
"Si    S";
" 103156.238855453            1.0000000";
"Si    S";
"  52680.4659115021           1.0000000";
"Si    S";
"  26903.1860742976           1.0000000";
"Si    S";
"  13739.0854166734           1.0000000";
"Si    S";
"   7016.36109438299          1.0000000";
"Si    S";
"   3583.15866840946          1.0000000";
"Si    S";
"   1829.86962476550          1.0000000";
"Si    S";
"    934.489134729210         1.0000000";
"Si    S";
"    477.230689612032         1.0000000";
"Si    S";
"    243.715119463182         1.0000000";
"Si    S";
"    124.461944187287         1.0000000";
"Si    S";
"     63.5609952513411        1.0000000";
"Si    S";
"     32.4597220758638        1.0000000";
"Si    S";
"     16.5767315800501        1.0000000";
"Si    S";
"      8.46550778330153       1.0000000";
"Si    S";
"      4.32321786011102       1.0000000";
"Si    S";
"      2.20780762884063       1.0000000";
"Si    S";
"      1.12749685157938       1.0000000";
"Si    S";
"      0.575797063890464            1.0000000";
"Si    S";
"      0.294051604951678            1.0000000";
"Si    S";
"      0.150168091845475            1.0000000";
"Si    S";
"      7.668876968794858E-002            1.0000000";
"Si    S";
"      3.916389509898707E-002            1.0000000";
"Si    P";
"   7016.36109438299          1.0000000";
"Si    P";
"   3583.15866840946          1.0000000";
"Si    P";
"   1829.86962476550          1.0000000";
"Si    P";
"    934.489134729210         1.0000000";
"Si    P";
"    477.230689612032         1.0000000";
"Si    P";
"    243.715119463182         1.0000000";
"Si    P";
"    124.461944187287         1.0000000";
"Si    P";
"     63.5609952513411        1.0000000";
"Si    P";
"     32.4597220758638        1.0000000";
"Si    P";
"     16.5767315800501        1.0000000";
"Si    P";
"      8.46550778330153       1.0000000";
"Si    P";
"      4.32321786011102       1.0000000";
"Si    P";
"      2.20780762884063       1.0000000";
"Si    P";
"      1.12749685157938       1.0000000";
"Si    P";
"      0.575797063890464            1.0000000";
"Si    P";
"      0.294051604951678            1.0000000";
"Si    P";
"      0.150168091845475            1.0000000";
"Si    P";
"      7.668876968794858E-002            1.0000000";
"Si    P";
"      3.916389509898707E-002            1.0000000"].

(** bfit/data/ygbs:1031-1123 *)
Definition ugbs_p : list string := [
"#BASIS SET: (27s,19p)";
"P    S";
" 2969784.65079438            1.0000000";
"P    S";
" 1516627.98873367            1.0000000";
"P    S";
" 774520.959152738            1.0000000";
"P    S";
" 395537.152566831            1.0000000";
"P    S";
" 201995.358823884            1.0000000";
"P    S";
" 103156.238855453            1.0000000";
"P    S";
"  52680.4659115022           1.0000000";
"P    S";
"  26903.1860742976           1.0000000";
"P    S";
"  13739.0854166734           1.0000000";
"P    S";
"   7016.36109438300          1.0000000";
"P    S";
"   3583.15866840946          1.0000000";
"P    S";
"   1829.86962476550          1.0000000";
"P    S";
"    934.489134729211         1.0000000";
"P    S";
"    477.230689612032         1.0000000";
"P    S";
"    243.715119463182         1.0000000";
"P    S";
"    124.461944187287         1.0000000";
"P    S";
"     63.5609952513412        1.0000000";
"P    S";
"     32.4597220758638        1.0000000";
"P    S";
"     16.5767315800501        1.0000000";
"P    S";
"      8.46550778330153       1.0000000";
"P    S";
"      4.32321786011102       1.0000000";
"P    S";
"      2.20780762884063       1.0000000";
"P    S";
"      1.12749685157938       1.0000000";
"P    S";
"      0.575797063890465            1.0000000";
"P    S";
"      0.294051604951678            1.0000000";
"P    S";
"      0.150168091845475            1.0000000";
"P    S";
"      7.668876968794860E-002            1.0000000";
"P    P";
"   7016.36109438299          1.0000000";
"P    P";
"   3583.15866840946          1.0000000";
"P    P";
"   1829.86962476550          1.0000000";
"P    P";
"    934.489134729210         1.0000000";
"P    P";
"    477.230689612032         1.0000000";
"P    P";
"    243.715119463182         1.0000000";
"P    P";
"    124.461944187287         1.0000000";
"P    P";
"     63.5609952513411        1.0000000";
"P    P";
"     32.4597220758638        1.0000000";
"P    P";
"     16.5767315800501        1.0000000";
"P    P";
"      8.46550778330153       1.0000000";
"P    P";
"      4.32321786011102       1.0000000";
"P    P";
"      2.20780762884063       1.0000000";
"P    P";
"      1.12749685157938       1.0000000";
"P    P";
"      0.575797063890464            1.0000000";
"P    P";
"      0.294051604951678            1.0000000";
"P    P";
"      0.150168091845475            1.0000000";
"P    P";
"      7.668876968794858E-002            1.0000000";
"P    P";
"      3.916389509898707E-002            1.0000000"].

(** bfit/data/ygbs:1124-1216 *)
Definition ugbs_s : list string := [
"#BASIS SET: (27s,19p)";
"S    S";
" 2969784.65079438            1.0000000";
"S    S";
" 1516627.98873367            1.0000000";
"S    S";
" 774520.959152738            1.0000000";
"S    S";
" 395537.152566831            1.0000000";
"S    S";
" 201995.358823884            1.0000000";
"S    S";
" 103156.238855453            1.0000000";
"S    S";
"  52680.4659115022           1.0000000";
"S    S";
"  26903.1860742976           1.0000000";
"S    S";
"  13739.0854166734           1.0000000";
"S    S";
"   7016.36109438300          1.0000000";
"S    S";
"   3583.15866840946          1.0000000";
"S    S";
"   1829.86962476550          1.0000000";
"S    S";
"    934.489134729211         1.0000000";
"S    S";
"    477.230689612032         1.0000000";
"S    S";
"    243.715119463182         1.0000000";
"S    S";
"    124.461944187287         1.0000000";
"S    S";
"     63.5609952513412        1.0000000";
"S    S";
"     32.4597220758638        1.0000000";
"S    S";
"     16.5767315800501        1.0000000";
"S    S";
"      8.46550778330153       1.0000000";
"S    S";
"      4.32321786011102       1.0000000";
"S    S";
"      2.20780762884063       1.0000000";
"S    S";
"      1.12749685157938       1.0000000";
"S    S";
"      0.575797063890465            1.0000000";
"S    S";
"      0.294051604951678            1.0000000";
"S    S";
"      0.150168091845475            1.0000000";
"S    S";
"      7.668876968794860E-002            1.0000000";
"S    P";
"   7016.36109438299          1.0000000";
"S    P";
"   3583.15866840946          1.0000000";
"S    P";
"   1829.86962476550          1.0000000";
"S    P";
"    934.489134729210         1.0000000";
"S    P";
"    477.230689612032         1.0000000";
"S    P";
"    243.715119463182         1.0000000";
"S    P";
"    124.461944187287         1.0000000";
"S    P";
"     63.5609952513411        1.0000000";
"S    P";
"     32.4597220758638        1.0000000";
"S    P";
"     16.5767315800501        1.0000000";
"S    P";
"      8.46550778330153       1.0000000";
"S    P";
"      4.32321786011102       1.0000000";
"S    P";
"      2.20780762884063       1.0000000";
"S    P";
"      1.12749685157938       1.0000000";
"S    P";
"      0.575797063890464            1.0000000";
"S    P";
"      0.294051604951678            1.0000000";
"S    P";
"      0.150168091845475            1.0000000";
"S    P";
"      7.668876968794858E-002            1.0000000";
"S    P";
"      3.916389509898707E-002            1.0000000"].

(** bfit/data/ygbs:1217-1309 *)
Definition ugbs_cl : list string := [
"#BASIS SET: (27s,19p)";
"Cl    S";
" 2969784.65079438            1.0000000";
"Cl    S";
" 1516627.98873367            1.0000000";
"Cl    S";
" 774520.959152738            1.0000000";
"Cl    S";
" 395537.152566831            1.0000000";
"Cl    S";
" 201995.358823884            1.0000000";
"Cl    S";
" 103156.238855453            1.0000000";
"Cl    S";
"  52680.4659115022           1.0000000";
"Cl    S";
"  26903.1860742976           1.0000000";
"Cl    S";
"  13739.0854166734           1.0000000";
"Cl    S";
"   7016.36109438300          1.0000000";
"Cl    S";
"   3583.15866840946          1.0000000";
"Cl    S";
"   1829.86962476550          1.0000000";
"Cl    S";
"    934.489134729211         1.0000000";
"Cl    S";
"    477.230689612032         1.0000000";
"Cl    S";
"    243.715119463182         1.0000000";
"Cl    S";
"    124.461944187287         1.0000000";
"Cl    S";
"     63.5609952513412        1.0000000";
"Cl    S";
"     32.4597220758638        1.0000000";
"Cl    S";
"     16.5767315800501        1.0000000";
"Cl    S";
"      8.46550778330153       1.0000000";
"Cl    S";
"      4.32321786011102       1.0000000";
"Cl    S";
"      2.20780762884063       1.0000000";
"Cl    S";
"      1.12749685157938       1.0000000";
"Cl    S";
"      0.575797063890465            1.0000000";
"Cl    S";
"      0.294051604951678            1.0000000";
"Cl    S";
"      0.150168091845475            1.0000000";
"Cl    S";
"      7.668876968794860E-002            1.0000000";
"Cl    P";
"  13739.0854166734           1.0000000";
"Cl    P";
"   7016.36109438300          1.0000000";
"Cl    P";
"   3583.15866840946          1.0000000";
"Cl    P";
"   1829.86962476550          1.0000000";
"Cl    P";
"    934.489134729211         1.0000000";
"Cl    P";
"    477.230689612032         1.0000000";
"Cl    P";
"    243.715119463182         1.0000000";
"Cl    P";
"    124.461944187287         1.0000000";
"Cl    P";
"     63.5609952513412        1.0000000";
"Cl    P";
"     32.4597220758638        1.0000000";
"Cl    P";
"     16.5767315800501        1.0000000";
"Cl    P";
"      8.46550778330153       1.0000000";
"Cl    P";
"      4.32321786011102       1.0000000";
"Cl    P";
"      2.20780762884063       1.0000000";
"Cl    P";
"      1.12749685157938       1.0000000";
"Cl    P";
"      0.575797063890465            1.0000000";
"Cl    P";
"      0.294051604951678            1.0000000";
"Cl    P";
"      0.150168091845475            1.0000000";
"Cl    P";
"      7.668876968794860E-002            1.0000000"].

(** bfit/data/ygbs:1310-1400 *)
Definition ugbs_ar : list string := [
"#BASIS SET: (26s,19p)";
"Ar    S";
" 2969784.65079439            1.0000000";
"Ar    S";
" 1516627.98873367            1.0000000";
"Ar    S";
" 774520.959152738            1.0000000";
"Ar    S";
" 395537.152566831            1.0000000";
"Ar    S";
" 201995.358823884            1.0000000";
"Ar    S";
" 103156.238855453            1.0000000";
"Ar    S";
"  52680.4659115021           1.0000000";
"Ar    S";
"  26903.1860742975           1.0000000";
"Ar    S";
"  13739.0854166734           1.0000000";
"Ar    S";
"   7016.36109438299          1.0000000";
"Ar    S";
"   3583.15866840945          1.0000000";
"Ar    S";
"   1829.86962476550          1.0000000";
"Ar    S";
"    934.489134729210         1.0000000";
"Ar    S";
"    477.230689612032         1.0000000";
"Ar    S";
"    243.715119463182         1.0000000";
"Ar    S";
"    124.461944187287         1.0000000";
"Ar    S";
"     63.5609952513411        1.0000000";
"Ar    S";
"     32.4597220758638        1.0000000";
"Ar    S";
"     16.5767315800501        1.0000000";
"Ar    S";
"      8.46550778330153       1.0000000";
"Ar    S";
"      4.32321786011102       1.0000000";
"Ar    S";
"      2.20780762884063       1.0000000";
"Ar    S";
"      1.12749685157938       1.0000000";
"Ar    S";
"      0.575797063890464            1.0000000";
"Ar    S";
"      0.294051604951678            1.0000000";
"Ar    S";
"      0.150168091845475            1.0000000";
"Ar    P";
"  13739.0854166734           1.0000000";
"Ar    P";
"   7016.36109438300          1.0000000";
"Ar    P";
"   3583.15866840946          1.0000000";
"Ar    P";
"   1829.86962476550          1.0000000";
"Ar    P";
"    934.489134729211         1.0000000";
"Ar    P";
"    477.230689612032         1.0000000";
"Ar    P";
"    243.715119463182         1.0000000";
"Ar    P";
"    124.461944187287         1.0000000";
"Ar    P";
"     63.5609952513412        1.0000000";
"Ar    P";
"     32.4597220758638        1.0000000";
"Ar    P";
"     16.5767315800501        1.0000000";
"Ar    P";
"      8.46550778330153       1.0000000";
"Ar    P";
"      4.32321786011102       1.0000000";
"Ar    P";
"      2.20780762884063       1.0000000";
"Ar    P";
"      1.12749685157938       1.0000000";
"Ar    P";
"      0.575797063890465            1.0000000";
"Ar    P";
"      0.294051604951678            1.0000000";
"Ar    P";
"      0.150168091845475            1.0000000";
"Ar    P";
"      7.668876968794860E-002            1.0000000"].

(** bfit/data/ygbs:1401-1497 *)
Definition ugbs_k : list string := [
"#BASIS SET: (29s,19p)";
"K    S";
" 2969784.65079438            1.0000000";
"K    S";
" 1516627.98873367            1.0000000";
"K    S";
" 774520.959152735            1.0000000";
"K    S";
" 395537.152566831            1.0000000";
"K    S";
" 201995.358823884            1.0000000";
"K    S";
" 103156.238855453            1.0000000";
"K    S";
"  52680.4659115021           1.0000000";
"K    S";
"  26903.1860742975           1.0000000";
"K    S";
"  13739.0854166734           1.0000000";
"K    S";
"   7016.36109438299          1.0000000";
"K    S";
"   3583.15866840945          1.0000000";
"K    S";
"   1829.86962476550          1.0000000";
"K    S";
"    934.489134729211         1.0000000";
"K    S";
"    477.230689612032         1.0000000";
"K    S";
"    243.715119463182         1.0000000";
"K    S";
"    124.461944187287         1.0000000";
"K    S";
"     63.5609952513411        1.0000000";
"K    S";
"     32.4597220758638        1.0000000";
"K    S";
"     16.5767315800501        1.0000000";
"K    S";
"      8.46550778330153       1.0000000";
"K    S";
"      4.32321786011102       1.0000000";
"K    S";
"      2.20780762884063       1.0000000";
"K    S";
"      1.12749685157938       1.0000000";
"K    S";
"      0.575797063890465            1.0000000";
"K    S";
"      0.294051604951678            1.0000000";
"K    S";
"      0.150168091845475            1.0000000";
"K    S";
"      7.668876968794858E-002            1.0000000";
"K    S";
"      3.916389509898707E-002            1.0000000";
"K    S";
"      2.000046011385546E-002            1.0000000";
"K    P";
"  13739.0854166734           1.0000000";
"K    P";
"   7016.36109438300          1.0000000";
"K    P";
"   3583.15866840946          1.0000000";
"K    P";
"   1829.86962476550          1.0000000";
"K    P";
"    934.489134729211         1.0000000";
"K    P";
"    477.230689612032         1.0000000";
"K    P";
"    243.715119463182         1.0000000";
"K    P";
"    124.461944187287         1.0000000";
"K    P";
"     63.5609952513412        1.0000000";
"K    P";
"     32.4597220758638        1.0000000";
"K    P";
"     16.5767315800501        1.0000000";
"K    P";
"      8.46550778330153       1.0000000";
"K    P";
"      4.32321786011102       1.0000000";
"K    P";
"      2.20780762884063       1.0000000";
"K    P";
"      1.12749685157938       1.0000000";
"K    P";
"      0.575797063890465            1.0000000";
"K    P";
"      0.294051604951678            1.0000000";
"K    P";
"      0.150168091845475            1.0000000";
"K    P";
"      7.668876968794860E-002            1.0000000"].

(** bfit/data/ygbs:1498-1594 *)
Definition ugbs_ca : list string := [
"#BASIS SET: (29s,19p)";
"Ca    S";
" 2969784.65079438            1.0000000";
"Ca    S";
" 1516627.98873367            1.0000000";
"Ca    S";
" 774520.959152735            1.0000000";
"Ca    S";
" 395537.152566831            1.0000000";
"Ca    S";
" 201995.358823884            1.0000000";
"Ca    S";
" 103156.238855453            1.0000000";
"Ca    S";
"  52680.4659115021           1.0000000";
"Ca    S";
"  26903.1860742975           1.0000000";
"Ca    S";
"  13739.0854166734           1.0000000";
"Ca    S";
"   7016.36109438299          1.0000000";
"Ca    S";
"   3583.15866840945          1.0000000";
"Ca    S";
"   1829.86962476550          1.0000000";
"Ca    S";
"    934.489134729211         1.0000000";
"Ca    S";
"    477.230689612032         1.0000000";
"Ca    S";
"    243.715119463182         1.0000000";
"Ca    S";
"    124.461944187287         1.0000000";
"Ca    S";
"     63.5609952513411        1.0000000";
"Ca    S";
"     32.4597220758638        1.0000000";
"Ca    S";
"     16.5767315800501        1.0000000";
"Ca    S";
"      8.46550778330153       1.0000000";
"Ca    S";
"      4.32321786011102       1.0000000";
"Ca    S";
"      2.20780762884063       1.0000000";
"Ca    S";
"      1.12749685157938       1.0000000";
"Ca    S";
"      0.575797063890465            1.0000000";
"Ca    S";
"      0.294051604951678            1.0000000";
"Ca    S";
"      0.150168091845475            1.0000000";
"Ca    S";
"      7.668876968794858E-002            1.0000000";
"Ca    S";
"      3.916389509898707E-002            1.0000000";
"Ca    S";
"      2.000046011385546E-002            1.0000000";
"Ca    P";
"  13739.0854166734           1.0000000";
"Ca    P";
"   7016.36109438300          1.0000000";
"Ca    P";
"   3583.15866840946          1.0000000";
"Ca    P";
"   1829.86962476550          1.0000000";
"Ca    P";
"    934.489134729211         1.0000000";
"Ca    P";
"    477.230689612032         1.0000000";
"Ca    P";
"    243.715119463182         1.0000000";
"Ca    P";
"    124.461944187287         1.0000000";
"Ca    P";
"     63.5609952513412        1.0000000";
"Ca    P";
"     32.4597220758638        1.0000000";
"Ca    P";
"     16.5767315800501        1.0000000";
"Ca    P";
"      8.46550778330153       1.0000000";
"Ca    P";
"      4.32321786011102       1.0000000";
"Ca    P";
"      2.20780762884063       1.0000000";
"Ca    P";
"      1.12749685157938       1.0000000";
"Ca    P";
"      0.575797063890465            1.0000000";
"Ca    P";
"      0.294051604951678            1.0000000";
"Ca    P";
"      0.150168091845475            1.0000000";
"Ca    P";
"      7.668876968794860E-002            1.0000000"].

(** bfit/data/ygbs:1595-1723 *)
Definition ugbs_sc : list string := [
"#BASIS SET: (30s,20p,14d)";
"Sc    S";
" 5815282.94190191            1.0000000";
"Sc    S";
" 2969784.65079438            1.0000000";
"Sc    S";
" 1516627.98873367            1.0000000";
"Sc    S";
" 774520.959152735            1.0000000";
"Sc    S";
" 395537.152566831            1.0000000";
"Sc    S";
" 201995.358823884            1.0000000";
"Sc    S";
" 103156.238855453            1.0000000";
"Sc    S";
"  52680.4659115021           1.0000000";
"Sc    S";
"  26903.1860742975           1.0000000";
"Sc    S";
"  13739.0854166734           1.0000000";
"Sc    S";
"   7016.36109438299          1.0000000";
"Sc    S";
"   3583.15866840945          1.0000000";
"Sc    S";
"   1829.86962476550          1.0000000";
"Sc    S";
"    934.489134729211         1.0000000";
"Sc    S";
"    477.230689612032         1.0000000";
"Sc    S";
"    243.715119463182         1.0000000";
"Sc    S";
"    124.461944187287         1.0000000";
"Sc    S";
"     63.5609952513411        1.0000000";
"Sc    S";
"     32.4597220758638        1.0000000";
"Sc    S";
"     16.5767315800501        1.0000000";
"Sc    S";
"      8.46550778330153       1.0000000";
"Sc    S";
"      4.32321786011102       1.0000000";
"Sc    S";
"      2.20780762884063       1.0000000";
"Sc    S";
"      1.12749685157938       1.0000000";
"Sc    S";
"      0.575797063890465            1.0000000";
"Sc    S";
"      0.294051604951678            1.0000000";
"Sc    S";
"      0.150168091845475            1.0000000";
"Sc    S";
"      7.668876968794858E-002            1.0000000";
"Sc    S";
"      3.916389509898707E-002            1.0000000";
"Sc    S";
"      2.000046011385546E-002            1.0000000";
"Sc    P";
"  26903.1860742976           1.0000000";
"Sc    P";
"  13739.0854166734           1.0000000";
"Sc    P";
"   7016.36109438300          1.0000000";
"Sc    P";
"   3583.15866840946          1.0000000";
"Sc    P";
"   1829.86962476550          1.0000000";
"Sc    P";
"    934.489134729211         1.0000000";
"Sc    P";
"    477.230689612032         1.0000000";
"Sc    P";
"    243.715119463182         1.0000000";
"Sc    P";
"    124.461944187287         1.0000000";
"Sc    P";
"     63.5609952513412        1.0000000";
"Sc    P";
"     32.4597220758638        1.0000000";
"Sc    P";
"     16.5767315800501        1.0000000";
"Sc    P";
"      8.46550778330153       1.0000000";
"Sc    P";
"      4.32321786011102       1.0000000";
"Sc    P";
"      2.20780762884063       1.0000000";
"Sc    P";
"      1.12749685157938       1.0000000";
"Sc    P";
"      0.575797063890465            1.0000000";
"Sc    P";
"      0.294051604951678            1.0000000";
"Sc    P";
"      0.150168091845475            1.0000000";
"Sc    P";
"      7.668876968794860E-002            1.0000000";
"Sc    D";
"    477.230689612032         1.0000000";
"Sc    D";
"    243.715119463182         1.0000000";
"Sc    D";
"    124.461944187287         1.0000000";
"Sc    D";
"     63.5609952513412        1.0000000";
"Sc    D";
"     32.4597220758638        1.0000000";
"Sc    D";
"     16.5767315800501        1.0000000";
"Sc    D";
"      8.46550778330153       1.0000000";
"Sc    D";
"      4.32321786011102       1.0000000";
"Sc    D";
"      2.20780762884063       1.0000000";
"Sc    D";
"      1.12749685157938       1.0000000";
"Sc    D";
"      0.575797063890465            1.0000000";
"Sc    D";
"      0.294051604951678            1.0000000";
"Sc    D";
"      0.150168091845475            1.0000000";
"Sc    D";
"      7.668876968794860E-002            1.0000000"].

(** bfit/data/ygbs:1724-1852 *)
Definition ugbs_ti : list string := [
"#BASIS SET: (30s,20p,14d)";
"Ti    S";
" 5815282.94190191            1.0000000";
"Ti    S";
" 2969784.65079438            1.0000000";
"Ti    S";
" 1516627.98873367            1.0000000";
"Ti    S";
" 774520.959152735            1.0000000";
"Ti    S";
" 395537.152566831            1.0000000";
"Ti    S";
" 201995.358823884            1.0000000";
"Ti    S";
" 103156.238855453            1.0000000";
"Ti    S";
"  52680.4659115021           1.0000000";
"Ti    S";
"  26903.1860742975           1.0000000";
"Ti    S";
"  13739.0854166734           1.0000000";
"Ti    S";
"   7016.36109438299          1.0000000";
"Ti    S";
"   3583.15866840945          1.0000000";
"Ti    S";
"   1829.86962476550          1.0000000";
"Ti    S";
"    934.489134729211         1.0000000";
"Ti    S";
"    477.230689612032         1.0000000";
"Ti    S";
"    243.715119463182         1.0000000";
"Ti    S";
"    124.461944187287         1.0000000";
"Ti    S";
"     63.5609952513411        1.0000000";
"Ti    S";
"     32.4597220758638        1.0000000";
"Ti    S";
"     16.5767315800501        1.0000000";
"Ti    S";
"      8.46550778330153       1.0000000";
"Ti    S";
"      4.32321786011102       1.0000000";
"Ti    S";
"      2.20780762884063       1.0000000";
"Ti    S";
"      1.12749685157938       1.0000000";
"Ti    S";
"      0.575797063890465            1.0000000";
"Ti    S";
"      0.294051604951678            1.0000000";
"Ti    S";
"      0.150168091845475            1.0000000";
"Ti    S";
"      7.668876968794858E-002            1.0000000";
"Ti    S";
"      3.916389509898707E-002            1.0000000";
"Ti    S";
"      2.000046011385546E-002            1.0000000";
"Ti    P";
"  26903.1860742976           1.0000000";
"Ti    P";
"  13739.0854166734           1.0000000";
"Ti    P";
"   7016.36109438300          1.0000000";
"Ti    P";
"   3583.15866840946          1.0000000";
"Ti    P";
"   1829.86962476550          1.0000000";
"Ti    P";
"    934.489134729211         1.0000000";
"Ti    P";
"    477.230689612032         1.0000000";
"Ti    P";
"    243.715119463182         1.0000000";
"Ti    P";
"    124.461944187287         1.0000000";
"Ti    P";
"     63.5609952513412        1.0000000";
"Ti    P";
"     32.4597220758638        1.0000000";
"Ti    P";
"     16.5767315800501        1.0000000";
"Ti    P";
"      8.46550778330153       1.0000000";
"Ti    P";
"      4.32321786011102       1.0000000";
"Ti    P";
"      2.20780762884063       1.0000000";
"Ti    P";
"      1.12749685157938       1.0000000";
"Ti    P";
"      0.575797063890465            1.0000000";
"Ti    P";
"      0.294051604951678            1.0000000";
"Ti    P";
"      0.150168091845475            1.0000000";
"Ti    P";
"      7.668876968794860E-002            1.0000000";
"Ti    D";
"    477.230689612032         1.0000000";
"Ti    D";
"    243.715119463182         1.0000000";
"Ti    D";
"    124.461944187287         1.0000000";
"Ti    D";
"     63.5609952513412        1.0000000";
"Ti    D";
"     32.4597220758638        1.0000000";
"Ti    D";
"     16.5767315800501        1.0000000";
"Ti    D";
"      8.46550778330153       1.0000000";
"Ti    D";
"      4.32321786011102       1.0000000";
"Ti    D";
"      2.20780762884063       1.0000000";
"Ti    D";
"      1.12749685157938       1.0000000";
"Ti    D";
"      0.575797063890465            1.0000000";
"Ti    D";
"      0.294051604951678            1.0000000";
"Ti    D";
"      0.150168091845475            1.0000000";
"Ti    D";
"      7.668876968794860E-002            1.0000000"].

(** bfit/data/ygbs:1853-1981 *)
Definition ugbs_v : list string := [
"#BASIS SET: (30s,20p,14d)";
"V    S";
" 5815282.94190191            1.0000000";
"V    S";
" 2969784.65079438            1.0000000";
"V    S";
" 1516627.98873367            1.0000000";
"V    S";
" 774520.959152735            1.0000000";
"V    S";
" 395537.152566831            1.0000000";
"V    S";
" 201995.358823884            1.0000000";
"V    S";
" 103156.238855453            1.0000000";
"V    S";
"  52680.4659115021           1.0000000";
"V    S";
"  26903.1860742975           1.0000000";
"V    S";
"  13739.0854166734           1.0000000";
"V    S";
"   7016.36109438299          1.0000000";
"V    S";
"   3583.15866840945          1.0000000";
"V    S";
"   1829.86962476550          1.0000000";
"V    S";
"    934.489134729211         1.0000000";
"V    S";
"    477.230689612032         1.0000000";
"V    S";
"    243.715119463182         1.0000000";
"V    S";
"    124.461944187287         1.0000000";
"V    S";
"     63.5609952513411        1.0000000";
"V    S";
"     32.4597220758638        1.0000000";
"V    S";
"     16.5767315800501        1.0000000";
"V    S";
"      8.46550778330153       1.0000000";
"V    S";
"      4.32321786011102       1.0000000";
"V    S";
"      2.20780762884063       1.0000000";
"V    S";
"      1.12749685157938       1.0000000";
"V    S";
"      0.575797063890465            1.0000000";
"V    S";
"      0.294051604951678            1.0000000";
"V    S";
"      0.150168091845475            1.0000000";
"V    S";
"      7.668876968794858E-002            1.0000000";
"V    S";
"      3.916389509898707E-002            1.0000000";
"V    S";
"      2.000046011385546E-002            1.0000000";
"V    P";
"  26903.1860742976           1.0000000";
"V    P";
"  13739.0854166734           1.0000000";
"V    P";
"   7016.36109438300          1.0000000";
"V    P";
"   3583.15866840946          1.0000000";
"V    P";
"   1829.86962476550          1.0000000";
"V    P";
"    934.489134729211         1.0000000";
"V    P";
"    477.230689612032         1.0000000";
"V    P";
"    243.715119463182         1.0000000";
"V    P";
"    124.461944187287         1.0000000";
"V    P";
"     63.5609952513412        1.0000000";
"V    P";
"     32.4597220758638        1.0000000";
"V    P";
"     16.5767315800501        1.0000000";
"V    P";
"      8.46550778330153       1.0000000";
"V    P";
"      4.32321786011102       1.0000000";
"V    P";
"      2.20780762884063       1.0000000";
"V    P";
"      1.12749685157938       1.0000000";
"V    P";
"      0.575797063890465            1.0000000";
"V    P";
"      0.294051604951678            1.0000000";
"V    P";
"      0.150168091845475            1.0000000";
"V    P";
"      7.668876968794860E-002            1.0000000";
"V    D";
"    477.230689612032         1.0000000";
"V    D";
"    243.715119463182         1.0000000";
"V    D";
"    124.461944187287         1.0000000";
"V    D";
"     63.5609952513412        1.0000000";
"V    D";
"     32.4597220758638        1.0000000";
"V    D";
"     16.5767315800501        1.0000000";
"V    D";
"      8.46550778330153       1.0000000";
"V    D";
"      4.32321786011102       1.0000000";
"V    D";
"      2.20780762884063       1.0000000";
"V    D";
"      1.12749685157938       1.0000000";
"V    D";
"      0.575797063890465            1.0000000";
"V    D";
"      0.294051604951678            1.0000000";
"V    D";
"      0.150168091845475            1.0000000";
"V    D";
"      7.668876968794860E-002            1.0000000"].

(** bfit/data/ygbs:1982-2110 *)
Definition ugbs_cr : list string := [
"#BASIS SET: (30s,20p,14d)";
"Cr    S";
" 5815282.94190191            1.0000000";
"Cr    S";
" 2969784.65079438            1.0000000";
"Cr    S";
" 1516627.98873367            1.0000000";
"Cr    S";
" 774520.959152735            1.0000000";
"Cr    S";
" 395537.152566831            1.0000000";
"Cr    S";
" 201995.358823884            1.0000000";
"Cr    S";
" 103156.238855453            1.0000000";
"Cr    S";
"  52680.4659115021           1.0000000";
"Cr    S";
"  26903.1860742975           1.0000000";
"Cr    S";
"  13739.0854166734           1.0000000";
"Cr    S";
"   7016.36109438299          1.0000000";
"Cr    S";
"   3583.15866840945          1.0000000";
"Cr    S";
"   1829.86962476550          1.0000000";
"Cr    S";
"    934.489134729211         1.0000000";
"Cr    S";
"    477.230689612032         1.0000000";
"Cr    S";
"    243.715119463182         1.0000000";
"Cr    S";
"    124.461944187287         1.0000000";
"Cr    S";
"     63.5609952513411        1.0000000";
"Cr    S";
"     32.4597220758638        1.0000000";
"Cr    S";
"     16.5767315800501        1.0000000";
"Cr    S";
"      8.46550778330153       1.0000000";
"Cr    S";
"      4.32321786011102       1.0000000";
"Cr    S";
"      2.20780762884063       1.0000000";
"Cr    S";
"      1.12749685157938       1.0000000";
"Cr    S";
"      0.575797063890465            1.0000000";
"Cr    S";
"      0.294051604951678            1.0000000";
"Cr    S";
"      0.150168091845475            1.0000000";
"Cr    S";
"      7.668876968794858E-002            1.0000000";
"Cr    S";
"      3.916389509898707E-002            1.0000000";
"Cr    S";
"      2.000046011385546E-002            1.0000000";
"Cr    P";
"  52680.4659115021           1.0000000";
"Cr    P";
"  26903.1860742975           1.0000000";
"Cr    P";
"  13739.0854166734           1.0000000";
"Cr    P";
"   7016.36109438299          1.0000000";
"Cr    P";
"   3583.15866840945          1.0000000";
"Cr    P";
"   1829.86962476550          1.0000000";
"Cr    P";
"    934.489134729210         1.0000000";
"Cr    P";
"    477.230689612032         1.0000000";
"Cr    P";
"    243.715119463182         1.0000000";
"Cr    P";
"    124.461944187287         1.0000000";
"Cr    P";
"     63.5609952513411        1.0000000";
"Cr    P";
"     32.4597220758638        1.0000000";
"Cr    P";
"     16.5767315800501        1.0000000";
"Cr    P";
"      8.46550778330153       1.0000000";
"Cr    P";
"      4.32321786011102       1.0000000";
"Cr    P";
"      2.20780762884063       1.0000000";
"Cr    P";
"      1.12749685157938       1.0000000";
"Cr    P";
"      0.575797063890464            1.0000000";
"Cr    P";
"      0.294051604951678            1.0000000";
"Cr    P";
"      0.150168091845475            1.0000000";
"Cr    D";
"    477.230689612032         1.0000000";
"Cr    D";
"    243.715119463182         1.0000000";
"Cr    D";
"    124.461944187287         1.0000000";
"Cr    D";
"     63.5609952513412        1.0000000";
"Cr    D";
"     32.4597220758638        1.0000000";
"Cr    D";
"     16.5767315800501        1.0000000";
"Cr    D";
"      8.46550778330153       1.0000000";
"Cr    D";
"      4.32321786011102       1.0000000";
"Cr    D";
"      2.20780762884063       1.0000000";
"Cr    D";
"      1.12749685157938       1.0000000";
"Cr    D";
"      0.575797063890465            1.0000000";
"Cr    D";
"      0.294051604951678            1.0000000";
"Cr    D";
"      0.150168091845475            1.0000000";
"Cr    D";
"      7.668876968794860E-002            1.0000000"].

(** bfit/data/ygbs:2111-2241 *)
Definition ugbs_mn : list string := [
"#BASIS SET: (30s,20p,15d)";
"Mn    S";
" 5815282.94190191            1.0000000";
"Mn    S";
" 2969784.65079438            1.0000000";
"Mn    S";
" 1516627.98873367            1.0000000";
"Mn    S";
" 774520.959152735            1.0000000";
"Mn    S";
" 395537.152566831            1.0000000";
"Mn    S";
" 201995.358823884            1.0000000";
"Mn    S";
" 103156.238855453            1.0000000";
"Mn    S";
"  52680.4659115021           1.0000000";
"Mn    S";
"  26903.1860742975           1.0000000";
"Mn    S";
"  13739.0854166734           1.0000000";
"Mn    S";
"   7016.36109438299          1.0000000";
"Mn    S";
"   3583.15866840945          1.0000000";
"Mn    S";
"   1829.86962476550          1.0000000";
"Mn    S";
"    934.489134729211         1.0000000";
"Mn    S";
"    477.230689612032         1.0000000";
"Mn    S";
"    243.715119463182         1.0000000";
"Mn    S";
"    124.461944187287         1.0000000";
"Mn    S";
"     63.5609952513411        1.0000000";
"Mn    S";
"     32.4597220758638        1.0000000";
"Mn    S";
"     16.5767315800501        1.0000000";
"Mn    S";
"      8.46550778330153       1.0000000";
"Mn    S";
"      4.32321786011102       1.0000000";
"Mn    S";
"      2.20780762884063       1.0000000";
"Mn    S";
"      1.12749685157938       1.0000000";
"Mn    S";
"      0.575797063890465            1.0000000";
"Mn    S";
"      0.294051604951678            1.0000000";
"Mn    S";
"      0.150168091845475            1.0000000";
"Mn    S";
"      7.668876968794858E-002            1.0000000";
"Mn    S";
"      3.916389509898707E-002            1.0000000";
"Mn    S";
"      2.000046011385546E-002            1.0000000";
"Mn    P";
"  52680.4659115021           1.0000000";
"Mn    P";
"  26903.1860742975           1.0000000";
"Mn    P";
"  13739.0854166734           1.0000000";
"Mn    P";
"   7016.36109438299          1.0000000";
"Mn    P";
"   3583.15866840945          1.0000000";
"Mn    P";
"   1829.86962476550          1.0000000";
"Mn    P";
"    934.489134729210         1.0000000";
"Mn    P";
"    477.230689612032         1.0000000";
"Mn    P";
"    243.715119463182         1.0000000";
"Mn    P";
"    124.461944187287         1.0000000";
"Mn    P";
"     63.5609952513411        1.0000000";
"Mn    P";
"     32.4597220758638        1.0000000";
"Mn    P";
"     16.5767315800501        1.0000000";
"Mn    P";
"      8.46550778330153       1.0000000";
"Mn    P";
"      4.32321786011102       1.0000000";
"Mn    P";
"      2.20780762884063       1.0000000";
"Mn    P";
"      1.12749685157938       1.0000000";
"Mn    P";
"      0.575797063890464            1.0000000";
"Mn    P";
"      0.294051604951678            1.0000000";
"Mn    P";
"      0.150168091845475            1.0000000";
"Mn    D";
"    934.489134729211         1.0000000";
"Mn    D";
"    477.230689612032         1.0000000";
"Mn    D";
"    243.715119463182         1.0000000";
"Mn    D";
"    124.461944187287         1.0000000";
"Mn    D";
"     63.5609952513412        1.0000000";
"Mn    D";
"     32.4597220758638        1.0000000";
"Mn    D";
"     16.5767315800501        1.0000000";
"Mn    D";
"      8.46550778330153       1.0000000";
"Mn    D";
"      4.32321786011102       1.0000000";
"Mn    D";
"      2.20780762884063       1.0000000";
"Mn    D";
"      1.12749685157938       1.0000000";
"Mn    D";
"      0.575797063890465            1.0000000";
"Mn    D";
"      0.294051604951678            1.0000000";
"Mn    D";
"      0.150168091845475            1.0000000";
"Mn    D";
"      7.668876968794860E-002            1.0000000"].

(** bfit/data/ygbs:2242-2374 *)
Definition ugbs_fe : list string := [
"#BASIS SET: (31s,20p,15d)";
"Fe    S";
" 11387194.5850786            1.0000000";
"Fe    S";
" 5815282.94190191            1.0000000";
"Fe    S";
" 2969784.65079438            1.0000000";
"Fe    S";
" 1516627.98873367            1.0000000";
"Fe    S";
" 774520.959152735            1.0000000";
"Fe    S";
" 395537.152566831            1.0000000";
"Fe    S";
" 201995.358823884            1.0000000";
"Fe    S";
" 103156.238855453            1.0000000";
"Fe    S";
"  52680.4659115021           1.0000000";
"Fe    S";
"  26903.1860742975           1.0000000";
"Fe    S";
"  13739.0854166734           1.0000000";
"Fe    S";
"   7016.36109438299          1.0000000";
"Fe    S";
"   3583.15866840945          1.0000000";
"Fe    S";
"   1829.86962476550          1.0000000";
"Fe    S";
"    934.489134729211         1.0000000";
"Fe    S";
"    477.230689612032         1.0000000";
"Fe    S";
"    243.715119463182         1.0000000";
"Fe    S";
"    124.461944187287         1.0000000";
"Fe    S";
"     63.5609952513411        1.0000000";
"Fe    S";
"     32.4597220758638        1.0000000";
"Fe    S";
"     16.5767315800501        1.0000000";
"Fe    S";
"      8.46550778330153       1.0000000";
"Fe    S";
"      4.32321786011102       1.0000000";
"Fe    S";
"      2.20780762884063       1.0000000";
"Fe    S";
"      1.12749685157938       1.0000000";
"Fe    S";
"      0.575797063890465            1.0000000";
"Fe    S";
"      0.294051604951678            1.0000000";
"Fe    S";
"      0.150168091845475            1.0000000";
"Fe    S";
"      7.668876968794858E-002            1.0000000";
"Fe    S";
"      3.916389509898707E-002            1.0000000";
"Fe    S";
"      2.000046011385546E-002            1.0000000";
"Fe    P";
"  52680.4659115021           1.0000000";
"Fe    P";
"  26903.1860742975           1.0000000";
"Fe    P";
"  13739.0854166734           1.0000000";
"Fe    P";
"   7016.36109438299          1.0000000";
"Fe    P";
"   3583.15866840945          1.0000000";
"Fe    P";
"   1829.86962476550          1.0000000";
"Fe    P";
"    934.489134729210         1.0000000";
"Fe    P";
"    477.230689612032         1.0000000";
"Fe    P";
"    243.715119463182         1.0000000";
"Fe    P";
"    124.461944187287         1.0000000";
"Fe    P";
"     63.5609952513411        1.0000000";
"Fe    P";
"     32.4597220758638        1.0000000";
"Fe    P";
"     16.5767315800501        1.0000000";
"Fe    P";
"      8.46550778330153       1.0000000";
"Fe    P";
"      4.32321786011102       1.0000000";
"Fe    P";
"      2.20780762884063       1.0000000";
"Fe    P";
"      1.12749685157938       1.0000000";
"Fe    P";
"      0.575797063890464            1.0000000";
"Fe    P";
"      0.294051604951678            1.0000000";
"Fe    P";
"      0.150168091845475            1.0000000";
"Fe    D";
"    934.489134729211         1.0000000";
"Fe    D";
"    477.230689612032         1.0000000";
"Fe    D";
"    243.715119463182         1.0000000";
"Fe    D";
"    124.461944187287         1.0000000";
"Fe    D";
"     63.5609952513412        1.0000000";
"Fe    D";
"     32.4597220758638        1.0000000";
"Fe    D";
"     16.5767315800501        1.0000000";
"Fe    D";
"      8.46550778330153       1.0000000";
"Fe    D";
"      4.32321786011102       1.0000000";
"Fe    D";
"      2.20780762884063       1.0000000";
"Fe    D";
"      1.12749685157938       1.0000000";
"Fe    D";
"      0.575797063890465            1.0000000";
"Fe    D";
"      0.294051604951678            1.0000000";
"Fe    D";
"      0.150168091845475            1.0000000";
"Fe    D";
"      7.668876968794860E-002            1.0000000"].

(** bfit/data/ygbs:2375-2507 *)
Definition ugbs_co : list string := [
"#BASIS SET: (31s,20p,15d)";
"Co    S";
" 11387194.5850786            1.0000000";
"Co    S";
" 5815282.94190191            1.0000000";
"Co    S";
" 2969784.65079438            1.0000000";
"Co    S";
" 1516627.98873367            1.0000000";
"Co    S";
" 774520.959152735            1.0000000";
"Co    S";
" 395537.152566831            1.0000000";
"Co    S";
" 201995.358823884            1.0000000";
"Co    S";
" 103156.238855453            1.0000000";
"Co    S";
"  52680.4659115021           1.0000000";
"Co    S";
"  26903.1860742975           1.0000000";
"Co    S";
"  13739.0854166734           1.0000000";
"Co    S";
"   7016.36109438299          1.0000000";
"Co    S";
"   3583.15866840945          1.0000000";
"Co    S";
"   1829.86962476550          1.0000000";
"Co    S";
"    934.489134729211         1.0000000";
"Co    S";
"    477.230689612032         1.0000000";
"Co    S";
"    243.715119463182         1.0000000";
"Co    S";
"    124.461944187287         1.0000000";
"Co    S";
"     63.5609952513411        1.0000000";
"Co    S";
"     32.4597220758638        1.0000000";
"Co    S";
"     16.5767315800501        1.0000000";
"Co    S";
"      8.46550778330153       1.0000000";
"Co    S";
"      4.32321786011102       1.0000000";
"Co    S";
"      2.20780762884063       1.0000000";
"Co    S";
"      1.12749685157938       1.0000000";
"Co    S";
"      0.575797063890465            1.0000000";
"Co    S";
"      0.294051604951678            1.0000000";
"Co    S";
"      0.150168091845475            1.0000000";
"Co    S";
"      7.668876968794858E-002            1.0000000";
"Co    S";
"      3.916389509898707E-002            1.0000000";
"Co    S";
"      2.000046011385546E-002            1.0000000";
"Co    P";
"  52680.4659115021           1.0000000";
"Co    P";
"  26903.1860742975           1.0000000";
"Co    P";
"  13739.0854166734           1.0000000";
"Co    P";
"   7016.36109438299          1.0000000";
"Co    P";
"   3583.15866840945          1.0000000";
"Co    P";
"   1829.86962476550          1.0000000";
"Co    P";
"    934.489134729210         1.0000000";
"Co    P";
"    477.230689612032         1.0000000";
"Co    P";
"    243.715119463182         1.0000000";
"Co    P";
"    124.461944187287         1.0000000";
"Co    P";
"     63.5609952513411        1.0000000";
"Co    P";
"     32.4597220758638        1.0000000";
"Co    P";
"     16.5767315800501        1.0000000";
"Co    P";
"      8.46550778330153       1.0000000";
"Co    P";
"      4.32321786011102       1.0000000";
"Co    P";
"      2.20780762884063       1.0000000";
"Co    P";
"      1.12749685157938       1.0000000";
"Co    P";
"      0.575797063890464            1.0000000";
"Co    P";
"      0.294051604951678            1.0000000";
"Co    P";
"      0.150168091845475            1.0000000";
"Co    D";
"    934.489134729211         1.0000000";
"Co    D";
"    477.230689612032         1.0000000";
"Co    D";
"    243.715119463182         1.0000000";
"Co    D";
"    124.461944187287         1.0000000";
"Co    D";
"     63.5609952513412        1.0000000";
"Co    D";
"     32.4597220758638        1.0000000";
"Co    D";
"     16.5767315800501        1.0000000";
"Co    D";
"      8.46550778330153       1.0000000";
"Co    D";
"      4.32321786011102       1.0000000";
"Co    D";
"      2.20780762884063       1.0000000";
"Co    D";
"      1.12749685157938       1.0000000";
"Co    D";
"      0.575797063890465            1.0000000";
"Co    D";
"      0.294051604951678            1.0000000";
"Co    D";
"      0.150168091845475            1.0000000";
"Co    D";
"      7.668876968794860E-002            1.0000000"].

(** bfit/data/ygbs:2508-2638 *)
Definition ugbs_ni : list string := [
"#BASIS SET: (30s,20p,15d)";
"Ni    S";
" 11387194.5850786            1.0000000";
"Ni    S";
" 5815282.94190191            1.0000000";
"Ni    S";
" 2969784.65079438            1.0000000";
"Ni    S";
" 1516627.98873367            1.0000000";
"Ni    S";
" 774520.959152738            1.0000000";
"Ni    S";
" 395537.152566831            1.0000000";
"Ni    S";
" 201995.358823884            1.0000000";
"Ni    S";
" 103156.238855453            1.0000000";
"Ni    S";
"  52680.4659115021           1.0000000";
"Ni    S";
"  26903.1860742976           1.0000000";
"Ni    S";
"  13739.0854166734           1.0000000";
"Ni    S";
"   7016.36109438299          1.0000000";
"Ni    S";
"   3583.15866840946          1.0000000";
"Ni    S";
"   1829.86962476550          1.0000000";
"Ni    S";
"    934.489134729210         1.0000000";
"Ni    S";
"    477.230689612032         1.0000000";
"Ni    S";
"    243.715119463182         1.0000000";
"Ni    S";
"    124.461944187287         1.0000000";
"Ni    S";
"     63.5609952513411        1.0000000";
"Ni    S";
"     32.4597220758638        1.0000000";
"Ni    S";
"     16.5767315800501        1.0000000";
"Ni    S";
"      8.46550778330153       1.0000000";
"Ni    S";
"      4.32321786011102       1.0000000";
"Ni    S";
"      2.20780762884063       1.0000000";
"Ni    S";
"      1.12749685157938       1.0000000";
"Ni    S";
"      0.575797063890464            1.0000000";
"Ni    S";
"      0.294051604951678            1.0000000";
"Ni    S";
"      0.150168091845475            1.0000000";
"Ni    S";
"      7.668876968794858E-002            1.0000000";
"Ni    S";
"      3.916389509898707E-002            1.0000000";
"Ni    P";
"  52680.4659115021           1.0000000";
"Ni    P";
"  26903.1860742975           1.0000000";
"Ni    P";
"  13739.0854166734           1.0000000";
"Ni    P";
"   7016.36109438299          1.0000000";
"Ni    P";
"   3583.15866840945          1.0000000";
"Ni    P";
"   1829.86962476550          1.0000000";
"Ni    P";
"    934.489134729210         1.0000000";
"Ni    P";
"    477.230689612032         1.0000000";
"Ni    P";
"    243.715119463182         1.0000000";
"Ni    P";
"    124.461944187287         1.0000000";
"Ni    P";
"     63.5609952513411        1.0000000";
"Ni    P";
"     32.4597220758638        1.0000000";
"Ni    P";
"     16.5767315800501        1.0000000";
"Ni    P";
"      8.46550778330153       1.0000000";
"Ni    P";
"      4.32321786011102       1.0000000";
"Ni    P";
"      2.20780762884063       1.0000000";
"Ni    P";
"      1.12749685157938       1.0000000";
"Ni    P";
"      0.575797063890464            1.0000000";
"Ni    P";
"      0.294051604951678            1.0000000";
"Ni    P";
"      0.150168091845475            1.0000000";
"Ni    D";
"    934.489134729211         1.0000000";
"Ni    D";
"    477.230689612032         1.0000000";
"Ni    D";
"    243.715119463182         1.0000000";
"Ni    D";
"    124.461944187287         1.0000000";
"Ni    D";
"     63.5609952513412        1.0000000";
"Ni    D";
"     32.4597220758638        1.0000000";
"Ni    D";
"     16.5767315800501        1.0000000";
"Ni    D";
"      8.46550778330153       1.0000000";
"Ni    D";
"      4.32321786011102       1.0000000";
"Ni    D";
"      2.20780762884063       1.0000000";
"Ni    D";
"      1.12749685157938       1.0000000";
"Ni    D";
"      0.575797063890465            1.0000000";
"Ni    D";
"      0.294051604951678            1.0000000";
"Ni    D";
"      0.150168091845475            1.0000000";
"Ni    D";
"      7.668876968794860E-002            1.0000000"].

(** bfit/data/ygbs:2639-2769 *)
Definition ugbs_cu : list string := [
"#BASIS SET: (30s,20p,15d)";
"Cu    S";
" 11387194.5850786            1.0000000";
"Cu    S";
" 5815282.94190191            1.0000000";
"Cu    S";
" 2969784.65079438            1.0000000";
"Cu    S";
" 1516627.98873367            1.0000000";
"Cu    S";
" 774520.959152738            1.0000000";
"Cu    S";
" 395537.152566831            1.0000000";
"Cu    S";
" 201995.358823884            1.0000000";
"Cu    S";
" 103156.238855453            1.0000000";
"Cu    S";
"  52680.4659115021           1.0000000";
"Cu    S";
"  26903.1860742976           1.0000000";
"Cu    S";
"  13739.0854166734           1.0000000";
"Cu    S";
"   7016.36109438299          1.0000000";
"Cu    S";
"   3583.15866840946          1.0000000";
"Cu    S";
"   1829.86962476550          1.0000000";
"Cu    S";
"    934.489134729210         1.0000000";
"Cu    S";
"    477.230689612032         1.0000000";
"Cu    S";
"    243.715119463182         1.0000000";
"Cu    S";
"    124.461944187287         1.0000000";
"Cu    S";
"     63.5609952513411        1.0000000";
"Cu    S";
"     32.4597220758638        1.0000000";
"Cu    S";
"     16.5767315800501        1.0000000";
"Cu    S";
"      8.46550778330153       1.0000000";
"Cu    S";
"      4.32321786011102       1.0000000";
"Cu    S";
"      2.20780762884063       1.0000000";
"Cu    S";
"      1.12749685157938       1.0000000";
"Cu    S";
"      0.575797063890464            1.0000000";
"Cu    S";
"      0.294051604951678            1.0000000";
"Cu    S";
"      0.150168091845475            1.0000000";
"Cu    S";
"      7.668876968794858E-002            1.0000000";
"Cu    S";
"      3.916389509898707E-002            1.0000000";
"Cu    P";
"  52680.4659115021           1.0000000";
"Cu    P";
"  26903.1860742975           1.0000000";
"Cu    P";
"  13739.0854166734           1.0000000";
"Cu    P";
"   7016.36109438299          1.0000000";
"Cu    P";
"   3583.15866840945          1.0000000";
"Cu    P";
"   1829.86962476550          1.0000000";
"Cu    P";
"    934.489134729210         1.0000000";
"Cu    P";
"    477.230689612032         1.0000000";
"Cu    P";
"    243.715119463182         1.0000000";
"Cu    P";
"    124.461944187287         1.0000000";
"Cu    P";
"     63.5609952513411        1.0000000";
"Cu    P";
"     32.4597220758638        1.0000000";
"Cu    P";
"     16.5767315800501        1.0000000";
"Cu    P";
"      8.46550778330153       1.0000000";
"Cu    P";
"      4.32321786011102       1.0000000";
"Cu    P";
"      2.20780762884063       1.0000000";
"Cu    P";
"      1.12749685157938       1.0000000";
"Cu    P";
"      0.575797063890464            1.0000000";
"Cu    P";
"      0.294051604951678            1.0000000";
"Cu    P";
"      0.150168091845475            1.0000000";
"Cu    D";
"    934.489134729211         1.0000000";
"Cu    D";
"    477.230689612032         1.0000000";
"Cu    D";
"    243.715119463182         1.0000000";
"Cu    D";
"    124.461944187287         1.0000000";
"Cu    D";
"     63.5609952513412        1.0000000";
"Cu    D";
"     32.4597220758638        1.0000000";
"Cu    D";
"     16.5767315800501        1.0000000";
"Cu    D";
"      8.46550778330153       1.0000000";
"Cu    D";
"      4.32321786011102       1.0000000";
"Cu    D";
"      2.20780762884063       1.0000000";
"Cu    D";
"      1.12749685157938       1.0000000";
"Cu    D";
"      0.575797063890465            1.0000000";
"Cu    D";
"      0.294051604951678            1.0000000";
"Cu    D";
"      0.150168091845475            1.0000000";
"Cu    D";
"      7.668876968794860E-002            1.0000000"].

(** bfit/data/ygbs:2770-2902 *)
Definition ugbs_zn : list string := [
"#BASIS SET: (30s,21p,15d)";
"Zn    S";
" 11387194.5850786            1.0000000";
"Zn    S";
" 5815282.94190191            1.0000000";
"Zn    S";
" 2969784.65079438            1.0000000";
"Zn    S";
" 1516627.98873367            1.0000000";
"Zn    S";
" 774520.959152738            1.0000000";
"Zn    S";
" 395537.152566831            1.0000000";
"Zn    S";
" 201995.358823884            1.0000000";
"Zn    S";
" 103156.238855453            1.0000000";
"Zn    S";
"  52680.4659115021           1.0000000";
"Zn    S";
"  26903.1860742976           1.0000000";
"Zn    S";
"  13739.0854166734           1.0000000";
"Zn    S";
"   7016.36109438299          1.0000000";
"Zn    S";
"   3583.15866840946          1.0000000";
"Zn    S";
"   1829.86962476550          1.0000000";
"Zn    S";
"    934.489134729210         1.0000000";
"Zn    S";
"    477.230689612032         1.0000000";
"Zn    S";
"    243.715119463182         1.0000000";
"Zn    S";
"    124.461944187287         1.0000000";
"Zn    S";
"     63.5609952513411        1.0000000";
"Zn    S";
"     32.4597220758638        1.0000000";
"Zn    S";
"     16.5767315800501        1.0000000";
"Zn    S";
"      8.46550778330153       1.0000000";
"Zn    S";
"      4.32321786011102       1.0000000";
"Zn    S";
"      2.20780762884063       1.0000000";
"Zn    S";
"      1.12749685157938       1.0000000";
"Zn    S";
"      0.575797063890464            1.0000000";
"Zn    S";
"      0.294051604951678            1.0000000";
"Zn    S";
"      0.150168091845475            1.0000000";
"Zn    S";
"      7.668876968794858E-002            1.0000000";
"Zn    S";
"      3.916389509898707E-002            1.0000000";
"Zn    P";
" 103156.238855453            1.0000000";
"Zn    P";
"  52680.4659115021           1.0000000";
"Zn    P";
"  26903.1860742975           1.0000000";
"Zn    P";
"  13739.0854166734           1.0000000";
"Zn    P";
"   7016.36109438299          1.0000000";
"Zn    P";
"   3583.15866840945          1.0000000";
"Zn    P";
"   1829.86962476550          1.0000000";
"Zn    P";
"    934.489134729210         1.0000000";
"Zn    P";
"    477.230689612032         1.0000000";
"Zn    P";
"    243.715119463182         1.0000000";
"Zn    P";
"    124.461944187287         1.0000000";
"Zn    P";
"     63.5609952513411        1.0000000";
"Zn    P";
"     32.4597220758638        1.0000000";
"Zn    P";
"     16.5767315800501        1.0000000";
"Zn    P";
"      8.46550778330153       1.0000000";
"Zn    P";
"      4.32321786011102       1.0000000";
"Zn    P";
"      2.20780762884063       1.0000000";
"Zn    P";
"      1.12749685157938       1.0000000";
"Zn    P";
"      0.575797063890464            1.0000000";
"Zn    P";
"      0.294051604951678            1.0000000";
"Zn    P";
"      0.150168091845475            1.0000000";
"Zn    D";
"   1829.86962476550          1.0000000";
"Zn    D";
"    934.489134729210         1.0000000";
"Zn    D";
"    477.230689612032         1.0000000";
"Zn    D";
"    243.715119463182         1.0000000";
"Zn    D";
"    124.461944187287         1.0000000";
"Zn    D";
"     63.5609952513411        1.0000000";
"Zn    D";
"     32.4597220758638        1.0000000";
"Zn    D";
"     16.5767315800501        1.0000000";
"Zn    D";
"      8.46550778330153       1.0000000";
"Zn    D";
"      4.32321786011102       1.0000000";
"Zn    D";
"      2.20780762884063       1.0000000";
"Zn    D";
"      1.12749685157938       1.0000000";
"Zn    D";
"      0.575797063890464            1.0000000";
"Zn    D";
"      0.294051604951678            1.0000000";
"Zn    D";
"      0.150168091845475            1.0000000"].

(** bfit/data/ygbs:2903-3035 *)
Definition ugbs_ga : list string := [
"#BASIS SET: (30s,22p,14d)";
"Ga    S";
" 11387194.5850786            1.0000000";
"Ga    S";
" 5815282.94190191            1.0000000";
"Ga    S";
" 2969784.65079438            1.0000000";
"Ga    S";
" 1516627.98873367            1.0000000";
"Ga    S";
" 774520.959152738            1.0000000";
"Ga    S";
" 395537.152566831            1.0000000";
"Ga    S";
" 201995.358823884            1.0000000";
"Ga    S";
" 103156.238855453            1.0000000";
"Ga    S";
"  52680.4659115021           1.0000000";
"Ga    S";
"  26903.1860742976           1.0000000";
"Ga    S";
"  13739.0854166734           1.0000000";
"Ga    S";
"   7016.36109438299          1.0000000";
"Ga    S";
"   3583.15866840946          1.0000000";
"Ga    S";
"   1829.86962476550          1.0000000";
"Ga    S";
"    934.489134729210         1.0000000";
"Ga    S";
"    477.230689612032         1.0000000";
"Ga    S";
"    243.715119463182         1.0000000";
"Ga    S";
"    124.461944187287         1.0000000";
"Ga    S";
"     63.5609952513411        1.0000000";
"Ga    S";
"     32.4597220758638        1.0000000";
"Ga    S";
"     16.5767315800501        1.0000000";
"Ga    S";
"      8.46550778330153       1.0000000";
"Ga    S";
"      4.32321786011102       1.0000000";
"Ga    S";
"      2.20780762884063       1.0000000";
"Ga    S";
"      1.12749685157938       1.0000000";
"Ga    S";
"      0.575797063890464            1.0000000";
"Ga    S";
"      0.294051604951678            1.0000000";
"Ga    S";
"      0.150168091845475            1.0000000";
"Ga    S";
"      7.668876968794858E-002            1.0000000";
"Ga    S";
"      3.916389509898707E-002            1.0000000";
"Ga    P";
"  52680.4659115021           1.0000000";
"Ga    P";
"  26903.1860742976           1.0000000";
"Ga    P";
"  13739.0854166734           1.0000000";
"Ga    P";
"   7016.36109438299          1.0000000";
"Ga    P";
"   3583.15866840946          1.0000000";
"Ga    P";
"   1829.86962476550          1.0000000";
"Ga    P";
"    934.489134729210         1.0000000";
"Ga    P";
"    477.230689612032         1.0000000";
"Ga    P";
"    243.715119463182         1.0000000";
"Ga    P";
"    124.461944187287         1.0000000";
"Ga    P";
"     63.5609952513411        1.0000000";
"Ga    P";
"     32.4597220758638        1.0000000";
"Ga    P";
"     16.5767315800501        1.0000000";
"Ga    P";
"      8.46550778330153       1.0000000";
"Ga    P";
"      4.32321786011102       1.0000000";
"Ga    P";
"      2.20780762884063       1.0000000";
"Ga    P";
"      1.12749685157938       1.0000000";
"Ga    P";
"      0.575797063890464            1.0000000";
"Ga    P";
"      0.294051604951678            1.0000000";
"Ga    P";
"      0.150168091845475            1.0000000";
"Ga    P";
"      7.668876968794858E-002            1.0000000";
"Ga    P";
"      3.916389509898707E-002            1.0000000";
"Ga    D";
"    934.489134729210         1.0000000";
"Ga    D";
"    477.230689612032         1.0000000";
"Ga    D";
"    243.715119463182         1.0000000";
"Ga    D";
"    124.461944187287         1.0000000";
"Ga    D";
"     63.5609952513411        1.0000000";
"Ga    D";
"     32.4597220758638        1.0000000";
"Ga    D";
"     16.5767315800501        1.0000000";
"Ga    D";
"      8.46550778330153       1.0000000";
"Ga    D";
"      4.32321786011102       1.0000000";
"Ga    D";
"      2.20780762884063       1.0000000";
"Ga    D";
"      1.12749685157938       1.0000000";
"Ga    D";
"      0.575797063890464            1.0000000";
"Ga    D";
"      0.294051604951678            1.0000000";
"Ga    D";
"      0.150168091845475            1.0000000"].

(** bfit/data/ygbs:3036-3168 *)
Definition ugbs_ge : list string := [
"#BASIS SET: (30s,22p,14d)";
"Ge    S";
" 11387194.5850786            1.0000000";
"Ge    S";
" 5815282.94190191            1.0000000";
"Ge    S";
" 2969784.65079438            1.0000000";
"Ge    S";
" 1516627.98873367            1.0000000";
"Ge    S";
" 774520.959152738            1.0000000";
"Ge    S";
" 395537.152566831            1.0000000";
"Ge    S";
" 201995.358823884            1.0000000";
"Ge    S";
" 103156.238855453            1.0000000";
"Ge    S";
"  52680.4659115021           1.0000000";
"Ge    S";
"  26903.1860742976           1.0000000";
"Ge    S";
"  13739.0854166734           1.0000000";
"Ge    S";
"   7016.36109438299          1.0000000";
"Ge    S";
"   3583.15866840946          1.0000000";
"Ge    S";
"   1829.86962476550          1.0000000";
"Ge    S";
"    934.489134729210         1.0000000";
"Ge    S";
"    477.230689612032         1.0000000";
"Ge    S";
"    243.715119463182         1.0000000";
"Ge    S";
"    124.461944187287         1.0000000";
"Ge    S";
"     63.5609952513411        1.0000000";
"Ge    S";
"     32.4597220758638        1.0000000";
"Ge    S";
"     16.5767315800501        1.0000000";
"Ge    S";
"      8.46550778330153       1.0000000";
"Ge    S";
"      4.32321786011102       1.0000000";
"Ge    S";
"      2.20780762884063       1.0000000";
"Ge    S";
"      1.12749685157938       1.0000000";
"Ge    S";
"      0.575797063890464            1.0000000";
"Ge    S";
"      0.294051604951678            1.0000000";
"Ge    S";
"      0.150168091845475            1.0000000";
"Ge    S";
"      7.668876968794858E-002            1.0000000";
"Ge    S";
"      3.916389509898707E-002            1.0000000";
"Ge    P";
"  52680.4659115021           1.0000000";
"Ge    P";
"  26903.1860742976           1.0000000";
"Ge    P";
"  13739.0854166734           1.0000000";
"Ge    P";
"   7016.36109438299          1.0000000";
"Ge    P";
"   3583.15866840946          1.0000000";
"Ge    P";
"   1829.86962476550          1.0000000";
"Ge    P";
"    934.489134729210         1.0000000";
"Ge    P";
"    477.230689612032         1.0000000";
"Ge    P";
"    243.715119463182         1.0000000";
"Ge    P";
"    124.461944187287         1.0000000";
"Ge    P";
"     63.5609952513411        1.0000000";
"Ge    P";
"     32.4597220758638        1.0000000";
"Ge    P";
"     16.5767315800501        1.0000000";
"Ge    P";
"      8.46550778330153       1.0000000";
"Ge    P";
"      4.32321786011102       1.0000000";
"Ge    P";
"      2.20780762884063       1.0000000";
"Ge    P";
"      1.12749685157938       1.0000000";
"Ge    P";
"      0.575797063890464            1.0000000";
"Ge    P";
"      0.294051604951678            1.0000000";
"Ge    P";
"      0.150168091845475            1.0000000";
"Ge    P";
"      7.668876968794858E-002            1.0000000";
"Ge    P";
"      3.916389509898707E-002            1.0000000";
"Ge    D";
"    934.489134729210         1.0000000";
"Ge    D";
"    477.230689612032         1.0000000";
"Ge    D";
"    243.715119463182         1.0000000";
"Ge    D";
"    124.461944187287         1.0000000";
"Ge    D";
"     63.5609952513411        1.0000000";
"Ge    D";
"     32.4597220758638        1.0000000";
"Ge    D";
"     16.5767315800501        1.0000000";
"Ge    D";
"      8.46550778330153       1.0000000";
"Ge    D";
"      4.32321786011102       1.0000000";
"Ge    D";
"      2.20780762884063       1.0000000";
"Ge    D";
"      1.12749685157938       1.0000000";
"Ge    D";
"      0.575797063890464            1.0000000";
"Ge    D";
"      0.294051604951678            1.0000000";
"Ge    D";
"      0.150168091845475            1.0000000"].

(** bfit/data/ygbs:3169-3301 *)
Definition ugbs_as : list string := [
"#BASIS SET: (30s,22p,14d)";
"As    S";
" 22297831.7330223            1.0000000";
"As    S";
" 11387194.5850786            1.0000000";
"As    S";
" 5815282.94190191            1.0000000";
"As    S";
" 2969784.65079438            1.0000000";
"As    S";
" 1516627.98873367            1.0000000";
"As    S";
" 774520.959152738            1.0000000";
"As    S";
" 395537.152566831            1.0000000";
"As    S";
" 201995.358823884            1.0000000";
"As    S";
" 103156.238855453            1.0000000";
"As    S";
"  52680.4659115022           1.0000000";
"As    S";
"  26903.1860742976           1.0000000";
"As    S";
"  13739.0854166734           1.0000000";
"As    S";
"   7016.36109438300          1.0000000";
"As    S";
"   3583.15866840946          1.0000000";
"As    S";
"   1829.86962476550          1.0000000";
"As    S";
"    934.489134729211         1.0000000";
"As    S";
"    477.230689612032         1.0000000";
"As    S";
"    243.715119463182         1.0000000";
"As    S";
"    124.461944187287         1.0000000";
"As    S";
"     63.5609952513412        1.0000000";
"As    S";
"     32.4597220758638        1.0000000";
"As    S";
"     16.5767315800501        1.0000000";
"As    S";
"      8.46550778330153       1.0000000";
"As    S";
"      4.32321786011102       1.0000000";
"As    S";
"      2.20780762884063       1.0000000";
"As    S";
"      1.12749685157938       1.0000000";
"As    S";
"      0.575797063890465            1.0000000";
"As    S";
"      0.294051604951678            1.0000000";
"As    S";
"      0.150168091845475            1.0000000";
"As    S";
"      7.668876968794860E-002            1.0000000";
"As    P";
"  52680.4659115021           1.0000000";
"As    P";
"  26903.1860742976           1.0000000";
"As    P";
"  13739.0854166734           1.0000000";
"As    P";
"   7016.36109438299          1.0000000";
"As    P";
"   3583.15866840946          1.0000000";
"As    P";
"   1829.86962476550          1.0000000";
"As    P";
"    934.489134729210         1.0000000";
"As    P";
"    477.230689612032         1.0000000";
"As    P";
"    243.715119463182         1.0000000";
"As    P";
"    124.461944187287         1.0000000";
"As    P";
"     63.5609952513411        1.0000000";
"As    P";
"     32.4597220758638        1.0000000";
"As    P";
"     16.5767315800501        1.0000000";
"As    P";
"      8.46550778330153       1.0000000";
"As    P";
"      4.32321786011102       1.0000000";
"As    P";
"      2.20780762884063       1.0000000";
"As    P";
"      1.12749685157938       1.0000000";
"As    P";
"      0.575797063890464            1.0000000";
"As    P";
"      0.294051604951678            1.0000000";
"As    P";
"      0.150168091845475            1.0000000";
"As    P";
"      7.668876968794858E-002            1.0000000";
"As    P";
"      3.916389509898707E-002            1.0000000";
"As    D";
"   1829.86962476550          1.0000000";
"As    D";
"    934.489134729211         1.0000000";
"As    D";
"    477.230689612032         1.0000000";
"As    D";
"    243.715119463182         1.0000000";
"As    D";
"    124.461944187287         1.0000000";
"As    D";
"     63.5609952513411        1.0000000";
"As    D";
"     32.4597220758638        1.0000000";
"As    D";
"     16.5767315800501        1.0000000";
"As    D";
"      8.46550778330153       1.0000000";
"As    D";
"      4.32321786011102       1.0000000";
"As    D";
"      2.20780762884063       1.0000000";
"As    D";
"      1.12749685157938       1.0000000";
"As    D";
"      0.575797063890465            1.0000000";
"As    D";
"      0.294051604951678            1.0000000"].

(** bfit/data/ygbs:3302-3432 *)
Definition ugbs_se : list string := [
"#BASIS SET: (30s,21p,14d)";
"Se    S";
" 22297831.7330223            1.0000000";
"Se    S";
" 11387194.5850786            1.0000000";
"Se    S";
" 5815282.94190191            1.0000000";
"Se    S";
" 2969784.65079438            1.0000000";
"Se    S";
" 1516627.98873367            1.0000000";
"Se    S";
" 774520.959152738            1.0000000";
"Se    S";
" 395537.152566831            1.0000000";
"Se    S";
" 201995.358823884            1.0000000";
"Se    S";
" 103156.238855453            1.0000000";
"Se    S";
"  52680.4659115022           1.0000000";
"Se    S";
"  26903.1860742976           1.0000000";
"Se    S";
"  13739.0854166734           1.0000000";
"Se    S";
"   7016.36109438300          1.0000000";
"Se    S";
"   3583.15866840946          1.0000000";
"Se    S";
"   1829.86962476550          1.0000000";
"Se    S";
"    934.489134729211         1.0000000";
"Se    S";
"    477.230689612032         1.0000000";
"Se    S";
"    243.715119463182         1.0000000";
"Se    S";
"    124.461944187287         1.0000000";
"Se    S";
"     63.5609952513412        1.0000000";
"Se    S";
"     32.4597220758638        1.0000000";
"Se    S";
"     16.5767315800501        1.0000000";
"Se    S";
"      8.46550778330153       1.0000000";
"Se    S";
"      4.32321786011102       1.0000000";
"Se    S";
"      2.20780762884063       1.0000000";
"Se    S";
"      1.12749685157938       1.0000000";
"Se    S";
"      0.575797063890465            1.0000000";
"Se    S";
"      0.294051604951678            1.0000000";
"Se    S";
"      0.150168091845475            1.0000000";
"Se    S";
"      7.668876968794860E-002            1.0000000";
"Se    P";
"  26903.1860742976           1.0000000";
"Se    P";
"  13739.0854166734           1.0000000";
"Se    P";
"   7016.36109438299          1.0000000";
"Se    P";
"   3583.15866840946          1.0000000";
"Se    P";
"   1829.86962476550          1.0000000";
"Se    P";
"    934.489134729210         1.0000000";
"Se    P";
"    477.230689612032         1.0000000";
"Se    P";
"    243.715119463182         1.0000000";
"Se    P";
"    124.461944187287         1.0000000";
"Se    P";
"     63.5609952513411        1.0000000";
"Se    P";
"     32.4597220758638        1.0000000";
"Se    P";
"     16.5767315800501        1.0000000";
"Se    P";
"      8.46550778330153       1.0000000";
"Se    P";
"      4.32321786011102       1.0000000";
"Se    P";
"      2.20780762884063       1.0000000";
"Se    P";
"      1.12749685157938       1.0000000";
"Se    P";
"      0.575797063890464            1.0000000";
"Se    P";
"      0.294051604951678            1.0000000";
"Se    P";
"      0.150168091845475            1.0000000";
"Se    P";
"      7.668876968794858E-002            1.0000000";
"Se    P";
"      3.916389509898707E-002            1.0000000";
"Se    D";
"   1829.86962476550          1.0000000";
"Se    D";
"    934.489134729211         1.0000000";
"Se    D";
"    477.230689612032         1.0000000";
"Se    D";
"    243.715119463182         1.0000000";
"Se    D";
"    124.461944187287         1.0000000";
"Se    D";
"     63.5609952513411        1.0000000";
"Se    D";
"     32.4597220758638        1.0000000";
"Se    D";
"     16.5767315800501        1.0000000";
"Se    D";
"      8.46550778330153       1.0000000";
"Se    D";
"      4.32321786011102       1.0000000";
"Se    D";
"      2.20780762884063       1.0000000";
"Se    D";
"      1.12749685157938       1.0000000";
"Se    D";
"      0.575797063890465            1.0000000";
"Se    D";
"      0.294051604951678            1.0000000"].

(** bfit/data/ygbs:3433-3563 *)
Definition ugbs_br : list string := [
"#BASIS SET: (30s,21p,14d)";
"Br    S";
" 22297831.7330223            1.0000000";
"Br    S";
" 11387194.5850786            1.0000000";
"Br    S";
" 5815282.94190191            1.0000000";
"Br    S";
" 2969784.65079438            1.0000000";
"Br    S";
" 1516627.98873367            1.0000000";
"Br    S";
" 774520.959152738            1.0000000";
"Br    S";
" 395537.152566831            1.0000000";
"Br    S";
" 201995.358823884            1.0000000";
"Br    S";
" 103156.238855453            1.0000000";
"Br    S";
"  52680.4659115022           1.0000000";
"Br    S";
"  26903.1860742976           1.0000000";
"Br    S";
"  13739.0854166734           1.0000000";
"Br    S";
"   7016.36109438300          1.0000000";
"Br    S";
"   3583.15866840946          1.0000000";
"Br    S";
"   1829.86962476550          1.0000000";
"Br    S";
"    934.489134729211         1.0000000";
"Br    S";
"    477.230689612032         1.0000000";
"Br    S";
"    243.715119463182         1.0000000";
"Br    S";
"    124.461944187287         1.0000000";
"Br    S";
"     63.5609952513412        1.0000000";
"Br    S";
"     32.4597220758638        1.0000000";
"Br    S";
"     16.5767315800501        1.0000000";
"Br    S";
"      8.46550778330153       1.0000000";
"Br    S";
"      4.32321786011102       1.0000000";
"Br    S";
"      2.20780762884063       1.0000000";
"Br    S";
"      1.12749685157938       1.0000000";
"Br    S";
"      0.575797063890465            1.0000000";
"Br    S";
"      0.294051604951678            1.0000000";
"Br    S";
"      0.150168091845475            1.0000000";
"Br    S";
"      7.668876968794860E-002            1.0000000";
"Br    P";
"  52680.4659115022           1.0000000";
"Br    P";
"  26903.1860742976           1.0000000";
"Br    P";
"  13739.0854166734           1.0000000";
"Br    P";
"   7016.36109438300          1.0000000";
"Br    P";
"   3583.15866840946          1.0000000";
"Br    P";
"   1829.86962476550          1.0000000";
"Br    P";
"    934.489134729211         1.0000000";
"Br    P";
"    477.230689612032         1.0000000";
"Br    P";
"    243.715119463182         1.0000000";
"Br    P";
"    124.461944187287         1.0000000";
"Br    P";
"     63.5609952513412        1.0000000";
"Br    P";
"     32.4597220758638        1.0000000";
"Br    P";
"     16.5767315800501        1.0000000";
"Br    P";
"      8.46550778330153       1.0000000";
"Br    P";
"      4.32321786011102       1.0000000";
"Br    P";
"      2.20780762884063       1.0000000";
"Br    P";
"      1.12749685157938       1.0000000";
"Br    P";
"      0.575797063890465            1.0000000";
"Br    P";
"      0.294051604951678            1.0000000";
"Br    P";
"      0.150168091845475            1.0000000";
"Br    P";
"      7.668876968794860E-002            1.0000000";
"Br    D";
"   1829.86962476550          1.0000000";
"Br    D";
"    934.489134729211         1.0000000";
"Br    D";
"    477.230689612032         1.0000000";
"Br    D";
"    243.715119463182         1.0000000";
"Br    D";
"    124.461944187287         1.0000000";
"Br    D";
"     63.5609952513411        1.0000000";
"Br    D";
"     32.4597220758638        1.0000000";
"Br    D";
"     16.5767315800501        1.0000000";
"Br    D";
"      8.46550778330153       1.0000000";
"Br    D";
"      4.32321786011102       1.0000000";
"Br    D";
"      2.20780762884063       1.0000000";
"Br    D";
"      1.12749685157938       1.0000000";
"Br    D";
"      0.575797063890465            1.0000000";
"Br    D";
"      0.294051604951678            1.0000000"].

(** bfit/data/ygbs:3564-3692 *)
Definition ugbs_kr : list string := [
"#BASIS SET: (30s,20p,14d)";
"Kr    S";
" 22297831.7330223            1.0000000";
"Kr    S";
" 11387194.5850786            1.0000000";
"Kr    S";
" 5815282.94190191            1.0000000";
"Kr    S";
" 2969784.65079438            1.0000000";
"Kr    S";
" 1516627.98873367            1.0000000";
"Kr    S";
" 774520.959152738            1.0000000";
"Kr    S";
" 395537.152566831            1.0000000";
"Kr    S";
" 201995.358823884            1.0000000";
"Kr    S";
" 103156.238855453            1.0000000";
"Kr    S";
"  52680.4659115022           1.0000000";
"Kr    S";
"  26903.1860742976           1.0000000";
"Kr    S";
"  13739.0854166734           1.0000000";
"Kr    S";
"   7016.36109438300          1.0000000";
"Kr    S";
"   3583.15866840946          1.0000000";
"Kr    S";
"   1829.86962476550          1.0000000";
"Kr    S";
"    934.489134729211         1.0000000";
"Kr    S";
"    477.230689612032         1.0000000";
"Kr    S";
"    243.715119463182         1.0000000";
"Kr    S";
"    124.461944187287         1.0000000";
"Kr    S";
"     63.5609952513412        1.0000000";
"Kr    S";
"     32.4597220758638        1.0000000";
"Kr    S";
"     16.5767315800501        1.0000000";
"Kr    S";
"      8.46550778330153       1.0000000";
"Kr    S";
"      4.32321786011102       1.0000000";
"Kr    S";
"      2.20780762884063       1.0000000";
"Kr    S";
"      1.12749685157938       1.0000000";
"Kr    S";
"      0.575797063890465            1.0000000";
"Kr    S";
"      0.294051604951678            1.0000000";
"Kr    S";
"      0.150168091845475            1.0000000";
"Kr    S";
"      7.668876968794860E-002            1.0000000";
"Kr    P";
"  26903.1860742976           1.0000000";
"Kr    P";
"  13739.0854166734           1.0000000";
"Kr    P";
"   7016.36109438300          1.0000000";
"Kr    P";
"   3583.15866840946          1.0000000";
"Kr    P";
"   1829.86962476550          1.0000000";
"Kr    P";
"    934.489134729211         1.0000000";
"Kr    P";
"    477.230689612032         1.0000000";
"Kr    P";
"    243.715119463182         1.0000000";
"Kr    P";
"    124.461944187287         1.0000000";
"Kr    P";
"     63.5609952513412        1.0000000";
"Kr    P";
"     32.4597220758638        1.0000000";
"Kr    P";
"     16.5767315800501        1.0000000";
"Kr    P";
"      8.46550778330153       1.0000000";
"Kr    P";
"      4.32321786011102       1.0000000";
"Kr    P";
"      2.20780762884063       1.0000000";
"Kr    P";
"      1.12749685157938       1.0000000";
"Kr    P";
"      0.575797063890465            1.0000000";
"Kr    P";
"      0.294051604951678            1.0000000";
"Kr    P";
"      0.150168091845475            1.0000000";
"Kr    P";
"      7.668876968794860E-002            1.0000000";
"Kr    D";
"   1829.86962476550          1.0000000";
"Kr    D";
"    934.489134729211         1.0000000";
"Kr    D";
"    477.230689612032         1.0000000";
"Kr    D";
"    243.715119463182         1.0000000";
"Kr    D";
"    124.461944187287         1.0000000";
"Kr    D";
"     63.5609952513411        1.0000000";
"Kr    D";
"     32.4597220758638        1.0000000";
"Kr    D";
"     16.5767315800501        1.0000000";
"Kr    D";
"      8.46550778330153       1.0000000";
"Kr    D";
"      4.32321786011102       1.0000000";
"Kr    D";
"      2.20780762884063       1.0000000";
"Kr    D";
"      1.12749685157938       1.0000000";
"Kr    D";
"      0.575797063890465            1.0000000";
"Kr    D";
"      0.294051604951678            1.0000000"].

(** bfit/data/ygbs:3693-3821 *)
Definition ugbs_rb : list string := [
"#BASIS SET: (30s,20p,14d)";
"Rb    S";
" 5815282.94190191            1.0000000";
"Rb    S";
" 2969784.65079438            1.0000000";
"Rb    S";
" 1516627.98873367            1.0000000";
"Rb    S";
" 774520.959152735            1.0000000";
"Rb    S";
" 395537.152566831            1.0000000";
"Rb    S";
" 201995.358823884            1.0000000";
"Rb    S";
" 103156.238855453            1.0000000";
"Rb    S";
"  52680.4659115021           1.0000000";
"Rb    S";
"  26903.1860742975           1.0000000";
"Rb    S";
"  13739.0854166734           1.0000000";
"Rb    S";
"   7016.36109438299          1.0000000";
"Rb    S";
"   3583.15866840945          1.0000000";
"Rb    S";
"   1829.86962476550          1.0000000";
"Rb    S";
"    934.489134729211         1.0000000";
"Rb    S";
"    477.230689612032         1.0000000";
"Rb    S";
"    243.715119463182         1.0000000";
"Rb    S";
"    124.461944187287         1.0000000";
"Rb    S";
"     63.5609952513411        1.0000000";
"Rb    S";
"     32.4597220758638        1.0000000";
"Rb    S";
"     16.5767315800501        1.0000000";
"Rb    S";
"      8.46550778330153       1.0000000";
"Rb    S";
"      4.32321786011102       1.0000000";
"Rb    S";
"      2.20780762884063       1.0000000";
"Rb    S";
"      1.12749685157938       1.0000000";
"Rb    S";
"      0.575797063890465            1.0000000";
"Rb    S";
"      0.294051604951678            1.0000000";
"Rb    S";
"      0.150168091845475            1.0000000";
"Rb    S";
"      7.668876968794858E-002            1.0000000";
"Rb    S";
"      3.916389509898707E-002            1.0000000";
"Rb    S";
"      2.000046011385546E-002            1.0000000";
"Rb    P";
"  26903.1860742976           1.0000000";
"Rb    P";
"  13739.0854166734           1.0000000";
"Rb    P";
"   7016.36109438300          1.0000000";
"Rb    P";
"   3583.15866840946          1.0000000";
"Rb    P";
"   1829.86962476550          1.0000000";
"Rb    P";
"    934.489134729211         1.0000000";
"Rb    P";
"    477.230689612032         1.0000000";
"Rb    P";
"    243.715119463182         1.0000000";
"Rb    P";
"    124.461944187287         1.0000000";
"Rb    P";
"     63.5609952513412        1.0000000";
"Rb    P";
"     32.4597220758638        1.0000000";
"Rb    P";
"     16.5767315800501        1.0000000";
"Rb    P";
"      8.46550778330153       1.0000000";
"Rb    P";
"      4.32321786011102       1.0000000";
"Rb    P";
"      2.20780762884063       1.0000000";
"Rb    P";
"      1.12749685157938       1.0000000";
"Rb    P";
"      0.575797063890465            1.0000000";
"Rb    P";
"      0.294051604951678            1.0000000";
"Rb    P";
"      0.150168091845475            1.0000000";
"Rb    P";
"      7.668876968794860E-002            1.0000000";
"Rb    D";
"   1829.86962476550          1.0000000";
"Rb    D";
"    934.489134729211         1.0000000";
"Rb    D";
"    477.230689612032         1.0000000";
"Rb    D";
"    243.715119463182         1.0000000";
"Rb    D";
"    124.461944187287         1.0000000";
"Rb    D";
"     63.5609952513411        1.0000000";
"Rb    D";
"     32.4597220758638        1.0000000";
"Rb    D";
"     16.5767315800501        1.0000000";
"Rb    D";
"      8.46550778330153       1.0000000";
"Rb    D";
"      4.32321786011102       1.0000000";
"Rb    D";
"      2.20780762884063       1.0000000";
"Rb    D";
"      1.12749685157938       1.0000000";
"Rb    D";
"      0.575797063890465            1.0000000";
"Rb    D";
"      0.294051604951678            1.0000000"].

(** bfit/data/ygbs:3822-3952 *)
Definition ugbs_sr : list string := [
"#BASIS SET: (30s,21p,14d)";
"Sr    S";
" 5815282.94190191            1.0000000";
"Sr    S";
" 2969784.65079438            1.0000000";
"Sr    S";
" 1516627.98873367            1.0000000";
"Sr    S";
" 774520.959152735            1.0000000";
"Sr    S";
" 395537.152566831            1.0000000";
"Sr    S";
" 201995.358823884            1.0000000";
"Sr    S";
" 103156.238855453            1.0000000";
"Sr    S";
"  52680.4659115021           1.0000000";
"Sr    S";
"  26903.1860742975           1.0000000";
"Sr    S";
"  13739.0854166734           1.0000000";
"Sr    S";
"   7016.36109438299          1.0000000";
"Sr    S";
"   3583.15866840945          1.0000000";
"Sr    S";
"   1829.86962476550          1.0000000";
"Sr    S";
"    934.489134729211         1.0000000";
"Sr    S";
"    477.230689612032         1.0000000";
"Sr    S";
"    243.715119463182         1.0000000";
"Sr    S";
"    124.461944187287         1.0000000";
"Sr    S";
"     63.5609952513411        1.0000000";
"Sr    S";
"     32.4597220758638        1.0000000";
"Sr    S";
"     16.5767315800501        1.0000000";
"Sr    S";
"      8.46550778330153       1.0000000";
"Sr    S";
"      4.32321786011102       1.0000000";
"Sr    S";
"      2.20780762884063       1.0000000";
"Sr    S";
"      1.12749685157938       1.0000000";
"Sr    S";
"      0.575797063890465            1.0000000";
"Sr    S";
"      0.294051604951678            1.0000000";
"Sr    S";
"      0.150168091845475            1.0000000";
"Sr    S";
"      7.668876968794858E-002            1.0000000";
"Sr    S";
"      3.916389509898707E-002            1.0000000";
"Sr    S";
"      2.000046011385546E-002            1.0000000";
"Sr    P";
"  52680.4659115022           1.0000000";
"Sr    P";
"  26903.1860742976           1.0000000";
"Sr    P";
"  13739.0854166734           1.0000000";
"Sr    P";
"   7016.36109438300          1.0000000";
"Sr    P";
"   3583.15866840946          1.0000000";
"Sr    P";
"   1829.86962476550          1.0000000";
"Sr    P";
"    934.489134729211         1.0000000";
"Sr    P";
"    477.230689612032         1.0000000";
"Sr    P";
"    243.715119463182         1.0000000";
"Sr    P";
"    124.461944187287         1.0000000";
"Sr    P";
"     63.5609952513412        1.0000000";
"Sr    P";
"     32.4597220758638        1.0000000";
"Sr    P";
"     16.5767315800501        1.0000000";
"Sr    P";
"      8.46550778330153       1.0000000";
"Sr    P";
"      4.32321786011102       1.0000000";
"Sr    P";
"      2.20780762884063       1.0000000";
"Sr    P";
"      1.12749685157938       1.0000000";
"Sr    P";
"      0.575797063890465            1.0000000";
"Sr    P";
"      0.294051604951678            1.0000000";
"Sr    P";
"      0.150168091845475            1.0000000";
"Sr    P";
"      7.668876968794860E-002            1.0000000";
"Sr    D";
"   1829.86962476550          1.0000000";
"Sr    D";
"    934.489134729211         1.0000000";
"Sr    D";
"    477.230689612032         1.0000000";
"Sr    D";
"    243.715119463182         1.0000000";
"Sr    D";
"    124.461944187287         1.0000000";
"Sr    D";
"     63.5609952513411        1.0000000";
"Sr    D";
"     32.4597220758638        1.0000000";
"Sr    D";
"     16.5767315800501        1.0000000";
"Sr    D";
"      8.46550778330153       1.0000000";
"Sr    D";
"      4.32321786011102       1.0000000";
"Sr    D";
"      2.20780762884063       1.0000000";
"Sr    D";
"      1.12749685157938       1.0000000";
"Sr    D";
"      0.575797063890465            1.0000000";
"Sr    D";
"      0.294051604951678            1.0000000"].

(** bfit/data/ygbs:3953-4093 *)
Definition ugbs_y : list string := [
"#BASIS SET: (30s,22p,18d)";
"Y    S";
" 5815282.94190191            1.0000000";
"Y    S";
" 2969784.65079438            1.0000000";
"Y    S";
" 1516627.98873367            1.0000000";
"Y    S";
" 774520.959152735            1.0000000";
"Y    S";
" 395537.152566831            1.0000000";
"Y    S";
" 201995.358823884            1.0000000";
"Y    S";
" 103156.238855453            1.0000000";
"Y    S";
"  52680.4659115021           1.0000000";
"Y    S";
"  26903.1860742975           1.0000000";
"Y    S";
"  13739.0854166734           1.0000000";
"Y    S";
"   7016.36109438299          1.0000000";
"Y    S";
"   3583.15866840945          1.0000000";
"Y    S";
"   1829.86962476550          1.0000000";
"Y    S";
"    934.489134729211         1.0000000";
"Y    S";
"    477.230689612032         1.0000000";
"Y    S";
"    243.715119463182         1.0000000";
"Y    S";
"    124.461944187287         1.0000000";
"Y    S";
"     63.5609952513411        1.0000000";
"Y    S";
"     32.4597220758638        1.0000000";
"Y    S";
"     16.5767315800501        1.0000000";
"Y    S";
"      8.46550778330153       1.0000000";
"Y    S";
"      4.32321786011102       1.0000000";
"Y    S";
"      2.20780762884063       1.0000000";
"Y    S";
"      1.12749685157938       1.0000000";
"Y    S";
"      0.575797063890465            1.0000000";
"Y    S";
"      0.294051604951678            1.0000000";
"Y    S";
"      0.150168091845475            1.0000000";
"Y    S";
"      7.668876968794858E-002            1.0000000";
"Y    S";
"      3.916389509898707E-002            1.0000000";
"Y    S";
"      2.000046011385546E-002            1.0000000";
"Y    P";
" 103156.238855453            1.0000000";
"Y    P";
"  52680.4659115022           1.0000000";
"Y    P";
"  26903.1860742976           1.0000000";
"Y    P";
"  13739.0854166734           1.0000000";
"Y    P";
"   7016.36109438300          1.0000000";
"Y    P";
"   3583.15866840946          1.0000000";
"Y    P";
"   1829.86962476550          1.0000000";
"Y    P";
"    934.489134729211         1.0000000";
"Y    P";
"    477.230689612032         1.0000000";
"Y    P";
"    243.715119463182         1.0000000";
"Y    P";
"    124.461944187287         1.0000000";
"Y    P";
"     63.5609952513412        1.0000000";
"Y    P";
"     32.4597220758638        1.0000000";
"Y    P";
"     16.5767315800501        1.0000000";
"Y    P";
"      8.46550778330153       1.0000000";
"Y    P";
"      4.32321786011102       1.0000000";
"Y    P";
"      2.20780762884063       1.0000000";
"Y    P";
"      1.12749685157938       1.0000000";
"Y    P";
"      0.575797063890465            1.0000000";
"Y    P";
"      0.294051604951678            1.0000000";
"Y    P";
"      0.150168091845475            1.0000000";
"Y    P";
"      7.668876968794860E-002            1.0000000";
"Y    D";
"   3583.15866840946          1.0000000";
"Y    D";
"   1829.86962476550          1.0000000";
"Y    D";
"    934.489134729210         1.0000000";
"Y    D";
"    477.230689612032         1.0000000";
"Y    D";
"    243.715119463182         1.0000000";
"Y    D";
"    124.461944187287         1.0000000";
"Y    D";
"     63.5609952513411        1.0000000";
"Y    D";
"     32.4597220758638        1.0000000";
"Y    D";
"     16.5767315800501        1.0000000";
"Y    D";
"      8.46550778330153       1.0000000";
"Y    D";
"      4.32321786011102       1.0000000";
"Y    D";
"      2.20780762884063       1.0000000";
"Y    D";
"      1.12749685157938       1.0000000";
"Y    D";
"      0.575797063890464            1.0000000";
"Y    D";
"      0.294051604951678            1.0000000";
"Y    D";
"      0.150168091845475            1.0000000";
"Y    D";
"      7.668876968794858E-002            1.0000000";
"Y    D";
"      3.916389509898707E-002            1.0000000"].

(** bfit/data/ygbs:4094-4234 *)
Definition ugbs_zr : list string := [
"#BASIS SET: (30s,22p,18d)";
"Zr    S";
" 5815282.94190191            1.0000000";
"Zr    S";
" 2969784.65079438            1.0000000";
"Zr    S";
" 1516627.98873367            1.0000000";
"Zr    S";
" 774520.959152735            1.0000000";
"Zr    S";
" 395537.152566831            1.0000000";
"Zr    S";
" 201995.358823884            1.0000000";
"Zr    S";
" 103156.238855453            1.0000000";
"Zr    S";
"  52680.4659115021           1.0000000";
"Zr    S";
"  26903.1860742975           1.0000000";
"Zr    S";
"  13739.0854166734           1.0000000";
"Zr    S";
"   7016.36109438299          1.0000000";
"Zr    S";
"   3583.15866840945          1.0000000";
"Zr    S";
"   1829.86962476550          1.0000000";
"Zr    S";
"    934.489134729211         1.0000000";
"Zr    S";
"    477.230689612032         1.0000000";
"Zr    S";
"    243.715119463182         1.0000000";
"Zr    S";
"    124.461944187287         1.0000000";
"Zr    S";
"     63.5609952513411        1.0000000";
"Zr    S";
"     32.4597220758638        1.0000000";
"Zr    S";
"     16.5767315800501        1.0000000";
"Zr    S";
"      8.46550778330153       1.0000000";
"Zr    S";
"      4.32321786011102       1.0000000";
"Zr    S";
"      2.20780762884063       1.0000000";
"Zr    S";
"      1.12749685157938       1.0000000";
"Zr    S";
"      0.575797063890465            1.0000000";
"Zr    S";
"      0.294051604951678            1.0000000";
"Zr    S";
"      0.150168091845475            1.0000000";
"Zr    S";
"      7.668876968794858E-002            1.0000000";
"Zr    S";
"      3.916389509898707E-002            1.0000000";
"Zr    S";
"      2.000046011385546E-002            1.0000000";
"Zr    P";
" 103156.238855453            1.0000000";
"Zr    P";
"  52680.4659115022           1.0000000";
"Zr    P";
"  26903.1860742976           1.0000000";
"Zr    P";
"  13739.0854166734           1.0000000";
"Zr    P";
"   7016.36109438300          1.0000000";
"Zr    P";
"   3583.15866840946          1.0000000";
"Zr    P";
"   1829.86962476550          1.0000000";
"Zr    P";
"    934.489134729211         1.0000000";
"Zr    P";
"    477.230689612032         1.0000000";
"Zr    P";
"    243.715119463182         1.0000000";
"Zr    P";
"    124.461944187287         1.0000000";
"Zr    P";
"     63.5609952513412        1.0000000";
"Zr    P";
"     32.4597220758638        1.0000000";
"Zr    P";
"     16.5767315800501        1.0000000";
"Zr    P";
"      8.46550778330153       1.0000000";
"Zr    P";
"      4.32321786011102       1.0000000";
"Zr    P";
"      2.20780762884063       1.0000000";
"Zr    P";
"      1.12749685157938       1.0000000";
"Zr    P";
"      0.575797063890465            1.0000000";
"Zr    P";
"      0.294051604951678            1.0000000";
"Zr    P";
"      0.150168091845475            1.0000000";
"Zr    P";
"      7.668876968794860E-002            1.0000000";
"Zr    D";
"   3583.15866840946          1.0000000";
"Zr    D";
"   1829.86962476550          1.0000000";
"Zr    D";
"    934.489134729210         1.0000000";
"Zr    D";
"    477.230689612032         1.0000000";
"Zr    D";
"    243.715119463182         1.0000000";
"Zr    D";
"    124.461944187287         1.0000000";
"Zr    D";
"     63.5609952513411        1.0000000";
"Zr    D";
"     32.4597220758638        1.0000000";
"Zr    D";
"     16.5767315800501        1.0000000";
"Zr    D";
"      8.46550778330153       1.0000000";
"Zr    D";
"      4.32321786011102       1.0000000";
"Zr    D";
"      2.20780762884063       1.0000000";
"Zr    D";
"      1.12749685157938       1.0000000";
"Zr    D";
"      0.575797063890464            1.0000000";
"Zr    D";
"      0.294051604951678            1.0000000";
"Zr    D";
"      0.150168091845475            1.0000000";
"Zr    D";
"      7.668876968794858E-002            1.0000000";
"Zr    D";
"      3.916389509898707E-002            1.0000000"].

(** bfit/data/ygbs:4235-4379 *)
Definition ugbs_nb : list string := [
"#BASIS SET: (31s,23p,18d)";
"Nb    S";
" 11387194.5850786            1.0000000";
"Nb    S";
" 5815282.94190191            1.0000000";
"Nb    S";
" 2969784.65079438            1.0000000";
"Nb    S";
" 1516627.98873367            1.0000000";
"Nb    S";
" 774520.959152735            1.0000000";
"Nb    S";
" 395537.152566831            1.0000000";
"Nb    S";
" 201995.358823884            1.0000000";
"Nb    S";
" 103156.238855453            1.0000000";
"Nb    S";
"  52680.4659115021           1.0000000";
"Nb    S";
"  26903.1860742975           1.0000000";
"Nb    S";
"  13739.0854166734           1.0000000";
"Nb    S";
"   7016.36109438299          1.0000000";
"Nb    S";
"   3583.15866840945          1.0000000";
"Nb    S";
"   1829.86962476550          1.0000000";
"Nb    S";
"    934.489134729211         1.0000000";
"Nb    S";
"    477.230689612032         1.0000000";
"Nb    S";
"    243.715119463182         1.0000000";
"Nb    S";
"    124.461944187287         1.0000000";
"Nb    S";
"     63.5609952513411        1.0000000";
"Nb    S";
"     32.4597220758638        1.0000000";
"Nb    S";
"     16.5767315800501        1.0000000";
"Nb    S";
"      8.46550778330153       1.0000000";
"Nb    S";
"      4.32321786011102       1.0000000";
"Nb    S";
"      2.20780762884063       1.0000000";
"Nb    S";
"      1.12749685157938       1.0000000";
"Nb    S";
"      0.575797063890465            1.0000000";
"Nb    S";
"      0.294051604951678            1.0000000";
"Nb    S";
"      0.150168091845475            1.0000000";
"Nb    S";
"      7.668876968794858E-002            1.0000000";
"Nb    S";
"      3.916389509898707E-002            1.0000000";
"Nb    S";
"      2.000046011385546E-002            1.0000000";
"Nb    P";
" 201995.358823884            1.0000000";
"Nb    P";
" 103156.238855453            1.0000000";
"Nb    P";
"  52680.4659115022           1.0000000";
"Nb    P";
"  26903.1860742976           1.0000000";
"Nb    P";
"  13739.0854166734           1.0000000";
"Nb    P";
"   7016.36109438300          1.0000000";
"Nb    P";
"   3583.15866840946          1.0000000";
"Nb    P";
"   1829.86962476550          1.0000000";
"Nb    P";
"    934.489134729211         1.0000000";
"Nb    P";
"    477.230689612032         1.0000000";
"Nb    P";
"    243.715119463182         1.0000000";
"Nb    P";
"    124.461944187287         1.0000000";
"Nb    P";
"     63.5609952513412        1.0000000";
"Nb    P";
"     32.4597220758638        1.0000000";
"Nb    P";
"     16.5767315800501        1.0000000";
"Nb    P";
"      8.46550778330153       1.0000000";
"Nb    P";
"      4.32321786011102       1.0000000";
"Nb    P";
"      2.20780762884063       1.0000000";
"Nb    P";
"      1.12749685157938       1.0000000";
"Nb    P";
"      0.575797063890465            1.0000000";
"Nb    P";
"      0.294051604951678            1.0000000";
"Nb    P";
"      0.150168091845475            1.0000000";
"Nb    P";
"      7.668876968794860E-002            1.0000000";
"Nb    D";
"   3583.15866840946          1.0000000";
"Nb    D";
"   1829.86962476550          1.0000000";
"Nb    D";
"    934.489134729210         1.0000000";
"Nb    D";
"    477.230689612032         1.0000000";
"Nb    D";
"    243.715119463182         1.0000000";
"Nb    D";
"    124.461944187287         1.0000000";
"Nb    D";
"     63.5609952513411        1.0000000";
"Nb    D";
"     32.4597220758638        1.0000000";
"Nb    D";
"     16.5767315800501        1.0000000";
"Nb    D";
"      8.46550778330153       1.0000000";
"Nb    D";
"      4.32321786011102       1.0000000";
"Nb    D";
"      2.20780762884063       1.0000000";
"Nb    D";
"      1.12749685157938       1.0000000";
"Nb    D";
"      0.575797063890464            1.0000000";
"Nb    D";
"      0.294051604951678            1.0000000";
"Nb    D";
"      0.150168091845475            1.0000000";
"Nb    D";
"      7.668876968794858E-002            1.0000000";
"Nb    D";
"      3.916389509898707E-002            1.0000000"].

(** bfit/data/ygbs:4380-4522 *)
Definition ugbs_mo : list string := [
"#BASIS SET: (30s,23p,18d)";
"Mo    S";
" 11387194.5850786            1.0000000";
"Mo    S";
" 5815282.94190191            1.0000000";
"Mo    S";
" 2969784.65079438            1.0000000";
"Mo    S";
" 1516627.98873367            1.0000000";
"Mo    S";
" 774520.959152738            1.0000000";
"Mo    S";
" 395537.152566831            1.0000000";
"Mo    S";
" 201995.358823884            1.0000000";
"Mo    S";
" 103156.238855453            1.0000000";
"Mo    S";
"  52680.4659115021           1.0000000";
"Mo    S";
"  26903.1860742976           1.0000000";
"Mo    S";
"  13739.0854166734           1.0000000";
"Mo    S";
"   7016.36109438299          1.0000000";
"Mo    S";
"   3583.15866840946          1.0000000";
"Mo    S";
"   1829.86962476550          1.0000000";
"Mo    S";
"    934.489134729210         1.0000000";
"Mo    S";
"    477.230689612032         1.0000000";
"Mo    S";
"    243.715119463182         1.0000000";
"Mo    S";
"    124.461944187287         1.0000000";
"Mo    S";
"     63.5609952513411        1.0000000";
"Mo    S";
"     32.4597220758638        1.0000000";
"Mo    S";
"     16.5767315800501        1.0000000";
"Mo    S";
"      8.46550778330153       1.0000000";
"Mo    S";
"      4.32321786011102       1.0000000";
"Mo    S";
"      2.20780762884063       1.0000000";
"Mo    S";
"      1.12749685157938       1.0000000";
"Mo    S";
"      0.575797063890464            1.0000000";
"Mo    S";
"      0.294051604951678            1.0000000";
"Mo    S";
"      0.150168091845475            1.0000000";
"Mo    S";
"      7.668876968794858E-002            1.0000000";
"Mo    S";
"      3.916389509898707E-002            1.0000000";
"Mo    P";
" 201995.358823884            1.0000000";
"Mo    P";
" 103156.238855453            1.0000000";
"Mo    P";
"  52680.4659115022           1.0000000";
"Mo    P";
"  26903.1860742976           1.0000000";
"Mo    P";
"  13739.0854166734           1.0000000";
"Mo    P";
"   7016.36109438300          1.0000000";
"Mo    P";
"   3583.15866840946          1.0000000";
"Mo    P";
"   1829.86962476550          1.0000000";
"Mo    P";
"    934.489134729211         1.0000000";
"Mo    P";
"    477.230689612032         1.0000000";
"Mo    P";
"    243.715119463182         1.0000000";
"Mo    P";
"    124.461944187287         1.0000000";
"Mo    P";
"     63.5609952513412        1.0000000";
"Mo    P";
"     32.4597220758638        1.0000000";
"Mo    P";
"     16.5767315800501        1.0000000";
"Mo    P";
"      8.46550778330153       1.0000000";
"Mo    P";
"      4.32321786011102       1.0000000";
"Mo    P";
"      2.20780762884063       1.0000000";
"Mo    P";
"      1.12749685157938       1.0000000";
"Mo    P";
"      0.575797063890465            1.0000000";
"Mo    P";
"      0.294051604951678            1.0000000";
"Mo    P";
"      0.150168091845475            1.0000000";
"Mo    P";
"      7.668876968794860E-002            1.0000000";
"Mo    D";
"   3583.15866840946          1.0000000";
"Mo    D";
"   1829.86962476550          1.0000000";
"Mo    D";
"    934.489134729210         1.0000000";
"Mo    D";
"    477.230689612032         1.0000000";
"Mo    D";
"    243.715119463182         1.0000000";
"Mo    D";
"    124.461944187287         1.0000000";
"Mo    D";
"     63.5609952513411        1.0000000";
"Mo    D";
"     32.4597220758638        1.0000000";
"Mo    D";
"     16.5767315800501        1.0000000";
"Mo    D";
"      8.46550778330153       1.0000000";
"Mo    D";
"      4.32321786011102       1.0000000";
"Mo    D";
"      2.20780762884063       1.0000000";
"Mo    D";
"      1.12749685157938       1.0000000";
"Mo    D";
"      0.575797063890464            1.0000000";
"Mo    D";
"      0.294051604951678            1.0000000";
"Mo    D";
"      0.150168091845475            1.0000000";
"Mo    D";
"      7.668876968794858E-002            1.0000000";
"Mo    D";
"      3.916389509898707E-002            1.0000000"].

(** bfit/data/ygbs:4523-4665 *)
Definition ugbs_tc : list string := [
"#BASIS SET: (32s,22p,17d)";
"Tc    S";
" 22297831.7330222            1.0000000";
"Tc    S";
" 11387194.5850786            1.0000000";
"Tc    S";
" 5815282.94190191            1.0000000";
"Tc    S";
" 2969784.65079438            1.0000000";
"Tc    S";
" 1516627.98873367            1.0000000";
"Tc    S";
" 774520.959152735            1.0000000";
"Tc    S";
" 395537.152566831            1.0000000";
"Tc    S";
" 201995.358823884            1.0000000";
"Tc    S";
" 103156.238855453            1.0000000";
"Tc    S";
"  52680.4659115021           1.0000000";
"Tc    S";
"  26903.1860742975           1.0000000";
"Tc    S";
"  13739.0854166734           1.0000000";
"Tc    S";
"   7016.36109438299          1.0000000";
"Tc    S";
"   3583.15866840945          1.0000000";
"Tc    S";
"   1829.86962476550          1.0000000";
"Tc    S";
"    934.489134729211         1.0000000";
"Tc    S";
"    477.230689612032         1.0000000";
"Tc    S";
"    243.715119463182         1.0000000";
"Tc    S";
"    124.461944187287         1.0000000";
"Tc    S";
"     63.5609952513411        1.0000000";
"Tc    S";
"     32.4597220758638        1.0000000";
"Tc    S";
"     16.5767315800501        1.0000000";
"Tc    S";
"      8.46550778330153       1.0000000";
"Tc    S";
"      4.32321786011102       1.0000000";
"Tc    S";
"      2.20780762884063       1.0000000";
"Tc    S";
"      1.12749685157938       1.0000000";
"Tc    S";
"      0.575797063890465            1.0000000";
"Tc    S";
"      0.294051604951678            1.0000000";
"Tc    S";
"      0.150168091845475            1.0000000";
"Tc    S";
"      7.668876968794858E-002            1.0000000";
"Tc    S";
"      3.916389509898707E-002            1.0000000";
"Tc    S";
"      2.000046011385546E-002            1.0000000";
"Tc    P";
" 103156.238855453            1.0000000";
"Tc    P";
"  52680.4659115022           1.0000000";
"Tc    P";
"  26903.1860742976           1.0000000";
"Tc    P";
"  13739.0854166734           1.0000000";
"Tc    P";
"   7016.36109438300          1.0000000";
"Tc    P";
"   3583.15866840946          1.0000000";
"Tc    P";
"   1829.86962476550          1.0000000";
"Tc    P";
"    934.489134729211         1.0000000";
"Tc    P";
"    477.230689612032         1.0000000";
"Tc    P";
"    243.715119463182         1.0000000";
"Tc    P";
"    124.461944187287         1.0000000";
"Tc    P";
"     63.5609952513412        1.0000000";
"Tc    P";
"     32.4597220758638        1.0000000";
"Tc    P";
"     16.5767315800501        1.0000000";
"Tc    P";
"      8.46550778330153       1.0000000";
"Tc    P";
"      4.32321786011102       1.0000000";
"Tc    P";
"      2.20780762884063       1.0000000";
"Tc    P";
"      1.12749685157938       1.0000000";
"Tc    P";
"      0.575797063890465            1.0000000";
"Tc    P";
"      0.294051604951678            1.0000000";
"Tc    P";
"      0.150168091845475            1.0000000";
"Tc    P";
"      7.668876968794860E-002            1.0000000";
"Tc    D";
"   3583.15866840946          1.0000000";
"Tc    D";
"   1829.86962476550          1.0000000";
"Tc    D";
"    934.489134729211         1.0000000";
"Tc    D";
"    477.230689612032         1.0000000";
"Tc    D";
"    243.715119463182         1.0000000";
"Tc    D";
"    124.461944187287         1.0000000";
"Tc    D";
"     63.5609952513412        1.0000000";
"Tc    D";
"     32.4597220758638        1.0000000";
"Tc    D";
"     16.5767315800501        1.0000000";
"Tc    D";
"      8.46550778330153       1.0000000";
"Tc    D";
"      4.32321786011102       1.0000000";
"Tc    D";
"      2.20780762884063       1.0000000";
"Tc    D";
"      1.12749685157938       1.0000000";
"Tc    D";
"      0.575797063890465            1.0000000";
"Tc    D";
"      0.294051604951678            1.0000000";
"Tc    D";
"      0.150168091845475            1.0000000";
"Tc    D";
"      7.668876968794860E-002            1.0000000"].

(** bfit/data/ygbs:4666-4806 *)
Definition ugbs_ru : list string := [
"#BASIS SET: (31s,22p,17d)";
"Ru    S";
" 11387194.5850786            1.0000000";
"Ru    S";
" 5815282.94190191            1.0000000";
"Ru    S";
" 2969784.65079438            1.0000000";
"Ru    S";
" 1516627.98873367            1.0000000";
"Ru    S";
" 774520.959152735            1.0000000";
"Ru    S";
" 395537.152566831            1.0000000";
"Ru    S";
" 201995.358823884            1.0000000";
"Ru    S";
" 103156.238855453            1.0000000";
"Ru    S";
"  52680.4659115021           1.0000000";
"Ru    S";
"  26903.1860742975           1.0000000";
"Ru    S";
"  13739.0854166734           1.0000000";
"Ru    S";
"   7016.36109438299          1.0000000";
"Ru    S";
"   3583.15866840945          1.0000000";
"Ru    S";
"   1829.86962476550          1.0000000";
"Ru    S";
"    934.489134729211         1.0000000";
"Ru    S";
"    477.230689612032         1.0000000";
"Ru    S";
"    243.715119463182         1.0000000";
"Ru    S";
"    124.461944187287         1.0000000";
"Ru    S";
"     63.5609952513411        1.0000000";
"Ru    S";
"     32.4597220758638        1.0000000";
"Ru    S";
"     16.5767315800501        1.0000000";
"Ru    S";
"      8.46550778330153       1.0000000";
"Ru    S";
"      4.32321786011102       1.0000000";
"Ru    S";
"      2.20780762884063       1.0000000";
"Ru    S";
"      1.12749685157938       1.0000000";
"Ru    S";
"      0.575797063890465            1.0000000";
"Ru    S";
"      0.294051604951678            1.0000000";
"Ru    S";
"      0.150168091845475            1.0000000";
"Ru    S";
"      7.668876968794858E-002            1.0000000";
"Ru    S";
"      3.916389509898707E-002            1.0000000";
"Ru    S";
"      2.000046011385546E-002            1.0000000";
"Ru    P";
" 201995.358823884            1.0000000";
"Ru    P";
" 103156.238855453            1.0000000";
"Ru    P";
"  52680.4659115021           1.0000000";
"Ru    P";
"  26903.1860742975           1.0000000";
"Ru    P";
"  13739.0854166734           1.0000000";
"Ru    P";
"   7016.36109438299          1.0000000";
"Ru    P";
"   3583.15866840945          1.0000000";
"Ru    P";
"   1829.86962476550          1.0000000";
"Ru    P";
"    934.489134729210         1.0000000";
"Ru    P";
"    477.230689612032         1.0000000";
"Ru    P";
"    243.715119463182         1.0000000";
"Ru    P";
"    124.461944187287         1.0000000";
"Ru    P";
"     63.5609952513411        1.0000000";
"Ru    P";
"     32.4597220758638        1.0000000";
"Ru    P";
"     16.5767315800501        1.0000000";
"Ru    P";
"      8.46550778330153       1.0000000";
"Ru    P";
"      4.32321786011102       1.0000000";
"Ru    P";
"      2.20780762884063       1.0000000";
"Ru    P";
"      1.12749685157938       1.0000000";
"Ru    P";
"      0.575797063890464            1.0000000";
"Ru    P";
"      0.294051604951678            1.0000000";
"Ru    P";
"      0.150168091845475            1.0000000";
"Ru    D";
"   3583.15866840946          1.0000000";
"Ru    D";
"   1829.86962476550          1.0000000";
"Ru    D";
"    934.489134729211         1.0000000";
"Ru    D";
"    477.230689612032         1.0000000";
"Ru    D";
"    243.715119463182         1.0000000";
"Ru    D";
"    124.461944187287         1.0000000";
"Ru    D";
"     63.5609952513412        1.0000000";
"Ru    D";
"     32.4597220758638        1.0000000";
"Ru    D";
"     16.5767315800501        1.0000000";
"Ru    D";
"      8.46550778330153       1.0000000";
"Ru    D";
"      4.32321786011102       1.0000000";
"Ru    D";
"      2.20780762884063       1.0000000";
"Ru    D";
"      1.12749685157938       1.0000000";
"Ru    D";
"      0.575797063890465            1.0000000";
"Ru    D";
"      0.294051604951678            1.0000000";
"Ru    D";
"      0.150168091845475            1.0000000";
"Ru    D";
"      7.668876968794860E-002            1.0000000"].

(** bfit/data/ygbs:4807-4947 *)
Definition ugbs_rh : list string := [
"#BASIS SET: (32s,21p,17d)";
"Rh    S";
" 22297831.7330222            1.0000000";
"Rh    S";
" 11387194.5850786            1.0000000";
"Rh    S";
" 5815282.94190191            1.0000000";
"Rh    S";
" 2969784.65079438            1.0000000";
"Rh    S";
" 1516627.98873367            1.0000000";
"Rh    S";
" 774520.959152735            1.0000000";
"Rh    S";
" 395537.152566831            1.0000000";
"Rh    S";
" 201995.358823884            1.0000000";
"Rh    S";
" 103156.238855453            1.0000000";
"Rh    S";
"  52680.4659115021           1.0000000";
"Rh    S";
"  26903.1860742975           1.0000000";
"Rh    S";
"  13739.0854166734           1.0000000";
"Rh    S";
"   7016.36109438299          1.0000000";
"Rh    S";
"   3583.15866840945          1.0000000";
"Rh    S";
"   1829.86962476550          1.0000000";
"Rh    S";
"    934.489134729211         1.0000000";
"Rh    S";
"    477.230689612032         1.0000000";
"Rh    S";
"    243.715119463182         1.0000000";
"Rh    S";
"    124.461944187287         1.0000000";
"Rh    S";
"     63.5609952513411        1.0000000";
"Rh    S";
"     32.4597220758638        1.0000000";
"Rh    S";
"     16.5767315800501        1.0000000";
"Rh    S";
"      8.46550778330153       1.0000000";
"Rh    S";
"      4.32321786011102       1.0000000";
"Rh    S";
"      2.20780762884063       1.0000000";
"Rh    S";
"      1.12749685157938       1.0000000";
"Rh    S";
"      0.575797063890465            1.0000000";
"Rh    S";
"      0.294051604951678            1.0000000";
"Rh    S";
"      0.150168091845475            1.0000000";
"Rh    S";
"      7.668876968794858E-002            1.0000000";
"Rh    S";
"      3.916389509898707E-002            1.0000000";
"Rh    S";
"      2.000046011385546E-002            1.0000000";
"Rh    P";
" 103156.238855453            1.0000000";
"Rh    P";
"  52680.4659115021           1.0000000";
"Rh    P";
"  26903.1860742975           1.0000000";
"Rh    P";
"  13739.0854166734           1.0000000";
"Rh    P";
"   7016.36109438299          1.0000000";
"Rh    P";
"   3583.15866840945          1.0000000";
"Rh    P";
"   1829.86962476550          1.0000000";
"Rh    P";
"    934.489134729210         1.0000000";
"Rh    P";
"    477.230689612032         1.0000000";
"Rh    P";
"    243.715119463182         1.0000000";
"Rh    P";
"    124.461944187287         1.0000000";
"Rh    P";
"     63.5609952513411        1.0000000";
"Rh    P";
"     32.4597220758638        1.0000000";
"Rh    P";
"     16.5767315800501        1.0000000";
"Rh    P";
"      8.46550778330153       1.0000000";
"Rh    P";
"      4.32321786011102       1.0000000";
"Rh    P";
"      2.20780762884063       1.0000000";
"Rh    P";
"      1.12749685157938       1.0000000";
"Rh    P";
"      0.575797063890464            1.0000000";
"Rh    P";
"      0.294051604951678            1.0000000";
"Rh    P";
"      0.150168091845475            1.0000000";
"Rh    D";
"   3583.15866840946          1.0000000";
"Rh    D";
"   1829.86962476550          1.0000000";
"Rh    D";
"    934.489134729211         1.0000000";
"Rh    D";
"    477.230689612032         1.0000000";
"Rh    D";
"    243.715119463182         1.0000000";
"Rh    D";
"    124.461944187287         1.0000000";
"Rh    D";
"     63.5609952513412        1.0000000";
"Rh    D";
"     32.4597220758638        1.0000000";
"Rh    D";
"     16.5767315800501        1.0000000";
"Rh    D";
"      8.46550778330153       1.0000000";
"Rh    D";
"      4.32321786011102       1.0000000";
"Rh    D";
"      2.20780762884063       1.0000000";
"Rh    D";
"      1.12749685157938       1.0000000";
"Rh    D";
"      0.575797063890465            1.0000000";
"Rh    D";
"      0.294051604951678            1.0000000";
"Rh    D";
"      0.150168091845475            1.0000000";
"Rh    D";
"      7.668876968794860E-002            1.0000000"].

(** bfit/data/ygbs:4948-5086 *)
Definition ugbs_pd : list string := [
"#BASIS SET: (29s,22p,18d)";
"Pd    S";
" 22297831.7330223            1.0000000";
"Pd    S";
" 11387194.5850786            1.0000000";
"Pd    S";
" 5815282.94190191            1.0000000";
"Pd    S";
" 2969784.65079439            1.0000000";
"Pd    S";
" 1516627.98873367            1.0000000";
"Pd    S";
" 774520.959152738            1.0000000";
"Pd    S";
" 395537.152566831            1.0000000";
"Pd    S";
" 201995.358823884            1.0000000";
"Pd    S";
" 103156.238855453            1.0000000";
"Pd    S";
"  52680.4659115021           1.0000000";
"Pd    S";
"  26903.1860742975           1.0000000";
"Pd    S";
"  13739.0854166734           1.0000000";
"Pd    S";
"   7016.36109438299          1.0000000";
"Pd    S";
"   3583.15866840945          1.0000000";
"Pd    S";
"   1829.86962476550          1.0000000";
"Pd    S";
"    934.489134729210         1.0000000";
"Pd    S";
"    477.230689612032         1.0000000";
"Pd    S";
"    243.715119463182         1.0000000";
"Pd    S";
"    124.461944187287         1.0000000";
"Pd    S";
"     63.5609952513411        1.0000000";
"Pd    S";
"     32.4597220758638        1.0000000";
"Pd    S";
"     16.5767315800501        1.0000000";
"Pd    S";
"      8.46550778330153       1.0000000";
"Pd    S";
"      4.32321786011102       1.0000000";
"Pd    S";
"      2.20780762884063       1.0000000";
"Pd    S";
"      1.12749685157938       1.0000000";
"Pd    S";
"      0.575797063890464            1.0000000";
"Pd    S";
"      0.294051604951678            1.0000000";
"Pd    S";
"      0.150168091845475            1.0000000";
"Pd    P";
" 201995.358823884            1.0000000";
"Pd    P";
" 103156.238855453            1.0000000";
"Pd    P";
"  52680.4659115021           1.0000000";
"Pd    P";
"  26903.1860742975           1.0000000";
"Pd    P";
"  13739.0854166734           1.0000000";
"Pd    P";
"   7016.36109438299          1.0000000";
"Pd    P";
"   3583.15866840945          1.0000000";
"Pd    P";
"   1829.86962476550          1.0000000";
"Pd    P";
"    934.489134729210         1.0000000";
"Pd    P";
"    477.230689612032         1.0000000";
"Pd    P";
"    243.715119463182         1.0000000";
"Pd    P";
"    124.461944187287         1.0000000";
"Pd    P";
"     63.5609952513411        1.0000000";
"Pd    P";
"     32.4597220758638        1.0000000";
"Pd    P";
"     16.5767315800501        1.0000000";
"Pd    P";
"      8.46550778330153       1.0000000";
"Pd    P";
"      4.32321786011102       1.0000000";
"Pd    P";
"      2.20780762884063       1.0000000";
"Pd    P";
"      1.12749685157938       1.0000000";
"Pd    P";
"      0.575797063890464            1.0000000";
"Pd    P";
"      0.294051604951678            1.0000000";
"Pd    P";
"      0.150168091845475            1.0000000";
"Pd    D";
"   7016.36109438300          1.0000000";
"Pd    D";
"   3583.15866840946          1.0000000";
"Pd    D";
"   1829.86962476550          1.0000000";
"Pd    D";
"    934.489134729211         1.0000000";
"Pd    D";
"    477.230689612032         1.0000000";
"Pd    D";
"    243.715119463182         1.0000000";
"Pd    D";
"    124.461944187287         1.0000000";
"Pd    D";
"     63.5609952513412        1.0000000";
"Pd    D";
"     32.4597220758638        1.0000000";
"Pd    D";
"     16.5767315800501        1.0000000";
"Pd    D";
"      8.46550778330153       1.0000000";
"Pd    D";
"      4.32321786011102       1.0000000";
"Pd    D";
"      2.20780762884063       1.0000000";
"Pd    D";
"      1.12749685157938       1.0000000";
"Pd    D";
"      0.575797063890465            1.0000000";
"Pd    D";
"      0.294051604951678            1.0000000";
"Pd    D";
"      0.150168091845475            1.0000000";
"Pd    D";
"      7.668876968794860E-002            1.0000000"].

(** bfit/data/ygbs:5087-5225 *)
Definition ugbs_ag : list string := [
"#BASIS SET: (31s,21p,17d)";
"Ag    S";
" 11387194.5850786            1.0000000";
"Ag    S";
" 5815282.94190191            1.0000000";
"Ag    S";
" 2969784.65079438            1.0000000";
"Ag    S";
" 1516627.98873367            1.0000000";
"Ag    S";
" 774520.959152735            1.0000000";
"Ag    S";
" 395537.152566831            1.0000000";
"Ag    S";
" 201995.358823884            1.0000000";
"Ag    S";
" 103156.238855453            1.0000000";
"Ag    S";
"  52680.4659115021           1.0000000";
"Ag    S";
"  26903.1860742975           1.0000000";
"Ag    S";
"  13739.0854166734           1.0000000";
"Ag    S";
"   7016.36109438299          1.0000000";
"Ag    S";
"   3583.15866840945          1.0000000";
"Ag    S";
"   1829.86962476550          1.0000000";
"Ag    S";
"    934.489134729211         1.0000000";
"Ag    S";
"    477.230689612032         1.0000000";
"Ag    S";
"    243.715119463182         1.0000000";
"Ag    S";
"    124.461944187287         1.0000000";
"Ag    S";
"     63.5609952513411        1.0000000";
"Ag    S";
"     32.4597220758638        1.0000000";
"Ag    S";
"     16.5767315800501        1.0000000";
"Ag    S";
"      8.46550778330153       1.0000000";
"Ag    S";
"      4.32321786011102       1.0000000";
"Ag    S";
"      2.20780762884063       1.0000000";
"Ag    S";
"      1.12749685157938       1.0000000";
"Ag    S";
"      0.575797063890465            1.0000000";
"Ag    S";
"      0.294051604951678            1.0000000";
"Ag    S";
"      0.150168091845475            1.0000000";
"Ag    S";
"      7.668876968794858E-002            1.0000000";
"Ag    S";
"      3.916389509898707E-002            1.0000000";
"Ag    S";
"      2.000046011385546E-002            1.0000000";
"Ag    P";
" 103156.238855453            1.0000000";
"Ag    P";
"  52680.4659115021           1.0000000";
"Ag    P";
"  26903.1860742975           1.0000000";
"Ag    P";
"  13739.0854166734           1.0000000";
"Ag    P";
"   7016.36109438299          1.0000000";
"Ag    P";
"   3583.15866840945          1.0000000";
"Ag    P";
"   1829.86962476550          1.0000000";
"Ag    P";
"    934.489134729210         1.0000000";
"Ag    P";
"    477.230689612032         1.0000000";
"Ag    P";
"    243.715119463182         1.0000000";
"Ag    P";
"    124.461944187287         1.0000000";
"Ag    P";
"     63.5609952513411        1.0000000";
"Ag    P";
"     32.4597220758638        1.0000000";
"Ag    P";
"     16.5767315800501        1.0000000";
"Ag    P";
"      8.46550778330153       1.0000000";
"Ag    P";
"      4.32321786011102       1.0000000";
"Ag    P";
"      2.20780762884063       1.0000000";
"Ag    P";
"      1.12749685157938       1.0000000";
"Ag    P";
"      0.575797063890464            1.0000000";
"Ag    P";
"      0.294051604951678            1.0000000";
"Ag    P";
"      0.150168091845475            1.0000000";
"Ag    D";
"   3583.15866840946          1.0000000";
"Ag    D";
"   1829.86962476550          1.0000000";
"Ag    D";
"    934.489134729211         1.0000000";
"Ag    D";
"    477.230689612032         1.0000000";
"Ag    D";
"    243.715119463182         1.0000000";
"Ag    D";
"    124.461944187287         1.0000000";
"Ag    D";
"     63.5609952513412        1.0000000";
"Ag    D";
"     32.4597220758638        1.0000000";
"Ag    D";
"     16.5767315800501        1.0000000";
"Ag    D";
"      8.46550778330153       1.0000000";
"Ag    D";
"      4.32321786011102       1.0000000";
"Ag    D";
"      2.20780762884063       1.0000000";
"Ag    D";
"      1.12749685157938       1.0000000";
"Ag    D";
"      0.575797063890465            1.0000000";
"Ag    D";
"      0.294051604951678            1.0000000";
"Ag    D";
"      0.150168091845475            1.0000000";
"Ag    D";
"      7.668876968794860E-002            1.0000000"].

(** bfit/data/ygbs:5226-5360 *)
Definition ugbs_cd : list string := [
"#BASIS SET: (31s,20p,16d)";
"Cd    S";
" 22297831.7330222            1.0000000";
"Cd    S";
" 11387194.5850786            1.0000000";
"Cd    S";
" 5815282.94190191            1.0000000";
"Cd    S";
" 2969784.65079438            1.0000000";
"Cd    S";
" 1516627.98873367            1.0000000";
"Cd    S";
" 774520.959152738            1.0000000";
"Cd    S";
" 395537.152566831            1.0000000";
"Cd    S";
" 201995.358823884            1.0000000";
"Cd    S";
" 103156.238855453            1.0000000";
"Cd    S";
"  52680.4659115021           1.0000000";
"Cd    S";
"  26903.1860742976           1.0000000";
"Cd    S";
"  13739.0854166734           1.0000000";
"Cd    S";
"   7016.36109438299          1.0000000";
"Cd    S";
"   3583.15866840946          1.0000000";
"Cd    S";
"   1829.86962476550          1.0000000";
"Cd    S";
"    934.489134729210         1.0000000";
"Cd    S";
"    477.230689612032         1.0000000";
"Cd    S";
"    243.715119463182         1.0000000";
"Cd    S";
"    124.461944187287         1.0000000";
"Cd    S";
"     63.5609952513411        1.0000000";
"Cd    S";
"     32.4597220758638        1.0000000";
"Cd    S";
"     16.5767315800501        1.0000000";
"Cd    S";
"      8.46550778330153       1.0000000";
"Cd    S";
"      4.32321786011102       1.0000000";
"Cd    S";
"      2.20780762884063       1.0000000";
"Cd    S";
"      1.12749685157938       1.0000000";
"Cd    S";
"      0.575797063890464            1.0000000";
"Cd    S";
"      0.294051604951678            1.0000000";
"Cd    S";
"      0.150168091845475            1.0000000";
"Cd    S";
"      7.668876968794858E-002            1.0000000";
"Cd    S";
"      3.916389509898707E-002            1.0000000";
"Cd    P";
" 103156.238855453            1.0000000";
"Cd    P";
"  52680.4659115021           1.0000000";
"Cd    P";
"  26903.1860742976           1.0000000";
"Cd    P";
"  13739.0854166734           1.0000000";
"Cd    P";
"   7016.36109438299          1.0000000";
"Cd    P";
"   3583.15866840946          1.0000000";
"Cd    P";
"   1829.86962476550          1.0000000";
"Cd    P";
"    934.489134729211         1.0000000";
"Cd    P";
"    477.230689612032         1.0000000";
"Cd    P";
"    243.715119463182         1.0000000";
"Cd    P";
"    124.461944187287         1.0000000";
"Cd    P";
"     63.5609952513411        1.0000000";
"Cd    P";
"     32.4597220758638        1.0000000";
"Cd    P";
"     16.5767315800501        1.0000000";
"Cd    P";
"      8.46550778330153       1.0000000";
"Cd    P";
"      4.32321786011102       1.0000000";
"Cd    P";
"      2.20780762884063       1.0000000";
"Cd    P";
"      1.12749685157938       1.0000000";
"Cd    P";
"      0.575797063890465            1.0000000";
"Cd    P";
"      0.294051604951678            1.0000000";
"Cd    D";
"   3583.15866840945          1.0000000";
"Cd    D";
"   1829.86962476550          1.0000000";
"Cd    D";
"    934.489134729210         1.0000000";
"Cd    D";
"    477.230689612032         1.0000000";
"Cd    D";
"    243.715119463182         1.0000000";
"Cd    D";
"    124.461944187287         1.0000000";
"Cd    D";
"     63.5609952513411        1.0000000";
"Cd    D";
"     32.4597220758638        1.0000000";
"Cd    D";
"     16.5767315800501        1.0000000";
"Cd    D";
"      8.46550778330153       1.0000000";
"Cd    D";
"      4.32321786011102       1.0000000";
"Cd    D";
"      2.20780762884063       1.0000000";
"Cd    D";
"      1.12749685157938       1.0000000";
"Cd    D";
"      0.575797063890464            1.0000000";
"Cd    D";
"      0.294051604951678            1.0000000";
"Cd    D";
"      0.150168091845475            1.0000000"].

(** bfit/data/ygbs:5361-5497 *)
Definition ugbs_in : list string := [
"#BASIS SET: (30s,22p,16d)";
"In    S";
" 11387194.5850786            1.0000000";
"In    S";
" 5815282.94190191            1.0000000";
"In    S";
" 2969784.65079438            1.0000000";
"In    S";
" 1516627.98873367            1.0000000";
"In    S";
" 774520.959152738            1.0000000";
"In    S";
" 395537.152566831            1.0000000";
"In    S";
" 201995.358823884            1.0000000";
"In    S";
" 103156.238855453            1.0000000";
"In    S";
"  52680.4659115021           1.0000000";
"In    S";
"  26903.1860742976           1.0000000";
"In    S";
"  13739.0854166734           1.0000000";
"In    S";
"   7016.36109438299          1.0000000";
"In    S";
"   3583.15866840946          1.0000000";
"In    S";
"   1829.86962476550          1.0000000";
"In    S";
"    934.489134729210         1.0000000";
"In    S";
"    477.230689612032         1.0000000";
"In    S";
"    243.715119463182         1.0000000";
"In    S";
"    124.461944187287         1.0000000";
"In    S";
"     63.5609952513411        1.0000000";
"In    S";
"     32.4597220758638        1.0000000";
"In    S";
"     16.5767315800501        1.0000000";
"In    S";
"      8.46550778330153       1.0000000";
"In    S";
"      4.32321786011102       1.0000000";
"In    S";
"      2.20780762884063       1.0000000";
"In    S";
"      1.12749685157938       1.0000000";
"In    S";
"      0.575797063890464            1.0000000";
"In    S";
"      0.294051604951678            1.0000000";
"In    S";
"      0.150168091845475            1.0000000";
"In    S";
"      7.668876968794858E-002            1.0000000";
"In    S";
"      3.916389509898707E-002            1.0000000";
"In    P";
"  52680.4659115021           1.0000000";
"In    P";
"  26903.1860742976           1.0000000";
"In    P";
"  13739.0854166734           1.0000000";
"In    P";
"   7016.36109438299          1.0000000";
"In    P";
"   3583.15866840946          1.0000000";
"In    P";
"   1829.86962476550          1.0000000";
"In    P";
"    934.489134729210         1.0000000";
"In    P";
"    477.230689612032         1.0000000";
"In    P";
"    243.715119463182         1.0000000";
"In    P";
"    124.461944187287         1.0000000";
"In    P";
"     63.5609952513411        1.0000000";
"In    P";
"     32.4597220758638        1.0000000";
"In    P";
"     16.5767315800501        1.0000000";
"In    P";
"      8.46550778330153       1.0000000";
"In    P";
"      4.32321786011102       1.0000000";
"In    P";
"      2.20780762884063       1.0000000";
"In    P";
"      1.12749685157938       1.0000000";
"In    P";
"      0.575797063890464            1.0000000";
"In    P";
"      0.294051604951678            1.0000000";
"In    P";
"      0.150168091845475            1.0000000";
"In    P";
"      7.668876968794858E-002            1.0000000";
"In    P";
"      3.916389509898707E-002            1.0000000";
"In    D";
"   3583.15866840945          1.0000000";
"In    D";
"   1829.86962476550          1.0000000";
"In    D";
"    934.489134729210         1.0000000";
"In    D";
"    477.230689612032         1.0000000";
"In    D";
"    243.715119463182         1.0000000";
"In    D";
"    124.461944187287         1.0000000";
"In    D";
"     63.5609952513411        1.0000000";
"In    D";
"     32.4597220758638        1.0000000";
"In    D";
"     16.5767315800501        1.0000000";
"In    D";
"      8.46550778330153       1.0000000";
"In    D";
"      4.32321786011102       1.0000000";
"In    D";
"      2.20780762884063       1.0000000";
"In    D";
"      1.12749685157938       1.0000000";
"In    D";
"      0.575797063890464            1.0000000";
"In    D";
"      0.294051604951678            1.0000000";
"In    D";
"      0.150168091845475            1.0000000"].

(** bfit/data/ygbs:5498-5634 *)
Definition ugbs_sn : list string := [
"#BASIS SET: (30s,22p,16d)";
"Sn    S";
" 11387194.5850786            1.0000000";
"Sn    S";
" 5815282.94190191            1.0000000";
"Sn    S";
" 2969784.65079438            1.0000000";
"Sn    S";
" 1516627.98873367            1.0000000";
"Sn    S";
" 774520.959152738            1.0000000";
"Sn    S";
" 395537.152566831            1.0000000";
"Sn    S";
" 201995.358823884            1.0000000";
"Sn    S";
" 103156.238855453            1.0000000";
"Sn    S";
"  52680.4659115021           1.0000000";
"Sn    S";
"  26903.1860742976           1.0000000";
"Sn    S";
"  13739.0854166734           1.0000000";
"Sn    S";
"   7016.36109438299          1.0000000";
"Sn    S";
"   3583.15866840946          1.0000000";
"Sn    S";
"   1829.86962476550          1.0000000";
"Sn    S";
"    934.489134729210         1.0000000";
"Sn    S";
"    477.230689612032         1.0000000";
"Sn    S";
"    243.715119463182         1.0000000";
"Sn    S";
"    124.461944187287         1.0000000";
"Sn    S";
"     63.5609952513411        1.0000000";
"Sn    S";
"     32.4597220758638        1.0000000";
"Sn    S";
"     16.5767315800501        1.0000000";
"Sn    S";
"      8.46550778330153       1.0000000";
"Sn    S";
"      4.32321786011102       1.0000000";
"Sn    S";
"      2.20780762884063       1.0000000";
"Sn    S";
"      1.12749685157938       1.0000000";
"Sn    S";
"      0.575797063890464            1.0000000";
"Sn    S";
"      0.294051604951678            1.0000000";
"Sn    S";
"      0.150168091845475            1.0000000";
"Sn    S";
"      7.668876968794858E-002            1.0000000";
"Sn    S";
"      3.916389509898707E-002            1.0000000";
"Sn    P";
"  52680.4659115021           1.0000000";
"Sn    P";
"  26903.1860742976           1.0000000";
"Sn    P";
"  13739.0854166734           1.0000000";
"Sn    P";
"   7016.36109438299          1.0000000";
"Sn    P";
"   3583.15866840946          1.0000000";
"Sn    P";
"   1829.86962476550          1.0000000";
"Sn    P";
"    934.489134729210         1.0000000";
"Sn    P";
"    477.230689612032         1.0000000";
"Sn    P";
"    243.715119463182         1.0000000";
"Sn    P";
"    124.461944187287         1.0000000";
"Sn    P";
"     63.5609952513411        1.0000000";
"Sn    P";
"     32.4597220758638        1.0000000";
"Sn    P";
"     16.5767315800501        1.0000000";
"Sn    P";
"      8.46550778330153       1.0000000";
"Sn    P";
"      4.32321786011102       1.0000000";
"Sn    P";
"      2.20780762884063       1.0000000";
"Sn    P";
"      1.12749685157938       1.0000000";
"Sn    P";
"      0.575797063890464            1.0000000";
"Sn    P";
"      0.294051604951678            1.0000000";
"Sn    P";
"      0.150168091845475            1.0000000";
"Sn    P";
"      7.668876968794858E-002            1.0000000";
"Sn    P";
"      3.916389509898707E-002            1.0000000";
"Sn    D";
"   3583.15866840945          1.0000000";
"Sn    D";
"   1829.86962476550          1.0000000";
"Sn    D";
"    934.489134729210         1.0000000";
"Sn    D";
"    477.230689612032         1.0000000";
"Sn    D";
"    243.715119463182         1.0000000";
"Sn    D";
"    124.461944187287         1.0000000";
"Sn    D";
"     63.5609952513411        1.0000000";
"Sn    D";
"     32.4597220758638        1.0000000";
"Sn    D";
"     16.5767315800501        1.0000000";
"Sn    D";
"      8.46550778330153       1.0000000";
"Sn    D";
"      4.32321786011102       1.0000000";
"Sn    D";
"      2.20780762884063       1.0000000";
"Sn    D";
"      1.12749685157938       1.0000000";
"Sn    D";
"      0.575797063890464            1.0000000";
"Sn    D";
"      0.294051604951678            1.0000000";
"Sn    D";
"      0.150168091845475            1.0000000"].

(** bfit/data/ygbs:5635-5771 *)
Definition ugbs_sb : list string := [
"#BASIS SET: (30s,22p,16d)";
"Sb    S";
" 22297831.7330223            1.0000000";
"Sb    S";
" 11387194.5850786            1.0000000";
"Sb    S";
" 5815282.94190191            1.0000000";
"Sb    S";
" 2969784.65079438            1.0000000";
"Sb    S";
" 1516627.98873367            1.0000000";
"Sb    S";
" 774520.959152738            1.0000000";
"Sb    S";
" 395537.152566831            1.0000000";
"Sb    S";
" 201995.358823884            1.0000000";
"Sb    S";
" 103156.238855453            1.0000000";
"Sb    S";
"  52680.4659115022           1.0000000";
"Sb    S";
"  26903.1860742976           1.0000000";
"Sb    S";
"  13739.0854166734           1.0000000";
"Sb    S";
"   7016.36109438300          1.0000000";
"Sb    S";
"   3583.15866840946          1.0000000";
"Sb    S";
"   1829.86962476550          1.0000000";
"Sb    S";
"    934.489134729211         1.0000000";
"Sb    S";
"    477.230689612032         1.0000000";
"Sb    S";
"    243.715119463182         1.0000000";
"Sb    S";
"    124.461944187287         1.0000000";
"Sb    S";
"     63.5609952513412        1.0000000";
"Sb    S";
"     32.4597220758638        1.0000000";
"Sb    S";
"     16.5767315800501        1.0000000";
"Sb    S";
"      8.46550778330153       1.0000000";
"Sb    S";
"      4.32321786011102       1.0000000";
"Sb    S";
"      2.20780762884063       1.0000000";
"Sb    S";
"      1.12749685157938       1.0000000";
"Sb    S";
"      0.575797063890465            1.0000000";
"Sb    S";
"      0.294051604951678            1.0000000";
"Sb    S";
"      0.150168091845475            1.0000000";
"Sb    S";
"      7.668876968794860E-002            1.0000000";
"Sb    P";
"  52680.4659115021           1.0000000";
"Sb    P";
"  26903.1860742976           1.0000000";
"Sb    P";
"  13739.0854166734           1.0000000";
"Sb    P";
"   7016.36109438299          1.0000000";
"Sb    P";
"   3583.15866840946          1.0000000";
"Sb    P";
"   1829.86962476550          1.0000000";
"Sb    P";
"    934.489134729210         1.0000000";
"Sb    P";
"    477.230689612032         1.0000000";
"Sb    P";
"    243.715119463182         1.0000000";
"Sb    P";
"    124.461944187287         1.0000000";
"Sb    P";
"     63.5609952513411        1.0000000";
"Sb    P";
"     32.4597220758638        1.0000000";
"Sb    P";
"     16.5767315800501        1.0000000";
"Sb    P";
"      8.46550778330153       1.0000000";
"Sb    P";
"      4.32321786011102       1.0000000";
"Sb    P";
"      2.20780762884063       1.0000000";
"Sb    P";
"      1.12749685157938       1.0000000";
"Sb    P";
"      0.575797063890464            1.0000000";
"Sb    P";
"      0.294051604951678            1.0000000";
"Sb    P";
"      0.150168091845475            1.0000000";
"Sb    P";
"      7.668876968794858E-002            1.0000000";
"Sb    P";
"      3.916389509898707E-002            1.0000000";
"Sb    D";
"   3583.15866840945          1.0000000";
"Sb    D";
"   1829.86962476550          1.0000000";
"Sb    D";
"    934.489134729210         1.0000000";
"Sb    D";
"    477.230689612032         1.0000000";
"Sb    D";
"    243.715119463182         1.0000000";
"Sb    D";
"    124.461944187287         1.0000000";
"Sb    D";
"     63.5609952513411        1.0000000";
"Sb    D";
"     32.4597220758638        1.0000000";
"Sb    D";
"     16.5767315800501        1.0000000";
"Sb    D";
"      8.46550778330153       1.0000000";
"Sb    D";
"      4.32321786011102       1.0000000";
"Sb    D";
"      2.20780762884063       1.0000000";
"Sb    D";
"      1.12749685157938       1.0000000";
"Sb    D";
"      0.575797063890464            1.0000000";
"Sb    D";
"      0.294051604951678            1.0000000";
"Sb    D";
"      0.150168091845475            1.0000000"].

(** bfit/data/ygbs:5772-5910 *)
Definition ugbs_te : list string := [
"#BASIS SET: (30s,23p,16d)";
"Te    S";
" 22297831.7330223            1.0000000";
"Te    S";
" 11387194.5850786            1.0000000";
"Te    S";
" 5815282.94190191            1.0000000";
"Te    S";
" 2969784.65079438            1.0000000";
"Te    S";
" 1516627.98873367            1.0000000";
"Te    S";
" 774520.959152738            1.0000000";
"Te    S";
" 395537.152566831            1.0000000";
"Te    S";
" 201995.358823884            1.0000000";
"Te    S";
" 103156.238855453            1.0000000";
"Te    S";
"  52680.4659115022           1.0000000";
"Te    S";
"  26903.1860742976           1.0000000";
"Te    S";
"  13739.0854166734           1.0000000";
"Te    S";
"   7016.36109438300          1.0000000";
"Te    S";
"   3583.15866840946          1.0000000";
"Te    S";
"   1829.86962476550          1.0000000";
"Te    S";
"    934.489134729211         1.0000000";
"Te    S";
"    477.230689612032         1.0000000";
"Te    S";
"    243.715119463182         1.0000000";
"Te    S";
"    124.461944187287         1.0000000";
"Te    S";
"     63.5609952513412        1.0000000";
"Te    S";
"     32.4597220758638        1.0000000";
"Te    S";
"     16.5767315800501        1.0000000";
"Te    S";
"      8.46550778330153       1.0000000";
"Te    S";
"      4.32321786011102       1.0000000";
"Te    S";
"      2.20780762884063       1.0000000";
"Te    S";
"      1.12749685157938       1.0000000";
"Te    S";
"      0.575797063890465            1.0000000";
"Te    S";
"      0.294051604951678            1.0000000";
"Te    S";
"      0.150168091845475            1.0000000";
"Te    S";
"      7.668876968794860E-002            1.0000000";
"Te    P";
" 103156.238855453            1.0000000";
"Te    P";
"  52680.4659115021           1.0000000";
"Te    P";
"  26903.1860742976           1.0000000";
"Te    P";
"  13739.0854166734           1.0000000";
"Te    P";
"   7016.36109438299          1.0000000";
"Te    P";
"   3583.15866840946          1.0000000";
"Te    P";
"   1829.86962476550          1.0000000";
"Te    P";
"    934.489134729210         1.0000000";
"Te    P";
"    477.230689612032         1.0000000";
"Te    P";
"    243.715119463182         1.0000000";
"Te    P";
"    124.461944187287         1.0000000";
"Te    P";
"     63.5609952513411        1.0000000";
"Te    P";
"     32.4597220758638        1.0000000";
"Te    P";
"     16.5767315800501        1.0000000";
"Te    P";
"      8.46550778330153       1.0000000";
"Te    P";
"      4.32321786011102       1.0000000";
"Te    P";
"      2.20780762884063       1.0000000";
"Te    P";
"      1.12749685157938       1.0000000";
"Te    P";
"      0.575797063890464            1.0000000";
"Te    P";
"      0.294051604951678            1.0000000";
"Te    P";
"      0.150168091845475            1.0000000";
"Te    P";
"      7.668876968794858E-002            1.0000000";
"Te    P";
"      3.916389509898707E-002            1.0000000";
"Te    D";
"   3583.15866840945          1.0000000";
"Te    D";
"   1829.86962476550          1.0000000";
"Te    D";
"    934.489134729210         1.0000000";
"Te    D";
"    477.230689612032         1.0000000";
"Te    D";
"    243.715119463182         1.0000000";
"Te    D";
"    124.461944187287         1.0000000";
"Te    D";
"     63.5609952513411        1.0000000";
"Te    D";
"     32.4597220758638        1.0000000";
"Te    D";
"     16.5767315800501        1.0000000";
"Te    D";
"      8.46550778330153       1.0000000";
"Te    D";
"      4.32321786011102       1.0000000";
"Te    D";
"      2.20780762884063       1.0000000";
"Te    D";
"      1.12749685157938       1.0000000";
"Te    D";
"      0.575797063890464            1.0000000";
"Te    D";
"      0.294051604951678            1.0000000";
"Te    D";
"      0.150168091845475            1.0000000"].

(** bfit/data/ygbs:5911-6047 *)
Definition ugbs_i : list string := [
"#BASIS SET: (30s,22p,16d)";
"I    S";
" 22297831.7330223            1.0000000";
"I    S";
" 11387194.5850786            1.0000000";
"I    S";
" 5815282.94190191            1.0000000";
"I    S";
" 2969784.65079438            1.0000000";
"I    S";
" 1516627.98873367            1.0000000";
"I    S";
" 774520.959152738            1.0000000";
"I    S";
" 395537.152566831            1.0000000";
"I    S";
" 201995.358823884            1.0000000";
"I    S";
" 103156.238855453            1.0000000";
"I    S";
"  52680.4659115022           1.0000000";
"I    S";
"  26903.1860742976           1.0000000";
"I    S";
"  13739.0854166734           1.0000000";
"I    S";
"   7016.36109438300          1.0000000";
"I    S";
"   3583.15866840946          1.0000000";
"I    S";
"   1829.86962476550          1.0000000";
"I    S";
"    934.489134729211         1.0000000";
"I    S";
"    477.230689612032         1.0000000";
"I    S";
"    243.715119463182         1.0000000";
"I    S";
"    124.461944187287         1.0000000";
"I    S";
"     63.5609952513412        1.0000000";
"I    S";
"     32.4597220758638        1.0000000";
"I    S";
"     16.5767315800501        1.0000000";
"I    S";
"      8.46550778330153       1.0000000";
"I    S";
"      4.32321786011102       1.0000000";
"I    S";
"      2.20780762884063       1.0000000";
"I    S";
"      1.12749685157938       1.0000000";
"I    S";
"      0.575797063890465            1.0000000";
"I    S";
"      0.294051604951678            1.0000000";
"I    S";
"      0.150168091845475            1.0000000";
"I    S";
"      7.668876968794860E-002            1.0000000";
"I    P";
" 103156.238855453            1.0000000";
"I    P";
"  52680.4659115022           1.0000000";
"I    P";
"  26903.1860742976           1.0000000";
"I    P";
"  13739.0854166734           1.0000000";
"I    P";
"   7016.36109438300          1.0000000";
"I    P";
"   3583.15866840946          1.0000000";
"I    P";
"   1829.86962476550          1.0000000";
"I    P";
"    934.489134729211         1.0000000";
"I    P";
"    477.230689612032         1.0000000";
"I    P";
"    243.715119463182         1.0000000";
"I    P";
"    124.461944187287         1.0000000";
"I    P";
"     63.5609952513412        1.0000000";
"I    P";
"     32.4597220758638        1.0000000";
"I    P";
"     16.5767315800501        1.0000000";
"I    P";
"      8.46550778330153       1.0000000";
"I    P";
"      4.32321786011102       1.0000000";
"I    P";
"      2.20780762884063       1.0000000";
"I    P";
"      1.12749685157938       1.0000000";
"I    P";
"      0.575797063890465            1.0000000";
"I    P";
"      0.294051604951678            1.0000000";
"I    P";
"      0.150168091845475            1.0000000";
"I    P";
"      7.668876968794860E-002            1.0000000";
"I    D";
"   3583.15866840945          1.0000000";
"I    D";
"   1829.86962476550          1.0000000";
"I    D";
"    934.489134729210         1.0000000";
"I    D";
"    477.230689612032         1.0000000";
"I    D";
"    243.715119463182         1.0000000";
"I    D";
"    124.461944187287         1.0000000";
"I    D";
"     63.5609952513411        1.0000000";
"I    D";
"     32.4597220758638        1.0000000";
"I    D";
"     16.5767315800501        1.0000000";
"I    D";
"      8.46550778330153       1.0000000";
"I    D";
"      4.32321786011102       1.0000000";
"I    D";
"      2.20780762884063       1.0000000";
"I    D";
"      1.12749685157938       1.0000000";
"I    D";
"      0.575797063890464            1.0000000";
"I    D";
"      0.294051604951678            1.0000000";
"I    D";
"      0.150168091845475            1.0000000"].

(** bfit/data/ygbs:6048-6186 *)
Definition ugbs_xe : list string := [
"#BASIS SET: (31s,22p,16d)";
"Xe    S";
" 43662492.6604555            1.0000000";
"Xe    S";
" 22297831.7330223            1.0000000";
"Xe    S";
" 11387194.5850786            1.0000000";
"Xe    S";
" 5815282.94190191            1.0000000";
"Xe    S";
" 2969784.65079438            1.0000000";
"Xe    S";
" 1516627.98873367            1.0000000";
"Xe    S";
" 774520.959152738            1.0000000";
"Xe    S";
" 395537.152566831            1.0000000";
"Xe    S";
" 201995.358823884            1.0000000";
"Xe    S";
" 103156.238855453            1.0000000";
"Xe    S";
"  52680.4659115022           1.0000000";
"Xe    S";
"  26903.1860742976           1.0000000";
"Xe    S";
"  13739.0854166734           1.0000000";
"Xe    S";
"   7016.36109438300          1.0000000";
"Xe    S";
"   3583.15866840946          1.0000000";
"Xe    S";
"   1829.86962476550          1.0000000";
"Xe    S";
"    934.489134729211         1.0000000";
"Xe    S";
"    477.230689612032         1.0000000";
"Xe    S";
"    243.715119463182         1.0000000";
"Xe    S";
"    124.461944187287         1.0000000";
"Xe    S";
"     63.5609952513412        1.0000000";
"Xe    S";
"     32.4597220758638        1.0000000";
"Xe    S";
"     16.5767315800501        1.0000000";
"Xe    S";
"      8.46550778330153       1.0000000";
"Xe    S";
"      4.32321786011102       1.0000000";
"Xe    S";
"      2.20780762884063       1.0000000";
"Xe    S";
"      1.12749685157938       1.0000000";
"Xe    S";
"      0.575797063890465            1.0000000";
"Xe    S";
"      0.294051604951678            1.0000000";
"Xe    S";
"      0.150168091845475            1.0000000";
"Xe    S";
"      7.668876968794860E-002            1.0000000";
"Xe    P";
" 103156.238855453            1.0000000";
"Xe    P";
"  52680.4659115022           1.0000000";
"Xe    P";
"  26903.1860742976           1.0000000";
"Xe    P";
"  13739.0854166734           1.0000000";
"Xe    P";
"   7016.36109438300          1.0000000";
"Xe    P";
"   3583.15866840946          1.0000000";
"Xe    P";
"   1829.86962476550          1.0000000";
"Xe    P";
"    934.489134729211         1.0000000";
"Xe    P";
"    477.230689612032         1.0000000";
"Xe    P";
"    243.715119463182         1.0000000";
"Xe    P";
"    124.461944187287         1.0000000";
"Xe    P";
"     63.5609952513412        1.0000000";
"Xe    P";
"     32.4597220758638        1.0000000";
"Xe    P";
"     16.5767315800501        1.0000000";
"Xe    P";
"      8.46550778330153       1.0000000";
"Xe    P";
"      4.32321786011102       1.0000000";
"Xe    P";
"      2.20780762884063       1.0000000";
"Xe    P";
"      1.12749685157938       1.0000000";
"Xe    P";
"      0.575797063890465            1.0000000";
"Xe    P";
"      0.294051604951678            1.0000000";
"Xe    P";
"      0.150168091845475            1.0000000";
"Xe    P";
"      7.668876968794860E-002            1.0000000";
"Xe    D";
"   3583.15866840945          1.0000000";
"Xe    D";
"   1829.86962476550          1.0000000";
"Xe    D";
"    934.489134729210         1.0000000";
"Xe    D";
"    477.230689612032         1.0000000";
"Xe    D";
"    243.715119463182         1.0000000";
"Xe    D";
"    124.461944187287         1.0000000";
"Xe    D";
"     63.5609952513411        1.0000000";
"Xe    D";
"     32.4597220758638        1.0000000";
"Xe    D";
"     16.5767315800501        1.0000000";
"Xe    D";
"      8.46550778330153       1.0000000";
"Xe    D";
"      4.32321786011102       1.0000000";
"Xe    D";
"      2.20780762884063       1.0000000";
"Xe    D";
"      1.12749685157938       1.0000000";
"Xe    D";
"      0.575797063890464            1.0000000";
"Xe    D";
"      0.294051604951678            1.0000000";
"Xe    D";
"      0.150168091845475            1.0000000"].

(** bfit/data/ygbs:6187-6325 *)
Definition ugbs_cs : list string := [
"#BASIS SET: (32s,22p,15d)";
"Cs    S";
" 22297831.7330222            1.0000000";
"Cs    S";
" 11387194.5850786            1.0000000";
"Cs    S";
" 5815282.94190191            1.0000000";
"Cs    S";
" 2969784.65079438            1.0000000";
"Cs    S";
" 1516627.98873367            1.0000000";
"Cs    S";
" 774520.959152735            1.0000000";
"Cs    S";
" 395537.152566831            1.0000000";
"Cs    S";
" 201995.358823884            1.0000000";
"Cs    S";
" 103156.238855453            1.0000000";
"Cs    S";
"  52680.4659115021           1.0000000";
"Cs    S";
"  26903.1860742975           1.0000000";
"Cs    S";
"  13739.0854166734           1.0000000";
"Cs    S";
"   7016.36109438299          1.0000000";
"Cs    S";
"   3583.15866840945          1.0000000";
"Cs    S";
"   1829.86962476550          1.0000000";
"Cs    S";
"    934.489134729211         1.0000000";
"Cs    S";
"    477.230689612032         1.0000000";
"Cs    S";
"    243.715119463182         1.0000000";
"Cs    S";
"    124.461944187287         1.0000000";
"Cs    S";
"     63.5609952513411        1.0000000";
"Cs    S";
"     32.4597220758638        1.0000000";
"Cs    S";
"     16.5767315800501        1.0000000";
"Cs    S";
"      8.46550778330153       1.0000000";
"Cs    S";
"      4.32321786011102       1.0000000";
"Cs    S";
"      2.20780762884063       1.0000000";
"Cs    S";
"      1.12749685157938       1.0000000";
"Cs    S";
"      0.575797063890465            1.0000000";
"Cs    S";
"      0.294051604951678            1.0000000";
"Cs    S";
"      0.150168091845475            1.0000000";
"Cs    S";
"      7.668876968794858E-002            1.0000000";
"Cs    S";
"      3.916389509898707E-002            1.0000000";
"Cs    S";
"      2.000046011385546E-002            1.0000000";
"Cs    P";
" 103156.238855453            1.0000000";
"Cs    P";
"  52680.4659115022           1.0000000";
"Cs    P";
"  26903.1860742976           1.0000000";
"Cs    P";
"  13739.0854166734           1.0000000";
"Cs    P";
"   7016.36109438300          1.0000000";
"Cs    P";
"   3583.15866840946          1.0000000";
"Cs    P";
"   1829.86962476550          1.0000000";
"Cs    P";
"    934.489134729211         1.0000000";
"Cs    P";
"    477.230689612032         1.0000000";
"Cs    P";
"    243.715119463182         1.0000000";
"Cs    P";
"    124.461944187287         1.0000000";
"Cs    P";
"     63.5609952513412        1.0000000";
"Cs    P";
"     32.4597220758638        1.0000000";
"Cs    P";
"     16.5767315800501        1.0000000";
"Cs    P";
"      8.46550778330153       1.0000000";
"Cs    P";
"      4.32321786011102       1.0000000";
"Cs    P";
"      2.20780762884063       1.0000000";
"Cs    P";
"      1.12749685157938       1.0000000";
"Cs    P";
"      0.575797063890465            1.0000000";
"Cs    P";
"      0.294051604951678            1.0000000";
"Cs    P";
"      0.150168091845475            1.0000000";
"Cs    P";
"      7.668876968794860E-002            1.0000000";
"Cs    D";
"   3583.15866840946          1.0000000";
"Cs    D";
"   1829.86962476550          1.0000000";
"Cs    D";
"    934.489134729211         1.0000000";
"Cs    D";
"    477.230689612032         1.0000000";
"Cs    D";
"    243.715119463182         1.0000000";
"Cs    D";
"    124.461944187287         1.0000000";
"Cs    D";
"     63.5609952513411        1.0000000";
"Cs    D";
"     32.4597220758638        1.0000000";
"Cs    D";
"     16.5767315800501        1.0000000";
"Cs    D";
"      8.46550778330153       1.0000000";
"Cs    D";
"      4.32321786011102       1.0000000";
"Cs    D";
"      2.20780762884063       1.0000000";
"Cs    D";
"      1.12749685157938       1.0000000";
"Cs    D";
"      0.575797063890465            1.0000000";
"Cs    D";
"      0.294051604951678            1.0000000"].

(** bfit/data/ygbs:6326-6466 *)
Definition ugbs_ba : list string := [
"#BASIS SET: (32s,22p,16d)";
"Ba    S";
" 22297831.7330222            1.0000000";
"Ba    S";
" 11387194.5850786            1.0000000";
"Ba    S";
" 5815282.94190191            1.0000000";
"Ba    S";
" 2969784.65079438            1.0000000";
"Ba    S";
" 1516627.98873367            1.0000000";
"Ba    S";
" 774520.959152735            1.0000000";
"Ba    S";
" 395537.152566831            1.0000000";
"Ba    S";
" 201995.358823884            1.0000000";
"Ba    S";
" 103156.238855453            1.0000000";
"Ba    S";
"  52680.4659115021           1.0000000";
"Ba    S";
"  26903.1860742975           1.0000000";
"Ba    S";
"  13739.0854166734           1.0000000";
"Ba    S";
"   7016.36109438299          1.0000000";
"Ba    S";
"   3583.15866840945          1.0000000";
"Ba    S";
"   1829.86962476550          1.0000000";
"Ba    S";
"    934.489134729211         1.0000000";
"Ba    S";
"    477.230689612032         1.0000000";
"Ba    S";
"    243.715119463182         1.0000000";
"Ba    S";
"    124.461944187287         1.0000000";
"Ba    S";
"     63.5609952513411        1.0000000";
"Ba    S";
"     32.4597220758638        1.0000000";
"Ba    S";
"     16.5767315800501        1.0000000";
"Ba    S";
"      8.46550778330153       1.0000000";
"Ba    S";
"      4.32321786011102       1.0000000";
"Ba    S";
"      2.20780762884063       1.0000000";
"Ba    S";
"      1.12749685157938       1.0000000";
"Ba    S";
"      0.575797063890465            1.0000000";
"Ba    S";
"      0.294051604951678            1.0000000";
"Ba    S";
"      0.150168091845475            1.0000000";
"Ba    S";
"      7.668876968794858E-002            1.0000000";
"Ba    S";
"      3.916389509898707E-002            1.0000000";
"Ba    S";
"      2.000046011385546E-002            1.0000000";
"Ba    P";
" 103156.238855453            1.0000000";
"Ba    P";
"  52680.4659115022           1.0000000";
"Ba    P";
"  26903.1860742976           1.0000000";
"Ba    P";
"  13739.0854166734           1.0000000";
"Ba    P";
"   7016.36109438300          1.0000000";
"Ba    P";
"   3583.15866840946          1.0000000";
"Ba    P";
"   1829.86962476550          1.0000000";
"Ba    P";
"    934.489134729211         1.0000000";
"Ba    P";
"    477.230689612032         1.0000000";
"Ba    P";
"    243.715119463182         1.0000000";
"Ba    P";
"    124.461944187287         1.0000000";
"Ba    P";
"     63.5609952513412        1.0000000";
"Ba    P";
"     32.4597220758638        1.0000000";
"Ba    P";
"     16.5767315800501        1.0000000";
"Ba    P";
"      8.46550778330153       1.0000000";
"Ba    P";
"      4.32321786011102       1.0000000";
"Ba    P";
"      2.20780762884063       1.0000000";
"Ba    P";
"      1.12749685157938       1.0000000";
"Ba    P";
"      0.575797063890465            1.0000000";
"Ba    P";
"      0.294051604951678            1.0000000";
"Ba    P";
"      0.150168091845475            1.0000000";
"Ba    P";
"      7.668876968794860E-002            1.0000000";
"Ba    D";
"   7016.36109438299          1.0000000";
"Ba    D";
"   3583.15866840946          1.0000000";
"Ba    D";
"   1829.86962476550          1.0000000";
"Ba    D";
"    934.489134729211         1.0000000";
"Ba    D";
"    477.230689612032         1.0000000";
"Ba    D";
"    243.715119463182         1.0000000";
"Ba    D";
"    124.461944187287         1.0000000";
"Ba    D";
"     63.5609952513411        1.0000000";
"Ba    D";
"     32.4597220758638        1.0000000";
"Ba    D";
"     16.5767315800501        1.0000000";
"Ba    D";
"      8.46550778330153       1.0000000";
"Ba    D";
"      4.32321786011102       1.0000000";
"Ba    D";
"      2.20780762884063       1.0000000";
"Ba    D";
"      1.12749685157938       1.0000000";
"Ba    D";
"      0.575797063890465            1.0000000";
"Ba    D";
"      0.294051604951678            1.0000000"].

(** bfit/data/ygbs:6467-6617 *)
Definition ugbs_la : list string := [
"#BASIS SET: (32s,24p,19d)";
"La    S";
" 22297831.7330222            1.0000000";
"La    S";
" 11387194.5850786            1.0000000";
"La    S";
" 5815282.94190191            1.0000000";
"La    S";
" 2969784.65079438            1.0000000";
"La    S";
" 1516627.98873367            1.0000000";
"La    S";
" 774520.959152735            1.0000000";
"La    S";
" 395537.152566831            1.0000000";
"La    S";
" 201995.358823884            1.0000000";
"La    S";
" 103156.238855453            1.0000000";
"La    S";
"  52680.4659115021           1.0000000";
"La    S";
"  26903.1860742975           1.0000000";
"La    S";
"  13739.0854166734           1.0000000";
"La    S";
"   7016.36109438299          1.0000000";
"La    S";
"   3583.15866840945          1.0000000";
"La    S";
"   1829.86962476550          1.0000000";
"La    S";
"    934.489134729211         1.0000000";
"La    S";
"    477.230689612032         1.0000000";
"La    S";
"    243.715119463182         1.0000000";
"La    S";
"    124.461944187287         1.0000000";
"La    S";
"     63.5609952513411        1.0000000";
"La    S";
"     32.4597220758638        1.0000000";
"La    S";
"     16.5767315800501        1.0000000";
"La    S";
"      8.46550778330153       1.0000000";
"La    S";
"      4.32321786011102       1.0000000";
"La    S";
"      2.20780762884063       1.0000000";
"La    S";
"      1.12749685157938       1.0000000";
"La    S";
"      0.575797063890465            1.0000000";
"La    S";
"      0.294051604951678            1.0000000";
"La    S";
"      0.150168091845475            1.0000000";
"La    S";
"      7.668876968794858E-002            1.0000000";
"La    S";
"      3.916389509898707E-002            1.0000000";
"La    S";
"      2.000046011385546E-002            1.0000000";
"La    P";
" 395537.152566831            1.0000000";
"La    P";
" 201995.358823884            1.0000000";
"La    P";
" 103156.238855453            1.0000000";
"La    P";
"  52680.4659115022           1.0000000";
"La    P";
"  26903.1860742976           1.0000000";
"La    P";
"  13739.0854166734           1.0000000";
"La    P";
"   7016.36109438300          1.0000000";
"La    P";
"   3583.15866840946          1.0000000";
"La    P";
"   1829.86962476550          1.0000000";
"La    P";
"    934.489134729211         1.0000000";
"La    P";
"    477.230689612032         1.0000000";
"La    P";
"    243.715119463182         1.0000000";
"La    P";
"    124.461944187287         1.0000000";
"La    P";
"     63.5609952513412        1.0000000";
"La    P";
"     32.4597220758638        1.0000000";
"La    P";
"     16.5767315800501        1.0000000";
"La    P";
"      8.46550778330153       1.0000000";
"La    P";
"      4.32321786011102       1.0000000";
"La    P";
"      2.20780762884063       1.0000000";
"La    P";
"      1.12749685157938       1.0000000";
"La    P";
"      0.575797063890465            1.0000000";
"La    P";
"      0.294051604951678            1.0000000";
"La    P";
"      0.150168091845475            1.0000000";
"La    P";
"      7.668876968794860E-002            1.0000000";
"La    D";
"   7016.36109438299          1.0000000";
"La    D";
"   3583.15866840946          1.0000000";
"La    D";
"   1829.86962476550          1.0000000";
"La    D";
"    934.489134729210         1.0000000";
"La    D";
"    477.230689612032         1.0000000";
"La    D";
"    243.715119463182         1.0000000";
"La    D";
"    124.461944187287         1.0000000";
"La    D";
"     63.5609952513411        1.0000000";
"La    D";
"     32.4597220758638        1.0000000";
"La    D";
"     16.5767315800501        1.0000000";
"La    D";
"      8.46550778330153       1.0000000";
"La    D";
"      4.32321786011102       1.0000000";
"La    D";
"      2.20780762884063       1.0000000";
"La    D";
"      1.12749685157938       1.0000000";
"La    D";
"      0.575797063890464            1.0000000";
"La    D";
"      0.294051604951678            1.0000000";
"La    D";
"      0.150168091845475            1.0000000";
"La    D";
"      7.668876968794858E-002            1.0000000";
"La    D";
"      3.916389509898707E-002            1.0000000"].

(** bfit/data/ygbs:6618-6786 *)
Definition ugbs_hf : list string := [
"#BASIS SET: (32s,22p,18d,12f)";
"Hf    S";
" 43662492.6604555            1.0000000";
"Hf    S";
" 22297831.7330222            1.0000000";
"Hf    S";
" 11387194.5850786            1.0000000";
"Hf    S";
" 5815282.94190191            1.0000000";
"Hf    S";
" 2969784.65079438            1.0000000";
"Hf    S";
" 1516627.98873367            1.0000000";
"Hf    S";
" 774520.959152738            1.0000000";
"Hf    S";
" 395537.152566831            1.0000000";
"Hf    S";
" 201995.358823884            1.0000000";
"Hf    S";
" 103156.238855453            1.0000000";
"Hf    S";
"  52680.4659115021           1.0000000";
"Hf    S";
"  26903.1860742976           1.0000000";
"Hf    S";
"  13739.0854166734           1.0000000";
"Hf    S";
"   7016.36109438299          1.0000000";
"Hf    S";
"   3583.15866840946          1.0000000";
"Hf    S";
"   1829.86962476550          1.0000000";
"Hf    S";
"    934.489134729210         1.0000000";
"Hf    S";
"    477.230689612032         1.0000000";
"Hf    S";
"    243.715119463182         1.0000000";
"Hf    S";
"    124.461944187287         1.0000000";
"Hf    S";
"     63.5609952513411        1.0000000";
"Hf    S";
"     32.4597220758638        1.0000000";
"Hf    S";
"     16.5767315800501        1.0000000";
"Hf    S";
"      8.46550778330153       1.0000000";
"Hf    S";
"      4.32321786011102       1.0000000";
"Hf    S";
"      2.20780762884063       1.0000000";
"Hf    S";
"      1.12749685157938       1.0000000";
"Hf    S";
"      0.575797063890464            1.0000000";
"Hf    S";
"      0.294051604951678            1.0000000";
"Hf    S";
"      0.150168091845475            1.0000000";
"Hf    S";
"      7.668876968794858E-002            1.0000000";
"Hf    S";
"      3.916389509898707E-002            1.0000000";
"Hf    P";
" 201995.358823884            1.0000000";
"Hf    P";
" 103156.238855453            1.0000000";
"Hf    P";
"  52680.4659115021           1.0000000";
"Hf    P";
"  26903.1860742975           1.0000000";
"Hf    P";
"  13739.0854166734           1.0000000";
"Hf    P";
"   7016.36109438299          1.0000000";
"Hf    P";
"   3583.15866840945          1.0000000";
"Hf    P";
"   1829.86962476550          1.0000000";
"Hf    P";
"    934.489134729210         1.0000000";
"Hf    P";
"    477.230689612032         1.0000000";
"Hf    P";
"    243.715119463182         1.0000000";
"Hf    P";
"    124.461944187287         1.0000000";
"Hf    P";
"     63.5609952513411        1.0000000";
"Hf    P";
"     32.4597220758638        1.0000000";
"Hf    P";
"     16.5767315800501        1.0000000";
"Hf    P";
"      8.46550778330153       1.0000000";
"Hf    P";
"      4.32321786011102       1.0000000";
"Hf    P";
"      2.20780762884063       1.0000000";
"Hf    P";
"      1.12749685157938       1.0000000";
"Hf    P";
"      0.575797063890464            1.0000000";
"Hf    P";
"      0.294051604951678            1.0000000";
"Hf    P";
"      0.150168091845475            1.0000000";
"Hf    D";
"   7016.36109438300          1.0000000";
"Hf    D";
"   3583.15866840946          1.0000000";
"Hf    D";
"   1829.86962476550          1.0000000";
"Hf    D";
"    934.489134729211         1.0000000";
"Hf    D";
"    477.230689612032         1.0000000";
"Hf    D";
"    243.715119463182         1.0000000";
"Hf    D";
"    124.461944187287         1.0000000";
"Hf    D";
"     63.5609952513412        1.0000000";
"Hf    D";
"     32.4597220758638        1.0000000";
"Hf    D";
"     16.5767315800501        1.0000000";
"Hf    D";
"      8.46550778330153       1.0000000";
"Hf    D";
"      4.32321786011102       1.0000000";
"Hf    D";
"      2.20780762884063       1.0000000";
"Hf    D";
"      1.12749685157938       1.0000000";
"Hf    D";
"      0.575797063890465            1.0000000";
"Hf    D";
"      0.294051604951678            1.0000000";
"Hf    D";
"      0.150168091845475            1.0000000";
"Hf    D";
"      7.668876968794860E-002            1.0000000";
"Hf    F";
"    477.230689612032         1.0000000";
"Hf    F";
"    243.715119463182         1.0000000";
"Hf    F";
"    124.461944187287         1.0000000";
"Hf    F";
"     63.5609952513411        1.0000000";
"Hf    F";
"     32.4597220758638        1.0000000";
"Hf    F";
"     16.5767315800501        1.0000000";
"Hf    F";
"      8.46550778330153       1.0000000";
"Hf    F";
"      4.32321786011102       1.0000000";
"Hf    F";
"      2.20780762884063       1.0000000";
"Hf    F";
"      1.12749685157938       1.0000000";
"Hf    F";
"      0.575797063890465            1.0000000";
"Hf    F";
"      0.294051604951678            1.0000000"].

(** bfit/data/ygbs:6787-6959 *)
Definition ugbs_ta : list string := [
"#BASIS SET: (31s,23p,19d,13f)";
"Ta    S";
" 22297831.7330222            1.0000000";
"Ta    S";
" 11387194.5850786            1.0000000";
"Ta    S";
" 5815282.94190191            1.0000000";
"Ta    S";
" 2969784.65079438            1.0000000";
"Ta    S";
" 1516627.98873367            1.0000000";
"Ta    S";
" 774520.959152738            1.0000000";
"Ta    S";
" 395537.152566831            1.0000000";
"Ta    S";
" 201995.358823884            1.0000000";
"Ta    S";
" 103156.238855453            1.0000000";
"Ta    S";
"  52680.4659115021           1.0000000";
"Ta    S";
"  26903.1860742976           1.0000000";
"Ta    S";
"  13739.0854166734           1.0000000";
"Ta    S";
"   7016.36109438299          1.0000000";
"Ta    S";
"   3583.15866840946          1.0000000";
"Ta    S";
"   1829.86962476550          1.0000000";
"Ta    S";
"    934.489134729210         1.0000000";
"Ta    S";
"    477.230689612032         1.0000000";
"Ta    S";
"    243.715119463182         1.0000000";
"Ta    S";
"    124.461944187287         1.0000000";
"Ta    S";
"     63.5609952513411        1.0000000";
"Ta    S";
"     32.4597220758638        1.0000000";
"Ta    S";
"     16.5767315800501        1.0000000";
"Ta    S";
"      8.46550778330153       1.0000000";
"Ta    S";
"      4.32321786011102       1.0000000";
"Ta    S";
"      2.20780762884063       1.0000000";
"Ta    S";
"      1.12749685157938       1.0000000";
"Ta    S";
"      0.575797063890464            1.0000000";
"Ta    S";
"      0.294051604951678            1.0000000";
"Ta    S";
"      0.150168091845475            1.0000000";
"Ta    S";
"      7.668876968794858E-002            1.0000000";
"Ta    S";
"      3.916389509898707E-002            1.0000000";
"Ta    P";
" 395537.152566831            1.0000000";
"Ta    P";
" 201995.358823884            1.0000000";
"Ta    P";
" 103156.238855453            1.0000000";
"Ta    P";
"  52680.4659115021           1.0000000";
"Ta    P";
"  26903.1860742975           1.0000000";
"Ta    P";
"  13739.0854166734           1.0000000";
"Ta    P";
"   7016.36109438299          1.0000000";
"Ta    P";
"   3583.15866840945          1.0000000";
"Ta    P";
"   1829.86962476550          1.0000000";
"Ta    P";
"    934.489134729210         1.0000000";
"Ta    P";
"    477.230689612032         1.0000000";
"Ta    P";
"    243.715119463182         1.0000000";
"Ta    P";
"    124.461944187287         1.0000000";
"Ta    P";
"     63.5609952513411        1.0000000";
"Ta    P";
"     32.4597220758638        1.0000000";
"Ta    P";
"     16.5767315800501        1.0000000";
"Ta    P";
"      8.46550778330153       1.0000000";
"Ta    P";
"      4.32321786011102       1.0000000";
"Ta    P";
"      2.20780762884063       1.0000000";
"Ta    P";
"      1.12749685157938       1.0000000";
"Ta    P";
"      0.575797063890464            1.0000000";
"Ta    P";
"      0.294051604951678            1.0000000";
"Ta    P";
"      0.150168091845475            1.0000000";
"Ta    D";
"  13739.0854166734           1.0000000";
"Ta    D";
"   7016.36109438300          1.0000000";
"Ta    D";
"   3583.15866840946          1.0000000";
"Ta    D";
"   1829.86962476550          1.0000000";
"Ta    D";
"    934.489134729211         1.0000000";
"Ta    D";
"    477.230689612032         1.0000000";
"Ta    D";
"    243.715119463182         1.0000000";
"Ta    D";
"    124.461944187287         1.0000000";
"Ta    D";
"     63.5609952513412        1.0000000";
"Ta    D";
"     32.4597220758638        1.0000000";
"Ta    D";
"     16.5767315800501        1.0000000";
"Ta    D";
"      8.46550778330153       1.0000000";
"Ta    D";
"      4.32321786011102       1.0000000";
"Ta    D";
"      2.20780762884063       1.0000000";
"Ta    D";
"      1.12749685157938       1.0000000";
"Ta    D";
"      0.575797063890465            1.0000000";
"Ta    D";
"      0.294051604951678            1.0000000";
"Ta    D";
"      0.150168091845475            1.0000000";
"Ta    D";
"      7.668876968794860E-002            1.0000000";
"Ta    F";
"    934.489134729211         1.0000000";
"Ta    F";
"    477.230689612032         1.0000000";
"Ta    F";
"    243.715119463182         1.0000000";
"Ta    F";
"    124.461944187287         1.0000000";
"Ta    F";
"     63.5609952513411        1.0000000";
"Ta    F";
"     32.4597220758638        1.0000000";
"Ta    F";
"     16.5767315800501        1.0000000";
"Ta    F";
"      8.46550778330153       1.0000000";
"Ta    F";
"      4.32321786011102       1.0000000";
"Ta    F";
"      2.20780762884063       1.0000000";
"Ta    F";
"      1.12749685157938       1.0000000";
"Ta    F";
"      0.575797063890465            1.0000000";
"Ta    F";
"      0.294051604951678            1.0000000"].

(** bfit/data/ygbs:6960-7130 *)
Definition ugbs_w : list string := [
"#BASIS SET: (31s,23p,19d,12f)";
"W    S";
" 22297831.7330222            1.0000000";
"W    S";
" 11387194.5850786            1.0000000";
"W    S";
" 5815282.94190191            1.0000000";
"W    S";
" 2969784.65079438            1.0000000";
"W    S";
" 1516627.98873367            1.0000000";
"W    S";
" 774520.959152738            1.0000000";
"W    S";
" 395537.152566831            1.0000000";
"W    S";
" 201995.358823884            1.0000000";
"W    S";
" 103156.238855453            1.0000000";
"W    S";
"  52680.4659115021           1.0000000";
"W    S";
"  26903.1860742976           1.0000000";
"W    S";
"  13739.0854166734           1.0000000";
"W    S";
"   7016.36109438299          1.0000000";
"W    S";
"   3583.15866840946          1.0000000";
"W    S";
"   1829.86962476550          1.0000000";
"W    S";
"    934.489134729210         1.0000000";
"W    S";
"    477.230689612032         1.0000000";
"W    S";
"    243.715119463182         1.0000000";
"W    S";
"    124.461944187287         1.0000000";
"W    S";
"     63.5609952513411        1.0000000";
"W    S";
"     32.4597220758638        1.0000000";
"W    S";
"     16.5767315800501        1.0000000";
"W    S";
"      8.46550778330153       1.0000000";
"W    S";
"      4.32321786011102       1.0000000";
"W    S";
"      2.20780762884063       1.0000000";
"W    S";
"      1.12749685157938       1.0000000";
"W    S";
"      0.575797063890464            1.0000000";
"W    S";
"      0.294051604951678            1.0000000";
"W    S";
"      0.150168091845475            1.0000000";
"W    S";
"      7.668876968794858E-002            1.0000000";
"W    S";
"      3.916389509898707E-002            1.0000000";
"W    P";
" 395537.152566831            1.0000000";
"W    P";
" 201995.358823884            1.0000000";
"W    P";
" 103156.238855453            1.0000000";
"W    P";
"  52680.4659115021           1.0000000";
"W    P";
"  26903.1860742975           1.0000000";
"W    P";
"  13739.0854166734           1.0000000";
"W    P";
"   7016.36109438299          1.0000000";
"W    P";
"   3583.15866840945          1.0000000";
"W    P";
"   1829.86962476550          1.0000000";
"W    P";
"    934.489134729210         1.0000000";
"W    P";
"    477.230689612032         1.0000000";
"W    P";
"    243.715119463182         1.0000000";
"W    P";
"    124.461944187287         1.0000000";
"W    P";
"     63.5609952513411        1.0000000";
"W    P";
"     32.4597220758638        1.0000000";
"W    P";
"     16.5767315800501        1.0000000";
"W    P";
"      8.46550778330153       1.0000000";
"W    P";
"      4.32321786011102       1.0000000";
"W    P";
"      2.20780762884063       1.0000000";
"W    P";
"      1.12749685157938       1.0000000";
"W    P";
"      0.575797063890464            1.0000000";
"W    P";
"      0.294051604951678            1.0000000";
"W    P";
"      0.150168091845475            1.0000000";
"W    D";
"  13739.0854166734           1.0000000";
"W    D";
"   7016.36109438300          1.0000000";
"W    D";
"   3583.15866840946          1.0000000";
"W    D";
"   1829.86962476550          1.0000000";
"W    D";
"    934.489134729211         1.0000000";
"W    D";
"    477.230689612032         1.0000000";
"W    D";
"    243.715119463182         1.0000000";
"W    D";
"    124.461944187287         1.0000000";
"W    D";
"     63.5609952513412        1.0000000";
"W    D";
"     32.4597220758638        1.0000000";
"W    D";
"     16.5767315800501        1.0000000";
"W    D";
"      8.46550778330153       1.0000000";
"W    D";
"      4.32321786011102       1.0000000";
"W    D";
"      2.20780762884063       1.0000000";
"W    D";
"      1.12749685157938       1.0000000";
"W    D";
"      0.575797063890465            1.0000000";
"W    D";
"      0.294051604951678            1.0000000";
"W    D";
"      0.150168091845475            1.0000000";
"W    D";
"      7.668876968794860E-002            1.0000000";
"W    F";
"    934.489134729210         1.0000000";
"W    F";
"    477.230689612032         1.0000000";
"W    F";
"    243.715119463182         1.0000000";
"W    F";
"    124.461944187287         1.0000000";
"W    F";
"     63.5609952513411        1.0000000";
"W    F";
"     32.4597220758638        1.0000000";
"W    F";
"     16.5767315800501        1.0000000";
"W    F";
"      8.46550778330153       1.0000000";
"W    F";
"      4.32321786011102       1.0000000";
"W    F";
"      2.20780762884063       1.0000000";
"W    F";
"      1.12749685157938       1.0000000";
"W    F";
"      0.575797063890464            1.0000000"].

(** bfit/data/ygbs:7131-7301 *)
Definition ugbs_re : list string := [
"#BASIS SET: (31s,23p,19d,12f)";
"Re    S";
" 22297831.7330222            1.0000000";
"Re    S";
" 11387194.5850786            1.0000000";
"Re    S";
" 5815282.94190191            1.0000000";
"Re    S";
" 2969784.65079438            1.0000000";
"Re    S";
" 1516627.98873367            1.0000000";
"Re    S";
" 774520.959152738            1.0000000";
"Re    S";
" 395537.152566831            1.0000000";
"Re    S";
" 201995.358823884            1.0000000";
"Re    S";
" 103156.238855453            1.0000000";
"Re    S";
"  52680.4659115021           1.0000000";
"Re    S";
"  26903.1860742976           1.0000000";
"Re    S";
"  13739.0854166734           1.0000000";
"Re    S";
"   7016.36109438299          1.0000000";
"Re    S";
"   3583.15866840946          1.0000000";
"Re    S";
"   1829.86962476550          1.0000000";
"Re    S";
"    934.489134729210         1.0000000";
"Re    S";
"    477.230689612032         1.0000000";
"Re    S";
"    243.715119463182         1.0000000";
"Re    S";
"    124.461944187287         1.0000000";
"Re    S";
"     63.5609952513411        1.0000000";
"Re    S";
"     32.4597220758638        1.0000000";
"Re    S";
"     16.5767315800501        1.0000000";
"Re    S";
"      8.46550778330153       1.0000000";
"Re    S";
"      4.32321786011102       1.0000000";
"Re    S";
"      2.20780762884063       1.0000000";
"Re    S";
"      1.12749685157938       1.0000000";
"Re    S";
"      0.575797063890464            1.0000000";
"Re    S";
"      0.294051604951678            1.0000000";
"Re    S";
"      0.150168091845475            1.0000000";
"Re    S";
"      7.668876968794858E-002            1.0000000";
"Re    S";
"      3.916389509898707E-002            1.0000000";
"Re    P";
" 395537.152566831            1.0000000";
"Re    P";
" 201995.358823884            1.0000000";
"Re    P";
" 103156.238855453            1.0000000";
"Re    P";
"  52680.4659115021           1.0000000";
"Re    P";
"  26903.1860742975           1.0000000";
"Re    P";
"  13739.0854166734           1.0000000";
"Re    P";
"   7016.36109438299          1.0000000";
"Re    P";
"   3583.15866840945          1.0000000";
"Re    P";
"   1829.86962476550          1.0000000";
"Re    P";
"    934.489134729210         1.0000000";
"Re    P";
"    477.230689612032         1.0000000";
"Re    P";
"    243.715119463182         1.0000000";
"Re    P";
"    124.461944187287         1.0000000";
"Re    P";
"     63.5609952513411        1.0000000";
"Re    P";
"     32.4597220758638        1.0000000";
"Re    P";
"     16.5767315800501        1.0000000";
"Re    P";
"      8.46550778330153       1.0000000";
"Re    P";
"      4.32321786011102       1.0000000";
"Re    P";
"      2.20780762884063       1.0000000";
"Re    P";
"      1.12749685157938       1.0000000";
"Re    P";
"      0.575797063890464            1.0000000";
"Re    P";
"      0.294051604951678            1.0000000";
"Re    P";
"      0.150168091845475            1.0000000";
"Re    D";
"  13739.0854166734           1.0000000";
"Re    D";
"   7016.36109438300          1.0000000";
"Re    D";
"   3583.15866840946          1.0000000";
"Re    D";
"   1829.86962476550          1.0000000";
"Re    D";
"    934.489134729211         1.0000000";
"Re    D";
"    477.230689612032         1.0000000";
"Re    D";
"    243.715119463182         1.0000000";
"Re    D";
"    124.461944187287         1.0000000";
"Re    D";
"     63.5609952513412        1.0000000";
"Re    D";
"     32.4597220758638        1.0000000";
"Re    D";
"     16.5767315800501        1.0000000";
"Re    D";
"      8.46550778330153       1.0000000";
"Re    D";
"      4.32321786011102       1.0000000";
"Re    D";
"      2.20780762884063       1.0000000";
"Re    D";
"      1.12749685157938       1.0000000";
"Re    D";
"      0.575797063890465            1.0000000";
"Re    D";
"      0.294051604951678            1.0000000";
"Re    D";
"      0.150168091845475            1.0000000";
"Re    D";
"      7.668876968794860E-002            1.0000000";
"Re    F";
"    934.489134729210         1.0000000";
"Re    F";
"    477.230689612032         1.0000000";
"Re    F";
"    243.715119463182         1.0000000";
"Re    F";
"    124.461944187287         1.0000000";
"Re    F";
"     63.5609952513411        1.0000000";
"Re    F";
"     32.4597220758638        1.0000000";
"Re    F";
"     16.5767315800501        1.0000000";
"Re    F";
"      8.46550778330153       1.0000000";
"Re    F";
"      4.32321786011102       1.0000000";
"Re    F";
"      2.20780762884063       1.0000000";
"Re    F";
"      1.12749685157938       1.0000000";
"Re    F";
"      0.575797063890464            1.0000000"].

(** bfit/data/ygbs:7302-7472 *)
Definition ugbs_os : list string := [
"#BASIS SET: (32s,23p,18d,12f)";
"Os    S";
" 22297831.7330222            1.0000000";
"Os    S";
" 11387194.5850786            1.0000000";
"Os    S";
" 5815282.94190191            1.0000000";
"Os    S";
" 2969784.65079438            1.0000000";
"Os    S";
" 1516627.98873367            1.0000000";
"Os    S";
" 774520.959152735            1.0000000";
"Os    S";
" 395537.152566831            1.0000000";
"Os    S";
" 201995.358823884            1.0000000";
"Os    S";
" 103156.238855453            1.0000000";
"Os    S";
"  52680.4659115021           1.0000000";
"Os    S";
"  26903.1860742975           1.0000000";
"Os    S";
"  13739.0854166734           1.0000000";
"Os    S";
"   7016.36109438299          1.0000000";
"Os    S";
"   3583.15866840945          1.0000000";
"Os    S";
"   1829.86962476550          1.0000000";
"Os    S";
"    934.489134729211         1.0000000";
"Os    S";
"    477.230689612032         1.0000000";
"Os    S";
"    243.715119463182         1.0000000";
"Os    S";
"    124.461944187287         1.0000000";
"Os    S";
"     63.5609952513411        1.0000000";
"Os    S";
"     32.4597220758638        1.0000000";
"Os    S";
"     16.5767315800501        1.0000000";
"Os    S";
"      8.46550778330153       1.0000000";
"Os    S";
"      4.32321786011102       1.0000000";
"Os    S";
"      2.20780762884063       1.0000000";
"Os    S";
"      1.12749685157938       1.0000000";
"Os    S";
"      0.575797063890465            1.0000000";
"Os    S";
"      0.294051604951678            1.0000000";
"Os    S";
"      0.150168091845475            1.0000000";
"Os    S";
"      7.668876968794858E-002            1.0000000";
"Os    S";
"      3.916389509898707E-002            1.0000000";
"Os    S";
"      2.000046011385546E-002            1.0000000";
"Os    P";
" 395537.152566831            1.0000000";
"Os    P";
" 201995.358823884            1.0000000";
"Os    P";
" 103156.238855453            1.0000000";
"Os    P";
"  52680.4659115021           1.0000000";
"Os    P";
"  26903.1860742975           1.0000000";
"Os    P";
"  13739.0854166734           1.0000000";
"Os    P";
"   7016.36109438299          1.0000000";
"Os    P";
"   3583.15866840945          1.0000000";
"Os    P";
"   1829.86962476550          1.0000000";
"Os    P";
"    934.489134729210         1.0000000";
"Os    P";
"    477.230689612032         1.0000000";
"Os    P";
"    243.715119463182         1.0000000";
"Os    P";
"    124.461944187287         1.0000000";
"Os    P";
"     63.5609952513411        1.0000000";
"Os    P";
"     32.4597220758638        1.0000000";
"Os    P";
"     16.5767315800501        1.0000000";
"Os    P";
"      8.46550778330153       1.0000000";
"Os    P";
"      4.32321786011102       1.0000000";
"Os    P";
"      2.20780762884063       1.0000000";
"Os    P";
"      1.12749685157938       1.0000000";
"Os    P";
"      0.575797063890464            1.0000000";
"Os    P";
"      0.294051604951678            1.0000000";
"Os    P";
"      0.150168091845475            1.0000000";
"Os    D";
"   7016.36109438300          1.0000000";
"Os    D";
"   3583.15866840946          1.0000000";
"Os    D";
"   1829.86962476550          1.0000000";
"Os    D";
"    934.489134729211         1.0000000";
"Os    D";
"    477.230689612032         1.0000000";
"Os    D";
"    243.715119463182         1.0000000";
"Os    D";
"    124.461944187287         1.0000000";
"Os    D";
"     63.5609952513412        1.0000000";
"Os    D";
"     32.4597220758638        1.0000000";
"Os    D";
"     16.5767315800501        1.0000000";
"Os    D";
"      8.46550778330153       1.0000000";
"Os    D";
"      4.32321786011102       1.0000000";
"Os    D";
"      2.20780762884063       1.0000000";
"Os    D";
"      1.12749685157938       1.0000000";
"Os    D";
"      0.575797063890465            1.0000000";
"Os    D";
"      0.294051604951678            1.0000000";
"Os    D";
"      0.150168091845475            1.0000000";
"Os    D";
"      7.668876968794860E-002            1.0000000";
"Os    F";
"    934.489134729210         1.0000000";
"Os    F";
"    477.230689612032         1.0000000";
"Os    F";
"    243.715119463182         1.0000000";
"Os    F";
"    124.461944187287         1.0000000";
"Os    F";
"     63.5609952513411        1.0000000";
"Os    F";
"     32.4597220758638        1.0000000";
"Os    F";
"     16.5767315800501        1.0000000";
"Os    F";
"      8.46550778330153       1.0000000";
"Os    F";
"      4.32321786011102       1.0000000";
"Os    F";
"      2.20780762884063       1.0000000";
"Os    F";
"      1.12749685157938       1.0000000";
"Os    F";
"      0.575797063890464            1.0000000"].

(** bfit/data/ygbs:7473-7643 *)
Definition ugbs_ir : list string := [
"#BASIS SET: (32s,22p,18d,13f)";
"Ir    S";
" 43662492.6604555            1.0000000";
"Ir    S";
" 22297831.7330222            1.0000000";
"Ir    S";
" 11387194.5850786            1.0000000";
"Ir    S";
" 5815282.94190191            1.0000000";
"Ir    S";
" 2969784.65079438            1.0000000";
"Ir    S";
" 1516627.98873367            1.0000000";
"Ir    S";
" 774520.959152738            1.0000000";
"Ir    S";
" 395537.152566831            1.0000000";
"Ir    S";
" 201995.358823884            1.0000000";
"Ir    S";
" 103156.238855453            1.0000000";
"Ir    S";
"  52680.4659115021           1.0000000";
"Ir    S";
"  26903.1860742976           1.0000000";
"Ir    S";
"  13739.0854166734           1.0000000";
"Ir    S";
"   7016.36109438299          1.0000000";
"Ir    S";
"   3583.15866840946          1.0000000";
"Ir    S";
"   1829.86962476550          1.0000000";
"Ir    S";
"    934.489134729210         1.0000000";
"Ir    S";
"    477.230689612032         1.0000000";
"Ir    S";
"    243.715119463182         1.0000000";
"Ir    S";
"    124.461944187287         1.0000000";
"Ir    S";
"     63.5609952513411        1.0000000";
"Ir    S";
"     32.4597220758638        1.0000000";
"Ir    S";
"     16.5767315800501        1.0000000";
"Ir    S";
"      8.46550778330153       1.0000000";
"Ir    S";
"      4.32321786011102       1.0000000";
"Ir    S";
"      2.20780762884063       1.0000000";
"Ir    S";
"      1.12749685157938       1.0000000";
"Ir    S";
"      0.575797063890464            1.0000000";
"Ir    S";
"      0.294051604951678            1.0000000";
"Ir    S";
"      0.150168091845475            1.0000000";
"Ir    S";
"      7.668876968794858E-002            1.0000000";
"Ir    S";
"      3.916389509898707E-002            1.0000000";
"Ir    P";
" 103156.238855453            1.0000000";
"Ir    P";
"  52680.4659115022           1.0000000";
"Ir    P";
"  26903.1860742976           1.0000000";
"Ir    P";
"  13739.0854166734           1.0000000";
"Ir    P";
"   7016.36109438300          1.0000000";
"Ir    P";
"   3583.15866840946          1.0000000";
"Ir    P";
"   1829.86962476550          1.0000000";
"Ir    P";
"    934.489134729211         1.0000000";
"Ir    P";
"    477.230689612032         1.0000000";
"Ir    P";
"    243.715119463182         1.0000000";
"Ir    P";
"    124.461944187287         1.0000000";
"Ir    P";
"     63.5609952513412        1.0000000";
"Ir    P";
"     32.4597220758638        1.0000000";
"Ir    P";
"     16.5767315800501        1.0000000";
"Ir    P";
"      8.46550778330153       1.0000000";
"Ir    P";
"      4.32321786011102       1.0000000";
"Ir    P";
"      2.20780762884063       1.0000000";
"Ir    P";
"      1.12749685157938       1.0000000";
"Ir    P";
"      0.575797063890465            1.0000000";
"Ir    P";
"      0.294051604951678            1.0000000";
"Ir    P";
"      0.150168091845475            1.0000000";
"Ir    P";
"      7.668876968794860E-002            1.0000000";
"Ir    D";
"  13739.0854166734           1.0000000";
"Ir    D";
"   7016.36109438299          1.0000000";
"Ir    D";
"   3583.15866840945          1.0000000";
"Ir    D";
"   1829.86962476550          1.0000000";
"Ir    D";
"    934.489134729210         1.0000000";
"Ir    D";
"    477.230689612032         1.0000000";
"Ir    D";
"    243.715119463182         1.0000000";
"Ir    D";
"    124.461944187287         1.0000000";
"Ir    D";
"     63.5609952513411        1.0000000";
"Ir    D";
"     32.4597220758638        1.0000000";
"Ir    D";
"     16.5767315800501        1.0000000";
"Ir    D";
"      8.46550778330153       1.0000000";
"Ir    D";
"      4.32321786011102       1.0000000";
"Ir    D";
"      2.20780762884063       1.0000000";
"Ir    D";
"      1.12749685157938       1.0000000";
"Ir    D";
"      0.575797063890464            1.0000000";
"Ir    D";
"      0.294051604951678            1.0000000";
"Ir    D";
"      0.150168091845475            1.0000000";
"Ir    F";
"   1829.86962476550          1.0000000";
"Ir    F";
"    934.489134729210         1.0000000";
"Ir    F";
"    477.230689612032         1.0000000";
"Ir    F";
"    243.715119463182         1.0000000";
"Ir    F";
"    124.461944187287         1.0000000";
"Ir    F";
"     63.5609952513411        1.0000000";
"Ir    F";
"     32.4597220758638        1.0000000";
"Ir    F";
"     16.5767315800501        1.0000000";
"Ir    F";
"      8.46550778330153       1.0000000";
"Ir    F";
"      4.32321786011102       1.0000000";
"Ir    F";
"      2.20780762884063       1.0000000";
"Ir    F";
"      1.12749685157938       1.0000000";
"Ir    F";
"      0.575797063890464            1.0000000"].

(** bfit/data/ygbs:7644-7816 *)
Definition ugbs_pt : list string := [
"#BASIS SET: (32s,23p,18d,13f)";
"Pt    S";
" 43662492.6604555            1.0000000";
"Pt    S";
" 22297831.7330222            1.0000000";
"Pt    S";
" 11387194.5850786            1.0000000";
"Pt    S";
" 5815282.94190191            1.0000000";
"Pt    S";
" 2969784.65079438            1.0000000";
"Pt    S";
" 1516627.98873367            1.0000000";
"Pt    S";
" 774520.959152738            1.0000000";
"Pt    S";
" 395537.152566831            1.0000000";
"Pt    S";
" 201995.358823884            1.0000000";
"Pt    S";
" 103156.238855453            1.0000000";
"Pt    S";
"  52680.4659115021           1.0000000";
"Pt    S";
"  26903.1860742976           1.0000000";
"Pt    S";
"  13739.0854166734           1.0000000";
"Pt    S";
"   7016.36109438299          1.0000000";
"Pt    S";
"   3583.15866840946          1.0000000";
"Pt    S";
"   1829.86962476550          1.0000000";
"Pt    S";
"    934.489134729210         1.0000000";
"Pt    S";
"    477.230689612032         1.0000000";
"Pt    S";
"    243.715119463182         1.0000000";
"Pt    S";
"    124.461944187287         1.0000000";
"Pt    S";
"     63.5609952513411        1.0000000";
"Pt    S";
"     32.4597220758638        1.0000000";
"Pt    S";
"     16.5767315800501        1.0000000";
"Pt    S";
"      8.46550778330153       1.0000000";
"Pt    S";
"      4.32321786011102       1.0000000";
"Pt    S";
"      2.20780762884063       1.0000000";
"Pt    S";
"      1.12749685157938       1.0000000";
"Pt    S";
"      0.575797063890464            1.0000000";
"Pt    S";
"      0.294051604951678            1.0000000";
"Pt    S";
"      0.150168091845475            1.0000000";
"Pt    S";
"      7.668876968794858E-002            1.0000000";
"Pt    S";
"      3.916389509898707E-002            1.0000000";
"Pt    P";
" 395537.152566831            1.0000000";
"Pt    P";
" 201995.358823884            1.0000000";
"Pt    P";
" 103156.238855453            1.0000000";
"Pt    P";
"  52680.4659115021           1.0000000";
"Pt    P";
"  26903.1860742975           1.0000000";
"Pt    P";
"  13739.0854166734           1.0000000";
"Pt    P";
"   7016.36109438299          1.0000000";
"Pt    P";
"   3583.15866840945          1.0000000";
"Pt    P";
"   1829.86962476550          1.0000000";
"Pt    P";
"    934.489134729210         1.0000000";
"Pt    P";
"    477.230689612032         1.0000000";
"Pt    P";
"    243.715119463182         1.0000000";
"Pt    P";
"    124.461944187287         1.0000000";
"Pt    P";
"     63.5609952513411        1.0000000";
"Pt    P";
"     32.4597220758638        1.0000000";
"Pt    P";
"     16.5767315800501        1.0000000";
"Pt    P";
"      8.46550778330153       1.0000000";
"Pt    P";
"      4.32321786011102       1.0000000";
"Pt    P";
"      2.20780762884063       1.0000000";
"Pt    P";
"      1.12749685157938       1.0000000";
"Pt    P";
"      0.575797063890464            1.0000000";
"Pt    P";
"      0.294051604951678            1.0000000";
"Pt    P";
"      0.150168091845475            1.0000000";
"Pt    D";
"   7016.36109438300          1.0000000";
"Pt    D";
"   3583.15866840946          1.0000000";
"Pt    D";
"   1829.86962476550          1.0000000";
"Pt    D";
"    934.489134729211         1.0000000";
"Pt    D";
"    477.230689612032         1.0000000";
"Pt    D";
"    243.715119463182         1.0000000";
"Pt    D";
"    124.461944187287         1.0000000";
"Pt    D";
"     63.5609952513412        1.0000000";
"Pt    D";
"     32.4597220758638        1.0000000";
"Pt    D";
"     16.5767315800501        1.0000000";
"Pt    D";
"      8.46550778330153       1.0000000";
"Pt    D";
"      4.32321786011102       1.0000000";
"Pt    D";
"      2.20780762884063       1.0000000";
"Pt    D";
"      1.12749685157938       1.0000000";
"Pt    D";
"      0.575797063890465            1.0000000";
"Pt    D";
"      0.294051604951678            1.0000000";
"Pt    D";
"      0.150168091845475            1.0000000";
"Pt    D";
"      7.668876968794860E-002            1.0000000";
"Pt    F";
"   1829.86962476550          1.0000000";
"Pt    F";
"    934.489134729210         1.0000000";
"Pt    F";
"    477.230689612032         1.0000000";
"Pt    F";
"    243.715119463182         1.0000000";
"Pt    F";
"    124.461944187287         1.0000000";
"Pt    F";
"     63.5609952513411        1.0000000";
"Pt    F";
"     32.4597220758638        1.0000000";
"Pt    F";
"     16.5767315800501        1.0000000";
"Pt    F";
"      8.46550778330153       1.0000000";
"Pt    F";
"      4.32321786011102       1.0000000";
"Pt    F";
"      2.20780762884063       1.0000000";
"Pt    F";
"      1.12749685157938       1.0000000";
"Pt    F";
"      0.575797063890464            1.0000000"].

(** bfit/data/ygbs:7817-7985 *)
Definition ugbs_au : list string := [
"#BASIS SET: (32s,22p,18d,12f)";
"Au    S";
" 43662492.6604555            1.0000000";
"Au    S";
" 22297831.7330222            1.0000000";
"Au    S";
" 11387194.5850786            1.0000000";
"Au    S";
" 5815282.94190191            1.0000000";
"Au    S";
" 2969784.65079438            1.0000000";
"Au    S";
" 1516627.98873367            1.0000000";
"Au    S";
" 774520.959152738            1.0000000";
"Au    S";
" 395537.152566831            1.0000000";
"Au    S";
" 201995.358823884            1.0000000";
"Au    S";
" 103156.238855453            1.0000000";
"Au    S";
"  52680.4659115021           1.0000000";
"Au    S";
"  26903.1860742976           1.0000000";
"Au    S";
"  13739.0854166734           1.0000000";
"Au    S";
"   7016.36109438299          1.0000000";
"Au    S";
"   3583.15866840946          1.0000000";
"Au    S";
"   1829.86962476550          1.0000000";
"Au    S";
"    934.489134729210         1.0000000";
"Au    S";
"    477.230689612032         1.0000000";
"Au    S";
"    243.715119463182         1.0000000";
"Au    S";
"    124.461944187287         1.0000000";
"Au    S";
"     63.5609952513411        1.0000000";
"Au    S";
"     32.4597220758638        1.0000000";
"Au    S";
"     16.5767315800501        1.0000000";
"Au    S";
"      8.46550778330153       1.0000000";
"Au    S";
"      4.32321786011102       1.0000000";
"Au    S";
"      2.20780762884063       1.0000000";
"Au    S";
"      1.12749685157938       1.0000000";
"Au    S";
"      0.575797063890464            1.0000000";
"Au    S";
"      0.294051604951678            1.0000000";
"Au    S";
"      0.150168091845475            1.0000000";
"Au    S";
"      7.668876968794858E-002            1.0000000";
"Au    S";
"      3.916389509898707E-002            1.0000000";
"Au    P";
" 201995.358823884            1.0000000";
"Au    P";
" 103156.238855453            1.0000000";
"Au    P";
"  52680.4659115021           1.0000000";
"Au    P";
"  26903.1860742975           1.0000000";
"Au    P";
"  13739.0854166734           1.0000000";
"Au    P";
"   7016.36109438299          1.0000000";
"Au    P";
"   3583.15866840945          1.0000000";
"Au    P";
"   1829.86962476550          1.0000000";
"Au    P";
"    934.489134729210         1.0000000";
"Au    P";
"    477.230689612032         1.0000000";
"Au    P";
"    243.715119463182         1.0000000";
"Au    P";
"    124.461944187287         1.0000000";
"Au    P";
"     63.5609952513411        1.0000000";
"Au    P";
"     32.4597220758638        1.0000000";
"Au    P";
"     16.5767315800501        1.0000000";
"Au    P";
"      8.46550778330153       1.0000000";
"Au    P";
"      4.32321786011102       1.0000000";
"Au    P";
"      2.20780762884063       1.0000000";
"Au    P";
"      1.12749685157938       1.0000000";
"Au    P";
"      0.575797063890464            1.0000000";
"Au    P";
"      0.294051604951678            1.0000000";
"Au    P";
"      0.150168091845475            1.0000000";
"Au    D";
"  13739.0854166734           1.0000000";
"Au    D";
"   7016.36109438299          1.0000000";
"Au    D";
"   3583.15866840945          1.0000000";
"Au    D";
"   1829.86962476550          1.0000000";
"Au    D";
"    934.489134729210         1.0000000";
"Au    D";
"    477.230689612032         1.0000000";
"Au    D";
"    243.715119463182         1.0000000";
"Au    D";
"    124.461944187287         1.0000000";
"Au    D";
"     63.5609952513411        1.0000000";
"Au    D";
"     32.4597220758638        1.0000000";
"Au    D";
"     16.5767315800501        1.0000000";
"Au    D";
"      8.46550778330153       1.0000000";
"Au    D";
"      4.32321786011102       1.0000000";
"Au    D";
"      2.20780762884063       1.0000000";
"Au    D";
"      1.12749685157938       1.0000000";
"Au    D";
"      0.575797063890464            1.0000000";
"Au    D";
"      0.294051604951678            1.0000000";
"Au    D";
"      0.150168091845475            1.0000000";
"Au    F";
"    934.489134729210         1.0000000";
"Au    F";
"    477.230689612032         1.0000000";
"Au    F";
"    243.715119463182         1.0000000";
"Au    F";
"    124.461944187287         1.0000000";
"Au    F";
"     63.5609952513411        1.0000000";
"Au    F";
"     32.4597220758638        1.0000000";
"Au    F";
"     16.5767315800501        1.0000000";
"Au    F";
"      8.46550778330153       1.0000000";
"Au    F";
"      4.32321786011102       1.0000000";
"Au    F";
"      2.20780762884063       1.0000000";
"Au    F";
"      1.12749685157938       1.0000000";
"Au    F";
"      0.575797063890464            1.0000000"].

(** bfit/data/ygbs:7986-8156 *)
Definition ugbs_hg : list string := [
"#BASIS SET: (32s,23p,17d,13f)";
"Hg    S";
" 43662492.6604555            1.0000000";
"Hg    S";
" 22297831.7330222            1.0000000";
"Hg    S";
" 11387194.5850786            1.0000000";
"Hg    S";
" 5815282.94190191            1.0000000";
"Hg    S";
" 2969784.65079438            1.0000000";
"Hg    S";
" 1516627.98873367            1.0000000";
"Hg    S";
" 774520.959152738            1.0000000";
"Hg    S";
" 395537.152566831            1.0000000";
"Hg    S";
" 201995.358823884            1.0000000";
"Hg    S";
" 103156.238855453            1.0000000";
"Hg    S";
"  52680.4659115021           1.0000000";
"Hg    S";
"  26903.1860742976           1.0000000";
"Hg    S";
"  13739.0854166734           1.0000000";
"Hg    S";
"   7016.36109438299          1.0000000";
"Hg    S";
"   3583.15866840946          1.0000000";
"Hg    S";
"   1829.86962476550          1.0000000";
"Hg    S";
"    934.489134729210         1.0000000";
"Hg    S";
"    477.230689612032         1.0000000";
"Hg    S";
"    243.715119463182         1.0000000";
"Hg    S";
"    124.461944187287         1.0000000";
"Hg    S";
"     63.5609952513411        1.0000000";
"Hg    S";
"     32.4597220758638        1.0000000";
"Hg    S";
"     16.5767315800501        1.0000000";
"Hg    S";
"      8.46550778330153       1.0000000";
"Hg    S";
"      4.32321786011102       1.0000000";
"Hg    S";
"      2.20780762884063       1.0000000";
"Hg    S";
"      1.12749685157938       1.0000000";
"Hg    S";
"      0.575797063890464            1.0000000";
"Hg    S";
"      0.294051604951678            1.0000000";
"Hg    S";
"      0.150168091845475            1.0000000";
"Hg    S";
"      7.668876968794858E-002            1.0000000";
"Hg    S";
"      3.916389509898707E-002            1.0000000";
"Hg    P";
" 395537.152566831            1.0000000";
"Hg    P";
" 201995.358823884            1.0000000";
"Hg    P";
" 103156.238855453            1.0000000";
"Hg    P";
"  52680.4659115021           1.0000000";
"Hg    P";
"  26903.1860742975           1.0000000";
"Hg    P";
"  13739.0854166734           1.0000000";
"Hg    P";
"   7016.36109438299          1.0000000";
"Hg    P";
"   3583.15866840945          1.0000000";
"Hg    P";
"   1829.86962476550          1.0000000";
"Hg    P";
"    934.489134729210         1.0000000";
"Hg    P";
"    477.230689612032         1.0000000";
"Hg    P";
"    243.715119463182         1.0000000";
"Hg    P";
"    124.461944187287         1.0000000";
"Hg    P";
"     63.5609952513411        1.0000000";
"Hg    P";
"     32.4597220758638        1.0000000";
"Hg    P";
"     16.5767315800501        1.0000000";
"Hg    P";
"      8.46550778330153       1.0000000";
"Hg    P";
"      4.32321786011102       1.0000000";
"Hg    P";
"      2.20780762884063       1.0000000";
"Hg    P";
"      1.12749685157938       1.0000000";
"Hg    P";
"      0.575797063890464            1.0000000";
"Hg    P";
"      0.294051604951678            1.0000000";
"Hg    P";
"      0.150168091845475            1.0000000";
"Hg    D";
"   7016.36109438299          1.0000000";
"Hg    D";
"   3583.15866840945          1.0000000";
"Hg    D";
"   1829.86962476550          1.0000000";
"Hg    D";
"    934.489134729210         1.0000000";
"Hg    D";
"    477.230689612032         1.0000000";
"Hg    D";
"    243.715119463182         1.0000000";
"Hg    D";
"    124.461944187287         1.0000000";
"Hg    D";
"     63.5609952513411        1.0000000";
"Hg    D";
"     32.4597220758638        1.0000000";
"Hg    D";
"     16.5767315800501        1.0000000";
"Hg    D";
"      8.46550778330153       1.0000000";
"Hg    D";
"      4.32321786011102       1.0000000";
"Hg    D";
"      2.20780762884063       1.0000000";
"Hg    D";
"      1.12749685157938       1.0000000";
"Hg    D";
"      0.575797063890464            1.0000000";
"Hg    D";
"      0.294051604951678            1.0000000";
"Hg    D";
"      0.150168091845475            1.0000000";
"Hg    F";
"   1829.86962476550          1.0000000";
"Hg    F";
"    934.489134729210         1.0000000";
"Hg    F";
"    477.230689612032         1.0000000";
"Hg    F";
"    243.715119463182         1.0000000";
"Hg    F";
"    124.461944187287         1.0000000";
"Hg    F";
"     63.5609952513411        1.0000000";
"Hg    F";
"     32.4597220758638        1.0000000";
"Hg    F";
"     16.5767315800501        1.0000000";
"Hg    F";
"      8.46550778330153       1.0000000";
"Hg    F";
"      4.32321786011102       1.0000000";
"Hg    F";
"      2.20780762884063       1.0000000";
"Hg    F";
"      1.12749685157938       1.0000000";
"Hg    F";
"      0.575797063890464            1.0000000"].

(** bfit/data/ygbs:8157-8329 *)
Definition ugbs_tl : list string := [
"#BASIS SET: (32s,23p,18d,13f)";
"Tl    S";
" 43662492.6604555            1.0000000";
"Tl    S";
" 22297831.7330222            1.0000000";
"Tl    S";
" 11387194.5850786            1.0000000";
"Tl    S";
" 5815282.94190191            1.0000000";
"Tl    S";
" 2969784.65079438            1.0000000";
"Tl    S";
" 1516627.98873367            1.0000000";
"Tl    S";
" 774520.959152738            1.0000000";
"Tl    S";
" 395537.152566831            1.0000000";
"Tl    S";
" 201995.358823884            1.0000000";
"Tl    S";
" 103156.238855453            1.0000000";
"Tl    S";
"  52680.4659115021           1.0000000";
"Tl    S";
"  26903.1860742976           1.0000000";
"Tl    S";
"  13739.0854166734           1.0000000";
"Tl    S";
"   7016.36109438299          1.0000000";
"Tl    S";
"   3583.15866840946          1.0000000";
"Tl    S";
"   1829.86962476550          1.0000000";
"Tl    S";
"    934.489134729210         1.0000000";
"Tl    S";
"    477.230689612032         1.0000000";
"Tl    S";
"    243.715119463182         1.0000000";
"Tl    S";
"    124.461944187287         1.0000000";
"Tl    S";
"     63.5609952513411        1.0000000";
"Tl    S";
"     32.4597220758638        1.0000000";
"Tl    S";
"     16.5767315800501        1.0000000";
"Tl    S";
"      8.46550778330153       1.0000000";
"Tl    S";
"      4.32321786011102       1.0000000";
"Tl    S";
"      2.20780762884063       1.0000000";
"Tl    S";
"      1.12749685157938       1.0000000";
"Tl    S";
"      0.575797063890464            1.0000000";
"Tl    S";
"      0.294051604951678            1.0000000";
"Tl    S";
"      0.150168091845475            1.0000000";
"Tl    S";
"      7.668876968794858E-002            1.0000000";
"Tl    S";
"      3.916389509898707E-002            1.0000000";
"Tl    P";
" 103156.238855453            1.0000000";
"Tl    P";
"  52680.4659115021           1.0000000";
"Tl    P";
"  26903.1860742976           1.0000000";
"Tl    P";
"  13739.0854166734           1.0000000";
"Tl    P";
"   7016.36109438299          1.0000000";
"Tl    P";
"   3583.15866840946          1.0000000";
"Tl    P";
"   1829.86962476550          1.0000000";
"Tl    P";
"    934.489134729210         1.0000000";
"Tl    P";
"    477.230689612032         1.0000000";
"Tl    P";
"    243.715119463182         1.0000000";
"Tl    P";
"    124.461944187287         1.0000000";
"Tl    P";
"     63.5609952513411        1.0000000";
"Tl    P";
"     32.4597220758638        1.0000000";
"Tl    P";
"     16.5767315800501        1.0000000";
"Tl    P";
"      8.46550778330153       1.0000000";
"Tl    P";
"      4.32321786011102       1.0000000";
"Tl    P";
"      2.20780762884063       1.0000000";
"Tl    P";
"      1.12749685157938       1.0000000";
"Tl    P";
"      0.575797063890464            1.0000000";
"Tl    P";
"      0.294051604951678            1.0000000";
"Tl    P";
"      0.150168091845475            1.0000000";
"Tl    P";
"      7.668876968794858E-002            1.0000000";
"Tl    P";
"      3.916389509898707E-002            1.0000000";
"Tl    D";
"  13739.0854166734           1.0000000";
"Tl    D";
"   7016.36109438299          1.0000000";
"Tl    D";
"   3583.15866840945          1.0000000";
"Tl    D";
"   1829.86962476550          1.0000000";
"Tl    D";
"    934.489134729210         1.0000000";
"Tl    D";
"    477.230689612032         1.0000000";
"Tl    D";
"    243.715119463182         1.0000000";
"Tl    D";
"    124.461944187287         1.0000000";
"Tl    D";
"     63.5609952513411        1.0000000";
"Tl    D";
"     32.4597220758638        1.0000000";
"Tl    D";
"     16.5767315800501        1.0000000";
"Tl    D";
"      8.46550778330153       1.0000000";
"Tl    D";
"      4.32321786011102       1.0000000";
"Tl    D";
"      2.20780762884063       1.0000000";
"Tl    D";
"      1.12749685157938       1.0000000";
"Tl    D";
"      0.575797063890464            1.0000000";
"Tl    D";
"      0.294051604951678            1.0000000";
"Tl    D";
"      0.150168091845475            1.0000000";
"Tl    F";
"   1829.86962476550          1.0000000";
"Tl    F";
"    934.489134729210         1.0000000";
"Tl    F";
"    477.230689612032         1.0000000";
"Tl    F";
"    243.715119463182         1.0000000";
"Tl    F";
"    124.461944187287         1.0000000";
"Tl    F";
"     63.5609952513411        1.0000000";
"Tl    F";
"     32.4597220758638        1.0000000";
"Tl    F";
"     16.5767315800501        1.0000000";
"Tl    F";
"      8.46550778330153       1.0000000";
"Tl    F";
"      4.32321786011102       1.0000000";
"Tl    F";
"      2.20780762884063       1.0000000";
"Tl    F";
"      1.12749685157938       1.0000000";
"Tl    F";
"      0.575797063890464            1.0000000"].

(** bfit/data/ygbs:8330-8500 *)
Definition ugbs_pb : list string := [
"#BASIS SET: (32s,23p,17d,13f)";
"Pb    S";
" 43662492.6604555            1.0000000";
"Pb    S";
" 22297831.7330222            1.0000000";
"Pb    S";
" 11387194.5850786            1.0000000";
"Pb    S";
" 5815282.94190191            1.0000000";
"Pb    S";
" 2969784.65079438            1.0000000";
"Pb    S";
" 1516627.98873367            1.0000000";
"Pb    S";
" 774520.959152738            1.0000000";
"Pb    S";
" 395537.152566831            1.0000000";
"Pb    S";
" 201995.358823884            1.0000000";
"Pb    S";
" 103156.238855453            1.0000000";
"Pb    S";
"  52680.4659115021           1.0000000";
"Pb    S";
"  26903.1860742976           1.0000000";
"Pb    S";
"  13739.0854166734           1.0000000";
"Pb    S";
"   7016.36109438299          1.0000000";
"Pb    S";
"   3583.15866840946          1.0000000";
"Pb    S";
"   1829.86962476550          1.0000000";
"Pb    S";
"    934.489134729210         1.0000000";
"Pb    S";
"    477.230689612032         1.0000000";
"Pb    S";
"    243.715119463182         1.0000000";
"Pb    S";
"    124.461944187287         1.0000000";
"Pb    S";
"     63.5609952513411        1.0000000";
"Pb    S";
"     32.4597220758638        1.0000000";
"Pb    S";
"     16.5767315800501        1.0000000";
"Pb    S";
"      8.46550778330153       1.0000000";
"Pb    S";
"      4.32321786011102       1.0000000";
"Pb    S";
"      2.20780762884063       1.0000000";
"Pb    S";
"      1.12749685157938       1.0000000";
"Pb    S";
"      0.575797063890464            1.0000000";
"Pb    S";
"      0.294051604951678            1.0000000";
"Pb    S";
"      0.150168091845475            1.0000000";
"Pb    S";
"      7.668876968794858E-002            1.0000000";
"Pb    S";
"      3.916389509898707E-002            1.0000000";
"Pb    P";
" 103156.238855453            1.0000000";
"Pb    P";
"  52680.4659115021           1.0000000";
"Pb    P";
"  26903.1860742976           1.0000000";
"Pb    P";
"  13739.0854166734           1.0000000";
"Pb    P";
"   7016.36109438299          1.0000000";
"Pb    P";
"   3583.15866840946          1.0000000";
"Pb    P";
"   1829.86962476550          1.0000000";
"Pb    P";
"    934.489134729210         1.0000000";
"Pb    P";
"    477.230689612032         1.0000000";
"Pb    P";
"    243.715119463182         1.0000000";
"Pb    P";
"    124.461944187287         1.0000000";
"Pb    P";
"     63.5609952513411        1.0000000";
"Pb    P";
"     32.4597220758638        1.0000000";
"Pb    P";
"     16.5767315800501        1.0000000";
"Pb    P";
"      8.46550778330153       1.0000000";
"Pb    P";
"      4.32321786011102       1.0000000";
"Pb    P";
"      2.20780762884063       1.0000000";
"Pb    P";
"      1.12749685157938       1.0000000";
"Pb    P";
"      0.575797063890464            1.0000000";
"Pb    P";
"      0.294051604951678            1.0000000";
"Pb    P";
"      0.150168091845475            1.0000000";
"Pb    P";
"      7.668876968794858E-002            1.0000000";
"Pb    P";
"      3.916389509898707E-002            1.0000000";
"Pb    D";
"   7016.36109438299          1.0000000";
"Pb    D";
"   3583.15866840945          1.0000000";
"Pb    D";
"   1829.86962476550          1.0000000";
"Pb    D";
"    934.489134729210         1.0000000";
"Pb    D";
"    477.230689612032         1.0000000";
"Pb    D";
"    243.715119463182         1.0000000";
"Pb    D";
"    124.461944187287         1.0000000";
"Pb    D";
"     63.5609952513411        1.0000000";
"Pb    D";
"     32.4597220758638        1.0000000";
"Pb    D";
"     16.5767315800501        1.0000000";
"Pb    D";
"      8.46550778330153       1.0000000";
"Pb    D";
"      4.32321786011102       1.0000000";
"Pb    D";
"      2.20780762884063       1.0000000";
"Pb    D";
"      1.12749685157938       1.0000000";
"Pb    D";
"      0.575797063890464            1.0000000";
"Pb    D";
"      0.294051604951678            1.0000000";
"Pb    D";
"      0.150168091845475            1.0000000";
"Pb    F";
"   1829.86962476550          1.0000000";
"Pb    F";
"    934.489134729210         1.0000000";
"Pb    F";
"    477.230689612032         1.0000000";
"Pb    F";
"    243.715119463182         1.0000000";
"Pb    F";
"    124.461944187287         1.0000000";
"Pb    F";
"     63.5609952513411        1.0000000";
"Pb    F";
"     32.4597220758638        1.0000000";
"Pb    F";
"     16.5767315800501        1.0000000";
"Pb    F";
"      8.46550778330153       1.0000000";
"Pb    F";
"      4.32321786011102       1.0000000";
"Pb    F";
"      2.20780762884063       1.0000000";
"Pb    F";
"      1.12749685157938       1.0000000";
"Pb    F";
"      0.575797063890464            1.0000000"].

(** bfit/data/ygbs:8501-8673 *)
Definition ugbs_bi : list string := [
"#BASIS SET: (32s,25p,17d,12f)";
"Bi    S";
" 43662492.6604555            1.0000000";
"Bi    S";
" 22297831.7330222            1.0000000";
"Bi    S";
" 11387194.5850786            1.0000000";
"Bi    S";
" 5815282.94190191            1.0000000";
"Bi    S";
" 2969784.65079438            1.0000000";
"Bi    S";
" 1516627.98873367            1.0000000";
"Bi    S";
" 774520.959152738            1.0000000";
"Bi    S";
" 395537.152566831            1.0000000";
"Bi    S";
" 201995.358823884            1.0000000";
"Bi    S";
" 103156.238855453            1.0000000";
"Bi    S";
"  52680.4659115021           1.0000000";
"Bi    S";
"  26903.1860742976           1.0000000";
"Bi    S";
"  13739.0854166734           1.0000000";
"Bi    S";
"   7016.36109438299          1.0000000";
"Bi    S";
"   3583.15866840946          1.0000000";
"Bi    S";
"   1829.86962476550          1.0000000";
"Bi    S";
"    934.489134729210         1.0000000";
"Bi    S";
"    477.230689612032         1.0000000";
"Bi    S";
"    243.715119463182         1.0000000";
"Bi    S";
"    124.461944187287         1.0000000";
"Bi    S";
"     63.5609952513411        1.0000000";
"Bi    S";
"     32.4597220758638        1.0000000";
"Bi    S";
"     16.5767315800501        1.0000000";
"Bi    S";
"      8.46550778330153       1.0000000";
"Bi    S";
"      4.32321786011102       1.0000000";
"Bi    S";
"      2.20780762884063       1.0000000";
"Bi    S";
"      1.12749685157938       1.0000000";
"Bi    S";
"      0.575797063890464            1.0000000";
"Bi    S";
"      0.294051604951678            1.0000000";
"Bi    S";
"      0.150168091845475            1.0000000";
"Bi    S";
"      7.668876968794858E-002            1.0000000";
"Bi    S";
"      3.916389509898707E-002            1.0000000";
"Bi    P";
" 395537.152566831            1.0000000";
"Bi    P";
" 201995.358823884            1.0000000";
"Bi    P";
" 103156.238855453            1.0000000";
"Bi    P";
"  52680.4659115021           1.0000000";
"Bi    P";
"  26903.1860742976           1.0000000";
"Bi    P";
"  13739.0854166734           1.0000000";
"Bi    P";
"   7016.36109438299          1.0000000";
"Bi    P";
"   3583.15866840946          1.0000000";
"Bi    P";
"   1829.86962476550          1.0000000";
"Bi    P";
"    934.489134729210         1.0000000";
"Bi    P";
"    477.230689612032         1.0000000";
"Bi    P";
"    243.715119463182         1.0000000";
"Bi    P";
"    124.461944187287         1.0000000";
"Bi    P";
"     63.5609952513411        1.0000000";
"Bi    P";
"     32.4597220758638        1.0000000";
"Bi    P";
"     16.5767315800501        1.0000000";
"Bi    P";
"      8.46550778330153       1.0000000";
"Bi    P";
"      4.32321786011102       1.0000000";
"Bi    P";
"      2.20780762884063       1.0000000";
"Bi    P";
"      1.12749685157938       1.0000000";
"Bi    P";
"      0.575797063890464            1.0000000";
"Bi    P";
"      0.294051604951678            1.0000000";
"Bi    P";
"      0.150168091845475            1.0000000";
"Bi    P";
"      7.668876968794858E-002            1.0000000";
"Bi    P";
"      3.916389509898707E-002            1.0000000";
"Bi    D";
"   7016.36109438299          1.0000000";
"Bi    D";
"   3583.15866840945          1.0000000";
"Bi    D";
"   1829.86962476550          1.0000000";
"Bi    D";
"    934.489134729210         1.0000000";
"Bi    D";
"    477.230689612032         1.0000000";
"Bi    D";
"    243.715119463182         1.0000000";
"Bi    D";
"    124.461944187287         1.0000000";
"Bi    D";
"     63.5609952513411        1.0000000";
"Bi    D";
"     32.4597220758638        1.0000000";
"Bi    D";
"     16.5767315800501        1.0000000";
"Bi    D";
"      8.46550778330153       1.0000000";
"Bi    D";
"      4.32321786011102       1.0000000";
"Bi    D";
"      2.20780762884063       1.0000000";
"Bi    D";
"      1.12749685157938       1.0000000";
"Bi    D";
"      0.575797063890464            1.0000000";
"Bi    D";
"      0.294051604951678            1.0000000";
"Bi    D";
"      0.150168091845475            1.0000000";
"Bi    F";
"   1829.86962476550          1.0000000";
"Bi    F";
"    934.489134729211         1.0000000";
"Bi    F";
"    477.230689612032         1.0000000";
"Bi    F";
"    243.715119463182         1.0000000";
"Bi    F";
"    124.461944187287         1.0000000";
"Bi    F";
"     63.5609952513411        1.0000000";
"Bi    F";
"     32.4597220758638        1.0000000";
"Bi    F";
"     16.5767315800501        1.0000000";
"Bi    F";
"      8.46550778330153       1.0000000";
"Bi    F";
"      4.32321786011102       1.0000000";
"Bi    F";
"      2.20780762884063       1.0000000";
"Bi    F";
"      1.12749685157938       1.0000000"].

(** bfit/data/ygbs:8674-8846 *)
Definition ugbs_po : list string := [
"#BASIS SET: (32s,23p,18d,13f)";
"Po    S";
" 43662492.6604555            1.0000000";
"Po    S";
" 22297831.7330222            1.0000000";
"Po    S";
" 11387194.5850786            1.0000000";
"Po    S";
" 5815282.94190191            1.0000000";
"Po    S";
" 2969784.65079438            1.0000000";
"Po    S";
" 1516627.98873367            1.0000000";
"Po    S";
" 774520.959152738            1.0000000";
"Po    S";
" 395537.152566831            1.0000000";
"Po    S";
" 201995.358823884            1.0000000";
"Po    S";
" 103156.238855453            1.0000000";
"Po    S";
"  52680.4659115021           1.0000000";
"Po    S";
"  26903.1860742976           1.0000000";
"Po    S";
"  13739.0854166734           1.0000000";
"Po    S";
"   7016.36109438299          1.0000000";
"Po    S";
"   3583.15866840946          1.0000000";
"Po    S";
"   1829.86962476550          1.0000000";
"Po    S";
"    934.489134729210         1.0000000";
"Po    S";
"    477.230689612032         1.0000000";
"Po    S";
"    243.715119463182         1.0000000";
"Po    S";
"    124.461944187287         1.0000000";
"Po    S";
"     63.5609952513411        1.0000000";
"Po    S";
"     32.4597220758638        1.0000000";
"Po    S";
"     16.5767315800501        1.0000000";
"Po    S";
"      8.46550778330153       1.0000000";
"Po    S";
"      4.32321786011102       1.0000000";
"Po    S";
"      2.20780762884063       1.0000000";
"Po    S";
"      1.12749685157938       1.0000000";
"Po    S";
"      0.575797063890464            1.0000000";
"Po    S";
"      0.294051604951678            1.0000000";
"Po    S";
"      0.150168091845475            1.0000000";
"Po    S";
"      7.668876968794858E-002            1.0000000";
"Po    S";
"      3.916389509898707E-002            1.0000000";
"Po    P";
" 201995.358823884            1.0000000";
"Po    P";
" 103156.238855453            1.0000000";
"Po    P";
"  52680.4659115022           1.0000000";
"Po    P";
"  26903.1860742976           1.0000000";
"Po    P";
"  13739.0854166734           1.0000000";
"Po    P";
"   7016.36109438300          1.0000000";
"Po    P";
"   3583.15866840946          1.0000000";
"Po    P";
"   1829.86962476550          1.0000000";
"Po    P";
"    934.489134729211         1.0000000";
"Po    P";
"    477.230689612032         1.0000000";
"Po    P";
"    243.715119463182         1.0000000";
"Po    P";
"    124.461944187287         1.0000000";
"Po    P";
"     63.5609952513412        1.0000000";
"Po    P";
"     32.4597220758638        1.0000000";
"Po    P";
"     16.5767315800501        1.0000000";
"Po    P";
"      8.46550778330153       1.0000000";
"Po    P";
"      4.32321786011102       1.0000000";
"Po    P";
"      2.20780762884063       1.0000000";
"Po    P";
"      1.12749685157938       1.0000000";
"Po    P";
"      0.575797063890465            1.0000000";
"Po    P";
"      0.294051604951678            1.0000000";
"Po    P";
"      0.150168091845475            1.0000000";
"Po    P";
"      7.668876968794860E-002            1.0000000";
"Po    D";
"  13739.0854166734           1.0000000";
"Po    D";
"   7016.36109438299          1.0000000";
"Po    D";
"   3583.15866840945          1.0000000";
"Po    D";
"   1829.86962476550          1.0000000";
"Po    D";
"    934.489134729210         1.0000000";
"Po    D";
"    477.230689612032         1.0000000";
"Po    D";
"    243.715119463182         1.0000000";
"Po    D";
"    124.461944187287         1.0000000";
"Po    D";
"     63.5609952513411        1.0000000";
"Po    D";
"     32.4597220758638        1.0000000";
"Po    D";
"     16.5767315800501        1.0000000";
"Po    D";
"      8.46550778330153       1.0000000";
"Po    D";
"      4.32321786011102       1.0000000";
"Po    D";
"      2.20780762884063       1.0000000";
"Po    D";
"      1.12749685157938       1.0000000";
"Po    D";
"      0.575797063890464            1.0000000";
"Po    D";
"      0.294051604951678            1.0000000";
"Po    D";
"      0.150168091845475            1.0000000";
"Po    F";
"   1829.86962476550          1.0000000";
"Po    F";
"    934.489134729210         1.0000000";
"Po    F";
"    477.230689612032         1.0000000";
"Po    F";
"    243.715119463182         1.0000000";
"Po    F";
"    124.461944187287         1.0000000";
"Po    F";
"     63.5609952513411        1.0000000";
"Po    F";
"     32.4597220758638        1.0000000";
"Po    F";
"     16.5767315800501        1.0000000";
"Po    F";
"      8.46550778330153       1.0000000";
"Po    F";
"      4.32321786011102       1.0000000";
"Po    F";
"      2.20780762884063       1.0000000";
"Po    F";
"      1.12749685157938       1.0000000";
"Po    F";
"      0.575797063890464            1.0000000"].

(** bfit/data/ygbs:8847-9021 *)
Definition ugbs_at : list string := [
"#BASIS SET: (32s,24p,18d,13f)";
"At    S";
" 85497697.1819645            1.0000000";
"At    S";
" 43662492.6604555            1.0000000";
"At    S";
" 22297831.7330223            1.0000000";
"At    S";
" 11387194.5850786            1.0000000";
"At    S";
" 5815282.94190191            1.0000000";
"At    S";
" 2969784.65079438            1.0000000";
"At    S";
" 1516627.98873367            1.0000000";
"At    S";
" 774520.959152738            1.0000000";
"At    S";
" 395537.152566831            1.0000000";
"At    S";
" 201995.358823884            1.0000000";
"At    S";
" 103156.238855453            1.0000000";
"At    S";
"  52680.4659115022           1.0000000";
"At    S";
"  26903.1860742976           1.0000000";
"At    S";
"  13739.0854166734           1.0000000";
"At    S";
"   7016.36109438300          1.0000000";
"At    S";
"   3583.15866840946          1.0000000";
"At    S";
"   1829.86962476550          1.0000000";
"At    S";
"    934.489134729211         1.0000000";
"At    S";
"    477.230689612032         1.0000000";
"At    S";
"    243.715119463182         1.0000000";
"At    S";
"    124.461944187287         1.0000000";
"At    S";
"     63.5609952513412        1.0000000";
"At    S";
"     32.4597220758638        1.0000000";
"At    S";
"     16.5767315800501        1.0000000";
"At    S";
"      8.46550778330153       1.0000000";
"At    S";
"      4.32321786011102       1.0000000";
"At    S";
"      2.20780762884063       1.0000000";
"At    S";
"      1.12749685157938       1.0000000";
"At    S";
"      0.575797063890465            1.0000000";
"At    S";
"      0.294051604951678            1.0000000";
"At    S";
"      0.150168091845475            1.0000000";
"At    S";
"      7.668876968794860E-002            1.0000000";
"At    P";
" 395537.152566831            1.0000000";
"At    P";
" 201995.358823884            1.0000000";
"At    P";
" 103156.238855453            1.0000000";
"At    P";
"  52680.4659115022           1.0000000";
"At    P";
"  26903.1860742976           1.0000000";
"At    P";
"  13739.0854166734           1.0000000";
"At    P";
"   7016.36109438300          1.0000000";
"At    P";
"   3583.15866840946          1.0000000";
"At    P";
"   1829.86962476550          1.0000000";
"At    P";
"    934.489134729211         1.0000000";
"At    P";
"    477.230689612032         1.0000000";
"At    P";
"    243.715119463182         1.0000000";
"At    P";
"    124.461944187287         1.0000000";
"At    P";
"     63.5609952513412        1.0000000";
"At    P";
"     32.4597220758638        1.0000000";
"At    P";
"     16.5767315800501        1.0000000";
"At    P";
"      8.46550778330153       1.0000000";
"At    P";
"      4.32321786011102       1.0000000";
"At    P";
"      2.20780762884063       1.0000000";
"At    P";
"      1.12749685157938       1.0000000";
"At    P";
"      0.575797063890465            1.0000000";
"At    P";
"      0.294051604951678            1.0000000";
"At    P";
"      0.150168091845475            1.0000000";
"At    P";
"      7.668876968794860E-002            1.0000000";
"At    D";
"  13739.0854166734           1.0000000";
"At    D";
"   7016.36109438299          1.0000000";
"At    D";
"   3583.15866840945          1.0000000";
"At    D";
"   1829.86962476550          1.0000000";
"At    D";
"    934.489134729210         1.0000000";
"At    D";
"    477.230689612032         1.0000000";
"At    D";
"    243.715119463182         1.0000000";
"At    D";
"    124.461944187287         1.0000000";
"At    D";
"     63.5609952513411        1.0000000";
"At    D";
"     32.4597220758638        1.0000000";
"At    D";
"     16.5767315800501        1.0000000";
"At    D";
"      8.46550778330153       1.0000000";
"At    D";
"      4.32321786011102       1.0000000";
"At    D";
"      2.20780762884063       1.0000000";
"At    D";
"      1.12749685157938       1.0000000";
"At    D";
"      0.575797063890464            1.0000000";
"At    D";
"      0.294051604951678            1.0000000";
"At    D";
"      0.150168091845475            1.0000000";
"At    F";
"   1829.86962476550          1.0000000";
"At    F";
"    934.489134729210         1.0000000";
"At    F";
"    477.230689612032         1.0000000";
"At    F";
"    243.715119463182         1.0000000";
"At    F";
"    124.461944187287         1.0000000";
"At    F";
"     63.5609952513411        1.0000000";
"At    F";
"     32.4597220758638        1.0000000";
"At    F";
"     16.5767315800501        1.0000000";
"At    F";
"      8.46550778330153       1.0000000";
"At    F";
"      4.32321786011102       1.0000000";
"At    F";
"      2.20780762884063       1.0000000";
"At    F";
"      1.12749685157938       1.0000000";
"At    F";
"      0.575797063890464            1.0000000"].

(** bfit/data/ygbs:9022-9196 *)
Definition ugbs_rn : list string := [
"#BASIS SET: (32s,25p,17d,13f)";
"Rn    S";
" 43662492.6604555            1.0000000";
"Rn    S";
" 22297831.7330222            1.0000000";
"Rn    S";
" 11387194.5850786            1.0000000";
"Rn    S";
" 5815282.94190191            1.0000000";
"Rn    S";
" 2969784.65079438            1.0000000";
"Rn    S";
" 1516627.98873367            1.0000000";
"Rn    S";
" 774520.959152738            1.0000000";
"Rn    S";
" 395537.152566831            1.0000000";
"Rn    S";
" 201995.358823884            1.0000000";
"Rn    S";
" 103156.238855453            1.0000000";
"Rn    S";
"  52680.4659115021           1.0000000";
"Rn    S";
"  26903.1860742976           1.0000000";
"Rn    S";
"  13739.0854166734           1.0000000";
"Rn    S";
"   7016.36109438299          1.0000000";
"Rn    S";
"   3583.15866840946          1.0000000";
"Rn    S";
"   1829.86962476550          1.0000000";
"Rn    S";
"    934.489134729210         1.0000000";
"Rn    S";
"    477.230689612032         1.0000000";
"Rn    S";
"    243.715119463182         1.0000000";
"Rn    S";
"    124.461944187287         1.0000000";
"Rn    S";
"     63.5609952513411        1.0000000";
"Rn    S";
"     32.4597220758638        1.0000000";
"Rn    S";
"     16.5767315800501        1.0000000";
"Rn    S";
"      8.46550778330153       1.0000000";
"Rn    S";
"      4.32321786011102       1.0000000";
"Rn    S";
"      2.20780762884063       1.0000000";
"Rn    S";
"      1.12749685157938       1.0000000";
"Rn    S";
"      0.575797063890464            1.0000000";
"Rn    S";
"      0.294051604951678            1.0000000";
"Rn    S";
"      0.150168091845475            1.0000000";
"Rn    S";
"      7.668876968794858E-002            1.0000000";
"Rn    S";
"      3.916389509898707E-002            1.0000000";
"Rn    P";
" 395537.152566831            1.0000000";
"Rn    P";
" 201995.358823884            1.0000000";
"Rn    P";
" 103156.238855453            1.0000000";
"Rn    P";
"  52680.4659115021           1.0000000";
"Rn    P";
"  26903.1860742976           1.0000000";
"Rn    P";
"  13739.0854166734           1.0000000";
"Rn    P";
"   7016.36109438299          1.0000000";
"Rn    P";
"   3583.15866840946          1.0000000";
"Rn    P";
"   1829.86962476550          1.0000000";
"Rn    P";
"    934.489134729210         1.0000000";
"Rn    P";
"    477.230689612032         1.0000000";
"Rn    P";
"    243.715119463182         1.0000000";
"Rn    P";
"    124.461944187287         1.0000000";
"Rn    P";
"     63.5609952513411        1.0000000";
"Rn    P";
"     32.4597220758638        1.0000000";
"Rn    P";
"     16.5767315800501        1.0000000";
"Rn    P";
"      8.46550778330153       1.0000000";
"Rn    P";
"      4.32321786011102       1.0000000";
"Rn    P";
"      2.20780762884063       1.0000000";
"Rn    P";
"      1.12749685157938       1.0000000";
"Rn    P";
"      0.575797063890464            1.0000000";
"Rn    P";
"      0.294051604951678            1.0000000";
"Rn    P";
"      0.150168091845475            1.0000000";
"Rn    P";
"      7.668876968794858E-002            1.0000000";
"Rn    P";
"      3.916389509898707E-002            1.0000000";
"Rn    D";
"  13739.0854166734           1.0000000";
"Rn    D";
"   7016.36109438299          1.0000000";
"Rn    D";
"   3583.15866840946          1.0000000";
"Rn    D";
"   1829.86962476550          1.0000000";
"Rn    D";
"    934.489134729211         1.0000000";
"Rn    D";
"    477.230689612032         1.0000000";
"Rn    D";
"    243.715119463182         1.0000000";
"Rn    D";
"    124.461944187287         1.0000000";
"Rn    D";
"     63.5609952513411        1.0000000";
"Rn    D";
"     32.4597220758638        1.0000000";
"Rn    D";
"     16.5767315800501        1.0000000";
"Rn    D";
"      8.46550778330153       1.0000000";
"Rn    D";
"      4.32321786011102       1.0000000";
"Rn    D";
"      2.20780762884063       1.0000000";
"Rn    D";
"      1.12749685157938       1.0000000";
"Rn    D";
"      0.575797063890465            1.0000000";
"Rn    D";
"      0.294051604951678            1.0000000";
"Rn    F";
"   3583.15866840946          1.0000000";
"Rn    F";
"   1829.86962476550          1.0000000";
"Rn    F";
"    934.489134729211         1.0000000";
"Rn    F";
"    477.230689612032         1.0000000";
"Rn    F";
"    243.715119463182         1.0000000";
"Rn    F";
"    124.461944187287         1.0000000";
"Rn    F";
"     63.5609952513411        1.0000000";
"Rn    F";
"     32.4597220758638        1.0000000";
"Rn    F";
"     16.5767315800501        1.0000000";
"Rn    F";
"      8.46550778330153       1.0000000";
"Rn    F";
"      4.32321786011102       1.0000000";
"Rn    F";
"      2.20780762884063       1.0000000";
"Rn    F";
"      1.12749685157938       1.0000000"].

(** bfit/data/ygbs:9197-9198 *)
Definition ugbs_tail : list string := [
"END";
""].

(** The whole file. *)
Definition ygbs : list string := List.concat
  [ugbs_head; ugbs_h; ugbs_he; ugbs_li; ugbs_be; ugbs_b; ugbs_c; ugbs_n; ugbs_o; ugbs_f; ugbs_ne; ugbs_na; ugbs_mg; ugbs_al; ugbs_si; ugbs_p; ugbs_s; ugbs_cl; ugbs_ar; ugbs_k; ugbs_ca; ugbs_sc; ugbs_ti; ugbs_v; ugbs_cr; ugbs_mn; ugbs_fe; ugbs_co; ugbs_ni; ugbs_cu; ugbs_zn; ugbs_ga; ugbs_ge; ugbs_as; ugbs_se; ugbs_br; ugbs_kr; ugbs_rb; ugbs_sr; ugbs_y; ugbs_zr; ugbs_nb; ugbs_mo; ugbs_tc; ugbs_ru; ugbs_rh; ugbs_pd; ugbs_ag; ugbs_cd; ugbs_in; ugbs_sn; ugbs_sb; ugbs_te; ugbs_i; ugbs_xe; ugbs_cs; ugbs_ba; ugbs_la; ugbs_hf; ugbs_ta; ugbs_w; ugbs_re; ugbs_os; ugbs_ir; ugbs_pt; ugbs_au; ugbs_hg; ugbs_tl; ugbs_pb; ugbs_bi; ugbs_po; ugbs_at; ugbs_rn; ugbs_tail].
