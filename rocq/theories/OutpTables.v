(** The OUTP tables, copied from /repo/src/pymcnp/outp by
    tools/gen_outp.py: for each class its pattern, the group each field is read
    from and the text [to_mcnp] writes. *)
From Coq Require Import Ascii String List.
From Verif Require Import PyStr.
Import ListNotations.
Open Scope list_scope.

(** A piece of the f-string in [to_mcnp]: text, a line end, or a field with the
    width its format gives, 0 if none. *)
Inductive piece := T (s : str) | NL | F (field width : nat).
(** [t_groups] has, for each field in the order of the constructor, its group;
    [t_cut] is how many characters the slice takes off the end. *)
Record table := { t_name : string; t_pat : str; t_groups : list nat; t_out : list piece; t_cut : nat }.

(** outp/Header.py:17-24 (pattern), 53-80 (groups), 82-96 (text). *)
Definition t_Header : table :=
  {| t_name := "Header"%string;
     t_pat := L "\A\s+Code Name & Version = (.+)\n  \n(\s+_/\s+_/\s+_/_/_/\s+_/\s+_/\s+_/_/_/\s+_/_/_/ ?\n" ++
       L "\s+_/_/  _/_/\s+_/\s+_/_/\s+_/\s+_/\s+_/\s+_/\s+?\n\s+_/  _/  _/\s+_/\s+_/  _/  _/\s+_/_/_/\s+_/_/_/\s+?\n" ++
       L "  _/\s+_/\s+_/\s+_/\s+_/_/\s+_/\s+_/\s+_/\s+?\n _/\s+_/\s+_/_/_/\s+_/\s+_/\s+_/\s+_/_/\s+?\n" ++
       L ")  \n((?:  [+]---------------------------------------------------------------------(?:--)?[+]\n" ++
       L ")(?:.+\n)+(?:  [+]---------------------------------------------------------------------(?:--)?[+]\n" ++
       L "))  \n\Z";
     t_groups := [1; 2; 3];
     t_out := [NL;
       T (L "          Code Name & Version = "); F 0 0; NL;
       T (L "  "); NL; F 1 0; T (L "  "); NL; F 2 0; T (L "  "); NL; NL];
     t_cut := 1 |}.
(** outp/Mcnp.py:30-45 (pattern), 145-194 (groups), 196-220 (text). *)
Definition t_Mcnp : table :=
  {| t_name := "Mcnp"%string;
     t_pat := L "\A1mcnp     (.{14})(.{32})(.{9})(.{9})\n \*{73}                 (.{28})\n" ++
       L " (.+)\n\n \n((?:.*\n)*)\n \*{51}\n \* Random Number Generator  = (.{20}) \*\n" ++
       L " \* Random Number Seed       = (.{20}) \*\n \* Random Number Multiplier = (.{20}) \*\n" ++
       L " \* Random Number Adder      = (.{20}) \*\n \* Random Number Bits Used  = (.{20}) \*\n" ++
       L " \* Random Number Stride     = (.{20}) \*\n \*{51}\n((?:.*\n)*)\Z";
     t_groups := [1; 2; 3; 4; 5; 6; 7; 8; 9; 10; 11; 12; 13; 14];
     t_out := [NL;
       T (L "1mcnp     "); F 0 0; F 1 0; F 2 0; F 3 0; NL;
       T (L " *************************************************************************                 "); F 4 0; NL;
       T (L " "); F 5 0; NL; NL;
       T (L " "); NL; F 6 0; NL;
       T (L " ***************************************************"); NL;
       T (L " * Random Number Generator  = "); F 7 0; T (L " *"); NL;
       T (L " * Random Number Seed       = "); F 8 0; T (L " *"); NL;
       T (L " * Random Number Multiplier = "); F 9 0; T (L " *"); NL;
       T (L " * Random Number Adder      = "); F 10 0; T (L " *"); NL;
       T (L " * Random Number Bits Used  = "); F 11 0; T (L " *"); NL;
       T (L " * Random Number Stride     = "); F 12 0; T (L " *"); NL;
       T (L " ***************************************************"); NL; F 13 0; NL];
     t_cut := 1 |}.
(** outp/NeutronActivity.py:21-28 (pattern), 70-98 (groups), 100-117 (text). *)
Definition t_NeutronActivity : table :=
  {| t_name := "NeutronActivity"%string;
     t_pat := L "\A1neutron  activity in each cell                                                                         print table 126\n" ++
       L "\n                       tracks     population   collisions   collisions     number        flux        average      average\n" ++
       L "              cell    entering                               [*] weight     weighted     weighted   track weight   track mfp\n" ++
       L "                                                          [(]per history[)]    energy       energy     [(]relative[)]      [(]cm[)]\n" ++
       L "\n((?:.+\n)+)\n           total    (.{10})    (.{9})   (.{10})    (.{10})\Z";
     t_groups := [1; 2; 3; 4; 5];
     t_out := [NL;
       T (L "1neutron  activity in each cell                                                                         print table 126"); NL; NL;
       T (L "                       tracks     population   collisions   collisions     number        flux        average      average"); NL;
       T (L "              cell    entering                               * weight     weighted     weighted   track weight   track mfp"); NL;
       T (L "                                                          (per history)    energy       energy     (relative)      (cm)"); NL; NL; F 0 0; NL;
       T (L "           total    "); F 1 10; T (L "    "); F 2 10; T (L "  "); F 3 10; T (L "    "); F 4 10; NL];
     t_cut := 1 |}.
(** outp/PhotonActivity.py:21-28 (pattern), 70-98 (groups), 100-117 (text). *)
Definition t_PhotonActivity : table :=
  {| t_name := "PhotonActivity"%string;
     t_pat := L "\A1photon   activity in each cell                                                                         print table 126\n" ++
       L "\n                       tracks     population   collisions   collisions     number        flux        average      average\n" ++
       L "              cell    entering                               [*] weight     weighted     weighted   track weight   track mfp\n" ++
       L "                                                          [(]per history[)]    energy       energy     [(]relative[)]      [(]cm[)]\n" ++
       L "\n((?:.+\n)+)\n           total    (.{10})    (.{9})   (.{10})    (.{10})\Z";
     t_groups := [1; 2; 3; 4; 5];
     t_out := [NL;
       T (L "1photon   activity in each cell                                                                         print table 126"); NL; NL;
       T (L "                       tracks     population   collisions   collisions     number        flux        average      average"); NL;
       T (L "              cell    entering                               * weight     weighted     weighted   track weight   track mfp"); NL;
       T (L "                                                          (per history)    energy       energy     (relative)      (cm)"); NL; NL; F 0 0; NL;
       T (L "           total    "); F 1 10; T (L "    "); F 2 10; T (L "  "); F 3 10; T (L "    "); F 4 10; NL];
     t_cut := 1 |}.
(** outp/AnalysisTallyFluctuation.py:52-70 (pattern), 267-357 (groups), 359-394 (text). *)
Definition t_AnalysisTallyFluctuation : table :=
  {| t_name := "AnalysisTallyFluctuation"%string;
     t_pat := L "\A1analysis of the results in the tally fluctuation chart bin [(]tfc[)] for tally (.{1}) with nps = (.{19}) print table 160\n" ++
       L "\n\n normed average tally per history  = (.{11})          unnormed average tally per history  = (.{11})\n" ++
       L " estimated tally relative error    = (.{11})          estimated variance of the variance  = (.{6})\n" ++
       L " relative error from zero tallies  = (.{11})          relative error from nonzero scores  = (.{6})\n" ++
       L "\n number of nonzero history tallies = (.{11})          efficiency for the nonzero tallies  = (.{6})\n" ++
       L " history number of largest  tally  = (.{11})          largest  unnormalized history tally = (.{11})\n" ++
       L " [(]largest  tally[)]/[(]average tally[)]  = (.{11})          [(]largest  tally[)]/[(]avg nonzero tally[)]= (.{11})\n" ++
       L "\n [(]confidence interval shift[)]/mean  = (.{11})          shifted confidence interval center  = (.{11})\n" ++
       L "\n\n if the largest  history score sampled so far were to occur on the next history, the tfc bin quantities would change as follows:\n" ++
       L "\n      estimated quantities           value at nps           value at nps[+]1           value[(]nps[+]1[)]/value[(]nps[)]-1[.]\n" ++
       L "\n      mean                            (.{11})             (.{11})                    (.{9})\n" ++
       L "      relative error                  (.{11})             (.{11})                    (.{9})\n" ++
       L "      variance of the variance        (.{11})             (.{11})                    (.{9})\n" ++
       L "      shifted center                  (.{11})             (.{11})                    (.{9})\n" ++
       L "      figure of merit                 (.{11})             (.{11})                    (.{9})\n" ++
       L "\n((?:.+\n)+)\n fom = [(]histories/minute[)][*][(]f[(]x[)] signal-to-noise ratio[)][*][*]2 = [(](.{9})[)][*][(](.{10})[)][*][*]2 = [(].{9}[)][*][(](.{9})[)] = (.{9})\n" ++
       L "\Z";
     t_groups := [1; 2; 3; 4; 5; 6; 7; 8; 9; 10; 11; 12; 13; 14; 15; 16; 17; 18; 19; 20; 21; 22; 23; 24; 25; 26; 27; 28; 29; 30; 31; 32; 33; 34; 35; 36];
     t_out := [NL;
       T (L "1analysis of the results in the tally fluctuation chart bin (tfc) for tally "); F 0 1; T (L " with nps = "); F 1 19; T (L " print table 160"); NL; NL; NL;
       T (L " normed average tally per history  = "); F 2 11; T (L "          unnormed average tally per history  = "); F 3 11; NL;
       T (L " estimated tally relative error    = "); F 4 11; T (L "          estimated variance of the variance  = "); F 5 6; NL;
       T (L " relative error from zero tallies  = "); F 6 11; T (L "          relative error from nonzero scores  = "); F 7 6; NL; NL;
       T (L " number of nonzero history tallies = "); F 8 11; T (L "          efficiency for the nonzero tallies  = "); F 9 6; NL;
       T (L " history number of largest  tally  = "); F 10 11; T (L "          largest  unnormalized history tally = "); F 11 11; NL;
       T (L " (largest  tally)/(average tally)  = "); F 12 11; T (L "          (largest  tally)/(avg nonzero tally)= "); F 13 11; NL; NL;
       T (L " (confidence interval shift)/mean  = "); F 14 11; T (L "          shifted confidence interval center  = "); F 15 11; NL; NL; NL;
       T (L " if the largest  history score sampled so far were to occur on the next history, the tfc bin quantities would change as follows:"); NL; NL;
       T (L "      estimated quantities           value at nps           value at nps+1           value(nps+1)/value(nps)-1."); NL; NL;
       T (L "      mean                            "); F 16 11; T (L "             "); F 17 11; T (L "                    "); F 18 8; NL;
       T (L "      relative error                  "); F 19 11; T (L "             "); F 20 11; T (L "                    "); F 21 8; NL;
       T (L "      variance of the variance        "); F 22 11; T (L "             "); F 23 11; T (L "                    "); F 24 8; NL;
       T (L "      shifted center                  "); F 25 11; T (L "             "); F 26 11; T (L "                    "); F 27 8; NL;
       T (L "      figure of merit                 "); F 28 11; T (L "             "); F 29 11; T (L "                    "); F 30 8; NL; NL; F 31 0; NL;
       T (L " fom = (histories/minute)*(f(x) signal-to-noise ratio)**2 = ("); F 32 9; T (L ")*("); F 33 10; T (L ")**2 = ("); F 32 9; T (L ")*("); F 34 9; T (L ") = "); F 35 9; NL];
     t_cut := 0 |}.
(** outp/ProblemSummary.py:31-48 (pattern), 150-202 (groups), 204-237 (text). *)
Definition t_ProblemSummary : table :=
  {| t_name := "ProblemSummary"%string;
     t_pat := L "\A1problem summary                                                                                                           \n" ++
       L "\n      run terminated when (.{11})  particle histories were done[.]\n" ++
       L "[+]                                                                                                    (.{17}) \n" ++
       L "\n =====> (.{10}) M histories/hr    [(]based on wall-clock time in mcrun[)]\n" ++
       L "\n\n      (.+)     probid =  (.{17}) \n\n neutron creation    tracks      weight        energy            neutron loss        tracks      weight        energy\n" ++
       L "                                 [(]per source particle[)]                                           [(]per source particle[)]\n" ++
       L "\n((?:.+\n)+\n(?:.+\n)+)\n photon creation     tracks      weight        energy            photon loss         tracks      weight        energy\n" ++
       L "                                 [(]per source particle[)]                                           [(]per source particle[)]\n" ++
       L "\n((?:.+\n)+\n(?:.+\n)+)\n computer time so far in this run     (.{12})            maximum number ever in bank   (.{7})\n" ++
       L " computer time in mcrun               (.{12})            bank overflows to backup file (.{7})\n" ++
       L " source particles per minute            (.{10})\n random numbers generated              (.{11})            most random numbers used was (.{11}) in history (.{11})\n" ++
       L "\n range of sampled source weights = (.{10}) to (.{10})\n\Z";
     t_groups := [1; 2; 3; 4; 5; 6; 7; 8; 9; 10; 11; 12; 13; 14; 15; 16; 17];
     t_out := [NL;
       T (L "1problem summary                                                                                                           "); NL; NL;
       T (L "      run terminated when "); F 0 11; T (L "  particle histories were done."); NL;
       T (L "+                                                                                                    "); F 1 17; T (L " "); NL; NL;
       T (L " =====> "); F 2 10; T (L " M histories/hr    (based on wall-clock time in mcrun)"); NL; NL; NL;
       T (L "      "); F 3 0; T (L "     probid =  "); F 4 17; T (L " "); NL; NL;
       T (L " neutron creation    tracks      weight        energy            neutron loss        tracks      weight        energy"); NL;
       T (L "                                 (per source particle)                                           (per source particle)"); NL; NL; F 5 0; NL;
       T (L " photon creation     tracks      weight        energy            photon loss         tracks      weight        energy"); NL;
       T (L "                                 (per source particle)                                           (per source particle)"); NL; NL; F 6 0; NL;
       T (L " computer time so far in this run     "); F 7 12; T (L "            maximum number ever in bank   "); F 8 7; NL;
       T (L " computer time in mcrun               "); F 9 12; T (L "            bank overflows to backup file "); F 10 7; NL;
       T (L " source particles per minute            "); F 11 10; NL;
       T (L " random numbers generated              "); F 12 11; T (L "            most random numbers used was "); F 13 11; T (L " in history "); F 14 11; NL; NL;
       T (L " range of sampled source weights = "); F 15 10; T (L " to "); F 16 10; NL];
     t_cut := 0 |}.
(** outp/StartingMcrun.py:19-24 (pattern), 56-80 (groups), 82-99 (text). *)
Definition t_StartingMcrun : table :=
  {| t_name := "StartingMcrun"%string;
     t_pat := L "\A1starting mcrun.      cp0 = (.{5})                                                                       print table 110\n" ++
       L "\n      (.{80})\n\n\n     nps    x          y          z          cell       surf     u          v          w        energy     weight      time\n" ++
       L " \n((?:.+\n)+)\Z";
     t_groups := [1; 2; 3];
     t_out := [NL;
       T (L "1starting mcrun.      cp0 = "); F 0 5; T (L "                                                                       print table 110"); NL; NL;
       T (L "      "); F 1 80; NL; NL; NL;
       T (L "     nps    x          y          z          cell       surf     u          v          w        energy     weight      time"); NL;
       T (L " "); NL; F 2 0; NL];
     t_cut := 1 |}.
(** outp/UnnormedTallyDensity.py:20-24 (pattern), 61-87 (groups), 89-102 (text). *)
Definition t_UnnormedTallyDensity : table :=
  {| t_name := "UnnormedTallyDensity"%string;
     t_pat := L "\A1unnormed tally density for tally (.{10}) nonzero tally mean[(]m[)] = (.{9})   nps = (.{21}) print table 161\n" ++
       L "\n abscissa              ordinate   log plot of tally probability density function in tally fluctuation chart bin[(]d=decade,slope= .{3}[)]\n" ++
       L "((?:.+\n)+  (?:total.+))\Z";
     t_groups := [1; 2; 3; 4];
     t_out := [NL;
       T (L "1unnormed tally density for tally "); F 0 8; T (L " nonzero tally mean(m) = "); F 1 9; T (L "   nps = "); F 2 11; T (L " print table 161"); NL; NL;
       T (L " abscissa              ordinate   log plot of tally probability density function in tally fluctuation chart bin(d=decade,slope= 0.0)"); NL; F 3 0; NL];
     t_cut := 1 |}.
(** outp/tally/subtally/Line.py:21-21 (pattern), 53-77 (groups), 79-87 (text). *)
Definition t_Line : table :=
  {| t_name := "Line"%string;
     t_pat := L "\A    (\S+)   (\S+) (\S+)\n\Z";
     t_groups := [1; 2; 3];
     t_out := [NL;
       T (L "    "); F 0 0; T (L "   "); F 1 0; T (L " "); F 2 0; NL];
     t_cut := 0 |}.

(** A block with parts of its own: the strings, the group its parts are read from
    and, for a tally, the class of the parts and the group of the message. *)
Record sub_class := { s_table : table; s_group : nat }.
Record tally_class := { y_table : table; y_group : nat; y_sub : sub_class; y_message : option nat }.

(** outp/tally/Subtally_1.py:24-24 (pattern), 66-94 (groups), 96-110 (text). *)
Definition t_Subtally_1 : table :=
  {| t_name := "Subtally_1"%string;
     t_pat := L "\A surface {2}([^\n]+)\n angle {2}bin: {2}([^\n]{12}) to {2}([^\n" ++
       L "]{11}) degrees {85}\n {6}energy {3}\n((?:[^\n]+\n)+?) {6}total {6}([^\n" ++
       L "]+)\n ?\n\Z";
     t_groups := [1; 2; 3; 5];
     t_out := [NL;
       T (L " surface  "); F 0 0; NL;
       T (L " angle  bin:  "); F 1 0; T (L " to  "); F 2 0; T (L " degrees                                                                                     "); NL;
       T (L "      energy   "); NL; F 4 0; T (L "      total      "); F 3 0; NL; NL];
     t_cut := 0 |}.
Definition s_Subtally_1 : sub_class := {| s_table := t_Subtally_1; s_group := 4 |}.
(** outp/tally/Subtally_2.py:22-22 (pattern), 54-78 (groups), 80-93 (text). *)
Definition t_Subtally_2 : table :=
  {| t_name := "Subtally_2"%string;
     t_pat := L "\A      surface:  (.+)\n        time   \n((?:.+\n)+)      total      (.+)\n" ++
       L "\n\Z";
     t_groups := [1; 3];
     t_out := [NL;
       T (L "      surface:  "); F 0 0; NL;
       T (L "        time   "); NL; F 2 0; T (L "      total      "); F 1 0; NL; NL];
     t_cut := 0 |}.
Definition s_Subtally_2 : sub_class := {| s_table := t_Subtally_2; s_group := 2 |}.
(** outp/tally/Subtally_4.py:22-22 (pattern), 54-78 (groups), 80-93 (text). *)
Definition t_Subtally_4 : table :=
  {| t_name := "Subtally_4"%string;
     t_pat := L "\A cell  (.+)\n      energy   \n((?:.+\n)+)      total      (.+)\n" ++
       L "\n\Z";
     t_groups := [1; 3];
     t_out := [NL;
       T (L " cell  "); F 0 0; NL;
       T (L "      energy   "); NL; F 2 0; T (L "      total      "); F 1 0; NL; NL];
     t_cut := 0 |}.
Definition s_Subtally_4 : sub_class := {| s_table := t_Subtally_4; s_group := 2 |}.
(** outp/Tally_1A.py:29-48 (pattern), 115-154 (groups), 156-192 (text). *)
Definition t_Tally_1A : table :=
  {| t_name := "Tally_1A"%string;
     t_pat := L "\A1tally (.{8})        nps = (.{11})\n           tally type (.+)\n" ++
       L "           particle[(]s[)]: (.+)\n \n((?: surface {2}([^\n]+)\n" ++
       L " angle {2}bin: {2}([^\n]{12}) to {2}([^\n]{11}) degrees {85}\n" ++
       L " {6}energy {3}\n((?:[^\n]+\n)+?) {6}total {6}([^\n]+)\n ?\n)+)\n" ++
       L " ===================================================================================================================================\n" ++
       L "\n           results of 10 statistical checks for the estimated answer for the tally fluctuation chart [(]tfc[)] bin of tally .{8}\n" ++
       L "\n tfc bin     --mean--      ---------relative error---------      ----variance of the variance----      --figure of merit--     -pdf-\n" ++
       L " behavior    behavior      value   decrease   decrease rate      value   decrease   decrease rate       value     behavior     slope\n" ++
       L "\n( .+)\n( .+)\n( .+)\n\n ===================================================================================================================================\n" ++
       L "\n\n this tally meets the statistical criteria used to form confidence intervals: check the tally fluctuation chart to verify[.]\n" ++
       L " the results in other bins associated with this tally may not meet these statistical criteria[.]\n" ++
       L "\n ----- estimated confidence intervals:  -----\n\n estimated asymmetric confidence interval[(]1,2,3 sigma[)]: (.+)\n" ++
       L " estimated  symmetric confidence interval[(]1,2,3 sigma[)]: (.+)\n" ++
       L "\Z";
     t_groups := [1; 2; 3; 4; 11; 12; 13; 14; 15];
     t_out := [NL;
       T (L "1tally "); F 0 0; T (L "        nps = "); F 1 0; NL;
       T (L "           tally type "); F 2 0; NL;
       T (L "           particle(s): "); F 3 0; NL;
       T (L " "); NL; F 9 0; NL;
       T (L " ==================================================================================================================================="); NL; NL;
       T (L "           results of 10 statistical checks for the estimated answer for the tally fluctuation chart (tfc) bin of tally "); F 0 0; NL; NL;
       T (L " tfc bin     --mean--      ---------relative error---------      ----variance of the variance----      --figure of merit--     -pdf-"); NL;
       T (L " behavior    behavior      value   decrease   decrease rate      value   decrease   decrease rate       value     behavior     slope"); NL; NL; F 4 0; NL; F 5 0; NL; F 6 0; NL; NL;
       T (L " ==================================================================================================================================="); NL; NL; NL;
       T (L " this tally meets the statistical criteria used to form confidence intervals: check the tally fluctuation chart to verify."); NL;
       T (L " the results in other bins associated with this tally may not meet these statistical criteria."); NL; NL;
       T (L " ----- estimated confidence intervals:  -----"); NL; NL;
       T (L " estimated asymmetric confidence interval(1,2,3 sigma): "); F 7 0; NL;
       T (L " estimated  symmetric confidence interval(1,2,3 sigma): "); F 8 0; NL; NL];
     t_cut := 1 |}.
Definition y_Tally_1A : tally_class := {| y_table := t_Tally_1A; y_group := 5; y_sub := s_Subtally_1; y_message := None |}.
(** outp/Tally_1B.py:28-43 (pattern), 105-142 (groups), 144-174 (text). *)
Definition t_Tally_1B : table :=
  {| t_name := "Tally_1B"%string;
     t_pat := L "\A1tally (.{8})        nps = (.{11})\n           tally type (.+)\n" ++
       L "           particle[(]s[)]: (.+)\n \n((?: surface {2}([^\n]+)\n" ++
       L " angle {2}bin: {2}([^\n]{12}) to {2}([^\n]{11}) degrees {85}\n" ++
       L " {6}energy {3}\n((?:[^\n]+\n)+?) {6}total {6}([^\n]+)\n ?\n)+)\n" ++
       L " ===================================================================================================================================\n" ++
       L "\n           results of 10 statistical checks for the estimated answer for the tally fluctuation chart [(]tfc[)] bin of tally .{8}\n" ++
       L "\n tfc bin     --mean--      ---------relative error---------      ----variance of the variance----      --figure of merit--     -pdf-\n" ++
       L " behavior    behavior      value   decrease   decrease rate      value   decrease   decrease rate       value     behavior     slope\n" ++
       L "\n( .+)\n( .+)\n( .+)\n\n ===================================================================================================================================\n" ++
       L "\n\n warning[.]  the tally in the tally fluctuation chart bin did not pass (..) of the 10 statistical checks[.]\n" ++
       L "\Z";
     t_groups := [1; 2; 3; 4; 11; 12; 13; 14];
     t_out := [NL;
       T (L "1tally "); F 0 0; T (L "        nps = "); F 1 0; NL;
       T (L "           tally type "); F 2 0; NL;
       T (L "           particle(s): "); F 3 0; NL;
       T (L " "); NL; F 8 0; NL;
       T (L " ==================================================================================================================================="); NL; NL;
       T (L "           results of 10 statistical checks for the estimated answer for the tally fluctuation chart (tfc) bin of tally "); F 0 0; NL; NL;
       T (L " tfc bin     --mean--      ---------relative error---------      ----variance of the variance----      --figure of merit--     -pdf-"); NL;
       T (L " behavior    behavior      value   decrease   decrease rate      value   decrease   decrease rate       value     behavior     slope"); NL; NL; F 4 0; NL; F 5 0; NL; F 6 0; NL; NL;
       T (L " ==================================================================================================================================="); NL; NL; NL;
       T (L " warning.  the tally in the tally fluctuation chart bin did not pass "); F 7 0; T (L " of the 10 statistical checks."); NL; NL];
     t_cut := 1 |}.
Definition y_Tally_1B : tally_class := {| y_table := t_Tally_1B; y_group := 5; y_sub := s_Subtally_1; y_message := None |}.
(** outp/Tally_2.py:31-52 (pattern), 129-172 (groups), 174-213 (text). *)
Definition t_Tally_2 : table :=
  {| t_name := "Tally_2"%string;
     t_pat := L "\A1tally (.{8})        nps = (.{11})\n           tally type (.+)\n" ++
       L "           particle[(]s[)]: (.+)\n\n           areas   \n                surface: (.+)\n" ++
       L "                         (.+)\n \n((?:      surface:  (.+)\n        time   \n" ++
       L "((?:.+\n)+)      total      (.+)\n\n)+)\n ===================================================================================================================================\n" ++
       L "\n           results of 10 statistical checks for the estimated answer for the tally fluctuation chart [(]tfc[)] bin of tally .{8}\n" ++
       L "\n tfc bin     --mean--      ---------relative error---------      ----variance of the variance----      --figure of merit--     -pdf-\n" ++
       L " behavior    behavior      value   decrease   decrease rate      value   decrease   decrease rate       value     behavior     slope\n" ++
       L "\n( .+)\n( .+)\n( .+)\n\n ===================================================================================================================================\n" ++
       L "\n\n this tally meets the statistical criteria used to form confidence intervals: check the tally fluctuation chart to verify[.]\n" ++
       L " the results in other bins associated with this tally may not meet these statistical criteria[.]\n" ++
       L "\n ----- estimated confidence intervals:  -----\n\n estimated asymmetric confidence interval[(]1,2,3 sigma[)]: (.+)\n" ++
       L " estimated  symmetric confidence interval[(]1,2,3 sigma[)]: (.+)\n" ++
       L "\Z";
     t_groups := [1; 2; 3; 4; 5; 6; 11; 12; 13; 14; 15];
     t_out := [NL;
       T (L "1tally "); F 0 0; T (L "        nps = "); F 1 0; NL;
       T (L "           tally type "); F 2 0; NL;
       T (L "           particle(s): "); F 3 0; NL; NL;
       T (L "           areas   "); NL;
       T (L "                surface: "); F 4 0; NL;
       T (L "                         "); F 5 0; NL;
       T (L " "); NL; F 11 0; NL;
       T (L " ==================================================================================================================================="); NL; NL;
       T (L "           results of 10 statistical checks for the estimated answer for the tally fluctuation chart (tfc) bin of tally "); F 0 0; NL; NL;
       T (L " tfc bin     --mean--      ---------relative error---------      ----variance of the variance----      --figure of merit--     -pdf-"); NL;
       T (L " behavior    behavior      value   decrease   decrease rate      value   decrease   decrease rate       value     behavior     slope"); NL; NL; F 6 0; NL; F 7 0; NL; F 8 0; NL; NL;
       T (L " ==================================================================================================================================="); NL; NL; NL;
       T (L " this tally meets the statistical criteria used to form confidence intervals: check the tally fluctuation chart to verify."); NL;
       T (L " the results in other bins associated with this tally may not meet these statistical criteria."); NL; NL;
       T (L " ----- estimated confidence intervals:  -----"); NL; NL;
       T (L " estimated asymmetric confidence interval(1,2,3 sigma): "); F 9 0; NL;
       T (L " estimated  symmetric confidence interval(1,2,3 sigma): "); F 10 0; NL];
     t_cut := 0 |}.
Definition y_Tally_2 : tally_class := {| y_table := t_Tally_2; y_group := 7; y_sub := s_Subtally_2; y_message := None |}.
(** outp/Tally_4.py:31-52 (pattern), 129-172 (groups), 174-213 (text). *)
Definition t_Tally_4 : table :=
  {| t_name := "Tally_4"%string;
     t_pat := L "\A1tally (.{8})        nps = (.{11})\n           tally type (.+)\n" ++
       L "           particle[(]s[)]: (.+)\n\n           volumes \n                   cell: (.+)\n" ++
       L "                         (.+)\n \n((?: cell  (.+)\n      energy   \n" ++
       L "((?:.+\n)+)      total      (.+)\n\n)+)\n ===================================================================================================================================\n" ++
       L "\n           results of 10 statistical checks for the estimated answer for the tally fluctuation chart [(]tfc[)] bin of tally .{8}\n" ++
       L "\n tfc bin     --mean--      ---------relative error---------      ----variance of the variance----      --figure of merit--     -pdf-\n" ++
       L " behavior    behavior      value   decrease   decrease rate      value   decrease   decrease rate       value     behavior     slope\n" ++
       L "\n( .+)\n( .+)\n( .+)\n\n ===================================================================================================================================\n" ++
       L "\n\n this tally meets the statistical criteria used to form confidence intervals: check the tally fluctuation chart to verify[.]\n" ++
       L " the results in other bins associated with this tally may not meet these statistical criteria[.]\n" ++
       L "\n ----- estimated confidence intervals:  -----\n\n estimated asymmetric confidence interval[(]1,2,3 sigma[)]: (.+)\n" ++
       L " estimated  symmetric confidence interval[(]1,2,3 sigma[)]: (.+)\n" ++
       L "\Z";
     t_groups := [1; 2; 3; 4; 5; 6; 11; 12; 13; 14; 15];
     t_out := [NL;
       T (L "1tally "); F 0 0; T (L "        nps = "); F 1 0; NL;
       T (L "           tally type "); F 2 0; NL;
       T (L "           particle(s): "); F 3 0; NL; NL;
       T (L "           volumes "); NL;
       T (L "                   cell: "); F 4 0; NL;
       T (L "                         "); F 5 0; NL;
       T (L " "); NL; F 11 0; NL;
       T (L " ==================================================================================================================================="); NL; NL;
       T (L "           results of 10 statistical checks for the estimated answer for the tally fluctuation chart (tfc) bin of tally "); F 0 0; NL; NL;
       T (L " tfc bin     --mean--      ---------relative error---------      ----variance of the variance----      --figure of merit--     -pdf-"); NL;
       T (L " behavior    behavior      value   decrease   decrease rate      value   decrease   decrease rate       value     behavior     slope"); NL; NL; F 6 0; NL; F 7 0; NL; F 8 0; NL; NL;
       T (L " ==================================================================================================================================="); NL; NL; NL;
       T (L " this tally meets the statistical criteria used to form confidence intervals: check the tally fluctuation chart to verify."); NL;
       T (L " the results in other bins associated with this tally may not meet these statistical criteria."); NL; NL;
       T (L " ----- estimated confidence intervals:  -----"); NL; NL;
       T (L " estimated asymmetric confidence interval(1,2,3 sigma): "); F 9 0; NL;
       T (L " estimated  symmetric confidence interval(1,2,3 sigma): "); F 10 0; NL];
     t_cut := 0 |}.
Definition y_Tally_4 : tally_class := {| y_table := t_Tally_4; y_group := 7; y_sub := s_Subtally_4; y_message := None |}.
(** outp/Tally_8A.py:30-48 (pattern), 118-159 (groups), 161-198 (text). *)
Definition t_Tally_8A : table :=
  {| t_name := "Tally_8A"%string;
     t_pat := L "\A1tally (.{8})        nps = (.{11})\n           tally type (.+)\n" ++
       L "           particle[(]s[)]: (.+)(\n.*)?\n \n((?: cell  (.+)\n" ++
       L "      energy   \n((?:.+\n)+)      total      (.+)\n\n)+)\n ===================================================================================================================================\n" ++
       L "\n           results of 10 statistical checks for the estimated answer for the tally fluctuation chart [(]tfc[)] bin of tally .{8}\n" ++
       L "\n tfc bin     --mean--      ---------relative error---------      ----variance of the variance----      --figure of merit--     -pdf-\n" ++
       L " behavior    behavior      value   decrease   decrease rate      value   decrease   decrease rate       value     behavior     slope\n" ++
       L "\n( .+)\n( .+)\n( .+)\n\n ===================================================================================================================================\n" ++
       L "\n\n this tally meets the statistical criteria used to form confidence intervals: check the tally fluctuation chart to verify[.]\n" ++
       L " the results in other bins associated with this tally may not meet these statistical criteria[.]\n" ++
       L "\n ----- estimated confidence intervals:  -----\n\n estimated asymmetric confidence interval[(]1,2,3 sigma[)]: (.+)\n" ++
       L " estimated  symmetric confidence interval[(]1,2,3 sigma[)]: (.+)\n" ++
       L "\Z";
     t_groups := [1; 2; 3; 4; 10; 11; 12; 13; 14];
     t_out := [NL;
       T (L "1tally "); F 0 0; T (L "        nps = "); F 1 0; NL;
       T (L "           tally type "); F 2 0; NL;
       T (L "           particle(s): "); F 3 0; F 9 0; NL;
       T (L " "); NL; F 10 0; NL;
       T (L " ==================================================================================================================================="); NL; NL;
       T (L "           results of 10 statistical checks for the estimated answer for the tally fluctuation chart (tfc) bin of tally "); F 0 0; NL; NL;
       T (L " tfc bin     --mean--      ---------relative error---------      ----variance of the variance----      --figure of merit--     -pdf-"); NL;
       T (L " behavior    behavior      value   decrease   decrease rate      value   decrease   decrease rate       value     behavior     slope"); NL; NL; F 4 0; NL; F 5 0; NL; F 6 0; NL; NL;
       T (L " ==================================================================================================================================="); NL; NL; NL;
       T (L " this tally meets the statistical criteria used to form confidence intervals: check the tally fluctuation chart to verify."); NL;
       T (L " the results in other bins associated with this tally may not meet these statistical criteria."); NL; NL;
       T (L " ----- estimated confidence intervals:  -----"); NL; NL;
       T (L " estimated asymmetric confidence interval(1,2,3 sigma): "); F 7 0; NL;
       T (L " estimated  symmetric confidence interval(1,2,3 sigma): "); F 8 0; NL];
     t_cut := 0 |}.
Definition y_Tally_8A : tally_class := {| y_table := t_Tally_8A; y_group := 6; y_sub := s_Subtally_4; y_message := Some 5 |}.
(** outp/Tally_8B.py:29-43 (pattern), 110-149 (groups), 151-182 (text). *)
Definition t_Tally_8B : table :=
  {| t_name := "Tally_8B"%string;
     t_pat := L "\A1tally (.{8})        nps = (.{11})\n           tally type (.+)\n" ++
       L "           particle[(]s[)]: (.+)(\n.*)?\n \n((?: cell  (.+)\n" ++
       L "      energy   \n((?:.+\n)+)      total      (.+)\n\n)+)\n ===================================================================================================================================\n" ++
       L "\n           results of 10 statistical checks for the estimated answer for the tally fluctuation chart [(]tfc[)] bin of tally .{8}\n" ++
       L "\n tfc bin     --mean--      ---------relative error---------      ----variance of the variance----      --figure of merit--     -pdf-\n" ++
       L " behavior    behavior      value   decrease   decrease rate      value   decrease   decrease rate       value     behavior     slope\n" ++
       L "\n( .+)\n( .+)\n( .+)\n\n ===================================================================================================================================\n" ++
       L "\n\n warning[.]  the tally in the tally fluctuation chart bin did not pass (..) of the 10 statistical checks[.]\n" ++
       L "\Z";
     t_groups := [1; 2; 3; 4; 10; 11; 12; 13];
     t_out := [NL;
       T (L "1tally "); F 0 0; T (L "        nps = "); F 1 0; NL;
       T (L "           tally type "); F 2 0; NL;
       T (L "           particle(s): "); F 3 0; F 8 0; NL;
       T (L " "); NL; F 9 0; NL;
       T (L " ==================================================================================================================================="); NL; NL;
       T (L "           results of 10 statistical checks for the estimated answer for the tally fluctuation chart (tfc) bin of tally "); F 0 0; NL; NL;
       T (L " tfc bin     --mean--      ---------relative error---------      ----variance of the variance----      --figure of merit--     -pdf-"); NL;
       T (L " behavior    behavior      value   decrease   decrease rate      value   decrease   decrease rate       value     behavior     slope"); NL; NL; F 4 0; NL; F 5 0; NL; F 6 0; NL; NL;
       T (L " ==================================================================================================================================="); NL; NL; NL;
       T (L " warning.  the tally in the tally fluctuation chart bin did not pass "); F 7 0; T (L " of the 10 statistical checks."); NL];
     t_cut := 0 |}.
Definition y_Tally_8B : tally_class := {| y_table := t_Tally_8B; y_group := 6; y_sub := s_Subtally_4; y_message := Some 5 |}.
