(** The isotope table, _elements.py, copied literal for literal by tools/gen_elements.py.
    Masses and fractions are the decimal numbers of the source text, as exact rationals. *)
From Coq Require Import ZArith QArith String List.
From Verif Require Import PyStr.
Import ListNotations.
Open Scope Q_scope.

(** One value of the dictionary: ['z'], ['mass'] and ['fraction'] (_elements.py:8). *)
Record element := { e_z : Z; e_mass : list (Z * Q); e_fraction : list (Z * Q) }.

(** _elements.py:9-24 *)
Definition el_H : element :=
  {| e_z := 1;
     e_mass := [(1%Z, 1.00782503223); (2%Z, 2.01410177812); (3%Z, 3.0160492779); (4%Z, 4.02643); (5%Z, 5.035311); (6%Z, 6.04496); (7%Z, 7.0527)];
     e_fraction := [(1%Z, 0.999885); (2%Z, 0.000115)] |}.
(** _elements.py:25-41 *)
Definition el_He : element :=
  {| e_z := 2;
     e_mass := [(3%Z, 3.0160293201); (4%Z, 4.00260325413); (5%Z, 5.012057); (6%Z, 6.018885891); (7%Z, 7.0279907); (8%Z, 8.03393439); (9%Z, 9.043946); (10%Z, 10.05279)];
     e_fraction := [(3%Z, 1.34e-06); (4%Z, 0.99999866)] |}.
(** _elements.py:42-61 *)
Definition el_Li : element :=
  {| e_z := 3;
     e_mass := [(3%Z, 3.0308); (4%Z, 4.02719); (5%Z, 5.012538); (6%Z, 6.0151228874); (7%Z, 7.0160034366); (8%Z, 8.022486246); (9%Z, 9.02679019); (10%Z, 10.035483); (11%Z, 11.04372358); (12%Z, 12.052517); (13%Z, 13.06263)];
     e_fraction := [(6%Z, 0.0759); (7%Z, 0.9241)] |}.
(** _elements.py:62-81 *)
Definition el_Be : element :=
  {| e_z := 4;
     e_mass := [(5%Z, 5.0399); (6%Z, 6.0197264); (7%Z, 7.016928717); (8%Z, 8.005305102); (9%Z, 9.012183065); (10%Z, 10.013534695); (11%Z, 11.02166108); (12%Z, 12.0269221); (13%Z, 13.036135); (14%Z, 14.04289); (15%Z, 15.05342); (16%Z, 16.06167)];
     e_fraction := [(9%Z, 1.0)] |}.
(** _elements.py:82-106 *)
Definition el_B : element :=
  {| e_z := 5;
     e_mass := [(6%Z, 6.0508); (7%Z, 7.029712); (8%Z, 8.0246073); (9%Z, 9.01332965); (10%Z, 10.01293695); (11%Z, 11.00930536); (12%Z, 12.0143527); (13%Z, 13.0177802); (14%Z, 14.025404); (15%Z, 15.031088); (16%Z, 16.039842); (17%Z, 17.04699); (18%Z, 18.05566); (19%Z, 19.0631); (20%Z, 20.07207); (21%Z, 21.08129)];
     e_fraction := [(10%Z, 0.199); (11%Z, 0.801)] |}.
(** _elements.py:107-131 *)
Definition el_C : element :=
  {| e_z := 6;
     e_mass := [(8%Z, 8.037643); (9%Z, 9.0310372); (10%Z, 10.01685331); (11%Z, 11.0114336); (12%Z, 12.0); (13%Z, 13.00335483507); (14%Z, 14.0032419884); (15%Z, 15.01059926); (16%Z, 16.0147013); (17%Z, 17.022577); (18%Z, 18.026751); (19%Z, 19.0348); (20%Z, 20.04032); (21%Z, 21.049); (22%Z, 22.05753); (23%Z, 23.0689)];
     e_fraction := [(12%Z, 0.9893); (13%Z, 0.0107)] |}.
(** _elements.py:132-156 *)
Definition el_N : element :=
  {| e_z := 7;
     e_mass := [(10%Z, 10.04165); (11%Z, 11.026091); (12%Z, 12.0186132); (13%Z, 13.00573861); (14%Z, 14.00307400443); (15%Z, 15.00010889888); (16%Z, 16.0061019); (17%Z, 17.008449); (18%Z, 18.014078); (19%Z, 19.017022); (20%Z, 20.023366); (21%Z, 21.02711); (22%Z, 22.03439); (23%Z, 23.04114); (24%Z, 24.05039); (25%Z, 25.0601)];
     e_fraction := [(14%Z, 0.99636); (15%Z, 0.00364)] |}.
(** _elements.py:157-183 *)
Definition el_O : element :=
  {| e_z := 8;
     e_mass := [(12%Z, 12.034262); (13%Z, 13.024815); (14%Z, 14.00859636); (15%Z, 15.00306562); (16%Z, 15.99491461957); (17%Z, 16.9991317565); (18%Z, 17.99915961286); (19%Z, 19.003578); (20%Z, 20.00407535); (21%Z, 21.008655); (22%Z, 22.009966); (23%Z, 23.015696); (24%Z, 24.01986); (25%Z, 25.02936); (26%Z, 26.03729); (27%Z, 27.04772); (28%Z, 28.05591)];
     e_fraction := [(16%Z, 0.99757); (17%Z, 0.00038); (18%Z, 0.00205)] |}.
(** _elements.py:184-209 *)
Definition el_F : element :=
  {| e_z := 9;
     e_mass := [(14%Z, 14.034315); (15%Z, 15.018043); (16%Z, 16.0114657); (17%Z, 17.00209524); (18%Z, 18.00093733); (19%Z, 18.99840316273); (20%Z, 19.999981252); (21%Z, 20.9999489); (22%Z, 22.002999); (23%Z, 23.003557); (24%Z, 24.008115); (25%Z, 25.012199); (26%Z, 26.020038); (27%Z, 27.02644); (28%Z, 28.03534); (29%Z, 29.04254); (30%Z, 30.05165); (31%Z, 31.05971)];
     e_fraction := [(19%Z, 1.0)] |}.
(** _elements.py:210-238 *)
Definition el_Ne : element :=
  {| e_z := 10;
     e_mass := [(16%Z, 16.02575); (17%Z, 17.01771396); (18%Z, 18.0057087); (19%Z, 19.00188091); (20%Z, 19.9924401762); (21%Z, 20.993846685); (22%Z, 21.991385114); (23%Z, 22.99446691); (24%Z, 23.99361065); (25%Z, 24.997789); (26%Z, 26.000515); (27%Z, 27.007553); (28%Z, 28.01212); (29%Z, 29.01975); (30%Z, 30.02473); (31%Z, 31.0331); (32%Z, 32.03972); (33%Z, 33.04938); (34%Z, 34.05673)];
     e_fraction := [(20%Z, 0.9048); (21%Z, 0.0027); (22%Z, 0.0925)] |}.
(** _elements.py:239-266 *)
Definition el_Na : element :=
  {| e_z := 11;
     e_mass := [(18%Z, 18.02688); (19%Z, 19.01388); (20%Z, 20.0073544); (21%Z, 20.99765469); (22%Z, 21.99443741); (23%Z, 22.989769282); (24%Z, 23.99096295); (25%Z, 24.989954); (26%Z, 25.9926346); (27%Z, 26.9940765); (28%Z, 27.998939); (29%Z, 29.0028771); (30%Z, 30.0090979); (31%Z, 31.013163); (32%Z, 32.02019); (33%Z, 33.02573); (34%Z, 34.03359); (35%Z, 35.04062); (36%Z, 36.04929); (37%Z, 37.05705)];
     e_fraction := [(23%Z, 1.0)] |}.
(** _elements.py:267-298 *)
Definition el_Mg : element :=
  {| e_z := 12;
     e_mass := [(19%Z, 19.034169); (20%Z, 20.01885); (21%Z, 21.011716); (22%Z, 21.99957065); (23%Z, 22.99412421); (24%Z, 23.985041697); (25%Z, 24.985836976); (26%Z, 25.982592968); (27%Z, 26.984340624); (28%Z, 27.9838767); (29%Z, 28.988617); (30%Z, 29.9904629); (31%Z, 30.996648); (32%Z, 31.9991102); (33%Z, 33.0053271); (34%Z, 34.008935); (35%Z, 35.01679); (36%Z, 36.02188); (37%Z, 37.03037); (38%Z, 38.03658); (39%Z, 39.04538); (40%Z, 40.05218)];
     e_fraction := [(24%Z, 0.7899); (25%Z, 0.1); (26%Z, 0.1101)] |}.
(** _elements.py:299-329 *)
Definition el_Al : element :=
  {| e_z := 13;
     e_mass := [(21%Z, 21.02897); (22%Z, 22.01954); (23%Z, 23.00724435); (24%Z, 23.9999489); (25%Z, 24.9904281); (26%Z, 25.986891904); (27%Z, 26.98153853); (28%Z, 27.98191021); (29%Z, 28.9804565); (30%Z, 29.98296); (31%Z, 30.983945); (32%Z, 31.988085); (33%Z, 32.990909); (34%Z, 33.996705); (35%Z, 34.999764); (36%Z, 36.00639); (37%Z, 37.01053); (38%Z, 38.0174); (39%Z, 39.02254); (40%Z, 40.03003); (41%Z, 41.03638); (42%Z, 42.04384); (43%Z, 43.05147)];
     e_fraction := [(27%Z, 1.0)] |}.
(** _elements.py:330-363 *)
Definition el_Si : element :=
  {| e_z := 14;
     e_mass := [(22%Z, 22.03579); (23%Z, 23.02544); (24%Z, 24.011535); (25%Z, 25.004109); (26%Z, 25.99233384); (27%Z, 26.98670481); (28%Z, 27.97692653465); (29%Z, 28.9764946649); (30%Z, 29.973770136); (31%Z, 30.975363194); (32%Z, 31.97415154); (33%Z, 32.97797696); (34%Z, 33.978576); (35%Z, 34.984583); (36%Z, 35.986695); (37%Z, 36.992921); (38%Z, 37.995523); (39%Z, 39.002491); (40%Z, 40.00583); (41%Z, 41.01301); (42%Z, 42.01778); (43%Z, 43.0248); (44%Z, 44.03061); (45%Z, 45.03995)];
     e_fraction := [(28%Z, 0.92223); (29%Z, 0.04685); (30%Z, 0.03092)] |}.
(** _elements.py:364-395 *)
Definition el_P : element :=
  {| e_z := 15;
     e_mass := [(24%Z, 24.03577); (25%Z, 25.02119); (26%Z, 26.01178); (27%Z, 26.999224); (28%Z, 27.9923266); (29%Z, 28.98180079); (30%Z, 29.97831375); (31%Z, 30.97376199842); (32%Z, 31.973907643); (33%Z, 32.9717257); (34%Z, 33.97364589); (35%Z, 34.9733141); (36%Z, 35.97826); (37%Z, 36.979607); (38%Z, 37.984252); (39%Z, 38.986227); (40%Z, 39.99133); (41%Z, 40.994654); (42%Z, 42.00108); (43%Z, 43.00502); (44%Z, 44.01121); (45%Z, 45.01645); (46%Z, 46.02446); (47%Z, 47.03139)];
     e_fraction := [(31%Z, 1.0)] |}.
(** _elements.py:396-430 *)
Definition el_S : element :=
  {| e_z := 16;
     e_mass := [(26%Z, 26.02907); (27%Z, 27.01828); (28%Z, 28.00437); (29%Z, 28.996611); (30%Z, 29.98490703); (31%Z, 30.97955701); (32%Z, 31.9720711744); (33%Z, 32.9714589098); (34%Z, 33.967867004); (35%Z, 34.96903231); (36%Z, 35.96708071); (37%Z, 36.97112551); (38%Z, 37.9711633); (39%Z, 38.975134); (40%Z, 39.9754826); (41%Z, 40.9795935); (42%Z, 41.9810651); (43%Z, 42.9869076); (44%Z, 43.9901188); (45%Z, 44.99572); (46%Z, 46.00004); (47%Z, 47.00795); (48%Z, 48.0137); (49%Z, 49.02276)];
     e_fraction := [(32%Z, 0.9499); (33%Z, 0.0075); (34%Z, 0.0425); (36%Z, 0.0001)] |}.
(** _elements.py:431-463 *)
Definition el_Cl : element :=
  {| e_z := 17;
     e_mass := [(28%Z, 28.02954); (29%Z, 29.01478); (30%Z, 30.00477); (31%Z, 30.992414); (32%Z, 31.98568464); (33%Z, 32.97745199); (34%Z, 33.973762485); (35%Z, 34.968852682); (36%Z, 35.968306809); (37%Z, 36.965902602); (38%Z, 37.96801044); (39%Z, 38.9680082); (40%Z, 39.970415); (41%Z, 40.970685); (42%Z, 41.97325); (43%Z, 42.97389); (44%Z, 43.97787); (45%Z, 44.98029); (46%Z, 45.98517); (47%Z, 46.98916); (48%Z, 47.99564); (49%Z, 49.00123); (50%Z, 50.00905); (51%Z, 51.01554)];
     e_fraction := [(35%Z, 0.7576); (37%Z, 0.2424)] |}.
(** _elements.py:464-497 *)
Definition el_Ar : element :=
  {| e_z := 18;
     e_mass := [(30%Z, 30.02307); (31%Z, 31.01212); (32%Z, 31.9976378); (33%Z, 32.98992555); (34%Z, 33.98027009); (35%Z, 34.97525759); (36%Z, 35.967545105); (37%Z, 36.96677633); (38%Z, 37.96273211); (39%Z, 38.964313); (40%Z, 39.9623831237); (41%Z, 40.96450057); (42%Z, 41.9630457); (43%Z, 42.9656361); (44%Z, 43.9649238); (45%Z, 44.96803973); (46%Z, 45.968083); (47%Z, 46.972935); (48%Z, 47.97591); (49%Z, 48.9819); (50%Z, 49.98613); (51%Z, 50.9937); (52%Z, 51.99896); (53%Z, 53.00729)];
     e_fraction := [(36%Z, 0.003336); (38%Z, 0.000629); (40%Z, 0.996035)] |}.
(** _elements.py:498-532 *)
Definition el_K : element :=
  {| e_z := 19;
     e_mass := [(32%Z, 32.02265); (33%Z, 33.00756); (34%Z, 33.99869); (35%Z, 34.98800541); (36%Z, 35.98130201); (37%Z, 36.97337589); (38%Z, 37.96908112); (39%Z, 38.9637064864); (40%Z, 39.963998166); (41%Z, 40.9618252579); (42%Z, 41.96240231); (43%Z, 42.9607347); (44%Z, 43.96158699); (45%Z, 44.96069149); (46%Z, 45.96198159); (47%Z, 46.9616616); (48%Z, 47.96534119); (49%Z, 48.96821075); (50%Z, 49.97238); (51%Z, 50.975828); (52%Z, 51.98224); (53%Z, 52.98746); (54%Z, 53.99463); (55%Z, 55.00076); (56%Z, 56.00851)];
     e_fraction := [(39%Z, 0.932581); (40%Z, 0.000117); (41%Z, 0.067302)] |}.
(** _elements.py:533-570 *)
Definition el_Ca : element :=
  {| e_z := 20;
     e_mass := [(34%Z, 34.01487); (35%Z, 35.00514); (36%Z, 35.993074); (37%Z, 36.98589785); (38%Z, 37.97631922); (39%Z, 38.97071081); (40%Z, 39.962590863); (41%Z, 40.96227792); (42%Z, 41.95861783); (43%Z, 42.95876644); (44%Z, 43.95548156); (45%Z, 44.95618635); (46%Z, 45.953689); (47%Z, 46.9545424); (48%Z, 47.95252276); (49%Z, 48.95566274); (50%Z, 49.9574992); (51%Z, 50.960989); (52%Z, 51.963217); (53%Z, 52.96945); (54%Z, 53.9734); (55%Z, 54.9803); (56%Z, 55.98508); (57%Z, 56.99262); (58%Z, 57.99794)];
     e_fraction := [(40%Z, 0.96941); (42%Z, 0.00647); (43%Z, 0.00135); (44%Z, 0.02086); (46%Z, 4e-05); (48%Z, 0.00187)] |}.
(** _elements.py:571-604 *)
Definition el_Sc : element :=
  {| e_z := 21;
     e_mass := [(36%Z, 36.01648); (37%Z, 37.00374); (38%Z, 37.99512); (39%Z, 38.984785); (40%Z, 39.9779673); (41%Z, 40.969251105); (42%Z, 41.96551653); (43%Z, 42.9611505); (44%Z, 43.9594029); (45%Z, 44.95590828); (46%Z, 45.95516826); (47%Z, 46.9524037); (48%Z, 47.9522236); (49%Z, 48.9500146); (50%Z, 49.952176); (51%Z, 50.953592); (52%Z, 51.95688); (53%Z, 52.95909); (54%Z, 53.96393); (55%Z, 54.96782); (56%Z, 55.97345); (57%Z, 56.97777); (58%Z, 57.98403); (59%Z, 58.98894); (60%Z, 59.99565); (61%Z, 61.001)];
     e_fraction := [(45%Z, 1.0)] |}.
(** _elements.py:605-642 *)
Definition el_Ti : element :=
  {| e_z := 22;
     e_mass := [(38%Z, 38.01145); (39%Z, 39.00236); (40%Z, 39.9905); (41%Z, 40.983148); (42%Z, 41.97304903); (43%Z, 42.9685225); (44%Z, 43.95968995); (45%Z, 44.95812198); (46%Z, 45.95262772); (47%Z, 46.95175879); (48%Z, 47.94794198); (49%Z, 48.94786568); (50%Z, 49.94478689); (51%Z, 50.94661065); (52%Z, 51.946893); (53%Z, 52.94973); (54%Z, 53.95105); (55%Z, 54.95527); (56%Z, 55.95791); (57%Z, 56.96364); (58%Z, 57.9666); (59%Z, 58.97247); (60%Z, 59.97603); (61%Z, 60.98245); (62%Z, 61.98651); (63%Z, 62.99375)];
     e_fraction := [(46%Z, 0.0825); (47%Z, 0.0744); (48%Z, 0.7372); (49%Z, 0.0541); (50%Z, 0.0518)] |}.
(** _elements.py:643-678 *)
Definition el_V : element :=
  {| e_z := 23;
     e_mass := [(40%Z, 40.01276); (41%Z, 41.00021); (42%Z, 41.99182); (43%Z, 42.980766); (44%Z, 43.97411); (45%Z, 44.9657748); (46%Z, 45.96019878); (47%Z, 46.95490491); (48%Z, 47.9522522); (49%Z, 48.9485118); (50%Z, 49.94715601); (51%Z, 50.94395704); (52%Z, 51.94477301); (53%Z, 52.9443367); (54%Z, 53.946439); (55%Z, 54.94724); (56%Z, 55.95048); (57%Z, 56.95252); (58%Z, 57.95672); (59%Z, 58.95939); (60%Z, 59.96431); (61%Z, 60.96725); (62%Z, 61.97265); (63%Z, 62.97639); (64%Z, 63.98264); (65%Z, 64.9875); (66%Z, 65.99398)];
     e_fraction := [(50%Z, 0.0025); (51%Z, 0.9975)] |}.
(** _elements.py:679-716 *)
Definition el_Cr : element :=
  {| e_z := 24;
     e_mass := [(42%Z, 42.0067); (43%Z, 42.99753); (44%Z, 43.98536); (45%Z, 44.97905); (46%Z, 45.968359); (47%Z, 46.9628974); (48%Z, 47.9540291); (49%Z, 48.9513333); (50%Z, 49.94604183); (51%Z, 50.94476502); (52%Z, 51.94050623); (53%Z, 52.94064815); (54%Z, 53.93887916); (55%Z, 54.94083843); (56%Z, 55.9406531); (57%Z, 56.943613); (58%Z, 57.94435); (59%Z, 58.94859); (60%Z, 59.95008); (61%Z, 60.95442); (62%Z, 61.9561); (63%Z, 62.96165); (64%Z, 63.96408); (65%Z, 64.96996); (66%Z, 65.97366); (67%Z, 66.98016); (68%Z, 67.98403)];
     e_fraction := [(50%Z, 0.04345); (52%Z, 0.83789); (53%Z, 0.09501); (54%Z, 0.02365)] |}.
(** _elements.py:717-752 *)
Definition el_Mn : element :=
  {| e_z := 25;
     e_mass := [(44%Z, 44.00715); (45%Z, 44.99449); (46%Z, 45.98609); (47%Z, 46.975775); (48%Z, 47.96852); (49%Z, 48.959595); (50%Z, 49.95423778); (51%Z, 50.94820847); (52%Z, 51.9455639); (53%Z, 52.94128889); (54%Z, 53.9403576); (55%Z, 54.93804391); (56%Z, 55.93890369); (57%Z, 56.9382861); (58%Z, 57.9400666); (59%Z, 58.9403911); (60%Z, 59.9431366); (61%Z, 60.9444525); (62%Z, 61.94795); (63%Z, 62.9496647); (64%Z, 63.9538494); (65%Z, 64.9560198); (66%Z, 65.960547); (67%Z, 66.96424); (68%Z, 67.96962); (69%Z, 68.97366); (70%Z, 69.97937); (71%Z, 70.98368)];
     e_fraction := [(55%Z, 1.0)] |}.
(** _elements.py:753-793 *)
Definition el_Fe : element :=
  {| e_z := 26;
     e_mass := [(45%Z, 45.01442); (46%Z, 46.00063); (47%Z, 46.99185); (48%Z, 47.98023); (49%Z, 48.973429); (50%Z, 49.962975); (51%Z, 50.956841); (52%Z, 51.9481131); (53%Z, 52.9453064); (54%Z, 53.93960899); (55%Z, 54.93829199); (56%Z, 55.93493633); (57%Z, 56.93539284); (58%Z, 57.93327443); (59%Z, 58.93487434); (60%Z, 59.9340711); (61%Z, 60.9367462); (62%Z, 61.9367918); (63%Z, 62.9402727); (64%Z, 63.9409878); (65%Z, 64.9450115); (66%Z, 65.94625); (67%Z, 66.95054); (68%Z, 67.95295); (69%Z, 68.95807); (70%Z, 69.96102); (71%Z, 70.96672); (72%Z, 71.96983); (73%Z, 72.97572); (74%Z, 73.97935)];
     e_fraction := [(54%Z, 0.05845); (56%Z, 0.91754); (57%Z, 0.02119); (58%Z, 0.00282)] |}.
(** _elements.py:794-831 *)
Definition el_Co : element :=
  {| e_z := 27;
     e_mass := [(47%Z, 47.01057); (48%Z, 48.00093); (49%Z, 48.98891); (50%Z, 49.98091); (51%Z, 50.970647); (52%Z, 51.96351); (53%Z, 52.9542041); (54%Z, 53.94845987); (55%Z, 54.9419972); (56%Z, 55.9398388); (57%Z, 56.93629057); (58%Z, 57.9357521); (59%Z, 58.93319429); (60%Z, 59.9338163); (61%Z, 60.93247662); (62%Z, 61.934059); (63%Z, 62.9336); (64%Z, 63.935811); (65%Z, 64.9364621); (66%Z, 65.939443); (67%Z, 66.9406096); (68%Z, 67.94426); (69%Z, 68.94614); (70%Z, 69.94963); (71%Z, 70.95237); (72%Z, 71.95729); (73%Z, 72.96039); (74%Z, 73.96515); (75%Z, 74.96876); (76%Z, 75.97413)];
     e_fraction := [(59%Z, 1.0)] |}.
(** _elements.py:832-875 *)
Definition el_Ni : element :=
  {| e_z := 28;
     e_mass := [(48%Z, 48.01769); (49%Z, 49.0077); (50%Z, 49.99474); (51%Z, 50.98611); (52%Z, 51.9748); (53%Z, 52.96819); (54%Z, 53.957892); (55%Z, 54.95133063); (56%Z, 55.94212855); (57%Z, 56.93979218); (58%Z, 57.93534241); (59%Z, 58.9343462); (60%Z, 59.93078588); (61%Z, 60.93105557); (62%Z, 61.92834537); (63%Z, 62.92966963); (64%Z, 63.92796682); (65%Z, 64.93008517); (66%Z, 65.9291393); (67%Z, 66.9315694); (68%Z, 67.9318688); (69%Z, 68.9356103); (70%Z, 69.9364313); (71%Z, 70.940519); (72%Z, 71.9417859); (73%Z, 72.9462067); (74%Z, 73.94798); (75%Z, 74.9525); (76%Z, 75.95533); (77%Z, 76.96055); (78%Z, 77.96336); (79%Z, 78.97025)];
     e_fraction := [(58%Z, 0.68077); (60%Z, 0.26223); (61%Z, 0.011399); (62%Z, 0.036346); (64%Z, 0.009255)] |}.
(** _elements.py:876-915 *)
Definition el_Cu : element :=
  {| e_z := 29;
     e_mass := [(52%Z, 51.99671); (53%Z, 52.98459); (54%Z, 53.97666); (55%Z, 54.96604); (56%Z, 55.95895); (57%Z, 56.9492125); (58%Z, 57.94453305); (59%Z, 58.93949748); (60%Z, 59.9373645); (61%Z, 60.9334576); (62%Z, 61.93259541); (63%Z, 62.92959772); (64%Z, 63.92976434); (65%Z, 64.9277897); (66%Z, 65.92886903); (67%Z, 66.9277303); (68%Z, 67.9296109); (69%Z, 68.9294293); (70%Z, 69.9323921); (71%Z, 70.9326768); (72%Z, 71.9358203); (73%Z, 72.9366744); (74%Z, 73.9398749); (75%Z, 74.9415226); (76%Z, 75.945275); (77%Z, 76.94792); (78%Z, 77.95223); (79%Z, 78.95502); (80%Z, 79.96089); (81%Z, 80.96587); (82%Z, 81.97244)];
     e_fraction := [(63%Z, 0.6915); (65%Z, 0.3085)] |}.
(** _elements.py:916-959 *)
Definition el_Zn : element :=
  {| e_z := 30;
     e_mass := [(54%Z, 53.99204); (55%Z, 54.98398); (56%Z, 55.97254); (57%Z, 56.96506); (58%Z, 57.954591); (59%Z, 58.94931266); (60%Z, 59.9418421); (61%Z, 60.939507); (62%Z, 61.93433397); (63%Z, 62.9332115); (64%Z, 63.92914201); (65%Z, 64.92924077); (66%Z, 65.92603381); (67%Z, 66.92712775); (68%Z, 67.92484455); (69%Z, 68.9265507); (70%Z, 69.9253192); (71%Z, 70.9277196); (72%Z, 71.9268428); (73%Z, 72.9295826); (74%Z, 73.9294073); (75%Z, 74.9328402); (76%Z, 75.933115); (77%Z, 76.9368872); (78%Z, 77.9382892); (79%Z, 78.9426381); (80%Z, 79.9445529); (81%Z, 80.9504026); (82%Z, 81.95426); (83%Z, 82.96056); (84%Z, 83.96521); (85%Z, 84.97226)];
     e_fraction := [(64%Z, 0.4917); (66%Z, 0.2773); (67%Z, 0.0404); (68%Z, 0.1845); (70%Z, 0.0061)] |}.
(** _elements.py:960-1000 *)
Definition el_Ga : element :=
  {| e_z := 31;
     e_mass := [(56%Z, 55.99536); (57%Z, 56.9832); (58%Z, 57.97478); (59%Z, 58.96353); (60%Z, 59.95729); (61%Z, 60.949399); (62%Z, 61.94419025); (63%Z, 62.9392942); (64%Z, 63.9368404); (65%Z, 64.93273459); (66%Z, 65.9315894); (67%Z, 66.9282025); (68%Z, 67.9279805); (69%Z, 68.9255735); (70%Z, 69.9260219); (71%Z, 70.92470258); (72%Z, 71.92636747); (73%Z, 72.9251747); (74%Z, 73.9269457); (75%Z, 74.9265002); (76%Z, 75.9288276); (77%Z, 76.9291543); (78%Z, 77.9316088); (79%Z, 78.9328523); (80%Z, 79.9364208); (81%Z, 80.9381338); (82%Z, 81.9431765); (83%Z, 82.9471203); (84%Z, 83.95246); (85%Z, 84.95699); (86%Z, 85.96301); (87%Z, 86.96824)];
     e_fraction := [(69%Z, 0.60108); (71%Z, 0.39892)] |}.
(** _elements.py:1001-1045 *)
Definition el_Ge : element :=
  {| e_z := 32;
     e_mass := [(58%Z, 57.99172); (59%Z, 58.98249); (60%Z, 59.97036); (61%Z, 60.96379); (62%Z, 61.95502); (63%Z, 62.949628); (64%Z, 63.9416899); (65%Z, 64.9393681); (66%Z, 65.9338621); (67%Z, 66.9327339); (68%Z, 67.9280953); (69%Z, 68.9279645); (70%Z, 69.92424875); (71%Z, 70.92495233); (72%Z, 71.922075826); (73%Z, 72.923458956); (74%Z, 73.921177761); (75%Z, 74.92285837); (76%Z, 75.921402726); (77%Z, 76.923549843); (78%Z, 77.9228529); (79%Z, 78.92536); (80%Z, 79.9253508); (81%Z, 80.9288329); (82%Z, 81.929774); (83%Z, 82.9345391); (84%Z, 83.9375751); (85%Z, 84.9429697); (86%Z, 85.94658); (87%Z, 86.95268); (88%Z, 87.95691); (89%Z, 88.96379); (90%Z, 89.96863)];
     e_fraction := [(70%Z, 0.2057); (72%Z, 0.2745); (73%Z, 0.0775); (74%Z, 0.365); (76%Z, 0.0773)] |}.
(** _elements.py:1046-1086 *)
Definition el_As : element :=
  {| e_z := 33;
     e_mass := [(60%Z, 59.99388); (61%Z, 60.98112); (62%Z, 61.97361); (63%Z, 62.9639); (64%Z, 63.95743); (65%Z, 64.949611); (66%Z, 65.9441488); (67%Z, 66.93925111); (68%Z, 67.9367741); (69%Z, 68.932246); (70%Z, 69.930926); (71%Z, 70.9271138); (72%Z, 71.9267523); (73%Z, 72.9238291); (74%Z, 73.9239286); (75%Z, 74.92159457); (76%Z, 75.92239202); (77%Z, 76.9206476); (78%Z, 77.921828); (79%Z, 78.9209484); (80%Z, 79.9224746); (81%Z, 80.9221323); (82%Z, 81.9247412); (83%Z, 82.9252069); (84%Z, 83.9293033); (85%Z, 84.9321637); (86%Z, 85.9367015); (87%Z, 86.9402917); (88%Z, 87.94555); (89%Z, 88.94976); (90%Z, 89.95563); (91%Z, 90.96039); (92%Z, 91.96674)];
     e_fraction := [(75%Z, 1.0)] |}.
(** _elements.py:1087-1131 *)
Definition el_Se : element :=
  {| e_z := 34;
     e_mass := [(64%Z, 63.97109); (65%Z, 64.9644); (66%Z, 65.95559); (67%Z, 66.949994); (68%Z, 67.94182524); (69%Z, 68.9394148); (70%Z, 69.9335155); (71%Z, 70.9322094); (72%Z, 71.9271405); (73%Z, 72.9267549); (74%Z, 73.922475934); (75%Z, 74.92252287); (76%Z, 75.919213704); (77%Z, 76.919914154); (78%Z, 77.91730928); (79%Z, 78.91849929); (80%Z, 79.9165218); (81%Z, 80.917993); (82%Z, 81.9166995); (83%Z, 82.9191186); (84%Z, 83.9184668); (85%Z, 84.9222608); (86%Z, 85.9243117); (87%Z, 86.9286886); (88%Z, 87.9314175); (89%Z, 88.9366691); (90%Z, 89.9401); (91%Z, 90.94596); (92%Z, 91.94984); (93%Z, 92.95629); (94%Z, 93.96049); (95%Z, 94.9673)];
     e_fraction := [(74%Z, 0.0089); (76%Z, 0.0937); (77%Z, 0.0763); (78%Z, 0.2377); (80%Z, 0.4961); (82%Z, 0.0873)] |}.
(** _elements.py:1132-1172 *)
Definition el_Br : element :=
  {| e_z := 35;
     e_mass := [(67%Z, 66.96465); (68%Z, 67.95873); (69%Z, 68.950497); (70%Z, 69.944792); (71%Z, 70.9393422); (72%Z, 71.9365886); (73%Z, 72.9316715); (74%Z, 73.9299102); (75%Z, 74.9258105); (76%Z, 75.924542); (77%Z, 76.9213792); (78%Z, 77.9211459); (79%Z, 78.9183376); (80%Z, 79.9185298); (81%Z, 80.9162897); (82%Z, 81.9168032); (83%Z, 82.9151756); (84%Z, 83.916496); (85%Z, 84.9156458); (86%Z, 85.9188054); (87%Z, 86.920674); (88%Z, 87.9240833); (89%Z, 88.9267046); (90%Z, 89.9312928); (91%Z, 90.9343986); (92%Z, 91.9396316); (93%Z, 92.94313); (94%Z, 93.9489); (95%Z, 94.95301); (96%Z, 95.95903); (97%Z, 96.96344); (98%Z, 97.96946)];
     e_fraction := [(79%Z, 0.5069); (81%Z, 0.4931)] |}.
(** _elements.py:1173-1218 *)
Definition el_Kr : element :=
  {| e_z := 36;
     e_mass := [(69%Z, 68.96518); (70%Z, 69.95604); (71%Z, 70.95027); (72%Z, 71.9420924); (73%Z, 72.9392892); (74%Z, 73.933084); (75%Z, 74.9309457); (76%Z, 75.9259103); (77%Z, 76.92467); (78%Z, 77.92036494); (79%Z, 78.9200829); (80%Z, 79.91637808); (81%Z, 80.9165912); (82%Z, 81.91348273); (83%Z, 82.91412716); (84%Z, 83.9114977282); (85%Z, 84.9125273); (86%Z, 85.9106106269); (87%Z, 86.91335476); (88%Z, 87.9144479); (89%Z, 88.9178355); (90%Z, 89.9195279); (91%Z, 90.9238063); (92%Z, 91.9261731); (93%Z, 92.9311472); (94%Z, 93.93414); (95%Z, 94.939711); (96%Z, 95.943017); (97%Z, 96.94909); (98%Z, 97.95243); (99%Z, 98.95839); (100%Z, 99.96237); (101%Z, 100.96873)];
     e_fraction := [(78%Z, 0.00355); (80%Z, 0.02286); (82%Z, 0.11593); (83%Z, 0.115); (84%Z, 0.56987); (86%Z, 0.17279)] |}.
(** _elements.py:1219-1260 *)
Definition el_Rb : element :=
  {| e_z := 37;
     e_mass := [(71%Z, 70.96532); (72%Z, 71.95908); (73%Z, 72.95053); (74%Z, 73.9442659); (75%Z, 74.9385732); (76%Z, 75.935073); (77%Z, 76.9304016); (78%Z, 77.9281419); (79%Z, 78.9239899); (80%Z, 79.9225164); (81%Z, 80.9189939); (82%Z, 81.918209); (83%Z, 82.9151142); (84%Z, 83.9143752); (85%Z, 84.9117897379); (86%Z, 85.91116743); (87%Z, 86.909180531); (88%Z, 87.91131559); (89%Z, 88.9122783); (90%Z, 89.9147985); (91%Z, 90.9165372); (92%Z, 91.9197284); (93%Z, 92.9220393); (94%Z, 93.9263948); (95%Z, 94.92926); (96%Z, 95.9341334); (97%Z, 96.9371771); (98%Z, 97.9416869); (99%Z, 98.94503); (100%Z, 99.95003); (101%Z, 100.95404); (102%Z, 101.95952); (103%Z, 102.96392)];
     e_fraction := [(85%Z, 0.7217); (87%Z, 0.2783)] |}.
(** _elements.py:1261-1306 *)
Definition el_Sr : element :=
  {| e_z := 38;
     e_mass := [(73%Z, 72.9657); (74%Z, 73.95617); (75%Z, 74.94995); (76%Z, 75.941763); (77%Z, 76.9379455); (78%Z, 77.93218); (79%Z, 78.9297077); (80%Z, 79.9245175); (81%Z, 80.9232114); (82%Z, 81.9183999); (83%Z, 82.9175544); (84%Z, 83.9134191); (85%Z, 84.912932); (86%Z, 85.9092606); (87%Z, 86.9088775); (88%Z, 87.9056125); (89%Z, 88.9074511); (90%Z, 89.90773); (91%Z, 90.9101954); (92%Z, 91.9110382); (93%Z, 92.9140242); (94%Z, 93.9153556); (95%Z, 94.9193529); (96%Z, 95.9217066); (97%Z, 96.926374); (98%Z, 97.9286888); (99%Z, 98.9328907); (100%Z, 99.93577); (101%Z, 100.940352); (102%Z, 101.943791); (103%Z, 102.94909); (104%Z, 103.95265); (105%Z, 104.95855); (106%Z, 105.96265); (107%Z, 106.96897)];
     e_fraction := [(84%Z, 0.0056); (86%Z, 0.0986); (87%Z, 0.07); (88%Z, 0.8258)] |}.
(** _elements.py:1307-1348 *)
Definition el_Y : element :=
  {| e_z := 39;
     e_mass := [(76%Z, 75.95856); (77%Z, 76.949781); (78%Z, 77.94361); (79%Z, 78.93735); (80%Z, 79.9343561); (81%Z, 80.9294556); (82%Z, 81.9269314); (83%Z, 82.922485); (84%Z, 83.9206721); (85%Z, 84.916433); (86%Z, 85.914886); (87%Z, 86.9108761); (88%Z, 87.9095016); (89%Z, 88.9058403); (90%Z, 89.9071439); (91%Z, 90.9072974); (92%Z, 91.9089451); (93%Z, 92.909578); (94%Z, 93.9115906); (95%Z, 94.9128161); (96%Z, 95.9158968); (97%Z, 96.9182741); (98%Z, 97.9223821); (99%Z, 98.924148); (100%Z, 99.927715); (101%Z, 100.9301477); (102%Z, 101.9343277); (103%Z, 102.937243); (104%Z, 103.94196); (105%Z, 104.94544); (106%Z, 105.95056); (107%Z, 106.95452); (108%Z, 107.95996); (109%Z, 108.96436)];
     e_fraction := [(89%Z, 1.0)] |}.
(** _elements.py:1349-1395 *)
Definition el_Zr : element :=
  {| e_z := 40;
     e_mass := [(78%Z, 77.95566); (79%Z, 78.94948); (80%Z, 79.9404); (81%Z, 80.93731); (82%Z, 81.93135); (83%Z, 82.9292421); (84%Z, 83.9233269); (85%Z, 84.9214444); (86%Z, 85.9162972); (87%Z, 86.914818); (88%Z, 87.9102213); (89%Z, 88.9088814); (90%Z, 89.9046977); (91%Z, 90.9056396); (92%Z, 91.9050347); (93%Z, 92.9064699); (94%Z, 93.9063108); (95%Z, 94.9080385); (96%Z, 95.9082714); (97%Z, 96.9109512); (98%Z, 97.9127289); (99%Z, 98.916667); (100%Z, 99.9180006); (101%Z, 100.921448); (102%Z, 101.9231409); (103%Z, 102.927191); (104%Z, 103.929436); (105%Z, 104.934008); (106%Z, 105.93676); (107%Z, 106.94174); (108%Z, 107.94487); (109%Z, 108.95041); (110%Z, 109.95396); (111%Z, 110.95968); (112%Z, 111.9637)];
     e_fraction := [(90%Z, 0.5145); (91%Z, 0.1122); (92%Z, 0.1715); (94%Z, 0.1738); (96%Z, 0.028)] |}.
(** _elements.py:1396-1438 *)
Definition el_Nb : element :=
  {| e_z := 41;
     e_mass := [(81%Z, 80.9496); (82%Z, 81.94396); (83%Z, 82.93729); (84%Z, 83.93449); (85%Z, 84.9288458); (86%Z, 85.9257828); (87%Z, 86.9206937); (88%Z, 87.918222); (89%Z, 88.913445); (90%Z, 89.9112584); (91%Z, 90.9069897); (92%Z, 91.9071881); (93%Z, 92.906373); (94%Z, 93.9072788); (95%Z, 94.9068324); (96%Z, 95.9080973); (97%Z, 96.9080959); (98%Z, 97.9103265); (99%Z, 98.911613); (100%Z, 99.9143276); (101%Z, 100.9153103); (102%Z, 101.9180772); (103%Z, 102.9194572); (104%Z, 103.9228925); (105%Z, 104.9249465); (106%Z, 105.9289317); (107%Z, 106.9315937); (108%Z, 107.9360748); (109%Z, 108.93922); (110%Z, 109.94403); (111%Z, 110.94753); (112%Z, 111.95247); (113%Z, 112.95651); (114%Z, 113.96201); (115%Z, 114.96634)];
     e_fraction := [(93%Z, 1.0)] |}.
(** _elements.py:1439-1487 *)
Definition el_Mo : element :=
  {| e_z := 42;
     e_mass := [(83%Z, 82.94988); (84%Z, 83.94149); (85%Z, 84.938261); (86%Z, 85.9311748); (87%Z, 86.9281962); (88%Z, 87.9219678); (89%Z, 88.9194682); (90%Z, 89.9139309); (91%Z, 90.9117453); (92%Z, 91.90680796); (93%Z, 92.90680958); (94%Z, 93.9050849); (95%Z, 94.90583877); (96%Z, 95.90467612); (97%Z, 96.90601812); (98%Z, 97.90540482); (99%Z, 98.90770851); (100%Z, 99.9074718); (101%Z, 100.9103414); (102%Z, 101.9102834); (103%Z, 102.913079); (104%Z, 103.9137344); (105%Z, 104.916969); (106%Z, 105.918259); (107%Z, 106.922106); (108%Z, 107.924033); (109%Z, 108.928424); (110%Z, 109.930704); (111%Z, 110.935654); (112%Z, 111.93831); (113%Z, 112.94335); (114%Z, 113.94653); (115%Z, 114.95196); (116%Z, 115.95545); (117%Z, 116.96117)];
     e_fraction := [(92%Z, 0.1453); (94%Z, 0.0915); (95%Z, 0.1584); (96%Z, 0.1667); (97%Z, 0.096); (98%Z, 0.2439); (100%Z, 0.0982)] |}.
(** _elements.py:1488-1529 *)
Definition el_Tc : element :=
  {| e_z := 43;
     e_mass := [(85%Z, 84.95058); (86%Z, 85.94493); (87%Z, 86.9380672); (88%Z, 87.93378); (89%Z, 88.9276487); (90%Z, 89.9240739); (91%Z, 90.9184254); (92%Z, 91.9152698); (93%Z, 92.910246); (94%Z, 93.9096536); (95%Z, 94.9076536); (96%Z, 95.907868); (97%Z, 96.9063667); (98%Z, 97.9072124); (99%Z, 98.9062508); (100%Z, 99.9076539); (101%Z, 100.907309); (102%Z, 101.9092097); (103%Z, 102.909176); (104%Z, 103.911425); (105%Z, 104.911655); (106%Z, 105.914358); (107%Z, 106.9154606); (108%Z, 107.9184957); (109%Z, 108.920256); (110%Z, 109.923744); (111%Z, 110.925901); (112%Z, 111.9299458); (113%Z, 112.932569); (114%Z, 113.93691); (115%Z, 114.93998); (116%Z, 115.94476); (117%Z, 116.94806); (118%Z, 117.95299); (119%Z, 118.95666); (120%Z, 119.96187)];
     e_fraction := [] |}.
(** _elements.py:1530-1581 *)
Definition el_Ru : element :=
  {| e_z := 44;
     e_mass := [(87%Z, 86.95069); (88%Z, 87.9416); (89%Z, 88.93762); (90%Z, 89.9303444); (91%Z, 90.9267419); (92%Z, 91.9202344); (93%Z, 92.9171044); (94%Z, 93.9113429); (95%Z, 94.910406); (96%Z, 95.90759025); (97%Z, 96.9075471); (98%Z, 97.9052868); (99%Z, 98.9059341); (100%Z, 99.9042143); (101%Z, 100.9055769); (102%Z, 101.9043441); (103%Z, 102.9063186); (104%Z, 103.9054275); (105%Z, 104.9077476); (106%Z, 105.9073291); (107%Z, 106.909972); (108%Z, 107.910188); (109%Z, 108.913326); (110%Z, 109.9140407); (111%Z, 110.91757); (112%Z, 111.918809); (113%Z, 112.922844); (114%Z, 113.9246136); (115%Z, 114.92882); (116%Z, 115.9312192); (117%Z, 116.9361); (118%Z, 117.93853); (119%Z, 118.94357); (120%Z, 119.94631); (121%Z, 120.95164); (122%Z, 121.95447); (123%Z, 122.95989); (124%Z, 123.96305)];
     e_fraction := [(96%Z, 0.0554); (98%Z, 0.0187); (99%Z, 0.1276); (100%Z, 0.126); (101%Z, 0.1706); (102%Z, 0.3155); (104%Z, 0.1862)] |}.
(** _elements.py:1582-1627 *)
Definition el_Rh : element :=
  {| e_z := 45;
     e_mass := [(89%Z, 88.95058); (90%Z, 89.94422); (91%Z, 90.93688); (92%Z, 91.9323677); (93%Z, 92.9259128); (94%Z, 93.9217305); (95%Z, 94.9158979); (96%Z, 95.914453); (97%Z, 96.911329); (98%Z, 97.910708); (99%Z, 98.9081282); (100%Z, 99.908117); (101%Z, 100.9061606); (102%Z, 101.9068374); (103%Z, 102.905498); (104%Z, 103.9066492); (105%Z, 104.9056885); (106%Z, 105.9072868); (107%Z, 106.906748); (108%Z, 107.908714); (109%Z, 108.9087488); (110%Z, 109.911079); (111%Z, 110.9116423); (112%Z, 111.914403); (113%Z, 112.9154393); (114%Z, 113.918718); (115%Z, 114.9203116); (116%Z, 115.924059); (117%Z, 116.9260354); (118%Z, 117.93034); (119%Z, 118.932557); (120%Z, 119.93686); (121%Z, 120.93942); (122%Z, 121.94399); (123%Z, 122.94685); (124%Z, 123.95151); (125%Z, 124.95469); (126%Z, 125.95946)];
     e_fraction := [(103%Z, 1.0)] |}.
(** _elements.py:1628-1678 *)
Definition el_Pd : element :=
  {| e_z := 46;
     e_mass := [(91%Z, 90.95032); (92%Z, 91.94088); (93%Z, 92.93651); (94%Z, 93.9290376); (95%Z, 94.9248898); (96%Z, 95.9182151); (97%Z, 96.916472); (98%Z, 97.9126983); (99%Z, 98.9117748); (100%Z, 99.908505); (101%Z, 100.9082864); (102%Z, 101.9056022); (103%Z, 102.9060809); (104%Z, 103.9040305); (105%Z, 104.9050796); (106%Z, 105.9034804); (107%Z, 106.9051282); (108%Z, 107.9038916); (109%Z, 108.9059504); (110%Z, 109.9051722); (111%Z, 110.90768968); (112%Z, 111.9073297); (113%Z, 112.910261); (114%Z, 113.9103686); (115%Z, 114.913659); (116%Z, 115.914297); (117%Z, 116.9179547); (118%Z, 117.9190667); (119%Z, 118.9233402); (120%Z, 119.9245511); (121%Z, 120.9289503); (122%Z, 121.930632); (123%Z, 122.93514); (124%Z, 123.93714); (125%Z, 124.94179); (126%Z, 125.94416); (127%Z, 126.94907); (128%Z, 127.95183)];
     e_fraction := [(102%Z, 0.0102); (104%Z, 0.1114); (105%Z, 0.2233); (106%Z, 0.2733); (108%Z, 0.2646); (110%Z, 0.1172)] |}.
(** _elements.py:1679-1725 *)
Definition el_Ag : element :=
  {| e_z := 47;
     e_mass := [(93%Z, 92.95033); (94%Z, 93.94373); (95%Z, 94.93602); (96%Z, 95.930744); (97%Z, 96.92397); (98%Z, 97.92156); (99%Z, 98.9176458); (100%Z, 99.9161154); (101%Z, 100.912684); (102%Z, 101.9117047); (103%Z, 102.9089631); (104%Z, 103.9086239); (105%Z, 104.9065256); (106%Z, 105.9066636); (107%Z, 106.9050916); (108%Z, 107.9059503); (109%Z, 108.9047553); (110%Z, 109.9061102); (111%Z, 110.9052959); (112%Z, 111.9070486); (113%Z, 112.906573); (114%Z, 113.908823); (115%Z, 114.908767); (116%Z, 115.9113868); (117%Z, 116.911774); (118%Z, 117.9145955); (119%Z, 118.91557); (120%Z, 119.9187848); (121%Z, 120.920125); (122%Z, 121.923664); (123%Z, 122.925337); (124%Z, 123.92893); (125%Z, 124.93105); (126%Z, 125.93475); (127%Z, 126.93711); (128%Z, 127.94106); (129%Z, 128.94395); (130%Z, 129.9507)];
     e_fraction := [(107%Z, 0.51839); (109%Z, 0.48161)] |}.
(** _elements.py:1726-1779 *)
Definition el_Cd : element :=
  {| e_z := 48;
     e_mass := [(95%Z, 94.94994); (96%Z, 95.94034); (97%Z, 96.9351); (98%Z, 97.927389); (99%Z, 98.9249258); (100%Z, 99.9203488); (101%Z, 100.9185862); (102%Z, 101.914482); (103%Z, 102.9134165); (104%Z, 103.9098564); (105%Z, 104.9094639); (106%Z, 105.9064599); (107%Z, 106.9066121); (108%Z, 107.9041834); (109%Z, 108.9049867); (110%Z, 109.90300661); (111%Z, 110.90418287); (112%Z, 111.90276287); (113%Z, 112.90440813); (114%Z, 113.90336509); (115%Z, 114.90543751); (116%Z, 115.90476315); (117%Z, 116.907226); (118%Z, 117.906922); (119%Z, 118.909847); (120%Z, 119.9098681); (121%Z, 120.9129637); (122%Z, 121.9134591); (123%Z, 122.9168925); (124%Z, 123.9176574); (125%Z, 124.9212576); (126%Z, 125.9224291); (127%Z, 126.926472); (128%Z, 127.9278129); (129%Z, 128.93182); (130%Z, 129.93394); (131%Z, 130.9406); (132%Z, 131.94604); (133%Z, 132.95285)];
     e_fraction := [(106%Z, 0.0125); (108%Z, 0.0089); (110%Z, 0.1249); (111%Z, 0.128); (112%Z, 0.2413); (113%Z, 0.1222); (114%Z, 0.2873); (116%Z, 0.0749)] |}.
(** _elements.py:1780-1827 *)
Definition el_In : element :=
  {| e_z := 49;
     e_mass := [(97%Z, 96.94934); (98%Z, 97.94214); (99%Z, 98.93411); (100%Z, 99.93096); (101%Z, 100.92634); (102%Z, 101.9241071); (103%Z, 102.9198819); (104%Z, 103.9182145); (105%Z, 104.914502); (106%Z, 105.913464); (107%Z, 106.91029); (108%Z, 107.9096935); (109%Z, 108.9071514); (110%Z, 109.90717); (111%Z, 110.9051085); (112%Z, 111.9055377); (113%Z, 112.90406184); (114%Z, 113.90491791); (115%Z, 114.903878776); (116%Z, 115.90525999); (117%Z, 116.9045157); (118%Z, 117.9063566); (119%Z, 118.9058507); (120%Z, 119.907967); (121%Z, 120.907851); (122%Z, 121.910281); (123%Z, 122.910434); (124%Z, 123.913182); (125%Z, 124.913605); (126%Z, 125.916507); (127%Z, 126.917446); (128%Z, 127.9204); (129%Z, 128.9218053); (130%Z, 129.924977); (131%Z, 130.9269715); (132%Z, 131.933001); (133%Z, 132.93831); (134%Z, 133.94454); (135%Z, 134.95005)];
     e_fraction := [(113%Z, 0.0429); (115%Z, 0.9571)] |}.
(** _elements.py:1828-1884 *)
Definition el_Sn : element :=
  {| e_z := 50;
     e_mass := [(99%Z, 98.94853); (100%Z, 99.9385); (101%Z, 100.93526); (102%Z, 101.93029); (103%Z, 102.928105); (104%Z, 103.9231052); (105%Z, 104.9212684); (106%Z, 105.9169574); (107%Z, 106.9157137); (108%Z, 107.9118943); (109%Z, 108.9112921); (110%Z, 109.907845); (111%Z, 110.9077401); (112%Z, 111.90482387); (113%Z, 112.9051757); (114%Z, 113.9027827); (115%Z, 114.903344699); (116%Z, 115.9017428); (117%Z, 116.90295398); (118%Z, 117.90160657); (119%Z, 118.90331117); (120%Z, 119.90220163); (121%Z, 120.9042426); (122%Z, 121.9034438); (123%Z, 122.9057252); (124%Z, 123.9052766); (125%Z, 124.9077864); (126%Z, 125.907659); (127%Z, 126.91039); (128%Z, 127.910507); (129%Z, 128.913465); (130%Z, 129.9139738); (131%Z, 130.917045); (132%Z, 131.9178267); (133%Z, 132.9239134); (134%Z, 133.9286821); (135%Z, 134.9349086); (136%Z, 135.93999); (137%Z, 136.94655); (138%Z, 137.95184)];
     e_fraction := [(112%Z, 0.0097); (114%Z, 0.0066); (115%Z, 0.0034); (116%Z, 0.1454); (117%Z, 0.0768); (118%Z, 0.2422); (119%Z, 0.0859); (120%Z, 0.3258); (122%Z, 0.0463); (124%Z, 0.0579)] |}.
(** _elements.py:1885-1931 *)
Definition el_Sb : element :=
  {| e_z := 51;
     e_mass := [(103%Z, 102.93969); (104%Z, 103.93648); (105%Z, 104.931276); (106%Z, 105.928638); (107%Z, 106.9241506); (108%Z, 107.9222267); (109%Z, 108.9181411); (110%Z, 109.9168543); (111%Z, 110.9132182); (112%Z, 111.9124); (113%Z, 112.909375); (114%Z, 113.90929); (115%Z, 114.906598); (116%Z, 115.9067931); (117%Z, 116.9048415); (118%Z, 117.9055321); (119%Z, 118.9039455); (120%Z, 119.9050794); (121%Z, 120.903812); (122%Z, 121.9051699); (123%Z, 122.9042132); (124%Z, 123.905935); (125%Z, 124.905253); (126%Z, 125.907253); (127%Z, 126.9069243); (128%Z, 127.909146); (129%Z, 128.909147); (130%Z, 129.911662); (131%Z, 130.9119888); (132%Z, 131.9145077); (133%Z, 132.9152732); (134%Z, 133.9205357); (135%Z, 134.9251851); (136%Z, 135.9307459); (137%Z, 136.93555); (138%Z, 137.94145); (139%Z, 138.94655); (140%Z, 139.95283)];
     e_fraction := [(121%Z, 0.5721); (123%Z, 0.4279)] |}.
(** _elements.py:1932-1985 *)
Definition el_Te : element :=
  {| e_z := 52;
     e_mass := [(105%Z, 104.9433); (106%Z, 105.9375); (107%Z, 106.935012); (108%Z, 107.9293805); (109%Z, 108.9273045); (110%Z, 109.9224581); (111%Z, 110.9210006); (112%Z, 111.9167279); (113%Z, 112.915891); (114%Z, 113.912089); (115%Z, 114.911902); (116%Z, 115.90846); (117%Z, 116.908646); (118%Z, 117.905854); (119%Z, 118.9064071); (120%Z, 119.9040593); (121%Z, 120.904944); (122%Z, 121.9030435); (123%Z, 122.9042698); (124%Z, 123.9028171); (125%Z, 124.9044299); (126%Z, 125.9033109); (127%Z, 126.9052257); (128%Z, 127.90446128); (129%Z, 128.90659646); (130%Z, 129.906222748); (131%Z, 130.908522213); (132%Z, 131.9085467); (133%Z, 132.9109688); (134%Z, 133.911394); (135%Z, 134.9165557); (136%Z, 135.9201006); (137%Z, 136.9255989); (138%Z, 137.9294722); (139%Z, 138.9353672); (140%Z, 139.939499); (141%Z, 140.9458); (142%Z, 141.95022); (143%Z, 142.95676)];
     e_fraction := [(120%Z, 0.0009); (122%Z, 0.0255); (123%Z, 0.0089); (124%Z, 0.0474); (125%Z, 0.0707); (126%Z, 0.1884); (128%Z, 0.3174); (130%Z, 0.3408)] |}.
(** _elements.py:1986-2032 *)
Definition el_I : element :=
  {| e_z := 53;
     e_mass := [(107%Z, 106.94678); (108%Z, 107.94348); (109%Z, 108.9380853); (110%Z, 109.935089); (111%Z, 110.9302692); (112%Z, 111.928005); (113%Z, 112.9236501); (114%Z, 113.92185); (115%Z, 114.918048); (116%Z, 115.91681); (117%Z, 116.913648); (118%Z, 117.913074); (119%Z, 118.910074); (120%Z, 119.910087); (121%Z, 120.9074051); (122%Z, 121.9075888); (123%Z, 122.9055885); (124%Z, 123.906209); (125%Z, 124.9046294); (126%Z, 125.9056233); (127%Z, 126.9044719); (128%Z, 127.9058086); (129%Z, 128.9049837); (130%Z, 129.9066702); (131%Z, 130.9061263); (132%Z, 131.9079935); (133%Z, 132.907797); (134%Z, 133.9097588); (135%Z, 134.9100488); (136%Z, 135.914604); (137%Z, 136.9180282); (138%Z, 137.9227264); (139%Z, 138.926506); (140%Z, 139.93173); (141%Z, 140.93569); (142%Z, 141.9412); (143%Z, 142.94565); (144%Z, 143.95139); (145%Z, 144.95605)];
     e_fraction := [(127%Z, 1.0)] |}.
(** _elements.py:2033-2088 *)
Definition el_Xe : element :=
  {| e_z := 54;
     e_mass := [(109%Z, 108.95043); (110%Z, 109.94426); (111%Z, 110.941607); (112%Z, 111.935559); (113%Z, 112.9332217); (114%Z, 113.92798); (115%Z, 114.926294); (116%Z, 115.921581); (117%Z, 116.920359); (118%Z, 117.916179); (119%Z, 118.915411); (120%Z, 119.911784); (121%Z, 120.911453); (122%Z, 121.908368); (123%Z, 122.908482); (124%Z, 123.905892); (125%Z, 124.9063944); (126%Z, 125.9042983); (127%Z, 126.9051829); (128%Z, 127.903531); (129%Z, 128.9047808611); (130%Z, 129.903509349); (131%Z, 130.90508406); (132%Z, 131.9041550856); (133%Z, 132.9059108); (134%Z, 133.90539466); (135%Z, 134.9072278); (136%Z, 135.907214484); (137%Z, 136.91155778); (138%Z, 137.9141463); (139%Z, 138.9187922); (140%Z, 139.9216458); (141%Z, 140.9267872); (142%Z, 141.9299731); (143%Z, 142.9353696); (144%Z, 143.9389451); (145%Z, 144.94472); (146%Z, 145.948518); (147%Z, 146.95426); (148%Z, 147.95813)];
     e_fraction := [(124%Z, 0.000952); (126%Z, 0.00089); (128%Z, 0.019102); (129%Z, 0.264006); (130%Z, 0.04071); (131%Z, 0.212324); (132%Z, 0.269086); (134%Z, 0.104357); (136%Z, 0.088573)] |}.
(** _elements.py:2089-2136 *)
Definition el_Cs : element :=
  {| e_z := 55;
     e_mass := [(112%Z, 111.950309); (113%Z, 112.9444291); (114%Z, 113.941296); (115%Z, 114.93591); (116%Z, 115.93337); (117%Z, 116.928617); (118%Z, 117.92656); (119%Z, 118.922377); (120%Z, 119.920677); (121%Z, 120.917227); (122%Z, 121.916108); (123%Z, 122.912996); (124%Z, 123.9122578); (125%Z, 124.909728); (126%Z, 125.909446); (127%Z, 126.9074174); (128%Z, 127.9077487); (129%Z, 128.9060657); (130%Z, 129.9067093); (131%Z, 130.9054649); (132%Z, 131.9064339); (133%Z, 132.905451961); (134%Z, 133.906718503); (135%Z, 134.905977); (136%Z, 135.9073114); (137%Z, 136.90708923); (138%Z, 137.9110171); (139%Z, 138.9133638); (140%Z, 139.9172831); (141%Z, 140.9200455); (142%Z, 141.924296); (143%Z, 142.927349); (144%Z, 143.932076); (145%Z, 144.935527); (146%Z, 145.940344); (147%Z, 146.944156); (148%Z, 147.94923); (149%Z, 148.95302); (150%Z, 149.95833); (151%Z, 150.96258)];
     e_fraction := [(133%Z, 1.0)] |}.
(** _elements.py:2137-2190 *)
Definition el_Ba : element :=
  {| e_z := 56;
     e_mass := [(114%Z, 113.95066); (115%Z, 114.94737); (116%Z, 115.94128); (117%Z, 116.93814); (118%Z, 117.93306); (119%Z, 118.93066); (120%Z, 119.92605); (121%Z, 120.92405); (122%Z, 121.919904); (123%Z, 122.918781); (124%Z, 123.915094); (125%Z, 124.914472); (126%Z, 125.91125); (127%Z, 126.911091); (128%Z, 127.908342); (129%Z, 128.908681); (130%Z, 129.9063207); (131%Z, 130.906941); (132%Z, 131.9050611); (133%Z, 132.9060074); (134%Z, 133.90450818); (135%Z, 134.90568838); (136%Z, 135.90457573); (137%Z, 136.90582714); (138%Z, 137.905247); (139%Z, 138.9088411); (140%Z, 139.9106057); (141%Z, 140.9144033); (142%Z, 141.9164324); (143%Z, 142.9206253); (144%Z, 143.9229549); (145%Z, 144.9275184); (146%Z, 145.930284); (147%Z, 146.935304); (148%Z, 147.938171); (149%Z, 148.94308); (150%Z, 149.94605); (151%Z, 150.95127); (152%Z, 151.95481); (153%Z, 152.96036)];
     e_fraction := [(130%Z, 0.00106); (132%Z, 0.00101); (134%Z, 0.02417); (135%Z, 0.06592); (136%Z, 0.07854); (137%Z, 0.11232); (138%Z, 0.71698)] |}.
(** _elements.py:2191-2239 *)
Definition el_La : element :=
  {| e_z := 57;
     e_mass := [(116%Z, 115.9563); (117%Z, 116.94999); (118%Z, 117.94673); (119%Z, 118.94099); (120%Z, 119.93807); (121%Z, 120.93315); (122%Z, 121.93071); (123%Z, 122.9263); (124%Z, 123.924574); (125%Z, 124.920816); (126%Z, 125.919513); (127%Z, 126.916375); (128%Z, 127.915592); (129%Z, 128.912694); (130%Z, 129.912369); (131%Z, 130.91007); (132%Z, 131.910119); (133%Z, 132.908218); (134%Z, 133.908514); (135%Z, 134.906984); (136%Z, 135.907635); (137%Z, 136.9064504); (138%Z, 137.9071149); (139%Z, 138.9063563); (140%Z, 139.9094806); (141%Z, 140.910966); (142%Z, 141.9140909); (143%Z, 142.9160795); (144%Z, 143.919646); (145%Z, 144.921808); (146%Z, 145.925875); (147%Z, 146.928418); (148%Z, 147.932679); (149%Z, 148.93535); (150%Z, 149.93947); (151%Z, 150.94232); (152%Z, 151.94682); (153%Z, 152.95036); (154%Z, 153.95517); (155%Z, 154.95901)];
     e_fraction := [(138%Z, 0.0008881); (139%Z, 0.9991119)] |}.
(** _elements.py:2240-2289 *)
Definition el_Ce : element :=
  {| e_z := 58;
     e_mass := [(119%Z, 118.95271); (120%Z, 119.94654); (121%Z, 120.94335); (122%Z, 121.93787); (123%Z, 122.93528); (124%Z, 123.93031); (125%Z, 124.92844); (126%Z, 125.923971); (127%Z, 126.922727); (128%Z, 127.918911); (129%Z, 128.918102); (130%Z, 129.914736); (131%Z, 130.914429); (132%Z, 131.911464); (133%Z, 132.91152); (134%Z, 133.908928); (135%Z, 134.909161); (136%Z, 135.90712921); (137%Z, 136.90776236); (138%Z, 137.905991); (139%Z, 138.9066551); (140%Z, 139.9054431); (141%Z, 140.9082807); (142%Z, 141.9092504); (143%Z, 142.9123921); (144%Z, 143.9136529); (145%Z, 144.917265); (146%Z, 145.918802); (147%Z, 146.9226899); (148%Z, 147.924424); (149%Z, 148.928427); (150%Z, 149.930384); (151%Z, 150.934272); (152%Z, 151.9366); (153%Z, 152.94093); (154%Z, 153.9438); (155%Z, 154.94855); (156%Z, 155.95183); (157%Z, 156.95705)];
     e_fraction := [(136%Z, 0.00185); (138%Z, 0.00251); (140%Z, 0.8845); (142%Z, 0.11114)] |}.
(** _elements.py:2290-2336 *)
Definition el_Pr : element :=
  {| e_z := 59;
     e_mass := [(121%Z, 120.95532); (122%Z, 121.95175); (123%Z, 122.94596); (124%Z, 123.94294); (125%Z, 124.9377); (126%Z, 125.93524); (127%Z, 126.93071); (128%Z, 127.928791); (129%Z, 128.925095); (130%Z, 129.92359); (131%Z, 130.920235); (132%Z, 131.919255); (133%Z, 132.916331); (134%Z, 133.915697); (135%Z, 134.913112); (136%Z, 135.912677); (137%Z, 136.9106792); (138%Z, 137.910754); (139%Z, 138.9089408); (140%Z, 139.9090803); (141%Z, 140.9076576); (142%Z, 141.9100496); (143%Z, 142.9108228); (144%Z, 143.9133109); (145%Z, 144.9145182); (146%Z, 145.91768); (147%Z, 146.919008); (148%Z, 147.92213); (149%Z, 148.923736); (150%Z, 149.9266765); (151%Z, 150.928309); (152%Z, 151.931553); (153%Z, 152.933904); (154%Z, 153.93753); (155%Z, 154.940509); (156%Z, 155.94464); (157%Z, 156.94789); (158%Z, 157.95241); (159%Z, 158.95589)];
     e_fraction := [(141%Z, 1.0)] |}.
(** _elements.py:2337-2388 *)
Definition el_Nd : element :=
  {| e_z := 60;
     e_mass := [(124%Z, 123.9522); (125%Z, 124.9489); (126%Z, 125.94311); (127%Z, 126.94038); (128%Z, 127.93525); (129%Z, 128.9331); (130%Z, 129.928506); (131%Z, 130.927248); (132%Z, 131.923321); (133%Z, 132.922348); (134%Z, 133.91879); (135%Z, 134.918181); (136%Z, 135.914976); (137%Z, 136.914562); (138%Z, 137.91195); (139%Z, 138.911954); (140%Z, 139.90955); (141%Z, 140.9096147); (142%Z, 141.907729); (143%Z, 142.90982); (144%Z, 143.910093); (145%Z, 144.9125793); (146%Z, 145.9131226); (147%Z, 146.9161061); (148%Z, 147.9168993); (149%Z, 148.9201548); (150%Z, 149.9209022); (151%Z, 150.9238403); (152%Z, 151.924692); (153%Z, 152.927718); (154%Z, 153.92948); (155%Z, 154.9331357); (156%Z, 155.93508); (157%Z, 156.939386); (158%Z, 157.94197); (159%Z, 158.94653); (160%Z, 159.9494); (161%Z, 160.95428)];
     e_fraction := [(142%Z, 0.27152); (143%Z, 0.12174); (144%Z, 0.23798); (145%Z, 0.08293); (146%Z, 0.17189); (148%Z, 0.05756); (150%Z, 0.05638)] |}.
(** _elements.py:2389-2432 *)
Definition el_Pm : element :=
  {| e_z := 61;
     e_mass := [(126%Z, 125.95792); (127%Z, 126.95192); (128%Z, 127.9487); (129%Z, 128.94323); (130%Z, 129.94053); (131%Z, 130.93567); (132%Z, 131.93384); (133%Z, 132.929782); (134%Z, 133.928353); (135%Z, 134.924823); (136%Z, 135.923585); (137%Z, 136.92048); (138%Z, 137.919548); (139%Z, 138.9168); (140%Z, 139.91604); (141%Z, 140.913555); (142%Z, 141.91289); (143%Z, 142.9109383); (144%Z, 143.9125964); (145%Z, 144.9127559); (146%Z, 145.9147024); (147%Z, 146.915145); (148%Z, 147.9174819); (149%Z, 148.9183423); (150%Z, 149.920991); (151%Z, 150.9212175); (152%Z, 151.923506); (153%Z, 152.9241567); (154%Z, 153.926472); (155%Z, 154.928137); (156%Z, 155.9311175); (157%Z, 156.9331214); (158%Z, 157.936565); (159%Z, 158.939287); (160%Z, 159.9431); (161%Z, 160.94607); (162%Z, 161.95022); (163%Z, 162.95357)];
     e_fraction := [] |}.
(** _elements.py:2433-2484 *)
Definition el_Sm : element :=
  {| e_z := 62;
     e_mass := [(128%Z, 127.95842); (129%Z, 128.95476); (130%Z, 129.949); (131%Z, 130.94618); (132%Z, 131.94087); (133%Z, 132.93856); (134%Z, 133.93411); (135%Z, 134.93252); (136%Z, 135.928276); (137%Z, 136.926971); (138%Z, 137.923244); (139%Z, 138.922297); (140%Z, 139.918995); (141%Z, 140.9184816); (142%Z, 141.9152044); (143%Z, 142.9146353); (144%Z, 143.9120065); (145%Z, 144.9134173); (146%Z, 145.913047); (147%Z, 146.9149044); (148%Z, 147.9148292); (149%Z, 148.9171921); (150%Z, 149.9172829); (151%Z, 150.9199398); (152%Z, 151.9197397); (153%Z, 152.9221047); (154%Z, 153.9222169); (155%Z, 154.9246477); (156%Z, 155.925536); (157%Z, 156.9284187); (158%Z, 157.929951); (159%Z, 158.9332172); (160%Z, 159.9353353); (161%Z, 160.9391602); (162%Z, 161.94146); (163%Z, 162.94555); (164%Z, 163.94836); (165%Z, 164.95297)];
     e_fraction := [(144%Z, 0.0307); (147%Z, 0.1499); (148%Z, 0.1124); (149%Z, 0.1382); (150%Z, 0.0738); (152%Z, 0.2675); (154%Z, 0.2275)] |}.
(** _elements.py:2485-2531 *)
Definition el_Eu : element :=
  {| e_z := 63;
     e_mass := [(130%Z, 129.96369); (131%Z, 130.95784); (132%Z, 131.95467); (133%Z, 132.94929); (134%Z, 133.9464); (135%Z, 134.94187); (136%Z, 135.93962); (137%Z, 136.93546); (138%Z, 137.933709); (139%Z, 138.929792); (140%Z, 139.928088); (141%Z, 140.924932); (142%Z, 141.923442); (143%Z, 142.920299); (144%Z, 143.91882); (145%Z, 144.9162726); (146%Z, 145.917211); (147%Z, 146.9167527); (148%Z, 147.918089); (149%Z, 148.9179378); (150%Z, 149.9197077); (151%Z, 150.9198578); (152%Z, 151.9217522); (153%Z, 152.921238); (154%Z, 153.922987); (155%Z, 154.9229011); (156%Z, 155.9247605); (157%Z, 156.9254334); (158%Z, 157.927799); (159%Z, 158.9291001); (160%Z, 159.931851); (161%Z, 160.933664); (162%Z, 161.936989); (163%Z, 162.939196); (164%Z, 163.94274); (165%Z, 164.94559); (166%Z, 165.94962); (167%Z, 166.95289)];
     e_fraction := [(151%Z, 0.4781); (153%Z, 0.5219)] |}.
(** _elements.py:2532-2582 *)
Definition el_Gd : element :=
  {| e_z := 64;
     e_mass := [(133%Z, 132.96133); (134%Z, 133.95566); (135%Z, 134.95245); (136%Z, 135.9473); (137%Z, 136.94502); (138%Z, 137.94025); (139%Z, 138.93813); (140%Z, 139.933674); (141%Z, 140.932126); (142%Z, 141.928116); (143%Z, 142.92675); (144%Z, 143.922963); (145%Z, 144.921713); (146%Z, 145.9183188); (147%Z, 146.9191014); (148%Z, 147.9181215); (149%Z, 148.9193481); (150%Z, 149.9186644); (151%Z, 150.920356); (152%Z, 151.9197995); (153%Z, 152.921758); (154%Z, 153.9208741); (155%Z, 154.9226305); (156%Z, 155.9221312); (157%Z, 156.9239686); (158%Z, 157.9241123); (159%Z, 158.926397); (160%Z, 159.9270624); (161%Z, 160.9296775); (162%Z, 161.930993); (163%Z, 162.9341769); (164%Z, 163.93583); (165%Z, 164.93936); (166%Z, 165.94146); (167%Z, 166.94545); (168%Z, 167.94808); (169%Z, 168.9526)];
     e_fraction := [(152%Z, 0.002); (154%Z, 0.0218); (155%Z, 0.148); (156%Z, 0.2047); (157%Z, 0.1565); (158%Z, 0.2484); (160%Z, 0.2186)] |}.
(** _elements.py:2583-2627 *)
Definition el_Tb : element :=
  {| e_z := 65;
     e_mass := [(135%Z, 134.96476); (136%Z, 135.96129); (137%Z, 136.95602); (138%Z, 137.95312); (139%Z, 138.94833); (140%Z, 139.94581); (141%Z, 140.94145); (142%Z, 141.93928); (143%Z, 142.935137); (144%Z, 143.933045); (145%Z, 144.92882); (146%Z, 145.927253); (147%Z, 146.9240548); (148%Z, 147.924282); (149%Z, 148.9232535); (150%Z, 149.9236649); (151%Z, 150.9231096); (152%Z, 151.924083); (153%Z, 152.9234424); (154%Z, 153.924685); (155%Z, 154.923511); (156%Z, 155.9247552); (157%Z, 156.924033); (158%Z, 157.9254209); (159%Z, 158.9253547); (160%Z, 159.9271756); (161%Z, 160.9275778); (162%Z, 161.929495); (163%Z, 162.9306547); (164%Z, 163.93336); (165%Z, 164.93498); (166%Z, 165.93786); (167%Z, 166.93996); (168%Z, 167.9434); (169%Z, 168.94597); (170%Z, 169.94984); (171%Z, 170.95273)];
     e_fraction := [(159%Z, 1.0)] |}.
(** _elements.py:2628-2677 *)
Definition el_Dy : element :=
  {| e_z := 66;
     e_mass := [(138%Z, 137.9625); (139%Z, 138.95959); (140%Z, 139.95402); (141%Z, 140.95128); (142%Z, 141.94619); (143%Z, 142.943994); (144%Z, 143.9392695); (145%Z, 144.937474); (146%Z, 145.9328445); (147%Z, 146.9310827); (148%Z, 147.927157); (149%Z, 148.927322); (150%Z, 149.9255933); (151%Z, 150.9261916); (152%Z, 151.9247253); (153%Z, 152.9257724); (154%Z, 153.9244293); (155%Z, 154.925759); (156%Z, 155.9242847); (157%Z, 156.9254707); (158%Z, 157.9244159); (159%Z, 158.925747); (160%Z, 159.9252046); (161%Z, 160.9269405); (162%Z, 161.9268056); (163%Z, 162.9287383); (164%Z, 163.9291819); (165%Z, 164.9317105); (166%Z, 165.9328139); (167%Z, 166.935661); (168%Z, 167.93713); (169%Z, 168.94031); (170%Z, 169.94239); (171%Z, 170.94612); (172%Z, 171.94846); (173%Z, 172.95283)];
     e_fraction := [(156%Z, 0.00056); (158%Z, 0.00095); (160%Z, 0.02329); (161%Z, 0.18889); (162%Z, 0.25475); (163%Z, 0.24896); (164%Z, 0.2826)] |}.
(** _elements.py:2678-2721 *)
Definition el_Ho : element :=
  {| e_z := 67;
     e_mass := [(140%Z, 139.96859); (141%Z, 140.96311); (142%Z, 141.96001); (143%Z, 142.95486); (144%Z, 143.9521097); (145%Z, 144.9472674); (146%Z, 145.9449935); (147%Z, 146.9401423); (148%Z, 147.937744); (149%Z, 148.933803); (150%Z, 149.933498); (151%Z, 150.9316983); (152%Z, 151.931724); (153%Z, 152.9302064); (154%Z, 153.9306068); (155%Z, 154.929104); (156%Z, 155.929706); (157%Z, 156.928254); (158%Z, 157.928946); (159%Z, 158.9277197); (160%Z, 159.928737); (161%Z, 160.9278615); (162%Z, 161.9291023); (163%Z, 162.928741); (164%Z, 163.9302403); (165%Z, 164.9303288); (166%Z, 165.9322909); (167%Z, 166.9331385); (168%Z, 167.935522); (169%Z, 168.936878); (170%Z, 169.939625); (171%Z, 170.94147); (172%Z, 171.94473); (173%Z, 172.94702); (174%Z, 173.95095); (175%Z, 174.95362)];
     e_fraction := [(165%Z, 1.0)] |}.
(** _elements.py:2722-2770 *)
Definition el_Er : element :=
  {| e_z := 68;
     e_mass := [(142%Z, 141.9701); (143%Z, 142.96662); (144%Z, 143.9607); (145%Z, 144.95805); (146%Z, 145.9524184); (147%Z, 146.949964); (148%Z, 147.944735); (149%Z, 148.942306); (150%Z, 149.937916); (151%Z, 150.937449); (152%Z, 151.935057); (153%Z, 152.93508); (154%Z, 153.9327908); (155%Z, 154.9332159); (156%Z, 155.931067); (157%Z, 156.931949); (158%Z, 157.929893); (159%Z, 158.9306918); (160%Z, 159.929077); (161%Z, 160.9300046); (162%Z, 161.9287884); (163%Z, 162.9300408); (164%Z, 163.9292088); (165%Z, 164.9307345); (166%Z, 165.9302995); (167%Z, 166.9320546); (168%Z, 167.9323767); (169%Z, 168.9345968); (170%Z, 169.9354702); (171%Z, 170.9380357); (172%Z, 171.9393619); (173%Z, 172.9424); (174%Z, 173.94423); (175%Z, 174.94777); (176%Z, 175.94994); (177%Z, 176.95399)];
     e_fraction := [(162%Z, 0.00139); (164%Z, 0.01601); (166%Z, 0.33503); (167%Z, 0.22869); (168%Z, 0.26978); (170%Z, 0.1491)] |}.
(** _elements.py:2771-2814 *)
Definition el_Tm : element :=
  {| e_z := 69;
     e_mass := [(144%Z, 143.97628); (145%Z, 144.97039); (146%Z, 145.96684); (147%Z, 146.9613799); (148%Z, 147.958384); (149%Z, 148.95289); (150%Z, 149.95009); (151%Z, 150.945488); (152%Z, 151.944422); (153%Z, 152.94204); (154%Z, 153.94157); (155%Z, 154.93921); (156%Z, 155.938992); (157%Z, 156.936944); (158%Z, 157.93698); (159%Z, 158.934975); (160%Z, 159.935263); (161%Z, 160.933549); (162%Z, 161.934002); (163%Z, 162.9326592); (164%Z, 163.933544); (165%Z, 164.9324431); (166%Z, 165.933561); (167%Z, 166.9328562); (168%Z, 167.9341774); (169%Z, 168.9342179); (170%Z, 169.935806); (171%Z, 170.9364339); (172%Z, 171.9384055); (173%Z, 172.9396084); (174%Z, 173.942173); (175%Z, 174.943841); (176%Z, 175.947); (177%Z, 176.94904); (178%Z, 177.95264); (179%Z, 178.95534)];
     e_fraction := [(169%Z, 1.0)] |}.
(** _elements.py:2815-2862 *)
Definition el_Yb : element :=
  {| e_z := 70;
     e_mass := [(148%Z, 147.96758); (149%Z, 148.96436); (150%Z, 149.95852); (151%Z, 150.9554); (152%Z, 151.95027); (153%Z, 152.94932); (154%Z, 153.946396); (155%Z, 154.945783); (156%Z, 155.942825); (157%Z, 156.942645); (158%Z, 157.9398705); (159%Z, 158.940055); (160%Z, 159.937557); (161%Z, 160.937907); (162%Z, 161.935774); (163%Z, 162.93634); (164%Z, 163.934495); (165%Z, 164.93527); (166%Z, 165.9338747); (167%Z, 166.934953); (168%Z, 167.9338896); (169%Z, 168.9351825); (170%Z, 169.9347664); (171%Z, 170.9363302); (172%Z, 171.9363859); (173%Z, 172.9382151); (174%Z, 173.9388664); (175%Z, 174.9412808); (176%Z, 175.9425764); (177%Z, 176.9452656); (178%Z, 177.946651); (179%Z, 178.95004); (180%Z, 179.95212); (181%Z, 180.95589)];
     e_fraction := [(168%Z, 0.00123); (170%Z, 0.02982); (171%Z, 0.1409); (172%Z, 0.2168); (173%Z, 0.16103); (174%Z, 0.32026); (176%Z, 0.12996)] |}.
(** _elements.py:2863-2907 *)
Definition el_Lu : element :=
  {| e_z := 71;
     e_mass := [(150%Z, 149.97355); (151%Z, 150.96768); (152%Z, 151.96412); (153%Z, 152.95875); (154%Z, 153.95736); (155%Z, 154.954321); (156%Z, 155.953033); (157%Z, 156.950127); (158%Z, 157.949316); (159%Z, 158.946636); (160%Z, 159.946033); (161%Z, 160.943572); (162%Z, 161.943283); (163%Z, 162.941179); (164%Z, 163.941339); (165%Z, 164.939407); (166%Z, 165.939859); (167%Z, 166.93827); (168%Z, 167.938736); (169%Z, 168.9376441); (170%Z, 169.938478); (171%Z, 170.937917); (172%Z, 171.9390891); (173%Z, 172.938934); (174%Z, 173.9403409); (175%Z, 174.9407752); (176%Z, 175.9426897); (177%Z, 176.9437615); (178%Z, 177.945958); (179%Z, 178.9473309); (180%Z, 179.949888); (181%Z, 180.95191); (182%Z, 181.95504); (183%Z, 182.957363); (184%Z, 183.96091); (185%Z, 184.96362)];
     e_fraction := [(175%Z, 0.97401); (176%Z, 0.02599)] |}.
(** _elements.py:2908-2957 *)
Definition el_Hf : element :=
  {| e_z := 72;
     e_mass := [(153%Z, 152.97069); (154%Z, 153.96486); (155%Z, 154.96311); (156%Z, 155.95935); (157%Z, 156.95824); (158%Z, 157.954801); (159%Z, 158.953996); (160%Z, 159.950691); (161%Z, 160.950278); (162%Z, 161.9472148); (163%Z, 162.947113); (164%Z, 163.944371); (165%Z, 164.944567); (166%Z, 165.94218); (167%Z, 166.9426); (168%Z, 167.940568); (169%Z, 168.941259); (170%Z, 169.939609); (171%Z, 170.940492); (172%Z, 171.93945); (173%Z, 172.940513); (174%Z, 173.9400461); (175%Z, 174.9415092); (176%Z, 175.9414076); (177%Z, 176.9432277); (178%Z, 177.9437058); (179%Z, 178.9458232); (180%Z, 179.946557); (181%Z, 180.9491083); (182%Z, 181.9505612); (183%Z, 182.95353); (184%Z, 183.955446); (185%Z, 184.958862); (186%Z, 185.960897); (187%Z, 186.96477); (188%Z, 187.96685); (189%Z, 188.97084)];
     e_fraction := [(174%Z, 0.0016); (176%Z, 0.0526); (177%Z, 0.186); (178%Z, 0.2728); (179%Z, 0.1362); (180%Z, 0.3508)] |}.
(** _elements.py:2958-3004 *)
Definition el_Ta : element :=
  {| e_z := 73;
     e_mass := [(155%Z, 154.97424); (156%Z, 155.97203); (157%Z, 156.96818); (158%Z, 157.96654); (159%Z, 158.963023); (160%Z, 159.961488); (161%Z, 160.958452); (162%Z, 161.957294); (163%Z, 162.954337); (164%Z, 163.953534); (165%Z, 164.950781); (166%Z, 165.950512); (167%Z, 166.948093); (168%Z, 167.948047); (169%Z, 168.946011); (170%Z, 169.946175); (171%Z, 170.944476); (172%Z, 171.944895); (173%Z, 172.94375); (174%Z, 173.944454); (175%Z, 174.943737); (176%Z, 175.944857); (177%Z, 176.9444795); (178%Z, 177.945678); (179%Z, 178.9459366); (180%Z, 179.9474648); (181%Z, 180.9479958); (182%Z, 181.9501519); (183%Z, 182.9513726); (184%Z, 183.954008); (185%Z, 184.955559); (186%Z, 185.958551); (187%Z, 186.960386); (188%Z, 187.963916); (189%Z, 188.96583); (190%Z, 189.96939); (191%Z, 190.97156); (192%Z, 191.97514)];
     e_fraction := [(180%Z, 0.0001201); (181%Z, 0.9998799)] |}.
(** _elements.py:3005-3054 *)
Definition el_W : element :=
  {| e_z := 74;
     e_mass := [(157%Z, 156.97884); (158%Z, 157.97456); (159%Z, 158.97264); (160%Z, 159.96846); (161%Z, 160.9672); (162%Z, 161.963499); (163%Z, 162.962524); (164%Z, 163.958961); (165%Z, 164.958281); (166%Z, 165.955031); (167%Z, 166.954805); (168%Z, 167.951806); (169%Z, 168.951779); (170%Z, 169.949232); (171%Z, 170.949451); (172%Z, 171.947292); (173%Z, 172.947689); (174%Z, 173.946079); (175%Z, 174.946717); (176%Z, 175.945634); (177%Z, 176.946643); (178%Z, 177.945883); (179%Z, 178.947077); (180%Z, 179.9467108); (181%Z, 180.9481978); (182%Z, 181.94820394); (183%Z, 182.95022275); (184%Z, 183.95093092); (185%Z, 184.95341897); (186%Z, 185.9543628); (187%Z, 186.9571588); (188%Z, 187.9584862); (189%Z, 188.961763); (190%Z, 189.963091); (191%Z, 190.966531); (192%Z, 191.96817); (193%Z, 192.97178); (194%Z, 193.97367)];
     e_fraction := [(180%Z, 0.0012); (182%Z, 0.265); (183%Z, 0.1431); (184%Z, 0.3064); (186%Z, 0.2843)] |}.
(** _elements.py:3055-3103 *)
Definition el_Re : element :=
  {| e_z := 75;
     e_mass := [(159%Z, 158.98418); (160%Z, 159.98182); (161%Z, 160.97757); (162%Z, 161.97584); (163%Z, 162.97208); (164%Z, 163.970453); (165%Z, 164.967103); (166%Z, 165.965761); (167%Z, 166.962595); (168%Z, 167.961573); (169%Z, 168.958766); (170%Z, 169.95822); (171%Z, 170.955716); (172%Z, 171.95542); (173%Z, 172.953243); (174%Z, 173.953115); (175%Z, 174.951381); (176%Z, 175.951623); (177%Z, 176.950328); (178%Z, 177.950989); (179%Z, 178.949989); (180%Z, 179.950792); (181%Z, 180.950058); (182%Z, 181.95121); (183%Z, 182.9508196); (184%Z, 183.9525228); (185%Z, 184.9529545); (186%Z, 185.9549856); (187%Z, 186.9557501); (188%Z, 187.9581115); (189%Z, 188.959226); (190%Z, 189.961744); (191%Z, 190.963122); (192%Z, 191.966088); (193%Z, 192.967541); (194%Z, 193.97076); (195%Z, 194.97254); (196%Z, 195.9758); (197%Z, 196.97799); (198%Z, 197.9816)];
     e_fraction := [(185%Z, 0.374); (187%Z, 0.626)] |}.
(** _elements.py:3104-3159 *)
Definition el_Os : element :=
  {| e_z := 76;
     e_mass := [(161%Z, 160.98903); (162%Z, 161.98443); (163%Z, 162.98241); (164%Z, 163.97802); (165%Z, 164.9766); (166%Z, 165.972692); (167%Z, 166.971549); (168%Z, 167.967808); (169%Z, 168.967018); (170%Z, 169.963578); (171%Z, 170.963174); (172%Z, 171.960017); (173%Z, 172.959808); (174%Z, 173.957064); (175%Z, 174.956945); (176%Z, 175.954806); (177%Z, 176.954966); (178%Z, 177.953254); (179%Z, 178.953817); (180%Z, 179.952375); (181%Z, 180.953247); (182%Z, 181.95211); (183%Z, 182.953125); (184%Z, 183.9524885); (185%Z, 184.9540417); (186%Z, 185.953835); (187%Z, 186.9557474); (188%Z, 187.9558352); (189%Z, 188.9581442); (190%Z, 189.9584437); (191%Z, 190.9609264); (192%Z, 191.961477); (193%Z, 192.9641479); (194%Z, 193.9651772); (195%Z, 194.968318); (196%Z, 195.969641); (197%Z, 196.97283); (198%Z, 197.97441); (199%Z, 198.97801); (200%Z, 199.97984); (201%Z, 200.98364); (202%Z, 201.98595)];
     e_fraction := [(184%Z, 0.0002); (186%Z, 0.0159); (187%Z, 0.0196); (188%Z, 0.1324); (189%Z, 0.1615); (190%Z, 0.2626); (192%Z, 0.4078)] |}.
(** _elements.py:3160-3209 *)
Definition el_Ir : element :=
  {| e_z := 77;
     e_mass := [(164%Z, 163.99191); (165%Z, 164.9875); (166%Z, 165.98566); (167%Z, 166.981666); (168%Z, 167.979907); (169%Z, 168.976298); (170%Z, 169.974922); (171%Z, 170.97164); (172%Z, 171.970607); (173%Z, 172.967506); (174%Z, 173.966861); (175%Z, 174.96415); (176%Z, 175.96365); (177%Z, 176.961301); (178%Z, 177.961082); (179%Z, 178.95912); (180%Z, 179.959229); (181%Z, 180.957625); (182%Z, 181.958076); (183%Z, 182.95684); (184%Z, 183.957476); (185%Z, 184.956698); (186%Z, 185.957944); (187%Z, 186.957542); (188%Z, 187.958828); (189%Z, 188.958715); (190%Z, 189.9605412); (191%Z, 190.9605893); (192%Z, 191.9626002); (193%Z, 192.9629216); (194%Z, 193.9650735); (195%Z, 194.9659747); (196%Z, 195.968397); (197%Z, 196.969655); (198%Z, 197.97228); (199%Z, 198.973805); (200%Z, 199.9768); (201%Z, 200.97864); (202%Z, 201.98199); (203%Z, 202.98423); (204%Z, 203.9896)];
     e_fraction := [(191%Z, 0.373); (193%Z, 0.627)] |}.
(** _elements.py:3210-3263 *)
Definition el_Pt : element :=
  {| e_z := 78;
     e_mass := [(166%Z, 165.99486); (167%Z, 166.99269); (168%Z, 167.98813); (169%Z, 168.98657); (170%Z, 169.982496); (171%Z, 170.981245); (172%Z, 171.977351); (173%Z, 172.976443); (174%Z, 173.97282); (175%Z, 174.97241); (176%Z, 175.968938); (177%Z, 176.96847); (178%Z, 177.96565); (179%Z, 178.965359); (180%Z, 179.963032); (181%Z, 180.963098); (182%Z, 181.961172); (183%Z, 182.961597); (184%Z, 183.959915); (185%Z, 184.960614); (186%Z, 185.959351); (187%Z, 186.960617); (188%Z, 187.9593889); (189%Z, 188.960831); (190%Z, 189.9599297); (191%Z, 190.9616729); (192%Z, 191.9610387); (193%Z, 192.9629824); (194%Z, 193.9626809); (195%Z, 194.9647917); (196%Z, 195.96495209); (197%Z, 196.96734069); (198%Z, 197.9678949); (199%Z, 198.9705952); (200%Z, 199.971443); (201%Z, 200.974513); (202%Z, 201.975639); (203%Z, 202.97893); (204%Z, 203.98076); (205%Z, 204.98608); (206%Z, 205.98966)];
     e_fraction := [(190%Z, 0.00012); (192%Z, 0.00782); (194%Z, 0.3286); (195%Z, 0.3378); (196%Z, 0.2521); (198%Z, 0.07356)] |}.
(** _elements.py:3264-3313 *)
Definition el_Au : element :=
  {| e_z := 79;
     e_mass := [(169%Z, 168.99808); (170%Z, 169.99597); (171%Z, 170.991876); (172%Z, 171.989942); (173%Z, 172.986241); (174%Z, 173.984717); (175%Z, 174.981304); (176%Z, 175.98025); (177%Z, 176.97687); (178%Z, 177.976032); (179%Z, 178.973174); (180%Z, 179.972523); (181%Z, 180.970079); (182%Z, 181.969618); (183%Z, 182.967591); (184%Z, 183.967452); (185%Z, 184.96579); (186%Z, 185.965953); (187%Z, 186.964543); (188%Z, 187.965349); (189%Z, 188.963948); (190%Z, 189.964698); (191%Z, 190.963702); (192%Z, 191.964814); (193%Z, 192.9641373); (194%Z, 193.9654178); (195%Z, 194.9650352); (196%Z, 195.9665699); (197%Z, 196.96656879); (198%Z, 197.96824242); (199%Z, 198.96876528); (200%Z, 199.970756); (201%Z, 200.9716575); (202%Z, 201.973856); (203%Z, 202.9751544); (204%Z, 203.97783); (205%Z, 204.97985); (206%Z, 205.98474); (207%Z, 206.9884); (208%Z, 207.99345); (209%Z, 208.99735); (210%Z, 210.0025)];
     e_fraction := [(197%Z, 1.0)] |}.
(** _elements.py:3314-3373 *)
Definition el_Hg : element :=
  {| e_z := 80;
     e_mass := [(171%Z, 171.00353); (172%Z, 171.99881); (173%Z, 172.99709); (174%Z, 173.992865); (175%Z, 174.991441); (176%Z, 175.987361); (177%Z, 176.986277); (178%Z, 177.982484); (179%Z, 178.981831); (180%Z, 179.97826); (181%Z, 180.977819); (182%Z, 181.974689); (183%Z, 182.9744448); (184%Z, 183.971714); (185%Z, 184.971899); (186%Z, 185.969362); (187%Z, 186.969814); (188%Z, 187.967567); (189%Z, 188.968195); (190%Z, 189.966323); (191%Z, 190.967157); (192%Z, 191.965635); (193%Z, 192.966653); (194%Z, 193.9654491); (195%Z, 194.966721); (196%Z, 195.9658326); (197%Z, 196.9672128); (198%Z, 197.9667686); (199%Z, 198.96828064); (200%Z, 199.96832659); (201%Z, 200.97030284); (202%Z, 201.9706434); (203%Z, 202.9728728); (204%Z, 203.97349398); (205%Z, 204.9760734); (206%Z, 205.977514); (207%Z, 206.9823); (208%Z, 207.985759); (209%Z, 208.99072); (210%Z, 209.99424); (211%Z, 210.99933); (212%Z, 212.00296); (213%Z, 213.00823); (214%Z, 214.012); (215%Z, 215.0174); (216%Z, 216.02132)];
     e_fraction := [(196%Z, 0.0015); (198%Z, 0.0997); (199%Z, 0.1687); (200%Z, 0.231); (201%Z, 0.1318); (202%Z, 0.2986); (204%Z, 0.0687)] |}.
(** _elements.py:3374-3425 *)
Definition el_Tl : element :=
  {| e_z := 81;
     e_mass := [(176%Z, 176.000624); (177%Z, 176.996431); (178%Z, 177.99485); (179%Z, 178.991111); (180%Z, 179.990057); (181%Z, 180.98626); (182%Z, 181.985713); (183%Z, 182.982193); (184%Z, 183.981886); (185%Z, 184.978789); (186%Z, 185.978651); (187%Z, 186.9759063); (188%Z, 187.976021); (189%Z, 188.973588); (190%Z, 189.973828); (191%Z, 190.9717842); (192%Z, 191.972225); (193%Z, 192.970502); (194%Z, 193.971081); (195%Z, 194.969774); (196%Z, 195.970481); (197%Z, 196.969576); (198%Z, 197.970483); (199%Z, 198.969877); (200%Z, 199.9709633); (201%Z, 200.970822); (202%Z, 201.972102); (203%Z, 202.9723446); (204%Z, 203.9738639); (205%Z, 204.9744278); (206%Z, 205.9761106); (207%Z, 206.9774197); (208%Z, 207.982019); (209%Z, 208.9853594); (210%Z, 209.990074); (211%Z, 210.993475); (212%Z, 211.99834); (213%Z, 213.001915); (214%Z, 214.00694); (215%Z, 215.01064); (216%Z, 216.0158); (217%Z, 217.01966); (218%Z, 218.02479)];
     e_fraction := [(203%Z, 0.2952); (205%Z, 0.7048)] |}.
(** _elements.py:3426-3479 *)
Definition el_Pb : element :=
  {| e_z := 82;
     e_mass := [(178%Z, 178.003831); (179%Z, 179.002201); (180%Z, 179.997928); (181%Z, 180.996653); (182%Z, 181.992672); (183%Z, 182.991872); (184%Z, 183.988136); (185%Z, 184.98761); (186%Z, 185.984238); (187%Z, 186.9839109); (188%Z, 187.980875); (189%Z, 188.980807); (190%Z, 189.978082); (191%Z, 190.978276); (192%Z, 191.975775); (193%Z, 192.976173); (194%Z, 193.974012); (195%Z, 194.974543); (196%Z, 195.972774); (197%Z, 196.9734312); (198%Z, 197.972034); (199%Z, 198.972913); (200%Z, 199.971819); (201%Z, 200.972883); (202%Z, 201.972152); (203%Z, 202.9733911); (204%Z, 203.973044); (205%Z, 204.9744822); (206%Z, 205.9744657); (207%Z, 206.9758973); (208%Z, 207.9766525); (209%Z, 208.9810905); (210%Z, 209.9841889); (211%Z, 210.9887371); (212%Z, 211.9918977); (213%Z, 212.9965629); (214%Z, 213.9998059); (215%Z, 215.00474); (216%Z, 216.00803); (217%Z, 217.01314); (218%Z, 218.01659); (219%Z, 219.02177); (220%Z, 220.02541)];
     e_fraction := [(204%Z, 0.014); (206%Z, 0.241); (207%Z, 0.221); (208%Z, 0.524)] |}.
(** _elements.py:3480-3528 *)
Definition el_Bi : element :=
  {| e_z := 83;
     e_mass := [(184%Z, 184.001275); (185%Z, 184.9976); (186%Z, 185.996644); (187%Z, 186.993147); (188%Z, 187.992287); (189%Z, 188.989195); (190%Z, 189.988622); (191%Z, 190.9857866); (192%Z, 191.985469); (193%Z, 192.98296); (194%Z, 193.982785); (195%Z, 194.9806488); (196%Z, 195.980667); (197%Z, 196.9788651); (198%Z, 197.979206); (199%Z, 198.977673); (200%Z, 199.978131); (201%Z, 200.97701); (202%Z, 201.977734); (203%Z, 202.976893); (204%Z, 203.9778361); (205%Z, 204.9773867); (206%Z, 205.9784993); (207%Z, 206.978471); (208%Z, 207.9797425); (209%Z, 208.9803991); (210%Z, 209.9841207); (211%Z, 210.9872697); (212%Z, 211.991286); (213%Z, 212.9943851); (214%Z, 213.998712); (215%Z, 215.00177); (216%Z, 216.006306); (217%Z, 217.009372); (218%Z, 218.014188); (219%Z, 219.01748); (220%Z, 220.02235); (221%Z, 221.02587); (222%Z, 222.03078); (223%Z, 223.0345); (224%Z, 224.03947)];
     e_fraction := [(209%Z, 1.0)] |}.
(** _elements.py:3529-3576 *)
Definition el_Po : element :=
  {| e_z := 84;
     e_mass := [(186%Z, 186.004393); (187%Z, 187.003041); (188%Z, 187.999416); (189%Z, 188.998473); (190%Z, 189.995101); (191%Z, 190.9945585); (192%Z, 191.991336); (193%Z, 192.991026); (194%Z, 193.988186); (195%Z, 194.988126); (196%Z, 195.985526); (197%Z, 196.98566); (198%Z, 197.983389); (199%Z, 198.983667); (200%Z, 199.981799); (201%Z, 200.9822598); (202%Z, 201.980758); (203%Z, 202.9814161); (204%Z, 203.98031); (205%Z, 204.981203); (206%Z, 205.980474); (207%Z, 206.9815938); (208%Z, 207.9812461); (209%Z, 208.9824308); (210%Z, 209.9828741); (211%Z, 210.9866536); (212%Z, 211.9888684); (213%Z, 212.9928576); (214%Z, 213.9952017); (215%Z, 214.9994201); (216%Z, 216.0019152); (217%Z, 217.0063182); (218%Z, 218.0089735); (219%Z, 219.013614); (220%Z, 220.016386); (221%Z, 221.021228); (222%Z, 222.02414); (223%Z, 223.02907); (224%Z, 224.03211); (225%Z, 225.03707); (226%Z, 226.04031); (227%Z, 227.04539)];
     e_fraction := [] |}.
(** _elements.py:3577-3621 *)
Definition el_At : element :=
  {| e_z := 85;
     e_mass := [(191%Z, 191.004148); (192%Z, 192.003152); (193%Z, 192.999927); (194%Z, 193.999236); (195%Z, 194.9962685); (196%Z, 195.9958); (197%Z, 196.993189); (198%Z, 197.992784); (199%Z, 198.9905277); (200%Z, 199.990351); (201%Z, 200.9884171); (202%Z, 201.98863); (203%Z, 202.986943); (204%Z, 203.987251); (205%Z, 204.986076); (206%Z, 205.986657); (207%Z, 206.9858); (208%Z, 207.9866133); (209%Z, 208.9861702); (210%Z, 209.9871479); (211%Z, 210.9874966); (212%Z, 211.9907377); (213%Z, 212.992937); (214%Z, 213.9963721); (215%Z, 214.9986528); (216%Z, 216.0024236); (217%Z, 217.0047192); (218%Z, 218.008695); (219%Z, 219.0111618); (220%Z, 220.015433); (221%Z, 221.018017); (222%Z, 222.022494); (223%Z, 223.025151); (224%Z, 224.029749); (225%Z, 225.03263); (226%Z, 226.03716); (227%Z, 227.04024); (228%Z, 228.04475); (229%Z, 229.04812)];
     e_fraction := [] |}.
(** _elements.py:3622-3666 *)
Definition el_Rn : element :=
  {| e_z := 86;
     e_mass := [(193%Z, 193.009708); (194%Z, 194.006144); (195%Z, 195.005422); (196%Z, 196.002116); (197%Z, 197.001585); (198%Z, 197.998679); (199%Z, 198.99839); (200%Z, 199.99569); (201%Z, 200.995628); (202%Z, 201.993264); (203%Z, 202.993388); (204%Z, 203.99143); (205%Z, 204.991719); (206%Z, 205.990214); (207%Z, 206.9907303); (208%Z, 207.989635); (209%Z, 208.990415); (210%Z, 209.9896891); (211%Z, 210.9906011); (212%Z, 211.9907039); (213%Z, 212.9938831); (214%Z, 213.995363); (215%Z, 214.9987459); (216%Z, 216.0002719); (217%Z, 217.003928); (218%Z, 218.0056016); (219%Z, 219.0094804); (220%Z, 220.0113941); (221%Z, 221.0155371); (222%Z, 222.0175782); (223%Z, 223.0218893); (224%Z, 224.024096); (225%Z, 225.028486); (226%Z, 226.030861); (227%Z, 227.035304); (228%Z, 228.037835); (229%Z, 229.042257); (230%Z, 230.04514); (231%Z, 231.04987)];
     e_fraction := [] |}.
(** _elements.py:3667-3707 *)
Definition el_Fr : element :=
  {| e_z := 87;
     e_mass := [(199%Z, 199.007259); (200%Z, 200.006586); (201%Z, 201.003867); (202%Z, 202.00332); (203%Z, 203.0009407); (204%Z, 204.000652); (205%Z, 204.9985939); (206%Z, 205.998666); (207%Z, 206.996946); (208%Z, 207.997138); (209%Z, 208.995955); (210%Z, 209.996422); (211%Z, 210.995556); (212%Z, 211.9962257); (213%Z, 212.996186); (214%Z, 213.9989713); (215%Z, 215.0003418); (216%Z, 216.0031899); (217%Z, 217.0046323); (218%Z, 218.0075787); (219%Z, 219.0092524); (220%Z, 220.0123277); (221%Z, 221.0142552); (222%Z, 222.017552); (223%Z, 223.019736); (224%Z, 224.023398); (225%Z, 225.025573); (226%Z, 226.029566); (227%Z, 227.031869); (228%Z, 228.035823); (229%Z, 229.038298); (230%Z, 230.042416); (231%Z, 231.045158); (232%Z, 232.04937); (233%Z, 233.05264)];
     e_fraction := [] |}.
(** _elements.py:3708-3748 *)
Definition el_Ra : element :=
  {| e_z := 88;
     e_mass := [(201%Z, 201.01271); (202%Z, 202.00976); (203%Z, 203.009304); (204%Z, 204.006492); (205%Z, 205.006268); (206%Z, 206.003828); (207%Z, 207.003799); (208%Z, 208.001841); (209%Z, 209.00199); (210%Z, 210.000494); (211%Z, 211.0008932); (212%Z, 211.999787); (213%Z, 213.000384); (214%Z, 214.0000997); (215%Z, 215.0027204); (216%Z, 216.0035334); (217%Z, 217.0063207); (218%Z, 218.007141); (219%Z, 219.0100855); (220%Z, 220.0110259); (221%Z, 221.0139177); (222%Z, 222.0153748); (223%Z, 223.0185023); (224%Z, 224.020212); (225%Z, 225.0236119); (226%Z, 226.0254103); (227%Z, 227.0291783); (228%Z, 228.0310707); (229%Z, 229.034942); (230%Z, 230.037055); (231%Z, 231.041027); (232%Z, 232.0434753); (233%Z, 233.047582); (234%Z, 234.050342); (235%Z, 235.05497)];
     e_fraction := [] |}.
(** _elements.py:3749-3786 *)
Definition el_Ac : element :=
  {| e_z := 89;
     e_mass := [(206%Z, 206.014452); (207%Z, 207.011966); (208%Z, 208.01155); (209%Z, 209.009495); (210%Z, 210.009436); (211%Z, 211.007732); (212%Z, 212.007813); (213%Z, 213.006609); (214%Z, 214.006918); (215%Z, 215.006475); (216%Z, 216.008743); (217%Z, 217.009344); (218%Z, 218.011642); (219%Z, 219.012421); (220%Z, 220.0147549); (221%Z, 221.015592); (222%Z, 222.0178442); (223%Z, 223.0191377); (224%Z, 224.0217232); (225%Z, 225.02323); (226%Z, 226.0260984); (227%Z, 227.0277523); (228%Z, 228.0310215); (229%Z, 229.032956); (230%Z, 230.036327); (231%Z, 231.038393); (232%Z, 232.042034); (233%Z, 233.044346); (234%Z, 234.048139); (235%Z, 235.05084); (236%Z, 236.054988); (237%Z, 237.05827)];
     e_fraction := [] |}.
(** _elements.py:3787-3826 *)
Definition el_Th : element :=
  {| e_z := 90;
     e_mass := [(208%Z, 208.0179); (209%Z, 209.017753); (210%Z, 210.015094); (211%Z, 211.014929); (212%Z, 212.012988); (213%Z, 213.013009); (214%Z, 214.0115); (215%Z, 215.0117248); (216%Z, 216.011056); (217%Z, 217.013117); (218%Z, 218.013276); (219%Z, 219.015537); (220%Z, 220.015748); (221%Z, 221.018184); (222%Z, 222.018469); (223%Z, 223.0208119); (224%Z, 224.021464); (225%Z, 225.0239514); (226%Z, 226.0249034); (227%Z, 227.0277042); (228%Z, 228.0287413); (229%Z, 229.0317627); (230%Z, 230.0331341); (231%Z, 231.0363046); (232%Z, 232.0380558); (233%Z, 233.0415823); (234%Z, 234.0436014); (235%Z, 235.047255); (236%Z, 236.049657); (237%Z, 237.053629); (238%Z, 238.0565); (239%Z, 239.06077)];
     e_fraction := [(232%Z, 1.0)] |}.
(** _elements.py:3827-3864 *)
Definition el_Pa : element :=
  {| e_z := 91;
     e_mass := [(212%Z, 212.023203); (213%Z, 213.021109); (214%Z, 214.020918); (215%Z, 215.019183); (216%Z, 216.019109); (217%Z, 217.018325); (218%Z, 218.020059); (219%Z, 219.019904); (220%Z, 220.021705); (221%Z, 221.021875); (222%Z, 222.023784); (223%Z, 223.023963); (224%Z, 224.0256176); (225%Z, 225.026131); (226%Z, 226.027948); (227%Z, 227.0288054); (228%Z, 228.0310517); (229%Z, 229.0320972); (230%Z, 230.034541); (231%Z, 231.0358842); (232%Z, 232.0385917); (233%Z, 233.0402472); (234%Z, 234.0433072); (235%Z, 235.045399); (236%Z, 236.048668); (237%Z, 237.051023); (238%Z, 238.054637); (239%Z, 239.05726); (240%Z, 240.06098); (241%Z, 241.06408)];
     e_fraction := [(231%Z, 1.0)] |}.
(** _elements.py:3865-3901 *)
Definition el_U : element :=
  {| e_z := 92;
     e_mass := [(217%Z, 217.02466); (218%Z, 218.023523); (219%Z, 219.024999); (220%Z, 220.02462); (221%Z, 221.02628); (222%Z, 222.026); (223%Z, 223.027739); (224%Z, 224.027605); (225%Z, 225.029391); (226%Z, 226.029339); (227%Z, 227.031157); (228%Z, 228.031371); (229%Z, 229.0335063); (230%Z, 230.0339401); (231%Z, 231.0362939); (232%Z, 232.0371563); (233%Z, 233.0396355); (234%Z, 234.0409523); (235%Z, 235.0439301); (236%Z, 236.0455682); (237%Z, 237.0487304); (238%Z, 238.0507884); (239%Z, 239.0542935); (240%Z, 240.0565934); (241%Z, 241.06033); (242%Z, 242.06293); (243%Z, 243.06699)];
     e_fraction := [(234%Z, 5.4e-05); (235%Z, 0.007204); (238%Z, 0.992742)] |}.
(** _elements.py:3902-3934 *)
Definition el_Np : element :=
  {| e_z := 93;
     e_mass := [(219%Z, 219.03143); (220%Z, 220.03254); (221%Z, 221.03204); (222%Z, 222.0333); (223%Z, 223.03285); (224%Z, 224.03422); (225%Z, 225.033911); (226%Z, 226.035188); (227%Z, 227.034957); (228%Z, 228.036067); (229%Z, 229.036264); (230%Z, 230.037828); (231%Z, 231.038245); (232%Z, 232.04011); (233%Z, 233.040741); (234%Z, 234.0428953); (235%Z, 235.0440635); (236%Z, 236.04657); (237%Z, 237.0481736); (238%Z, 238.0509466); (239%Z, 239.0529392); (240%Z, 240.056165); (241%Z, 241.058253); (242%Z, 242.06164); (243%Z, 243.06428); (244%Z, 244.06785); (245%Z, 245.0708)];
     e_fraction := [] |}.
(** _elements.py:3935-3960 *)
Definition el_Pu : element :=
  {| e_z := 94;
     e_mass := [(228%Z, 228.038732); (229%Z, 229.040144); (230%Z, 230.03965); (231%Z, 231.041102); (232%Z, 232.041185); (233%Z, 233.042998); (234%Z, 234.0433174); (235%Z, 235.045286); (236%Z, 236.0460581); (237%Z, 237.0484098); (238%Z, 238.0495601); (239%Z, 239.0521636); (240%Z, 240.0538138); (241%Z, 241.0568517); (242%Z, 242.0587428); (243%Z, 243.0620036); (244%Z, 244.0642053); (245%Z, 245.067826); (246%Z, 246.070205); (247%Z, 247.07419)];
     e_fraction := [] |}.
(** _elements.py:3961-3986 *)
Definition el_Am : element :=
  {| e_z := 95;
     e_mass := [(230%Z, 230.04609); (231%Z, 231.04556); (232%Z, 232.04645); (233%Z, 233.04644); (234%Z, 234.04773); (235%Z, 235.047908); (236%Z, 236.04943); (237%Z, 237.049996); (238%Z, 238.051985); (239%Z, 239.0530247); (240%Z, 240.0553); (241%Z, 241.0568293); (242%Z, 242.0595494); (243%Z, 243.0613813); (244%Z, 244.0642851); (245%Z, 245.0664548); (246%Z, 246.069775); (247%Z, 247.07209); (248%Z, 248.07575); (249%Z, 249.07848)];
     e_fraction := [] |}.
(** _elements.py:3987-4013 *)
Definition el_Cm : element :=
  {| e_z := 96;
     e_mass := [(232%Z, 232.04982); (233%Z, 233.05077); (234%Z, 234.05016); (235%Z, 235.05154); (236%Z, 236.051374); (237%Z, 237.052869); (238%Z, 238.053081); (239%Z, 239.05491); (240%Z, 240.0555297); (241%Z, 241.0576532); (242%Z, 242.058836); (243%Z, 243.0613893); (244%Z, 244.0627528); (245%Z, 245.0654915); (246%Z, 246.0672238); (247%Z, 247.0703541); (248%Z, 248.0723499); (249%Z, 249.0759548); (250%Z, 250.078358); (251%Z, 251.082286); (252%Z, 252.08487)];
     e_fraction := [] |}.
(** _elements.py:4014-4040 *)
Definition el_Bk : element :=
  {| e_z := 97;
     e_mass := [(234%Z, 234.05727); (235%Z, 235.05658); (236%Z, 236.05748); (237%Z, 237.0571); (238%Z, 238.0582); (239%Z, 239.05824); (240%Z, 240.05976); (241%Z, 241.06016); (242%Z, 242.06198); (243%Z, 243.0630078); (244%Z, 244.065181); (245%Z, 245.0663618); (246%Z, 246.068673); (247%Z, 247.0703073); (248%Z, 248.073088); (249%Z, 249.0749877); (250%Z, 250.0783167); (251%Z, 251.080762); (252%Z, 252.08431); (253%Z, 253.08688); (254%Z, 254.0906)];
     e_fraction := [] |}.
(** _elements.py:4041-4066 *)
Definition el_Cf : element :=
  {| e_z := 98;
     e_mass := [(237%Z, 237.062198); (238%Z, 238.06149); (239%Z, 239.06253); (240%Z, 240.062256); (241%Z, 241.06369); (242%Z, 242.063754); (243%Z, 243.06548); (244%Z, 244.0660008); (245%Z, 245.0680487); (246%Z, 246.0688055); (247%Z, 247.070965); (248%Z, 248.0721851); (249%Z, 249.0748539); (250%Z, 250.0764062); (251%Z, 251.0795886); (252%Z, 252.0816272); (253%Z, 253.0851345); (254%Z, 254.087324); (255%Z, 255.09105); (256%Z, 256.09344)];
     e_fraction := [] |}.
(** _elements.py:4067-4092 *)
Definition el_Es : element :=
  {| e_z := 99;
     e_mass := [(239%Z, 239.06823); (240%Z, 240.06892); (241%Z, 241.06856); (242%Z, 242.06957); (243%Z, 243.06951); (244%Z, 244.07088); (245%Z, 245.07125); (246%Z, 246.0729); (247%Z, 247.073622); (248%Z, 248.075471); (249%Z, 249.076411); (250%Z, 250.07861); (251%Z, 251.0799936); (252%Z, 252.08298); (253%Z, 253.0848257); (254%Z, 254.0880222); (255%Z, 255.090275); (256%Z, 256.0936); (257%Z, 257.09598); (258%Z, 258.09952)];
     e_fraction := [] |}.
(** _elements.py:4093-4118 *)
Definition el_Fm : element :=
  {| e_z := 100;
     e_mass := [(241%Z, 241.07421); (242%Z, 242.07343); (243%Z, 243.07446); (244%Z, 244.07404); (245%Z, 245.07535); (246%Z, 246.07535); (247%Z, 247.07694); (248%Z, 248.0771865); (249%Z, 249.0789275); (250%Z, 250.079521); (251%Z, 251.08154); (252%Z, 252.0824671); (253%Z, 253.0851846); (254%Z, 254.0868544); (255%Z, 255.089964); (256%Z, 256.0917745); (257%Z, 257.0951061); (258%Z, 258.09708); (259%Z, 259.1006); (260%Z, 260.10281)];
     e_fraction := [] |}.
(** _elements.py:4119-4142 *)
Definition el_Md : element :=
  {| e_z := 101;
     e_mass := [(245%Z, 245.08081); (246%Z, 246.08171); (247%Z, 247.08152); (248%Z, 248.08282); (249%Z, 249.08291); (250%Z, 250.08441); (251%Z, 251.084774); (252%Z, 252.08643); (253%Z, 253.087144); (254%Z, 254.08959); (255%Z, 255.0910841); (256%Z, 256.09389); (257%Z, 257.0955424); (258%Z, 258.0984315); (259%Z, 259.10051); (260%Z, 260.10365); (261%Z, 261.10583); (262%Z, 262.1091)];
     e_fraction := [] |}.
(** _elements.py:4143-4165 *)
Definition el_No : element :=
  {| e_z := 102;
     e_mass := [(248%Z, 248.08655); (249%Z, 249.0878); (250%Z, 250.08756); (251%Z, 251.08894); (252%Z, 252.088967); (253%Z, 253.0905641); (254%Z, 254.090956); (255%Z, 255.093191); (256%Z, 256.0942829); (257%Z, 257.0968878); (258%Z, 258.09821); (259%Z, 259.10103); (260%Z, 260.10264); (261%Z, 261.1057); (262%Z, 262.10746); (263%Z, 263.11071); (264%Z, 264.11273)];
     e_fraction := [] |}.
(** _elements.py:4166-4187 *)
Definition el_Lr : element :=
  {| e_z := 103;
     e_mass := [(251%Z, 251.09418); (252%Z, 252.09526); (253%Z, 253.09509); (254%Z, 254.09648); (255%Z, 255.096562); (256%Z, 256.098494); (257%Z, 257.099418); (258%Z, 258.10176); (259%Z, 259.102902); (260%Z, 260.1055); (261%Z, 261.10688); (262%Z, 262.10961); (263%Z, 263.11136); (264%Z, 264.1142); (265%Z, 265.11619); (266%Z, 266.11983)];
     e_fraction := [] |}.
(** _elements.py:4188-4209 *)
Definition el_Rf : element :=
  {| e_z := 104;
     e_mass := [(253%Z, 253.10044); (254%Z, 254.10005); (255%Z, 255.10127); (256%Z, 256.101152); (257%Z, 257.102918); (258%Z, 258.103428); (259%Z, 259.105596); (260%Z, 260.10644); (261%Z, 261.108773); (262%Z, 262.10992); (263%Z, 263.11249); (264%Z, 264.11388); (265%Z, 265.11668); (266%Z, 266.11817); (267%Z, 267.12179); (268%Z, 268.12397)];
     e_fraction := [] |}.
(** _elements.py:4210-4231 *)
Definition el_Db : element :=
  {| e_z := 105;
     e_mass := [(255%Z, 255.10707); (256%Z, 256.10789); (257%Z, 257.10758); (258%Z, 258.10928); (259%Z, 259.109492); (260%Z, 260.1113); (261%Z, 261.11192); (262%Z, 262.11407); (263%Z, 263.11499); (264%Z, 264.11741); (265%Z, 265.11861); (266%Z, 266.12103); (267%Z, 267.12247); (268%Z, 268.12567); (269%Z, 269.12791); (270%Z, 270.13136)];
     e_fraction := [] |}.
(** _elements.py:4232-4253 *)
Definition el_Sg : element :=
  {| e_z := 106;
     e_mass := [(258%Z, 258.11298); (259%Z, 259.1144); (260%Z, 260.114384); (261%Z, 261.115949); (262%Z, 262.116337); (263%Z, 263.11829); (264%Z, 264.11893); (265%Z, 265.12109); (266%Z, 266.12198); (267%Z, 267.12436); (268%Z, 268.12539); (269%Z, 269.12863); (270%Z, 270.13043); (271%Z, 271.13393); (272%Z, 272.13589); (273%Z, 273.13958)];
     e_fraction := [] |}.
(** _elements.py:4254-4275 *)
Definition el_Bh : element :=
  {| e_z := 107;
     e_mass := [(260%Z, 260.12166); (261%Z, 261.12145); (262%Z, 262.12297); (263%Z, 263.12292); (264%Z, 264.12459); (265%Z, 265.12491); (266%Z, 266.12679); (267%Z, 267.1275); (268%Z, 268.12969); (269%Z, 269.13042); (270%Z, 270.13336); (271%Z, 271.13526); (272%Z, 272.13826); (273%Z, 273.14024); (274%Z, 274.14355); (275%Z, 275.14567)];
     e_fraction := [] |}.
(** _elements.py:4276-4296 *)
Definition el_Hs : element :=
  {| e_z := 108;
     e_mass := [(263%Z, 263.12852); (264%Z, 264.128357); (265%Z, 265.129793); (266%Z, 266.130046); (267%Z, 267.13167); (268%Z, 268.13186); (269%Z, 269.13375); (270%Z, 270.13429); (271%Z, 271.13717); (272%Z, 272.1385); (273%Z, 273.14168); (274%Z, 274.1433); (275%Z, 275.14667); (276%Z, 276.14846); (277%Z, 277.1519)];
     e_fraction := [] |}.
(** _elements.py:4297-4317 *)
Definition el_Mt : element :=
  {| e_z := 109;
     e_mass := [(265%Z, 265.136); (266%Z, 266.13737); (267%Z, 267.13719); (268%Z, 268.13865); (269%Z, 269.13882); (270%Z, 270.14033); (271%Z, 271.14074); (272%Z, 272.14341); (273%Z, 273.1444); (274%Z, 274.14724); (275%Z, 275.14882); (276%Z, 276.15159); (277%Z, 277.15327); (278%Z, 278.15631); (279%Z, 279.15808)];
     e_fraction := [] |}.
(** _elements.py:4318-4338 *)
Definition el_Ds : element :=
  {| e_z := 110;
     e_mass := [(267%Z, 267.14377); (268%Z, 268.14348); (269%Z, 269.144752); (270%Z, 270.144584); (271%Z, 271.14595); (272%Z, 272.14602); (273%Z, 273.14856); (274%Z, 274.14941); (275%Z, 275.15203); (276%Z, 276.15303); (277%Z, 277.15591); (278%Z, 278.15704); (279%Z, 279.1601); (280%Z, 280.16131); (281%Z, 281.16451)];
     e_fraction := [] |}.
(** _elements.py:4339-4356 *)
Definition el_Rg : element :=
  {| e_z := 111;
     e_mass := [(272%Z, 272.15327); (273%Z, 273.15313); (274%Z, 274.15525); (275%Z, 275.15594); (276%Z, 276.15833); (277%Z, 277.15907); (278%Z, 278.16149); (279%Z, 279.16272); (280%Z, 280.16514); (281%Z, 281.16636); (282%Z, 282.16912); (283%Z, 283.17054)];
     e_fraction := [] |}.
(** _elements.py:4357-4372 *)
Definition el_Cn : element :=
  {| e_z := 112;
     e_mass := [(276%Z, 276.16141); (277%Z, 277.16364); (278%Z, 278.16416); (279%Z, 279.16654); (280%Z, 280.16715); (281%Z, 281.16975); (282%Z, 282.1705); (283%Z, 283.17327); (284%Z, 284.17416); (285%Z, 285.17712)];
     e_fraction := [] |}.
(** _elements.py:4373-4388 *)
Definition el_Nh : element :=
  {| e_z := 113;
     e_mass := [(278%Z, 278.17058); (279%Z, 279.17095); (280%Z, 280.17293); (281%Z, 281.17348); (282%Z, 282.17567); (283%Z, 283.17657); (284%Z, 284.17873); (285%Z, 285.17973); (286%Z, 286.18221); (287%Z, 287.18339)];
     e_fraction := [] |}.
(** _elements.py:4389-4399 *)
Definition el_Fl : element :=
  {| e_z := 114;
     e_mass := [(285%Z, 285.18364); (286%Z, 286.18423); (287%Z, 287.18678); (288%Z, 288.18757); (289%Z, 289.19042)];
     e_fraction := [] |}.
(** _elements.py:4400-4409 *)
Definition el_Mc : element :=
  {| e_z := 115;
     e_mass := [(287%Z, 287.1907); (288%Z, 288.19274); (289%Z, 289.19363); (290%Z, 290.19598)];
     e_fraction := [] |}.
(** _elements.py:4410-4416 *)
Definition el_Uup : element :=
  {| e_z := 115;
     e_mass := [(291%Z, 291.19707)];
     e_fraction := [] |}.
(** _elements.py:4417-4427 *)
Definition el_Lv : element :=
  {| e_z := 116;
     e_mass := [(289%Z, 289.19816); (290%Z, 290.19864); (291%Z, 291.20108); (292%Z, 292.20174); (293%Z, 293.20449)];
     e_fraction := [] |}.
(** _elements.py:4428-4436 *)
Definition el_Ts : element :=
  {| e_z := 117;
     e_mass := [(291%Z, 291.20553); (292%Z, 292.20746); (293%Z, 293.20824)];
     e_fraction := [] |}.
(** _elements.py:4437-4443 *)
Definition el_Uus : element :=
  {| e_z := 117;
     e_mass := [(294%Z, 294.21046)];
     e_fraction := [] |}.
(** _elements.py:4444-4452 *)
Definition el_Og : element :=
  {| e_z := 118;
     e_mass := [(293%Z, 293.21356); (294%Z, 294.21392); (295%Z, 295.21624)];
     e_fraction := [] |}.

(** _elements.py:8-4453: the keys in order. *)
Definition ELEMENTS : list (str * element) :=
  [(L "H", el_H);
   (L "He", el_He);
   (L "Li", el_Li);
   (L "Be", el_Be);
   (L "B", el_B);
   (L "C", el_C);
   (L "N", el_N);
   (L "O", el_O);
   (L "F", el_F);
   (L "Ne", el_Ne);
   (L "Na", el_Na);
   (L "Mg", el_Mg);
   (L "Al", el_Al);
   (L "Si", el_Si);
   (L "P", el_P);
   (L "S", el_S);
   (L "Cl", el_Cl);
   (L "Ar", el_Ar);
   (L "K", el_K);
   (L "Ca", el_Ca);
   (L "Sc", el_Sc);
   (L "Ti", el_Ti);
   (L "V", el_V);
   (L "Cr", el_Cr);
   (L "Mn", el_Mn);
   (L "Fe", el_Fe);
   (L "Co", el_Co);
   (L "Ni", el_Ni);
   (L "Cu", el_Cu);
   (L "Zn", el_Zn);
   (L "Ga", el_Ga);
   (L "Ge", el_Ge);
   (L "As", el_As);
   (L "Se", el_Se);
   (L "Br", el_Br);
   (L "Kr", el_Kr);
   (L "Rb", el_Rb);
   (L "Sr", el_Sr);
   (L "Y", el_Y);
   (L "Zr", el_Zr);
   (L "Nb", el_Nb);
   (L "Mo", el_Mo);
   (L "Tc", el_Tc);
   (L "Ru", el_Ru);
   (L "Rh", el_Rh);
   (L "Pd", el_Pd);
   (L "Ag", el_Ag);
   (L "Cd", el_Cd);
   (L "In", el_In);
   (L "Sn", el_Sn);
   (L "Sb", el_Sb);
   (L "Te", el_Te);
   (L "I", el_I);
   (L "Xe", el_Xe);
   (L "Cs", el_Cs);
   (L "Ba", el_Ba);
   (L "La", el_La);
   (L "Ce", el_Ce);
   (L "Pr", el_Pr);
   (L "Nd", el_Nd);
   (L "Pm", el_Pm);
   (L "Sm", el_Sm);
   (L "Eu", el_Eu);
   (L "Gd", el_Gd);
   (L "Tb", el_Tb);
   (L "Dy", el_Dy);
   (L "Ho", el_Ho);
   (L "Er", el_Er);
   (L "Tm", el_Tm);
   (L "Yb", el_Yb);
   (L "Lu", el_Lu);
   (L "Hf", el_Hf);
   (L "Ta", el_Ta);
   (L "W", el_W);
   (L "Re", el_Re);
   (L "Os", el_Os);
   (L "Ir", el_Ir);
   (L "Pt", el_Pt);
   (L "Au", el_Au);
   (L "Hg", el_Hg);
   (L "Tl", el_Tl);
   (L "Pb", el_Pb);
   (L "Bi", el_Bi);
   (L "Po", el_Po);
   (L "At", el_At);
   (L "Rn", el_Rn);
   (L "Fr", el_Fr);
   (L "Ra", el_Ra);
   (L "Ac", el_Ac);
   (L "Th", el_Th);
   (L "Pa", el_Pa);
   (L "U", el_U);
   (L "Np", el_Np);
   (L "Pu", el_Pu);
   (L "Am", el_Am);
   (L "Cm", el_Cm);
   (L "Bk", el_Bk);
   (L "Cf", el_Cf);
   (L "Es", el_Es);
   (L "Fm", el_Fm);
   (L "Md", el_Md);
   (L "No", el_No);
   (L "Lr", el_Lr);
   (L "Rf", el_Rf);
   (L "Db", el_Db);
   (L "Sg", el_Sg);
   (L "Bh", el_Bh);
   (L "Hs", el_Hs);
   (L "Mt", el_Mt);
   (L "Ds", el_Ds);
   (L "Rg", el_Rg);
   (L "Cn", el_Cn);
   (L "Nh", el_Nh);
   (L "Fl", el_Fl);
   (L "Mc", el_Mc);
   (L "Uup", el_Uup);
   (L "Lv", el_Lv);
   (L "Ts", el_Ts);
   (L "Uus", el_Uus);
   (L "Og", el_Og)].
