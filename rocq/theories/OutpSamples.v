(** OUTP texts of the project's own tests, copied from /repo/tests/consts.py by
    tools/gen_outp_samples.py. *)
From Coq Require Import Ascii String List.
From Verif Require Import PyStr.
Import ListNotations.
Open Scope list_scope.

(** tests/consts.py:812 *)
Definition sample_ANALYSIS_TALLY_FLUCTUATION : str :=
  join [nl] [L "1analysis of the results in the tally fluctuation chart bin (tfc) for tally 1 with nps = 1000000             print table 160";
    L "";
    L "";
    L " normed average tally per history  = 1.13338E-04          unnormed average tally per history  = 1.13338E-04";
    L " estimated tally relative error    = 0.0981               estimated variance of the variance  = 0.0121";
    L " relative error from zero tallies  = 0.0962               relative error from nonzero scores  = 0.0192";
    L "";
    L " number of nonzero history tallies =         108          efficiency for the nonzero tallies  = 0.0001";
    L " history number of largest  tally  =      112938          largest  unnormalized history tally = 2.00000E+00";
    L " (largest  tally)/(average tally)  = 1.76463E+04          (largest  tally)/(avg nonzero tally)= 1.90580E+00";
    L "";
    L " (confidence interval shift)/mean  = 0.0051               shifted confidence interval center  = 1.13921E-04";
    L "";
    L "";
    L " if the largest  history score sampled so far were to occur on the next history, the tfc bin quantities would change as follows:";
    L "";
    L "      estimated quantities           value at nps           value at nps+1           value(nps+1)/value(nps)-1.";
    L "";
    L "      mean                            1.13338E-04             1.15338E-04                     0.017645";
    L "      relative error                  9.81244E-02             9.79695E-02                    -0.001578";
    L "      variance of the variance        1.20537E-02             1.22915E-02                     0.019724";
    L "      shifted center                  1.13921E-04             1.13934E-04                     0.000115";
    L "      figure of merit                 1.35377E+02             1.35805E+02                     0.003164";
    L "";
    L " there is not enough information in the largest  history scores (usually less than 500 scores) for a reliable estimate of the slope.";
    L " the empirical history score probability density function appears to be increasing at the largest  history scores:";
    L " please examine. see print table 161.";
    L " the history score probability density function appears to have an unsampled region at the largest  history scores:";
    L " please examine. see print table 161.";
    L "";
    L " fom = (histories/minute)*(f(x) signal-to-noise ratio)**2 = (1.303E+06)*( 1.019E-02)**2 = (1.303E+06)*(1.039E-04) = 1.354E+02";
    L ""].
(** tests/consts.py:845 *)
Definition sample_HEADER : str :=
  join [nl] [L "          Code Name & Version = MCNP_6.20, 6.2.0";
    L "  ";
    L "     _/      _/        _/_/_/       _/      _/       _/_/_/         _/_/_/ ";
    L "    _/_/  _/_/      _/             _/_/    _/       _/    _/     _/        ";
    L "   _/  _/  _/      _/             _/  _/  _/       _/_/_/       _/_/_/     ";
    L "  _/      _/      _/             _/    _/_/       _/           _/    _/    ";
    L " _/      _/        _/_/_/       _/      _/       _/             _/_/       ";
    L "  ";
    L "  +-----------------------------------------------------------------------+";
    L "  | Copyright (2018).  Los Alamos National Security, LLC.  All rights     !";
    L "  | reserved.                                                             !";
    L "  |  This material was produced under U.S. Government contract            !";
    L "  | DE-AC52-06NA25396 for Los Alamos National Laboratory, which is        !";
    L "  | operated by Los Alamos National Security, LLC for the U.S.            !";
    L "  | Department of Energy. The Government is granted for itself and        !";
    L "  | others acting on its behalf a paid-up, nonexclusive, irrevocable      !";
    L "  | worldwide license in this material to reproduce, prepare derivative   !";
    L "  | works, and perform publicly and display publicly. Beginning five (5)  !";
    L "  | years after February 14, 2018, subject to additional five-year        !";
    L "  | worldwide renewals, the Government is granted for itself and others   !";
    L "  | acting on its behalf a paid-up, nonexclusive, irrevocable worldwide   !";
    L "  | license in this material to reproduce, prepare derivative works,      !";
    L "  | distribute copies to the public, perform publicly and display         !";
    L "  | publicly, and to permit others to do so. NEITHER THE UNITED STATES    !";
    L "  | NOR THE UNITED STATES DEPARTMENT OF ENERGY, NOR LOS ALAMOS NATIONAL   !";
    L "  | SECURITY, LLC, NOR ANY OF THEIR EMPLOYEES, MAKES ANY WARRANTY,        !";
    L "  | EXPRESS OR IMPLIED, OR ASSUMES ANY LEGAL LIABILITY OR RESPONSIBILITY  !";
    L "  | FOR THE ACCURACY, COMPLETENESS, OR USEFULNESS OF ANY INFORMATION,     !";
    L "  | APPARATUS, PRODUCT, OR PROCESS DISCLOSED, OR REPRESENTS THAT ITS USE  !";
    L "  | WOULD NOT INFRINGE PRIVATELY OWNED RIGHTS.                            !";
    L "  +-----------------------------------------------------------------------+";
    L "  ";
    L ""].
(** tests/consts.py:879 *)
Definition sample_MCNP : str :=
  join [nl] [L "1mcnp     version 6     ld=02/20/18                     10/21/24 12:25:31 ";
    L " *************************************************************************                 probid =  10/21/24 12:25:31 ";
    L " i=F1.i o=F1.o";
    L "";
    L " ";
    L "  comment.  Physics models disabled.";
    L "         1-       Isotropic neutron source over lunar regolith with two gamma detectors";
    L "         2-       c ============================================================";
    L "         3-       c                        cell cards";
    L "         4-       c ============================================================";
    L "         5-       100 100 -1.54 -1                          IMP:P,N=1 $ surface";
    L "         6-       200 300 -5.06 -2                          IMP:P,N=1 $ LaBr3";
    L "         7-       201 200 -5.1  -3                          IMP:P,N=1 $ CeBr3";
    L "         8-       777 900 -1e-6 1 2 3 -99                   IMP:P,N=1 $ Air";
    L "         9-       999 0 99                                  IMP:P,N=0 $ Graveyard";
    L "        10-       ";
    L "        11-       c ============================================================";
    L "        12-       c                       surface cards";
    L "        13-       c ============================================================";
    L "        14-       1 RPP -300 300 -300 300 -150 -50       $ surface";
    L "        15-       2 RCC 50 0 0 0 0 7.62 3.81             $ 3-inch LaBr3 crystal";
    L "        16-       3 RCC -50 0 0 0 0 5.08 2.54            $ 2-inch CeBr3 crystal";
    L "        17-       99 SO 600                              $ World";
    L "        18-       ";
    L "        19-       c ============================================================";
    L "        20-       c                      material cards";
    L "        21-       c ============================================================";
    L "        22-       c Lunar Highlands:";
    L "        23-       M100   13027      -0.1701            $ Al-027";
    L "        24-              20040      -0.131742819       $ Ca-040";
    L "        25-              20042      -0.000879273       $ Ca-042";
    L "        26-              20044      -0.002834874       $ Ca-044";
    L "        27-              26054      -0.00086506        $ Fe-054";
    L "        28-              26056      -0.013579592       $ Fe-056";
    L "        29-              26057      -0.000313612       $ Fe-057";
    L "        30-              8016       -0.45489192        $ O-016";
    L "        31-              19039      -0.0001865162      $ K-039";
    L "        32-              19041      -1.34604e-05       $ K-041";
    L "        33-              12024      -0.00402849        $ Mg-024";
    L "        34-              12025      -0.00051           $ Mg-025";
    L "        35-              12026      -0.00056151        $ Mg-026";
    L "        36-              11023      -0.0045            $ Na-023";
    L "        37-              14028      -0.190532718       $ Si-028";
    L "        38-              14029      -0.00967921        $ Si-029";
    L "        39-              14030      -0.006388072       $ Si-030";
    L "        40-              90232      -0.006             $ Th-232";
    L "        41-              22046      -6.6e-05           $ Ti-046";
    L "        42-              22047      -5.952e-05         $ Ti-047";
    L "        43-              22048      -0.00058976        $ Ti-048";
    L "        44-              22049      -4.328e-05         $ Ti-049";
    L "        45-              22050      -4.144e-05         $ Ti-050";
    L "        46-       c CeBr3:";
    L "        47-       M200   35079      -0.3199072536      $ Br-079";
    L "        48-              35081      -0.3111980011      $ Br-081";
    L "        49-              58140      -0.3262874023      $ Ce-140";
    L "        50-              58142      -0.040998962       $ Ce-142";
    L "        51-       c LaBr3:";
    L "        52-       M300   35079      -0.3209300771      $ Br-079";
    L "        53-              35081      -0.3121929789      $ Br-081";
    L "        54-              57139      -0.3665511205      $ La-139";
    L "        55-       c Air:";
    L "        56-       M900   8016      -0.2094897          $ O-016";
    L "        57-              7014      -0.7771608          $ N-014";
    L "        58-              18040     -0.00996035         $ Ar-040";
    L "        59-       c";
    L "        60-       c ============================================================";
    L "        61-       c                      source cards";
    L "        62-       c ============================================================";
    L "        63-       mode n p";
    L "  comment.  photonuclear physics may be needed (phys:p).";
    L "        64-       nps 1e6";
    L "        65-       c rand seed = 71129329235055";
    L "        66-       c source definition";
    L "        67-       sdef par=n erg=14.05";
    L "        68-       c tally information";
    L "        69-       c";
    L "        70-       F1:p 2.1 2.2 2.3 $ body, base, top";
    L "        71-       *C1 90 0";
    L "        72-       E1 0.1 511I 10";
    L "        73-       F21:p 3.1 3.2 3.3 $ body, base, top";
    L "        74-       *C21 90 0";
    L "        75-       E21 0.1 511I 10";
    L "        76-       c";
    L "        77-       c end of file";
    L "";
    L " ***************************************************";
    L " * Random Number Generator  =                    1 *";
    L " * Random Number Seed       =       19073486328125 *";
    L " * Random Number Multiplier =       19073486328125 *";
    L " * Random Number Adder      =                    0 *";
    L " * Random Number Bits Used  =                   48 *";
    L " * Random Number Stride     =               152917 *";
    L " ***************************************************";
    L "";
    L " ";
    L "  comment.  total nubar used if fissionable isotopes are present.";
    L "";
    L " surface        2.3 and surface        3.3 are the same.        3.3 will be deleted.";
    L " ";
    L "  comment.           1 surfaces were deleted for being the same as others.";
    L " ";
    L "  warning.  replacing eliminated surface with facet        2.3 in tally       21.";
    L " ";
    L "  warning.    4 materials had unnormalized fractions. print table 40.";
    L ""].
(** tests/consts.py:985 *)
Definition sample_NEUTRON_ACTIVITY : str :=
  join [nl] [L "1neutron  activity in each cell                                                                         print table 126";
    L "";
    L "                       tracks     population   collisions   collisions     number        flux        average      average";
    L "              cell    entering                               * weight     weighted     weighted   track weight   track mfp";
    L "                                                          (per history)    energy       energy     (relative)      (cm)";
    L "";
    L "        1        1       10076        10000            2    2.0000E-04   1.3819E+01   1.3933E+01   9.9945E-01   1.1942E+04";
    L "        2        2           3            3            1    7.9710E-05   1.2184E+01   1.3180E+01   9.8234E-01   4.4652E+00";
    L "        3        3       10079        10000         5357    5.2183E-01   9.6845E+00   1.2274E+01   9.7811E-01   9.3059E+00";
    L "";
    L "           total         20158        20003         5360    5.2211E-01"].
(** tests/consts.py:998 *)
Definition sample_PHOTON_ACTIVITY : str :=
  join [nl] [L "1photon   activity in each cell                                                                         print table 126";
    L "";
    L "                       tracks     population   collisions   collisions     number        flux        average      average";
    L "              cell    entering                               * weight     weighted     weighted   track weight   track mfp";
    L "                                                          (per history)    energy       energy     (relative)      (cm)";
    L "";
    L "        1      100          52      1116266      5140537    5.1841E+00   1.6803E+00   1.6803E+00   1.0080E+00   1.0659E+01";
    L "        2      200         316          512          860    8.6800E-04   2.1401E+00   2.1401E+00   1.0052E+00   3.5814E+00";
    L "        3      201         140          244          351    3.6137E-04   1.8982E+00   1.8982E+00   1.0191E+00   3.3707E+00";
    L "        4      777      236156       235894            8    8.0491E-06   2.2608E+00   2.2608E+00   1.0083E+00   2.0885E+07";
    L "";
    L "           total        236664      1352916      5141756    5.1854E+00"].
(** tests/consts.py:1012 *)
Definition sample_PROBLEM_SUMMARY : str :=
  join [nl] [L "1problem summary                                                                                                           ";
    L "";
    L "      run terminated when    10000000  particle histories were done.";
    L "+                                                                                                    10/23/24 18:49:52 ";
    L "";
    L " =====>      71.59 M histories/hr    (based on wall-clock time in mcrun)";
    L "";
    L "";
    L "      Isotropic neutron source over lunar regolith with two gamma detectors     probid =  10/23/24 18:41:28 ";
    L "";
    L " neutron creation    tracks      weight        energy            neutron loss        tracks      weight        energy";
    L "                                 (per source particle)                                           (per source particle)";
    L "";
    L " source            10000000    1.0000E+00    1.4050E+01          escape             8340143    8.3401E-01    8.8893E+00";
    L " nucl. interaction        0    0.            0.                  energy cutoff            0    0.            0.        ";
    L " particle decay           0    0.            0.                  time cutoff              0    0.            0.        ";
    L " weight window            0    0.            0.                  weight window            0    0.            0.        ";
    L " cell importance          0    0.            0.                  cell importance          0    0.            0.        ";
    L " weight cutoff            0    0.            0.                  weight cutoff            0    0.            0.        ";
    L " e or t importance        0    0.            0.                  e or t importance        0    0.            0.        ";
    L " dxtran                   0    0.            0.                  dxtran                   0    0.            0.        ";
    L " forced collisions        0    0.            0.                  forced collisions        0    0.            0.        ";
    L " exp. transform           0    0.            0.                  exp. transform           0    0.            0.        ";
    L " upscattering             0    0.            2.7739E-09          downscattering           0    0.            3.1523E+00";
    L " photonuclear             0    0.            0.                  capture            1709465    1.7095E-01    1.9574E+00";
    L " (n,xn)               91097    9.1097E-03    1.1649E-02          loss to (n,xn)       44874    4.4874E-03    6.2132E-02";
    L " prompt fission        4686    4.6860E-04    8.9758E-04          loss to fission       1356    1.3560E-04    1.4918E-03";
    L " delayed fission         55    5.5000E-06    2.7253E-06          nucl. interaction        0    0.            0.        ";
    L " prompt photofis          0    0.            0.                  particle decay           0    0.            0.        ";
    L " tabular boundary         0    0.            0.                  tabular boundary         0    0.            0.        ";
    L " tabular sampling         0    0.            0.                  elastic scatter          0    0.            0.        ";
    L "     total         10095838    1.0096E+00    1.4063E+01              total         10095838    1.0096E+00    1.4063E+01";
    L "";
    L "   number of neutrons banked                   49608        average time of (shakes)              cutoffs";
    L "   neutron tracks per source particle     1.0096E+00          escape            5.8041E+03          tco   1.0000E+33";
    L "   neutron collisions per source particle 9.2106E+00          capture           3.9507E+03          eco   0.0000E+00";
    L "   total neutron collisions                 92105606          capture or escape 5.4888E+03          wc1   0.0000E+00";
    L "   net multiplication              1.0050E+00 0.0000          any termination   5.4637E+03          wc2   0.0000E+00";
    L "";
    L " photon creation     tracks      weight        energy            photon loss         tracks      weight        energy";
    L "                                 (per source particle)                                           (per source particle)";
    L "";
    L " source                   0    0.            0.                  escape             2376525    2.3765E-01    5.3734E-01";
    L " nucl. interaction        0    0.            0.                  energy cutoff            2    1.9887E-07    6.4567E-05";
    L " particle decay           0    0.            0.                  time cutoff              0    0.            0.        ";
    L " weight window            0    0.            0.                  weight window            0    0.            0.        ";
    L " cell importance          0    0.            0.                  cell importance          0    0.            0.        ";
    L " weight cutoff            0    0.            0.                  weight cutoff            0    0.            0.        ";
    L " e or t importance        0    0.            0.                  e or t importance        0    0.            0.        ";
    L " dxtran                   0    0.            0.                  dxtran                   0    0.            0.        ";
    L " forced collisions        0    0.            0.                  forced collisions        0    0.            0.        ";
    L " exp. transform           0    0.            0.                  exp. transform           0    0.            0.        ";
    L " from neutrons      6704145    6.7040E-01    2.1970E+00          compton scatter          0    0.            1.4052E+00";
    L " bremsstrahlung     3206266    3.2062E-01    3.4894E-02          capture           10551627    1.0551E+00    7.2990E-02";
    L " p-annihilation      991806    9.9180E-02    5.0682E-02          pair production     495903    4.9590E-02    2.7765E-01";
    L " photonuclear             0    0.            0.                  photonuclear abs         0    0.            0.        ";
    L " electron x-rays          0    0.            0.                  loss to photofis         0    0.            0.        ";
    L " compton fluores          0    0.            0.                                                                        ";
    L " muon capt fluores        0    0.            0.                                                                        ";
    L " 1st fluorescence   2194184    2.1941E-01    1.0173E-02                                                                ";
    L " 2nd fluorescence    327656    3.2765E-02    4.6203E-04                                                                ";
    L " cerenkov                 0    0.            0.                                                                        ";
    L " (gamma,xgamma)           0    0.            0.                                                                        ";
    L " tabular sampling         0    0.            0.                                                                        ";
    L " prompt photofis          0    0.            0.                                                                        ";
    L "     total         13424057    1.3424E+00    2.2932E+00              total         13424057    1.3424E+00    2.2932E+00";
    L "";
    L "   number of photons banked                 11229871        average time of (shakes)              cutoffs";
    L "   photon tracks per source particle      1.3424E+00          escape            8.8021E+02          tco   1.0000E+33";
    L "   photon collisions per source particle  5.1783E+00          capture           2.4146E+03          eco   1.0000E-03";
    L "   total photon collisions                  51782677          capture or escape 2.1325E+03          wc1   0.0000E+00";
    L "                                                              any termination   2.1263E+03          wc2   0.0000E+00";
    L "";
    L " computer time so far in this run     3.99 minutes            maximum number ever in bank        26";
    L " computer time in mcrun               3.98 minutes            bank overflows to backup file       0";
    L " source particles per minute            2.5151E+06";
    L " random numbers generated               1765025087            most random numbers used was       12077 in history     1159964";
    L "";
    L " range of sampled source weights = 1.0000E+00 to 1.0000E+00";
    L ""].
(** tests/consts.py:1093 *)
Definition sample_STARTING_MCRUN : str :=
  join [nl] [L "1starting mcrun.      cp0 =  0.00                                                                       print table 110";
    L "";
    L "      lattice example 18                                                              ";
    L "";
    L "";
    L "     nps    x          y          z          cell       surf     u          v          w        energy     weight      time";
    L " ";
    L "      1 -1.933E+00 -4.878E+00  2.138E+00        5            -9.600E-02  9.907E-01  9.642E-02  6.632E+00  3.500E-01  0.000E+00";
    L "        -1.498E-01 -1.272E+00  1.138E+00       10            -7.104E-01  6.972E-01  9.642E-02                                 ";
    L "        -2.498E-01 -3.724E-01  1.138E+00       15          0 -7.104E-01  6.972E-01  9.642E-02                                 ";
    L " warning.  tally not scored beyond last energy bin.                    ";
    L " nps =       40899     nrn =                  67 tal =    4     erg = 1.3903E+01      ";
    L ""].
(** tests/consts.py:1107 *)
Definition sample_TALLY_1A : str :=
  join [nl] [L "1tally        1        nps =    10000000";
    L "           tally type 1    number of particles crossing a surface.                             ";
    L "           particle(s): photons  ";
    L " ";
    L " surface  2.1                                                                                                                          ";
    L " angle  bin:  180.0        to  0.90000E+02 degrees                                                                                     ";
    L "      energy   ";
    L "    1.0000E-01   8.29996E-06 0.1098";
    L "    1.1934E-01   3.80440E-06 0.1622";
    L "    1.3867E-01   2.70000E-06 0.1924";
    L "      total      1.49149E-04 0.0259";
    L " ";
    L " surface  2.1                                                                                                                          ";
    L " angle  bin:   0.90000E+02 to  0.00000E+00 degrees                                                                                     ";
    L "      energy   ";
    L "    1.0000E-01   1.50000E-06 0.2749";
    L "    1.1934E-01   8.99962E-07 0.3333";
    L "    1.3867E-01   9.00000E-07 0.3333";
    L "      total      1.13262E-04 0.0319";
    L " ";
    L " surface  2.2                                                                                                                          ";
    L " angle  bin:  180.0        to  0.90000E+02 degrees                                                                                     ";
    L "      energy   ";
    L "    1.0000E-01   0.00000E+00 0.0000";
    L "    1.1934E-01   0.00000E+00 0.0000";
    L "    1.3867E-01   0.00000E+00 0.0000";
    L "      total      0.00000E+00 0.0000";
    L " ";
    L " surface  2.2                                                                                                                          ";
    L " angle  bin:   0.90000E+02 to  0.00000E+00 degrees                                                                                     ";
    L "      energy   ";
    L "    1.0000E-01   3.99999E-07 0.5000";
    L "    1.1934E-01   4.00000E-07 0.5000";
    L "    1.3867E-01   0.00000E+00 0.0000";
    L "      total      5.93995E-05 0.0423";
    L " ";
    L " surface  2.3                                                                                                                          ";
    L " angle  bin:  180.0        to  0.90000E+02 degrees                                                                                     ";
    L "      energy   ";
    L "    1.0000E-01   9.09998E-06 0.1048";
    L "    1.1934E-01   5.69996E-06 0.1325";
    L "    1.3867E-01   4.69996E-06 0.1459";
    L "      total      1.98462E-04 0.0225";
    L " ";
    L " surface  2.3                                                                                                                          ";
    L " angle  bin:   0.90000E+02 to  0.00000E+00 degrees                                                                                     ";
    L "      energy   ";
    L "    1.0000E-01   9.99999E-07 0.3162";
    L "    1.1934E-01   3.99999E-07 0.5000";
    L "    1.3867E-01   6.00000E-07 0.4082";
    L "      total      1.75999E-05 0.0762";
    L "";
    L "";
    L " ===================================================================================================================================";
    L "";
    L "           results of 10 statistical checks for the estimated answer for the tally fluctuation chart (tfc) bin of tally        1";
    L "";
    L " tfc bin     --mean--      ---------relative error---------      ----variance of the variance----      --figure of merit--     -pdf-";
    L " behavior    behavior      value   decrease   decrease rate      value   decrease   decrease rate       value     behavior     slope";
    L "";
    L " desired      random       <0.10      yes      1/sqrt(nps)       <0.10      yes        1/nps           constant    random      >3.00";
    L " observed     random        0.03      yes          yes            0.00      yes         yes            constant    random      10.00";
    L " passed?        yes          yes      yes          yes             yes      yes         yes               yes        yes         yes";
    L "";
    L " ===================================================================================================================================";
    L "";
    L "";
    L " this tally meets the statistical criteria used to form confidence intervals: check the tally fluctuation chart to verify.";
    L " the results in other bins associated with this tally may not meet these statistical criteria.";
    L "";
    L " ----- estimated confidence intervals:  -----";
    L "";
    L " estimated asymmetric confidence interval(1,2,3 sigma): 1.0972E-04 to 1.1695E-04; 1.0610E-04 to 1.2056E-04; 1.0249E-04 to 1.2417E-04";
    L " estimated  symmetric confidence interval(1,2,3 sigma): 1.0965E-04 to 1.1687E-04; 1.0604E-04 to 1.2049E-04; 1.0243E-04 to 1.2410E-04";
    L ""].
(** tests/consts.py:1184 *)
Definition sample_TALLY_1B : str :=
  join [nl] [L "1tally        1        nps =     1000000";
    L "           tally type 1    number of particles crossing a surface.                             ";
    L "           particle(s): photons  ";
    L " ";
    L " surface  2.1                                                                                                                          ";
    L " angle  bin:  180.0        to  0.90000E+02 degrees                                                                                     ";
    L "      energy   ";
    L "    1.0000E-01   1.03581E-05 0.3177";
    L "    1.1934E-01   3.00000E-06 0.5773";
    L "    1.3867E-01   5.02454E-06 0.4472";
    L "      total      1.61175E-04 0.0791";
    L " ";
    L " surface  2.1                                                                                                                          ";
    L " angle  bin:   0.90000E+02 to  0.00000E+00 degrees                                                                                     ";
    L "      energy   ";
    L "    1.0000E-01   3.11418E-06 0.5781";
    L "    1.1934E-01   0.00000E+00 0.0000";
    L "    1.3867E-01   1.99999E-06 0.7071";
    L "      total      1.13338E-04 0.0981";
    L " ";
    L " surface  2.2                                                                                                                          ";
    L " angle  bin:  180.0        to  0.90000E+02 degrees                                                                                     ";
    L "      energy   ";
    L "    1.0000E-01   0.00000E+00 0.0000";
    L "    1.1934E-01   0.00000E+00 0.0000";
    L "    1.3867E-01   0.00000E+00 0.0000";
    L "      total      0.00000E+00 0.0000";
    L " ";
    L " surface  2.2                                                                                                                          ";
    L " angle  bin:   0.90000E+02 to  0.00000E+00 degrees                                                                                     ";
    L "      energy   ";
    L "    1.0000E-01   0.00000E+00 0.0000";
    L "    1.1934E-01   0.00000E+00 0.0000";
    L "    1.3867E-01   0.00000E+00 0.0000";
    L "      total      7.22900E-05 0.1179";
    L " ";
    L " surface  2.3                                                                                                                          ";
    L " angle  bin:  180.0        to  0.90000E+02 degrees                                                                                     ";
    L "      energy   ";
    L "    1.0000E-01   1.50736E-05 0.2582";
    L "    1.1934E-01   8.04909E-06 0.3536";
    L "    1.3867E-01   9.04909E-06 0.3333";
    L "      total      2.18636E-04 0.0682";
    L " ";
    L " surface  2.3                                                                                                                          ";
    L " angle  bin:   0.90000E+02 to  0.00000E+00 degrees                                                                                     ";
    L "      energy   ";
    L "    1.0000E-01   5.00000E-06 0.4472";
    L "    1.1934E-01   0.00000E+00 0.0000";
    L "    1.3867E-01   0.00000E+00 0.0000";
    L "      total      2.13311E-05 0.2185";
    L "";
    L "";
    L " ===================================================================================================================================";
    L "";
    L "           results of 10 statistical checks for the estimated answer for the tally fluctuation chart (tfc) bin of tally        1";
    L "";
    L " tfc bin     --mean--      ---------relative error---------      ----variance of the variance----      --figure of merit--     -pdf-";
    L " behavior    behavior      value   decrease   decrease rate      value   decrease   decrease rate       value     behavior     slope";
    L "";
    L " desired      random       <0.10      yes      1/sqrt(nps)       <0.10      yes        1/nps           constant    random      >3.00";
    L " observed     random        0.10      yes          yes            0.01      yes         yes            constant    random       0.00";
    L " passed?        yes          yes      yes          yes             yes      yes         yes               yes        yes          no";
    L "";
    L " ===================================================================================================================================";
    L "";
    L "";
    L " warning.  the tally in the tally fluctuation chart bin did not pass  1 of the 10 statistical checks.";
    L ""].
(** tests/consts.py:1255 *)
Definition sample_TALLY_2 : str :=
  join [nl] [L "1tally        2        nps =      100000";
    L "           tally type 2    particle flux averaged over a surface.       units   1/cm**2        ";
    L "           particle(s): neutrons ";
    L "";
    L "           areas   ";
    L "                surface:       8                                                                                   ";
    L "                         1.25664E+01";
    L " ";
    L "      surface:           8                                                                                         ";
    L "        time   ";
    L "    0.0000E+00   0.00000E+00 0.0000";
    L "    1.0000E+02   7.79859E-05 0.1010";
    L "    2.0000E+02   8.51479E-05 0.0966";
    L "      total      7.95775E-02 0.0000";
    L "";
    L "";
    L " ===================================================================================================================================";
    L "";
    L "           results of 10 statistical checks for the estimated answer for the tally fluctuation chart (tfc) bin of tally        2";
    L "";
    L " tfc bin     --mean--      ---------relative error---------      ----variance of the variance----      --figure of merit--     -pdf-";
    L " behavior    behavior      value   decrease   decrease rate      value   decrease   decrease rate       value     behavior     slope";
    L "";
    L " desired      random       <0.10      yes      1/sqrt(nps)       <0.10      yes        1/nps           constant    random      >3.00";
    L " observed    constant       0.00      yes          yes            0.00      yes         yes            constant    random      10.00";
    L " passed?        yes          yes      yes          yes             yes      yes         yes               yes        yes         yes";
    L "";
    L " ===================================================================================================================================";
    L "";
    L "";
    L " this tally meets the statistical criteria used to form confidence intervals: check the tally fluctuation chart to verify.";
    L " the results in other bins associated with this tally may not meet these statistical criteria.";
    L "";
    L " ----- estimated confidence intervals:  -----";
    L "";
    L " estimated asymmetric confidence interval(1,2,3 sigma): 7.9577E-02 to 7.9577E-02; 7.9577E-02 to 7.9577E-02; 7.9577E-02 to 7.9577E-02";
    L " estimated  symmetric confidence interval(1,2,3 sigma): 7.9577E-02 to 7.9577E-02; 7.9577E-02 to 7.9577E-02; 7.9577E-02 to 7.9577E-02";
    L ""].
(** tests/consts.py:1295 *)
Definition sample_TALLY_4 : str :=
  join [nl] [L "1tally       14        nps =  1000000000";
    L "           tally type 4    track length estimate of particle flux.      units   1/cm**2        ";
    L "           particle(s): photons  ";
    L "";
    L "           volumes ";
    L "                   cell:      12                                                                                   ";
    L "                         2.86848E+03";
    L " ";
    L " cell  12                                                                                                                              ";
    L "      energy   ";
    L "    1.0000E-01   3.62214E-07 0.0025";
    L "    1.9099E+00   4.26948E-09 0.0228";
    L "    1.9198E+00   4.10659E-09 0.0231";
    L "      total      6.83312E-06 0.0008";
    L "";
    L "";
    L " ===================================================================================================================================";
    L "";
    L "           results of 10 statistical checks for the estimated answer for the tally fluctuation chart (tfc) bin of tally       14";
    L "";
    L " tfc bin     --mean--      ---------relative error---------      ----variance of the variance----      --figure of merit--     -pdf-";
    L " behavior    behavior      value   decrease   decrease rate      value   decrease   decrease rate       value     behavior     slope";
    L "";
    L " desired      random       <0.10      yes      1/sqrt(nps)       <0.10      yes        1/nps           constant    random      >3.00";
    L " observed     random        0.00      yes          yes            0.00      yes         yes            constant    random      10.00";
    L " passed?        yes          yes      yes          yes             yes      yes         yes               yes        yes         yes";
    L "";
    L " ===================================================================================================================================";
    L "";
    L "";
    L " this tally meets the statistical criteria used to form confidence intervals: check the tally fluctuation chart to verify.";
    L " the results in other bins associated with this tally may not meet these statistical criteria.";
    L "";
    L " ----- estimated confidence intervals:  -----";
    L "";
    L " estimated asymmetric confidence interval(1,2,3 sigma): 6.8273E-06 to 6.8389E-06; 6.8215E-06 to 6.8447E-06; 6.8157E-06 to 6.8505E-06";
    L " estimated  symmetric confidence interval(1,2,3 sigma): 6.8273E-06 to 6.8389E-06; 6.8215E-06 to 6.8447E-06; 6.8157E-06 to 6.8505E-06";
    L ""].
(** tests/consts.py:1335 *)
Definition sample_TALLY_8A : str :=
  join [nl] [L "1tally       18        nps =    10000000";
    L "           tally type 8    pulse height distribution.                   units   number         ";
    L "           particle(s): photons  ";
    L " ";
    L " cell  200                                                                                                                             ";
    L "      energy   ";
    L "    1.0000E-01   1.08900E-04 0.0303";
    L "    1.1934E-01   8.30000E-06 0.1098";
    L "    1.3867E-01   7.80000E-06 0.1132";
    L "      total      2.89500E-04 0.0186";
    L "";
    L "";
    L " ===================================================================================================================================";
    L "";
    L "           results of 10 statistical checks for the estimated answer for the tally fluctuation chart (tfc) bin of tally       18";
    L "";
    L " tfc bin     --mean--      ---------relative error---------      ----variance of the variance----      --figure of merit--     -pdf-";
    L " behavior    behavior      value   decrease   decrease rate      value   decrease   decrease rate       value     behavior     slope";
    L "";
    L " desired      random       <0.10      yes      1/sqrt(nps)       <0.10      yes        1/nps           constant    random      >3.00";
    L " observed     random        0.02      yes          yes            0.00      yes         yes            constant    random      10.00";
    L " passed?        yes          yes      yes          yes             yes      yes         yes               yes        yes         yes";
    L "";
    L " ===================================================================================================================================";
    L "";
    L "";
    L " this tally meets the statistical criteria used to form confidence intervals: check the tally fluctuation chart to verify.";
    L " the results in other bins associated with this tally may not meet these statistical criteria.";
    L "";
    L " ----- estimated confidence intervals:  -----";
    L "";
    L " estimated asymmetric confidence interval(1,2,3 sigma): 2.8417E-04 to 2.9493E-04; 2.7879E-04 to 3.0031E-04; 2.7341E-04 to 3.0569E-04";
    L " estimated  symmetric confidence interval(1,2,3 sigma): 2.8412E-04 to 2.9488E-04; 2.7874E-04 to 3.0026E-04; 2.7336E-04 to 3.0564E-04";
    L ""].
(** tests/consts.py:1371 *)
Definition sample_TALLY_8B : str :=
  join [nl] [L "1tally       18        nps =    10000000";
    L "           tally type 8    pulse height distribution.                   units   number         ";
    L "           particle(s): photons  ";
    L " ";
    L " cell  200                                                                                                                             ";
    L "      energy   ";
    L "    1.0000E-01   1.08900E-04 0.0303";
    L "    1.1934E-01   8.30000E-06 0.1098";
    L "    1.3867E-01   7.80000E-06 0.1132";
    L "      total      2.89500E-04 0.0186";
    L "";
    L "";
    L " ===================================================================================================================================";
    L "";
    L "           results of 10 statistical checks for the estimated answer for the tally fluctuation chart (tfc) bin of tally       18";
    L "";
    L " tfc bin     --mean--      ---------relative error---------      ----variance of the variance----      --figure of merit--     -pdf-";
    L " behavior    behavior      value   decrease   decrease rate      value   decrease   decrease rate       value     behavior     slope";
    L "";
    L " desired      random       <0.10      yes      1/sqrt(nps)       <0.10      yes        1/nps           constant    random      >3.00";
    L " observed     random        0.02      yes          yes            0.00      yes         yes            constant    random      10.00";
    L " passed?        yes          yes      yes          yes             yes      yes         yes               yes        yes         yes";
    L "";
    L " ===================================================================================================================================";
    L "";
    L "";
    L " warning.  the tally in the tally fluctuation chart bin did not pass  1 of the 10 statistical checks.";
    L ""].
(** tests/consts.py:1401 *)
Definition sample_UNNORMED_TALLY_DENSITY : str :=
  join [nl] [L "1unnormed tally density for tally 4          nonzero tally mean(m) = 5.406E+00   nps = 1000000               print table 161";
    L "";
    L " abscissa              ordinate   log plot of tally probability density function in tally fluctuation chart bin(d=decade,slope= 5.7)";
    L "  tally  number num den log den:d------------------d-------------------d--------------------d-------------------d-------------------";
    L " 7.94-04      1 6.12-03  -2.213 *******************|*******************|********************|*******************|*******************";
    L " 1.00-03      0 0.00+00   0.000                    |                   |                    |                   |                   ";
    L " 1.58-02      2 6.14-04  -3.212 *******************|*******************|********************|*******************|                   ";
    L "  total    2313 2.31-03         d------------------d-------------------d--------------------d-------------------d-------------------"].
(** tests/consts.py:1413 *)
Definition sample_SUBTALLY_1 : str :=
  join [nl] [L " surface  2.1                                                                                                                          ";
    L " angle  bin:  180.0        to  0.90000E+02 degrees                                                                                     ";
    L "      energy   ";
    L "    1.0000E-01   8.29996E-06 0.1098";
    L "    1.1934E-01   3.80440E-06 0.1622";
    L "    1.3867E-01   2.70000E-06 0.1924";
    L "      total      1.49149E-04 0.0259";
    L "";
    L ""].
(** tests/consts.py:1423 *)
Definition sample_SUBTALLY_2 : str :=
  join [nl] [L "      surface:           8                                                                                         ";
    L "        time   ";
    L "    0.0000E+00   0.00000E+00 0.0000";
    L "    1.0000E+02   7.79859E-05 0.1010";
    L "    2.0000E+02   8.51479E-05 0.0966";
    L "      total      7.95775E-02 0.0000";
    L "";
    L ""].
(** tests/consts.py:1432 *)
Definition sample_SUBTALLY_4 : str :=
  join [nl] [L " cell  12                                                                                                                              ";
    L "      energy   ";
    L "    1.0000E-01   3.62214E-07 0.0025";
    L "    1.9099E+00   4.26948E-09 0.0228";
    L "    1.9198E+00   4.10659E-09 0.0231";
    L "      total      6.83312E-06 0.0008";
    L "";
    L ""].
(** tests/consts.py:1443 *)
Definition sample_LINE : str :=
  join [nl] [L "    1.0000E-01   3.62214E-07 0.0025";
    L ""].
