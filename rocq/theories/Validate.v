(** * Validate: the project's own tests, run on the model in binary64
    The programs are the files of gcodeutils/tests; every [Example] cites the
    test it repeats.  These are tests of the model, not properties of the code.
    (The decorator in test_arc_optimization.py 18-30 replaces the four tests of
    that file by None, so the test runner never runs them; they hold here.) *)
From Coq Require Import List String ZArith.
From Verif Require Import PyBase Arith ArithB64 Gcoder Filters Visit Arc Stretch Samples.
Import ListNotations.

(** gcodeutils/tests/simple1.gcode *)
Definition simple1 : list string :=
  ["G90";
   "G0 X0";
   "G1 Y1";
   "G2 Z2";
   "G3 E3"]%string.

(** gcodeutils/tests/simple1_equivalent.gcode *)
Definition simple1_equivalent : list string :=
  ["G90";
   "G0 X0.00";
   "G1 Y1.0000001";
   "G2 Z2.";
   "G3 E3.0"]%string.

(** gcodeutils/tests/simple1_slightly_different.gcode *)
Definition simple1_slightly_different : list string :=
  ["G90";
   "G0 X0.01";
   "G1 Y1";
   "G2 Z2";
   "G3 E3"]%string.

(** gcodeutils/tests/simple2.gcode *)
Definition simple2 : list string :=
  ["G90";
   "G0 X1";
   "G1 Y3";
   "G2 Z2";
   "G3 E3"]%string.

(** gcodeutils/tests/simple3.gcode *)
Definition simple3 : list string :=
  ["M82";
   "G0 X0 E1";
   "G1 Y1 E2";
   "G2 Z2 E3";
   "G3 X4 E4"]%string.

(** gcodeutils/tests/simple3-relative.gcode *)
Definition simple3_relative : list string :=
  ["M83";
   "G0 X0 E1";
   "G1 Y1 E1";
   "G2 Z2 E1";
   "G3 X4 E1"]%string.

(** gcodeutils/tests/empty_for_good.gcode *)
Definition empty_for_good : list string :=
  []%string.

(** gcodeutils/tests/empty_skeinforge_format.gcode *)
Definition empty_skeinforge_format : list string :=
  ["(<format> skeinforge gcode </format>)";
   "(<version> 12.03.14 </version>)";
   "(<created> 15.05.26|11:58 </created>)";
   "(<extruderInitialization>)"]%string.

(** gcodeutils/tests/slic3r_square.gcode *)
Definition slic3r_square : list string :=
  ["; external perimeters extrusion width = 0.72mm";
   "G1 X-1 Y0 Z0.6 F960.0 ; move to first perimeter point";
   "G1 E1 ; unretract";
   "G1 X0 Y1 E1 Z0.6 F960.0 ; perimeter external";
   "G1 X1 Y0 E1 Z0.6 F960.0 ; perimeter external";
   "G1 X0 Y-1 E1 Z0.6 F960.0 ; perimeter external";
   "G1 X-1 Y0 E1 Z0.6 F960.0 ; perimeter external";
   "G1 X2";
   "G1 Z20"]%string.

(** gcodeutils/tests/cura_square.gcode *)
Definition cura_square : list string :=
  ["G0 F9000 X196.800 Y91.800 Z0.200";
   ";TYPE:SKIRT";
   "G1 F1200 X303.200 Y91.800 E3.68480";
   "G1 F2400 E10.23919";
   "G0 F9000 X200.600 Y95.600";
   ";TYPE:WALL-OUTER";
   "G1 X0 Y1 E1 F960.0";
   "G1 X1 Y0 E1 F960.0";
   "G1 X0 Y-1 E1 F960.0";
   "G1 X-1 Y0 E1 F960.0";
   ";TYPE:FILL";
   "G1 X2";
   "G1 Z20"]%string.

(** gcodeutils/tests/skeinforge_square.gcode *)
Definition skeinforge_square : list string :=
  ["(<edgeWidth> 0.72 </edgeWidth>)";
   "(<edge> outer)";
   "G1 X-1 Y0 Z0.6 F960.0";
   "M101";
   "G1 X0 Y1 Z0.6 F960.0";
   "G1 X1 Y0 Z0.6 F960.0";
   "G1 X0 Y-1 Z0.6 F960.0";
   "G1 X-1 Y0 Z0.6 F960.0";
   "M103";
   "(</edge>)"]%string.

(** gcodeutils/tests/arc_raw_1.gcode *)
Definition arc_raw_1 : list string :=
  ["M107";
   "M190 S125 ; set bed temperature";
   "G28 ; home all axes";
   "G1 Z5 F5000 ; lift nozzle";
   "M109 S270 ; wait for extruder temp to be reached";
   "M3001 ; Aktivate Z-Compensation";
   "M3004 S0 ; + n-steps bed down // - n-steps bed up!";
   "G90 ; use absolute coordinates";
   "M82 ; use absolute distances for extrusion";
   "G92 E0 ; start line";
   "G1 F300 E-0.5";
   "G1 X230 Y25 Z0.35 F5000";
   "G1 F800 E8";
   "G1 X20 E25 F1000";
   "M201 X1000 Y1000 Z1000";
   "M202 X3000 Y3000 Z1000";
   "G21 ; set units to millimeters";
   "G90 ; use absolute coordinates";
   "M82 ; use absolute distances for extrusion";
   "G92 E0";
   "G1 E-1.00000 F600.00000";
   "G92 E0";
   "G1 Z0.350 F6000.000";
   "G1 X20 Y20 Z0.0000 E0";
   "G1 X80 Y20 Z0.0000 E60";
   "G1 X80 Y60 Z0.0000 E100";
   "G1 X20 Y60 Z0.0000 E160";
   "G1 X20 Y20 Z0.0000 E200";
   "G92 E0";
   "; begin of test data to be converted into arc";
   "M83";
   "G0 X100.0000 Y20.0000 Z0  first layer";
   "G1 X100.0000 Y60.0000 E1.111111";
   "G1 X99.6157 Y63.9018 E0.108908";
   "G1 X98.4776 Y67.6537 E0.108908";
   "G1 X96.6294 Y71.1114 E0.108908";
   "G1 X94.1421 Y74.1421 E0.108908";
   "G1 X91.1114 Y76.6294 E0.108908";
   "G1 X87.6537 Y78.4776 E0.108908";
   "G1 X83.9018 Y79.6157 E0.108908";
   "G1 X80.0000 Y80.0000 E0.108908";
   "G1 X20.0000 Y80.0000 E1.666667";
   "G1 X16.0982 Y79.6157 E0.108908";
   "G1 X12.3463 Y78.4776 E0.108908";
   "G1 X8.8886 Y76.6294 E0.108908";
   "G1 X5.8579 Y74.1421 E0.108908";
   "G1 X3.3706 Y71.1114 E0.108908";
   "G1 X1.5224 Y67.6537 E0.108908";
   "G1 X0.3843 Y63.9018 E0.108908";
   "G1 X0.0000 Y60.0000 E0.108908";
   "G1 X0.0000 Y20.0000 E1.111111";
   "G1 X0.3843 Y16.0982 E0.108908";
   "G1 X1.5224 Y12.3463 E0.108908";
   "G1 X3.3706 Y8.8886 E0.108908";
   "G1 X5.8579 Y5.8579 E0.108908";
   "G1 X8.8886 Y3.3706 E0.108908";
   "G1 X12.3463 Y1.5224 E0.108908";
   "G1 X16.0982 Y0.3843 E0.108908";
   "G1 X20.0000 Y0.0000 E0.108908";
   "G1 X80.0000 Y0.0000 E1.666667";
   "G1 X83.9018 Y0.3843 E0.108908";
   "G1 X87.6537 Y1.5224 E0.108908";
   "G1 X91.1114 Y3.3706 E0.108908";
   "G1 X94.1421 Y5.8579 E0.108908";
   "G1 X96.6294 Y8.8886 E0.108908";
   "G1 X98.4776 Y12.3463 E0.108908";
   "G1 X99.6157 Y16.0982 E0.108908";
   "G1 X100.0000 Y20.0000 E0.108908";
   "G0 Z1.0000 ; next layer";
   "G1 X99.6157 Y16.0982 E0.108908";
   "G1 X98.4776 Y12.3463 E0.108908";
   "G1 X96.6294 Y8.8886 E0.108908";
   "G1 X94.1421 Y5.8579 E0.108908";
   "G1 X91.1114 Y3.3706 E0.108908";
   "G1 X87.6537 Y1.5224 E0.108908";
   "G1 X83.9018 Y0.3843 E0.108908";
   "G1 X80.0000 Y0.0000 E0.108908";
   "G1 X20.0000 Y0.0000 E1.666667";
   "G1 X16.0982 Y0.3843 E0.108908";
   "G1 X12.3463 Y1.5224 E0.108908";
   "G1 X8.8886 Y3.3706 E0.108908";
   "G1 X5.8579 Y5.8579 E0.108908";
   "G1 X3.3706 Y8.8886 E0.108908";
   "G1 X1.5224 Y12.3463 E0.108908";
   "G1 X0.3843 Y16.0982 E0.108908";
   "G1 X0.0000 Y20.0000 E0.108908";
   "G1 X0.0000 Y60.0000 E1.111111";
   "G1 X0.3843 Y63.9018 E0.108908";
   "G1 X1.5224 Y67.6537 E0.108908";
   "G1 X3.3706 Y71.1114 E0.108908";
   "G1 X5.8579 Y74.1421 E0.108908";
   "G1 X8.8886 Y76.6294 E0.108908";
   "G1 X12.3463 Y78.4776 E0.108908";
   "G1 X16.0982 Y79.6157 E0.108908";
   "G1 X20.0000 Y80.0000 E0.108908";
   "G1 X80.0000 Y80.0000 E1.666667";
   "G1 X83.9018 Y79.6157 E0.108908";
   "G1 X87.6537 Y78.4776 E0.108908";
   "G1 X91.1114 Y76.6294 E0.108908";
   "G1 X94.1421 Y74.1421 E0.108908";
   "G1 X96.6294 Y71.1114 E0.108908";
   "G1 X98.4776 Y67.6537 E0.108908";
   "G1 X99.6157 Y63.9018 E0.108908";
   "G1 X100.0000 Y60.0000 E0.108908";
   "G1 X100.0000 Y20.0000 E1.1111";
   "G0 X0 Y0 Z2";
   "M82 ; switch back to absolute";
   "G92 E0";
   "; some real world data to be reduced to 1 arc from 64 segments";
   "G1 X59.420 Y190.462 F6000.000";
   "G1 X59.663 Y190.337 F6000.000";
   "G1 X59.663 Y84.663 E15.29297 F1080.000";
   "G1 X185.337 Y84.663 E18.43871";
   "G1 X185.337 Y190.337 E21.08384";
   "G1 X59.738 Y190.337 E24.22770";
   "G1 X67.082 Y94.742 F6000.000";
   "G1 X66.669 Y94.681 E24.23817 F900.000";
   "G1 X66.263 Y94.579 E24.24864";
   "G1 X65.868 Y94.438 E24.25912";
   "G1 X65.490 Y94.259 E24.26960";
   "G1 X65.132 Y94.044 E24.28006";
   "G1 X64.795 Y93.795 E24.29054";
   "G1 X64.486 Y93.514 E24.30100";
   "G1 X64.205 Y93.204 E24.31147";
   "G1 X63.956 Y92.868 E24.32195";
   "G1 X63.740 Y92.510 E24.33242";
   "G1 X63.561 Y92.131 E24.34290";
   "G1 X63.420 Y91.737 E24.35337";
   "G1 X63.319 Y91.332 E24.36383";
   "G1 X63.257 Y90.918 E24.37430";
   "G1 X63.237 Y90.500 E24.38478";
   "G1 X63.257 Y90.082 E24.39525";
   "G1 X63.319 Y89.668 E24.40572";
   "G1 X63.420 Y89.265 E24.41613";
   "G1 X63.561 Y88.869 E24.42666";
   "G1 X63.740 Y88.490 E24.43713";
   "G1 X63.956 Y88.132 E24.44761";
   "G1 X64.205 Y87.796 E24.45808";
   "G1 X64.486 Y87.486 E24.46855";
   "G1 X64.795 Y87.205 E24.47901";
   "G1 X65.132 Y86.956 E24.48950";
   "G1 X65.490 Y86.741 E24.49995";
   "G1 X65.868 Y86.562 E24.51043";
   "G1 X66.263 Y86.421 E24.52091";
   "G1 X66.669 Y86.319 E24.53139";
   "G1 X67.082 Y86.258 E24.54185";
   "G1 X67.429 Y86.241 E24.55055 F900.000";
   "G1 X67.916 Y86.257 E24.56273";
   "G1 X68.331 Y86.319 E24.57325";
   "G1 X68.737 Y86.421 E24.58372";
   "G1 X69.132 Y86.562 E24.59420";
   "G1 X69.510 Y86.741 E24.60468";
   "G1 X69.868 Y86.956 E24.61513";
   "G1 X70.205 Y87.205 E24.62562";
   "G1 X70.514 Y87.486 E24.63608";
   "G1 X70.795 Y87.796 E24.64655";
   "G1 X71.044 Y88.132 E24.65702";
   "G1 X71.260 Y88.490 E24.66750";
   "G1 X71.439 Y88.869 E24.67797";
   "G1 X71.580 Y89.263 E24.68845";
   "G1 X71.681 Y89.668 E24.69891";
   "G1 X71.743 Y90.082 E24.70938";
   "G1 X71.763 Y90.500 E24.71986";
   "G1 X71.743 Y90.918 E24.73033";
   "G1 X71.681 Y91.332 E24.74080";
   "G1 X71.580 Y91.737 E24.75126";
   "G1 X71.439 Y92.131 E24.76174";
   "G1 X71.260 Y92.510 E24.77221";
   "G1 X71.044 Y92.868 E24.78269";
   "G1 X70.795 Y93.204 E24.79316";
   "G1 X70.514 Y93.514 E24.80363";
   "G1 X70.205 Y93.795 E24.81409";
   "G1 X69.868 Y94.044 E24.82458";
   "G1 X69.510 Y94.259 E24.83503";
   "G1 X69.132 Y94.438 E24.84551";
   "G1 X68.737 Y94.579 E24.85599";
   "G1 X68.331 Y94.681 E24.86647";
   "G1 X67.918 Y94.742 E24.87693";
   "G1 X67.500 Y94.763 E24.88740";
   "G1 X67.157 Y94.746 E24.89599";
   "G1 X66.833 Y95.078 F6000.000";
   "G1 X67.060 Y95.192 F6000.000";
   "G92 E0";
   "M104 S0";
   "M140 S0";
   "G91";
   "G1 E-5 F300";
   "M400";
   "M3079";
   "M400";
   "M84";
   "M201 X1000 Y1000 Z1000";
   "M202 X1000 Y1000 Z1000"]%string.

(** gcodeutils/tests/arc_raw_2.gcode *)
Definition arc_raw_2 : list string :=
  ["G92 E0";
   "G1 X175.799 Y90.500 F6000.000";
   "G1 E2.00000 F900.00000";
   "G1 X175.831 Y90.168 E2.00797 F1500.000";
   "G1 X175.929 Y89.849 E2.01593";
   "G1 X176.085 Y89.555 E2.02388";
   "G1 X176.297 Y89.297 E2.03184";
   "G1 X176.554 Y89.085 E2.03980";
   "G1 X176.849 Y88.928 E2.04776";
   "G1 X177.168 Y88.831 E2.05573";
   "G1 X177.375 Y88.811 E2.06070";
   "G1 X177.500 Y88.799 E2.06369 F1500.000";
   "G1 X177.832 Y88.831 E2.07165";
   "G1 X178.151 Y88.928 E2.07962";
   "G1 X178.446 Y89.085 E2.08758";
   "G1 X178.703 Y89.297 E2.09554";
   "G1 X178.915 Y89.555 E2.10350";
   "G1 X179.071 Y89.849 E2.11145";
   "G1 X179.169 Y90.168 E2.11941";
   "G1 X179.201 Y90.500 E2.12738";
   "G1 X179.169 Y90.832 E2.13535";
   "G1 X179.071 Y91.151 E2.14330";
   "G1 X178.915 Y91.445 E2.15126";
   "G1 X178.703 Y91.703 E2.15922";
   "G1 X178.446 Y91.915 E2.16718";
   "G1 X178.151 Y92.072 E2.17514";
   "G1 X177.832 Y92.169 E2.18311";
   "G1 X177.500 Y92.201 E2.19107";
   "G1 X177.168 Y92.169 E2.19902";
   "G1 X176.849 Y92.072 E2.20699";
   "G1 X176.554 Y91.915 E2.21496";
   "G1 X176.297 Y91.703 E2.22292";
   "G1 X176.085 Y91.445 E2.23088";
   "G1 X175.929 Y91.151 E2.23883";
   "G1 X175.831 Y90.832 E2.24679";
   "G1 X175.806 Y90.575 E2.25297";
   "G1 X175.515 Y90.324 F6000.000";
   "G1 X174.712 Y90.608 F6000.000";
   "G1 X174.701 Y90.500 E2.25555 F1500.000";
   "G1 X174.756 Y89.954 E2.26865";
   "G1 X174.915 Y89.429 E2.28174";
   "G1 X175.173 Y88.945 E2.29483";
   "G1 X175.521 Y88.521 E2.30793";
   "G1 X175.945 Y88.173 E2.32103";
   "G1 X176.429 Y87.914 E2.33413";
   "G1 X176.954 Y87.755 E2.34721";
   "G1 X177.500 Y87.701 E2.36031";
   "G1 X177.625 Y87.714 E2.36330";
   "G1 X178.046 Y87.755 E2.37341 F1500.000";
   "G1 X178.571 Y87.914 E2.38649";
   "G1 X179.055 Y88.173 E2.39959";
   "G1 X179.479 Y88.521 E2.41269";
   "G1 X179.827 Y88.945 E2.42579";
   "G1 X180.085 Y89.429 E2.43887";
   "G1 X180.244 Y89.954 E2.45197";
   "G1 X180.299 Y90.500 E2.46507";
   "G1 X180.244 Y91.046 E2.47816";
   "G1 X180.085 Y91.571 E2.49126";
   "G1 X179.827 Y92.055 E2.50434";
   "G1 X179.479 Y92.479 E2.51744";
   "G1 X179.055 Y92.827 E2.53054";
   "G1 X178.571 Y93.086 E2.54364";
   "G1 X178.046 Y93.245 E2.55672";
   "G1 X177.500 Y93.299 E2.56982";
   "G1 X176.954 Y93.245 E2.58292";
   "G1 X176.429 Y93.086 E2.59600";
   "G1 X175.945 Y92.827 E2.60910";
   "G1 X175.521 Y92.479 E2.62220";
   "G1 X175.173 Y92.055 E2.63530";
   "G1 X174.915 Y91.571 E2.64839";
   "G1 X174.756 Y91.046 E2.66148";
   "G1 X174.720 Y90.682 E2.67020";
   "G1 X174.800 Y90.545 F6000.000";
   "G1 X175.255 Y90.554 F6000.000";
   "G1 X175.253 Y90.473 E2.67432 F600.000";
   "G1 X175.294 Y90.061 E2.69525 F600.000";
   "G1 X175.422 Y89.639 E2.71759";
   "G1 X175.630 Y89.250 E2.73987";
   "G1 X175.909 Y88.910 E2.76217";
   "G1 X176.250 Y88.630 E2.78451";
   "G1 X176.640 Y88.422 E2.80684";
   "G1 X177.061 Y88.294 E2.82913";
   "G1 X177.500 Y88.251 E2.85145";
   "G1 X177.939 Y88.294 E2.87377";
   "G1 X178.360 Y88.422 E2.89606";
   "G1 X178.750 Y88.630 E2.91839";
   "G1 X179.091 Y88.910 E2.94073";
   "G1 X179.370 Y89.250 E2.96304";
   "G1 X179.578 Y89.639 E2.98531";
   "G1 X179.706 Y90.061 E3.00765";
   "G1 X179.749 Y90.500 E3.02997";
   "G1 X179.706 Y90.939 E3.05228";
   "G1 X179.578 Y91.361 E3.07462";
   "G1 X179.370 Y91.750 E3.09690";
   "G1 X179.091 Y92.090 E3.11921";
   "G1 X178.750 Y92.370 E3.14154";
   "G1 X178.360 Y92.578 E3.16387";
   "G1 X177.939 Y92.706 E3.18616";
   "G1 X177.500 Y92.749 E3.20848";
   "G1 X177.061 Y92.706 E3.23080";
   "G1 X176.640 Y92.578 E3.25310";
   "G1 X176.250 Y92.370 E3.27542";
   "G1 X175.909 Y92.090 E3.29776";
   "G1 X175.630 Y91.750 E3.32007";
   "G1 X175.422 Y91.361 E3.34234";
   "G1 X175.294 Y90.939 E3.36468";
   "G1 X175.263 Y90.629 E3.38046";
   "G1 E1.38046 F900.00000";
   "G92 E0";
   "G1 X177.500 Y72.655 E4117.71966";
   "G0 F9000 X177.500 Y72.152";
   ";TYPE:WALL-OUTER";
   "G1 F3000 X177.822 Y72.120 E4117.72687";
   "G1 X178.132 Y72.026 E4117.73409";
   "G1 X178.418 Y71.873 E4117.74132";
   "G1 X178.672 Y71.661 E4117.74869";
   "G1 X178.874 Y71.417 E4117.75575";
   "G1 X179.026 Y71.124 E4117.76310";
   "G1 X179.119 Y70.824 E4117.77010";
   "G1 X179.151 Y70.499 E4117.77738";
   "G1 X179.117 Y70.169 E4117.78477";
   "G1 X179.024 Y69.868 E4117.79179";
   "G1 X178.868 Y69.577 E4117.79915";
   "G1 X178.667 Y69.333 E4117.80619";
   "G1 X178.417 Y69.127 E4117.81341";
   "G1 X178.132 Y68.975 E4117.82061";
   "G1 X177.822 Y68.881 E4117.82782";
   "G1 X177.500 Y68.849 E4117.83503";
   "G1 X177.177 Y68.881 E4117.84227";
   "G1 X176.867 Y68.975 E4117.84948";
   "G1 X176.581 Y69.128 E4117.85671";
   "G1 X176.327 Y69.340 E4117.86408";
   "G1 X176.125 Y69.584 E4117.87114";
   "G1 X175.973 Y69.877 E4117.87850";
   "G1 X175.880 Y70.177 E4117.88549";
   "G1 X175.848 Y70.500 E4117.89273";
   "G1 X175.882 Y70.832 E4117.90016";
   "G1 X175.975 Y71.133 E4117.90718";
   "G1 X176.131 Y71.424 E4117.91454";
   "G1 X176.332 Y71.668 E4117.92158";
   "G1 X176.582 Y71.874 E4117.92880";
   "G1 X176.867 Y72.026 E4117.93600";
   "G1 X177.177 Y72.120 E4117.94322";
   "G1 X177.500 Y72.152 E4117.95045";
   "G0 F9000 X177.498 Y73.349"]%string.

(** gcodeutils/tests/arc_ref_2.gcode *)
Definition arc_ref_2 : list string :=
  ["G92 E0";
   "G1 X175.799 Y90.500 F6000.000";
   "G1 E2.00000 F900.00000";
   "G3 X175.806 Y90.575 E2.25332 F1500.000 I1.701 J0.000; generated from 33 segments";
   "G1 X175.515 Y90.324 F6000.000";
   "G1 X174.712 Y90.608 F6000.000";
   "G3 X174.720 Y90.682 E2.67075 F1500.000 I2.789 J-0.108; generated from 34 segments";
   "G1 X174.800 Y90.545 F6000.000";
   "G1 X175.255 Y90.554 F6000.000";
   "G3 X175.263 Y90.629 E3.38150 F600.000 I2.246 J-0.054; generated from 33 segments";
   "G1 E1.38046 F900.00000";
   "G92 E0";
   "G1 X177.500 Y72.655 E4117.71966";
   "G0 F9000 X177.500 Y72.152";
   ";TYPE:WALL-OUTER";
   "G2 X177.500 Y72.152 E4117.48850 F3000.000 I-0.000 J-1.651; generated from 32 segments";
   "G0 F9000 X177.498 Y73.349"]%string.

(** gcodeutils/tests/arc_raw_3.gcode *)
Definition arc_raw_3 : list string :=
  ["G1 X59.377 Y171.493 E4293.68752";
   "G0 F9000 X58.594 Y170.861";
   "G1 F3000 X58.609 Y170.492 E4293.69320";
   "G1 X58.600 Y169.794 E4293.70362";
   "G1 X58.600 Y169.087 E4293.71461";
   "G1 X58.600 Y168.380 E4293.72561";
   "G1 X58.600 Y167.673 E4293.73661";
   "G1 X58.600 Y166.966 E4293.74760";
   "G1 X58.600 Y166.259 E4293.75860";
   "G1 X58.600 Y165.551 E4293.76958";
   "G1 X58.600 Y164.844 E4293.78057";
   "G1 X58.600 Y164.137 E4293.79157";
   "G1 X58.600 Y163.430 E4293.80256";
   "G1 X58.600 Y162.723 E4293.81356";
   "G1 X58.600 Y162.016 E4293.82456";
   "G1 X58.600 Y161.309 E4293.83555";
   "G1 X58.600 Y160.602 E4293.84655";
   "G1 X58.600 Y159.895 E4293.85754";
   "G1 X58.600 Y159.188 E4293.86854";
   "G1 X58.600 Y158.480 E4293.87952";
   "G1 X58.600 Y157.773 E4293.89051";
   "G1 X58.600 Y157.066 E4293.90151";
   "G1 X58.600 Y156.359 E4293.91251";
   "G1 X58.600 Y155.652 E4293.92350";
   "G1 X58.600 Y154.945 E4293.93450";
   "G1 X58.600 Y154.238 E4293.94549";
   "G1 X58.600 Y153.531 E4293.95649";
   "G1 X58.600 Y152.824 E4293.96748";
   "G1 X58.600 Y152.116 E4293.97846";
   "G1 X58.600 Y151.409 E4293.98946";
   "G1 X58.600 Y150.702 E4294.00045";
   "G1 X58.600 Y149.995 E4294.01145";
   "G1 X58.600 Y149.288 E4294.02245";
   "G1 X58.600 Y148.581 E4294.03344";
   "G1 X58.600 Y147.874 E4294.04444";
   "G1 X58.600 Y147.167 E4294.05543";
   "G1 X58.600 Y146.460 E4294.06643";
   "G1 X58.600 Y145.752 E4294.07744";
   "G1 X58.600 Y145.045 E4294.08844";
   "G1 X58.600 Y144.338 E4294.09943";
   "G1 X58.600 Y143.631 E4294.11043";
   "G1 X58.600 Y142.924 E4294.12142";
   "G1 X58.600 Y142.217 E4294.13242";
   "G1 X58.600 Y141.510 E4294.14341";
   "G1 X58.600 Y140.803 E4294.15441";
   "G1 X58.600 Y140.096 E4294.16541";
   "G1 X58.600 Y139.389 E4294.17640";
   "G1 X58.600 Y138.681 E4294.18738";
   "G1 X58.600 Y137.974 E4294.19838";
   "G1 X58.600 Y137.267 E4294.20937";
   "G1 X58.600 Y136.560 E4294.22037";
   "G1 X58.600 Y135.853 E4294.23136";
   "G1 X58.600 Y135.146 E4294.24236";
   "G1 X58.600 Y134.439 E4294.25336";
   "G1 X58.600 Y133.732 E4294.26435";
   "G1 X58.600 Y133.025 E4294.27535";
   "G1 X58.600 Y132.317 E4294.28633";
   "G1 X58.600 Y131.610 E4294.29732";
   "G1 X58.600 Y130.903 E4294.30832";
   "G1 X58.600 Y130.196 E4294.31931";
   "G1 X58.600 Y129.489 E4294.33031";
   "G1 X58.600 Y128.782 E4294.34131";
   "G1 X58.600 Y128.075 E4294.35230";
   "G1 X58.600 Y127.368 E4294.36330";
   "G1 X58.600 Y126.661 E4294.37429";
   "G1 X58.600 Y125.954 E4294.38529";
   "G1 X58.600 Y125.246 E4294.39627";
   "G1 X58.600 Y124.539 E4294.40726";
   "G1 X58.600 Y123.832 E4294.41826";
   "G1 X58.600 Y123.125 E4294.42925";
   "G1 X58.600 Y122.418 E4294.44025";
   "G1 X58.600 Y121.711 E4294.45125";
   "G1 X58.600 Y121.004 E4294.46224";
   "G1 X58.600 Y120.297 E4294.47324";
   "G1 X58.600 Y119.590 E4294.48423";
   "G1 X58.600 Y118.882 E4294.49521";
   "G1 X58.600 Y118.175 E4294.50621";
   "G1 X58.600 Y117.468 E4294.51720";
   "G1 X58.600 Y116.761 E4294.52820";
   "G1 X58.600 Y116.054 E4294.53920";
   "G1 X58.600 Y115.347 E4294.55019";
   "G1 X58.600 Y114.640 E4294.56119";
   "G1 X58.600 Y113.933 E4294.57218";
   "G1 X58.600 Y113.226 E4294.58318";
   "G1 X58.600 Y112.518 E4294.59416";
   "G1 X58.600 Y111.811 E4294.60515";
   "G1 X58.600 Y111.104 E4294.61615";
   "G1 X58.600 Y110.397 E4294.62715";
   "G1 X58.600 Y109.690 E4294.63814";
   "G1 X58.600 Y108.983 E4294.64914";
   "G1 X58.600 Y108.276 E4294.66013";
   "G1 X58.600 Y107.569 E4294.67113";
   "G1 X58.600 Y106.862 E4294.68212";
   "G1 X58.600 Y106.155 E4294.69312";
   "G1 X58.600 Y105.447 E4294.70410";
   "G1 X58.600 Y104.740 E4294.71510";
   "G1 X58.600 Y104.033 E4294.72609";
   "G1 X58.600 Y103.326 E4294.73709";
   "G1 X58.600 Y102.619 E4294.74808";
   "G1 X58.600 Y101.912 E4294.75908";
   "G1 X58.600 Y101.205 E4294.77007";
   "G1 X58.600 Y100.498 E4294.78107";
   "G1 X58.600 Y99.791 E4294.79207";
   "G1 X58.600 Y99.083 E4294.80304";
   "G1 X58.600 Y98.376 E4294.81404";
   "G1 X58.600 Y97.669 E4294.82504";
   "G1 X58.600 Y96.962 E4294.83603";
   "G1 X58.600 Y96.255 E4294.84703";
   "G1 X58.600 Y95.548 E4294.85802";
   "G1 X58.600 Y94.841 E4294.86902";
   "G1 X58.600 Y94.134 E4294.88001";
   "G1 X58.600 Y93.427 E4294.89101";
   "G1 X58.600 Y92.719 E4294.90199";
   "G1 X58.600 Y92.012 E4294.91299";
   "G1 X58.600 Y91.305 E4294.92398";
   "G1 X58.600 Y90.598 E4294.93498";
   "G1 X58.600 Y89.891 E4294.94597";
   "G1 X58.600 Y89.184 E4294.95697";
   "G1 X58.600 Y88.477 E4294.96796";
   "G1 X58.600 Y87.770 E4294.97896";
   "G1 X58.600 Y87.063 E4294.98996";
   "G1 X58.600 Y86.356 E4295.00095";
   "G1 X58.600 Y85.648 E4295.01193";
   "G1 X58.600 Y84.941 E4295.02293";
   "G1 X58.600 Y84.234 E4295.03392";
   "G1 X58.600 Y83.527 E4295.04492";
   "G1 X58.600 Y82.820 E4295.05591";
   "G1 X58.600 Y82.113 E4295.06691";
   "G1 X58.600 Y81.406 E4295.07791";
   "G1 X58.600 Y80.699 E4295.08890";
   "G1 X58.600 Y79.992 E4295.09990";
   "G1 X58.600 Y79.284 E4295.11088";
   "G1 X58.600 Y78.577 E4295.12187";
   "G1 X58.600 Y77.870 E4295.13287";
   "G1 X58.600 Y77.163 E4295.14386";
   "G1 X58.600 Y76.456 E4295.15486";
   "G1 X58.600 Y75.749 E4295.16586";
   "G1 X58.600 Y75.042 E4295.17685";
   "G1 X58.600 Y74.335 E4295.18785";
   "G1 X58.600 Y73.628 E4295.19884";
   "G1 X58.600 Y72.920 E4295.20985";
   "G1 X58.600 Y72.213 E4295.22085";
   "G1 X58.600 Y71.506 E4295.23184";
   "G1 X58.600 Y70.799 E4295.24284";
   "G1 X58.600 Y70.092 E4295.25384";
   "G1 X58.600 Y69.385 E4295.26483";
   "G1 X58.600 Y68.678 E4295.27583";
   "G1 X58.600 Y67.971 E4295.28682";
   "G1 X58.600 Y67.264 E4295.29782";
   "G1 X58.600 Y66.557 E4295.30881";
   "G1 X58.600 Y65.849 E4295.31979";
   "G1 X58.600 Y65.142 E4295.33079";
   "G1 X58.775 Y64.614 E4295.34318";
   "G0 F9000 X59.614 Y63.775";
   "G92 E0"]%string.

(** gcodeutils/tests/arc_raw_4.gcode *)
Definition arc_raw_4 : list string :=
  ["G92 E0";
   "G1 Z0.350 F6000.000";
   "G1 X55.420 Y79.825 F6000.000";
   "G1 E2.00000 F900.00000";
   "G1 X56.834 Y78.880 E2.04407 F1800.000";
   "G1 X57.611 Y78.558 E2.06588";
   "G1 X59.072 Y78.267 E2.10448";
   "G1 X59.490 Y78.226 E2.11537";
   "G1 X185.510 Y78.226 E5.38141";
   "G1 X185.928 Y78.267 E5.39229";
   "G1 X187.388 Y78.558 E5.43089 F1800.000";
   "G1 X188.166 Y78.880 E5.45270";
   "G1 X189.580 Y79.824 E5.49678";
   "G1 X190.175 Y80.420 E5.51860";
   "G1 X191.121 Y81.834 E5.56270";
   "G1 X191.443 Y82.613 E5.58454";
   "G1 X191.733 Y84.074 E5.62315";
   "G1 X191.774 Y84.491 E5.63400";
   "G1 X191.774 Y190.509 E8.38167";
   "G1 X191.733 Y190.926 E8.39253";
   "G1 X191.443 Y192.387 E8.43111";
   "G1 X191.121 Y193.166 E8.45296";
   "G1 X190.176 Y194.580 E8.49704";
   "G1 X189.580 Y195.176 E8.51890";
   "G1 X188.166 Y196.121 E8.56298";
   "G1 X187.386 Y196.443 E8.58484";
   "G1 X185.926 Y196.733 E8.62342";
   "G1 X185.509 Y196.774 E8.63427";
   "G1 X59.491 Y196.774 E11.90029";
   "G1 X59.074 Y196.733 E11.91113";
   "G1 X57.613 Y196.443 E11.94974";
   "G1 X56.834 Y196.121 E11.97159";
   "G1 X55.419 Y195.175 E12.01569";
   "G1 X54.824 Y194.580 E12.03751";
   "G1 X53.880 Y193.166 E12.08158";
   "G1 X53.558 Y192.388 E12.10339";
   "G1 X53.267 Y190.928 E12.14199";
   "G1 X53.226 Y190.510 E12.15287";
   "G1 X53.226 Y84.490 E14.90058";
   "G1 X53.267 Y84.072 E14.91146";
   "G1 X53.558 Y82.611 E14.95006";
   "G1 X53.880 Y81.834 E14.97188";
   "G1 X54.825 Y80.420 E15.01595";
   "G1 X55.367 Y79.878 E15.03582";
   "G1 X55.685 Y80.196 F6000.000";
   "G1 X57.047 Y79.279 E15.07837 F1800.000"]%string.

(** gcodeutils/tests/arc_ref_4.gcode *)
Definition arc_ref_4 : list string :=
  ["G92 E0";
   "G1 Z0.350 F6000.000";
   "G1 X55.420 Y79.825 F6000.000";
   "G1 E2.00000 F900.00000";
   "G1 X56.834 Y78.880 E2.04407 F1800.000";
   "G1 X57.611 Y78.558 E2.06588";
   "G1 X59.072 Y78.267 E2.10448";
   "G1 X59.490 Y78.226 E2.11537";
   "G1 X185.510 Y78.226 E5.38141";
   "G3 X191.733 Y84.074 E5.62364 F1800.000 I-0.150 J6.409; generated from 8 segments";
   "G1 X191.774 Y84.491 E5.63400";
   "G1 X191.774 Y190.509 E8.38167";
   "G3 X185.926 Y196.733 E8.62391 F1800.000 I-6.407 J-0.148; generated from 8 segments";
   "G1 X185.509 Y196.774 E8.63427";
   "G1 X59.491 Y196.774 E11.90029";
   "G3 X53.267 Y190.928 E12.14248 F1800.000 I0.148 J-6.408; generated from 8 segments";
   "G1 X53.226 Y190.510 E12.15287";
   "G1 X53.226 Y84.490 E14.90058";
   "G1 X53.267 Y84.072 E14.91146";
   "G1 X53.558 Y82.611 E14.95006";
   "G1 X53.880 Y81.834 E14.97188";
   "G1 X54.825 Y80.420 E15.01595";
   "G1 X55.367 Y79.878 E15.03582";
   "G1 X55.685 Y80.196 F6000.000";
   "G1 X57.047 Y79.279 E15.07837 F1800.000"]%string.

(** gcodeutils/tests/skeinforge_model1_prestretch.gcode, lines 1-629: the first layer *)
Definition model1_pre : list string :=
  ["(<format> skeinforge gcode </format>)";
   "(<version> 12.03.14 </version>)";
   "(<created> 15.05.26|11:58 </created>)";
   "(<extruderInitialization>)";
   "G90 ;set positioning to absolute";
   "G21 ;set units to millimeters";
   "M103";
   "(<craftTypeName> extrusion </craftTypeName>)";
   "M105";
   "(<decimalPlacesCarried> 4 </decimalPlacesCarried>)";
   "(<layerThickness> 0.4 </layerThickness>)";
   "(<infillWidth> 0.6 </infillWidth>)";
   "(<volumeFraction> 0.82 </volumeFraction>)";
   "(<infillPerimeterOverlap> 0.15 </infillPerimeterOverlap>)";
   "(<sharpestProduct> 0.866 </sharpestProduct>)";
   "(<layerHeight> 0.4 </layerHeight>)";
   "(<threadSequenceString> loops edge infill </threadSequenceString>)";
   "(<maximumZFeedRatePerSecond> 1.0 </maximumZFeedRatePerSecond>)";
   "(<objectFirstLayerFeedRateInfillMultiplier> 0.4 </objectFirstLayerFeedRateInfillMultiplier>)";
   "(<operatingFeedRatePerSecond> 16.0 </operatingFeedRatePerSecond>)";
   "(<objectFirstLayerFlowRateInfillMultiplier> 0.4 </objectFirstLayerFlowRateInfillMultiplier>)";
   "(<operatingFlowRate> 210.0 </operatingFlowRate>)";
   "(<orbitalFeedRatePerSecond> 8.0 </orbitalFeedRatePerSecond>)";
   "(<travelFeedRatePerSecond> 16.0 </travelFeedRatePerSecond>)";
   "(<coolingRate> 3.0 </coolingRate>)";
   "(<heatingRate> 10.0 </heatingRate>)";
   "(<baseTemperature> 200.0 </baseTemperature>)";
   "(<interfaceTemperature> 200.0 </interfaceTemperature>)";
   "(<objectFirstLayerInfillTemperature> 195.0 </objectFirstLayerInfillTemperature>)";
   "(<objectFirstLayerPerimeterTemperature> 220.0 </objectFirstLayerPerimeterTemperature>)";
   "(<objectNextLayersTemperature> 230.0 </objectNextLayersTemperature>)";
   "(<supportLayersTemperature> 200.0 </supportLayersTemperature>)";
   "(<supportedLayersTemperature> 230.0 </supportedLayersTemperature>)";
   "(<clipOverEdgeWidth> 0.5 </clipOverEdgeWidth>)";
   "(<edgeWidth> 0.72 </edgeWidth>)";
   "(<perimeterWidth> 0.72 </perimeterWidth>)";
   "(<profileName> ABS </profileName>)";
   "(<settings>)";
   "(<setting> alteration Activate_Alteration True </setting>)";
   "(<setting> alteration Name_of_End_File: end.gcode </setting>)";
   "(<setting> alteration Name_of_Start_File: start.gcode </setting>)";
   "(<setting> alteration Remove_Redundant_Mcode True </setting>)";
   "(<setting> alteration Replace_Variable_with_Setting True </setting>)";
   "(<setting> bottom Activate_Bottom True </setting>)";
   "(<setting> bottom Additional_Height_over_Layer_Thickness_(ratio): 0.5 </setting>)";
   "(<setting> bottom Altitude_(mm): 0.0 </setting>)";
   "(<setting> bottom SVG_Viewer: webbrowser </setting>)";
   "(<setting> clip Activate_Clip True </setting>)";
   "(<setting> clip Clip_Over_Perimeter_Width_(ratio): 0.5 </setting>)";
   "(<setting> clip Maximum_Connection_Distance_Over_Perimeter_Width_(ratio): 10.0 </setting>)";
   "(<setting> cool Activate_Cool True </setting>)";
   "(<setting> cool Bridge_Cool_(Celcius): 1.0 </setting>)";
   "(<setting> cool Orbit False </setting>)";
   "(<setting> cool Slow_Down True </setting>)";
   "(<setting> cool Maximum_Cool_(Celcius): 2.0 </setting>)";
   "(<setting> cool Minimum_Layer_Time_(seconds): 60.0 </setting>)";
   "(<setting> cool Minimum_Orbital_Radius_(millimeters): 10.0 </setting>)";
   "(<setting> cool Name_of_Cool_End_File: cool_end.gcode </setting>)";
   "(<setting> cool Name_of_Cool_Start_File: cool_start.gcode </setting>)";
   "(<setting> cool Orbital_Outset_(millimeters): 2.0 </setting>)";
   "(<setting> cool Turn_Fan_On_at_Beginning True </setting>)";
   "(<setting> cool Turn_Fan_Off_at_Ending True </setting>)";
   "(<setting> dimension Activate_Dimension True </setting>)";
   "(<setting> dimension Absolute_Extrusion_Distance True </setting>)";
   "(<setting> dimension Relative_Extrusion_Distance False </setting>)";
   "(<setting> dimension Extruder_Retraction_Speed_(mm/s): 13.3 </setting>)";
   "(<setting> dimension Filament_Diameter_(mm): 2.8 </setting>)";
   "(<setting> dimension Filament_Packing_Density_(ratio): 0.85 </setting>)";
   "(<setting> dimension Maximum_E_Value_before_Reset_(float): 91234.0 </setting>)";
   "(<setting> dimension Minimum_Travel_for_Retraction_(millimeters): 1.0 </setting>)";
   "(<setting> dimension Retract_Within_Island False </setting>)";
   "(<setting> dimension Retraction_Distance_(millimeters): 0.0 </setting>)";
   "(<setting> dimension Restart_Extra_Distance_(millimeters): 0.0 </setting>)";
   "(<setting> export Activate_Export True </setting>)";
   "(<setting> export Add_Descriptive_Extension False </setting>)";
   "(<setting> export Add_Export_Suffix True </setting>)";
   "(<setting> export Add_Profile_Extension False </setting>)";
   "(<setting> export Add_Timestamp_Extension False </setting>)";
   "(<setting> export Also_Send_Output_To:  </setting>)";
   "(<setting> export Analyze_Gcode True </setting>)";
   "(<setting> export Do_Not_Delete_Comments False </setting>)";
   "(<setting> export Delete_Crafting_Comments False </setting>)";
   "(<setting> export Delete_All_Comments True </setting>)";
   "(<setting> export Do_Not_Change_Output True </setting>)";
   "(<setting> export binary_16_byte False </setting>)";
   "(<setting> export gcode_step False </setting>)";
   "(<setting> export gcode_time_segment False </setting>)";
   "(<setting> export gcode_small False </setting>)";
   "(<setting> export File_Extension: gcode </setting>)";
   "(<setting> export Name_of_Replace_File: replace.csv </setting>)";
   "(<setting> export Save_Penultimate_Gcode False </setting>)";
   "(<setting> fill Activate_Fill True </setting>)";
   "(<setting> fill Diaphragm_Period_(layers): 100 </setting>)";
   "(<setting> fill Diaphragm_Thickness_(layers): 0 </setting>)";
   "(<setting> fill Extra_Shells_on_Alternating_Solid_Layer_(layers): 2 </setting>)";
   "(<setting> fill Extra_Shells_on_Base_(layers): 1 </setting>)";
   "(<setting> fill Extra_Shells_on_Sparse_Layer_(layers): 1 </setting>)";
   "(<setting> fill Grid_Circle_Separation_over_Perimeter_Width_(ratio): 0.2 </setting>)";
   "(<setting> fill Grid_Extra_Overlap_(ratio): 0.1 </setting>)";
   "(<setting> fill Grid_Junction_Separation_Band_Height_(layers): 10 </setting>)";
   "(<setting> fill Grid_Junction_Separation_over_Octogon_Radius_At_End_(ratio): 0.0 </setting>)";
   "(<setting> fill Grid_Junction_Separation_over_Octogon_Radius_At_Middle_(ratio): 0.0 </setting>)";
   "(<setting> fill Infill_Begin_Rotation_(degrees): 45.0 </setting>)";
   "(<setting> fill Infill_Begin_Rotation_Repeat_(layers): 1 </setting>)";
   "(<setting> fill Infill_Odd_Layer_Extra_Rotation_(degrees): 90.0 </setting>)";
   "(<setting> fill Grid_Circular False </setting>)";
   "(<setting> fill Grid_Hexagonal False </setting>)";
   "(<setting> fill Grid_Rectangular False </setting>)";
   "(<setting> fill Line True </setting>)";
   "(<setting> fill Infill_Perimeter_Overlap_(ratio): 0.15 </setting>)";
   "(<setting> fill Infill_Solidity_(ratio): 0.2 </setting>)";
   "(<setting> fill Sharpest_Angle_(degrees): 60.0 </setting>)";
   "(<setting> fill Solid_Surface_Thickness_(layers): 3 </setting>)";
   "(<setting> fill Lower_Left True </setting>)";
   "(<setting> fill Nearest False </setting>)";
   "(<setting> fill Surrounding_Angle_(degrees): 60.0 </setting>)";
   "(<setting> fill Infill_>_Loops_>_Perimeter False </setting>)";
   "(<setting> fill Infill_>_Perimeter_>_Loops False </setting>)";
   "(<setting> fill Loops_>_Infill_>_Perimeter False </setting>)";
   "(<setting> fill Loops_>_Perimeter_>_Infill True </setting>)";
   "(<setting> fill Perimeter_>_Infill_>_Loops False </setting>)";
   "(<setting> fill Perimeter_>_Loops_>_Infill False </setting>)";
   "(<setting> home Activate_Home True </setting>)";
   "(<setting> home Name_of_Home_File: home.gcode </setting>)";
   "(<setting> jitter Activate_Jitter True </setting>)";
   "(<setting> jitter Jitter_Over_Perimeter_Width_(ratio): 2.0 </setting>)";
   "(<setting> limit Activate_Limit True </setting>)";
   "(<setting> limit Maximum_Initial_Feed_Rate_(mm/s): 1.0 </setting>)";
   "(<setting> multiply Activate_Multiply True </setting>)";
   "(<setting> multiply Center_X_(mm): 0.0 </setting>)";
   "(<setting> multiply Center_Y_(mm): 0.0 </setting>)";
   "(<setting> multiply Number_of_Columns_(integer): 1 </setting>)";
   "(<setting> multiply Number_of_Rows_(integer): 1 </setting>)";
   "(<setting> multiply Reverse_Sequence_every_Odd_Layer False </setting>)";
   "(<setting> multiply Separation_over_Perimeter_Width_(ratio): 15.0 </setting>)";
   "(<setting> speed Activate_Speed True </setting>)";
   "(<setting> speed Add_Flow_Rate: True </setting>)";
   "(<setting> speed Bridge_Feed_Rate_Multiplier_(ratio): 1.0 </setting>)";
   "(<setting> speed Bridge_Flow_Rate_Multiplier_(ratio): 1.0 </setting>)";
   "(<setting> speed Duty_Cyle_at_Beginning_(portion): 1.0 </setting>)";
   "(<setting> speed Duty_Cyle_at_Ending_(portion): 0.0 </setting>)";
   "(<setting> speed Feed_Rate_(mm/s): 16.0 </setting>)";
   "(<setting> speed Flow_Rate_Setting_(float): 210.0 </setting>)";
   "(<setting> speed Object_First_Layer_Feed_Rate_Infill_Multiplier_(ratio): 0.4 </setting>)";
   "(<setting> speed Object_First_Layer_Feed_Rate_Perimeter_Multiplier_(ratio): 0.4 </setting>)";
   "(<setting> speed Object_First_Layer_Flow_Rate_Infill_Multiplier_(ratio): 0.4 </setting>)";
   "(<setting> speed Object_First_Layer_Flow_Rate_Perimeter_Multiplier_(ratio): 0.4 </setting>)";
   "(<setting> speed Orbital_Feed_Rate_over_Operating_Feed_Rate_(ratio): 0.5 </setting>)";
   "(<setting> speed Maximum_Z_Feed_Rate_(mm/s): 1.0 </setting>)";
   "(<setting> speed Perimeter_Feed_Rate_Multiplier_(ratio): 1.0 </setting>)";
   "(<setting> speed Perimeter_Flow_Rate_Multiplier_(ratio): 1.0 </setting>)";
   "(<setting> speed Travel_Feed_Rate_(mm/s): 16.0 </setting>)";
   "(<setting> stretch Activate_Stretch True </setting>)";
   "(<setting> stretch Cross_Limit_Distance_Over_Perimeter_Width_(ratio): 5.0 </setting>)";
   "(<setting> stretch Loop_Stretch_Over_Perimeter_Width_(ratio): 0.11 </setting>)";
   "(<setting> stretch Path_Stretch_Over_Perimeter_Width_(ratio): 0.0 </setting>)";
   "(<setting> stretch Perimeter_Inside_Stretch_Over_Perimeter_Width_(ratio): 0.32 </setting>)";
   "(<setting> stretch Perimeter_Outside_Stretch_Over_Perimeter_Width_(ratio): 0.1 </setting>)";
   "(<setting> stretch Stretch_From_Distance_Over_Perimeter_Width_(ratio): 2.0 </setting>)";
   "(<setting> temperature Activate_Temperature True </setting>)";
   "(<setting> temperature Cooling_Rate_(Celcius/second): 3.0 </setting>)";
   "(<setting> temperature Heating_Rate_(Celcius/second): 10.0 </setting>)";
   "(<setting> temperature Base_Temperature_(Celcius): 200.0 </setting>)";
   "(<setting> temperature Interface_Temperature_(Celcius): 200.0 </setting>)";
   "(<setting> temperature Object_First_Layer_Infill_Temperature_(Celcius): 195.0 </setting>)";
   "(<setting> temperature Object_First_Layer_Perimeter_Temperature_(Celcius): 220.0 </setting>)";
   "(<setting> temperature Object_Next_Layers_Temperature_(Celcius): 230.0 </setting>)";
   "(<setting> temperature Support_Layers_Temperature_(Celcius): 200.0 </setting>)";
   "(<setting> temperature Supported_Layers_Temperature_(Celcius): 230.0 </setting>)";
   "(</settings>)";
   "(<timeStampPreface> 20150526_115821 </timeStampPreface>)";
   "(<procedureName> carve </procedureName>)";
   "(<procedureName> bottom </procedureName>)";
   "(<procedureName> preface </procedureName>)";
   "(<procedureName> inset </procedureName>)";
   "(<procedureName> fill </procedureName>)";
   "(<procedureName> multiply </procedureName>)";
   "(<procedureName> speed </procedureName>)";
   "(<procedureName> temperature </procedureName>)";
   "(<procedureName> jitter </procedureName>)";
   "(<procedureName> clip </procedureName>)";
   "(</extruderInitialization>)";
   "(<crafting>)";
   "M113 S1.0";
   "M108 S84.0";
   "(<layer> 0.2 )";
   "(<rotation> (0.707106781187+0.707106781187j) )";
   "(<nestedRing>)";
   "(<boundaryPerimeter>)";
   "(<boundaryPoint> X11.7333 Y4.8601 Z0.2 </boundaryPoint>)";
   "(<boundaryPoint> X10.5597 Y7.0557 Z0.2 </boundaryPoint>)";
   "(<boundaryPoint> X8.9803 Y8.9803 Z0.2 </boundaryPoint>)";
   "(<boundaryPoint> X7.0557 Y10.5597 Z0.2 </boundaryPoint>)";
   "(<boundaryPoint> X4.8601 Y11.7333 Z0.2 </boundaryPoint>)";
   "(<boundaryPoint> X2.4777 Y12.456 Z0.2 </boundaryPoint>)";
   "(<boundaryPoint> X0.0 Y12.7 Z0.2 </boundaryPoint>)";
   "(<boundaryPoint> X-2.4777 Y12.456 Z0.2 </boundaryPoint>)";
   "(<boundaryPoint> X-4.8601 Y11.7333 Z0.2 </boundaryPoint>)";
   "(<boundaryPoint> X-7.0557 Y10.5597 Z0.2 </boundaryPoint>)";
   "(<boundaryPoint> X-8.9803 Y8.9803 Z0.2 </boundaryPoint>)";
   "(<boundaryPoint> X-10.5597 Y7.0557 Z0.2 </boundaryPoint>)";
   "(<boundaryPoint> X-11.7333 Y4.8601 Z0.2 </boundaryPoint>)";
   "(<boundaryPoint> X-12.456 Y2.4777 Z0.2 </boundaryPoint>)";
   "(<boundaryPoint> X-12.7 Y0.0 Z0.2 </boundaryPoint>)";
   "(<boundaryPoint> X-12.456 Y-2.4777 Z0.2 </boundaryPoint>)";
   "(<boundaryPoint> X-11.7333 Y-4.8601 Z0.2 </boundaryPoint>)";
   "(<boundaryPoint> X-10.5597 Y-7.0557 Z0.2 </boundaryPoint>)";
   "(<boundaryPoint> X-8.9803 Y-8.9803 Z0.2 </boundaryPoint>)";
   "(<boundaryPoint> X-7.0557 Y-10.5597 Z0.2 </boundaryPoint>)";
   "(<boundaryPoint> X-4.8601 Y-11.7333 Z0.2 </boundaryPoint>)";
   "(<boundaryPoint> X-2.4777 Y-12.456 Z0.2 </boundaryPoint>)";
   "(<boundaryPoint> X0.0 Y-12.7 Z0.2 </boundaryPoint>)";
   "(<boundaryPoint> X2.4777 Y-12.456 Z0.2 </boundaryPoint>)";
   "(<boundaryPoint> X4.8601 Y-11.7333 Z0.2 </boundaryPoint>)";
   "(<boundaryPoint> X7.0557 Y-10.5597 Z0.2 </boundaryPoint>)";
   "(<boundaryPoint> X8.9803 Y-8.9803 Z0.2 </boundaryPoint>)";
   "(<boundaryPoint> X10.5597 Y-7.0557 Z0.2 </boundaryPoint>)";
   "(<boundaryPoint> X11.7333 Y-4.8601 Z0.2 </boundaryPoint>)";
   "(<boundaryPoint> X12.456 Y-2.4777 Z0.2 </boundaryPoint>)";
   "(<boundaryPoint> X12.7 Y0.0 Z0.2 </boundaryPoint>)";
   "(<boundaryPoint> X12.456 Y2.4777 Z0.2 </boundaryPoint>)";
   "(<edge> outer )";
   "G1 X-8.1447 Y-9.2003 Z0.2 F960.0";
   "M101";
   "G1 X-6.8547 Y-10.2589 Z0.2 F384.0";
   "G1 X-4.7217 Y-11.3991 Z0.2 F384.0";
   "G1 X-2.4071 Y-12.1012 Z0.2 F384.0";
   "G1 X0.0 Y-12.3383 Z0.2 F384.0";
   "G1 X2.4071 Y-12.1012 Z0.2 F384.0";
   "G1 X4.7217 Y-11.3991 Z0.2 F384.0";
   "G1 X6.8547 Y-10.2589 Z0.2 F384.0";
   "G1 X8.7245 Y-8.7245 Z0.2 F384.0";
   "G1 X10.2589 Y-6.8547 Z0.2 F384.0";
   "G1 X11.3991 Y-4.7217 Z0.2 F384.0";
   "G1 X12.1012 Y-2.4071 Z0.2 F384.0";
   "G1 X12.3383 Y0.0 Z0.2 F384.0";
   "G1 X12.1012 Y2.4071 Z0.2 F384.0";
   "G1 X11.3991 Y4.7217 Z0.2 F384.0";
   "G1 X10.2589 Y6.8547 Z0.2 F384.0";
   "G1 X8.7245 Y8.7245 Z0.2 F384.0";
   "G1 X6.8547 Y10.2589 Z0.2 F384.0";
   "G1 X4.7217 Y11.3991 Z0.2 F384.0";
   "G1 X2.4071 Y12.1012 Z0.2 F384.0";
   "G1 X0.0 Y12.3383 Z0.2 F384.0";
   "G1 X-2.4071 Y12.1012 Z0.2 F384.0";
   "G1 X-4.7217 Y11.3991 Z0.2 F384.0";
   "G1 X-6.8547 Y10.2589 Z0.2 F384.0";
   "G1 X-8.7245 Y8.7245 Z0.2 F384.0";
   "G1 X-10.2589 Y6.8547 Z0.2 F384.0";
   "G1 X-11.3991 Y4.7217 Z0.2 F384.0";
   "G1 X-12.1012 Y2.4071 Z0.2 F384.0";
   "G1 X-12.3383 Y0.0 Z0.2 F384.0";
   "G1 X-12.1012 Y-2.4071 Z0.2 F384.0";
   "G1 X-11.3991 Y-4.7217 Z0.2 F384.0";
   "G1 X-10.2589 Y-6.8547 Z0.2 F384.0";
   "G1 X-8.7013 Y-8.7435 Z0.2 F384.0";
   "M103";
   "(</edge>)";
   "(</boundaryPerimeter>)";
   "(<nestedRing>)";
   "(<boundaryPerimeter>)";
   "(<boundaryPoint> X7.8095 Y1.5534 Z0.2 </boundaryPoint>)";
   "(<boundaryPoint> X7.9625 Y0.0 Z0.2 </boundaryPoint>)";
   "(<boundaryPoint> X7.8095 Y-1.5534 Z0.2 </boundaryPoint>)";
   "(<boundaryPoint> X7.3564 Y-3.0471 Z0.2 </boundaryPoint>)";
   "(<boundaryPoint> X6.6206 Y-4.4237 Z0.2 </boundaryPoint>)";
   "(<boundaryPoint> X5.6303 Y-5.6303 Z0.2 </boundaryPoint>)";
   "(<boundaryPoint> X4.4237 Y-6.6206 Z0.2 </boundaryPoint>)";
   "(<boundaryPoint> X3.0471 Y-7.3564 Z0.2 </boundaryPoint>)";
   "(<boundaryPoint> X1.5534 Y-7.8095 Z0.2 </boundaryPoint>)";
   "(<boundaryPoint> X0.0 Y-7.9625 Z0.2 </boundaryPoint>)";
   "(<boundaryPoint> X-1.5534 Y-7.8095 Z0.2 </boundaryPoint>)";
   "(<boundaryPoint> X-3.0471 Y-7.3564 Z0.2 </boundaryPoint>)";
   "(<boundaryPoint> X-4.4237 Y-6.6206 Z0.2 </boundaryPoint>)";
   "(<boundaryPoint> X-5.6303 Y-5.6303 Z0.2 </boundaryPoint>)";
   "(<boundaryPoint> X-6.6206 Y-4.4237 Z0.2 </boundaryPoint>)";
   "(<boundaryPoint> X-7.3564 Y-3.0471 Z0.2 </boundaryPoint>)";
   "(<boundaryPoint> X-7.8095 Y-1.5534 Z0.2 </boundaryPoint>)";
   "(<boundaryPoint> X-7.9625 Y0.0 Z0.2 </boundaryPoint>)";
   "(<boundaryPoint> X-7.8095 Y1.5534 Z0.2 </boundaryPoint>)";
   "(<boundaryPoint> X-7.3564 Y3.0471 Z0.2 </boundaryPoint>)";
   "(<boundaryPoint> X-6.6206 Y4.4237 Z0.2 </boundaryPoint>)";
   "(<boundaryPoint> X-5.6303 Y5.6303 Z0.2 </boundaryPoint>)";
   "(<boundaryPoint> X-4.4237 Y6.6206 Z0.2 </boundaryPoint>)";
   "(<boundaryPoint> X-3.0471 Y7.3564 Z0.2 </boundaryPoint>)";
   "(<boundaryPoint> X-1.5534 Y7.8095 Z0.2 </boundaryPoint>)";
   "(<boundaryPoint> X0.0 Y7.9625 Z0.2 </boundaryPoint>)";
   "(<boundaryPoint> X1.5534 Y7.8095 Z0.2 </boundaryPoint>)";
   "(<boundaryPoint> X3.0471 Y7.3564 Z0.2 </boundaryPoint>)";
   "(<boundaryPoint> X4.4237 Y6.6206 Z0.2 </boundaryPoint>)";
   "(<boundaryPoint> X5.6303 Y5.6303 Z0.2 </boundaryPoint>)";
   "(<boundaryPoint> X6.6206 Y4.4237 Z0.2 </boundaryPoint>)";
   "(<boundaryPoint> X7.3564 Y3.0471 Z0.2 </boundaryPoint>)";
   "(<edge> inner )";
   "G1 X-6.3619 Y-5.3064 Z0.2 F960.0";
   "M101";
   "G1 X-6.9214 Y-4.6247 Z0.2 F384.0";
   "G1 X-7.6906 Y-3.1855 Z0.2 F384.0";
   "G1 X-8.1643 Y-1.624 Z0.2 F384.0";
   "G1 X-8.3242 Y0.0 Z0.2 F384.0";
   "G1 X-8.1643 Y1.624 Z0.2 F384.0";
   "G1 X-7.6906 Y3.1855 Z0.2 F384.0";
   "G1 X-6.9214 Y4.6247 Z0.2 F384.0";
   "G1 X-5.8861 Y5.8861 Z0.2 F384.0";
   "G1 X-4.6247 Y6.9214 Z0.2 F384.0";
   "G1 X-3.1855 Y7.6906 Z0.2 F384.0";
   "G1 X-1.624 Y8.1643 Z0.2 F384.0";
   "G1 X0.0 Y8.3242 Z0.2 F384.0";
   "G1 X1.624 Y8.1643 Z0.2 F384.0";
   "G1 X3.1855 Y7.6906 Z0.2 F384.0";
   "G1 X4.6247 Y6.9214 Z0.2 F384.0";
   "G1 X5.8861 Y5.8861 Z0.2 F384.0";
   "G1 X6.9214 Y4.6247 Z0.2 F384.0";
   "G1 X7.6906 Y3.1855 Z0.2 F384.0";
   "G1 X8.1643 Y1.624 Z0.2 F384.0";
   "G1 X8.3242 Y0.0 Z0.2 F384.0";
   "G1 X8.1643 Y-1.624 Z0.2 F384.0";
   "G1 X7.6906 Y-3.1855 Z0.2 F384.0";
   "G1 X6.9214 Y-4.6247 Z0.2 F384.0";
   "G1 X5.8861 Y-5.8861 Z0.2 F384.0";
   "G1 X4.6247 Y-6.9214 Z0.2 F384.0";
   "G1 X3.1855 Y-7.6906 Z0.2 F384.0";
   "G1 X1.624 Y-8.1643 Z0.2 F384.0";
   "G1 X0.0 Y-8.3242 Z0.2 F384.0";
   "G1 X-1.624 Y-8.1643 Z0.2 F384.0";
   "G1 X-3.1855 Y-7.6906 Z0.2 F384.0";
   "G1 X-4.6247 Y-6.9214 Z0.2 F384.0";
   "G1 X-5.9051 Y-5.863 Z0.2 F384.0";
   "M103";
   "(</edge>)";
   "(</boundaryPerimeter>)";
   "(</nestedRing>)";
   "(<loop> inner )";
   "G1 X-6.8308 Y-5.7753 Z0.2 F960.0";
   "M101";
   "G1 X-7.4728 Y-4.9931 Z0.2 F384.0";
   "G1 X-8.3033 Y-3.4393 Z0.2 F384.0";
   "G1 X-8.8147 Y-1.7534 Z0.2 F384.0";
   "G1 X-8.9874 Y0.0 Z0.2 F384.0";
   "G1 X-8.8147 Y1.7534 Z0.2 F384.0";
   "G1 X-8.3033 Y3.4393 Z0.2 F384.0";
   "G1 X-7.4728 Y4.9931 Z0.2 F384.0";
   "G1 X-6.355 Y6.355 Z0.2 F384.0";
   "G1 X-4.9931 Y7.4728 Z0.2 F384.0";
   "G1 X-3.4393 Y8.3033 Z0.2 F384.0";
   "G1 X-1.7534 Y8.8147 Z0.2 F384.0";
   "G1 X0.0 Y8.9874 Z0.2 F384.0";
   "G1 X1.7534 Y8.8147 Z0.2 F384.0";
   "G1 X3.4393 Y8.3033 Z0.2 F384.0";
   "G1 X4.9931 Y7.4728 Z0.2 F384.0";
   "G1 X6.355 Y6.355 Z0.2 F384.0";
   "G1 X7.4728 Y4.9931 Z0.2 F384.0";
   "G1 X8.3033 Y3.4393 Z0.2 F384.0";
   "G1 X8.8147 Y1.7534 Z0.2 F384.0";
   "G1 X8.9874 Y0.0 Z0.2 F384.0";
   "G1 X8.8147 Y-1.7534 Z0.2 F384.0";
   "G1 X8.3033 Y-3.4393 Z0.2 F384.0";
   "G1 X7.4728 Y-4.9931 Z0.2 F384.0";
   "G1 X6.355 Y-6.355 Z0.2 F384.0";
   "G1 X4.9931 Y-7.4728 Z0.2 F384.0";
   "G1 X3.4393 Y-8.3033 Z0.2 F384.0";
   "G1 X1.7534 Y-8.8147 Z0.2 F384.0";
   "G1 X0.0 Y-8.9874 Z0.2 F384.0";
   "G1 X-1.7534 Y-8.8147 Z0.2 F384.0";
   "G1 X-3.4393 Y-8.3033 Z0.2 F384.0";
   "G1 X-4.9931 Y-7.4728 Z0.2 F384.0";
   "G1 X-6.374 Y-6.3319 Z0.2 F384.0";
   "M103";
   "(</loop>)";
   "(<loop> outer )";
   "G1 X-7.6758 Y-8.7314 Z0.2 F960.0";
   "M101";
   "G1 X-6.4863 Y-9.7075 Z0.2 F384.0";
   "G1 X-4.4679 Y-10.7864 Z0.2 F384.0";
   "G1 X-2.2778 Y-11.4508 Z0.2 F384.0";
   "G1 X0.0 Y-11.6751 Z0.2 F384.0";
   "G1 X2.2778 Y-11.4508 Z0.2 F384.0";
   "G1 X4.4679 Y-10.7864 Z0.2 F384.0";
   "G1 X6.4863 Y-9.7075 Z0.2 F384.0";
   "G1 X8.2556 Y-8.2556 Z0.2 F384.0";
   "G1 X9.7075 Y-6.4863 Z0.2 F384.0";
   "G1 X10.7864 Y-4.4679 Z0.2 F384.0";
   "G1 X11.4508 Y-2.2778 Z0.2 F384.0";
   "G1 X11.6751 Y0.0 Z0.2 F384.0";
   "G1 X11.4508 Y2.2778 Z0.2 F384.0";
   "G1 X10.7864 Y4.4679 Z0.2 F384.0";
   "G1 X9.7075 Y6.4863 Z0.2 F384.0";
   "G1 X8.2556 Y8.2556 Z0.2 F384.0";
   "G1 X6.4863 Y9.7075 Z0.2 F384.0";
   "G1 X4.4679 Y10.7864 Z0.2 F384.0";
   "G1 X2.2778 Y11.4508 Z0.2 F384.0";
   "G1 X0.0 Y11.6751 Z0.2 F384.0";
   "G1 X-2.2778 Y11.4508 Z0.2 F384.0";
   "G1 X-4.4679 Y10.7864 Z0.2 F384.0";
   "G1 X-6.4863 Y9.7075 Z0.2 F384.0";
   "G1 X-8.2556 Y8.2556 Z0.2 F384.0";
   "G1 X-9.7075 Y6.4863 Z0.2 F384.0";
   "G1 X-10.7864 Y4.4679 Z0.2 F384.0";
   "G1 X-11.4508 Y2.2778 Z0.2 F384.0";
   "G1 X-11.6751 Y0.0 Z0.2 F384.0";
   "G1 X-11.4508 Y-2.2778 Z0.2 F384.0";
   "G1 X-10.7864 Y-4.4679 Z0.2 F384.0";
   "G1 X-9.7075 Y-6.4863 Z0.2 F384.0";
   "G1 X-8.2324 Y-8.2746 Z0.2 F384.0";
   "M103";
   "(</loop>)";
   "(<infill>)";
   "(<infillBoundary>)";
   "(<infillPoint> X10.7864 Y4.4679 Z0.2 </infillPoint>)";
   "(<infillPoint> X9.7075 Y6.4863 Z0.2 </infillPoint>)";
   "(<infillPoint> X8.2556 Y8.2556 Z0.2 </infillPoint>)";
   "(<infillPoint> X6.4863 Y9.7075 Z0.2 </infillPoint>)";
   "(<infillPoint> X4.4679 Y10.7864 Z0.2 </infillPoint>)";
   "(<infillPoint> X2.2778 Y11.4508 Z0.2 </infillPoint>)";
   "(<infillPoint> X0.0 Y11.6751 Z0.2 </infillPoint>)";
   "(<infillPoint> X-2.2778 Y11.4508 Z0.2 </infillPoint>)";
   "(<infillPoint> X-4.4679 Y10.7864 Z0.2 </infillPoint>)";
   "(<infillPoint> X-6.4863 Y9.7075 Z0.2 </infillPoint>)";
   "(<infillPoint> X-8.2556 Y8.2556 Z0.2 </infillPoint>)";
   "(<infillPoint> X-9.7075 Y6.4863 Z0.2 </infillPoint>)";
   "(<infillPoint> X-10.7864 Y4.4679 Z0.2 </infillPoint>)";
   "(<infillPoint> X-11.4508 Y2.2778 Z0.2 </infillPoint>)";
   "(<infillPoint> X-11.6751 Y0.0 Z0.2 </infillPoint>)";
   "(<infillPoint> X-11.4508 Y-2.2778 Z0.2 </infillPoint>)";
   "(<infillPoint> X-10.7864 Y-4.4679 Z0.2 </infillPoint>)";
   "(<infillPoint> X-9.7075 Y-6.4863 Z0.2 </infillPoint>)";
   "(<infillPoint> X-8.2556 Y-8.2556 Z0.2 </infillPoint>)";
   "(<infillPoint> X-6.4863 Y-9.7075 Z0.2 </infillPoint>)";
   "(<infillPoint> X-4.4679 Y-10.7864 Z0.2 </infillPoint>)";
   "(<infillPoint> X-2.2778 Y-11.4508 Z0.2 </infillPoint>)";
   "(<infillPoint> X0.0 Y-11.6751 Z0.2 </infillPoint>)";
   "(<infillPoint> X2.2778 Y-11.4508 Z0.2 </infillPoint>)";
   "(<infillPoint> X4.4679 Y-10.7864 Z0.2 </infillPoint>)";
   "(<infillPoint> X6.4863 Y-9.7075 Z0.2 </infillPoint>)";
   "(<infillPoint> X8.2556 Y-8.2556 Z0.2 </infillPoint>)";
   "(<infillPoint> X9.7075 Y-6.4863 Z0.2 </infillPoint>)";
   "(<infillPoint> X10.7864 Y-4.4679 Z0.2 </infillPoint>)";
   "(<infillPoint> X11.4508 Y-2.2778 Z0.2 </infillPoint>)";
   "(<infillPoint> X11.6751 Y0.0 Z0.2 </infillPoint>)";
   "(<infillPoint> X11.4508 Y2.2778 Z0.2 </infillPoint>)";
   "(</infillBoundary>)";
   "(<infillBoundary>)";
   "(<infillPoint> X8.8147 Y1.7534 Z0.2 </infillPoint>)";
   "(<infillPoint> X8.9874 Y0.0 Z0.2 </infillPoint>)";
   "(<infillPoint> X8.8147 Y-1.7534 Z0.2 </infillPoint>)";
   "(<infillPoint> X8.3033 Y-3.4393 Z0.2 </infillPoint>)";
   "(<infillPoint> X7.4728 Y-4.9931 Z0.2 </infillPoint>)";
   "(<infillPoint> X6.355 Y-6.355 Z0.2 </infillPoint>)";
   "(<infillPoint> X4.9931 Y-7.4728 Z0.2 </infillPoint>)";
   "(<infillPoint> X3.4393 Y-8.3033 Z0.2 </infillPoint>)";
   "(<infillPoint> X1.7534 Y-8.8147 Z0.2 </infillPoint>)";
   "(<infillPoint> X0.0 Y-8.9874 Z0.2 </infillPoint>)";
   "(<infillPoint> X-1.7534 Y-8.8147 Z0.2 </infillPoint>)";
   "(<infillPoint> X-3.4393 Y-8.3033 Z0.2 </infillPoint>)";
   "(<infillPoint> X-4.9931 Y-7.4728 Z0.2 </infillPoint>)";
   "(<infillPoint> X-6.355 Y-6.355 Z0.2 </infillPoint>)";
   "(<infillPoint> X-7.4728 Y-4.9931 Z0.2 </infillPoint>)";
   "(<infillPoint> X-8.3033 Y-3.4393 Z0.2 </infillPoint>)";
   "(<infillPoint> X-8.8147 Y-1.7534 Z0.2 </infillPoint>)";
   "(<infillPoint> X-8.9874 Y0.0 Z0.2 </infillPoint>)";
   "(<infillPoint> X-8.8147 Y1.7534 Z0.2 </infillPoint>)";
   "(<infillPoint> X-8.3033 Y3.4393 Z0.2 </infillPoint>)";
   "(<infillPoint> X-7.4728 Y4.9931 Z0.2 </infillPoint>)";
   "(<infillPoint> X-6.355 Y6.355 Z0.2 </infillPoint>)";
   "(<infillPoint> X-4.9931 Y7.4728 Z0.2 </infillPoint>)";
   "(<infillPoint> X-3.4393 Y8.3033 Z0.2 </infillPoint>)";
   "(<infillPoint> X-1.7534 Y8.8147 Z0.2 </infillPoint>)";
   "(<infillPoint> X0.0 Y8.9874 Z0.2 </infillPoint>)";
   "(<infillPoint> X1.7534 Y8.8147 Z0.2 </infillPoint>)";
   "(<infillPoint> X3.4393 Y8.3033 Z0.2 </infillPoint>)";
   "(<infillPoint> X4.9931 Y7.4728 Z0.2 </infillPoint>)";
   "(<infillPoint> X6.355 Y6.355 Z0.2 </infillPoint>)";
   "(<infillPoint> X7.4728 Y4.9931 Z0.2 </infillPoint>)";
   "(<infillPoint> X8.3033 Y3.4393 Z0.2 </infillPoint>)";
   "(</infillBoundary>)";
   "G1 X-7.8932 Y-7.8932 Z0.2 F960.0";
   "M101";
   "G1 X-6.7174 Y-6.7174 Z0.2 F384.0";
   "G1 X-7.0999 Y-6.2514 Z0.2 F384.0";
   "G1 X-8.2757 Y-7.4271 Z0.2 F384.0";
   "G1 X-8.6581 Y-6.9611 Z0.2 F384.0";
   "G1 X-7.4824 Y-5.7853 Z0.2 F384.0";
   "G1 X-7.8649 Y-5.3193 Z0.2 F384.0";
   "G1 X-9.0406 Y-6.495 Z0.2 F384.0";
   "G1 X-9.3909 Y-5.9968 Z0.2 F384.0";
   "G1 X-8.1682 Y-4.7741 Z0.2 F384.0";
   "G1 X-8.4637 Y-4.2211 Z0.2 F384.0";
   "G1 X-9.6864 Y-5.4438 Z0.2 F384.0";
   "G1 X-9.982 Y-4.8908 Z0.2 F384.0";
   "G1 X-8.7593 Y-3.6681 Z0.2 F384.0";
   "G1 X-8.9626 Y-3.0229 Z0.2 F384.0";
   "G1 X-10.2776 Y-4.3379 Z0.2 F384.0";
   "G1 X-10.4868 Y-3.6986 Z0.2 F384.0";
   "G1 X-9.1601 Y-2.3718 Z0.2 F384.0";
   "G1 X-9.3328 Y-1.6961 Z0.2 F384.0";
   "G1 X-10.6843 Y-3.0475 Z0.2 F384.0";
   "G1 X-10.8818 Y-2.3965 Z0.2 F384.0";
   "G1 X-9.4089 Y-0.9236 Z0.2 F384.0";
   "G1 X-9.485 Y-0.1512 Z0.2 F384.0";
   "G1 X-10.9986 Y-1.6648 Z0.2 F384.0";
   "G1 X-11.0747 Y-0.8924 Z0.2 F384.0";
   "G1 X-9.4253 Y0.757 Z0.2 F384.0";
   "G1 X-9.3326 Y1.6982 Z0.2 F384.0";
   "G1 X-11.1508 Y-0.1199 Z0.2 F384.0";
   "G1 X-11.0843 Y0.7951 Z0.2 F384.0";
   "G1 X-9.0088 Y2.8706 Z0.2 F384.0";
   "G1 X-8.4143 Y4.3137 Z0.2 F384.0";
   "G1 X-10.9916 Y1.7363 Z0.2 F384.0";
   "G1 X-10.752 Y2.8245 Z0.2 F384.0";
   "G1 X-2.8245 Y10.752 Z0.2 F384.0";
   "G1 X-1.7363 Y10.9916 Z0.2 F384.0";
   "G1 X-4.3137 Y8.4143 Z0.2 F384.0";
   "M103";
   "G1 X-2.8706 Y9.0088 Z0.2 F960.0";
   "M101";
   "G1 X-0.7951 Y11.0843 Z0.2 F384.0";
   "G1 X0.1199 Y11.1508 Z0.2 F384.0";
   "G1 X-1.6982 Y9.3326 Z0.2 F384.0";
   "G1 X-0.757 Y9.4253 Z0.2 F384.0";
   "G1 X0.8924 Y11.0747 Z0.2 F384.0";
   "G1 X1.6648 Y10.9986 Z0.2 F384.0";
   "G1 X0.1512 Y9.485 Z0.2 F384.0";
   "G1 X0.9236 Y9.4089 Z0.2 F384.0";
   "G1 X2.3965 Y10.8818 Z0.2 F384.0";
   "G1 X3.0475 Y10.6843 Z0.2 F384.0";
   "G1 X1.6961 Y9.3328 Z0.2 F384.0";
   "G1 X2.3718 Y9.1601 Z0.2 F384.0";
   "G1 X3.6986 Y10.4868 Z0.2 F384.0";
   "G1 X4.3379 Y10.2776 Z0.2 F384.0";
   "G1 X3.0229 Y8.9626 Z0.2 F384.0";
   "G1 X3.6681 Y8.7593 Z0.2 F384.0";
   "G1 X4.8908 Y9.982 Z0.2 F384.0";
   "G1 X5.4438 Y9.6864 Z0.2 F384.0";
   "G1 X4.2211 Y8.4637 Z0.2 F384.0";
   "G1 X4.7741 Y8.1682 Z0.2 F384.0";
   "G1 X5.9968 Y9.3909 Z0.2 F384.0";
   "G1 X6.495 Y9.0406 Z0.2 F384.0";
   "G1 X5.3193 Y7.8649 Z0.2 F384.0";
   "G1 X5.7853 Y7.4824 Z0.2 F384.0";
   "G1 X6.9611 Y8.6581 Z0.2 F384.0";
   "G1 X7.4271 Y8.2757 Z0.2 F384.0";
   "G1 X6.2514 Y7.0999 Z0.2 F384.0";
   "G1 X6.7174 Y6.7174 Z0.2 F384.0";
   "G1 X7.8932 Y7.8932 Z0.2 F384.0";
   "G1 X8.2757 Y7.4271 Z0.2 F384.0";
   "G1 X7.0999 Y6.2514 Z0.2 F384.0";
   "G1 X7.4824 Y5.7853 Z0.2 F384.0";
   "G1 X8.6581 Y6.9611 Z0.2 F384.0";
   "G1 X9.0406 Y6.495 Z0.2 F384.0";
   "G1 X7.8649 Y5.3193 Z0.2 F384.0";
   "G1 X8.1682 Y4.7741 Z0.2 F384.0";
   "G1 X9.3909 Y5.9968 Z0.2 F384.0";
   "G1 X9.6864 Y5.4438 Z0.2 F384.0";
   "G1 X8.4637 Y4.2211 Z0.2 F384.0";
   "G1 X8.7593 Y3.6681 Z0.2 F384.0";
   "G1 X9.982 Y4.8908 Z0.2 F384.0";
   "G1 X10.2776 Y4.3379 Z0.2 F384.0";
   "G1 X8.9626 Y3.0229 Z0.2 F384.0";
   "G1 X9.1601 Y2.3718 Z0.2 F384.0";
   "G1 X10.4868 Y3.6986 Z0.2 F384.0";
   "G1 X10.6843 Y3.0475 Z0.2 F384.0";
   "G1 X9.3328 Y1.6961 Z0.2 F384.0";
   "G1 X9.4089 Y0.9236 Z0.2 F384.0";
   "G1 X10.8818 Y2.3965 Z0.2 F384.0";
   "G1 X10.9986 Y1.6648 Z0.2 F384.0";
   "G1 X9.485 Y0.1512 Z0.2 F384.0";
   "G1 X9.4253 Y-0.757 Z0.2 F384.0";
   "G1 X11.0747 Y0.8924 Z0.2 F384.0";
   "G1 X11.1508 Y0.1199 Z0.2 F384.0";
   "G1 X9.3326 Y-1.6982 Z0.2 F384.0";
   "G1 X9.0088 Y-2.8706 Z0.2 F384.0";
   "G1 X11.0843 Y-0.7951 Z0.2 F384.0";
   "G1 X10.9916 Y-1.7363 Z0.2 F384.0";
   "G1 X8.4143 Y-4.3137 Z0.2 F384.0";
   "M103";
   "G1 X9.5219 Y-5.7516 Z0.2 F960.0";
   "M101";
   "G1 X5.7516 Y-9.5219 Z0.2 F384.0";
   "G1 X4.0425 Y-10.3825 Z0.2 F384.0";
   "G1 X10.3825 Y-4.0425 Z0.2 F384.0";
   "G1 X10.752 Y-2.8245 Z0.2 F384.0";
   "G1 X2.8245 Y-10.752 Z0.2 F384.0";
   "G1 X1.7363 Y-10.9916 Z0.2 F384.0";
   "G1 X4.3137 Y-8.4143 Z0.2 F384.0";
   "M103";
   "G1 X2.8706 Y-9.0088 Z0.2 F960.0";
   "M101";
   "G1 X0.7951 Y-11.0843 Z0.2 F384.0";
   "G1 X-0.1199 Y-11.1508 Z0.2 F384.0";
   "G1 X1.6982 Y-9.3326 Z0.2 F384.0";
   "G1 X0.757 Y-9.4253 Z0.2 F384.0";
   "G1 X-0.8924 Y-11.0747 Z0.2 F384.0";
   "G1 X-1.6648 Y-10.9986 Z0.2 F384.0";
   "G1 X-0.1512 Y-9.485 Z0.2 F384.0";
   "G1 X-0.9236 Y-9.4089 Z0.2 F384.0";
   "G1 X-2.3965 Y-10.8818 Z0.2 F384.0";
   "G1 X-3.0475 Y-10.6843 Z0.2 F384.0";
   "G1 X-1.6961 Y-9.3328 Z0.2 F384.0";
   "G1 X-2.3718 Y-9.1601 Z0.2 F384.0";
   "G1 X-3.6986 Y-10.4868 Z0.2 F384.0";
   "G1 X-4.3379 Y-10.2776 Z0.2 F384.0";
   "G1 X-3.0229 Y-8.9626 Z0.2 F384.0";
   "G1 X-3.6681 Y-8.7593 Z0.2 F384.0";
   "G1 X-4.8908 Y-9.982 Z0.2 F384.0";
   "G1 X-5.4438 Y-9.6864 Z0.2 F384.0";
   "G1 X-4.2211 Y-8.4637 Z0.2 F384.0";
   "G1 X-4.7741 Y-8.1682 Z0.2 F384.0";
   "G1 X-5.9968 Y-9.3909 Z0.2 F384.0";
   "G1 X-6.495 Y-9.0406 Z0.2 F384.0";
   "G1 X-5.3193 Y-7.8649 Z0.2 F384.0";
   "G1 X-5.7853 Y-7.4824 Z0.2 F384.0";
   "G1 X-6.9611 Y-8.6581 Z0.2 F384.0";
   "G1 X-7.4271 Y-8.2757 Z0.2 F384.0";
   "G1 X-6.2514 Y-7.0999 Z0.2 F384.0";
   "M103";
   "G1 X-10.3825 Y4.0425 Z0.2 F960.0";
   "M101";
   "G1 X-4.0425 Y10.3825 Z0.2 F384.0";
   "M103";
   "G1 X-5.7516 Y9.5219 Z0.2 F960.0";
   "M101";
   "G1 X-9.5219 Y5.7516 Z0.2 F384.0";
   "M103";
   "(</infill>)";
   "(</nestedRing>)";
   "(</rotation>)";
   "(</layer>)";
   "M108 S210.0";
   "(<layer> 0.6 )"]%string.

(** gcodeutils/tests/skeinforge_model1_poststretch.gcode, lines 1-629 *)
Definition model1_post : list string :=
  ["(<format> skeinforge gcode </format>)";
   "(<version> 12.03.14 </version>)";
   "(<created> 15.05.26|11:58 </created>)";
   "(<extruderInitialization>)";
   "G90 ;set positioning to absolute";
   "G21 ;set units to millimeters";
   "M103; stretch-extrusion-off";
   "(<craftTypeName> extrusion </craftTypeName>)";
   "M105";
   "(<decimalPlacesCarried> 4 </decimalPlacesCarried>)";
   "(<layerThickness> 0.4 </layerThickness>)";
   "(<infillWidth> 0.6 </infillWidth>)";
   "(<volumeFraction> 0.82 </volumeFraction>)";
   "(<infillPerimeterOverlap> 0.15 </infillPerimeterOverlap>)";
   "(<sharpestProduct> 0.866 </sharpestProduct>)";
   "(<layerHeight> 0.4 </layerHeight>)";
   "(<threadSequenceString> loops edge infill </threadSequenceString>)";
   "(<maximumZFeedRatePerSecond> 1.0 </maximumZFeedRatePerSecond>)";
   "(<objectFirstLayerFeedRateInfillMultiplier> 0.4 </objectFirstLayerFeedRateInfillMultiplier>)";
   "(<operatingFeedRatePerSecond> 16.0 </operatingFeedRatePerSecond>)";
   "(<objectFirstLayerFlowRateInfillMultiplier> 0.4 </objectFirstLayerFlowRateInfillMultiplier>)";
   "(<operatingFlowRate> 210.0 </operatingFlowRate>)";
   "(<orbitalFeedRatePerSecond> 8.0 </orbitalFeedRatePerSecond>)";
   "(<travelFeedRatePerSecond> 16.0 </travelFeedRatePerSecond>)";
   "(<coolingRate> 3.0 </coolingRate>)";
   "(<heatingRate> 10.0 </heatingRate>)";
   "(<baseTemperature> 200.0 </baseTemperature>)";
   "(<interfaceTemperature> 200.0 </interfaceTemperature>)";
   "(<objectFirstLayerInfillTemperature> 195.0 </objectFirstLayerInfillTemperature>)";
   "(<objectFirstLayerPerimeterTemperature> 220.0 </objectFirstLayerPerimeterTemperature>)";
   "(<objectNextLayersTemperature> 230.0 </objectNextLayersTemperature>)";
   "(<supportLayersTemperature> 200.0 </supportLayersTemperature>)";
   "(<supportedLayersTemperature> 230.0 </supportedLayersTemperature>)";
   "(<clipOverEdgeWidth> 0.5 </clipOverEdgeWidth>)";
   "(<edgeWidth> 0.72 </edgeWidth>)";
   "(<perimeterWidth> 0.72 </perimeterWidth>)";
   "(<profileName> ABS </profileName>)";
   "(<settings>)";
   "(<setting> alteration Activate_Alteration True </setting>)";
   "(<setting> alteration Name_of_End_File: end.gcode </setting>)";
   "(<setting> alteration Name_of_Start_File: start.gcode </setting>)";
   "(<setting> alteration Remove_Redundant_Mcode True </setting>)";
   "(<setting> alteration Replace_Variable_with_Setting True </setting>)";
   "(<setting> bottom Activate_Bottom True </setting>)";
   "(<setting> bottom Additional_Height_over_Layer_Thickness_(ratio): 0.5 </setting>)";
   "(<setting> bottom Altitude_(mm): 0.0 </setting>)";
   "(<setting> bottom SVG_Viewer: webbrowser </setting>)";
   "(<setting> clip Activate_Clip True </setting>)";
   "(<setting> clip Clip_Over_Perimeter_Width_(ratio): 0.5 </setting>)";
   "(<setting> clip Maximum_Connection_Distance_Over_Perimeter_Width_(ratio): 10.0 </setting>)";
   "(<setting> cool Activate_Cool True </setting>)";
   "(<setting> cool Bridge_Cool_(Celcius): 1.0 </setting>)";
   "(<setting> cool Orbit False </setting>)";
   "(<setting> cool Slow_Down True </setting>)";
   "(<setting> cool Maximum_Cool_(Celcius): 2.0 </setting>)";
   "(<setting> cool Minimum_Layer_Time_(seconds): 60.0 </setting>)";
   "(<setting> cool Minimum_Orbital_Radius_(millimeters): 10.0 </setting>)";
   "(<setting> cool Name_of_Cool_End_File: cool_end.gcode </setting>)";
   "(<setting> cool Name_of_Cool_Start_File: cool_start.gcode </setting>)";
   "(<setting> cool Orbital_Outset_(millimeters): 2.0 </setting>)";
   "(<setting> cool Turn_Fan_On_at_Beginning True </setting>)";
   "(<setting> cool Turn_Fan_Off_at_Ending True </setting>)";
   "(<setting> dimension Activate_Dimension True </setting>)";
   "(<setting> dimension Absolute_Extrusion_Distance True </setting>)";
   "(<setting> dimension Relative_Extrusion_Distance False </setting>)";
   "(<setting> dimension Extruder_Retraction_Speed_(mm/s): 13.3 </setting>)";
   "(<setting> dimension Filament_Diameter_(mm): 2.8 </setting>)";
   "(<setting> dimension Filament_Packing_Density_(ratio): 0.85 </setting>)";
   "(<setting> dimension Maximum_E_Value_before_Reset_(float): 91234.0 </setting>)";
   "(<setting> dimension Minimum_Travel_for_Retraction_(millimeters): 1.0 </setting>)";
   "(<setting> dimension Retract_Within_Island False </setting>)";
   "(<setting> dimension Retraction_Distance_(millimeters): 0.0 </setting>)";
   "(<setting> dimension Restart_Extra_Distance_(millimeters): 0.0 </setting>)";
   "(<setting> export Activate_Export True </setting>)";
   "(<setting> export Add_Descriptive_Extension False </setting>)";
   "(<setting> export Add_Export_Suffix True </setting>)";
   "(<setting> export Add_Profile_Extension False </setting>)";
   "(<setting> export Add_Timestamp_Extension False </setting>)";
   "(<setting> export Also_Send_Output_To:  </setting>)";
   "(<setting> export Analyze_Gcode True </setting>)";
   "(<setting> export Do_Not_Delete_Comments False </setting>)";
   "(<setting> export Delete_Crafting_Comments False </setting>)";
   "(<setting> export Delete_All_Comments True </setting>)";
   "(<setting> export Do_Not_Change_Output True </setting>)";
   "(<setting> export binary_16_byte False </setting>)";
   "(<setting> export gcode_step False </setting>)";
   "(<setting> export gcode_time_segment False </setting>)";
   "(<setting> export gcode_small False </setting>)";
   "(<setting> export File_Extension: gcode </setting>)";
   "(<setting> export Name_of_Replace_File: replace.csv </setting>)";
   "(<setting> export Save_Penultimate_Gcode False </setting>)";
   "(<setting> fill Activate_Fill True </setting>)";
   "(<setting> fill Diaphragm_Period_(layers): 100 </setting>)";
   "(<setting> fill Diaphragm_Thickness_(layers): 0 </setting>)";
   "(<setting> fill Extra_Shells_on_Alternating_Solid_Layer_(layers): 2 </setting>)";
   "(<setting> fill Extra_Shells_on_Base_(layers): 1 </setting>)";
   "(<setting> fill Extra_Shells_on_Sparse_Layer_(layers): 1 </setting>)";
   "(<setting> fill Grid_Circle_Separation_over_Perimeter_Width_(ratio): 0.2 </setting>)";
   "(<setting> fill Grid_Extra_Overlap_(ratio): 0.1 </setting>)";
   "(<setting> fill Grid_Junction_Separation_Band_Height_(layers): 10 </setting>)";
   "(<setting> fill Grid_Junction_Separation_over_Octogon_Radius_At_End_(ratio): 0.0 </setting>)";
   "(<setting> fill Grid_Junction_Separation_over_Octogon_Radius_At_Middle_(ratio): 0.0 </setting>)";
   "(<setting> fill Infill_Begin_Rotation_(degrees): 45.0 </setting>)";
   "(<setting> fill Infill_Begin_Rotation_Repeat_(layers): 1 </setting>)";
   "(<setting> fill Infill_Odd_Layer_Extra_Rotation_(degrees): 90.0 </setting>)";
   "(<setting> fill Grid_Circular False </setting>)";
   "(<setting> fill Grid_Hexagonal False </setting>)";
   "(<setting> fill Grid_Rectangular False </setting>)";
   "(<setting> fill Line True </setting>)";
   "(<setting> fill Infill_Perimeter_Overlap_(ratio): 0.15 </setting>)";
   "(<setting> fill Infill_Solidity_(ratio): 0.2 </setting>)";
   "(<setting> fill Sharpest_Angle_(degrees): 60.0 </setting>)";
   "(<setting> fill Solid_Surface_Thickness_(layers): 3 </setting>)";
   "(<setting> fill Lower_Left True </setting>)";
   "(<setting> fill Nearest False </setting>)";
   "(<setting> fill Surrounding_Angle_(degrees): 60.0 </setting>)";
   "(<setting> fill Infill_>_Loops_>_Perimeter False </setting>)";
   "(<setting> fill Infill_>_Perimeter_>_Loops False </setting>)";
   "(<setting> fill Loops_>_Infill_>_Perimeter False </setting>)";
   "(<setting> fill Loops_>_Perimeter_>_Infill True </setting>)";
   "(<setting> fill Perimeter_>_Infill_>_Loops False </setting>)";
   "(<setting> fill Perimeter_>_Loops_>_Infill False </setting>)";
   "(<setting> home Activate_Home True </setting>)";
   "(<setting> home Name_of_Home_File: home.gcode </setting>)";
   "(<setting> jitter Activate_Jitter True </setting>)";
   "(<setting> jitter Jitter_Over_Perimeter_Width_(ratio): 2.0 </setting>)";
   "(<setting> limit Activate_Limit True </setting>)";
   "(<setting> limit Maximum_Initial_Feed_Rate_(mm/s): 1.0 </setting>)";
   "(<setting> multiply Activate_Multiply True </setting>)";
   "(<setting> multiply Center_X_(mm): 0.0 </setting>)";
   "(<setting> multiply Center_Y_(mm): 0.0 </setting>)";
   "(<setting> multiply Number_of_Columns_(integer): 1 </setting>)";
   "(<setting> multiply Number_of_Rows_(integer): 1 </setting>)";
   "(<setting> multiply Reverse_Sequence_every_Odd_Layer False </setting>)";
   "(<setting> multiply Separation_over_Perimeter_Width_(ratio): 15.0 </setting>)";
   "(<setting> speed Activate_Speed True </setting>)";
   "(<setting> speed Add_Flow_Rate: True </setting>)";
   "(<setting> speed Bridge_Feed_Rate_Multiplier_(ratio): 1.0 </setting>)";
   "(<setting> speed Bridge_Flow_Rate_Multiplier_(ratio): 1.0 </setting>)";
   "(<setting> speed Duty_Cyle_at_Beginning_(portion): 1.0 </setting>)";
   "(<setting> speed Duty_Cyle_at_Ending_(portion): 0.0 </setting>)";
   "(<setting> speed Feed_Rate_(mm/s): 16.0 </setting>)";
   "(<setting> speed Flow_Rate_Setting_(float): 210.0 </setting>)";
   "(<setting> speed Object_First_Layer_Feed_Rate_Infill_Multiplier_(ratio): 0.4 </setting>)";
   "(<setting> speed Object_First_Layer_Feed_Rate_Perimeter_Multiplier_(ratio): 0.4 </setting>)";
   "(<setting> speed Object_First_Layer_Flow_Rate_Infill_Multiplier_(ratio): 0.4 </setting>)";
   "(<setting> speed Object_First_Layer_Flow_Rate_Perimeter_Multiplier_(ratio): 0.4 </setting>)";
   "(<setting> speed Orbital_Feed_Rate_over_Operating_Feed_Rate_(ratio): 0.5 </setting>)";
   "(<setting> speed Maximum_Z_Feed_Rate_(mm/s): 1.0 </setting>)";
   "(<setting> speed Perimeter_Feed_Rate_Multiplier_(ratio): 1.0 </setting>)";
   "(<setting> speed Perimeter_Flow_Rate_Multiplier_(ratio): 1.0 </setting>)";
   "(<setting> speed Travel_Feed_Rate_(mm/s): 16.0 </setting>)";
   "(<setting> stretch Activate_Stretch True </setting>)";
   "(<setting> stretch Cross_Limit_Distance_Over_Perimeter_Width_(ratio): 5.0 </setting>)";
   "(<setting> stretch Loop_Stretch_Over_Perimeter_Width_(ratio): 0.11 </setting>)";
   "(<setting> stretch Path_Stretch_Over_Perimeter_Width_(ratio): 0.0 </setting>)";
   "(<setting> stretch Perimeter_Inside_Stretch_Over_Perimeter_Width_(ratio): 0.32 </setting>)";
   "(<setting> stretch Perimeter_Outside_Stretch_Over_Perimeter_Width_(ratio): 0.1 </setting>)";
   "(<setting> stretch Stretch_From_Distance_Over_Perimeter_Width_(ratio): 2.0 </setting>)";
   "(<setting> temperature Activate_Temperature True </setting>)";
   "(<setting> temperature Cooling_Rate_(Celcius/second): 3.0 </setting>)";
   "(<setting> temperature Heating_Rate_(Celcius/second): 10.0 </setting>)";
   "(<setting> temperature Base_Temperature_(Celcius): 200.0 </setting>)";
   "(<setting> temperature Interface_Temperature_(Celcius): 200.0 </setting>)";
   "(<setting> temperature Object_First_Layer_Infill_Temperature_(Celcius): 195.0 </setting>)";
   "(<setting> temperature Object_First_Layer_Perimeter_Temperature_(Celcius): 220.0 </setting>)";
   "(<setting> temperature Object_Next_Layers_Temperature_(Celcius): 230.0 </setting>)";
   "(<setting> temperature Support_Layers_Temperature_(Celcius): 200.0 </setting>)";
   "(<setting> temperature Supported_Layers_Temperature_(Celcius): 230.0 </setting>)";
   "(</settings>)";
   "(<timeStampPreface> 20150526_115821 </timeStampPreface>)";
   "(<procedureName> carve </procedureName>)";
   "(<procedureName> bottom </procedureName>)";
   "(<procedureName> preface </procedureName>)";
   "(<procedureName> inset </procedureName>)";
   "(<procedureName> fill </procedureName>)";
   "(<procedureName> multiply </procedureName>)";
   "(<procedureName> speed </procedureName>)";
   "(<procedureName> temperature </procedureName>)";
   "(<procedureName> jitter </procedureName>)";
   "(<procedureName> clip </procedureName>)";
   "(</extruderInitialization>)";
   "(<crafting>)";
   "M113 S1.0";
   "M108 S84.0";
   "(<layer> 0.2 )";
   "(<rotation> (0.707106781187+0.707106781187j) )";
   "(<nestedRing>)";
   "(<boundaryPerimeter>)";
   "(<boundaryPoint> X11.7333 Y4.8601 Z0.2 </boundaryPoint>)";
   "(<boundaryPoint> X10.5597 Y7.0557 Z0.2 </boundaryPoint>)";
   "(<boundaryPoint> X8.9803 Y8.9803 Z0.2 </boundaryPoint>)";
   "(<boundaryPoint> X7.0557 Y10.5597 Z0.2 </boundaryPoint>)";
   "(<boundaryPoint> X4.8601 Y11.7333 Z0.2 </boundaryPoint>)";
   "(<boundaryPoint> X2.4777 Y12.456 Z0.2 </boundaryPoint>)";
   "(<boundaryPoint> X0.0 Y12.7 Z0.2 </boundaryPoint>)";
   "(<boundaryPoint> X-2.4777 Y12.456 Z0.2 </boundaryPoint>)";
   "(<boundaryPoint> X-4.8601 Y11.7333 Z0.2 </boundaryPoint>)";
   "(<boundaryPoint> X-7.0557 Y10.5597 Z0.2 </boundaryPoint>)";
   "(<boundaryPoint> X-8.9803 Y8.9803 Z0.2 </boundaryPoint>)";
   "(<boundaryPoint> X-10.5597 Y7.0557 Z0.2 </boundaryPoint>)";
   "(<boundaryPoint> X-11.7333 Y4.8601 Z0.2 </boundaryPoint>)";
   "(<boundaryPoint> X-12.456 Y2.4777 Z0.2 </boundaryPoint>)";
   "(<boundaryPoint> X-12.7 Y0.0 Z0.2 </boundaryPoint>)";
   "(<boundaryPoint> X-12.456 Y-2.4777 Z0.2 </boundaryPoint>)";
   "(<boundaryPoint> X-11.7333 Y-4.8601 Z0.2 </boundaryPoint>)";
   "(<boundaryPoint> X-10.5597 Y-7.0557 Z0.2 </boundaryPoint>)";
   "(<boundaryPoint> X-8.9803 Y-8.9803 Z0.2 </boundaryPoint>)";
   "(<boundaryPoint> X-7.0557 Y-10.5597 Z0.2 </boundaryPoint>)";
   "(<boundaryPoint> X-4.8601 Y-11.7333 Z0.2 </boundaryPoint>)";
   "(<boundaryPoint> X-2.4777 Y-12.456 Z0.2 </boundaryPoint>)";
   "(<boundaryPoint> X0.0 Y-12.7 Z0.2 </boundaryPoint>)";
   "(<boundaryPoint> X2.4777 Y-12.456 Z0.2 </boundaryPoint>)";
   "(<boundaryPoint> X4.8601 Y-11.7333 Z0.2 </boundaryPoint>)";
   "(<boundaryPoint> X7.0557 Y-10.5597 Z0.2 </boundaryPoint>)";
   "(<boundaryPoint> X8.9803 Y-8.9803 Z0.2 </boundaryPoint>)";
   "(<boundaryPoint> X10.5597 Y-7.0557 Z0.2 </boundaryPoint>)";
   "(<boundaryPoint> X11.7333 Y-4.8601 Z0.2 </boundaryPoint>)";
   "(<boundaryPoint> X12.456 Y-2.4777 Z0.2 </boundaryPoint>)";
   "(<boundaryPoint> X12.7 Y0.0 Z0.2 </boundaryPoint>)";
   "(<boundaryPoint> X12.456 Y2.4777 Z0.2 </boundaryPoint>)";
   "(<edge> outer ); stretch-loop-start stretch-outer-edge-start";
   "G1 X-8.1454 Y-9.2015 Z0.2000 F960.0000";
   "M101; stretch-extrusion-on";
   "G1 X-6.8576 Y-10.2624 Z0.2000 F384.0000";
   "G1 X-4.7230 Y-11.4015 Z0.2000 F384.0000";
   "G1 X-2.4079 Y-12.1039 Z0.2000 F384.0000";
   "G1 X-0.0003 Y-12.3411 Z0.2000 F384.0000";
   "G1 X2.4074 Y-12.1040 Z0.2000 F384.0000";
   "G1 X4.7225 Y-11.4018 Z0.2000 F384.0000";
   "G1 X6.8560 Y-10.2614 Z0.2000 F384.0000";
   "G1 X8.7263 Y-8.7267 Z0.2000 F384.0000";
   "G1 X10.2610 Y-6.8565 Z0.2000 F384.0000";
   "G1 X11.4015 Y-4.7230 Z0.2000 F384.0000";
   "G1 X12.1039 Y-2.4079 Z0.2000 F384.0000";
   "G1 X12.3411 Y-0.0003 Z0.2000 F384.0000";
   "G1 X12.1040 Y2.4074 Z0.2000 F384.0000";
   "G1 X11.4018 Y4.7225 Z0.2000 F384.0000";
   "G1 X10.2614 Y6.8560 Z0.2000 F384.0000";
   "G1 X8.7267 Y8.7263 Z0.2000 F384.0000";
   "G1 X6.8565 Y10.2610 Z0.2000 F384.0000";
   "G1 X4.7230 Y11.4015 Z0.2000 F384.0000";
   "G1 X2.4079 Y12.1039 Z0.2000 F384.0000";
   "G1 X0.0003 Y12.3411 Z0.2000 F384.0000";
   "G1 X-2.4074 Y12.1040 Z0.2000 F384.0000";
   "G1 X-4.7225 Y11.4018 Z0.2000 F384.0000";
   "G1 X-6.8560 Y10.2614 Z0.2000 F384.0000";
   "G1 X-8.7263 Y8.7267 Z0.2000 F384.0000";
   "G1 X-10.2610 Y6.8565 Z0.2000 F384.0000";
   "G1 X-11.4015 Y4.7230 Z0.2000 F384.0000";
   "G1 X-12.1039 Y2.4079 Z0.2000 F384.0000";
   "G1 X-12.3411 Y0.0003 Z0.2000 F384.0000";
   "G1 X-12.1040 Y-2.4074 Z0.2000 F384.0000";
   "G1 X-11.4018 Y-4.7225 Z0.2000 F384.0000";
   "G1 X-10.2613 Y-6.8560 Z0.2000 F384.0000";
   "G1 X-8.7034 Y-8.7453 Z0.2000 F384.0000";
   "M103; stretch-extrusion-off";
   "(</edge>); stretch-loop-stop";
   "(</boundaryPerimeter>)";
   "(<nestedRing>)";
   "(<boundaryPerimeter>)";
   "(<boundaryPoint> X7.8095 Y1.5534 Z0.2 </boundaryPoint>)";
   "(<boundaryPoint> X7.9625 Y0.0 Z0.2 </boundaryPoint>)";
   "(<boundaryPoint> X7.8095 Y-1.5534 Z0.2 </boundaryPoint>)";
   "(<boundaryPoint> X7.3564 Y-3.0471 Z0.2 </boundaryPoint>)";
   "(<boundaryPoint> X6.6206 Y-4.4237 Z0.2 </boundaryPoint>)";
   "(<boundaryPoint> X5.6303 Y-5.6303 Z0.2 </boundaryPoint>)";
   "(<boundaryPoint> X4.4237 Y-6.6206 Z0.2 </boundaryPoint>)";
   "(<boundaryPoint> X3.0471 Y-7.3564 Z0.2 </boundaryPoint>)";
   "(<boundaryPoint> X1.5534 Y-7.8095 Z0.2 </boundaryPoint>)";
   "(<boundaryPoint> X0.0 Y-7.9625 Z0.2 </boundaryPoint>)";
   "(<boundaryPoint> X-1.5534 Y-7.8095 Z0.2 </boundaryPoint>)";
   "(<boundaryPoint> X-3.0471 Y-7.3564 Z0.2 </boundaryPoint>)";
   "(<boundaryPoint> X-4.4237 Y-6.6206 Z0.2 </boundaryPoint>)";
   "(<boundaryPoint> X-5.6303 Y-5.6303 Z0.2 </boundaryPoint>)";
   "(<boundaryPoint> X-6.6206 Y-4.4237 Z0.2 </boundaryPoint>)";
   "(<boundaryPoint> X-7.3564 Y-3.0471 Z0.2 </boundaryPoint>)";
   "(<boundaryPoint> X-7.8095 Y-1.5534 Z0.2 </boundaryPoint>)";
   "(<boundaryPoint> X-7.9625 Y0.0 Z0.2 </boundaryPoint>)";
   "(<boundaryPoint> X-7.8095 Y1.5534 Z0.2 </boundaryPoint>)";
   "(<boundaryPoint> X-7.3564 Y3.0471 Z0.2 </boundaryPoint>)";
   "(<boundaryPoint> X-6.6206 Y4.4237 Z0.2 </boundaryPoint>)";
   "(<boundaryPoint> X-5.6303 Y5.6303 Z0.2 </boundaryPoint>)";
   "(<boundaryPoint> X-4.4237 Y6.6206 Z0.2 </boundaryPoint>)";
   "(<boundaryPoint> X-3.0471 Y7.3564 Z0.2 </boundaryPoint>)";
   "(<boundaryPoint> X-1.5534 Y7.8095 Z0.2 </boundaryPoint>)";
   "(<boundaryPoint> X0.0 Y7.9625 Z0.2 </boundaryPoint>)";
   "(<boundaryPoint> X1.5534 Y7.8095 Z0.2 </boundaryPoint>)";
   "(<boundaryPoint> X3.0471 Y7.3564 Z0.2 </boundaryPoint>)";
   "(<boundaryPoint> X4.4237 Y6.6206 Z0.2 </boundaryPoint>)";
   "(<boundaryPoint> X5.6303 Y5.6303 Z0.2 </boundaryPoint>)";
   "(<boundaryPoint> X6.6206 Y4.4237 Z0.2 </boundaryPoint>)";
   "(<boundaryPoint> X7.3564 Y3.0471 Z0.2 </boundaryPoint>)";
   "(<edge> inner ); stretch-loop-start stretch-inner-edge-start";
   "G1 X-6.3789 Y-5.3174 Z0.2000 F960.0000";
   "M101; stretch-extrusion-on";
   "G1 X-6.9513 Y-4.6475 Z0.2000 F384.0000";
   "G1 X-7.7131 Y-3.1949 Z0.2000 F384.0000";
   "G1 X-8.1882 Y-1.6289 Z0.2000 F384.0000";
   "G1 X-8.3486 Y-0.0001 Z0.2000 F384.0000";
   "G1 X-8.1883 Y1.6286 Z0.2000 F384.0000";
   "G1 X-7.7132 Y3.1947 Z0.2000 F384.0000";
   "G1 X-6.9418 Y4.6382 Z0.2000 F384.0000";
   "G1 X-5.9034 Y5.9033 Z0.2000 F384.0000";
   "G1 X-4.6383 Y6.9416 Z0.2000 F384.0000";
   "G1 X-3.1949 Y7.7131 Z0.2000 F384.0000";
   "G1 X-1.6289 Y8.1882 Z0.2000 F384.0000";
   "G1 X-0.0001 Y8.3486 Z0.2000 F384.0000";
   "G1 X1.6286 Y8.1883 Z0.2000 F384.0000";
   "G1 X3.1947 Y7.7132 Z0.2000 F384.0000";
   "G1 X4.6382 Y6.9418 Z0.2000 F384.0000";
   "G1 X5.9033 Y5.9034 Z0.2000 F384.0000";
   "G1 X6.9416 Y4.6383 Z0.2000 F384.0000";
   "G1 X7.7131 Y3.1949 Z0.2000 F384.0000";
   "G1 X8.1882 Y1.6289 Z0.2000 F384.0000";
   "G1 X8.3486 Y0.0001 Z0.2000 F384.0000";
   "G1 X8.1883 Y-1.6286 Z0.2000 F384.0000";
   "G1 X7.7132 Y-3.1947 Z0.2000 F384.0000";
   "G1 X6.9418 Y-4.6382 Z0.2000 F384.0000";
   "G1 X5.9034 Y-5.9033 Z0.2000 F384.0000";
   "G1 X4.6383 Y-6.9416 Z0.2000 F384.0000";
   "G1 X3.1949 Y-7.7131 Z0.2000 F384.0000";
   "G1 X1.6289 Y-8.1882 Z0.2000 F384.0000";
   "G1 X0.0001 Y-8.3486 Z0.2000 F384.0000";
   "G1 X-1.6286 Y-8.1883 Z0.2000 F384.0000";
   "G1 X-3.1947 Y-7.7132 Z0.2000 F384.0000";
   "G1 X-4.6382 Y-6.9418 Z0.2000 F384.0000";
   "G1 X-5.9220 Y-5.8799 Z0.2000 F384.0000";
   "M103; stretch-extrusion-off";
   "(</edge>); stretch-loop-stop";
   "(</boundaryPerimeter>)";
   "(</nestedRing>)";
   "(<loop> inner ); stretch-loop-start";
   "G1 X-6.8357 Y-5.7784 Z0.2000 F960.0000";
   "M101; stretch-extrusion-on";
   "G1 X-7.4819 Y-5.0001 Z0.2000 F384.0000";
   "G1 X-8.3100 Y-3.4422 Z0.2000 F384.0000";
   "G1 X-8.8219 Y-1.7549 Z0.2000 F384.0000";
   "G1 X-8.9947 Y-0.0001 Z0.2000 F384.0000";
   "G1 X-8.8219 Y1.7548 Z0.2000 F384.0000";
   "G1 X-8.3101 Y3.4420 Z0.2000 F384.0000";
   "G1 X-7.4789 Y4.9971 Z0.2000 F384.0000";
   "G1 X-6.3602 Y6.3601 Z0.2000 F384.0000";
   "G1 X-4.9972 Y7.4789 Z0.2000 F384.0000";
   "G1 X-3.4422 Y8.3100 Z0.2000 F384.0000";
   "G1 X-1.7549 Y8.8219 Z0.2000 F384.0000";
   "G1 X-0.0001 Y8.9947 Z0.2000 F384.0000";
   "G1 X1.7548 Y8.8219 Z0.2000 F384.0000";
   "G1 X3.4420 Y8.3101 Z0.2000 F384.0000";
   "G1 X4.9971 Y7.4789 Z0.2000 F384.0000";
   "G1 X6.3601 Y6.3602 Z0.2000 F384.0000";
   "G1 X7.4789 Y4.9972 Z0.2000 F384.0000";
   "G1 X8.3100 Y3.4422 Z0.2000 F384.0000";
   "G1 X8.8219 Y1.7549 Z0.2000 F384.0000";
   "G1 X8.9947 Y0.0001 Z0.2000 F384.0000";
   "G1 X8.8219 Y-1.7548 Z0.2000 F384.0000";
   "G1 X8.3101 Y-3.4420 Z0.2000 F384.0000";
   "G1 X7.4789 Y-4.9971 Z0.2000 F384.0000";
   "G1 X6.3602 Y-6.3601 Z0.2000 F384.0000";
   "G1 X4.9972 Y-7.4789 Z0.2000 F384.0000";
   "G1 X3.4422 Y-8.3100 Z0.2000 F384.0000";
   "G1 X1.7549 Y-8.8219 Z0.2000 F384.0000";
   "G1 X0.0001 Y-8.9947 Z0.2000 F384.0000";
   "G1 X-1.7548 Y-8.8219 Z0.2000 F384.0000";
   "G1 X-3.4420 Y-8.3101 Z0.2000 F384.0000";
   "G1 X-4.9971 Y-7.4789 Z0.2000 F384.0000";
   "G1 X-6.3791 Y-6.3370 Z0.2000 F384.0000";
   "M103; stretch-extrusion-off";
   "(</loop>); stretch-loop-stop";
   "(<loop> outer ); stretch-loop-start";
   "G1 X-7.6769 Y-8.7331 Z0.2000 F960.0000";
   "M101; stretch-extrusion-on";
   "G1 X-6.4899 Y-9.7121 Z0.2000 F384.0000";
   "G1 X-4.4696 Y-10.7898 Z0.2000 F384.0000";
   "G1 X-2.2788 Y-11.4544 Z0.2000 F384.0000";
   "G1 X-0.0002 Y-11.6788 Z0.2000 F384.0000";
   "G1 X2.2783 Y-11.4545 Z0.2000 F384.0000";
   "G1 X4.4691 Y-10.7900 Z0.2000 F384.0000";
   "G1 X6.4882 Y-9.7107 Z0.2000 F384.0000";
   "G1 X8.2581 Y-8.2584 Z0.2000 F384.0000";
   "G1 X9.7105 Y-6.4886 Z0.2000 F384.0000";
   "G1 X10.7898 Y-4.4696 Z0.2000 F384.0000";
   "G1 X11.4544 Y-2.2788 Z0.2000 F384.0000";
   "G1 X11.6788 Y-0.0002 Z0.2000 F384.0000";
   "G1 X11.4545 Y2.2783 Z0.2000 F384.0000";
   "G1 X10.7900 Y4.4691 Z0.2000 F384.0000";
   "G1 X9.7107 Y6.4882 Z0.2000 F384.0000";
   "G1 X8.2584 Y8.2581 Z0.2000 F384.0000";
   "G1 X6.4886 Y9.7105 Z0.2000 F384.0000";
   "G1 X4.4696 Y10.7898 Z0.2000 F384.0000";
   "G1 X2.2788 Y11.4544 Z0.2000 F384.0000";
   "G1 X0.0002 Y11.6788 Z0.2000 F384.0000";
   "G1 X-2.2783 Y11.4545 Z0.2000 F384.0000";
   "G1 X-4.4691 Y10.7900 Z0.2000 F384.0000";
   "G1 X-6.4882 Y9.7107 Z0.2000 F384.0000";
   "G1 X-8.2581 Y8.2584 Z0.2000 F384.0000";
   "G1 X-9.7105 Y6.4886 Z0.2000 F384.0000";
   "G1 X-10.7898 Y4.4696 Z0.2000 F384.0000";
   "G1 X-11.4544 Y2.2788 Z0.2000 F384.0000";
   "G1 X-11.6788 Y0.0002 Z0.2000 F384.0000";
   "G1 X-11.4545 Y-2.2783 Z0.2000 F384.0000";
   "G1 X-10.7900 Y-4.4691 Z0.2000 F384.0000";
   "G1 X-9.7107 Y-6.4881 Z0.2000 F384.0000";
   "G1 X-8.2352 Y-8.2771 Z0.2000 F384.0000";
   "M103; stretch-extrusion-off";
   "(</loop>); stretch-loop-stop";
   "(<infill>)";
   "(<infillBoundary>)";
   "(<infillPoint> X10.7864 Y4.4679 Z0.2 </infillPoint>)";
   "(<infillPoint> X9.7075 Y6.4863 Z0.2 </infillPoint>)";
   "(<infillPoint> X8.2556 Y8.2556 Z0.2 </infillPoint>)";
   "(<infillPoint> X6.4863 Y9.7075 Z0.2 </infillPoint>)";
   "(<infillPoint> X4.4679 Y10.7864 Z0.2 </infillPoint>)";
   "(<infillPoint> X2.2778 Y11.4508 Z0.2 </infillPoint>)";
   "(<infillPoint> X0.0 Y11.6751 Z0.2 </infillPoint>)";
   "(<infillPoint> X-2.2778 Y11.4508 Z0.2 </infillPoint>)";
   "(<infillPoint> X-4.4679 Y10.7864 Z0.2 </infillPoint>)";
   "(<infillPoint> X-6.4863 Y9.7075 Z0.2 </infillPoint>)";
   "(<infillPoint> X-8.2556 Y8.2556 Z0.2 </infillPoint>)";
   "(<infillPoint> X-9.7075 Y6.4863 Z0.2 </infillPoint>)";
   "(<infillPoint> X-10.7864 Y4.4679 Z0.2 </infillPoint>)";
   "(<infillPoint> X-11.4508 Y2.2778 Z0.2 </infillPoint>)";
   "(<infillPoint> X-11.6751 Y0.0 Z0.2 </infillPoint>)";
   "(<infillPoint> X-11.4508 Y-2.2778 Z0.2 </infillPoint>)";
   "(<infillPoint> X-10.7864 Y-4.4679 Z0.2 </infillPoint>)";
   "(<infillPoint> X-9.7075 Y-6.4863 Z0.2 </infillPoint>)";
   "(<infillPoint> X-8.2556 Y-8.2556 Z0.2 </infillPoint>)";
   "(<infillPoint> X-6.4863 Y-9.7075 Z0.2 </infillPoint>)";
   "(<infillPoint> X-4.4679 Y-10.7864 Z0.2 </infillPoint>)";
   "(<infillPoint> X-2.2778 Y-11.4508 Z0.2 </infillPoint>)";
   "(<infillPoint> X0.0 Y-11.6751 Z0.2 </infillPoint>)";
   "(<infillPoint> X2.2778 Y-11.4508 Z0.2 </infillPoint>)";
   "(<infillPoint> X4.4679 Y-10.7864 Z0.2 </infillPoint>)";
   "(<infillPoint> X6.4863 Y-9.7075 Z0.2 </infillPoint>)";
   "(<infillPoint> X8.2556 Y-8.2556 Z0.2 </infillPoint>)";
   "(<infillPoint> X9.7075 Y-6.4863 Z0.2 </infillPoint>)";
   "(<infillPoint> X10.7864 Y-4.4679 Z0.2 </infillPoint>)";
   "(<infillPoint> X11.4508 Y-2.2778 Z0.2 </infillPoint>)";
   "(<infillPoint> X11.6751 Y0.0 Z0.2 </infillPoint>)";
   "(<infillPoint> X11.4508 Y2.2778 Z0.2 </infillPoint>)";
   "(</infillBoundary>)";
   "(<infillBoundary>)";
   "(<infillPoint> X8.8147 Y1.7534 Z0.2 </infillPoint>)";
   "(<infillPoint> X8.9874 Y0.0 Z0.2 </infillPoint>)";
   "(<infillPoint> X8.8147 Y-1.7534 Z0.2 </infillPoint>)";
   "(<infillPoint> X8.3033 Y-3.4393 Z0.2 </infillPoint>)";
   "(<infillPoint> X7.4728 Y-4.9931 Z0.2 </infillPoint>)";
   "(<infillPoint> X6.355 Y-6.355 Z0.2 </infillPoint>)";
   "(<infillPoint> X4.9931 Y-7.4728 Z0.2 </infillPoint>)";
   "(<infillPoint> X3.4393 Y-8.3033 Z0.2 </infillPoint>)";
   "(<infillPoint> X1.7534 Y-8.8147 Z0.2 </infillPoint>)";
   "(<infillPoint> X0.0 Y-8.9874 Z0.2 </infillPoint>)";
   "(<infillPoint> X-1.7534 Y-8.8147 Z0.2 </infillPoint>)";
   "(<infillPoint> X-3.4393 Y-8.3033 Z0.2 </infillPoint>)";
   "(<infillPoint> X-4.9931 Y-7.4728 Z0.2 </infillPoint>)";
   "(<infillPoint> X-6.355 Y-6.355 Z0.2 </infillPoint>)";
   "(<infillPoint> X-7.4728 Y-4.9931 Z0.2 </infillPoint>)";
   "(<infillPoint> X-8.3033 Y-3.4393 Z0.2 </infillPoint>)";
   "(<infillPoint> X-8.8147 Y-1.7534 Z0.2 </infillPoint>)";
   "(<infillPoint> X-8.9874 Y0.0 Z0.2 </infillPoint>)";
   "(<infillPoint> X-8.8147 Y1.7534 Z0.2 </infillPoint>)";
   "(<infillPoint> X-8.3033 Y3.4393 Z0.2 </infillPoint>)";
   "(<infillPoint> X-7.4728 Y4.9931 Z0.2 </infillPoint>)";
   "(<infillPoint> X-6.355 Y6.355 Z0.2 </infillPoint>)";
   "(<infillPoint> X-4.9931 Y7.4728 Z0.2 </infillPoint>)";
   "(<infillPoint> X-3.4393 Y8.3033 Z0.2 </infillPoint>)";
   "(<infillPoint> X-1.7534 Y8.8147 Z0.2 </infillPoint>)";
   "(<infillPoint> X0.0 Y8.9874 Z0.2 </infillPoint>)";
   "(<infillPoint> X1.7534 Y8.8147 Z0.2 </infillPoint>)";
   "(<infillPoint> X3.4393 Y8.3033 Z0.2 </infillPoint>)";
   "(<infillPoint> X4.9931 Y7.4728 Z0.2 </infillPoint>)";
   "(<infillPoint> X6.355 Y6.355 Z0.2 </infillPoint>)";
   "(<infillPoint> X7.4728 Y4.9931 Z0.2 </infillPoint>)";
   "(<infillPoint> X8.3033 Y3.4393 Z0.2 </infillPoint>)";
   "(</infillBoundary>)";
   "G1 X-7.8932 Y-7.8932 Z0.2 F960.0";
   "M101; stretch-extrusion-on";
   "G1 X-6.7174 Y-6.7174 Z0.2 F384.0";
   "G1 X-7.0999 Y-6.2514 Z0.2 F384.0";
   "G1 X-8.2757 Y-7.4271 Z0.2 F384.0";
   "G1 X-8.6581 Y-6.9611 Z0.2 F384.0";
   "G1 X-7.4824 Y-5.7853 Z0.2 F384.0";
   "G1 X-7.8649 Y-5.3193 Z0.2 F384.0";
   "G1 X-9.0406 Y-6.495 Z0.2 F384.0";
   "G1 X-9.3909 Y-5.9968 Z0.2 F384.0";
   "G1 X-8.1682 Y-4.7741 Z0.2 F384.0";
   "G1 X-8.4637 Y-4.2211 Z0.2 F384.0";
   "G1 X-9.6864 Y-5.4438 Z0.2 F384.0";
   "G1 X-9.982 Y-4.8908 Z0.2 F384.0";
   "G1 X-8.7593 Y-3.6681 Z0.2 F384.0";
   "G1 X-8.9626 Y-3.0229 Z0.2 F384.0";
   "G1 X-10.2776 Y-4.3379 Z0.2 F384.0";
   "G1 X-10.4868 Y-3.6986 Z0.2 F384.0";
   "G1 X-9.1601 Y-2.3718 Z0.2 F384.0";
   "G1 X-9.3328 Y-1.6961 Z0.2 F384.0";
   "G1 X-10.6843 Y-3.0475 Z0.2 F384.0";
   "G1 X-10.8818 Y-2.3965 Z0.2 F384.0";
   "G1 X-9.4089 Y-0.9236 Z0.2 F384.0";
   "G1 X-9.485 Y-0.1512 Z0.2 F384.0";
   "G1 X-10.9986 Y-1.6648 Z0.2 F384.0";
   "G1 X-11.0747 Y-0.8924 Z0.2 F384.0";
   "G1 X-9.4253 Y0.757 Z0.2 F384.0";
   "G1 X-9.3326 Y1.6982 Z0.2 F384.0";
   "G1 X-11.1508 Y-0.1199 Z0.2 F384.0";
   "G1 X-11.0843 Y0.7951 Z0.2 F384.0";
   "G1 X-9.0088 Y2.8706 Z0.2 F384.0";
   "G1 X-8.4143 Y4.3137 Z0.2 F384.0";
   "G1 X-10.9916 Y1.7363 Z0.2 F384.0";
   "G1 X-10.752 Y2.8245 Z0.2 F384.0";
   "G1 X-2.8245 Y10.752 Z0.2 F384.0";
   "G1 X-1.7363 Y10.9916 Z0.2 F384.0";
   "G1 X-4.3137 Y8.4143 Z0.2 F384.0";
   "M103; stretch-extrusion-off";
   "G1 X-2.8706 Y9.0088 Z0.2 F960.0";
   "M101; stretch-extrusion-on";
   "G1 X-0.7951 Y11.0843 Z0.2 F384.0";
   "G1 X0.1199 Y11.1508 Z0.2 F384.0";
   "G1 X-1.6982 Y9.3326 Z0.2 F384.0";
   "G1 X-0.757 Y9.4253 Z0.2 F384.0";
   "G1 X0.8924 Y11.0747 Z0.2 F384.0";
   "G1 X1.6648 Y10.9986 Z0.2 F384.0";
   "G1 X0.1512 Y9.485 Z0.2 F384.0";
   "G1 X0.9236 Y9.4089 Z0.2 F384.0";
   "G1 X2.3965 Y10.8818 Z0.2 F384.0";
   "G1 X3.0475 Y10.6843 Z0.2 F384.0";
   "G1 X1.6961 Y9.3328 Z0.2 F384.0";
   "G1 X2.3718 Y9.1601 Z0.2 F384.0";
   "G1 X3.6986 Y10.4868 Z0.2 F384.0";
   "G1 X4.3379 Y10.2776 Z0.2 F384.0";
   "G1 X3.0229 Y8.9626 Z0.2 F384.0";
   "G1 X3.6681 Y8.7593 Z0.2 F384.0";
   "G1 X4.8908 Y9.982 Z0.2 F384.0";
   "G1 X5.4438 Y9.6864 Z0.2 F384.0";
   "G1 X4.2211 Y8.4637 Z0.2 F384.0";
   "G1 X4.7741 Y8.1682 Z0.2 F384.0";
   "G1 X5.9968 Y9.3909 Z0.2 F384.0";
   "G1 X6.495 Y9.0406 Z0.2 F384.0";
   "G1 X5.3193 Y7.8649 Z0.2 F384.0";
   "G1 X5.7853 Y7.4824 Z0.2 F384.0";
   "G1 X6.9611 Y8.6581 Z0.2 F384.0";
   "G1 X7.4271 Y8.2757 Z0.2 F384.0";
   "G1 X6.2514 Y7.0999 Z0.2 F384.0";
   "G1 X6.7174 Y6.7174 Z0.2 F384.0";
   "G1 X7.8932 Y7.8932 Z0.2 F384.0";
   "G1 X8.2757 Y7.4271 Z0.2 F384.0";
   "G1 X7.0999 Y6.2514 Z0.2 F384.0";
   "G1 X7.4824 Y5.7853 Z0.2 F384.0";
   "G1 X8.6581 Y6.9611 Z0.2 F384.0";
   "G1 X9.0406 Y6.495 Z0.2 F384.0";
   "G1 X7.8649 Y5.3193 Z0.2 F384.0";
   "G1 X8.1682 Y4.7741 Z0.2 F384.0";
   "G1 X9.3909 Y5.9968 Z0.2 F384.0";
   "G1 X9.6864 Y5.4438 Z0.2 F384.0";
   "G1 X8.4637 Y4.2211 Z0.2 F384.0";
   "G1 X8.7593 Y3.6681 Z0.2 F384.0";
   "G1 X9.982 Y4.8908 Z0.2 F384.0";
   "G1 X10.2776 Y4.3379 Z0.2 F384.0";
   "G1 X8.9626 Y3.0229 Z0.2 F384.0";
   "G1 X9.1601 Y2.3718 Z0.2 F384.0";
   "G1 X10.4868 Y3.6986 Z0.2 F384.0";
   "G1 X10.6843 Y3.0475 Z0.2 F384.0";
   "G1 X9.3328 Y1.6961 Z0.2 F384.0";
   "G1 X9.4089 Y0.9236 Z0.2 F384.0";
   "G1 X10.8818 Y2.3965 Z0.2 F384.0";
   "G1 X10.9986 Y1.6648 Z0.2 F384.0";
   "G1 X9.485 Y0.1512 Z0.2 F384.0";
   "G1 X9.4253 Y-0.757 Z0.2 F384.0";
   "G1 X11.0747 Y0.8924 Z0.2 F384.0";
   "G1 X11.1508 Y0.1199 Z0.2 F384.0";
   "G1 X9.3326 Y-1.6982 Z0.2 F384.0";
   "G1 X9.0088 Y-2.8706 Z0.2 F384.0";
   "G1 X11.0843 Y-0.7951 Z0.2 F384.0";
   "G1 X10.9916 Y-1.7363 Z0.2 F384.0";
   "G1 X8.4143 Y-4.3137 Z0.2 F384.0";
   "M103; stretch-extrusion-off";
   "G1 X9.5219 Y-5.7516 Z0.2 F960.0";
   "M101; stretch-extrusion-on";
   "G1 X5.7516 Y-9.5219 Z0.2 F384.0";
   "G1 X4.0425 Y-10.3825 Z0.2 F384.0";
   "G1 X10.3825 Y-4.0425 Z0.2 F384.0";
   "G1 X10.752 Y-2.8245 Z0.2 F384.0";
   "G1 X2.8245 Y-10.752 Z0.2 F384.0";
   "G1 X1.7363 Y-10.9916 Z0.2 F384.0";
   "G1 X4.3137 Y-8.4143 Z0.2 F384.0";
   "M103; stretch-extrusion-off";
   "G1 X2.8706 Y-9.0088 Z0.2 F960.0";
   "M101; stretch-extrusion-on";
   "G1 X0.7951 Y-11.0843 Z0.2 F384.0";
   "G1 X-0.1199 Y-11.1508 Z0.2 F384.0";
   "G1 X1.6982 Y-9.3326 Z0.2 F384.0";
   "G1 X0.757 Y-9.4253 Z0.2 F384.0";
   "G1 X-0.8924 Y-11.0747 Z0.2 F384.0";
   "G1 X-1.6648 Y-10.9986 Z0.2 F384.0";
   "G1 X-0.1512 Y-9.485 Z0.2 F384.0";
   "G1 X-0.9236 Y-9.4089 Z0.2 F384.0";
   "G1 X-2.3965 Y-10.8818 Z0.2 F384.0";
   "G1 X-3.0475 Y-10.6843 Z0.2 F384.0";
   "G1 X-1.6961 Y-9.3328 Z0.2 F384.0";
   "G1 X-2.3718 Y-9.1601 Z0.2 F384.0";
   "G1 X-3.6986 Y-10.4868 Z0.2 F384.0";
   "G1 X-4.3379 Y-10.2776 Z0.2 F384.0";
   "G1 X-3.0229 Y-8.9626 Z0.2 F384.0";
   "G1 X-3.6681 Y-8.7593 Z0.2 F384.0";
   "G1 X-4.8908 Y-9.982 Z0.2 F384.0";
   "G1 X-5.4438 Y-9.6864 Z0.2 F384.0";
   "G1 X-4.2211 Y-8.4637 Z0.2 F384.0";
   "G1 X-4.7741 Y-8.1682 Z0.2 F384.0";
   "G1 X-5.9968 Y-9.3909 Z0.2 F384.0";
   "G1 X-6.495 Y-9.0406 Z0.2 F384.0";
   "G1 X-5.3193 Y-7.8649 Z0.2 F384.0";
   "G1 X-5.7853 Y-7.4824 Z0.2 F384.0";
   "G1 X-6.9611 Y-8.6581 Z0.2 F384.0";
   "G1 X-7.4271 Y-8.2757 Z0.2 F384.0";
   "G1 X-6.2514 Y-7.0999 Z0.2 F384.0";
   "M103; stretch-extrusion-off";
   "G1 X-10.3825 Y4.0425 Z0.2 F960.0";
   "M101; stretch-extrusion-on";
   "G1 X-4.0425 Y10.3825 Z0.2 F384.0";
   "M103; stretch-extrusion-off";
   "G1 X-5.7516 Y9.5219 Z0.2 F960.0";
   "M101; stretch-extrusion-on";
   "G1 X-9.5219 Y5.7516 Z0.2 F384.0";
   "M103; stretch-extrusion-off";
   "(</infill>)";
   "(</nestedRing>)";
   "(</rotation>)";
   "(</layer>)";
   "M108 S210.0";
   "(<layer> 0.6 )"]%string.

Definition prog (data : list string) : res (gcode B64) := load_gen (A:=B64) false home0 data.

Definition agree (r s : res (gcode B64)) : bool :=
  match r, s with Ok g, Ok h => gcode_eqb g h | _, _ => false end.
Definition through {T} (f : gcode B64 -> res T) (data : list string) : res T :=
  do g <- prog data; f g.

(** test_equality.py 8-24 *)
Example identity : agree (prog simple1) (prog simple1) = true.
Proof. vm_compute. reflexivity. Qed.
Example trivial_difference : agree (prog simple1) (prog simple2) = false.
Proof. vm_compute. reflexivity. Qed.
Example ignore_non_command : agree (prog empty_for_good) (prog empty_skeinforge_format) = true.
Proof. vm_compute. reflexivity. Qed.
Example precision_same : agree (prog simple1) (prog simple1_equivalent) = true.
Proof. vm_compute. reflexivity. Qed.
Example precision_different : agree (prog simple1) (prog simple1_slightly_different) = false.
Proof. vm_compute. reflexivity. Qed.

(** test_modification.py 8-41 *)
Example nop_move :
  agree (prog simple1) (through (translate (Some (lit 0 0)) (Some (lit 0 0))) simple1) = true.
Proof. vm_compute. reflexivity. Qed.
Example trivial_move :
  agree (prog simple2) (through (translate (Some (lit 1 0)) (Some (lit 2 0))) simple1) = true.
Proof. vm_compute. reflexivity. Qed.
Example nop_relative : agree (prog simple1) (through to_relative_extrusion simple1) = true.
Proof. vm_compute. reflexivity. Qed.
Example trivial_relative :
  agree (prog simple3_relative) (through to_relative_extrusion simple3) = true.
Proof. vm_compute. reflexivity. Qed.

(** test_iterator.py 14-38: the words X the forward Skeinforge iterator gives
    from a line of the layer, as texts, until it stops *)
Definition layer1 : list string :=
  [";stretch-extrusion-on"; "G1 X1"; "G1 X2"; "G1 X3"; "G1 X4"; "G1 X5"; ";stretch-extrusion-off"]%string.
Fixpoint given (n : nat) (ls : list (line B64)) (it : iter) : list string :=
  match n with
  | O => ["unfinished"%string]
  | S m =>
      match get_next 100 Skeinforge Forward ls it with
      | Ok (Next l it1) => raw l :: given m ls it1
      | Ok (Stop _) => []
      | Err _ => ["error"%string]
      end
  end.
Definition given_from (i : Z) : list string :=
  match prog layer1 with
  | Ok g => match g_layers g with y :: _ => given 10 (ly_lines y) (new_iter i) | [] => [] end
  | Err _ => ["error"%string]
  end.
Example trivial_iteration :
  map given_from [0; 1; 2; 3; 4; 5]%Z =
  [["G1 X1"; "G1 X2"; "G1 X3"; "G1 X4"; "G1 X5"]; ["G1 X1"; "G1 X2"; "G1 X3"; "G1 X4"; "G1 X5"];
   ["G1 X2"; "G1 X3"; "G1 X4"; "G1 X5"]; ["G1 X3"; "G1 X4"; "G1 X5"]; ["G1 X4"; "G1 X5"]; ["G1 X5"]]%string.
Proof. vm_compute. reflexivity. Qed.

(** test_visitor.py 16-28: the message of [diff] has the pause command in it *)
Definition other_side (d : option diff_result) : string :=
  match d with
  | Some (DiffAt _ _ b) => b
  | Some (DiffSelf b) | Some (DiffOther b) => b
  | None => ""%string
  end.
Example pause_at_layer_1 :
  match prog arc_raw_1, through (pause 3 [1%Z]) arc_raw_1 with
  | Ok g, Ok h => String.eqb (other_side (diff g h)) pause_command
  | _, _ => false
  end = true.
Proof. vm_compute. reflexivity. Qed.

(** test_arc_optimization.py 40-62.  The longest tests are only checked here, not
    kept as theorems: [Check] fails if the two sides differ. *)
Check (@eq_refl bool true <: agree (prog arc_ref_2) (through optimize_arcs arc_raw_2) = true).
Check (@eq_refl bool true <: agree (prog arc_raw_3) (through optimize_arcs arc_raw_3) = true).
Check (@eq_refl bool true <: agree (prog arc_ref_4) (through optimize_arcs arc_raw_4) = true).

(** test_stretch.py: no profile is read by these programs *)
Definition stretched (d : dialect) (data : list string) : res (gcode B64) :=
  through (fun g => do '(h, _) <- stretch (fun _ => Err TypeError) 2000 d default_options g; Ok h) data.

(** test_stretch.py 9-15, the first layer *)
Check (@eq_refl bool true <: agree (prog model1_post) (stretched Skeinforge model1_pre) = true).

(** test_stretch.py 18-39: the squares are stretched and written *)
Definition written (d : dialect) (data : list string) : bool := is_ok (do g <- stretched d data; Ok (write g)).
Example squares :
  (written Skeinforge skeinforge_square && written Slic3r slic3r_square && written Cura cura_square)%bool = true.
Proof. vm_compute. reflexivity. Qed.
