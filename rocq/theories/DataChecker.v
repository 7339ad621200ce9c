(* Colour checker spectra of /repo/src/colorchecker.rs *)
From Coq Require Import List QArith.
Import ListNotations.
Open Scope Q_scope.

(* colorchecker.rs 39-76 *)
Definition data_DARK_SKIN : list (Q * Q) := [
  (380.0, 0.055);
  (390.0, 0.058);
  (400.0, 0.061);
  (410.0, 0.062);
  (420.0, 0.062);
  (430.0, 0.062);
  (440.0, 0.062);
  (450.0, 0.062);
  (460.0, 0.062);
  (470.0, 0.062);
  (480.0, 0.062);
  (490.0, 0.063);
  (500.0, 0.065);
  (510.0, 0.070);
  (520.0, 0.076);
  (530.0, 0.079);
  (540.0, 0.081);
  (550.0, 0.084);
  (560.0, 0.091);
  (570.0, 0.103);
  (580.0, 0.119);
  (590.0, 0.134);
  (600.0, 0.143);
  (610.0, 0.147);
  (620.0, 0.151);
  (630.0, 0.158);
  (640.0, 0.168);
  (650.0, 0.179);
  (660.0, 0.188);
  (670.0, 0.190);
  (680.0, 0.186);
  (690.0, 0.181);
  (700.0, 0.182);
  (710.0, 0.187);
  (720.0, 0.196);
  (730.0, 0.209)].

(* colorchecker.rs 1222-1259 *)
Definition data_spectral_dark_skin : list (Q * Q) := [
  (380.000000, 0.055000);
  (390.000000, 0.058000);
  (400.000000, 0.061000);
  (410.000000, 0.062000);
  (420.000000, 0.062000);
  (430.000000, 0.062000);
  (440.000000, 0.062000);
  (450.000000, 0.062000);
  (460.000000, 0.062000);
  (470.000000, 0.062000);
  (480.000000, 0.062000);
  (490.000000, 0.063000);
  (500.000000, 0.065000);
  (510.000000, 0.070000);
  (520.000000, 0.076000);
  (530.000000, 0.079000);
  (540.000000, 0.081000);
  (550.000000, 0.084000);
  (560.000000, 0.091000);
  (570.000000, 0.103000);
  (580.000000, 0.119000);
  (590.000000, 0.134000);
  (600.000000, 0.143000);
  (610.000000, 0.147000);
  (620.000000, 0.151000);
  (630.000000, 0.158000);
  (640.000000, 0.168000);
  (650.000000, 0.179000);
  (660.000000, 0.188000);
  (670.000000, 0.190000);
  (680.000000, 0.186000);
  (690.000000, 0.181000);
  (700.000000, 0.182000);
  (710.000000, 0.187000);
  (720.000000, 0.196000);
  (730.000000, 0.209000)].

(* colorchecker.rs 1260-1297 *)
Definition data_spectral_light_skin : list (Q * Q) := [
  (380.000000, 0.117000);
  (390.000000, 0.143000);
  (400.000000, 0.175000);
  (410.000000, 0.191000);
  (420.000000, 0.196000);
  (430.000000, 0.199000);
  (440.000000, 0.204000);
  (450.000000, 0.213000);
  (460.000000, 0.228000);
  (470.000000, 0.251000);
  (480.000000, 0.280000);
  (490.000000, 0.309000);
  (500.000000, 0.329000);
  (510.000000, 0.333000);
  (520.000000, 0.315000);
  (530.000000, 0.286000);
  (540.000000, 0.273000);
  (550.000000, 0.276000);
  (560.000000, 0.277000);
  (570.000000, 0.289000);
  (580.000000, 0.339000);
  (590.000000, 0.420000);
  (600.000000, 0.488000);
  (610.000000, 0.525000);
  (620.000000, 0.546000);
  (630.000000, 0.562000);
  (640.000000, 0.578000);
  (650.000000, 0.595000);
  (660.000000, 0.612000);
  (670.000000, 0.625000);
  (680.000000, 0.638000);
  (690.000000, 0.656000);
  (700.000000, 0.678000);
  (710.000000, 0.700000);
  (720.000000, 0.717000);
  (730.000000, 0.734000)].

(* colorchecker.rs 1298-1335 *)
Definition data_spectral_blue_sky : list (Q * Q) := [
  (380.000000, 0.130000);
  (390.000000, 0.177000);
  (400.000000, 0.251000);
  (410.000000, 0.306000);
  (420.000000, 0.324000);
  (430.000000, 0.330000);
  (440.000000, 0.333000);
  (450.000000, 0.331000);
  (460.000000, 0.323000);
  (470.000000, 0.311000);
  (480.000000, 0.298000);
  (490.000000, 0.285000);
  (500.000000, 0.269000);
  (510.000000, 0.250000);
  (520.000000, 0.231000);
  (530.000000, 0.214000);
  (540.000000, 0.199000);
  (550.000000, 0.185000);
  (560.000000, 0.169000);
  (570.000000, 0.157000);
  (580.000000, 0.149000);
  (590.000000, 0.145000);
  (600.000000, 0.142000);
  (610.000000, 0.141000);
  (620.000000, 0.141000);
  (630.000000, 0.141000);
  (640.000000, 0.143000);
  (650.000000, 0.147000);
  (660.000000, 0.152000);
  (670.000000, 0.154000);
  (680.000000, 0.150000);
  (690.000000, 0.144000);
  (700.000000, 0.136000);
  (710.000000, 0.132000);
  (720.000000, 0.135000);
  (730.000000, 0.147000)].

(* colorchecker.rs 1336-1373 *)
Definition data_spectral_foliage : list (Q * Q) := [
  (380.000000, 0.051000);
  (390.000000, 0.054000);
  (400.000000, 0.056000);
  (410.000000, 0.057000);
  (420.000000, 0.058000);
  (430.000000, 0.059000);
  (440.000000, 0.060000);
  (450.000000, 0.061000);
  (460.000000, 0.062000);
  (470.000000, 0.063000);
  (480.000000, 0.065000);
  (490.000000, 0.067000);
  (500.000000, 0.075000);
  (510.000000, 0.101000);
  (520.000000, 0.145000);
  (530.000000, 0.178000);
  (540.000000, 0.184000);
  (550.000000, 0.170000);
  (560.000000, 0.149000);
  (570.000000, 0.133000);
  (580.000000, 0.122000);
  (590.000000, 0.115000);
  (600.000000, 0.109000);
  (610.000000, 0.105000);
  (620.000000, 0.104000);
  (630.000000, 0.106000);
  (640.000000, 0.109000);
  (650.000000, 0.112000);
  (660.000000, 0.114000);
  (670.000000, 0.114000);
  (680.000000, 0.112000);
  (690.000000, 0.112000);
  (700.000000, 0.115000);
  (710.000000, 0.120000);
  (720.000000, 0.125000);
  (730.000000, 0.130000)].

(* colorchecker.rs 1374-1411 *)
Definition data_spectral_blue_flower : list (Q * Q) := [
  (380.000000, 0.144000);
  (390.000000, 0.198000);
  (400.000000, 0.294000);
  (410.000000, 0.375000);
  (420.000000, 0.408000);
  (430.000000, 0.421000);
  (440.000000, 0.426000);
  (450.000000, 0.426000);
  (460.000000, 0.419000);
  (470.000000, 0.403000);
  (480.000000, 0.379000);
  (490.000000, 0.346000);
  (500.000000, 0.311000);
  (510.000000, 0.281000);
  (520.000000, 0.254000);
  (530.000000, 0.229000);
  (540.000000, 0.214000);
  (550.000000, 0.208000);
  (560.000000, 0.202000);
  (570.000000, 0.194000);
  (580.000000, 0.193000);
  (590.000000, 0.200000);
  (600.000000, 0.214000);
  (610.000000, 0.230000);
  (620.000000, 0.241000);
  (630.000000, 0.254000);
  (640.000000, 0.279000);
  (650.000000, 0.313000);
  (660.000000, 0.348000);
  (670.000000, 0.366000);
  (680.000000, 0.366000);
  (690.000000, 0.359000);
  (700.000000, 0.358000);
  (710.000000, 0.365000);
  (720.000000, 0.377000);
  (730.000000, 0.398000)].

(* colorchecker.rs 1412-1449 *)
Definition data_spectral_bluish_green : list (Q * Q) := [
  (380.000000, 0.136000);
  (390.000000, 0.179000);
  (400.000000, 0.247000);
  (410.000000, 0.297000);
  (420.000000, 0.320000);
  (430.000000, 0.337000);
  (440.000000, 0.355000);
  (450.000000, 0.381000);
  (460.000000, 0.419000);
  (470.000000, 0.466000);
  (480.000000, 0.510000);
  (490.000000, 0.546000);
  (500.000000, 0.567000);
  (510.000000, 0.574000);
  (520.000000, 0.569000);
  (530.000000, 0.551000);
  (540.000000, 0.524000);
  (550.000000, 0.488000);
  (560.000000, 0.445000);
  (570.000000, 0.400000);
  (580.000000, 0.350000);
  (590.000000, 0.299000);
  (600.000000, 0.252000);
  (610.000000, 0.221000);
  (620.000000, 0.204000);
  (630.000000, 0.196000);
  (640.000000, 0.191000);
  (650.000000, 0.188000);
  (660.000000, 0.191000);
  (670.000000, 0.199000);
  (680.000000, 0.212000);
  (690.000000, 0.223000);
  (700.000000, 0.232000);
  (710.000000, 0.233000);
  (720.000000, 0.229000);
  (730.000000, 0.229000)].

(* colorchecker.rs 1450-1487 *)
Definition data_spectral_orange : list (Q * Q) := [
  (380.000000, 0.054000);
  (390.000000, 0.054000);
  (400.000000, 0.053000);
  (410.000000, 0.054000);
  (420.000000, 0.054000);
  (430.000000, 0.055000);
  (440.000000, 0.055000);
  (450.000000, 0.055000);
  (460.000000, 0.056000);
  (470.000000, 0.057000);
  (480.000000, 0.058000);
  (490.000000, 0.061000);
  (500.000000, 0.068000);
  (510.000000, 0.089000);
  (520.000000, 0.125000);
  (530.000000, 0.154000);
  (540.000000, 0.174000);
  (550.000000, 0.199000);
  (560.000000, 0.248000);
  (570.000000, 0.335000);
  (580.000000, 0.444000);
  (590.000000, 0.538000);
  (600.000000, 0.587000);
  (610.000000, 0.595000);
  (620.000000, 0.591000);
  (630.000000, 0.587000);
  (640.000000, 0.584000);
  (650.000000, 0.584000);
  (660.000000, 0.590000);
  (670.000000, 0.603000);
  (680.000000, 0.620000);
  (690.000000, 0.639000);
  (700.000000, 0.655000);
  (710.000000, 0.663000);
  (720.000000, 0.663000);
  (730.000000, 0.667000)].

(* colorchecker.rs 1488-1525 *)
Definition data_spectral_purplish_blue : list (Q * Q) := [
  (380.000000, 0.122000);
  (390.000000, 0.164000);
  (400.000000, 0.229000);
  (410.000000, 0.286000);
  (420.000000, 0.327000);
  (430.000000, 0.361000);
  (440.000000, 0.388000);
  (450.000000, 0.400000);
  (460.000000, 0.392000);
  (470.000000, 0.362000);
  (480.000000, 0.316000);
  (490.000000, 0.260000);
  (500.000000, 0.209000);
  (510.000000, 0.168000);
  (520.000000, 0.138000);
  (530.000000, 0.117000);
  (540.000000, 0.104000);
  (550.000000, 0.096000);
  (560.000000, 0.090000);
  (570.000000, 0.086000);
  (580.000000, 0.084000);
  (590.000000, 0.084000);
  (600.000000, 0.084000);
  (610.000000, 0.084000);
  (620.000000, 0.084000);
  (630.000000, 0.085000);
  (640.000000, 0.090000);
  (650.000000, 0.098000);
  (660.000000, 0.109000);
  (670.000000, 0.123000);
  (680.000000, 0.143000);
  (690.000000, 0.169000);
  (700.000000, 0.205000);
  (710.000000, 0.244000);
  (720.000000, 0.287000);
  (730.000000, 0.332000)].

(* colorchecker.rs 1526-1563 *)
Definition data_spectral_moderate_red : list (Q * Q) := [
  (380.000000, 0.096000);
  (390.000000, 0.115000);
  (400.000000, 0.131000);
  (410.000000, 0.135000);
  (420.000000, 0.133000);
  (430.000000, 0.132000);
  (440.000000, 0.130000);
  (450.000000, 0.128000);
  (460.000000, 0.125000);
  (470.000000, 0.120000);
  (480.000000, 0.115000);
  (490.000000, 0.110000);
  (500.000000, 0.105000);
  (510.000000, 0.100000);
  (520.000000, 0.095000);
  (530.000000, 0.093000);
  (540.000000, 0.092000);
  (550.000000, 0.093000);
  (560.000000, 0.096000);
  (570.000000, 0.108000);
  (580.000000, 0.156000);
  (590.000000, 0.265000);
  (600.000000, 0.399000);
  (610.000000, 0.500000);
  (620.000000, 0.556000);
  (630.000000, 0.579000);
  (640.000000, 0.588000);
  (650.000000, 0.591000);
  (660.000000, 0.593000);
  (670.000000, 0.594000);
  (680.000000, 0.598000);
  (690.000000, 0.602000);
  (700.000000, 0.607000);
  (710.000000, 0.609000);
  (720.000000, 0.609000);
  (730.000000, 0.610000)].

(* colorchecker.rs 1564-1601 *)
Definition data_spectral_purple : list (Q * Q) := [
  (380.000000, 0.092000);
  (390.000000, 0.116000);
  (400.000000, 0.146000);
  (410.000000, 0.169000);
  (420.000000, 0.178000);
  (430.000000, 0.173000);
  (440.000000, 0.158000);
  (450.000000, 0.139000);
  (460.000000, 0.119000);
  (470.000000, 0.101000);
  (480.000000, 0.087000);
  (490.000000, 0.075000);
  (500.000000, 0.066000);
  (510.000000, 0.060000);
  (520.000000, 0.056000);
  (530.000000, 0.053000);
  (540.000000, 0.051000);
  (550.000000, 0.051000);
  (560.000000, 0.052000);
  (570.000000, 0.052000);
  (580.000000, 0.051000);
  (590.000000, 0.052000);
  (600.000000, 0.058000);
  (610.000000, 0.073000);
  (620.000000, 0.096000);
  (630.000000, 0.119000);
  (640.000000, 0.141000);
  (650.000000, 0.166000);
  (660.000000, 0.194000);
  (670.000000, 0.227000);
  (680.000000, 0.265000);
  (690.000000, 0.309000);
  (700.000000, 0.355000);
  (710.000000, 0.396000);
  (720.000000, 0.436000);
  (730.000000, 0.478000)].

(* colorchecker.rs 1602-1639 *)
Definition data_spectral_yellow_green : list (Q * Q) := [
  (380.000000, 0.061000);
  (390.000000, 0.061000);
  (400.000000, 0.062000);
  (410.000000, 0.063000);
  (420.000000, 0.064000);
  (430.000000, 0.066000);
  (440.000000, 0.069000);
  (450.000000, 0.075000);
  (460.000000, 0.085000);
  (470.000000, 0.105000);
  (480.000000, 0.139000);
  (490.000000, 0.192000);
  (500.000000, 0.271000);
  (510.000000, 0.376000);
  (520.000000, 0.476000);
  (530.000000, 0.531000);
  (540.000000, 0.549000);
  (550.000000, 0.546000);
  (560.000000, 0.528000);
  (570.000000, 0.504000);
  (580.000000, 0.471000);
  (590.000000, 0.428000);
  (600.000000, 0.381000);
  (610.000000, 0.347000);
  (620.000000, 0.327000);
  (630.000000, 0.318000);
  (640.000000, 0.312000);
  (650.000000, 0.310000);
  (660.000000, 0.314000);
  (670.000000, 0.327000);
  (680.000000, 0.345000);
  (690.000000, 0.363000);
  (700.000000, 0.376000);
  (710.000000, 0.381000);
  (720.000000, 0.378000);
  (730.000000, 0.379000)].

(* colorchecker.rs 1640-1677 *)
Definition data_spectral_orange_yellow : list (Q * Q) := [
  (380.000000, 0.063000);
  (390.000000, 0.063000);
  (400.000000, 0.063000);
  (410.000000, 0.064000);
  (420.000000, 0.064000);
  (430.000000, 0.064000);
  (440.000000, 0.065000);
  (450.000000, 0.066000);
  (460.000000, 0.067000);
  (470.000000, 0.068000);
  (480.000000, 0.071000);
  (490.000000, 0.076000);
  (500.000000, 0.087000);
  (510.000000, 0.125000);
  (520.000000, 0.206000);
  (530.000000, 0.305000);
  (540.000000, 0.383000);
  (550.000000, 0.431000);
  (560.000000, 0.469000);
  (570.000000, 0.518000);
  (580.000000, 0.568000);
  (590.000000, 0.607000);
  (600.000000, 0.628000);
  (610.000000, 0.637000);
  (620.000000, 0.640000);
  (630.000000, 0.642000);
  (640.000000, 0.645000);
  (650.000000, 0.648000);
  (660.000000, 0.651000);
  (670.000000, 0.653000);
  (680.000000, 0.657000);
  (690.000000, 0.664000);
  (700.000000, 0.673000);
  (710.000000, 0.680000);
  (720.000000, 0.684000);
  (730.000000, 0.688000)].

(* colorchecker.rs 1678-1715 *)
Definition data_spectral_blue : list (Q * Q) := [
  (380.000000, 0.066000);
  (390.000000, 0.079000);
  (400.000000, 0.102000);
  (410.000000, 0.146000);
  (420.000000, 0.200000);
  (430.000000, 0.244000);
  (440.000000, 0.282000);
  (450.000000, 0.309000);
  (460.000000, 0.308000);
  (470.000000, 0.278000);
  (480.000000, 0.231000);
  (490.000000, 0.178000);
  (500.000000, 0.130000);
  (510.000000, 0.094000);
  (520.000000, 0.070000);
  (530.000000, 0.054000);
  (540.000000, 0.046000);
  (550.000000, 0.042000);
  (560.000000, 0.039000);
  (570.000000, 0.038000);
  (580.000000, 0.038000);
  (590.000000, 0.038000);
  (600.000000, 0.038000);
  (610.000000, 0.039000);
  (620.000000, 0.039000);
  (630.000000, 0.040000);
  (640.000000, 0.041000);
  (650.000000, 0.042000);
  (660.000000, 0.044000);
  (670.000000, 0.045000);
  (680.000000, 0.046000);
  (690.000000, 0.046000);
  (700.000000, 0.048000);
  (710.000000, 0.052000);
  (720.000000, 0.057000);
  (730.000000, 0.065000)].

(* colorchecker.rs 1716-1753 *)
Definition data_spectral_green : list (Q * Q) := [
  (380.000000, 0.052000);
  (390.000000, 0.053000);
  (400.000000, 0.054000);
  (410.000000, 0.055000);
  (420.000000, 0.057000);
  (430.000000, 0.059000);
  (440.000000, 0.061000);
  (450.000000, 0.066000);
  (460.000000, 0.075000);
  (470.000000, 0.093000);
  (480.000000, 0.125000);
  (490.000000, 0.178000);
  (500.000000, 0.246000);
  (510.000000, 0.307000);
  (520.000000, 0.337000);
  (530.000000, 0.334000);
  (540.000000, 0.317000);
  (550.000000, 0.293000);
  (560.000000, 0.262000);
  (570.000000, 0.230000);
  (580.000000, 0.198000);
  (590.000000, 0.165000);
  (600.000000, 0.135000);
  (610.000000, 0.115000);
  (620.000000, 0.104000);
  (630.000000, 0.098000);
  (640.000000, 0.094000);
  (650.000000, 0.092000);
  (660.000000, 0.093000);
  (670.000000, 0.097000);
  (680.000000, 0.102000);
  (690.000000, 0.108000);
  (700.000000, 0.113000);
  (710.000000, 0.115000);
  (720.000000, 0.114000);
  (730.000000, 0.114000)].

(* colorchecker.rs 1754-1791 *)
Definition data_spectral_red : list (Q * Q) := [
  (380.000000, 0.050000);
  (390.000000, 0.049000);
  (400.000000, 0.048000);
  (410.000000, 0.047000);
  (420.000000, 0.047000);
  (430.000000, 0.047000);
  (440.000000, 0.047000);
  (450.000000, 0.047000);
  (460.000000, 0.046000);
  (470.000000, 0.045000);
  (480.000000, 0.044000);
  (490.000000, 0.044000);
  (500.000000, 0.045000);
  (510.000000, 0.046000);
  (520.000000, 0.047000);
  (530.000000, 0.048000);
  (540.000000, 0.049000);
  (550.000000, 0.050000);
  (560.000000, 0.054000);
  (570.000000, 0.060000);
  (580.000000, 0.072000);
  (590.000000, 0.104000);
  (600.000000, 0.178000);
  (610.000000, 0.312000);
  (620.000000, 0.467000);
  (630.000000, 0.581000);
  (640.000000, 0.644000);
  (650.000000, 0.675000);
  (660.000000, 0.690000);
  (670.000000, 0.698000);
  (680.000000, 0.706000);
  (690.000000, 0.715000);
  (700.000000, 0.724000);
  (710.000000, 0.730000);
  (720.000000, 0.734000);
  (730.000000, 0.738000)].

(* colorchecker.rs 1792-1829 *)
Definition data_spectral_yellow : list (Q * Q) := [
  (380.000000, 0.058000);
  (390.000000, 0.054000);
  (400.000000, 0.052000);
  (410.000000, 0.052000);
  (420.000000, 0.053000);
  (430.000000, 0.054000);
  (440.000000, 0.056000);
  (450.000000, 0.059000);
  (460.000000, 0.067000);
  (470.000000, 0.081000);
  (480.000000, 0.107000);
  (490.000000, 0.152000);
  (500.000000, 0.225000);
  (510.000000, 0.336000);
  (520.000000, 0.462000);
  (530.000000, 0.559000);
  (540.000000, 0.616000);
  (550.000000, 0.650000);
  (560.000000, 0.672000);
  (570.000000, 0.694000);
  (580.000000, 0.710000);
  (590.000000, 0.723000);
  (600.000000, 0.731000);
  (610.000000, 0.739000);
  (620.000000, 0.746000);
  (630.000000, 0.752000);
  (640.000000, 0.758000);
  (650.000000, 0.764000);
  (660.000000, 0.769000);
  (670.000000, 0.771000);
  (680.000000, 0.776000);
  (690.000000, 0.782000);
  (700.000000, 0.790000);
  (710.000000, 0.796000);
  (720.000000, 0.799000);
  (730.000000, 0.804000)].

(* colorchecker.rs 1830-1867 *)
Definition data_spectral_magenta : list (Q * Q) := [
  (380.000000, 0.145000);
  (390.000000, 0.195000);
  (400.000000, 0.283000);
  (410.000000, 0.346000);
  (420.000000, 0.362000);
  (430.000000, 0.354000);
  (440.000000, 0.334000);
  (450.000000, 0.306000);
  (460.000000, 0.276000);
  (470.000000, 0.248000);
  (480.000000, 0.218000);
  (490.000000, 0.190000);
  (500.000000, 0.168000);
  (510.000000, 0.149000);
  (520.000000, 0.127000);
  (530.000000, 0.107000);
  (540.000000, 0.100000);
  (550.000000, 0.102000);
  (560.000000, 0.104000);
  (570.000000, 0.109000);
  (580.000000, 0.137000);
  (590.000000, 0.200000);
  (600.000000, 0.290000);
  (610.000000, 0.400000);
  (620.000000, 0.516000);
  (630.000000, 0.615000);
  (640.000000, 0.687000);
  (650.000000, 0.732000);
  (660.000000, 0.760000);
  (670.000000, 0.774000);
  (680.000000, 0.783000);
  (690.000000, 0.793000);
  (700.000000, 0.803000);
  (710.000000, 0.812000);
  (720.000000, 0.817000);
  (730.000000, 0.825000)].

(* colorchecker.rs 1868-1905 *)
Definition data_spectral_cyan : list (Q * Q) := [
  (380.000000, 0.108000);
  (390.000000, 0.141000);
  (400.000000, 0.192000);
  (410.000000, 0.236000);
  (420.000000, 0.261000);
  (430.000000, 0.286000);
  (440.000000, 0.317000);
  (450.000000, 0.353000);
  (460.000000, 0.390000);
  (470.000000, 0.426000);
  (480.000000, 0.446000);
  (490.000000, 0.444000);
  (500.000000, 0.423000);
  (510.000000, 0.385000);
  (520.000000, 0.337000);
  (530.000000, 0.283000);
  (540.000000, 0.231000);
  (550.000000, 0.185000);
  (560.000000, 0.146000);
  (570.000000, 0.118000);
  (580.000000, 0.101000);
  (590.000000, 0.090000);
  (600.000000, 0.082000);
  (610.000000, 0.076000);
  (620.000000, 0.074000);
  (630.000000, 0.073000);
  (640.000000, 0.073000);
  (650.000000, 0.074000);
  (660.000000, 0.076000);
  (670.000000, 0.077000);
  (680.000000, 0.076000);
  (690.000000, 0.075000);
  (700.000000, 0.073000);
  (710.000000, 0.072000);
  (720.000000, 0.074000);
  (730.000000, 0.079000)].

(* colorchecker.rs 1906-1943 *)
Definition data_spectral_white_95 : list (Q * Q) := [
  (380.000000, 0.189000);
  (390.000000, 0.255000);
  (400.000000, 0.423000);
  (410.000000, 0.660000);
  (420.000000, 0.811000);
  (430.000000, 0.862000);
  (440.000000, 0.877000);
  (450.000000, 0.884000);
  (460.000000, 0.891000);
  (470.000000, 0.896000);
  (480.000000, 0.899000);
  (490.000000, 0.904000);
  (500.000000, 0.907000);
  (510.000000, 0.909000);
  (520.000000, 0.911000);
  (530.000000, 0.910000);
  (540.000000, 0.911000);
  (550.000000, 0.914000);
  (560.000000, 0.913000);
  (570.000000, 0.916000);
  (580.000000, 0.915000);
  (590.000000, 0.916000);
  (600.000000, 0.914000);
  (610.000000, 0.915000);
  (620.000000, 0.918000);
  (630.000000, 0.919000);
  (640.000000, 0.921000);
  (650.000000, 0.923000);
  (660.000000, 0.924000);
  (670.000000, 0.922000);
  (680.000000, 0.922000);
  (690.000000, 0.925000);
  (700.000000, 0.927000);
  (710.000000, 0.930000);
  (720.000000, 0.930000);
  (730.000000, 0.933000)].

(* colorchecker.rs 1944-1981 *)
Definition data_spectral_neutral_80 : list (Q * Q) := [
  (380.000000, 0.171000);
  (390.000000, 0.232000);
  (400.000000, 0.365000);
  (410.000000, 0.507000);
  (420.000000, 0.567000);
  (430.000000, 0.583000);
  (440.000000, 0.588000);
  (450.000000, 0.590000);
  (460.000000, 0.591000);
  (470.000000, 0.590000);
  (480.000000, 0.588000);
  (490.000000, 0.588000);
  (500.000000, 0.589000);
  (510.000000, 0.589000);
  (520.000000, 0.591000);
  (530.000000, 0.590000);
  (540.000000, 0.590000);
  (550.000000, 0.590000);
  (560.000000, 0.589000);
  (570.000000, 0.591000);
  (580.000000, 0.590000);
  (590.000000, 0.590000);
  (600.000000, 0.587000);
  (610.000000, 0.585000);
  (620.000000, 0.583000);
  (630.000000, 0.580000);
  (640.000000, 0.578000);
  (650.000000, 0.576000);
  (660.000000, 0.574000);
  (670.000000, 0.572000);
  (680.000000, 0.571000);
  (690.000000, 0.569000);
  (700.000000, 0.568000);
  (710.000000, 0.568000);
  (720.000000, 0.566000);
  (730.000000, 0.566000)].

(* colorchecker.rs 1982-2019 *)
Definition data_spectral_neutral_65 : list (Q * Q) := [
  (380.000000, 0.144000);
  (390.000000, 0.192000);
  (400.000000, 0.272000);
  (410.000000, 0.331000);
  (420.000000, 0.350000);
  (430.000000, 0.357000);
  (440.000000, 0.361000);
  (450.000000, 0.363000);
  (460.000000, 0.363000);
  (470.000000, 0.361000);
  (480.000000, 0.359000);
  (490.000000, 0.358000);
  (500.000000, 0.358000);
  (510.000000, 0.359000);
  (520.000000, 0.360000);
  (530.000000, 0.360000);
  (540.000000, 0.361000);
  (550.000000, 0.361000);
  (560.000000, 0.360000);
  (570.000000, 0.362000);
  (580.000000, 0.362000);
  (590.000000, 0.361000);
  (600.000000, 0.359000);
  (610.000000, 0.358000);
  (620.000000, 0.355000);
  (630.000000, 0.352000);
  (640.000000, 0.350000);
  (650.000000, 0.348000);
  (660.000000, 0.345000);
  (670.000000, 0.343000);
  (680.000000, 0.340000);
  (690.000000, 0.338000);
  (700.000000, 0.335000);
  (710.000000, 0.334000);
  (720.000000, 0.332000);
  (730.000000, 0.331000)].

(* colorchecker.rs 2020-2057 *)
Definition data_spectral_neutral_50 : list (Q * Q) := [
  (380.000000, 0.105000);
  (390.000000, 0.131000);
  (400.000000, 0.163000);
  (410.000000, 0.180000);
  (420.000000, 0.186000);
  (430.000000, 0.190000);
  (440.000000, 0.193000);
  (450.000000, 0.194000);
  (460.000000, 0.194000);
  (470.000000, 0.192000);
  (480.000000, 0.191000);
  (490.000000, 0.191000);
  (500.000000, 0.191000);
  (510.000000, 0.192000);
  (520.000000, 0.192000);
  (530.000000, 0.192000);
  (540.000000, 0.192000);
  (550.000000, 0.192000);
  (560.000000, 0.192000);
  (570.000000, 0.193000);
  (580.000000, 0.192000);
  (590.000000, 0.192000);
  (600.000000, 0.191000);
  (610.000000, 0.189000);
  (620.000000, 0.188000);
  (630.000000, 0.186000);
  (640.000000, 0.184000);
  (650.000000, 0.182000);
  (660.000000, 0.181000);
  (670.000000, 0.179000);
  (680.000000, 0.178000);
  (690.000000, 0.176000);
  (700.000000, 0.174000);
  (710.000000, 0.173000);
  (720.000000, 0.172000);
  (730.000000, 0.171000)].

(* colorchecker.rs 2058-2095 *)
Definition data_spectral_neutral_35 : list (Q * Q) := [
  (380.000000, 0.068000);
  (390.000000, 0.077000);
  (400.000000, 0.084000);
  (410.000000, 0.087000);
  (420.000000, 0.089000);
  (430.000000, 0.090000);
  (440.000000, 0.092000);
  (450.000000, 0.092000);
  (460.000000, 0.091000);
  (470.000000, 0.090000);
  (480.000000, 0.090000);
  (490.000000, 0.090000);
  (500.000000, 0.090000);
  (510.000000, 0.090000);
  (520.000000, 0.090000);
  (530.000000, 0.090000);
  (540.000000, 0.090000);
  (550.000000, 0.090000);
  (560.000000, 0.090000);
  (570.000000, 0.090000);
  (580.000000, 0.090000);
  (590.000000, 0.089000);
  (600.000000, 0.089000);
  (610.000000, 0.088000);
  (620.000000, 0.087000);
  (630.000000, 0.086000);
  (640.000000, 0.086000);
  (650.000000, 0.085000);
  (660.000000, 0.084000);
  (670.000000, 0.084000);
  (680.000000, 0.083000);
  (690.000000, 0.083000);
  (700.000000, 0.082000);
  (710.000000, 0.081000);
  (720.000000, 0.081000);
  (730.000000, 0.081000)].

(* colorchecker.rs 2096-2133 *)
Definition data_spectral_black_20 : list (Q * Q) := [
  (380.000000, 0.031000);
  (390.000000, 0.032000);
  (400.000000, 0.032000);
  (410.000000, 0.033000);
  (420.000000, 0.033000);
  (430.000000, 0.033000);
  (440.000000, 0.033000);
  (450.000000, 0.033000);
  (460.000000, 0.032000);
  (470.000000, 0.032000);
  (480.000000, 0.032000);
  (490.000000, 0.032000);
  (500.000000, 0.032000);
  (510.000000, 0.032000);
  (520.000000, 0.032000);
  (530.000000, 0.032000);
  (540.000000, 0.032000);
  (550.000000, 0.032000);
  (560.000000, 0.032000);
  (570.000000, 0.032000);
  (580.000000, 0.032000);
  (590.000000, 0.032000);
  (600.000000, 0.032000);
  (610.000000, 0.032000);
  (620.000000, 0.032000);
  (630.000000, 0.032000);
  (640.000000, 0.032000);
  (650.000000, 0.032000);
  (660.000000, 0.032000);
  (670.000000, 0.032000);
  (680.000000, 0.032000);
  (690.000000, 0.032000);
  (700.000000, 0.032000);
  (710.000000, 0.032000);
  (720.000000, 0.032000);
  (730.000000, 0.033000)].

(* colorchecker.rs 1221-: the SPECTRAL map, in the order of NAMES *)
Definition data_spectral : list (list (Q * Q)) := [data_spectral_dark_skin; data_spectral_light_skin; data_spectral_blue_sky; data_spectral_foliage; data_spectral_blue_flower; data_spectral_bluish_green; data_spectral_orange; data_spectral_purplish_blue; data_spectral_moderate_red; data_spectral_purple; data_spectral_yellow_green; data_spectral_orange_yellow; data_spectral_blue; data_spectral_green; data_spectral_red; data_spectral_yellow; data_spectral_magenta; data_spectral_cyan; data_spectral_white_95; data_spectral_neutral_80; data_spectral_neutral_65; data_spectral_neutral_50; data_spectral_neutral_35; data_spectral_black_20].

