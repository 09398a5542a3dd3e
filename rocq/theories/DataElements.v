(** Transcribed by tools/gen_tables.py; do not edit by hand. *)
From Coq Require Import ZArith List.
From Verif Require Import Num.
Import ListNotations.
Local Open Scope dec_scope.

(** src/nucdata.cpp:4-115, double element_atomic_weights[110] *)
Definition element_atomic_weights : list dec := [
  0.0; 1.00794; 4.0026; 6.941; 9.01218; 10.811; 12.0107; 14.0067; 15.9994; 18.9984; 20.1797; 22.9898; 24.305;
  26.9815; 28.0855; 30.9738; 32.065; 35.453; 39.948; 39.0983; 40.078; 44.9559; 47.867; 50.9415; 51.9961;
  54.938; 55.845; 58.9332; 58.6934; 63.546; 65.409; 69.723; 72.64; 74.9216; 78.96; 79.904; 83.798; 85.4678;
  87.62; 88.9059; 91.224; 92.9064; 95.94; 97.9072; 101.07; 102.906; 106.42; 107.868; 112.411; 114.818;
  118.71; 121.76; 127.6; 126.904; 131.293; 132.905; 137.327; 138.905; 140.116; 140.908; 144.24; 144.913;
  150.36; 151.964; 157.25; 158.925; 162.5; 164.93; 167.259; 168.934; 173.04; 174.967; 178.49; 180.948;
  183.84; 186.207; 190.23; 192.217; 195.078; 196.967; 200.59; 204.383; 207.2; 208.98; 208.982; 209.987;
  222.018; 223.02; 226.025; 227.028; 232.038; 231.036; 238.029; 237.048; 244.064; 243.061; 247.07; 247.07;
  251.08; 252.083; 257.095; 258.098; 259.101; 262.11; 261.109; 262.114; 266.122; 264.125; 269.134; 268.139].

(** src/nucdata.cpp:117-217, double element_densities[99] *)
Definition element_densities : list dec := [
  0.0; 8.37480e-5; 1.66322e-4; 0.534; 1.848; 2.37; 2.0; 1.16520e-3; 1.33151e-3; 1.58029e-3; 8.38505e-4;
  0.971; 1.74; 2.699; 2.33; 2.2; 2.0; 2.99473e-3; 1.66201e-3; 0.862; 1.55; 2.989; 4.54; 6.11; 7.18; 7.44;
  7.874; 8.9; 8.902; 8.96; 7.133; 5.904; 5.323; 5.73; 4.5; 3.1028; 3.47832e-3; 1.532; 2.54; 4.469; 6.506;
  8.57; 10.22; 11.50; 12.41; 12.41; 12.02; 10.5; 8.65; 7.31; 7.31; 6.691; 6.24; 4.93; 5.48536e-3; 1.873; 3.5;
  6.154; 6.657; 6.71; 6.9; 7.22; 7.46; 5.243; 7.9004; 8.229; 8.55; 8.795; 9.066; 9.321; 6.73; 9.84; 13.31;
  16.654; 19.30; 21.02; 22.57; 22.42; 21.45; 19.32; 13.546; 11.72; 11.35; 9.747; 9.32; 9.32; 9.00662e-3;
  1.00; 5.00; 10.07; 11.72; 15.37; 18.95; 20.25; 19.84; 13.67; 13.51; 14.00; 10.00].

(** include/catima/data_ionisation_potential.h:23-145, ionisation_potentials_z[IPOT_ZMAX+1], IPOT_ZMAX = 120 *)
Definition ionisation_potentials_z : list dec := [
  9999999; 19.2; 41.8; 40.0; 63.7; 76.0; 81.0; 82.0; 95.0; 115.0; 137.0; 149.0; 156.0; 166.0; 173.0; 173.0;
  180.0; 174.0; 188.0; 190.0; 191.0; 216.0; 233.0; 245.0; 257.0; 272.0; 286.0; 297.0; 311.0; 322.0; 330.0;
  334.0; 350.0; 347.0; 348.0; 343.0; 352.0; 363.0; 366.0; 379.0; 393.0; 417.0; 424.0; 428.0; 441.0; 449.0;
  470.0; 470.0; 469.0; 488.0; 488.0; 487.0; 485.0; 491.0; 482.0; 488.0; 491.0; 501.0; 523.0; 535.0; 546.0;
  560.0; 574.0; 580.0; 591.0; 614.0; 628.0; 650.0; 658.0; 674.0; 684.0; 694.0; 705.0; 718.0; 727.0; 736.0;
  746.0; 757.0; 790.0; 790.0; 800.0; 810.0; 823.0; 823.0; 830.0; 825.0; 794.0; 827.0; 826.0; 841.0; 847.0;
  878.0; 890.0; 900.0; 910.0; 920.0; 930.0; 940.0; 950.0; 960.0; 970.0; 980.0; 990.0; 1000.0; 1010.0; 1020.0;
  1030.0; 1040.0; 1050.0; 1060.0; 1070.0; 1080.0; 1090.0; 1100.0; 1110.0; 1120.0; 1130.0; 1140.0; 1150.0;
  1160.0; 1170.0].

(** include/catima/data_atima.h, namespace density_effect, x0[97] *)
Definition density_effect_x0 : list dec := [
  1.8639; 2.2017; 0.1304; 0.0592; 0.0305; (-0.0178); 1.7378; 1.7541; 1.8433; 2.0735; 0.2880; 0.1499; 0.1708;
  0.2014; 0.1696; 0.1580; 1.5555; 1.7635; 0.3851; 0.3228; 0.1640; 0.0957; 0.0691; 0.0340; 0.0447; (-0.0012);
  (-0.0187); (-0.0566); (-0.0254); 0.0049; 0.2267; 0.3376; 0.1767; 0.2258; 1.5262; 1.7158; 0.5737; 0.4585;
  0.3608; 0.2957; 0.1785; 0.2267; 0.0949; 0.0599; 0.0576; 0.0563; 0.0657; 0.1281; 0.2406; 0.2879; 0.3189;
  0.3296; 0.0549; 1.5630; 0.5473; 0.4190; 0.3161; 0.2713; 0.2333; 0.1984; 0.1627; 0.1520; 0.1888; 0.1058;
  0.0947; 0.0822; 0.0761; 0.0648; 0.0812; 0.1199; 0.1560; 0.1965; 0.2117; 0.2167; 0.0559; 0.0891; 0.0819;
  0.1484; 0.2021; 0.2756; 0.3491; 0.3776; 0.4152; 0.4267; 0.4300; 1.5368; 0.6000; 0.5991; 0.4559; 0.4202;
  0.3144; 0.2260; 0.1869; 0.1557; 0.2274; 0.2484; 0.2378].

(** include/catima/data_atima.h, namespace density_effect, x1[97] *)
Definition density_effect_x1 : list dec := [
  3.2718; 3.6122; 1.6397; 1.6922; 1.9688; 2.3415; 4.1323; 4.3213; 4.4096; 4.6421; 3.1962; 3.0668; 3.0127;
  2.8715; 2.7815; 2.7159; 4.2994; 4.4855; 3.1724; 3.1191; 3.0593; 3.0386; 3.0322; 3.0451; 3.1074; 3.1531;
  3.1790; 3.1851; 3.2792; 3.3668; 3.5434; 3.6096; 3.5702; 3.6264; 4.9899; 5.0748; 3.7995; 3.6778; 3.5542;
  3.4890; 3.2201; 3.2784; 3.1253; 3.0834; 3.1069; 3.0555; 3.1074; 3.1667; 3.2032; 3.2959; 3.3489; 3.4418;
  3.2596; 4.7371; 3.5914; 3.4547; 3.3293; 3.3432; 3.2773; 3.3063; 3.3199; 3.3460; 3.4633; 3.3932; 3.4224;
  3.4474; 3.4782; 3.4922; 3.5085; 3.6246; 3.5218; 3.4337; 3.4805; 3.4960; 3.4845; 3.5414; 3.5480; 3.6212;
  3.6979; 3.7275; 3.8044; 3.8073; 3.8248; 3.8293; 4.0000; 4.9889; 4.0000; 3.9428; 3.7966; 3.7681; 3.5079;
  3.3721; 3.3690; 3.3981; 3.5021; 3.5160; 3.5186].

(** include/catima/data_atima.h, namespace density_effect, a[97] *)
Definition density_effect_a : list dec := [
  0.14092; 0.13443; 0.95136; 0.80392; 0.56224; 0.26142; 0.15349; 0.11778; 0.11083; 0.08064; 0.07772; 0.08163;
  0.08024; 0.14921; 0.23610; 0.33992; 0.19849; 0.19714; 0.19827; 0.15643; 0.15754; 0.15662; 0.15436; 0.15419;
  0.14973; 0.14680; 0.14474; 0.16496; 0.14339; 0.14714; 0.09440; 0.07188; 0.06633; 0.06568; 0.06335; 0.07446;
  0.07261; 0.07165; 0.07138; 0.07177; 0.13883; 0.10525; 0.16572; 0.19342; 0.19205; 0.24178; 0.24585; 0.24609;
  0.23879; 0.18689; 0.16652; 0.13815; 0.23766; 0.23314; 0.18233; 0.18268; 0.18591; 0.18885; 0.23265; 0.23530;
  0.24280; 0.24698; 0.24448; 0.25109; 0.24453; 0.24665; 0.24638; 0.24823; 0.24889; 0.25295; 0.24033; 0.22918;
  0.17798; 0.15509; 0.15184; 0.12751; 0.12690; 0.11128; 0.09756; 0.11014; 0.09455; 0.09359; 0.09410; 0.09282;
  0.09000; 0.20798; 0.08000; 0.08804; 0.08567; 0.08655; 0.14770; 0.19677; 0.19741; 0.20419; 0.20308; 0.20257;
  0.20192].

(** include/catima/data_atima.h, namespace density_effect, c[97] *)
Definition density_effect_c : list dec := [
  9.5835; 11.1393; 3.1221; 2.7847; 2.8477; 2.8680; 10.5400; 10.7004; 10.9653; 11.9041; 5.0526; 4.5297;
  4.2395; 4.4351; 4.5214; 4.6659; 11.1421; 11.9480; 5.6423; 5.0396; 4.6949; 4.4450; 4.2659; 4.1781; 4.2702;
  4.2911; 4.2601; 4.3115; 4.4190; 4.6906; 4.9353; 5.1411; 5.0510; 5.3210; 11.7307; 12.5115; 6.4776; 5.9867;
  5.4801; 5.1774; 5.0141; 4.8793; 4.7769; 4.7694; 4.8008; 4.9358; 5.0630; 5.2727; 5.5211; 5.5340; 5.6241;
  5.7131; 5.9488; 12.7281; 6.9135; 6.3153; 5.7850; 5.7837; 5.8096; 5.8290; 5.8224; 5.8597; 6.2278; 5.8738;
  5.9045; 5.9183; 5.9587; 5.9521; 5.9677; 6.3325; 5.9785; 5.7139; 5.5262; 5.4059; 5.3445; 5.3083; 5.3418;
  5.4732; 5.5747; 5.9605; 6.1365; 6.2018; 6.3505; 6.4003; 6.4; 13.2839; 7; 7.0452; 6.3742; 6.2473; 6.0327;
  5.8694; 5.8149; 5.8748; 6.2813; 6.3097; 6.2912].

(** include/catima/data_atima.h, namespace density_effect, m[97] *)
Definition density_effect_m : list dec := [
  5.7273; 5.8347; 2.4993; 2.4339; 2.4512; 2.8697; 3.2125; 3.2913; 3.2962; 3.5771; 3.6452; 3.6166; 3.6345;
  3.2546; 2.9158; 2.6456; 2.9702; 2.9618; 2.9233; 3.0745; 3.0517; 3.0302; 3.0163; 2.9896; 2.9796; 2.9632;
  2.9502; 2.8430; 2.9044; 2.8652; 3.1314; 3.3306; 3.4176; 3.4317; 3.4670; 3.4051; 3.4177; 3.4435; 3.4585;
  3.4533; 3.0930; 3.2549; 2.9738; 2.8707; 2.8633; 2.7239; 2.6899; 2.6772; 2.7144; 2.8576; 2.9319; 3.0354;
  2.7276; 2.7414; 2.8866; 2.8906; 2.8828; 2.8592; 2.7331; 2.7050; 2.6674; 2.6403; 2.6245; 2.5977; 2.6056;
  2.5849; 2.5726; 2.5573; 2.5469; 2.5141; 2.5643; 2.6155; 2.7623; 2.8447; 2.8627; 2.9608; 2.9658; 3.0417;
  3.1101; 3.0519; 3.1450; 3.1608; 3.1671; 3.1830; 1.1111; 2.7409; 1.1111; 3.2454; 3.2683; 3.2610; 2.9845;
  2.8171; 2.8082; 2.7679; 2.7615; 2.7579; 2.7560].

(** include/catima/data_atima.h, namespace density_effect, del_0[97] *)
Definition density_effect_del_0 : list dec := [
  0.0; 0.00; 0.14; 0.14; 0.14; 0.12; 0.00; 0.00; 0.00; 0.00; 0.08; 0.08; 0.12; 0.14; 0.14; 0.14; 0.00; 0.00;
  0.10; 0.14; 0.10; 0.12; 0.14; 0.14; 0.14; 0.12; 0.12; 0.10; 0.08; 0.08; 0.14; 0.14; 0.08; 0.10; 0.00; 0.00;
  0.14; 0.14; 0.14; 0.14; 0.14; 0.14; 0.14; 0.14; 0.14; 0.14; 0.14; 0.14; 0.14; 0.14; 0.14; 0.14; 0.00; 0.00;
  0.14; 0.14; 0.14; 0.14; 0.14; 0.14; 0.14; 0.14; 0.14; 0.14; 0.14; 0.14; 0.14; 0.14; 0.14; 0.14; 0.14; 0.14;
  0.14; 0.14; 0.08; 0.10; 0.10; 0.12; 0.14; 0.14; 0.14; 0.14; 0.14; 0.14; 0.00; 0.00; 0.00; 0.14; 0.14; 0.14;
  0.14; 0.14; 0.14; 0.14; 0.14; 0.14; 0.14].

