(** Transcribed by tools/gen_tables.py; do not edit by hand. *)
From Coq Require Import ZArith List.
From Verif Require Import Num.
Import ListNotations.
Local Open Scope dec_scope.

(** src/srim.cpp:161-346, pse_95[92][8] *)
Definition pse_95 : list (list dec) := [
  [0.0128116; 0.00533047; 0.651042; 0.531902; 1959.01; 1.1887; 598.263; 0.00954514];
  [0.311787; 0.00499529; 0.118546; 0.920917; 984.843; 1.08223; 554.388; 0.0505072];
  [0.644503; 0.00500368; 0.866544; 0.567488; 962.9; 1.01566; 1620.34; 0.0237767];
  [0.953561; 0.00507406; 1.3045; 0.5903; 1945.12; 1.05703; 326.951; 0.0130441];
  [1.53151; 0.0048852; 2.5676; 0.423246; 1738.88; 1.03208; 1829.42; 0.0200331];
  [2.40289; 0.00491497; 2.49101; 0.414939; 1858.36; 1.01581; 2504.17; 0.0181984];
  [3.31007; 0.00495744; 0.540621; 0.77994; 1104.15; 0.967848; 2235.35; 0.0531612];
  [0.972706; 0.0050039; 1.35102; 0.5498; 1254.28; 0.968356; 5093.2; 0.0536453];
  [0.690408; 0.00462723; 0.326749; 1.1052; 1301.9; 0.943525; 47.0373; 0.0280245];
  [0.281235; 0.00459698; 0.52563; 0.878183; 1158.3; 0.938564; 10.1606; 0.0414147];
  [2.15352; 0.00440847; 2.30923; 0.606001; 1332.24; 0.943478; 735.116; 0.0577231];
  [3.42983; 0.00436897; 2.39377; 0.554737; 1140.29; 0.929844; 2107.48; 0.0789342];
  [0.0389096; 0.00454168; 4.27975; 0.478838; 1316.42; 0.934106; 565.574; 0.052722];
  [1.33101; 0.00443533; 1.52262; 0.775843; 1227.02; 0.914146; 1091.17; 0.0444972];
  [5.78119; 0.00398281; 0.324072; 1.22769; 673.459; 0.865731; 123.619; 0.182036];
  [0.611741; 0.00446376; 3.38101; 0.542907; 1160.67; 0.912049; 14031.2; 0.087705];
  [1.15307; 0.00447333; 4.20464; 0.538231; 1301.13; 0.902702; 4923.01; 0.0525717];
  [1.70408; 0.00447609; 2.75072; 0.583835; 2713.93; 0.953183; 2035.79; 0.0146897];
  [2.60265; 0.00432185; 1.56811; 0.864656; 556.393; 0.84475; 120.01; 0.962648];
  [0.536555; 0.00440846; 3.22706; 0.602927; 500.851; 0.83345; 1766.39; 2.02699];
  [1.7187; 0.00436934; 4.60285; 0.516212; 1601.6; 0.914664; 6341.68; 0.0629243];
  [0.146403; 0.00484558; 5.54014; 0.455903; 1763.46; 0.919014; 3951.93; 0.0550341];
  [4.21238; 0.0040013; 3.79858; 0.482892; 2416.97; 0.936204; 7735.96; 0.0289635];
  [0.697881; 0.00430794; 2.2863; 0.784069; 967.872; 0.857874; 17.8526; 0.111149];
  [0.592743; 0.00431334; 1.40625; 0.968261; 1426.42; 0.881488; 14.4002; 0.0424183];
  [0.0283155; 0.00354506; 0.564961; 1.24111; 1527.81; 0.881848; 25.9497; 0.0354067];
  [0.269545; 0.00432088; 2.24249; 0.764706; 1243.91; 0.867051; 23.4911; 0.0604457];
  [3.68234; 0.00437139; 1.52146; 0.736656; 1470.86; 0.874909; 251.685; 0.0428115];
  [2.15403; 0.00432278; 2.6939; 0.523003; 1717.27; 0.893617; 2099.38; 0.0525222];
  [0.531847; 0.00382833; 0.675606; 1.06647; 1008.48; 0.826099; 35.8939; 0.0419818];
  [6.91973; 0.00401198; 0.522284; 0.974708; 899.033; 0.821636; 371.581; 0.0738361];
  [1.80976; 0.00448896; 5.6612; 0.418493; 1558.21; 0.870542; 1756.05; 0.0605859];
  [1.64641; 0.00430255; 5.12108; 0.516356; 1020.24; 0.832723; 2202.77; 0.0846531];
  [4.0715; 0.00429051; 3.33803; 0.543517; 2606.26; 0.903072; 1089.74; 0.0181133];
  [1.99798; 0.00429503; 3.23907; 0.593111; 4645.72; 0.947444; 640.841; 0.0096946];
  [5.08884; 0.0042563; 1.43; 0.722156; 7087.78; 0.979865; 762.818; 0.00604351];
  [0.62637; 0.00413189; 0.0666229; 2.65318; 1074.6; 0.814706; 8.69523; 0.0504427];
  [5.04987; 0.00393427; 4.95613; 0.527062; 1886.17; 0.868672; 4817.65; 0.0349423];
  [1.17376; 0.00421587; 5.93823; 0.49052; 1556.91; 0.849851; 7821.93; 0.0434207];
  [7.26083; 0.00419413; 5.93121; 0.447579; 4687.69; 0.939722; 2446.36; 0.0101526];
  [0.351621; 0.00412551; 1.33637; 1.28649; 1495.35; 0.850544; 12.7864; 0.0471084];
  [0.0179112; 0.00417066; 1.16601; 1.18837; 1260.27; 0.825733; 12.9721; 0.0482827];
  [3.72287; 0.00417681; 4.6286; 0.567689; 1678.02; 0.86202; 3093.95; 0.0624402];
  [0.0179112; 0.00417066; 1.16601; 1.18837; 1260.27; 0.825733; 12.9721; 0.0482827];
  [0.307959; 0.00414183; 0.545099; 1.36766; 1499.06; 0.836456; 26.5156; 0.0382323];
  [0.813324; 0.00421976; 5.48878; 0.621228; 1491.47; 0.843298; 17.0197; 0.0633415];
  [2.89508; 0.00420494; 5.30021; 0.458632; 1380.77; 0.835929; 13156.5; 0.07682];
  [3.47169; 0.0041344; 3.23372; 0.637885; 1116.36; 0.819589; 4766.03; 0.117895];
  [2.28576; 0.00422582; 3.48478; 0.625713; 804.033; 0.79599; 8953.57; 0.302479];
  [4.70915; 0.00409414; 3.88322; 0.582491; 1031.4; 0.815544; 13300.4; 0.167355];
  [7.35883; 0.00438746; 3.2273; 0.693616; 1364.65; 0.832171; 1512.36; 0.0787703];
  [1.20379; 0.00421476; 4.65732; 0.615557; 857.568; 0.794208; 5814.37; 0.255765];
  [4.21323; 0.00420978; 4.67533; 0.579451; 3503.93; 0.892614; 1468.87; 0.014359];
  [10.0615; 0.00391035; 0.364002; 1.20347; 1539.97; 0.821892; 1424.28; 0.0402424];
  [0.373157; 0.00364035; 2.26519; 1.151; 1675.29; 0.837764; 13.0656; 0.0516993];
  [4.82483; 0.00414578; 6.09343; 0.570256; 2300.11; 0.863588; 2980.72; 0.0386788];
  [0.574872; 0.00410857; 2.76314; 0.878406; 654.727; 0.777081; 460.584; 0.963426];
  [3.27544; 0.00421774; 5.76803; 0.54054; 6631.29; 0.942817; 744.066; 0.00830259];
  [2.99783; 0.00409014; 4.52986; 0.620247; 2161.15; 0.856688; 1268.59; 0.0430305];
  [3.02248; 0.00410313; 3.16182; 0.750444; 687.321; 0.765038; 363.38; 0.389438];
  [3.5655; 0.00411367; 6.01196; 0.521709; 1830.02; 0.838996; 3661.99; 0.0575667];
  [3.64072; 0.0041782; 4.87424; 0.578614; 1267.7; 0.822111; 3508.17; 0.241737];
  [0.542525; 0.00412806; 4.33656; 0.639323; 1107.85; 0.788122; 352.321; 0.0946601];
  [7.54702; 0.00408134; 4.92913; 0.507107; 2565.83; 0.861877; 3299.96; 0.031273];
  [4.43006; 0.00419028; 5.3921; 0.508608; 3605.27; 0.885038; 1687.86; 0.0164866];
  [4.31706; 0.00406269; 3.55237; 0.572971; 2138.74; 0.839174; 3204.35; 0.029471];
  [2.73097; 0.00402842; 3.1059; 0.645438; 1802.36; 0.820889; 691.941; 0.0306839];
  [1.27982; 0.00405535; 4.63018; 0.573846; 1595.12; 0.816419; 1067.28; 0.0552321];
  [5.75613; 0.00404905; 4.357; 0.524956; 2207.32; 0.837956; 1579.51; 0.027165];
  [9.2061; 0.00403636; 3.37689; 0.572174; 3660.35; 0.868034; 1191.14; 0.00953995];
  [8.23962; 0.00404348; 3.83028; 0.534511; 4357.71; 0.882431; 1524.26; 0.00786437];
  [3.06189; 0.00405111; 3.5803; 0.59082; 2346.1; 0.837132; 1221.99; 0.0200717];
  [7.99485; 0.00329576; 1.26335; 0.777934; 1804.13; 0.8124; 1266.3; 0.0263526];
  [6.48326; 0.00414609; 0.776185; 1.08393; 250.557; 0.643106; 177.277; 0.898821];
  [0.620494; 0.00403017; 2.53792; 0.677642; 727.918; 0.74834; 117.069; 0.201369];
  [0.551045; 0.00402571; 2.70928; 0.68387; 1089.46; 0.777755; 1088.3; 0.0810305];
  [1.26011; 0.00404797; 3.57127; 0.525416; 2613.09; 0.853001; 2155.71; 0.0282139];
  [3.20857; 0.00405101; 3.66577; 0.536178; 3091.16; 0.856024; 1508.12; 0.0154014];
  [1.04066; 0.00405071; 5.61035; 0.439133; 3646.13; 0.869259; 2878.4; 0.0139437];
  [1.04586; 0.00405038; 5.38433; 0.445067; 3717.15; 0.87031; 2907.28; 0.0132933];
  [3.15124; 0.00405235; 4.09956; 0.542499; 3246.31; 0.857723; 1691.77; 0.0150581];
  [3.06995; 0.00405334; 6.62045; 0.452822; 3380.58; 0.860267; 2638.56; 0.0153938];
  [3.84541; 0.00406028; 8.7792; 0.442301; 2721.99; 0.843866; 2513.15; 0.0228962];
  [4.36117; 0.00405648; 8.18512; 0.43626; 3113.58; 0.852235; 3001.79; 0.0172051];
  [4.36117; 0.00405648; 8.18512; 0.43626; 3113.58; 0.852235; 3001.79; 0.0172051];
  [3.222; 0.00400409; 5.90236; 0.526779; 4040.15; 0.868037; 1658.35; 0.0117469];
  [9.34124; 0.00396606; 7.92099; 0.429769; 5180.9; 0.887726; 2173.16; 0.0092007];
  [6.28686; 0.00396735; 5.81778; 0.535859; 4866.43; 0.884427; 2257.34; 0.0105815];
  [5.92839; 0.00396948; 6.40824; 0.521225; 4619.51; 0.880827; 2323.52; 0.0116274];
  [5.24536; 0.0039744; 6.79689; 0.485424; 4586.31; 0.877944; 2481.5; 0.0112824];
  [2.77047; 0.00398192; 3.55107; 0.638231; 2516.88; 0.829309; 2155.59; 0.0231207];
  [2.78483; 0.00398116; 3.32988; 0.647983; 2662.77; 0.83678; 2337.43; 0.024074]].

(** src/srim.cpp:460-553, proton_stopping_coef[92][8] *)
Definition proton_stopping_coef : list (list dec) := [
  [0.0091827; 0.0053496; 0.69741; 0.48493; 316.07; 1.0143; 9329.3; 0.0539890];
  [0.11393; 0.0051984; 1.0822; 0.39252; 1081.0; 1.0645; 4068.5; 0.0176990];
  [0.85837; 0.0050147; 1.6044; 0.38844; 1337.3; 1.0470; 2659.2; 0.01898];
  [0.8781; 0.0051049; 5.4232; 0.2032; 1200.6; 1.0211; 1401.8; 0.0385290];
  [1.4608; 0.0048836; 2.338; 0.44249; 1801.3; 1.0352; 1784.1; 0.02024];
  [3.2579; 0.0049148; 2.7156; 0.36473; 2092.2; 1.0291; 2643.6; 0.0182370];
  [0.59674; 0.0050837; 4.2073; 0.30612; 2394.2; 1.0255; 4892.1; 0.0160060];
  [0.75253; 0.0050314; 4.0824; 0.30067; 2455.8; 1.0181; 5069.7; 0.0174260];
  [1.226; 0.0051385; 3.2246; 0.32703; 2525.0; 1.0142; 7563.6; 0.0194690];
  [1.0332; 0.0051645; 3.004; 0.33889; 2338.6; 0.99997; 6991.2; 0.0217990];
  [6.0972; 0.0044292; 3.1929; 0.45763; 1363.3; 0.95182; 2380.6; 0.0818350];
  [14.013; 0.0043646; 2.2641; 0.36326; 2187.4; 0.99098; 6264.8; 0.0462];
  [0.039001; 0.0045415; 5.5463; 0.39562; 1589.2; 0.95316; 816.16; 0.0474840];
  [2.072; 0.0044516; 3.5585; 0.53933; 1515.2; 0.93161; 1790.3; 0.0351980];
  [17.575; 0.0038346; 0.078694; 1.2388; 2806.0; 0.97284; 1037.6; 0.0128790];
  [16.126; 0.0038315; 0.054164; 1.3104; 2813.3; 0.96587; 1251.4; 0.0118470];
  [3.217; 0.0044579; 3.6696; 0.5091; 2734.6; 0.96253; 2187.5; 0.0169070];
  [2.0379; 0.0044775; 3.0743; 0.54773; 3505.0; 0.97575; 1714.00; 0.0117010];
  [0.74171; 0.0043051; 1.1515; 0.95083; 917.21; 0.8782; 389.93; 0.18926];
  [9.1316; 0.0043809; 5.4611; 0.31327; 3891.8; 0.97933; 6267.9; 0.0151960];
  [7.2247; 0.0043718; 6.1017; 0.37511; 2829.2; 0.95218; 6376.1; 0.0203980];
  [0.147; 0.0048456; 6.3485; 0.41057; 2164.1; 0.94028; 5292.6; 0.0502630];
  [5.0611; 0.0039867; 2.6174; 0.57957; 2218.9; 0.92361; 6323.00; 0.0256690];
  [0.53267; 0.0042968; 0.39005; 1.2725; 1872.7; 0.90776; 64.166; 0.0301070];
  [0.47697; 0.0043038; 0.31452; 1.3289; 1920.5; 0.90649; 45.576; 0.0274690];
  [0.027426; 0.0035443; 0.031563; 2.1755; 1919.5; 0.90099; 23.902; 0.0253630];
  [0.16383; 0.0043042; 0.073454; 1.8592; 1918.4; 0.89678; 27.61; 0.0231840];
  [4.2562; 0.0043737; 1.5606; 0.72067; 1546.8; 0.87958; 302.02; 0.0409440];
  [2.3508; 0.0043237; 2.882; 0.50113; 1837.7; 0.89992; 2377.00; 0.04965];
  [3.1095; 0.0038455; 0.11477; 1.5037; 2184.7; 0.89309; 67.306; 0.0165880];
  [15.322; 0.0040306; 0.65391; 0.67668; 3001.7; 0.92484; 3344.2; 0.0163660];
  [3.6932; 0.0044813; 8.608; 0.27638; 2982.7; 0.9276; 3166.6; 0.0308740];
  [7.1373; 0.0043134; 9.4247; 0.27937; 2725.8; 0.91597; 3166.1; 0.0250080];
  [4.8979; 0.0042937; 3.7793; 0.50004; 2824.5; 0.91028; 1282.4; 0.0170610];
  [1.3683; 0.0043024; 2.5679; 0.60822; 6907.8; 0.9817; 628.01; 0.0068055];
  [1.8301; 0.0042983; 2.9057; 0.6038; 4744.6; 0.94722; 936.64; 0.0092242];
  [0.42056; 0.0041169; 0.01695; 2.3616; 2252.7; 0.89192; 39.752; 0.0277570];
  [30.78; 0.0037736; 0.55813; 0.76816; 7113.2; 0.97697; 1604.4; 0.0065268];
  [11.576; 0.0042119; 7.0244; 0.37764; 4713.5; 0.94264; 2493.2; 0.01127];
  [6.2406; 0.0041916; 5.2701; 0.49453; 4234.6; 0.93232; 2063.9; 0.0118440];
  [0.33073; 0.0041243; 1.7246; 1.1062; 1930.2; 0.86907; 27.416; 0.0382080];
  [0.017747; 0.0041715; 0.14586; 1.7305; 1803.6; 0.86315; 29.669; 0.0321230];
  [3.7229; 0.0041768; 4.6286; 0.56769; 1678.0; 0.86202; 3094.00; 0.06244];
  [0.13998; 0.0041329; 0.25573; 1.4241; 1919.3; 0.86326; 72.797; 0.0322350];
  [0.2859; 0.0041386; 0.31301; 1.3424; 1954.8; 0.86175; 115.18; 0.0293420];
  [0.76; 0.0042179; 3.386; 0.76285; 1867.4; 0.85805; 69.994; 0.0364480];
  [6.3957; 0.0041935; 5.4689; 0.41378; 1712.6; 0.85397; 18493.00; 0.0564710];
  [3.4717; 0.0041344; 3.2337; 0.63788; 1116.4; 0.81959; 4766.0; 0.1179];
  [2.5265; 0.0042282; 4.532; 0.53562; 1030.8; 0.81652; 16252.0; 0.19722];
  [7.3683; 0.0041007; 4.6791; 0.51428; 1160.0; 0.82454; 17965.0; 0.13316];
  [7.7197; 0.004388; 3.242; 0.68434; 1428.1; 0.83398; 1786.7; 0.0665120];
  [16.78; 0.0041918; 9.3198; 0.29568; 3370.9; 0.90289; 7431.7; 0.02616];
  [4.2132; 0.0042098; 4.6753; 0.57945; 3503.9; 0.89261; 1468.9; 0.0143590];
  [4.0818; 0.004214; 4.4425; 0.58393; 3945.3; 0.90281; 1340.5; 0.0134140];
  [0.18517; 0.0036215; 0.00058788; 3.5315; 2931.3; 0.88936; 26.18; 0.0263930];
  [4.8248; 0.0041458; 6.0934; 0.57026; 2300.1; 0.86359; 2980.7; 0.0386790];
  [0.49857; 0.0041054; 1.9775; 0.95877; 786.55; 0.78509; 806.6; 0.40882];
  [3.2754; 0.0042177; 5.768; 0.54054; 6631.3; 0.94282; 744.07; 0.0083026];
  [2.9978; 0.0040901; 4.5299; 0.62025; 2161.2; 0.85669; 1268.6; 0.0430310];
  [2.8701; 0.004096; 4.2568; 0.6138; 2130.4; 0.85235; 1704.1; 0.0393850];
  [10.853; 0.0041149; 5.8907; 0.46834; 2857.2; 0.8755; 3654.2; 0.0299550];
  [3.6407; 0.0041782; 4.8742; 0.57861; 1267.7; 0.82211; 3508.2; 0.24174];
  [17.645; 0.0040992; 6.5855; 0.32734; 3931.3; 0.90754; 5156.7; 0.0362780];
  [7.5309; 0.0040814; 4.9389; 0.50679; 2519.7; 0.85819; 3314.6; 0.0305140];
  [5.4742; 0.0040829; 4.897; 0.51113; 2340.1; 0.85296; 2342.7; 0.0356620];
  [4.2661; 0.0040667; 4.5032; 0.55257; 2076.4; 0.84151; 1666.6; 0.0408010];
  [6.8313; 0.0040486; 4.3987; 0.51675; 2003.0; 0.83437; 1410.4; 0.03478];
  [1.2707; 0.0040553; 4.6295; 0.57428; 1626.3; 0.81858; 995.68; 0.0553190];
  [5.7561; 0.0040491; 4.357; 0.52496; 2207.3; 0.83796; 1579.5; 0.0271650];
  [14.127; 0.0040596; 5.8304; 0.37755; 3645.9; 0.87823; 3411.8; 0.0163920];
  [6.6948; 0.0040603; 4.9361; 0.47961; 2719.0; 0.85249; 1885.8; 0.0197130];
  [3.0619; 0.0040511; 3.5803; 0.59082; 2346.1; 0.83713; 1222.0; 0.0200720];
  [10.811; 0.0033008; 1.3767; 0.76512; 2003.7; 0.82269; 1110.6; 0.0249580];
  [2.7101; 0.0040961; 1.2289; 0.98598; 1232.4; 0.79066; 155.42; 0.0472940];
  [0.52345; 0.0040244; 1.4038; 0.8551; 1461.4; 0.79677; 503.34; 0.0367890];
  [0.4616; 0.0040203; 1.3014; 0.87043; 1473.5; 0.79687; 443.09; 0.0363010];
  [0.97814; 0.0040374; 2.0127; 0.7225; 1890.8; 0.81747; 930.7; 0.02769];
  [3.2086; 0.004051; 3.6658; 0.53618; 3091.2; 0.85602; 1508.1; 0.0154010];
  [2.0035; 0.0040431; 7.4882; 0.3561; 4464.3; 0.88836; 3966.5; 0.0128390];
  [15.43; 0.0039432; 1.1237; 0.70703; 4595.7; 0.88437; 1576.5; 0.0088534];
  [3.1512; 0.0040524; 4.0996; 0.5425; 3246.3; 0.85772; 1691.8; 0.0150580];
  [7.1896; 0.0040588; 8.6927; 0.35842; 4760.6; 0.88833; 2888.3; 0.0110290];
  [9.3209; 0.004054; 11.543; 0.32027; 4866.2; 0.89124; 3213.4; 0.0119350];
  [29.242; 0.0036195; 0.16864; 1.1226; 5688.0; 0.89812; 1033.3; 0.0071303];
  [1.8522; 0.0039973; 3.1556; 0.65096; 3755.0; 0.86383; 1602.0; 0.0120420];
  [3.222; 0.0040041; 5.9024; 0.52678; 4040.2; 0.86804; 1658.4; 0.0117470];
  [9.3412; 0.0039661; 7.921; 0.42977; 5180.9; 0.88773; 2173.2; 0.0092007];
  [36.183; 0.0036003; 0.58341; 0.86747; 6990.2; 0.91082; 1417.1; 0.0062187];
  [5.9284; 0.0039695; 6.4082; 0.52122; 4619.5; 0.88083; 2323.5; 0.0116270];
  [5.2454; 0.0039744; 6.7969; 0.48542; 4586.3; 0.87794; 2481.5; 0.0112820];
  [33.702; 0.0036901; 0.47257; 0.89235; 5295.7; 0.8893; 2053.3; 0.0091908];
  [2.7589; 0.0039806; 3.2092; 0.66122; 2505.4; 0.82863; 2065.1; 0.0228160]].

(** src/srim.cpp:364-458, atima_lambda_screening[92] *)
Definition atima_lambda_screening : list dec := [
  1.00; 1.00; 1.10; 1.06; 1.01; 1.03; 1.04; 0.99; 0.95; 0.90; 0.82; 0.81; 0.83; 0.88; 1.00; 0.95; 0.97; 0.99;
  0.98; 0.97; 0.98; 0.97; 0.96; 0.93; 0.91; 0.9; 0.88; 0.9; 0.9; 0.9; 0.9; 0.85; 0.9; 0.9; 0.91; 0.92; 0.9;
  0.9; 0.9; 0.9; 0.9; 0.88; 0.9; 0.88; 0.88; 0.9; 0.9; 0.88; 0.9; 0.9; 0.9; 0.9; 0.96; 1.2; 0.9; 0.88; 0.88;
  0.85; 0.90; 0.90; 0.92; 0.95; 0.99; 1.03; 1.05; 1.07; 1.08; 1.10; 1.08; 1.08; 1.08; 1.08; 1.09; 1.09; 1.10;
  1.11; 1.12; 1.13; 1.14; 1.15; 1.17; 1.20; 1.18; 1.17; 1.17; 1.16; 1.16; 1.16; 1.16; 1.16; 1.16; 1.16].

(** src/srim.cpp:555-647, atima_vfermi[92] *)
Definition atima_vfermi : list dec := [
  1.0309; 0.15976; 0.59782; 1.0781; 1.0486; 1.00; 1.058; 0.93942; 0.74562; 0.3424; 0.45259; 0.71074; 0.90519;
  0.97411; 0.97184; 0.89852; 0.70827; 0.39816; 0.36552; 0.62712; 0.81707; 0.9943; 1.1423; 1.2381; 1.1222;
  0.92705; 1.0047; 1.2; 1.0661; 0.97411; 0.84912; 0.95; 1.0903; 1.0429; 0.49715; 0.37755; 0.35211; 0.57801;
  0.77773; 1.0207; 1.029; 1.2542; 1.122; 1.1241; 1.0882; 1.2709; 1.2542; 0.90094; 0.74093; 0.86054; 0.93155;
  1.0047; 0.55379; 0.43289; 0.32636; 0.5131; 0.6950; 0.72591; 0.71202; 0.67413; 0.71418; 0.71453; 0.5911;
  0.70263; 0.68049; 0.68203; 0.68121; 0.68532; 0.68715; 0.61884; 0.71801; 0.83048; 1.1222; 1.2381; 1.045;
  1.0733; 1.0953; 1.2381; 1.2879; 0.78654; 0.66401; 0.84912; 0.88433; 0.80746; 0.43357; 0.41923; 0.43638;
  0.51464; 0.73087; 0.81065; 1.9578; 1.0257].

