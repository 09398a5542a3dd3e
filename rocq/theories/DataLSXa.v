(** Transcribed by tools/gen_tables.py; do not edit by hand. *)
From Coq Require Import ZArith List.
From Verif Require Import Num.
Import ListNotations.
Local Open Scope dec_scope.

(** include/catima/generated_LS_coeff.h, double ls_X_coefficients_a[][200]: 108 rows *)
Definition ls_X_coefficients_a : list (list dec) := [
  [0.999182; 0.999099; 0.999009; 0.998911; 0.998804; 0.998688; 0.998561; 0.998424; 0.998275; 0.998113;
   0.997937; 0.997746; 0.997538; 0.997312; 0.997067; 0.996802; 0.996513; 0.9962; 0.99586; 0.995491; 0.995092;
   0.994658; 0.994187; 0.993677; 0.993125; 0.992526; 0.991876; 0.991173; 0.990411; 0.989586; 0.988693;
   0.987727; 0.986681; 0.98555; 0.984327; 0.983005; 0.981577; 0.980034; 0.978369; 0.976571; 0.974632;
   0.972542; 0.97029; 0.967865; 0.965255; 0.962449; 0.959433; 0.956195; 0.952722; 0.948999; 0.945012;
   0.940748; 0.936192; 0.93133; 0.926149; 0.920635; 0.914775; 0.908558; 0.901974; 0.895012; 0.887666;
   0.87993; 0.871802; 0.86328; 0.854369; 0.845074; 0.835406; 0.825378; 0.815009; 0.80432; 0.79334; 0.782099;
   0.770633; 0.758982; 0.747189; 0.735302; 0.72337; 0.711444; 0.699577; 0.687824; 0.676236; 0.664866;
   0.653762; 0.642971; 0.632536; 0.622494; 0.612878; 0.603714; 0.595025; 0.586824; 0.579123; 0.571923;
   0.565225; 0.55902; 0.553298; 0.548044; 0.54324; 0.538865; 0.534896; 0.531309; 0.528078; 0.525178;
   0.522584; 0.52027; 0.518211; 0.516386; 0.51477; 0.513343; 0.512086; 0.51098; 0.510008; 0.509155; 0.508406;
   0.507748; 0.50717; 0.50666; 0.50621; 0.505809; 0.505451; 0.505127; 0.504831; 0.504555; 0.504295; 0.504043;
   0.503794; 0.503542; 0.503281; 0.503005; 0.502706; 0.502377; 0.502011; 0.501597; 0.501126; 0.500584;
   0.49996; 0.499237; 0.498397; 0.497419; 0.496279; 0.494949; 0.493396; 0.491584; 0.489469; 0.487002;
   0.484126; 0.480776; 0.476881; 0.472358; 0.467118; 0.461054; 0.454063; 0.446025; 0.436827; 0.426331;
   0.414438; 0.401023; 0.386004; 0.369337; 0.350991; 0.33106; 0.309654; 0.287039; 0.26352; 0.239535;
   0.215577; 0.192201; 0.169949; 0.149255; 0.130423; 0.113578; 0.0986664; 0.0855366; 0.0739774; 0.0638143;
   0.0549195; 0.047223; 0.0405315; 0.0347511; 0.0297793; 0.0254633; 0.0218185; 0.0185929; 0.0159823;
   0.0136131; 0.0120651; 0.0437761; 0.0440744; 0.0490788; 0.0293036; 0; 0; 0; 0; 0; 0; 0; 0; 0; 0; 0];
  [0.999599; 0.999523; 0.99944; 0.99935; 0.999251; 0.999143; 0.999025; 0.998897; 0.998757; 0.998604;
   0.998438; 0.998258; 0.998061; 0.997847; 0.997613; 0.99736; 0.997084; 0.996784; 0.996459; 0.996104;
   0.99572; 0.995302; 0.994848; 0.994355; 0.99382; 0.993239; 0.992609; 0.991926; 0.991185; 0.990382;
   0.989512; 0.988569; 0.987548; 0.986442; 0.985246; 0.983951; 0.982551; 0.981038; 0.979403; 0.977638;
   0.975732; 0.973676; 0.971459; 0.969071; 0.966499; 0.963732; 0.960757; 0.957561; 0.954131; 0.950453;
   0.946512; 0.942296; 0.937789; 0.932977; 0.927848; 0.922387; 0.916582; 0.91042; 0.903892; 0.896989;
   0.889702; 0.882026; 0.873959; 0.8655; 0.856652; 0.847421; 0.837816; 0.827853; 0.817548; 0.806924;
   0.796008; 0.784832; 0.77343; 0.761842; 0.750112; 0.738286; 0.726414; 0.714547; 0.702737; 0.691039;
   0.679505; 0.668187; 0.657133; 0.646389; 0.635999; 0.625999; 0.616423; 0.607297; 0.598642; 0.590474;
   0.582803; 0.575631; 0.568957; 0.562775; 0.557074; 0.551838; 0.54705; 0.542688; 0.538731; 0.535153;
   0.531929; 0.529035; 0.526444; 0.524131; 0.522071; 0.520242; 0.518621; 0.517186; 0.515917; 0.514797;
   0.513807; 0.512931; 0.512155; 0.511466; 0.51085; 0.510295; 0.509792; 0.509329; 0.508897; 0.508487;
   0.508089; 0.507695; 0.507296; 0.506881; 0.506442; 0.505967; 0.505444; 0.504862; 0.504204; 0.503456;
   0.502599; 0.501612; 0.500469; 0.499144; 0.497605; 0.495814; 0.49373; 0.491303; 0.488479; 0.485195;
   0.481378; 0.476949; 0.47182; 0.465889; 0.45905; 0.451188; 0.442186; 0.431914; 0.420259; 0.407106;
   0.392364; 0.375975; 0.357915; 0.338238; 0.317055; 0.294587; 0.271129; 0.247103; 0.222979; 0.199307;
   0.176628; 0.155412; 0.136001; 0.118564; 0.103095; 0.089448; 0.077432; 0.0668554; 0.0575906; 0.049531;
   0.042556; 0.0365099; 0.0312993; 0.0267903; 0.0229297; 0.01959; 0.0167675; 0.0143002; 0.0122902; 0.0469836;
   0.0451951; 0.0405494; 0.0284276; 0; 0; 0; 0; 0; 0; 0; 0; 0; 0; 0; 0; 0; 0; 0; 0; 0];
  [1.00017; 1.0001; 1.00003; 0.999947; 0.999857; 0.999759; 0.999651; 0.999532; 0.999402; 0.99926; 0.999104;
   0.998934; 0.998749; 0.998546; 0.998325; 0.998083; 0.99782; 0.997534; 0.997222; 0.996882; 0.996512;
   0.996109; 0.995671; 0.995195; 0.994678; 0.994115; 0.993504; 0.99284; 0.99212; 0.991338; 0.99049; 0.98957;
   0.988573; 0.987492; 0.986321; 0.985054; 0.983682; 0.982198; 0.980593; 0.978859; 0.976985; 0.974963;
   0.972781; 0.970429; 0.967895; 0.965167; 0.962232; 0.959077; 0.95569; 0.952055; 0.94816; 0.943991;
   0.939532; 0.93477; 0.929692; 0.924283; 0.918531; 0.912425; 0.905953; 0.899107; 0.891878; 0.884262;
   0.876255; 0.867857; 0.859071; 0.849902; 0.840361; 0.830461; 0.820219; 0.809659; 0.798807; 0.787694;
   0.776354; 0.764829; 0.75316; 0.741394; 0.729581; 0.717772; 0.706019; 0.694375; 0.682894; 0.671625;
   0.66062; 0.649923; 0.639577; 0.629619; 0.620082; 0.610992; 0.602372; 0.594236; 0.586594; 0.579449; 0.5728;
   0.566641; 0.56096; 0.555742; 0.55097; 0.546622; 0.542676; 0.539108; 0.535893; 0.533005; 0.530418;
   0.528108; 0.526049; 0.524218; 0.522593; 0.521153; 0.519876; 0.518745; 0.517741; 0.516849; 0.516052;
   0.515338; 0.514692; 0.514102; 0.513557; 0.513046; 0.512556; 0.512078; 0.511601; 0.511114; 0.510606;
   0.510064; 0.509475; 0.508825; 0.508098; 0.507277; 0.50634; 0.505266; 0.504029; 0.502598; 0.500938;
   0.499012; 0.496774; 0.494172; 0.491148; 0.487635; 0.483559; 0.478836; 0.473372; 0.467065; 0.459804;
   0.451471; 0.441948; 0.431107; 0.418837; 0.405027; 0.389599; 0.372508; 0.353752; 0.333408; 0.311622;
   0.288646; 0.264811; 0.240572; 0.216418; 0.192906; 0.170559; 0.149811; 0.13095; 0.114088; 0.0991542;
   0.0859948; 0.0744016; 0.0642067; 0.0552884; 0.0475495; 0.0408391; 0.0350344; 0.0300281; 0.0256998;
   0.0220017; 0.0187951; 0.0160855; 0.0137134; 0.0117437; 0.0421983; 0.0415957; 0.0431725; 0.0385513;
   0.0484754; 0; 0; 0; 0; 0; 0; 0; 0; 0; 0; 0; 0; 0; 0; 0; 0; 0; 0];
  [1.00086; 1.0008; 1.00074; 1.00068; 1.0006; 1.00051; 1.00042; 1.00031; 1.0002; 1.00007; 0.999924; 0.999767;
   0.999594; 0.999405; 0.999197; 0.998969; 0.99872; 0.998447; 0.998149; 0.997824; 0.997469; 0.997082;
   0.996661; 0.996201; 0.995701; 0.995157; 0.994564; 0.99392; 0.99322; 0.992459; 0.991632; 0.990735;
   0.989761; 0.988705; 0.98756; 0.986318; 0.984974; 0.983518; 0.981943; 0.980239; 0.978398; 0.976409;
   0.974261; 0.971945; 0.969447; 0.966757; 0.963861; 0.960747; 0.957402; 0.953811; 0.949961; 0.945837;
   0.941426; 0.936713; 0.931685; 0.926327; 0.920628; 0.914576; 0.908159; 0.901369; 0.894198; 0.88664;
   0.878693; 0.870355; 0.86163; 0.852522; 0.843043; 0.833205; 0.823026; 0.812529; 0.801739; 0.790687;
   0.77941; 0.767945; 0.756336; 0.74463; 0.732875; 0.721122; 0.709424; 0.697834; 0.686404; 0.675185;
   0.664227; 0.653575; 0.643272; 0.633355; 0.623857; 0.614803; 0.606217; 0.598112; 0.590499; 0.583381;
   0.576757; 0.57062; 0.564959; 0.559759; 0.555003; 0.55067; 0.546737; 0.543179; 0.539973; 0.537092;
   0.534511; 0.532205; 0.530149; 0.528319; 0.526693; 0.52525; 0.523969; 0.522832; 0.52182; 0.520917;
   0.520107; 0.519376; 0.51871; 0.518097; 0.517524; 0.516979; 0.516451; 0.515927; 0.515396; 0.514846;
   0.514263; 0.513634; 0.512943; 0.512175; 0.511309; 0.510326; 0.509201; 0.507906; 0.506412; 0.504683;
   0.502677; 0.500349; 0.497645; 0.494506; 0.490861; 0.486636; 0.481744; 0.47609; 0.469569; 0.462069;
   0.453474; 0.443657; 0.432499; 0.419886; 0.405714; 0.389907; 0.372431; 0.353291; 0.33258; 0.310457;
   0.287189; 0.263129; 0.23873; 0.214507; 0.191008; 0.168748; 0.148142; 0.129456; 0.112772; 0.0980115;
   0.0849998; 0.0735348; 0.063455; 0.0546417; 0.0469966; 0.0403673; 0.0346314; 0.0296824; 0.0254103;
   0.0217568; 0.0185886; 0.0159083; 0.0135794; 0.0116424; 0.0411534; 0.0396316; 0.0383016; 0.0373077;
   0.0341722; 0; 0; 0; 0; 0; 0; 0; 0; 0; 0; 0; 0; 0; 0; 0; 0; 0; 0; 0];
  [1.00162; 1.00159; 1.00155; 1.0015; 1.00145; 1.00138; 1.0013; 1.00121; 1.00111; 1.001; 1.00088; 1.00074;
   1.00058; 1.00041; 1.00022; 1; 0.999771; 0.999515; 0.999233; 0.998925; 0.998587; 0.998217; 0.997813;
   0.997371; 0.996889; 0.996363; 0.99579; 0.995165; 0.994486; 0.993746; 0.992941; 0.992066; 0.991116;
   0.990084; 0.988964; 0.987748; 0.986431; 0.985003; 0.983457; 0.981784; 0.979973; 0.978017; 0.975903;
   0.973621; 0.97116; 0.968507; 0.96565; 0.962576; 0.959272; 0.955724; 0.951917; 0.947839; 0.943474;
   0.938809; 0.93383; 0.928523; 0.922876; 0.916877; 0.910515; 0.90378; 0.896665; 0.889165; 0.881276;
   0.872997; 0.864331; 0.855284; 0.845866; 0.836089; 0.825971; 0.815535; 0.804806; 0.793816; 0.782598;
   0.771193; 0.759643; 0.747995; 0.736296; 0.724599; 0.712955; 0.701417; 0.690037; 0.678867; 0.667955;
   0.657348; 0.647087; 0.63721; 0.627749; 0.618731; 0.610177; 0.602104; 0.594519; 0.587427; 0.580827;
   0.574711; 0.56907; 0.563888; 0.559148; 0.554829; 0.550908; 0.547361; 0.544164; 0.54129; 0.538715;
   0.536413; 0.53436; 0.532532; 0.530906; 0.529461; 0.528177; 0.527034; 0.526015; 0.525103; 0.524281;
   0.523536; 0.522854; 0.52222; 0.521622; 0.521048; 0.520485; 0.519921; 0.519343; 0.518737; 0.518089;
   0.517384; 0.516605; 0.515732; 0.514745; 0.513621; 0.512331; 0.510845; 0.509129; 0.507141; 0.504835;
   0.50216; 0.499056; 0.495455; 0.491281; 0.48645; 0.480867; 0.474429; 0.467025; 0.458537; 0.448843;
   0.437819; 0.425352; 0.411334; 0.395687; 0.378367; 0.359375; 0.338787; 0.316752; 0.293518; 0.269422;
   0.244909; 0.220477; 0.196676; 0.174031; 0.15298; 0.133818; 0.116662; 0.101459; 0.0880502; 0.0762307;
   0.0658274; 0.0567194; 0.0488028; 0.0419422; 0.0359985; 0.0308689; 0.026435; 0.0226377; 0.0193527;
   0.0165611; 0.0141383; 0.0121203; 0.0416394; 0.03972; 0.0361; 0.0301981; 0.0358606; 0; 0; 0; 0; 0; 0; 0; 0;
   0; 0; 0; 0; 0; 0; 0; 0; 0; 0; 0; 0];
  [1.00243; 1.00242; 1.00241; 1.00239; 1.00236; 1.00232; 1.00227; 1.0022; 1.00213; 1.00204; 1.00194; 1.00182;
   1.00168; 1.00153; 1.00136; 1.00117; 1.00096; 1.00072; 1.00046; 1.00017; 0.999853; 0.999503; 0.999118;
   0.998697; 0.998235; 0.997729; 0.997177; 0.996573; 0.995915; 0.995197; 0.994415; 0.993563; 0.992636;
   0.991629; 0.990534; 0.989345; 0.988054; 0.986655; 0.985138; 0.983494; 0.981715; 0.97979; 0.97771;
   0.975462; 0.973036; 0.97042; 0.967601; 0.964567; 0.961303; 0.957797; 0.954034; 0.95; 0.945681; 0.941063;
   0.936132; 0.930875; 0.925279; 0.919332; 0.913023; 0.906342; 0.899283; 0.891839; 0.884007; 0.875786;
   0.867179; 0.858191; 0.848832; 0.839115; 0.829057; 0.818681; 0.808012; 0.797081; 0.785923; 0.774577;
   0.763084; 0.751492; 0.739849; 0.728206; 0.716614; 0.705127; 0.693797; 0.682674; 0.671808; 0.661244;
   0.651024; 0.641186; 0.631761; 0.622778; 0.614257; 0.606213; 0.598656; 0.591589; 0.585013; 0.578919;
   0.573297; 0.568133; 0.563408; 0.559103; 0.555194; 0.551658; 0.54847; 0.545605; 0.543036; 0.540739;
   0.53869; 0.536864; 0.535239; 0.533794; 0.532508; 0.531363; 0.530339; 0.52942; 0.528591; 0.527836;
   0.527141; 0.526492; 0.525876; 0.525281; 0.524693; 0.524099; 0.523485; 0.522838; 0.522142; 0.521381;
   0.520536; 0.519587; 0.518511; 0.517282; 0.515871; 0.514244; 0.512364; 0.510187; 0.507663; 0.504735;
   0.50134; 0.497404; 0.492848; 0.487581; 0.481503; 0.474507; 0.466477; 0.457293; 0.446831; 0.43497;
   0.421604; 0.406635; 0.390002; 0.371687; 0.351721; 0.330225; 0.307393; 0.283526; 0.259011; 0.234328;
   0.210007; 0.186589; 0.164568; 0.144315; 0.126039; 0.10977; 0.0953903; 0.0827114; 0.071536; 0.0617156;
   0.0531454; 0.0457131; 0.0392717; 0.0336962; 0.0288824; 0.0247361; 0.0211787; 0.0181037; 0.0154884;
   0.013245; 0.0112979; 0.037072; 0.035307; 0.0367658; 0.0323422; 0.0253031; 0; 0; 0; 0; 0; 0; 0; 0; 0; 0; 0;
   0; 0; 0; 0; 0; 0; 0; 0; 0];
  [1.00324; 1.00327; 1.00329; 1.00331; 1.00331; 1.0033; 1.00328; 1.00325; 1.0032; 1.00314; 1.00307; 1.00298;
   1.00288; 1.00275; 1.00261; 1.00245; 1.00226; 1.00205; 1.00181; 1.00155; 1.00125; 1.00093; 1.00057;
   1.00017; 0.999729; 0.999246; 0.998717; 0.998137; 0.997502; 0.996808; 0.996049; 0.995222; 0.994321;
   0.993338; 0.99227; 0.991107; 0.989844; 0.988473; 0.986985; 0.985371; 0.983623; 0.98173; 0.979683;
   0.977469; 0.975079; 0.972499; 0.969718; 0.966722; 0.963498; 0.960033; 0.956312; 0.952322; 0.948048;
   0.943477; 0.938593; 0.933385; 0.927839; 0.921943; 0.915686; 0.909059; 0.902053; 0.894665; 0.886888;
   0.878724; 0.870175; 0.861245; 0.851944; 0.842286; 0.832287; 0.82197; 0.81136; 0.800487; 0.789386;
   0.778097; 0.766661; 0.755124; 0.743535; 0.731944; 0.720404; 0.708966; 0.697684; 0.686607; 0.675785;
   0.665263; 0.655083; 0.645283; 0.635894; 0.626944; 0.618454; 0.610439; 0.602908; 0.595867; 0.589312;
   0.583239; 0.577635; 0.572488; 0.567778; 0.563486; 0.559588; 0.556062; 0.552882; 0.550023; 0.547459;
   0.545166; 0.543118; 0.541293; 0.539668; 0.53822; 0.536929; 0.535777; 0.534745; 0.533816; 0.532973;
   0.532202; 0.531487; 0.530815; 0.530172; 0.529544; 0.528918; 0.528279; 0.527613; 0.526904; 0.526136;
   0.525291; 0.524348; 0.523284; 0.522075; 0.520691; 0.519101; 0.517265; 0.515143; 0.512685; 0.509837;
   0.506536; 0.502711; 0.498284; 0.493167; 0.487261; 0.480462; 0.472655; 0.46372; 0.453536; 0.441978;
   0.428937; 0.41431; 0.398027; 0.380056; 0.360415; 0.339199; 0.316579; 0.292826; 0.268302; 0.243469;
   0.218839; 0.194962; 0.172349; 0.151413; 0.132417; 0.115443; 0.100411; 0.0871488; 0.0754538; 0.0651607;
   0.0561533; 0.0483264; 0.0415402; 0.0356632; 0.0305869; 0.0262044; 0.0224453; 0.0192005; 0.0164372;
   0.0140362; 0.012006; 0.0380237; 0.0377017; 0.0352816; 0.0344639; 0.0298581; 0; 0; 0; 0; 0; 0; 0; 0; 0; 0;
   0; 0; 0; 0; 0; 0; 0; 0; 0; 0; 0];
  [1.00405; 1.00412; 1.00418; 1.00423; 1.00427; 1.0043; 1.00432; 1.00432; 1.00432; 1.0043; 1.00426; 1.00421;
   1.00414; 1.00405; 1.00394; 1.00381; 1.00365; 1.00347; 1.00327; 1.00303; 1.00277; 1.00247; 1.00214;
   1.00177; 1.00136; 1.0009; 1.0004; 0.999846; 0.999238; 0.99857; 0.997839; 0.997038; 0.996163; 0.995208;
   0.994167; 0.993033; 0.991799; 0.990456; 0.988998; 0.987415; 0.985698; 0.983838; 0.981823; 0.979644;
   0.977288; 0.974745; 0.972001; 0.969043; 0.965859; 0.962435; 0.958756; 0.954809; 0.950579; 0.946053;
   0.941217; 0.936056; 0.930559; 0.924713; 0.918507; 0.911933; 0.904981; 0.897646; 0.889925; 0.881816;
   0.873323; 0.86445; 0.855206; 0.845605; 0.835664; 0.825404; 0.814851; 0.804035; 0.792991; 0.781757;
   0.770376; 0.758893; 0.747357; 0.735817; 0.724327; 0.712938; 0.701702; 0.69067; 0.679891; 0.66941;
   0.659269; 0.649505; 0.640151; 0.631233; 0.622773; 0.614786; 0.607282; 0.600264; 0.593731; 0.587677;
   0.582092; 0.57696; 0.572265; 0.567985; 0.564099; 0.560582; 0.557409; 0.554556; 0.551997; 0.549707;
   0.547661; 0.545836; 0.544209; 0.542758; 0.541463; 0.540304; 0.539264; 0.538323; 0.537467; 0.536679;
   0.535945; 0.535249; 0.534578; 0.533917; 0.533252; 0.532568; 0.531848; 0.531078; 0.530237; 0.529307;
   0.528265; 0.527086; 0.525743; 0.524204; 0.522432; 0.520388; 0.518023; 0.515285; 0.512115; 0.508443;
   0.504193; 0.49928; 0.49361; 0.487079; 0.479576; 0.470982; 0.461176; 0.450034; 0.437438; 0.423287;
   0.407494; 0.390013; 0.370846; 0.350052; 0.327779; 0.304258; 0.279824; 0.254896; 0.229975; 0.205604;
   0.182314; 0.160563; 0.140677; 0.122809; 0.106938; 0.0929184; 0.080551; 0.0696495; 0.0600802; 0.0517417;
   0.0445077; 0.0382374; 0.0328145; 0.0281314; 0.0240996; 0.0206353; 0.0176563; 0.0151021; 0.0129241;
   0.0390052; 0.0354851; 0.0331878; 0.0313677; 0.0284068; 0.0354932; 0; 0; 0; 0; 0; 0; 0; 0; 0; 0; 0; 0; 0;
   0; 0; 0; 0; 0; 0; 0; 0];
  [1.00483; 1.00494; 1.00505; 1.00514; 1.00522; 1.0053; 1.00536; 1.00541; 1.00545; 1.00547; 1.00548; 1.00547;
   1.00544; 1.00539; 1.00532; 1.00523; 1.00512; 1.00498; 1.00481; 1.00461; 1.00438; 1.00412; 1.00382;
   1.00349; 1.00311; 1.00268; 1.00221; 1.00169; 1.00111; 1.00048; 0.999774; 0.999003; 0.998158; 0.997233;
   0.996222; 0.995117; 0.993913; 0.992602; 0.991175; 0.989623; 0.987939; 0.986111; 0.98413; 0.981986;
   0.979666; 0.977158; 0.974451; 0.971532; 0.968388; 0.965003; 0.961366; 0.957462; 0.953276; 0.948795;
   0.944005; 0.938891; 0.933442; 0.927646; 0.92149; 0.914967; 0.908067; 0.900785; 0.893118; 0.885064;
   0.876626; 0.867808; 0.85862; 0.849076; 0.83919; 0.828986; 0.818489; 0.807729; 0.79674; 0.78556; 0.774233;
   0.762802; 0.751317; 0.739828; 0.728386; 0.717044; 0.705853; 0.694865; 0.684127; 0.673686; 0.663582;
   0.653854; 0.644533; 0.635646; 0.627215; 0.619255; 0.611776; 0.60478; 0.598269; 0.592234; 0.586665;
   0.581548; 0.576866; 0.572598; 0.568721; 0.565212; 0.562046; 0.559197; 0.556641; 0.554352; 0.552306;
   0.550479; 0.548848; 0.547391; 0.546087; 0.544918; 0.543863; 0.542907; 0.54203; 0.541219; 0.540456;
   0.539727; 0.539017; 0.538309; 0.53759; 0.536842; 0.536049; 0.535192; 0.53425; 0.533202; 0.532024;
   0.530686; 0.529157; 0.527403; 0.525382; 0.523049; 0.520351; 0.517229; 0.513616; 0.509437; 0.504607;
   0.499035; 0.492616; 0.485242; 0.476795; 0.467153; 0.456193; 0.443795; 0.429854; 0.41428; 0.397018;
   0.37806; 0.357453; 0.335326; 0.311892; 0.287466; 0.262449; 0.23733; 0.212642; 0.188927; 0.166664;
   0.146213; 0.127768; 0.111345; 0.0968222; 0.0840042; 0.0726996; 0.0627591; 0.0540771; 0.0465408; 0.0400066;
   0.0343447; 0.0294578; 0.0252434; 0.0216268; 0.0185049; 0.0158444; 0.0135476; 0.0115786; 0.0344791;
   0.0333817; 0.0326965; 0.0326593; 0.0277869; 0; 0; 0; 0; 0; 0; 0; 0; 0; 0; 0; 0; 0; 0; 0; 0; 0; 0; 0; 0; 0;
   0];
  [1.00559; 1.00574; 1.00589; 1.00603; 1.00616; 1.00628; 1.00639; 1.00649; 1.00658; 1.00665; 1.00671;
   1.00675; 1.00677; 1.00677; 1.00675; 1.0067; 1.00663; 1.00654; 1.00642; 1.00626; 1.00608; 1.00586; 1.0056;
   1.0053; 1.00496; 1.00458; 1.00414; 1.00366; 1.00311; 1.00251; 1.00185; 1.00111; 1.0003; 0.999405;
   0.998426; 0.997355; 0.996184; 0.994905; 0.993511; 0.991993; 0.990343; 0.988549; 0.986603; 0.984494;
   0.98221; 0.97974; 0.977071; 0.97419; 0.971085; 0.967741; 0.964145; 0.960283; 0.956141; 0.951705; 0.94696;
   0.941893; 0.936491; 0.930743; 0.924638; 0.918164; 0.911316; 0.904086; 0.896472; 0.888471; 0.880087;
   0.871324; 0.862191; 0.852701; 0.842871; 0.832722; 0.822279; 0.811573; 0.800638; 0.789511; 0.778236;
   0.766856; 0.755421; 0.743981; 0.732586; 0.72129; 0.710144; 0.699198; 0.6885; 0.678098; 0.668031; 0.658337;
   0.649048; 0.640192; 0.63179; 0.623856; 0.616401; 0.609429; 0.602937; 0.596921; 0.591369; 0.586268;
   0.581599; 0.577343; 0.573477; 0.569977; 0.566818; 0.563976; 0.561425; 0.55914; 0.557096; 0.55527;
   0.553639; 0.55218; 0.550874; 0.5497; 0.54864; 0.547675; 0.546789; 0.545965; 0.545188; 0.544441; 0.54371;
   0.542979; 0.542231; 0.541449; 0.540617; 0.539713; 0.538718; 0.537608; 0.536356; 0.534934; 0.533308;
   0.53144; 0.529289; 0.526804; 0.523932; 0.52061; 0.516767; 0.512325; 0.507197; 0.501285; 0.494485;
   0.486683; 0.477759; 0.467592; 0.456057; 0.443039; 0.428438; 0.412175; 0.394208; 0.374549; 0.353268;
   0.330525; 0.306565; 0.281736; 0.256467; 0.231266; 0.206679; 0.183231; 0.161371; 0.14141; 0.123486;
   0.107567; 0.0934979; 0.0810809; 0.0701309; 0.0605167; 0.0521358; 0.0448628; 0.0385566; 0.0331; 0.0283876;
   0.0243281; 0.0208386; 0.0178384; 0.0152698; 0.0130679; 0.0361403; 0.0334641; 0.0306373; 0.0297952;
   0.0284682; 0.0285374; 0; 0; 0; 0; 0; 0; 0; 0; 0; 0; 0; 0; 0; 0; 0; 0; 0; 0; 0; 0; 0; 0];
  [1.0063; 1.0065; 1.0067; 1.00688; 1.00707; 1.00724; 1.0074; 1.00756; 1.0077; 1.00782; 1.00793; 1.00802;
   1.0081; 1.00815; 1.00819; 1.0082; 1.00818; 1.00814; 1.00807; 1.00797; 1.00783; 1.00766; 1.00745; 1.0072;
   1.00691; 1.00657; 1.00617; 1.00573; 1.00523; 1.00467; 1.00404; 1.00334; 1.00257; 1.00171; 1.00077;
   0.999739; 0.998604; 0.997361; 0.996003; 0.994521; 0.992906; 0.991149; 0.98924; 0.987167; 0.98492;
   0.982488; 0.979857; 0.977016; 0.97395; 0.970648; 0.967093; 0.963274; 0.959175; 0.954782; 0.950083;
   0.945062; 0.939708; 0.934007; 0.92795; 0.921527; 0.914729; 0.907551; 0.899988; 0.89204; 0.883708;
   0.874998; 0.865919; 0.856483; 0.846706; 0.83661; 0.826221; 0.815568; 0.804685; 0.79361; 0.782385;
   0.771055; 0.759669; 0.748276; 0.736927; 0.725675; 0.714572; 0.703667; 0.693009; 0.682643; 0.672611;
   0.662951; 0.653694; 0.644867; 0.636492; 0.628583; 0.621151; 0.6142; 0.607728; 0.601729; 0.596193;
   0.591105; 0.586449; 0.582203; 0.578345; 0.574853; 0.5717; 0.568862; 0.566313; 0.564029; 0.561984;
   0.560156; 0.55852; 0.557055; 0.55574; 0.554556; 0.553482; 0.552501; 0.551595; 0.550747; 0.549942;
   0.549162; 0.548392; 0.547615; 0.546814; 0.54597; 0.545064; 0.544076; 0.542982; 0.541757; 0.540372;
   0.538795; 0.536989; 0.534913; 0.532521; 0.529758; 0.526566; 0.522876; 0.518613; 0.513691; 0.508017;
   0.501488; 0.493993; 0.485414; 0.475629; 0.464516; 0.451953; 0.437836; 0.422074; 0.404613; 0.385444;
   0.364612; 0.342246; 0.318555; 0.293849; 0.268527; 0.243077; 0.218027; 0.193923; 0.171248; 0.150376;
   0.131515; 0.114697; 0.0998088; 0.0866608; 0.0750558; 0.0648413; 0.0559054; 0.0481402; 0.0414039;
   0.0355661; 0.0305218; 0.0261675; 0.0224278; 0.0192017; 0.0164459; 0.0140665; 0.012042; 0.0329909;
   0.0320722; 0.0316612; 0.0302219; 0.0269043; 0.032475; 0; 0; 0; 0; 0; 0; 0; 0; 0; 0; 0; 0; 0; 0; 0; 0; 0;
   0; 0; 0; 0; 0];
  [1.00697; 1.00722; 1.00747; 1.00771; 1.00794; 1.00817; 1.00838; 1.00859; 1.00879; 1.00897; 1.00914;
   1.00929; 1.00943; 1.00954; 1.00964; 1.00971; 1.00975; 1.00977; 1.00975; 1.00971; 1.00963; 1.00952;
   1.00936; 1.00916; 1.00892; 1.00863; 1.00829; 1.0079; 1.00745; 1.00693; 1.00635; 1.0057; 1.00497; 1.00415;
   1.00325; 1.00226; 1.00117; 0.999963; 0.998644; 0.997201; 0.995625; 0.993907; 0.992036; 0.990002; 0.987795;
   0.985401; 0.982811; 0.980009; 0.976985; 0.973723; 0.970211; 0.966434; 0.962379; 0.958031; 0.953376;
   0.948401; 0.943094; 0.937441; 0.931432; 0.925058; 0.91831; 0.911182; 0.90367; 0.895773; 0.887493;
   0.878836; 0.869809; 0.860425; 0.850701; 0.840658; 0.83032; 0.819719; 0.808887; 0.797862; 0.786687;
   0.775406; 0.764066; 0.752719; 0.741415; 0.730207; 0.719144; 0.708279; 0.697659; 0.68733; 0.677333;
   0.667704; 0.658478; 0.64968; 0.641331; 0.633447; 0.626038; 0.619107; 0.612654; 0.606673; 0.601152;
   0.596079; 0.591434; 0.587199; 0.583351; 0.579866; 0.57672; 0.573888; 0.571343; 0.569061; 0.567018;
   0.56519; 0.563553; 0.562085; 0.560766; 0.559576; 0.558494; 0.557503; 0.556585; 0.555724; 0.554901;
   0.554101; 0.553307; 0.552501; 0.551667; 0.550784; 0.549833; 0.548792; 0.547637; 0.54634; 0.544872;
   0.543199; 0.541282; 0.539078; 0.536537; 0.533604; 0.530217; 0.526303; 0.521784; 0.516571; 0.510568;
   0.503668; 0.495757; 0.486716; 0.476423; 0.464752; 0.45159; 0.436834; 0.420405; 0.402261; 0.382411;
   0.360923; 0.337954; 0.313743; 0.288631; 0.263045; 0.23749; 0.212507; 0.188627; 0.16631; 0.145882;
   0.127501; 0.111151; 0.0966886; 0.083914; 0.072642; 0.0627302; 0.0540741; 0.0465585; 0.0400391; 0.0343879;
   0.0295088; 0.0253006; 0.0216869; 0.0185686; 0.0159072; 0.0136128; 0.0116452; 0.0311728; 0.0298938;
   0.0292992; 0.0292999; 0.0287138; 0; 0; 0; 0; 0; 0; 0; 0; 0; 0; 0; 0; 0; 0; 0; 0; 0; 0; 0; 0; 0; 0; 0];
  [1.00761; 1.0079; 1.0082; 1.00849; 1.00877; 1.00906; 1.00933; 1.0096; 1.00985; 1.0101; 1.01033; 1.01054;
   1.01074; 1.01092; 1.01108; 1.01121; 1.01132; 1.0114; 1.01146; 1.01148; 1.01146; 1.01141; 1.01132; 1.01118;
   1.011; 1.01077; 1.01049; 1.01015; 1.00975; 1.00929; 1.00876; 1.00816; 1.00747; 1.00671; 1.00586; 1.00491;
   1.00386; 1.0027; 1.00143; 1.00003; 0.998493; 0.996817; 0.994988; 0.992996; 0.990829; 0.988478; 0.985928;
   0.983169; 0.980186; 0.976967; 0.973498; 0.969764; 0.965753; 0.961449; 0.95684; 0.951911; 0.94665;
   0.941045; 0.935084; 0.928758; 0.922059; 0.91498; 0.907519; 0.899673; 0.891444; 0.882837; 0.873862;
   0.864529; 0.854856; 0.844864; 0.834578; 0.824026; 0.813244; 0.802268; 0.791141; 0.779907; 0.768614;
   0.757311; 0.74605; 0.734883; 0.723861; 0.713035; 0.702451; 0.692157; 0.682192; 0.672595; 0.663398;
   0.654627; 0.646303; 0.638443; 0.631055; 0.624144; 0.617709; 0.611744; 0.606238; 0.601177; 0.596543;
   0.592318; 0.588478; 0.584999; 0.581858; 0.579028; 0.576486; 0.574204; 0.57216; 0.570328; 0.568686;
   0.567212; 0.565884; 0.564682; 0.563586; 0.562578; 0.56164; 0.560754; 0.559903; 0.559069; 0.558235;
   0.557383; 0.556494; 0.555549; 0.554524; 0.553397; 0.552142; 0.55073; 0.549128; 0.547299; 0.545203;
   0.542791; 0.540011; 0.536804; 0.5331; 0.528825; 0.523894; 0.518214; 0.511682; 0.504187; 0.495613;
   0.485837; 0.474735; 0.462187; 0.448084; 0.432334; 0.414878; 0.395697; 0.374832; 0.352396; 0.328586;
   0.303693; 0.27811; 0.252302; 0.226798; 0.202145; 0.178844; 0.157295; 0.137742; 0.120256; 0.104751;
   0.091047; 0.0789416; 0.0682687; 0.0589118; 0.0507627; 0.0436922; 0.0375571; 0.03225; 0.0276668; 0.0237248;
   0.0203279; 0.017415; 0.0149067; 0.0127781; 0.03169; 0.0298706; 0.0273161; 0.0245627; 0.0248059; 0.0177412;
   0; 0; 0; 0; 0; 0; 0; 0; 0; 0; 0; 0; 0; 0; 0; 0; 0; 0; 0; 0; 0; 0; 0];
  [1.0082; 1.00855; 1.00889; 1.00923; 1.00957; 1.00991; 1.01024; 1.01057; 1.01088; 1.01119; 1.01149; 1.01177;
   1.01203; 1.01228; 1.01251; 1.01271; 1.01289; 1.01304; 1.01316; 1.01325; 1.01331; 1.01333; 1.0133; 1.01324;
   1.01312; 1.01296; 1.01274; 1.01246; 1.01213; 1.01173; 1.01126; 1.01071; 1.01009; 1.00938; 1.00858;
   1.00768; 1.00668; 1.00557; 1.00435; 1.00299; 1.00151; 0.999875; 0.998091; 0.996143; 0.994021; 0.991714;
   0.989208; 0.986492; 0.983553; 0.980378; 0.976953; 0.973264; 0.969298; 0.965039; 0.960476; 0.955593;
   0.950379; 0.94482; 0.938907; 0.93263; 0.925979; 0.91895; 0.911538; 0.903742; 0.895563; 0.887007; 0.878082;
   0.8688; 0.859177; 0.849235; 0.838998; 0.828496; 0.817762; 0.806834; 0.795754; 0.784565; 0.773317;
   0.762058; 0.750839; 0.739712; 0.728729; 0.71794; 0.707392; 0.697132; 0.687199; 0.677632; 0.668463;
   0.659719; 0.65142; 0.643582; 0.636216; 0.629324; 0.622906; 0.616957; 0.611465; 0.606417; 0.601795;
   0.597579; 0.593748; 0.590276; 0.587141; 0.584316; 0.581777; 0.579498; 0.577454; 0.575622; 0.573978;
   0.572501; 0.571168; 0.56996; 0.568856; 0.567839; 0.566888; 0.565988; 0.565119; 0.564265; 0.563407;
   0.562527; 0.561605; 0.56062; 0.55955; 0.558371; 0.557056; 0.555573; 0.553889; 0.551966; 0.54976; 0.547223;
   0.544299; 0.540926; 0.537033; 0.532543; 0.527367; 0.521409; 0.514565; 0.506721; 0.497758; 0.487553;
   0.475983; 0.462929; 0.448286; 0.43197; 0.413931; 0.394166; 0.372731; 0.349761; 0.325478; 0.300199;
   0.274333; 0.248371; 0.222848; 0.198305; 0.175226; 0.153979; 0.134768; 0.117626; 0.102438; 0.0890117;
   0.0771515; 0.0667018; 0.0575504; 0.0495869; 0.0426788; 0.036685; 0.031501; 0.0270257; 0.0231767;
   0.0198581; 0.0170171; 0.0145676; 0.0124881; 0.0299675; 0.0286661; 0.0269923; 0.024536; 0.0228625;
   0.00688477; 0; 0; 0; 0; 0; 0; 0; 0; 0; 0; 0; 0; 0; 0; 0; 0; 0; 0; 0; 0; 0; 0; 0];
  [1.00876; 1.00915; 1.00954; 1.00993; 1.01033; 1.01072; 1.01111; 1.01149; 1.01187; 1.01225; 1.01261;
   1.01296; 1.01329; 1.01361; 1.01391; 1.01419; 1.01444; 1.01467; 1.01487; 1.01503; 1.01516; 1.01526;
   1.01531; 1.01532; 1.01528; 1.01518; 1.01504; 1.01483; 1.01457; 1.01423; 1.01383; 1.01335; 1.01279;
   1.01214; 1.0114; 1.01056; 1.00962; 1.00856; 1.00739; 1.00609; 1.00465; 1.00307; 1.00134; 0.99944;
   0.997366; 0.995105; 0.992646; 0.989977; 0.987084; 0.983955; 0.980576; 0.976933; 0.973012; 0.9688;
   0.964283; 0.959447; 0.95428; 0.948769; 0.942903; 0.936674; 0.930072; 0.923092; 0.915729; 0.907982;
   0.899852; 0.891346; 0.88247; 0.873237; 0.863664; 0.85377; 0.843582; 0.833128; 0.822441; 0.811559;
   0.800524; 0.78938; 0.778175; 0.766958; 0.75578; 0.744692; 0.733747; 0.722993; 0.71248; 0.702252; 0.69235;
   0.682812; 0.67367; 0.66495; 0.656675; 0.648859; 0.641512; 0.634638; 0.628237; 0.622302; 0.616823;
   0.611786; 0.607174; 0.602966; 0.599141; 0.595675; 0.592543; 0.58972; 0.587182; 0.584901; 0.582855;
   0.581019; 0.579369; 0.577883; 0.576539; 0.575317; 0.574198; 0.57316; 0.572187; 0.571259; 0.570358;
   0.569465; 0.568563; 0.567631; 0.566648; 0.565593; 0.564441; 0.563167; 0.561741; 0.56013; 0.558298;
   0.556204; 0.5538; 0.551036; 0.54785; 0.544177; 0.539941; 0.535059; 0.529439; 0.522979; 0.51557; 0.507095;
   0.497433; 0.486459; 0.474051; 0.460097; 0.444502; 0.427196; 0.408152; 0.387396; 0.36502; 0.341203;
   0.316212; 0.290413; 0.264255; 0.238257; 0.212964; 0.188896; 0.166491; 0.146043; 0.127677; 0.111349;
   0.0969002; 0.0841271; 0.0728501; 0.0629334; 0.054273; 0.046751; 0.0402224; 0.0345614; 0.0296721;
   0.0254543; 0.0218299; 0.0187033; 0.0160316; 0.0137303; 0.0117562; 0.0275705; 0.0264368; 0.0259224;
   0.0257596; 0.0239073; 0; 0; 0; 0; 0; 0; 0; 0; 0; 0; 0; 0; 0; 0; 0; 0; 0; 0; 0; 0; 0; 0; 0; 0];
  [1.00928; 1.00971; 1.01015; 1.01059; 1.01104; 1.01149; 1.01194; 1.01238; 1.01283; 1.01326; 1.01369;
   1.01411; 1.01452; 1.01491; 1.01529; 1.01564; 1.01597; 1.01628; 1.01656; 1.01681; 1.01702; 1.01719;
   1.01732; 1.01741; 1.01745; 1.01744; 1.01737; 1.01725; 1.01706; 1.0168; 1.01647; 1.01606; 1.01557; 1.01499;
   1.01431; 1.01354; 1.01266; 1.01167; 1.01056; 1.00931; 1.00793; 1.00641; 1.00473; 1.00288; 1.00086;
   0.998649; 0.99624; 0.99362; 0.990776; 0.987695; 0.984364; 0.980769; 0.976896; 0.972732; 0.968262;
   0.963474; 0.958354; 0.952891; 0.947074; 0.940893; 0.93434; 0.927408; 0.920094; 0.912396; 0.904315;
   0.895857; 0.88703; 0.877846; 0.868321; 0.858476; 0.848335; 0.837927; 0.827286; 0.81645; 0.805459;
   0.794359; 0.783195; 0.772019; 0.76088; 0.749831; 0.738922; 0.728203; 0.717723; 0.707526; 0.697654;
   0.688144; 0.679028; 0.670333; 0.66208; 0.654285; 0.646958; 0.640102; 0.633716; 0.627796; 0.62233;
   0.617304; 0.612702; 0.608504; 0.604686; 0.601226; 0.598099; 0.59528; 0.592744; 0.590465; 0.588419;
   0.586581; 0.584928; 0.583438; 0.582089; 0.58086; 0.579731; 0.578682; 0.577695; 0.576751; 0.57583;
   0.574915; 0.573986; 0.573023; 0.572004; 0.570906; 0.569706; 0.568374; 0.566882; 0.565195; 0.563274;
   0.561078; 0.558558; 0.555659; 0.552319; 0.548469; 0.544033; 0.538922; 0.533044; 0.526294; 0.51856;
   0.509723; 0.499661; 0.48825; 0.475369; 0.460908; 0.44478; 0.426923; 0.40732; 0.386015; 0.363116; 0.338825;
   0.313431; 0.287323; 0.260966; 0.23489; 0.209641; 0.185726; 0.163556; 0.143393; 0.125324; 0.109278;
   0.0950791; 0.0825261; 0.0714447; 0.0617085; 0.0532156; 0.0458389; 0.0394349; 0.0338876; 0.0290936;
   0.0249619; 0.0214057; 0.0183474; 0.0157232; 0.0134734; 0.0115377; 0.0260028; 0.0244529; 0.0233201;
   0.0236687; 0.0210071; 0; 0; 0; 0; 0; 0; 0; 0; 0; 0; 0; 0; 0; 0; 0; 0; 0; 0; 0; 0; 0; 0; 0; 0];
  [1.00976; 1.01024; 1.01073; 1.01122; 1.01172; 1.01222; 1.01273; 1.01323; 1.01374; 1.01424; 1.01474;
   1.01523; 1.01571; 1.01618; 1.01663; 1.01707; 1.01748; 1.01787; 1.01823; 1.01856; 1.01886; 1.01912;
   1.01934; 1.01951; 1.01964; 1.01972; 1.01973; 1.01969; 1.01958; 1.01941; 1.01916; 1.01883; 1.01841;
   1.01791; 1.01731; 1.01661; 1.0158; 1.01488; 1.01383; 1.01265; 1.01134; 1.00987; 1.00825; 1.00646; 1.00449;
   1.00234; 0.999985; 0.997418; 0.994626; 0.991596; 0.988316; 0.984771; 0.980947; 0.976832; 0.972412;
   0.967672; 0.962602; 0.957188; 0.951419; 0.945287; 0.938782; 0.931899; 0.924633; 0.916984; 0.908952;
   0.900542; 0.891763; 0.882627; 0.873149; 0.863351; 0.853256; 0.842894; 0.832298; 0.821506; 0.810558;
   0.799499; 0.788377; 0.77724; 0.766139; 0.755126; 0.744252; 0.733567; 0.723118; 0.712951; 0.703108;
   0.693624; 0.684533; 0.675861; 0.667629; 0.659854; 0.652544; 0.645704; 0.639333; 0.633425; 0.627971;
   0.622955; 0.618361; 0.614169; 0.610356; 0.6069; 0.603775; 0.600957; 0.59842; 0.596138; 0.594087; 0.592242;
   0.590581; 0.58908; 0.587717; 0.586471; 0.585322; 0.58425; 0.583235; 0.582257; 0.581298; 0.580338;
   0.579356; 0.578331; 0.57724; 0.576059; 0.574762; 0.573319; 0.571696; 0.569859; 0.567765; 0.565369;
   0.562619; 0.559455; 0.555811; 0.551615; 0.546783; 0.541224; 0.534839; 0.527518; 0.519146; 0.509601;
   0.498759; 0.486497; 0.4727; 0.457268; 0.440123; 0.421229; 0.400596; 0.378299; 0.354495; 0.329428;
   0.303438; 0.276954; 0.25048; 0.224557; 0.199723; 0.176444; 0.155066; 0.135767; 0.118554; 0.103298;
   0.0898006; 0.0778687; 0.0673516; 0.058139; 0.0501194; 0.0431578; 0.0371142; 0.0318861; 0.0273711;
   0.0234856; 0.0201352; 0.0172656; 0.0147913; 0.0126861; 0.0261321; 0.025004; 0.0239427; 0.0224285;
   0.0203055; 0.0123128; 0; 0; 0; 0; 0; 0; 0; 0; 0; 0; 0; 0; 0; 0; 0; 0; 0; 0; 0; 0; 0; 0; 0; 0];
  [1.01022; 1.01073; 1.01127; 1.01181; 1.01236; 1.01291; 1.01348; 1.01404; 1.01461; 1.01518; 1.01575;
   1.01631; 1.01686; 1.01741; 1.01794; 1.01846; 1.01895; 1.01943; 1.01988; 1.0203; 1.02068; 1.02104; 1.02135;
   1.02161; 1.02183; 1.022; 1.02211; 1.02216; 1.02214; 1.02206; 1.02189; 1.02165; 1.02132; 1.0209; 1.02038;
   1.01976; 1.01903; 1.01818; 1.01721; 1.0161; 1.01485; 1.01345; 1.0119; 1.01017; 1.00827; 1.00617; 1.00388;
   1.00137; 0.99863; 0.995655; 0.992428; 0.988936; 0.985165; 0.981101; 0.976732; 0.972043; 0.967022;
   0.961658; 0.955939; 0.949856; 0.9434; 0.936566; 0.929349; 0.921748; 0.913765; 0.905403; 0.896671;
   0.887582; 0.878151; 0.868399; 0.858349; 0.848032; 0.83748; 0.82673; 0.815824; 0.804806; 0.793723;
   0.782624; 0.77156; 0.760582; 0.749742; 0.739089; 0.72867; 0.718532; 0.708716; 0.699257; 0.69019; 0.681539;
   0.673328; 0.665571; 0.658277; 0.651452; 0.645095; 0.639199; 0.633754; 0.628747; 0.62416; 0.619973;
   0.616164; 0.61271; 0.609586; 0.606766; 0.604225; 0.601939; 0.59988; 0.598027; 0.596353; 0.594837;
   0.593456; 0.592189; 0.591014; 0.589912; 0.588861; 0.587841; 0.586833; 0.585816; 0.584768; 0.583666;
   0.582485; 0.581201; 0.579783; 0.5782; 0.576416; 0.574392; 0.572083; 0.569438; 0.566402; 0.562911;
   0.558893; 0.55427; 0.548952; 0.542843; 0.535837; 0.527821; 0.518674; 0.508274; 0.496496; 0.48322; 0.46834;
   0.451768; 0.433449; 0.413373; 0.391588; 0.368213; 0.343458; 0.317621; 0.291098; 0.264362; 0.237946;
   0.212394; 0.188212; 0.165806; 0.145429; 0.127166; 0.110938; 0.0965702; 0.083859; 0.072633; 0.0627635;
   0.0541468; 0.046661; 0.0401603; 0.0345239; 0.0296517; 0.0254508; 0.0218368; 0.01872; 0.0160521; 0.0137608;
   0.0117916; 0.0237639; 0.0227478; 0.0230937; 0.022206; 0.0237685; 0; 0; 0; 0; 0; 0; 0; 0; 0; 0; 0; 0; 0; 0;
   0; 0; 0; 0; 0; 0; 0; 0; 0; 0; 0];
  [1.01064; 1.0112; 1.01177; 1.01236; 1.01296; 1.01357; 1.01419; 1.01481; 1.01544; 1.01608; 1.01671; 1.01735;
   1.01798; 1.0186; 1.01921; 1.01981; 1.02039; 1.02095; 1.02149; 1.02201; 1.02249; 1.02293; 1.02334; 1.0237;
   1.02402; 1.02428; 1.02449; 1.02464; 1.02472; 1.02473; 1.02466; 1.02451; 1.02428; 1.02395; 1.02352;
   1.02298; 1.02234; 1.02157; 1.02067; 1.01965; 1.01847; 1.01715; 1.01567; 1.01401; 1.01217; 1.01014;
   1.00791; 1.00546; 1.00279; 0.999869; 0.9967; 0.993264; 0.989548; 0.985539; 0.981223; 0.976587; 0.971618;
   0.966305; 0.960637; 0.954604; 0.948199; 0.941414; 0.934246; 0.926694; 0.918759; 0.910445; 0.901761;
   0.892719; 0.883334; 0.873627; 0.863622; 0.853349; 0.84284; 0.832133; 0.821268; 0.81029; 0.799245;
   0.788183; 0.777155; 0.766212; 0.755404; 0.744783; 0.734394; 0.724284; 0.714494; 0.705061; 0.696017;
   0.687388; 0.679197; 0.671458; 0.664182; 0.657373; 0.65103; 0.645147; 0.639714; 0.634717; 0.630139;
   0.625961; 0.622159; 0.618711; 0.615592; 0.612777; 0.61024; 0.607956; 0.6059; 0.604047; 0.602374; 0.600858;
   0.599475; 0.598206; 0.597028; 0.595921; 0.594865; 0.59384; 0.592824; 0.591798; 0.590739; 0.589624;
   0.588429; 0.587128; 0.58569; 0.584085; 0.582276; 0.580222; 0.57788; 0.575197; 0.572118; 0.568578;
   0.564505; 0.559819; 0.554432; 0.548245; 0.541153; 0.533041; 0.52379; 0.513274; 0.501371; 0.48796;
   0.472934; 0.456208; 0.437725; 0.417477; 0.395513; 0.371953; 0.347007; 0.320974; 0.29425; 0.267309;
   0.240684; 0.21492; 0.190525; 0.167907; 0.147325; 0.128865; 0.112456; 0.0979232; 0.0850621; 0.0736985;
   0.0637032; 0.0549715; 0.0473825; 0.0407907; 0.035073; 0.0301312; 0.0258669; 0.0221996; 0.0190359;
   0.0163291; 0.0139992; 0.0119984; 0.0227934; 0.0219563; 0.021616; 0.0222789; 0.0196939; 0; 0; 0; 0; 0; 0;
   0; 0; 0; 0; 0; 0; 0; 0; 0; 0; 0; 0; 0; 0; 0; 0; 0; 0; 0];
  [1.01103; 1.01163; 1.01224; 1.01288; 1.01352; 1.01419; 1.01486; 1.01554; 1.01624; 1.01694; 1.01764;
   1.01834; 1.01905; 1.01975; 1.02044; 1.02112; 1.02179; 1.02245; 1.02308; 1.02368; 1.02426; 1.02481;
   1.02531; 1.02578; 1.0262; 1.02656; 1.02688; 1.02713; 1.02731; 1.02742; 1.02746; 1.02741; 1.02727; 1.02704;
   1.02671; 1.02627; 1.02571; 1.02503; 1.02423; 1.02329; 1.0222; 1.02095; 1.01955; 1.01797; 1.0162; 1.01424;
   1.01208; 1.0097; 1.00709; 1.00423; 1.00113; 0.997751; 0.994093; 0.990141; 0.985881; 0.9813; 0.976386;
   0.971126; 0.96551; 0.959529; 0.953175; 0.94644; 0.939322; 0.931819; 0.923933; 0.915667; 0.90703; 0.898034;
   0.888695; 0.879033; 0.869073; 0.858843; 0.848376; 0.837709; 0.826884; 0.815945; 0.804938; 0.793912;
   0.782919; 0.772008; 0.761232; 0.750641; 0.740281; 0.730198; 0.720433; 0.711023; 0.702001; 0.693393;
   0.68522; 0.677499; 0.670239; 0.663444; 0.657113; 0.651242; 0.645819; 0.640832; 0.636262; 0.63209;
   0.628294; 0.62485; 0.621734; 0.61892; 0.616384; 0.614099; 0.612041; 0.610185; 0.608508; 0.606985;
   0.605595; 0.604316; 0.603126; 0.602005; 0.600932; 0.599887; 0.598848; 0.597795; 0.596704; 0.595552;
   0.594315; 0.592964; 0.59147; 0.589798; 0.587913; 0.585772; 0.583329; 0.580531; 0.577319; 0.573628;
   0.569384; 0.564503; 0.558895; 0.552459; 0.545089; 0.536667; 0.527072; 0.516179; 0.503865; 0.490012;
   0.474515; 0.457296; 0.438306; 0.417547; 0.395083; 0.37105; 0.345675; 0.319277; 0.292268; 0.265137;
   0.238423; 0.212669; 0.188371; 0.165914; 0.145529; 0.127276; 0.11106; 0.0966968; 0.0839832; 0.0727528;
   0.0628803; 0.0542616; 0.0467724; 0.0402664; 0.0346245; 0.029747; 0.0255408; 0.0219213; 0.0187994;
   0.0161268; 0.0138324; 0.0118591; 0.0213351; 0.0204918; 0.0205111; 0.0199591; 0.0212863; 0; 0; 0; 0; 0; 0;
   0; 0; 0; 0; 0; 0; 0; 0; 0; 0; 0; 0; 0; 0; 0; 0; 0; 0; 0];
  [1.01139; 1.01203; 1.01269; 1.01336; 1.01406; 1.01477; 1.0155; 1.01624; 1.01699; 1.01775; 1.01853; 1.0193;
   1.02008; 1.02086; 1.02163; 1.0224; 1.02316; 1.0239; 1.02463; 1.02533; 1.026; 1.02665; 1.02726; 1.02783;
   1.02836; 1.02883; 1.02925; 1.02961; 1.0299; 1.03012; 1.03027; 1.03033; 1.0303; 1.03017; 1.02994; 1.0296;
   1.02915; 1.02857; 1.02786; 1.02701; 1.02601; 1.02485; 1.02353; 1.02203; 1.02035; 1.01847; 1.01638;
   1.01407; 1.01153; 1.00874; 1.0057; 1.00239; 0.998797; 0.994905; 0.990705; 0.986181; 0.981324; 0.976119;
   0.970558; 0.96463; 0.958328; 0.951645; 0.944577; 0.937124; 0.929286; 0.921068; 0.912478; 0.903529;
   0.894235; 0.884617; 0.8747; 0.864513; 0.854087; 0.843461; 0.832675; 0.821772; 0.810801; 0.79981; 0.78885;
   0.777972; 0.767226; 0.756662; 0.746329; 0.736272; 0.72653; 0.717142; 0.70814; 0.699551; 0.691396; 0.68369;
   0.676443; 0.669661; 0.663341; 0.657479; 0.652064; 0.647082; 0.642517; 0.638348; 0.634554; 0.63111;
   0.627992; 0.625175; 0.622633; 0.620341; 0.618273; 0.616404; 0.614712; 0.613171; 0.611759; 0.610454;
   0.609233; 0.608076; 0.606962; 0.605867; 0.604771; 0.603651; 0.602484; 0.601243; 0.599902; 0.598431;
   0.596798; 0.594966; 0.592895; 0.590541; 0.587853; 0.584774; 0.581239; 0.577179; 0.572514; 0.567155;
   0.561007; 0.553963; 0.54591; 0.536729; 0.526295; 0.514483; 0.501174; 0.486254; 0.469634; 0.451251;
   0.431084; 0.409169; 0.385609; 0.360592; 0.334398; 0.307398; 0.28005; 0.252877; 0.226425; 0.201222;
   0.177708; 0.156192; 0.136809; 0.119533; 0.104212; 0.0906433; 0.078637; 0.068051; 0.0587766; 0.0507004;
   0.0436842; 0.0375896; 0.0323146; 0.0277571; 0.0238337; 0.0204494; 0.0175484; 0.0150481; 0.0129164;
   0.0210892; 0.0203886; 0.0196003; 0.0189838; 0.0165172; 0.0137883; 0; 0; 0; 0; 0; 0; 0; 0; 0; 0; 0; 0; 0;
   0; 0; 0; 0; 0; 0; 0; 0; 0; 0; 0; 0];
  [1.01173; 1.01241; 1.0131; 1.01382; 1.01456; 1.01532; 1.0161; 1.0169; 1.01771; 1.01853; 1.01937; 1.02022;
   1.02107; 1.02193; 1.02278; 1.02363; 1.02448; 1.02532; 1.02614; 1.02694; 1.02771; 1.02846; 1.02918;
   1.02986; 1.03049; 1.03108; 1.03161; 1.03209; 1.03249; 1.03283; 1.03309; 1.03326; 1.03334; 1.03333;
   1.03321; 1.03298; 1.03264; 1.03216; 1.03156; 1.03081; 1.0299; 1.02884; 1.02762; 1.02621; 1.02461; 1.02281;
   1.0208; 1.01857; 1.01611; 1.0134; 1.01043; 1.00719; 1.00366; 0.999831; 0.995693; 0.991231; 0.986433;
   0.981287; 0.975782; 0.969909; 0.963661; 0.957031; 0.950015; 0.942612; 0.934824; 0.926654; 0.918112;
   0.909209; 0.899961; 0.890387; 0.880513; 0.870367; 0.859983; 0.849396; 0.838648; 0.827782; 0.816846;
   0.805889; 0.794961; 0.784113; 0.773397; 0.762861; 0.752554; 0.742521; 0.732802; 0.723435; 0.714453;
   0.705882; 0.697743; 0.690052; 0.682819; 0.676048; 0.669739; 0.663887; 0.65848; 0.653505; 0.648944;
   0.644779; 0.640987; 0.637544; 0.634426; 0.631608; 0.629062; 0.626765; 0.62469; 0.622813; 0.621109;
   0.619555; 0.618127; 0.616803; 0.61556; 0.614376; 0.61323; 0.612099; 0.610961; 0.609791; 0.608566;
   0.607259; 0.605841; 0.604281; 0.602545; 0.600595; 0.598388; 0.595877; 0.593008; 0.589723; 0.585953;
   0.581624; 0.576654; 0.570949; 0.564411; 0.55693; 0.548389; 0.538668; 0.52764; 0.515181; 0.501173;
   0.485511; 0.468115; 0.448933; 0.427965; 0.405271; 0.38098; 0.355315; 0.328585; 0.301198; 0.273633;
   0.246431; 0.220136; 0.195255; 0.17219; 0.151196; 0.132354; 0.115592; 0.100731; 0.0875676; 0.0759257;
   0.0656757; 0.0567108; 0.0489123; 0.0421343; 0.0362516; 0.0311626; 0.0267675; 0.0229848; 0.0197219;
   0.0169277; 0.0145198; 0.0124609; 0.0193259; 0.0189999; 0.0186224; 0.0187482; 0.0182028; 0.0166536; 0; 0;
   0; 0; 0; 0; 0; 0; 0; 0; 0; 0; 0; 0; 0; 0; 0; 0; 0; 0; 0; 0; 0; 0; 0];
  [1.01205; 1.01276; 1.01349; 1.01425; 1.01503; 1.01584; 1.01667; 1.01752; 1.01839; 1.01928; 1.02018; 1.0211;
   1.02202; 1.02295; 1.02389; 1.02483; 1.02576; 1.02669; 1.02761; 1.02851; 1.02939; 1.03024; 1.03107;
   1.03186; 1.03261; 1.03331; 1.03396; 1.03455; 1.03508; 1.03553; 1.03591; 1.03621; 1.03641; 1.03651;
   1.03651; 1.0364; 1.03617; 1.03581; 1.03531; 1.03467; 1.03388; 1.03292; 1.03179; 1.03048; 1.02898; 1.02727;
   1.02535; 1.02321; 1.02082; 1.01819; 1.0153; 1.01213; 1.00867; 1.00491; 1.00084; 0.996447; 0.991711;
   0.986626; 0.981181; 0.975366; 0.969173; 0.962598; 0.955635; 0.948284; 0.940546; 0.932426; 0.923932;
   0.915075; 0.905872; 0.896343; 0.886512; 0.876408; 0.866063; 0.855515; 0.844804; 0.833975; 0.823073;
   0.812149; 0.801252; 0.790434; 0.779746; 0.769237; 0.758954; 0.748944; 0.739247; 0.729901; 0.720937;
   0.712383; 0.704259; 0.696583; 0.689362; 0.682603; 0.676304; 0.670459; 0.665059; 0.66009; 0.655534;
   0.651372; 0.647582; 0.64414; 0.64102; 0.638199; 0.635649; 0.633346; 0.631264; 0.629377; 0.627661;
   0.626092; 0.624646; 0.623301; 0.622033; 0.62082; 0.61964; 0.61847; 0.617286; 0.616064; 0.614777; 0.613398;
   0.611898; 0.610243; 0.608397; 0.606321; 0.603968; 0.60129; 0.59823; 0.594726; 0.590706; 0.586093; 0.5808;
   0.574731; 0.567783; 0.559844; 0.550793; 0.540508; 0.528862; 0.515734; 0.501008; 0.484586; 0.466399;
   0.446413; 0.424645; 0.40118; 0.376179; 0.349897; 0.322675; 0.294951; 0.267229; 0.240056; 0.213971;
   0.189453; 0.166862; 0.146397; 0.128088; 0.111819; 0.0973974; 0.0846222; 0.0733327; 0.0634077; 0.0547415;
   0.0472074; 0.0406587; 0.0349777; 0.030065; 0.025827; 0.0221783; 0.0190314; 0.0163355; 0.01402; 0.0120297;
   0.0177881; 0.0171715; 0.0176752; 0.0172102; 0.0192742; 0.000950725; 0; 0; 0; 0; 0; 0; 0; 0; 0; 0; 0; 0; 0;
   0; 0; 0; 0; 0; 0; 0; 0; 0; 0; 0; 0];
  [1.01235; 1.01309; 1.01386; 1.01465; 1.01548; 1.01633; 1.01721; 1.01811; 1.01904; 1.01999; 1.02095;
   1.02194; 1.02293; 1.02394; 1.02496; 1.02598; 1.02701; 1.02803; 1.02904; 1.03004; 1.03102; 1.03199;
   1.03292; 1.03382; 1.03469; 1.03551; 1.03628; 1.037; 1.03765; 1.03823; 1.03873; 1.03915; 1.03948; 1.03971;
   1.03984; 1.03985; 1.03974; 1.0395; 1.03912; 1.0386; 1.03792; 1.03707; 1.03605; 1.03484; 1.03344; 1.03183;
   1.03001; 1.02796; 1.02566; 1.02312; 1.02031; 1.01722; 1.01384; 1.01015; 1.00616; 1.00183; 0.997159;
   0.992138; 0.986755; 0.981; 0.974866; 0.968347; 0.96144; 0.954142; 0.946456; 0.938386; 0.92994; 0.921131;
   0.911974; 0.902489; 0.892701; 0.882638; 0.872333; 0.861824; 0.85115; 0.840355; 0.829488; 0.818596;
   0.80773; 0.796941; 0.786279; 0.775796; 0.765538; 0.75555; 0.745875; 0.736548; 0.727602; 0.719064;
   0.710956; 0.703293; 0.696085; 0.689336; 0.683047; 0.677211; 0.671818; 0.666855; 0.662305; 0.658147;
   0.654359; 0.650918; 0.6478; 0.644977; 0.642426; 0.64012; 0.638033; 0.63614; 0.634416; 0.632837; 0.63138;
   0.630021; 0.628737; 0.627505; 0.626303; 0.625106; 0.623891; 0.622634; 0.621306; 0.61988; 0.618325;
   0.616607; 0.614688; 0.612528; 0.61008; 0.607293; 0.604108; 0.60046; 0.596279; 0.591482; 0.585981;
   0.579678; 0.572468; 0.564236; 0.554861; 0.544219; 0.532184; 0.518635; 0.503459; 0.486562; 0.467882;
   0.447391; 0.425121; 0.40117; 0.375713; 0.349022; 0.321458; 0.29347; 0.265574; 0.238319; 0.212242;
   0.187804; 0.165345; 0.145039; 0.12689; 0.110768; 0.0964732; 0.0838098; 0.0726207; 0.0627898; 0.0542113;
   0.0467512; 0.0402658; 0.0346423; 0.0297798; 0.0255852; 0.0219708; 0.0188605; 0.0161901; 0.0138991;
   0.0119278; 0.0165393; 0.0158353; 0.0157199; 0.0159246; 0.0154392; 0.0237611; 0; 0; 0; 0; 0; 0; 0; 0; 0; 0;
   0; 0; 0; 0; 0; 0; 0; 0; 0; 0; 0; 0; 0; 0; 0];
  [1.01262; 1.01339; 1.0142; 1.01503; 1.0159; 1.01679; 1.01772; 1.01867; 1.01965; 1.02066; 1.02169; 1.02274;
   1.02381; 1.02489; 1.02599; 1.02709; 1.02821; 1.02932; 1.03043; 1.03153; 1.03262; 1.03369; 1.03474;
   1.03576; 1.03674; 1.03768; 1.03858; 1.03942; 1.0402; 1.04091; 1.04154; 1.0421; 1.04256; 1.04292; 1.04318;
   1.04332; 1.04334; 1.04323; 1.04298; 1.04258; 1.04202; 1.04129; 1.04039; 1.03929; 1.038; 1.0365; 1.03478;
   1.03282; 1.03063; 1.02817; 1.02545; 1.02245; 1.01915; 1.01555; 1.01162; 1.00737; 1.00277; 0.997818;
   0.992501; 0.98681; 0.980737; 0.974277; 0.967427; 0.960184; 0.952551; 0.944533; 0.936137; 0.927376;
   0.918265; 0.908824; 0.899079; 0.889057; 0.878792; 0.86832; 0.857683; 0.846923; 0.836089; 0.825228;
   0.814391; 0.80363; 0.792995; 0.782536; 0.772301; 0.762335; 0.752679; 0.74337; 0.734441; 0.725919;
   0.717824; 0.710173; 0.702976; 0.696237; 0.689956; 0.684127; 0.67874; 0.673782; 0.669234; 0.665078;
   0.661291; 0.657849; 0.654728; 0.651903; 0.649346; 0.647032; 0.644936; 0.643032; 0.641295; 0.6397;
   0.638224; 0.636842; 0.635531; 0.634269; 0.63303; 0.631792; 0.630529; 0.629215; 0.627822; 0.626321;
   0.624679; 0.622861; 0.620828; 0.618536; 0.615937; 0.612975; 0.609592; 0.605718; 0.601278; 0.596189;
   0.590357; 0.583683; 0.576055; 0.567359; 0.55747; 0.546263; 0.533613; 0.519401; 0.503519; 0.485883;
   0.46644; 0.445182; 0.422159; 0.397496; 0.371398; 0.344165; 0.316187; 0.28794; 0.259954; 0.23278; 0.206941;
   0.182866; 0.16085; 0.141016; 0.123323; 0.107615; 0.0936852; 0.0813477; 0.0704568; 0.0609033; 0.052576;
   0.0453346; 0.0390399; 0.0335858; 0.0288708; 0.0248058; 0.0213039; 0.0182909; 0.015702; 0.0134886;
   0.0162875; 0.0154827; 0.0147405; 0.0143439; 0.0139769; 0.0152941; 0; 0; 0; 0; 0; 0; 0; 0; 0; 0; 0; 0; 0;
   0; 0; 0; 0; 0; 0; 0; 0; 0; 0; 0; 0; 0];
  [1.01288; 1.01368; 1.01452; 1.01539; 1.01629; 1.01723; 1.0182; 1.0192; 1.02024; 1.0213; 1.02239; 1.0235;
   1.02464; 1.0258; 1.02698; 1.02817; 1.02937; 1.03057; 1.03178; 1.03298; 1.03417; 1.03536; 1.03652; 1.03765;
   1.03876; 1.03982; 1.04085; 1.04182; 1.04273; 1.04357; 1.04434; 1.04503; 1.04563; 1.04613; 1.04653;
   1.04681; 1.04697; 1.04699; 1.04687; 1.0466; 1.04617; 1.04557; 1.04479; 1.04382; 1.04265; 1.04126; 1.03965;
   1.0378; 1.03571; 1.03335; 1.03073; 1.02782; 1.02461; 1.02109; 1.01725; 1.01307; 1.00855; 1.00367;
   0.998421; 0.992796; 0.986788; 0.98039; 0.973599; 0.966414; 0.958836; 0.950871; 0.942526; 0.933813;
   0.924749; 0.915354; 0.905652; 0.895672; 0.885447; 0.875013; 0.864411; 0.853686; 0.842884; 0.832054;
   0.821246; 0.810512; 0.799903; 0.789468; 0.779255; 0.76931; 0.759673; 0.750382; 0.741469; 0.732961;
   0.72488; 0.717241; 0.710054; 0.703325; 0.697052; 0.691231; 0.68585; 0.680896; 0.676352; 0.672199;
   0.668414; 0.664973; 0.661851; 0.659024; 0.656464; 0.654146; 0.652045; 0.650133; 0.648387; 0.646782;
   0.645293; 0.643896; 0.642567; 0.641284; 0.640021; 0.638755; 0.637459; 0.636107; 0.63467; 0.633119;
   0.631419; 0.629535; 0.627425; 0.625045; 0.622345; 0.619269; 0.615755; 0.611732; 0.607124; 0.601844;
   0.595798; 0.588883; 0.580987; 0.571992; 0.561775; 0.550208; 0.537167; 0.522535; 0.506207; 0.488103;
   0.468178; 0.446433; 0.422931; 0.397806; 0.371282; 0.343674; 0.315385; 0.286905; 0.258768; 0.231527;
   0.205695; 0.181688; 0.159777; 0.140063; 0.122488; 0.106883; 0.0930435; 0.0807831; 0.0699642; 0.0604795;
   0.0522129; 0.045024; 0.0387739; 0.0333598; 0.0286798; 0.0246466; 0.0211675; 0.0181804; 0.0156076;
   0.0134135; 0.0149135; 0.0144363; 0.0137285; 0.0128796; 0.0133576; 0.0121143; 0; 0; 0; 0; 0; 0; 0; 0; 0; 0;
   0; 0; 0; 0; 0; 0; 0; 0; 0; 0; 0; 0; 0; 0; 0; 0];
  [1.01312; 1.01395; 1.01482; 1.01572; 1.01666; 1.01764; 1.01865; 1.0197; 1.02079; 1.02191; 1.02306; 1.02424;
   1.02544; 1.02668; 1.02793; 1.0292; 1.03049; 1.03178; 1.03308; 1.03439; 1.03569; 1.03698; 1.03825; 1.03951;
   1.04074; 1.04193; 1.04308; 1.04418; 1.04523; 1.04621; 1.04713; 1.04796; 1.0487; 1.04935; 1.04988; 1.05031;
   1.05061; 1.05078; 1.0508; 1.05067; 1.05038; 1.04991; 1.04926; 1.04842; 1.04737; 1.04611; 1.04461; 1.04288;
   1.0409; 1.03865; 1.03613; 1.03331; 1.0302; 1.02677; 1.02302; 1.01893; 1.01449; 1.00968; 1.00451; 0.998957;
   0.993016; 0.986683; 0.979955; 0.972829; 0.965308; 0.957397; 0.949105; 0.940443; 0.931427; 0.922077;
   0.912419; 0.902481; 0.892295; 0.881898; 0.871333; 0.860641; 0.849871; 0.839071; 0.828291; 0.817584;
   0.806999; 0.796587; 0.786396; 0.77647; 0.766851; 0.757576; 0.748678; 0.740183; 0.732114; 0.724485;
   0.717308; 0.710587; 0.704321; 0.698504; 0.693128; 0.688177; 0.683635; 0.679482; 0.675696; 0.672252;
   0.669127; 0.666295; 0.663728; 0.661401; 0.659289; 0.657364; 0.655603; 0.653978; 0.652467; 0.651045;
   0.649687; 0.648369; 0.647066; 0.645752; 0.644402; 0.642988; 0.64148; 0.639845; 0.63805; 0.636055;
   0.633818; 0.631293; 0.628427; 0.625161; 0.62143; 0.617161; 0.612273; 0.606676; 0.600273; 0.592958;
   0.584615; 0.575125; 0.564361; 0.552197; 0.538511; 0.523187; 0.506128; 0.487266; 0.466567; 0.444052;
   0.419807; 0.393992; 0.366861; 0.338758; 0.310116; 0.28144; 0.25328; 0.22618; 0.200633; 0.177017; 0.155554;
   0.136299; 0.119155; 0.103936; 0.090435; 0.0784807; 0.0679458; 0.0587234; 0.0506913; 0.0437053; 0.0376345;
   0.0323786; 0.0278361; 0.0239235; 0.0205468; 0.0176521; 0.0151578; 0.0130288; 0.0134329; 0.0131658;
   0.0131364; 0.0127378; 0.0137516; 0.0171036; 0; 0; 0; 0; 0; 0; 0; 0; 0; 0; 0; 0; 0; 0; 0; 0; 0; 0; 0; 0; 0;
   0; 0; 0; 0; 0];
  [1.01335; 1.0142; 1.0151; 1.01603; 1.01701; 1.01802; 1.01908; 1.02018; 1.02131; 1.02248; 1.02369; 1.02493;
   1.02621; 1.02751; 1.02884; 1.03019; 1.03157; 1.03295; 1.03435; 1.03576; 1.03716; 1.03856; 1.03995;
   1.04133; 1.04268; 1.044; 1.04528; 1.04652; 1.04771; 1.04883; 1.04989; 1.05086; 1.05175; 1.05255; 1.05324;
   1.05381; 1.05426; 1.05458; 1.05475; 1.05477; 1.05462; 1.0543; 1.05379; 1.05308; 1.05217; 1.05104; 1.04967;
   1.04806; 1.0462; 1.04406; 1.04165; 1.03894; 1.03593; 1.0326; 1.02894; 1.02494; 1.02059; 1.01587; 1.01077;
   1.00529; 0.999424; 0.99316; 0.986496; 0.979433; 0.971972; 0.964118; 0.95588; 0.94727; 0.938303; 0.929001;
   0.919387; 0.909491; 0.899345; 0.888987; 0.878457; 0.867799; 0.857061; 0.84629; 0.835539; 0.824858;
   0.814297; 0.803908; 0.793737; 0.78383; 0.774229; 0.76497; 0.756087; 0.747605; 0.739548; 0.73193; 0.724763;
   0.71805; 0.711791; 0.705981; 0.700609; 0.695663; 0.691124; 0.686974; 0.683189; 0.679746; 0.676621;
   0.673787; 0.671218; 0.668888; 0.666771; 0.664841; 0.663072; 0.661439; 0.659918; 0.658483; 0.657111;
   0.655776; 0.654453; 0.653118; 0.651742; 0.650297; 0.648755; 0.647081; 0.64524; 0.643193; 0.640898;
   0.638305; 0.635362; 0.632008; 0.628178; 0.623796; 0.618782; 0.613043; 0.606481; 0.598987; 0.590448;
   0.58074; 0.569737; 0.557314; 0.543346; 0.527722; 0.510346; 0.49115; 0.470108; 0.447245; 0.422652;
   0.396498; 0.369044; 0.340641; 0.31173; 0.28282; 0.254464; 0.227206; 0.201533; 0.177819; 0.156277;
   0.136954; 0.119748; 0.104468; 0.0909112; 0.0789048; 0.0683229; 0.0590582; 0.0509875; 0.0439675; 0.037866;
   0.0325825; 0.0280167; 0.0240818; 0.0206865; 0.017775; 0.0152649; 0.0131243; 0.0122423; 0.0120589;
   0.0119995; 0.011874; 0.0125335; 0.0125372; 0; 0; 0; 0; 0; 0; 0; 0; 0; 0; 0; 0; 0; 0; 0; 0; 0; 0; 0; 0; 0;
   0; 0; 0; 0; 0];
  [1.01356; 1.01444; 1.01536; 1.01633; 1.01734; 1.01839; 1.01949; 1.02063; 1.02181; 1.02303; 1.0243; 1.0256;
   1.02694; 1.02831; 1.02972; 1.03115; 1.03261; 1.03408; 1.03558; 1.03708; 1.03859; 1.0401; 1.04161; 1.0431;
   1.04458; 1.04603; 1.04745; 1.04882; 1.05015; 1.05142; 1.05262; 1.05375; 1.05479; 1.05574; 1.05659;
   1.05732; 1.05792; 1.0584; 1.05872; 1.0589; 1.0589; 1.05873; 1.05837; 1.05781; 1.05704; 1.05604; 1.05481;
   1.05333; 1.05159; 1.04958; 1.04729; 1.0447; 1.04179; 1.03857; 1.03501; 1.0311; 1.02684; 1.02221; 1.0172;
   1.0118; 1.00601; 0.999813; 0.993219; 0.986221; 0.978823; 0.971028; 0.962846; 0.954289; 0.945373; 0.936118;
   0.92655; 0.916697; 0.906591; 0.896271; 0.885776; 0.875152; 0.864445; 0.853703; 0.842979; 0.832323;
   0.821785; 0.811417; 0.801266; 0.791376; 0.781791; 0.772546; 0.763676; 0.755206; 0.747158; 0.739549;
   0.732388; 0.725681; 0.719427; 0.71362; 0.70825; 0.703304; 0.698764; 0.694611; 0.690823; 0.687374;
   0.684242; 0.681398; 0.678818; 0.676474; 0.674341; 0.672391; 0.670599; 0.66894; 0.667388; 0.665917;
   0.664502; 0.663119; 0.66174; 0.660339; 0.658888; 0.657357; 0.655715; 0.653926; 0.651953; 0.649754;
   0.647284; 0.644492; 0.64132; 0.637706; 0.633578; 0.628859; 0.623461; 0.617291; 0.610243; 0.602207;
   0.593064; 0.582689; 0.570954; 0.557735; 0.542912; 0.526377; 0.508048; 0.487873; 0.465846; 0.442018;
   0.416516; 0.389544; 0.361403; 0.332483; 0.303258; 0.274259; 0.246043; 0.219138; 0.193994; 0.170925;
   0.150078; 0.131437; 0.114857; 0.100135; 0.0870739; 0.0755206; 0.0653587; 0.0564791; 0.0487503; 0.042025;
   0.0361851; 0.0311337; 0.0267703; 0.0230121; 0.0197697; 0.0169906; 0.0145987; 0.0125438; 0.0107172;
   0.0106873; 0.0110193; 0.0120617; 0.011596; 0; 0; 0; 0; 0; 0; 0; 0; 0; 0; 0; 0; 0; 0; 0; 0; 0; 0; 0; 0; 0;
   0; 0; 0; 0; 0; 0];
  [1.01375; 1.01466; 1.01561; 1.0166; 1.01764; 1.01873; 1.01987; 1.02105; 1.02228; 1.02356; 1.02487; 1.02624;
   1.02764; 1.02908; 1.03056; 1.03207; 1.03361; 1.03517; 1.03676; 1.03836; 1.03998; 1.0416; 1.04322; 1.04484;
   1.04644; 1.04802; 1.04957; 1.05109; 1.05256; 1.05398; 1.05533; 1.05661; 1.05781; 1.05892; 1.05992;
   1.06082; 1.06159; 1.06222; 1.06271; 1.06304; 1.06321; 1.0632; 1.06299; 1.06259; 1.06196; 1.06112; 1.06003;
   1.05869; 1.05709; 1.05521; 1.05304; 1.05057; 1.04778; 1.04467; 1.04122; 1.03742; 1.03325; 1.02871;
   1.02379; 1.01848; 1.01276; 1.00665; 1.00013; 0.993199; 0.985866; 0.978133; 0.97001; 0.961508; 0.952645;
   0.94344; 0.933918; 0.924109; 0.914044; 0.903762; 0.893304; 0.882713; 0.872038; 0.861325; 0.850628;
   0.839996; 0.829482; 0.819135; 0.809002; 0.79913; 0.789561; 0.78033; 0.771472; 0.763014; 0.754976;
   0.747375; 0.740222; 0.733521; 0.727271; 0.721468; 0.716101; 0.711157; 0.706617; 0.702464; 0.698673;
   0.695222; 0.692085; 0.689236; 0.686648; 0.684296; 0.682152; 0.680189; 0.678382; 0.676705; 0.675132;
   0.673637; 0.672194; 0.670778; 0.669362; 0.667918; 0.666417; 0.664829; 0.66312; 0.661255; 0.659195;
   0.656896; 0.654312; 0.651389; 0.648069; 0.644285; 0.639965; 0.635029; 0.629386; 0.62294; 0.615584;
   0.607204; 0.597679; 0.586884; 0.574692; 0.560976; 0.54562; 0.528521; 0.509603; 0.488823; 0.466187;
   0.441762; 0.415692; 0.3882; 0.359609; 0.330326; 0.300843; 0.271699; 0.243451; 0.216619; 0.191628;
   0.168764; 0.148145; 0.129726; 0.113347; 0.0987997; 0.085894; 0.0744832; 0.0644549; 0.0556971; 0.0480753;
   0.0414425; 0.0356852; 0.0307046; 0.0264051; 0.0226992; 0.0195029; 0.0167626; 0.0144085; 0.0123841;
   0.00942763; 0.00954613; 0.00995402; 0.0107575; 0.0124059; 0.000443226; 0; 0; 0; 0; 0; 0; 0; 0; 0; 0; 0; 0;
   0; 0; 0; 0; 0; 0; 0; 0; 0; 0; 0; 0; 0; 0];
  [1.01393; 1.01486; 1.01584; 1.01686; 1.01793; 1.01906; 1.02023; 1.02145; 1.02273; 1.02405; 1.02542;
   1.02684; 1.0283; 1.02981; 1.03136; 1.03295; 1.03457; 1.03622; 1.03791; 1.03961; 1.04133; 1.04306; 1.0448;
   1.04653; 1.04826; 1.04997; 1.05166; 1.05332; 1.05493; 1.0565; 1.05801; 1.05945; 1.06081; 1.06208; 1.06325;
   1.06431; 1.06524; 1.06605; 1.06671; 1.06721; 1.06754; 1.0677; 1.06766; 1.06741; 1.06695; 1.06626; 1.06532;
   1.06413; 1.06267; 1.06093; 1.0589; 1.05656; 1.0539; 1.0509; 1.04757; 1.04387; 1.03981; 1.03537; 1.03054;
   1.02532; 1.0197; 1.01366; 1.00722; 1.00036; 0.993098; 0.98543; 0.977368; 0.968925; 0.960116; 0.950962;
   0.941488; 0.931723; 0.921701; 0.911458; 0.901036; 0.890479; 0.879834; 0.869151; 0.85848; 0.847873;
   0.837381; 0.827053; 0.816939; 0.807084; 0.797529; 0.788311; 0.779464; 0.771015; 0.762986; 0.755392;
   0.748245; 0.741548; 0.735302; 0.7295; 0.724134; 0.719189; 0.714648; 0.71049; 0.706695; 0.703237; 0.700092;
   0.697233; 0.694633; 0.692266; 0.690104; 0.688122; 0.686291; 0.684586; 0.682981; 0.681449; 0.679964;
   0.678498; 0.677025; 0.675515; 0.673938; 0.672262; 0.670453; 0.668473; 0.66628; 0.66383; 0.661072;
   0.657951; 0.654404; 0.650362; 0.64575; 0.640482; 0.634466; 0.627599; 0.619773; 0.61087; 0.600767;
   0.589336; 0.57645; 0.561986; 0.545832; 0.527893; 0.508104; 0.486439; 0.462926; 0.437657; 0.410805;
   0.382631; 0.353487; 0.323812; 0.294122; 0.264966; 0.236896; 0.210407; 0.185885; 0.163559; 0.143493;
   0.125596; 0.109687; 0.0955544; 0.0830232; 0.0719583; 0.0622513; 0.0537849; 0.0464145; 0.0400022;
   0.0344427; 0.0296344; 0.0254856; 0.0219091; 0.0188312; 0.0161844; 0.0139198; 0.00863967; 0.00850591;
   0.00842568; 0.00842191; 0.0089171; 0.00890162; 0; 0; 0; 0; 0; 0; 0; 0; 0; 0; 0; 0; 0; 0; 0; 0; 0; 0; 0; 0;
   0; 0; 0; 0; 0; 0; 0];
  [1.0141; 1.01505; 1.01605; 1.0171; 1.01821; 1.01936; 1.02057; 1.02183; 1.02315; 1.02452; 1.02594; 1.02742;
   1.02894; 1.03051; 1.03213; 1.0338; 1.0355; 1.03724; 1.03901; 1.04081; 1.04263; 1.04447; 1.04633; 1.04818;
   1.05004; 1.05188; 1.05371; 1.05551; 1.05727; 1.05899; 1.06065; 1.06225; 1.06378; 1.06521; 1.06655;
   1.06778; 1.0689; 1.06987; 1.07071; 1.07139; 1.07189; 1.07222; 1.07235; 1.07228; 1.07198; 1.07145; 1.07068;
   1.06965; 1.06834; 1.06675; 1.06486; 1.06265; 1.06013; 1.05726; 1.05405; 1.05047; 1.04652; 1.04219;
   1.03746; 1.03234; 1.0268; 1.02085; 1.01449; 1.00771; 1.00052; 0.992923; 0.984926; 0.976542; 0.96779;
   0.95869; 0.949265; 0.939547; 0.929568; 0.919365; 0.90898; 0.898458; 0.887845; 0.87719; 0.866546; 0.855963;
   0.845492; 0.835185; 0.825089; 0.815249; 0.805708; 0.796504; 0.787668; 0.779228; 0.771207; 0.76362;
   0.756478; 0.749785; 0.743542; 0.737742; 0.732377; 0.727431; 0.722888; 0.718728; 0.714928; 0.711465;
   0.708312; 0.705444; 0.702834; 0.700454; 0.698277; 0.696276; 0.694425; 0.692696; 0.691063; 0.689499;
   0.687976; 0.686468; 0.684945; 0.683378; 0.681735; 0.679984; 0.678089; 0.676009; 0.673703; 0.671123;
   0.668216; 0.664925; 0.661185; 0.656925; 0.652065; 0.646517; 0.640186; 0.632966; 0.624747; 0.615407;
   0.604822; 0.592864; 0.579405; 0.564325; 0.547516; 0.52889; 0.508392; 0.48601; 0.461787; 0.435839;
   0.408359; 0.379634; 0.350041; 0.320042; 0.290163; 0.260964; 0.232986; 0.206704; 0.18247; 0.160477;
   0.140747; 0.123164; 0.107532; 0.0936459; 0.081336; 0.0704782; 0.0609639; 0.052669; 0.045448; 0.0391657;
   0.0337231; 0.0290164; 0.0249578; 0.0214546; 0.0184473; 0.015855; 0.0136397; 0.00725292; 0.00753314;
   0.00775755; 0.00799199; 0.00804948; 0.00822942; 0; 0; 0; 0; 0; 0; 0; 0; 0; 0; 0; 0; 0; 0; 0; 0; 0; 0; 0;
   0; 0; 0; 0; 0; 0; 0; 0];
  [1.01426; 1.01523; 1.01625; 1.01733; 1.01846; 1.01965; 1.02089; 1.02219; 1.02355; 1.02497; 1.02644;
   1.02797; 1.02955; 1.03118; 1.03287; 1.03461; 1.03639; 1.03821; 1.04008; 1.04197; 1.0439; 1.04585; 1.04781;
   1.04979; 1.05177; 1.05375; 1.05571; 1.05765; 1.05957; 1.06144; 1.06326; 1.06502; 1.06672; 1.06832;
   1.06984; 1.07125; 1.07254; 1.07369; 1.07471; 1.07557; 1.07626; 1.07677; 1.07708; 1.07718; 1.07706;
   1.07671; 1.0761; 1.07523; 1.07409; 1.07265; 1.07091; 1.06886; 1.06647; 1.06374; 1.06066; 1.05721; 1.05338;
   1.04916; 1.04454; 1.03952; 1.03408; 1.02822; 1.02195; 1.01525; 1.00814; 1.00061; 0.992682; 0.984362;
   0.97567; 0.966625; 0.957252; 0.947582; 0.937647; 0.927486; 0.917139; 0.906651; 0.89607; 0.885445;
   0.874827; 0.864268; 0.85382; 0.843532; 0.833453; 0.823629; 0.814102; 0.80491; 0.796084; 0.787654; 0.77964;
   0.772059; 0.764922; 0.758233; 0.751993; 0.746194; 0.740829; 0.735883; 0.731338; 0.727175; 0.72337;
   0.719901; 0.716742; 0.713865; 0.711244; 0.708851; 0.70666; 0.704642; 0.702771; 0.701019; 0.699359;
   0.697764; 0.696206; 0.694656; 0.693086; 0.691465; 0.68976; 0.687937; 0.685959; 0.683786; 0.681372;
   0.678669; 0.675623; 0.672172; 0.668252; 0.663786; 0.658694; 0.652885; 0.64626; 0.638713; 0.630128;
   0.620384; 0.609355; 0.596911; 0.582927; 0.567284; 0.549878; 0.530628; 0.509488; 0.486458; 0.461596;
   0.435037; 0.406995; 0.377776; 0.34778; 0.317483; 0.287425; 0.258166; 0.23024; 0.204103; 0.180078;
   0.158324; 0.138834; 0.121472; 0.106034; 0.0923181; 0.0801644; 0.0694529; 0.0600743; 0.0518995; 0.0447815;
   0.0385918; 0.03323; 0.0285937; 0.0245967; 0.0211464; 0.018186; 0.015635; 0.0134546; 0.00605273;
   0.00635071; 0.00681966; 0.00707914; 0.00768009; 0.0087597; 0; 0; 0; 0; 0; 0; 0; 0; 0; 0; 0; 0; 0; 0; 0; 0;
   0; 0; 0; 0; 0; 0; 0; 0; 0; 0; 0];
  [1.01441; 1.0154; 1.01644; 1.01754; 1.0187; 1.01992; 1.0212; 1.02253; 1.02393; 1.02539; 1.02691; 1.02849;
   1.03013; 1.03183; 1.03358; 1.03539; 1.03725; 1.03915; 1.04111; 1.0431; 1.04512; 1.04718; 1.04926; 1.05136;
   1.05346; 1.05557; 1.05767; 1.05976; 1.06182; 1.06385; 1.06583; 1.06776; 1.06962; 1.07141; 1.0731; 1.07469;
   1.07616; 1.0775; 1.07871; 1.07976; 1.08063; 1.08133; 1.08183; 1.08212; 1.08218; 1.08201; 1.08158; 1.08089;
   1.07991; 1.07864; 1.07706; 1.07516; 1.07293; 1.07034; 1.0674; 1.06408; 1.06038; 1.05628; 1.05178; 1.04686;
   1.04153; 1.03577; 1.02959; 1.02298; 1.01594; 1.00849; 1.00064; 0.992383; 0.983753; 0.974765; 0.965447;
   0.955826; 0.945938; 0.935819; 0.925511; 0.915059; 0.90451; 0.893915; 0.883323; 0.872789; 0.862362;
   0.852093; 0.842031; 0.832222; 0.822708; 0.813526; 0.804711; 0.796288; 0.788281; 0.780705; 0.773571;
   0.766885; 0.760645; 0.754847; 0.74948; 0.744531; 0.739982; 0.735813; 0.732002; 0.728525; 0.725354;
   0.722465; 0.71983; 0.71742; 0.715209; 0.713168; 0.71127; 0.709487; 0.707791; 0.706155; 0.704549; 0.702944;
   0.701311; 0.699618; 0.69783; 0.695912; 0.693825; 0.691526; 0.68897; 0.686103; 0.682871; 0.679209;
   0.675047; 0.670309; 0.664909; 0.658753; 0.651739; 0.643757; 0.634689; 0.624411; 0.612795; 0.599713;
   0.58504; 0.568661; 0.550478; 0.530422; 0.508459; 0.484608; 0.45895; 0.431644; 0.402933; 0.373154;
   0.342732; 0.312168; 0.282011; 0.252823; 0.22512; 0.199325; 0.175718; 0.15441; 0.135354; 0.118384;
   0.103294; 0.0898889; 0.0780211; 0.0675771; 0.0584422; 0.0504836; 0.0435519; 0.0375288; 0.0323153;
   0.0278072; 0.0239213; 0.020569; 0.0176923; 0.0152127; 0.0130914; 0.00467559; 0.00516183; 0.0061596;
   0.0068429; 0.00822887; 0.0107857; 0; 0; 0; 0; 0; 0; 0; 0; 0; 0; 0; 0; 0; 0; 0; 0; 0; 0; 0; 0; 0; 0; 0; 0;
   0; 0; 0];
  [1.01455; 1.01556; 1.01662; 1.01774; 1.01893; 1.02017; 1.02148; 1.02285; 1.02429; 1.02579; 1.02736;
   1.02899; 1.03068; 1.03244; 1.03426; 1.03613; 1.03807; 1.04006; 1.0421; 1.04418; 1.04631; 1.04847; 1.05066;
   1.05288; 1.05511; 1.05735; 1.05959; 1.06182; 1.06404; 1.06622; 1.06837; 1.07046; 1.0725; 1.07446; 1.07633;
   1.0781; 1.07977; 1.0813; 1.0827; 1.08394; 1.08501; 1.0859; 1.0866; 1.08708; 1.08734; 1.08735; 1.08711;
   1.0866; 1.08581; 1.08471; 1.0833; 1.08157; 1.07949; 1.07706; 1.07426; 1.07108; 1.06752; 1.06355; 1.05917;
   1.05437; 1.04914; 1.04349; 1.03741; 1.03089; 1.02394; 1.01657; 1.00879; 1.00061; 0.992046; 0.98312;
   0.973858; 0.96429; 0.954449; 0.944374; 0.934107; 0.923691; 0.913176; 0.902611; 0.892047; 0.881537;
   0.871132; 0.860883; 0.850838; 0.841044; 0.831543; 0.822373; 0.813567; 0.805153; 0.797152; 0.789582;
   0.782453; 0.775769; 0.769531; 0.763734; 0.758367; 0.753417; 0.748865; 0.744693; 0.740878; 0.737395;
   0.734218; 0.73132; 0.728675; 0.726254; 0.724029; 0.721972; 0.720056; 0.718252; 0.716532; 0.714868;
   0.71323; 0.711589; 0.709914; 0.708172; 0.706329; 0.704348; 0.702189; 0.699808; 0.697158; 0.694185;
   0.690831; 0.687032; 0.682715; 0.677802; 0.672204; 0.665827; 0.658567; 0.650309; 0.640937; 0.630324;
   0.618342; 0.604862; 0.58976; 0.572924; 0.55426; 0.533702; 0.511227; 0.48686; 0.460695; 0.432902; 0.40374;
   0.373559; 0.342795; 0.311962; 0.281613; 0.252308; 0.224556; 0.198767; 0.175202; 0.153952; 0.134954;
   0.118036; 0.102987; 0.0896175; 0.0777839; 0.0673735; 0.0582696; 0.0503377; 0.0434283; 0.0374248;
   0.0322278; 0.027736; 0.0238634; 0.0205219; 0.0176555; 0.0151866; 0.0130705; 0.00350645; 0.00400443;
   0.00494438; 0.00571334; 0.00768432; 0.00876751; 0; 0; 0; 0; 0; 0; 0; 0; 0; 0; 0; 0; 0; 0; 0; 0; 0; 0; 0;
   0; 0; 0; 0; 0; 0; 0; 0];
  [1.01467; 1.0157; 1.01679; 1.01793; 1.01914; 1.02041; 1.02175; 1.02316; 1.02463; 1.02617; 1.02778; 1.02946;
   1.03121; 1.03302; 1.0349; 1.03685; 1.03886; 1.04093; 1.04305; 1.04523; 1.04746; 1.04972; 1.05203; 1.05436;
   1.05672; 1.05909; 1.06147; 1.06385; 1.06621; 1.06855; 1.07086; 1.07313; 1.07534; 1.07748; 1.07953; 1.0815;
   1.08335; 1.08508; 1.08668; 1.08812; 1.08939; 1.09049; 1.09138; 1.09206; 1.09252; 1.09273; 1.09269;
   1.09237; 1.09176; 1.09085; 1.08962; 1.08806; 1.08615; 1.08388; 1.08124; 1.07822; 1.07479; 1.07096;
   1.06671; 1.06203; 1.05693; 1.05138; 1.0454; 1.03898; 1.03213; 1.02485; 1.01715; 1.00904; 1.00054;
   0.991681; 0.982479; 0.972965; 0.963175; 0.953146; 0.94292; 0.932542; 0.922061; 0.911527; 0.900991;
   0.890505; 0.880122; 0.869892; 0.859864; 0.850084; 0.840595; 0.831436; 0.822638; 0.81423; 0.806235;
   0.798669; 0.791542; 0.78486; 0.778622; 0.772823; 0.767453; 0.762498; 0.757942; 0.753763; 0.749939;
   0.746446; 0.743257; 0.740345; 0.737684; 0.735243; 0.732997; 0.730915; 0.728969; 0.727131; 0.725373;
   0.723664; 0.721975; 0.720275; 0.718532; 0.716713; 0.714781; 0.712699; 0.710424; 0.70791; 0.705108;
   0.701963; 0.698413; 0.694391; 0.689822; 0.684623; 0.678704; 0.671967; 0.664303; 0.655597; 0.645728;
   0.634568; 0.621989; 0.607861; 0.592065; 0.574492; 0.555057; 0.533704; 0.510424; 0.485264; 0.458337;
   0.429841; 0.40006; 0.369374; 0.338242; 0.307194; 0.276791; 0.247586; 0.220069; 0.194611; 0.171432;
   0.15058; 0.131959; 0.115377; 0.100626; 0.0875253; 0.0759412; 0.0657624; 0.0568714; 0.0491234; 0.0423748;
   0.0365165; 0.0314456; 0.0270651; 0.023287; 0.0200303; 0.017232; 0.0148291; 0.0127624; 0.00243918;
   0.00290212; 0.00385328; 0.00454977; 0.00684736; 0; 0; 0; 0; 0; 0; 0; 0; 0; 0; 0; 0; 0; 0; 0; 0; 0; 0; 0;
   0; 0; 0; 0; 0; 0; 0; 0; 0];
  [1.01479; 1.01584; 1.01694; 1.01811; 1.01934; 1.02064; 1.022; 1.02344; 1.02495; 1.02653; 1.02818; 1.02991;
   1.03171; 1.03358; 1.03552; 1.03754; 1.03962; 1.04176; 1.04397; 1.04624; 1.04856; 1.05093; 1.05335; 1.0558;
   1.05828; 1.06078; 1.0633; 1.06582; 1.06834; 1.07084; 1.07332; 1.07575; 1.07814; 1.08046; 1.0827; 1.08486;
   1.08691; 1.08884; 1.09064; 1.09229; 1.09377; 1.09507; 1.09617; 1.09707; 1.09773; 1.09815; 1.09831;
   1.09819; 1.09778; 1.09706; 1.09602; 1.09464; 1.09291; 1.09082; 1.08834; 1.08547; 1.0822; 1.07851; 1.0744;
   1.06986; 1.06488; 1.05945; 1.05358; 1.04727; 1.04051; 1.03332; 1.0257; 1.01767; 1.00925; 1.00046;
   0.991318; 0.981862; 0.972124; 0.962143; 0.951961; 0.941623; 0.931178; 0.920675; 0.910168; 0.899707;
   0.889346; 0.879136; 0.869125; 0.85936; 0.849884; 0.840734; 0.831946; 0.823545; 0.815555; 0.807993;
   0.800869; 0.794188; 0.787951; 0.782151; 0.776779; 0.771822; 0.767261; 0.763077; 0.759246; 0.755745;
   0.752546; 0.749623; 0.746949; 0.744493; 0.742229; 0.740127; 0.738158; 0.736293; 0.734504; 0.73276;
   0.731031; 0.729285; 0.727489; 0.72561; 0.723609; 0.721447; 0.719082; 0.716466; 0.713548; 0.71027;
   0.706569; 0.702377; 0.697615; 0.6922; 0.686038; 0.679029; 0.671061; 0.662019; 0.651779; 0.640212; 0.62719;
   0.612583; 0.596274; 0.578158; 0.558154; 0.536216; 0.512344; 0.486595; 0.459099; 0.430071; 0.39981;
   0.368712; 0.337252; 0.30597; 0.275429; 0.246177; 0.21869; 0.19332; 0.170262; 0.14954; 0.13104; 0.114564;
   0.099904; 0.0868863; 0.0753806; 0.0652762; 0.0564523; 0.0487613; 0.0420637; 0.0362503; 0.0312193;
   0.0268724; 0.0231224; 0.0198939; 0.017117; 0.0147355; 0.0126825; 0.00142492; 0.00189595; 0.00266518;
   0.0040109; 0.00243862; 0; 0; 0; 0; 0; 0; 0; 0; 0; 0; 0; 0; 0; 0; 0; 0; 0; 0; 0; 0; 0; 0; 0; 0; 0; 0; 0; 0];
  [1.01491; 1.01596; 1.01709; 1.01827; 1.01953; 1.02085; 1.02224; 1.02371; 1.02525; 1.02687; 1.02856;
   1.03034; 1.03219; 1.03411; 1.03611; 1.03819; 1.04034; 1.04257; 1.04486; 1.04721; 1.04963; 1.0521; 1.05463;
   1.0572; 1.0598; 1.06243; 1.06509; 1.06776; 1.07042; 1.07308; 1.07573; 1.07833; 1.0809; 1.08341; 1.08584;
   1.08819; 1.09044; 1.09258; 1.09458; 1.09644; 1.09814; 1.09965; 1.10097; 1.10208; 1.10296; 1.10359;
   1.10396; 1.10406; 1.10385; 1.10334; 1.10249; 1.10131; 1.09977; 1.09785; 1.09555; 1.09285; 1.08974;
   1.08621; 1.08224; 1.07784; 1.07299; 1.06769; 1.06194; 1.05573; 1.04908; 1.04199; 1.03446; 1.02652;
   1.01817; 1.00945; 1.00037; 0.990979; 0.981297; 0.971366; 0.961229; 0.950932; 0.940524; 0.930054; 0.919576;
   0.909142; 0.898803; 0.888612; 0.878619; 0.868869; 0.859405; 0.850266; 0.841485; 0.833091; 0.825106;
   0.817547; 0.810425; 0.803745; 0.797507; 0.791706; 0.786331; 0.78137; 0.776804; 0.772613; 0.768775;
   0.765264; 0.762054; 0.759118; 0.756428; 0.753956; 0.751671; 0.749546; 0.747551; 0.745656; 0.743832;
   0.742049; 0.740274; 0.738476; 0.736621; 0.734673; 0.732595; 0.730345; 0.727879; 0.725148; 0.722098;
   0.718672; 0.714803; 0.71042; 0.705443; 0.699786; 0.693353; 0.68604; 0.677735; 0.668319; 0.657666;
   0.645649; 0.632135; 0.617; 0.600126; 0.581415; 0.560789; 0.538214; 0.5137; 0.487319; 0.459217; 0.429627;
   0.398869; 0.367355; 0.335576; 0.304082; 0.273437; 0.244182; 0.216776; 0.191547; 0.16866; 0.148115;
   0.129777; 0.113444; 0.0989083; 0.0860048; 0.0746072; 0.0646038; 0.0558707; 0.0482582; 0.0416289;
   0.0358772; 0.0308991; 0.0266001; 0.0228905; 0.0196977; 0.0169515; 0.0145968; 0; 0.000339026; 0.00087455;
   0.00164084; 0.00257596; 0.00333203; 0; 0; 0; 0; 0; 0; 0; 0; 0; 0; 0; 0; 0; 0; 0; 0; 0; 0; 0; 0; 0; 0; 0;
   0; 0; 0; 0; 0];
  [1.01501; 1.01608; 1.01722; 1.01843; 1.0197; 1.02105; 1.02247; 1.02397; 1.02554; 1.02719; 1.02893; 1.03074;
   1.03264; 1.03462; 1.03668; 1.03882; 1.04104; 1.04334; 1.04571; 1.04815; 1.05066; 1.05324; 1.05587;
   1.05855; 1.06128; 1.06404; 1.06683; 1.06965; 1.07247; 1.07529; 1.07809; 1.08087; 1.08362; 1.08631;
   1.08894; 1.09149; 1.09395; 1.09629; 1.09851; 1.10058; 1.10249; 1.10423; 1.10577; 1.10711; 1.10821;
   1.10906; 1.10965; 1.10996; 1.10997; 1.10967; 1.10904; 1.10805; 1.10671; 1.10498; 1.10287; 1.10034; 1.0974;
   1.09403; 1.09023; 1.08597; 1.08126; 1.07609; 1.07047; 1.06438; 1.05784; 1.05085; 1.04342; 1.03556; 1.0273;
   1.01866; 1.00965; 1.00032; 0.990696; 0.980818; 0.970729; 0.960475; 0.950106; 0.939671; 0.929223; 0.918815;
   0.9085; 0.89833; 0.888354; 0.878618; 0.869167; 0.860038; 0.851266; 0.842879; 0.834899; 0.827343; 0.820223;
   0.813544; 0.807305; 0.801502; 0.796125; 0.791159; 0.786588; 0.782391; 0.778545; 0.775025; 0.771805;
   0.768857; 0.766153; 0.763663; 0.76136; 0.759214; 0.757194; 0.755271; 0.753415; 0.751594; 0.749777;
   0.747931; 0.746021; 0.74401; 0.74186; 0.739529; 0.73697; 0.734133; 0.730963; 0.727401; 0.723378; 0.718822;
   0.71365; 0.707773; 0.701095; 0.693508; 0.684899; 0.675147; 0.664125; 0.651704; 0.637752; 0.622146;
   0.604771; 0.58553; 0.564355; 0.541215; 0.516132; 0.489189; 0.460548; 0.430453; 0.399242; 0.367341;
   0.335251; 0.303529; 0.272741; 0.243421; 0.216015; 0.190832; 0.168015; 0.147545; 0.129276; 0.113;
   0.0985136; 0.0856555; 0.074302; 0.0643416; 0.0556464; 0.0480662; 0.0414649; 0.0357384; 0.0307824;
   0.0265022; 0.0228098; 0.0196306; 0.0168953; 0.0145526; 0; 0; 0; 0.000705405; 0.00171773; 0.00318344; 0; 0;
   0; 0; 0; 0; 0; 0; 0; 0; 0; 0; 0; 0; 0; 0; 0; 0; 0; 0; 0; 0; 0; 0; 0; 0; 0; 0];
  [1.0151; 1.01619; 1.01735; 1.01857; 1.01987; 1.02123; 1.02268; 1.0242; 1.02581; 1.0275; 1.02927; 1.03113;
   1.03307; 1.0351; 1.03722; 1.03942; 1.04171; 1.04408; 1.04653; 1.04906; 1.05166; 1.05433; 1.05707; 1.05987;
   1.06271; 1.06561; 1.06853; 1.07149; 1.07446; 1.07744; 1.08042; 1.08337; 1.0863; 1.08918; 1.092; 1.09475;
   1.09742; 1.09997; 1.1024; 1.1047; 1.10684; 1.1088; 1.11057; 1.11213; 1.11347; 1.11455; 1.11537; 1.11591;
   1.11614; 1.11606; 1.11564; 1.11487; 1.11373; 1.11221; 1.11028; 1.10795; 1.10519; 1.10199; 1.09835;
   1.09425; 1.08969; 1.08467; 1.07917; 1.07321; 1.06679; 1.05991; 1.05258; 1.04482; 1.03664; 1.02808;
   1.01915; 1.00988; 1.00032; 0.990499; 0.98046; 0.970252; 0.959923; 0.949523; 0.939107; 0.928727; 0.918436;
   0.908287; 0.898328; 0.888608; 0.879169; 0.87005; 0.861286; 0.852904; 0.844929; 0.837376; 0.830257;
   0.823578; 0.817337; 0.811531; 0.80615; 0.801179; 0.796601; 0.792396; 0.78854; 0.785009; 0.781775;
   0.778812; 0.77609; 0.773581; 0.771255; 0.769082; 0.767033; 0.765076; 0.76318; 0.761314; 0.759446;
   0.757542; 0.755565; 0.753478; 0.751241; 0.748811; 0.746139; 0.743174; 0.739859; 0.736132; 0.731923;
   0.727156; 0.721748; 0.715606; 0.70863; 0.700711; 0.691734; 0.681576; 0.670109; 0.657201; 0.642724;
   0.626553; 0.608577; 0.588706; 0.566878; 0.543073; 0.517326; 0.489734; 0.460478; 0.429822; 0.398121;
   0.365819; 0.333434; 0.301525; 0.270662; 0.241366; 0.214064; 0.189037; 0.166401; 0.146109; 0.128003;
   0.111868; 0.0975073; 0.0847644; 0.0735205; 0.0636631; 0.0550588; 0.0475576; 0.0410251; 0.0353616;
   0.0304596; 0.026228; 0.0225741; 0.0194335; 0.0167268; 0.01441; 0; 0; 0; 0; 0.0012134; 0.00185146; 0; 0; 0;
   0; 0; 0; 0; 0; 0; 0; 0; 0; 0; 0; 0; 0; 0; 0; 0; 0; 0; 0; 0; 0; 0; 0; 0; 0];
  [1.01519; 1.01629; 1.01746; 1.0187; 1.02002; 1.02141; 1.02288; 1.02443; 1.02607; 1.02779; 1.0296; 1.03149;
   1.03348; 1.03556; 1.03773; 1.03999; 1.04235; 1.04479; 1.04731; 1.04993; 1.05262; 1.05539; 1.05823;
   1.06114; 1.06411; 1.06713; 1.07019; 1.07329; 1.07641; 1.07955; 1.08269; 1.08582; 1.08893; 1.09201;
   1.09503; 1.09798; 1.10085; 1.10362; 1.10628; 1.1088; 1.11116; 1.11336; 1.11537; 1.11716; 1.11873; 1.12005;
   1.12111; 1.12188; 1.12235; 1.1225; 1.12231; 1.12176; 1.12084; 1.11952; 1.1178; 1.11567; 1.1131; 1.11008;
   1.10661; 1.10268; 1.09828; 1.09341; 1.08805; 1.08222; 1.07592; 1.06916; 1.06194; 1.05428; 1.0462; 1.03772;
   1.02887; 1.01967; 1.01018; 1.00041; 0.990429; 0.980268; 0.969981; 0.95962; 0.949237; 0.938886; 0.92862;
   0.918492; 0.908552; 0.898847; 0.889421; 0.880312; 0.871556; 0.863181; 0.855209; 0.847659; 0.840541;
   0.833861; 0.82762; 0.821811; 0.816425; 0.811448; 0.806864; 0.80265; 0.798785; 0.795242; 0.791996;
   0.789018; 0.786279; 0.78375; 0.781402; 0.779203; 0.777124; 0.775134; 0.7732; 0.771291; 0.769374; 0.767412;
   0.765371; 0.763211; 0.760891; 0.758365; 0.755585; 0.752498; 0.749044; 0.74516; 0.740774; 0.735807;
   0.730174; 0.72378; 0.716523; 0.708292; 0.69897; 0.68843; 0.676545; 0.663183; 0.648214; 0.631518; 0.612985;
   0.59253; 0.570098; 0.545679; 0.519318; 0.491128; 0.461304; 0.430125; 0.397965; 0.365283; 0.332605;
   0.300499; 0.269531; 0.240213; 0.212954; 0.188013; 0.165481; 0.145295; 0.127282; 0.111227; 0.0969357;
   0.0842585; 0.0730789; 0.0632815; 0.0547297; 0.0472739; 0.0407812; 0.0351537; 0.030283; 0.0260787;
   0.0224479; 0.0193286; 0.0166385; 0.0143375; 0; 0; 0; 0; 0.000311913; 0.000997204; 0; 0; 0; 0; 0; 0; 0; 0;
   0; 0; 0; 0; 0; 0; 0; 0; 0; 0; 0; 0; 0; 0; 0; 0; 0; 0; 0; 0];
  [1.01527; 1.01639; 1.01757; 1.01883; 1.02016; 1.02157; 1.02307; 1.02464; 1.02631; 1.02806; 1.0299; 1.03184;
   1.03387; 1.036; 1.03822; 1.04054; 1.04296; 1.04547; 1.04807; 1.05076; 1.05354; 1.05641; 1.05935; 1.06237;
   1.06546; 1.0686; 1.0718; 1.07504; 1.07832; 1.08162; 1.08493; 1.08823; 1.09152; 1.09479; 1.09801; 1.10117;
   1.10425; 1.10724; 1.11012; 1.11287; 1.11547; 1.1179; 1.12015; 1.12219; 1.124; 1.12557; 1.12687; 1.12789;
   1.1286; 1.12898; 1.12903; 1.12871; 1.12801; 1.12692; 1.12542; 1.12349; 1.12112; 1.1183; 1.11501; 1.11126;
   1.10702; 1.1023; 1.0971; 1.09141; 1.08525; 1.0786; 1.0715; 1.06395; 1.05596; 1.04758; 1.03881; 1.02969;
   1.02026; 1.01056; 1.00063; 0.990522; 0.98028; 0.969958; 0.95961; 0.949289; 0.93905; 0.928944; 0.919023;
   0.909333; 0.89992; 0.890821; 0.882073; 0.873703; 0.865735; 0.858187; 0.851069; 0.844388; 0.838143;
   0.83233; 0.826938; 0.821954; 0.817361; 0.813137; 0.809259; 0.805702; 0.80244; 0.799443; 0.796683; 0.79413;
   0.791754; 0.789523; 0.787408; 0.785376; 0.783395; 0.781433; 0.779453; 0.777422; 0.775301; 0.77305;
   0.770626; 0.767982; 0.765068; 0.761829; 0.758203; 0.754123; 0.749517; 0.744302; 0.73839; 0.731684;
   0.724079; 0.715461; 0.705709; 0.694699; 0.682298; 0.668375; 0.652803; 0.635462; 0.616248; 0.595083;
   0.571921; 0.546766; 0.519677; 0.490786; 0.460309; 0.428547; 0.395895; 0.362831; 0.329893; 0.297656;
   0.266679; 0.237459; 0.210379; 0.185664; 0.163375; 0.143421; 0.125615; 0.109742; 0.0956143; 0.0830908;
   0.072056; 0.0623921; 0.0539579; 0.0466027; 0.040203; 0.0346561; 0.0298554; 0.0257126; 0.0221351;
   0.0190631; 0.0164144; 0.0141488; 0; 0; 0; 0; 0.000524161; 0.00170358; 0; 0; 0; 0; 0; 0; 0; 0; 0; 0; 0; 0;
   0; 0; 0; 0; 0; 0; 0; 0; 0; 0; 0; 0; 0; 0; 0; 0];
  [1.01535; 1.01647; 1.01767; 1.01895; 1.02029; 1.02173; 1.02324; 1.02484; 1.02653; 1.02832; 1.03019;
   1.03217; 1.03424; 1.03641; 1.03869; 1.04106; 1.04354; 1.04612; 1.04879; 1.05157; 1.05443; 1.05739;
   1.06044; 1.06357; 1.06677; 1.07004; 1.07337; 1.07675; 1.08018; 1.08364; 1.08711; 1.09059; 1.09407;
   1.09753; 1.10095; 1.10431; 1.10761; 1.11082; 1.11393; 1.11691; 1.11975; 1.12243; 1.12492; 1.12721;
   1.12927; 1.13109; 1.13265; 1.13392; 1.13488; 1.13551; 1.1358; 1.13572; 1.13526; 1.1344; 1.13312; 1.13141;
   1.12925; 1.12663; 1.12354; 1.11997; 1.11592; 1.11137; 1.10632; 1.10078; 1.09476; 1.08825; 1.08126;
   1.07382; 1.06595; 1.05765; 1.04897; 1.03994; 1.03058; 1.02095; 1.01108; 1.00102; 0.990828; 0.980548;
   0.970237; 0.959948; 0.949736; 0.939654; 0.929753; 0.92008; 0.91068; 0.901592; 0.892852; 0.884488;
   0.876524; 0.868978; 0.86186; 0.855178; 0.84893; 0.843113; 0.837716; 0.832725; 0.828123; 0.823889; 0.82;
   0.81643; 0.813151; 0.810137; 0.807357; 0.804781; 0.802379; 0.800119; 0.797969; 0.795899; 0.793874;
   0.791861; 0.789825; 0.787729; 0.785534; 0.783198; 0.780679; 0.777927; 0.77489; 0.771511; 0.767727;
   0.76347; 0.758663; 0.753223; 0.747058; 0.74007; 0.73215; 0.723184; 0.713048; 0.701616; 0.688754; 0.674332;
   0.658224; 0.640311; 0.620495; 0.598702; 0.574896; 0.549091; 0.52136; 0.49185; 0.460792; 0.428506;
   0.395404; 0.361977; 0.328774; 0.296371; 0.265325; 0.236118; 0.209111; 0.184507; 0.16234; 0.142502;
   0.124798; 0.109013; 0.094965; 0.0825171; 0.0715558; 0.0619589; 0.0535836; 0.046279; 0.0399246; 0.0344184;
   0.0296534; 0.0255413; 0.02199; 0.0189401; 0.0163122; 0.014059; 0; 0; 0; 0; 0; 0; 0; 0; 0; 0; 0; 0; 0; 0;
   0; 0; 0; 0; 0; 0; 0; 0; 0; 0; 0; 0; 0; 0; 0; 0; 0; 0; 0; 0];
  [1.01542; 1.01655; 1.01777; 1.01905; 1.02042; 1.02187; 1.0234; 1.02503; 1.02674; 1.02856; 1.03047; 1.03248;
   1.03459; 1.03681; 1.03913; 1.04156; 1.0441; 1.04674; 1.04949; 1.05234; 1.05529; 1.05834; 1.06149; 1.06472;
   1.06804; 1.07143; 1.0749; 1.07842; 1.08199; 1.08561; 1.08925; 1.09291; 1.09657; 1.10022; 1.10384; 1.10742;
   1.11093; 1.11437; 1.1177; 1.12092; 1.124; 1.12693; 1.12967; 1.13222; 1.13454; 1.13662; 1.13843; 1.13996;
   1.14118; 1.14208; 1.14262; 1.14279; 1.14258; 1.14196; 1.14092; 1.13943; 1.13749; 1.13509; 1.1322; 1.12883;
   1.12496; 1.12058; 1.11571; 1.11033; 1.10445; 1.09808; 1.09123; 1.08391; 1.07614; 1.06795; 1.05936;
   1.05041; 1.04114; 1.03157; 1.02177; 1.01177; 1.00162; 0.991387; 0.981114; 0.970859; 0.960677; 0.950619;
   0.940738; 0.931083; 0.921696; 0.912619; 0.903887; 0.895529; 0.887569; 0.880024; 0.872906; 0.866221;
   0.85997; 0.854147; 0.848742; 0.843743; 0.839131; 0.834884; 0.830981; 0.827395; 0.824098; 0.821062;
   0.818258; 0.815654; 0.813221; 0.810925; 0.808735; 0.806618; 0.80454; 0.802467; 0.800362; 0.798187;
   0.795903; 0.793467; 0.790832; 0.78795; 0.784765; 0.781218; 0.777245; 0.772773; 0.767725; 0.762014;
   0.755546; 0.748219; 0.739923; 0.730539; 0.719943; 0.708006; 0.694594; 0.679578; 0.662832; 0.644242;
   0.623716; 0.601186; 0.57663; 0.550073; 0.521607; 0.491396; 0.459695; 0.426845; 0.393277; 0.359499;
   0.326072; 0.293574; 0.262551; 0.233465; 0.20665; 0.182274; 0.160342; 0.140724; 0.123213; 0.107599;
   0.0937075; 0.0814076; 0.070586; 0.0611154; 0.0528512; 0.0456431; 0.0393754; 0.0339454; 0.0292481;
   0.0251938; 0.0216948; 0.0186891; 0.0160976; 0.0138792; 0; 0; 0; 0; 0; 0.00145677; 0; 0; 0; 0; 0; 0; 0; 0;
   0; 0; 0; 0; 0; 0; 0; 0; 0; 0; 0; 0; 0; 0; 0; 0; 0; 0; 0; 0];
  [1.01548; 1.01663; 1.01785; 1.01915; 1.02053; 1.022; 1.02356; 1.0252; 1.02694; 1.02878; 1.03073; 1.03277;
   1.03492; 1.03718; 1.03955; 1.04204; 1.04463; 1.04733; 1.05015; 1.05308; 1.05611; 1.05926; 1.0625; 1.06584;
   1.06927; 1.07278; 1.07638; 1.08004; 1.08376; 1.08753; 1.09134; 1.09518; 1.09902; 1.10286; 1.10669;
   1.11047; 1.11421; 1.11787; 1.12144; 1.1249; 1.12823; 1.13141; 1.13441; 1.13721; 1.1398; 1.14215; 1.14423;
   1.14603; 1.14752; 1.14867; 1.14948; 1.14992; 1.14996; 1.14959; 1.14879; 1.14755; 1.14584; 1.14366;
   1.14099; 1.13782; 1.13415; 1.12996; 1.12526; 1.12005; 1.11433; 1.1081; 1.10139; 1.0942; 1.08655; 1.07847;
   1.06998; 1.06113; 1.05193; 1.04244; 1.0327; 1.02276; 1.01267; 1.00249; 0.992254; 0.982035; 0.971883;
   0.961852; 0.951993; 0.942356; 0.932984; 0.923919; 0.915196; 0.906844; 0.898888; 0.891345; 0.884227;
   0.877541; 0.871286; 0.865458; 0.860048; 0.85504; 0.850418; 0.846161; 0.842244; 0.838643; 0.835329;
   0.832274; 0.829447; 0.826818; 0.824355; 0.822027; 0.8198; 0.81764; 0.815514; 0.813386; 0.811219; 0.808974;
   0.806609; 0.804082; 0.801344; 0.798344; 0.795026; 0.79133; 0.787187; 0.782525; 0.777263; 0.771312;
   0.764576; 0.756951; 0.748323; 0.738574; 0.727575; 0.715198; 0.701308; 0.685777; 0.668479; 0.649304;
   0.628164; 0.605; 0.579797; 0.552592; 0.523489; 0.49267; 0.460403; 0.427048; 0.39305; 0.35893; 0.325257;
   0.292607; 0.26152; 0.232443; 0.205687; 0.1814; 0.159563; 0.140032; 0.122596; 0.107047; 0.0932148;
   0.0809737; 0.0702079; 0.0607893; 0.0525693; 0.0454; 0.0391671; 0.0337686; 0.0290976; 0.0250673; 0.0215884;
   0.0186004; 0.0160279; 0.0138164; 0; 0; 0; 0; 0; 0; 0; 0; 0; 0; 0; 0; 0; 0; 0; 0; 0; 0; 0; 0; 0; 0; 0; 0;
   0; 0; 0; 0; 0; 0; 0; 0; 0; 0];
  [1.01554; 1.01669; 1.01793; 1.01924; 1.02064; 1.02212; 1.0237; 1.02537; 1.02713; 1.029; 1.03097; 1.03305;
   1.03524; 1.03754; 1.03995; 1.04249; 1.04514; 1.0479; 1.05079; 1.05379; 1.05691; 1.06013; 1.06347; 1.06691;
   1.07046; 1.07409; 1.07782; 1.08162; 1.08549; 1.08941; 1.09339; 1.0974; 1.10143; 1.10546; 1.10949; 1.11349;
   1.11744; 1.12133; 1.12514; 1.12884; 1.13242; 1.13586; 1.13912; 1.14219; 1.14505; 1.14767; 1.15003; 1.1521;
   1.15387; 1.1553; 1.15638; 1.15708; 1.15739; 1.15729; 1.15674; 1.15575; 1.15429; 1.15234; 1.14989; 1.14694;
   1.14348; 1.13949; 1.13498; 1.12994; 1.12439; 1.11832; 1.11175; 1.1047; 1.09717; 1.08921; 1.08083; 1.07207;
   1.06296; 1.05355; 1.04389; 1.03401; 1.02398; 1.01384; 1.00365; 0.993469; 0.98335; 0.973347; 0.963511;
   0.953893; 0.944536; 0.935483; 0.926769; 0.918423; 0.91047; 0.902928; 0.89581; 0.889121; 0.882861;
   0.877027; 0.871608; 0.86659; 0.861956; 0.857684; 0.853751; 0.850131; 0.846795; 0.843716; 0.840861; 0.8382;
   0.835701; 0.833331; 0.831057; 0.828845; 0.826658; 0.824461; 0.822216; 0.819882; 0.817416; 0.814774;
   0.811905; 0.808758; 0.805273; 0.801388; 0.797032; 0.79213; 0.786599; 0.780346; 0.773272; 0.765271;
   0.756227; 0.746017; 0.734513; 0.721584; 0.707096; 0.69092; 0.672935; 0.653034; 0.631137; 0.607194;
   0.581203; 0.553216; 0.523357; 0.491827; 0.458919; 0.425012; 0.390574; 0.356139; 0.322284; 0.289584;
   0.258564; 0.229648; 0.203115; 0.179077; 0.157487; 0.138181; 0.120944; 0.105572; 0.091905; 0.0798195;
   0.0691993; 0.0599118; 0.0518069; 0.0447379; 0.0385971; 0.0332775; 0.0286773; 0.0247059; 0.0212792;
   0.0183357; 0.0158052; 0.0136283; 0; 0; 0; 0; 0; 0; 0; 0; 0; 0; 0; 0; 0; 0; 0; 0; 0; 0; 0; 0; 0; 0; 0; 0;
   0; 0; 0; 0; 0; 0; 0; 0; 0; 0];
  [1.01559; 1.01676; 1.018; 1.01933; 1.02074; 1.02224; 1.02383; 1.02552; 1.02731; 1.0292; 1.0312; 1.03331;
   1.03553; 1.03787; 1.04033; 1.04292; 1.04562; 1.04845; 1.0514; 1.05447; 1.05766; 1.06098; 1.06441; 1.06795;
   1.07161; 1.07536; 1.07921; 1.08315; 1.08716; 1.09125; 1.09539; 1.09957; 1.10379; 1.10801; 1.11224;
   1.11646; 1.12063; 1.12475; 1.1288; 1.13275; 1.13658; 1.14028; 1.14381; 1.14715; 1.15029; 1.15319; 1.15583;
   1.15818; 1.16023; 1.16195; 1.16331; 1.1643; 1.16489; 1.16505; 1.16478; 1.16404; 1.16283; 1.16113; 1.15892;
   1.1562; 1.15295; 1.14917; 1.14486; 1.14001; 1.13463; 1.12873; 1.12232; 1.1154; 1.10802; 1.10017; 1.09191;
   1.08325; 1.07424; 1.06491; 1.05532; 1.04552; 1.03554; 1.02546; 1.01532; 1.00518; 0.995094; 0.985121;
   0.97531; 0.965713; 0.956373; 0.947334; 0.938629; 0.930291; 0.922343; 0.914803; 0.907685; 0.900994;
   0.894731; 0.888892; 0.883465; 0.878439; 0.873794; 0.869511; 0.865563; 0.861927; 0.858573; 0.855472;
   0.852593; 0.849905; 0.847375; 0.84497; 0.842656; 0.840398; 0.838161; 0.835905; 0.833594; 0.831185;
   0.828635; 0.825896; 0.822919; 0.819648; 0.816025; 0.811983; 0.807452; 0.802352; 0.796599; 0.790099;
   0.78275; 0.774444; 0.765061; 0.75448; 0.742568; 0.729195; 0.714228; 0.697536; 0.679002; 0.658522;
   0.636022; 0.611457; 0.584836; 0.556221; 0.525748; 0.493634; 0.460186; 0.425798; 0.390951; 0.356188;
   0.322092; 0.289234; 0.258132; 0.229195; 0.202682; 0.178685; 0.15714; 0.137873; 0.120667; 0.105321;
   0.0916796; 0.0796216; 0.0690291; 0.0597675; 0.0516823; 0.0446315; 0.0385076; 0.0332032; 0.0286153;
   0.0246537; 0.0212412; 0.018303; 0.0157808; 0.0136086; 0; 0; 0; 0; 0; 0; 0; 0; 0; 0; 0; 0; 0; 0; 0; 0; 0;
   0; 0; 0; 0; 0; 0; 0; 0; 0; 0; 0; 0; 0; 0; 0; 0; 0];
  [1.01563; 1.01681; 1.01807; 1.0194; 1.02083; 1.02234; 1.02395; 1.02566; 1.02747; 1.02938; 1.03141; 1.03355;
   1.03581; 1.03819; 1.04069; 1.04332; 1.04608; 1.04896; 1.05198; 1.05512; 1.05839; 1.06179; 1.06531;
   1.06896; 1.07272; 1.07659; 1.08056; 1.08464; 1.0888; 1.09303; 1.09734; 1.10169; 1.10609; 1.11052; 1.11495;
   1.11938; 1.12377; 1.12813; 1.13242; 1.13662; 1.14071; 1.14467; 1.14847; 1.15209; 1.15551; 1.15869;
   1.16162; 1.16427; 1.16661; 1.16862; 1.17028; 1.17155; 1.17242; 1.17287; 1.17287; 1.17241; 1.17146;
   1.17002; 1.16806; 1.16558; 1.16256; 1.159; 1.15489; 1.15024; 1.14505; 1.13932; 1.13307; 1.12631; 1.11907;
   1.11136; 1.10321; 1.09466; 1.08575; 1.07652; 1.06701; 1.05727; 1.04736; 1.03734; 1.02725; 1.01715; 1.0071;
   0.997159; 0.987375; 0.977799; 0.968477; 0.95945; 0.950756; 0.942424; 0.934479; 0.926941; 0.919821;
   0.913126; 0.906857; 0.901009; 0.895573; 0.890534; 0.885875; 0.881573; 0.877606; 0.873947; 0.870566;
   0.867436; 0.864523; 0.861796; 0.859223; 0.856768; 0.854397; 0.852075; 0.849764; 0.847426; 0.84502;
   0.842504; 0.839832; 0.836956; 0.833823; 0.830376; 0.826553; 0.822286; 0.817501; 0.812117; 0.806044;
   0.799187; 0.79144; 0.782691; 0.77282; 0.7617; 0.749201; 0.735187; 0.719528; 0.702096; 0.682776; 0.661472;
   0.638117; 0.612682; 0.585188; 0.555718; 0.52443; 0.491566; 0.457456; 0.422522; 0.387263; 0.352237;
   0.318032; 0.285211; 0.254272; 0.225592; 0.199392; 0.175724; 0.154493; 0.13551; 0.118555; 0.103436;
   0.0900075; 0.0781504; 0.0677443; 0.0586486; 0.0507075; 0.0437858; 0.0377775; 0.0325732; 0.0280743;
   0.02419; 0.0208446; 0.0179635; 0.0154952; 0; 0; 0; 0; 0; 0; 0; 0; 0; 0; 0; 0; 0; 0; 0; 0; 0; 0; 0; 0; 0;
   0; 0; 0; 0; 0; 0; 0; 0; 0; 0; 0; 0; 0; 0];
  [1.01567; 1.01686; 1.01813; 1.01947; 1.02091; 1.02244; 1.02406; 1.02579; 1.02762; 1.02956; 1.03161;
   1.03378; 1.03608; 1.03849; 1.04104; 1.04371; 1.04652; 1.04946; 1.05253; 1.05574; 1.05909; 1.06257;
   1.06618; 1.06992; 1.07379; 1.07778; 1.08187; 1.08608; 1.09038; 1.09477; 1.09924; 1.10377; 1.10835;
   1.11297; 1.11761; 1.12225; 1.12687; 1.13146; 1.13599; 1.14044; 1.14479; 1.14902; 1.1531; 1.157; 1.1607;
   1.16418; 1.16741; 1.17036; 1.173; 1.17531; 1.17727; 1.17884; 1.18001; 1.18075; 1.18104; 1.18086; 1.18019;
   1.17901; 1.17731; 1.17508; 1.1723; 1.16897; 1.16509; 1.16064; 1.15565; 1.15011; 1.14403; 1.13743; 1.13034;
   1.12277; 1.11475; 1.10632; 1.09751; 1.08837; 1.07895; 1.0693; 1.05946; 1.04949; 1.03945; 1.0294; 1.01939;
   1.00949; 0.999731; 0.990178; 0.980875; 0.971864; 0.963181; 0.954857; 0.946918; 0.939382; 0.932262;
   0.925565; 0.919291; 0.913437; 0.907991; 0.902942; 0.898269; 0.893953; 0.889968; 0.886289; 0.882885;
   0.879728; 0.876786; 0.874025; 0.871413; 0.868915; 0.866495; 0.864117; 0.861743; 0.859333; 0.856846;
   0.854237; 0.851461; 0.848466; 0.8452; 0.841602; 0.837609; 0.833151; 0.828151; 0.822526; 0.816184;
   0.809027; 0.800947; 0.791829; 0.781552; 0.769985; 0.756999; 0.742457; 0.726229; 0.708189; 0.688226;
   0.666247; 0.642195; 0.616048; 0.58784; 0.557668; 0.525706; 0.492213; 0.457538; 0.422119; 0.38647;
   0.351158; 0.31677; 0.283867; 0.252931; 0.224318; 0.198222; 0.174672; 0.153554; 0.134671; 0.117802;
   0.102761; 0.0894077; 0.0776237; 0.0672866; 0.0582513; 0.050363; 0.0434879; 0.0375227; 0.032355; 0.0278881;
   0.024033; 0.0207121; 0.0178517; 0.0154022; 0; 0; 0; 0; 0; 0; 0; 0; 0; 0; 0; 0; 0; 0; 0; 0; 0; 0; 0; 0; 0;
   0; 0; 0; 0; 0; 0; 0; 0; 0; 0; 0; 0; 0; 0];
  [1.01571; 1.0169; 1.01818; 1.01954; 1.02099; 1.02253; 1.02417; 1.02591; 1.02776; 1.02972; 1.0318; 1.034;
   1.03632; 1.03877; 1.04136; 1.04408; 1.04693; 1.04993; 1.05306; 1.05634; 1.05976; 1.06332; 1.06702;
   1.07085; 1.07482; 1.07892; 1.08314; 1.08748; 1.09192; 1.09646; 1.10109; 1.1058; 1.11056; 1.11537; 1.12021;
   1.12507; 1.12992; 1.13474; 1.13951; 1.14422; 1.14884; 1.15334; 1.15769; 1.16188; 1.16588; 1.16966;
   1.17318; 1.17644; 1.17939; 1.18201; 1.18428; 1.18616; 1.18764; 1.18868; 1.18927; 1.18938; 1.189; 1.1881;
   1.18667; 1.1847; 1.18218; 1.17909; 1.17543; 1.17121; 1.16642; 1.16108; 1.15518; 1.14876; 1.14182; 1.1344;
   1.12651; 1.11821; 1.10951; 1.10048; 1.09115; 1.08158; 1.07181; 1.06191; 1.05193; 1.04193; 1.03196;
   1.02209; 1.01237; 1.00284; 0.993557; 0.984561; 0.97589; 0.967575; 0.95964; 0.952106; 0.944986; 0.938285;
   0.932006; 0.926143; 0.920687; 0.915624; 0.910936; 0.906601; 0.902596; 0.898892; 0.895461; 0.892272;
   0.889294; 0.886493; 0.883835; 0.881285; 0.878805; 0.87636; 0.87391; 0.871413; 0.868828; 0.866108;
   0.863206; 0.860069; 0.856642; 0.852863; 0.848665; 0.843977; 0.838719; 0.832804; 0.826139; 0.818622;
   0.810141; 0.800581; 0.789816; 0.777716; 0.764147; 0.748976; 0.732071; 0.713309; 0.692585; 0.669813;
   0.644943; 0.617968; 0.588936; 0.557963; 0.525244; 0.491059; 0.45578; 0.419865; 0.383845; 0.348296;
   0.313807; 0.280927; 0.250117; 0.221701; 0.195841; 0.172534; 0.151644; 0.132962; 0.116271; 0.101395;
   0.0881966; 0.0765609; 0.06636; 0.0574439; 0.0496609; 0.0428789; 0.0369979; 0.0319039; 0.0275024;
   0.0237001; 0.0204311; 0.017611; 0.0151966; 0; 0; 0; 0; 0; 0; 0; 0; 0; 0; 0; 0; 0; 0; 0; 0; 0; 0; 0; 0; 0;
   0; 0; 0; 0; 0; 0; 0; 0; 0; 0; 0; 0; 0; 0];
  [1.01574; 1.01694; 1.01823; 1.01959; 1.02105; 1.02261; 1.02426; 1.02602; 1.02789; 1.02987; 1.03198; 1.0342;
   1.03655; 1.03904; 1.04166; 1.04442; 1.04732; 1.05037; 1.05356; 1.05691; 1.0604; 1.06403; 1.06782; 1.07175;
   1.07582; 1.08003; 1.08437; 1.08884; 1.09342; 1.09811; 1.1029; 1.10777; 1.11272; 1.11772; 1.12277; 1.12784;
   1.13291; 1.13797; 1.14299; 1.14796; 1.15284; 1.15761; 1.16225; 1.16674; 1.17103; 1.17511; 1.17895;
   1.18251; 1.18578; 1.18872; 1.19131; 1.19351; 1.1953; 1.19666; 1.19756; 1.19798; 1.19789; 1.19728; 1.19614;
   1.19444; 1.19218; 1.18934; 1.18593; 1.18194; 1.17737; 1.17223; 1.16653; 1.16029; 1.15352; 1.14625;
   1.13851; 1.13034; 1.12177; 1.11284; 1.10361; 1.09413; 1.08444; 1.07461; 1.06469; 1.05474; 1.04482;
   1.03499; 1.0253; 1.0158; 1.00654; 0.99756; 0.988902; 0.980596; 0.972668; 0.965137; 0.958016; 0.951313;
   0.945028; 0.939157; 0.933691; 0.928616; 0.923913; 0.91956; 0.915534; 0.911806; 0.908348; 0.905129;
   0.902115; 0.899274; 0.896571; 0.893969; 0.891432; 0.888921; 0.886395; 0.883814; 0.881133; 0.878305;
   0.875281; 0.872006; 0.868422; 0.864467; 0.860072; 0.855162; 0.849655; 0.843462; 0.836487; 0.828624;
   0.819761; 0.809779; 0.798551; 0.785944; 0.771825; 0.756059; 0.738516; 0.719077; 0.697639; 0.674125;
   0.648493; 0.620747; 0.590949; 0.559233; 0.52581; 0.490981; 0.455137; 0.418752; 0.382372; 0.346581;
   0.311964; 0.279061; 0.248313; 0.220019; 0.194311; 0.171161; 0.150416; 0.131862; 0.115283; 0.100511;
   0.087414; 0.075875; 0.0657626; 0.0569247; 0.049208; 0.0424897; 0.0366628; 0.0316157; 0.0272562; 0.0234904;
   0.0202535; 0.0174625; 0.0150719; 0; 0; 0; 0; 0; 0; 0; 0; 0; 0; 0; 0; 0; 0; 0; 0; 0; 0; 0; 0; 0; 0; 0; 0;
   0; 0; 0; 0; 0; 0; 0; 0; 0; 0; 0];
  [1.01577; 1.01698; 1.01827; 1.01964; 1.02111; 1.02268; 1.02435; 1.02612; 1.02801; 1.03001; 1.03214;
   1.03439; 1.03677; 1.03929; 1.04195; 1.04475; 1.04769; 1.05079; 1.05404; 1.05745; 1.06101; 1.06472;
   1.06859; 1.07261; 1.07678; 1.0811; 1.08556; 1.09015; 1.09487; 1.09971; 1.10466; 1.1097; 1.11483; 1.12002;
   1.12527; 1.13055; 1.13585; 1.14115; 1.14642; 1.15164; 1.15679; 1.16185; 1.16677; 1.17155; 1.17615;
   1.18054; 1.18469; 1.18858; 1.19217; 1.19543; 1.19835; 1.20088; 1.20299; 1.20468; 1.2059; 1.20663; 1.20686;
   1.20655; 1.2057; 1.20429; 1.2023; 1.19973; 1.19658; 1.19283; 1.18849; 1.18357; 1.17807; 1.17202; 1.16543;
   1.15832; 1.15074; 1.1427; 1.13426; 1.12545; 1.11633; 1.10693; 1.09733; 1.08757; 1.07772; 1.06783; 1.05796;
   1.04817; 1.03851; 1.02904; 1.0198; 1.01084; 1.0022; 0.993902; 0.98598; 0.97845; 0.971328; 0.96462;
   0.958328; 0.952446; 0.946966; 0.941874; 0.937151; 0.932776; 0.928722; 0.924964; 0.921471; 0.918211;
   0.915152; 0.912259; 0.909497; 0.906828; 0.904215; 0.901618; 0.898995; 0.896304; 0.893498; 0.890528;
   0.887344; 0.883888; 0.880101; 0.875916; 0.871262; 0.866061; 0.860228; 0.853671; 0.846289; 0.837975;
   0.828613; 0.81808; 0.806246; 0.792979; 0.778144; 0.761605; 0.743238; 0.722925; 0.700571; 0.676111;
   0.649514; 0.620801; 0.590057; 0.557436; 0.523179; 0.487612; 0.451154; 0.414303; 0.377619; 0.341695;
   0.307109; 0.274383; 0.243923; 0.215987; 0.190665; 0.167891; 0.147491; 0.129242; 0.11294; 0.0984238;
   0.08557; 0.0742588; 0.0643512; 0.0556942; 0.0481364; 0.041561; 0.0358616; 0.0309251; 0.0266619; 0.0229819;
   0.0198172; 0.0170897; 0.0147509; 0; 0; 0; 0; 0; 0; 0; 0; 0; 0; 0; 0; 0; 0; 0; 0; 0; 0; 0; 0; 0; 0; 0; 0;
   0; 0; 0; 0; 0; 0; 0; 0; 0; 0; 0];
  [1.01579; 1.017; 1.0183; 1.01969; 1.02117; 1.02275; 1.02443; 1.02622; 1.02812; 1.03014; 1.03229; 1.03456;
   1.03697; 1.03952; 1.04221; 1.04505; 1.04805; 1.05119; 1.0545; 1.05796; 1.06159; 1.06537; 1.06932; 1.07343;
   1.0777; 1.08213; 1.0867; 1.09142; 1.09628; 1.10126; 1.10636; 1.11158; 1.11688; 1.12227; 1.12772; 1.13322;
   1.13875; 1.14428; 1.1498; 1.15528; 1.16071; 1.16604; 1.17126; 1.17633; 1.18124; 1.18594; 1.19042; 1.19463;
   1.19855; 1.20215; 1.2054; 1.20827; 1.21072; 1.21274; 1.21429; 1.21535; 1.2159; 1.21591; 1.21537; 1.21426;
   1.21256; 1.21027; 1.20738; 1.20388; 1.19979; 1.19509; 1.18981; 1.18396; 1.17756; 1.17064; 1.16321;
   1.15533; 1.14702; 1.13834; 1.12932; 1.12003; 1.11052; 1.10084; 1.09106; 1.08123; 1.07142; 1.06167;
   1.05206; 1.04262; 1.03341; 1.02447; 1.01585; 1.00756; 0.999651; 0.992128; 0.985009; 0.978302; 0.972007;
   0.966122; 0.960635; 0.955534; 0.9508; 0.946411; 0.942342; 0.938565; 0.935051; 0.931767; 0.92868; 0.925757;
   0.922959; 0.920251; 0.917593; 0.914945; 0.912265; 0.90951; 0.906631; 0.90358; 0.900304; 0.896745;
   0.892843; 0.888528; 0.88373; 0.878368; 0.872355; 0.865599; 0.857997; 0.849439; 0.839808; 0.828981;
   0.816826; 0.80321; 0.787997; 0.771054; 0.752253; 0.731482; 0.708648; 0.683685; 0.656571; 0.627332;
   0.596057; 0.56291; 0.528137; 0.492075; 0.455149; 0.417865; 0.380788; 0.344512; 0.309618; 0.276624;
   0.24593; 0.21779; 0.192284; 0.169343; 0.148788; 0.130395; 0.113961; 0.0993252; 0.0863641; 0.074957;
   0.0649639; 0.0562306; 0.0486053; 0.0419702; 0.0362183; 0.0312361; 0.0269327; 0.0232178; 0.0200225;
   0.017269; 0.0149073; 0; 0; 0; 0; 0; 0; 0; 0; 0; 0; 0; 0; 0; 0; 0; 0; 0; 0; 0; 0; 0; 0; 0; 0; 0; 0; 0; 0;
   0; 0; 0; 0; 0; 0; 0];
  [1.0158; 1.01703; 1.01833; 1.01973; 1.02122; 1.0228; 1.0245; 1.0263; 1.02822; 1.03026; 1.03243; 1.03472;
   1.03716; 1.03974; 1.04246; 1.04534; 1.04838; 1.05157; 1.05493; 1.05845; 1.06214; 1.066; 1.07003; 1.07423;
   1.07859; 1.08312; 1.0878; 1.09265; 1.09764; 1.10277; 1.10802; 1.1134; 1.11889; 1.12447; 1.13012; 1.13583;
   1.14159; 1.14736; 1.15313; 1.15887; 1.16457; 1.17018; 1.17569; 1.18107; 1.18629; 1.19132; 1.19612;
   1.20066; 1.20492; 1.20887; 1.21246; 1.21567; 1.21847; 1.22084; 1.22273; 1.22413; 1.22501; 1.22535;
   1.22513; 1.22432; 1.22293; 1.22093; 1.21831; 1.21509; 1.21124; 1.20679; 1.20174; 1.1961; 1.1899; 1.18316;
   1.17591; 1.16818; 1.16002; 1.15146; 1.14257; 1.13339; 1.12397; 1.11438; 1.10467; 1.09491; 1.08515;
   1.07546; 1.06588; 1.05648; 1.0473; 1.03838; 1.02977; 1.0215; 1.0136; 1.00608; 0.998962; 0.992252;
   0.985951; 0.980056; 0.974557; 0.96944; 0.964686; 0.960274; 0.956179; 0.952371; 0.948822; 0.945498;
   0.942367; 0.939391; 0.936535; 0.933761; 0.931027; 0.928295; 0.925519; 0.922654; 0.919652; 0.916463;
   0.91303; 0.909295; 0.905193; 0.900655; 0.895606; 0.889964; 0.883638; 0.876532; 0.868542; 0.859554;
   0.84945; 0.838101; 0.825377; 0.811142; 0.79526; 0.777599; 0.758035; 0.736459; 0.712784; 0.686956;
   0.658964; 0.628848; 0.596717; 0.562756; 0.527231; 0.490504; 0.453019; 0.415302; 0.377928; 0.341497;
   0.30658; 0.273675; 0.243158; 0.215245; 0.189986; 0.167281; 0.14694; 0.128736; 0.112473; 0.0979993;
   0.0851938; 0.0739314; 0.0640693; 0.0554506; 0.0479268; 0.0413831; 0.0357117; 0.0308003; 0.0265599;
   0.0228985; 0.0197512; 0.0170408; 0.0147098; 0; 0; 0; 0; 0; 0; 0; 0; 0; 0; 0; 0; 0; 0; 0; 0; 0; 0; 0; 0; 0;
   0; 0; 0; 0; 0; 0; 0; 0; 0; 0; 0; 0; 0; 0];
  [1.01582; 1.01705; 1.01836; 1.01976; 1.02126; 1.02286; 1.02456; 1.02638; 1.02831; 1.03037; 1.03255;
   1.03487; 1.03733; 1.03994; 1.0427; 1.04561; 1.04869; 1.05193; 1.05533; 1.05891; 1.06267; 1.06659; 1.0707;
   1.07498; 1.07944; 1.08407; 1.08887; 1.09383; 1.09895; 1.10422; 1.10964; 1.11518; 1.12084; 1.12661;
   1.13246; 1.13839; 1.14437; 1.15038; 1.1564; 1.16241; 1.16838; 1.17428; 1.18009; 1.18577; 1.19131; 1.19666;
   1.20179; 1.20668; 1.21128; 1.21558; 1.21952; 1.22309; 1.22625; 1.22897; 1.23121; 1.23296; 1.23419;
   1.23487; 1.23498; 1.2345; 1.23341; 1.23172; 1.2294; 1.22645; 1.22287; 1.21867; 1.21386; 1.20845; 1.20246;
   1.19591; 1.18884; 1.18128; 1.17327; 1.16486; 1.1561; 1.14703; 1.13772; 1.12822; 1.11859; 1.1089; 1.0992;
   1.08956; 1.08003; 1.07067; 1.06152; 1.05263; 1.04404; 1.03579; 1.02789; 1.02038; 1.01326; 1.00655;
   1.00025; 0.994348; 0.988839; 0.98371; 0.97894; 0.97451; 0.970392; 0.966559; 0.96298; 0.959623; 0.956453;
   0.953434; 0.950528; 0.947697; 0.944901; 0.942097; 0.93924; 0.936284; 0.93318; 0.929874; 0.926311; 0.92243;
   0.918164; 0.913443; 0.908188; 0.902316; 0.895734; 0.888345; 0.88004; 0.870706; 0.86022; 0.848453;
   0.835274; 0.820545; 0.804131; 0.785901; 0.765732; 0.743518; 0.719179; 0.692666; 0.663976; 0.633162;
   0.600343; 0.565716; 0.529565; 0.492265; 0.454274; 0.416129; 0.378412; 0.341725; 0.306633; 0.273626;
   0.243062; 0.215138; 0.189884; 0.167189; 0.146852; 0.12865; 0.112388; 0.0979188; 0.0851214; 0.0738694;
   0.0640167; 0.0554058; 0.0478891; 0.0413521; 0.0356872; 0.030781; 0.0265459; 0.0228886; 0.0197444;
   0.0170385; 0.0147109; 0; 0; 0; 0; 0; 0; 0; 0; 0; 0; 0; 0; 0; 0; 0; 0; 0; 0; 0; 0; 0; 0; 0; 0; 0; 0; 0; 0;
   0; 0; 0; 0; 0; 0; 0];
  [1.01583; 1.01706; 1.01838; 1.01979; 1.02129; 1.0229; 1.02461; 1.02644; 1.02839; 1.03046; 1.03267; 1.03501;
   1.03749; 1.04013; 1.04292; 1.04586; 1.04898; 1.05226; 1.05572; 1.05935; 1.06316; 1.06716; 1.07134;
   1.07571; 1.08025; 1.08498; 1.08989; 1.09497; 1.10022; 1.10563; 1.1112; 1.11691; 1.12274; 1.1287; 1.13475;
   1.14089; 1.1471; 1.15335; 1.15962; 1.16589; 1.17213; 1.17832; 1.18443; 1.19043; 1.19628; 1.20196; 1.20743;
   1.21267; 1.21762; 1.22227; 1.22658; 1.23051; 1.23404; 1.23712; 1.23973; 1.24184; 1.24342; 1.24445;
   1.24491; 1.24476; 1.24401; 1.24263; 1.24061; 1.23795; 1.23466; 1.23072; 1.22616; 1.22099; 1.21522;
   1.20888; 1.202; 1.19462; 1.18677; 1.17851; 1.16988; 1.16094; 1.15173; 1.14233; 1.13279; 1.12318; 1.11355;
   1.10396; 1.09448; 1.08516; 1.07604; 1.06718; 1.05861; 1.05037; 1.04249; 1.03498; 1.02787; 1.02116;
   1.01485; 1.00893; 1.00341; 0.998265; 0.993476; 0.98902; 0.984873; 0.981007; 0.977389; 0.973988; 0.970767;
   0.967691; 0.964721; 0.961817; 0.958938; 0.956039; 0.953076; 0.950001; 0.946761; 0.943304; 0.939569;
   0.935495; 0.931012; 0.926048; 0.920521; 0.914345; 0.907426; 0.89966; 0.890939; 0.881145; 0.870154;
   0.857835; 0.844053; 0.828672; 0.811556; 0.792575; 0.771612; 0.748566; 0.723363; 0.695966; 0.666385;
   0.634687; 0.601013; 0.565579; 0.528692; 0.490749; 0.452228; 0.413682; 0.375701; 0.338887; 0.303795;
   0.270892; 0.240506; 0.212801; 0.187777; 0.165297; 0.145153; 0.127122; 0.111017; 0.0966988; 0.0840459;
   0.0729277; 0.0631958; 0.0546882; 0.0472654; 0.0408149; 0.0352236; 0.0303836; 0.026202; 0.0225984;
   0.0194937; 0.0168277; 0.0145307; 0; 0; 0; 0; 0; 0; 0; 0; 0; 0; 0; 0; 0; 0; 0; 0; 0; 0; 0; 0; 0; 0; 0; 0;
   0; 0; 0; 0; 0; 0; 0; 0; 0; 0; 0];
  [1.01583; 1.01707; 1.01839; 1.01981; 1.02132; 1.02294; 1.02466; 1.0265; 1.02846; 1.03055; 1.03277; 1.03513;
   1.03764; 1.0403; 1.04312; 1.0461; 1.04925; 1.05257; 1.05608; 1.05976; 1.06364; 1.0677; 1.07195; 1.0764;
   1.08103; 1.08586; 1.09087; 1.09607; 1.10145; 1.107; 1.11271; 1.11858; 1.12459; 1.13073; 1.13699; 1.14334;
   1.14977; 1.15626; 1.16278; 1.16932; 1.17584; 1.18232; 1.18873; 1.19504; 1.20121; 1.20723; 1.21304;
   1.21863; 1.22394; 1.22896; 1.23363; 1.23794; 1.24184; 1.2453; 1.24828; 1.25077; 1.25272; 1.25411; 1.25492;
   1.25513; 1.25471; 1.25366; 1.25196; 1.24961; 1.24661; 1.24295; 1.23866; 1.23373; 1.2282; 1.22208; 1.2154;
   1.20821; 1.20054; 1.19243; 1.18395; 1.17513; 1.16605; 1.15675; 1.1473; 1.13777; 1.12821; 1.11869; 1.10926;
   1.09998; 1.09091; 1.08207; 1.07353; 1.06531; 1.05744; 1.04995; 1.04284; 1.03613; 1.02981; 1.02389;
   1.01836; 1.0132; 1.0084; 1.00392; 0.999749; 0.995854; 0.992204; 0.988765; 0.985502; 0.982378; 0.979353;
   0.976386; 0.973437; 0.970459; 0.967407; 0.96423; 0.960878; 0.957292; 0.953414; 0.949179; 0.944517;
   0.939352; 0.933601; 0.927176; 0.919979; 0.911907; 0.902847; 0.89268; 0.88128; 0.868515; 0.854249;
   0.838345; 0.820668; 0.80109; 0.779494; 0.755785; 0.729894; 0.701792; 0.671497; 0.639088; 0.604718;
   0.568617; 0.531106; 0.492597; 0.45358; 0.414618; 0.376306; 0.339247; 0.303989; 0.270986; 0.24055;
   0.212825; 0.187793; 0.165309; 0.145156; 0.127114; 0.111002; 0.0966804; 0.0840291; 0.0729142; 0.063185;
   0.0546794; 0.0472588; 0.0408114; 0.0352228; 0.0303847; 0.0262055; 0.0226038; 0.0195007; 0.0168367;
   0.01454; 0; 0; 0; 0; 0; 0; 0; 0; 0; 0; 0; 0; 0; 0; 0; 0; 0; 0; 0; 0; 0; 0; 0; 0; 0; 0; 0; 0; 0; 0; 0; 0;
   0; 0; 0];
  [1.01583; 1.01707; 1.0184; 1.01982; 1.02134; 1.02297; 1.0247; 1.02655; 1.02853; 1.03063; 1.03287; 1.03525;
   1.03777; 1.04046; 1.0433; 1.04632; 1.0495; 1.05287; 1.05642; 1.06015; 1.06408; 1.06821; 1.07253; 1.07705;
   1.08178; 1.0867; 1.09182; 1.09713; 1.10263; 1.10832; 1.11418; 1.12021; 1.12639; 1.13271; 1.13917; 1.14573;
   1.15238; 1.15911; 1.16588; 1.17268; 1.17948; 1.18626; 1.19297; 1.1996; 1.2061; 1.21245; 1.21862; 1.22456;
   1.23024; 1.23563; 1.24068; 1.24537; 1.24965; 1.25349; 1.25687; 1.25973; 1.26207; 1.26383; 1.26501;
   1.26558; 1.26552; 1.26481; 1.26345; 1.26142; 1.25872; 1.25536; 1.25134; 1.24667; 1.24138; 1.2355; 1.22904;
   1.22204; 1.21456; 1.20662; 1.19829; 1.18961; 1.18065; 1.17147; 1.16212; 1.15268; 1.1432; 1.13374; 1.12437;
   1.11514; 1.1061; 1.09731; 1.08879; 1.08059; 1.07274; 1.06525; 1.05815; 1.05144; 1.04513; 1.0392; 1.03366;
   1.02849; 1.02367; 1.01917; 1.01497; 1.01105; 1.00737; 1.00389; 1.00059; 0.997411; 0.99433; 0.991301;
   0.98828; 0.985221; 0.982078; 0.978799; 0.975331; 0.971617; 0.967594; 0.963197; 0.958353; 0.952985;
   0.947008; 0.940332; 0.932857; 0.924477; 0.915078; 0.904539; 0.892731; 0.879523; 0.864776; 0.848353;
   0.83012; 0.809951; 0.787731; 0.763369; 0.736801; 0.708006; 0.677011; 0.643904; 0.608851; 0.572095;
   0.533971; 0.494902; 0.455393; 0.416012; 0.377362; 0.340043; 0.304597; 0.271468; 0.240949; 0.213171;
   0.1881; 0.165579; 0.14539; 0.127313; 0.111169; 0.096824; 0.0841548; 0.0730254; 0.0632831; 0.0547655;
   0.0473348; 0.0408795; 0.0352838; 0.0304393; 0.0262548; 0.0226487; 0.0195418; 0.0168746; 0; 0; 0; 0; 0; 0;
   0; 0; 0; 0; 0; 0; 0; 0; 0; 0; 0; 0; 0; 0; 0; 0; 0; 0; 0; 0; 0; 0; 0; 0; 0; 0; 0; 0; 0; 0];
  [1.01583; 1.01707; 1.01841; 1.01983; 1.02136; 1.02299; 1.02473; 1.02659; 1.02858; 1.0307; 1.03295; 1.03535;
   1.0379; 1.0406; 1.04347; 1.04652; 1.04974; 1.05314; 1.05673; 1.06052; 1.0645; 1.06869; 1.07308; 1.07768;
   1.08248; 1.0875; 1.09272; 1.09814; 1.10377; 1.10959; 1.1156; 1.12178; 1.12813; 1.13464; 1.14129; 1.14806;
   1.15494; 1.1619; 1.16893; 1.17599; 1.18307; 1.19014; 1.19716; 1.2041; 1.21094; 1.21763; 1.22415; 1.23046;
   1.23651; 1.24227; 1.24771; 1.25279; 1.25747; 1.26171; 1.26547; 1.26874; 1.27146; 1.27362; 1.27518;
   1.27613; 1.27643; 1.27608; 1.27506; 1.27336; 1.27099; 1.26793; 1.2642; 1.25981; 1.25478; 1.24914; 1.24291;
   1.23612; 1.22883; 1.22107; 1.2129; 1.20438; 1.19555; 1.18649; 1.17725; 1.1679; 1.1585; 1.14912; 1.13981;
   1.13063; 1.12164; 1.11288; 1.1044; 1.09622; 1.08839; 1.08092; 1.07382; 1.06711; 1.0608; 1.05487; 1.04932;
   1.04414; 1.0393; 1.03478; 1.03056; 1.02661; 1.02289; 1.01938; 1.01603; 1.0128; 1.00966; 1.00657; 1.00348;
   1.00034; 0.997102; 0.99372; 0.990136; 0.986292; 0.982123; 0.977562; 0.972536; 0.966965; 0.960763;
   0.953836; 0.946083; 0.937397; 0.927661; 0.916752; 0.904541; 0.890893; 0.875671; 0.858737; 0.839957;
   0.819207; 0.796375; 0.771373; 0.744143; 0.714671; 0.68299; 0.649202; 0.613481; 0.576083; 0.537356;
   0.497733; 0.457731; 0.417927; 0.378925; 0.341326; 0.305667; 0.272378; 0.241743; 0.213875; 0.188727;
   0.166137; 0.14588; 0.127739; 0.11154; 0.0971469; 0.0844381; 0.0732745; 0.0635016; 0.0549566; 0.0475021;
   0.0410264; 0.0354119; 0.0305531; 0.0263553; 0.0227376; 0.0196209; 0.0169451; 0; 0; 0; 0; 0; 0; 0; 0; 0; 0;
   0; 0; 0; 0; 0; 0; 0; 0; 0; 0; 0; 0; 0; 0; 0; 0; 0; 0; 0; 0; 0; 0; 0; 0; 0; 0];
  [1.01582; 1.01707; 1.01841; 1.01984; 1.02137; 1.02301; 1.02476; 1.02663; 1.02863; 1.03075; 1.03302;
   1.03544; 1.038; 1.04073; 1.04363; 1.0467; 1.04995; 1.05339; 1.05703; 1.06086; 1.0649; 1.06914; 1.0736;
   1.07827; 1.08316; 1.08826; 1.09358; 1.09912; 1.10486; 1.11081; 1.11696; 1.1233; 1.12982; 1.13651; 1.14335;
   1.15033; 1.15743; 1.16463; 1.17191; 1.17924; 1.1866; 1.19396; 1.20129; 1.20855; 1.21573; 1.22277; 1.22964;
   1.23631; 1.24274; 1.24889; 1.25472; 1.2602; 1.26528; 1.26992; 1.2741; 1.27777; 1.2809; 1.28346; 1.28541;
   1.28675; 1.28743; 1.28745; 1.28679; 1.28544; 1.2834; 1.28066; 1.27724; 1.27314; 1.26838; 1.26299; 1.257;
   1.25044; 1.24335; 1.23578; 1.22778; 1.21941; 1.21073; 1.20179; 1.19267; 1.18342; 1.17411; 1.1648; 1.15556;
   1.14644; 1.1375; 1.12878; 1.12033; 1.11218; 1.10436; 1.0969; 1.08981; 1.08311; 1.07679; 1.07085; 1.06529;
   1.06009; 1.05523; 1.05069; 1.04643; 1.04245; 1.03869; 1.03512; 1.03172; 1.02843; 1.02522; 1.02204;
   1.01886; 1.01561; 1.01226; 1.00874; 1.00501; 1.001; 0.996641; 0.99187; 0.986608; 0.980775; 0.97428;
   0.967028; 0.958916; 0.949833; 0.93966; 0.928272; 0.915537; 0.901321; 0.885483; 0.867889; 0.848403;
   0.826905; 0.803287; 0.777467; 0.749397; 0.71907; 0.686537; 0.651911; 0.615384; 0.577233; 0.537822;
   0.497604; 0.45711; 0.416927; 0.377666; 0.33992; 0.304215; 0.27096; 0.240412; 0.212657; 0.187626; 0.165142;
   0.144979; 0.126922; 0.110802; 0.0964889; 0.0838573; 0.072767; 0.0630583; 0.0545697; 0.0471663; 0.0407372;
   0.035163; 0.0303401; 0.0261742; 0.0225833; 0.0194897; 0.0168362; 0; 0; 0; 0; 0; 0; 0; 0; 0; 0; 0; 0; 0; 0;
   0; 0; 0; 0; 0; 0; 0; 0; 0; 0; 0; 0; 0; 0; 0; 0; 0; 0; 0; 0; 0; 0];
  [1.01581; 1.01706; 1.0184; 1.01984; 1.02138; 1.02302; 1.02478; 1.02666; 1.02866; 1.0308; 1.03308; 1.03551;
   1.0381; 1.04085; 1.04377; 1.04687; 1.05015; 1.05363; 1.0573; 1.06118; 1.06527; 1.06957; 1.07409; 1.07883;
   1.0838; 1.08899; 1.09441; 1.10005; 1.10591; 1.11199; 1.11828; 1.12477; 1.13146; 1.13833; 1.14536; 1.15255;
   1.15987; 1.1673; 1.17483; 1.18243; 1.19007; 1.19772; 1.20536; 1.21295; 1.22046; 1.22785; 1.23508; 1.24213;
   1.24894; 1.25549; 1.26172; 1.2676; 1.27309; 1.27815; 1.28274; 1.28683; 1.29038; 1.29335; 1.29571; 1.29745;
   1.29853; 1.29894; 1.29865; 1.29766; 1.29597; 1.29356; 1.29046; 1.28666; 1.28219; 1.27707; 1.27133; 1.265;
   1.25813; 1.25077; 1.24295; 1.23475; 1.22622; 1.21742; 1.20842; 1.19927; 1.19006; 1.18084; 1.17167;
   1.16261; 1.15372; 1.14505; 1.13663; 1.12851; 1.12072; 1.11327; 1.1062; 1.0995; 1.09318; 1.08724; 1.08167;
   1.07646; 1.07158; 1.06702; 1.06274; 1.05872; 1.05492; 1.05132; 1.04786; 1.04452; 1.04125; 1.038; 1.03474;
   1.0314; 1.02795; 1.02432; 1.02046; 1.01631; 1.01179; 1.00684; 1.00138; 0.99533; 0.988592; 0.981071;
   0.972661; 0.963251; 0.952718; 0.940937; 0.927775; 0.913095; 0.896758; 0.878627; 0.858571; 0.836468;
   0.812216; 0.785736; 0.756985; 0.725965; 0.692733; 0.657415; 0.620214; 0.581415; 0.541399; 0.500628;
   0.459643; 0.419037; 0.379425; 0.341397; 0.305472; 0.272049; 0.241371; 0.21351; 0.188387; 0.165817;
   0.145571; 0.127439; 0.111253; 0.0968827; 0.0842028; 0.0730702; 0.0633236; 0.0548015; 0.0473689; 0.0409147;
   0.0353185; 0.0304764; 0.0262941; 0.0226895; 0.0195826; 0.0169189; 0; 0; 0; 0; 0; 0; 0; 0; 0; 0; 0; 0; 0;
   0; 0; 0; 0; 0; 0; 0; 0; 0; 0; 0; 0; 0; 0; 0; 0; 0; 0; 0; 0; 0; 0; 0];
  [1.0158; 1.01705; 1.0184; 1.01984; 1.02138; 1.02303; 1.02479; 1.02668; 1.02869; 1.03084; 1.03314; 1.03558;
   1.03818; 1.04095; 1.04389; 1.04702; 1.05033; 1.05384; 1.05755; 1.06147; 1.06561; 1.06997; 1.07455;
   1.07936; 1.0844; 1.08968; 1.09519; 1.10094; 1.10692; 1.11312; 1.11955; 1.12619; 1.13304; 1.14008; 1.14731;
   1.1547; 1.16224; 1.16991; 1.17769; 1.18555; 1.19347; 1.20142; 1.20937; 1.21728; 1.22513; 1.23287; 1.24048;
   1.2479; 1.2551; 1.26204; 1.26868; 1.27498; 1.28089; 1.28637; 1.29139; 1.29591; 1.29988; 1.30328; 1.30607;
   1.30822; 1.3097; 1.31051; 1.31061; 1.31; 1.30867; 1.30661; 1.30384; 1.30036; 1.29619; 1.29135; 1.28587;
   1.2798; 1.27315; 1.266; 1.25838; 1.25035; 1.24198; 1.23332; 1.22445; 1.21542; 1.20631; 1.19718; 1.18808;
   1.17909; 1.17026; 1.16163; 1.15325; 1.14516; 1.13738; 1.12996; 1.12289; 1.11619; 1.10987; 1.10392;
   1.09833; 1.0931; 1.08819; 1.08359; 1.07928; 1.07521; 1.07136; 1.06769; 1.06417; 1.06075; 1.05738; 1.05403;
   1.05065; 1.04718; 1.04358; 1.03978; 1.03574; 1.03137; 1.02662; 1.02141; 1.01565; 1.00927; 1.00217;
   0.994243; 0.985386; 0.975482; 0.964408; 0.952034; 0.938227; 0.922847; 0.905756; 0.886818; 0.865903;
   0.842894; 0.817695; 0.790237; 0.760487; 0.728463; 0.694238; 0.657959; 0.619851; 0.580223; 0.53948;
   0.498105; 0.456656; 0.415739; 0.375968; 0.337925; 0.302106; 0.26888; 0.238452; 0.210861; 0.185999;
   0.163665; 0.143631; 0.125691; 0.109688; 0.0954943; 0.0829815; 0.0720011; 0.0623876; 0.0539849; 0.0466588;
   0.0403014; 0.0347888; 0.0300218; 0.0259018; 0.022356; 0.0192966; 0.0166742; 0; 0; 0; 0; 0; 0; 0; 0; 0; 0;
   0; 0; 0; 0; 0; 0; 0; 0; 0; 0; 0; 0; 0; 0; 0; 0; 0; 0; 0; 0; 0; 0; 0; 0; 0; 0];
  [1.01578; 1.01703; 1.01838; 1.01983; 1.02137; 1.02303; 1.0248; 1.02669; 1.02871; 1.03087; 1.03318; 1.03564;
   1.03825; 1.04104; 1.04401; 1.04715; 1.0505; 1.05404; 1.05778; 1.06175; 1.06593; 1.07034; 1.07498; 1.07986;
   1.08498; 1.09034; 1.09594; 1.10179; 1.10788; 1.11421; 1.12077; 1.12756; 1.13457; 1.14179; 1.1492; 1.15679;
   1.16455; 1.17246; 1.18048; 1.18861; 1.19681; 1.20506; 1.21332; 1.22156; 1.22975; 1.23785; 1.24582;
   1.25362; 1.26122; 1.26856; 1.27562; 1.28233; 1.28868; 1.29459; 1.30005; 1.30501; 1.30942; 1.31325;
   1.31648; 1.31906; 1.32097; 1.32219; 1.32269; 1.32247; 1.32152; 1.31983; 1.3174; 1.31426; 1.3104; 1.30586;
   1.30066; 1.29484; 1.28844; 1.28151; 1.2741; 1.26626; 1.25806; 1.24956; 1.24082; 1.23192; 1.22291; 1.21388;
   1.20487; 1.19595; 1.18718; 1.1786; 1.17026; 1.16221; 1.15446; 1.14705; 1.14; 1.13331; 1.12699; 1.12103;
   1.11544; 1.11019; 1.10526; 1.10064; 1.09629; 1.09219; 1.0883; 1.08458; 1.081; 1.07751; 1.07407; 1.07063;
   1.06716; 1.06358; 1.05986; 1.05593; 1.05173; 1.04719; 1.04225; 1.03683; 1.03084; 1.0242; 1.01681; 1.00856;
   0.999354; 0.989065; 0.977569; 0.964735; 0.950428; 0.934509; 0.916839; 0.897281; 0.875709; 0.852009;
   0.826087; 0.797881; 0.767366; 0.734568; 0.699573; 0.662538; 0.623702; 0.58339; 0.542019; 0.500087;
   0.458161; 0.416852; 0.376777; 0.338511; 0.302541; 0.269218; 0.238732; 0.211101; 0.186207; 0.163841;
   0.143775; 0.125805; 0.10978; 0.0955715; 0.0830485; 0.0720598; 0.0624392; 0.0540296; 0.0466997; 0.0403377;
   0.0348219; 0.0300523; 0.02593; 0.022383; 0.0193214; 0.0166988; 0; 0; 0; 0; 0; 0; 0; 0; 0; 0; 0; 0; 0; 0;
   0; 0; 0; 0; 0; 0; 0; 0; 0; 0; 0; 0; 0; 0; 0; 0; 0; 0; 0; 0; 0; 0];
  [1.01575; 1.01701; 1.01836; 1.01981; 1.02136; 1.02302; 1.02479; 1.02669; 1.02872; 1.03089; 1.03321;
   1.03568; 1.03831; 1.04112; 1.0441; 1.04727; 1.05064; 1.05421; 1.05799; 1.062; 1.06622; 1.07068; 1.07538;
   1.08033; 1.08552; 1.09096; 1.09665; 1.1026; 1.10879; 1.11524; 1.12194; 1.12887; 1.13604; 1.14343; 1.15103;
   1.15882; 1.1668; 1.17494; 1.18321; 1.1916; 1.20008; 1.20862; 1.2172; 1.22576; 1.2343; 1.24275; 1.2511;
   1.25929; 1.26728; 1.27504; 1.28251; 1.28966; 1.29644; 1.3028; 1.30871; 1.31411; 1.31898; 1.32326; 1.32693;
   1.32995; 1.3323; 1.33395; 1.33487; 1.33506; 1.3345; 1.33318; 1.33112; 1.32832; 1.3248; 1.32057; 1.31566;
   1.31011; 1.30397; 1.29727; 1.29007; 1.28243; 1.27441; 1.26608; 1.25749; 1.24871; 1.23983; 1.23089;
   1.22197; 1.21313; 1.20442; 1.1959; 1.18761; 1.17958; 1.17186; 1.16447; 1.15743; 1.15075; 1.14442; 1.13846;
   1.13285; 1.12758; 1.12262; 1.11796; 1.11357; 1.10942; 1.10547; 1.10168; 1.09802; 1.09445; 1.09091;
   1.08736; 1.08376; 1.08004; 1.07616; 1.07204; 1.06764; 1.06288; 1.05768; 1.05197; 1.04567; 1.03868; 1.0309;
   1.02222; 1.01254; 1.00173; 0.989661; 0.976206; 0.961225; 0.944579; 0.926127; 0.905736; 0.883283; 0.858657;
   0.831773; 0.802578; 0.77106; 0.737259; 0.701279; 0.663297; 0.623576; 0.582462; 0.540396; 0.497893;
   0.455537; 0.413947; 0.373736; 0.335466; 0.299602; 0.266462; 0.236201; 0.208807; 0.184136; 0.161971;
   0.142084; 0.124281; 0.108416; 0.0943625; 0.0819858; 0.0711285; 0.0616242; 0.053317; 0.0460826; 0.0398047;
   0.0343619; 0.0296566; 0.0255906; 0.0220937; 0.0190762; 0.0164876; 0; 0; 0; 0; 0; 0; 0; 0; 0; 0; 0; 0; 0;
   0; 0; 0; 0; 0; 0; 0; 0; 0; 0; 0; 0; 0; 0; 0; 0; 0; 0; 0; 0; 0; 0; 0];
  [1.01573; 1.01699; 1.01834; 1.01979; 1.02134; 1.02301; 1.02479; 1.02669; 1.02873; 1.03091; 1.03323;
   1.03571; 1.03836; 1.04118; 1.04418; 1.04738; 1.05077; 1.05437; 1.05818; 1.06222; 1.06649; 1.071; 1.07576;
   1.08076; 1.08602; 1.09154; 1.09732; 1.10336; 1.10967; 1.11623; 1.12306; 1.13013; 1.13746; 1.14502; 1.1528;
   1.16079; 1.16898; 1.17735; 1.18587; 1.19452; 1.20328; 1.21212; 1.22101; 1.22991; 1.23878; 1.2476; 1.25632;
   1.2649; 1.2733; 1.28148; 1.28938; 1.29696; 1.30419; 1.311; 1.31737; 1.32323; 1.32856; 1.33331; 1.33744;
   1.34092; 1.34372; 1.3458; 1.34716; 1.34777; 1.34762; 1.3467; 1.34502; 1.34258; 1.3394; 1.3355; 1.3309;
   1.32564; 1.31976; 1.31332; 1.30635; 1.29892; 1.29109; 1.28293; 1.2745; 1.26587; 1.2571; 1.24828; 1.23946;
   1.2307; 1.22206; 1.2136; 1.20536; 1.19738; 1.18969; 1.18233; 1.1753; 1.16862; 1.1623; 1.15634; 1.15072;
   1.14543; 1.14046; 1.13577; 1.13135; 1.12715; 1.12315; 1.11931; 1.11559; 1.11194; 1.10832; 1.10468;
   1.10096; 1.09713; 1.09311; 1.08884; 1.08427; 1.07932; 1.07392; 1.06798; 1.06141; 1.05413; 1.04604;
   1.03701; 1.02695; 1.01572; 1.0032; 0.989247; 0.97373; 0.956506; 0.937436; 0.916389; 0.893241; 0.867887;
   0.840246; 0.810272; 0.777962; 0.743363; 0.706594; 0.667844; 0.627388; 0.585589; 0.542899; 0.499848;
   0.457028; 0.415061; 0.37456; 0.336081; 0.300074; 0.266843; 0.236523; 0.209085; 0.184375; 0.162172;
   0.142248; 0.124414; 0.108525; 0.0944548; 0.082066; 0.0711982; 0.0616845; 0.0533694; 0.0461292; 0.0398469;
   0.0343996; 0.0296918; 0.0256223; 0.0221217; 0.0191041; 0.0165127; 0; 0; 0; 0; 0; 0; 0; 0; 0; 0; 0; 0; 0;
   0; 0; 0; 0; 0; 0; 0; 0; 0; 0; 0; 0; 0; 0; 0; 0; 0; 0; 0; 0; 0; 0; 0];
  [1.0157; 1.01696; 1.01832; 1.01977; 1.02132; 1.02299; 1.02477; 1.02668; 1.02873; 1.03091; 1.03325; 1.03574;
   1.0384; 1.04123; 1.04425; 1.04747; 1.05088; 1.05451; 1.05835; 1.06243; 1.06674; 1.0713; 1.0761; 1.08117;
   1.08649; 1.09209; 1.09795; 1.10409; 1.11049; 1.11718; 1.12413; 1.13134; 1.13882; 1.14654; 1.15451; 1.1627;
   1.1711; 1.17969; 1.18846; 1.19738; 1.20642; 1.21555; 1.22475; 1.23398; 1.2432; 1.25238; 1.26148; 1.27046;
   1.27927; 1.28786; 1.2962; 1.30423; 1.3119; 1.31918; 1.32601; 1.33235; 1.33815; 1.34338; 1.34798; 1.35193;
   1.35519; 1.35774; 1.35954; 1.36059; 1.36086; 1.36036; 1.35907; 1.35701; 1.35419; 1.35063; 1.34635; 1.3414;
   1.3358; 1.32962; 1.32289; 1.31568; 1.30806; 1.30008; 1.29182; 1.28333; 1.27471; 1.266; 1.25728; 1.24861;
   1.24005; 1.23165; 1.22346; 1.21553; 1.20788; 1.20054; 1.19353; 1.18686; 1.18054; 1.17457; 1.16894;
   1.16363; 1.15863; 1.15391; 1.14945; 1.1452; 1.14115; 1.13724; 1.13344; 1.1297; 1.12598; 1.12223; 1.11839;
   1.11441; 1.11023; 1.10579; 1.10102; 1.09584; 1.09019; 1.08397; 1.0771; 1.06948; 1.061; 1.05157; 1.04105;
   1.02932; 1.01626; 1.00172; 0.985565; 0.967657; 0.947857; 0.926033; 0.902067; 0.875859; 0.847333; 0.816452;
   0.783224; 0.74771; 0.710044; 0.670431; 0.629166; 0.58663; 0.543292; 0.499697; 0.456449; 0.414172;
   0.373476; 0.334906; 0.298891; 0.26571; 0.235472; 0.208126; 0.183502; 0.161374; 0.141515; 0.123745;
   0.107922; 0.0939199; 0.0815954; 0.0707852; 0.0613225; 0.0530533; 0.0458557; 0.0396112; 0.034197;
   0.0295176; 0.0254764; 0.0219974; 0.0189989; 0.016425; 0; 0; 0; 0; 0; 0; 0; 0; 0; 0; 0; 0; 0; 0; 0; 0; 0;
   0; 0; 0; 0; 0; 0; 0; 0; 0; 0; 0; 0; 0; 0; 0; 0; 0; 0; 0];
  [1.01567; 1.01693; 1.01828; 1.01974; 1.02129; 1.02296; 1.02475; 1.02667; 1.02871; 1.03091; 1.03325;
   1.03575; 1.03842; 1.04127; 1.04431; 1.04754; 1.05098; 1.05463; 1.0585; 1.06261; 1.06696; 1.07156; 1.07642;
   1.08154; 1.08693; 1.0926; 1.09854; 1.10477; 1.11128; 1.11807; 1.12515; 1.1325; 1.14012; 1.14801; 1.15616;
   1.16454; 1.17315; 1.18197; 1.19098; 1.20016; 1.20948; 1.2189; 1.22842; 1.23798; 1.24755; 1.2571; 1.26658;
   1.27595; 1.28517; 1.2942; 1.30297; 1.31145; 1.31959; 1.32734; 1.33465; 1.34147; 1.34776; 1.35347; 1.35856;
   1.36299; 1.36673; 1.36975; 1.37202; 1.37352; 1.37423; 1.37415; 1.37328; 1.37161; 1.36917; 1.36597;
   1.36203; 1.35739; 1.35209; 1.34619; 1.33972; 1.33275; 1.32534; 1.31755; 1.30947; 1.30114; 1.29266;
   1.28408; 1.27547; 1.2669; 1.25842; 1.25009; 1.24196; 1.23408; 1.22646; 1.21915; 1.21216; 1.20551; 1.1992;
   1.19323; 1.18758; 1.18226; 1.17723; 1.17248; 1.16798; 1.16369; 1.15958; 1.1556; 1.15173; 1.14791; 1.14409;
   1.14022; 1.13626; 1.13214; 1.12781; 1.12319; 1.11822; 1.11283; 1.10694; 1.10045; 1.09328; 1.08533; 1.0765;
   1.06666; 1.05571; 1.04351; 1.02993; 1.01483; 0.99807; 0.979515; 0.959024; 0.936469; 0.911733; 0.884721;
   0.855365; 0.823633; 0.789545; 0.753174; 0.714664; 0.67424; 0.632209; 0.588968; 0.545002; 0.500869;
   0.45718; 0.414561; 0.373622; 0.334894; 0.298792; 0.265574; 0.235327; 0.207982; 0.18336; 0.16123; 0.141369;
   0.123601; 0.107785; 0.0937954; 0.081485; 0.0706874; 0.0612362; 0.0529777; 0.0457909; 0.0395556; 0.0341509;
   0.0294801; 0.0254456; 0.0219737; 0.018983; 0.0164115; 0; 0; 0; 0; 0; 0; 0; 0; 0; 0; 0; 0; 0; 0; 0; 0; 0;
   0; 0; 0; 0; 0; 0; 0; 0; 0; 0; 0; 0; 0; 0; 0; 0; 0; 0; 0];
  [1.01563; 1.01689; 1.01825; 1.0197; 1.02126; 1.02293; 1.02472; 1.02664; 1.0287; 1.03089; 1.03324; 1.03575;
   1.03844; 1.0413; 1.04435; 1.0476; 1.05105; 1.05473; 1.05863; 1.06277; 1.06716; 1.0718; 1.07671; 1.08188;
   1.08734; 1.09307; 1.09909; 1.10541; 1.11202; 1.11892; 1.12612; 1.1336; 1.14137; 1.14942; 1.15774; 1.16632;
   1.17514; 1.18418; 1.19343; 1.20287; 1.21246; 1.22218; 1.23201; 1.2419; 1.25182; 1.26174; 1.27161; 1.28138;
   1.29102; 1.30047; 1.30969; 1.31863; 1.32724; 1.33547; 1.34326; 1.35058; 1.35736; 1.36357; 1.36916; 1.3741;
   1.37833; 1.38184; 1.38459; 1.38655; 1.38773; 1.38809; 1.38764; 1.38639; 1.38434; 1.38151; 1.37792;
   1.37362; 1.36864; 1.36302; 1.35682; 1.3501; 1.34292; 1.33534; 1.32744; 1.31929; 1.31096; 1.30251; 1.29402;
   1.28555; 1.27717; 1.26891; 1.26085; 1.25302; 1.24545; 1.23817; 1.2312; 1.22457; 1.21826; 1.21228; 1.20663;
   1.20129; 1.19624; 1.19146; 1.18691; 1.18257; 1.1784; 1.17436; 1.17041; 1.1665; 1.16258; 1.1586; 1.15451;
   1.15025; 1.14575; 1.14095; 1.13578; 1.13016; 1.12402; 1.11725; 1.10978; 1.10149; 1.09228; 1.08204;
   1.07064; 1.05795; 1.04383; 1.02816; 1.01079; 0.991573; 0.97038; 0.947082; 0.921565; 0.89374; 0.863544;
   0.830956; 0.796003; 0.758771; 0.719417; 0.678181; 0.635386; 0.591444; 0.546855; 0.502187; 0.458059;
   0.415102; 0.373918; 0.335029; 0.298833; 0.265567; 0.235299; 0.207944; 0.183312; 0.161169; 0.141297;
   0.123522; 0.107707; 0.0937225; 0.081419; 0.0706287; 0.0611836; 0.0529318; 0.0457522; 0.0395234; 0.034124;
   0.0294592; 0.0254295; 0.0219623; 0.0189755; 0.0164057; 0; 0; 0; 0; 0; 0; 0; 0; 0; 0; 0; 0; 0; 0; 0; 0; 0;
   0; 0; 0; 0; 0; 0; 0; 0; 0; 0; 0; 0; 0; 0; 0; 0; 0; 0; 0];
  [1.01559; 1.01685; 1.01821; 1.01966; 1.02122; 1.0229; 1.02469; 1.02661; 1.02867; 1.03087; 1.03323; 1.03575;
   1.03844; 1.04131; 1.04437; 1.04764; 1.05112; 1.05481; 1.05874; 1.06291; 1.06734; 1.07202; 1.07697; 1.0822;
   1.08771; 1.09351; 1.09961; 1.10601; 1.11271; 1.11972; 1.12703; 1.13465; 1.14257; 1.15077; 1.15926;
   1.16803; 1.17705; 1.18632; 1.19581; 1.2055; 1.21537; 1.22539; 1.23553; 1.24575; 1.25602; 1.26631; 1.27656;
   1.28674; 1.2968; 1.30669; 1.31636; 1.32576; 1.33485; 1.34356; 1.35186; 1.35967; 1.36697; 1.37369; 1.37979;
   1.38524; 1.38998; 1.39399; 1.39724; 1.39969; 1.40133; 1.40216; 1.40216; 1.40133; 1.39969; 1.39725;
   1.39404; 1.39009; 1.38543; 1.38012; 1.3742; 1.36775; 1.36081; 1.35345; 1.34575; 1.33778; 1.32961; 1.32131;
   1.31295; 1.30459; 1.2963; 1.28813; 1.28014; 1.27236; 1.26484; 1.2576; 1.25066; 1.24404; 1.23774; 1.23177;
   1.22611; 1.22075; 1.21568; 1.21086; 1.20628; 1.20189; 1.19766; 1.19356; 1.18952; 1.18552; 1.1815; 1.17741;
   1.17319; 1.16878; 1.16412; 1.15914; 1.15377; 1.14792; 1.14153; 1.13449; 1.1267; 1.11808; 1.1085; 1.09785;
   1.08601; 1.07284; 1.0582; 1.04197; 1.02399; 1.00413; 0.982246; 0.958223; 0.931946; 0.903331; 0.87232;
   0.8389; 0.803109; 0.765041; 0.724869; 0.682844; 0.639304; 0.594674; 0.549467; 0.504263; 0.459686;
   0.416368; 0.374908; 0.335819; 0.299481; 0.266118; 0.235777; 0.208361; 0.183671; 0.161473; 0.14155;
   0.123733; 0.107885; 0.0938763; 0.0815524; 0.0707442; 0.0612833; 0.0530185; 0.0458283; 0.0395906;
   0.0341832; 0.0295125; 0.0254771; 0.022004; 0.0190152; 0.0164427; 0; 0; 0; 0; 0; 0; 0; 0; 0; 0; 0; 0; 0; 0;
   0; 0; 0; 0; 0; 0; 0; 0; 0; 0; 0; 0; 0; 0; 0; 0; 0; 0; 0; 0; 0; 0];
  [1.01555; 1.01681; 1.01816; 1.01962; 1.02118; 1.02285; 1.02465; 1.02657; 1.02863; 1.03084; 1.0332; 1.03573;
   1.03843; 1.04131; 1.04439; 1.04767; 1.05116; 1.05488; 1.05883; 1.06303; 1.06749; 1.07221; 1.0772; 1.08248;
   1.08805; 1.09391; 1.10008; 1.10657; 1.11336; 1.12047; 1.1279; 1.13564; 1.1437; 1.15206; 1.16072; 1.16967;
   1.1789; 1.18838; 1.19811; 1.20806; 1.2182; 1.22851; 1.23896; 1.24951; 1.26014; 1.27079; 1.28143; 1.29202;
   1.3025; 1.31283; 1.32296; 1.33284; 1.34241; 1.35162; 1.36041; 1.36875; 1.37656; 1.3838; 1.39043; 1.3964;
   1.40167; 1.4062; 1.40995; 1.41291; 1.41504; 1.41635; 1.41681; 1.41643; 1.41521; 1.41318; 1.41035; 1.40677;
   1.40245; 1.39746; 1.39185; 1.38566; 1.37898; 1.37186; 1.36437; 1.35659; 1.34859; 1.34044; 1.33221;
   1.32397; 1.31578; 1.3077; 1.29978; 1.29207; 1.28459; 1.27739; 1.27048; 1.26387; 1.25758; 1.25161; 1.24594;
   1.24056; 1.23545; 1.2306; 1.22596; 1.22152; 1.21722; 1.21303; 1.2089; 1.20479; 1.20065; 1.19642; 1.19204;
   1.18745; 1.18259; 1.17739; 1.17177; 1.16565; 1.15895; 1.15157; 1.14342; 1.13439; 1.12436; 1.11322;
   1.10083; 1.08708; 1.07181; 1.05489; 1.03618; 1.01554; 0.992827; 0.967929; 0.940739; 0.911177; 0.879196;
   0.844792; 0.808015; 0.768977; 0.727866; 0.684952; 0.640592; 0.595232; 0.5494; 0.503688; 0.458728;
   0.415153; 0.373553; 0.334421; 0.298117; 0.264834; 0.234595; 0.207281; 0.182683; 0.160566; 0.140718;
   0.122976; 0.107207; 0.0932754; 0.0810231; 0.0702799; 0.0608751; 0.0526622; 0.0455215; 0.0393249;
   0.0339564; 0.0293162; 0.0253096; 0.0218614; 0.0188955; 0.016342; 0; 0; 0; 0; 0; 0; 0; 0; 0; 0; 0; 0; 0; 0;
   0; 0; 0; 0; 0; 0; 0; 0; 0; 0; 0; 0; 0; 0; 0; 0; 0; 0; 0; 0; 0; 0];
  [1.0155; 1.01676; 1.01812; 1.01957; 1.02113; 1.02281; 1.0246; 1.02653; 1.02859; 1.0308; 1.03317; 1.0357;
   1.03841; 1.0413; 1.04439; 1.04768; 1.05119; 1.05493; 1.0589; 1.06313; 1.06761; 1.07237; 1.0774; 1.08273;
   1.08835; 1.09428; 1.10052; 1.10708; 1.11397; 1.12118; 1.12872; 1.13658; 1.14478; 1.15329; 1.16212;
   1.17125; 1.18067; 1.19037; 1.20033; 1.21053; 1.22095; 1.23155; 1.24231; 1.2532; 1.26417; 1.2752; 1.28623;
   1.29722; 1.30813; 1.31891; 1.3295; 1.33985; 1.34992; 1.35963; 1.36894; 1.3778; 1.38614; 1.39392; 1.40109;
   1.4076; 1.4134; 1.41846; 1.42275; 1.42622; 1.42886; 1.43066; 1.4316; 1.43168; 1.43091; 1.42931; 1.42689;
   1.42368; 1.41973; 1.41508; 1.40978; 1.40389; 1.39747; 1.3906; 1.38333; 1.37576; 1.36794; 1.35995; 1.35187;
   1.34376; 1.33568; 1.3277; 1.31986; 1.31221; 1.30479; 1.29763; 1.29075; 1.28417; 1.27789; 1.27192; 1.26624;
   1.26085; 1.25572; 1.25083; 1.24615; 1.24165; 1.23728; 1.23302; 1.2288; 1.22459; 1.22034; 1.21597; 1.21145;
   1.2067; 1.20166; 1.19625; 1.19041; 1.18404; 1.17706; 1.16938; 1.16088; 1.15148; 1.14104; 1.12946; 1.11659;
   1.10231; 1.08648; 1.06895; 1.04959; 1.02825; 1.0048; 0.979131; 0.951134; 0.920737; 0.887898; 0.852623;
   0.814973; 0.775071; 0.733117; 0.689397; 0.644282; 0.598233; 0.551788; 0.50555; 0.460157; 0.416241;
   0.374385; 0.335073; 0.298645; 0.265278; 0.234976; 0.207609; 0.18296; 0.160793; 0.140902; 0.123126;
   0.107331; 0.0933812; 0.0811139; 0.0703576; 0.0609407; 0.05272; 0.0455725; 0.0393704; 0.0339968; 0.0293517;
   0.025346; 0.0218923; 0.0189258; 0.0163682; 0; 0; 0; 0; 0; 0; 0; 0; 0; 0; 0; 0; 0; 0; 0; 0; 0; 0; 0; 0; 0;
   0; 0; 0; 0; 0; 0; 0; 0; 0; 0; 0; 0; 0; 0; 0];
  [1.01545; 1.01671; 1.01806; 1.01952; 1.02108; 1.02275; 1.02455; 1.02648; 1.02854; 1.03076; 1.03313;
   1.03566; 1.03837; 1.04127; 1.04437; 1.04768; 1.0512; 1.05496; 1.05895; 1.0632; 1.06772; 1.07251; 1.07758;
   1.08295; 1.08862; 1.09461; 1.10092; 1.10756; 1.11453; 1.12184; 1.12948; 1.13747; 1.1458; 1.15446; 1.16345;
   1.17276; 1.18237; 1.19229; 1.20248; 1.21293; 1.22362; 1.23451; 1.24558; 1.2568; 1.26812; 1.27952; 1.29094;
   1.30235; 1.31369; 1.32491; 1.33597; 1.3468; 1.35736; 1.36759; 1.37742; 1.38681; 1.3957; 1.40403; 1.41175;
   1.41881; 1.42516; 1.43077; 1.4356; 1.43961; 1.44277; 1.44508; 1.44652; 1.44708; 1.44678; 1.44562; 1.44362;
   1.44081; 1.43724; 1.43294; 1.42797; 1.42238; 1.41625; 1.40963; 1.40261; 1.39525; 1.38762; 1.37981;
   1.37188; 1.3639; 1.35594; 1.34806; 1.34031; 1.33273; 1.32537; 1.31826; 1.31141; 1.30485; 1.29859; 1.29261;
   1.28693; 1.28151; 1.27635; 1.27142; 1.26669; 1.26212; 1.25769; 1.25333; 1.24902; 1.24469; 1.2403; 1.23579;
   1.2311; 1.22616; 1.22091; 1.21527; 1.20917; 1.20251; 1.19521; 1.18717; 1.17829; 1.16846; 1.15756; 1.14546;
   1.13204; 1.11716; 1.10068; 1.08246; 1.06235; 1.04022; 1.01594; 0.989394; 0.960485; 0.929145; 0.895344;
   0.859097; 0.820478; 0.779624; 0.736754; 0.692168; 0.646257; 0.599497; 0.552443; 0.505707; 0.459933;
   0.415751; 0.373733; 0.334346; 0.297909; 0.264572; 0.234317; 0.206998; 0.182391; 0.160261; 0.140405;
   0.122669; 0.106919; 0.0930148; 0.08079; 0.0700718; 0.0606894; 0.0525006; 0.0453833; 0.0392062; 0.0338567;
   0.0292327; 0.0252453; 0.0218078; 0.0188551; 0; 0; 0; 0; 0; 0; 0; 0; 0; 0; 0; 0; 0; 0; 0; 0; 0; 0; 0; 0; 0;
   0; 0; 0; 0; 0; 0; 0; 0; 0; 0; 0; 0; 0; 0; 0; 0];
  [1.01539; 1.01665; 1.01801; 1.01946; 1.02102; 1.02269; 1.02449; 1.02642; 1.02849; 1.0307; 1.03307; 1.03561;
   1.03833; 1.04124; 1.04434; 1.04766; 1.0512; 1.05497; 1.05898; 1.06326; 1.0678; 1.07262; 1.07773; 1.08314;
   1.08886; 1.09491; 1.10128; 1.10799; 1.11504; 1.12244; 1.13019; 1.1383; 1.14675; 1.15556; 1.16471; 1.17419;
   1.184; 1.19413; 1.20455; 1.21525; 1.2262; 1.23738; 1.24876; 1.2603; 1.27198; 1.28375; 1.29556; 1.30738;
   1.31916; 1.33083; 1.34236; 1.35369; 1.36475; 1.37549; 1.38586; 1.39579; 1.40523; 1.41412; 1.4224; 1.43003;
   1.43695; 1.44312; 1.44851; 1.45307; 1.45678; 1.45962; 1.46157; 1.46264; 1.46281; 1.46211; 1.46055;
   1.45817; 1.45499; 1.45106; 1.44644; 1.44117; 1.43534; 1.429; 1.42222; 1.41509; 1.40767; 1.40004; 1.39228;
   1.38445; 1.37661; 1.36884; 1.36118; 1.35369; 1.34639; 1.33933; 1.33252; 1.32599; 1.31973; 1.31376;
   1.30807; 1.30264; 1.29745; 1.29248; 1.2877; 1.28307; 1.27856; 1.27412; 1.26971; 1.26527; 1.26075; 1.25609;
   1.25123; 1.24611; 1.24065; 1.23478; 1.22842; 1.22148; 1.21387; 1.20549; 1.19623; 1.18598; 1.17463;
   1.16204; 1.14808; 1.13262; 1.11552; 1.09662; 1.0758; 1.05292; 1.02784; 1.00046; 0.970677; 0.938442;
   0.903726; 0.866556; 0.827016; 0.785258; 0.741512; 0.696098; 0.649418; 0.601965; 0.554306; 0.507063;
   0.460882; 0.416391; 0.374155; 0.334625; 0.2981; 0.264711; 0.234423; 0.207075; 0.182439; 0.160281;
   0.140403; 0.122652; 0.106897; 0.0929919; 0.0807673; 0.0700496; 0.0606683; 0.052482; 0.0453679; 0.0391938;
   0.0338472; 0.0292264; 0.0252415; 0.0218069; 0.0188571; 0; 0; 0; 0; 0; 0; 0; 0; 0; 0; 0; 0; 0; 0; 0; 0; 0;
   0; 0; 0; 0; 0; 0; 0; 0; 0; 0; 0; 0; 0; 0; 0; 0; 0; 0; 0; 0];
  [1.01533; 1.01659; 1.01795; 1.0194; 1.02096; 1.02263; 1.02443; 1.02635; 1.02842; 1.03064; 1.03301; 1.03555;
   1.03828; 1.04119; 1.0443; 1.04763; 1.05118; 1.05496; 1.059; 1.06329; 1.06785; 1.0727; 1.07785; 1.0833;
   1.08907; 1.09517; 1.1016; 1.10838; 1.11551; 1.123; 1.13085; 1.13907; 1.14765; 1.1566; 1.1659; 1.17556;
   1.18556; 1.19589; 1.20654; 1.21748; 1.2287; 1.24016; 1.25185; 1.26372; 1.27575; 1.28788; 1.30009; 1.31233;
   1.32454; 1.33667; 1.34867; 1.36049; 1.37206; 1.38333; 1.39424; 1.40472; 1.41473; 1.42418; 1.43304;
   1.44125; 1.44876; 1.45551; 1.46147; 1.4666; 1.47087; 1.47425; 1.47674; 1.47832; 1.479; 1.47878; 1.47768;
   1.47573; 1.47296; 1.46943; 1.46517; 1.46024; 1.45472; 1.44867; 1.44216; 1.43527; 1.42807; 1.42063;
   1.41304; 1.40537; 1.39767; 1.39001; 1.38246; 1.37504; 1.36781; 1.36081; 1.35404; 1.34754; 1.3413; 1.33534;
   1.32963; 1.32418; 1.31897; 1.31395; 1.30912; 1.30443; 1.29984; 1.2953; 1.29078; 1.28622; 1.28156; 1.27674;
   1.27171; 1.26639; 1.26071; 1.25459; 1.24796; 1.24071; 1.23277; 1.22402; 1.21436; 1.20367; 1.19183;
   1.17872; 1.16419; 1.14812; 1.13035; 1.11075; 1.08918; 1.0655; 1.03958; 1.01132; 0.980636; 0.947466;
   0.911799; 0.873671; 0.833179; 0.790489; 0.745847; 0.699588; 0.652131; 0.603984; 0.555727; 0.507989;
   0.461421; 0.416646; 0.37422; 0.334576; 0.297994; 0.264582; 0.234285; 0.206931; 0.182287; 0.160121;
   0.140239; 0.122493; 0.106748; 0.0928557; 0.0806463; 0.0699412; 0.060572; 0.0523979; 0.0452957; 0.0391319;
   0.0337954; 0.0291834; 0.0252059; 0.0217776; 0.0188351; 0; 0; 0; 0; 0; 0; 0; 0; 0; 0; 0; 0; 0; 0; 0; 0; 0;
   0; 0; 0; 0; 0; 0; 0; 0; 0; 0; 0; 0; 0; 0; 0; 0; 0; 0; 0; 0];
  [1.01527; 1.01653; 1.01788; 1.01933; 1.02089; 1.02256; 1.02435; 1.02628; 1.02835; 1.03056; 1.03294;
   1.03549; 1.03821; 1.04113; 1.04425; 1.04758; 1.05114; 1.05494; 1.05899; 1.0633; 1.06789; 1.07276; 1.07794;
   1.08343; 1.08924; 1.09539; 1.10188; 1.10873; 1.11594; 1.12351; 1.13146; 1.13979; 1.14849; 1.15757;
   1.16703; 1.17686; 1.18704; 1.19757; 1.20844; 1.21962; 1.2311; 1.24285; 1.25484; 1.26704; 1.27942; 1.29193;
   1.30453; 1.31718; 1.32982; 1.34242; 1.3549; 1.36721; 1.3793; 1.39111; 1.40256; 1.41361; 1.42418; 1.43422;
   1.44367; 1.45247; 1.46057; 1.46792; 1.47447; 1.48019; 1.48503; 1.48899; 1.49203; 1.49415; 1.49534;
   1.49562; 1.495; 1.49351; 1.49117; 1.48804; 1.48416; 1.4796; 1.47441; 1.46866; 1.46243; 1.45579; 1.44882;
   1.4416; 1.43419; 1.42668; 1.41913; 1.4116; 1.40415; 1.39682; 1.38967; 1.38272; 1.37601; 1.36953; 1.36332;
   1.35736; 1.35165; 1.34619; 1.34094; 1.33589; 1.331; 1.32624; 1.32157; 1.31694; 1.31231; 1.30762; 1.30282;
   1.29784; 1.29263; 1.28711; 1.2812; 1.27483; 1.26792; 1.26037; 1.25209; 1.24297; 1.2329; 1.22177; 1.20945;
   1.19581; 1.18071; 1.16403; 1.14561; 1.12531; 1.10299; 1.07852; 1.05177; 1.02265; 0.991063; 0.956974;
   0.920372; 0.881305; 0.839879; 0.796275; 0.750754; 0.703665; 0.655443; 0.60661; 0.557755; 0.509517;
   0.462548; 0.417469; 0.374824; 0.335032; 0.298353; 0.264875; 0.234529; 0.20713; 0.182442; 0.160235;
   0.140321; 0.122552; 0.106793; 0.0928912; 0.0806744; 0.0699631; 0.0605896; 0.0524128; 0.0453101; 0.0391446;
   0.0338083; 0.0291959; 0.0252193; 0.0217897; 0.0188482; 0; 0; 0; 0; 0; 0; 0; 0; 0; 0; 0; 0; 0; 0; 0; 0; 0;
   0; 0; 0; 0; 0; 0; 0; 0; 0; 0; 0; 0; 0; 0; 0; 0; 0; 0; 0; 0];
  [1.01521; 1.01646; 1.01781; 1.01926; 1.02081; 1.02248; 1.02428; 1.0262; 1.02827; 1.03048; 1.03286; 1.03541;
   1.03813; 1.04105; 1.04418; 1.04752; 1.05109; 1.0549; 1.05896; 1.06329; 1.0679; 1.0728; 1.078; 1.08353;
   1.08938; 1.09558; 1.10212; 1.10903; 1.11631; 1.12397; 1.13201; 1.14045; 1.14927; 1.15848; 1.16809;
   1.17808; 1.18844; 1.19918; 1.21026; 1.22168; 1.23342; 1.24545; 1.25774; 1.27026; 1.28299; 1.29587;
   1.30886; 1.32193; 1.33501; 1.34807; 1.36103; 1.37385; 1.38646; 1.3988; 1.41081; 1.42243; 1.43358; 1.44422;
   1.45427; 1.46368; 1.47239; 1.48034; 1.4875; 1.49382; 1.49926; 1.5038; 1.50741; 1.51008; 1.51182; 1.51262;
   1.51249; 1.51147; 1.50959; 1.50688; 1.5034; 1.49921; 1.49437; 1.48894; 1.483; 1.47663; 1.46991; 1.4629;
   1.45569; 1.44835; 1.44095; 1.43356; 1.42622; 1.41899; 1.41192; 1.40503; 1.39836; 1.39192; 1.38573;
   1.37977; 1.37406; 1.36857; 1.36328; 1.35818; 1.35323; 1.34839; 1.34363; 1.33889; 1.33414; 1.32931;
   1.32434; 1.31918; 1.31376; 1.30801; 1.30184; 1.29519; 1.28796; 1.28006; 1.2714; 1.26185; 1.25132; 1.23968;
   1.22681; 1.21258; 1.19684; 1.17946; 1.16029; 1.1392; 1.11604; 1.09068; 1.063; 1.0329; 1.00032; 0.965206;
   0.927567; 0.887462; 0.845013; 0.800418; 0.753954; 0.705989; 0.656975; 0.607451; 0.558019; 0.509325;
   0.462023; 0.416728; 0.373968; 0.334141; 0.297481; 0.264052; 0.233762; 0.206417; 0.181775; 0.159612;
   0.139742; 0.122024; 0.106319; 0.0924705; 0.0803021; 0.0696342; 0.0603009; 0.0521609; 0.0450918; 0.0389565;
   0.0336473; 0.0290571; 0.025103; 0.0216912; 0.018764; 0; 0; 0; 0; 0; 0; 0; 0; 0; 0; 0; 0; 0; 0; 0; 0; 0; 0;
   0; 0; 0; 0; 0; 0; 0; 0; 0; 0; 0; 0; 0; 0; 0; 0; 0; 0; 0];
  [1.01514; 1.01639; 1.01774; 1.01918; 1.02073; 1.0224; 1.02419; 1.02612; 1.02818; 1.03039; 1.03277; 1.03532;
   1.03805; 1.04097; 1.0441; 1.04744; 1.05102; 1.05484; 1.05891; 1.06325; 1.06788; 1.07281; 1.07804; 1.08359;
   1.08949; 1.09573; 1.10232; 1.10929; 1.11664; 1.12438; 1.13251; 1.14105; 1.14999; 1.15933; 1.16908;
   1.17922; 1.18977; 1.2007; 1.21199; 1.22365; 1.23564; 1.24795; 1.26054; 1.27339; 1.28645; 1.2997; 1.31309;
   1.32658; 1.3401; 1.35362; 1.36707; 1.38039; 1.39353; 1.40642; 1.41899; 1.43119; 1.44294; 1.45418; 1.46484;
   1.47487; 1.4842; 1.49278; 1.50057; 1.5075; 1.51356; 1.5187; 1.5229; 1.52615; 1.52844; 1.52978; 1.53018;
   1.52965; 1.52824; 1.52598; 1.52292; 1.51912; 1.51464; 1.50955; 1.50392; 1.49784; 1.49137; 1.4846; 1.4776;
   1.47045; 1.46321; 1.45596; 1.44874; 1.44162; 1.43464; 1.42782; 1.42121; 1.41481; 1.40863; 1.40269;
   1.39697; 1.39147; 1.38616; 1.38101; 1.376; 1.3711; 1.36625; 1.36141; 1.35654; 1.35157; 1.34645; 1.34112;
   1.3355; 1.32953; 1.32313; 1.31621; 1.30869; 1.30046; 1.29143; 1.2815; 1.27054; 1.25843; 1.24506; 1.23027;
   1.21394; 1.19593; 1.17608; 1.15427; 1.13034; 1.10417; 1.07565; 1.04468; 1.01119; 0.975148; 0.93657;
   0.895525; 0.852146; 0.806643; 0.759308; 0.710521; 0.660752; 0.610548; 0.560524; 0.511332; 0.463625;
   0.418014; 0.375016; 0.335015; 0.298228; 0.264698; 0.234323; 0.206899; 0.182183; 0.159951; 0.140025;
   0.122262; 0.106522; 0.092645; 0.0804528; 0.0697629; 0.0604111; 0.0522563; 0.0451754; 0.0390294; 0.0337118;
   0.0291141; 0.0251544; 0.0217366; 0.0188055; 0; 0; 0; 0; 0; 0; 0; 0; 0; 0; 0; 0; 0; 0; 0; 0; 0; 0; 0; 0; 0;
   0; 0; 0; 0; 0; 0; 0; 0; 0; 0; 0; 0; 0; 0; 0; 0];
  [1.01506; 1.01631; 1.01766; 1.0191; 1.02065; 1.02231; 1.0241; 1.02602; 1.02808; 1.0303; 1.03267; 1.03522;
   1.03795; 1.04087; 1.044; 1.04735; 1.05093; 1.05476; 1.05884; 1.0632; 1.06784; 1.07279; 1.07804; 1.08363;
   1.08956; 1.09584; 1.10249; 1.10951; 1.11693; 1.12474; 1.13296; 1.14159; 1.15064; 1.16011; 1.16999; 1.1803;
   1.19101; 1.20213; 1.21364; 1.22553; 1.23777; 1.25035; 1.26324; 1.2764; 1.28982; 1.30343; 1.31721; 1.33111;
   1.34508; 1.35906; 1.373; 1.38683; 1.4005; 1.41394; 1.42709; 1.43987; 1.45222; 1.46408; 1.47537; 1.48603;
   1.496; 1.50522; 1.51364; 1.52122; 1.5279; 1.53367; 1.53848; 1.54232; 1.5452; 1.54709; 1.54802; 1.54802;
   1.54709; 1.5453; 1.54267; 1.53928; 1.53519; 1.53045; 1.52515; 1.51936; 1.51317; 1.50664; 1.49987; 1.49291;
   1.48585; 1.47875; 1.47167; 1.46466; 1.45776; 1.45103; 1.44447; 1.43811; 1.43196; 1.42603; 1.42031;
   1.41479; 1.40944; 1.40425; 1.39918; 1.39419; 1.38925; 1.3843; 1.37929; 1.37418; 1.36889; 1.36337; 1.35754;
   1.35134; 1.34467; 1.33746; 1.32961; 1.32103; 1.31161; 1.30125; 1.28982; 1.27721; 1.26328; 1.2479; 1.23093;
   1.21223; 1.19165; 1.16905; 1.1443; 1.11726; 1.08784; 1.05592; 1.02146; 0.984437; 0.944863; 0.902823;
   0.858464; 0.81201; 0.76377; 0.71414; 0.663603; 0.612722; 0.56212; 0.512455; 0.464383; 0.418504; 0.375325;
   0.33521; 0.298354; 0.264782; 0.234374; 0.20692; 0.182174; 0.159917; 0.139974; 0.122203; 0.106463;
   0.0925888; 0.0803999; 0.0697135; 0.0603651; 0.0522186; 0.045142; 0.0390008; 0.0336886; 0.0290956;
   0.0251401; 0.0217257; 0.0187995; 0; 0; 0; 0; 0; 0; 0; 0; 0; 0; 0; 0; 0; 0; 0; 0; 0; 0; 0; 0; 0; 0; 0; 0;
   0; 0; 0; 0; 0; 0; 0; 0; 0; 0; 0; 0; 0];
  [1.01499; 1.01623; 1.01757; 1.01901; 1.02056; 1.02222; 1.024; 1.02592; 1.02798; 1.03019; 1.03256; 1.03511;
   1.03784; 1.04076; 1.04389; 1.04724; 1.05083; 1.05466; 1.05875; 1.06312; 1.06778; 1.07274; 1.07802;
   1.08364; 1.0896; 1.09591; 1.10261; 1.10969; 1.11716; 1.12505; 1.13335; 1.14207; 1.15123; 1.16082; 1.17084;
   1.18129; 1.19218; 1.20348; 1.2152; 1.22731; 1.2398; 1.25265; 1.26583; 1.27931; 1.29307; 1.30705; 1.32122;
   1.33554; 1.34995; 1.36439; 1.37882; 1.39317; 1.40738; 1.42138; 1.4351; 1.44848; 1.46144; 1.47392; 1.48584;
   1.49715; 1.50777; 1.51765; 1.52673; 1.53496; 1.5423; 1.5487; 1.55414; 1.5586; 1.56207; 1.56455; 1.56604;
   1.56657; 1.56616; 1.56485; 1.56268; 1.55972; 1.55603; 1.55166; 1.54671; 1.54124; 1.53533; 1.52907;
   1.52252; 1.51578; 1.50891; 1.50197; 1.49503; 1.48814; 1.48135; 1.47469; 1.46819; 1.46188; 1.45577;
   1.44985; 1.44413; 1.43859; 1.43322; 1.42798; 1.42285; 1.41778; 1.41275; 1.40769; 1.40256; 1.3973; 1.39184;
   1.38613; 1.3801; 1.37365; 1.36672; 1.35922; 1.35105; 1.34212; 1.33232; 1.32154; 1.30965; 1.29654; 1.28208;
   1.26612; 1.24852; 1.22915; 1.20786; 1.18451; 1.15896; 1.13108; 1.10078; 1.06797; 1.03258; 0.994601;
   0.95407; 0.911075; 0.865774; 0.818404; 0.769288; 0.718835; 0.667543; 0.615986; 0.564797; 0.514637;
   0.466161; 0.419965; 0.376544; 0.336247; 0.299251; 0.265565; 0.235056; 0.207508; 0.182675; 0.16034;
   0.14033; 0.122506; 0.106723; 0.0928136; 0.0805933; 0.0698794; 0.060508; 0.0523429; 0.0452504; 0.0390954;
   0.0337712; 0.0291684; 0.0252051; 0.0217866; 0.0188518; 0; 0; 0; 0; 0; 0; 0; 0; 0; 0; 0; 0; 0; 0; 0; 0; 0;
   0; 0; 0; 0; 0; 0; 0; 0; 0; 0; 0; 0; 0; 0; 0; 0; 0; 0; 0; 0];
  [1.01491; 1.01615; 1.01749; 1.01892; 1.02046; 1.02212; 1.0239; 1.02581; 1.02787; 1.03008; 1.03245; 1.03499;
   1.03771; 1.04064; 1.04377; 1.04712; 1.05071; 1.05455; 1.05865; 1.06302; 1.06769; 1.07267; 1.07797;
   1.08361; 1.0896; 1.09595; 1.10269; 1.10982; 1.11735; 1.1253; 1.13368; 1.1425; 1.15175; 1.16146; 1.17161;
   1.18221; 1.19326; 1.20474; 1.21666; 1.22899; 1.24173; 1.25484; 1.26831; 1.28211; 1.2962; 1.31055; 1.32511;
   1.33984; 1.35469; 1.36961; 1.38453; 1.39939; 1.41414; 1.4287; 1.44301; 1.45699; 1.47057; 1.48368; 1.49626;
   1.50822; 1.51951; 1.53006; 1.53981; 1.54871; 1.55671; 1.56378; 1.56987; 1.57496; 1.57905; 1.58213; 1.5842;
   1.58529; 1.58541; 1.5846; 1.58291; 1.5804; 1.57712; 1.57315; 1.56856; 1.56342; 1.55781; 1.55182; 1.54553;
   1.539; 1.53232; 1.52556; 1.51876; 1.512; 1.50531; 1.49874; 1.49231; 1.48605; 1.47996; 1.47406; 1.46834;
   1.46278; 1.45736; 1.45207; 1.44687; 1.44171; 1.43657; 1.43138; 1.42611; 1.42068; 1.41503; 1.40911;
   1.40283; 1.39611; 1.38889; 1.38106; 1.37252; 1.36319; 1.35295; 1.34169; 1.32929; 1.31561; 1.30053;
   1.28392; 1.26561; 1.24549; 1.22339; 1.19919; 1.17274; 1.14392; 1.11264; 1.07881; 1.04239; 1.00336;
   0.961769; 0.917723; 0.871395; 0.823037; 0.772989; 0.721678; 0.669615; 0.61739; 0.565646; 0.515048;
   0.466248; 0.419834; 0.376283; 0.335923; 0.298906; 0.265221; 0.234719; 0.207176; 0.182346; 0.160018;
   0.140022; 0.122219; 0.106463; 0.0925805; 0.0803846; 0.0696935; 0.0603439; 0.0521999; 0.0451269; 0.0389891;
   0.0336809; 0.0290911; 0.0251411; 0.0217323; 0.0188052; 0; 0; 0; 0; 0; 0; 0; 0; 0; 0; 0; 0; 0; 0; 0; 0; 0;
   0; 0; 0; 0; 0; 0; 0; 0; 0; 0; 0; 0; 0; 0; 0; 0; 0; 0; 0; 0];
  [1.01482; 1.01606; 1.01739; 1.01882; 1.02036; 1.02202; 1.02379; 1.0257; 1.02775; 1.02995; 1.03232; 1.03486;
   1.03758; 1.0405; 1.04363; 1.04698; 1.05057; 1.05441; 1.05852; 1.0629; 1.06758; 1.07258; 1.07789; 1.08355;
   1.08957; 1.09595; 1.10273; 1.1099; 1.11749; 1.12551; 1.13396; 1.14286; 1.15221; 1.16203; 1.1723; 1.18305;
   1.19425; 1.20592; 1.21803; 1.23058; 1.24355; 1.25693; 1.27068; 1.28479; 1.29922; 1.31393; 1.32888;
   1.34402; 1.35931; 1.37469; 1.39011; 1.40549; 1.42078; 1.43591; 1.45081; 1.4654; 1.47961; 1.49337; 1.5066;
   1.51923; 1.5312; 1.54244; 1.55288; 1.56247; 1.57115; 1.57889; 1.58565; 1.59141; 1.59613; 1.59983; 1.60251;
   1.60417; 1.60484; 1.60456; 1.60337; 1.60133; 1.59849; 1.59492; 1.59071; 1.58592; 1.58063; 1.57493;
   1.56889; 1.5626; 1.55613; 1.54954; 1.54291; 1.53628; 1.52971; 1.52322; 1.51687; 1.51065; 1.5046; 1.49871;
   1.49298; 1.4874; 1.48195; 1.4766; 1.47132; 1.46607; 1.46081; 1.45549; 1.45006; 1.44445; 1.43861; 1.43245;
   1.42592; 1.41892; 1.41138; 1.4032; 1.39429; 1.38454; 1.37384; 1.36208; 1.34914; 1.33487; 1.31916; 1.30186;
   1.28282; 1.26191; 1.23899; 1.2139; 1.18653; 1.15675; 1.12446; 1.08959; 1.05211; 1.01201; 0.969342;
   0.924233; 0.876867; 0.827515; 0.776531; 0.724362; 0.671534; 0.61865; 0.566362; 0.515341; 0.466232;
   0.419614; 0.375946; 0.335532; 0.298503; 0.264824; 0.234334; 0.206798; 0.181976; 0.159657; 0.13968;
   0.121904; 0.106178; 0.0923249; 0.0801561; 0.0694902; 0.0601646; 0.0520438; 0.0449922; 0.0388722;
   0.0335803; 0.0290078; 0.0250686; 0.021673; 0.0187558; 0; 0; 0; 0; 0; 0; 0; 0; 0; 0; 0; 0; 0; 0; 0; 0; 0;
   0; 0; 0; 0; 0; 0; 0; 0; 0; 0; 0; 0; 0; 0; 0; 0; 0; 0; 0; 0];
  [1.01474; 1.01597; 1.0173; 1.01872; 1.02026; 1.0219; 1.02368; 1.02558; 1.02762; 1.02982; 1.03218; 1.03472;
   1.03743; 1.04035; 1.04348; 1.04683; 1.05042; 1.05426; 1.05837; 1.06276; 1.06745; 1.07245; 1.07778;
   1.08346; 1.0895; 1.09592; 1.10273; 1.10994; 1.11758; 1.12566; 1.13418; 1.14316; 1.15261; 1.16253; 1.17293;
   1.1838; 1.19516; 1.207; 1.2193; 1.23206; 1.24527; 1.2589; 1.27294; 1.28735; 1.30211; 1.31718; 1.33252;
   1.34807; 1.3638; 1.37965; 1.39556; 1.41147; 1.42731; 1.44301; 1.4585; 1.4737; 1.48855; 1.50296; 1.51687;
   1.53018; 1.54285; 1.55478; 1.56593; 1.57622; 1.58561; 1.59405; 1.60149; 1.60792; 1.61332; 1.61766;
   1.62095; 1.62321; 1.62446; 1.62473; 1.62406; 1.62251; 1.62013; 1.61699; 1.61317; 1.60875; 1.6038; 1.5984;
   1.59264; 1.5866; 1.58035; 1.57396; 1.56749; 1.56101; 1.55455; 1.54817; 1.54189; 1.53573; 1.52972; 1.52385;
   1.51812; 1.51252; 1.50703; 1.50162; 1.49627; 1.49093; 1.48556; 1.48011; 1.47452; 1.46874; 1.46269;
   1.45631; 1.44952; 1.44225; 1.43439; 1.42587; 1.41658; 1.40642; 1.39527; 1.38301; 1.36953; 1.35469;
   1.33835; 1.32038; 1.30063; 1.27896; 1.25523; 1.22929; 1.20102; 1.1703; 1.13704; 1.10118; 1.06267; 1.02154;
   0.977837; 0.931703; 0.883337; 0.833023; 0.781132; 0.728125; 0.674543; 0.621; 0.568156; 0.516683; 0.467226;
   0.420353; 0.376505; 0.33597; 0.298857; 0.265113; 0.234565; 0.206976; 0.182104; 0.159744; 0.139738;
   0.121943; 0.106205; 0.0923441; 0.0801684; 0.0694977; 0.0601693; 0.0520475; 0.044995; 0.0388758; 0.0335846;
   0.0290133; 0.0250748; 0.0216806; 0.0187641; 0; 0; 0; 0; 0; 0; 0; 0; 0; 0; 0; 0; 0; 0; 0; 0; 0; 0; 0; 0; 0;
   0; 0; 0; 0; 0; 0; 0; 0; 0; 0; 0; 0; 0; 0; 0; 0];
  [1.01465; 1.01588; 1.0172; 1.01862; 1.02014; 1.02179; 1.02355; 1.02545; 1.02749; 1.02968; 1.03204; 1.03456;
   1.03728; 1.04019; 1.04331; 1.04666; 1.05025; 1.05409; 1.0582; 1.0626; 1.06729; 1.0723; 1.07765; 1.08334;
   1.0894; 1.09584; 1.10268; 1.10994; 1.11763; 1.12576; 1.13434; 1.1434; 1.15293; 1.16296; 1.17347; 1.18448;
   1.19599; 1.20799; 1.22048; 1.23345; 1.24688; 1.26077; 1.27508; 1.2898; 1.30488; 1.3203; 1.33602; 1.35199;
   1.36816; 1.38448; 1.40088; 1.41731; 1.4337; 1.44997; 1.46606; 1.48189; 1.49739; 1.51246; 1.52705; 1.54106;
   1.55443; 1.56708; 1.57895; 1.58996; 1.60007; 1.60923; 1.61738; 1.62451; 1.63059; 1.6356; 1.63954; 1.64242;
   1.64427; 1.6451; 1.64498; 1.64394; 1.64204; 1.63935; 1.63595; 1.63191; 1.62732; 1.62224; 1.61678; 1.611;
   1.60498; 1.59879; 1.59251; 1.58618; 1.57986; 1.57358; 1.56739; 1.5613; 1.55533; 1.54948; 1.54376; 1.53814;
   1.53262; 1.52717; 1.52174; 1.51631; 1.51083; 1.50525; 1.49951; 1.49355; 1.4873; 1.4807; 1.47366; 1.46611;
   1.45794; 1.44908; 1.43942; 1.42885; 1.41725; 1.40452; 1.39051; 1.37511; 1.35817; 1.33954; 1.3191; 1.29669;
   1.27217; 1.24541; 1.21627; 1.18466; 1.15047; 1.11364; 1.07416; 1.03203; 0.987334; 0.940215; 0.890885;
   0.83964; 0.786867; 0.733038; 0.678707; 0.624499; 0.571078; 0.519122; 0.469269; 0.422081; 0.377987;
   0.337257; 0.299985; 0.266103; 0.235429; 0.207722; 0.182743; 0.160289; 0.140204; 0.122343; 0.106551;
   0.0926433; 0.0804261; 0.0697198; 0.0603611; 0.0522139; 0.0451386; 0.0390013; 0.0336946; 0.0291093;
   0.0251596; 0.0217549; 0.01883; 0; 0; 0; 0; 0; 0; 0; 0; 0; 0; 0; 0; 0; 0; 0; 0; 0; 0; 0; 0; 0; 0; 0; 0; 0;
   0; 0; 0; 0; 0; 0; 0; 0; 0; 0; 0; 0];
  [1.01455; 1.01578; 1.01709; 1.01851; 1.02003; 1.02166; 1.02342; 1.02531; 1.02735; 1.02953; 1.03188; 1.0344;
   1.03711; 1.04002; 1.04314; 1.04648; 1.05006; 1.0539; 1.05801; 1.06241; 1.06711; 1.07212; 1.07748; 1.08318;
   1.08926; 1.09573; 1.1026; 1.10989; 1.11762; 1.1258; 1.13445; 1.14358; 1.15319; 1.16331; 1.17393; 1.18507;
   1.19672; 1.20888; 1.22155; 1.23472; 1.24838; 1.26251; 1.2771; 1.29211; 1.30752; 1.3233; 1.33939; 1.35577;
   1.37238; 1.38916; 1.40606; 1.42301; 1.43995; 1.45681; 1.47351; 1.48997; 1.50611; 1.52186; 1.53714;
   1.55186; 1.56595; 1.57933; 1.59193; 1.60369; 1.61454; 1.62443; 1.63332; 1.64116; 1.64794; 1.65364;
   1.65825; 1.66178; 1.66425; 1.66569; 1.66612; 1.66562; 1.66422; 1.66201; 1.65905; 1.65542; 1.65119;
   1.64646; 1.64131; 1.63581; 1.63004; 1.62408; 1.61799; 1.61183; 1.60565; 1.59949; 1.5934; 1.58738; 1.58147;
   1.57565; 1.56994; 1.56432; 1.55877; 1.55327; 1.54779; 1.54227; 1.53669; 1.53099; 1.5251; 1.51898; 1.51254;
   1.50573; 1.49845; 1.49064; 1.48218; 1.473; 1.46299; 1.45203; 1.44002; 1.42683; 1.41234; 1.39641; 1.3789;
   1.35968; 1.33859; 1.3155; 1.29026; 1.26273; 1.23281; 1.20036; 1.16532; 1.12761; 1.08722; 1.04418;
   0.998572; 0.950539; 0.900307; 0.848185; 0.794567; 0.739938; 0.684859; 0.629964; 0.575924; 0.523416;
   0.47308; 0.425472; 0.381012; 0.339961; 0.302403; 0.26826; 0.237347; 0.209418; 0.184236; 0.161599;
   0.141351; 0.123348; 0.10743; 0.0934102; 0.0810941; 0.0703006; 0.0608657; 0.0526521; 0.0455188; 0.039331;
   0.0339806; 0.0293575; 0.0253751; 0.0219422; 0.018993; 0; 0; 0; 0; 0; 0; 0; 0; 0; 0; 0; 0; 0; 0; 0; 0; 0;
   0; 0; 0; 0; 0; 0; 0; 0; 0; 0; 0; 0; 0; 0; 0; 0; 0; 0; 0; 0];
  [1.01445; 1.01567; 1.01698; 1.01839; 1.01991; 1.02153; 1.02329; 1.02517; 1.0272; 1.02937; 1.03171; 1.03423;
   1.03693; 1.03983; 1.04294; 1.04628; 1.04986; 1.0537; 1.0578; 1.0622; 1.0669; 1.07192; 1.07728; 1.083;
   1.08909; 1.09557; 1.10247; 1.10979; 1.11756; 1.12579; 1.13449; 1.14369; 1.15338; 1.16359; 1.17432;
   1.18557; 1.19736; 1.20968; 1.22252; 1.23589; 1.24977; 1.26414; 1.27899; 1.29429; 1.31002; 1.32615;
   1.34262; 1.3594; 1.37644; 1.39369; 1.41109; 1.42857; 1.44606; 1.4635; 1.4808; 1.4979; 1.5147; 1.53113;
   1.54711; 1.56255; 1.57737; 1.5915; 1.60485; 1.61736; 1.62897; 1.63962; 1.64926; 1.65784; 1.66535; 1.67176;
   1.67706; 1.68126; 1.68438; 1.68643; 1.68745; 1.68751; 1.68664; 1.68492; 1.68241; 1.67921; 1.67537; 1.671;
   1.66617; 1.66097; 1.65546; 1.64973; 1.64385; 1.63786; 1.63184; 1.62581; 1.61981; 1.61387; 1.60801;
   1.60223; 1.59653; 1.59091; 1.58533; 1.57978; 1.57422; 1.56861; 1.56292; 1.55708; 1.55103; 1.54473;
   1.53809; 1.53104; 1.52351; 1.5154; 1.50663; 1.4971; 1.4867; 1.47532; 1.46286; 1.44918; 1.43415; 1.41765;
   1.39953; 1.37964; 1.35786; 1.33402; 1.308; 1.27966; 1.24887; 1.21553; 1.17956; 1.14091; 1.09956; 1.05554;
   1.00895; 0.959952; 0.908771; 0.855731; 0.801239; 0.745791; 0.689959; 0.634386; 0.579749; 0.526726;
   0.475955; 0.427983; 0.383222; 0.341917; 0.304138; 0.269799; 0.238704; 0.210608; 0.185273; 0.162499;
   0.142133; 0.124028; 0.108022; 0.093925; 0.0815409; 0.0706879; 0.0612015; 0.0529434; 0.0457716; 0.0395503;
   0.0341714; 0.0295232; 0.0255198; 0.022071; 0.0191034; 0; 0; 0; 0; 0; 0; 0; 0; 0; 0; 0; 0; 0; 0; 0; 0; 0;
   0; 0; 0; 0; 0; 0; 0; 0; 0; 0; 0; 0; 0; 0; 0; 0; 0; 0; 0; 0];
  [1.01435; 1.01556; 1.01687; 1.01827; 1.01978; 1.0214; 1.02314; 1.02502; 1.02704; 1.02921; 1.03154; 1.03405;
   1.03674; 1.03963; 1.04274; 1.04607; 1.04964; 1.05347; 1.05757; 1.06196; 1.06666; 1.07169; 1.07705;
   1.08278; 1.08888; 1.09538; 1.1023; 1.10965; 1.11745; 1.12572; 1.13448; 1.14373; 1.1535; 1.16379; 1.17462;
   1.18599; 1.19791; 1.21037; 1.22338; 1.23694; 1.25102; 1.26563; 1.28074; 1.29633; 1.31237; 1.32883;
   1.34568; 1.36286; 1.38033; 1.39804; 1.41593; 1.43393; 1.45198; 1.46999; 1.48791; 1.50564; 1.52311;
   1.54022; 1.55691; 1.57307; 1.58863; 1.60351; 1.61762; 1.6309; 1.64328; 1.6547; 1.6651; 1.67444; 1.68269;
   1.68983; 1.69584; 1.70072; 1.70449; 1.70718; 1.7088; 1.70943; 1.7091; 1.70788; 1.70584; 1.70307; 1.69964;
   1.69563; 1.69112; 1.68621; 1.68097; 1.67546; 1.66977; 1.66395; 1.65806; 1.65214; 1.64622; 1.64033;
   1.63449; 1.62871; 1.62298; 1.61729; 1.61163; 1.60596; 1.60026; 1.59448; 1.58859; 1.58251; 1.5762; 1.56959;
   1.5626; 1.55517; 1.54721; 1.53864; 1.52934; 1.51924; 1.50822; 1.49616; 1.48295; 1.46846; 1.45256; 1.43512;
   1.41599; 1.39502; 1.37208; 1.34703; 1.31972; 1.29002; 1.25782; 1.22302; 1.18555; 1.14537; 1.10247;
   1.05693; 1.00884; 0.958391; 0.905851; 0.851567; 0.795978; 0.739606; 0.683052; 0.626975; 0.572058;
   0.518978; 0.468351; 0.420691; 0.376363; 0.335563; 0.298313; 0.264487; 0.233869; 0.206209; 0.181279;
   0.158895; 0.138903; 0.121158; 0.105485; 0.0916887; 0.0795757; 0.0689634; 0.0596976; 0.0516377; 0.0446379;
   0.0385703; 0.0333235; 0.0287962; 0.0248915; 0.0215366; 0.0186438; 0; 0; 0; 0; 0; 0; 0; 0; 0; 0; 0; 0; 0;
   0; 0; 0; 0; 0; 0; 0; 0; 0; 0; 0; 0; 0; 0; 0; 0; 0; 0; 0; 0; 0; 0; 0; 0];
  [1.01424; 1.01545; 1.01675; 1.01814; 1.01964; 1.02126; 1.02299; 1.02486; 1.02687; 1.02903; 1.03135;
   1.03385; 1.03654; 1.03942; 1.04251; 1.04584; 1.0494; 1.05322; 1.05732; 1.06171; 1.0664; 1.07143; 1.07679;
   1.08252; 1.08864; 1.09515; 1.10208; 1.10946; 1.11729; 1.1256; 1.1344; 1.14371; 1.15355; 1.16392; 1.17484;
   1.18632; 1.19836; 1.21097; 1.22414; 1.23788; 1.25217; 1.26701; 1.28237; 1.29824; 1.31459; 1.33139; 1.3486;
   1.36618; 1.38408; 1.40225; 1.42063; 1.43915; 1.45775; 1.47636; 1.49489; 1.51327; 1.5314; 1.54922; 1.56662;
   1.58352; 1.59984; 1.61548; 1.63038; 1.64445; 1.65762; 1.66983; 1.68102; 1.69115; 1.70017; 1.70806;
   1.71481; 1.72041; 1.72487; 1.72822; 1.73048; 1.73171; 1.73195; 1.73127; 1.72973; 1.72742; 1.72442;
   1.72081; 1.71666; 1.71208; 1.70712; 1.70188; 1.69642; 1.69079; 1.68507; 1.67929; 1.67348; 1.66768; 1.6619;
   1.65616; 1.65044; 1.64475; 1.63905; 1.63333; 1.62755; 1.62167; 1.61565; 1.60942; 1.60294; 1.59612;
   1.58891; 1.58123; 1.57298; 1.56409; 1.55445; 1.54396; 1.53252; 1.52001; 1.50631; 1.49129; 1.47483;
   1.45677; 1.43698; 1.41532; 1.39165; 1.36581; 1.33768; 1.30712; 1.27403; 1.2383; 1.19988; 1.15872; 1.11484;
   1.06829; 1.01921; 0.967785; 0.914289; 0.859086; 0.802625; 0.745442; 0.688147; 0.631405; 0.575905;
   0.522323; 0.471272; 0.423257; 0.37863; 0.337575; 0.300099; 0.266069; 0.235262; 0.207428; 0.182341;
   0.159817; 0.139705; 0.121857; 0.106093; 0.0922169; 0.0800337; 0.0693603; 0.0600417; 0.0519362; 0.0448968;
   0.0387948; 0.0335185; 0.028966; 0.0250393; 0.0216656; 0.0187563; 0; 0; 0; 0; 0; 0; 0; 0; 0; 0; 0; 0; 0; 0;
   0; 0; 0; 0; 0; 0; 0; 0; 0; 0; 0; 0; 0; 0; 0; 0; 0; 0; 0; 0; 0; 0; 0];
  [1.01413; 1.01533; 1.01662; 1.01801; 1.0195; 1.02111; 1.02284; 1.0247; 1.0267; 1.02885; 1.03116; 1.03365;
   1.03632; 1.03919; 1.04228; 1.04559; 1.04915; 1.05296; 1.05705; 1.06143; 1.06612; 1.07114; 1.0765; 1.08224;
   1.08835; 1.09488; 1.10183; 1.10922; 1.11708; 1.12542; 1.13426; 1.14363; 1.15352; 1.16397; 1.17498;
   1.18656; 1.19871; 1.21146; 1.22479; 1.2387; 1.25319; 1.26825; 1.28386; 1.3; 1.31665; 1.33378; 1.35135;
   1.36933; 1.38765; 1.40628; 1.42515; 1.44419; 1.46335; 1.48254; 1.50169; 1.52071; 1.53952; 1.55804;
   1.57617; 1.59382; 1.6109; 1.62733; 1.64302; 1.6579; 1.67188; 1.6849; 1.6969; 1.70782; 1.71764; 1.7263;
   1.73381; 1.74015; 1.74533; 1.74936; 1.75228; 1.75413; 1.75497; 1.75484; 1.75383; 1.752; 1.74945; 1.74625;
   1.74248; 1.73823; 1.73358; 1.72861; 1.72338; 1.71796; 1.71241; 1.70677; 1.70108; 1.69537; 1.68965;
   1.68394; 1.67823; 1.67252; 1.66678; 1.66099; 1.65512; 1.64912; 1.64295; 1.63655; 1.62986; 1.62282;
   1.61535; 1.60737; 1.5988; 1.58954; 1.57951; 1.56859; 1.55668; 1.54365; 1.5294; 1.51378; 1.49666; 1.47791;
   1.45738; 1.43494; 1.41043; 1.38371; 1.35465; 1.32313; 1.28903; 1.25226; 1.21277; 1.17053; 1.12554; 1.0779;
   1.02773; 0.975232; 0.920708; 0.86453; 0.807162; 0.749154; 0.69113; 0.633761; 0.577742; 0.523747; 0.47238;
   0.424131; 0.379337; 0.338159; 0.300587; 0.266474; 0.23559; 0.207685; 0.182536; 0.159964; 0.139818;
   0.121945; 0.106164; 0.0922726; 0.0800771; 0.0693947; 0.0600699; 0.0519605; 0.0449177; 0.0388132;
   0.0335356; 0.0289821; 0.0250548; 0.0216802; 0.0187745; 0; 0; 0; 0; 0; 0; 0; 0; 0; 0; 0; 0; 0; 0; 0; 0; 0;
   0; 0; 0; 0; 0; 0; 0; 0; 0; 0; 0; 0; 0; 0; 0; 0; 0; 0; 0; 0];
  [1.01402; 1.01521; 1.01649; 1.01787; 1.01936; 1.02096; 1.02267; 1.02452; 1.02651; 1.02865; 1.03096;
   1.03343; 1.03609; 1.03895; 1.04203; 1.04533; 1.04887; 1.05268; 1.05675; 1.06113; 1.06581; 1.07082;
   1.07618; 1.08191; 1.08803; 1.09456; 1.10152; 1.10893; 1.11681; 1.12518; 1.13406; 1.14347; 1.15342;
   1.16394; 1.17503; 1.1867; 1.19897; 1.21184; 1.22532; 1.2394; 1.25408; 1.26935; 1.2852; 1.30161; 1.31856;
   1.33602; 1.35394; 1.3723; 1.39105; 1.41013; 1.42948; 1.44905; 1.46876; 1.48854; 1.50831; 1.52798; 1.54748;
   1.5667; 1.58556; 1.60397; 1.62183; 1.63906; 1.65556; 1.67126; 1.68607; 1.69992; 1.71274; 1.72449; 1.73512;
   1.74459; 1.75288; 1.75999; 1.7659; 1.77065; 1.77426; 1.77676; 1.77821; 1.77867; 1.7782; 1.77689; 1.7748;
   1.77203; 1.76866; 1.76477; 1.76045; 1.75576; 1.75079; 1.74559; 1.74023; 1.73475; 1.72919; 1.72358;
   1.71793; 1.71226; 1.70657; 1.70085; 1.69508; 1.68923; 1.68328; 1.67717; 1.67086; 1.6643; 1.65742; 1.65016;
   1.64245; 1.63419; 1.62531; 1.61572; 1.60531; 1.59398; 1.58163; 1.56812; 1.55334; 1.53716; 1.51944;
   1.50004; 1.47883; 1.45565; 1.43037; 1.40284; 1.37293; 1.34052; 1.30549; 1.26777; 1.2273; 1.18406; 1.13806;
   1.0894; 1.03822; 0.984728; 0.929236; 0.87213; 0.813885; 0.755062; 0.696294; 0.638261; 0.58166; 0.527164;
   0.475372; 0.426767; 0.38167; 0.34023; 0.302426; 0.268101; 0.237022; 0.208937; 0.183625; 0.160911;
   0.140642; 0.122662; 0.106788; 0.0928145; 0.0805468; 0.0698016; 0.0604225; 0.0522663; 0.0451813; 0.0390429;
   0.0337351; 0.0291555; 0.0252058; 0.0218122; 0; 0; 0; 0; 0; 0; 0; 0; 0; 0; 0; 0; 0; 0; 0; 0; 0; 0; 0; 0; 0;
   0; 0; 0; 0; 0; 0; 0; 0; 0; 0; 0; 0; 0; 0; 0; 0; 0];
  [1.0139; 1.01509; 1.01636; 1.01773; 1.01921; 1.0208; 1.02251; 1.02434; 1.02632; 1.02845; 1.03074; 1.0332;
   1.03585; 1.0387; 1.04176; 1.04505; 1.04858; 1.05237; 1.05644; 1.0608; 1.06547; 1.07048; 1.07583; 1.08156;
   1.08768; 1.09421; 1.10117; 1.10859; 1.11649; 1.12488; 1.1338; 1.14324; 1.15325; 1.16382; 1.17499; 1.18675;
   1.19912; 1.21212; 1.22573; 1.23998; 1.25484; 1.27032; 1.2864; 1.30307; 1.3203; 1.33808; 1.35635; 1.37509;
   1.39425; 1.41378; 1.43362; 1.4537; 1.47396; 1.49433; 1.51472; 1.53504; 1.55522; 1.57515; 1.59476; 1.61393;
   1.63258; 1.65061; 1.66794; 1.68446; 1.70011; 1.71481; 1.72848; 1.74108; 1.75254; 1.76283; 1.77193;
   1.77981; 1.78649; 1.79198; 1.79629; 1.79946; 1.80155; 1.80261; 1.80271; 1.80192; 1.80032; 1.798; 1.79504;
   1.79152; 1.78752; 1.78313; 1.77842; 1.77345; 1.76827; 1.76295; 1.75751; 1.75199; 1.74641; 1.74077;
   1.73508; 1.72933; 1.7235; 1.71757; 1.7115; 1.70525; 1.69877; 1.692; 1.68488; 1.67735; 1.66933; 1.66073;
   1.65147; 1.64146; 1.63059; 1.61876; 1.60585; 1.59175; 1.57633; 1.55946; 1.541; 1.52081; 1.49875; 1.47467;
   1.44844; 1.41991; 1.38895; 1.35545; 1.31929; 1.28041; 1.23874; 1.19429; 1.14708; 1.09721; 1.04483;
   0.990195; 0.933608; 0.875478; 0.816302; 0.756655; 0.697184; 0.638578; 0.581535; 0.526726; 0.474734;
   0.426023; 0.38089; 0.339457; 0.301679; 0.267385; 0.236333; 0.208275; 0.182994; 0.160319; 0.140098;
   0.12217; 0.106345; 0.0924198; 0.0801953; 0.0694908; 0.0601502; 0.052029; 0.0449752; 0.0388649; 0.0335829;
   0.0290252; 0.0250946; 0.02172; 0; 0; 0; 0; 0; 0; 0; 0; 0; 0; 0; 0; 0; 0; 0; 0; 0; 0; 0; 0; 0; 0; 0; 0; 0;
   0; 0; 0; 0; 0; 0; 0; 0; 0; 0; 0; 0; 0];
  [1.01378; 1.01496; 1.01622; 1.01759; 1.01905; 1.02063; 1.02233; 1.02416; 1.02612; 1.02824; 1.03052;
   1.03297; 1.0356; 1.03843; 1.04148; 1.04475; 1.04827; 1.05205; 1.0561; 1.06045; 1.06511; 1.0701; 1.07545;
   1.08117; 1.08728; 1.09381; 1.10078; 1.10821; 1.11611; 1.12453; 1.13347; 1.14295; 1.153; 1.16363; 1.17486;
   1.1867; 1.19918; 1.21228; 1.22603; 1.24043; 1.25547; 1.27114; 1.28745; 1.30437; 1.32189; 1.33997; 1.35859;
   1.3777; 1.39727; 1.41724; 1.43756; 1.45816; 1.47898; 1.49993; 1.52094; 1.54192; 1.56278; 1.58344; 1.60379;
   1.62374; 1.64319; 1.66204; 1.6802; 1.69758; 1.7141; 1.72966; 1.7442; 1.75766; 1.76998; 1.78112; 1.79106;
   1.79976; 1.80723; 1.81348; 1.81852; 1.8224; 1.82516; 1.82686; 1.82755; 1.82732; 1.82624; 1.82439; 1.82187;
   1.81875; 1.81512; 1.81105; 1.80663; 1.8019; 1.79695; 1.79181; 1.78652; 1.78112; 1.77563; 1.77005; 1.76439;
   1.75865; 1.7528; 1.74682; 1.74067; 1.73432; 1.72771; 1.72079; 1.71349; 1.70575; 1.69748; 1.68862; 1.67906;
   1.66872; 1.65749; 1.64526; 1.63193; 1.61736; 1.60144; 1.58403; 1.565; 1.5442; 1.52149; 1.49673; 1.46978;
   1.44049; 1.40874; 1.37441; 1.3374; 1.29763; 1.25506; 1.20968; 1.16153; 1.11072; 1.0574; 1.00183; 0.944324;
   0.885303; 0.82527; 0.764808; 0.704571; 0.645254; 0.587558; 0.532154; 0.479625; 0.430428; 0.384854;
   0.343018; 0.30487; 0.270234; 0.238867; 0.210518; 0.184974; 0.162061; 0.141628; 0.123512; 0.107519;
   0.0934443; 0.0810877; 0.0702669; 0.0608243; 0.0526138; 0.0454821; 0.039304; 0.033963; 0.0293543;
   0.0253802; 0.0219666; 0; 0; 0; 0; 0; 0; 0; 0; 0; 0; 0; 0; 0; 0; 0; 0; 0; 0; 0; 0; 0; 0; 0; 0; 0; 0; 0; 0;
   0; 0; 0; 0; 0; 0; 0; 0; 0; 0];
  [1.01365; 1.01482; 1.01608; 1.01743; 1.01889; 1.02046; 1.02214; 1.02396; 1.02591; 1.02802; 1.03028;
   1.03272; 1.03534; 1.03815; 1.04119; 1.04444; 1.04794; 1.0517; 1.05574; 1.06007; 1.06472; 1.0697; 1.07503;
   1.08074; 1.08685; 1.09337; 1.10034; 1.10777; 1.11568; 1.12411; 1.13307; 1.14258; 1.15267; 1.16335;
   1.17464; 1.18656; 1.19912; 1.21233; 1.2262; 1.24074; 1.25595; 1.27182; 1.28834; 1.3055; 1.32329; 1.34167;
   1.36062; 1.3801; 1.40007; 1.42048; 1.44127; 1.46238; 1.48374; 1.50527; 1.5269; 1.54854; 1.57009; 1.59146;
   1.61256; 1.63329; 1.65354; 1.67322; 1.69223; 1.71047; 1.72786; 1.7443; 1.75973; 1.77407; 1.78727; 1.79927;
   1.81005; 1.81959; 1.82787; 1.8349; 1.8407; 1.8453; 1.84874; 1.85108; 1.85239; 1.85272; 1.85217; 1.85081;
   1.84873; 1.84602; 1.84275; 1.839; 1.83486; 1.83038; 1.82563; 1.82065; 1.8155; 1.8102; 1.80477; 1.79922;
   1.79356; 1.78778; 1.78186; 1.77577; 1.76949; 1.76296; 1.75615; 1.74898; 1.74141; 1.73335; 1.72473;
   1.71547; 1.70548; 1.69465; 1.6829; 1.67009; 1.65613; 1.64089; 1.62424; 1.60605; 1.58617; 1.56448; 1.54082;
   1.51505; 1.48703; 1.45662; 1.42371; 1.38816; 1.3499; 1.30884; 1.26496; 1.21825; 1.16878; 1.11666; 1.06207;
   1.00527; 0.946615; 0.886537; 0.82556; 0.764288; 0.703387; 0.643562; 0.585513; 0.529903; 0.477296;
   0.428122; 0.382642; 0.340939; 0.302935; 0.268438; 0.237199; 0.208972; 0.183548; 0.160759; 0.140455;
   0.122463; 0.106587; 0.0926183; 0.0803582; 0.0696263; 0.0602644; 0.0521278; 0.0450595; 0.0389402;
   0.0336493; 0.0290861; 0.025149; 0.0217705; 0; 0; 0; 0; 0; 0; 0; 0; 0; 0; 0; 0; 0; 0; 0; 0; 0; 0; 0; 0; 0;
   0; 0; 0; 0; 0; 0; 0; 0; 0; 0; 0; 0; 0; 0; 0; 0; 0];
  [1.01352; 1.01468; 1.01593; 1.01728; 1.01872; 1.02028; 1.02195; 1.02376; 1.0257; 1.02779; 1.03003; 1.03245;
   1.03506; 1.03786; 1.04087; 1.04411; 1.0476; 1.05134; 1.05536; 1.05967; 1.0643; 1.06926; 1.07458; 1.08028;
   1.08637; 1.09289; 1.09985; 1.10728; 1.1152; 1.12363; 1.13261; 1.14214; 1.15226; 1.16298; 1.17433; 1.18631;
   1.19895; 1.21227; 1.22625; 1.24093; 1.25629; 1.27234; 1.28907; 1.30647; 1.32452; 1.3432; 1.36247; 1.38232;
   1.40268; 1.42352; 1.44478; 1.46639; 1.4883; 1.51041; 1.53266; 1.55495; 1.5772; 1.5993; 1.62116; 1.64267;
   1.66374; 1.68427; 1.70414; 1.72326; 1.74154; 1.75888; 1.77522; 1.79046; 1.80457; 1.81747; 1.82913;
   1.83953; 1.84865; 1.8565; 1.86309; 1.86844; 1.87261; 1.87563; 1.87758; 1.87852; 1.87854; 1.8777; 1.8761;
   1.87382; 1.87095; 1.86756; 1.86373; 1.85953; 1.85502; 1.85025; 1.84527; 1.8401; 1.83477; 1.82929; 1.82367;
   1.8179; 1.81196; 1.80582; 1.79946; 1.79282; 1.78587; 1.77854; 1.77076; 1.76248; 1.7536; 1.74406; 1.73374;
   1.72256; 1.71042; 1.6972; 1.68278; 1.66705; 1.64987; 1.63111; 1.61063; 1.58829; 1.56395; 1.53747; 1.5087;
   1.4775; 1.44376; 1.40736; 1.36821; 1.32625; 1.28144; 1.23379; 1.18336; 1.13027; 1.07472; 1.01697;
   0.957387; 0.896406; 0.834564; 0.77247; 0.7108; 0.650261; 0.591558; 0.535353; 0.482206; 0.432544; 0.386621;
   0.344513; 0.306136; 0.271294; 0.239736; 0.211216; 0.185527; 0.1625; 0.141983; 0.123802; 0.107758;
   0.0936398; 0.0812475; 0.0703994; 0.0609357; 0.0527099; 0.0455639; 0.039377; 0.0340274; 0.0294134;
   0.0254326; 0.0220158; 0; 0; 0; 0; 0; 0; 0; 0; 0; 0; 0; 0; 0; 0; 0; 0; 0; 0; 0; 0; 0; 0; 0; 0; 0; 0; 0; 0;
   0; 0; 0; 0; 0; 0; 0; 0; 0; 0];
  [1.01339; 1.01454; 1.01578; 1.01711; 1.01855; 1.02009; 1.02175; 1.02354; 1.02547; 1.02755; 1.02978;
   1.03218; 1.03477; 1.03755; 1.04055; 1.04377; 1.04723; 1.05096; 1.05495; 1.05925; 1.06386; 1.0688; 1.0741;
   1.07978; 1.08586; 1.09236; 1.09931; 1.10673; 1.11465; 1.12309; 1.13207; 1.14163; 1.15177; 1.16253;
   1.17392; 1.18596; 1.19868; 1.21208; 1.22617; 1.24098; 1.25649; 1.27271; 1.28963; 1.30725; 1.32555;
   1.34452; 1.36411; 1.3843; 1.40505; 1.42631; 1.44803; 1.47014; 1.49258; 1.51527; 1.53813; 1.56108; 1.58401;
   1.60684; 1.62946; 1.65176; 1.67365; 1.69502; 1.71576; 1.73577; 1.75495; 1.7732; 1.79046; 1.80663; 1.82164;
   1.83546; 1.84802; 1.8593; 1.86928; 1.87796; 1.88535; 1.89148; 1.89638; 1.9001; 1.90271; 1.90427; 1.90485;
   1.90455; 1.90343; 1.9016; 1.89912; 1.89609; 1.89257; 1.88864; 1.88435; 1.87977; 1.87494; 1.86988; 1.86462;
   1.85918; 1.85356; 1.84775; 1.84173; 1.83548; 1.82897; 1.82216; 1.81498; 1.80739; 1.79932; 1.7907; 1.78145;
   1.77148; 1.7607; 1.74901; 1.73631; 1.72248; 1.7074; 1.69096; 1.67302; 1.65344; 1.63208; 1.60882; 1.58349;
   1.55596; 1.52609; 1.49375; 1.45882; 1.42118; 1.38075; 1.33748; 1.29133; 1.24234; 1.19058; 1.13618;
   1.07935; 1.02039; 0.959658; 0.897633; 0.834866; 0.771983; 0.709672; 0.648647; 0.589613; 0.533217;
   0.480003; 0.430368; 0.384537; 0.342551; 0.304306; 0.269591; 0.238149; 0.209742; 0.184166; 0.161259;
   0.140863; 0.122802; 0.106869; 0.0928523; 0.0805513; 0.0697877; 0.0604009; 0.0522443; 0.0451601; 0.0390288;
   0.0337262; 0.0291562; 0.0252123; 0.0218269; 0; 0; 0; 0; 0; 0; 0; 0; 0; 0; 0; 0; 0; 0; 0; 0; 0; 0; 0; 0; 0;
   0; 0; 0; 0; 0; 0; 0; 0; 0; 0; 0; 0; 0; 0; 0; 0; 0];
  [1.01325; 1.01439; 1.01562; 1.01694; 1.01837; 1.0199; 1.02155; 1.02332; 1.02524; 1.0273; 1.02951; 1.0319;
   1.03447; 1.03723; 1.04021; 1.04341; 1.04685; 1.05055; 1.05453; 1.0588; 1.06339; 1.06831; 1.07359; 1.07924;
   1.0853; 1.09179; 1.09873; 1.10614; 1.11405; 1.12248; 1.13147; 1.14103; 1.1512; 1.16198; 1.17341; 1.18551;
   1.19829; 1.21177; 1.22596; 1.24088; 1.25653; 1.27291; 1.29003; 1.30786; 1.32641; 1.34564; 1.36554;
   1.38608; 1.40721; 1.42888; 1.45105; 1.47366; 1.49663; 1.5199; 1.54337; 1.56697; 1.5906; 1.61415; 1.63754;
   1.66064; 1.68336; 1.70559; 1.72721; 1.74813; 1.76823; 1.78742; 1.80562; 1.82274; 1.8387; 1.85345; 1.86694;
   1.87914; 1.89001; 1.89956; 1.90779; 1.91473; 1.92041; 1.92487; 1.92817; 1.93038; 1.93158; 1.93184;
   1.93125; 1.92989; 1.92785; 1.92521; 1.92204; 1.91842; 1.9144; 1.91005; 1.9054; 1.90049; 1.89535; 1.88999;
   1.88441; 1.87861; 1.87258; 1.86628; 1.85968; 1.85275; 1.84543; 1.83766; 1.82938; 1.82052; 1.81099;
   1.80071; 1.78959; 1.77753; 1.76441; 1.75014; 1.73458; 1.71762; 1.69912; 1.67895; 1.65697; 1.63303; 1.607;
   1.57873; 1.54808; 1.51493; 1.47914; 1.44063; 1.39929; 1.35509; 1.308; 1.25804; 1.2053; 1.14992; 1.09212;
   1.03219; 0.970527; 0.907591; 0.843951; 0.780242; 0.717156; 0.655415; 0.595723; 0.538729; 0.484972;
   0.434845; 0.388565; 0.346168; 0.307543; 0.272476; 0.240711; 0.212006; 0.186162; 0.163014; 0.142404;
   0.124152; 0.108048; 0.0938806; 0.0814457; 0.0705655; 0.0610761; 0.0528298; 0.0456672; 0.0394678;
   0.0341062; 0.0294849; 0.0254971; 0.0220737; 0; 0; 0; 0; 0; 0; 0; 0; 0; 0; 0; 0; 0; 0; 0; 0; 0; 0; 0; 0; 0;
   0; 0; 0; 0; 0; 0; 0; 0; 0; 0; 0; 0; 0; 0; 0; 0; 0];
  [1.0131; 1.01424; 1.01546; 1.01677; 1.01818; 1.0197; 1.02134; 1.0231; 1.02499; 1.02704; 1.02923; 1.0316;
   1.03415; 1.0369; 1.03985; 1.04303; 1.04645; 1.05012; 1.05408; 1.05832; 1.06289; 1.06778; 1.07304; 1.07867;
   1.08471; 1.09117; 1.09809; 1.10549; 1.11339; 1.12182; 1.1308; 1.14037; 1.15054; 1.16135; 1.17281; 1.18495;
   1.19778; 1.21134; 1.22562; 1.24064; 1.25642; 1.27295; 1.29024; 1.30828; 1.32706; 1.34656; 1.36675;
   1.38762; 1.40911; 1.43119; 1.45381; 1.4769; 1.5004; 1.52423; 1.54831; 1.57255; 1.59687; 1.62115; 1.6453;
   1.66921; 1.69276; 1.71585; 1.73836; 1.76019; 1.78122; 1.80137; 1.82052; 1.8386; 1.85552; 1.87123; 1.88567;
   1.89879; 1.91058; 1.92102; 1.93011; 1.93788; 1.94435; 1.94956; 1.95358; 1.95646; 1.95829; 1.95913;
   1.95908; 1.95821; 1.95661; 1.95436; 1.95155; 1.94823; 1.94448; 1.94034; 1.93587; 1.9311; 1.92606; 1.92076;
   1.9152; 1.90938; 1.90329; 1.8969; 1.89018; 1.88308; 1.87556; 1.86755; 1.85899; 1.84981; 1.83993; 1.82925;
   1.8177; 1.80515; 1.79151; 1.77667; 1.7605; 1.74287; 1.72366; 1.70273; 1.67995; 1.65515; 1.62822; 1.59899;
   1.56735; 1.53315; 1.49628; 1.45664; 1.41415; 1.36877; 1.32047; 1.26931; 1.21536; 1.15879; 1.09982;
   1.03877; 0.976038; 0.912115; 0.847577; 0.783073; 0.719308; 0.657004; 0.596868; 0.539537; 0.485539;
   0.435244; 0.388848; 0.346368; 0.307675; 0.272546; 0.240725; 0.211974; 0.186096; 0.162929; 0.142311;
   0.124059; 0.107958; 0.0937931; 0.0813639; 0.0704886; 0.0610102; 0.0527701; 0.0456145; 0.0394234;
   0.0340685; 0.0294542; 0.0254708; 0.022054; 0; 0; 0; 0; 0; 0; 0; 0; 0; 0; 0; 0; 0; 0; 0; 0; 0; 0; 0; 0; 0;
   0; 0; 0; 0; 0; 0; 0; 0; 0; 0; 0; 0; 0; 0; 0; 0; 0];
  [1.01296; 1.01408; 1.01529; 1.01659; 1.01799; 1.0195; 1.02112; 1.02286; 1.02474; 1.02677; 1.02895; 1.0313;
   1.03382; 1.03655; 1.03948; 1.04263; 1.04603; 1.04968; 1.0536; 1.05782; 1.06236; 1.06723; 1.07245; 1.07806;
   1.08407; 1.09051; 1.09741; 1.10478; 1.11266; 1.12108; 1.13006; 1.13962; 1.1498; 1.16062; 1.1721; 1.18427;
   1.19716; 1.21077; 1.22513; 1.24026; 1.25615; 1.27283; 1.29028; 1.30851; 1.32751; 1.34726; 1.36774;
   1.38892; 1.41078; 1.43325; 1.4563; 1.47987; 1.50389; 1.52828; 1.55296; 1.57785; 1.60286; 1.62787; 1.65279;
   1.6775; 1.70189; 1.72585; 1.74927; 1.77202; 1.794; 1.81511; 1.83524; 1.8543; 1.87221; 1.8889; 1.90432;
   1.9184; 1.93113; 1.94249; 1.95248; 1.9611; 1.9684; 1.9744; 1.97917; 1.98276; 1.98524; 1.9867; 1.98721;
   1.98686; 1.98574; 1.98392; 1.98148; 1.9785; 1.97504; 1.97115; 1.96689; 1.96228; 1.95736; 1.95215; 1.94664;
   1.94083; 1.93472; 1.92827; 1.92145; 1.91422; 1.90653; 1.89832; 1.88953; 1.88008; 1.86989; 1.85888;
   1.84694; 1.83398; 1.81989; 1.80456; 1.78786; 1.76967; 1.74985; 1.72828; 1.7048; 1.67928; 1.65158; 1.62155;
   1.58906; 1.55398; 1.5162; 1.47562; 1.43216; 1.38578; 1.33647; 1.28427; 1.22929; 1.17169; 1.1117; 1.04964;
   0.985935; 0.921079; 0.855658; 0.790329; 0.725804; 0.662812; 0.602057; 0.544176; 0.489691; 0.438964;
   0.39218; 0.349348; 0.310331; 0.274903; 0.242806; 0.213804; 0.187701; 0.164334; 0.143541; 0.125133;
   0.108894; 0.0946081; 0.0820717; 0.0711029; 0.0615428; 0.0532316; 0.046014; 0.0397694; 0.0343681;
   0.0297137; 0.0256957; 0.0222491; 0; 0; 0; 0; 0; 0; 0; 0; 0; 0; 0; 0; 0; 0; 0; 0; 0; 0; 0; 0; 0; 0; 0; 0;
   0; 0; 0; 0; 0; 0; 0; 0; 0; 0; 0; 0; 0; 0];
  [1.01281; 1.01392; 1.01512; 1.01641; 1.01779; 1.01928; 1.02089; 1.02262; 1.02448; 1.02649; 1.02865;
   1.03098; 1.03348; 1.03618; 1.03909; 1.04222; 1.04559; 1.04921; 1.05311; 1.0573; 1.0618; 1.06664; 1.07184;
   1.07741; 1.0834; 1.08981; 1.09667; 1.10402; 1.11188; 1.12028; 1.12924; 1.13879; 1.14897; 1.15979; 1.17129;
   1.18349; 1.19641; 1.21008; 1.22451; 1.23972; 1.25572; 1.27252; 1.29012; 1.30853; 1.32774; 1.34773;
   1.36848; 1.38997; 1.41217; 1.43503; 1.4585; 1.48254; 1.50706; 1.532; 1.55728; 1.58281; 1.6085; 1.63423;
   1.65991; 1.68543; 1.71067; 1.7355; 1.75982; 1.78351; 1.80645; 1.82853; 1.84964; 1.8697; 1.88862; 1.90631;
   1.92271; 1.93777; 1.95147; 1.96377; 1.97467; 1.98418; 1.99232; 1.99913; 2.00466; 2.00897; 2.01213;
   2.01422; 2.01532; 2.0155; 2.01486; 2.01347; 2.01142; 2.00878; 2.00561; 2.00196; 1.9979; 1.99345; 1.98864;
   1.98349; 1.97801; 1.97219; 1.96602; 1.95948; 1.95253; 1.94513; 1.93723; 1.92877; 1.91968; 1.9099; 1.89934;
   1.8879; 1.87551; 1.86205; 1.84741; 1.83148; 1.81414; 1.79526; 1.77471; 1.75235; 1.72804; 1.70164; 1.67301;
   1.64201; 1.6085; 1.57235; 1.53346; 1.49174; 1.44711; 1.39953; 1.349; 1.29559; 1.23939; 1.18058; 1.11942;
   1.05624; 0.991475; 0.925634; 0.859322; 0.793207; 0.728012; 0.664465; 0.603273; 0.545062; 0.490337;
   0.439441; 0.392536; 0.349613; 0.31052; 0.275022; 0.242863; 0.213808; 0.187668; 0.164279; 0.143475;
   0.125063; 0.108824; 0.0945376; 0.0820037; 0.07104; 0.0614864; 0.0531817; 0.0459707; 0.0397318; 0.0343362;
   0.029688; 0.0256781; 0.0222338; 0; 0; 0; 0; 0; 0; 0; 0; 0; 0; 0; 0; 0; 0; 0; 0; 0; 0; 0; 0; 0; 0; 0; 0; 0;
   0; 0; 0; 0; 0; 0; 0; 0; 0; 0; 0; 0; 0];
  [1.01265; 1.01375; 1.01494; 1.01621; 1.01759; 1.01906; 1.02065; 1.02237; 1.02421; 1.0262; 1.02834; 1.03064;
   1.03313; 1.0358; 1.03868; 1.04179; 1.04513; 1.04872; 1.05259; 1.05675; 1.06122; 1.06602; 1.07119; 1.07673;
   1.08268; 1.08905; 1.09589; 1.10321; 1.11104; 1.11941; 1.12835; 1.13789; 1.14805; 1.15887; 1.17038;
   1.18259; 1.19554; 1.20925; 1.22374; 1.23902; 1.25512; 1.27203; 1.28978; 1.30835; 1.32775; 1.34797;
   1.36898; 1.39077; 1.4133; 1.43653; 1.46042; 1.4849; 1.50993; 1.53541; 1.56128; 1.58744; 1.61381; 1.64026;
   1.66671; 1.69303; 1.71911; 1.74483; 1.77007; 1.7947; 1.8186; 1.84167; 1.8638; 1.88487; 1.90481; 1.92352;
   1.94094; 1.95702; 1.9717; 1.98497; 1.99682; 2.00724; 2.01626; 2.02391; 2.03024; 2.03531; 2.03918; 2.04193;
   2.04364; 2.04439; 2.04426; 2.04333; 2.0417; 2.03942; 2.03656; 2.03319; 2.02935; 2.02508; 2.0204; 2.01535;
   2.00992; 2.00411; 1.99791; 1.9913; 1.98424; 1.9767; 1.96861; 1.95993; 1.95059; 1.94051; 1.92961; 1.9178;
   1.90499; 1.89108; 1.87595; 1.85949; 1.84157; 1.82208; 1.80087; 1.77781; 1.75276; 1.72558; 1.69612;
   1.66425; 1.62984; 1.59275; 1.55289; 1.51015; 1.46448; 1.41585; 1.36425; 1.30974; 1.25245; 1.19256;
   1.13034; 1.06612; 1.00035; 0.93356; 0.86636; 0.79943; 0.733497; 0.669296; 0.607531; 0.548824; 0.493672;
   0.442405; 0.395175; 0.351959; 0.312597; 0.276851; 0.244465; 0.215205; 0.188883; 0.165337; 0.144397;
   0.125865; 0.10952; 0.0951407; 0.0825257; 0.071492; 0.0618777; 0.0535203; 0.046264; 0.0399856; 0.0345559;
   0.0298789; 0.0258437; 0.0223784; 0; 0; 0; 0; 0; 0; 0; 0; 0; 0; 0; 0; 0; 0; 0; 0; 0; 0; 0; 0; 0; 0; 0; 0;
   0; 0; 0; 0; 0; 0; 0; 0; 0; 0; 0; 0; 0; 0];
  [1.01249; 1.01358; 1.01476; 1.01602; 1.01738; 1.01884; 1.02041; 1.02211; 1.02393; 1.0259; 1.02802; 1.0303;
   1.03276; 1.03541; 1.03826; 1.04134; 1.04465; 1.04821; 1.05204; 1.05617; 1.0606; 1.06537; 1.0705; 1.076;
   1.08191; 1.08825; 1.09505; 1.10233; 1.11013; 1.11847; 1.12738; 1.1369; 1.14705; 1.15786; 1.16936; 1.18158;
   1.19455; 1.20828; 1.22282; 1.23816; 1.25434; 1.27136; 1.28923; 1.30796; 1.32754; 1.34797; 1.36923;
   1.39129; 1.41414; 1.43773; 1.46201; 1.48694; 1.51245; 1.53846; 1.56491; 1.59169; 1.61873; 1.6459; 1.6731;
   1.70023; 1.72715; 1.75375; 1.7799; 1.80548; 1.83036; 1.85443; 1.87756; 1.89967; 1.92064; 1.94039; 1.95885;
   1.97594; 1.99164; 2.0059; 2.0187; 2.03006; 2.03998; 2.04849; 2.05564; 2.06148; 2.06608; 2.06951; 2.07184;
   2.07316; 2.07355; 2.0731; 2.07188; 2.06997; 2.06743; 2.06432; 2.0607; 2.05659; 2.05204; 2.04706; 2.04166;
   2.03584; 2.02958; 2.02287; 2.01566; 2.00793; 1.99961; 1.99065; 1.98099; 1.97055; 1.95924; 1.94698;
   1.93368; 1.91922; 1.9035; 1.8864; 1.8678; 1.84756; 1.82557; 1.80167; 1.77573; 1.74761; 1.71717; 1.68426;
   1.64876; 1.61055; 1.56952; 1.52558; 1.47868; 1.42878; 1.37591; 1.32014; 1.26158; 1.20045; 1.13702;
   1.07165; 1.00481; 0.937032; 0.868951; 0.80126; 0.734693; 0.669986; 0.607841; 0.548865; 0.493538; 0.442167;
   0.394877; 0.351627; 0.31224; 0.276473; 0.244069; 0.214802; 0.188485; 0.164957; 0.144043; 0.125541;
   0.109225; 0.0948732; 0.0822856; 0.0712787; 0.0616902; 0.0533567; 0.0461211; 0.0398632; 0.03445; 0.0297875;
   0.0257679; 0.0223119; 0; 0; 0; 0; 0; 0; 0; 0; 0; 0; 0; 0; 0; 0; 0; 0; 0; 0; 0; 0; 0; 0; 0; 0; 0; 0; 0; 0;
   0; 0; 0; 0; 0; 0; 0; 0; 0; 0];
  [1.01233; 1.01341; 1.01457; 1.01582; 1.01716; 1.01861; 1.02016; 1.02184; 1.02365; 1.02559; 1.02769;
   1.02995; 1.03238; 1.035; 1.03783; 1.04087; 1.04415; 1.04768; 1.05148; 1.05556; 1.05996; 1.06469; 1.06978;
   1.07524; 1.08111; 1.08741; 1.09416; 1.1014; 1.10916; 1.11746; 1.12634; 1.13582; 1.14595; 1.15674; 1.16823;
   1.18044; 1.19342; 1.20718; 1.22174; 1.23714; 1.25339; 1.2705; 1.28848; 1.30735; 1.3271; 1.34772; 1.36921;
   1.39154; 1.41469; 1.43862; 1.46329; 1.48865; 1.51463; 1.54117; 1.56818; 1.59558; 1.62328; 1.65116;
   1.67912; 1.70705; 1.73482; 1.7623; 1.78937; 1.81591; 1.84178; 1.86686; 1.89103; 1.91418; 1.93621; 1.95702;
   1.97654; 1.99469; 2.01142; 2.0267; 2.04051; 2.05283; 2.06368; 2.07309; 2.08109; 2.08774; 2.0931; 2.09724;
   2.10024; 2.10217; 2.10312; 2.10317; 2.1024; 2.10089; 2.0987; 2.09589; 2.09251; 2.08861; 2.08421; 2.07934;
   2.074; 2.06819; 2.06191; 2.05513; 2.04781; 2.03993; 2.03142; 2.02224; 2.01231; 2.00155; 1.9899; 1.97725;
   1.96352; 1.94859; 1.93236; 1.91471; 1.89552; 1.87465; 1.85198; 1.82736; 1.80067; 1.77175; 1.74046;
   1.70667; 1.67026; 1.63109; 1.58907; 1.54411; 1.49616; 1.4452; 1.39124; 1.33437; 1.27471; 1.21249; 1.14799;
   1.08158; 1.01373; 0.945008; 0.876042; 0.807538; 0.740236; 0.674878; 0.612162; 0.552692; 0.496936;
   0.445191; 0.39757; 0.354021; 0.314358; 0.278336; 0.2457; 0.216224; 0.189722; 0.166034; 0.144981; 0.126357;
   0.109933; 0.0954867; 0.0828167; 0.0717384; 0.0620881; 0.053701; 0.0464188; 0.0401211; 0.0346731;
   0.0299812; 0.0259362; 0.0224582; 0; 0; 0; 0; 0; 0; 0; 0; 0; 0; 0; 0; 0; 0; 0; 0; 0; 0; 0; 0; 0; 0; 0; 0;
   0; 0; 0; 0; 0; 0; 0; 0; 0; 0; 0; 0; 0; 0];
  [1.01216; 1.01323; 1.01438; 1.01561; 1.01694; 1.01837; 1.01991; 1.02156; 1.02335; 1.02527; 1.02735;
   1.02958; 1.03199; 1.03458; 1.03738; 1.04039; 1.04363; 1.04712; 1.05088; 1.05493; 1.05929; 1.06398;
   1.06902; 1.07444; 1.08026; 1.08651; 1.09322; 1.10041; 1.10812; 1.11638; 1.12522; 1.13466; 1.14475;
   1.15551; 1.16698; 1.17919; 1.19216; 1.20592; 1.22051; 1.23595; 1.25225; 1.26943; 1.28752; 1.30651;
   1.32641; 1.34721; 1.36892; 1.3915; 1.41493; 1.43919; 1.46423; 1.49; 1.51645; 1.54349; 1.57106; 1.59907;
   1.62741; 1.656; 1.68472; 1.71344; 1.74205; 1.77042; 1.79842; 1.82591; 1.85277; 1.87887; 1.90409; 1.9283;
   1.95141; 1.9733; 1.99389; 2.01312; 2.03092; 2.04724; 2.06207; 2.07539; 2.0872; 2.09753; 2.10642; 2.11391;
   2.12005; 2.12493; 2.12861; 2.13118; 2.13271; 2.13328; 2.13299; 2.13189; 2.13006; 2.12757; 2.12445;
   2.12076; 2.11653; 2.11177; 2.1065; 2.10072; 2.09441; 2.08757; 2.08014; 2.07211; 2.06341; 2.054; 2.04379;
   2.03273; 2.02072; 2.00768; 1.99351; 1.97811; 1.96137; 1.94316; 1.92337; 1.90186; 1.87851; 1.85317;
   1.82571; 1.79599; 1.76386; 1.72918; 1.69184; 1.65172; 1.6087; 1.56272; 1.51372; 1.46168; 1.40663; 1.34866;
   1.2879; 1.22459; 1.15901; 1.09155; 1.0227; 0.95303; 0.883177; 0.813859; 0.745823; 0.679813; 0.616525;
   0.556559; 0.500372; 0.44825; 0.400295; 0.356441; 0.316499; 0.28022; 0.247348; 0.21766; 0.190973; 0.167123;
   0.145929; 0.127181; 0.110648; 0.0961066; 0.0833532; 0.0722028; 0.0624898; 0.0540486; 0.0467193; 0.0403799;
   0.0349003; 0.0301768; 0.0261058; 0.0226057; 0; 0; 0; 0; 0; 0; 0; 0; 0; 0; 0; 0; 0; 0; 0; 0; 0; 0; 0; 0; 0;
   0; 0; 0; 0; 0; 0; 0; 0; 0; 0; 0; 0; 0; 0; 0; 0; 0];
  [1.01199; 1.01304; 1.01418; 1.0154; 1.01671; 1.01812; 1.01964; 1.02128; 1.02304; 1.02495; 1.02699; 1.0292;
   1.03158; 1.03414; 1.03691; 1.03988; 1.04309; 1.04655; 1.05027; 1.05428; 1.05859; 1.06323; 1.06822;
   1.07359; 1.07936; 1.08557; 1.09222; 1.09937; 1.10703; 1.11523; 1.12402; 1.13342; 1.14347; 1.15419;
   1.16563; 1.17781; 1.19076; 1.20453; 1.21912; 1.23458; 1.25092; 1.26817; 1.28634; 1.30544; 1.32547;
   1.34644; 1.36834; 1.39115; 1.41486; 1.43943; 1.46482; 1.49099; 1.51787; 1.54541; 1.57352; 1.60211; 1.6311;
   1.66038; 1.68984; 1.71935; 1.7488; 1.77805; 1.80697; 1.83542; 1.86328; 1.89041; 1.91668; 1.94196; 1.96615;
   1.98914; 2.01083; 2.03115; 2.05002; 2.06741; 2.08328; 2.09762; 2.11042; 2.12169; 2.13148; 2.13983;
   2.14679; 2.15242; 2.15681; 2.16003; 2.16216; 2.16327; 2.16346; 2.16279; 2.16134; 2.15916; 2.15631;
   2.15283; 2.14875; 2.14411; 2.1389; 2.13313; 2.12679; 2.11986; 2.11232; 2.10411; 2.0952; 2.08552; 2.07502;
   2.06361; 2.05121; 2.03774; 2.02309; 2.00716; 1.98985; 1.97103; 1.95058; 1.92838; 1.90428; 1.87814;
   1.84984; 1.81923; 1.78617; 1.75053; 1.71217; 1.67099; 1.62689; 1.57978; 1.52963; 1.47642; 1.42018;
   1.36102; 1.29908; 1.23459; 1.16788; 1.09933; 1.02945; 0.958809; 0.88808; 0.817983; 0.749272; 0.68269;
   0.618933; 0.558588; 0.5021; 0.449734; 0.401575; 0.357544; 0.317443; 0.281016; 0.248011; 0.21821; 0.191429;
   0.167504; 0.14625; 0.127453; 0.110876; 0.0962981; 0.0835149; 0.07234; 0.0626071; 0.0541478; 0.0468057;
   0.0404552; 0.0349663; 0.0302345; 0.0261566; 0.0226517; 0; 0; 0; 0; 0; 0; 0; 0; 0; 0; 0; 0; 0; 0; 0; 0; 0;
   0; 0; 0; 0; 0; 0; 0; 0; 0; 0; 0; 0; 0; 0; 0; 0; 0; 0; 0; 0; 0];
  [1.01181; 1.01285; 1.01397; 1.01518; 1.01648; 1.01787; 1.01937; 1.02099; 1.02273; 1.02461; 1.02663;
   1.02881; 1.03116; 1.03369; 1.03642; 1.03936; 1.04253; 1.04595; 1.04963; 1.05359; 1.05786; 1.06245;
   1.06739; 1.07271; 1.07843; 1.08457; 1.09117; 1.09826; 1.10586; 1.11401; 1.12274; 1.13208; 1.14208;
   1.15276; 1.16415; 1.1763; 1.18923; 1.20297; 1.21757; 1.23304; 1.24941; 1.2667; 1.28493; 1.30412; 1.32427;
   1.34539; 1.36747; 1.3905; 1.41445; 1.43932; 1.46504; 1.49159; 1.5189; 1.54692; 1.57555; 1.60473; 1.63435;
   1.66431; 1.6945; 1.7248; 1.75508; 1.78521; 1.81506; 1.84448; 1.87335; 1.90151; 1.92885; 1.95522; 1.98051;
   2.00461; 2.02743; 2.04886; 2.06885; 2.08734; 2.10429; 2.11967; 2.13349; 2.14575; 2.15648; 2.16573;
   2.17353; 2.17997; 2.1851; 2.18901; 2.19177; 2.19346; 2.19417; 2.19397; 2.19293; 2.1911; 2.18855; 2.18532;
   2.18145; 2.17695; 2.17184; 2.16612; 2.15979; 2.15282; 2.1452; 2.13687; 2.12779; 2.11791; 2.10716; 2.09546;
   2.08274; 2.06891; 2.05386; 2.0375; 2.01971; 2.00038; 1.97938; 1.95658; 1.93186; 1.90507; 1.87607; 1.84472;
   1.81089; 1.77444; 1.73524; 1.69319; 1.64817; 1.60013; 1.54902; 1.49482; 1.43758; 1.3774; 1.31444; 1.24893;
   1.1812; 1.11165; 1.04079; 0.969208; 0.897579; 0.826632; 0.757125; 0.689807; 0.625373; 0.564409; 0.507355;
   0.454471; 0.405835; 0.361363; 0.320851; 0.284046; 0.250694; 0.220577; 0.193512; 0.169334; 0.147855;
   0.128856; 0.112101; 0.0973644; 0.0844418; 0.0731448; 0.0633049; 0.0547521; 0.0473289; 0.0409075;
   0.0353575; 0.030573; 0.0264493; 0.0229049; 0; 0; 0; 0; 0; 0; 0; 0; 0; 0; 0; 0; 0; 0; 0; 0; 0; 0; 0; 0; 0;
   0; 0; 0; 0; 0; 0; 0; 0; 0; 0; 0; 0; 0; 0; 0; 0; 0];
  [1.01163; 1.01266; 1.01377; 1.01496; 1.01623; 1.01761; 1.01909; 1.02069; 1.02241; 1.02426; 1.02626;
   1.02841; 1.03073; 1.03323; 1.03592; 1.03882; 1.04195; 1.04533; 1.04896; 1.05288; 1.0571; 1.06164; 1.06652;
   1.07178; 1.07744; 1.08353; 1.09006; 1.09709; 1.10463; 1.11271; 1.12138; 1.13066; 1.1406; 1.15122; 1.16256;
   1.17466; 1.18755; 1.20127; 1.21585; 1.23131; 1.24769; 1.26501; 1.2833; 1.30256; 1.32281; 1.34405; 1.36629;
   1.38951; 1.4137; 1.43884; 1.46488; 1.49179; 1.51951; 1.54798; 1.57712; 1.60686; 1.63709; 1.66772; 1.69863;
   1.72971; 1.76081; 1.79182; 1.82259; 1.85298; 1.88284; 1.91205; 1.94045; 1.96792; 1.99432; 2.01955; 2.0435;
   2.06607; 2.08719; 2.10679; 2.12483; 2.14129; 2.15615; 2.16942; 2.18111; 2.19127; 2.19995; 2.20721; 2.2131;
   2.21772; 2.22113; 2.22342; 2.22467; 2.22494; 2.22432; 2.22286; 2.22061; 2.21763; 2.21395; 2.2096; 2.20458;
   2.19891; 2.19257; 2.18556; 2.17783; 2.16936; 2.1601; 2.14998; 2.13896; 2.12695; 2.11387; 2.09963; 2.08415;
   2.0673; 2.04899; 2.02909; 2.00749; 1.98405; 1.95863; 1.93111; 1.90134; 1.86918; 1.8345; 1.79715; 1.75703;
   1.71401; 1.668; 1.61893; 1.56675; 1.51148; 1.45314; 1.39186; 1.32779; 1.26118; 1.19236; 1.12177; 1.0499;
   0.977364; 0.904846; 0.833083; 0.762839; 0.694867; 0.629858; 0.568393; 0.510901; 0.457631; 0.40865;
   0.363862; 0.323061; 0.285988; 0.252392; 0.222057; 0.194801; 0.170457; 0.148832; 0.129705; 0.112838;
   0.0980023; 0.0849939; 0.0736224; 0.063718; 0.0551093; 0.0476376; 0.0411749; 0.0355889; 0.0307733;
   0.0266232; 0.0230562; 0; 0; 0; 0; 0; 0; 0; 0; 0; 0; 0; 0; 0; 0; 0; 0; 0; 0; 0; 0; 0; 0; 0; 0; 0; 0; 0; 0;
   0; 0; 0; 0; 0; 0; 0; 0; 0; 0];
  [1.01145; 1.01246; 1.01355; 1.01473; 1.01599; 1.01735; 1.01881; 1.02038; 1.02208; 1.0239; 1.02587; 1.02799;
   1.03028; 1.03275; 1.0354; 1.03827; 1.04136; 1.04469; 1.04827; 1.05214; 1.05631; 1.06079; 1.06562; 1.07082;
   1.07642; 1.08244; 1.08891; 1.09586; 1.10333; 1.11134; 1.11994; 1.12915; 1.13902; 1.14957; 1.16085; 1.1729;
   1.18574; 1.19941; 1.21396; 1.2294; 1.24578; 1.26311; 1.28143; 1.30074; 1.32107; 1.34242; 1.3648; 1.38819;
   1.41259; 1.43798; 1.46431; 1.49156; 1.51966; 1.54857; 1.5782; 1.60848; 1.63931; 1.67058; 1.7022; 1.73403;
   1.76595; 1.79782; 1.82949; 1.86084; 1.8917; 1.92194; 1.95142; 1.97998; 2.00751; 2.03387; 2.05896; 2.08267;
   2.10493; 2.12567; 2.14482; 2.16237; 2.17829; 2.19258; 2.20526; 2.21636; 2.22592; 2.23401; 2.24069;
   2.24603; 2.25011; 2.253; 2.25479; 2.25555; 2.25535; 2.25425; 2.25231; 2.24958; 2.24609; 2.24186; 2.23693;
   2.23128; 2.22492; 2.21783; 2.20998; 2.20133; 2.19184; 2.18146; 2.17011; 2.15774; 2.14425; 2.12955;
   2.11356; 2.09617; 2.07726; 2.05672; 2.03442; 2.01024; 1.98404; 1.95569; 1.92504; 1.89195; 1.85629;
   1.81793; 1.77675; 1.73263; 1.68547; 1.63523; 1.58185; 1.52536; 1.46579; 1.40327; 1.33797; 1.27015;
   1.20017; 1.12846; 1.05554; 0.98205; 0.908671; 0.836155; 0.765276; 0.696782; 0.631361; 0.569579; 0.511849;
   0.458397; 0.409272; 0.364362; 0.32345; 0.286278; 0.252596; 0.222191; 0.194886; 0.170507; 0.148859;
   0.129717; 0.112837; 0.0979922; 0.084979; 0.0736055; 0.0637009; 0.0550923; 0.0476225; 0.0411626; 0.0355785;
   0.0307662; 0.0266192; 0.0230526; 0; 0; 0; 0; 0; 0; 0; 0; 0; 0; 0; 0; 0; 0; 0; 0; 0; 0; 0; 0; 0; 0; 0; 0;
   0; 0; 0; 0; 0; 0; 0; 0; 0; 0; 0; 0; 0; 0];
  [1.01126; 1.01226; 1.01334; 1.01449; 1.01574; 1.01707; 1.01851; 1.02006; 1.02174; 1.02354; 1.02547;
   1.02757; 1.02982; 1.03225; 1.03487; 1.03769; 1.04074; 1.04402; 1.04756; 1.05137; 1.05548; 1.05991;
   1.06468; 1.06982; 1.07534; 1.08129; 1.08769; 1.09457; 1.10196; 1.1099; 1.11841; 1.12755; 1.13733; 1.14781;
   1.15902; 1.17099; 1.18377; 1.19739; 1.21189; 1.2273; 1.24365; 1.26098; 1.27931; 1.29866; 1.31905; 1.34049;
   1.36298; 1.38653; 1.41112; 1.43673; 1.46333; 1.4909; 1.51937; 1.54869; 1.57879; 1.60959; 1.641; 1.67292;
   1.70522; 1.7378; 1.77053; 1.80325; 1.83584; 1.86815; 1.90002; 1.9313; 1.96186; 1.99154; 2.0202; 2.04772;
   2.07398; 2.09887; 2.1223; 2.1442; 2.1645; 2.18318; 2.20019; 2.21555; 2.22926; 2.24134; 2.25184; 2.26082;
   2.26832; 2.27444; 2.27923; 2.28278; 2.28516; 2.28645; 2.28673; 2.28604; 2.28446; 2.28203; 2.27879;
   2.27476; 2.26996; 2.26441; 2.25809; 2.25099; 2.24308; 2.23434; 2.22472; 2.21415; 2.20259; 2.18995;
   2.17616; 2.16113; 2.14477; 2.12697; 2.10761; 2.08659; 2.06378; 2.03905; 2.01226; 1.98329; 1.95198;
   1.91821; 1.88182; 1.84271; 1.80073; 1.75578; 1.70778; 1.65665; 1.60236; 1.54493; 1.4844; 1.4209; 1.35462;
   1.28581; 1.21483; 1.14213; 1.06825; 0.993806; 0.919508; 0.846112; 0.774396; 0.705112; 0.638951; 0.576478;
   0.518103; 0.464053; 0.41437; 0.368941; 0.327547; 0.289929; 0.255838; 0.225059; 0.197416; 0.172734;
   0.150814; 0.131429; 0.114332; 0.0992962; 0.0861135; 0.074591; 0.0645557; 0.0558327; 0.0482634; 0.0417164;
   0.0360575; 0.0311796; 0.0269772; 0.0233624; 0; 0; 0; 0; 0; 0; 0; 0; 0; 0; 0; 0; 0; 0; 0; 0; 0; 0; 0; 0; 0;
   0; 0; 0; 0; 0; 0; 0; 0; 0; 0; 0; 0; 0; 0; 0; 0; 0];
  [1.01107; 1.01205; 1.01311; 1.01425; 1.01548; 1.0168; 1.01822; 1.01974; 1.02139; 1.02316; 1.02507; 1.02713;
   1.02935; 1.03174; 1.03432; 1.03711; 1.04011; 1.04334; 1.04683; 1.05059; 1.05464; 1.059; 1.06371; 1.06877;
   1.07423; 1.0801; 1.08642; 1.09322; 1.10053; 1.10838; 1.11681; 1.12586; 1.13556; 1.14595; 1.15707; 1.16896;
   1.18166; 1.19521; 1.20965; 1.22501; 1.24132; 1.25863; 1.27695; 1.29631; 1.31674; 1.33824; 1.36083; 1.3845;
   1.40925; 1.43506; 1.46191; 1.48977; 1.51857; 1.54828; 1.57883; 1.61012; 1.64209; 1.67461; 1.70759;
   1.74089; 1.7744; 1.80796; 1.84144; 1.87469; 1.90755; 1.93986; 1.97149; 2.00227; 2.03206; 2.06073; 2.08816;
   2.11422; 2.13882; 2.16189; 2.18335; 2.20315; 2.22127; 2.2377; 2.25244; 2.26551; 2.27695; 2.28681; 2.29515;
   2.30203; 2.30753; 2.31173; 2.3147; 2.31651; 2.31724; 2.31696; 2.31571; 2.31355; 2.31052; 2.30664; 2.30194;
   2.29642; 2.29008; 2.28291; 2.27488; 2.26596; 2.25611; 2.24527; 2.23338; 2.22037; 2.20616; 2.19065;
   2.17377; 2.1554; 2.13543; 2.11374; 2.09022; 2.06472; 2.03713; 2.00729; 1.97507; 1.94034; 1.90295; 1.86278;
   1.8197; 1.77361; 1.72442; 1.67208; 1.61654; 1.55784; 1.49604; 1.43126; 1.36371; 1.29367; 1.2215; 1.14767;
   1.07273; 0.997336; 0.922195; 0.848077; 0.775766; 0.706013; 0.6395; 0.576775; 0.518229; 0.464063; 0.414298;
   0.368806; 0.327357; 0.28969; 0.255562; 0.224762; 0.197114; 0.172441; 0.150538; 0.131171; 0.114094;
   0.0990774; 0.0859161; 0.0744147; 0.0644009; 0.055696; 0.0481438; 0.0416142; 0.0359693; 0.0311057;
   0.0269161; 0.0233087; 0; 0; 0; 0; 0; 0; 0; 0; 0; 0; 0; 0; 0; 0; 0; 0; 0; 0; 0; 0; 0; 0; 0; 0; 0; 0; 0; 0;
   0; 0; 0; 0; 0; 0; 0; 0; 0; 0]].

