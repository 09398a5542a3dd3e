(** Transcribed by tools/gen_tables.py; do not edit by hand. *)
From Coq Require Import ZArith List.
From Verif Require Import Num.
Import ListNotations.
Local Open Scope dec_scope.

(** include/catima/generated_LS_coeff.h, double ls_X_coefficients_ahi[][200]: 108 rows *)
Definition ls_X_coefficients_ahi : list (list dec) := [
  [0.999182; 0.999099; 0.999009; 0.998911; 0.998804; 0.998688; 0.998561; 0.998424; 0.998275; 0.998113;
   0.997937; 0.997746; 0.997538; 0.997312; 0.997067; 0.996802; 0.996513; 0.9962; 0.99586; 0.995491; 0.995092;
   0.994658; 0.994187; 0.993677; 0.993125; 0.992526; 0.991876; 0.991173; 0.990411; 0.989586; 0.988693;
   0.987727; 0.986681; 0.98555; 0.984327; 0.983005; 0.981577; 0.980034; 0.978369; 0.976571; 0.974632;
   0.972542; 0.97029; 0.967865; 0.965255; 0.962449; 0.959433; 0.956195; 0.952722; 0.948999; 0.945012;
   0.940748; 0.936192; 0.93133; 0.926149; 0.920635; 0.914775; 0.908558; 0.901974; 0.895012; 0.887666;
   0.87993; 0.871802; 0.86328; 0.854369; 0.845074; 0.835406; 0.825378; 0.815009; 0.80432; 0.79334; 0.782099;
   0.770633; 0.758982; 0.747189; 0.735302; 0.723369; 0.711444; 0.699577; 0.687824; 0.676236; 0.664865;
   0.653762; 0.642971; 0.632536; 0.622494; 0.612878; 0.603714; 0.595024; 0.586824; 0.579122; 0.571923;
   0.565224; 0.55902; 0.553298; 0.548044; 0.54324; 0.538865; 0.534895; 0.531308; 0.528077; 0.525177;
   0.522582; 0.520268; 0.51821; 0.516384; 0.514768; 0.513341; 0.512084; 0.510977; 0.510005; 0.509151;
   0.508401; 0.507743; 0.507163; 0.506653; 0.506201; 0.5058; 0.50544; 0.505114; 0.504815; 0.504537; 0.504274;
   0.504019; 0.503766; 0.503509; 0.503243; 0.50296; 0.502654; 0.502316; 0.501939; 0.501513; 0.501028;
   0.50047; 0.499826; 0.49908; 0.498213; 0.497204; 0.496027; 0.494655; 0.493052; 0.491183; 0.489; 0.486455;
   0.48349; 0.480035; 0.476021; 0.471361; 0.465961; 0.459721; 0.45253; 0.444272; 0.434819; 0.424049; 0.41186;
   0.39813; 0.38278; 0.36578; 0.347103; 0.326861; 0.305189; 0.282366; 0.258718; 0.234699; 0.210818; 0.18762;
   0.165649; 0.145311; 0.126879; 0.110429; 0.0958906; 0.0830858; 0.07183; 0.0619197; 0.0532781; 0.0457991;
   0.0393122; 0.033703; 0.0288678; 0.0246887; 0.0211438; 0.018018; 0.0154468; 0.0134189; 0.0112932;
   0.0334208; 0.0338724; 0.0358214; 0.0348094; 0; 0; 0; 0; 0; 0; 0; 0; 0; 0; 0];
  [0.999599; 0.999523; 0.99944; 0.99935; 0.999251; 0.999143; 0.999025; 0.998897; 0.998757; 0.998604;
   0.998438; 0.998258; 0.998061; 0.997847; 0.997613; 0.99736; 0.997084; 0.996784; 0.996459; 0.996104;
   0.99572; 0.995302; 0.994848; 0.994355; 0.99382; 0.993239; 0.992609; 0.991926; 0.991185; 0.990382;
   0.989512; 0.988569; 0.987548; 0.986442; 0.985246; 0.983951; 0.982551; 0.981038; 0.979403; 0.977638;
   0.975732; 0.973676; 0.971459; 0.969071; 0.966499; 0.963732; 0.960757; 0.957561; 0.954131; 0.950453;
   0.946512; 0.942296; 0.937789; 0.932977; 0.927848; 0.922387; 0.916581; 0.91042; 0.903892; 0.896989;
   0.889702; 0.882026; 0.873959; 0.8655; 0.856652; 0.847421; 0.837816; 0.827853; 0.817548; 0.806924;
   0.796008; 0.784832; 0.77343; 0.761842; 0.750112; 0.738286; 0.726413; 0.714546; 0.702737; 0.691039;
   0.679505; 0.668186; 0.657132; 0.646389; 0.635998; 0.625999; 0.616422; 0.607296; 0.598642; 0.590474;
   0.582802; 0.57563; 0.568956; 0.562774; 0.557073; 0.551837; 0.547048; 0.542687; 0.538729; 0.535151;
   0.531927; 0.529032; 0.526441; 0.524127; 0.522068; 0.520238; 0.518616; 0.51718; 0.515911; 0.514789;
   0.513798; 0.512921; 0.512144; 0.511452; 0.510834; 0.510277; 0.50977; 0.509304; 0.508868; 0.508453;
   0.50805; 0.50765; 0.507243; 0.50682; 0.50637; 0.505883; 0.505346; 0.504747; 0.504071; 0.5033; 0.502417;
   0.501398; 0.50022; 0.498854; 0.497265; 0.495418; 0.493268; 0.490765; 0.487853; 0.484466; 0.480533;
   0.47597; 0.470688; 0.464582; 0.457547; 0.449464; 0.440216; 0.429674; 0.417727; 0.404261; 0.389191;
   0.372468; 0.354075; 0.334084; 0.312621; 0.289929; 0.266319; 0.242238; 0.218161; 0.194647; 0.172227;
   0.151352; 0.132333; 0.115299; 0.100206; 0.0869075; 0.0751949; 0.0648919; 0.0558755; 0.0480527; 0.041267;
   0.0353954; 0.0303403; 0.025957; 0.0222187; 0.0189759; 0.0162443; 0.0138382; 0.0118533; 0.0432512;
   0.046155; 0.0494109; 0.0433639; 0.0117346; 0; 0; 0; 0; 0; 0; 0; 0; 0; 0; 0; 0; 0; 0; 0; 0];
  [1.00017; 1.0001; 1.00003; 0.999947; 0.999857; 0.999759; 0.999651; 0.999532; 0.999402; 0.99926; 0.999104;
   0.998934; 0.998749; 0.998546; 0.998325; 0.998083; 0.99782; 0.997534; 0.997222; 0.996882; 0.996512;
   0.996109; 0.995671; 0.995195; 0.994678; 0.994115; 0.993504; 0.99284; 0.99212; 0.991338; 0.99049; 0.98957;
   0.988573; 0.987492; 0.986321; 0.985054; 0.983682; 0.982198; 0.980593; 0.978858; 0.976985; 0.974963;
   0.972781; 0.970429; 0.967895; 0.965167; 0.962232; 0.959077; 0.95569; 0.952055; 0.94816; 0.943991;
   0.939532; 0.93477; 0.929692; 0.924283; 0.918531; 0.912425; 0.905953; 0.899107; 0.891878; 0.884262;
   0.876255; 0.867857; 0.859071; 0.849902; 0.840361; 0.83046; 0.820219; 0.809659; 0.798807; 0.787693;
   0.776354; 0.764828; 0.753159; 0.741394; 0.729581; 0.717771; 0.706018; 0.694375; 0.682893; 0.671625;
   0.660619; 0.649922; 0.639576; 0.629618; 0.620081; 0.610991; 0.602371; 0.594235; 0.586593; 0.579448;
   0.572799; 0.566639; 0.560958; 0.55574; 0.550968; 0.54662; 0.542674; 0.539105; 0.53589; 0.533001; 0.530414;
   0.528102; 0.526043; 0.524212; 0.522586; 0.521144; 0.519866; 0.518733; 0.517728; 0.516833; 0.516035;
   0.515317; 0.514668; 0.514075; 0.513526; 0.513009; 0.512513; 0.512029; 0.511544; 0.511047; 0.510527;
   0.509972; 0.509368; 0.508701; 0.507953; 0.507108; 0.506143; 0.505036; 0.50376; 0.502284; 0.500573;
   0.498587; 0.496278; 0.493595; 0.490478; 0.486856; 0.482656; 0.477791; 0.472165; 0.465674; 0.458207;
   0.449646; 0.439865; 0.428744; 0.416173; 0.402043; 0.386282; 0.368857; 0.349771; 0.329123; 0.307074;
   0.283898; 0.259948; 0.235682; 0.211615; 0.188297; 0.166242; 0.145856; 0.127395; 0.110929; 0.0963711;
   0.0835406; 0.0722441; 0.0623113; 0.0536403; 0.0461215; 0.0396067; 0.0339714; 0.0291045; 0.0249119;
   0.0213249; 0.0182101; 0.0155853; 0.0133005; 0.0113321; 0.0402357; 0.0405898; 0.0426333; 0.0405158;
   0.0171968; 0; 0; 0; 0; 0; 0; 0; 0; 0; 0; 0; 0; 0; 0; 0; 0; 0; 0];
  [1.00086; 1.0008; 1.00074; 1.00068; 1.0006; 1.00051; 1.00042; 1.00031; 1.0002; 1.00007; 0.999924; 0.999767;
   0.999594; 0.999405; 0.999197; 0.998969; 0.99872; 0.998447; 0.998149; 0.997824; 0.997469; 0.997082;
   0.996661; 0.996201; 0.995701; 0.995157; 0.994564; 0.99392; 0.99322; 0.992459; 0.991632; 0.990735;
   0.989761; 0.988705; 0.98756; 0.986318; 0.984974; 0.983518; 0.981943; 0.980239; 0.978398; 0.976409;
   0.974261; 0.971944; 0.969447; 0.966757; 0.963861; 0.960747; 0.957402; 0.953811; 0.949961; 0.945837;
   0.941426; 0.936713; 0.931684; 0.926327; 0.920628; 0.914576; 0.908159; 0.901369; 0.894198; 0.88664;
   0.878693; 0.870355; 0.861629; 0.852522; 0.843043; 0.833205; 0.823026; 0.812528; 0.801738; 0.790687;
   0.779409; 0.767945; 0.756336; 0.744629; 0.732874; 0.721121; 0.709423; 0.697833; 0.686403; 0.675184;
   0.664226; 0.653575; 0.643271; 0.633354; 0.623856; 0.614802; 0.606216; 0.598111; 0.590498; 0.58338;
   0.576755; 0.570618; 0.564957; 0.559757; 0.555001; 0.550667; 0.546733; 0.543176; 0.539969; 0.537087;
   0.534506; 0.532199; 0.530142; 0.528311; 0.526684; 0.52524; 0.523957; 0.522818; 0.521804; 0.520898;
   0.520085; 0.519351; 0.518682; 0.518064; 0.517486; 0.516934; 0.516399; 0.515866; 0.515325; 0.514763;
   0.514167; 0.513522; 0.512813; 0.512023; 0.511133; 0.51012; 0.508961; 0.507627; 0.506086; 0.504303;
   0.502234; 0.499834; 0.497046; 0.493809; 0.490053; 0.4857; 0.480661; 0.47484; 0.468131; 0.46042; 0.451588;
   0.441511; 0.430067; 0.417149; 0.402653; 0.386512; 0.3687; 0.349233; 0.328223; 0.305845; 0.282388;
   0.258223; 0.233816; 0.2097; 0.18641; 0.164455; 0.144221; 0.125938; 0.109652; 0.0952595; 0.0825762;
   0.0714011; 0.0615813; 0.0530165; 0.0455855; 0.0391464; 0.0335803; 0.0287737; 0.0246322; 0.0210847;
   0.0180174; 0.0154069; 0.0131739; 0.0112218; 0.0395656; 0.0360697; 0.0356004; 0.0359008; 0.018218; 0; 0; 0;
   0; 0; 0; 0; 0; 0; 0; 0; 0; 0; 0; 0; 0; 0; 0; 0];
  [1.00162; 1.00159; 1.00155; 1.0015; 1.00145; 1.00138; 1.0013; 1.00121; 1.00111; 1.001; 1.00088; 1.00074;
   1.00058; 1.00041; 1.00022; 1; 0.999771; 0.999515; 0.999233; 0.998925; 0.998587; 0.998217; 0.997813;
   0.997371; 0.996889; 0.996363; 0.99579; 0.995165; 0.994486; 0.993746; 0.992941; 0.992066; 0.991116;
   0.990084; 0.988963; 0.987748; 0.986431; 0.985003; 0.983457; 0.981784; 0.979973; 0.978017; 0.975903;
   0.973621; 0.97116; 0.968507; 0.96565; 0.962576; 0.959272; 0.955724; 0.951917; 0.947839; 0.943474;
   0.938809; 0.93383; 0.928523; 0.922876; 0.916877; 0.910514; 0.90378; 0.896665; 0.889165; 0.881275;
   0.872997; 0.864331; 0.855284; 0.845865; 0.836088; 0.825971; 0.815535; 0.804806; 0.793815; 0.782598;
   0.771193; 0.759643; 0.747994; 0.736296; 0.724598; 0.712954; 0.701416; 0.690036; 0.678866; 0.667955;
   0.657347; 0.647086; 0.637209; 0.627748; 0.61873; 0.610176; 0.602102; 0.594517; 0.587425; 0.580825;
   0.574709; 0.569067; 0.563885; 0.559145; 0.554825; 0.550904; 0.547357; 0.544159; 0.541285; 0.538709;
   0.536406; 0.534352; 0.532522; 0.530895; 0.529449; 0.528163; 0.527018; 0.525996; 0.525081; 0.524256;
   0.523508; 0.52282; 0.522181; 0.521577; 0.520996; 0.520425; 0.519851; 0.519261; 0.518642; 0.517978;
   0.517255; 0.516454; 0.515557; 0.514541; 0.513383; 0.512054; 0.510522; 0.508752; 0.506702; 0.504325;
   0.501568; 0.498368; 0.494656; 0.490356; 0.48538; 0.479633; 0.473009; 0.465395; 0.456673; 0.446721;
   0.435415; 0.422644; 0.408304; 0.392322; 0.374664; 0.355342; 0.334449; 0.31215; 0.288714; 0.264499;
   0.23996; 0.215613; 0.192006; 0.169651; 0.148962; 0.130201; 0.11345; 0.0986231; 0.0855506; 0.0740288;
   0.0638962; 0.055035; 0.0473437; 0.0406753; 0.0349041; 0.029924; 0.0256225; 0.0219395; 0.0187545;
   0.0160503; 0.013697; 0.0117211; 0.0399569; 0.03881; 0.0382253; 0.0357295; 0.0408875; 0; 0; 0; 0; 0; 0; 0;
   0; 0; 0; 0; 0; 0; 0; 0; 0; 0; 0; 0; 0];
  [1.00243; 1.00242; 1.00241; 1.00239; 1.00236; 1.00232; 1.00227; 1.0022; 1.00213; 1.00204; 1.00194; 1.00182;
   1.00168; 1.00153; 1.00136; 1.00117; 1.00096; 1.00072; 1.00046; 1.00017; 0.999853; 0.999503; 0.999118;
   0.998697; 0.998235; 0.997729; 0.997177; 0.996573; 0.995915; 0.995197; 0.994415; 0.993563; 0.992636;
   0.991629; 0.990534; 0.989345; 0.988054; 0.986655; 0.985137; 0.983494; 0.981715; 0.97979; 0.977709;
   0.975462; 0.973036; 0.97042; 0.967601; 0.964567; 0.961303; 0.957797; 0.954033; 0.95; 0.945681; 0.941063;
   0.936132; 0.930875; 0.925279; 0.919331; 0.913022; 0.906342; 0.899282; 0.891838; 0.884006; 0.875785;
   0.867178; 0.858191; 0.848832; 0.839115; 0.829057; 0.818681; 0.808012; 0.797081; 0.785923; 0.774576;
   0.763084; 0.751492; 0.739848; 0.728205; 0.716613; 0.705126; 0.693796; 0.682673; 0.671807; 0.661243;
   0.651023; 0.641184; 0.63176; 0.622777; 0.614255; 0.606211; 0.598654; 0.591587; 0.58501; 0.578916;
   0.573294; 0.56813; 0.563405; 0.559099; 0.55519; 0.551654; 0.548465; 0.545598; 0.543029; 0.540731; 0.53868;
   0.536853; 0.535227; 0.533781; 0.532493; 0.531345; 0.530318; 0.529397; 0.528564; 0.527804; 0.527104;
   0.526449; 0.525827; 0.525223; 0.524626; 0.524021; 0.523395; 0.522734; 0.52202; 0.521239; 0.52037;
   0.519394; 0.518286; 0.51702; 0.515566; 0.513889; 0.511951; 0.509706; 0.507104; 0.504086; 0.500586;
   0.496531; 0.491838; 0.486415; 0.48016; 0.472965; 0.464711; 0.45528; 0.444545; 0.432389; 0.418707;
   0.403407; 0.386435; 0.367785; 0.347499; 0.325716; 0.302649; 0.278619; 0.254031; 0.229377; 0.205197;
   0.182028; 0.160339; 0.140474; 0.122605; 0.106729; 0.0927084; 0.0803476; 0.0694551; 0.0598947; 0.0515657;
   0.0443419; 0.0380814; 0.0326707; 0.0279955; 0.0239757; 0.0205197; 0.0175512; 0.0150055; 0.0128381;
   0.0419526; 0.0375492; 0.0352768; 0.0332139; 0.0250557; 0.0120477; 0; 0; 0; 0; 0; 0; 0; 0; 0; 0; 0; 0; 0;
   0; 0; 0; 0; 0; 0; 0];
  [1.00324; 1.00327; 1.00329; 1.00331; 1.00331; 1.0033; 1.00328; 1.00325; 1.0032; 1.00314; 1.00307; 1.00298;
   1.00288; 1.00275; 1.00261; 1.00245; 1.00226; 1.00205; 1.00181; 1.00155; 1.00125; 1.00093; 1.00057;
   1.00017; 0.999728; 0.999246; 0.998717; 0.998137; 0.997502; 0.996807; 0.996049; 0.995222; 0.994321;
   0.993338; 0.99227; 0.991107; 0.989844; 0.988473; 0.986985; 0.985371; 0.983623; 0.98173; 0.979683;
   0.977469; 0.975079; 0.972499; 0.969717; 0.966722; 0.963498; 0.960033; 0.956312; 0.952322; 0.948048;
   0.943477; 0.938593; 0.933385; 0.927839; 0.921942; 0.915685; 0.909058; 0.902053; 0.894664; 0.886888;
   0.878724; 0.870174; 0.861245; 0.851944; 0.842286; 0.832287; 0.821969; 0.811359; 0.800486; 0.789386;
   0.778096; 0.76666; 0.755123; 0.743534; 0.731943; 0.720403; 0.708965; 0.697683; 0.686606; 0.675784;
   0.665262; 0.655082; 0.645281; 0.635892; 0.626942; 0.618452; 0.610437; 0.602906; 0.595864; 0.58931;
   0.583236; 0.577632; 0.572484; 0.567774; 0.563481; 0.559584; 0.556057; 0.552876; 0.550016; 0.547451;
   0.545157; 0.543108; 0.541281; 0.539654; 0.538204; 0.536912; 0.535757; 0.534722; 0.533789; 0.532942;
   0.532165; 0.531445; 0.530767; 0.530116; 0.529479; 0.528842; 0.528191; 0.52751; 0.526785; 0.525998;
   0.525129; 0.52416; 0.523065; 0.52182; 0.520395; 0.518755; 0.516863; 0.514675; 0.512141; 0.509206;
   0.505804; 0.501863; 0.497303; 0.492033; 0.485956; 0.478962; 0.470936; 0.46176; 0.451308; 0.439459;
   0.426106; 0.411151; 0.394529; 0.376219; 0.356252; 0.334737; 0.311864; 0.287926; 0.263304; 0.238469;
   0.213949; 0.190289; 0.167986; 0.147426; 0.128836; 0.112264; 0.097606; 0.0846754; 0.0732746; 0.0632501;
   0.0544876; 0.0468835; 0.0402894; 0.0345804; 0.0296514; 0.0253995; 0.0217559; 0.0186069; 0.0159257;
   0.0136101; 0.0116318; 0.0375279; 0.0359477; 0.0344878; 0.0358213; 0.0329402; 0; 0; 0; 0; 0; 0; 0; 0; 0; 0;
   0; 0; 0; 0; 0; 0; 0; 0; 0; 0; 0];
  [1.00405; 1.00412; 1.00418; 1.00423; 1.00427; 1.0043; 1.00432; 1.00432; 1.00432; 1.0043; 1.00426; 1.00421;
   1.00414; 1.00405; 1.00394; 1.00381; 1.00365; 1.00347; 1.00327; 1.00303; 1.00277; 1.00247; 1.00214;
   1.00177; 1.00136; 1.0009; 1.0004; 0.999846; 0.999238; 0.99857; 0.997839; 0.997038; 0.996163; 0.995208;
   0.994167; 0.993033; 0.991798; 0.990456; 0.988998; 0.987415; 0.985698; 0.983837; 0.981823; 0.979644;
   0.977288; 0.974745; 0.972001; 0.969043; 0.965859; 0.962434; 0.958756; 0.954809; 0.950579; 0.946053;
   0.941217; 0.936056; 0.930559; 0.924713; 0.918507; 0.911932; 0.90498; 0.897646; 0.889924; 0.881816;
   0.873323; 0.864449; 0.855206; 0.845605; 0.835664; 0.825404; 0.814851; 0.804035; 0.79299; 0.781757;
   0.770375; 0.758892; 0.747356; 0.735816; 0.724326; 0.712937; 0.701701; 0.690669; 0.67989; 0.669409;
   0.659267; 0.649503; 0.640149; 0.631231; 0.622771; 0.614784; 0.607279; 0.600261; 0.593728; 0.587674;
   0.582088; 0.576956; 0.57226; 0.56798; 0.564093; 0.560575; 0.557402; 0.554548; 0.551988; 0.549697; 0.54765;
   0.545823; 0.544194; 0.542741; 0.541443; 0.540281; 0.539237; 0.538293; 0.537432; 0.536638; 0.535897;
   0.535194; 0.534515; 0.533844; 0.533167; 0.532469; 0.531733; 0.530944; 0.530081; 0.529126; 0.528054;
   0.526841; 0.525458; 0.523872; 0.522046; 0.519938; 0.517501; 0.514679; 0.511411; 0.507628; 0.50325;
   0.498191; 0.492355; 0.485637; 0.477922; 0.469093; 0.459028; 0.447601; 0.434701; 0.420224; 0.404093;
   0.386272; 0.366769; 0.345666; 0.323121; 0.299386; 0.274818; 0.249852; 0.224999; 0.200806; 0.177794;
   0.156399; 0.136914; 0.119456; 0.103973; 0.0903037; 0.078244; 0.06762; 0.0583085; 0.0502021; 0.0431742;
   0.0370825; 0.0318165; 0.0272687; 0.023363; 0.0199955; 0.0171146; 0.0146293; 0.0125236; 0.0380125;
   0.0362029; 0.0325764; 0.0292642; 0.0249928; 0.013343; 0; 0; 0; 0; 0; 0; 0; 0; 0; 0; 0; 0; 0; 0; 0; 0; 0;
   0; 0; 0; 0];
  [1.00483; 1.00494; 1.00505; 1.00514; 1.00522; 1.0053; 1.00536; 1.00541; 1.00545; 1.00547; 1.00548; 1.00547;
   1.00544; 1.00539; 1.00532; 1.00523; 1.00512; 1.00498; 1.00481; 1.00461; 1.00438; 1.00412; 1.00382;
   1.00349; 1.00311; 1.00268; 1.00221; 1.00169; 1.00111; 1.00048; 0.999774; 0.999003; 0.998158; 0.997233;
   0.996222; 0.995117; 0.993913; 0.992602; 0.991174; 0.989623; 0.987939; 0.986111; 0.98413; 0.981985;
   0.979665; 0.977158; 0.974451; 0.971532; 0.968387; 0.965003; 0.961366; 0.957462; 0.953276; 0.948795;
   0.944004; 0.938891; 0.933442; 0.927645; 0.92149; 0.914966; 0.908067; 0.900785; 0.893118; 0.885064;
   0.876625; 0.867808; 0.85862; 0.849075; 0.83919; 0.828986; 0.818489; 0.807728; 0.796739; 0.78556; 0.774232;
   0.762801; 0.751316; 0.739827; 0.728385; 0.717043; 0.705852; 0.694863; 0.684126; 0.673684; 0.66358;
   0.653852; 0.644531; 0.635644; 0.627213; 0.619253; 0.611773; 0.604777; 0.598265; 0.59223; 0.586661;
   0.581544; 0.576861; 0.572592; 0.568714; 0.565204; 0.562037; 0.559188; 0.556631; 0.55434; 0.552293;
   0.550463; 0.54883; 0.547371; 0.546064; 0.544891; 0.543833; 0.542871; 0.54199; 0.541172; 0.540402;
   0.539664; 0.538944; 0.538225; 0.537492; 0.536728; 0.535917; 0.535038; 0.534071; 0.532994; 0.531781;
   0.530404; 0.52883; 0.527022; 0.52494; 0.522535; 0.519754; 0.516537; 0.512815; 0.50851; 0.503537; 0.497801;
   0.491198; 0.483616; 0.474937; 0.465039; 0.453798; 0.441096; 0.426833; 0.410922; 0.393318; 0.374023;
   0.353097; 0.330689; 0.307028; 0.282449; 0.257372; 0.232297; 0.207767; 0.184309; 0.162388; 0.142333;
   0.1243; 0.108274; 0.0941112; 0.0816137; 0.0705931; 0.0609144; 0.0524747; 0.04515; 0.0388004; 0.0333061;
   0.0285604; 0.0244724; 0.0209597; 0.0179376; 0.0153504; 0.0131359; 0.0112182; 0.034704; 0.032042;
   0.0306547; 0.030918; 0.0281429; 0; 0; 0; 0; 0; 0; 0; 0; 0; 0; 0; 0; 0; 0; 0; 0; 0; 0; 0; 0; 0; 0];
  [1.00559; 1.00574; 1.00589; 1.00603; 1.00616; 1.00628; 1.00639; 1.00649; 1.00658; 1.00665; 1.00671;
   1.00675; 1.00677; 1.00677; 1.00675; 1.0067; 1.00663; 1.00654; 1.00642; 1.00626; 1.00608; 1.00586; 1.0056;
   1.0053; 1.00496; 1.00458; 1.00414; 1.00366; 1.00311; 1.00251; 1.00184; 1.00111; 1.0003; 0.999405;
   0.998426; 0.997355; 0.996184; 0.994905; 0.993511; 0.991993; 0.990343; 0.988549; 0.986603; 0.984494;
   0.98221; 0.97974; 0.977071; 0.97419; 0.971085; 0.967741; 0.964145; 0.960283; 0.956141; 0.951704; 0.946959;
   0.941893; 0.936491; 0.930743; 0.924637; 0.918164; 0.911316; 0.904086; 0.896471; 0.888471; 0.880087;
   0.871323; 0.86219; 0.8527; 0.84287; 0.832721; 0.822278; 0.811572; 0.800637; 0.78951; 0.778235; 0.766855;
   0.75542; 0.74398; 0.732585; 0.721289; 0.710142; 0.699196; 0.688499; 0.678096; 0.668029; 0.658335;
   0.649046; 0.64019; 0.631787; 0.623854; 0.616398; 0.609425; 0.602934; 0.596917; 0.591365; 0.586263;
   0.581594; 0.577337; 0.57347; 0.569969; 0.566809; 0.563966; 0.561414; 0.559127; 0.557082; 0.555254;
   0.55362; 0.552159; 0.550849; 0.549672; 0.548607; 0.547637; 0.546745; 0.545915; 0.54513; 0.544374;
   0.543632; 0.542888; 0.542126; 0.541327; 0.540475; 0.539549; 0.538527; 0.537385; 0.536098; 0.534633;
   0.532958; 0.531034; 0.528816; 0.526256; 0.523296; 0.519873; 0.515914; 0.51134; 0.50606; 0.499977;
   0.492983; 0.484964; 0.475798; 0.465365; 0.453539; 0.44021; 0.425279; 0.408675; 0.390365; 0.37037;
   0.348782; 0.325773; 0.301608; 0.276655; 0.251359; 0.22624; 0.201844; 0.178685; 0.15719; 0.137635;
   0.120123; 0.104591; 0.090873; 0.0787641; 0.0680918; 0.0587356; 0.0505879; 0.043522; 0.0373934; 0.0320944;
   0.0275189; 0.0235857; 0.0201969; 0.0172922; 0.0147905; 0.0126729; 0.0356708; 0.0336244; 0.0302461;
   0.0266288; 0.0270035; 0.0173496; 0; 0; 0; 0; 0; 0; 0; 0; 0; 0; 0; 0; 0; 0; 0; 0; 0; 0; 0; 0; 0; 0];
  [1.0063; 1.0065; 1.0067; 1.00688; 1.00707; 1.00724; 1.0074; 1.00756; 1.00769; 1.00782; 1.00793; 1.00802;
   1.0081; 1.00815; 1.00819; 1.0082; 1.00818; 1.00814; 1.00807; 1.00797; 1.00783; 1.00766; 1.00745; 1.0072;
   1.00691; 1.00657; 1.00617; 1.00573; 1.00523; 1.00467; 1.00404; 1.00334; 1.00257; 1.00171; 1.00077;
   0.999738; 0.998603; 0.997361; 0.996003; 0.994521; 0.992906; 0.991149; 0.989239; 0.987167; 0.98492;
   0.982488; 0.979857; 0.977016; 0.97395; 0.970647; 0.967093; 0.963274; 0.959175; 0.954782; 0.950082;
   0.945062; 0.939707; 0.934007; 0.92795; 0.921527; 0.914729; 0.90755; 0.899987; 0.892039; 0.883708;
   0.874998; 0.865918; 0.856482; 0.846705; 0.83661; 0.82622; 0.815567; 0.804684; 0.793609; 0.782384;
   0.771054; 0.759668; 0.748275; 0.736926; 0.725674; 0.71457; 0.703665; 0.693007; 0.682641; 0.672609;
   0.662949; 0.653691; 0.644864; 0.636489; 0.62858; 0.621148; 0.614196; 0.607724; 0.601725; 0.596188; 0.5911;
   0.586443; 0.582196; 0.578338; 0.574844; 0.57169; 0.568851; 0.5663; 0.564015; 0.561968; 0.560137; 0.558499;
   0.557031; 0.555713; 0.554524; 0.553445; 0.552458; 0.551546; 0.550691; 0.549877; 0.549087; 0.548305;
   0.547514; 0.546696; 0.545833; 0.544906; 0.543892; 0.542768; 0.541508; 0.540083; 0.538458; 0.536598;
   0.534459; 0.531994; 0.529148; 0.525859; 0.522058; 0.517667; 0.512599; 0.50676; 0.500044; 0.492339;
   0.483526; 0.473483; 0.462086; 0.449218; 0.434775; 0.418675; 0.400869; 0.38136; 0.360207; 0.337556;
   0.313633; 0.288771; 0.263384; 0.237973; 0.213073; 0.189222; 0.166887; 0.14641; 0.127964; 0.111548;
   0.097028; 0.0842059; 0.0728924; 0.0629433; 0.0542526; 0.0467068; 0.0401614; 0.03449; 0.0295922; 0.0253684;
   0.0217428; 0.018612; 0.0159412; 0.0136386; 0.0116625; 0.0322489; 0.0310531; 0.0307282; 0.0317491;
   0.0281695; 0; 0; 0; 0; 0; 0; 0; 0; 0; 0; 0; 0; 0; 0; 0; 0; 0; 0; 0; 0; 0; 0; 0];
  [1.00697; 1.00722; 1.00747; 1.00771; 1.00794; 1.00817; 1.00838; 1.00859; 1.00879; 1.00897; 1.00914;
   1.00929; 1.00943; 1.00954; 1.00964; 1.00971; 1.00975; 1.00977; 1.00975; 1.00971; 1.00963; 1.00952;
   1.00936; 1.00916; 1.00892; 1.00863; 1.00829; 1.0079; 1.00745; 1.00693; 1.00635; 1.0057; 1.00497; 1.00415;
   1.00325; 1.00226; 1.00117; 0.999962; 0.998644; 0.997201; 0.995625; 0.993906; 0.992036; 0.990002; 0.987794;
   0.985401; 0.98281; 0.980009; 0.976985; 0.973723; 0.970211; 0.966434; 0.962379; 0.95803; 0.953376;
   0.948401; 0.943093; 0.937441; 0.931432; 0.925057; 0.918309; 0.911181; 0.903669; 0.895773; 0.887493;
   0.878835; 0.869808; 0.860424; 0.8507; 0.840657; 0.83032; 0.819718; 0.808886; 0.797861; 0.786686; 0.775404;
   0.764065; 0.752718; 0.741414; 0.730205; 0.719143; 0.708278; 0.697657; 0.687328; 0.67733; 0.667702;
   0.658475; 0.649677; 0.641328; 0.633444; 0.626034; 0.619103; 0.61265; 0.606668; 0.601147; 0.596073;
   0.591428; 0.587192; 0.583343; 0.579857; 0.57671; 0.573876; 0.571329; 0.569046; 0.567001; 0.56517; 0.56353;
   0.562059; 0.560736; 0.559541; 0.558455; 0.557458; 0.556533; 0.555663; 0.554831; 0.55402; 0.553213;
   0.552393; 0.551541; 0.550638; 0.549664; 0.548595; 0.547408; 0.546075; 0.544564; 0.542841; 0.540866;
   0.538595; 0.535977; 0.532956; 0.529466; 0.525434; 0.520781; 0.515415; 0.509238; 0.502143; 0.494013;
   0.484729; 0.474167; 0.462204; 0.448727; 0.43364; 0.416868; 0.398378; 0.378191; 0.356391; 0.333151;
   0.308729; 0.283487; 0.257867; 0.232384; 0.207586; 0.183989; 0.162033; 0.142012; 0.124047; 0.108092;
   0.093987; 0.0815304; 0.0705413; 0.0608908; 0.052476; 0.045171; 0.0388353; 0.0333505; 0.0286127; 0.0245304;
   0.0210206; 0.0180014; 0.0154145; 0.0131989; 0.0333259; 0.0311474; 0.0287668; 0.0276922; 0.0281144;
   0.0231012; 0; 0; 0; 0; 0; 0; 0; 0; 0; 0; 0; 0; 0; 0; 0; 0; 0; 0; 0; 0; 0; 0; 0];
  [1.00761; 1.0079; 1.0082; 1.00849; 1.00877; 1.00906; 1.00933; 1.0096; 1.00985; 1.0101; 1.01033; 1.01054;
   1.01074; 1.01092; 1.01108; 1.01121; 1.01132; 1.0114; 1.01146; 1.01148; 1.01146; 1.01141; 1.01132; 1.01118;
   1.011; 1.01077; 1.01049; 1.01015; 1.00975; 1.00929; 1.00876; 1.00816; 1.00747; 1.00671; 1.00586; 1.00491;
   1.00386; 1.0027; 1.00143; 1.00003; 0.998493; 0.996817; 0.994988; 0.992995; 0.990829; 0.988477; 0.985928;
   0.983168; 0.980186; 0.976967; 0.973497; 0.969764; 0.965753; 0.961449; 0.95684; 0.951911; 0.94665;
   0.941044; 0.935083; 0.928757; 0.922058; 0.91498; 0.907518; 0.899672; 0.891443; 0.882837; 0.873861;
   0.864528; 0.854856; 0.844863; 0.834577; 0.824025; 0.813243; 0.802267; 0.79114; 0.779906; 0.768612;
   0.75731; 0.746049; 0.734882; 0.72386; 0.713033; 0.702449; 0.692155; 0.68219; 0.672593; 0.663395; 0.654624;
   0.6463; 0.638439; 0.631051; 0.62414; 0.617704; 0.611738; 0.606232; 0.60117; 0.596536; 0.59231; 0.588468;
   0.584989; 0.581846; 0.579015; 0.576471; 0.574187; 0.57214; 0.570306; 0.568661; 0.567183; 0.565851;
   0.564644; 0.563542; 0.562528; 0.561582; 0.560687; 0.559826; 0.55898; 0.558132; 0.557264; 0.556356;
   0.555388; 0.554337; 0.553181; 0.551891; 0.550438; 0.548789; 0.546906; 0.544746; 0.542261; 0.539398;
   0.536093; 0.532279; 0.527876; 0.5228; 0.516955; 0.510237; 0.502533; 0.493725; 0.48369; 0.472306; 0.459452;
   0.445023; 0.428934; 0.41113; 0.391606; 0.370414; 0.347684; 0.323631; 0.298568; 0.272899; 0.247112;
   0.221739; 0.197322; 0.174348; 0.153188; 0.134053; 0.116979; 0.101854; 0.0884868; 0.076682; 0.0662832;
   0.0571783; 0.0492573; 0.0423871; 0.0364277; 0.0312747; 0.0268263; 0.0230016; 0.0197025; 0.0168815;
   0.0144474; 0.0123833; 0.0313473; 0.0296107; 0.0279825; 0.0260711; 0.025979; 0.0172458; 0; 0; 0; 0; 0; 0;
   0; 0; 0; 0; 0; 0; 0; 0; 0; 0; 0; 0; 0; 0; 0; 0; 0];
  [1.0082; 1.00855; 1.00889; 1.00923; 1.00957; 1.00991; 1.01024; 1.01057; 1.01088; 1.01119; 1.01149; 1.01177;
   1.01203; 1.01228; 1.01251; 1.01271; 1.01289; 1.01304; 1.01316; 1.01325; 1.01331; 1.01333; 1.0133; 1.01324;
   1.01312; 1.01296; 1.01274; 1.01246; 1.01213; 1.01173; 1.01126; 1.01071; 1.01009; 1.00938; 1.00858;
   1.00768; 1.00668; 1.00557; 1.00435; 1.00299; 1.00151; 0.999875; 0.998091; 0.996143; 0.994021; 0.991713;
   0.989208; 0.986492; 0.983553; 0.980378; 0.976953; 0.973264; 0.969297; 0.965039; 0.960475; 0.955593;
   0.950378; 0.94482; 0.938907; 0.932629; 0.925979; 0.91895; 0.911537; 0.903741; 0.895563; 0.887006;
   0.878081; 0.868799; 0.859176; 0.849234; 0.838997; 0.828495; 0.817761; 0.806833; 0.795752; 0.784564;
   0.773315; 0.762056; 0.750837; 0.739711; 0.728727; 0.717938; 0.70739; 0.697129; 0.687197; 0.67763; 0.66846;
   0.659715; 0.651416; 0.643578; 0.636211; 0.629319; 0.622901; 0.616951; 0.611459; 0.60641; 0.601787;
   0.597571; 0.593738; 0.590265; 0.587129; 0.584302; 0.581761; 0.57948; 0.577434; 0.575599; 0.573952;
   0.57247; 0.571133; 0.56992; 0.56881; 0.567786; 0.566827; 0.565917; 0.565038; 0.56417; 0.563298; 0.5624;
   0.561458; 0.56045; 0.559353; 0.558142; 0.55679; 0.555264; 0.553531; 0.551551; 0.549279; 0.546665;
   0.543653; 0.540179; 0.53617; 0.531546; 0.526218; 0.520089; 0.513051; 0.50499; 0.495786; 0.485314;
   0.473454; 0.460087; 0.445113; 0.428453; 0.410065; 0.389957; 0.3682; 0.344947; 0.320436; 0.295006;
   0.269081; 0.243166; 0.217801; 0.193519; 0.170785; 0.149939; 0.131149; 0.114415; 0.099598; 0.0865034;
   0.0749386; 0.0647592; 0.0558559; 0.048118; 0.0414021; 0.03558; 0.0305471; 0.0262029; 0.0224695; 0.0192491;
   0.0164966; 0.0141225; 0.0120965; 0.029195; 0.0284638; 0.0274673; 0.0269796; 0.0242939; 0.0130644; 0; 0; 0;
   0; 0; 0; 0; 0; 0; 0; 0; 0; 0; 0; 0; 0; 0; 0; 0; 0; 0; 0; 0];
  [1.00876; 1.00915; 1.00954; 1.00993; 1.01033; 1.01072; 1.01111; 1.01149; 1.01187; 1.01225; 1.01261;
   1.01296; 1.01329; 1.01361; 1.01391; 1.01419; 1.01444; 1.01467; 1.01487; 1.01503; 1.01516; 1.01526;
   1.01531; 1.01532; 1.01528; 1.01518; 1.01504; 1.01483; 1.01457; 1.01423; 1.01383; 1.01335; 1.01279;
   1.01214; 1.0114; 1.01056; 1.00962; 1.00856; 1.00739; 1.00609; 1.00465; 1.00307; 1.00134; 0.99944;
   0.997366; 0.995105; 0.992646; 0.989977; 0.987084; 0.983955; 0.980575; 0.976932; 0.973012; 0.9688;
   0.964282; 0.959446; 0.954279; 0.948768; 0.942903; 0.936673; 0.930071; 0.923091; 0.915728; 0.907981;
   0.899852; 0.891345; 0.882469; 0.873236; 0.863663; 0.853769; 0.843581; 0.833126; 0.82244; 0.811558;
   0.800523; 0.789379; 0.778173; 0.766956; 0.755778; 0.74469; 0.733745; 0.722991; 0.712477; 0.702249;
   0.692347; 0.682809; 0.673666; 0.664947; 0.656671; 0.648854; 0.641507; 0.634633; 0.628231; 0.622295;
   0.616816; 0.611778; 0.607165; 0.602956; 0.59913; 0.595663; 0.592529; 0.589705; 0.587164; 0.584882;
   0.582833; 0.580993; 0.579339; 0.577849; 0.576501; 0.575273; 0.574147; 0.573102; 0.572119; 0.571181;
   0.570268; 0.569361; 0.568443; 0.567491; 0.566487; 0.565406; 0.564225; 0.562916; 0.56145; 0.559792;
   0.557906; 0.55575; 0.553274; 0.550426; 0.547145; 0.543362; 0.539001; 0.533975; 0.528192; 0.521549;
   0.513933; 0.505227; 0.495309; 0.484055; 0.471343; 0.457065; 0.44113; 0.423476; 0.404083; 0.382992;
   0.360309; 0.336233; 0.311048; 0.285141; 0.258974; 0.233076; 0.207994; 0.184231; 0.162204; 0.142174;
   0.124227; 0.108294; 0.0941991; 0.081742; 0.0707479; 0.0610928; 0.0526734; 0.0453616; 0.0390167; 0.0335215;
   0.0287738; 0.0246819; 0.0211618; 0.0181339; 0.0155377; 0.0133138; 0.0293649; 0.0275326; 0.0255767;
   0.0247133; 0.024834; 0.0219533; 0; 0; 0; 0; 0; 0; 0; 0; 0; 0; 0; 0; 0; 0; 0; 0; 0; 0; 0; 0; 0; 0; 0; 0];
  [1.00928; 1.00971; 1.01015; 1.01059; 1.01104; 1.01149; 1.01194; 1.01238; 1.01283; 1.01326; 1.01369;
   1.01411; 1.01452; 1.01491; 1.01529; 1.01564; 1.01597; 1.01628; 1.01656; 1.01681; 1.01702; 1.01719;
   1.01732; 1.01741; 1.01745; 1.01744; 1.01737; 1.01725; 1.01706; 1.0168; 1.01647; 1.01606; 1.01557; 1.01499;
   1.01431; 1.01354; 1.01266; 1.01167; 1.01055; 1.00931; 1.00793; 1.00641; 1.00473; 1.00288; 1.00086;
   0.998649; 0.99624; 0.99362; 0.990776; 0.987695; 0.984364; 0.980769; 0.976896; 0.972731; 0.968261;
   0.963473; 0.958354; 0.952891; 0.947074; 0.940892; 0.934339; 0.927407; 0.920093; 0.912395; 0.904314;
   0.895857; 0.887029; 0.877845; 0.86832; 0.858475; 0.848333; 0.837926; 0.827285; 0.816449; 0.805458;
   0.794357; 0.783194; 0.772017; 0.760878; 0.749829; 0.73892; 0.728201; 0.71772; 0.707523; 0.697651;
   0.688141; 0.679025; 0.670329; 0.662076; 0.654281; 0.646953; 0.640096; 0.63371; 0.627789; 0.622322;
   0.617296; 0.612693; 0.608493; 0.604674; 0.601213; 0.598085; 0.595264; 0.592725; 0.590444; 0.588395;
   0.586554; 0.584897; 0.583403; 0.582048; 0.580813; 0.579677; 0.578621; 0.577624; 0.576669; 0.575736;
   0.574806; 0.573859; 0.572876; 0.571834; 0.57071; 0.569478; 0.56811; 0.566575; 0.564839; 0.562862;
   0.560601; 0.558005; 0.555019; 0.551579; 0.547615; 0.543048; 0.537788; 0.531741; 0.5248; 0.516852;
   0.507777; 0.497452; 0.485753; 0.472561; 0.457771; 0.441298; 0.423089; 0.403138; 0.3815; 0.358304;
   0.333767; 0.308197; 0.282001; 0.25566; 0.229709; 0.204693; 0.181103; 0.159324; 0.139583; 0.121933;
   0.106276; 0.0924245; 0.0801812; 0.0693797; 0.0599026; 0.0516457; 0.0444762; 0.038253; 0.0328657;
   0.0282109; 0.0242025; 0.0207529; 0.0177869; 0.0152398; 0.0130652; 0.0279817; 0.0260837; 0.0243346;
   0.022544; 0.0221493; 0.0184148; 0; 0; 0; 0; 0; 0; 0; 0; 0; 0; 0; 0; 0; 0; 0; 0; 0; 0; 0; 0; 0; 0; 0; 0];
  [1.00976; 1.01024; 1.01073; 1.01122; 1.01172; 1.01222; 1.01273; 1.01323; 1.01374; 1.01424; 1.01474;
   1.01523; 1.01571; 1.01618; 1.01663; 1.01707; 1.01748; 1.01787; 1.01823; 1.01856; 1.01886; 1.01912;
   1.01934; 1.01951; 1.01964; 1.01972; 1.01973; 1.01969; 1.01958; 1.01941; 1.01916; 1.01883; 1.01841;
   1.01791; 1.01731; 1.01661; 1.0158; 1.01488; 1.01383; 1.01265; 1.01133; 1.00987; 1.00825; 1.00646; 1.00449;
   1.00234; 0.999984; 0.997417; 0.994625; 0.991596; 0.988315; 0.98477; 0.980947; 0.976832; 0.972411;
   0.967672; 0.962601; 0.957187; 0.951419; 0.945286; 0.938781; 0.931898; 0.924632; 0.916983; 0.908951;
   0.900541; 0.891762; 0.882626; 0.873148; 0.863349; 0.853255; 0.842893; 0.832297; 0.821504; 0.810556;
   0.799497; 0.788375; 0.777238; 0.766137; 0.755124; 0.744249; 0.733564; 0.723115; 0.712948; 0.703104;
   0.69362; 0.684529; 0.675857; 0.667625; 0.659849; 0.652538; 0.645698; 0.639326; 0.633418; 0.627963;
   0.622946; 0.618351; 0.614158; 0.610344; 0.606886; 0.603759; 0.600939; 0.598399; 0.596115; 0.594061;
   0.592212; 0.590547; 0.589041; 0.587672; 0.58642; 0.585263; 0.584182; 0.583156; 0.582167; 0.581194;
   0.580217; 0.579216; 0.578169; 0.577053; 0.575843; 0.574511; 0.573028; 0.57136; 0.569469; 0.567314;
   0.564847; 0.562014; 0.558756; 0.555004; 0.550684; 0.54571; 0.539991; 0.533424; 0.525899; 0.517299;
   0.507501; 0.496381; 0.483819; 0.469699; 0.453926; 0.436431; 0.417184; 0.396209; 0.373594; 0.349515;
   0.324233; 0.298109; 0.271587; 0.245183; 0.21944; 0.194887; 0.171971; 0.151005; 0.132133; 0.115329;
   0.100443; 0.0872771; 0.0756413; 0.0653958; 0.0564326; 0.0486387; 0.041871; 0.0360005; 0.0309239; 0.026541;
   0.0227719; 0.0195212; 0.0167383; 0.01434; 0.0122928; 0.0254807; 0.0251013; 0.0244575; 0.0237448;
   0.0219779; 0.0181936; 0; 0; 0; 0; 0; 0; 0; 0; 0; 0; 0; 0; 0; 0; 0; 0; 0; 0; 0; 0; 0; 0; 0; 0];
  [1.01022; 1.01073; 1.01127; 1.01181; 1.01236; 1.01291; 1.01348; 1.01404; 1.01461; 1.01518; 1.01575;
   1.01631; 1.01686; 1.01741; 1.01794; 1.01846; 1.01895; 1.01943; 1.01988; 1.0203; 1.02068; 1.02104; 1.02135;
   1.02161; 1.02183; 1.022; 1.02211; 1.02216; 1.02214; 1.02206; 1.02189; 1.02165; 1.02132; 1.0209; 1.02038;
   1.01976; 1.01903; 1.01818; 1.0172; 1.0161; 1.01485; 1.01345; 1.0119; 1.01017; 1.00827; 1.00617; 1.00388;
   1.00137; 0.998629; 0.995654; 0.992427; 0.988935; 0.985164; 0.981101; 0.976731; 0.972042; 0.967022;
   0.961657; 0.955938; 0.949855; 0.9434; 0.936565; 0.929348; 0.921747; 0.913763; 0.905402; 0.89667; 0.887581;
   0.87815; 0.868397; 0.858348; 0.84803; 0.837478; 0.826729; 0.815823; 0.804804; 0.793721; 0.782622;
   0.771558; 0.76058; 0.749739; 0.739086; 0.728667; 0.718529; 0.708712; 0.699253; 0.690185; 0.681535;
   0.673323; 0.665565; 0.658271; 0.651445; 0.645087; 0.63919; 0.633745; 0.628737; 0.624148; 0.61996; 0.61615;
   0.612694; 0.609568; 0.606746; 0.604202; 0.601913; 0.599851; 0.597993; 0.596315; 0.594793; 0.593406;
   0.592131; 0.590948; 0.589835; 0.588773; 0.58774; 0.586717; 0.585682; 0.584612; 0.583486; 0.582277;
   0.58096; 0.579504; 0.577877; 0.576042; 0.573959; 0.571582; 0.56886; 0.565733; 0.562138; 0.558002;
   0.553243; 0.547771; 0.541488; 0.534285; 0.526049; 0.516659; 0.505989; 0.493918; 0.480326; 0.46511;
   0.44819; 0.429517; 0.40909; 0.386974; 0.363303; 0.338305; 0.312297; 0.285694; 0.258982; 0.232699;
   0.207387; 0.183538; 0.161528; 0.141578; 0.123736; 0.1079; 0.0938823; 0.0814843; 0.0705402; 0.0609318;
   0.052555; 0.0452777; 0.038959; 0.0334855; 0.0287558; 0.0246796; 0.0211704; 0.0181527; 0.0155623;
   0.0133459; 0.0254741; 0.0238475; 0.0221701; 0.0216907; 0.0216786; 0.0213459; 0; 0; 0; 0; 0; 0; 0; 0; 0; 0;
   0; 0; 0; 0; 0; 0; 0; 0; 0; 0; 0; 0; 0; 0; 0];
  [1.01064; 1.0112; 1.01177; 1.01236; 1.01296; 1.01357; 1.01419; 1.01481; 1.01544; 1.01608; 1.01671; 1.01735;
   1.01798; 1.0186; 1.01921; 1.01981; 1.02039; 1.02095; 1.02149; 1.02201; 1.02249; 1.02293; 1.02334; 1.0237;
   1.02402; 1.02428; 1.02449; 1.02464; 1.02472; 1.02473; 1.02466; 1.02451; 1.02428; 1.02395; 1.02352;
   1.02298; 1.02234; 1.02157; 1.02067; 1.01965; 1.01847; 1.01715; 1.01566; 1.01401; 1.01217; 1.01014;
   1.00791; 1.00546; 1.00278; 0.999869; 0.996699; 0.993263; 0.989548; 0.985538; 0.981222; 0.976586; 0.971617;
   0.966304; 0.960636; 0.954604; 0.948198; 0.941413; 0.934245; 0.926693; 0.918758; 0.910444; 0.90176;
   0.892717; 0.883332; 0.873625; 0.863621; 0.853348; 0.842839; 0.832131; 0.821266; 0.810288; 0.799243;
   0.788181; 0.777153; 0.766209; 0.755402; 0.744779; 0.734391; 0.724281; 0.71449; 0.705057; 0.696012;
   0.687383; 0.679191; 0.671452; 0.664176; 0.657366; 0.651022; 0.645138; 0.639704; 0.634707; 0.630128;
   0.625948; 0.622145; 0.618695; 0.615574; 0.612757; 0.610217; 0.60793; 0.60587; 0.604013; 0.602335;
   0.600813; 0.599424; 0.598147; 0.596961; 0.595844; 0.594776; 0.593737; 0.592706; 0.591661; 0.59058;
   0.589441; 0.588218; 0.586883; 0.585407; 0.583757; 0.581896; 0.579783; 0.577372; 0.57461; 0.571439;
   0.567794; 0.563602; 0.558779; 0.553236; 0.546873; 0.539583; 0.531249; 0.521751; 0.510965; 0.498766;
   0.485037; 0.469674; 0.452597; 0.433759; 0.413159; 0.390863; 0.367005; 0.341815; 0.31561; 0.288805;
   0.261887; 0.235394; 0.209871; 0.185807; 0.163586; 0.143433; 0.125398; 0.109384; 0.0952041; 0.0826584;
   0.0715794; 0.0618472; 0.0533577; 0.045981; 0.0395736; 0.0340214; 0.0292227; 0.0250853; 0.021523;
   0.0184589; 0.0158288; 0.0135743; 0.0116331; 0.0225034; 0.0211527; 0.0202519; 0.0209331; 0.0172054; 0; 0;
   0; 0; 0; 0; 0; 0; 0; 0; 0; 0; 0; 0; 0; 0; 0; 0; 0; 0; 0; 0; 0; 0; 0];
  [1.01103; 1.01163; 1.01224; 1.01288; 1.01352; 1.01419; 1.01486; 1.01554; 1.01624; 1.01694; 1.01764;
   1.01834; 1.01905; 1.01975; 1.02044; 1.02112; 1.02179; 1.02245; 1.02308; 1.02368; 1.02426; 1.02481;
   1.02531; 1.02578; 1.0262; 1.02656; 1.02688; 1.02713; 1.02731; 1.02742; 1.02746; 1.02741; 1.02727; 1.02704;
   1.02671; 1.02627; 1.02571; 1.02503; 1.02423; 1.02328; 1.0222; 1.02095; 1.01955; 1.01797; 1.0162; 1.01424;
   1.01208; 1.0097; 1.00709; 1.00423; 1.00113; 0.99775; 0.994093; 0.990141; 0.98588; 0.981299; 0.976385;
   0.971125; 0.96551; 0.959528; 0.953174; 0.946439; 0.939321; 0.931818; 0.923931; 0.915665; 0.907028;
   0.898033; 0.888693; 0.879031; 0.869071; 0.858841; 0.848374; 0.837707; 0.826882; 0.815943; 0.804935;
   0.793909; 0.782916; 0.772006; 0.761229; 0.750637; 0.740277; 0.730194; 0.720429; 0.711019; 0.701996;
   0.693388; 0.685215; 0.677493; 0.670232; 0.663436; 0.657105; 0.651233; 0.64581; 0.640821; 0.63625;
   0.632076; 0.628278; 0.624833; 0.621715; 0.618899; 0.616359; 0.614071; 0.61201; 0.610149; 0.608467;
   0.606938; 0.605541; 0.604254; 0.603055; 0.601924; 0.600839; 0.599779; 0.598724; 0.597651; 0.596538;
   0.595361; 0.594093; 0.592708; 0.591173; 0.589455; 0.587516; 0.585312; 0.582797; 0.579917; 0.576611;
   0.572811; 0.568442; 0.563419; 0.55765; 0.551033; 0.543458; 0.534807; 0.524959; 0.513789; 0.501173;
   0.486995; 0.471157; 0.453583; 0.434236; 0.413127; 0.390334; 0.366011; 0.340403; 0.313848; 0.286777;
   0.259689; 0.233127; 0.207633; 0.183682; 0.161632; 0.141679; 0.123849; 0.108024; 0.0940089; 0.0816074;
   0.0706592; 0.0610482; 0.0526692; 0.045388; 0.039064; 0.0335849; 0.02885; 0.0247684; 0.0212538; 0.0182315;
   0.0156363; 0.0134154; 0.022843; 0.0214381; 0.0202681; 0.0196684; 0.0196424; 0.0186477; 0; 0; 0; 0; 0; 0;
   0; 0; 0; 0; 0; 0; 0; 0; 0; 0; 0; 0; 0; 0; 0; 0; 0; 0; 0];
  [1.01139; 1.01203; 1.01269; 1.01336; 1.01406; 1.01477; 1.0155; 1.01624; 1.01699; 1.01775; 1.01853; 1.0193;
   1.02008; 1.02086; 1.02163; 1.0224; 1.02316; 1.0239; 1.02463; 1.02533; 1.026; 1.02665; 1.02726; 1.02783;
   1.02836; 1.02883; 1.02925; 1.02961; 1.0299; 1.03012; 1.03027; 1.03033; 1.0303; 1.03017; 1.02994; 1.0296;
   1.02915; 1.02857; 1.02786; 1.02701; 1.02601; 1.02485; 1.02353; 1.02203; 1.02035; 1.01847; 1.01638;
   1.01407; 1.01153; 1.00874; 1.0057; 1.00239; 0.998796; 0.994905; 0.990704; 0.986181; 0.981323; 0.976118;
   0.970557; 0.964629; 0.958327; 0.951644; 0.944576; 0.937123; 0.929285; 0.921067; 0.912477; 0.903527;
   0.894233; 0.884616; 0.874699; 0.864511; 0.854085; 0.843459; 0.832672; 0.82177; 0.810799; 0.799808;
   0.788847; 0.777968; 0.767222; 0.756659; 0.746325; 0.736267; 0.726526; 0.717137; 0.708135; 0.699545;
   0.691389; 0.683683; 0.676436; 0.669652; 0.663332; 0.657469; 0.652053; 0.64707; 0.642503; 0.638333;
   0.634537; 0.631091; 0.62797; 0.625151; 0.622606; 0.62031; 0.618237; 0.616364; 0.614666; 0.613118;
   0.611699; 0.610385; 0.609154; 0.607986; 0.606857; 0.605747; 0.604633; 0.603492; 0.602299; 0.60103;
   0.599656; 0.598146; 0.596469; 0.594586; 0.592456; 0.590033; 0.587266; 0.584096; 0.580458; 0.576279;
   0.571478; 0.565965; 0.559642; 0.552402; 0.54413; 0.534704; 0.524001; 0.511896; 0.498269; 0.483013;
   0.466041; 0.447299; 0.426775; 0.404519; 0.380649; 0.355372; 0.328985; 0.301879; 0.274525; 0.247457;
   0.221219; 0.196327; 0.173199; 0.152109; 0.13316; 0.116295; 0.101344; 0.088104; 0.0763949; 0.0660817;
   0.0570584; 0.0492082; 0.0423867; 0.0364659; 0.0313434; 0.0269198; 0.023113; 0.0198288; 0.017018;
   0.0145918; 0.01252; 0.0205851; 0.0202885; 0.019646; 0.0195767; 0.0189643; 0.0152551; 0; 0; 0; 0; 0; 0; 0;
   0; 0; 0; 0; 0; 0; 0; 0; 0; 0; 0; 0; 0; 0; 0; 0; 0; 0];
  [1.01173; 1.01241; 1.0131; 1.01382; 1.01456; 1.01532; 1.0161; 1.0169; 1.01771; 1.01853; 1.01937; 1.02022;
   1.02107; 1.02193; 1.02278; 1.02363; 1.02448; 1.02532; 1.02614; 1.02694; 1.02771; 1.02846; 1.02918;
   1.02986; 1.03049; 1.03108; 1.03161; 1.03209; 1.03249; 1.03283; 1.03309; 1.03326; 1.03334; 1.03333;
   1.03321; 1.03298; 1.03264; 1.03216; 1.03155; 1.0308; 1.0299; 1.02884; 1.02761; 1.02621; 1.02461; 1.02281;
   1.0208; 1.01857; 1.01611; 1.0134; 1.01043; 1.00719; 1.00366; 0.99983; 0.995692; 0.99123; 0.986432;
   0.981286; 0.975781; 0.969908; 0.96366; 0.95703; 0.950014; 0.942611; 0.934822; 0.926653; 0.91811; 0.909207;
   0.899959; 0.890385; 0.880511; 0.870365; 0.85998; 0.849393; 0.838645; 0.827779; 0.816843; 0.805886;
   0.794958; 0.78411; 0.773393; 0.762857; 0.75255; 0.742516; 0.732797; 0.72343; 0.714447; 0.705875; 0.697736;
   0.690044; 0.682811; 0.676039; 0.66973; 0.663876; 0.658468; 0.653491; 0.64893; 0.644763; 0.640969;
   0.637524; 0.634403; 0.631581; 0.629033; 0.626732; 0.624652; 0.62277; 0.62106; 0.619499; 0.618062;
   0.616729; 0.615475; 0.614278; 0.613118; 0.61197; 0.610812; 0.60962; 0.608368; 0.60703; 0.605577; 0.603976;
   0.602192; 0.600187; 0.597917; 0.595333; 0.59238; 0.588998; 0.585118; 0.580664; 0.57555; 0.569682; 0.56296;
   0.555273; 0.546502; 0.536526; 0.525218; 0.512455; 0.498121; 0.482114; 0.464361; 0.444818; 0.423496;
   0.400468; 0.375882; 0.349976; 0.323081; 0.29562; 0.268088; 0.241029; 0.214983; 0.190442; 0.167782;
   0.147222; 0.128812; 0.112449; 0.097948; 0.0851044; 0.0737532; 0.0637704; 0.0550512; 0.0474706; 0.0408828;
   0.0351658; 0.0302247; 0.0259596; 0.0222898; 0.0191246; 0.0164156; 0.0140827; 0.0120811; 0.0191378;
   0.0184887; 0.018366; 0.0186338; 0.0191009; 0.0149251; 0; 0; 0; 0; 0; 0; 0; 0; 0; 0; 0; 0; 0; 0; 0; 0; 0;
   0; 0; 0; 0; 0; 0; 0; 0];
  [1.01205; 1.01276; 1.01349; 1.01425; 1.01503; 1.01584; 1.01667; 1.01752; 1.01839; 1.01928; 1.02018; 1.0211;
   1.02202; 1.02295; 1.02389; 1.02483; 1.02576; 1.02669; 1.02761; 1.02851; 1.02939; 1.03024; 1.03107;
   1.03186; 1.03261; 1.03331; 1.03396; 1.03455; 1.03508; 1.03553; 1.03591; 1.0362; 1.03641; 1.03651; 1.03651;
   1.0364; 1.03617; 1.03581; 1.03531; 1.03467; 1.03388; 1.03292; 1.03179; 1.03048; 1.02898; 1.02727; 1.02535;
   1.0232; 1.02082; 1.01819; 1.0153; 1.01213; 1.00867; 1.00491; 1.00084; 0.996446; 0.99171; 0.986625;
   0.981179; 0.975364; 0.969172; 0.962596; 0.955634; 0.948283; 0.940545; 0.932424; 0.92393; 0.915073;
   0.90587; 0.896341; 0.88651; 0.876405; 0.866061; 0.855512; 0.844801; 0.833972; 0.82307; 0.812146; 0.801249;
   0.79043; 0.779742; 0.769232; 0.75895; 0.748939; 0.739242; 0.729895; 0.720931; 0.712376; 0.704252;
   0.696575; 0.689353; 0.682593; 0.676293; 0.670448; 0.665046; 0.660076; 0.655518; 0.651355; 0.647562;
   0.644117; 0.640995; 0.638171; 0.635618; 0.63331; 0.631223; 0.62933; 0.627607; 0.626031; 0.624576;
   0.623221; 0.621942; 0.620715; 0.61952; 0.618331; 0.617126; 0.615879; 0.614564; 0.613153; 0.611614;
   0.609916; 0.608019; 0.605884; 0.603464; 0.600708; 0.597559; 0.593952; 0.589815; 0.585069; 0.579624;
   0.573384; 0.566243; 0.558086; 0.548795; 0.538244; 0.526308; 0.512865; 0.497804; 0.48103; 0.462482;
   0.442134; 0.420016; 0.396228; 0.370947; 0.344447; 0.317089; 0.289327; 0.261674; 0.23468; 0.208879;
   0.184729; 0.162559; 0.142533; 0.124649; 0.10877; 0.0946964; 0.0822335; 0.0712276; 0.0615653; 0.0531396;
   0.045814; 0.0394481; 0.0339306; 0.0291612; 0.0250485; 0.0215055; 0.018458; 0.0158407; 0.0135996;
   0.0189328; 0.0178974; 0.0168015; 0.0166581; 0.0165228; 0.0175159; 0; 0; 0; 0; 0; 0; 0; 0; 0; 0; 0; 0; 0;
   0; 0; 0; 0; 0; 0; 0; 0; 0; 0; 0; 0; 0];
  [1.01235; 1.01309; 1.01386; 1.01465; 1.01548; 1.01633; 1.01721; 1.01811; 1.01904; 1.01999; 1.02095;
   1.02194; 1.02293; 1.02394; 1.02496; 1.02598; 1.02701; 1.02803; 1.02904; 1.03004; 1.03102; 1.03199;
   1.03292; 1.03382; 1.03469; 1.03551; 1.03628; 1.037; 1.03765; 1.03823; 1.03873; 1.03915; 1.03948; 1.03971;
   1.03984; 1.03985; 1.03974; 1.0395; 1.03912; 1.0386; 1.03792; 1.03707; 1.03605; 1.03484; 1.03344; 1.03183;
   1.03001; 1.02796; 1.02566; 1.02312; 1.02031; 1.01722; 1.01384; 1.01015; 1.00615; 1.00183; 0.997157;
   0.992137; 0.986753; 0.980999; 0.974865; 0.968346; 0.961438; 0.95414; 0.946454; 0.938384; 0.929938;
   0.921129; 0.911972; 0.902487; 0.892699; 0.882636; 0.872331; 0.861821; 0.851147; 0.840352; 0.829484;
   0.818592; 0.807726; 0.796937; 0.786275; 0.775791; 0.765533; 0.755545; 0.745869; 0.736542; 0.727595;
   0.719057; 0.710948; 0.703284; 0.696075; 0.689326; 0.683036; 0.677199; 0.671805; 0.66684; 0.662288;
   0.658128; 0.654338; 0.650895; 0.647773; 0.644948; 0.642393; 0.640082; 0.637989; 0.63609; 0.63436;
   0.632773; 0.631307; 0.629937; 0.628641; 0.627395; 0.626176; 0.624961; 0.623724; 0.62244; 0.621083;
   0.619623; 0.618028; 0.616264; 0.614293; 0.612072; 0.609554; 0.606686; 0.603408; 0.599655; 0.595352;
   0.590416; 0.584759; 0.578279; 0.570869; 0.562414; 0.552792; 0.541878; 0.529546; 0.515676; 0.500159;
   0.482907; 0.463862; 0.44301; 0.420392; 0.396121; 0.370394; 0.343498; 0.315812; 0.287803; 0.259995;
   0.232939; 0.207161; 0.183104; 0.161073; 0.141208; 0.123482; 0.107746; 0.0937957; 0.0814413; 0.0705346;
   0.0609655; 0.0526241; 0.0453713; 0.0390678; 0.0336057; 0.0288841; 0.0248137; 0.0213069; 0.0182909;
   0.0156986; 0.0134822; 0.017567; 0.0166757; 0.0158879; 0.0152542; 0.0140635; 0.0132899; 0; 0; 0; 0; 0; 0;
   0; 0; 0; 0; 0; 0; 0; 0; 0; 0; 0; 0; 0; 0; 0; 0; 0; 0; 0; 0];
  [1.01262; 1.01339; 1.0142; 1.01503; 1.0159; 1.01679; 1.01772; 1.01867; 1.01965; 1.02066; 1.02169; 1.02274;
   1.02381; 1.02489; 1.02599; 1.02709; 1.02821; 1.02932; 1.03043; 1.03153; 1.03262; 1.03369; 1.03474;
   1.03576; 1.03674; 1.03768; 1.03858; 1.03942; 1.0402; 1.04091; 1.04154; 1.0421; 1.04256; 1.04292; 1.04318;
   1.04332; 1.04334; 1.04323; 1.04298; 1.04258; 1.04202; 1.04129; 1.04038; 1.03929; 1.038; 1.0365; 1.03478;
   1.03282; 1.03063; 1.02817; 1.02545; 1.02245; 1.01915; 1.01555; 1.01162; 1.00737; 1.00277; 0.997817;
   0.9925; 0.986808; 0.980736; 0.974276; 0.967425; 0.960183; 0.95255; 0.944531; 0.936135; 0.927373; 0.918262;
   0.908822; 0.899077; 0.889055; 0.878789; 0.868317; 0.85768; 0.84692; 0.836085; 0.825224; 0.814387;
   0.803626; 0.792991; 0.782531; 0.772296; 0.762329; 0.752673; 0.743364; 0.734434; 0.725911; 0.717816;
   0.710164; 0.702966; 0.696226; 0.689944; 0.684114; 0.678726; 0.673765; 0.669216; 0.665058; 0.661268;
   0.657824; 0.6547; 0.651871; 0.64931; 0.646992; 0.64489; 0.642979; 0.641235; 0.639632; 0.638145; 0.636752;
   0.635429; 0.634151; 0.632895; 0.631636; 0.630349; 0.629008; 0.627584; 0.626046; 0.624363; 0.622496;
   0.620407; 0.61805; 0.615376; 0.612329; 0.608847; 0.604861; 0.600293; 0.595058; 0.589062; 0.582201;
   0.574365; 0.565436; 0.555289; 0.5438; 0.530843; 0.516301; 0.500071; 0.482074; 0.462264; 0.440645;
   0.417281; 0.392311; 0.36596; 0.338545; 0.310477; 0.282241; 0.254378; 0.227437; 0.201925; 0.17825;
   0.156672; 0.137278; 0.120003; 0.104671; 0.0910772; 0.0790409; 0.0684283; 0.0591327; 0.0510353; 0.0439962;
   0.0378776; 0.0325812; 0.0280043; 0.0240609; 0.0206588; 0.0177418; 0.0152268; 0.0130819; 0.0159765;
   0.0155998; 0.0152976; 0.0147295; 0.0135814; 0.0134268; 0; 0; 0; 0; 0; 0; 0; 0; 0; 0; 0; 0; 0; 0; 0; 0; 0;
   0; 0; 0; 0; 0; 0; 0; 0; 0];
  [1.01288; 1.01368; 1.01452; 1.01539; 1.01629; 1.01723; 1.0182; 1.0192; 1.02024; 1.0213; 1.02239; 1.0235;
   1.02464; 1.0258; 1.02698; 1.02817; 1.02937; 1.03057; 1.03178; 1.03298; 1.03417; 1.03535; 1.03652; 1.03765;
   1.03876; 1.03982; 1.04085; 1.04182; 1.04273; 1.04357; 1.04434; 1.04503; 1.04563; 1.04613; 1.04653;
   1.04681; 1.04697; 1.04699; 1.04687; 1.0466; 1.04617; 1.04557; 1.04479; 1.04382; 1.04265; 1.04126; 1.03965;
   1.0378; 1.03571; 1.03335; 1.03073; 1.02781; 1.02461; 1.02109; 1.01725; 1.01307; 1.00855; 1.00367;
   0.998419; 0.992795; 0.986787; 0.980389; 0.973598; 0.966412; 0.958834; 0.950869; 0.942524; 0.933811;
   0.924747; 0.915352; 0.90565; 0.895669; 0.885444; 0.87501; 0.864408; 0.853682; 0.84288; 0.83205; 0.821242;
   0.810508; 0.799898; 0.789463; 0.77925; 0.769304; 0.759667; 0.750375; 0.741461; 0.732953; 0.724871;
   0.717231; 0.710044; 0.703314; 0.69704; 0.691217; 0.685834; 0.680879; 0.676333; 0.672178; 0.66839;
   0.664946; 0.661822; 0.65899; 0.656426; 0.654104; 0.651996; 0.650078; 0.648324; 0.64671; 0.645211;
   0.643802; 0.64246; 0.641161; 0.63988; 0.638592; 0.637271; 0.635891; 0.634422; 0.632832; 0.631089;
   0.629154; 0.626986; 0.624538; 0.621761; 0.618597; 0.614981; 0.610842; 0.606101; 0.600671; 0.594455;
   0.587348; 0.579238; 0.570004; 0.559523; 0.547667; 0.534313; 0.519346; 0.502665; 0.484197; 0.463904;
   0.441798; 0.417957; 0.392532; 0.365763; 0.337986; 0.309621; 0.281168; 0.253172; 0.22618; 0.200689;
   0.177091; 0.155622; 0.136351; 0.11919; 0.103959; 0.0904508; 0.0784912; 0.0679503; 0.0587214; 0.0506834;
   0.0436944; 0.0376213; 0.032363; 0.0278197; 0.0239053; 0.0205279; 0.0176325; 0.0151362; 0.0130083;
   0.0147393; 0.0143567; 0.014113; 0.0137894; 0.0143445; 0.0114515; 0; 0; 0; 0; 0; 0; 0; 0; 0; 0; 0; 0; 0; 0;
   0; 0; 0; 0; 0; 0; 0; 0; 0; 0; 0; 0];
  [1.01312; 1.01395; 1.01482; 1.01572; 1.01666; 1.01764; 1.01865; 1.0197; 1.02079; 1.02191; 1.02306; 1.02424;
   1.02544; 1.02667; 1.02793; 1.0292; 1.03049; 1.03178; 1.03308; 1.03439; 1.03569; 1.03698; 1.03825; 1.03951;
   1.04074; 1.04193; 1.04308; 1.04418; 1.04523; 1.04621; 1.04713; 1.04796; 1.0487; 1.04934; 1.04988; 1.05031;
   1.05061; 1.05078; 1.0508; 1.05067; 1.05038; 1.04991; 1.04926; 1.04842; 1.04737; 1.04611; 1.04461; 1.04288;
   1.0409; 1.03865; 1.03613; 1.03331; 1.0302; 1.02677; 1.02302; 1.01893; 1.01449; 1.00968; 1.00451; 0.998955;
   0.993015; 0.986682; 0.979953; 0.972827; 0.965306; 0.957395; 0.949103; 0.94044; 0.931424; 0.922075;
   0.912416; 0.902478; 0.892292; 0.881895; 0.871329; 0.860637; 0.849867; 0.839066; 0.828287; 0.817579;
   0.806994; 0.796582; 0.78639; 0.776463; 0.766844; 0.757568; 0.74867; 0.740174; 0.732104; 0.724475;
   0.717297; 0.710575; 0.704307; 0.69849; 0.693111; 0.688159; 0.683615; 0.679459; 0.67567; 0.672224;
   0.669095; 0.666259; 0.663687; 0.661356; 0.659237; 0.657305; 0.655535; 0.653902; 0.65238; 0.650944;
   0.649572; 0.648236; 0.646914; 0.645578; 0.644202; 0.642757; 0.641214; 0.639539; 0.637697; 0.635648;
   0.63335; 0.630754; 0.627805; 0.624446; 0.620607; 0.616215; 0.611187; 0.605433; 0.598851; 0.591335;
   0.582768; 0.573029; 0.561991; 0.549528; 0.535519; 0.519852; 0.502434; 0.483203; 0.462135; 0.439263;
   0.414688; 0.388587; 0.361232; 0.332986; 0.304299; 0.275685; 0.2477; 0.22088; 0.195699; 0.172507; 0.151492;
   0.132676; 0.115938; 0.101082; 0.0879063; 0.0762479; 0.0659871; 0.0570146; 0.0492058; 0.0424127; 0.0365141;
   0.0314108; 0.0270013; 0.0232037; 0.0199284; 0.0171205; 0.0147002; 0.0126315; 0.0131265; 0.012942;
   0.0134537; 0.0135913; 0.0140967; 0.0121581; 0; 0; 0; 0; 0; 0; 0; 0; 0; 0; 0; 0; 0; 0; 0; 0; 0; 0; 0; 0; 0;
   0; 0; 0; 0; 0];
  [1.01335; 1.0142; 1.0151; 1.01603; 1.01701; 1.01802; 1.01908; 1.02018; 1.02131; 1.02248; 1.02369; 1.02493;
   1.02621; 1.02751; 1.02884; 1.03019; 1.03157; 1.03295; 1.03435; 1.03576; 1.03716; 1.03856; 1.03995;
   1.04133; 1.04268; 1.044; 1.04528; 1.04652; 1.04771; 1.04883; 1.04989; 1.05086; 1.05175; 1.05255; 1.05324;
   1.05381; 1.05426; 1.05458; 1.05475; 1.05477; 1.05462; 1.0543; 1.05379; 1.05308; 1.05217; 1.05103; 1.04967;
   1.04806; 1.0462; 1.04406; 1.04165; 1.03894; 1.03593; 1.0326; 1.02894; 1.02494; 1.02058; 1.01586; 1.01077;
   1.00529; 0.999422; 0.993158; 0.986494; 0.979431; 0.97197; 0.964116; 0.955878; 0.947267; 0.938301;
   0.928998; 0.919384; 0.909488; 0.899342; 0.888983; 0.878453; 0.867795; 0.857056; 0.846286; 0.835534;
   0.824853; 0.814292; 0.803902; 0.793731; 0.783823; 0.774222; 0.764962; 0.756078; 0.747596; 0.739538;
   0.73192; 0.724751; 0.718037; 0.711777; 0.705965; 0.700592; 0.695644; 0.691103; 0.68695; 0.683163;
   0.679717; 0.676588; 0.67375; 0.671176; 0.668841; 0.666717; 0.664779; 0.663002; 0.66136; 0.659827;
   0.658379; 0.656992; 0.655639; 0.654297; 0.652938; 0.651535; 0.650059; 0.648481; 0.646765; 0.644876;
   0.642775; 0.640415; 0.63775; 0.634723; 0.631273; 0.627332; 0.622825; 0.617668; 0.611768; 0.605023;
   0.597326; 0.588558; 0.578597; 0.567316; 0.554589; 0.540295; 0.524324; 0.506584; 0.487018; 0.465606;
   0.442385; 0.417463; 0.391025; 0.363352; 0.334812; 0.305862; 0.277023; 0.248849; 0.221877; 0.196577;
   0.173292; 0.152201; 0.133318; 0.116519; 0.101603; 0.0883716; 0.0766621; 0.0663552; 0.0573415; 0.0494952;
   0.0426685; 0.0367397; 0.0316096; 0.0271766; 0.023358; 0.0200646; 0.0172403; 0.0148066; 0.0127253;
   0.011953; 0.0119088; 0.0123407; 0.0125953; 0.0138324; 0.0120904; 0; 0; 0; 0; 0; 0; 0; 0; 0; 0; 0; 0; 0; 0;
   0; 0; 0; 0; 0; 0; 0; 0; 0; 0; 0; 0];
  [1.01356; 1.01444; 1.01536; 1.01633; 1.01734; 1.01839; 1.01949; 1.02063; 1.02181; 1.02303; 1.0243; 1.0256;
   1.02694; 1.02831; 1.02972; 1.03115; 1.03261; 1.03408; 1.03558; 1.03708; 1.03859; 1.0401; 1.04161; 1.0431;
   1.04458; 1.04603; 1.04745; 1.04882; 1.05015; 1.05142; 1.05262; 1.05375; 1.05479; 1.05574; 1.05659;
   1.05732; 1.05792; 1.0584; 1.05872; 1.0589; 1.0589; 1.05873; 1.05837; 1.05781; 1.05704; 1.05604; 1.05481;
   1.05333; 1.05159; 1.04958; 1.04729; 1.0447; 1.04179; 1.03857; 1.03501; 1.0311; 1.02684; 1.02221; 1.01719;
   1.0118; 1.006; 0.999811; 0.993217; 0.986219; 0.97882; 0.971025; 0.962843; 0.954286; 0.94537; 0.936115;
   0.926547; 0.916693; 0.906587; 0.896267; 0.885772; 0.875148; 0.86444; 0.853698; 0.842974; 0.832317;
   0.821779; 0.811411; 0.801259; 0.791369; 0.781783; 0.772538; 0.763667; 0.755196; 0.747147; 0.739537;
   0.732376; 0.725667; 0.719411; 0.713603; 0.708231; 0.703283; 0.698741; 0.694586; 0.690794; 0.687342;
   0.684206; 0.681358; 0.678772; 0.676423; 0.674282; 0.672324; 0.670523; 0.668853; 0.667289; 0.665803;
   0.664373; 0.66297; 0.66157; 0.660144; 0.658663; 0.657099; 0.655417; 0.653583; 0.651558; 0.6493; 0.646762;
   0.643891; 0.640628; 0.636911; 0.632665; 0.627812; 0.622262; 0.61592; 0.608679; 0.600426; 0.591042; 0.5804;
   0.568375; 0.55484; 0.539678; 0.522787; 0.504088; 0.483539; 0.461144; 0.436968; 0.411152; 0.38392;
   0.355591; 0.326573; 0.297353; 0.268471; 0.240482; 0.213904; 0.189161; 0.166536; 0.146142; 0.127933;
   0.111746; 0.0973745; 0.0846292; 0.073365; 0.0634711; 0.054836; 0.0473197; 0.0407818; 0.0351099; 0.0302042;
   0.0259695; 0.0223189; 0.0191774; 0.0164774; 0.0141618; 0.0121679; 0.0106841; 0.0103651; 0.0103674;
   0.0113669; 0.00895651; 0; 0; 0; 0; 0; 0; 0; 0; 0; 0; 0; 0; 0; 0; 0; 0; 0; 0; 0; 0; 0; 0; 0; 0; 0; 0; 0];
  [1.01375; 1.01465; 1.0156; 1.0166; 1.01764; 1.01873; 1.01987; 1.02105; 1.02228; 1.02356; 1.02487; 1.02624;
   1.02764; 1.02908; 1.03056; 1.03207; 1.03361; 1.03517; 1.03676; 1.03836; 1.03998; 1.0416; 1.04322; 1.04484;
   1.04644; 1.04802; 1.04957; 1.05109; 1.05256; 1.05398; 1.05533; 1.05661; 1.05781; 1.05892; 1.05992;
   1.06082; 1.06159; 1.06222; 1.06271; 1.06304; 1.06321; 1.0632; 1.06299; 1.06259; 1.06196; 1.06112; 1.06003;
   1.05869; 1.05709; 1.05521; 1.05304; 1.05057; 1.04778; 1.04467; 1.04122; 1.03741; 1.03325; 1.02871;
   1.02379; 1.01847; 1.01276; 1.00665; 1.00012; 0.993196; 0.985863; 0.97813; 0.970007; 0.961505; 0.952642;
   0.943437; 0.933915; 0.924105; 0.91404; 0.903758; 0.8933; 0.882709; 0.872033; 0.86132; 0.850622; 0.839991;
   0.829476; 0.819128; 0.808995; 0.799123; 0.789552; 0.780321; 0.771463; 0.763003; 0.754964; 0.747363;
   0.740208; 0.733506; 0.727255; 0.72145; 0.716081; 0.711135; 0.706593; 0.702437; 0.698643; 0.695188;
   0.692047; 0.689193; 0.6866; 0.684241; 0.682089; 0.680118; 0.678302; 0.676613; 0.675027; 0.673517;
   0.672057; 0.670621; 0.669182; 0.667711; 0.66618; 0.664556; 0.662807; 0.660894; 0.65878; 0.656419;
   0.653763; 0.650758; 0.647343; 0.643452; 0.639009; 0.633933; 0.628132; 0.621508; 0.613951; 0.605347;
   0.595574; 0.584505; 0.572013; 0.557974; 0.542274; 0.524813; 0.505521; 0.484366; 0.461363; 0.436594;
   0.410217; 0.382478; 0.353716; 0.324355; 0.294899; 0.265896; 0.237897; 0.211409; 0.186833; 0.164421;
   0.144256; 0.126265; 0.110273; 0.0960714; 0.0834783; 0.0723555; 0.0625931; 0.0540771; 0.0466642; 0.0402155;
   0.0346236; 0.0297876; 0.0256142; 0.0220158; 0.0189203; 0.0162598; 0.0139801; 0.0099302; 0.00961327;
   0.00942061; 0.00953504; 0.00994893; 0.0117899; 0; 0; 0; 0; 0; 0; 0; 0; 0; 0; 0; 0; 0; 0; 0; 0; 0; 0; 0; 0;
   0; 0; 0; 0; 0; 0; 0];
  [1.01393; 1.01486; 1.01584; 1.01686; 1.01793; 1.01906; 1.02023; 1.02145; 1.02273; 1.02405; 1.02542;
   1.02684; 1.0283; 1.02981; 1.03136; 1.03295; 1.03457; 1.03622; 1.03791; 1.03961; 1.04133; 1.04306; 1.0448;
   1.04653; 1.04826; 1.04997; 1.05166; 1.05332; 1.05493; 1.0565; 1.05801; 1.05945; 1.06081; 1.06208; 1.06325;
   1.06431; 1.06524; 1.06605; 1.06671; 1.06721; 1.06754; 1.0677; 1.06766; 1.06741; 1.06695; 1.06625; 1.06532;
   1.06413; 1.06267; 1.06093; 1.0589; 1.05655; 1.05389; 1.0509; 1.04756; 1.04387; 1.03981; 1.03537; 1.03054;
   1.02532; 1.01969; 1.01366; 1.00721; 1.00036; 0.993095; 0.985427; 0.977365; 0.968921; 0.960112; 0.950958;
   0.941484; 0.931719; 0.921696; 0.911454; 0.901031; 0.890474; 0.879829; 0.869145; 0.858474; 0.847866;
   0.837374; 0.827046; 0.816931; 0.807075; 0.797519; 0.788301; 0.779454; 0.771004; 0.762974; 0.755379;
   0.74823; 0.741532; 0.735284; 0.729481; 0.724112; 0.719165; 0.714621; 0.710461; 0.706662; 0.7032; 0.700051;
   0.697186; 0.694581; 0.692206; 0.690037; 0.688045; 0.686204; 0.684487; 0.682868; 0.68132; 0.679816;
   0.678329; 0.676831; 0.675292; 0.673683; 0.671969; 0.670116; 0.668085; 0.665835; 0.663318; 0.660483;
   0.657274; 0.653627; 0.649471; 0.644728; 0.639312; 0.633128; 0.626074; 0.618037; 0.608899; 0.598535;
   0.586819; 0.573623; 0.558825; 0.542317; 0.524009; 0.503842; 0.481802; 0.457926; 0.432324; 0.405184;
   0.376786; 0.347501; 0.317785; 0.28816; 0.259184; 0.2314; 0.205284; 0.181195; 0.159328; 0.139712; 0.122235;
   0.106701; 0.0929053; 0.080679; 0.0698968; 0.0604513; 0.0522172; 0.0450511; 0.0388174; 0.0334182;
   0.0287499; 0.0247245; 0.0212503; 0.018269; 0.0156988; 0.0135033; 0.00848356; 0.00864413; 0.00888411;
   0.00897648; 0.00884357; 0.00892969; 0; 0; 0; 0; 0; 0; 0; 0; 0; 0; 0; 0; 0; 0; 0; 0; 0; 0; 0; 0; 0; 0; 0;
   0; 0; 0; 0];
  [1.0141; 1.01505; 1.01605; 1.0171; 1.01821; 1.01936; 1.02057; 1.02183; 1.02315; 1.02452; 1.02594; 1.02742;
   1.02894; 1.03051; 1.03213; 1.0338; 1.0355; 1.03724; 1.03901; 1.04081; 1.04263; 1.04447; 1.04633; 1.04818;
   1.05004; 1.05188; 1.05371; 1.05551; 1.05727; 1.05899; 1.06065; 1.06225; 1.06377; 1.06521; 1.06655;
   1.06778; 1.0689; 1.06987; 1.07071; 1.07139; 1.07189; 1.07222; 1.07235; 1.07228; 1.07198; 1.07145; 1.07068;
   1.06964; 1.06834; 1.06675; 1.06486; 1.06265; 1.06013; 1.05726; 1.05405; 1.05047; 1.04652; 1.04219;
   1.03746; 1.03233; 1.0268; 1.02085; 1.01449; 1.00771; 1.00052; 0.99292; 0.984922; 0.976539; 0.967786;
   0.958686; 0.949261; 0.939543; 0.929563; 0.91936; 0.908975; 0.898452; 0.887839; 0.877184; 0.866539;
   0.855956; 0.845485; 0.835177; 0.82508; 0.81524; 0.805699; 0.796493; 0.787656; 0.779216; 0.771194;
   0.763606; 0.756462; 0.749768; 0.743523; 0.737721; 0.732354; 0.727405; 0.72286; 0.718696; 0.714893;
   0.711425; 0.708268; 0.705394; 0.702778; 0.70039; 0.698205; 0.696195; 0.694333; 0.692591; 0.690943;
   0.689362; 0.687819; 0.686288; 0.684739; 0.683142; 0.681464; 0.679673; 0.677731; 0.675598; 0.673231;
   0.67058; 0.667593; 0.66421; 0.660364; 0.655984; 0.650987; 0.645284; 0.638778; 0.631363; 0.622923; 0.61334;
   0.602485; 0.590232; 0.576455; 0.561033; 0.543863; 0.524862; 0.503984; 0.481227; 0.456646; 0.430373;
   0.402619; 0.373689; 0.343978; 0.313964; 0.284181; 0.25519; 0.227523; 0.201634; 0.177845; 0.156314;
   0.137032; 0.119862; 0.104598; 0.0910422; 0.0790352; 0.0684573; 0.0591999; 0.0511337; 0.0441107; 0.0380066;
   0.0327202; 0.0281507; 0.0242116; 0.0208117; 0.0178965; 0.0153814; 0.0132326; 0.00711063; 0.00753293;
   0.00801057; 0.00846018; 0.00895213; 0.00952129; 0; 0; 0; 0; 0; 0; 0; 0; 0; 0; 0; 0; 0; 0; 0; 0; 0; 0; 0;
   0; 0; 0; 0; 0; 0; 0; 0];
  [1.01426; 1.01523; 1.01625; 1.01733; 1.01846; 1.01965; 1.02089; 1.02219; 1.02355; 1.02497; 1.02644;
   1.02797; 1.02955; 1.03118; 1.03287; 1.03461; 1.03639; 1.03821; 1.04008; 1.04197; 1.0439; 1.04585; 1.04781;
   1.04979; 1.05177; 1.05375; 1.05571; 1.05765; 1.05957; 1.06144; 1.06326; 1.06502; 1.06671; 1.06832;
   1.06984; 1.07125; 1.07253; 1.07369; 1.07471; 1.07557; 1.07626; 1.07677; 1.07708; 1.07718; 1.07706;
   1.07671; 1.0761; 1.07523; 1.07409; 1.07265; 1.07091; 1.06886; 1.06647; 1.06374; 1.06066; 1.05721; 1.05338;
   1.04916; 1.04454; 1.03951; 1.03408; 1.02822; 1.02195; 1.01525; 1.00813; 1.00061; 0.992678; 0.984359;
   0.975666; 0.96662; 0.957248; 0.947577; 0.937642; 0.927481; 0.917133; 0.906645; 0.896064; 0.885438;
   0.87482; 0.864261; 0.853812; 0.843524; 0.833444; 0.82362; 0.814092; 0.804898; 0.796072; 0.787641;
   0.779626; 0.772044; 0.764905; 0.758215; 0.751972; 0.746172; 0.740805; 0.735855; 0.731308; 0.727141;
   0.723333; 0.71986; 0.716695; 0.713812; 0.711184; 0.708784; 0.706584; 0.704556; 0.702673; 0.700908;
   0.699232; 0.697619; 0.69604; 0.694466; 0.692868; 0.691215; 0.689474; 0.687609; 0.685582; 0.683353;
   0.680875; 0.678098; 0.674967; 0.671421; 0.66739; 0.662799; 0.657564; 0.651594; 0.644788; 0.637037;
   0.628225; 0.618229; 0.606922; 0.594175; 0.579864; 0.563872; 0.546099; 0.52647; 0.504948; 0.481543;
   0.456328; 0.429452; 0.401148; 0.371741; 0.341647; 0.311359; 0.281421; 0.252394; 0.2248; 0.199071; 0.1755;
   0.15421; 0.135166; 0.11821; 0.103136; 0.0897468; 0.0778934; 0.0674607; 0.0583356; 0.0503862; 0.0434637;
   0.0374488; 0.0322424; 0.0277411; 0.023861; 0.0205141; 0.017642; 0.0151668; 0.0130489; 0.00588338;
   0.00629261; 0.00711241; 0.00776631; 0.00915476; 0.00642227; 0; 0; 0; 0; 0; 0; 0; 0; 0; 0; 0; 0; 0; 0; 0;
   0; 0; 0; 0; 0; 0; 0; 0; 0; 0; 0; 0];
  [1.01441; 1.0154; 1.01644; 1.01754; 1.0187; 1.01992; 1.0212; 1.02253; 1.02393; 1.02539; 1.02691; 1.02849;
   1.03013; 1.03183; 1.03358; 1.03539; 1.03725; 1.03915; 1.04111; 1.0431; 1.04512; 1.04718; 1.04926; 1.05136;
   1.05346; 1.05557; 1.05767; 1.05976; 1.06182; 1.06385; 1.06583; 1.06776; 1.06962; 1.0714; 1.0731; 1.07469;
   1.07616; 1.0775; 1.07871; 1.07975; 1.08063; 1.08133; 1.08183; 1.08212; 1.08218; 1.08201; 1.08158; 1.08088;
   1.07991; 1.07864; 1.07706; 1.07516; 1.07293; 1.07034; 1.0674; 1.06408; 1.06037; 1.05628; 1.05177; 1.04686;
   1.04152; 1.03577; 1.02958; 1.02297; 1.01594; 1.00849; 1.00063; 0.992379; 0.983748; 0.974761; 0.965442;
   0.955821; 0.945933; 0.935813; 0.925505; 0.915052; 0.904503; 0.893907; 0.883316; 0.872781; 0.862353;
   0.852084; 0.842021; 0.832212; 0.822697; 0.813514; 0.804698; 0.796274; 0.788265; 0.780688; 0.773553;
   0.766865; 0.760624; 0.754823; 0.749454; 0.744502; 0.73995; 0.735777; 0.731962; 0.72848; 0.725304;
   0.722409; 0.719766; 0.717348; 0.715127; 0.713075; 0.711165; 0.709367; 0.707655; 0.705999; 0.704371;
   0.702741; 0.701078; 0.699351; 0.697524; 0.695561; 0.693422; 0.691064; 0.688439; 0.685495; 0.682173;
   0.678408; 0.674131; 0.66926; 0.66371; 0.657384; 0.65018; 0.641985; 0.632679; 0.622139; 0.610235; 0.59684;
   0.581829; 0.565093; 0.546537; 0.526097; 0.503751; 0.479529; 0.453525; 0.425916; 0.396963; 0.367021;
   0.336532; 0.306009; 0.276008; 0.247084; 0.21974; 0.194373; 0.171229; 0.150386; 0.131768; 0.115196;
   0.100461; 0.0873769; 0.0758058; 0.0656349; 0.0567489; 0.0490097; 0.0422704; 0.0364183; 0.0313535;
   0.0269788; 0.0232071; 0.0199532; 0.0171615; 0.014763; 0.0127006; 0.00473791; 0.00503945; 0.00591711;
   0.00676096; 0.00694935; 0; 0; 0; 0; 0; 0; 0; 0; 0; 0; 0; 0; 0; 0; 0; 0; 0; 0; 0; 0; 0; 0; 0; 0; 0; 0; 0; 0];
  [1.01455; 1.01556; 1.01662; 1.01774; 1.01893; 1.02017; 1.02148; 1.02285; 1.02429; 1.02579; 1.02736;
   1.02899; 1.03068; 1.03244; 1.03426; 1.03613; 1.03807; 1.04006; 1.0421; 1.04418; 1.04631; 1.04847; 1.05066;
   1.05288; 1.05511; 1.05735; 1.05959; 1.06182; 1.06404; 1.06622; 1.06837; 1.07046; 1.0725; 1.07446; 1.07633;
   1.0781; 1.07977; 1.0813; 1.0827; 1.08394; 1.08501; 1.0859; 1.0866; 1.08708; 1.08734; 1.08735; 1.08711;
   1.0866; 1.0858; 1.08471; 1.0833; 1.08156; 1.07949; 1.07706; 1.07426; 1.07108; 1.06751; 1.06354; 1.05916;
   1.05437; 1.04914; 1.04349; 1.0374; 1.03088; 1.02394; 1.01657; 1.00879; 1.00061; 0.992041; 0.983115;
   0.973853; 0.964284; 0.954443; 0.944368; 0.9341; 0.923685; 0.913169; 0.902604; 0.892039; 0.881529;
   0.871123; 0.860873; 0.850828; 0.841033; 0.831532; 0.822361; 0.813553; 0.805138; 0.797136; 0.789564;
   0.782434; 0.775748; 0.769509; 0.763709; 0.758339; 0.753386; 0.748832; 0.744656; 0.740836; 0.737348;
   0.734165; 0.731261; 0.728608; 0.726178; 0.723943; 0.721875; 0.719946; 0.718127; 0.71639; 0.714705;
   0.713044; 0.711377; 0.709671; 0.707894; 0.70601; 0.703982; 0.70177; 0.699327; 0.696606; 0.693552;
   0.690106; 0.686201; 0.681763; 0.676713; 0.670961; 0.66441; 0.656953; 0.648476; 0.638861; 0.627979;
   0.615702; 0.601903; 0.586458; 0.569259; 0.550217; 0.529274; 0.506414; 0.481676; 0.455168; 0.427079;
   0.397683; 0.367351; 0.336535; 0.305759; 0.27558; 0.246554; 0.219174; 0.193821; 0.170724; 0.14994;
   0.131379; 0.114857; 0.100161; 0.087113; 0.0755754; 0.0654377; 0.0565834; 0.0488687; 0.0421501; 0.0363183;
   0.0312708; 0.026911; 0.0231513; 0.0199104; 0.017126; 0.0147353; 0.012679; 0.00360809; 0.00397218;
   0.00489167; 0.00543052; 0.00739262; 0; 0; 0; 0; 0; 0; 0; 0; 0; 0; 0; 0; 0; 0; 0; 0; 0; 0; 0; 0; 0; 0; 0;
   0; 0; 0; 0; 0];
  [1.01467; 1.0157; 1.01679; 1.01793; 1.01914; 1.02041; 1.02175; 1.02316; 1.02463; 1.02617; 1.02778; 1.02946;
   1.03121; 1.03302; 1.0349; 1.03685; 1.03886; 1.04093; 1.04305; 1.04523; 1.04746; 1.04972; 1.05203; 1.05436;
   1.05672; 1.05909; 1.06147; 1.06384; 1.06621; 1.06855; 1.07086; 1.07313; 1.07534; 1.07747; 1.07953; 1.0815;
   1.08335; 1.08508; 1.08667; 1.08812; 1.08939; 1.09048; 1.09138; 1.09206; 1.09252; 1.09273; 1.09269;
   1.09237; 1.09176; 1.09085; 1.08962; 1.08806; 1.08615; 1.08388; 1.08124; 1.07821; 1.07479; 1.07096;
   1.06671; 1.06203; 1.05692; 1.05138; 1.0454; 1.03898; 1.03213; 1.02484; 1.01714; 1.00903; 1.00054;
   0.991676; 0.982473; 0.972959; 0.963169; 0.953139; 0.942913; 0.932535; 0.922054; 0.911519; 0.900982;
   0.890496; 0.880112; 0.869881; 0.859853; 0.850072; 0.840583; 0.831422; 0.822623; 0.814214; 0.806218;
   0.79865; 0.791521; 0.784837; 0.778597; 0.772796; 0.767423; 0.762466; 0.757906; 0.753723; 0.749894;
   0.746395; 0.7432; 0.740282; 0.737612; 0.735162; 0.732905; 0.730811; 0.728851; 0.726997; 0.72522; 0.72349;
   0.721776; 0.720048; 0.718273; 0.716416; 0.714441; 0.712309; 0.709977; 0.707398; 0.704521; 0.70129;
   0.697642; 0.693509; 0.688813; 0.68347; 0.677389; 0.670468; 0.662599; 0.653665; 0.643542; 0.632104;
   0.61922; 0.604763; 0.588615; 0.570672; 0.550853; 0.529111; 0.505448; 0.479921; 0.452662; 0.423884;
   0.393891; 0.36308; 0.331925; 0.300967; 0.270767; 0.241871; 0.214747; 0.189741; 0.167036; 0.146648;
   0.128456; 0.112261; 0.0978561; 0.0850721; 0.073781; 0.063872; 0.0552237; 0.0476878; 0.0411271; 0.0354356;
   0.0305107; 0.0262587; 0.0225904; 0.0194335; 0.0167169; 0.0143917; 0.00230767; 0.00264901; 0.00312926;
   0.00357262; 0.00400119; 0.00597965; 0; 0; 0; 0; 0; 0; 0; 0; 0; 0; 0; 0; 0; 0; 0; 0; 0; 0; 0; 0; 0; 0; 0;
   0; 0; 0; 0; 0];
  [1.01479; 1.01584; 1.01694; 1.01811; 1.01934; 1.02064; 1.022; 1.02344; 1.02495; 1.02653; 1.02818; 1.02991;
   1.03171; 1.03358; 1.03552; 1.03754; 1.03962; 1.04176; 1.04397; 1.04624; 1.04856; 1.05093; 1.05335; 1.0558;
   1.05828; 1.06078; 1.0633; 1.06582; 1.06834; 1.07084; 1.07331; 1.07575; 1.07814; 1.08046; 1.0827; 1.08486;
   1.08691; 1.08884; 1.09064; 1.09228; 1.09377; 1.09507; 1.09617; 1.09707; 1.09773; 1.09815; 1.09831;
   1.09819; 1.09778; 1.09706; 1.09602; 1.09464; 1.09291; 1.09081; 1.08834; 1.08547; 1.0822; 1.07851; 1.0744;
   1.06986; 1.06487; 1.05945; 1.05358; 1.04726; 1.04051; 1.03331; 1.0257; 1.01767; 1.00925; 1.00045;
   0.991313; 0.981856; 0.972118; 0.962136; 0.951954; 0.941615; 0.93117; 0.920667; 0.910159; 0.899697;
   0.889336; 0.879125; 0.869113; 0.859347; 0.84987; 0.84072; 0.83193; 0.823528; 0.815537; 0.807973; 0.800847;
   0.794165; 0.787925; 0.782122; 0.776748; 0.771787; 0.767223; 0.763034; 0.759199; 0.755692; 0.752487;
   0.749556; 0.746873; 0.744408; 0.742132; 0.740017; 0.738034; 0.736153; 0.734344; 0.732577; 0.730822;
   0.729046; 0.727217; 0.725298; 0.723252; 0.721039; 0.718614; 0.71593; 0.712933; 0.709566; 0.705764;
   0.701456; 0.696563; 0.690998; 0.684668; 0.67747; 0.669291; 0.660013; 0.649512; 0.63766; 0.624325;
   0.609383; 0.592715; 0.574224; 0.553832; 0.531503; 0.507247; 0.481134; 0.453313; 0.424011; 0.393551;
   0.362345; 0.33088; 0.299707; 0.269388; 0.240461; 0.213382; 0.188473; 0.165891; 0.145633; 0.12756;
   0.111468; 0.0971523; 0.0844491; 0.0732348; 0.0633999; 0.0548169; 0.0473372; 0.0408251; 0.035178;
   0.0302913; 0.0260721; 0.0224336; 0.0193014; 0.016606; 0.0142995; 0.00114966; 0.00160822; 0.00213796;
   0.00270808; 0.00342288; 0.00139964; 0; 0; 0; 0; 0; 0; 0; 0; 0; 0; 0; 0; 0; 0; 0; 0; 0; 0; 0; 0; 0; 0; 0;
   0; 0; 0; 0; 0];
  [1.01491; 1.01596; 1.01709; 1.01827; 1.01953; 1.02085; 1.02224; 1.02371; 1.02525; 1.02687; 1.02856;
   1.03034; 1.03219; 1.03411; 1.03611; 1.03819; 1.04034; 1.04257; 1.04486; 1.04721; 1.04963; 1.0521; 1.05463;
   1.0572; 1.0598; 1.06243; 1.06509; 1.06776; 1.07042; 1.07308; 1.07572; 1.07833; 1.0809; 1.0834; 1.08584;
   1.08819; 1.09044; 1.09258; 1.09458; 1.09644; 1.09814; 1.09965; 1.10097; 1.10208; 1.10296; 1.10359;
   1.10396; 1.10405; 1.10385; 1.10333; 1.10249; 1.10131; 1.09976; 1.09785; 1.09555; 1.09285; 1.08974; 1.0862;
   1.08224; 1.07783; 1.07298; 1.06768; 1.06193; 1.05573; 1.04907; 1.04198; 1.03445; 1.02651; 1.01817;
   1.00944; 1.00037; 0.990973; 0.98129; 0.971358; 0.961221; 0.950924; 0.940515; 0.930045; 0.919566; 0.909131;
   0.898792; 0.888601; 0.878606; 0.868855; 0.85939; 0.85025; 0.841468; 0.833073; 0.825087; 0.817526;
   0.810402; 0.80372; 0.79748; 0.791676; 0.786298; 0.781333; 0.776763; 0.772568; 0.768724; 0.765207;
   0.761991; 0.759047; 0.756348; 0.753865; 0.751569; 0.749431; 0.74742; 0.745508; 0.743663; 0.741856;
   0.740054; 0.738225; 0.736334; 0.734345; 0.73222; 0.729915; 0.727387; 0.724584; 0.721454; 0.717934;
   0.713959; 0.709455; 0.704342; 0.69853; 0.691922; 0.684413; 0.67589; 0.666231; 0.65531; 0.642998; 0.629165;
   0.613686; 0.596448; 0.577355; 0.556338; 0.53337; 0.508472; 0.481732; 0.453312; 0.423461; 0.392519;
   0.360915; 0.329154; 0.297789; 0.267388; 0.238477; 0.211493; 0.186732; 0.164325; 0.144241; 0.126327;
   0.110374; 0.0961805; 0.0835895; 0.0724824; 0.0627469; 0.054252; 0.0468487; 0.0404034; 0.0348165;
   0.0299822; 0.0258102; 0.0222079; 0.0191132; 0.0164454; 0.0141632; 0; 0.000607275; 0.00125623; 0.00183999;
   0.00274916; 0.00505902; 0; 0; 0; 0; 0; 0; 0; 0; 0; 0; 0; 0; 0; 0; 0; 0; 0; 0; 0; 0; 0; 0; 0; 0; 0; 0; 0; 0];
  [1.01501; 1.01608; 1.01722; 1.01843; 1.0197; 1.02105; 1.02247; 1.02397; 1.02554; 1.02719; 1.02893; 1.03074;
   1.03264; 1.03462; 1.03668; 1.03882; 1.04104; 1.04334; 1.04571; 1.04815; 1.05066; 1.05324; 1.05587;
   1.05855; 1.06128; 1.06404; 1.06683; 1.06964; 1.07247; 1.07528; 1.07809; 1.08087; 1.08362; 1.08631;
   1.08894; 1.09149; 1.09394; 1.09629; 1.09851; 1.10058; 1.10249; 1.10423; 1.10577; 1.1071; 1.10821; 1.10906;
   1.10965; 1.10996; 1.10997; 1.10967; 1.10903; 1.10805; 1.1067; 1.10498; 1.10286; 1.10034; 1.0974; 1.09403;
   1.09022; 1.08597; 1.08126; 1.07609; 1.07046; 1.06438; 1.05783; 1.05084; 1.04341; 1.03556; 1.0273; 1.01865;
   1.00965; 1.00031; 0.990688; 0.98081; 0.970721; 0.960467; 0.950097; 0.939661; 0.929213; 0.918804; 0.908489;
   0.898318; 0.888341; 0.878604; 0.869152; 0.860022; 0.851249; 0.84286; 0.834878; 0.827321; 0.820199;
   0.813518; 0.807276; 0.801471; 0.79609; 0.791121; 0.786545; 0.782344; 0.778492; 0.774966; 0.771738;
   0.768782; 0.766069; 0.763569; 0.761253; 0.759093; 0.757057; 0.755115; 0.753237; 0.751392; 0.749547;
   0.747668; 0.74572; 0.743667; 0.741468; 0.73908; 0.736456; 0.733545; 0.730291; 0.726632; 0.722499;
   0.717818; 0.712505; 0.706468; 0.699609; 0.691821; 0.682987; 0.672985; 0.661688; 0.648965; 0.634688;
   0.618732; 0.600986; 0.581359; 0.559788; 0.536254; 0.510789; 0.48349; 0.454537; 0.42419; 0.392807;
   0.360831; 0.328775; 0.2972; 0.266672; 0.237711; 0.210738; 0.186029; 0.163695; 0.143686; 0.125839;
   0.109941; 0.095795; 0.0832493; 0.0721864; 0.0624934; 0.0540346; 0.0466627; 0.0402444; 0.0346826; 0.02987;
   0.0257162; 0.0221296; 0.0190493; 0.0163929; 0.0141214; 0; 0; 0.00045336; 0.00128847; 0.00172236;
   0.00391223; 0; 0; 0; 0; 0; 0; 0; 0; 0; 0; 0; 0; 0; 0; 0; 0; 0; 0; 0; 0; 0; 0; 0; 0; 0; 0; 0; 0];
  [1.0151; 1.01619; 1.01735; 1.01857; 1.01987; 1.02123; 1.02268; 1.0242; 1.02581; 1.0275; 1.02927; 1.03113;
   1.03307; 1.0351; 1.03722; 1.03942; 1.04171; 1.04408; 1.04653; 1.04906; 1.05166; 1.05433; 1.05707; 1.05986;
   1.06271; 1.0656; 1.06853; 1.07149; 1.07446; 1.07744; 1.08041; 1.08337; 1.0863; 1.08918; 1.092; 1.09475;
   1.09741; 1.09997; 1.1024; 1.1047; 1.10684; 1.1088; 1.11057; 1.11213; 1.11346; 1.11455; 1.11537; 1.11591;
   1.11614; 1.11606; 1.11564; 1.11487; 1.11373; 1.1122; 1.11028; 1.10795; 1.10519; 1.10199; 1.09835; 1.09425;
   1.08969; 1.08466; 1.07917; 1.07321; 1.06678; 1.0599; 1.05257; 1.04481; 1.03664; 1.02807; 1.01914; 1.00988;
   1.00031; 0.99049; 0.980452; 0.970243; 0.959913; 0.949513; 0.939096; 0.928716; 0.918424; 0.908274;
   0.898314; 0.888593; 0.879153; 0.870033; 0.861267; 0.852884; 0.844907; 0.837352; 0.830231; 0.82355;
   0.817307; 0.811498; 0.806113; 0.801138; 0.796556; 0.792345; 0.788484; 0.784946; 0.781705; 0.778733;
   0.776002; 0.773481; 0.771142; 0.768954; 0.766888; 0.764911; 0.762993; 0.761101; 0.759203; 0.757264;
   0.755248; 0.753117; 0.750828; 0.748338; 0.745599; 0.742556; 0.739153; 0.735325; 0.731002; 0.726105;
   0.720549; 0.714241; 0.707078; 0.698951; 0.689741; 0.679325; 0.667574; 0.654358; 0.639546; 0.623018;
   0.604665; 0.584403; 0.562176; 0.537976; 0.511849; 0.483907; 0.454348; 0.423453; 0.391597; 0.35924;
   0.32691; 0.295173; 0.264591; 0.235672; 0.208815; 0.18427; 0.162118; 0.142285; 0.124596; 0.108835;
   0.0948118; 0.0823807; 0.0714268; 0.061834; 0.0534642; 0.0461673; 0.0398192; 0.0343174; 0.0295567;
   0.0254492; 0.0219023; 0.0188571; 0.016232; 0.0139866; 0; 0; 0; 0.000418427; 0.00232396; 0; 0; 0; 0; 0; 0;
   0; 0; 0; 0; 0; 0; 0; 0; 0; 0; 0; 0; 0; 0; 0; 0; 0; 0; 0; 0; 0; 0; 0];
  [1.01519; 1.01629; 1.01746; 1.0187; 1.02002; 1.02141; 1.02288; 1.02443; 1.02607; 1.02779; 1.0296; 1.03149;
   1.03348; 1.03556; 1.03773; 1.03999; 1.04235; 1.04479; 1.04731; 1.04993; 1.05262; 1.05539; 1.05823;
   1.06114; 1.06411; 1.06713; 1.07019; 1.07329; 1.07641; 1.07955; 1.08269; 1.08582; 1.08893; 1.092; 1.09503;
   1.09798; 1.10085; 1.10362; 1.10628; 1.10879; 1.11116; 1.11336; 1.11536; 1.11716; 1.11873; 1.12005;
   1.12111; 1.12188; 1.12235; 1.1225; 1.1223; 1.12176; 1.12083; 1.11952; 1.1178; 1.11566; 1.11309; 1.11008;
   1.10661; 1.10268; 1.09828; 1.0934; 1.08805; 1.08222; 1.07592; 1.06915; 1.06193; 1.05427; 1.04619; 1.03771;
   1.02886; 1.01967; 1.01017; 1.0004; 0.990419; 0.980258; 0.969971; 0.959609; 0.949225; 0.938873; 0.928607;
   0.918478; 0.908537; 0.898831; 0.889404; 0.880294; 0.871536; 0.86316; 0.855186; 0.847634; 0.840514;
   0.833832; 0.827587; 0.821775; 0.816386; 0.811405; 0.806816; 0.802597; 0.798725; 0.795176; 0.791922;
   0.788934; 0.786185; 0.783645; 0.781283; 0.779069; 0.776972; 0.774961; 0.773003; 0.771067; 0.769118;
   0.767121; 0.765039; 0.762832; 0.760458; 0.75787; 0.75502; 0.751852; 0.748306; 0.744317; 0.739812; 0.73471;
   0.728924; 0.722359; 0.714909; 0.706462; 0.6969; 0.686096; 0.67392; 0.660241; 0.644931; 0.627871; 0.608955;
   0.588104; 0.565271; 0.540457; 0.513717; 0.485182; 0.455063; 0.423658; 0.391358; 0.358637; 0.326034;
   0.294118; 0.26345; 0.234523; 0.20772; 0.183266; 0.16122; 0.141491; 0.123892; 0.108208; 0.0942536;
   0.0818881; 0.0709977; 0.0614635; 0.053145; 0.0458918; 0.0395829; 0.0341162; 0.0293864; 0.0253053;
   0.0217811; 0.0187568; 0.0161468; 0.0139121; 0; 0; 0; 0; 0.00106367; 0; 0; 0; 0; 0; 0; 0; 0; 0; 0; 0; 0; 0;
   0; 0; 0; 0; 0; 0; 0; 0; 0; 0; 0; 0; 0; 0; 0; 0];
  [1.01527; 1.01639; 1.01757; 1.01883; 1.02016; 1.02157; 1.02307; 1.02464; 1.02631; 1.02806; 1.0299; 1.03184;
   1.03387; 1.036; 1.03822; 1.04054; 1.04296; 1.04547; 1.04807; 1.05076; 1.05354; 1.05641; 1.05935; 1.06237;
   1.06546; 1.0686; 1.0718; 1.07504; 1.07832; 1.08162; 1.08492; 1.08823; 1.09152; 1.09479; 1.09801; 1.10117;
   1.10425; 1.10724; 1.11012; 1.11287; 1.11547; 1.1179; 1.12015; 1.12219; 1.124; 1.12557; 1.12687; 1.12789;
   1.1286; 1.12898; 1.12903; 1.12871; 1.12801; 1.12692; 1.12541; 1.12348; 1.12111; 1.11829; 1.11501; 1.11125;
   1.10702; 1.1023; 1.0971; 1.09141; 1.08524; 1.0786; 1.07149; 1.06394; 1.05596; 1.04757; 1.0388; 1.02968;
   1.02025; 1.01055; 1.00062; 0.990512; 0.980269; 0.969946; 0.959597; 0.949276; 0.939036; 0.928929; 0.919007;
   0.909316; 0.899902; 0.890802; 0.882052; 0.873681; 0.865711; 0.85816; 0.85104; 0.844356; 0.838108;
   0.832292; 0.826896; 0.821908; 0.81731; 0.81308; 0.809196; 0.805632; 0.802361; 0.799354; 0.796583;
   0.794018; 0.791627; 0.78938; 0.787246; 0.785192; 0.783186; 0.781195; 0.779183; 0.777114; 0.774949;
   0.772649; 0.770168; 0.767459; 0.764471; 0.761147; 0.757425; 0.753235; 0.748504; 0.743148; 0.737077;
   0.730192; 0.722387; 0.713545; 0.703545; 0.692261; 0.67956; 0.665312; 0.64939; 0.631678; 0.612075;
   0.590509; 0.566944; 0.541393; 0.513931; 0.484703; 0.453943; 0.421972; 0.389201; 0.356122; 0.323285;
   0.291263; 0.26061; 0.2318; 0.205188; 0.180967; 0.159162; 0.13966; 0.122263; 0.106757; 0.0929638;
   0.0807502; 0.0700032; 0.0605988; 0.0523947; 0.0452407; 0.0390206; 0.0336336; 0.0289718; 0.0249498;
   0.021479; 0.0184979; 0.0159281; 0.0137275; 0; 0; 0; 0; 0.00121785; 0; 0; 0; 0; 0; 0; 0; 0; 0; 0; 0; 0; 0;
   0; 0; 0; 0; 0; 0; 0; 0; 0; 0; 0; 0; 0; 0; 0; 0];
  [1.01535; 1.01647; 1.01767; 1.01894; 1.02029; 1.02173; 1.02324; 1.02484; 1.02653; 1.02831; 1.03019;
   1.03217; 1.03424; 1.03641; 1.03869; 1.04106; 1.04354; 1.04612; 1.04879; 1.05157; 1.05443; 1.05739;
   1.06044; 1.06357; 1.06677; 1.07004; 1.07337; 1.07675; 1.08018; 1.08363; 1.08711; 1.09059; 1.09407;
   1.09753; 1.10094; 1.10431; 1.10761; 1.11082; 1.11393; 1.11691; 1.11975; 1.12242; 1.12492; 1.12721;
   1.12927; 1.13109; 1.13265; 1.13391; 1.13487; 1.13551; 1.1358; 1.13572; 1.13526; 1.1344; 1.13312; 1.13141;
   1.12925; 1.12663; 1.12354; 1.11997; 1.11591; 1.11136; 1.10632; 1.10078; 1.09475; 1.08824; 1.08126;
   1.07382; 1.06594; 1.05765; 1.04896; 1.03993; 1.03057; 1.02094; 1.01107; 1.00101; 0.990816; 0.980536;
   0.970223; 0.959934; 0.949721; 0.939638; 0.929736; 0.920062; 0.91066; 0.901571; 0.892829; 0.884464;
   0.876498; 0.868949; 0.86183; 0.855144; 0.848894; 0.843073; 0.837671; 0.832676; 0.828069; 0.823829;
   0.819933; 0.816355; 0.813068; 0.810043; 0.807252; 0.804663; 0.802245; 0.799968; 0.797799; 0.795705;
   0.793654; 0.791611; 0.78954; 0.787405; 0.785164; 0.782777; 0.780198; 0.777378; 0.774264; 0.770797;
   0.766913; 0.762541; 0.757605; 0.752018; 0.745689; 0.738515; 0.730388; 0.721191; 0.7108; 0.699085;
   0.685916; 0.671162; 0.654696; 0.636405; 0.616194; 0.593997; 0.569787; 0.543587; 0.515485; 0.485644;
   0.454315; 0.421833; 0.388629; 0.355206; 0.322124; 0.289958; 0.259253; 0.230469; 0.20394; 0.179833;
   0.158151; 0.138764; 0.121465; 0.106044; 0.0923299; 0.0801919; 0.0695163; 0.0601781; 0.0520309; 0.0449266;
   0.0387507; 0.0334023; 0.0287755; 0.024784; 0.0213389; 0.0183806; 0.0158334; 0.013644; 0; 0; 0; 0;
   9.89859e-5; 0; 0; 0; 0; 0; 0; 0; 0; 0; 0; 0; 0; 0; 0; 0; 0; 0; 0; 0; 0; 0; 0; 0; 0; 0; 0; 0; 0; 0];
  [1.01542; 1.01655; 1.01777; 1.01905; 1.02042; 1.02187; 1.0234; 1.02503; 1.02674; 1.02856; 1.03047; 1.03248;
   1.03459; 1.03681; 1.03913; 1.04156; 1.0441; 1.04674; 1.04949; 1.05234; 1.05529; 1.05834; 1.06149; 1.06472;
   1.06804; 1.07143; 1.0749; 1.07842; 1.08199; 1.08561; 1.08925; 1.09291; 1.09657; 1.10022; 1.10384; 1.10741;
   1.11093; 1.11436; 1.1177; 1.12092; 1.124; 1.12693; 1.12967; 1.13222; 1.13454; 1.13662; 1.13843; 1.13996;
   1.14118; 1.14207; 1.14262; 1.14279; 1.14258; 1.14196; 1.14091; 1.13943; 1.13749; 1.13508; 1.1322; 1.12882;
   1.12495; 1.12058; 1.1157; 1.11032; 1.10444; 1.09807; 1.09122; 1.0839; 1.07613; 1.06794; 1.05936; 1.0504;
   1.04113; 1.03156; 1.02176; 1.01176; 1.00161; 0.991374; 0.9811; 0.970845; 0.960661; 0.950602; 0.94072;
   0.931063; 0.921676; 0.912597; 0.903863; 0.895503; 0.887541; 0.879993; 0.872873; 0.866185; 0.859931;
   0.854104; 0.848695; 0.843691; 0.839073; 0.834821; 0.83091; 0.827315; 0.824009; 0.820963; 0.818146;
   0.815529; 0.813079; 0.810764; 0.808553; 0.806412; 0.804307; 0.802202; 0.800061; 0.797844; 0.795513;
   0.793022; 0.790325; 0.787371; 0.784104; 0.780465; 0.776387; 0.771796; 0.766612; 0.760748; 0.754109;
   0.746589; 0.738077; 0.728454; 0.717593; 0.705365; 0.691638; 0.67628; 0.659168; 0.640193; 0.619266;
   0.596329; 0.571366; 0.544417; 0.515586; 0.485055; 0.453096; 0.420068; 0.38642; 0.352672; 0.319393;
   0.287156; 0.256494; 0.22785; 0.201523; 0.177648; 0.156199; 0.137026; 0.119916; 0.104663; 0.0911035;
   0.0791115; 0.0685728; 0.059358; 0.0513189; 0.0443094; 0.0382193; 0.0329448; 0.0283844; 0.0244479;
   0.0210516; 0.0181345; 0.015627; 0.01347; 0; 0; 0; 0; 0; 0; 0; 0; 0; 0; 0; 0; 0; 0; 0; 0; 0; 0; 0; 0; 0; 0;
   0; 0; 0; 0; 0; 0; 0; 0; 0; 0; 0; 0];
  [1.01548; 1.01663; 1.01785; 1.01915; 1.02053; 1.022; 1.02356; 1.0252; 1.02694; 1.02878; 1.03073; 1.03277;
   1.03492; 1.03718; 1.03955; 1.04204; 1.04463; 1.04733; 1.05015; 1.05308; 1.05611; 1.05925; 1.0625; 1.06584;
   1.06927; 1.07278; 1.07638; 1.08004; 1.08376; 1.08753; 1.09134; 1.09518; 1.09902; 1.10286; 1.10669;
   1.11047; 1.11421; 1.11787; 1.12144; 1.1249; 1.12823; 1.1314; 1.13441; 1.13721; 1.1398; 1.14214; 1.14423;
   1.14602; 1.14751; 1.14867; 1.14948; 1.14991; 1.14995; 1.14959; 1.14879; 1.14754; 1.14583; 1.14365;
   1.14098; 1.13781; 1.13414; 1.12995; 1.12526; 1.12004; 1.11432; 1.1081; 1.10138; 1.09419; 1.08654; 1.07846;
   1.06997; 1.06112; 1.05192; 1.04243; 1.03269; 1.02275; 1.01266; 1.00247; 0.992239; 0.982019; 0.971866;
   0.961834; 0.951974; 0.942336; 0.932963; 0.923896; 0.915171; 0.906817; 0.898859; 0.891313; 0.884193;
   0.877503; 0.871245; 0.865413; 0.859998; 0.854985; 0.850357; 0.846093; 0.842169; 0.838559; 0.835235;
   0.832169; 0.829329; 0.826685; 0.824206; 0.821858; 0.819609; 0.817424; 0.815269; 0.813108; 0.810902;
   0.808614; 0.806199; 0.803615; 0.800811; 0.797737; 0.794335; 0.790542; 0.78629; 0.781504; 0.776101;
   0.769992; 0.763079; 0.755254; 0.746404; 0.736408; 0.725137; 0.712461; 0.698248; 0.682367; 0.664697;
   0.645131; 0.623586; 0.600011; 0.574401; 0.546804; 0.517341; 0.486209; 0.453696; 0.420177; 0.386117;
   0.352046; 0.318539; 0.286169; 0.25546; 0.226837; 0.200577; 0.176794; 0.155439; 0.136351; 0.119313;
   0.104123; 0.0906229; 0.0786891; 0.0682062; 0.0590427; 0.0510447; 0.0440731; 0.0380179; 0.0327738;
   0.028239; 0.0243238; 0.0209517; 0.0180488; 0.0155574; 0.0134111; 0; 0; 0; 0; 0; 0; 0; 0; 0; 0; 0; 0; 0; 0;
   0; 0; 0; 0; 0; 0; 0; 0; 0; 0; 0; 0; 0; 0; 0; 0; 0; 0; 0; 0];
  [1.01554; 1.01669; 1.01793; 1.01924; 1.02064; 1.02212; 1.0237; 1.02536; 1.02713; 1.029; 1.03097; 1.03305;
   1.03524; 1.03754; 1.03995; 1.04249; 1.04514; 1.0479; 1.05079; 1.05379; 1.05691; 1.06013; 1.06347; 1.06691;
   1.07046; 1.07409; 1.07781; 1.08162; 1.08549; 1.08941; 1.09339; 1.0974; 1.10143; 1.10546; 1.10949; 1.11349;
   1.11744; 1.12133; 1.12514; 1.12884; 1.13242; 1.13585; 1.13912; 1.14219; 1.14505; 1.14767; 1.15002; 1.1521;
   1.15386; 1.1553; 1.15638; 1.15708; 1.15739; 1.15728; 1.15674; 1.15574; 1.15428; 1.15233; 1.14989; 1.14694;
   1.14347; 1.13948; 1.13497; 1.12993; 1.12438; 1.11831; 1.11174; 1.10469; 1.09716; 1.0892; 1.08082; 1.07206;
   1.06295; 1.05354; 1.04387; 1.034; 1.02396; 1.01382; 1.00363; 0.993453; 0.983332; 0.973328; 0.963491;
   0.953871; 0.944513; 0.935458; 0.926742; 0.918394; 0.910439; 0.902894; 0.895773; 0.88908; 0.882817;
   0.876978; 0.871554; 0.866531; 0.861891; 0.857612; 0.853671; 0.850041; 0.846696; 0.843604; 0.840735;
   0.838059; 0.835542; 0.833152; 0.830854; 0.828615; 0.826398; 0.824166; 0.82188; 0.8195; 0.816982; 0.814279;
   0.811342; 0.808117; 0.804543; 0.800556; 0.796086; 0.791054; 0.785376; 0.778958; 0.771699; 0.76349;
   0.754215; 0.743749; 0.731964; 0.718728; 0.703906; 0.687372; 0.669006; 0.648708; 0.626401; 0.602044;
   0.575645; 0.547271; 0.517059; 0.485229; 0.452091; 0.418042; 0.383566; 0.349207; 0.315546; 0.283151;
   0.252531; 0.224083; 0.198055; 0.174522; 0.153411; 0.134543; 0.117699; 0.102682; 0.0893446; 0.0775653;
   0.0672255; 0.0581899; 0.0503034; 0.0434301; 0.0374635; 0.0322961; 0.0278298; 0.0239738; 0.0206532;
   0.0177954; 0.0153436; 0; 0; 0; 0; 0; 0; 0; 0; 0; 0; 0; 0; 0; 0; 0; 0; 0; 0; 0; 0; 0; 0; 0; 0; 0; 0; 0; 0;
   0; 0; 0; 0; 0; 0; 0];
  [1.01559; 1.01676; 1.018; 1.01933; 1.02074; 1.02224; 1.02383; 1.02552; 1.02731; 1.0292; 1.0312; 1.03331;
   1.03553; 1.03787; 1.04033; 1.04292; 1.04562; 1.04845; 1.0514; 1.05447; 1.05766; 1.06098; 1.06441; 1.06795;
   1.07161; 1.07536; 1.07921; 1.08315; 1.08716; 1.09125; 1.09539; 1.09957; 1.10378; 1.10801; 1.11224;
   1.11645; 1.12063; 1.12475; 1.1288; 1.13275; 1.13658; 1.14028; 1.14381; 1.14715; 1.15028; 1.15318; 1.15582;
   1.15818; 1.16023; 1.16195; 1.16331; 1.1643; 1.16488; 1.16505; 1.16477; 1.16404; 1.16282; 1.16112; 1.15891;
   1.15619; 1.15294; 1.14916; 1.14485; 1.14; 1.13462; 1.12872; 1.12231; 1.1154; 1.10801; 1.10016; 1.0919;
   1.08324; 1.07423; 1.0649; 1.05531; 1.0455; 1.03553; 1.02544; 1.0153; 1.00516; 0.995075; 0.9851; 0.975289;
   0.96569; 0.956349; 0.947307; 0.938601; 0.93026; 0.92231; 0.914768; 0.907646; 0.900952; 0.894685; 0.88884;
   0.883409; 0.878377; 0.873726; 0.869435; 0.865479; 0.861833; 0.858468; 0.855354; 0.852461; 0.849757;
   0.847208; 0.844782; 0.842443; 0.840157; 0.837887; 0.835595; 0.833242; 0.830785; 0.82818; 0.825379;
   0.82233; 0.818978; 0.815262; 0.811116; 0.806465; 0.801231; 0.795326; 0.788655; 0.781115; 0.772594;
   0.762975; 0.75213; 0.73993; 0.726242; 0.710934; 0.693878; 0.674957; 0.654074; 0.631159; 0.606178;
   0.579149; 0.550149; 0.519328; 0.486922; 0.453255; 0.418739; 0.38387; 0.3492; 0.315316; 0.282779; 0.252091;
   0.223632; 0.197629; 0.174139; 0.153072; 0.134241; 0.117426; 0.102436; 0.0891246; 0.0773721; 0.0670605;
   0.0580488; 0.0501825; 0.043327; 0.0373772; 0.0322242; 0.0277702; 0.0239257; 0.020614; 0.0177629;
   0.0153195; 0; 0; 0; 0; 0; 0; 0; 0; 0; 0; 0; 0; 0; 0; 0; 0; 0; 0; 0; 0; 0; 0; 0; 0; 0; 0; 0; 0; 0; 0; 0; 0;
   0; 0; 0];
  [1.01563; 1.01681; 1.01807; 1.0194; 1.02083; 1.02234; 1.02395; 1.02566; 1.02747; 1.02938; 1.03141; 1.03355;
   1.03581; 1.03819; 1.04069; 1.04332; 1.04608; 1.04896; 1.05198; 1.05512; 1.05839; 1.06179; 1.06531;
   1.06896; 1.07272; 1.07659; 1.08056; 1.08464; 1.08879; 1.09303; 1.09734; 1.10169; 1.10609; 1.11052;
   1.11495; 1.11937; 1.12377; 1.12813; 1.13241; 1.13661; 1.14071; 1.14466; 1.14847; 1.15209; 1.1555; 1.15869;
   1.16162; 1.16427; 1.16661; 1.16862; 1.17027; 1.17155; 1.17242; 1.17287; 1.17287; 1.17241; 1.17146;
   1.17001; 1.16805; 1.16557; 1.16255; 1.15899; 1.15488; 1.15023; 1.14504; 1.13931; 1.13306; 1.1263; 1.11906;
   1.11135; 1.1032; 1.09465; 1.08574; 1.0765; 1.06699; 1.05726; 1.04735; 1.03732; 1.02723; 1.01713; 1.00708;
   0.997137; 0.987352; 0.977774; 0.96845; 0.959422; 0.950725; 0.942391; 0.934444; 0.926902; 0.919779;
   0.913081; 0.906807; 0.900955; 0.895513; 0.890467; 0.885801; 0.881492; 0.877516; 0.873846; 0.870454;
   0.86731; 0.864382; 0.861637; 0.859044; 0.856566; 0.85417; 0.851818; 0.849473; 0.847095; 0.844645;
   0.842078; 0.839348; 0.836406; 0.833197; 0.829664; 0.825744; 0.821366; 0.816456; 0.81093; 0.804698;
   0.797662; 0.789715; 0.780743; 0.770625; 0.759232; 0.746434; 0.732095; 0.716085; 0.698279; 0.678564;
   0.65685; 0.633077; 0.607224; 0.579324; 0.549476; 0.517851; 0.484711; 0.450404; 0.415368; 0.380116;
   0.345216; 0.311252; 0.27878; 0.248276; 0.220089; 0.194404; 0.171243; 0.150485; 0.131931; 0.115362;
   0.100596; 0.0874938; 0.0759403; 0.065811; 0.0569605; 0.0492359; 0.0425053; 0.0366689; 0.0316139;
   0.0272472; 0.0234749; 0.0202319; 0.0174346; 0.0150396; 0; 0; 0; 0; 0; 0; 0; 0; 0; 0; 0; 0; 0; 0; 0; 0; 0;
   0; 0; 0; 0; 0; 0; 0; 0; 0; 0; 0; 0; 0; 0; 0; 0; 0; 0];
  [1.01567; 1.01686; 1.01813; 1.01947; 1.02091; 1.02244; 1.02406; 1.02579; 1.02762; 1.02956; 1.03161;
   1.03378; 1.03608; 1.03849; 1.04104; 1.04371; 1.04652; 1.04946; 1.05253; 1.05574; 1.05909; 1.06257;
   1.06618; 1.06992; 1.07379; 1.07778; 1.08187; 1.08608; 1.09038; 1.09477; 1.09924; 1.10377; 1.10835;
   1.11297; 1.11761; 1.12224; 1.12687; 1.13146; 1.13599; 1.14044; 1.14479; 1.14902; 1.1531; 1.157; 1.1607;
   1.16418; 1.1674; 1.17035; 1.17299; 1.17531; 1.17726; 1.17884; 1.18001; 1.18075; 1.18104; 1.18085; 1.18018;
   1.17901; 1.17731; 1.17507; 1.17229; 1.16896; 1.16508; 1.16063; 1.15564; 1.1501; 1.14402; 1.13742; 1.13033;
   1.12275; 1.11473; 1.1063; 1.0975; 1.08836; 1.07894; 1.06928; 1.05944; 1.04947; 1.03943; 1.02938; 1.01937;
   1.00946; 0.999706; 0.990152; 0.980847; 0.971834; 0.963148; 0.954822; 0.94688; 0.939341; 0.932217;
   0.925516; 0.919238; 0.913378; 0.907927; 0.902871; 0.898191; 0.893866; 0.889872; 0.886182; 0.882766;
   0.879595; 0.876636; 0.873857; 0.871224; 0.868702; 0.866255; 0.863845; 0.861435; 0.858984; 0.85645;
   0.853789; 0.850952; 0.847888; 0.844542; 0.840855; 0.83676; 0.832187; 0.827057; 0.821285; 0.814778;
   0.807435; 0.799148; 0.789799; 0.779267; 0.76742; 0.754126; 0.739251; 0.722664; 0.704242; 0.683877;
   0.661484; 0.63701; 0.610444; 0.581831; 0.551285; 0.518995; 0.485238; 0.450381; 0.414877; 0.379256;
   0.34409; 0.309965; 0.27743; 0.246945; 0.218833; 0.193258; 0.170215; 0.149568; 0.13111; 0.114625;
   0.0999359; 0.086909; 0.0754283; 0.0653667; 0.0565748; 0.0489004; 0.0422178; 0.0364218; 0.0314028;
   0.0270671; 0.0233224; 0.0201033; 0.0173274; 0.0149508; 0; 0; 0; 0; 0; 0; 0; 0; 0; 0; 0; 0; 0; 0; 0; 0; 0;
   0; 0; 0; 0; 0; 0; 0; 0; 0; 0; 0; 0; 0; 0; 0; 0; 0; 0];
  [1.01571; 1.0169; 1.01818; 1.01954; 1.02099; 1.02253; 1.02417; 1.02591; 1.02776; 1.02972; 1.0318; 1.034;
   1.03632; 1.03877; 1.04136; 1.04408; 1.04693; 1.04993; 1.05306; 1.05634; 1.05976; 1.06332; 1.06702;
   1.07085; 1.07482; 1.07892; 1.08314; 1.08748; 1.09192; 1.09646; 1.10109; 1.10579; 1.11056; 1.11537;
   1.12021; 1.12507; 1.12991; 1.13474; 1.13951; 1.14422; 1.14884; 1.15333; 1.15769; 1.16188; 1.16588;
   1.16965; 1.17318; 1.17643; 1.17939; 1.18201; 1.18427; 1.18616; 1.18763; 1.18867; 1.18926; 1.18938;
   1.18899; 1.18809; 1.18667; 1.18469; 1.18217; 1.17908; 1.17542; 1.1712; 1.16641; 1.16107; 1.15517; 1.14875;
   1.14181; 1.13438; 1.1265; 1.11819; 1.1095; 1.10046; 1.09113; 1.08156; 1.07179; 1.06189; 1.05191; 1.04191;
   1.03194; 1.02207; 1.01234; 1.00281; 0.993527; 0.984529; 0.975855; 0.967537; 0.9596; 0.952062; 0.944938;
   0.938233; 0.931949; 0.92608; 0.920618; 0.915549; 0.910853; 0.906509; 0.902493; 0.898778; 0.895334;
   0.89213; 0.889135; 0.886314; 0.883634; 0.881058; 0.87855; 0.876071; 0.873583; 0.871043; 0.868408;
   0.865633; 0.862667; 0.859457; 0.855946; 0.852073; 0.847769; 0.84296; 0.837565; 0.831497; 0.824659;
   0.816948; 0.808252; 0.798453; 0.787423; 0.775033; 0.761147; 0.745633; 0.72836; 0.709209; 0.688076;
   0.664883; 0.639588; 0.612194; 0.582762; 0.551422; 0.518386; 0.483953; 0.448512; 0.412537; 0.376572;
   0.341197; 0.306997; 0.274508; 0.244165; 0.216262; 0.190926; 0.168124; 0.1477; 0.129439; 0.113128;
   0.0986011; 0.0857285; 0.074394; 0.0644649; 0.0557899; 0.0482171; 0.0416266; 0.035913; 0.0309651;
   0.0266924; 0.0230013; 0.0198293; 0.0170957; 0.0147504; 0; 0; 0; 0; 0; 0; 0; 0; 0; 0; 0; 0; 0; 0; 0; 0; 0;
   0; 0; 0; 0; 0; 0; 0; 0; 0; 0; 0; 0; 0; 0; 0; 0; 0; 0];
  [1.01574; 1.01694; 1.01823; 1.01959; 1.02105; 1.02261; 1.02426; 1.02602; 1.02789; 1.02987; 1.03198; 1.0342;
   1.03655; 1.03904; 1.04166; 1.04442; 1.04732; 1.05037; 1.05356; 1.05691; 1.0604; 1.06403; 1.06782; 1.07175;
   1.07582; 1.08003; 1.08437; 1.08884; 1.09342; 1.09811; 1.1029; 1.10777; 1.11272; 1.11772; 1.12277; 1.12784;
   1.13291; 1.13797; 1.14299; 1.14796; 1.15284; 1.15761; 1.16225; 1.16673; 1.17103; 1.17511; 1.17894;
   1.18251; 1.18578; 1.18872; 1.1913; 1.1935; 1.19529; 1.19665; 1.19755; 1.19797; 1.19788; 1.19728; 1.19613;
   1.19443; 1.19217; 1.18934; 1.18592; 1.18193; 1.17736; 1.17222; 1.16652; 1.16028; 1.15351; 1.14624; 1.1385;
   1.13032; 1.12175; 1.11283; 1.10359; 1.09411; 1.08442; 1.07459; 1.06467; 1.05472; 1.0448; 1.03496; 1.02527;
   1.01577; 1.00651; 0.997525; 0.988865; 0.980556; 0.972625; 0.96509; 0.957965; 0.951257; 0.944968; 0.939091;
   0.933618; 0.928536; 0.923824; 0.919462; 0.915425; 0.911685; 0.908213; 0.904978; 0.901946; 0.899085;
   0.896358; 0.893729; 0.891161; 0.888615; 0.88605; 0.883423; 0.88069; 0.877804; 0.874712; 0.87136; 0.86769;
   0.863637; 0.85913; 0.854093; 0.848444; 0.842091; 0.834936; 0.826873; 0.817787; 0.807557; 0.796056;
   0.78315; 0.768705; 0.752587; 0.734668; 0.714832; 0.692979; 0.66904; 0.64298; 0.614815; 0.584621; 0.552544;
   0.518815; 0.483753; 0.447765; 0.411343; 0.375041; 0.339447; 0.305142; 0.272649; 0.242382; 0.214609;
   0.189428; 0.166782; 0.1465; 0.128362; 0.112162; 0.097738; 0.0849659; 0.0737271; 0.0638841; 0.0552848;
   0.0477782; 0.0412477; 0.0355879; 0.030686; 0.0264532; 0.0227994; 0.0196577; 0.0169499; 0.0146284; 0; 0; 0;
   0; 0; 0; 0; 0; 0; 0; 0; 0; 0; 0; 0; 0; 0; 0; 0; 0; 0; 0; 0; 0; 0; 0; 0; 0; 0; 0; 0; 0; 0; 0; 0];
  [1.01577; 1.01698; 1.01827; 1.01964; 1.02111; 1.02268; 1.02435; 1.02612; 1.02801; 1.03001; 1.03214;
   1.03439; 1.03677; 1.03929; 1.04195; 1.04475; 1.04769; 1.05079; 1.05404; 1.05745; 1.06101; 1.06472;
   1.06859; 1.07261; 1.07678; 1.0811; 1.08555; 1.09015; 1.09487; 1.09971; 1.10465; 1.1097; 1.11482; 1.12002;
   1.12527; 1.13055; 1.13585; 1.14115; 1.14642; 1.15164; 1.15679; 1.16184; 1.16677; 1.17155; 1.17615;
   1.18053; 1.18469; 1.18857; 1.19216; 1.19543; 1.19834; 1.20087; 1.20299; 1.20467; 1.20589; 1.20662;
   1.20685; 1.20654; 1.20569; 1.20428; 1.20229; 1.19972; 1.19657; 1.19282; 1.18848; 1.18355; 1.17806; 1.172;
   1.16541; 1.15831; 1.15072; 1.14269; 1.13424; 1.12543; 1.11631; 1.10691; 1.09731; 1.08755; 1.0777; 1.0678;
   1.05793; 1.04814; 1.03848; 1.02901; 1.01977; 1.01081; 1.00216; 0.993859; 0.985933; 0.9784; 0.971273;
   0.96456; 0.958262; 0.952375; 0.946888; 0.941788; 0.937056; 0.93267; 0.928605; 0.924834; 0.921326;
   0.918049; 0.914971; 0.912056; 0.909268; 0.906571; 0.903925; 0.901291; 0.898626; 0.895886; 0.893024;
   0.889992; 0.886736; 0.8832; 0.87932; 0.875031; 0.870259; 0.864925; 0.858942; 0.852217; 0.844647; 0.836123;
   0.826527; 0.815736; 0.803618; 0.79004; 0.774868; 0.757967; 0.739213; 0.718494; 0.695719; 0.670829;
   0.643802; 0.614673; 0.583539; 0.550571; 0.516025; 0.480248; 0.443675; 0.406818; 0.370247; 0.334554;
   0.300312; 0.26802; 0.23806; 0.210655; 0.18586; 0.163585; 0.143639; 0.1258; 0.109871; 0.0957012; 0.0831695;
   0.0721531; 0.0625108; 0.0540877; 0.046737; 0.0403472; 0.034809; 0.0300164; 0.0258778; 0.0223051;
   0.0192354; 0.0165929; 0.0143206; 0; 0; 0; 0; 0; 0; 0; 0; 0; 0; 0; 0; 0; 0; 0; 0; 0; 0; 0; 0; 0; 0; 0; 0;
   0; 0; 0; 0; 0; 0; 0; 0; 0; 0; 0];
  [1.01579; 1.017; 1.0183; 1.01969; 1.02117; 1.02275; 1.02443; 1.02622; 1.02812; 1.03014; 1.03229; 1.03456;
   1.03697; 1.03952; 1.04221; 1.04505; 1.04805; 1.05119; 1.0545; 1.05796; 1.06159; 1.06537; 1.06932; 1.07343;
   1.0777; 1.08213; 1.0867; 1.09142; 1.09627; 1.10126; 1.10636; 1.11158; 1.11688; 1.12227; 1.12772; 1.13322;
   1.13875; 1.14428; 1.1498; 1.15528; 1.1607; 1.16604; 1.17125; 1.17633; 1.18124; 1.18594; 1.19041; 1.19463;
   1.19855; 1.20215; 1.2054; 1.20826; 1.21072; 1.21274; 1.21429; 1.21535; 1.21589; 1.21591; 1.21536; 1.21425;
   1.21255; 1.21026; 1.20737; 1.20387; 1.19977; 1.19508; 1.1898; 1.18395; 1.17755; 1.17062; 1.1632; 1.15531;
   1.147; 1.13832; 1.1293; 1.12001; 1.1105; 1.10082; 1.09104; 1.08121; 1.07139; 1.06164; 1.05202; 1.04259;
   1.03337; 1.02443; 1.0158; 1.00752; 0.999602; 0.992075; 0.984952; 0.978239; 0.971939; 0.966047; 0.960553;
   0.955444; 0.9507; 0.946301; 0.94222; 0.938429; 0.934899; 0.931598; 0.928491; 0.925545; 0.922721; 0.919983;
   0.917291; 0.914605; 0.911881; 0.909075; 0.90614; 0.903024; 0.899675; 0.896033; 0.892035; 0.887613;
   0.882694; 0.877195; 0.871029; 0.8641; 0.856305; 0.847532; 0.837663; 0.826571; 0.814127; 0.800195;
   0.784639; 0.767328; 0.748136; 0.726954; 0.703693; 0.678298; 0.650753; 0.621095; 0.589431; 0.555938;
   0.52088; 0.484613; 0.447579; 0.410297; 0.37334; 0.337306; 0.302763; 0.270211; 0.240024; 0.212419;
   0.187445; 0.165005; 0.144906; 0.126926; 0.110867; 0.09658; 0.0839433; 0.0728333; 0.0631074; 0.0546098;
   0.0471932; 0.0407452; 0.035156; 0.0303171; 0.026141; 0.0225347; 0.0194351; 0.0167675; 0.014473; 0; 0; 0;
   0; 0; 0; 0; 0; 0; 0; 0; 0; 0; 0; 0; 0; 0; 0; 0; 0; 0; 0; 0; 0; 0; 0; 0; 0; 0; 0; 0; 0; 0; 0; 0];
  [1.0158; 1.01703; 1.01833; 1.01973; 1.02122; 1.0228; 1.0245; 1.0263; 1.02822; 1.03026; 1.03243; 1.03472;
   1.03716; 1.03974; 1.04246; 1.04534; 1.04838; 1.05157; 1.05493; 1.05845; 1.06214; 1.066; 1.07003; 1.07422;
   1.07859; 1.08312; 1.0878; 1.09265; 1.09763; 1.10276; 1.10802; 1.1134; 1.11889; 1.12446; 1.13012; 1.13583;
   1.14158; 1.14736; 1.15313; 1.15887; 1.16456; 1.17018; 1.17569; 1.18107; 1.18629; 1.19131; 1.19611;
   1.20066; 1.20492; 1.20886; 1.21245; 1.21567; 1.21847; 1.22083; 1.22272; 1.22412; 1.225; 1.22534; 1.22512;
   1.22431; 1.22292; 1.22092; 1.2183; 1.21507; 1.21123; 1.20678; 1.20172; 1.19609; 1.18988; 1.18314; 1.17589;
   1.16816; 1.16; 1.15144; 1.14255; 1.13337; 1.12395; 1.11436; 1.10465; 1.09488; 1.08512; 1.07543; 1.06585;
   1.05644; 1.04726; 1.03834; 1.02973; 1.02146; 1.01355; 1.00602; 0.998901; 0.992185; 0.985878; 0.979976;
   0.974469; 0.969343; 0.96458; 0.960157; 0.956048; 0.952226; 0.94866; 0.945318; 0.942165; 0.939165;
   0.936282; 0.933475; 0.930706; 0.927933; 0.92511; 0.922193; 0.919131; 0.915873; 0.912363; 0.90854;
   0.904338; 0.899688; 0.894512; 0.888726; 0.88224; 0.874954; 0.866762; 0.857551; 0.847198; 0.835577;
   0.822553; 0.807992; 0.791757; 0.773719; 0.753755; 0.73176; 0.707653; 0.681389; 0.652965; 0.622435;
   0.589921; 0.555624; 0.51983; 0.482918; 0.44535; 0.407662; 0.370438; 0.334275; 0.299735; 0.267293;
   0.237295; 0.209924; 0.185196; 0.162989; 0.143098; 0.125303; 0.109413; 0.0952865; 0.0828034; 0.0718359;
   0.0622384; 0.0538506; 0.0465336; 0.0401758; 0.0346658; 0.029897; 0.0257776; 0.0222279; 0.01917; 0.0165448;
   0.0142823; 0; 0; 0; 0; 0; 0; 0; 0; 0; 0; 0; 0; 0; 0; 0; 0; 0; 0; 0; 0; 0; 0; 0; 0; 0; 0; 0; 0; 0; 0; 0; 0;
   0; 0; 0];
  [1.01582; 1.01705; 1.01836; 1.01976; 1.02126; 1.02286; 1.02456; 1.02638; 1.02831; 1.03037; 1.03255;
   1.03487; 1.03733; 1.03994; 1.0427; 1.04561; 1.04869; 1.05193; 1.05533; 1.05891; 1.06267; 1.06659; 1.0707;
   1.07498; 1.07944; 1.08407; 1.08887; 1.09383; 1.09895; 1.10422; 1.10964; 1.11518; 1.12084; 1.12661;
   1.13246; 1.13839; 1.14437; 1.15038; 1.1564; 1.16241; 1.16837; 1.17428; 1.18008; 1.18577; 1.1913; 1.19665;
   1.20179; 1.20667; 1.21128; 1.21557; 1.21952; 1.22308; 1.22624; 1.22896; 1.23121; 1.23295; 1.23418;
   1.23486; 1.23497; 1.23449; 1.2334; 1.23171; 1.22938; 1.22643; 1.22286; 1.21866; 1.21384; 1.20843; 1.20244;
   1.19589; 1.18882; 1.18126; 1.17325; 1.16484; 1.15607; 1.147; 1.13769; 1.12819; 1.11856; 1.10887; 1.09917;
   1.08953; 1.08; 1.07063; 1.06148; 1.05258; 1.04399; 1.03573; 1.02784; 1.02032; 1.0132; 1.00648; 1.00017;
   0.994263; 0.988747; 0.983608; 0.978828; 0.974386; 0.970254; 0.966406; 0.96281; 0.959433; 0.95624;
   0.953196; 0.950261; 0.947398; 0.944564; 0.941717; 0.938811; 0.9358; 0.932634; 0.929257; 0.925613; 0.92164;
   0.917271; 0.912433; 0.907046; 0.901026; 0.894278; 0.886702; 0.87819; 0.868625; 0.857883; 0.845836;
   0.83235; 0.817287; 0.800513; 0.781898; 0.761322; 0.738684; 0.713909; 0.686957; 0.657834; 0.626606;
   0.593408; 0.558453; 0.522043; 0.48457; 0.446511; 0.408412; 0.370863; 0.334461; 0.299762; 0.267231;
   0.237194; 0.209817; 0.185096; 0.162897; 0.143011; 0.125216; 0.109328; 0.095207; 0.0827332; 0.071776;
   0.0621875; 0.0538071; 0.0464969; 0.0401465; 0.0346428; 0.0298789; 0.0257646; 0.0222191; 0.019165;
   0.0165433; 0; 0; 0; 0; 0; 0; 0; 0; 0; 0; 0; 0; 0; 0; 0; 0; 0; 0; 0; 0; 0; 0; 0; 0; 0; 0; 0; 0; 0; 0; 0; 0;
   0; 0; 0; 0];
  [1.01583; 1.01706; 1.01838; 1.01979; 1.02129; 1.0229; 1.02461; 1.02644; 1.02839; 1.03046; 1.03267; 1.03501;
   1.03749; 1.04013; 1.04292; 1.04586; 1.04898; 1.05226; 1.05572; 1.05935; 1.06316; 1.06716; 1.07134; 1.0757;
   1.08025; 1.08498; 1.08989; 1.09497; 1.10022; 1.10563; 1.1112; 1.1169; 1.12274; 1.1287; 1.13475; 1.14089;
   1.14709; 1.15334; 1.15962; 1.16589; 1.17213; 1.17832; 1.18443; 1.19042; 1.19628; 1.20196; 1.20743;
   1.21266; 1.21762; 1.22227; 1.22657; 1.23051; 1.23403; 1.23711; 1.23972; 1.24183; 1.24341; 1.24444;
   1.24489; 1.24475; 1.244; 1.24261; 1.2406; 1.23794; 1.23464; 1.23071; 1.22615; 1.22097; 1.2152; 1.20886;
   1.20198; 1.1946; 1.18675; 1.17849; 1.16986; 1.16091; 1.15171; 1.1423; 1.13276; 1.12314; 1.11351; 1.10392;
   1.09444; 1.08511; 1.076; 1.06713; 1.05856; 1.05032; 1.04243; 1.03492; 1.0278; 1.02108; 1.01476; 1.00884;
   1.00331; 0.998156; 0.993355; 0.988887; 0.984726; 0.980844; 0.977208; 0.973785; 0.970541; 0.967438;
   0.964437; 0.961498; 0.958579; 0.955635; 0.952621; 0.949487; 0.946182; 0.942649; 0.93883; 0.934659;
   0.930068; 0.924981; 0.919316; 0.912985; 0.905892; 0.897932; 0.888995; 0.878961; 0.867705; 0.855095;
   0.840996; 0.825271; 0.807786; 0.788411; 0.767033; 0.743556; 0.717912; 0.690073; 0.66006; 0.627953;
   0.593908; 0.558159; 0.521031; 0.482937; 0.444373; 0.4059; 0.368116; 0.331614; 0.296937; 0.264527; 0.23468;
   0.207526; 0.183033; 0.161047; 0.141348; 0.123721; 0.107989; 0.0940166; 0.0816846; 0.0708597; 0.0613879;
   0.0531099; 0.0458913; 0.0396235; 0.0341909; 0.0294917; 0.0254333; 0.0219357; 0.0189224; 0.0163394; 0; 0;
   0; 0; 0; 0; 0; 0; 0; 0; 0; 0; 0; 0; 0; 0; 0; 0; 0; 0; 0; 0; 0; 0; 0; 0; 0; 0; 0; 0; 0; 0; 0; 0; 0; 0];
  [1.01583; 1.01707; 1.01839; 1.01981; 1.02132; 1.02294; 1.02466; 1.0265; 1.02846; 1.03055; 1.03277; 1.03513;
   1.03764; 1.0403; 1.04312; 1.0461; 1.04925; 1.05257; 1.05608; 1.05976; 1.06364; 1.0677; 1.07195; 1.0764;
   1.08103; 1.08586; 1.09087; 1.09607; 1.10145; 1.107; 1.11271; 1.11858; 1.12459; 1.13073; 1.13699; 1.14334;
   1.14977; 1.15625; 1.16278; 1.16931; 1.17583; 1.18231; 1.18872; 1.19503; 1.20121; 1.20722; 1.21304;
   1.21862; 1.22394; 1.22895; 1.23363; 1.23793; 1.24183; 1.24529; 1.24827; 1.25076; 1.25271; 1.2541; 1.25491;
   1.25512; 1.2547; 1.25365; 1.25195; 1.2496; 1.24659; 1.24294; 1.23864; 1.23371; 1.22818; 1.22206; 1.21538;
   1.20819; 1.20051; 1.19241; 1.18392; 1.17511; 1.16602; 1.15672; 1.14727; 1.13774; 1.12818; 1.11865;
   1.10922; 1.09994; 1.09086; 1.08202; 1.07348; 1.06525; 1.05738; 1.04988; 1.04276; 1.03605; 1.02973; 1.0238;
   1.01826; 1.01309; 1.00827; 1.00378; 0.999594; 0.995682; 0.992013; 0.988552; 0.985264; 0.982111; 0.979054;
   0.976051; 0.97306; 0.970035; 0.966929; 0.963692; 0.96027; 0.956607; 0.952641; 0.948306; 0.943531;
   0.938238; 0.932344; 0.925758; 0.918382; 0.910109; 0.900826; 0.890413; 0.878741; 0.865677; 0.851086;
   0.834831; 0.816777; 0.796797; 0.774781; 0.750635; 0.724299; 0.695753; 0.665026; 0.63221; 0.597474;
   0.561066; 0.523325; 0.484678; 0.445634; 0.406762; 0.368665; 0.331935; 0.297107; 0.264608; 0.234718;
   0.207548; 0.183049; 0.161057; 0.141349; 0.123712; 0.107972; 0.0939982; 0.0816683; 0.0708467; 0.0613774;
   0.0531016; 0.0458852; 0.0396209; 0.0341903; 0.0294932; 0.0254372; 0.021942; 0.01893; 0.0163489; 0; 0; 0;
   0; 0; 0; 0; 0; 0; 0; 0; 0; 0; 0; 0; 0; 0; 0; 0; 0; 0; 0; 0; 0; 0; 0; 0; 0; 0; 0; 0; 0; 0; 0; 0; 0];
  [1.01583; 1.01707; 1.0184; 1.01982; 1.02134; 1.02297; 1.0247; 1.02655; 1.02853; 1.03063; 1.03287; 1.03525;
   1.03777; 1.04046; 1.0433; 1.04632; 1.0495; 1.05287; 1.05642; 1.06015; 1.06408; 1.06821; 1.07253; 1.07705;
   1.08177; 1.0867; 1.09182; 1.09713; 1.10263; 1.10832; 1.11418; 1.12021; 1.12639; 1.13271; 1.13916; 1.14573;
   1.15238; 1.15911; 1.16588; 1.17268; 1.17948; 1.18625; 1.19297; 1.19959; 1.2061; 1.21245; 1.21861; 1.22455;
   1.23023; 1.23562; 1.24067; 1.24536; 1.24964; 1.25349; 1.25686; 1.25972; 1.26206; 1.26382; 1.265; 1.26557;
   1.26551; 1.2648; 1.26343; 1.2614; 1.2587; 1.25534; 1.25132; 1.24665; 1.24136; 1.23548; 1.22901; 1.22202;
   1.21453; 1.20659; 1.19826; 1.18958; 1.18062; 1.17144; 1.16209; 1.15264; 1.14316; 1.1337; 1.12433; 1.11509;
   1.10605; 1.09725; 1.08873; 1.08053; 1.07267; 1.06518; 1.05807; 1.05136; 1.04504; 1.0391; 1.03355; 1.02837;
   1.02353; 1.01902; 1.01481; 1.01087; 1.00717; 1.00367; 1.00033; 0.997131; 0.994016; 0.990949; 0.987884;
   0.984777; 0.981578; 0.978236; 0.974696; 0.9709; 0.966786; 0.962285; 0.957324; 0.951824; 0.945699;
   0.938857; 0.931197; 0.92261; 0.912981; 0.902188; 0.890102; 0.876587; 0.861508; 0.844726; 0.826109;
   0.805532; 0.782885; 0.758081; 0.731065; 0.701824; 0.670396; 0.636885; 0.601471; 0.564415; 0.526071;
   0.486878; 0.447355; 0.408081; 0.369661; 0.332686; 0.297685; 0.26507; 0.235105; 0.207886; 0.183349;
   0.16132; 0.141576; 0.123904; 0.108135; 0.0941378; 0.0817909; 0.0709551; 0.0614729; 0.0531855; 0.0459594;
   0.0396875; 0.0342499; 0.0295478; 0.0254843; 0.0219868; 0.0189701; 0.0163864; 0; 0; 0; 0; 0; 0; 0; 0; 0; 0;
   0; 0; 0; 0; 0; 0; 0; 0; 0; 0; 0; 0; 0; 0; 0; 0; 0; 0; 0; 0; 0; 0; 0; 0; 0; 0];
  [1.01583; 1.01707; 1.01841; 1.01983; 1.02136; 1.02299; 1.02473; 1.02659; 1.02858; 1.0307; 1.03295; 1.03535;
   1.0379; 1.0406; 1.04347; 1.04652; 1.04974; 1.05314; 1.05673; 1.06052; 1.0645; 1.06869; 1.07308; 1.07768;
   1.08248; 1.0875; 1.09272; 1.09814; 1.10377; 1.10959; 1.11559; 1.12178; 1.12813; 1.13464; 1.14129; 1.14806;
   1.15494; 1.1619; 1.16893; 1.17599; 1.18307; 1.19013; 1.19715; 1.2041; 1.21094; 1.21763; 1.22415; 1.23045;
   1.2365; 1.24227; 1.24771; 1.25278; 1.25746; 1.2617; 1.26546; 1.26873; 1.27145; 1.27361; 1.27517; 1.27611;
   1.27642; 1.27607; 1.27505; 1.27335; 1.27097; 1.26791; 1.26418; 1.25979; 1.25476; 1.24912; 1.24288; 1.2361;
   1.2288; 1.22105; 1.21287; 1.20435; 1.19552; 1.18645; 1.17721; 1.16786; 1.15846; 1.14907; 1.13976; 1.13058;
   1.12159; 1.11283; 1.10434; 1.09616; 1.08832; 1.08084; 1.07374; 1.06703; 1.0607; 1.05476; 1.0492; 1.04401;
   1.03915; 1.03462; 1.03039; 1.02642; 1.02268; 1.01914; 1.01576; 1.01251; 1.00934; 1.0062; 1.00306;
   0.999872; 0.996579; 0.993131; 0.989473; 0.985544; 0.98128; 0.976612; 0.971464; 0.965757; 0.959402;
   0.952303; 0.94436; 0.935461; 0.925488; 0.914319; 0.901821; 0.887861; 0.872299; 0.854999; 0.835828;
   0.814663; 0.791398; 0.76595; 0.738268; 0.708348; 0.676235; 0.642045; 0.605967; 0.568276; 0.529338;
   0.489603; 0.449601; 0.409918; 0.371162; 0.333921; 0.298718; 0.265954; 0.235879; 0.208573; 0.183962;
   0.161863; 0.142052; 0.124318; 0.108494; 0.0944519; 0.0820669; 0.0711978; 0.0616856; 0.0533716; 0.0461223;
   0.0398304; 0.0343759; 0.0296589; 0.0255823; 0.0220736; 0.0190473; 0.0164523; 0; 0; 0; 0; 0; 0; 0; 0; 0; 0;
   0; 0; 0; 0; 0; 0; 0; 0; 0; 0; 0; 0; 0; 0; 0; 0; 0; 0; 0; 0; 0; 0; 0; 0; 0; 0];
  [1.01582; 1.01707; 1.01841; 1.01984; 1.02137; 1.02301; 1.02476; 1.02663; 1.02863; 1.03075; 1.03302;
   1.03544; 1.038; 1.04073; 1.04363; 1.0467; 1.04995; 1.05339; 1.05703; 1.06086; 1.0649; 1.06914; 1.0736;
   1.07827; 1.08316; 1.08826; 1.09358; 1.09912; 1.10486; 1.11081; 1.11696; 1.1233; 1.12982; 1.13651; 1.14335;
   1.15033; 1.15743; 1.16463; 1.17191; 1.17924; 1.1866; 1.19396; 1.20128; 1.20855; 1.21572; 1.22276; 1.22963;
   1.23631; 1.24274; 1.24889; 1.25472; 1.26019; 1.26527; 1.26991; 1.27409; 1.27776; 1.28089; 1.28344; 1.2854;
   1.28673; 1.28742; 1.28744; 1.28678; 1.28543; 1.28338; 1.28064; 1.27722; 1.27312; 1.26836; 1.26297;
   1.25697; 1.25041; 1.24332; 1.23575; 1.22775; 1.21938; 1.2107; 1.20176; 1.19263; 1.18338; 1.17407; 1.16476;
   1.15551; 1.14639; 1.13744; 1.12872; 1.12026; 1.11211; 1.10429; 1.09682; 1.08973; 1.08301; 1.07669;
   1.07074; 1.06517; 1.05995; 1.05508; 1.05052; 1.04625; 1.04224; 1.03846; 1.03487; 1.03144; 1.02812;
   1.02487; 1.02165; 1.01842; 1.01512; 1.01171; 1.00812; 1.00431; 1.00021; 0.995752; 0.990869; 0.985481;
   0.979505; 0.972851; 0.965421; 0.957111; 0.947807; 0.937389; 0.925732; 0.912702; 0.898164; 0.881977;
   0.864007; 0.844122; 0.822201; 0.798144; 0.771873; 0.743347; 0.712572; 0.679608; 0.644585; 0.607712;
   0.56928; 0.529675; 0.489365; 0.448894; 0.408856; 0.369864; 0.332499; 0.297267; 0.26455; 0.234569;
   0.207379; 0.182883; 0.160889; 0.141169; 0.123516; 0.107773; 0.0938099; 0.0815023; 0.0707048; 0.0612545;
   0.0529956; 0.045796; 0.03955; 0.0341349; 0.0294528; 0.0254064; 0.0219252; 0.0189209; 0.0163472; 0; 0; 0;
   0; 0; 0; 0; 0; 0; 0; 0; 0; 0; 0; 0; 0; 0; 0; 0; 0; 0; 0; 0; 0; 0; 0; 0; 0; 0; 0; 0; 0; 0; 0; 0; 0];
  [1.01581; 1.01706; 1.0184; 1.01984; 1.02138; 1.02302; 1.02478; 1.02666; 1.02866; 1.0308; 1.03308; 1.03551;
   1.0381; 1.04085; 1.04377; 1.04687; 1.05015; 1.05363; 1.0573; 1.06118; 1.06527; 1.06957; 1.07409; 1.07883;
   1.0838; 1.08899; 1.09441; 1.10005; 1.10591; 1.11199; 1.11828; 1.12477; 1.13146; 1.13832; 1.14536; 1.15255;
   1.15987; 1.1673; 1.17483; 1.18243; 1.19007; 1.19772; 1.20536; 1.21295; 1.22045; 1.22784; 1.23508; 1.24212;
   1.24894; 1.25548; 1.26171; 1.26759; 1.27308; 1.27814; 1.28273; 1.28682; 1.29036; 1.29333; 1.2957; 1.29744;
   1.29851; 1.29892; 1.29863; 1.29764; 1.29595; 1.29354; 1.29044; 1.28664; 1.28217; 1.27705; 1.2713; 1.26498;
   1.2581; 1.25074; 1.24292; 1.23472; 1.22618; 1.21738; 1.20837; 1.19923; 1.19002; 1.18079; 1.17162; 1.16256;
   1.15366; 1.14498; 1.13656; 1.12844; 1.12064; 1.11319; 1.10611; 1.0994; 1.09307; 1.08712; 1.08154; 1.07631;
   1.07142; 1.06684; 1.06255; 1.05851; 1.05469; 1.05105; 1.04757; 1.04419; 1.04088; 1.03759; 1.03428;
   1.03089; 1.02737; 1.02367; 1.01973; 1.01548; 1.01086; 1.0058; 1.00021; 0.99401; 0.987107; 0.979402;
   0.970788; 0.96115; 0.950367; 0.93831; 0.924846; 0.909836; 0.893143; 0.87463; 0.854167; 0.831636; 0.806938;
   0.780002; 0.750793; 0.719323; 0.685662; 0.64995; 0.612406; 0.573336; 0.533135; 0.492284; 0.451335;
   0.410889; 0.37156; 0.333926; 0.298486; 0.26561; 0.235505; 0.208213; 0.183626; 0.161547; 0.141746;
   0.124019; 0.108211; 0.0941933; 0.0818389; 0.071; 0.0615127; 0.0532211; 0.0459945; 0.0397229; 0.0342863;
   0.0295857; 0.0255231; 0.0220282; 0.0190115; 0.0164279; 0; 0; 0; 0; 0; 0; 0; 0; 0; 0; 0; 0; 0; 0; 0; 0; 0;
   0; 0; 0; 0; 0; 0; 0; 0; 0; 0; 0; 0; 0; 0; 0; 0; 0; 0; 0];
  [1.0158; 1.01705; 1.0184; 1.01984; 1.02138; 1.02303; 1.02479; 1.02668; 1.02869; 1.03084; 1.03314; 1.03558;
   1.03818; 1.04095; 1.04389; 1.04702; 1.05033; 1.05384; 1.05755; 1.06147; 1.06561; 1.06997; 1.07455;
   1.07936; 1.0844; 1.08968; 1.09519; 1.10094; 1.10692; 1.11312; 1.11955; 1.12619; 1.13304; 1.14008; 1.14731;
   1.1547; 1.16224; 1.16991; 1.17769; 1.18555; 1.19347; 1.20142; 1.20937; 1.21728; 1.22513; 1.23287; 1.24047;
   1.24789; 1.25509; 1.26203; 1.26867; 1.27497; 1.28088; 1.28636; 1.29138; 1.29589; 1.29987; 1.30326;
   1.30605; 1.3082; 1.30969; 1.31049; 1.31059; 1.30998; 1.30865; 1.30659; 1.30382; 1.30034; 1.29616; 1.29132;
   1.28585; 1.27977; 1.27312; 1.26596; 1.25834; 1.25031; 1.24194; 1.23328; 1.2244; 1.21538; 1.20626; 1.19712;
   1.18803; 1.17903; 1.17019; 1.16156; 1.15317; 1.14508; 1.1373; 1.12986; 1.12279; 1.11608; 1.10975; 1.10379;
   1.09819; 1.09294; 1.08802; 1.08341; 1.07907; 1.07498; 1.07111; 1.06741; 1.06386; 1.0604; 1.05699; 1.0536;
   1.05016; 1.04663; 1.04296; 1.03909; 1.03496; 1.0305; 1.02564; 1.0203; 1.01441; 1.00788; 1.0006; 0.992482;
   0.983411; 0.97327; 0.961935; 0.949275; 0.935154; 0.919435; 0.901976; 0.882645; 0.861314; 0.837869;
   0.812218; 0.784299; 0.754089; 0.721615; 0.686967; 0.650303; 0.611866; 0.571986; 0.531082; 0.489654;
   0.448272; 0.407547; 0.368089; 0.330466; 0.295154; 0.262489; 0.232641; 0.205618; 0.181288; 0.15944;
   0.139845; 0.122309; 0.106682; 0.0928395; 0.0806496; 0.0699585; 0.0606021; 0.0524253; 0.0453053; 0.0391277;
   0.0337725; 0.0291441; 0.025144; 0.0217049; 0.0187369; 0.0161903; 0; 0; 0; 0; 0; 0; 0; 0; 0; 0; 0; 0; 0; 0;
   0; 0; 0; 0; 0; 0; 0; 0; 0; 0; 0; 0; 0; 0; 0; 0; 0; 0; 0; 0; 0; 0];
  [1.01578; 1.01703; 1.01838; 1.01983; 1.02137; 1.02303; 1.0248; 1.02669; 1.02871; 1.03087; 1.03318; 1.03564;
   1.03825; 1.04104; 1.04401; 1.04715; 1.05049; 1.05404; 1.05778; 1.06175; 1.06593; 1.07034; 1.07498;
   1.07986; 1.08498; 1.09034; 1.09594; 1.10179; 1.10788; 1.1142; 1.12077; 1.12756; 1.13457; 1.14178; 1.1492;
   1.15679; 1.16455; 1.17245; 1.18048; 1.18861; 1.19681; 1.20505; 1.21331; 1.22155; 1.22974; 1.23784;
   1.24581; 1.25361; 1.26121; 1.26855; 1.27561; 1.28233; 1.28866; 1.29458; 1.30004; 1.30499; 1.30941;
   1.31324; 1.31646; 1.31904; 1.32095; 1.32217; 1.32267; 1.32245; 1.3215; 1.3198; 1.31738; 1.31423; 1.31037;
   1.30583; 1.30063; 1.29481; 1.28841; 1.28147; 1.27406; 1.26622; 1.25801; 1.24951; 1.24077; 1.23187;
   1.22286; 1.21382; 1.20481; 1.19589; 1.18711; 1.17853; 1.17018; 1.16212; 1.15437; 1.14695; 1.13989;
   1.13319; 1.12686; 1.1209; 1.11529; 1.11002; 1.10508; 1.10044; 1.09607; 1.09195; 1.08803; 1.08428; 1.08067;
   1.07714; 1.07366; 1.07018; 1.06664; 1.06301; 1.05921; 1.0552; 1.05091; 1.04628; 1.04122; 1.03567; 1.02954;
   1.02274; 1.01517; 1.00673; 0.9973; 0.986766; 0.975002; 0.961874; 0.947246; 0.930979; 0.912933; 0.892975;
   0.870979; 0.846836; 0.820457; 0.791786; 0.760809; 0.727562; 0.692144; 0.65473; 0.615574; 0.57502;
   0.533502; 0.491532; 0.449691; 0.408591; 0.368846; 0.331016; 0.295565; 0.262813; 0.232912; 0.205851;
   0.181489; 0.159609; 0.139983; 0.122418; 0.106771; 0.0929145; 0.0807149; 0.0700156; 0.0606517; 0.0524687;
   0.0453442; 0.0391633; 0.0338047; 0.0291742; 0.0251717; 0.0217294; 0.0187619; 0.0162142; 0; 0; 0; 0; 0; 0;
   0; 0; 0; 0; 0; 0; 0; 0; 0; 0; 0; 0; 0; 0; 0; 0; 0; 0; 0; 0; 0; 0; 0; 0; 0; 0; 0; 0; 0; 0];
  [1.01575; 1.01701; 1.01836; 1.01981; 1.02136; 1.02302; 1.02479; 1.02669; 1.02872; 1.03089; 1.03321;
   1.03568; 1.03831; 1.04112; 1.0441; 1.04727; 1.05064; 1.05421; 1.05799; 1.062; 1.06622; 1.07068; 1.07538;
   1.08033; 1.08551; 1.09096; 1.09665; 1.10259; 1.10879; 1.11524; 1.12194; 1.12887; 1.13604; 1.14343;
   1.15103; 1.15882; 1.1668; 1.17493; 1.18321; 1.1916; 1.20008; 1.20862; 1.21719; 1.22576; 1.23429; 1.24275;
   1.25109; 1.25928; 1.26728; 1.27503; 1.2825; 1.28965; 1.29643; 1.30279; 1.30869; 1.3141; 1.31896; 1.32325;
   1.32692; 1.32994; 1.33228; 1.33393; 1.33485; 1.33503; 1.33447; 1.33316; 1.3311; 1.32829; 1.32477; 1.32053;
   1.31563; 1.31008; 1.30393; 1.29723; 1.29003; 1.28239; 1.27437; 1.26603; 1.25744; 1.24866; 1.23977;
   1.23083; 1.22191; 1.21306; 1.20435; 1.19582; 1.18752; 1.17949; 1.17177; 1.16437; 1.15732; 1.15062;
   1.14429; 1.13832; 1.13269; 1.1274; 1.12243; 1.11775; 1.11334; 1.10916; 1.10519; 1.10137; 1.09767; 1.09406;
   1.09047; 1.08687; 1.08321; 1.07943; 1.07547; 1.07127; 1.06678; 1.06191; 1.05659; 1.05075; 1.0443; 1.03714;
   1.02917; 1.02029; 1.01038; 0.999312; 0.986967; 0.973207; 0.957894; 0.940888; 0.922051; 0.90125; 0.878364;
   0.853287; 0.82594; 0.796277; 0.764296; 0.730048; 0.693652; 0.655302; 0.615276; 0.573941; 0.531751;
   0.489239; 0.446998; 0.405647; 0.365794; 0.327986; 0.292658; 0.2601; 0.230429; 0.203603; 0.17946; 0.157776;
   0.138325; 0.120926; 0.105438; 0.0917361; 0.0796802; 0.069109; 0.0598588; 0.0517771; 0.0447446; 0.0386444;
   0.0333577; 0.0287895; 0.024844; 0.0214494; 0.0185251; 0.0160114; 0; 0; 0; 0; 0; 0; 0; 0; 0; 0; 0; 0; 0; 0;
   0; 0; 0; 0; 0; 0; 0; 0; 0; 0; 0; 0; 0; 0; 0; 0; 0; 0; 0; 0; 0; 0];
  [1.01573; 1.01699; 1.01834; 1.01979; 1.02134; 1.02301; 1.02479; 1.02669; 1.02873; 1.03091; 1.03323;
   1.03571; 1.03836; 1.04118; 1.04418; 1.04738; 1.05077; 1.05437; 1.05818; 1.06222; 1.06649; 1.071; 1.07576;
   1.08076; 1.08602; 1.09154; 1.09732; 1.10336; 1.10967; 1.11623; 1.12306; 1.13013; 1.13746; 1.14501; 1.1528;
   1.16079; 1.16898; 1.17735; 1.18587; 1.19452; 1.20328; 1.21212; 1.221; 1.2299; 1.23878; 1.2476; 1.25632;
   1.2649; 1.2733; 1.28147; 1.28937; 1.29695; 1.30418; 1.31099; 1.31735; 1.32322; 1.32854; 1.33329; 1.33742;
   1.3409; 1.3437; 1.34578; 1.34714; 1.34774; 1.34759; 1.34667; 1.34499; 1.34255; 1.33937; 1.33546; 1.33086;
   1.3256; 1.31973; 1.31328; 1.30631; 1.29887; 1.29104; 1.28288; 1.27444; 1.26581; 1.25704; 1.24822; 1.23939;
   1.23063; 1.22198; 1.21352; 1.20527; 1.19728; 1.18959; 1.18221; 1.17518; 1.16849; 1.16216; 1.15619;
   1.15055; 1.14525; 1.14025; 1.13555; 1.1311; 1.12688; 1.12285; 1.11898; 1.11522; 1.11153; 1.10786; 1.10416;
   1.10039; 1.09648; 1.09239; 1.08804; 1.08337; 1.07831; 1.07278; 1.0667; 1.05998; 1.05253; 1.04424; 1.035;
   1.0247; 1.01321; 1.0004; 0.986138; 0.970281; 0.952689; 0.933227; 0.911761; 0.888173; 0.862363; 0.834254;
   0.803809; 0.771033; 0.735989; 0.698808; 0.659695; 0.618944; 0.576934; 0.534136; 0.491093; 0.448405;
   0.406695; 0.36657; 0.328566; 0.293108; 0.260467; 0.230741; 0.203873; 0.179692; 0.15797; 0.138483;
   0.121054; 0.105543; 0.0918258; 0.0797576; 0.0691766; 0.0599172; 0.0518282; 0.0447904; 0.0386856;
   0.0333946; 0.0288238; 0.0248756; 0.0214788; 0.0185531; 0.016036; 0; 0; 0; 0; 0; 0; 0; 0; 0; 0; 0; 0; 0; 0;
   0; 0; 0; 0; 0; 0; 0; 0; 0; 0; 0; 0; 0; 0; 0; 0; 0; 0; 0; 0; 0; 0];
  [1.0157; 1.01696; 1.01832; 1.01977; 1.02132; 1.02299; 1.02477; 1.02668; 1.02873; 1.03091; 1.03325; 1.03574;
   1.0384; 1.04123; 1.04425; 1.04747; 1.05088; 1.05451; 1.05835; 1.06243; 1.06674; 1.0713; 1.0761; 1.08117;
   1.08649; 1.09208; 1.09795; 1.10408; 1.11049; 1.11717; 1.12413; 1.13134; 1.13882; 1.14654; 1.15451; 1.1627;
   1.1711; 1.17969; 1.18846; 1.19737; 1.20641; 1.21554; 1.22474; 1.23397; 1.2432; 1.25238; 1.26148; 1.27045;
   1.27926; 1.28785; 1.29619; 1.30422; 1.31189; 1.31917; 1.326; 1.33234; 1.33814; 1.34336; 1.34796; 1.35191;
   1.35517; 1.35772; 1.35952; 1.36056; 1.36083; 1.36033; 1.35904; 1.35698; 1.35415; 1.35059; 1.34631;
   1.34136; 1.33576; 1.32957; 1.32284; 1.31564; 1.30801; 1.30003; 1.29176; 1.28327; 1.27464; 1.26593;
   1.25721; 1.24853; 1.23997; 1.23156; 1.22337; 1.21543; 1.20777; 1.20042; 1.1934; 1.18672; 1.18039; 1.17441;
   1.16876; 1.16344; 1.15842; 1.15368; 1.14919; 1.14492; 1.14083; 1.13689; 1.13305; 1.12926; 1.12549;
   1.12168; 1.11778; 1.11373; 1.10947; 1.10494; 1.10006; 1.09477; 1.08899; 1.08263; 1.07559; 1.06779;
   1.05912; 1.04946; 1.0387; 1.0267; 1.01334; 0.998478; 0.981975; 0.963691; 0.943489; 0.921239; 0.896825;
   0.870153; 0.841155; 0.8098; 0.776106; 0.74015; 0.702077; 0.662112; 0.620565; 0.577835; 0.534409; 0.490845;
   0.447753; 0.405757; 0.365459; 0.327383; 0.291932; 0.259349; 0.229708; 0.202932; 0.178835; 0.157185;
   0.137763; 0.120399; 0.104955; 0.0913043; 0.0792989; 0.0687743; 0.0595648; 0.0515212; 0.044526; 0.0384571;
   0.0331997; 0.0286566; 0.0247328; 0.0213573; 0.0184518; 0.0159517; 0; 0; 0; 0; 0; 0; 0; 0; 0; 0; 0; 0; 0;
   0; 0; 0; 0; 0; 0; 0; 0; 0; 0; 0; 0; 0; 0; 0; 0; 0; 0; 0; 0; 0; 0; 0];
  [1.01567; 1.01693; 1.01828; 1.01974; 1.02129; 1.02296; 1.02475; 1.02667; 1.02871; 1.03091; 1.03325;
   1.03575; 1.03842; 1.04127; 1.04431; 1.04754; 1.05098; 1.05463; 1.0585; 1.06261; 1.06696; 1.07156; 1.07642;
   1.08154; 1.08693; 1.0926; 1.09854; 1.10477; 1.11128; 1.11807; 1.12515; 1.1325; 1.14012; 1.14801; 1.15615;
   1.16454; 1.17315; 1.18197; 1.19098; 1.20015; 1.20947; 1.2189; 1.22841; 1.23797; 1.24754; 1.25709; 1.26657;
   1.27594; 1.28516; 1.29419; 1.30296; 1.31144; 1.31958; 1.32732; 1.33463; 1.34145; 1.34774; 1.35345;
   1.35854; 1.36297; 1.36671; 1.36973; 1.372; 1.37349; 1.37421; 1.37412; 1.37325; 1.37158; 1.36913; 1.36593;
   1.36199; 1.35735; 1.35205; 1.34614; 1.33967; 1.33269; 1.32528; 1.3175; 1.30941; 1.30108; 1.29259; 1.284;
   1.27539; 1.26681; 1.25833; 1.25; 1.24186; 1.23397; 1.22635; 1.21903; 1.21203; 1.20536; 1.19904; 1.19305;
   1.18739; 1.18205; 1.17701; 1.17223; 1.1677; 1.16338; 1.15924; 1.15523; 1.15131; 1.14744; 1.14357; 1.13965;
   1.13562; 1.13143; 1.12701; 1.1223; 1.11722; 1.11171; 1.10568; 1.09904; 1.09171; 1.08357; 1.07453; 1.06447;
   1.05326; 1.04078; 1.02689; 1.01146; 0.994348; 0.975408; 0.954506; 0.931517; 0.906327; 0.878846; 0.849012;
   0.816804; 0.782251; 0.745439; 0.706528; 0.665759; 0.623458; 0.580038; 0.536002; 0.491919; 0.448406;
   0.40609; 0.365567; 0.32735; 0.291822; 0.259209; 0.229563; 0.20279; 0.178694; 0.157041; 0.137617; 0.120255;
   0.10482; 0.0911827; 0.0791912; 0.0686799; 0.0594805; 0.0514474; 0.0444637; 0.0384045; 0.0331558;
   0.0286197; 0.0247056; 0.0213331; 0.0184345; 0.015939; 0; 0; 0; 0; 0; 0; 0; 0; 0; 0; 0; 0; 0; 0; 0; 0; 0;
   0; 0; 0; 0; 0; 0; 0; 0; 0; 0; 0; 0; 0; 0; 0; 0; 0; 0; 0];
  [1.01563; 1.01689; 1.01825; 1.0197; 1.02126; 1.02293; 1.02472; 1.02664; 1.0287; 1.03089; 1.03324; 1.03575;
   1.03844; 1.0413; 1.04435; 1.0476; 1.05105; 1.05473; 1.05863; 1.06277; 1.06716; 1.0718; 1.07671; 1.08188;
   1.08733; 1.09307; 1.09909; 1.10541; 1.11202; 1.11892; 1.12611; 1.1336; 1.14137; 1.14942; 1.15774; 1.16631;
   1.17513; 1.18418; 1.19343; 1.20286; 1.21246; 1.22218; 1.232; 1.2419; 1.25182; 1.26173; 1.2716; 1.28137;
   1.29101; 1.30046; 1.30968; 1.31862; 1.32723; 1.33545; 1.34325; 1.35056; 1.35734; 1.36355; 1.36914;
   1.37407; 1.37831; 1.38181; 1.38456; 1.38653; 1.3877; 1.38806; 1.38761; 1.38635; 1.3843; 1.38147; 1.37788;
   1.37358; 1.36859; 1.36297; 1.35677; 1.35004; 1.34286; 1.33528; 1.32738; 1.31922; 1.31088; 1.30243;
   1.29394; 1.28546; 1.27707; 1.26882; 1.26074; 1.2529; 1.24532; 1.23803; 1.23106; 1.22441; 1.21809; 1.2121;
   1.20643; 1.20107; 1.196; 1.19119; 1.18662; 1.18225; 1.17805; 1.17397; 1.16997; 1.16601; 1.16204; 1.158;
   1.15384; 1.1495; 1.14491; 1.14001; 1.13473; 1.12899; 1.1227; 1.11578; 1.10813; 1.09965; 1.09023; 1.07975;
   1.06808; 1.05511; 1.04068; 1.02467; 1.00693; 0.987322; 0.96571; 0.94197; 0.915992; 0.887693; 0.857016;
   0.823949; 0.788531; 0.75086; 0.711112; 0.66954; 0.626485; 0.58238; 0.537738; 0.493139; 0.449208; 0.406573;
   0.365824; 0.32746; 0.29185; 0.259197; 0.229534; 0.202751; 0.178643; 0.156978; 0.137543; 0.120175;
   0.104742; 0.0911113; 0.0791271; 0.0686227; 0.0594286; 0.0514031; 0.0444264; 0.0383737; 0.0331303;
   0.0285984; 0.0246907; 0.0213219; 0.0184288; 0.0159342; 0; 0; 0; 0; 0; 0; 0; 0; 0; 0; 0; 0; 0; 0; 0; 0; 0;
   0; 0; 0; 0; 0; 0; 0; 0; 0; 0; 0; 0; 0; 0; 0; 0; 0; 0; 0];
  [1.01559; 1.01685; 1.01821; 1.01966; 1.02122; 1.0229; 1.02469; 1.02661; 1.02867; 1.03087; 1.03323; 1.03575;
   1.03844; 1.04131; 1.04437; 1.04764; 1.05112; 1.05481; 1.05874; 1.06291; 1.06734; 1.07202; 1.07697; 1.0822;
   1.08771; 1.09351; 1.09961; 1.10601; 1.11271; 1.11972; 1.12703; 1.13465; 1.14256; 1.15077; 1.15926;
   1.16803; 1.17705; 1.18631; 1.1958; 1.2055; 1.21536; 1.22538; 1.23552; 1.24574; 1.25602; 1.2663; 1.27655;
   1.28673; 1.29679; 1.30668; 1.31635; 1.32575; 1.33484; 1.34355; 1.35184; 1.35966; 1.36695; 1.37367;
   1.37977; 1.38521; 1.38996; 1.39396; 1.39721; 1.39966; 1.4013; 1.40213; 1.40212; 1.4013; 1.39965; 1.39721;
   1.394; 1.39004; 1.38538; 1.38007; 1.37415; 1.36769; 1.36074; 1.35339; 1.34568; 1.33771; 1.32953; 1.32123;
   1.31286; 1.3045; 1.2962; 1.28802; 1.28002; 1.27224; 1.26471; 1.25746; 1.25051; 1.24387; 1.23756; 1.23157;
   1.2259; 1.22052; 1.21542; 1.21058; 1.20597; 1.20155; 1.19729; 1.19314; 1.18906; 1.18501; 1.18093; 1.17678;
   1.17248; 1.16799; 1.16324; 1.15815; 1.15267; 1.14669; 1.14015; 1.13295; 1.12499; 1.11616; 1.10636;
   1.09547; 1.08336; 1.06989; 1.05494; 1.03835; 1.02; 0.999735; 0.977428; 0.952955; 0.926212; 0.897116;
   0.865621; 0.83172; 0.795464; 0.756961; 0.716399; 0.674046; 0.630257; 0.585479; 0.540235; 0.495117;
   0.450755; 0.407776; 0.366768; 0.328217; 0.292476; 0.259731; 0.229998; 0.203155; 0.178991; 0.157271;
   0.137787; 0.120379; 0.104915; 0.0912608; 0.0792569; 0.0687348; 0.0595254; 0.0514873; 0.0445007; 0.0384395;
   0.0331883; 0.0286505; 0.0247376; 0.0213644; 0.0184673; 0.0159692; 0; 0; 0; 0; 0; 0; 0; 0; 0; 0; 0; 0; 0;
   0; 0; 0; 0; 0; 0; 0; 0; 0; 0; 0; 0; 0; 0; 0; 0; 0; 0; 0; 0; 0; 0; 0];
  [1.01555; 1.01681; 1.01816; 1.01962; 1.02118; 1.02285; 1.02465; 1.02657; 1.02863; 1.03084; 1.0332; 1.03573;
   1.03843; 1.04131; 1.04439; 1.04767; 1.05116; 1.05488; 1.05883; 1.06303; 1.06749; 1.07221; 1.0772; 1.08248;
   1.08805; 1.09391; 1.10008; 1.10657; 1.11336; 1.12047; 1.1279; 1.13564; 1.1437; 1.15206; 1.16072; 1.16967;
   1.17889; 1.18838; 1.1981; 1.20805; 1.21819; 1.2285; 1.23895; 1.24951; 1.26013; 1.27078; 1.28142; 1.29201;
   1.30249; 1.31282; 1.32295; 1.33282; 1.34239; 1.3516; 1.3604; 1.36873; 1.37654; 1.38378; 1.39041; 1.39638;
   1.40164; 1.40617; 1.40992; 1.41288; 1.41501; 1.41631; 1.41677; 1.41639; 1.41517; 1.41313; 1.41031;
   1.40672; 1.4024; 1.39741; 1.39179; 1.3856; 1.37891; 1.37179; 1.3643; 1.35651; 1.34851; 1.34035; 1.33212;
   1.32387; 1.31568; 1.30759; 1.29966; 1.29194; 1.28445; 1.27724; 1.27032; 1.2637; 1.25739; 1.2514; 1.24571;
   1.24031; 1.23518; 1.2303; 1.22564; 1.22115; 1.21682; 1.21258; 1.20841; 1.20425; 1.20004; 1.19574; 1.19129;
   1.18661; 1.18166; 1.17635; 1.17061; 1.16435; 1.1575; 1.14996; 1.14162; 1.13237; 1.12212; 1.11072; 1.09806;
   1.084; 1.0684; 1.05113; 1.03203; 1.01097; 0.987829; 0.962475; 0.934811; 0.904764; 0.872294; 0.837409;
   0.800169; 0.760701; 0.719209; 0.67598; 0.631389; 0.5859; 0.540054; 0.494453; 0.449735; 0.406524; 0.365396;
   0.326821; 0.291125; 0.258466; 0.228837; 0.202094; 0.17802; 0.156379; 0.13697; 0.119638; 0.104253;
   0.090674; 0.0787411; 0.0682815; 0.0591281; 0.0511414; 0.0442015; 0.03818; 0.0329663; 0.0284609; 0.024576;
   0.021228; 0.018353; 0; 0; 0; 0; 0; 0; 0; 0; 0; 0; 0; 0; 0; 0; 0; 0; 0; 0; 0; 0; 0; 0; 0; 0; 0; 0; 0; 0; 0;
   0; 0; 0; 0; 0; 0; 0; 0];
  [1.0155; 1.01676; 1.01812; 1.01957; 1.02113; 1.02281; 1.0246; 1.02653; 1.02859; 1.0308; 1.03317; 1.0357;
   1.03841; 1.0413; 1.04439; 1.04768; 1.05119; 1.05493; 1.0589; 1.06313; 1.06761; 1.07237; 1.0774; 1.08273;
   1.08835; 1.09428; 1.10052; 1.10708; 1.11397; 1.12118; 1.12872; 1.13658; 1.14477; 1.15329; 1.16211;
   1.17125; 1.18067; 1.19037; 1.20033; 1.21053; 1.22094; 1.23155; 1.24231; 1.25319; 1.26417; 1.27519;
   1.28622; 1.29721; 1.30812; 1.3189; 1.32949; 1.33984; 1.3499; 1.35961; 1.36892; 1.37778; 1.38612; 1.3939;
   1.40107; 1.40757; 1.41338; 1.41843; 1.42271; 1.42619; 1.42883; 1.43062; 1.43156; 1.43164; 1.43087;
   1.42926; 1.42684; 1.42363; 1.41968; 1.41502; 1.40972; 1.40382; 1.3974; 1.39052; 1.38325; 1.37567; 1.36785;
   1.35986; 1.35177; 1.34365; 1.33557; 1.32758; 1.31973; 1.31207; 1.30464; 1.29747; 1.29058; 1.28398;
   1.27769; 1.2717; 1.266; 1.26058; 1.25543; 1.25051; 1.2458; 1.24126; 1.23686; 1.23255; 1.22829; 1.22402;
   1.2197; 1.21527; 1.21066; 1.20582; 1.20068; 1.19516; 1.18919; 1.18268; 1.17554; 1.16769; 1.159; 1.14938;
   1.13871; 1.12686; 1.11371; 1.09912; 1.08294; 1.06505; 1.04529; 1.02353; 0.999646; 0.973511; 0.945034;
   0.914147; 0.880817; 0.845059; 0.806947; 0.766619; 0.724292; 0.680267; 0.634933; 0.588769; 0.542327;
   0.49622; 0.451087; 0.407554; 0.366187; 0.327444; 0.291633; 0.258896; 0.229207; 0.202412; 0.178286;
   0.156597; 0.137147; 0.119783; 0.104373; 0.0907763; 0.0788291; 0.0683567; 0.0591925; 0.0511974; 0.0442513;
   0.038224; 0.0330063; 0.0284972; 0.0246089; 0.0212575; 0.0183814; 0; 0; 0; 0; 0; 0; 0; 0; 0; 0; 0; 0; 0; 0;
   0; 0; 0; 0; 0; 0; 0; 0; 0; 0; 0; 0; 0; 0; 0; 0; 0; 0; 0; 0; 0; 0; 0];
  [1.01545; 1.01671; 1.01806; 1.01952; 1.02108; 1.02275; 1.02455; 1.02648; 1.02854; 1.03076; 1.03313;
   1.03566; 1.03837; 1.04127; 1.04437; 1.04768; 1.0512; 1.05496; 1.05895; 1.0632; 1.06772; 1.07251; 1.07758;
   1.08295; 1.08862; 1.09461; 1.10092; 1.10756; 1.11453; 1.12183; 1.12948; 1.13747; 1.14579; 1.15445;
   1.16344; 1.17275; 1.18237; 1.19229; 1.20248; 1.21293; 1.22361; 1.2345; 1.24557; 1.25679; 1.26811; 1.27951;
   1.29093; 1.30233; 1.31367; 1.3249; 1.33595; 1.34679; 1.35735; 1.36757; 1.3774; 1.38679; 1.39568; 1.404;
   1.41172; 1.41878; 1.42513; 1.43074; 1.43556; 1.43957; 1.44274; 1.44504; 1.44648; 1.44704; 1.44673;
   1.44557; 1.44356; 1.44076; 1.43718; 1.43288; 1.4279; 1.42231; 1.41618; 1.40956; 1.40253; 1.39516; 1.38753;
   1.37971; 1.37177; 1.36379; 1.35582; 1.34793; 1.34017; 1.33259; 1.32521; 1.31809; 1.31123; 1.30465;
   1.29837; 1.29238; 1.28667; 1.28123; 1.27605; 1.27109; 1.26632; 1.26172; 1.25724; 1.25284; 1.24847;
   1.24408; 1.23963; 1.23504; 1.23027; 1.22524; 1.21988; 1.21412; 1.20788; 1.20108; 1.19362; 1.1854; 1.17632;
   1.16626; 1.15512; 1.14275; 1.12904; 1.11383; 1.097; 1.0784; 1.05789; 1.03534; 1.01061; 0.983587; 0.954191;
   0.922357; 0.888062; 0.851333; 0.812255; 0.770981; 0.727746; 0.682868; 0.636755; 0.5899; 0.542871; 0.49629;
   0.4508; 0.407023; 0.365513; 0.326711; 0.290901; 0.258199; 0.228558; 0.20181; 0.177725; 0.156071; 0.136657;
   0.119334; 0.10397; 0.0904186; 0.078513; 0.0680779; 0.0589479; 0.0509842; 0.0440682; 0.0380657; 0.0328715;
   0.0283809; 0.0245128; 0.0211752; 0.0183141; 0; 0; 0; 0; 0; 0; 0; 0; 0; 0; 0; 0; 0; 0; 0; 0; 0; 0; 0; 0; 0;
   0; 0; 0; 0; 0; 0; 0; 0; 0; 0; 0; 0; 0; 0; 0; 0];
  [1.01539; 1.01665; 1.01801; 1.01946; 1.02102; 1.02269; 1.02449; 1.02642; 1.02849; 1.0307; 1.03307; 1.03561;
   1.03833; 1.04124; 1.04434; 1.04766; 1.0512; 1.05497; 1.05898; 1.06326; 1.0678; 1.07262; 1.07773; 1.08314;
   1.08886; 1.09491; 1.10128; 1.10799; 1.11504; 1.12244; 1.13019; 1.1383; 1.14675; 1.15556; 1.16471; 1.17419;
   1.184; 1.19413; 1.20455; 1.21524; 1.22619; 1.23737; 1.24875; 1.2603; 1.27197; 1.28374; 1.29555; 1.30737;
   1.31914; 1.33082; 1.34235; 1.35367; 1.36473; 1.37547; 1.38584; 1.39577; 1.40521; 1.41409; 1.42237; 1.43;
   1.43692; 1.44309; 1.44847; 1.45303; 1.45674; 1.45958; 1.46153; 1.46259; 1.46276; 1.46206; 1.4605; 1.45811;
   1.45492; 1.45099; 1.44637; 1.4411; 1.43526; 1.42891; 1.42213; 1.41499; 1.40757; 1.39994; 1.39216; 1.38433;
   1.37649; 1.3687; 1.36104; 1.35353; 1.34622; 1.33914; 1.33232; 1.32577; 1.3195; 1.31351; 1.3078; 1.30234;
   1.29713; 1.29212; 1.28731; 1.28264; 1.27809; 1.2736; 1.26913; 1.26462; 1.26003; 1.2553; 1.25036; 1.24514;
   1.23957; 1.23357; 1.22708; 1.21998; 1.2122; 1.20363; 1.19417; 1.18369; 1.17208; 1.15921; 1.14495; 1.12916;
   1.1117; 1.09242; 1.07119; 1.04787; 1.02233; 0.99447; 0.964199; 0.931466; 0.896254; 0.858602; 0.818605;
   0.776432; 0.73233; 0.686635; 0.639768; 0.592238; 0.544624; 0.497555; 0.451678; 0.407611; 0.3659; 0.326968;
   0.29108; 0.258331; 0.228658; 0.201881; 0.177767; 0.156087; 0.136651; 0.119316; 0.103947; 0.0903956;
   0.0784905; 0.0680558; 0.0589274; 0.0509661; 0.044053; 0.0380539; 0.0328629; 0.0283752; 0.0245099;
   0.0211747; 0.0183135; 0; 0; 0; 0; 0; 0; 0; 0; 0; 0; 0; 0; 0; 0; 0; 0; 0; 0; 0; 0; 0; 0; 0; 0; 0; 0; 0; 0;
   0; 0; 0; 0; 0; 0; 0; 0; 0];
  [1.01533; 1.01659; 1.01795; 1.0194; 1.02096; 1.02263; 1.02443; 1.02635; 1.02842; 1.03064; 1.03301; 1.03555;
   1.03828; 1.04119; 1.0443; 1.04763; 1.05118; 1.05496; 1.059; 1.06329; 1.06785; 1.0727; 1.07785; 1.0833;
   1.08907; 1.09517; 1.1016; 1.10838; 1.11551; 1.123; 1.13085; 1.13907; 1.14765; 1.1566; 1.1659; 1.17556;
   1.18556; 1.19589; 1.20653; 1.21747; 1.22869; 1.24015; 1.25184; 1.26371; 1.27574; 1.28788; 1.30008;
   1.31232; 1.32452; 1.33666; 1.34866; 1.36047; 1.37205; 1.38331; 1.39422; 1.4047; 1.4147; 1.42416; 1.43302;
   1.44122; 1.44872; 1.45547; 1.46143; 1.46656; 1.47082; 1.47421; 1.47669; 1.47827; 1.47894; 1.47872;
   1.47762; 1.47567; 1.4729; 1.46935; 1.46509; 1.46016; 1.45464; 1.44858; 1.44206; 1.43517; 1.42796; 1.42052;
   1.41292; 1.40524; 1.39753; 1.38987; 1.3823; 1.37487; 1.36764; 1.36061; 1.35383; 1.34731; 1.34106; 1.33507;
   1.32935; 1.32387; 1.31862; 1.31358; 1.30871; 1.30397; 1.29933; 1.29475; 1.29017; 1.28554; 1.28081;
   1.27591; 1.27079; 1.26536; 1.25957; 1.25332; 1.24654; 1.23914; 1.23102; 1.22208; 1.2122; 1.20127; 1.18917;
   1.17577; 1.16094; 1.14452; 1.12639; 1.1064; 1.08441; 1.06028; 1.03389; 1.00515; 0.973966; 0.940294;
   0.904129; 0.865519; 0.824574; 0.781476; 0.736487; 0.68996; 0.642332; 0.594127; 0.545935; 0.498393;
   0.452151; 0.407821; 0.365936; 0.326904; 0.290967; 0.258199; 0.228518; 0.201736; 0.177613; 0.155925;
   0.136487; 0.119158; 0.103801; 0.0902637; 0.078373; 0.0679504; 0.0588336; 0.0508856; 0.043983; 0.037994;
   0.0328128; 0.0283333; 0.0244762; 0.0211468; 0.0182925; 0; 0; 0; 0; 0; 0; 0; 0; 0; 0; 0; 0; 0; 0; 0; 0; 0;
   0; 0; 0; 0; 0; 0; 0; 0; 0; 0; 0; 0; 0; 0; 0; 0; 0; 0; 0; 0];
  [1.01527; 1.01653; 1.01788; 1.01933; 1.02089; 1.02256; 1.02435; 1.02628; 1.02835; 1.03056; 1.03294;
   1.03549; 1.03821; 1.04113; 1.04425; 1.04758; 1.05114; 1.05494; 1.05899; 1.0633; 1.06789; 1.07276; 1.07794;
   1.08343; 1.08924; 1.09539; 1.10188; 1.10873; 1.11593; 1.12351; 1.13146; 1.13979; 1.14849; 1.15757;
   1.16703; 1.17685; 1.18704; 1.19757; 1.20844; 1.21962; 1.2311; 1.24285; 1.25483; 1.26703; 1.27941; 1.29192;
   1.30452; 1.31717; 1.32981; 1.3424; 1.35488; 1.3672; 1.37928; 1.39109; 1.40254; 1.41358; 1.42416; 1.43419;
   1.44364; 1.45244; 1.46054; 1.46788; 1.47443; 1.48014; 1.48499; 1.48894; 1.49198; 1.49409; 1.49528;
   1.49556; 1.49494; 1.49344; 1.4911; 1.48796; 1.48408; 1.47951; 1.47432; 1.46856; 1.46233; 1.45568; 1.44871;
   1.44148; 1.43406; 1.42654; 1.41898; 1.41144; 1.40398; 1.39665; 1.38948; 1.38252; 1.37578; 1.36929;
   1.36306; 1.35708; 1.35135; 1.34585; 1.34057; 1.33549; 1.33056; 1.32576; 1.32104; 1.31636; 1.31166;
   1.30691; 1.30203; 1.29697; 1.29166; 1.28603; 1.28; 1.2735; 1.26644; 1.25873; 1.25026; 1.24094; 1.23065;
   1.21927; 1.20668; 1.19275; 1.17733; 1.1603; 1.1415; 1.1208; 1.09805; 1.07312; 1.0459; 1.01629; 0.984204;
   0.949609; 0.912508; 0.872959; 0.831084; 0.787078; 0.74122; 0.693875; 0.645497; 0.596622; 0.547853;
   0.499831; 0.453209; 0.408593; 0.366505; 0.327337; 0.291311; 0.258482; 0.228753; 0.201926; 0.17776;
   0.156033; 0.136564; 0.119213; 0.103844; 0.0902976; 0.0783999; 0.0679714; 0.0588494; 0.0509006; 0.0439968;
   0.0380064; 0.0328248; 0.0283456; 0.0244886; 0.0211613; 0.0183063; 0; 0; 0; 0; 0; 0; 0; 0; 0; 0; 0; 0; 0;
   0; 0; 0; 0; 0; 0; 0; 0; 0; 0; 0; 0; 0; 0; 0; 0; 0; 0; 0; 0; 0; 0; 0; 0];
  [1.01521; 1.01646; 1.01781; 1.01926; 1.02081; 1.02248; 1.02428; 1.0262; 1.02827; 1.03048; 1.03286; 1.03541;
   1.03813; 1.04105; 1.04418; 1.04752; 1.05109; 1.0549; 1.05896; 1.06329; 1.0679; 1.0728; 1.078; 1.08353;
   1.08938; 1.09558; 1.10212; 1.10903; 1.11631; 1.12397; 1.13201; 1.14044; 1.14927; 1.15848; 1.16809;
   1.17807; 1.18844; 1.19917; 1.21026; 1.22168; 1.23341; 1.24544; 1.25773; 1.27026; 1.28298; 1.29586;
   1.30885; 1.32191; 1.335; 1.34805; 1.36101; 1.37383; 1.38644; 1.39878; 1.41079; 1.4224; 1.43356; 1.44419;
   1.45424; 1.46364; 1.47235; 1.4803; 1.48746; 1.49377; 1.49921; 1.50375; 1.50736; 1.51003; 1.51176; 1.51255;
   1.51242; 1.5114; 1.50951; 1.5068; 1.50332; 1.49912; 1.49427; 1.48884; 1.48289; 1.47652; 1.46978; 1.46277;
   1.45556; 1.44821; 1.4408; 1.43339; 1.42604; 1.4188; 1.41172; 1.40482; 1.39813; 1.39167; 1.38545; 1.37947;
   1.37373; 1.36821; 1.3629; 1.35776; 1.35277; 1.34788; 1.34307; 1.33827; 1.33345; 1.32855; 1.3235; 1.31826;
   1.31273; 1.30687; 1.30058; 1.29379; 1.28641; 1.27834; 1.26948; 1.25972; 1.24896; 1.23707; 1.22392;
   1.20938; 1.19331; 1.17557; 1.15602; 1.13452; 1.11092; 1.08509; 1.05693; 1.02634; 0.993249; 0.957627;
   0.919488; 0.878904; 0.836011; 0.791023; 0.744234; 0.696029; 0.646879; 0.597336; 0.548013; 0.499563;
   0.452631; 0.407821; 0.365636; 0.326445; 0.290447; 0.257669; 0.227998; 0.201223; 0.177102; 0.155418;
   0.135995; 0.118696; 0.10338; 0.0898872; 0.0780367; 0.0676507; 0.0585679; 0.0506561; 0.0437856; 0.0378246;
   0.0326689; 0.0282121; 0.0243764; 0.0210666; 0.0182247; 0; 0; 0; 0; 0; 0; 0; 0; 0; 0; 0; 0; 0; 0; 0; 0; 0;
   0; 0; 0; 0; 0; 0; 0; 0; 0; 0; 0; 0; 0; 0; 0; 0; 0; 0; 0; 0];
  [1.01514; 1.01639; 1.01774; 1.01918; 1.02073; 1.0224; 1.02419; 1.02612; 1.02818; 1.03039; 1.03277; 1.03532;
   1.03805; 1.04097; 1.0441; 1.04744; 1.05102; 1.05484; 1.05891; 1.06325; 1.06788; 1.0728; 1.07804; 1.08359;
   1.08949; 1.09573; 1.10232; 1.10929; 1.11664; 1.12438; 1.13251; 1.14105; 1.14998; 1.15933; 1.16907;
   1.17922; 1.18976; 1.20069; 1.21199; 1.22365; 1.23564; 1.24794; 1.26053; 1.27338; 1.28645; 1.29969;
   1.31308; 1.32656; 1.34009; 1.3536; 1.36705; 1.38037; 1.39351; 1.4064; 1.41897; 1.43116; 1.44291; 1.45414;
   1.46481; 1.47483; 1.48416; 1.49274; 1.50052; 1.50746; 1.51351; 1.51864; 1.52284; 1.52609; 1.52838;
   1.52971; 1.5301; 1.52957; 1.52816; 1.52589; 1.52283; 1.51902; 1.51454; 1.50944; 1.50381; 1.49771; 1.49124;
   1.48446; 1.47745; 1.47029; 1.46305; 1.45578; 1.44856; 1.44142; 1.43442; 1.42759; 1.42096; 1.41454;
   1.40834; 1.40237; 1.39663; 1.39109; 1.38575; 1.38056; 1.37551; 1.37056; 1.36565; 1.36076; 1.35582;
   1.35077; 1.34557; 1.34015; 1.33443; 1.32834; 1.32181; 1.31474; 1.30706; 1.29865; 1.28943; 1.27928;
   1.26808; 1.25571; 1.24205; 1.22695; 1.21028; 1.1919; 1.17166; 1.14942; 1.12505; 1.09841; 1.0694; 1.03793;
   1.00393; 0.967375; 0.928297; 0.886774; 0.842955; 0.797065; 0.749414; 0.700401; 0.65051; 0.600305; 0.55041;
   0.501479; 0.454161; 0.409052; 0.366645; 0.327291; 0.291171; 0.258298; 0.228542; 0.201689; 0.177495;
   0.155745; 0.136268; 0.118926; 0.103577; 0.0900564; 0.0781818; 0.0677749; 0.0586748; 0.050749; 0.043867;
   0.0378956; 0.0327323; 0.0282678; 0.0244268; 0.0211114; 0.0182648; 0; 0; 0; 0; 0; 0; 0; 0; 0; 0; 0; 0; 0;
   0; 0; 0; 0; 0; 0; 0; 0; 0; 0; 0; 0; 0; 0; 0; 0; 0; 0; 0; 0; 0; 0; 0; 0];
  [1.01506; 1.01631; 1.01766; 1.0191; 1.02065; 1.02231; 1.0241; 1.02602; 1.02808; 1.0303; 1.03267; 1.03522;
   1.03795; 1.04087; 1.044; 1.04735; 1.05093; 1.05476; 1.05884; 1.0632; 1.06784; 1.07279; 1.07804; 1.08363;
   1.08956; 1.09584; 1.10249; 1.10951; 1.11693; 1.12474; 1.13296; 1.14159; 1.15064; 1.1601; 1.16999; 1.18029;
   1.19101; 1.20213; 1.21364; 1.22552; 1.23776; 1.25034; 1.26323; 1.2764; 1.28981; 1.30342; 1.3172; 1.3311;
   1.34506; 1.35904; 1.37298; 1.38681; 1.40048; 1.41392; 1.42706; 1.43984; 1.45219; 1.46404; 1.47533;
   1.48599; 1.49596; 1.50518; 1.5136; 1.52117; 1.52785; 1.53361; 1.53842; 1.54226; 1.54513; 1.54702; 1.54795;
   1.54793; 1.54701; 1.5452; 1.54258; 1.53918; 1.53508; 1.53034; 1.52503; 1.51924; 1.51303; 1.5065; 1.49971;
   1.49275; 1.48568; 1.47856; 1.47147; 1.46444; 1.45753; 1.45078; 1.4442; 1.43782; 1.43165; 1.42569; 1.41994;
   1.41439; 1.409; 1.40377; 1.39865; 1.39362; 1.38862; 1.38361; 1.37853; 1.37334; 1.36797; 1.36235; 1.35641;
   1.35008; 1.34328; 1.33592; 1.3279; 1.31914; 1.30952; 1.29893; 1.28725; 1.27437; 1.26015; 1.24445; 1.22713;
   1.20805; 1.18707; 1.16404; 1.13883; 1.11132; 1.08139; 1.04897; 1.014; 0.976458; 0.936383; 0.893868;
   0.849074; 0.802243; 0.753698; 0.703856; 0.653215; 0.602353; 0.551901; 0.50252; 0.454857; 0.4095; 0.366926;
   0.327468; 0.291287; 0.258374; 0.228587; 0.201704; 0.177481; 0.155706; 0.136214; 0.118867; 0.103518;
   0.090001; 0.0781296; 0.0677264; 0.0586309; 0.0507109; 0.0438348; 0.0378678; 0.0327087; 0.0282509;
   0.0244116; 0.0211017; 0.0182587; 0; 0; 0; 0; 0; 0; 0; 0; 0; 0; 0; 0; 0; 0; 0; 0; 0; 0; 0; 0; 0; 0; 0; 0;
   0; 0; 0; 0; 0; 0; 0; 0; 0; 0; 0; 0; 0];
  [1.01499; 1.01623; 1.01757; 1.01901; 1.02056; 1.02222; 1.024; 1.02592; 1.02798; 1.03019; 1.03256; 1.03511;
   1.03784; 1.04076; 1.04389; 1.04724; 1.05083; 1.05466; 1.05875; 1.06312; 1.06778; 1.07274; 1.07802;
   1.08364; 1.08959; 1.09591; 1.10261; 1.10969; 1.11716; 1.12505; 1.13335; 1.14207; 1.15123; 1.16081;
   1.17084; 1.18129; 1.19217; 1.20348; 1.21519; 1.2273; 1.23979; 1.25264; 1.26582; 1.27931; 1.29306; 1.30704;
   1.32121; 1.33552; 1.34993; 1.36438; 1.3788; 1.39315; 1.40736; 1.42135; 1.43507; 1.44845; 1.46141; 1.47388;
   1.48581; 1.49711; 1.50773; 1.51761; 1.52668; 1.53491; 1.54224; 1.54864; 1.55408; 1.55854; 1.562; 1.56447;
   1.56596; 1.56648; 1.56607; 1.56475; 1.56258; 1.55961; 1.55591; 1.55154; 1.54658; 1.5411; 1.53519; 1.52891;
   1.52236; 1.51561; 1.50872; 1.50177; 1.49481; 1.48791; 1.4811; 1.47443; 1.46791; 1.46158; 1.45544; 1.4495;
   1.44374; 1.43817; 1.43276; 1.42748; 1.4223; 1.41718; 1.41208; 1.40696; 1.40176; 1.39641; 1.39087; 1.38506;
   1.3789; 1.37233; 1.36527; 1.35761; 1.34927; 1.34015; 1.33013; 1.31912; 1.30698; 1.29359; 1.27882; 1.26253;
   1.24458; 1.22482; 1.20312; 1.17933; 1.15331; 1.12496; 1.09416; 1.06082; 1.02492; 0.986425; 0.945393;
   0.901924; 0.856193; 0.808452; 0.759043; 0.708391; 0.657011; 0.60549; 0.554469; 0.504612; 0.456564;
   0.410906; 0.368104; 0.328474; 0.292159; 0.259136; 0.22925; 0.202273; 0.177965; 0.156114; 0.136559;
   0.11916; 0.103771; 0.0902191; 0.0783171; 0.0678876; 0.0587699; 0.0508317; 0.0439394; 0.0379598; 0.0327894;
   0.0283227; 0.0244747; 0.0211584; 0.0183092; 0; 0; 0; 0; 0; 0; 0; 0; 0; 0; 0; 0; 0; 0; 0; 0; 0; 0; 0; 0; 0;
   0; 0; 0; 0; 0; 0; 0; 0; 0; 0; 0; 0; 0; 0; 0; 0];
  [1.01491; 1.01615; 1.01749; 1.01892; 1.02046; 1.02212; 1.0239; 1.02581; 1.02787; 1.03008; 1.03245; 1.03499;
   1.03771; 1.04064; 1.04377; 1.04712; 1.05071; 1.05455; 1.05865; 1.06302; 1.06769; 1.07267; 1.07797;
   1.08361; 1.0896; 1.09595; 1.10269; 1.10982; 1.11735; 1.1253; 1.13368; 1.1425; 1.15175; 1.16145; 1.17161;
   1.18221; 1.19325; 1.20474; 1.21665; 1.22899; 1.24172; 1.25484; 1.26831; 1.2821; 1.29619; 1.31054; 1.3251;
   1.33983; 1.35468; 1.36959; 1.38451; 1.39937; 1.41412; 1.42867; 1.44298; 1.45696; 1.47054; 1.48365;
   1.49622; 1.50818; 1.51947; 1.53001; 1.53976; 1.54866; 1.55665; 1.56371; 1.5698; 1.57489; 1.57898; 1.58205;
   1.58412; 1.58519; 1.58531; 1.5845; 1.5828; 1.58028; 1.577; 1.57302; 1.56842; 1.56327; 1.55766; 1.55166;
   1.54535; 1.53882; 1.53212; 1.52534; 1.51854; 1.51176; 1.50505; 1.49846; 1.49201; 1.48573; 1.47961;
   1.47368; 1.46792; 1.46233; 1.45687; 1.45154; 1.44628; 1.44107; 1.43587; 1.43061; 1.42526; 1.41974; 1.414;
   1.40797; 1.40157; 1.39473; 1.38735; 1.37936; 1.37065; 1.36112; 1.35066; 1.33916; 1.32649; 1.31253;
   1.29714; 1.28018; 1.26151; 1.24099; 1.21847; 1.19382; 1.1669; 1.1376; 1.10581; 1.07146; 1.03451; 0.994962;
   0.952873; 0.908359; 0.861607; 0.812889; 0.762561; 0.711068; 0.658937; 0.606771; 0.555219; 0.504948;
   0.456599; 0.410742; 0.367825; 0.328143; 0.291814; 0.258793; 0.228914; 0.201942; 0.177637; 0.155794;
   0.136254; 0.118879; 0.103517; 0.0899908; 0.0781131; 0.0677062; 0.0586102; 0.0506927; 0.0438185; 0.0378561;
   0.0327019; 0.0282481; 0.024413; 0.0211092; 0.0182667; 0; 0; 0; 0; 0; 0; 0; 0; 0; 0; 0; 0; 0; 0; 0; 0; 0;
   0; 0; 0; 0; 0; 0; 0; 0; 0; 0; 0; 0; 0; 0; 0; 0; 0; 0; 0; 0];
  [1.01482; 1.01606; 1.01739; 1.01882; 1.02036; 1.02202; 1.02379; 1.0257; 1.02775; 1.02995; 1.03232; 1.03486;
   1.03758; 1.0405; 1.04363; 1.04698; 1.05057; 1.05441; 1.05852; 1.0629; 1.06758; 1.07258; 1.07789; 1.08355;
   1.08957; 1.09595; 1.10273; 1.1099; 1.11749; 1.12551; 1.13396; 1.14286; 1.15221; 1.16202; 1.1723; 1.18304;
   1.19425; 1.20591; 1.21802; 1.23057; 1.24355; 1.25692; 1.27068; 1.28478; 1.29921; 1.31391; 1.32886;
   1.34401; 1.3593; 1.37467; 1.39009; 1.40547; 1.42076; 1.43588; 1.45078; 1.46536; 1.47957; 1.49333; 1.50656;
   1.51919; 1.53116; 1.54239; 1.55282; 1.56241; 1.57109; 1.57882; 1.58558; 1.59133; 1.59605; 1.59975;
   1.60241; 1.60407; 1.60473; 1.60445; 1.60325; 1.6012; 1.59836; 1.59478; 1.59056; 1.58576; 1.58046; 1.57475;
   1.56871; 1.5624; 1.55592; 1.54932; 1.54267; 1.53602; 1.52943; 1.52293; 1.51654; 1.51031; 1.50423; 1.49831;
   1.49254; 1.48692; 1.48143; 1.47603; 1.4707; 1.46539; 1.46007; 1.45468; 1.44916; 1.44346; 1.43752; 1.43125;
   1.4246; 1.41746; 1.40977; 1.40142; 1.39232; 1.38237; 1.37144; 1.35943; 1.34621; 1.33166; 1.31562; 1.29797;
   1.27856; 1.25725; 1.23389; 1.20835; 1.18049; 1.15021; 1.11741; 1.08202; 1.04401; 1.00339; 0.960225;
   0.914652; 0.866871; 0.817169; 0.765921; 0.713587; 0.660712; 0.607911; 0.555839; 0.505168; 0.456533;
   0.410491; 0.367473; 0.327747; 0.291411; 0.258399; 0.22853; 0.201566; 0.177267; 0.155437; 0.135917;
   0.11857; 0.103238; 0.0897408; 0.0778899; 0.0675077; 0.0584357; 0.0505414; 0.0436872; 0.0377427; 0.032606;
   0.0281665; 0.0243454; 0.0210529; 0.0182206; 0; 0; 0; 0; 0; 0; 0; 0; 0; 0; 0; 0; 0; 0; 0; 0; 0; 0; 0; 0; 0;
   0; 0; 0; 0; 0; 0; 0; 0; 0; 0; 0; 0; 0; 0; 0; 0];
  [1.01474; 1.01597; 1.0173; 1.01872; 1.02026; 1.0219; 1.02368; 1.02558; 1.02762; 1.02982; 1.03218; 1.03472;
   1.03744; 1.04035; 1.04348; 1.04683; 1.05042; 1.05426; 1.05837; 1.06276; 1.06745; 1.07245; 1.07778;
   1.08346; 1.0895; 1.09592; 1.10273; 1.10994; 1.11758; 1.12566; 1.13418; 1.14316; 1.15261; 1.16252; 1.17292;
   1.1838; 1.19516; 1.20699; 1.2193; 1.23206; 1.24526; 1.2589; 1.27293; 1.28734; 1.3021; 1.31717; 1.3325;
   1.34806; 1.36379; 1.37963; 1.39554; 1.41144; 1.42728; 1.44298; 1.45846; 1.47367; 1.48851; 1.50292;
   1.51682; 1.53014; 1.5428; 1.55473; 1.56587; 1.57616; 1.58554; 1.59397; 1.60142; 1.60784; 1.61323; 1.61757;
   1.62085; 1.62311; 1.62435; 1.62461; 1.62394; 1.62237; 1.61999; 1.61684; 1.61302; 1.60858; 1.60362;
   1.59821; 1.59244; 1.58639; 1.58012; 1.57372; 1.56723; 1.56073; 1.55426; 1.54785; 1.54155; 1.53537;
   1.52932; 1.52342; 1.51765; 1.51201; 1.50648; 1.50102; 1.49562; 1.49021; 1.48478; 1.47925; 1.47357; 1.4677;
   1.46154; 1.45505; 1.44813; 1.44071; 1.4327; 1.424; 1.41452; 1.40414; 1.39276; 1.38025; 1.36649; 1.35134;
   1.33467; 1.31634; 1.29621; 1.27413; 1.24995; 1.22355; 1.19479; 1.16356; 1.12979; 1.09339; 1.05436; 1.0127;
   0.968507; 0.921913; 0.873139; 0.822486; 0.770344; 0.717188; 0.663578; 0.610138; 0.557532; 0.506432;
   0.457468; 0.411188; 0.368004; 0.328166; 0.29175; 0.258677; 0.228751; 0.201734; 0.177387; 0.155517;
   0.135971; 0.118606; 0.103264; 0.0897584; 0.0779011; 0.0675145; 0.05844; 0.0505461; 0.0436908; 0.0377483;
   0.0326109; 0.0281717; 0.0243487; 0.0210602; 0.018228; 0; 0; 0; 0; 0; 0; 0; 0; 0; 0; 0; 0; 0; 0; 0; 0; 0;
   0; 0; 0; 0; 0; 0; 0; 0; 0; 0; 0; 0; 0; 0; 0; 0; 0; 0; 0; 0];
  [1.01465; 1.01588; 1.0172; 1.01862; 1.02014; 1.02179; 1.02355; 1.02545; 1.02749; 1.02968; 1.03204; 1.03456;
   1.03728; 1.04019; 1.04331; 1.04666; 1.05025; 1.05409; 1.0582; 1.0626; 1.06729; 1.0723; 1.07765; 1.08334;
   1.0894; 1.09584; 1.10268; 1.10994; 1.11763; 1.12576; 1.13434; 1.1434; 1.15293; 1.16295; 1.17347; 1.18448;
   1.19598; 1.20798; 1.22047; 1.23344; 1.24687; 1.26076; 1.27507; 1.28979; 1.30487; 1.32029; 1.33601;
   1.35197; 1.36814; 1.38446; 1.40086; 1.41729; 1.43367; 1.44994; 1.46603; 1.48186; 1.49735; 1.51242; 1.527;
   1.54101; 1.55438; 1.56702; 1.57888; 1.5899; 1.6; 1.60915; 1.6173; 1.62443; 1.63049; 1.6355; 1.63943;
   1.64231; 1.64415; 1.64498; 1.64485; 1.6438; 1.64189; 1.6392; 1.63578; 1.63174; 1.62713; 1.62204; 1.61657;
   1.61077; 1.60474; 1.59854; 1.59224; 1.58589; 1.57954; 1.57325; 1.56703; 1.56091; 1.55491; 1.54903;
   1.54327; 1.53761; 1.53204; 1.52653; 1.52105; 1.51556; 1.51; 1.50434; 1.49851; 1.49245; 1.4861; 1.47937;
   1.4722; 1.4645; 1.45617; 1.44713; 1.43727; 1.42648; 1.41464; 1.40164; 1.38735; 1.37163; 1.35435; 1.33536;
   1.31452; 1.29169; 1.26672; 1.23949; 1.20986; 1.17773; 1.14301; 1.10565; 1.06563; 1.02299; 0.977799;
   0.930224; 0.880492; 0.828918; 0.775905; 0.721942; 0.6676; 0.613512; 0.560348; 0.508783; 0.459441;
   0.412861; 0.369442; 0.329418; 0.292849; 0.25964; 0.229591; 0.202457; 0.178006; 0.156045; 0.136422;
   0.118995; 0.1036; 0.0900488; 0.0781521; 0.0677296; 0.0586263; 0.050708; 0.0438314; 0.0378706; 0.0327164;
   0.0282651; 0.0244312; 0.0211332; 0.018293; 0; 0; 0; 0; 0; 0; 0; 0; 0; 0; 0; 0; 0; 0; 0; 0; 0; 0; 0; 0; 0;
   0; 0; 0; 0; 0; 0; 0; 0; 0; 0; 0; 0; 0; 0; 0; 0];
  [1.01455; 1.01578; 1.01709; 1.01851; 1.02003; 1.02166; 1.02342; 1.02531; 1.02735; 1.02953; 1.03188; 1.0344;
   1.03711; 1.04002; 1.04314; 1.04648; 1.05006; 1.0539; 1.05801; 1.06241; 1.06711; 1.07212; 1.07748; 1.08318;
   1.08926; 1.09573; 1.1026; 1.10989; 1.11762; 1.1258; 1.13445; 1.14357; 1.15319; 1.16331; 1.17393; 1.18507;
   1.19671; 1.20888; 1.22155; 1.23472; 1.24837; 1.26251; 1.27709; 1.2921; 1.30751; 1.32328; 1.33938; 1.35575;
   1.37236; 1.38914; 1.40604; 1.42299; 1.43993; 1.45678; 1.47347; 1.48993; 1.50607; 1.52182; 1.53709;
   1.55181; 1.56589; 1.57927; 1.59187; 1.60362; 1.61446; 1.62435; 1.63323; 1.64107; 1.64785; 1.65354;
   1.65814; 1.66167; 1.66413; 1.66555; 1.66598; 1.66547; 1.66407; 1.66184; 1.65887; 1.65523; 1.651; 1.64625;
   1.64108; 1.63557; 1.62979; 1.62381; 1.6177; 1.61152; 1.60532; 1.59914; 1.59301; 1.58697; 1.58102; 1.57517;
   1.56942; 1.56376; 1.55816; 1.55261; 1.54706; 1.54148; 1.53582; 1.53003; 1.52406; 1.51783; 1.51128;
   1.50434; 1.49693; 1.48896; 1.48034; 1.47097; 1.46075; 1.44957; 1.43731; 1.42385; 1.40906; 1.39281;
   1.37495; 1.35535; 1.33387; 1.31034; 1.28465; 1.25665; 1.22622; 1.19326; 1.15768; 1.11943; 1.07851;
   1.03495; 0.988848; 0.940361; 0.889732; 0.837286; 0.783437; 0.728684; 0.673606; 0.618845; 0.565076;
   0.512973; 0.463162; 0.416173; 0.372399; 0.332062; 0.295212; 0.261747; 0.231463; 0.204111; 0.17946;
   0.15732; 0.137539; 0.119973; 0.104455; 0.0907947; 0.0788016; 0.0682942; 0.0591168; 0.0511339; 0.0442008;
   0.0381911; 0.0329944; 0.0285063; 0.0246407; 0.0213153; 0.0184516; 0; 0; 0; 0; 0; 0; 0; 0; 0; 0; 0; 0; 0;
   0; 0; 0; 0; 0; 0; 0; 0; 0; 0; 0; 0; 0; 0; 0; 0; 0; 0; 0; 0; 0; 0; 0; 0];
  [1.01445; 1.01567; 1.01698; 1.01839; 1.01991; 1.02153; 1.02329; 1.02517; 1.0272; 1.02937; 1.03171; 1.03423;
   1.03693; 1.03983; 1.04294; 1.04628; 1.04986; 1.0537; 1.0578; 1.0622; 1.0669; 1.07192; 1.07728; 1.083;
   1.08909; 1.09557; 1.10247; 1.10979; 1.11756; 1.12579; 1.13449; 1.14369; 1.15338; 1.16359; 1.17432;
   1.18557; 1.19736; 1.20967; 1.22252; 1.23588; 1.24976; 1.26413; 1.27898; 1.29428; 1.31001; 1.32613; 1.3426;
   1.35938; 1.37642; 1.39367; 1.41106; 1.42854; 1.44603; 1.46347; 1.48077; 1.49786; 1.51466; 1.53109;
   1.54706; 1.5625; 1.57731; 1.59143; 1.60478; 1.61729; 1.62889; 1.63954; 1.64917; 1.65775; 1.66525; 1.67165;
   1.67695; 1.68114; 1.68424; 1.68629; 1.68731; 1.68735; 1.68647; 1.68474; 1.68223; 1.67901; 1.67516;
   1.67078; 1.66594; 1.66072; 1.65519; 1.64945; 1.64354; 1.63754; 1.63149; 1.62543; 1.61941; 1.61344;
   1.60754; 1.60173; 1.59599; 1.59031; 1.58468; 1.57908; 1.57345; 1.56778; 1.562; 1.55608; 1.54994; 1.54353;
   1.53677; 1.52959; 1.52191; 1.51365; 1.5047; 1.49498; 1.48437; 1.47276; 1.46004; 1.44608; 1.43075; 1.41392;
   1.39544; 1.37517; 1.35298; 1.32871; 1.30222; 1.27339; 1.2421; 1.20824; 1.17173; 1.13254; 1.09065; 1.04611;
   0.999029; 0.949576; 0.898004; 0.844648; 0.789936; 0.734377; 0.678562; 0.623139; 0.56879; 0.516189;
   0.465958; 0.418619; 0.374554; 0.333971; 0.296907; 0.263249; 0.232785; 0.205268; 0.180467; 0.158195;
   0.138299; 0.120635; 0.105031; 0.0912954; 0.0792358; 0.0686704; 0.0594433; 0.0514171; 0.0444465; 0.0384043;
   0.0331798; 0.0286699; 0.0247812; 0.0214382; 0.018559; 0; 0; 0; 0; 0; 0; 0; 0; 0; 0; 0; 0; 0; 0; 0; 0; 0;
   0; 0; 0; 0; 0; 0; 0; 0; 0; 0; 0; 0; 0; 0; 0; 0; 0; 0; 0; 0];
  [1.01435; 1.01556; 1.01687; 1.01827; 1.01978; 1.0214; 1.02314; 1.02502; 1.02704; 1.02921; 1.03154; 1.03405;
   1.03674; 1.03963; 1.04274; 1.04607; 1.04964; 1.05347; 1.05757; 1.06196; 1.06666; 1.07169; 1.07705;
   1.08278; 1.08888; 1.09538; 1.1023; 1.10965; 1.11745; 1.12572; 1.13448; 1.14373; 1.1535; 1.16379; 1.17462;
   1.18599; 1.1979; 1.21037; 1.22338; 1.23693; 1.25102; 1.26562; 1.28073; 1.29632; 1.31236; 1.32882; 1.34566;
   1.36284; 1.38031; 1.39802; 1.4159; 1.4339; 1.45194; 1.46996; 1.48787; 1.5056; 1.52306; 1.54017; 1.55685;
   1.57301; 1.58857; 1.60344; 1.61755; 1.63083; 1.6432; 1.65461; 1.665; 1.67434; 1.68258; 1.68971; 1.69571;
   1.70059; 1.70435; 1.70702; 1.70864; 1.70926; 1.70892; 1.70769; 1.70564; 1.70285; 1.69941; 1.69538;
   1.69087; 1.68594; 1.68068; 1.67515; 1.66944; 1.6636; 1.65768; 1.65173; 1.64578; 1.63986; 1.63398; 1.62816;
   1.62238; 1.61665; 1.61093; 1.6052; 1.59944; 1.59358; 1.5876; 1.58143; 1.57502; 1.5683; 1.56119; 1.55362;
   1.54551; 1.53676; 1.52729; 1.51698; 1.50573; 1.49343; 1.47995; 1.46517; 1.44896; 1.43117; 1.41167;
   1.39031; 1.36695; 1.34144; 1.31366; 1.28346; 1.25074; 1.21541; 1.1774; 1.13667; 1.09324; 1.04718;
   0.998608; 0.947727; 0.894817; 0.840246; 0.78447; 0.728028; 0.671533; 0.615652; 0.56107; 0.508454;
   0.458404; 0.411407; 0.367793; 0.327724; 0.291187; 0.258036; 0.228041; 0.200954; 0.176555; 0.154667;
   0.135145; 0.117834; 0.102556; 0.089116; 0.0773205; 0.0669924; 0.0579807; 0.0501468; 0.0433435; 0.0374517;
   0.0323575; 0.027963; 0.0241732; 0.0209201; 0; 0; 0; 0; 0; 0; 0; 0; 0; 0; 0; 0; 0; 0; 0; 0; 0; 0; 0; 0; 0;
   0; 0; 0; 0; 0; 0; 0; 0; 0; 0; 0; 0; 0; 0; 0; 0; 0];
  [1.01424; 1.01545; 1.01675; 1.01814; 1.01964; 1.02126; 1.02299; 1.02486; 1.02687; 1.02903; 1.03136;
   1.03385; 1.03654; 1.03942; 1.04251; 1.04584; 1.0494; 1.05322; 1.05732; 1.06171; 1.0664; 1.07143; 1.07679;
   1.08252; 1.08864; 1.09515; 1.10208; 1.10946; 1.11729; 1.1256; 1.1344; 1.14371; 1.15355; 1.16392; 1.17484;
   1.18632; 1.19836; 1.21096; 1.22413; 1.23787; 1.25216; 1.267; 1.28236; 1.29823; 1.31458; 1.33137; 1.34858;
   1.36616; 1.38406; 1.40223; 1.4206; 1.43912; 1.45772; 1.47632; 1.49485; 1.51322; 1.53136; 1.54916; 1.56656;
   1.58346; 1.59977; 1.61541; 1.63031; 1.64437; 1.65753; 1.66974; 1.68092; 1.69104; 1.70005; 1.70793;
   1.71467; 1.72027; 1.72472; 1.72806; 1.73031; 1.73153; 1.73176; 1.73106; 1.72952; 1.7272; 1.72418; 1.72055;
   1.71639; 1.71178; 1.70681; 1.70155; 1.69606; 1.69042; 1.68467; 1.67886; 1.67302; 1.66718; 1.66137;
   1.65558; 1.64982; 1.64407; 1.63832; 1.63253; 1.62668; 1.62073; 1.61462; 1.60829; 1.6017; 1.59477; 1.58743;
   1.5796; 1.5712; 1.56213; 1.5523; 1.54161; 1.52994; 1.51718; 1.5032; 1.48788; 1.47109; 1.45268; 1.43252;
   1.41045; 1.38635; 1.36005; 1.33144; 1.30038; 1.26676; 1.2305; 1.19152; 1.14982; 1.1054; 1.05834; 1.00878;
   0.956921; 0.903063; 0.847582; 0.790947; 0.733706; 0.676486; 0.619956; 0.564808; 0.511707; 0.461248;
   0.413908; 0.370006; 0.329688; 0.29293; 0.259578; 0.229397; 0.202139; 0.177586; 0.155564; 0.135925;
   0.118513; 0.103147; 0.0896293; 0.0777654; 0.067378; 0.058315; 0.0504369; 0.043595; 0.0376699; 0.0325472;
   0.0281278; 0.0243174; 0.0210459; 0; 0; 0; 0; 0; 0; 0; 0; 0; 0; 0; 0; 0; 0; 0; 0; 0; 0; 0; 0; 0; 0; 0; 0;
   0; 0; 0; 0; 0; 0; 0; 0; 0; 0; 0; 0; 0; 0];
  [1.01413; 1.01533; 1.01662; 1.01801; 1.0195; 1.02111; 1.02284; 1.0247; 1.0267; 1.02885; 1.03116; 1.03365;
   1.03632; 1.03919; 1.04228; 1.04559; 1.04915; 1.05296; 1.05705; 1.06143; 1.06612; 1.07114; 1.0765; 1.08224;
   1.08835; 1.09488; 1.10183; 1.10922; 1.11708; 1.12542; 1.13426; 1.14362; 1.15352; 1.16397; 1.17497;
   1.18655; 1.19871; 1.21145; 1.22478; 1.23869; 1.25318; 1.26824; 1.28385; 1.29999; 1.31664; 1.33377;
   1.35134; 1.36931; 1.38763; 1.40625; 1.42512; 1.44416; 1.46332; 1.4825; 1.50165; 1.52067; 1.53948; 1.55799;
   1.57611; 1.59375; 1.61083; 1.62726; 1.64294; 1.65781; 1.67179; 1.6848; 1.69679; 1.70771; 1.71751; 1.72617;
   1.73367; 1.74; 1.74517; 1.74919; 1.7521; 1.75394; 1.75476; 1.75463; 1.7536; 1.75176; 1.74919; 1.74597;
   1.74219; 1.73792; 1.73325; 1.72826; 1.72301; 1.71757; 1.71199; 1.70632; 1.70059; 1.69484; 1.68909;
   1.68333; 1.67757; 1.6718; 1.666; 1.66015; 1.6542; 1.64812; 1.64186; 1.63536; 1.62856; 1.6214; 1.61379;
   1.60566; 1.59693; 1.58749; 1.57726; 1.56613; 1.55397; 1.54069; 1.52615; 1.51022; 1.49277; 1.47367;
   1.45275; 1.42989; 1.40494; 1.37776; 1.34821; 1.31617; 1.28154; 1.24424; 1.20419; 1.1614; 1.11588; 1.06772;
   1.01707; 0.964153; 0.909277; 0.852834; 0.795307; 0.737261; 0.679332; 0.622198; 0.566552; 0.513059;
   0.462302; 0.414743; 0.370685; 0.330251; 0.293401; 0.259967; 0.22971; 0.202383; 0.177771; 0.155703;
   0.136032; 0.118597; 0.103214; 0.089682; 0.0778066; 0.0674111; 0.0583422; 0.0504609; 0.0436151; 0.0376885;
   0.0325643; 0.028145; 0.0243325; 0.0210608; 0; 0; 0; 0; 0; 0; 0; 0; 0; 0; 0; 0; 0; 0; 0; 0; 0; 0; 0; 0; 0;
   0; 0; 0; 0; 0; 0; 0; 0; 0; 0; 0; 0; 0; 0; 0; 0; 0];
  [1.01402; 1.01521; 1.0165; 1.01788; 1.01936; 1.02096; 1.02268; 1.02452; 1.02651; 1.02865; 1.03096; 1.03343;
   1.03609; 1.03895; 1.04203; 1.04533; 1.04887; 1.05268; 1.05675; 1.06113; 1.06581; 1.07082; 1.07618;
   1.08191; 1.08803; 1.09456; 1.10152; 1.10893; 1.11681; 1.12518; 1.13406; 1.14347; 1.15342; 1.16394;
   1.17502; 1.1867; 1.19897; 1.21184; 1.22531; 1.23939; 1.25407; 1.26934; 1.28519; 1.3016; 1.31855; 1.336;
   1.35393; 1.37228; 1.39103; 1.4101; 1.42946; 1.44902; 1.46873; 1.4885; 1.50827; 1.52794; 1.54743; 1.56664;
   1.5855; 1.6039; 1.62176; 1.63898; 1.65548; 1.67117; 1.68597; 1.69981; 1.71263; 1.72437; 1.73499; 1.74445;
   1.75273; 1.75983; 1.76574; 1.77047; 1.77407; 1.77656; 1.778; 1.77844; 1.77796; 1.77663; 1.77453; 1.77174;
   1.76835; 1.76445; 1.7601; 1.75539; 1.75039; 1.74517; 1.73978; 1.73427; 1.72867; 1.72302; 1.71733; 1.71162;
   1.70587; 1.7001; 1.69426; 1.68834; 1.68231; 1.67612; 1.66972; 1.66305; 1.65606; 1.64867; 1.64082; 1.63241;
   1.62336; 1.61358; 1.60297; 1.59142; 1.57881; 1.56504; 1.54997; 1.53347; 1.51541; 1.49565; 1.47404;
   1.45045; 1.42471; 1.39671; 1.3663; 1.33337; 1.29781; 1.25954; 1.21851; 1.17472; 1.12818; 1.07901; 1.02735;
   0.973447; 0.91761; 0.860249; 0.801858; 0.743011; 0.684354; 0.626572; 0.570361; 0.516384; 0.465217;
   0.417313; 0.372961; 0.332273; 0.295196; 0.261553; 0.231104; 0.2036; 0.17883; 0.156623; 0.136832; 0.119295;
   0.103821; 0.0902086; 0.0782629; 0.0678065; 0.0586849; 0.0507581; 0.0438726; 0.0379119; 0.0327569;
   0.0283135; 0.0244792; 0.0211892; 0; 0; 0; 0; 0; 0; 0; 0; 0; 0; 0; 0; 0; 0; 0; 0; 0; 0; 0; 0; 0; 0; 0; 0;
   0; 0; 0; 0; 0; 0; 0; 0; 0; 0; 0; 0; 0; 0];
  [1.0139; 1.01509; 1.01636; 1.01773; 1.01921; 1.0208; 1.02251; 1.02434; 1.02632; 1.02845; 1.03074; 1.0332;
   1.03585; 1.0387; 1.04176; 1.04505; 1.04858; 1.05237; 1.05644; 1.0608; 1.06547; 1.07048; 1.07583; 1.08156;
   1.08768; 1.09421; 1.10117; 1.10859; 1.11649; 1.12488; 1.1338; 1.14324; 1.15325; 1.16382; 1.17499; 1.18675;
   1.19912; 1.21211; 1.22573; 1.23997; 1.25483; 1.27031; 1.28639; 1.30306; 1.32029; 1.33806; 1.35633;
   1.37507; 1.39423; 1.41375; 1.43359; 1.45367; 1.47393; 1.49429; 1.51467; 1.53499; 1.55517; 1.5751; 1.59469;
   1.61386; 1.6325; 1.65053; 1.66785; 1.68437; 1.70001; 1.7147; 1.72836; 1.74095; 1.7524; 1.76268; 1.77177;
   1.77965; 1.78631; 1.79178; 1.79608; 1.79925; 1.80132; 1.80237; 1.80245; 1.80164; 1.80003; 1.79769;
   1.79471; 1.79117; 1.78715; 1.78274; 1.778; 1.773; 1.76779; 1.76243; 1.75696; 1.7514; 1.74577; 1.74008;
   1.73434; 1.72853; 1.72263; 1.71663; 1.71048; 1.70413; 1.69755; 1.69068; 1.68344; 1.67578; 1.66761;
   1.65885; 1.64942; 1.63921; 1.62813; 1.61607; 1.60291; 1.58853; 1.57281; 1.55561; 1.5368; 1.51623; 1.49377;
   1.46926; 1.44257; 1.41356; 1.3821; 1.34807; 1.31137; 1.27193; 1.2297; 1.1847; 1.13695; 1.08657; 1.03373;
   0.978683; 0.921765; 0.863398; 0.804097; 0.74445; 0.685116; 0.626788; 0.570164; 0.515896; 0.464551;
   0.416557; 0.37218; 0.331504; 0.294455; 0.260843; 0.230421; 0.202944; 0.178206; 0.15604; 0.136298;
   0.118813; 0.103389; 0.0898239; 0.0779196; 0.0675039; 0.0584196; 0.0505267; 0.0436723; 0.0377398;
   0.0326093; 0.028188; 0.0243724; 0.0210973; 0; 0; 0; 0; 0; 0; 0; 0; 0; 0; 0; 0; 0; 0; 0; 0; 0; 0; 0; 0; 0;
   0; 0; 0; 0; 0; 0; 0; 0; 0; 0; 0; 0; 0; 0; 0; 0; 0];
  [1.01378; 1.01496; 1.01622; 1.01759; 1.01905; 1.02063; 1.02233; 1.02416; 1.02612; 1.02824; 1.03052;
   1.03297; 1.0356; 1.03844; 1.04148; 1.04476; 1.04827; 1.05205; 1.0561; 1.06045; 1.06511; 1.0701; 1.07545;
   1.08117; 1.08728; 1.09381; 1.10078; 1.10821; 1.11612; 1.12453; 1.13347; 1.14295; 1.153; 1.16363; 1.17486;
   1.1867; 1.19917; 1.21228; 1.22603; 1.24042; 1.25546; 1.27114; 1.28744; 1.30436; 1.32187; 1.33995; 1.35857;
   1.37768; 1.39725; 1.41722; 1.43753; 1.45813; 1.47894; 1.49989; 1.52089; 1.54187; 1.56273; 1.58338;
   1.60372; 1.62367; 1.64311; 1.66195; 1.68011; 1.69748; 1.71399; 1.72954; 1.74408; 1.75753; 1.76984;
   1.78097; 1.79089; 1.79958; 1.80704; 1.81328; 1.81831; 1.82218; 1.82492; 1.8266; 1.82728; 1.82703; 1.82593;
   1.82407; 1.82153; 1.81838; 1.81473; 1.81064; 1.80618; 1.80143; 1.79644; 1.79126; 1.78594; 1.78049;
   1.77495; 1.76933; 1.76362; 1.75781; 1.75189; 1.74583; 1.7396; 1.73315; 1.72644; 1.71941; 1.71198; 1.70411;
   1.69569; 1.68666; 1.67692; 1.66638; 1.65494; 1.64247; 1.62888; 1.61403; 1.5978; 1.58006; 1.56067; 1.53949;
   1.51637; 1.49117; 1.46375; 1.43397; 1.40171; 1.36685; 1.32928; 1.28896; 1.24583; 1.19989; 1.15121;
   1.09988; 1.0461; 0.990125; 0.932295; 0.873044; 0.812893; 0.752441; 0.692353; 0.633326; 0.576061; 0.521211;
   0.469338; 0.420869; 0.376059; 0.334988; 0.297575; 0.263626; 0.232894; 0.205132; 0.180135; 0.157738;
   0.137789; 0.120119; 0.104532; 0.0908204; 0.0787874; 0.0682583; 0.0590748; 0.051095; 0.0441647; 0.0381662;
   0.0329786; 0.0285075; 0.0246494; 0.0213374; 0; 0; 0; 0; 0; 0; 0; 0; 0; 0; 0; 0; 0; 0; 0; 0; 0; 0; 0; 0; 0;
   0; 0; 0; 0; 0; 0; 0; 0; 0; 0; 0; 0; 0; 0; 0; 0; 0];
  [1.01365; 1.01482; 1.01608; 1.01743; 1.01889; 1.02046; 1.02214; 1.02396; 1.02591; 1.02802; 1.03028;
   1.03272; 1.03534; 1.03816; 1.04119; 1.04444; 1.04795; 1.05171; 1.05574; 1.06007; 1.06472; 1.0697; 1.07503;
   1.08074; 1.08685; 1.09337; 1.10034; 1.10777; 1.11568; 1.12411; 1.13307; 1.14258; 1.15267; 1.16335;
   1.17464; 1.18656; 1.19912; 1.21233; 1.2262; 1.24074; 1.25594; 1.27181; 1.28833; 1.30549; 1.32327; 1.34166;
   1.36061; 1.38008; 1.40005; 1.42046; 1.44124; 1.46235; 1.4837; 1.50523; 1.52685; 1.54848; 1.57003; 1.5914;
   1.6125; 1.63322; 1.65346; 1.67313; 1.69213; 1.71037; 1.72774; 1.74418; 1.75959; 1.77393; 1.78711; 1.79911;
   1.80988; 1.8194; 1.82767; 1.83468; 1.84047; 1.84506; 1.84848; 1.85081; 1.85209; 1.85241; 1.85184; 1.85047;
   1.84836; 1.84562; 1.84233; 1.83856; 1.83438; 1.82987; 1.82509; 1.82007; 1.81488; 1.80953; 1.80405;
   1.79845; 1.79273; 1.78688; 1.78089; 1.77472; 1.76835; 1.76173; 1.7548; 1.74752; 1.73981; 1.73161; 1.72284;
   1.71341; 1.70322; 1.69219; 1.68021; 1.66716; 1.65293; 1.6374; 1.62043; 1.60189; 1.58165; 1.55956; 1.53548;
   1.50926; 1.48077; 1.44986; 1.41642; 1.38034; 1.34152; 1.2999; 1.25545; 1.20819; 1.15818; 1.10556; 1.05051;
   0.993324; 0.93436; 0.874074; 0.813006; 0.751773; 0.691053; 0.63155; 0.573963; 0.518934; 0.467007;
   0.418578; 0.373872; 0.332937; 0.295669; 0.261857; 0.231251; 0.20361; 0.178734; 0.156462; 0.136641;
   0.119095; 0.103622; 0.0900149; 0.0780768; 0.0676331; 0.0585322; 0.0506221; 0.0437536; 0.0378122;
   0.0326737; 0.0282469; 0.0244277; 0.0211483; 0; 0; 0; 0; 0; 0; 0; 0; 0; 0; 0; 0; 0; 0; 0; 0; 0; 0; 0; 0; 0;
   0; 0; 0; 0; 0; 0; 0; 0; 0; 0; 0; 0; 0; 0; 0; 0; 0];
  [1.01352; 1.01468; 1.01593; 1.01728; 1.01872; 1.02028; 1.02195; 1.02376; 1.0257; 1.02779; 1.03004; 1.03246;
   1.03506; 1.03786; 1.04088; 1.04412; 1.0476; 1.05134; 1.05536; 1.05967; 1.0643; 1.06927; 1.07458; 1.08028;
   1.08637; 1.09289; 1.09985; 1.10728; 1.1152; 1.12363; 1.13261; 1.14214; 1.15226; 1.16298; 1.17433; 1.18631;
   1.19895; 1.21226; 1.22625; 1.24093; 1.25629; 1.27233; 1.28906; 1.30646; 1.32451; 1.34318; 1.36246; 1.3823;
   1.40266; 1.42349; 1.44475; 1.46636; 1.48826; 1.51037; 1.53261; 1.5549; 1.57714; 1.59923; 1.62109; 1.6426;
   1.66366; 1.68417; 1.70403; 1.72315; 1.74142; 1.75875; 1.77508; 1.79031; 1.8044; 1.81729; 1.82894; 1.83933;
   1.84844; 1.85627; 1.86285; 1.86819; 1.87234; 1.87535; 1.87728; 1.8782; 1.87819; 1.87733; 1.87571; 1.87341;
   1.87051; 1.86709; 1.86323; 1.859; 1.85445; 1.84964; 1.84461; 1.8394; 1.83402; 1.82848; 1.8228; 1.81696;
   1.81094; 1.80472; 1.79826; 1.79153; 1.78446; 1.77701; 1.7691; 1.76067; 1.75163; 1.74191; 1.7314; 1.72001;
   1.70763; 1.69416; 1.67946; 1.66343; 1.64593; 1.62682; 1.60597; 1.58323; 1.55846; 1.53152; 1.50227;
   1.47057; 1.4363; 1.39935; 1.35965; 1.31711; 1.27173; 1.22352; 1.17256; 1.11897; 1.06296; 1.00483;
   0.944943; 0.883762; 0.821838; 0.759794; 0.698315; 0.638111; 0.579881; 0.524269; 0.471814; 0.422907;
   0.377766; 0.336433; 0.298797; 0.264646; 0.233726; 0.205798; 0.180662; 0.158158; 0.138129; 0.120399;
   0.104761; 0.0910083; 0.0789414; 0.0683848; 0.0591846; 0.0511877; 0.0442438; 0.0382365; 0.0330411;
   0.0285647; 0.0247031; 0.0213866; 0; 0; 0; 0; 0; 0; 0; 0; 0; 0; 0; 0; 0; 0; 0; 0; 0; 0; 0; 0; 0; 0; 0; 0;
   0; 0; 0; 0; 0; 0; 0; 0; 0; 0; 0; 0; 0; 0];
  [1.01339; 1.01454; 1.01578; 1.01711; 1.01855; 1.02009; 1.02176; 1.02355; 1.02547; 1.02755; 1.02978;
   1.03218; 1.03477; 1.03756; 1.04055; 1.04377; 1.04724; 1.05096; 1.05496; 1.05925; 1.06386; 1.0688; 1.0741;
   1.07978; 1.08586; 1.09236; 1.09931; 1.10674; 1.11465; 1.12309; 1.13208; 1.14163; 1.15177; 1.16253;
   1.17392; 1.18596; 1.19868; 1.21208; 1.22617; 1.24097; 1.25648; 1.2727; 1.28962; 1.30724; 1.32554; 1.3445;
   1.36409; 1.38428; 1.40503; 1.42629; 1.448; 1.47011; 1.49254; 1.51523; 1.53808; 1.56102; 1.58395; 1.60677;
   1.62938; 1.65168; 1.67356; 1.69492; 1.71565; 1.73565; 1.75482; 1.77307; 1.79031; 1.80647; 1.82147;
   1.83527; 1.84782; 1.85909; 1.86905; 1.87772; 1.88509; 1.89121; 1.89609; 1.89979; 1.90238; 1.90392;
   1.90448; 1.90415; 1.90302; 1.90115; 1.89865; 1.89559; 1.89203; 1.88807; 1.88375; 1.87912; 1.87424;
   1.86913; 1.86382; 1.85832; 1.85263; 1.84674; 1.84065; 1.83431; 1.82771; 1.82078; 1.81349; 1.80578;
   1.79757; 1.78879; 1.77937; 1.76922; 1.75823; 1.74632; 1.73338; 1.71929; 1.70393; 1.68718; 1.6689; 1.64896;
   1.62722; 1.60354; 1.57778; 1.54978; 1.51942; 1.48657; 1.45109; 1.4129; 1.37191; 1.32806; 1.28135; 1.2318;
   1.17951; 1.12461; 1.06734; 1.008; 0.946991; 0.884789; 0.821967; 0.759163; 0.697075; 0.636417; 0.577886;
   0.522111; 0.46961; 0.420745; 0.375704; 0.334499; 0.296994; 0.262967; 0.232163; 0.204346; 0.179325;
   0.156941; 0.137034; 0.119421; 0.103894; 0.0902388; 0.0782624; 0.0677888; 0.0586647; 0.0507362; 0.0438526;
   0.0378989; 0.0327493; 0.028316; 0.0244902; 0.0212028; 0; 0; 0; 0; 0; 0; 0; 0; 0; 0; 0; 0; 0; 0; 0; 0; 0;
   0; 0; 0; 0; 0; 0; 0; 0; 0; 0; 0; 0; 0; 0; 0; 0; 0; 0; 0; 0; 0];
  [1.01325; 1.01439; 1.01562; 1.01695; 1.01837; 1.0199; 1.02155; 1.02333; 1.02524; 1.0273; 1.02951; 1.0319;
   1.03447; 1.03723; 1.04021; 1.04341; 1.04685; 1.05055; 1.05453; 1.0588; 1.06339; 1.06831; 1.07359; 1.07925;
   1.08531; 1.09179; 1.09873; 1.10614; 1.11405; 1.12249; 1.13147; 1.14104; 1.1512; 1.16198; 1.17341; 1.18551;
   1.19829; 1.21177; 1.22596; 1.24088; 1.25653; 1.27291; 1.29002; 1.30785; 1.3264; 1.34563; 1.36553; 1.38606;
   1.40718; 1.42886; 1.45102; 1.47363; 1.49659; 1.51985; 1.54332; 1.56691; 1.59053; 1.61408; 1.63746;
   1.66056; 1.68327; 1.70549; 1.7271; 1.74801; 1.7681; 1.78728; 1.80547; 1.82257; 1.83852; 1.85326; 1.86674;
   1.87892; 1.88978; 1.89931; 1.90753; 1.91445; 1.9201; 1.92454; 1.92783; 1.93002; 1.93119; 1.93143; 1.93081;
   1.92943; 1.92736; 1.92468; 1.92148; 1.91782; 1.91376; 1.90936; 1.90467; 1.89971; 1.89451; 1.88908;
   1.88344; 1.87756; 1.87144; 1.86505; 1.85836; 1.85132; 1.84388; 1.83598; 1.82755; 1.81853; 1.80883;
   1.79836; 1.78703; 1.77474; 1.76138; 1.74684; 1.73099; 1.71371; 1.69487; 1.67434; 1.65196; 1.62761;
   1.60113; 1.57239; 1.54124; 1.50756; 1.47124; 1.43216; 1.39026; 1.34548; 1.29781; 1.2473; 1.19403; 1.13815;
   1.07991; 1.01962; 0.957669; 0.894565; 0.830879; 0.767259; 0.704408; 0.643046; 0.583869; 0.527508;
   0.474475; 0.425127; 0.379646; 0.338036; 0.300157; 0.265784; 0.234662; 0.206554; 0.18127; 0.15865;
   0.138534; 0.120735; 0.105041; 0.0912389; 0.0791325; 0.0685448; 0.0593209; 0.0513048; 0.0443453; 0.0383252;
   0.0331185; 0.0286352; 0.0247669; 0.0214425; 0; 0; 0; 0; 0; 0; 0; 0; 0; 0; 0; 0; 0; 0; 0; 0; 0; 0; 0; 0; 0;
   0; 0; 0; 0; 0; 0; 0; 0; 0; 0; 0; 0; 0; 0; 0; 0; 0];
  [1.0131; 1.01424; 1.01546; 1.01677; 1.01818; 1.0197; 1.02134; 1.0231; 1.025; 1.02704; 1.02924; 1.0316;
   1.03415; 1.0369; 1.03985; 1.04303; 1.04645; 1.05013; 1.05408; 1.05833; 1.06289; 1.06779; 1.07304; 1.07867;
   1.08471; 1.09118; 1.09809; 1.10549; 1.11339; 1.12182; 1.1308; 1.14037; 1.15054; 1.16135; 1.17281; 1.18495;
   1.19778; 1.21133; 1.22562; 1.24064; 1.25642; 1.27295; 1.29024; 1.30827; 1.32705; 1.34654; 1.36674; 1.3876;
   1.40909; 1.43117; 1.45378; 1.47686; 1.50036; 1.52418; 1.54826; 1.5725; 1.5968; 1.62108; 1.64522; 1.66912;
   1.69267; 1.71574; 1.73825; 1.76006; 1.78109; 1.80122; 1.82036; 1.83842; 1.85533; 1.87103; 1.88545;
   1.89856; 1.91033; 1.92075; 1.92983; 1.93758; 1.94402; 1.94922; 1.95321; 1.95607; 1.95787; 1.95869;
   1.95861; 1.95771; 1.95608; 1.9538; 1.95095; 1.94759; 1.9438; 1.93962; 1.9351; 1.93027; 1.92517; 1.9198;
   1.91417; 1.90827; 1.9021; 1.89561; 1.88878; 1.88157; 1.87392; 1.86578; 1.85707; 1.84772; 1.83766; 1.82679;
   1.81502; 1.80224; 1.78834; 1.77322; 1.75675; 1.73881; 1.71925; 1.69794; 1.67475; 1.64953; 1.62214;
   1.59244; 1.56028; 1.52556; 1.48814; 1.44793; 1.40487; 1.3589; 1.31004; 1.25831; 1.20383; 1.14677; 1.08737;
   1.02597; 0.962971; 0.898896; 0.834332; 0.769942; 0.706435; 0.644535; 0.584937; 0.52826; 0.475002;
   0.425499; 0.37991; 0.338221; 0.300276; 0.265843; 0.234666; 0.206514; 0.181199; 0.158563; 0.138441;
   0.120642; 0.10495; 0.0911521; 0.0790513; 0.0684707; 0.0592547; 0.0512469; 0.0442943; 0.0382809; 0.0330835;
   0.0286036; 0.0247425; 0.0214233; 0; 0; 0; 0; 0; 0; 0; 0; 0; 0; 0; 0; 0; 0; 0; 0; 0; 0; 0; 0; 0; 0; 0; 0;
   0; 0; 0; 0; 0; 0; 0; 0; 0; 0; 0; 0; 0; 0];
  [1.01296; 1.01408; 1.01529; 1.01659; 1.01799; 1.0195; 1.02112; 1.02286; 1.02474; 1.02677; 1.02895; 1.0313;
   1.03383; 1.03655; 1.03948; 1.04263; 1.04603; 1.04968; 1.05361; 1.05783; 1.06236; 1.06723; 1.07246;
   1.07806; 1.08408; 1.09052; 1.09741; 1.10479; 1.11267; 1.12108; 1.13006; 1.13962; 1.1498; 1.16062; 1.1721;
   1.18428; 1.19716; 1.21077; 1.22513; 1.24025; 1.25615; 1.27282; 1.29027; 1.3085; 1.3275; 1.34724; 1.36772;
   1.3889; 1.41075; 1.43323; 1.45627; 1.47983; 1.50384; 1.52823; 1.55291; 1.57779; 1.60279; 1.6278; 1.6527;
   1.67741; 1.70179; 1.72574; 1.74915; 1.77189; 1.79386; 1.81495; 1.83507; 1.85412; 1.87202; 1.88869;
   1.90409; 1.91816; 1.93087; 1.94221; 1.95218; 1.96079; 1.96806; 1.97404; 1.97878; 1.98235; 1.98481;
   1.98624; 1.98672; 1.98634; 1.98519; 1.98333; 1.98086; 1.97783; 1.97432; 1.97039; 1.96607; 1.96141;
   1.95643; 1.95114; 1.94556; 1.93967; 1.93347; 1.92692; 1.91999; 1.91264; 1.90482; 1.89647; 1.88753;
   1.87791; 1.86753; 1.85631; 1.84416; 1.83096; 1.81661; 1.80099; 1.78399; 1.76546; 1.74529; 1.72333;
   1.69945; 1.6735; 1.64533; 1.61481; 1.58181; 1.5462; 1.50786; 1.46671; 1.42267; 1.3757; 1.32582; 1.27306;
   1.21755; 1.15946; 1.09904; 1.03663; 0.972673; 0.907674; 0.842238; 0.777037; 0.712785; 0.65021; 0.590008;
   0.532795; 0.479062; 0.429137; 0.383169; 0.341133; 0.30287; 0.268142; 0.236694; 0.208296; 0.182762;
   0.159931; 0.139638; 0.121688; 0.105861; 0.0919444; 0.0797392; 0.0690676; 0.0597723; 0.0516952; 0.0446824;
   0.0386169; 0.0333745; 0.0288557; 0.024961; 0.0216129; 0; 0; 0; 0; 0; 0; 0; 0; 0; 0; 0; 0; 0; 0; 0; 0; 0;
   0; 0; 0; 0; 0; 0; 0; 0; 0; 0; 0; 0; 0; 0; 0; 0; 0; 0; 0; 0; 0];
  [1.01281; 1.01392; 1.01512; 1.01641; 1.01779; 1.01928; 1.02089; 1.02262; 1.02448; 1.02649; 1.02865;
   1.03098; 1.03348; 1.03618; 1.03909; 1.04222; 1.04559; 1.04921; 1.05311; 1.0573; 1.06181; 1.06664; 1.07184;
   1.07742; 1.0834; 1.08981; 1.09668; 1.10403; 1.11188; 1.12028; 1.12924; 1.1388; 1.14897; 1.1598; 1.1713;
   1.18349; 1.19641; 1.21008; 1.22451; 1.23972; 1.25572; 1.27251; 1.29012; 1.30853; 1.32773; 1.34772;
   1.36847; 1.38995; 1.41215; 1.435; 1.45847; 1.4825; 1.50702; 1.53195; 1.55723; 1.58275; 1.60843; 1.63416;
   1.65983; 1.68534; 1.71056; 1.73539; 1.7597; 1.78337; 1.8063; 1.82836; 1.84947; 1.86951; 1.88841; 1.90608;
   1.92247; 1.93752; 1.95119; 1.96347; 1.97435; 1.98384; 1.99196; 1.99875; 2.00425; 2.00854; 2.01167;
   2.01373; 2.0148; 2.01495; 2.01427; 2.01285; 2.01076; 2.00807; 2.00485; 2.00116; 1.99703; 1.99252; 1.98765;
   1.98243; 1.97687; 1.97097; 1.9647; 1.95806; 1.95099; 1.94347; 1.93543; 1.92682; 1.91758; 1.90762; 1.89686;
   1.88522; 1.8726; 1.85889; 1.84398; 1.82776; 1.81011; 1.79089; 1.76998; 1.74723; 1.7225; 1.69566; 1.66655;
   1.63505; 1.60102; 1.56433; 1.52488; 1.48258; 1.43736; 1.3892; 1.3381; 1.28412; 1.2274; 1.16811; 1.10653;
   1.04301; 0.978003; 0.912039; 0.845732; 0.779768; 0.71487; 0.651765; 0.591149; 0.533625; 0.479669;
   0.429587; 0.383505; 0.341382; 0.303044; 0.268248; 0.236739; 0.208292; 0.182723; 0.159873; 0.139571;
   0.121617; 0.105791; 0.0918742; 0.0796725; 0.0690061; 0.059717; 0.0516453; 0.0446396; 0.0385807; 0.0333443;
   0.0288309; 0.024942; 0.0215979; 0; 0; 0; 0; 0; 0; 0; 0; 0; 0; 0; 0; 0; 0; 0; 0; 0; 0; 0; 0; 0; 0; 0; 0; 0;
   0; 0; 0; 0; 0; 0; 0; 0; 0; 0; 0; 0; 0];
  [1.01265; 1.01375; 1.01494; 1.01622; 1.01759; 1.01907; 1.02066; 1.02237; 1.02421; 1.0262; 1.02834; 1.03065;
   1.03313; 1.03581; 1.03869; 1.04179; 1.04513; 1.04872; 1.05259; 1.05675; 1.06122; 1.06603; 1.07119;
   1.07673; 1.08268; 1.08906; 1.09589; 1.10321; 1.11104; 1.11941; 1.12835; 1.13789; 1.14806; 1.15888;
   1.17038; 1.1826; 1.19554; 1.20925; 1.22374; 1.23902; 1.25511; 1.27203; 1.28977; 1.30835; 1.32775; 1.34796;
   1.36897; 1.39075; 1.41328; 1.4365; 1.46039; 1.48487; 1.50988; 1.53536; 1.56123; 1.58738; 1.61374; 1.64019;
   1.66663; 1.69294; 1.71901; 1.74471; 1.76994; 1.79455; 1.81845; 1.8415; 1.86361; 1.88467; 1.90459; 1.92329;
   1.94069; 1.95675; 1.97141; 1.98466; 1.99649; 2.00689; 2.01588; 2.02351; 2.02982; 2.03486; 2.0387; 2.04142;
   2.04309; 2.0438; 2.04364; 2.04268; 2.041; 2.03867; 2.03577; 2.03234; 2.02844; 2.0241; 2.01936; 2.01423;
   2.00872; 2.00282; 1.99653; 1.98981; 1.98263; 1.97496; 1.96673; 1.9579; 1.94839; 1.93813; 1.92703; 1.91501;
   1.90197; 1.8878; 1.87239; 1.85564; 1.8374; 1.81756; 1.79598; 1.77252; 1.74705; 1.71941; 1.68948; 1.6571;
   1.62216; 1.58453; 1.5441; 1.50078; 1.45452; 1.40529; 1.35311; 1.29805; 1.24023; 1.17987; 1.11722; 1.05268;
   0.986678; 0.919776; 0.852597; 0.785833; 0.720214; 0.656472; 0.5953; 0.537295; 0.482924; 0.432481;
   0.386082; 0.343671; 0.305069; 0.270029; 0.238297; 0.209649; 0.183905; 0.160902; 0.140467; 0.122397;
   0.106467; 0.09246; 0.0801797; 0.0694451; 0.060097; 0.0519733; 0.0449241; 0.0388273; 0.0335579; 0.0290164;
   0.0251031; 0.0217381; 0; 0; 0; 0; 0; 0; 0; 0; 0; 0; 0; 0; 0; 0; 0; 0; 0; 0; 0; 0; 0; 0; 0; 0; 0; 0; 0; 0;
   0; 0; 0; 0; 0; 0; 0; 0; 0; 0];
  [1.01249; 1.01358; 1.01476; 1.01602; 1.01738; 1.01884; 1.02041; 1.02211; 1.02394; 1.0259; 1.02802; 1.0303;
   1.03276; 1.03541; 1.03827; 1.04134; 1.04465; 1.04821; 1.05205; 1.05617; 1.06061; 1.06538; 1.0705; 1.07601;
   1.08192; 1.08826; 1.09506; 1.10234; 1.11014; 1.11848; 1.12739; 1.1369; 1.14705; 1.15786; 1.16936; 1.18158;
   1.19455; 1.20829; 1.22282; 1.23816; 1.25434; 1.27136; 1.28923; 1.30795; 1.32753; 1.34796; 1.36921;
   1.39127; 1.41412; 1.4377; 1.46198; 1.4869; 1.51241; 1.53842; 1.56485; 1.59163; 1.61866; 1.64582; 1.67302;
   1.70013; 1.72704; 1.75363; 1.77976; 1.80533; 1.8302; 1.85425; 1.87737; 1.89946; 1.92041; 1.94015; 1.95858;
   1.97566; 1.99133; 2.00557; 2.01835; 2.02969; 2.03958; 2.04807; 2.05519; 2.061; 2.06557; 2.06896; 2.07126;
   2.07254; 2.0729; 2.0724; 2.07114; 2.06918; 2.06659; 2.06342; 2.05974; 2.05557; 2.05094; 2.04588; 2.0404;
   2.03448; 2.02812; 2.0213; 2.01397; 2.0061; 1.99764; 1.98852; 1.97869; 1.96806; 1.95655; 1.94407; 1.93052;
   1.9158; 1.89979; 1.88239; 1.86346; 1.84287; 1.82049; 1.79619; 1.76982; 1.74123; 1.7103; 1.67688; 1.64085;
   1.60208; 1.56048; 1.51595; 1.46845; 1.41797; 1.36452; 1.30818; 1.2491; 1.1875; 1.12366; 1.05798; 0.990926;
   0.923059; 0.855023; 0.787523; 0.721296; 0.657075; 0.595546; 0.537294; 0.482764; 0.432228; 0.385776;
   0.343334; 0.304708; 0.269647; 0.237899; 0.209246; 0.183509; 0.160527; 0.14012; 0.122079; 0.106177;
   0.0921979; 0.0799451; 0.0692372; 0.0599153; 0.0518139; 0.0447855; 0.0387087; 0.0334558; 0.0289307;
   0.0250325; 0.0216762; 0; 0; 0; 0; 0; 0; 0; 0; 0; 0; 0; 0; 0; 0; 0; 0; 0; 0; 0; 0; 0; 0; 0; 0; 0; 0; 0; 0;
   0; 0; 0; 0; 0; 0; 0; 0; 0; 0];
  [1.01233; 1.01341; 1.01457; 1.01582; 1.01716; 1.01861; 1.02017; 1.02184; 1.02365; 1.02559; 1.02769;
   1.02995; 1.03238; 1.03501; 1.03783; 1.04087; 1.04415; 1.04768; 1.05148; 1.05557; 1.05997; 1.0647; 1.06978;
   1.07525; 1.08111; 1.08741; 1.09417; 1.10141; 1.10917; 1.11747; 1.12635; 1.13583; 1.14595; 1.15674;
   1.16823; 1.18045; 1.19342; 1.20718; 1.22175; 1.23714; 1.25339; 1.2705; 1.28848; 1.30734; 1.32709; 1.34771;
   1.3692; 1.39152; 1.41467; 1.4386; 1.46326; 1.48861; 1.51459; 1.54112; 1.56813; 1.59552; 1.62321; 1.65108;
   1.67903; 1.70695; 1.73471; 1.76218; 1.78924; 1.81576; 1.84161; 1.86667; 1.89083; 1.91396; 1.93597;
   1.95677; 1.97626; 1.99439; 2.0111; 2.02636; 2.04014; 2.05244; 2.06326; 2.07265; 2.08062; 2.08724; 2.09256;
   2.09667; 2.09963; 2.10152; 2.10243; 2.10244; 2.10162; 2.10006; 2.09781; 2.09494; 2.0915; 2.08753; 2.08305;
   2.0781; 2.07267; 2.06677; 2.06038; 2.05348; 2.04604; 2.03802; 2.02937; 2.02002; 2.00991; 1.99896; 1.9871;
   1.97422; 1.96024; 1.94504; 1.92852; 1.91056; 1.89103; 1.8698; 1.84674; 1.82171; 1.79458; 1.76519; 1.73341;
   1.6991; 1.66214; 1.62241; 1.57981; 1.53426; 1.48571; 1.43415; 1.37961; 1.32218; 1.26201; 1.19932; 1.13442;
   1.0677; 0.99965; 0.930847; 0.861941; 0.793644; 0.7267; 0.661844; 0.599761; 0.541028; 0.486083; 0.435182;
   0.388406; 0.345669; 0.306773; 0.271461; 0.239486; 0.210628; 0.184712; 0.161574; 0.141032; 0.122872;
   0.106865; 0.0927945; 0.080461; 0.0696835; 0.0603018; 0.0521481; 0.0450746; 0.0389592; 0.0336726;
   0.0291191; 0.0251961; 0.0218189; 0; 0; 0; 0; 0; 0; 0; 0; 0; 0; 0; 0; 0; 0; 0; 0; 0; 0; 0; 0; 0; 0; 0; 0;
   0; 0; 0; 0; 0; 0; 0; 0; 0; 0; 0; 0; 0; 0];
  [1.01216; 1.01323; 1.01438; 1.01561; 1.01694; 1.01837; 1.01991; 1.02157; 1.02335; 1.02528; 1.02735;
   1.02958; 1.03199; 1.03458; 1.03738; 1.04039; 1.04363; 1.04713; 1.05089; 1.05494; 1.05929; 1.06398;
   1.06902; 1.07444; 1.08026; 1.08652; 1.09322; 1.10042; 1.10813; 1.11639; 1.12523; 1.13467; 1.14476;
   1.15552; 1.16699; 1.17919; 1.19216; 1.20593; 1.22052; 1.23595; 1.25225; 1.26944; 1.28752; 1.30651; 1.3264;
   1.34721; 1.3689; 1.39148; 1.41492; 1.43917; 1.46421; 1.48997; 1.51641; 1.54344; 1.57101; 1.599; 1.62734;
   1.65592; 1.68462; 1.71334; 1.74193; 1.77029; 1.79827; 1.82575; 1.8526; 1.87869; 1.90388; 1.92808; 1.95116;
   1.97303; 1.99361; 2.01281; 2.03058; 2.04689; 2.06169; 2.07498; 2.08676; 2.09707; 2.10592; 2.11337;
   2.11949; 2.12433; 2.12797; 2.1305; 2.13198; 2.13251; 2.13217; 2.13102; 2.12913; 2.12658; 2.12339; 2.11963;
   2.11531; 2.11047; 2.10511; 2.09923; 2.09281; 2.08585; 2.0783; 2.07012; 2.06127; 2.05168; 2.0413; 2.03004;
   2.01781; 2.00454; 1.99012; 1.97444; 1.9574; 1.93887; 1.91874; 1.89686; 1.87311; 1.84736; 1.81945; 1.78925;
   1.75661; 1.72142; 1.68353; 1.64283; 1.59923; 1.55265; 1.50304; 1.4504; 1.39477; 1.33624; 1.27497; 1.21119;
   1.14522; 1.07746; 1.00842; 0.938682; 0.868903; 0.799808; 0.732147; 0.666656; 0.604017; 0.544802; 0.489438;
   0.438171; 0.391066; 0.348032; 0.30886; 0.273295; 0.241089; 0.212025; 0.185929; 0.162633; 0.141954;
   0.123674; 0.107561; 0.0933966; 0.0809821; 0.0701344; 0.060692; 0.0524855; 0.0453664; 0.0392121; 0.0338915;
   0.0293092; 0.0253612; 0.021963; 0; 0; 0; 0; 0; 0; 0; 0; 0; 0; 0; 0; 0; 0; 0; 0; 0; 0; 0; 0; 0; 0; 0; 0; 0;
   0; 0; 0; 0; 0; 0; 0; 0; 0; 0; 0; 0; 0];
  [1.01199; 1.01304; 1.01418; 1.0154; 1.01671; 1.01812; 1.01965; 1.02128; 1.02305; 1.02495; 1.027; 1.0292;
   1.03158; 1.03415; 1.03691; 1.03989; 1.0431; 1.04655; 1.05027; 1.05428; 1.05859; 1.06324; 1.06823; 1.0736;
   1.07937; 1.08557; 1.09223; 1.09937; 1.10703; 1.11524; 1.12403; 1.13343; 1.14347; 1.1542; 1.16563; 1.17781;
   1.19077; 1.20453; 1.21913; 1.23459; 1.25093; 1.26817; 1.28634; 1.30544; 1.32547; 1.34643; 1.36833;
   1.39114; 1.41484; 1.43941; 1.46479; 1.49095; 1.51783; 1.54536; 1.57346; 1.60205; 1.63103; 1.6603; 1.68974;
   1.71925; 1.74868; 1.77792; 1.80682; 1.83526; 1.86311; 1.89021; 1.91646; 1.94173; 1.9659; 1.98886; 2.01053;
   2.03082; 2.04968; 2.06704; 2.08288; 2.09719; 2.10996; 2.1212; 2.13096; 2.13927; 2.14619; 2.15179; 2.15614;
   2.15931; 2.16139; 2.16246; 2.1626; 2.16187; 2.16036; 2.15812; 2.1552; 2.15164; 2.14748; 2.14275; 2.13744;
   2.13157; 2.12512; 2.11807; 2.11038; 2.10203; 2.09296; 2.08311; 2.07242; 2.0608; 2.04818; 2.03447; 2.01956;
   2.00335; 1.98574; 1.96659; 1.94579; 1.92321; 1.8987; 1.87214; 1.84339; 1.81229; 1.77872; 1.74254; 1.70363;
   1.66188; 1.61718; 1.56947; 1.51871; 1.4649; 1.40808; 1.34836; 1.2859; 1.22096; 1.15386; 1.08502; 1.01496;
   0.944273; 0.873638; 0.803786; 0.73547; 0.66943; 0.606341; 0.546765; 0.491112; 0.43961; 0.392309; 0.349102;
   0.309773; 0.274064; 0.241728; 0.212554; 0.186368; 0.163001; 0.142264; 0.123936; 0.107781; 0.0935816;
   0.0811386; 0.0702672; 0.0608063; 0.0525829; 0.0454522; 0.0392856; 0.0339549; 0.0293631; 0.0254115;
   0.0220079; 0; 0; 0; 0; 0; 0; 0; 0; 0; 0; 0; 0; 0; 0; 0; 0; 0; 0; 0; 0; 0; 0; 0; 0; 0; 0; 0; 0; 0; 0; 0; 0;
   0; 0; 0; 0; 0; 0];
  [1.01181; 1.01286; 1.01398; 1.01518; 1.01648; 1.01787; 1.01937; 1.02099; 1.02273; 1.02461; 1.02663;
   1.02881; 1.03116; 1.0337; 1.03643; 1.03937; 1.04254; 1.04595; 1.04963; 1.0536; 1.05786; 1.06246; 1.0674;
   1.07272; 1.07843; 1.08458; 1.09118; 1.09826; 1.10587; 1.11402; 1.12275; 1.13209; 1.14209; 1.15277;
   1.16416; 1.17631; 1.18924; 1.20298; 1.21758; 1.23305; 1.24941; 1.2667; 1.28494; 1.30412; 1.32427; 1.34539;
   1.36746; 1.39049; 1.41444; 1.4393; 1.46502; 1.49156; 1.51887; 1.54687; 1.5755; 1.60467; 1.63428; 1.66423;
   1.69441; 1.7247; 1.75496; 1.78508; 1.81491; 1.84432; 1.87317; 1.90131; 1.92863; 1.95498; 1.98025; 2.00433;
   2.02712; 2.04853; 2.06849; 2.08695; 2.10387; 2.11923; 2.13301; 2.14524; 2.15594; 2.16514; 2.17291;
   2.17931; 2.1844; 2.18826; 2.19097; 2.19262; 2.19327; 2.19301; 2.1919; 2.19001; 2.18739; 2.18408; 2.18012;
   2.17553; 2.17032; 2.16449; 2.15805; 2.15095; 2.14319; 2.13471; 2.12547; 2.11541; 2.10446; 2.09256;
   2.07961; 2.06553; 2.05022; 2.03357; 2.01547; 1.99581; 1.97445; 1.95127; 1.92614; 1.89891; 1.86945;
   1.83761; 1.80326; 1.76627; 1.72651; 1.68388; 1.63827; 1.58962; 1.53789; 1.48309; 1.42527; 1.36453;
   1.30105; 1.23508; 1.16697; 1.09714; 1.0261; 0.954485; 0.882959; 0.812267; 0.743168; 0.676404; 0.61265;
   0.552466; 0.496258; 0.444247; 0.396476; 0.352834; 0.313102; 0.277021; 0.244344; 0.214861; 0.188398;
   0.164783; 0.143826; 0.125301; 0.108972; 0.0946183; 0.0820395; 0.0710493; 0.0614842; 0.05317; 0.0459582;
   0.0397248; 0.0343351; 0.0296914; 0.0256956; 0.0222541; 0; 0; 0; 0; 0; 0; 0; 0; 0; 0; 0; 0; 0; 0; 0; 0; 0;
   0; 0; 0; 0; 0; 0; 0; 0; 0; 0; 0; 0; 0; 0; 0; 0; 0; 0; 0; 0; 0];
  [1.01163; 1.01266; 1.01377; 1.01496; 1.01624; 1.01761; 1.0191; 1.02069; 1.02241; 1.02426; 1.02626; 1.02841;
   1.03073; 1.03323; 1.03592; 1.03883; 1.04196; 1.04533; 1.04897; 1.05288; 1.0571; 1.06164; 1.06653; 1.07179;
   1.07745; 1.08354; 1.09007; 1.0971; 1.10464; 1.11272; 1.12139; 1.13067; 1.14061; 1.15123; 1.16257; 1.17467;
   1.18756; 1.20128; 1.21586; 1.23132; 1.2477; 1.26502; 1.2833; 1.30256; 1.32281; 1.34405; 1.36629; 1.38951;
   1.41369; 1.43882; 1.46486; 1.49176; 1.51948; 1.54794; 1.57707; 1.6068; 1.63703; 1.66764; 1.69854; 1.7296;
   1.76069; 1.79169; 1.82244; 1.85281; 1.88266; 1.91184; 1.94022; 1.96767; 1.99405; 2.01926; 2.04318;
   2.06572; 2.08681; 2.10639; 2.1244; 2.14083; 2.15565; 2.16888; 2.18054; 2.19067; 2.1993; 2.20651; 2.21237;
   2.21694; 2.2203; 2.22254; 2.22372; 2.22394; 2.22325; 2.22171; 2.2194; 2.21633; 2.21257; 2.20812; 2.203;
   2.19721; 2.19076; 2.18361; 2.17574; 2.16711; 2.15768; 2.14738; 2.13616; 2.12393; 2.11062; 2.09614;
   2.08038; 2.06324; 2.04461; 2.02438; 2.00241; 1.97858; 1.95275; 1.92478; 1.89454; 1.86189; 1.82668;
   1.78879; 1.7481; 1.70449; 1.65787; 1.60819; 1.5554; 1.49952; 1.4406; 1.37875; 1.31416; 1.2471; 1.17791;
   1.10704; 1.03501; 0.962452; 0.890052; 0.81856; 0.748742; 0.68134; 0.617027; 0.556356; 0.499722; 0.447334;
   0.399225; 0.355273; 0.315256; 0.278912; 0.245996; 0.2163; 0.189651; 0.165875; 0.144776; 0.126126;
   0.109688; 0.0952379; 0.0825757; 0.0715131; 0.0618855; 0.0535168; 0.0462601; 0.0399846; 0.0345595;
   0.0298864; 0.0258649; 0.0224011; 0; 0; 0; 0; 0; 0; 0; 0; 0; 0; 0; 0; 0; 0; 0; 0; 0; 0; 0; 0; 0; 0; 0; 0;
   0; 0; 0; 0; 0; 0; 0; 0; 0; 0; 0; 0; 0; 0];
  [1.01145; 1.01246; 1.01356; 1.01473; 1.01599; 1.01735; 1.01881; 1.02038; 1.02208; 1.02391; 1.02588; 1.028;
   1.03028; 1.03275; 1.03541; 1.03827; 1.04136; 1.04469; 1.04828; 1.05215; 1.05631; 1.0608; 1.06563; 1.07083;
   1.07643; 1.08245; 1.08892; 1.09587; 1.10334; 1.11136; 1.11995; 1.12917; 1.13903; 1.14959; 1.16087;
   1.17291; 1.18575; 1.19943; 1.21397; 1.22941; 1.24579; 1.26312; 1.28144; 1.30075; 1.32108; 1.34243; 1.3648;
   1.38819; 1.41259; 1.43796; 1.46429; 1.49153; 1.51963; 1.54853; 1.57815; 1.60842; 1.63924; 1.67051;
   1.70211; 1.73393; 1.76583; 1.79768; 1.82934; 1.86067; 1.89151; 1.92173; 1.95118; 1.97972; 2.00723;
   2.03356; 2.05863; 2.08231; 2.10454; 2.12525; 2.14437; 2.16188; 2.17776; 2.19202; 2.20466; 2.21572;
   2.22524; 2.23329; 2.23992; 2.24521; 2.24923; 2.25207; 2.2538; 2.25449; 2.25422; 2.25305; 2.25103; 2.24822;
   2.24463; 2.24031; 2.23527; 2.22951; 2.22302; 2.21579; 2.20779; 2.19898; 2.18932; 2.17875; 2.1672; 2.1546;
   2.14087; 2.12592; 2.10965; 2.09196; 2.07273; 2.05184; 2.02917; 2.00459; 1.97797; 1.94917; 1.91804;
   1.88445; 1.84826; 1.80934; 1.76758; 1.72286; 1.6751; 1.62424; 1.57025; 1.51314; 1.45298; 1.3899; 1.32409;
   1.25583; 1.18549; 1.11351; 1.04045; 0.966953; 0.893713; 0.821493; 0.751063; 0.683162; 0.618458; 0.557488;
   0.500628; 0.448069; 0.399821; 0.35575; 0.315624; 0.279184; 0.246184; 0.216424; 0.189728; 0.16592; 0.1448;
   0.126135; 0.109684; 0.0952273; 0.0825593; 0.0714967; 0.0618687; 0.053501; 0.0462461; 0.0399709; 0.0345505;
   0.0298789; 0.0258604; 0.0223989; 0; 0; 0; 0; 0; 0; 0; 0; 0; 0; 0; 0; 0; 0; 0; 0; 0; 0; 0; 0; 0; 0; 0; 0;
   0; 0; 0; 0; 0; 0; 0; 0; 0; 0; 0; 0; 0; 0];
  [1.01126; 1.01226; 1.01334; 1.0145; 1.01574; 1.01708; 1.01852; 1.02007; 1.02174; 1.02354; 1.02548; 1.02757;
   1.02982; 1.03226; 1.03488; 1.0377; 1.04075; 1.04403; 1.04757; 1.05138; 1.05549; 1.05992; 1.06469; 1.06983;
   1.07535; 1.0813; 1.0877; 1.09458; 1.10197; 1.10991; 1.11843; 1.12756; 1.13735; 1.14783; 1.15903; 1.17101;
   1.18379; 1.19741; 1.2119; 1.22731; 1.24367; 1.26099; 1.27932; 1.29867; 1.31906; 1.34049; 1.36299; 1.38653;
   1.41111; 1.43672; 1.46332; 1.49088; 1.51934; 1.54865; 1.57875; 1.60954; 1.64094; 1.67284; 1.70514; 1.7377;
   1.77041; 1.80312; 1.83569; 1.86798; 1.89983; 1.93109; 1.96162; 1.99128; 2.01991; 2.04741; 2.07364; 2.0985;
   2.1219; 2.14376; 2.16404; 2.18267; 2.19965; 2.21497; 2.22864; 2.24068; 2.25114; 2.26006; 2.26752; 2.27358;
   2.27832; 2.28181; 2.28413; 2.28536; 2.28556; 2.2848; 2.28314; 2.28062; 2.27728; 2.27315; 2.26824; 2.26257;
   2.25612; 2.24888; 2.24083; 2.23192; 2.22211; 2.21136; 2.19959; 2.18672; 2.17269; 2.1574; 2.14075; 2.12264;
   2.10296; 2.08159; 2.0584; 2.03327; 2.00605; 1.97662; 1.94483; 1.91054; 1.87363; 1.83395; 1.79139; 1.74584;
   1.69722; 1.64547; 1.59056; 1.53251; 1.47139; 1.40733; 1.34054; 1.27128; 1.19994; 1.12698; 1.05296;
   0.978517; 0.904367; 0.831275; 0.760017; 0.691337; 0.625903; 0.564252; 0.506758; 0.453608; 0.404811;
   0.360228; 0.319628; 0.282749; 0.249347; 0.219221; 0.192194; 0.168089; 0.146704; 0.127801; 0.11114;
   0.0964953; 0.0836621; 0.0724542; 0.0626991; 0.0542201; 0.0468684; 0.0405109; 0.0350156; 0.0302806;
   0.0262074; 0.0226986; 0; 0; 0; 0; 0; 0; 0; 0; 0; 0; 0; 0; 0; 0; 0; 0; 0; 0; 0; 0; 0; 0; 0; 0; 0; 0; 0; 0;
   0; 0; 0; 0; 0; 0; 0; 0; 0; 0];
  [1.01107; 1.01206; 1.01312; 1.01426; 1.01548; 1.0168; 1.01822; 1.01975; 1.02139; 1.02316; 1.02508; 1.02713;
   1.02935; 1.03175; 1.03433; 1.03711; 1.04011; 1.04335; 1.04684; 1.05059; 1.05465; 1.05901; 1.06372;
   1.06879; 1.07424; 1.08012; 1.08644; 1.09324; 1.10054; 1.1084; 1.11683; 1.12587; 1.13557; 1.14597; 1.15709;
   1.16898; 1.18168; 1.19523; 1.20967; 1.22502; 1.24134; 1.25864; 1.27696; 1.29633; 1.31675; 1.33825;
   1.36084; 1.38451; 1.40925; 1.43506; 1.4619; 1.48975; 1.51855; 1.54825; 1.57879; 1.61007; 1.64202; 1.67454;
   1.7075; 1.74079; 1.77428; 1.80783; 1.84129; 1.87451; 1.90735; 1.93965; 1.97125; 2.002; 2.03177; 2.06041;
   2.0878; 2.11384; 2.13841; 2.16144; 2.18286; 2.20263; 2.22071; 2.2371; 2.25179; 2.26482; 2.27621; 2.28602;
   2.29431; 2.30113; 2.30658; 2.31071; 2.31362; 2.31536; 2.31602; 2.31565; 2.31432; 2.31207; 2.30894;
   2.30496; 2.30014; 2.2945; 2.28803; 2.28071; 2.27253; 2.26344; 2.2534; 2.24236; 2.23026; 2.21701; 2.20255;
   2.18678; 2.16961; 2.15092; 2.13062; 2.10857; 2.08466; 2.05876; 2.03072; 2.00042; 1.96771; 1.93246;
   1.89452; 1.85378; 1.81011; 1.76342; 1.71361; 1.66063; 1.60448; 1.54516; 1.48276; 1.41743; 1.34937;
   1.27889; 1.20637; 1.1323; 1.05724; 0.981864; 0.906896; 0.833108; 0.761282; 0.692157; 0.626393; 0.564508;
   0.506855; 0.453599; 0.404725; 0.360081; 0.319427; 0.282502; 0.249066; 0.218922; 0.191893; 0.167799;
   0.146431; 0.127548; 0.110905; 0.0962809; 0.0834684; 0.0722825; 0.0625476; 0.054087; 0.0467527; 0.0404087;
   0.0349324; 0.0302085; 0.0261486; 0.0226479; 0; 0; 0; 0; 0; 0; 0; 0; 0; 0; 0; 0; 0; 0; 0; 0; 0; 0; 0; 0; 0;
   0; 0; 0; 0; 0; 0; 0; 0; 0; 0; 0; 0; 0; 0; 0; 0; 0]].

