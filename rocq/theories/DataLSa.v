(** Transcribed by tools/gen_tables.py; do not edit by hand. *)
From Coq Require Import ZArith List.
From Verif Require Import Num.
Import ListNotations.
Local Open Scope dec_scope.

(** include/catima/generated_LS_coeff.h, double ls_coefficients_a[][200]: 108 rows *)
Definition ls_coefficients_a : list (list dec) := [
  [(-0.0286005); (-0.0263509); (-0.0242674); (-0.0223377); (-0.0205507); (-0.0188958); (-0.0173631);
   (-0.0159436); (-0.0146287); (-0.0134106); (-0.0122818); (-0.0112356); (-0.0102656); (-0.00936584);
   (-0.00853095); (-0.00775583); (-0.00703578); (-0.00636642); (-0.00574372); (-0.00516391); (-0.00462353);
   (-0.00411935); (-0.00364839); (-0.00320786); (-0.0027952); (-0.00240803); (-0.00204415); (-0.00170149);
   (-0.00137817); (-0.0010724); (-0.000782569); (-0.00050714); (-0.000244704); 6.05339e-6; 0.000246351;
   0.000477324; 0.000700027; 0.000915441; 0.00112448; 0.00132799; 0.00152676; 0.00172153; 0.00191297;
   0.00210173; 0.00228837; 0.00247346; 0.00265747; 0.00284088; 0.0030241; 0.00320751; 0.00339145; 0.00357622;
   0.0037621; 0.00394932; 0.00413806; 0.00432849; 0.00452071; 0.00471481; 0.00491083; 0.00510875; 0.00530853;
   0.00551008; 0.00571328; 0.00591794; 0.00612386; 0.00633076; 0.00653836; 0.00674629; 0.00695419;
   0.00716164; 0.00736819; 0.00757335; 0.00777664; 0.00797753; 0.00817548; 0.00836998; 0.00856048;
   0.00874647; 0.00892743; 0.0091029; 0.00927243; 0.00943562; 0.0095921; 0.00974157; 0.00988379; 0.0100185;
   0.0101457; 0.0102652; 0.0103771; 0.0104813; 0.010578; 0.0106673; 0.0107493; 0.0108244; 0.0108928;
   0.0109547; 0.0110104; 0.0110602; 0.0111044; 0.0111433; 0.0111772; 0.0112063; 0.0112308; 0.0112509;
   0.0112667; 0.0112785; 0.0112861; 0.0112897; 0.0112891; 0.0112843; 0.0112749; 0.0112607; 0.0112412;
   0.011216; 0.0111844; 0.0111455; 0.0110983; 0.0110418; 0.0109744; 0.0108944; 0.0107998; 0.0106883;
   0.010557; 0.0104025; 0.010221; 0.0100079; 0.00975777; 0.00946418; 0.00911965; 0.00871544; 0.00824121;
   0.00768487; 0.00703223; 0.00626666; 0.00536864; 0.00431533; 0.00308082; 0.00163284; (-6.46211e-5);
   (-0.00205405); (-0.00438502); (-0.00711439); (-0.0103099); (-0.0140484); (-0.0184192); (-0.0235286);
   (-0.0294905); (-0.0364416); (-0.0445351); (-0.0539529); (-0.064881); (-0.0775421); (-0.0921619);
   (-0.10902); (-0.128367); (-0.150515); (-0.175754); (-0.204357); (-0.236634); (-0.272773); (-0.312985);
   (-0.357326); (-0.40583); (-0.458386); (-0.514793); (-0.574743); (-0.637815); (-0.703546); (-0.771486);
   (-0.841323); (-0.912767); (-0.985608); (-1.05954); (-1.1345); (-1.21054); (-1.28726); (-1.36441);
   (-1.44249); (-1.52058); (-1.59934); (-1.67847); (-1.75815); (-1.83693); (-1.91822); (-1.99469);
   (-2.05956); (-2.14053); (-2.22151); (-2.30248); (-2.38346); (-2.46444); (-2.54542); (-2.6264); (-2.70739);
   (-2.78837); (-2.86935); (-2.95034); (-3.03133); (-3.11231); (-3.1933)];
  [(-0.108683); (-0.100696); (-0.0932398); (-0.0862849); (-0.0798018); (-0.073762); (-0.0681385);
   (-0.0629051); (-0.0580369); (-0.05351); (-0.049302); (-0.0453914); (-0.041758); (-0.0383825);
   (-0.0352471); (-0.0323346); (-0.0296292); (-0.0271159); (-0.0247806); (-0.0226102); (-0.0205924);
   (-0.0187158); (-0.0169695); (-0.0153437); (-0.013829); (-0.0124167); (-0.0110986); (-0.00986737);
   (-0.00871585); (-0.00763756); (-0.00662644); (-0.00567683); (-0.00478351); (-0.00394158); (-0.00314653);
   (-0.00239414); (-0.00168051); (-0.001002); (-0.000355228); 0.000262924; 0.000855371; 0.00142481;
   0.00197374; 0.00250449; 0.00301919; 0.00351985; 0.00400827; 0.00448616; 0.00495507; 0.00541641;
   0.00587147; 0.00632143; 0.00676735; 0.00721016; 0.00765069; 0.00808966; 0.00852767; 0.00896524;
   0.00940276; 0.00984051; 0.0102787; 0.0107173; 0.0111565; 0.0115959; 0.0120355; 0.0124748; 0.0129134;
   0.0133508; 0.0137864; 0.0142194; 0.0146492; 0.0150748; 0.0154954; 0.0159099; 0.0163176; 0.0167172;
   0.017108; 0.0174889; 0.0178589; 0.0182172; 0.0185629; 0.0188953; 0.0192136; 0.0195175; 0.0198062;
   0.0200796; 0.0203374; 0.0205794; 0.0208057; 0.0210164; 0.0212116; 0.0213917; 0.021557; 0.021708;
   0.0218452; 0.0219691; 0.0220803; 0.0221793; 0.0222668; 0.0223432; 0.0224091; 0.0224648; 0.0225109;
   0.0225475; 0.0225749; 0.0225932; 0.0226024; 0.0226024; 0.0225928; 0.0225731; 0.0225427; 0.0225007;
   0.0224459; 0.0223769; 0.0222919; 0.0221887; 0.0220648; 0.021917; 0.0217415; 0.0215341; 0.0212895;
   0.0210016; 0.0206631; 0.0202655; 0.0197988; 0.0192513; 0.0186091; 0.0178561; 0.0169732; 0.0159384;
   0.0147258; 0.0133048; 0.0116401; 0.00969028; 0.00740718; 0.00473508; 0.00160861; (-0.00204738);
   (-0.00631984); (-0.0113088); (-0.0171323); (-0.0239181); (-0.0318172); (-0.0410021); (-0.0516599);
   (-0.0640046); (-0.0782643); (-0.0947017); (-0.113579); (-0.135189); (-0.159824); (-0.187766); (-0.219302);
   (-0.254658); (-0.294033); (-0.337531); (-0.385196); (-0.436927); (-0.492555); (-0.551783); (-0.614218);
   (-0.67942); (-0.746953); (-0.816428); (-0.887562); (-0.96013); (-1.03391); (-1.10872); (-1.18453);
   (-1.26111); (-1.33824); (-1.41611); (-1.49436); (-1.57296); (-1.65227); (-1.73117); (-1.81123);
   (-1.89068); (-1.97001); (-2.03345); (-2.11441); (-2.19537); (-2.27633); (-2.3573); (-2.43827); (-2.51924);
   (-2.60021); (-2.68119); (-2.76216); (-2.84314); (-2.92412); (-3.0051); (-3.08608); (-3.16706); (-3.24805);
   (-3.32903); (-3.41002); (-3.491); (-3.57199); (-3.65298)];
  [(-0.223884); (-0.208781); (-0.194523); (-0.181081); (-0.168426); (-0.156525); (-0.145347); (-0.134859);
   (-0.125029); (-0.115823); (-0.10721); (-0.0991583); (-0.0916359); (-0.0846127); (-0.0780594);
   (-0.0719475); (-0.0662497); (-0.0609398); (-0.0559928); (-0.0513847); (-0.0470929); (-0.0430957);
   (-0.0393729); (-0.0359051); (-0.0326742); (-0.029663); (-0.0268555); (-0.0242365); (-0.0217919);
   (-0.0195083); (-0.0173734); (-0.0153756); (-0.0135039); (-0.0117482); (-0.0100991); (-0.00854773);
   (-0.00708583); (-0.00570577); (-0.00440039); (-0.00316307); (-0.00198762); (-0.000868305); 0.000200207;
   0.00122286; 0.00220426; 0.00314864; 0.00405993; 0.00494177; 0.0057975; 0.0066302; 0.00744268; 0.00823752;
   0.00901704; 0.00978336; 0.0105384; 0.0112837; 0.0120209; 0.0127512; 0.0134756; 0.0141951; 0.0149103;
   0.0156216; 0.0163295; 0.017034; 0.017735; 0.0184323; 0.0191256; 0.0198142; 0.0204974; 0.0211745;
   0.0218443; 0.0225059; 0.0231579; 0.0237993; 0.0244286; 0.0250444; 0.0256455; 0.0262305; 0.026798;
   0.0273469; 0.0278758; 0.0283839; 0.0288701; 0.0293337; 0.029774; 0.0301905; 0.0305831; 0.0309514;
   0.0312957; 0.031616; 0.0319127; 0.0321864; 0.0324375; 0.0326669; 0.0328753; 0.0330635; 0.0332324;
   0.0333829; 0.0335158; 0.033632; 0.0337323; 0.0338172; 0.0338875; 0.0339436; 0.0339859; 0.0340144;
   0.0340293; 0.0340304; 0.0340171; 0.0339888; 0.0339445; 0.0338828; 0.0338022; 0.0337004; 0.0335749;
   0.0334224; 0.0332391; 0.0330204; 0.0327609; 0.0324541; 0.0320922; 0.0316663; 0.0311657; 0.0305779;
   0.0298881; 0.0290791; 0.0281307; 0.0270193; 0.0257171; 0.0241918; 0.0224056; 0.0203145; 0.0178673;
   0.0150047; 0.0116574; 0.00774588; 0.00317799; (-0.00215329); (-0.0083678); (-0.0156045); (-0.0240203);
   (-0.033795); (-0.0451238); (-0.0582283); (-0.0733446); (-0.0907406); (-0.110684); (-0.133469);
   (-0.159387); (-0.188714); (-0.221724); (-0.258626); (-0.299593); (-0.344697); (-0.393944); (-0.447193);
   (-0.504233); (-0.564738); (-0.628293); (-0.694455); (-0.762793); (-0.832951); (-0.904699); (-0.977772);
   (-1.05199); (-1.12722); (-1.20339); (-1.28025); (-1.35768); (-1.43577); (-1.51417); (-1.59306);
   (-1.67224); (-1.75183); (-1.83128); (-1.91169); (-1.99089); (-2.05504); (-2.13599); (-2.21695);
   (-2.29791); (-2.37887); (-2.45983); (-2.5408); (-2.62177); (-2.70274); (-2.78371); (-2.86469); (-2.94566);
   (-3.02664); (-3.10762); (-3.1886); (-3.26958); (-3.35056); (-3.43155); (-3.51253); (-3.59352); (-3.6745);
   (-3.75549); (-3.83648)];
  [(-0.356328); (-0.334567); (-0.313777); (-0.293949); (-0.275073); (-0.257134); (-0.240114); (-0.22399);
   (-0.20874); (-0.194335); (-0.180747); (-0.167947); (-0.155903); (-0.144583); (-0.133954); (-0.123984);
   (-0.114639); (-0.105888); (-0.097699); (-0.0900395); (-0.0828796); (-0.0761895); (-0.0699406);
   (-0.0641054); (-0.0586574); (-0.0535713); (-0.0488229); (-0.0443893); (-0.0402486); (-0.0363803);
   (-0.0327648); (-0.0293836); (-0.0262194); (-0.023256); (-0.0204778); (-0.0178706); (-0.0154208);
   (-0.0131158); (-0.0109437); (-0.00889357); (-0.00695503); (-0.00511848); (-0.00337494); (-0.00171606);
   (-0.000134097); 0.00137817; 0.00282742; 0.00421984; 0.00556117; 0.00685667; 0.0081112; 0.00932921;
   0.0105148; 0.0116716; 0.012803; 0.013912; 0.0150012; 0.0160731; 0.0171295; 0.0181723; 0.019203; 0.0202225;
   0.0212318; 0.0222314; 0.0232217; 0.0242028; 0.0251742; 0.0261358; 0.0270867; 0.0280262; 0.028953;
   0.0298661; 0.030764; 0.0316453; 0.0325083; 0.0333515; 0.0341731; 0.0349715; 0.0357451; 0.0364923;
   0.0372117; 0.037902; 0.038562; 0.0391908; 0.0397877; 0.0403521; 0.0408836; 0.0413822; 0.041848; 0.0422813;
   0.0426827; 0.0430528; 0.0433925; 0.0437029; 0.043985; 0.0442399; 0.044469; 0.0446733; 0.0448541;
   0.0450126; 0.0451499; 0.045267; 0.0453646; 0.0454436; 0.0455045; 0.0455475; 0.0455729; 0.0455805;
   0.0455698; 0.04554; 0.0454901; 0.0454185; 0.0453231; 0.0452015; 0.0450505; 0.0448663; 0.0446442;
   0.0443787; 0.0440631; 0.0436895; 0.0432487; 0.0427297; 0.0421195; 0.041403; 0.0405622; 0.0395763;
   0.0384209; 0.0370672; 0.0354818; 0.0336256; 0.0314533; 0.0289119; 0.0259402; 0.0224669; 0.0184098;
   0.0136742; 0.00815037; 0.00171491; (-0.00577451); (-0.0144784); (-0.0245801); (-0.0362788); (-0.0497974);
   (-0.0653825); (-0.0832966); (-0.103812); (-0.127224); (-0.153819); (-0.183871); (-0.217645); (-0.255341);
   (-0.297117); (-0.34303); (-0.39306); (-0.447065); (-0.504804); (-0.565933); (-0.630038); (-0.696674);
   (-0.76542); (-0.835949); (-0.907987); (-0.981336); (-1.0558); (-1.13126); (-1.20762); (-1.28465);
   (-1.36225); (-1.44046); (-1.51899); (-1.59799); (-1.67728); (-1.75694); (-1.83648); (-1.9168); (-1.99609);
   (-2.06113); (-2.14208); (-2.22303); (-2.30399); (-2.38495); (-2.46591); (-2.54688); (-2.62784);
   (-2.70881); (-2.78978); (-2.87076); (-2.95173); (-3.03271); (-3.11368); (-3.19466); (-3.27564);
   (-3.35663); (-3.43761); (-3.51859); (-3.59958); (-3.68056); (-3.76155); (-3.84253); (-3.92352)];
  [(-0.492346); (-0.46527); (-0.439117); (-0.413908); (-0.389654); (-0.366367); (-0.344049); (-0.322702);
   (-0.30232); (-0.282894); (-0.264411); (-0.246854); (-0.230204); (-0.214437); (-0.199527); (-0.185447);
   (-0.172168); (-0.159659); (-0.147887); (-0.13682); (-0.126427); (-0.116672); (-0.107525); (-0.0989517);
   (-0.0909213); (-0.0834023); (-0.0763647); (-0.0697789); (-0.0636169); (-0.0578514); (-0.0524563);
   (-0.0474068); (-0.0426793); (-0.038251); (-0.0341008); (-0.0302082); (-0.0265544); (-0.0231211);
   (-0.0198915); (-0.0168496); (-0.0139804); (-0.0112699); (-0.00870491); (-0.00627323); (-0.00396335);
   (-0.00176459); 0.000333002; 0.00233868; 0.00426101; 0.00610793; 0.00788678; 0.00960429; 0.0112667;
   0.0128796; 0.0144481; 0.015977; 0.0174704; 0.018932; 0.020365; 0.0217724; 0.0231566; 0.0245195; 0.0258627;
   0.0271875; 0.0284948; 0.029785; 0.0310583; 0.0323145; 0.0335531; 0.0347733; 0.0359742; 0.0371544;
   0.0383125; 0.0394468; 0.0405557; 0.0416372; 0.0426894; 0.0437106; 0.0446987; 0.0456521; 0.046569;
   0.047448; 0.0482878; 0.0490873; 0.0498457; 0.0505623; 0.0512369; 0.0518694; 0.0524602; 0.0530095;
   0.0535183; 0.0539875; 0.0544181; 0.0548116; 0.0551693; 0.0554928; 0.0557836; 0.0560433; 0.0562735;
   0.0564757; 0.0566514; 0.0568018; 0.0569281; 0.0570313; 0.0571122; 0.0571712; 0.0572086; 0.0572244;
   0.0572181; 0.057189; 0.0571358; 0.0570568; 0.0569499; 0.056812; 0.0566396; 0.0564283; 0.0561729;
   0.0558669; 0.0555027; 0.0550712; 0.0545617; 0.0539615; 0.0532558; 0.052427; 0.0514547; 0.0503146;
   0.0489789; 0.0474145; 0.045583; 0.0434397; 0.0409327; 0.0380017; 0.0345767; 0.0305768; 0.025909;
   0.0204657; 0.0141251; 0.00674745; (-0.0018252); (-0.0117723); (-0.023291); (-0.0366024); (-0.0519445);
   (-0.069581); (-0.0897825); (-0.112838); (-0.139036); (-0.168651); (-0.201948); (-0.239136); (-0.28038);
   (-0.325754); (-0.375253); (-0.428744); (-0.486008); (-0.546717); (-0.610462); (-0.676808); (-0.745332);
   (-0.815672); (-0.887569); (-0.960788); (-1.03517); (-1.11055); (-1.18683); (-1.26382); (-1.3414);
   (-1.41958); (-1.49817); (-1.57714); (-1.65647); (-1.73593); (-1.81595); (-1.89599); (-1.97555);
   (-2.04085); (-2.1218); (-2.20274); (-2.2837); (-2.36465); (-2.44561); (-2.52657); (-2.60754); (-2.6885);
   (-2.76947); (-2.85044); (-2.93142); (-3.01239); (-3.09337); (-3.17435); (-3.25533); (-3.33631);
   (-3.41729); (-3.49827); (-3.57925); (-3.66024); (-3.74122); (-3.82221); (-3.9032); (-3.98418)];
  [(-0.623826); (-0.592878); (-0.562718); (-0.533382); (-0.504901); (-0.477307); (-0.450623); (-0.42487);
   (-0.400066); (-0.376221); (-0.353343); (-0.331434); (-0.31049); (-0.290506); (-0.271469); (-0.253366);
   (-0.236176); (-0.21988); (-0.204451); (-0.189864); (-0.176089); (-0.163097); (-0.150856); (-0.139333);
   (-0.128496); (-0.118311); (-0.108747); (-0.0997688); (-0.0913458); (-0.0834457); (-0.0760379);
   (-0.0690924); (-0.0625802); (-0.0564735); (-0.0507455); (-0.0453706); (-0.0403245); (-0.0355837);
   (-0.0311264); (-0.0269315); (-0.0229794); (-0.0192513); (-0.0157297); (-0.0123982); (-0.00924124);
   (-0.0062443); (-0.00339386); (-0.000677272); 0.00191725; 0.00440064; 0.00678305; 0.00907385; 0.0112817;
   0.0134145; 0.0154795; 0.0174833; 0.0194319; 0.0213305; 0.0231841; 0.0249967; 0.026772; 0.0285131;
   0.0302225; 0.0319024; 0.0335541; 0.035179; 0.0367775; 0.03835; 0.0398962; 0.0414157; 0.0429075; 0.0443704;
   0.045803; 0.0472037; 0.0485705; 0.0499015; 0.0511946; 0.0524479; 0.0536592; 0.0548266; 0.0559483;
   0.0570227; 0.0580483; 0.0590239; 0.0599488; 0.0608223; 0.0616442; 0.0624145; 0.0631336; 0.0638023;
   0.0644214; 0.0649923; 0.0655163; 0.0659952; 0.0664307; 0.0668247; 0.0671791; 0.0674961; 0.0677774;
   0.0680251; 0.068241; 0.0684266; 0.0685834; 0.0687128; 0.0688158; 0.0688931; 0.0689451; 0.068972;
   0.0689734; 0.0689485; 0.0688963; 0.0688148; 0.0687017; 0.0685539; 0.0683676; 0.068138; 0.0678593;
   0.0675246; 0.0671255; 0.0666521; 0.0660926; 0.0654333; 0.0646577; 0.0637468; 0.062678; 0.0614251;
   0.0599572; 0.0582384; 0.0562269; 0.0538739; 0.0511227; 0.0479079; 0.0441534; 0.0397716; 0.0346619;
   0.0287081; 0.0217794; 0.013726; 0.00437848; (-0.00645166); (-0.018975); (-0.0334211); (-0.0500427);
   (-0.0691075); (-0.0908915); (-0.115687); (-0.143776); (-0.175422); (-0.210872); (-0.250302); (-0.293837);
   (-0.341501); (-0.39323); (-0.448841); (-0.50806); (-0.57051); (-0.635771); (-0.703403); (-0.773004);
   (-0.844273); (-0.916965); (-0.990885); (-1.06589); (-1.14183); (-1.21858); (-1.29597); (-1.3739);
   (-1.45239); (-1.5312); (-1.61048); (-1.68987); (-1.7698); (-1.84953); (-1.93001); (-2.01019); (-2.07593);
   (-2.15687); (-2.23782); (-2.31878); (-2.39973); (-2.48069); (-2.56165); (-2.64262); (-2.72358);
   (-2.80455); (-2.88552); (-2.9665); (-3.04747); (-3.12845); (-3.20942); (-3.2904); (-3.37138); (-3.45237);
   (-3.53335); (-3.61433); (-3.69532); (-3.7763); (-3.85729); (-3.93828); (-4.01926)];
  [(-0.747011); (-0.713373); (-0.680366); (-0.648032); (-0.616413); (-0.585548); (-0.555475); (-0.526231);
   (-0.497847); (-0.470351); (-0.443768); (-0.418118); (-0.393417); (-0.369674); (-0.346897); (-0.325085);
   (-0.304236); (-0.284342); (-0.26539); (-0.247365); (-0.230248); (-0.214016); (-0.198644); (-0.184105);
   (-0.170369); (-0.157406); (-0.145185); (-0.133672); (-0.122835); (-0.11264); (-0.103055); (-0.0940457);
   (-0.0855808); (-0.0776285); (-0.070158); (-0.0631393); (-0.0565436); (-0.0503432); (-0.0445113);
   (-0.0390225); (-0.0338526); (-0.0289784); (-0.024378); (-0.0200307); (-0.0159169); (-0.0120183);
   (-0.00831745); (-0.00479821); (-0.00144536); 0.00175525; 0.00481683; 0.00775162; 0.0105709; 0.0132852;
   0.0159041; 0.0184363; 0.0208899; 0.023272; 0.025589; 0.0278468; 0.0300503; 0.0322039; 0.0343113;
   0.0363755; 0.038399; 0.0403837; 0.0423308; 0.0442411; 0.0461149; 0.0479518; 0.0497515; 0.0515127;
   0.0532341; 0.0549142; 0.056551; 0.0581426; 0.0596869; 0.0611815; 0.0626245; 0.0640137; 0.0653473;
   0.0666234; 0.0678407; 0.0689978; 0.070094; 0.0711287; 0.0721017; 0.0730133; 0.073864; 0.0746546;
   0.0753865; 0.0760612; 0.0766804; 0.0772462; 0.0777606; 0.0782261; 0.078645; 0.0790196; 0.0793522;
   0.0796453; 0.0799009; 0.0801209; 0.0803073; 0.0804616; 0.0805849; 0.0806782; 0.0807422; 0.0807769;
   0.0807821; 0.080757; 0.0807003; 0.0806099; 0.0804832; 0.0803169; 0.0801064; 0.0798465; 0.0795306;
   0.0791509; 0.0786978; 0.0781602; 0.0775248; 0.076776; 0.0758952; 0.0748609; 0.0736476; 0.0722257;
   0.0705604; 0.0686113; 0.0663314; 0.0636658; 0.0605513; 0.0569143; 0.0526702; 0.0477215; 0.041956;
   0.0352468; 0.0274486; 0.0183979; 0.0079097; (-0.00421919); (-0.0182149); (-0.0343204); (-0.0528021);
   (-0.0739329); (-0.0980005); (-0.125289); (-0.156066); (-0.190583); (-0.229034); (-0.271561); (-0.318213);
   (-0.368956); (-0.423631); (-0.481992); (-0.54369); (-0.60831); (-0.675418); (-0.744602); (-0.815518);
   (-0.887924); (-0.961601); (-1.03639); (-1.11215); (-1.18876); (-1.26605); (-1.34392); (-1.42233);
   (-1.50113); (-1.5803); (-1.6598); (-1.73946); (-1.81944); (-1.89978); (-1.97976); (-2.04623); (-2.12718);
   (-2.20812); (-2.28907); (-2.37002); (-2.45098); (-2.53194); (-2.6129); (-2.69386); (-2.77483); (-2.8558);
   (-2.93677); (-3.01774); (-3.09872); (-3.17969); (-3.26067); (-3.34165); (-3.42263); (-3.50361);
   (-3.58459); (-3.66558); (-3.74656); (-3.82755); (-3.90853); (-3.98952); (-4.07051)];
  [(-0.860779); (-0.825301); (-0.790314); (-0.755857); (-0.721974); (-0.688706); (-0.656096); (-0.624186);
   (-0.593016); (-0.562626); (-0.53305); (-0.504324); (-0.476475); (-0.449529); (-0.423509); (-0.39843);
   (-0.374306); (-0.351142); (-0.328941); (-0.307702); (-0.287417); (-0.268076); (-0.249664); (-0.232163);
   (-0.21555); (-0.199802); (-0.184891); (-0.170789); (-0.157466); (-0.14489); (-0.133028); (-0.121848);
   (-0.111315); (-0.101398); (-0.0920617); (-0.0832748); (-0.075005); (-0.0672211); (-0.0598929);
   (-0.0529911); (-0.0464875); (-0.040355); (-0.0345677); (-0.029101); (-0.0239314); (-0.0190367);
   (-0.0143958); (-0.00998885); (-0.00579728); (-0.00180358); 0.00200862; 0.00565456; 0.00914843; 0.0125033;
   0.0157314; 0.0188438; 0.0218506; 0.0247611; 0.0275836; 0.0303255; 0.0329936; 0.0355935; 0.0381302;
   0.040608; 0.0430303; 0.0453998; 0.0477186; 0.0499882; 0.0522092; 0.054382; 0.0565064; 0.0585814;
   0.0606061; 0.0625788; 0.0644979; 0.0663613; 0.0681669; 0.0699124; 0.0715957; 0.0732147; 0.0747673;
   0.0762519; 0.0776668; 0.0790109; 0.0802835; 0.0814839; 0.0826122; 0.0836688; 0.0846544; 0.0855701;
   0.0864175; 0.0871985; 0.0879151; 0.0885698; 0.089165; 0.0897036; 0.0901882; 0.0906217; 0.0910068;
   0.0913462; 0.0916423; 0.0918976; 0.0921142; 0.0922938; 0.0924379; 0.0925477; 0.0926239; 0.0926667;
   0.0926758; 0.0926505; 0.0925893; 0.0924901; 0.0923498; 0.0921647; 0.0919299; 0.0916394; 0.091286;
   0.0908608; 0.0903533; 0.089751; 0.0890391; 0.0882001; 0.0872135; 0.086055; 0.0846965; 0.0831048;
   0.0812415; 0.0790616; 0.0765129; 0.0735349; 0.0700575; 0.0659997; 0.0612683; 0.0557566; 0.0493416;
   0.0418852; 0.0332299; 0.0231982; 0.0115937; (-0.00180212); (-0.0172259); (-0.0349362); (-0.0552046);
   (-0.0783083); (-0.104536); (-0.134164); (-0.167441); (-0.204593); (-0.245772); (-0.291067); (-0.340465);
   (-0.39386); (-0.451037); (-0.511678); (-0.575389); (-0.641739); (-0.710308); (-0.780726); (-0.8527);
   (-0.92602); (-1.0005); (-1.076); (-1.15239); (-1.22953); (-1.30726); (-1.38553); (-1.46428); (-1.54334);
   (-1.62284); (-1.70243); (-1.78253); (-1.86247); (-1.94283); (-2.00964); (-2.09057); (-2.17151);
   (-2.25246); (-2.33341); (-2.41436); (-2.49532); (-2.57627); (-2.65724); (-2.7382); (-2.81917); (-2.90014);
   (-2.98111); (-3.06208); (-3.14305); (-3.22403); (-3.30501); (-3.38599); (-3.46697); (-3.54795);
   (-3.62893); (-3.70992); (-3.7909); (-3.87189); (-3.95287); (-4.03386); (-4.11485)];
  [(-0.965337); (-0.928595); (-0.892229); (-0.856276); (-0.820775); (-0.785764); (-0.751285); (-0.71738);
   (-0.684092); (-0.651464); (-0.619536); (-0.588349); (-0.557943); (-0.528352); (-0.499609); (-0.471744);
   (-0.444782); (-0.418744); (-0.393646); (-0.3695); (-0.346312); (-0.324084); (-0.302814); (-0.282495);
   (-0.263114); (-0.244658); (-0.227107); (-0.210439); (-0.19463); (-0.179652); (-0.165476); (-0.152072);
   (-0.139408); (-0.127451); (-0.116167); (-0.105524); (-0.0954886); (-0.0860267); (-0.0771061);
   (-0.0686947); (-0.0607614); (-0.0532758); (-0.0462089); (-0.0395324); (-0.0332193); (-0.027244);
   (-0.0215818); (-0.0162096); (-0.0111052); (-0.00624802); (-0.00161839); 0.00280192; 0.00703001; 0.0110818;
   0.0149719; 0.0187141; 0.0223207; 0.0258032; 0.0291719; 0.0324362; 0.0356043; 0.0386836; 0.0416805;
   0.0446004; 0.047448; 0.0502271; 0.0529405; 0.0555905; 0.0581785; 0.0607054; 0.0631712; 0.0655756;
   0.0679178; 0.0701964; 0.0724098; 0.0745561; 0.0766333; 0.0786391; 0.0805713; 0.0824279; 0.0842068;
   0.0859063; 0.0875249; 0.0890614; 0.0905151; 0.0918857; 0.0931733; 0.0943784; 0.095502; 0.0965456;
   0.0975109; 0.0984003; 0.099216; 0.099961; 0.100638; 0.101251; 0.101802; 0.102294; 0.102732; 0.103117;
   0.103453; 0.103743; 0.103988; 0.104191; 0.104354; 0.104478; 0.104563; 0.10461; 0.104618; 0.104587;
   0.104515; 0.104399; 0.104236; 0.104022; 0.103751; 0.103415; 0.103008; 0.102518; 0.101933; 0.10124;
   0.10042; 0.0994553; 0.0983209; 0.0969896; 0.0954291; 0.0936018; 0.0914639; 0.0889643; 0.0860438; 0.082634;
   0.0786557; 0.0740178; 0.0686159; 0.0623299; 0.0550246; 0.0465457; 0.0367196; 0.0253536; 0.0122334;
   (-0.00287405); (-0.0202227); (-0.040081); (-0.0627249); (-0.0884407); (-0.117505); (-0.150172);
   (-0.186672); (-0.227169); (-0.271766); (-0.32047); (-0.373195); (-0.429743); (-0.489819); (-0.553046);
   (-0.618999); (-0.687246); (-0.757401); (-0.829166); (-0.902306); (-0.976648); (-1.05202); (-1.12832);
   (-1.20538); (-1.28307); (-1.36129); (-1.44003); (-1.51909); (-1.59856); (-1.67821); (-1.75821);
   (-1.83823); (-1.91875); (-1.99914); (-2.0669); (-2.14784); (-2.22878); (-2.30973); (-2.39068); (-2.47163);
   (-2.55258); (-2.63354); (-2.7145); (-2.79547); (-2.87643); (-2.9574); (-3.03837); (-3.11935); (-3.20032);
   (-3.2813); (-3.36228); (-3.44326); (-3.52424); (-3.60522); (-3.6862); (-3.76718); (-3.84817); (-3.92915);
   (-4.01014); (-4.09113); (-4.17211)];
  [(-1.06145); (-1.02382); (-0.986481); (-0.949463); (-0.912798); (-0.876522); (-0.84067); (-0.805282);
   (-0.770398); (-0.73606); (-0.702311); (-0.669192); (-0.636745); (-0.605013); (-0.574035); (-0.543848);
   (-0.514488); (-0.485984); (-0.458366); (-0.431656); (-0.405874); (-0.381034); (-0.357146); (-0.334214);
   (-0.312239); (-0.291215); (-0.271135); (-0.251984); (-0.233747); (-0.216403); (-0.199929); (-0.184298);
   (-0.169483); (-0.155455); (-0.142181); (-0.12963); (-0.117768); (-0.106561); (-0.0959776); (-0.0859827);
   (-0.0765437); (-0.0676282); (-0.0592043); (-0.0512412); (-0.0437091); (-0.0365791); (-0.0298236);
   (-0.0234162); (-0.0173317); (-0.0115464); (-0.00603749); (-0.00078387); 0.00423447; 0.00903621; 0.0136387;
   0.0180581; 0.0223093; 0.0264058; 0.0303602; 0.0341838; 0.0378866; 0.0414777; 0.0449649; 0.0483553;
   0.0516545; 0.0548676; 0.0579984; 0.06105; 0.0640246; 0.0669237; 0.0697479; 0.0724973; 0.0751714;
   0.0777692; 0.0802893; 0.08273; 0.0850892; 0.087365; 0.0895551; 0.0916575; 0.0936702; 0.0955917; 0.0974203;
   0.0991552; 0.100796; 0.102341; 0.103793; 0.105151; 0.106416; 0.107592; 0.108678; 0.109679; 0.110598;
   0.111436; 0.112198; 0.112887; 0.113508; 0.114063; 0.114556; 0.11499; 0.11537; 0.115697; 0.115976;
   0.116207; 0.116393; 0.116536; 0.116637; 0.116696; 0.116712; 0.116685; 0.116614; 0.116494; 0.116324;
   0.116099; 0.115811; 0.115455; 0.115022; 0.1145; 0.113876; 0.113136; 0.112262; 0.111232; 0.110021; 0.1086;
   0.106935; 0.104985; 0.102705; 0.100039; 0.0969266; 0.0932941; 0.0890581; 0.0841228; 0.0783782; 0.0716982;
   0.0639412; 0.0549462; 0.0445324; 0.0324998; 0.0186272; 0.00267527; (-0.0156157); (-0.0365176);
   (-0.0603071); (-0.0872687); (-0.117672); (-0.15176); (-0.189745); (-0.231767); (-0.277899); (-0.328112);
   (-0.382285); (-0.440185); (-0.501486); (-0.565789); (-0.632665); (-0.701696); (-0.772524); (-0.844867);
   (-0.918518); (-0.993305); (-1.06908); (-1.14573); (-1.2231); (-1.30105); (-1.37952); (-1.45845);
   (-1.53768); (-1.61734); (-1.69709); (-1.77727); (-1.85732); (-1.93783); (-2.00608); (-2.08701);
   (-2.16795); (-2.24889); (-2.32983); (-2.41078); (-2.49173); (-2.57269); (-2.65365); (-2.73461);
   (-2.81558); (-2.89654); (-2.97751); (-3.05848); (-3.13946); (-3.22043); (-3.30141); (-3.38238);
   (-3.46336); (-3.54434); (-3.62533); (-3.70631); (-3.78729); (-3.86828); (-3.94926); (-4.03025);
   (-4.11123); (-4.19222)];
  [(-1.15003); (-1.11177); (-1.07372); (-1.03593); (-0.998421); (-0.961215); (-0.924347); (-0.887852);
   (-0.851766); (-0.816125); (-0.780972); (-0.746346); (-0.71229); (-0.678846); (-0.646057); (-0.613965);
   (-0.582609); (-0.552028); (-0.522258); (-0.493331); (-0.465276); (-0.438119); (-0.41188); (-0.386575);
   (-0.362215); (-0.338807); (-0.316352); (-0.294848); (-0.274287); (-0.254657); (-0.235942); (-0.218124);
   (-0.20118); (-0.185086); (-0.169813); (-0.155333); (-0.141614); (-0.128624); (-0.116331); (-0.104701);
   (-0.0937); (-0.083295); (-0.0734527); (-0.0641402); (-0.0553255); (-0.0469775); (-0.039066); (-0.0315619);
   (-0.0244372); (-0.0176653); (-0.0112208); (-0.00507953); 0.000781118; 0.00638254; 0.0117447; 0.0168863;
   0.0218246; 0.0265754; 0.0311534; 0.035572; 0.039843; 0.0439773; 0.0479844; 0.0518727; 0.0556493;
   0.0593204; 0.0628909; 0.0663648; 0.0697453; 0.0730345; 0.0762337; 0.0793434; 0.0823637; 0.0852939;
   0.0881328; 0.0908789; 0.0935305; 0.0960857; 0.0985423; 0.100898; 0.103152; 0.105302; 0.107347; 0.109285;
   0.111117; 0.112843; 0.114462; 0.115976; 0.117387; 0.118696; 0.119907; 0.121021; 0.122043; 0.122976;
   0.123824; 0.124591; 0.125281; 0.125897; 0.126445; 0.126928; 0.127349; 0.127713; 0.128022; 0.128278;
   0.128484; 0.128642; 0.128753; 0.128816; 0.128833; 0.128801; 0.12872; 0.128585; 0.128393; 0.128139;
   0.127817; 0.127417; 0.12693; 0.126345; 0.125647; 0.124818; 0.123839; 0.122687; 0.121332; 0.119743;
   0.117882; 0.115705; 0.11316; 0.110186; 0.106716; 0.10267; 0.0979556; 0.0924679; 0.0860864; 0.0786755;
   0.0700804; 0.0601281; 0.0486245; 0.0353571; 0.020092; 0.0025795; (-0.0174497); (-0.0402697); (-0.0661628);
   (-0.0954029); (-0.128242); (-0.164905); (-0.205557); (-0.250297); (-0.299133); (-0.351983); (-0.408646);
   (-0.468835); (-0.532176); (-0.598246); (-0.666619); (-0.736908); (-0.8088); (-0.882074); (-0.956537);
   (-1.03204); (-1.10845); (-1.18564); (-1.26345); (-1.3418); (-1.42064); (-1.49984); (-1.57938); (-1.65917);
   (-1.73925); (-1.81941); (-1.89998); (-1.98027); (-2.04954); (-2.13047); (-2.21141); (-2.29235);
   (-2.37329); (-2.45424); (-2.53519); (-2.61615); (-2.69711); (-2.77807); (-2.85903); (-2.94); (-3.02097);
   (-3.10194); (-3.18291); (-3.26389); (-3.34486); (-3.42584); (-3.50682); (-3.5878); (-3.66878); (-3.74977);
   (-3.83075); (-3.91173); (-3.99272); (-4.07371); (-4.15469); (-4.23568)];
  [(-1.23199); (-1.19325); (-1.15469); (-1.11632); (-1.07818); (-1.04028); (-1.00265); (-0.965316);
   (-0.928315); (-0.891678); (-0.855441); (-0.819641); (-0.784318); (-0.749512); (-0.715267); (-0.681624);
   (-0.648627); (-0.616315); (-0.584731); (-0.553913); (-0.523896); (-0.494715); (-0.466398); (-0.438972);
   (-0.412457); (-0.38687); (-0.362223); (-0.338524); (-0.315774); (-0.293972); (-0.273109); (-0.253176);
   (-0.234157); (-0.216034); (-0.198784); (-0.182382); (-0.166802); (-0.152015); (-0.137989); (-0.124692);
   (-0.112092); (-0.100156); (-0.0888488); (-0.0781378); (-0.0679894); (-0.058371); (-0.0492503);
   (-0.0405962); (-0.0323784); (-0.0245679); (-0.0171368); (-0.0100584); (-0.00330757); 0.00313971;
   0.0093059; 0.015212; 0.0208778; 0.0263213; 0.0315593; 0.0366073; 0.041479; 0.0461872; 0.0507429;
   0.0551561; 0.0594353; 0.063588; 0.0676204; 0.0715374; 0.075343; 0.0790402; 0.082631; 0.0861166; 0.0894974;
   0.0927732; 0.0959432; 0.0990063; 0.101961; 0.104805; 0.107537; 0.110155; 0.112658; 0.115043; 0.11731;
   0.119459; 0.121488; 0.123397; 0.125189; 0.126864; 0.128424; 0.129871; 0.131209; 0.13244; 0.133569; 0.1346;
   0.135536; 0.136383; 0.137145; 0.137826; 0.138431; 0.138965; 0.139432; 0.139834; 0.140177; 0.140462;
   0.140692; 0.14087; 0.140996; 0.14107; 0.141094; 0.141066; 0.140983; 0.140843; 0.140642; 0.140374;
   0.140032; 0.139608; 0.139091; 0.138469; 0.137726; 0.136844; 0.135802; 0.134575; 0.133133; 0.131442;
   0.129462; 0.127146; 0.12444; 0.12128; 0.117594; 0.113298; 0.108296; 0.102477; 0.0957149; 0.0878684;
   0.0787763; 0.0682584; 0.0561149; 0.0421258; 0.0260527; 0.00763796; (-0.0133882); (-0.0373011);
   (-0.0643812); (-0.0948962); (-0.129087); (-0.167161); (-0.20926); (-0.255458); (-0.305728); (-0.359952);
   (-0.4179); (-0.479255); (-0.543627); (-0.610585); (-0.679713); (-0.750641); (-0.823093); (-0.896849);
   (-0.971746); (-1.04763); (-1.12439); (-1.20187); (-1.27993); (-1.35851); (-1.43756); (-1.51691);
   (-1.59664); (-1.67654); (-1.75675); (-1.83701); (-1.91765); (-1.99825); (-2.06808); (-2.14901);
   (-2.22995); (-2.31089); (-2.39184); (-2.47278); (-2.55374); (-2.63469); (-2.71565); (-2.79661);
   (-2.87758); (-2.95854); (-3.03951); (-3.12048); (-3.20146); (-3.28243); (-3.36341); (-3.44439);
   (-3.52536); (-3.60635); (-3.68733); (-3.76831); (-3.84929); (-3.93028); (-4.01126); (-4.09225);
   (-4.17324); (-4.25422)];
  [(-1.30813); (-1.26902); (-1.23006); (-1.19126); (-1.15264); (-1.11421); (-1.07599); (-1.03802);
   (-1.00032); (-0.962912); (-0.925832); (-0.889112); (-0.852789); (-0.816901); (-0.781487); (-0.746587);
   (-0.712245); (-0.678502); (-0.645402); (-0.612985); (-0.581292); (-0.550362); (-0.52023); (-0.490931);
   (-0.462493); (-0.434941); (-0.408298); (-0.382579); (-0.357797); (-0.333958); (-0.311064); (-0.289113);
   (-0.268099); (-0.248009); (-0.228828); (-0.210538); (-0.193116); (-0.176539); (-0.160777); (-0.145802);
   (-0.131584); (-0.11809); (-0.105287); (-0.0931415); (-0.0816202); (-0.0706895); (-0.060316); (-0.0504672);
   (-0.041111); (-0.0322165); (-0.0237536); (-0.0156936); (-0.00800899); (-0.00067344); 0.00633779;
   0.0130481; 0.0194793; 0.0256518; 0.0315845; 0.0372947; 0.0427984; 0.0481098; 0.053242; 0.0582063;
   0.0630129; 0.0676703; 0.0721861; 0.0765664; 0.080816; 0.0849388; 0.0889376; 0.0928143; 0.0965697;
   0.100204; 0.103718; 0.107109; 0.110376; 0.113519; 0.116536; 0.119424; 0.122182; 0.12481; 0.127306;
   0.129669; 0.1319; 0.133999; 0.135967; 0.137806; 0.139519; 0.141107; 0.142574; 0.143924; 0.145162;
   0.146291; 0.147317; 0.148244; 0.149079; 0.149825; 0.150487; 0.151071; 0.151582; 0.152022; 0.152396;
   0.152707; 0.152959; 0.153152; 0.153288; 0.153369; 0.153393; 0.15336; 0.153268; 0.153112; 0.15289;
   0.152593; 0.152216; 0.151748; 0.151178; 0.150492; 0.149674; 0.148703; 0.147556; 0.146206; 0.144621;
   0.142763; 0.140589; 0.138046; 0.135077; 0.131612; 0.127574; 0.12287; 0.117398; 0.111038; 0.103656;
   0.0950994; 0.0851973; 0.0737586; 0.0605732; 0.0454107; 0.0280241; 0.00814823; (-0.014489); (-0.0401665);
   (-0.0691557); (-0.101713); (-0.13806); (-0.178369); (-0.222748); (-0.27122); (-0.323705); (-0.38003);
   (-0.439918); (-0.503009); (-0.568886); (-0.637123); (-0.707329); (-0.779176); (-0.852417); (-0.926873);
   (-1.00239); (-1.07882); (-1.15604); (-1.23392); (-1.31232); (-1.39122); (-1.4705); (-1.5501); (-1.63001);
   (-1.71011); (-1.79044); (-1.8709); (-1.95143); (-2.02198); (-2.10291); (-2.18384); (-2.26477); (-2.34571);
   (-2.42666); (-2.50761); (-2.58856); (-2.66952); (-2.75047); (-2.83144); (-2.9124); (-2.99337); (-3.07434);
   (-3.15531); (-3.23628); (-3.31725); (-3.39823); (-3.47921); (-3.56019); (-3.64117); (-3.72215);
   (-3.80313); (-3.88412); (-3.9651); (-4.04609); (-4.12707); (-4.20806); (-4.28905)];
  [(-1.37915); (-1.33976); (-1.30049); (-1.26135); (-1.22235); (-1.18351); (-1.14484); (-1.10637);
   (-1.06811); (-1.0301); (-0.99236); (-0.954914); (-0.917797); (-0.881043); (-0.844688); (-0.808769);
   (-0.773328); (-0.738405); (-0.704041); (-0.67028); (-0.637165); (-0.604735); (-0.573032); (-0.542095);
   (-0.511957); (-0.482653); (-0.45421); (-0.426654); (-0.400004); (-0.374278); (-0.349485); (-0.325632);
   (-0.30272); (-0.280745); (-0.259701); (-0.239575); (-0.220351); (-0.202009); (-0.184527); (-0.16788);
   (-0.15204); (-0.136977); (-0.12266); (-0.109057); (-0.0961355); (-0.0838611); (-0.0722006); (-0.0611206);
   (-0.050588); (-0.0405706); (-0.0310366); (-0.0219555); (-0.0132978); (-0.00503545); 0.00285858; 0.0104097;
   0.0176419; 0.0245777; 0.0312379; 0.0376419; 0.0438075; 0.0497508; 0.0554864; 0.0610274; 0.0663854;
   0.0715703; 0.0765909; 0.0814544; 0.0861668; 0.0907328; 0.095156; 0.099439; 0.103583; 0.10759; 0.111459;
   0.115189; 0.118781; 0.122232; 0.125542; 0.128708; 0.13173; 0.134607; 0.137338; 0.139923; 0.142362;
   0.144655; 0.146805; 0.148812; 0.150681; 0.152414; 0.154014; 0.155486; 0.156836; 0.158067; 0.159185;
   0.160196; 0.161106; 0.161919; 0.162642; 0.163279; 0.163836; 0.164318; 0.164727; 0.165069; 0.165345;
   0.165559; 0.165712; 0.165804; 0.165837; 0.165807; 0.165714; 0.165555; 0.165323; 0.165013; 0.164618;
   0.164126; 0.163526; 0.162804; 0.161942; 0.160918; 0.15971; 0.158288; 0.156617; 0.15466; 0.15237; 0.149693;
   0.146568; 0.142923; 0.138676; 0.133733; 0.127986; 0.12131; 0.113567; 0.1046; 0.0942311; 0.0822645;
   0.068485; 0.0526574; 0.0345308; 0.0138375; (-0.0096953); (-0.0363448); (-0.0663786); (-0.100041);
   (-0.137544); (-0.179041); (-0.224618); (-0.274269); (-0.327897); (-0.385293); (-0.446159); (-0.510119);
   (-0.576751); (-0.645635); (-0.716391); (-0.788712); (-0.862374); (-0.937202); (-1.01305); (-1.08978);
   (-1.16726); (-1.24536); (-1.32396); (-1.40304); (-1.48247); (-1.56222); (-1.64226); (-1.72245); (-1.8029);
   (-1.88346); (-1.96401); (-2.03535); (-2.11627); (-2.1972); (-2.27814); (-2.35908); (-2.44003); (-2.52097);
   (-2.60193); (-2.68288); (-2.76384); (-2.8448); (-2.92577); (-3.00673); (-3.0877); (-3.16867); (-3.24965);
   (-3.33062); (-3.4116); (-3.49258); (-3.57356); (-3.65454); (-3.73552); (-3.8165); (-3.89748); (-3.97847);
   (-4.05945); (-4.14044); (-4.22143); (-4.30241)];
  [(-1.44565); (-1.40604); (-1.36652); (-1.32711); (-1.28781); (-1.24864); (-1.20961); (-1.17074);
   (-1.13205); (-1.09356); (-1.05529); (-1.01726); (-0.979508); (-0.942057); (-0.90494); (-0.868192);
   (-0.83185); (-0.795952); (-0.760538); (-0.725651); (-0.691331); (-0.657623); (-0.624567); (-0.592205);
   (-0.560577); (-0.52972); (-0.499669); (-0.470456); (-0.442108); (-0.414648); (-0.388096); (-0.362466);
   (-0.337768); (-0.314006); (-0.29118); (-0.269285); (-0.248313); (-0.22825); (-0.209079); (-0.19078);
   (-0.173329); (-0.1567); (-0.140865); (-0.125793); (-0.111454); (-0.0978144); (-0.0848416); (-0.0725022);
   (-0.0607626); (-0.0495898); (-0.038951); (-0.0288145); (-0.0191493); (-0.00992545); (-0.00111433);
   0.00731137; 0.0153775; 0.0231086; 0.0305272; 0.0376548; 0.0445108; 0.0511132; 0.0574782; 0.0636206;
   0.0695533; 0.0752877; 0.0808339; 0.0862002; 0.0913937; 0.0964201; 0.101284; 0.105988; 0.110535; 0.114927;
   0.119163; 0.123244; 0.12717; 0.130939; 0.134551; 0.138004; 0.141297; 0.14443; 0.147403; 0.150214;
   0.152865; 0.155358; 0.157693; 0.159872; 0.1619; 0.16378; 0.165516; 0.167113; 0.168575; 0.169909; 0.171121;
   0.172216; 0.173201; 0.174082; 0.174864; 0.175553; 0.176155; 0.176675; 0.177117; 0.177485; 0.177782;
   0.178012; 0.178174; 0.178272; 0.178303; 0.178268; 0.178163; 0.177985; 0.177728; 0.177386; 0.176951;
   0.17641; 0.175751; 0.174958; 0.174012; 0.17289; 0.171566; 0.170008; 0.168179; 0.166038; 0.163533;
   0.160608; 0.157195; 0.153218; 0.148587; 0.143201; 0.136945; 0.129685; 0.121275; 0.111546; 0.100312;
   0.0873676; 0.0724867; 0.0554269; 0.0359282; 0.0137206; (-0.0114689); (-0.039914); (-0.0718715);
   (-0.107567); (-0.147187); (-0.190848); (-0.238594); (-0.290369); (-0.346022); (-0.405299); (-0.467861);
   (-0.533308); (-0.601212); (-0.671167); (-0.742826); (-0.815928); (-0.890273); (-0.965705); (-1.04208);
   (-1.11928); (-1.19716); (-1.27559); (-1.3545); (-1.43385); (-1.51349); (-1.59347); (-1.67361); (-1.75403);
   (-1.83451); (-1.91529); (-1.99607); (-2.06798); (-2.1489); (-2.22983); (-2.31077); (-2.39171); (-2.47266);
   (-2.5536); (-2.63456); (-2.71551); (-2.79647); (-2.87743); (-2.9584); (-3.03936); (-3.12033); (-3.2013);
   (-3.28228); (-3.36325); (-3.44423); (-3.52521); (-3.60618); (-3.68717); (-3.76815); (-3.84913);
   (-3.93011); (-4.0111); (-4.09208); (-4.17307); (-4.25406); (-4.33504)];
  [(-1.50815); (-1.46836); (-1.42864); (-1.389); (-1.34946); (-1.31002); (-1.2707); (-1.23151); (-1.19247);
   (-1.15359); (-1.11489); (-1.07639); (-1.03812); (-1.00011); (-0.962368); (-0.924941); (-0.887857);
   (-0.851152); (-0.814863); (-0.77903); (-0.743694); (-0.708896); (-0.674679); (-0.641085); (-0.608155);
   (-0.575932); (-0.544453); (-0.513755); (-0.483872); (-0.454833); (-0.426665); (-0.399389); (-0.373022);
   (-0.347578); (-0.323062); (-0.299479); (-0.276827); (-0.255098); (-0.234281); (-0.214363); (-0.195325);
   (-0.177145); (-0.159798); (-0.143257); (-0.127494); (-0.112477); (-0.0981753); (-0.084556); (-0.0715858);
   (-0.0592316); (-0.0474602); (-0.036239); (-0.0255359); (-0.0153199); (-0.00556083); 0.0037702; 0.0127007;
   0.0212568; 0.029463; 0.0373423; 0.0449159; 0.0522036; 0.0592231; 0.0659907; 0.0725209; 0.0788264;
   0.0849186; 0.0908071; 0.0964998; 0.102004; 0.107324; 0.112464; 0.117428; 0.122218; 0.126834; 0.131277;
   0.135548; 0.139645; 0.143567; 0.147315; 0.150888; 0.154284; 0.157505; 0.160549; 0.163419; 0.166116;
   0.168641; 0.170998; 0.173189; 0.17522; 0.177095; 0.17882; 0.180399; 0.181839; 0.183147; 0.18433; 0.185393;
   0.186343; 0.187188; 0.187932; 0.188583; 0.189145; 0.189624; 0.190023; 0.190346; 0.190596; 0.190776;
   0.190885; 0.190924; 0.190892; 0.190786; 0.190602; 0.190335; 0.189979; 0.189522; 0.188955; 0.188264;
   0.187431; 0.186438; 0.185259; 0.183868; 0.182232; 0.180312; 0.178064; 0.175436; 0.172367; 0.168788;
   0.164619; 0.159768; 0.154129; 0.147583; 0.139993; 0.131206; 0.121049; 0.109332; 0.0958441; 0.0803549;
   0.0626187; 0.0423727; 0.0193462; (-0.00673262); (-0.0361334); (-0.0691057); (-0.105863); (-0.146579);
   (-0.191349); (-0.240195); (-0.293036); (-0.349697); (-0.409904); (-0.473297); (-0.53947); (-0.608);
   (-0.678486); (-0.750607); (-0.824112); (-0.898816); (-0.974567); (-1.05123); (-1.12868); (-1.20678);
   (-1.2854); (-1.3645); (-1.44398); (-1.52377); (-1.60387); (-1.68413); (-1.76465); (-1.8452); (-1.92606);
   (-2.00692); (-2.07952); (-2.16044); (-2.24137); (-2.32231); (-2.40325); (-2.4842); (-2.56515); (-2.6461);
   (-2.72705); (-2.80801); (-2.88897); (-2.96994); (-3.0509); (-3.13187); (-3.21284); (-3.29382); (-3.37479);
   (-3.45577); (-3.53675); (-3.61773); (-3.69871); (-3.77969); (-3.86067); (-3.94165); (-4.02264);
   (-4.10362); (-4.18461); (-4.2656); (-4.34659)];
  [(-1.56708); (-1.52714); (-1.48725); (-1.44743); (-1.40769); (-1.36803); (-1.32847); (-1.28902);
   (-1.24969); (-1.21049); (-1.17144); (-1.13256); (-1.09386); (-1.05538); (-1.01713); (-0.979139);
   (-0.94144); (-0.904063); (-0.867043); (-0.830415); (-0.794218); (-0.758493); (-0.72328); (-0.688621);
   (-0.65456); (-0.621138); (-0.588396); (-0.556375); (-0.525113); (-0.494643); (-0.464999); (-0.436208);
   (-0.408295); (-0.381278); (-0.355172); (-0.329988); (-0.305731); (-0.282401); (-0.259994); (-0.238502);
   (-0.21791); (-0.198204); (-0.179362); (-0.161361); (-0.144176); (-0.127779); (-0.11214); (-0.0972276);
   (-0.0830101); (-0.0694546); (-0.0565283); (-0.0441981); (-0.0324316); (-0.0211967); (-0.0104623);
   (-0.000198342); 0.00962414; 0.0190327; 0.0280534; 0.0367108; 0.0450277; 0.0530254; 0.0607233; 0.068139;
   0.0752886; 0.0821861; 0.0888441; 0.0952734; 0.101483; 0.107481; 0.113273; 0.118865; 0.12426; 0.12946;
   0.134468; 0.139284; 0.14391; 0.148344; 0.152586; 0.156637; 0.160496; 0.164163; 0.167637; 0.170921;
   0.174014; 0.176919; 0.179638; 0.182176; 0.184534; 0.186719; 0.188735; 0.190589; 0.192286; 0.193834;
   0.195239; 0.196508; 0.197649; 0.198669; 0.199575; 0.200373; 0.201069; 0.20167; 0.202181; 0.202607;
   0.20295; 0.203215; 0.203402; 0.203514; 0.203549; 0.203507; 0.203385; 0.203178; 0.20288; 0.202484; 0.20198;
   0.201354; 0.200592; 0.199675; 0.198583; 0.197288; 0.195761; 0.193966; 0.191861; 0.189398; 0.18652;
   0.183162; 0.179249; 0.174695; 0.1694; 0.163251; 0.15612; 0.147862; 0.138312; 0.12729; 0.114594; 0.100004;
   0.0832802; 0.0641705; 0.0424069; 0.0177188; (-0.0101654); (-0.0415038); (-0.0765274); (-0.11543);
   (-0.158344); (-0.205329); (-0.256354); (-0.311293); (-0.369914); (-0.431901); (-0.496868); (-0.564391);
   (-0.63406); (-0.705509); (-0.77845); (-0.852671); (-0.92801); (-1.00432); (-1.08148); (-1.15935);
   (-1.23781); (-1.31673); (-1.39612); (-1.47582); (-1.55583); (-1.63609); (-1.71652); (-1.79714); (-1.8779);
   (-1.95862); (-2.03208); (-2.113); (-2.19392); (-2.27486); (-2.35579); (-2.43673); (-2.51768); (-2.59863);
   (-2.67958); (-2.76053); (-2.84149); (-2.92245); (-3.00342); (-3.08439); (-3.16535); (-3.24633); (-3.3273);
   (-3.40827); (-3.48925); (-3.57023); (-3.65121); (-3.73219); (-3.81317); (-3.89415); (-3.97514);
   (-4.05612); (-4.13711); (-4.21809); (-4.29908); (-4.38007)];
  [(-1.62282); (-1.58274); (-1.54272); (-1.50275); (-1.46284); (-1.423); (-1.38324); (-1.34356); (-1.30399);
   (-1.26452); (-1.22518); (-1.18598); (-1.14693); (-1.10806); (-1.06939); (-1.03093); (-0.992715);
   (-0.954776); (-0.91714); (-0.879841); (-0.842915); (-0.806398); (-0.77033); (-0.734753); (-0.699707);
   (-0.665236); (-0.631381); (-0.598185); (-0.565688); (-0.533929); (-0.502944); (-0.472766); (-0.443426);
   (-0.414948); (-0.387355); (-0.360663); (-0.334884); (-0.310025); (-0.28609); (-0.263074); (-0.240973);
   (-0.219774); (-0.199462); (-0.18002); (-0.161424); (-0.143651); (-0.126673); (-0.110462); (-0.094987);
   (-0.0802164); (-0.0661182); (-0.0526597); (-0.0398083); (-0.0275317); (-0.0157982); (-0.00457666);
   0.00616277; 0.0164489; 0.026309; 0.0357692; 0.0448535; 0.0535848; 0.0619839; 0.0700698; 0.0778598;
   0.0853696; 0.0926126; 0.0996011; 0.106345; 0.112854; 0.119133; 0.125191; 0.13103; 0.136654; 0.142065;
   0.147266; 0.152256; 0.157037; 0.161609; 0.165971; 0.170124; 0.174068; 0.177803; 0.181331; 0.184653;
   0.187771; 0.190689; 0.19341; 0.195939; 0.198281; 0.200442; 0.202427; 0.204244; 0.205901; 0.207404;
   0.208761; 0.209981; 0.21107; 0.212037; 0.212887; 0.213629; 0.214268; 0.21481; 0.21526; 0.21562; 0.215896;
   0.216088; 0.216197; 0.216224; 0.216165; 0.216019; 0.21578; 0.215441; 0.214993; 0.214426; 0.213725;
   0.212873; 0.211851; 0.210633; 0.209193; 0.207495; 0.205501; 0.203165; 0.200434; 0.197246; 0.193529;
   0.189201; 0.184169; 0.178324; 0.171545; 0.163692; 0.154609; 0.144123; 0.13204; 0.118146; 0.102211;
   0.0839889; 0.0632165; 0.0396248; 0.0129449; (-0.017088); (-0.0507168); (-0.0881476); (-0.129542);
   (-0.174986); (-0.22449); (-0.277962); (-0.335216); (-0.395969); (-0.459862); (-0.526483); (-0.595415);
   (-0.666265); (-0.73871); (-0.812512); (-0.88749); (-0.963496); (-1.04039); (-1.11806); (-1.19637);
   (-1.27518); (-1.35444); (-1.4341); (-1.51404); (-1.59428); (-1.67467); (-1.75532); (-1.836); (-1.91697);
   (-1.99791); (-2.07187); (-2.15279); (-2.23372); (-2.31465); (-2.39558); (-2.47652); (-2.55747);
   (-2.63842); (-2.71937); (-2.80032); (-2.88128); (-2.96225); (-3.04321); (-3.12418); (-3.20515);
   (-3.28612); (-3.36709); (-3.44806); (-3.52904); (-3.61002); (-3.691); (-3.77198); (-3.85296); (-3.93394);
   (-4.01493); (-4.09591); (-4.1769); (-4.25788); (-4.33887); (-4.41986)];
  [(-1.67568); (-1.6355); (-1.59535); (-1.55525); (-1.5152); (-1.4752); (-1.43527); (-1.39541); (-1.35563);
   (-1.31595); (-1.27636); (-1.23689); (-1.19754); (-1.15834); (-1.11931); (-1.08046); (-1.04181); (-1.0034);
   (-0.96524); (-0.927372); (-0.889823); (-0.852629); (-0.815827); (-0.779454); (-0.743553); (-0.708164);
   (-0.673329); (-0.639091); (-0.605493); (-0.572575); (-0.540376); (-0.508934); (-0.478284); (-0.448456);
   (-0.419477); (-0.391371); (-0.364156); (-0.337846); (-0.312449); (-0.28797); (-0.264408); (-0.241758);
   (-0.22001); (-0.199151); (-0.179163); (-0.160025); (-0.141715); (-0.124205); (-0.107468); (-0.0914735);
   (-0.0761915); (-0.0615898); (-0.0476364); (-0.0342991); (-0.0215458); (-0.00934502); 0.00233378;
   0.0135203; 0.024243; 0.0345289; 0.0444035; 0.0538908; 0.0630129; 0.0717902; 0.0802413; 0.088383;
   0.0962302; 0.103796; 0.111092; 0.118127; 0.12491; 0.131448; 0.137745; 0.143806; 0.149633; 0.15523;
   0.160597; 0.165735; 0.170645; 0.175327; 0.179782; 0.184011; 0.188014; 0.191793; 0.19535; 0.198689;
   0.201811; 0.204723; 0.207427; 0.209932; 0.212241; 0.214364; 0.216306; 0.218077; 0.219684; 0.221135;
   0.222439; 0.223604; 0.224639; 0.225551; 0.226346; 0.227033; 0.227617; 0.228103; 0.228496; 0.228799;
   0.229014; 0.229143; 0.229185; 0.22914; 0.229003; 0.22877; 0.228435; 0.227988; 0.227419; 0.226713;
   0.225854; 0.224821; 0.22359; 0.222132; 0.220414; 0.218395; 0.21603; 0.213265; 0.210038; 0.206276;
   0.201897; 0.196807; 0.190897; 0.184044; 0.176108; 0.166934; 0.156347; 0.144152; 0.130136; 0.11407;
   0.095705; 0.074781; 0.0510292; 0.0241817; (-0.0060242); (-0.0398296); (-0.0774383); (-0.119009);
   (-0.164627); (-0.214298); (-0.267931); (-0.325339); (-0.386237); (-0.450266); (-0.517019); (-0.586075);
   (-0.657045); (-0.729604); (-0.803516); (-0.878595); (-0.954701); (-1.03169); (-1.10945); (-1.18784);
   (-1.26673); (-1.34607); (-1.42581); (-1.50582); (-1.58613); (-1.66659); (-1.74728); (-1.82802);
   (-1.90902); (-1.99); (-2.0647); (-2.14562); (-2.22655); (-2.30748); (-2.38842); (-2.46936); (-2.5503);
   (-2.63125); (-2.7122); (-2.79316); (-2.87412); (-2.95508); (-3.03604); (-3.11701); (-3.19798); (-3.27895);
   (-3.35992); (-3.4409); (-3.52187); (-3.60285); (-3.68383); (-3.76481); (-3.84579); (-3.92678); (-4.00776);
   (-4.08874); (-4.16973); (-4.25072); (-4.3317); (-4.41269)];
  [(-1.72594); (-1.68566); (-1.64541); (-1.6052); (-1.56503); (-1.5249); (-1.48483); (-1.44481); (-1.40485);
   (-1.36497); (-1.32518); (-1.28547); (-1.24588); (-1.2064); (-1.16706); (-1.12788); (-1.08886); (-1.05004);
   (-1.01144); (-0.973085); (-0.935003); (-0.897227); (-0.859791); (-0.82273); (-0.786084); (-0.749891);
   (-0.714194); (-0.679034); (-0.644454); (-0.610496); (-0.577202); (-0.544611); (-0.512763); (-0.481691);
   (-0.451428); (-0.422003); (-0.393439); (-0.365756); (-0.33897); (-0.31309); (-0.288123); (-0.264069);
   (-0.240924); (-0.218679); (-0.197323); (-0.176839); (-0.157207); (-0.138405); (-0.120407); (-0.103186);
   (-0.0867132); (-0.0709582); (-0.0558898); (-0.0414764); (-0.0276862); (-0.0144877); (-0.00184995);
   0.0102574; 0.0218634; 0.032996; 0.0436819; 0.0539461; 0.0638117; 0.0733005; 0.0824323; 0.0912248;
   0.0996942; 0.107855; 0.115719; 0.123297; 0.130598; 0.13763; 0.144399; 0.150909; 0.157164; 0.163168;
   0.168921; 0.174426; 0.179683; 0.184694; 0.189459; 0.193979; 0.198257; 0.202293; 0.206091; 0.209654;
   0.212985; 0.21609; 0.218974; 0.221644; 0.224105; 0.226367; 0.228436; 0.230322; 0.232033; 0.233579;
   0.234968; 0.236209; 0.237311; 0.238282; 0.23913; 0.239862; 0.240485; 0.241004; 0.241424; 0.241749;
   0.241981; 0.242122; 0.242172; 0.242128; 0.241989; 0.241749; 0.241401; 0.240936; 0.240343; 0.239606;
   0.238709; 0.237631; 0.236345; 0.234823; 0.233029; 0.230922; 0.228454; 0.22557; 0.222204; 0.218284;
   0.213722; 0.208422; 0.202272; 0.195145; 0.186899; 0.177372; 0.166386; 0.153743; 0.139227; 0.122603;
   0.103622; 0.0820224; 0.0575348; 0.029894; (-0.00115796); (-0.0358547); (-0.0743891); (-0.116906);
   (-0.163473); (-0.214078); (-0.268608); (-0.326858); (-0.388525); (-0.453242); (-0.520593); (-0.590165);
   (-0.661578); (-0.734521); (-0.808771); (-0.884155); (-0.960533); (-1.03777); (-1.11574); (-1.19432);
   (-1.27339); (-1.35288); (-1.43275); (-1.51289); (-1.5933); (-1.67386); (-1.75466); (-1.83548); (-1.91653);
   (-1.99763); (-2.07295); (-2.15387); (-2.2348); (-2.31573); (-2.39667); (-2.47761); (-2.55855); (-2.6395);
   (-2.72045); (-2.80141); (-2.88237); (-2.96333); (-3.04429); (-3.12526); (-3.20623); (-3.2872); (-3.36817);
   (-3.44915); (-3.53012); (-3.6111); (-3.69208); (-3.77306); (-3.85404); (-3.93502); (-4.01601); (-4.09699);
   (-4.17798); (-4.25896); (-4.33995); (-4.42094)];
  [(-1.77384); (-1.73348); (-1.69314); (-1.65283); (-1.61256); (-1.57231); (-1.53211); (-1.49196);
   (-1.45185); (-1.41181); (-1.37183); (-1.33193); (-1.29212); (-1.2524); (-1.2128); (-1.17333); (-1.13399);
   (-1.09483); (-1.05584); (-1.01707); (-0.978528); (-0.940249); (-0.902263); (-0.864604); (-0.827307);
   (-0.79041); (-0.753952); (-0.717975); (-0.682521); (-0.647632); (-0.613351); (-0.579719); (-0.546777);
   (-0.514563); (-0.483114); (-0.452461); (-0.422635); (-0.393661); (-0.365558); (-0.338345); (-0.312031);
   (-0.286624); (-0.262126); (-0.238533); (-0.215838); (-0.194031); (-0.173095); (-0.153012); (-0.133759);
   (-0.115314); (-0.0976479); (-0.0807336); (-0.0645412); (-0.0490401); (-0.0341992); (-0.0199874);
   (-0.0063737); 0.00667236; 0.0191804; 0.0311791; 0.0426956; 0.053756; 0.0643845; 0.0746038; 0.0844346;
   0.093896; 0.103005; 0.111777; 0.120225; 0.128362; 0.136196; 0.143736; 0.150989; 0.157961; 0.164656;
   0.171077; 0.177226; 0.183107; 0.18872; 0.194067; 0.19915; 0.203969; 0.208527; 0.212826; 0.216869;
   0.220661; 0.224205; 0.227507; 0.230573; 0.233409; 0.236024; 0.238426; 0.240623; 0.242624; 0.24444;
   0.246078; 0.24755; 0.248864; 0.25003; 0.251057; 0.251952; 0.252723; 0.253377; 0.25392; 0.254357; 0.254692;
   0.254926; 0.255062; 0.255099; 0.255035; 0.254867; 0.254588; 0.254192; 0.253667; 0.253; 0.252177; 0.251177;
   0.249977; 0.248549; 0.24686; 0.244871; 0.242539; 0.239809; 0.236621; 0.232906; 0.228581; 0.223555;
   0.217721; 0.210958; 0.203132; 0.194088; 0.183655; 0.171644; 0.157846; 0.142034; 0.123966; 0.103386;
   0.0800274; 0.0536241; 0.0239148; (-0.00934364); (-0.0463612); (-0.087304); (-0.132272); (-0.181287);
   (-0.234281); (-0.291087); (-0.351444); (-0.415009); (-0.481384); (-0.55015); (-0.620911); (-0.693324);
   (-0.767126); (-0.842127); (-0.918176); (-0.99514); (-1.07289); (-1.1513); (-1.23024); (-1.30962);
   (-1.38942); (-1.4695); (-1.54985); (-1.63044); (-1.71117); (-1.79206); (-1.87308); (-1.95406); (-2.03032);
   (-2.11124); (-2.19216); (-2.27308); (-2.35401); (-2.43495); (-2.51589); (-2.59684); (-2.67778);
   (-2.75874); (-2.83969); (-2.92065); (-3.00161); (-3.08258); (-3.16354); (-3.24451); (-3.32548);
   (-3.40646); (-3.48743); (-3.56841); (-3.64939); (-3.73036); (-3.81135); (-3.89233); (-3.97331);
   (-4.05429); (-4.13528); (-4.21626); (-4.29725); (-4.37824); (-4.45922)];
  [(-1.81958); (-1.77915); (-1.73874); (-1.69834); (-1.65798); (-1.61763); (-1.57732); (-1.53705);
   (-1.49681); (-1.45662); (-1.41649); (-1.37642); (-1.33641); (-1.29649); (-1.25666); (-1.21694);
   (-1.17734); (-1.13787); (-1.09855); (-1.05942); (-1.02048); (-0.981759); (-0.943295); (-0.905112);
   (-0.867245); (-0.829729); (-0.792601); (-0.7559); (-0.719667); (-0.683944); (-0.648774); (-0.614199);
   (-0.580261); (-0.547001); (-0.514457); (-0.482667); (-0.451664); (-0.421477); (-0.392132); (-0.363652);
   (-0.336053); (-0.309348); (-0.283544); (-0.258644); (-0.234645); (-0.211542); (-0.189324); (-0.167976);
   (-0.14748); (-0.127816); (-0.108959); (-0.090883); (-0.0735611); (-0.056964); (-0.0410617); (-0.0258238);
   (-0.0112196); 0.00278098; 0.0162079; 0.02909; 0.0414552; 0.0533301; 0.0647397; 0.0757076; 0.0862554;
   0.0964032; 0.106169; 0.115569; 0.124618; 0.133327; 0.141709; 0.149771; 0.157522; 0.164968; 0.172114;
   0.178964; 0.185521; 0.191788; 0.197766; 0.203458; 0.208865; 0.213991; 0.218836; 0.223404; 0.227699;
   0.231725; 0.235487; 0.238991; 0.242243; 0.245252; 0.248024; 0.25057; 0.252898; 0.255019; 0.256941;
   0.258676; 0.260234; 0.261625; 0.262859; 0.263944; 0.26489; 0.265704; 0.266395; 0.266967; 0.267426;
   0.267777; 0.268021; 0.26816; 0.268193; 0.268119; 0.267934; 0.267631; 0.267201; 0.266635; 0.265918;
   0.265033; 0.263959; 0.262672; 0.261141; 0.259331; 0.257202; 0.254707; 0.251788; 0.248382; 0.244414;
   0.239799; 0.23444; 0.228224; 0.221026; 0.212702; 0.203094; 0.192024; 0.179293; 0.164688; 0.147977;
   0.128911; 0.107232; 0.0826735; 0.0549719; 0.0238724; (-0.0108567); (-0.0494079); (-0.0919259);
   (-0.138481); (-0.189064); (-0.243569); (-0.301798); (-0.363456); (-0.428181); (-0.495563); (-0.565188);
   (-0.636674); (-0.709705); (-0.784045); (-0.859527); (-0.936003); (-1.01334); (-1.09142); (-1.17011);
   (-1.2493); (-1.3289); (-1.40888); (-1.48913); (-1.56965); (-1.65033); (-1.73121); (-1.81214); (-1.8933);
   (-1.97437); (-2.05124); (-2.13215); (-2.21307); (-2.294); (-2.37493); (-2.45586); (-2.53681); (-2.61775);
   (-2.6987); (-2.77965); (-2.86061); (-2.94157); (-3.02253); (-3.10349); (-3.18446); (-3.26543); (-3.3464);
   (-3.42737); (-3.50835); (-3.58932); (-3.6703); (-3.75128); (-3.83226); (-3.91324); (-3.99422); (-4.07521);
   (-4.15619); (-4.23718); (-4.31816); (-4.39915); (-4.48014)];
  [(-1.86335); (-1.82286); (-1.78238); (-1.74191); (-1.70146); (-1.66103); (-1.62063); (-1.58024);
   (-1.53989); (-1.49958); (-1.45931); (-1.41909); (-1.37892); (-1.33882); (-1.29879); (-1.25885); (-1.219);
   (-1.17927); (-1.13967); (-1.10021); (-1.06092); (-1.02183); (-0.982943); (-0.944302); (-0.905934);
   (-0.867872); (-0.83015); (-0.792805); (-0.755878); (-0.719408); (-0.683437); (-0.648009); (-0.613165);
   (-0.578947); (-0.545398); (-0.512555); (-0.480456); (-0.449135); (-0.418621); (-0.388943); (-0.360121);
   (-0.332174); (-0.305114); (-0.27895); (-0.253685); (-0.229319); (-0.205844); (-0.183251); (-0.161527);
   (-0.140654); (-0.120611); (-0.101376); (-0.0829229); (-0.0652248); (-0.0482533); (-0.0319792);
   (-0.0163727); (-0.00140405); 0.0129564; 0.0267377; 0.0399679; 0.052674; 0.0648817; 0.0766153; 0.0878971;
   0.0987479; 0.109187; 0.119231; 0.128895; 0.138193; 0.147136; 0.155735; 0.163996; 0.171929; 0.179538;
   0.186827; 0.193802; 0.200464; 0.206816; 0.212861; 0.218602; 0.224041; 0.22918; 0.234024; 0.238577;
   0.242842; 0.246827; 0.250537; 0.25398; 0.257163; 0.260097; 0.262789; 0.265251; 0.267493; 0.269525;
   0.271358; 0.273004; 0.274473; 0.275775; 0.276919; 0.277917; 0.278775; 0.279501; 0.280102; 0.280584;
   0.280949; 0.281202; 0.281343; 0.281372; 0.281286; 0.281082; 0.280752; 0.280287; 0.279676; 0.278904;
   0.277953; 0.2768; 0.275419; 0.273778; 0.271841; 0.269562; 0.266893; 0.263774; 0.260136; 0.255901;
   0.250979; 0.245268; 0.238649; 0.230992; 0.222147; 0.211947; 0.200208; 0.186726; 0.171281; 0.153634;
   0.133535; 0.110722; 0.0849292; 0.0558984; 0.0233825; (-0.0128371); (-0.0529333); (-0.0970274);
   (-0.145159); (-0.197286); (-0.253268); (-0.312872); (-0.375777); (-0.441603); (-0.509934); (-0.580365);
   (-0.652533); (-0.726149); (-0.801004); (-0.876939); (-0.953821); (-1.03152); (-1.10991); (-1.18887);
   (-1.26828); (-1.3481); (-1.42825); (-1.50866); (-1.58932); (-1.67011); (-1.75112); (-1.83214); (-1.91338);
   (-1.99462); (-2.07199); (-2.1529); (-2.23382); (-2.31475); (-2.39568); (-2.47662); (-2.55756); (-2.6385);
   (-2.71945); (-2.8004); (-2.88136); (-2.96232); (-3.04328); (-3.12424); (-3.20521); (-3.28618); (-3.36715);
   (-3.44812); (-3.5291); (-3.61007); (-3.69105); (-3.77203); (-3.85301); (-3.93399); (-4.01497); (-4.09596);
   (-4.17694); (-4.25793); (-4.33891); (-4.4199); (-4.50089)];
  [(-1.90531); (-1.86476); (-1.82422); (-1.78369); (-1.74317); (-1.70266); (-1.66217); (-1.6217); (-1.58125);
   (-1.54082); (-1.50043); (-1.46007); (-1.41976); (-1.3795); (-1.33929); (-1.29916); (-1.25911); (-1.21914);
   (-1.17929); (-1.13955); (-1.09996); (-1.06052); (-1.02127); (-0.982225); (-0.943414); (-0.904868);
   (-0.866619); (-0.828702); (-0.791154); (-0.754013); (-0.717322); (-0.681121); (-0.645453); (-0.610361);
   (-0.575886); (-0.542071); (-0.508955); (-0.476574); (-0.444964); (-0.414154); (-0.384172); (-0.35504);
   (-0.326777); (-0.299395); (-0.272905); (-0.247309); (-0.222607); (-0.198794); (-0.17586); (-0.153791);
   (-0.132572); (-0.112182); (-0.0925992); (-0.073798); (-0.0557525); (-0.0384348); (-0.0218163);
   (-0.00586822); 0.00943866; 0.024133; 0.0382431; 0.0517959; 0.0648176; 0.0773328; 0.0893647; 0.100935;
   0.112062; 0.122766; 0.133061; 0.142962; 0.152481; 0.161628; 0.170414; 0.178845; 0.186929; 0.194669;
   0.202071; 0.209139; 0.215875; 0.222282; 0.228364; 0.234124; 0.239565; 0.244691; 0.249506; 0.254018;
   0.25823; 0.262152; 0.26579; 0.269153; 0.272251; 0.275095; 0.277694; 0.280061; 0.282206; 0.284141;
   0.285878; 0.287428; 0.288802; 0.290011; 0.291063; 0.291969; 0.292737; 0.293372; 0.293881; 0.294269;
   0.294538; 0.294689; 0.294723; 0.294637; 0.294426; 0.294083; 0.2936; 0.292964; 0.29216; 0.291169; 0.289967;
   0.288528; 0.286819; 0.2848; 0.282428; 0.279649; 0.276403; 0.272619; 0.268217; 0.263103; 0.257172;
   0.250303; 0.242362; 0.233195; 0.222632; 0.210486; 0.196548; 0.180597; 0.16239; 0.141677; 0.118194;
   0.0916788; 0.061875; 0.028542; (-0.00853027); (-0.0495033); (-0.0944842); (-0.143496); (-0.196479);
   (-0.253273); (-0.313632); (-0.377221); (-0.443649); (-0.512504); (-0.583387); (-0.655942); (-0.729901);
   (-0.805061); (-0.881271); (-0.958397); (-1.03632); (-1.1149); (-1.19403); (-1.2736); (-1.35357);
   (-1.43385); (-1.51436); (-1.59513); (-1.67601); (-1.75709); (-1.83819); (-1.91947); (-2.0008); (-2.07882);
   (-2.15973); (-2.24065); (-2.32158); (-2.40251); (-2.48345); (-2.56439); (-2.64533); (-2.72628);
   (-2.80723); (-2.88819); (-2.96915); (-3.05011); (-3.13107); (-3.21204); (-3.29301); (-3.37398);
   (-3.45495); (-3.53593); (-3.6169); (-3.69788); (-3.77886); (-3.85984); (-3.94082); (-4.02181); (-4.10279);
   (-4.18377); (-4.26476); (-4.34575); (-4.42673); (-4.50772)];
  [(-1.9456); (-1.905); (-1.86441); (-1.82382); (-1.78324); (-1.74266); (-1.7021); (-1.66154); (-1.621);
   (-1.58047); (-1.53997); (-1.4995); (-1.45906); (-1.41865); (-1.37829); (-1.33799); (-1.29775); (-1.25758);
   (-1.2175); (-1.17752); (-1.13765); (-1.09792); (-1.05834); (-1.01894); (-0.979732); (-0.940756);
   (-0.902038); (-0.863609); (-0.825504); (-0.787762); (-0.75042); (-0.713519); (-0.677101); (-0.64121);
   (-0.605887); (-0.571175); (-0.537115); (-0.503747); (-0.471108); (-0.439232); (-0.408152); (-0.377893);
   (-0.348479); (-0.319928); (-0.292254); (-0.265467); (-0.239569); (-0.214562); (-0.190439); (-0.167193);
   (-0.14481); (-0.123274); (-0.102565); (-0.0826616); (-0.0635398); (-0.0451737); (-0.0275362);
   (-0.0105995); 0.00566455; 0.0212842; 0.0362872; 0.0507007; 0.0645509; 0.0778627; 0.0906598; 0.102964;
   0.114796; 0.126173; 0.137113; 0.147631; 0.157739; 0.167449; 0.176771; 0.185713; 0.194282; 0.202484;
   0.210324; 0.217807; 0.224935; 0.231713; 0.238144; 0.244232; 0.24998; 0.255394; 0.260479; 0.265241;
   0.269686; 0.273823; 0.277659; 0.281205; 0.284471; 0.287468; 0.290207; 0.292699; 0.294958; 0.296996;
   0.298824; 0.300455; 0.3019; 0.30317; 0.304276; 0.305227; 0.306032; 0.306697; 0.307229; 0.307632; 0.30791;
   0.308063; 0.308092; 0.307993; 0.307761; 0.307391; 0.30687; 0.306188; 0.305326; 0.304266; 0.302982;
   0.301446; 0.299622; 0.297471; 0.294944; 0.291987; 0.288534; 0.284512; 0.279835; 0.274408; 0.268118;
   0.26084; 0.252433; 0.242738; 0.23158; 0.218763; 0.204076; 0.187289; 0.168158; 0.146429; 0.121838;
   0.0941252; 0.06304; 0.0283532; (-0.0101309); (-0.0525551); (-0.098997); (-0.149455); (-0.203837);
   (-0.26195); (-0.323521); (-0.388195); (-0.455571); (-0.525236); (-0.596802); (-0.669944); (-0.74441);
   (-0.820019); (-0.896633); (-0.974116); (-1.05235); (-1.13121); (-1.21057); (-1.29035); (-1.3705);
   (-1.45093); (-1.5316); (-1.61248); (-1.69346); (-1.77464); (-1.85587); (-1.93713); (-2.01626); (-2.09717);
   (-2.17808); (-2.259); (-2.33992); (-2.42085); (-2.50179); (-2.58273); (-2.66368); (-2.74463); (-2.82558);
   (-2.90653); (-2.98749); (-3.06845); (-3.14942); (-3.23039); (-3.31135); (-3.39233); (-3.4733); (-3.55427);
   (-3.63525); (-3.71623); (-3.79721); (-3.87819); (-3.95917); (-4.04015); (-4.12113); (-4.20212); (-4.2831);
   (-4.36409); (-4.44508); (-4.52607)];
  [(-1.98434); (-1.94371); (-1.90307); (-1.86243); (-1.82179); (-1.78115); (-1.74051); (-1.69988);
   (-1.65926); (-1.61865); (-1.57805); (-1.53747); (-1.49691); (-1.45638); (-1.41589); (-1.37543);
   (-1.33502); (-1.29467); (-1.25439); (-1.21419); (-1.17408); (-1.13408); (-1.09421); (-1.05449);
   (-1.01494); (-0.975576); (-0.936437); (-0.89755); (-0.858946); (-0.820661); (-0.782731); (-0.745196);
   (-0.708096); (-0.671474); (-0.635371); (-0.599832); (-0.564898); (-0.53061); (-0.497009); (-0.464132);
   (-0.432014); (-0.400685); (-0.370173); (-0.340501); (-0.311688); (-0.283747); (-0.256689); (-0.230516);
   (-0.20523); (-0.180825); (-0.157292); (-0.134621); (-0.112793); (-0.0917915); (-0.0715938); (-0.0521767);
   (-0.0335151); (-0.0155827); 0.00164758; 0.018203; 0.0341107; 0.0493977; 0.0640898; 0.0782123; 0.0917888;
   0.104842; 0.117392; 0.129458; 0.141057; 0.152206; 0.162917; 0.173202; 0.183073; 0.192538; 0.201604;
   0.210279; 0.218567; 0.226474; 0.234004; 0.241161; 0.247949; 0.254372; 0.260436; 0.266145; 0.271505;
   0.276523; 0.281207; 0.285564; 0.289604; 0.293337; 0.296775; 0.299929; 0.302811; 0.305433; 0.30781;
   0.309953; 0.311876; 0.313591; 0.315112; 0.316448; 0.317611; 0.318612; 0.319459; 0.320159; 0.32072;
   0.321146; 0.32144; 0.321604; 0.321637; 0.321537; 0.321298; 0.320914; 0.320375; 0.319665; 0.31877;
   0.317668; 0.316333; 0.314736; 0.312841; 0.310606; 0.307981; 0.30491; 0.301327; 0.297154; 0.292306;
   0.286681; 0.280167; 0.272634; 0.263939; 0.253919; 0.242395; 0.22917; 0.214029; 0.196739; 0.177056;
   0.154723; 0.12948; 0.101067; 0.0692393; 0.0337729; (-0.00551576); (-0.0487603); (-0.0960232); (-0.147287);
   (-0.202444); (-0.261285); (-0.323523); (-0.388795); (-0.456696); (-0.526816); (-0.598775); (-0.672258);
   (-0.747027); (-0.822908); (-0.899766); (-0.977474); (-1.05591); (-1.13494); (-1.21446); (-1.29438);
   (-1.37466); (-1.4552); (-1.53598); (-1.61694); (-1.69804); (-1.77926); (-1.86057); (-1.94188); (-2.02172);
   (-2.10262); (-2.18354); (-2.26446); (-2.34538); (-2.42631); (-2.50725); (-2.58819); (-2.66913);
   (-2.75008); (-2.83104); (-2.91199); (-2.99295); (-3.07391); (-3.15488); (-3.23584); (-3.31681);
   (-3.39778); (-3.47876); (-3.55973); (-3.64071); (-3.72169); (-3.80266); (-3.88364); (-3.96463);
   (-4.04561); (-4.12659); (-4.20758); (-4.28856); (-4.36955); (-4.45054); (-4.53152)];
  [(-2.02166); (-1.98099); (-1.9403); (-1.89962); (-1.85893); (-1.81823); (-1.77754); (-1.73684); (-1.69615);
   (-1.65546); (-1.61477); (-1.5741); (-1.53343); (-1.49279); (-1.45217); (-1.41158); (-1.37102); (-1.3305);
   (-1.29004); (-1.24964); (-1.20932); (-1.16908); (-1.12895); (-1.08894); (-1.04907); (-1.00937);
   (-0.969854); (-0.930554); (-0.8915); (-0.852725); (-0.814263); (-0.776152); (-0.73843); (-0.701139);
   (-0.664321); (-0.628019); (-0.592275); (-0.557133); (-0.522633); (-0.488816); (-0.455718); (-0.423375);
   (-0.391818); (-0.361073); (-0.331165); (-0.302112); (-0.273927); (-0.246621); (-0.220196); (-0.194655);
   (-0.169991); (-0.146198); (-0.123261); (-0.101167); (-0.0798961); (-0.0594279); (-0.0397393); (-0.020806);
   (-0.00260251); 0.0148974; 0.0317201; 0.0478917; 0.063438; 0.0783838; 0.092753; 0.106568; 0.11985;
   0.132618; 0.14489; 0.156683; 0.168009; 0.178883; 0.189314; 0.199313; 0.208888; 0.218046; 0.226792;
   0.235133; 0.243074; 0.250618; 0.257771; 0.264537; 0.270923; 0.276932; 0.282573; 0.287853; 0.292778;
   0.29736; 0.301607; 0.305531; 0.309143; 0.312456; 0.315483; 0.318236; 0.320731; 0.32298; 0.324998;
   0.326797; 0.32839; 0.32979; 0.331008; 0.332055; 0.33294; 0.333671; 0.334254; 0.334694; 0.334996; 0.33516;
   0.335186; 0.33507; 0.334809; 0.334392; 0.333811; 0.333049; 0.33209; 0.330912; 0.329486; 0.327783;
   0.325763; 0.323382; 0.320589; 0.317323; 0.313515; 0.309084; 0.303939; 0.297976; 0.291076; 0.283104;
   0.27391; 0.263327; 0.25117; 0.237235; 0.221302; 0.203135; 0.182485; 0.159096; 0.132706; 0.103063;
   0.0699284; 0.0330909; (-0.00761525); (-0.0523019); (-0.101005); (-0.153677); (-0.210177); (-0.270274);
   (-0.333649); (-0.399927); (-0.468697); (-0.539556); (-0.612141); (-0.686162); (-0.7614); (-0.837704);
   (-0.914937); (-0.992976); (-1.0717); (-1.15098); (-1.23072); (-1.31083); (-1.39128); (-1.47197);
   (-1.55289); (-1.63395); (-1.71516); (-1.79646); (-1.87788); (-1.95921); (-2.03966); (-2.12057);
   (-2.20148); (-2.2824); (-2.36332); (-2.44425); (-2.52519); (-2.60613); (-2.68708); (-2.76802); (-2.84898);
   (-2.92993); (-3.01089); (-3.09185); (-3.17282); (-3.25378); (-3.33475); (-3.41572); (-3.4967); (-3.57767);
   (-3.65865); (-3.73963); (-3.82061); (-3.90159); (-3.98257); (-4.06355); (-4.14453); (-4.22552); (-4.3065);
   (-4.38749); (-4.46848); (-4.54946)];
  [(-2.05765); (-2.01694); (-1.97622); (-1.93549); (-1.89476); (-1.85401); (-1.81326); (-1.7725); (-1.73174);
   (-1.69098); (-1.65022); (-1.60946); (-1.5687); (-1.52796); (-1.48722); (-1.44651); (-1.40581); (-1.36515);
   (-1.32453); (-1.28395); (-1.24343); (-1.20298); (-1.16261); (-1.12235); (-1.0822); (-1.04218); (-1.00232);
   (-0.962653); (-0.923192); (-0.883973); (-0.845028); (-0.806392); (-0.768103); (-0.7302); (-0.692725);
   (-0.655719); (-0.619225); (-0.583288); (-0.547948); (-0.513249); (-0.479229); (-0.445926); (-0.413375);
   (-0.381606); (-0.350648); (-0.320522); (-0.291248); (-0.26284); (-0.235306); (-0.208652); (-0.182877);
   (-0.157977); (-0.133943); (-0.110764); (-0.0884253); (-0.0669077); (-0.0461913); (-0.0262538);
   (-0.00707147); 0.0113803; 0.0291268; 0.0461932; 0.0626048; 0.078386; 0.0935604; 0.108151; 0.122178;
   0.135661; 0.148619; 0.161069; 0.173024; 0.184498; 0.195503; 0.206048; 0.216142; 0.225794; 0.235009;
   0.243794; 0.252154; 0.260095; 0.267621; 0.274738; 0.281453; 0.287771; 0.293699; 0.299246; 0.30442;
   0.309232; 0.313692; 0.317811; 0.321603; 0.32508; 0.328256; 0.331146; 0.333763; 0.336123; 0.33824;
   0.340128; 0.341801; 0.343271; 0.34455; 0.34565; 0.346581; 0.347351; 0.347967; 0.348434; 0.348756;
   0.348935; 0.348971; 0.34886; 0.348598; 0.348176; 0.347583; 0.346805; 0.345824; 0.344616; 0.343155;
   0.341408; 0.339336; 0.336895; 0.334032; 0.330684; 0.326782; 0.322244; 0.316977; 0.310875; 0.303817;
   0.295667; 0.286274; 0.275468; 0.263062; 0.248852; 0.232616; 0.214117; 0.193107; 0.169329; 0.142523;
   0.11244; 0.0788441; 0.0415297; 0.000337092; (-0.0448383); (-0.0940243); (-0.147165); (-0.204112);
   (-0.264625); (-0.328383); (-0.395005); (-0.464082); (-0.535213); (-0.60804); (-0.682277); (-0.757712);
   (-0.834196); (-0.911595); (-0.989786); (-1.06865); (-1.14806); (-1.22791); (-1.30814); (-1.38869);
   (-1.46947); (-1.55047); (-1.63162); (-1.7129); (-1.79427); (-1.87576); (-1.95715); (-2.0383); (-2.11921);
   (-2.20012); (-2.28104); (-2.36196); (-2.4429); (-2.52383); (-2.60477); (-2.68572); (-2.76667); (-2.84762);
   (-2.92857); (-3.00953); (-3.09049); (-3.17146); (-3.25243); (-3.33339); (-3.41437); (-3.49534);
   (-3.57631); (-3.65729); (-3.73827); (-3.81925); (-3.90023); (-3.98121); (-4.06219); (-4.14318);
   (-4.22416); (-4.30515); (-4.38613); (-4.46712); (-4.54811)];
  [(-2.0924); (-2.05166); (-2.0109); (-1.97014); (-1.92936); (-1.88857); (-1.84777); (-1.80696); (-1.76614);
   (-1.72531); (-1.68448); (-1.64364); (-1.6028); (-1.56196); (-1.52112); (-1.4803); (-1.43948); (-1.39868);
   (-1.35791); (-1.31718); (-1.27648); (-1.23584); (-1.19526); (-1.15476); (-1.11435); (-1.07405);
   (-1.03389); (-0.99388); (-0.95405); (-0.914427); (-0.875043); (-0.835928); (-0.797121); (-0.758657);
   (-0.720576); (-0.682921); (-0.645733); (-0.609056); (-0.572933); (-0.537406); (-0.502518); (-0.468308);
   (-0.434813); (-0.402068); (-0.370104); (-0.338947); (-0.308622); (-0.279145); (-0.250532); (-0.22279);
   (-0.195925); (-0.169936); (-0.144819); (-0.120566); (-0.0971659); (-0.0746029); (-0.0528597);
   (-0.0319166); (-0.0117519); 0.00765723; 0.0263347; 0.0443045; 0.0615911; 0.0782182; 0.0942092; 0.109586;
   0.124371; 0.138582; 0.152238; 0.165357; 0.177953; 0.190039; 0.201628; 0.21273; 0.223355; 0.233511;
   0.243204; 0.252442; 0.26123; 0.269575; 0.277482; 0.284957; 0.292006; 0.298637; 0.304858; 0.310677;
   0.316104; 0.321148; 0.325823; 0.33014; 0.334112; 0.337754; 0.341079; 0.344104; 0.346843; 0.349311;
   0.351524; 0.353497; 0.355243; 0.356776; 0.358109; 0.359253; 0.360218; 0.361013; 0.361646; 0.362122;
   0.362444; 0.362614; 0.362631; 0.362491; 0.36219; 0.361718; 0.361062; 0.360208; 0.359134; 0.357818;
   0.356228; 0.354331; 0.352085; 0.349442; 0.346344; 0.342727; 0.338514; 0.333619; 0.327944; 0.321375;
   0.313786; 0.305034; 0.294959; 0.283383; 0.270113; 0.254937; 0.237627; 0.21794; 0.195626; 0.170427;
   0.142088; 0.110366; 0.075039; 0.0359196; (-0.0071258); (-0.0541713); (-0.105207); (-0.160138);
   (-0.218775); (-0.280844); (-0.345993); (-0.413828); (-0.483941); (-0.555945); (-0.629509); (-0.704377);
   (-0.780373); (-0.857352); (-0.935194); (-1.01377); (-1.09296); (-1.17266); (-1.25275); (-1.33319);
   (-1.41393); (-1.49487); (-1.57602); (-1.65727); (-1.73868); (-1.8201); (-1.90167); (-1.98324); (-2.06478);
   (-2.14569); (-2.2266); (-2.30752); (-2.38844); (-2.46937); (-2.55031); (-2.63125); (-2.7122); (-2.79314);
   (-2.8741); (-2.95505); (-3.03601); (-3.11697); (-3.19794); (-3.2789); (-3.35987); (-3.44084); (-3.52182);
   (-3.60279); (-3.68377); (-3.76475); (-3.84573); (-3.92671); (-4.00769); (-4.08867); (-4.16965);
   (-4.25064); (-4.33162); (-4.41261); (-4.4936); (-4.57458)];
  [(-2.12599); (-2.08522); (-2.04443); (-2.00363); (-1.96282); (-1.92199); (-1.88114); (-1.84029);
   (-1.79941); (-1.75853); (-1.71763); (-1.67672); (-1.6358); (-1.59487); (-1.55395); (-1.51302); (-1.47209);
   (-1.43117); (-1.39027); (-1.34938); (-1.30852); (-1.2677); (-1.22693); (-1.18622); (-1.14558); (-1.10503);
   (-1.06458); (-1.02427); (-0.984102); (-0.944111); (-0.904325); (-0.864774); (-0.82549); (-0.786511);
   (-0.747874); (-0.709618); (-0.671787); (-0.634422); (-0.597567); (-0.561266); (-0.525561); (-0.490493);
   (-0.456103); (-0.422428); (-0.389502); (-0.357356); (-0.326016); (-0.295506); (-0.265842); (-0.23704);
   (-0.209108); (-0.182049); (-0.155865); (-0.13055); (-0.106097); (-0.0824937); (-0.0597265); (-0.0377779);
   (-0.0166286); 0.00374231; 0.0233568; 0.0422377; 0.0604081; 0.0778912; 0.0947094; 0.110885; 0.126438;
   0.141389; 0.155756; 0.169557; 0.182805; 0.195516; 0.207701; 0.219372; 0.230538; 0.241208; 0.25139;
   0.26109; 0.270316; 0.279074; 0.28737; 0.29521; 0.302603; 0.309554; 0.316074; 0.322171; 0.327856; 0.33314;
   0.338035; 0.342554; 0.346712; 0.350523; 0.354003; 0.357167; 0.360032; 0.362614; 0.364928; 0.36699;
   0.368814; 0.370416; 0.371809; 0.373003; 0.37401; 0.37484; 0.375499; 0.375993; 0.376327; 0.376501;
   0.376515; 0.376365; 0.376045; 0.375546; 0.374856; 0.373956; 0.372828; 0.371445; 0.369777; 0.367787;
   0.365432; 0.362662; 0.359418; 0.355632; 0.351226; 0.34611; 0.340183; 0.333327; 0.325412; 0.316291;
   0.305801; 0.29376; 0.27997; 0.264216; 0.246268; 0.22588; 0.202802; 0.176777; 0.147552; 0.114892;
   0.0785809; 0.038445; (-0.00563475); (-0.0537152); (-0.105766); (-0.161672); (-0.221223); (-0.284128);
   (-0.350026); (-0.418514); (-0.489188); (-0.561673); (-0.635652); (-0.710885); (-0.787205); (-0.864478);
   (-0.94258); (-1.02139); (-1.10079); (-1.18067); (-1.26092); (-1.34151); (-1.42237); (-1.50343);
   (-1.58468); (-1.66602); (-1.74753); (-1.82902); (-1.91065); (-1.9923); (-2.07441); (-2.15532); (-2.23623);
   (-2.31715); (-2.39808); (-2.47901); (-2.55994); (-2.64088); (-2.72183); (-2.80278); (-2.88373);
   (-2.96468); (-3.04564); (-3.12661); (-3.20757); (-3.28854); (-3.36951); (-3.45048); (-3.53145);
   (-3.61242); (-3.6934); (-3.77438); (-3.85536); (-3.93634); (-4.01732); (-4.0983); (-4.17929); (-4.26027);
   (-4.34126); (-4.42224); (-4.50323); (-4.58422)];
  [(-2.1585); (-2.1177); (-2.07689); (-2.03606); (-1.99521); (-1.95434); (-1.91346); (-1.87255); (-1.83163);
   (-1.79069); (-1.74973); (-1.70876); (-1.66777); (-1.62677); (-1.58575); (-1.54473); (-1.5037); (-1.46267);
   (-1.42164); (-1.38063); (-1.33962); (-1.29864); (-1.25769); (-1.21678); (-1.17593); (-1.13515);
   (-1.09445); (-1.05385); (-1.01338); (-0.973051); (-0.932897); (-0.892945); (-0.853225); (-0.813771);
   (-0.77462); (-0.73581); (-0.697381); (-0.659377); (-0.621839); (-0.584811); (-0.548338); (-0.512461);
   (-0.477223); (-0.442662); (-0.408817); (-0.375722); (-0.343405); (-0.311896); (-0.281214); (-0.251379);
   (-0.222403); (-0.194296); (-0.167061); (-0.140698); (-0.115202); (-0.0905667); (-0.0667798); (-0.0438274);
   (-0.0216929); (-0.000357652); 0.0201985; 0.0399966; 0.0590585; 0.0774061; 0.0950613; 0.112045; 0.128379;
   0.144081; 0.15917; 0.173663; 0.187576; 0.200922; 0.213715; 0.225965; 0.237683; 0.248878; 0.259557;
   0.26973; 0.279402; 0.288581; 0.297273; 0.305486; 0.313228; 0.320507; 0.327331; 0.333711; 0.339659;
   0.345185; 0.350304; 0.355029; 0.359375; 0.363357; 0.366993; 0.370298; 0.373289; 0.375983; 0.378397;
   0.380547; 0.382449; 0.384117; 0.385565; 0.386805; 0.387849; 0.388706; 0.389383; 0.389887; 0.390221;
   0.390387; 0.390383; 0.390206; 0.389848; 0.389299; 0.388547; 0.387572; 0.386353; 0.384862; 0.383068;
   0.38093; 0.378404; 0.375435; 0.371962; 0.367912; 0.363204; 0.357742; 0.351419; 0.344113; 0.335688;
   0.325989; 0.314849; 0.302077; 0.287472; 0.27081; 0.251858; 0.230368; 0.206088; 0.178763; 0.148148;
   0.114013; 0.0761605; 0.0344348; (-0.0112592); (-0.0609451); (-0.114563); (-0.171964); (-0.232904);
   (-0.297067); (-0.364074); (-0.43352); (-0.505004); (-0.578172); (-0.652737); (-0.728483); (-0.805258);
   (-0.882941); (-0.961401); (-1.04052); (-1.12019); (-1.2003); (-1.28076); (-1.36154); (-1.44255);
   (-1.52374); (-1.6051); (-1.68655); (-1.76814); (-1.84975); (-1.93136); (-2.0148); (-2.0957); (-2.17661);
   (-2.25752); (-2.33844); (-2.41937); (-2.5003); (-2.58123); (-2.66217); (-2.74312); (-2.82407); (-2.90502);
   (-2.98598); (-3.06693); (-3.1479); (-3.22886); (-3.30983); (-3.3908); (-3.47177); (-3.55274); (-3.63371);
   (-3.71469); (-3.79567); (-3.87665); (-3.95763); (-4.03861); (-4.11959); (-4.20058); (-4.28156);
   (-4.36255); (-4.44353); (-4.52452); (-4.60551)];
  [(-2.18999); (-2.14917); (-2.10833); (-2.06747); (-2.02659); (-1.98569); (-1.94477); (-1.90382);
   (-1.86286); (-1.82187); (-1.78085); (-1.73982); (-1.69877); (-1.65769); (-1.6166); (-1.57549); (-1.53437);
   (-1.49324); (-1.4521); (-1.41096); (-1.36982); (-1.32869); (-1.28758); (-1.2465); (-1.20545); (-1.16445);
   (-1.12352); (-1.08266); (-1.04191); (-1.00127); (-0.960781); (-0.920459); (-0.880337); (-0.840446);
   (-0.80082); (-0.761496); (-0.722513); (-0.683913); (-0.645737); (-0.608029); (-0.570832); (-0.534192);
   (-0.49815); (-0.462748); (-0.428026); (-0.39402); (-0.360765); (-0.32829); (-0.296622); (-0.265783);
   (-0.235789); (-0.206654); (-0.178386); (-0.15099); (-0.124464); (-0.0988047); (-0.0740041); (-0.0500511);
   (-0.0269321); (-0.00463091); 0.0168703; 0.0375908; 0.0575509; 0.076771; 0.095272; 0.113074; 0.130198;
   0.146662; 0.162484; 0.177682; 0.19227; 0.206264; 0.219675; 0.232515; 0.244796; 0.256525; 0.267713;
   0.278367; 0.288495; 0.298103; 0.307201; 0.315794; 0.323893; 0.331505; 0.33864; 0.34531; 0.351526;
   0.357301; 0.362648; 0.367583; 0.372121; 0.376279; 0.380074; 0.383523; 0.386644; 0.389455; 0.391972;
   0.394213; 0.396195; 0.397932; 0.399439; 0.400729; 0.401813; 0.402701; 0.403401; 0.40392; 0.40426;
   0.404423; 0.404408; 0.40421; 0.403823; 0.403235; 0.402432; 0.401396; 0.400102; 0.398522; 0.396622;
   0.394361; 0.391692; 0.388557; 0.384892; 0.380623; 0.375663; 0.369913; 0.363263; 0.355586; 0.34674;
   0.336568; 0.324895; 0.311529; 0.29626; 0.278864; 0.259104; 0.236731; 0.211493; 0.183137; 0.151425;
   0.116134; 0.0770805; 0.0341261; (-0.0128067); (-0.0637175); (-0.118521); (-0.177043); (-0.239021);
   (-0.304116); (-0.371944); (-0.442096); (-0.514182); (-0.587863); (-0.662871); (-0.739009); (-0.816138);
   (-0.894134); (-0.972877); (-1.05225); (-1.13213); (-1.21242); (-1.29305); (-1.37398); (-1.45511);
   (-1.53642); (-1.61788); (-1.69944); (-1.78106); (-1.86277); (-1.94444); (-2.02846); (-2.10936);
   (-2.19027); (-2.27118); (-2.3521); (-2.43303); (-2.51396); (-2.59489); (-2.67584); (-2.75678); (-2.83773);
   (-2.91868); (-2.99964); (-3.0806); (-3.16156); (-3.24252); (-3.32349); (-3.40446); (-3.48543); (-3.5664);
   (-3.64738); (-3.72835); (-3.80933); (-3.89031); (-3.97129); (-4.05227); (-4.13325); (-4.21424);
   (-4.29522); (-4.37621); (-4.45719); (-4.53818); (-4.61917)];
  [(-2.22053); (-2.17969); (-2.13883); (-2.09794); (-2.05703); (-2.0161); (-1.97514); (-1.93416); (-1.89315);
   (-1.85212); (-1.81105); (-1.76997); (-1.72885); (-1.68771); (-1.64655); (-1.60536); (-1.56416);
   (-1.52293); (-1.48169); (-1.44043); (-1.39917); (-1.3579); (-1.31664); (-1.2754); (-1.23417); (-1.19297);
   (-1.15182); (-1.11073); (-1.06972); (-1.0288); (-0.987998); (-0.947337); (-0.906844); (-0.866548);
   (-0.826482); (-0.786682); (-0.747183); (-0.708027); (-0.669255); (-0.630908); (-0.593033); (-0.555671);
   (-0.518868); (-0.482667); (-0.447108); (-0.412231); (-0.378073); (-0.344668); (-0.312045); (-0.28023);
   (-0.249244); (-0.219104); (-0.189824); (-0.16141); (-0.133867); (-0.107193); (-0.0813862); (-0.0564372);
   (-0.0323357); (-0.00906841); 0.0133802; 0.0350271; 0.0558908; 0.0759904; 0.0953454; 0.113975; 0.131899;
   0.149135; 0.165701; 0.181614; 0.196889; 0.21154; 0.22558; 0.239022; 0.251875; 0.26415; 0.275856; 0.287001;
   0.297593; 0.30764; 0.31715; 0.326132; 0.334594; 0.342546; 0.349999; 0.356965; 0.363454; 0.369482;
   0.375063; 0.380213; 0.384948; 0.389285; 0.393242; 0.396839; 0.400092; 0.403022; 0.405645; 0.40798;
   0.410044; 0.411852; 0.41342; 0.414761; 0.415887; 0.416809; 0.417534; 0.418068; 0.418417; 0.41858;
   0.418556; 0.418342; 0.417929; 0.417305; 0.416456; 0.415362; 0.413999; 0.412337; 0.410339; 0.407964;
   0.405162; 0.401873; 0.398032; 0.393559; 0.388367; 0.382352; 0.375401; 0.367383; 0.358153; 0.347548;
   0.33539; 0.321483; 0.305614; 0.287556; 0.26707; 0.243905; 0.217812; 0.18854; 0.155857; 0.11955; 0.0794438;
   0.0354177; (-0.0125888); (-0.0645551); (-0.120375); (-0.179853); (-0.242709); (-0.308592); (-0.37711);
   (-0.447856); (-0.520451); (-0.594569); (-0.669958); (-0.746435); (-0.823872); (-0.902143); (-0.981131);
   (-1.06072); (-1.14079); (-1.22124); (-1.30203); (-1.38308); (-1.46433); (-1.54577); (-1.6273); (-1.70895);
   (-1.79065); (-1.87243); (-1.95414); (-2.03877); (-2.11967); (-2.20058); (-2.28149); (-2.36241);
   (-2.44334); (-2.52427); (-2.6052); (-2.68614); (-2.76709); (-2.84804); (-2.92899); (-3.00995); (-3.0909);
   (-3.17187); (-3.25283); (-3.3338); (-3.41477); (-3.49574); (-3.57671); (-3.65768); (-3.73866); (-3.81964);
   (-3.90062); (-3.9816); (-4.06258); (-4.14356); (-4.22455); (-4.30553); (-4.38652); (-4.4675); (-4.54849);
   (-4.62948)];
  [(-2.25017); (-2.20931); (-2.16842); (-2.12751); (-2.08658); (-2.04562); (-2.00463); (-1.96361);
   (-1.92257); (-1.88149); (-1.84038); (-1.79924); (-1.75808); (-1.71688); (-1.67565); (-1.63439); (-1.5931);
   (-1.55179); (-1.51045); (-1.46909); (-1.42771); (-1.38632); (-1.34492); (-1.30352); (-1.26213);
   (-1.22076); (-1.17941); (-1.1381); (-1.09684); (-1.05566); (-1.01457); (-0.973597); (-0.932761);
   (-0.89209); (-0.851617); (-0.811373); (-0.771395); (-0.73172); (-0.692389); (-0.653445); (-0.614929);
   (-0.576888); (-0.539364); (-0.502402); (-0.466046); (-0.430336); (-0.395312); (-0.36101); (-0.327463);
   (-0.294701); (-0.26275); (-0.231629); (-0.201355); (-0.171942); (-0.143395); (-0.11572); (-0.0889144);
   (-0.0629752); (-0.0378946); (-0.0136623); 0.0097346; 0.0323109; 0.0540828; 0.0750677; 0.0952837; 0.114749;
   0.133482; 0.151499; 0.168819; 0.185458; 0.201429; 0.216749; 0.231429; 0.245482; 0.258919; 0.271749;
   0.283982; 0.295626; 0.306691; 0.317185; 0.327116; 0.336493; 0.345326; 0.353625; 0.361401; 0.368667;
   0.375435; 0.381721; 0.387539; 0.392906; 0.39784; 0.402359; 0.406482; 0.410227; 0.413614; 0.416662;
   0.419391; 0.421819; 0.423964; 0.425842; 0.427468; 0.428857; 0.430021; 0.430971; 0.431715; 0.432259;
   0.432607; 0.43276; 0.432717; 0.432472; 0.432017; 0.43134; 0.430424; 0.429249; 0.427789; 0.426012;
   0.423881; 0.421349; 0.418366; 0.414869; 0.410787; 0.40604; 0.400533; 0.39416; 0.386802; 0.378324;
   0.368574; 0.357384; 0.344571; 0.329933; 0.313254; 0.294301; 0.272834; 0.248602; 0.221356; 0.190852;
   0.156864; 0.119193; 0.0776807; 0.0322265; (-0.0172051); (-0.0705651); (-0.127719); (-0.188441);
   (-0.252431); (-0.31932); (-0.38871); (-0.460201); (-0.533426); (-0.608081); (-0.683936); (-0.760834);
   (-0.838642); (-0.917247); (-0.996525); (-1.07636); (-1.15666); (-1.2373); (-1.31825); (-1.39946);
   (-1.48083); (-1.56239); (-1.64402); (-1.72577); (-1.80752); (-1.8894); (-1.97119); (-2.05627); (-2.13717);
   (-2.21808); (-2.29899); (-2.37991); (-2.46084); (-2.54177); (-2.6227); (-2.70364); (-2.78459); (-2.86554);
   (-2.94649); (-3.02745); (-3.1084); (-3.18937); (-3.27033); (-3.3513); (-3.43227); (-3.51324); (-3.59421);
   (-3.67518); (-3.75616); (-3.83714); (-3.91812); (-3.9991); (-4.08008); (-4.16106); (-4.24205); (-4.32303);
   (-4.40402); (-4.485); (-4.56599); (-4.64698)];
  [(-2.27896); (-2.23808); (-2.19718); (-2.15625); (-2.11529); (-2.0743); (-2.03328); (-1.99223); (-1.95115);
   (-1.91004); (-1.86889); (-1.8277); (-1.78648); (-1.74523); (-1.70394); (-1.66261); (-1.62125); (-1.57986);
   (-1.53843); (-1.49698); (-1.45549); (-1.41399); (-1.37246); (-1.33092); (-1.28937); (-1.24783); (-1.2063);
   (-1.16478); (-1.12331); (-1.08188); (-1.04053); (-0.999261); (-0.958106); (-0.917087); (-0.876235);
   (-0.835578); (-0.795152); (-0.754993); (-0.715139); (-0.675633); (-0.636515); (-0.597831); (-0.559625);
   (-0.521941); (-0.484824); (-0.448317); (-0.412462); (-0.377297); (-0.342858); (-0.309179); (-0.276287);
   (-0.244208); (-0.212963); (-0.182568); (-0.153033); (-0.124368); (-0.0965738); (-0.0696513); (-0.043596);
   (-0.0184006); 0.00594471; 0.0294523; 0.0521362; 0.0740117; 0.0950952; 0.115403; 0.134954; 0.153762;
   0.171846; 0.18922; 0.205899; 0.221898; 0.237228; 0.251903; 0.265933; 0.279328; 0.292099; 0.304253; 0.3158;
   0.326749; 0.33711; 0.34689; 0.356102; 0.364755; 0.372861; 0.380434; 0.387488; 0.394037; 0.400098;
   0.405689; 0.410828; 0.415534; 0.419826; 0.423725; 0.427251; 0.430424; 0.433264; 0.43579; 0.438021;
   0.439975; 0.441666; 0.443111; 0.444321; 0.445308; 0.446081; 0.446646; 0.447007; 0.447166; 0.44712;
   0.446864; 0.44639; 0.445686; 0.444734; 0.443513; 0.441996; 0.440151; 0.437938; 0.435313; 0.432219;
   0.428595; 0.424367; 0.419453; 0.413756; 0.407167; 0.399565; 0.390811; 0.380752; 0.369217; 0.35602;
   0.340957; 0.323808; 0.304342; 0.282316; 0.257482; 0.22959; 0.198401; 0.163695; 0.12528; 0.0830057;
   0.0367848; (-0.0134061); (-0.0675033); (-0.12536); (-0.186737); (-0.251324); (-0.318745); (-0.388603);
   (-0.4605); (-0.534077); (-0.609041); (-0.685171); (-0.762318); (-0.840353); (-0.919165); (-0.998627);
   (-1.07863); (-1.15907); (-1.23985); (-1.32093); (-1.40225); (-1.48372); (-1.56536); (-1.64707); (-1.7289);
   (-1.81072); (-1.89264); (-1.97452); (-2.06023); (-2.14113); (-2.22204); (-2.30295); (-2.38387); (-2.4648);
   (-2.54573); (-2.62666); (-2.70761); (-2.78855); (-2.8695); (-2.95045); (-3.03141); (-3.11237); (-3.19333);
   (-3.27429); (-3.35526); (-3.43623); (-3.5172); (-3.59817); (-3.67915); (-3.76012); (-3.8411); (-3.92208);
   (-4.00306); (-4.08404); (-4.16502); (-4.24601); (-4.32699); (-4.40798); (-4.48896); (-4.56995); (-4.65094)];
  [(-2.30695); (-2.26606); (-2.22513); (-2.18418); (-2.1432); (-2.10219); (-2.06114); (-2.02007); (-1.97895);
   (-1.9378); (-1.89661); (-1.85539); (-1.81412); (-1.77282); (-1.73147); (-1.69008); (-1.64865); (-1.60718);
   (-1.56567); (-1.52413); (-1.48255); (-1.44093); (-1.39929); (-1.35762); (-1.31593); (-1.27423);
   (-1.23252); (-1.19082); (-1.14914); (-1.10749); (-1.06589); (-1.02435); (-0.982897); (-0.941555);
   (-0.900348); (-0.859307); (-0.818463); (-0.77785); (-0.737506); (-0.697471); (-0.657786); (-0.618495);
   (-0.579643); (-0.541273); (-0.503432); (-0.466163); (-0.42951); (-0.393515); (-0.358215); (-0.323646);
   (-0.289842); (-0.25683); (-0.224635); (-0.193276); (-0.16277); (-0.133127); (-0.104356); (-0.0764578);
   (-0.0494333); (-0.0232783); 0.00201436; 0.0264541; 0.0500524; 0.0728226; 0.0947791; 0.115937; 0.136312;
   0.15592; 0.174776; 0.192895; 0.210291; 0.226979; 0.24297; 0.258276; 0.272909; 0.286879; 0.300196;
   0.312868; 0.324906; 0.336319; 0.347116; 0.357308; 0.366904; 0.375917; 0.38436; 0.392245; 0.399588;
   0.406405; 0.412713; 0.41853; 0.423875; 0.428769; 0.433232; 0.437286; 0.44095; 0.444247; 0.447196;
   0.449819; 0.452134; 0.454159; 0.45591; 0.457404; 0.458654; 0.459669; 0.460461; 0.461035; 0.461394;
   0.461542; 0.461474; 0.461185; 0.460667; 0.459906; 0.458883; 0.457577; 0.455958; 0.453993; 0.45164;
   0.448851; 0.445569; 0.441727; 0.43725; 0.432051; 0.426029; 0.419072; 0.411052; 0.401827; 0.391237;
   0.379107; 0.365247; 0.349446; 0.331484; 0.311124; 0.288122; 0.262232; 0.233207; 0.200815; 0.164843;
   0.125115; 0.081498; 0.0339257; (-0.0176008); (-0.0729907); (-0.132071); (-0.194578); (-0.260182);
   (-0.328499); (-0.399126); (-0.471676); (-0.54581); (-0.621252); (-0.697804); (-0.775326); (-0.853702);
   (-0.93281); (-1.01254); (-1.09277); (-1.17341); (-1.25436); (-1.3356); (-1.41704); (-1.49864); (-1.58038);
   (-1.66218); (-1.7441); (-1.826); (-1.90797); (-1.98996); (-2.0761); (-2.15699); (-2.2379); (-2.31881);
   (-2.39973); (-2.48066); (-2.56159); (-2.64253); (-2.72347); (-2.80441); (-2.88536); (-2.96631);
   (-3.04727); (-3.12823); (-3.20919); (-3.29015); (-3.37112); (-3.45209); (-3.53306); (-3.61403);
   (-3.69501); (-3.77598); (-3.85696); (-3.93794); (-4.01892); (-4.0999); (-4.18089); (-4.26187); (-4.34285);
   (-4.42384); (-4.50483); (-4.58581); (-4.6668)];
  [(-2.33419); (-2.29328); (-2.25234); (-2.21137); (-2.17036); (-2.12933); (-2.08826); (-2.04715);
   (-2.00601); (-1.96483); (-1.9236); (-1.88234); (-1.84103); (-1.79967); (-1.75827); (-1.71683); (-1.67534);
   (-1.6338); (-1.59221); (-1.55058); (-1.50891); (-1.46719); (-1.42544); (-1.38365); (-1.34183); (-1.29998);
   (-1.25811); (-1.21624); (-1.17437); (-1.1325); (-1.09067); (-1.04888); (-1.00715); (-0.965507);
   (-0.923971); (-0.88257); (-0.841334); (-0.800296); (-0.759492); (-0.71896); (-0.67874); (-0.638876);
   (-0.59941); (-0.560389); (-0.521857); (-0.48386); (-0.446443); (-0.409648); (-0.373517); (-0.338089);
   (-0.303398); (-0.269477); (-0.236353); (-0.20405); (-0.172589); (-0.141984); (-0.112245); (-0.0833813);
   (-0.0553941); (-0.0282834); (-0.00204542); 0.0233265; 0.0478412; 0.0715096; 0.094344; 0.116358; 0.137565;
   0.15798; 0.177617; 0.19649; 0.214614; 0.232; 0.248661; 0.264609; 0.279855; 0.29441; 0.308282; 0.321483;
   0.334021; 0.345906; 0.357148; 0.367758; 0.377748; 0.387128; 0.395913; 0.404117; 0.411756; 0.418847;
   0.425407; 0.431455; 0.437013; 0.4421; 0.446739; 0.450951; 0.454759; 0.458184; 0.461247; 0.46397; 0.466373;
   0.468475; 0.470292; 0.471841; 0.473135; 0.474187; 0.475005; 0.475596; 0.475964; 0.476111; 0.476033;
   0.475726; 0.47518; 0.47438; 0.473309; 0.471942; 0.47025; 0.468197; 0.465741; 0.462833; 0.459412; 0.455412;
   0.450753; 0.445345; 0.439087; 0.431862; 0.42354; 0.413974; 0.403004; 0.390449; 0.376117; 0.359796;
   0.34126; 0.320275; 0.296596; 0.269977; 0.240174; 0.206961; 0.170133; 0.129522; 0.085008; 0.0365392;
   (-0.0158678); (-0.0721052); (-0.131984); (-0.195226); (-0.261492); (-0.330393); (-0.401527); (-0.474514);
   (-0.549023); (-0.624795); (-0.701644); (-0.779434); (-0.858053); (-0.937379); (-1.0173); (-1.09771);
   (-1.17849); (-1.25959); (-1.34095); (-1.42251); (-1.5042); (-1.58604); (-1.66793); (-1.74991); (-1.83188);
   (-1.91388); (-1.99597); (-2.08267); (-2.16357); (-2.24448); (-2.32539); (-2.40631); (-2.48724);
   (-2.56817); (-2.6491); (-2.73004); (-2.81099); (-2.89194); (-2.97289); (-3.05384); (-3.1348); (-3.21577);
   (-3.29673); (-3.3777); (-3.45867); (-3.53964); (-3.62061); (-3.70158); (-3.78256); (-3.86354); (-3.94452);
   (-4.0255); (-4.10648); (-4.18746); (-4.26845); (-4.34943); (-4.43042); (-4.5114); (-4.59239); (-4.67338)];
  [(-2.36071); (-2.31978); (-2.27882); (-2.23783); (-2.19681); (-2.15576); (-2.11467); (-2.07353);
   (-2.03236); (-1.99115); (-1.94989); (-1.90859); (-1.86724); (-1.82584); (-1.78439); (-1.74289);
   (-1.70134); (-1.65974); (-1.61808); (-1.57637); (-1.53462); (-1.49281); (-1.45095); (-1.40904); (-1.3671);
   (-1.32511); (-1.2831); (-1.24106); (-1.19901); (-1.15695); (-1.1149); (-1.07287); (-1.03089); (-0.988961);
   (-0.947116); (-0.905378); (-0.863774); (-0.822337); (-0.7811); (-0.7401); (-0.699376); (-0.658969);
   (-0.618922); (-0.579281); (-0.540092); (-0.501399); (-0.463249); (-0.425686); (-0.388754); (-0.352493);
   (-0.316942); (-0.282136); (-0.248106); (-0.214879); (-0.18248); (-0.150926); (-0.120234); (-0.0904132);
   (-0.0614708); (-0.0334095); (-0.00622903); 0.0200742; 0.0455062; 0.0700754; 0.0937918; 0.116667; 0.138712;
   0.159942; 0.180368; 0.200005; 0.218864; 0.236958; 0.254299; 0.270899; 0.286767; 0.301916; 0.316354;
   0.330091; 0.343137; 0.355503; 0.367199; 0.378235; 0.388624; 0.398379; 0.407513; 0.416042; 0.423982;
   0.431351; 0.438167; 0.444452; 0.450225; 0.455509; 0.460327; 0.4647; 0.468653; 0.472207; 0.475386;
   0.478211; 0.480703; 0.482881; 0.484764; 0.486367; 0.487706; 0.488791; 0.489633; 0.490239; 0.490613;
   0.490755; 0.490665; 0.490334; 0.489754; 0.488909; 0.487781; 0.486344; 0.484568; 0.482416; 0.479845;
   0.476801; 0.473224; 0.469045; 0.464181; 0.45854; 0.452016; 0.444491; 0.435831; 0.425885; 0.414489;
   0.401461; 0.386602; 0.3697; 0.350527; 0.328847; 0.304415; 0.276988; 0.246325; 0.212206; 0.174433;
   0.132851; 0.0873541; 0.0379043; (-0.01546); (-0.0726163); (-0.133357); (-0.197388); (-0.264361);
   (-0.333882); (-0.405551); (-0.478995); (-0.5539); (-0.63002); (-0.70718); (-0.785251); (-0.864124);
   (-0.943677); (-1.0238); (-1.10438); (-1.18533); (-1.26657); (-1.34805); (-1.42972); (-1.51153);
   (-1.59345); (-1.67542); (-1.75747); (-1.83951); (-1.92157); (-2.01007); (-2.09096); (-2.17186);
   (-2.25277); (-2.33368); (-2.4146); (-2.49553); (-2.57646); (-2.65739); (-2.73833); (-2.81928); (-2.90023);
   (-2.98118); (-3.06213); (-3.14309); (-3.22406); (-3.30502); (-3.38599); (-3.46696); (-3.54793); (-3.6289);
   (-3.70987); (-3.79085); (-3.87183); (-3.95281); (-4.03379); (-4.11477); (-4.19575); (-4.27674);
   (-4.35772); (-4.43871); (-4.51969); (-4.60068); (-4.68167)];
  [(-2.38654); (-2.3456); (-2.30463); (-2.26363); (-2.22259); (-2.18151); (-2.1404); (-2.09924); (-2.05805);
   (-2.0168); (-1.97552); (-1.93418); (-1.89279); (-1.85135); (-1.80986); (-1.76831); (-1.7267); (-1.68504);
   (-1.64332); (-1.60154); (-1.5597); (-1.5178); (-1.47584); (-1.43383); (-1.39177); (-1.34966); (-1.30751);
   (-1.26532); (-1.22309); (-1.18085); (-1.1386); (-1.09635); (-1.05412); (-1.01193); (-0.969797);
   (-0.927742); (-0.885794); (-0.843982); (-0.802337); (-0.760895); (-0.719694); (-0.678773); (-0.638176);
   (-0.597946); (-0.558129); (-0.518771); (-0.479918); (-0.441617); (-0.403912); (-0.366846); (-0.330461);
   (-0.294794); (-0.25988); (-0.225749); (-0.19243); (-0.159944); (-0.12831); (-0.0975432); (-0.0676535);
   (-0.0386476); (-0.0105283); 0.0167045; 0.0430541; 0.0685259; 0.0931277; 0.116868; 0.139759; 0.16181;
   0.183033; 0.203441; 0.223044; 0.241856; 0.259886; 0.277147; 0.293648; 0.309399; 0.324412; 0.338695;
   0.352259; 0.365114; 0.377271; 0.388742; 0.399538; 0.409674; 0.419164; 0.428024; 0.436271; 0.443924;
   0.451002; 0.457527; 0.463521; 0.469006; 0.474005; 0.478544; 0.482645; 0.486332; 0.48963; 0.492559;
   0.495143; 0.497401; 0.499351; 0.501012; 0.502397; 0.503519; 0.504389; 0.505013; 0.505396; 0.505538;
   0.505438; 0.505089; 0.50448; 0.503597; 0.502419; 0.50092; 0.499071; 0.496831; 0.494156; 0.490993;
   0.487278; 0.482939; 0.477893; 0.472045; 0.465287; 0.457498; 0.44854; 0.438261; 0.426492; 0.413051;
   0.397735; 0.380331; 0.360609; 0.338332; 0.313256; 0.28514; 0.253748; 0.218863; 0.180297; 0.137903;
   0.0915886; 0.0413272; (-0.0128278); (-0.0707388); (-0.132185); (-0.196862); (-0.264412); (-0.334441);
   (-0.406551); (-0.480377); (-0.555614); (-0.632028); (-0.709453); (-0.787765); (-0.866859); (-0.946609);
   (-1.02691); (-1.10765); (-1.18874); (-1.2701); (-1.35171); (-1.43348); (-1.51539); (-1.59739); (-1.67944);
   (-1.76157); (-1.84369); (-1.92577); (-2.01493); (-2.09582); (-2.17672); (-2.25762); (-2.33854);
   (-2.41946); (-2.50038); (-2.58131); (-2.66225); (-2.74319); (-2.82413); (-2.90508); (-2.98604);
   (-3.06699); (-3.14795); (-3.22891); (-3.30988); (-3.39084); (-3.47181); (-3.55278); (-3.63376);
   (-3.71473); (-3.79571); (-3.87668); (-3.95766); (-4.03864); (-4.11963); (-4.20061); (-4.28159);
   (-4.36258); (-4.44356); (-4.52455); (-4.60554); (-4.68652)];
  [(-2.41173); (-2.37078); (-2.32979); (-2.28877); (-2.24772); (-2.20663); (-2.16549); (-2.12432);
   (-2.08309); (-2.04183); (-2.00051); (-1.95914); (-1.91772); (-1.87624); (-1.8347); (-1.79311); (-1.75145);
   (-1.70973); (-1.66794); (-1.62609); (-1.58418); (-1.5422); (-1.50015); (-1.45805); (-1.41587); (-1.37364);
   (-1.33136); (-1.28902); (-1.24664); (-1.20423); (-1.16179); (-1.11933); (-1.07688); (-1.03444);
   (-0.992029); (-0.949676); (-0.907404); (-0.865238); (-0.823209); (-0.78135); (-0.739697); (-0.69829);
   (-0.657169); (-0.616379); (-0.575963); (-0.535969); (-0.496443); (-0.457432); (-0.418982); (-0.381139);
   (-0.343945); (-0.307442); (-0.271665); (-0.236651); (-0.202429); (-0.169026); (-0.136465); (-0.104763);
   (-0.0739352); (-0.0439912); (-0.0149377); 0.0132222; 0.0404886; 0.0668642; 0.0923539; 0.116965; 0.140705;
   0.163583; 0.18561; 0.206797; 0.227154; 0.246691; 0.26542; 0.28335; 0.300493; 0.316857; 0.332453; 0.347291;
   0.361381; 0.374733; 0.38736; 0.399272; 0.410483; 0.421006; 0.430858; 0.440055; 0.448614; 0.456556; 0.4639;
   0.47067; 0.476887; 0.482576; 0.48776; 0.492466; 0.496717; 0.500539; 0.503955; 0.506989; 0.509664;
   0.512001; 0.514018; 0.515733; 0.517163; 0.518318; 0.519211; 0.519849; 0.520234; 0.52037; 0.520253;
   0.519875; 0.519227; 0.518292; 0.51705; 0.515474; 0.513531; 0.511181; 0.508378; 0.505066; 0.501179;
   0.496644; 0.491375; 0.485272; 0.478226; 0.470111; 0.460786; 0.450097; 0.437871; 0.423921; 0.408043;
   0.390019; 0.369621; 0.346609; 0.320741; 0.291778; 0.259489; 0.223663; 0.184124; 0.140735; 0.0934189;
   0.0421669; (-0.0129498); (-0.0717749); (-0.134069); (-0.19952); (-0.267756); (-0.338382); (-0.411006);
   (-0.485273); (-0.560891); (-0.637642); (-0.715369); (-0.793957); (-0.873295); (-0.953269); (-1.03376);
   (-1.11468); (-1.19592); (-1.27742); (-1.35915); (-1.44102); (-1.52303); (-1.60512); (-1.68726);
   (-1.76943); (-1.85164); (-1.93378); (-2.02351); (-2.1044); (-2.1853); (-2.2662); (-2.34712); (-2.42804);
   (-2.50896); (-2.58989); (-2.67083); (-2.75177); (-2.83271); (-2.91366); (-2.99462); (-3.07557);
   (-3.15653); (-3.23749); (-3.31846); (-3.39942); (-3.48039); (-3.56136); (-3.64234); (-3.72331);
   (-3.80429); (-3.88526); (-3.96624); (-4.04722); (-4.12821); (-4.20919); (-4.29017); (-4.37116);
   (-4.45214); (-4.53313); (-4.61412); (-4.6951)];
  [(-2.4363); (-2.39534); (-2.35434); (-2.31331); (-2.27224); (-2.23113); (-2.18998); (-2.14878); (-2.10754);
   (-2.06624); (-2.0249); (-1.9835); (-1.94204); (-1.90053); (-1.85895); (-1.81731); (-1.77561); (-1.73384);
   (-1.69199); (-1.65008); (-1.60809); (-1.56604); (-1.52391); (-1.4817); (-1.43943); (-1.39709); (-1.35468);
   (-1.31221); (-1.26968); (-1.2271); (-1.18449); (-1.14183); (-1.09916); (-1.05649); (-1.01382);
   (-0.971192); (-0.928613); (-0.886113); (-0.843721); (-0.801468); (-0.759388); (-0.717519); (-0.675901);
   (-0.634577); (-0.59359); (-0.552988); (-0.512816); (-0.473123); (-0.433956); (-0.395361); (-0.357384);
   (-0.320067); (-0.283451); (-0.247573); (-0.212467); (-0.178163); (-0.144688); (-0.112063); (-0.0803064);
   (-0.0494317); (-0.0194492); 0.00963462; 0.0378166; 0.0650963; 0.0914761; 0.11696; 0.141554; 0.165267;
   0.188105; 0.210078; 0.231195; 0.251467; 0.270903; 0.289513; 0.307305; 0.324291; 0.34048; 0.355882;
   0.370506; 0.384365; 0.397469; 0.40983; 0.421463; 0.432382; 0.442602; 0.452142; 0.46102; 0.469256;
   0.476871; 0.48389; 0.490335; 0.496232; 0.501605; 0.506481; 0.510886; 0.514844; 0.518382; 0.521524;
   0.524293; 0.52671; 0.528796; 0.530569; 0.532045; 0.533236; 0.534155; 0.534807; 0.535199; 0.53533;
   0.535198; 0.534796; 0.534112; 0.53313; 0.531828; 0.530179; 0.528149; 0.525696; 0.522773; 0.519322;
   0.515276; 0.510557; 0.505079; 0.49874; 0.491426; 0.483009; 0.473346; 0.462278; 0.449631; 0.435215;
   0.418822; 0.400235; 0.379222; 0.355545; 0.328963; 0.299239; 0.266146; 0.229483; 0.189079; 0.144811;
   0.0966143; 0.0444947; (-0.0114607); (-0.07108); (-0.13411); (-0.200228); (-0.269056); (-0.340199);
   (-0.413269); (-0.487921); (-0.563875); (-0.640924); (-0.718921); (-0.797756); (-0.877316); (-0.957488);
   (-1.03816); (-1.11923); (-1.20061); (-1.28224); (-1.36409); (-1.44607); (-1.52817); (-1.61034);
   (-1.69256); (-1.7748); (-1.85707); (-1.93926); (-2.0296); (-2.11049); (-2.19139); (-2.27229); (-2.35321);
   (-2.43413); (-2.51505); (-2.59598); (-2.67692); (-2.75786); (-2.83881); (-2.91975); (-3.00071);
   (-3.08166); (-3.16262); (-3.24358); (-3.32455); (-3.40551); (-3.48648); (-3.56745); (-3.64843); (-3.7294);
   (-3.81038); (-3.89136); (-3.97234); (-4.05332); (-4.1343); (-4.21528); (-4.29626); (-4.37725); (-4.45823);
   (-4.53922); (-4.62021); (-4.70119)];
  [(-2.46029); (-2.41931); (-2.37831); (-2.33726); (-2.29618); (-2.25505); (-2.21388); (-2.17267); (-2.1314);
   (-2.09008); (-2.04871); (-2.00729); (-1.9658); (-1.92425); (-1.88264); (-1.84096); (-1.79921); (-1.75739);
   (-1.71549); (-1.67352); (-1.63146); (-1.58933); (-1.54712); (-1.50483); (-1.46247); (-1.42002);
   (-1.37749); (-1.33489); (-1.29223); (-1.2495); (-1.20671); (-1.16387); (-1.121); (-1.0781); (-1.0352);
   (-0.992301); (-0.949433); (-0.906618); (-0.863882); (-0.821256); (-0.778771); (-0.736464); (-0.694373);
   (-0.65254); (-0.611008); (-0.569823); (-0.529033); (-0.488684); (-0.448825); (-0.409504); (-0.370768);
   (-0.332661); (-0.295227); (-0.258506); (-0.222535); (-0.187347); (-0.152972); (-0.119436); (-0.0867609);
   (-0.0549635); (-0.024058); 0.00594585; 0.0350413; 0.0632249; 0.090496; 0.116856; 0.142309; 0.166859;
   0.190514; 0.213281; 0.235167; 0.256182; 0.276333; 0.29563; 0.314082; 0.331699; 0.348489; 0.364463;
   0.379631; 0.394003; 0.407592; 0.420411; 0.432472; 0.443792; 0.454388; 0.464276; 0.473477; 0.482012;
   0.489903; 0.497175; 0.503851; 0.509958; 0.515522; 0.520571; 0.52513; 0.529226; 0.532886; 0.536135;
   0.538996; 0.541493; 0.543645; 0.545473; 0.54699; 0.548213; 0.549151; 0.549812; 0.550201; 0.550319;
   0.550161; 0.549721; 0.548987; 0.547941; 0.54656; 0.544816; 0.542674; 0.540089; 0.537013; 0.533385;
   0.529136; 0.524185; 0.518443; 0.511804; 0.504151; 0.495353; 0.485263; 0.473717; 0.460538; 0.445532;
   0.428489; 0.409189; 0.387399; 0.362881; 0.335395; 0.304709; 0.270603; 0.232882; 0.19139; 0.146015;
   0.0967138; 0.0435094; (-0.0134904); (-0.0740935); (-0.138029); (-0.204961); (-0.274506); (-0.346267);
   (-0.419865); (-0.49497); (-0.571316); (-0.648713); (-0.727023); (-0.806142); (-0.885956); (-0.966351);
   (-1.04722); (-1.12847); (-1.21); (-1.29177); (-1.37373); (-1.45582); (-1.53803); (-1.62027); (-1.70258);
   (-1.78487); (-1.86721); (-1.94944); (-2.04031); (-2.1212); (-2.2021); (-2.283); (-2.36392); (-2.44484);
   (-2.52576); (-2.60669); (-2.68763); (-2.76857); (-2.84952); (-2.93046); (-3.01142); (-3.09237);
   (-3.17333); (-3.25429); (-3.33526); (-3.41622); (-3.49719); (-3.57816); (-3.65914); (-3.74011);
   (-3.82109); (-3.90207); (-3.98305); (-4.06403); (-4.14501); (-4.22599); (-4.30697); (-4.38796);
   (-4.46894); (-4.54993); (-4.63092); (-4.7119)];
  [(-2.48372); (-2.44273); (-2.40171); (-2.36066); (-2.31956); (-2.27842); (-2.23723); (-2.196); (-2.15471);
   (-2.11338); (-2.07198); (-2.03053); (-1.98902); (-1.94744); (-1.90579); (-1.86407); (-1.82228);
   (-1.78041); (-1.73846); (-1.69643); (-1.65432); (-1.61212); (-1.56983); (-1.52746); (-1.485); (-1.44245);
   (-1.39982); (-1.3571); (-1.3143); (-1.27142); (-1.22848); (-1.18547); (-1.1424); (-1.0993); (-1.05616);
   (-1.01302); (-0.969874); (-0.926761); (-0.8837); (-0.840719); (-0.797849); (-0.755126); (-0.712585);
   (-0.670267); (-0.628214); (-0.586472); (-0.545088); (-0.504109); (-0.463583); (-0.423561); (-0.384089);
   (-0.345215); (-0.306985); (-0.26944); (-0.232622); (-0.196567); (-0.161307); (-0.126873); (-0.0932895);
   (-0.060578); (-0.0287558); 0.00216354; 0.0321699; 0.0612566; 0.0894198; 0.116658; 0.142973; 0.168367;
   0.192845; 0.216412; 0.239074; 0.260839; 0.281714; 0.301708; 0.320828; 0.339084; 0.356485; 0.373039;
   0.388759; 0.403654; 0.417737; 0.43102; 0.443518; 0.455247; 0.466224; 0.476467; 0.485998; 0.494838;
   0.50301; 0.510539; 0.517452; 0.523774; 0.529534; 0.534758; 0.539476; 0.543713; 0.547499; 0.550858;
   0.553815; 0.556394; 0.558616; 0.560501; 0.562064; 0.563322; 0.564283; 0.564957; 0.565348; 0.565457;
   0.56528; 0.564809; 0.564031; 0.56293; 0.56148; 0.559652; 0.55741; 0.554709; 0.551497; 0.547711; 0.543282;
   0.538126; 0.53215; 0.525247; 0.517296; 0.508163; 0.497698; 0.485735; 0.472093; 0.456575; 0.438971;
   0.419057; 0.396601; 0.371365; 0.343112; 0.311611; 0.276651; 0.238044; 0.195643; 0.149351; 0.0991372;
   0.045041; (-0.012813); (-0.0742178); (-0.138889); (-0.206482); (-0.276608); (-0.348873); (-0.422906);
   (-0.498385); (-0.575061); (-0.652751); (-0.731329); (-0.810691); (-0.890725); (-0.971316); (-1.05236);
   (-1.13376); (-1.21542); (-1.29732); (-1.3794); (-1.46158); (-1.54388); (-1.6262); (-1.7086); (-1.79094);
   (-1.87336); (-1.95569); (-2.04707); (-2.12797); (-2.20886); (-2.28977); (-2.37068); (-2.4516); (-2.53253);
   (-2.61346); (-2.6944); (-2.77534); (-2.85628); (-2.93723); (-3.01818); (-3.09914); (-3.1801); (-3.26106);
   (-3.34202); (-3.42299); (-3.50396); (-3.58493); (-3.6659); (-3.74688); (-3.82785); (-3.90883); (-3.98981);
   (-4.07079); (-4.15177); (-4.23276); (-4.31374); (-4.39472); (-4.47571); (-4.5567); (-4.63768); (-4.71867)];
  [(-2.50661); (-2.46562); (-2.42459); (-2.38352); (-2.34241); (-2.30126); (-2.26005); (-2.2188); (-2.1775);
   (-2.13615); (-2.09473); (-2.05325); (-2.01171); (-1.9701); (-1.92842); (-1.88667); (-1.84483); (-1.80292);
   (-1.76092); (-1.71884); (-1.67667); (-1.63441); (-1.59205); (-1.5496); (-1.50705); (-1.46441); (-1.42167);
   (-1.37884); (-1.33592); (-1.2929); (-1.24981); (-1.20663); (-1.16339); (-1.12008); (-1.07673); (-1.03335);
   (-0.989948); (-0.946551); (-0.903181); (-0.859864); (-0.816629); (-0.773509); (-0.730539); (-0.687758);
   (-0.645208); (-0.602933); (-0.560978); (-0.519393); (-0.478225); (-0.437525); (-0.397341); (-0.357723);
   (-0.318717); (-0.280369); (-0.242722); (-0.205816); (-0.169687); (-0.134367); (-0.0998869); (-0.0662702);
   (-0.0335385); (-0.00170886); 0.0292051; 0.0591933; 0.0882488; 0.116367; 0.143547; 0.169789; 0.195094;
   0.219467; 0.242912; 0.265435; 0.287042; 0.307741; 0.327538; 0.346442; 0.364461; 0.381606; 0.397885;
   0.413311; 0.427894; 0.44165; 0.454591; 0.466736; 0.4781; 0.488705; 0.498571; 0.50772; 0.516178; 0.523969;
   0.531121; 0.537661; 0.543618; 0.549021; 0.553898; 0.558278; 0.562189; 0.565657; 0.56871; 0.57137;
   0.573659; 0.575598; 0.577204; 0.578491; 0.579471; 0.580151; 0.580537; 0.580628; 0.58042; 0.579906;
   0.579072; 0.577898; 0.576361; 0.574429; 0.572063; 0.569217; 0.565838; 0.56186; 0.557211; 0.551804;
   0.545543; 0.538317; 0.530004; 0.520463; 0.509542; 0.497071; 0.482865; 0.466725; 0.448438; 0.427778;
   0.404512; 0.378403; 0.349218; 0.316731; 0.280736; 0.241058; 0.197561; 0.150165; 0.0988558; 0.0436936;
   (-0.0151764); (-0.0775307); (-0.143067); (-0.211431); (-0.282229); (-0.355072); (-0.429598); (-0.505502);
   (-0.582547); (-0.660568); (-0.739448); (-0.819079); (-0.899355); (-0.980157); (-1.06138); (-1.14295);
   (-1.22476); (-1.30679); (-1.38899); (-1.47128); (-1.55366); (-1.63606); (-1.71853); (-1.80094);
   (-1.88342); (-1.9658); (-2.05767); (-2.13856); (-2.21946); (-2.30037); (-2.38128); (-2.4622); (-2.54313);
   (-2.62406); (-2.70499); (-2.78593); (-2.86688); (-2.94783); (-3.02878); (-3.10974); (-3.19069);
   (-3.27166); (-3.35262); (-3.43359); (-3.51456); (-3.59553); (-3.6765); (-3.75748); (-3.83845); (-3.91943);
   (-4.00041); (-4.08139); (-4.16237); (-4.24335); (-4.32434); (-4.40532); (-4.48631); (-4.56729);
   (-4.64828); (-4.72927)];
  [(-2.529); (-2.48799); (-2.44695); (-2.40588); (-2.36475); (-2.32359); (-2.28237); (-2.24111); (-2.19979);
   (-2.15841); (-2.11698); (-2.07548); (-2.03391); (-1.99227); (-1.95056); (-1.90877); (-1.8669); (-1.82495);
   (-1.7829); (-1.74077); (-1.69854); (-1.65622); (-1.6138); (-1.57127); (-1.52865); (-1.48591); (-1.44308);
   (-1.40014); (-1.3571); (-1.31395); (-1.27072); (-1.22739); (-1.18397); (-1.14048); (-1.09692); (-1.05331);
   (-1.00966); (-0.965999); (-0.922336); (-0.878699); (-0.835116); (-0.791618); (-0.748238); (-0.705016);
   (-0.661989); (-0.619202); (-0.576701); (-0.534532); (-0.492745); (-0.45139); (-0.410516); (-0.370175);
   (-0.330415); (-0.291284); (-0.252827); (-0.215086); (-0.178102); (-0.141911); (-0.106545); (-0.0720322);
   (-0.0383984); (-0.00566395); 0.0261539; 0.0570417; 0.0869892; 0.115989; 0.144037; 0.17113; 0.197268;
   0.222453; 0.246688; 0.269976; 0.292323; 0.313734; 0.334217; 0.353777; 0.372424; 0.390167; 0.407015;
   0.42298; 0.438073; 0.452309; 0.465702; 0.478269; 0.490028; 0.501001; 0.511208; 0.520673; 0.529421;
   0.53748; 0.544876; 0.55164; 0.557799; 0.563384; 0.568424; 0.572951; 0.576991; 0.580574; 0.583725; 0.58647;
   0.588831; 0.590828; 0.592481; 0.593802; 0.594805; 0.595497; 0.595883; 0.595964; 0.595734; 0.595185;
   0.594304; 0.593071; 0.591459; 0.589437; 0.586965; 0.583996; 0.580472; 0.576329; 0.57149; 0.565868;
   0.559362; 0.551861; 0.543237; 0.53335; 0.522042; 0.509142; 0.494462; 0.4778; 0.458942; 0.437661; 0.413725;
   0.386898; 0.356949; 0.323656; 0.286821; 0.246277; 0.2019; 0.153621; 0.101441; 0.0454345; (-0.0142372);
   (-0.0773374); (-0.143553); (-0.212522); (-0.283849); (-0.357151); (-0.432073); (-0.50832); (-0.58567);
   (-0.663966); (-0.743096); (-0.822954); (-0.903435); (-0.984419); (-1.06581); (-1.14752); (-1.22946);
   (-1.31161); (-1.39391); (-1.4763); (-1.55877); (-1.64125); (-1.72379); (-1.80626); (-1.88877); (-1.97126);
   (-2.06367); (-2.14456); (-2.22546); (-2.30637); (-2.38728); (-2.4682); (-2.54913); (-2.63006); (-2.71099);
   (-2.79194); (-2.87288); (-2.95383); (-3.03478); (-3.11574); (-3.1967); (-3.27766); (-3.35862); (-3.43959);
   (-3.52056); (-3.60153); (-3.6825); (-3.76348); (-3.84445); (-3.92543); (-4.00641); (-4.08739); (-4.16837);
   (-4.24935); (-4.33034); (-4.41132); (-4.49231); (-4.57329); (-4.65428); (-4.73527)];
  [(-2.55089); (-2.50988); (-2.46883); (-2.42775); (-2.38661); (-2.34543); (-2.30421); (-2.26293);
   (-2.22159); (-2.1802); (-2.13874); (-2.09722); (-2.05563); (-2.01397); (-1.97223); (-1.93041); (-1.8885);
   (-1.84651); (-1.80442); (-1.76224); (-1.71996); (-1.67758); (-1.6351); (-1.5925); (-1.5498); (-1.50698);
   (-1.46405); (-1.42101); (-1.37786); (-1.33459); (-1.29122); (-1.24774); (-1.20416); (-1.16049);
   (-1.11674); (-1.07292); (-1.02904); (-0.985114); (-0.941171); (-0.897229); (-0.853315); (-0.809457);
   (-0.765687); (-0.722041); (-0.678559); (-0.635282); (-0.592255); (-0.549525); (-0.50714); (-0.465152);
   (-0.423611); (-0.382569); (-0.342075); (-0.302179); (-0.26293); (-0.224372); (-0.186549); (-0.149499);
   (-0.113259); (-0.0778604); (-0.0433325); (-0.0096995); 0.0230179; 0.0548026; 0.0856411; 0.115523; 0.14444;
   0.172388; 0.199363; 0.225366; 0.250396; 0.274457; 0.297551; 0.319682; 0.340858; 0.361083; 0.380366;
   0.398716; 0.41614; 0.432652; 0.448262; 0.462985; 0.476837; 0.489833; 0.501994; 0.513339; 0.523893;
   0.533678; 0.542722; 0.551051; 0.558695; 0.565684; 0.572047; 0.577815; 0.583021; 0.587693; 0.591863;
   0.595558; 0.598806; 0.601633; 0.604061; 0.606113; 0.607806; 0.609156; 0.610174; 0.610869; 0.611244;
   0.611301; 0.611034; 0.610435; 0.609487; 0.608171; 0.60646; 0.604319; 0.601708; 0.598577; 0.594866;
   0.590508; 0.585424; 0.579524; 0.572703; 0.564847; 0.555824; 0.54549; 0.533684; 0.52023; 0.504938;
   0.487604; 0.468009; 0.445927; 0.421125; 0.39337; 0.362434; 0.328103; 0.290185; 0.248526; 0.203016;
   0.153603; 0.100308; 0.0432262; (-0.0174622); (-0.081502); (-0.148566); (-0.218284); (-0.290261);
   (-0.364117); (-0.439511); (-0.516168); (-0.593878); (-0.672496); (-0.751918); (-0.832042); (-0.912753);
   (-0.993944); (-1.07552); (-1.15738); (-1.23946); (-1.32175); (-1.40415); (-1.48664); (-1.56919);
   (-1.65175); (-1.73437); (-1.81692); (-1.89946); (-1.982); (-2.07487); (-2.15576); (-2.23666); (-2.31756);
   (-2.39847); (-2.47939); (-2.56032); (-2.64125); (-2.72219); (-2.80313); (-2.88407); (-2.96502);
   (-3.04597); (-3.12693); (-3.20789); (-3.28885); (-3.36981); (-3.45078); (-3.53175); (-3.61272);
   (-3.69369); (-3.77467); (-3.85565); (-3.93662); (-4.0176); (-4.09858); (-4.17956); (-4.26055); (-4.34153);
   (-4.42252); (-4.5035); (-4.58449); (-4.66547); (-4.74646)];
  [(-2.57232); (-2.53131); (-2.49025); (-2.44915); (-2.40801); (-2.36682); (-2.32558); (-2.28429);
   (-2.24294); (-2.20153); (-2.16005); (-2.11851); (-2.0769); (-2.03521); (-1.99344); (-1.95159); (-1.90965);
   (-1.86762); (-1.8255); (-1.78327); (-1.74094); (-1.69851); (-1.65596); (-1.6133); (-1.57053); (-1.52763);
   (-1.48461); (-1.44148); (-1.39822); (-1.35483); (-1.31133); (-1.26771); (-1.22398); (-1.18014); (-1.1362);
   (-1.09217); (-1.04807); (-1.0039); (-0.959696); (-0.915464); (-0.871233); (-0.82703); (-0.782887);
   (-0.738837); (-0.694918); (-0.65117); (-0.607638); (-0.564367); (-0.521407); (-0.478807); (-0.436619);
   (-0.394896); (-0.353688); (-0.313047); (-0.273023); (-0.233665); (-0.195017); (-0.157122); (-0.12002);
   (-0.0837461); (-0.0483324); (-0.0138073); 0.019805; 0.0524838; 0.084212; 0.114976; 0.144764; 0.17357;
   0.201387; 0.228212; 0.254045; 0.278884; 0.302732; 0.325593; 0.34747; 0.368369; 0.388297; 0.407261;
   0.425271; 0.442338; 0.458474; 0.473693; 0.48801; 0.501444; 0.514013; 0.525739; 0.536646; 0.546758;
   0.556103; 0.56471; 0.572607; 0.579826; 0.586399; 0.592357; 0.597732; 0.602555; 0.606859; 0.610672;
   0.614022; 0.616937; 0.619439; 0.621552; 0.623292; 0.624678; 0.625719; 0.626426; 0.626802; 0.626847;
   0.626557; 0.625922; 0.624926; 0.623548; 0.621761; 0.619528; 0.616808; 0.61355; 0.609693; 0.605167;
   0.599891; 0.593773; 0.586706; 0.578574; 0.569241; 0.558562; 0.546372; 0.532495; 0.516737; 0.498892;
   0.478741; 0.456059; 0.430612; 0.402169; 0.370506; 0.335413; 0.296707; 0.254241; 0.207917; 0.157694;
   0.103607; 0.0457627; (-0.0156435); (-0.080346); (-0.148009); (-0.218258); (-0.2907); (-0.364959);
   (-0.440703); (-0.517664); (-0.595648); (-0.674518); (-0.754169); (-0.8345); (-0.915398); (-0.996757);
   (-1.07848); (-1.16048); (-1.24269); (-1.32508); (-1.40758); (-1.49016); (-1.5728); (-1.65545); (-1.73811);
   (-1.82073); (-1.90333); (-1.98594); (-2.07937); (-2.16026); (-2.24116); (-2.32207); (-2.40298); (-2.4839);
   (-2.56483); (-2.64576); (-2.72669); (-2.80763); (-2.88858); (-2.96953); (-3.05048); (-3.13143);
   (-3.21239); (-3.29335); (-3.37432); (-3.45529); (-3.53625); (-3.61723); (-3.6982); (-3.77917); (-3.86015);
   (-3.94113); (-4.02211); (-4.10309); (-4.18407); (-4.26505); (-4.34604); (-4.42702); (-4.50801);
   (-4.58899); (-4.66998); (-4.75097)];
  [(-2.59331); (-2.55228); (-2.51122); (-2.47011); (-2.42896); (-2.38776); (-2.34651); (-2.3052); (-2.26384);
   (-2.22241); (-2.18092); (-2.13936); (-2.09773); (-2.05602); (-2.01422); (-1.97234); (-1.93037);
   (-1.88831); (-1.84615); (-1.80388); (-1.7615); (-1.71902); (-1.67642); (-1.63369); (-1.59085); (-1.54788);
   (-1.50478); (-1.46155); (-1.41818); (-1.37469); (-1.33107); (-1.28731); (-1.24343); (-1.19943);
   (-1.15532); (-1.11109); (-1.06678); (-1.02238); (-0.977918); (-0.933409); (-0.888876); (-0.844345);
   (-0.799844); (-0.755407); (-0.711069); (-0.666869); (-0.622851); (-0.57906); (-0.535544); (-0.492353);
   (-0.449539); (-0.407154); (-0.365252); (-0.323885); (-0.283105); (-0.242962); (-0.203505); (-0.16478);
   (-0.126828); (-0.0896885); (-0.053398); (-0.0179878); 0.016514; 0.0500831; 0.082699; 0.114344; 0.145005;
   0.174671; 0.203333; 0.230985; 0.257624; 0.283249; 0.307858; 0.331455; 0.35404; 0.37562; 0.3962; 0.415787;
   0.434391; 0.452021; 0.468689; 0.484411; 0.499201; 0.513077; 0.52606; 0.538172; 0.549436; 0.55988; 0.56953;
   0.578415; 0.586568; 0.594019; 0.600802; 0.606948; 0.612492; 0.617465; 0.6219; 0.625826; 0.629274; 0.63227;
   0.634838; 0.637002; 0.63878; 0.640188; 0.641238; 0.641939; 0.642296; 0.642306; 0.641967; 0.641265;
   0.640186; 0.638706; 0.636796; 0.63442; 0.631532; 0.628079; 0.623998; 0.619217; 0.61365; 0.607202;
   0.599764; 0.591212; 0.581411; 0.570208; 0.557435; 0.542912; 0.526443; 0.507817; 0.486816; 0.463211;
   0.436771; 0.407267; 0.374482; 0.338213; 0.298287; 0.254573; 0.206988; 0.155514; 0.100205; 0.0411936;
   (-0.0213056); (-0.0870081); (-0.155564); (-0.226593); (-0.299705); (-0.374532); (-0.45076); (-0.528141);
   (-0.606496); (-0.6857); (-0.765654); (-0.846256); (-0.927392); (-1.00896); (-1.09086); (-1.17301);
   (-1.25537); (-1.33788); (-1.42049); (-1.50317); (-1.58589); (-1.66861); (-1.75133); (-1.83403);
   (-1.91664); (-2.01224); (-2.09312); (-2.17401); (-2.25491); (-2.33582); (-2.41673); (-2.49765);
   (-2.57858); (-2.65951); (-2.74044); (-2.82138); (-2.90233); (-2.98328); (-3.06423); (-3.14519);
   (-3.22614); (-3.30711); (-3.38807); (-3.46904); (-3.55001); (-3.63098); (-3.71195); (-3.79292); (-3.8739);
   (-3.95488); (-4.03586); (-4.11684); (-4.19782); (-4.2788); (-4.35979); (-4.44077); (-4.52176); (-4.60274);
   (-4.68373); (-4.76472)];
  [(-2.61386); (-2.57283); (-2.53176); (-2.49064); (-2.44948); (-2.40827); (-2.36701); (-2.32569);
   (-2.28432); (-2.24288); (-2.20137); (-2.15979); (-2.11814); (-2.0764); (-2.03459); (-1.99268); (-1.95068);
   (-1.90858); (-1.86639); (-1.82408); (-1.78166); (-1.73912); (-1.69647); (-1.65369); (-1.61078);
   (-1.56773); (-1.52455); (-1.48124); (-1.43778); (-1.39418); (-1.35044); (-1.30656); (-1.26254);
   (-1.21838); (-1.1741); (-1.12969); (-1.08517); (-1.04055); (-0.995847); (-0.951073); (-0.906251);
   (-0.861405); (-0.816562); (-0.771753); (-0.727013); (-0.682379); (-0.637894); (-0.593601); (-0.549548);
   (-0.505786); (-0.462364); (-0.419338); (-0.37676); (-0.334685); (-0.293166); (-0.252255); (-0.212005);
   (-0.172461); (-0.133672); (-0.0956782); (-0.0585197); (-0.0222316); 0.0131542; 0.0476099; 0.0811113;
   0.113638; 0.145172; 0.1757; 0.20521; 0.233694; 0.261146; 0.287562; 0.312939; 0.337279; 0.360581; 0.382851;
   0.404091; 0.42431; 0.443515; 0.461716; 0.478926; 0.495158; 0.510429; 0.524756; 0.538161; 0.550666;
   0.562295; 0.573076; 0.583037; 0.592208; 0.600622; 0.608311; 0.615309; 0.62165; 0.627367; 0.632495;
   0.637066; 0.641112; 0.644663; 0.647746; 0.650386; 0.652608; 0.65443; 0.655869; 0.656937; 0.657643;
   0.657991; 0.65798; 0.657604; 0.656853; 0.655709; 0.654149; 0.652141; 0.649649; 0.646625; 0.643015;
   0.638753; 0.633764; 0.627962; 0.621248; 0.61351; 0.604622; 0.594444; 0.582823; 0.569588; 0.554554;
   0.537524; 0.518286; 0.496621; 0.4723; 0.445094; 0.414776; 0.381134; 0.343972; 0.303126; 0.258476;
   0.209951; 0.15755; 0.10134; 0.0414715; (-0.0218275); (-0.0882586); (-0.157468); (-0.229069); (-0.302676);
   (-0.377929); (-0.454524); (-0.532229); (-0.610874); (-0.690343); (-0.770537); (-0.851355); (-0.932686);
   (-1.01443); (-1.09648); (-1.17877); (-1.26124); (-1.34387); (-1.42658); (-1.50935); (-1.59215);
   (-1.67494); (-1.75772); (-1.84048); (-1.92314); (-2.0193); (-2.10018); (-2.18107); (-2.26197); (-2.34288);
   (-2.42379); (-2.50471); (-2.58564); (-2.66657); (-2.74751); (-2.82845); (-2.90939); (-2.99034);
   (-3.07129); (-3.15225); (-3.23321); (-3.31417); (-3.39513); (-3.4761); (-3.55707); (-3.63804); (-3.71901);
   (-3.79999); (-3.88096); (-3.96194); (-4.04292); (-4.1239); (-4.20488); (-4.28586); (-4.36685); (-4.44783);
   (-4.52882); (-4.6098); (-4.69079); (-4.77178)];
  [(-2.634); (-2.59296); (-2.55189); (-2.51076); (-2.4696); (-2.42838); (-2.3871); (-2.34578); (-2.30439);
   (-2.26293); (-2.22141); (-2.17982); (-2.13814); (-2.09639); (-2.05455); (-2.01262); (-1.97059);
   (-1.92847); (-1.88623); (-1.84389); (-1.80143); (-1.75885); (-1.71614); (-1.6733); (-1.63033); (-1.58722);
   (-1.54396); (-1.50056); (-1.45701); (-1.41331); (-1.36946); (-1.32546); (-1.2813); (-1.237); (-1.19256);
   (-1.14797); (-1.10326); (-1.05843); (-1.01349); (-0.968463); (-0.923364); (-0.878216); (-0.833045);
   (-0.78788); (-0.742753); (-0.697702); (-0.652767); (-0.607991); (-0.56342); (-0.519104); (-0.475094);
   (-0.431445); (-0.38821); (-0.345444); (-0.303204); (-0.261542); (-0.220512); (-0.180166); (-0.140551);
   (-0.101714); (-0.0636965); (-0.0265384); 0.00972544; 0.0450633; 0.0794474; 0.112853; 0.145261; 0.176652;
   0.207014; 0.236333; 0.264603; 0.291815; 0.317967; 0.343057; 0.367083; 0.39005; 0.411959; 0.432817;
   0.452631; 0.471412; 0.48917; 0.50592; 0.521679; 0.536464; 0.550296; 0.563199; 0.575198; 0.586321;
   0.596598; 0.606058; 0.614737; 0.622666; 0.629882; 0.636418; 0.64231; 0.647593; 0.6523; 0.656464; 0.660115;
   0.663282; 0.665992; 0.668267; 0.670127; 0.67159; 0.672668; 0.673369; 0.673697; 0.673652; 0.673226;
   0.672408; 0.67118; 0.669517; 0.667387; 0.66475; 0.661558; 0.657753; 0.653268; 0.648026; 0.641935;
   0.634896; 0.626791; 0.617492; 0.606856; 0.594725; 0.580925; 0.565268; 0.547555; 0.527572; 0.505097;
   0.479905; 0.451765; 0.420458; 0.385775; 0.347529; 0.305569; 0.259786; 0.210129; 0.156612; 0.099324;
   0.0384338; (-0.0258123); (-0.0931019); (-0.163072); (-0.235334); (-0.309507); (-0.385243); (-0.462254);
   (-0.540322); (-0.619293); (-0.699056); (-0.77952); (-0.860576); (-0.942116); (-1.02404); (-1.10625);
   (-1.18869); (-1.27129); (-1.35404); (-1.43684); (-1.5197); (-1.60257); (-1.68544); (-1.76827); (-1.85111);
   (-1.93381); (-2.03041); (-2.1113); (-2.19219); (-2.27309); (-2.35399); (-2.4349); (-2.51582); (-2.59675);
   (-2.67768); (-2.75862); (-2.83956); (-2.9205); (-3.00145); (-3.0824); (-3.16336); (-3.24432); (-3.32528);
   (-3.40624); (-3.48721); (-3.56818); (-3.64915); (-3.73012); (-3.8111); (-3.89208); (-3.97305); (-4.05403);
   (-4.13501); (-4.21599); (-4.29698); (-4.37796); (-4.45895); (-4.53993); (-4.62092); (-4.7019); (-4.78289)];
  [(-2.65375); (-2.6127); (-2.57162); (-2.53049); (-2.48931); (-2.44809); (-2.40681); (-2.36547); (-2.32407);
   (-2.2826); (-2.24106); (-2.19945); (-2.15776); (-2.11599); (-2.07413); (-2.03217); (-1.99012); (-1.94797);
   (-1.9057); (-1.86332); (-1.82082); (-1.7782); (-1.73544); (-1.69255); (-1.64952); (-1.60634); (-1.56301);
   (-1.51953); (-1.4759); (-1.4321); (-1.38814); (-1.34402); (-1.29974); (-1.2553); (-1.2107); (-1.16595);
   (-1.12105); (-1.07602); (-1.03086); (-0.985586); (-0.940221); (-0.894784); (-0.849298); (-0.803791);
   (-0.758293); (-0.71284); (-0.667471); (-0.622228); (-0.577157); (-0.532306); (-0.487726); (-0.443472);
   (-0.399597); (-0.356159); (-0.313213); (-0.270816); (-0.229022); (-0.187886); (-0.147459); (-0.107789);
   (-0.0689224); (-0.0309019); 0.00623365; 0.0424491; 0.0777128; 0.111997; 0.145278; 0.177534; 0.208749;
   0.238908; 0.268; 0.296015; 0.322948; 0.348794; 0.373552; 0.397223; 0.419809; 0.441314; 0.461746; 0.481114;
   0.499429; 0.516705; 0.532959; 0.548209; 0.562476; 0.575784; 0.58816; 0.599632; 0.610229; 0.619985;
   0.628932; 0.637107; 0.644544; 0.65128; 0.657351; 0.662792; 0.667639; 0.671924; 0.675678; 0.678933;
   0.681714; 0.684045; 0.685947; 0.687436; 0.688526; 0.689226; 0.689538; 0.689461; 0.688989; 0.68811;
   0.686803; 0.685043; 0.682797; 0.680024; 0.676672; 0.672684; 0.667989; 0.662507; 0.656146; 0.6488;
   0.640352; 0.630669; 0.619606; 0.607; 0.592675; 0.576443; 0.558099; 0.537431; 0.514215; 0.488226; 0.459239;
   0.427035; 0.391412; 0.352193; 0.309236; 0.262446; 0.211784; 0.157283; 0.0990483; 0.0372649; (-0.0278061);
   (-0.0958408); (-0.16647); (-0.239305); (-0.31397); (-0.390128); (-0.467506); (-0.545897); (-0.62516);
   (-0.70519); (-0.785895); (-0.867168); (-0.948899); (-1.03099); (-1.11335); (-1.19592); (-1.27865);
   (-1.36149); (-1.44439); (-1.52735); (-1.61029); (-1.69324); (-1.77612); (-1.85901); (-1.94176);
   (-2.03887); (-2.11975); (-2.20064); (-2.28154); (-2.36245); (-2.44336); (-2.52428); (-2.60521);
   (-2.68614); (-2.76707); (-2.84801); (-2.92896); (-3.00991); (-3.09086); (-3.17182); (-3.25277);
   (-3.33374); (-3.4147); (-3.49567); (-3.57664); (-3.65761); (-3.73858); (-3.81955); (-3.90053); (-3.98151);
   (-4.06249); (-4.14347); (-4.22445); (-4.30543); (-4.38642); (-4.4674); (-4.54839); (-4.62937); (-4.71036);
   (-4.79135)];
  [(-2.67311); (-2.63207); (-2.59097); (-2.54984); (-2.50866); (-2.46742); (-2.42613); (-2.38478);
   (-2.34337); (-2.30189); (-2.26034); (-2.21872); (-2.17701); (-2.13522); (-2.09334); (-2.05136);
   (-2.00928); (-1.9671); (-1.9248); (-1.88239); (-1.83985); (-1.79719); (-1.75439); (-1.71144); (-1.66836);
   (-1.62512); (-1.58172); (-1.53817); (-1.49445); (-1.45056); (-1.4065); (-1.36227); (-1.31787); (-1.27329);
   (-1.22854); (-1.18363); (-1.13855); (-1.09333); (-1.04795); (-1.00245); (-0.956831); (-0.911116);
   (-0.865328); (-0.819491); (-0.773636); (-0.727797); (-0.68201); (-0.636316); (-0.590761); (-0.545392);
   (-0.500259); (-0.455417); (-0.410921); (-0.366827); (-0.323193); (-0.280076); (-0.237533); (-0.195621);
   (-0.154394); (-0.113903); (-0.0741969); (-0.0353226); 0.00267792; 0.0397656; 0.0759054; 0.111066;
   0.145219; 0.178341; 0.210411; 0.241412; 0.27133; 0.300152; 0.327872; 0.354481; 0.379977; 0.40436;
   0.427629; 0.449789; 0.470846; 0.490808; 0.509687; 0.527496; 0.544252; 0.559972; 0.57468; 0.588399;
   0.601156; 0.612979; 0.623901; 0.633954; 0.643173; 0.651594; 0.659254; 0.666189; 0.672437; 0.678035;
   0.683018; 0.687419; 0.691273; 0.694608; 0.697452; 0.69983; 0.701762; 0.703265; 0.704352; 0.705032;
   0.705307; 0.705177; 0.704632; 0.70366; 0.702239; 0.700343; 0.697936; 0.694975; 0.691406; 0.687169;
   0.682189; 0.676384; 0.669657; 0.661899; 0.652989; 0.642789; 0.631149; 0.617905; 0.602875; 0.585866;
   0.566674; 0.545081; 0.520867; 0.493806; 0.463675; 0.430263; 0.393375; 0.352847; 0.308551; 0.260411;
   0.208408; 0.152598; 0.09311; 0.0301531; (-0.0359943); (-0.104991); (-0.176462); (-0.250018); (-0.325294);
   (-0.401972); (-0.479795); (-0.558579); (-0.638193); (-0.718546); (-0.799535); (-0.881061); (-0.963009);
   (-1.04529); (-1.12782); (-1.21052); (-1.29338); (-1.37634); (-1.45933); (-1.54237); (-1.62538);
   (-1.70839); (-1.79133); (-1.87427); (-1.95711); (-2.05449); (-2.13537); (-2.21626); (-2.29716);
   (-2.37806); (-2.45898); (-2.5399); (-2.62082); (-2.70175); (-2.78269); (-2.86363); (-2.94457); (-3.02552);
   (-3.10648); (-3.18743); (-3.26839); (-3.34935); (-3.43032); (-3.51128); (-3.59225); (-3.67322); (-3.7542);
   (-3.83517); (-3.91615); (-3.99713); (-4.0781); (-4.15908); (-4.24007); (-4.32105); (-4.40203); (-4.48302);
   (-4.564); (-4.64499); (-4.72598); (-4.80696)];
  [(-2.69211); (-2.65106); (-2.60996); (-2.56882); (-2.52763); (-2.48639); (-2.44509); (-2.40373);
   (-2.36231); (-2.32082); (-2.27926); (-2.23762); (-2.1959); (-2.15409); (-2.11219); (-2.07019); (-2.02809);
   (-1.98588); (-1.94356); (-1.90111); (-1.85854); (-1.81583); (-1.77299); (-1.73); (-1.68686); (-1.64356);
   (-1.6001); (-1.55648); (-1.51268); (-1.4687); (-1.42455); (-1.38021); (-1.33569); (-1.29098); (-1.24609);
   (-1.20103); (-1.15578); (-1.11036); (-1.06479); (-1.01906); (-0.973197); (-0.927215); (-0.881136);
   (-0.834983); (-0.788784); (-0.742571); (-0.696381); (-0.650252); (-0.604229); (-0.558358); (-0.512689);
   (-0.467276); (-0.422174); (-0.37744); (-0.333133); (-0.289312); (-0.246035); (-0.20336); (-0.161345);
   (-0.120043); (-0.0795071); (-0.0397867); (-0.000927647); 0.0370276; 0.0740402; 0.110075; 0.145101;
   0.17909; 0.212018; 0.243865; 0.274613; 0.304249; 0.332761; 0.360141; 0.386384; 0.411487; 0.435449;
   0.458273; 0.479964; 0.500531; 0.519983; 0.538334; 0.555601; 0.571803; 0.58696; 0.601099; 0.614247;
   0.626433; 0.637689; 0.648049; 0.65755; 0.666228; 0.674121; 0.681267; 0.687704; 0.693471; 0.698603;
   0.703137; 0.707105; 0.710539; 0.713466; 0.715913; 0.7179; 0.719445; 0.720562; 0.721258; 0.721538; 0.7214;
   0.720835; 0.719831; 0.718366; 0.716412; 0.713934; 0.710887; 0.707217; 0.702863; 0.697749; 0.691791;
   0.684892; 0.676941; 0.667816; 0.657378; 0.645475; 0.631941; 0.616596; 0.599244; 0.579682; 0.557692;
   0.533054; 0.505544; 0.474942; 0.44104; 0.403646; 0.362601; 0.317784; 0.269124; 0.216609; 0.160304;
   0.100342; 0.0369399; (-0.0296196); (-0.0989921); (-0.170802); (-0.244661); (-0.320208); (-0.397128);
   (-0.475171); (-0.554155); (-0.633956); (-0.714482); (-0.795633); (-0.877307); (-0.959394); (-1.0418);
   (-1.12445); (-1.20727); (-1.29023); (-1.37328); (-1.45636); (-1.53948); (-1.62257); (-1.70566);
   (-1.78867); (-1.87167); (-1.95456); (-2.05266); (-2.13355); (-2.21444); (-2.29533); (-2.37624);
   (-2.45715); (-2.53807); (-2.619); (-2.69993); (-2.78087); (-2.86181); (-2.94275); (-3.0237); (-3.10465);
   (-3.18561); (-3.26657); (-3.34753); (-3.42849); (-3.50946); (-3.59043); (-3.6714); (-3.75237); (-3.83335);
   (-3.91432); (-3.9953); (-4.07628); (-4.15726); (-4.23824); (-4.31923); (-4.40021); (-4.48119); (-4.56218);
   (-4.64317); (-4.72415); (-4.80514)];
  [(-2.71076); (-2.6697); (-2.6286); (-2.58745); (-2.54626); (-2.50501); (-2.4637); (-2.42234); (-2.3809);
   (-2.3394); (-2.29783); (-2.25618); (-2.21444); (-2.17262); (-2.1307); (-2.08868); (-2.04656); (-2.00432);
   (-1.96197); (-1.9195); (-1.87689); (-1.83415); (-1.79126); (-1.74823); (-1.70504); (-1.66168); (-1.61816);
   (-1.57447); (-1.53059); (-1.48653); (-1.44229); (-1.39785); (-1.35321); (-1.30839); (-1.26336);
   (-1.21815); (-1.17274); (-1.12714); (-1.08137); (-1.03543); (-0.989328); (-0.94309); (-0.896731);
   (-0.850273); (-0.803742); (-0.75717); (-0.71059); (-0.664041); (-0.617565); (-0.571208); (-0.525019);
   (-0.479051); (-0.43336); (-0.388003); (-0.343039); (-0.298529); (-0.254532); (-0.211108); (-0.168318);
   (-0.126217); (-0.0848617); (-0.0443043); (-0.00459409); 0.0342227; 0.0721035; 0.10901; 0.144906; 0.179761;
   0.213549; 0.246244; 0.277826; 0.308279; 0.337589; 0.365745; 0.392739; 0.418568; 0.443229; 0.466724;
   0.489056; 0.510233; 0.530265; 0.549165; 0.566949; 0.583636; 0.599249; 0.613812; 0.627353; 0.639904;
   0.651496; 0.662165; 0.671947; 0.68088; 0.689004; 0.696358; 0.70298; 0.70891; 0.714184; 0.718841; 0.722913;
   0.726432; 0.729428; 0.731926; 0.733948; 0.735511; 0.736629; 0.737311; 0.737559; 0.737372; 0.73674;
   0.73565; 0.734079; 0.731998; 0.729368; 0.726145; 0.722273; 0.717685; 0.712306; 0.706048; 0.69881;
   0.690478; 0.680927; 0.670015; 0.657586; 0.643471; 0.627487; 0.609436; 0.589112; 0.566298; 0.540774;
   0.512317; 0.480712; 0.445757; 0.407268; 0.365097; 0.319136; 0.269329; 0.215685; 0.158285; 0.0972831;
   0.0329129; (-0.0345276); (-0.104684); (-0.177178); (-0.251625); (-0.327671); (-0.40502); (-0.483436);
   (-0.562753); (-0.642855); (-0.723654); (-0.805052); (-0.886944); (-0.969219); (-1.05179); (-1.13459);
   (-1.21754); (-1.30061); (-1.38377); (-1.46694); (-1.55015); (-1.6333); (-1.71645); (-1.7995); (-1.88254);
   (-1.96553); (-2.064); (-2.14488); (-2.22577); (-2.30667); (-2.38757); (-2.46849); (-2.54941); (-2.63033);
   (-2.71126); (-2.7922); (-2.87314); (-2.95409); (-3.03503); (-3.11599); (-3.19694); (-3.2779); (-3.35886);
   (-3.43983); (-3.52079); (-3.60176); (-3.68273); (-3.76371); (-3.84468); (-3.92566); (-4.00664);
   (-4.08761); (-4.1686); (-4.24958); (-4.33056); (-4.41154); (-4.49253); (-4.57351); (-4.6545); (-4.73549);
   (-4.81647)];
  [(-2.72907); (-2.68801); (-2.6469); (-2.60575); (-2.56455); (-2.52329); (-2.48198); (-2.4406); (-2.39916);
   (-2.35765); (-2.31606); (-2.2744); (-2.23265); (-2.19081); (-2.14888); (-2.10684); (-2.0647); (-2.02244);
   (-1.98006); (-1.93756); (-1.89492); (-1.85214); (-1.80922); (-1.76614); (-1.7229); (-1.67949); (-1.63591);
   (-1.59215); (-1.54821); (-1.50407); (-1.45973); (-1.4152); (-1.37046); (-1.32551); (-1.28036); (-1.235);
   (-1.18943); (-1.14366); (-1.0977); (-1.05155); (-1.00523); (-0.958745); (-0.912116); (-0.865364);
   (-0.818514); (-0.771595); (-0.724639); (-0.677683); (-0.630768); (-0.58394); (-0.537246); (-0.490739);
   (-0.444474); (-0.398509); (-0.352904); (-0.307718); (-0.263015); (-0.218857); (-0.175303); (-0.132415);
   (-0.0902494); (-0.0488634); (-0.00830917); 0.0313635; 0.0701084; 0.107883; 0.144649; 0.180371; 0.215019;
   0.248564; 0.280985; 0.31226; 0.342373; 0.371311; 0.399065; 0.425628; 0.450996; 0.475169; 0.498151;
   0.519947; 0.540567; 0.560024; 0.578334; 0.595515; 0.61159; 0.626586; 0.640529; 0.653451; 0.665387;
   0.676371; 0.686442; 0.695638; 0.704; 0.711568; 0.718382; 0.724481; 0.729906; 0.734693; 0.738877; 0.74249;
   0.745563; 0.748122; 0.750189; 0.751782; 0.752916; 0.753598; 0.753831; 0.753614; 0.752938; 0.751786;
   0.750137; 0.74796; 0.745216; 0.741859; 0.73783; 0.733064; 0.727481; 0.720991; 0.713493; 0.704871;
   0.694996; 0.683724; 0.670898; 0.656347; 0.639885; 0.621314; 0.600428; 0.577009; 0.550838; 0.521695;
   0.489368; 0.453659; 0.414392; 0.371425; 0.324661; 0.274055; 0.219627; 0.16147; 0.0997513; 0.0347149;
   (-0.033333); (-0.104033); (-0.177004); (-0.251868); (-0.328276); (-0.40594); (-0.484637); (-0.564208);
   (-0.644545); (-0.725557); (-0.80715); (-0.889216); (-0.971651); (-1.05437); (-1.13729); (-1.22036);
   (-1.30354); (-1.38679); (-1.47005); (-1.55334); (-1.63656); (-1.71979); (-1.80291); (-1.88599);
   (-1.96902); (-2.06806); (-2.14895); (-2.22984); (-2.31074); (-2.39164); (-2.47256); (-2.55347); (-2.6344);
   (-2.71533); (-2.79627); (-2.87721); (-2.95815); (-3.0391); (-3.12005); (-3.20101); (-3.28197); (-3.36293);
   (-3.44389); (-3.52486); (-3.60583); (-3.6868); (-3.76777); (-3.84875); (-3.92973); (-4.0107); (-4.09168);
   (-4.17266); (-4.25364); (-4.33463); (-4.41561); (-4.4966); (-4.57758); (-4.65857); (-4.73955); (-4.82054)];
  [(-2.74705); (-2.70598); (-2.66487); (-2.62372); (-2.58251); (-2.54124); (-2.49992); (-2.45854);
   (-2.41709); (-2.37557); (-2.33398); (-2.2923); (-2.25054); (-2.20869); (-2.16674); (-2.12468); (-2.08252);
   (-2.04024); (-1.99784); (-1.95531); (-1.91264); (-1.86983); (-1.82687); (-1.78375); (-1.74046); (-1.697);
   (-1.65337); (-1.60954); (-1.56553); (-1.52131); (-1.47689); (-1.43227); (-1.38742); (-1.34236);
   (-1.29709); (-1.25159); (-1.20587); (-1.15994); (-1.1138); (-1.06745); (-1.02091); (-0.974186);
   (-0.927297); (-0.880262); (-0.833104); (-0.785849); (-0.73853); (-0.691181); (-0.643841); (-0.596556);
   (-0.549372); (-0.502341); (-0.455518); (-0.40896); (-0.362728); (-0.316883); (-0.271488); (-0.226607);
   (-0.182303); (-0.138638); (-0.0956736); (-0.053468); (-0.0120776); 0.0284446; 0.0680487; 0.106689;
   0.144322; 0.18091; 0.216418; 0.250816; 0.284077; 0.316177; 0.347099; 0.376824; 0.405343; 0.432646;
   0.458728; 0.483587; 0.507225; 0.529647; 0.550862; 0.570883; 0.589724; 0.607405; 0.623949; 0.639381;
   0.653731; 0.667029; 0.679311; 0.690614; 0.700975; 0.710435; 0.719035; 0.726816; 0.73382; 0.740088;
   0.745658; 0.750571; 0.75486; 0.758561; 0.761702; 0.764311; 0.766411; 0.76802; 0.769151; 0.769814;
   0.770011; 0.769738; 0.768988; 0.767742; 0.765977; 0.763661; 0.760755; 0.757208; 0.752962; 0.747946;
   0.742081; 0.735272; 0.727415; 0.718392; 0.708068; 0.6963; 0.682924; 0.667768; 0.650644; 0.631351;
   0.609682; 0.585419; 0.558345; 0.528242; 0.494903; 0.458137; 0.417777; 0.373693; 0.325802; 0.274075;
   0.218549; 0.159337; 0.0966243; 0.0306704; (-0.0382058); (-0.109637); (-0.183242); (-0.258649); (-0.33552);
   (-0.413581); (-0.492627); (-0.572514); (-0.653137); (-0.73441); (-0.816236); (-0.898505); (-0.981119);
   (-1.06399); (-1.14705); (-1.23025); (-1.31354); (-1.39688); (-1.48023); (-1.56359); (-1.6469); (-1.73016);
   (-1.81336); (-1.89646); (-1.97957); (-2.07897); (-2.15986); (-2.24075); (-2.32165); (-2.40255);
   (-2.48347); (-2.56439); (-2.64531); (-2.72624); (-2.80718); (-2.88812); (-2.96906); (-3.05001);
   (-3.13096); (-3.21192); (-3.29288); (-3.37384); (-3.4548); (-3.53577); (-3.61674); (-3.69771); (-3.77868);
   (-3.85966); (-3.94064); (-4.02161); (-4.10259); (-4.18357); (-4.26455); (-4.34554); (-4.42652);
   (-4.50751); (-4.58849); (-4.66948); (-4.75046); (-4.83145)];
  [(-2.76471); (-2.72364); (-2.68253); (-2.64137); (-2.60015); (-2.55889); (-2.51756); (-2.47617);
   (-2.43471); (-2.39318); (-2.35158); (-2.30989); (-2.26812); (-2.22625); (-2.18429); (-2.14222);
   (-2.10003); (-2.05773); (-2.01531); (-1.97275); (-1.93006); (-1.88721); (-1.84422); (-1.80106);
   (-1.75773); (-1.71422); (-1.67053); (-1.62665); (-1.58257); (-1.53828); (-1.49378); (-1.44906);
   (-1.40412); (-1.35896); (-1.31356); (-1.26793); (-1.22207); (-1.17598); (-1.12966); (-1.08312);
   (-1.03637); (-0.989418); (-0.942279); (-0.89497); (-0.847514); (-0.799936); (-0.752265); (-0.704535);
   (-0.656784); (-0.609055); (-0.561395); (-0.513855); (-0.466487); (-0.419351); (-0.372506); (-0.326015);
   (-0.279942); (-0.234352); (-0.189309); (-0.144879); (-0.101125); (-0.0581091); (-0.0158897); 0.025476;
   0.0659347; 0.105437; 0.143935; 0.181389; 0.217759; 0.253011; 0.287116; 0.320046; 0.351781; 0.3823;
   0.411591; 0.439641; 0.466444; 0.491997; 0.5163; 0.539356; 0.561175; 0.581768; 0.601149; 0.619339; 0.63636;
   0.652237; 0.667001; 0.680683; 0.69332; 0.704948; 0.715607; 0.725338; 0.734183; 0.742185; 0.749386;
   0.755829; 0.761553; 0.766599; 0.771002; 0.774798; 0.778018; 0.780688; 0.782832; 0.784469; 0.785614;
   0.786273; 0.786451; 0.786144; 0.785341; 0.784027; 0.782176; 0.779756; 0.776725; 0.773033; 0.768619;
   0.763412; 0.757328; 0.750274; 0.742142; 0.73281; 0.722146; 0.709999; 0.696208; 0.680597; 0.662977;
   0.643147; 0.620899; 0.596016; 0.568282; 0.537482; 0.503413; 0.46589; 0.424753; 0.37988; 0.331196;
   0.278686; 0.222397; 0.162454; 0.0990539; 0.0324656; (-0.036985); (-0.108927); (-0.18298); (-0.258776);
   (-0.335986); (-0.414346); (-0.493659); (-0.573789); (-0.654637); (-0.736115); (-0.818129); (-0.900566);
   (-0.983331); (-1.06634); (-1.14953); (-1.23284); (-1.31624); (-1.39967); (-1.4831); (-1.56654);
   (-1.64992); (-1.73325); (-1.8165); (-1.89965); (-1.98282); (-2.08278); (-2.16366); (-2.24456); (-2.32545);
   (-2.40636); (-2.48727); (-2.56819); (-2.64912); (-2.73005); (-2.81099); (-2.89193); (-2.97287);
   (-3.05382); (-3.13477); (-3.21573); (-3.29669); (-3.37765); (-3.45861); (-3.53958); (-3.62055);
   (-3.70152); (-3.78249); (-3.86347); (-3.94444); (-4.02542); (-4.1064); (-4.18738); (-4.26836); (-4.34935);
   (-4.43033); (-4.51131); (-4.5923); (-4.67329); (-4.75427); (-4.83526)];
  [(-2.78207); (-2.741); (-2.69988); (-2.65872); (-2.6175); (-2.57622); (-2.53489); (-2.4935); (-2.45203);
   (-2.41049); (-2.36888); (-2.32718); (-2.2854); (-2.24352); (-2.20154); (-2.15945); (-2.11725); (-2.07493);
   (-2.03249); (-1.98991); (-1.94718); (-1.90431); (-1.86128); (-1.81808); (-1.77471); (-1.73116);
   (-1.68742); (-1.64348); (-1.59934); (-1.55498); (-1.5104); (-1.4656); (-1.42057); (-1.37529); (-1.32978);
   (-1.28403); (-1.23803); (-1.19178); (-1.1453); (-1.09857); (-1.05162); (-1.00445); (-0.957067);
   (-0.909494); (-0.86175); (-0.813859); (-0.765847); (-0.717748); (-0.669599); (-0.62144); (-0.573317);
   (-0.52528); (-0.477383); (-0.429683); (-0.382239); (-0.335116); (-0.288378); (-0.242092); (-0.196323);
   (-0.151139); (-0.106605); (-0.0627872); (-0.0197468); 0.022456; 0.0637642; 0.104124; 0.143486; 0.181804;
   0.219037; 0.255145; 0.290096; 0.32386; 0.356412; 0.387731; 0.417799; 0.446603; 0.474135; 0.500389;
   0.525364; 0.549063; 0.571493; 0.592666; 0.612595; 0.631301; 0.648805; 0.665135; 0.680319; 0.694392;
   0.707388; 0.719347; 0.730309; 0.740316; 0.749411; 0.757637; 0.765039; 0.77166; 0.777541; 0.782723;
   0.787243; 0.791136; 0.794435; 0.797168; 0.799358; 0.801024; 0.802182; 0.802839; 0.802998; 0.802657;
   0.801804; 0.800422; 0.798486; 0.795962; 0.792808; 0.788972; 0.784391; 0.778994; 0.772695; 0.765399;
   0.756995; 0.747362; 0.736362; 0.723846; 0.709649; 0.693595; 0.675493; 0.655142; 0.632333; 0.606852;
   0.578483; 0.547015; 0.512248; 0.474003; 0.432126; 0.386504; 0.337072; 0.283822; 0.226817; 0.166188;
   0.102145; 0.0349646; (-0.0350217); (-0.10744); (-0.181912); (-0.258072); (-0.335601); (-0.414244);
   (-0.493811); (-0.574173); (-0.655236); (-0.736912); (-0.819105); (-0.901706); (-0.984618); (-1.06777);
   (-1.15107); (-1.23449); (-1.31799); (-1.40152); (-1.48504); (-1.56855); (-1.652); (-1.73539); (-1.81871);
   (-1.90193); (-2.0048); (-2.08568); (-2.16656); (-2.24745); (-2.32835); (-2.40925); (-2.49017); (-2.57109);
   (-2.65201); (-2.73294); (-2.81388); (-2.89482); (-2.97576); (-3.05671); (-3.13767); (-3.21862);
   (-3.29958); (-3.38054); (-3.46151); (-3.54247); (-3.62344); (-3.70441); (-3.78539); (-3.86636);
   (-3.94734); (-4.02832); (-4.10929); (-4.19027); (-4.27126); (-4.35224); (-4.43322); (-4.51421);
   (-4.59519); (-4.67618); (-4.75717); (-4.83815)];
  [(-2.79914); (-2.75806); (-2.71694); (-2.67577); (-2.63455); (-2.59327); (-2.55193); (-2.51053);
   (-2.46906); (-2.42751); (-2.38589); (-2.34418); (-2.30239); (-2.2605); (-2.2185); (-2.1764); (-2.13419);
   (-2.09185); (-2.04938); (-2.00678); (-1.96403); (-1.92113); (-1.87807); (-1.83484); (-1.79143);
   (-1.74783); (-1.70404); (-1.66005); (-1.61584); (-1.57142); (-1.52677); (-1.48188); (-1.43676);
   (-1.39139); (-1.34577); (-1.29989); (-1.25375); (-1.20736); (-1.16072); (-1.11382); (-1.06667);
   (-1.01928); (-0.971666); (-0.923839); (-0.875816); (-0.827621); (-0.77928); (-0.730824); (-0.682288);
   (-0.633711); (-0.585139); (-0.536619); (-0.488205); (-0.439954); (-0.391926); (-0.344185); (-0.296795);
   (-0.249824); (-0.203341); (-0.157414); (-0.112111); (-0.0675005); (-0.0236468); 0.0193864; 0.0615389;
   0.102753; 0.142976; 0.182157; 0.220252; 0.257217; 0.293017; 0.327619; 0.360993; 0.393116; 0.423967;
   0.453532; 0.481799; 0.508762; 0.534417; 0.558766; 0.581815; 0.603575; 0.62406; 0.643289; 0.661285;
   0.678073; 0.693685; 0.708154; 0.721516; 0.733812; 0.745082; 0.755369; 0.764718; 0.773173; 0.78078;
   0.787582; 0.793622; 0.798943; 0.803581; 0.807575; 0.810955; 0.813752; 0.815989; 0.817686; 0.818858;
   0.819514; 0.819657; 0.819282; 0.81838; 0.816932; 0.814912; 0.812286; 0.809011; 0.805033; 0.80029;
   0.794707; 0.788197; 0.780664; 0.771995; 0.762068; 0.750742; 0.737868; 0.723279; 0.706797; 0.68823;
   0.667379; 0.644034; 0.617981; 0.589008; 0.556905; 0.521477; 0.48255; 0.439977; 0.393652; 0.343519;
   0.28958; 0.231907; 0.170642; 0.106003; 0.0382735; (-0.0322088); (-0.105069); (-0.179929); (-0.25643);
   (-0.334259); (-0.413167); (-0.492976); (-0.57356); (-0.654827); (-0.736692); (-0.819059); (-0.901816);
   (-0.984871); (-1.06815); (-1.15157); (-1.2351); (-1.31871); (-1.40232); (-1.48594); (-1.56952);
   (-1.65304); (-1.7365); (-1.81988); (-1.90315); (-2.00668); (-2.08756); (-2.16844); (-2.24933); (-2.33023);
   (-2.41113); (-2.49205); (-2.57297); (-2.65389); (-2.73482); (-2.81576); (-2.8967); (-2.97764); (-3.05859);
   (-3.13954); (-3.2205); (-3.30146); (-3.38242); (-3.46339); (-3.54435); (-3.62532); (-3.70629); (-3.78727);
   (-3.86824); (-3.94922); (-4.03019); (-4.11117); (-4.19215); (-4.27314); (-4.35412); (-4.4351); (-4.51609);
   (-4.59707); (-4.67806); (-4.75904); (-4.84003)];
  [(-2.81592); (-2.77484); (-2.73371); (-2.69254); (-2.65131); (-2.61003); (-2.56869); (-2.52728); (-2.4858);
   (-2.44425); (-2.40262); (-2.36091); (-2.3191); (-2.2772); (-2.23519); (-2.19308); (-2.15085); (-2.10849);
   (-2.066); (-2.02338); (-1.98061); (-1.93768); (-1.89459); (-1.85132); (-1.80787); (-1.76424); (-1.7204);
   (-1.67636); (-1.63209); (-1.58761); (-1.54289); (-1.49792); (-1.45271); (-1.40724); (-1.36152);
   (-1.31552); (-1.26926); (-1.22273); (-1.17592); (-1.12885); (-1.08152); (-1.03392); (-0.986083);
   (-0.938008); (-0.889717); (-0.841229); (-0.792568); (-0.743766); (-0.694854); (-0.645872); (-0.596862);
   (-0.547873); (-0.498956); (-0.450168); (-0.401568); (-0.353221); (-0.305193); (-0.257551); (-0.210365);
   (-0.163707); (-0.117645); (-0.0722513); (-0.0275927); 0.016264; 0.0592548; 0.101319; 0.142399; 0.182442;
   0.221398; 0.259221; 0.295871; 0.331312; 0.365512; 0.398444; 0.430084; 0.460415; 0.489424; 0.517101;
   0.543442; 0.568448; 0.592123; 0.614477; 0.635524; 0.655282; 0.673774; 0.691026; 0.70707; 0.721939;
   0.735671; 0.748305; 0.759885; 0.770454; 0.780057; 0.78874; 0.79655; 0.803531; 0.809727; 0.815181;
   0.819932; 0.824018; 0.827471; 0.830321; 0.832592; 0.834306; 0.835476; 0.836111; 0.836214; 0.835781;
   0.8348; 0.833253; 0.831112; 0.828342; 0.824898; 0.820726; 0.815759; 0.809922; 0.803126; 0.79527; 0.786242;
   0.775915; 0.764147; 0.750785; 0.735661; 0.718594; 0.699392; 0.677854; 0.653771; 0.62693; 0.597121;
   0.564139; 0.527794; 0.487919; 0.444376; 0.39707; 0.34596; 0.29106; 0.232459; 0.170312; 0.104852;
   0.0363744; (-0.0347757); (-0.108224); (-0.183591); (-0.260527); (-0.338732); (-0.41797); (-0.498072);
   (-0.578925); (-0.660438); (-0.742526); (-0.825091); (-0.908028); (-0.991244); (-1.07466); (-1.15821);
   (-1.24185); (-1.32556); (-1.40926); (-1.49296); (-1.57661); (-1.6602); (-1.74372); (-1.82716); (-1.91045);
   (-2.01447); (-2.09535); (-2.17623); (-2.25712); (-2.33802); (-2.41892); (-2.49984); (-2.58076);
   (-2.66168); (-2.74261); (-2.82355); (-2.90449); (-2.98543); (-3.06638); (-3.14734); (-3.22829);
   (-3.30925); (-3.39021); (-3.47118); (-3.55214); (-3.63311); (-3.71408); (-3.79506); (-3.87603);
   (-3.95701); (-4.03798); (-4.11896); (-4.19994); (-4.28093); (-4.36191); (-4.44289); (-4.52388);
   (-4.60486); (-4.68585); (-4.76684); (-4.84782)];
  [(-2.83242); (-2.79134); (-2.75021); (-2.70904); (-2.66781); (-2.62652); (-2.58517); (-2.54376);
   (-2.50227); (-2.46072); (-2.41908); (-2.37735); (-2.33554); (-2.29363); (-2.25161); (-2.20948);
   (-2.16724); (-2.12486); (-2.08236); (-2.03971); (-1.99692); (-1.95396); (-1.91084); (-1.86755);
   (-1.82406); (-1.78039); (-1.73651); (-1.69241); (-1.6481); (-1.60355); (-1.55876); (-1.51372); (-1.46843);
   (-1.42287); (-1.37704); (-1.33093); (-1.28455); (-1.23788); (-1.19092); (-1.14369); (-1.09617);
   (-1.04838); (-1.00032); (-0.952007); (-0.903455); (-0.854682); (-0.805713); (-0.756574); (-0.707298);
   (-0.657921); (-0.608486); (-0.55904); (-0.509632); (-0.460319); (-0.411162); (-0.362222); (-0.313567);
   (-0.265266); (-0.217389); (-0.17001); (-0.1232); (-0.077031); (-0.0315753); 0.0130981; 0.0569219;
   0.0998318; 0.141767; 0.182669; 0.222486; 0.261169; 0.298672; 0.334956; 0.369986; 0.403731; 0.436166;
   0.46727; 0.497028; 0.525427; 0.552463; 0.578133; 0.602443; 0.625399; 0.647017; 0.667312; 0.686309;
   0.704034; 0.720518; 0.735796; 0.749905; 0.762886; 0.774783; 0.785641; 0.795506; 0.804425; 0.812446;
   0.819613; 0.825973; 0.831569; 0.836442; 0.840629; 0.844165; 0.847079; 0.849397; 0.85114; 0.852323;
   0.852954; 0.853036; 0.852565; 0.85153; 0.84991; 0.847679; 0.8448; 0.841227; 0.836904; 0.831764; 0.82573;
   0.818712; 0.810609; 0.801304; 0.79067; 0.778564; 0.764832; 0.749303; 0.731797; 0.712121; 0.690074;
   0.665447; 0.638029; 0.607612; 0.573995; 0.536992; 0.496441; 0.452212; 0.404218; 0.352424; 0.296856;
   0.237611; 0.174854; 0.108826; 0.0398276; (-0.0317912); (-0.105655); (-0.181389); (-0.258647); (-0.337135);
   (-0.416628); (-0.496962); (-0.578028); (-0.659739); (-0.742011); (-0.824743); (-0.907832); (-0.991186);
   (-1.07473); (-1.15839); (-1.24214); (-1.32595); (-1.40974); (-1.49352); (-1.57725); (-1.66091);
   (-1.74449); (-1.828); (-1.91134); (-2.01603); (-2.0969); (-2.17778); (-2.25867); (-2.33957); (-2.42048);
   (-2.50139); (-2.58231); (-2.66323); (-2.74416); (-2.8251); (-2.90604); (-2.98699); (-3.06793); (-3.14889);
   (-3.22984); (-3.3108); (-3.39176); (-3.47273); (-3.55369); (-3.63466); (-3.71563); (-3.79661); (-3.87758);
   (-3.95856); (-4.03954); (-4.12052); (-4.2015); (-4.28248); (-4.36346); (-4.44444); (-4.52543); (-4.60641);
   (-4.6874); (-4.76839); (-4.84937)];
  [(-2.84866); (-2.80758); (-2.76645); (-2.72527); (-2.68403); (-2.64274); (-2.60139); (-2.55997);
   (-2.51848); (-2.47692); (-2.43527); (-2.39354); (-2.35172); (-2.3098); (-2.26777); (-2.22563); (-2.18337);
   (-2.14098); (-2.09846); (-2.05579); (-2.01298); (-1.97); (-1.92685); (-1.88352); (-1.84001); (-1.79629);
   (-1.75237); (-1.70823); (-1.66386); (-1.61926); (-1.5744); (-1.52929); (-1.48392); (-1.43827); (-1.39234);
   (-1.34613); (-1.29963); (-1.25282); (-1.20573); (-1.15833); (-1.11064); (-1.06265); (-1.01438);
   (-0.965841); (-0.917037); (-0.867989); (-0.81872); (-0.769255); (-0.719625); (-0.669865); (-0.620017);
   (-0.570125); (-0.520239); (-0.470415); (-0.420711); (-0.371192); (-0.321923); (-0.272975); (-0.22442);
   (-0.176331); (-0.128782); (-0.081849); (-0.035605); 0.00987746; 0.0545277; 0.098278; 0.141063; 0.182823;
   0.2235; 0.26304; 0.301397; 0.338526; 0.374388; 0.408951; 0.442184; 0.474066; 0.504577; 0.533704; 0.56144;
   0.587781; 0.61273; 0.636294; 0.658486; 0.679324; 0.69883; 0.717031; 0.733958; 0.749646; 0.764133;
   0.777461; 0.789675; 0.80082; 0.810943; 0.820093; 0.828318; 0.835664; 0.842179; 0.847906; 0.852886;
   0.857159; 0.860758; 0.863715; 0.866055; 0.8678; 0.868962; 0.869552; 0.869572; 0.869015; 0.867871;
   0.866117; 0.863726; 0.860659; 0.856868; 0.852294; 0.84687; 0.840514; 0.833133; 0.824624; 0.814867;
   0.803731; 0.791071; 0.776728; 0.760532; 0.742297; 0.721831; 0.698932; 0.67339; 0.644998; 0.61355; 0.57885;
   0.540721; 0.499009; 0.453597; 0.404412; 0.351436; 0.294713; 0.234358; 0.170556; 0.103563; 0.0336936;
   (-0.0386949); (-0.113225); (-0.189528); (-0.267271); (-0.346174); (-0.426029); (-0.506688); (-0.588048);
   (-0.670028); (-0.752543); (-0.835488); (-0.918762); (-1.00228); (-1.08596); (-1.16975); (-1.25361);
   (-1.33752); (-1.42139); (-1.50525); (-1.58904); (-1.67277); (-1.75639); (-1.83995); (-1.92335);
   (-2.02832); (-2.1092); (-2.19008); (-2.27097); (-2.35187); (-2.43277); (-2.51369); (-2.59461); (-2.67553);
   (-2.75646); (-2.8374); (-2.91834); (-2.99929); (-3.08023); (-3.16119); (-3.24214); (-3.3231); (-3.40406);
   (-3.48503); (-3.56599); (-3.64696); (-3.72793); (-3.80891); (-3.88988); (-3.97086); (-4.05184);
   (-4.13281); (-4.2138); (-4.29478); (-4.37576); (-4.45674); (-4.53773); (-4.61871); (-4.6997); (-4.78069);
   (-4.86167)];
  [(-2.86464); (-2.82356); (-2.78242); (-2.74124); (-2.7); (-2.65871); (-2.61735); (-2.57593); (-2.53444);
   (-2.49287); (-2.45121); (-2.40948); (-2.36764); (-2.32571); (-2.28367); (-2.24152); (-2.19925);
   (-2.15685); (-2.11431); (-2.07163); (-2.02879); (-1.98579); (-1.94261); (-1.89926); (-1.85571);
   (-1.81196); (-1.768); (-1.72381); (-1.67939); (-1.63473); (-1.58982); (-1.54464); (-1.49919); (-1.45346);
   (-1.40744); (-1.36112); (-1.3145); (-1.26757); (-1.22033); (-1.17278); (-1.12492); (-1.07675); (-1.02828);
   (-0.979513); (-0.930464); (-0.88115); (-0.831589); (-0.781808); (-0.731834); (-0.681702); (-0.631451);
   (-0.581125); (-0.530772); (-0.480448); (-0.430211); (-0.380123); (-0.330253); (-0.28067); (-0.231446);
   (-0.182658); (-0.134381); (-0.086692); (-0.0396674); 0.00661733; 0.0520886; 0.0966749; 0.140308; 0.182923;
   0.224459; 0.264859; 0.304071; 0.342047; 0.378747; 0.414131; 0.44817; 0.480836; 0.512108; 0.541971;
   0.570415; 0.597435; 0.623032; 0.647213; 0.66999; 0.69138; 0.711404; 0.73009; 0.747469; 0.763576; 0.77845;
   0.792135; 0.804674; 0.816116; 0.826507; 0.835898; 0.844337; 0.851873; 0.858552; 0.864421; 0.869522;
   0.873894; 0.877572; 0.880589; 0.882969; 0.884734; 0.8859; 0.886474; 0.886459; 0.88585; 0.884633; 0.882788;
   0.880283; 0.877081; 0.873132; 0.868377; 0.862745; 0.856154; 0.84851; 0.839706; 0.829622; 0.818124;
   0.805067; 0.790289; 0.773619; 0.754872; 0.733853; 0.710361; 0.684188; 0.655129; 0.62298; 0.58755;
   0.548666; 0.506183; 0.45999; 0.410024; 0.356278; 0.298806; 0.237734; 0.173258; 0.105642; 0.0352083;
   (-0.0376836); (-0.112656); (-0.189345); (-0.267424); (-0.346624); (-0.426743); (-0.507644); (-0.589227);
   (-0.671413); (-0.754117); (-0.837232); (-0.92066); (-1.00431); (-1.08812); (-1.17203); (-1.25599);
   (-1.33999); (-1.42396); (-1.5079); (-1.59176); (-1.67556); (-1.75923); (-1.84287); (-1.9263); (-2.03186);
   (-2.11273); (-2.19362); (-2.27451); (-2.35541); (-2.43631); (-2.51723); (-2.59814); (-2.67907); (-2.76);
   (-2.84094); (-2.92188); (-3.00282); (-3.08377); (-3.16472); (-3.24568); (-3.32664); (-3.4076); (-3.48856);
   (-3.56953); (-3.6505); (-3.73147); (-3.81244); (-3.89342); (-3.9744); (-4.05537); (-4.13635); (-4.21733);
   (-4.29831); (-4.3793); (-4.46028); (-4.54127); (-4.62225); (-4.70324); (-4.78422); (-4.86521)];
  [(-2.88037); (-2.83929); (-2.79815); (-2.75696); (-2.71572); (-2.67443); (-2.63307); (-2.59164);
   (-2.55014); (-2.50857); (-2.46691); (-2.42516); (-2.38332); (-2.34138); (-2.29934); (-2.25717);
   (-2.21489); (-2.17247); (-2.12992); (-2.08722); (-2.04436); (-2.00134); (-1.95814); (-1.91476);
   (-1.87118); (-1.8274); (-1.7834); (-1.73917); (-1.6947); (-1.64999); (-1.60501); (-1.55977); (-1.51425);
   (-1.46843); (-1.42232); (-1.37591); (-1.32918); (-1.28213); (-1.23475); (-1.18706); (-1.13903);
   (-1.09068); (-1.04201); (-0.993028); (-0.943743); (-0.89417); (-0.844328); (-0.794239); (-0.743931);
   (-0.693437); (-0.642794); (-0.592045); (-0.541238); (-0.490426); (-0.439667); (-0.389024); (-0.338563);
   (-0.288357); (-0.238477); (-0.189001); (-0.140006); (-0.0915704); (-0.0437741); 0.00330526; 0.0495907;
   0.0950076; 0.139484; 0.182951; 0.225344; 0.266602; 0.30667; 0.345496; 0.383034; 0.419244; 0.454091;
   0.487546; 0.519584; 0.550187; 0.579345; 0.60705; 0.633301; 0.658105; 0.681471; 0.703417; 0.723964;
   0.743139; 0.760973; 0.777502; 0.792766; 0.806808; 0.819673; 0.831409; 0.842067; 0.851695; 0.860343;
   0.868063; 0.8749; 0.880902; 0.886112; 0.89057; 0.894312; 0.89737; 0.89977; 0.901533; 0.902674; 0.903202;
   0.903118; 0.902416; 0.901082; 0.899094; 0.896419; 0.893018; 0.888839; 0.883821; 0.877891; 0.870963;
   0.862942; 0.853717; 0.843166; 0.831152; 0.817526; 0.802126; 0.784776; 0.765291; 0.743475; 0.719127;
   0.69204; 0.662011; 0.628841; 0.592345; 0.552358; 0.508744; 0.461407; 0.410296; 0.355422; 0.296854;
   0.234739; 0.169287; 0.100778; 0.0295436; (-0.0440504); (-0.119629); (-0.196834); (-0.275353); (-0.354933);
   (-0.435389); (-0.516592); (-0.598452); (-0.680891); (-0.76382); (-0.847135); (-0.930735); (-1.01454);
   (-1.09848); (-1.18251); (-1.26658); (-1.35067); (-1.43471); (-1.51873); (-1.60264); (-1.68651);
   (-1.77022); (-1.85388); (-1.93739); (-2.04326); (-2.12413); (-2.20501); (-2.2859); (-2.3668); (-2.44771);
   (-2.52862); (-2.60954); (-2.69047); (-2.7714); (-2.85233); (-2.93328); (-3.01422); (-3.09517); (-3.17612);
   (-3.25708); (-3.33804); (-3.419); (-3.49996); (-3.58093); (-3.6619); (-3.74287); (-3.82384); (-3.90482);
   (-3.98579); (-4.06677); (-4.14775); (-4.22873); (-4.30971); (-4.39069); (-4.47168); (-4.55266);
   (-4.63365); (-4.71463); (-4.79562); (-4.87661)];
  [(-2.89586); (-2.85477); (-2.81363); (-2.77245); (-2.7312); (-2.6899); (-2.64854); (-2.60711); (-2.56561);
   (-2.52403); (-2.48236); (-2.44061); (-2.39876); (-2.35682); (-2.31476); (-2.27259); (-2.23029);
   (-2.18786); (-2.1453); (-2.10258); (-2.05971); (-2.01666); (-1.97344); (-1.93003); (-1.88643); (-1.84261);
   (-1.79857); (-1.75431); (-1.70979); (-1.66503); (-1.62); (-1.57469); (-1.5291); (-1.48321); (-1.43701);
   (-1.3905); (-1.34366); (-1.29649); (-1.24899); (-1.20115); (-1.15297); (-1.10444); (-1.05558); (-1.00639);
   (-0.956876); (-0.907052); (-0.856936); (-0.806549); (-0.755916); (-0.70507); (-0.654045); (-0.602883);
   (-0.551632); (-0.500343); (-0.449074); (-0.397886); (-0.346847); (-0.296028); (-0.245503); (-0.195349);
   (-0.145645); (-0.0964725); (-0.0479123); (-4.53661e-5); 0.0470485; 0.0932913; 0.138607; 0.182924;
   0.226174; 0.268291; 0.309216; 0.348893; 0.387274; 0.424315; 0.459976; 0.494225; 0.527037; 0.558389;
   0.588268; 0.616666; 0.643581; 0.669016; 0.692981; 0.715492; 0.736571; 0.756244; 0.774543; 0.791503;
   0.807166; 0.821574; 0.834774; 0.846815; 0.857747; 0.867622; 0.876491; 0.884404; 0.89141; 0.897557;
   0.902888; 0.907446; 0.911266; 0.914381; 0.916818; 0.918598; 0.919738; 0.920244; 0.920118; 0.919355;
   0.917939; 0.915848; 0.913049; 0.9095; 0.905149; 0.899934; 0.893779; 0.886599; 0.878295; 0.868755;
   0.857856; 0.845459; 0.831413; 0.815554; 0.797708; 0.777687; 0.755296; 0.730334; 0.702597; 0.671883;
   0.637997; 0.600758; 0.560008; 0.515618; 0.467499; 0.415612; 0.359976; 0.300673; 0.237859; 0.171754;
   0.102647; 0.0308717; (-0.0432009); (-0.119199); (-0.196769); (-0.275607); (-0.35547); (-0.436181);
   (-0.517618); (-0.599694); (-0.682333); (-0.765445); (-0.848924); (-0.932673); (-1.01661); (-1.10068);
   (-1.18481); (-1.26899); (-1.35317); (-1.4373); (-1.52139); (-1.60538); (-1.68932); (-1.77309); (-1.8568);
   (-1.94037); (-2.04679); (-2.12766); (-2.20855); (-2.28944); (-2.37034); (-2.45124); (-2.53215);
   (-2.61307); (-2.694); (-2.77493); (-2.85587); (-2.93681); (-3.01775); (-3.0987); (-3.17965); (-3.26061);
   (-3.34157); (-3.42253); (-3.50349); (-3.58446); (-3.66543); (-3.7464); (-3.82737); (-3.90835); (-3.98932);
   (-4.0703); (-4.15128); (-4.23226); (-4.31324); (-4.39423); (-4.47521); (-4.55619); (-4.63718); (-4.71817);
   (-4.79915); (-4.88014)];
  [(-2.91112); (-2.87002); (-2.82889); (-2.78769); (-2.74645); (-2.70515); (-2.66378); (-2.62235);
   (-2.58084); (-2.53925); (-2.49759); (-2.45583); (-2.41398); (-2.37202); (-2.32996); (-2.28777);
   (-2.24547); (-2.20303); (-2.16045); (-2.11772); (-2.07482); (-2.03176); (-1.98852); (-1.94509);
   (-1.90145); (-1.85761); (-1.81353); (-1.76923); (-1.72467); (-1.67986); (-1.63478); (-1.58941);
   (-1.54375); (-1.49778); (-1.4515); (-1.4049); (-1.35796); (-1.31068); (-1.26305); (-1.21507); (-1.16674);
   (-1.11805); (-1.069); (-1.01961); (-0.969869); (-0.919802); (-0.86942); (-0.818742); (-0.767794);
   (-0.716604); (-0.665208); (-0.613645); (-0.56196); (-0.510205); (-0.458437); (-0.406717); (-0.355111);
   (-0.30369); (-0.25253); (-0.201709); (-0.151307); (-0.101407); (-0.0520912); (-0.00344436); 0.0444512;
   0.0915143; 0.137666; 0.182829; 0.226933; 0.269907; 0.31169; 0.35222; 0.391446; 0.42932; 0.465799;
   0.500848; 0.534438; 0.566544; 0.597151; 0.626248; 0.653832; 0.679904; 0.704474; 0.727557; 0.749174;
   0.76935; 0.788118; 0.805514; 0.821578; 0.836355; 0.849892; 0.862239; 0.873448; 0.883569; 0.892656;
   0.90076; 0.907932; 0.914219; 0.919666; 0.924316; 0.928206; 0.931368; 0.933831; 0.935615; 0.936736;
   0.937203; 0.937016; 0.936168; 0.934645; 0.932421; 0.929464; 0.925731; 0.921167; 0.915707; 0.909277;
   0.901787; 0.893136; 0.883211; 0.871886; 0.859021; 0.844462; 0.828044; 0.80959; 0.788913; 0.765818;
   0.740104; 0.711569; 0.680014; 0.645247; 0.607096; 0.565408; 0.520063; 0.470984; 0.418144; 0.361575;
   0.301373; 0.237707; 0.170811; 0.100982; 0.0285631; (-0.0460743); (-0.122561); (-0.200551); (-0.279753);
   (-0.359934); (-0.44093); (-0.522628); (-0.604945); (-0.687805); (-0.771113); (-0.854769); (-0.938672);
   (-1.02275); (-1.10694); (-1.19119); (-1.27547); (-1.35974); (-1.44394); (-1.52811); (-1.61217);
   (-1.69614); (-1.77998); (-1.86374); (-1.94736); (-2.05421); (-2.13508); (-2.21596); (-2.29685);
   (-2.37775); (-2.45866); (-2.53957); (-2.62049); (-2.70141); (-2.78235); (-2.86328); (-2.94422);
   (-3.02517); (-3.10612); (-3.18707); (-3.26802); (-3.34898); (-3.42994); (-3.51091); (-3.59188);
   (-3.67284); (-3.75382); (-3.83479); (-3.91576); (-3.99674); (-4.07772); (-4.1587); (-4.23968); (-4.32066);
   (-4.40164); (-4.48263); (-4.56361); (-4.6446); (-4.72558); (-4.80657); (-4.88756)];
  [(-2.92614); (-2.88505); (-2.84391); (-2.80272); (-2.76147); (-2.72016); (-2.67879); (-2.63736);
   (-2.59585); (-2.55426); (-2.51258); (-2.47082); (-2.42896); (-2.387); (-2.34493); (-2.30274); (-2.26042);
   (-2.21797); (-2.17538); (-2.13263); (-2.08972); (-2.04664); (-2.00338); (-1.95993); (-1.91627);
   (-1.87239); (-1.82829); (-1.78394); (-1.73935); (-1.69449); (-1.64935); (-1.60393); (-1.5582); (-1.51217);
   (-1.46581); (-1.41911); (-1.37208); (-1.32469); (-1.27694); (-1.22883); (-1.18034); (-1.13149);
   (-1.08227); (-1.03268); (-0.982724); (-0.932421); (-0.881781); (-0.830822); (-0.779566); (-0.728043);
   (-0.676284); (-0.624329); (-0.572222); (-0.520012); (-0.467755); (-0.415513); (-0.363351); (-0.31134);
   (-0.259556); (-0.208078); (-0.156987); (-0.106368); (-0.0563055); (-0.00688606); 0.0418049; 0.0896829;
   0.136665; 0.182673; 0.227629; 0.27146; 0.3141; 0.355486; 0.39556; 0.43427; 0.471572; 0.507426; 0.541799;
   0.574666; 0.606008; 0.635812; 0.664072; 0.69079; 0.715973; 0.739635; 0.761796; 0.782483; 0.801727;
   0.819566; 0.836039; 0.851191; 0.865072; 0.877731; 0.88922; 0.899594; 0.908904; 0.917205; 0.924546;
   0.930978; 0.936546; 0.941292; 0.945256; 0.948471; 0.950964; 0.952757; 0.953866; 0.954299; 0.954057;
   0.953132; 0.951509; 0.949163; 0.946059; 0.942153; 0.93739; 0.931704; 0.925016; 0.917237; 0.908265;
   0.897984; 0.886265; 0.872967; 0.857936; 0.841005; 0.821997; 0.800723; 0.776989; 0.750595; 0.721341;
   0.689031; 0.653478; 0.614514; 0.571994; 0.525806; 0.475883; 0.422207; 0.364823; 0.303838; 0.239433;
   0.171851; 0.101399; 0.0284217; (-0.0467067); (-0.12362); (-0.201982); (-0.281505); (-0.361973);
   (-0.443228); (-0.525163); (-0.6077); (-0.690763); (-0.774254); (-0.858074); (-0.942124); (-1.02633);
   (-1.11065); (-1.195); (-1.27938); (-1.36374); (-1.44804); (-1.53227); (-1.61639); (-1.70043); (-1.78433);
   (-1.86812); (-1.95181); (-2.05915); (-2.14003); (-2.22091); (-2.3018); (-2.3827); (-2.4636); (-2.54452);
   (-2.62544); (-2.70636); (-2.78729); (-2.86823); (-2.94917); (-3.03012); (-3.11106); (-3.19202);
   (-3.27297); (-3.35393); (-3.43489); (-3.51586); (-3.59682); (-3.67779); (-3.75876); (-3.83974);
   (-3.92071); (-4.00169); (-4.08267); (-4.16364); (-4.24462); (-4.32561); (-4.40659); (-4.48757);
   (-4.56856); (-4.64954); (-4.73053); (-4.81152); (-4.8925)];
  [(-2.94095); (-2.89985); (-2.85871); (-2.81752); (-2.77627); (-2.73496); (-2.69359); (-2.65215);
   (-2.61063); (-2.56904); (-2.52737); (-2.4856); (-2.44373); (-2.40176); (-2.35969); (-2.31749); (-2.27516);
   (-2.2327); (-2.1901); (-2.14734); (-2.10441); (-2.06132); (-2.01804); (-1.97456); (-1.93087); (-1.88697);
   (-1.84284); (-1.79846); (-1.75382); (-1.70892); (-1.66374); (-1.61826); (-1.57247); (-1.52637);
   (-1.47993); (-1.43315); (-1.38602); (-1.33853); (-1.29066); (-1.24242); (-1.1938); (-1.14479); (-1.09539);
   (-1.04561); (-0.995446); (-0.944914); (-0.894023); (-0.84279); (-0.791237); (-0.739388); (-0.687277);
   (-0.634939); (-0.582419); (-0.529764); (-0.47703); (-0.424276); (-0.371569); (-0.318979); (-0.266582);
   (-0.214457); (-0.162687); (-0.111358); (-0.060557); (-0.0103727); 0.039107; 0.0877943; 0.135603; 0.182451;
   0.228257; 0.272945; 0.316443; 0.358684; 0.399608; 0.439159; 0.477287; 0.51395; 0.549114; 0.582748;
   0.61483; 0.645348; 0.674291; 0.701661; 0.727464; 0.751712; 0.774425; 0.79563; 0.815357; 0.833644;
   0.850531; 0.866064; 0.880293; 0.893268; 0.905043; 0.915672; 0.925209; 0.933708; 0.941221; 0.947799;
   0.953488; 0.958332; 0.96237; 0.965636; 0.968158; 0.969959; 0.971054; 0.971451; 0.971152; 0.970147;
   0.968421; 0.965948; 0.962693; 0.958611; 0.953644; 0.947725; 0.940775; 0.932702; 0.923403; 0.912759;
   0.900642; 0.886907; 0.8714; 0.853952; 0.834385; 0.812512; 0.788138; 0.761065; 0.731094; 0.698033; 0.6617;
   0.621931; 0.578589; 0.531571; 0.480817; 0.426323; 0.368142; 0.306394; 0.24127; 0.173024; 0.101967;
   0.0284521; (-0.0471493); (-0.124475); (-0.203193); (-0.28303); (-0.363775); (-0.445283); (-0.527452);
   (-0.610205); (-0.693464); (-0.777135); (-0.861114); (-0.94531); (-1.02965); (-1.11408); (-1.19854);
   (-1.28302); (-1.36747); (-1.45185); (-1.53616); (-1.62034); (-1.70445); (-1.78839); (-1.87224);
   (-1.95599); (-2.06383); (-2.1447); (-2.22558); (-2.30647); (-2.38737); (-2.46828); (-2.54919); (-2.63011);
   (-2.71104); (-2.79197); (-2.8729); (-2.95384); (-3.03479); (-3.11574); (-3.19669); (-3.27765); (-3.3586);
   (-3.43957); (-3.52053); (-3.6015); (-3.68247); (-3.76344); (-3.84441); (-3.92539); (-4.00636); (-4.08734);
   (-4.16832); (-4.2493); (-4.33028); (-4.41126); (-4.49225); (-4.57323); (-4.65422); (-4.7352); (-4.81619);
   (-4.89718)];
  [(-2.95554); (-2.91445); (-2.8733); (-2.83211); (-2.79085); (-2.74954); (-2.70817); (-2.66673); (-2.62521);
   (-2.58361); (-2.54193); (-2.50016); (-2.45829); (-2.41632); (-2.37423); (-2.33203); (-2.28969);
   (-2.24722); (-2.20461); (-2.16184); (-2.1189); (-2.07579); (-2.03249); (-1.98899); (-1.94528); (-1.90135);
   (-1.85719); (-1.81278); (-1.76811); (-1.72316); (-1.67793); (-1.6324); (-1.58656); (-1.54038); (-1.49388);
   (-1.44702); (-1.39979); (-1.3522); (-1.30422); (-1.25586); (-1.20709); (-1.15793); (-1.10837); (-1.0584);
   (-1.00804); (-0.957285); (-0.906151); (-0.854652); (-0.802808); (-0.750643); (-0.698187); (-0.645477);
   (-0.592554); (-0.539464); (-0.486263); (-0.433008); (-0.379766); (-0.326607); (-0.273607); (-0.220845);
   (-0.168406); (-0.116376); (-0.0648452); (-0.0139034); 0.0363582; 0.0858493; 0.134481; 0.182165; 0.228819;
   0.274362; 0.318718; 0.361816; 0.403592; 0.443986; 0.482945; 0.520423; 0.556381; 0.590788; 0.623618;
   0.654856; 0.68449; 0.71252; 0.73895; 0.763791; 0.787064; 0.808793; 0.82901; 0.847751; 0.865059; 0.88098;
   0.895562; 0.908859; 0.920924; 0.931812; 0.94158; 0.950281; 0.95797; 0.964697; 0.97051; 0.975455; 0.97957;
   0.98289; 0.985444; 0.987255; 0.988338; 0.988702; 0.988347; 0.987265; 0.98544; 0.982844; 0.979443;
   0.975188; 0.970023; 0.963879; 0.956675; 0.948319; 0.938703; 0.927711; 0.91521; 0.901057; 0.885094;
   0.867154; 0.847056; 0.824615; 0.799636; 0.771922; 0.741278; 0.707513; 0.670451; 0.629933; 0.585829;
   0.538042; 0.486523; 0.431275; 0.372364; 0.309918; 0.244138; 0.175286; 0.10368; 0.0296737; (-0.0463599);
   (-0.124063); (-0.203111); (-0.283239); (-0.364245); (-0.445992); (-0.528381); (-0.611339); (-0.694786);
   (-0.778629); (-0.862762); (-0.947098); (-1.03157); (-1.11611); (-1.20068); (-1.28526); (-1.3698);
   (-1.45426); (-1.53865); (-1.62289); (-1.70707); (-1.79107); (-1.87496); (-1.95874); (-2.06715);
   (-2.14802); (-2.2289); (-2.30979); (-2.39069); (-2.4716); (-2.55251); (-2.63343); (-2.71436); (-2.79529);
   (-2.87623); (-2.95717); (-3.03811); (-3.11906); (-3.20001); (-3.28097); (-3.36193); (-3.44289);
   (-3.52385); (-3.60482); (-3.68579); (-3.76676); (-3.84773); (-3.92871); (-4.00968); (-4.09066);
   (-4.17164); (-4.25262); (-4.3336); (-4.41458); (-4.49557); (-4.57655); (-4.65754); (-4.73852); (-4.81951);
   (-4.9005)];
  [(-2.96992); (-2.92883); (-2.88768); (-2.84649); (-2.80523); (-2.76392); (-2.72254); (-2.6811); (-2.63958);
   (-2.59798); (-2.5563); (-2.51452); (-2.47265); (-2.43067); (-2.38858); (-2.34636); (-2.30402); (-2.26154);
   (-2.21892); (-2.17613); (-2.13318); (-2.09006); (-2.04674); (-2.00322); (-1.9595); (-1.91554); (-1.87135);
   (-1.82691); (-1.7822); (-1.73722); (-1.69194); (-1.64636); (-1.60046); (-1.55423); (-1.50765); (-1.46071);
   (-1.4134); (-1.36571); (-1.31763); (-1.26914); (-1.22025); (-1.17094); (-1.12121); (-1.07107); (-1.02051);
   (-0.969539); (-0.918168); (-0.866411); (-0.814284); (-0.761811); (-0.709021); (-0.655947); (-0.60263);
   (-0.549116); (-0.495458); (-0.441713); (-0.387947); (-0.334229); (-0.280636); (-0.227248); (-0.17415);
   (-0.121429); (-0.0691766); (-0.0174856); 0.0335508; 0.0838391; 0.133287; 0.181804; 0.229302; 0.275698;
   0.320911; 0.364867; 0.407495; 0.448734; 0.488526; 0.526823; 0.56358; 0.598764; 0.632347; 0.66431;
   0.694641; 0.723336; 0.750397; 0.775838; 0.799674; 0.821932; 0.842643; 0.861842; 0.879573; 0.895882;
   0.910819; 0.924437; 0.936791; 0.947937; 0.957932; 0.966832; 0.97469; 0.981559; 0.987488; 0.992522;
   0.996702; 1.00006; 1.00263; 1.00443; 1.00548; 1.00579; 1.00535; 1.00416; 1.0022; 0.999443; 0.995851;
   0.991375; 0.985958; 0.979528; 0.972003; 0.963287; 0.953274; 0.941842; 0.928858; 0.914177; 0.89764;
   0.879077; 0.858309; 0.835148; 0.809402; 0.780875; 0.749375; 0.714715; 0.676724; 0.635251; 0.590173;
   0.541404; 0.488908; 0.4327; 0.372858; 0.309528; 0.24292; 0.173309; 0.10102; 0.0264107; (-0.0501463);
   (-0.128299); (-0.207735); (-0.288199); (-0.369503); (-0.451519); (-0.534159); (-0.617348); (-0.701004);
   (-0.785033); (-0.86933); (-0.953811); (-1.03841); (-1.12307); (-1.20775); (-1.29242); (-1.37703);
   (-1.46157); (-1.54601); (-1.63034); (-1.71457); (-1.79862); (-1.88254); (-1.96637); (-2.07516);
   (-2.15603); (-2.23691); (-2.3178); (-2.3987); (-2.4796); (-2.56052); (-2.64144); (-2.72236); (-2.80329);
   (-2.88423); (-2.96517); (-3.04612); (-3.12706); (-3.20802); (-3.28897); (-3.36993); (-3.45089);
   (-3.53186); (-3.61282); (-3.69379); (-3.77476); (-3.85574); (-3.93671); (-4.01769); (-4.09867);
   (-4.17965); (-4.26063); (-4.34161); (-4.42259); (-4.50357); (-4.58456); (-4.66554); (-4.74653);
   (-4.82752); (-4.9085)];
  [(-2.98411); (-2.94301); (-2.90186); (-2.86066); (-2.81941); (-2.7781); (-2.73672); (-2.69527); (-2.65375);
   (-2.61215); (-2.57046); (-2.52868); (-2.4868); (-2.44482); (-2.40272); (-2.3605); (-2.31815); (-2.27567);
   (-2.23303); (-2.19024); (-2.14728); (-2.10414); (-2.0608); (-2.01727); (-1.97352); (-1.92954); (-1.88533);
   (-1.84086); (-1.79612); (-1.75109); (-1.70578); (-1.66015); (-1.61419); (-1.5679); (-1.52126); (-1.47424);
   (-1.42685); (-1.37906); (-1.33088); (-1.28228); (-1.23325); (-1.1838); (-1.13392); (-1.08361); (-1.03286);
   (-0.981677); (-0.930077); (-0.878068); (-0.825666); (-0.772894); (-0.719777); (-0.666348); (-0.612647);
   (-0.558718); (-0.504613); (-0.450387); (-0.396107); (-0.341841); (-0.287665); (-0.23366); (-0.179912);
   (-0.126509); (-0.0735432); (-0.0211103); 0.0306942; 0.0817743; 0.132034; 0.18138; 0.229721; 0.276968;
   0.323038; 0.367852; 0.411336; 0.453423; 0.494053; 0.533172; 0.570734; 0.606702; 0.641045; 0.673741;
   0.704776; 0.734143; 0.761846; 0.787893; 0.812302; 0.835097; 0.856309; 0.875976; 0.894138; 0.910843;
   0.926143; 0.94009; 0.952741; 0.964153; 0.974383; 0.983488; 0.991524; 0.998544; 1.0046; 1.00973; 1.01398;
   1.01739; 1.01999; 1.02179; 1.02283; 1.02309; 1.02259; 1.02131; 1.01924; 1.01634; 1.01259; 1.00792;
   1.00229; 0.995611; 0.98781; 0.978787; 0.968434; 0.956628; 0.943235; 0.928107; 0.911085; 0.892001;
   0.870673; 0.846915; 0.820534; 0.791339; 0.759138; 0.72375; 0.685007; 0.642763; 0.596905; 0.547355;
   0.494082; 0.437115; 0.376541; 0.312515; 0.245257; 0.175048; 0.102221; 0.027134; (-0.0498422); (-0.128361);
   (-0.208116); (-0.288862); (-0.370422); (-0.452672); (-0.53553); (-0.61892); (-0.702761); (-0.786958);
   (-0.871406); (-0.956023); (-1.04075); (-1.12552); (-1.21031); (-1.29507); (-1.37977); (-1.46438);
   (-1.5489); (-1.6333); (-1.71756); (-1.80169); (-1.88565); (-1.96955); (-2.07885); (-2.15972); (-2.2406);
   (-2.32149); (-2.40239); (-2.4833); (-2.56421); (-2.64513); (-2.72605); (-2.80699); (-2.88792); (-2.96886);
   (-3.04981); (-3.13076); (-3.21171); (-3.29266); (-3.37362); (-3.45458); (-3.53555); (-3.61652);
   (-3.69748); (-3.77846); (-3.85943); (-3.9404); (-4.02138); (-4.10236); (-4.18334); (-4.26432); (-4.3453);
   (-4.42628); (-4.50727); (-4.58825); (-4.66924); (-4.75022); (-4.83121); (-4.9122)];
  [(-2.99809); (-2.95699); (-2.91584); (-2.87465); (-2.83339); (-2.79208); (-2.7507); (-2.70925); (-2.66772);
   (-2.62612); (-2.58443); (-2.54265); (-2.50077); (-2.45878); (-2.41667); (-2.37445); (-2.3321); (-2.2896);
   (-2.24696); (-2.20415); (-2.16118); (-2.11803); (-2.07468); (-2.03113); (-1.98736); (-1.94336);
   (-1.89912); (-1.85462); (-1.80985); (-1.7648); (-1.71944); (-1.67376); (-1.62776); (-1.58141); (-1.5347);
   (-1.48762); (-1.44014); (-1.39227); (-1.34398); (-1.29527); (-1.24612); (-1.19654); (-1.1465); (-1.09602);
   (-1.04509); (-0.993705); (-0.941882); (-0.889629); (-0.83696); (-0.783895); (-0.73046); (-0.676686);
   (-0.62261); (-0.568276); (-0.513732); (-0.459037); (-0.404253); (-0.349449); (-0.2947); (-0.240089);
   (-0.185699); (-0.131623); (-0.0779535); (-0.0247869); 0.0277784; 0.0796437; 0.13071; 0.180881; 0.23006;
   0.278157; 0.325082; 0.370753; 0.415093; 0.45803; 0.4995; 0.539446; 0.577817; 0.614573; 0.649681; 0.683115;
   0.714859; 0.744905; 0.773254; 0.799914; 0.8249; 0.848237; 0.869956; 0.890092; 0.908689; 0.925794;
   0.941458; 0.955736; 0.968684; 0.98036; 0.990824; 1.00013; 1.00834; 1.01551; 1.02168; 1.0269; 1.03122;
   1.03467; 1.03728; 1.03908; 1.04007; 1.04028; 1.03969; 1.0383; 1.03609; 1.03303; 1.02908; 1.02419; 1.0183;
   1.01133; 1.00321; 0.993826; 0.983075; 0.970831; 0.956959; 0.941309; 0.923723; 0.904028; 0.882047; 0.85759;
   0.830469; 0.800492; 0.767471; 0.731231; 0.691607; 0.648463; 0.601692; 0.551227; 0.497049; 0.439196;
   0.37777; 0.312937; 0.244929; 0.174036; 0.100596; 0.0249699; (-0.0524753); (-0.131398); (-0.211503);
   (-0.292557); (-0.374392); (-0.456895); (-0.539985); (-0.623591); (-0.707627); (-0.791998); (-0.876602);
   (-0.961357); (-1.04621); (-1.13109); (-1.21598); (-1.30083); (-1.38561); (-1.47031); (-1.55489);
   (-1.63934); (-1.72366); (-1.80785); (-1.89185); (-2.00463); (-2.08549); (-2.16636); (-2.24725);
   (-2.32814); (-2.40904); (-2.48994); (-2.57085); (-2.65177); (-2.7327); (-2.81363); (-2.89457); (-2.97551);
   (-3.05645); (-3.1374); (-3.21835); (-3.29931); (-3.38027); (-3.46123); (-3.54219); (-3.62316); (-3.70413);
   (-3.7851); (-3.86607); (-3.94705); (-4.02802); (-4.109); (-4.18998); (-4.27096); (-4.35194); (-4.43293);
   (-4.51391); (-4.59489); (-4.67588); (-4.75687); (-4.83785); (-4.91884)];
  [(-3.01188); (-2.97078); (-2.92964); (-2.88844); (-2.84718); (-2.80587); (-2.76448); (-2.72303);
   (-2.68151); (-2.6399); (-2.59821); (-2.55642); (-2.51454); (-2.47255); (-2.43044); (-2.38821); (-2.34585);
   (-2.30335); (-2.2607); (-2.21789); (-2.1749); (-2.13174); (-2.08838); (-2.04481); (-2.00103); (-1.95701);
   (-1.91274); (-1.86822); (-1.82342); (-1.77833); (-1.73293); (-1.68722); (-1.64116); (-1.59476);
   (-1.54799); (-1.50083); (-1.45328); (-1.40532); (-1.35694); (-1.30812); (-1.25886); (-1.20914);
   (-1.15896); (-1.10832); (-1.0572); (-1.00563); (-0.953586); (-0.901096); (-0.848167); (-0.794818);
   (-0.741073); (-0.686962); (-0.632519); (-0.577788); (-0.522817); (-0.467661); (-0.412382); (-0.35705);
   (-0.301739); (-0.24653); (-0.19151); (-0.136769); (-0.0824035); (-0.0285109); 0.0248083; 0.0774527;
   0.129321; 0.180312; 0.230327; 0.27927; 0.32705; 0.37358; 0.418777; 0.462566; 0.50488; 0.545656; 0.584841;
   0.622391; 0.65827; 0.692449; 0.724909; 0.755641; 0.784644; 0.811923; 0.837495; 0.861381; 0.883613;
   0.904227; 0.923266; 0.940776; 0.956811; 0.971425; 0.984676; 0.996622; 1.00732; 1.01684; 1.02523; 1.03255;
   1.03884; 1.04416; 1.04855; 1.05204; 1.05467; 1.05646; 1.05743; 1.05758; 1.05691; 1.05542; 1.05307;
   1.04986; 1.04572; 1.04062; 1.03449; 1.02725; 1.01883; 1.0091; 0.99798; 0.985327; 0.971008; 0.954873;
   0.936762; 0.916504; 0.89392; 0.868822; 0.841022; 0.810332; 0.776567; 0.739554; 0.699136; 0.655182;
   0.607594; 0.556312; 0.501328; 0.44269; 0.38051; 0.314966; 0.246297; 0.174801; 0.100821; 0.0247187;
   (-0.0531422); (-0.132426); (-0.212847); (-0.294181); (-0.376269); (-0.459006); (-0.542314); (-0.62612);
   (-0.71034); (-0.794877); (-0.879628); (-0.964516); (-1.04949); (-1.13448); (-1.21947); (-1.30442);
   (-1.38928); (-1.47405); (-1.5587); (-1.64322); (-1.72759); (-1.81183); (-1.89588); (-2.00919); (-2.09005);
   (-2.17092); (-2.2518); (-2.3327); (-2.41359); (-2.4945); (-2.57541); (-2.65633); (-2.73726); (-2.81819);
   (-2.89913); (-2.98007); (-3.06101); (-3.14196); (-3.22291); (-3.30387); (-3.38483); (-3.46579);
   (-3.54675); (-3.62772); (-3.70869); (-3.78966); (-3.87063); (-3.95161); (-4.03258); (-4.11356);
   (-4.19454); (-4.27552); (-4.3565); (-4.43749); (-4.51847); (-4.59945); (-4.68044); (-4.76143); (-4.84241);
   (-4.9234)];
  [(-3.02549); (-2.98439); (-2.94324); (-2.90204); (-2.86079); (-2.81947); (-2.77809); (-2.73664);
   (-2.69511); (-2.6535); (-2.61181); (-2.57002); (-2.52813); (-2.48614); (-2.44403); (-2.40179); (-2.35943);
   (-2.31692); (-2.27426); (-2.23144); (-2.18845); (-2.14527); (-2.1019); (-2.05832); (-2.01452); (-1.97048);
   (-1.92619); (-1.88164); (-1.83682); (-1.79169); (-1.74626); (-1.70051); (-1.65441); (-1.60795);
   (-1.56112); (-1.5139); (-1.46628); (-1.41824); (-1.36976); (-1.32084); (-1.27146); (-1.22162); (-1.1713);
   (-1.1205); (-1.06921); (-1.01744); (-0.965194); (-0.912472); (-0.859291); (-0.805665); (-0.751618);
   (-0.697178); (-0.642378); (-0.587259); (-0.531869); (-0.476262); (-0.420499); (-0.364648); (-0.308784);
   (-0.252988); (-0.197346); (-0.141951); (-0.0868977); (-0.0322871); 0.0217786; 0.0751956; 0.127859;
   0.179666; 0.230513; 0.280301; 0.328935; 0.376322; 0.422377; 0.46702; 0.510179; 0.551789; 0.591792;
   0.630141; 0.666796; 0.701725; 0.734908; 0.766332; 0.795994; 0.823899; 0.850062; 0.874504; 0.897255;
   0.918351; 0.937836; 0.955756; 0.972165; 0.987119; 1.00068; 1.01289; 1.02384; 1.03356; 1.04213; 1.04959;
   1.05601; 1.06142; 1.06588; 1.06941; 1.07206; 1.07383; 1.07476; 1.07485; 1.07409; 1.07249; 1.07; 1.06662;
   1.06229; 1.05696; 1.05057; 1.04304; 1.03429; 1.02421; 1.01269; 0.999606; 0.984816; 0.96817; 0.949507;
   0.928657; 0.905439; 0.879669; 0.851159; 0.819723; 0.78518; 0.747361; 0.706117; 0.661321; 0.612884;
   0.560756; 0.504938; 0.445491; 0.382536; 0.316261; 0.246917; 0.174807; 0.100279; 0.0236952; (-0.0545842);
   (-0.134231); (-0.214969); (-0.296585); (-0.378929); (-0.461902); (-0.545428); (-0.629436); (-0.71384);
   (-0.798539); (-0.883439); (-0.968464); (-1.05355); (-1.13866); (-1.22374); (-1.30878); (-1.39372);
   (-1.47857); (-1.56328); (-1.64786); (-1.73229); (-1.81658); (-1.90066); (-2.01447); (-2.09534);
   (-2.17621); (-2.25709); (-2.33798); (-2.41888); (-2.49979); (-2.5807); (-2.66162); (-2.74254); (-2.82348);
   (-2.90441); (-2.98535); (-3.0663); (-3.14725); (-3.2282); (-3.30915); (-3.39011); (-3.47107); (-3.55204);
   (-3.63301); (-3.71397); (-3.79495); (-3.87592); (-3.95689); (-4.03787); (-4.11885); (-4.19983);
   (-4.28081); (-4.36179); (-4.44277); (-4.52375); (-4.60474); (-4.68572); (-4.76671); (-4.8477); (-4.92869)];
  [(-3.03892); (-2.99782); (-2.95667); (-2.91547); (-2.87421); (-2.83289); (-2.79151); (-2.75006);
   (-2.70853); (-2.66692); (-2.62523); (-2.58344); (-2.54155); (-2.49955); (-2.45743); (-2.41519);
   (-2.37282); (-2.33031); (-2.28765); (-2.24482); (-2.20182); (-2.15863); (-2.11525); (-2.07165);
   (-2.02784); (-1.98378); (-1.93948); (-1.89491); (-1.85005); (-1.8049); (-1.75943); (-1.71364); (-1.6675);
   (-1.62099); (-1.57411); (-1.52683); (-1.47913); (-1.43101); (-1.38245); (-1.33343); (-1.28394);
   (-1.23397); (-1.18352); (-1.13256); (-1.08111); (-1.02916); (-0.976707); (-0.923762); (-0.870334);
   (-0.81644); (-0.762099); (-0.707337); (-0.652189); (-0.596691); (-0.540892); (-0.484843); (-0.428605);
   (-0.372245); (-0.315838); (-0.259464); (-0.203209); (-0.147168); (-0.0914358); (-0.0361153); 0.0186897;
   0.0728728; 0.126327; 0.178945; 0.23062; 0.281251; 0.330736; 0.37898; 0.425894; 0.471392; 0.5154; 0.557847;
   0.598673; 0.637825; 0.675261; 0.710947; 0.744859; 0.776982; 0.80731; 0.835849; 0.862609; 0.887613;
   0.91089; 0.932475; 0.952411; 0.970748; 0.987536; 1.00283; 1.0167; 1.0292; 1.04038; 1.05032; 1.05907;
   1.06668; 1.07322; 1.07873; 1.08325; 1.08683; 1.08949; 1.09126; 1.09215; 1.09218; 1.09134; 1.08961;
   1.08699; 1.08344; 1.07892; 1.07336; 1.06672; 1.05891; 1.04984; 1.03941; 1.0275; 1.01399; 0.998744;
   0.981602; 0.962405; 0.940982; 0.917154; 0.890737; 0.861546; 0.829397; 0.794112; 0.755528; 0.713499;
   0.667908; 0.61867; 0.565746; 0.509147; 0.448943; 0.385264; 0.31831; 0.248338; 0.175658; 0.100622;
   0.0235902; (-0.0550795); (-0.135067); (-0.216103); (-0.297986); (-0.380574); (-0.463772); (-0.547509);
   (-0.63171); (-0.716291); (-0.80115); (-0.886194); (-0.971349); (-1.05656); (-1.14177); (-1.22695);
   (-1.31208); (-1.3971); (-1.48202); (-1.5668); (-1.65145); (-1.73592); (-1.82027); (-1.9044); (-2.01874);
   (-2.0996); (-2.18047); (-2.26135); (-2.34225); (-2.42314); (-2.50405); (-2.58496); (-2.66588); (-2.74681);
   (-2.82774); (-2.90868); (-2.98962); (-3.07056); (-3.15151); (-3.23246); (-3.31342); (-3.39438);
   (-3.47534); (-3.5563); (-3.63727); (-3.71824); (-3.79921); (-3.88018); (-3.96116); (-4.04213); (-4.12311);
   (-4.20409); (-4.28507); (-4.36605); (-4.44704); (-4.52802); (-4.609); (-4.68999); (-4.77098); (-4.85196);
   (-4.93295)];
  [(-3.05217); (-3.01107); (-2.96992); (-2.92872); (-2.88746); (-2.84614); (-2.80476); (-2.76331);
   (-2.72178); (-2.68017); (-2.63847); (-2.59668); (-2.55479); (-2.51279); (-2.47067); (-2.42843);
   (-2.38605); (-2.34353); (-2.30086); (-2.25803); (-2.21502); (-2.17182); (-2.12843); (-2.08483);
   (-2.04099); (-1.99692); (-1.9526); (-1.90801); (-1.86313); (-1.81795); (-1.77245); (-1.72662); (-1.68044);
   (-1.63389); (-1.58695); (-1.53961); (-1.49185); (-1.44365); (-1.39501); (-1.34589); (-1.2963); (-1.24621);
   (-1.19562); (-1.14453); (-1.09291); (-1.04078); (-0.988131); (-0.934969); (-0.881302); (-0.827146);
   (-0.772518); (-0.717445); (-0.661955); (-0.606089); (-0.549889); (-0.493408); (-0.436704); (-0.379846);
   (-0.322905); (-0.265962); (-0.209105); (-0.152427); (-0.096025); (-0.0400029); 0.0155335; 0.0704757;
   0.124714; 0.178137; 0.230637; 0.282106; 0.33244; 0.38154; 0.429312; 0.475667; 0.520524; 0.563811;
   0.605462; 0.645421; 0.683643; 0.72009; 0.754735; 0.787562; 0.818562; 0.847737; 0.8751; 0.90067; 0.924476;
   0.946553; 0.966945; 0.985699; 1.00287; 1.01851; 1.03269; 1.04546; 1.05688; 1.06703; 1.07595; 1.08372;
   1.09037; 1.09596; 1.10055; 1.10415; 1.10681; 1.10856; 1.1094; 1.10934; 1.10839; 1.10653; 1.10374; 1.09999;
   1.09523; 1.08942; 1.08248; 1.07434; 1.0649; 1.05406; 1.0417; 1.02771; 1.01193; 0.994211; 0.974395;
   0.95231; 0.927777; 0.900612; 0.870632; 0.837657; 0.801514; 0.762043; 0.719106; 0.672593; 0.622429;
   0.568585; 0.511084; 0.450007; 0.385498; 0.317767; 0.24708; 0.173757; 0.0981497; 0.0206215; (-0.058477);
   (-0.138834); (-0.220193); (-0.302363); (-0.385211); (-0.46865); (-0.55261); (-0.637015); (-0.721782);
   (-0.806803); (-0.891991); (-0.977275); (-1.0626); (-1.14792); (-1.23319); (-1.31841); (-1.40351);
   (-1.4885); (-1.57333); (-1.65804); (-1.74256); (-1.82696); (-1.91115); (-2.02586); (-2.10673); (-2.1876);
   (-2.26848); (-2.34937); (-2.43027); (-2.51118); (-2.59209); (-2.67301); (-2.75393); (-2.83486); (-2.9158);
   (-2.99674); (-3.07769); (-3.15863); (-3.23959); (-3.32054); (-3.4015); (-3.48246); (-3.56343); (-3.64439);
   (-3.72536); (-3.80633); (-3.88731); (-3.96828); (-4.04926); (-4.13024); (-4.21122); (-4.2922); (-4.37318);
   (-4.45416); (-4.53514); (-4.61613); (-4.69711); (-4.7781); (-4.85909); (-4.94007)];
  [(-3.06524); (-3.02414); (-2.983); (-2.9418); (-2.90054); (-2.85922); (-2.81784); (-2.77638); (-2.73485);
   (-2.69324); (-2.65154); (-2.60975); (-2.56786); (-2.52586); (-2.48374); (-2.44149); (-2.39911);
   (-2.35659); (-2.31392); (-2.27108); (-2.22806); (-2.18486); (-2.14145); (-2.09784); (-2.05399);
   (-2.00991); (-1.96557); (-1.92095); (-1.87605); (-1.83085); (-1.78532); (-1.73946); (-1.69323);
   (-1.64664); (-1.59965); (-1.55226); (-1.50443); (-1.45616); (-1.40743); (-1.35823); (-1.30853);
   (-1.25834); (-1.20762); (-1.15638); (-1.10461); (-1.05231); (-0.999467); (-0.946094); (-0.892196);
   (-0.837785); (-0.782879); (-0.7275); (-0.671678); (-0.61545); (-0.558859); (-0.501954); (-0.444795);
   (-0.387446); (-0.329981); (-0.272479); (-0.215029); (-0.157722); (-0.100659); (-0.0439429); 0.0123178;
   0.0680126; 0.123029; 0.177253; 0.230574; 0.282879; 0.334061; 0.384017; 0.432647; 0.47986; 0.52557; 0.5697;
   0.612181; 0.652953; 0.691967; 0.729182; 0.764567; 0.798105; 0.829784; 0.859605; 0.887579; 0.913724;
   0.938067; 0.960645; 0.981499; 1.00068; 1.01824; 1.03423; 1.04873; 1.06178; 1.07346; 1.08382; 1.09293;
   1.10084; 1.10762; 1.11331; 1.11796; 1.12161; 1.12428; 1.12601; 1.12681; 1.12669; 1.12565; 1.12367;
   1.12074; 1.11681; 1.11186; 1.10581; 1.09861; 1.09018; 1.08042; 1.06922; 1.05648; 1.04206; 1.02582;
   1.00761; 0.987265; 0.964615; 0.939482; 0.911685; 0.881042; 0.847375; 0.810516; 0.77031; 0.726623;
   0.679353; 0.628432; 0.573839; 0.515605; 0.453822; 0.388642; 0.320283; 0.249019; 0.175174; 0.0991023;
   0.0211652; (-0.0582917); (-0.138961); (-0.220598); (-0.303018); (-0.386097); (-0.469751); (-0.55391);
   (-0.638501); (-0.723437); (-0.808611); (-0.893936); (-0.979347); (-1.06478); (-1.15021); (-1.23558);
   (-1.32089); (-1.40606); (-1.49113); (-1.57603); (-1.6608); (-1.74538); (-1.82984); (-1.91406); (-2.02933);
   (-2.11019); (-2.19106); (-2.27194); (-2.35283); (-2.43373); (-2.51464); (-2.59555); (-2.67647); (-2.7574);
   (-2.83833); (-2.91926); (-3.0002); (-3.08115); (-3.1621); (-3.24305); (-3.32401); (-3.40497); (-3.48593);
   (-3.56689); (-3.64786); (-3.72883); (-3.8098); (-3.89077); (-3.97175); (-4.05272); (-4.1337); (-4.21468);
   (-4.29566); (-4.37664); (-4.45762); (-4.53861); (-4.61959); (-4.70058); (-4.78156); (-4.86255); (-4.94354)];
  [(-3.07816); (-3.03706); (-2.99591); (-2.95471); (-2.91345); (-2.87213); (-2.83075); (-2.7893); (-2.74777);
   (-2.70615); (-2.66445); (-2.62266); (-2.58077); (-2.53876); (-2.49664); (-2.45439); (-2.41201);
   (-2.36949); (-2.32681); (-2.28396); (-2.24094); (-2.19773); (-2.15432); (-2.11069); (-2.06684);
   (-2.02274); (-1.97838); (-1.93375); (-1.88883); (-1.8436); (-1.79804); (-1.75215); (-1.70589); (-1.65925);
   (-1.61222); (-1.56477); (-1.51688); (-1.46855); (-1.41974); (-1.37045); (-1.32066); (-1.27035);
   (-1.21951); (-1.16814); (-1.11622); (-1.06375); (-1.01072); (-0.957144); (-0.90302); (-0.848362);
   (-0.793184); (-0.737508); (-0.681363); (-0.624782); (-0.567808); (-0.510489); (-0.452883); (-0.395054);
   (-0.337074); (-0.279023); (-0.220988); (-0.163063); (-0.105347); (-0.0479454); 0.00903178; 0.065472;
   0.12126; 0.17628; 0.230416; 0.283554; 0.335582; 0.386391; 0.43588; 0.483951; 0.530515; 0.57549; 0.618804;
   0.660392; 0.700201; 0.738188; 0.77432; 0.808573; 0.840937; 0.871409; 0.899998; 0.926722; 0.951608;
   0.974691; 0.996012; 1.01562; 1.03357; 1.04992; 1.06473; 1.07807; 1.08999; 1.10057; 1.10986; 1.11793;
   1.12483; 1.13061; 1.13532; 1.139; 1.14168; 1.14339; 1.14414; 1.14394; 1.14279; 1.14068; 1.13758; 1.13346;
   1.12829; 1.12199; 1.1145; 1.10575; 1.09563; 1.08405; 1.07089; 1.056; 1.03926; 1.02051; 0.999592; 0.976327;
   0.950543; 0.922059; 0.890696; 0.85628; 0.818644; 0.777641; 0.733142; 0.685052; 0.633312; 0.57791;
   0.518887; 0.456344; 0.390444; 0.321414; 0.249536; 0.175138; 0.0985765; 0.0202112; (-0.059618);
   (-0.140612); (-0.222535); (-0.305214); (-0.388531); (-0.472405); (-0.55677); (-0.641549); (-0.726655);
   (-0.811983); (-0.897446); (-0.982982); (-1.06853); (-1.15406); (-1.23953); (-1.32491); (-1.41017);
   (-1.49531); (-1.58027); (-1.6651); (-1.74973); (-1.83425); (-1.91851); (-2.03425); (-2.11511); (-2.19599);
   (-2.27687); (-2.35776); (-2.43866); (-2.51956); (-2.60048); (-2.6814); (-2.76232); (-2.84325); (-2.92419);
   (-3.00513); (-3.08607); (-3.16702); (-3.24798); (-3.32893); (-3.40989); (-3.49085); (-3.57182);
   (-3.65278); (-3.73375); (-3.81472); (-3.8957); (-3.97667); (-4.05765); (-4.13862); (-4.2196); (-4.30058);
   (-4.38157); (-4.46255); (-4.54353); (-4.62452); (-4.7055); (-4.78649); (-4.86748); (-4.94846)];
  [(-3.0909); (-3.0498); (-3.00866); (-2.96746); (-2.9262); (-2.88488); (-2.8435); (-2.80205); (-2.76052);
   (-2.7189); (-2.6772); (-2.63541); (-2.59351); (-2.55151); (-2.50939); (-2.46714); (-2.42475); (-2.38222);
   (-2.33954); (-2.29669); (-2.25366); (-2.21045); (-2.16703); (-2.12339); (-2.07953); (-2.03542);
   (-1.99105); (-1.9464); (-1.90146); (-1.85621); (-1.81063); (-1.7647); (-1.71841); (-1.67173); (-1.62465);
   (-1.57715); (-1.52921); (-1.48081); (-1.43193); (-1.38255); (-1.33267); (-1.28226); (-1.2313); (-1.1798);
   (-1.12773); (-1.0751); (-1.02189); (-0.968119); (-0.913778); (-0.858879); (-0.803437); (-0.747472);
   (-0.69101); (-0.634085); (-0.576737); (-0.519013); (-0.460969); (-0.402669); (-0.344184); (-0.285592);
   (-0.226982); (-0.168447); (-0.110087); (-0.0520082); 0.0056778; 0.0628566; 0.119411; 0.175221; 0.230169;
   0.284135; 0.337006; 0.388668; 0.439015; 0.487945; 0.535365; 0.581188; 0.625338; 0.667747; 0.708357;
   0.747122; 0.784005; 0.818981; 0.852036; 0.883166; 0.912378; 0.939689; 0.965124; 0.988717; 1.01051;
   1.03056; 1.0489; 1.06562; 1.08075; 1.09438; 1.10655; 1.11735; 1.12683; 1.13506; 1.14208; 1.14795; 1.15273;
   1.15645; 1.15914; 1.16082; 1.16153; 1.16126; 1.16001; 1.15777; 1.15452; 1.15022; 1.14483; 1.1383; 1.13054;
   1.12148; 1.11104; 1.09909; 1.08552; 1.07021; 1.053; 1.03375; 1.01229; 0.988455; 0.962068; 0.932951;
   0.900928; 0.865825; 0.827482; 0.785753; 0.740519; 0.691689; 0.639212; 0.583083; 0.523353; 0.460132;
   0.39359; 0.323962; 0.251536; 0.176645; 0.0996444; 0.0208936; (-0.0592732); (-0.140564); (-0.222752);
   (-0.305672); (-0.389212); (-0.473294); (-0.557853); (-0.642813); (-0.728082); (-0.813559); (-0.899156);
   (-0.984814); (-1.07048); (-1.15611); (-1.24168); (-1.32714); (-1.41248); (-1.49769); (-1.58272);
   (-1.66762); (-1.75229); (-1.83685); (-1.92117); (-2.03746); (-2.11833); (-2.1992); (-2.28008); (-2.36097);
   (-2.44187); (-2.52278); (-2.60369); (-2.68461); (-2.76553); (-2.84647); (-2.9274); (-3.00834); (-3.08929);
   (-3.17024); (-3.25119); (-3.33214); (-3.4131); (-3.49406); (-3.57503); (-3.656); (-3.73696); (-3.81794);
   (-3.89891); (-3.97988); (-4.06086); (-4.14184); (-4.22282); (-4.3038); (-4.38478); (-4.46576); (-4.54674);
   (-4.62773); (-4.70871); (-4.7897); (-4.87069); (-4.95168)];
  [(-3.10349); (-3.06239); (-3.02125); (-2.98005); (-2.93879); (-2.89747); (-2.85609); (-2.81464);
   (-2.77311); (-2.7315); (-2.6898); (-2.648); (-2.60611); (-2.5641); (-2.52198); (-2.47973); (-2.43734);
   (-2.39481); (-2.35212); (-2.30927); (-2.26624); (-2.22302); (-2.17959); (-2.13595); (-2.09207);
   (-2.04795); (-2.00357); (-1.9589); (-1.91395); (-1.86867); (-1.82307); (-1.77712); (-1.73079); (-1.68408);
   (-1.63696); (-1.58941); (-1.54141); (-1.49295); (-1.444); (-1.39455); (-1.34457); (-1.29406); (-1.243);
   (-1.19137); (-1.13916); (-1.08637); (-1.03299); (-0.979026); (-0.924473); (-0.86934); (-0.813642);
   (-0.757396); (-0.700626); (-0.643366); (-0.585652); (-0.527532); (-0.46906); (-0.410298); (-0.351317);
   (-0.292195); (-0.23302); (-0.173884); (-0.114889); (-0.0561421); 0.00224444; 0.0601539; 0.117467;
   0.174061; 0.229815; 0.284606; 0.338316; 0.390828; 0.442031; 0.491819; 0.540095; 0.586767; 0.631755;
   0.674987; 0.716401; 0.755947; 0.793585; 0.829288; 0.863038; 0.89483; 0.924668; 0.952569; 0.978556;
   1.00266; 1.02493; 1.04541; 1.06416; 1.08123; 1.09669; 1.1106; 1.12303; 1.13404; 1.1437; 1.15207; 1.15921;
   1.16517; 1.17; 1.17374; 1.17643; 1.17808; 1.17872; 1.17835; 1.17698; 1.17459; 1.17115; 1.16664; 1.161;
   1.15418; 1.14611; 1.1367; 1.12586; 1.11349; 1.09946; 1.08364; 1.06589; 1.04606; 1.02398; 0.999483;
   0.972397; 0.942545; 0.909752; 0.87385; 0.834682; 0.792109; 0.746016; 0.696323; 0.642985; 0.58601;
   0.525457; 0.461448; 0.394163; 0.323846; 0.250794; 0.175343; 0.0978484; 0.018669; (-0.0618689);
   (-0.143483); (-0.225956); (-0.309135); (-0.392913); (-0.477217); (-0.561982); (-0.64713); (-0.732568);
   (-0.818195); (-0.903928); (-0.989705); (-1.07548); (-1.16121); (-1.24687); (-1.33242); (-1.41782);
   (-1.5031); (-1.58818); (-1.67315); (-1.75786); (-1.84246); (-1.92685); (-2.04354); (-2.1244); (-2.20527);
   (-2.28616); (-2.36705); (-2.44795); (-2.52885); (-2.60976); (-2.69068); (-2.77161); (-2.85254);
   (-2.93348); (-3.01442); (-3.09536); (-3.17631); (-3.25726); (-3.33822); (-3.41918); (-3.50014); (-3.5811);
   (-3.66207); (-3.74304); (-3.82401); (-3.90498); (-3.98596); (-4.06693); (-4.14791); (-4.22889);
   (-4.30987); (-4.39085); (-4.47184); (-4.55282); (-4.6338); (-4.71479); (-4.79578); (-4.87676); (-4.95775)];
  [(-3.11593); (-3.07483); (-3.03368); (-2.99248); (-2.95123); (-2.90991); (-2.86853); (-2.82708);
   (-2.78555); (-2.74394); (-2.70224); (-2.66044); (-2.61855); (-2.57654); (-2.53442); (-2.49216);
   (-2.44978); (-2.40725); (-2.36456); (-2.3217); (-2.27867); (-2.23544); (-2.19201); (-2.14836); (-2.10447);
   (-2.06034); (-2.01595); (-1.97127); (-1.9263); (-1.88101); (-1.83538); (-1.7894); (-1.74305); (-1.6963);
   (-1.64914); (-1.60155); (-1.5535); (-1.50498); (-1.45596); (-1.40643); (-1.35637); (-1.30577); (-1.25459);
   (-1.20284); (-1.1505); (-1.09756); (-1.04402); (-0.989866); (-0.935108); (-0.879749); (-0.823802);
   (-0.767282); (-0.710213); (-0.652625); (-0.594555); (-0.536048); (-0.477157); (-0.417942); (-0.358475);
   (-0.298832); (-0.2391); (-0.179373); (-0.119753); (-0.0603461); (-0.00126729); 0.0573654; 0.11543;
   0.172802; 0.229356; 0.284968; 0.339514; 0.392873; 0.444931; 0.495578; 0.54471; 0.592233; 0.638061;
   0.682119; 0.72434; 0.764672; 0.80307; 0.839504; 0.873955; 0.906414; 0.936884; 0.965379; 0.991923; 1.01655;
   1.0393; 1.06022; 1.07937; 1.0968; 1.11259; 1.12678; 1.13946; 1.15069; 1.16053; 1.16905; 1.17631; 1.18235;
   1.18723; 1.19099; 1.19366; 1.19527; 1.19584; 1.19537; 1.19387; 1.19131; 1.18768; 1.18294; 1.17705;
   1.16993; 1.16154; 1.15177; 1.14053; 1.12772; 1.11321; 1.09688; 1.07858; 1.05815; 1.03544; 1.01027;
   0.982472; 0.951874; 0.918302; 0.881592; 0.841592; 0.798168; 0.751213; 0.700653; 0.646455; 0.588634;
   0.527261; 0.462468; 0.394446; 0.323449; 0.249779; 0.173778; 0.0958002; 0.0162014; (-0.0646994);
   (-0.146631); (-0.229384); (-0.312817); (-0.396831); (-0.481355); (-0.566323); (-0.651658); (-0.73726);
   (-0.823035); (-0.9089); (-0.994798); (-1.08068); (-1.1665); (-1.25225); (-1.33788); (-1.42335); (-1.5087);
   (-1.59385); (-1.67885); (-1.76364); (-1.84826); (-1.93269); (-2.04978); (-2.13065); (-2.21152); (-2.2924);
   (-2.37329); (-2.45419); (-2.5351); (-2.61601); (-2.69693); (-2.77785); (-2.85879); (-2.93972); (-3.02066);
   (-3.10161); (-3.18256); (-3.26351); (-3.34446); (-3.42542); (-3.50638); (-3.58735); (-3.66832);
   (-3.74928); (-3.83026); (-3.91123); (-3.9922); (-4.07318); (-4.15416); (-4.23514); (-4.31612); (-4.3971);
   (-4.47808); (-4.55906); (-4.64005); (-4.72103); (-4.80202); (-4.88301); (-4.964)];
  [(-3.12821); (-3.08712); (-3.04597); (-3.00477); (-2.96352); (-2.9222); (-2.88082); (-2.83937); (-2.79784);
   (-2.75623); (-2.71453); (-2.67273); (-2.63084); (-2.58883); (-2.54671); (-2.50446); (-2.46207);
   (-2.41954); (-2.37684); (-2.33399); (-2.29095); (-2.24772); (-2.20428); (-2.16063); (-2.11674); (-2.0726);
   (-2.02819); (-1.9835); (-1.93851); (-1.8932); (-1.84756); (-1.80156); (-1.75518); (-1.7084); (-1.6612);
   (-1.61357); (-1.56547); (-1.51689); (-1.46782); (-1.41822); (-1.36808); (-1.31738); (-1.2661); (-1.21423);
   (-1.16176); (-1.10868); (-1.05497); (-1.00064); (-0.945687); (-0.890109); (-0.833919); (-0.777133);
   (-0.719772); (-0.661865); (-0.603447); (-0.544562); (-0.48526); (-0.425603); (-0.365658); (-0.305504);
   (-0.245225); (-0.184916); (-0.124678); (-0.0646206); (-0.00485751); 0.0544909; 0.113301; 0.171444;
   0.228795; 0.285222; 0.340601; 0.394806; 0.447717; 0.499222; 0.549211; 0.597587; 0.644259; 0.689146;
   0.732179; 0.773301; 0.812465; 0.849636; 0.884794; 0.917926; 0.949034; 0.978131; 1.00524; 1.03039; 1.05363;
   1.07499; 1.09455; 1.11235; 1.12847; 1.14296; 1.15589; 1.16734; 1.17737; 1.18604; 1.19341; 1.19954;
   1.20448; 1.20826; 1.21093; 1.2125; 1.21301; 1.21245; 1.21082; 1.20811; 1.20429; 1.19934; 1.19319; 1.1858;
   1.17709; 1.16698; 1.15536; 1.14214; 1.12719; 1.11037; 1.09154; 1.07056; 1.04725; 1.02146; 0.993005;
   0.961717; 0.927428; 0.889975; 0.849213; 0.805012; 0.757271; 0.705925; 0.650947; 0.592362; 0.530251;
   0.464755; 0.396072; 0.324465; 0.250242; 0.173746; 0.0953337; 0.015355; (-0.0658767); (-0.148099);
   (-0.231114); (-0.314786); (-0.399022); (-0.483754); (-0.568915); (-0.654426); (-0.740188); (-0.826107);
   (-0.9121); (-0.998116); (-1.08411); (-1.17003); (-1.25587); (-1.34158); (-1.42713); (-1.51254);
   (-1.59775); (-1.6828); (-1.76764); (-1.85231); (-1.93679); (-2.05435); (-2.13521); (-2.21608); (-2.29696);
   (-2.37785); (-2.45875); (-2.53966); (-2.62057); (-2.70149); (-2.78242); (-2.86335); (-2.94428);
   (-3.02522); (-3.10617); (-3.18712); (-3.26807); (-3.34903); (-3.42999); (-3.51095); (-3.59191);
   (-3.67288); (-3.75385); (-3.83482); (-3.91579); (-3.99677); (-4.07774); (-4.15872); (-4.2397); (-4.32068);
   (-4.40166); (-4.48264); (-4.56363); (-4.64461); (-4.7256); (-4.80658); (-4.88757); (-4.96856)];
  [(-3.14035); (-3.09925); (-3.05811); (-3.01691); (-2.97566); (-2.93434); (-2.89296); (-2.85151);
   (-2.80998); (-2.76837); (-2.72667); (-2.68488); (-2.64299); (-2.60098); (-2.55886); (-2.51661);
   (-2.47422); (-2.43168); (-2.38899); (-2.34613); (-2.30309); (-2.25986); (-2.21642); (-2.17276);
   (-2.12886); (-2.08472); (-2.0403); (-1.9956); (-1.9506); (-1.90528); (-1.85961); (-1.81359); (-1.76718);
   (-1.72038); (-1.67315); (-1.62547); (-1.57733); (-1.5287); (-1.47956); (-1.4299); (-1.37968); (-1.32889);
   (-1.27752); (-1.22554); (-1.17295); (-1.11973); (-1.06586); (-1.01136); (-0.956212); (-0.900421);
   (-0.843997); (-0.786952); (-0.729308); (-0.67109); (-0.612332); (-0.553077); (-0.493374); (-0.433283);
   (-0.372871); (-0.312214); (-0.251398); (-0.190516); (-0.12967); (-0.0689693); (-0.00852992); 0.0515267;
   0.111075; 0.169984; 0.228125; 0.285364; 0.341572; 0.39662; 0.450384; 0.502746; 0.553594; 0.602824;
   0.650341; 0.696061; 0.739911; 0.781828; 0.821763; 0.859678; 0.895548; 0.92936; 0.961113; 0.990818; 1.0185;
   1.04418; 1.06791; 1.08973; 1.1097; 1.12788; 1.14433; 1.15912; 1.17231; 1.18399; 1.19421; 1.20303; 1.21053;
   1.21675; 1.22175; 1.22556; 1.22823; 1.22977; 1.23022; 1.22957; 1.22782; 1.22497; 1.22098; 1.21582;
   1.20945; 1.20179; 1.19279; 1.18235; 1.17039; 1.15677; 1.1414; 1.12413; 1.10483; 1.08333; 1.05948; 1.03311;
   1.00405; 0.972129; 0.937186; 0.89906; 0.857608; 0.812706; 0.764259; 0.712208; 0.656534; 0.597268; 0.5345;
   0.468378; 0.399109; 0.32696; 0.252245; 0.175308; 0.0965058; 0.0161842; (-0.0653494); (-0.147841);
   (-0.231097); (-0.314994); (-0.39944); (-0.484369); (-0.569712); (-0.655393); (-0.741309); (-0.827367);
   (-0.913488); (-0.999621); (-1.08572); (-1.17174); (-1.25767); (-1.34346); (-1.4291); (-1.51457);
   (-1.59985); (-1.68496); (-1.76985); (-1.85458); (-1.93911); (-2.0572); (-2.13806); (-2.21893); (-2.29981);
   (-2.38071); (-2.4616); (-2.54251); (-2.62342); (-2.70434); (-2.78527); (-2.8662); (-2.94714); (-3.02808);
   (-3.10902); (-3.18997); (-3.27092); (-3.35188); (-3.43284); (-3.5138); (-3.59476); (-3.67573); (-3.7567);
   (-3.83767); (-3.91864); (-3.99962); (-4.08059); (-4.16157); (-4.24255); (-4.32353); (-4.40451); (-4.4855);
   (-4.56648); (-4.64746); (-4.72845); (-4.80944); (-4.89042); (-4.97141)];
  [(-3.15234); (-3.11125); (-3.0701); (-3.02891); (-2.98765); (-2.94634); (-2.90496); (-2.86351); (-2.82199);
   (-2.78038); (-2.73868); (-2.69689); (-2.65499); (-2.61299); (-2.57087); (-2.52861); (-2.48623);
   (-2.44369); (-2.401); (-2.35814); (-2.3151); (-2.27186); (-2.22842); (-2.18476); (-2.14086); (-2.0967);
   (-2.05228); (-2.00757); (-1.96256); (-1.91722); (-1.87154); (-1.8255); (-1.77907); (-1.73224); (-1.68498);
   (-1.63726); (-1.58908); (-1.5404); (-1.49121); (-1.44148); (-1.39119); (-1.34032); (-1.28885); (-1.23677);
   (-1.18406); (-1.1307); (-1.07669); (-1.02202); (-0.966687); (-0.91069); (-0.854038); (-0.796743);
   (-0.738822); (-0.680301); (-0.621212); (-0.561596); (-0.501501); (-0.440985); (-0.380114); (-0.318964);
   (-0.25762); (-0.196174); (-0.134728); (-0.0733937); (-0.0122861); 0.0484712; 0.10875; 0.16842; 0.227346;
   0.285393; 0.342426; 0.398315; 0.452931; 0.506151; 0.557858; 0.607943; 0.656309; 0.702866; 0.747536;
   0.790254; 0.830966; 0.869631; 0.90622; 0.94072; 0.973126; 1.00345; 1.0317; 1.05793; 1.08216; 1.10444;
   1.12483; 1.14339; 1.16018; 1.17528; 1.18875; 1.20066; 1.21108; 1.22007; 1.2277; 1.23402; 1.23909; 1.24294;
   1.24562; 1.24716; 1.24756; 1.24684; 1.245; 1.24202; 1.23788; 1.23255; 1.22597; 1.21809; 1.20883; 1.19811;
   1.18583; 1.17189; 1.15615; 1.13849; 1.11877; 1.09683; 1.07252; 1.04566; 1.01609; 0.983649; 0.948162;
   0.909478; 0.867458; 0.821981; 0.772959; 0.720334; 0.664095; 0.604279; 0.540981; 0.474355; 0.404612;
   0.332024; 0.256906; 0.179606; 0.100477; 0.0198643; (-0.0619308); (-0.144659); (-0.228133); (-0.312234);
   (-0.396871); (-0.48198); (-0.567494); (-0.653334); (-0.739398); (-0.825592); (-0.91184); (-0.998091);
   (-1.0843); (-1.17042); (-1.25645); (-1.34233); (-1.42805); (-1.5136); (-1.59895); (-1.68412); (-1.76908);
   (-1.85386); (-1.93845); (-2.0572); (-2.13806); (-2.21894); (-2.29982); (-2.38071); (-2.46161); (-2.54251);
   (-2.62343); (-2.70435); (-2.78527); (-2.8662); (-2.94714); (-3.02808); (-3.10902); (-3.18997); (-3.27093);
   (-3.35188); (-3.43284); (-3.5138); (-3.59477); (-3.67573); (-3.7567); (-3.83767); (-3.91865); (-3.99962);
   (-4.0806); (-4.16157); (-4.24255); (-4.32353); (-4.40452); (-4.4855); (-4.56648); (-4.64747); (-4.72845);
   (-4.80944); (-4.89043); (-4.97141)];
  [(-3.16419); (-3.1231); (-3.08196); (-3.04076); (-2.99951); (-2.9582); (-2.91682); (-2.87537); (-2.83385);
   (-2.79224); (-2.75055); (-2.70876); (-2.66686); (-2.62486); (-2.58274); (-2.54049); (-2.4981); (-2.45557);
   (-2.41288); (-2.37002); (-2.32697); (-2.28374); (-2.24029); (-2.19663); (-2.15272); (-2.10856);
   (-2.06413); (-2.01942); (-1.9744); (-1.92905); (-1.88335); (-1.83729); (-1.79084); (-1.74398); (-1.69669);
   (-1.64895); (-1.60073); (-1.55201); (-1.50276); (-1.45297); (-1.40261); (-1.35166); (-1.30011);
   (-1.24792); (-1.1951); (-1.14161); (-1.08746); (-1.03263); (-0.977116); (-0.920921); (-0.864049);
   (-0.80651); (-0.748322); (-0.689506); (-0.630095); (-0.570127); (-0.509649); (-0.448718); (-0.387398);
   (-0.325765); (-0.263901); (-0.201901); (-0.139867); (-0.077907); (-0.0161403); 0.0453092; 0.106312;
   0.166734; 0.226438; 0.285286; 0.343142; 0.399867; 0.455331; 0.509406; 0.561971; 0.612913; 0.662127;
   0.709522; 0.755015; 0.798536; 0.840028; 0.879446; 0.916759; 0.951949; 0.985012; 1.01595; 1.04479; 1.07156;
   1.09629; 1.11904; 1.13985; 1.15879; 1.17593; 1.19134; 1.20507; 1.21721; 1.22783; 1.23698; 1.24474;
   1.25116; 1.25629; 1.26018; 1.26286; 1.26436; 1.26471; 1.2639; 1.26195; 1.25883; 1.25452; 1.24899; 1.24219;
   1.23405; 1.22451; 1.21348; 1.20086; 1.18654; 1.17041; 1.15232; 1.13215; 1.10972; 1.0849; 1.0575; 1.02737;
   0.994344; 0.958254; 0.918951; 0.876301; 0.830186; 0.780523; 0.727261; 0.670394; 0.609967; 0.54608;
   0.478894; 0.408626; 0.335555; 0.259997; 0.182302; 0.102822; 0.0218981; (-0.0601735); (-0.14315);
   (-0.226853); (-0.311164); (-0.396); (-0.481297); (-0.566986); (-0.652988); (-0.739201); (-0.825532);
   (-0.911905); (-0.998273); (-1.08459); (-1.17081); (-1.25693); (-1.3429); (-1.42869); (-1.51432);
   (-1.59973); (-1.68497); (-1.76998); (-1.85481); (-1.93946); (-2.0588); (-2.13966); (-2.22053); (-2.30142);
   (-2.38231); (-2.46321); (-2.54411); (-2.62503); (-2.70595); (-2.78687); (-2.8678); (-2.94874); (-3.02968);
   (-3.11062); (-3.19157); (-3.27252); (-3.35348); (-3.43444); (-3.5154); (-3.59637); (-3.67733); (-3.7583);
   (-3.83927); (-3.92024); (-4.00122); (-4.0822); (-4.16317); (-4.24415); (-4.32513); (-4.40611); (-4.4871);
   (-4.56808); (-4.64907); (-4.73005); (-4.81104); (-4.89202); (-4.97301)];
  [(-3.17591); (-3.13482); (-3.09368); (-3.05248); (-3.01123); (-2.96992); (-2.92855); (-2.8871); (-2.84558);
   (-2.80397); (-2.76228); (-2.72049); (-2.6786); (-2.6366); (-2.59448); (-2.55223); (-2.50984); (-2.46731);
   (-2.42462); (-2.38176); (-2.33872); (-2.29548); (-2.25204); (-2.20837); (-2.16446); (-2.1203); (-2.07587);
   (-2.03114); (-1.98611); (-1.94075); (-1.89505); (-1.84897); (-1.8025); (-1.75562); (-1.70831); (-1.66053);
   (-1.61227); (-1.56351); (-1.51422); (-1.46437); (-1.41395); (-1.36293); (-1.31129); (-1.25901);
   (-1.20607); (-1.15247); (-1.09818); (-1.04319); (-0.987509); (-0.931124); (-0.87404); (-0.816267);
   (-0.757819); (-0.69872); (-0.638996); (-0.578687); (-0.517838); (-0.456502); (-0.394746); (-0.332641);
   (-0.270272); (-0.207731); (-0.145119); (-0.0825473); (-0.0201343); 0.0419946; 0.103708; 0.16487; 0.225341;
   0.28498; 0.343646; 0.401198; 0.457501; 0.512421; 0.565835; 0.617624; 0.66768; 0.715905; 0.762212;
   0.806528; 0.848791; 0.888953; 0.92698; 0.96285; 0.996557; 1.0281; 1.05751; 1.0848; 1.11002; 1.1332;
   1.15441; 1.17371; 1.19116; 1.20684; 1.2208; 1.23312; 1.24388; 1.25314; 1.26096; 1.2674; 1.27251; 1.27634;
   1.27893; 1.28029; 1.28046; 1.27943; 1.27721; 1.27379; 1.26913; 1.26319; 1.25594; 1.2473; 1.23721; 1.22557;
   1.21229; 1.19725; 1.18034; 1.16141; 1.14033; 1.11694; 1.09108; 1.0626; 1.03132; 0.997086; 0.95974;
   0.919137; 0.87515; 0.827672; 0.776631; 0.721994; 0.663767; 0.602015; 0.536858; 0.468474; 0.397101;
   0.323029; 0.246586; 0.168124; 0.0879938; 0.0065229; (-0.0760073); (-0.159375); (-0.243422); (-0.328041);
   (-0.413163); (-0.498722); (-0.584647); (-0.670849); (-0.757231); (-0.843699); (-0.93019); (-1.01666);
   (-1.10306); (-1.18936); (-1.27553); (-1.36153); (-1.44737); (-1.53301); (-1.61846); (-1.7037); (-1.78875);
   (-1.87354); (-1.95822); (-2.07737); (-2.15823); (-2.23911); (-2.31999); (-2.40088); (-2.48178);
   (-2.56268); (-2.6436); (-2.72452); (-2.80544); (-2.88637); (-2.96731); (-3.04825); (-3.12919); (-3.21014);
   (-3.2911); (-3.37205); (-3.45301); (-3.53397); (-3.61494); (-3.6959); (-3.77687); (-3.85784); (-3.93882);
   (-4.01979); (-4.10077); (-4.18174); (-4.26272); (-4.3437); (-4.42469); (-4.50567); (-4.58665); (-4.66764);
   (-4.74862); (-4.82961); (-4.9106); (-4.99158)];
  [(-3.18749); (-3.1464); (-3.10526); (-3.06407); (-3.02282); (-2.98151); (-2.94014); (-2.89869); (-2.85717);
   (-2.81557); (-2.77388); (-2.73209); (-2.6902); (-2.6482); (-2.60608); (-2.56384); (-2.52146); (-2.47892);
   (-2.43624); (-2.39338); (-2.35034); (-2.3071); (-2.26365); (-2.21999); (-2.17608); (-2.13191); (-2.08748);
   (-2.04275); (-1.99771); (-1.95234); (-1.90663); (-1.86054); (-1.81405); (-1.76715); (-1.71981);
   (-1.67201); (-1.62372); (-1.57492); (-1.52558); (-1.47568); (-1.4252); (-1.37411); (-1.32239); (-1.27002);
   (-1.21698); (-1.16326); (-1.10884); (-1.05371); (-0.997858); (-0.941288); (-0.883999); (-0.825998);
   (-0.767299); (-0.707922); (-0.647894); (-0.587251); (-0.526037); (-0.464306); (-0.402119); (-0.339551);
   (-0.276683); (-0.213607); (-0.150426); (-0.0872482); (-0.0241945); 0.038609; 0.101029; 0.162929; 0.224164;
   0.284593; 0.344069; 0.40245; 0.459594; 0.515366; 0.569635; 0.622279; 0.673185; 0.72225; 0.769384;
   0.814509; 0.857558; 0.89848; 0.937238; 0.973808; 1.00818; 1.04036; 1.07035; 1.09819; 1.12392; 1.14758;
   1.16922; 1.1889; 1.2067; 1.22269; 1.23692; 1.24948; 1.26043; 1.26985; 1.2778; 1.28433; 1.2895; 1.29336;
   1.29594; 1.29727; 1.29737; 1.29625; 1.29391; 1.29033; 1.28549; 1.27935; 1.27186; 1.26296; 1.25257;
   1.24061; 1.22698; 1.21156; 1.19424; 1.17488; 1.15333; 1.12946; 1.10309; 1.07407; 1.04223; 1.00742;
   0.969476; 0.928264; 0.883659; 0.835558; 0.783895; 0.72864; 0.669808; 0.60747; 0.541751; 0.472835;
   0.400968; 0.326441; 0.249586; 0.170756; 0.0902982; 0.00853661; (-0.0742534); (-0.157857); (-0.242121);
   (-0.326944); (-0.412258); (-0.497999); (-0.584094); (-0.670452); (-0.756978); (-0.843578); (-0.930191);
   (-1.01677); (-1.10327); (-1.18967); (-1.27593); (-1.36202); (-1.44793); (-1.53365); (-1.61917);
   (-1.70446); (-1.78957); (-1.87441); (-1.95914); (-2.07887); (-2.15973); (-2.24061); (-2.32149);
   (-2.40238); (-2.48328); (-2.56418); (-2.6451); (-2.72602); (-2.80694); (-2.88787); (-2.96881); (-3.04975);
   (-3.1307); (-3.21164); (-3.2926); (-3.37355); (-3.45451); (-3.53547); (-3.61644); (-3.6974); (-3.77837);
   (-3.85934); (-3.94032); (-4.02129); (-4.10227); (-4.18325); (-4.26422); (-4.34521); (-4.42619);
   (-4.50717); (-4.58815); (-4.66914); (-4.75012); (-4.83111); (-4.9121); (-4.99308)];
  [(-3.19894); (-3.15785); (-3.11672); (-3.07553); (-3.03428); (-2.99297); (-2.9516); (-2.91016); (-2.86864);
   (-2.82704); (-2.78535); (-2.74357); (-2.70168); (-2.65968); (-2.61757); (-2.57532); (-2.53294);
   (-2.49041); (-2.44773); (-2.40487); (-2.36183); (-2.3186); (-2.27515); (-2.23148); (-2.18757); (-2.14341);
   (-2.09897); (-2.05424); (-2.0092); (-1.96382); (-1.9181); (-1.87199); (-1.8255); (-1.77858); (-1.73122);
   (-1.68339); (-1.63507); (-1.58624); (-1.53686); (-1.48691); (-1.43637); (-1.38522); (-1.33342);
   (-1.28097); (-1.22783); (-1.174); (-1.11945); (-1.06418); (-1.00817); (-0.951425); (-0.893939);
   (-0.835718); (-0.776776); (-0.71713); (-0.656807); (-0.595839); (-0.534271); (-0.472154); (-0.409549);
   (-0.346527); (-0.283171); (-0.219572); (-0.15583); (-0.0920576); (-0.0283734); 0.0350948; 0.0982127;
   0.16084; 0.222833; 0.284043; 0.344324; 0.403527; 0.461508; 0.518126; 0.573246; 0.626743; 0.678497;
   0.728402; 0.776362; 0.822295; 0.866131; 0.907815; 0.947306; 0.984576; 1.01961; 1.05242; 1.083; 1.1114;
   1.13763; 1.16176; 1.18383; 1.2039; 1.22204; 1.23833; 1.25283; 1.26561; 1.27675; 1.28632; 1.29438; 1.30099;
   1.3062; 1.31007; 1.31262; 1.3139; 1.31391; 1.31267; 1.31018; 1.30642; 1.30136; 1.29497; 1.2872; 1.27799;
   1.26725; 1.25492; 1.24087; 1.22501; 1.20721; 1.18734; 1.16526; 1.1408; 1.11383; 1.08418; 1.05168; 1.01618;
   0.977533; 0.935598; 0.890255; 0.84141; 0.789002; 0.733008; 0.673453; 0.610413; 0.544023; 0.474477;
   0.402024; 0.326965; 0.249632; 0.170379; 0.089551; 0.00746587; (-0.0756093); (-0.159468); (-0.243966);
   (-0.329008); (-0.414527); (-0.500461); (-0.586732); (-0.673252); (-0.759921); (-0.846652); (-0.933384);
   (-1.02008); (-1.10668); (-1.19316); (-1.27951); (-1.36567); (-1.45165); (-1.53743); (-1.623); (-1.70835);
   (-1.7935); (-1.87841); (-1.96315); (-2.08333); (-2.1642); (-2.24507); (-2.32595); (-2.40684); (-2.48774);
   (-2.56865); (-2.64956); (-2.73048); (-2.8114); (-2.89234); (-2.97327); (-3.05421); (-3.13516); (-3.21611);
   (-3.29706); (-3.37801); (-3.45897); (-3.53993); (-3.6209); (-3.70187); (-3.78283); (-3.86381); (-3.94478);
   (-4.02575); (-4.10673); (-4.18771); (-4.26869); (-4.34967); (-4.43065); (-4.51163); (-4.59261); (-4.6736);
   (-4.75458); (-4.83557); (-4.91656); (-4.99755)];
  [(-3.21027); (-3.16918); (-3.12804); (-3.08686); (-3.04561); (-3.00431); (-2.96294); (-2.9215); (-2.87998);
   (-2.83838); (-2.7967); (-2.75491); (-2.71303); (-2.67104); (-2.62892); (-2.58668); (-2.54431); (-2.50178);
   (-2.4591); (-2.41624); (-2.37321); (-2.32997); (-2.28653); (-2.24286); (-2.19895); (-2.15479); (-2.11035);
   (-2.06562); (-2.02057); (-1.97519); (-1.92946); (-1.88335); (-1.83684); (-1.78991); (-1.74253);
   (-1.69468); (-1.64633); (-1.59747); (-1.54805); (-1.49806); (-1.44747); (-1.39625); (-1.34439);
   (-1.29185); (-1.23863); (-1.18469); (-1.13002); (-1.07461); (-1.01845); (-0.961538); (-0.903861);
   (-0.845429); (-0.786251); (-0.726345); (-0.665735); (-0.604452); (-0.542539); (-0.480045); (-0.41703);
   (-0.353566); (-0.289731); (-0.225618); (-0.161326); (-0.0969679); (-0.0326622); 0.0314621; 0.0952693;
   0.158617; 0.22136; 0.283346; 0.344426; 0.404448; 0.463262; 0.520725; 0.576696; 0.631045; 0.683649;
   0.734396; 0.783186; 0.829932; 0.874559; 0.91701; 0.957239; 0.995216; 1.03093; 1.06437; 1.09555; 1.1245;
   1.15126; 1.17586; 1.19837; 1.21883; 1.23733; 1.25393; 1.2687; 1.28172; 1.29306; 1.30279; 1.31097; 1.31767;
   1.32294; 1.32683; 1.32938; 1.33061; 1.33056; 1.32922; 1.3266; 1.32268; 1.31743; 1.31083; 1.30282; 1.29333;
   1.2823; 1.26964; 1.25524; 1.239; 1.22079; 1.20048; 1.17794; 1.153; 1.12551; 1.09533; 1.06228; 1.02621;
   0.986977; 0.944445; 0.898497; 0.849044; 0.79603; 0.739436; 0.679294; 0.615687; 0.548755; 0.478697;
   0.40577; 0.330275; 0.252548; 0.172944; 0.0918026; 0.00943889; (-0.0738864); (-0.157974); (-0.242684);
   (-0.327925); (-0.413633); (-0.499744); (-0.586181); (-0.672854); (-0.759664); (-0.846525); (-0.933376);
   (-1.02018); (-1.10688); (-1.19347); (-1.2799); (-1.36614); (-1.4522); (-1.53805); (-1.62369); (-1.7091);
   (-1.7943); (-1.87926); (-2.00396); (-2.08481); (-2.16567); (-2.24654); (-2.32743); (-2.40832); (-2.48922);
   (-2.57012); (-2.65103); (-2.73195); (-2.81288); (-2.89381); (-2.97475); (-3.05569); (-3.13663);
   (-3.21758); (-3.29853); (-3.37949); (-3.46045); (-3.54141); (-3.62237); (-3.70334); (-3.78431);
   (-3.86528); (-3.94625); (-4.02723); (-4.10821); (-4.18918); (-4.27016); (-4.35114); (-4.43212);
   (-4.51311); (-4.59409); (-4.67507); (-4.75606); (-4.83705); (-4.91803); (-4.99902)];
  [(-3.22147); (-3.18038); (-3.13925); (-3.09806); (-3.05682); (-3.01552); (-2.97415); (-2.93271); (-2.8912);
   (-2.8496); (-2.80792); (-2.76614); (-2.72426); (-2.68227); (-2.64016); (-2.59792); (-2.55555); (-2.51303);
   (-2.47035); (-2.4275); (-2.38446); (-2.34123); (-2.29779); (-2.25413); (-2.21022); (-2.16606); (-2.12162);
   (-2.07688); (-2.03184); (-1.98645); (-1.94072); (-1.8946); (-1.84808); (-1.80114); (-1.75375); (-1.70588);
   (-1.65751); (-1.60861); (-1.55916); (-1.50913); (-1.45849); (-1.40722); (-1.35529); (-1.30268);
   (-1.24936); (-1.19533); (-1.14055); (-1.08502); (-1.02871); (-0.971632); (-0.913773); (-0.855138);
   (-0.795734); (-0.735577); (-0.67469); (-0.613102); (-0.550854); (-0.487994); (-0.424582); (-0.360685);
   (-0.296384); (-0.231768); (-0.166939); (-0.102006); (-0.0370908); 0.0276781; 0.0921635; 0.156222;
   0.219704; 0.282457; 0.344326; 0.405158; 0.464798; 0.523099; 0.579915; 0.635112; 0.688561; 0.740145;
   0.789761; 0.837316; 0.882732; 0.925947; 0.966911; 1.00559; 1.04197; 1.07605; 1.10783; 1.13733; 1.1646;
   1.18967; 1.2126; 1.23345; 1.25229; 1.26919; 1.28422; 1.29746; 1.30897; 1.31884; 1.32712; 1.33388; 1.33917;
   1.34305; 1.34555; 1.3467; 1.34653; 1.34504; 1.34223; 1.33809; 1.33259; 1.32569; 1.31735; 1.30751; 1.29608;
   1.28298; 1.26811; 1.25135; 1.2326; 1.21171; 1.18854; 1.16294; 1.13477; 1.10386; 1.07005; 1.0332; 0.99316;
   0.949799; 0.903008; 0.852705; 0.79884; 0.741404; 0.680438; 0.616034; 0.548345; 0.477578; 0.403998;
   0.327913; 0.249662; 0.1696; 0.0880625; 0.00535648; (-0.0782688); (-0.162624); (-0.247578); (-0.333047);
   (-0.418969); (-0.505277); (-0.591895); (-0.678729); (-0.76568); (-0.852668); (-0.939637); (-1.02654);
   (-1.11333); (-1.2); (-1.28651); (-1.37281); (-1.45894); (-1.54484); (-1.63052); (-1.71597); (-1.80123);
   (-1.8862); (-2.01124); (-2.09209); (-2.17295); (-2.25382); (-2.3347); (-2.41559); (-2.49649); (-2.5774);
   (-2.65831); (-2.73923); (-2.82016); (-2.90109); (-2.98202); (-3.06296); (-3.14391); (-3.22486);
   (-3.30581); (-3.38677); (-3.46772); (-3.54869); (-3.62965); (-3.71062); (-3.79159); (-3.87256);
   (-3.95353); (-4.0345); (-4.11548); (-4.19646); (-4.27744); (-4.35842); (-4.4394); (-4.52038); (-4.60137);
   (-4.68235); (-4.76334); (-4.84432); (-4.92531); (-5.0063)];
  [(-3.23254); (-3.19146); (-3.15033); (-3.10914); (-3.0679); (-3.0266); (-2.98524); (-2.94381); (-2.90229);
   (-2.8607); (-2.81902); (-2.77725); (-2.73537); (-2.69338); (-2.65128); (-2.60905); (-2.56668); (-2.52416);
   (-2.48148); (-2.43863); (-2.39561); (-2.35238); (-2.30894); (-2.26528); (-2.22138); (-2.17722);
   (-2.13278); (-2.08805); (-2.043); (-1.99761); (-1.95187); (-1.90575); (-1.85923); (-1.81227); (-1.76487);
   (-1.71698); (-1.66859); (-1.61967); (-1.57019); (-1.52012); (-1.46944); (-1.41811); (-1.36613);
   (-1.31345); (-1.26005); (-1.20592); (-1.15104); (-1.09538); (-1.03894); (-0.981706); (-0.923673);
   (-0.864842); (-0.80522); (-0.74482); (-0.683664); (-0.62178); (-0.559206); (-0.49599); (-0.432188);
   (-0.367869); (-0.30311); (-0.238001); (-0.172642); (-0.107144); (-0.0416269); 0.0237791; 0.0889358;
   0.153698; 0.217914; 0.281429; 0.344086; 0.405725; 0.466191; 0.525329; 0.582992; 0.639039; 0.693336;
   0.745764; 0.796213; 0.844585; 0.890799; 0.934789; 0.9765; 1.0159; 1.05296; 1.08768; 1.12007; 1.15015;
   1.17794; 1.20351; 1.22688; 1.24814; 1.26735; 1.28457; 1.29989; 1.31337; 1.32509; 1.33513; 1.34355;
   1.35041; 1.35578; 1.35969; 1.3622; 1.36333; 1.36311; 1.36154; 1.35862; 1.35435; 1.3487; 1.34162; 1.33307;
   1.323; 1.31131; 1.29794; 1.28277; 1.2657; 1.24661; 1.22536; 1.20181; 1.17582; 1.14724; 1.1159; 1.08166;
   1.04436; 1.00386; 0.960034; 0.912777; 0.862007; 0.807679; 0.749789; 0.688379; 0.623546; 0.555447;
   0.484293; 0.41035; 0.33393; 0.255372; 0.17503; 0.093238; 0.0102993; (-0.0735403); (-0.158095);
   (-0.243238); (-0.328888); (-0.414981); (-0.501454); (-0.588226); (-0.675205); (-0.762293); (-0.84941);
   (-0.9365); (-1.02352); (-1.11042); (-1.19718); (-1.28379); (-1.37018); (-1.45639); (-1.54237); (-1.62812);
   (-1.71364); (-1.79896); (-1.88399); (-2.00979); (-2.09064); (-2.17151); (-2.25238); (-2.33326);
   (-2.41415); (-2.49505); (-2.57596); (-2.65687); (-2.73779); (-2.81871); (-2.89964); (-2.98058);
   (-3.06152); (-3.14247); (-3.22341); (-3.30437); (-3.38532); (-3.46628); (-3.54724); (-3.62821);
   (-3.70917); (-3.79014); (-3.87111); (-3.95209); (-4.03306); (-4.11404); (-4.19502); (-4.276); (-4.35698);
   (-4.43796); (-4.51894); (-4.59992); (-4.68091); (-4.76189); (-4.84288); (-4.92387); (-5.00485)];
  [(-3.2435); (-3.20242); (-3.16129); (-3.12011); (-3.07887); (-3.03757); (-2.99621); (-2.95478); (-2.91327);
   (-2.87169); (-2.83001); (-2.78824); (-2.74636); (-2.70438); (-2.66228); (-2.62005); (-2.57769);
   (-2.53517); (-2.4925); (-2.44966); (-2.40664); (-2.36341); (-2.31998); (-2.27633); (-2.23243); (-2.18827);
   (-2.14383); (-2.0991); (-2.05406); (-2.00867); (-1.96293); (-1.91681); (-1.87028); (-1.82332); (-1.7759);
   (-1.728); (-1.6796); (-1.63065); (-1.58114); (-1.53104); (-1.48032); (-1.42895); (-1.37691); (-1.32417);
   (-1.2707); (-1.21648); (-1.1615); (-1.10573); (-1.04915); (-0.991773); (-0.933573); (-0.874556);
   (-0.814725); (-0.754093); (-0.692679); (-0.63051); (-0.567622); (-0.504061); (-0.439883); (-0.375154);
   (-0.309951); (-0.244362); (-0.178488); (-0.112438); (-0.0463338); 0.0196951; 0.085509; 0.150961; 0.215898;
   0.280162; 0.343592; 0.406027; 0.467306; 0.527271; 0.58577; 0.642656; 0.697793; 0.751054; 0.802325;
   0.851506; 0.898508; 0.943262; 0.985711; 1.02581; 1.06355; 1.09891; 1.13189; 1.16252; 1.19083; 1.21686;
   1.24066; 1.2623; 1.28185; 1.29936; 1.31493; 1.32862; 1.34051; 1.35067; 1.35917; 1.36608; 1.37145; 1.37533;
   1.37777; 1.37879; 1.37842; 1.37667; 1.37353; 1.369; 1.36305; 1.35564; 1.34672; 1.33623; 1.3241; 1.31023;
   1.29453; 1.27689; 1.25718; 1.23528; 1.21104; 1.18432; 1.15496; 1.12281; 1.08772; 1.04955; 1.00814;
   0.963396; 0.915199; 0.863481; 0.808206; 0.74938; 0.687056; 0.621344; 0.552412; 0.480481; 0.405829;
   0.328773; 0.249656; 0.168829; 0.0866222; 0.0033262; (-0.080822); (-0.165653); (-0.251049); (-0.336934);
   (-0.423247); (-0.509921); (-0.596875); (-0.684013); (-0.771238); (-0.858474); (-0.945671); (-1.03278);
   (-1.11977); (-1.20661); (-1.29328); (-1.37972); (-1.46598); (-1.552); (-1.6378); (-1.72334); (-1.80869);
   (-1.89374); (-2.01973); (-2.10058); (-2.18144); (-2.26232); (-2.3432); (-2.42409); (-2.50499); (-2.58589);
   (-2.66681); (-2.74773); (-2.82865); (-2.90958); (-2.99052); (-3.07146); (-3.15241); (-3.23335);
   (-3.31431); (-3.39526); (-3.47622); (-3.55718); (-3.63815); (-3.71911); (-3.80008); (-3.88105);
   (-3.96203); (-4.043); (-4.12398); (-4.20496); (-4.28594); (-4.36692); (-4.4479); (-4.52888); (-4.60986);
   (-4.69085); (-4.77183); (-4.85282); (-4.93381); (-5.01479)];
  [(-3.25434); (-3.21326); (-3.17214); (-3.13096); (-3.08972); (-3.04843); (-3.00707); (-2.96564);
   (-2.92414); (-2.88255); (-2.84088); (-2.79911); (-2.75724); (-2.71527); (-2.67317); (-2.63095);
   (-2.58859); (-2.54608); (-2.50341); (-2.46058); (-2.41756); (-2.37434); (-2.33092); (-2.28726);
   (-2.24337); (-2.19922); (-2.15479); (-2.11006); (-2.06502); (-2.01963); (-1.97389); (-1.92777);
   (-1.88124); (-1.83427); (-1.78685); (-1.73894); (-1.69052); (-1.64156); (-1.59203); (-1.5419); (-1.49114);
   (-1.43973); (-1.38764); (-1.33483); (-1.2813); (-1.227); (-1.17192); (-1.11604); (-1.05935); (-1.00183);
   (-0.943469); (-0.884272); (-0.824241); (-0.763385); (-0.701721); (-0.639276); (-0.576083); (-0.512186);
   (-0.44764); (-0.38251); (-0.316872); (-0.250813); (-0.184432); (-0.117839); (-0.0511548); 0.0154897;
   0.0819541; 0.14809; 0.213743; 0.278752; 0.342953; 0.406182; 0.468274; 0.529067; 0.588403; 0.646133;
   0.702115; 0.756216; 0.808319; 0.858318; 0.90612; 0.951652; 0.994852; 1.03568; 1.0741; 1.11011; 1.14371;
   1.17492; 1.20376; 1.23029; 1.25454; 1.2766; 1.29651; 1.31435; 1.33021; 1.34414; 1.35624; 1.36658; 1.37522;
   1.38223; 1.38767; 1.39158; 1.39403; 1.39503; 1.3946; 1.39277; 1.38952; 1.38486; 1.37875; 1.37115; 1.36203;
   1.35131; 1.33892; 1.32478; 1.30879; 1.29083; 1.27079; 1.24853; 1.22392; 1.19681; 1.16705; 1.13449;
   1.09897; 1.06036; 1.01851; 0.973315; 0.924666; 0.872497; 0.816776; 0.75751; 0.694759; 0.628635; 0.559308;
   0.487006; 0.412006; 0.334629; 0.255218; 0.174123; 0.0916705; 0.00815002; (-0.0762061); (-0.161232);
   (-0.246813); (-0.332875); (-0.419357); (-0.506193); (-0.593299); (-0.680581); (-0.76794); (-0.855304);
   (-0.942619); (-1.02984); (-1.11693); (-1.20387); (-1.29064); (-1.37717); (-1.46351); (-1.5496);
   (-1.63547); (-1.72108); (-1.8065); (-1.89161); (-2.01836); (-2.09921); (-2.18007); (-2.26094); (-2.34182);
   (-2.42271); (-2.50361); (-2.58452); (-2.66543); (-2.74635); (-2.82728); (-2.90821); (-2.98914);
   (-3.07008); (-3.15103); (-3.23198); (-3.31293); (-3.39389); (-3.47484); (-3.55581); (-3.63677);
   (-3.71774); (-3.79871); (-3.87968); (-3.96065); (-4.04163); (-4.1226); (-4.20358); (-4.28456); (-4.36554);
   (-4.44652); (-4.5275); (-4.60849); (-4.68947); (-4.77046); (-4.85144); (-4.93243); (-5.01342)];
  [(-3.26507); (-3.22399); (-3.18287); (-3.14169); (-3.10046); (-3.05917); (-3.01781); (-2.97639);
   (-2.93489); (-2.89331); (-2.85164); (-2.80988); (-2.76801); (-2.72604); (-2.68395); (-2.64173);
   (-2.59938); (-2.55687); (-2.51421); (-2.47138); (-2.42837); (-2.38516); (-2.34174); (-2.2981); (-2.25421);
   (-2.21006); (-2.16564); (-2.12092); (-2.07588); (-2.0305); (-1.98476); (-1.93864); (-1.89211); (-1.84514);
   (-1.79771); (-1.7498); (-1.70136); (-1.65239); (-1.60284); (-1.55268); (-1.5019); (-1.45045); (-1.39831);
   (-1.34546); (-1.29186); (-1.23748); (-1.18232); (-1.12634); (-1.06953); (-1.01188); (-0.953372);
   (-0.894007); (-0.833785); (-0.772716); (-0.710814); (-0.648104); (-0.584618); (-0.520398); (-0.455498);
   (-0.389981); (-0.323922); (-0.257407); (-0.190534); (-0.123413); (-0.0561641); 0.0110807; 0.0781805;
   0.144986; 0.211339; 0.277078; 0.342036; 0.406045; 0.468936; 0.530544; 0.590706; 0.649267; 0.706081;
   0.761012; 0.813935; 0.86474; 0.913331; 0.959628; 1.00357; 1.0451; 1.0842; 1.12085; 1.15505; 1.18681;
   1.21617; 1.24317; 1.26786; 1.2903; 1.31055; 1.32869; 1.34479; 1.35894; 1.3712; 1.38166; 1.39038; 1.39743;
   1.40287; 1.40675; 1.40912; 1.41001; 1.40943; 1.40741; 1.40394; 1.39901; 1.3926; 1.38467; 1.37517; 1.36404;
   1.3512; 1.33657; 1.32004; 1.30152; 1.28087; 1.25797; 1.23267; 1.20484; 1.17432; 1.14096; 1.10462; 1.06515;
   1.02243; 0.976329; 0.926767; 0.87368; 0.817043; 0.756875; 0.693245; 0.626277; 0.556155; 0.483114;
   0.407443; 0.329466; 0.249529; 0.167978; 0.0851368; 0.00128075; (-0.0833688); (-0.168659); (-0.254484);
   (-0.340773); (-0.427468); (-0.514497); (-0.601777); (-0.68921); (-0.776702); (-0.86418); (-0.951599);
   (-1.03891); (-1.12609); (-1.2131); (-1.29992); (-1.38651); (-1.4729); (-1.55903); (-1.64494); (-1.73058);
   (-1.81603); (-1.90119); (-2.02808); (-2.10893); (-2.18979); (-2.27066); (-2.35155); (-2.43244);
   (-2.51333); (-2.59424); (-2.67515); (-2.75607); (-2.837); (-2.91793); (-2.99887); (-3.07981); (-3.16075);
   (-3.2417); (-3.32265); (-3.40361); (-3.48457); (-3.56553); (-3.64649); (-3.72746); (-3.80843); (-3.8894);
   (-3.97037); (-4.05135); (-4.13232); (-4.2133); (-4.29428); (-4.37526); (-4.45624); (-4.53723); (-4.61821);
   (-4.69919); (-4.78018); (-4.86117); (-4.94215); (-5.02314)];
  [(-3.27568); (-3.23461); (-3.19349); (-3.15231); (-3.11109); (-3.0698); (-3.02845); (-2.98703); (-2.94553);
   (-2.90395); (-2.86229); (-2.82053); (-2.77867); (-2.73671); (-2.69462); (-2.65241); (-2.61006);
   (-2.56756); (-2.52491); (-2.48209); (-2.43908); (-2.39588); (-2.35247); (-2.30883); (-2.26495);
   (-2.22081); (-2.17639); (-2.13168); (-2.08665); (-2.04127); (-1.99554); (-1.94942); (-1.90289);
   (-1.85592); (-1.8085); (-1.76058); (-1.71214); (-1.66315); (-1.61358); (-1.56341); (-1.5126); (-1.46112);
   (-1.40894); (-1.35604); (-1.30238); (-1.24794); (-1.19269); (-1.13662); (-1.07971); (-1.02193);
   (-0.96328); (-0.903753); (-0.84335); (-0.782075); (-0.719944); (-0.656978); (-0.593208); (-0.528676);
   (-0.463431); (-0.397537); (-0.331066); (-0.264104); (-0.196748); (-0.129108); (-0.0613033); 0.00653377;
   0.0742615; 0.141729; 0.208777; 0.275242; 0.340953; 0.40574; 0.469429; 0.531851; 0.592841; 0.652237;
   0.709889; 0.765655; 0.819406; 0.871027; 0.920418; 0.967493; 1.01219; 1.05445; 1.09424; 1.13154; 1.16636;
   1.19871; 1.22861; 1.25611; 1.28125; 1.3041; 1.32473; 1.3432; 1.3596; 1.37399; 1.38647; 1.3971; 1.40596;
   1.41311; 1.41862; 1.42254; 1.42491; 1.42577; 1.42514; 1.42304; 1.41946; 1.4144; 1.40783; 1.39972; 1.39001;
   1.37865; 1.36557; 1.35067; 1.33386; 1.31502; 1.29405; 1.2708; 1.24515; 1.21694; 1.18604; 1.15228; 1.11553;
   1.07564; 1.03249; 0.985963; 0.93597; 0.882452; 0.825388; 0.7648; 0.700763; 0.633402; 0.562904; 0.489509;
   0.413507; 0.335224; 0.255008; 0.1732; 0.0901243; 0.0060521; (-0.0787987); (-0.164279); (-0.250285);
   (-0.336748); (-0.423609); (-0.510797); (-0.598227); (-0.685801); (-0.773426); (-0.861029); (-0.948566);
   (-1.03599); (-1.12327); (-1.21038); (-1.2973); (-1.38397); (-1.47044); (-1.55665); (-1.64263); (-1.72834);
   (-1.81385); (-1.89906); (-2.02671); (-2.10756); (-2.18842); (-2.26929); (-2.35017); (-2.43106);
   (-2.51196); (-2.59287); (-2.67378); (-2.7547); (-2.83563); (-2.91656); (-2.99749); (-3.07843); (-3.15938);
   (-3.24033); (-3.32128); (-3.40224); (-3.48319); (-3.56416); (-3.64512); (-3.72609); (-3.80706);
   (-3.88803); (-3.969); (-4.04998); (-4.13095); (-4.21193); (-4.29291); (-4.37389); (-4.45487); (-4.53585);
   (-4.61684); (-4.69782); (-4.77881); (-4.85979); (-4.94078); (-5.02177)];
  [(-3.28619); (-3.24512); (-3.204); (-3.16283); (-3.1216); (-3.08032); (-3.03897); (-2.99756); (-2.95606);
   (-2.91449); (-2.87283); (-2.83108); (-2.78923); (-2.74726); (-2.70519); (-2.66298); (-2.62064);
   (-2.57815); (-2.5355); (-2.49269); (-2.44969); (-2.4065); (-2.36309); (-2.31946); (-2.27559); (-2.23146);
   (-2.18705); (-2.14235); (-2.09732); (-2.05196); (-2.00623); (-1.96012); (-1.91359); (-1.86663); (-1.8192);
   (-1.77128); (-1.72284); (-1.67384); (-1.62426); (-1.57408); (-1.52324); (-1.47174); (-1.41952);
   (-1.36658); (-1.31287); (-1.25837); (-1.20305); (-1.14689); (-1.08988); (-1.03198); (-0.973203);
   (-0.913525); (-0.852949); (-0.791481); (-0.729132); (-0.665922); (-0.601881); (-0.537048); (-0.471472);
   (-0.405214); (-0.338345); (-0.270951); (-0.203127); (-0.134983); (-0.0666369); 0.00177746; 0.0701182;
   0.138233; 0.205962; 0.273138; 0.339589; 0.405139; 0.469614; 0.53284; 0.594645; 0.654865; 0.713344;
   0.769935; 0.824505; 0.876934; 0.927115; 0.974961; 1.0204; 1.06337; 1.10385; 1.1418; 1.17723; 1.21015;
   1.24058; 1.26857; 1.29415; 1.3174; 1.33838; 1.35716; 1.37382; 1.38844; 1.4011; 1.41188; 1.42084; 1.42806;
   1.43359; 1.4375; 1.43982; 1.4406; 1.43986; 1.43761; 1.43385; 1.42857; 1.42176; 1.41337; 1.40335; 1.39165;
   1.37819; 1.36289; 1.34565; 1.32635; 1.30489; 1.28112; 1.25492; 1.22613; 1.19462; 1.16023; 1.12283;
   1.08227; 1.03843; 0.991198; 0.940493; 0.886261; 0.828488; 0.767204; 0.702488; 0.634478; 0.563367;
   0.489402; 0.412879; 0.334129; 0.253499; 0.17133; 0.0879377; 0.00358709; (-0.0815141); (-0.167223);
   (-0.253443); (-0.34011); (-0.427161); (-0.514526); (-0.602116); (-0.689834); (-0.777587); (-0.865306);
   (-0.952949); (-1.04047); (-1.12784); (-1.21503); (-1.30201); (-1.38876); (-1.47529); (-1.56154);
   (-1.64758); (-1.73333); (-1.81889); (-1.90413); (-2.03216); (-2.11301); (-2.19387); (-2.27474);
   (-2.35563); (-2.43652); (-2.51741); (-2.59832); (-2.67923); (-2.76015); (-2.84108); (-2.92201);
   (-3.00295); (-3.08389); (-3.16483); (-3.24578); (-3.32673); (-3.40769); (-3.48865); (-3.56961);
   (-3.65057); (-3.73154); (-3.81251); (-3.89348); (-3.97445); (-4.05543); (-4.1364); (-4.21738); (-4.29836);
   (-4.37934); (-4.46032); (-4.54131); (-4.62229); (-4.70327); (-4.78426); (-4.86525); (-4.94623); (-5.02722)];
  [(-3.29659); (-3.25552); (-3.2144); (-3.17324); (-3.13202); (-3.09074); (-3.04939); (-3.00798); (-2.96649);
   (-2.92492); (-2.88327); (-2.84152); (-2.79968); (-2.75772); (-2.71565); (-2.67345); (-2.63111);
   (-2.58863); (-2.546); (-2.50319); (-2.4602); (-2.41702); (-2.37362); (-2.33); (-2.28614); (-2.24202);
   (-2.19762); (-2.15292); (-2.10791); (-2.06255); (-2.01684); (-1.97073); (-1.92421); (-1.87725);
   (-1.82983); (-1.78191); (-1.73347); (-1.68447); (-1.63488); (-1.58468); (-1.53384); (-1.48231);
   (-1.43007); (-1.37708); (-1.32333); (-1.26877); (-1.21339); (-1.15715); (-1.10005); (-1.04205);
   (-0.983141); (-0.92332); (-0.862582); (-0.80093); (-0.738372); (-0.674929); (-0.610628); (-0.545505);
   (-0.479609); (-0.412999); (-0.345744); (-0.277929); (-0.209649); (-0.141011); (-0.0721361); (-0.00315529);
   0.065788; 0.134541; 0.202941; 0.270819; 0.338002; 0.40431; 0.469565; 0.533589; 0.596207; 0.657249;
   0.716554; 0.773972; 0.829363; 0.882602; 0.933579; 0.9822; 1.02839; 1.07209; 1.11326; 1.15187; 1.18792;
   1.22142; 1.25239; 1.28088; 1.30692; 1.33059; 1.35194; 1.37105; 1.388; 1.40287; 1.41574; 1.42668; 1.43577;
   1.44309; 1.44868; 1.45262; 1.45494; 1.45569; 1.45488; 1.45253; 1.44865; 1.44323; 1.43624; 1.42766;
   1.41742; 1.40548; 1.39176; 1.37617; 1.35862; 1.339; 1.31719; 1.29305; 1.26647; 1.23728; 1.20536; 1.17055;
   1.1327; 1.09169; 1.04739; 0.999696; 0.948523; 0.893823; 0.835586; 0.773845; 0.708685; 0.640248; 0.568731;
   0.494385; 0.417508; 0.338434; 0.257508; 0.175072; 0.0914372; 0.00686493; (-0.0784417); (-0.164344);
   (-0.250749); (-0.337592); (-0.424813); (-0.512337); (-0.600078); (-0.687935); (-0.775819); (-0.863659);
   (-0.951417); (-1.03905); (-1.12651); (-1.2138); (-1.30086); (-1.38769); (-1.4743); (-1.56063); (-1.64673);
   (-1.73254); (-1.81816); (-1.90345); (-2.03216); (-2.11301); (-2.19387); (-2.27474); (-2.35563);
   (-2.43652); (-2.51741); (-2.59832); (-2.67923); (-2.76015); (-2.84108); (-2.92201); (-3.00295);
   (-3.08389); (-3.16483); (-3.24578); (-3.32673); (-3.40769); (-3.48865); (-3.56961); (-3.65057);
   (-3.73154); (-3.81251); (-3.89348); (-3.97445); (-4.05543); (-4.1364); (-4.21738); (-4.29836); (-4.37934);
   (-4.46032); (-4.54131); (-4.62229); (-4.70327); (-4.78426); (-4.86525); (-4.94623); (-5.02722)];
  [(-3.30688); (-3.26582); (-3.2247); (-3.18354); (-3.14232); (-3.10105); (-3.05971); (-3.0183); (-2.97682);
   (-2.93525); (-2.89361); (-2.85187); (-2.81002); (-2.76807); (-2.72601); (-2.68382); (-2.64149);
   (-2.59902); (-2.55639); (-2.51359); (-2.47061); (-2.42744); (-2.38405); (-2.34044); (-2.29659);
   (-2.25248); (-2.2081); (-2.16341); (-2.11841); (-2.07306); (-2.02736); (-1.98126); (-1.93475); (-1.8878);
   (-1.84039); (-1.79247); (-1.74403); (-1.69503); (-1.64545); (-1.59524); (-1.54438); (-1.49283);
   (-1.44057); (-1.38756); (-1.33376); (-1.27916); (-1.22372); (-1.16741); (-1.11022); (-1.05212);
   (-0.993102); (-0.93315); (-0.87226); (-0.810434); (-0.747681); (-0.684016); (-0.619467); (-0.554069);
   (-0.487866); (-0.420918); (-0.353292); (-0.285072); (-0.21635); (-0.147235); (-0.0778459); (-0.00831457);
   0.0612154; 0.13059; 0.199646; 0.268212; 0.336112; 0.403164; 0.469185; 0.533995; 0.597412; 0.659264;
   0.719385; 0.777619; 0.833821; 0.887861; 0.939624; 0.989013; 1.03595; 1.08036; 1.12221; 1.16147; 1.19814;
   1.23221; 1.26372; 1.29269; 1.31918; 1.34324; 1.36495; 1.38437; 1.40159; 1.41669; 1.42974; 1.44083;
   1.45003; 1.4574; 1.46303; 1.46695; 1.46923; 1.46989; 1.46897; 1.46648; 1.46242; 1.45679; 1.44956; 1.44071;
   1.43017; 1.4179; 1.40381; 1.38784; 1.36986; 1.34979; 1.3275; 1.30287; 1.27575; 1.24601; 1.2135; 1.17808;
   1.13961; 1.09795; 1.05298; 1.00461; 0.952752; 0.897366; 0.838447; 0.776036; 0.710226; 0.641167; 0.569064;
   0.494174; 0.416802; 0.337284; 0.255966; 0.173186; 0.0892511; 0.00441271; (-0.0811349); (-0.167259);
   (-0.253873); (-0.340914); (-0.42832); (-0.516017); (-0.603913); (-0.691909); (-0.779919); (-0.867875);
   (-0.955733); (-1.04346); (-1.13101); (-1.21837); (-1.30551); (-1.3924); (-1.47907); (-1.56544); (-1.6516);
   (-1.73744); (-1.82308); (-1.90844); (-2.03753); (-2.11838); (-2.19924); (-2.28011); (-2.36099);
   (-2.44188); (-2.52278); (-2.60369); (-2.6846); (-2.76552); (-2.84645); (-2.92738); (-3.00831); (-3.08925);
   (-3.1702); (-3.25115); (-3.3321); (-3.41306); (-3.49401); (-3.57498); (-3.65594); (-3.73691); (-3.81788);
   (-3.89885); (-3.97982); (-4.06079); (-4.14177); (-4.22275); (-4.30373); (-4.38471); (-4.46569);
   (-4.54667); (-4.62766); (-4.70864); (-4.78963); (-4.87061); (-4.9516); (-5.03259)];
  [(-3.31707); (-3.27601); (-3.2349); (-3.19374); (-3.15253); (-3.11126); (-3.06992); (-3.02852); (-2.98704);
   (-2.94548); (-2.90384); (-2.86211); (-2.82027); (-2.77833); (-2.73627); (-2.69409); (-2.65177);
   (-2.60931); (-2.56669); (-2.5239); (-2.48093); (-2.43777); (-2.39439); (-2.3508); (-2.30696); (-2.26286);
   (-2.21849); (-2.17381); (-2.12882); (-2.08349); (-2.0378); (-1.99171); (-1.94522); (-1.89828); (-1.85087);
   (-1.80297); (-1.75453); (-1.70554); (-1.65595); (-1.60574); (-1.55487); (-1.50332); (-1.45104); (-1.398);
   (-1.34417); (-1.28953); (-1.23404); (-1.17767); (-1.1204); (-1.06221); (-1.00309); (-0.943014);
   (-0.881982); (-0.819994); (-0.757055); (-0.693181); (-0.628396); (-0.562733); (-0.496237); (-0.428963);
   (-0.360979); (-0.292366); (-0.223217); (-0.153637); (-0.0837467); (-0.0136774); 0.056427; 0.126412;
   0.196112; 0.265355; 0.333962; 0.401749; 0.468529; 0.534117; 0.598329; 0.660987; 0.72192; 0.780967;
   0.83798; 0.892821; 0.945373; 0.995532; 1.04321; 1.08835; 1.13089; 1.17081; 1.20809; 1.24275; 1.27479;
   1.30427; 1.33121; 1.35569; 1.37777; 1.39752; 1.41503; 1.43037; 1.44363; 1.45488; 1.4642; 1.47167; 1.47735;
   1.4813; 1.48357; 1.48419; 1.48319; 1.4806; 1.47641; 1.47063; 1.46322; 1.45415; 1.44338; 1.43086; 1.4165;
   1.40022; 1.38193; 1.36151; 1.33886; 1.31384; 1.28632; 1.25616; 1.22322; 1.18735; 1.14841; 1.10627;
   1.06082; 1.01195; 0.959588; 0.903701; 0.844285; 0.781385; 0.715099; 0.645584; 0.573048; 0.497753;
   0.420009; 0.34015; 0.258527; 0.175472; 0.0912891; 0.00622543; (-0.0795306); (-0.165851); (-0.252652);
   (-0.339872); (-0.427448); (-0.515305); (-0.60335); (-0.691484); (-0.77962); (-0.867695); (-0.955663);
   (-1.04349); (-1.13114); (-1.21859); (-1.30581); (-1.39278); (-1.47951); (-1.56596); (-1.65218);
   (-1.73807); (-1.82376); (-1.90917); (-2.03885); (-2.11971); (-2.20057); (-2.28144); (-2.36232);
   (-2.44321); (-2.52411); (-2.60502); (-2.68593); (-2.76685); (-2.84778); (-2.92871); (-3.00964);
   (-3.09058); (-3.17153); (-3.25248); (-3.33343); (-3.41438); (-3.49534); (-3.5763); (-3.65727); (-3.73824);
   (-3.81921); (-3.90018); (-3.98115); (-4.06212); (-4.1431); (-4.22408); (-4.30506); (-4.38604); (-4.46702);
   (-4.548); (-4.62899); (-4.70997); (-4.79096); (-4.87194); (-4.95293); (-5.03392)];
  [(-3.32716); (-3.28611); (-3.245); (-3.20384); (-3.16263); (-3.12137); (-3.08004); (-3.03864); (-2.99716);
   (-2.95561); (-2.91398); (-2.87225); (-2.83042); (-2.78849); (-2.74644); (-2.70426); (-2.66195); (-2.6195);
   (-2.57689); (-2.53411); (-2.49115); (-2.448); (-2.40464); (-2.36106); (-2.31723); (-2.27315); (-2.22879);
   (-2.18413); (-2.13915); (-2.09384); (-2.04816); (-2.00209); (-1.95561); (-1.90868); (-1.86129); (-1.8134);
   (-1.76497); (-1.71598); (-1.6664); (-1.6162); (-1.56533); (-1.51376); (-1.46147); (-1.40842); (-1.35456);
   (-1.29989); (-1.24435); (-1.18793); (-1.1306); (-1.07233); (-1.01311); (-0.952921); (-0.891759);
   (-0.82962); (-0.766508); (-0.702438); (-0.63743); (-0.571518); (-0.504743); (-0.437159); (-0.368832);
   (-0.299843); (-0.230282); (-0.160255); (-0.0898806); (-0.0192908); 0.0513707; 0.121948; 0.192276;
   0.262179; 0.331477; 0.399982; 0.467504; 0.533856; 0.598848; 0.662298; 0.72403; 0.783878; 0.841689;
   0.89732; 0.950649; 1.00157; 1.04998; 1.09583; 1.13905; 1.17962; 1.21751; 1.25274; 1.28531; 1.31527;
   1.34266; 1.36754; 1.38997; 1.41004; 1.42781; 1.44337; 1.45681; 1.4682; 1.47762; 1.48515; 1.49085; 1.49478;
   1.497; 1.49753; 1.49642; 1.49367; 1.4893; 1.48329; 1.47563; 1.46628; 1.45521; 1.44234; 1.4276; 1.41092;
   1.3922; 1.37133; 1.34819; 1.32265; 1.29458; 1.26385; 1.2303; 1.1938; 1.15421; 1.1114; 1.06526; 1.01569;
   0.962617; 0.906017; 0.845893; 0.782299; 0.715341; 0.645184; 0.572044; 0.496194; 0.417946; 0.337639;
   0.255621; 0.172223; 0.0877411; 0.00241265; (-0.0835828); (-0.170124); (-0.257136); (-0.344554);
   (-0.432316); (-0.520341); (-0.608539); (-0.696807); (-0.785064); (-0.873247); (-0.961313); (-1.04923);
   (-1.13696); (-1.22448); (-1.31176); (-1.39879); (-1.48558); (-1.57207); (-1.65834); (-1.74428);
   (-1.82999); (-1.91544); (-2.04542); (-2.12627); (-2.20713); (-2.288); (-2.36888); (-2.44977); (-2.53067);
   (-2.61158); (-2.69249); (-2.77341); (-2.85434); (-2.93527); (-3.0162); (-3.09715); (-3.17809); (-3.25904);
   (-3.33999); (-3.42095); (-3.50191); (-3.58287); (-3.66383); (-3.7448); (-3.82577); (-3.90674); (-3.98771);
   (-4.06869); (-4.14966); (-4.23064); (-4.31162); (-4.3926); (-4.47358); (-4.55456); (-4.63555); (-4.71653);
   (-4.79752); (-4.8785); (-4.95949); (-5.04048)];
  [(-3.33716); (-3.2961); (-3.255); (-3.21385); (-3.17264); (-3.13138); (-3.09005); (-3.04866); (-3.00719);
   (-2.96565); (-2.92402); (-2.8823); (-2.84048); (-2.79855); (-2.75651); (-2.71434); (-2.67204); (-2.6296);
   (-2.587); (-2.54423); (-2.50129); (-2.45815); (-2.4148); (-2.37123); (-2.32742); (-2.28335); (-2.23901);
   (-2.19437); (-2.14941); (-2.10411); (-2.05845); (-2.01239); (-1.96593); (-1.91902); (-1.87164);
   (-1.82376); (-1.77535); (-1.72638); (-1.67681); (-1.62661); (-1.57574); (-1.52418); (-1.47188);
   (-1.41881); (-1.36494); (-1.31024); (-1.25466); (-1.1982); (-1.14081); (-1.08247); (-1.02316);
   (-0.962873); (-0.901591); (-0.839312); (-0.776039); (-0.711784); (-0.646567); (-0.580417); (-0.513376);
   (-0.445496); (-0.37684); (-0.307488); (-0.237529); (-0.167069); (-0.0962245); (-0.0251275); 0.0460778;
   0.117235; 0.188178; 0.25873; 0.328708; 0.397921; 0.466178; 0.533286; 0.599052; 0.663288; 0.725816;
   0.786464; 0.845072; 0.901495; 0.955603; 1.00728; 1.05644; 1.10301; 1.14692; 1.18814; 1.22665; 1.26246;
   1.29558; 1.32604; 1.35388; 1.37918; 1.40199; 1.42238; 1.44044; 1.45626; 1.4699; 1.48146; 1.49102; 1.49864;
   1.5044; 1.50836; 1.51057; 1.51107; 1.50989; 1.50705; 1.50256; 1.49641; 1.48858; 1.47904; 1.46774; 1.45464;
   1.43965; 1.42269; 1.40366; 1.38247; 1.35899; 1.33309; 1.30465; 1.27352; 1.23957; 1.20264; 1.16262;
   1.11936; 1.07275; 1.02271; 0.969169; 0.912094; 0.851499; 0.787441; 0.720032; 0.649442; 0.575892; 0.499659;
   0.421058; 0.340429; 0.258122; 0.174462; 0.0897442; 0.00419946; (-0.0819975); (-0.168729); (-0.255924);
   (-0.343518); (-0.431446); (-0.519628); (-0.607972); (-0.696374); (-0.784755); (-0.873054); (-0.96123);
   (-1.04925); (-1.13707); (-1.22468); (-1.31204); (-1.39914); (-1.486); (-1.57256); (-1.65889); (-1.74489);
   (-1.83065); (-1.91615); (-2.04671); (-2.12757); (-2.20843); (-2.2893); (-2.37018); (-2.45107); (-2.53197);
   (-2.61288); (-2.69379); (-2.77471); (-2.85564); (-2.93657); (-3.0175); (-3.09844); (-3.17939); (-3.26034);
   (-3.34129); (-3.42224); (-3.5032); (-3.58417); (-3.66513); (-3.7461); (-3.82707); (-3.90804); (-3.98901);
   (-4.06998); (-4.15096); (-4.23194); (-4.31292); (-4.3939); (-4.47488); (-4.55586); (-4.63685); (-4.71783);
   (-4.79882); (-4.8798); (-4.96079); (-5.04178)];
  [(-3.34705); (-3.306); (-3.2649); (-3.22375); (-3.18255); (-3.14129); (-3.09997); (-3.05859); (-3.01713);
   (-2.97559); (-2.93396); (-2.89225); (-2.85044); (-2.80852); (-2.76649); (-2.72433); (-2.68204);
   (-2.63961); (-2.59702); (-2.55426); (-2.51133); (-2.46821); (-2.42487); (-2.38132); (-2.33752);
   (-2.29347); (-2.24914); (-2.20452); (-2.15958); (-2.1143); (-2.06866); (-2.02263); (-1.97618); (-1.92929);
   (-1.88193); (-1.83407); (-1.78568); (-1.73672); (-1.68716); (-1.63697); (-1.58612); (-1.53456);
   (-1.48226); (-1.42918); (-1.3753); (-1.32058); (-1.26498); (-1.20848); (-1.15104); (-1.09264); (-1.03326);
   (-0.972876); (-0.911486); (-0.84908); (-0.785659); (-0.721232); (-0.655819); (-0.589446); (-0.522154);
   (-0.453992); (-0.385023); (-0.315324); (-0.244984); (-0.174107); (-0.102808); (-0.031221); 0.0405118;
   0.112233; 0.183775; 0.254961; 0.325603; 0.395511; 0.464489; 0.532339; 0.598867; 0.66388; 0.727194;
   0.788632; 0.848029; 0.905237; 0.960119; 1.01256; 1.06246; 1.10973; 1.15433; 1.1962; 1.23534; 1.27173;
   1.30539; 1.33635; 1.36466; 1.39037; 1.41356; 1.43428; 1.45264; 1.4687; 1.48256; 1.49429; 1.50398; 1.5117;
   1.51753; 1.52152; 1.52373; 1.52419; 1.52296; 1.52003; 1.51543; 1.50914; 1.50115; 1.49143; 1.47993;
   1.46659; 1.45135; 1.43413; 1.41482; 1.39332; 1.36951; 1.34327; 1.31447; 1.28296; 1.24862; 1.21128;
   1.17083; 1.12714; 1.08008; 1.02959; 0.975588; 0.918052; 0.856998; 0.792489; 0.724641; 0.653628; 0.579678;
   0.50307; 0.424125; 0.343182; 0.260591; 0.176677; 0.0917271; 0.00596967; (-0.080426); (-0.167347);
   (-0.254723); (-0.342491); (-0.430584); (-0.518921); (-0.607408); (-0.695944); (-0.784448); (-0.872862);
   (-0.961146); (-1.04926); (-1.13718); (-1.22488); (-1.31232); (-1.39949); (-1.48642); (-1.57306);
   (-1.65943); (-1.7455); (-1.83131); (-1.91685); (-2.04801); (-2.12886); (-2.20972); (-2.29059); (-2.37147);
   (-2.45236); (-2.53326); (-2.61417); (-2.69508); (-2.776); (-2.85693); (-2.93786); (-3.0188); (-3.09974);
   (-3.18068); (-3.26163); (-3.34258); (-3.42354); (-3.5045); (-3.58546); (-3.66642); (-3.74739); (-3.82836);
   (-3.90933); (-3.9903); (-4.07128); (-4.15225); (-4.23323); (-4.31421); (-4.39519); (-4.47617); (-4.55715);
   (-4.63814); (-4.71912); (-4.80011); (-4.88109); (-4.96208); (-5.04307)];
  [(-3.35685); (-3.3158); (-3.27471); (-3.23357); (-3.19237); (-3.15112); (-3.1098); (-3.06842); (-3.02697);
   (-2.98543); (-2.94382); (-2.90211); (-2.86031); (-2.8184); (-2.77637); (-2.73423); (-2.69195); (-2.64953);
   (-2.60695); (-2.56421); (-2.52129); (-2.47818); (-2.43486); (-2.39132); (-2.34754); (-2.30351); (-2.2592);
   (-2.2146); (-2.16968); (-2.12442); (-2.0788); (-2.03279); (-1.98636); (-1.9395); (-1.89216); (-1.84432);
   (-1.79595); (-1.74701); (-1.69747); (-1.6473); (-1.59645); (-1.5449); (-1.49261); (-1.43954); (-1.38566);
   (-1.33092); (-1.2753); (-1.21877); (-1.16129); (-1.10284); (-1.0434); (-0.982937); (-0.921451);
   (-0.85893); (-0.795374); (-0.73079); (-0.665195); (-0.598616); (-0.531088); (-0.462661); (-0.393396);
   (-0.323368); (-0.252664); (-0.181388); (-0.109655); (-0.0375952); 0.0346462; 0.106913; 0.179036; 0.250836;
   0.322125; 0.39271; 0.462392; 0.530969; 0.598243; 0.664018; 0.728103; 0.790319; 0.850494; 0.908475;
   0.96412; 1.01731; 1.06794; 1.11592; 1.16119; 1.20371; 1.24346; 1.28042; 1.31462; 1.34608; 1.37484;
   1.40096; 1.42451; 1.44557; 1.4642; 1.48051; 1.49456; 1.50646; 1.51627; 1.52408; 1.52995; 1.53396; 1.53615;
   1.53657; 1.53526; 1.53223; 1.52749; 1.52104; 1.51286; 1.50292; 1.49118; 1.47759; 1.46206; 1.44453;
   1.42488; 1.40303; 1.37884; 1.3522; 1.32298; 1.29102; 1.25621; 1.21839; 1.17743; 1.13321; 1.08563; 1.03458;
   0.980028; 0.921935; 0.860327; 0.795274; 0.726897; 0.65538; 0.580954; 0.503907; 0.42456; 0.343258;
   0.260347; 0.17615; 0.0909472; 0.00496141; (-0.0816457); (-0.168767); (-0.256332); (-0.344282);
   (-0.432545); (-0.52104); (-0.609671); (-0.698337); (-0.78696); (-0.875483); (-0.963869); (-1.05208);
   (-1.14008); (-1.22785); (-1.31537); (-1.40262); (-1.4896); (-1.57628); (-1.6627); (-1.74882); (-1.83468);
   (-1.92027); (-2.05186); (-2.13271); (-2.21357); (-2.29444); (-2.37532); (-2.45621); (-2.53711);
   (-2.61802); (-2.69893); (-2.77985); (-2.86078); (-2.94171); (-3.02264); (-3.10358); (-3.18453);
   (-3.26548); (-3.34643); (-3.42739); (-3.50835); (-3.58931); (-3.67027); (-3.75124); (-3.83221);
   (-3.91318); (-3.99415); (-4.07513); (-4.1561); (-4.23708); (-4.31806); (-4.39904); (-4.48002); (-4.561);
   (-4.64199); (-4.72297); (-4.80396); (-4.88494); (-4.96593); (-5.04692)];
  [(-3.36656); (-3.32552); (-3.28443); (-3.24329); (-3.2021); (-3.16085); (-3.11954); (-3.07816); (-3.03671);
   (-2.99519); (-2.95358); (-2.91188); (-2.87009); (-2.82819); (-2.78617); (-2.74404); (-2.70177);
   (-2.65936); (-2.6168); (-2.57407); (-2.53116); (-2.48807); (-2.44477); (-2.40125); (-2.35749); (-2.31347);
   (-2.26918); (-2.2246); (-2.1797); (-2.13447); (-2.08887); (-2.04288); (-1.99648); (-1.94964); (-1.90233);
   (-1.85452); (-1.80617); (-1.75725); (-1.70774); (-1.65759); (-1.60676); (-1.55523); (-1.50295);
   (-1.44989); (-1.39601); (-1.34127); (-1.28564); (-1.22909); (-1.17158); (-1.11309); (-1.05359);
   (-0.99306); (-0.93149); (-0.868866); (-0.805188); (-0.740461); (-0.674698); (-0.607926); (-0.540178);
   (-0.471501); (-0.401956); (-0.331614); (-0.260563); (-0.188903); (-0.116751); (-0.0442354); 0.0284991;
   0.101295; 0.173984; 0.246385; 0.318309; 0.389558; 0.459932; 0.529227; 0.597238; 0.663767; 0.728619;
   0.791607; 0.852557; 0.91131; 0.967719; 1.02166; 1.07302; 1.12171; 1.16767; 1.21085; 1.25121; 1.28877;
   1.32351; 1.35548; 1.38471; 1.41127; 1.43521; 1.45661; 1.47555; 1.49213; 1.50641; 1.5185; 1.52847; 1.53641;
   1.54238; 1.54645; 1.54868; 1.54911; 1.54778; 1.5447; 1.5399; 1.53337; 1.52509; 1.51503; 1.50316; 1.48941;
   1.47372; 1.456; 1.43616; 1.41409; 1.38968; 1.36281; 1.33333; 1.30112; 1.26603; 1.22793; 1.18668; 1.14216;
   1.09427; 1.04291; 0.988028; 0.92961; 0.867678; 0.802302; 0.733609; 0.661783; 0.587063; 0.509735; 0.430125;
   0.348577; 0.265439; 0.18103; 0.0956304; 0.00945824; (-0.0773269); (-0.164619); (-0.252352); (-0.340463);
   (-0.428882); (-0.517525); (-0.606296); (-0.695095); (-0.783843); (-0.872485); (-0.960983); (-1.0493);
   (-1.1374); (-1.22527); (-1.31287); (-1.4002); (-1.48727); (-1.57403); (-1.66051); (-1.7467); (-1.83261);
   (-1.91826); (-2.05058); (-2.13143); (-2.21229); (-2.29317); (-2.37405); (-2.45494); (-2.53584);
   (-2.61674); (-2.69766); (-2.77858); (-2.8595); (-2.94043); (-3.02137); (-3.10231); (-3.18325); (-3.2642);
   (-3.34516); (-3.42611); (-3.50707); (-3.58803); (-3.669); (-3.74996); (-3.83093); (-3.9119); (-3.99288);
   (-4.07385); (-4.15483); (-4.2358); (-4.31678); (-4.39776); (-4.47875); (-4.55973); (-4.64071); (-4.7217);
   (-4.80268); (-4.88367); (-4.96466); (-5.04564)];
  [(-3.37618); (-3.33514); (-3.29405); (-3.25292); (-3.21173); (-3.17049); (-3.12918); (-3.08781);
   (-3.04637); (-3.00486); (-2.96325); (-2.92156); (-2.87978); (-2.83789); (-2.79588); (-2.75376); (-2.7115);
   (-2.6691); (-2.62656); (-2.58384); (-2.54095); (-2.49787); (-2.45459); (-2.41109); (-2.36735); (-2.32335);
   (-2.27909); (-2.23453); (-2.18965); (-2.14444); (-2.09887); (-2.05291); (-2.00654); (-1.95973);
   (-1.91244); (-1.86466); (-1.81634); (-1.76745); (-1.71797); (-1.66784); (-1.61704); (-1.56553);
   (-1.51327); (-1.46022); (-1.40635); (-1.35162); (-1.29599); (-1.23942); (-1.1819); (-1.12338); (-1.06384);
   (-1.00325); (-0.94161); (-0.878898); (-0.815112); (-0.750256); (-0.684342); (-0.617393); (-0.549442);
   (-0.480534); (-0.410726); (-0.34009); (-0.268711); (-0.196689); (-0.124137); (-0.0511866); 0.0220202;
   0.0953256; 0.16856; 0.241541; 0.314078; 0.385972; 0.457019; 0.527012; 0.595744; 0.66301; 0.728611;
   0.792357; 0.854068; 0.913579; 0.970739; 1.02542; 1.0775; 1.12689; 1.17353; 1.21735; 1.25833; 1.29646;
   1.33175; 1.36422; 1.39392; 1.4209; 1.44522; 1.46696; 1.4862; 1.50304; 1.51755; 1.52982; 1.53994; 1.54799;
   1.55404; 1.55816; 1.56041; 1.56084; 1.55947; 1.55634; 1.55146; 1.54482; 1.53642; 1.52621; 1.51417;
   1.50024; 1.48434; 1.4664; 1.44632; 1.42399; 1.39931; 1.37214; 1.34236; 1.30982; 1.2744; 1.23594; 1.19431;
   1.14941; 1.10111; 1.04934; 0.994049; 0.935212; 0.872859; 0.807068; 0.73797; 0.665755; 0.590664; 0.51299;
   0.43306; 0.35122; 0.267818; 0.183169; 0.0975514; 0.0111769; (-0.0757989); (-0.163275); (-0.251183);
   (-0.339463); (-0.428043); (-0.516836); (-0.605748); (-0.694676); (-0.783545); (-0.872299); (-0.960903);
   (-1.04932); (-1.13751); (-1.22547); (-1.31315); (-1.40055); (-1.48769); (-1.57451); (-1.66105);
   (-1.74729); (-1.83326); (-1.91895); (-2.05186); (-2.13271); (-2.21357); (-2.29445); (-2.37533);
   (-2.45622); (-2.53712); (-2.61802); (-2.69894); (-2.77986); (-2.86078); (-2.94171); (-3.02265);
   (-3.10359); (-3.18453); (-3.26548); (-3.34644); (-3.42739); (-3.50835); (-3.58931); (-3.67028);
   (-3.75124); (-3.83221); (-3.91318); (-3.99416); (-4.07513); (-4.15611); (-4.23708); (-4.31806);
   (-4.39904); (-4.48003); (-4.56101); (-4.64199); (-4.72298); (-4.80396); (-4.88495); (-4.96594); (-5.04692)];
  [(-3.38571); (-3.34467); (-3.30359); (-3.26246); (-3.22128); (-3.18004); (-3.13874); (-3.09738);
   (-3.05594); (-3.01443); (-2.97284); (-2.93116); (-2.88938); (-2.8475); (-2.80551); (-2.76339); (-2.72115);
   (-2.67877); (-2.63623); (-2.59354); (-2.55066); (-2.5076); (-2.46434); (-2.42085); (-2.37713); (-2.33316);
   (-2.28892); (-2.24438); (-2.19953); (-2.15435); (-2.1088); (-2.06287); (-2.01653); (-1.96975); (-1.9225);
   (-1.87475); (-1.82646); (-1.77761); (-1.72815); (-1.67806); (-1.62729); (-1.57581); (-1.52357);
   (-1.47055); (-1.4167); (-1.36198); (-1.30635); (-1.24979); (-1.19225); (-1.13371); (-1.07414); (-1.01352);
   (-0.951817); (-0.889031); (-0.825153); (-0.760184); (-0.694135); (-0.627027); (-0.558891); (-0.489771);
   (-0.41972); (-0.34881); (-0.277124); (-0.204761); (-0.131833); (-0.058469); 0.0151874; 0.0889791;
   0.162735; 0.236274; 0.309402; 0.381919; 0.453617; 0.524287; 0.593718; 0.6617; 0.728032; 0.792517;
   0.854971; 0.915224; 0.973119; 1.02852; 1.08131; 1.13139; 1.17869; 1.22315; 1.26473; 1.30343; 1.33924;
   1.37221; 1.40235; 1.42974; 1.45443; 1.4765; 1.49603; 1.51311; 1.52782; 1.54026; 1.55052; 1.55866; 1.56477;
   1.56892; 1.57117; 1.57156; 1.57013; 1.56691; 1.56191; 1.55513; 1.54656; 1.53617; 1.52391; 1.50973;
   1.49357; 1.47534; 1.45495; 1.43229; 1.40725; 1.3797; 1.34951; 1.31654; 1.28065; 1.24171; 1.19959; 1.15416;
   1.10533; 1.05301; 0.997149; 0.937744; 0.874826; 0.80848; 0.738842; 0.666112; 0.590538; 0.512419; 0.432086;
   0.349887; 0.266167; 0.181239; 0.0953719; 0.00877181; (-0.0784135); (-0.166088); (-0.254185); (-0.342646);
   (-0.431394); (-0.520344); (-0.609392); (-0.698445); (-0.787427); (-0.876284); (-0.964982); (-1.05348);
   (-1.14175); (-1.22978); (-1.31753); (-1.405); (-1.49218); (-1.57905); (-1.66564); (-1.75192); (-1.83792);
   (-1.92367); (-2.05692); (-2.13777); (-2.21863); (-2.2995); (-2.38039); (-2.46128); (-2.54218); (-2.62308);
   (-2.704); (-2.78492); (-2.86584); (-2.94677); (-3.02771); (-3.10865); (-3.18959); (-3.27054); (-3.35149);
   (-3.43245); (-3.51341); (-3.59437); (-3.67533); (-3.7563); (-3.83727); (-3.91824); (-3.99921); (-4.08019);
   (-4.16117); (-4.24214); (-4.32312); (-4.4041); (-4.48508); (-4.56607); (-4.64705); (-4.72804); (-4.80902);
   (-4.89001); (-4.97099); (-5.05198)];
  [(-3.39515); (-3.35412); (-3.31304); (-3.27191); (-3.23074); (-3.18951); (-3.14821); (-3.10686);
   (-3.06543); (-3.02393); (-2.98234); (-2.94067); (-2.8989); (-2.85703); (-2.81505); (-2.77295); (-2.73072);
   (-2.68835); (-2.64583); (-2.60315); (-2.56029); (-2.51725); (-2.474); (-2.43054); (-2.38684); (-2.34289);
   (-2.29868); (-2.25417); (-2.20935); (-2.16419); (-2.11868); (-2.07278); (-2.02647); (-1.97972);
   (-1.93251); (-1.88479); (-1.83654); (-1.78773); (-1.73831); (-1.68825); (-1.63752); (-1.58607);
   (-1.53387); (-1.48088); (-1.42705); (-1.37235); (-1.31674); (-1.26019); (-1.20266); (-1.14411);
   (-1.08452); (-1.02386); (-0.962118); (-0.899271); (-0.835314); (-0.770248); (-0.70408); (-0.636829);
   (-0.568525); (-0.499208); (-0.428933); (-0.357767); (-0.285791); (-0.213104); (-0.139817); (-0.066058);
   0.00803073; 0.0822917; 0.156554; 0.230634; 0.304339; 0.377464; 0.449801; 0.521137; 0.591258; 0.659949;
   0.727005; 0.792226; 0.855421; 0.916415; 0.975048; 1.03118; 1.08468; 1.13546; 1.18343; 1.22853; 1.27074;
   1.31002; 1.34639; 1.37986; 1.41049; 1.43831; 1.46341; 1.48584; 1.50569; 1.52306; 1.53803; 1.55069;
   1.56113; 1.56944; 1.57568; 1.57993; 1.58225; 1.5827; 1.5813; 1.5781; 1.57309; 1.56629; 1.55768; 1.54723;
   1.53491; 1.52066; 1.50441; 1.48608; 1.46558; 1.4428; 1.41763; 1.38994; 1.3596; 1.32647; 1.29041; 1.2513;
   1.20898; 1.16336; 1.11432; 1.06178; 1.0057; 0.946064; 0.882912; 0.816329; 0.746455; 0.673491; 0.597689;
   0.519348; 0.438803; 0.356401; 0.272488; 0.187377; 0.101335; 0.0145654; (-0.0727844); (-0.160619);
   (-0.248874); (-0.337488); (-0.426385); (-0.515479); (-0.604665); (-0.693849); (-0.782957); (-0.871934);
   (-0.960747); (-1.04936); (-1.13773); (-1.22586); (-1.3137); (-1.40125); (-1.48852); (-1.57547);
   (-1.66213); (-1.74848); (-1.83454); (-1.92034); (-2.05441); (-2.13526); (-2.21612); (-2.29699);
   (-2.37788); (-2.45877); (-2.53967); (-2.62057); (-2.70148); (-2.7824); (-2.86333); (-2.94426); (-3.0252);
   (-3.10614); (-3.18708); (-3.26803); (-3.34898); (-3.42994); (-3.5109); (-3.59186); (-3.67282); (-3.75379);
   (-3.83476); (-3.91573); (-3.9967); (-4.07768); (-4.15865); (-4.23963); (-4.32061); (-4.40159); (-4.48257);
   (-4.56356); (-4.64454); (-4.72552); (-4.80651); (-4.8875); (-4.96848); (-5.04947)];
  [(-3.4045); (-3.36347); (-3.3224); (-3.28128); (-3.24011); (-3.19889); (-3.1576); (-3.11625); (-3.07483);
   (-3.03334); (-2.99176); (-2.9501); (-2.90834); (-2.86648); (-2.82451); (-2.78242); (-2.7402); (-2.69785);
   (-2.65535); (-2.61268); (-2.56984); (-2.52682); (-2.48359); (-2.44015); (-2.39648); (-2.35255);
   (-2.30836); (-2.26388); (-2.21909); (-2.17396); (-2.12848); (-2.08262); (-2.03635); (-1.98964);
   (-1.94246); (-1.89479); (-1.84658); (-1.7978); (-1.74843); (-1.69841); (-1.64772); (-1.59631); (-1.54415);
   (-1.4912); (-1.4374); (-1.38274); (-1.32715); (-1.27062); (-1.2131); (-1.15456); (-1.09496); (-1.03429);
   (-0.972515); (-0.909624); (-0.845606); (-0.78046); (-0.714192); (-0.646818); (-0.578367); (-0.508876);
   (-0.438399); (-0.367); (-0.294761); (-0.221776); (-0.148156); (-0.0740292); 0.000463838; 0.0751655;
   0.149905; 0.224498; 0.298749; 0.372453; 0.445399; 0.517372; 0.588152; 0.657524; 0.725275; 0.791202;
   0.855109; 0.916817; 0.976161; 1.03299; 1.08718; 1.13863; 1.18725; 1.23297; 1.27576; 1.31561; 1.3525;
   1.38646; 1.41753; 1.44576; 1.47122; 1.49398; 1.51413; 1.53175; 1.54693; 1.55977; 1.57034; 1.57875;
   1.58506; 1.58936; 1.59169; 1.59211; 1.59067; 1.58739; 1.58228; 1.57535; 1.56659; 1.55597; 1.54344;
   1.52897; 1.51247; 1.49386; 1.47306; 1.44996; 1.42444; 1.39637; 1.36563; 1.33207; 1.29555; 1.25595;
   1.21312; 1.16696; 1.11737; 1.06426; 1.00759; 0.947366; 0.883626; 0.816463; 0.746028; 0.67253; 0.596228;
   0.517428; 0.43647; 0.353702; 0.269468; 0.184075; 0.097783; 0.0107874; (-0.0767727); (-0.164807);
   (-0.253252); (-0.342047); (-0.431111); (-0.520356); (-0.609677); (-0.698982); (-0.788196); (-0.877272);
   (-0.966174); (-1.05487); (-1.14331); (-1.2315); (-1.3194); (-1.40701); (-1.49433); (-1.58131); (-1.66802);
   (-1.7544); (-1.84049); (-1.92635); (-2.06067); (-2.14152); (-2.22238); (-2.30326); (-2.38414); (-2.46503);
   (-2.54593); (-2.62683); (-2.70775); (-2.78867); (-2.86959); (-2.95052); (-3.03146); (-3.1124); (-3.19334);
   (-3.27429); (-3.35525); (-3.4362); (-3.51716); (-3.59812); (-3.67909); (-3.76005); (-3.84102); (-3.92199);
   (-4.00297); (-4.08394); (-4.16492); (-4.24589); (-4.32687); (-4.40785); (-4.48884); (-4.56982); (-4.6508);
   (-4.73179); (-4.81277); (-4.89376); (-4.97475); (-5.05573)]].

