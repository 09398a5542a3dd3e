(** Transcribed by tools/gen_tables.py; do not edit by hand. *)
From Coq Require Import ZArith List.
From Verif Require Import Num.
Import ListNotations.
Local Open Scope dec_scope.

(** include/catima/generated_LS_coeff.h, double ls_coefficients_ahi[][200]: 108 rows *)
Definition ls_coefficients_ahi : list (list dec) := [
  [(-0.0286005); (-0.0263509); (-0.0242674); (-0.0223377); (-0.0205507); (-0.0188958); (-0.0173631);
   (-0.0159436); (-0.0146287); (-0.0134106); (-0.0122818); (-0.0112356); (-0.0102656); (-0.00936584);
   (-0.00853095); (-0.00775584); (-0.00703578); (-0.00636642); (-0.00574372); (-0.00516392); (-0.00462354);
   (-0.00411936); (-0.00364839); (-0.00320786); (-0.0027952); (-0.00240804); (-0.00204415); (-0.00170149);
   (-0.00137817); (-0.00107241); (-0.000782573); (-0.000507144); (-0.000244708); 6.04904e-6; 0.000246346;
   0.000477319; 0.000700021; 0.000915435; 0.00112447; 0.00132798; 0.00152675; 0.00172152; 0.00191297;
   0.00210172; 0.00228836; 0.00247345; 0.00265746; 0.00284087; 0.00302408; 0.00320749; 0.00339143; 0.0035762;
   0.00376208; 0.0039493; 0.00413804; 0.00432847; 0.00452069; 0.00471479; 0.0049108; 0.00510871; 0.00530849;
   0.00551004; 0.00571324; 0.0059179; 0.00612381; 0.00633071; 0.0065383; 0.00674623; 0.00695413; 0.00716157;
   0.00736812; 0.00757328; 0.00777655; 0.00797743; 0.00817538; 0.00836987; 0.00856036; 0.00874634;
   0.00892729; 0.00910275; 0.00927227; 0.00943544; 0.00959191; 0.00974136; 0.00988355; 0.0100183; 0.0101454;
   0.0102649; 0.0103767; 0.0104809; 0.0105776; 0.0106668; 0.0107488; 0.0108239; 0.0108921; 0.010954;
   0.0110096; 0.0110593; 0.0111034; 0.0111422; 0.0111759; 0.0112048; 0.0112291; 0.0112489; 0.0112645;
   0.011276; 0.0112832; 0.0112864; 0.0112853; 0.0112798; 0.0112698; 0.0112548; 0.0112344; 0.0112081;
   0.0111752; 0.0111349; 0.011086; 0.0110274; 0.0109577; 0.0108749; 0.0107772; 0.0106619; 0.0105261;
   0.0103665; 0.010179; 0.00995886; 0.0097004; 0.0093971; 0.00904119; 0.00862363; 0.00813377; 0.00755911;
   0.006885; 0.00609425; 0.00516675; 0.00407938; 0.00280401; 0.0013087; (-0.000444126); (-0.00249831);
   (-0.00490495); (-0.00772254); (-0.011021); (-0.0148795); (-0.0193897); (-0.0246615); (-0.0308112);
   (-0.0379795); (-0.0463278); (-0.0560302); (-0.0672887); (-0.0803185); (-0.0953726); (-0.112713);
   (-0.132596); (-0.15534); (-0.181235); (-0.210547); (-0.243591); (-0.280538); (-0.321579); (-0.366756);
   (-0.416083); (-0.469427); (-0.52658); (-0.587179); (-0.650834); (-0.717057); (-0.785375); (-0.855555);
   (-0.927295); (-1.00039); (-1.07454); (-1.14975); (-1.22595); (-1.30273); (-1.37996); (-1.45822);
   (-1.53632); (-1.61553); (-1.69404); (-1.7744); (-1.85265); (-1.93465); (-2.01376); (-2.07582); (-2.1568);
   (-2.23777); (-2.31875); (-2.39972); (-2.4807); (-2.56168); (-2.64267); (-2.72365); (-2.80463); (-2.88562);
   (-2.9666); (-3.04759); (-3.12858); (-3.20956)];
  [(-0.108683); (-0.100696); (-0.0932398); (-0.0862849); (-0.0798018); (-0.073762); (-0.0681385);
   (-0.0629051); (-0.0580369); (-0.05351); (-0.049302); (-0.0453914); (-0.041758); (-0.0383825);
   (-0.0352471); (-0.0323346); (-0.0296292); (-0.0271159); (-0.0247806); (-0.0226102); (-0.0205924);
   (-0.0187158); (-0.0169696); (-0.0153437); (-0.013829); (-0.0124167); (-0.0110986); (-0.00986737);
   (-0.00871586); (-0.00763757); (-0.00662645); (-0.00567685); (-0.00478352); (-0.0039416); (-0.00314654);
   (-0.00239416); (-0.00168052); (-0.00100201); (-0.000355246); 0.000262905; 0.00085535; 0.00142479;
   0.00197372; 0.00250446; 0.00301917; 0.00351982; 0.00400824; 0.00448613; 0.00495503; 0.00541637;
   0.00587143; 0.00632139; 0.0067673; 0.0072101; 0.00765063; 0.00808959; 0.00852761; 0.00896517; 0.00940268;
   0.00984043; 0.0102786; 0.0107172; 0.0111564; 0.0115958; 0.0120353; 0.0124746; 0.0129132; 0.0133506;
   0.0137862; 0.0142193; 0.014649; 0.0150746; 0.0154951; 0.0159097; 0.0163173; 0.016717; 0.0171077;
   0.0174885; 0.0178585; 0.0182168; 0.0185625; 0.0188948; 0.0192131; 0.0195169; 0.0198056; 0.020079;
   0.0203367; 0.0205787; 0.0208049; 0.0210154; 0.0212105; 0.0213905; 0.0215557; 0.0217065; 0.0218435;
   0.0219673; 0.0220782; 0.022177; 0.0222642; 0.0223402; 0.0224057; 0.022461; 0.0225065; 0.0225425;
   0.0225692; 0.0225867; 0.022595; 0.0225938; 0.0225829; 0.0225617; 0.0225296; 0.0224856; 0.0224284;
   0.0223566; 0.0222684; 0.0221614; 0.022033; 0.02188; 0.0216986; 0.0214841; 0.0212313; 0.0209337; 0.0205839;
   0.0201732; 0.019691; 0.0191254; 0.018462; 0.0176842; 0.0167724; 0.0157035; 0.0144514; 0.0129839;
   0.0112649; 0.00925167; 0.00689451; 0.00413605; 0.000908886; (-0.00286433); (-0.00727305); (-0.012422);
   (-0.0184274); (-0.0254251); (-0.0335685); (-0.043035); (-0.0540149); (-0.0667272); (-0.0814032);
   (-0.0983111); (-0.117713); (-0.139908); (-0.165186); (-0.193827); (-0.226116); (-0.262266); (-0.302466);
   (-0.346799); (-0.395295); (-0.447823); (-0.504197); (-0.564103); (-0.627131); (-0.692839); (-0.760788);
   (-0.830604); (-0.902061); (-0.974879); (-1.04885); (-1.12387); (-1.19986); (-1.27657); (-1.35384);
   (-1.43182); (-1.51017); (-1.58887); (-1.66798); (-1.74743); (-1.82669); (-1.90751); (-1.98598);
   (-2.04971); (-2.13067); (-2.21163); (-2.29259); (-2.37356); (-2.45453); (-2.5355); (-2.61647); (-2.69745);
   (-2.77843); (-2.8594); (-2.94038); (-3.02136); (-3.10234); (-3.18333); (-3.26431); (-3.3453); (-3.42628);
   (-3.50727); (-3.58825); (-3.66924)];
  [(-0.223884); (-0.208781); (-0.194523); (-0.181081); (-0.168426); (-0.156525); (-0.145347); (-0.134859);
   (-0.125029); (-0.115823); (-0.10721); (-0.0991584); (-0.0916359); (-0.0846127); (-0.0780594);
   (-0.0719475); (-0.0662497); (-0.0609398); (-0.0559928); (-0.0513847); (-0.0470929); (-0.0430957);
   (-0.0393729); (-0.0359051); (-0.0326742); (-0.029663); (-0.0268555); (-0.0242365); (-0.0217919);
   (-0.0195083); (-0.0173735); (-0.0153756); (-0.0135039); (-0.0117483); (-0.0100991); (-0.00854775);
   (-0.00708586); (-0.00570579); (-0.00440042); (-0.0031631); (-0.00198765); (-0.000868339); 0.00020017;
   0.00122282; 0.00220421; 0.00314859; 0.00405988; 0.00494172; 0.00579745; 0.00663014; 0.00744262;
   0.00823744; 0.00901696; 0.00978328; 0.0105383; 0.0112836; 0.0120208; 0.0127511; 0.0134755; 0.014195;
   0.0149101; 0.0156215; 0.0163293; 0.0170338; 0.0177348; 0.0184321; 0.0191254; 0.019814; 0.0204972;
   0.0211742; 0.021844; 0.0225055; 0.0231576; 0.0237989; 0.0244282; 0.025044; 0.0256451; 0.02623; 0.0267975;
   0.0273463; 0.0278752; 0.0283832; 0.0288694; 0.0293329; 0.0297731; 0.0301896; 0.030582; 0.0309503;
   0.0312944; 0.0316146; 0.0319111; 0.0321846; 0.0324356; 0.0326647; 0.0328729; 0.0330608; 0.0332294;
   0.0333795; 0.0335119; 0.0336276; 0.0337273; 0.0338115; 0.033881; 0.0339362; 0.0339774; 0.0340048;
   0.0340183; 0.0340176; 0.0340024; 0.0339719; 0.033925; 0.0338604; 0.0337762; 0.0336703; 0.03354; 0.0333819;
   0.0331921; 0.0329658; 0.0326973; 0.0323801; 0.032006; 0.0315659; 0.0310486; 0.0304413; 0.0297288;
   0.0288931; 0.0279135; 0.0267657; 0.0254209; 0.0238458; 0.0220015; 0.0198425; 0.0173161; 0.0143612;
   0.0109065; 0.00686995; 0.00215693; (-0.00334283); (-0.00975213); (-0.0172137); (-0.0258898); (-0.0359603);
   (-0.0476287); (-0.0611167); (-0.0766728); (-0.0945608); (-0.115052); (-0.138444); (-0.165026);
   (-0.195071); (-0.22885); (-0.266559); (-0.308355); (-0.354293); (-0.404351); (-0.458384); (-0.516149);
   (-0.5773); (-0.641417); (-0.708052); (-0.776778); (-0.847281); (-0.919295); (-0.992614); (-1.06704);
   (-1.14249); (-1.2188); (-1.29578); (-1.37331); (-1.45151); (-1.52998); (-1.60903); (-1.68818); (-1.76782);
   (-1.84713); (-1.92806); (-2.0078); (-2.0713); (-2.15225); (-2.23321); (-2.31417); (-2.39513); (-2.4761);
   (-2.55706); (-2.63803); (-2.719); (-2.79997); (-2.88095); (-2.96193); (-3.0429); (-3.12388); (-3.20486);
   (-3.28584); (-3.36683); (-3.44781); (-3.5288); (-3.60978); (-3.69077); (-3.77175); (-3.85274)];
  [(-0.356328); (-0.334567); (-0.313777); (-0.293949); (-0.275073); (-0.257134); (-0.240114); (-0.22399);
   (-0.20874); (-0.194335); (-0.180747); (-0.167947); (-0.155903); (-0.144583); (-0.133954); (-0.123984);
   (-0.114639); (-0.105889); (-0.097699); (-0.0900395); (-0.0828796); (-0.0761895); (-0.0699406);
   (-0.0641054); (-0.0586574); (-0.0535713); (-0.0488229); (-0.0443893); (-0.0402487); (-0.0363803);
   (-0.0327648); (-0.0293836); (-0.0262195); (-0.023256); (-0.0204778); (-0.0178706); (-0.0154208);
   (-0.0131158); (-0.0109437); (-0.00889361); (-0.00695508); (-0.00511852); (-0.00337498); (-0.00171611);
   (-0.000134152); 0.00137811; 0.00282736; 0.00421978; 0.0055611; 0.00685659; 0.00811112; 0.00932912;
   0.0105147; 0.0116715; 0.0128029; 0.0139119; 0.0150011; 0.0160729; 0.0171294; 0.0181722; 0.0192028;
   0.0202223; 0.0212316; 0.0222312; 0.0232215; 0.0242025; 0.025174; 0.0261355; 0.0270864; 0.0280258;
   0.0289527; 0.0298657; 0.0307636; 0.0316449; 0.0325079; 0.033351; 0.0341725; 0.0349709; 0.0357444;
   0.0364916; 0.0372109; 0.0379011; 0.0385611; 0.0391899; 0.0397866; 0.0403509; 0.0408823; 0.0413807;
   0.0418464; 0.0422795; 0.0426807; 0.0430506; 0.0433902; 0.0437002; 0.043982; 0.0442366; 0.0444652;
   0.0446691; 0.0448494; 0.0450072; 0.0451438; 0.04526; 0.0453567; 0.0454346; 0.0454941; 0.0455357;
   0.0455594; 0.0455649; 0.0455519; 0.0455194; 0.0454663; 0.045391; 0.0452913; 0.0451647; 0.0450079;
   0.0448168; 0.0445867; 0.0443119; 0.0439854; 0.0435992; 0.0431435; 0.0426071; 0.0419766; 0.0412364;
   0.0403679; 0.0393495; 0.0381563; 0.0367583; 0.0351212; 0.0332047; 0.030962; 0.0283385; 0.0252712;
   0.0216866; 0.0175002; 0.0126146; 0.00691673; 0.000280251; (-0.00744097); (-0.0164126); (-0.0268188);
   (-0.0388663); (-0.052781); (-0.0688136); (-0.0872304); (-0.108305); (-0.132334); (-0.159603); (-0.190382);
   (-0.224932); (-0.263439); (-0.306045); (-0.352791); (-0.403633); (-0.458414); (-0.516859); (-0.578616);
   (-0.643266); (-0.71036); (-0.779481); (-0.850329); (-0.922643); (-0.996219); (-1.07091); (-1.14656);
   (-1.22305); (-1.3002); (-1.37794); (-1.45623); (-1.53483); (-1.61398); (-1.69315); (-1.77297); (-1.85248);
   (-1.93302); (-2.01305); (-2.0774); (-2.15835); (-2.2393); (-2.32025); (-2.40121); (-2.48217); (-2.56314);
   (-2.64411); (-2.72507); (-2.80605); (-2.88702); (-2.96799); (-3.04897); (-3.12995); (-3.21093);
   (-3.29191); (-3.37289); (-3.45387); (-3.53485); (-3.61584); (-3.69682); (-3.77781); (-3.8588); (-3.93979)];
  [(-0.492346); (-0.46527); (-0.439117); (-0.413908); (-0.389654); (-0.366367); (-0.344049); (-0.322702);
   (-0.30232); (-0.282894); (-0.264411); (-0.246854); (-0.230204); (-0.214437); (-0.199527); (-0.185447);
   (-0.172168); (-0.159659); (-0.147887); (-0.13682); (-0.126427); (-0.116672); (-0.107525); (-0.0989517);
   (-0.0909213); (-0.0834024); (-0.0763647); (-0.069779); (-0.0636169); (-0.0578514); (-0.0524563);
   (-0.0474069); (-0.0426793); (-0.0382511); (-0.0341008); (-0.0302083); (-0.0265544); (-0.0231211);
   (-0.0198915); (-0.0168496); (-0.0139804); (-0.0112699); (-0.00870496); (-0.00627329); (-0.00396342);
   (-0.00176466); 0.000332926; 0.0023386; 0.00426092; 0.00610784; 0.00788668; 0.00960419; 0.0112666;
   0.0128794; 0.014448; 0.0159769; 0.0174702; 0.0189318; 0.0203649; 0.0217722; 0.0231564; 0.0245192;
   0.0258625; 0.0271873; 0.0284946; 0.0297847; 0.031058; 0.0323142; 0.0335527; 0.0347729; 0.0359738;
   0.0371539; 0.038312; 0.0394463; 0.0405551; 0.0416366; 0.0426888; 0.0437099; 0.0446979; 0.0456512;
   0.0465681; 0.0474471; 0.0482868; 0.0490862; 0.0498444; 0.0505609; 0.0512354; 0.0518678; 0.0524583;
   0.0530075; 0.0535161; 0.053985; 0.0544154; 0.0548085; 0.0551658; 0.0554889; 0.0557792; 0.0560384;
   0.0562679; 0.0564694; 0.0566443; 0.0567937; 0.0569189; 0.0570208; 0.0571002; 0.0571575; 0.0571929;
   0.0572063; 0.0571973; 0.0571651; 0.0571082; 0.0570249; 0.056913; 0.0567693; 0.0565901; 0.056371;
   0.0561063; 0.0557895; 0.0554127; 0.0549665; 0.0544398; 0.0538196; 0.0530904; 0.0522342; 0.0512298;
   0.0500525; 0.048673; 0.0470575; 0.0451665; 0.0429538; 0.0403658; 0.0373406; 0.0338059; 0.0296787;
   0.0248631; 0.0192485; 0.01271; 0.00510418; (-0.00373079); (-0.0139788); (-0.0258408); (-0.0395424);
   (-0.0553249); (-0.0734566); (-0.0942092); (-0.117874); (-0.144738); (-0.175073); (-0.209138); (-0.247131);
   (-0.289202); (-0.335408); (-0.38572); (-0.439991); (-0.497975); (-0.559326); (-0.62363); (-0.690445);
   (-0.759356); (-0.830019); (-0.902201); (-0.975668); (-1.05025); (-1.12582); (-1.20226); (-1.27939);
   (-1.35708); (-1.43536); (-1.51397); (-1.59304); (-1.67238); (-1.75208); (-1.83176); (-1.91213);
   (-1.99174); (-2.05711); (-2.13806); (-2.21901); (-2.29996); (-2.38092); (-2.46188); (-2.54284); (-2.6238);
   (-2.70477); (-2.78574); (-2.86671); (-2.94768); (-3.02866); (-3.10963); (-3.19061); (-3.27159);
   (-3.35257); (-3.43355); (-3.51453); (-3.59552); (-3.6765); (-3.75749); (-3.83847); (-3.91946); (-4.00045)];
  [(-0.623826); (-0.592878); (-0.562718); (-0.533382); (-0.504901); (-0.477307); (-0.450623); (-0.42487);
   (-0.400066); (-0.376221); (-0.353343); (-0.331434); (-0.31049); (-0.290506); (-0.271469); (-0.253366);
   (-0.236176); (-0.21988); (-0.204451); (-0.189864); (-0.176089); (-0.163097); (-0.150856); (-0.139333);
   (-0.128496); (-0.118311); (-0.108747); (-0.0997689); (-0.0913458); (-0.0834458); (-0.076038);
   (-0.0690924); (-0.0625802); (-0.0564735); (-0.0507455); (-0.0453707); (-0.0403245); (-0.0355838);
   (-0.0311264); (-0.0269316); (-0.0229794); (-0.0192514); (-0.0157298); (-0.0123983); (-0.00924131);
   (-0.00624439); (-0.00339395); (-0.000677365); 0.00191715; 0.00440054; 0.00678294; 0.00907373; 0.0112816;
   0.0134143; 0.0154793; 0.0174831; 0.0194317; 0.0213304; 0.0231839; 0.0249965; 0.0267718; 0.0285129;
   0.0302223; 0.0319021; 0.0335538; 0.0351786; 0.0367772; 0.0383496; 0.0398958; 0.0414153; 0.042907;
   0.0443699; 0.0458025; 0.0472031; 0.0485699; 0.0499008; 0.0511939; 0.0524471; 0.0536584; 0.0548257;
   0.0559473; 0.0570216; 0.0580471; 0.0590226; 0.0599474; 0.0608208; 0.0616425; 0.0624126; 0.0631316; 0.0638;
   0.0644189; 0.0649895; 0.0655132; 0.0659917; 0.0664268; 0.0668204; 0.0671743; 0.0674906; 0.0677713;
   0.0680182; 0.0682331; 0.0684176; 0.0685733; 0.0687013; 0.0688026; 0.068878; 0.0689278; 0.0689521;
   0.0689505; 0.0689221; 0.0688658; 0.0687796; 0.068661; 0.0685069; 0.0683131; 0.0680748; 0.0677859;
   0.0674393; 0.0670264; 0.0665368; 0.0659584; 0.065277; 0.0644757; 0.0635346; 0.0624307; 0.0611367;
   0.0596209; 0.0578462; 0.0557695; 0.0533404; 0.0505008; 0.047183; 0.0433087; 0.0387881; 0.0335175;
   0.0273774; 0.020234; 0.0119335; 0.00230221; (-0.00885213); (-0.0217445); (-0.0366082); (-0.0537003);
   (-0.0732913); (-0.0956578); (-0.121093); (-0.149878); (-0.18227); (-0.218509); (-0.258757); (-0.303124);
   (-0.351613); (-0.404138); (-0.460502); (-0.520401); (-0.583446); (-0.64921); (-0.717263); (-0.787225);
   (-0.858793); (-0.931752); (-1.0059); (-1.08108); (-1.1572); (-1.23409); (-1.31159); (-1.38966);
   (-1.46823); (-1.5471); (-1.62645); (-1.70588); (-1.78588); (-1.8656); (-1.94591); (-2.01125); (-2.09219);
   (-2.17314); (-2.25409); (-2.33504); (-2.41599); (-2.49695); (-2.57791); (-2.65888); (-2.73985);
   (-2.82081); (-2.90179); (-2.98276); (-3.06373); (-3.14471); (-3.22569); (-3.30667); (-3.38765);
   (-3.46863); (-3.54961); (-3.6306); (-3.71158); (-3.79257); (-3.87355); (-3.95454); (-4.03553)];
  [(-0.747011); (-0.713373); (-0.680366); (-0.648032); (-0.616413); (-0.585548); (-0.555475); (-0.526231);
   (-0.497847); (-0.470351); (-0.443768); (-0.418118); (-0.393417); (-0.369674); (-0.346897); (-0.325085);
   (-0.304236); (-0.284342); (-0.26539); (-0.247365); (-0.230248); (-0.214016); (-0.198644); (-0.184105);
   (-0.170369); (-0.157406); (-0.145185); (-0.133672); (-0.122835); (-0.11264); (-0.103055); (-0.0940458);
   (-0.0855809); (-0.0776286); (-0.070158); (-0.0631394); (-0.0565437); (-0.0503432); (-0.0445114);
   (-0.0390226); (-0.0338527); (-0.0289784); (-0.024378); (-0.0200307); (-0.015917); (-0.0120184);
   (-0.00831755); (-0.00479832); (-0.00144548); 0.00175513; 0.0048167; 0.00775147; 0.0105708; 0.0132851;
   0.0159039; 0.0184362; 0.0208897; 0.0232717; 0.0255888; 0.0278465; 0.03005; 0.0322036; 0.034311; 0.0363752;
   0.0383987; 0.0403833; 0.0423304; 0.0442407; 0.0461144; 0.0479514; 0.0497509; 0.0515121; 0.0532335;
   0.0549135; 0.0565503; 0.0581419; 0.059686; 0.0611806; 0.0626236; 0.0640127; 0.0653462; 0.0666222;
   0.0678393; 0.0689964; 0.0700924; 0.0711269; 0.0720998; 0.0730112; 0.0738616; 0.0746521; 0.0753837;
   0.076058; 0.0766769; 0.0772423; 0.0777563; 0.0782212; 0.0786395; 0.0790134; 0.0793452; 0.0796374;
   0.0798919; 0.0801108; 0.0802958; 0.0804484; 0.0805698; 0.080661; 0.0807224; 0.0807542; 0.080756;
   0.0807269; 0.0806656; 0.0805698; 0.0804369; 0.0802633; 0.0800444; 0.0797746; 0.0794471; 0.0790539;
   0.0785851; 0.0780291; 0.0773723; 0.0765984; 0.0756884; 0.0746199; 0.0733669; 0.0718984; 0.0701789;
   0.0681666; 0.065813; 0.0630617; 0.0598474; 0.0560945; 0.0517159; 0.0466113; 0.0406655; 0.0337483;
   0.0257107; 0.0163852; 0.00558258; (-0.00690432); (-0.0213044); (-0.0378683); (-0.056862); (-0.078561);
   (-0.103254); (-0.131224); (-0.162734); (-0.198029); (-0.237291); (-0.280646); (-0.328126); (-0.379671);
   (-0.43511); (-0.49417); (-0.556489); (-0.621644); (-0.689198); (-0.758751); (-0.829987); (-0.902655);
   (-0.976571); (-1.05156); (-1.12749); (-1.20426); (-1.28167); (-1.35964); (-1.43815); (-1.517); (-1.59627);
   (-1.67577); (-1.75561); (-1.83546); (-1.91587); (-1.99595); (-2.0625); (-2.14344); (-2.22438); (-2.30533);
   (-2.38628); (-2.46724); (-2.5482); (-2.62916); (-2.71013); (-2.79109); (-2.87206); (-2.95303); (-3.034);
   (-3.11498); (-3.19596); (-3.27693); (-3.35791); (-3.43889); (-3.51987); (-3.60086); (-3.68184);
   (-3.76283); (-3.84381); (-3.9248); (-4.00578); (-4.08677)];
  [(-0.860779); (-0.825301); (-0.790314); (-0.755857); (-0.721974); (-0.688706); (-0.656096); (-0.624186);
   (-0.593016); (-0.562626); (-0.53305); (-0.504324); (-0.476475); (-0.449529); (-0.423509); (-0.39843);
   (-0.374306); (-0.351142); (-0.328941); (-0.307702); (-0.287417); (-0.268076); (-0.249664); (-0.232163);
   (-0.21555); (-0.199802); (-0.184891); (-0.170789); (-0.157466); (-0.14489); (-0.133028); (-0.121848);
   (-0.111315); (-0.101398); (-0.0920617); (-0.0832748); (-0.075005); (-0.0672212); (-0.059893);
   (-0.0529912); (-0.0464875); (-0.040355); (-0.0345678); (-0.0291011); (-0.0239315); (-0.0190368);
   (-0.0143959); (-0.00998898); (-0.00579742); (-0.00180373); 0.00200846; 0.0056544; 0.00914825; 0.0125031;
   0.0157312; 0.0188435; 0.0218503; 0.0247608; 0.0275833; 0.0303253; 0.0329933; 0.0355932; 0.0381299;
   0.0406077; 0.0430299; 0.0453994; 0.0477182; 0.0499877; 0.0522087; 0.0543815; 0.0565058; 0.0585808;
   0.0606054; 0.0625781; 0.0644971; 0.0663604; 0.0681659; 0.0699114; 0.0715946; 0.0732135; 0.074766;
   0.0762505; 0.0776653; 0.0790093; 0.0802817; 0.0814819; 0.0826101; 0.0836664; 0.0846518; 0.0855672;
   0.0864143; 0.0871949; 0.0879112; 0.0885654; 0.0891601; 0.0896981; 0.090182; 0.0906147; 0.0909989;
   0.0913373; 0.0916323; 0.0918862; 0.0921012; 0.0922789; 0.092421; 0.0925283; 0.0926016; 0.0926411;
   0.0926465; 0.0926167; 0.0925504; 0.0924451; 0.0922978; 0.0921045; 0.0918602; 0.0915586; 0.0911922;
   0.0907519; 0.0902268; 0.089604; 0.0888681; 0.0880011; 0.0869817; 0.0857851; 0.0843821; 0.0827385;
   0.0808147; 0.0785643; 0.0759336; 0.0728602; 0.0692719; 0.0650854; 0.060205; 0.0545209; 0.0479067;
   0.040221; 0.0313025; 0.0209695; 0.00902142; (-0.0047642); (-0.0206277); (-0.0388315); (-0.059647);
   (-0.0833589); (-0.110251); (-0.140593); (-0.174636); (-0.212585); (-0.254586); (-0.300712); (-0.350924);
   (-0.405097); (-0.462996); (-0.524286); (-0.588561); (-0.655388); (-0.724353); (-0.7951); (-0.867354);
   (-0.940919); (-1.01562); (-1.0913); (-1.16785); (-1.24512); (-1.32295); (-1.40134); (-1.48014);
   (-1.55929); (-1.63883); (-1.71853); (-1.79856); (-1.87865); (-1.95881); (-2.0259); (-2.10684); (-2.18778);
   (-2.26872); (-2.34967); (-2.43062); (-2.51158); (-2.59254); (-2.6735); (-2.75446); (-2.83543); (-2.9164);
   (-2.99737); (-3.07834); (-3.15932); (-3.24029); (-3.32127); (-3.40225); (-3.48323); (-3.56421); (-3.6452);
   (-3.72618); (-3.80716); (-3.88815); (-3.96914); (-4.05012); (-4.13111)];
  [(-0.965337); (-0.928595); (-0.892229); (-0.856276); (-0.820775); (-0.785764); (-0.751285); (-0.71738);
   (-0.684092); (-0.651464); (-0.619536); (-0.588349); (-0.557943); (-0.528352); (-0.499609); (-0.471744);
   (-0.444782); (-0.418744); (-0.393646); (-0.3695); (-0.346312); (-0.324084); (-0.302814); (-0.282495);
   (-0.263114); (-0.244658); (-0.227107); (-0.210439); (-0.19463); (-0.179652); (-0.165476); (-0.152072);
   (-0.139408); (-0.127451); (-0.116167); (-0.105525); (-0.0954887); (-0.0860268); (-0.0771062);
   (-0.0686948); (-0.0607614); (-0.0532759); (-0.046209); (-0.0395325); (-0.0332194); (-0.0272441);
   (-0.021582); (-0.0162097); (-0.0111054); (-0.00624819); (-0.00161858); 0.00280173; 0.0070298; 0.0110815;
   0.0149717; 0.0187138; 0.0223204; 0.0258029; 0.0291716; 0.0324358; 0.0356039; 0.0386832; 0.04168; 0.0446;
   0.0474476; 0.0502266; 0.05294; 0.0555899; 0.0581779; 0.0607047; 0.0631705; 0.0655749; 0.067917; 0.0701955;
   0.0724089; 0.0745551; 0.0766322; 0.0786379; 0.08057; 0.0824265; 0.0842053; 0.0859047; 0.0875231;
   0.0890595; 0.090513; 0.0918834; 0.0931708; 0.0943756; 0.095499; 0.0965423; 0.0975072; 0.0983962;
   0.0992115; 0.099956; 0.100633; 0.101244; 0.101795; 0.102286; 0.102723; 0.103107; 0.103442; 0.10373;
   0.103973; 0.104174; 0.104335; 0.104455; 0.104537; 0.10458; 0.104584; 0.104548; 0.10447; 0.104347;
   0.104176; 0.103953; 0.10367; 0.103322; 0.1029; 0.102392; 0.101787; 0.10107; 0.100224; 0.0992264;
   0.0980545; 0.0966795; 0.0950681; 0.0931815; 0.0909744; 0.0883943; 0.0853803; 0.0818619; 0.0777575;
   0.0729736; 0.0674028; 0.0609217; 0.0533918; 0.0446551; 0.0345339; 0.0228314; 0.00932918; (-0.00620942);
   (-0.0240422); (-0.04444); (-0.0676797); (-0.0940478); (-0.123818); (-0.157238); (-0.194532); (-0.235847);
   (-0.281273); (-0.330795); (-0.384306); (-0.44159); (-0.502327); (-0.566136); (-0.63258); (-0.701232);
   (-0.771733); (-0.843788); (-0.917179); (-0.991732); (-1.0673); (-1.14376); (-1.22096); (-1.29876);
   (-1.37709); (-1.4559); (-1.53502); (-1.61457); (-1.69424); (-1.77435); (-1.85431); (-1.93476); (-2.01533);
   (-2.08317); (-2.1641); (-2.24504); (-2.32599); (-2.40694); (-2.48789); (-2.56885); (-2.64981); (-2.73077);
   (-2.81173); (-2.8927); (-2.97367); (-3.05464); (-3.13561); (-3.21659); (-3.29756); (-3.37854); (-3.45952);
   (-3.5405); (-3.62148); (-3.70246); (-3.78345); (-3.86443); (-3.94542); (-4.0264); (-4.10739); (-4.18838)];
  [(-1.06145); (-1.02382); (-0.986481); (-0.949463); (-0.912798); (-0.876522); (-0.84067); (-0.805282);
   (-0.770398); (-0.736061); (-0.702311); (-0.669192); (-0.636745); (-0.605013); (-0.574035); (-0.543848);
   (-0.514488); (-0.485984); (-0.458366); (-0.431656); (-0.405874); (-0.381034); (-0.357146); (-0.334214);
   (-0.312239); (-0.291215); (-0.271135); (-0.251984); (-0.233747); (-0.216403); (-0.199929); (-0.184298);
   (-0.169483); (-0.155455); (-0.142181); (-0.12963); (-0.117768); (-0.106561); (-0.0959777); (-0.0859828);
   (-0.0765439); (-0.0676283); (-0.0592044); (-0.0512414); (-0.0437092); (-0.0365792); (-0.0298237);
   (-0.0234163); (-0.0173319); (-0.0115465); (-0.0060377); (-0.000784085); 0.00423425; 0.00903596; 0.0136385;
   0.0180578; 0.022309; 0.0264055; 0.0303599; 0.0341834; 0.0378862; 0.0414773; 0.0449645; 0.0483548;
   0.051654; 0.0548671; 0.0579978; 0.0610494; 0.064024; 0.0669229; 0.0697471; 0.0724965; 0.0751705;
   0.0777683; 0.0802883; 0.0827289; 0.085088; 0.0873637; 0.0895537; 0.091656; 0.0936686; 0.0955899;
   0.0974184; 0.0991531; 0.100793; 0.102339; 0.10379; 0.105148; 0.106413; 0.107588; 0.108674; 0.109675;
   0.110593; 0.11143; 0.112192; 0.112881; 0.1135; 0.114054; 0.114546; 0.114979; 0.115357; 0.115683; 0.11596;
   0.116189; 0.116373; 0.116513; 0.11661; 0.116664; 0.116676; 0.116643; 0.116565; 0.116439; 0.11626;
   0.116024; 0.115725; 0.115356; 0.114906; 0.114366; 0.113721; 0.112956; 0.112052; 0.110987; 0.109736;
   0.108269; 0.106549; 0.104536; 0.102182; 0.0994317; 0.0962196; 0.0924717; 0.088102; 0.0830119; 0.0770885;
   0.0702023; 0.0622084; 0.0529417; 0.0422175; 0.0298316; 0.0155589; (-0.000843535); (-0.0196388);
   (-0.0410989); (-0.0655065); (-0.0931397); (-0.124267); (-0.159126); (-0.197911); (-0.240756); (-0.287715);
   (-0.338735); (-0.393676); (-0.452287); (-0.514223); (-0.579075); (-0.646413); (-0.71583); (-0.786979);
   (-0.859595); (-0.933486); (-1.00848); (-1.08445); (-1.16125); (-1.23874); (-1.31679); (-1.39536);
   (-1.47435); (-1.55367); (-1.63335); (-1.7132); (-1.79334); (-1.87359); (-1.95393); (-2.02234); (-2.10328);
   (-2.18421); (-2.26515); (-2.3461); (-2.42705); (-2.508); (-2.58895); (-2.66991); (-2.75087); (-2.83184);
   (-2.91281); (-2.99377); (-3.07475); (-3.15572); (-3.23669); (-3.31767); (-3.39865); (-3.47963);
   (-3.56061); (-3.64159); (-3.72257); (-3.80356); (-3.88454); (-3.96553); (-4.04651); (-4.1275); (-4.20849)];
  [(-1.15003); (-1.11177); (-1.07372); (-1.03593); (-0.998421); (-0.961215); (-0.924347); (-0.887852);
   (-0.851766); (-0.816125); (-0.780972); (-0.746346); (-0.71229); (-0.678846); (-0.646057); (-0.613965);
   (-0.582609); (-0.552028); (-0.522258); (-0.493331); (-0.465276); (-0.438119); (-0.41188); (-0.386575);
   (-0.362215); (-0.338807); (-0.316353); (-0.294848); (-0.274287); (-0.254657); (-0.235942); (-0.218124);
   (-0.201181); (-0.185086); (-0.169813); (-0.155333); (-0.141614); (-0.128624); (-0.116331); (-0.104701);
   (-0.0937001); (-0.0832952); (-0.0734528); (-0.0641404); (-0.0553257); (-0.0469777); (-0.0390662);
   (-0.0315621); (-0.0244374); (-0.0176655); (-0.011221); (-0.00507978); 0.000780855; 0.00638226; 0.0117444;
   0.016886; 0.0218242; 0.026575; 0.0311531; 0.0355716; 0.0398426; 0.0439768; 0.0479839; 0.0518721;
   0.0556487; 0.0593197; 0.0628902; 0.0663641; 0.0697446; 0.0730337; 0.0762328; 0.0793425; 0.0823627;
   0.0852928; 0.0881317; 0.0908777; 0.0935292; 0.0960842; 0.0985407; 0.100897; 0.10315; 0.1053; 0.107345;
   0.109283; 0.111115; 0.11284; 0.114459; 0.115973; 0.117383; 0.118692; 0.119902; 0.121016; 0.122038;
   0.12297; 0.123817; 0.124583; 0.125272; 0.125888; 0.126434; 0.126916; 0.127335; 0.127697; 0.128004;
   0.128257; 0.128461; 0.128615; 0.128722; 0.128781; 0.128792; 0.128755; 0.128666; 0.128523; 0.128321;
   0.128056; 0.12772; 0.127305; 0.126801; 0.126195; 0.125472; 0.124616; 0.123604; 0.122413; 0.121014;
   0.119373; 0.117452; 0.115204; 0.112577; 0.109509; 0.105929; 0.101754; 0.096892; 0.0912334; 0.0846548;
   0.0770171; 0.068162; 0.0579119; 0.04607; 0.0324184; 0.0167212; (-0.00127793); (-0.0218478); (-0.0452644);
   (-0.0718099); (-0.101755); (-0.135347); (-0.172802); (-0.214269); (-0.259836); (-0.309488); (-0.363121);
   (-0.420517); (-0.481369); (-0.545291); (-0.611856); (-0.680641); (-0.75127); (-0.823457); (-0.896975);
   (-0.971661); (-1.04735); (-1.12393); (-1.20125); (-1.27917); (-1.35762); (-1.43655); (-1.5158);
   (-1.59543); (-1.67524); (-1.75537); (-1.83555); (-1.91613); (-1.99657); (-2.0658); (-2.14673); (-2.22767);
   (-2.30861); (-2.38955); (-2.4705); (-2.55146); (-2.63241); (-2.71337); (-2.79433); (-2.8753); (-2.95626);
   (-3.03723); (-3.1182); (-3.19918); (-3.28015); (-3.36113); (-3.44211); (-3.52308); (-3.60406); (-3.68505);
   (-3.76603); (-3.84701); (-3.928); (-4.00898); (-4.08997); (-4.17096); (-4.25194)];
  [(-1.23199); (-1.19325); (-1.15469); (-1.11632); (-1.07818); (-1.04028); (-1.00265); (-0.965316);
   (-0.928315); (-0.891678); (-0.855441); (-0.819641); (-0.784318); (-0.749513); (-0.715267); (-0.681624);
   (-0.648627); (-0.616315); (-0.584731); (-0.553913); (-0.523896); (-0.494715); (-0.466398); (-0.438972);
   (-0.412457); (-0.38687); (-0.362223); (-0.338524); (-0.315774); (-0.293972); (-0.273109); (-0.253176);
   (-0.234157); (-0.216034); (-0.198784); (-0.182382); (-0.166802); (-0.152015); (-0.137989); (-0.124692);
   (-0.112093); (-0.100156); (-0.088849); (-0.078138); (-0.0679896); (-0.0583711); (-0.0492505);
   (-0.0405964); (-0.0323786); (-0.0245682); (-0.0171371); (-0.0100587); (-0.00330786); 0.00313941;
   0.00930557; 0.0152117; 0.0208774; 0.0263209; 0.0315589; 0.0366068; 0.0414785; 0.0461866; 0.0507423;
   0.0551555; 0.0594347; 0.0635874; 0.0676197; 0.0715366; 0.0753422; 0.0790393; 0.0826301; 0.0861156;
   0.0894963; 0.0927721; 0.095942; 0.0990049; 0.101959; 0.104803; 0.107535; 0.110153; 0.112656; 0.115041;
   0.117308; 0.119456; 0.121485; 0.123394; 0.125186; 0.12686; 0.12842; 0.129867; 0.131204; 0.132435;
   0.133563; 0.134593; 0.135529; 0.136374; 0.137135; 0.137816; 0.13842; 0.138952; 0.139417; 0.139817;
   0.140157; 0.14044; 0.140667; 0.140841; 0.140963; 0.141033; 0.141051; 0.141016; 0.140925; 0.140777;
   0.140565; 0.140285; 0.13993; 0.139489; 0.138953; 0.138309; 0.13754; 0.136628; 0.135551; 0.134283;
   0.132794; 0.131048; 0.129004; 0.126614; 0.123821; 0.12056; 0.116758; 0.112326; 0.107168; 0.101168;
   0.0941986; 0.0861135; 0.0767481; 0.0659181; 0.0534201; 0.0390297; 0.0225052; 0.00358576; (-0.0180005);
   (-0.0425291); (-0.0702799); (-0.101517); (-0.136473); (-0.175348); (-0.218268); (-0.26529); (-0.316366);
   (-0.371358); (-0.43002); (-0.49201); (-0.556934); (-0.624356); (-0.693867); (-0.765122); (-0.837847);
   (-0.911843); (-0.986945); (-1.06302); (-1.13993); (-1.21753); (-1.2957); (-1.37438); (-1.45348);
   (-1.5329); (-1.6127); (-1.69263); (-1.77292); (-1.85314); (-1.93372); (-2.00342); (-2.08435); (-2.16528);
   (-2.24621); (-2.32715); (-2.4081); (-2.48905); (-2.57); (-2.65096); (-2.73191); (-2.81288); (-2.89384);
   (-2.97481); (-3.05578); (-3.13675); (-3.21772); (-3.29869); (-3.37967); (-3.46065); (-3.54163);
   (-3.62261); (-3.70359); (-3.78457); (-3.86556); (-3.94654); (-4.02753); (-4.10851); (-4.1895); (-4.27049)];
  [(-1.30813); (-1.26902); (-1.23006); (-1.19126); (-1.15264); (-1.11421); (-1.07599); (-1.03802);
   (-1.00032); (-0.962912); (-0.925832); (-0.889112); (-0.852789); (-0.816901); (-0.781487); (-0.746587);
   (-0.712245); (-0.678502); (-0.645402); (-0.612985); (-0.581292); (-0.550362); (-0.52023); (-0.490931);
   (-0.462493); (-0.434941); (-0.408298); (-0.382579); (-0.357797); (-0.333958); (-0.311064); (-0.289113);
   (-0.268099); (-0.248009); (-0.228828); (-0.210538); (-0.193117); (-0.176539); (-0.160777); (-0.145803);
   (-0.131584); (-0.11809); (-0.105287); (-0.0931417); (-0.0816204); (-0.0706897); (-0.0603163);
   (-0.0504674); (-0.0411113); (-0.0322168); (-0.0237539); (-0.015694); (-0.00800931); (-0.000673783);
   0.00633742; 0.0130477; 0.0194788; 0.0256513; 0.031584; 0.0372942; 0.0427978; 0.0481093; 0.0532414;
   0.0582057; 0.0630122; 0.0676696; 0.0721853; 0.0765655; 0.0808151; 0.0849379; 0.0889366; 0.0928132;
   0.0965686; 0.100203; 0.103716; 0.107107; 0.110375; 0.113517; 0.116534; 0.119422; 0.12218; 0.124808;
   0.127303; 0.129666; 0.131897; 0.133996; 0.135964; 0.137803; 0.139514; 0.141102; 0.142568; 0.143918;
   0.145155; 0.146284; 0.147309; 0.148235; 0.149068; 0.149813; 0.150474; 0.151057; 0.151565; 0.152003;
   0.152375; 0.152683; 0.152931; 0.15312; 0.153252; 0.153327; 0.153345; 0.153305; 0.153204; 0.153039;
   0.152805; 0.152495; 0.152103; 0.151617; 0.151026; 0.150316; 0.149469; 0.148465; 0.147281; 0.145886;
   0.144249; 0.142331; 0.140086; 0.137462; 0.134398; 0.130823; 0.126657; 0.121807; 0.116164; 0.109609;
   0.102002; 0.0931871; 0.0829902; 0.0712158; 0.0576501; 0.0420587; 0.0241915; 0.00378065; (-0.019447);
   (-0.0457703); (-0.0754593); (-0.108761); (-0.145894); (-0.187015); (-0.232217); (-0.281502); (-0.334778);
   (-0.391842); (-0.452403); (-0.516085); (-0.582468); (-0.651129); (-0.721684); (-0.793824); (-0.86732);
   (-0.941998); (-1.0177); (-1.0943); (-1.17167); (-1.24965); (-1.32816); (-1.40714); (-1.48649); (-1.56615);
   (-1.6461); (-1.72624); (-1.80662); (-1.88719); (-1.96757); (-2.03824); (-2.11917); (-2.2001); (-2.28104);
   (-2.36198); (-2.44292); (-2.52387); (-2.60482); (-2.68578); (-2.76674); (-2.8477); (-2.92866); (-3.00963);
   (-3.0906); (-3.17157); (-3.25254); (-3.33352); (-3.41449); (-3.49547); (-3.57645); (-3.65743); (-3.73841);
   (-3.8194); (-3.90038); (-3.98136); (-4.06235); (-4.14334); (-4.22432); (-4.30531)];
  [(-1.37915); (-1.33976); (-1.30049); (-1.26135); (-1.22235); (-1.18351); (-1.14484); (-1.10637);
   (-1.06811); (-1.0301); (-0.99236); (-0.954914); (-0.917797); (-0.881043); (-0.844688); (-0.80877);
   (-0.773328); (-0.738405); (-0.704041); (-0.67028); (-0.637165); (-0.604735); (-0.573033); (-0.542095);
   (-0.511957); (-0.482653); (-0.45421); (-0.426654); (-0.400005); (-0.374278); (-0.349485); (-0.325632);
   (-0.30272); (-0.280746); (-0.259701); (-0.239575); (-0.220351); (-0.202009); (-0.184527); (-0.16788);
   (-0.15204); (-0.136977); (-0.12266); (-0.109058); (-0.0961357); (-0.0838614); (-0.0722009); (-0.0611209);
   (-0.0505883); (-0.0405708); (-0.0310369); (-0.0219558); (-0.0132982); (-0.00503582); 0.00285819;
   0.0104093; 0.0176415; 0.0245772; 0.0312374; 0.0376414; 0.0438069; 0.0497502; 0.0554857; 0.0610267;
   0.0663846; 0.0715695; 0.0765901; 0.0814535; 0.0861659; 0.0907318; 0.0951549; 0.0994378; 0.103582;
   0.107589; 0.111457; 0.115188; 0.118779; 0.12223; 0.12554; 0.128706; 0.131728; 0.134605; 0.137336; 0.13992;
   0.142359; 0.144652; 0.146801; 0.148808; 0.150676; 0.152408; 0.154008; 0.15548; 0.156829; 0.158059;
   0.159177; 0.160187; 0.161095; 0.161907; 0.162628; 0.163264; 0.163819; 0.164298; 0.164705; 0.165043;
   0.165316; 0.165525; 0.165673; 0.16576; 0.165786; 0.165749; 0.165647; 0.165477; 0.165233; 0.16491;
   0.164498; 0.163987; 0.163366; 0.162618; 0.161726; 0.160668; 0.159419; 0.15795; 0.156225; 0.154204;
   0.15184; 0.149077; 0.145853; 0.142093; 0.137713; 0.132616; 0.126691; 0.119811; 0.111833; 0.102597;
   0.0919211; 0.079606; 0.0654321; 0.0491607; 0.0305383; 0.00929418; (-0.0148446); (-0.0421547);
   (-0.0729006); (-0.10732); (-0.145616); (-0.187929); (-0.234328); (-0.284789); (-0.339193); (-0.39731);
   (-0.458827); (-0.523357); (-0.590472); (-0.659758); (-0.730846); (-0.803448); (-0.877357); (-0.952398);
   (-1.02843); (-1.10531); (-1.18293); (-1.26113); (-1.33984); (-1.419); (-1.49848); (-1.5783); (-1.65835);
   (-1.73865); (-1.81902); (-1.89972); (-1.98026); (-2.05161); (-2.13254); (-2.21347); (-2.2944); (-2.37534);
   (-2.45629); (-2.53724); (-2.61819); (-2.69915); (-2.78011); (-2.86107); (-2.94203); (-3.023); (-3.10397);
   (-3.18494); (-3.26591); (-3.34689); (-3.42786); (-3.50884); (-3.58982); (-3.6708); (-3.75178); (-3.83276);
   (-3.91375); (-3.99473); (-4.07572); (-4.1567); (-4.23769); (-4.31868)];
  [(-1.44565); (-1.40604); (-1.36652); (-1.32711); (-1.28781); (-1.24864); (-1.20961); (-1.17074);
   (-1.13205); (-1.09356); (-1.05529); (-1.01726); (-0.979508); (-0.942057); (-0.90494); (-0.868192);
   (-0.83185); (-0.795952); (-0.760538); (-0.725651); (-0.691331); (-0.657623); (-0.624567); (-0.592205);
   (-0.560577); (-0.52972); (-0.499669); (-0.470456); (-0.442108); (-0.414648); (-0.388096); (-0.362466);
   (-0.337768); (-0.314006); (-0.29118); (-0.269285); (-0.248313); (-0.22825); (-0.209079); (-0.19078);
   (-0.173329); (-0.1567); (-0.140865); (-0.125793); (-0.111454); (-0.0978146); (-0.0848419); (-0.0725025);
   (-0.0607629); (-0.0495901); (-0.0389514); (-0.0288149); (-0.0191497); (-0.00992586); (-0.00111477);
   0.0073109; 0.015377; 0.023108; 0.0305267; 0.0376542; 0.0445102; 0.0511125; 0.0574775; 0.0636198;
   0.0695524; 0.0752869; 0.080833; 0.0861992; 0.0913926; 0.0964189; 0.101282; 0.105987; 0.110534; 0.114925;
   0.119161; 0.123242; 0.127168; 0.130937; 0.134548; 0.138001; 0.141295; 0.144427; 0.1474; 0.150211;
   0.152862; 0.155354; 0.157688; 0.159868; 0.161895; 0.163775; 0.16551; 0.167106; 0.168568; 0.169901;
   0.171112; 0.172206; 0.173189; 0.174068; 0.174849; 0.175536; 0.176136; 0.176653; 0.177092; 0.177457;
   0.17775; 0.177975; 0.178132; 0.178223; 0.178247; 0.178204; 0.178089; 0.1779; 0.17763; 0.177273; 0.176819;
   0.176258; 0.175575; 0.174754; 0.173775; 0.172615; 0.171247; 0.169638; 0.16775; 0.165539; 0.162954;
   0.159936; 0.156415; 0.152312; 0.147537; 0.141984; 0.135536; 0.128056; 0.119392; 0.109375; 0.0978118;
   0.0844945; 0.0691933; 0.0516625; 0.0316393; 0.00885205; (-0.0169718); (-0.0461042); (-0.0787974);
   (-0.115268); (-0.155695); (-0.200176); (-0.248739); (-0.301308); (-0.357711); (-0.417678); (-0.480849);
   (-0.546821); (-0.615163); (-0.685481); (-0.757448); (-0.830809); (-0.905382); (-0.981009); (-1.05756);
   (-1.1349); (-1.2129); (-1.29143); (-1.37043); (-1.44984); (-1.52953); (-1.60957); (-1.68975); (-1.77023);
   (-1.85068); (-1.93142); (-2.00332); (-2.08424); (-2.16517); (-2.2461); (-2.32703); (-2.40797); (-2.48892);
   (-2.56987); (-2.65082); (-2.73178); (-2.81273); (-2.8937); (-2.97466); (-3.05563); (-3.1366); (-3.21757);
   (-3.29854); (-3.37951); (-3.46049); (-3.54147); (-3.62245); (-3.70343); (-3.78441); (-3.86539);
   (-3.94638); (-4.02736); (-4.10835); (-4.18933); (-4.27032); (-4.35131)];
  [(-1.50815); (-1.46836); (-1.42864); (-1.389); (-1.34946); (-1.31002); (-1.2707); (-1.23151); (-1.19247);
   (-1.15359); (-1.11489); (-1.07639); (-1.03812); (-1.00011); (-0.962368); (-0.924941); (-0.887857);
   (-0.851152); (-0.814863); (-0.77903); (-0.743694); (-0.708896); (-0.674679); (-0.641085); (-0.608156);
   (-0.575932); (-0.544453); (-0.513755); (-0.483872); (-0.454833); (-0.426665); (-0.399389); (-0.373022);
   (-0.347578); (-0.323062); (-0.299479); (-0.276827); (-0.255098); (-0.234282); (-0.214364); (-0.195325);
   (-0.177145); (-0.159798); (-0.143257); (-0.127494); (-0.112477); (-0.0981756); (-0.0845563); (-0.0715861);
   (-0.0592319); (-0.0474606); (-0.0362394); (-0.0255364); (-0.0153204); (-0.0055613); 0.0037697; 0.0127002;
   0.0212562; 0.0294624; 0.0373416; 0.0449153; 0.0522028; 0.0592223; 0.0659899; 0.07252; 0.0788255;
   0.0849176; 0.090806; 0.0964987; 0.102002; 0.107322; 0.112463; 0.117427; 0.122216; 0.126832; 0.131276;
   0.135546; 0.139643; 0.143565; 0.147313; 0.150885; 0.154281; 0.157502; 0.160546; 0.163415; 0.166112;
   0.168636; 0.170993; 0.173184; 0.175214; 0.177089; 0.178812; 0.180391; 0.18183; 0.183137; 0.184318;
   0.18538; 0.186329; 0.187172; 0.187914; 0.188563; 0.189122; 0.189597; 0.189993; 0.190312; 0.190557;
   0.190731; 0.190834; 0.190865; 0.190824; 0.190708; 0.190512; 0.190232; 0.189859; 0.189384; 0.188795;
   0.188079; 0.187217; 0.186189; 0.184971; 0.183533; 0.181843; 0.179861; 0.17754; 0.174828; 0.171662;
   0.16797; 0.16367; 0.158668; 0.152856; 0.14611; 0.13829; 0.12924; 0.118783; 0.106726; 0.0928521; 0.0769293;
   0.058708; 0.037923; 0.0143037; (-0.0124243); (-0.0425249); (-0.0762436); (-0.113787); (-0.155311);
   (-0.200901); (-0.25056); (-0.304184); (-0.361581); (-0.422457); (-0.486441); (-0.553116); (-0.622064);
   (-0.692901); (-0.765314); (-0.839068); (-0.913995); (-0.989935); (-1.06676); (-1.14435); (-1.22256);
   (-1.30128); (-1.38046); (-1.46002); (-1.53986); (-1.62); (-1.70029); (-1.78088); (-1.86148); (-1.94221);
   (-2.01486); (-2.09578); (-2.17671); (-2.25764); (-2.33857); (-2.41951); (-2.50046); (-2.58141);
   (-2.66236); (-2.74332); (-2.82428); (-2.90524); (-2.9862); (-3.06717); (-3.14814); (-3.22911); (-3.31008);
   (-3.39106); (-3.47203); (-3.55301); (-3.63399); (-3.71497); (-3.79595); (-3.87693); (-3.95792); (-4.0389);
   (-4.11989); (-4.20087); (-4.28186); (-4.36285)];
  [(-1.56708); (-1.52714); (-1.48725); (-1.44743); (-1.40769); (-1.36803); (-1.32847); (-1.28902);
   (-1.24969); (-1.21049); (-1.17144); (-1.13256); (-1.09386); (-1.05538); (-1.01713); (-0.979139);
   (-0.94144); (-0.904063); (-0.867043); (-0.830415); (-0.794219); (-0.758493); (-0.72328); (-0.688621);
   (-0.65456); (-0.621138); (-0.588396); (-0.556375); (-0.525113); (-0.494643); (-0.464999); (-0.436208);
   (-0.408295); (-0.381278); (-0.355172); (-0.329989); (-0.305732); (-0.282402); (-0.259995); (-0.238502);
   (-0.217911); (-0.198204); (-0.179362); (-0.161361); (-0.144176); (-0.127779); (-0.11214); (-0.0972279);
   (-0.0830104); (-0.069455); (-0.0565287); (-0.0441986); (-0.0324321); (-0.0211972); (-0.0104628);
   (-0.000198898); 0.00962355; 0.0190321; 0.0280527; 0.0367101; 0.045027; 0.0530246; 0.0607224; 0.0681381;
   0.0752876; 0.0821851; 0.088843; 0.0952722; 0.101482; 0.10748; 0.113272; 0.118863; 0.124258; 0.129458;
   0.134466; 0.139282; 0.143907; 0.148341; 0.152584; 0.156635; 0.160493; 0.16416; 0.167634; 0.170917;
   0.17401; 0.176914; 0.179634; 0.18217; 0.184528; 0.186713; 0.188728; 0.190581; 0.192278; 0.193824;
   0.195228; 0.196496; 0.197636; 0.198654; 0.199557; 0.200353; 0.201047; 0.201645; 0.202153; 0.202574;
   0.202913; 0.203172; 0.203353; 0.203458; 0.203485; 0.203433; 0.203299; 0.203079; 0.202767; 0.202353;
   0.201828; 0.201178; 0.200388; 0.19944; 0.198309; 0.196971; 0.195394; 0.19354; 0.191367; 0.188824;
   0.185855; 0.182391; 0.178355; 0.173659; 0.168201; 0.161864; 0.154516; 0.14601; 0.136177; 0.124834;
   0.111773; 0.0967708; 0.0795859; 0.0599625; 0.0376307; 0.0123199; (-0.01624); (-0.0483031); (-0.0840931);
   (-0.123795); (-0.167524); (-0.215327); (-0.267151); (-0.32285); (-0.382173); (-0.444788); (-0.5103);
   (-0.578284); (-0.648334); (-0.7201); (-0.793307); (-0.867764); (-0.943306); (-1.01979); (-1.0971);
   (-1.1751); (-1.25365); (-1.33268); (-1.41213); (-1.49189); (-1.57196); (-1.65223); (-1.73274); (-1.81332);
   (-1.8942); (-1.97494); (-2.04834); (-2.12926); (-2.21019); (-2.29112); (-2.37206); (-2.453); (-2.53394);
   (-2.61489); (-2.69584); (-2.7768); (-2.85776); (-2.93872); (-3.01968); (-3.10065); (-3.18162); (-3.26259);
   (-3.34356); (-3.42454); (-3.50551); (-3.58649); (-3.66747); (-3.74845); (-3.82943); (-3.91041); (-3.9914);
   (-4.07238); (-4.15337); (-4.23435); (-4.31534); (-4.39633)];
  [(-1.62282); (-1.58274); (-1.54272); (-1.50275); (-1.46284); (-1.423); (-1.38324); (-1.34356); (-1.30399);
   (-1.26452); (-1.22518); (-1.18598); (-1.14693); (-1.10806); (-1.06939); (-1.03093); (-0.992715);
   (-0.954776); (-0.91714); (-0.879841); (-0.842915); (-0.806398); (-0.77033); (-0.734753); (-0.699707);
   (-0.665236); (-0.631381); (-0.598185); (-0.565688); (-0.533929); (-0.502944); (-0.472766); (-0.443426);
   (-0.414948); (-0.387355); (-0.360663); (-0.334884); (-0.310025); (-0.28609); (-0.263075); (-0.240973);
   (-0.219774); (-0.199463); (-0.18002); (-0.161425); (-0.143651); (-0.126674); (-0.110463); (-0.0949874);
   (-0.0802169); (-0.0661187); (-0.0526602); (-0.0398089); (-0.0275323); (-0.0157988); (-0.00457729);
   0.0061621; 0.0164482; 0.0263083; 0.0357684; 0.0448527; 0.0535839; 0.0619829; 0.0700688; 0.0778587;
   0.0853684; 0.0926114; 0.0995997; 0.106344; 0.112852; 0.119132; 0.125189; 0.131028; 0.136652; 0.142063;
   0.147264; 0.152254; 0.157035; 0.161606; 0.165968; 0.170121; 0.174064; 0.177799; 0.181326; 0.184648;
   0.187766; 0.190684; 0.193404; 0.195933; 0.198274; 0.200434; 0.202418; 0.204235; 0.20589; 0.207392;
   0.208748; 0.209965; 0.211053; 0.212017; 0.212865; 0.213604; 0.21424; 0.214778; 0.215223; 0.215578;
   0.215848; 0.216033; 0.216134; 0.216152; 0.216082; 0.215924; 0.21567; 0.215314; 0.214847; 0.214257;
   0.213529; 0.212647; 0.211589; 0.21033; 0.208841; 0.207088; 0.205029; 0.202618; 0.199799; 0.19651;
   0.192676; 0.188213; 0.183025; 0.177001; 0.170016; 0.161927; 0.152575; 0.141781; 0.129349; 0.115062;
   0.0986852; 0.0799693; 0.0586498; 0.0344565; 0.00712168; (-0.0236166); (-0.0579959); (-0.0962125);
   (-0.138417); (-0.184679); (-0.234991); (-0.289239); (-0.34722); (-0.408633); (-0.473105); (-0.54022);
   (-0.60956); (-0.68075); (-0.753483); (-0.82753); (-0.902723); (-0.978914); (-1.05597); (-1.13378);
   (-1.21219); (-1.29109); (-1.37044); (-1.45016); (-1.53015); (-1.61044); (-1.69086); (-1.77154);
   (-1.85225); (-1.93313); (-2.00722); (-2.08813); (-2.16905); (-2.24998); (-2.33091); (-2.41185);
   (-2.49279); (-2.57373); (-2.65468); (-2.73563); (-2.81659); (-2.89755); (-2.97851); (-3.05947);
   (-3.14044); (-3.22141); (-3.30238); (-3.38335); (-3.46433); (-3.5453); (-3.62628); (-3.70726); (-3.78824);
   (-3.86922); (-3.95021); (-4.03119); (-4.11217); (-4.19316); (-4.27415); (-4.35513); (-4.43612)];
  [(-1.67568); (-1.6355); (-1.59535); (-1.55525); (-1.5152); (-1.4752); (-1.43527); (-1.39541); (-1.35563);
   (-1.31595); (-1.27636); (-1.23689); (-1.19754); (-1.15834); (-1.11931); (-1.08046); (-1.04181); (-1.0034);
   (-0.96524); (-0.927372); (-0.889823); (-0.852629); (-0.815827); (-0.779454); (-0.743553); (-0.708164);
   (-0.673329); (-0.639091); (-0.605493); (-0.572575); (-0.540376); (-0.508935); (-0.478284); (-0.448456);
   (-0.419478); (-0.391372); (-0.364157); (-0.337846); (-0.312449); (-0.287971); (-0.264409); (-0.241759);
   (-0.220011); (-0.199151); (-0.179163); (-0.160026); (-0.141715); (-0.124205); (-0.107468); (-0.0914739);
   (-0.076192); (-0.0615903); (-0.047637); (-0.0342996); (-0.0215464); (-0.00934567); 0.00233309; 0.0135196;
   0.0242422; 0.034528; 0.0444026; 0.0538898; 0.0630119; 0.0717891; 0.0802402; 0.0883818; 0.0962289;
   0.103795; 0.11109; 0.118125; 0.124908; 0.131446; 0.137743; 0.143804; 0.149631; 0.155227; 0.160594;
   0.165732; 0.170642; 0.175324; 0.179779; 0.184007; 0.18801; 0.191789; 0.195346; 0.198684; 0.201806;
   0.204716; 0.207421; 0.209924; 0.212233; 0.214355; 0.216296; 0.218066; 0.219671; 0.221121; 0.222423;
   0.223587; 0.224619; 0.225528; 0.226321; 0.227004; 0.227584; 0.228066; 0.228453; 0.22875; 0.228958;
   0.229079; 0.229112; 0.229055; 0.228906; 0.228658; 0.228306; 0.22784; 0.227247; 0.226515; 0.225624;
   0.224555; 0.223282; 0.221776; 0.220001; 0.217917; 0.215475; 0.212622; 0.209292; 0.205413; 0.200898;
   0.19565; 0.189559; 0.182498; 0.174325; 0.164879; 0.153982; 0.141437; 0.127026; 0.110515; 0.0916551;
   0.0701822; 0.0458273; 0.0183237; (-0.0125885); (-0.0471447); (-0.0855393); (-0.12792); (-0.174354);
   (-0.224832); (-0.27924); (-0.337373); (-0.39893); (-0.463536); (-0.530782); (-0.600248); (-0.671554);
   (-0.744401); (-0.818554); (-0.893848); (-0.970135); (-1.04729); (-1.12518); (-1.20367); (-1.28266);
   (-1.36209); (-1.44188); (-1.52194); (-1.6023); (-1.68279); (-1.76353); (-1.84428); (-1.92525); (-2.00634);
   (-2.08097); (-2.16189); (-2.24281); (-2.32374); (-2.40468); (-2.48562); (-2.56656); (-2.64751);
   (-2.72847); (-2.80942); (-2.89038); (-2.97134); (-3.05231); (-3.13327); (-3.21424); (-3.29521);
   (-3.37619); (-3.45716); (-3.53814); (-3.61911); (-3.70009); (-3.78107); (-3.86206); (-3.94304);
   (-4.02402); (-4.10501); (-4.18599); (-4.26698); (-4.34797); (-4.42895)];
  [(-1.72594); (-1.68566); (-1.64541); (-1.6052); (-1.56503); (-1.5249); (-1.48483); (-1.44481); (-1.40485);
   (-1.36497); (-1.32518); (-1.28547); (-1.24588); (-1.2064); (-1.16706); (-1.12788); (-1.08886); (-1.05004);
   (-1.01144); (-0.973085); (-0.935003); (-0.897227); (-0.859791); (-0.82273); (-0.786084); (-0.749891);
   (-0.714194); (-0.679034); (-0.644454); (-0.610496); (-0.577202); (-0.544612); (-0.512763); (-0.481691);
   (-0.451428); (-0.422003); (-0.393439); (-0.365756); (-0.33897); (-0.313091); (-0.288123); (-0.264069);
   (-0.240924); (-0.21868); (-0.197324); (-0.176839); (-0.157207); (-0.138405); (-0.120407); (-0.103186);
   (-0.0867137); (-0.0709588); (-0.0558904); (-0.041477); (-0.0276869); (-0.0144884); (-0.00185068);
   0.0102566; 0.0218625; 0.0329952; 0.043681; 0.0539451; 0.0638107; 0.0732994; 0.0824311; 0.0912235;
   0.0996928; 0.107853; 0.115717; 0.123295; 0.130596; 0.137628; 0.144397; 0.150907; 0.157162; 0.163165;
   0.168918; 0.174423; 0.17968; 0.18469; 0.189455; 0.193975; 0.198253; 0.202289; 0.206086; 0.209648;
   0.212979; 0.216084; 0.218967; 0.221636; 0.224097; 0.226357; 0.228426; 0.23031; 0.23202; 0.233564;
   0.234951; 0.23619; 0.23729; 0.238258; 0.239103; 0.239832; 0.240451; 0.240965; 0.24138; 0.241698; 0.241923;
   0.242055; 0.242095; 0.24204; 0.241888; 0.241632; 0.241266; 0.240781; 0.240163; 0.239399; 0.238469;
   0.237353; 0.236024; 0.234451; 0.232598; 0.230422; 0.227875; 0.224899; 0.221427; 0.217384; 0.212681;
   0.207218; 0.20088; 0.193539; 0.185046; 0.175239; 0.163934; 0.15093; 0.136007; 0.118928; 0.0994396;
   0.0772786; 0.052176; 0.0238681; (-0.00789989); (-0.0433552); (-0.0826807); (-0.126009); (-0.173392);
   (-0.224797); (-0.280093); (-0.339053); (-0.401364); (-0.46664); (-0.534465); (-0.60443); (-0.676168);
   (-0.749388); (-0.823874); (-0.899467); (-0.976021); (-1.05341); (-1.13152); (-1.2102); (-1.28935);
   (-1.36893); (-1.44885); (-1.52904); (-1.6095); (-1.69008); (-1.77091); (-1.85176); (-1.93276); (-2.0083);
   (-2.08922); (-2.17014); (-2.25106); (-2.33199); (-2.41293); (-2.49387); (-2.57481); (-2.65576);
   (-2.73672); (-2.81767); (-2.89863); (-2.97959); (-3.06056); (-3.14152); (-3.22249); (-3.30346);
   (-3.38444); (-3.46541); (-3.54639); (-3.62736); (-3.70834); (-3.78932); (-3.87031); (-3.95129);
   (-4.03227); (-4.11326); (-4.19424); (-4.27523); (-4.35621); (-4.4372)];
  [(-1.77384); (-1.73348); (-1.69314); (-1.65283); (-1.61256); (-1.57231); (-1.53211); (-1.49196);
   (-1.45185); (-1.41181); (-1.37183); (-1.33193); (-1.29212); (-1.2524); (-1.2128); (-1.17333); (-1.13399);
   (-1.09483); (-1.05584); (-1.01707); (-0.978528); (-0.940249); (-0.902263); (-0.864604); (-0.827307);
   (-0.79041); (-0.753952); (-0.717975); (-0.682521); (-0.647632); (-0.613351); (-0.579719); (-0.546777);
   (-0.514563); (-0.483114); (-0.452461); (-0.422635); (-0.393661); (-0.365559); (-0.338345); (-0.312031);
   (-0.286624); (-0.262126); (-0.238533); (-0.215839); (-0.194031); (-0.173095); (-0.153012); (-0.13376);
   (-0.115314); (-0.0976484); (-0.0807342); (-0.0645418); (-0.0490408); (-0.0341999); (-0.0199882);
   (-0.00637452); 0.00667149; 0.0191795; 0.0311781; 0.0426946; 0.0537549; 0.0643833; 0.0746025; 0.0844333;
   0.0938946; 0.103004; 0.111775; 0.120224; 0.12836; 0.136194; 0.143734; 0.150987; 0.157959; 0.164653;
   0.171074; 0.177224; 0.183104; 0.188717; 0.194064; 0.199146; 0.203964; 0.208522; 0.212821; 0.216864;
   0.220655; 0.224198; 0.227499; 0.230565; 0.233401; 0.236015; 0.238415; 0.240611; 0.242611; 0.244425;
   0.246062; 0.247532; 0.248844; 0.250007; 0.25103; 0.251922; 0.252689; 0.253339; 0.253877; 0.254308;
   0.254635; 0.254861; 0.254988; 0.255014; 0.254937; 0.254754; 0.254458; 0.254042; 0.253494; 0.252801;
   0.251947; 0.250911; 0.249669; 0.248192; 0.246447; 0.244394; 0.241986; 0.239169; 0.235881; 0.232048;
   0.227589; 0.222408; 0.216396; 0.20943; 0.201369; 0.192058; 0.181322; 0.168966; 0.15478; 0.138532;
   0.119977; 0.0988577; 0.0749059; 0.0478569; 0.0174514; (-0.0165485); (-0.0543441); (-0.0960908);
   (-0.141873); (-0.191696); (-0.245471); (-0.303013); (-0.36404); (-0.4282); (-0.495086); (-0.56428);
   (-0.635394); (-0.7081); (-0.782151); (-0.857373); (-0.933612); (-1.01074); (-1.08862); (-1.16715);
   (-1.24618); (-1.32566); (-1.40551); (-1.48565); (-1.56606); (-1.64665); (-1.72743); (-1.80831);
   (-1.88941); (-1.97042); (-2.04659); (-2.1275); (-2.20842); (-2.28935); (-2.37028); (-2.45121); (-2.53215);
   (-2.6131); (-2.69405); (-2.775); (-2.85596); (-2.93691); (-3.01788); (-3.09884); (-3.17981); (-3.26078);
   (-3.34175); (-3.42272); (-3.50369); (-3.58467); (-3.66565); (-3.74663); (-3.82761); (-3.90859);
   (-3.98957); (-4.07056); (-4.15154); (-4.23253); (-4.31351); (-4.3945); (-4.47549)];
  [(-1.81958); (-1.77915); (-1.73874); (-1.69834); (-1.65798); (-1.61763); (-1.57732); (-1.53705);
   (-1.49681); (-1.45662); (-1.41649); (-1.37642); (-1.33641); (-1.29649); (-1.25666); (-1.21694);
   (-1.17734); (-1.13787); (-1.09855); (-1.05942); (-1.02048); (-0.981759); (-0.943295); (-0.905112);
   (-0.867246); (-0.829729); (-0.792601); (-0.7559); (-0.719667); (-0.683944); (-0.648774); (-0.614199);
   (-0.580261); (-0.547001); (-0.514458); (-0.482667); (-0.451664); (-0.421477); (-0.392133); (-0.363653);
   (-0.336054); (-0.309348); (-0.283544); (-0.258644); (-0.234646); (-0.211543); (-0.189324); (-0.167976);
   (-0.147481); (-0.127816); (-0.108959); (-0.0908836); (-0.0735618); (-0.0569648); (-0.0410625);
   (-0.0258246); (-0.0112205); 0.00278004; 0.0162069; 0.0290889; 0.0414541; 0.0533289; 0.0647384; 0.0757062;
   0.086254; 0.0964017; 0.106167; 0.115567; 0.124616; 0.133325; 0.141707; 0.149769; 0.15752; 0.164966;
   0.172112; 0.178961; 0.185518; 0.191784; 0.197762; 0.203454; 0.208861; 0.213986; 0.218831; 0.223399;
   0.227693; 0.231719; 0.23548; 0.238983; 0.242235; 0.245242; 0.248014; 0.250558; 0.252885; 0.255004;
   0.256925; 0.258659; 0.260215; 0.261603; 0.262834; 0.263916; 0.264858; 0.265668; 0.266353; 0.26692;
   0.267373; 0.267715; 0.267951; 0.26808; 0.268101; 0.268014; 0.267813; 0.267491; 0.267041; 0.26645;
   0.265704; 0.264786; 0.263674; 0.262342; 0.260759; 0.25889; 0.256692; 0.254116; 0.251104; 0.247591;
   0.243499; 0.238741; 0.233218; 0.226813; 0.219399; 0.210829; 0.200939; 0.189549; 0.176457; 0.161445;
   0.144278; 0.124706; 0.102467; 0.0772954; 0.048929; 0.0171162; (-0.0183685); (-0.0577077); (-0.101034);
   (-0.148402); (-0.199784); (-0.255055); (-0.313997); (-0.376299); (-0.441587); (-0.50945); (-0.579475);
   (-0.65129); (-0.724596); (-0.799176); (-0.874862); (-0.951517); (-1.02901); (-1.10722); (-1.18602);
   (-1.26528); (-1.34497); (-1.42502); (-1.50531); (-1.58587); (-1.66657); (-1.74749); (-1.82843); (-1.9096);
   (-1.99079); (-2.0675); (-2.14842); (-2.22934); (-2.31026); (-2.39119); (-2.47213); (-2.55307); (-2.63401);
   (-2.71496); (-2.79591); (-2.87687); (-2.95783); (-3.03879); (-3.11976); (-3.20072); (-3.28169);
   (-3.36266); (-3.44364); (-3.52461); (-3.60559); (-3.68656); (-3.76754); (-3.84852); (-3.92951);
   (-4.01049); (-4.09147); (-4.17246); (-4.25344); (-4.33443); (-4.41541); (-4.4964)];
  [(-1.86335); (-1.82286); (-1.78238); (-1.74191); (-1.70146); (-1.66103); (-1.62063); (-1.58024);
   (-1.53989); (-1.49958); (-1.45931); (-1.41909); (-1.37892); (-1.33882); (-1.29879); (-1.25885); (-1.219);
   (-1.17927); (-1.13967); (-1.10021); (-1.06092); (-1.02183); (-0.982943); (-0.944302); (-0.905934);
   (-0.867872); (-0.83015); (-0.792805); (-0.755878); (-0.719408); (-0.683437); (-0.648009); (-0.613165);
   (-0.578948); (-0.545398); (-0.512555); (-0.480456); (-0.449135); (-0.418622); (-0.388943); (-0.360121);
   (-0.332174); (-0.305114); (-0.278951); (-0.253686); (-0.229319); (-0.205844); (-0.183252); (-0.161528);
   (-0.140655); (-0.120612); (-0.101377); (-0.0829237); (-0.0652256); (-0.0482542); (-0.0319801);
   (-0.0163737); (-0.00140507); 0.0129553; 0.0267366; 0.0399667; 0.0526727; 0.0648804; 0.0766138; 0.0878955;
   0.0987463; 0.109185; 0.119229; 0.128893; 0.138191; 0.147134; 0.155732; 0.163994; 0.171926; 0.179535;
   0.186824; 0.193798; 0.20046; 0.206812; 0.212857; 0.218597; 0.224036; 0.229175; 0.234018; 0.23857;
   0.242835; 0.246819; 0.250528; 0.25397; 0.257153; 0.260085; 0.262777; 0.265237; 0.267477; 0.269508;
   0.271339; 0.272983; 0.274449; 0.275747; 0.276889; 0.277882; 0.278736; 0.279457; 0.280052; 0.280526;
   0.280884; 0.281127; 0.281257; 0.281274; 0.281173; 0.280952; 0.280602; 0.280115; 0.279478; 0.278675;
   0.277688; 0.276494; 0.275066; 0.27337; 0.271368; 0.269016; 0.266261; 0.263043; 0.259291; 0.254925;
   0.249852; 0.243966; 0.237148; 0.229263; 0.220157; 0.20966; 0.197585; 0.183725; 0.167854; 0.149732;
   0.129107; 0.105713; 0.0792879; 0.0495741; 0.0163289; (-0.0206589); (-0.0615511); (-0.106456); (-0.155397);
   (-0.208312); (-0.265041); (-0.325334); (-0.388856); (-0.455215); (-0.523994); (-0.594795); (-0.66727);
   (-0.741147); (-0.816226); (-0.89236); (-0.969409); (-1.04725); (-1.12576); (-1.20482); (-1.28432);
   (-1.36421); (-1.44442); (-1.52487); (-1.60557); (-1.68638); (-1.7674); (-1.84846); (-1.92963); (-2.00735);
   (-2.08825); (-2.16917); (-2.25009); (-2.33101); (-2.41194); (-2.49288); (-2.57382); (-2.65476);
   (-2.73571); (-2.81667); (-2.89762); (-2.97858); (-3.05954); (-3.14051); (-3.22147); (-3.30244);
   (-3.38341); (-3.46439); (-3.54536); (-3.62634); (-3.70731); (-3.78829); (-3.86927); (-3.95026);
   (-4.03124); (-4.11222); (-4.19321); (-4.27419); (-4.35518); (-4.43617); (-4.51715)];
  [(-1.90531); (-1.86476); (-1.82422); (-1.78369); (-1.74317); (-1.70266); (-1.66217); (-1.6217); (-1.58125);
   (-1.54082); (-1.50043); (-1.46007); (-1.41976); (-1.3795); (-1.33929); (-1.29916); (-1.25911); (-1.21914);
   (-1.17929); (-1.13955); (-1.09996); (-1.06052); (-1.02127); (-0.982225); (-0.943414); (-0.904868);
   (-0.866619); (-0.828702); (-0.791154); (-0.754014); (-0.717322); (-0.681121); (-0.645453); (-0.610361);
   (-0.575887); (-0.542072); (-0.508955); (-0.476575); (-0.444964); (-0.414154); (-0.384172); (-0.35504);
   (-0.326777); (-0.299396); (-0.272905); (-0.24731); (-0.222608); (-0.198794); (-0.17586); (-0.153792);
   (-0.132573); (-0.112183); (-0.0926); (-0.0737989); (-0.0557534); (-0.0384357); (-0.0218174); (-0.0058693);
   0.00943751; 0.0241318; 0.0382418; 0.0517945; 0.0648161; 0.0773313; 0.089363; 0.100933; 0.112061; 0.122764;
   0.133059; 0.142959; 0.152478; 0.161626; 0.170411; 0.178842; 0.186925; 0.194666; 0.202068; 0.209135;
   0.21587; 0.222277; 0.228359; 0.234118; 0.239559; 0.244684; 0.2495; 0.25401; 0.258222; 0.262143; 0.26578;
   0.269142; 0.27224; 0.275082; 0.27768; 0.280045; 0.282188; 0.284121; 0.285856; 0.287403; 0.288774;
   0.289979; 0.291027; 0.291928; 0.29269; 0.293319; 0.293821; 0.2942; 0.294459; 0.294599; 0.29462; 0.294518;
   0.294289; 0.293927; 0.29342; 0.292757; 0.291921; 0.290893; 0.289648; 0.28816; 0.286393; 0.284308;
   0.281859; 0.278992; 0.275643; 0.271741; 0.267202; 0.261932; 0.255821; 0.248746; 0.240569; 0.231133;
   0.220266; 0.207774; 0.193448; 0.17706; 0.158367; 0.137116; 0.113043; 0.0858848; 0.0553878; 0.0213176;
   (-0.0165285); (-0.0583025); (-0.104093); (-0.153909); (-0.207674); (-0.265205); (-0.326238); (-0.390427);
   (-0.457373); (-0.526661); (-0.5979); (-0.670754); (-0.744964); (-0.820341); (-0.896744); (-0.974035);
   (-1.05209); (-1.1308); (-1.21002); (-1.28967); (-1.3697); (-1.45003); (-1.5306); (-1.61139); (-1.6923);
   (-1.77341); (-1.85456); (-1.93576); (-2.01418); (-2.09508); (-2.176); (-2.25692); (-2.33784); (-2.41877);
   (-2.49971); (-2.58065); (-2.66159); (-2.74254); (-2.8235); (-2.90445); (-2.98541); (-3.06637); (-3.14734);
   (-3.2283); (-3.30927); (-3.39024); (-3.47122); (-3.55219); (-3.63317); (-3.71414); (-3.79512); (-3.8761);
   (-3.95709); (-4.03807); (-4.11905); (-4.20004); (-4.28102); (-4.36201); (-4.443); (-4.52398)];
  [(-1.9456); (-1.905); (-1.86441); (-1.82382); (-1.78324); (-1.74266); (-1.7021); (-1.66154); (-1.621);
   (-1.58047); (-1.53997); (-1.4995); (-1.45906); (-1.41865); (-1.37829); (-1.33799); (-1.29775); (-1.25758);
   (-1.2175); (-1.17752); (-1.13765); (-1.09792); (-1.05834); (-1.01894); (-0.979732); (-0.940756);
   (-0.902038); (-0.863609); (-0.825505); (-0.787762); (-0.75042); (-0.713519); (-0.677102); (-0.64121);
   (-0.605887); (-0.571175); (-0.537115); (-0.503747); (-0.471108); (-0.439233); (-0.408152); (-0.377893);
   (-0.348479); (-0.319929); (-0.292255); (-0.265467); (-0.23957); (-0.214563); (-0.19044); (-0.167194);
   (-0.144811); (-0.123274); (-0.102566); (-0.0826625); (-0.0635408); (-0.0451747); (-0.0275373);
   (-0.0106007); 0.00566331; 0.0212829; 0.0362858; 0.0506992; 0.0645493; 0.077861; 0.090658; 0.102962;
   0.114794; 0.126171; 0.137111; 0.147628; 0.157737; 0.167447; 0.176768; 0.18571; 0.194279; 0.202481;
   0.210321; 0.217802; 0.22493; 0.231708; 0.238138; 0.244226; 0.249974; 0.255388; 0.260472; 0.265233;
   0.269677; 0.273813; 0.277649; 0.281194; 0.284459; 0.287454; 0.290191; 0.292682; 0.294939; 0.296974;
   0.2988; 0.300428; 0.301869; 0.303136; 0.304237; 0.305183; 0.305982; 0.30664; 0.307164; 0.307559; 0.307826;
   0.307967; 0.307981; 0.307866; 0.307616; 0.307223; 0.306678; 0.305966; 0.305071; 0.303971; 0.302642;
   0.301053; 0.299169; 0.296947; 0.294339; 0.291287; 0.287726; 0.283579; 0.278758; 0.273165; 0.266686;
   0.259191; 0.250536; 0.240559; 0.229081; 0.215904; 0.200811; 0.18357; 0.163935; 0.141649; 0.116449;
   0.0880763; 0.0562829; 0.0208451; (-0.0184211); (-0.0616493); (-0.108901); (-0.160156); (-0.215303);
   (-0.274136); (-0.336357); (-0.401604); (-0.469469); (-0.539541); (-0.611443); (-0.684864); (-0.759567);
   (-0.835385); (-0.912178); (-0.98982); (-1.06818); (-1.14715); (-1.2266); (-1.30645); (-1.38667);
   (-1.46714); (-1.54786); (-1.62875); (-1.70979); (-1.79095); (-1.87222); (-1.95344); (-2.03252);
   (-2.11343); (-2.19434); (-2.27526); (-2.35619); (-2.43712); (-2.51805); (-2.59899); (-2.67994);
   (-2.76089); (-2.84184); (-2.9228); (-3.00376); (-3.08472); (-3.16568); (-3.24665); (-3.32762); (-3.40859);
   (-3.48956); (-3.57054); (-3.65151); (-3.73249); (-3.81347); (-3.89445); (-3.97543); (-4.05641); (-4.1374);
   (-4.21838); (-4.29937); (-4.38035); (-4.46134); (-4.54233)];
  [(-1.98434); (-1.94371); (-1.90307); (-1.86243); (-1.82179); (-1.78115); (-1.74051); (-1.69988);
   (-1.65926); (-1.61865); (-1.57805); (-1.53747); (-1.49691); (-1.45638); (-1.41589); (-1.37543);
   (-1.33502); (-1.29467); (-1.25439); (-1.21419); (-1.17408); (-1.13408); (-1.09421); (-1.05449);
   (-1.01494); (-0.975576); (-0.936437); (-0.89755); (-0.858946); (-0.820661); (-0.782731); (-0.745196);
   (-0.708096); (-0.671474); (-0.635371); (-0.599832); (-0.564898); (-0.530611); (-0.49701); (-0.464133);
   (-0.432014); (-0.400685); (-0.370174); (-0.340502); (-0.311689); (-0.283748); (-0.256689); (-0.230517);
   (-0.20523); (-0.180825); (-0.157293); (-0.134621); (-0.112794); (-0.0917924); (-0.0715948); (-0.0521778);
   (-0.0335163); (-0.0155839); 0.00164628; 0.0182016; 0.0341093; 0.0493961; 0.0640882; 0.0782105; 0.0917869;
   0.10484; 0.117389; 0.129455; 0.141055; 0.152203; 0.162914; 0.173199; 0.18307; 0.192534; 0.2016; 0.210275;
   0.218563; 0.226469; 0.233999; 0.241156; 0.247943; 0.254366; 0.26043; 0.266138; 0.271498; 0.276515;
   0.281197; 0.285554; 0.289593; 0.293325; 0.296762; 0.299914; 0.302794; 0.305415; 0.30779; 0.309931;
   0.311851; 0.313563; 0.31508; 0.316412; 0.317571; 0.318566; 0.319407; 0.3201; 0.320653; 0.321069; 0.321352;
   0.321503; 0.321522; 0.321405; 0.321147; 0.32074; 0.320174; 0.319435; 0.318504; 0.317361; 0.315979;
   0.314328; 0.312369; 0.310061; 0.307352; 0.304184; 0.300488; 0.296186; 0.291189; 0.285394; 0.278684;
   0.270928; 0.261978; 0.251668; 0.239816; 0.226221; 0.210664; 0.192911; 0.172713; 0.149814; 0.123952;
   0.0948703; 0.0623264; 0.0261038; (-0.0139717); (-0.0580215); (-0.106092); (-0.158149); (-0.214062);
   (-0.27361); (-0.336486); (-0.402315); (-0.470691); (-0.541205); (-0.613489); (-0.687242); (-0.762241);
   (-0.838326); (-0.915361); (-0.99322); (-1.07178); (-1.15092); (-1.23052); (-1.31051); (-1.39085);
   (-1.47144); (-1.55226); (-1.63324); (-1.71437); (-1.7956); (-1.87696); (-1.95823); (-2.03798); (-2.11889);
   (-2.1998); (-2.28072); (-2.36165); (-2.44258); (-2.52351); (-2.60445); (-2.6854); (-2.76635); (-2.8473);
   (-2.92826); (-3.00921); (-3.09018); (-3.17114); (-3.25211); (-3.33308); (-3.41405); (-3.49502);
   (-3.57599); (-3.65697); (-3.73795); (-3.81893); (-3.89991); (-3.98089); (-4.06187); (-4.14286);
   (-4.22384); (-4.30483); (-4.38581); (-4.4668); (-4.54779)];
  [(-2.02166); (-1.98099); (-1.9403); (-1.89962); (-1.85893); (-1.81823); (-1.77754); (-1.73684); (-1.69615);
   (-1.65546); (-1.61477); (-1.5741); (-1.53343); (-1.49279); (-1.45217); (-1.41158); (-1.37102); (-1.3305);
   (-1.29004); (-1.24964); (-1.20932); (-1.16908); (-1.12895); (-1.08894); (-1.04907); (-1.00937);
   (-0.969854); (-0.930554); (-0.8915); (-0.852725); (-0.814263); (-0.776152); (-0.73843); (-0.70114);
   (-0.664322); (-0.628019); (-0.592276); (-0.557133); (-0.522633); (-0.488816); (-0.455718); (-0.423376);
   (-0.391818); (-0.361074); (-0.331166); (-0.302112); (-0.273928); (-0.246621); (-0.220197); (-0.194656);
   (-0.169992); (-0.146198); (-0.123262); (-0.101168); (-0.0798972); (-0.059429); (-0.0397406); (-0.0208074);
   (-0.00260391); 0.0148959; 0.0317185; 0.04789; 0.0634362; 0.0783819; 0.092751; 0.106566; 0.119848;
   0.132616; 0.144888; 0.15668; 0.168006; 0.17888; 0.189311; 0.19931; 0.208884; 0.218042; 0.226788; 0.235129;
   0.243068; 0.250612; 0.257765; 0.264531; 0.270916; 0.276925; 0.282565; 0.287844; 0.292769; 0.297349;
   0.301595; 0.305518; 0.309129; 0.31244; 0.315465; 0.318217; 0.320709; 0.322956; 0.324971; 0.326766;
   0.328356; 0.329752; 0.330965; 0.332006; 0.332884; 0.333607; 0.334181; 0.334612; 0.334902; 0.335053;
   0.335063; 0.334929; 0.334647; 0.334206; 0.333597; 0.332803; 0.331807; 0.330585; 0.329109; 0.327348;
   0.325261; 0.322803; 0.31992; 0.316551; 0.312624; 0.308057; 0.302755; 0.296612; 0.289506; 0.281299;
   0.271838; 0.260952; 0.248451; 0.23413; 0.217765; 0.199116; 0.177934; 0.15396; 0.126934; 0.0966061;
   0.0627414; 0.0251368; (-0.0163627); (-0.0618563); (-0.111363); (-0.164817); (-0.222059); (-0.282839);
   (-0.346826); (-0.413634); (-0.482851); (-0.55408); (-0.62697); (-0.701245); (-0.776706); (-0.8532);
   (-0.930603); (-1.00878); (-1.08762); (-1.167); (-1.24682); (-1.327); (-1.40751); (-1.48823); (-1.56919);
   (-1.65027); (-1.73152); (-1.8128); (-1.89426); (-1.97564); (-2.05592); (-2.13683); (-2.21774); (-2.29866);
   (-2.37959); (-2.46052); (-2.54145); (-2.62239); (-2.70334); (-2.78429); (-2.86524); (-2.9462); (-3.02716);
   (-3.10812); (-3.18908); (-3.27005); (-3.35102); (-3.43199); (-3.51296); (-3.59394); (-3.67491);
   (-3.75589); (-3.83687); (-3.91785); (-3.99883); (-4.07981); (-4.1608); (-4.24178); (-4.32277); (-4.40375);
   (-4.48474); (-4.56573)];
  [(-2.05765); (-2.01694); (-1.97622); (-1.93549); (-1.89476); (-1.85401); (-1.81326); (-1.7725); (-1.73174);
   (-1.69098); (-1.65022); (-1.60946); (-1.5687); (-1.52796); (-1.48722); (-1.44651); (-1.40581); (-1.36515);
   (-1.32453); (-1.28395); (-1.24343); (-1.20298); (-1.16261); (-1.12235); (-1.0822); (-1.04218); (-1.00232);
   (-0.962653); (-0.923192); (-0.883973); (-0.845028); (-0.806392); (-0.768103); (-0.730201); (-0.692725);
   (-0.655719); (-0.619226); (-0.583288); (-0.547949); (-0.513249); (-0.479229); (-0.445926); (-0.413375);
   (-0.381607); (-0.350648); (-0.320523); (-0.291249); (-0.262841); (-0.235307); (-0.208653); (-0.182878);
   (-0.157978); (-0.133944); (-0.110765); (-0.0884264); (-0.0669089); (-0.0461926); (-0.0262551);
   (-0.00707292); 0.0113788; 0.0291251; 0.0461915; 0.062603; 0.078384; 0.0935583; 0.108148; 0.122175;
   0.135659; 0.148617; 0.161066; 0.173021; 0.184495; 0.195499; 0.206044; 0.216138; 0.22579; 0.235004;
   0.243789; 0.252149; 0.260089; 0.267615; 0.274732; 0.281446; 0.287763; 0.293691; 0.299237; 0.30441;
   0.309221; 0.31368; 0.317798; 0.321588; 0.325063; 0.328238; 0.331126; 0.333741; 0.336098; 0.338212;
   0.340097; 0.341765; 0.343231; 0.344505; 0.3456; 0.346524; 0.347285; 0.347892; 0.348349; 0.348659;
   0.348825; 0.348844; 0.348715; 0.348431; 0.347985; 0.347363; 0.346552; 0.345532; 0.34428; 0.342767;
   0.340961; 0.338821; 0.336301; 0.333346; 0.329893; 0.32587; 0.321193; 0.315765; 0.309479; 0.302211;
   0.293823; 0.284157; 0.273043; 0.260289; 0.245688; 0.229013; 0.210027; 0.188479; 0.16411; 0.136663;
   0.10589; 0.0715611; 0.0334773; (-0.00850968); (-0.0544915); (-0.104479); (-0.158398); (-0.216081);
   (-0.277271); (-0.341633); (-0.408777); (-0.478294); (-0.549788); (-0.622914); (-0.697401); (-0.773052);
   (-0.849727); (-0.927292); (-1.00562); (-1.0846); (-1.16411); (-1.24404); (-1.32433); (-1.40493);
   (-1.48575); (-1.56679); (-1.64795); (-1.72927); (-1.81062); (-1.89214); (-1.97359); (-2.05456);
   (-2.13547); (-2.21638); (-2.2973); (-2.37823); (-2.45916); (-2.5401); (-2.62104); (-2.70198); (-2.78293);
   (-2.86388); (-2.94484); (-3.0258); (-3.10676); (-3.18772); (-3.26869); (-3.34966); (-3.43063); (-3.5116);
   (-3.59258); (-3.67355); (-3.75453); (-3.83551); (-3.91649); (-3.99747); (-4.07845); (-4.15944);
   (-4.24042); (-4.32141); (-4.40239); (-4.48338); (-4.56437)];
  [(-2.0924); (-2.05166); (-2.0109); (-1.97014); (-1.92936); (-1.88857); (-1.84777); (-1.80696); (-1.76614);
   (-1.72531); (-1.68448); (-1.64364); (-1.6028); (-1.56196); (-1.52112); (-1.4803); (-1.43948); (-1.39868);
   (-1.35791); (-1.31718); (-1.27648); (-1.23584); (-1.19526); (-1.15476); (-1.11435); (-1.07405);
   (-1.03389); (-0.99388); (-0.95405); (-0.914428); (-0.875043); (-0.835929); (-0.797121); (-0.758657);
   (-0.720577); (-0.682921); (-0.645734); (-0.609056); (-0.572933); (-0.537407); (-0.502519); (-0.468308);
   (-0.434814); (-0.402069); (-0.370104); (-0.338948); (-0.308623); (-0.279146); (-0.250533); (-0.222791);
   (-0.195926); (-0.169937); (-0.14482); (-0.120568); (-0.0971671); (-0.0746042); (-0.0528611); (-0.0319181);
   (-0.0117535); 0.00765554; 0.0263329; 0.0443026; 0.0615891; 0.0782161; 0.0942069; 0.109584; 0.124368;
   0.138579; 0.152235; 0.165354; 0.177949; 0.190036; 0.201624; 0.212726; 0.223351; 0.233506; 0.243199;
   0.252436; 0.261224; 0.269569; 0.277475; 0.284949; 0.291998; 0.298629; 0.304849; 0.310667; 0.316093;
   0.321136; 0.32581; 0.330125; 0.334096; 0.337736; 0.34106; 0.344082; 0.346818; 0.349284; 0.351494;
   0.353463; 0.355204; 0.356733; 0.35806; 0.359197; 0.360155; 0.360942; 0.361565; 0.36203; 0.362338;
   0.362493; 0.362493; 0.362334; 0.362009; 0.36151; 0.360823; 0.359933; 0.358818; 0.357453; 0.355809;
   0.353848; 0.351528; 0.348799; 0.345603; 0.341872; 0.33753; 0.332486; 0.326639; 0.319874; 0.312062;
   0.303055; 0.29269; 0.280788; 0.26715; 0.251561; 0.23379; 0.213593; 0.190717; 0.164905; 0.135902; 0.103471;
   0.0673942; 0.0274937; (-0.0163518); (-0.0642025); (-0.11603); (-0.171723); (-0.231071); (-0.293785);
   (-0.359504); (-0.427824); (-0.498342); (-0.570677); (-0.644516); (-0.719621); (-0.795818); (-0.872977);
   (-0.950968); (-1.02967); (-1.10897); (-1.18875); (-1.26892); (-1.34943); (-1.4302); (-1.51118);
   (-1.59236); (-1.67363); (-1.75505); (-1.83649); (-1.91804); (-1.99968); (-2.08104); (-2.16195);
   (-2.24286); (-2.32378); (-2.40471); (-2.48564); (-2.56657); (-2.64751); (-2.72846); (-2.80941);
   (-2.89036); (-2.97132); (-3.05228); (-3.13324); (-3.2142); (-3.29517); (-3.37614); (-3.45711); (-3.53808);
   (-3.61906); (-3.70003); (-3.78101); (-3.86199); (-3.94297); (-4.02395); (-4.10493); (-4.18592); (-4.2669);
   (-4.34789); (-4.42887); (-4.50986); (-4.59085)];
  [(-2.12599); (-2.08522); (-2.04443); (-2.00363); (-1.96282); (-1.92199); (-1.88114); (-1.84029);
   (-1.79941); (-1.75853); (-1.71763); (-1.67672); (-1.6358); (-1.59487); (-1.55395); (-1.51302); (-1.47209);
   (-1.43117); (-1.39027); (-1.34938); (-1.30852); (-1.2677); (-1.22693); (-1.18622); (-1.14558); (-1.10503);
   (-1.06458); (-1.02427); (-0.984102); (-0.944112); (-0.904325); (-0.864774); (-0.825491); (-0.786511);
   (-0.747874); (-0.709619); (-0.671787); (-0.634423); (-0.597568); (-0.561266); (-0.525561); (-0.490494);
   (-0.456104); (-0.422429); (-0.389503); (-0.357356); (-0.326017); (-0.295506); (-0.265843); (-0.237041);
   (-0.209109); (-0.18205); (-0.155866); (-0.130551); (-0.106098); (-0.0824951); (-0.059728); (-0.0377794);
   (-0.0166302); 0.00374052; 0.0233549; 0.0422357; 0.060406; 0.0778889; 0.094707; 0.110882; 0.126435;
   0.141386; 0.155753; 0.169553; 0.182801; 0.195512; 0.207697; 0.219367; 0.230533; 0.241203; 0.251384;
   0.261085; 0.27031; 0.279067; 0.287362; 0.295202; 0.302594; 0.309545; 0.316064; 0.322161; 0.327844;
   0.333127; 0.338021; 0.342539; 0.346695; 0.350504; 0.353982; 0.357144; 0.360006; 0.362585; 0.364895;
   0.366954; 0.368774; 0.370371; 0.371757; 0.372945; 0.373944; 0.374765; 0.375413; 0.375896; 0.376216;
   0.376374; 0.37637; 0.376199; 0.375855; 0.375328; 0.374605; 0.373668; 0.372496; 0.371063; 0.369337;
   0.36728; 0.364848; 0.361989; 0.358643; 0.354739; 0.350197; 0.344926; 0.33882; 0.331761; 0.323614; 0.31423;
   0.30344; 0.291062; 0.276893; 0.260714; 0.242292; 0.221381; 0.197729; 0.171078; 0.14118; 0.107799;
   0.0707315; 0.0298098; (-0.0150729); (-0.0639545); (-0.116791); (-0.173447); (-0.233695); (-0.297228);
   (-0.363675); (-0.432631); (-0.503691); (-0.576492); (-0.650735); (-0.726196); (-0.802712); (-0.88016);
   (-0.958408); (-1.03734); (-1.11684); (-1.1968); (-1.27712); (-1.35777); (-1.43867); (-1.51976);
   (-1.60104); (-1.6824); (-1.76391); (-1.84543); (-1.92701); (-2.00978); (-2.09067); (-2.17158); (-2.25249);
   (-2.33341); (-2.41434); (-2.49527); (-2.57621); (-2.65715); (-2.73809); (-2.81904); (-2.89999);
   (-2.98095); (-3.06191); (-3.14287); (-3.22383); (-3.3048); (-3.38577); (-3.46674); (-3.54771); (-3.62869);
   (-3.70966); (-3.79064); (-3.87162); (-3.9526); (-4.03358); (-4.11457); (-4.19555); (-4.27653); (-4.35752);
   (-4.43851); (-4.51949); (-4.60048)];
  [(-2.1585); (-2.1177); (-2.07689); (-2.03606); (-1.99521); (-1.95434); (-1.91346); (-1.87255); (-1.83163);
   (-1.79069); (-1.74973); (-1.70876); (-1.66777); (-1.62677); (-1.58575); (-1.54473); (-1.5037); (-1.46267);
   (-1.42164); (-1.38063); (-1.33962); (-1.29864); (-1.25769); (-1.21678); (-1.17593); (-1.13515);
   (-1.09445); (-1.05385); (-1.01338); (-0.973051); (-0.932897); (-0.892945); (-0.853225); (-0.813771);
   (-0.77462); (-0.73581); (-0.697382); (-0.659377); (-0.621839); (-0.584812); (-0.548338); (-0.512462);
   (-0.477223); (-0.442663); (-0.408818); (-0.375722); (-0.343406); (-0.311896); (-0.281215); (-0.25138);
   (-0.222405); (-0.194297); (-0.167062); (-0.140699); (-0.115204); (-0.0905682); (-0.0667814); (-0.0438291);
   (-0.0216947); (-0.000359583); 0.0201964; 0.0399944; 0.0590562; 0.0774036; 0.0950587; 0.112042; 0.128376;
   0.144078; 0.159167; 0.173659; 0.187572; 0.200918; 0.21371; 0.22596; 0.237678; 0.248872; 0.259552;
   0.269724; 0.279395; 0.288574; 0.297265; 0.305478; 0.313219; 0.320497; 0.32732; 0.3337; 0.339646; 0.345172;
   0.350289; 0.355012; 0.359356; 0.363337; 0.36697; 0.370273; 0.373261; 0.375952; 0.378363; 0.380508;
   0.382405; 0.384068; 0.385509; 0.386742; 0.387778; 0.388625; 0.389291; 0.389783; 0.390102; 0.390251;
   0.390227; 0.390027; 0.389643; 0.389065; 0.388277; 0.387262; 0.385996; 0.384452; 0.382596; 0.380387;
   0.377778; 0.374715; 0.371133; 0.366958; 0.362105; 0.356478; 0.349966; 0.342446; 0.333775; 0.323799;
   0.312344; 0.299218; 0.284214; 0.267109; 0.247664; 0.225631; 0.200757; 0.172788; 0.14148; 0.106612;
   0.0679898; 0.0254728; (-0.0210239); (-0.0715067); (-0.125898); (-0.184028); (-0.245642); (-0.310404);
   (-0.377929); (-0.447811); (-0.519655); (-0.59312); (-0.667931); (-0.743889); (-0.820852); (-0.898695);
   (-0.977296); (-1.05653); (-1.13629); (-1.21648); (-1.29699); (-1.37783); (-1.45887); (-1.5401);
   (-1.62148); (-1.70296); (-1.78452); (-1.86618); (-1.94776); (-2.03107); (-2.11196); (-2.19287);
   (-2.27378); (-2.3547); (-2.43563); (-2.51656); (-2.5975); (-2.67844); (-2.75938); (-2.84033); (-2.92128);
   (-3.00224); (-3.0832); (-3.16416); (-3.24512); (-3.32609); (-3.40706); (-3.48803); (-3.569); (-3.64998);
   (-3.73095); (-3.81193); (-3.89291); (-3.97389); (-4.05487); (-4.13586); (-4.21684); (-4.29782);
   (-4.37881); (-4.4598); (-4.54078); (-4.62177)];
  [(-2.18999); (-2.14917); (-2.10833); (-2.06747); (-2.02659); (-1.98569); (-1.94477); (-1.90382);
   (-1.86286); (-1.82187); (-1.78085); (-1.73982); (-1.69877); (-1.65769); (-1.6166); (-1.57549); (-1.53437);
   (-1.49324); (-1.4521); (-1.41096); (-1.36982); (-1.32869); (-1.28758); (-1.2465); (-1.20545); (-1.16445);
   (-1.12352); (-1.08266); (-1.04191); (-1.00127); (-0.960781); (-0.92046); (-0.880337); (-0.840446);
   (-0.80082); (-0.761496); (-0.722514); (-0.683913); (-0.645737); (-0.608029); (-0.570833); (-0.534192);
   (-0.498151); (-0.462749); (-0.428027); (-0.394021); (-0.360766); (-0.328291); (-0.296623); (-0.265784);
   (-0.23579); (-0.206655); (-0.178388); (-0.150991); (-0.124466); (-0.0988063); (-0.0740058); (-0.0500529);
   (-0.026934); (-0.00463297); 0.0168681; 0.0375885; 0.0575484; 0.0767684; 0.0952692; 0.113071; 0.130195;
   0.146659; 0.162481; 0.177678; 0.192266; 0.206259; 0.21967; 0.23251; 0.24479; 0.25652; 0.267707; 0.278361;
   0.288488; 0.298096; 0.307192; 0.315785; 0.323883; 0.331494; 0.338629; 0.345298; 0.351512; 0.357286;
   0.362632; 0.367565; 0.372102; 0.376258; 0.38005; 0.383496; 0.386614; 0.389422; 0.391935; 0.394172;
   0.396148; 0.39788; 0.39938; 0.400662; 0.401737; 0.402615; 0.403304; 0.403808; 0.404133; 0.404278;
   0.404242; 0.404021; 0.403606; 0.402987; 0.402147; 0.401068; 0.399725; 0.398088; 0.396123; 0.393787;
   0.391031; 0.387797; 0.384018; 0.379617; 0.374506; 0.368584; 0.361737; 0.353835; 0.344734; 0.334272;
   0.322272; 0.308538; 0.292858; 0.275003; 0.254735; 0.231804; 0.205957; 0.176943; 0.144526; 0.108492;
   0.0686624; 0.0249125; (-0.022822); (-0.0745236); (-0.13009); (-0.189326); (-0.251956); (-0.317628);
   (-0.385951); (-0.456516); (-0.528943); (-0.602905); (-0.678148); (-0.754489); (-0.831799); (-0.90995);
   (-0.988822); (-1.0683); (-1.14827); (-1.22863); (-1.30932); (-1.39029); (-1.47145); (-1.55281);
   (-1.63427); (-1.71586); (-1.79747); (-1.87922); (-1.96089); (-2.04473); (-2.12563); (-2.20653);
   (-2.28745); (-2.36837); (-2.44929); (-2.53022); (-2.61116); (-2.6921); (-2.77304); (-2.85399); (-2.93494);
   (-3.0159); (-3.09686); (-3.17782); (-3.25879); (-3.33975); (-3.42072); (-3.50169); (-3.58266); (-3.66364);
   (-3.74462); (-3.82559); (-3.90657); (-3.98755); (-4.06853); (-4.14952); (-4.2305); (-4.31149); (-4.39247);
   (-4.47346); (-4.55444); (-4.63543)];
  [(-2.22053); (-2.17969); (-2.13883); (-2.09794); (-2.05703); (-2.0161); (-1.97514); (-1.93416); (-1.89315);
   (-1.85212); (-1.81105); (-1.76997); (-1.72885); (-1.68771); (-1.64655); (-1.60536); (-1.56416);
   (-1.52293); (-1.48169); (-1.44043); (-1.39917); (-1.3579); (-1.31664); (-1.2754); (-1.23417); (-1.19297);
   (-1.15182); (-1.11073); (-1.06972); (-1.0288); (-0.987998); (-0.947337); (-0.906844); (-0.866548);
   (-0.826483); (-0.786682); (-0.747184); (-0.708028); (-0.669255); (-0.630909); (-0.593033); (-0.555672);
   (-0.518869); (-0.482667); (-0.447108); (-0.412232); (-0.378074); (-0.344669); (-0.312046); (-0.280231);
   (-0.249245); (-0.219106); (-0.189825); (-0.161411); (-0.133868); (-0.107195); (-0.081388); (-0.0564391);
   (-0.0323377); (-0.00907059); 0.0133778; 0.0350247; 0.0558882; 0.0759876; 0.0953424; 0.113972; 0.131895;
   0.149131; 0.165697; 0.18161; 0.196884; 0.211535; 0.225575; 0.239017; 0.25187; 0.264144; 0.27585; 0.286994;
   0.297585; 0.307632; 0.317141; 0.326122; 0.334584; 0.342535; 0.349987; 0.356951; 0.36344; 0.369467;
   0.375046; 0.380194; 0.384927; 0.389262; 0.393217; 0.396811; 0.400061; 0.402987; 0.405606; 0.407936;
   0.409994; 0.411797; 0.413358; 0.41469; 0.415807; 0.416718; 0.417431; 0.417951; 0.418283; 0.418427;
   0.418382; 0.418142; 0.4177; 0.417043; 0.416156; 0.415018; 0.413603; 0.411881; 0.409816; 0.407362;
   0.404469; 0.401077; 0.397116; 0.392506; 0.387156; 0.380963; 0.373807; 0.365555; 0.35606; 0.345156;
   0.33266; 0.318374; 0.302081; 0.283551; 0.262544; 0.238808; 0.212093; 0.182152; 0.148754; 0.111695;
   0.0708087; 0.0259855; (-0.0228205); (-0.0755712); (-0.132143); (-0.192321); (-0.255811); (-0.322251);
   (-0.391244); (-0.462386); (-0.535306); (-0.609692); (-0.685306); (-0.761983); (-0.83959); (-0.918012);
   (-0.997123); (-1.07681); (-1.15697); (-1.23749); (-1.31832); (-1.39943); (-1.4807); (-1.56217);
   (-1.64372); (-1.72539); (-1.80708); (-1.88889); (-1.97063); (-2.05504); (-2.13594); (-2.21684);
   (-2.29775); (-2.37867); (-2.4596); (-2.54053); (-2.62147); (-2.70241); (-2.78335); (-2.8643); (-2.94525);
   (-3.02621); (-3.10717); (-3.18813); (-3.26909); (-3.35006); (-3.43103); (-3.512); (-3.59297); (-3.67395);
   (-3.75492); (-3.8359); (-3.91688); (-3.99786); (-4.07884); (-4.15983); (-4.24081); (-4.32179); (-4.40278);
   (-4.48377); (-4.56475); (-4.64574)];
  [(-2.25017); (-2.20931); (-2.16842); (-2.12751); (-2.08658); (-2.04562); (-2.00463); (-1.96361);
   (-1.92257); (-1.88149); (-1.84038); (-1.79924); (-1.75808); (-1.71688); (-1.67565); (-1.63439); (-1.5931);
   (-1.55179); (-1.51045); (-1.46909); (-1.42771); (-1.38632); (-1.34492); (-1.30352); (-1.26213);
   (-1.22076); (-1.17941); (-1.1381); (-1.09684); (-1.05566); (-1.01457); (-0.973598); (-0.932761);
   (-0.892091); (-0.851617); (-0.811373); (-0.771395); (-0.731721); (-0.69239); (-0.653445); (-0.61493);
   (-0.576888); (-0.539365); (-0.502403); (-0.466047); (-0.430337); (-0.395313); (-0.361011); (-0.327464);
   (-0.294703); (-0.262751); (-0.23163); (-0.201357); (-0.171943); (-0.143397); (-0.115721); (-0.0889163);
   (-0.0629773); (-0.0378968); (-0.0136646); 0.00973211; 0.0323082; 0.05408; 0.0750647; 0.0952805; 0.114745;
   0.133478; 0.151495; 0.168815; 0.185453; 0.201425; 0.216744; 0.231424; 0.245477; 0.258913; 0.271742;
   0.283975; 0.295619; 0.306683; 0.317176; 0.327107; 0.336483; 0.345315; 0.353613; 0.361388; 0.368653;
   0.37542; 0.381704; 0.387521; 0.392886; 0.397818; 0.402335; 0.406454; 0.410196; 0.41358; 0.416625; 0.41935;
   0.421772; 0.423911; 0.425782; 0.427401; 0.428781; 0.429936; 0.430874; 0.431604; 0.432133; 0.432464;
   0.432597; 0.43253; 0.432259; 0.431773; 0.43106; 0.430104; 0.428882; 0.427367; 0.425527; 0.423323;
   0.420709; 0.41763; 0.414023; 0.409815; 0.404923; 0.39925; 0.392689; 0.385116; 0.376392; 0.366365;
   0.354862; 0.341696; 0.326663; 0.309543; 0.290102; 0.268096; 0.243276; 0.215392; 0.184203; 0.149488;
   0.111055; 0.0687561; 0.0225037; (-0.0277232); (-0.0818568); (-0.139746); (-0.201149); (-0.265748);
   (-0.333168); (-0.403006); (-0.474866); (-0.548396); (-0.623304); (-0.699374); (-0.776457); (-0.854431);
   (-0.933176); (-1.01257); (-1.09251); (-1.17287); (-1.25358); (-1.33458); (-1.41582); (-1.49723);
   (-1.57881); (-1.66044); (-1.74222); (-1.82398); (-1.90583); (-1.98771); (-2.07254); (-2.15343);
   (-2.23434); (-2.31525); (-2.39617); (-2.4771); (-2.55803); (-2.63897); (-2.71991); (-2.80085); (-2.8818);
   (-2.96275); (-3.04371); (-3.12467); (-3.20563); (-3.28659); (-3.36756); (-3.44853); (-3.5295); (-3.61047);
   (-3.69145); (-3.77242); (-3.8534); (-3.93438); (-4.01536); (-4.09634); (-4.17733); (-4.25831); (-4.33929);
   (-4.42028); (-4.50127); (-4.58225); (-4.66324)];
  [(-2.27896); (-2.23808); (-2.19718); (-2.15625); (-2.11529); (-2.0743); (-2.03328); (-1.99223); (-1.95115);
   (-1.91004); (-1.86889); (-1.8277); (-1.78648); (-1.74523); (-1.70394); (-1.66261); (-1.62125); (-1.57986);
   (-1.53843); (-1.49698); (-1.45549); (-1.41399); (-1.37246); (-1.33092); (-1.28937); (-1.24783); (-1.2063);
   (-1.16478); (-1.12331); (-1.08188); (-1.04053); (-0.999261); (-0.958106); (-0.917088); (-0.876235);
   (-0.835579); (-0.795152); (-0.754993); (-0.71514); (-0.675633); (-0.636516); (-0.597832); (-0.559625);
   (-0.521942); (-0.484825); (-0.448318); (-0.412463); (-0.377298); (-0.342859); (-0.30918); (-0.276288);
   (-0.24421); (-0.212965); (-0.182569); (-0.153035); (-0.124369); (-0.0965758); (-0.0696534); (-0.0435983);
   (-0.0184031); 0.0059421; 0.0294495; 0.0521332; 0.0740085; 0.0950918; 0.1154; 0.13495; 0.153758; 0.171841;
   0.189215; 0.205894; 0.221892; 0.237223; 0.251897; 0.265927; 0.279321; 0.292091; 0.304245; 0.315792;
   0.32674; 0.3371; 0.34688; 0.35609; 0.364742; 0.372848; 0.38042; 0.387472; 0.39402; 0.400079; 0.405668;
   0.410805; 0.415508; 0.419797; 0.423693; 0.427215; 0.430384; 0.43322; 0.435741; 0.437966; 0.439913;
   0.441596; 0.443032; 0.444232; 0.445207; 0.445966; 0.446515; 0.446858; 0.446996; 0.446926; 0.446642;
   0.446136; 0.445395; 0.444401; 0.443131; 0.441557; 0.439647; 0.43736; 0.434648; 0.431456; 0.427718;
   0.423361; 0.418297; 0.412429; 0.405647; 0.397823; 0.388818; 0.378474; 0.366618; 0.35306; 0.337593;
   0.319995; 0.300032; 0.277458; 0.252027; 0.223489; 0.191608; 0.156169; 0.116988; 0.0739252; 0.0269066;
   (-0.0240762); (-0.0789414); (-0.137525); (-0.199571); (-0.264754); (-0.332694); (-0.402986); (-0.475241);
   (-0.549113); (-0.624322); (-0.700662); (-0.777989); (-0.856186); (-0.93513); (-1.01471); (-1.09481);
   (-1.17531); (-1.25615); (-1.33728); (-1.41863); (-1.50014); (-1.5818); (-1.66352); (-1.74536); (-1.8272);
   (-1.90911); (-1.99104); (-2.0765); (-2.1574); (-2.2383); (-2.31922); (-2.40014); (-2.48106); (-2.56199);
   (-2.64293); (-2.72387); (-2.80481); (-2.88576); (-2.96671); (-3.04767); (-3.12863); (-3.20959);
   (-3.29056); (-3.37152); (-3.45249); (-3.53346); (-3.61443); (-3.69541); (-3.77639); (-3.85736);
   (-3.93834); (-4.01932); (-4.1003); (-4.18129); (-4.26227); (-4.34326); (-4.42424); (-4.50523); (-4.58621);
   (-4.6672)];
  [(-2.30695); (-2.26606); (-2.22513); (-2.18418); (-2.1432); (-2.10219); (-2.06114); (-2.02007); (-1.97895);
   (-1.9378); (-1.89661); (-1.85539); (-1.81412); (-1.77282); (-1.73147); (-1.69008); (-1.64865); (-1.60718);
   (-1.56567); (-1.52413); (-1.48255); (-1.44093); (-1.39929); (-1.35762); (-1.31593); (-1.27423);
   (-1.23252); (-1.19082); (-1.14914); (-1.10749); (-1.06589); (-1.02435); (-0.982897); (-0.941555);
   (-0.900349); (-0.859307); (-0.818463); (-0.77785); (-0.737507); (-0.697472); (-0.657787); (-0.618496);
   (-0.579643); (-0.541274); (-0.503433); (-0.466164); (-0.429511); (-0.393516); (-0.358216); (-0.323648);
   (-0.289843); (-0.256832); (-0.224636); (-0.193278); (-0.162772); (-0.133129); (-0.104358); (-0.07646);
   (-0.0494358); (-0.0232809); 0.00201157; 0.0264511; 0.0500492; 0.0728192; 0.0947755; 0.115933; 0.136308;
   0.155915; 0.174771; 0.19289; 0.210286; 0.226973; 0.242964; 0.25827; 0.272902; 0.286872; 0.300188; 0.31286;
   0.324897; 0.336309; 0.347106; 0.357296; 0.366892; 0.375904; 0.384345; 0.392229; 0.399571; 0.406386;
   0.412692; 0.418507; 0.42385; 0.428742; 0.433202; 0.437252; 0.440912; 0.444205; 0.447149; 0.449766;
   0.452075; 0.454092; 0.455836; 0.45732; 0.458558; 0.459561; 0.460338; 0.460895; 0.461236; 0.461361;
   0.461267; 0.460949; 0.460397; 0.459597; 0.458529; 0.457171; 0.455492; 0.453459; 0.451027; 0.448147;
   0.44476; 0.440799; 0.436185; 0.430829; 0.424628; 0.417467; 0.409216; 0.399727; 0.388841; 0.376377;
   0.36214; 0.345921; 0.327493; 0.306619; 0.283054; 0.256551; 0.226865; 0.193768; 0.157053; 0.116551;
   0.0721426; 0.0237727; (-0.0285377); (-0.0846835); (-0.144473); (-0.207627); (-0.273803); (-0.342612);
   (-0.41365); (-0.486537); (-0.560945); (-0.636619); (-0.713372); (-0.791069); (-0.869598); (-0.948835);
   (-1.02867); (-1.10899); (-1.18969); (-1.2707); (-1.35198); (-1.43346); (-1.51509); (-1.59684); (-1.67866);
   (-1.76058); (-1.8425); (-1.92441); (-2.01147); (-2.09236); (-2.17326); (-2.25416); (-2.33508); (-2.416);
   (-2.49692); (-2.57785); (-2.65879); (-2.73973); (-2.82067); (-2.90162); (-2.98258); (-3.06353);
   (-3.14449); (-3.22545); (-3.30642); (-3.38738); (-3.46835); (-3.54932); (-3.6303); (-3.71127); (-3.79225);
   (-3.87322); (-3.9542); (-4.03518); (-4.11617); (-4.19715); (-4.27813); (-4.35912); (-4.4401); (-4.52109);
   (-4.60208); (-4.68306)];
  [(-2.33419); (-2.29328); (-2.25234); (-2.21137); (-2.17036); (-2.12933); (-2.08826); (-2.04715);
   (-2.00601); (-1.96483); (-1.9236); (-1.88234); (-1.84103); (-1.79967); (-1.75827); (-1.71683); (-1.67534);
   (-1.6338); (-1.59221); (-1.55058); (-1.50891); (-1.46719); (-1.42544); (-1.38365); (-1.34183); (-1.29998);
   (-1.25811); (-1.21624); (-1.17437); (-1.1325); (-1.09067); (-1.04888); (-1.00715); (-0.965507);
   (-0.923971); (-0.88257); (-0.841334); (-0.800296); (-0.759492); (-0.71896); (-0.678741); (-0.638876);
   (-0.599411); (-0.56039); (-0.521858); (-0.483861); (-0.446444); (-0.409649); (-0.373519); (-0.33809);
   (-0.303399); (-0.269478); (-0.236354); (-0.204052); (-0.172591); (-0.141986); (-0.112248); (-0.0833837);
   (-0.0553967); (-0.0282862); (-0.00204835); 0.0233234; 0.0478379; 0.0715061; 0.0943402; 0.116354; 0.137561;
   0.157975; 0.177612; 0.196485; 0.214608; 0.231994; 0.248655; 0.264602; 0.279848; 0.294402; 0.308274;
   0.321474; 0.334011; 0.345896; 0.357137; 0.367746; 0.377735; 0.387114; 0.395898; 0.404101; 0.411738;
   0.418827; 0.425385; 0.431431; 0.436987; 0.442071; 0.446707; 0.450916; 0.454719; 0.458139; 0.461198;
   0.463915; 0.466312; 0.468405; 0.470214; 0.471753; 0.473035; 0.474073; 0.474876; 0.475449; 0.475798;
   0.475921; 0.475817; 0.475479; 0.474898; 0.474057; 0.472939; 0.471518; 0.469763; 0.467639; 0.465102;
   0.462099; 0.45857; 0.454446; 0.449645; 0.444075; 0.437632; 0.430196; 0.421635; 0.411799; 0.400522;
   0.387625; 0.372907; 0.356156; 0.337145; 0.315636; 0.291382; 0.26414; 0.233668; 0.199742; 0.162164;
   0.120775; 0.0754696; 0.0262053; (-0.02698); (-0.0839644); (-0.144541); (-0.208415); (-0.275238);
   (-0.344614); (-0.416144); (-0.489454); (-0.56423); (-0.640226); (-0.717268); (-0.795228); (-0.873992);
   (-0.953445); (-1.03347); (-1.11396); (-1.19481); (-1.27595); (-1.35736); (-1.43894); (-1.52067);
   (-1.60251); (-1.68441); (-1.76639); (-1.8484); (-1.93036); (-2.01804); (-2.09894); (-2.17983); (-2.26074);
   (-2.34165); (-2.42257); (-2.5035); (-2.58443); (-2.66537); (-2.74631); (-2.82725); (-2.9082); (-2.98915);
   (-3.07011); (-3.15107); (-3.23203); (-3.31299); (-3.39396); (-3.47493); (-3.5559); (-3.63687); (-3.71785);
   (-3.79882); (-3.8798); (-3.96078); (-4.04176); (-4.12274); (-4.20373); (-4.28471); (-4.36569); (-4.44668);
   (-4.52767); (-4.60865); (-4.68964)];
  [(-2.36071); (-2.31978); (-2.27882); (-2.23783); (-2.19681); (-2.15576); (-2.11467); (-2.07353);
   (-2.03236); (-1.99115); (-1.94989); (-1.90859); (-1.86724); (-1.82584); (-1.78439); (-1.74289);
   (-1.70134); (-1.65974); (-1.61808); (-1.57638); (-1.53462); (-1.49281); (-1.45095); (-1.40904); (-1.3671);
   (-1.32511); (-1.2831); (-1.24106); (-1.19901); (-1.15695); (-1.1149); (-1.07288); (-1.03089); (-0.988961);
   (-0.947116); (-0.905378); (-0.863775); (-0.822338); (-0.781101); (-0.740101); (-0.699376); (-0.658969);
   (-0.618923); (-0.579282); (-0.540093); (-0.5014); (-0.46325); (-0.425687); (-0.388755); (-0.352494);
   (-0.316943); (-0.282137); (-0.248107); (-0.214881); (-0.182482); (-0.150929); (-0.120236); (-0.0904158);
   (-0.0614735); (-0.0334124); (-0.00623212); 0.0200709; 0.0455027; 0.0700717; 0.0937878; 0.116662; 0.138708;
   0.159937; 0.180363; 0.199999; 0.218858; 0.236952; 0.254292; 0.270891; 0.28676; 0.301907; 0.316345;
   0.330081; 0.343127; 0.355492; 0.367187; 0.378222; 0.388611; 0.398364; 0.407497; 0.416024; 0.423963;
   0.43133; 0.438144; 0.444427; 0.450197; 0.455479; 0.460293; 0.464663; 0.468611; 0.472161; 0.475334;
   0.478153; 0.480638; 0.482808; 0.484681; 0.486274; 0.4876; 0.488672; 0.489498; 0.490085; 0.490438;
   0.490556; 0.490438; 0.490075; 0.489457; 0.48857; 0.487393; 0.485899; 0.484059; 0.481833; 0.479176;
   0.476034; 0.472345; 0.468036; 0.463025; 0.457216; 0.4505; 0.442757; 0.43385; 0.423624; 0.411913; 0.398531;
   0.383276; 0.365934; 0.346274; 0.324058; 0.29904; 0.270979; 0.239637; 0.204796; 0.166268; 0.123905;
   0.0776155; 0.0273745; (-0.0267626); (-0.0846554); (-0.146078); (-0.210727); (-0.278239); (-0.348217);
   (-0.420266); (-0.494021); (-0.569181); (-0.645516); (-0.722862); (-0.801099); (-0.880111); (-0.959785);
   (-1.04001); (-1.12067); (-1.20167); (-1.28295); (-1.36449); (-1.44617); (-1.52801); (-1.60993);
   (-1.69193); (-1.77396); (-1.85604); (-1.93806); (-2.02633); (-2.10723); (-2.18812); (-2.26903);
   (-2.34994); (-2.43086); (-2.51179); (-2.59272); (-2.67366); (-2.7546); (-2.83554); (-2.91649); (-2.99744);
   (-3.0784); (-3.15936); (-3.24032); (-3.32128); (-3.40225); (-3.48322); (-3.56419); (-3.64516); (-3.72614);
   (-3.80711); (-3.88809); (-3.96907); (-4.05005); (-4.13103); (-4.21202); (-4.293); (-4.37398); (-4.45497);
   (-4.53596); (-4.61694); (-4.69793)];
  [(-2.38654); (-2.3456); (-2.30463); (-2.26363); (-2.22259); (-2.18151); (-2.1404); (-2.09924); (-2.05805);
   (-2.0168); (-1.97552); (-1.93418); (-1.89279); (-1.85135); (-1.80986); (-1.76831); (-1.7267); (-1.68504);
   (-1.64332); (-1.60154); (-1.5597); (-1.5178); (-1.47584); (-1.43383); (-1.39177); (-1.34966); (-1.30751);
   (-1.26532); (-1.22309); (-1.18085); (-1.1386); (-1.09635); (-1.05412); (-1.01193); (-0.969797);
   (-0.927743); (-0.885795); (-0.843982); (-0.802338); (-0.760896); (-0.719695); (-0.678774); (-0.638177);
   (-0.597947); (-0.55813); (-0.518772); (-0.479919); (-0.441618); (-0.403913); (-0.366848); (-0.330463);
   (-0.294796); (-0.259882); (-0.225751); (-0.192432); (-0.159946); (-0.128313); (-0.0975459); (-0.0676564);
   (-0.0386506); (-0.0105316); 0.0167011; 0.0430504; 0.068522; 0.0931235; 0.116864; 0.139754; 0.161805;
   0.183028; 0.203435; 0.223038; 0.241849; 0.259879; 0.277139; 0.293639; 0.309391; 0.324402; 0.338685;
   0.352248; 0.365103; 0.377259; 0.388728; 0.399524; 0.409658; 0.419147; 0.428005; 0.436251; 0.443902;
   0.450978; 0.457501; 0.463492; 0.468973; 0.47397; 0.478504; 0.482601; 0.486284; 0.489575; 0.492498;
   0.495075; 0.497324; 0.499265; 0.500914; 0.502287; 0.503395; 0.504247; 0.504852; 0.505213; 0.50533;
   0.505201; 0.504819; 0.504171; 0.503244; 0.502015; 0.500458; 0.498541; 0.496224; 0.493461; 0.490195;
   0.486364; 0.481892; 0.476694; 0.470673; 0.463718; 0.455704; 0.446491; 0.435925; 0.423834; 0.41003;
   0.394309; 0.376455; 0.356236; 0.333413; 0.307743; 0.278985; 0.246906; 0.211294; 0.171968; 0.128791;
   0.081684; 0.0306345; (-0.0242871); (-0.0829255); (-0.145042); (-0.210323); (-0.278398); (-0.348871);
   (-0.421347); (-0.495473); (-0.570957); (-0.64758); (-0.725186); (-0.80366); (-0.882888); (-0.962755);
   (-1.04315); (-1.12396); (-1.20511); (-1.28651); (-1.36816); (-1.44995); (-1.53188); (-1.61389);
   (-1.69597); (-1.77806); (-1.86022); (-1.94228); (-2.03119); (-2.11208); (-2.19298); (-2.27389); (-2.3548);
   (-2.43572); (-2.51665); (-2.59758); (-2.67851); (-2.75945); (-2.8404); (-2.92135); (-3.0023); (-3.08325);
   (-3.16421); (-3.24518); (-3.32614); (-3.40711); (-3.48808); (-3.56905); (-3.65002); (-3.73099);
   (-3.81197); (-3.89295); (-3.97393); (-4.05491); (-4.13589); (-4.21687); (-4.29786); (-4.37884);
   (-4.45983); (-4.54081); (-4.6218); (-4.70279)];
  [(-2.41173); (-2.37078); (-2.32979); (-2.28877); (-2.24772); (-2.20663); (-2.16549); (-2.12432);
   (-2.08309); (-2.04183); (-2.00051); (-1.95914); (-1.91772); (-1.87624); (-1.8347); (-1.79311); (-1.75145);
   (-1.70973); (-1.66794); (-1.62609); (-1.58418); (-1.5422); (-1.50015); (-1.45805); (-1.41587); (-1.37364);
   (-1.33136); (-1.28902); (-1.24665); (-1.20423); (-1.16179); (-1.11933); (-1.07688); (-1.03444);
   (-0.992029); (-0.949677); (-0.907404); (-0.865238); (-0.823209); (-0.78135); (-0.739698); (-0.698291);
   (-0.65717); (-0.61638); (-0.575964); (-0.53597); (-0.496444); (-0.457433); (-0.418984); (-0.381141);
   (-0.343947); (-0.307443); (-0.271667); (-0.236653); (-0.202431); (-0.169029); (-0.136467); (-0.104766);
   (-0.0739381); (-0.0439944); (-0.0149411); 0.0132186; 0.0404848; 0.0668601; 0.0923495; 0.11696; 0.1407;
   0.163578; 0.185605; 0.206791; 0.227147; 0.246684; 0.265412; 0.283342; 0.300484; 0.316848; 0.332443;
   0.34728; 0.361369; 0.374721; 0.387347; 0.399258; 0.410467; 0.42099; 0.43084; 0.440035; 0.448593; 0.456533;
   0.463875; 0.470642; 0.476856; 0.482542; 0.487723; 0.492424; 0.496671; 0.500487; 0.503897; 0.506925;
   0.509592; 0.51192; 0.513927; 0.515631; 0.517047; 0.518187; 0.519063; 0.51968; 0.520043; 0.520152;
   0.520004; 0.519591; 0.518903; 0.517922; 0.516626; 0.514989; 0.512976; 0.510546; 0.50765; 0.504232;
   0.500225; 0.495551; 0.490124; 0.483841; 0.47659; 0.468243; 0.458655; 0.44767; 0.435111; 0.420787;
   0.404493; 0.386008; 0.365101; 0.341532; 0.315059; 0.285443; 0.252457; 0.215898; 0.175593; 0.131419;
   0.0833113; 0.0312759; (-0.024599); (-0.0841397); (-0.147091); (-0.213127); (-0.28187); (-0.352923);
   (-0.425898); (-0.500451); (-0.576306); (-0.653258); (-0.73116); (-0.809903); (-0.889373); (-0.969455);
   (-1.05004); (-1.13102); (-1.21231); (-1.29386); (-1.37562); (-1.45752); (-1.53955); (-1.62164);
   (-1.70379); (-1.78595); (-1.86817); (-1.95028); (-2.03977); (-2.12066); (-2.20156); (-2.28247);
   (-2.36338); (-2.4443); (-2.52523); (-2.60616); (-2.68709); (-2.76803); (-2.84898); (-2.92993); (-3.01088);
   (-3.09183); (-3.17279); (-3.25375); (-3.33472); (-3.41569); (-3.49665); (-3.57763); (-3.6586); (-3.73957);
   (-3.82055); (-3.90153); (-3.98251); (-4.06349); (-4.14447); (-4.22545); (-4.30644); (-4.38742);
   (-4.46841); (-4.54939); (-4.63038); (-4.71137)];
  [(-2.4363); (-2.39534); (-2.35434); (-2.31331); (-2.27224); (-2.23113); (-2.18998); (-2.14878); (-2.10754);
   (-2.06624); (-2.0249); (-1.9835); (-1.94204); (-1.90053); (-1.85895); (-1.81731); (-1.77561); (-1.73384);
   (-1.69199); (-1.65008); (-1.60809); (-1.56604); (-1.52391); (-1.4817); (-1.43943); (-1.39709); (-1.35468);
   (-1.31221); (-1.26968); (-1.22711); (-1.18449); (-1.14183); (-1.09916); (-1.05649); (-1.01382);
   (-0.971192); (-0.928613); (-0.886114); (-0.843722); (-0.801469); (-0.759389); (-0.71752); (-0.675902);
   (-0.634578); (-0.593591); (-0.552989); (-0.512817); (-0.473124); (-0.433957); (-0.395363); (-0.357385);
   (-0.320069); (-0.283453); (-0.247575); (-0.212469); (-0.178166); (-0.144691); (-0.112066); (-0.0803095);
   (-0.0494351); (-0.0194528); 0.0096308; 0.0378125; 0.065092; 0.0914714; 0.116955; 0.141549; 0.165261;
   0.188099; 0.210071; 0.231188; 0.25146; 0.270895; 0.289504; 0.307296; 0.324282; 0.34047; 0.355871;
   0.370495; 0.384352; 0.397455; 0.409816; 0.421447; 0.432364; 0.442583; 0.452121; 0.460997; 0.469231;
   0.476845; 0.48386; 0.490303; 0.496196; 0.501565; 0.506437; 0.510837; 0.51479; 0.518322; 0.521457;
   0.524217; 0.526625; 0.528701; 0.530461; 0.531923; 0.533099; 0.533999; 0.53463; 0.534998; 0.535101;
   0.534937; 0.534499; 0.533773; 0.532743; 0.531386; 0.529673; 0.52757; 0.525034; 0.522015; 0.518454;
   0.514282; 0.509421; 0.503779; 0.497254; 0.489729; 0.481072; 0.471139; 0.459767; 0.446778; 0.431978;
   0.41516; 0.396102; 0.37457; 0.350326; 0.323129; 0.292743; 0.258946; 0.221543; 0.18037; 0.135315;
   0.0863287; 0.0334304; (-0.0232752); (-0.0835993); (-0.147273); (-0.213962); (-0.283281); (-0.354835);
   (-0.428242); (-0.50317); (-0.579353); (-0.656596); (-0.734763); (-0.813748); (-0.893436); (-0.973712);
   (-1.05447); (-1.1356); (-1.21703); (-1.29871); (-1.38058); (-1.46258); (-1.5447); (-1.62687); (-1.70911);
   (-1.79132); (-1.87362); (-1.95583); (-2.04586); (-2.12675); (-2.20765); (-2.28856); (-2.36947);
   (-2.45039); (-2.53132); (-2.61225); (-2.69318); (-2.77412); (-2.85507); (-2.93602); (-3.01697);
   (-3.09793); (-3.17888); (-3.25985); (-3.34081); (-3.42178); (-3.50275); (-3.58372); (-3.66469);
   (-3.74567); (-3.82664); (-3.90762); (-3.9886); (-4.06958); (-4.15056); (-4.23154); (-4.31253); (-4.39351);
   (-4.4745); (-4.55548); (-4.63647); (-4.71746)];
  [(-2.46029); (-2.41931); (-2.37831); (-2.33726); (-2.29618); (-2.25505); (-2.21388); (-2.17267); (-2.1314);
   (-2.09008); (-2.04871); (-2.00729); (-1.9658); (-1.92425); (-1.88264); (-1.84096); (-1.79921); (-1.75739);
   (-1.71549); (-1.67352); (-1.63147); (-1.58933); (-1.54712); (-1.50483); (-1.46247); (-1.42002);
   (-1.37749); (-1.33489); (-1.29223); (-1.2495); (-1.20671); (-1.16387); (-1.121); (-1.0781); (-1.0352);
   (-0.992301); (-0.949434); (-0.906619); (-0.863883); (-0.821256); (-0.778772); (-0.736464); (-0.694374);
   (-0.652541); (-0.611009); (-0.569825); (-0.529034); (-0.488686); (-0.448827); (-0.409506); (-0.37077);
   (-0.332663); (-0.295229); (-0.258508); (-0.222537); (-0.187349); (-0.152975); (-0.119439); (-0.0867641);
   (-0.0549671); (-0.0240617); 0.0059418; 0.035037; 0.0632203; 0.090491; 0.116851; 0.142303; 0.166853;
   0.190508; 0.213274; 0.23516; 0.256174; 0.276325; 0.295621; 0.314073; 0.331689; 0.348478; 0.364451;
   0.379618; 0.393989; 0.407578; 0.420395; 0.432455; 0.443774; 0.454367; 0.464254; 0.473453; 0.481986;
   0.489875; 0.497143; 0.503817; 0.50992; 0.515481; 0.520524; 0.525078; 0.529169; 0.532822; 0.536064;
   0.538916; 0.541403; 0.543544; 0.545359; 0.546862; 0.548068; 0.548986; 0.549626; 0.549989; 0.550077;
   0.549886; 0.549408; 0.54863; 0.547533; 0.546094; 0.544284; 0.542065; 0.539393; 0.536217; 0.532474;
   0.528094; 0.522994; 0.517081; 0.510249; 0.502377; 0.493331; 0.48296; 0.471099; 0.457566; 0.442165;
   0.424685; 0.4049; 0.382579; 0.357481; 0.329368; 0.29801; 0.26319; 0.224721; 0.182456; 0.136294; 0.0862053;
   0.0322287; (-0.0255102); (-0.0868033); (-0.151365); (-0.218848); (-0.288863); (-0.361016); (-0.434936);
   (-0.510303); (-0.586867); (-0.66445); (-0.742928); (-0.822188); (-0.902125); (-0.982618); (-1.06356);
   (-1.14487); (-1.22645); (-1.30826); (-1.39025); (-1.47235); (-1.55457); (-1.63682); (-1.71914);
   (-1.80142); (-1.88378); (-1.96604); (-2.05657); (-2.13746); (-2.21836); (-2.29927); (-2.38018); (-2.4611);
   (-2.54203); (-2.62296); (-2.70389); (-2.78483); (-2.86578); (-2.94673); (-3.02768); (-3.10864);
   (-3.18959); (-3.27056); (-3.35152); (-3.43249); (-3.51346); (-3.59443); (-3.6754); (-3.75638); (-3.83735);
   (-3.91833); (-3.99931); (-4.08029); (-4.16127); (-4.24225); (-4.32324); (-4.40422); (-4.48521);
   (-4.56619); (-4.64718); (-4.72817)];
  [(-2.48372); (-2.44273); (-2.40171); (-2.36066); (-2.31956); (-2.27842); (-2.23723); (-2.196); (-2.15471);
   (-2.11338); (-2.07198); (-2.03053); (-1.98902); (-1.94744); (-1.90579); (-1.86407); (-1.82228);
   (-1.78041); (-1.73846); (-1.69643); (-1.65432); (-1.61212); (-1.56983); (-1.52746); (-1.485); (-1.44245);
   (-1.39982); (-1.3571); (-1.3143); (-1.27142); (-1.22848); (-1.18547); (-1.1424); (-1.0993); (-1.05616);
   (-1.01302); (-0.969875); (-0.926761); (-0.8837); (-0.840719); (-0.79785); (-0.755126); (-0.712585);
   (-0.670268); (-0.628215); (-0.586474); (-0.545089); (-0.50411); (-0.463585); (-0.423562); (-0.384091);
   (-0.345217); (-0.306987); (-0.269443); (-0.232625); (-0.196569); (-0.16131); (-0.126876); (-0.0932929);
   (-0.0605817); (-0.0287597); 0.00215929; 0.0321654; 0.0612517; 0.0894146; 0.116653; 0.142967; 0.168361;
   0.192838; 0.216404; 0.239066; 0.26083; 0.281705; 0.301698; 0.320818; 0.339073; 0.356473; 0.373027;
   0.388746; 0.40364; 0.417721; 0.431003; 0.4435; 0.455227; 0.466202; 0.476444; 0.485973; 0.49481; 0.50298;
   0.510506; 0.517416; 0.523734; 0.529489; 0.534709; 0.539421; 0.543653; 0.547432; 0.550783; 0.553731;
   0.5563; 0.55851; 0.560381; 0.561929; 0.563169; 0.56411; 0.564761; 0.565126; 0.565204; 0.564992; 0.564481;
   0.563658; 0.562503; 0.560993; 0.559096; 0.556774; 0.553982; 0.550666; 0.546762; 0.542197; 0.536886;
   0.530734; 0.523631; 0.515454; 0.506065; 0.495311; 0.483024; 0.469019; 0.453097; 0.435044; 0.414635;
   0.391637; 0.365811; 0.336921; 0.30474; 0.269058; 0.229699; 0.186522; 0.139443; 0.0884451; 0.0335834;
   (-0.0249994); (-0.0870826); (-0.152365); (-0.220493); (-0.291074); (-0.363716); (-0.438057); (-0.513788);
   (-0.590674); (-0.668545); (-0.747284); (-0.826783); (-0.906935); (-0.987617); (-1.06874); (-1.15019);
   (-1.2319); (-1.31384); (-1.39594); (-1.47814); (-1.56045); (-1.64277); (-1.72517); (-1.8075); (-1.8899);
   (-1.97227); (-2.06334); (-2.14423); (-2.22513); (-2.30603); (-2.38695); (-2.46787); (-2.54879);
   (-2.62972); (-2.71066); (-2.7916); (-2.87254); (-2.95349); (-3.03445); (-3.1154); (-3.19636); (-3.27732);
   (-3.35829); (-3.43925); (-3.52022); (-3.60119); (-3.68217); (-3.76314); (-3.84412); (-3.9251); (-4.00607);
   (-4.08705); (-4.16804); (-4.24902); (-4.33); (-4.41099); (-4.49197); (-4.57296); (-4.65395); (-4.73493)];
  [(-2.50661); (-2.46562); (-2.42459); (-2.38352); (-2.34241); (-2.30126); (-2.26005); (-2.21881); (-2.1775);
   (-2.13615); (-2.09473); (-2.05325); (-2.01171); (-1.9701); (-1.92842); (-1.88667); (-1.84483); (-1.80292);
   (-1.76092); (-1.71884); (-1.67667); (-1.63441); (-1.59205); (-1.5496); (-1.50705); (-1.46441); (-1.42167);
   (-1.37884); (-1.33592); (-1.2929); (-1.24981); (-1.20663); (-1.16339); (-1.12009); (-1.07673); (-1.03335);
   (-0.989949); (-0.946552); (-0.903182); (-0.859865); (-0.81663); (-0.77351); (-0.73054); (-0.687759);
   (-0.645209); (-0.602934); (-0.56098); (-0.519394); (-0.478227); (-0.437526); (-0.397343); (-0.357725);
   (-0.318719); (-0.280372); (-0.242725); (-0.205819); (-0.16969); (-0.134371); (-0.0998905); (-0.0662741);
   (-0.0335427); (-0.00171335); 0.0292003; 0.0591882; 0.0882433; 0.116361; 0.143541; 0.169782; 0.195087;
   0.21946; 0.242904; 0.265427; 0.287033; 0.307731; 0.327527; 0.34643; 0.364449; 0.381592; 0.397871;
   0.413295; 0.427878; 0.441632; 0.454572; 0.466715; 0.478078; 0.48868; 0.498544; 0.507691; 0.516146;
   0.523934; 0.531082; 0.537619; 0.543571; 0.548969; 0.55384; 0.558214; 0.562117; 0.565578; 0.568621;
   0.57127; 0.573547; 0.575472; 0.577061; 0.57833; 0.579288; 0.579944; 0.580302; 0.580361; 0.580117;
   0.579561; 0.578678; 0.577449; 0.575849; 0.573844; 0.571395; 0.568454; 0.564966; 0.560864; 0.556073;
   0.550505; 0.544061; 0.536627; 0.528079; 0.518272; 0.507053; 0.494247; 0.479666; 0.46311; 0.444361;
   0.423194; 0.399373; 0.372662; 0.342829; 0.309651; 0.272928; 0.232491; 0.188215; 0.140032; 0.0879438;
   0.0320247; (-0.0275622); (-0.090578); (-0.156707); (-0.225586); (-0.29682); (-0.370022); (-0.44484);
   (-0.520984); (-0.598231); (-0.676426); (-0.755458); (-0.835223); (-0.915606); (-0.996498); (-1.0778);
   (-1.15941); (-1.24126); (-1.32333); (-1.40554); (-1.48785); (-1.57024); (-1.65265); (-1.73512);
   (-1.81754); (-1.89997); (-1.98239); (-2.07394); (-2.15483); (-2.23573); (-2.31663); (-2.39754);
   (-2.47846); (-2.55939); (-2.64032); (-2.72126); (-2.8022); (-2.88314); (-2.96409); (-3.04504); (-3.126);
   (-3.20696); (-3.28792); (-3.36888); (-3.44985); (-3.53082); (-3.61179); (-3.69276); (-3.77374);
   (-3.85472); (-3.93569); (-4.01667); (-4.09765); (-4.17863); (-4.25962); (-4.3406); (-4.42159); (-4.50257);
   (-4.58356); (-4.66454); (-4.74553)];
  [(-2.529); (-2.48799); (-2.44695); (-2.40588); (-2.36475); (-2.32359); (-2.28237); (-2.24111); (-2.19979);
   (-2.15841); (-2.11698); (-2.07548); (-2.03391); (-1.99227); (-1.95056); (-1.90877); (-1.8669); (-1.82495);
   (-1.7829); (-1.74077); (-1.69854); (-1.65622); (-1.6138); (-1.57127); (-1.52865); (-1.48592); (-1.44308);
   (-1.40014); (-1.3571); (-1.31396); (-1.27072); (-1.22739); (-1.18397); (-1.14048); (-1.09692); (-1.05331);
   (-1.00967); (-0.966); (-0.922336); (-0.878699); (-0.835117); (-0.791619); (-0.748239); (-0.705017);
   (-0.66199); (-0.619204); (-0.576702); (-0.534534); (-0.492747); (-0.451392); (-0.410519); (-0.370178);
   (-0.330418); (-0.291287); (-0.25283); (-0.215089); (-0.178105); (-0.141914); (-0.106548); (-0.0720363);
   (-0.0384028); (-0.00566865); 0.0261489; 0.0570363; 0.0869834; 0.115983; 0.14403; 0.171123; 0.197261;
   0.222445; 0.246679; 0.269967; 0.292313; 0.313724; 0.334205; 0.353765; 0.372411; 0.390153; 0.407; 0.422964;
   0.438056; 0.45229; 0.465681; 0.478247; 0.490005; 0.500975; 0.51118; 0.520642; 0.529388; 0.537443;
   0.544836; 0.551595; 0.557749; 0.563329; 0.568364; 0.572883; 0.576916; 0.58049; 0.583631; 0.586365;
   0.588713; 0.590696; 0.592331; 0.593633; 0.594614; 0.595281; 0.595638; 0.595684; 0.595416; 0.594824;
   0.593893; 0.592602; 0.590924; 0.588827; 0.586269; 0.5832; 0.579564; 0.575292; 0.570307; 0.564518;
   0.557823; 0.550108; 0.541242; 0.531081; 0.519466; 0.506222; 0.491158; 0.47407; 0.454741; 0.432943;
   0.408442; 0.381003; 0.350398; 0.316407; 0.278838; 0.237531; 0.192374; 0.143309; 0.0903543; 0.0335988;
   (-0.0267794); (-0.0905282); (-0.157322); (-0.22679); (-0.29854); (-0.372186); (-0.447388); (-0.523865);
   (-0.601409); (-0.679876); (-0.759154); (-0.839142); (-0.919724); (-1.00079); (-1.08225); (-1.16401);
   (-1.24599); (-1.32818); (-1.41049); (-1.49289); (-1.57537); (-1.65786); (-1.74038); (-1.82287);
   (-1.90534); (-1.98786); (-2.07994); (-2.16083); (-2.24173); (-2.32263); (-2.40355); (-2.48447);
   (-2.56539); (-2.64632); (-2.72726); (-2.8082); (-2.88914); (-2.97009); (-3.05104); (-3.132); (-3.21296);
   (-3.29392); (-3.37489); (-3.45585); (-3.53682); (-3.61779); (-3.69876); (-3.77974); (-3.86072);
   (-3.94169); (-4.02267); (-4.10365); (-4.18463); (-4.26562); (-4.3466); (-4.42759); (-4.50857); (-4.58956);
   (-4.67054); (-4.75153)];
  [(-2.55089); (-2.50988); (-2.46883); (-2.42775); (-2.38661); (-2.34543); (-2.30421); (-2.26293);
   (-2.22159); (-2.1802); (-2.13874); (-2.09722); (-2.05563); (-2.01397); (-1.97223); (-1.93041); (-1.8885);
   (-1.84651); (-1.80442); (-1.76224); (-1.71996); (-1.67758); (-1.6351); (-1.5925); (-1.5498); (-1.50698);
   (-1.46405); (-1.42101); (-1.37786); (-1.33459); (-1.29122); (-1.24774); (-1.20416); (-1.16049);
   (-1.11674); (-1.07292); (-1.02904); (-0.985114); (-0.941172); (-0.89723); (-0.853316); (-0.809458);
   (-0.765688); (-0.722042); (-0.67856); (-0.635283); (-0.592256); (-0.549526); (-0.507142); (-0.465154);
   (-0.423613); (-0.382571); (-0.342077); (-0.302182); (-0.262933); (-0.224375); (-0.186552); (-0.149502);
   (-0.113263); (-0.0778647); (-0.0433371); (-0.00970448); 0.0230126; 0.0547969; 0.0856349; 0.115516;
   0.144433; 0.17238; 0.199355; 0.225357; 0.250387; 0.274447; 0.29754; 0.319671; 0.340846; 0.361071;
   0.380353; 0.398701; 0.416125; 0.432635; 0.448244; 0.462965; 0.476815; 0.48981; 0.501968; 0.513312;
   0.523863; 0.533646; 0.542686; 0.551012; 0.558652; 0.565636; 0.571994; 0.577758; 0.582957; 0.587622;
   0.591783; 0.595469; 0.598707; 0.601521; 0.603936; 0.605972; 0.607648; 0.608977; 0.609971; 0.610639;
   0.610984; 0.611006; 0.610699; 0.610053; 0.609053; 0.607677; 0.605896; 0.603677; 0.600975; 0.59774;
   0.593912; 0.58942; 0.584183; 0.578109; 0.571091; 0.563012; 0.553738; 0.54312; 0.530996; 0.517187;
   0.501499; 0.483726; 0.463647; 0.441035; 0.415656; 0.387278; 0.355674; 0.320635; 0.281976; 0.239549;
   0.193257; 0.143062; 0.0889982; 0.0311785; (-0.0302019); (-0.0948728); (-0.162495); (-0.232691);
   (-0.30507); (-0.379253); (-0.454913); (-0.531787); (-0.609684); (-0.688467); (-0.768032); (-0.848278);
   (-0.929089); (-1.01036); (-1.09199); (-1.1739); (-1.25602); (-1.33833); (-1.42075); (-1.50325);
   (-1.58581); (-1.66838); (-1.75097); (-1.83352); (-1.91603); (-2.01025); (-2.09113); (-2.17202);
   (-2.25292); (-2.33383); (-2.41474); (-2.49566); (-2.57658); (-2.65751); (-2.73845); (-2.81939);
   (-2.90034); (-2.98128); (-3.06224); (-3.14319); (-3.22415); (-3.30511); (-3.38608); (-3.46704);
   (-3.54801); (-3.62898); (-3.70996); (-3.79093); (-3.87191); (-3.95289); (-4.03387); (-4.11485);
   (-4.19583); (-4.27681); (-4.35779); (-4.43878); (-4.51976); (-4.60075); (-4.68174); (-4.76272)];
  [(-2.57232); (-2.53131); (-2.49025); (-2.44915); (-2.40801); (-2.36682); (-2.32558); (-2.28429);
   (-2.24294); (-2.20153); (-2.16005); (-2.11851); (-2.0769); (-2.03521); (-1.99344); (-1.95159); (-1.90965);
   (-1.86762); (-1.8255); (-1.78327); (-1.74094); (-1.69851); (-1.65596); (-1.6133); (-1.57053); (-1.52763);
   (-1.48461); (-1.44148); (-1.39822); (-1.35483); (-1.31133); (-1.26771); (-1.22398); (-1.18014); (-1.1362);
   (-1.09217); (-1.04807); (-1.00391); (-0.959696); (-0.915464); (-0.871234); (-0.827031); (-0.782888);
   (-0.738838); (-0.694919); (-0.651172); (-0.607639); (-0.564369); (-0.521409); (-0.478809); (-0.436622);
   (-0.394898); (-0.35369); (-0.31305); (-0.273027); (-0.233668); (-0.195021); (-0.157126); (-0.120024);
   (-0.0837506); (-0.0483373); (-0.0138125); 0.0197994; 0.0524778; 0.0842056; 0.114969; 0.144757; 0.173562;
   0.201379; 0.228204; 0.254035; 0.278874; 0.302722; 0.325581; 0.347457; 0.368355; 0.388282; 0.407245;
   0.425254; 0.44232; 0.458455; 0.473672; 0.487988; 0.501419; 0.513986; 0.52571; 0.536614; 0.546724;
   0.556066; 0.564669; 0.572562; 0.579776; 0.586344; 0.592296; 0.597664; 0.602481; 0.606776; 0.610579;
   0.613918; 0.61682; 0.619308; 0.621404; 0.623127; 0.62449; 0.625508; 0.626186; 0.626531; 0.626539;
   0.626207; 0.625524; 0.624474; 0.623033; 0.621174; 0.618859; 0.616046; 0.612681; 0.608702; 0.604037;
   0.598604; 0.592306; 0.585037; 0.576675; 0.567084; 0.556114; 0.543599; 0.529358; 0.513195; 0.494902;
   0.474259; 0.451037; 0.425004; 0.39593; 0.363592; 0.327786; 0.288334; 0.245099; 0.197992; 0.14699;
   0.0921386; 0.033565; (-0.0285225); (-0.0938437); (-0.162051); (-0.232765); (-0.305595); (-0.380169);
   (-0.456169); (-0.533343); (-0.611508); (-0.690536); (-0.770326); (-0.850776); (-0.93177); (-1.01321);
   (-1.09498); (-1.17702); (-1.25927); (-1.34169); (-1.4242); (-1.5068); (-1.58943); (-1.67208); (-1.75474);
   (-1.83737); (-1.91991); (-2.01475); (-2.09563); (-2.17652); (-2.25742); (-2.33833); (-2.41924);
   (-2.50016); (-2.58109); (-2.66202); (-2.74296); (-2.8239); (-2.90484); (-2.98579); (-3.06674); (-3.1477);
   (-3.22866); (-3.30962); (-3.39058); (-3.47155); (-3.55252); (-3.63349); (-3.71446); (-3.79544);
   (-3.87641); (-3.95739); (-4.03837); (-4.11935); (-4.20033); (-4.28132); (-4.3623); (-4.44328); (-4.52427);
   (-4.60525); (-4.68624); (-4.76723)];
  [(-2.59331); (-2.55228); (-2.51122); (-2.47011); (-2.42896); (-2.38776); (-2.34651); (-2.3052); (-2.26384);
   (-2.22241); (-2.18092); (-2.13936); (-2.09773); (-2.05602); (-2.01422); (-1.97234); (-1.93037);
   (-1.88831); (-1.84615); (-1.80388); (-1.7615); (-1.71902); (-1.67642); (-1.63369); (-1.59085); (-1.54788);
   (-1.50478); (-1.46155); (-1.41818); (-1.37469); (-1.33107); (-1.28731); (-1.24343); (-1.19943);
   (-1.15532); (-1.1111); (-1.06678); (-1.02238); (-0.977919); (-0.93341); (-0.888877); (-0.844346);
   (-0.799845); (-0.755408); (-0.71107); (-0.666871); (-0.622853); (-0.579062); (-0.535546); (-0.492355);
   (-0.449541); (-0.407157); (-0.365255); (-0.323888); (-0.283108); (-0.242966); (-0.203509); (-0.164784);
   (-0.126832); (-0.0896933); (-0.0534031); (-0.0179933); 0.0165081; 0.0500768; 0.0826921; 0.114337;
   0.144997; 0.174662; 0.203324; 0.230976; 0.257614; 0.283238; 0.307847; 0.331442; 0.354027; 0.375606;
   0.396185; 0.415771; 0.434373; 0.452001; 0.468669; 0.484388; 0.499176; 0.513051; 0.526032; 0.538141;
   0.549403; 0.559843; 0.569489; 0.578371; 0.58652; 0.593966; 0.600743; 0.606883; 0.61242; 0.617385;
   0.621811; 0.625727; 0.629163; 0.632145; 0.634699; 0.636845; 0.638603; 0.639988; 0.641013; 0.641685;
   0.642007; 0.641979; 0.641595; 0.640843; 0.639706; 0.63816; 0.636175; 0.633712; 0.630726; 0.627161;
   0.622953; 0.618026; 0.612294; 0.605659; 0.598009; 0.589218; 0.579148; 0.567642; 0.554532; 0.539632;
   0.522744; 0.503657; 0.482148; 0.45799; 0.43095; 0.400802; 0.367331; 0.330339; 0.289661; 0.245174;
   0.196807; 0.144558; 0.088495; 0.0287672; (-0.0343958); (-0.100694); (-0.169773); (-0.241244); (-0.314722);
   (-0.389847); (-0.466317); (-0.543899); (-0.622426); (-0.701782); (-0.781869); (-0.86258); (-0.943806);
   (-1.02544); (-1.1074); (-1.18959); (-1.27197); (-1.35451); (-1.43713); (-1.51982); (-1.60253); (-1.68526);
   (-1.76796); (-1.85066); (-1.93326); (-2.0285); (-2.10939); (-2.19028); (-2.27117); (-2.35208); (-2.43299);
   (-2.51391); (-2.59484); (-2.67577); (-2.75671); (-2.83765); (-2.91859); (-2.99954); (-3.08049);
   (-3.16145); (-3.24241); (-3.32337); (-3.40433); (-3.4853); (-3.56627); (-3.64724); (-3.72821); (-3.80919);
   (-3.89016); (-3.97114); (-4.05212); (-4.1331); (-4.21408); (-4.29507); (-4.37605); (-4.45703); (-4.53802);
   (-4.61901); (-4.69999); (-4.78098)];
  [(-2.61386); (-2.57283); (-2.53176); (-2.49064); (-2.44948); (-2.40827); (-2.36701); (-2.32569);
   (-2.28432); (-2.24288); (-2.20137); (-2.15979); (-2.11814); (-2.0764); (-2.03459); (-1.99268); (-1.95068);
   (-1.90858); (-1.86639); (-1.82408); (-1.78166); (-1.73913); (-1.69647); (-1.65369); (-1.61078);
   (-1.56773); (-1.52455); (-1.48124); (-1.43778); (-1.39418); (-1.35044); (-1.30656); (-1.26254);
   (-1.21838); (-1.1741); (-1.12969); (-1.08517); (-1.04055); (-0.995848); (-0.951074); (-0.906252);
   (-0.861406); (-0.816563); (-0.771754); (-0.727014); (-0.682381); (-0.637896); (-0.593603); (-0.54955);
   (-0.505788); (-0.462367); (-0.41934); (-0.376763); (-0.334688); (-0.293169); (-0.252259); (-0.212009);
   (-0.172466); (-0.133677); (-0.0956832); (-0.0585251); (-0.0222374); 0.013148; 0.0476032; 0.0811041;
   0.11363; 0.145164; 0.175691; 0.2052; 0.233684; 0.261135; 0.28755; 0.312927; 0.337265; 0.360567; 0.382835;
   0.404075; 0.424292; 0.443496; 0.461696; 0.478904; 0.495135; 0.510403; 0.524729; 0.538131; 0.550633;
   0.562259; 0.573037; 0.582994; 0.592162; 0.600571; 0.608255; 0.615247; 0.621581; 0.627291; 0.632411;
   0.636973; 0.641008; 0.644546; 0.647615; 0.65024; 0.652443; 0.654244; 0.65566; 0.656701; 0.657376;
   0.657688; 0.657637; 0.657215; 0.656411; 0.655207; 0.653578; 0.651492; 0.64891; 0.645784; 0.642057;
   0.637662; 0.632523; 0.62655; 0.619642; 0.611685; 0.602551; 0.592096; 0.580164; 0.566581; 0.551161;
   0.533702; 0.513993; 0.49181; 0.466925; 0.439109; 0.408138; 0.373803; 0.335911; 0.294309; 0.248885;
   0.19958; 0.146408; 0.0894519; 0.0288774; (-0.0350718); (-0.102085); (-0.1718); (-0.243827); (-0.317784);
   (-0.393322); (-0.47015); (-0.548048); (-0.62686); (-0.706475); (-0.786798); (-0.867722); (-0.949137);
   (-1.03094); (-1.11304); (-1.19537); (-1.27788); (-1.36052); (-1.44323); (-1.52602); (-1.6088); (-1.69161);
   (-1.77436); (-1.85714); (-1.93978); (-2.03557); (-2.11645); (-2.19734); (-2.27824); (-2.35914);
   (-2.44006); (-2.52098); (-2.6019); (-2.68283); (-2.76377); (-2.84471); (-2.92565); (-3.0066); (-3.08756);
   (-3.16851); (-3.24947); (-3.33043); (-3.4114); (-3.49236); (-3.57333); (-3.6543); (-3.73528); (-3.81625);
   (-3.89723); (-3.9782); (-4.05918); (-4.14016); (-4.22115); (-4.30213); (-4.38311); (-4.4641); (-4.54508);
   (-4.62607); (-4.70706); (-4.78804)];
  [(-2.634); (-2.59296); (-2.55189); (-2.51076); (-2.4696); (-2.42838); (-2.3871); (-2.34578); (-2.30439);
   (-2.26293); (-2.22141); (-2.17982); (-2.13814); (-2.09639); (-2.05455); (-2.01262); (-1.97059);
   (-1.92847); (-1.88623); (-1.84389); (-1.80143); (-1.75885); (-1.71614); (-1.6733); (-1.63033); (-1.58722);
   (-1.54396); (-1.50056); (-1.45701); (-1.41331); (-1.36946); (-1.32546); (-1.2813); (-1.237); (-1.19256);
   (-1.14797); (-1.10326); (-1.05843); (-1.01349); (-0.968464); (-0.923365); (-0.878217); (-0.833046);
   (-0.787881); (-0.742755); (-0.697704); (-0.652769); (-0.607993); (-0.563422); (-0.519106); (-0.475097);
   (-0.431448); (-0.388213); (-0.345448); (-0.303207); (-0.261546); (-0.220517); (-0.18017); (-0.140556);
   (-0.101719); (-0.0637023); (-0.0265445); 0.00971882; 0.0450562; 0.0794397; 0.112845; 0.145252; 0.176643;
   0.207004; 0.236322; 0.264591; 0.291803; 0.317954; 0.343043; 0.367068; 0.390033; 0.411941; 0.432798;
   0.452611; 0.47139; 0.489147; 0.505895; 0.521651; 0.536434; 0.550264; 0.563164; 0.575161; 0.58628;
   0.596553; 0.606009; 0.614683; 0.622607; 0.629816; 0.636345; 0.64223; 0.647504; 0.652201; 0.656353;
   0.659991; 0.663144; 0.665836; 0.668092; 0.669931; 0.671369; 0.672418; 0.673086; 0.673377; 0.673289;
   0.672815; 0.671942; 0.670651; 0.668915; 0.666703; 0.663972; 0.660673; 0.656746; 0.652123; 0.646724;
   0.640455; 0.633214; 0.624882; 0.615328; 0.604404; 0.591951; 0.577792; 0.561737; 0.543583; 0.523115;
   0.500111; 0.474342; 0.445582; 0.413611; 0.378224; 0.339242; 0.296521; 0.249963; 0.199528; 0.145247;
   0.0872229; 0.0256406; (-0.0392385); (-0.107091); (-0.177546); (-0.250214); (-0.324719); (-0.400725);
   (-0.477956); (-0.556209); (-0.63534); (-0.715245); (-0.795831); (-0.876988); (-0.958607); (-1.04059);
   (-1.12285); (-1.20531); (-1.28795); (-1.3707); (-1.45351); (-1.53638); (-1.61923); (-1.70213); (-1.78493);
   (-1.86776); (-1.95048); (-2.04668); (-2.12756); (-2.20845); (-2.28935); (-2.37026); (-2.45117);
   (-2.53209); (-2.61301); (-2.69394); (-2.77488); (-2.85582); (-2.93677); (-3.01771); (-3.09867);
   (-3.17962); (-3.26058); (-3.34154); (-3.42251); (-3.50347); (-3.58444); (-3.66541); (-3.74639);
   (-3.82736); (-3.90834); (-3.98932); (-4.0703); (-4.15128); (-4.23226); (-4.31324); (-4.39422); (-4.47521);
   (-4.55619); (-4.63718); (-4.71817); (-4.79915)];
  [(-2.65375); (-2.6127); (-2.57162); (-2.53049); (-2.48931); (-2.44809); (-2.40681); (-2.36547); (-2.32407);
   (-2.2826); (-2.24106); (-2.19945); (-2.15776); (-2.11599); (-2.07413); (-2.03217); (-1.99012); (-1.94797);
   (-1.9057); (-1.86332); (-1.82082); (-1.7782); (-1.73544); (-1.69255); (-1.64952); (-1.60634); (-1.56302);
   (-1.51954); (-1.4759); (-1.4321); (-1.38814); (-1.34402); (-1.29974); (-1.2553); (-1.2107); (-1.16595);
   (-1.12105); (-1.07602); (-1.03086); (-0.985587); (-0.940222); (-0.894786); (-0.8493); (-0.803792);
   (-0.758295); (-0.712842); (-0.667473); (-0.62223); (-0.577159); (-0.532308); (-0.487729); (-0.443475);
   (-0.3996); (-0.356162); (-0.313217); (-0.27082); (-0.229027); (-0.187891); (-0.147464); (-0.107794);
   (-0.0689284); (-0.0309084); 0.00622668; 0.0424416; 0.0777048; 0.111989; 0.145269; 0.177525; 0.208739;
   0.238897; 0.267987; 0.296002; 0.322934; 0.348779; 0.373536; 0.397206; 0.41979; 0.441294; 0.461725;
   0.481091; 0.499404; 0.516679; 0.53293; 0.548178; 0.562442; 0.575748; 0.58812; 0.599588; 0.610181;
   0.619933; 0.628875; 0.637044; 0.644475; 0.651203; 0.657266; 0.662698; 0.667534; 0.671806; 0.675548;
   0.678787; 0.68155; 0.683861; 0.68574; 0.687203; 0.688263; 0.688928; 0.689201; 0.68908; 0.688558; 0.68762;
   0.686247; 0.684412; 0.68208; 0.679209; 0.675746; 0.671631; 0.666793; 0.661147; 0.654601; 0.647047;
   0.638364; 0.628417; 0.617057; 0.604119; 0.589426; 0.572784; 0.553989; 0.532825; 0.509068; 0.482493;
   0.452874; 0.419998; 0.383664; 0.343704; 0.299983; 0.252417; 0.200981; 0.145722; 0.0867606; 0.0242991;
   (-0.0413903); (-0.10997); (-0.181067); (-0.254291); (-0.329273); (-0.405689); (-0.483277); (-0.561846);
   (-0.641263); (-0.721432); (-0.802252); (-0.883621); (-0.965425); (-1.04757); (-1.12998); (-1.21257);
   (-1.29533); (-1.37819); (-1.46108); (-1.54404); (-1.62698); (-1.70992); (-1.79279); (-1.87568);
   (-1.95845); (-2.05513); (-2.13602); (-2.21691); (-2.2978); (-2.37871); (-2.45962); (-2.54054); (-2.62147);
   (-2.7024); (-2.78334); (-2.86428); (-2.94522); (-3.02617); (-3.10712); (-3.18808); (-3.26904); (-3.35);
   (-3.43096); (-3.51193); (-3.5929); (-3.67387); (-3.75484); (-3.83582); (-3.91679); (-3.99777); (-4.07875);
   (-4.15973); (-4.24071); (-4.3217); (-4.40268); (-4.48366); (-4.56465); (-4.64564); (-4.72662); (-4.80761)];
  [(-2.67311); (-2.63207); (-2.59097); (-2.54984); (-2.50866); (-2.46742); (-2.42613); (-2.38478);
   (-2.34337); (-2.30189); (-2.26034); (-2.21872); (-2.17701); (-2.13522); (-2.09334); (-2.05136);
   (-2.00928); (-1.9671); (-1.9248); (-1.88239); (-1.83985); (-1.79719); (-1.75439); (-1.71144); (-1.66836);
   (-1.62512); (-1.58172); (-1.53817); (-1.49445); (-1.45056); (-1.4065); (-1.36227); (-1.31787); (-1.27329);
   (-1.22854); (-1.18363); (-1.13856); (-1.09333); (-1.04795); (-1.00245); (-0.956832); (-0.911117);
   (-0.865329); (-0.819492); (-0.773638); (-0.727799); (-0.682012); (-0.636318); (-0.590763); (-0.545394);
   (-0.500262); (-0.45542); (-0.410924); (-0.366831); (-0.323197); (-0.28008); (-0.237538); (-0.195626);
   (-0.154399); (-0.113909); (-0.0742033); (-0.0353295); 0.00267049; 0.0397576; 0.0758968; 0.111057;
   0.145209; 0.178331; 0.2104; 0.2414; 0.271317; 0.300139; 0.327857; 0.354465; 0.37996; 0.404341; 0.427609;
   0.449768; 0.470823; 0.490784; 0.509661; 0.527468; 0.544221; 0.559939; 0.574644; 0.588359; 0.601113;
   0.612932; 0.62385; 0.633898; 0.643112; 0.651527; 0.659179; 0.666107; 0.672346; 0.677934; 0.682905;
   0.687294; 0.691133; 0.694451; 0.697277; 0.699633; 0.70154; 0.703016; 0.704071; 0.704715; 0.704949;
   0.704771; 0.704173; 0.703139; 0.701649; 0.699673; 0.697175; 0.694111; 0.690425; 0.686054; 0.680924;
   0.674947; 0.668027; 0.660051; 0.650894; 0.640419; 0.628471; 0.614882; 0.599469; 0.582037; 0.562378;
   0.540275; 0.515504; 0.487841; 0.457066; 0.42297; 0.385362; 0.344085; 0.299022; 0.250107; 0.197334;
   0.140776; 0.0805763; 0.0169594; (-0.0497833); (-0.119301); (-0.191214); (-0.265137); (-0.34071);
   (-0.417628); (-0.49565); (-0.574602); (-0.654365); (-0.734846); (-0.815946); (-0.897558); (-0.979574);
   (-1.06191); (-1.14447); (-1.2272); (-1.31008); (-1.39304); (-1.47604); (-1.55908); (-1.64207); (-1.7251);
   (-1.80801); (-1.89092); (-1.97378); (-2.07075); (-2.15163); (-2.23252); (-2.31342); (-2.39433);
   (-2.47524); (-2.55616); (-2.63709); (-2.71802); (-2.79895); (-2.87989); (-2.96084); (-3.04179);
   (-3.12274); (-3.2037); (-3.28465); (-3.36562); (-3.44658); (-3.52755); (-3.60852); (-3.68949); (-3.77046);
   (-3.85143); (-3.93241); (-4.01339); (-4.09437); (-4.17535); (-4.25633); (-4.33731); (-4.4183); (-4.49928);
   (-4.58027); (-4.66125); (-4.74224); (-4.82323)];
  [(-2.69211); (-2.65106); (-2.60996); (-2.56882); (-2.52763); (-2.48639); (-2.44509); (-2.40373);
   (-2.36231); (-2.32082); (-2.27926); (-2.23762); (-2.1959); (-2.15409); (-2.11219); (-2.07019); (-2.02809);
   (-1.98588); (-1.94356); (-1.90111); (-1.85854); (-1.81583); (-1.77299); (-1.73); (-1.68686); (-1.64356);
   (-1.6001); (-1.55648); (-1.51268); (-1.4687); (-1.42455); (-1.38021); (-1.33569); (-1.29098); (-1.2461);
   (-1.20103); (-1.15578); (-1.11037); (-1.06479); (-1.01906); (-0.973198); (-0.927217); (-0.881137);
   (-0.834984); (-0.788785); (-0.742573); (-0.696383); (-0.650254); (-0.604231); (-0.55836); (-0.512692);
   (-0.467279); (-0.422177); (-0.377444); (-0.333137); (-0.289316); (-0.246039); (-0.203365); (-0.16135);
   (-0.120049); (-0.0795138); (-0.0397939); (-0.00093533); 0.0370193; 0.0740313; 0.110065; 0.14509; 0.179079;
   0.212006; 0.243852; 0.2746; 0.304235; 0.332746; 0.360125; 0.386366; 0.411467; 0.435428; 0.458251; 0.47994;
   0.500505; 0.519955; 0.538305; 0.555569; 0.571768; 0.586923; 0.601059; 0.614202; 0.626384; 0.637636;
   0.647991; 0.657486; 0.666158; 0.674043; 0.681181; 0.68761; 0.693366; 0.698487; 0.703007; 0.70696;
   0.710377; 0.713285; 0.715709; 0.717671; 0.719188; 0.720271; 0.72093; 0.721168; 0.720981; 0.720361;
   0.719294; 0.717757; 0.715722; 0.713151; 0.709998; 0.706208; 0.701718; 0.69645; 0.690317; 0.683221;
   0.675048; 0.665672; 0.654953; 0.642737; 0.628854; 0.61312; 0.59534; 0.575305; 0.552799; 0.5276; 0.499484;
   0.468234; 0.433644; 0.395528; 0.353733; 0.308148; 0.258714; 0.205433; 0.148383; 0.0877153; 0.0236596;
   (-0.0434879); (-0.113374); (-0.185618); (-0.259837); (-0.335675); (-0.41283); (-0.491067); (-0.570217);
   (-0.650165); (-0.730815); (-0.812075); (-0.893833); (-0.975986); (-1.05844); (-1.14113); (-1.22397);
   (-1.30695); (-1.39); (-1.47309); (-1.55622); (-1.63928); (-1.72238); (-1.80536); (-1.88833); (-1.97124);
   (-2.06893); (-2.14981); (-2.2307); (-2.3116); (-2.3925); (-2.47342); (-2.55434); (-2.63526); (-2.71619);
   (-2.79713); (-2.87807); (-2.95902); (-3.03996); (-3.12092); (-3.20187); (-3.28283); (-3.36379);
   (-3.44476); (-3.52572); (-3.60669); (-3.68766); (-3.76864); (-3.84961); (-3.93059); (-4.01157);
   (-4.09254); (-4.17352); (-4.25451); (-4.33549); (-4.41647); (-4.49746); (-4.57844); (-4.65943);
   (-4.74042); (-4.8214)];
  [(-2.71076); (-2.6697); (-2.6286); (-2.58745); (-2.54626); (-2.50501); (-2.4637); (-2.42234); (-2.3809);
   (-2.3394); (-2.29783); (-2.25618); (-2.21444); (-2.17262); (-2.1307); (-2.08868); (-2.04656); (-2.00432);
   (-1.96197); (-1.9195); (-1.87689); (-1.83415); (-1.79126); (-1.74823); (-1.70504); (-1.66168); (-1.61816);
   (-1.57447); (-1.53059); (-1.48653); (-1.44229); (-1.39785); (-1.35322); (-1.30839); (-1.26336);
   (-1.21815); (-1.17274); (-1.12714); (-1.08137); (-1.03543); (-0.989329); (-0.943091); (-0.896732);
   (-0.850274); (-0.803744); (-0.757172); (-0.710592); (-0.664044); (-0.617568); (-0.571211); (-0.525022);
   (-0.479055); (-0.433364); (-0.388007); (-0.343044); (-0.298533); (-0.254537); (-0.211114); (-0.168324);
   (-0.126224); (-0.0848687); (-0.0443118); (-0.00460222); 0.0342139; 0.0720941; 0.108999; 0.144895; 0.17975;
   0.213536; 0.24623; 0.277812; 0.308263; 0.337572; 0.365727; 0.39272; 0.418548; 0.443207; 0.4667; 0.489031;
   0.510206; 0.530236; 0.549133; 0.566915; 0.583599; 0.599209; 0.613768; 0.627306; 0.639852; 0.651439;
   0.662103; 0.671879; 0.680806; 0.688922; 0.696267; 0.702879; 0.708798; 0.714061; 0.718703; 0.722759;
   0.726261; 0.729236; 0.73171; 0.733705; 0.735238; 0.736322; 0.736964; 0.737168; 0.73693; 0.73624; 0.735084;
   0.733437; 0.73127; 0.728544; 0.72521; 0.721212; 0.716483; 0.710943; 0.704502; 0.697059; 0.688496;
   0.678685; 0.667482; 0.654729; 0.640253; 0.623869; 0.605377; 0.584568; 0.561226; 0.535129; 0.506055;
   0.473791; 0.438138; 0.398921; 0.355995; 0.309265; 0.258687; 0.204282; 0.146147; 0.084453; 0.0194461;
   (-0.0485634); (-0.119213); (-0.192121); (-0.266908); (-0.34323); (-0.4208); (-0.4994); (-0.578877);
   (-0.65912); (-0.74004); (-0.82154); (-0.903509); (-0.985846); (-1.06847); (-1.15129); (-1.23427);
   (-1.31736); (-1.40051); (-1.48369); (-1.56688); (-1.65004); (-1.73316); (-1.81623); (-1.89921);
   (-1.98221); (-2.08026); (-2.16114); (-2.24203); (-2.32293); (-2.40384); (-2.48475); (-2.56567); (-2.6466);
   (-2.72753); (-2.80846); (-2.8894); (-2.97035); (-3.0513); (-3.13225); (-3.21321); (-3.29416); (-3.37513);
   (-3.45609); (-3.53706); (-3.61803); (-3.699); (-3.77997); (-3.86094); (-3.94192); (-4.0229); (-4.10388);
   (-4.18486); (-4.26584); (-4.34682); (-4.42781); (-4.50879); (-4.58978); (-4.67076); (-4.75175); (-4.83274)];
  [(-2.72907); (-2.68801); (-2.6469); (-2.60575); (-2.56455); (-2.52329); (-2.48198); (-2.4406); (-2.39916);
   (-2.35765); (-2.31606); (-2.2744); (-2.23265); (-2.19081); (-2.14888); (-2.10684); (-2.0647); (-2.02244);
   (-1.98006); (-1.93756); (-1.89492); (-1.85214); (-1.80922); (-1.76614); (-1.7229); (-1.67949); (-1.63591);
   (-1.59215); (-1.54821); (-1.50407); (-1.45973); (-1.4152); (-1.37046); (-1.32551); (-1.28036); (-1.235);
   (-1.18943); (-1.14366); (-1.0977); (-1.05155); (-1.00523); (-0.958746); (-0.912117); (-0.865365);
   (-0.818516); (-0.771596); (-0.724641); (-0.677685); (-0.630771); (-0.583943); (-0.537249); (-0.490743);
   (-0.444478); (-0.398513); (-0.352908); (-0.307723); (-0.263021); (-0.218862); (-0.175309); (-0.132421);
   (-0.0902567); (-0.0488712); (-0.00831766); 0.0313543; 0.0700986; 0.107873; 0.144638; 0.180359; 0.215006;
   0.24855; 0.28097; 0.312243; 0.342355; 0.371293; 0.399045; 0.425606; 0.450973; 0.475144; 0.498124;
   0.519919; 0.540537; 0.559991; 0.578298; 0.595476; 0.611548; 0.62654; 0.640479; 0.653397; 0.665327;
   0.676306; 0.686371; 0.69556; 0.703914; 0.711472; 0.718276; 0.724365; 0.729776; 0.734548; 0.738716;
   0.74231; 0.745362; 0.747896; 0.749936; 0.751497; 0.752595; 0.753236; 0.753423; 0.753153; 0.752416;
   0.751196; 0.749469; 0.747203; 0.744359; 0.740887; 0.736729; 0.731816; 0.726067; 0.71939; 0.711681;
   0.702821; 0.69268; 0.68111; 0.667952; 0.653032; 0.636161; 0.617141; 0.595762; 0.571806; 0.545054;
   0.515287; 0.482294; 0.445882; 0.405882; 0.362159; 0.314626; 0.263251; 0.208067; 0.149183; 0.0867813;
   0.0211197; (-0.0474844); (-0.118664); (-0.192037); (-0.267228); (-0.343902); (-0.42178); (-0.500655);
   (-0.580381); (-0.660854); (-0.741984); (-0.823675); (-0.905816); (-0.988307); (-1.07107); (-1.15402);
   (-1.23711); (-1.32031); (-1.40355); (-1.48681); (-1.57009); (-1.65332); (-1.73651); (-1.81963);
   (-1.90268); (-2.00346); (-2.08433); (-2.16521); (-2.2461); (-2.327); (-2.40791); (-2.48882); (-2.56974);
   (-2.65066); (-2.73159); (-2.81253); (-2.89347); (-2.97442); (-3.05537); (-3.13632); (-3.21727);
   (-3.29823); (-3.37919); (-3.46016); (-3.54112); (-3.62209); (-3.70306); (-3.78404); (-3.86501);
   (-3.94599); (-4.02697); (-4.10795); (-4.18893); (-4.26991); (-4.35089); (-4.43187); (-4.51286);
   (-4.59384); (-4.67483); (-4.75582); (-4.8368)];
  [(-2.74705); (-2.70598); (-2.66487); (-2.62372); (-2.58251); (-2.54124); (-2.49992); (-2.45854);
   (-2.41709); (-2.37557); (-2.33398); (-2.2923); (-2.25054); (-2.20869); (-2.16674); (-2.12468); (-2.08252);
   (-2.04024); (-1.99784); (-1.95531); (-1.91264); (-1.86983); (-1.82687); (-1.78375); (-1.74046); (-1.697);
   (-1.65337); (-1.60954); (-1.56553); (-1.52131); (-1.47689); (-1.43227); (-1.38742); (-1.34236);
   (-1.29709); (-1.25159); (-1.20587); (-1.15994); (-1.1138); (-1.06745); (-1.02091); (-0.974187);
   (-0.927299); (-0.880264); (-0.833105); (-0.785851); (-0.738532); (-0.691183); (-0.643844); (-0.596559);
   (-0.549376); (-0.502345); (-0.455522); (-0.408964); (-0.362732); (-0.316888); (-0.271493); (-0.226613);
   (-0.182309); (-0.138645); (-0.0956813); (-0.0534764); (-0.0120866); 0.0284349; 0.0680383; 0.106677;
   0.14431; 0.180897; 0.216404; 0.250801; 0.284061; 0.31616; 0.34708; 0.376805; 0.405322; 0.432623; 0.458703;
   0.48356; 0.507196; 0.529617; 0.550829; 0.570847; 0.589686; 0.607364; 0.623904; 0.639332; 0.653678;
   0.666971; 0.679248; 0.690545; 0.700899; 0.710352; 0.718943; 0.726715; 0.733708; 0.739964; 0.745521;
   0.750417; 0.754689; 0.75837; 0.761488; 0.764072; 0.766143; 0.767718; 0.768812; 0.769432; 0.76958;
   0.769252; 0.768437; 0.76712; 0.765273; 0.762865; 0.759853; 0.756187; 0.751805; 0.746637; 0.740598;
   0.733595; 0.725519; 0.716249; 0.70565; 0.693573; 0.679855; 0.664319; 0.646774; 0.62702; 0.604845;
   0.580034; 0.552367; 0.521628; 0.487614; 0.450138; 0.409039; 0.364197; 0.315537; 0.263043; 0.20677;
   0.146842; 0.0834608; 0.0168993; (-0.0525124); (-0.124404); (-0.198392); (-0.274109); (-0.351231);
   (-0.429496); (-0.508713); (-0.588747); (-0.6695); (-0.750886); (-0.832802); (-0.915144); (-0.997813);
   (-1.08072); (-1.16381); (-1.24702); (-1.33033); (-1.41367); (-1.49702); (-1.58036); (-1.66366);
   (-1.74691); (-1.8301); (-1.91316); (-2.01437); (-2.09524); (-2.17612); (-2.25701); (-2.33791); (-2.41882);
   (-2.49973); (-2.58065); (-2.66157); (-2.7425); (-2.82344); (-2.90438); (-2.98533); (-3.06628); (-3.14723);
   (-3.22818); (-3.30914); (-3.3901); (-3.47107); (-3.55203); (-3.633); (-3.71397); (-3.79495); (-3.87592);
   (-3.9569); (-4.03788); (-4.11886); (-4.19984); (-4.28082); (-4.3618); (-4.44278); (-4.52377); (-4.60475);
   (-4.68574); (-4.76673); (-4.84772)];
  [(-2.76471); (-2.72364); (-2.68253); (-2.64137); (-2.60015); (-2.55889); (-2.51756); (-2.47617);
   (-2.43471); (-2.39318); (-2.35158); (-2.30989); (-2.26812); (-2.22625); (-2.18429); (-2.14222);
   (-2.10003); (-2.05773); (-2.01531); (-1.97275); (-1.93006); (-1.88721); (-1.84422); (-1.80106);
   (-1.75773); (-1.71422); (-1.67053); (-1.62665); (-1.58257); (-1.53828); (-1.49378); (-1.44906);
   (-1.40412); (-1.35896); (-1.31356); (-1.26793); (-1.22207); (-1.17598); (-1.12966); (-1.08312);
   (-1.03637); (-0.98942); (-0.94228); (-0.894972); (-0.847516); (-0.799938); (-0.752267); (-0.704537);
   (-0.656787); (-0.609059); (-0.561399); (-0.513858); (-0.466491); (-0.419355); (-0.372511); (-0.326021);
   (-0.279948); (-0.234358); (-0.189316); (-0.144887); (-0.101133); (-0.0581178); (-0.0158991); 0.0254659;
   0.0659238; 0.105425; 0.143923; 0.181375; 0.217744; 0.252996; 0.287099; 0.320028; 0.351761; 0.38228;
   0.411568; 0.439617; 0.466418; 0.491969; 0.51627; 0.539324; 0.561141; 0.581731; 0.601109; 0.619296;
   0.636312; 0.652186; 0.666945; 0.680622; 0.693253; 0.704875; 0.715527; 0.72525; 0.734087; 0.742079;
   0.749269; 0.755699; 0.761409; 0.766438; 0.770823; 0.774599; 0.777794; 0.780438; 0.782552; 0.784154;
   0.785259; 0.785874; 0.786001; 0.785636; 0.784768; 0.783379; 0.781444; 0.778928; 0.775788; 0.771973;
   0.767419; 0.762054; 0.755793; 0.748538; 0.74018; 0.730596; 0.719649; 0.707187; 0.693046; 0.677046;
   0.658998; 0.638698; 0.615936; 0.590497; 0.562162; 0.530721; 0.495971; 0.457733; 0.415854; 0.370221;
   0.32077; 0.267496; 0.210466; 0.149815; 0.0857567; 0.0185727; (-0.0514003); (-0.12379); (-0.198213);
   (-0.274308); (-0.35176); (-0.430317); (-0.509795); (-0.590069); (-0.671043); (-0.75263); (-0.83473);
   (-0.917237); (-1.00005); (-1.0831); (-1.16631); (-1.24963); (-1.33304); (-1.41646); (-1.49991);
   (-1.58332); (-1.66669); (-1.75); (-1.83325); (-1.91636); (-2.01817); (-2.09905); (-2.17993); (-2.26082);
   (-2.34172); (-2.42262); (-2.50354); (-2.58446); (-2.66538); (-2.74631); (-2.82725); (-2.90819);
   (-2.98913); (-3.07008); (-3.15104); (-3.23199); (-3.31295); (-3.39391); (-3.47488); (-3.55584);
   (-3.63681); (-3.71778); (-3.79876); (-3.87973); (-3.96071); (-4.04169); (-4.12266); (-4.20364);
   (-4.28463); (-4.36561); (-4.44659); (-4.52758); (-4.60856); (-4.68955); (-4.77054); (-4.85152)];
  [(-2.78207); (-2.741); (-2.69988); (-2.65872); (-2.6175); (-2.57622); (-2.53489); (-2.4935); (-2.45203);
   (-2.4105); (-2.36888); (-2.32718); (-2.2854); (-2.24352); (-2.20154); (-2.15945); (-2.11725); (-2.07493);
   (-2.03249); (-1.98991); (-1.94718); (-1.90431); (-1.86128); (-1.81808); (-1.77471); (-1.73116);
   (-1.68742); (-1.64348); (-1.59934); (-1.55498); (-1.5104); (-1.4656); (-1.42057); (-1.37529); (-1.32978);
   (-1.28403); (-1.23803); (-1.19178); (-1.1453); (-1.09858); (-1.05162); (-1.00445); (-0.957069);
   (-0.909496); (-0.861752); (-0.813861); (-0.765849); (-0.717751); (-0.669602); (-0.621443); (-0.573321);
   (-0.525284); (-0.477387); (-0.429687); (-0.382244); (-0.335122); (-0.288384); (-0.242098); (-0.19633);
   (-0.151146); (-0.106614); (-0.0627963); (-0.0197566); 0.0224455; 0.0637529; 0.104112; 0.143473; 0.18179;
   0.219021; 0.255129; 0.290078; 0.323841; 0.356392; 0.387709; 0.417776; 0.446578; 0.474108; 0.50036;
   0.525333; 0.549029; 0.571457; 0.592627; 0.612553; 0.631255; 0.648756; 0.665081; 0.680261; 0.694328;
   0.707319; 0.719271; 0.730226; 0.740224; 0.74931; 0.757526; 0.764916; 0.771524; 0.77739; 0.782555;
   0.787055; 0.790927; 0.794202; 0.796906; 0.799065; 0.800695; 0.801812; 0.802423; 0.80253; 0.802128;
   0.801207; 0.799748; 0.797725; 0.795102; 0.791836; 0.787872; 0.783148; 0.777589; 0.771107; 0.763605;
   0.75497; 0.745077; 0.733788; 0.72095; 0.706396; 0.689946; 0.671407; 0.650579; 0.627249; 0.601204;
   0.572228; 0.540112; 0.504659; 0.465696; 0.423075; 0.376692; 0.326493; 0.272485; 0.214743; 0.153415;
   0.0887232; 0.0209581; (-0.0495386); (-0.122392); (-0.197222); (-0.273673); (-0.351436); (-0.430268);
   (-0.509996); (-0.590498); (-0.671683); (-0.753464); (-0.835741); (-0.918408); (-1.00137); (-1.08455);
   (-1.16787); (-1.2513); (-1.33482); (-1.41833); (-1.50186); (-1.58534); (-1.66879); (-1.75215); (-1.83547);
   (-1.91863); (-2.02107); (-2.10194); (-2.18282); (-2.26371); (-2.34461); (-2.42552); (-2.50643);
   (-2.58735); (-2.66828); (-2.74921); (-2.83014); (-2.91108); (-2.99203); (-3.07298); (-3.15393);
   (-3.23489); (-3.31584); (-3.39681); (-3.47777); (-3.55874); (-3.63971); (-3.72068); (-3.80165);
   (-3.88262); (-3.9636); (-4.04458); (-4.12556); (-4.20654); (-4.28752); (-4.3685); (-4.44949); (-4.53047);
   (-4.61146); (-4.69244); (-4.77343); (-4.85442)];
  [(-2.79914); (-2.75806); (-2.71694); (-2.67577); (-2.63455); (-2.59327); (-2.55193); (-2.51053);
   (-2.46906); (-2.42751); (-2.38589); (-2.34418); (-2.30239); (-2.2605); (-2.2185); (-2.1764); (-2.13419);
   (-2.09185); (-2.04938); (-2.00678); (-1.96403); (-1.92113); (-1.87807); (-1.83484); (-1.79143);
   (-1.74783); (-1.70404); (-1.66005); (-1.61584); (-1.57142); (-1.52677); (-1.48188); (-1.43676);
   (-1.39139); (-1.34577); (-1.29989); (-1.25376); (-1.20736); (-1.16072); (-1.11382); (-1.06667);
   (-1.01928); (-0.971668); (-0.92384); (-0.875818); (-0.827623); (-0.779283); (-0.730827); (-0.682291);
   (-0.633714); (-0.585142); (-0.536623); (-0.48821); (-0.439959); (-0.391932); (-0.34419); (-0.296801);
   (-0.249831); (-0.203348); (-0.157422); (-0.11212); (-0.0675099); (-0.023657); 0.0193755; 0.0615271;
   0.102741; 0.142962; 0.182143; 0.220236; 0.2572; 0.292999; 0.327599; 0.360972; 0.393093; 0.423943;
   0.453506; 0.481771; 0.508731; 0.534384; 0.558731; 0.581777; 0.603534; 0.624016; 0.643241; 0.661233;
   0.678017; 0.693624; 0.708087; 0.721444; 0.733732; 0.744994; 0.755273; 0.764612; 0.773057; 0.780651;
   0.787439; 0.793464; 0.798767; 0.803386; 0.807357; 0.810712; 0.813479; 0.815684; 0.817344; 0.818474;
   0.819082; 0.81917; 0.818733; 0.817761; 0.816233; 0.814123; 0.811395; 0.808004; 0.803896; 0.799005;
   0.793254; 0.786557; 0.778813; 0.769908; 0.759715; 0.748094; 0.734891; 0.719937; 0.703052; 0.684043;
   0.662707; 0.638834; 0.61221; 0.582623; 0.549867; 0.513749; 0.4741; 0.430781; 0.383696; 0.332798; 0.278104;
   0.2197; 0.157744; 0.092465; 0.0241618; (-0.0468197); (-0.120104); (-0.195312); (-0.272094); (-0.350149);
   (-0.429243); (-0.509207); (-0.589927); (-0.671314); (-0.753282); (-0.835727); (-0.918547); (-1.00165);
   (-1.08496); (-1.1684); (-1.25194); (-1.33555); (-1.41916); (-1.50277); (-1.58633); (-1.66985); (-1.75327);
   (-1.83666); (-1.91989); (-2.02295); (-2.10382); (-2.1847); (-2.26559); (-2.34649); (-2.4274); (-2.50831);
   (-2.58923); (-2.67015); (-2.75109); (-2.83202); (-2.91296); (-2.99391); (-3.07486); (-3.15581);
   (-3.23676); (-3.31772); (-3.39868); (-3.47965); (-3.56062); (-3.64158); (-3.72256); (-3.80353); (-3.8845);
   (-3.96548); (-4.04646); (-4.12744); (-4.20842); (-4.2894); (-4.37038); (-4.45137); (-4.53235); (-4.61334);
   (-4.69432); (-4.77531); (-4.8563)];
  [(-2.81592); (-2.77484); (-2.73371); (-2.69254); (-2.65131); (-2.61003); (-2.56869); (-2.52728); (-2.4858);
   (-2.44425); (-2.40262); (-2.36091); (-2.3191); (-2.2772); (-2.23519); (-2.19308); (-2.15085); (-2.10849);
   (-2.066); (-2.02338); (-1.98061); (-1.93768); (-1.89459); (-1.85132); (-1.80787); (-1.76424); (-1.7204);
   (-1.67636); (-1.63209); (-1.58761); (-1.54289); (-1.49792); (-1.45271); (-1.40724); (-1.36152);
   (-1.31552); (-1.26926); (-1.22273); (-1.17592); (-1.12885); (-1.08152); (-1.03392); (-0.986084);
   (-0.93801); (-0.889719); (-0.841231); (-0.792571); (-0.743768); (-0.694857); (-0.645875); (-0.596866);
   (-0.547877); (-0.49896); (-0.450173); (-0.401574); (-0.353227); (-0.305199); (-0.257558); (-0.210373);
   (-0.163715); (-0.117655); (-0.0722611); (-0.0276033); 0.0162524; 0.0592423; 0.101306; 0.142385; 0.182426;
   0.221381; 0.259203; 0.295852; 0.331292; 0.36549; 0.39842; 0.430058; 0.460387; 0.489394; 0.517069;
   0.543407; 0.56841; 0.592083; 0.614433; 0.635477; 0.655231; 0.673719; 0.690967; 0.707005; 0.721868;
   0.735594; 0.748221; 0.759793; 0.770352; 0.779945; 0.788617; 0.796414; 0.803381; 0.80956; 0.814996;
   0.819726; 0.823788; 0.827214; 0.830034; 0.832271; 0.833946; 0.835071; 0.835656; 0.835703; 0.835205;
   0.834151; 0.83252; 0.830286; 0.82741; 0.823845; 0.819537; 0.814417; 0.808407; 0.801416; 0.793343;
   0.784071; 0.77347; 0.761398; 0.747698; 0.732199; 0.714719; 0.695065; 0.673032; 0.648411; 0.62099;
   0.590558; 0.556915; 0.519873; 0.479271; 0.434979; 0.386913; 0.335041; 0.279392; 0.220068; 0.157242;
   0.0911561; 0.0221202; (-0.0495135); (-0.123368); (-0.199068); (-0.276272); (-0.354692); (-0.434107);
   (-0.51436); (-0.595343); (-0.676971); (-0.759159); (-0.8418); (-0.924793); (-1.00805); (-1.09149);
   (-1.17505); (-1.2587); (-1.34242); (-1.42611); (-1.50981); (-1.59343); (-1.67702); (-1.7605); (-1.84395);
   (-1.92721); (-2.03074); (-2.11161); (-2.19249); (-2.27338); (-2.35428); (-2.43519); (-2.5161); (-2.59702);
   (-2.67795); (-2.75888); (-2.83981); (-2.92075); (-3.0017); (-3.08265); (-3.1636); (-3.24455); (-3.32551);
   (-3.40648); (-3.48744); (-3.56841); (-3.64938); (-3.73035); (-3.81132); (-3.89229); (-3.97327);
   (-4.05425); (-4.13523); (-4.21621); (-4.29719); (-4.37817); (-4.45916); (-4.54014); (-4.62113);
   (-4.70211); (-4.7831); (-4.86409)];
  [(-2.83242); (-2.79134); (-2.75021); (-2.70904); (-2.66781); (-2.62652); (-2.58517); (-2.54376);
   (-2.50227); (-2.46072); (-2.41908); (-2.37735); (-2.33554); (-2.29363); (-2.25161); (-2.20948);
   (-2.16724); (-2.12486); (-2.08236); (-2.03971); (-1.99692); (-1.95396); (-1.91084); (-1.86755);
   (-1.82407); (-1.78039); (-1.73651); (-1.69241); (-1.6481); (-1.60355); (-1.55876); (-1.51372); (-1.46843);
   (-1.42287); (-1.37704); (-1.33093); (-1.28455); (-1.23788); (-1.19093); (-1.14369); (-1.09617);
   (-1.04838); (-1.00032); (-0.952009); (-0.903457); (-0.854685); (-0.805715); (-0.756577); (-0.707301);
   (-0.657925); (-0.60849); (-0.559044); (-0.509637); (-0.460325); (-0.411167); (-0.362228); (-0.313574);
   (-0.265273); (-0.217397); (-0.170018); (-0.123209); (-0.0770412); (-0.0315864); 0.0130861; 0.056909;
   0.0998178; 0.141752; 0.182653; 0.222469; 0.26115; 0.298651; 0.334934; 0.369962; 0.403706; 0.436139;
   0.467241; 0.496996; 0.525394; 0.552427; 0.578094; 0.602401; 0.625354; 0.646968; 0.667259; 0.686252;
   0.703972; 0.72045; 0.735722; 0.749824; 0.762798; 0.774687; 0.785535; 0.79539; 0.804297; 0.812304;
   0.819456; 0.825799; 0.831376; 0.836227; 0.840389; 0.843897; 0.84678; 0.849063; 0.850765; 0.851902;
   0.852481; 0.852505; 0.851967; 0.850856; 0.849151; 0.846823; 0.843834; 0.840137; 0.835674; 0.830377;
   0.824166; 0.816949; 0.808622; 0.799067; 0.788154; 0.775738; 0.761661; 0.745751; 0.727826; 0.707689;
   0.68514; 0.659969; 0.631964; 0.60092; 0.566636; 0.528933; 0.487653; 0.442674; 0.39392; 0.341367; 0.285055;
   0.225093; 0.161664; 0.0950198; 0.025474; (-0.0466178); (-0.120878); (-0.196934); (-0.274452); (-0.35315);
   (-0.432814); (-0.513294); (-0.594488); (-0.676311); (-0.758678); (-0.841484); (-0.924626); (-1.00802);
   (-1.09158); (-1.17526); (-1.25902); (-1.34283); (-1.42661); (-1.51039); (-1.59409); (-1.67775);
   (-1.76129); (-1.8448); (-1.92812); (-2.03229); (-2.11316); (-2.19404); (-2.27493); (-2.35583); (-2.43674);
   (-2.51765); (-2.59857); (-2.6795); (-2.76043); (-2.84136); (-2.9223); (-3.00325); (-3.0842); (-3.16515);
   (-3.24611); (-3.32707); (-3.40803); (-3.48899); (-3.56996); (-3.65093); (-3.7319); (-3.81287); (-3.89385);
   (-3.97482); (-4.0558); (-4.13678); (-4.21776); (-4.29874); (-4.37972); (-4.46071); (-4.54169); (-4.62268);
   (-4.70366); (-4.78465); (-4.86564)];
  [(-2.84866); (-2.80758); (-2.76645); (-2.72527); (-2.68403); (-2.64274); (-2.60139); (-2.55997);
   (-2.51848); (-2.47692); (-2.43527); (-2.39354); (-2.35172); (-2.3098); (-2.26777); (-2.22563); (-2.18337);
   (-2.14098); (-2.09846); (-2.05579); (-2.01298); (-1.97); (-1.92685); (-1.88352); (-1.84001); (-1.79629);
   (-1.75237); (-1.70823); (-1.66386); (-1.61926); (-1.5744); (-1.52929); (-1.48392); (-1.43827); (-1.39234);
   (-1.34613); (-1.29963); (-1.25283); (-1.20573); (-1.15833); (-1.11064); (-1.06266); (-1.01439);
   (-0.965843); (-0.917039); (-0.867991); (-0.818722); (-0.769258); (-0.719628); (-0.669869); (-0.620021);
   (-0.570129); (-0.520244); (-0.47042); (-0.420717); (-0.371198); (-0.32193); (-0.272983); (-0.224428);
   (-0.17634); (-0.128792); (-0.0818599); (-0.0356167); 0.00986474; 0.054514; 0.0982631; 0.141047; 0.182806;
   0.223481; 0.26302; 0.301375; 0.338503; 0.374363; 0.408924; 0.442156; 0.474035; 0.504544; 0.533668;
   0.561401; 0.587739; 0.612685; 0.636246; 0.658434; 0.679268; 0.698769; 0.716965; 0.733885; 0.749567;
   0.764047; 0.777367; 0.789572; 0.800707; 0.810819; 0.819956; 0.828167; 0.835497; 0.841994; 0.8477;
   0.852657; 0.856904; 0.860474; 0.863398; 0.8657; 0.867402; 0.868516; 0.869052; 0.869009; 0.868382;
   0.867159; 0.865315; 0.862823; 0.859641; 0.85572; 0.851001; 0.845412; 0.838871; 0.831283; 0.822541;
   0.812525; 0.8011; 0.788119; 0.77342; 0.756831; 0.738165; 0.717226; 0.693812; 0.667714; 0.638724; 0.606637;
   0.571262; 0.532425; 0.489979; 0.443815; 0.393871; 0.34014; 0.28268; 0.221621; 0.157163; 0.0895715;
   0.019175; (-0.053665); (-0.128572); (-0.205179); (-0.283165); (-0.362266); (-0.442283); (-0.523082);
   (-0.604565); (-0.686652); (-0.769255); (-0.852268); (-0.93559); (-1.01914); (-1.10284); (-1.18664);
   (-1.27052); (-1.35441); (-1.43827); (-1.52212); (-1.60589); (-1.68962); (-1.77318); (-1.85673);
   (-1.94013); (-2.04459); (-2.12546); (-2.20634); (-2.28723); (-2.36813); (-2.44904); (-2.52995);
   (-2.61087); (-2.6918); (-2.77273); (-2.85366); (-2.9346); (-3.01555); (-3.0965); (-3.17745); (-3.25841);
   (-3.33936); (-3.42033); (-3.50129); (-3.58226); (-3.66323); (-3.7442); (-3.82517); (-3.90615); (-3.98712);
   (-4.0681); (-4.14908); (-4.23006); (-4.31104); (-4.39202); (-4.47301); (-4.55399); (-4.63498); (-4.71596);
   (-4.79695); (-4.87794)];
  [(-2.86464); (-2.82356); (-2.78242); (-2.74124); (-2.7); (-2.65871); (-2.61735); (-2.57593); (-2.53444);
   (-2.49287); (-2.45121); (-2.40948); (-2.36764); (-2.32571); (-2.28367); (-2.24152); (-2.19925);
   (-2.15685); (-2.11431); (-2.07163); (-2.02879); (-1.98579); (-1.94262); (-1.89926); (-1.85571);
   (-1.81196); (-1.768); (-1.72381); (-1.6794); (-1.63473); (-1.58982); (-1.54464); (-1.49919); (-1.45346);
   (-1.40744); (-1.36112); (-1.3145); (-1.26757); (-1.22034); (-1.17279); (-1.12492); (-1.07675); (-1.02828);
   (-0.979515); (-0.930466); (-0.881152); (-0.831592); (-0.781811); (-0.731837); (-0.681706); (-0.631455);
   (-0.581129); (-0.530777); (-0.480454); (-0.430217); (-0.38013); (-0.33026); (-0.280678); (-0.231455);
   (-0.182668); (-0.134391); (-0.0867033); (-0.0396797); 0.00660406; 0.0520742; 0.0966594; 0.140291;
   0.182905; 0.224439; 0.264838; 0.304048; 0.342023; 0.37872; 0.414103; 0.44814; 0.480803; 0.512073;
   0.541933; 0.570374; 0.597391; 0.622985; 0.647162; 0.669935; 0.69132; 0.711339; 0.73002; 0.747392;
   0.763493; 0.77836; 0.792036; 0.804566; 0.815997; 0.826377; 0.835754; 0.844178; 0.851697; 0.858358;
   0.864206; 0.869283; 0.873627; 0.877275; 0.880257; 0.882598; 0.884319; 0.885434; 0.885952; 0.885873;
   0.885191; 0.883892; 0.881953; 0.879344; 0.876024; 0.871941; 0.867035; 0.861234; 0.854453; 0.846596;
   0.837553; 0.827203; 0.81541; 0.802024; 0.786883; 0.769812; 0.750625; 0.729126; 0.705112; 0.678376;
   0.648712; 0.615918; 0.579808; 0.540213; 0.496993; 0.450047; 0.399324; 0.344827; 0.286624; 0.224857;
   0.159733; 0.0915323; 0.0205824; (-0.0527485); (-0.128086); (-0.205068); (-0.283381); (-0.362771);
   (-0.443048); (-0.524084); (-0.605786); (-0.688076); (-0.770864); (-0.854045); (-0.937518); (-1.0212);
   (-1.10503); (-1.18894); (-1.27292); (-1.35691); (-1.44086); (-1.52479); (-1.60862); (-1.69242);
   (-1.77606); (-1.85965); (-1.9431); (-2.04813); (-2.129); (-2.20988); (-2.29077); (-2.37167); (-2.45258);
   (-2.53349); (-2.61441); (-2.69533); (-2.77626); (-2.8572); (-2.93814); (-3.01909); (-3.10003); (-3.18099);
   (-3.26194); (-3.3429); (-3.42386); (-3.50483); (-3.58579); (-3.66676); (-3.74773); (-3.82871); (-3.90968);
   (-3.99066); (-4.07164); (-4.15262); (-4.2336); (-4.31458); (-4.39556); (-4.47654); (-4.55753); (-4.63851);
   (-4.7195); (-4.80049); (-4.88147)];
  [(-2.88037); (-2.83929); (-2.79815); (-2.75696); (-2.71572); (-2.67443); (-2.63307); (-2.59164);
   (-2.55014); (-2.50857); (-2.46691); (-2.42516); (-2.38332); (-2.34138); (-2.29934); (-2.25717);
   (-2.21489); (-2.17247); (-2.12992); (-2.08722); (-2.04436); (-2.00134); (-1.95814); (-1.91476);
   (-1.87118); (-1.8274); (-1.7834); (-1.73917); (-1.6947); (-1.64999); (-1.60501); (-1.55977); (-1.51425);
   (-1.46843); (-1.42232); (-1.37591); (-1.32918); (-1.28213); (-1.23476); (-1.18706); (-1.13903);
   (-1.09068); (-1.04201); (-0.99303); (-0.943745); (-0.894173); (-0.844331); (-0.794242); (-0.743935);
   (-0.693441); (-0.642798); (-0.59205); (-0.541243); (-0.490432); (-0.439673); (-0.389031); (-0.338571);
   (-0.288365); (-0.238486); (-0.189011); (-0.140016); (-0.0915823); (-0.043787); 0.00329122; 0.0495755;
   0.0949911; 0.139466; 0.182932; 0.225323; 0.26658; 0.306646; 0.34547; 0.383006; 0.419214; 0.454059;
   0.487511; 0.519546; 0.550147; 0.579302; 0.607003; 0.633251; 0.65805; 0.681413; 0.703354; 0.723895;
   0.743064; 0.760892; 0.777414; 0.79267; 0.806702; 0.819558; 0.831283; 0.841928; 0.851542; 0.860175;
   0.867876; 0.874694; 0.880673; 0.885858; 0.890287; 0.893997; 0.897018; 0.899377; 0.901093; 0.902182;
   0.90265; 0.902498; 0.90172; 0.9003; 0.898214; 0.89543; 0.891905; 0.887587; 0.882412; 0.876305; 0.86918;
   0.860938; 0.851466; 0.84064; 0.82832; 0.814355; 0.79858; 0.780818; 0.760882; 0.738574; 0.713692; 0.686031;
   0.655386; 0.621563; 0.584378; 0.543674; 0.49932; 0.451229; 0.399363; 0.343743; 0.284455; 0.221656;
   0.155573; 0.0864976; 0.0147672; (-0.0592459); (-0.135169); (-0.212653); (-0.291392); (-0.371152);
   (-0.451757); (-0.53309); (-0.615064); (-0.697604); (-0.780611); (-0.863985); (-0.947624); (-1.03145);
   (-1.11541); (-1.19944); (-1.28352); (-1.3676); (-1.45164); (-1.53563); (-1.61953); (-1.70336); (-1.78706);
   (-1.87068); (-1.9542); (-2.05952); (-2.1404); (-2.22128); (-2.30217); (-2.38307); (-2.46397); (-2.54489);
   (-2.62581); (-2.70673); (-2.78766); (-2.8686); (-2.94954); (-3.03048); (-3.11143); (-3.19238); (-3.27334);
   (-3.3543); (-3.43526); (-3.51623); (-3.59719); (-3.67816); (-3.75913); (-3.84011); (-3.92108); (-4.00206);
   (-4.08303); (-4.16401); (-4.24499); (-4.32598); (-4.40696); (-4.48794); (-4.56893); (-4.64991); (-4.7309);
   (-4.81188); (-4.89287)];
  [(-2.89586); (-2.85477); (-2.81363); (-2.77245); (-2.7312); (-2.6899); (-2.64854); (-2.60711); (-2.56561);
   (-2.52403); (-2.48236); (-2.44061); (-2.39876); (-2.35682); (-2.31476); (-2.27259); (-2.23029);
   (-2.18786); (-2.1453); (-2.10258); (-2.05971); (-2.01666); (-1.97344); (-1.93003); (-1.88643); (-1.84261);
   (-1.79857); (-1.75431); (-1.70979); (-1.66503); (-1.62); (-1.57469); (-1.5291); (-1.48321); (-1.43701);
   (-1.3905); (-1.34366); (-1.29649); (-1.24899); (-1.20115); (-1.15297); (-1.10445); (-1.05558); (-1.00639);
   (-0.956879); (-0.907055); (-0.856939); (-0.806552); (-0.75592); (-0.705074); (-0.654049); (-0.602888);
   (-0.551638); (-0.500349); (-0.44908); (-0.397893); (-0.346855); (-0.296037); (-0.245512); (-0.195359);
   (-0.145656); (-0.0964849); (-0.0479258); (-6.00096e-5); 0.0470327; 0.0932741; 0.138589; 0.182904;
   0.226152; 0.268267; 0.30919; 0.348866; 0.387245; 0.424283; 0.459942; 0.494189; 0.526997; 0.558347;
   0.588223; 0.616617; 0.643528; 0.668959; 0.692919; 0.715426; 0.736499; 0.756166; 0.774458; 0.79141;
   0.807064; 0.821463; 0.834653; 0.846682; 0.857602; 0.867462; 0.876314; 0.884208; 0.891194; 0.897317;
   0.902622; 0.90715; 0.910936; 0.914013; 0.916407; 0.918139; 0.919224; 0.919668; 0.919473; 0.91863;
   0.917125; 0.914934; 0.912021; 0.908345; 0.90385; 0.898473; 0.892137; 0.884754; 0.876222; 0.86643;
   0.855248; 0.842538; 0.828146; 0.811906; 0.79364; 0.77316; 0.750269; 0.724767; 0.696448; 0.665112;
   0.630567; 0.592635; 0.551164; 0.506033; 0.457161; 0.404522; 0.348145; 0.288128; 0.224639; 0.157914;
   0.0882508; 0.0159931; (-0.0584862); (-0.134817); (-0.212656); (-0.291707); (-0.371742); (-0.452598);
   (-0.534161); (-0.616348); (-0.699084); (-0.78227); (-0.865806); (-0.94959); (-1.03355); (-1.11763);
   (-1.20177); (-1.28595); (-1.37012); (-1.45424); (-1.53832); (-1.62228); (-1.70618); (-1.78993); (-1.8736);
   (-1.95719); (-2.06305); (-2.14393); (-2.22481); (-2.3057); (-2.3866); (-2.4675); (-2.54842); (-2.62934);
   (-2.71026); (-2.79119); (-2.87213); (-2.95307); (-3.03402); (-3.11496); (-3.19592); (-3.27687);
   (-3.35783); (-3.43879); (-3.51976); (-3.60072); (-3.68169); (-3.76266); (-3.84364); (-3.92461);
   (-4.00559); (-4.08657); (-4.16755); (-4.24853); (-4.32951); (-4.41049); (-4.49147); (-4.57246);
   (-4.65344); (-4.73443); (-4.81542); (-4.8964)];
  [(-2.91112); (-2.87002); (-2.82889); (-2.78769); (-2.74645); (-2.70515); (-2.66378); (-2.62235);
   (-2.58084); (-2.53925); (-2.49759); (-2.45583); (-2.41398); (-2.37202); (-2.32996); (-2.28777);
   (-2.24547); (-2.20303); (-2.16045); (-2.11772); (-2.07482); (-2.03176); (-1.98852); (-1.94509);
   (-1.90145); (-1.85761); (-1.81353); (-1.76923); (-1.72467); (-1.67986); (-1.63478); (-1.58941);
   (-1.54375); (-1.49778); (-1.4515); (-1.4049); (-1.35796); (-1.31068); (-1.26305); (-1.21507); (-1.16674);
   (-1.11805); (-1.069); (-1.01961); (-0.969871); (-0.919804); (-0.869423); (-0.818746); (-0.767798);
   (-0.716609); (-0.665213); (-0.61365); (-0.561966); (-0.510212); (-0.458444); (-0.406724); (-0.355119);
   (-0.303699); (-0.25254); (-0.20172); (-0.151319); (-0.10142); (-0.0521054); (-0.00345973); 0.0444346;
   0.0914962; 0.137646; 0.182808; 0.22691; 0.269883; 0.311663; 0.352192; 0.391416; 0.429287; 0.465763;
   0.50081; 0.534396; 0.566499; 0.597103; 0.626196; 0.653776; 0.679844; 0.704409; 0.727487; 0.749097;
   0.769267; 0.788028; 0.805415; 0.821471; 0.836238; 0.849764; 0.862099; 0.873294; 0.8834; 0.892469;
   0.900554; 0.907703; 0.913966; 0.919386; 0.924004; 0.927859; 0.930981; 0.933399; 0.935133; 0.936197;
   0.936599; 0.936339; 0.935409; 0.933792; 0.931464; 0.928389; 0.924523; 0.91981; 0.914184; 0.907566;
   0.899866; 0.890981; 0.880795; 0.86918; 0.855993; 0.841078; 0.824269; 0.805387; 0.784241; 0.760637;
   0.734373; 0.705248; 0.673063; 0.637631; 0.598781; 0.556368; 0.510281; 0.46045; 0.40686; 0.349557;
   0.288649; 0.22432; 0.156817; 0.0864489; 0.0135634; (-0.0614648); (-0.13827); (-0.216516); (-0.29592);
   (-0.376266); (-0.457403); (-0.539222); (-0.621647); (-0.704596); (-0.787976); (-0.871679); (-0.955618);
   (-1.03972); (-1.12392); (-1.20816); (-1.29245); (-1.3767); (-1.4609); (-1.54504); (-1.62907); (-1.71304);
   (-1.79684); (-1.88055); (-1.96417); (-2.07047); (-2.15134); (-2.23222); (-2.31311); (-2.39401);
   (-2.47492); (-2.55583); (-2.63675); (-2.71768); (-2.79861); (-2.87955); (-2.96049); (-3.04143);
   (-3.12238); (-3.20333); (-3.28429); (-3.36525); (-3.44621); (-3.52717); (-3.60814); (-3.68911);
   (-3.77008); (-3.85105); (-3.93203); (-4.013); (-4.09398); (-4.17496); (-4.25594); (-4.33692); (-4.4179);
   (-4.49889); (-4.57987); (-4.66086); (-4.74184); (-4.82283); (-4.90382)];
  [(-2.92614); (-2.88505); (-2.84391); (-2.80272); (-2.76147); (-2.72016); (-2.67879); (-2.63736);
   (-2.59585); (-2.55426); (-2.51258); (-2.47082); (-2.42896); (-2.387); (-2.34493); (-2.30274); (-2.26042);
   (-2.21797); (-2.17538); (-2.13263); (-2.08972); (-2.04664); (-2.00338); (-1.95993); (-1.91627);
   (-1.87239); (-1.82829); (-1.78394); (-1.73935); (-1.69449); (-1.64935); (-1.60393); (-1.5582); (-1.51217);
   (-1.46581); (-1.41911); (-1.37208); (-1.32469); (-1.27694); (-1.22883); (-1.18035); (-1.13149);
   (-1.08227); (-1.03268); (-0.982726); (-0.932424); (-0.881784); (-0.830825); (-0.77957); (-0.728047);
   (-0.676289); (-0.624334); (-0.572227); (-0.520018); (-0.467762); (-0.41552); (-0.363359); (-0.31135);
   (-0.259567); (-0.208089); (-0.157); (-0.106381); (-0.0563203); (-0.00690214); 0.0417874; 0.0896639;
   0.136645; 0.182651; 0.227605; 0.271434; 0.314073; 0.355456; 0.395527; 0.434235; 0.471534; 0.507385;
   0.541756; 0.57462; 0.605958; 0.635757; 0.664013; 0.690726; 0.715904; 0.73956; 0.761715; 0.782396;
   0.801632; 0.819462; 0.835926; 0.851068; 0.864937; 0.877583; 0.889058; 0.899415; 0.908708; 0.916988;
   0.924306; 0.930712; 0.936251; 0.940965; 0.944892; 0.948065; 0.950511; 0.952252; 0.953301; 0.953667;
   0.953349; 0.952339; 0.95062; 0.948166; 0.94494; 0.940897; 0.93598; 0.930121; 0.92324; 0.915246; 0.906033;
   0.895483; 0.883467; 0.86984; 0.854446; 0.837116; 0.81767; 0.79592; 0.771668; 0.744717; 0.714865; 0.681919;
   0.645695; 0.606028; 0.562782; 0.51585; 0.465176; 0.410754; 0.352642; 0.290959; 0.225901; 0.157725;
   0.0867462; 0.0133166; (-0.0621888); (-0.139408); (-0.218014); (-0.297733); (-0.378358); (-0.459747);
   (-0.541803); (-0.624445); (-0.707592); (-0.791152); (-0.875016); (-0.959098); (-1.04333); (-1.12764);
   (-1.212); (-1.29638); (-1.38072); (-1.465); (-1.54921); (-1.63331); (-1.71733); (-1.80121); (-1.88495);
   (-1.96862); (-2.07542); (-2.15629); (-2.23717); (-2.31806); (-2.39896); (-2.47987); (-2.56078); (-2.6417);
   (-2.72263); (-2.80356); (-2.88449); (-2.96543); (-3.04638); (-3.12733); (-3.20828); (-3.28924);
   (-3.37019); (-3.45116); (-3.53212); (-3.61309); (-3.69406); (-3.77503); (-3.856); (-3.93697); (-4.01795);
   (-4.09893); (-4.17991); (-4.26089); (-4.34187); (-4.42285); (-4.50384); (-4.58482); (-4.66581);
   (-4.74679); (-4.82778); (-4.90877)];
  [(-2.94095); (-2.89985); (-2.85871); (-2.81752); (-2.77627); (-2.73496); (-2.69359); (-2.65215);
   (-2.61063); (-2.56904); (-2.52737); (-2.4856); (-2.44373); (-2.40176); (-2.35969); (-2.31749); (-2.27516);
   (-2.2327); (-2.1901); (-2.14734); (-2.10441); (-2.06132); (-2.01804); (-1.97456); (-1.93087); (-1.88697);
   (-1.84284); (-1.79846); (-1.75382); (-1.70892); (-1.66374); (-1.61826); (-1.57247); (-1.52637);
   (-1.47993); (-1.43315); (-1.38602); (-1.33853); (-1.29066); (-1.24242); (-1.1938); (-1.14479); (-1.09539);
   (-1.04561); (-0.995449); (-0.944917); (-0.894027); (-0.842794); (-0.791241); (-0.739393); (-0.687282);
   (-0.634945); (-0.582425); (-0.529771); (-0.477037); (-0.424285); (-0.371578); (-0.318989); (-0.266592);
   (-0.214468); (-0.1627); (-0.111372); (-0.0605725); (-0.0103895); 0.0390887; 0.0877745; 0.135582; 0.182428;
   0.228232; 0.272918; 0.316414; 0.358653; 0.399574; 0.439122; 0.477247; 0.513908; 0.549068; 0.582698;
   0.614777; 0.64529; 0.674229; 0.701594; 0.727391; 0.751634; 0.77434; 0.795538; 0.815257; 0.833535;
   0.850412; 0.865935; 0.880151; 0.893113; 0.904872; 0.915484; 0.925002; 0.93348; 0.940969; 0.94752;
   0.953179; 0.957989; 0.961989; 0.965211; 0.967685; 0.969431; 0.970464; 0.970792; 0.970413; 0.96932;
   0.967494; 0.96491; 0.961529; 0.957304; 0.952179; 0.946082; 0.938933; 0.930639; 0.921092; 0.910174;
   0.897752; 0.88368; 0.867802; 0.849947; 0.829935; 0.807577; 0.782679; 0.75504; 0.724465; 0.690762;
   0.653752; 0.613277; 0.569206; 0.521444; 0.469941; 0.414704; 0.3558; 0.293364; 0.227598; 0.15877;
   0.0872002; 0.0132456; (-0.0627198); (-0.140339); (-0.219292); (-0.299315); (-0.380213); (-0.461851);
   (-0.544136); (-0.62699); (-0.710332); (-0.794067); (-0.878088); (-0.962311); (-1.04667); (-1.1311);
   (-1.21557); (-1.30004); (-1.38447); (-1.46883); (-1.55311); (-1.63729); (-1.72135); (-1.80529);
   (-1.88907); (-1.97281); (-2.08009); (-2.16096); (-2.24185); (-2.32274); (-2.40364); (-2.48454);
   (-2.56546); (-2.64637); (-2.7273); (-2.80823); (-2.88917); (-2.97011); (-3.05105); (-3.132); (-3.21295);
   (-3.29391); (-3.37487); (-3.45583); (-3.53679); (-3.61776); (-3.69873); (-3.7797); (-3.86067); (-3.94165);
   (-4.02263); (-4.1036); (-4.18458); (-4.26556); (-4.34654); (-4.42753); (-4.50851); (-4.5895); (-4.67048);
   (-4.75147); (-4.83245); (-4.91344)];
  [(-2.95554); (-2.91445); (-2.8733); (-2.83211); (-2.79085); (-2.74954); (-2.70817); (-2.66673); (-2.62521);
   (-2.58361); (-2.54193); (-2.50016); (-2.45829); (-2.41632); (-2.37423); (-2.33203); (-2.28969);
   (-2.24722); (-2.20461); (-2.16184); (-2.1189); (-2.07579); (-2.03249); (-1.98899); (-1.94528); (-1.90135);
   (-1.85719); (-1.81278); (-1.76811); (-1.72316); (-1.67793); (-1.6324); (-1.58656); (-1.54039); (-1.49388);
   (-1.44702); (-1.39979); (-1.3522); (-1.30422); (-1.25586); (-1.2071); (-1.15793); (-1.10837); (-1.05841);
   (-1.00804); (-0.957288); (-0.906154); (-0.854656); (-0.802812); (-0.750647); (-0.698192); (-0.645483);
   (-0.59256); (-0.539471); (-0.486271); (-0.433017); (-0.379776); (-0.326617); (-0.273618); (-0.220857);
   (-0.168419); (-0.116391); (-0.0648613); (-0.0139209); 0.0363392; 0.0858286; 0.134458; 0.182141; 0.228793;
   0.274333; 0.318687; 0.361783; 0.403556; 0.443947; 0.482903; 0.520378; 0.556333; 0.590736; 0.623562;
   0.654795; 0.684425; 0.71245; 0.738873; 0.763709; 0.786975; 0.808696; 0.828905; 0.847637; 0.864935;
   0.880844; 0.895413; 0.908696; 0.920745; 0.931615; 0.941363; 0.950042; 0.957706; 0.964405; 0.970187;
   0.975096; 0.979171; 0.982446; 0.98495; 0.986703; 0.987722; 0.988014; 0.987578; 0.986405; 0.984476;
   0.981765; 0.978233; 0.973833; 0.968505; 0.962178; 0.95477; 0.946186; 0.936317; 0.925044; 0.912232;
   0.897735; 0.881394; 0.863039; 0.842489; 0.819556; 0.794045; 0.765759; 0.734504; 0.700092; 0.66235;
   0.621123; 0.576288; 0.527757; 0.475491; 0.419505; 0.359877; 0.296751; 0.230339; 0.160916; 0.088808;
   0.0143747; (-0.0620113); (-0.139998); (-0.219272); (-0.299579); (-0.380733); (-0.462605); (-0.545107);
   (-0.628163); (-0.71169); (-0.795593); (-0.879766); (-0.964125); (-1.04861); (-1.13316); (-1.21773);
   (-1.3023); (-1.38681); (-1.47125); (-1.55561); (-1.63985); (-1.72397); (-1.80797); (-1.89181); (-1.9756);
   (-2.08341); (-2.16429); (-2.24517); (-2.32606); (-2.40696); (-2.48786); (-2.56878); (-2.6497); (-2.73062);
   (-2.81155); (-2.89249); (-2.97343); (-3.05437); (-3.13532); (-3.21628); (-3.29723); (-3.37819);
   (-3.45915); (-3.54012); (-3.62108); (-3.70205); (-3.78302); (-3.864); (-3.94497); (-4.02595); (-4.10692);
   (-4.1879); (-4.26888); (-4.34987); (-4.43085); (-4.51183); (-4.59282); (-4.6738); (-4.75479); (-4.83578);
   (-4.91676)];
  [(-2.96992); (-2.92883); (-2.88768); (-2.84649); (-2.80523); (-2.76392); (-2.72254); (-2.6811); (-2.63958);
   (-2.59798); (-2.5563); (-2.51452); (-2.47265); (-2.43067); (-2.38858); (-2.34636); (-2.30402); (-2.26154);
   (-2.21892); (-2.17613); (-2.13318); (-2.09006); (-2.04674); (-2.00322); (-1.9595); (-1.91554); (-1.87135);
   (-1.82691); (-1.7822); (-1.73722); (-1.69194); (-1.64636); (-1.60046); (-1.55423); (-1.50765); (-1.46071);
   (-1.4134); (-1.36571); (-1.31763); (-1.26914); (-1.22025); (-1.17094); (-1.12121); (-1.07107); (-1.02051);
   (-0.969542); (-0.918172); (-0.866414); (-0.814288); (-0.761816); (-0.709026); (-0.655953); (-0.602637);
   (-0.549124); (-0.495466); (-0.441722); (-0.387957); (-0.33424); (-0.280648); (-0.227261); (-0.174164);
   (-0.121444); (-0.0691935); (-0.017504); 0.0335308; 0.0838174; 0.133263; 0.181779; 0.229275; 0.275668;
   0.320879; 0.364832; 0.407458; 0.448693; 0.488483; 0.526775; 0.563529; 0.598709; 0.632288; 0.664246;
   0.694572; 0.723261; 0.750317; 0.77575; 0.79958; 0.82183; 0.842531; 0.861721; 0.879441; 0.895738; 0.910662;
   0.924265; 0.936602; 0.94773; 0.957704; 0.96658; 0.974412; 0.981251; 0.987147; 0.992144; 0.996282;
   0.999594; 1.00211; 1.00385; 1.00484; 1.00507; 1.00454; 1.00326; 1.00119; 0.998314; 0.994586; 0.98996;
   0.984373; 0.977754; 0.970018; 0.961067; 0.950793; 0.939072; 0.925769; 0.910735; 0.89381; 0.874823;
   0.853593; 0.829931; 0.803644; 0.774537; 0.742418; 0.707104; 0.668427; 0.62624; 0.58043; 0.530918;
   0.477677; 0.420737; 0.360187; 0.296187; 0.22896; 0.158793; 0.0860185; 0.0109999; (-0.0658947);
   (-0.144317); (-0.223967); (-0.304603); (-0.386049); (-0.468187); (-0.550934); (-0.634215); (-0.717947);
   (-0.802032); (-0.886364); (-0.970869); (-1.05548); (-1.14014); (-1.22481); (-1.30947); (-1.39406);
   (-1.47859); (-1.563); (-1.6473); (-1.73148); (-1.81553); (-1.8994); (-2.01056); (-2.09142); (-2.17229);
   (-2.25317); (-2.33406); (-2.41496); (-2.49587); (-2.57678); (-2.6577); (-2.73863); (-2.81956); (-2.90049);
   (-2.98143); (-3.06238); (-3.14333); (-3.22428); (-3.30524); (-3.38619); (-3.46716); (-3.54812);
   (-3.62909); (-3.71006); (-3.79103); (-3.872); (-3.95298); (-4.03395); (-4.11493); (-4.19591); (-4.27689);
   (-4.35787); (-4.43885); (-4.51984); (-4.60082); (-4.68181); (-4.76279); (-4.84378); (-4.92477)];
  [(-2.98411); (-2.94301); (-2.90186); (-2.86066); (-2.81941); (-2.7781); (-2.73672); (-2.69527); (-2.65375);
   (-2.61215); (-2.57046); (-2.52868); (-2.4868); (-2.44482); (-2.40272); (-2.3605); (-2.31815); (-2.27567);
   (-2.23303); (-2.19024); (-2.14728); (-2.10414); (-2.0608); (-2.01727); (-1.97352); (-1.92954); (-1.88533);
   (-1.84086); (-1.79612); (-1.7511); (-1.70578); (-1.66015); (-1.6142); (-1.5679); (-1.52126); (-1.47424);
   (-1.42685); (-1.37907); (-1.33088); (-1.28228); (-1.23326); (-1.18381); (-1.13392); (-1.08361);
   (-1.03286); (-0.98168); (-0.930081); (-0.878072); (-0.825671); (-0.772898); (-0.719782); (-0.666354);
   (-0.612654); (-0.558726); (-0.504621); (-0.450397); (-0.396117); (-0.341852); (-0.287678); (-0.233674);
   (-0.179926); (-0.126525); (-0.0735608); (-0.0211295); 0.0306733; 0.0817516; 0.13201; 0.181354; 0.229692;
   0.276937; 0.323004; 0.367815; 0.411296; 0.45338; 0.494007; 0.533122; 0.570681; 0.606644; 0.640983;
   0.673674; 0.704703; 0.734065; 0.761761; 0.787801; 0.812203; 0.834989; 0.856192; 0.875848; 0.893999;
   0.910692; 0.925977; 0.939909; 0.952542; 0.963935; 0.974143; 0.983224; 0.991232; 0.998221; 1.00424;
   1.00933; 1.01354; 1.0169; 1.01945; 1.02119; 1.02215; 1.02234; 1.02175; 1.02037; 1.01819; 1.01517; 1.01127;
   1.00645; 1.00064; 0.993774; 0.985756; 0.976493; 0.965872; 0.95377; 0.94005; 0.924562; 0.907146; 0.88763;
   0.865833; 0.841567; 0.814639; 0.784857; 0.752031; 0.715984; 0.676551; 0.633592; 0.587001; 0.536708;
   0.482694; 0.424999; 0.363724; 0.299037; 0.231171; 0.160418; 0.0871178; 0.0116335; (-0.0656689);
   (-0.144447); (-0.224408); (-0.30532); (-0.387017); (-0.469386); (-0.552347); (-0.635826); (-0.719739);
   (-0.803986); (-0.888469); (-0.973108); (-1.05784); (-1.14261); (-1.22739); (-1.31214); (-1.39682);
   (-1.48142); (-1.5659); (-1.65027); (-1.7345); (-1.81861); (-1.90252); (-2.01425); (-2.09511); (-2.17598);
   (-2.25686); (-2.33775); (-2.41865); (-2.49956); (-2.58047); (-2.66139); (-2.74232); (-2.82325);
   (-2.90419); (-2.98513); (-3.06607); (-3.14702); (-3.22797); (-3.30893); (-3.38989); (-3.47085);
   (-3.55181); (-3.63278); (-3.71375); (-3.79472); (-3.87569); (-3.95667); (-4.03764); (-4.11862); (-4.1996);
   (-4.28058); (-4.36156); (-4.44254); (-4.52353); (-4.60451); (-4.6855); (-4.76648); (-4.84747); (-4.92846)];
  [(-2.99809); (-2.95699); (-2.91584); (-2.87465); (-2.83339); (-2.79208); (-2.7507); (-2.70925); (-2.66772);
   (-2.62612); (-2.58443); (-2.54265); (-2.50077); (-2.45878); (-2.41667); (-2.37445); (-2.3321); (-2.2896);
   (-2.24696); (-2.20415); (-2.16118); (-2.11803); (-2.07468); (-2.03113); (-1.98736); (-1.94336);
   (-1.89912); (-1.85462); (-1.80985); (-1.7648); (-1.71944); (-1.67377); (-1.62776); (-1.58141); (-1.5347);
   (-1.48762); (-1.44014); (-1.39227); (-1.34398); (-1.29527); (-1.24613); (-1.19654); (-1.14651);
   (-1.09602); (-1.04509); (-0.993708); (-0.941886); (-0.889633); (-0.836964); (-0.7839); (-0.730466);
   (-0.676693); (-0.622617); (-0.568283); (-0.513741); (-0.459046); (-0.404263); (-0.34946); (-0.294713);
   (-0.240103); (-0.185715); (-0.13164); (-0.0779719); (-0.024807); 0.0277565; 0.0796199; 0.130684; 0.180853;
   0.23003; 0.278124; 0.325046; 0.370715; 0.415051; 0.457985; 0.499452; 0.539393; 0.577761; 0.614512;
   0.649615; 0.683044; 0.714782; 0.744823; 0.773164; 0.799817; 0.824795; 0.848123; 0.869832; 0.889958;
   0.908543; 0.925634; 0.941283; 0.955544; 0.968474; 0.98013; 0.990571; 0.999854; 1.00804; 1.01517; 1.0213;
   1.02649; 1.03076; 1.03416; 1.03671; 1.03844; 1.03937; 1.03949; 1.03881; 1.03732; 1.03499; 1.0318; 1.02771;
   1.02266; 1.01659; 1.00942; 1.00107; 0.991444; 0.980418; 0.967871; 0.953664; 0.937646; 0.919657; 0.899523;
   0.877063; 0.85209; 0.824413; 0.793841; 0.76019; 0.723284; 0.682967; 0.639105; 0.5916; 0.540393; 0.485477;
   0.426903; 0.364784; 0.299301; 0.230698; 0.159275; 0.0853767; 0.00936784; (-0.0683885); (-0.147559);
   (-0.22786); (-0.309072); (-0.391039); (-0.473657); (-0.556847); (-0.640538); (-0.724642); (-0.809059);
   (-0.893694); (-0.978468); (-1.06332); (-1.1482); (-1.23308); (-1.31792); (-1.40267); (-1.48735);
   (-1.57189); (-1.65633); (-1.7406); (-1.82477); (-1.90871); (-2.02089); (-2.10176); (-2.18263); (-2.26351);
   (-2.3444); (-2.4253); (-2.5062); (-2.58712); (-2.66804); (-2.74896); (-2.82989); (-2.91083); (-2.99177);
   (-3.07272); (-3.15366); (-3.23462); (-3.31557); (-3.39653); (-3.47749); (-3.55846); (-3.63942);
   (-3.72039); (-3.80136); (-3.88234); (-3.96331); (-4.04429); (-4.12527); (-4.20625); (-4.28723);
   (-4.36821); (-4.44919); (-4.53017); (-4.61116); (-4.69214); (-4.77313); (-4.85412); (-4.9351)];
  [(-3.01188); (-2.97078); (-2.92964); (-2.88844); (-2.84718); (-2.80587); (-2.76448); (-2.72303);
   (-2.68151); (-2.6399); (-2.59821); (-2.55642); (-2.51454); (-2.47255); (-2.43044); (-2.38821); (-2.34585);
   (-2.30335); (-2.2607); (-2.21789); (-2.1749); (-2.13174); (-2.08838); (-2.04481); (-2.00103); (-1.95701);
   (-1.91274); (-1.86822); (-1.82342); (-1.77833); (-1.73293); (-1.68722); (-1.64116); (-1.59476);
   (-1.54799); (-1.50083); (-1.45329); (-1.40533); (-1.35694); (-1.30812); (-1.25886); (-1.20914);
   (-1.15896); (-1.10832); (-1.05721); (-1.00563); (-0.95359); (-0.9011); (-0.848171); (-0.794823);
   (-0.741079); (-0.686968); (-0.632526); (-0.577796); (-0.522826); (-0.467671); (-0.412393); (-0.357062);
   (-0.301752); (-0.246544); (-0.191526); (-0.136787); (-0.0824226); (-0.0285318); 0.0247855; 0.0774278;
   0.129294; 0.180282; 0.230295; 0.279236; 0.327013; 0.373539; 0.418733; 0.462519; 0.504829; 0.545601;
   0.584782; 0.622327; 0.6582; 0.692374; 0.724829; 0.755554; 0.784549; 0.811821; 0.837384; 0.861261;
   0.883483; 0.904085; 0.923111; 0.940608; 0.956627; 0.971224; 0.984455; 0.996381; 1.00706; 1.01655; 1.02491;
   1.03219; 1.03845; 1.04372; 1.04806; 1.05151; 1.05408; 1.0558; 1.05669; 1.05675; 1.05599; 1.05439; 1.05193;
   1.04858; 1.0443; 1.03903; 1.03272; 1.02527; 1.01662; 1.00664; 0.995235; 0.982271; 0.96761; 0.9511;
   0.932579; 0.911873; 0.888803; 0.863181; 0.834819; 0.803528; 0.769127; 0.731444; 0.690329; 0.645656;
   0.597333; 0.545311; 0.489593; 0.43024; 0.367375; 0.30119; 0.231938; 0.159925; 0.0854998; 0.0090274;
   (-0.0691328); (-0.148655); (-0.229264); (-0.31075); (-0.392966); (-0.475814); (-0.559218); (-0.643106);
   (-0.727391); (-0.811969); (-0.896748); (-0.981654); (-1.06663); (-1.15162); (-1.23659); (-1.32153);
   (-1.40636); (-1.49111); (-1.57572); (-1.66022); (-1.74455); (-1.82877); (-1.91279); (-2.02545);
   (-2.10631); (-2.18719); (-2.26807); (-2.34896); (-2.42986); (-2.51076); (-2.59168); (-2.6726); (-2.75352);
   (-2.83445); (-2.91539); (-2.99633); (-3.07727); (-3.15822); (-3.23918); (-3.32013); (-3.40109);
   (-3.48205); (-3.56302); (-3.64398); (-3.72495); (-3.80592); (-3.8869); (-3.96787); (-4.04885); (-4.12982);
   (-4.2108); (-4.29178); (-4.37277); (-4.45375); (-4.53473); (-4.61572); (-4.6967); (-4.77769); (-4.85868);
   (-4.93966)];
  [(-3.02549); (-2.98439); (-2.94324); (-2.90204); (-2.86079); (-2.81947); (-2.77809); (-2.73664);
   (-2.69511); (-2.6535); (-2.61181); (-2.57002); (-2.52813); (-2.48614); (-2.44403); (-2.40179); (-2.35943);
   (-2.31692); (-2.27426); (-2.23144); (-2.18845); (-2.14527); (-2.1019); (-2.05832); (-2.01452); (-1.97048);
   (-1.92619); (-1.88164); (-1.83682); (-1.79169); (-1.74626); (-1.70051); (-1.65441); (-1.60795);
   (-1.56112); (-1.5139); (-1.46628); (-1.41824); (-1.36976); (-1.32084); (-1.27146); (-1.22162); (-1.1713);
   (-1.1205); (-1.06921); (-1.01745); (-0.965197); (-0.912476); (-0.859295); (-0.80567); (-0.751624);
   (-0.697184); (-0.642385); (-0.587268); (-0.531879); (-0.476273); (-0.420511); (-0.364661); (-0.308798);
   (-0.253003); (-0.197363); (-0.141969); (-0.0869177); (-0.032309); 0.0217547; 0.0751695; 0.127831;
   0.179635; 0.23048; 0.280265; 0.328895; 0.376279; 0.422331; 0.46697; 0.510125; 0.551731; 0.59173; 0.630074;
   0.666723; 0.701646; 0.734823; 0.76624; 0.795895; 0.823792; 0.849945; 0.874378; 0.897118; 0.918202;
   0.937673; 0.955579; 0.971972; 0.986907; 1.00044; 1.01264; 1.02356; 1.03325; 1.04179; 1.04922; 1.0556;
   1.06096; 1.06537; 1.06885; 1.07143; 1.07314; 1.07399; 1.07399; 1.07314; 1.07142; 1.06881; 1.06529;
   1.06081; 1.05531; 1.04873; 1.04099; 1.032; 1.02166; 1.00985; 0.99645; 0.98131; 0.964281; 0.9452; 0.923894;
   0.900183; 0.873882; 0.844802; 0.812759; 0.777574; 0.739082; 0.697136; 0.65162; 0.602448; 0.549582;
   0.493035; 0.432879; 0.369247; 0.302343; 0.232428; 0.159814; 0.0848546; 0.00791379; (-0.0706541);
   (-0.150528); (-0.231446); (-0.313208); (-0.395675); (-0.478755); (-0.562374); (-0.64646); (-0.730925);
   (-0.815664); (-0.900587); (-0.985623); (-1.07071); (-1.15581); (-1.24088); (-1.3259); (-1.41082);
   (-1.49564); (-1.58031); (-1.66487); (-1.74925); (-1.83354); (-1.91759); (-2.03074); (-2.1116); (-2.19247);
   (-2.27335); (-2.35424); (-2.43514); (-2.51605); (-2.59696); (-2.67788); (-2.75881); (-2.83974);
   (-2.92067); (-3.00162); (-3.08256); (-3.16351); (-3.24446); (-3.32542); (-3.40638); (-3.48734); (-3.5683);
   (-3.64927); (-3.73024); (-3.81121); (-3.89218); (-3.97316); (-4.05413); (-4.13511); (-4.21609);
   (-4.29707); (-4.37805); (-4.45903); (-4.54002); (-4.621); (-4.70199); (-4.78297); (-4.86396); (-4.94495)];
  [(-3.03892); (-2.99782); (-2.95667); (-2.91547); (-2.87421); (-2.83289); (-2.79151); (-2.75006);
   (-2.70853); (-2.66692); (-2.62523); (-2.58344); (-2.54155); (-2.49955); (-2.45743); (-2.41519);
   (-2.37282); (-2.33031); (-2.28765); (-2.24482); (-2.20182); (-2.15863); (-2.11525); (-2.07165);
   (-2.02784); (-1.98378); (-1.93948); (-1.89491); (-1.85005); (-1.8049); (-1.75944); (-1.71364); (-1.6675);
   (-1.62099); (-1.57411); (-1.52683); (-1.47913); (-1.43101); (-1.38245); (-1.33343); (-1.28394);
   (-1.23398); (-1.18352); (-1.13257); (-1.08112); (-1.02916); (-0.976711); (-0.923766); (-0.870339);
   (-0.816445); (-0.762105); (-0.707344); (-0.652196); (-0.5967); (-0.540901); (-0.484854); (-0.428617);
   (-0.372258); (-0.315852); (-0.259479); (-0.203227); (-0.147187); (-0.0914567); (-0.0361381); 0.0186648;
   0.0728456; 0.126297; 0.178912; 0.230585; 0.281213; 0.330695; 0.378935; 0.425845; 0.47134; 0.515344;
   0.557786; 0.598607; 0.637754; 0.675185; 0.710865; 0.74477; 0.776885; 0.807206; 0.835735; 0.862486;
   0.88748; 0.910745; 0.932318; 0.95224; 0.970561; 0.987333; 1.00261; 1.01646; 1.02893; 1.04009; 1.05;
   1.05871; 1.06629; 1.07279; 1.07825; 1.08272; 1.08624; 1.08884; 1.09053; 1.09135; 1.09128; 1.09034; 1.0885;
   1.08576; 1.08206; 1.07738; 1.07165; 1.06481; 1.05678; 1.04747; 1.03677; 1.02457; 1.01074; 0.995133;
   0.9776; 0.957978; 0.936092; 0.911764; 0.884809; 0.855042; 0.82228; 0.786349; 0.747087; 0.704355; 0.658041;
   0.608069; 0.55441; 0.497086; 0.436179; 0.371833; 0.30426; 0.233728; 0.160556; 0.0851013; 0.00772505;
   (-0.0712222); (-0.151427); (-0.232636); (-0.31466); (-0.397367); (-0.480669); (-0.564495); (-0.648772);
   (-0.733409); (-0.818305); (-0.903368); (-0.988532); (-1.07374); (-1.15894); (-1.24411); (-1.32922);
   (-1.41421); (-1.49911); (-1.58385); (-1.66847); (-1.7529); (-1.83723); (-1.92133); (-2.035); (-2.11586);
   (-2.19674); (-2.27762); (-2.35851); (-2.43941); (-2.52031); (-2.60123); (-2.68215); (-2.76307); (-2.844);
   (-2.92494); (-3.00588); (-3.08682); (-3.16777); (-3.24873); (-3.32968); (-3.41064); (-3.4916); (-3.57257);
   (-3.65353); (-3.7345); (-3.81547); (-3.89645); (-3.97742); (-4.0584); (-4.13937); (-4.22035); (-4.30133);
   (-4.38232); (-4.4633); (-4.54428); (-4.62527); (-4.70625); (-4.78724); (-4.86823); (-4.94921)];
  [(-3.05217); (-3.01107); (-2.96992); (-2.92872); (-2.88746); (-2.84614); (-2.80476); (-2.76331);
   (-2.72178); (-2.68017); (-2.63847); (-2.59668); (-2.55479); (-2.51279); (-2.47067); (-2.42843);
   (-2.38605); (-2.34353); (-2.30086); (-2.25803); (-2.21502); (-2.17182); (-2.12843); (-2.08483);
   (-2.04099); (-1.99692); (-1.9526); (-1.90801); (-1.86313); (-1.81795); (-1.77245); (-1.72662); (-1.68044);
   (-1.63389); (-1.58695); (-1.53961); (-1.49185); (-1.44365); (-1.39501); (-1.34589); (-1.2963); (-1.24621);
   (-1.19563); (-1.14453); (-1.09291); (-1.04078); (-0.988135); (-0.934973); (-0.881307); (-0.827152);
   (-0.772525); (-0.717452); (-0.661963); (-0.606097); (-0.549899); (-0.493419); (-0.436717); (-0.379859);
   (-0.322919); (-0.265978); (-0.209123); (-0.152446); (-0.0960468); (-0.0400268); 0.0155074; 0.0704471;
   0.124682; 0.178103; 0.2306; 0.282066; 0.332397; 0.381493; 0.429261; 0.475612; 0.520465; 0.563747;
   0.605392; 0.645346; 0.683562; 0.720003; 0.754641; 0.787459; 0.818451; 0.847617; 0.87497; 0.90053;
   0.924323; 0.946387; 0.966764; 0.985502; 1.00265; 1.01828; 1.03243; 1.04518; 1.05657; 1.06669; 1.07558;
   1.0833; 1.08991; 1.09546; 1.09999; 1.10353; 1.10613; 1.1078; 1.10855; 1.1084; 1.10734; 1.10537; 1.10245;
   1.09855; 1.09363; 1.08764; 1.08049; 1.07213; 1.06244; 1.05133; 1.03867; 1.02434; 1.00819; 0.990079;
   0.96983; 0.947274; 0.922232; 0.894521; 0.863958; 0.830364; 0.793568; 0.753415; 0.709771; 0.662535;
   0.611638; 0.557062; 0.498841; 0.437069; 0.371903; 0.303565; 0.232333; 0.158534; 0.0825225; 0.00466393;
   (-0.0746994); (-0.155263); (-0.236787); (-0.319091); (-0.402054); (-0.485593); (-0.569639); (-0.654116);
   (-0.738933); (-0.823989); (-0.909194); (-0.994482); (-1.0798); (-1.16511); (-1.25037); (-1.33556);
   (-1.42063); (-1.50559); (-1.59039); (-1.67508); (-1.75954); (-1.84391); (-1.92808); (-2.04213);
   (-2.12299); (-2.20386); (-2.28474); (-2.36563); (-2.44653); (-2.52744); (-2.60835); (-2.68927); (-2.7702);
   (-2.85113); (-2.93206); (-3.013); (-3.09395); (-3.1749); (-3.25585); (-3.33681); (-3.41777); (-3.49873);
   (-3.57969); (-3.66066); (-3.74163); (-3.8226); (-3.90357); (-3.98455); (-4.06552); (-4.1465); (-4.22748);
   (-4.30846); (-4.38944); (-4.47042); (-4.55141); (-4.63239); (-4.71338); (-4.79436); (-4.87535); (-4.95634)];
  [(-3.06524); (-3.02414); (-2.983); (-2.9418); (-2.90054); (-2.85922); (-2.81784); (-2.77638); (-2.73485);
   (-2.69324); (-2.65154); (-2.60975); (-2.56786); (-2.52586); (-2.48374); (-2.44149); (-2.39911);
   (-2.35659); (-2.31392); (-2.27108); (-2.22806); (-2.18486); (-2.14145); (-2.09784); (-2.05399);
   (-2.00991); (-1.96557); (-1.92095); (-1.87605); (-1.83085); (-1.78532); (-1.73946); (-1.69324);
   (-1.64664); (-1.59965); (-1.55226); (-1.50443); (-1.45616); (-1.40744); (-1.35823); (-1.30854);
   (-1.25834); (-1.20762); (-1.15638); (-1.10462); (-1.05231); (-0.999471); (-0.946099); (-0.892201);
   (-0.837791); (-0.782885); (-0.727507); (-0.671686); (-0.615459); (-0.558869); (-0.501966); (-0.444808);
   (-0.38746); (-0.329996); (-0.272496); (-0.215047); (-0.157743); (-0.100681); (-0.0439678); 0.0122906;
   0.0679829; 0.122996; 0.177218; 0.230535; 0.282837; 0.334016; 0.383968; 0.432594; 0.479803; 0.525508;
   0.569633; 0.612108; 0.652875; 0.691882; 0.72909; 0.764468; 0.797997; 0.829668; 0.85948; 0.887443;
   0.913576; 0.937907; 0.960471; 0.98131; 1.00047; 1.01801; 1.03399; 1.04846; 1.06148; 1.07313; 1.08346;
   1.09254; 1.10041; 1.10715; 1.11279; 1.11738; 1.12096; 1.12357; 1.12522; 1.12593; 1.12572; 1.12456;
   1.12246; 1.1194; 1.11532; 1.1102; 1.10397; 1.09656; 1.0879; 1.07788; 1.06641; 1.05335; 1.0386; 1.02198;
   1.00337; 0.982581; 0.959453; 0.933806; 0.905456; 0.874224; 0.839934; 0.802418; 0.761527; 0.717132;
   0.669138; 0.617485; 0.562163; 0.503215; 0.440744; 0.374915; 0.305959; 0.234161; 0.159852; 0.0833875;
   0.00513101; (-0.0745802); (-0.155449); (-0.237244); (-0.319795); (-0.402985); (-0.486736); (-0.570978);
   (-0.655638); (-0.740621); (-0.825826); (-0.911166); (-0.996578); (-1.08201); (-1.16742); (-1.25278);
   (-1.33805); (-1.4232); (-1.50824); (-1.5931); (-1.67785); (-1.76237); (-1.84679); (-1.93101); (-2.04559);
   (-2.12645); (-2.20732); (-2.28821); (-2.3691); (-2.45); (-2.5309); (-2.61182); (-2.69274); (-2.77366);
   (-2.85459); (-2.93553); (-3.01647); (-3.09741); (-3.17836); (-3.25931); (-3.34027); (-3.42123);
   (-3.50219); (-3.58315); (-3.66412); (-3.74509); (-3.82606); (-3.90703); (-3.98801); (-4.06899);
   (-4.14996); (-4.23094); (-4.31192); (-4.3929); (-4.47389); (-4.55487); (-4.63586); (-4.71684); (-4.79783);
   (-4.87881); (-4.9598)];
  [(-3.07816); (-3.03706); (-2.99591); (-2.95471); (-2.91345); (-2.87213); (-2.83075); (-2.78929);
   (-2.74777); (-2.70615); (-2.66445); (-2.62266); (-2.58077); (-2.53876); (-2.49664); (-2.45439);
   (-2.41201); (-2.36949); (-2.32681); (-2.28396); (-2.24094); (-2.19773); (-2.15432); (-2.11069);
   (-2.06684); (-2.02274); (-1.97838); (-1.93375); (-1.88883); (-1.8436); (-1.79804); (-1.75215); (-1.70589);
   (-1.65925); (-1.61222); (-1.56477); (-1.51688); (-1.46855); (-1.41974); (-1.37045); (-1.32066);
   (-1.27035); (-1.21952); (-1.16814); (-1.11622); (-1.06375); (-1.01073); (-0.957148); (-0.903026);
   (-0.848368); (-0.793191); (-0.737516); (-0.681371); (-0.624792); (-0.567818); (-0.510501); (-0.452896);
   (-0.395068); (-0.33709); (-0.279041); (-0.221007); (-0.163084); (-0.10537); (-0.0479713); 0.00900339;
   0.0654409; 0.121226; 0.176243; 0.230376; 0.28351; 0.335534; 0.386339; 0.435824; 0.48389; 0.530449;
   0.575419; 0.618727; 0.660309; 0.700112; 0.738091; 0.774215; 0.80846; 0.840814; 0.871277; 0.899855;
   0.926567; 0.951439; 0.974507; 0.995812; 1.0154; 1.03333; 1.04966; 1.06445; 1.07776; 1.08965; 1.1002;
   1.10945; 1.11748; 1.12433; 1.13006; 1.13471; 1.13833; 1.14093; 1.14256; 1.14322; 1.14292; 1.14166;
   1.13942; 1.13618; 1.13191; 1.12656; 1.12007; 1.11237; 1.10338; 1.09301; 1.08114; 1.06766; 1.05243;
   1.03531; 1.01615; 0.99478; 0.97103; 0.944724; 0.915681; 0.883724; 0.848678; 0.810382; 0.76869; 0.723482;
   0.674668; 0.622198; 0.56607; 0.506338; 0.443115; 0.376576; 0.30696; 0.23456; 0.159711; 0.0827697;
   0.00409703; (-0.0759759); (-0.157162); (-0.239236); (-0.32204); (-0.405464); (-0.489432); (-0.573878);
   (-0.658724); (-0.743872); (-0.829228); (-0.914703); (-1.00024); (-1.08578); (-1.17129); (-1.25675);
   (-1.3421); (-1.42732); (-1.51243); (-1.59736); (-1.68216); (-1.76675); (-1.8512); (-1.93547); (-2.05052);
   (-2.13138); (-2.21225); (-2.29313); (-2.37402); (-2.45492); (-2.53583); (-2.61674); (-2.69766);
   (-2.77859); (-2.85952); (-2.94045); (-3.02139); (-3.10234); (-3.18329); (-3.26424); (-3.34519);
   (-3.42615); (-3.50712); (-3.58808); (-3.66905); (-3.75002); (-3.83099); (-3.91196); (-3.99293);
   (-4.07391); (-4.15489); (-4.23587); (-4.31685); (-4.39783); (-4.47881); (-4.5598); (-4.64078); (-4.72177);
   (-4.80275); (-4.88374); (-4.96473)];
  [(-3.0909); (-3.0498); (-3.00866); (-2.96746); (-2.9262); (-2.88488); (-2.8435); (-2.80205); (-2.76052);
   (-2.7189); (-2.6772); (-2.63541); (-2.59351); (-2.55151); (-2.50939); (-2.46714); (-2.42475); (-2.38222);
   (-2.33954); (-2.29669); (-2.25366); (-2.21045); (-2.16703); (-2.12339); (-2.07953); (-2.03542);
   (-1.99105); (-1.9464); (-1.90146); (-1.85621); (-1.81063); (-1.7647); (-1.71841); (-1.67173); (-1.62465);
   (-1.57715); (-1.52921); (-1.48081); (-1.43193); (-1.38256); (-1.33267); (-1.28226); (-1.23131); (-1.1798);
   (-1.12774); (-1.0751); (-1.0219); (-0.968124); (-0.913783); (-0.858885); (-0.803443); (-0.747479);
   (-0.691019); (-0.634095); (-0.576748); (-0.519025); (-0.460983); (-0.402684); (-0.3442); (-0.285611);
   (-0.227002); (-0.168469); (-0.110111); (-0.0520352); 0.00564827; 0.0628242; 0.119375; 0.175182; 0.230127;
   0.28409; 0.336956; 0.388614; 0.438956; 0.487881; 0.535296; 0.581114; 0.625258; 0.66766; 0.708263; 0.74702;
   0.783895; 0.818862; 0.851908; 0.883027; 0.912227; 0.939525; 0.964946; 0.988525; 1.0103; 1.03033; 1.04866;
   1.06534; 1.08045; 1.09405; 1.1062; 1.11696; 1.1264; 1.13458; 1.14156; 1.14738; 1.15209; 1.15574; 1.15836;
   1.15996; 1.16058; 1.1602; 1.15884; 1.15647; 1.15307; 1.14862; 1.14305; 1.13631; 1.12834; 1.11904; 1.10833;
   1.09609; 1.0822; 1.06653; 1.04894; 1.02927; 1.00736; 0.983032; 0.956118; 0.926437; 0.893813; 0.858077;
   0.81907; 0.776651; 0.730706; 0.681152; 0.627947; 0.571096; 0.510662; 0.446768; 0.379595; 0.309392;
   0.236455; 0.161123; 0.0837549; 0.00470713; (-0.0756944); (-0.15717); (-0.239503); (-0.322545);
   (-0.406189); (-0.490362); (-0.574999); (-0.660021); (-0.745331); (-0.830832); (-0.916438); (-1.00209);
   (-1.08775); (-1.17336); (-1.25891); (-1.34435); (-1.42965); (-1.51483); (-1.59982); (-1.68467);
   (-1.76933); (-1.85383); (-1.93815); (-2.05373); (-2.13459); (-2.21546); (-2.29634); (-2.37723);
   (-2.45813); (-2.53904); (-2.61995); (-2.70087); (-2.7818); (-2.86273); (-2.94366); (-3.02461); (-3.10555);
   (-3.1865); (-3.26745); (-3.34841); (-3.42937); (-3.51033); (-3.59129); (-3.67226); (-3.75323); (-3.8342);
   (-3.91517); (-3.99615); (-4.07712); (-4.1581); (-4.23908); (-4.32006); (-4.40104); (-4.48202); (-4.56301);
   (-4.64399); (-4.72498); (-4.80596); (-4.88695); (-4.96794)];
  [(-3.10349); (-3.06239); (-3.02125); (-2.98005); (-2.93879); (-2.89747); (-2.85609); (-2.81464);
   (-2.77311); (-2.7315); (-2.6898); (-2.648); (-2.60611); (-2.5641); (-2.52198); (-2.47973); (-2.43734);
   (-2.39481); (-2.35212); (-2.30927); (-2.26624); (-2.22302); (-2.17959); (-2.13595); (-2.09207);
   (-2.04795); (-2.00357); (-1.9589); (-1.91395); (-1.86867); (-1.82307); (-1.77712); (-1.73079); (-1.68408);
   (-1.63696); (-1.58941); (-1.54142); (-1.49295); (-1.444); (-1.39455); (-1.34458); (-1.29406); (-1.243);
   (-1.19137); (-1.13916); (-1.08637); (-1.033); (-0.979031); (-0.924478); (-0.869346); (-0.813649);
   (-0.757403); (-0.700635); (-0.643376); (-0.585663); (-0.527545); (-0.469074); (-0.410314); (-0.351334);
   (-0.292214); (-0.233041); (-0.173907); (-0.114914); (-0.0561702); 0.00221359; 0.0601201; 0.11743;
   0.174021; 0.22977; 0.284558; 0.338263; 0.390771; 0.441969; 0.491752; 0.540023; 0.586689; 0.631671;
   0.674895; 0.716302; 0.75584; 0.79347; 0.829163; 0.862903; 0.894683; 0.92451; 0.952397; 0.978369; 1.00246;
   1.02471; 1.04517; 1.0639; 1.08095; 1.09638; 1.11026; 1.12265; 1.13363; 1.14325; 1.15158; 1.15867; 1.16457;
   1.16934; 1.17301; 1.17561; 1.17718; 1.17772; 1.17725; 1.17576; 1.17323; 1.16964; 1.16496; 1.15914;
   1.15212; 1.14382; 1.13417; 1.12306; 1.11039; 1.09603; 1.07985; 1.06171; 1.04145; 1.01891; 0.993914;
   0.966294; 0.935871; 0.902472; 0.865931; 0.826095; 0.782829; 0.736024; 0.685608; 0.631544; 0.573852;
   0.512602; 0.447928; 0.380023; 0.309143; 0.235593; 0.159715; 0.081867; 0.00240277; (-0.0783591);
   (-0.160149); (-0.242763); (-0.326057); (-0.409936); (-0.494329); (-0.579167); (-0.664374); (-0.749848);
   (-0.835496); (-0.921233); (-1.00701); (-1.09277); (-1.17848); (-1.26412); (-1.34964); (-1.43501);
   (-1.52025); (-1.6053); (-1.69021); (-1.7749); (-1.85944); (-1.94383); (-2.0598); (-2.14067); (-2.22154);
   (-2.30242); (-2.38331); (-2.46421); (-2.54511); (-2.62603); (-2.70695); (-2.78787); (-2.8688); (-2.94974);
   (-3.03068); (-3.11163); (-3.19257); (-3.27353); (-3.35448); (-3.43544); (-3.5164); (-3.59737); (-3.67833);
   (-3.7593); (-3.84027); (-3.92125); (-4.00222); (-4.0832); (-4.16418); (-4.24516); (-4.32614); (-4.40712);
   (-4.4881); (-4.56908); (-4.65007); (-4.73105); (-4.81204); (-4.89303); (-4.97401)];
  [(-3.11593); (-3.07483); (-3.03368); (-2.99248); (-2.95123); (-2.90991); (-2.86853); (-2.82708);
   (-2.78555); (-2.74394); (-2.70224); (-2.66044); (-2.61855); (-2.57654); (-2.53442); (-2.49216);
   (-2.44978); (-2.40725); (-2.36456); (-2.3217); (-2.27867); (-2.23544); (-2.19201); (-2.14836); (-2.10447);
   (-2.06034); (-2.01595); (-1.97127); (-1.9263); (-1.88101); (-1.83538); (-1.7894); (-1.74305); (-1.6963);
   (-1.64914); (-1.60155); (-1.5535); (-1.50498); (-1.45596); (-1.40644); (-1.35638); (-1.30577); (-1.2546);
   (-1.20285); (-1.15051); (-1.09757); (-1.04402); (-0.989871); (-0.935113); (-0.879756); (-0.823809);
   (-0.76729); (-0.710222); (-0.652635); (-0.594566); (-0.536061); (-0.477171); (-0.417958); (-0.358493);
   (-0.298852); (-0.239122); (-0.179398); (-0.119779); (-0.0603754); (-0.00129949); 0.05733; 0.115391;
   0.17276; 0.22931; 0.284918; 0.339459; 0.392814; 0.444866; 0.495507; 0.544634; 0.592151; 0.637972;
   0.682022; 0.724236; 0.764559; 0.802948; 0.839372; 0.873812; 0.906259; 0.936716; 0.965197; 0.991726;
   1.01634; 1.03907; 1.05997; 1.07909; 1.0965; 1.11226; 1.12642; 1.13907; 1.15026; 1.16006; 1.16853; 1.17573;
   1.18172; 1.18653; 1.19022; 1.19281; 1.19433; 1.1948; 1.19422; 1.19259; 1.1899; 1.18612; 1.1812; 1.17512;
   1.1678; 1.15917; 1.14915; 1.13763; 1.12451; 1.10967; 1.09297; 1.07427; 1.05341; 1.03022; 1.00455;
   0.976214; 0.945038; 0.910855; 0.873502; 0.83283; 0.78871; 0.741042; 0.68976; 0.634838; 0.576304; 0.514241;
   0.448792; 0.380162; 0.308615; 0.23446; 0.158046; 0.0797285; (-0.000142928); (-0.0812572); (-0.163356);
   (-0.246244); (-0.329788); (-0.4139); (-0.498509); (-0.583549); (-0.668935); (-0.754572); (-0.840362);
   (-0.92623); (-1.01212); (-1.09799); (-1.18379); (-1.26952); (-1.35511); (-1.44056); (-1.52587);
   (-1.61097); (-1.69593); (-1.78067); (-1.86525); (-1.94967); (-2.06605); (-2.14691); (-2.22778);
   (-2.30866); (-2.38955); (-2.47045); (-2.55136); (-2.63227); (-2.71319); (-2.79412); (-2.87505);
   (-2.95598); (-3.03693); (-3.11787); (-3.19882); (-3.27977); (-3.36073); (-3.44169); (-3.52265);
   (-3.60361); (-3.68458); (-3.76555); (-3.84652); (-3.92749); (-4.00847); (-4.08944); (-4.17042); (-4.2514);
   (-4.33238); (-4.41336); (-4.49434); (-4.57533); (-4.65631); (-4.7373); (-4.81828); (-4.89927); (-4.98026)];
  [(-3.12821); (-3.08711); (-3.04597); (-3.00477); (-2.96352); (-2.9222); (-2.88082); (-2.83937); (-2.79784);
   (-2.75623); (-2.71453); (-2.67273); (-2.63084); (-2.58883); (-2.54671); (-2.50446); (-2.46207);
   (-2.41954); (-2.37684); (-2.33399); (-2.29095); (-2.24772); (-2.20428); (-2.16063); (-2.11674); (-2.0726);
   (-2.02819); (-1.9835); (-1.93851); (-1.8932); (-1.84756); (-1.80156); (-1.75518); (-1.7084); (-1.6612);
   (-1.61357); (-1.56547); (-1.5169); (-1.46782); (-1.41822); (-1.36808); (-1.31738); (-1.2661); (-1.21424);
   (-1.16177); (-1.10868); (-1.05498); (-1.00065); (-0.945692); (-0.890115); (-0.833926); (-0.777141);
   (-0.719781); (-0.661875); (-0.603459); (-0.544575); (-0.485275); (-0.425619); (-0.365677); (-0.305524);
   (-0.245248); (-0.184941); (-0.124706); (-0.0646511); (-0.00489103); 0.0544541; 0.11326; 0.1714; 0.228746;
   0.28517; 0.340543; 0.394743; 0.44765; 0.499148; 0.549132; 0.597501; 0.644165; 0.689044; 0.73207; 0.773182;
   0.812337; 0.849498; 0.884643; 0.917763; 0.948858; 0.97794; 1.00503; 1.03017; 1.05338; 1.07473; 1.09426;
   1.11204; 1.12812; 1.14258; 1.15548; 1.16689; 1.17687; 1.18549; 1.19281; 1.19888; 1.20375; 1.20746;
   1.21004; 1.21152; 1.21192; 1.21124; 1.20949; 1.20663; 1.20266; 1.19753; 1.1912; 1.18359; 1.17465; 1.16427;
   1.15237; 1.13884; 1.12354; 1.10635; 1.08712; 1.06569; 1.04191; 1.01561; 0.986603; 0.954733; 0.919827;
   0.881727; 0.84029; 0.795391; 0.746937; 0.694869; 0.639171; 0.579879; 0.517084; 0.450939; 0.381659;
   0.309513; 0.234817; 0.157921; 0.0791802; (-0.0010602); (-0.0824967); (-0.16488); (-0.248024); (-0.331803);
   (-0.416134); (-0.500948); (-0.586177); (-0.671737); (-0.75753); (-0.84346); (-0.929455); (-1.01546);
   (-1.10144); (-1.18734); (-1.27315); (-1.35882); (-1.44434); (-1.5297); (-1.61487); (-1.6999); (-1.7847);
   (-1.8693); (-1.95376); (-2.07061); (-2.15147); (-2.23234); (-2.31323); (-2.39412); (-2.47502); (-2.55592);
   (-2.63684); (-2.71775); (-2.79868); (-2.87961); (-2.96055); (-3.04149); (-3.12243); (-3.20338);
   (-3.28433); (-3.36529); (-3.44625); (-3.52721); (-3.60817); (-3.68914); (-3.77011); (-3.85108);
   (-3.93205); (-4.01303); (-4.09401); (-4.17498); (-4.25596); (-4.33694); (-4.41792); (-4.49891);
   (-4.57989); (-4.66088); (-4.74186); (-4.82285); (-4.90383); (-4.98482)];
  [(-3.14035); (-3.09925); (-3.05811); (-3.01691); (-2.97566); (-2.93434); (-2.89296); (-2.85151);
   (-2.80998); (-2.76837); (-2.72667); (-2.68488); (-2.64299); (-2.60098); (-2.55886); (-2.51661);
   (-2.47422); (-2.43168); (-2.38899); (-2.34613); (-2.30309); (-2.25986); (-2.21642); (-2.17276);
   (-2.12886); (-2.08472); (-2.0403); (-1.9956); (-1.9506); (-1.90528); (-1.85961); (-1.81359); (-1.76718);
   (-1.72038); (-1.67315); (-1.62547); (-1.57733); (-1.5287); (-1.47957); (-1.4299); (-1.37968); (-1.32889);
   (-1.27752); (-1.22555); (-1.17295); (-1.11973); (-1.06587); (-1.01137); (-0.956217); (-0.900427);
   (-0.844004); (-0.786961); (-0.729317); (-0.6711); (-0.612344); (-0.55309); (-0.493389); (-0.4333);
   (-0.37289); (-0.312235); (-0.251421); (-0.190542); (-0.129698); (-0.0690008); (-0.0085647); 0.0514885;
   0.111033; 0.169938; 0.228074; 0.285309; 0.341512; 0.396555; 0.450314; 0.50267; 0.553511; 0.602734;
   0.650243; 0.695955; 0.739796; 0.781704; 0.821628; 0.859532; 0.89539; 0.929189; 0.960928; 0.990618;
   1.01828; 1.04394; 1.06765; 1.08945; 1.10939; 1.12754; 1.14396; 1.15872; 1.17188; 1.18351; 1.19369;
   1.20246; 1.2099; 1.21606; 1.22099; 1.22472; 1.2273; 1.22875; 1.22909; 1.22832; 1.22645; 1.22345; 1.2193;
   1.21396; 1.20738; 1.19951; 1.19027; 1.17957; 1.16731; 1.15338; 1.13766; 1.12001; 1.10029; 1.07834;
   1.05401; 1.02712; 0.997513; 0.965008; 0.929445; 0.890668; 0.848539; 0.802939; 0.753779; 0.701008;
   0.644616; 0.584647; 0.521202; 0.454439; 0.384581; 0.311903; 0.236726; 0.1594; 0.0802794; (-0.000295477);
   (-0.0820263); (-0.164672); (-0.248054); (-0.332054); (-0.416591); (-0.5016); (-0.587011); (-0.672736);
   (-0.758681); (-0.844747); (-0.930867); (-1.01699); (-1.10307); (-1.18907); (-1.27497); (-1.36072);
   (-1.44632); (-1.53175); (-1.61699); (-1.70207); (-1.78692); (-1.87157); (-1.95608); (-2.07346);
   (-2.15432); (-2.2352); (-2.31608); (-2.39697); (-2.47787); (-2.55877); (-2.63969); (-2.72061); (-2.80153);
   (-2.88246); (-2.9634); (-3.04434); (-3.12528); (-3.20623); (-3.28719); (-3.36814); (-3.4491); (-3.53006);
   (-3.61103); (-3.69199); (-3.77296); (-3.85393); (-3.93491); (-4.01588); (-4.09686); (-4.17783);
   (-4.25881); (-4.33979); (-4.42078); (-4.50176); (-4.58274); (-4.66373); (-4.74471); (-4.8257); (-4.90669);
   (-4.98767)];
  [(-3.15234); (-3.11125); (-3.0701); (-3.02891); (-2.98765); (-2.94634); (-2.90496); (-2.86351); (-2.82198);
   (-2.78038); (-2.73868); (-2.69689); (-2.65499); (-2.61299); (-2.57086); (-2.52861); (-2.48623);
   (-2.44369); (-2.401); (-2.35814); (-2.3151); (-2.27186); (-2.22842); (-2.18476); (-2.14086); (-2.0967);
   (-2.05228); (-2.00757); (-1.96256); (-1.91722); (-1.87154); (-1.8255); (-1.77907); (-1.73224); (-1.68498);
   (-1.63727); (-1.58908); (-1.54041); (-1.49121); (-1.44148); (-1.39119); (-1.34032); (-1.28886);
   (-1.23677); (-1.18406); (-1.13071); (-1.0767); (-1.02203); (-0.966692); (-0.910697); (-0.854046);
   (-0.796751); (-0.738832); (-0.680312); (-0.621225); (-0.56161); (-0.501517); (-0.441003); (-0.380134);
   (-0.318986); (-0.257644); (-0.1962); (-0.134758); (-0.0734262); (-0.012322); 0.0484317; 0.108707;
   0.168372; 0.227293; 0.285336; 0.342364; 0.398248; 0.452858; 0.506071; 0.557771; 0.607849; 0.656207;
   0.702756; 0.747417; 0.790124; 0.830825; 0.869479; 0.906056; 0.940542; 0.972933; 1.00324; 1.03148; 1.05768;
   1.08189; 1.10415; 1.12451; 1.14304; 1.15981; 1.17487; 1.1883; 1.20017; 1.21054; 1.21948; 1.22705; 1.23331;
   1.2383; 1.24208; 1.24467; 1.2461; 1.24639; 1.24555; 1.24357; 1.24045; 1.23614; 1.23063; 1.22385; 1.21574;
   1.20624; 1.19525; 1.18268; 1.16841; 1.15232; 1.13428; 1.11414; 1.09175; 1.06695; 1.03957; 1.00945;
   0.976415; 0.940305; 0.900968; 0.85827; 0.812095; 0.762359; 0.709016; 0.652063; 0.591548; 0.527577;
   0.460316; 0.389991; 0.316881; 0.24131; 0.163628; 0.0841891; 0.00332923; (-0.0786575); (-0.161536);
   (-0.245133); (-0.329333); (-0.414059); (-0.499247); (-0.584826); (-0.670708); (-0.756798); (-0.842998);
   (-0.929243); (-1.01548); (-1.10167); (-1.18777); (-1.27377); (-1.35961); (-1.44529); (-1.53079);
   (-1.61611); (-1.70125); (-1.78616); (-1.87087); (-1.95543); (-2.07347); (-2.15433); (-2.2352); (-2.31608);
   (-2.39697); (-2.47787); (-2.55878); (-2.63969); (-2.72061); (-2.80154); (-2.88247); (-2.9634); (-3.04434);
   (-3.12529); (-3.20624); (-3.28719); (-3.36814); (-3.4491); (-3.53006); (-3.61103); (-3.692); (-3.77297);
   (-3.85394); (-3.93491); (-4.01588); (-4.09686); (-4.17784); (-4.25882); (-4.3398); (-4.42078); (-4.50176);
   (-4.58275); (-4.66373); (-4.74472); (-4.8257); (-4.90669); (-4.98768)];
  [(-3.16419); (-3.1231); (-3.08196); (-3.04076); (-2.99951); (-2.9582); (-2.91682); (-2.87537); (-2.83385);
   (-2.79224); (-2.75055); (-2.70876); (-2.66686); (-2.62486); (-2.58274); (-2.54049); (-2.4981); (-2.45557);
   (-2.41288); (-2.37002); (-2.32697); (-2.28374); (-2.24029); (-2.19663); (-2.15272); (-2.10856);
   (-2.06413); (-2.01942); (-1.9744); (-1.92905); (-1.88335); (-1.83729); (-1.79084); (-1.74398); (-1.69669);
   (-1.64895); (-1.60073); (-1.55201); (-1.50276); (-1.45297); (-1.40261); (-1.35167); (-1.30011);
   (-1.24793); (-1.1951); (-1.14162); (-1.08746); (-1.03263); (-0.977122); (-0.920928); (-0.864056);
   (-0.806519); (-0.748331); (-0.689517); (-0.630108); (-0.570141); (-0.509665); (-0.448736); (-0.387418);
   (-0.325787); (-0.263926); (-0.201929); (-0.139897); (-0.0779406); (-0.0161774); 0.0452683; 0.106267;
   0.166684; 0.226384; 0.285227; 0.343077; 0.399797; 0.455255; 0.509323; 0.56188; 0.612814; 0.662021;
   0.709407; 0.75489; 0.798401; 0.839881; 0.879287; 0.916587; 0.951763; 0.98481; 1.01573; 1.04455; 1.0713;
   1.09601; 1.11873; 1.13952; 1.15843; 1.17554; 1.19091; 1.2046; 1.2167; 1.22726; 1.23636; 1.24406; 1.25041;
   1.25547; 1.25927; 1.26186; 1.26327; 1.2635; 1.26257; 1.26048; 1.25721; 1.25273; 1.24701; 1.24; 1.23164;
   1.22185; 1.21054; 1.19762; 1.18298; 1.16649; 1.14801; 1.12741; 1.10453; 1.07921; 1.0513; 1.02061;
   0.986984; 0.950268; 0.910311; 0.86698; 0.820166; 0.769791; 0.715813; 0.658234; 0.597112; 0.532558;
   0.464744; 0.393904; 0.320319; 0.244317; 0.166249; 0.0864676; 0.00530423; (-0.0769527); (-0.160075);
   (-0.243895); (-0.328304); (-0.413227); (-0.4986); (-0.584351); (-0.670393); (-0.756629); (-0.842964);
   (-0.929333); (-1.01569); (-1.10198); (-1.18818); (-1.27427); (-1.36019); (-1.44595); (-1.53153);
   (-1.6169); (-1.7021); (-1.78708); (-1.87184); (-1.95645); (-2.07506); (-2.15593); (-2.2368); (-2.31768);
   (-2.39857); (-2.47947); (-2.56038); (-2.64129); (-2.72221); (-2.80313); (-2.88407); (-2.965); (-3.04594);
   (-3.12689); (-3.20784); (-3.28879); (-3.36974); (-3.4507); (-3.53166); (-3.61263); (-3.6936); (-3.77456);
   (-3.85554); (-3.93651); (-4.01748); (-4.09846); (-4.17944); (-4.26042); (-4.3414); (-4.42238); (-4.50336);
   (-4.58434); (-4.66533); (-4.74631); (-4.8273); (-4.90829); (-4.98928)];
  [(-3.17591); (-3.13482); (-3.09368); (-3.05248); (-3.01123); (-2.96992); (-2.92855); (-2.8871); (-2.84558);
   (-2.80397); (-2.76228); (-2.72049); (-2.6786); (-2.6366); (-2.59448); (-2.55223); (-2.50984); (-2.46731);
   (-2.42462); (-2.38176); (-2.33872); (-2.29548); (-2.25204); (-2.20837); (-2.16446); (-2.1203); (-2.07587);
   (-2.03114); (-1.98611); (-1.94075); (-1.89505); (-1.84897); (-1.8025); (-1.75562); (-1.70831); (-1.66053);
   (-1.61228); (-1.56351); (-1.51422); (-1.46437); (-1.41395); (-1.36293); (-1.31129); (-1.25901);
   (-1.20608); (-1.15247); (-1.09818); (-1.0432); (-0.987515); (-0.93113); (-0.874047); (-0.816276);
   (-0.757829); (-0.698731); (-0.639009); (-0.578702); (-0.517854); (-0.456521); (-0.394767); (-0.332665);
   (-0.270298); (-0.207759); (-0.145151); (-0.0825829); (-0.0201737); 0.0419512; 0.10366; 0.164818; 0.225284;
   0.284917; 0.343577; 0.401123; 0.457419; 0.512332; 0.565738; 0.617519; 0.667566; 0.715781; 0.762078;
   0.806383; 0.848634; 0.888783; 0.926795; 0.96265; 0.99634; 1.02787; 1.05725; 1.08452; 1.10972; 1.13288;
   1.15406; 1.17333; 1.19074; 1.20638; 1.2203; 1.23258; 1.24328; 1.25248; 1.26024; 1.26661; 1.27164; 1.27538;
   1.27787; 1.27913; 1.27918; 1.27802; 1.27566; 1.27207; 1.26723; 1.2611; 1.25364; 1.24476; 1.23441; 1.22249;
   1.20889; 1.19352; 1.17623; 1.1569; 1.13539; 1.11153; 1.08517; 1.05615; 1.0243; 0.989466; 0.951486;
   0.910221; 0.865548; 0.817368; 0.765615; 0.710263; 0.651331; 0.588895; 0.523085; 0.454092; 0.382165;
   0.307603; 0.230739; 0.15193; 0.0715195; (-0.0101702); (-0.0928707); (-0.176373); (-0.260529); (-0.345243);
   (-0.430446); (-0.516075); (-0.602054); (-0.688291); (-0.774687); (-0.861159); (-0.947644); (-1.03409);
   (-1.12047); (-1.20673); (-1.29287); (-1.37884); (-1.46464); (-1.55023); (-1.63564); (-1.72083);
   (-1.80585); (-1.89058); (-2.01278); (-2.09364); (-2.1745); (-2.25537); (-2.33625); (-2.41714); (-2.49804);
   (-2.57895); (-2.65986); (-2.74078); (-2.82171); (-2.90264); (-2.98357); (-3.06451); (-3.14546);
   (-3.22641); (-3.30736); (-3.38831); (-3.46927); (-3.55024); (-3.6312); (-3.71217); (-3.79314); (-3.87411);
   (-3.95508); (-4.03605); (-4.11703); (-4.19801); (-4.27899); (-4.35997); (-4.44095); (-4.52193);
   (-4.60292); (-4.6839); (-4.76489); (-4.84587); (-4.92686); (-5.00785)];
  [(-3.18749); (-3.1464); (-3.10526); (-3.06407); (-3.02282); (-2.98151); (-2.94014); (-2.89869); (-2.85717);
   (-2.81557); (-2.77388); (-2.73209); (-2.6902); (-2.6482); (-2.60608); (-2.56384); (-2.52145); (-2.47892);
   (-2.43624); (-2.39338); (-2.35034); (-2.3071); (-2.26365); (-2.21999); (-2.17608); (-2.13191); (-2.08748);
   (-2.04275); (-1.99771); (-1.95234); (-1.90663); (-1.86054); (-1.81405); (-1.76715); (-1.71982);
   (-1.67201); (-1.62372); (-1.57492); (-1.52558); (-1.47568); (-1.4252); (-1.37411); (-1.32239); (-1.27002);
   (-1.21699); (-1.16326); (-1.10884); (-1.05371); (-0.997864); (-0.941294); (-0.884006); (-0.826007);
   (-0.767309); (-0.707933); (-0.647907); (-0.587266); (-0.526054); (-0.464324); (-0.402141); (-0.339575);
   (-0.27671); (-0.213637); (-0.150459); (-0.087285); (-0.0242352); 0.0385641; 0.10098; 0.162874; 0.224105;
   0.284528; 0.343998; 0.402372; 0.459509; 0.515273; 0.569534; 0.622169; 0.673066; 0.722121; 0.769245;
   0.814357; 0.857394; 0.898302; 0.937046; 0.9736; 1.00795; 1.04011; 1.07008; 1.0979; 1.12361; 1.14723;
   1.16885; 1.1885; 1.20626; 1.22221; 1.2364; 1.24891; 1.25981; 1.26916; 1.27704; 1.2835; 1.28859; 1.29236;
   1.29484; 1.29606; 1.29604; 1.29479; 1.2923; 1.28856; 1.28354; 1.2772; 1.26949; 1.26035; 1.2497; 1.23745;
   1.2235; 1.20774; 1.19004; 1.17027; 1.14829; 1.12394; 1.09707; 1.0675; 1.03509; 0.999673; 0.961095;
   0.919219; 0.873927; 0.825124; 0.77275; 0.716782; 0.65725; 0.594231; 0.527865; 0.458348; 0.385935;
   0.310927; 0.233661; 0.154491; 0.0737619; (-0.00821154); (-0.0911664); (-0.1749); (-0.259271); (-0.344186);
   (-0.42958); (-0.515388); (-0.601533); (-0.687924); (-0.774461); (-0.861063); (-0.947668); (-1.03423);
   (-1.1207); (-1.20707); (-1.2933); (-1.37934); (-1.46522); (-1.55088); (-1.63636); (-1.72161); (-1.80666);
   (-1.89146); (-2.01429); (-2.09514); (-2.176); (-2.25687); (-2.33775); (-2.41864); (-2.49954); (-2.58045);
   (-2.66136); (-2.74228); (-2.82321); (-2.90414); (-2.98507); (-3.06601); (-3.14696); (-3.22791);
   (-3.30886); (-3.38982); (-3.47077); (-3.55174); (-3.6327); (-3.71367); (-3.79464); (-3.87561); (-3.95658);
   (-4.03755); (-4.11853); (-4.19951); (-4.28049); (-4.36147); (-4.44245); (-4.52343); (-4.60442); (-4.6854);
   (-4.76639); (-4.84737); (-4.92836); (-5.00935)];
  [(-3.19894); (-3.15785); (-3.11672); (-3.07553); (-3.03428); (-2.99297); (-2.9516); (-2.91016); (-2.86864);
   (-2.82704); (-2.78535); (-2.74357); (-2.70168); (-2.65968); (-2.61757); (-2.57532); (-2.53294);
   (-2.49041); (-2.44773); (-2.40487); (-2.36183); (-2.3186); (-2.27515); (-2.23148); (-2.18757); (-2.14341);
   (-2.09897); (-2.05424); (-2.0092); (-1.96382); (-1.91809); (-1.87199); (-1.8255); (-1.77858); (-1.73122);
   (-1.68339); (-1.63507); (-1.58624); (-1.53686); (-1.48691); (-1.43637); (-1.38522); (-1.33342);
   (-1.28097); (-1.22784); (-1.174); (-1.11946); (-1.06419); (-1.00818); (-0.951432); (-0.893946);
   (-0.835727); (-0.776786); (-0.717142); (-0.65682); (-0.595855); (-0.534288); (-0.472173); (-0.409571);
   (-0.346552); (-0.283199); (-0.219602); (-0.155864); (-0.0920956); (-0.0284155); 0.0350483; 0.0981613;
   0.160784; 0.22277; 0.283975; 0.344249; 0.403445; 0.461419; 0.518029; 0.573141; 0.626628; 0.678372;
   0.728267; 0.776216; 0.822136; 0.865959; 0.907629; 0.947104; 0.984357; 1.01938; 1.05216; 1.08273; 1.11109;
   1.1373; 1.1614; 1.18344; 1.20348; 1.22158; 1.23783; 1.25228; 1.26501; 1.2761; 1.2856; 1.29359; 1.30013;
   1.30526; 1.30903; 1.31149; 1.31265; 1.31254; 1.31116; 1.30851; 1.30458; 1.29934; 1.29275; 1.28475;
   1.27529; 1.26429; 1.25166; 1.23729; 1.22108; 1.2029; 1.18262; 1.16009; 1.13516; 1.10768; 1.07747; 1.0444;
   1.00829; 0.969001; 0.926399; 0.880369; 0.830821; 0.777703; 0.721; 0.660748; 0.597034; 0.530005; 0.459866;
   0.386878; 0.311349; 0.233616; 0.154035; 0.0729454; (-0.00934413); (-0.0925763); (-0.17656); (-0.261162);
   (-0.346293); (-0.431889); (-0.517886); (-0.604205); (-0.690753); (-0.777433); (-0.864162); (-0.950884);
   (-1.03755); (-1.12412); (-1.21058); (-1.29689); (-1.383); (-1.46895); (-1.55467); (-1.6402); (-1.72549);
   (-1.81061); (-1.89545); (-2.01875); (-2.0996); (-2.18046); (-2.26133); (-2.34221); (-2.4231); (-2.504);
   (-2.58491); (-2.66582); (-2.74674); (-2.82767); (-2.9086); (-2.98953); (-3.07048); (-3.15142); (-3.23237);
   (-3.31332); (-3.39428); (-3.47524); (-3.5562); (-3.63716); (-3.71813); (-3.7991); (-3.88007); (-3.96104);
   (-4.04202); (-4.12299); (-4.20397); (-4.28495); (-4.36593); (-4.44691); (-4.52789); (-4.60888);
   (-4.68986); (-4.77085); (-4.85183); (-4.93282); (-5.01381)];
  [(-3.21027); (-3.16918); (-3.12804); (-3.08686); (-3.04561); (-3.00431); (-2.96294); (-2.9215); (-2.87998);
   (-2.83838); (-2.7967); (-2.75491); (-2.71303); (-2.67104); (-2.62892); (-2.58668); (-2.54431); (-2.50178);
   (-2.4591); (-2.41624); (-2.37321); (-2.32997); (-2.28653); (-2.24286); (-2.19895); (-2.15479); (-2.11035);
   (-2.06562); (-2.02057); (-1.97519); (-1.92946); (-1.88335); (-1.83684); (-1.78991); (-1.74253);
   (-1.69468); (-1.64634); (-1.59747); (-1.54805); (-1.49806); (-1.44747); (-1.39625); (-1.34439);
   (-1.29185); (-1.23863); (-1.18469); (-1.13003); (-1.07462); (-1.01846); (-0.961544); (-0.903869);
   (-0.845438); (-0.786261); (-0.726357); (-0.665748); (-0.604468); (-0.542556); (-0.480065); (-0.417053);
   (-0.353591); (-0.289759); (-0.225649); (-0.161362); (-0.097007); (-0.0327056); 0.0314141; 0.0952163;
   0.158559; 0.221295; 0.283276; 0.344349; 0.404363; 0.46317; 0.520624; 0.576587; 0.630926; 0.68352;
   0.734255; 0.783033; 0.829766; 0.87438; 0.916815; 0.957028; 0.994988; 1.03068; 1.0641; 1.09526; 1.12419;
   1.15092; 1.17549; 1.19796; 1.21839; 1.23685; 1.25341; 1.26813; 1.2811; 1.29238; 1.30204; 1.31015; 1.31678;
   1.32196; 1.32576; 1.3282; 1.32932; 1.32914; 1.32766; 1.32488; 1.32078; 1.31535; 1.30854; 1.3003; 1.29057;
   1.27926; 1.2663; 1.25157; 1.23498; 1.21638; 1.19566; 1.17266; 1.14724; 1.11925; 1.08851; 1.05488; 1.0182;
   0.97832; 0.93512; 0.888484; 0.838329; 0.784605; 0.727306; 0.66647; 0.602194; 0.534629; 0.463986; 0.390531;
   0.314575; 0.236457; 0.156533; 0.0751376; (-0.00742409); (-0.0909013); (-0.17511); (-0.25992); (-0.345248);
   (-0.431031); (-0.517204); (-0.603686); (-0.690386); (-0.777203); (-0.864059); (-0.9509); (-1.03768);
   (-1.12435); (-1.2109); (-1.2973); (-1.38349); (-1.46951); (-1.55531); (-1.64091); (-1.72626); (-1.81143);
   (-1.89631); (-2.02022); (-2.10107); (-2.18194); (-2.26281); (-2.34369); (-2.42458); (-2.50548);
   (-2.58639); (-2.6673); (-2.74822); (-2.82914); (-2.91007); (-2.99101); (-3.07195); (-3.1529); (-3.23384);
   (-3.3148); (-3.39575); (-3.47671); (-3.55767); (-3.63864); (-3.7196); (-3.80057); (-3.88154); (-3.96252);
   (-4.04349); (-4.12447); (-4.20545); (-4.28643); (-4.36741); (-4.44839); (-4.52937); (-4.61035);
   (-4.69134); (-4.77232); (-4.85331); (-4.9343); (-5.01528)];
  [(-3.22147); (-3.18038); (-3.13925); (-3.09806); (-3.05682); (-3.01552); (-2.97415); (-2.93271); (-2.8912);
   (-2.8496); (-2.80792); (-2.76614); (-2.72426); (-2.68227); (-2.64016); (-2.59792); (-2.55555); (-2.51303);
   (-2.47035); (-2.4275); (-2.38446); (-2.34123); (-2.29779); (-2.25413); (-2.21022); (-2.16606); (-2.12162);
   (-2.07688); (-2.03184); (-1.98645); (-1.94072); (-1.8946); (-1.84808); (-1.80114); (-1.75375); (-1.70588);
   (-1.65751); (-1.60861); (-1.55916); (-1.50913); (-1.45849); (-1.40722); (-1.35529); (-1.30268);
   (-1.24937); (-1.19533); (-1.14055); (-1.08502); (-1.02872); (-0.971638); (-0.913781); (-0.855147);
   (-0.795744); (-0.735589); (-0.674703); (-0.613118); (-0.550872); (-0.488015); (-0.424605); (-0.360711);
   (-0.296413); (-0.231801); (-0.166975); (-0.102047); (-0.0371358); 0.0276282; 0.0921083; 0.156161;
   0.219636; 0.282383; 0.344245; 0.405069; 0.464702; 0.522993; 0.5798; 0.634986; 0.688424; 0.739997; 0.7896;
   0.837141; 0.882543; 0.925742; 0.96669; 1.00535; 1.04171; 1.07576; 1.10752; 1.137; 1.16424; 1.18928;
   1.21218; 1.23299; 1.25179; 1.26864; 1.28362; 1.2968; 1.30826; 1.31806; 1.32626; 1.33294; 1.33815; 1.34193;
   1.34432; 1.34535; 1.34505; 1.34341; 1.34044; 1.33612; 1.33043; 1.32332; 1.31475; 1.30464; 1.29293;
   1.27953; 1.26433; 1.24721; 1.22807; 1.20675; 1.18313; 1.15705; 1.12835; 1.09688; 1.06249; 1.02502;
   0.984331; 0.940299; 0.892819; 0.841813; 0.78724; 0.729102; 0.667448; 0.602382; 0.53407; 0.462728;
   0.388633; 0.312101; 0.233474; 0.153103; 0.0713238; (-0.0115711); (-0.0953402); (-0.179811); (-0.264862);
   (-0.350415); (-0.436408); (-0.522775); (-0.609434); (-0.696292); (-0.783247); (-0.870225); (-0.957177);
   (-1.04405); (-1.13082); (-1.21745); (-1.30392); (-1.39018); (-1.47626); (-1.5621); (-1.64775); (-1.73314);
   (-1.81835); (-1.90329); (-2.0275); (-2.10835); (-2.18921); (-2.27008); (-2.35097); (-2.43186); (-2.51275);
   (-2.59366); (-2.67457); (-2.75549); (-2.83642); (-2.91735); (-2.99829); (-3.07923); (-3.16017);
   (-3.24112); (-3.32207); (-3.40303); (-3.48399); (-3.56495); (-3.64591); (-3.72688); (-3.80785);
   (-3.88882); (-3.96979); (-4.05077); (-4.13174); (-4.21272); (-4.2937); (-4.37468); (-4.45566); (-4.53665);
   (-4.61763); (-4.69861); (-4.7796); (-4.86059); (-4.94157); (-5.02256)];
  [(-3.23254); (-3.19146); (-3.15033); (-3.10914); (-3.0679); (-3.0266); (-2.98524); (-2.9438); (-2.90229);
   (-2.8607); (-2.81902); (-2.77725); (-2.73537); (-2.69338); (-2.65128); (-2.60904); (-2.56667); (-2.52416);
   (-2.48148); (-2.43863); (-2.3956); (-2.35238); (-2.30894); (-2.26528); (-2.22138); (-2.17722); (-2.13278);
   (-2.08805); (-2.043); (-1.99761); (-1.95187); (-1.90575); (-1.85923); (-1.81227); (-1.76487); (-1.71698);
   (-1.66859); (-1.61967); (-1.57019); (-1.52012); (-1.46944); (-1.41812); (-1.36613); (-1.31345);
   (-1.26006); (-1.20593); (-1.15104); (-1.09539); (-1.03895); (-0.981713); (-0.92368); (-0.864851);
   (-0.80523); (-0.744832); (-0.683678); (-0.621796); (-0.559224); (-0.49601); (-0.432211); (-0.367895);
   (-0.303139); (-0.238034); (-0.172679); (-0.107185); (-0.0416729); 0.0237279; 0.0888791; 0.153635;
   0.217845; 0.281353; 0.344002; 0.405634; 0.466091; 0.52522; 0.582873; 0.638909; 0.693195; 0.745611;
   0.796046; 0.844404; 0.890603; 0.934576; 0.97627; 1.01565; 1.05269; 1.08739; 1.11975; 1.1498; 1.17757;
   1.2031; 1.22644; 1.24766; 1.26683; 1.284; 1.29927; 1.31269; 1.32435; 1.33432; 1.34267; 1.34945; 1.35472;
   1.35854; 1.36093; 1.36194; 1.36158; 1.35987; 1.35679; 1.35234; 1.34648; 1.33919; 1.33041; 1.32007;
   1.30811; 1.29442; 1.27892; 1.26148; 1.242; 1.22032; 1.19632; 1.16984; 1.14073; 1.10883; 1.074; 1.03608;
   0.994932; 0.950436; 0.90249; 0.851018; 0.795985; 0.737393; 0.675298; 0.609808; 0.54109; 0.469367;
   0.394915; 0.318053; 0.239125; 0.15848; 0.0764503; (-0.00667313); (-0.0906533); (-0.175322); (-0.26056);
   (-0.346291); (-0.432455); (-0.518984); (-0.605795); (-0.692797); (-0.779887); (-0.866993); (-0.954064);
   (-1.04105); (-1.12793); (-1.21465); (-1.30122); (-1.38756); (-1.47372); (-1.55964); (-1.64536);
   (-1.73082); (-1.8161); (-1.9011); (-2.02606); (-2.10691); (-2.18777); (-2.26864); (-2.34952); (-2.43041);
   (-2.51131); (-2.59222); (-2.67313); (-2.75405); (-2.83498); (-2.91591); (-2.99684); (-3.07778);
   (-3.15873); (-3.23968); (-3.32063); (-3.40159); (-3.48255); (-3.56351); (-3.64447); (-3.72544);
   (-3.80641); (-3.88738); (-3.96835); (-4.04933); (-4.1303); (-4.21128); (-4.29226); (-4.37324); (-4.45422);
   (-4.5352); (-4.61619); (-4.69717); (-4.77816); (-4.85914); (-4.94013); (-5.02112)];
  [(-3.2435); (-3.20242); (-3.16129); (-3.12011); (-3.07887); (-3.03757); (-2.99621); (-2.95478); (-2.91327);
   (-2.87168); (-2.83001); (-2.78824); (-2.74636); (-2.70438); (-2.66228); (-2.62005); (-2.57769);
   (-2.53517); (-2.4925); (-2.44966); (-2.40663); (-2.36341); (-2.31998); (-2.27633); (-2.23243); (-2.18827);
   (-2.14383); (-2.0991); (-2.05406); (-2.00867); (-1.96293); (-1.91681); (-1.87028); (-1.82332); (-1.7759);
   (-1.728); (-1.6796); (-1.63065); (-1.58114); (-1.53104); (-1.48032); (-1.42895); (-1.37691); (-1.32417);
   (-1.2707); (-1.21648); (-1.1615); (-1.10573); (-1.04916); (-0.991779); (-0.933581); (-0.874565);
   (-0.814736); (-0.754105); (-0.692693); (-0.630526); (-0.567641); (-0.504082); (-0.439907); (-0.375181);
   (-0.309981); (-0.244397); (-0.178527); (-0.112481); (-0.0463817); 0.0196418; 0.0854499; 0.150896;
   0.215826; 0.280082; 0.343505; 0.405931; 0.467201; 0.527156; 0.585644; 0.642519; 0.697644; 0.750893;
   0.80215; 0.851315; 0.898302; 0.943038; 0.985468; 1.02555; 1.06326; 1.0986; 1.13155; 1.16216; 1.19043;
   1.21643; 1.2402; 1.2618; 1.2813; 1.29876; 1.31428; 1.32791; 1.33973; 1.34982; 1.35825; 1.36507; 1.37034;
   1.37412; 1.37644; 1.37734; 1.37683; 1.37492; 1.37162; 1.3669; 1.36075; 1.35311; 1.34395; 1.3332; 1.32077;
   1.30659; 1.29055; 1.27254; 1.25243; 1.23009; 1.20539; 1.17817; 1.14828; 1.11556; 1.07988; 1.04108;
   0.999026; 0.953603; 0.904715; 0.852295; 0.796317; 0.736794; 0.673792; 0.607431; 0.537891; 0.465404;
   0.390258; 0.312776; 0.233304; 0.152189; 0.0697577; (-0.0137115); (-0.0979941); (-0.182932); (-0.26842);
   (-0.354383); (-0.440763); (-0.527489); (-0.614478); (-0.701632); (-0.788857); (-0.87608); (-0.963255);
   (-1.05034); (-1.13729); (-1.22409); (-1.31071); (-1.39712); (-1.48333); (-1.56928); (-1.65505);
   (-1.74053); (-1.82584); (-1.91086); (-2.036); (-2.11685); (-2.19771); (-2.27858); (-2.35946); (-2.44035);
   (-2.52125); (-2.60216); (-2.68307); (-2.76399); (-2.84492); (-2.92585); (-3.00678); (-3.08772);
   (-3.16867); (-3.24962); (-3.33057); (-3.41153); (-3.49248); (-3.57345); (-3.65441); (-3.73538);
   (-3.81635); (-3.89732); (-3.97829); (-4.05927); (-4.14024); (-4.22122); (-4.3022); (-4.38318); (-4.46416);
   (-4.54514); (-4.62613); (-4.70711); (-4.7881); (-4.86908); (-4.95007); (-5.03106)];
  [(-3.25434); (-3.21326); (-3.17214); (-3.13096); (-3.08972); (-3.04843); (-3.00707); (-2.96564);
   (-2.92414); (-2.88255); (-2.84088); (-2.79911); (-2.75724); (-2.71527); (-2.67317); (-2.63095);
   (-2.58859); (-2.54608); (-2.50341); (-2.46058); (-2.41756); (-2.37434); (-2.33092); (-2.28726);
   (-2.24337); (-2.19922); (-2.15479); (-2.11006); (-2.06502); (-2.01963); (-1.97389); (-1.92777);
   (-1.88124); (-1.83427); (-1.78685); (-1.73894); (-1.69052); (-1.64156); (-1.59203); (-1.5419); (-1.49114);
   (-1.43973); (-1.38764); (-1.33484); (-1.2813); (-1.227); (-1.17192); (-1.11605); (-1.05935); (-1.00183);
   (-0.943476); (-0.884281); (-0.824251); (-0.763397); (-0.701735); (-0.639292); (-0.576101); (-0.512207);
   (-0.447664); (-0.382538); (-0.316903); (-0.250848); (-0.184471); (-0.117883); (-0.0512037); 0.0154352;
   0.0818936; 0.148023; 0.213669; 0.27867; 0.342863; 0.406083; 0.468166; 0.528948; 0.588274; 0.645992;
   0.701961; 0.756049; 0.808138; 0.85812; 0.905906; 0.951419; 0.9946; 1.0354; 1.0738; 1.10979; 1.14336;
   1.17454; 1.20335; 1.22984; 1.25406; 1.27607; 1.29594; 1.31373; 1.32953; 1.34341; 1.35544; 1.3657; 1.37426;
   1.38118; 1.38653; 1.39034; 1.39266; 1.39353; 1.39297; 1.39098; 1.38756; 1.38271; 1.37639; 1.36857; 1.3592;
   1.34821; 1.33553; 1.32107; 1.30473; 1.2864; 1.26595; 1.24326; 1.21818; 1.19057; 1.16028; 1.12715; 1.09104;
   1.0518; 1.0093; 0.963428; 0.914088; 0.861218; 0.804795; 0.744835; 0.681408; 0.614638; 0.544709; 0.471855;
   0.396367; 0.318569; 0.238809; 0.157431; 0.0747587; (-0.00893112); (-0.0934187); (-0.17855); (-0.26422);
   (-0.350359); (-0.436906); (-0.523792); (-0.610932); (-0.698228); (-0.785586); (-0.872933); (-0.960227);
   (-1.04742); (-1.13448); (-1.22138); (-1.30809); (-1.39458); (-1.48088); (-1.5669); (-1.65274); (-1.73829);
   (-1.82366); (-1.90874); (-2.03462); (-2.11547); (-2.19633); (-2.2772); (-2.35809); (-2.43898); (-2.51988);
   (-2.60078); (-2.68169); (-2.76261); (-2.84354); (-2.92447); (-3.00541); (-3.08635); (-3.16729);
   (-3.24824); (-3.32919); (-3.41015); (-3.49111); (-3.57207); (-3.65303); (-3.734); (-3.81497); (-3.89594);
   (-3.97691); (-4.05789); (-4.13886); (-4.21984); (-4.30082); (-4.3818); (-4.46278); (-4.54377); (-4.62475);
   (-4.70573); (-4.78672); (-4.86771); (-4.94869); (-5.02968)];
  [(-3.26507); (-3.22399); (-3.18287); (-3.14169); (-3.10046); (-3.05917); (-3.01781); (-2.97639);
   (-2.93489); (-2.89331); (-2.85164); (-2.80988); (-2.76801); (-2.72604); (-2.68395); (-2.64173);
   (-2.59938); (-2.55687); (-2.51421); (-2.47138); (-2.42837); (-2.38516); (-2.34174); (-2.2981); (-2.25421);
   (-2.21006); (-2.16564); (-2.12092); (-2.07588); (-2.0305); (-1.98476); (-1.93864); (-1.89211); (-1.84514);
   (-1.79771); (-1.7498); (-1.70136); (-1.65239); (-1.60284); (-1.55268); (-1.5019); (-1.45045); (-1.39831);
   (-1.34546); (-1.29186); (-1.23749); (-1.18232); (-1.12635); (-1.06954); (-1.01189); (-0.95338);
   (-0.894016); (-0.833796); (-0.772728); (-0.710828); (-0.64812); (-0.584636); (-0.52042); (-0.455523);
   (-0.390009); (-0.323954); (-0.257443); (-0.190574); (-0.123458); (-0.0562146); 0.0110243; 0.0781177;
   0.144916; 0.211262; 0.276993; 0.341942; 0.405942; 0.468823; 0.53042; 0.59057; 0.649119; 0.70592; 0.760836;
   0.813744; 0.864532; 0.913106; 0.959383; 1.0033; 1.04481; 1.08389; 1.12051; 1.15468; 1.18642; 1.21574;
   1.24271; 1.26735; 1.28974; 1.30995; 1.32804; 1.34408; 1.35817; 1.37036; 1.38074; 1.38938; 1.39634;
   1.40168; 1.40545; 1.4077; 1.40845; 1.40773; 1.40555; 1.4019; 1.39678; 1.39016; 1.38199; 1.37224; 1.36083;
   1.3477; 1.33274; 1.31586; 1.29696; 1.2759; 1.25255; 1.22678; 1.19844; 1.16738; 1.13345; 1.09651; 1.05641;
   1.01303; 0.966253; 0.915998; 0.86221; 0.804874; 0.744015; 0.679717; 0.612114; 0.5414; 0.467821; 0.391675;
   0.313292; 0.233021; 0.151202; 0.0681528; (-0.015863); (-0.100638); (-0.186027); (-0.271938); (-0.358302);
   (-0.445058); (-0.532134); (-0.619444); (-0.706886); (-0.794373); (-0.881835); (-0.969226); (-1.05651);
   (-1.14364); (-1.23062); (-1.31738); (-1.40393); (-1.49026); (-1.57634); (-1.66222); (-1.74779);
   (-1.83317); (-1.9183); (-2.04434); (-2.12519); (-2.20605); (-2.28693); (-2.36781); (-2.4487); (-2.5296);
   (-2.6105); (-2.69142); (-2.77234); (-2.85326); (-2.93419); (-3.01513); (-3.09607); (-3.17701); (-3.25796);
   (-3.33892); (-3.41987); (-3.50083); (-3.58179); (-3.66276); (-3.74372); (-3.82469); (-3.90566);
   (-3.98664); (-4.06761); (-4.14859); (-4.22957); (-4.31054); (-4.39152); (-4.47251); (-4.55349);
   (-4.63447); (-4.71546); (-4.79644); (-4.87743); (-4.95842); (-5.0394)];
  [(-3.27568); (-3.23461); (-3.19349); (-3.15231); (-3.11109); (-3.0698); (-3.02845); (-2.98703); (-2.94553);
   (-2.90395); (-2.86229); (-2.82053); (-2.77867); (-2.73671); (-2.69462); (-2.65241); (-2.61006);
   (-2.56756); (-2.52491); (-2.48209); (-2.43908); (-2.39588); (-2.35247); (-2.30883); (-2.26495);
   (-2.22081); (-2.17639); (-2.13168); (-2.08665); (-2.04127); (-1.99554); (-1.94942); (-1.90289);
   (-1.85592); (-1.80849); (-1.76057); (-1.71214); (-1.66315); (-1.61358); (-1.56341); (-1.5126); (-1.46112);
   (-1.40894); (-1.35604); (-1.30238); (-1.24794); (-1.1927); (-1.13663); (-1.07971); (-1.02193);
   (-0.963287); (-0.903762); (-0.843359); (-0.782087); (-0.719958); (-0.656994); (-0.593227); (-0.528697);
   (-0.463456); (-0.397565); (-0.331098); (-0.26414); (-0.196789); (-0.129154); (-0.0613547); 0.00647626;
   0.0741974; 0.141658; 0.208698; 0.275154; 0.340857; 0.405633; 0.469313; 0.531724; 0.592701; 0.652084;
   0.709722; 0.765473; 0.819208; 0.870812; 0.920185; 0.96724; 1.01191; 1.05415; 1.09391; 1.13119; 1.16598;
   1.1983; 1.22817; 1.25563; 1.28073; 1.30354; 1.32411; 1.34253; 1.35887; 1.3732; 1.3856; 1.39616; 1.40493;
   1.41199; 1.4174; 1.4212; 1.42345; 1.42417; 1.4234; 1.42113; 1.41737; 1.41212; 1.40533; 1.39699; 1.38703;
   1.37539; 1.362; 1.34677; 1.3296; 1.31039; 1.289; 1.26531; 1.23918; 1.21046; 1.17901; 1.14468; 1.10733;
   1.06681; 1.023; 0.975796; 0.92511; 0.870893; 0.813131; 0.751856; 0.687152; 0.619159; 0.548074; 0.474146;
   0.397675; 0.318992; 0.238445; 0.156375; 0.0730949; (-0.0111336); (-0.0961074); (-0.181685); (-0.267775);
   (-0.354311); (-0.441232); (-0.528465); (-0.615922); (-0.703505); (-0.791122); (-0.878708); (-0.966215);
   (-1.05361); (-1.14085); (-1.22792); (-1.31477); (-1.4014); (-1.48782); (-1.57397); (-1.65992); (-1.74555);
   (-1.831); (-1.9162); (-2.04297); (-2.12382); (-2.20468); (-2.28555); (-2.36644); (-2.44733); (-2.52823);
   (-2.60913); (-2.69004); (-2.77096); (-2.85189); (-2.93282); (-3.01376); (-3.0947); (-3.17564); (-3.25659);
   (-3.33754); (-3.4185); (-3.49946); (-3.58042); (-3.66138); (-3.74235); (-3.82332); (-3.90429); (-3.98526);
   (-4.06624); (-4.14721); (-4.22819); (-4.30917); (-4.39015); (-4.47113); (-4.55212); (-4.6331); (-4.71408);
   (-4.79507); (-4.87606); (-4.95704); (-5.03803)];
  [(-3.28619); (-3.24512); (-3.204); (-3.16283); (-3.1216); (-3.08032); (-3.03897); (-2.99756); (-2.95606);
   (-2.91449); (-2.87283); (-2.83108); (-2.78923); (-2.74726); (-2.70518); (-2.66298); (-2.62064);
   (-2.57815); (-2.5355); (-2.49269); (-2.44969); (-2.4065); (-2.36309); (-2.31946); (-2.27559); (-2.23146);
   (-2.18705); (-2.14235); (-2.09732); (-2.05196); (-2.00623); (-1.96012); (-1.91359); (-1.86663); (-1.8192);
   (-1.77128); (-1.72283); (-1.67384); (-1.62426); (-1.57407); (-1.52324); (-1.47174); (-1.41952);
   (-1.36658); (-1.31287); (-1.25837); (-1.20305); (-1.1469); (-1.08988); (-1.03199); (-0.973209);
   (-0.913533); (-0.852959); (-0.791492); (-0.729145); (-0.665938); (-0.601899); (-0.537069); (-0.471497);
   (-0.405242); (-0.338378); (-0.270988); (-0.203169); (-0.135029); (-0.0666896); 0.00171842; 0.0700522;
   0.13816; 0.205881; 0.273048; 0.339489; 0.405029; 0.469494; 0.532707; 0.594499; 0.654706; 0.71317;
   0.769746; 0.824299; 0.87671; 0.926872; 0.974697; 1.02011; 1.06306; 1.10351; 1.14144; 1.17684; 1.20972;
   1.24012; 1.26806; 1.2936; 1.31681; 1.33773; 1.35646; 1.37306; 1.38762; 1.4002; 1.4109; 1.41977; 1.42689;
   1.43232; 1.43611; 1.43831; 1.43895; 1.43805; 1.43563; 1.43169; 1.42622; 1.41918; 1.41055; 1.40028; 1.3883;
   1.37453; 1.3589; 1.3413; 1.32161; 1.29972; 1.27551; 1.24882; 1.21952; 1.18746; 1.1525; 1.11449; 1.07329;
   1.02879; 0.980883; 0.929485; 0.874555; 0.816086; 0.754117; 0.688741; 0.620106; 0.548415; 0.473928;
   0.396947; 0.317808; 0.236859; 0.154437; 0.0708489; (-0.0136514); (-0.09887); (-0.184672); (-0.270976);
   (-0.357712); (-0.444821); (-0.532227); (-0.619843); (-0.707564); (-0.795308); (-0.883007); (-0.970621);
   (-1.05811); (-1.14543); (-1.23258); (-1.31951); (-1.4062); (-1.49268); (-1.57889); (-1.66487); (-1.75057);
   (-1.83604); (-1.92127); (-2.04842); (-2.12927); (-2.21013); (-2.29101); (-2.37189); (-2.45278);
   (-2.53368); (-2.61458); (-2.6955); (-2.77642); (-2.85734); (-2.93827); (-3.01921); (-3.10015); (-3.1811);
   (-3.26204); (-3.343); (-3.42395); (-3.50491); (-3.58587); (-3.66684); (-3.7478); (-3.82877); (-3.90974);
   (-3.99072); (-4.07169); (-4.15267); (-4.23365); (-4.31462); (-4.39561); (-4.47659); (-4.55757);
   (-4.63855); (-4.71954); (-4.80052); (-4.88151); (-4.9625); (-5.04348)];
  [(-3.29659); (-3.25552); (-3.2144); (-3.17324); (-3.13202); (-3.09074); (-3.04939); (-3.00798); (-2.96649);
   (-2.92492); (-2.88327); (-2.84152); (-2.79968); (-2.75772); (-2.71565); (-2.67345); (-2.63111);
   (-2.58863); (-2.54599); (-2.50319); (-2.4602); (-2.41701); (-2.37362); (-2.33); (-2.28614); (-2.24202);
   (-2.19762); (-2.15292); (-2.10791); (-2.06255); (-2.01683); (-1.97073); (-1.92421); (-1.87725);
   (-1.82983); (-1.78191); (-1.73347); (-1.68447); (-1.63488); (-1.58468); (-1.53383); (-1.48231);
   (-1.43007); (-1.37708); (-1.32333); (-1.26877); (-1.21339); (-1.15716); (-1.10005); (-1.04205);
   (-0.983147); (-0.923328); (-0.862591); (-0.80094); (-0.738385); (-0.674945); (-0.610646); (-0.545526);
   (-0.479634); (-0.413027); (-0.345777); (-0.277966); (-0.209691); (-0.141059); (-0.0721895); (-0.0032153);
   0.0657208; 0.134466; 0.202857; 0.270727; 0.3379; 0.404197; 0.469441; 0.533453; 0.596057; 0.657085;
   0.716375; 0.773777; 0.82915; 0.882371; 0.933327; 0.981927; 1.02809; 1.07177; 1.11291; 1.15149; 1.18751;
   1.22098; 1.25191; 1.28036; 1.30636; 1.32997; 1.35127; 1.37033; 1.38721; 1.40202; 1.41481; 1.42567;
   1.43467; 1.44189; 1.44738; 1.45119; 1.45339; 1.45399; 1.45303; 1.45051; 1.44645; 1.44082; 1.43361;
   1.42479; 1.41429; 1.40206; 1.38803; 1.37211; 1.35419; 1.33418; 1.31194; 1.28736; 1.26029; 1.23059;
   1.19811; 1.16272; 1.12427; 1.08262; 1.03766; 0.989282; 0.937417; 0.882019; 0.823088; 0.760666; 0.694849;
   0.625791; 0.553699; 0.478836; 0.401507; 0.322049; 0.240811; 0.158127; 0.0743018; (-0.0104165);
   (-0.0958379); (-0.181832); (-0.268318); (-0.35523); (-0.442506); (-0.53007); (-0.617833); (-0.705693);
   (-0.793564); (-0.881384); (-0.969111); (-1.0567); (-1.14413); (-1.23137); (-1.31838); (-1.40515);
   (-1.49171); (-1.57799); (-1.66404); (-1.7498); (-1.83533); (-1.92061); (-2.04842); (-2.12927); (-2.21013);
   (-2.29101); (-2.37189); (-2.45278); (-2.53368); (-2.61458); (-2.6955); (-2.77642); (-2.85734); (-2.93827);
   (-3.01921); (-3.10015); (-3.1811); (-3.26204); (-3.343); (-3.42395); (-3.50491); (-3.58587); (-3.66684);
   (-3.7478); (-3.82877); (-3.90974); (-3.99072); (-4.07169); (-4.15267); (-4.23365); (-4.31462); (-4.39561);
   (-4.47659); (-4.55757); (-4.63855); (-4.71954); (-4.80052); (-4.88151); (-4.9625); (-5.04348)];
  [(-3.30688); (-3.26582); (-3.2247); (-3.18354); (-3.14232); (-3.10105); (-3.05971); (-3.0183); (-2.97682);
   (-2.93525); (-2.89361); (-2.85186); (-2.81002); (-2.76807); (-2.72601); (-2.68382); (-2.64149);
   (-2.59902); (-2.55639); (-2.51359); (-2.47061); (-2.42744); (-2.38405); (-2.34044); (-2.29659);
   (-2.25248); (-2.20809); (-2.16341); (-2.11841); (-2.07306); (-2.02735); (-1.98126); (-1.93475); (-1.8878);
   (-1.84038); (-1.79247); (-1.74403); (-1.69503); (-1.64544); (-1.59524); (-1.54438); (-1.49283);
   (-1.44057); (-1.38756); (-1.33376); (-1.27916); (-1.22372); (-1.16741); (-1.11022); (-1.05213);
   (-0.993108); (-0.933157); (-0.872268); (-0.810444); (-0.747693); (-0.684032); (-0.619485); (-0.554089);
   (-0.487891); (-0.420946); (-0.353325); (-0.285109); (-0.216393); (-0.147283); (-0.0779004); (-0.00837585);
   0.0611467; 0.130513; 0.19956; 0.268117; 0.336006; 0.403047; 0.469057; 0.533853; 0.597257; 0.659095;
   0.7192; 0.777416; 0.8336; 0.88762; 0.939362; 0.988728; 1.03564; 1.08003; 1.12185; 1.16108; 1.19771;
   1.23175; 1.26321; 1.29214; 1.31859; 1.3426; 1.36426; 1.38362; 1.40078; 1.4158; 1.42878; 1.43978; 1.44888;
   1.45616; 1.46167; 1.46548; 1.46762; 1.46814; 1.46706; 1.4644; 1.46015; 1.45431; 1.44686; 1.43776; 1.42695;
   1.41439; 1.39999; 1.38367; 1.36533; 1.34487; 1.32215; 1.29706; 1.26945; 1.23919; 1.20612; 1.17012;
   1.13103; 1.08874; 1.04311; 0.994053; 0.941503; 0.88542; 0.825809; 0.762721; 0.696259; 0.626586; 0.553916;
   0.478519; 0.400706; 0.320815; 0.239195; 0.156178; 0.0720591; (-0.0129193); (-0.0985767); (-0.18479);
   (-0.271482); (-0.35859); (-0.446049); (-0.533782); (-0.621697); (-0.709694); (-0.797688); (-0.885619);
   (-0.973447); (-1.06113); (-1.14864); (-1.23596); (-1.32304); (-1.40988); (-1.49649); (-1.58282);
   (-1.6689); (-1.75471); (-1.84028); (-1.9256); (-2.05379); (-2.13464); (-2.2155); (-2.29637); (-2.37726);
   (-2.45815); (-2.53904); (-2.61995); (-2.70086); (-2.78178); (-2.86271); (-2.94364); (-3.02458);
   (-3.10552); (-3.18646); (-3.26741); (-3.34836); (-3.42932); (-3.51028); (-3.59124); (-3.6722); (-3.75317);
   (-3.83414); (-3.91511); (-3.99608); (-4.07706); (-4.15803); (-4.23901); (-4.31999); (-4.40097);
   (-4.48195); (-4.56294); (-4.64392); (-4.7249); (-4.80589); (-4.88688); (-4.96786); (-5.04885)];
  [(-3.31707); (-3.27601); (-3.2349); (-3.19374); (-3.15253); (-3.11126); (-3.06992); (-3.02852); (-2.98704);
   (-2.94548); (-2.90384); (-2.86211); (-2.82027); (-2.77833); (-2.73627); (-2.69409); (-2.65177); (-2.6093);
   (-2.56668); (-2.5239); (-2.48093); (-2.43776); (-2.39439); (-2.35079); (-2.30696); (-2.26286); (-2.21848);
   (-2.17381); (-2.12882); (-2.08349); (-2.0378); (-1.99171); (-1.94522); (-1.89828); (-1.85087); (-1.80296);
   (-1.75453); (-1.70554); (-1.65595); (-1.60574); (-1.55487); (-1.50332); (-1.45103); (-1.398); (-1.34417);
   (-1.28953); (-1.23404); (-1.17767); (-1.1204); (-1.06222); (-1.00309); (-0.94302); (-0.88199);
   (-0.820003); (-0.757067); (-0.693196); (-0.628413); (-0.562754); (-0.496261); (-0.428991); (-0.361012);
   (-0.292403); (-0.223259); (-0.153685); (-0.0838016); (-0.0137395); 0.0563572; 0.126334; 0.196025;
   0.265258; 0.333854; 0.401629; 0.468397; 0.533971; 0.598169; 0.660812; 0.721729; 0.780758; 0.837751;
   0.892573; 0.945102; 0.995238; 1.04289; 1.088; 1.13051; 1.1704; 1.20765; 1.24227; 1.27427; 1.3037; 1.3306;
   1.35503; 1.37705; 1.39675; 1.41419; 1.42945; 1.44263; 1.4538; 1.46303; 1.47039; 1.47596; 1.47978; 1.48191;
   1.48239; 1.48123; 1.47846; 1.47409; 1.46809; 1.46045; 1.45114; 1.4401; 1.42728; 1.4126; 1.39598; 1.37732;
   1.3565; 1.33342; 1.30794; 1.27993; 1.24925; 1.21575; 1.17929; 1.13973; 1.09695; 1.05084; 1.00129;
   0.948235; 0.891651; 0.831545; 0.76797; 0.701037; 0.630911; 0.557814; 0.482019; 0.40384; 0.323617;
   0.241697; 0.158411; 0.0740496; (-0.0111502); (-0.0970131); (-0.183421); (-0.270298); (-0.357584);
   (-0.445211); (-0.533104); (-0.621163); (-0.709295); (-0.797414); (-0.885461); (-0.973397); (-1.06119);
   (-1.14879); (-1.23619); (-1.32336); (-1.41027); (-1.49695); (-1.58334); (-1.66949); (-1.75535);
   (-1.84097); (-1.92635); (-2.05512); (-2.13597); (-2.21683); (-2.2977); (-2.37858); (-2.45948); (-2.54037);
   (-2.62128); (-2.70219); (-2.78311); (-2.86404); (-2.94497); (-3.02591); (-3.10685); (-3.18779);
   (-3.26874); (-3.34969); (-3.43065); (-3.51161); (-3.59257); (-3.67353); (-3.7545); (-3.83547); (-3.91644);
   (-3.99741); (-4.07839); (-4.15936); (-4.24034); (-4.32132); (-4.4023); (-4.48328); (-4.56427); (-4.64525);
   (-4.72623); (-4.80722); (-4.88821); (-4.96919); (-5.05018)];
  [(-3.32716); (-3.2861); (-3.245); (-3.20384); (-3.16263); (-3.12137); (-3.08003); (-3.03864); (-2.99716);
   (-2.95561); (-2.91398); (-2.87225); (-2.83042); (-2.78849); (-2.74644); (-2.70426); (-2.66195); (-2.6195);
   (-2.57689); (-2.53411); (-2.49115); (-2.448); (-2.40464); (-2.36105); (-2.31723); (-2.27315); (-2.22879);
   (-2.18413); (-2.13915); (-2.09384); (-2.04816); (-2.00209); (-1.95561); (-1.90868); (-1.86129);
   (-1.81339); (-1.76497); (-1.71598); (-1.6664); (-1.61619); (-1.56533); (-1.51376); (-1.46147); (-1.40841);
   (-1.35456); (-1.29989); (-1.24435); (-1.18793); (-1.1306); (-1.07233); (-1.01311); (-0.952926);
   (-0.891766); (-0.829629); (-0.76652); (-0.702452); (-0.637447); (-0.571538); (-0.504766); (-0.437186);
   (-0.368865); (-0.29988); (-0.230325); (-0.160304); (-0.0899363); (-0.0193538); 0.0512995; 0.121868;
   0.192186; 0.26208; 0.331366; 0.399859; 0.467368; 0.533706; 0.598683; 0.662117; 0.723831; 0.783661;
   0.841452; 0.897062; 0.950368; 1.00126; 1.04965; 1.09547; 1.13866; 1.17919; 1.21705; 1.25224; 1.28477;
   1.31469; 1.34203; 1.36685; 1.38923; 1.40923; 1.42693; 1.44242; 1.45577; 1.46708; 1.4764; 1.48383; 1.48941;
   1.49322; 1.49529; 1.49567; 1.49439; 1.49147; 1.4869; 1.48068; 1.47279; 1.46319; 1.45184; 1.43867; 1.42362;
   1.40659; 1.38749; 1.36621; 1.34263; 1.31663; 1.28807; 1.2568; 1.2227; 1.18561; 1.1454; 1.10194; 1.05513;
   1.00488; 0.951115; 0.89382; 0.833008; 0.768743; 0.701143; 0.630384; 0.556693; 0.480353; 0.401681; 0.32102;
   0.238718; 0.155098; 0.0704452; (-0.0150134); (-0.101112); (-0.187739); (-0.274823); (-0.362304);
   (-0.450114); (-0.538172); (-0.626381); (-0.714644); (-0.802879); (-0.891033); (-0.979067); (-1.06694);
   (-1.15462); (-1.24209); (-1.32932); (-1.4163); (-1.50302); (-1.58946); (-1.67565); (-1.76155); (-1.8472);
   (-1.93263); (-2.06168); (-2.14253); (-2.22339); (-2.30426); (-2.38515); (-2.46604); (-2.54694);
   (-2.62784); (-2.70876); (-2.78968); (-2.8706); (-2.95153); (-3.03247); (-3.11341); (-3.19435); (-3.2753);
   (-3.35625); (-3.43721); (-3.51817); (-3.59913); (-3.6801); (-3.76106); (-3.84203); (-3.923); (-4.00397);
   (-4.08495); (-4.16593); (-4.2469); (-4.32788); (-4.40886); (-4.48984); (-4.57083); (-4.65181); (-4.7328);
   (-4.81378); (-4.89477); (-4.97575); (-5.05674)];
  [(-3.33716); (-3.2961); (-3.255); (-3.21385); (-3.17264); (-3.13138); (-3.09005); (-3.04866); (-3.00719);
   (-2.96565); (-2.92402); (-2.8823); (-2.84048); (-2.79855); (-2.75651); (-2.71434); (-2.67204); (-2.6296);
   (-2.587); (-2.54423); (-2.50129); (-2.45815); (-2.4148); (-2.37123); (-2.32742); (-2.28335); (-2.239);
   (-2.19436); (-2.1494); (-2.1041); (-2.05844); (-2.01239); (-1.96593); (-1.91902); (-1.87164); (-1.82376);
   (-1.77535); (-1.72637); (-1.6768); (-1.6266); (-1.57574); (-1.52417); (-1.47187); (-1.41881); (-1.36494);
   (-1.31023); (-1.25466); (-1.1982); (-1.14081); (-1.08247); (-1.02316); (-0.962877); (-0.901597);
   (-0.83932); (-0.77605); (-0.711797); (-0.646583); (-0.580437); (-0.513399); (-0.445523); (-0.376872);
   (-0.307525); (-0.237572); (-0.167118); (-0.0962803); (-0.0251909); 0.0460061; 0.117155; 0.188088;
   0.258629; 0.328595; 0.397796; 0.46604; 0.533132; 0.598883; 0.663103; 0.725613; 0.786241; 0.844828;
   0.901229; 0.955313; 1.00697; 1.0561; 1.10263; 1.14651; 1.1877; 1.22618; 1.26194; 1.29502; 1.32543;
   1.35323; 1.37847; 1.40122; 1.42155; 1.43954; 1.45528; 1.46884; 1.48031; 1.48976; 1.49728; 1.50292;
   1.50675; 1.50882; 1.50917; 1.50782; 1.5048; 1.50011; 1.49374; 1.48568; 1.47588; 1.46431; 1.45091; 1.43559;
   1.41828; 1.39888; 1.37728; 1.35336; 1.32699; 1.29805; 1.26639; 1.23187; 1.19436; 1.15371; 1.1098; 1.06253;
   1.0118; 0.957568; 0.899799; 0.838517; 0.773791; 0.705744; 0.634556; 0.56046; 0.483743; 0.404725; 0.323749;
   0.241163; 0.157287; 0.0724029; (-0.0132685); (-0.0995658); (-0.186382); (-0.273647); (-0.361303);
   (-0.449277); (-0.537489); (-0.625841); (-0.714236); (-0.802594); (-0.890863); (-0.979004); (-1.06698);
   (-1.15475); (-1.24231); (-1.32962); (-1.41667); (-1.50346); (-1.58996); (-1.67622); (-1.76217);
   (-1.84786); (-1.93335); (-2.06298); (-2.14383); (-2.22469); (-2.30556); (-2.38644); (-2.46734);
   (-2.54823); (-2.62914); (-2.71005); (-2.79097); (-2.8719); (-2.95283); (-3.03377); (-3.11471); (-3.19565);
   (-3.2766); (-3.35755); (-3.43851); (-3.51947); (-3.60043); (-3.68139); (-3.76236); (-3.84333); (-3.9243);
   (-4.00527); (-4.08625); (-4.16722); (-4.2482); (-4.32918); (-4.41016); (-4.49114); (-4.57213); (-4.65311);
   (-4.73409); (-4.81508); (-4.89607); (-4.97705); (-5.05804)];
  [(-3.34705); (-3.306); (-3.2649); (-3.22375); (-3.18255); (-3.14129); (-3.09997); (-3.05858); (-3.01712);
   (-2.97559); (-2.93396); (-2.89225); (-2.85044); (-2.80852); (-2.76648); (-2.72433); (-2.68204); (-2.6396);
   (-2.59702); (-2.55426); (-2.51133); (-2.4682); (-2.42487); (-2.38132); (-2.33752); (-2.29347); (-2.24914);
   (-2.20452); (-2.15958); (-2.1143); (-2.06865); (-2.02262); (-1.97618); (-1.92929); (-1.88193); (-1.83407);
   (-1.78567); (-1.73672); (-1.68716); (-1.63697); (-1.58611); (-1.53455); (-1.48225); (-1.42918); (-1.3753);
   (-1.32058); (-1.26498); (-1.20848); (-1.15104); (-1.09264); (-1.03326); (-0.97288); (-0.911491);
   (-0.849087); (-0.785668); (-0.721244); (-0.655834); (-0.589465); (-0.522176); (-0.454018); (-0.385054);
   (-0.315361); (-0.245026); (-0.174155); (-0.102864); (-0.0312844); 0.0404398; 0.112152; 0.183684; 0.254858;
   0.325489; 0.395384; 0.464347; 0.532183; 0.598694; 0.66369; 0.726985; 0.788403; 0.847779; 0.904964;
   0.959821; 1.01223; 1.0621; 1.10935; 1.15391; 1.19575; 1.23485; 1.2712; 1.30481; 1.33573; 1.36399; 1.38964;
   1.41276; 1.43343; 1.45171; 1.46769; 1.48146; 1.4931; 1.50269; 1.5103; 1.51601; 1.51987; 1.52194; 1.52225;
   1.52084; 1.51773; 1.51293; 1.50642; 1.4982; 1.48822; 1.47644; 1.4628; 1.44723; 1.42965; 1.40996; 1.38805;
   1.3638; 1.33709; 1.30779; 1.27575; 1.24083; 1.20291; 1.16183; 1.11749; 1.06977; 1.01859; 0.963891;
   0.905662; 0.843922; 0.778747; 0.710263; 0.638657; 0.564167; 0.487081; 0.407725; 0.326442; 0.243578;
   0.159452; 0.0743412; (-0.0115396); (-0.0980334); (-0.185037); (-0.272481); (-0.360309); (-0.448447);
   (-0.536812); (-0.625305); (-0.713832); (-0.802311); (-0.890693); (-0.97894); (-1.06701); (-1.15487);
   (-1.24252); (-1.32991); (-1.41704); (-1.5039); (-1.59046); (-1.67678); (-1.76278); (-1.84853); (-1.93405);
   (-2.06427); (-2.14512); (-2.22598); (-2.30686); (-2.38774); (-2.46863); (-2.54953); (-2.63043);
   (-2.71135); (-2.79227); (-2.87319); (-2.95412); (-3.03506); (-3.116); (-3.19694); (-3.27789); (-3.35885);
   (-3.4398); (-3.52076); (-3.60172); (-3.68269); (-3.76365); (-3.84462); (-3.92559); (-4.00657); (-4.08754);
   (-4.16852); (-4.24949); (-4.33047); (-4.41145); (-4.49244); (-4.57342); (-4.6544); (-4.73539); (-4.81637);
   (-4.89736); (-4.97835); (-5.05933)];
  [(-3.35685); (-3.3158); (-3.27471); (-3.23357); (-3.19237); (-3.15112); (-3.1098); (-3.06842); (-3.02696);
   (-2.98543); (-2.94382); (-2.90211); (-2.86031); (-2.8184); (-2.77637); (-2.73422); (-2.69195); (-2.64952);
   (-2.60695); (-2.56421); (-2.52129); (-2.47818); (-2.43486); (-2.39132); (-2.34754); (-2.30351); (-2.2592);
   (-2.21459); (-2.16967); (-2.12441); (-2.07879); (-2.03278); (-1.98636); (-1.93949); (-1.89216);
   (-1.84432); (-1.79594); (-1.74701); (-1.69747); (-1.64729); (-1.59645); (-1.5449); (-1.49261); (-1.43954);
   (-1.38565); (-1.33092); (-1.2753); (-1.21877); (-1.16129); (-1.10284); (-1.0434); (-0.98294); (-0.921455);
   (-0.858936); (-0.795382); (-0.730801); (-0.665209); (-0.598633); (-0.531109); (-0.462686); (-0.393426);
   (-0.323403); (-0.252706); (-0.181436); (-0.10971); (-0.0376585); 0.034574; 0.106831; 0.178943; 0.250732;
   0.322009; 0.39258; 0.462247; 0.530809; 0.598067; 0.663823; 0.727889; 0.790084; 0.850237; 0.908194;
   0.963814; 1.01697; 1.06757; 1.11552; 1.16076; 1.20325; 1.24295; 1.27988; 1.31403; 1.34543; 1.37414;
   1.40021; 1.4237; 1.44468; 1.46325; 1.47947; 1.49344; 1.50524; 1.51495; 1.52264; 1.5284; 1.53227; 1.53432;
   1.53458; 1.5331; 1.52988; 1.52493; 1.51826; 1.50984; 1.49965; 1.48763; 1.47372; 1.45787; 1.43997; 1.41994;
   1.39767; 1.37305; 1.34593; 1.3162; 1.28371; 1.24832; 1.2099; 1.16832; 1.12345; 1.07519; 1.02347; 0.968215;
   0.909429; 0.847137; 0.781421; 0.712414; 0.640309; 0.56535; 0.487832; 0.408083; 0.326449; 0.243273;
   0.158871; 0.0735132; (-0.0125921); (-0.0992944); (-0.186495); (-0.274128); (-0.362134); (-0.450441);
   (-0.538962); (-0.627596); (-0.71625); (-0.804846); (-0.893335); (-0.981682); (-1.06984); (-1.15779);
   (-1.24552); (-1.33297); (-1.42016); (-1.50708); (-1.5937); (-1.68007); (-1.76612); (-1.8519); (-1.93744);
   (-2.06812); (-2.14897); (-2.22983); (-2.3107); (-2.39159); (-2.47248); (-2.55338); (-2.63428); (-2.7152);
   (-2.79611); (-2.87704); (-2.95797); (-3.03891); (-3.11985); (-3.20079); (-3.28174); (-3.36269);
   (-3.44365); (-3.52461); (-3.60557); (-3.68653); (-3.7675); (-3.84847); (-3.92944); (-4.01041); (-4.09139);
   (-4.17237); (-4.25334); (-4.33432); (-4.4153); (-4.49628); (-4.57727); (-4.65825); (-4.73924); (-4.82022);
   (-4.90121); (-4.98219); (-5.06318)];
  [(-3.36656); (-3.32552); (-3.28443); (-3.24329); (-3.2021); (-3.16085); (-3.11954); (-3.07816); (-3.03671);
   (-2.99519); (-2.95358); (-2.91188); (-2.87008); (-2.82818); (-2.78617); (-2.74403); (-2.70177);
   (-2.65936); (-2.61679); (-2.57407); (-2.53116); (-2.48807); (-2.44476); (-2.40124); (-2.35748);
   (-2.31347); (-2.26918); (-2.2246); (-2.1797); (-2.13446); (-2.08886); (-2.04288); (-1.99648); (-1.94964);
   (-1.90233); (-1.85451); (-1.80616); (-1.75725); (-1.70773); (-1.65758); (-1.60676); (-1.55522);
   (-1.50294); (-1.44988); (-1.396); (-1.34126); (-1.28563); (-1.22908); (-1.17158); (-1.11309); (-1.05359);
   (-0.993061); (-0.931492); (-0.868871); (-0.805195); (-0.74047); (-0.674711); (-0.607941); (-0.540197);
   (-0.471525); (-0.401984); (-0.331648); (-0.260603); (-0.18895); (-0.116805); (-0.0442979); 0.0284276;
   0.101214; 0.173892; 0.246281; 0.318192; 0.389427; 0.459786; 0.529065; 0.59706; 0.66357; 0.728401;
   0.791368; 0.852296; 0.911023; 0.967406; 1.02132; 1.07265; 1.12131; 1.16723; 1.21037; 1.2507; 1.28821;
   1.32291; 1.35482; 1.384; 1.4105; 1.43437; 1.45571; 1.47458; 1.49107; 1.50527; 1.51726; 1.52713; 1.53495;
   1.54079; 1.54473; 1.54681; 1.54708; 1.54558; 1.54232; 1.53731; 1.53056; 1.52204; 1.51172; 1.49956; 1.4855;
   1.46947; 1.45139; 1.43117; 1.40869; 1.38383; 1.35648; 1.3265; 1.29374; 1.25809; 1.21938; 1.17751; 1.13234;
   1.08377; 1.03172; 0.976147; 0.917036; 0.85442; 0.788383; 0.719061; 0.646651; 0.5714; 0.493605; 0.413597;
   0.33172; 0.248321; 0.16371; 0.0781576; (-0.00813202); (-0.0950109); (-0.182383); (-0.270181); (-0.358347);
   (-0.446809); (-0.535476); (-0.624248); (-0.713034); (-0.801753); (-0.89036); (-0.978818); (-1.06709);
   (-1.15513); (-1.24295); (-1.33049); (-1.41777); (-1.50477); (-1.59145); (-1.67789); (-1.76402);
   (-1.84985); (-1.93545); (-2.06684); (-2.14769); (-2.22856); (-2.30943); (-2.39031); (-2.4712); (-2.5521);
   (-2.63301); (-2.71392); (-2.79484); (-2.87576); (-2.9567); (-3.03763); (-3.11857); (-3.19952); (-3.28047);
   (-3.36142); (-3.44237); (-3.52333); (-3.60429); (-3.68526); (-3.76623); (-3.84719); (-3.92817);
   (-4.00914); (-4.09011); (-4.17109); (-4.25207); (-4.33305); (-4.41403); (-4.49501); (-4.57599);
   (-4.65698); (-4.73796); (-4.81895); (-4.89993); (-4.98092); (-5.06191)];
  [(-3.37618); (-3.33514); (-3.29405); (-3.25292); (-3.21173); (-3.17049); (-3.12918); (-3.08781);
   (-3.04637); (-3.00485); (-2.96325); (-2.92156); (-2.87978); (-2.83788); (-2.79588); (-2.75376); (-2.7115);
   (-2.6691); (-2.62655); (-2.58384); (-2.54095); (-2.49787); (-2.45459); (-2.41108); (-2.36734); (-2.32335);
   (-2.27908); (-2.23452); (-2.18965); (-2.14444); (-2.09886); (-2.05291); (-2.00653); (-1.95972);
   (-1.91244); (-1.86465); (-1.81633); (-1.76745); (-1.71796); (-1.66783); (-1.61703); (-1.56552);
   (-1.51326); (-1.46022); (-1.40635); (-1.35161); (-1.29598); (-1.23942); (-1.18189); (-1.12337);
   (-1.06383); (-1.00325); (-0.941611); (-0.878901); (-0.815117); (-0.750264); (-0.684353); (-0.617407);
   (-0.54946); (-0.480556); (-0.410753); (-0.340122); (-0.268749); (-0.196734); (-0.12419); (-0.051248);
   0.0219496; 0.0952448; 0.168468; 0.241437; 0.313961; 0.385841; 0.456872; 0.526849; 0.595563; 0.662809;
   0.72839; 0.792114; 0.853801; 0.913287; 0.97042; 1.02507; 1.07712; 1.12648; 1.17308; 1.21686; 1.25781;
   1.29589; 1.33113; 1.36355; 1.39319; 1.42011; 1.44436; 1.46604; 1.4852; 1.50195; 1.51637; 1.52855; 1.53856;
   1.5465; 1.55243; 1.55641; 1.55851; 1.55878; 1.55724; 1.55392; 1.54883; 1.54197; 1.53332; 1.52285; 1.51052;
   1.49628; 1.48004; 1.46174; 1.44127; 1.41853; 1.3934; 1.36575; 1.33546; 1.30238; 1.26637; 1.22731; 1.18506;
   1.1395; 1.09053; 1.03807; 0.982081; 0.92255; 0.859515; 0.793065; 0.723341; 0.650544; 0.574928; 0.496792;
   0.416469; 0.334307; 0.250649; 0.165804; 0.0800363; (-0.0064529); (-0.0935207); (-0.181073); (-0.269047);
   (-0.35738); (-0.446001); (-0.534816); (-0.623727); (-0.71264); (-0.801479); (-0.890197); (-0.978759);
   (-1.06712); (-1.15526); (-1.24316); (-1.33078); (-1.41813); (-1.50519); (-1.59195); (-1.67845);
   (-1.76462); (-1.85051); (-1.93615); (-2.06812); (-2.14898); (-2.22984); (-2.31071); (-2.39159);
   (-2.47248); (-2.55338); (-2.63429); (-2.7152); (-2.79612); (-2.87705); (-2.95798); (-3.03891); (-3.11985);
   (-3.2008); (-3.28175); (-3.3627); (-3.44365); (-3.52461); (-3.60558); (-3.68654); (-3.76751); (-3.84848);
   (-3.92945); (-4.01042); (-4.09139); (-4.17237); (-4.25335); (-4.33433); (-4.41531); (-4.49629);
   (-4.57727); (-4.65826); (-4.73924); (-4.82023); (-4.90121); (-4.9822); (-5.06319)];
  [(-3.38571); (-3.34467); (-3.30359); (-3.26246); (-3.22128); (-3.18004); (-3.13874); (-3.09738);
   (-3.05594); (-3.01443); (-2.97284); (-2.93116); (-2.88938); (-2.8475); (-2.80551); (-2.76339); (-2.72115);
   (-2.67877); (-2.63623); (-2.59353); (-2.55066); (-2.5076); (-2.46433); (-2.42085); (-2.37713); (-2.33316);
   (-2.28891); (-2.24438); (-2.19953); (-2.15434); (-2.1088); (-2.06287); (-2.01653); (-1.96975); (-1.92249);
   (-1.87474); (-1.82646); (-1.7776); (-1.72815); (-1.67805); (-1.62728); (-1.5758); (-1.52357); (-1.47054);
   (-1.41669); (-1.36197); (-1.30635); (-1.24978); (-1.19225); (-1.13371); (-1.07414); (-1.01351);
   (-0.951816); (-0.889032); (-0.825155); (-0.760189); (-0.694144); (-0.627039); (-0.558907); (-0.48979);
   (-0.419745); (-0.348841); (-0.277161); (-0.204804); (-0.131884); (-0.058529); 0.015118; 0.0888992;
   0.162644; 0.23617; 0.309285; 0.381787; 0.453469; 0.524122; 0.593534; 0.661497; 0.727807; 0.792269;
   0.854699; 0.914925; 0.972793; 1.02817; 1.08092; 1.13097; 1.17823; 1.22265; 1.26419; 1.30284; 1.33861;
   1.37152; 1.40161; 1.42893; 1.45355; 1.47555; 1.495; 1.512; 1.52662; 1.53896; 1.54911; 1.55714; 1.56312;
   1.56713; 1.56923; 1.56946; 1.56785; 1.56444; 1.55923; 1.55222; 1.5434; 1.53274; 1.52019; 1.5057; 1.4892;
   1.47061; 1.44983; 1.42674; 1.40125; 1.37321; 1.34251; 1.30899; 1.27253; 1.23298; 1.19023; 1.14414;
   1.09463; 1.04162; 0.985062; 0.924965; 0.861366; 0.794363; 0.724104; 0.6508; 0.574708; 0.496135; 0.415419;
   0.332905; 0.248938; 0.16382; 0.0778093; (-0.00890163); (-0.0961764); (-0.183926); (-0.272087);
   (-0.360598); (-0.449384); (-0.538351); (-0.627397); (-0.716433); (-0.805382); (-0.894202); (-0.982857);
   (-1.07131); (-1.15952); (-1.24749); (-1.33518); (-1.42258); (-1.50969); (-1.59651); (-1.68304);
   (-1.76926); (-1.85517); (-1.94086); (-2.07318); (-2.15403); (-2.2349); (-2.31577); (-2.39665); (-2.47754);
   (-2.55844); (-2.63935); (-2.72026); (-2.80118); (-2.8821); (-2.96303); (-3.04397); (-3.12491); (-3.20586);
   (-3.28681); (-3.36776); (-3.44871); (-3.52967); (-3.61063); (-3.6916); (-3.77256); (-3.85353); (-3.9345);
   (-4.01548); (-4.09645); (-4.17743); (-4.25841); (-4.33939); (-4.42037); (-4.50135); (-4.58233);
   (-4.66331); (-4.7443); (-4.82528); (-4.90627); (-4.98726); (-5.06825)];
  [(-3.39515); (-3.35411); (-3.31304); (-3.27191); (-3.23074); (-3.1895); (-3.14821); (-3.10686); (-3.06543);
   (-3.02393); (-2.98234); (-2.94067); (-2.8989); (-2.85703); (-2.81505); (-2.77295); (-2.73072); (-2.68835);
   (-2.64583); (-2.60315); (-2.56029); (-2.51725); (-2.474); (-2.43054); (-2.38684); (-2.34289); (-2.29867);
   (-2.25416); (-2.20934); (-2.16418); (-2.11867); (-2.07277); (-2.02647); (-1.97972); (-1.9325); (-1.88478);
   (-1.83654); (-1.78772); (-1.7383); (-1.68824); (-1.63751); (-1.58606); (-1.53386); (-1.48087); (-1.42704);
   (-1.37234); (-1.31673); (-1.26018); (-1.20265); (-1.1441); (-1.08451); (-1.02386); (-0.962114);
   (-0.899269); (-0.835315); (-0.770251); (-0.704086); (-0.636838); (-0.568538); (-0.499225); (-0.428955);
   (-0.357794); (-0.285825); (-0.213145); (-0.139866); (-0.0661154); 0.00796369; 0.0822141; 0.156465;
   0.230533; 0.304223; 0.377334; 0.449655; 0.520973; 0.591074; 0.659746; 0.72678; 0.791977; 0.855147;
   0.916114; 0.974719; 1.03082; 1.08429; 1.13503; 1.18296; 1.22803; 1.27019; 1.30942; 1.34574; 1.37916;
   1.40973; 1.43749; 1.46252; 1.48488; 1.50465; 1.52194; 1.53682; 1.54938; 1.55971; 1.56789; 1.57401;
   1.57812; 1.58029; 1.58057; 1.579; 1.5756; 1.57038; 1.56335; 1.55449; 1.54378; 1.53117; 1.5166; 1.50001;
   1.48132; 1.46042; 1.43722; 1.41159; 1.38342; 1.35256; 1.31889; 1.28225; 1.24253; 1.19958; 1.15329;
   1.10357; 1.05034; 0.993563; 0.933235; 0.869403; 0.802163; 0.731669; 0.658131; 0.581812; 0.50302; 0.422093;
   0.339379; 0.255222; 0.169922; 0.0837373; (-0.0031418); (-0.0905801); (-0.17849); (-0.266807); (-0.355472);
   (-0.444405); (-0.533514); (-0.622697); (-0.711863); (-0.800937); (-0.889875); (-0.978644); (-1.0672);
   (-1.15552); (-1.24359); (-1.33136); (-1.41885); (-1.50605); (-1.59293); (-1.67954); (-1.76584);
   (-1.85181); (-1.93755); (-2.07067); (-2.15152); (-2.23239); (-2.31326); (-2.39414); (-2.47503);
   (-2.55593); (-2.63683); (-2.71775); (-2.79867); (-2.87959); (-2.96052); (-3.04146); (-3.1224); (-3.20335);
   (-3.28429); (-3.36525); (-3.4462); (-3.52716); (-3.60812); (-3.68909); (-3.77005); (-3.85102); (-3.93199);
   (-4.01297); (-4.09394); (-4.17492); (-4.2559); (-4.33688); (-4.41786); (-4.49884); (-4.57982); (-4.6608);
   (-4.74179); (-4.82277); (-4.90376); (-4.98475); (-5.06573)];
  [(-3.4045); (-3.36347); (-3.3224); (-3.28128); (-3.24011); (-3.19888); (-3.1576); (-3.11625); (-3.07483);
   (-3.03333); (-2.99176); (-2.9501); (-2.90834); (-2.86648); (-2.82451); (-2.78242); (-2.7402); (-2.69785);
   (-2.65534); (-2.61268); (-2.56984); (-2.52681); (-2.48359); (-2.44015); (-2.39647); (-2.35255);
   (-2.30836); (-2.26388); (-2.21908); (-2.17396); (-2.12848); (-2.08261); (-2.03634); (-1.98963);
   (-1.94245); (-1.89478); (-1.84657); (-1.79779); (-1.74842); (-1.6984); (-1.64771); (-1.5963); (-1.54414);
   (-1.49118); (-1.43739); (-1.38273); (-1.32714); (-1.27061); (-1.21309); (-1.15455); (-1.09495);
   (-1.03428); (-0.972509); (-0.90962); (-0.845604); (-0.78046); (-0.714195); (-0.646825); (-0.578377);
   (-0.50889); (-0.438418); (-0.367025); (-0.294792); (-0.221814); (-0.148202); (-0.074084); 0.000399209;
   0.0750901; 0.149818; 0.224397; 0.298634; 0.372323; 0.445253; 0.517207; 0.587968; 0.657319; 0.725048;
   0.79095; 0.854832; 0.916512; 0.975826; 1.03263; 1.08678; 1.13819; 1.18677; 1.23246; 1.2752; 1.315;
   1.35184; 1.38574; 1.41676; 1.44493; 1.47032; 1.493; 1.51307; 1.5306; 1.54569; 1.55842; 1.56889; 1.57718;
   1.58336; 1.58751; 1.58969; 1.58995; 1.58832; 1.58484; 1.57952; 1.57237; 1.56335; 1.55246; 1.53964;
   1.52485; 1.50801; 1.48903; 1.46784; 1.4443; 1.41832; 1.38977; 1.3585; 1.32439; 1.28729; 1.24707; 1.20361;
   1.15678; 1.1065; 1.0527; 0.995334; 0.934416; 0.869996; 0.80218; 0.731129; 0.657064; 0.580253; 0.501012;
   0.419682; 0.336611; 0.252141; 0.166567; 0.0801361; (-0.00696358); (-0.0946098); (-0.182717); (-0.271223);
   (-0.360065); (-0.449163); (-0.53842); (-0.627734); (-0.717018); (-0.806197); (-0.895232); (-0.984089);
   (-1.07272); (-1.16112); (-1.24924); (-1.33708); (-1.42462); (-1.51186); (-1.5988); (-1.68542); (-1.77177);
   (-1.85776); (-1.94355); (-2.07693); (-2.15779); (-2.23865); (-2.31952); (-2.4004); (-2.48129); (-2.56219);
   (-2.6431); (-2.72401); (-2.80493); (-2.88586); (-2.96679); (-3.04772); (-3.12866); (-3.20961); (-3.29056);
   (-3.37151); (-3.45246); (-3.53342); (-3.61439); (-3.69535); (-3.77632); (-3.85729); (-3.93826);
   (-4.01923); (-4.1002); (-4.18118); (-4.26216); (-4.34314); (-4.42412); (-4.5051); (-4.58608); (-4.66707);
   (-4.74805); (-4.82904); (-4.91002); (-4.99101); (-5.072)]].

