(** The coefficient tables of the AMJUEL fits, copied from the source. *)

From Coq Require Import List Reals.
From Verif Require Import ReactionsModel.
Import ListNotations.
Open Scope R_scope.

(** src/amjuel_hyd_ionisation.cxx 6-33. *)
Definition hyd_ionisation_rate_coefs : table := [
  [-32.4802533034; -0.05440669186583; 0.09048888225109; -0.04054078993576; 0.008976513750477; -0.001060334011186; 6.846238436472e-05; -2.242955329604e-06; 2.890437688072e-08];
  [14.2533239151; -0.0359434716076; -0.02014729121556; 0.0103977361573; -0.001771792153042; 0.0001237467264294; -3.130184159149e-06; -3.051994601527e-08; 1.888148175469e-09];
  [-6.632235026785; 0.09255558353174; -0.005580210154625; -0.005902218748238; 0.001295609806553; -0.0001056721622588; 4.646310029498e-06; -1.479612391848e-07; 2.85225125832e-09];
  [2.059544135448; -0.07562462086943; 0.01519595967433; 0.0005803498098354; -0.0003527285012725; 3.201533740322e-05; -1.835196889733e-06; 9.474014343303e-08; -2.342505583774e-09];
  [-0.442537033141; 0.02882634019199; -0.00728577148505; 0.0004643389885987; 1.145700685235e-06; 8.493662724988e-07; -1.001032516512e-08; -1.476839184318e-08; 6.047700368169e-10];
  [0.06309381861496; -0.00578868653578; 0.00150738295525; -0.0001201550548662; 6.574487543511e-06; -9.678782818849e-07; 5.176265845225e-08; 1.29155167686e-09; -9.685157340473e-11];
  [-0.005620091829261; 0.000632910556804; -0.0001527777697951; 8.270124691336e-06; 3.224101773605e-08; 4.377402649057e-08; -2.622921686955e-09; -2.259663431436e-10; 1.161438990709e-11];
  [0.0002812016578355; -3.564132950345e-05; 7.222726811078e-06; 1.433018694347e-07; -1.097431215601e-07; 7.789031791949e-09; -4.197728680251e-10; 3.032260338723e-11; -8.911076930014e-13];
  [-6.011143453374e-06; 8.089651265488e-07; -1.186212683668e-07; -2.381080756307e-08; 6.271173694534e-09; -5.48301024493e-10; 3.064611702159e-11; -1.355903284487e-12; 2.935080031599e-14]].

(** src/amjuel_hyd_ionisation.cxx 38-65. *)
Definition hyd_ionisation_radiation_coefs : table := [
  [-24.97580168306; 0.001081653961822; -0.0007358936044605; 0.0004122398646951; -0.0001408153300988; 2.46973083622e-05; -2.212823709798e-06; 9.648139704737e-08; -1.611904413846e-09];
  [10.04448839974; -0.003189474633369; 0.002510128351932; -0.0007707040988954; 0.0001031309578578; -3.716939423005e-06; -4.249704742353e-07; 4.164960852522e-08; -9.893423877739e-10];
  [-4.867952931298; -0.00585226785069; 0.002867458651322; -0.0008328668093987; 0.0002056134355492; -3.301570807523e-05; 2.831739755462e-06; -1.164969298033e-07; 1.78544027879e-09];
  [1.689422238067; 0.007744372210287; -0.003087364236497; 0.000470767628842; -5.508611815406e-05; 7.305867762241e-06; -6.000115718138e-07; 2.045211951761e-08; -1.79031287169e-10];
  [-0.41035323201; -0.003622291213236; 0.001327415215304; -0.0001424078519508; 3.307339563081e-06; 5.256679519499e-09; 7.597020291557e-10; 1.799505288362e-09; -9.280890205774e-11];
  [0.06469718387357; 0.0008268567898126; -0.0002830939623802; 2.41184802496e-05; 5.7079848611e-07; -1.0169456933e-07; 3.517154874443e-09; -4.453195673947e-10; 2.002478264932e-11];
  [-0.006215861314764; -9.836595524255e-05; 3.017296919092e-05; -1.474253805845e-06; -2.397868837417e-07; 1.518743025531e-08; 4.149084521319e-10; -6.803200444549e-12; -1.151855939531e-12];
  [0.000328980989546; 5.845697922558e-06; -1.479323780613e-06; -4.633029022577e-08; 3.337390374041e-08; -1.770252084837e-09; -5.289806153651e-11; 3.86439477625e-12; -8.694978774411e-15];
  [-7.335808238917e-06; -1.367574486885e-07; 2.423236476442e-08; 5.733871119707e-09; -1.512777532459e-09; 8.733801272834e-11; 7.196798841269e-13; -1.441033650378e-13; 1.734769090475e-15]].

(** src/amjuel_hyd_recombination.cxx 6-33. *)
Definition hyd_recombination_rate_coefs : table := [
  [-28.58858570847; 0.02068671746773; -0.007868331504755; 0.003843362133859; -0.0007411492158905; 9.273687892997e-05; -7.063529824805e-06; 3.026539277057e-07; -5.373940838104e-09];
  [-0.7676413320499; 0.0127800603259; -0.01870326896978; 0.00382855504889; -0.0003627770385335; 4.401007253801e-07; 1.932701779173e-06; -1.176872895577e-07; 2.215851843121e-09];
  [0.002823851790251; -0.001907812518731; 0.01121251125171; -0.003711328186517; 0.0006617485083301; -6.860774445002e-05; 4.508046989099e-06; -1.723423509284e-07; 2.805361431741e-09];
  [-0.01062884273731; -0.01010719783828; 0.004208412930611; -0.00100574441054; 0.0001013652422369; -2.044691594727e-06; -4.431181498017e-07; 3.457903389784e-08; -7.374639775683e-10];
  [0.001582701550903; 0.002794099401979; -0.002024796037098; 0.0006250304936976; -9.224891301052e-05; 7.546853961575e-06; -3.682709551169e-07; 1.035928615391e-08; -1.325312585168e-10];
  [-0.0001938012790522; 0.0002148453735781; 3.393285358049e-05; -3.746423753955e-05; 7.509176112468e-06; -8.688365258514e-07; 7.144767938783e-08; -3.367897014044e-09; 6.250111099227e-11];
  [6.041794354114e-06; -0.0001421502819671; 6.14387907608e-05; -1.232549226121e-05; 1.394562183496e-06; -6.434833988001e-08; -2.746804724917e-09; 3.564291012995e-10; -8.55170819761e-12];
  [1.742316850715e-06; 1.595051038326e-05; -7.858419208668e-06; 1.774935420144e-06; -2.187584251561e-07; 1.327090702659e-08; -1.386720240985e-10; -1.946206688519e-11; 5.745422385081e-13];
  [-1.384927774988e-07; -5.664673433879e-07; 2.886857762387e-07; -6.591743182569e-08; 8.008790343319e-09; -4.805837071646e-10; 6.459706573699e-12; 5.510729582791e-13; -1.680871303639e-14]].

(** src/amjuel_hyd_recombination.cxx 38-65. *)
Definition hyd_recombination_radiation_coefs : table := [
  [-25.92450349909; 0.01222097271874; 4.278499401907e-05; 0.001943967743593; -0.0007123474602102; 0.0001303523395892; -1.186560752561e-05; 5.334455630031e-07; -9.349857887253e-09];
  [-0.7290670236493; -0.01540323930666; -0.00340609377919; 0.001532243431817; -0.0004658423772784; 5.972448753445e-05; -4.070843294052e-06; 1.378709880644e-07; -1.818079729166e-09];
  [0.02363925869096; 0.01164453346305; -0.005845209334594; 0.002854145868307; -0.0005077485291132; 4.211106637742e-05; -1.251436618314e-06; -1.626555745259e-08; 1.073458810743e-09];
  [0.003645333930947; -0.001005820792983; 0.0006956352274249; -0.0009305056373739; 0.0002584896294384; -3.294643898894e-05; 2.112924018518e-06; -6.544682842175e-08; 7.8102930757e-10];
  [0.001594184648757; -1.582238007548e-05; 0.0004073695619272; -9.379169243859e-05; 1.490890502214e-06; 2.245292872209e-06; -3.150901014513e-07; 1.631965635818e-08; -2.984093025695e-10];
  [-0.001216668033378; -0.0003503070140126; 0.0001043500296633; 9.536162767321e-06; -6.908681884097e-06; 8.232019008169e-07; -2.905331051259e-08; -3.169038517749e-10; 2.442765766167e-11];
  [0.0002376115895241; 0.0001172709777146; -6.695182045674e-05; 1.18818400621e-05; -4.381514364966e-07; -6.936267173079e-08; 6.592249255001e-09; -1.778887958831e-10; 1.160762106747e-12];
  [-1.930977636766e-05; -1.318401491304e-05; 8.848025453481e-06; -2.07237071139e-06; 2.055919993599e-07; -7.489632654212e-09; -7.073797030749e-11; 1.047087505147e-11; -1.87744627135e-13];
  [5.599257775146e-07; 4.977823319311e-07; -3.615013823092e-07; 9.466989306497e-08; -1.146485227699e-08; 6.772338917155e-10; -1.776496344763e-11; 7.199195061382e-14; 3.929300283002e-15]].

(** src/amjuel_helium.cxx 8-35. *)
Definition he01_rate_coefs : table := [
  [-42.27118452798; 0.1294554451998; -0.08433979538052; 0.04910721979375; -0.01454047282438; 0.002178105605879; -0.0001657512355348; 6.161429564793e-06; -8.910615590909e-08];
  [24.11668100975; -0.08121999208281; 0.04052570160482; -0.02367924962508; 0.008488392041366; -0.001452752408581; 0.0001170902182939; -4.410479245308e-06; 6.297315949647e-08];
  [-12.03181133667; -0.003998282970932; -0.00281991919306; -0.00190488772724; -0.0002390948585334; 0.0001844484422285; -1.97272802786e-05; 7.779440219801e-07; -1.033814145233e-08];
  [3.829444688521; 0.02546414073266; 0.002654490306111; 0.001087493205419; -0.0004469192206896; 3.71553815559e-05; -1.595144154431e-06; 6.311039124056e-08; -1.48598916668e-09];
  [-0.7945839257175; -0.0149359787485; -0.001018320076497; 0.0002821927325759; 3.269264854581e-05; -5.937518354028e-06; 4.714656637197e-07; -2.433462923993e-08; 5.307423532159e-10];
  [0.1054334178555; 0.004338821244147; -0.0001483560478208; -6.901574689672e-05; 6.350490312899e-06; -4.414167358057e-07; 1.266603603049e-08; 8.049435558339e-10; -3.807796193572e-11];
  [-0.008578643565653; -0.0006689202603525; 9.084162487421e-05; -4.184111347149e-06; 1.153919327151e-07; 3.797435455934e-08; -4.123383037275e-09; 1.095960078746e-10; -5.109801608123e-14];
  [0.0003886232727181; 5.180805123476e-05; -1.125453787291e-05; 1.536214841434e-06; -1.632601398517e-07; 8.948177075796e-09; -1.853674996294e-10; 1.342166707999e-14; 1.184569645146e-14];
  [-7.487575233223e-06; -1.58297743374e-06; 4.413792107083e-07; -7.832095176637e-08; 9.58697477495e-09; -6.73907617081e-10; 2.565598443992e-11; -4.994625098807e-13; 4.12404880445e-15]].

(** src/amjuel_helium.cxx 40-67. *)
Definition he01_radiation_coefs : table := [
  [-35.35258393674; -0.03428249311738; 0.06378071832382; -0.02849818870377; 0.006041903480645; -0.000686453216556; 4.251155616815e-05; -1.351759350582e-06; 1.728801977101e-08];
  [19.81855871044; 0.04854482688892; -0.05088928946831; 0.01732110218818; -0.002781419068092; 0.0002244804771683; -8.875290574348e-06; 1.399429819761e-07; -1.38977874051e-10];
  [-9.334355651224; -0.04524206463148; 0.02103002869692; -0.004463941003028; 0.0002900917070658; 2.482449118881e-05; -4.278064413224e-06; 2.040570181783e-07; -3.324224092217e-09];
  [2.80031425041; 0.0247435078798; -0.006012991773715; 0.0008918009845745; -2.616249899141e-05; -6.885545577757e-06; 7.013616309712e-07; -2.570063437935e-08; 3.573487194914e-10];
  [-0.5489088598705; -0.007339538872774; 0.0007783071302508; -4.483274558979e-05; 1.900991581685e-06; -9.747171692727e-07; 1.349829568374e-07; -5.815812094637e-09; 6.686532777575e-11];
  [0.06902095610357; 0.001234159378604; 2.989745411104e-05; -3.04090620334e-05; 2.951386149372e-06; 7.592185107575e-08; -1.805060230413e-08; 3.156859219121e-10; 1.07116869734e-11];
  [-0.00534294006913; -0.0001223169549107; -1.500790305823e-05; 5.253922160283e-06; -4.468905893926e-07; 7.483496971361e-09; -9.777558713428e-10; 1.770619394125e-10; -6.050995244427e-12];
  [0.0002313175089975; 6.966436907981e-06; 8.94496290981e-07; -1.712024596447e-07; -9.782015167261e-09; 2.499416349949e-09; 4.731973382221e-11; -1.845161957843e-11; 6.01107014323e-13];
  [-4.279800193256e-06; -1.81546666991e-07; -2.282174576618e-09; -6.972920569943e-09; 2.60719149454e-09; -2.870919514967e-10; 8.059675146168e-12; 3.704316808942e-13; -1.713225271579e-14]].

(** src/amjuel_helium.cxx 87-114. *)
Definition he10_rate_coefs : table := [
  [-28.72754373123; -0.006171082987797; 0.02414548639597; -0.007188662067622; 0.0009481268604767; -1.958887458637e-05; -5.507786383328e-06; 4.35828868693e-07; -9.50327209101e-09];
  [1.564233603544; -0.03972220721457; -0.04466712599181; 0.01247359158796; -0.001660591942878; 6.019181402025e-05; 3.800156798817e-06; -3.377807793756e-07; 6.828447501225e-09];
  [-6.182140631482; 0.1626641668186; 0.03366589582541; -0.007413737965595; 0.001220189896183; -9.50529572475e-05; 4.459492214068e-06; -1.552772441333e-07; 2.866586118879e-09];
  [5.459428677778; -0.1700323494998; -0.01540106384088; 0.0009524545793262; -8.734341535385e-05; -2.796027477899e-06; 4.561981097438e-07; 4.940311502014e-09; -6.52572501076e-10];
  [-2.128115924661; 0.07233939709414; 0.005819196258503; -7.655935845761e-05; -1.83794906705e-05; 4.72578983298e-06; -3.99778241186e-07; 1.036731541123e-08; -3.373845712183e-11];
  [0.4373730373037; -0.01574917019835; -0.001456253436544; 4.772491845078e-05; -1.827059132463e-06; -6.94116329271e-08; 2.716740135949e-08; -1.143121626264e-09; 1.295139027087e-11];
  [-0.04972257208732; 0.001866175274689; 0.0002047337498511; -1.004438052808e-05; 7.59073486585e-07; -6.771179147667e-08; 1.218720257518e-09; 6.78702447954e-11; -2.432253541918e-12];
  [0.002967287371427; -0.0001147811325052; -1.460813593905e-05; 7.422385993164e-07; -3.281946488134e-08; 2.164459880579e-09; 1.113868237282e-10; -1.513922678655e-11; 3.951084520871e-13];
  [-7.271204747116e-05; 2.874049670122e-06; 4.124421172202e-07; -1.689203971933e-08; -9.071172814458e-10; 1.844295219334e-10; -2.055023511556e-11; 1.101902611511e-12; -2.206082129473e-14]].

(** src/amjuel_helium.cxx 119-146. *)
Definition he10_radiation_coefs : table := [
  [-25.38377692766; -0.04826880987619; 0.0679657596731; -0.0240171002139; 0.004130156138736; -0.0003494803122018; 1.34502510054e-05; -1.323917127568e-07; -2.551716207606e-09];
  [2.472758419513; 0.1668058989207; -0.1265192781981; 0.02938171777028; -0.00221652505507; -0.0001261523686946; 2.701401918133e-05; -1.370446267883e-06; 2.313673787201e-08];
  [-8.864417999957; -0.1882326730037; 0.119402867431; -0.02382836629119; 0.001134820469638; 0.0001782113978272; -2.305554399898e-05; 9.43029409318e-07; -1.305188423829e-08];
  [8.394970578944; 0.08397993216045; -0.0579697281374; 0.01158600348753; -0.0007504743150582; -2.602911694939e-05; 4.568209602293e-06; -1.458110560501e-07; 9.826599911934e-10];
  [-3.465864794112; -0.0157268418022; 0.01398192327776; -0.002700181027443; 0.0001902304157269; -1.534387905925e-06; -1.03206007926e-07; -1.355858638619e-08; 5.917279771473e-10];
  [0.7479071085372; 0.0005997666028811; -0.001614053457119; 0.0002620866439317; -1.103039382799e-05; -4.215447554819e-07; -9.926133276192e-09; 4.148813674084e-09; -1.207867670158e-10];
  [-0.08863575102304; 0.0001901540166344; 6.941090299375e-05; -3.042043168371e-06; -1.677907209787e-06; 2.153652742395e-07; -6.354480058307e-09; -1.223103792568e-10; 5.54305794673e-12];
  [0.005484926807853; -2.510359436743e-05; 1.123735445147e-06; -9.198494797723e-07; 2.058851315121e-07; -1.866416375894e-08; 7.564835556537e-10; -1.622993472948e-11; 2.428986170198e-13];
  [-0.0001388441945179; 9.1419955967e-07; -1.16891589033e-07; 3.485370731777e-08; -5.086412415216e-09; 3.674153797642e-10; -1.621809988343e-11; 6.737654534264e-13; -1.678705755876e-14]].

