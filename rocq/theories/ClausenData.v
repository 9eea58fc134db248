(** * Coefficient lists for C28.  GENERATED by tools/gen_clausen.py *)
From Coq Require Import ZArith List.
Import ListNotations.
Open Scope Z_scope.
Definition wS1 : Z := 389713104913762565328348445863684184473600000000.
Definition S1Z : list Z := [0; 5412682012691146740671506192551169228800000000; 27063410063455733703357530962755846144000000; 306841383939407411602693094815825920000000; 4474770182449691419205940966064128000000; 73963143511565147424891586215936000000; 1320075734552941405035693028147200000; 24834999347595134971727944089600000; 485662806229734013801578577920000; 9783920768813694684595814400000; 201803531736861004289001062400; 4242945844306254607441920000; 90637296001957511371192320; 1962281560362583690137600; 42971712763427154685440; 950377195696022120960; 21200948945509439897].
Definition wS2 : Z := 2737959238850260981959493422100365425476328718296325910298368654772116476066250358784000000000000000.
Definition S2Z : list Z := [0; 114081634952094207581645559254181892728180363262346912929098693948838186502760431616000000000000000; 2852040873802355189541138981354547318204509081558672823227467348720954662569010790400000000000000; 135811470181064532835292332445454634200214718169460610629879397558140698217571942400000000000000; 8016649281521170340972116845738641602096007669725105488569269994751360658676121600000000000000; 531585299951136429027028068915289603561446497885515016354325924785651722821304320000000000000; 37978230176409767623829238587723854017882498970108651395868405089628343721000960000000000000; 2858508924173023788763441140204809686329768132806330994043654609530154848878592000000000000; 223609431225443649748437047026899695106735817333458802104273314024710018695168000000000000; 18019102700129100781254908803854766435976070309099965163363434752378140622848000000000000; 1486655116356472864862871694619609223951089342046873575298273801605695615795200000000000; 125028568236926663125380559935162352721048394402748921170032901708981888614400000000000; 10683382527319608739226220380395219002955479601605926481695322267761636278272000000000; 925173472622637508619898897135101496229713192100575930696974171480807964672000000000; 81040947373214964551862244630651886210582964151366010179784695899003813888000000000; 7169318006039121361001136607500945968102308551265418714618064308760949555200000000; 639730607235408283895783679972954406435851896384166939356928184057174425600000000; 57519399183372367966161288040259875092349819603134926616614610336303022080000000; 5206637382214663293295913033300642915429480576652910874845158367266078720000000; 474147656050445579678690121378040244023203991331167117575980328702443520000000; 43412842053186537870109549970437900332694156125288556108000478776786944000000; 3994335818967340050199072152391204370235658909093992429925488465543168000000; 369145335593545477820096674452071291299007668307489541815639012592844800000; 34253672446810515179693891152694446561705232546040517282396085472460800000; 3190257712548302091449458794021870946726200366240387203426906952499200000; 298141998878401057052061768815780410209311429527729063497649138434048000; 27950165297758688398029681637098147698606436469387058893955315564544000; 2627891312507590792191839903141312897622241423933750148175475959398400; 247742901958664274783331989227519457333822635559534411734782082457600; 23414471121239888901145123117165170369461089694316244587874734489600; 2218112283841372110130930123381877154120853868223262986992626452480; 210587518971972832152912542465275487036924640322130437280998594560; 20034190125484399452393763611411492391571219767436741462508041823; 1909618607962825356839097097751015505779052274616897424883360368; 182350780842116605618085762714326334462256412408744849008192242].
(** ln 2 times 10^30, rounded down *)
Definition ln2Z : Z := 693147180559945309417232121458.
