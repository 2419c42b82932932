(** Generated from /repo/src/ecoengine/data/load_shapes/multi_family.json: the 'ca_gpdpp' table in ten-thousandths of a gallon. *)
From Verif Require Import Prelude.
Open Scope Z_scope.

Definition ca_0br : list Z :=
  [229648; 162032; 248416; 216937; 237775; 284985; 184354; 259458; 306436; 260984; 323298; 275222; 241938; 213656; 189436; 302802; 278384; 190803; 249347; 203266; 257764; 195225; 199742; 241074; 345921; 208176; 223773; 237854; 229831; 188222; 188191; 268512; 184735; 277178; 256359; 239967; 173112; 267344; 274304; 260227; 278410; 229927; 187444; 223707; 290829; 239172; 167169; 194484; 240655; 186259; 244359; 219747; 380883; 241129; 208026; 211019; 215461; 193485; 175818; 201180; 227282; 203919; 238637; 165950; 236116; 166108; 155667; 255013; 253382; 219301; 226905; 259104; 236238; 270642; 221803; 264730; 159630; 130517; 192294; 220670; 254250; 284289; 250780; 262918; 224644; 229156; 342587; 190914; 217760; 254137; 245470; 200459; 275414; 220568; 251193; 282930; 197934; 285943; 285243; 207629; 365306; 243293; 162350; 314096; 228924; 214081; 203992; 312822; 276032; 175583; 304127; 219660; 187504; 299056; 325497; 262264; 268062; 248452; 306301; 137382; 288966; 259208; 66305; 246044; 260242; 227297; 202132; 107778; 305304; 276393; 241865; 328124; 305495; 204813; 186409; 234463; 222406; 252229; 287964; 202362; 188382; 164741; 207903; 227176; 138678; 251251; 261948; 183474; 224449; 211576; 229959; 259059; 184847; 141947; 212768; 192265; 370940; 266647; 286607; 209838; 146472; 303544; 229835; 263681; 190822; 194003; 200704; 302536; 207401; 181600; 168202; 231145; 198885; 239907; 194102; 145508; 200657; 247601; 262351; 182413; 230789; 202677; 362994; 196089; 261010; 357679; 225017; 296387; 185966; 282540; 234009; 154499; 185665; 230161; 197031; 243418; 251828; 215162; 263477; 244873; 234150; 149772; 251189; 307099; 213046; 253499; 168497; 197878; 252486; 247725; 131234; 167109; 395715; 242721; 220408; 227190; 229765; 208308; 157552; 330758; 231728; 221786; 214874; 190047; 216968; 188842; 402740; 236990; 253459; 216512; 230727; 264563; 193701; 245964; 341215; 232530; 121305; 160950; 296629; 245160; 281972; 338924; 220041; 244047; 228757; 175271; 234453; 162547; 262370; 273723; 167755; 266270; 205892; 280053; 311134; 219101; 162310; 196013; 186053; 213264; 169956; 229256; 160107; 266565; 217447; 240937; 280296; 251978; 345201; 243612; 231198; 179660; 203785; 221765; 237361; 333485; 177705; 244620; 200710; 159385; 218142; 237965; 258995; 212475; 241051; 236825; 197834; 216556; 287286; 191155; 216135; 180387; 213277; 326857; 187906; 212181; 196136; 169492; 199789; 248745; 280188; 270455; 266739; 194015; 268750; 336433; 242551; 310175; 147114; 250010; 322174; 324088; 203425; 218544; 278014; 170926; 258524; 194265; 279113; 195032; 300741; 204211; 232884; 184520; 290565; 328324; 182648; 214010; 211999; 274921; 341650; 274968; 200910; 311784; 128941; 267297; 250912; 199891; 204293; 334764; 251112; 273566; 237581; 248943; 256330; 253011; 259219; 171117; 235050; 174513; 297818; 225889; 234503; 242129; 215230; 168406; 251756; 277373; 283077; 232838; 175096; 316735; 307092; 208927; 241724].
Definition ca_1br : list Z :=
  [292719; 191390; 240618; 256740; 195598; 305408; 190768; 201142; 177870; 321396; 282075; 212288; 289823; 226432; 257164; 147736; 351264; 166228; 230935; 201923; 278831; 203898; 335270; 125737; 178033; 236954; 175180; 206478; 176619; 188186; 326876; 291300; 252639; 203113; 146072; 165854; 261038; 206960; 210514; 173203; 196170; 252778; 177158; 191437; 173005; 187441; 107288; 237192; 117898; 231331; 226949; 163758; 224990; 124230; 258610; 239191; 194473; 160662; 135481; 167385; 247733; 208546; 143868; 247547; 275408; 290192; 232976; 195637; 217558; 222943; 256630; 214124; 185121; 162156; 260592; 182464; 231884; 132279; 280511; 196778; 237065; 203205; 107925; 239012; 245598; 150232; 365886; 222657; 155296; 164877; 278221; 254495; 264289; 333322; 273614; 155122; 170142; 259367; 149315; 236585; 313094; 331328; 177569; 226286; 226952; 243268; 289260; 267881; 128123; 193396; 174178; 237345; 217929; 295403; 256106; 233224; 188657; 291342; 223679; 170942; 248423; 268005; 151065; 162854; 201758; 190006; 196983; 160547; 269746; 133518; 183752; 170750; 245312; 189757; 260967; 260113; 245235; 263800; 183795; 175575; 182089; 309961; 215226; 231037; 311081; 211549; 231394; 215789; 190267; 247064; 216728; 171015; 223890; 212005; 171350; 176621; 227934; 208168; 170964; 233143; 281761; 155858; 187473; 213369; 254730; 222423; 127618; 190166; 173398; 250159; 169626; 159195; 161875; 162061; 259076; 166020; 206807; 251627; 307648; 172671; 265360; 212957; 302411; 154918; 293501; 227642; 133658; 171328; 267555; 161887; 173327; 241419; 202705; 202743; 212626; 179203; 216327; 203814; 199732; 224748; 200280; 211312; 292220; 163815; 134299; 226038; 243476; 243684; 196031; 179210; 174888; 159454; 114108; 171642; 199647; 207170; 170264; 222889; 232896; 186544; 156501; 251704; 214659; 236569; 186128; 150260; 279626; 272950; 181531; 121664; 185091; 196725; 208671; 208964; 246537; 185658; 162582; 162645; 216467; 378082; 232085; 205353; 181962; 191122; 182421; 254619; 214526; 160300; 217454; 148072; 174014; 150552; 182064; 234182; 331907; 171147; 249140; 208574; 200943; 218428; 296288; 143348; 194478; 171256; 142885; 212100; 243702; 192755; 227437; 262573; 228978; 198938; 229089; 129942; 146781; 292356; 207786; 176694; 123082; 202276; 179582; 146082; 189075; 271337; 247470; 175676; 207950; 191063; 211060; 321034; 265007; 196006; 158575; 170592; 210920; 195789; 151386; 182013; 185970; 224381; 189185; 198671; 194793; 183686; 213472; 117282; 181784; 143947; 206903; 224218; 247451; 201074; 243910; 170865; 268722; 160106; 202428; 214407; 269946; 115302; 222681; 275660; 194773; 176525; 201625; 237528; 154271; 267019; 220881; 321052; 233126; 249428; 216372; 183555; 216512; 203244; 141048; 230181; 258242; 217876; 147965; 264746; 269043; 259395; 244965; 213382; 175277; 233797; 245316; 140524; 167012; 182297; 223601; 227352; 134992; 203980; 262398; 192499; 163843; 155088; 232527; 254637; 188833; 226405; 203918].
Definition ca_2br : list Z :=
  [232247; 146226; 198890; 295596; 151731; 224794; 122671; 142160; 186056; 221234; 189113; 243642; 164017; 213826; 139313; 200269; 151462; 248134; 282239; 174833; 184741; 207806; 218499; 216739; 158171; 154841; 147841; 163869; 194075; 156287; 177442; 306825; 234468; 114481; 141045; 146763; 153860; 217968; 165598; 169522; 162423; 162023; 189660; 197795; 256663; 191904; 253276; 164610; 161148; 230599; 208208; 184258; 152705; 134490; 150292; 246664; 197156; 142929; 231047; 169886; 187548; 258532; 152895; 133180; 245346; 189224; 290373; 98674; 130297; 200599; 218298; 175470; 246993; 191431; 186099; 218616; 196565; 171285; 228398; 151087; 278621; 216802; 210482; 179490; 168435; 166767; 171306; 145414; 156929; 177464; 192454; 143270; 155393; 233589; 220778; 164189; 215810; 159763; 165199; 198678; 162880; 167332; 127773; 188380; 160012; 197056; 111563; 152091; 205614; 136548; 159489; 204573; 198999; 200866; 199120; 184680; 167798; 182253; 196697; 155973; 154214; 182849; 246294; 292086; 205509; 194687; 165928; 180172; 172170; 255919; 156127; 269859; 129816; 284228; 140574; 190754; 172544; 172116; 136291; 188330; 156941; 123329; 264820; 158146; 197433; 199119; 186967; 188540; 136542; 138759; 174213; 205626; 229182; 175709; 173599; 208143; 233157; 232355; 223447; 202939; 196235; 198008; 226163; 146369; 137448; 243535; 171050; 121978; 167679; 251696; 209446; 165520; 216442; 205526; 162623; 211073; 124956; 135347; 192547; 150717; 182848; 152255; 227739; 178452; 234416; 166797; 128845; 155050; 138929; 161929; 174148; 193823; 221117; 182213; 178261; 161704; 218059; 175894; 159668; 223020; 152117; 148331; 169806; 181677; 159199; 178597; 192069; 183554; 169842; 128029; 169789; 168387; 218704; 200701; 201287; 157988; 145182; 205409; 111214; 202104; 194662; 147428; 184214; 218178; 175130; 142728; 232351; 138859; 180185; 214111; 175998; 186841; 130784; 175154; 207648; 144464; 137550; 139267; 169842; 149810; 230277; 191043; 154233; 124703; 184136; 182514; 154531; 161425; 166242; 179516; 164266; 209487; 158064; 148872; 249626; 177848; 116488; 177259; 133150; 121485; 160461; 197591; 203107; 172742; 282043; 131916; 167349; 124431; 184979; 89432; 216489; 203213; 93977; 211128; 152236; 180936; 182121; 190606; 197288; 108153; 192003; 177877; 241810; 216568; 164422; 112957; 171286; 211384; 196247; 134265; 247522; 120298; 156610; 155232; 258201; 182829; 204120; 209153; 133575; 196661; 149435; 251309; 239696; 222895; 205939; 225333; 178405; 183031; 255964; 169993; 128462; 163128; 179209; 155879; 136642; 152427; 199295; 198753; 192471; 159156; 179310; 173762; 172019; 149005; 165742; 176795; 125485; 134910; 204044; 233752; 207414; 170934; 175590; 213969; 158446; 163763; 150391; 177552; 193070; 125287; 129613; 190777; 262752; 186076; 140275; 168308; 192302; 199846; 188501; 209078; 164676; 132387; 231698; 110514; 222260; 187634; 134010; 182360; 271320; 148631; 212761; 210697; 118502; 172847; 199653].
Definition ca_3br : list Z :=
  [183023; 122362; 188201; 211551; 221156; 143607; 197526; 146814; 168892; 145936; 203544; 183886; 144125; 147836; 166365; 119830; 156399; 188529; 204896; 142072; 180619; 175309; 129668; 167125; 169030; 180453; 150471; 151323; 135115; 193988; 166661; 168389; 154307; 219107; 213982; 184692; 146185; 128974; 165517; 225821; 147363; 174528; 162903; 134852; 133429; 284187; 410619; 129052; 165030; 176680; 177360; 181295; 211879; 163609; 130389; 143449; 234404; 187992; 224336; 196081; 183274; 128932; 247880; 243040; 175981; 155368; 163880; 183612; 136631; 143579; 170568; 151113; 214771; 196612; 170361; 169850; 154767; 204812; 173920; 233699; 287703; 234114; 172317; 237613; 168208; 222017; 128379; 167465; 198001; 189469; 114434; 167664; 178977; 173180; 223631; 113052; 137360; 143666; 182761; 132986; 182543; 151168; 174823; 175938; 114731; 171064; 123295; 260407; 155795; 172322; 145237; 167886; 184757; 154027; 157755; 175263; 159479; 168989; 183068; 148652; 232875; 194823; 192244; 160106; 198108; 150947; 218513; 141317; 220417; 143210; 148831; 166119; 120363; 126821; 146179; 204831; 166660; 192374; 169774; 116587; 204761; 156204; 179846; 122425; 316811; 166562; 149506; 194606; 173600; 194357; 232807; 144256; 200877; 195585; 138706; 135317; 231498; 110700; 194108; 192049; 231496; 208068; 157270; 153111; 193121; 160478; 137240; 160860; 219527; 198510; 165894; 157330; 173684; 254688; 190141; 123783; 170674; 152298; 233398; 173364; 188967; 160305; 189856; 157949; 217991; 158017; 164782; 150698; 229855; 107599; 171597; 145297; 181419; 169519; 121298; 178749; 187827; 175121; 189951; 193050; 211173; 166114; 108792; 142140; 198413; 226683; 262987; 228879; 139699; 133843; 184989; 171333; 137497; 165631; 154522; 190263; 148853; 138563; 128299; 197004; 164103; 171693; 144707; 173222; 167909; 172535; 228445; 185098; 198417; 166851; 112297; 177854; 173903; 195603; 173800; 226589; 185475; 133927; 146104; 171279; 145186; 161810; 100797; 121623; 186453; 194857; 161510; 182362; 187178; 121556; 141181; 178115; 214051; 184393; 184014; 125520; 145288; 190297; 171894; 166334; 182132; 179995; 202263; 177353; 141839; 167106; 137198; 196107; 175315; 187532; 142507; 168392; 171156; 128193; 117717; 220761; 137716; 125752; 159190; 196949; 140479; 123874; 166408; 135784; 110644; 176679; 229131; 123790; 227398; 196020; 223365; 150357; 173692; 122230; 130963; 125183; 222050; 144354; 162357; 140723; 194906; 163197; 148731; 185284; 199287; 197298; 111585; 199187; 176456; 146542; 159945; 146000; 206014; 168646; 145323; 197685; 169955; 141683; 216720; 150829; 175926; 165275; 113053; 190534; 197050; 186739; 197203; 186974; 151922; 276986; 200797; 163427; 148443; 128997; 140144; 163098; 225330; 184300; 215569; 151479; 170850; 217440; 230161; 194575; 112471; 187151; 197312; 165558; 151250; 131619; 247242; 128572; 291838; 176469; 135172; 149357; 176375; 165027; 203408; 209077; 209188; 210155; 192686; 137195; 134047].
Definition ca_4br : list Z :=
  [216241; 146432; 171571; 201702; 165650; 120178; 146745; 147876; 201266; 258433; 173356; 149590; 204354; 154296; 147823; 126532; 181129; 176009; 156339; 131098; 174762; 151006; 118628; 130525; 133047; 196399; 222803; 167197; 205384; 163577; 182480; 127720; 206897; 159601; 140122; 177359; 162744; 155364; 177084; 181085; 142762; 180838; 155844; 178432; 155430; 182387; 184221; 195708; 126464; 146133; 110832; 136675; 172656; 195355; 188324; 149071; 143890; 178326; 155869; 191116; 185597; 114237; 165304; 148295; 166606; 164103; 190232; 150280; 114873; 155739; 137488; 193011; 202497; 155148; 151899; 143339; 187877; 208757; 171337; 200487; 181395; 153270; 155533; 165080; 193434; 125398; 158847; 145967; 172228; 260725; 153660; 223150; 180814; 212834; 182952; 136514; 142280; 159045; 213211; 177587; 193397; 169848; 108221; 194631; 105673; 167713; 129443; 185171; 180089; 120056; 141420; 189821; 182055; 134440; 143782; 137173; 136635; 146723; 165148; 143570; 175938; 168663; 141246; 170144; 174406; 236357; 159732; 173621; 166304; 143895; 181780; 196989; 187509; 188884; 160480; 199807; 157928; 110594; 103782; 207940; 151200; 126192; 160035; 204461; 187985; 159414; 155921; 170467; 159790; 168907; 163754; 153783; 223280; 135196; 168486; 151056; 157953; 194394; 181229; 105921; 145615; 160609; 141467; 148089; 141001; 158916; 180999; 140563; 138933; 141219; 186571; 195139; 133775; 138133; 190728; 189971; 164346; 196057; 174775; 108130; 141536; 168942; 135366; 138616; 136784; 229505; 180706; 183393; 128430; 188486; 155940; 156282; 157394; 193242; 119555; 139996; 161965; 148760; 204632; 261556; 158830; 143690; 160050; 148727; 137284; 153375; 183236; 192580; 187605; 146014; 222496; 124972; 146688; 169151; 175451; 122029; 136923; 135715; 149577; 184943; 162690; 199208; 225405; 170692; 122090; 104530; 166887; 129438; 169943; 116031; 165545; 170411; 164434; 207585; 187592; 184556; 105555; 167268; 114638; 150206; 124429; 170386; 164512; 161156; 152771; 132849; 158402; 204008; 160420; 278591; 145273; 160419; 152430; 135427; 136961; 159310; 143782; 157644; 129213; 145923; 165731; 205829; 126749; 164131; 166883; 172427; 129254; 176959; 239835; 164570; 154739; 157420; 161847; 101319; 147641; 121111; 152137; 143902; 120061; 190022; 161449; 152442; 123160; 146128; 160039; 137268; 109553; 130350; 161137; 161770; 187589; 133742; 180900; 190509; 124115; 144817; 136723; 181047; 126461; 145772; 128410; 123642; 164052; 150053; 176059; 134981; 184626; 176761; 257576; 165520; 119574; 158121; 114824; 148956; 252921; 196001; 199906; 199062; 154637; 147856; 181344; 221474; 174566; 168748; 143874; 154764; 157356; 155517; 151281; 324362; 175447; 122791; 189784; 122156; 122930; 127695; 148078; 210943; 250418; 182491; 139044; 158606; 168263; 163233; 197050; 178886; 208579; 191835; 143687; 227748; 189440; 155582; 196469; 191843; 158084; 238816; 176392; 133177; 206477; 228748; 151330; 155550; 154547; 158119; 194624].
Definition ca_5br : list Z :=
  [181471; 129609; 220787; 190197; 208841; 144495; 161220; 151524; 156139; 250286; 218571; 177112; 150434; 158051; 188772; 217513; 262762; 194899; 138694; 195828; 206885; 209814; 157365; 180513; 152217; 165947; 175073; 170128; 141116; 191459; 176455; 220099; 166694; 201229; 248570; 144388; 195854; 132894; 194249; 139133; 165283; 169140; 133789; 173689; 201944; 178170; 138190; 164432; 185398; 211131; 159945; 163064; 190741; 214436; 172806; 160851; 220735; 163312; 150374; 211935; 165738; 213225; 203750; 114805; 145606; 129102; 166012; 174166; 177512; 192768; 216070; 152751; 158773; 204257; 196249; 120329; 168649; 135079; 141650; 232719; 166147; 151520; 202111; 159450; 224982; 169113; 165429; 232747; 190330; 218041; 160755; 172855; 129384; 191704; 192770; 139910; 215916; 163228; 184879; 207246; 173132; 164601; 178983; 146001; 136334; 156143; 192407; 164209; 203735; 182475; 102503; 137781; 171255; 184677; 166705; 171171; 189893; 142553; 139602; 215547; 159034; 201182; 159325; 190909; 132072; 173546; 152752; 206942; 156595; 175352; 204406; 184545; 167583; 171341; 219138; 234270; 138507; 200915; 204822; 232115; 166477; 181544; 244941; 94286; 223091; 198492; 140800; 151936; 161881; 216429; 256428; 146660; 150667; 171816; 140324; 140155; 153167; 215906; 206863; 177119; 128043; 200499; 176966; 200593; 133829; 154055; 147440; 156081; 146256; 196227; 194231; 184636; 111895; 201756; 154087; 239171; 149672; 152892; 172205; 138425; 203794; 160179; 211953; 141991; 190929; 178086; 128405; 187966; 178718; 184441; 177966; 161322; 110729; 130196; 149152; 119090; 150062; 156035; 200330; 149318; 201237; 126324; 187179; 184367; 199948; 215099; 172839; 165132; 171064; 146152; 147959; 186365; 208578; 204359; 161475; 164389; 145727; 206996; 131809; 138011; 182202; 94207; 138920; 179845; 169067; 182322; 149108; 184869; 243135; 164812; 183997; 185244; 134643; 167274; 130742; 122341; 145003; 197238; 153132; 187528; 138432; 324033; 162555; 142233; 168053; 192626; 186253; 166668; 179030; 356544; 182895; 106660; 153492; 151723; 176160; 144615; 149322; 191503; 160334; 140226; 151890; 242278; 178531; 143550; 182556; 168207; 142960; 161298; 113090; 156907; 164877; 109805; 184200; 148176; 154655; 246287; 234969; 194102; 144754; 166253; 166147; 133847; 202365; 128375; 137527; 172198; 192636; 155147; 164620; 159784; 151562; 217504; 199525; 132948; 134922; 113416; 147402; 171419; 179333; 182914; 224222; 152984; 134032; 238832; 154867; 180034; 142402; 198443; 161840; 137650; 190271; 239656; 203969; 140845; 172054; 152404; 157118; 209654; 193599; 170096; 169451; 237755; 167892; 156766; 179001; 133086; 162125; 169512; 133904; 244452; 173922; 158682; 172878; 181008; 196054; 206505; 152913; 164972; 184977; 164980; 161937; 139580; 202279; 191630; 215387; 213255; 168511; 158684; 149165; 220554; 139651; 203330; 165734; 183620; 137372; 193559; 178879; 228307; 216960; 126694; 213564; 157824; 146516; 200184; 152365].
Definition shipped_ca_rows : list (list Q) :=
  map (map (fun z => (z # 10000)%Q)) [ca_0br; ca_1br; ca_2br; ca_3br; ca_4br; ca_5br].
