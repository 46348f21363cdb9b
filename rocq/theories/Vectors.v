(* GENERATED by tools/gen_vectors.py; committed as source.  The test data of the
   repository, published test vectors, and addition chains (data for the checks in
   VectorFacts.v). *)
From Verif Require Export Bytes.
Local Open Scope Z_scope.

(* signify/testdata/test.pub *)
Definition sig_test_pub : bytes :=
  str "untrusted comment: signify public key" ++ [x0a] ++
  str "RWSYzpL7fowE0XcRVKu+HhdJwQi2Ph7MCvtfEg7C/i6/1zO0VZoikJ+c" ++ [x0a].

(* signify/testdata/test.sec *)
Definition sig_test_sec : bytes :=
  str "untrusted comment: signify secret key" ++ [x0a] ++
  str "RWRCSwAAACpFnomBnYYbMPBqJ4Hmu86HU+oKQCYNZrWYzpL7fowE0b/EzvbBpZTqrgyDHYzo7a1pH1/PGQQjxGDidn+L1pjjFd1m93CtLJSrdqapd4xyEHBsepCOLswYmrmxnUCfn3Y=" ++ [x0a].

(* signify/testdata/message.txt.sig *)
Definition sig_test_sig : bytes :=
  str "untrusted comment: verify with test.pub" ++ [x0a] ++
  str "RWSYzpL7fowE0eHI5lJTaknYkz2Qr4b+feetgfZalutNPWWlcLRgNaGN8hqnin77Y2V+mJbqtUkoX3eq7NgKlUqd7LrRpHxUDAo=" ++ [x0a].

(* signify/testdata/message.txt *)
Definition sig_test_msg : bytes :=
  [x54; x68; x65; x72; x65; x20; x6d; x75; x73; x74; x20; x62; x65; x20; x73; x6f; x6d; x65; x20; x6b;
   x69; x6e; x64; x20; x6f; x66; x20; x77; x61; x79; x20; x6f; x75; x74; x74; x61; x20; x68; x65; x72;
   x65; x0a; x53; x61; x69; x64; x20; x74; x68; x65; x20; x6a; x6f; x6b; x65; x72; x20; x74; x6f; x20;
   x74; x68; x65; x20; x74; x68; x69; x65; x66; x0a; x54; x68; x65; x72; x65; x27; x73; x20; x74; x6f;
   x6f; x20; x6d; x75; x63; x68; x20; x63; x6f; x6e; x66; x75; x73; x69; x6f; x6e; x0a; x49; x20; x63;
   x61; x6e; x27; x74; x20; x67; x65; x74; x20; x6e; x6f; x20; x72; x65; x6c; x69; x65; x66; x0a; x42;
   x75; x73; x69; x6e; x65; x73; x73; x20; x6d; x65; x6e; x2c; x20; x74; x68; x65; x79; x20; x64; x72;
   x69; x6e; x6b; x20; x6d; x79; x20; x77; x69; x6e; x65; x0a; x50; x6c; x6f; x77; x6d; x61; x6e; x20;
   x64; x69; x67; x20; x6d; x79; x20; x65; x61; x72; x74; x68; x0a; x4e; x6f; x6e; x65; x20; x77; x65;
   x72; x65; x20; x6c; x65; x76; x65; x6c; x20; x6f; x6e; x20; x74; x68; x65; x20; x6d; x69; x6e; x64;
   x0a; x4e; x6f; x62; x6f; x64; x79; x20; x75; x70; x20; x61; x74; x20; x68; x69; x73; x20; x77; x6f;
   x72; x64; x0a; x48; x65; x79; x2c; x20; x68; x65; x79; x0a; x4e; x6f; x20; x72; x65; x61; x73; x6f;
   x6e; x20; x74; x6f; x20; x67; x65; x74; x20; x65; x78; x63; x69; x74; x65; x64; x0a; x54; x68; x65;
   x20; x74; x68; x69; x65; x66; x20; x68; x65; x20; x6b; x69; x6e; x64; x6c; x79; x20; x73; x70; x6f;
   x6b; x65; x0a; x54; x68; x65; x72; x65; x20; x61; x72; x65; x20; x6d; x61; x6e; x79; x20; x68; x65;
   x72; x65; x20; x61; x6d; x6f; x6e; x67; x20; x75; x73; x0a; x57; x68; x6f; x20; x66; x65; x65; x6c;
   x20; x74; x68; x61; x74; x20; x6c; x69; x66; x65; x20; x69; x73; x20; x62; x75; x74; x20; x61; x20;
   x6a; x6f; x6b; x65; x0a; x42; x75; x74; x2c; x20; x75; x68; x2c; x20; x62; x75; x74; x20; x79; x6f;
   x75; x20; x61; x6e; x64; x20; x49; x2c; x20; x77; x65; x27; x76; x65; x20; x62; x65; x65; x6e; x20;
   x74; x68; x72; x6f; x75; x67; x68; x20; x74; x68; x61; x74; x0a; x41; x6e; x64; x20; x74; x68; x69;
   x73; x20; x69; x73; x20; x6e; x6f; x74; x20; x6f; x75; x72; x20; x66; x61; x74; x65; x0a; x53; x6f;
   x20; x6c; x65; x74; x20; x75; x73; x20; x73; x74; x6f; x70; x20; x74; x61; x6c; x6b; x69; x6e; x27;
   x20; x66; x61; x6c; x73; x65; x6c; x79; x20; x6e; x6f; x77; x0a; x54; x68; x65; x20; x68; x6f; x75;
   x72; x27; x73; x20; x67; x65; x74; x74; x69; x6e; x67; x20; x6c; x61; x74; x65; x2c; x20; x68; x65;
   x79; x0a; x41; x6c; x6c; x20; x61; x6c; x6f; x6e; x67; x20; x74; x68; x65; x20; x77; x61; x74; x63;
   x68; x74; x6f; x77; x65; x72; x0a; x50; x72; x69; x6e; x63; x65; x73; x20; x6b; x65; x70; x74; x20;
   x74; x68; x65; x20; x76; x69; x65; x77; x0a; x57; x68; x69; x6c; x65; x20; x61; x6c; x6c; x20; x74;
   x68; x65; x20; x77; x6f; x6d; x65; x6e; x20; x63; x61; x6d; x65; x20; x61; x6e; x64; x20; x77; x65;
   x6e; x74; x0a; x42; x61; x72; x65; x66; x6f; x6f; x74; x20; x73; x65; x72; x76; x61; x6e; x74; x73;
   x2c; x20; x74; x6f; x6f; x0a; x4f; x75; x74; x73; x69; x64; x65; x20; x69; x6e; x20; x74; x68; x65;
   x20; x63; x6f; x6c; x64; x20; x64; x69; x73; x74; x61; x6e; x63; x65; x0a; x41; x20; x77; x69; x6c;
   x64; x63; x61; x74; x20; x64; x69; x64; x20; x67; x72; x6f; x77; x6c; x0a; x54; x77; x6f; x20; x72;
   x69; x64; x65; x72; x73; x20; x77; x65; x72; x65; x20; x61; x70; x70; x72; x6f; x61; x63; x68; x69;
   x6e; x67; x0a; x41; x6e; x64; x20; x74; x68; x65; x20; x77; x69; x6e; x64; x20; x62; x65; x67; x61;
   x6e; x20; x74; x6f; x20; x68; x6f; x77; x6c; x0a].

(* the seed in test.sec, decrypted outside Coq with the passphrase of the tests *)
Definition sig_test_seed : bytes :=
  [x65; xad; x85; x75; x26; xbc; xad; x82; x07; xf5; x9b; x4f; xfd; x37; xaf; x92; xdb; xa0; x2e; xaa;
   x1d; xc1; x7b; x58; x09; x51; x32; xe4; xb1; xda; xff; x24].

(* the key in test.pub *)
Definition sig_test_key : bytes :=
  [x77; x11; x54; xab; xbe; x1e; x17; x49; xc1; x08; xb6; x3e; x1e; xcc; x0a; xfb; x5f; x12; x0e; xc2;
   xfe; x2e; xbf; xd7; x33; xb4; x55; x9a; x22; x90; x9f; x9c].

(* the signature in message.txt.sig *)
Definition sig_test_R : bytes :=
  [xe1; xc8; xe6; x52; x53; x6a; x49; xd8; x93; x3d; x90; xaf; x86; xfe; x7d; xe7; xad; x81; xf6; x5a;
   x96; xeb; x4d; x3d; x65; xa5; x70; xb4; x60; x35; xa1; x8d].

Definition sig_test_S : bytes :=
  [xf2; x1a; xa7; x8a; x7e; xfb; x63; x65; x7e; x98; x96; xea; xb5; x49; x28; x5f; x77; xaa; xec; xd8;
   x0a; x95; x4a; x9d; xec; xba; xd1; xa4; x7c; x54; x0c; x0a].

(* the secret scalar of the seed *)
Definition chain_sig_a : list (Z * (Z * Z)) * list (Z * Z) * list (Z * (Z * Z)) :=
  ([
    (-7, (48696910353099074740279957101535594369639437473304029417185013708919080599270, 22512087849695599276028560866629687720820254811233262850576678203618951717560));
    (5, (42392263004338761537046048598021210066155577454983505692744372786992423909129, 140156347628081415703786042652026987165353303890048733499560419829492101434));
    (-1, (41801976293452117136073423925610812136803460026936313811812622668607188071998, 25397060590864016523691434907448785494702236441311459823684441141200267849809));
    (0, (41801976293452117136073423925610812136803460026936313811812622668607188071998, 25397060590864016523691434907448785494702236441311459823684441141200267849809));
    (-6, (52201105024291792807015285105415236957442484757338987259524305066746512907665, 5924902666564735001674507595248467205183723764757473383370272434971824412984));
    (-5, (23651363270888799803471693870998513199995681648901264195568610523447144655703, 25629076278872725486796144058407576521200474713498599997580207858906510659420));
    (3, (6005595142246372554651533201825731578696847239377391386757079082384975581489, 45072326966040643204306163995661489197736676713703968846541834598895544243910));
    (3, (26709718986069025800564727555054554833327941099090392549981729252664282124290, 20040883296296919386347942778509322842660217822489942099496706882173137610948));
    (-7, (33782222783031895005982576844792972081672461566003634279941452016997774387059, 1390269090824222673277919987774664895190887800652795600811080615231643201276));
    (-4, (7401425406145908367122360540059205637319863419179837184866161529882747563946, 8649075783336396852140601477276751028056645350556120110344092927002057566967));
    (-8, (53008837058541697474129071118468066618866228441365497219799676705045842121787, 50863176721207092153562996217289108678080711583950280983498268669566241845922));
    (-5, (10613541320904212754454237000950135643587711156384518991072391755166904950440, 3411327888247529347087475223270812345577683639946049318481211419276662272800));
    (-7, (11630182066664725434460598882996375049818501239809439337724804641711270722093, 42854417977112214973166835280404070325905569665881864696594190306697279168896));
    (-8, (16115638283360470788914718097544456098029881857192507015072174321280053280192, 37473742532478941895503003205123301039006756921977939039383041683159365214953));
    (3, (27307376595582571750455523724214658200175268058123037310752949156378898267182, 48393422181271686982371057777974069709043086693376718551937798495343734172270));
    (3, (42257100261126418868678741125099545515084002430234794180261838307062641457799, 39392604687608995872907893173542045364656555943350015989183107579448262260803));
    (1, (14236238007716619720749581312299782218900881605663844535144839691547988019109, 31188854041879051346682031814660673451019023401849263929952256381454118784837));
    (3, (26233868783050530922057984398029978160847575273379208664632762209307626070608, 10885187744794461502743677368771627164495253363153393099799320220557268949407));
    (7, (10156693992991656316503052688617593327985416833893085520855576348081491169881, 39336002314787530986523526372994972733663967085378309376386958337053967268688));
    (6, (37772680640047012160685455268202026550520296644343502088592195135176686173983, 15004765639243257597443812407854413275342260944803048847562434452851929106093));
    (6, (45426347340778432295502203640899262515943014633031088765926886168001043794894, 12388142257182827543277135769792889058142795205600074718111409148900029762981));
    (-5, (37544545688061134265689924261352395521695220020287762810864039782810563418730, 3417871904305613424285266994521564133645957210821723124520312613579971651617));
    (5, (26997250303959307320292701363786599931758957094274577343383832909546090356424, 43820769536246125957383806359971456153935105898977920576424343060233976161438));
    (-1, (40564203208056260820067017858766861862826408183439278923547173578853541816930, 27260111965585314828657560478222960111753145806353808145161234513072334372940));
    (6, (56857037283824330842092104604182971894626787785811667859571683037729615164388, 28772636601780435535695367040112042152196865541075334155005826296639278821394));
    (-8, (45283618197371364907337159958450541758564794717094779071551273873139273466137, 19151697244337514093380634558220553919979609122531473273062051664302987407674));
    (-4, (43018202083577873211223493584760780190077158359495028356222155885080803029978, 7017488603745483053236985144946608334715019673465152439960465797106233809462));
    (-3, (39516726859440809404588473397070448873355395033821947537321115370112233440808, 48688976362061149596970044108397925643206647859475772239263756920253241128288));
    (-5, (45471451690719795203591073659071799160098041491425108436544143746487630909078, 34581611979283509033457452911213110765870531868138685878280288264665191754649));
    (6, (56527704662477575399566164517577624639809927250697380628248139330378753312133, 14678242855459037935144358433446112292907796561169175951033436777290430378243));
    (5, (17716162418806075742542277441674820557569874994784735957888711831615638748944, 44175386190687387311228065542607676884813921456643940255088363487121026410499));
    (7, (44549368255553178235039748278999110514567984599116615685349426698752500302733, 52947871096799211510159630804362902475654270634244396518307929987248638792682))],
   [
    (666444797657881809754269644983444051270195345051227309333635855797469080932, 25810748159295420080915606265119737441103344238465890745448488902500777377335);
    (15184739962551980518428918146962506795249035021340490712820643780655502372467, 52726713856187364067386537993451457081226291714893520458471339009251985400406);
    (45832491128782700964351390021074955265635105269114289736019466904500944398241, 33019685963318685072560554073472299679206753101679368495843595042869491519996);
    (44132566197934764503866007603260819109933047246748264818890645347167390789604, 53607597739217718343852303505855230634976224595340947436653138177613177929134)],
   [
    (-8, (48772354247203666593601361072322029093956573000684728117811427393453355899063, 55155183813294416457218577959706662100218590164301945948211745133464616729949));
    (-8, (30356895999963916259496258643903178173409074222924323595130219205091179376828, 91762970275469084660591045662987191553985080610086068952955710684698854141));
    (3, (7464817496824078640636734824641393850119896030529740624839216191473910035724, 5355454697574966873163482653203074064857570946622029806868005582073293419518));
    (6, (24812641031565788486034697493408663323033179347791977435887567751697519605142, 17686451313574997905685453941442555191790236480948417952768955970368914313955));
    (7, (9741862439317506639542553935070263843589559144412575759271135366948540732790, 53033394275219942210631505747081884652499693364146702853573011772639656952346));
    (-2, (39745382209255374511831499179940113326060393981636848859872520586580840577011, 46591410066399982728094191032332496825824475194076642790174205767435391479346));
    (-4, (11451385708814858143353264215622793708338726325291547767404978953954124683390, 55324574526458123727274441726892654953500066307309585970067971222087675771301));
    (1, (47750193581614915310154040198887278445982297057169952629444580598789249751514, 7159403059581895859727709403822232722857666801452976393014026494542356822819));
    (7, (24000140556390101144289653804391863417149648915333305581020809771361306346171, 23766183706624028947024145974444608199862487968917341144099964689769996676152));
    (-6, (55313526641497345389553792678384194884945642328051224326701916762639406847120, 9994694780539788265424607889938369770709703733950038114153132565979643589859));
    (7, (42658695665806789261635112768416327103519587019006581987411114579506955973514, 6479028747260456195175109630295667234994494309373381657105261783027990388360));
    (-3, (26466887799792364648373091870289407056486299710424027844854468334545966988750, 50412679987523457399182890688323265506177834529961260695760291037136375927639));
    (4, (5305439721047263226389625587756781976969600509302872725515717551748429894986, 41481363592031570223937646784580147077621274444763934364757488602034780224559));
    (0, (5305439721047263226389625587756781976969600509302872725515717551748429894986, 41481363592031570223937646784580147077621274444763934364757488602034780224559));
    (0, (5305439721047263226389625587756781976969600509302872725515717551748429894986, 41481363592031570223937646784580147077621274444763934364757488602034780224559));
    (3, (45715189411698028785719095318113978378830820860045180197918998780407103649316, 50168338787451278550466089852907998921657007361809985155192613862672378413498));
    (1, (18428677120687635908702840311821617372526523820858856706530964051371612838237, 13541649047300192224756250293785423580747034719099775856780184646809324499224));
    (-1, (53441734008631419195698540586526137049819214565255009246844642279370852672345, 47865728145121986373913389050178608785643019341403898532257123542777324557039));
    (-8, (12514856612719677834078280199770000801997334364456687728655655092841945063430, 18018134052355013791269415595348729059309653869177761286939503480845760696000));
    (7, (36063700522926918798347560116486033722927732911986345885562780576015303349050, 41642146856566947074258070517497425763523877617713220363996783312057848194116));
    (7, (7792858637907686396237486729343240618269355467323446670358432968915108172362, 16605365506623751378947376030213350148616244688979890620517551322275462801104));
    (-4, (42907924836593679483747449940760207409571070263539392837474196190382646177419, 26820169738450739769795192900718871196896486149251019532131850894219463551395));
    (0, (42907924836593679483747449940760207409571070263539392837474196190382646177419, 26820169738450739769795192900718871196896486149251019532131850894219463551395));
    (-2, (32868533076263693951417291771616903790563597238816091839913027771257555022652, 38848276135121455451665382796606223648488359499111635294961371954799185054066));
    (-3, (5655608515559822910257734505037151104265125680693200490199225470299484200437, 46257393038018743900923781408193269840073476756907571091290349550729069138093));
    (6, (18386120943782096672098557792497606429306966395717869992278731359807715267342, 41600751545756894190660744795806871024689791766814494481840386951988545205691));
    (-4, (56802252541331749166731024704387535811357486575896092492515065192101538736477, 2815443653843172444447971583245947057260022583373671478170290113422149997566));
    (-6, (47952903345933746896761522359377594873106542387258202957643337110280618189946, 3087788426464025661292854702243158199424985724702243983230329555616467053239));
    (3, (30347188887531854313271707285511766614727019265200903376168664882204805106709, 20425134473425217607209315942637415628719505284848422281830950422305318290073));
    (0, (30347188887531854313271707285511766614727019265200903376168664882204805106709, 20425134473425217607209315942637415628719505284848422281830950422305318290073));
    (6, (49982071639698820027278308045769389600032106879492543032172164292645446941661, 9861040377147241771757458350387850179588846365658178191212204022281321245743));
    (-6, (7303683026304377699691497893383178407983180393526113531208093115493522482769, 12946683227996695970235098323381830015432783390842156508997094395655885164919))]).

(* the nonce of the signature, reduced *)
Definition chain_sig_r : list (Z * (Z * Z)) * list (Z * Z) * list (Z * (Z * Z)) :=
  ([
    (4, (14582954232372986451776170844943001818709880559417862259286374126315108956272, 32483318716863467900234833297694612235682047836132991208333042722294373421359));
    (-3, (40826804733556422947449337008297385275384897542954587811262655265996846774228, 35241711334932811325057686455131790165471835473626471244973010306493048137333));
    (0, (40826804733556422947449337008297385275384897542954587811262655265996846774228, 35241711334932811325057686455131790165471835473626471244973010306493048137333));
    (7, (23874879291435030212149265963717289486821393275130434643208028686525554722757, 21095165127089286042472757271919076467152704447403065071306226314835274804133));
    (3, (33164696395745671394889463019341412305155441399494222185276276002527755106284, 57714588923586221014407665028130388409872154612298053052806335794587063524068));
    (6, (21798955245009885653164636575518282917375556657093905272082405463396103823962, 15158311039010017400541750051252317457258648189890437536783712521484209322074));
    (-3, (5064051388091994496665741336414521075459178756139663383737789865458306325355, 30358722062819308244174107871715305926002623822756044885112288539134461955686));
    (-1, (12152509416458246603036096314858397105501344199815176774582111313908508153895, 26120494260984596866992553673075609366833232774485270751278348595646435467140));
    (7, (7815715328625663069664512980095158839013625458606108593673805043271462705270, 5107660576433229616244613093769923610166202217603081439386473143533855570483));
    (-1, (312851298741572593055316314227592620368523994879093757240490824932936016218, 14569067384361472421824817610992186983748393577356014922400128328432511521269));
    (0, (312851298741572593055316314227592620368523994879093757240490824932936016218, 14569067384361472421824817610992186983748393577356014922400128328432511521269));
    (-3, (11736022562615615151053000586198826292403832191168073565927092169409535152716, 26216771652479620951064157114885761407367784449887425451487368772958420813591));
    (-7, (47682756666146256565509422553759952394225059875586146436582189356221387148482, 54176702337999413684184912575646939046798537168757732182536386371172232929665));
    (1, (37075613618438456584180001738099244015562317322277091831536442962287609923245, 35554468707286523385566903076658342329156976094395800851966251543294487444622));
    (-7, (7568236588962105310632770779358786783178194153258424198672667310564531256042, 44985050478432329103123931465020038351120132866117105595049578683611161431250));
    (1, (27616045117483146151507257256800043779505224014703840668354116450386616638673, 19726464319709032818600937541984363070647524006002700600316974860307594689342));
    (6, (24985685590843686773766613322421249934949639975431149542410493286562975322452, 42228916769816845295777757762546183102268755817536630229497489724491995964335));
    (-4, (49354979354456388161814808912265751674409261763930290562782183943555531433566, 10440122027313415684567738646547804951386125708987986637084257632335916017581));
    (4, (28943416548460356115994542390338419630222131434742278143674638139163338157828, 33802664955759846057863858242793291373171328285204956935360228913854502716401));
    (-2, (39510451034510893904995557995102030124904300771573441470749258776876002805099, 36360371000567803205828570772982264002955485657230963722225676804261257574810));
    (3, (40829422637425169238947059110247052934016558999016710618091672881059658349404, 31668030272892302385334855941656086188812646119811546603705581696143154543928));
    (-2, (10009645145860622728353346116571133000942040132400720193592219213532901583230, 13480977544145059279906665377679005707257268730416332886311721743352233410550));
    (0, (10009645145860622728353346116571133000942040132400720193592219213532901583230, 13480977544145059279906665377679005707257268730416332886311721743352233410550));
    (5, (16950992354592222459796449795592480982164407961015921908175504004781870593447, 27553513386625478125829972188884936690061725068453521672877946938332731865676));
    (-6, (6062050844256091305343548252882580597670936759551866474364458489959475226966, 57577864022475833235371296796148615603653764036550400559322718737608508606660));
    (7, (53823208796292135026050471307873445955843359691773244580788885382490204211908, 19757702212443509549231686327288964681362353344239785519195835927102992942389));
    (5, (46478549861185741107478825380029058425563872460116584594242572331788090226340, 37948420841183186889449393925561754861422225412760732414467616298988727921792));
    (3, (1458182752555102222892071948038692314769604834589562521460531949397796825514, 56497991190630581749536615489973407880599634652869104071203155644192691918122));
    (0, (1458182752555102222892071948038692314769604834589562521460531949397796825514, 56497991190630581749536615489973407880599634652869104071203155644192691918122));
    (-5, (24432883369897480467259723000850351665553370004743109579633806705047381333451, 23019784940200409566400774093918553982414458380699319799106191835275172714653));
    (1, (46366386325774284262289806303725138846627128415561093210006353625908781018315, 3426082471528922663573921549634737680290944887336050403763339286157143018494));
    (1, (1036826519874128706023015502696799678866844821945401441190719281507011119641, 12136441062652055268825719198797194164178154968441774911780920913349169782504))],
   [
    (22271099533253992007594771051016127705838358992476606674565405025390092181701, 10140125526782695886462684377084325353417829740461944785398785247564563090841);
    (47194998175534879572980033138982846668171555235136570624074468162811033359857, 47723878419089190429896968836677613432485036254273599006690192204101804435461);
    (43027100858937415117864970217652667249764464054015090260763178581591843469839, 50994864634670898780634498009943165850525647468087122283247092956234660277535);
    (31753839616769303135761156948787130867785011582250100295483464664309088220469, 24359809577352208831558238015874485355580820431559942453257087021732694480967)],
   [
    (4, (55975215765272982747072013914132731540770370883693791762881659563918437964732, 27880418883031942919519281534829379002615909885037469831455057808943972229164));
    (-6, (7150870047151911047486578878581238555647727350459475870941482552221585359154, 29482482639060707384079749473547403602392678030470803403830650327063506334399));
    (-2, (46909973642933284230656800677364830861721941581748453712455365348620625141199, 14387743390228813203971586902703218647059003384713173523422378763585373054006));
    (-6, (4446857375787704862714312235119437221706728139168222930984966393723542452078, 19464814507543868808596525128632279652654181264803871216113673238547514207951));
    (6, (6568144868689754083039280026416769646077273997533812369106976152168775947866, 44532566180462162720597656463760385291837777047913272841086036071661868625408));
    (3, (12547315652808572660740382696926193131886933792321643200795078613507295096826, 44070490426766963995106529989842912944868747619147334661148110017713727459911));
    (-1, (56456720240638312157018151385356032801353810900056765469522805612643976105670, 28497107982744297257788327314772825034057357924548520305989234215594084502482));
    (-8, (8619319317663411263750349217848047810448024670312122727923254262483579288698, 43592139327662465171194664016038527419206732636001035163491830666338094414848));
    (1, (36027309333550115307486920145597942876716727362411621744849239181174616069601, 53764698182653184294300697734321133524735290272862599125850689796853210737233));
    (0, (36027309333550115307486920145597942876716727362411621744849239181174616069601, 53764698182653184294300697734321133524735290272862599125850689796853210737233));
    (-4, (44166512427915648401389425407699209305089921613176717843994242045950699177430, 35492748944765529903857336312393770239233314812344475028627887310708426341894));
    (-1, (30780777318071587151435548809518526164208617654491940687852704416696551080046, 51469880294375198716229839038054956448910508899916752864057229205407653803842));
    (0, (30780777318071587151435548809518526164208617654491940687852704416696551080046, 51469880294375198716229839038054956448910508899916752864057229205407653803842));
    (4, (18132104562760661666952661701707013382790088238068858516195899491731160096256, 9294591845152034663819937625110994220738027845431650685393603569607939475668));
    (0, (18132104562760661666952661701707013382790088238068858516195899491731160096256, 9294591845152034663819937625110994220738027845431650685393603569607939475668));
    (-2, (25741225114083706969554932160617731495183771187946531575551526833852008290762, 678126832580231327391516664116604111653539712287917351104637843249463251258));
    (0, (25741225114083706969554932160617731495183771187946531575551526833852008290762, 678126832580231327391516664116604111653539712287917351104637843249463251258));
    (-5, (31165429389949241567696698268845222119425937149600582396269997384082886119019, 7895589142118121140307351990447300669861563345521461601832222592156564674080));
    (-8, (48164776663277683458514282022079677349406470028020188812739001022028067168669, 17318400859857854890638035133442074123388065018639504687550651719617123618798));
    (-1, (50211960500284098095832731363684431535625441281036389892226965991626761895952, 49333780899108787305470896162075684934904171619932897072446956288693890520433));
    (3, (54928710232014788589351077385223396075460943456240687936456873286208760487199, 31455247737644899363101083267219670442049150345307847540715502473018139992700));
    (-4, (7774164149908040860275547273601615350074234845957628912624593656773897615608, 44129005547282392376798528372140806868513844991267438852559593746274843894186));
    (-4, (18179712352201635148976342336921753525403974501572710476090349897910888258735, 786132759280702115156140825013174394439949852231619189664882349895903234810));
    (-2, (37162192827586215413885413908764129765835073023012234249549487867093375802479, 606133252855993300157943068450654376666786197849797807326618369375773185865));
    (5, (16847641815933375889015562997982670328071236198461378422114380376280563103872, 22565683704452230758928552475533476288308724305455078629502346104672973433582));
    (4, (53993793663546727046786144583180605035483755592747791799656892199086457062154, 47987500035679612713337185239249999274004465559365728225948069434200095316039));
    (7, (56386429984443077663753873592884352714877760431872701252849587273058359863302, 29553580470125526134097710498111946592780280983052151434343443576682613119197));
    (1, (28447333537345166335505154027749616848546991840521095284174347547514550865891, 17814026960486650527219616813572334331544944634757799877458642717338386081108));
    (-2, (12165027762624737047864571742257424461639031593754047688083540381077656345487, 37748558950028810890755021441826316131542315084234029351848106332670304876092));
    (5, (55342805371247345025903543098557390702670958745064453940011213854312386310358, 36303560992052618717104652612334820875607098311477884503224732706563192350212));
    (1, (13104782947177704783889595872759598413830446114734391430196469700450170939890, 47417330115116635021261380501714484373170012984492854338013121984094319723528));
    (-5, (12419444649725656106970352272234913617594337705873931764466169380355454565665, 6164897808725595280471323618800575921285885300688457957326249318187272685793))]).

(* crypto/testdata/test.pub *)
Definition box_test_pub : bytes :=
  str "untrusted comment: signify public key" ++ [x0a] ++
  str "RWQG3NG/HVUh9dUmnWDxStYXUgK+FRB/M9UTdFPESCWeblGoX2yoJAF2" ++ [x0a].

(* crypto/testdata/test.sec *)
Definition box_test_sec : bytes :=
  str "untrusted comment: signify private key" ++ [x0a] ++
  str "RWRCSwAAAAAGbFVj+P0WG6vHupwL5lmmZZvyBeEFJN0G3NG/HVUh9bPU4cMvmkQPwuSw8g3Q484TlOsNv6bmzjIGlvrDRDw41SadYPFK1hdSAr4VEH8z1RN0U8RIJZ5uUahfbKgkAXY=" ++ [x0a].

(* the seed in crypto/testdata/test.sec *)
Definition box_test_seed : bytes :=
  [xb3; xd4; xe1; xc3; x2f; x9a; x44; x0f; xc2; xe4; xb0; xf2; x0d; xd0; xe3; xce; x13; x94; xeb; x0d;
   xbf; xa6; xe6; xce; x32; x06; x96; xfa; xc3; x44; x3c; x38].

(* the public key in it *)
Definition box_test_key : bytes :=
  [xd5; x26; x9d; x60; xf1; x4a; xd6; x17; x52; x02; xbe; x15; x10; x7f; x33; xd5; x13; x74; x53; xc4;
   x48; x25; x9e; x6e; x51; xa8; x5f; x6c; xa8; x24; x01; x76].

(* the secret scalar of the seed *)
Definition chain_box_a : list (Z * (Z * Z)) * list (Z * Z) * list (Z * (Z * Z)) :=
  ([
    (-3, (10999311154203159054661947908957166137588794052687616333487470224165654961553, 8324843778533443976490377120369201138301417226297555316741202210403726505172));
    (2, (47874457063064269737530626353073742747986109427981290471460318767617673250658, 20911093192884588539560946260491236179786371075569173971565589180421008890906));
    (4, (25100151086607878695146712797250957592542058597603452868702374339662989122329, 46427092755396758847941388269762915829817250744685383818155952552743771619080));
    (1, (24873613582710581990035729860105602214048295119695577600863714028950685607572, 46258287134789419070165184280920197978078862997258458688256205239715635714067));
    (-2, (25110954538256379193608408258990348493555749414267715929523290417999978943056, 25779327409929182705859231210233875269083374749007319191833831021941927356396));
    (-7, (35531019142165800137028786517504723295985382886474943446829480775147009726766, 8884299685573847519115635599928507447624208843253365873463611394675225670119));
    (-7, (50549818143271862608711292106298302329465187777921637237820851779638560729774, 32112290503876428019009106042997203320243790183397826324294858144020053863050));
    (-3, (10549163658618960583433194297603445298676915116333070245192980761115889868823, 15765909853857449448753255376319583636509390556718099096975912084942179522740));
    (2, (49378004523775533468353897393808075707566528716642174885253959858578187417197, 39255705913647369358677544450422236601047594578987100041601343816765256326097));
    (4, (43322579351218084423252006259952432646737126211563213372386094032619521726098, 28780400592482464733630134011779224135650167826341917788385715074830197174104));
    (-8, (55308193098727871347686623407186968125173626612634456467799567143816889536456, 50416825626505715148516129948169262423126988573175599130744599103901684192766));
    (1, (10895893671040573652512447671888842893056650127176607624407644589171348768175, 55469524675574128420728954495312683177487709618877454764380358085941334081455));
    (-8, (4336230467921194322445460488778766576997714037805397558092639549664861833034, 54026746557310594553034744514597720196234361090413252554680028012980832668307));
    (1, (627099125327001419994999557505824917491961643254306453421469068382684454709, 7398029718122647632402923095169228066234810145476297432517324014034637254104));
    (-1, (53102472026727293541746372981938711809153745017747245814270109786287608818998, 51263111819273144718990033174421758688244062406271801328444387096285543156862));
    (7, (31148856486418844667978219104029173352640881690760466602671002262014560339181, 47513967845685175618209351445129474877942360234308347118219168240463255333828));
    (-1, (23503519731663332003802453545681195969365145658151656098715405891866770996592, 42121584287282091643675422972947534349796081636896797462679236524746999943717));
    (-3, (3169274839411938255836111156611178413485820911643687878364572087831788451775, 20675853105126815198750093406521547652732726756052118308761464426656044278591));
    (5, (14621179318466230841385603854120584401299485440466913149375971249749856086020, 54610518146359496716093927115531009426644264908796223114857900310163653576287));
    (-5, (32219748871021826967233601712335189024831036948027600595746011457887429643727, 34676875992415471946606528126637442316002375988436705001542456448743542489063));
    (4, (36306870097565042809048020440315718791205255087559944663373341232379373966946, 280412365814668663905711515930494774860832963633620184757641216903858985418));
    (-3, (31991050562996841688892143148668684689944454353347380072482979555861395396901, 49191728964822062738547351965672995972923854732352895311011483279938151885866));
    (-8, (44903743557571808227070736783368463436632805483753547385804734761197584174160, 19210825343276013211879015996973767652092316426473240526025054362608502423898));
    (4, (45705468002708834820718805653954255797856923523085632242044506167748120672780, 34041721503748242160189365790022200778631390308225160138316950620253008967528));
    (1, (49968543496067126881243952935354244111804409155668282317067357472777946064023, 38158299631928447497234691967395640033634424285014097058071662960592220805713));
    (-2, (4645949642843668204684658750870525546702746737019228057257682974809989759786, 28771904715930780584240872739186252675691501760458939332323666791462399036027));
    (-3, (41512523681646414970780056895379083472582420688450936316530009012526219638769, 7574980476648081677970849985638638323572662564831811569523527025027799041828));
    (-1, (7720812483833359862093262205264655621540069193274539787362204943508671885408, 19618101915121424956372675065838331601909425690468284691504691677256918465049));
    (5, (49085727080687265358101910814634003988367053053651079488586352018948565428502, 6778011430472693470746574070589659076200113862806741820729984691684035766201));
    (-1, (10408695600934928826327282286559467043301953512726445212403374174602541875274, 35128495234432057757207165112940907496690835074084056882675248975959665781627));
    (-3, (49510173456370500236740318718739800395246262220494685892091086941488548208629, 12942969285656597248398630349114720893570676924709263946679466137375365198992));
    (7, (27996694744085775162955114204607536100589822465861114894277738844936184461675, 6194604067730794452819962547860828434762118558620192333318724953131860894523))],
   [
    (10257468614902353035847296684743244753354299324514373637386131621252784183352, 40493604868121285682211077731373863075866884493432896274520657259521051230136);
    (15239322335150703839517375431173725502596541173928230742563324749145094815321, 43684319726438506893055582089504059619581833399314248675892411869679590208686);
    (50073703250571024307302392480720371447783749999899220122435478754194362033252, 21188788072281789047077763391002826276820015626400413223683210122962280736170);
    (41363187510092935796739811840385327821659789215421036576614239005159678963138, 10050929301169908519315253884392734972448445931148009989786718268319833527291)],
   [
    (-8, (34205490556551692678722264788947122148919075187319547394278405125073580300227, 9978503732934450527081930057036572242349686063565398989777513589461756408684));
    (5, (12047406915005567886069341255482355856919769693646662856549568479864001492683, 42342307448370466408820104355858396286661356161517471363579869556551324850583));
    (4, (20006425036060167034847513351552558073907208435870543410970265516388108142299, 56164828570574096750773600506202245848114147144516442232221495590505235145690));
    (-8, (39232758899514931135753266087121462944680593405616759676259322779866122579300, 46283886308793745633283816040179715445005608056560560968627352226974993000681));
    (1, (48680571583553400401009020002052707394897347314970903781610637473530903646241, 30292781964109921923625840025584211352302311036281012265579748290357508954349));
    (-7, (21789669573495822982925311824395887777446996324544064189912300522275632285803, 27039948356242754237563342429570249579811494776910484810778156727345125218813));
    (6, (34297162874294312223700270411982033846448198487900755848709481711428825800186, 28748064129540777122077009493627868185844132870632604773664004449386685604792));
    (4, (11507036606615685852087225267234821957518763485407963593033485016503438208281, 24442196591981893646036322152565722417992905490440589716006623857490845688526));
    (-3, (19616904441945985916834480380303692855939167822591994891338867467901550049162, 44271730663391967650040321736220032739341594989470065540903132068757604500764));
    (4, (23289721446182802073810444610088524707669253894821626110112714760448929122732, 25027011414366981124183971269847664050473793753379495267663096143388786799621));
    (5, (42297614898134258179118221637365781438517193295362742282150440783760462621063, 25126100757699277314728803467414630851268407328776696929764762839674667308467));
    (-5, (42886130829372491291445278113006222700798251482363018875045415548257348001870, 1113603371875135038355232943392650826293398337936788266579769250223305118521));
    (-7, (12000365719186450598077470835580904171096975660181220151433304714754178766597, 14057473721073540669310379187443385255611262075959740361363783872282703056581));
    (-4, (3843507312817599018615565517910275907299938968386874757870029871625991755802, 26879244632502966729964887399948859375947348556900071701735520927431454950813));
    (-2, (13268921419739453412006725029672913286955482989071494265697036533711360158963, 16018509059690491284444877388768988292889897211295463404229167570412182332490));
    (-5, (43034009920888949055537053263646122825262569422789277862294746246350273489644, 32536508667194625737152696159890028971479811730177727818038318628652405442661));
    (4, (10613175797528777147077086193721293164206107743204247123080536158963804856720, 43320056563882106276123930650560040229753504916812848271999518006226133887796));
    (3, (51700921104140292697573096819662732317771424304728838591229299283711744389001, 51177592660178141449120334395078736282861033004237324999127236869548636716421));
    (-3, (4704738354075584361225295426113972638320652723554941556378729265528344414873, 22858674403474996407959648883447966847798920383201598055574622250969180016644));
    (2, (39056971842341061819213063729173774489134249789746064081685615239468485161245, 5322203744413034631552867733019582374259317129368091460749515985065729333899));
    (-3, (19560702115767829446167193003272794208356308158170455051986694067539005631645, 6713758170483366187348100816746201980385203487571105492235571029556872393602));
    (-6, (26410766674235475786896146745585470814997698971788712860023903299228343432789, 27767115230821187674593006258784542906365062366906293020384878952083742473453));
    (-4, (11645482732668703476991066273945845965793810766583866219608653948196090890564, 40784355869465480578587662371839803625643273380632835442132545157908818393105));
    (-4, (46895833524242474021083655929789706424408583062819603853466920618957258128718, 16209712146532600769755779471555370990313641054402671213281384201306079914501));
    (-2, (17882391580886684418079505634986794654443362704085565731940720744787134321563, 778599746422380696568591645539964137461700440504144435251996505521363458457));
    (-5, (18070177652213678450435751400632168135481211393053543100460896301080400656015, 4079966356060595465093003704083775228190772920314977378825476958593010439201));
    (0, (18070177652213678450435751400632168135481211393053543100460896301080400656015, 4079966356060595465093003704083775228190772920314977378825476958593010439201));
    (-7, (17836703742618196042424694616868090573405865797280648950170527194116584303085, 22516448866600966783951086234848192403757132401188437216752913684249807192143));
    (-1, (25289699051826263121658226875535068932978931762952693388612349955377291532632, 35480607920677406662481802889769481803791167196147957145653246036630655747897));
    (3, (56986963513569175766885056300709398425305277626499954129188758491174079570157, 51395280111708703829652309509278251329192751711848989173640665794925706335367));
    (4, (7428922699799420456335492593360693725865209154799140369060318240451846955442, 50511993263950650684196693574247203934375092933686603577231156442104063098412));
    (2, (48553865049621288160137085312421073574210430266718329720704665165025684022554, 53374935983442815464175237733858627459130610183936001843692459645575402170069))]).

(* RFC 7748, 6.1: the private keys of Alice and Bob, the public key of Alice, the shared secret *)
Definition nacl_alice : bytes :=
  [x77; x07; x6d; x0a; x73; x18; xa5; x7d; x3c; x16; xc1; x72; x51; xb2; x66; x45; xdf; x4c; x2f; x87;
   xeb; xc0; x99; x2a; xb1; x77; xfb; xa5; x1d; xb9; x2c; x2a].

Definition nacl_bob : bytes :=
  [x5d; xab; x08; x7e; x62; x4a; x8a; x4b; x79; xe1; x7f; x8b; x83; x80; x0e; xe6; x6f; x3b; xb1; x29;
   x26; x18; xb6; xfd; x1c; x2f; x8b; x27; xff; x88; xe0; xeb].

Definition nacl_alice_public : bytes :=
  [x85; x20; xf0; x09; x89; x30; xa7; x54; x74; x8b; x7d; xdc; xb4; x3e; xf7; x5a; x0d; xbf; x3a; x0d;
   x26; x38; x1a; xf4; xeb; xa4; xa9; x8e; xaa; x9b; x4e; x6a].

Definition nacl_shared : bytes :=
  [x4a; x5d; x9d; x5b; xa4; xce; x2d; xe1; x72; x8e; x3b; xf4; x80; x35; x0f; x25; xe0; x7e; x21; xc9;
   x47; xd1; x9e; x33; x76; xf0; x9b; x3c; x1e; x16; x17; x42].

(* NaCl's test of crypto_box with these keys: the precomputed key, nonce, message, box *)
Definition nacl_firstkey : bytes :=
  [x1b; x27; x55; x64; x73; xe9; x85; xd4; x62; xcd; x51; x19; x7a; x9a; x46; xc7; x60; x09; x54; x9e;
   xac; x64; x74; xf2; x06; xc4; xee; x08; x44; xf6; x83; x89].

Definition nacl_nonce : bytes :=
  [x69; x69; x6e; xe9; x55; xb6; x2b; x73; xcd; x62; xbd; xa8; x75; xfc; x73; xd6; x82; x19; xe0; x03;
   x6b; x7a; x0b; x37].

Definition nacl_message : bytes :=
  [xbe; x07; x5f; xc5; x3c; x81; xf2; xd5; xcf; x14; x13; x16; xeb; xeb; x0c; x7b; x52; x28; xc5; x2a;
   x4c; x62; xcb; xd4; x4b; x66; x84; x9b; x64; x24; x4f; xfc; xe5; xec; xba; xaf; x33; xbd; x75; x1a;
   x1a; xc7; x28; xd4; x5e; x6c; x61; x29; x6c; xdc; x3c; x01; x23; x35; x61; xf4; x1d; xb6; x6c; xce;
   x31; x4a; xdb; x31; x0e; x3b; xe8; x25; x0c; x46; xf0; x6d; xce; xea; x3a; x7f; xa1; x34; x80; x57;
   xe2; xf6; x55; x6a; xd6; xb1; x31; x8a; x02; x4a; x83; x8f; x21; xaf; x1f; xde; x04; x89; x77; xeb;
   x48; xf5; x9f; xfd; x49; x24; xca; x1c; x60; x90; x2e; x52; xf0; xa0; x89; xbc; x76; x89; x70; x40;
   xe0; x82; xf9; x37; x76; x38; x48; x64; x5e; x07; x05].

Definition nacl_box : bytes :=
  [xf3; xff; xc7; x70; x3f; x94; x00; xe5; x2a; x7d; xfb; x4b; x3d; x33; x05; xd9; x8e; x99; x3b; x9f;
   x48; x68; x12; x73; xc2; x96; x50; xba; x32; xfc; x76; xce; x48; x33; x2e; xa7; x16; x4d; x96; xa4;
   x47; x6f; xb8; xc5; x31; xa1; x18; x6a; xc0; xdf; xc1; x7c; x98; xdc; xe8; x7b; x4d; xa7; xf0; x11;
   xec; x48; xc9; x72; x71; xd2; xc2; x0f; x9b; x92; x8f; xe2; x27; x0d; x6f; xb8; x63; xd5; x17; x38;
   xb4; x8e; xee; xe3; x14; xa7; xcc; x8a; xb9; x32; x16; x45; x48; xe5; x26; xae; x90; x22; x43; x68;
   x51; x7a; xcf; xea; xbd; x6b; xb3; x73; x2b; xc0; xe9; xda; x99; x83; x2b; x61; xca; x01; xb6; xde;
   x56; x24; x4a; x9e; x88; xd5; xf9; xb3; x79; x73; xf6; x22; xa4; x3d; x14; xa6; x59; x9b; x1f; x65;
   x4c; xb4; x5a; x74; xe3; x55; xa5].

(* Alice's scalar *)
Definition chain_alice : list (Z * (Z * Z)) * list (Z * Z) * list (Z * (Z * Z)) :=
  ([
    (7, (9199134265559022971505535402808359556995554859516252602543778295037484220679, 22512087849695599276028560866629687720820254811233262850576678203618951717560));
    (0, (9199134265559022971505535402808359556995554859516252602543778295037484220679, 22512087849695599276028560866629687720820254811233262850576678203618951717560));
    (7, (38432352479422177831723825768632081195279489459340033750786458421933285612199, 37682321445656324335235230534396582056353069602856893830131755347769665639096));
    (1, (50868077306394018466006910454100963190746655065561936428615061052907637179698, 50756772184742260304595044053474879002656730616908782214849690066116644481904));
    (7, (31544916476360053408788019342031426929263876290418458125504136609355510716262, 45133991845379545171165502019348269618209186886692801621427682198092574299882));
    (2, (46072738527193600150989969428148155305329101191291002828623882875724353223438, 4333124279264003060963230257064596343590494327185442992226019214494250382597));
    (-6, (52058641165188127882602912952309453257631138505617305941481767782447867158801, 35630303194075790685855936323438188315675343726477167407060518930902252083296));
    (-8, (6423926620323904130663604398262495171100766799154498259155471307435650078130, 5382027315530226491966941309389766490826243055544304414213272590749127633061));
    (4, (29429092822699094724551154230334045843129229245536029422396620722580457475643, 30372541983466267033515590059347548568819760249790841559223481702948893302830));
    (1, (13487127065351672648651821160316466983398503662782901593910591575570996385081, 53322655763611830470734998279398350880724273313325130520012644917067161972161));
    (-4, (15503979388288350409394119014316800329161197193958553321355427404781022724569, 33002252872984199711383008206195868135176390697715984423822329146341681887107));
    (7, (1376583823269185677382481153534107043091809828199955122598764032237708128314, 26118211058366196817113003216347221331331797428558632371289122594747465375260));
    (5, (5214055099173042841314859344381787895669697865041432650744701458200886753150, 44157109757291456970427222908349261343211581264959882438573579906637418047821));
    (-5, (41168611194562841316524906106030956473555774477100893546858363208956926404655, 3941528722601757009387513769045388772598286366582946084080320674965479530609));
    (6, (54702077496505975657443195156918008063361838287552293027272442076754651945404, 52243794528884330458967497964714980814237713181189362396192401820107462154727));
    (4, (38473949547821923329248079719319029424724096683661684208251375906833659247132, 41570685927555806776867929829004180173252309086110314832092040013173748529761));
    (-2, (37909155338653653918399772450051847515672002444584039511726687446030882213547, 48245745575619114998925800938112507108598626193394838666507825247058954118564));
    (5, (42547839674544249360655273225398169100226889195790148598978547207695871218686, 27918509633091653188912520466696865156526516066016663947501791753682376196925));
    (3, (20790747488673250609857208046999829019393304059604385892841790922396696844489, 54355982620616985458301230945796013120987622936878936411613092198967804535089));
    (-8, (14780347579905034593060741498357132068832195995471742636783670030442665928403, 57568093975936451853329636020520773974019741972030935837269680330330540355408));
    (-1, (27297816956681230454984594833062834918180061115053329298055302114293912458987, 35423837651064843146060944752077943670115149948095714506894538392839715878132));
    (-4, (3580863140032486282408641717566801657584223473959770806916363526993353006978, 38400110046884389487844585690304639255008901221125657046896804295065586386297));
    (-6, (28941899170613811708539117463014836091957966799375649757752384976389587023753, 2775165286260163637801183333689684917078174137568505267331078859066176049152));
    (3, (53211660996142580965189579045174794662967794296229154822557256507690054458922, 14544061921740002983910774715761223986745458429432557999536241228642015910752));
    (-5, (28307338087984779825576727183296392474831918357741329720788281271665785897609, 39795564444483044253810618699697621700657026469543708291536282107405934380738));
    (-8, (5337863631500541090750505615035662000325060200536476678408329596994045947797, 31845325458250136872384385777934836868399461305096049533197148415782840297101));
    (0, (5337863631500541090750505615035662000325060200536476678408329596994045947797, 31845325458250136872384385777934836868399461305096049533197148415782840297101));
    (-6, (32729291323396737468072833390740959463395504128165238411913427444016760119854, 25766025889746063771770593091144696984558915902119972792658217227433768318480));
    (2, (41423690287407278620726411162304842913150766165917861296055622755084938709562, 44813839885927613360687897806001166447882756545535237966480714821765534340861));
    (-4, (33439281326545452785421742453269751859575551248966744472523240015626671946787, 25727911537664362431080538226276933502319680626350904929191199767790506461353));
    (3, (43974549842231398124938246076178979555795119942237293221318672703449246106777, 40884217476451462024426665931144072152333572190638641136436309850326531022283));
    (7, (49951879078108017447258817586043144946424643948683947207824166736211084643670, 39288549034419516168390046355536054474970700886388466820523971372733172547471))],
   [
    (22995776598457135049773334140366320762984947398522936995340931830188527885242, 14502167962074313558122461552307432426843134187449849678901434666584705101004);
    (27316682039311852903517385297420784598502973873706891133417339490942146104275, 15728665431535804535439238419883396130726032576866917006493278161961799946114);
    (11048860190422843207119370031056191414090008784167194683589701323207317759981, 37549939667804884250094817689717930356507463422894021443676354222997627121790);
    (33529059307266928546826147415372998776588438814634716793103056750946850071903, 54188610657668404519899920264124712072576397971564408188054565149194488197679)],
   [
    (0, (33529059307266928546826147415372998776588438814634716793103056750946850071903, 54188610657668404519899920264124712072576397971564408188054565149194488197679));
    (7, (37663232473518332995640151642633354243623867191539740231715170243315970536628, 18533803667595632507234698863926514217338695918461982210162991034220848572194));
    (-3, (51347477655318312226874479320471934815108796909919691504965108715499721029667, 52816496903943163800183046060309828284171863639193898280835168980760638139417));
    (-6, (28494346623141353219438628994504047497719605882761271336128886298001753139806, 12648283775289196449316645191071851600678278921953420980809098527724255083582));
    (3, (35908943699726648671264238185524233715700128780074504035709652659348540204551, 24782211896526224346002251350193091154129284882673428512350392522068180478247));
    (-8, (47258584108576795286336151259203181597797390720456255807704038420902036584782, 41157281289322493947845770474769452354034722746735269600209755649114428445262));
    (5, (47737271439979022113344229088142180145977170472477659814585485020225877680274, 1743173659860738430256592835755154841170520657717070388985218809593009220838));
    (-2, (44380671884801244084637521045179595649709500194131844052177677410070364794336, 46247086481613737134835907453210171079356540432632028580372448532263356264052));
    (-3, (33398405626189151263848447629441963136107812606507158375678173425800235143393, 18540742045423791536255110435675538125996539847209864192899476521405915746817));
    (6, (15194359164681914307473045471163118221864357356536080372642360314325865986822, 7267804680712361156819263092571124392255951623415225994585794088237554062356));
    (1, (38428627929315740657189616102810833155418230106052208614858523755516137775025, 43798910769164729793289055319431962056838671169174820091187652093684359751056));
    (3, (19545331168728529210732251185232915171553050089322421170262216445850157157839, 1217488440938929221503000025630433380298249098430359375527108462025084264993));
    (1, (10537635924219651316735405067906886807707123942968645776733362853624855338778, 46248663354478122009838859495668892689955444527992993530156867184091174279160));
    (2, (44193540450818661184781941308290431311690646856101766477460712793406383429356, 2982586824460992489054101448655051893692831699179566544834386152824761172837));
    (7, (48060802661374254661135300050847812606555206810441649143099492704423961195123, 49500413573869868187639914038750782986081244761183126836692023740550058729641));
    (5, (31010862521735490890619190755233498514016121528019582157986509847858511768922, 49501133124109782694389829959126837745124449843636276274470160212014012540946));
    (-1, (55501715780567741513425599092482990550102923002728525585485593194282532850086, 18498646553692910132092964796992501991156450533859070547741050295224601132379));
    (-3, (13622587786409342289076210164968422890847993917931642499145446803968162346704, 19178079801121679672488478488551496682477131949156074616417261591375297590038));
    (-1, (12677274890221800604979065211180239475915485776616921730657055987216791108203, 10887879303088423515732645406484690425062556346077427550417860009951837073508));
    (7, (54114025698056279433851043827537219459164679719119737231560631368345402208230, 2142083346778103481745648786144429997471632641120530127077881619625973897630));
    (-4, (38191871952891715517766803346014797371033869818483986072314458776077276888368, 43223632117576410470487458234060668114396939821694732323540498798283288842709));
    (1, (32351678210138160731202118070599820489836265685121643725196426087907958647890, 15776414856516480079130307257703697660477590981057872121703704502636751169803));
    (-6, (49426634866695590518662876454781074758264616309549046766608145725929758244195, 4899781697914074157606465988551977673708834420786650702656964680013680089108));
    (-5, (7022975212725120149165196495514626568610557613636396749393123957240226747933, 36410717892910515809107455987414660068203430282268136651568941329103758383424));
    (1, (21742651896266948353647245224508618691586918098995076416081397101960363806235, 27465387240394458935643678138339082771189755977911558272686128032683716190271));
    (-8, (35185398977493926279698106439820962565730479682510772626164957116365054430822, 47663951267309803135142443920184630790575043671211909247452366119565668374451));
    (-4, (16800041754120346678622829579213611456870380938906102436630023431324350671838, 39912455131572899740155370833252716419448667901823393612549860836796454217307));
    (6, (37362155659377150241423304472138457005655164287541918716498592203310575548662, 40604573512200757773964718674291578192468461443672883805938234012608855031196));
    (-2, (14199295136177004881109059621547002549369038049801136782584477414953234002344, 12656334791552256085332267455057673150235147503784139264782567149725947205480));
    (-7, (54527180360577129788719494381520532201954638179099107671148675203342283498151, 2341850973106272468983261755954747171627576336710917267739322343355351669068));
    (-3, (40168452493875622798071916764750690144472165282487399452652943257121024910585, 3391375199885747335624936628734434754243922371336498330785527013966317769974));
    (-6, (53606102305911992655341757774429330023062372763760836795871882281979796120515, 35974507192345031256775357979590365605008156882278534825071141773552404013185))]).

(* the product of both scalars, reduced *)
Definition chain_shared : list (Z * (Z * Z)) * list (Z * Z) * list (Z * (Z * Z)) :=
  ([
    (5, (33467004535436536005251147249499675200073690106659565782908757308821616914995, 43097193783671926753355113395909008640284023746042808659097434958891230611693));
    (-4, (11098009880196372659160261851310708541995315514576673237663746463740023409686, 19948058114812833783697791020682068096684751711602567789472928823305190929177));
    (5, (30643708467923989443125205935436872571389494182834113618130991863798942672770, 45957542921391978250134355094587731711662275981938365977482305119600992517058));
    (1, (23771141852905263557926292115793754933980378841897119231057164450165039805451, 15562334156267742815085144479808424652532919446470240135751998093416135619624));
    (4, (37136090535945951598863828139462629664029660531371415182161996651593524364187, 33013709255362043405859576924275611910488362682448954908755554977622990644888));
    (5, (53187222029173589262410876142050224918312409728753953693995540267415426083936, 33981961988200903110509836987454953519731748188048875478643971426185125757859));
    (7, (24098643193881493271148344460831743579825954567954803611257676694080978225987, 55505197259331229151379138239231668281954873225867899716419646378163984563420));
    (4, (27740544505970318341092867461535947784274037689664735454999394531990176364958, 25760571761276181809140200442229722085125904010049133515943987741886117888855));
    (-7, (7060902883138926539501815130617544808249126099950704370366701509045331429805, 22338822998996418747393270480445779034785507974220774370158869094394333713162));
    (-3, (55889475502982663812910125690027781585697855685349729809709548205685416729067, 38898046468066835382947003697547986030071194428249977360500625461445791118022));
    (5, (19770087075831884314507963078713534496162711421143255750844040211226457725523, 417270901054453081090425207248711042294490972253165969584696347582135533256));
    (-1, (19208929681553595389666821086872700170112057528394607165481680697107100199606, 1275585226817282030818396583148763865706567266208422460963280755753670987296));
    (-4, (9700100477970034378428887317994089528477774584981600772858674375906458693601, 18836265086910986788396159564058118202995981418255363105040039524473918768556));
    (-3, (34182778732867451165761723111901097432123312336090110857625931275381258288657, 10175953261055747054508414113116936585457083855677894824161852980812321911996));
    (-3, (47458255650527314096731605788207751009753278590611095061513420371483178065829, 15819275625139430151756712710682978797430241619860724406733061068955822992913));
    (6, (12531023627481626461275134443275076367279451981589632196901482479356408362236, 39746998750713010531695037468925698968423974734676585069681538748397304288750));
    (-4, (49575003557608115354179816470907115954860334976313457642145171278568197491529, 14046092147524496842431362760593664624992477481234028675061279013063625130357));
    (-8, (38649140304249482173724609402786575428636505972722138286999217037276467732560, 1093823870605684848504993673797705145746872897753953339538520543092395470299));
    (4, (27929761937412102076527608245853731056862473582583008062555405667920419850448, 14553385577163998229298930133995520303231706234039522109283509287029357879233));
    (5, (15171759030279270153773616559415871207954110651467649757808845811122454546680, 22053448683314860458724308272422798617733615668588383426343076560902594698342));
    (0, (15171759030279270153773616559415871207954110651467649757808845811122454546680, 22053448683314860458724308272422798617733615668588383426343076560902594698342));
    (-1, (4716996064246305291795726742817779137392651461573639234158622471970881677495, 46882922098676606573059846106043086211254450110253889291044242543841478136525));
    (-5, (55110983641894174383812925243087095092047647402546475109664967758756817777387, 19268872037045943686029250503018605063346924266697124985343510835229911896723));
    (4, (41375277598813822120337493253790309687979051367633705760358414524916242303107, 1130739368476279589225970763617254098278513609007244855337611031605341371888));
    (-6, (39451137775632756473185391995594590505340385036867404308214463011800351795565, 23401112908167351417576205653480009939888610268996450903633713490764790269976));
    (4, (50990258485613186660026861940031727797933731279884308402622364260588695210069, 39732951346592709161255875613999426273840155643670063011131304558683763680730));
    (-7, (6881869829360841021674620808013187478587500188672995927276864489843112076938, 51663955670921593135579369359848389934646659094340084306264684736664202558570));
    (4, (25957353976590826073210118125036340159874215976835771965151378753582098998222, 19297754292119478951888405323684793340156926223776052043078885762605110474712));
    (6, (40109020380030004392134349968451811202953827460595422321475621281482932376356, 34177020491544274244921715005960350917507448914667863197779789922096993547907));
    (-4, (38197382535174105722596603590750513111922361384300669886608191779875899112890, 27243913763377822833616438657293824660949231935691095914660360896938348808994));
    (3, (52645615714932300411888472986998500495327042179167708012180198431751709614947, 4812304583990363820857212309409865720154953720982852049922932232735724018489));
    (1, (27567260853721507678069036171789278333682668766821033805598446104399327631950, 38525391607466090497602779888329489473987467017826099166139251327004305051520))],
   [
    (46842942564628832132990498393914019475786671232663741567327302697187458803795, 1838792787516665384490931083125490203926866514005828011492198117127223406784);
    (52137191389322052278195376956076902547576130921204341140740782850884807476665, 39804372087725422144309966037941029271512839229631526392482282483784568899944);
    (13467357171122884565589260444361557716654943441228700718312753842376865967743, 5457324050896234433019188127360912506011816042415174095574557104813598627516);
    (930908358553715588259426685479361680794821464928877222640367687996822433437, 23372523906849364277865950812621529528236281441225015477679650334714215803815)],
   [
    (0, (930908358553715588259426685479361680794821464928877222640367687996822433437, 23372523906849364277865950812621529528236281441225015477679650334714215803815));
    (2, (37672922357799371037046929474280998965181162360235936753232712659475631512612, 39439974664578816511858673358973255530933518413969501142514729694498557405950));
    (1, (25915491214757327734570811279708993895699473126073030517810700398629046022748, 50029902363090508677060927793841928098957665709441227811622036809733975910835));
    (5, (13708293552838006897747695465469569723504401031694503909102641821756109565083, 45158242999635547521606556335988483203710007604278113889003110428492826545561));
    (-3, (47755330861802090325499651281894852283757670667373320634299356992809245302888, 5029792833663043586427850709219220487788780377082547839906284475397375247073));
    (-5, (21912923156094438691898232199117735702539166646338839594349260603021202188432, 49586466196934386728174869071374714417606371353780909000843493941661274387637));
    (-7, (19796359826771587408388483067265786417648736633701927316430190442912308693225, 7888205891288350272562944983346042613448521684395604609870100051958186242517));
    (-1, (32041061182519105384752023383824839257822303079543902720943082726316939686967, 49272093988660380053336947305422169148207364725720061031386643521300897380638));
    (3, (47054154614325258927601788613390425831534211126943285509292067216781759503564, 36456136245951206510164518725266556012592448080391141187261155009695470458813));
    (-8, (10841314307557247295491609242927556556147681608430907143227636948638664529286, 17263151712614286032699772289646868051529695291858586839589910550777212283341));
    (-3, (36952396972790447787648541349770082783246066476004944326753585393880165665714, 38285471140934267176254301704162478108460188492807057196820142013555179048369));
    (7, (4568794960144703405229528636210580736292042910172561635155568551898273179759, 56230279458341092555470811207369624115645152540572354007651235921794383447592));
    (4, (49659808570036874284799589026455057695936124741658556774901822333612836935346, 2962657005753325808096534771510980613333679993739407989664876895319946954896));
    (-4, (13925391646107163379975465795423861177562360911786815515897344842639862212811, 42745246698329123191420225098245650176717679084563365607017202821664130667619));
    (-4, (55203538886199686000924669920910478990342858877009094730569722816610503385923, 19788412743771129936168340206056969642880112029282843818174599370588970988333));
    (-1, (42441621225150041625762354427495027785353696756054285116311140917430064891947, 6840376840090779057534039731920484245677077279069567165285172543017727042629));
    (-4, (1742379349453581306386350284555463078071910173893458737684659291371456324671, 52772805694803304785292498910528443254140414124019789534773619990838664756027));
    (-8, (54908415098320855966969246257359656384359246748743415123899554650136853704829, 40594319516243021652131178383720563628178997127186256192676222891484429378238));
    (3, (33355775748344648604834389950256023824523059031433132471104454071956926570287, 33761331601045877240825725632607749763096577425361383944529521434036073631366));
    (-6, (46636006722265405570877852507128250200648403703483293669417876384921659565485, 6988350293035520289865403042111782317363746655021315386446498878897942378410));
    (3, (28813042238889917967562080373591285209762636596419018245938923851980726571588, 38173668122892980564154138475086426212951295963778813354382132445191686156329));
    (4, (14056055688953479528943491110509345955931091470000217010628016961059542242740, 55504286985035098384733627606368200515721735062604762370262934555194551475258));
    (6, (19097233478457850297490016300894747642656378105056811764007477527117868997401, 39341330653859793344310306610290200003281373200402947205646698665672535586309));
    (0, (19097233478457850297490016300894747642656378105056811764007477527117868997401, 39341330653859793344310306610290200003281373200402947205646698665672535586309));
    (-3, (40201283870515267981066769063628753695983365890063144007610485895590678685937, 48559677429768172030901437998404740062898178979852577472554059432262145666591));
    (1, (20207698503563696216455223778686734723930881424925004995058011819942620682646, 136903511037891651334306868896881049605191090155032605643142057463734254992));
    (4, (49879184190830840195856452413090139293060830056587839811171704983851387978425, 23007105335712323181479641436060298847712160179111275387897317787890792039985));
    (-1, (26807224774307635901972781191280035174464423328363240998839255242489479607209, 927729073465547607989468332660959075395915822737099695751216367647614822690));
    (6, (7139668229594564167803876651583416863197403599992901742951452027967142943949, 40247399576324336418565726530002516283909117821366072714865183180008487503076));
    (0, (7139668229594564167803876651583416863197403599992901742951452027967142943949, 40247399576324336418565726530002516283909117821366072714865183180008487503076));
    (-1, (39563663053842671061889616783996655437602072510375417811381673370553071732025, 8058923641853856886070957422493538232597257867104382637159130290587068407307));
    (-3, (28680580050033986277735169717797182444785770643271198946636917058047577856681, 6783204426220621030503455743630566408836833062066740880917281635925103970441))]).
