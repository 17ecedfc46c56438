(** CURVE_ORDER times any point of secp256k1 is the point at infinity.  For the generator this is computed by
    doubling and adding; each step comes with the slope of its line, so that no inverse need be found. *)
From Coq Require Import Znumtheory Eqdep_dec Bool Field_theory.
From Verif.Model Require Import Py Curve ModInverse Secp256k1.
From Verif.Spec Require Import CurveSpec.
From Verif.Proofs Require Import PyFacts Primality CurveFacts FieldPrime EllipticCurve SecpField GroupOrder SecpGroup.

Inductive step := Double (l : Z) | Plus (l : Z) | Minus (l : Z).
Definition slope_is (l n d : Z) : bool := in_field l && negb (d =? 0) && (field_mul l d =? n).
Definition triple (a : Z) : Z := field_add (field_add a a) a.
Definition join (l x y u v : Z) : option (Z * Z) := if negb (x =? u) && slope_is l (field_sub v y) (field_sub u x) then Some (raw_chord l x y u) else None.
Definition run (s : step) (p : Z * Z) : option (Z * Z) :=
  let '(x, y) := p in
  match s with
  | Double l => if slope_is l (triple (field_mul x x)) (field_add y y) then Some (raw_chord l x y x) else None
  | Plus l => join l x y GX GY
  | Minus l => join l x y GX (field_neg GY)
  end.
Definition count (s : step) (k : Z) : Z := match s with Double _ => 2 * k | Plus _ => k + 1 | Minus _ => k - 1 end.
Fixpoint runs (l : list step) (k : Z) (p : Z * Z) : option (Z * (Z * Z)) :=
  match l with
  | [] => Some (k, p)
  | s :: r => match run s p with Some q => runs r (count s k) q | None => None end
  end.
Definition chain : list step := [
  Double 0xcb35b28428101a303eb9d1235992ac63f58857c2f631ee6936d3aebbeddcd1b1;
  Double 0x6ad2cb95963c033328d4857d4f8711deff557dd9faaa673b400442833f0efb64;
  Double 0x9693023fb325cc6c7bc993eb684358ea623d5feea8ff351df662beabd0efdc6d;
  Double 0xbc380350880ab969e653d334691ca8c2da83b2acde59e7439ed92d96a9654a07;
  Double 0xb68c9cb56c4f0fd3279f2dec6acae3ffbacfb8384548d24892d676cd6beacbf5;
  Double 0x57aaae4151a198790e40eb37fe0dad5ed4d4581b1a82c40124b58ac767ed1ec4;
  Double 0x875978642d00b859133774fec1878f9e7623f6df9c734f7ed297e920a77b4406;
  Double 0xf0d3817330010db820c7710c8ee17a157984f4bfd3bafbd4a49079efd7754990;
  Double 0xed7816fe6ca3e42058b150c9eeac31ef8a6bda7ee9e51a0ec33e09f96afc74bc;
  Double 0x62f219d148d24eff34fe56735390098e29b6a2190daa3dc0fbd1d33b92531a49;
  Double 0xda8eabc70379e66ae8e505f49deb2e1b4906022def4c45ec320e33aed7091903;
  Double 0x6c49014b33417076abaadc7958f95908e93dd2886468bd7d27d61cef7c1fdfdd;
  Double 0xca43b3ab114e7c697fee873576d7b89f909e0592f9e805e00246c31200fb967b;
  Double 0x1b5d9cdfbd96d7eaf397653b120ed6cb0f4bd05bf004f79c2a9fd0bcdf4929bc;
  Double 0x06fedf4339b46436d0db4e1864076fe618c51a754e1c0ed5708b889c5733613e;
  Double 0xa377ffff0b36d0535197bead9992fee7698334fa5bfc270f64d511cc9ab7c03a;
  Double 0x0be610814de113647213fff8fc6378b31333e2bac4ac437ff9a702a6734563c9;
  Double 0x92ebb512788e5c3c7a3baf1feaf8281104d50976aef98bbac62a97be2d8b7a7b;
  Double 0x9b0f855eb9be64f095aa255167f0f0baf01b2cd3cc72ef8f1444747071666278;
  Double 0xc95c70effee378ee51d4695a7e30804db90a8fdfcca618c180cec3ec5c83b500;
  Double 0xec7e64a924b93bbe0b71cb15729ff63848d6104ae7d55a16ed4a41d45b8fe684;
  Double 0x4a97f998b50e69d9b7f9c654687b8490e7f4a168b22ee05f0491f67c5bcae6b4;
  Double 0xc0b764bf04ae63359beb2b4fc6f722f47da0482483379a58ca50aff8c2ea4869;
  Double 0xb9f84addcab19fb53a62e79564f6075b848477821df6d6c58668d8e9b2501575;
  Double 0xc985b179caa5bee0ef6acefc42c0dec227b196c5dbd0953cc43c5868392e7cd3;
  Double 0xa6d04e5b19577537db75701165cc1aa476cbdc92cb167d90af93b785d698742e;
  Double 0x4479d94c2f98166b4c1d24655334f9bab459cb5a6c074f1e9bb5b9ea97b6a18b;
  Double 0xbe5aafdeb2f0b1599d1b413e816d0ae93363953c3d97e4fd3afed1c367f9596d;
  Double 0xa6a6f72a0273aa6f7b6276e647117f1c0e9f5561a551c6238ec167ba7ac03635;
  Double 0x8dee3efccec9fbd528bcbdfc380d106f09ab41277d36c65ed6c4dc4784ea857a;
  Double 0xdb3e8ec5d990ec59421e6569d96dcdaecb7f725432c5a4ddb78439afbfe5554f;
  Double 0x0f18fad968cb987adc7d7c35fc6ad8974a3fcf82a55e9400e7bf3015e6b558a5;
  Double 0x82cd82212ae9dbf4101c8671a40de941c0bc39b23359c41063b171fe4cbf7c6a;
  Double 0xc5ab93dae7b4d1d3c5edfe8bc49fa6ba5566b166494b830b6cf082231fe99f39;
  Double 0xde12036f73e80356f7db91954e2ca46c56dcab93ec4efda7fa9e72b8b3a2b20a;
  Double 0xeaaf7c28dae8dfa52783d0b7ef5ebc91aa999f58db631588e00a05856dbef4cd;
  Double 0x27923dd35874b9d0c3e1b1930352c0c3b0d91412f38fa8c1341f5a73beb4f8b9;
  Double 0xd8880a7ae61955a53b91ef1d5de7f4b9646afd475edbbc8974911329e12fbdcd;
  Double 0x8676b3eae525414b100a173e847e521f75a5c46ae628b3858b1c1fbcbc59daf7;
  Double 0xf53ade417a0d913b3b9e411781e6e8de0ff1a6b169ca912fe5495f51c90530d8;
  Double 0x32f78aa8da44cbc85c1d785fb24f0e7f0da8ec5386523d436bb3a50d1e52fb8c;
  Double 0x2c5edb78f874848d89ceb49fa59a1ff38ba3a6605f567ca67bb74a6e78c097d7;
  Double 0xdebcd686b581f6645f94a93467d0ecdf9e4ad7edeedcfeed57d9d6364c78d427;
  Double 0x81751b61f3b4ad7169d8ac62378adc14043339e3a60078fa2bf394c804c26e20;
  Double 0xea6ec05c50822815af2653e43c1adabb3be24e602591c72373d731cc1a44a051;
  Double 0xe60635d4ed2d254e05003b55d58bd309cce50b703f8dbf6d4700a65d85559a25;
  Double 0x7471bc58c865f770a22bcb1e2465507731b3ad17d19c55c851a736531fefafae;
  Double 0xc84b8bb00e0f4407e49fe1be00895dca6d817c8ce64cfebb5d67625411bde644;
  Double 0xdfada4b2106cac4951ec538f3d828576d57426ebe0d870d5e091e5b044aa5639;
  Double 0x51ee9a34eead0ad899a54439d004a42a2f3fa11be3c4773c1dc6457062e3572b;
  Double 0x602c9992d00cc6030985312c38033bca60ce74f3a25777862a7288488389cdc1;
  Double 0x2caed624594a3483ad98859bef75a97ed7cc509bd906bb2b23fbf9fbe4e5004f;
  Double 0xff486a88ac95151d852a5270924d4ccf1fff7b676398e499d324893a4bbb576c;
  Double 0x8309b9cd7caf364f8a4726b848e574837a1498176583cd38a99bbf35c27c0e01;
  Double 0xc3a088da9a740fbef9a36dc94890489302dbf3a200c6aad18428714f41d62ef0;
  Double 0x9a1bb41d1a00d1b60cc94b47fe3b071dd38189836c875b949a5bb1b3744d5622;
  Double 0x738fd7bbbe9afd0e286fa67c1b3d9d1d4306cf1d91327714eb87d7e6678bcdb6;
  Double 0x245df8c5a6ad254b4c4c56c0d969cacd2ea321b08b1ed4d55515f34d582f7420;
  Double 0xb51b78655a4e5a25c8c18dd20190b5571b736e586729fe907b550841e1b6724f;
  Double 0x2e95bd430cb40948c3e3069bb698efdada1d87ac3d902f2d55129e9cbdb660d4;
  Double 0x61ff0b09e723c8829eb256b349701c992867da5babb9246b4e80f4a06a7739aa;
  Double 0x3172c36f49857e7e10d1b5927bf54091d80521d6b2eb92a8998b92cbb2234de1;
  Double 0xc3c8b71e8454afd4fe4ae23209d6947bbfdb44f29f3474cbf6e1de6bfd9974ad;
  Double 0xc781a37bd88a0baa945a25dcbec891a96eab33936f3ae33b924c4ebb9ccc91e1;
  Double 0x5e1c71fb55e898f6e64912dece2b8a3d031f1eaee2af6f37ebd48ca94c1a3624;
  Double 0x5adeba52ee6ac0e141ffb884efa7a7d9a940b9950373647c8aaef60dd14e763c;
  Double 0x0a478dd7bfcb0fe45115c6952feba38f9de0842736b164666c083b48c9ac6cb1;
  Double 0x104f2aa37e05be6add58d281a2334816593555f014ce643f702814ec1391f5a4;
  Double 0xad98ae499f8b968dacfaf69097db01061deecdd4b8b7fe434720aaf6131a6fc1;
  Double 0x0e3b8c91ddd9155986dea06e85caade56b09b179572444c1c2007fd77d04d6f0;
  Double 0x6d5074103e91fdcfa4597e9b5c32b822c19b5af92207eb477c72ec4f9dcccb6b;
  Double 0x0b0486abb58d31b2dc9704b8502170a38dc4139987db4802a1661a40d857824d;
  Double 0xe6d9fa3e6518d4e9723dea425cf89cf627c6b2258bb185785b0f3d91b04e6115;
  Double 0xd884b65bd5b8dfcbdda21a681b317b0bcbf4d101debc21a38ca7300520334d4c;
  Double 0x9d1540c9467d3bf99ee5b77f3c9121f1a88e1886ce5c64aa196b85cf6815554e;
  Double 0x00c48405b3038c03bd744a8ed8a5527cb83e8f1929b392d0a6967cbd721bae0b;
  Double 0xf9bd4b25fb8787ac97edb42b9bac8deb9ff7ef01b41f5d6575086f1012bf96ce;
  Double 0x95b144bd0405b76f012f298ce4bf1355bccb8671d21cdb26d904bbbeb3860cda;
  Double 0xcd97a7266946a362a966c2469bb3e45413110726a2c395c2bea221545461dbef;
  Double 0xe53ce2c798d39bef6ff55175192d6b703f4df8f610db8e47bda11627318a4605;
  Double 0x18b9cd189f45726e2c6dfdc2cce38866bc945ec92113621bfaa817ce723adf9e;
  Double 0xbcba2313f29e1d97551bf61072f2a6f583d17ef9378ac65a6a5a28639887beb1;
  Double 0xccb0c2d5a765fae0fa90950f0ed92a38ad56207a00bd4f3ea9da4b31dfc25815;
  Double 0xdfedec6f42f70b127c80c91fa38ee129550274bde0c96a7286b93a0f6c39dfc0;
  Double 0x24076fdb1fa11f74017e5c3696347308e32b3f0e740977d9c044061b43cc1ca4;
  Double 0x38894d85c2951105037a5d11369af6d039f62d660aef1e5b13689d8a8da7b17a;
  Double 0x43e3186271177bc3437dffd0f295e9a9b2a7a173698f8c15f747e07c7e8ff275;
  Double 0xb52c04d03ee5d1a4b1d4065d2e74ed960cb2de26a95aa21abbc0df208ef24801;
  Double 0xa25099814b5320e1032c789b522196ca8e997d9c4c7caf884c79019ad46985e4;
  Double 0x722376042ae0f9d2ab08571a325abc3a4436037b5b82183ef03f4c040825c566;
  Double 0xa108d01af8d3416aa2f0e358342876e2ba7343cd700f6c28a824e467637a1221;
  Double 0xaa93ae9daa82037fbb9b9ac8d39248dd36602f49c2588d2617debf0c252844b5;
  Double 0x1636e902f0379b679aafde9343d791a7ab89d449ce8432e3b716d55e3470094f;
  Double 0x61d87a0cfe2e33fd3d7b20932d6ec316534b451b05017d55ebf66df97c650703;
  Double 0x24454cfd40d319c9fe377ebae48788ea6718ae1dc023e42f98c46838dfdb2715;
  Double 0x717534901dbb59ab006854c068a50dfdd20232fe591a31fbd7dda12262862069;
  Double 0x41c5c1a77b62baa51b180e1dcbff6780ece0a093f5a78051c6de090fab67d58b;
  Double 0xcc008c577437b3b458c9b836494bb2bc62d6e64da3f0842ef710401e85163577;
  Double 0x9294b9f9f80b87f9d51ea42cdc54616c6c8cacf9b6a14ad9e9bee370d90df338;
  Double 0x27b376e30f76ec47e5e68b16c3a2cf484262baa820f9d61937a65d963ba0a28f;
  Double 0xf1bf5eae2a0c4c9ef23bb69797a3827927656b3d5c2e1dc0e927cc43f0db11ba;
  Double 0x546acca7e813b1998650b06326ef6544d2d72aa88a3413c45c35c5c3ba5cef5e;
  Double 0x631098678fdb228e7be3f87f83e86efe5e8cb7d78b2be931475be0b75e618be4;
  Double 0x792c04e8f7afd1b9a401fb8523f74d5c81c76302b10a6726b0a0b54d60e62eac;
  Double 0x0a12d5e05dff013873b8147dae62e9e6caf91901e3e357c1cec3858f69f0d4b2;
  Double 0x2a2f3623eafc2706805279368e2b1c5c2afa8d5e85e53d5ba7e9d48345cf88f4;
  Double 0x292696c573b74a6cd56a72bbb1bcc0d621fb2ff611aec55bd728a03258fa9ac4;
  Double 0xaa59b2dd302ea6d3ebf0bd86b52a675096448eaee3e2c37f59fe73a32ea2452c;
  Double 0x9824e79ee39825411d7bf6454d5ed23a6453d1b81b9b3a889361ae2bb1a01db9;
  Double 0x1410252b4cd150f805430da05be0fa84af1a95f3bda9041d49b5dac99bde7dbc;
  Double 0xd835dfd81665457b77de5400f8e630b0f3fee3384b8a278f65ff35efbac3549d;
  Double 0x031acb4e1b1cf7975d68309d78e4079a67ff7ca16b70a141bca36aa1e38f7816;
  Double 0x9e134159fa7f342a7059c56115bfcbe4aee40bb38561a32f7d1cd882eb497297;
  Double 0xf7f95ba71f70ffae38b8afe471517eb23276f67bb7e8587cbcc1c8f03fdd8edc;
  Double 0x775399578055e555c62520e02bf03e8454a29230887ca4369e4c87b9bb0ba8cd;
  Double 0x500a08279b3c953b7ea4c442af79ee4fc12bb93017e4727816b4374fcac245db;
  Double 0x759f42169706492f4d893748465b0b891cf451657415eb8bad19754d88799bb8;
  Double 0x9b2f8851451a0c4a32b655df99f323889b9f437a5ac499423c383f787a29e43e;
  Double 0xfd694f82ce17714f7e6a833cfa028cf5206ab4c04bab17679f65e28f90487e1d;
  Double 0x6d66f1633c0ea4e3be369e04bdcfc73efac3f92d72320932c55fd0197c48e44a;
  Double 0x60fb0dd8cfb159a6cc7a0b308761f2bb17857246959617835ef54989090a211d;
  Double 0x50018607e3d60e50bc5e7dd6ea0060dab9e5478b964170294f64677ef6f5adfd;
  Double 0xcae60ba240a4434e4187587e5c8846b5fb61cb5eed6df31ef65e69275e8298dd;
  Double 0x27fec578a9edadb2aa5328699c0a3cccb201d9e4c4c46c036041f20898797576;
  Double 0xd4f0db18fed8a66a083b386445c250011b57923062480f793ccb65d82d6f2d6b;
  Double 0x58ff873b75fe48d0de02ba7960e477f2b009a1fad79a0c13db1f838a68704f33;
  Double 0x4a448861c49b177bf3d75a72ffbe403636a0189476ffa033360c12be26583b58;
  Double 0x857ad2cd6b2921bd076754555a30fbaa46c691e4d20c90d6ea86468cd38da973;
  Minus 0xfc8b6877fac26cb8bad159ffb5054e192d185a695991e862b13a1157137bdfbe;
  Double 0x9aaedcd3f59a511859bf395e1ecd70760076101893a56bb21333695455e74996;
  Double 0xa9148f747424fe2d32b64be58cfc911fb79a6b7651fd7659709c61ec71d226d5;
  Minus 0xc1e5bfae7e9ab5edac943a509f0b909de0240ab289c209ced04849d954c1ed4a;
  Double 0x8532f8eb16203de056ee10bbbb95ff107dc6b10e55caeb78c5b32aa624c44c35;
  Double 0x7dadbcbfaa91cbbf78b2986150ac4e327edb9c69606820cb5a391831b9aa8b86;
  Double 0x464b37aee9e3cf9ceb318e70fbf5949a9746428a0d4230c392969175c1fe9102;
  Double 0x90d58ca4958eb13899468baa7bd19964d7201875b86dde6ccd6bd3c90ce236df;
  Minus 0x0f91b01b74c44d50452c012ebde3fb579cafdd97f7d7bf637f019fcaaf7079e9;
  Double 0x37b6c936c1f724a47343cb4fdfd95568d4ebe6acc6d9e50901a795723e359831;
  Double 0x1feaf819ffca25f3b9c197e022f9534f881680b73b166f6322e4c00d66ddccc1;
  Minus 0xe1a5f099e7d10503cf72913018556899858d231be015d0d574c73063a319368b;
  Double 0xd1c03969250c4dd33fb07bcbfc4f9e59fb99a37d71a5a1b3fff6f08ca4156e2c;
  Double 0xf2e392a1075b09257a56d40b9302887966fbd4a1789052512367e3174d62b5c3;
  Minus 0x0b8eda1a8824a7752dce3f803f0bc739aa7ffcd9e6730fc80874075ca4078d38;
  Double 0x714ac25124a0f210514a0ffda9101cac365c8d7f76311c6c49fdaa7d96325f24;
  Double 0xeff70c491077d6ec76deb529425a4439fb9f0a65fb05229200a788c0d3b3ed2d;
  Minus 0xf66eeb2ae5c65a6823253261c9092f7a97cb28ad3eb54ecce2149811566c4636;
  Double 0xfb2b929c5c52a0c85b192208855d148ae2de4e021d066d7be9836724bf3c5059;
  Double 0xa538286f0f4dd5abd361615c2a97b79ec03b46c49c35832dfc7ae456d6d673c0;
  Double 0x9838f6c643c678e8ea7ff729a7268090a7103064616ee571f8cc564d0c14db8a;
  Double 0x25ac4c4957cfb517208fb3a1da2e8a863ee0692ea7f2bca7e8c07e2e660d9bb6;
  Minus 0xf34fa0ae9b45403fe0e834b98a53b11064998c305cd2314cb9fbccfaf3738f54;
  Double 0xd25bed1f34d120a9f3eb037b4ec798f6a36e21192d34baa62fb7080012575a4a;
  Double 0xef22b56da8a04a7d889068152800e8a662d13200bcf3f8866c73cdcc98b1877e;
  Double 0xef0cd14edd1e93bdf5c7068919d57c768f289c5bf9b99d1d0096565e752b463c;
  Minus 0xa74eb1ded9b0a87b22f86c7caf786224204ce368ee629765ca0421fb5b104915;
  Double 0xba7b6f02dc63af8fd13b23dda46e194d0dc1d899e799c1caca6b0b37586332f9;
  Double 0xb65975493130d4bdb9e2a904b9df8e50e25670b8fa6e6a90d6926838e9648297;
  Double 0x06755b546bd5ecdad54830125945ebcf11749ff30a79abe014586232733cbb5a;
  Minus 0x5fb293af30ec24877fcdfc76b4e2fe1d512dc5a1a85675280d2d80ba85be7bde;
  Double 0x88246dec0a2f5c1781c111b275131f55b126fd8e265fdde8ac3989cb1274622c;
  Double 0x907e6ca0df806efa454760a45d6531e8911524be961db28481f68854ccaa76f4;
  Plus 0x65aa85691aee4e00fc38309544a5890cb087836da9f9f38f27b2b31029e9a47b;
  Double 0xff3b9cef794d59af663742705c924d25096b6e5d78cb79b0c564211264074ab6;
  Double 0x028d1a2346878b14458df21150493c1bdbf85720bade0927bae4da94df6157f1;
  Double 0xb231c5c3633a4d5700f705351d2635f7b72cc9ce54b9cca358fe7c680fff87fd;
  Minus 0x38b417ca4cbb532f46249af4ac8862f278b57ecdf8cf3ebea4f9fd9657768e7f;
  Double 0xb7d7dfd2dd60ebc633df4932f165679c28f925b5ac1c11cae367c92589a57d92;
  Double 0x75a74a2e990e1651dddec1e928034d4da24fb8884096c0933e6136f675561c39;
  Plus 0x78e4121c61c528cec73a1c573baaf5e75e0287f5d65da61a20ddb245ab1b8092;
  Double 0x2835932153b072f79e4c7e62b278c8fa650162e54b45fad45ff41a6df5f6914c;
  Double 0xb58c42b76682bbc037885c1ed2f3e5b40131bec35ee4b6cda64a96de9bcfe6f9;
  Double 0x1f2f4acc43dae13959e540e71b296215e4e36b14f5e0aad4a57be917c5b674d0;
  Minus 0x9a1b4b351a71976545db9cf18d4d0d993ab38ca22d3ac906534f821385d5406d;
  Double 0x1d99561ee2c3ef21851d7cacb2ad51f830f56be32f8fb4b90e73a884b795d1ec;
  Double 0x9d5f07313eecd9367cf3f9a2a5d3a6d759fb70877d413e70b0313994808c13f6;
  Minus 0x86ba109e0b28fa365fc5faee1cb320148e0510f2387acb8fd01d66563b1dcdfd;
  Double 0xe4d6753800c65953da70514bb94da9e03189de16c9fa3086112d99228ef1c1ba;
  Double 0xb25b45c9d1888fdc652a39c4c69383330a7096d97cf830a96872044ab68b58ef;
  Minus 0xcfa74e52d54b5960e255d66aeff17b96874fa000bfa967c727c012ec7d00cd42;
  Double 0x970c455202313c987e004ba7b49db651abf429b9aec412ce907bb08f4fe11f63;
  Double 0xbc1f834adf3c42bbe146c8c3d35467280b791cb0b48a6177b8216e77b35688bc;
  Double 0x69c7268a22d38ac448b5d4da59aa1263f4e36fe3a979d8070bafbda702f14c96;
  Double 0xefc098f9b579deae6d9add81e6ad34c16f3269b81f2e67d38db6e7d5e17bd89f;
  Minus 0xcb2234c63216d431e1f3ffcfb9656f0edd2bfc52c3f5ba2b3207d040546d15c5;
  Double 0xfcf1523b82f29c2de448f6d989ac55b2df8473bf03b0568f47ba0ecb0bdd77af;
  Double 0x0490c1ce453ca3fd42de1dd36b26e293a111b987c7deccac16fb161186ca125a;
  Plus 0x3855482b858ff0489054da3a871a0829ec1abe06156a9c76d133a74243635ec5;
  Double 0x2e293dde18e6e71e43395520c05773ea44bad530ab495d611458e2ef46a7707b;
  Double 0xb06e1d39763a83a57fb67b677d4b44e12d71299c9b00785b1112809177da5c59;
  Double 0xb4a04407ebd4b6a776a7bcf22e2391ef82fcb38caa323d9d88f6b064243137c6;
  Plus 0x3744b45e624b5e48ff3377f3c07d5a48a62ed058e0e7960d23aeab1b85b0fbd3;
  Double 0x4287ac902cd67c7e2ad5bf1085a4583c2156251d39355ae4d1eab8ae366e1da1;
  Double 0xba3a1732d8f416c8d30c483abba55c6650234c26cc68ee2b4b5b9dbe94eac59a;
  Double 0x37775d936f164f8a84a47a9fb920758d15245f8c54c93178d1c4b5cafe4aa748;
  Double 0xa4a58801d8546d2f02a4050f921dab5916a5a5dd44176f76551f3edbafa49fab;
  Plus 0x55a917ba6b5d45d33ea48131d175456e0b896ca85247cc49de12458f2b48d505;
  Double 0x370e8f0214178e23448c3e2d2bf282e330be2f2967a412792452a0383df0b62f;
  Double 0x50cf9a814a661783423db02e4a5e06e785ff9a267cc04fa814022a9de2273796;
  Plus 0xbd812c5cc435aadb43c291fb04112777d6607f416d48ecca063d66c94d240d4e;
  Double 0x15ed51763216385857d89c815309ebe43b35f69a834afdb5cb1b2cd34ffcf80a;
  Double 0x9f0934630df8621d6a3c6c02ff916caccb0616bde61bfadbe8e0e5aed2afa375;
  Double 0x7e719a2b2ba07ae6d322194e523da6eea7ede79a3be1ffb3fc12bdee43de1167;
  Double 0x6041ba759eb9a87f0bf848fa65af818d3fcfffaa0c80943b90c7449163936b3e;
  Double 0xa6a11f381b330e0eceead13193ca089f4cdce3ed7c19bb361cec09cf272e6dea;
  Double 0xf46c2f33e3c1237340aa05dacbfd10f83f8c6aef5265ffc24313453af50d9f95;
  Double 0xddae855b43b0804eef5626ba19b0872ade9f6db236626d5f6b712d8485de4f93;
  Plus 0x0cb8cc9e7e1610e7ae147495b1cb99346cd16d1fd1a824d2174a96dcdebcf443;
  Double 0x6eb0a4c6654101fc19a48b24493bdc36f8b080c3adf635bd66af6ee0b562f30c;
  Double 0xac1e02a703bd8a93b2db8c85f7ac70c3b53bcd4c94987a57983fbc4b5a5d100a;
  Double 0xc482786c25d5fd584d48080910827d7294258425db3b5a72dd6161b0da195533;
  Double 0xde5971e7caed1e1a33202f0e34d034130f711b0228874bc2328517f5f0919b93;
  Minus 0x94de1b62a13fb94b31c34200a8203819a5523751338859763bac1580594354e1;
  Double 0x40516c4575656e7e08caba929e2cdb17434a15f0e0c560db36084174d2b0352a;
  Double 0x81337f491b421a272eae9a9fa15c04b2051f83c553346b8dd455a58b813e5244;
  Double 0x4daf9e6b8da1ac05ce09a71d6dd33bdec1c0aa06da4a71dd4b99776a9eee2fc7;
  Double 0x6ee32adf9bd905667f6e3c993ea80794603e47b190ab3d884da71f04e5688561;
  Minus 0x1db62086d2280bae363dee77836ad59e0bfed1fdb0180fdacdd7f5cddd26e6cf;
  Double 0x1900957ab1c62a54d064b1d854f42fd14d64c316bfcacfccbb5073278cc6d4a0;
  Double 0x4b9aa67f5d122cd5f407198a72c371b23b17a20998fd57407e3c752f686252dc;
  Double 0xdc9daf63f537f348ad194598ae0480c4641e8a3c103f36df382db1fa4287e92e;
  Double 0xcfa5bf7570bc25f4bbc9b00fac3ea75055a13f3190124f9432626507528c15db;
  Double 0x06634246d4ee908374359e885d8a45bf4d7e5431c80d72438093404d17ecb459;
  Double 0x417f0cb3f44a2338ea7b03192a209625b1a7a86700fa2738e638739270143ae7;
  Double 0x7d9391121e69533105d5b7687e5d4955ed5debd8d790e24d70228c240958b609;
  Double 0x45822432cd567c9e3e8d2313405b46de3874f1463dbdbcdc0ab428b5e3f1397b;
  Minus 0x8e7270b15ae85de67bec98d3d8c62ef58c0ad384ebbe8533817a850cfaf1aed5;
  Double 0x8474e018b6ac5b589f4749e1b38d6adc60a22c9eddd99afdd8e8d6044a4d4e98;
  Double 0x8df6afc453659936eaa14ccfa4cbd75a49199a5a40838876176e6da39d169bc2;
  Plus 0xff5caf8da8deb38d5833f1ef0047eaf5331a5e49802cb29843c99257ffab9b9e;
  Double 0xd8d4c3fb404a84f9a0146faf112eb5f7b8482cd2d86a4736dfdb78f4bd319ba9;
  Double 0x4026935e27333c9997ed5080700d1fe587b0a10e52f3668cb1ff2e53bef165a0;
  Double 0xe91116989d2c29ba1c402a42220bb6afafd7a1d89c0f7cb6f1415f6b30d72782;
  Plus 0xb9431bd34b02aced50f20c6257e46301867c5a638cdf4f97d6beaabeb0b9d37b;
  Double 0x09b5ce7f66fb114a71e108c251df1485ab6f06b1e5babf4062feaeef8390f74b;
  Double 0x39823a814982236ee6a11487982e893d758c2a2220c8b90ddb245fcf7db25e13;
  Plus 0x10a640b7d9b34b0c3af15c9366cd9415b3238d3589605fa5986a80406e67b91e;
  Double 0xed6c0e2fb9fb629821cc78012ed56697d5579c55a0cd895f5cdfe8775c5e21fc;
  Double 0xd3965a5a9eaa7091a9d00594371be33806d078928f6862337d390c3c94b22e2a;
  Minus 0x989d5562e747261a6020d59d7d938a23a5a3bee44bce707feb3a761f414c7513;
  Double 0xc39fb3fa386e4c75b1c970948bbf5d83647f7fbe31914b8c887fcf6dcd147493;
  Double 0xb1206b720fe6033a76096668b533a8d975ea4bd5f808b41fb2e3bfd32efb5da5;
  Double 0xd4f8f728defb009b19611939ba09a25df988e2c20cd72404a3c9241682d9b1cd;
  Double 0xef067cf45af2b98df43ea206403afb8c285d5f02aebbcaddfa1986f723726cd3;
  Minus 0x26e127b79affedcdeeec2b52d0b2828c3b05db91131849240fa85d21dcb4d902;
  Double 0x8e3fa477123b584f2d50b6f126ada57e27a8f2868ca91f8fd9ce85a1f920cf12;
  Double 0x3b49c33d536bdb2e909079c762d2053f34997113063cf72adcab7d7ddec9faa9;
  Plus 0x1f2ec02e6466b6d8c72f9d7f5d8ecd7033ab03d07baaaa43ce78c20480d033e3;
  Double 0x62c33e0b9150e0608b29448fb56bcef22513931a622e8631b498ae54b22262a2;
  Double 0x98706a34365fc35f0bf58006b8086053e00baca29dff996227401c8ccd9179d7;
  Double 0x754e3f3b8b39783ae1d98f7bed4a33a9cb83a2dcf3dd96af1ed15030279b19e9;
  Plus 0xe215962cd9f44461723913864b5fbe04968cf55c243b95b2dca2b4b3749e9513;
  Double 0x10e18fd20ebde51bc24c0d0d7726bf8172768691af8284e703a862e3cb39e08b;
  Double 0xcf8a0d4edd568904aecb3da1b921a0295a8dae93d6f44ae1794dea81ce43be88;
  Minus 0xb943066b51606d8c7a85933d423ed4b73ef8d41330052d28600934bf15459293;
  Double 0x66b7745de248b97277a5615ff0bb462cf6e3c3e46ff057f7cce290d68ec3315a;
  Double 0x68723255cb589f934be2b1545a295f0260eea2b5de3a4a9e94f804ebd5eb2ac4;
  Plus 0x466f29056888918e158f06a3e32528123e32443c985d64841f467cd3e63b38ed;
  Double 0x805efb2463fb1d9717ad604768050ed07ec1782489ee3db07c023d3ebe49c5be;
  Double 0x6457233262f02f78f62a941998cf2f8f0cafc6dc68529823ba96db33339633b5;
  Minus 0xdcc2daec8346af1cfeca154564757790bf9ce15a39f2cc4866ad395471701517;
  Double 0x69b6343cd46e3261cbfba536047eac826a6e5b069d0511ed854203a27dc2d6ad;
  Double 0x1d3fe586613e4a9815c3ccdffefedf1f536fdfc332940ccc5ee0db4890ef4566;
  Plus 0xe913bd3cc40444a7a62bd51a89b61dc8310e47f94c8f56737a7166af88bcf547;
  Double 0xf839838e5ea18c0c3efc4d8a88787af906a6abca84884bcf498e6353b96e4ae4;
  Double 0x2d5c87588d26f9c1cabb2ad6143c9145ca8a25067d0d0a1d1a941ac54f1e9ea8;
  Double 0xc9633d6252ea9df0eda9df6c2913cead0ac51d4cd58e74f5da5e89ea5d228b0e;
  Double 0xe271ab4ebd11fff0ec68a819b151c9ad16b2402b2fae6c2220fdd66672bd4063;
  Double 0xd36996ae84fdc0707b26792cdfab4100a637ffa1177d4a6e9b004ce2e8e408ee;
  Double 0x82f4035a2f943ba8d23b2fd98a9fa96b84620ffd6fb6ac5d80d2d89c955d0442;
  Plus 0x2359ffe39a24516f73e543d2e3166bb59ab008563c691ea500fce17ac2636f20;
  Double 0xa6c01e692657ecd5ec1e19f348128fa4f0c3b5b3a50e715e67edaaa8c56696d4;
  Double 0xd55caef44ef25aaed3132574aa0fe85d1f4c209a1baafa91991ce5cb60bc5173;
  Double 0xb34e522bc62416885f2e04725659c52d4ca4166ee58e1ab9c9d8154f3d9997eb;
  Minus 0x96851d01f7c52d4d4054d62374be5022dc74134883f0fb1f914f3960fee83a2a;
  Double 0x5061f9b099a4ceac1276439800176691901c478015955fc1f9fb263abec3e757;
  Double 0x486c0f1742399bebc1b0e7cf3c2d9bc6da16d8f8c8136944e4e68d607fc7fb73;
  Minus 0x6603975656b3234e973953b7f7f3d63ffa1c7a5e63e3f1358ac7e27a52b927d6;
  Double 0x4dfeeeb6f36c1a9ca52e3abae72aff21f3f5cfc1f1763a5463cd3f9419518c9b;
  Double 0x9054207d23fdd08ad96b38a135a128fb3ef816f72a9d5f1f52bdfd118ba86b4e;
  Double 0x9cfcb3c3101bca8208a3879277013a90fde33d7e52688c097ada6a913a3e7f3b;
  Plus 0xfab655ddb77e8b9989c2effc19e228c0c72121537ebd7ec3c6a7e4d048847d2b;
  Double 0xafd086d090b268755bdf504137173c8ccc46493d1d4201e9916a757f7b00dc70;
  Double 0xa5539e4c2a0cea6c4ede3f6173797a79cf2787f06f7e96e45e56c87a2e153893;
  Double 0x18338c0dbb8c4b2cc1c0beac6fe6aba94372e897eff057934f4f1ab15a411201;
  Double 0xfbd1ede4f87d76496c35e8768d3cc737302aacce3580b0b9925bbae37021f505;
  Double 0xe87d436bed4bff39a438dbc5e0f2a0ab3c426665c18963a027a08bf1b5481af2;
  Double 0x6ef473b5991356ad1b67f3fac06178cedf101127229b3473a62ebee5a858903e;
  Plus 0xc9dec5ff3cfd2b46ca46f2e1e2462aaf8500d13eaedffa5622486431a4defc0e;
  Double 0x98878284e0dad18c26ef85a11e64f28c050b597a75718c02f4b113be0d7f4566;
  Double 0x054872f7c6339d01480fd341fd5d2488dfd73172d95ed1155432e6e89d3398c0;
  Plus 0xb652eafe317f809ebd0d0babb231eba646f4bf5b1c3e02f7e018073689be34d1;
  Double 0xaeafae58242a90e531e26ad3754e9a553b88d37d07cae8e35fa4185aaeb6f158;
  Double 0x9b3f6216667833ff2a4bbcd12ac27afe4a51a2d3b07eb0e78d312eca1f7159a1;
  Double 0xf6c614511660dd458e525fbfb354aeb10fcf1e624c2f26086ba3729f78386cc0;
  Double 0x2fa523c29a33f7934f4e62b53aef395863ff174d933527da8937c26b6a5c9c60;
  Double 0x60610490a84968ba2933cdf68cdfad9b184ba2853935fd774bef4e64377ba489;
  Double 0x3b9e1fd3f452018f0e9c2ee69240a880ee147a50256c489c9338d92cacd255c2].

Lemma chain_end : runs chain 1 (GX, GY) = Some (CURVE_ORDER - 1, (GX, field_neg GY)) /\ (GY =? field_neg GY) = false.
Proof. Transparent CURVE_ORDER FIELD. split; vm_compute; reflexivity. Opaque CURVE_ORDER FIELD. Qed.

Notation G := (Some (gen secp256k1)).
Notation kmul := (zmul (option secp_pt) padd None pneg).
Lemma slope_is_div l n d : in_field n = true -> in_field d = true -> slope_is l n d = true -> l = field_div n d.
Proof.
  intros Hn Hd. unfold slope_is. rewrite !andb_true_iff, negb_true_iff, Z.eqb_neq, Z.eqb_eq. intros [[Hl H0] HM].
  unfold field_div. pose proof (inv_in d) as HI. pose proof (inv_ok d Hd H0) as H1. revert HI H1. generalize (field_inv d). intros i HI H1.
  rewrite mul_ok by assumption. rewrite <- HM, mul_ok by assumption. rewrite Zmult_mod_idemp_l. replace (l * d * i) with (l * (i * d)) by ring.
  rewrite <- Zmult_mod_idemp_r, H1, Z.mul_1_r. symmetry. apply Z.mod_small. now apply in_field_iff.
Qed.
Lemma in_add x y : in_field x = true -> in_field y = true -> in_field (field_add x y) = true.
Proof. intros. rewrite add_ok by assumption. apply mod_in_field. Qed.
Lemma in_mul x y : in_field x = true -> in_field y = true -> in_field (field_mul x y) = true.
Proof. intros. rewrite mul_ok by assumption. apply mod_in_field. Qed.
Lemma in_sub x y : in_field x = true -> in_field y = true -> in_field (field_sub x y) = true.
Proof. intros. rewrite sub_ok by assumption. apply mod_in_field. Qed.
Lemma in_neg x : in_field x = true -> in_field (field_neg x) = true.
Proof. intros. rewrite neg_ok by assumption. apply mod_in_field. Qed.
Lemma join_ok l x y u v q : in_field x = true -> in_field y = true -> in_field u = true -> in_field v = true -> join l x y u v = Some q -> raw_add (Some (x, y)) (Some (u, v)) = Some q.
Proof.
  intros Hx Hy Hu Hv. unfold join. destruct (x =? u) eqn:E; [discriminate|]. cbn [negb andb]. destruct (slope_is _ _ _) eqn:ES; [|discriminate]. intros HE. apply slope_is_div in ES; [|now apply in_sub|now apply in_sub].
  cbn [raw_add]. rewrite E. unfold raw_slope. rewrite E, <- ES. exact HE.
Qed.
Lemma G_raw : raw G = Some (GX, GY).
Proof. reflexivity. Qed.
Lemma G_in : in_field GX = true /\ in_field GY = true.
Proof. pose proof generator_on_curve as H. apply on_curve_iff in H. tauto. Qed.
Lemma neg_G_raw : raw (pneg G) = Some (GX, field_neg GY).
Proof.
  destruct G_in as [H1 H2]. rewrite <- lower_up, up_neg. unfold up. rewrite G_raw. cbn [ec_opp lower]. rewrite val_opp, !val_toF by assumption. reflexivity.
Qed.
Lemma kmul_double k a : kmul (2 * k) a = padd (kmul k a) (kmul k a).
Proof. replace (2 * k) with (k + k) by lia. apply zmul_add; [apply secp_comm|apply secp_assoc|apply secp_zero|apply secp_neg]. Qed.
Lemma kmul_plus k a : kmul (k + 1) a = padd (kmul k a) a.
Proof. rewrite secp_comm. apply (zmul_succ _ padd None pneg secp_comm secp_assoc secp_zero secp_neg). Qed.
Lemma kmul_minus k a : kmul (k - 1) a = padd (kmul k a) (pneg a).
Proof. rewrite secp_comm. apply (zmul_pred _ padd None pneg secp_comm secp_assoc secp_zero secp_neg). Qed.
Lemma run_ok s k p q : raw (kmul k G) = Some p -> run s p = Some q -> raw (kmul (count s k) G) = Some q.
Proof.
  destruct p as [x y]. intros HP HR. pose proof HP as HO. apply raw_on, on_curve_iff in HO as (Hx & Hy & _). destruct G_in as [HGX HGY].
  destruct s as [l|l|l]; cbn [run count] in *.
  - destruct (slope_is _ _ _) eqn:ES; [|discriminate]. apply slope_is_div in ES; [|pose proof (in_mul x x Hx Hx); unfold triple; apply in_add; [apply in_add|]; assumption|now apply in_add].
    rewrite kmul_double, raw_gadd, HP. cbn [raw_add]. rewrite !Z.eqb_refl. unfold raw_slope. rewrite Z.eqb_refl. unfold triple in ES. rewrite <- ES. exact HR.
  - rewrite kmul_plus, raw_gadd, HP, G_raw. now apply join_ok with l.
  - rewrite kmul_minus, raw_gadd, HP, neg_G_raw. apply join_ok with l; [assumption|assumption|assumption|now apply in_neg|assumption].
Qed.
Lemma runs_ok l : forall k p k' q, raw (kmul k G) = Some p -> runs l k p = Some (k', q) -> raw (kmul k' G) = Some q.
Proof.
  induction l as [|s l IH]; intros k p k' q HP; cbn [runs]; [intros HE; injection HE as <- <-; exact HP|].
  destruct (run s p) as [r|] eqn:ER; [|discriminate]. apply IH. now apply run_ok with p.
Qed.
Theorem generator_order : kmul CURVE_ORDER G = None.
Proof.
  destruct chain_end as [HC HN]. apply runs_ok in HC; [|rewrite zmul_1; [reflexivity|apply secp_comm|apply secp_zero]].
  apply raw_inj. replace CURVE_ORDER with (CURVE_ORDER - 1 + 1) by lia. rewrite kmul_plus, raw_gadd, HC, G_raw. cbn [raw_add]. rewrite Z.eqb_refl, Z.eqb_sym, HN. reflexivity.
Qed.

(** A point is determined by x and the parity of y. *)
Lemma field_neg_odd y : in_field y = true -> y <> 0 -> Z.odd (field_neg y) = negb (Z.odd y).
Proof.
  rewrite in_field_iff. intros Hy H0. unfold field_neg. destruct (Z.eqb_spec y 0); [contradiction|]. rewrite Z.odd_sub. pose proof field_bounds as [_ HO]. replace (Z.odd FIELD) with true by (rewrite Zodd_mod, HO; reflexivity). destruct (Z.odd y); reflexivity.
Qed.
Lemma on_curve_nonzero x y : on_curve (x, y) = true -> y <> 0.
Proof.
  intros H ->. apply on_curve_iff in H as (Hx & H0 & HE). apply (F_no_root (toF x) F0); [|reflexivity]. apply feq_iff. rewrite val_toF, val_0 by assumption. exact HE.
Qed.
Lemma same_x_y x y z : on_curve (x, y) = true -> on_curve (x, z) = true -> z = y \/ z = field_neg y.
Proof.
  intros H1 H2. apply on_curve_iff in H1 as (Hx & Hy & H1). apply on_curve_iff in H2 as (_ & Hz & H2).
  assert (E1 : feq (toF x) (toF y)) by (apply feq_iff; now rewrite !val_toF by assumption). assert (E2 : feq (toF x) (toF z)) by (apply feq_iff; now rewrite !val_toF by assumption).
  destruct (same_x Fp F0 F1 Fadd Fmul Fsub Fdiv Fopp Finv Fp_field Fp_eq_dec F7 _ _ _ E2 E1) as [H|H]; apply (f_equal val) in H; [left|right; rewrite val_opp in H]; now rewrite !val_toF in H by assumption.
Qed.
Lemma same_parity x y z : on_curve (x, y) = true -> on_curve (x, z) = true -> Z.odd y = Z.odd z -> y = z.
Proof.
  intros H1 H2 HO. destruct (same_x_y x y z H1 H2) as [->|HZ]; [reflexivity|exfalso]. pose proof (on_curve_nonzero _ _ H1) as HN. apply on_curve_iff in H1 as (_ & Hy & _). rewrite HZ, field_neg_odd in HO by assumption. destruct (Z.odd y); discriminate.
Qed.
Definition encode (a : option secp_pt) : Z := match raw a with Some (x, y) => 1 + 2 * x + Z.b2z (Z.odd y) | None => 0 end.
Lemma encode_inj a b : encode a = encode b -> a = b.
Proof.
  intros HE. apply raw_inj. unfold encode in HE. destruct (raw a) as [[x y]|] eqn:EA, (raw b) as [[u v]|] eqn:EB; [| | |reflexivity]; try (apply raw_on in EA || apply raw_on in EB).
  - apply raw_on in EB. assert (x = u) by (destruct (Z.odd y), (Z.odd v); cbn [Z.b2z] in HE; lia). subst u. f_equal. f_equal. apply (same_parity x); [assumption|assumption|]. destruct (Z.odd y), (Z.odd v); cbn [Z.b2z] in HE; try reflexivity; lia.
  - exfalso. apply on_curve_iff in EA as (Hx & _). apply in_field_iff in Hx. destruct (Z.odd y); cbn [Z.b2z] in HE; lia.
  - exfalso. apply on_curve_iff in EB as (Hx & _). apply in_field_iff in Hx. destruct (Z.odd v); cbn [Z.b2z] in HE; lia.
Qed.
Lemma encode_range a : 0 <= encode a < 2 * FIELD + 1.
Proof.
  unfold encode. pose proof field_bounds. destruct (raw a) as [[x y]|] eqn:EA; [|lia]. apply raw_on, on_curve_iff in EA as (Hx & _). apply in_field_iff in Hx. destruct (Z.odd y); cbn [Z.b2z]; lia.
Qed.
Lemma secp_dec (a b : option secp_pt) : {a = b} + {a <> b}.
Proof. destruct (Z.eq_dec (encode a) (encode b)) as [H|H]; [left; now apply encode_inj|right; congruence]. Qed.
Lemma no_order_2 a : padd a a = None -> a = None.
Proof.
  intros HE. apply raw_inj. apply (f_equal raw) in HE. rewrite raw_gadd in HE. destruct (raw a) as [[x y]|]; [|reflexivity]. cbn [raw_add] in HE. rewrite !Z.eqb_refl in HE. discriminate HE.
Qed.
Lemma field_order : 2 * FIELD + 1 < 3 * CURVE_ORDER.
Proof. Transparent CURVE_ORDER FIELD. reflexivity. Opaque CURVE_ORDER FIELD. Qed.
Theorem secp_order a : kmul CURVE_ORDER a = None.
Proof.
  apply (group_order _ padd None pneg secp_comm secp_assoc secp_zero secp_neg G CURVE_ORDER (2 * FIELD + 1) encode order_prime generator_order).
  - discriminate.
  - apply secp_dec.
  - apply no_order_2.
  - apply encode_inj.
  - apply encode_range.
  - apply field_order.
Qed.
Theorem secp_times a : times secp256k1 (Z.to_pos CURVE_ORDER) a = None.
Proof. pose proof (secp_order a) as H. pose proof order_pos. destruct CURVE_ORDER as [|n|n]; [lia| |lia]. exact H. Qed.
(** Every point is a multiple of the generator. *)
Lemma field_order_2 : 2 * FIELD + 1 < CURVE_ORDER * CURVE_ORDER.
Proof. Transparent CURVE_ORDER FIELD. reflexivity. Opaque CURVE_ORDER FIELD. Qed.
Theorem secp_cyclic a : exists k, 0 <= k < CURVE_ORDER /\ kmul k G = a.
Proof.
  apply (group_cyclic _ padd None pneg secp_comm secp_assoc secp_zero secp_neg G CURVE_ORDER (2 * FIELD + 1) encode order_prime generator_order).
  - discriminate.
  - apply secp_dec.
  - apply no_order_2.
  - apply encode_inj.
  - apply encode_range.
  - apply field_order.
  - apply field_order_2.
Qed.
