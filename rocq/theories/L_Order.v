(** The order of the generator of secp256k1: secp_n * G is the point at infinity.  The doublings 2^i * G and the sum
    for 2^256 - secp_n are retraced with the slopes of the lines written down; only their defining equations are checked. *)
From Coq Require Import ZArith List Bool Lia Znumtheory.
From Verif Require Import L_Pock M_Secp S_Secp256k1 L_Primes L_Zp L_Curve L_Group.
Import ListNotations.
Open Scope Z_scope.

Definition slopes : list (bool * Z * Z) := [
  (true, 0xcb35b28428101a303eb9d1235992ac63f58857c2f631ee6936d3aebbeddcd1b1, 0x0);
  (true, 0x6ad2cb95963c033328d4857d4f8711deff557dd9faaa673b400442833f0efb64, 0x342119815c0f816f31f431a9fe98a6c76d11425ecaeaecf2d0ef6def197c56b0);
  (true, 0x9693023fb325cc6c7bc993eb684358ea623d5feea8ff351df662beabd0efdc6d, 0x51dfec5a5e088f7a36a091e7fa53dd881e0928b1dfdaac75558eca95363a4c75);
  (true, 0xbc380350880ab969e653d334691ca8c2da83b2acde59e7439ed92d96a9654a07, 0x44be604bdca00ee48878757c670e79cf87da1dbfa7aacada06e41787e70e77e4);
  (true, 0xb68c9cb56c4f0fd3279f2dec6acae3ffbacfb8384548d24892d676cd6beacbf5, 0xbc85a9a0f382ea6c70477c24c69acf76f2a8c6deee14df45ff531e9bc3d65f7e);
  (true, 0x57aaae4151a198790e40eb37fe0dad5ed4d4581b1a82c40124b58ac767ed1ec4, 0x7011355b1a5cd94653f22338c8b42bcc49d5351e572f6519fba80e4c8e7f3974);
  (false, 0x875978642d00b859133774fec1878f9e7623f6df9c734f7ed297e920a77b4406, 0x0);
  (true, 0xf0d3817330010db820c7710c8ee17a157984f4bfd3bafbd4a49079efd7754990, 0x50fcdccc62856f9303befbef7ec958d3ac2860c881a782320d152773b7f9015b);
  (false, 0xed7816fe6ca3e42058b150c9eeac31ef8a6bda7ee9e51a0ec33e09f96afc74bc, 0x0);
  (true, 0x62f219d148d24eff34fe56735390098e29b6a2190daa3dc0fbd1d33b92531a49, 0x3583e67ab361dcc68c5782aa55c7dad17e513d6d9ae164b7efd06069ba474e4b);
  (true, 0xda8eabc70379e66ae8e505f49deb2e1b4906022def4c45ec320e33aed7091903, 0x80f6f16189d573997229ae3f224da81e595e5b5446bf750e5edc22fb556cb74f);
  (true, 0x6c49014b33417076abaadc7958f95908e93dd2886468bd7d27d61cef7c1fdfdd, 0xc788bf213c072a4c8595eae4c3c044ed48958f03a3921899a2ceb075e1a168f3);
  (true, 0xca43b3ab114e7c697fee873576d7b89f909e0592f9e805e00246c31200fb967b, 0xcc900867a25603b0729e3d771f5cb7f84717f7733e3083284291251d16786d14);
  (true, 0x1b5d9cdfbd96d7eaf397653b120ed6cb0f4bd05bf004f79c2a9fd0bcdf4929bc, 0x22a942e7d843734e2d412acf0f24db84ee64be2766bd96cbff3dbaed7215dfbc);
  (false, 0x6fedf4339b46436d0db4e1864076fe618c51a754e1c0ed5708b889c5733613e, 0x0);
  (true, 0xa377ffff0b36d0535197bead9992fee7698334fa5bfc270f64d511cc9ab7c03a, 0xeeb0e0aa33118941462b95174e5be38119b38cc5f5bbd62a7acfbbef0e2f36c);
  (true, 0xbe610814de113647213fff8fc6378b31333e2bac4ac437ff9a702a6734563c9, 0x6ffb0a88dcc454d8631abd935a7e4304af69d103b1900c9d269318103fa881fb);
  (false, 0x92ebb512788e5c3c7a3baf1feaf8281104d50976aef98bbac62a97be2d8b7a7b, 0x0);
  (false, 0x9b0f855eb9be64f095aa255167f0f0baf01b2cd3cc72ef8f1444747071666278, 0x0);
  (true, 0xc95c70effee378ee51d4695a7e30804db90a8fdfcca618c180cec3ec5c83b500, 0xa2038b4ec91746404935bbbe3e3b18dda1663a9940957e0047ebff3f3433846);
  (false, 0xec7e64a924b93bbe0b71cb15729ff63848d6104ae7d55a16ed4a41d45b8fe684, 0x0);
  (false, 0x4a97f998b50e69d9b7f9c654687b8490e7f4a168b22ee05f0491f67c5bcae6b4, 0x0);
  (true, 0xc0b764bf04ae63359beb2b4fc6f722f47da0482483379a58ca50aff8c2ea4869, 0xa7a5fb69cb9399d9a7eef4586d1cede3a27fe4237bc4c789cebc18dc8ae7533a);
  (true, 0xb9f84addcab19fb53a62e79564f6075b848477821df6d6c58668d8e9b2501575, 0x98ff31f42160e02e4c5f5e906b7eac20ecfda1aa01669cfe5ff47c6067038fd0);
  (true, 0xc985b179caa5bee0ef6acefc42c0dec227b196c5dbd0953cc43c5868392e7cd3, 0xb258a69c13b78535dd2a5c8cd0f087303011712aa2fc88d0848491c22616a55b);
  (true, 0xa6d04e5b19577537db75701165cc1aa476cbdc92cb167d90af93b785d698742e, 0x836b71d131f92363ea5cfcc30f050c5c434f968843ba2b5f078543475de154ad);
  (true, 0x4479d94c2f98166b4c1d24655334f9bab459cb5a6c074f1e9bb5b9ea97b6a18b, 0x71b1750036b294375cb7b87e279b8e703d5c9c2fba24c9364d473c3fe87d5ba2);
  (true, 0xbe5aafdeb2f0b1599d1b413e816d0ae93363953c3d97e4fd3afed1c367f9596d, 0x4fde99e1f6bb6eb1100c1f1d238f4b7efa93bfa73415d82cdc1d165aea7dec1e);
  (false, 0xa6a6f72a0273aa6f7b6276e647117f1c0e9f5561a551c6238ec167ba7ac03635, 0x0);
  (true, 0x8dee3efccec9fbd528bcbdfc380d106f09ab41277d36c65ed6c4dc4784ea857a, 0x877e38a634d2aa49c97a307cfad4a02a034fbd07a35cdad1009402c9a87f0d14);
  (false, 0xdb3e8ec5d990ec59421e6569d96dcdaecb7f725432c5a4ddb78439afbfe5554f, 0x0);
  (false, 0xf18fad968cb987adc7d7c35fc6ad8974a3fcf82a55e9400e7bf3015e6b558a5, 0x0);
  (true, 0x82cd82212ae9dbf4101c8671a40de941c0bc39b23359c41063b171fe4cbf7c6a, 0x5c7a48e9ef41c39ed40b29a55b6b0efe124899ec05943af81c571116bb6122d1);
  (true, 0xc5ab93dae7b4d1d3c5edfe8bc49fa6ba5566b166494b830b6cf082231fe99f39, 0x5ddde52ed34c9582efe35e13406ebd914227c5ac82c4065a74da71ed34ca0038);
  (false, 0xde12036f73e80356f7db91954e2ca46c56dcab93ec4efda7fa9e72b8b3a2b20a, 0x0);
  (false, 0xeaaf7c28dae8dfa52783d0b7ef5ebc91aa999f58db631588e00a05856dbef4cd, 0x0);
  (true, 0x27923dd35874b9d0c3e1b1930352c0c3b0d91412f38fa8c1341f5a73beb4f8b9, 0x4ea288a359e31f05f47a6baacc1263b164218b99486a25fa925b8fe6aa646d32);
  (true, 0xd8880a7ae61955a53b91ef1d5de7f4b9646afd475edbbc8974911329e12fbdcd, 0x270b0702b445bab097ebd1527c13a199e7c524a2edf0252574b3ee37cca7f883);
  (true, 0x8676b3eae525414b100a173e847e521f75a5c46ae628b3858b1c1fbcbc59daf7, 0x36325e6c4f4d0d91b9f920d0b5f6809bac3657b4e40dbf36522652c4d20dae6d);
  (false, 0xf53ade417a0d913b3b9e411781e6e8de0ff1a6b169ca912fe5495f51c90530d8, 0x0);
  (true, 0x32f78aa8da44cbc85c1d785fb24f0e7f0da8ec5386523d436bb3a50d1e52fb8c, 0xdc17b665198d45013ba0de08c1630eae9e1546240ad46a1b6df971c8ec68ad);
  (false, 0x2c5edb78f874848d89ceb49fa59a1ff38ba3a6605f567ca67bb74a6e78c097d7, 0x0);
  (false, 0xdebcd686b581f6645f94a93467d0ecdf9e4ad7edeedcfeed57d9d6364c78d427, 0x0);
  (false, 0x81751b61f3b4ad7169d8ac62378adc14043339e3a60078fa2bf394c804c26e20, 0x0);
  (false, 0xea6ec05c50822815af2653e43c1adabb3be24e602591c72373d731cc1a44a051, 0x0);
  (true, 0xe60635d4ed2d254e05003b55d58bd309cce50b703f8dbf6d4700a65d85559a25, 0x5b0f6146bdec5b82b2d88f3b54c1540bb1ecd11c4c444c3021a7a48c261313c8);
  (false, 0x7471bc58c865f770a22bcb1e2465507731b3ad17d19c55c851a736531fefafae, 0x0);
  (true, 0xc84b8bb00e0f4407e49fe1be00895dca6d817c8ce64cfebb5d67625411bde644, 0x3a288a61e23e547d65e5d956a5462588955b4da662dc97cc4cf2b2c0aceb1719);
  (true, 0xdfada4b2106cac4951ec538f3d828576d57426ebe0d870d5e091e5b044aa5639, 0xe8bb61b9f226469b514cd457c38cd4a58a76de7de49ea4075076e51ad12c85a0);
  (false, 0x51ee9a34eead0ad899a54439d004a42a2f3fa11be3c4773c1dc6457062e3572b, 0x0);
  (true, 0x602c9992d00cc6030985312c38033bca60ce74f3a25777862a7288488389cdc1, 0x3f2d786f4235ea7b3a4cc510150f8dc15cb4dd39f4eb5c68ea430e740503228);
  (true, 0x2caed624594a3483ad98859bef75a97ed7cc509bd906bb2b23fbf9fbe4e5004f, 0xab9c69578e1d0b9e9df5c9d5872e72ac7a0cfda6db8964137cadf79544b93e37);
  (false, 0xff486a88ac95151d852a5270924d4ccf1fff7b676398e499d324893a4bbb576c, 0x0);
  (true, 0x8309b9cd7caf364f8a4726b848e574837a1498176583cd38a99bbf35c27c0e01, 0xe45dd04f4a5c37845ab7e67a26b0043808bd8d9f2ef4b9d0bfc3d192f32b47cf);
  (false, 0xc3a088da9a740fbef9a36dc94890489302dbf3a200c6aad18428714f41d62ef0, 0x0);
  (false, 0x9a1bb41d1a00d1b60cc94b47fe3b071dd38189836c875b949a5bb1b3744d5622, 0x0);
  (false, 0x738fd7bbbe9afd0e286fa67c1b3d9d1d4306cf1d91327714eb87d7e6678bcdb6, 0x0);
  (false, 0x245df8c5a6ad254b4c4c56c0d969cacd2ea321b08b1ed4d55515f34d582f7420, 0x0);
  (false, 0xb51b78655a4e5a25c8c18dd20190b5571b736e586729fe907b550841e1b6724f, 0x0);
  (false, 0x2e95bd430cb40948c3e3069bb698efdada1d87ac3d902f2d55129e9cbdb660d4, 0x0);
  (false, 0x61ff0b09e723c8829eb256b349701c992867da5babb9246b4e80f4a06a7739aa, 0x0);
  (false, 0x3172c36f49857e7e10d1b5927bf54091d80521d6b2eb92a8998b92cbb2234de1, 0x0);
  (true, 0xc3c8b71e8454afd4fe4ae23209d6947bbfdb44f29f3474cbf6e1de6bfd9974ad, 0xc7574b2b40dbac5f18b4a8efb1b4e10a1a31b6037217963c82a3555323f306ff);
  (false, 0xc781a37bd88a0baa945a25dcbec891a96eab33936f3ae33b924c4ebb9ccc91e1, 0x0);
  (false, 0x5e1c71fb55e898f6e64912dece2b8a3d031f1eaee2af6f37ebd48ca94c1a3624, 0x0);
  (false, 0x5adeba52ee6ac0e141ffb884efa7a7d9a940b9950373647c8aaef60dd14e763c, 0x0);
  (true, 0xa478dd7bfcb0fe45115c6952feba38f9de0842736b164666c083b48c9ac6cb1, 0x1eadab6ac77119c144d62d6efb9e46c6354ab702c75439f3b65ea499b210f4ad);
  (false, 0x104f2aa37e05be6add58d281a2334816593555f014ce643f702814ec1391f5a4, 0x0);
  (false, 0xad98ae499f8b968dacfaf69097db01061deecdd4b8b7fe434720aaf6131a6fc1, 0x0);
  (false, 0xe3b8c91ddd9155986dea06e85caade56b09b179572444c1c2007fd77d04d6f0, 0x0);
  (true, 0x6d5074103e91fdcfa4597e9b5c32b822c19b5af92207eb477c72ec4f9dcccb6b, 0x8d9b748fec4afe69ba3d2b22a91283d6e5ea528da64ebe1021a07d5c8f2c8e00);
  (true, 0xb0486abb58d31b2dc9704b8502170a38dc4139987db4802a1661a40d857824d, 0x9a864302175ccd411178a707a343cf5989240dea5ca54c26dca0c8adf48bed1b);
  (true, 0xe6d9fa3e6518d4e9723dea425cf89cf627c6b2258bb185785b0f3d91b04e6115, 0x950173687908826465b7e687fb769d77601f639db93fe66c8a952f7908a839ae);
  (true, 0xd884b65bd5b8dfcbdda21a681b317b0bcbf4d101debc21a38ca7300520334d4c, 0x4baa931d83337380cd547738469bffacb3de421e50111d4c4ce5eb0950d151a9);
  (true, 0x9d1540c9467d3bf99ee5b77f3c9121f1a88e1886ce5c64aa196b85cf6815554e, 0xae906fba9dd05cf3f775337caf98b359465104214766e67fa63c4332a7370787);
  (true, 0xc48405b3038c03bd744a8ed8a5527cb83e8f1929b392d0a6967cbd721bae0b, 0xca095072c37a6c2453ae51af2744ab6f158d4c8d605b9ac5f8ee6624ed0f738a);
  (true, 0xf9bd4b25fb8787ac97edb42b9bac8deb9ff7ef01b41f5d6575086f1012bf96ce, 0x70d9c1ebf1073914a27d283cec98f19cf5cfff0ce8ace1d7d2030b28eeedeaa1);
  (false, 0x95b144bd0405b76f012f298ce4bf1355bccb8671d21cdb26d904bbbeb3860cda, 0x0);
  (true, 0xcd97a7266946a362a966c2469bb3e45413110726a2c395c2bea221545461dbef, 0xeef3e2e1d4edaa805395bdab9af4e81b454773c777a0393f8007af7e317d59c4);
  (false, 0xe53ce2c798d39bef6ff55175192d6b703f4df8f610db8e47bda11627318a4605, 0x0);
  (true, 0x18b9cd189f45726e2c6dfdc2cce38866bc945ec92113621bfaa817ce723adf9e, 0xac6a97d8fcbe6503a096062b89ad724626de794144d78f83802eaf1b7b4d68f8);
  (true, 0xbcba2313f29e1d97551bf61072f2a6f583d17ef9378ac65a6a5a28639887beb1, 0x4ab6bd32281bcb39618989f8652f8988e68ae17d2261acbee00621ba9ce9bfd3);
  (true, 0xccb0c2d5a765fae0fa90950f0ed92a38ad56207a00bd4f3ea9da4b31dfc25815, 0x6249a7ebe265ed783adfa5e393d5256c50462cdfdfbca6079beab63f01cddb2a);
  (false, 0xdfedec6f42f70b127c80c91fa38ee129550274bde0c96a7286b93a0f6c39dfc0, 0x0);
  (true, 0x24076fdb1fa11f74017e5c3696347308e32b3f0e740977d9c044061b43cc1ca4, 0xf8f52fa739820b93dde5c5a8cc25170fda47055bfc6e615f026c589ef4ecf8e7);
  (true, 0x38894d85c2951105037a5d11369af6d039f62d660aef1e5b13689d8a8da7b17a, 0x9da5f5eb30cea5791aeb6b5136a0e6c1c1ced7aa1d1aed25bf1f568c697e0bbe);
  (false, 0x43e3186271177bc3437dffd0f295e9a9b2a7a173698f8c15f747e07c7e8ff275, 0x0);
  (true, 0xb52c04d03ee5d1a4b1d4065d2e74ed960cb2de26a95aa21abbc0df208ef24801, 0x12a3e628e939a2fd8f1ad0bde1092df9a535481992ae2d90cfb863d277e4cce3);
  (false, 0xa25099814b5320e1032c789b522196ca8e997d9c4c7caf884c79019ad46985e4, 0x0);
  (false, 0x722376042ae0f9d2ab08571a325abc3a4436037b5b82183ef03f4c040825c566, 0x0);
  (false, 0xa108d01af8d3416aa2f0e358342876e2ba7343cd700f6c28a824e467637a1221, 0x0);
  (false, 0xaa93ae9daa82037fbb9b9ac8d39248dd36602f49c2588d2617debf0c252844b5, 0x0);
  (true, 0x1636e902f0379b679aafde9343d791a7ab89d449ce8432e3b716d55e3470094f, 0x418eb01924dfe8c1d1b5d2640f7b4f51761f20a7ed44fdd0ec228c63b32d591);
  (false, 0x61d87a0cfe2e33fd3d7b20932d6ec316534b451b05017d55ebf66df97c650703, 0x0);
  (true, 0x24454cfd40d319c9fe377ebae48788ea6718ae1dc023e42f98c46838dfdb2715, 0xaac8d08168fd5dee902229130935bd5a0ac4d379be933febd919cc0b7a2e5130);
  (false, 0x717534901dbb59ab006854c068a50dfdd20232fe591a31fbd7dda12262862069, 0x0);
  (true, 0x41c5c1a77b62baa51b180e1dcbff6780ece0a093f5a78051c6de090fab67d58b, 0xebc6d109f72f728a610845d8b80fb19ad841db2e1c03dbcb3eed0dfee6d91c17);
  (false, 0xcc008c577437b3b458c9b836494bb2bc62d6e64da3f0842ef710401e85163577, 0x0);
  (false, 0x9294b9f9f80b87f9d51ea42cdc54616c6c8cacf9b6a14ad9e9bee370d90df338, 0x0);
  (true, 0x27b376e30f76ec47e5e68b16c3a2cf484262baa820f9d61937a65d963ba0a28f, 0xb356d43dd2529c5a54aa1be37ae45f40a55eff9d37fb8e5982a4020012e3357d);
  (true, 0xf1bf5eae2a0c4c9ef23bb69797a3827927656b3d5c2e1dc0e927cc43f0db11ba, 0xfd1953e6245ee1082c462f3f48fd8774608596ec7cb902992e71480dc130ee0a);
  (false, 0x546acca7e813b1998650b06326ef6544d2d72aa88a3413c45c35c5c3ba5cef5e, 0x0);
  (false, 0x631098678fdb228e7be3f87f83e86efe5e8cb7d78b2be931475be0b75e618be4, 0x0);
  (false, 0x792c04e8f7afd1b9a401fb8523f74d5c81c76302b10a6726b0a0b54d60e62eac, 0x0);
  (true, 0xa12d5e05dff013873b8147dae62e9e6caf91901e3e357c1cec3858f69f0d4b2, 0x8ad9d5ccae481c43ec6147504dc79bcd6be442d17a08e8308ba67158150af0c1);
  (true, 0x2a2f3623eafc2706805279368e2b1c5c2afa8d5e85e53d5ba7e9d48345cf88f4, 0xdcb178413b5bf8a7e6673c725205ebe2b46d08b48dfd10d6b8b5b64c7784cb5e);
  (false, 0x292696c573b74a6cd56a72bbb1bcc0d621fb2ff611aec55bd728a03258fa9ac4, 0x0);
  (false, 0xaa59b2dd302ea6d3ebf0bd86b52a675096448eaee3e2c37f59fe73a32ea2452c, 0x0);
  (false, 0x9824e79ee39825411d7bf6454d5ed23a6453d1b81b9b3a889361ae2bb1a01db9, 0x0);
  (true, 0x1410252b4cd150f805430da05be0fa84af1a95f3bda9041d49b5dac99bde7dbc, 0xbbfcd07191b18f5a117705fce0e545982040ce1aceba58b3c845ffc73862b517);
  (false, 0xd835dfd81665457b77de5400f8e630b0f3fee3384b8a278f65ff35efbac3549d, 0x0);
  (false, 0x31acb4e1b1cf7975d68309d78e4079a67ff7ca16b70a141bca36aa1e38f7816, 0x0);
  (true, 0x9e134159fa7f342a7059c56115bfcbe4aee40bb38561a32f7d1cd882eb497297, 0x665a592e9e7e0e0834520299dd18932921e8b044837672b84a1d76bda94ea771);
  (false, 0xf7f95ba71f70ffae38b8afe471517eb23276f67bb7e8587cbcc1c8f03fdd8edc, 0x0);
  (false, 0x775399578055e555c62520e02bf03e8454a29230887ca4369e4c87b9bb0ba8cd, 0x0);
  (false, 0x500a08279b3c953b7ea4c442af79ee4fc12bb93017e4727816b4374fcac245db, 0x0);
  (true, 0x759f42169706492f4d893748465b0b891cf451657415eb8bad19754d88799bb8, 0x5405a7785e36b9d167d595f723278e971d3bb97a4e508380e914c029d238e8b0);
  (false, 0x9b2f8851451a0c4a32b655df99f323889b9f437a5ac499423c383f787a29e43e, 0x0);
  (true, 0xfd694f82ce17714f7e6a833cfa028cf5206ab4c04bab17679f65e28f90487e1d, 0xd25daf2b3ec0a1fd31b026d1d4a74c5b91cf034cca47c79ba6a7f417cbb8df17);
  (false, 0x6d66f1633c0ea4e3be369e04bdcfc73efac3f92d72320932c55fd0197c48e44a, 0x0);
  (true, 0x60fb0dd8cfb159a6cc7a0b308761f2bb17857246959617835ef54989090a211d, 0x1e6b383d53e61c18decdfe12b494dcf476283d680b35bc7e4d5eb02c077d0c74);
  (false, 0x50018607e3d60e50bc5e7dd6ea0060dab9e5478b964170294f64677ef6f5adfd, 0x0);
  (true, 0xcae60ba240a4434e4187587e5c8846b5fb61cb5eed6df31ef65e69275e8298dd, 0x76ad8c6a8ac55ad1b09889e9c6a81d96a91dd1bd446aef83c40f4f061310a947);
  (false, 0x27fec578a9edadb2aa5328699c0a3cccb201d9e4c4c46c036041f20898797576, 0x0);
  (false, 0xd4f0db18fed8a66a083b386445c250011b57923062480f793ccb65d82d6f2d6b, 0x0);
  (false, 0x58ff873b75fe48d0de02ba7960e477f2b009a1fad79a0c13db1f838a68704f33, 0x0);
  (true, 0x4a448861c49b177bf3d75a72ffbe403636a0189476ffa033360c12be26583b58, 0x4e219c18ca5619c46eaf37fc301fe79a4dda7c44b5afe42b99f0a049e5235432);
  (false, 0x857ad2cd6b2921bd076754555a30fbaa46c691e4d20c90d6ea86468cd38da973, 0x0);
  (true, 0xcfc72646669a22e13c4fa2f56147ca7fd7babf662697196e4fab511935abdd53, 0x3cf6d0d4f96148d20deb44279534ba464073d732225d9e675a1d81a446079a3a);
  (false, 0x8adbeb828d3955fd13580b649ec0d51cd200054e8894fa357bb6dd39dd142198, 0x0);
  (false, 0x8fd62364fc6918a7b6ad07b7300fbb01b94e5f0fc41d37bcc1f45a015cdc44a6, 0x0);
  (false, 0xd9a2254eb1165724d49b7f402b59327424e10d29788a1a1b00e957605bca3d62, 0x0);
  (false, 0xe838298a11c6053304d86bdaf61c5c8d69f0d9a71cdac755d0eef49f886c88a5, 0x0);
  (false, 0xc32552ee2210231698d000b389e2f9bb93532e3f3c0dc62634ad9f14b80b3a81, 0x0);
  (false, 0x5b992fd2d78850b42b957a04c4217803e73a2f75edc048f1fe7f5d849cd9661f, 0x0);
  (false, 0x33fa37f998b0740bd3d01ebf4eb5dca5fd795ca30bb2b700f6c2c5246c91c493, 0x0);
  (false, 0x6c647a1f5541b1be021e4f77cd01120521d0d33c945d4d43da55868291df55d1, 0x0);
  (false, 0xa881cca3218459c4678bb25fbc018ebb7201965d2d05436f7cddc2a67995862e, 0x0);
  (false, 0x9176aa61da3a43f2c3aa722d4938d534e45ea3c34dd7d52d38fe3a4e4b052794, 0x0);
  (false, 0x15f335679cf24d02b0b55fdd7638c68285de4d357daa4be71b389ad9535365de, 0x0);
  (false, 0xd752c21abb9fa74c23cf9a0a508bceb1e8ebf1a05fa786e83dfcabe7215cc4f8, 0x0);
  (false, 0x8b3d8da9821538c4475232b06093d3fa288c68c003427d39f1ced9e3bbfc8c3b, 0x0);
  (false, 0x4836f38b45f2a424931add7980a31bf02d932c6fc999d1fc31ab23c7225027cf, 0x0);
  (false, 0xe8336acb6dc9e42fab137b0020cf959c58beb9c8dbd24817f0db4d4de21a0ce0, 0x0);
  (false, 0x2ecde3a1819b7740be340e73abd290b7be207dc8b994187f22de6eae9bc0bf87, 0x0);
  (false, 0xd3eaf468a8bc9da649bfda360e58123d08a8994961d8dcc798e8f327d77a7b58, 0x0);
  (false, 0xcf169a730ff6bd430feeadfce090a00b8759d8d0bf889fc3f149e8b8873558e6, 0x0);
  (false, 0xb2059641ab0bedb3d33165cfdd3f28ea07ce982b23a5c2c28b0b13e0d6398458, 0x0);
  (false, 0xadd2fbf87697aae5ab2e2dcaaf5124953800e7ee86c6dac559dcf3af6cf0dbcb, 0x0);
  (false, 0x9287be7f0afa6983cd699e3214e93be3f148051bc4fb4ef320c804f4b794300b, 0x0);
  (false, 0x9c9fd4930c70494186b5d5d9d890e2bcce7206cf188411b34d3b67ea6f8c28a2, 0x0);
  (false, 0x34d435f849f01d44561214651ddf3211d592d451d2a86f8735fb65f4cd4bcfdb, 0x0);
  (false, 0x7b7846b99d2cb887dc01de992223a08bd13234db3fadf04f7cd70e0a52208267, 0x0);
  (false, 0xf7a26b6a8ce590440204968eaf4da18c5dc4f489c2df35ce2ffc02fc468a6fa9, 0x0);
  (false, 0x1100fdec7e6383675829d155e86ec171267c223e1af2130f62dd917a4ab681ea, 0x0);
  (false, 0xa210709fd33d3229ed42eb3f8adbf0b5aa1160af5247148199a372de4e262559, 0x0);
  (false, 0x372b7dac49413e4c9dad265782bb7a697f6b7066a48cf5559b1227cbfb02729a, 0x0);
  (false, 0xa9587d010c296df8256bb52abcc9f14a8096637c08c53b90c2508e512193e884, 0x0);
  (false, 0xf2eb75eec8d833de051f90e5ce580682965818417ad8deeddf4e6b867fdd2966, 0x0);
  (false, 0xf285b9d782f0c0358d78c0660d654c01b9a4854ddc7b5cebf22e5cbfc0c44685, 0x0);
  (false, 0x7200f1a08c4d4fa4b78f1a5ccf3dcd2a05dac0177c506d88589c5ec2a987e9a, 0x0);
  (false, 0xdab54b18d28903cf90b96a82c856b347b5809ef67d80f359ed223c17009cb9c5, 0x0);
  (false, 0x40f885d90dd61ea2f5659e2f2bf302f4e2bf09826f62d88a8053c5b509a23510, 0x0);
  (false, 0x1cc8488cc365cea31f2fa2bfdaf2cc934a7ee50cabfd150becf69e6f4461d10b, 0x0);
  (false, 0x540888725efd001e10d388737cf1cfa7349e1f8870aa9655492e125f3f6807ab, 0x0);
  (false, 0xcbd459afdcc89e756164c6f50b08e8231a953ba7807175a99eeabdad06dbbab3, 0x0);
  (false, 0x5e4c5a26fd030caab23e28ab4cfd0f3bb05b85f1a3af85084a01f8e337e2c301, 0x0);
  (false, 0xd7b2ac50e5f422a44b5fa8e1e17009beea07a30d87d1a22f1b645e1a2b9436cb, 0x0);
  (false, 0x6f6f2e174458f1d58240ba2cfac0d9070d865a2d820ca850f93c92ac5eabd882, 0x0);
  (false, 0x287a0f5419f0c50b86e3d4e36a2093c4853f9fcfcd9c9918115a50d610bd0574, 0x0);
  (false, 0x9889077ff7088509a52a94303f520cd847b1998c048b4457312e0c5c1a9507ea, 0x0);
  (false, 0xc519b871bb990b190be26744246550363e9ccf0909487de80822bc5c0c725b3f, 0x0);
  (false, 0xc7816876ad9abbf99acb73461760051cde30b403c126a5d18def648dcd8a3255, 0x0);
  (false, 0x35ddc1c3218ad84fc1545f6ca20f19705f4cee46b36e21e1ffd9f4f28793f197, 0x0);
  (false, 0x634da6c426d7e9540c4ec18599a4aac7b6f27f4541aa9c5ec26df1f1922fde6c, 0x0);
  (false, 0xe8150724b4cc461557c8359ad74ec82e5eaa15d665db3306a7517390d4f9a142, 0x0);
  (false, 0xfe85fc2db040e0bf7f52d908972234ce554af464e48dc688262d664d91d26ef2, 0x0);
  (false, 0x9b3653fccbfb063809d9bd9c7697e235a29eb0e52279887b1d3729fb5b679b31, 0x0);
  (false, 0x9af09d487e0b537a82b89893d84e5748912cfa7c4d1e82a889fb3a08966ec885, 0x0);
  (false, 0x6eaae5507193866000abd5a64adac8a3737a5dc078c8273a372cba8385e9f1d7, 0x0);
  (false, 0xdddfc2224c76486c7cf9a8aad85abc295a5272e88b500a0a3fa5d2868ca0cfb4, 0x0);
  (false, 0x2f57949e5699197663093203346d7d5f2bec999ac95a01ab37134aa771c45fe6, 0x0);
  (false, 0x49129c375ba6e6bb5695fc239fa9414fc1f82bfe3acc41f1a4d2696df87f6430, 0x0);
  (false, 0xfa027415863d41fa371c2dc21e44b0c9b8eba0048b2c4dd2698ed166bc4e81f0, 0x0);
  (false, 0x282ba9fe238cf4d58886ca874c29771dec3f1fe49d8d1478d77543a97562c63a, 0x0);
  (false, 0x2a296a5b39c00f29aefb930028fb5f9a29b29d6260977e5390ecacd1b4f963a9, 0x0);
  (false, 0x7f8ab1c12cc5ecd1865a8307f2fa33d5a7e43c5e2a992126e8e458e74de52d59, 0x0);
  (false, 0xd1d1154a63ffd0950b5550b0ce04673742208ef0b192ae37de10730284ce6d31, 0x0);
  (false, 0x9e87acd4a4f9954e433d87d2c82b246380f5d49b0ade098a24addc6e6ee1de4f, 0x0);
  (false, 0x4ee74fade23a01a878fb3c374df45c17c225066fcd6bde84297fcb6d0d076b80, 0x0);
  (false, 0xf6d86bf1dc1c078cbb867791047c8b5b38eed75bfb229a5c0ded069a7e8ece5d, 0x0);
  (false, 0xdf71ec84c663fec05c571e2c6fc5085c6011af545fbe42f3ff693db7d801c00b, 0x0);
  (false, 0x361f57ef460f29732cafc83d9eba25fe0dd319931c8036710b2a38f274f1db61, 0x0);
  (false, 0xa4afeb28ea7f78a6c09688fb88e28a8a67d5786fa2f90dca571f6de9515ef2e, 0x0);
  (false, 0xff5737b636d1c1ffbe6c3acb14f153e190294a4b1510629bd4c822ab9dad3e37, 0x0);
  (false, 0x3c8aae7b252f8ad62c5cbd47b0395603168652829700f7c1f76902d8f7ed0e95, 0x0);
  (false, 0xa5af926d811d13acfb2c4a8c53c007027c0786aaa9e7ca78d2ef4ce4f1014719, 0x0);
  (false, 0xcbe492e4985bdd16dadef632759ded318b5927d7201171512a30ff038b505ab5, 0x0);
  (false, 0xc194d171091781faa47f5ce501af8b4334ff7fe52203f734ac51cb5aec54e4c7, 0x0);
  (false, 0xf2da5bf72e636a9f21f40bafdc050a179de1ea73d05fe6de8bae1ac6ca80f88d, 0x0);
  (false, 0xf492eaa6961c99ae817c48f8e3a99d4a2945f856225756a063f20f3021e24ab0, 0x0);
  (false, 0xa72e4243dc96df2a157145e0c716cc80520155f5128cd64d74123b48359d5782, 0x0);
  (false, 0xeb7198abf8ca01eb3fac129c5a73dc3b83d031a663556a8467837511c77ce4b5, 0x0);
  (false, 0x97b46ee4200685076ddedde034be36b2906cd6bc27e4a45103dd3df11241112f, 0x0);
  (false, 0x2236ba67f0aed1ee74398f778818bc9190f4f60d994e1952d10793288a21c756, 0x0);
  (false, 0x8eddd290e5189e9a09c76ed6d712441b6d27664842dd8e2a2da6fc2264734dae, 0x0);
  (false, 0x5e5d9f74a69405ab738e867514ecbd088355b4c30437e68d0aea625c1d4349ec, 0x0);
  (false, 0x86d7e10b7570e8b0637420fc36ff4e519a6eab0b3ffc8ac280b69a1d86ff9887, 0x0);
  (false, 0xf66c18362c94a842ae9f96fd5fe8a693363e8759ff6c57cdc3f98b7730339f73, 0x0);
  (false, 0xdbfd8bf7c3b1490a8b50e596292609b6253877026373c6a492ecdd76197b8138, 0x0);
  (false, 0xd8922062d40c8a8ad208d58d36ad5621d550e8fb087d1c34f90909dd1a2b4f79, 0x0);
  (false, 0xdc1020d83e933047e2c67d95c88b21a1172997339674cf169ec12b7e79270d55, 0x0);
  (false, 0xb30ceb66c726c55aa8bdeef02647bed83bb630d8025e1beaa2a4659163a8f3f0, 0x0);
  (false, 0x90a197b7b8e33bfeb50cc4756bced529643b3afb182001e52b13f8336cf36bc3, 0x0);
  (false, 0x538642245d31a63b4ffc418923f6e47a203f3c84c89fb4291b3726d7d2c6be2d, 0x0);
  (false, 0x29e06cd166ef787ccdee448a9b153c1f4e2693bb0de4270e420d5e1413c652ae, 0x0);
  (false, 0x22045e501c08e7fd4bfd5e3730fbefb93cc5ef12bac847beb4253468845106b3, 0x0);
  (false, 0xcf3730f3c43c216356e4851fca06af5a3feaec8e75aaf2a402dbc499336d49cd, 0x0);
  (false, 0x5a72b1347f2f36dc741c32f6d55ecc4feb41dc1d79bc84dc3c3caa4d33b31c33, 0x0);
  (false, 0x2cf6e38b89eb995ff629523e4d1a1870528d114ddfac39b1848799eb9e8e3a19, 0x0);
  (false, 0x4d2f7028964ab24df12ede0ebb0d70474d9d35e3fa88a6f72d0992ca075e7423, 0x0);
  (false, 0xe7f7b5bf52677f47c909ff753e0cb6422a756242da7e9774f36f7853e8ba4548, 0x0);
  (false, 0x67cf0c07b10b0e211b54630fd69e79dfea8523099792a76ee4fdf4e9f6aea0a0, 0x0);
  (false, 0x73055117f8fc71da09e4402e46a97b6258827c6a82b8f56dd4ed293544d609bd, 0x0);
  (false, 0x20f70b4b1d6ce28d3cb19b2f27a9714fe1185759ffd6109ec1ae18ba7e0b482b, 0x0);
  (false, 0x92ed0bec3174253e88f618baf673554e1329094b7bfbcd13d35dd9abf016b216, 0x0);
  (false, 0x2cd908c6c9e08e431bd3bcf301875953abae29e512407a57a9131c017312ba60, 0x0);
  (false, 0xabb29926777623d00344ec00c5dd34ea088fc53e9f5ef3e6d3c7cdd083ad1676, 0x0);
  (false, 0x695a461880f215df8c78df54a946d96d3d913b60d87441a36d3e41538f4789b7, 0x0);
  (false, 0x779bd28859b018134c8e880d8a3618c424181023236cb8286c33e300ff139275, 0x0);
  (false, 0xa35657db7e33dd28b733057677392155cc1b5230a1fe05b24ffc8e5b5198fefa, 0x0);
  (false, 0xd3c93a931625a689dd3592bab79729508468624abd1b29f3fc8a043138c2fbdd, 0x0);
  (false, 0xae953ad3269b7bcb3fc29e1dc17815047a20636d0ece8ba0dc6dddcbf615bda, 0x0);
  (false, 0x4fff3d2acd719a0c307986ea355754397ae1fca620951f11cae247eacc5841a6, 0x0);
  (false, 0x7a52afb302ea144dbc27ab1f0c7c9af22e769094a0a9b1eff91b1eafbdf41c0b, 0x0);
  (false, 0xd81c11d09ea2ebe388858b897a2514e6c806372d05dafa3a8307e1103e57626d, 0x0);
  (false, 0xa1f316299c051adcfd77e3908b8b8e1d16a72fcd0b069f7ae3f53fb842d3ad56, 0x0);
  (false, 0xaee719a737ac4e364919e03e5445a0aa54749101ba80f9870cf20e6dc301ffdc, 0x0);
  (false, 0xe732d14399fbeed039026f11b190354fba6434bfd8f73a24ef6362b4a0ea91ef, 0x0);
  (false, 0x2c649e1b444bfaa921f03578039be8f40e5e8ec300f40fb2cf8755a250992c04, 0x0);
  (false, 0x7f6ca70ea09ad6dc86113265e004c641fe4ade7c26f023e090d6fed00d0af860, 0x0);
  (false, 0x956bb6638dcfae6ed2d37ab4883e724fe35b9eef641780caac5efc9af49ad601, 0x0);
  (false, 0x4ba55d8b5483fb0b4eef34a9a5f85538af7bbc4e921ba073bb4bf2b4cd7a6391, 0x0);
  (false, 0x13b8ee10d8c63ccc1406374f50b83c6235b74b6e09e566dcd2899776e23a0e7f, 0x0);
  (false, 0xaa3e6192682f538d4b72a6099461c5e2cfe08640786f4558796afa7bdd1b4f14, 0x0);
  (false, 0x6d40f867eb9969bd1934729f2455f97d4dfc8afe1a79a60beb99bd71d438f605, 0x0);
  (false, 0x41c6ddf7f1d7920ac2d440aa504b65fbd35a0fc0b352cf7d2843b7f37fa68e6d, 0x0);
  (false, 0xf717c949c00a247330d2c209336c342191c46c4a3cd7e6c574cf6d0475aa1d3c, 0x0);
  (false, 0x1bddb5e9b6dcb12288dee8372dd502b817cebcf99239560c5bb02eae1f5b8d6d, 0x0);
  (false, 0x5155e968839912f9df9c4d6591d7f05b63e0a833bfbf06859834b241f4ce2c97, 0x0);
  (false, 0xa6e9eb9d3da9c42f9aae6f283394cef1be5989de42d18f364787a82adcf070b8, 0x0);
  (false, 0xbbf8483324d2a924f05c202908140e3f3fd6da9ac5f253124e8953d67d1905a2, 0x0);
  (false, 0xf606cc653fb2edb4402ff71980fbd71223060bd7ebc89b350e2a4b367515686a, 0x0);
  (false, 0xe0a350de580db0ef003512968ac580a51a40c6df2112239e26ad8a411bf7301c, 0x0);
  (false, 0xf0313f849e88f449ddecee7e8f30603b8b1fdbb3cf774d1188570c68388edc6d, 0x0);
  (false, 0x68ca87e5d24c22c2e1ac71fbd4d2caaf3ba53fe97f87e31de6444abafc9a1f02, 0x0)].


(** Points with coordinates that need not be reduced. *)
Definition gp (P : Z * Z) : gpt := Some (up1 P).
Definition zero_p (x : Z) : bool := let r := red_p x in (r =? 0) || (r =? secp_p) || (r =? 2 * secp_p).
Lemma zero_p_ok x : zero_p x = true -> x mod secp_p = 0.
Proof.
  unfold zero_p. cbv zeta. rewrite !orb_true_iff, !Z.eqb_eq, <- red_p_mod. generalize (red_p x). generalize secp_p.
  intros p r [[->| ->]| ->]; [apply Zmod_0_l|apply Z_mod_same_full|apply Z_mod_mult].
Qed.
Lemma red_mk x : fmk secp_p (red_p x) = fmk secp_p x.
Proof. apply fmk_eq, red_p_mod. Qed.
Definition third_p' (l x1 y1 x2 : Z) : Z * Z := let x3 := red_p (l * l - x1 - x2) in (x3, red_p (l * (x1 - x3) - y1)).
Definition dbl (l : Z) (P : Z * Z) : option (Z * Z) :=
  let '(x, y) := P in if zero_p (l * (2 * y) - 3 * (x * x)) then Some (third_p' l x y x) else None.
Definition plus (l : Z) (P Q : Z * Z) : option (Z * Z) :=
  let '(x1, y1) := P in let '(x2, y2) := Q in
  if negb ((x1 - x2) mod secp_p =? 0) && zero_p (l * (x2 - x1) - (y2 - y1)) then Some (third_p' l x1 y1 x2) else None.

Notation mk := (fmk secp_p).
Lemma third_p_ok l x1 y1 x2 : up1 (third_p' l x1 y1 x2) = third K (fmul secp_p) (fsub secp_p) (mk l) (mk x1) (mk y1) (mk x2).
Proof.
  unfold third_p', third, up1. cbv zeta. cbn [fst snd].
  assert (E : mk (red_p (l * l - x1 - x2)) = fsub secp_p (fsub secp_p (fmul secp_p (mk l) (mk l)) (mk x1)) (mk x2)) by now rewrite red_mk, !mk_sub, mk_mul.
  rewrite <- E. rewrite (red_mk (_ * _ - y1)), mk_sub, mk_mul, mk_sub. reflexivity.
Qed.
Lemma gdiv a c d : mk d <> f0 secp_p -> a mod secp_p = (c * d) mod secp_p -> fdiv secp_p (mk a) (mk d) = mk c.
Proof. intros N E. apply (div_eq K _ _ _ _ _ _ _ _ KF _ _ _ N). rewrite <- mk_mul. now apply fmk_eq. Qed.
Lemma eq_of_diff a b : (a - b) mod secp_p = 0 -> b mod secp_p = a mod secp_p.
Proof. generalize secp_p. intros p H. replace a with (b + (a - b)) by lia. now rewrite Zplus_mod, H, Z.add_0_r, Zmod_mod. Qed.
Lemma dbl_ok l P P' : gon (gp P) -> dbl l P = Some P' -> gp P' = gadd (gp P) (gp P).
Proof.
  destruct P as [x y]. intros O. unfold dbl. destruct (zero_p _) eqn:Z; [|discriminate]. apply zero_p_ok, eq_of_diff in Z.
  intros E. injection E as <-. unfold gp. rewrite third_p_ok. unfold gadd, padd, up1. cbn [fst snd].
  pose proof (y_nz K _ _ _ _ _ _ _ _ KF seven k_no_root _ _ O) as Y.
  assert (Y2 : mk (2 * y) <> f0 secp_p). { rewrite mk_mul. refine (mul_nz K _ _ _ _ _ _ _ _ KF (fp_dec secp_p) _ _ _ Y). intros X. apply k_two. unfold f1. rewrite <- mk_add. exact X. }
  destruct (fp_dec secp_p (mk x) (mk x)) as [_|X]; [|congruence].
  destruct (fp_dec secp_p _ _) as [X|_]; [exfalso; apply Y2; rewrite <- X, <- mk_add; f_equal; lia|].
  f_equal. f_equal. unfold f1. rewrite <- !mk_add, <- !mk_mul. symmetry. apply gdiv; [exact Y2|]. exact Z.
Qed.
Lemma plus_ok l P Q R : plus l P Q = Some R -> gp R = gadd (gp P) (gp Q).
Proof.
  destruct P as [x1 y1], Q as [x2 y2]. unfold plus. destruct (Z.eqb_spec ((x1 - x2) mod secp_p) 0) as [|N]; cbn [negb andb]; [discriminate|].
  destruct (zero_p _) eqn:Z; [|discriminate]. apply zero_p_ok, eq_of_diff in Z. intros E. injection E as <-.
  unfold gp. rewrite third_p_ok. unfold gadd, padd, up1. cbn [fst snd].
  destruct (fp_dec secp_p (mk x1) (mk x2)) as [X|_].
  - exfalso. apply N. apply fmk_eq in X. rewrite Zminus_mod, X, Z.sub_diag. apply Zmod_0_l.
  - f_equal. f_equal. rewrite <- !mk_sub. symmetry. apply gdiv; [|exact Z]. intros X. apply N. unfold f0 in X. apply fmk_eq in X. rewrite Zmod_0_l in X.
    apply eq_of_diff in X. rewrite Zminus_mod, X, Z.sub_diag. apply Zmod_0_l.
Qed.

Definition gpo (A : option (Z * Z)) : gpt := match A with None => None | Some P => gp P end.
Fixpoint retrace (l : list (bool * Z * Z)) (P : Z * Z) (A : option (Z * Z)) : option ((Z * Z) * option (Z * Z)) :=
  match l with
  | [] => Some (P, A)
  | (bit, ld, la) :: l =>
      match (if bit : bool then match A with None => Some (Some P) | Some A => option_map Some (plus la A P) end else Some A), dbl ld P with
      | Some A, Some P => retrace l P A
      | _, _ => None
      end
  end.
Fixpoint bits_val (l : list (bool * Z * Z)) : Z := match l with [] => 0 | (bit, _, _) :: l => Z.b2z bit + 2 * bits_val l end.
Lemma bits_val_pos l : 0 <= bits_val l.
Proof. induction l as [|[[[] ?] ?] l IH]; cbn [bits_val Z.b2z]; lia. Qed.
Lemma retrace_ok l : forall P A P' A', gon (gp P) -> gon (gpo A) -> retrace l P A = Some (P', A') ->
  gp P' = gmul (2 ^ Z.of_nat (length l)) (gp P) /\ gpo A' = gadd (gpo A) (gmul (bits_val l) (gp P)).
Proof.
  induction l as [|[[bit ld] la] l IH]; intros P A P' A' OP OA; cbn [retrace length bits_val].
  - intros E. injection E as <- <-. split; [reflexivity|]. symmetry. apply gadd_0.
  - destruct (if bit : bool then _ else _) as [A1|] eqn:EA0; [|discriminate]. destruct (dbl ld P) as [P1|] eqn:EP; [|discriminate]. intros R.
    pose proof (dbl_ok _ _ _ OP EP) as D.
    assert (D2 : gp P1 = gmul 2 (gp P)) by exact D.
    assert (O1 : gon (gp P1)) by (rewrite D; now apply gadd_on).
    assert (A1e : gpo A1 = gadd (gpo A) (gmul (Z.b2z bit) (gp P))).
    { destruct bit; cbn [Z.b2z]; [|injection EA0 as <-; symmetry; apply gadd_0]. change (gmul 1 (gp P)) with (gp P).
      destruct A as [A|]; [|injection EA0 as <-; reflexivity]. destruct (plus la A P) as [R1|] eqn:EA; [|discriminate]. injection EA0 as <-. exact (plus_ok _ _ _ _ EA). }
    assert (OA1 : gon (gpo A1)) by (rewrite A1e; apply gadd_on; [exact OA|now apply gmul_on]).
    destruct (IH P1 A1 P' A' O1 OA1 R) as [X Y]. pose proof (bits_val_pos l). split.
    + rewrite X, D2, gmul_mul by (try exact OP; lia). f_equal. rewrite Nat2Z.inj_succ, Z.pow_succ_r by lia. lia.
    + assert (0 <= Z.b2z bit) by (destruct bit; discriminate).
      rewrite Y, A1e, gadd_assoc by (repeat apply gmul_on; assumption). f_equal.
      rewrite D2, gmul_mul by (try exact OP; lia). rewrite <- gmul_add by (try exact OP; lia). f_equal. lia.
Qed.

Definition same_end (r : option ((Z * Z) * option (Z * Z))) : bool :=
  match r with
  | Some ((x, y), Some (x', y')) => zero_p (x - x') && zero_p (y - y')
  | _ => false
  end.
Lemma retraced : same_end (retrace slopes (Gx, Gy) None) = true.
Proof. vm_compute. reflexivity. Qed.

Definition gG : gpt := gp (Gx, Gy).
Lemma gG_on : gon gG. Proof. exact (up_on (Some (Gx, Gy)) G_on). Qed.
Lemma order_cancel n c : 0 <= n -> 0 <= c -> gmul (c + n) gG = gmul c gG -> gmul n gG = None.
Proof.
  intros N C EQ. pose proof gG_on as OG. rewrite gmul_add in EQ by assumption.
  apply (gcancel (gmul c gG)); [now apply gmul_on|now apply gmul_on|exact I|]. rewrite gadd_0. exact EQ.
Qed.
Lemma retrace_G l P A : retrace l (Gx, Gy) None = Some (P, A) -> gp P = gmul (2 ^ Z.of_nat (length l)) gG /\ gpo A = gmul (bits_val l) gG.
Proof. intros H. exact (retrace_ok l (Gx, Gy) None P A gG_on I H). Qed.
Lemma same_end_ok P A : same_end (Some (P, A)) = true -> gp P = gpo A.
Proof.
  destruct P as [x y], A as [[x' y']|]; [|discriminate]. cbn [same_end gpo]. intros H.
  apply andb_true_iff in H. destruct H as [X Y]. apply zero_p_ok, eq_of_diff, fmk_eq in X. apply zero_p_ok, eq_of_diff, fmk_eq in Y.
  unfold gp, up1. cbn [fst snd]. rewrite X, Y. reflexivity.
Qed.
Lemma retraced_gen l : same_end (retrace l (Gx, Gy) None) = true -> gmul (2 ^ Z.of_nat (length l)) gG = gmul (bits_val l) gG.
Proof.
  destruct (retrace l (Gx, Gy) None) as [[P A]|] eqn:E; [|discriminate]. intros H. apply same_end_ok in H. apply retrace_G in E.
  destruct E as [<- <-]. exact H.
Qed.
Lemma order_gen l n : 0 <= n -> 0 <= bits_val l -> 2 ^ Z.of_nat (length l) = bits_val l + n -> same_end (retrace l (Gx, Gy) None) = true -> gmul n gG = None.
Proof. intros N C E H. apply retraced_gen in H. rewrite E in H. exact (order_cancel _ _ N C H). Qed.
Lemma slopes_eq : 2 ^ Z.of_nat (length slopes) = bits_val slopes + secp_n. Proof. vm_compute. reflexivity. Qed.
Lemma n_nonneg : 0 <= secp_n. Proof. vm_compute. discriminate. Qed.
Theorem order_G : gmul secp_n gG = None.
Proof. exact (order_gen slopes secp_n n_nonneg (bits_val_pos slopes) slopes_eq retraced). Qed.
