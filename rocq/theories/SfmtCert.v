(* Data for SfmtJump, computed outside Coq and only checked there: polynomials over
   the field of two elements as lists of 63-bit limbs, lowest first. Nothing here
   models code of the repository. *)
From Coq Require Import Uint63 List.
Import ListNotations.

(* the characteristic polynomial of the recurrence *)
Definition sf_chi : list int :=
  [1; 0; 0; 0; 0; 0; 0; 0; 0; 0; 0; 0; 0; 0; 0; 0; 0x200000000; 0; 0x2000000000000000; 0x800000001; 1; 0x14000000; 0x50000000; 0x500000000000000; 0x1400000000000000; 0x220000; 0x800002080000; 0x2a00008000000; 0x82800000000000; 0x1000; 0x45000; 0x504000; 0x4000004000; 0x14100000000008; 0x140000000220; 0x100080000220; 0x20000080a00; 0x800020880000280; 0x2020000000801; 0x280000a804400084; 0x2000020010000105; 0x104000004014144; 0x410001104000044; 0x4000504014020104; 0x5410001110088000; 0x4100a00140800020; 0x45028808000020a8; 0x140220002028000a; 0x808882000081000; 0xa00001282b01101; 0xaa80040a900004; 0x8e140000050501; 0x4a2000404440002d; 0x1001504000415a88; 0x41404441004540a0; 0x1001460b84130280; 0x215122800008280; 0x4084402880882825; 0x2200208001122030; 0x268280814a0c90; 0x2260a9a20134240; 0x6856023010401414; 0x1810d9a01111c011; 0x140050140014521; 0x101448840d038108; 0x1404930b0c0a401e; 0x1852f84510a08202; 0x41423033c2a24070; 0x5aa00480a040d49; 0x122a801c28ac2e20; 0x6a000a1068685c89; 0x1b031db872c01020; 0x5a0e4302c2c14e82; 0x2503401914041c08; 0x7c851462ea252078; 0xc09130a2c0c31b1; 0xe4401222930027; 0x1b0014e4c64f0398; 0x2a90280b26154a15; 0x228482088dee345c; 0x73a0602350a00373; 0x18636177014a4c01; 0x751823bc9581913d; 0x5c90898920369050; 0x517009f99828a0b4; 0x4a7344000e9055ce; 0x4890da19f1805d5; 0x26e431538ab20538; 0x1b48d8b424802048; 0x60a915871c5c5d0; 0x1e40e04049cac48b; 0x7670e385be951c38; 0x347470682cb56e0e; 0x6b8e823c26a05320; 0x20ce8c2d6a1807e2; 0xb7cd221bbad095; 0x12780c22052143a0; 0x2372a9d9c76d424; 0xef23403017141c3; 0x3eccc60535858991; 0x1246d5026110291d; 0x69a8eb8412fcf42c; 0x22c79ae353497115; 0x44729b8a970a0c3e; 0x36d521da950b3fcb; 0x448106b288ea30; 0x244a9498da90094c; 0x198467ff7ce28cb2; 0x26ab97d4964adc52; 0x123bad3f31e6554e; 0x41851c4c2cdd094; 0x66a5a00d587f9271; 0x7a5f9453c512e050; 0x602e358d08a21b11; 0x3eea85b28862ca4c; 0x5baaa1266b67501d; 0x6813df8a93b3b286; 0x28a650e77468e378; 0x6796de60c57b3520; 0x595a2d4a345d171d; 0x43d571d4457ecae4; 0x4593ac7c77a777f4; 0x1464afa9fea51073; 0x5bcdb68de6367d38; 0x5d63fc57efa82ca0; 0x19072ae994c9afe6; 0x7b3d61a35c3ba416; 0x14fa53aab467caed; 0x67a6382493eac127; 0x232c86ff3e94e396; 0x6cc08b09f51871ff; 0x352b3e72042e85e0; 0x6311af7b7278a1ea; 0x118c005295297f95; 0x9329e8be56c95a9; 0x120b0aec23f8c6b; 0x371879a520d42c56; 0x1abe0fa2fc757b8c; 0x674ef9eb5cc49342; 0x34330965a65fd1ef; 0x679740e8090c0c33; 0x1501eda98f3d85b7; 0x75e44b39fd0d4c29; 0x7d484e8593442a8c; 0x55cfecc233f7c764; 0xf515e414bf24f8c; 0x71cc53235773a166; 0x580b5a2d1f86a08d; 0x113c20b0df093899; 0x43c9412d206c3eba; 0x235b4d59ebec9769; 0x748634a54586df01; 0x413fbb001b9fa2ff; 0x1600eceb63bb791f; 0x6050e6d31753c0e5; 0x3e5d0ad814153bed; 0x774f90065e3926b1; 0x32f4e501b1928b38; 0x4af29fe5325a546f; 0x40af8e2be82d5f48; 0xd6cfd6660711d1a; 0x462f189e085a4b9c; 0x55d7264f89a01ff1; 0x24627373e7450cbd; 0x344faf640b7cd973; 0x486dcf8824357941; 0x23fe08394806015f; 0x24a08f7714eb89a; 0x3fe6015897af73be; 0x53597214dfb91455; 0x2cd556649d227c1b; 0x3f11d90954f10269; 0x1e787726f34b152c; 0x29f9d74300657210; 0x5d3c879bf5d887e3; 0x7dbc6ee0e5053405; 0x7c8c0b73fbbb3926; 0x371133e237ebf796; 0x2e7fea56d434cb95; 0xa144c240e1f997f; 0x7700c5530801a0da; 0x32dd1af522ff2fbe; 0x2a521d7e05aa108d; 0x18edda1458185285; 0x1d0e3950a4612c52; 0x57c7d0304647809a; 0x8e47d9775c28c7f; 0x2e801be9754381b6; 0x2585cb2a68d02411; 0x79500ca5705c11b; 0x488a9a6e2652842; 0x26f36ce6e75733de; 0x5dca8edabd55bf58; 0x6d40eafc8ccfc91d; 0x6ccb67e6dc689f9f; 0x793b4fc7907c7c4; 0x5043e807c88737f4; 0x1dc1ba071ede95e8; 0x213179df58b10d6e; 0x692b4efd26c8988a; 0x523ec999db38618d; 0x31f4ce6fd1601abe; 0x7d60059d3fe694d0; 0x4bbdaa492fc34134; 0x62aca2f5aac130cd; 0x2fb4d45ed71881df; 0x34e0943e8937558c; 0x6e4d7f59ca92729a; 0x15bdbfe9f66fdfa8; 0x18cee42657afed17; 0x7f7b663a151335a7; 0x4ee5c3ec6bdada6; 0x3832ffcb14703874; 0x2355f88281f1e004; 0x594bb28af749d940; 0x725ad8561c1840d; 0x6e819ec2c94d14a1; 0x5e4ae90120f9115e; 0x7444288bd0386479; 0x77d9e5e6feb24af5; 0x759c292cadbf1f3c; 0x5c9a959f728917de; 0x309ab5a92958d28e; 0x7daae32038b25464; 0x192e424e965e5a7c; 0x7e685b43b9ea3341; 0x3c9057623d843bf7; 0x32301dc7c9211245; 0x7a1757b10c4b6951; 0x2a70f83d0fac105; 0x6065f11e95e9ea64; 0x59eaeb94353987e8; 0x26cb03337303598d; 0x5e5265fd841641ff; 0x4e4981083afca444; 0x34ad142a52ec5a9c; 0x4668ecb1a14d9f27; 0xf4ee1a3474e4d5; 0x44d3bc6db690a130; 0x3584395027ee2e59; 0x21672a3d847fe51d; 0x587676770095239d; 0x221716498ea8d8f2; 0x51301a73cca04578; 0x1e8006262ed52a6f; 0x795c1598048ef142; 0x43335352ac6111eb; 0x202bb78b0211d363; 0x7e10631e86245000; 0xa04443ecd19800f; 0x12c18700414481d; 0x958af6bea5a9013; 0x20410d99d63883d; 0x5c66ebc91876a964; 0x7321a8140d3b37a9; 0x6768aa1574880a50; 0x622980024f61246e; 0x116026cb38d1f00c; 0x5642400bc4a2c908; 0x3e991a53d422c5f7; 0x1ac293eeaa91766; 0x1709004dabf42804; 0xa20dc444520583; 0x28c53e2318f61d2e; 0x4ab085407e61301c; 0x413045625103122c; 0x380d622ab4220801; 0x2c02050a25480210; 0x4b1a8b0022848a05; 0x6902090d8a8c800a; 0x1a64108a922002a5; 0xead064327841020; 0x4580208b518b0420; 0x216100e8002a0142; 0x4cc8c00290008083; 0x24a0054ca460005; 0x20c6a884c4913011; 0x4af0210128306904; 0x6d24800850245402; 0x491828d4020b5000; 0x146085408100a480; 0x38410214362200; 0x4068c200c041108; 0xc1599010800d26c; 0xb61000a04552001; 0x208040e92000019; 0x60202120c4020; 0x2101c08454e88005; 0x20a031222040020c; 0x1422204100800081; 0x51028112202012; 0x40402074508880; 0x5400101088910020; 0x1110060440224100; 0x2105400800000010; 0x4000140228440024; 0x108080408801100; 0x2c04020150828004; 0x2a0108880040a01; 0x5002800000001000; 0x20050080000; 0x1002001400000; 0x1008044020010000; 0x40001100000000; 0x4000000000010; 0; 0x200000000000; 0x10008000020000; 0x200000000; 0; 0; 0; 0; 0; 0; 0; 0x1000000000000000]%uint63.
(* the bits of a word as polynomials in the shift applied to bit 0 *)
Definition sf_h : list (list int) :=
  [[1];
   [0x4c02bd6838dedf91; 0x746cd05d719a83c2; 0x461c14178c84b517; 0x665dc8f2fd65b39a; 0x3ac4911b405ada26; 0x47b6a642530204b9; 0x3e7bc8aafd122990; 0x79d27665d8e86b3f; 0x7765a3b6b3075d6a; 0x2fb588b353b882d2; 0xcd29ff3cc0b76b; 0xa0d27490c92abea; 0x1a5551c34b40f1ba; 0x62bf6a427bbc5cb5; 0x29afbe4a8a9f2552; 0x191601505c317e4; 0x6d1d2bcc65d35eec; 0x3bdb5def549994d; 0x700017230d94ead4; 0x1e504af5c3f3200b; 0x6256da8c01fa83ff; 0x6950def924ad4316; 0x567709845cf387c; 0x354869fcd0c945f3; 0x61481d9c20b47425; 0x690c853b4d914cd8; 0x74864527686362a7; 0x1cebea9695a13298; 0xdf4decf7f8ce196; 0x1e33eaaebe2f5a9f; 0x69438d406496637; 0x5fe84b47e8674bd4; 0x69fa75450964e674; 0x6229579bb626104; 0x25caa01532193c98; 0x7fb1dd8ac1e4bcb5; 0x5b1dd3693a750aa0; 0x131a6327e7c6e353; 0x21c0ba7b97b6ac7a; 0x3f6e702130efd3be; 0x3b863cd667e5b193; 0x79012cfb49b1947c; 0x58dc1851d54cfeff; 0x6af094ee7aac3230; 0x6c5d5a5b16a866ac; 0x6d83df30c802e133; 0xe27fa6b7e4803b1; 0x778f921469590ba3; 0x2111c4f773db8834; 0x4b3b525e8e8885c1; 0x479a3e272a818c6c; 0x24cd4413a611f50f; 0xf2d12ec2966f9a0; 0x14825b838d3dc710; 0x6a433029038119d1; 0x484649976aa39cac; 0x76810400f8ce8f1; 0x610bc7d926616c0f; 0x6b86c1fb438c7f00; 0x77298e4ae3a0e240; 0x5fcb97f5dff3662b; 0x530cfe5a8dcbb499; 0x3b56dd56a4342513; 0x456d3f7df41289a4; 0x76f52d674fa84743; 0x6dc92d4a4b27846b; 0x27ddfa11b8139ed6; 0x41dfa45e35e08158; 0xc636a2bf0e4738; 0x140b98cf43b5a0ef; 0x5c6dc9ca055741ee; 0x682ff2491c87e9f8; 0x1a4c525812c5a8bf; 0x53fe01b6952bb28f; 0x27cba3722a835a1e; 0x497eca63d28e46bf; 0x400234e22806b4c8; 0x231f135b42ff87c8; 0x3737d5ef72d2fdba; 0x336f73ce7c35cfae; 0x7512d0aea80ec8fa; 0x1cc27f9ce75f8540; 0x583414bd49207479; 0x37d427b881fcbd2d; 0x31ce0efd7137388a; 0x16df65cdcaa64a38; 0x5e142945369984bc; 0x16f34b073ac697f5; 0x1a361c210d14a7dc; 0x48d607e6961c9848; 0x7b089599dee3ae3e; 0x73133d77b10d578c; 0x3da93ed6a98d5996; 0x35c92e8311a888cb; 0x5450f7530932c316; 0x31d3b9009e222cac; 0x4deb7e62adac6254; 0x4b6a9c0327b6f5ce; 0x2289be14424838d4; 0xcb1e351f0684a1e; 0xce2ecae929dd948; 0x37f709127c30aa03; 0x188ce6bc6dc4688b; 0x55a28ce9c6c6ab5; 0x2d65d11d6ebe4169; 0x5a3208f0501986b1; 0x669b5982a5faeab; 0x2960ee60edc26dd8; 0x5d5037b2f7c22bbb; 0x77af4fc6d9ea3211; 0x4b4f2c624c87207c; 0x7d072996b0c07cf0; 0x2ce088d9c7193927; 0x56fe38a61667515d; 0x159906c1cc16f4cf; 0x69d110452805a6ab; 0x78f33134ee00d8e8; 0x5fd17e86cc682697; 0x3503bc6f35b9a45f; 0x21dbb27084fa090f; 0x41940735104caa17; 0x3b2cf56d19d62a2b; 0x4dfb062bfb418dfe; 0x5224154b600a398; 0x71b10e1f7f4f9e9; 0x4979a68204985362; 0x2f460d04c31a9299; 0x1f14abbfc7a2e118; 0x39e86d301563899; 0x48efecd5ccb51c1a; 0x767a671b636eae2a; 0x15cda23a6ee93db2; 0xb22ccf80921ab0c; 0x67738054e5284819; 0x73372bff77f24fec; 0x34c1ac23595abf96; 0x48e4cf5047027a62; 0x542b41a0cb9c95d3; 0x4f8a8de67ab2c47b; 0x6621836a9ca96da; 0x25ecc695264e7b8a; 0x5d243c090312ae5e; 0x234060ee9fc51297; 0x2e7676727a4342b2; 0x53bd16cbe8f50855; 0x5ee4ce7e433ab854; 0x67807371e19ecf57; 0x6135790a3624f397; 0x41f5869e64b0a6be; 0x4aa9fc5369bede45; 0x6a278fd3043f98ec; 0x3b00c0fb5a379b2; 0x113e6e4ced067b44; 0x60b49531ad2484ea; 0x40886fb574215196; 0x450182f740f6428d; 0x11cc87964604e07b; 0x66868779d744161a; 0x1a59974d0cf68163; 0x7b8650b3f937ef5f; 0x663942491444857d; 0x4f0839e973fdba0f; 0x7a6dddd3162b5fe8; 0x76114d78af3b0785; 0x6572bbb28040c0ff; 0x7c6b7418536dfd97; 0x7e4000f997c5c216; 0x30034a2ed6d955af; 0x32249514a1c6c061; 0x7dfec596c25c88f3; 0x6f2088e67342370d; 0x1b527a0842fedaa1; 0x4e31be4f24a1ed71; 0x30b8dcabfa3fc1b5; 0x58af7275a093bc3e; 0x6fefce7a10a1760c; 0x62659d195e38d2ee; 0x2a3232ff2810ecf3; 0x5587693d235d67a2; 0x3bccc22c4955849f; 0x1ef75e2b94ba5622; 0x70a4e4303a22d25d; 0x3e1bffd4f32508dd; 0x37259ef139686830; 0x39bf361065af8c6a; 0xc2de7d1abe25b39; 0x25e2fddb9214ca8; 0x1346860a607eec2d; 0x653fb15dabaf163b; 0x64a8312d9117fec6; 0x660b4d73efbbf564; 0x3d086a8feeaa323; 0x5328448859367f78; 0xc5e4c7620d53c97; 0x761190c7570ad75a; 0x5177e82aa3b2f32f; 0x412d519f878cd6cd; 0x5ff504d614fe4ba; 0x3869916ba0f3be1a; 0x3fc7e68faa7a4609; 0x45a65da81e56b122; 0x8390cc3235f8378; 0x3aa9e84a460df96d; 0x1cd5fd9446c833bf; 0x1a1caccf24e71c5f; 0x554a07da0d90fff7; 0x20d5fb553bab1b81; 0xdd02ba3b0b04190; 0x70f43225b699ba74; 0x1869a0afb6b11cb7; 0x6ab835ec14d806a1; 0x6700e119abb02327; 0x38ffb95563e9ae43; 0x2085401d2eac7fb1; 0x72f241b5d14e803c; 0x6e1d568c774eb86a; 0x38fbe57b7c6b2a04; 0x20f029c3c0f2d072; 0x6a21329918c9449a; 0x2e255c119e82631c; 0x574b92f82900742e; 0x6558a7e5f764b76; 0x3b1095a5443e9e99; 0x6fbda9481b96dbea; 0x3563309820d3a20a; 0x8dac5c59932a2a; 0x22acf92d0e841689; 0x2d9675f64523028a; 0x578151f7b2638347; 0x2cea17bcdfe1492c; 0x2468410583f653ea; 0x7f7ca133ecbb8875; 0x5796fe6ad6dd8c28; 0x2eb990fe484947f8; 0x67cf6ff2b51134e7; 0x3ce7f034add1d82f; 0x9cbd89d6aaddb00; 0x2c69d74aa1e04573; 0x916af76b055072; 0xacc51580d220677; 0xfc0cca8cbe0f1ae; 0x1e3ac064fb71c58b; 0x5e128b686d6a6dd6; 0x7b56a235ae69b668; 0x404ec60617bc3e4c; 0x729de3b1541bc35a; 0x62f36cd516bc734e; 0x4dc842a13ee23430; 0x45034f48f8b8d64d; 0x5a37cd191875b789; 0x2ebce4d3f620a93b; 0x7e6bc1c572a1ac22; 0x37e5c7a58b12f10e; 0x5036a7f7a1ee3791; 0x7592879a4278b5bb; 0x4e4cad9e247e0076; 0x48116bcce583ad91; 0x35c7668dc2ae25c4; 0x2daf82aba44275ac; 0x478863dffa536214; 0x5ea51523faa7fc59; 0x4165dc61e66942ad; 0xd26206a1d19b463; 0x455232358854d026; 0x1544adb6c9087633; 0x294da5a03e229e7a; 0x4d4bffed99a8ae9e; 0x3cca9bc4690673c3; 0x3dabe73fdd9d2f2a; 0x6f7b6d68398eb12f; 0x60725cfcde90150d; 0x4aed00ea307ed3a3; 0x2fcf4b9135a2cacb; 0x571df750c1452489; 0x5c268bbc0ca93d29; 0x7cb899f65d949d1f; 0x81a55e57f0fae9a; 0x5c010b1e516749f7; 0x230652928540de32; 0x6a5062cd39d8067f; 0x495aa27514cf569f; 0x1fd4ff088b214f88; 0x1d9f1c637c6f644f; 0x3737c88b680f199; 0x23a9563f4f1fc52d; 0x7b533a601181bff4; 0x3c36e2e1ca63c1b3; 0x5fe8360a3ad54b40; 0x6d94aafc1b5be292; 0x3f74186884a8b8f5; 0x13c602a6947e4078; 0x5071070b1d849a5f; 0x7f9d6a9e5c35ee80; 0x2316240fb3bbb1f0; 0x11420e38082e1d6; 0x44e78c17c0facf6a; 0xd33af1adb83463f; 0x6ea34c95dbfd3521; 0x1d80d95ae6a8e0f9; 0x6a2edacfc4fcdb50; 0x4cf0e74da9805dcc; 0x30e7fd3c9c2d19fd; 0x7fa18ab3a23dfdb; 0x20f20491f34068d4; 0x17dfa86497e9fa24; 0x77dd51e87a9a17a2; 0x430fe195dc0227aa; 0x6282997d7b6a19b9; 0x69e7f3afe74255d7; 0x1882ae4d8badc3a3; 0x3e2db300bb9e823d; 0x2d1407866a50998f; 0x322aaa2ba84335fc; 0x6f3464128f7aa26e; 0x6a2389a4a392d219; 0x1fc4f432deccd972; 0x97273d716ea6509];
   [0x1564c2aa6a512320; 0x76f3e0fbf7e85df2; 0x12f430ac24852992; 0x5d73506f44125280; 0x5c8889d9fc55832a; 0x26ce6cd5223014ae; 0x5763dc49e13d6fd; 0x3f9fb4ac52bc6ac3; 0x522e368c865cc5cf; 0x58cffe6038f302eb; 0x3143547c0b9ed2ec; 0x49bbd4dcbd6905b7; 0x7243e641d0d90f96; 0x5688e30031b62de9; 0x38ac185e7edc19aa; 0x581572aca99c4f3f; 0x55e406a32febb2f0; 0x1f560a20017e4beb; 0x196b0079b82b6183; 0x51140c0658c0c2c; 0x4c0a34b3552d1298; 0x127aca12b2720bdf; 0x6a8066a3901b9d87; 0x4c7af0d5ebfeec0d; 0x1e58948f55c3b0f3; 0x1f76a4f0c449b79e; 0x7b270ccf939000bc; 0x6ee2b247f4c7a334; 0x368ac8bdbc34dfc4; 0x6e285a0e9c3a863f; 0x3a83f3451560b8dc; 0x42b74e99f44938fd; 0x33a29a8e2ace64cb; 0x2c39974d9a0084ca; 0x8f7868c627a7652; 0x4d7b7246a529e51e; 0x7ff43032fe6686d9; 0x825c144c7ba5680; 0x3bb7603298f6aa54; 0x47933cb0f257b268; 0xc2b76c915e1e512; 0x4e413eb3a005cbb6; 0x578b398bf0dc620f; 0x4804438ebbd5fa38; 0x19b21eb67e010473; 0x7d531a10cccd9e3d; 0x15c4b28784f72dcf; 0x6a61d49d5587a88f; 0x1fa77cf12dd996ca; 0x3b05ed64fb193a28; 0x3b6e2026efdda938; 0x8d9268505e8f1fe; 0x7481410d519876ea; 0x4d94b19a5e13902; 0x3243d846b814f3ff; 0x3ed056640e90ebc4; 0x5112315a7b6a08a4; 0x189dba9b120114e9; 0x6099e605aea1a009; 0x46a64b522d6fcad8; 0x6595684fe9c02fcd; 0x5560077b0bef8427; 0x1ee3832752cc821e; 0x202b48abd35806d2; 0x1146e0d2dab09807; 0x23041d0f9c90872d; 0x77bcbbbc9df1f514; 0x74e70375aff7dc17; 0xaf7b046f6691c9c; 0x718b938b4ad6d9a2; 0x7c58f34f58941ac7; 0x73db1ed4c7180501; 0x3c1fee83f80f4aa5; 0x5529399e51a0ca38; 0x63fc5784c1c31f4c; 0x775d1a481e194bde; 0x276b0ed61b08ebac; 0x63907e71a63108ca; 0x79b5a04121a5d40c; 0x6a98b0c60f319a26; 0x203884d29ea2a8e4; 0x4fd32b8d904bf3c0; 0x6b98ace242712dfe; 0x5b773c16f8206019; 0x52c3fe7c6486f198; 0x56cf5070f379bc; 0x7772b6272276c790; 0x16f44b0be388d952; 0x193fe5076c0f5f8d; 0x6d53aeeec077cbde; 0x5fbd60f89e02813b; 0x4527a63d84f6e15f; 0x36d2feacc8e86fa6; 0x56c2d95dd79dd7c1; 0x3e937ae1477aad06; 0x2b58d146dd5f8e5c; 0x3c7b287a5feb6e26; 0x21b11a838261a027; 0x411bb32efe711ba; 0x5d50e93fdba8ffda; 0x12772291ddee6e39; 0xdf18ca2e0cc432c; 0x6ff75ac38a0ebd06; 0x5fa081202cc34f0c; 0x57d59afc63c60639; 0xeb9e9fb8fbb85c9; 0x7f6439b4ddbeae4e; 0x13fcb001045729d8; 0x44e36033ad816766; 0x60769834fe3d09a7; 0x601085187c087e32; 0x68fd56d850597f43; 0x47506dae781a19b4; 0x1d7bd0d0365534ef; 0x2df5359a10d7d4dc; 0x5fe100cc56958cba; 0x4f6a333d3cdb6df3; 0x361dd470ac0dc30a; 0x2618850dfca78959; 0x4b72999487f495d4; 0x4d8391a3d6395b45; 0x20b0a7ca854b6bdb; 0x4ff630a43c6e2135; 0x41351b0b091750fe; 0x72d461c1751dd546; 0x65a4c165c9110271; 0x4edac7045edab609; 0x5373fc96f3e4a96; 0x401710005729f775; 0x7071b33eeed9aa72; 0x41cb598bf4b69bd7; 0x40314d025c58aff; 0x20a1e90c2f042578; 0x5adfe0b9da68dbbc; 0x7c339fa1dd56702d; 0x8d173f435e45a8; 0x2b7713659694f208; 0x144154ef9285f8ed; 0x791d4b970b09ddea; 0xe9237aa8926d2bd; 0x6276dac22d29c3cb; 0x74c3203ea47b9a3f; 0x666d6f93808e059c; 0x4b83339b11dc0998; 0x9c1e3ce67db42f4; 0x7cde70d6aa44e2e1; 0x40a955b7cb73c1cc; 0x1fdb3bf9447f8b7d; 0x4cff521a9cd79b5c; 0x3e6dd8a514e7eaa3; 0x62d9085ba7e3784a; 0x77f2dc68790b2a9b; 0x18f47523e0dd38ca; 0x66cef50d43380c2e; 0x749be836106e6356; 0x1196eb681774fdbf; 0x7695c13d0dac27ff; 0x65ad2c62f356f4bd; 0x3d55e69126de76c8; 0x4435e891b7dd066e; 0x700923f986861ba1; 0x6bbfc2a34ec348f8; 0x52eb2eb477a754c0; 0x3732a6f4812b57cf; 0x8fe903d36448a02; 0x910ce7b053757d9; 0x48721963b0019592; 0x3e9af50efcd19557; 0x1243b02edf0fbd9d; 0x7da262af344f760b; 0x2ec126fa75572528; 0x7399ad21adfc4142; 0x36bd6324fb5fa2f4; 0x40601d83dfff6c44; 0x28fa39a8b767ab4d; 0x4c9ed1493449c5c0; 0x640316716a7da9f5; 0x30cdb9afc611fedd; 0x311c5f72c5e68d2b; 0x10c55a7f790ba595; 0x3336982148eac20f; 0x663bc61431702853; 0x385c54ad9bd991aa; 0x54c81a1fe39c23c7; 0x508cf164dbfe8646; 0x28d468961797e4ca; 0x4cb2bad51489ade; 0x7cec95ba50b31668; 0x3f684083086ff64c; 0x33a84db21c555faf; 0x75399559e903febb; 0x4d0fa292cd5b8777; 0x3b278d3c1ab64f2c; 0x39ba51d7481e7e73; 0x5106ac67325e06ac; 0x61dbfe5b250c3cf6; 0x1714713c75b71602; 0x5612331b3fdd1cc2; 0x78313f5987155c5d; 0x2518d8ad336be02f; 0x3f1eae36c8c70534; 0x24c5e8ba28fb5c82; 0x6c8e37e89422d254; 0x6825e9a1584ae4e1; 0x72998d68c18f5ff6; 0x723a840100df2cca; 0x3045d5e779bd7ec5; 0x387a2c06497fd0f0; 0x2c956a41545408f; 0x623aa8911abf36af; 0x3bf4221af564e61a; 0x295eb1bbfe868b3d; 0x3ae40b212f176f42; 0x330934fa7e6e96ad; 0x4db9ff3452c7c34b; 0x9a321cb55fb9488; 0x63edff608f160b1b; 0x27d20c86b3c7c060; 0x10da36f7662af504; 0x668aecb644e8e6a7; 0x7c56089c601affff; 0x334bbecab3bf70cf; 0x1f10a1f0baf06c41; 0x18884ea6e689c863; 0x7020d54dff6a4c0f; 0x3421ab6e13970f25; 0x77442233f260aa4f; 0x3b56eee3b91e7522; 0x2826edaecafb827; 0x20e2aa4e71a2641a; 0x342b3dba850d532c; 0x20118c9345668779; 0x9c26151c95d5f6d; 0x1bb6d75a9c3c055e; 0x1720b01ace7e764d; 0x72ddf0f568c1dcb0; 0xcb62a2c4babc748; 0x5a5f369cb8797723; 0x5ecdb98f9536eb29; 0x40e5d284bd71e5f8; 0x5b2bb7beb8d56a5f; 0x36dda95a2a4ce5cd; 0x5dbbbcfe1342743a; 0x440e6c750bade821; 0x7c1170e69600ccd8; 0x1f3b11bfa2fb30e5; 0x9a2d5a66dee481a; 0x458ef11756661933; 0x3e20f921f5ccda; 0x5f8004e41abef5c3; 0x930f0f853382ccd; 0x5234bd5e0c1741a9; 0xe377db3c721f974; 0x111d1efc4a14ca3d; 0xe0c1d8686d520; 0x162b917e596c8cd6; 0x6413c6d015c2e5e6; 0x75b278b4a7b74ab5; 0x7f632fc32a94b303; 0x77aef968f12fbf36; 0x51af0cee02369d80; 0x6c7fc29db6f24777; 0x87ddc5150210d2b; 0x282f5f06ec6c950b; 0x519fb30e5476f631; 0x44c100605c4c0583; 0x76e1e2c1c8bb0585; 0xc377b108fb35923; 0x498870e7e5ddacbc; 0x16ed9148ce911a72; 0x13127e33be1689d9; 0x6894565cffb030f5; 0x3f0ff7486d8737bc; 0x1f8aead67f5f60c1; 0x70ff515f41ccb5c6; 0x3aa879fed6822305; 0x5164f67829137638; 0x4945c9994bd89cc7; 0xed13f756ad21940; 0x1ce43905aedb65da; 0x60ffbc99517211; 0x562e64e1f1e1630e; 0x75a550ba6bcd6dcf; 0x221345be669ff880; 0xaa788b16d0465af; 0x7941e13775553bca; 0x55bb30bea93694a0; 0x6b226fa3d4ff59e9; 0x400cd4339281155b; 0x28c20be0138d05ba; 0x6fa2d470d9db297c; 0x6222a108d649663b; 0x7ff1cc5b3a139cfc; 0x361b11954dea704; 0x69ece0efb42c3c13; 0x3e8fa3ee8cdf4af; 0x2fc287e1b68fded7; 0x7e1a8ca191fdddef; 0x3c756901df3d6465; 0x7f4f66e19a342600; 0x53900f4d359fa061; 0x7d2701a9c2e1ee5d; 0x45213bc1004ad99e; 0x186c7c8dc8e0fef2; 0x303e31cdfd0a9098; 0x1fcfdc12031e911f; 0x55b7cc8db34db474; 0x37938f72d4ece9db; 0x6700c5a1b2c57a76; 0x3d9f5f93f850bd86; 0x14047f97e9470616; 0x46e92ea7599d4569; 0x7391d0882d996e47; 0x57a03640a1b5fb2c; 0x458605e339d725e6; 0x31631ce991c24f6f; 0x36a8fe231931621];
   [0x2c378c6db4e9295d; 0x5955353c02e04ea3; 0x261c344d705a18d9; 0x178d4aae448b293b; 0x3b3a1b66dc88ede9; 0xacee62ac8641183; 0x1a60f9abce38eadc; 0x6ab0ea7b996d725f; 0x2c06467ff5148eb1; 0x3d40fa740d0c22e8; 0x74c4d5be589b8de0; 0x349597db672760a1; 0x3a68437c0f4b0b7e; 0x790a316be9f4d24f; 0x41755b17f6faf379; 0x36110cac5be073dd; 0x7c5d44cd82f0b406; 0x112b458a19a72e22; 0x25a0717957b96e87; 0x72e52373f7259a5c; 0x1ea50ce4673305b1; 0x77d1d156709d242a; 0x576691f06a327e0f; 0x90a9635dbb8bd22; 0x5b0aaa2fc076bd3d; 0x7099b70fd77a73d; 0x509be0a11405cbed; 0x71b1062b38852eff; 0x10e89cf7f6d66f; 0x230f5fa5e2c5048; 0x871788d0b4aa61b; 0x2b1a9382d0b28435; 0x9ea9085a7eb085a; 0x5e15f788c2ad2d30; 0x243e2d83a7b61728; 0x3b27df3e5e449bbf; 0x589a65b3113f37a0; 0x49be76820c816c26; 0x20d030c5bf87cf41; 0x7e3988d5bb7f9278; 0x5b625cdba656d6ee; 0x70dc42234cdb3a89; 0x38d9d00bf77de38f; 0x76dbc55d6ae0452a; 0x5fd7a84982b4fb7e; 0x45abf7208d7d8bc5; 0x5da6bed895e7683e; 0x60e663eb6ca3ca09; 0x317192f224dae450; 0x18382619e289776; 0x202a2574be4d17b8; 0x1dfcddee28616078; 0x64e81ceeed958c94; 0x66ffafc478fd3f83; 0x77d611228ca39d13; 0x62be9db5b33d1ae; 0x75f30b944d51dc93; 0x4bc481bba3e712e; 0x34a7327097fc35dd; 0x6ccf192bec68bfdf; 0x52404c44c8e06e82; 0x6935e71bb6f1fa93; 0x5ae58b1f8afac77c; 0x53de17a488b4874a; 0xc0ca98a19f9705b; 0x64589dbc00970712; 0x765304d600536bf8; 0x48293174045a28db; 0xfa275f3d0a70b2c; 0x13350765668f07c6; 0x2c136296026408ea; 0x3d1ca44741d8a4b6; 0x3c66cb7f6a3aeeed; 0xf6787c85243423c; 0x496acb3d8bdc8a8a; 0x7008b9a2b47e2bab; 0x41b0a0b86501abb7; 0x5365b8dfd0fe5b2f; 0xacbc9386c5f3792; 0x554827fc95a034d8; 0x62854da8003220e0; 0x3a9d8ab34107b145; 0x56a4a15ff07830a6; 0x5710124e954ec084; 0x5a9a1242799d8ba4; 0x7799d3b9a93df555; 0x1a9b642187ebfc60; 0x2f4ee89a25b3aafc; 0x574595c05d3fae5c; 0x651fe327aa427832; 0x7548086c8670c52b; 0x3d12395e6a42d05b; 0x1ae0679b4d104411; 0x6d88269beb848fb8; 0x3c73b8565a5c07d3; 0x3eca78e75f4ba9a5; 0x6bc65b26565f7be6; 0x3b8a1a2e390a75a0; 0x9347a0e1ca237d; 0x4174cc4f5fa51b74; 0x31ef2544653c3e83; 0x20087d8b0d1d9a62; 0x4cce8d9a49e74d54; 0x537d913d19a9593c; 0x2481006f53b26040; 0x431a3f39f50b592c; 0x380ac11b7658e356; 0x79ddd9f146180a0c; 0x4a5a0eb9f01cc8f3; 0x550453013e64f960; 0x47ba107491432c0a; 0xeaf9f5c67da58fc; 0xceb6a45e1fed274; 0x4eb2f76626020494; 0x846d37d93135a4a; 0x2349cf9973908db7; 0x653f3bf443824d36; 0x7c651f21eadc01ba; 0x126894e0d1bb249f; 0x1cb195b5de794a7e; 0x7f015fa9477f028b; 0x5d162ce76d62ef91; 0x9e90b00bb7d379; 0x3308412cf867a6a1; 0x692c26788b36c383; 0x70ec788d13a8ff63; 0x5cb98adc74958dd6; 0x617444c41f756584; 0x4ad4bfb845d72812; 0x65a0b41b486f7b72; 0xf740dd7376be477; 0x66165fce7b681183; 0x1a7ab5e41c8bbc93; 0x5c82388b8c0f8482; 0x66141d67114248a9; 0x2459e60238305486; 0x5db31207e313897e; 0x34562ec2db2a262f; 0x58d65e9eba38b0b9; 0x6f411ca3a8337365; 0x55581c7e5773b858; 0x9553dd5eb46f17f; 0x35e14667e77dc414; 0x641161fa0e875ad4; 0x1a1634b3d9e4885e; 0x79c4b20c3c8763ed; 0x5c9c2210fe6d7867; 0x14a6c21746d92baf; 0x430d137b1cd3a11a; 0x206517abcce1e3d2; 0x204e424cfda7434c; 0x24d1d8bf00f14628; 0x664069ee7cd1fdb5; 0x70c0f9572f2155fd; 0x2ca45185348b48dd; 0x7908e6df9913fbd4; 0x5149582e76bb4b2; 0x31fa5fe59c721b06; 0x7146b9b5339c2a2; 0x3f1f9a04b48a5e53; 0x67f40c9c552e5f60; 0x8d925516c45a27c; 0x47bd29373d1b536; 0x576657f2c4deade2; 0x7380a2915179316f; 0x5e32f3d827617a80; 0x1c484141b88b0fe4; 0x2bb212d7c92580df; 0x465ce441ce82ea67; 0x4d47c8b39f238439; 0x406f07883f1267d1; 0x7bd7297ceeca1db8; 0x5988895cc3d58653; 0x306f1f164f08278c; 0x53e30e95433a1761; 0x32757f2a5f41b552; 0x5b369a83c2466c8b; 0x7483514a19165466; 0x5e9da52b813441d3; 0x12361f3e0badea91; 0x4c1abf46a385b4c1; 0xbd351a1f4f1519b; 0x3985bd809f9e152a; 0x4f0e0333fcc0f441; 0x26fbcedde8c23c71; 0x5d42ae3866bec4f7; 0x33db006ba561c230; 0x56254aefe97a89f5; 0x4691f8f118bfaf45; 0x37fb00e795a49971; 0x6963e4049f66ab38; 0x2d10b3ddfa02af78; 0x3c0057a787e83a47; 0x471f800b351f7710; 0x2ec373630ab13ec1; 0x2efa18eb8b579375; 0x6c86abf16c484162; 0x189c9b9af44c2e6d; 0x40c0ef9df46e34c0; 0x325d98dc6ed0b09; 0x58088fce19582d2c; 0x52f8c520c1933c1c; 0xb28818c595f3edb; 0x6d185054c9d9bdae; 0x17fad1309d9051f3; 0x2c8b5eae90cc8b5d; 0x10dbf2d9a1c7f604; 0x66f809f6db21816f; 0x1ec6e08444444639; 0x4d463e29cf5f8181; 0x40f119cd262692e1; 0x67cf5678a6eeec12; 0x361e0a81e97ce371; 0x39f06489e22cc454; 0x58adc7f7007c652; 0x24ecdbba48b004a5; 0x2caa9eaecb344be6; 0x31a594733ed2cc4c; 0x2f36d6a2087d7c0e; 0xe384e11e9dced36; 0x2b5ab3bcca164ee6; 0x4cbe962bb39dffa2; 0x6d42875ca336bef5; 0x3a32784829110152; 0x4acd51ad6e060cb; 0xbd82eb7f4594165; 0x5e84688d3e3d89f; 0x6a093477895c4c4d; 0x4f39a768f0222acf; 0x4aefbd8cc7272829; 0x2965d7005fe6814d; 0x319e1ce0c1f4dac3; 0x35bba028ecf1ec57; 0x1a97a0ce6d038a29; 0x4f6d074d6aabfded; 0x7ab81725f9024746; 0x6f5c7d50b84c4e38; 0x204e68e4d2cc7153; 0x4bb2ccc77867a155; 0x31d52da685ec77e1; 0x4bcd23a79543c74a; 0x6fed2de41ca861fb; 0x2ae92f6e70c8442d; 0x1b620068a51da053; 0x79ebfbc22bc06835; 0x6012d2857e6da246; 0x778fc4880f17be2a; 0x4c5bd70b18fa8994; 0x1f6aa7842a51aba2; 0x6682aafd15b832a7; 0x4da1db9c6243c92a; 0x4e8a9c5a8cab442f; 0x6526a7bbac6e3c89; 0x4211b5da2e918b8b; 0x79f92a1b0019fa6f; 0x752a60a83264f3b5; 0x716449fbd7f94380; 0x1ca24c29ddf73045; 0x365975e905dca5f5; 0xfe5f2d4c8968098; 0x783335c86ef7cc2; 0x72faba91ba766fa4; 0x7788f62c137a2039; 0x674d910d77d215e; 0x2d710846f0eb0700; 0x28126567a963abc; 0x86f77c0ff94bca5; 0xda0e64c2e3d1fd; 0x6b89d7d3ac6c715a; 0x45e183cec3b05fd7; 0x6e786ffd9dd676f; 0x608746b7a062b573; 0x71aa00c10fcf8168; 0x3fbf3eb28c8825e3; 0x791b2bc53938fa9f; 0x737d4f78d77da85d; 0x497efcc9a6d221; 0x5f8c974835286ad; 0x1d29d03e70c3d409; 0x49468b94744b7c8e; 0x15b425f1174ecb17; 0x760d266d876fe198; 0x228f6be381552a0e; 0x5c1ae1290478773c; 0x6685d4a8c5ff0c; 0x5102fb54340bbb7a; 0x7ff471597ade427f; 0x2c9e5414c0b4a541; 0x42953c6611f2ae92; 0x7e8323cef7c15633; 0x2a60a9783ecb3153; 0xa0747dadf53ba3f; 0x5bc017776d48d963; 0x2440428975b20f7a; 0x31ff04d1c5054290; 0x54059e420eeb28c3; 0x4ad0298846db4ef6; 0x40f10cf3f39a0836; 0x716368bbadde83c1; 0x44a3c78899471a7; 0x8505629115896bf; 0x48886458a8610641; 0x3cf9f44929fe05fb; 0x501e36b257277661; 0x6af0bf5d32d984e4; 0x55832db0c725d72b; 0x5dbcba4c66879566; 0x90f4fe0ebc30db9; 0x724b323e7500660f; 0x7f33defdaa24fe05; 0x37bcb4c3a8e1b901; 0x8751f71d7511cf4; 0x3e710eb5d5b6f5fb; 0x5fb3d6e16ab221f9; 0x5ed3bd4b39994ed1; 0x699e253c1db9d98c; 0x3a66de8fa45440c];
   [0x620ed54badfb5c52; 0x39accff81e173bb3; 0x50ceaf6bb6b39d15; 0x6f313be1c635a15a; 0x121927d6447724bb; 0x4b9b5ff403f43d3e; 0x7ec6909329019793; 0x4c3a2c85db4c2b3e; 0x5f4cc391ef74177d; 0x77857b6c72164174; 0x7c0ec5d1ac6e5417; 0x555c345a405997bb; 0x7595acde6291126; 0x315e3a6b3158c419; 0x69fa058ebf6fd9cc; 0x79ff4f7a2b171816; 0xd81aef9f826e99a; 0x12fe5e14649a2026; 0x601e6f36a3675daa; 0x4f556b46fbf135ce; 0x4c15125fe4d6e6d1; 0x2c80143276f2d09a; 0x47188ee416c37979; 0x5614ccb836ee8924; 0x503dcce4d43aaa8d; 0x543de4c49fb54aec; 0x4fa8c0d1ac32758b; 0x5e140eec005477e0; 0x4a5db02bff49524d; 0x1ba0bacaafc1e8e8; 0x54f97e7c4eafb3d9; 0x74622ac15a4b0d4c; 0x1f23c553bbe71227; 0x444a05ef243df400; 0x461ba1bec1f553b9; 0x49fa88e570485061; 0x75b6de8fc5f228f3; 0x130c842010866ad6; 0x5f0a136a44346c1; 0x18b471563900b434; 0x78128572e47798c5; 0x31e5827ba3378d04; 0x7a016a59cddbcea0; 0x186da540ea74a6f6; 0x28316311259ee4b0; 0x40b9cbc8729bbce3; 0x3e555787f6e4cfcd; 0x62b109053aa1218b; 0x1e32753237b83422; 0x69731dc668ea2b60; 0x408ce200b2e46dd9; 0x43a10a22a45294be; 0x4af848ee25ecac3a; 0x6156d42b3dd0a19f; 0x43e181f34f110d95; 0x3073e7ec0b62b575; 0x78b9c3c69d788d4e; 0x12b65382cda94e49; 0x46eb96ae2f1b70f7; 0x3095fb4db6651cc2; 0x225b7c6a4f7ba90f; 0x3151662f0518de6b; 0x329b1a4b3e0a057a; 0x764bb6d07ab118dc; 0x56f958b0834f0b8e; 0x4cf8233e09e23278; 0x4ecdd2c667f68151; 0x3d4b3f5eba43aac3; 0x6af6eb7062ced1cc; 0x5c340af00ec3eacf; 0x772be0583c8594d3; 0x74d2f23193809011; 0x11172311fc22e0b; 0x3de72d9fc4329c55; 0xea36ece1545130c; 0x78aabc7fe3df6cde; 0x29b21f064a2a997a; 0x163b11c05c79201d; 0x19f2eb464ca2cba9; 0x7f7abc8b0b6e808c; 0x48111244dbb332cf; 0x54f319b47d170957; 0x2be69e6f63857871; 0x301c1e4d9a99fc6a; 0x252a6b280c8a76af; 0x26a1cf88c36964cf; 0x1afd5d8d777f580d; 0x5290ccd682e10399; 0x5395d1cbcbf129d7; 0x515be12eff997be2; 0x3942bf49e7c0b89; 0x5b3f2770dbc24178; 0x6311507029b2d247; 0x1a1ee3513a8e83da; 0x439934de5ff6efce; 0x176cc7d1d3f970bb; 0x4acb8c890f2fa017; 0x24e501bb8e56eb44; 0x57c338b97e8f2db4; 0x17fb6b84b5081133; 0x2eb26d7d1ff8366e; 0x482141792b17ffb5; 0x4af627f24f5a1608; 0x2a06a319a7ff0d0a; 0x3718de535a8c0376; 0x4ddeb19896396e33; 0x5e762a483355da7c; 0x48b394105014d650; 0x1632b841061e64ff; 0x60be1a9c1cb9ee53; 0x70f3022369605ebd; 0x41b4e77c5d96b614; 0x256ab58e322578f7; 0x1a7b681612259125; 0x7d76595c3f68f886; 0x39a6665182a84615; 0xf2940a66d473ced; 0x34d6593bb3795172; 0x83ca577a2d51c06; 0x6c0742f8c0711106; 0x54e9ff262de44393; 0x2588c129cd4e5ab3; 0x14adbfb7f74e548f; 0x52c09266de9eb3c1; 0x73868a61efa85c05; 0x5856de3159cf6acb; 0x7ae197af8c641eaa; 0x518a0ae1797c2a8c; 0x11d0dc4edce7796e; 0x50a8ee9e770058; 0x1fe0c68723a5ef70; 0x3cfbee90d8dea04c; 0x2851ad38add99746; 0x35bcbecff5dc1fa9; 0x626a1053faada29d; 0x32c43b94e4bc6a49; 0x78b01cacf3a96e96; 0x433a6a66428fe9c3; 0x5f6d29bbfc7bd4e; 0x1e373028faab3291; 0x547a575b88419f4b; 0x6de3e9b3819a26d4; 0x38d230940c220558; 0x2a37ba573a741f52; 0x4ef793726dd24d08; 0x5ad0e5e0ab168a03; 0x5af09a66621371b4; 0x4684f8cdbd0f2166; 0x56bb7b1b56cf2c66; 0x775ef0ee69163ad2; 0x732a23bf84c45f83; 0x3acd97eabcfb272a; 0x46d164ba17ed1e4d; 0x2f89de9a673bb63e; 0x41182d53879322f; 0x2d89bebfb7759838; 0x1a976c85b8a908f0; 0x7eda61b23e822645; 0x67b9ef8e77dbbb12; 0x4407bbb5eb124589; 0xa9c6710c0323680; 0x72c23fb3ec86f01e; 0x1ff653bab1dbe594; 0x56d78e84eb3aa59c; 0x72557671d08f332e; 0x712ae876ec04b194; 0x42d2d7bae7b3cff5; 0x4240c9797b86c4b2; 0x31486974dca5501b; 0x3088dc931b7e7ea1; 0x637e7ffa89d0cd75; 0x59905160bb6ec8a7; 0x1f02710c5dfdf04; 0x7e546313dbcca831; 0x301fdf75a3681557; 0x1e8df7b2d470ac85; 0x165ada40994a0c74; 0x7abe15bf962f13df; 0x23b72db4e4910dc2; 0x26fe03989d7a6a67; 0xcac4bff21aafaf7; 0x4493232e03afa02f; 0x89ff0344f648a89; 0x722d12b8774f8afd; 0x27c323ce65a5afb2; 0x34813fadcd30a3d7; 0x608cda80d75171ef; 0x59fa3b29c97acd70; 0x43e04e95e7c849b5; 0x33e94ff54c1fb3c; 0xa591c4bc9061fd; 0x3ae186b5e0cc306d; 0x68534eb2673b5446; 0x393f449b3ffb5c77; 0x1b88a58006c194a2; 0x373b3b584c386799; 0x205c9a7c141c1148; 0x4931d17176d68ef5; 0x4602a47d4def270d; 0x2c6d1a830843f3fa; 0x68c62ffaab1386ef; 0x6af638552abf073a; 0x17e89d80b2c5fb05; 0x13d37227a02dcb2b; 0x4fc9b6e3309edd3; 0xca7945dd3b9dbb9; 0x60061dd81447de53; 0xda6d89408ec074d; 0x76767e56bed73010; 0x233d07d480c16f56; 0x61929ed36308060d; 0xe7aceee572ffde; 0x58f64a8ba4d384a1; 0xb1d134069336cd7; 0x4c2d80a12f8d6312; 0x746c78490508c044; 0x36cd0ae795d3d54f; 0x4f46783b4509749b; 0x5f9a32a302cb130d; 0x544040fc041cb66f; 0x1a4f0141b631b1f; 0x442fc5a80422434a; 0x5b2adbf8e5440536; 0x7e760588df5ef169; 0x1a7fe13a485c279f; 0x5d46494c1c415da8; 0x708227b80487ff3; 0x5f6d9bee49ea2a5a; 0x40dd5389090630d9; 0x399a44b0c2c1a270; 0x6648157c3545b6c; 0x24eaed387f9a18; 0x6b42f8aa0e64ab38; 0x43eb7db7a8acfa87; 0x3ebaac22dc1816b8; 0xd4ac565c51f88ef; 0x3d824cb61fbc1301; 0x218ee840c7a8c91e; 0x1d8548359b0f4f9e; 0x43b329f147f627ab; 0x2c83f0e1432c7d1e; 0x3a566f2d1b4674f1; 0x5425d689641917; 0x772b99aa049f8839; 0x2798bf549624373b; 0x1a710fd91c3bd804; 0x58b2103128756391; 0x5d233d854d2de335; 0x78bb599d131f0e56; 0x46802bb1a8fb3873; 0x3f38fc70a87e1e17; 0x4c09a264cf8f76bd; 0x7c946a3465610c99; 0x1b434d67f7ea82eb; 0x245fe9d7fc4b491; 0x743390507e1986ca; 0x5a24465e2bd4d08c; 0x4ff2f2b7170e57a5; 0x3a3f9c0703442bd2; 0x4c05d441372bceef; 0x6dc9330bccc35548; 0x797e4d97377b6545; 0x35efc5ad448d47e7; 0x13a735a16bc0b8bf; 0x3e8fb0ce7994487; 0x635f114aeee804fa; 0x2989e2671131a907; 0x2be560a21dde10a; 0x7ed32570e8aed3bb; 0xd5f738cd2eee665; 0x241b736951cc2a5b; 0x9835da09236057; 0x11517db1a702eff2; 0x70cec87ad6363cf8; 0x6fa1f5dc90d4bdbc; 0x227f420eecaf1c48; 0xdd525f88e001bca; 0x293cc5673af53ae9; 0x350ccf0f7933c7ce; 0x3b7afb3169b9efb6; 0x29d7ac0ce926bd16; 0x184d7792c4d8b9; 0x33908589bb887dfc; 0x4395f96fdeec13f5; 0xb2d55ba4d91e173; 0x54a65bf2948ec754; 0x2e387e0293b4f118; 0x669d7c7d7870509f; 0x55f6733e6505e31c; 0x280171ff07dbc4d8; 0x6cbd44b664ae5dad; 0x1344a25541e732d7; 0x580ccedc2c998108; 0x45b3d13ded24780c; 0x7ee5018f3f4e84af; 0x1cabb9e6b726fc1b; 0x3af8b91939687d91; 0xca8f10d0a56f7c3; 0x62e8dc8bacbea91d; 0x2bc7d23a6b435d6d; 0x5edeab53ab9570e9; 0x6d27d853708577ef; 0x7521538b1fb60897; 0x450dfcbd1b54c3c5; 0x4a9241f1ac2eff61; 0x79fdb85a07b23885; 0x7ad08c9a005864a0; 0x3482082c9b44e5ed; 0xe5e20968c3ba334; 0x79adedcb867f26e1; 0x3d85d6e20843aad4; 0x6e2954c4f0e7b90a; 0x4d75fa20adb2a6b; 0xc00001212536492; 0x306e28ce04c2359d; 0x1798b735d208a13a; 0x58db00c1697cb5e];
   [0x657ed0583616b0e; 0x10248c51592c12bc; 0x4aafb7c9d1185d54; 0x63085054c28d5ccd; 0x488536cfe1b91c59; 0x7b81985a2e6a5483; 0x3af67d7edba6c112; 0x75e7ad9a3e48354c; 0x7bbc664d7c2540ae; 0x6c33e9c20b81f447; 0x1020e1266df81dc7; 0x6192ff432c8f5393; 0x33510c183dca4e8c; 0x64a5629755c2c316; 0x1fd5d74fb62f3c90; 0x1f9934bcf6c4482f; 0x3068dede58b4d648; 0x6c0733a933065a29; 0x36338bd12b63042a; 0x173371ee6bb4f9c; 0x748a4320e0f2f34e; 0x15b63dcaa310be41; 0x429f420db3788f93; 0x69cd8fe64ac1c50b; 0xd796c211ce48918; 0x8eb37a13772712f; 0x49a82552cf9ab917; 0x32791bf1794271a7; 0x7a1ea20ca08f1866; 0x7931ed786b120491; 0x3a5dcfd837fbcb89; 0x438fd79478291c8f; 0x30a7f0af1f2681e4; 0x4d439d0d2a0c4eee; 0x6f53145f4d76da53; 0xb380a1ad03d08b9; 0x41b1a6f7037d553a; 0x57f8fbae69eedfe4; 0x27fa013766ef8173; 0x265fabb7ac921c55; 0x4c29d08ad091b1d8; 0x205ba4c1d8b5f4ef; 0x463133a9f39c9e18; 0x4ad02210a5ad95f9; 0x7656b062571c9835; 0x227900f5978e1100; 0x7910c2fc0aaa440d; 0x17ab3eb34cae0040; 0x5b65f27979a70f28; 0x6a2fb96b809cecf5; 0x5c295d6b6a5021d0; 0x644d367b51bb5f88; 0x2b8ae342cc98d75d; 0x3a7b8f0d230e8992; 0x94e11b5329e3aa7; 0x32b6275002ca0355; 0x447c6d69d5d9c7d2; 0x7e690140c1a745f0; 0x7dd141b85eaf7b61; 0x48776f157c2039cc; 0x669796aaf90f15cd; 0x7b5c9b4245086508; 0xb2e31930771391; 0x3530a40c47d4acbd; 0x5da6416a5db7c8a6; 0x5de25bc8196afa94; 0x1c3434b94ebcd106; 0xc8f6771496a70d; 0x10047d65670b0df2; 0x715c9f95220491b8; 0x45f640e7fff06058; 0x26781bd5435b9da0; 0x13368cd8be6092e0; 0x22b2dfc2ec4eab10; 0x1f2cf9eecfbb626d; 0x30ba971fb7273db6; 0x45dae43804183df4; 0x2422e8a2722153bc; 0x20a1266b89d42b4e; 0xa2fbb367b47fbcb; 0x5071ae839ba5518a; 0x41f78fdda07f933; 0x653bb9139942acba; 0x6bff4a472ae19fed; 0xd3ccc2a7ed89e21; 0x5474175064b07e3a; 0x38920d069c7fb71f; 0x6bbe6710324d65e0; 0x50c3bed4b26636b9; 0x42ccb4af2193d600; 0x63266bcb01152064; 0x5b0eba0938e47952; 0x6ec2480ce4578aa0; 0x3178b5fd53de5a9; 0x7eed7e8e99cca198; 0x1117d1c3dbae8804; 0x410befd4da52fce1; 0x4cfd500e9af67ff0; 0x27dada7ca7f79b88; 0x62e1223eee6f625c; 0x5454ec39cf0c3ed4; 0x31ebadeb5e35d01f; 0x69aa9f73f87c834c; 0x1e24750d7ddf7b69; 0x15cd29336974fb1c; 0x3f4a03ea86b4678f; 0x4ddee1a011e8ea27; 0x11e4036f7f9ce5b1; 0x65e5cf2a52227df1; 0x7d2de6706491bf77; 0x207edab36dd8b807; 0xa0809e377403574; 0x5955f3c3b639544; 0x2e6f5f95f567cb98; 0x68459b3dddd97e75; 0x298dedb130d9670f; 0x66bb42c0097526be; 0x283e273c0ca2a2c9; 0x6d79ec7009fd1a4f; 0x125ac8aee00ae8b; 0x7339a3e5d7e7cb0a; 0x53b504e089ecf307; 0x43d3e46e9936f24d; 0x165c7e52a95efa04; 0x48a559e86809dd5a; 0x1c48277edbb4b2e6; 0x2f18e3b456c3cf; 0x30ba36e7980f067c; 0x2008e3690dae7011; 0x3a9cfe49fe7416c1; 0x71388fefb4ba2019; 0x7b1b311db22846ba; 0x4176b622d3c98ac6; 0x6263ab4a87c674a2; 0x2555ac46978cae7a; 0x379be9c1ad5a23a0; 0x2a94ceef82db78e3; 0x7d02b29867f9a6cb; 0x39fbc4e7136bf1c7; 0x48e795f15e7737ae; 0x45959f9e0ffab388; 0x6fbb7fd5444487f; 0x3797f7b91689b944; 0x4806a9128b1f1a7b; 0x5c8e130d2b7f78f1; 0x1a6da9dc2b44104; 0x968d64d8f5a050b; 0x573d62c1988bc8d7; 0x5eda972c0c9d1f12; 0x61b22a038ed6dc96; 0x98fd798fdcdea6a; 0x4ca835c9826967d1; 0xf612b53a7af9c32; 0x4598385665800b2; 0x537f9c1b50c30320; 0x269e664ed0185e6b; 0x40f258f22169417c; 0x29c4277c7750870b; 0x28b874ccb1d533fd; 0x3976cb2907b093c1; 0x2738a2bea0b178cd; 0x4e03267bacde1d87; 0x2831964ee0a66b1c; 0x18bd7b72f48c7c71; 0x31bbbc36c0c13353; 0x6b1fb2b1cd2d12ee; 0x39d3bb97c2a41d57; 0x17d0776bd6530449; 0x493d9d193b9617c1; 0x104c61ab4fdb82c9; 0x564d390e52d7e7f1; 0x4afa2e9c3ece88c9; 0x2d6ffa8246b57ef9; 0x41c60c7ba8ca436a; 0x2e3ffda50dc97856; 0x3f876d1eaac26450; 0x2f03393870cd343b; 0x682ea377dbd37979; 0x68f97966abd7b596; 0x35980eaa660263aa; 0x14d28faf83bfad; 0x2a51079e21d495db; 0x2e45e35aba32269b; 0xf484fa2c74fa443; 0x10a5e82c547ee618; 0x399cd87ec7efe516; 0x47f2bb2cc68d5d4e; 0x6cf4fd70d7d22da7; 0x5acd8e9335a986; 0x58e76f8c04343fad; 0x6e5a2f0a3a090cca; 0x506e9fc8889c2bfc; 0x765b65117fc622f5; 0x5f97ce8338d94082; 0xdf003de19a6d109; 0x53b96190e40aaa94; 0x574bb0493bd11a93; 0x6962a9281a4b5d82; 0x152213638b649661; 0x6ff6529eee6461c1; 0x8aa3088e8fef68a; 0x7ede14de25953b4; 0x3e7a3b35f1968499; 0x661de5ea07d774b8; 0x3e19fd81dfc2b670; 0x3358760781b20c50; 0x30192f52a9c8d326; 0xe359c79ebc06450; 0x5b74afb46e0b186d; 0x707d89f1b8695ef7; 0x38a5647802e5ed6e; 0x15fb8a5c9d455fcc; 0x59404647f867895f; 0x12af0d04efa47a89; 0x5bebde0ef0c5f2dc; 0x599aa01d898101f8; 0x6b103f34e0507e; 0x113f502137d935b3; 0xde6feba8b149010; 0x586f3d806e8366cc; 0x6e08f654b07a2a78; 0x7e7a16743ca96b2f; 0x3b562ebdc097176; 0x28095fc10a909f10; 0x4a9d7ca10d3afe5; 0x1c93bd38cfa603ec; 0xd9766bcde4c5844; 0x7e07959d35c2d50b; 0x4435cea84f21c95e; 0x3ac847ffe27e4f6f; 0x20169a28b3db4954; 0xaf4eaf9a83999cd; 0x6baebf6ec04d5497; 0x72bc1784ebbc604b; 0x222e5319008df4e1; 0x4e56a1e0d9ffd17b; 0x1c4187a641f64106; 0x561d9c5094db3271; 0x577efc6808596bca; 0x5a861cdeb3c3e57a; 0x66aa44bc26d78562; 0x379977721bdb3384; 0x6a7fc7c8cb8acb41; 0x3c0007dfe135d7ea; 0x7fb7c7a6807846d6; 0x34e1170688155f3c; 0x6eb7f00901a0edba; 0x1c1b298b8c69b777; 0x5f76161d65325627; 0x58f6fd706b47f417; 0x3adf72bddce2f20c; 0x1f312bdcc8edaaef; 0x624b8e28c59fec15; 0x31e060b68b06ab10; 0x4f7b54c2241fa459; 0x67b1dd2160d7f64c; 0x68033dffd6aa9135; 0x2632840faac692bf; 0x2050e6608f553067; 0x65d14f0b67d59d56; 0x7e01e0676bac2fe6; 0x7490b30efba0b4c5; 0x2b927e69ca7c7ad7; 0x5e2dd8c711234ca6; 0x41b0d0f12f6a1e0f; 0x4661717f63d7950a; 0x2f3bbd220c42a3d1; 0x65538a561720e289; 0x593156c3f2f20c28; 0x36483307c2d22bb8; 0xe2cadbf78d092bd; 0x732825b96fe4d32b; 0x305ac397837f1d09; 0x482e33855d8b9e36; 0x6f31a4087bab93dc; 0x1a6fca186a6d5ece; 0x32675df5e2b1e956; 0x6ad6b056e548b7bd; 0x3967c27044881bd3; 0x1ff9e5a69e670a2; 0xe3ff1df8a3b28b4; 0x8e3d123427675a7; 0x3903606e81148d89; 0x3dfb336a170e4145; 0x7d516ea2ddb6fa2a; 0x54b819300833ee75; 0x741237a3e071d351; 0x5c2fc03e1b7fcfbb; 0x483167bc3e2bffa; 0x7c452585db376e0a; 0x46ae0be66c2e1fc7; 0x1d76324fc879eaaf; 0x351d295560b71a9f; 0x6269270aa5be1736; 0x3afdac0ed821fc77; 0x31a63ca76d9e4538; 0x629f8c6596464122; 0x7832095ab94b4d66; 0x2e4a23bc88e18079; 0x66b24fc60f02c808; 0x2a2ff1db20bd8a38; 0x1efc3daa6da5455c; 0x5e2a40757480c42b; 0x260d882acf5d6741; 0x50ae13f1464f0f00; 0x5b4ea103cf8270cc; 0x440aab4403792979; 0xe6c6c4be556f1fa; 0x21ee23482380587f; 0x49e1363576ce3db0; 0x3a80b26820fef6a8; 0x1a79990e6cfcade6; 0x2c170dcc7ab7339; 0x51f1b547c53c5898; 0x736256e7a55d1a5a; 0x75650eb5c0339efb; 0xb697f62307980d9];
   [0x7e8f057ce5ecc421; 0x2e6fc80e3f5a7dc0; 0xe018f8ae7661a77; 0x110915b38b12f563; 0x443dbd8dc76a7848; 0xa2b55ee65c2e4ef; 0x4957987461f0e57d; 0x29b3997176597a9c; 0x6a0485bf10e45e1; 0x22167c4aaba123fb; 0x22a52854bf18f5d7; 0x3f38e32830dfd9d6; 0x615b0635f608615a; 0x279fa9a7e7d6a291; 0x4e3dc665b937fda6; 0x6d24613aada25394; 0x7174b7244a4b1cc5; 0x2e279a78506b9863; 0x59ee82c4638e8178; 0x76cd7b84acdc179b; 0x4dceb0e952435ca4; 0x1beac09d10f2aaef; 0x4eccdb42516bc466; 0x2504d5633ed52a01; 0x595ebb1e606963f; 0x4cbb5158120566a2; 0x578e6b397a467501; 0x411bf3e35bab2383; 0x312a17b4aefa4242; 0x4a61f1e271c7a3ef; 0x3a1dc8437a0e925f; 0x2baa67603a95a0e0; 0x1ef49cfc40c9a190; 0x559836b7e497f12e; 0x19902bd9e6e4c4d6; 0x4b47aed4dc920f84; 0x5a354af9fcab239e; 0x7d17dfd1c242d299; 0x1d44ed6a23f3cfb1; 0x1ec9cc0f82fd3afe; 0x360be9b22240e874; 0x6603b811e46bb8ae; 0x69a45707ea661c52; 0x31c8017f3d0bba7f; 0x6780e1f576a8c430; 0x17d24396e428bdb7; 0x4c642e2056372cdb; 0x5ef3113a28b17224; 0x63d4a219e253f4b7; 0x2320a7e4ab0e99a2; 0x6474ec8e5512ff9f; 0x1f7c193ac239b6b6; 0x161181098ed01938; 0x55e6c135f0a991b8; 0x3a985bf5568acea0; 0x5f1bbc932a6c3f4; 0x2db932b36ed0829f; 0x5c2f9f649fbb7fe2; 0x393f78d71f2cc6b1; 0x3ba041b32ed63ea; 0x3edcaccf4934e7b5; 0x65b3c8bce5d6a690; 0x6898d893dfba2de5; 0x8c313cd9d1f6f14; 0x54467e787b9e0b5b; 0x735f2d61a93dc1b3; 0x467f29fe3344879; 0x1ff1ae96128f5d32; 0xcfdf8817758a57b; 0x7a52fd7f33aff232; 0x1c1b153b56cff4ed; 0x3107c5766835436f; 0x7ce30b9dfa0fcaba; 0x57ecae117e105684; 0x7239b2b1cc72bc31; 0x638492a67515f3d7; 0x4b095087b8dd3c06; 0x6c050088ac197993; 0x7998205b8be5e905; 0x22fd7e554360cabe; 0x5fda7a62d241dd9a; 0x38a86d2a60bf1d87; 0x1085bc099684403b; 0x1dce253ed206d1e5; 0x5a8f947b1545dfdf; 0x4b4c7303a89724f8; 0x2abf452c5457f95d; 0x3450cc0c2e757b4f; 0x52e15b0de7bdf6c2; 0x2ba9fc718b6f65a1; 0x42f33f79a0ae2bac; 0x481ca4390f38ddd2; 0x418d90ca25b144cf; 0x79c781382cb44abd; 0x39a028ac242197c9; 0x26760de6f922f079; 0x54d11bf603e22432; 0x6cb4459f4d1d0f94; 0x19248cd67a197e51; 0x7082787788966766; 0x7af122b9252cf29a; 0x481d242bba455dd8; 0x2eec20853b0a4c3a; 0xbd3eeea53655e14; 0x4cd0bc75a741332f; 0x74ff63ef4cf40d9f; 0x3adc3cac9a2ca6f0; 0x7b91d05dd9719760; 0x777c817e45578cdc; 0x73e00645e7d937a1; 0x73c33cff7bfaff9e; 0x624ac466fa4bdbad; 0x63f8e9a541cb7fd; 0x5d20e7dbd1544ab1; 0x780fae1e3404c143; 0x12a6d2988c59d0c6; 0x187bc1b77e3f2845; 0x7242095fa6b47b02; 0xe713f666b9222dc; 0xcda17e3aafcd6d1; 0xb3e1c23413e1e4e; 0x6a7722bf0325fedc; 0x16d692cd6cd35bd3; 0x1606c68b0442cea8; 0x75cf0f7d4dff23a5; 0x6868cd21e1da1544; 0x45b1abe07b62048d; 0x3b3073565167960; 0x6b6032590cf37f5e; 0x636966c0b9587e84; 0x101a543679552d33; 0x5b870466d925c98f; 0x196f13c0ee01a01c; 0x44ea9fa405fe6c37; 0x450dca82ad1d7c98; 0x6316f7e96121d56d; 0x419c9827ef744a0d; 0x3e01641ce59d91ba; 0x4386dc1c87cfa181; 0x3ed25bc1c3b27b88; 0x694429fedf5b13c3; 0x21ce2dd52bae36ad; 0x64a4c9ea51989719; 0x2233909447419e01; 0x6f7331c5dce8ad66; 0x3afc39812fbf72; 0x715245abdbd1c468; 0x2c82dd231b8873f4; 0x112945bf7d9c41c8; 0xbaf47acf7f2e14f; 0xac5e7f5a3138238; 0xfaeb5dbe9356825; 0x3c51ad2a66d0fe3b; 0x64b8c1d56c3a5593; 0x6bf985db486afdbc; 0x4a57ea802b443993; 0x56c80c9ea05d6203; 0x6276f9005abf2cac; 0x3885d101fdbf7c84; 0x61f7809a093c1ef5; 0x20e116c56e0785af; 0x5a9b0773c1d09176; 0x6ba8078bd265ad33; 0x7fbd46ffb2808e3c; 0xb09b39cd683b1eb; 0x5db586b0cedca621; 0x1d732363dce46bca; 0x7246217b7348c544; 0xc552d273664fe58; 0x11811cfc5082e0c7; 0x1082264dd8cb7ca1; 0x1cc8fb37badb6668; 0x1122a440aaab77c; 0x187a68df46331309; 0x56fb7ebf65db95a5; 0x6e05ef55f9aae050; 0x81991c4810312d8; 0x2c8f497d0e8dd5e9; 0x24ee06e6b68cc8a1; 0x6ce7140176d7ac56; 0x14c4c2bd65b412bb; 0x1b907473e088162a; 0x14d980ebde74143f; 0x7f1cd9cd5dbd8b40; 0xf50d8f40ab76862; 0x5c3e6fe11f13016a; 0x273d4d1b67f21d6b; 0x8921f2dce4e0ab5; 0x5ce7d6e53790c51f; 0x4074bdb421b2599a; 0x77a34fb695d191d2; 0x383f749ddba2d621; 0x753a06a60eb835cb; 0x39c2d7e6543d4da3; 0x1760d8608bf48695; 0x29057f594617c3fc; 0x30d6ccb5e9e5a306; 0x7c7c51f1c564102c; 0x3a5a3cb551022838; 0x6f821d9760bc2af2; 0x458b3ac6425aa3f6; 0x555c4b8ade40022d; 0x16a1c5fbcd5bdd0d; 0x41be9f5b5eb91d8d; 0x6c32c18d979ce102; 0x298c8bf83ce14541; 0x4ae61d36bcc64437; 0x7309f3121265bfcb; 0x3bcb3b2dfed15aa1; 0x591c73eed0ebb0f; 0x1df0fc13589f02fa; 0x6859e5bb1bbe56b8; 0x4467a82df6786755; 0x4c837c28e2883bbb; 0x669b5dd86982f4fc; 0x17d7546bbdc00024; 0x42eb3533b1f6a97c; 0x100a872a30205ac3; 0x7109057e04c4b34; 0x1ea4971c132ad965; 0x5f9577d62564505d; 0x276e3ecca1cb1d81; 0x59170d8f1e4b40e1; 0x6d3519c3a1406c7c; 0x151941ab1ed07861; 0x4e2c55785e9b409; 0x32e35b6ddd2a4f1e; 0x29d838cb904e6174; 0x335e2da1c54c6abc; 0x62195d5a8de7e5f5; 0x5fed480b26a9146; 0x3fff858d25c214ae; 0xfd9ccef2b2a4aaf; 0x618d0b5bacf0b4ab; 0x1cabf2a01bbeedbe; 0x2260bc3ed4d69068; 0x1bb7fbdfe5510f79; 0x58e9b838e664d0f5; 0x56b27af3c1428a9; 0x35443953946b032e; 0x52e6d2aa9ce20b8d; 0x7cbf7869040a19c9; 0x4d94315b75a99681; 0x46fe30b083e1971e; 0x3446667989afdf45; 0xd35fd414fef1878; 0x5c4e617f822306cf; 0x4c2eefb2bbd6e296; 0x8b9e75c41e03b1f; 0x91dc18a702c5613; 0x49bf948ab5218a9; 0x5171a9f8369e1dc4; 0x43fd853a6e0d2024; 0x1600f7daa2df1ac0; 0x5be87249091eda13; 0x17eae6a5c07bfc45; 0x62ba8fd12d5d3f9f; 0x6755a2ab6a49a55e; 0x75b5aa09dea27435; 0x930ceca71c3c4e5; 0x7621df82abe317f2; 0x62328939dbc5bf0e; 0x4585b81d7ba8ab7e; 0x47a4475491f11db8; 0x3c8cabc6d2904d6e; 0x16b681765784afa; 0x4f5ed1299ce5617; 0x42cf15e48f285dd7; 0x106e63e36ba5a57b; 0x405fa3df9d65561c; 0x6be713ad02d0a88f; 0x1e11cee0460a5c42; 0x2e5ec54d005f6200; 0x76be479c936f76c5; 0x23b83c515ec8b58; 0x4db669a670c020a8; 0x62932389085467ec; 0x5fe53d1dfd2b63e3; 0x639c4d92bcd17291; 0x106cd5a98ad8e9d0; 0x3d0e84d3838877ca; 0x29b67aa23dfcf6de; 0x7fbdab9745f97ab5; 0x68126deace779442; 0x40a49211944a1165; 0x55c5aa08fcbd1709; 0x67bf22d0549c9248; 0x64289d4fc5ce0fb4; 0x42cdd567f4133e9d; 0x5ddbba8f788b7de3; 0x41f7d7781be60d67; 0x7ca0c2d2fb86ee92; 0x7b39dcfd123e40c4; 0x212ecca2283e04ce; 0x2e97b75580a1be38; 0x4e02e47dfef3285f; 0x7b2d0596fea656ab; 0x51b82b8a7ef27e6f; 0x5928463c442830bc; 0x7812ad2a6c60247f; 0x49b6ae972a6f5a9d; 0x5f95a8f160c3ff6; 0x703cf797cfe34bc1; 0x18426c06a73b50b3; 0x47161b3e8699c869; 0x8735d851e81ec75; 0x3d89746ddfc09386; 0x17e4b5c6622619cc; 0x215a08952989c1bb; 0x5c9cb3c7d6a5a9dc; 0x377041403434fd2d; 0x1be380ce4fa28a52; 0x5431191c36673e1d; 0x2b5325892781af87; 0x2ec6bc382f6934d5; 0x68ac71512855e5e3; 0x335162e325c6880];
   [0x3081d075c9fbca9e; 0x2e5b79212fa4a711; 0x2818afd465a1707f; 0xcb5dc64ced72d14; 0x486fbfaea60d1686; 0x181777087d79109; 0x30d483bf0731bfc3; 0xaaa60af9cde7c14; 0x2bce3ff7f7a1b96c; 0xf1c90981642050f; 0x40c10a358c19c2e4; 0x22cefc2396a56012; 0x71cc3a3e3d67a995; 0x6fef4a6a984f1793; 0x5529e79b3a501c68; 0x5ed1a91bb44c313f; 0x644afa33cfb9b4f4; 0x25e9005a8033ba43; 0x6d8035c5bcbf0132; 0x857f6241e3b06d9; 0x5e98443963853bee; 0x56b89688165dc8cc; 0x66085cafd81354da; 0x6a946cffe9155dcb; 0x3f7abdb0522ea8ec; 0x36b485df27a8901d; 0x2f55c79d8ee5160e; 0x26d5f15e423cc252; 0x48d92b0f68e3bc52; 0x69f6be669a6c37db; 0x49dcf66dd797f78c; 0x58247b126b5c9dc7; 0x53acd195e5dfd6b4; 0x56ffbe1fcf779bde; 0x2851484b9d830cf8; 0x17dae62c5968cbfc; 0x38d4389ce15e3cf5; 0x403b63b074c75ef2; 0x38e7e51ae2f8d9c6; 0x5d6981e9666940be; 0x1ba1fc9ee7389099; 0x7e05e1f189d9caab; 0x487586b646281d8e; 0x4c2dc170e046b36f; 0x7ffdf5f43964d5b8; 0x7c7f2f2d9f7f818; 0x480dd4926288e2a2; 0x161fc3c25da6066a; 0x750bdfa1bb237bce; 0xb0c4ab8a4632b7b; 0x4a00c528b46fbecf; 0x36c470e41a08e74a; 0x54b88351f279aa45; 0x20d66836d51f46c4; 0x7ab79a7c58a268d0; 0x7104bf2bcd649cb2; 0x5a61c596f3b10981; 0x1528f50e62eb60c9; 0x1a2190cdc45e8bfa; 0x57b86f0b2813e8cf; 0x16281c09cf34ec7c; 0x6048225c9cf9ba40; 0x26be8e2adf09140f; 0x269fcac6272d5232; 0x58edb72d0d02a670; 0x4a1f0b731a83141b; 0x65301fbd7313bc93; 0x610314f383a343a0; 0x2625c507158072ba; 0x1a3cfa096aff1047; 0x36a7bfa184d11357; 0x2b2b1f28c8b2a7a3; 0x1ba9425b2f55a5dc; 0x4c43b9f8d2373afb; 0x247814edc8c13e0c; 0x491421f0b277888e; 0x53db47ec98f41590; 0x621349d33848b793; 0x28fac427a8544325; 0x176a1c29cf4d29db; 0x1e4d3563deae7aba; 0x7a768b83583ef334; 0x7ddee4d19a75f43d; 0x4ea618a6159b4895; 0x552ca5a290596bd7; 0x472320f98b98b4db; 0x7afdf0ce5cc96864; 0x638ad1cf4ca31a45; 0x28b70a1fa49a9c74; 0xadd4bb37c88d47a; 0x5e1c74315edbadf5; 0x666ba9e61865a057; 0x34364b01a54cdc56; 0x7446b19e10c29b08; 0x342621293be9f944; 0x42a861219d1f05b4; 0x3aac39fe54dfcc71; 0x5c2c3605152ae98b; 0x19acbf137a04c4bb; 0x2ce676e82675bebd; 0x1913353a69698ad2; 0x4b4de8be3d2e72c0; 0x471525e9c2d25e1e; 0x9b9fa35afa99fa3; 0x7024e57e524a1972; 0x31cba9ea943632aa; 0x3375f98566e8646c; 0x10a3738d005b1fd8; 0x5ebdc80c7a3696b2; 0x52119b630c0dfd70; 0x73cf28ee1439730d; 0x48d0b43946a88a58; 0x36889527b1b565ff; 0x78d72a80ded38ee5; 0x2de763cd76e629ec; 0x61175ea87adfaf23; 0x139543d69054c047; 0x3f2e851a502c60f5; 0x38419d22e54b7022; 0x789353cc8b3ada20; 0x1f7fd0c0e9ce0d8f; 0x56dd3e41ad16b71b; 0x3cf6d7465ba03411; 0x4e92735c53bf34f5; 0x1cfa4e6161ee2242; 0x22344867a63aaceb; 0x606ef9b6f373a272; 0x49e1340798801d6e; 0x151c5bf08f5f98de; 0x23743a6352bd935a; 0x64c8bb29201c0609; 0x393600366d996dc5; 0xada53505581fbfb; 0x5db315288eeefd15; 0x254ab2628a32c0d7; 0x3c0638a15b0380d9; 0x7ed2e937172bb01a; 0xa85689f82bca222; 0x6e81456f0d3d7a79; 0x30d32c0fcda01357; 0x75bc0bfd1804ef1; 0x61bb9f5dacd31328; 0x177cf15513795ce3; 0x3432dece2f27a97e; 0x72b669d08628a63d; 0x424009299aadd4dc; 0x413a96487a8c8454; 0x53e6135569e4d6b6; 0x25e64c5a502796ed; 0x59a0730a7fb878f1; 0x750a495080580049; 0x9a1859495496c20; 0x4d378eb8f235e09f; 0x5a2db330575742ec; 0x39ea6b9a145f6f81; 0x679cef8da8e81738; 0x3a01d7b54c96d9e7; 0x57d6f36be4276991; 0x748743b79e83ec78; 0x7d41d27b775dd40f; 0x3c790c986072ba83; 0x4e980f77b584b892; 0x414e866766ea3312; 0x653f87f66a99f0e4; 0x25b13d5654bb187a; 0x54c8b08e4e058db6; 0x23bdfc4798631a04; 0x15811166d68c844a; 0x38f296d9f088acae; 0x20920159c2905e41; 0x61dc7b3683550c59; 0x475d9fc35639aa3; 0x45e07209d7c1da99; 0x1923dde4f4c4b3b5; 0x3808a6791cdf3c4b; 0x7a5312077d301b68; 0x15f2c147e6acd436; 0x3cf5a0935a55157d; 0x99cee8de5393601; 0x3362b87529d97297; 0x239d6664748bea29; 0x269e0462f90fa39a; 0x29fe2fb5d0e5162d; 0x12fe0d5867baebc9; 0x23f017c1757ae596; 0x11d674bcbb7cd5c5; 0x54de5b156540ad23; 0x7df5e1b9885ce5b8; 0x5e17a561552ab137; 0x525b01efb0cad174; 0x6bbcacb174310c81; 0x373e20d640aa6908; 0x4f0a18ffe392afa9; 0xecaa50efe68c85; 0x6aede8db42b1204f; 0x602d904a21ace325; 0x3b44cf2f163a8e24; 0x14c1fa2075638ad1; 0x61dabdbb26cc0458; 0x3f700dab2cce7e6a; 0x7343f35296654a08; 0xf3968c1a55b2590; 0x7ce0c724f5f2ab8e; 0x2f4682c2a0ee3e6b; 0x78c4a5346a233182; 0x7ab38492163d966c; 0x6d5fd87226b6f790; 0x45b02a3f13715893; 0x1a414ff0fff640b9; 0x779d0aab9934cb64; 0x14d8d09e1992e871; 0x772313147cc36bda; 0x26eb783e1cb6ff65; 0x41317b2da00e18f9; 0x281ee3092ac154dc; 0x186d9411269d738b; 0x32bbae55970660ca; 0x174d04ba8f17aa14; 0x71a614d7172478d; 0x71e50dc21e78ad56; 0xa51e5b0408c6146; 0x428a76df7519483a; 0x26a8e9ad122e5f3f; 0x6c151d5c54057b81; 0x41f8a9dfb8f35c63; 0x7d45c2f6a2c78d62; 0x21b695a6a7a6f84c; 0x7bcb0d51735b38db; 0x205f3fc4e52ad959; 0x614d82cd100c1d66; 0x57dd9ea8fd49f404; 0x28fb4fcf8cae58be; 0x194321848a96aec3; 0x640a3563223632be; 0x618110d5509dc2c2; 0x8f9e0a3c43aef55; 0x657e7f9796190532; 0x503ad600292f4849; 0x5712618d0c551c60; 0x15a776bd34c97015; 0xa24d11eaac33eae; 0x606b9c993392cdf2; 0x60cca8a94166a9f7; 0x770a00746fa9a6c7; 0x1cf3e7e6c0489b72; 0x2141c3a79d982b71; 0x587c9a507add3b71; 0x50e37faccee9e453; 0x4509f58e138941b4; 0x61c1ec61f0b4d9bd; 0x56b204c6215f50e5; 0x72258e5f55062f80; 0x1b7df1a098dd7db8; 0x477df3c173d177e2; 0x524646a6f80807db; 0x79ee6de8654f7992; 0x635751e5346ef223; 0x5a4f80e2e0d6a713; 0x6cc3fcdab467bbc; 0x5b9052ee6c2d622d; 0x7ac1f8ba58e0ea46; 0xac4dc1b84f7cdae; 0x42ca061efc6034df; 0x6d958bea2c801f57; 0x79e66b02d09fb3c7; 0x71dd33640355587f; 0x2d3b5021507129bb; 0x73316df5817d7c53; 0x4b897eec4fa43729; 0x5492f2ce647926eb; 0x7ca18a2ed4a0cb82; 0x45c7076beef52ed0; 0x399cc62be2054ffc; 0xe88d6b50756e3b8; 0xfdde435bbaae41; 0x7de755e377d130d2; 0x736835ca9f4c764; 0x19a44cdc281394a8; 0x625bbc283e3279c2; 0x425a1cfa09ca055c; 0x43909cca43df02cf; 0x79368bd2bf6e6a2f; 0x768b677534274b85; 0x6bb08e7df337a6e7; 0x67d7840ce90d7879; 0x3d9ab177c55ed52a; 0x23f0dcf020c47d7d; 0x78120ee1f9c7fb39; 0x28f013ee1e8836fa; 0x28367e7bb2c3493f; 0x7e018389305a7db9; 0x68075f0e43095216; 0x23082b1585cfb7b3; 0x1598950ccac6a867; 0x579a2d45d60e7240; 0x7d7c490bfcd960fd; 0x38dbc3558ffaa295; 0x389caffa9ac99e6f; 0x7666bcc1b3ca381e; 0x7565bffe93ac6490; 0x2afd0c8c8f146d00; 0x269b420ee78e1b71; 0x54f1d277059cded9; 0x60635aaaf5db9f41; 0x24328395a03b1564; 0x4ef2f29fa1f1ce9d; 0x7a44e62ecf788b28; 0x516e62160768306e; 0x578415830089d108; 0x25ee1c156afdc7f4; 0x69f78b8e853e3f94; 0x3697fa56073f01f2; 0x30020e3bedc1eec5; 0x80baf6f4b640c14; 0x383b4eca633738dd; 0x4d8f7381f67e46cb; 0x188387f2af64630];
   [0x152401d4ed9ded67; 0x37fea513e7fd20cc; 0x5539ccbb13024860; 0x225dde672b9b01f3; 0x682b9aaeb9ac044; 0x23f910bda84bef17; 0x6f128b2f828c3638; 0x12f996961557717; 0x12a65590c3635b66; 0x5345af2a77ba02fd; 0x11b14a56d9a74d81; 0x78916e04f17b627b; 0x5431d20f08917b9b; 0x1f23f17e0116bd7a; 0x3afde55e048440f8; 0x8e4efaf3af6cc4a; 0x5bcb2d28d3c4862; 0x418424cf51b9059f; 0x695655f2288b6591; 0x3b929b9863d751a3; 0x101e3ab23481e4f9; 0x286dbb378d37c2fc; 0x43ae9685210840ba; 0x4235caddc341cd06; 0x65163f2d381284c2; 0x4a0ce50b0fa88c7d; 0x2003cd4150e27313; 0x6837714404fbbbbc; 0x2b94b54298be89fc; 0x59da0dd0d0b20168; 0x7543a31d320e1824; 0x6d82537c2c355362; 0x50dc8befc831b1a0; 0x6fad5dd1a71b7289; 0x3d99b5a65781ebc4; 0x6e5062e3b6aac08; 0x3350494cae3e9c2a; 0x5f128631599e3441; 0x7fe720eefd44ac3f; 0xed3e88c5371186e; 0x6fa697622980ff0d; 0xcc7527e7bd0282b; 0x5f13f2e6157bb26a; 0x6c0f5ddd0957bdd7; 0x456b2c6ce2a9266f; 0x2aafe7062b94d8e4; 0x728f34fc7da89b65; 0x7a61548c0998ea67; 0x3ef0b271983a2e2b; 0x19c2e8cf08440287; 0x420a4468b0315d26; 0x15f9deadcdcb38d; 0x1d6de13e7416e684; 0x7c50a25b3793f2ce; 0x54ec2f76b7bd62e9; 0x306eff46f66b92a1; 0x5ed2533f213dd0b3; 0x7859483bf2b1a449; 0x3d58f75b12a77de3; 0x1fdc568269235cf8; 0x518b1e932b6297b8; 0x2c259b590857a94d; 0x7eec71ee9b4b1d9b; 0x10e57d951837ad71; 0x533e7d2c6d488a3; 0x7c408265ff95d72c; 0x2dff5121aa6ee504; 0x6fff69fbe0ba389e; 0x467f439fac32edb5; 0x5bd85c569d540e0e; 0x6d9bd12774828c17; 0x289eb4fedbeac25f; 0xf36073230d28c8b; 0x7a12208379b6f622; 0x3d75ffffbd0ae51e; 0x2962e67221e022dc; 0x5324d1dddebe1e66; 0x1d627833dd64279d; 0x55aa7115cc02c3ea; 0x13dc3afdb348396a; 0x457627149a02cfde; 0x41eec201754a3085; 0x27e8f3e08baa7036; 0x1ff81e4003fa710b; 0x40c99e755c705087; 0x5071a84f4a6c77d8; 0x282cbce8001b2196; 0x3224c08a6724dff7; 0x3980d6a03c8a366a; 0x1a3d078a2e6d2479; 0x8704147f22d766f; 0x121af52f106ced4; 0x27f0ae2f0fa3bbaa; 0x6e5d8265049f568d; 0x277fcc37a5a177e; 0x53608b94335a5f1d; 0xcada65e2ed22b3f; 0x522cbb233ad627ea; 0x471a7c44eeef0ccf; 0x4629dcfde0224560; 0x1156f4b6b9c195e4; 0x719f8957817aea39; 0x575ce86b4f5cd36; 0x56633ac4cd65c5ff; 0xb0519746b5c6e88; 0x6861f43463e65ad3; 0x4ef8a554c5ed54af; 0x5d73e0fdc5e941a6; 0x55fefeb02a8e3205; 0x7a05ff01a479b4c; 0x1df0fb3ccc9c2ddc; 0x338221b8667ef7f0; 0x449b940621b569fe; 0x3724f8d87c49f2e8; 0x11b0dc7ed701eb84; 0x1ab3684bfcfd1258; 0x79201ca55e26ea8b; 0x41e6c32c147f8dd0; 0x38d4528579530d50; 0x3d35dfb135649ec7; 0x28afc7e902e802c9; 0x3a2f4c3ddbb2ec16; 0x6feb6c8266d25ff7; 0x6f3fe0d1c77aa59e; 0x261c993f49e702da; 0x28532cbea01d1f7; 0x4f20e684a7548921; 0x54de79844395b025; 0x1e6ebbed4f90c968; 0x7f02c7b29e6bad29; 0x3b0c9b4af4aecf8a; 0x546bf9f294f655e6; 0x4f604dd537c11cb9; 0x1480ae654ca6858d; 0x1eeb1d11e177a93d; 0x2b7e07ffb029b1fe; 0x1965d15211fb6393; 0x487e63f398cb1bca; 0x3db95fb8817d9d57; 0x35e4665c65757ff0; 0x29a1cee2f605e4ac; 0x51b6f0e6ba441341; 0x6e53306b5f80cd7d; 0x31efeee46ae7b71; 0x698eb530edc06bd9; 0x15398f4ccfab9c30; 0x58f22175bb67e891; 0x623f8743a28e5aa5; 0x33fae9c1b13b1b0e; 0x63178be31750c208; 0x7e273f3d204f7fbd; 0x4dca9ab79e254287; 0xf1e8fdc9e917e16; 0x55d1439df7559b50; 0xd4c4f1f43209c22; 0x44e326759f59c7f4; 0x1941a7a02848e5b; 0x269b2afc53dae777; 0x711a4672ba1c8cb0; 0x55dcd6e4039b8dae; 0x501b7d3821ff7b61; 0x449977e1aa309e18; 0xcd8ffee349e764c; 0x17032f697990934d; 0x1dea5d33eafba6fc; 0x5f7808c100f7c2d3; 0x3ca4dfc47b5bad9c; 0x58d01f2739519b14; 0x18f6e11ac0bb55cb; 0x5174b63b558bac08; 0x66e2fb91bd87fbff; 0x5893ca9082f54573; 0x441c3ad6b7200793; 0x284380e6fd59c01c; 0xfed325dbd796aae; 0x8f4bb5402d3df01; 0x3044548b0bd26322; 0x11647ec3883d17b9; 0x6f45ce0013a378e0; 0x533f2d9f9638c428; 0x5113e659cef09ee6; 0x44c2b44b9b94f251; 0x2b9f4efaebe664ef; 0x445f8893eff1b0e5; 0x5b675feb73967853; 0x25e265252b9c8bd3; 0x358c37fa8e60aa71; 0x57de1c0d3cc0f7e; 0xd77a2c5f08a6e43; 0xa399453ab31677e; 0x2fe21bc5ac09991e; 0x2011513c9a769b44; 0x1e1edae0665fe622; 0x2e3bbf1ae75ed5d0; 0x24f1fdc8104e1131; 0x333b05e8ea46f404; 0x2cd1371f437844b8; 0x40c576ac75a58f49; 0x694a9cb83c8549a0; 0x45b3e74e5a022b52; 0x506d9b8dc36aa351; 0x3c96965c250166cc; 0xb2e9d99b4a09171; 0x2a143b878649559a; 0x5463b813c8774f3; 0x1f13e232f4d248a8; 0x13a524b81c63f13a; 0xb9707b76d8d2417; 0x7656fa63d80fb576; 0x42ff1e1693be56; 0x5104b640aef5548; 0x37f441a1a9c62fd3; 0x38e1f555ea549691; 0x60e050bb922f8ffe; 0x6ad89d3b3de3c357; 0x11f68d9c73bb8054; 0x526ff74ab4f94ea5; 0x6f5a769b2d64d284; 0x6980a18acdf44397; 0x14b3d237a5169a2b; 0x668309ea41761c46; 0x275fc4f4bbf54c48; 0x2a05639f2652464c; 0x606fb5af572d8b22; 0x5ce530e428ee146a; 0x464b1b8fe236bbb6; 0x4e36b8c5c1615b46; 0x1acb80a321eb32a6; 0x75b461c141a8997a; 0x19935b8909ad6a13; 0x5a466874e9b89923; 0x566d842c54593916; 0x6df08740b92cff5c; 0x640c77a395b35b86; 0x1262b5fb9bc1acc; 0x351adc727a5db092; 0x712d5fed556d3c27; 0x384d26f11aeea08b; 0x89c0f366597e05d; 0x3ecc19f6dd5af71a; 0x5ba2b9e89c4c3f7; 0x1c4ead158b437ff8; 0x31fc036ac5b60a26; 0x21d2cbcbaa7756b6; 0x6f0300b6ac5d1c3d; 0x730de3194391c92; 0x60042477a548a9b2; 0x254de123620de39f; 0x437189440fa59de9; 0x107a0cedb650935c; 0x6af940ae0dfc7e56; 0x36f29d434e213cc5; 0x712c3292bc5a5fa6; 0x5d90aa76a962b53b; 0x532273c4965006b7; 0x1378660782dbf78e; 0x3851c6cb31cdbbee; 0x7aca598a6e0ff3b5; 0x3320ad61271a98ac; 0x5440fde9008ee6ef; 0x2c2b4d763e551396; 0x29eeada1b3106937; 0x1060c929c25a4b73; 0x3d71d181157fcff8; 0x350fec8acec63bc2; 0x150ba285ca976f7e; 0x67c57dcbdeb2ecdc; 0x374933b59e3d01cc; 0xa15c24fe6c45ef7; 0x4f8f8964cdfbef00; 0x2edb04273ce3200; 0x787edd98a4388a1b; 0x2d0a03dfaadc403a; 0x7c35915d65772ec6; 0x1479a74a98b26ef8; 0x75d54d4e5b8a312a; 0x37c61cce0c2be4ed; 0x340fd8e7270d5656; 0x43bceaac40386624; 0x7544ac6e7aa22142; 0x621a7a980e01adf3; 0x71964e872b6b1555; 0x1a0646df65d1eb43; 0x59ab2398cfc2871f; 0x71aca1f46be8837b; 0xe1be5d1097de959; 0x41bf0d167c65d12c; 0x433b1ca2ebb2baf; 0x5f0677c9896eda71; 0x3b56a9d0288fa792; 0x5e45421c421139f2; 0x25d31096b6b34533; 0x194db0c85f17002c; 0x180a34dc8e90610c; 0x60187324972932a8; 0x2da5145db3e2f469; 0xc5913c881c1ab81; 0x631f698bf18af4; 0x26feb6d56928cd61; 0x4270a3819ac652d5; 0x5988263f7c02231e; 0x2ffa012f97728f33; 0x5b5753de6fe5d649; 0x1b9af810e1aec138; 0x262d22a643c13111; 0x1227094cb41e99b9; 0x3167005557c4ae78; 0x6e5f0dc6f5239d84; 0x1b816482872f4b96; 0x1df3be032d1dbdb7; 0x66cf3f2c30c71825; 0x2e84e56abb3fa03b; 0x3049a4b9273af1fc; 0x179f607369280f3f; 0x4cd729a6cb0b6c72; 0x64adfa570a50846; 0x777693de020075d];
   [0x1e80c11d3b2c60c5; 0x2ecb94db66bc9a1b; 0x50d1c880c2c091b4; 0xf3ca2a17a34f954; 0x4a6803c474d2249a; 0x2e8541f684e2b084; 0x6e98b922e9bad4c0; 0x3fd262bbcb633560; 0x77cef1b1bf3059c0; 0x6c7d15d016d1b5f; 0x5494be7b2caaf617; 0x7f4fb98ab7b21485; 0x6a060bccf22589c1; 0x69005f1ef3a8d6ff; 0x2c0ae5f1229665d2; 0x7cffa68dd6d95597; 0x585e2f1ac76eb3e; 0x248a16b0660582aa; 0x5938b03000e0bbe3; 0x13747f7d4dc5811; 0x39877a485d16f8a5; 0x7470288812517701; 0x60c84b82c1d29307; 0x669ef99436c9dd5b; 0x1743d3b0a11ad065; 0x7c89a38a5467786f; 0x40b3c201bdf30040; 0x672e59bf79499b86; 0x1b7369a24983038d; 0x15e014e62b2b9d3e; 0x2d1bfec3bb0d397a; 0x435b83991397fd75; 0x6dcc096ec6f16624; 0x2f2b40ea5d235095; 0x2f8eddcc6af5cb3f; 0x2df54fee75262543; 0x4606e429e5574530; 0x9d79534144b1ef7; 0x3531d21bf7b669a2; 0x2349fe792ce3fbc7; 0x2a9475f655c4606e; 0x47728d882009b4bb; 0x98237821ed789b2; 0x46b226124d868a03; 0x5e09a39ec48a9836; 0x67c742d33ad37ff4; 0x618800e807af6ade; 0x208342d25f79b278; 0x4789b5709bcd59d8; 0x1d72914da917da73; 0x3fcfcbedf65d9451; 0x5160ecaead41b779; 0x5c19ca8a5eb40a3e; 0x14ccdbba1fc40c3e; 0x34945303c1d17ed2; 0x3f3e5b612378ce46; 0x10a1d4794a70a1e2; 0x2c0e295284bf0bbc; 0x2ec5a44aebfb741d; 0x2f763d14bbdce46; 0x5236dda90b3c678; 0x2d11e36ba791bac6; 0x1279bc8de65201c6; 0x694beb925cafa9c; 0x186f26f68742bda1; 0x10e71ca01203f24a; 0x59c6b1f0d284c047; 0x1feb62ad4432560b; 0x4303099e72315b3e; 0x7ef02cbaa8c68b5b; 0x262fb40d29da54d4; 0x402b1ade43174f45; 0x4d8884d0554ebcbe; 0x60a9634db1951df9; 0x3f122c6d0648a0cf; 0x6a4ba7e7147fe2ea; 0x692c0a25b0723ea5; 0x3b9d26afbcb7209a; 0x4e0b8add7873109d; 0x16a6359d87197855; 0x370d8e1a380cbca9; 0x4fb166052d6c24b8; 0x3fba7e5cfb6f9534; 0x24621d2ea92dc013; 0x6d30bc30be150ef5; 0x2aa265c0a7fa69a4; 0x76a1a211b816b353; 0x23f8a08852f90c85; 0x201c190f130b4a8f; 0x253c1f2ebaea4313; 0x65fffe6d736d78c9; 0x3e8ad0ef70b780b2; 0x586918f71eeef8c7; 0x148a38b2dbbdde60; 0x1462aa7ce6f88695; 0x40a0b6f3dd571d34; 0x20f23f71252f6952; 0x643c7e802258e6ba; 0x3028722c3a758c82; 0x292c22b446772dc7; 0x13076a492218f1fb; 0x5ee1b816fcd5983c; 0x6145f95857538333; 0x65895053da2777a3; 0x67602a724baaf1bc; 0x4495b3accec4f814; 0x6c6452f2fe3b9cd8; 0x1723e45ccd7099da; 0x79e3ab163504c757; 0x7201fde9acf3b3a5; 0x274eba7e5a9637c8; 0x7624ff3f8cef8dc9; 0x1c00569bacefebeb; 0x452e4e7ebe3ef1ef; 0x193ddb4c0fcde309; 0x5b42ff7c8d0c2257; 0x427fa2dac4276c99; 0x437c226f47a7bec0; 0x5bab77a81ee1ea21; 0x435d4a74c4b76127; 0x16d5d17526434f29; 0x3479ff7c12ab5d75; 0x7a5e70329b8c4cc5; 0x6ddf8ab40144d2d9; 0x61d26a1aa2aa6d06; 0x1ea7af2d1d02efa5; 0x3d19b18d6236be8a; 0x1ca3e6119136715c; 0x6bdb4a71ef03c913; 0x23e4e663b056a316; 0x7b6385f2d0152bf8; 0x44ed0e9a78f4eb12; 0x3f29071752eb01ff; 0x4f2a4f7c11761d70; 0x4446f7bb7b5d9326; 0x458a3a83e588d2e4; 0x6021df8241c4d509; 0x735c774e50b72f99; 0x7b7bf9865e8eea72; 0x6a4d9ed43f242126; 0x1b3c65989f1456d4; 0x6a8198d542699159; 0x4e1a0760b64241ef; 0x3500a91074eb6190; 0x1851df61ad030b8d; 0x7fe93ac48bc43a05; 0x34e65040e20fcc5e; 0x7ff982bb8a15b491; 0xfaec68198395fa9; 0x7b679a6b2beed340; 0x5996d462768efac3; 0x4f9146ca23584090; 0x4051c9fe8ab5e3ed; 0x7081ec5ceba81bd3; 0x7fb018d3c6f722ca; 0x7ec7121781ae2fa0; 0x96ca749f3927e77; 0x5985138955f99bd2; 0x144bbbf755443c79; 0x36b82f972afff368; 0x7c1eed23fff372d4; 0x786348c89f61f744; 0x15246601aeb7e7c4; 0x28f40013f3f2437d; 0x1775e8eb4d3ffcb4; 0x425d3d8fa89523b3; 0x4e180c7026a581ed; 0x8b46bb40f7b343c; 0x654a869a8db7d251; 0x344a3e4997c579dc; 0x4a725da95f02d7f4; 0x766861642a11083c; 0x59b1aa638c8d6457; 0x3229771cf5174928; 0x77d052fd49a529f2; 0x33e51ddbe115d552; 0x22ae0b16dde38758; 0x6fb0ec38fad9715a; 0x276f492b4a681412; 0x660db37c648cb631; 0x31c5cbc37724c0ca; 0x1a927c3e84b6f117; 0x1d593e9d1231961a; 0x517547c44bcd5dc6; 0x71994fd0a2536fda; 0x10f4c1351fe4f1e; 0x25e7020c372b41b7; 0x1c8d8eb84ccd9527; 0x2cc2c3389433dd3b; 0x5302a8b0fb09a37e; 0x3e6334286165ecd4; 0x5665b24c6e0ac44d; 0x203bccaaff1ee93f; 0x7f61dd638f15017d; 0x3dafa08d3cd8aaf4; 0x7007b743b233d4eb; 0x4d2986435841f3e0; 0xda38a3f6fbff6a2; 0x41ec4a966b2c3ec0; 0x365566943f96b64a; 0x15ccb673e98ead43; 0x5f3d9d1b31e5b791; 0x6bbc1fd23dd2fb22; 0x176ead7c812c25ea; 0xf7971fec996ea6a; 0x611757d054006865; 0x61033fea09a57c34; 0x2b259c7b136e4560; 0x4d805e138739f1e5; 0x3d21a4317e83ae66; 0x597cc9031708aba5; 0x68e515573c0de0d0; 0x99f4f58b582578c; 0x5470d90a53a3ffa9; 0xb1c52506dd84144; 0x24d56454522272b0; 0x1c0180fe287089c; 0x252284e029dc22c5; 0x22b47ec91eea06e4; 0x4193d6e03c535235; 0x1dce37b61991aa32; 0x4c3c4c98f139dbb2; 0x44c4193e74bc1974; 0x6f37fe1f14981008; 0x6cc2586595d06587; 0x3acda252d55adc3c; 0x6c147bb78e43e2d5; 0x790c568bfbfc95bb; 0x4c4442f42067a925; 0x3e33982439478556; 0x43ed5bcc248960e; 0x1a28ff13560d37b2; 0x63e3230ea4fd4bb5; 0x6415300bc1b1d62a; 0x31f558358b1833c; 0x47db0d3cc9a4f94; 0x4fee4d12c025a5df; 0x7ace2a7f3356df54; 0x794fbb33f91e2982; 0x6a93e363aa2c1e8a; 0x3f078a5733300580; 0x34e763d07d389748; 0xec515591a1bbbbd; 0x408252ce9888169; 0x20939cb5d5400539; 0x6df5f2d2b504db80; 0x6f45ae36e91aa4c; 0x76d33e43c8bcc4a3; 0x40965cd765c87bd9; 0x459cc4f3129cd218; 0x6c4b804fffa7aeda; 0x7e22e19f2c069529; 0x494de8181c0f136f; 0xfa9c23c47caadae; 0x730fa2e5cace4098; 0xb869355ea92b69e; 0x776e1997082a161d; 0x1d2614a1a98824e9; 0x674af78a7067f9fd; 0x7ca7cb4262f642cd; 0xa30064da8d6097a; 0x45e5eed632c6ba5d; 0xe51a1005c0c86b5; 0xc770fe8e132242f; 0x4b43dbd0ce2fd7b6; 0xbf884db757c3d28; 0x8ff950194d7afa7; 0x75d20d209370ed01; 0x39aebe4279697a1f; 0x1257c3ae8db7b9dd; 0x324625f2519812d0; 0x1d6e55ce03528b5f; 0x6b31d93896046aa9; 0x2ef50622c8f8f30b; 0xe86cd25cda81a9b; 0x7c90de66c9d60432; 0x3dcf61e7e37680d8; 0x717c694362664d8f; 0x21b52e9337fd679c; 0x74c17278e4ba0acb; 0x55f6463ca69b750f; 0x3514c6236d7e15bc; 0x21e1d1d19b0a28bb; 0x3b888c7771b5762e; 0x579ed3bf22090c19; 0x260a38f6ca0c51f5; 0x44d3a80da7ee408d; 0x671bf30d65445e40; 0x1a31e8021628bc44; 0x5af1fd2525593e7a; 0x2bad28ee78cd100; 0xdbd374864ad4bf2; 0x6a754b958cb1e01d; 0x3c16fdb3d01c8ee5; 0x272bfdc776d51240; 0x277755559c584f7b; 0x6e89c2849d11b003; 0x518d943251e30d25; 0x133c95fca44307bb; 0x5c97662f51d97db1; 0x4f8a1544ea3b46db; 0xe80eb0551e8b7ec; 0x3b648e7c58db79cd; 0x1e5adfef79672fd9; 0x7ebb3171595183b; 0x4e4b4e5e90df4982; 0x62200832a402860c; 0x44236a693defb92c; 0x8afe925270e8046; 0x162ebe6d4f999299; 0x2acadf5a85cd556; 0x3e019c70c4b0d8ee; 0x26af13b2802c3ae0; 0x2e6b5359451b902d; 0x564f6e3c752f8a7c; 0x1a0a0a4da343f87f; 0x2fd023493f569bb];
   [0x35c0ecbbe502df26; 0xd41939db5551004; 0x6ee70acd0bb37229; 0x7795b4228bde7c47; 0x11ac579623c49b26; 0x26a54eb11f5ba7ab; 0x306a1e905e496ee2; 0x51c76d659c09ef0b; 0x70c4aeab6087315d; 0x75da26c02f37fe07; 0x7c7bd425a96a1d48; 0x242201092c13f150; 0x1d394b887a71625f; 0x753887cce763d2ca; 0x55b13dff148a9655; 0x3244dbbe363b8f92; 0x34261bb3a5a7fb66; 0x127bb96db229c1f0; 0x847be54a442bb2c; 0xfc909ccfaaed98c; 0x47717dafeefa62da; 0x491d17d6d405835d; 0x73ba1a790e18aa43; 0x521da8f834cdccc; 0xb9f4ec9128aca3f; 0x8900667f09479e2; 0x5228b18c2e141fae; 0x251cc5c5d8ecd127; 0x4f267c45f34e481e; 0x7e7c150039fefddd; 0x699d1ce1b01c214; 0x148f485b70cf8b0; 0x496e21ddc13c8011; 0x7c647fda94f7baf3; 0x5bfab0176345647f; 0xffee9968cd5c22b; 0x7af295bd2298a9ef; 0xea2af48814188d6; 0x4acf615a1914d091; 0x498ba6846e404c27; 0x58a8b948aad1a161; 0x6e5c47de1e4f69ad; 0x51be28aba83ae998; 0x3467f9b28edd4ddf; 0x21e26a0111eb6683; 0x39de1b4ead318264; 0x2347f556203a32fc; 0x2e1595e20914927a; 0x52f3b60a7fd70b8b; 0x6da080f61f3a5ad0; 0x8f5f1133d583d77; 0x3c36bbabd375cc04; 0x1b2943019f42ba3f; 0x67742f31ca2d3034; 0x65f5780527809fa; 0x15fee346e15d51a2; 0x3fd75d4dc81e9570; 0x4c832e4fae0a6e9; 0x5dc54ca0876a83d2; 0x61a12314c1d0e756; 0x5d973a9769a0bbde; 0x10c93c975de39054; 0x5da33a952daa012f; 0x8e376388d70de95; 0x5af266c5aa75df55; 0x326321b5cc08bdcf; 0x5a7eb865f191a1fe; 0x54545d7fc52c4490; 0x18d55b819a01d016; 0x2a42d266f466f3e8; 0x6af4c2bc4d26b860; 0x53ec4cc5f30decb0; 0x16f29ade40fddcf4; 0x7a23be71baabff1f; 0x5db9c85a31b61d00; 0x1b2aa37e203888bc; 0x78ab2dd08c26b5c3; 0x3b0ca91931b23bd9; 0x3e2636ff3799caf; 0x2599a27d6aa9a291; 0x109b372c6fdd7b8e; 0x71976ceafd4a7a95; 0x4f78405cf1b55d5d; 0x30e08f947181f70e; 0x5a14788baebf9141; 0x7ed50d93db603d9; 0x1b45ff2b987c372a; 0x131aa7ba535e6c8; 0x135e0fd2b2360e53; 0x2eba5c4833159e0b; 0x77728665c947fc81; 0x2f6da6a0ce6eef2; 0x48304754ecbb9b2f; 0x4fb4fcff2ca19bb1; 0x458e24595bfc4af3; 0x611d5f9c42453592; 0x7f7215fbaf71e7a6; 0x37ac929652172441; 0x3e5f41a9dfb61b38; 0x66f487c9308f987a; 0x69397a88be4f9007; 0x37e5e7a889a453ac; 0x4567d56e0d0e687a; 0x7d6493544743dc9a; 0x24a04a5bf550c31c; 0x2b79eefb97831280; 0x412ddec8af198cc9; 0x508613d4068d0190; 0x9a4a449f4016270; 0x42017424eb5bd067; 0x7c5333765794a72c; 0x26e0af5cc99e007a; 0x4263136578fc3ea6; 0x349a3bc408b0a202; 0x1cf90ee396d2a54f; 0x56a26fad5425a6bd; 0x7ec0cd1f7807800a; 0x3bbc3fa1464bb44e; 0x6cbc0eeb52b5dec6; 0x45209f106caeded7; 0x44ebc817910ad339; 0x117bf78dd49527a8; 0x2a7adc19291e7d5e; 0xb6c5b13e577c6ff; 0x764aabad0c639054; 0x1c2208f673512cb5; 0x77eb7abbf1fb090; 0x127fa5731062769b; 0x4f804b659af08aa4; 0x6c147c182ffb4c9d; 0x52d94065f902dc44; 0x7bcc3c62d2d2ddac; 0x70f76fe7b932522c; 0x682d7d50a31041b9; 0x335668f4d3f52c4d; 0x40d3da3fd5088f52; 0x9def41eb69736ed; 0x612d400c7dfde707; 0x54fa37f1beeec5a8; 0x6d922a70de16e278; 0x3d214e83fe375d1b; 0x2040aa42faea2216; 0x3108495351ca626c; 0x378e96daf56d2310; 0x638041520e7bd991; 0x31e2419edf4dac10; 0x530ec3ba7f4c7e00; 0x746ea37f3946b891; 0x64adda5036a78be5; 0x7183f710ed315acf; 0x5d823927f7e92947; 0x5c8a62b96ef53fe3; 0x3b244e6cd8023551; 0x5f89a4f4b7ff4cc0; 0x73fc0afc123b3fdd; 0x2535d4e9fa2f908; 0x3d10309b50fbd3e4; 0x15160acb6bbd0bce; 0x6659ea4ef3a50c47; 0x5856f25c3807bccb; 0x28fd3b36d7a4fab; 0x5fd440e64c78076c; 0x25dd80451115454f; 0x2989f1d5fdb75ce1; 0x18faf890b179f62b; 0x1535b964f303866e; 0x6d8acd523cf7e9c0; 0x3e002a71958d50a; 0xaedee21697b5a4b; 0xb4d5deac6c9049d; 0x10ec3330ee273ca6; 0x33da7eaafe3f9e3b; 0x367ed75eb5e7c4f2; 0x22910474177b39a1; 0x3f3abef95430199a; 0x3d0f82950234a2af; 0x299fb5b51f3b01f5; 0x76f00c71af0054e2; 0x212b68b1eb395b54; 0x1d7511bc5ad03569; 0x55f1fa8e1de6fad4; 0x33d532c415dd85e3; 0x677721a9d9d47cec; 0x6eb00ef709edfe2f; 0x637c9f2e66809a0c; 0x28867b398b0b75c7; 0x10424e2d919d18e3; 0x89fc44d1fd86b9e; 0x4612046b31c3487c; 0x67e0325641d65a7f; 0x1b7df21999b8749; 0x4ca72b101ebde764; 0x9900c766dcad8a6; 0x7c9ad114bc0d31a; 0xb85b924b8ceef4c; 0x58ecc195e30e7cba; 0x50a6fceaeda380d8; 0x5d8d65745d57cce2; 0x51463450e325be0; 0x4fb31e7d4f38abf9; 0x657a4d24a5e46205; 0x353d1743c18c78b9; 0x2636617eedce1320; 0x48cb022b8fe35243; 0x3d3fcf781280861c; 0x56c25b0e9c66c08e; 0xc8350e3afb572b8; 0x22a90afb9a1f63f; 0x7211964e491ba5e1; 0x5a2ddee3d87c3bd4; 0x68b8c2be12878ed8; 0x40a7a4404056961f; 0x548611b9edee7172; 0xfad5be2d228060a; 0xf0a0033c7f9b93f; 0x15669dd6f99d5f86; 0x6512597a926824ba; 0x32d2426a0d548904; 0x67fcbcbf10a0183b; 0x1d176c4ef7c6a3df; 0x54051fd0125fa086; 0x604c07b9ca174bd1; 0x427cf6c9581a35b; 0x7f3940bd63117d5b; 0x424df79e88a95927; 0x4cc30b0b033b8bfd; 0x86b58bd98bbc5e1; 0x516f9ddcb4a1e83f; 0x19c7be262d357c2a; 0x10274431560c6628; 0xa8fcc0f5f264663; 0x1036282fb36a2512; 0x31b594a7199ad9c0; 0x63688b1d9adefbc1; 0x4a17b55a4b3e6635; 0x64d9d21ed5ccffdf; 0x1f3399d3382154c; 0x76c4feafda0e8602; 0x2ea34ba964f3aa71; 0x2aa583f848600bde; 0x5c5595405c1d0719; 0x1068d82d4d16ad8c; 0x78e4aeeb4864ae5c; 0x33d344d965dac973; 0x541b95b8b0e42e1a; 0x20a416c9d6543c6f; 0x68ee4cff9d72f07e; 0x7589a790bf815fff; 0x2f2ad863aa9f6436; 0x13225b37fb4fe2ab; 0x524b0a6a721dd1e5; 0x373de619d50134f5; 0x3cc23cdc5101433; 0x796bfead4c3384c0; 0x432554c47546ea14; 0x72e88a95373ac72b; 0x2e14bb262a43b2c7; 0x34183563391b4b10; 0x129b0f2f46bc7c5; 0x1154f395a31fe8ff; 0x31bc5bf646e766d9; 0x15f2d122028f3a5c; 0x42ad6dd7f99a2274; 0x50d3fbf2714438e0; 0x60ca645fdd052396; 0x1e0d5b49db425c24; 0x565ea9a3febb398f; 0x2fbbe52359d62f1c; 0x596291189d15fd0f; 0x1017daed10290e21; 0x72aff33745804c95; 0x5ee37a9ecc9561d3; 0x21a3efa6b1622a55; 0x323e45b8951faba6; 0x1eb62185537703fe; 0x6ca368033f1e1ce2; 0x73d01b583d01efc7; 0x6147414fb69a8703; 0x4751c16df568cc07; 0x1ae8a7aaf6c4b8d2; 0x5bceb1ec45b89802; 0x597336fe790179a0; 0x181cea50313c4248; 0x40021f798d98b66e; 0x534c6f18850d1669; 0x154e2d4ff62d97f1; 0x2c54979a55e5f954; 0x5f7f7b9c7094ccd5; 0x3c9a1a6e06fb672b; 0xd0f43f9dbd4bdeb; 0xda6f642bd8f4e58; 0x7f91044352795745; 0x1c25698305930c37; 0x19ac1faaa668441; 0xedc3a9c59b9e87a; 0x781cdf87dd932acf; 0x7d91e43b398d6546; 0x2f64f1c88dd85bc4; 0x6eabb895a18f9f7; 0x19c73dbd0229d386; 0x34b079d6bc9b8835; 0x6a2f9c23adb60b4b; 0x7f8df09a12b14b5e; 0x267cd14ea21864a; 0x697aafa2f21cc755; 0x4a1b8cd85c505455; 0xc558bd6ce31e022; 0xa98f5cd33a54972; 0x1e5c151802acd29e; 0x5e4d179bd6dc4875; 0x4b34c92ca0fd7665; 0x69ecd3b78d888876; 0x70c24325292a02ea; 0x51b5268d79882d54; 0xa89f0def543644d; 0x208bd57d3e2279fa; 0x82b9860bdbad8c4];
   [0x6d9ded63777693de; 0x67fd20cc2a4803a9; 0x130248606ffd4a27; 0x2b9b01f3aa739976; 0x6b9ac04444bbbcce; 0x284bef170d057355; 0x28c363847f2217b; 0x61557717de25165f; 0x43635b66025f32d2; 0x77ba02fd254cab21; 0x59a74d81a68b5e54; 0x717b627b236294ad; 0x8917b9bf122dc09; 0x116bd7aa863a41e; 0x48440d83e47e2fc; 0x3af6cc4a75fbcabc; 0x63d16fde11c9df5e; 0x51b9051f0b7965b0; 0x688b65918308498e; 0x5863cf52f8079ccd; 0x3481e4fc0053a4e9; 0x5b9d718eb83c7564; 0x7ba28d7030db766f; 0x6541cd06857d2d08; 0x201a84c2a7becc02; 0xf8c8c421b0518bf; 0x11c82580b6e9ca16; 0x3b68cf22b006edf4; 0x19ed89fcd02a55f9; 0x50b2061f3b6656ba; 0x320fdb5431027ba1; 0x2d6ee4728410c6ba; 0x15941bfd7ff304f8; 0x3cbf92821a0dab14; 0x64f35324dc2287eb; 0x69ec258f78c689d9; 0x433ab8cbca83cea3; 0x44b6550b74cec804; 0x37df33857aba170e; 0x1cde158f56c829e6; 0x42d02b567b321a59; 0x6b709ca5bb747d56; 0x1059c71661954a9f; 0xf9977aaa1672cfc; 0x100ae1e3d4b8cdb3; 0x44b294883f64e267; 0x3a59794d52dfca5d; 0x4abcac5186997d2f; 0x6fc21968a75befbb; 0x6e46d9e10739f765; 0x28e183c232152f4b; 0x768e848b87616377; 0x166bf604f6d36280; 0x542ab6e3b6379086; 0x6b1ab6d72c0d718c; 0x620833c3dd8a807; 0xd055aed6090abc8; 0x1ab3ad39fbbf96f1; 0x25851ab145d58d3e; 0x5b149922508d9604; 0x4b420bb2f34daa8f; 0x7d05b14cac81e2fd; 0x235b76cbd46cbe12; 0x378967e7b6ba3c65; 0x2588669c4dbdcec3; 0x27e25ad244f138d7; 0x1f989d516b72ee13; 0x51f54d9eb7051a55; 0x62faa3af684866b1; 0x6663609969d152f3; 0x662e9fffe2ac52ff; 0x3109d11c38d5a1cb; 0x55b701d33e3fa773; 0x72b21df48675e0e3; 0x6dd3fb9d452b59ec; 0x3f9584c433f2cef9; 0x68cb6e60874ba691; 0x46f14baa42b25810; 0x63f5fd15fda36b3c; 0x4ffa55a7ca20f4b5; 0x61ae369d125c4d9; 0x14489d788dc855bf; 0x9b44986ecd57d01; 0x6ca1b904e9fb72a4; 0x55a3035c6e1ce968; 0x11e1ce1276b8be93; 0x2a20e32a6b3d7249; 0x69ea979b038105c2; 0x36ff9bb046712d1; 0x6703f43c78a0689e; 0x6a19b5a05cb16f4e; 0x19ebee784e843fac; 0x3e5bee81c97a2b66; 0x102205b1cc83f5fa; 0x3bf8864c26c6c253; 0x33136c285ed3de0b; 0x5deb977a9575f84d; 0x3f6542e792190aa7; 0x7f6fe8fd65fb6fc3; 0x5f715bb321a6e166; 0x3aba03c7b4907df; 0x530d13e48a82cca5; 0x34dff890de57932d; 0x7b52c7c5028e429c; 0x6f63004b5b9cce62; 0x7de7a747dba7c097; 0x76e9ef9933715224; 0x29f5dd421a12631f; 0x41cf027b5b217297; 0x2cf04391f26643da; 0x14b7d7fea24156f7; 0x3b70d3fe08a421c9; 0x629724066cb37ad4; 0x3552c0621424a992; 0x90f3e77279b027d; 0x9f525157d7b2f2d; 0x3dfee232591a3749; 0x59e4c41307435bab; 0x375ee79d8a99e046; 0x1bea5d26b1cb8821; 0x66790de32215a106; 0x65ebf65ea1edd779; 0x313e049bde9562d9; 0x39fdf6891124dd3a; 0x8512901679d107b; 0x62b56e03634218ea; 0x3f9899cbb3e45f02; 0x6be08a925b084fe0; 0x2532dd519c2334d6; 0x3198b42588eb061e; 0x1162855209e92325; 0x48f754f49e9086dd; 0x34aa7d01ed52cdbf; 0x276eda2526d5ac68; 0x4c1dd90a84afc362; 0x373b5699d4a7ba79; 0x504129f6150e85d1; 0x4b70158fee3ef369; 0x51570613fce6692; 0x70800306828cc037; 0x4f098c8f3affb187; 0x3c297afd2e6284f0; 0x5a0e18e2cdcad91c; 0x2666ae592410da6f; 0x1af31205f8644f9c; 0x69e8bc2fa9793bb; 0x25604abb4dae0c44; 0x4a837cab23082326; 0x7e43102fc086f2c0; 0xbcc6389e35cfab5; 0x7c1d72bb4352c3; 0x239c3fec7cd64bad; 0x3fbde17376f5f796; 0x5ebc4d6b90bf7d3a; 0x3b84b49a0f313aeb; 0x5904045951ee5510; 0xe0aec6615e934c7; 0x25aee73e4550b01; 0x27855da36cbfce64; 0x3d9b0d608df6738a; 0x2a3f4d9a3b5d0f32; 0x2c9fc83972d9e18e; 0x171ecdb8a982b31c; 0x1ce1a7cb40bb7e9f; 0x1c18e3c2d9a38225; 0xdfa7ae26a61305d; 0x702f202ac38676a5; 0x65afe2403e963a24; 0x163f66b84739ae7f; 0x1a22cbc4f57f80ed; 0x411bc0216c564878; 0x68e4ed36152fd35d; 0x336fe398a822de99; 0x1ae29a8706a214c8; 0x1c7d5586550859d4; 0x290ec734a106b848; 0x24e6227e6b737703; 0x7391ad2e36266024; 0x1c01bc0606810b75; 0x7ed263bedca7fee7; 0x20f8e79b46efd6b8; 0x52c4eccc38762cb; 0x66a6ab2195df4501; 0x4ca0428e2a1deed5; 0x5af86c0d824fbe8d; 0x5b6b229a7033287c; 0x105ec58b54bdc81e; 0x2685d318773a8f83; 0x4b6f803a9598ceb; 0x781a0854190ba50f; 0x6e1020673a9073bb; 0x2a386e3f427cef3a; 0x3c9ea2def3de050; 0x39fe82b62172a661; 0x417a9cf2eaa98d4b; 0x6c883da5e424f560; 0x19d63c2a53bdb9cf; 0x30c2b900b89518a5; 0x7e79306731c57ad4; 0x3cab625c21986fcb; 0x74b01131d4747ec5; 0x721b5a26c0c4ffc0; 0x1e814086ec220a4d; 0x5b0ea3135bbe1bb5; 0x5ea91316312f494e; 0x28ab8c8c63fbb9; 0x2f226a906f9437a5; 0x96169c51fde47f7; 0x6f23fcd477908be5; 0x5d25a7e158f73a9; 0x532ef1818794a589; 0x64ab2105726bc157; 0x2e343b76a727bdf7; 0x583450c1884a0e5e; 0x19d3c13492eb9945; 0x2b229e007f3790bd; 0x76f4c812a8b4a64b; 0x4eec97c2c2954dd1; 0x2a56901ca9f2417d; 0x7b03294962b3e126; 0x620b59ceafe84523; 0x49be0c4c226c54dd; 0x350d5d82fae4e566; 0x2a31be7b7e500b16; 0x30f73e09a0cc654; 0x509d32f77c98c35b; 0x40ec3ea89c9baf93; 0x27cc2e35314b1266; 0x36c049d245dc058f; 0x32536a082015e251; 0x7784fcfca2be1c83; 0x2cf95161253aa91a; 0x64ef7b5ce27e5d28; 0x68c029ac15368081; 0x1fb5de754e3c2c98; 0x6912dcc02b612fde; 0x7fed1785c72b6765; 0x4581149c5d98f886; 0x17dc195975645505; 0x2043cb4958df9913; 0x78fe2e74de83d3fd; 0x799c9ebb46d68ed1; 0x617ab059f8f723f1; 0xea36cc65c5b0ffb; 0x42a3191cfa9ba12a; 0x30fba82286233814; 0x7172c1e8a124e44f; 0x79c693428c4838a6; 0x1cd1a4182b6b7826; 0x6b5158be5e098751; 0x4192bcf08ce5a56c; 0x26b3a903e3638b71; 0x778dbcde420d7df7; 0x6dd34fc2d5578243; 0x1974ef3625d8a044; 0x56203037587937b6; 0x6734865e8e4c8d9f; 0x1e0c264d43a0a764; 0x68b208588efeb3c3; 0x18c0498050a5f153; 0x59868644694c5b1; 0x3288a5b62f50a7eb; 0x65412585227d6fd2; 0x394656d701d1f9ee; 0x578993203f9ac05; 0x5dfa9777052ec53a; 0x6e9d4930fe8d29f7; 0x177e9606e63c60ff; 0x3ed6a57e33007a4d; 0x55511ad3fa31d39; 0x7ff5af04938117eb; 0x2c79f113f28d5da3; 0x7ea8666dba853c72; 0x73cf6ddb41bb72b3; 0x25915a5a2750b94e; 0x547cfe136d216044; 0x39f18fea689f08; 0x7aedb9684dd17a02; 0x4c764969e88bdf79; 0x5e60bed9bd1959a7; 0x597235bc327151f9; 0x8c9eb07c0f2dbe0; 0x88eac2bc50842a4; 0x10160f58dbafacb0; 0x3289ced65c980ec6; 0x557fa2d94c18a525; 0x1af3a715de40be3e; 0x719010738d8fa92c; 0x1ba75f2f8b9fe4ba; 0x1065bab9c58c074c; 0x7d219c059ecbf081; 0xf9589bfeac331ee; 0x712b9b651471db00; 0x7a1013348e2d1c3e; 0x5a4cac1fc17297ba; 0x23740d546ed8f584; 0x1f414a6601ff215; 0xc6106fe24d3f5d3; 0x1392ebf478e3223a; 0x148557a23177f24c; 0xb0cad624f55763b; 0x6e145ed49a904da1; 0x1850fcc40c2aedaf; 0x16316f06b847012e; 0xcbb311640677686; 0x351e91b94c79fef8; 0x5bf6e58244e1299; 0x738a9c6945721d77; 0x69c26c2adcb0f528; 0x2d1dbdb73702c904; 0x30c718253be77c06; 0x3b3fa03bcd9e7e58; 0x273af1fc5d09cad5; 0x69280f3f60934972; 0x4b0b6c722f3ec0e6; 0x70a5084699ae534f; 0x20075d0c95bf4a];
   [0x39965ffbbb0787f2; 0x450a1a3e8b4f50d3; 0x5c9b545ffb5c0931; 0x74c8531ba1637a2a; 0x1205c6aefdb59bdd; 0x55cdc43ccc723ca5; 0x6ba849e950ca6750; 0x539a12a815671a3c; 0x7fffb3987d3c00ec; 0x6f5d64849d9a4076; 0x7afd378ec42cfc81; 0x2e0e1f0a1485f85c; 0x45ddab8107041c71; 0x44fa57b5a97e7c6; 0x42e3be7f9ace02ee; 0x495e2fba415ef765; 0x5da34fa7370ef7af; 0x4969a36232461c63; 0x49cacb1e1bc31e6f; 0x245fee68a2426a63; 0x7ad27c38e157ad43; 0x1d6b966d6fd326c5; 0x36095ae459ea72e4; 0x18ede90698b31f39; 0x6f8228d8b82f2594; 0x1fac5fbcbb601614; 0x73279241d43ed28b; 0x4c08827c20a14919; 0x1c7105e14e5be924; 0x161df382c70e5b41; 0x5a9a12bf575eb6a1; 0x506d868353765e7d; 0x51cbe4a6bef61c46; 0x1f0c2a1e03d1646d; 0x4734375153d27fff; 0xb1498b569e74619; 0x1f1de2689135e64f; 0x3ac2d976621e9c87; 0x2983fa5155e72e2c; 0x2f9b69acc52bca80; 0x4a740d1b14bae28f; 0xf2b50d537b8c37e; 0x9833cf7acf4b6b0; 0x6285360bf4905858; 0x2548ea85918c58ab; 0x67a3377193240d40; 0x2a86a2f8270a6ca0; 0x7811243506ed85ad; 0x3374759a742a0891; 0x71017bc2df1f19a4; 0x13590ac80e8cb49c; 0x4b7f2581567655ea; 0x355a1ce475b8b090; 0x17f0dccde1399a52; 0x34b3ccbd728c454; 0x3d5924a9e26a09b8; 0x32139be9120ab91a; 0x75239ca30826e9ab; 0x53c44930814ba9ba; 0x68a8db39776b8cac; 0x52142062b347df3d; 0x561308c6f8eaa608; 0x56fcf0387ea83370; 0x317d7a8236e715cf; 0x60459708870d5f83; 0x20f16dfd9fd1a186; 0x17e8d4ebf4e89e64; 0x37e84270e2869471; 0x3f9e107ea9a8e61f; 0x550c92047df8b169; 0x584674d17780e996; 0x6875429231e12cfc; 0x2e168db0bf836054; 0xd1c55458d388a8f; 0x60caff8c515013c0; 0x763b55d72cdd3476; 0x6223160e2fd98c13; 0x7b84052487e5af9c; 0xd6eb32454397df; 0x29020c5d3078166b; 0x724b552c87b0a6c1; 0x1e8c3d57d433459c; 0x66aec6b137879186; 0x604c6ccfbe07a583; 0x5f51e2464d65219e; 0x4bbb6a7a13d3768d; 0x2cc3c3874fff3877; 0x418a25cd75926a4a; 0x57e1da2d8665c0f7; 0xc12a59371738976; 0x7ddb52e601a67154; 0x73d6344257e2d983; 0xd58939a8f962a19; 0x10ebc7cf84dccd2f; 0xac35998e424241a; 0x2b13fba187a70119; 0x4d883b2c9e594831; 0x71d6b27d7e771281; 0x60a03384072916dc; 0x2ce1380ebb943314; 0x7f5b6b8e5eb6d398; 0x219636c825ae6c; 0x23bd5236fe537ace; 0x4794dda95251b727; 0x6e738dc78aef304f; 0x132cd21baae5905d; 0xfa7c8ed3f547375; 0x56e9a1d78ccd09e; 0x12fb5457e8a6bc13; 0x5b96102a8971e511; 0x61a0eb49c3d65210; 0x416703c4dd16fff4; 0xf5c56212bf4a803; 0x3f1a87ee14eddee1; 0x26855500d4c1f46e; 0x21243035abe45004; 0x24882dd46ab76714; 0x53d7495d41d97c76; 0x71afbfaf8db51e81; 0x2875d114d9cf0cfb; 0x13e7ccfd8ec4eb83; 0x57b0da5afcf0a5bf; 0x5ca4ac9afb6266a4; 0x18bc99149076409f; 0x26c64c15cb042314; 0x4f9e07aaf82df666; 0x7933da3bc86a5fb8; 0x56c685a4bc282dd6; 0x3309399a88382bb7; 0xcf643c1dfca3d12; 0x4b051976f18c87b8; 0x7cda2297730ec4d4; 0x1a8d0f8fffa5f053; 0x39dc3dd0c88fd0bb; 0x221ded0280eeb066; 0x4059aa12dd630516; 0x6f380d6718ce3a86; 0x46220ae1cfe354c3; 0x1d36a009009dc448; 0x17c187d21428043; 0x3c544117dd51f1; 0x5fe34a2b54b712db; 0xb1489b1cb1cbcc9; 0x4a5eaee8207ccc48; 0x2adbfde6cf368224; 0x2db418efd9c2aeea; 0x5f63020a6e822387; 0x17c1ae66ffd98ad9; 0x4d1cf55a3be524b; 0x28e48539c2abfe92; 0x46f660e6d1ea2f0c; 0x1bf19dae69a6f0d3; 0x1508c8aedfa3bc6f; 0x2fde87a6023e029a; 0x7f0a286f78c256c3; 0x3ad5797210351263; 0x4e139e62fc8517aa; 0x3a4a260872d4c23; 0xdf32e40bb0b41b2; 0x3be97055a91aea0e; 0x4d73159af8027d6; 0x81c816ed13c21a6; 0x28d913b0201eafcc; 0x448b44e342270ff0; 0x47d4c4cd617654c3; 0x4bc89f1b4b299386; 0x2cb731e2dfbf658f; 0x6e5cfd201cf3c299; 0x79deffab1277d467; 0xb46560510710c43; 0x1938eed79709cf2; 0xeda901c3c4c9077; 0x2d29c4b06ae8b869; 0x455d0d9dbfd5f659; 0x494ff01115588234; 0x35e575520dd553be; 0x12710a716d9123be; 0x48326416564e4e9f; 0x7e736e5b4e0f0ea1; 0x5db14c623dc9130d; 0x2efd189d46353497; 0x443f7a321bee0b0e; 0x2a519759c2d37494; 0x72b3cd6668e9057e; 0x69cdd948eab22776; 0x1c3e3b268246a124; 0x5517fc337a4c4144; 0x28d40203f7393168; 0x39f517ccf59c5967; 0x869f80ad499535; 0x1d8c432395f39942; 0x983932aeeae486d; 0x34f5e5d6adec0443; 0xb6f14293d8a71f1; 0x3130a47626d72055; 0x237745385747682; 0x3caea38926308287; 0x6ad4a70bb7628e7f; 0x12a2a2581b63fcbf; 0x58f2a73a348ed4d7; 0x62ff47f0ba89bb8f; 0x4422f1a68b5acac6; 0x51a9676262f27cb9; 0x401e50bf64f22452; 0x3c542defffd7aacf; 0x1dcb5e010ed444ce; 0x44aa881ecae1050a; 0x38f9d78592156823; 0x4bee51b1273da5fb; 0x17f4e21ee3aacec9; 0x30cc1a509cd18b33; 0x35418f026338d7b5; 0x69ab9458c92e3299; 0x7caf37ec1cb65b23; 0x69d3d1bad3bd1acd; 0x33fc1e05fc5ab0c0; 0x34bfa2a529a55163; 0x5ae3909f58f9de8b; 0x6077781df1b84d6b; 0x1a8e4aecff5806e0; 0x41d503e6558c8ccd; 0x1e6176e7088e8489; 0x708f1c1ceb2fe28; 0x2c9104451742d93d; 0x4195ba24a17838fd; 0x1324ab264a054315; 0x4cb568de2beeca89; 0x2dcdec4be4b97ab3; 0x6371c97784f98263; 0x192b5ebb8e09bcc2; 0x2acd4bda3e51e7fd; 0x4524bcba4f936c68; 0xe3ba737a321946d; 0x454c7bebe69fc79e; 0x64a29f43b81e9d05; 0x7fee9a3d633044d4; 0x480408db48b9a5; 0x1106b58acc61a4c2; 0x60c5437d9a95ecda; 0x42dbdc2eba1594b1; 0x492bab7b1ceea6f8; 0x3277e7ab17e4c20d; 0x445f09808fb23e48; 0x6c10520819070424; 0xaff8f8f09463c07; 0x65bba53549de7024; 0x358f8428001c50d3; 0x5281f55a40b39587; 0x4ce5b43e75eda03; 0x72edee2bfb24c956; 0x48c5959d5ab4a827; 0x3a4066777fb13ac3; 0x25bad8b1ff55b210; 0x5965b9c76e494bcc; 0x6fde59f1759ba620; 0x37a2f84a00442c14; 0x1f4402ef34f6adac; 0x6b5104cc0ae05c65; 0xae27b018792bcd2; 0x1179cffcc86e32b1; 0x18c72c5645870f82; 0x2f9fa3db249fce4; 0x79c3678fc31418cd; 0x38a8993b3cce8647; 0x6232e3ca7b5c4765; 0x5e9b11614caae347; 0x37e06f125489f6a3; 0x777e57e1e3318080; 0xe4422f84de00aa9; 0x15c923ca6e7840cd; 0x550e394cbade3461; 0x4e158ed11d32218d; 0x4f2b43bcf8da58bf; 0x597b2edde07b408e; 0x24053dd05fd0173f; 0x580b9f23b52eecee; 0x3d035ce34478d3cd; 0x27f37d82ff96b7c; 0x360aeb035392f6e3; 0x5c3032a770b756ad; 0x16435d8fe6c45e5f; 0x701158515a787be7; 0xc629212163002d2; 0x1d697a3bccd3626b; 0x4f1f491cb2fa15b3; 0x3d999a4d7970979; 0x424690978365781e; 0x536920f79177367e; 0x7c218957f3bf5423; 0xba9832436694248; 0x403c32ede6318f8b; 0x232770b097afadb9; 0x668cc7293e130edb; 0x1d916505dc9bbaf7; 0x59c89f5808ec22f0; 0x1c6d5f65872315b6; 0x1e66de02e162eed6; 0x15d6448158d03239; 0x4da9ff10f9926ff9; 0x4f443daa5188ad2a; 0x191731772b6f43e7; 0x51e3f8dc052d67d4; 0x70a1b7690946638d; 0x316716e73fdfd798; 0x1fdcdfb8e04be257; 0x1fe0230c0018c78f; 0x5657632094d8b675; 0x259a3a3ebcb31901; 0x3e454a0b3ec0405f; 0x306ee470fb69d7cb; 0x648c7f186c7b5173; 0x1eb4fffb039ee508; 0x318775b2d8e254f; 0x4be5ab930c6e115; 0x6c43ff6a4bd3d6b5; 0x4075e7648c3f2e7e; 0x855d252906b288];
   [0x630559641048e7a9; 0x3dc161388182e426; 0x512f49fd6844124f; 0x7771fb15696eda10; 0x5f14bc5e58c84eb; 0x6e60bfd4ecda4dd3; 0x4e55ddf1ef5a73c; 0x5a07a204c455fdbe; 0x6dc161a0e69e5162; 0x5746b862a668b244; 0x232f32e7205b47e8; 0x3139d78e698fd535; 0x33d4d9e2e85b3e5d; 0x20ec4fa731a956e9; 0x7b9efecda08d3893; 0x1821af2a20d6ad2d; 0x3c8dca309a6c04d7; 0x4d8a525793fa7e3c; 0x32df29f6ec623adb; 0x141ad87e3f8e076e; 0x5b4fa7adcec0576b; 0x76ca4555b22c3f95; 0x106655e3afcd03dd; 0x6298a3f6b76f8a9a; 0x7c84d5c78cd0805d; 0x6d6d08d21b5d1482; 0x5bcdf9834214f8eb; 0x6403afe73726a628; 0x2863ce20df489188; 0x36e3678bb3085ed5; 0x2d4945a422c301f2; 0x7e7bbc9dd643923f; 0x7378f940c69337a1; 0x6fe147936f40f9fa; 0x2ac2c08554b474b4; 0xbd0a366d312a4c2; 0x1558530405e30f78; 0x6525f0d252e89983; 0x6bbfb231eba7bed1; 0x796378fc7f9914ea; 0x29312dbdfde64c64; 0x59c2b3adcdcb2c91; 0x164543430e575b1e; 0x52b13612ce1da4b1; 0x4ce7d64fa42dbd52; 0x57f849acb4d3ca2e; 0x3d1944d7420e4147; 0x2559fb639a44575a; 0x5cffed85629f2db0; 0x15fb08f6771e5381; 0x1f4e6214643a997d; 0x368ef3bc60d4f9f6; 0x4e7bd348cd4f701; 0x6088b1f8d0097298; 0x52053a3af502da5; 0x2c123125a004e541; 0x2c1ce0491a41d953; 0x17b9de7974d64b46; 0x584d1fa94f63d4f5; 0x59c9176236affb74; 0x58832035f2e37bc5; 0x3fd670036106156d; 0x72063bee41f330e9; 0x4266fb8e273d1c37; 0x724eeacf6b8bd00d; 0xc696b1d5f63cbeb; 0x4da840e24bcaf5e0; 0x3152de266f60d7dd; 0x7778d3033af02420; 0x366897180173cdc1; 0x11cbd21f78fa0ba1; 0x217aa442c0a6aaef; 0x7763f451c523947b; 0x7ca111d5bbc19d70; 0x478d9150c0432b2a; 0x666297ea9da5d2d5; 0x44583cb3e39cbb43; 0x321255cabdb6d118; 0x6a349038ed1998fe; 0x7305a8a97c87cea1; 0x13f26d566bccde4e; 0x3ccdd28b506f1597; 0x31a41bc74d4ffa84; 0x1c3483f838ca9000; 0x7cb69d6eaa7c9b5f; 0x5eb3c9887f57b00c; 0x47b5f26fa9855543; 0x4e307b902b840a08; 0x5a381f796eb98528; 0x3ae1eda80e5a6dde; 0x6aac9e3607f4a670; 0x24034ffce843f522; 0x19cbe4b3c6f9c3df; 0xef63862976e1c40; 0xc920fb71b081c4f; 0x4b93f7daf6d62319; 0x531dd82801f958c2; 0xd07865ef2171fb4; 0x2a7be51fc65b835b; 0x4d921d706d054c18; 0x49f983e90487af5c; 0x63f7c7132caa8e4a; 0x536f54c38fa5bcbc; 0x47c29049a8c1e21a; 0x5f7664a8db2d54ef; 0x729bd13eb78c5ffd; 0x3081d3c9d92b7804; 0x7ec8324eeab2f191; 0x56a66c5fdacba8cb; 0x2ed85b096ad90247; 0x5e1f3ee58426d66f; 0x365c63cae8429fcd; 0x15b1caa263bab7c3; 0x1720fcf1a0d67ba1; 0x70895a1ba9681b13; 0x732e35f85f3f639e; 0x70a35410e708177e; 0x5b12bc4bc04d4aba; 0x206df4ca6140fbe5; 0x3a41924af0e85cc7; 0x994665a672a56be; 0x26935deff09c8d1b; 0x551193239078697; 0x646254e6dd9bd94f; 0x3242b968fd2018f5; 0x46827d55ce830bec; 0x7279b00ee14236f8; 0x1dbfe35ce7a8c1b4; 0x1c59330b9c49bcfc; 0x28ef92c5271cad44; 0xecce2f0ab1b5b44; 0x591f8589d2a2668f; 0x481a72511fd5cb49; 0x6674a5c40ee0bff0; 0x565dbed38c2b0c72; 0x5a62baa3f4a847f1; 0x6ccaf7aea7fd40c3; 0x2e82de9f92c692b6; 0x3dd6d3892ed5015; 0x41736e47aa1ae8ad; 0x278f89f22516aa46; 0x294449910a14d35d; 0x4ab37edc70007cab; 0x445d66e791d7b8c4; 0x6c1467a53d48d2ee; 0xf778cebdd371c9e; 0x586856c1d8e28f79; 0x3651b3bc8f00a58a; 0x6045a806be3573fb; 0x45febc0037e994ab; 0x807b4fe8312d3ca; 0x28b7d55e30516a41; 0x216aef06d978ebd; 0x596822108b33d1d2; 0x40c592d2e73af33c; 0x524be0c24916439c; 0x504db573202fa43c; 0x7df0e3e16b18fce0; 0x1560c2a3e2f6cf72; 0x1082de1722257f5f; 0x377f7810b8d867d2; 0x21521f04afe08046; 0x519938dfd35fd3d5; 0xab5018073e8baa9; 0x115a7d43fcee1fd1; 0x61b3635e0943afb6; 0x1722d29c3910bae4; 0x65bbbb7c5c166c7c; 0x95b81010d7accab; 0x7dbb9a6393d001a9; 0x6e219645428f8193; 0x6837bd1232c81340; 0x48c43dfcba56a64; 0x253b2e831483ec14; 0x73ce07a1b358564; 0x4cc73388d1e33b26; 0x603b890c3c8833a6; 0x7756eeee35c08288; 0x761f2bd0febae57a; 0x76c6a21b7ce2c108; 0x65f3fd702a114fdd; 0x5e0d2edd25ef686f; 0x75937eb87b8d3ff3; 0x32c2e5a1ef0c84ca; 0xf32c7f8c2509344; 0x133ddea46cc29912; 0x79c76162685745b8; 0x1169c2ff1d61fd80; 0x482a452f33098404; 0x581662905bb4ca4e; 0x4caa38bb0be5642d; 0x67f92a821627a51d; 0x7f4d9ed8e4270a20; 0x759499f305820b9c; 0x550c76e3240e5cad; 0x66db4385d63599c9; 0x2992619831973962; 0x705873cd8384d789; 0x42193879e7f508d9; 0x1188b14f005daa08; 0x725438627aa3ee79; 0x1beee7b877d021a2; 0x761aa39860179039; 0x4f128d46efd8f050; 0x708131ca7f1bd92; 0x5ed30aa5146ed662; 0xad0ae8d4167c523; 0x618a3e6093c7b063; 0x12997f2894ac899c; 0x390b396277e4896f; 0x11a66a9c40b8550d; 0x5ec5faf396accecd; 0x76a6605cbe008e90; 0x13c6230db34c6a2b; 0x3018f65d4ce23064; 0x4d15895f490e4e4; 0x5d130dc121f1c2a6; 0x984b5dc9fb72f53; 0x1b13efa0a12cd788; 0x7a8b790b4dee701e; 0x429be0f4489f764; 0x4f3974bff5819cf7; 0x21104afaa9f439da; 0x5253e56c59e985d7; 0x5fde82e3012e22f5; 0x616fa5a0add7e5d8; 0x267c810cd6fa938c; 0x4ada4ede3528e5e3; 0x1616b2d9ec0f7213; 0x7982999106e0cd3e; 0x1cc2c2ca9049d264; 0x25959225329d0e57; 0x50cbeea438062a8; 0x4078fa6a7bb3c1b9; 0x1e4bfd1b7f0fdd8e; 0x3b55eea6f98593bf; 0x1fb6a6938afb581b; 0x794a0e81ddf47af3; 0x5e94fca8b477235a; 0x3142d5364b9ab6b6; 0x8acb84eb340611c; 0x26c29ac2067241e4; 0x55e47fdb264e338f; 0x773fb93cb754c51a; 0x69c4d4f622ab6955; 0x761d2167c6057bfe; 0x19f2a88aa5f89c18; 0x6e7dddee97a73e3c; 0x5acbf76f189ff4ff; 0x2354c711a9da82d4; 0x102f0be63880d69d; 0x4ef1c1636ac0c14e; 0x7769005b858375c3; 0x4f42798155b9d3e1; 0x6807c7f62272e61e; 0x6c7d804d6736a8c3; 0x4f43b0b347c9cb5; 0x76f67b78eabd86f0; 0x2b57dd39fc6b7ffb; 0x4520c20bd3b492b4; 0x52a2eb359119f947; 0x15c46dadae5c91b0; 0x19ecff2c5162eb77; 0x42166ee21bf36c7d; 0x4513828b57dd451f; 0x5cd60fb96ef75549; 0xead31eafb483920; 0x5fc116772cd7d911; 0x61dcaec52d9064bb; 0x6415792518fcd5ce; 0x6aaf468431acaff9; 0xab1b634a50ba5a0; 0x1a25e47fcafab2d4; 0x467a18f4e08e03b9; 0x2bab6dfffdce426; 0x7b02967bc4b1a345; 0x13993a11ee6d3613; 0x6b97d93e149e76fd; 0x2fdbb573324c8af; 0x32901009c813a9ea; 0x2f996f5950fd812; 0x344b4326011a93f5; 0x5483900a52c5d8af; 0x601457e652dac916; 0x708342fc26234a06; 0x22b713d55fbaf630; 0x154434476210920b; 0x59b97c6a79c25ce; 0x174209db20c4d6c; 0x5b0ad52e1cf98d6a; 0x509f9da385e625b9; 0x1961b9e49014a6d4; 0x42208de65abff662; 0x9e5895025a40424; 0x2d642d8acdecd2ac; 0x2a964788b6c8358a; 0x63d9c4a7b08817b8; 0x67ef28edaf76b5f1; 0x47c9edcf26364f55; 0x31fb4c87cf2667d2; 0x22f64db3726f0886; 0x2cf91c693e024168; 0xf770bde74b70e49; 0x427ffccbb7979294; 0x6115341b0f072863; 0x6ea2f8b273612507; 0x594451fe634adc34; 0x21aabd7c5dc1c40d; 0x39ca3f36812ecc81; 0x590c541b9d6a51ae; 0x3cfc66be89f637d0; 0x11fef9d82d15dc28; 0x472fe5c779e28c3f; 0x696e0f7e612ef4f3; 0x24b70df4075a9d09; 0x53e2c110ed8188e4; 0x61141b625dff652];
   [0x4511727dee3a8275; 0x591d93c0f2352a1f; 0x1d349f2ccddd36ea; 0x14b15f3790a42a9c; 0x109791d608d2fb54; 0x79b92e198327e4d; 0x3f75edf457a80465; 0x6f9f786306dd8fab; 0x1a4053f01e9563f4; 0x58255d3694828f2d; 0x62615e15f1c361bc; 0x2f5c00948a251206; 0x5b5b408f29f54db2; 0x6ea027e67c67d10f; 0x3d5d4863e577b1cc; 0x54c789009533a04d; 0x173a070eebbe5a84; 0x4485b3e9ca276cb3; 0x54e52d93058355ac; 0x49d4af601f8b1868; 0xfe37c0ae126b4c9; 0x7e972e7e4473f7a1; 0x3f7a68120a35c862; 0x152dc32e38210e29; 0x60f00f2a5ceb12d6; 0x77166c88947e951f; 0x55d84aede8ebb892; 0x3848562ed34aeff5; 0x7452c83c06d47b2f; 0x36630e54d8ee0a08; 0xf68bcf5332e5617; 0x4aa07b4d39af8a30; 0x5756a383610cc87e; 0x12275f5db04c4646; 0x66bbb6e3224e561b; 0x4ff4eec7ea07b00c; 0x7369854d5c5f281d; 0x1c9bb56eb72ddc8e; 0x1ead6bd26f875377; 0x7dfd35b35964335d; 0x5e47759494a5eb13; 0x47c75e7b7ab3f1b; 0x3a5e866511323417; 0x22206bdf5b8cb482; 0x6454da82159c8db9; 0x403e061d3031fb6c; 0x6e7c0eaa61e68425; 0x78677f5a538a4b39; 0x69cc08f088834b50; 0x571c650088a3dc25; 0x314dd5dc6c23a263; 0x79d38aca7486e44; 0x2ac61211c3fc2dc0; 0x72c274b0eb29bedc; 0x7cb348f9dc97bb8; 0x1c685577b6f4285b; 0x4ef691d62fcc7c1f; 0x31367fb7d4d73cb6; 0x35550d64ea720e53; 0x60a739c69bd0b61a; 0x1b96b6be6e00b5ba; 0x2577e7470b35bd0a; 0x16c74a35dd316393; 0xd7cec30765b7845; 0x2a2353f0e0e705cb; 0x10995f0e71b1b214; 0x120a635c70bde348; 0x6f0630066478aa12; 0x5db038e3b0e587f; 0x1b37391adc62ed1b; 0x7e4bbe96cb53a4e8; 0x7d2d3939d28c9230; 0x112b48ba8eb93e93; 0x44b844309ac59d46; 0x3fe660f2a4ca56ae; 0x7dbae7e60757c0; 0x2f2cc91a2fe1bd41; 0x5a9d9f05731be5ee; 0x4d79ef073130c5e0; 0x742aa93e27ef9f5b; 0xfb9ff0abf88c751; 0x21d78cc796d82f15; 0x641e8309842465e9; 0x710949d186fd1a7c; 0x7d982f835dcd20c2; 0x4b4819773bf18bb7; 0x5180044977e0cd02; 0x284fe0e2790f0db9; 0x6b52639d02a7731d; 0x72fd7755da2b6a0e; 0x5795f125ee29971; 0x62bc0761509d9be2; 0x671313d5ffe9f6fa; 0x4b64861e8556c17d; 0x71c3a177b4ccb88d; 0x6cbae208036c8d40; 0x53806eb004b0782a; 0x54896d451bc38f2d; 0x7d3b096aabcfa6cf; 0x53aa5680b2772a29; 0xc87f1e3d8d1e9b0; 0xaf425dd5f0def79; 0x34894b701e67387e; 0x4c81e03a824957b5; 0x1318d283afb66f8c; 0x1f395788d90688ad; 0x5d3d781638f603a2; 0x73a9c6de09459b61; 0x530bdf2c5c65ca7; 0x5d04e90882c8953; 0x2a6fd7a67708e240; 0x389ba6bc6cc8470a; 0x7ec005b92c1975f2; 0x75ec55d522195666; 0x242f1e6d14045de; 0x5cc6c51d9226984; 0x250fdda4f587c587; 0x49d80153647fa062; 0x2e22d48ebc25402e; 0x117ff466d23e8c35; 0x7eaf9634e7637fb6; 0x13f0752f85bb2b4f; 0x71000004d81dc1f8; 0x25e4d75b79ca3269; 0x736d03ff2fae03e6; 0xc3c9b47d8dc2b93; 0x5e3e1e8255c64f6; 0x144d291f093a34e; 0x114628ea52a90463; 0x6325052fd779994b; 0x507400f4fc3e4dfe; 0x752e3e0dd53f1b4f; 0x512521d52c6f4264; 0x20139210226cc306; 0x54222ce392c1072d; 0x5914ca3d99e675a3; 0x575443199dd1f534; 0x309cb42159b5e59d; 0x4d3718c3f4b4e9b7; 0x1bf1f148043e5116; 0x45194daa9474c883; 0x46bb1fd32630703f; 0x6538e45d3bc1a6c5; 0x68fbcf4eb78b5620; 0x4ea379e9506c5f9c; 0xa513162658bb8e5; 0x64b77f0f8f8db879; 0x4ca9b3ea21c6dee0; 0x49d4892535b36e08; 0x4d70f4e6e10f4f69; 0x114b3d36aaaf3a0e; 0x3c7f6323407b0b26; 0x5f1ac6f9376370d6; 0xd838ef8d8d4445d; 0x7dec79186479812; 0x4cd9f712e7c2f65d; 0x671d4aa0b315dd1; 0x350be3bfed75f68c; 0x4f9ba2e3b86fe598; 0x322c726a9ed0cabd; 0x43df35948edb3c5c; 0x206be24d1c1bbd54; 0x3beffb1f699b2005; 0x3658e4c0f6474454; 0x7006b122ec721425; 0x2a006423571d87e9; 0x56080a4773a5df61; 0x59584a451ab4c775; 0x7ed92ab0c370243c; 0x6b8ecb95238b4d22; 0x51a300675eaee4d4; 0x219b4cac40e68e73; 0x6d93867dcef59ba8; 0x3c0109f0772f1425; 0x2d42268867ea0de8; 0x276c75c1ac6f0983; 0x593f198c8d190840; 0x34e874c9ab8590b9; 0x3e73ac716e578c48; 0x5cac9251b3e03bfe; 0x3b178aef936b3fd0; 0x275af43c3cbd08de; 0xe9c971a8017b692; 0x49b9c8fe2a4563ef; 0x730be120c5cff85d; 0x33a881f13951a6e3; 0x2b2e0bdb4bd6d87b; 0x767af38afddfadcb; 0x3e8cab98e784bbef; 0x1275e51ea536a5b2; 0x66cb3ef8b1c744a5; 0x4c23cc8f8c7a62fd; 0x471523491f25a30; 0x365c75a8269661fd; 0x70b90c62c7d80bdc; 0x269b7adbdcff4ebe; 0x7bafe9d3765d7a28; 0x50ae7ffcd0f0e93f; 0x57a2569fea3b10ea; 0x2aefe0c2afb5837a; 0x541056ebbf089d7e; 0x8bdf329f1be83be; 0x15e0f709cb89e846; 0x28f3f787f36da922; 0x28c3bc8aac1c615f; 0x68f212f853315767; 0x4766911197e3218a; 0x5015f110fbad8969; 0x22ebbfa2c7900afa; 0x37f0b331bffcccf9; 0x2fd36a8a68b6b058; 0x634bdf8f627e1e3; 0x7eceb1e6ad1a7594; 0x560d0b70f9f6890b; 0x6232d8d8095b135f; 0x5368be623e96624a; 0x1aaefa43ec01c48e; 0x7410c79dbc7645c7; 0x32ef6827beab6f2; 0x285b56c8e999da64; 0xa095b3b8a948ad3; 0x4392b0c28699823; 0x24f0e6c51f1d3dc7; 0x5a38956bf0dafa7b; 0x4ae5fb9233a1c624; 0x3f349bd62632c9f4; 0x18be7048c92a5b4a; 0x53bd740514d6bc4c; 0x49e7b81bfb8a3d4f; 0x747dcdbf72836343; 0x101d288c446ac0bf; 0x4f32c9bad42138b; 0xe777f20beea74f5; 0x30843f8d7b1cf971; 0xd4cbb8839346a03; 0x1fd153973988719; 0x74b3553d73837447; 0x3edf4b6c2ed4a8e3; 0x146c2374066f76f0; 0x7d61932acff02da9; 0x13705c85b1e34d09; 0x1b197e3741117586; 0x6ed19e44a0bdb09c; 0x1be0cd71f432b0c1; 0x4771080cc3b9f68e; 0x5bb1c7bc09995f2c; 0xe1cf057eebdbe3a; 0xa0d4811eb7cbcbc; 0x72bd250dc9d46117; 0x42ffb732056bf9b5; 0x3d678c7ecbef1272; 0x4f9189fdc58876b0; 0x18351ace9d782831; 0x25498a810fca05dc; 0x417df5f15f346a49; 0x44bd64b8f1fc951; 0x29dd8b72a4c4dae8; 0x54a97feae322a89b; 0x8ac86a648bd6051; 0x41b51566b47f1f85; 0x11fac7848269b550; 0x270b8e5c4db3d10d; 0x5270eb0f6479befd; 0x2291d219f436d64d; 0x1446d5f00d973fc9; 0x5152bf84e9c3fc86; 0x27c65a70764c73a9; 0x5f92cf2964f0cca7; 0x20472fb9bca95137; 0x71b1e76252fdc8da; 0x32fe93702c87e489; 0x664da36fb8b3527c; 0x350f4ee7ebd06bf8; 0x5659ab30fc2e1544; 0x40652ec09dd5f82c; 0x7870d30d9ae715b3; 0x5b3e8940bf9f72d6; 0x178c94166c03d678; 0x35969ff5e68e9a8c; 0x393a5ac5cccbdfc1; 0x7516dca4b3822b8f; 0x6d5b741294206f1a; 0x2bf70e2065509db2; 0x489bbb982df5d591; 0x35c1c8ffd173d419; 0x9a4ea374d8d1e37; 0x1242266e847add61; 0x23a0f701a3ef89c3; 0x4a6b5614970ed346; 0x42138b995d2db5b5; 0x353fe7ef5e4850e5; 0x54fa897e54a765c1; 0x5e2a4bebc30adb61; 0x7e8007e62c33c86b; 0x4b50ea88b649f190; 0x28677001255c680a; 0x54eeebf3bc840a9d; 0x6366f168801bc631; 0x1154afcbb95af55b; 0x5b231f52b8c947a0; 0x3219f664d88b40c9; 0x58439a90e4c0963e; 0x2d6a612318da2686; 0x68aa7cc60e01fc24; 0x3dc86b46e32e7eab; 0x44a099a2e8d2cc22; 0x6096a3c23516217b; 0x762e9a697dbd9af8; 0x244c3ef27424eb40; 0x18c0c60e34cc86e3; 0x7f71735cf8cad332; 0x6be7639f774989c0; 0x66e9c98aac4356e2; 0x53b99d5666600e9d; 0x733d252f8b9ae9b8; 0x37262da609596007; 0x72ac501a87ba42b];
   [0x1d5220c48c8caf45; 0xdaac8f8288a1c3f; 0x2b05fcc819e33618; 0x2d22efa469a9bddd; 0x69b639acbbf4898a; 0x109dcd1e32fdfed0; 0x23c98a412b576be1; 0x34cfd5a608ab7e8c; 0x33820c432672de8d; 0x2c68e7fa2f9aa530; 0x179fc32596ccba08; 0x449f3d8d1067d902; 0x716f8b5468a464b9; 0x4670bcd6154edf7a; 0x21bbbd9c1ea82dee; 0x14a0b76f085ab03d; 0x3d50a4f7cf1893fc; 0x11198758ba9bd5ee; 0x4fed0bf7fdbba684; 0x42033ca8fe64c24c; 0x2a25d8593549d40f; 0x2c899ec21a55d4eb; 0x2f88573d9bd58fb; 0x4f24587b4494a5e0; 0x239965338132ed3; 0x3cc1c5922dab46a5; 0x394a93c67b1ff479; 0x5079a5d07b8d236e; 0x6d2c2ae662b39c09; 0x36dcaf4a5e68b42f; 0x3b9b7b9f680961fa; 0x7dfe8aea8a487be; 0x31783aa022a62757; 0x1d4e9d5018b6b929; 0x15473db2f4975997; 0x463f4ff26bf34321; 0x2025a10b2bc33ad1; 0x34b394999304f0b; 0x42c704f9dc1e883c; 0x2b621d8cc0df1b08; 0x47a240f0c24f96c6; 0x69868764d935c0b4; 0x2bd85d3d0e374ce1; 0x21efee15adfed389; 0x4318c3504fe5d57f; 0x58231c6c35bdca8d; 0x40f95f3be004aa28; 0x7635e8ee10fa6de; 0x45c75dc8dd969047; 0x4b9f1a270975c52d; 0x1a02f4f2facd171a; 0x5af610b6c642a01b; 0x7624d8874db6e2bd; 0x4a7ab85d57b946b0; 0x3a10847ee3535a45; 0x2ebc64b160ba3a58; 0x48623bf225cfc1fd; 0x647636956c0f4ecc; 0xca52b846632b58c; 0x584d9cc405238be7; 0x44bc53c256900a8b; 0x2a5cf2c87e3928e; 0x169c6ad4872ac4d1; 0x7198313d6666b770; 0x3981b0b0a344467e; 0x77e8b62da0af98d1; 0x5be73290b94d09f7; 0x52e5bea478b37f31; 0x7b4bd584987283e0; 0x5fcbc0d83ff5e6bb; 0x494629336160b4d4; 0x6fa3b25b89eb73d2; 0x7937d2c8c539ce0; 0x3e46c27533a3f564; 0x7bd8b30ba6a9ac1e; 0xbf9b4e9f6a4bcdb; 0x3a4456875ccb9813; 0x1ee5332ccf814da9; 0x6d203853ca727c51; 0x2ede46a0e1995152; 0x71dd41812df497c5; 0x2cc45a6443f36e84; 0x55906c78f1fe3447; 0x782e406a57a36e1f; 0x39772a941276f8fc; 0x75cfd7efe8f6b5ef; 0x37cf49ec37e424c4; 0x512bfde8abb4c68e; 0xb2f13db71766a9c; 0xca1f52978c0299b; 0x722275faccce43d8; 0x65d4b8c1434d023e; 0x1f0cec9ff2b24646; 0x1e55532abfdbe6e; 0x1d4907b9e986269f; 0x449c96dc12f91747; 0x51527f62c8417ba8; 0x60690b04f753eb94; 0x4aa96270d6843796; 0x2c5f4f423c476325; 0x5676be5b3a81b417; 0x2d60bf97c1e7547d; 0x6f75e7582814b100; 0x5e76a24901d7b088; 0x5883cf5c9d86266; 0x6f0cc687adeee497; 0x480910b2e16499f; 0x4b1c3e99ba0c9ced; 0x7365b4a517f76c3; 0x40a051426ef25677; 0x450cafabb26c68f1; 0x7200a49f7385825; 0x67c5e84b27c8684a; 0x47f4bba28ffdb7bb; 0x4045830f36edaa26; 0x77e870e8de2ac183; 0x7df0d2a8c4c1f475; 0x31d80474029254cd; 0x1d9de1c23fd83d6d; 0x4b2981bef6d0ba9d; 0x6d7937f6579e3034; 0x6cdc9e3349f88c47; 0x30a9e6996608b6c8; 0x53e16546cd07eed1; 0x29a86c5813fe0224; 0x91a685b16198139; 0x38237ef2b589fc7e; 0x4dbc15791c9e3eae; 0x78412e614c6b71a8; 0x4a1b12cab01d2598; 0x55f32c91aaba86e; 0x26f3dda613c9586a; 0x6c833b2f849bcc1f; 0x4b1bdb2ef609ffaf; 0x5a33d45e7402909a; 0x1a4219631ced6518; 0x45e7ca46f8ea5232; 0x6741e348673dd079; 0x7606cade23b7786b; 0xaebe97ac9a785ab; 0x3a2f7af4a1802c01; 0x385c752594564034; 0x33eb67ef2a0ee47c; 0x47a39b7a47a98ec5; 0x65074626a0193568; 0x5a941b5b3d6738e6; 0x7b94547eeaab0133; 0x745f7b28d835f148; 0x28b026643abe6e7e; 0x5f468e14c0059b42; 0x24284a29215f7883; 0x4d25b5081ee80c05; 0x12b9144b9a33faae; 0x655959c0c1b22e12; 0x4826b9149f0ba28a; 0x3137c9c218d7e789; 0x3e1e8360da2a1903; 0x5a0c387397518652; 0x2e0294472ef011b3; 0x75802aae3d61219f; 0x2f1e69d9e126b8fa; 0x621ea61f179b7f06; 0x3c3a540d7f338571; 0x7424624a481ee578; 0x42d51ea19f9362fd; 0x134d89314dda243a; 0x3be1136fea7d88c6; 0x3a1fb51783963c80; 0x70539c7a2a65d09a; 0x2316ec806b5794f3; 0x5a3c584c4e86808; 0x34f6783530c17c2f; 0x4855b397e110098a; 0x59e82119722e3a6c; 0x330a9f9189b23d95; 0x20e06790f5319bf1; 0x50dba5ba419349e; 0x573584d3b5b6dd9f; 0x58fd7ece6814c3b4; 0x7fa711ee757d802e; 0x33db96ae9de8e186; 0x2a972e54d0998a19; 0x494fa72cf61e2ea; 0x4ca4183f79ce0fb2; 0x5b70289527e09ff8; 0x43a49660e725a06d; 0x1a590e1fd32b00ea; 0x61e337bd87dfd03f; 0xcc779f170675b83; 0x333a7d29e4c45747; 0x68d6a3fd6c1b9128; 0x87661113f658e6; 0xecdf5c2dc136eac; 0x5ecbd93a28a50753; 0x5469362bbe9cbe3a; 0x514bdd69336e7134; 0x50e6299c88706a6; 0x6992c43993f6f588; 0x7ca71a5bc0362e09; 0x100566d40510ae6f; 0x20b8ea41933a7b1f; 0x2fd05b1cc4520da1; 0x6b2a79e702ea8d63; 0x518693b69bc7fa7a; 0x5a4527e24efc984b; 0xe18aba166614a2d; 0x5bedf73370e130e0; 0xe0b37ba14774222; 0x24807ef80260d1e8; 0x54ecffe6394fccbe; 0xf6ab6f30fe65af4; 0xb085fcb1b91280c; 0x4a5de32597407c4e; 0x27953b357dc74966; 0x17c2a00336a1e6b2; 0x9057b1b5d977c5f; 0x226fc62aa6f367f0; 0x4416de474bcc2b61; 0x7e3a364552a41f6c; 0x5087368f13936bd2; 0x75a8f0dc04466661; 0x2261bfc95bb4c350; 0x1dd67ba763668ba2; 0x299a9a94bf2c181b; 0x7dece48e1ba347c5; 0x15777ea22c6ddcfe; 0x196c5da51f838f1a; 0x635d24bbcd300fdc; 0x3905d4b0bf0c8a3b; 0x11c9119bf5345d24; 0x793bf86329b0fc27; 0x495b9b384f165120; 0x345d337957382b53; 0x35db8adf78f4a941; 0x1b8225476509ea5b; 0x2d9a08c1a7d2c362; 0x63fc56c78ec52858; 0x5d35ddfc3ab3ab56; 0x213c663912fee423; 0x1fdd658e33fe580e; 0x75a68a0ebbd7b807; 0x55fa43790f9f19b4; 0x792499e9b7271686; 0x59fb8b92f810d025; 0x7070fb2a89f44082; 0x664aa2842f1bbbc9; 0x4f7221b2c37a2dd5; 0x3da46a2074aa3fbb; 0x1fe9ad22e21f751e; 0x4fe5068b08a1607a; 0x38cda067a12bb816; 0x301f998bfd1eb94a; 0x5ae6f589acaf8e90; 0x6096d869a75b7e19; 0x6321a83a8b7f9e20; 0x763b2c56c8fcb0cb; 0x216de9da6eeb49cc; 0x454e142f1f66d89f; 0x12e385ed86eff91f; 0x7077bcc9c08aac71; 0x4693c3f7f7b273df; 0x783af084db9b2189; 0x4eedcc6073ecaf22; 0x7ed02bfa94408603; 0x5cb482df3a0c235d; 0x642859bc14a62d73; 0x6d1abf74738074d5; 0x766c45fd69d0f866; 0x5a437b576e424; 0x303913cf9d67eb96; 0x2c5491624e86b225; 0x110e5d63aa927db7; 0x689759983697a1f8; 0x4874f0d6805e1cf1; 0x4b228711eae931dc; 0x581d5d044c56f85; 0x79fc9d6896b46744; 0x40e12f3dc597dda3; 0x753e3116b7beeea5; 0x3c2727e1643363d0; 0x189cde7f9770b966; 0x6957bcd9c3565784; 0x6c0fd240e657f7b4; 0x542f8e34212eb0b1; 0x3103af73c1f08954; 0x6047bf3dbeaa02c6; 0x5291905bfd9e8e81; 0x50b9f7815458c3fd; 0x7d3a4f2c0e2afec7; 0x5908c4944a2e491f; 0x1e56cda288c0b559; 0x6604484c28d4f2ff; 0x708af3640944bf46; 0x199efdbd498c81e3; 0x7cedf0f94dfdbcf8; 0x7a45b4938920ba9; 0x66e3beac7b7b9b91; 0x76b8b9f635f773d; 0x53042d53ef5c47f; 0x723ebfa59c7d8e33; 0x352c7e60ed09b0d; 0x5b9d07d3a3da51f1; 0x7e3cc4bc549b8999; 0x722bcb18643a70e8; 0xa4c4a3bf6648095; 0x44972a6de41affa3; 0x1f2c8977da0b16b9; 0x5ac926026a78aebc; 0x4efa2831cc5ac0fe; 0x19d90856416ec689; 0x4fe1f959dc779920; 0x196268980a519f72; 0x3c890b498961801e; 0x64e0eab2768fcf41; 0xec87fe1e87fd3bb; 0x7fdf687fdca6bb1; 0x7dc6bc0a1c9c861];
   [0x3736370eaace16ac; 0x55b7ab9adc60163d; 0x24760be1e1376567; 0x5b422c841186658d; 0x4c0f22614ccd65a3; 0xb09c67eab487533; 0x4ba8c7a0c299b796; 0x7e4bb4af66661437; 0x140541bfc4b3f4a5; 0x11409769ce94c818; 0x22abf17413b6d619; 0x11e4b20c9b755d9b; 0x622f70950c179c09; 0x1f31117f916551f7; 0x129146f5efbeef77; 0x1e36e083ac0da410; 0x6d1067397399ad48; 0x4448439aa7a8787; 0x38e762706388d955; 0x45af0e1fc6fda0f6; 0x657c6bafa0eb1e75; 0x5e73f38bd89aea49; 0x733eb8679edc17bd; 0x60ffb1777e1041c8; 0x7fdf4feb140c865f; 0x5922b461b181f734; 0x3b3f9368b067b15e; 0x5bc2fe279dae21c; 0x7da341aef6a0d42d; 0x296781bbd159acdb; 0x639b8000bfaaebba; 0x6e2cee0d580f6e95; 0x6d8abbd1c90f9deb; 0x1569bde531b07cc3; 0x4e883e4158dd80b0; 0x34bc2b745d924978; 0x51f8896ffe8587bd; 0x443ad366ca3a832c; 0xd55a4535d2c204e; 0x765a70499e584e92; 0x4dfd313d71fbd21e; 0x4f5882df436be189; 0x84412c41a8cfb3f; 0x3ba6ce9f59e948e5; 0x601b2f3202b44ad9; 0x60123d3a7e5f2882; 0x7fa937af75af9c6f; 0x70f54b568254bafa; 0x6bfb967f5e10f504; 0x90fcaee53ad1677; 0x44c59c639d210834; 0x5aaaa8bf3327146d; 0x21a4b5999f2cf6f9; 0x21600c44b2316c77; 0x5da719ec8eb1ab57; 0x7dadbe0d4841a558; 0x6a97e26255d86aa1; 0x276cba8b067a70cc; 0x3e925f8ecfdb833; 0x3a1b25cc33f0f8e0; 0x7d06b75c5ef4faf1; 0x191cd5ec789c7cf5; 0x4dcb2ad7359c629b; 0x58cc5bb6f6c29959; 0x58dc8981fa9a81fb; 0x38869865557f9393; 0x40ac99b4214b2436; 0x1de98cf73403a8ca; 0x5b50db68cf091b79; 0x7f20f8216d69c1da; 0x6e87bcdfd479e346; 0x3b872ad79b1d4a3e; 0x290762136d670f18; 0x6056b4d0daed85ae; 0x26da440a178b3722; 0x7a99e61693f0df3e; 0x389cead999f7b1a9; 0x5c5a4b5e6b029032; 0x3cb36a2eb5e01abd; 0x1f8497d4c6a35750; 0x6b6a51b25e4c4012; 0x30a70869d8911fba; 0x12a28c9e37e1104c; 0x400822bcb5b90db6; 0x419f1621621f7b3a; 0x10cbefcdea633f05; 0x6dad58545f4a75e6; 0x3625b8992c4c111c; 0x4fb4b42fa3966e23; 0x6f6b4d325b295a1c; 0x6c564692fe28c191; 0x582544f38896648c; 0x127b76973bd96185; 0x2db7a1a7b932803d; 0x1e3a83050553c1b4; 0x186436b95e286992; 0x7e0ddb0c566a79a6; 0x46ca2c039875aceb; 0x649d35cba5812572; 0x48e2d7c1215ec48d; 0x26e478588072d01; 0x634da5c541100d01; 0x24aa55701c02c3de; 0x5e491bb59c332ff3; 0x4da23e1a53db1e62; 0x41bdc833b70c3064; 0xd83bff870dc0509; 0x6b70bc0fe56de1bd; 0xb20719aed5a1694; 0x53ad187e47ee1aa0; 0x34d7977d56c7639f; 0x45042661bb2061c8; 0x5486f179c87ae716; 0x50cc0d00672ef13d; 0x5f11269ec1bd0da1; 0x37772780f545e312; 0x22596b42b2d92b24; 0x2c53e89e6ce2983d; 0x5ef4656ca52848bf; 0x1e676807272ffb15; 0x703349abf966a24c; 0x4013253fbe9914be; 0x2532574d6162d04a; 0x54c76910d572ea66; 0x45af84fd1c0d29e3; 0x15c3d1a259ae0c23; 0x5b990b3ee8059676; 0x64b6713937012fef; 0x382a64e6208d4343; 0x19105775436f179c; 0x47757d8d43127743; 0xa985d6fddfa626d; 0x310dbf723ebd83ed; 0x52c7acaacc19a397; 0x5476673893604e2a; 0x795d7936e385f5e9; 0x6774136f04d523c1; 0x55574a8747c21de9; 0x2cfa168e2af483b8; 0x7cdce612f8055241; 0x7e105fb5fe85c3ca; 0x38729abddbbfb6bc; 0x338f735f5d4995a3; 0x60fb73d62890fdae; 0x2b2c7ccff1e296c9; 0x587f3d577dc1217d; 0x56a1f0f301d8f4cb; 0x79a9bbc398e363ab; 0x2a5d4afb98d8b5b9; 0x37d9cb942fd92ba9; 0x5280f6efae4c1198; 0x41c11dba54aeca4; 0x4adb9994726eb733; 0x68f31b993bba3af8; 0x6565fc2df3cd0308; 0x24bcf91208d52a35; 0x2c67a40dfea4acd4; 0x28da417d69c724fb; 0x77499bd811a80c5b; 0x7dd84290e49e1ff1; 0x639e95ec342727b8; 0x2b442f9f91e91b43; 0x52427e48d1e1b1a1; 0x6f4c7aa86c3ca8ee; 0x5c64eb9a49c1e67a; 0x1d3568f795660f08; 0x161b90971ac9dbfb; 0x5fc984f347f7de3b; 0x4c8d071517b6eae7; 0x71c47288f6936690; 0x62358275c99e00be; 0x2dff194e131c7dd7; 0x60850911eed96e6b; 0x572a423d2eb1bd4e; 0x570d2f35ed00138c; 0x4b6374b171992baa; 0x1c1b281bcfe373f6; 0x39f1a6458f440ef3; 0x58ea40ac17b35d8; 0x14b8bd2acdc29ed3; 0x21124dbbe57b0eca; 0x3305d3d249d22d72; 0x1e4e0b8e70069819; 0x657745186d4f4538; 0x11edbad5ec005bd0; 0x2a052e570c607ad4; 0x7dc22fe1e8ac0ba1; 0x5444c9a0e0cff8f0; 0x68336e14c1f71e40; 0x235258ca18a0e062; 0x1344da306444a7ff; 0x2abe74e745e78325; 0x1e1b1ba98c85e6db; 0x67688b7c4ffd8913; 0x6304fd11dcb2dbf0; 0x1992c95668e510a9; 0x2af7b07ae158b7f7; 0x454c3dd5e3289bb4; 0x447fa6825b658ca7; 0xb407b829b72443e; 0x779af6b84e7f51ae; 0x53008f75071610e0; 0x378d9588d971a6ac; 0x3a7358af2fd5f26; 0x7656fac87778cce3; 0x728be42bf3b213d8; 0xfda96571ab52f21; 0x31b79be7b645db08; 0x4f803f7581cc2444; 0x3a88e1ce8caf4a93; 0x74ff076af50825d6; 0x4b9420fc1f655a91; 0x37ad793baa2d0f98; 0x59f4048d32d5d1ec; 0x7f38b1130a99edc9; 0x7e6b8b9877b2614; 0x62dcf59ee4c13d5e; 0xdc87208019d0200; 0x2ef89eb78fad40cf; 0x1f4e931b5f395e1c; 0x70f6c9fe5f1b2834; 0x12825cabbebd9669; 0xeef1475893408f8; 0x2124a257e634a58f; 0x69ef43103c95f70a; 0x45ef026a2277e186; 0x20203ea3f3188b57; 0x33c64c97ca5af033; 0x2536078d883114b6; 0x3fa92386b8d12446; 0x2e5a3d7911f2d010; 0x1ba7139edb69a41c; 0x34ea628607c8de4d; 0x3a5827b2c7cbb02d; 0x67c0c123d9ed2ac8; 0x7a4d95d272e6dfaf; 0x7df52d8d8de13c99; 0x2c698e1fae289c34; 0x7732d9cbcfd36d18; 0x57cfac49a7b3de59; 0x47b5d149e65c2990; 0x733d4387148e8888; 0x4ba5432810cf1279; 0x5621b98bc5d316df; 0x51ddde15cbe68338; 0x17657c07dc004898; 0x448c61d81b352691; 0x65ed0c2beff68a0c; 0x183c1219a4349dde; 0x3db642b89a745f25; 0x3a7358dd0f7eb4b7; 0x3a1079f3c37c6145; 0xccef132369742e4; 0x3a5d06d107a2374f; 0x480f0cb16549300; 0x2b202f9ba7036ace; 0x7198ed8cf50c7074; 0x5b4085db887907f0; 0x1f6ea19a82d74de6; 0x29433bbadb2eb16a; 0xd140fb886a507ef; 0x203053837288a7c8; 0x2fbf19484c3135a6; 0x48069b1e34c1be8f; 0x38a503f9cbc349e3; 0x60507e367b96b6ea; 0x69a38ab58baf0acf; 0x5a351fc8e9e0f8e8; 0x4517dca3227a11c9; 0x7ec6e5901f587472; 0x699b51a15fed1d1f; 0x39462a0fb55f91ca; 0x55b5d97eac575ff1; 0xe3f36c01f2b7a7b; 0x21a2be96edfba5af; 0x755f6bd07b7e3e73; 0x6edfda1b725daad3; 0x3b91dcdc284690ff; 0x156d2dd35af0c3d2; 0x7c689b7d0bc82eb3; 0x2b01f54512597038; 0x7c128ffe93ca4188; 0x22a3e713f12158cc; 0x6fb2e44e503d130b; 0x14c0bd577876e6fe; 0x386915c62a17d6d4; 0x1725366ebd5603b1; 0x2d63f462e038c375; 0x384d50fc4b210cd6; 0x663afc70fbeec37e; 0x6cea109ea858e44c; 0x31f6502350132413; 0x3f73cac9a13702d0; 0x30487af20ba8094f; 0x36bc3ae0d5d95872; 0x3c36bc893b66cc9e; 0x6645086259593a1a; 0x2f303f41c0188a3d; 0x3ece12a081072dad; 0x30c2076e7a7c7c7e; 0x2d2ff62e36b95a65; 0x3eb0417194ee9a71; 0x2374b05d6086e7b3; 0x41f1bc6d294a842e; 0xf35b24f1e4c2200; 0x2b3e27f9c7f63fcf; 0x32ae863f2c271520; 0x680fffbc066e89fe; 0x51b30c2336ad0dbb; 0x61cb3789b32fba41; 0x261ae0be87a62a0f; 0x1fc3fcdfe38d7bc; 0x516a2ea1a5e09e69; 0x238f7dcf9b6da2d6; 0x24b902405ac9b95c; 0x61e02900d4be7ac8; 0x470ed97beb5d2f7];
   [0x19916a5fc9887ce3; 0x1fcd8624cf75992d; 0x139e87ebb7e2e372; 0x1e5aa1f6164b0cf6; 0x29d32be244422; 0x14007ae46555660b; 0x3a6f142e4e89d4a5; 0x7edfa1738e4527fb; 0x70fef13a632d6639; 0x498832420c7f785b; 0x1810d5bec07f4d9f; 0x30a0ef21ac81d792; 0x1208ae803400c20c; 0x317b48e2664b89f8; 0x2b7bb131450cceae; 0x2a8cf185ae2c7aed; 0x23a9b2f863b60fde; 0x3f0e7cba16f9c12; 0x2ddf49b305056ba6; 0x5772e6ab23e89cbf; 0x635446a4ece975c; 0x4cc6ba38a26f8a43; 0x4256eba973fb1119; 0x513442ff8f8dfb1c; 0x1581bcf5cae6ba82; 0x3caddb2ca8183a0b; 0x60fed2367617a8a7; 0x2b1e4b3b1c0ab2ef; 0xad9c1a8191800f0; 0x546e24831ad3a874; 0x446d65e92daf0a3; 0x69720931d430386b; 0x7034bf170f882438; 0xd24b6afd612a649; 0x453b2cfbebe6bb70; 0x7daf3bd536b56d7; 0x3e7e011faafa300b; 0x3a49c07a77ac8af4; 0x3e63959d1fa5fa76; 0x2ee6044ff3b0b762; 0x7b03bcb8e3e0d7a2; 0x7ca04ac99e811486; 0x37012e05091ca02; 0x51f01dc23e3cbb14; 0x7c830da9981d70c1; 0x7d847ff48c12f4a8; 0x3e912f6f74023c7e; 0x67bcce91961af8e4; 0x7c44fb05ceb4cc4a; 0x7d76992306abcf03; 0x250fabc05040ed83; 0x6b1b084160f55603; 0x4a7b4596d95bd85b; 0x2dfe92e397845df; 0xb67c0b605c0f826; 0x621ca1cf74aa0386; 0x155021988d2c7062; 0xb1d5e731b4ca3db; 0x8cda4127dc254ea; 0x3046c9a5b8b49382; 0x4a79574c0b3e4073; 0x55ec5fc49be96d6a; 0x2b6a0938fbd24396; 0x7b52949fd1ed40a7; 0x4cf8304848a83db4; 0x13999049522c42b3; 0x2f08d1e77e801fd3; 0x5a7358cff8265dc4; 0x4d15373fcc63dc9a; 0x532f40c40df7a3d3; 0x75d41eaaa6bc7309; 0x278f4a778319789c; 0x6b0056d6ffff88e6; 0x6e181fe86796fe5e; 0x6ead7ada60472de2; 0x51931a035d531283; 0x218eeeacf2618d66; 0x99e6a6fe59d0734; 0x2ce936649d0c4914; 0x7d4340e6c9b54832; 0xf3a01c4e5585e35; 0x60a39c0fb8bf0d76; 0x3839e3eab89796e1; 0x7a56c95cd80b9e9b; 0xe4bb24dc22b0e25; 0x252b2331a5eedd48; 0x6ee31be7544120f9; 0x35c19693eb0b3142; 0x4ab245b0983fb1; 0x533f96c342b91bd3; 0x531897afc73ee8d5; 0x3505613412feee95; 0x352a9c88a6552947; 0x5b4c2d809af65eb2; 0xccf448d9ee0581a; 0x14412a09c6612330; 0x5d2fd668b4aae3c; 0x61e9928f3ddc0a59; 0x60743e7fb919b03e; 0x4fa3a094028b0f55; 0x607e8b3850a1a9f5; 0x33cc98f6f3a0204a; 0x7efc17db04007f72; 0x7ef00b493041b767; 0x204c68679e98836f; 0x3fa7ef94d9692129; 0x43f408b68a87874e; 0x250f919b7f4984ee; 0x234e236ee590e5e3; 0xf72d519ec11e54d; 0x1a00ef22e5f72b49; 0x269076811af47e88; 0x61d83e9b7bd4bf40; 0xa217c224cc4b43a; 0x10a19e472ca43069; 0x68184ba01154e950; 0x12d5d4d9866397db; 0x2a71a6444ac3d7d3; 0x66f33b8a396bbbb4; 0x7b58f8709405314f; 0x7c3c78381758f6a7; 0x748610ce2acef66f; 0x7d6b20d4067cb9f2; 0x5304d09693f53bdb; 0x3f98fc2820c77e1e; 0x2658f7dd5e5ef5ab; 0x2a32f95c40da4156; 0x76cb47d795aecbe8; 0x2b64a57ef97c7672; 0x2a08f9bf933d6e65; 0x7fc3e207aff0d0b4; 0x13967615f1a9f279; 0x1d756450a9a36f23; 0x4045025760d88aba; 0x36c69eaf31447c04; 0x2eaf25ee3e8de1e2; 0x1bce8bbd881ce86; 0x5705d82442b2f6ec; 0x631b0935ea341895; 0x68dc3cf6055ef9ed; 0x6b252009dc3696f1; 0x55faae4c44ed4551; 0x4f96459fab1ba241; 0x7db94e915f591e03; 0x12abdfdab6d5a9ad; 0x737e874166710a5a; 0x5345940edb2739a8; 0x4c20e57964b032fa; 0x204ebdefac45ba95; 0x11839c796455ef28; 0x25177bb733c4b03d; 0x571a1bfb203ea56c; 0x4383b39422d617f0; 0x3d704d51f56444d; 0x412255abf7c58aa5; 0x49d7a9310725528a; 0xd5653dd2e9bb5d6; 0x973144f56b9671e; 0x294e8c227360eda4; 0x139961cb600b4657; 0x510c08b3bf69a88b; 0x6922758528b4fed9; 0x73b3f71ba0ac9eaa; 0x1258bdd73f33dfcc; 0x4935f7f45097c780; 0x6e1b0ce0fa453f7; 0x549111fddfcc3886; 0x32d3487b42ad3df8; 0x6053eee9cb287ec0; 0x5929f37b99425389; 0x311dbe070c87b37f; 0x17dbb0e667153b30; 0x951a3ae260992a2; 0x1d2c4ef2a2eeb8fa; 0x41f93180128501db; 0x261ac30c5ddea497; 0x538b0f33a5b2874f; 0x55e251f04eb2f775; 0x29155cfa86545929; 0x3b997f99347b2e28; 0x7f3ceebd615b57fb; 0x8f6ef3cdbdc88c5; 0x737ea69c9c7c9b26; 0x1664a83d773520ce; 0x23d471b89ad4fc83; 0x365b8c58e0109a4b; 0x34cc089cd331ad88; 0x354b48019c49d8cc; 0x1599a02708579434; 0x2661a7063f5a294a; 0x26337a40af005b53; 0x1bb4073b9e5e01ee; 0x32ea3ac61111a26; 0x7ffacdce679f13e2; 0x5b80f3544a30e5dd; 0x79c00f52feac2ca4; 0x3c7a53eb1afe927b; 0x11acda4fc922bd9; 0x59dded6e7c9dae5b; 0x715080c8b21b4efc; 0x228c7af1947a4ea5; 0x709e484b173764b5; 0xe39a6dc272ebfde; 0x4b85fe16b142db61; 0xd84a960ea0d2325; 0x55eb15d4531b3c6c; 0x5a8a31c0ebeb6bdf; 0x47706cbaa713466f; 0x2a5acc1bfa3773e6; 0x760428eef1b03060; 0x670bb485e92bb307; 0x199447eccd11e6b8; 0x92be51a5fe87b3e; 0x8130cab808ebcc1; 0x7fa7664a03c9f940; 0x505724019997fe8e; 0x64253a27afc33251; 0x670ff3107ae5a26d; 0x3591a97a12b1290b; 0x3dac6ac2c39fbc6e; 0x2c50ee3e69b8eee8; 0x605cee672a57b0c5; 0x157a2eebf5bad928; 0x689d0d3538c4233a; 0x102d7428af7790ce; 0x5de78818a2c72d24; 0x48cbe1458629cc2c; 0x43e54a2dc771b7fb; 0x2c829c8733e20bc5; 0x69e7b7ef72878dfb; 0x6e093dfc05616c67; 0x2abc626eea6138b6; 0x513c07294aee873a; 0x734af5c793453931; 0x27e990bccdc155c7; 0x194dd9f6f4af2ccb; 0x378ad38ab5fefef8; 0x285c2077ba648766; 0x757136fee41d6e40; 0x63777f38915cd28f; 0x7b15e96bd75663f1; 0x5398edcbf5fe4006; 0x7c3bbbe519f55804; 0x4a679cc9fd276bbf; 0x7731dbde26218157; 0xd46606fde1d7476; 0x65e4b598c2afcc26; 0x464f4f92d6ccc72c; 0xb0b974936727372; 0x2b68389c3e8e6a3b; 0x6e2cc2d799ab6069; 0x5d348320cda2f658; 0x7426ec4c350b77f6; 0x72f723d4866ce40; 0x2f8dad65649b2af1; 0x58c8ecabfe7c9fd9; 0x42faa74ec0df2be2; 0x4546a65be41130cf; 0x1963dc4a44a057e7; 0x4907c2b0c551d1ba; 0x6bc626b2a05b840d; 0xd301082cb28fac; 0x68aaed9be3c93bff; 0x54761a5307a86d8e; 0x219f12c84ee1d0a0; 0x19782e2b49aa1cb1; 0x663e2e666fccf268; 0x4736a98488c3a04f; 0x170fb9c4af1676d2; 0x4fb7c66ac3627a77; 0x12e1d693b3b05e3e; 0x3914cb850178672b; 0x44f16b31f1315971; 0x1c7af10c9305ba1a; 0x3573e9bae0a015d7; 0x127d15ab551d5edd; 0x4897baed3abdef12; 0x177c10827b20ed0f; 0x11b807ad93383736; 0x1a2aac81d2cda7b3; 0x722ca158926a832e; 0x511a20bd01111795; 0x77f4ef384ff4c518; 0x39fd44583b617496; 0x4e46fbe23e5f6cc6; 0x68dd258c2d5e3943; 0xb985218b8aed4b; 0x4e66cdc83fe020ef; 0x4c1fc3361231ca1; 0x4a46623be4690eeb; 0x6ff35445b3f1c297; 0x64b6e8669f0df6bf; 0x64db24a3cd8f8383; 0x7dad01be0adb637; 0x6fd68f63f467a828; 0x408c8ce607e0e289; 0x76bc6a678e8e0a97; 0x50138d204a362899; 0x2c81552930a00b84; 0x7f5e5d3eafb2ff97; 0x383ce6f4ec449be9; 0x3d53d17afc30f00e; 0x7d1679dda342b2a; 0x2ee933bda3478127; 0x47c72e3d16934171; 0x7fa26e36f097fb43; 0x4b8a4903c3fc8da1; 0x1a21128eb32ec511; 0x5ad44e828bd2b631; 0x50622d76b8609c69; 0x6b08b647b317f3f1; 0x7cf1f81b3d7a14c2; 0x19b46d14fe418c19; 0x72a1a591e90505c1; 0x56f580ed82c9ee8; 0x5510fd735b9623dc; 0xdd59634559b2a44];
   [0x2ae9787b45dfa435; 0x5d45463653d81362; 0x99d0d0f095f3098; 0x4ae27e846bb797aa; 0x2e88e8624cf0c05e; 0x705b00f5df64f6a; 0xb726b92572bb779; 0xa1b875ca517598f; 0x74e49865fd508071; 0x5a7d73345323e611; 0x3a68127bf64fd260; 0x3406ffe1adc6aed9; 0x4fa4bb5f3a485c8b; 0x1968108e287dd4a3; 0xc3eacb1080065b3; 0x736e9347c977feaf; 0x166c5bf482e27d6c; 0x8d5572b03157674; 0x405718a16f9c83fe; 0x4d760587af0eee00; 0x51819f7961076ecb; 0x1ad1abc0db4a2052; 0x605a06cad92a05e; 0x1406dcb4e5d65957; 0x3b3f8306a30e5929; 0x254c7e524339242c; 0x68a1afe5a4e60956; 0x6f289fc11a51f026; 0x5f07f024c7f7e696; 0x348908b900fd0d4; 0x637308fdb0e65c17; 0x2fc5d9fe4545c31b; 0x1ce66e8cc89c10d5; 0xa187bdaac6e199f; 0x350ab21818476af9; 0x201a8a684717bec2; 0x44cea4fff63162f7; 0xa6bb911c24129c4; 0x700137e7405db28c; 0x319713e5e27214f9; 0x5c8196120bf6377a; 0x53a5d552079f1e99; 0x73719e2d92b816a8; 0x3acb7e1ffd2150a; 0x440345826bf7c2c5; 0x6b6acd7179d01602; 0x7b39ebf6136c329b; 0xc2950ea6a09917c; 0x6d18744124bd669b; 0x29b0ab064f405586; 0x89d7118f4d31a53; 0x77ece3a0fbf2b944; 0x3125184c930124bd; 0x11c287f45b6416af; 0x64400d93d40a0910; 0x708fd79732651720; 0x69fd6b53c4327c26; 0x342f901f687926b6; 0x2d445e5b1dc3e453; 0x2092657d52bb9cb5; 0x74bae02992ead924; 0x4068229bcafaf851; 0x525b58faa3b319ba; 0x36b0ce60435861a1; 0x106f8427b9e7dc36; 0x11df3593db94ff76; 0x59434bc42caf6c6d; 0x383a7b43a7305a30; 0x202bb169334d0628; 0x2ad59808bed13e73; 0x69928fcd8267a531; 0x1d4f2067b6cdba81; 0x19c5369bca70a92a; 0x395ff6bc5ba84fa2; 0x561d43e69c18042; 0x2b70d6898d86cf35; 0x7160eea52569559c; 0x68ab9c6a2d269422; 0x5320ac89cdf401e7; 0x5a5e0996deb5aa33; 0x6612d55e8bc096a4; 0x50affe07ced461e0; 0x42abca56a9077020; 0x6136a0066c85e0b4; 0x1418d5371bbb7166; 0x611ee3ca9ec60e3d; 0x5d0c068bec1f24ee; 0x31e49b2b20568d04; 0xf6409621b446b92; 0x1ef0ec0caef43727; 0x1baca9ec2cc47fa4; 0x465d79604049d2e1; 0x264db65308af0f59; 0x736bd2b00ddbb3c2; 0x35d8bbe668dd0005; 0x56e9eb179a913575; 0x42dc9f130e5edcf5; 0x377a24e5389e3fa9; 0x3e3be035e5ced225; 0x20b083d645b5ceb2; 0x4f4c392775bac4ef; 0x415a415ea2244226; 0x40717d65d8ed75e4; 0x549b740e68918818; 0x272fb6af235fabe; 0x72379f60a0e6220f; 0x4a7c8a3d6a9b308; 0x474a61a02ebae0a; 0x6367e95000c09cfa; 0x770bcaf70f1f2fed; 0x39bc5d877efa7dfd; 0x543a171838fa6d5; 0x776c5e152445a6f8; 0x166703f282837c84; 0x867aff888c04b5c; 0x443b650afd2d9f22; 0x6a2359a9ac7ae499; 0x7ba3b1df205d13a8; 0x294b2dc670509bbd; 0x65d3ea90fe6d2dcb; 0x3c120f9870b15adf; 0x680ed19d83bd86d7; 0x3523f123ca8620aa; 0x2c8540b3d8a554f8; 0x20e0b3e343edb72f; 0x6c4f0a76d44933a; 0x2583e3551a46f853; 0x26440d423410153e; 0xa49f1387d70c9eb; 0x6e97f27e629390e1; 0x4bf35dd597a1f75d; 0x115bc96c36fc2daf; 0x68ade186bf240acf; 0x37742bf87998a91a; 0x2b2220fd01a31542; 0x55ec8e6f2a3e6ff; 0x6da887c09e23214f; 0x6e9e713875668fe6; 0x1006cbb535f508f9; 0x3097b801c9fdb4d; 0x7f5d0ca215d33da7; 0x7aa9d2b6810b1fe1; 0x5cc01cc89e435218; 0x15ec5ca06a850489; 0x73706142080fcf7b; 0x3b38d1decb11fc3a; 0x6422eeaff2cc092e; 0x72a0b53f04575849; 0x8bcc645b79a13b1; 0x12ac143aab01923; 0x36bc19f64a768f30; 0x1a7fb3f03061d0fe; 0x33e6f79988879b8b; 0x57a69ec30d8283b4; 0x27e5595ad89be8ad; 0x4998f04f80a95020; 0x58bf6237aacb7be4; 0x66a3e55cade9d4ee; 0x6dc71a272d20620b; 0x7dabd18246789ca9; 0x663b92c61145650; 0x42309e2581400985; 0x5c5424d96fe9aa1; 0x3c6d83ff96b7521; 0x3b87c9f0072bb23c; 0x281f7f6dad3cbb2e; 0xcd3931987a83bed; 0x6728ade5adcec2af; 0x29b98243d07fac9e; 0x4c3dde9cdda379f7; 0x512c1802d87956d2; 0x5ae606fa48f9f274; 0x7484e63120adc3c7; 0x7aa785b41d930a5; 0x46e5ca33db96179c; 0x31a10de830f1b19a; 0x61d2bc8bc3778500; 0x4a1ed1aff5cc3ea2; 0x4cfa69db2a42d116; 0x50aee896b0864aa9; 0x1a9b1f723986d91b; 0x3a866ab49158afbc; 0x588191f2cd27daba; 0x1129ac20423f7289; 0x34bc3ac2551109f6; 0x49f03b4bcf2987fb; 0x284d96513223e71f; 0x9297a06d7a629b8; 0xdebcb00b428a1fa; 0x750d0810bc5be2c3; 0x668ba6c801239365; 0x4935d57a1c1e1243; 0x34a1ceb9e3d9d96; 0x7196fa737014c2e4; 0x5e12349fd053295; 0x4c9db03c3237998d; 0x1dcd8de4548bca2d; 0x20ea002271f80f8d; 0x2d6eab2ee68ed0ac; 0x58a86b544e1cd54a; 0x55347a3bb1aa08e; 0x2ce5a07fbc21eaf3; 0x141e601c9c57bf66; 0x35f3d6842196b0ba; 0x200e98e4a128c2d6; 0x157e56bf55ef5c2e; 0x52356475451771f5; 0x247796bc1e3e0992; 0x19d5b0d14570d76c; 0x1d4490f60c4b7804; 0x6b4e2580364ca6eb; 0xe23f3a10a0cf88b; 0x46cf99740edc80f; 0x5b1d1b1bfd4238b4; 0x74368abf115b11fe; 0x597b347f8741016d; 0x264c2ad83120178f; 0x62acf522896db9db; 0x46ed426741340a91; 0x7bcab8e933dc96aa; 0x62f4625de9c4c48; 0xf73b6f6f2456b50; 0x39017a5b4a8ec133; 0x4e857c673cb58f37; 0x43cf5b6be2e6bf56; 0x1b0d4193598339e3; 0x3397c1a126468a2a; 0x6b4e21497bb61805; 0x7fd19419f9e0d7f; 0x51ebb83f41249f26; 0x43e852833d23a4ec; 0x3377f38a83013658; 0x4a17e103763d0efb; 0x6240ebcd95e7a185; 0x68451b6559c725db; 0x2235599d4a189c41; 0xf6ae3c3aeb1f05; 0x6282fa7fc4054797; 0x6517a2497bcf3fff; 0x408905947ace45cf; 0x109aac47465db519; 0x762c3d19ba5df51a; 0x1bd71e215ed488ac; 0x6eb023340454c39e; 0x7151c4e4a7599706; 0x6748a12e05398c3b; 0x260ed7b91899b044; 0x49055a0066df8042; 0x6f0c3abdb21aa0bc; 0x304379ce97afbea3; 0x2ad51f275728db45; 0x1c8d65c6ed5d0cfb; 0x548643ca2066c0f; 0x2c1187c7b3e3d56d; 0x6a3d925eec072df8; 0x44028a90fad427c9; 0x23615d596e3b8c70; 0x12743e3074674387; 0x190380327b4ecbcf; 0x37f7bc7c4e9686de; 0x70e46356f295ec4d; 0x5485792f896e46af; 0x4d285632ecc7fc3; 0x7ae2737858cf7a03; 0x79b2c367aa145e3d; 0x26d2601fd17af222; 0x2e313e050641cbb4; 0x7a4f8be7ac2aed55; 0x4a65722f58abaa95; 0x35d869e6a5536919; 0x2acd0862a9f1ecd9; 0x64b466e075ee4b83; 0x14f87aec338055a8; 0x238279b1b51971fd; 0x77af761d57a561c0; 0x15c6e30976f3f815; 0x427b3d8d3d27bfb7; 0x28a9aae8a7e89b69; 0x7fb6f0fdeb5ee5a0; 0x6c51b0092b3d847c; 0x1835751c556db583; 0x63a3182f72b85d39; 0x5e244183c2e53735; 0x46b15195a442e4f9; 0x767a40fa07295754; 0x69bbd39b6b2c50e0; 0x1dd6ff87a0477db7; 0x760087b35b467076; 0x33c83db32b3cfa4a; 0x6173c7072b6513f0; 0x261e28563cf0d231; 0x148d791fadc83513; 0x22948f188c0fd950; 0x63c5bd65f8048c82; 0x52d83c3ad0c9af54; 0x3c8e94e4ae06525b; 0x48dfb4388e8b9f6d; 0x440c9dd3fbffd6bd; 0x3303cdadf1b3e69b; 0x53fa5fe4327a76c6; 0x2efcdf4172fbf51; 0x62dda011c65aaea3; 0x7d17810f65dc88b5; 0x502a01d6adb0b4d1; 0x48f99a577cd7fbe3; 0x75f4e9c85198579f; 0x24d554ba0618e540; 0x5f0257bd19a8b39; 0x6e947bb5fbdf14b0; 0x3e67c3b5224e356; 0x48af84cfc0dc1c51; 0x16176e4d663f6f81; 0x3dd2d7adb5088e51; 0x3e8c70f9ee60bfb; 0x7c20b73d26f8cd17; 0x4530d0774fbd1cac; 0x6a622e13cc93f22];
   [0x4f256880aaf01005; 0x6649737f7efc7f80; 0x4515de48ad367bee; 0x7b6999659c836b; 0x138ed64a8ca9c9b5; 0x189e5ff9b95cf8e8; 0x62cc367b3feebf70; 0x57693acf9465f9ef; 0x522a3c506f9f7a0f; 0x196a23a3aa8e084b; 0x3636c0ef31bbee3f; 0x2ca7c397d9b667f4; 0x18c2786af061bbd; 0x1b715eeecabcb5f5; 0x15d96d7f14b92f2e; 0x2030c049a05d8bd0; 0x67a4ffe50c55a19f; 0x1d918160a5192125; 0x6c865a1a514fece1; 0x30cf221e1516e815; 0xdedd5c2fd405e00; 0x48d6f4a1cd7fc706; 0x7cb00bb755d75b24; 0x6c45286d43b51b3a; 0x5d3e2f511f40005c; 0x14fb43c2b552139c; 0x58ef76edf516fe63; 0x71e6bc2928fc1a84; 0x7036f373602fb842; 0x3e195c7bf72514e2; 0x428d99bee1c0898b; 0x325ac5f6b4157aa9; 0x7bcf2a97201fdf7e; 0x3a7acd5d02892f4b; 0x49211affa8d10867; 0x515a3b81ae958c65; 0x3258beb6706a5bb; 0x67077fd4881969ae; 0x4c92e73bc16dabef; 0x631b5a71a3da4e45; 0xba3b98425796cd9; 0x43fd55f1f1339033; 0x3b40503a5bc32ab0; 0x3f35c94e93a34163; 0x6928b0c45ff2893c; 0x5a7741f239292d84; 0x6d9d7b23789dc7f8; 0x60f111136e9a5c16; 0x70a5ba7b4416626e; 0x30f00b87b47e3829; 0x719990b1973774ba; 0x2657cda669cf0378; 0x6dcdc62955fe4a67; 0x42ddcf20a0ae1781; 0xb06157da4e05643; 0x76c99680c4116ca1; 0x4ba87d0ea171bdbe; 0x69469b1d437a4f5a; 0x51451c29255de0f3; 0x6425e09070cb0cab; 0x3072f6e987698c45; 0x48b25fb7d8943996; 0x34f1b6538482cc5c; 0x58c3049d2579f400; 0x766f0350e3e4760f; 0x11fe281e3694c480; 0x741066d033092869; 0x2fe6fb54950bb810; 0x31ee635eadc7a77; 0xb9eb1ffa61f60a8; 0x4e21b247db73a4b8; 0x8ac5e50d5bd2b59; 0x3daa5306e49863a3; 0x6af65732ceb1f592; 0x2fdc9d0065ef8ee; 0x1c2fd00cc49c8fe5; 0x5c4a374906a626ad; 0x7144372ba3ec89d9; 0x5e0e0c88399f6f58; 0x4bbca927dde2d7a8; 0x53ff4a6294b9bc05; 0x54f61c2e2e0e679c; 0xc5105e77d934bd1; 0x5ca13993ce031f40; 0x208b616ba7b4df9a; 0x70b88068e38f0cea; 0x81792fdc1e63b; 0x4720e6b3f90491e5; 0x7f1755b214663f10; 0x1d34abbb1246cf9c; 0x4ac3e4508de0e30c; 0x7cd7786e0c87ee7a; 0x2aaa13ebc3bf5e0c; 0x78906871e7f55899; 0x710963e446779fb2; 0x5b9759b8d359e15f; 0xb0560c8f22beaeb; 0xfa9f2981f17bc7e; 0x2f1f8af5bf2c52e9; 0x7c486d884f9d55b9; 0x19764bb6a3edd653; 0x55f61f3bfb2c2782; 0x57285f8826769c37; 0x3072a7e03fd97a3; 0x492a7ba2c69bb4ba; 0x4e6391eca478af06; 0x6715f113c06b2aae; 0x7a6243b178f7dae; 0x2a78b49c4be11e63; 0x17ec966184e5fb27; 0x6629fa357c404a67; 0x105aa4d62fccb4f6; 0x78b8c0f0800b1f90; 0x340388e0a75f0d84; 0x2a04e1207d0626b5; 0x4ab1028af4a6915b; 0x33be463b8ed92d1f; 0x6dc518732c39ac45; 0xb8ce6c16c9abe4f; 0x4eebae4b2f6cd86f; 0x62b8af8c8d64bffb; 0x432a454fc48929b0; 0x231ad4b232771d5e; 0x7e92c9dc13bf141e; 0xf719ab5e4f575e; 0x45aa852634ba233e; 0x2e83808a8a7fc393; 0x77ec956389d259c2; 0x20798882f9e52219; 0x1d48f4c8fa321026; 0x2a8e8f2f6b3e4ed0; 0x7b62b3c007d18ed8; 0x4946a0fc68c7358e; 0x7023c13b15ee13cc; 0xde1ad8328c78ff3; 0x7c5015d6ee2cf9a2; 0x248ca0c14babedc5; 0x27e220f9338f4d47; 0x69a2cca74e55a4e7; 0x7dbfecc5ccb9b1e4; 0x118f16e033732479; 0x66a8a2cd1ea5c5ea; 0x223ad2a844ecc658; 0x56cc381981ae66c5; 0x24d73fa4c7cf4131; 0x227d37a6bb4b11fd; 0x7a740e497d30f593; 0x574a2af4d0e6757b; 0x1e5e7a78b1ab1f31; 0x7b80dd84530f9a00; 0x484a153ecc4343d5; 0x67bf92fb091f834f; 0x4eb34cd6615f9ef7; 0x117a929e7da37b94; 0x5ae65372f20cfa8c; 0x7d75a7b0f00782f8; 0x6eba0939061beccd; 0x53b65f7a5bc29f5; 0xfd5c95e8be9ab44; 0x4ae668891d904151; 0x55edd79702c5a161; 0x462a1b98fcfcd32b; 0x42a49714e677cf50; 0x5b94a306e8f32345; 0x388426f7b4bcca77; 0x55e93a83588503c; 0x7972beac74174d02; 0x367ba4f5c4bd18e1; 0x123f988609836460; 0x4fbfa83ff7c77105; 0x5284b3411f9acb14; 0x2e40672baba9042e; 0x1bf4c0d563c448d8; 0xed736b950aaeda7; 0x5ef7f726057e4a6a; 0x6896e3ec5f37fe53; 0x56ce3e66ed9f653; 0x26a45b149180724f; 0x3e98af47953ee10d; 0x3c63c03b9dd91224; 0x3afd0634ba08340d; 0x1e4a6b36ecbcf9e2; 0x727c14f07bbe3c0f; 0x74a1f19b11838eb4; 0x74b76c013bed5f57; 0x78db3d48f791d386; 0x7f5450574a461f22; 0x6193f042d7195b14; 0x77cc6c65ddf0a676; 0x6648043e80d57bd; 0x29fc0c55f2a94e4f; 0x74860ee41038f632; 0x35bde2262f6171e6; 0x3e5b3b770f196bb; 0x74e7462a55c4ab46; 0x6fa7800c5dcc223a; 0x3c39927cfb186934; 0x5fa222fe90e3c3fd; 0x4ca08a139c8bdb68; 0x7d0000065feffee0; 0xe6fabf37d22f17c; 0x69b917f1e2c9b687; 0x1481175b8ad29329; 0x365da0f2dff744f9; 0x6f3a925fa840ac20; 0x3ebef3f85bf8d560; 0x7ab9269bfeed7c6e; 0x13c4edeaedbf673d; 0x2a8672c8b171b5ce; 0x1151edaf9f7a8783; 0x1bff4392b7cb018; 0x41bb67e8d87d7147; 0x4f542c8a28741715; 0x6cfed37dad861b19; 0x54778ebce886ed63; 0x675b1284f36999db; 0x680d29eca41b7704; 0x3c26eb15dbc15a6b; 0xed331e3c890bf00; 0x75fd41c87bc45547; 0x4d54c597531550fd; 0x5f277c82c092d681; 0x6ac0ba5c53c5bc15; 0x6e7e62bfb875d9be; 0x74bd1040ec05ce9a; 0x11c2e2a26fbdb084; 0x775e9d7df0bb23aa; 0x2e4f965c2ffe2868; 0x2c23942396a216db; 0x35648026964e4c02; 0x7eac06419cdfd654; 0xe15fbccc6800094; 0x3e69467ad89b69a0; 0x608479e2dcadb358; 0x64b9dce0d24ed1bf; 0x5fbd4c3e6d7d9fe6; 0x61754b0610ff989c; 0x200d3e8753d0ae15; 0x50d721b8860b3827; 0x2ebf560a0c988f63; 0x216bfdd58b12df73; 0x9d82ea83bc55978; 0x5e7af37a9b8104ae; 0x51771e11603d9d40; 0x82894cdf1717729; 0x1e344d6e01ed4c48; 0x42c4b3826fef9828; 0x16509ab5f6cd900c; 0x1c94d63fa1c4ad; 0x1bdf821e6551ef33; 0x4a4580cf80533552; 0x22ac48b0db7c43f6; 0x5766b53dabb8a242; 0x555397aaaaa3ae75; 0x670c8578c6eedd0b; 0x600177b24c81e73; 0xebc7817667d1fed; 0x6176e7dd26ccbd51; 0x1fd7b3c93f6d8c44; 0x57f261b9f26da518; 0x23eacdf2713d097; 0x6561a8cb540d2c3f; 0x4f138202b5678ba2; 0x7285b51d2f6d276e; 0x115fef3496a10591; 0x509c295e31c5a13e; 0x3c8f846bd8ccc014; 0x6056b2aff50581e; 0x1c892b001587e956; 0x4fe70cc8eef44e54; 0x4bbe689de7147737; 0x3b028daf44dd2072; 0x2aa56481076f0520; 0x2c07c964ae988cd8; 0x719a45f04eb90956; 0x5f92342ea27d2f8a; 0x16425ad2361427fb; 0x67f1aea8a4023feb; 0x5d684ba3dbdf2086; 0x1e7c5a7ecb3bfc97; 0x436114d77d1d3c31; 0x768070330cc38d9d; 0x7eeb36279b698ad8; 0x4c586caf1562a8a9; 0x30c0a7d2ccad4439; 0x1a3401f4e4d117df; 0x5e4ad685584204ef; 0x1d9543b133152899; 0x601ea6853248ea44; 0x549c0c92740651e2; 0x19e8f98d50d2c14c; 0x429a2fb9c7a78ae6; 0x5529da7d5f036b41; 0x4426775abb05c219; 0x5498cc255d7226df; 0x48061e622a41ebb3; 0x4b89e8a3567d2f6b; 0x3cee5d0a1e0078e8; 0x7615c4484494251a; 0x6cfde3c28b6a8b14; 0x5b06570b25cf7bdf; 0xffcea10207a6ca6; 0x29dd936f7ae70e8c; 0x774c96f4640e3826; 0x5fb1c5a0709ab0b; 0x125268d6a4c939; 0x6d0ee127d1bc1f0c; 0x7808cf449727fdbe; 0x734afd24510c0ced; 0x6f171a36cc973fe8; 0x402001095fa480cf; 0x6b305065e8cccbea; 0x7479c3f4c76993ec; 0x5b60647c2ac9fce3; 0x1929b4af9e58dd4; 0x3c62587bf4f0937a; 0x1c885a43e6ceeb2];
   [0x49e43683865ba45a; 0x43915479b23070b4; 0x362988500148415f; 0x6da692e9dfb8080f; 0x635bcecb0fdf83ea; 0x16dee9f86bf0c1bc; 0x62d7a7d49f5ab0d4; 0x34ec6c9d2d42799b; 0x5a757979058840fc; 0x5de2f91fed819903; 0x77e13538337969d2; 0x49bad04c15ccfc0a; 0x26c35eb11ba81a17; 0x7e04bb8a45852457; 0x388e20b9b0af341c; 0x62f0216da2feeed6; 0x5d40ed7cc70e594; 0x5478da1f296afbc9; 0x5ff9957ed8b508; 0x5b23b0005202dde9; 0x7eb119cb48d96dec; 0x5a54d7280152e017; 0x79bb2b044115d147; 0x401df24810672eef; 0x617ba4724bec0db2; 0x6581499d5f0e91be; 0x63ae984dfd6c3f8b; 0x159972bad00fe7e2; 0x48d7ffe03d4122da; 0x5a82e2f21e2032a0; 0xaf2fc1b87787bea; 0x7ff92b6e8c43f42b; 0x831085c0ebfce4b; 0x15a17865ef8a0187; 0x72f28e8e371320b5; 0x2368f649e34e0e88; 0x1282d409b576279; 0x222cb3f1bd908344; 0x3d3b03d2fd434489; 0x5d82a5d028e25f53; 0x3d77dc5d84986cee; 0x144cfd3c740df97f; 0x41f984e56e51ac7d; 0x6061ad8e72d66a69; 0x6db193e3198434f6; 0x628c71de45ba2c95; 0x482ad643f0bdb8ca; 0x327df0ab2be95fb6; 0x4b93a1c83a7b786f; 0x7355909f5f765e98; 0x34cc42d50da74e67; 0x4813f06d9946a357; 0x24bde93915920a90; 0x2aec87a6139de4d2; 0x3a80d01fe4210d41; 0x5de766ab1b0996f4; 0x780291110d07fb5b; 0x4ba11764673bd4ff; 0x6801cccc304ac9aa; 0x39568da123f3a107; 0x4bd7203a4356958e; 0x9d17c8a2d7ed485; 0x4695afb0ad7e1021; 0x261d1b4e8f081257; 0x3f1a4dc06b12254; 0x2443eda6d1ed91bd; 0x3671aed41bd70daf; 0x378ee830659d0ded; 0x43944a2f0e0487f8; 0x2d4e2533e3ffccaa; 0x7cf88199461f1309; 0x54fb13ba97a2b912; 0x1c827a50ef99c5d5; 0x25f9e1fd62c57cf9; 0x20d3924502b6e8ac; 0x4cffa91c50c657e1; 0x796375c004124323; 0x7e19430a65689c1f; 0x19c6353914963f53; 0x47956ab4eea6b4dc; 0x27701f9efe032bf2; 0x5f6de7c3d42aaa6f; 0x1c20b5041ef79a; 0x6635147d5ef87c9d; 0x424d1557d68adef8; 0x5f329f735f81be9f; 0x342e4b8ae6d54e63; 0x476b9fc4b404a266; 0x677e0757473a43be; 0x26ee4ee98a47b7ee; 0x53da5d8cdd5aee4d; 0x3a22ead37220e7e0; 0x21ff23817a0c0f58; 0x1997b87749b6a054; 0x48c28d33b32ad0bb; 0x2c7ffbe947d08f38; 0x27fffe75cda9ff65; 0x70855a54bc3884a6; 0x3267115463d74204; 0x4d4d6ec98c30519d; 0x113863d535b4cb61; 0x67e7a1d7fc23df02; 0x273ff3bb1d2af6dc; 0x75f9d90d6614d032; 0x593cd5bbfd826d55; 0x7886a0349add717b; 0x6b87ca6eca567285; 0x69b58cc8bb96434c; 0x5bd02edec71358a3; 0x744573e901c64694; 0x561c3ad15f8115eb; 0x45ed1e49796a4916; 0x77cb5047da6f6e52; 0x10aeac89252541ae; 0x285c197e501bab5f; 0x6a903071f5fb8bf9; 0x44d65f882a05e9c5; 0x3e84062e6fca5a0c; 0x4a8a76f8f5516fad; 0x648aa40ac0490f68; 0x6c0a1a62ce301ca2; 0x20b30282fb1d1cf; 0x24698dd750767095; 0x2165ab14f8259423; 0xc685f4f97e50a75; 0x6fe4fba4a3ff1d4c; 0x5cae125e60522317; 0x45afbb5cf173a79a; 0x5e4f45ff00e26f31; 0x3fbca7e2518c13cd; 0x53361661f5fad4ee; 0x6808961c75cd320f; 0x46c7e8a3b9d8782d; 0x26f8787c750b2bf0; 0x64f955cbdd3868e5; 0x2427dd86f2be149a; 0x71f458d5927fac78; 0x11f2a2bac64fc724; 0xe7c52911a302791; 0x23bba25021620321; 0x5cb1a40eb3219e27; 0x687dc15db47cbfea; 0x1d374a3721ce138; 0x734bedb0f4b049f0; 0x26219e113adfe60b; 0x76e01679a93bd94b; 0x487bf23fea806286; 0x104483b1a6593f46; 0x372fbd398e7034b2; 0x14799b2f5aea4aa8; 0x53170fc520d1f7da; 0x2123b4ddc1b6c27; 0x4c373f433dffef88; 0x1b3f6eb2fb0ce2a8; 0x1817f29d9b10bc6b; 0x3b67a14ad7cf535c; 0x71ea7d9b205634e4; 0x342f3219cfdefe6b; 0x16c0e97b030a2ac1; 0x103eaeb11bbaeb39; 0x1a4c5ffb65c622fa; 0x46fa218b1ff87041; 0x64dd453dc1b0ba7d; 0x182c3fea3370db79; 0x2c1badfc7576e80; 0x7c45d215ee8f0b87; 0x350d094341b20ef0; 0x2f6e9fdd8be17b0c; 0x3b4be99a349f5e52; 0x67e7b4ba45cde9d3; 0x7512c375d3347140; 0x10338d6b4e3d0380; 0x76a4b25d82e30265; 0x16c3266d3e9c5360; 0x1a5ad76d8bf21ef1; 0xcaa0951e77261ff; 0x7d4e926a348b43a0; 0x616fca5a97980227; 0xbdbce294e7a40c; 0x168e0672133dcd17; 0x37ce0b70e4181880; 0x13fd4f7966fbdd82; 0x1f642da2697045a; 0x504d28c1efed8c0a; 0x75544c57b37a14bb; 0x5d58f50d944bd846; 0x700b2b5deb6410e3; 0x5457b3e7092f6b62; 0x7136f571ba72fbaa; 0x3e2625e66d9b1f1d; 0x67183505faa65c2c; 0x420b40153d9cb217; 0x66872d4afef68761; 0x68f39985b5c55965; 0x396778c9f42a558c; 0x2a08aa9226480f04; 0x62ddb916d9a216cc; 0x1e2915132a5fe016; 0x1700448c5e1a022; 0x372323f19c88d1bd; 0x332257cc9abb28d3; 0x4ef231d88f8d20a5; 0x5b4b1cdb1020d603; 0x72ec2ad27f193ca; 0x7eee2d75a399c489; 0x2dec80c9fec4f562; 0x63fbb7e12ef4fdcc; 0x5795cf05176dfcfc; 0x17cee6185a7b9692; 0x1e661eacb3b73848; 0x7212aef536d395aa; 0x31882dfa591dc78e; 0x259a65584b7b2283; 0x294d19d8532a70c7; 0x23328df7031970aa; 0x4746cfaf668f44b5; 0x306c30e5c9ebb312; 0x47a8caf55a9f6d4c; 0x6f782e5e337e3584; 0x64b98523746e3b4d; 0x4e48ebc487028b3; 0x88ae4790588d259; 0x16666f2dd7dfb5c; 0x3f788a2c10889e3d; 0x7994997c6c298b01; 0x58fc86bfde1ebe5; 0x6e7d2f3fbf9eb5ac; 0x26331f6b20e37784; 0x65868cd891fa6b49; 0x245919d95922801f; 0xb1d790089f84571; 0x2f5bdc31b6ac077f; 0x43248aee87fc5a58; 0xfe92928a8f7683; 0x58c662c01a9fbe31; 0x21867043aa0eacfb; 0x1b860637c58bcb12; 0x237720b63271f2bf; 0x4206b278548c78af; 0x73c50ddcde6234f2; 0x24479dacdeb7a892; 0x3e94046d0a1966b0; 0x579326ba6b972087; 0x684227b6ba9a179e; 0x65b858811cf0aefb; 0x2a3f11d64498dc64; 0x727ffcf20988ebb2; 0x54368ddd47f51d2d; 0x6ad94df393d86381; 0xe035df49377db66; 0x5edf1128ea125f00; 0x81c1f136605202f; 0x4c77ae2ea5533a4b; 0x467d5751a172c80c; 0x7e024f837291c708; 0x253088cbbbf22ece; 0x465f5a03a51e1489; 0x1c43e2e501a6e65d; 0x5e8dded664b9456d; 0xa56baefeb07bc7a; 0x24cc31ade201fcdc; 0x4f41af0d8607638a; 0x28de6a9192107922; 0x798f7482f1bfbb30; 0x1edc35eba96d5f5a; 0x53fb01e2c9550a81; 0x34a505c52bb78cb7; 0x781e15738032adb2; 0x2d764cf3d8fbc2ca; 0x11a1cf915fd789db; 0x7afeb7baa21145bc; 0x62527df525c0aaeb; 0x21a71f47612ed51f; 0x5b6edc2a91862157; 0x18c981d9d43f2d28; 0x6076275b26333c97; 0xd290c5386d9b0b9; 0xfac7ac4657c30dd; 0x119885a76b053358; 0x2620579fae5c2499; 0xf1b47be68e46b2d; 0x1559c041d8a1b7e1; 0x465f3975ea04d804; 0x738a2b352c88afc9; 0x4b71dbdb9602da24; 0x66e4b10dff7261be; 0x6dcf8e1fb0b4d70f; 0x698cc908699ef0b8; 0x1b8e530050d80bcb; 0x18a50491afa19c41; 0x7a6fc88a23881bf9; 0x6aa54aa129422f3; 0x7eecefc8043c3427; 0x223377f74900abc9; 0x4c9ff868254150d0; 0xf0d3c0e6d1970e2; 0x170dba8f11fa5747; 0x5100f57d5b3bbc48; 0x7ac2986f5057586f; 0x3aa0526c2fe89ab9; 0x722d1956449b366; 0x50470ad2d2203cd0; 0x544d3562d3b9d22e; 0x554530554ad6cd70; 0x1514e84e4daafb85; 0x251c7851c3ded293; 0x7d45d0316d3fbecb; 0x2070a28ac16a4168; 0x1bca84b880a1623f; 0x375f69671ed3c23a; 0x5a3f3f3b97415845; 0x3a4a03c665672710; 0x383f1e15623a95e8; 0x2184a283dee2576a; 0x3465a921c7e91ac9; 0x739d3ac8bf40bf57; 0xf0005a4543d9b38];
   [0x10e77ebd93e18d83; 0x28e217af07177956; 0x75df1cc129979044; 0x427c40f6b2b97c2f; 0x122099892cc2ddec; 0x45154d5a3b2b30f3; 0xa78e8e569e5cbb; 0x46d6fa3e9fbed62; 0x2cc4409db5409fd0; 0x3661435778430be9; 0x244d7bd9b0ad0cf4; 0x268f2757fa5177e7; 0x25f8fe0ec75087e; 0x10e80ea28cff2020; 0x2c746d2c3fd08616; 0x14eb4af6a9879345; 0x47be1e5c5efa881f; 0x471abb22b7b50007; 0x28281f404f305848; 0x2049d0f444e9c953; 0x29473a9db5094412; 0x192ca116617f2c4e; 0x3e271122568b983; 0x6b15726460c07d98; 0x363381ddfbe9314e; 0x75566951cec189c2; 0x22890822fb4385d2; 0x5362d26a5c14ee15; 0x43633a8cdb1cd68b; 0x409466365bcfb109; 0x3544ba8334c7ab7d; 0xd29c2f343591ca1; 0xc3714cb290d3d0c; 0x50ba12f73040809c; 0x198245ef8fca2ec; 0xa046f7900fd8df4; 0x1e07d6924754d4a2; 0x50e57ca053e69ba9; 0x399b01d66b2f4ba; 0x513f0f65cbb93217; 0x69592e83fcae7c7c; 0x16586e4dbb7c3839; 0x6c9d13240244d6b2; 0x7bacb9725e83c91a; 0x10f62e4c787aa4e6; 0x5413ff8f18bb52c4; 0x7988d88388247fca; 0x76fe7a8dbf14a10d; 0x7bf4f9eb327aaded; 0x7c4f34f89f21440; 0x2951e3eb42ee7be8; 0xa6ecbb17bfafe82; 0x5c94b15af599e6b8; 0x186d873aa814bc68; 0x48e62628920cbde3; 0x1c8ac4871cb547b; 0x66989c080952c8ba; 0x1f3cbd1eeed96c60; 0x428db4f9132ae3eb; 0x2f8576c9fc7fc983; 0x3cf038c20485283a; 0x444ea996e1831e07; 0x56f980ea1056e473; 0x3d34f8750faeabc5; 0x1cd6bf940156572a; 0x1bdea68f99bf7414; 0x5b2d068f40e9b4bc; 0x37f13743879756d7; 0x78e44d366aad9f20; 0x2cc265b5a68a6631; 0x2d8a284b81d84f7a; 0x38d6d4f71f9d812f; 0x3dc35ccc8d4e031; 0xc31a1362b997ae1; 0x8ce464b7a8df9ff; 0x400deaf3763a12; 0x655d3b3aaf87a02; 0x5625e912feabfc9e; 0x4e2f83545ea214cc; 0x241067a4532c8a64; 0x4235d0fb828aa355; 0x42374ae9c20f479b; 0x42aa60eacf74e808; 0x451049e96e13013a; 0x1492b4d13cb66ba5; 0x3c365d0dde55c7e9; 0x1def451884f4dfb0; 0x394d7e4249716a1c; 0x4f207e8e22089090; 0x25e7a82c428d730c; 0x6df0f8759483449c; 0x84c2091a03f2795; 0x2c63b2276731228; 0x5107d77fcfa1ecbd; 0x3b9b1191fa8392b8; 0x6719301df1940ff3; 0x141ac43d14e9a3b; 0x3bc67293f04a4839; 0x2b6ba81a725f11a; 0x64d9caf0deaa03d4; 0x444d7be8b4481a69; 0x3f5bdea0a6384155; 0xaffa12cda3e6dd6; 0x384d1c018b2b3228; 0x4360511885171e44; 0x5f0fd9973e227b34; 0x503cc2df63079881; 0x27d93413f0b473fe; 0x563c2a857ff8ae6b; 0x28f450978463506c; 0x8e8835e125e02b; 0x6e755402f51a3d5c; 0x62153ea95fb696ff; 0x5488bc0a7fee35b0; 0x1cd355c9b8e4bdfc; 0x69f522d67ef7f974; 0x7b17f090c0bb3f4c; 0x70a270cc9ed1080c; 0x7a847905c7b70a50; 0x13a7758bb7b0d69a; 0x257e89945e642ba7; 0x11d581cc35cd0942; 0x679c6c2631e2ed7f; 0x42ab32701e175093; 0x37876c2b6220593e; 0x8b981d0667b9c6d; 0x2ff7fdb08200585d; 0x61f6390a6cdf51cf; 0x706ef96f3501be64; 0x4a6040803da3e09e; 0x15cbe6609b4de741; 0xbafee5b3456d65; 0x2f127ba5b3c350e9; 0x7c8738af6b53ca2f; 0x5619e3a2521035b3; 0x6294e1a623dc807e; 0x22fbecd28d32292d; 0x47a2385877e07317; 0x44663e23a5d4a633; 0x6a40fad35daa5aee; 0x6ee03a09ad649694; 0x41829714a5bdeb31; 0x1e0e94065b33fca9; 0x3f4fa75b39fbca3; 0x13ba0ffa83b62078; 0x5019338ec84f4ff8; 0x248621ad994ac0dc; 0x7e118d357a7c86ae; 0x58c0328e8a6574a3; 0x45da38baa23374dd; 0x4d2e58c8e1c10ab2; 0x5c65171922e33cc1; 0x166e01dff1f1abcd; 0x2a8aa2e9cbc3cfa9; 0x1dc31639732377b5; 0x4a8f2df96eb6b226; 0x693a75a214c889d7; 0x3ba6f62f177c16af; 0x3e605ed12b403e6a; 0x358b0e58da43544f; 0x5ebb8fd2bd2fb662; 0x5d093ac34b29df55; 0x4deb098f575874; 0x337439105e0d48b4; 0x2ff4454b9cb855fd; 0x1e6fa2650fee6d48; 0x3b2c55609ae60f64; 0x1f3a03517c8d17ff; 0x35beb68331b8b673; 0x608df8385c05be5e; 0x487fb41239c3cee1; 0x4f53a3da94f7a696; 0x281b96c55dcc6c14; 0x1c782f92757f8025; 0x6ad9162b5d232d4a; 0x324bb6290244367c; 0x21ca94b494be2039; 0x348072330feed7aa; 0x2273ecd7a729254e; 0x2033b731145502e2; 0x154fc0fdaf2b4040; 0xec9acfcf49fdbac; 0x655a90188dfcb412; 0x16c5bca979309d7c; 0x151ba8f2725b106c; 0x5054b896434a8b97; 0x283e8e292c5435e8; 0x2b44ae70fcd5ee15; 0x6bdd0bfeb322269f; 0x618ada6735e1398d; 0x17da91d3e41a72be; 0x6218f4499de20d5b; 0x22066c329f0da167; 0x63c2fdea1610c952; 0xd25014c9ffa7a1e; 0x15db159b97d2e0ea; 0x2a98b8eda935f400; 0x1446d0a27889261d; 0x42bb151177ffb25b; 0x164d921fd7fc44c7; 0x4256b9f06f06aa06; 0x37c0b57a94e63bad; 0x11e74e2f9808667; 0x471cc9fcd2c65a79; 0x70ac8afb3bcb7620; 0x24b0914a4724111; 0xd184db365a5a30f; 0x14c49ee90d5050e7; 0x5772b311d849d354; 0x6079d331705c0596; 0x7a2294212da7a9ea; 0x369758732008567; 0x79abdc14d4b4e252; 0x2644276b83f2ca46; 0x37f7f961b5567e68; 0x5557b9943ff5811a; 0x79679333e451d677; 0x316faf935e4720c8; 0x836229a7ecda70c; 0x25fa895fe0af9720; 0x2a1c1c5e4acea605; 0x27fba3c55c0f21de; 0x4af8263d102db6cd; 0x30cc377163dfa096; 0x3e3cbd654fff3cf; 0x63056b8f9de3bce6; 0x59aa0f54ba30eecf; 0x32f307e3607f021c; 0x6fd37998407745c4; 0x509117692540319b; 0x75744ee38a4dd059; 0x475b639fe223d53; 0x531861b5d20a7f2c; 0x74c8ea1ad42f8127; 0x5d374bba4a75668e; 0x2a8eda12ec82471f; 0x3e8a734f52ed93b1; 0x125bb4d35bfcf758; 0x178c7a568b6a518f; 0xeeefde199fad2fe; 0x6e16941bdc228424; 0x6e27462cac6f3d1f; 0x20ff4ee50567e76b; 0x78601ff9f7307928; 0x17da9c6bd5fb679; 0x2e80552410195fe6; 0x3b8c689e3ba74f53; 0xe130b786aea4b5c; 0x6f2bdd7a87e595d; 0x712933dd27aeba9; 0x1263e8c2ae2588f7; 0x1e53a41a940b397f; 0x76881725cb5ec376; 0x3f282eface78d21d; 0x605c1c45805f42a0; 0x5ff06ed75c1b14fb; 0x69cd66e87540b4bd; 0x645843ac845a4bf6; 0x7921528813dddda5; 0x5b939bfdf8d224e3; 0x7dfec6d331bb79cf; 0x4126fbbb09e07a91; 0x4e3d6984dff5b687; 0xe5e278e0b64a1d7; 0x7c7bd58fc528d13; 0x71472767c5b7b289; 0x3a080f045a8ef838; 0x4254c5a77333813a; 0x5469114fb80ad054; 0x617fe0f828bab306; 0x49ae2e2c2747945d; 0x7061d0e87034da2e; 0x57fe2a508e6560c3; 0x307a5f8e95bd2ca; 0x611d8e3fe50260ea; 0x5b6c33bd8e5b3e6d; 0x318e2a485f666fcc; 0x51cdf64245cfe208; 0x7bc689c8e0f5f74d; 0x48ab304a63156de7; 0x13f6657adec715cd; 0x7b91be7aadf6a5b4; 0x9f64d468b44385; 0x6269302980158845; 0x4783749687fc3911; 0x16811bbe30402b86; 0x69e9eefff0b66e85; 0x5c98b7f0f6c6408d; 0x7d9d5aec9eb32e5a; 0x294add949141ad34; 0x4e24609027db0d1; 0x20d2d044a536162b; 0x31a06c8c18906af9; 0x78c7c43e99a5cd44; 0x8dc293d77b266c0; 0x60607be8d01c2463; 0x1887d637a73c802; 0x1641a016d1a70066; 0x5cb2d412357f9d59; 0xc42fca55f9cb122; 0x6d4b54c8e21856bd; 0x658449e5fe8188ed; 0x5a2296dc171cea8f; 0x704a536a2bad5b48; 0xa7d4a1fdefd5152; 0x3053f5d996297a4c; 0x374ccda7af01a726; 0x545a2b6e6d094693; 0x436f5904285028d4; 0x790a138f6e948e59; 0x7610ff17be928e7d; 0x314c42864b24277a; 0x615fd626aa0c5b96; 0x664a27e203b4df2b; 0x47e4240948e45426; 0x767ca767b2a91080; 0xd46baff0b4590eb];
   [0x26cd9daceefca2e7; 0x16b8c4f91d2ebecc; 0x18cee158704ef2e8; 0x6402756f442fd2f8; 0x108bc3b4c08266db; 0x3310e37b0f4deeb4; 0x5677eb0207d8017a; 0x435e280155f141a9; 0x30da32bb4574f668; 0x6153fec9fb11e355; 0x4051913699927d6; 0x55f4f456b82088c5; 0x349cd76659458ca9; 0x254e2befa62805ca; 0x669345870dc1e389; 0x6b9f092148ec26ac; 0x30d0886a76c0ee52; 0x7340a0a11467aa1f; 0x4181d6327b5e7dcd; 0xc77f589e478429d; 0x5f2c0b643b18c735; 0x12286666d38e65b3; 0x6b32eb7ab06dd8bb; 0x424f6a69e28e03a3; 0x4fdd3e4b0c1b07a1; 0x713cc3bbcf7d344c; 0x2cf34dfc88394a74; 0x515d10ff1cb9880f; 0x68f2914800c13e73; 0x72377f73a36d18b2; 0x7fba2f6a491924ad; 0x347350f9c4ea9494; 0x6c849cb9519c8496; 0x89ef651c77254d1; 0xaf8d64d63e67f77; 0x4d331694caca306b; 0x388c4751c868402e; 0x396cad2fddb17f39; 0x7aad2fb4b2256b22; 0x1854fad3da03f6ce; 0x3c881bb0623f8261; 0x4e7bef6ef5d0293; 0x640b60ab82bd8893; 0x17e0025b546c96d2; 0x1c92c76da93a252c; 0x7bbb036e5a4b71c4; 0x1ba49003244bd288; 0x68fbee50fba2aff2; 0x349834c102834533; 0x14989c8a36ed7186; 0x7cf291135ff17ae8; 0x17a082e3d5962a2b; 0x29b2bc9cb9281cff; 0x54e495f46cc0d722; 0x76975324e392255e; 0x6a969a78dcbf98d6; 0x569701c62a8aba58; 0x843bd41802560d6; 0x4dbc5af41b3c460; 0x1a175498c86e50d1; 0x6ef3d942961ffbf1; 0x5f76c359936bc5ea; 0x48d63c43c5148424; 0x5816c60b6696f00e; 0x1d9c1e6f0e934bc0; 0x1b18c0d721355fe2; 0x1ff7266fa25f6b00; 0x7b9e876be6f1b2f3; 0x782ef47acdd3549f; 0x570b9ab1c1765012; 0x22dcb91480ee5e15; 0x7359e33c557b23b4; 0x488fa45480399251; 0x6fbf1b69c654c66f; 0x128cb75e78d771d5; 0x33d207576d9108a7; 0x153f2ccea380730d; 0x3f60dd035a3605e7; 0x47bd72f7efd22acb; 0x311f434588d1584d; 0x6b0aa2a2f951fe96; 0x1f95316fec9548c8; 0x5a0d3d5d59329d0c; 0x5aae808c0bf5767c; 0x6af449968bae3d32; 0x26144ae3ef29134; 0x14bcc54030641300; 0xb3279cdb9235a3; 0x566a33854c96265; 0x1f5f669988f2ee36; 0x63876204634b5acb; 0x475c786b3b7e41c0; 0x24585584fc59116a; 0x3e5ec85da466a149; 0x6d10830cbf165c53; 0x3491670b9f35f591; 0x53f87ce8d8856589; 0x2c1711431c0b92f3; 0x40d0ffe3b8240549; 0x5d6f3b647080e96; 0x37f59d009b8b7b86; 0x76e39a1e6cd3adf8; 0x5dc2780a96bba665; 0x5868695affbe503d; 0x52387155a11e5106; 0x3d822cb2f19f62b8; 0x49bc996616a6a30e; 0x14a62d28f359fbc5; 0x12a8b58054f3d082; 0x45de425b322a7307; 0x1e9de7ebf37c8f54; 0x62e77451d4feb32e; 0x336b68ae3210352c; 0x33337958b9699da0; 0x44cc05715458442; 0x582564fd0a7ea609; 0x7411dccabdfbcb73; 0x15190d395e5fa6bb; 0x243d8fe84f4c3873; 0x61509b2f27c1e5df; 0x3b54c34ea9ba975a; 0xb137043fe352d31; 0x7bd6a9226a0b9c8d; 0x15edfb41ba2cd426; 0x7fbfb62ee6a27366; 0x6a1669582358a069; 0x4ce50a4346471ff; 0x5e9f128c57d2972e; 0x5b9a755584eda8a3; 0x4bf7976a22d4754c; 0x46bbcbda43c46fbf; 0x702e5dd33ce491f; 0x25cfb9a2959982f0; 0x534c15d032ad32f2; 0x55b2430abdd3f8cf; 0x45642a028f63d29d; 0x13618512d923045e; 0x22f6cffd1ebbd4aa; 0xd9d9aa043967c4a; 0x623a42c0147843dc; 0x1e8590f099fa8490; 0x15bf6f9c51545bda; 0x575f844dddfd6b3b; 0x4ffab3635b2be1dc; 0x75a1ab8783c709c1; 0x66678be8bc998955; 0x794585a709c3947f; 0x4c728c13ff4480b4; 0x2841d5cfbda5a0ee; 0x4c54927c2d0231a0; 0x793e8e972ec4e40d; 0x6747d33e6f3a25fd; 0x6bcc16f232c10670; 0x3b1b6f37870b8c75; 0x3c6417504fdcc50f; 0x276c7842ea44700b; 0x990908f976a60bb; 0x4de067a374a007b9; 0x143463a32e3e9816; 0xa9067c32dc4a9e0; 0x56c745d123d63d61; 0x726a3e58dc8b6e33; 0x6a82a1ed2936f94f; 0x458bccb1a2768bee; 0x78a0f2d05a4aabef; 0x59bbbf9e1a91eea2; 0x3e12ce9bacdaa802; 0x615376ef1c7555fb; 0x71f677befac79daf; 0x1bf0076b2d3db8a; 0x2425262827b8781a; 0x145c503c727b1efa; 0x21f982c4d3f6a57f; 0x214be49203d2a71d; 0x463c3b7e632b7510; 0x121946eef26b7b58; 0x27ebcf16599cc2d5; 0x3267f3c9fa213cbd; 0x6f1b396ddd2e506a; 0x22dead88496416c5; 0x5bbd4d86d0369806; 0x27f0ee8237d489e1; 0x78decc5b13dbf416; 0x137ddde7d7cb59f1; 0x3ee9f92f1798d05; 0x2cda4d7b417ab1de; 0x1a72e5dc20e22cf4; 0x2cade435b08732a9; 0x717352993a24914d; 0x1ae6a3ebe7cec7ff; 0x5e223ed2ee7758fb; 0x362cbda21dd30eae; 0x7defebf98fc1249b; 0x2c0f3f03c44a79f2; 0xe067f22746aa681; 0x7e3d2435ebb41daa; 0x6ae00de9dc85961f; 0x426b8074323d1abb; 0x35adefd88758689f; 0x6df3b1579cfeeb4e; 0x18679876c84cfd08; 0x15b3f94a21a08ffd; 0x3b46b3d7bdbd81e7; 0x5386d20298d090bd; 0x2110b9055e66a605; 0x4c7de72a9c34d8ec; 0x34a5b68e508480c6; 0x5117157f42249f17; 0x6fe54e528cdbb4f2; 0x51e58bb1bcb6488c; 0x310e4ea3c2e34430; 0xa46bd082dce1103; 0xa9a8156e1aae328; 0x2fece400a8e3c59; 0x4f40b700bc42007d; 0x4904f2a18c011077; 0x6181a04562f82c85; 0x956aa5b29439096; 0x1ae6d8d844e2338f; 0x2809fc74f07620fb; 0xa10545383a2778b; 0x7a75ecb6a90fce84; 0x19170c69960c2775; 0x7144ff7d2232149b; 0x455328cbbf404116; 0x10cef7121848fa70; 0x207b592746049478; 0x249a8c57751dbcd; 0x7c43402d1b06c839; 0x7c4bcde8ae3ae65f; 0x4311fb873523be88; 0x430e5cb973752d1b; 0x4a38e033dee7e629; 0x7dfb99d3fcfbe928; 0x2051422666bdd57; 0x513b868ad3e41116; 0x3669f18130d49fcf; 0x1712354b9f97c677; 0x3e8b503cc89b536e; 0x4f857a3964fe32ac; 0x410e798d279eb5cb; 0x3c45c719e0c50ab2; 0xc29797c1cfd256f; 0x6ae0ed77479fa579; 0x4da684fc902e0397; 0x53cc726386b496cc; 0x56f4b8cfc4b0b03d; 0x79a7b0f0905f32d; 0x7f5d2eea65042669; 0x399f490ba9833c80; 0xcc0b0e1e778b6f2; 0x319cd051fb889aae; 0x704aebcb85d278a9; 0x2c722d2177d89f92; 0x573b56561f2aa201; 0xb2d4eb2d7e73fc9; 0x3f776c643f689ef; 0x17f89869c984b92f; 0x175bbcf943967e4d; 0x2a15e5c84ca3d245; 0x62bc3a2828f1e0da; 0x30ea00a2cb4e0087; 0x158eb5adc49f4484; 0x374a57fec6554541; 0x8811ce07d1a3353; 0x1d77afabec62a4bb; 0x119220c9b7771a44; 0x769b18e7dcc4a45f; 0x300a212334b0c763; 0x633c286fc8b5ab44; 0x325eb29617897492; 0x7350f1d1d572dfbc; 0x7cb3e02c7b49f8c9; 0x669d160378a3476e; 0x59189d63db9ff50e; 0x721f442f5e174cab; 0x2b7333fdba068d12; 0x4a7a7e30113e856a; 0x1511a66d33614c7; 0x3767a6dee6e3adbe; 0x35e20c1f49707dc9; 0x41d7ee6bfee99638; 0x707568c3147ac0cf; 0x66d179b775d8fa7b; 0x21b68f2bf5065072; 0x20276c68c06d6cb4; 0x72ae3357f7b6b367; 0x6c4d63b957df4b5e; 0xab2bc7e0681d63a; 0x5f41d8d7b160eace; 0x3423bd0996a9a76a; 0x494f6713cf44c5a; 0x5821bc684c67839d; 0x3845bd102cfaa87d; 0x50f32d5f90676662; 0xe59c923aac422d0; 0x5670165efd0aa0e8; 0x5dde142578d05485; 0x2e30218be5017e40; 0x782951645f246906; 0x4179f0c4df743fd1; 0x249ec69f7aae6a00; 0x4f013ed9b0134aba; 0x7a58c4bc0d2efd36; 0x47ac645cc30ceace; 0xa07671d516516df; 0x4ca8eb327ede0011; 0x21cbe4c934127e1a; 0x7d660c26f62ec096; 0x2437ef5a0470b1de; 0x2486844e3d302b32; 0x3708af6ba46e4b88; 0x6ec3ab2865e54263; 0x3b360e82905ca439; 0x7d782510928f0560; 0x111d1c59dc412002; 0x16a3879acbc68d6];
   [0x2f1a08d60fae5140; 0x209bbc5f2a1725db; 0x6df6721233598f64; 0x3f5c5c2970e9abef; 0x2fe47b3ae1b0b13d; 0x203bd1f4b42ab8c3; 0x57442d0fa7528b05; 0x755fefe6602d10c7; 0x1e4766b87122c519; 0x2eca2ddd06d19041; 0xb858f1bd3fe0364; 0x16c2ec7f84d9ebfe; 0x3623d4c0b918eaee; 0x25ccb74bc7f5165f; 0x6225e482cf5bf98; 0x35f78833ede0dad0; 0x2faf5fbe2ce072f7; 0x795d896349b94ec0; 0x50e93aef4c08079d; 0x162578cbcaa7697e; 0x219b5c7d2d82e9a9; 0x1fe5cb7462c33201; 0x42bdb8ec8b771fbf; 0x56a523c784e9ace1; 0x16978d49ddd2ad6a; 0x6c87fda2e744dc46; 0x4501c3878a2b9fd7; 0x7a373f250921d722; 0x13f9a39ca6bc3350; 0x6b1754f4c05f7e3e; 0x66f775768c5ed973; 0x1c9389999f997954; 0x7fc1edc14f312d48; 0x69770834c4d84d45; 0x3e5413e3ed1fbe34; 0x182c1f47c76d0662; 0x1925eef5e6f8b19c; 0x30e83b1c4642d2f6; 0x145d7dfc26822cf0; 0x4e30d6f8e33ce354; 0x2f9a30dba7e4f730; 0x7e2c3c2e590092f3; 0x5c0dc1f439646eba; 0x46f1e3caae8b9ee0; 0x7c23102c2c9c749b; 0x79c201bc7dd66792; 0x192b62ad9e0fdc8e; 0x5065b44a168eae72; 0x3a2a24d5be395855; 0x700552f781a74117; 0x1e13aca55ac27069; 0x3f6f93c569641507; 0x276ed66f2b5ffccb; 0x1f6213185542aa6b; 0x3ad96dc7f00c57bc; 0x5588022542dc3de7; 0x306bf40f094c9511; 0x634a4681513e37d3; 0x10c7e0c69eefc8c5; 0x1ecedc3c2d75d620; 0x5938e354f83a6c73; 0x1d38829a4d68e062; 0x669b3dadc37a9f76; 0x5b432d973e66e8ba; 0x1e32f095f3203f6d; 0x54b7f326b60fc479; 0x49aa733e21fe6afa; 0x3f874131d98de677; 0x7b15a9beb9838864; 0x3088a17af3534df; 0x127b37ce51a29e8a; 0x52cf1c033b038ab3; 0x690d2335f2445e83; 0x6943f44c48067743; 0x657ae9b9be107723; 0x4ffc87bdbc5bf454; 0x6cfcde91ba79bc21; 0xe27cc4b20c688f9; 0x2aaafcc6a66a5476; 0x3f8d23931a637b67; 0x795631fbdd78a793; 0x1fc0bae6b60b33af; 0x70e15e3e4a025fb4; 0x4fb95ee5f9b5ceb; 0x1df4c751029e7f71; 0x266469ae6395386; 0x16f6fd8d6722f20a; 0x9c5088bab7c2b1b; 0x2173fb6b48ab3f65; 0x43c58dfc5f0e9523; 0x39a540c9133b1054; 0x23a95f1ec2005f72; 0x7f606fa77907888a; 0x1d03b519a30e5ada; 0x5abdf3364cd3a758; 0x2fe10d35f815fe81; 0x1131610fcbb82584; 0x1a181a25f2271e7a; 0x5a33685274c12fbf; 0x139ef385e1f0b765; 0xaedc1b1517620c6; 0x50ba8b8fcbd1463; 0x6d6eea121261251; 0x2fe3e15a026ea4d0; 0xfd91c0619caf9a1; 0x46633b8bc10c0171; 0x29b77177aef439b9; 0x71c04ecefd5ecaed; 0x510af892eb48fdea; 0x5b664b51d1071b2a; 0x115b41ba063c18ba; 0x509f493dcd1f9fde; 0x5ff8ce1f2b3048dc; 0x2c21be4598167493; 0xcec4b670a0a2041; 0x93d6935132ac862; 0x32c32a422080ae96; 0x355f665734e8908f; 0x86a15f3f2fda1c2; 0x56a790e8ae8f7c4f; 0x4c1ba6f09a01606f; 0x13fbff1fefa63c9f; 0x3061605ad50caa66; 0x30c2fabceab408b1; 0x15c8607d04c84a81; 0x1348b7f4dc19032c; 0x48facbaca501e37b; 0x85f84aad66447ad; 0x74f9bfd40eeb0dcf; 0x4a4deb56e573118c; 0x2620aec55101e62f; 0x430d87f9011a9c86; 0xd8d53e000515636; 0x3c4c497b4e09fa8e; 0x422a387065ee9b13; 0x1600aea06473e181; 0x63d4e0b99faf64bf; 0x7663b2a3e8948c84; 0x4256a205e594d66e; 0x21c755d690e3b975; 0x5ff21d90137f4500; 0x533a297e3fecfd17; 0x53580b7b25fef6c7; 0x7caa3d73ce6a7839; 0x9113c6860e83a7c; 0x56ad3e325420a8e7; 0x5604bf485bcf26b3; 0x39436fb45fbcc504; 0x3090ab7971404daf; 0x46bc375588efeb93; 0x6ab0a4d25fc89b02; 0x13511db9ee66ee36; 0x50aa41e216926857; 0x1d62d647ac5ac64d; 0x5dfb7264d561ab14; 0x5641e452de6aab62; 0x463a59dd7e5094ea; 0x251ddf954cd0a15; 0x161986deb67cb523; 0x3de870a1f87bc173; 0x653b533b591f16b9; 0x14250fb6dc26b3c1; 0x11a806f4c5d9d47c; 0x4b8850328974da58; 0x24aa5b44f7db3900; 0x7974d6d2d78ae198; 0x2a0f7f2676d159ca; 0x139072f7498a057a; 0x7527a7924c413b4f; 0x6961ecb35168a672; 0x46aae56be14656cc; 0x499dcd6842db6b6b; 0x7c1b0ee769ae942c; 0x131f3f8dfb95e408; 0x11d09d453ac876a9; 0xa3014bd3ab131bc; 0xb1c91acb9d203a; 0x23cb93b75ec422db; 0x3b0210fd9c42ca74; 0x5bdafd9acb42ac8b; 0x5200c3bf1c564697; 0x5fa6ec7912d919d8; 0x5229c1c8ffd4091e; 0x1f0e9bbcb12526d8; 0x760cc8ee0336f221; 0xe515d98c3c2ab60; 0x2d32d464affbdc04; 0x493e0f9c2b1e8535; 0x11b70c9af87e4f32; 0x39961f0f87635d41; 0x5835ddcaede31d03; 0x73c0a628ff79d0df; 0x19ba8328c1240c2c; 0x2db89c0a4d3a734a; 0x4be68b09cf554c39; 0x51bd8daa4fe5adab; 0x55455024ab5bb83e; 0x7f5119fe68cfce18; 0x1962086ff126434b; 0x28fd2c14dd929fa2; 0x6a31540e0b01f4eb; 0x6d7a2de3a2a838cf; 0x328b9a049f67a391; 0x4ff6e2fbfdc6603f; 0x51efcf75ebaedbb3; 0x3acb919bbc8fce3; 0x4f13c2ca68b6b82a; 0x5b74568b787bce62; 0x6ec7bbd464bcca42; 0x7663c4192f3db4f7; 0xe3870ec1510cac; 0x1e317b72a214a474; 0x59c2949ddd37849f; 0x671f0c8faae15ef; 0xac43e4fda152992; 0x3722b75ffc39d679; 0x3829b47a0df17f23; 0x4ae1e2d22ca983cf; 0x70572e7a6063717; 0x3d56788a315e4926; 0x5fc10d23560e36a6; 0x4be688f44d02a1fd; 0x781c4143c0df12a2; 0x21a29ea549a6f7b2; 0x1d9d860a2f8ab9b; 0x68e8a5f3f518f387; 0x527b7185a767442f; 0x203fa02688eaf2fd; 0x291baa4ff7b48875; 0x5bc889c44af96b80; 0x69ce89edc28b00ef; 0x79220a0578656abb; 0x6cd91217319323fb; 0x42a6aec0826ba123; 0x3a9750fd57504aaf; 0x66afb5d7134c3129; 0x126569ae1efb2c9f; 0x6885584e0f0a796; 0x52dfcf06288fd0b3; 0x6367f84dfba3467; 0x4a6b85523d4af29d; 0x2ea6f6ba61b217ab; 0x366e0534423219b8; 0x767c1c6cc614e404; 0x38deb64b2993bc6f; 0x31e8e0511c0909ed; 0x6f5695025e9bf9b9; 0x3018f7653409315b; 0x6b1bd0c4f02180da; 0x359a91959d7eb74; 0x7b0f41060922d3ad; 0x4816bf2cc6f7286d; 0x64fd66b9c95f81e; 0x49adaabe9a714d69; 0x3af2a49d957e8a0d; 0x70b5936a4259d3ba; 0x5bebf285be53d37; 0x7f3d97c148f36ffd; 0x6c89a1359ea8a602; 0x3de406f586aafcb0; 0x36e04838e57e617; 0x13cf7eb699b574e; 0x398281d97899efd8; 0x7c7cc115d5dcc99f; 0x11b6bd555555ffdc; 0x19aefb0d25479e05; 0x57edfa36c12f539; 0x700ce8c09276e312; 0x97ff56145a27363; 0x2e5206db59e5f2c3; 0x32b85eee900eb555; 0x3f0906db1116e32d; 0x3ef4f3325adf532b; 0x868ee9ae2b8417d; 0x298b70e6e0e18663; 0x7bb3512d31a8814d; 0x29f6055e0292a846; 0x60cf1cba0e843e; 0x50786b887d0c77ce; 0x6c3c4ab9c332bacd; 0xbe69782b9b949c5; 0x2da0431b0178e14e; 0x5cfda6e33157e1c6; 0x3279f92255ee1384; 0x70dcd34a04c9d1eb; 0x1be8587a3ff3afca; 0x360653aee542547; 0x196b997c0124bd31; 0xb1687d2267214f3; 0x5c64a719d922a2e4; 0x24b00a54f4c0b21f; 0x486e45f9f5ac6821; 0x3b6726223828ecd5; 0x713001dc99edbfb9; 0x41e562446c358d04; 0x3ab256ba375a8088; 0x2ae96b4eb92115ed; 0x1e92fbd35fa9ba55; 0xc6f6aeeed4f7031; 0x3af7cf756466254c; 0x6039df522414cb39; 0x20e34a60a532aacb; 0x2f61d9ab8655e12f; 0x2d4b39fba0a438ac; 0x7f85da169feccd91; 0x14205c74f57632d5; 0x192fd7fe490d95ea; 0x1feaba00b914c3a6; 0x4994dafb0610750f; 0x7aae2ee8f22a9900; 0x5a5e921a98990307; 0x60f91981b945dec4; 0x16df7a90702dcad5; 0x632cd62b8bc572b8; 0x3828928e9fec0da4; 0x388d13cc272d1e51; 0x96afa97ce259874];
   [0x6acdf06dc5ff33cc; 0x46865dd787dc5b88; 0x5fc009d9fc96adb8; 0x49106c8149c5e360; 0x5bc2c45f6a413ba4; 0x7642fe50aa17e21a; 0x4a98be91529e78d6; 0x4ff90190f8f193d6; 0x1fc4e64e02d26d96; 0x6b534e2e678be65a; 0x399d4cfb8fe048a1; 0x18fcf034175a3f7a; 0x9ab692aaef0b2e4; 0x31d3c2e8fb3780fa; 0x1684be570b3f498c; 0x27d5eb41df707500; 0x59f73dcce1b359de; 0x7a65cae486781af5; 0x697f93b28935be8f; 0x257577c47e565ee1; 0x50939259032a566a; 0x6cb6cc8cf1e56e7; 0x1a896898885eba8a; 0x4d4bef00a4656d64; 0xad13c271a6cc522; 0x5e1b2772576650d3; 0x1865633fa13c1ebd; 0x6f1c2ec22598669f; 0x1e8d03d8a550bc10; 0x7c493d751ddc16aa; 0xe97949af120882a; 0x157b9da2c66cd77d; 0x40d22773048bac7f; 0x4ad756895e43a180; 0x7fe7495cf1b19c3b; 0x2b4ae06aa921039d; 0x7229ad773b0cb228; 0x7579e4a4ca87f879; 0x68caae68ec8a2372; 0x3d063be717793831; 0x70d3e2268d75ab0c; 0x77f634597b0c8731; 0x62f4b296ad686233; 0x3339e94d6f9c7bff; 0xbdfe76bb0252b04; 0x47004bdb73dfee89; 0x4aae324f2d9451aa; 0x9c8883ddce029c; 0x546ca27a66eaf85d; 0x115f1906d971dbba; 0x10316a88ea2e9873; 0x541f13e402c7c243; 0x5ab45a5412414d68; 0x24837ef4dc79ade3; 0x3f725ca9c27f34b0; 0x1f806f9689958b2; 0x4006a1dd3e332603; 0x38fabd8a77baa50a; 0x23cf7b63ecba817e; 0x52ef1c7dacd4856b; 0xa2916352b0485d7; 0x5356dbe54daadf44; 0x535887d67e0a4782; 0x2351a86b1403f16a; 0x9bdf4c73ae2ec31; 0x58eacb54b5f91f27; 0x20e89e56622dae36; 0x7e6c3326ddb56440; 0x7ca3b962cc5f1065; 0x4c67193603dc2941; 0x182a4557c99b754d; 0x5824865f2b568b73; 0x1399e986e5cab305; 0x1712b1261d9a757e; 0x5d6f0925c37a7faa; 0x5949b33c3ea2c368; 0x183945b0ba120ca9; 0x4130bb9a1adac1ff; 0x53e26daec1b379ed; 0x4ba683acd445860c; 0x86a7e875439ba14; 0x725c9b0c431fdb94; 0x6b90f5b9081b790; 0x251979c235502d6f; 0x5574278a5a98b3c2; 0x4c41f8b0475c12cc; 0x10595c2b1ff13ce7; 0x47cf3d5a29d5bb90; 0x7930a7f14778a47b; 0x7c5159d56090a7e5; 0x5408f5ceca3a4731; 0x3d1dcf656cd1d5ce; 0x2613eb44e1828884; 0x278cbcf14f0cfaf8; 0x76b0861d54cc12c4; 0x52918de59b75105d; 0x70aaf16cbc10fd58; 0x3f9c5869c47110ce; 0x6188744cdbdf3227; 0x1ae08bf16b643447; 0x2409e2b10df1ca2c; 0x408a3be8c9d63a73; 0x67bff2fce48f2fab; 0x54387a556ad4416d; 0x52c44bcbdf0baf32; 0x2680e8f74c379624; 0x7a56250f247bb4ae; 0x5c877aae8a6510ad; 0x4962331e4fff7f11; 0x779ed2dee2c905d7; 0x446cf695062d7fec; 0x64775a4f0546b295; 0x7f2be466c964e0d; 0x39614473dbec6a3f; 0x34d9b946c4ef22fd; 0x124f2ab8cc5225; 0x14a20ad18dd821eb; 0x722b81b294108616; 0x2084fb5fe0a30f75; 0x176be3002ad582cd; 0x1f7e65ff05b703de; 0x7c231fc5edda5b81; 0x4af58f08f066d1a4; 0x11bfe2553895009c; 0x416ed38062e6bcbe; 0x1a85a16ecb51334b; 0xe06cb57e22ab1c1; 0x671e57547e79fee1; 0x72f61e684c263e69; 0x3ea21156818a8150; 0x4706f5f4aec75605; 0x3b3f36b80ad7264b; 0x61b01ee86bddebfa; 0x235205f645934ab0; 0x64d9c5491336f9; 0x19f999dfd3c06ecc; 0x1262b00cdee26ebc; 0x52713638afd10cc1; 0x7ee8f9c8ee5322c8; 0x76830b44373c97ef; 0x1d73dd93e109641a; 0x960907cd7ec44e8; 0x366de0bc9ed631b8; 0x763f0acdf4c30dca; 0xfecb62ece390b9; 0x53c5fcec3767052a; 0x20d10403d6866431; 0x269e5fd7d7d350f5; 0x61e8a91ce39a2160; 0x2899d0244e2bb07; 0x3fbb37d622a441d; 0x13e695a71b48c406; 0x6bb1a12ac8a1f8f9; 0x6aa32fe2c763b177; 0x64776c87e0b74d5f; 0x4dd4959b7e9d3fdb; 0x415cef739b112838; 0x2a12e6a010936be1; 0x4d9c616a98af00ec; 0x2d542ad7a593d8a0; 0x32b8d974ec5a9c88; 0x19b0673b6efd7bf; 0x42f9329b1c22e6a; 0x1cd6c99753f6d111; 0x1d9e14b6b4784afc; 0x83b144584333f2e; 0x6df18ca24a5646f7; 0x5a4da85e4113911b; 0x53a1056aded7e20f; 0x74178b5390644c90; 0x401bf030e306b553; 0x1835d5fa1ea2eee0; 0x1719f0793a3adcad; 0x4382a63cca841a5a; 0x27a33bd30438c74; 0x1a62d630834d101f; 0x7028732b7893d8b7; 0x24023d1be305593b; 0x20bd47b28e3069d6; 0x6cbda5d8aa983380; 0x190aa71ec90e35b4; 0x7bff95f1bdb15a47; 0x637e81b64f9fa64f; 0x21abd28836f52b85; 0x7bd6dba8d4d69a6; 0x42ecb20c458644d4; 0x57c110e2c4a6a39d; 0x79024aadcdb83214; 0x36b4da42f7760695; 0x108d39c8aa786b85; 0x2bc78a5061ea25bf; 0x479969770ba9b4c8; 0x6b5c2c6d444c0de0; 0x355b909c5d44b33f; 0x68cb8950e3b82cb; 0x4d003ab4a926da34; 0x78a429327b7ff09f; 0x33dbfbec3857010; 0x2344c0ac94acd274; 0x611fee49ab7153bb; 0x52113eccd9b2a389; 0x1c717b375da592ab; 0x52744c117ae62fd2; 0x12a9a0171e4e7f58; 0x3889eb7ad98c5fac; 0x2c389c92427acb5a; 0x3cedef98b038c89f; 0x79546e64bbc1c99e; 0x29c46b373cc7d83f; 0x1994e31da37fd1b6; 0x5f3c9c55a254dbc; 0x3f7a23a98cb18897; 0x69d521dd3bedcd5d; 0x7da83edfbabf8e76; 0x6f2a9de66bb3608c; 0x76c3f48ed15f94ce; 0x797b1b990f6c8559; 0x4ea085d047d6cf17; 0x1377716cd0f646ac; 0x7612015a73bf38f6; 0x2d25d303dfabbd92; 0x92f2ca2fc11cbb; 0x54f99dffca5ac2e; 0x2b4b8bf2de7de379; 0x5d51baaa198488e2; 0x26d13ad41674f951; 0x15c707653b4dcf5; 0x51ee7c1cb2544004; 0x3675bf2875fbc645; 0x26b538d86069547e; 0x4661428435273dbc; 0x7213ad2f38eff2fc; 0x3c71ad6565914358; 0x587d29c2a6922993; 0x5128a5ab25b30650; 0x4f54037cc83e6500; 0x221232bec25153e; 0x5322e8a328ca95ff; 0x1b499fcbee4a4d14; 0xdcf477a866b344b; 0x3fa4e2be36a9fc7f; 0x54e1e7e1c1eb848d; 0x267f77a0e4c0bf31; 0x480d25b5a95145ff; 0x7773b0ad11083fe5; 0xb649ceae6647ad6; 0x5b1665ab41037d8f; 0x3c0cf8fc72407666; 0x20068065ead7a1be; 0x60e533197a818109; 0xa4d9ff349bb5529; 0x6545316a051e0642; 0x599d90bbbdd50f34; 0x51908943696ebedf; 0x2dee6c3a883780bd; 0x554abe09f34157c0; 0x3adcb243492a4dba; 0x7ecd64a09127e9bd; 0x74f4ec7381a09354; 0x4a7cf4434e701d4; 0x3201e3efeb1389f7; 0x1ea1be329ae58823; 0x2115a2c409eb8880; 0x2368a05a1a4d0d9f; 0x7c7103d1d9cc99aa; 0x11a61f1cf31f1770; 0xf77c9b91e2d297b; 0x4f4a27bb17e282e1; 0x63b2131747e1f416; 0x1cff2d4471d7dcf; 0x59840860d315885c; 0x6fda461ae4c13bcb; 0x545025bdeb23feb6; 0x3b1b95ec1d9cb487; 0xd4261910764facc; 0xb86a7953c4d5007; 0x319391576ee5093b; 0x6e55dafcc93767f5; 0x13ef556b60141621; 0x5eccde643d231dbf; 0x47d95aafb0986d51; 0x5419ffcd95b3949a; 0x3fcb27e6598b3775; 0x26f8b17c57ee067a; 0x4130b55db2e58c28; 0x4236f4c6fe56d7bc; 0x40f5d91cae9f739f; 0x29530584c525652f; 0x32710a436bab989e; 0x5090b3c05fdc88ad; 0x6609ca29b2d4314b; 0x750fc5d203ad0ee2; 0x2049a838cbec5093; 0x610c6bed3722f4e6; 0x33c3b4882f0249ac; 0x281421e11265a2df; 0x3f9134e75dcb5cdc; 0x48ad47816fb860f2; 0x1ca9118332130020; 0x44163c011b5eaaf; 0x708b4cac415db0fc; 0x64c2ecbde8633275; 0x29ccc58fe6dfeaa7; 0x258180088c475915; 0x26a6a99947ac7976; 0x2da23553d04ca6ec; 0x7d50d58bb1c71df8; 0x3b7ef06143c42029; 0x6b51d3484c3cf6e2; 0x234bc58456185759; 0x47a30084dee977a3; 0x7688f4414ae80d63; 0x30d3da50cd173efa; 0x6f73f6b720e1e38c; 0x20dcd40dd835c83; 0x4e0a5bd28c233efd; 0x7f19372c2b2ab7d];
   [0x6547a15077a00e2e; 0xe7ebef3de7d5744; 0xd98ecfe1e152635; 0x5db30877073091fc; 0x1eed388080002e3; 0xd4a06a7ade45aa7; 0x1779aa50a34f30a2; 0x6db568c7a57a74c5; 0x33661daf17fed5a5; 0x2f55e42a1c1a47fe; 0xe90ca89fc5fdaa5; 0x34c24c7a017fb6e; 0x48985a05150d2aa0; 0x4989c2573afc972b; 0x63cec9020c90cfb; 0x1beac56e649e455f; 0x30a6fed7cd49e4b8; 0x71dad08c7f3cab85; 0x2b2fa93834a91e1a; 0x131a99a16387d122; 0x7e52fc3b954b4230; 0x62b3b025c8937861; 0xe9dd868efd673a2; 0x434b835605d4432f; 0x60949b66191d3d35; 0x7ad6c10b23f4a74f; 0x4868f9656d56571c; 0x62175e2a2412413f; 0x68200bd4cca0003b; 0x4e12ec818f5b1af8; 0x5a09602de68d53; 0x43c3588cbca57ca2; 0x4030bd1deb138d03; 0x46cbe081a280fb1b; 0x363750cd108ea32f; 0x136462e258245f9c; 0x7633955587c10ef3; 0x729e824516f1f28a; 0x58f25d1c43447ac8; 0x6b4cb74d15cb0963; 0x1973eccff2363c14; 0x5561d263d1f17dfb; 0x467f494140599116; 0x40a7611c4ee0a96f; 0x2ed7277dffc1a7e; 0x106c801ab17e107d; 0x394b30e970fc2ada; 0x5162403f60a8c3d; 0x50e93146201d6615; 0x76ec5146def4bad3; 0x2e0bb5ed809cc020; 0x3e0d76999b033d1a; 0x2e9d7321a160bd91; 0x6a091cb1a941b336; 0x716a584046591f84; 0x4f8555c9ba0a36b0; 0x34b2cb387ec2c795; 0x72a9925aa6a39333; 0x711569fca3a76ad3; 0x7e35bfae9690b304; 0x7c4a3668f811608c; 0x31f5621cbcbb5c65; 0x1dcd1117e751dd1d; 0x167408d536b13c91; 0x705284bf2a5c9089; 0x150f75d1b8bc12b0; 0x7854a257213b0659; 0x64359a19539db3ee; 0x485f8e4d3b4bb6c9; 0x4f6eee77e7768d99; 0x19026955f5f1643e; 0x6573ab7cf6f40f27; 0x7a0a016927555a8c; 0x769e8265397562e6; 0x12fd336d73c59f14; 0x743185f28b49ba87; 0x60a46b349784fb98; 0x58526d8d9971a666; 0x20129dbbc3ecfa89; 0x2c1746863fd8d85a; 0x72d95a53de5a8310; 0x37bc8966017878f1; 0x12ba50114ef574e3; 0x69749978229309ef; 0xef3b3f397da4e27; 0x364741020a59a0ae; 0x398ed8924ab1a74c; 0x794df055651238b; 0x1da7954c5c5e5bc1; 0x44e94c0325e338c; 0xae315163fb41ada; 0x6f69fea135a9f4c5; 0x643563d330cf25e7; 0x568bf0df8187dd1b; 0x1030fdf5faf3794d; 0x6157d9cd3a6dec0b; 0x6bd0d9c1ee420b44; 0x22c0287bb3110293; 0x50bfc47440410310; 0x1f35cc0f36598ce6; 0x263b15c7da70f61; 0x99b5e16ed0c5c1e; 0x1ee8de9aa5217766; 0x2b3323fb515b92a0; 0x6d4280ca07154b58; 0x406a60380f80cce3; 0x6495a097dc4b1093; 0x73fe18ad31b703e2; 0x486d7b7470dcba09; 0xa7488c240d45ae4; 0x7981185bf921d517; 0x4eca2762db4c72cb; 0x17d569ab48a2dc34; 0x1552a3b4ea598554; 0x23185581c01d69bf; 0x113ee13d1716877a; 0x1d745f674733ffc2; 0x37a18e7df756b170; 0x434e9751358ec105; 0xef78bf38136b146; 0xc3eca055ff08c0; 0x765feaa790eda221; 0x119636a67f781fec; 0x66b32c8c46fae77f; 0x472ade3d007f0d4; 0x479e454f3d42eb01; 0x64a5ba0f04b37bc; 0x43efbc5d0466b773; 0x1de890e3f96d038d; 0x1da2823d82f220f4; 0x5ede7fca55ecc661; 0x7a43cc19e9e21af8; 0x5fed00a0eeeca293; 0x3848da31f54e8c1e; 0x6798fad5c0d38a8d; 0x3104483286688492; 0xd73fe57a2d06c19; 0x28764011ade3b4d9; 0x39db8548e65b99b3; 0x54f952afa0f4b65c; 0x559bbec207dc6c40; 0x3679add48539b577; 0x2a1d76b8dd9e0de5; 0x4ca4b44d8fd1face; 0x1cdebe73699a6f83; 0x3e946d860207637c; 0x9d48b8121eb0be0; 0x3c82c572dcd28ea4; 0x6a8d42455046b994; 0x56cbdd60ad040c; 0x3bfec9a2ec2ca184; 0x5ce1bd88b01d5f42; 0x707ea9b99dbbaeb3; 0x69677621dfde7133; 0x464b61dbdaee9ef0; 0x473b9683af8c9e0f; 0x55c2d699e31c2e54; 0x5ea7dcfab9ba68af; 0x208d50d0edfb8aef; 0x7dfde822e12b3e74; 0x1379f17767d702c; 0x2a00ad648ba433f2; 0x20f893cad1208c89; 0x305c592f2f188961; 0x614fab2d11fbf8fe; 0xc453d37cbd34ada; 0x2b9d22c02e30d993; 0x4aa6714890a06a8f; 0x695a35608c7f1116; 0x44dfc1f272ac0652; 0x7403e9d4813550e; 0x88f1f0e5f1d9657; 0x4ceee334c15b4795; 0x354779d7f5207c34; 0x515dca7aac58ea1d; 0x3d67889cd688a18c; 0x77044f8ff7bf0a4c; 0x26b0d568df77ebc8; 0x3a325820761dfc7e; 0x7422e00cbaadd176; 0x145569c8110ee8b3; 0x495774353a8db1e9; 0x1e84889e68b54c11; 0x176878f28afdc8c2; 0x453ba76bb0d53f03; 0x58e139ec600b812; 0x2f265f1ff5e82c32; 0x45abd111f6d7433f; 0x5b2d3572c9938692; 0x6b3593d39e49af37; 0xa107be1506c42ca; 0x38831bf1388e30de; 0x1ea340a6661fb097; 0x5a1ee70152b6c694; 0x6add44fc204cbd41; 0x428053611cc27f1; 0x4dbc89b91d21ebd4; 0x7a47b5154436aa71; 0x3460ff4618462360; 0x159330abac9da6ba; 0x4cb83766d73e19da; 0x7f39126bd010bec; 0x46a14be25a2d4c0c; 0x5539ea344eb02f93; 0x5cdf933ce7a76078; 0x2af05e51a2816543; 0x44be2360f51a8cf6; 0x2c7428b949df1fbb; 0x10840d9b7a31dac2; 0x603b40f599ad73a; 0x6eddb865ee3500d2; 0xdb8632a613c904; 0x4500f9c255208fc1; 0xea9449ad6469b2b; 0x6e1bd4396653f103; 0x56301aa27f50a0e5; 0x2bc378eb65752fdb; 0x547f77411750d93f; 0x54437d0d4484d6c; 0x240921ca06de944d; 0x5aee2485e015a1ad; 0x1f20670132c015a9; 0x7bf5f2984fa8688; 0x2756eaa915666cbf; 0x787cad1201339a17; 0x2b844cd5982b05ee; 0x5819852c2bccbba6; 0x7d5b274bd3cbc5b7; 0x3efa960cc5632243; 0x342c75cca33a0e82; 0x56b939ed6f4430d9; 0x74b11897e391e110; 0x3564756d73c66144; 0x49e4afadd4571e83; 0x4c2f7995c6acc405; 0x4dbee9787daffa70; 0x213457ae80f81469; 0x576558571fd19986; 0x1f3a3fffe44a132d; 0x7d10c237c5335c6b; 0x369d17750715ec6a; 0x7c5c4d333da1f865; 0x4b77ee2f9dc052ef; 0x63c93b02a154b9b8; 0x22ec3e0d9ad544f1; 0x62b229e6e4a7612c; 0x2523412b7a7944e4; 0x6d5ffd4dc42bcdbd; 0xaf7c1973d826c8; 0xd2cbf428a358abb; 0x1c5ead6680d57cfc; 0x51d45254fb096171; 0x6482fae15d64487d; 0x5f416d54175f36f3; 0x5945d7217b8a253a; 0x1ec090ae89582b79; 0x85208fd396b0def; 0x4bdb25c45a38cb82; 0xd3aea27269dbcd4; 0x13100dd79ee6c6f1; 0x7eecdcf77d88f9c0; 0x2bb44361a5e83ed7; 0x59c2bc9f66d33e94; 0x43626bd234714e42; 0x58913cb263a827e0; 0x7ee352230c522bc2; 0xb0f04fdd95d08f5; 0x9db9148fa3629fd; 0x307ddef9bcf5fd3c; 0x54efe36be0717e61; 0x604518c4ed16a073; 0x154eab31352a8fb7; 0x68c5a3c0ea65760d; 0x1a6ad122751cd881; 0x1f226b285d60eebb; 0x1ec5ebd7de25e9f; 0x21a8d279ac64353f; 0x359d0ff601b53677; 0x5a618cea30e614cb; 0x5d9d043abc9c7165; 0x24cdab5912b79d07; 0x2851089d04e7b0f8; 0x4d9dff5bda8372; 0x72f0ef8dc49fb64c; 0x52f78df3dfcbc81f; 0x44522f06866cf9f7; 0x572bdd028370198c; 0x5a0a028ed948ebbc; 0x5fff58028e92163b; 0x26470acec657e1ac; 0x23c6b7b1d68477dd; 0x602af815f0141c35; 0x1b62e12e8e27c7ab; 0x3b724ef9aeb9e07f; 0xf804bcd3501fba4; 0x360a0a6a10f2f6d3; 0x5c8e2511904efd3c; 0x29f9a24a4ca1aca0; 0x2f7978f6edf4ea5d; 0x16d36d72a7e4dee7; 0x56ff2fbd6541f02d; 0x4e11a0be70e4ab4d; 0x74dbf9bd7072d884; 0x1c96640e38b94ca1; 0xd23d3af3a2d816f; 0x4721e8168e296e0a; 0x5c35e7e9a6ac280; 0x5ca7166c6b2c622c; 0x1e8bc3b8e1ac8b16; 0x570c9f40561dd6f0; 0x73966e932c2f613b; 0x77e3e17fac9c83dd; 0xb5188927e1794f3; 0x7179513cfa01444e; 0x7d19917b49dc3d0d; 0xe184e1f74b5eff5; 0x3b64fe601d5fa3d];
   [0xc49dd92a5913f20; 0x114c692dc34c1b18; 0x494d3725f3f8cfbb; 0x4784fa71d165fff0; 0x3fb208f6d1c28753; 0x1986131955291292; 0xecc1fccd9afb50f; 0x75c79cd52d4e0be5; 0x1d052e2de196fc38; 0x5da71e68ccb53e63; 0x2f7fde062efb6a7; 0x5cb9e43e7be9898b; 0x52acd87a46ff2cf2; 0x35df8cff2653e30c; 0x691c5f02720ef8ae; 0x66550fcddfe386fa; 0x753b6c8b22cca638; 0x575895e6f28c1b4f; 0xb801d45fc6e64b3; 0x36bf8f7364b98cfc; 0x21e7c3048a4896b7; 0x289efe81e9242739; 0x449547ea2a24b020; 0xd85887bb4c5c269; 0x1d8a076dbb3e73a9; 0x52a3541acfacf829; 0x13ac4bba2d9fd285; 0x15447d9359932f19; 0x13cb4e6a4ab481ff; 0x702dec43998e7e8e; 0x641dd4559d253bcd; 0x5a3c804833a4613e; 0x3af991e9032149b1; 0x4af15309fc36e4a7; 0x55ff147973b27614; 0x72fab258bf36bf4c; 0x1cd4bc9879d9233a; 0x7236554af8196a98; 0x8682dbf53b2e18; 0x35254df943480f36; 0x22bd4c2c0fe30503; 0x2c0a7cc14769c235; 0x4e2f796157140f3e; 0xb0a59fdb82d1b21; 0x517b36f7b4e377ca; 0x45d1c95a1469893; 0xe36cdb95026cb3e; 0x77c7a1fa3d8190d6; 0x1d00e41f30b744a3; 0x7b576ef1de5dc30e; 0x53ae319c2ab73ce7; 0x1c26d4f858a45353; 0x99ce00990340358; 0x141dd053b32bb395; 0x24e5c122e8ac9cd8; 0x356f6fa70a0f115f; 0x32b22575dfddd7a7; 0x119ea035b93089b7; 0x6af4ba9583e0aa23; 0x3fbda89922362f36; 0x78f40950042c5e01; 0xaa83af8a9447418; 0x328ed71e4a44c923; 0x268d904d3fdd323c; 0x187b39a57db55f90; 0x5f0d75d5b67a7b7b; 0x5746ba8da8f62969; 0x1d0d458719967df2; 0x5e697a9bab44799c; 0x3b1416b9a5c0ba4d; 0x7297ef9307e5fab7; 0x288a9f08e0d8decf; 0x74bf60fd13faae9f; 0x4fbb593d45b635eb; 0x5c481c5cbcf40cd; 0x24d7e0e81274585f; 0x26165a213e13cc41; 0x4d6cc3efba6b96d8; 0x1d9b91c2c863b49b; 0x129f370b6e1728d0; 0x2aae46c24b4fd8d9; 0x175eeefa09006ffd; 0x9a1d85332ff1025; 0x25a5e04b18361984; 0x39b4f4110a10f833; 0x6e168b4ae590799d; 0x5fb417635c029433; 0x4b845e8d7215e40f; 0x1c3950b9b31aafa1; 0x6e7e76f468a7c80b; 0x2a565720318fcb65; 0x4d207afc7252d400; 0x7081e08335a1e649; 0xc5bc7e41e4209df; 0x74e684bd5d75f82c; 0x16ee9f05e71846bf; 0xd145c2e44051872; 0x2461894c7b65bd2a; 0x60596e4a293b1818; 0x2e98ae9ce9944e45; 0x3bfbe042a83ae869; 0x2f57fdf52ef0f44c; 0x755a2e900e8ffbec; 0x36ba47a0b8d7582; 0x341c969e65c56d07; 0x712195fdae393845; 0x1ebeb50cbcc0f72e; 0x73dbf1fae1f9ce47; 0x57f46c2acb02a4b3; 0x67648ea02d31e9c; 0x2ed27c094c847112; 0x248a346486717d7c; 0x57e52c4f861d5625; 0x2ebf223f30ad52d8; 0x1e14501359f30cfb; 0x5f56ebbeec08664e; 0x30ec8ceed6c30062; 0x126872b28b59d807; 0x7267972db5bc652d; 0x7a4940e262543683; 0x377787869292eb89; 0x7fb5ed477d210a60; 0x5c74016fc604a666; 0x7a323b2c553b3b16; 0x70da710a87038138; 0x31c7a6fa716e2dd3; 0x34164a31892b7f84; 0x21492d8fc7932cd9; 0x476675061df7c939; 0x79ffedc474f755a7; 0x62508b15e63a6295; 0x5d37be3150dff152; 0x586a6dea8d44a85f; 0x18122979a7561100; 0x67335a453161a07; 0x9bce53584653741; 0x7fd56327675d8f5c; 0x227337416cc1bba8; 0x209be34495bece94; 0x767f295190329dbe; 0x2f77002d07528d8; 0x7c5603e5aabfe708; 0x158a4b1a21cf34dd; 0xa904f4c9cc1da36; 0x6b24b90be39f01d0; 0x3db1a38de381f0a8; 0x739fdf2b35c286fa; 0x1f2e6ea1ba921afa; 0x33dce377af472d7d; 0x25c3310b5a2b4e7a; 0x13d7ee16177e941b; 0x4d204bae1fb1b7c4; 0x26e4648f1c6e5042; 0x7c4db867ef65a50b; 0x769c49eb5604c9f5; 0x31cef54984c4b877; 0x2aca0ef909df6e9e; 0x3ccd379dc15c01bf; 0x4fe18ac93d02ce02; 0x5cafc5fd8013c69a; 0x118ec85421b85e38; 0x122f114bf96a3e79; 0x40dbbbb95952cbc7; 0x64f18266609f76f2; 0x7c1cdd6aba9b17a7; 0x48fbb579eea4f85d; 0x2409b991de3098ec; 0x5e8bf14e20ea107a; 0x433db6f5d1ee91e4; 0x67b0b60c432ea226; 0x49564df5a348bfb1; 0x280e6b2fcb568cca; 0x272029a8a30b275; 0x51db4e175c550d8e; 0x794a0602137adcd2; 0x397cb3087f63508d; 0x1853fd1db90ded2; 0x49ab79ba904d6093; 0x32e6212f33b92546; 0xe56ad100b8b3e5b; 0x4096e6d32bc5155; 0x904f84e8352c257; 0x6dc5c747552f0328; 0x27cf3761217ced3; 0x225c344c02ed6f31; 0x79eb61feb60c7282; 0x13970e2b3bb7a65e; 0x135424a283767f0e; 0x225103fe33ef203a; 0x1296e1c14ef00896; 0x15db44f7f06de5ea; 0x4d70d260319afa4c; 0x280175caa42a4b77; 0xa5a6e880d0908a5; 0x1b13050b9594b88a; 0x8cbd9ed7a479b2f; 0x342c87de3ced1179; 0x34c28a0c3e46e98a; 0x4d4ff204e364eac1; 0x5b1b80bb58481be3; 0x2a007441dbe479db; 0xf0ecdc8ba7aff50; 0x7415576401e38ea6; 0xeedeac5fddeabec; 0x4ca122a8f316a56c; 0x918f55fc2a51040; 0x1ff8ef850a9cbc3d; 0x7def287bc809c85b; 0x680a6fd16bc85ae2; 0x72f98f0041c758dc; 0x3c0222b4b7ecb0a5; 0xac01140cab76c6a; 0x73a52c1bfc6375a2; 0x552caf1540e0a043; 0x58a475d01a4305b5; 0x17234b8c6d287790; 0x6b59f381b71f86c4; 0x3a1b792e25302254; 0x4fb7e7e98fb3da3c; 0x4d5ac27a00c62876; 0x2111719a4c7154df; 0x127242ecae45447a; 0x3f7d9ade7083d75b; 0x69cccb3ef242ee50; 0x778a70fc0a588b39; 0x1804ee815613b959; 0x2a9ca32b3dcf26d2; 0x345d4b3201f223d0; 0x2d3a3ba9b8ebcc2; 0x5bc5b5a66b8b514d; 0x654ed23d10832bb1; 0x7c1bf474e8f01545; 0x13f2748c14fa3b67; 0x1f4e8bc305262bf7; 0x20e77836dc11b324; 0x52623bb35cddca83; 0x5f5da6b375208641; 0x634530f8f232563d; 0x69c91aec4271d331; 0x3037e646a71362a8; 0x67650f415a9ac50b; 0x31d2d9c69c1991ed; 0x5c69b9c37d2edace; 0x3c16faccf3d84353; 0x7906ee61ebdd9341; 0x51e8e75716eb5d7a; 0x10d325a0f82c2b5b; 0x6511e77667e890bb; 0x1b80e58aecab7063; 0xc2a054339ea6794; 0x29822a8a14ec853a; 0xaa7ad7c563c122; 0x22f3cf52e25da3be; 0x24fcf048acd790e1; 0x36aa1f252c6af45e; 0x450f7accf92ed47; 0x25b867a24015dfd6; 0x434019ca721064cf; 0xe47f08fef39f32; 0x488bfea2cdd7840b; 0x3b43fafed9430aa9; 0x45e00b0121e3797b; 0xfb1c983b51416fe; 0x7689f4feca63ed32; 0x728a2fbbd9a5e3c; 0x5b712fd63ea3bc4a; 0x5ce7350d550e7015; 0x7b80ed45de858bcf; 0x25f6b7c4c9754292; 0x6e03f7aab06d947f; 0x34a7fc0047e37568; 0x2a4c207ae36bae33; 0x47d0821015dbe81c; 0x7e0aa1e61c117959; 0x5b8c81697eec25fe; 0x70f82c02e2aa7921; 0x79b66f46c96e2600; 0x4ecf69c60069f03f; 0x7947faa4aa1bf329; 0x4d1bdb024753a4ea; 0x58049aa931f023ad; 0x6c50138469a9b486; 0x72d9e0c155a0e6b8; 0xbfc668bf8a40318; 0x37272e81c44221cd; 0x7b7367a539fb3e3a; 0x7a667424c6b34d3d; 0x37d5693d25df9715; 0x5bbb460d886010b0; 0x3c218167078383e3; 0x458bf42063191617; 0x383ed68d7fddc264; 0x5994a1beedba8a4a; 0x545b4f73b776d49c; 0x4fad1e18b4caf238; 0x640701dfea7d7b22; 0x1747e9bfd171a90f; 0x3d7cb51197afb22e; 0x4a8f810648c4d163; 0x41d36e36fbf2fc96; 0x642eea7aceb22043; 0x6767e58261a1a801; 0x6a9db3a94cae88eb; 0x3c80549fec3578c; 0x3e1fc2996b972abd; 0x5f334cbc05ce10a9; 0x53a6106d3ee6663d; 0x79b9d2991d4cb6c5; 0x1576e92881466ede; 0x8c8afc632111c79; 0x21f730a17192f2d6; 0x5eb7fedd150edbaa; 0x3a98d815be6fc1ae; 0x76d21fdd72b478ca; 0x5b5678b352a61cdd; 0xba351f78cfc11a4; 0xee1da4240a8e5fb];
   [0x7a3b1cd2407082bf; 0x67a32d4ecdfc1f40; 0x5092849c55cbb906; 0xd11965ac09eef5; 0x12d065de4969a7c7; 0x7174eab4a4caa9b0; 0x32c9e47ec9c1336b; 0x413a47335a9bee74; 0x21b60d2dccb61fd2; 0x4a8506bc3f403f64; 0x20d1396514cc5e3f; 0x7ba1490e615bda81; 0x1864f87e0d7688fc; 0x538235ec6d9bd358; 0x5576d38f70715c8f; 0x40ea34078136dc1d; 0x7282315c9c64bc98; 0x4cdd0fdde1b20491; 0x733f0db3a0eeceed; 0x6f412d4c44219fe4; 0x26e2ae3cecd8cb04; 0x3785043832dff419; 0x14080434b27087dc; 0x5a47e128b6a3914b; 0x78ec3bdacf3d1d97; 0x6e9970ea5e5d991d; 0x4ec7dab8ce9309df; 0x51d4a4af19b6c53c; 0x2ab9ce38202065cf; 0x1c81571feea17171; 0x599ad1865a60d493; 0xfbe8a5d809be29d; 0x61d59c11d09e69fb; 0x1466073fe2714303; 0x214c38638f45771; 0x6f0f1b500bc4134; 0x6dd0e08c4834a8da; 0x3b9f6ae24783a7b7; 0x656f13b2edff03c4; 0x74ff2378d6ffe120; 0x66c36fa6f615ae21; 0xce23815722ed676; 0x7b2e58e93f3f1456; 0x47a594d32ea182f4; 0x68e94cc8be7a64e3; 0x3247cdf1646de4f3; 0x607caa4be3afde93; 0x7c8db1870fb22fe; 0x69b9830caec083b8; 0x62d91ca211a72b1a; 0x76ff35ffa3fc0a01; 0x6bce29aae007f8f8; 0x12ce53c423688cf4; 0x376305bf1c13ee1f; 0x710a2ca44835ec8a; 0x477940572fe83fa7; 0x3dc9df867ed1556d; 0x4ca3e278a44ad478; 0x2652665cab98951b; 0xa76b5984aeca46d; 0x4118a18f463d9424; 0x6eb98f7bd711d1e7; 0x4d4198e335ff6e34; 0x7dc71d809342f59e; 0x7242dbc7fd340635; 0x687ae58d9d923f09; 0x6c2c41ecf2c959e6; 0x7b701fd84d5aca44; 0x38d19ac6367cc34b; 0x2e0b6ce785464292; 0x41700a31ca9f77e3; 0x1683657b6f94c775; 0x259f6d7420249048; 0x7f4424e42869a78d; 0x5dbe4f1fc86a9900; 0xced492d416a83a7; 0x3d4f15f52b308a0f; 0x3e95b3758c0b003c; 0x6c993c81d7209a09; 0x964a5b6df45ed93; 0x79438aadecc17496; 0x299d43ef5b58004a; 0x4d748d7073c5fb7b; 0x3f8fa47188739659; 0x4dda543a8a025ae3; 0x4bcc691a32eb99cc; 0x5eb8888ed5726d2e; 0x2e7daee25c2baa53; 0x23e4e2ab7816f25b; 0x1deb998b8ed79fdc; 0x6add0ac35a531b24; 0x7dc4b0ac10f27a60; 0x52d998bab488b41d; 0x5308f2b7d16e1a5a; 0x3da7f413becf536e; 0x7fc7a01a853b4460; 0x68a42c1d9a176ae7; 0x6631737d7446701; 0x1ced37b0c4456680; 0x34b8710df2beb853; 0x1294e3c9a7156e9e; 0x41ade3ffd2f46e16; 0x389bb2817a706630; 0x1fb55b6feeaac8ae; 0x47b931ed5068f3cf; 0x74106d632eb9146b; 0x2e38774332d9932e; 0x3e52ce09fed71442; 0x4b09deaae9b9395f; 0x7d9290756a58f6c; 0x3ac955776d7e2992; 0x6136d4234e019505; 0x1a6564d03c947a4; 0x23541a83263bd044; 0x57688538a77ca0b4; 0x26a1a2a7a5bd8618; 0x78492ecd047cbeef; 0x326a91e83b9c2a2a; 0x30054086329e94de; 0x12b34cfd098ed2b5; 0x57b9eec3be57581f; 0x7f362636f7c3df2d; 0x5866bf76f8335bde; 0x73776d0e96f7eefa; 0x712a1e44f2934cde; 0x598629ddb0560b01; 0x7da87a6f22f98948; 0x1204dfa6c8a9749d; 0x2cc4cda657cfda88; 0x319920b6660d09c7; 0x2ac36de6b67d5bac; 0x7e521ac37629c142; 0x424d2f96ae16e738; 0x4ec220c92abf87b9; 0x6748481915a755f6; 0x549bd3cc14fe0b58; 0x1aff670724797eb6; 0x670b253ab0e0874d; 0x1ed0f2a45c8bfb5a; 0x6cb5118e4bab71fd; 0x401016b43bd2abc6; 0x15f46989a5b0e401; 0x6cbf03068215b194; 0x2221ab10085f79; 0x39590d5a81eadb84; 0x3f77a80fa23ac5f2; 0x7696aee1861d712d; 0x15a5b757ba2f11b7; 0x8881a43e06af978; 0x48c9313323c0ef93; 0x7101f346c6ce46b9; 0x40e9d91604d37f4c; 0x31fcf05eaa4b8502; 0x31f0f1dad91370f7; 0x2cf787d23a22fd98; 0x219a8b6c475c5470; 0x36111810c416c7ad; 0x4566f0627f2134cf; 0x6b32775b47ac3280; 0x3dafd8f6967586c; 0x5d81b55d50197c43; 0x3f1c0262c3ffc16c; 0x1e0a849fd83a863d; 0x6df555cdddc6bddc; 0x4255a9a02e539f29; 0x14507bb123f820ae; 0x66d2cc53ae4f9b17; 0x61e06fd390483042; 0x263b1ab5f8d57b65; 0x66950dbb52159f29; 0x7957c21486db7e4d; 0x37fbef5aa89a3724; 0x310fae29df6c99c6; 0x4a17dd428a2ff901; 0x36dc9b959597e02a; 0x4ce0bbb669e3b710; 0x261bc6aebd86ae01; 0x20c21152d05b5f7b; 0x7c497603541831a1; 0x4574104f0d2fc508; 0x1c53f42f36e9045b; 0x5e445a078b82c33c; 0x173636576b04a2c7; 0x5b1de2f1b2576fff; 0x43ab8c3a273ea086; 0x5208fc58e425b456; 0x57a0aef3c9c0c747; 0x67cdc25fded43636; 0x3dd9fc5c8920979c; 0x6cff5307b154bd5c; 0x25fce06a67eac15c; 0x7080477ea06c96ce; 0x3205e1f7eb57486b; 0x66f7d0434817b7d; 0x422a3147ffd2f5b9; 0x16e7b79f3b1f6f2e; 0x1d1c04a1c6b766ab; 0x3d440b5443343f30; 0x9013832b4a0fc1; 0xbc51f5af9791cf1; 0x789c085b4beeb69b; 0x2610ff47331072a0; 0x66d1c162b7373f2f; 0x2d468c3ac97e7fb; 0x3d9056473a933d8d; 0x1637f4a3f5d6c1a8; 0x3fb1df65375030ed; 0x7377bdcc4dcc8679; 0x70eb46310721c3e0; 0x61d2132e09f52a9b; 0x46dff313ff387f3a; 0x2ecebd0889aa4552; 0x6bf1291ccb1d43fd; 0x4a472cc1cf46b0f; 0x54996cec7564713b; 0x1bb6ac42f2bf6810; 0x53ee6f14dd1487d3; 0x2756e58c2b9fc2ed; 0x4cc21fe72f9d49d7; 0x29db6d179c812e5c; 0x7d2c849663b60fcd; 0x1d694afe5a3e5a0f; 0x188033ae7472fb2; 0x63a934e7a7fc94f6; 0x726a4c526b705c71; 0x65c378f0effb9858; 0x431159ed9f763c40; 0x11a8d24f6a3b599e; 0x6ce4d7c60d50c5a3; 0x8f27a2dd5a2a2b9; 0x4db71c50f11bcb44; 0x3049b3df6bdc200a; 0x50cd2ca9fb1de846; 0x4fb8834cb45117de; 0x2ecbca3b4124ff6d; 0x61b036eb204082f6; 0x188e52cc5044be92; 0x1ee6570804d1a863; 0x5fb431bf4d4457db; 0x3d54d1ec7f60abdf; 0x4db378220256d0bc; 0x7694950582212e10; 0x770951d9d18a838; 0x2d69afdffed54eca; 0x37a0d3532c93e6f9; 0x4ef29c793b8bec3; 0x78f824c162729cc7; 0x5721d688b106ef6f; 0x51f12f0655d2e2f; 0xbaf175042a3d288; 0x118472205152bdc3; 0x215bdbf7628e1ef3; 0x3f80cbf28e93ab53; 0x184c17e51813abbd; 0x42c8fbfe5534deb8; 0x7314560f166a75e1; 0x67897027ecaa15da; 0xbd633aa050bde28; 0x483057324b2a7728; 0x4b5bb13644ada0e0; 0x2b4408e17f84f4ca; 0x31b81aed63a87703; 0x58517f24f9e505fa; 0x213c152fd75bcacb; 0x6b9db46eb2ef7b96; 0x91685d0f1c59335; 0xb46be51950e6877; 0x5a6d4655e7d64b7a; 0x3855e7fce656c0cd; 0x29aa47ce9855ced0; 0x7d073424d68f8b56; 0x3d244e006ac8510; 0x260fbc74ce943c0a; 0x55bd5aaa8e163a29; 0x8aed8f0041cb850; 0x460bcc5c05f1266c; 0x17ca64cd286c5f04; 0x3de308bd5dbd897; 0x3bcbc7c9c2624bce; 0x784545bbc535345d; 0x40123d942a015ad9; 0x11001e7dee74f34f; 0xda5e32c8bd549fa; 0x1e3e42a9ffa71c88; 0x7ebaf5b0fd4bdf0b; 0x5aba0091f751be0; 0x389cc471a6b9b007; 0x657aadcc90b85c31; 0x1aa3166d3e102a21; 0x478c5b5a96afd26d; 0x7291a59349f02481; 0x117c43f51982c175; 0x63dfd000acab1310; 0x6ced4019696dc7ff; 0xb68fbe0ee049a11; 0x1696c71cc97b09a6; 0x1b255e88f4593f22; 0x24ca07bc27cefca5; 0x2476b7a45d3014b3; 0x6758ba740bd74451; 0x4662a6962843557e; 0x3a53aff8b9cc8ef6; 0x3b7c6fce09e8492b; 0x2c75145838316f1a; 0x3e9fb3428cbc2557; 0x48ef4448a23382b7; 0x4b8e0ecc697e5ec2; 0x574f74ac2f613049; 0x5d919ca0d2fef8ea; 0x6d2b142b0b4cbff4; 0x52497e146568ce10; 0x730a885d9bcbda61; 0x5c77f937fedd440b; 0x37f8028cab41e941; 0x6ddf3572bc159be; 0x1afeb868af747f15; 0xcf7fdb0e42f9241];
   [0x65750b161c265f13; 0x75cb0686c1fb4a76; 0x673744914df74743; 0x764f130a9cb88e58; 0x3febc2a13a831909; 0x286dfe0f51a8673f; 0x6a686a8b7b4425f4; 0x6890dad82cadc593; 0x530df11ce0cc629a; 0x5312cc20520783f4; 0x7d48b81770bee69d; 0x15a1daef8392c89a; 0x321b6e97fa358749; 0x44e7c04c8e2737ab; 0x2bcb21ee4c78db7; 0x12a0df97e56f6b92; 0x11eca51b7c6bbd4f; 0x218ac427ef9d9277; 0x7a7d198fc1eadff5; 0x492b27abbc4928ae; 0x7c1432bf7c90d799; 0x6cb3fac2e96c9f43; 0x81668b121ae206d; 0x7817718dbd7f5c79; 0xe62826ff3389365; 0x774980e72c046af6; 0x6897bf0589e89003; 0x43d7afd5add0e055; 0x1cd802180d2aad50; 0x4455a715e470d00c; 0x4e80ef9fbc88d36a; 0x18fc94f8f4d6856d; 0x8938195ec4fa164; 0x2739c7744a98b917; 0x6b503500fb36c101; 0x7451c20effd79690; 0x4778dd2c3ba5460b; 0x756a6640657894a6; 0x5e484695c9fca7a4; 0x271124a7705e6fd2; 0x4d4dc47b98580d3f; 0x3df2924ece20be10; 0x6456aa420472c92e; 0x524c0b7ecda15f92; 0x9c65dddd18b8618; 0x85f1efe63352adc; 0x728b0c9e97113918; 0x190c36aa94401333; 0x700c454f590e81e5; 0x4b6ad0f7ca1e90e; 0x4b5e295ff386293e; 0x5822e16a6eed1099; 0x3f6f248b8c02bf40; 0xc34459270cca931; 0x7a89ac220d3f70a4; 0x373052074742a14d; 0x57553c4215c1adcc; 0x2b37c72ed0fa2cb6; 0xedb2f9fa5beea81; 0x26b80e10f04b6822; 0x2d2e7937e2a7578b; 0x532fab2ce6bb6444; 0x6afd46dfacebf661; 0x7038f4b52310edc9; 0x520f663f3e14e462; 0x1648a7b37e5f71cf; 0x7895a4a40d02a882; 0xec084de0e8beffb; 0x37b93f3ef1e94bdd; 0x7ad7e9c516f46a37; 0x55e2805ce63bd972; 0x487e716d9294c156; 0x573f8afd337aed02; 0x2c797713ee352048; 0x4850b8c39c588659; 0x1b7a6def261ad0de; 0x372cbb4c6063fe44; 0x14cfb42f3806163a; 0x2d39e064c4a71b; 0x711cbc7794b15cc1; 0x430df5da5bf471b6; 0x7571804d376b03ba; 0x616b55b9dbfaf7a8; 0x1a8641ddbb70680a; 0x734d565bfe9f4661; 0x2f40fc00b4522afc; 0x6851319eb6bffc3a; 0x492c76b599e0b8d8; 0x6a4db78deec2a1ef; 0x5939f99afe81cacd; 0x15a2b58ceec928f0; 0x70c0eafe51af84d7; 0x4fa44575e40828d8; 0x70cecebfbc7a7a2b; 0x56bebfe1fba42723; 0x732cfdf49ded1be1; 0x31d7347c40cac7cf; 0x1ed0e7f6b83bc2e; 0x20b11186df1e049a; 0x3963960d54264e79; 0x13e523ac869c0b88; 0x2a39e4f969ee0e4e; 0x1db93c4297c99d4c; 0x3d829d4984c49a2f; 0x9bddc46456c6ad6; 0x31aadadfab9d2c98; 0x3d8a0c99378495e5; 0x1e18cf430d81ddc0; 0x601d5d2f18f0043f; 0x11cbad70029cea86; 0x4837c551f71f44a5; 0x4a5c5668b2ba48d5; 0x5a2a7804d9d9446f; 0x53102d5074e820cf; 0x798683eadce46fde; 0x7ac2697f1b65c87f; 0x179f4da19156e384; 0x3afbee9cfd4750c0; 0x324c605383ab94ac; 0xad24f920c3ab52; 0x67b533576f96316a; 0x1bef0768e5f6c62b; 0xfb55a2ea816e712; 0x5f2692e0509e0d39; 0xfbce8c11d0cc044; 0x213ce09d5d7b0e64; 0x53f18b2ec1e41d5d; 0xcd82986145074b8; 0x1299879b293b2bb; 0x3879f74721ed83b6; 0x4061dbcf21a7c66b; 0x60d46ce95a030293; 0x3fb3222e5c6301d; 0x3d1691e4de147906; 0xef86a9f0d1b519e; 0xfaf99fa0fce258b; 0x42477fa854fa5c34; 0x5e28ec0ed84bc8e6; 0x47c8d1b60ac3f345; 0x30afd7eb3a630cf4; 0x75fee79f962b1adf; 0x65f374e89bb642c3; 0x735652ccf6d5caa2; 0x58ebbce1ccc96001; 0x340cc8e44162eb9c; 0x5eb11797235edf2d; 0x459a658430efde95; 0x7a43f050f01b5fbd; 0x3e703aaae69e254c; 0x406a4964907fab62; 0x14b5bafd41dafbc7; 0x723363adcf1995d9; 0x4bcce06fd6b8554b; 0x5c7b419a880819e4; 0x2b2fbf823f26635f; 0x285b9c2e0567e305; 0x1e45b83a0b102493; 0x17dcda12bb994109; 0x669f055b44c4c047; 0x29bbdda7ed67c77c; 0x312472a7d9302c32; 0x599d0177a089dbd; 0x1431625b1cc4d3b9; 0x4b46660478307a19; 0x564938d03f0507e3; 0x75ed25c91da19adc; 0x34d6a211ca8dee2; 0x16c9bcb90cb5ef89; 0x3467c7ccbbd6be6f; 0xf63d2bf1f78b325; 0x4ed6f82b71aec1ff; 0x23abb057dbf99fd7; 0x398bcba2c6993a01; 0xfc1bcd6bc5fccba; 0x331c5e2c7ff00043; 0x44fcac282c11d85d; 0x75211cf130cfbc85; 0x29905758e074a9d7; 0x6a569035164a0611; 0x4cabff6b2891a20c; 0x3196f1061c179d5f; 0x614ede288e4fa530; 0x7a4efe861b055a53; 0x631edac26d58e4f4; 0x47d75164ac7b340c; 0x75569b20bd3c1f9c; 0x4f6c0d4cc9ee36b2; 0x359e23ec6b2fc8f3; 0x1d1953213b0e19a9; 0x2c5923b229dc833f; 0x4f6111063d098e4b; 0x4fcf1e3d6e489fa6; 0x67ae39648665371b; 0x7b1e0117d1798045; 0x162cd04e9241b012; 0x51f72695aa9ecc5e; 0x768261018a7a082b; 0x314c33d4aead6bef; 0x160b9c54037b0b40; 0x90f345ef8ffc299; 0xb29b2c36bfc6f58; 0x38d83788712028dc; 0x14b190129479f553; 0x56eca58a087bdb42; 0x43086fb4a513ee6; 0x1767ef3952a8fb8c; 0x6d62cae518c4b3cb; 0x7576e03eb4ed33a3; 0x5ba99dbf974ec440; 0x333fa610a63ccd7d; 0x6893144edfe9a1a4; 0x695d6e77a81e2960; 0x25f9cf479bc608cd; 0x259be0e61ff593df; 0x2e56ae727647480a; 0x3673a6587b50f627; 0x729fc3555ce39065; 0x6c0eed2d134b1ff2; 0x31d13bfa243059bf; 0x5b4b117f17e6c450; 0x20ffe9c0cc801d04; 0x46a680b5d246a27b; 0x3f62639cab17a1db; 0x4be58bc8a9ef9fb4; 0x36af53a855efe58f; 0x5111a81e044626bd; 0x494662e2a00601e1; 0x1d5dcb9cfa4049c7; 0x617b41ef1674e506; 0x5e96dee6cb55c452; 0x73beb5e1593caf5a; 0x39175043cf049a49; 0x46157bdbc7e740b7; 0x6f6bc2644f0ac221; 0x550325515ca07f82; 0x7a3037e60e957173; 0x7a1f038271169e26; 0x7dd0f415aa53f17d; 0x5580a3a21f657863; 0xd63fdfabc95adc4; 0x3b5d5502219e4baa; 0x78144f789a9093aa; 0x2f255c09f5580abf; 0x16ce758c732ac21e; 0x207cc1a0aee4dfea; 0x68d9e8895b9670b1; 0x4b614df13562105a; 0x418398cdbbbc153d; 0xd1da28f78c2a46f; 0x5c724dcb787a1a1f; 0x28e1d79801fc1d34; 0x3ee8e1697173a0bc; 0x14f10b85aeadb792; 0x5f7b1632f611a51f; 0x5798586731e3f796; 0x4be9ebe0d56969a3; 0x507d5cae2a942598; 0x2e1629d12267b154; 0x447d028c9648d47c; 0x39b0c987344a1d24; 0x19e240f905e293fe; 0x23683a6cdc1d0299; 0x3e8866de47ad9288; 0x66c74cc260e9dd1d; 0x1fd7230c934bcfc3; 0x4e6fc0549003094c; 0x675ce7dbeda16069; 0x3d64da9a25132bb3; 0xcee0f8381d77006; 0x464e5d1e730dfbac; 0x79a1058c68c91755; 0xfbdc44edf9a9c3b; 0x11d38f8757888717; 0x49dd46555ed25bd2; 0x315a5eb2f73e2904; 0x3d30770031787abe; 0x18ed6bf04ba8b9e; 0x70d5f18f9ae229dd; 0x5b4c60d7fb3fbe29; 0x5cd7c8471a7ed116; 0x372c42422cc0a0bf; 0x424b638aa2ee1c1a; 0x35afc4225ce16e4f; 0x581f0fd17de15b0b; 0x4c30c00814d98060; 0x1194b52ca017bc03; 0x16b145137967982a; 0x4b92016796ba09d2; 0x3ecbdf1f95fec425; 0x2b8fca9c565659ab; 0x5c27f52d620efce8; 0x4dbded6aa670dade; 0x4d1b45e82b8fafd1; 0x2cfd9b251a249a2e; 0x6663f6714c1857f6; 0x8b5ac2328a16871; 0x26998db52b69976; 0x30d2012872b76a78; 0x6b0f026afb17a97a; 0x1e97675e4c5dca41; 0xad2e028660c45af; 0x200f0312f1a202e5; 0x2a1c2602768aa47f; 0x13fa4d770390ba9d; 0xf5c1481afe13c22; 0x448275b9e1b8aff8; 0x692d04a20cfdc2bd; 0x4d930ba394b831cb; 0x48a50e199d19ae5f; 0x1899e1e9771931a5; 0x11c7449acbd33aad; 0x15dbbc5c7e8031dc; 0x3512c7bed8794b6d; 0x2fba20a5565dc3b9; 0x5be706a2111bb10f; 0x14ce36003401dacd; 0x5b576d0e72571c8];
   [0x454fd3d769513771; 0x5b50fcff4946c623; 0x24cff29f3bf7546e; 0x65b44abcf4ac8a24; 0x5386d6094e379974; 0x1f3e8ca89ac83ab8; 0x47020402d65ab483; 0x4366329e874ae26b; 0x75e89819490ff1ca; 0x27548ac807b67ec; 0x120ff2516b364831; 0x9fa46c2274f0e85; 0x37274a3ed1eb091c; 0x15003e1d2cbb79d6; 0x6d040870d4a7fd27; 0x172f4ea6a6393e0; 0x27650401eb08627f; 0x35ab90a28db52302; 0x7954b527c16c19e6; 0x504669ae5b370986; 0x69285822c83d6c9f; 0xba2ce8c7d7f6a7a; 0x7f8f0387aba38684; 0x11cb96b659f13a27; 0x4dff3a6e6bc8f347; 0x4e841ca0e69d5e87; 0x102b62fb9b51c67d; 0x2e0affddce961669; 0x2ae4b6c73367c8c0; 0x49bf0a01cf82884f; 0x720009061875c418; 0x1b8d823ceed04366; 0x51cd182f8045d8f0; 0x19fad1ec7739b72d; 0x670193c76c9fac81; 0x21003393736a665e; 0x2384858d43975525; 0x285f7aa887cd54c9; 0x2c8c69fd05f93ddf; 0x6c24ec7d93b1b70a; 0x5dec199dd26043d; 0x7ccf825aed5aca8c; 0x52284e33a6797078; 0x5d8460626c699cdc; 0x34d05576e7b0e1ef; 0x5350d6721a0ddeb5; 0x72496d0aad494afc; 0x5819f78b1434cb58; 0x4d231f440f9197e9; 0x73a36318fc14252; 0x7b27e5748908f9c3; 0x2323a58232e941d3; 0x1bb041939336a212; 0x33fa41f8b95dedfb; 0x2bc74f4a71eb0065; 0x259815b2d9ef8746; 0x442d578df63829da; 0x5639ef9fd1676d61; 0x9e5af17b72b8294; 0x50fe19f0356941ee; 0x2dcb01e70496a6a7; 0x2198d5730c6c96c3; 0x78610607e0b9faca; 0x3658c423edbbe389; 0x7c9ce8c9a129b634; 0xf4f40b8311aa923; 0x7ccad14e65511122; 0x4d06b1e7f750b189; 0x4e72fa08f4e25344; 0x6b9c3abf5ce0feee; 0x332ff982c68236d4; 0x49474321ac849a4e; 0x3de3022b0421fd8a; 0xb3e56e24c9d53b3; 0x4484fa0d28cc8604; 0x23f79061f702f5cb; 0x4c6909eda179e14e; 0x79c829712dc34171; 0x19ec2bb863901b93; 0xe0c0227ffaa701a; 0x3d4bc3573208cc5; 0x1d594a281c7fc90e; 0x1894366dfe6f0d7b; 0xeac5fdf802bd0d2; 0x31c90290bcdd3118; 0x54a86727a0b329f6; 0x4812c44a8cdcac95; 0x3147c8cd90470e2c; 0x28dd6d44ca4690e; 0x1317ff554add0be3; 0x72567cd3c46cd67a; 0x10193d2432eec6bb; 0x30f087eccc09c8b7; 0x3da54d1fcaea768f; 0x42828415af231df6; 0x110b9376b6620fed; 0x18a1321810207401; 0x398231e44134a66d; 0x2834057f539e0256; 0x1a514818c72bfe93; 0x6f88703554dae8dc; 0x4211f1211134bc0b; 0x41dce8b133752374; 0xfc85e25f3ca5961; 0x4ac51d87d17c0c9a; 0x6db8f55d1c831e55; 0x2a2f7408ef6e3327; 0x4a63a54f286558f; 0x33df4b28cfe513e6; 0x4c0cc9dcfa58013d; 0x5d0b1c4aa200eda1; 0x3a2587cfdcd7e0f4; 0x5949fa34dee8ac3a; 0x5a295986c91ad292; 0x1bd0a1e16a84a89d; 0x17345fdc68bbd944; 0x25fa683147e7a6; 0x2eed1d393e2b3551; 0x6e06ba8c3639798; 0x68b0bf96a372ac51; 0x51611304c95b713b; 0x238afc0a13b5d2f0; 0x35b09ed41f3e9d17; 0x7fcfdbeade7ca18; 0x18d9c0df562805f7; 0x35da753fa6ef7696; 0xfdb2bc4cb1de19f; 0x77d204d5342ed10b; 0x6f43202e30280fe1; 0x46af4441e0b861ff; 0x18495e4bbcde18a9; 0x146acaa07e291dac; 0x139a99a43175b271; 0x242918b84cb06273; 0x22ed1f7e085f52e6; 0x5b7bdfafa0fe24d; 0xaf79a4307857244; 0x181ab70314d5a109; 0x1edf6888f1c8bf25; 0x7ef961e63b47c5da; 0x6a0010d8343cac19; 0x79c375f923b9e0af; 0x73ac7c0338244534; 0x5c428d9845f348fa; 0x146090496020d239; 0x489d5def888a937a; 0x4e24a5d8d7ceedb; 0x168dd112659b2e01; 0x1eec286f003a2206; 0xee64ab188b22fc1; 0x19f87e851d899837; 0x198dd5364428f431; 0x88bb4ede1e8a869; 0x38aca5969293be18; 0x2698ed61ba3afd2d; 0x7ab1cd60cc6c0f5e; 0x6c62e1306dd39a77; 0x30bdd36cc4f14396; 0x6e01c3ae413b13fd; 0x422b7d17d46acd72; 0x67f06865c5e59e05; 0x25fae9e2458c326b; 0x266a8093408b9878; 0x4b29f5dcd8bcb4f6; 0xdfde6f702751319; 0x9943d2209246416; 0xb3ad56a0382c85b; 0x50a1b9fdecae6b64; 0x74fa1ae64edc8b8b; 0x5437dd5fd6234992; 0x106b5e16abecc189; 0x429c3a0f75051c20; 0xa1fd09237ae971d; 0x650a23e8e6636365; 0x70d9a1fee185f2f1; 0x162bf5257a844654; 0xa66cb9a001ca420; 0x5c2fec5a360732e6; 0x2021922d83a33865; 0x73f850bfee435a2e; 0x46badac737f09d30; 0x5d766e42dad9eb98; 0x79e8f4831610d00b; 0xcf8aef5fc20e00d; 0x453dcf1f14c77bae; 0x27b886e4705d61ff; 0xa065964f4a58cf1; 0x66722ed9e3598b18; 0x7bd48bd3e36d7f9d; 0x2b497dab121853c5; 0x51855d309153e13c; 0x4b2c49da5f8a7954; 0x678329e2d9890923; 0x2d45311d7d1d5ee6; 0x7f7bf1f8e34b5a4f; 0x15ebbfa48e7753de; 0x733b71f8640611bf; 0x1130f26e643a680c; 0x49c8ad2914da4f33; 0x1ebba4077d17574f; 0x3022c3297b73686b; 0x14588b1392a86e7b; 0x5033e4c00b1d696a; 0x78324c135dfc5fa2; 0xe9d40cf4a778ae4; 0x33a8aba4709a7e0c; 0x2acbeeda23019ced; 0x305e1ce1c3bed3d2; 0x2743fbdd6ba140f7; 0x3d33ade273d902b2; 0x736ec35d8b9e1510; 0x77677f0b345d66f2; 0x406e456f02a2b21e; 0x7837314785e0fdc; 0x52315ef97d3ae64b; 0x5e2bd88aad4d7b8e; 0x147a7b8489be2a33; 0x6d9abe5ab7b97ebd; 0x310508375bb407a6; 0x2ebfee846971a6ee; 0x7ca962da215f8540; 0x758b8516cf2780bb; 0x74e9ab67436f303d; 0x60a895fd89be6513; 0x400584bb2984505b; 0x775421da0f7f8848; 0x413383ccd3f33ea2; 0x1b48f23c6f0af2a3; 0x1b54c23b51f2f1b6; 0x419c283acac4f9cb; 0x7e5ca0ea6cdd52d3; 0x65c734d59493f09b; 0x4f748a06a816862d; 0x4dcc12d839baa9de; 0x5f8eca6d5ac1c64e; 0x673db80aaee97326; 0x756b432fb870f749; 0x2a909c16da850289; 0x77816d3b162da9a8; 0x1ce4ae21589164ca; 0x6ff016595466497b; 0x52e6cf0d0472e82c; 0x64c4c2fc4a92a538; 0x79c67a253a19a453; 0x3e49da64834963a3; 0x5dfbddbe9abc1458; 0x38aee015d32ca624; 0x4b3491f292388bee; 0x46c9603287d7b200; 0x5f8922b4ab34863f; 0x38516df8ca2ccd10; 0x203226bb51416d60; 0x2c1ed89f30775122; 0x4956b03d6dd5b3e; 0x186d8769bea635bd; 0x416d2e5eb262ac66; 0x287cbd14d4f6bce2; 0x1c584bbe6265d1a7; 0x348f9e0b065705d0; 0x6279960db35ecf08; 0xf7a07dfd95e0b8f; 0x102b4ea22ae1236a; 0x1e8cf639427d57af; 0x2561b18b6925c193; 0x3ba0560779318dcf; 0x1384308bdc6f30fd; 0x356b90277c58ddd3; 0x254df323b1e111db; 0x164566f66bd5e5c9; 0x773f3af292261b11; 0x5783972c18e74cc9; 0x6ac1fe50085056dd; 0x5cab7ac7231991e2; 0x59bb91ff457e820d; 0x614fa1254364038; 0x62f402f8821fe13c; 0x67b1681cb2946e62; 0x363e248ca380353c; 0x4895c9a869bbe014; 0x72ebfe43aca2784c; 0x2a703145398efb55; 0x66f21dcea210489f; 0x32668164ff858988; 0x7685235243b52656; 0x468104bf3a3adcc3; 0x5f31a67d8ab7383b; 0xdb1bd27b46b17c1; 0x10ed920cc0ac55d6; 0x30d4545589e3e568; 0xb64d45bcab07887; 0x42769aea8ede933c; 0x39d79df77477c6e3; 0x35a73f11989086b8; 0x903e2b6eb4b1c51; 0x4d2e4c92ba62039c; 0x3ee666154f4e45fa; 0x5adf0147f69af183; 0x19337394ddd1efc; 0x8e6545421c7e9d6; 0x719a7c484200d42c; 0x468a82a333e2f5e8; 0x4159f85c3cc39ddc; 0x1905d4670c091f9e; 0x4fa9169172b701e7; 0x174f3181a8511894; 0x5322bab02967cce1; 0x2978a8e9a4985571; 0x5c0cffee2648f3a2; 0x58a4dafedff9b4ba; 0x5394e8ce530708b; 0x23ebcb1bcc8a75e9; 0x282d7d8270702dc5; 0xd986d7366e1a7b; 0x529c078082515828; 0x219e8099e5dc79aa; 0xc5b4a961613bea8; 0x385b226f3da2699];
   [0x7b741f04bfa3d473; 0x6b3e606b43a629db; 0x795a5c7ead99d7a6; 0x4deb8a85d46310fc; 0x7f7b31691ac7bd7d; 0x4799ee6f6cac689; 0x58c9eeece4c53e7b; 0x57deca5d76376f2d; 0x6ddd9bd0ad7f8730; 0x6fc30520a2e4439f; 0x3a7749c002c149e3; 0x38d92bc2ded1ccfe; 0x323ddf0f15a4cea5; 0x1c717ddb0f999d06; 0x4022d2432fb4d9b4; 0x5fc11e47eabd046b; 0x66ee46cf79503a; 0x77a0c26113324dfa; 0x64198449d3848104; 0xa007253deb73a05; 0x41013718f64534c1; 0x372cfbb128745118; 0x44074e7768abb811; 0x2e98d902651fd247; 0x5ad7a1886ada4c3d; 0x665a858143cd6ed0; 0x3b308eeaf738915c; 0x3028aae5548816d1; 0x6aa744a7b7eeff9c; 0x37a6575ad0e74dec; 0x90e34842169db3a; 0x14cf5b2464c2966; 0x1cb0d4cc97470e3f; 0x3b6be7e32cdfc7df; 0x795f1f464debee26; 0x192ab46208f4c153; 0xdad49a3eabd1df3; 0x6d64c59cec05e12a; 0xecba066c1968c5f; 0x65e13f340987f009; 0x7add66708771502e; 0x21b1e92c7ba86ed6; 0x1fcfa96ec793c702; 0x7e99390355a11fac; 0x51085cfe7d4508cd; 0x4ddd9a172f78216f; 0x1a2a7316955397f2; 0x20b48212cd742e3d; 0x749f3b3a9a42fee6; 0x2c5c76d8a003f573; 0x497c8b3c7728bcbe; 0x1fdb47ee82375b83; 0x5f24c18b3b0f7175; 0x6305e8489be523c9; 0x562b35b3b0d354ae; 0x70ad5d8aab56e1fc; 0x4e18f403502c232c; 0x3700d8551c5beb88; 0x2761ef22f3b613d8; 0x62c1fb096b419cfd; 0x213c0821b97d24ca; 0x326b92f65f8d9f0; 0x679adcbe0fe55287; 0x35713d554fd97a44; 0x70bee27ea34008; 0x51938a91b5abbe65; 0x2811700d12ce712f; 0x22bc25763095bec; 0x75c8c98538130c76; 0x1e770971763d2a67; 0x4002ba0035bfc544; 0x3bc400db62060622; 0x4045f0269a7beb5c; 0x2fd720be972068e4; 0x5fa9347ac6dc8062; 0x3dd31da647133bc0; 0x2956660b4bc0d16c; 0x58eaf28bb0449a7b; 0x5ebf571e0a6a7a86; 0x2451385e69bee374; 0x56de281d77e41f21; 0xfe7667f76c4ee51; 0x64f8940d85b8bb82; 0x4ffbdb0141f3f882; 0x38c962582eda536e; 0x23bddfda60dbf9ff; 0x10ee570c86d326a; 0x1f57a1de5fc7998b; 0x2721caa195bf44f0; 0x1943f12c4676942f; 0x7b25de78fd1e7741; 0x279cfe24a453174c; 0x5d67bbe88d0de0e5; 0x2831e7f29150d738; 0x313cc8783cb2c269; 0x589eb88660c2e4af; 0x326a2493074a4e25; 0x5d023ed8e44765cb; 0x1cc115c406d86f40; 0x62e2a31e9747693a; 0x269ab659f5199295; 0x659c36e68b300961; 0x6025eca7237ec492; 0x27ce3a0ff0039b6a; 0x6dd6e712d859db87; 0x6a5d2d64f8e9575b; 0x7b818fd54831060b; 0x2af69bc9ce063d3a; 0x73b5b21e203e78c; 0x131c9cbd1020a982; 0x4aa23c06441d7ddc; 0x46156336a8e1f901; 0x7ea23d4589ae5470; 0x94f5a844f60336f; 0x5c0db2d58bca8a2b; 0x68cb936408ca12b5; 0x28122974a00e7bd2; 0x70dbf794554518e8; 0x5ec5ae550160420; 0x4398f667946ecb8c; 0x78700a3b844e2051; 0x5c513c56fd4b86ac; 0x6930263653a7ae87; 0x2ed5fe2e188f52a0; 0x13ee5b642b5e7ebd; 0x2ce8aa2ba340eecc; 0x6783327da5a1a87a; 0x670105c66503c6fb; 0x3642a3a91a994eae; 0x2d624570673f50f8; 0x3c847065c9f06344; 0x578a3804bb433f90; 0x29e30ee6d8570a1; 0x4d290c0240c46526; 0x74f28f8fd1b157ab; 0x2d73034038770ad5; 0x1ac07edede63b55f; 0x316ceb2b2e137ad2; 0x23180748b7dcf12c; 0x62fe0d8b44a8fa75; 0x13f5eafec87cbbe6; 0x278990e4d2a2c9bf; 0x57f380a75cd72f75; 0x54e9f3b8baca7cc3; 0xaa66d98a7cc008e; 0x16fe22a274b538ec; 0x41b8ff55d789786c; 0x38e20a313f71d18c; 0x4de7a3b704fb7c0c; 0x163ee0a3aeab4c43; 0x7a4cee087114850b; 0x3dc3575284eeb425; 0x443e8ac94331292f; 0x4a0081dbf183bf17; 0x6e555e10c6175684; 0x7b0d759b531b0826; 0x55e76f5c7147b653; 0x6f9fadbeae8271fd; 0x1380dffaf0ae3c6f; 0x769d86f13eaea53e; 0x67eb1c2c753b3811; 0x3071c712eaa15217; 0x1ba0de2438b4df1b; 0x5fffe38c0383460a; 0x1ff09cf1a4aadf07; 0x52cf7df2452b6fb4; 0x2b34a423ed3ec2b8; 0x3239d09037e84bab; 0x43aa9e72568e4ad2; 0x4347785baf5c8118; 0x59dabc2b44bc5a01; 0x347af82501f503c4; 0x449c3ead62e375b5; 0x4462d05cbc1b49c4; 0x47dc4da2768ddf25; 0x62bd47eb34623ff5; 0x3dc43c64892d99f9; 0x7e358398c6274a3b; 0x6bf5d9bb25fc00a7; 0x5ba0c366ac00a535; 0x4a83af5761458801; 0x2a25c65e6475fd0b; 0x16e2564faf5e14b6; 0x4f10ecdbc99cf90; 0x535691e1b637bb4d; 0x77efcba86145693a; 0x5402107ac74d5b2; 0x19b07065bf38773; 0x30241b049f107fc2; 0x3f258564e94e6bb4; 0x18febe6a125fd97b; 0x30903af5c127e8ea; 0x77d0076fc54d9062; 0x96e8920833c59bb; 0xd391e02415b6a99; 0x5c23400ef46a4455; 0x49aacfbe62cd5e97; 0x41d7dcb5ce0236a4; 0x2c54c5f894e45b7f; 0x237a330a9f51dddd; 0x7b6d54e1c5a10286; 0x52b37670369b9ee0; 0x56208a93ce3de3b5; 0x7eb8631bd9bb661c; 0x238820570d6c8537; 0x17403a36562e8990; 0x31cdce8706f7188f; 0x7b7cf1e1b9bccd5d; 0x1c00f86b6742c9b7; 0x78d867a2be484e07; 0x61b09a87e3d18c4b; 0x4860af41f3d72326; 0x2fb182e1f16640de; 0x1217b2bb44cbf6f8; 0x4a1051686886842b; 0x430e121b37f96ab8; 0x5504fdb724448771; 0x7d7b782ee8afa773; 0x630f9e1123ce9f08; 0x6bcd3546006ca840; 0x227eafb4ee8df589; 0x6fa01651ff76c4f; 0x5951c5d8dbc6445c; 0x59faa10daefbc4f; 0x30447befd27edc52; 0x508514c85816f017; 0x284d9895756844b4; 0x568fd6c95cecb183; 0x3e81b6f56e3df6ad; 0x751b327e1fb8f53e; 0x5977b39d03fda468; 0x7fbb5fe37427881d; 0x6d49864f25c001c6; 0x147f2961ea18335a; 0x471f7eaeddd06e3f; 0x48d2fa1f4d40191c; 0x27d6c6b173c43079; 0x2c4ccde703442148; 0x5d62445d3bb06190; 0x596b6fd82e503e5a; 0x79be79824763bb4e; 0x58ce7a265f8136a5; 0x37ef431818c2f0f4; 0x21ea68ee2d7877f0; 0x62a83d2e216062d6; 0x3ab71cbd854a96f5; 0x4f9922c00b13dc3; 0x1d9668f82dcd780c; 0x2839b8d1bc906159; 0x236984e0d80f7485; 0x2ef94ef3b50013f9; 0x295b0d1a3b66b009; 0x4e039b25b343ff92; 0x53b9d0fc74a55871; 0x2975050bcc11a997; 0x730730ad1f439422; 0xee480513ccf706a; 0x60f75540d867c022; 0x144fac7a4d79892f; 0x192117eeadf8dc6f; 0x1375c3a7cb660c0b; 0x236df6c1a786a79; 0x1261becede2f154f; 0x68390e3b022b2bb; 0x7540616d5de81c71; 0x6600e2d7314fd716; 0x1d09b880f32158b1; 0x5224c33c5008b519; 0x734bd3991c51b84f; 0x686e93211fe7b770; 0x23bda9aed8487ac0; 0x39c672b9d3c05f8f; 0x7567bbdb288e7dd2; 0x888c9f6be03c279; 0x1315460f0d689cb9; 0x7afe90d9adc8ddef; 0x4a39fa24b4a38cf3; 0x50186b1e74ed327c; 0x73c1b1da5c80bba6; 0x3c41b81269f4bf98; 0x139890d90ca28f02; 0x7623af935ac82c32; 0x7919f0514ff72db; 0x3f4541f57f954817; 0x7ad612eae88c3b49; 0x2f30502a7d3df346; 0x3d6adaba04310afb; 0xd9b5ceaa0c33905; 0x442ff4a3621c3d00; 0x7bdb009ec0dc8177; 0x6a67f024e44f207; 0x2a39ff0f0020b8ae; 0xc17787ac2933dd1; 0x6765274c1b618fd4; 0x3e114d89d694d716; 0x70a41fdf3e48a605; 0x1a90f06b7a4eae03; 0x540d30d0bb72c486; 0x11819f73dbc598b6; 0x68217d5b4993bb3e; 0x48fc7b0469772176; 0x3327c024900bc3a; 0x5759f9643f0f9553; 0x3a966869394e273d; 0x106b50ffd609085a; 0x1e8659f84424c7c6; 0x6a01cd5111f60c08; 0x355b37eb567ed0a6; 0x701a63f2cdcbb54e; 0x2eb4c2f2d3c045f4; 0x58f4e9dc66e1d34c; 0x48df72e1f88f617a; 0x1a6213cd66735eab; 0x52e65dc40667463e; 0x15fae54c27b7a93b; 0x45e8bdf12ac1ddd; 0x32045fc00949b97];
   [0x7ac748c757437ebd; 0x70062c673def8ac4; 0x143c97470a72ae5c; 0x5b4ed72f4cddd88c; 0x6aa8f32b0d6a88ae; 0x4d6cabc2957dee0c; 0x62a5e549f6510185; 0x17252fcdd6088bf4; 0x2b94c19afd6556de; 0x6eab164d2998b6a2; 0x1b89b70fe0cdcf53; 0xac2dcce71b9b103; 0x13fe1c58e6690be2; 0x41bf105ba1222a9f; 0x77330c9e9428f37e; 0x435fd5988dec242d; 0x672396f0a5fc594d; 0x57f1ea687e50ea82; 0x6787eef7d0c2bf95; 0x272e5ed87c8fd47f; 0x31841e6f3e2ee842; 0x6bf97dd779c7c61c; 0x2e806cd3cef19df2; 0x64f166a70b9a4bd5; 0x3584a4e7b52457f2; 0x37f92ec0a68eac14; 0x1139d37e8fcaa0e3; 0x7803e40579e9c436; 0x78652e24f3cbde9a; 0x672addb14a1d238; 0x23a7ab0177390115; 0x1a5dd9e43554a211; 0x4fdecf90b1abfe4c; 0xbc6645475dc5515; 0x1584cd8a8f4edd2f; 0x2546df6598c78ec3; 0x7f17bbc06656112e; 0x26da8584e5649e13; 0x211b0d44b90220ad; 0x6a48cd104169a75c; 0x5ced1f6924d40dbd; 0x4b134e0b8cce3d1c; 0x2053beaf2e53e5ba; 0x4492f20329040ef5; 0x1bc8330e89993f77; 0x412c6e5ab2647faf; 0x2fdd7625b15d658a; 0x3652ecc392f707b3; 0x6996afbf0354aa57; 0x73258713ab4df2e; 0x58878b1a02c02f1f; 0x7ce3ae1395ce3725; 0x29d51a08a29886be; 0x34a64e8efd37efa4; 0x29886b2c0f554ce5; 0x3754049fd01b183c; 0xc85dbb2c092d5f2; 0x13babd4cd0068a75; 0x1cfea544f250d10c; 0x1c5bcb436c65ef4d; 0xd1534f65c506a62; 0x46bbd6b87facc51e; 0x5292f5219e0ed4cd; 0x38eba08cbf674736; 0x45d5d25b36bccbcc; 0x4f147b5e4804d466; 0x4b38886252fe4959; 0x75db3396852c3f9a; 0x6d2ac32829f0b35e; 0x8739facaf569980; 0x2d7594a667eb7592; 0x40710182fa6ce7e3; 0x6a8ff094f6e259c7; 0xfef9e9041fead5; 0x6e5c4a12887186e2; 0x677b11bed68b3cd1; 0x1c7c11c0c73c105b; 0x67715ccd53e0c21f; 0x410b03c56c3c2ecc; 0x24ac331a525a043a; 0x42a399fa3542a78b; 0x4c21782671826024; 0x3ea8949e8f160a6c; 0x3b7615ba15945ec7; 0x5697606a1a9a9684; 0x366da8e2efee081c; 0x45cce7e8a36262d7; 0x74e71e4bf2f2d79e; 0x51abbce3f5f7e4d6; 0x1360ea6ff8f92193; 0x6339bc87f3dfe8b8; 0x34deda72deac608f; 0x42bb3fade1c95a85; 0x33ec5a0aa4c1f8bd; 0x5f358750cb742d42; 0x225cb93ae01f0d21; 0x63059cc8be840c06; 0x22c27ee6bbb10ec9; 0x4a94781ced1e1bdc; 0x1a9121fefef1aae3; 0x5f87ec785a217f46; 0x32d7e1b1a26c8afc; 0x4fb7d3efd7ac08d6; 0x21d7430989202c9; 0x203532fa4581fd97; 0x373211430524c1ea; 0x57949e1701d4099b; 0x7f34519ea05a144; 0xef392318cd4e855; 0x3ea4a27b275ca708; 0x208dd0161e2bd807; 0x52d876ce5a15febd; 0x3dc9f312b9653d69; 0x4d6399b6d0179f84; 0x7f92dfa04a9489aa; 0x6e425d98323226d2; 0x253c84b932934d97; 0x9d7f20c2d88a5bb; 0x135378bf9d4d8710; 0x66386f03364bdeb6; 0x3012e5e962d6227b; 0x4956de22d2b3ce50; 0x4315c86f37a8c9af; 0x7be22f0babd2b8ca; 0x75777063eec3a930; 0x6225053e38f7ba83; 0x3f4465b3c95c3b0b; 0x57ac0a7d8b31fa31; 0x7289d43ded69e443; 0x714eb1e7e76f626b; 0x68e187f7f4707ed; 0x21052d7b27ff7f74; 0x42ca05dd2de2db2e; 0x38fcbc40160193fe; 0xba4b4122307c43f; 0x3a70a1efc773e719; 0x73b16e514a1c0ae9; 0x3c22ea871c677d3f; 0x4b819341ad98b9ff; 0x623b00f616b4c7e2; 0x184b66a97f576a78; 0x6902fff5d630fe50; 0x599d8ce8cdf1f75e; 0x4def2eabf013228d; 0x7838171d9d35f83a; 0x2b1a44738f9ed5ba; 0x6a2f5a891f032076; 0x76bdff4800958226; 0x63f443edb5e89d50; 0x624cea4500a202db; 0x3bd88cf67063b9d2; 0x774410af1dcaeaac; 0x106e2562b36c91f; 0x5d2a360aa6d71d29; 0x460b00ad20f5ea1c; 0x39c350ddb5a60f0; 0x4b275e828f2e5643; 0x17b563a96f6af69c; 0x7a42aa9edc3a0233; 0x6ac086c1c9d9eb0a; 0xf00b9869db0cd50; 0x1e238cca49245de; 0x29f68ca8fb893e8b; 0x64e724d49189b7a0; 0x5f5da1c6b0790a61; 0x2e905386769f622d; 0x1f62a2e08db2418f; 0xc93ed96451f93c8; 0x3993d98cad85b42d; 0x650982f8dd10acf; 0x589f77992e914ec6; 0x6286bf58bfdd8d19; 0x9138dd757b21c7; 0x6c9eb51f6785f571; 0x4392a339d4bdc2ff; 0x10a8a300512ee942; 0xa66635abec1c6c8; 0x738ced8a1377915f; 0x50483e1c7737065; 0x4f4107b458247345; 0x5d6a4108bd9c5eef; 0x2ff7957aaa3fc299; 0x90d34d45f13e54e; 0x7b5872e1d49920c9; 0xe3b2dbdc9a7265b; 0x741fa4296ed0c64f; 0x3a2be16ae3d54cbd; 0x3b64be9f08127456; 0x120430e04e8173f4; 0x41cb384cd9dee2df; 0x744cdda6d0bb7480; 0x756729f10d6c2b64; 0x690a2c12d89974f3; 0x19f45ef707ec7d12; 0x5cbedec395e0c311; 0x216dcbfe101da741; 0x603dfc4831119063; 0x61af96c04bd79b6d; 0x33c6ee0646050b01; 0x389185e166616d7d; 0x165f0dac5becf2f0; 0x514d759e9dc0768f; 0x445758902661621a; 0x462f025e88a96759; 0x43e8ca2c7fe9ab6e; 0x5eaaa818cc56d489; 0xe8dfce91f4ae8b3; 0xac29e9dd9388074; 0x34e78eccbb92ad03; 0x402efb054d830c6c; 0x2ec329a9777c7efa; 0x1a8d2d14382e0434; 0x2464905f44911e34; 0x9b75c49c6af8190; 0x36d9e969172867da; 0x4806ca82ef595099; 0x2d1af8e6e0286c90; 0x4c908b4a32a514c7; 0x2aaa6ceb1842b177; 0x1987db0810230874; 0x43701e9945a05c7d; 0x1ca45a49490861a6; 0x27e3c62f72b914da; 0x63db77a5ba4a75e8; 0x54bc2ace0c8de58d; 0x6a3bedb5e8c01eb2; 0x49e4993669973ea6; 0x103a2dab0b6c63ea; 0x129c2daf1eab39dd; 0x522321e1f242d182; 0x68449a732ee01226; 0x134642ab931f552d; 0x499aac6e59862e15; 0x7edca7e0194ead9; 0x6546b2bcf6db1c34; 0x217b6a5dc32932b0; 0x24714bd6a6fff603; 0x44399187bd5cd2f8; 0x542329075cbcfb7d; 0x114224d2068c2aef; 0x47a085b00fc3d005; 0x14e8b5a35291cff6; 0x437b673930b4835f; 0x15b1624d2c434124; 0xcd513c37c2fee0e; 0x83feec7019876c3; 0xc2495ada13fed0e; 0x47c82b8f47cdc220; 0x2178c36a5ed8a6a7; 0x67e080b7ce04000c; 0x1675a896a64f920e; 0x45588995967f2951; 0x27ff9fa79faabfe2; 0x3fedf87564ea8c0; 0x4e366a30d4c7b54e; 0x3b46eb58997ca4b7; 0x2df5ca8b24f37bf1; 0x3ef6750dad328aef; 0x60d7e66ee219ab3d; 0x33bd6b0a59441519; 0x277925eb0661fc48; 0x246d34f3c2d9aa82; 0x6f17ed81353667a9; 0x530f4f71d556dd20; 0x655ce12947a6cbef; 0x9004d11fcb7a4b1; 0x711540a7f3fce58c; 0x5dfef500fcc98fc1; 0x700e4f51fcc5324f; 0x545107d244ad5556; 0x1cd3a403284b19f8; 0x23beb1d46b0e678; 0x6a40fb2bf33a6834; 0x33aec6b10c2228af; 0x3795ff7f36ddaadd; 0x66470dea78f54743; 0x6b15171e71b3876c; 0x55fd641d25e3a024; 0x64ebfe4d2498835b; 0x1a4d396fd446a39f; 0x7a1d48e5bd1aaea1; 0x4004269599d8368; 0x2d334132f63a4ed0; 0x351ec2d45db8edf6; 0x1a88984adc7ea7f2; 0x604583e370d4ec4a; 0x34d6adb6bbc785b5; 0x2fa85743879d4864; 0x438e4c2c6011b; 0x60da15750e3341aa; 0x641ff409c6ffe8af; 0x458a550c1bf5e885; 0x181f7e629336e394; 0x36310df27dc428bd; 0x2214cbf6f2721f88; 0xef8702f6a530905; 0x463b569429ffa81; 0xdbdf09fe6713087; 0x1c65b1d34fa52ed7; 0x255523bd43f85f5; 0x49c09fdbba19dfe5; 0x1d8a9a72bfde3fb3; 0x447c48f955cc144; 0x15751e99bf4bae8f; 0x74538f833004585c; 0x108266807b8d6f9c; 0x4ef811fdbc7bd41; 0x6212ce27e3bd6d67; 0x7d2d20ca53e0ff7d; 0x33188196bc810ef9; 0x762ec37086fefcd1; 0xb89a4e2402de941; 0x9c4a4fb21ef1bd2; 0x5032b28a52632f6d; 0x54419f0de631750; 0xa636bbf78431497; 0x9c3ade70207892c];
   [0x1435fc21674564f2; 0x72a4177b44e195f7; 0x69ff813b4048e1ee; 0x66de365e581e5a4; 0x13cc556e34d78d1b; 0x7e519b0578f1124c; 0x7034b8bd358256bd; 0xe37c166ae492e19; 0x13281e865a3ee561; 0x7e58b74458e9fd16; 0x71a9eb29f9f152d3; 0x398f315ad2fa7733; 0x7ff52041168d830a; 0x1927fc5fbd43faec; 0x19057269f6c3de24; 0x76ca980eb318284c; 0x67810805bfed5938; 0x452233ed84511d11; 0x39523276c37676ae; 0x4bd131e97c6ec7fe; 0x57931ce0edf40128; 0x6d335d85e95d28b7; 0x412890578d2e2eda; 0x48fa11485be1fc5b; 0x7ac4059dba79915; 0x3e11a73949847139; 0x2ad894bf6d749d08; 0x9a1b7c200093457; 0x3e3affe848219964; 0x7f2ea096ef8a904; 0x49a5304c9d09d222; 0x2f0aba8c5f9df337; 0x3657f6bbeca8b517; 0x4980d5c5bf0b6c39; 0xf2653724fc1f1cd; 0x95b039925d68c24; 0x4b5a58227d2d202; 0x5cac1c13feeff865; 0x2f4adf89df16542; 0x484c331d1720af56; 0x3681c906932997e3; 0x6c3ddca600374233; 0xd82d6b082e3a9b3; 0x5238133fdff88605; 0x47923c15fb8d672e; 0x5bc43fbf7d7f25c6; 0x108ddb5238f4918b; 0x330fb77fc0a5a361; 0x3e20ea3e5aebe13c; 0x7fa3d1fa85158a40; 0x1da4a290b2efd201; 0x1d97e4727cb3d1d1; 0x466b911ce5dfcd9a; 0x23c67381b6bf3906; 0x5770b3cd1ac895a9; 0x17849420a3c50460; 0x1b79ac5a9959d515; 0x6d2d6b45281cee7e; 0x4c93197b7de87741; 0x5ca6e05467cae9f4; 0x2f82b0e2fa26404d; 0x2b11fde7a2e94804; 0x2c71dcb0ff21da00; 0x6c939994eeea769b; 0x60dfdf6ccc4dd77a; 0xe60b1c6e7499d83; 0x2caac2af4a80b960; 0x1a5b387eaa551515; 0x2dc06034f80d0eb0; 0x27cf0c623316f8cf; 0x49d489efa03c6ffc; 0x7addd705f8929404; 0x11007a44d4544346; 0x20013603c908f407; 0x2c1559d9f99e6178; 0x47f99630b7310423; 0x11e8c90c16b5dbec; 0x1d2dc4a4cbdb107e; 0x2c55965c172d74; 0x24efdf5aefadbb23; 0x6bd07446edcdc8c1; 0x3694d760e264b744; 0x67e1c9452a247caf; 0x33fb324d916cffac; 0x44e8d8f2cfe1a272; 0x799021bc3a572bbd; 0x235c1ed561973081; 0x678880e0c011da66; 0x3154568289d5106e; 0x2a46cfa26e8b2602; 0x21c1b4ebd8a747c6; 0x66f5792ab82ef58e; 0x238c584f84d1a22d; 0x518f7834cc7a6286; 0x5e3897557811677a; 0x1b567336a96dcfa7; 0x704d3643559deba4; 0x6e3b3be9925efbf4; 0x12d037c1533c51e0; 0x49a5eac94ac86acc; 0x2493a5a167758ed0; 0x6b10853aa079e281; 0x2fdfddcacfb2cccc; 0x1bebc9981afd309; 0x24d44fb553e4af4b; 0x627fe11943f46923; 0x59966955b9978963; 0x73b3d9166c21aced; 0x7a71f4a621484cdd; 0x25d18256739edcff; 0x17c9c7a392449697; 0x508029dcf51a3c21; 0x977890cef04f37b; 0x874cc30afdd71e4; 0x4258b65e84a7fa0e; 0x7711fda4cfd22966; 0xf1d218c5952bd5f; 0x1db5f0c0fa03f58d; 0x35f017e6b5d4ec09; 0x77558afd1b7dc3b2; 0x7b59f382427dac57; 0xea6c5417991b2dc; 0x2664e936c729125; 0xe1743dd61ebe069; 0x3db99e4cfb08dca9; 0x3b85d57aee68b549; 0x7b3e3122a7ab9cc5; 0x4c763fdd89e02a68; 0x4c5ffeed126fd6eb; 0x25eac0c14e3ab7a0; 0x41cd49e1ec73f1df; 0x6d5a74b87bfc7317; 0x7a4a82e7e09289bf; 0x2dfc7f1ef7ea1004; 0x39afb7741ac4f9e9; 0xb93c5ce2cc73aed; 0x3f8537fb2c3c59b1; 0x3aed0d268ffa05c3; 0x2e8c920960d8b1f9; 0x4abec3fc2a3c068a; 0x5fc11f0b74a4fc4e; 0x54d6779373d6475; 0x6ccbc068b16073d2; 0x6661f0ea91699061; 0x9f404184254c48b; 0x407bfdf3cf71751e; 0x1e60d5e56819ac35; 0x7fe5bca86d3e7457; 0xe16a5687ffeb5ab; 0x52400bf4ceae8661; 0x7b089e235cddf6d4; 0xd90483f4f313e64; 0x41d144ed576168bc; 0x7a28001b5b0929ab; 0x2eb69c147815a3df; 0x18d4f2cc1afb18a0; 0x11ba70995b370d21; 0x66ae9a7a7c8a3511; 0x2f929bd957387ffe; 0x32960f19045fa28e; 0x40fad545cbfbbf53; 0x37352e252d07d644; 0x5781c3be1a232c0a; 0x44e6918625829251; 0xaecfa9443ee05a6; 0x565c1ea539bfcacc; 0x5118127534a8d9e5; 0x23deb5358db75f2a; 0x2b11516bf436c67f; 0x3b1279dd631942a0; 0x7551ce2dbead21d8; 0x29e7b7cc112edb; 0x189435fba5523786; 0x5bb9b6d85aeb2edf; 0x1ac810a422b4565b; 0x3a94a2100cecc891; 0x5eea3caaf2c0a20a; 0x123b959d2cadcf7a; 0x5321238149e42ad4; 0x5b1fffb1561ae7a3; 0x235ecb6060cfa55c; 0x1af017c94febf8b8; 0x2ca7c2f9039f6a6d; 0x6e4cbf603cd34a5b; 0x3d1c9767f71fa455; 0x788f1289d85a7482; 0x339bdabd637e2e72; 0x790c4b4012bb554b; 0x451eb1ff04421c7e; 0x411e28c9211ff7ff; 0x75555b27834a4f3; 0x5695b62995e5fdaa; 0x6bfd4831fc007c33; 0x72b3ac0be5f02bbf; 0x76bd2ef29a38cb9f; 0x4d6fca6958e76ea3; 0x546e6ab1381c0692; 0x2c0b6c59d64e6a4e; 0x1d00f10dfd48a206; 0x23b2e341dff163b5; 0x45d8a1cdd56b365e; 0x9934a035d12b8de; 0x517d28cdea73e0c6; 0x6f3bbddb32a3a7f6; 0x12b6d2b3cd0e320a; 0x1670443c89fab554; 0xd86bb2dafff0474; 0x6f7d3a68e3899d71; 0xaf53de14a11b22b; 0x1c936a001e1fc7a6; 0x17679aef4ad70ac0; 0x10247173396de76c; 0x3417d1c44e92b48d; 0x543e325076d5565e; 0x1dcae0a0038b3fb1; 0x46c4ae9675237127; 0x6c195abd2b744185; 0x3f300b974b55b12f; 0x15c6a41d3ec3106c; 0x604fa3d3192b41e; 0xdc5e332cb4c461a; 0x5dd5179e68c01b2; 0x75a2665f8d837725; 0x5658af501d028aa9; 0x174f9cf1d8db61c5; 0x1e6f46f38e1b989d; 0x4c1d213b31e0007f; 0x506bf2bc37c8372a; 0x68c8b5e1b3f36980; 0x330f9f2bad7c507e; 0x36390058dd1b6e9; 0x17c886c067834e05; 0x371b318088391865; 0x231b656bce3f4e3d; 0x16f0d4dc1ba818be; 0x48565f0856422ee5; 0x4bdee7b5b6fbf57c; 0x40c28c12efafcfbf; 0x5c517c6582580728; 0x44f174aaab0ef2fe; 0x618a7334861c6e95; 0x75f0ff2a5e0aec87; 0x37190bb6a6b16418; 0x45cc2820b4353204; 0x45203cdcd7259cc3; 0x4eb07a9f5653bffc; 0x499267a20843370a; 0x2743e4d493c59f04; 0x3ee11e1da8dc4a8; 0x4c1b5506549a2559; 0x7b70a05b9fb13dc0; 0x30ce38bfda661e1d; 0x71e3436b87d64677; 0xfef3a73fd55a513; 0x455b4405c34362af; 0xf42aafa4a2d524d; 0x47b75b90f5676585; 0x22de9404791fd48c; 0x3f9140c7989a4dd3; 0x7c0c63c3e6cf67c0; 0x286ba75f5ed9cbfa; 0x4785aa9e169a274f; 0x7f6919366ceb5547; 0x518759dd3c0f35d4; 0x35028d69b70f65bb; 0xd921d4d7d526f93; 0x5e8a6b6fcb902c4f; 0x1c7566eec42e3809; 0x5dc92358cef863c5; 0x29ea3921685f51eb; 0x3103bbf2c52df2e8; 0x5d195ff228b5317e; 0x749988e2bde529eb; 0x3dadf1a1cb7d8ab9; 0x24f6447fff370bca; 0x51aa3c9f3996dc7b; 0x5a3b2fc789729a01; 0x6905649c75c20bec; 0x6079f893e83645e4; 0x77f8e8273a4445f6; 0x46f40777fa383556; 0x3343de170ccc8171; 0x398331f65839d241; 0x6c619beceafe9660; 0x3591d7970f1197e8; 0x5fe243a041dc5dfe; 0x27cf6d50f227eec1; 0x688b98cae61fb9cd; 0x28f7598383ba93b2; 0x592c5ab4b72fa2fe; 0x772b97a70351c98d; 0x4e16dff6cb743d03; 0x5da5a1a4832b4a4d; 0x17616fafec813926; 0x4a0f8dff3b869521; 0x6cd3af31e72fdab3; 0x29e07141d1774223; 0x4d8184d15a544d0b; 0x728eeb0dfd009881; 0x22b7536ce9f864f; 0x2f71c6c57e902c58; 0x416e482317b3e800; 0x564be103688f7003; 0xa4699504d7f824d; 0x612268b4916ed6a4; 0x787496d4d50c2f45; 0x578db1b63f576b45; 0x6e6b2fe345b90bb0; 0x49758af6cc4740be; 0x73ab75018266b614; 0x2c0e8a4508536bc0; 0x57b3fe657b2d96a1; 0x2fc77ad133de77d9; 0xb525d9c3223fc1b; 0x3a8b681310c8f5f2; 0x32cdc05ddbd0bef4; 0x40da9484811906d];
   [0x7fc1cdfbad111cde; 0x546e3f8118268b20; 0x23db0930add29381; 0x190b92c15cbd9e4; 0x4e9ea88fbd71c16c; 0x10b7689e8e92d3cd; 0x3f665310bad17459; 0x4285db97c1884dbd; 0x7eb56eb2d8b9d73c; 0x2b01f4fb6221ab87; 0x5e79c8d14043a70f; 0x668379f6223d86c8; 0x1468e1fafa8e23bc; 0xe06c6bacd0f3d35; 0x5ae0a038027e9065; 0x690cf08bf95bce41; 0x4671023fba25b5e; 0x60e617cb901cd073; 0xdd2e60c39551538; 0x31f3cce6e44aa872; 0x6ce4a8d3cd57070f; 0x7b74902ae7aba95e; 0x2c23e3d9d1f472be; 0x39876ec2e1688851; 0x3922af3df046d71e; 0x1f4a12945fa054c4; 0x4b7d5188a1e3a36a; 0x3aae84c685e6f9a7; 0x38b73be50545124d; 0x11f4421c51967075; 0x5cf9643cfd0b0a55; 0x485bd75a3d7ac0f5; 0x8aaadd876d89d35; 0x233fea528748e7b8; 0x66cf6029bbd76176; 0x7776359558e3c926; 0x5feec18ea4fcf6b7; 0x49854cd1b3dd8b17; 0x5db9795b2abd5ba1; 0x36da80b7d54fdbbf; 0x56bf06e31b05644e; 0x668285317a58e283; 0x6c56d0480a3a9445; 0xcabbaa2699cb368; 0x6d4f396b812e26d; 0x10731ccd5fd9d7db; 0xa28e90eeb065c91; 0x104bea95526f4b1a; 0x407e13f8bcbdd99d; 0x1b5bd1ba47223ef0; 0x245f481849248fe2; 0x1ce120567f613768; 0x19d0adea3dbf967e; 0xd3d99bed87eae43; 0x71fffa7b47db9ade; 0x3ad22c323cf2fb7d; 0x4fbf8ee048240d9f; 0x1ef7599dd38f2eee; 0x310e9022a683d9d5; 0x440e1062e4e4784f; 0x270125f94c231b32; 0xcc5e1f6ac786dd3; 0xdbbc2501d64a4d2; 0x2443ea3535951157; 0x5b51fd67720616a0; 0x30f18ceda2ad96f7; 0x486bee2a25cc7ca0; 0x7ebaa9a8df0a85a5; 0x6748d9405ffcb999; 0x7a648364fe5f637a; 0xb770804e97fffa1; 0x7585861dc8493001; 0x298ac0b70f95692f; 0x82789d49f40a51c; 0x6a0eb27b8291698d; 0x4ede296c66ddda84; 0x2d32ae21ee708486; 0x49df2229ef49c42b; 0x252c441fd2175ab2; 0x6b4ca6775f88bc72; 0x5bbfadebe5295f76; 0x4a414484e4662203; 0x4943d9083204045; 0x7c78467bfa3de373; 0x3215391e3e1f026a; 0x5f24aa6ef3088c5d; 0x6cc58e04f9e36f9d; 0x44c4b49b64762aba; 0x230b1aadd443a515; 0x64062c4f14b3c5da; 0x7035623fd12cf288; 0x7388e7499a58a131; 0xa4edaee76bc6cb2; 0x1edc3892605a7192; 0x3a09acf68b1df493; 0xe46a360f64fca6a; 0x45f18f5524657a86; 0x17e16be206ecf2f2; 0x2761eb4c8a5621ae; 0x3860e52fef95925f; 0x75a9b0d2c9e5b2e4; 0x154896ab1a52fc77; 0x7d66c8f235c9a7c7; 0x1b67d8aefb074dad; 0x529020a97d3b7738; 0x4c612892109ee006; 0x5ff506a6ddc11be3; 0x2c2a83ccb51ef865; 0x301c3a8e53e2a92e; 0x18b7844c1f6da48c; 0x330d8c4d96c0f1; 0x27ff39c5477297c9; 0x6da70bb882800196; 0x64a8536960cb23aa; 0x5fdec314d4e208e7; 0x7ecbf430bc9a3d5; 0x6c8aac15c87b0e22; 0x12d34e81f0b77004; 0x7252a302acef24a0; 0x4e2027bd8aa9f79f; 0x291883a51cf307e7; 0x59d89882305df41c; 0x79d2186a7c93972a; 0x6292d25c772e8873; 0x454c83011ca1ab24; 0x5ea885b6cb098d20; 0x1bc8fd0456480f2e; 0x7bb138271329a7b1; 0x2d9de73c9b1cde5d; 0x2423fdc848b31897; 0x4bb96df10748340f; 0x68e8c0806c955098; 0x59093aa4d0f5001a; 0x7aff27e019446b14; 0x75622059db5cffe4; 0xa64f9a8695755a3; 0x3dc3286aa5fae585; 0x50283814bd79bec; 0x77c9e3bb295527b4; 0x66169533706f9e12; 0x5ba50d4e2ac3425b; 0x559609262d9724f4; 0x5a0df6894af389e7; 0x1f79703a9e258b6a; 0x102d1aadf30729e6; 0x4a4374ed9a1d7d07; 0x591a86c201223998; 0x2e21d3e8f7bedd8f; 0x10fd39ae86f7a220; 0x407d3d62a716f477; 0x431346fc0fccbd52; 0x3f0fc9ae9017810e; 0x46e9e6420176f002; 0x259e4b92cddd6a91; 0x48560f5b8f40ac01; 0x26817d2c748e7909; 0x6ef3a35939e67d4f; 0xcd176d392eff1a1; 0x590c53c7ccc2def; 0x5e7f27f918ac185; 0x3a7a4123645a50f5; 0x6ee48c37368b49e9; 0x6f8f1cc0c1b98bbb; 0x3aa9424936c62791; 0x6e9d626769bdbbaa; 0x71e51828d15a42a3; 0x2824d658122fa17e; 0x4190a39b106f5eb5; 0x204d8c674f5ec5b7; 0x225fa88c1bc6566b; 0x447e6258f9b71f22; 0x76b034770cc57931; 0x15874847393c5e2f; 0x3318d042e510d5ee; 0x3e7006a621014d4f; 0x3267c7fad0c2aa4a; 0xf12d380ec1694ce; 0x194ae4462f606bd3; 0x42df8ca87e492853; 0x4787ef88fa2c0399; 0x4450df9b1985f6d3; 0x2792b6895a2e4cc2; 0x7f60c16516b01bc4; 0x5bb61c52b0019432; 0x6c1753519fac47f0; 0x494fe5483ddf5a66; 0x6a74f06a16bb8cd9; 0x6da6bdce500c615d; 0x6d4dd4385f6b6928; 0x51613a88296d1470; 0x5f7292355ee30fab; 0x5daf28d6814ff5d5; 0x3bd8b3f493910a47; 0x85fd1fec6cb911f; 0x45e6e4ea4c2f9767; 0xecb03a382820bb0; 0x6b8dc5b63a14484f; 0x79b71cc45f68a89a; 0x66876f9cc75f1e84; 0x35f2d43b6f2d4e7c; 0x3bad892f2d2623b5; 0x60eb10a459b118ab; 0x2cb86be6bc1d8b7b; 0x2c79bc549f1d321a; 0x503faadc7ab201c7; 0x24d3057671f74005; 0x55103623b0daaa4; 0x73dfebf70fcb688b; 0x5f365cf3f4eb3ce9; 0x764d9a932599152e; 0x6c4c27dc3f8f690f; 0x10b70839be8e7fba; 0x79845f303a61c986; 0x2f5adc87e5175def; 0xa78e3d4a5e9059e; 0x4552cf39173a18a; 0x38ed137520db71bd; 0x4b7a0915ec8cc31; 0x5b587816653f3f8f; 0x70d8391bd43b5311; 0x329ab4583e1702ef; 0x7114337a87cfbc9c; 0x53c073c9022fc371; 0x53d67160e2de1786; 0x30096d33a53f0bbc; 0x7b13d180473c0a73; 0xbae12283a0ea2c8; 0x66b899eca483d95a; 0x3691d72defd78590; 0x7531c9611158e9fa; 0x48ba47c8355ba915; 0x43d367dc18b0e3e0; 0x70795dfbee519b02; 0x7c059125fba3455a; 0x284f1269a247ed0f; 0x53be6aba2069b389; 0x6588efa947d94cfe; 0x30eacaa2bcad55a2; 0x5df6f0421f98237b; 0xd8935baad92615b; 0xf76d024a459a97c; 0x71ef29a9a57d17ba; 0xe484931420e6023; 0x1a95f01a52f9e8a3; 0x5b4a220ce114c23c; 0x204610772658fd13; 0x9acc36a0673d54f; 0x2a38239a4e5a9eef; 0xde0f921d491f929; 0x7ec278c176502695; 0x1e4eaf0675d810b6; 0x68604f3fb1cab29; 0x4bbe59fc88caefa3; 0xf454089927f1c0b; 0x538190301af6e145; 0x48828399f777ed25; 0x468aeb7784b4b8a0; 0x7a8e0c439e7a7770; 0x3955cb51c279a566; 0x48e93428dcc0046e; 0x3fb2d6382dbe2cc9; 0x36cab6080d687f57; 0x65f11d92837df2e3; 0x4f6dea455943038f; 0x1cb4c3db0d342340; 0x51c415baa06d7d0e; 0x34623da92502788d; 0x3ac09f729fe48902; 0x9fe4b8835707159; 0x386f3dadba91cd32; 0x1d98dc25a186ff5e; 0x26055b68ec501d91; 0x4944b5a50a47e466; 0x3b9a5429b1096adf; 0x1a9c2870b97e1b55; 0x31cbdbeda8781df6; 0x4e05e1823593b67d; 0x15c052263d8757bd; 0x2148cc1b5af3530d; 0x106019486c1e8e9a; 0x27f3fa1001ddb44a; 0x2226fc4c647043f3; 0x60196b6144ffc06d; 0x2d09a48272dac98f; 0x19c83052aa2f9381; 0x3a7ad01361234ca7; 0x6e67523bbf23cbc1; 0x166996e1e8f485a2; 0x57a0f2de3ea5f5e4; 0x2dcafb9d3c83d021; 0x5f5bd35130ee41b2; 0x4056d3d5359ab99e; 0x75c918c7280506e1; 0x36910526716b64c5; 0x74558553f7d7a739; 0x7352581fa9740a6c; 0x74540836a0a7ba1e; 0x4b28aaa16e6bd488; 0x63a85441f6cabd1f; 0x3b0edc0c3e8f9793; 0x575767d0a006a282; 0x50e959e31c5c0f5b; 0x354c131103ce3332; 0x302c62d8dc1858e0; 0x63271daf8038135; 0x7c4441126094356a; 0x10121552c84a13db; 0x1feae6a50c9b67ae; 0x5a139d1d30b4abe6; 0x155e827b3cad4260; 0x594a128949fa3ae; 0x3d256e7a81834643; 0x345c5f71a4b1191c; 0x778499e0ce463fd2; 0x3a38aab4072318a8; 0x32771117c786a45e; 0x43e8a2171dd153b];
   [0x4dfc3737407c84e2; 0x435ed6f814a262a3; 0x49bdaa20fa49a765; 0x2e8846b8fa9bcd45; 0x3107c3decbd8d82e; 0x47d98f51f9f22cff; 0x19a3aafafdbddccd; 0x704267be0a341472; 0x602129058963bf96; 0x35aca4395651418b; 0x59ccde55e87673ca; 0x53b1a41ac62925ca; 0x5673075958f17fca; 0x684f0ba1c8db3e66; 0x9556257fd937613; 0x162f3976e03ea0e9; 0x40c62ee878c5b21d; 0x73bba29c021f8af4; 0x6f9b2ced7672b05c; 0x2a5cfc9c7a8d9902; 0x2c16f6117cea1661; 0x291b0468d0007c90; 0x1087adc1266642a0; 0x68a875cb440e088f; 0x12b54f18961685dd; 0x77c49d2847532af1; 0x71dccc7aa30878cc; 0x31754e5f9c8f22c3; 0x5c61243f0bc06ce9; 0x242e275e149f5b23; 0x51491b5a150e03a6; 0x2fcf8326ff12202; 0x2ff1b65b0c553937; 0x796ea27e75fdd604; 0x7238b9cc3a3cf057; 0x35f1cd4afcad3e69; 0x63db5ef1c037ef14; 0x30101d8483f6841; 0x59da5a28924fcfd5; 0x2a70248f5f15955d; 0x747db063a6686e11; 0x4e3492336318e4c5; 0x2679d13588d80764; 0x1201564095fe663b; 0x70ecaec894c6a402; 0x17fc742e05be6c4a; 0x9848d8238dc645b; 0x39307dde54e4d41; 0x705b1838a483a6f4; 0x73e0702092965b03; 0x624ee57243914bce; 0x3e752864612bf78e; 0x62b40c04a11bdaf5; 0x7a7b3e354572baf; 0x4f96ba24a9ea195f; 0x39b39362b2f47156; 0x148ec0e4c447b45f; 0x43a1540b4ab12be7; 0x6c39c718253997da; 0x120768d307f7507d; 0x627af37c523bb671; 0x3ab12460f08e567a; 0x5c304f3fced85a67; 0x20f1bb0db9d63915; 0x7e5d60fd4fa9d4bf; 0x11aadbd6882487; 0x4bd40b76bd80a38d; 0xc705bd8ca7afbf4; 0x29faada353fd5f50; 0x43a6b3c7a2aff354; 0x6b45b63a81971114; 0x2e085376e860a314; 0x3e641b60d60a5525; 0x516be059ecf44f5d; 0x5a2a60eb4d74ab9b; 0x49c13a45cb4ea398; 0x7da1eb931c8f39a9; 0x1207543f175a3ac1; 0x61ff8b602e89ef9a; 0x5a51a99de36c33af; 0x7efe0e5da00c126b; 0x5a85e973dde5d176; 0x4dfb2168fc59d6ad; 0x47884522aa61c7bd; 0x60bce781d3b60580; 0x11ed5cfaed9f8121; 0x1fd5a9f66ab90ffa; 0x16c47a341ce2b8c6; 0x4aecca2ec969f88c; 0x5758031b21a533f5; 0x6e238f50aecb1607; 0x7e676356ab0feb72; 0x309e71fcb4d30889; 0x58f4c9f3f23437f3; 0x70b46a0529e5f041; 0x9a871ca41a8d890; 0x38929dc36a2bd98d; 0x513ffc0a26cc00f1; 0x2f2cbf51536e0d64; 0x50087d7666601dd8; 0x7c12490e359bf857; 0x530d19948b493271; 0x6d6d493029ab835d; 0x73aebe09bf180899; 0x39df3d31fc540eab; 0x15576e7e59ecb20d; 0x4e3d21ee183ea06b; 0x79bfa2b91a89a272; 0x202d974fefa93f22; 0x6869600db17f2c36; 0x4b13ca5349a13b1e; 0x4b672f1ac2e3d3d6; 0x151d90399149cc20; 0x59da5943cbed7e2d; 0x38039129841a4870; 0x1887d191243ecf8d; 0x22f1df7bbcc6b803; 0x19976d525978720b; 0x66038a25169aebfe; 0x4fa914f28ba4b9e2; 0x1337521e3ba7a36e; 0x3391040ac90471c3; 0x3d9e257bc4dc1718; 0x284d95e201a267b6; 0x1ba02a68fe4e92ab; 0x3eb6189aed682465; 0x7af8ce4cd76abeee; 0x13fd316556be9600; 0x1c7cc401e8802cab; 0x6f8c986ed0b36eb1; 0x44c75c2d8262fac0; 0x30685e89a24e9b97; 0x5c15a82173d1cf24; 0x4a7ed99c6d9fe8bc; 0x569a8f4479ddc4dd; 0x2ffbba1e7b2de927; 0x458a66bdcc68a70d; 0x30bbd70f16c082cb; 0x15a686d60e2a064a; 0x582b9d0e14fce34f; 0x386c798e27327d30; 0x5e54b127b63fb618; 0x26ea7a94efd0f483; 0x6b316137710b65bf; 0x4e34aed24273f93; 0x4e22aa20485cf0b5; 0x42aea0999a9a1256; 0x440beb474129e180; 0xaad2b0a05a2e5b9; 0x21a18abe843f8b62; 0x53cad73b7fc3966d; 0xdb3d38daa6c5c43; 0x23b87e0937047852; 0x539313df2eca2fef; 0x2d0d9dfeada2ef59; 0x3345d099da19bc82; 0x50b24b82b1b59ee; 0x4e106be38b69417c; 0x381ebd7e1b96b722; 0x6b64934e562c6b84; 0x7f53dac7b10efc54; 0x1a712b69838a0966; 0x5dda556a8536e29f; 0x73712d923c2b8190; 0x79e4fd82b6762dd1; 0x5ced3ce7f4e1e8da; 0x599fa909a0f58548; 0x449307901c9a364; 0x16031cf63ec7edd9; 0x5a63be13a6d3002f; 0x6c39bbbfc97976ca; 0xfb23e7f9a56bf23; 0x5419d0425cfb28a6; 0x2471ff405aaf71eb; 0x2bff69b910ad736f; 0x9e07228318d583b; 0x36b90278c5504d57; 0x4cf414e7bbec1a89; 0x497164ffb569a98a; 0x11db86d36082bea7; 0x25db720594e7c7ee; 0x1ed7de52ee53a06e; 0x2a517c3207879b1e; 0x1f10fd28f92c23f7; 0x20ed3f28c903ce87; 0xeae92510a9c9dfd; 0xbaa7efc930b21c8; 0x4fadbf5e0dd1393d; 0x70280929ef3e594a; 0x1802cfc183f8ce0d; 0x2de88d5f2a9799fe; 0xcf3bb42c68c3aec; 0x67a41e51f0e4b13c; 0x7950b520b20d2411; 0x2eed381d3fe6a246; 0x74259bf92b31d6c1; 0x5657bcf2fb6aeb50; 0x9c69b8b6729fd02; 0x422c8e704d9b0864; 0x73604e3dc7d26d52; 0x42335b7355af34b8; 0x6971cd6ba0cfa085; 0x43f58e13acd56007; 0x4b99d2d49faeaca8; 0x60e7d45289491efd; 0x612582e98ee37cc; 0x7f0a06ca4dbb26be; 0x5e6b372783496992; 0x1b690b4269fa09f4; 0x3fe671c73e822cdf; 0x547f46579e56c38f; 0x367fa68440777d5b; 0x4e461e45c460433; 0x53deaa3df02e9bfa; 0x46d4db6919d4b1e1; 0xfc2e26d83edecb7; 0xf1600c9aa0bcadf; 0x10a6c7ae52f8acc1; 0x69690b55dc37f214; 0x40751fdfd5de19e7; 0x648c424e41d5f63c; 0x59831ee61b656ba8; 0x2f6d832d13e4770b; 0x4600b0161d7af33d; 0x23097460d6fbd6d5; 0x1788190aeb20fec3; 0x2efab17c2e94b7bc; 0x23d561475262864d; 0x3b1b2eb06ac460cb; 0x7f9fc0b466aeb54; 0x68ae46fe63381394; 0x58ab14e6087c0521; 0x5a96069be2d445ef; 0x69e397c9a60c30b3; 0x6689699a5487e6e3; 0x150a23aaec705d7f; 0x5ac915bd33c3eb76; 0x65942fb2e4d35022; 0x51c2e86b44a2f99; 0x2e802e81df222f5b; 0x2860208291b0800; 0x549492d66c21070f; 0x1529f35189c54a3c; 0x585545019552b0fd; 0x1bae196c28635d87; 0x729ed964b7ac946c; 0x307ca45b5c493d8e; 0x4ac691960c8072b3; 0xb86bf65f3ba3e1c; 0xcb2d6baaf51cce8; 0x52051986154ee8e7; 0x29dd08e77827e32a; 0xa353afd99f5e4d9; 0x1302647aec76a3e1; 0x113d5dfc0bc89aa1; 0x41bd9ab1fd1173bb; 0x5a976fd504ee68f7; 0x5aeef128f4e1afce; 0x2a0b222d395664cb; 0x771f8ac82f778962; 0x3f2b32a5a5b9ad2; 0x7292c006ed981804; 0x15158959a22e1091; 0x4e077f593e6d4b31; 0x6e6617138f182e45; 0x25b438e6a0c06db8; 0x53d6296637ece2b0; 0x306c5fa609e3f0cb; 0x205a8cffda2e6270; 0x2e92b9e4358f5f5; 0xb6df15743bd0e6e; 0x3270db1946287e1c; 0x7d41dee3f848ad52; 0xf24f5d76306bef7; 0x6ea4730cbf83aa9a; 0x74d5f558b71fdf8d; 0x7e1573699385079b; 0x2a90b0c3289fa571; 0x2730e9b60140f688; 0x602a30bf10f88bff; 0x6b0b8fe811d56ae5; 0x154c01fd0ed2e352; 0x5e2c2153234d9641; 0x1a144703974bb185; 0x222c1adb502f2561; 0x1abf77933fd8e1f7; 0x342f1444dcadc45c; 0x2c8adc953a74fa59; 0x42e4701e2b39ddc9; 0x3c539186e6485428; 0x13f8be864a757aaa; 0x2eafcb2533a0b166; 0x6fbf1214126e6c35; 0x3441cc727cd63492; 0x2df7c99f70f8f427; 0x6166ef50d299bfb6; 0x6d299fd5ace0b40e; 0x47650c7e9f4d3273; 0x5c18c586ae9443f7; 0x68a7c555af3703bd; 0x31e33217657bd8eb; 0x2125e587c47ffd79; 0x135366b98e2a79be; 0x6a10d5e70076581c; 0x2819c9aca0268108; 0x391407bb778a34aa; 0x593cb9bb24d13ef5; 0x31316089237f8ae0; 0x7b54ccfeca338ece; 0x43ffbce21876038d; 0x28d12555d3650092; 0x520bff671e9a3f0; 0x10f84166c0a61da5; 0x1778695ff1b9e55b; 0x14b92a9558f121a4; 0x328cf0ee9ffb1dcc; 0xfce44515af1c761];
   [0x19469d822fef663a; 0x6d18ef1df02e46f9; 0xf5b09b0c744fe3f; 0x2c41400adae51dae; 0x28612c2ccc5ff677; 0x19207d6ffd81805; 0x38675ac1cdb273f5; 0x50f059bfc25b82e9; 0x2e283c7d22c75468; 0x341f22478fb262b5; 0x1356ac0b94e96b5a; 0x3659ca20653df324; 0x3ec5480ddb6adf76; 0x1d8081b25c91a47d; 0xb59222386970542; 0x4a154b56ddad2881; 0x49bd0fbbcd520380; 0x5399c11477f42b53; 0x18b5421efa564d57; 0x7de323037c65e722; 0x20c773491d8c85c6; 0x2757a4d9e632fbab; 0x7fbc7bf550604c28; 0x6891812fcecd2a70; 0x230efbda5bcfb26e; 0x5258a50368f16c65; 0xbb4b407ed84d930; 0x6520aeba072b0cee; 0x3d59bb54473f81d9; 0x60790e905006aa34; 0x23cac03e284234d; 0x6e6cf7bfb412db50; 0x178d4d64aa240676; 0x47f115490a9264d5; 0x30da5f79c30668e7; 0x12c8ee1a6f172e83; 0x73c157bfdb39d0d5; 0x4cc0a9a26d03243e; 0x6384e62082d22b80; 0x474c49e9c3de7644; 0x2d207ffcd3e852b2; 0x3a93b683c0bde445; 0xf619b4eb6513684; 0x35de10e16e5c14eb; 0x79ebbcff8fce2b54; 0x2e24dc92b57fe6e5; 0x850579beb07cc6b; 0x2ac5ffebebc7a063; 0x5183e44b7f5fc209; 0x3e1067c843b4143f; 0x30fb1610a010509f; 0x4838f14007f73f3; 0x117e4431988e6a6b; 0x3432ff2bb4b748a4; 0x183f82cc107129bb; 0x7763cddcfce0f4d9; 0x5f36ca1a76c2c32b; 0xfdd378463462b36; 0x6eba0c70167eea3b; 0x2bfa6020d5053d85; 0x4a3f1fe3122b1ad8; 0x7c9ffcbcf802290; 0x303d1f82affd5bc5; 0x209473fffc29c411; 0x4dc22a448ce6673f; 0x5f11c5e91606d3e3; 0x38a7d765f5dd094f; 0x3cc88165e62fdbd5; 0x336b7d999dcf2c32; 0x5d4cbfa7f9a23815; 0x745eaf328dc8ab83; 0x1409430b346b3b61; 0x729cab9f4688629a; 0xd04ab7da85e951b; 0x1058f192c4cc9a50; 0x192ef15f20495489; 0x59cb5ae827adc5c0; 0x30cd4a076471c58; 0x1937154cee956168; 0x5a48bc93a5dc6399; 0x3b0a5454d9f9b00a; 0x346447a9605280c0; 0x293048f74dbe9dfe; 0x21f64e4feb7d4a51; 0x60754a60c92663ac; 0x7e352844898c3c4b; 0x6384a8624c86f121; 0x445ddc576053d7c9; 0x6f5ef6063bc5a425; 0x4b537cd0b6204994; 0x5df972eb524c02b8; 0x3ad49a7ae36005b0; 0x2bcc69d8725a870f; 0x5cfab0eb4e8fdde8; 0x6c0a21b6e76fd747; 0x4f029db9a2af6a9a; 0x45efc0c25044f3ee; 0x213d378137b7af52; 0x54c85291191fe777; 0x1fdb0a496368b047; 0x73a314df9a53cd84; 0xe98e789443bf698; 0x7e4b8982219ff866; 0x3ef32b642c347186; 0xc422458f2eb1df6; 0x6f376185c09cc1f; 0x205ea5ed9c7b2372; 0x7ad40fcdd4544e5d; 0xc0364bacdbedfe1; 0x4a4f7fdccc3e36a3; 0x2912ba0a1bc3a2c4; 0x4744bfe506f258cb; 0x73630f6f13fb2a5d; 0x2996fd3924f85df6; 0x6db8553bb328f339; 0x5f2cbb69015d1249; 0x6f8e46088f759d54; 0x701cde2935349118; 0x612fbfaae7e66249; 0x13d4011ace8b22df; 0x7844ff594eed0624; 0x2451ca73c11392bc; 0x272416fb4caa8ee; 0x6eafde6a0eab21f3; 0x2d8675ab76478c8f; 0x697a3529c6b8d48c; 0x4789436e9e74dc24; 0x423a198e3c875c06; 0x741d796a2ea8a3ca; 0x2da6672e82742d4c; 0xb609cadc63b93d2; 0x3707fdc5b3ec5af8; 0x5d6e28218a85d0f8; 0x28df345848209033; 0x71bff5bcd25b6fce; 0x3a5e6af9d90f28bc; 0x2ac3a7b851a71bc8; 0x1e86cfb8bf998cf7; 0x3a184e1d2f1e9ab2; 0x7592a45dcfcded50; 0x45db32fd57daadf9; 0x58f3ed23f18a0f6; 0xc576e19d4527a86; 0x4dbb924cf47089bf; 0x26c6af04aca74371; 0x77c755a2065ee3ec; 0x187186152171c638; 0x4fc0ee684621d43c; 0x30e4bb6daa9f1ab2; 0x5b43850f9ffacd80; 0x107163bee975f059; 0x307b2b7f488b7559; 0x7be8452a15d4ec22; 0x488fd8be9465bdd0; 0x1b413dd899dcf1e3; 0x75ce9ec8f1f66b9b; 0x6b7f64c368b081de; 0x26ac3ebf647e39db; 0x3e7581c0fb8c27b0; 0x7955993f30bb690c; 0x30b56764d3537bfd; 0x11187f161d134ded; 0x57e479dca80c1be9; 0x56af23bbcd1401b; 0xd2872b9110da6c3; 0x6557e5dbc9191b85; 0x7fb4162dea058172; 0x312702e3a39bfc5d; 0x1de4ae3547896f3c; 0x225b2f1e872438dd; 0x45f93327206f4d44; 0x3934abdb2c978198; 0x55c70e69570428b9; 0x5d65a07234b91a4; 0x3783f2c93724685f; 0x550c9efd7e2e451f; 0x77b2678dde914027; 0x2e2894bf9a77f395; 0x711a3a79e16ce22c; 0x55c3c96e5709bf66; 0xb6ac40d08b7ae69; 0x111629fe91dbc1dc; 0x7226ce4760a0a51d; 0x3278849d68eb98b6; 0x4a6c088e72b62314; 0x3b48bfa182968e2b; 0x1f1ccfb9c091d27b; 0x1bf3952136bd97a2; 0x165a4466971e1294; 0x7da4905d51056497; 0x1683767bf14dd0ed; 0x62dd67726018af69; 0x4e5006b0335dfc81; 0x33c30b89e6477a18; 0x14c98ce26b76f064; 0x247ce1ac4e9cc256; 0x77d0c9cd599513eb; 0x7bd20a4952087f65; 0x7d376ee5bd3c9ea8; 0x282e37d325964620; 0x80079d5983dda5d; 0x52d47d592dbe3d9c; 0x6547323b17d96771; 0x35dbd87de9cb260f; 0x3ae826cc769eb623; 0x20e4cb6c062e2504; 0x532004a205bfe6fc; 0x5248ba80c51dacaa; 0x7010dc3b6e99aedc; 0x7e5b89691c5d0404; 0x29413c8bfa776b0f; 0x26b661d2b2d1153c; 0x305ea1f6e49fda33; 0x2469a85a2d9e7d99; 0xd42c11b3707b05b; 0x1e1c2734365d233d; 0x5982ce659e26a09d; 0x4a6d0ef1ebce2bdf; 0x54cfca7c537c4eb; 0x3e16667e8a60ac72; 0x4b463a96cd0fcf63; 0x2651aa75003b578b; 0x5b4526a36cfeba20; 0x1e86879e20261693; 0x11429ac2e1fbad1e; 0x12f20800ef42cd57; 0x537853bbe46035b7; 0x457391014f7aa978; 0x50b47e066e495ede; 0x7a2a53d7613725b4; 0x364c0acfea7a6c4; 0x1429df0b4f56ec31; 0x63ccb619f89bcb31; 0x58e93cb83f62ae49; 0x1cf2d9badc4efe4; 0x1b758151b26bbbd5; 0x1f6f32cdebe609a; 0x38719cca64744817; 0x4bde72c7d9de44a1; 0x78631d069088fd34; 0x6f9f527f00d0f281; 0x3453ed322faef9f7; 0x7dc5173cc32bad0a; 0x30378bf1c875d7f4; 0x14944986d1c67c31; 0x6c24a65164cc0972; 0x1aa5f0db8035601a; 0x6c7d731e5e2faa13; 0x134e60dab6f86c79; 0x68ef44029673a691; 0x23371a120d9e3712; 0x43d9d91665d91ac2; 0x435c2e78efcb1e8; 0x7ffd578ba55a2259; 0x1c35ac6fa6a43047; 0x3216f9f7b329bea9; 0x27f600be68e9b9f5; 0x5b6be88a132c4cc1; 0x76af53d2cc7334f5; 0x5cb0b691d8e242c9; 0x191c33b27366dbbe; 0x66f5e573ff07b390; 0x3ba56f07ac639a04; 0x3e1c710a71dd2eb7; 0x75a4b13492cc09c6; 0x31bd1868e50a42d8; 0x37814be756c41b80; 0x1aca5c4922c406ce; 0x4d5e84a0499a8ad0; 0x683f9b091d9410c7; 0x51571e8e8d313824; 0x483772227abd99f8; 0x410cf32d30b2ed18; 0x1832399d4b942bb2; 0x8fd0cb99806c75f; 0x11b569df38c83708; 0x6af37f0d3d49659b; 0x7d549ea5f17af50c; 0x183a865bdd135bf9; 0x731668c973f9705b; 0x2ebb962698994464; 0x42c2b662bdc8adf3; 0x7d6adc3c7e96145e; 0x466453d54ddfb1a8; 0x7c69de22f92194be; 0xf3608f9d2c23663; 0x47f92a08fcf579a6; 0x2ed8e9bde42baf78; 0x28c0fc03a3d5766f; 0x33d63085dd93dda4; 0x6e20a0ac84967194; 0x4b4356699a6acacb; 0x5780a2440bd154e; 0x4df9701cf6f46180; 0x20d3a5b7589c4a; 0x73afe9bf45b2f966; 0x39e760776534dc08; 0x5117b3b862b67432; 0x6e841e5616c4ecb7; 0x7f2c7f5bb49ab458; 0xbd5cb6f06df6461; 0x6c2934147728357f; 0x21de5e5c20fbb750; 0x391da3e3958fab27; 0x74942eefeea0ae87; 0x3191ffada8437339; 0x3aa860a3d0d26007; 0x3e6a4aa98384c1b4; 0x7f212c973cc94ff4; 0x5557934f31ac5967; 0x403c0ea845f93edc; 0x210fbac12fc8b752; 0x60a6a0c28fdbe432; 0x512d4b1a4efe8469; 0x5d69839e96adf34c; 0x6cee95f9916ae40e; 0xed83042b4802611];
   [0x6651c792ab700e14; 0x674bea39d3df17e7; 0x13d633c2ebbb3ffe; 0x16e38d6c8e6fbe9f; 0x538a45e826798794; 0x46dc766abfddb7fb; 0x354540b5c60acc4b; 0x1ff1cbd365a79ba2; 0x1f4f3da5e8a73a24; 0x2b1397f4d7c159e4; 0x50c5d7f7ddaca289; 0x3d86a4f7f85b7ca6; 0x4e93076cbf1df3ef; 0x7934c874f354949d; 0x40c4cc7b63ecf9e; 0x1cd3c122df8c0aaa; 0x3ab525ee8f2fc1d6; 0x622f02febf063b0d; 0x577e7546f53e62b1; 0x3cac4671accf6b57; 0x3368a89669d0429b; 0x365a8a79ee6651be; 0x75c6b4f7a68213fe; 0x4eda7aa054e36d52; 0xbdead222f3f4f69; 0x2a0dbc48fadad175; 0x2d2635ceb357b84c; 0x561f89c3b3e2b0c9; 0x5a51fc377946541c; 0x501ed101011ee39b; 0xb7e057f86f12195; 0x78d78283db7768ab; 0x41e68a12b002ea15; 0x383a690dca92bd33; 0x30dec6351e784305; 0x63060e46f69860a1; 0x26507fa55002a50; 0x6a22109896f6737f; 0x2072fffd3f7004d1; 0x262ce2a23bf71baa; 0x35384d7cf92a0b96; 0x214cd6237ccb979e; 0x7996325a43a7c3ff; 0x573931b720dfe67c; 0xe22bf9d08b79ba5; 0x46345704cf1a0cd1; 0x7d4896488d50c3d; 0x5d592d4a266c326e; 0x34da9e9c6b6f0961; 0x327595ab8d192f3b; 0x5b85937bb701351c; 0x5910242158ae799a; 0x5d8c025e6df67519; 0x6d524cc83574b14; 0x404d8c32005c04b6; 0x198447831e044f58; 0x23e891041a159ee9; 0x2495e16fc5285048; 0x5dfdf28ea5d6962d; 0x7a2798f6bdb0943; 0x61e82525029d7a7b; 0x2afb85c3bfd33b16; 0x7d2da4e195bc4eac; 0x6800e9ec8d94ffb3; 0x9ea47b4f75a868a; 0x3972e7962df1bda5; 0x4981b2c9a8889afb; 0x4d9f657fcd913a3b; 0x61df1bc67f2da12e; 0x2035de8050e210dc; 0x7c144b9455700264; 0x560c1c32ec0473ee; 0x410651ad77b28f27; 0x269196680f7a6ff4; 0x2961af2c75d1ace2; 0x6ac4d60922dcaae0; 0x5bbb7bad1f3b054a; 0x34bbfb1bf7b2d349; 0x565682b839e0894f; 0x578ba3c30cdea762; 0x1eb98ed2d2ef642a; 0x1ed91508e0fced7; 0x3dbda10512c5492e; 0x5266e31a62d719ba; 0x701293edc52e2f1; 0xb80470e53ddb0b6; 0x226dc21f42bc12c4; 0x1ef73a92e57ffd9; 0xf9cf73bbae45ccf; 0xb63c07cf13259cf; 0x67baa845b926f637; 0x371d46e6340a80fa; 0x5bb2bdabcae638ba; 0xf00097086323826; 0x46bef2b397bb83d6; 0x5177a9d2a0acf6d9; 0x739499fe0fefb876; 0x817d9cdd1e50643; 0x56dcb0aaca149b0b; 0x33efb774b9a90f78; 0x7ead223d7923188e; 0x526150cc6beb0c80; 0x665993c2f89e5248; 0x62deeca36d716dd9; 0x737497d96a2a8ea7; 0x1d87d9fa8558732; 0x641b7cafbcf4263c; 0x278bd7f46bd12ce6; 0x7538b5fbf3286b80; 0x2ff209da0295e7de; 0x110d921f57abd825; 0x514dcc5af4b06059; 0x4f56f475ca3f5b69; 0x14a4c7dad5336277; 0x3547c5231dd8aac9; 0x6cdcec9cdcd032b1; 0x192325711e72908e; 0x1a2ac5868fab001a; 0x709cdff9dc073f05; 0x33199d5fc3b0044e; 0x259e809302e4ff4e; 0x73c0fdc344daff59; 0xf28a834e9fa35be; 0x831da21f0d8255f; 0x5c0cd961004ffdff; 0x776d024ad9b96323; 0x4699cbe8eefea3c4; 0x34de409b845938e7; 0x2ac101d359897f6b; 0x6aa7d93da22b2d8c; 0xb80384d69b9aae9; 0x32babdd3603725d1; 0x2fcb82eef02ab5fb; 0xb503815eb0eea7; 0x7c726a8f7ad686b5; 0xca0e8b7f70f092b; 0x94f3e085735918a; 0x1075e0f1259ca7ff; 0x7074fb30400d327b; 0x103f92263170da7a; 0x68c53cc687dda069; 0x266b734bf24a88d3; 0x146d3164327254ac; 0x61e1b68f92860f76; 0x565504b8da427b86; 0x6f925442588bcd7b; 0x6dd3a093cb915165; 0x1e8c03493888f36e; 0x4af8069bbb405168; 0x3298f504d17524a3; 0x8e72475c6d92dbd; 0x4319966593bb81aa; 0x7180138621d4939c; 0x5210c39175bb20db; 0x19b07a17cd6a112f; 0x7e35a80be5a4c95f; 0x7b04a745558443c; 0x2c36737dd5bf038; 0x61409216303c1c99; 0x7cf307eb066b845c; 0x269a7cfca0e6f91b; 0x626243c526832b90; 0x1b84f1ab2e88ab14; 0x1c6e30e67d0dee05; 0x4df2df119afc0ab5; 0x24912f50125b698f; 0x6fb8914c7d095079; 0x5034cbd28a330410; 0x28ee458609accf4; 0x7b5779c2aa8a89b9; 0x2f3a55b4f4cbce49; 0x5cf4afc8833d4a2d; 0x5858b69848972d7; 0x3fe60ad883546b13; 0x63cd07c5c9699a0b; 0x20067f4986c8e8f3; 0x2b15292d4ef340b9; 0x179a7b1d3726376f; 0x45b646bbde263f10; 0x740d2fdfa04af428; 0x6c3d844fcd7dd63a; 0x7223f7e3cfeba489; 0x6afc6f92d06fd6bf; 0x209105376854fbaf; 0x3d2382644cd2b83d; 0x3acede41e9b99902; 0x57b6f15796a37854; 0x1c87e234d0e266a0; 0x77161a921449fe20; 0x3609bf5e363d5f44; 0x365132368535674; 0xa5cd2d8722c5a52; 0x6aa6d9d45858f3c6; 0x4df92af35eb337ed; 0x4ca00596b888c66f; 0xea9984779725a23; 0x472a06095e537730; 0x328bd47ab59a49b2; 0x33250707585ec6d0; 0x5ac5948b6a6809eb; 0x6cf7916c63debb69; 0xc6920ed882485e4; 0x33780d14abc69b65; 0x7f2dd8c9b1be8117; 0x6c5f07f8b85041b6; 0x7d5880c31171f058; 0x3d04ebe519021f2; 0x8691512c26ebed8; 0x219c71ac249552e; 0x798db7e01f272e80; 0x5e5b5c509b6107f3; 0x26d59a6ed2eed021; 0xfe6d3cd9cae6758; 0x103034e7ad5c964e; 0x2b715888f797cb26; 0x6c2c23313d21f11d; 0x111654ee6469810b; 0x784bd3275105bf6d; 0x1db6352383b51b2f; 0x677952251e2fd234; 0x460f224a2211b901; 0x15dcb473454c4f8c; 0x64d05b8e73000be4; 0x4390474dc5eda5cb; 0x124cc7b4a294bb6; 0x7af40e49d1ec64b5; 0x564df1b38124703d; 0x3f1505da759c0f94; 0x5734437631c6e41a; 0x540b523e59f8a6a0; 0x25acad6429ec23cc; 0x4888f8e638d15f8e; 0x54fc32d30a3c752b; 0x78d8620fbcda0166; 0x237ffa773ea684cd; 0x7c76a5c917adc116; 0x436d34c522b477f7; 0x2dc96bd7a2e3fa3f; 0xdc8a4926e1a8e70; 0x263f1552d67e7062; 0x3baf8fcda1d8f863; 0x5f0607c93b1fc083; 0x4d2102103f72b501; 0x12138aa5f528f344; 0x663fe3ba99bde19b; 0x43fb7adf044dae78; 0x6a71580178f2e56e; 0x6dc07a45d1fd2bf9; 0x18601e2fb3a95aa8; 0x153ad26aa954d3f9; 0x6ecdda1ff4c3f5b5; 0xa15a5c7ce62b35c; 0x55802430d56bec34; 0x5a2e1ee4ecef8cab; 0x732d2b9baa001cfc; 0x1edc29930043ed2e; 0x52c8a85ac2b2938b; 0x608294affde01d42; 0x51a89ad61ed617a7; 0x799a12c7d48ede45; 0x7680f809f313c00f; 0x41e0345c0b071fe4; 0x1b430ae1a0dbb8dd; 0x259575c748f14e9f; 0x34333d941f6c0867; 0x32290969d9996976; 0x7fe44d66e2fbf12d; 0x12210345406e1b8a; 0x10d58c59bd40df70; 0x6e1e08ec566cb562; 0x24b40018af06c380; 0x2dcfe920ca786fb0; 0x727a02af8e201cd6; 0x4ce63190055847f8; 0x47d14f68b7baf770; 0x69d58ddb01fae192; 0x371bee32a6847b30; 0x6ea9ad9a1e8cefad; 0x57073a29d82e9aa1; 0x4bda75e9acb69eec; 0x7bcb197bf726a4e7; 0x6408538f7bac1cc6; 0x26422235a761362; 0x66eaabeb4b5e710b; 0xb315c9ef2f0d86d; 0x1a810eaf382f54eb; 0x3e82ca39f622f43; 0x452150d2189e76ad; 0x548688ad589695aa; 0x6de926f37120b7c3; 0x378eae859949a603; 0x66463d1d921ef1c7; 0x7ce2e1c9c44b0c26; 0x419b17e014dd1ebe; 0x779589c0a5eb7ed2; 0x3a15881c487030c8; 0x67ff9bfcab85fdfe; 0x1217244c06245c4a; 0x181ed58f72318d81; 0x4b6cb96ff8021aa9; 0x1ce584be2a2f403b; 0x5b56e34e0530f151; 0xa22cadba034eb4f; 0x25584caf2c6120b2; 0xeae93606cb91a31; 0x7e5508c881953025; 0x2c4dc9fb1e8a993e; 0xca832db54f84546; 0x4114a433595865da; 0xce35cb888c7afdd; 0x148826aabc6b9cc4; 0x3322082e02f9f5f5; 0x6fc4b467cb9bd05c; 0x5459809df5798c4; 0x60f2007c05bf3bed; 0x61e44838f561e3e9; 0xa3ded9e8b54d356];
   [0x7eab25c65aa71f99; 0x351396a70d0bbb79; 0x3a2308e02a433df3; 0x47c068d124e90557; 0x6ca6a0e1cbf1b487; 0x4e169c58019fdf9f; 0x58d31c56444318b5; 0x13e8027ee0211aaf; 0x39971dba44a93a02; 0xa512c5abc22d0ad; 0x79539df5b643c18e; 0x1ea40676857a18b5; 0x529fdae0b2efc9ad; 0x79bad180bbb14ea9; 0x580c150275b6caff; 0x74992c43a35c8c4d; 0x4246b62d4601464; 0x7380eb7074a8c8cd; 0x2879d49082e6ab4c; 0x74436743fb65d218; 0x287cddc9ab325367; 0x34c1aa61fd84b983; 0x45d24eb5c871da6f; 0x4e35d4007e99fe5c; 0x65e7d10a63ea7dcd; 0x6e954e8ca1d5054b; 0x52024e2becfde314; 0x30f7a12cf0a57ab8; 0x3105f575439fbb8d; 0x784f06a1c43bf938; 0x2f4ed9781705b67f; 0x665fd5c6ecff019a; 0x70f232210a023d6e; 0x567c53b77f582a1e; 0x1b56538c3351112f; 0x10c80c811de3797b; 0x6c8f604245860311; 0x2ce00c737e61d03f; 0x6a0478fe4cb3dbb5; 0x109ebba3d55746c2; 0x6953f34b27a8a1e2; 0x17621ded006e5b8e; 0x55a2eff2dc35b5cc; 0x43dffd39badc2d8; 0x64c0afffd9c5b914; 0xfffbbea90f7fd4b; 0x553c1fa5e1c05318; 0x33c3104e178dc405; 0x5ba64763e2095755; 0x323da1db302eabf8; 0x41c1d3df0ef58e22; 0x937ece5af36b13f; 0x52cccb35b00eb7d7; 0x5242123ba3bdd2f6; 0x6737653d7ce06cf9; 0x49ade86184f09e00; 0x1d743fd925960ca0; 0x5416610342e5be33; 0xd7202920f5af783; 0x32bc704847e908fe; 0x55da755b870d03a5; 0xbe9e1b1874ddcfc; 0x32a2a931cbc46200; 0x386ab003da3def84; 0x3f546b232e0a2c47; 0x52ac9b33e904b548; 0x591ee58b384d42d8; 0x5f5f117dae9b221c; 0x77c7dbc4103c54bf; 0x32a35a9fdb6d505b; 0x54d889b92f09ab0c; 0x4edd0f4decfa04ab; 0x56c1f44f59aaa7d9; 0x219d18b17f30acbf; 0x4fc9234a05f8cae9; 0x51486cb03f0f4e0e; 0x14cf3d0de74a723; 0x52041f3b9767f610; 0x25275da7673e93ea; 0x146d1c7e4d1d704a; 0x14c616f7ae888528; 0x2020275138ef5463; 0x32d340077d26f65; 0x2e7464e8851ad402; 0x20811583fcd8b4ed; 0x5293e2f9615aa6f8; 0x32b4cf7212461016; 0x54e6f10b6230e21f; 0x397828444be1e40f; 0x2ccad6fdc099b803; 0x2aca3354eb7d0596; 0x4076c4f6342f205a; 0x64c8a4e5c999be58; 0x58e1fcfd89670750; 0x6fddc12a70a481b1; 0x5aca68337c08ae51; 0x746d665b24e920b1; 0x2e00362aa49158a4; 0xb9d60efccc5bce9; 0x4d6f5f4fa3024d80; 0x5f233918e2195200; 0x35426e18f8fd6472; 0x4784ea7d3706e243; 0x1b80a2fa6923e515; 0xd55ed48be1450f7; 0x640babdd0072f41c; 0x293290acedecab5e; 0x7a9768602d947548; 0x559da56dd0975175; 0x274aaf9a963083f2; 0xce6b14ed8d5aa53; 0x4e325b60125dc0ce; 0x2505bfcdf55f1703; 0x27b9ad99ea809061; 0x2642d8c7d9700119; 0x17a493667e9235a1; 0x31a9588d3649a7da; 0x115cb9a6e21132d9; 0xe3bca739c7c175d; 0x15591e6510e1087e; 0x514099b76497ba16; 0x58e2f0efc30eb84b; 0x50a3d26c02b8bacd; 0x2228db5a6b72a3cf; 0x128f7b1f7c9b0986; 0x54016747e4296647; 0x7dbd12f8b9cac93d; 0x26ed8a19cbafd0f6; 0x5cffd1002f43512f; 0x3c3af6dbf76675e6; 0x24eb9f65ce99c2fe; 0x57cb0b15c83395b0; 0x2641252458fce178; 0x6b9080e063bff0f6; 0x6b9dfee93f20d6b5; 0x18c3e517bfe578fd; 0x239e4d48634387f8; 0x4f00c64716979edc; 0x7602590ca163befa; 0x156f88dcae63ea99; 0xfbeaf5be9680055; 0x12b809f4f7bbf2f3; 0x54cabd6fe41af986; 0x2e749207264f7b45; 0x361efa894b827fa1; 0x5f64a3c7a6266a17; 0x7b0ce50bae5e045c; 0x209a893beb371297; 0x6de934dfb4849be2; 0xc90b9a2aa184f5d; 0x522a9e70160bda97; 0x88725642d7e8ada; 0x7adbbb8b3ae2d1d7; 0x703d4d4a6253b8cd; 0xf9b3443cb15684a; 0x3c8f1c857880ed21; 0x43968e98911dafd8; 0x678495222f1e79b4; 0x573c978f4a903314; 0x38b6c68b59c7dd55; 0x74ef4c36135d846b; 0xd8b49299f532a6d; 0x136867f72aa97995; 0x1ac71c1cfea2d9d5; 0x19aed92dd9767c39; 0x4d7bc15d6ad57d5a; 0x6767cc6cad819b99; 0x1ad0dc9e530c2949; 0x20acc4e16194667f; 0x2fc8672841f82e5f; 0x112aecec3a860ab3; 0x325aaf4bf49a3792; 0x3728d0e371b9d46e; 0x6be550b18378c6ae; 0x63bff086f4bd79ea; 0x35b12c71390edf98; 0x11f94a3ec2574fd6; 0x4f7ab6d67f682ea4; 0x3ca45c2fb4a2e67c; 0x718f91967cce3a7e; 0x7213547c97e38c62; 0xac7f83d75d03f7e; 0x41d18c81aeaa6538; 0xc28df2d69d7a61a; 0x4c31c3e9f4ce9595; 0x407e1052bb42adad; 0x59f0507da1c26376; 0x45bd53cc43d0074b; 0x7539f5e7dc87f3eb; 0x20da8ff06f85f70d; 0xc0a424cd75deea1; 0x2a7166c852dbbf04; 0x6e3acd87968c06c8; 0x3648609de0efcda9; 0x762c1e59e7516296; 0x2350cb31c903dcfd; 0x405bb8f7533a491; 0x479792f2593a66d0; 0x48669bc08534e622; 0x299be07bd3ebfb6e; 0x457ae96f695233df; 0x122984f7c7e622da; 0x5f77752e311b62fa; 0x6846a7a7b159efa4; 0x4a733c9904fe9c3; 0x590272f81024e40a; 0x41dec14a393c36ba; 0x2f7dda9b7b987931; 0x3e8e6a629ababad6; 0x1e8fdfa38bcab86; 0x14d1d1e045cb5f43; 0x47491d89d5e9be47; 0x6fe592535243b7f3; 0x4d2eaad84d400a2d; 0x3255873b32670222; 0x504361bee87a8e0b; 0x2617ca12f02d1f06; 0x48489d42a868e96d; 0xf91804d140fcdbc; 0x6eace92592deccf4; 0x469588becf7d0495; 0x281b48745935533; 0x26c8198eb5d96e5f; 0x2b71ad9b7f363a6c; 0x541765bfb6eb42e1; 0x311655c09e5f0065; 0x31ddac809ba853eb; 0x2d59caeadda733d9; 0x1b99444b7f7e1ea8; 0x78c7422d8cf0d218; 0x7d409793cf4bb2f2; 0x1e0d446d6cc7dc99; 0x3ff40d9aba1de8a4; 0x6280ee4a51dcac9d; 0x6033432d60c4399; 0x6d712405af2ed163; 0x2d7e6fd6fa90567e; 0x784af5056ac0ebde; 0x4d66e2b78b87f520; 0x383e9dd2158514a9; 0x6cd7ce8571deb6c3; 0x2acda226d368ab80; 0x769c8e0a20f5afd; 0x3dc8e3cbc1e6c163; 0x2904c3d72037dab1; 0x65e552689f8a231; 0x4e5f6bce2f7bd433; 0x50c2db0d5331d76a; 0x2e683e8f923e0a45; 0x2f32351d459fabc4; 0x3e9d1d25d545f0b5; 0x795772333e59ceb5; 0x7446f0372032615; 0x27876cf4f345fbfa; 0x46fe5c1ef5a2f04e; 0x3c2616220305d06e; 0x50779aa978ee64c; 0x32fe8f72cc028c4f; 0x45b4fd61a88b50d7; 0x72cd3b562a91d87f; 0x46db505e76d92e9b; 0x24167a91aa51e977; 0x1127f605513cf722; 0x1ee0bf42bc8e24c3; 0x2652044d070ae372; 0x3bb03612a6f765f0; 0x4eab2b2817ae57f; 0xf5d3af04104758d; 0x4b6f6a8bfb8e447c; 0x5dd0ed80e03ae9e8; 0x739d7b52ec55e9cf; 0x1c0b4da72855d24; 0x222cfb0fd9129240; 0x47d0199046de3b2; 0x13a8def855f41b02; 0x415e5841c9bb67d9; 0x321cbfd29858f0a9; 0x4b384305044bd055; 0x4d8164ad5edcb338; 0x2eb0b048eb5d98c; 0x2c5ed39adc3ea7c5; 0x7af07a3f955e7532; 0x181f04d086e1df12; 0x426329da5983ac3b; 0x60a85b272b7cab94; 0x4d163b54366b1f39; 0x3942bce0d4af289b; 0x720e2a02c51477e6; 0x3f54ace8f0170eed; 0x7edce86acc213219; 0xe479d90fea1e364; 0x64d7855e528c32a2; 0x3f3f0da770c9678a; 0x1e8295d6435a9227; 0x49f50dce630846b6; 0x4a57cd961cadb1cb; 0x6fee419215dacb42; 0x19ac722ee0c456c6; 0xcb3e8063fbfc17f; 0x40ecbd43db040430; 0x18d251d7533dcd; 0x3c801bd579a19795; 0x163f5ce8c9bf69f4; 0x2a7114f80f928850; 0x6bb260f3bd9102c9; 0x1590e41b1c6216c5; 0x431485892a5ee9e7; 0x71be11133603b41f; 0x6bb7e653d52cfd20; 0x2dcc4e346cd7a064; 0x610d243b5d8220b1; 0x3f0bda1d179e4d8d; 0x68c689e20401b54d; 0x5cddb3eb6a1d2d5e; 0x6adc6071253ceaf8; 0x1e7685a0c04306eb; 0xc36020b31263251];
   [0x1c9ad3c391cb8c45; 0x74c368e28699f860; 0x106698abbfd06125; 0x46d7742b65dd6e79; 0x47d63cd97b959ca3; 0x7a2679230bc146af; 0x7bda2e34e2faa1f3; 0x228c7d8d1b1c365a; 0x7f0329a9a8a3102d; 0x6bccded627877d4; 0x51ab8e7de94c5818; 0x2cd140f4c1b9a00a; 0x51c53d0433827e35; 0x34974ed9cea8cdfe; 0x8d35fd2abc7d347; 0x1bbb5268b75d3192; 0x44e3bb1eb09921d0; 0x39d0a6fa4df818a8; 0x1e23b33a2ae48534; 0x62e3d8bf18e1a4c6; 0x44962e8f35e9c749; 0x4ab082efd9041805; 0x138f5f71ee33b8cf; 0x3af4a2a5d209c318; 0x4a7b168ebe90d082; 0x2c1487797750141a; 0x6e694bcee708e15a; 0x70712075e097ea12; 0x1df923055ab25c23; 0x52372c7e8f823900; 0x238e7796164b0c21; 0xf5ca63eabf7ce46; 0x6ccac90f28689b62; 0xc9a8a16197a1931; 0x58da6552df758db7; 0x6b36ed911a83325; 0x243499449224687e; 0x158f477434c16178; 0x1b8ccfb6273dda99; 0x5a8d59eca534e747; 0x297bb37936c14902; 0x3163e385eb8edf15; 0x64369efefdf9951c; 0x6cf0a52d53c5fc6b; 0x1403ecc877cb400b; 0x15b31878fb2a457c; 0x3367ffea4b0409d6; 0x1422f0755f9065b7; 0x4990bf5fbe7a183a; 0x685dc7c96861a0d9; 0x507c160ffe2d97e9; 0x5b8920dc5fadb2b7; 0x5412fbe39ac7fdf; 0x79d9ad351cadfdc0; 0x754510f4afa236d6; 0x70612b6f7a0cdca6; 0x67af2eb3704cf25b; 0x226365b13a48c9e; 0x2454e1e204690173; 0x1714f408d6a41f71; 0x5464dc0a6d21b187; 0x611eea6e0f284315; 0x13cfe37409368f14; 0x3e7958ea48a8cffa; 0x62cc7622849b1db; 0x4033db4db3c50b; 0x1d6296da9e72de6c; 0x77ef81e91ceacbb0; 0x34300d4d6792cd02; 0x53f5f960ab7a7a32; 0x1686c95b0f04c021; 0x38ba50f4dcc4662d; 0x70fee1d0f1778c78; 0x5c83177da35b7e48; 0x36d7c47f8a450a0a; 0x3d3e0b8f20162dfc; 0x6e93e637ee4d62d; 0x1243039daffd786d; 0x66e8ab664b49e88b; 0xb83eec69032b328; 0x1600c6bd7781dc9e; 0x3a1b5a18fe942479; 0x330b87e9af5aee1f; 0x714597dd0618d440; 0x767c47823dbb0540; 0x6f52751dfa58a059; 0x3d1d7fbab3036d1e; 0x4a4c6c26ac3f80f6; 0x7e58f9d0965ffe7e; 0x5b22c407c3e01704; 0x3ae86e92e549c65b; 0x445c3e1565828a41; 0x4e0739511377de01; 0x2d7bdf19b46caeea; 0x2d2728e0b88334c3; 0x7cc0e89ea9c6446d; 0x572e144e23ab2983; 0x1fa603bc7d292a81; 0x482ba112f423f470; 0x5d73a857d5b4bb24; 0x70f091d3d731267f; 0x14a9ac0f9934fe2b; 0x5ee12c9673f68b26; 0x4c525ed4e85bdd54; 0x4e5fbbfe2e7a5bbc; 0x6349d1cfb2949c39; 0x418fa201beafadda; 0x6418d44fbbc61557; 0x23fa334f42bd30b6; 0x59770874a59cc1f5; 0x60eb8d5a80ee3bac; 0x7abc12e73b75ebfe; 0x2140fffe3375b1d5; 0x57d4a24b7011c82b; 0x107a9cbc458073fe; 0x8bfb98cde2de48c; 0x1546c15ab167eadb; 0x7d53764ba93009b3; 0x6f959d3676cf0bdf; 0x1b7f318f1cfda259; 0x33e2e4eb3eaa4b38; 0x10b890ea6c2845da; 0x71ea14033ccb283d; 0x3000de7788009e78; 0x4882560b4bc9b7c3; 0x488d6743ffd9cd41; 0x3cabf7b60d585460; 0x2592616ec5b43551; 0x61695be91c86c143; 0x3e3d5e2762307770; 0x4df4be4624bf0820; 0x3651476bfa6ab659; 0x326ed73527ce4ccc; 0x6ccff76cde8fed70; 0x2c9fc9ff15792652; 0x20349799e9d1f42b; 0x3130b95a4c3e9544; 0x5c7815c93ea6d674; 0x6833e93c9bed49f0; 0x60b8a4ea0eed6a5d; 0x5d80f02ecf31ea34; 0x7fafc508f1a7be35; 0x11323475e333dc2f; 0x749fc38a7c5779ab; 0x5e74fff5124d2c15; 0x430e005c43ac1ca8; 0x24522b20abdbd5bc; 0x15a1a07b594215c2; 0x7ba8236e6bdb58a; 0x5e2b408138a5a2e0; 0x7a94a88d277db8ab; 0x50d95cf1746c946e; 0x54068c66c6379160; 0x74412169fa712dfa; 0xc6039a676d72e16; 0x744049f47c9ca4b2; 0x7d0c16a9e5bfbc53; 0x6c308d92c7159bbe; 0x309c7304a561a0db; 0x5ca21ae78bb333db; 0x115891b4b45f3ba0; 0x40d9d4a54d322f2; 0x481feefa8316a782; 0x9ff628da05726a; 0xb16d2966f43870d; 0x2b24d6e9be1b95d7; 0x4748f7298c59996; 0x77d29bbbfeab8d6; 0x1e7edaa9580fd932; 0x2768df34d2463d1b; 0x2318fc205f2b6071; 0x5b5e8e2dc2f417fd; 0x331afd196400f497; 0x4b37954d10e7848e; 0xcac4f2e6ffba439; 0x5b1bfbe879af44a5; 0x3252aad4d4b28393; 0x6194fdc7a750d8df; 0xae35419bcfdefbd; 0x41a54b7ca942c14d; 0x1fbed12ff72a9a43; 0x125fab13f6141e06; 0x7b5b137abd1352da; 0x589102f50c150a34; 0x1ded36872e0689f0; 0x35f87e8145978429; 0x2edeed0e70582da7; 0x2d3bb28fc077b4ad; 0x16caa4b5c8b8e487; 0x45e94fb93a081f8e; 0x2df0248b955a61f6; 0x33f1e8f3e5f1efb2; 0x51863d735fa52b2e; 0x2c7eb702a5645e2f; 0x61f01ab6081efd75; 0x2cf8b23fd6ced092; 0x5aa3fa03a583f80; 0x4e93140c4267527f; 0x55e3b2ae003cb89e; 0x5d8e411ff4b78382; 0x67f6e8fa5ec5d03b; 0x6c9327d5cfb1d844; 0x46188174779bb77d; 0x82036d128a01e61; 0x37817ff9e9341303; 0x66e428f24a53c6b; 0x20a44d16b7ae78dd; 0x70f84493b03e725e; 0x33d0d08b3f55b4b2; 0x51adb68911ce6c1a; 0x5a1ee54cb95503d3; 0x66f442eec487b796; 0x3a42191b98a416cb; 0x41a509a96a64f355; 0x7ceb0f6e93ffee50; 0x6faab8586340c5fd; 0x22bf271da3af3a2b; 0x2c49b3233d612114; 0x6315cbf44ea15a00; 0x2093c8a2962648a4; 0x27ac2aa09cd3223d; 0x619c65c20ea1a7c6; 0x1960f1a054e7ddec; 0x331d6c562ae003fb; 0x6e5d48ece5b2633f; 0x30cbb880df174e5f; 0x373dc6335195a987; 0x603273b5f9170a7; 0x71cd0363561bb8b3; 0x4a11819c6254a3f; 0x47234e8cef843609; 0x1d1da068d4b8a334; 0x6117d3fbbdf649b9; 0x7ada071c4853dd27; 0x55a8b8040d54c6fb; 0x527fb56db920866a; 0x137fbcb12619e8f0; 0xd6d334cc288f44a; 0x4bdc466a9a2f1dfa; 0x4530e42007537f34; 0x4c5ccd7af0cbf8a6; 0x7d31e23fa586d8bc; 0x4f8fac18a63cce90; 0x78b199340987c23b; 0x6a145eea608f9fc3; 0x461e9895a32abe14; 0x2799f6d535377c74; 0x17a20ab246106924; 0x7f170fcbf67e4666; 0x2edd707c6993f5b5; 0x38db0ab498a49bb; 0x3f70970a63edfa2; 0x5e50b3be12b91d44; 0x6b311784b1573263; 0x6d073b624a6226c8; 0xc357fdb0fce82b1; 0x491d41bb6aa1da16; 0x23c6376d6b97a5ca; 0xf993f3d3d1ba36f; 0x5da9d660af8bb5d9; 0x579924c9e02dde03; 0x5befa7bf6cbb2b59; 0x3f5bbbc3d5861082; 0x231390bd56c2581f; 0x3408f4fee4b7c88c; 0x59a81d7bdf3a43a0; 0x73e25aa636684755; 0x1899a2dcf5551d03; 0x59aa6850e57aca11; 0x54c1f91acc32c727; 0x27c8d89218fc212a; 0x430a7426e47fd5b6; 0x797ee09cece12ab7; 0x969869596e7b180; 0x2b8d69526fc63607; 0x4cf705f4d24dbca0; 0x72322c23c53ee101; 0x4a740646363ba110; 0x39c83b2188823eb9; 0x41969d2085e59441; 0x7404edb5691b3b1a; 0x7cbc7faa9f81fb31; 0x3087db4c8840d644; 0x2c8c865f7e65a53; 0x10a0f053aac9f2dd; 0x2c41231b1ec57e1c; 0x439a3ef94156b382; 0x4e51760c53a1d271; 0x7e46428fe75de528; 0x5485a16c70ac3aad; 0x5377e970a6d1c18f; 0x6c86a9f0a5f2ac40; 0x314f798b9d6ddd8d; 0x1f49086535d0c098; 0x1f23ca246eb372a2; 0x6e19324681e1953b; 0x63cddfb642074c6c; 0x507af613a1fab15c; 0x17dc01322ed6d386; 0xf5c9076e79e1c03; 0x1c825106c62966fe; 0x1eaee1b8017fc6f7; 0x6210eb3662a807a2; 0x3ee5b563a065bc39; 0x1625e1b4cb740ae; 0x46e998e54d3e5f28; 0x7d8bb64619949adf; 0x700e2d20ae6d8897; 0x5bea4c4b376c257d; 0x46be256d44af60e0; 0x1b14497e096a6187; 0x37d156af78057b92; 0x18d14f7d4afd35fb; 0x23a2586b2c29a2be; 0x5e331d702dded1de; 0x4f1976a2e9bd2ed9; 0x5c88f4ab524269];
   [0x4cb40acae13260f7; 0x5d4bbf73b593533d; 0x7816789aad8a1cf3; 0xbc4fe9134dd7573; 0x106d82bca0afaf08; 0xb4f4e9dabef212e; 0x79141982b9953a47; 0x71059a82d69a6dad; 0x5ed312c3386a78fe; 0x6fae21902ab0b51f; 0x1ec15ff39e5d3b1b; 0xf92bb1352c31f60; 0x2836354958077e59; 0xfc583f78d5fdd18; 0x2f14efde84d0d794; 0x48dbcf7663ce19aa; 0x226307bff0a00a05; 0x604e53d3b233c898; 0x6984679970166761; 0x714bc0365e77cec3; 0x4d02bb238fb958f8; 0x5498e0ed5d78cb45; 0x1c195f2e88bc4746; 0x2232db7934c8918e; 0x5ccae09b2cb065af; 0x3174ce29a577beb; 0x45ec031da8bc7bcf; 0x5564e2f301c4944b; 0x47d36eaf1b515e51; 0x44642ae1d2d157ad; 0x633ba13eb4c837a5; 0x27dec03f330f60d9; 0x15a710ff15169cf0; 0x626cdee57f043481; 0x3fdc260d22a4b2e4; 0x582d91ca6b81b61a; 0x643d6348d8634caa; 0x2f97d2d963ddf72e; 0x4bb8c3b9200cb690; 0x3261fe3627172f47; 0x22fb049bdb7e06d8; 0x6b256b3ed4c1c50; 0x43d894fd4207111a; 0x25e9dd4bc82b97d4; 0x3f170cedc28c7ed4; 0x470a42efa8bc56f0; 0x3bc2fea29188f4b7; 0x3a24fa46f6271fb1; 0x61a244d4cc848540; 0x2a9912236b5ed8cf; 0x567783147ff3d08f; 0x7c753535929c7d5a; 0x1a31e4c7af435ac9; 0x4e70b2aa125c9716; 0x52e9fbbe7673fcfb; 0x7c3739a1b1041eab; 0x231974d7ce84de57; 0x661a169b92367f3f; 0x127c0fd608779e05; 0x7500d3cabaf6d8a3; 0x6a9b3732c9c78d24; 0x825b1073af51846; 0x1d3881fe419608da; 0x4ae35faf618772f4; 0x1e4faf3f5bb687fe; 0xe518b6c7c0c1564; 0x660af806c562726a; 0x3d7d5b144af8bda3; 0x3c4ec531ac12991f; 0x4c1b6d987f4425cb; 0x5f4c07c74ed04a35; 0x6122f44c55dddcef; 0xe970f34e3e111ae; 0x1996fe950a2c92f7; 0x362ba3e6a2f1c9af; 0x30b77c5881817a23; 0x7347c8e302e12afc; 0x62dda6580ef632f4; 0x58a1f8f47945c391; 0x1b5f0c4cca3a14dd; 0x6879933287a4185c; 0x78609da7bc839bb4; 0x3ff3f590cf11d871; 0x403980be26066e67; 0x42658e42c8ba3784; 0x6febb3dfbc594090; 0x371ad0c690336ad4; 0x3ad8e4caeb1e3188; 0x456a4402d3121b03; 0x61a8b456b002dbe9; 0x3f7d04a38c358724; 0xdaaef2d5f851f; 0x5ab4d8c714438248; 0x4be3eb4ae73abb68; 0x68270073c9f715d0; 0x5f84bb2475432948; 0x5f954ffbc3d3b682; 0x552fa7d7453adf1; 0xd7d26a94ecbe693; 0x5861f83438c4d85d; 0x5c3fe8cd0b5a1b3e; 0x3fb6fef2a3d66701; 0x271a387d4895dcac; 0x73f08d67c879933a; 0x2df8a6cb2370e7af; 0xb847f963ab37994; 0x6647ecfbc1f3f1c2; 0x8b1220637a376d6; 0x65afa06ca77208d6; 0x5435ad844210d8e2; 0x43c6d101751b1a14; 0x60edc2e303f206fc; 0x149deab1693c0b15; 0x104515353370f4ca; 0x46e1280c46e7248e; 0x24803442f25d6f56; 0x7b73eb8b1c2fc1bf; 0x7da41d9cb206307f; 0xedda1656161cc0d; 0x77a2b0c0e6e034c8; 0x306a7e10f1a0cbfd; 0xa9a2ecdd7ff8a74; 0x26b89ad06edeec05; 0x451218c5b11b9051; 0x4f80c8177bf039a0; 0x1a56b0c5dad79699; 0x66396bea342a88ee; 0x2f8f682b58f7cbb5; 0x5d4149b954aad8d6; 0x6aeeddcb182dc0cb; 0x5ba1aea94bf95506; 0x3958f1c8c295900; 0x5e97d6f5b2ca0a6b; 0x1e9d61e828caf10c; 0x51a89cb1339287c6; 0x39535a2c85c77536; 0x4bbce861ef216c80; 0x50bbe3b608fa1d6; 0x58c1ffe2e8ad4dbc; 0x18afab6c2af5a1c6; 0x47d9397b69eef96; 0xd4db52a3f86cd9d; 0x57a16655714c4396; 0xa53a4d267f39984; 0x395b6f0f5f32a53c; 0x21baa1adc3791924; 0x177d25ac1d00a68c; 0x56ee0113f6e9faf5; 0x363ceda8a54cb751; 0x475f0c332ffb4f79; 0x7447da7a7bbccc65; 0x48ce3f176acfda80; 0x237f50b359509aca; 0x55bae9a9cf2a1993; 0x182ea1121fbd930d; 0x4c3137c671d71779; 0x65d61a281630c3fc; 0x5c3e9c3bed60f747; 0x33e71af8bcafa92b; 0x64bf95051743aed3; 0xc034f7263f6e974; 0x630352e21fc7409a; 0x2dc3e5c8a679e919; 0x7930a7630f6b29c0; 0xba3978ac835038; 0x66ea2fedee775307; 0x38ce3ef65ca0469a; 0x349b7d20ef40615f; 0x42a4c85891c535af; 0xd865c4126762db; 0x4845f9f77b43b9cb; 0x65578a3b4fe57854; 0xa274d8794415eb0; 0x529793620fccf04d; 0x958a72dc8267984; 0x495d9def8c527437; 0x105d9db1af667071; 0x6b602250b0928f55; 0x5ea77ca447740e6e; 0x7bb7ccdcf9e75064; 0x3974686553ec0a4d; 0x1e0f78b8e0f402ab; 0x3300aac92e32b018; 0x6bf8d9625a1f8315; 0x15b94bc784214378; 0x29113b894d97ea82; 0x46ee9678127cb6a4; 0x78d16a165c7a685; 0x2edd1aba3e723474; 0x649662b8f64b9477; 0x166d7db4dbe2523a; 0x54b221858bc2b5c3; 0x3ac848a1cf8e7711; 0x7f86de453beb4693; 0x449f221c0a6ab673; 0x5ee56bfa2ff810eb; 0x6353e26af2a07bbc; 0x4a24b9bfcd8383ff; 0x7fb567fa69efabe0; 0x7ebf8da32816dfc1; 0x17e080d541126207; 0x3856b086c2137ce8; 0x1b03f6fe1f4beaa9; 0x7f9078bcf70bd51d; 0x3966d36aed25bfdf; 0x1d219fb4965fd52e; 0x5e174438b3d0cd90; 0x74baa1875ab5f3fa; 0x37231d3a9a133d00; 0x66d8331417cc7fbd; 0x717e02068b1ab63c; 0x5e70bcb9836679af; 0x2cee0050f89a0ffb; 0x7c192b5e3c80ffe6; 0x6e949077a615c886; 0x531419c20fa507d7; 0x2c6a6706860829b9; 0x6b9f18fb0fd1658d; 0x11621918b821f17c; 0x6e4c9137f3f6bb4d; 0x6e162036fd59389d; 0x4d4ace85fe1c4bd8; 0x630972f048dd3900; 0x6ddb771b38de8020; 0x5775b81655344fec; 0x6ede77f85ad91aa8; 0x4256d253769176ec; 0x66fb20d7eb7439c; 0x74005b8de73266ca; 0x2523e707bb3d0d07; 0x24d8b0afbea2588e; 0x18c6541d53f941b9; 0x7bb1bc552b5392ad; 0x35c907b3d99c4b98; 0x48bb19a56a36b4ea; 0xff1e9ab0780e7a9; 0x7ad40a8c116a7cd7; 0x266aa7e7e5c19447; 0x630164c22b486441; 0x411649ff672ab24a; 0x48bba0e4354eca81; 0x2144ca76cec6c790; 0x5f705134d29efdb9; 0x2af817df1a60a83; 0x3af171ee56d5fb95; 0x63b267102bc06599; 0x60d47714940b85a4; 0x607bc2cd63753d42; 0x3fbb64bdfd62419a; 0x104ba6da47be0a3f; 0x2635cb01e771ed07; 0x4b30f72aa7131296; 0x5e6771c1e5c43acd; 0x5bcd7250ccb09007; 0x3cca0ecd8be0ac03; 0x431d11e53c52d4bc; 0x36ab2baeba5098c; 0x73770f762451f3d3; 0x4671d5bf6ae5ada6; 0x48d2aeb8c4562425; 0x569da0bf062edf3e; 0x71a0e0b63e95654b; 0x54919ebe7301a72a; 0x2358fbbc32a3531e; 0x7977c142b70f5506; 0x3f967683bfc198f0; 0x3b84fdd7547187f2; 0x1058f5b6bc4f5188; 0x10110a480be0527a; 0x77f15cfee0c2c73b; 0x53ef5fead358880c; 0x324d4630947ecaf5; 0x60a722a660a19d97; 0x702d5bdc544d107b; 0x10c6005779dfcd4b; 0xbfc01f75ad2a4c8; 0x583d652b6772d693; 0x740800fa725a7b0b; 0x7fdc052ff69dc6f0; 0x687e6dc35402ac4e; 0x6b5a836d56fe7b32; 0x293a64167f612874; 0x373e6da59f32b3f7; 0x50ae664cf76fad86; 0x14fc571c1334c245; 0x32bf5eed6245b143; 0x79864a24218bc6c7; 0x7800836cb00c8786; 0x2c2196f91b5df93a; 0x381bd4a4da6cceaa; 0x509a11e4889064c2; 0x6135998379c2587f; 0x20ea0f0666aab9bb; 0x1d1e669e07a073d5; 0x40df301b0da98b8a; 0x7929fcfe760ffbab; 0x3f568254a3be341; 0x441718a6e0c440df; 0xc5b72cf7198b7b4; 0x17da8ad127b9f977; 0x377a671587e7112f; 0x52bda8a111f99c1f; 0x5d033c38d106f238; 0x5c4b087dd94f2141; 0x39d1db2113c8114f; 0x1a1acb431f1b14d9; 0x28de63976011eb66; 0x2bba91b930a4f2db; 0x4c61416bafbf5540; 0x706c26537fdb4e84; 0x6c712e16f9aa7a51; 0x1a3b79a6b7a574a; 0x523d0e51a2b1c0d2; 0x73065e16a536d366; 0x49353d67dac105d; 0x19b083c391b5c3b6; 0x20715c8e29ae865];
   [0x28c642d7e72564a7; 0x14620e19eecc96db; 0x649214ed2f8c0a9a; 0x6e5697ac25abdd5d; 0x251667de7cc393ce; 0x38330ab3b4638e3f; 0x5c47cbdcaceb33d4; 0x5cc3449ccd2a8e56; 0x3d14cbefb2956f7; 0x18bd1f0aec3fefc4; 0x7d516be8cad8bb7c; 0x1d45d8da942bc5fb; 0x7d140205a49f52fe; 0x3bcc4297fd4a34dc; 0x4bc946b6cdb648c5; 0x4ad9383b49b9f192; 0x6234d2f4d4b57a15; 0x39ddb5790c0d1146; 0x205f38ff784116ee; 0x7a7e4368e7665a1f; 0x7126f3bb915616d9; 0x317f0fae30dab9b4; 0x3c93e575eed3683b; 0x2ddc53afbcd48bcb; 0x67fc7b866d32eca4; 0x624e1104dc8324d; 0x265f77ffea3fb9d5; 0x1caa81c048c8db1a; 0x4ffc4c2e5cef7347; 0x3ca5384ddb492427; 0x646ccc25f7a6bb69; 0x410c565632dde7f; 0x4f5f784db8e121a5; 0x2692d6a1c73afd4d; 0x5830b7e9dc31d4b; 0x6dffb874ecd91347; 0x69c6accbe8c68aed; 0x15defd85e36a3c88; 0x694d4b46d85e01b9; 0x4c666452d817c61b; 0x2cda67ea4b10b82b; 0x106734a4a8f3d4f5; 0x1ede26ff24cde02; 0x12d4fa35f8be795a; 0x490b481901107a26; 0x432d0a880f596e73; 0x1c0f4ba8cfee6744; 0x4d83dcefcfe5f2fc; 0x21a799fa627ac34; 0x616a867f7a94284d; 0x57ea4e6a3bc7ccae; 0x36324349da994105; 0x1e8da16d16b891e9; 0x392931ff1363e93d; 0x35c88606cf097b2; 0x38d7807008083438; 0x795a1b952f2514fb; 0x260da9b4e66a0e54; 0xf46277f2d9e058a; 0x3ffa634f76a86251; 0x2b58a8693e8b586c; 0x2916170ee4aee1b7; 0xb372db6d8d6df77; 0x3278a35a8f5e4714; 0x53d5227f04463afc; 0xd7d3649d8f8607d; 0xeeeee8fd66ff9c0; 0x1a0bed4a75c76111; 0x329cd5a01579725d; 0x3db9a2a1ecc391d9; 0x4541b109c99b4a89; 0x6dca39063b66329f; 0x29075a92cfa428bf; 0x6b0ecfc4d04e932c; 0x71cd91fad0f0e4de; 0x73d283fbd7414234; 0x30e7f52709f4dc95; 0x7ef9540c7dc6051b; 0x138e30095c17b804; 0x228deccf3de49a2c; 0x67d66ab925012268; 0x6b93d8f415f2e862; 0x3ff04ae5da5a8518; 0x475ca9ae2a744154; 0x67a408119fcd5f96; 0x456f51bf789be2f1; 0x2d13caee9d091b5f; 0x119e8e6973688840; 0x11167fb83831b8cb; 0x282e9213d887c43a; 0x4db37f1e1afe7b47; 0x531b212b2bcfd0e0; 0x7fa1d1bae8d1a653; 0x4bd3422645b56349; 0x3fcc92a8d99a9b3d; 0x7fc4131c0e181646; 0x1707a443f2d3a1db; 0x635d3791a1b11fce; 0x11061ff54cd45586; 0xa689403650c4eee; 0x6319c9cabcbb6ea2; 0x7ba508066af35507; 0x7ffe4b350f843c75; 0x19a33b717b36fec3; 0xf54c840bb9aeca4; 0x1e138de82adb792b; 0x689a5d85663e496f; 0x686b7b60cac5038c; 0x720a3ca075b6aee1; 0x23aae2792aabea7b; 0x412756140df5c0c2; 0x16c603d36033e76c; 0x64f302be8900fe5c; 0x4b85e8aabf5b5bd1; 0x278964c75f470ecc; 0x6c91e231ef0602ed; 0xe170b4c40b9f8cd; 0x1aa13b0a87b079d; 0x775c466cdff62283; 0x13b01053a3e17930; 0x782abf03571b60fb; 0x58876aa7e0a6b83b; 0x1cbc2ecaa01460f2; 0x55bd33d2c4ee7ff7; 0x3221f5f441ce5f6c; 0x33c6d0b211520d3d; 0x24659dae392bb10b; 0x20182e2b0f5cced; 0x535a407a14485e35; 0x68fdc584920f8110; 0x7c7d6630e4322079; 0x58f229540a1f3b95; 0x201dd71ffe50c078; 0x3e8b9ada8039023f; 0x574f9e65d2c08e21; 0xa90883bec8e9ac0; 0x55eb4b5668a4619; 0x2a10458c99a60575; 0x2d6c91705203278f; 0x3357d33547779a01; 0x7afa952f4b07f0b5; 0x17e5ca2bdcd413e; 0x59dea6bf3c3ed021; 0x28acfa9ee909f1bc; 0x2c1e4690c0159eeb; 0x107db12ad9fee7b4; 0x2ae8fdff2a0fe54f; 0x131e72c9da8e6c8c; 0x94cd0a1e0337a1e; 0x7e71080f20e99fbb; 0x73f9c47afa01d42c; 0x72d2a55d70073bb8; 0x4031d8baaf3d0f66; 0xc1d1e3bee720c93; 0x1bf8a407e5275f13; 0x3285f86ae68f52f1; 0x7a72859b4050830e; 0x341b76b3118139d5; 0x1f827821ebcad934; 0x4f6d9bb12de419d1; 0x95ffc839e28f41e; 0x1bbe037a8664936e; 0x480b75f4697ee1bb; 0x100f41fd9c5327c; 0x4ad39ba6e6ba5baa; 0x2aa2e6598e21a0ef; 0x1aeb29b266f073a7; 0x6618e6945131deb6; 0x6c587a1478cf466b; 0xe0740014d531c8b; 0x35195c724afa55bc; 0x38877f6de5eaa432; 0x1ded6c5f3d902c3; 0xbf1c860899f5f5; 0x6edf222661c22a85; 0x11e28d63c80714cc; 0x6cbe61cfe654db99; 0x73966bd8ae89af86; 0x63aa9371535d5a9; 0x79e87881cbad34f0; 0x61bd9bf09ab1cc2f; 0x4fb6aa449f2e2a4; 0x1a6de951a9d39e28; 0x55ab83063c660bf6; 0x24ad63ffde6a3595; 0x741c4d1917182717; 0x49ed177ef0e84522; 0x5157b653faed5f14; 0x7915c9a78db7c08f; 0x7132a43414b00b12; 0x1079ebbebdf706b0; 0x53664aa7840319ac; 0x228ac9b4b5bbd19; 0x40ad3a6e2fef644c; 0x691b732f2fe6450b; 0x6a1c3bd2950a4c60; 0x29cd05177585b68; 0x2f1fbd77155f6195; 0x68de0e4102ec4f1c; 0x4102cf44fcc661b1; 0x4e608165a45b7159; 0x2e35f719e3e5785d; 0xf80670a3fbea2a4; 0x476c867344df95f0; 0x5b54f953f27acbe8; 0x427c38c806856e58; 0x150fa1bca446df4d; 0x2871b6149b79ace2; 0x50989cd6c2095abe; 0x5dbbb16a5aa19f08; 0x53131df9bad1ca1e; 0x56645d8d6fd86a4d; 0x607336a8fe4e8650; 0x264b1920e7a762a9; 0x6055290822cc5ead; 0x24a286b9730dd88a; 0x4af154e89237106b; 0x5b5904a12db909b8; 0x1acd74d7c915631b; 0x47a714c6032ef7bd; 0x15d27aa0cf28c292; 0x6634e57d97cc6781; 0x30276265a870a794; 0xaa73fb529ac6a78; 0x43fdf75736db92ff; 0x753444f10b94ea5c; 0x46a45d51a92e9ee4; 0x74405ca4fb1036fd; 0x7f0970c203c62b9f; 0x30bab86fd804547c; 0x297a030f631c905f; 0x27cdc884a6dc4343; 0xff04ddf0c1a34fe; 0x3a551516889d3006; 0x32275bfa825f658b; 0x56f28c5929fec8f; 0x1f446bf69391e96e; 0x2b00eed1fca06a42; 0x3270331a076cda6a; 0x47255db0a2b23e67; 0x326920d321872fef; 0x166ca37e4dbad4c3; 0x4312cdd8e05d5577; 0x3e87e977a7859b7a; 0x6a4b09484cf622c5; 0x367bebd856918d15; 0xaeeb369d13934a0; 0x5036751da5ffc465; 0x404d98867ec1aea; 0x2fab7fa726d01f1b; 0x6d4ca0b81499d3a7; 0x522a4a33c4c61c48; 0x5ec4de06a337b5ac; 0x126aa8f4301a18a1; 0x20b49ea1a5694a06; 0x76e4fa4e8b529982; 0x70dc5b65f7287948; 0x32995b2f37213b48; 0x6d0dac41841b91b5; 0x672ae59f6f394573; 0x556ff405fbaade86; 0x6089431f5aecb92a; 0x1988870ab1b7fc7c; 0x1d75ba63d099a311; 0x7e03c506a6ee09a9; 0x3dd0cb17578cef5f; 0x225537d0dd092d31; 0x28b15d1dcdce3646; 0x56eec6460950b3b2; 0x4d7ca358b1840844; 0x5a3c2e71b98951d0; 0x5aa4c60618dbbafb; 0x19f0263cf190573b; 0x1cd0dcb51676b3fd; 0x6a32c0740bbf9c27; 0x20f0f19aad2d88ca; 0x19f03a33043fe3d8; 0x61b6942ddd869150; 0x3d3656d76706c991; 0x24bdebc9d5bc1cd8; 0x730622099416dbf8; 0x328c311b848a924b; 0x55d6f977ecfa5d08; 0x5c2bdf288dc89da5; 0x6dbbd8b6a6361f30; 0x38580ea654e72a35; 0x446edddb1617a25b; 0x23648c0cd5ab96e6; 0x25cd78587114b6a0; 0x5973183447458ab1; 0x4e7d6c5693646c69; 0x127867212e12c7f8; 0x427774619b24675c; 0x500a064cecdb854d; 0x325b0d4a6512adb2; 0x3c5fcc90bc5e9241; 0x406ac505074ca588; 0x5876e6d5666a865f; 0x506670a0f2ef3d59; 0x58163efc1bab5f60; 0xae4b16ff992d08b; 0x67b98af1758a39ca; 0x1a13666521c8fcc6; 0x9222287af02eb8d; 0x4073b64ce439e7d5; 0x7249ea652fe45919; 0x6c0c66f51d26309; 0x66cf4b9676e05fb3; 0x91f0adce19d98b1; 0xf65d5a77b670089; 0x22aeec718ebb9f26; 0x35e62306ae462ea6; 0x17723968a96dfac8; 0x3b48e1bbec5f07a0; 0x2b054caca3a41388; 0x303992d62cdcf430; 0xf794d86f37cc095];
   [0x47844baeb0f35c6f; 0x442b6a725565d061; 0x551243af241e774e; 0x5dba01a9a5d04405; 0x5bfaabe914989fb8; 0x286e761d487f882d; 0x1f4b224b684c5758; 0x679d14480ea68216; 0x23da8139b0e47ada; 0x370f039b385b95c; 0x4912eb2b0ddc60a; 0x2ce98eb4e0e731db; 0x604449438c343d44; 0x44031a32201bae64; 0x402fcd31e1f7991; 0x7db4a7ba56f8cd38; 0x3d88dd5df527f922; 0x307b6719d3541f9f; 0x33a522949d596e48; 0x2cad6ca27bba1d85; 0x2af0e21f16fb3f14; 0x2fb8cb0f7dbdb2f0; 0x74ca3331fb782652; 0x686c7df7ffd5b62a; 0x6441025fe8d1ab77; 0x7d429f6e671e1ba9; 0x4e21f3938b39ce8; 0x37686e58232c3637; 0x466cb2a89a861a59; 0x2aa98e856bcc1c82; 0x261cbd8766af5bd5; 0x47aaf20144e6c511; 0x685402a89e67397f; 0x1011a6e3015e83bf; 0x14c77aaaca5edfd; 0x74591e73cf79f62b; 0x1d7f8a1592404cb2; 0x995ec5f2f3b8f10; 0x372d5036f455478; 0x7b3c8c6b8fabd18b; 0x2cb1febbdf1c3ae3; 0x2d8c5c96e380355e; 0xb011517a715505a; 0x685ef3599f5faaa3; 0x2047496dd04c8c3b; 0x5114dd35fae3a25b; 0x64e6abeab7f64cac; 0x5a23d278b09b9343; 0x40e203e36d3f050b; 0x687ca3ea5a442d26; 0x42f1b21045cda3a8; 0x51aa448f2b8324dd; 0x7096f75274873da; 0x6e706665f9c14b5; 0x1cdc07088cc59119; 0x6eb795b09f006e7a; 0x7f9c5948b7f9100; 0xe6bdc56aeb59ef2; 0x32fe5fe6e90f8017; 0x6a3eabf857c173d; 0x36ad0e0e74523031; 0x73d68a75406fe94e; 0xa58f848ae4a58bb; 0x6612ceba2af86817; 0x339cee6242632dbc; 0x30a3656117321b66; 0x36ebdc7f5127f88; 0x2b9d01ddf22f8847; 0x5d7496f98ea4e03f; 0x473641e9618b7438; 0xe8589b35faf4acd; 0x67746a6175650e09; 0x7adfad853b0f0b25; 0x32fc38f31fc822bb; 0x16ff60290b2f53bb; 0x5f34f7c0e7e579ef; 0x1b19584b21d70e25; 0x395f1e1176a70f4a; 0x3d7da81f4862a8ef; 0x6dc34f4bacfb684b; 0x4c5d18397c9a27ce; 0x38b29ffe6e81685d; 0x1d4b0dfc899a8b84; 0x1c1cb48b0d24b5bb; 0x4d69d5cc0fe6efd; 0x2ef60821e4df1c5d; 0x2defeb4a4adeda0c; 0x43278ac475e8684b; 0x15ff50cff7d87eb9; 0x38df1de027e7cd45; 0x15ec18be3827f4d4; 0x19743cee0121799a; 0x64fae9d66817d54b; 0x4e63e133cd2b78b2; 0x12c0dc77e0ca05a0; 0x710a28eaa9df4916; 0x614f27b98f31eb9; 0x2047312b26561833; 0x42379849d6cce373; 0x3514f0b1584d07b5; 0x1078ba2c3c7fa450; 0x2a4e85cf458d04b5; 0x2ca3c00840809b0a; 0xec0a35ad15538bc; 0x62aeb9046ef0cf76; 0x712d6291a2d89626; 0x71538847f976f66a; 0x1f03ff5738bc74cf; 0x65c5c9f8c886d68d; 0x7cdea321004d3830; 0xe7ea6e7c3c9af; 0x1d44329ad6701c5a; 0x76eee83b40e969a8; 0x5f6805213a5b2b13; 0x4c9c387a7e0e1ed6; 0x7f5df27d318054d2; 0x1740b92f64967d68; 0x55cb16f8fb5c99f8; 0x100842ede81803cc; 0x13e9b76501adb519; 0x25ebd21b5c6809ec; 0x7bf58f4b6f7ab17a; 0x60f9ea3ea330cdcd; 0x6b1ebacef04fca7c; 0x1f164a81a2d0d535; 0x1582c1d822c25ff7; 0x72da15c963a3871e; 0x76e530fc5e9e38c5; 0x5a1637e17878d271; 0x5c4696b8f134c3f9; 0x2d84e132595c24ef; 0x210ad7e1e15b533b; 0x7951e56cf1ba027d; 0x1394dc0f1a1f024a; 0x714e0e5f2ee6bb7; 0x34f97ecf9216568c; 0x11bb8b96f3933227; 0x8f7795378f8308c; 0xb6005898aa9a9c5; 0x3134ce5d750bc1ff; 0x4fa7b390d014432c; 0x1295311aad0a4d93; 0x328c58ac88da4559; 0x24a93b05e7f325e3; 0x19f77b4867dcfd44; 0x16b3a2bf22058c39; 0x4cc720d4d3e236c2; 0x155d8bb5448380d3; 0x37b8a2d84037087f; 0x450e43d0fe09a080; 0x4961459cf2ac6b3d; 0x374ad69c1a0e64f2; 0x7568a3c408487257; 0x34904155deed1bfa; 0x5a831f17076dc6a7; 0x4fd8738e3bde1c4c; 0x6867723da76c0221; 0x17859492a15336f6; 0x4c66dac5e7fc1966; 0x4804465ad7eaa3de; 0x37e63b1f9fa2281c; 0x66acd2aafa3c4187; 0x31d4f6f00230f197; 0x54d93b91c8c44814; 0x79173806a4a7395; 0x7129b53e484c84e1; 0x595d72456c63317a; 0x2215a5641ea46118; 0x431d1ba5d3663589; 0x463edc6f7e87a838; 0x5426c0e5e409cf98; 0x4cdac82bb220f56c; 0x7e4d10af647daf17; 0x630d2909788b3e51; 0x62b8af3d8f4924fd; 0x2d498ee5abc49f11; 0x2d03ab16deebc399; 0x3fd2cd6f2abe07e; 0x4d2b0fbb8ec709f4; 0x25959bb13b17f88c; 0x39c2de65f017dbb8; 0x2895b7582905da4e; 0x15d67842717e8996; 0x3d0cce023ce540b0; 0xfd7f8045357e607; 0x71e602e88629067e; 0xce80f04f1b12bb2; 0x17a3d6f6f3fe14f1; 0x6c792c8362201738; 0x33795651309c21b; 0x1fbfae43e27ea532; 0x635b66ce53e5eac2; 0x332524d281a00d4a; 0x60a7b73d3ca54587; 0x501aee01ef94988e; 0x5a2a83f98604e272; 0x43bf95e2884c0953; 0x1e96bc8a2f71b313; 0x2b38975b32568981; 0x5accfca8a721e3ba; 0x7e51e4bbd6c5f62e; 0x72cba2520b016bc0; 0x51094c95d2768989; 0x56e28e6edd8d0ed1; 0x747fbfff51f70ab8; 0x74432b47a9c7020; 0x18d188826d0605c6; 0x6d6f382c2446851e; 0x4acea3d4b7ab835f; 0x6a3d97baa3d82bc0; 0x22f5c09e11daf517; 0x36b657c9624e6b4d; 0x4ac900053c782d36; 0x100333ed49cdd47b; 0x4603c3ef15f0fe52; 0x56e8e470c96b682a; 0x305aced658d16aaf; 0x433c791f60315a8e; 0x58d6d560caa6d0d3; 0x397e6a4e3c816144; 0x2aa5c3cf11e9ae59; 0x685c39d42ce41c4f; 0x26fa34ac90382a31; 0x149ba9a5c6776474; 0x5dff7fb610f185c4; 0xc0348337a929146; 0x96cfa0392929cb6; 0x30a994e633cd6d1e; 0x6f4ed3f7b9467f19; 0x25bcf41c88104cb2; 0x1a2e1167f615f8e4; 0x33e1e636932e11e3; 0x590c0b32a16d52a9; 0x48a2aa68a3278daf; 0x5fa981f9d1866bd3; 0x15097e0044ffc2bb; 0x13f5a680b620175c; 0x572cfb0a658c645b; 0x708180b8f512837b; 0x7fd01cba3c701704; 0x34949a9d9325f8c5; 0x74306af62e39734d; 0x9c2bcf08d4474f6; 0x6ff0dd6563d83cd3; 0x27c3089c270516e1; 0x425cff32b4659f71; 0x7f2aa2a2d667ccae; 0x44036f2be4b5a8ee; 0x6bc4b43cb49a2c6d; 0x71d0348a52005c77; 0x26c81014c7e65a3e; 0x3abc4282afdc51f0; 0x245722945fd23cad; 0x1e67e54929b489f9; 0x77622294b31caf4f; 0xe974e5d88f049c5; 0x65454ba9fcf97641; 0x1f52c1d4f9c62eb5; 0x5eab3d7da318f3ad; 0x4679dec4faee934d; 0x6411ab00e030e19c; 0x4d837cd3f28e9b1d; 0x2ffdeda34939d799; 0x610d981081a4e863; 0x212504b714caef56; 0x4719035dd05bffbb; 0x7029bd35f3bf9295; 0x4375e38829e82dc7; 0x5c132ae224cd9ee8; 0x33c43cdd86f17b07; 0x1ce1b63b2a6d0e67; 0x7fed92ad952bf188; 0x7ef49a5fd12c9030; 0x1ce65a9d9b953d71; 0x6ced10adeb15beb; 0x5467a21ac2dbd747; 0x312ea2d46dd304ad; 0x4236f40dfe71527c; 0x56f4de307ae8aa3e; 0x4b48939d5810ff33; 0x361bfcf3ea6db12a; 0x7f5215e3983aa31c; 0x15357469d4ecb818; 0xc74bc7928453676; 0x5aa48bab25ab5138; 0x565c176517ed7e5a; 0x16991cf751b4e6f6; 0x4845bb9e151caae1; 0x2dea1557b2f594cc; 0x1056204e9eebc49c; 0x6c516677cf8dad60; 0x7f108255d9ef0038; 0x7f4cf96b07fb1fc1; 0x465706da5b44e702; 0x71226ac0a424c119; 0x2d116bc8affa84ed; 0x3359af709fe329c8; 0x7d06f8c5276c59e3; 0x561b196c5992f317; 0x1d77048c550dcbc5; 0x7a628fb0a821b386; 0x55e5e81c5d4490e9; 0x46030f79c93a514f; 0x21c421eeb9e53f14; 0x4488f03309c44533; 0x2ffe1dd63b2b5df5; 0x313a54d0aee09239; 0x77d8227b62a86ec7; 0x4b51840fb1764686; 0x2b9f6dd3deddf34f; 0x6a1c05ce77827bb0; 0x4f5242ad4ba433f4; 0x3b6ed9dc80362513; 0x7b719a902c0b9ad6; 0x2cebd80cc586ab42; 0x3c5ca0efd6db7682; 0x22dbdaaa988ef2f];
   [0x7e76402f10668719; 0x3d034547a2b278d6; 0x71e05925166899c0; 0x5680a1470df90207; 0xc69a281ac4b426e; 0x4ed1f7cd2c521a00; 0x762a63e796ab6c95; 0x3c674c15f49ba0e; 0x57f93a42061911e0; 0x50d46cd828719be8; 0x1aab366904b69c66; 0x6e9b3aa284c5386e; 0x72dfe7d2c88ce5d9; 0x2345e9eea2b6225e; 0x7f42976a2cb1647e; 0x77b985b6c9270a03; 0xfbdedef3b8064fb; 0x45b7e24c2a5fcd62; 0x3546e389f1fcf153; 0x5b816a5796349950; 0x4cd049db94228699; 0x4198c15e1be69218; 0x7e803a39286d05cc; 0x5c5ffd81c4b4e2dc; 0x1ab209fc53d6c422; 0x266fc670b3a037f1; 0x38ca1e4699543a4a; 0x796980519d3c4d55; 0xa20bcbc5c41957f; 0x384c05d2301046d7; 0x283c9ee5d6b212f3; 0x54e15a39626f7e32; 0x563d1e89c0ab1d3e; 0x4d690552ff127b2a; 0x7d7deba678990c18; 0x1869628bedb9917a; 0x5721f9991bf5cffe; 0x1ed270ed02275190; 0x619e8d3876ad5fb3; 0x6b6ac44e6062fa8d; 0x513f19e0fe56a12d; 0x5f8947a6b4289c12; 0x389c8704eb44c263; 0x17427278e2988485; 0x4a07eaee0314ccd1; 0x36d67e21c118252; 0x387029cc364dde78; 0x13ecbef6cfab0e85; 0x6c4a15ca7ec99fc4; 0x4517bc9d9b4713a7; 0x70f56f290262c747; 0x49e996fed2271910; 0x131070d6fc964903; 0x776856b682c57d1a; 0x4fdaf8cac98bf379; 0x5113c96f83d90e22; 0x25825ac0d47f6269; 0x3d8e89a6d86e67de; 0x764444f6dd04598e; 0x3827867cc8c22c61; 0x189e8d0457bb1c98; 0x562a113709fbde1d; 0x6b73aff730486f1d; 0x72df5bbde798bf6b; 0x2401b32ed869bf29; 0x50ea61f51be9c475; 0x10d84696c32d6a6e; 0x1c373fbf5ea4a6f7; 0x410289718a738f4a; 0x52d6a64495909ab4; 0x4f1df95b616c0d9a; 0x60d2abd8ac92e58c; 0x216ea638f17ed43f; 0x46786490d323912d; 0x53be03dd8c16ebab; 0x768b05ca985ca6e7; 0x613af075e7344905; 0x70ffaa248211e7c1; 0x203f03574178bc47; 0x6519ea7fb399a1cb; 0x6c5f1bbfece04199; 0x126c2d96a52ceb37; 0x30df3a526ba1a85d; 0x30a12b7781311b3; 0x395fb2140424fbf0; 0x514e0c3907b2127a; 0x12650e6f4438131c; 0x3a0fd0aa4dd01f99; 0x4cd870f37d3f252c; 0x543af76aec9a5afc; 0x19b7c8776d2ea29c; 0x7a77a79a2149448f; 0x5923fbc33481f6e9; 0x671a5f99a81eaa55; 0x6bfa2302381f1569; 0x3fa32541fc67b8a6; 0x603cede0750d1670; 0x6b7f0966778903c1; 0x610feb44c35b46fa; 0x188431f4a523f982; 0x2c8bbd9e3d53a385; 0x4c833980e21169d4; 0xaa31525af8b4cbc; 0x67437f7a5bbad9e3; 0x2a505722dec01e64; 0x104bc71f84dc9151; 0x5e6f69daff6c9403; 0x4f00d80f797e8c0f; 0x1da1d992612e62f6; 0x4e7d92f96270fb4f; 0x7b323125f40acf6c; 0x7909b127e7ca0760; 0x51efa986091328c8; 0x6078e7f0cca72b51; 0x5a55fb1dae66efc; 0x1cebeb85df46c64e; 0x7968e66f5c2dd3dd; 0x11058b6c454ea461; 0x703970e5e964751b; 0x5670a07049259e4d; 0x62f8b1498a8fc2ee; 0x5f0957df52cc9b53; 0x38824d19f8f49d45; 0x58a6bf684a9c2b22; 0x1e06e1c4f5fd12b6; 0x2c8d0883da63fb49; 0x303a0c346cbb7ec8; 0x312ccab60c118de6; 0x2dc4aa9f8bba80f4; 0x5a26dabaf590581c; 0x28e8a778f15dac11; 0x515b22b9c2d98318; 0x2456488ef71859a0; 0x3ceb490137e899a0; 0x6406b08ce0a49a3a; 0x4b02721797c3a5c9; 0x6ec4dbac7ace18cc; 0x6a876cef0b1a3e05; 0x5647bfc312bfc065; 0x54a3ed90d99bea6a; 0x65b11b0523fc7423; 0x13479a4c48031e13; 0x7d482b06e4a83a43; 0x3bfebe4a9a80e716; 0x5b7b191ed17671b6; 0x4c3cf4df37e874ba; 0x73c47e1f8b8176f0; 0x3dc502afd9714e71; 0x75e2a36e7408311a; 0x3bcf240d0049739a; 0x3f2841f89733c32c; 0x5914bb5332703783; 0x46b36ac1b34f125; 0x6aab1d2d07e4e04c; 0x10e11e5392950771; 0x7711de7968a2a86d; 0x4deda7368d0145f3; 0x22bcf78846e6138b; 0x6ae3cb09d2f1ff50; 0x40f0ca69107f0dfa; 0x5bd657661646667f; 0x78dcce20cb48e26b; 0x7b1630c79febe1e5; 0xa28454449d2d721; 0x62e17dca0e618298; 0x4b2eed992553e110; 0x3491be32a8576109; 0xc2212e7abe2a453; 0x14874039c4387ee1; 0x1afc144cff406eb3; 0x4a0401eeffd44855; 0x6785c95c7dbeb977; 0x497fb1706a1445ef; 0x7ed1bf697449b522; 0x11649930f64092b5; 0x3aafd2ff0a11de5e; 0x7fff22ae28a7d499; 0x75525f1c8136e24; 0x14d92bea01378db1; 0x74b2745d7a01fdf9; 0x38f32a7023385047; 0x63fdafa91a41794f; 0x639ebbb4133b8365; 0x3b5858416ccad22e; 0x16c7f707a0c50da0; 0x1b1f3e4d4af95fb9; 0x7cdcb008069f6b7c; 0x204c129eb870e73a; 0x483141b5270cd97a; 0x31013adfcd27e0e7; 0x686a0f16b74d6061; 0x20f691d953e624b6; 0x6d843f4628d89951; 0x64dcafcb641c4e93; 0x689da54172789720; 0x13a75d01204c5614; 0x314106fe144e3558; 0x14a1207a3c4f1679; 0x7a83412687295322; 0x2d334aa0c1bc8285; 0x5d570c5e28829d90; 0x4b6f8eff5300c9ad; 0x3172735a8254ad00; 0x7e27d879bc1c9ef0; 0x32f86cf4785f7772; 0x5b5cbd48aa772ed4; 0x7d42796bc01ff617; 0x611c75129e088713; 0x1c0677e935eae339; 0x2e6dcdcef2f78053; 0x673222e7aa6b71e5; 0x5a4534b26c996853; 0x251c664d3593ea9b; 0xe573b4b7b301672; 0x664296374865e4e2; 0x22fa0fd368002ec5; 0x6eb86f91a8d67269; 0x5a0a926635b2e169; 0x515ec5f259e33a0d; 0x3b6a8c8462340220; 0x55c525c39812b593; 0x1b13ed4ba59ac2cd; 0xf2759ad72d53d5a; 0x523c4a5c5ac4cadb; 0x54358ac8293cadc; 0x5d34419bee9278cb; 0x7335d28ff93bb87; 0x404d47fdcb86fa39; 0x5a40b364bfbc19a9; 0x32157d80c6fdf093; 0x1f1a6e46880a922f; 0x4e9088e90b0fc976; 0x499b18a6e7c56797; 0x17b438eec87790a2; 0x731496dd562f9680; 0x458dbbd686fbca78; 0x54ededf397763360; 0x7a5950fabc4f8941; 0x35ed1b0f86511079; 0xbff2aba217889b1; 0x2a541d25bf5599e; 0x66cbf61cfde9eedc; 0x72f4eab9d27e5be0; 0x18bac9fa7b8a7e04; 0x44d4276e09994629; 0xc9ee6541a8b472c; 0x732298e4a06f8cc4; 0x4d3a935e63f79463; 0x6afeed0b3fee5d5d; 0x1e83fa666b2c6777; 0x4cb259ae2e84710b; 0x6e87fb43189db3e9; 0x752fa7b412f187b3; 0x76009b330c46cdc4; 0x66e589e0a84b1c8e; 0x7cc43dc6b9ace93; 0x395b0855b6c62bfa; 0x5ec5b1532b7167ad; 0x31666b737dc6908f; 0x5d88f61bf3f4edf9; 0x4cb2ab1ecd3a432d; 0x7c5488f53a3306a1; 0x4e5865720dd8b705; 0x60ff03bf9d346d6a; 0x6e8da218f224b1f6; 0x4080d72f79cc7bd4; 0x7a60aff2cfa0791e; 0x7133ab519b6b0130; 0x701fb6cca259ce3b; 0x7cfbee02fc4f2c86; 0x746f540c8ebb9e4a; 0x6959be4762d15f5d; 0x754c3cb469a49c0e; 0x518e03255f82a7ed; 0x1521ab85458cb7c7; 0x35076233e6ab35ff; 0x444d26e49409bd52; 0x7870d746d1ea91ab; 0x6a3fd9a94c6abe20; 0x685dc9f3515f0abe; 0x6adf025928c7b62; 0x51032567c47d712a; 0x5fae33bc9a8431; 0x30a8e8e0d1e13c1f; 0x599e73af2eb92ca9; 0x366c9b4aaa03925d; 0x26dece3bb35c9340; 0x6fc9fb692bfab186; 0x16d25b36dc655513; 0x35ff5d913694fe2c; 0x575d04f7c07a46a8; 0x49b83a19f61ea21b; 0x18654b10c541710d; 0xf65732500d69637; 0x28d32880498f66c7; 0x6a9b645fc28dd845; 0x69d11df95da166b8; 0x58b8ddc0dbf81995; 0x774c0b2aef502a6a; 0x2b2d9635099c8eff; 0x485cddd229118bc3; 0x16a4518391f53772; 0x77fbe36bb292084; 0x41024249f04645a3; 0x113bc7ba85267bda; 0x15789c55b3ae3b5f; 0x52c39e132b3e7a69; 0x7a1991a293be009e; 0x3187a5b2f4a87dec; 0x495193e2b6eb11ec; 0x55ba7ce736b0af22; 0x6eff0d966ba36caa; 0x1cfe3b01f87901c7; 0x364ffc6fd2b87a9e; 0x5edd51fec77c9478; 0x14238460d1aafbef; 0x1c2117d7d27e4e8];
   [0x19c87945391a4f1b; 0xa923f4d346308e2; 0x2e469e34548fcc10; 0x329a1e93a8b72569; 0x55dc5649e00d2c6; 0x4b4bc86abfc5b83a; 0x342de5a60c224234; 0x24b1a092cf0be691; 0x1098be54a929252e; 0x18a40d70c4e6e9d6; 0x48f96688446c9ad3; 0x5081f24010aa2ff0; 0x6b59d38293b41e6; 0x19b2eb99c304d2c2; 0x26908b005b4769b8; 0x161f0fcdc32a734d; 0x402716498f489924; 0x3e466d297aa45b21; 0x65a5c815bcd60f1; 0x469a6ae4f64f6496; 0x473828ac0b0ed84a; 0x79e71aeb82f9d978; 0x6f6f592b6b8d9144; 0x4a332f4ce8518de5; 0x1ce4b185c4f3af4; 0x1cd5f3b0c576ad5a; 0x7d1bdb6231d62c0e; 0x33df8011a5aadea9; 0x4bef056713d9a9c; 0x438c34cbeaef544a; 0x6c9ea0c422fd99e; 0x2f72fe4bafecfbb6; 0x35c81fd0209b69cc; 0x7fdd88e43c9626a0; 0x68c26f61d50c15d6; 0x345cb91bfb4fc472; 0x76c9bf4aaf30b05d; 0xef3659800e499e1; 0xd581b62bc05e612; 0x67606175eaab4593; 0xeee81906fe970fa; 0xba8e022d8fcd779; 0x644401c34d945b96; 0x4058978dd4fae3f8; 0x670b50343c5231bd; 0x32960d597b16011d; 0x7ebd75d042691bcd; 0x3a05cc1a947e9820; 0x5174b51b29a7517f; 0x77134964493ac073; 0x51aac7025d0e502d; 0x1154946d7c0de879; 0x6a64c015f5956c8; 0x12f8692ad06e156d; 0x7762870858a2ea7c; 0x2d1dedea8c40bf62; 0x12f2d963eea201c7; 0xeaf9862e0b8563f; 0xe2120a37c1148d0; 0xb919b161ca6cb10; 0x3b1dde5bfe50e50d; 0x397a263a32c05c2f; 0x607da95ba6972325; 0x3e29c4747afb0afc; 0x4475b12517c5ec1; 0x52a2f9655f4895cf; 0x50fd1893dfdae6f; 0x69b3b2cb3ffa5d1; 0x38ce62d743d8e15d; 0x2f308cb3e350705d; 0x1c79a29c5ee54609; 0x2c228031462d32e6; 0x52902f1764755747; 0xec470c4159f02; 0x66aeea3ad8ad3824; 0x172af8d935887d5d; 0x159712b947539120; 0x27b3d30a21583bcf; 0x38ecc5ba0274d2dc; 0xe758b3d64be900e; 0x6147a350d1b55a26; 0x591c645efcde5787; 0x4c161b94031b4838; 0x7e255deee015396a; 0x4265862c669bfd82; 0x19fb9adb487d6c6f; 0xb757ac239ba3b66; 0x7c9bdc75d7614f6c; 0x4881acc71bc2b7f6; 0x58d8f2e3f37fe6ec; 0x7db160fbbe9b78c5; 0x7ce85f8d606623b7; 0x7b1b7dd3dfca3d2; 0x52d14d8d7311f7ae; 0x6bbea4f69c572015; 0x70aa2380f856d854; 0x3ec66c2b1f867ece; 0x699c85b33ef51218; 0x71b54285926449e5; 0x546e8c89c26d197d; 0x2d8bdd339327432b; 0x7a9d1395ab3fa5ed; 0x62aa447bc8345e02; 0x24eb47ec402ba6f5; 0x4d22b24b51261ee8; 0x4b31fa611ad4eb7b; 0x2a8b60a179bae419; 0x1ae67a72bf0faecf; 0x4c96e53e68c27ee; 0x21506b979bd784bf; 0x18cf21828d07b7d6; 0x1b1494bef8ee2d06; 0x3edb4da4cad37add; 0x5b03a79309879bb9; 0xbd4be9480e1c4c1; 0x117d542af534dc14; 0x4e8fea0dba89b4f5; 0x6d614912177e8e14; 0x4e0b79b6b1f93d22; 0x7eae4ab2d33b4ef3; 0x1d7dcd798e9aeef4; 0x55a37a4a3fb0d214; 0x20d7f652e8ba9b9b; 0x4ad1193cd9ab426e; 0x3c8d24a83ae55c8e; 0x6451adec57c65ba9; 0x4c88805624937b1c; 0x79febfd867cd42f0; 0x273bd009bc8463fc; 0x7c5cc658f963d028; 0x677628a7f82f95d0; 0x19c2283d81889279; 0x6b6e22ddb5bf6b79; 0xf30c8c5c7939b97; 0xe2088b7656623a4; 0x4486f1d615e28a05; 0x1d8472d878b6c56a; 0x181abc5b83038dc9; 0x3825065caaf173fc; 0x6cba0116bf278b26; 0x257e82d432825eb2; 0x4470a6beb2528a28; 0x57bddccb09828d9a; 0x54800a0b4559a59d; 0x3c9bee42fd08ee6; 0x5b82121eeb839842; 0x732f8f603e09dfe9; 0x22b52a5734c24ab8; 0x7165908a5ede32d; 0x78f5e03833e59494; 0x3a087a98e64cffaf; 0x49b5d16e47c09f3c; 0x37e612d9495e0d82; 0x3146aae040c2ff02; 0x96e45266b735bd5; 0x393c64e34583b755; 0x5f7d17effca37f1a; 0x2cf5f03ab3e81e04; 0x65fd162c013071cb; 0x210e1e3dc40d606c; 0x6ca3cbee7800c82c; 0x51b5400bb5f5a031; 0x691d2a94a46ba12f; 0x62486f3a74bb1ab7; 0x38faf28df3a89e42; 0x2bd931c62364c04; 0xf0b203654f66443; 0x6ed3a4d802ec8bcc; 0x858742aa1509692; 0x6a899b0783bc777e; 0x4fda6d552ae4f978; 0x558e1c52caf695a1; 0x2a4dcc3a687f02da; 0x735d19f04d11b026; 0x1ec2c4ab34a6818a; 0x70d6fdcb9d73051e; 0x947cd846a5ce182; 0x34f24c5051974f35; 0x40a4965ca83917ec; 0x528a2f0fe2b39450; 0xa68f6c9b347143a; 0x5fc898de171a5858; 0x62809478871c731c; 0x357351236d5f85d7; 0x36b0b2c5dd2b0465; 0x3c9b507e5c4abb35; 0x5081fd568948153a; 0x411ef68dcad4e176; 0x2735dcdef81cb544; 0x10b789ed87c0a878; 0x18fed95567fed4cb; 0x2639f0eb5c51a9c4; 0x6267aa008b3f661d; 0x2995781726fce40; 0x50ad326b6005dd23; 0x6738cb770bd91576; 0x2fcb4ef8e68d249; 0xa35c7b3c25928a3; 0x2774dbbd104cff55; 0x7391fd2cd2ba2ef; 0x6caa56bcfa20be5b; 0x4f48d8e1b9bf75a8; 0x292b01852a05b8e2; 0x6435d75352374f6; 0x757b2b0c87fdc636; 0x6a285d00f932c7f8; 0x32d021bf45288156; 0x48cf7edf44352444; 0x60aba2eefd2bb5c9; 0x27a8c1560b554c2b; 0x46f7d0f10d3a0558; 0x4ea2e30a3102a9ef; 0x4df0f640bb54221c; 0x1d21cf2a40cb2636; 0x593e7816c4ae3a37; 0x4a37e629dd329426; 0x574579317c2943ed; 0x7697bf9b8789925f; 0x9fbf2998094932c; 0x570206b49d8efd76; 0x6eeb1e2db402318; 0x4dd523d450f4c48; 0x39173d707d248ee0; 0xbb52417f5aa40e0; 0x76643e82ff5fa33d; 0x74f258200fdac964; 0x513b60ea47cf9e7a; 0x3f28b229e1af513a; 0x11e066974cae6035; 0xfd46e069d19c2e8; 0x7feadef6b7830187; 0x550affdbc88a63db; 0x6cdaa739fcaf6259; 0x17a267703c66c195; 0x526b59b097ae64e9; 0x51b0a4f4c4d5426c; 0x4f5097552f057e34; 0x46297931447a2bb5; 0x2782c9eaaab7a128; 0x61eb9e390c10a060; 0x4609b04aa9998a82; 0x7af93417b8d9df88; 0x1482e4039c4516d5; 0xeb13fe96867eca8; 0x639ac819271f08e2; 0x4999a5493cdeaed4; 0x6d605736205100f2; 0x72ca6720528ed43a; 0x792f13145661607c; 0x5b05dac03b06f4e4; 0x3677e681c737a9c2; 0xc7cf089c19c5e61; 0x276a208682bd21fc; 0x7583f04791383dac; 0x197dfaa5f744d42c; 0x5343743d46f56e87; 0x738580af6bf71517; 0x4fda54f898096fa0; 0x51cfee16b68f6a31; 0x7a1bd8d2fd34073a; 0x278e3a1646989b0a; 0x520fde6b6286d524; 0x6b5cae09ba5d0163; 0x776221349389c350; 0x7d6971c96c77795d; 0x5859e3d293bfe852; 0x7c0ba35de691e05a; 0x544108b97f48a3c9; 0x2090b8b29ebfb911; 0x7cd6a6d6b0e28328; 0xba52624943b85b6; 0x9ea3f3a87e207ff; 0x526a157fdc2632bb; 0x5754486fc74d618f; 0x81a2724e5226ee2; 0x37767397a9d4fb4d; 0x2d238861f331bb0d; 0x511814ad22b5e7e5; 0x70199727ae031952; 0x243e1b089e42d40d; 0x3b162ada6e63b389; 0x2a0644a77ab43a3c; 0x4af924d8e432ce; 0x63b37ac38cd2d28; 0x5139bb6b14950dbe; 0x70f7016b1f0dcba8; 0x36e7a5b33c1168bb; 0xef1e9e0433b0ed8; 0x69512fab00d8af77; 0x38580da51ff317c6; 0x15d388025f44300c; 0x421eccb5aa6fe31a; 0x45c07667385825d6; 0x2e3c40108a4a250d; 0x5b7c272824e7f19b; 0x6e94ced6a8234e62; 0x123cd4a33e389fc8; 0xe71cdfa2fc9cb07; 0x12897a951f9c817; 0x4c07bc8097ff7bb4; 0x65bac91ae2e4bbee; 0x40fc044b9010a74d; 0x4d6dc1057f3cb47b; 0x5e5435fe51ab0f08; 0xbdeefa7b004a210; 0x535b408438dbbdb5; 0x4cd96af1dc410bd7; 0x5128257921d6c491; 0x3a522acddca1b19; 0x614d7a9845cbfe25; 0x5ebc383a6f049176; 0xeac692090873b8; 0x6e7e709202e9223a; 0x68a94f382fe7a4cf; 0x5f4467e886309e99; 0x3e6e1778c72577bd; 0xb7e14797066bbbd];
   [0x608973fd110209bd; 0x77c4e9535eb27905; 0x645389337c3b1017; 0x2d29c00683945872; 0x60a00e092e158580; 0x13ff21d8c23842a; 0x5e3eb7e02117815b; 0x4dc6b9f4261a1b8a; 0x5c9303a31ad32e8e; 0x67f6c45b90b9ad8f; 0x7ed8e5c9a6ded664; 0x10e1642685d6ba04; 0x2bc8793546b11b30; 0x3a4404e9bf972cbb; 0xdd98946968bffdc; 0x6b200cc68c9c6df6; 0x2e88c2f5e8ee25b8; 0x27440a39e52bca64; 0x3faa9e6eb7ad1092; 0x103d6a6ce94bd474; 0x4ffcea7621d21256; 0x68b1355251ecb11; 0x3050934573c017a3; 0x7671250a90187930; 0x57563d9a0ffb1c75; 0x119464d6b73a646b; 0x60a427edbafcd94f; 0x47db2b0f0daf4ab9; 0x4792f1f4ebd522ad; 0x7a0a64b60fa558e4; 0x51d615b242ba19e3; 0x1968753c2b4657bb; 0x2ace5a4e1e3b202d; 0x30af192ecf09770c; 0x7dac3f2d7bdf1693; 0x5d0eae758e011e39; 0x2fdf8c49abda51c5; 0x6b5532fe8ac614bb; 0x3761e1d9cf782328; 0x74e875fc2e4e6e27; 0x2a38e683bbacdbc2; 0x30e931aa8d5bd449; 0x74722e0ee261125; 0x42c99f277c538ba6; 0x56059112ce3085bb; 0x15dc7a27d799d090; 0x2b0b188222732bdc; 0x5633c64806f51bbb; 0x2334d54219338cc5; 0x2f863eb43a93d199; 0x2bdf3d0433599877; 0x55367a7b6cd1f8c5; 0xe4ec5b03ff18cbc; 0x67ae4bf67d8c62bf; 0x19adfada3180f9db; 0x34d755e5ca29dff8; 0x72c3a4681e36579f; 0xcdfaf5010f5d60c; 0x601a0d04264f0cb0; 0x3ecba98095be2896; 0x1727cd0229a5cb6; 0x26afb4888093b50b; 0x583bf329399649a; 0x333d4c7f33875e3b; 0x33bb7cb167fa7517; 0x24b9ede683c9909c; 0x470e2f59ff9ff97; 0x7f15ee44f7567f47; 0x1285491cc5e1d3d4; 0x68d1463af8fb2c7e; 0x77fbbad82a870e6; 0x46ede02a01e4eb33; 0x5acb375d2d296984; 0x75e09357772b110a; 0x7f5eca230eeac7f8; 0x37fc8d5769882025; 0x2a5e23ff1f41108b; 0x46ad2e723ef518c2; 0x409072868333fe1e; 0x6d6c8eb4964fd113; 0x7ea89c7c42abc700; 0x79fbc870f98441eb; 0x1ed5ccbbab5548e6; 0x5684f4e30e5860eb; 0xcc6c48c9f04e3df; 0x162abc5baace2f76; 0x21ce4f6755c2a1ce; 0x746ee229553d0395; 0x1ac4629c7acc4b1e; 0x181d6887f9b96208; 0x4c885bdd6177c0b8; 0x41ae5a63a454721; 0x75a6dedfac76ce9a; 0x7b64782a7f8f8270; 0x2aea84fbaebce6f0; 0x1ddf224c099ad1d0; 0x578ccec1de98be05; 0x13e467af3e59c9e3; 0x1c7fb9d43c5c4f6a; 0x249aae97bbabaf84; 0x2604112a0efb07cf; 0x2cbc08baa203e264; 0x2730fbc225af0445; 0x73d1bf610d849431; 0x10ad4e5b0a6e0f4e; 0x556648f4e8bffa5d; 0x1bc42ce06397f53a; 0x50a174f6b859b300; 0x169d64863e5b0303; 0x25496c4bfac751aa; 0x4244eef9c82d73ff; 0x20bf019cc9758bb7; 0x40d76b72d66deaf1; 0x40bdf68d123f6b32; 0x4e5fc3f9ed4ecd88; 0x12d2ca253c31283b; 0x5985e32605583e10; 0x1cbc7ef0008a3f29; 0x40f8f031b62413f; 0x60fdf8549302c9c1; 0x38f448c09cab1e9f; 0x3a1a748350e68a7d; 0x468c00f9737e6bd6; 0x375e3240ffc07f74; 0x1f09303fa97dd1a; 0x341e2b48086929cd; 0x315ed8bbeb69355d; 0x431d8114a4cc3314; 0xfc18e86348769bf; 0x2351020a06a688ef; 0x1cfa90bce793185b; 0x16c9069fbccb0c63; 0x408d9f4a63b127ef; 0x7e09ac707ef5b80e; 0x28f41c8c6d742ac6; 0x79c7cc0cf89e02ef; 0x119d4311598e2704; 0x35e00e38eaab4056; 0x66e0ce35bff8a605; 0x1e142fbfbdbb28fa; 0x17ff515c7ccb7509; 0x768f2b0c1b61528; 0x36ce42a48a82a950; 0x7f94d0b0104c9b8e; 0x1c48cb2e547d5588; 0x61fc9ff76fa6354f; 0x4a43f3c790b60ff9; 0x5a62e0681d621d96; 0x685b43330b0cb8e1; 0x37fa92ab8c47f910; 0x662e69e007769e4e; 0x2239813c89ae6f42; 0x20f2d3f671b288db; 0x76a4e0107c6fbb30; 0x290fc084d5b7e771; 0x2e82be3e182eef67; 0x17b3f46743cc14de; 0x2415ab2095022260; 0x73dc97b60532c252; 0x6e1b4210d1612fa4; 0x1b2f39be3d45772f; 0x5018d7a62780782a; 0x405f62a452fbc920; 0x40584ea6ae18187a; 0x4c0efa1038bc19ab; 0x20f73fd6ff723af2; 0x1a8dc22c2ccc57d7; 0x45c42a1085470595; 0x316e6ca303cef323; 0x7d9d1b81bc09662f; 0x395ec72e30cd1566; 0x69973cd7bfc0bdd3; 0x56112febbb7df01a; 0xb2e2431d36f4801; 0x6d6f36fddfac94ab; 0x7dd8118513229c99; 0x619d0ecd9a0bfd9e; 0x4b3fb8285eb29de3; 0x6abef8268b5677a7; 0x464e89de46e3c53e; 0x265bba23592453e7; 0x4e3461aa378cdd91; 0x4c899faceece09ce; 0x7d1b210aebee4d3c; 0x179baf9b0a323b96; 0x5dca0943c1d9c505; 0x702f2963bc0b075b; 0x3255205be74d20a1; 0x2d52fafd9f0cdce2; 0x1a1d713eaedf97; 0x528978d14f54ffd2; 0x7f9d6ea97af2483; 0x3255abb583658d47; 0x615bef5841517558; 0x684db56bb0e2968f; 0xa46cb3b2ffdb4ca; 0x541aced38f38de2e; 0x5369911a8cd02392; 0x268b58861f1ac7c; 0x55d78e5c827c34f8; 0x13c1d7849ade92cf; 0x4933bb9640915505; 0x532cfec145475c54; 0x4b5006ad2bb28c6e; 0x456439e100711d9c; 0x295bf2955a4e7111; 0x665db154bbcac531; 0x4437889ac8aa63ef; 0x38858cb97885d60b; 0x1e366fa3f2f6dcd7; 0x45b5e46464b25f33; 0x840b52de0cf34cc; 0x7a2ee0cb1578f972; 0x7446d14a7b65c2d6; 0x6b47bdf69d9cf90f; 0x21db3af6ebccdfac; 0x46505d054c16b042; 0x4cff72d7e365786; 0x6f1947c29f0d695; 0xe327254301943bc; 0x6166e2a356570a21; 0x6a559b47d2efb493; 0x7c3bbaacdcf52e76; 0x4ce0c8a40af42c5d; 0x502986cdc7675473; 0x20a9a01b4bcc3b3c; 0x65567f3f60145b4e; 0x4f5431a832f6f982; 0x3a68d2c2e2285a0d; 0x549e593a491fda55; 0x5ad5f5df20110b49; 0x54bbb81f633559a6; 0x3df62aa83c856aa4; 0x4280c1f8ed94510a; 0x4069571d8acec767; 0xddea46d7b9b70b1; 0x65654aa0811d75c1; 0x44a4fe3e25cfafee; 0x47fac863ea7ffdcd; 0x14a8291b86a5bdd0; 0x2d79c8df4ce13208; 0x74a4cac2014f6b0; 0x21a7ec7f3109b503; 0x5ad0ec02cd27b302; 0x223e5fd8e4a1bb23; 0x27530b3fba05748a; 0x6e587ae8d56d3c3f; 0x63bf7c376e78c3c1; 0x687672a2c572e9; 0x2996d123eef43eed; 0x5cccd21c813b63d2; 0x2da65a579bd52f55; 0x1ce802d56aad530b; 0x326b830f924b1728; 0x1b8bc950612d2edc; 0x1ef5fc8f6a21359b; 0x687034a78af09bfc; 0x2a732227964fff12; 0x20c26665e1a448a4; 0x39e65a89bda95c5a; 0x7486a87106575d56; 0x6ffa6a7517b85426; 0x42d4464c9d98e746; 0xdf4a9502c166be1; 0x348fbaf880ae0668; 0x2e6708dcc75d5532; 0x301f8f71003b1d54; 0x62914d6c75e21524; 0x4b32fb6db0ef4a42; 0x2c4bcaa85bedb649; 0x54b6317edc20e78; 0x7002e793310459bc; 0x40b8718c0f6e6c40; 0x7a4a5929006375b0; 0x1e09c53de2c56117; 0x76a95a24339b1710; 0x3dcbe8a57784adac; 0x53b67b8511f65fad; 0x1e850c1dc007a4f2; 0x4b10d741facc5d7f; 0x717b2c0662934e90; 0x120d2c18c51c3a55; 0x33b68a6927ec72f6; 0x375743cbec1f87bf; 0x65c5b290d969a46d; 0x3d313e2b0047e95c; 0x4d5c6b65393e506f; 0x75ee7886c49fabf; 0x60ead7c3ce8ae2a6; 0x5356220761e3ed8e; 0x3f1fefcaf8dd7ded; 0x4158ce2f924ffa58; 0x3bbfabdf8f159768; 0x556bea3eb657062a; 0x6375ca3dcbb83520; 0x4e07fe80076fedd1; 0x5b2e3491254dacb0; 0x578b9e2b8f2b40a4; 0x4d8906f1b0108e81; 0x7ab18d0f97f93720; 0xbcfd1755946e67f; 0x45c83bee94323013; 0xee3f1cb1dc7abb5; 0x312e04b2131fedc7; 0x5ae7fb718e86fea8; 0x588038f02f54379d; 0x2ebf4743146e5b4d; 0x2d50af9ea001346a; 0x497ab7491feeaa30; 0xa9f97c3b91c; 0x55218b3557a21687; 0x2275a73bbceabb1f; 0x60e1fd96987dacde; 0x53e69514e70bf28c; 0x218695964a490a41; 0x7dcd3eac3d70c059; 0xaddb92767b671a9];
   [0x1e9d44c274a68e6b; 0x60f03eca2cee12b4; 0x1412b6d7c155ca92; 0x26ff39b639e059c; 0x75d371b59865eb62; 0x13c51f4fe74ca287; 0x321c6d252c3baff5; 0x77224edf8f0e6e97; 0x1025d4e32c0382af; 0x1b09f8c72f1f8b3; 0x6892a17eec28cbfb; 0x4569daaa13bd48dd; 0x2fdacfabb963be48; 0x679b077abf59453; 0x389fe244a462cc8d; 0x7a21c978d06d8ea4; 0x4645b1057b687b5b; 0x74239883366a056; 0x122614eab6f5b988; 0x246067ae7c1557e7; 0x76eaceb0adcb3bea; 0x102ae4356a432d73; 0x5ffbc0c1139d2d2a; 0x7a7d1d0162a76e74; 0x5ce2ef85a97964ac; 0x536d772de35d6934; 0x3daf8caf6e632fcc; 0x7ae1373335b5712d; 0x36f106807361bff0; 0x43782c2ce57aca21; 0x33a08b0df41bbdff; 0x7197eeea2140eebd; 0x47b196dce492104d; 0x3905b180f6f2fe37; 0x39635a212f273da1; 0x2a9d0968affd5b5d; 0x4b021d00b5c67ced; 0x5df0e1b10993f3ce; 0x6216d15f80f16acc; 0x1c79b014fb038785; 0x626a6bd62238057e; 0x41b268618d90c8c5; 0x38ff465ccc1ab16a; 0xd3ab3bf9ffabb8; 0x3f2c590067de942b; 0x197bc113910f4935; 0x2cf42040d45b6733; 0x331d9a7fec0c36d1; 0x50f0e46935e3ce1a; 0x60cf8747b41b942f; 0x6d66f950f48ae9b8; 0x60ced1ee95ba7efd; 0x476770cf78486ac; 0x1167281316774d88; 0x5691be5cf64fb3e9; 0x3b93a8dba815225a; 0x22dd47e3c30731ed; 0x7bc76cf525d6b0a6; 0x206a900b2ce1cfce; 0x3ec95f5ccec079da; 0x33e4bb93c364e553; 0x13320e638367fdf1; 0xd1f20d127ea51d1; 0x171702953554ccf1; 0x6f339302374ab215; 0x23bdbae6d49f1939; 0x3378da7be4791b1b; 0x7eb9e9688f696a58; 0x5a46ab36ec25a165; 0x118b97cfcba5441c; 0x6a5943659038a40d; 0x233f73d6e925808; 0x4389afb9ad3468bd; 0x7906efa817737e83; 0x4190703747c94293; 0x3b514b23b2457651; 0x644052755216ae43; 0x691b33d6290e134b; 0x1bcc633651df91a4; 0x52f63ef6d1ebc19a; 0x33a92959d348217; 0x2ea9c5131fd098d0; 0x3728723f28e7a0dd; 0x2b07747d71eae7c3; 0x2b5c694542ff7468; 0x3c5c5cf6ccbeec40; 0x74c87911d09e43c2; 0x16b9d5786b3aa5a; 0x4df61f7cd24041d5; 0x1d38da6d5e94ad23; 0x30446e55de2a0faf; 0x4107690271eb6634; 0x614989a2b1741e60; 0x79f8b651b78ff36e; 0x341424f0bea9c23f; 0x438e7ecaa418d7d8; 0x17bb402645a8a9e3; 0x4371789ac6349da7; 0x133c1fac3a93b4f7; 0x3d21868996d61bf0; 0x38b5e737f10d67d3; 0x8139603b0024755; 0x5ef2a7e320878aa8; 0x332c6a071d367b69; 0x7bf0faa632b30c18; 0x144b2a83fbc5306b; 0x68ee5ba59c1098f8; 0x3b4185037ba4447; 0x1728546937c766a2; 0x6ce2dfb5d1756156; 0x371cb7a02c4b0aad; 0x5987961829922d58; 0x1aa1190c3291186a; 0x6a59fef5a97882bb; 0xa2f4224226093d0; 0x372a6ec5704e5e04; 0x156fe9a5f697d3ef; 0x7b3998f3c3b13dfa; 0x5ddd13137f763eb1; 0xd7cfca49ea744ca; 0x515a8ea8033f8900; 0x7b68f60d52ba77ce; 0x51e2fa9cdfc175d4; 0x753e3faf34ce3613; 0x575b151a47f135ba; 0x1be54928d926e686; 0x5ba4e9debb3af1bc; 0x12b5903f6019abd4; 0x1d12c5b9e12c60ff; 0x4b734782a9aee179; 0x6b8ba183ded3aeb5; 0x4de7e1301f1bee3e; 0xd208defd99e2ca4; 0x640839836e22dc5b; 0x2765205169429c27; 0x78b06e59bc1519a3; 0x52eaf963f610ee67; 0x6c086c60b1173035; 0x2c1766d9f7a8b635; 0x3f0491180eee9d99; 0x29d3ef0aaee88d79; 0x47d1544a7471e78d; 0x1b37f0ef3afdff56; 0xd2be257b82fe73e; 0x612761acb266f8c2; 0x11b5c7aeedbae036; 0x3c91f48094cb2159; 0x2682555b95ae0ae6; 0x4861a33b8d81e7a3; 0x7c638519ed10f4a; 0x353301261b5afe18; 0x30459a1404c5dd3d; 0x3ac2ce7f6f1a220b; 0x5a93a4cdba99eec; 0x65db5e118d026dde; 0x11eea994d92e8d74; 0x7135901e7bb721dd; 0x6e327cff3a5fa681; 0x1d9b199cebb5d5d9; 0x72f4c3e906230c64; 0x159b3d66fbfaaf90; 0x258479dd6df4656f; 0x1ebf79ffdf6f7b02; 0x105050668ab9cd9b; 0x11c16ba7c82b5adc; 0x1d0f16723620f14f; 0x4ccbd75dd69147e9; 0x6932e58a64aa7f1; 0x4bee81d528464369; 0x56e00a7140b29b96; 0x5b9f6b56d50a38a; 0x6a539cb03032d24c; 0x76b057655764ac14; 0x2916fc4c2f0f346a; 0xfb0d9d6704071df; 0x2bc5f8c67f3910bd; 0x2f87245e9bc57b76; 0x1de07cb3999c03e2; 0x15a43b6989ec78fa; 0x507c9a93f611b984; 0x20436f81a19636bd; 0xda3216223512e84; 0x425c191020325ce; 0x75b3c73b72c135d0; 0x1f4b0c85db1ba60d; 0x2b3ae62cb06c887a; 0x18cbd69a69ad2e80; 0x5af8c3e4ca0f6056; 0x2117fa6c0815ba32; 0x5f0526f1fd929148; 0x1b87b634c9d65d05; 0x3fd59e78b598a973; 0x6c5e05ccb6e571f6; 0x130471dd4e530f68; 0x405ec3d1639fee66; 0x175c42f4f7902949; 0x615eab624bdef608; 0x20818b5138935544; 0x621ed5386233f149; 0x395258730bd3e48c; 0x74596d90332542e9; 0x2100fe984a2f7b3a; 0x609b6096780b7942; 0x38a68bde95767ca4; 0x503547cdb84b9219; 0x2c8fa840cb39b846; 0x71a1cdbf45e2b880; 0xd1674003d983d4e; 0x14be4453750c4115; 0x363fbb5e903b5d21; 0x3df4132083b36978; 0xdb077ab0e333865; 0x19a565dc99ce124c; 0x59348f08fc2aa9dd; 0x6fe501e9bf4ae0c; 0x27695cc378068168; 0x1d3d3f5305ef8cb9; 0x115849ed12a67660; 0x7c560c25612935d7; 0x1adfb978eccece59; 0x45856691be64b2c9; 0x2fcf7c75ff7afdd1; 0x70c7a827cc33faff; 0x2194c487c5635b3b; 0x1a294de2702c2a2b; 0x19720fc9903bf244; 0x5ebb008551f2fbcd; 0x79284e8c2b5ff098; 0x4a2253dc146eada; 0x729f02f688dc0af6; 0x79ec4bff2c22b57b; 0x6608d7d8815c9c9d; 0x3e20b3d8782ffd91; 0x4a3a98203b1d30dd; 0x5a5a7b25dbf7a075; 0x58714ad293a5779c; 0x5ad4a912399264dc; 0x5b1dc4ced993ae06; 0x1cfa6d6caf2ab5af; 0x1834b357e493dfc8; 0x54bfe2ab0689dfcb; 0x5e5e395a8cce826b; 0x398b542c109ca2db; 0x61d1116b0a57256f; 0x73464dd856e82fc9; 0x1a3bd673225436df; 0x5b909e8f2ba3389; 0x7d8cf34a411ad361; 0x2d461da945364534; 0x5b7d807a4a5b6cbd; 0x68aac92d4046364f; 0x2e172ddd6dd54680; 0x6d91b5631e684686; 0x16abc38b7952e2ab; 0x59e0ce1e83ca0bd0; 0x77328c11edbd01a2; 0x2a63c69edcec97a8; 0x638229715b3094cf; 0x2d1ac30fa0e3027b; 0x980ac8c7849c227; 0x2817d9ae4ba21ee; 0x58cc7a26f37672f7; 0x24d494a5f835f22a; 0x856c461ed6701e3; 0x28dfa5cd0a89bf8c; 0x748fb94a226cad57; 0x306bd56abdf0f2e3; 0x612b986e468a28a0; 0x7393781f98017fea; 0x283e343992b10400; 0x5bb4a9d2e0ac6736; 0x3a31014b8d995be0; 0x31e80c8ad8ee9c0d; 0x7a97785d61d7fbcb; 0x23cb7506b7f846a3; 0x3e7410f4c7d108f8; 0x5b87f4c7b28af796; 0x53dbee3174323c0f; 0x28752ad5ff154773; 0x6dd9e199e66f680b; 0x169fae6a4553f677; 0x756c28936ca01726; 0x495d0f9d7fdaacb4; 0x36530ee54d37ff71; 0x76bbf2ee42fce3f9; 0x1d283d53418f5e5c; 0x70fbbb7fcd8cdf3c; 0x785ae688bd708ecc; 0x5052ff52f0a37f3e; 0x69fc7165e4f2f3c; 0x4ecf90bcca493991; 0x2a1758abe26a8116; 0x4a3b7a076bed4127; 0x4c81fa8ffddf9005; 0x2b5a56138f17e0c9; 0x5fa616ceb4f26147; 0x451fb5ade69c8d2d; 0x5a718fd36462a18a; 0x35d3c10f0a2fb735; 0x1007eb7e46026cc1; 0x10ec78242f4a9d3f; 0x7bd13bc28cf16ef7; 0x1cd38279b52be10; 0x1b5434edb8f283ef; 0x5597ebf961ebb074; 0x6d1863955342ea77; 0x556bc6d38849b393; 0x30ec149020395905; 0x11671e9dd61503df; 0x6e470d6df7dea93d; 0x5d2d3a5f61c3006e; 0x36a28b43dd240a75; 0x414553351883303; 0x6a5fe638e4ebbbc; 0x3641f3d972ce9b87; 0x2d2d5994d3a880d3; 0x2c586c613fc7cc2];
   [0x7a3f0539291924ab; 0x3ddf85f1976b2b20; 0x6288abc72e861d70; 0x4d4d85f4977e6ab9; 0x594e0eb400a349f; 0x5c0430e6c5b4227e; 0x430898ee7d1315c0; 0x2fc7a28fa444c053; 0x1a4d2264ccb2da84; 0x25a751e316120516; 0x7dd23087f0747074; 0x6476a6831be0df18; 0x266f26f07da8295a; 0x1eb5b62232fe33d5; 0x1140265cc0a2b20; 0x7b990ae8aceaaf20; 0x17ec38779ecea41; 0x7a88405b0e600768; 0x6f6e676a5b15db97; 0x5a5c774560bf9880; 0x653d8a0af589e792; 0x51d668d39f9d1501; 0x499451d38ccc7463; 0x71e5edebc2f166d5; 0x459d50a8bce35fcd; 0x6032e46fb201b046; 0x1fa0a9e095fe3947; 0x74138fc28486dfa2; 0x5d3f77024cb384ec; 0x7c92f2a22f658b7a; 0x41eb7227590c8465; 0x7809ac063fa52f31; 0x5ad4f68d3940edd7; 0x3c2a3f88c7b02838; 0x44e11002e4b9be4d; 0xf1d22736fa89d1b; 0x65321bd862a9b084; 0x58e16e0bd9d63dd5; 0x1cbcbbe009ed7c7c; 0x1bd8f938b394456b; 0x39bad30e328198ad; 0xe83a8f809bb9295; 0x24c9fd8f7c4ea625; 0x6789e05f74b52bb1; 0xba3606ea7d1b7fc; 0x3639518e6ef7a2c0; 0x4ac7de05478b665; 0x6ebcd7d75cfdd111; 0x25210253fe67592c; 0x7506b379fa299a0a; 0x76684e2f5a4519cb; 0x6c5f10eb9fa1297a; 0x65f5236de8a285ec; 0x1da78385c4fd573b; 0x6cbfbdc36b8f2f26; 0x738bf3e278606785; 0x3d0a23f03afddd9c; 0x2568b80e3a9e5f6f; 0x74be76a04318e828; 0x608b6292008a9657; 0x5fa81d6214fe5c61; 0x10a9a9c4d46bf0e9; 0x4aba361320315907; 0x6cd0d3ab36b2ebe3; 0x60cc5050d37b0cce; 0x223acac901a8b765; 0x26ce8eb9143d700e; 0x3ea7d7ff54918196; 0x44ef9c94c35afb71; 0x1f6b3dba308dbea; 0x186452ffa4f79b0c; 0x43105fe7060fa3b0; 0x5a0a51c5ee144033; 0x2e68be153a4dc6ef; 0x1562d4159093a0c; 0x2079ec0de806c2bc; 0x199c78a0137b0828; 0x14fc6764aa481e89; 0x540d83ed7f36d68f; 0xcfae3c36c4129d8; 0x13c8809f8bae45f7; 0x3bfd212563ec2f82; 0x3c61d9444e66f97e; 0x53ee318602d90c9; 0x44ac0b3ed90a9e9f; 0x1dd60ed12f3af4c4; 0x1f1f76e1595113d7; 0x7f0fc7db04ecf792; 0x327db57befefcae7; 0x186e96fab37f6f9d; 0x7bfb7d67b45b2a1a; 0x3fd75c413527864a; 0x30355dfe29fe7b9f; 0x7d9e9114e93fd2a5; 0x38ebc3457656c479; 0x5f07b508a712acd8; 0x51fcd008f287f1ac; 0x37a5c78939692cda; 0x1bc2c92984308684; 0x730f9c6feb42cea9; 0x11e57e23941390; 0x23c062a0e14c4dbd; 0xff31fc051c6dc6c; 0x1d8de946e038196b; 0x3b02a6d625380c9; 0x16290ee7525ecefb; 0x2a1326a2ec4f3f79; 0x21093d60201450ca; 0x2317bca291263d58; 0x7e4dd4ccb4607d3f; 0x166b23217acac12; 0x3e03882aed6188c7; 0x2290f216341f122a; 0x4ef4dd44cbb65199; 0x787117cbabefc31e; 0x36c468bf878a79bb; 0x2e4b27fa1700c7c3; 0x15bbe411340e2c0b; 0x349b68af23af5345; 0x504c89573e1bce70; 0xbc75e4f33b9426; 0x38b389c045c6e476; 0x83e165e76fcebc6; 0x1b50dfe0aad87722; 0x778706d622b3105f; 0x5a089dc995417c75; 0x39c497af2c406acf; 0x2ae0e5c43a0fcdc3; 0x43fd3b3abee41631; 0x4671c06ebbcd4818; 0x468a1c5deda3699f; 0x1e4719651712ef8f; 0x658ee0a308b2d84f; 0x319b96ae073c0803; 0x725db052d6eaff81; 0x151536684358150b; 0x5f7d513b8a97565d; 0x4890e519d3057017; 0x11f1375939e3bde3; 0x4fb692d39a68f2e2; 0x191d014e6b1c4218; 0x67e65845edd76ac4; 0x43ffe689c3e928d4; 0x269541cf2bb99f21; 0x6d78a1089cc2c692; 0x6a726d09f446ea1d; 0x61e313a8eb1e4e0e; 0x50c6ebc3aad90013; 0x77ed122bd8b44aa9; 0xef9322105ab1fee; 0x56b13eba3100b652; 0x380d59085b84aedb; 0x46e547f227d28bca; 0x6ebb6de062c627b2; 0x2eeff252102ac12e; 0xdc6a1f5d46baff2; 0x3dff2405b92b8972; 0x71e6eaed4ed14702; 0x17e5aaa67bfee266; 0x2d08ec6d1aac9e57; 0xfddebfa2523eac7; 0x4a90bdf370005224; 0x62a2c96dc7619e77; 0x282e8c86b4fa7b1d; 0x6e3b17ae943fc060; 0x2b689e10d1dd9e12; 0x1c4bc44397589de6; 0x18c44290ffc88e44; 0x7f26fd3d4ab4233c; 0x3b68be2465a549d; 0x68465d620dcea510; 0x33a3337191c95c7c; 0x61aaf8335931c093; 0x48c2295c5a206eed; 0x1b7b45e919a8e16c; 0x19ae653e23a15560; 0x1e1e02577e51a176; 0x3bffc003e11fe14e; 0x527f8920e574666; 0x470bdea0787a4794; 0xeee3a477c16f761; 0x77e0638239f1bc75; 0x57b20968e6a83d9c; 0x385ab928e5e2b9b9; 0x387cbf72125c9f66; 0x6c4deda481f14bdb; 0x831143fb8702fc6; 0x532c5e87e7fe1f2; 0x41c06c21f8de9b6a; 0x3693107fa5cd0b24; 0x6d64c99bef3404f8; 0x59188846929635ce; 0x4881368d891276dd; 0x36e2fcfa033dd91e; 0x1ac69271d3681846; 0x3980c850c97771cf; 0x612e95900041092d; 0x6dd3fb288ec9d154; 0x4560860f681bae69; 0x5c83848b03909996; 0x72dd20a3fd51f4e6; 0x1f8f997624c41435; 0x607d2f9210cdba32; 0x3512c62c3321e81d; 0x18a2a492da7122f3; 0xd2f69247c68227c; 0x17b2be8d228541bf; 0x77eb83fef249b246; 0x24328a96b69919b8; 0x32353bb03ba81962; 0x7e9bf52e78d199c8; 0x4a3a3474aade5261; 0x5eb205fd9164de49; 0x534ac7fa90ca7715; 0x27771608a81a90ce; 0x609cb1d57545790c; 0x19fe4bf6a2c490f9; 0x61a20356fb82ab0a; 0x4cd715047bc9629c; 0x52ee317b25b1b4d5; 0x568b2db8f19e4765; 0x6942f6d536293a1; 0x35c2153c3318cce7; 0x62967aaa675ae82c; 0x4671168acf3fd575; 0x55a76e0cf0ed1f90; 0x560ade4e2d6edd74; 0x15a94cf4ca439ec4; 0x5b2008a5aa053bf3; 0x1ee22984958df9d5; 0x3655ec1f2aaad12a; 0x47312ab3385bab37; 0x390f6f4effafd976; 0x9b52291383cdad2; 0x2668cea32cc69b19; 0x4a3c988d43a9e7de; 0x7b8253c5531fb598; 0x7bbe4f376fbac5af; 0xaccf6f65c98990d; 0x28c0b461649b552b; 0x6fcae4575da2f5f0; 0x35ec21a213c08813; 0x3b7108d93edc87bd; 0x3912449596d7cc95; 0xa7d8d46dc2ad3ad; 0x2f329aa2d5d65a3b; 0x11e1a9a662bb73f3; 0x4dd059a44a595743; 0x1bbef0e9250dbb65; 0x43a7aaeefcd069ca; 0x6cb9397a2cdea435; 0x3f5d34ee6f807b55; 0x12533bae954b4899; 0x397123725f39a888; 0x1a98f8abd4092081; 0x6ff248ef14cfb765; 0x10433f00603229cb; 0x5354ecf9c7294693; 0x34928121018f5000; 0x3967394be8d0bfc; 0x64fc51ebf0ed656b; 0x154169072a6b7909; 0x5c76e9ed6f5948ee; 0x7dca49092d707e06; 0x191db7776d6c755a; 0x29d4c14d7d181072; 0x27cf0a29e702a153; 0x681486fb6eaaed3e; 0x7489a36e55c58b33; 0x321163156bbcff91; 0x3915d74975e3aedb; 0x6ff2c5287e95681c; 0x7c77ec3643873d9c; 0x6364087bdd959f8e; 0x2f37863e3df6dc70; 0x101090af2b0ac3b4; 0x7d9a246e95380e9a; 0x67004c23239538f5; 0x74de2c859326579a; 0x631a466f3b7726d3; 0x5adad62d0f8a9ddd; 0x436ed0113c55e9a3; 0x67d18d370f1dc281; 0x7abe405ce164dc93; 0x16eb422c8ea0b1fb; 0x4e8c63c12f8fb80a; 0x9527d3c9953d486; 0x5322f04061135507; 0x71e542dfe46f9245; 0x50029d0ece78aabd; 0x72d5c03791e1b907; 0x793f4d9cd82eadf3; 0x78e0bd56206c856b; 0x21c4dcecffc68ef1; 0x14d5e7bee329d8c1; 0x450dedef7bde9051; 0x90720cda9beabaa; 0x7f7a788c9006c8b1; 0x13eef16099bba35e; 0xf90520143e53916; 0x3766dc0786546faf; 0x1af765b9aa035ed0; 0x5a5f9e774322dec3; 0x14600ab59057cd5a; 0xd03a327d84df4fb; 0x68dfc702e8ba06fb; 0xc74dd858ffc1c91; 0x174e6a4e89b51437; 0xa62817ef68db91d; 0x2329b271be75f2de; 0x35f5f553784c6cd3; 0x5b7e379ce76ed7b1; 0x6c1be68df62f401; 0x751f6c7b3820568b; 0x7e7b8c8e52c383ac; 0x4475e5278afb1a2f; 0x711a75c600c324e];
   [0x72d544d546677e06; 0x1b07c0fbdeefd711; 0x14cf9b7d1a7f6ab4; 0x51322450b14b803c; 0x4521383b39a17094; 0x5444b70cdb7d048; 0x7d107be5b229dc80; 0x3091c84b4a3acb67; 0x60993814b5276c3c; 0x4dcb2b98ffc4a9ac; 0x18eac3f5c5f67d74; 0x398bcb19aca54742; 0x51c93918e263cd65; 0x15f4959e8d3eda8f; 0x1122ee18896983e5; 0xc7b98ebfb58c238; 0x412605dbddaeeb17; 0x54b2422928e0c16e; 0x16f241013084683b; 0x536bd28d7cabd790; 0x673c83bfd2a0d4d2; 0x304298699651d0ed; 0x97e617de3f8eb86; 0x4ce5d46dd3ce16f1; 0x49104f797a659242; 0xabd2d2b71ec3f8; 0x1dc37f4fa0299782; 0x261edabf9c530eb; 0x194cf79d8482ffb8; 0x5c9092fcba491ee4; 0x54d63b22b20891d3; 0x102056c616d0ef76; 0x330d9b233c047d16; 0x78718ffa79438fbe; 0x783d5768f935c19e; 0x6557cb8087b5e84c; 0x722d678d7f601b39; 0x2761fb1bc3e51c82; 0x3d3367ed79fdd375; 0x58ead24011758367; 0x1dcc871f1a13e935; 0x5092aac372c5ba33; 0x2bf1deb37a5a3d1c; 0x42b1ac02f3f9ff3d; 0x7c15ef432fa2a301; 0x51cbe31322a83c3; 0x4a7e86610d813b7; 0x4eeee02f28471a75; 0x326edbaef0ae4121; 0x6e1e4bc791dade81; 0x60a2d9593d942849; 0x57095a09197fe7e9; 0x3ea3ccb2c29808b9; 0x48dc903cc569c229; 0x666bed9b777366c8; 0x3914e1ff2b33f209; 0xe3e9ae6f44c1d10; 0x1d101038e6371e9e; 0x7eb80fef1a87d4ef; 0x6e0f1a96f2f30408; 0x156246f233683a2; 0x3851c39924cf3d61; 0x111eb4f661df12fc; 0x5b63308f22d507a5; 0x67b1c187e1c4b838; 0x50859c3ec136c0d5; 0x159fd7b8e29b8d6a; 0x4082d4ce9ebc2270; 0x283faf0a7a73882c; 0x4d42cefa972887aa; 0x76eef51d1ae1616d; 0x2064f9a519aa0a8; 0x42a8103c9f089627; 0x1923da6665e158ee; 0x53fca980989a3524; 0x41ce9d927e8ddaa5; 0x581d0d4a47d5f4a5; 0x42665d742119f0f7; 0xbde051255bb833a; 0x1ff72d62410259c7; 0x611d236911539f6f; 0x2824f5e191aab0a1; 0x7cf9bc826573ba15; 0x300c757f937e3f7d; 0x32a07172fddde7d0; 0x33224b69ef0916b7; 0x2227e5aa33461d5a; 0x3eae61b95d476247; 0x33072954cd487ae4; 0x27de3d818f600f48; 0x1030dc33d534b630; 0x268f117f7bd35bb1; 0x3e8b991fdcf4bc09; 0x320484b6de4b63d6; 0x2d793548ca5e221f; 0x5637ce422f132643; 0x4a1c1b14d544feaf; 0x64e5b75e783d062b; 0x6edf3a3beec1d323; 0x557c7589114b80ef; 0x6e9a23acf13c3510; 0x1a87663a08a583b8; 0x2f679c6832428686; 0x3ba6bb5675b73f94; 0x9baad3a10c02990; 0x4e793b87c8d41c21; 0x35e8e6a1708d7d91; 0x17c0f52fa7b030e2; 0x65dbc0219630d0e9; 0x25fff9dad8f169d; 0x57fd116cd5a72d99; 0x50dc453ced8d3a54; 0x6a63fd362abbf77a; 0x79737e2852b3cbc8; 0x497b575d67311e6; 0x7252a8b2ca1392c9; 0x346050efb0f11f3b; 0x53de3881403cc55; 0x25f07b248e69116d; 0xd7e533799d8f5a; 0x314cf5713c9f0e63; 0x3c47ecb0c1f232be; 0x368266b52e8cfb3f; 0xe6e70772bb76fc6; 0x7e2d0bacbd98b757; 0x16685364c64bb907; 0x7e1e73bd47b79a01; 0xc5456efcf5d6e3b; 0x6144d76434f472b2; 0x5905e94f9dce1273; 0x4c153c3e7d34eba4; 0x6d01f9fb6d06c1d1; 0x38e0d14e0b389954; 0x8a303af8702058; 0x7a690dbbfbfe9d1a; 0xb78725aa4cf0377; 0x544014043d1f837; 0x3066d9e5cca72fa6; 0x50a5ffd7718208ec; 0x72c166a83560d3a7; 0x62f76bd43975c11f; 0x66d0fd1351e8f82d; 0x7b97474710914aaf; 0x14930394cd339eaa; 0x4f1d48d83f00bb30; 0x2d7c0db3d898c952; 0x55cf444b155df277; 0x70450b3f10bdfef4; 0x396fd793d7dfaedf; 0x63cee2f1a4ad16da; 0x108472ecf7aabe24; 0x31d21e11e759b52d; 0x259e6660f646c948; 0x2d8a3dc5e4a90407; 0x2c17571b0b45123f; 0x7fb5f6b3efb8f2c2; 0x746b8973e3ac2e20; 0x3c33cdf1bf2dfd2d; 0xe2c8e440558e01d; 0x7ab33a8f505e3f71; 0x5a9e4ed6de309278; 0x424a1923ddd0f8a8; 0x3b9eb6434cc4c5e1; 0x61bc2a8fa912514; 0x27603e4d87b6dfa2; 0x65a64316ab432bc6; 0x2ecd7f313494740e; 0x4b6279e13433c68; 0x562c2c5272e6f145; 0x2736ece0dd3335e0; 0x3c307291e0e63771; 0x8a439f8b638e338; 0x5713f08870457c52; 0x3f5bf392a2b23a6e; 0x7dfa7da1d95d6f6a; 0x714003f1d894a186; 0x6d34c82f44fe7538; 0x45c868832e55fbd6; 0x17f8aa1da8e7cf63; 0x1ffdb50a60455634; 0x6e4552eb6b90767a; 0x65f4a9045f3f3e9d; 0x176acfad8952c9fe; 0x1afc50bc4a1d7aa4; 0x140df08cfe01979f; 0x3941942a2963687e; 0x12515b624641b681; 0x299db26a35a0fe0c; 0x5075c3b863d681bb; 0x330504e5f7840f25; 0x499f8be882778060; 0x18ce6c7d2a5473b6; 0x4d5b868ff1d90bc7; 0x7ad3076d3ed5dc70; 0x1c01c9013b76be2c; 0x34f2e98bd7adedd6; 0x5fad45b94624d456; 0x7c822c9faae5cfc2; 0x3fd36f1d6dfd19e2; 0x4d93a9837e779059; 0x2bb4342bd503763e; 0x6d26f96268472a66; 0x616cf00b080c1344; 0x716f8d8f8552dde5; 0x24f8ead7457e5e3f; 0x5ac0a360864ee41f; 0x268820fe436f7ca5; 0x3b5bceb34ea0d89; 0x4ed63da217e3eed5; 0xa24c2eaf9b6de0c; 0x625cd46fcde1e0b; 0x4f3f4d81a8c90412; 0xfa265df9abee71f; 0x18ef6298784eb6b1; 0x43f91c4de4fa6f; 0x4b0dac0548a27ff1; 0x19870d80b451223; 0xbc74d87b09640f4; 0x4191d4544e8c6823; 0x190c130191470613; 0x8e70ba468c7a5ed; 0x39211eb17cd62926; 0x311f12ecc9de34a8; 0x47887f1aed93c7c2; 0x395f26781b92aa10; 0x121aa019fbf4530c; 0x6be6f0a098e0fd52; 0x37986d0109a05e7; 0x427cb54f20da3ea0; 0x84df420316887c7; 0xbb63e73aab2f10d; 0x1efc33a91ab37869; 0x1f8ed41ce82c173c; 0x3d608ff23a37e4c3; 0x1dfa41e3c566339f; 0x51243b282849043b; 0x694f89b247910a26; 0x1d582a117fd2dfa5; 0x7f5b291a88adb105; 0x345cbd5fda701ea1; 0x5e35fd64ecd476cd; 0x4f6365623715bd9f; 0x792dbb66c2037d6e; 0x3c7dba718506f83d; 0x5fc9a4145fd11865; 0x30f073cae9750135; 0x1f585268825f9c2a; 0x10bf5a67770cb3b9; 0x2def73ea103eb107; 0x430d20b7e1b1f7df; 0xd75529800307a6a; 0x2c7cf3ae2f745dfd; 0x47503c10d9022c4d; 0x18a921578a434ffa; 0x6553dbfa0d8d498f; 0x56f2cd2abe833b86; 0xba8192622a38f20; 0x513edd7a5ee9df7b; 0x2da434f686121ee6; 0x90bb2efadd0b7da; 0x33a2fb1d39443dda; 0x20d814be48bee446; 0x5de81bd50c1acea4; 0x5b2e1001f734b39; 0x13858189e47431b6; 0x385d5acafccfa91d; 0x40a71ecb3a9011ba; 0x3107a6acea9603d5; 0x748b658a270b890d; 0x78f1208e9ce1713c; 0x532331e6967ec0cb; 0x33a74e0b6d6c83c4; 0x48288c492c59e1ae; 0x69eed7e9e5a834e1; 0x2e8c9b96714d37ae; 0x8bafe09dd1a5305; 0x58056605ea5ecee0; 0x11549a2a10dfad96; 0x7363744a59723bc8; 0x71e77280b0f3d1fc; 0x6024b9cbf4fd67ef; 0x1baecb694f2021c7; 0x11348f4bd495b7ed; 0x298532fa2ec19006; 0x2aabc09390fac93b; 0x262a180686cc58d2; 0x4d6944958dd1c76; 0xa8d2a3d01f2e4; 0x575ae989a0212037; 0x25f76cbc1bd8b1d3; 0x5b64e8e584bd4453; 0x2f015f7544caaf3; 0x40fc234f8cbf8657; 0x2f938f33eddbb68d; 0x697713cfb65709d6; 0x228f4aef6f4320b8; 0x66ac597f6bad39cb; 0x5090098c8a8c714c; 0x77d66943a0713e3d; 0x69df65b4ce241a5f; 0x6dce3dd313ce511c; 0x51e43cd345005390; 0x212ed38eaffd693f; 0x16fa3a99c52d9d2e; 0x1f3103a81b7ccb7b; 0x248fbedcd65fed66; 0x2526b2d942cee989; 0x7dfbe8fc908d96f8; 0x6b38f5f7e415d68d; 0x5b46414d5dcc0d90; 0xb6b5806593343ef; 0x18f6e6039ea794e4; 0x742804e97b3a122; 0x48f27213a9e5ca54; 0x243c51134afbc389; 0x6ebed6f72a318ac3; 0xfe4e58cd0f087bd];
   [0x70f557fd3a9e7770; 0x3f82d98ecc3b5085; 0x1a5e53d7351e1798; 0x62bb1fc84c4378d9; 0x4ab2bc351b4662d5; 0x69d0d2fef82c6826; 0x7acf97138d5260d5; 0xdcc4b4a673b4ce1; 0xb6190eaa65c15b9; 0x779eb14ccfa22719; 0x6eaec02561a456df; 0x4dfbd3d36b1adaac; 0x225d4fd66ee0fb6d; 0x1b8d246958bab284; 0x386a0c4137a28d54; 0x3607a9f3d9bc5422; 0x7b8fece7f8fb4c55; 0xb5da0ef583fadda; 0x6ded8ac02c06686a; 0x724e2365862cea2c; 0xda60c141c1d4241; 0x857857f1bf609ac; 0x7331a25c156824d5; 0x946681bfc581c4a; 0x7dc2125d21c694c1; 0x57adc88a82cb3b83; 0x11c3d5d8507288e7; 0x22c460be7ae6d229; 0x155a5185feb4d82e; 0x7020c4097ff37127; 0x2b20bf858a618aeb; 0x7e291ed4c8e6c3ca; 0x5a24e622c4ed14a1; 0x6074cdf72d89dacf; 0x636d29e589881461; 0x4ea5a0b07d19245e; 0x142e7c425181419; 0x5f4671da574291d5; 0x10c0ff5604a3dd68; 0x3a39b3ed725db4b2; 0x3e6ed8a4cc5c7d7e; 0x169ee6e862f046f5; 0x208b78bd1100dd40; 0x287625a356d83c99; 0x36a1cf02cddb172b; 0x6993453aa4bf7e12; 0x438691227390581f; 0x3fdae4dfbb42b0a6; 0x17793dade6ade145; 0x9fc63b4ac91b7ae; 0x3440f91adfe0c2a4; 0x64a5b4a9cddc6761; 0x5b98759cf7333d3b; 0x633b5389a489188; 0x7b921c47e35a20a4; 0x260639337a093c89; 0x5efc65cd4173be63; 0x7e2673e16302e9dc; 0x14ec1bba6c3e863d; 0x453bcc8a9c481fd; 0x22d84883503292d4; 0x5200c1b2f375c9d7; 0x7f0d23bd4feac3a; 0x1ffbbecd12df80a5; 0x2c173bac97f92559; 0x5a55f526ebd429d5; 0x3856a9937375b332; 0x48c12f346dde5741; 0x552832e0bd8d86f5; 0x4fa7538adc20bf45; 0x690866551e03e5a; 0x5835b400247a8531; 0x5d73727017daab64; 0x52759abe9a1ab2f5; 0x60cbf552827e37b1; 0x27a05285ab5e912f; 0x2ea972c6fd1fcdfc; 0x2feaf88108d33bd4; 0x4a02623891e5d6e1; 0x4a2625df2998f178; 0x1cbd5e431edfbc03; 0x2cb6d049582da5c; 0x45e7a7d5ccf2d4ce; 0x4e410459a31ff696; 0x377293cff2c82e55; 0x679f4fb6835d75c1; 0x71e0abe3cacfa559; 0x122309784d2d8298; 0x426d84e544648a96; 0x779b4d836ff0a7fe; 0x5f9f1fa1f14d6d06; 0x2ad5f91750221b23; 0x42533bd2e7847850; 0x6a969b3384c828ba; 0x3b3db85c639db940; 0x1120e9ff172bb080; 0x226bcecdd60543f2; 0x190e0f8bb71a2aa5; 0x3d01cde2fb56c118; 0x54292cb3ad09919b; 0x1367336324b80955; 0x3dfea93c088d4b50; 0x50b39c98ac860f95; 0x767ead72e908f623; 0x497194fe1112ce3d; 0x7d848ae1c41b812a; 0x353ff0a01c856afe; 0x3063ddb7a986aeb6; 0x637d757f6571d81a; 0x712b1cb74f335d0a; 0x9543cae92d9ae0b; 0x29331a625529eae8; 0x8c9c776b87b582e; 0x300783543e79da; 0x4f1ef5bfa77c7430; 0x48a2a84ef0fdee75; 0x78d1105036003b27; 0x758c6cfe13340678; 0x744dab2f83b73b1; 0x17742f6566c05373; 0x54a1289d0df8525a; 0x7042453f4bf48dbb; 0xa10b03026e55f68; 0x1cb1da9a68fdbece; 0x3081c872b0cab47e; 0x7ad360c1312e2e10; 0x5629cbbe41f309d7; 0x677d5316c0fa3845; 0x5471934041a44347; 0x844b2c5d617891e; 0x2b96ddeddf693528; 0x6983a7e551c440d6; 0x554cc58a752ae37c; 0x2ee514104f11af58; 0x3ae235318a1d49fd; 0x35cf4c7f02a88982; 0x7ac16ca277d77b9e; 0x72da6c289c5432b7; 0x7a76a731d286136c; 0x300deba8de3ed12c; 0x522c98ab9372e26a; 0x26b70b1eb005c22a; 0x3641dc065aa4f884; 0x101e7bd3b412c6c; 0xda0162eda9bdfb0; 0x4674cf1ad4940706; 0x75c4a9b45fbfce97; 0x7a7edbe738f72457; 0x4545df5946e949ad; 0x47716db382a5d272; 0xe42f528c19edda8; 0x14c7c6141bade01e; 0x57740ad90250a41b; 0x64c840b51b030a5; 0x5430f28a2ffb2561; 0x4d518a7ddab8fb4b; 0x5e5e56b9dd925868; 0x5149624679a0cf3; 0xd913ef100827649; 0x5960033a4481926b; 0x4bb12b1665cbe6fb; 0x55f921a7e1ef7922; 0x686fed5d9b846ada; 0x635864d60acbc744; 0x5f34afccde2537d9; 0x7cd86ca1105bcebc; 0x532a91d131107210; 0x18b9e7799c74aae6; 0x2b0ef4e7f3737216; 0x7cd2cbcaf951d597; 0x3a32b08532de0057; 0x275a8eef00780936; 0x7a39f340fc221312; 0x7d867e35a1ad454a; 0x3c6ce317bcb2b875; 0x42d0e3d162848e2a; 0x4534cc2a5be57d59; 0x219bae10e90b03fe; 0x873660575efc9aa; 0x115c86f416facf06; 0x5f3ab4c205d192bb; 0x9be85f4a9f42fd1; 0x3da439b7326f6c85; 0x394c7698d7bbad18; 0x6d7e29437c3a245; 0x2b8c944a756cc9e; 0x6c208e949b6238c6; 0x4da48f0979ddee48; 0x34702145a380e886; 0x2e09ab688150cc3f; 0x457636593c970904; 0x457c521a15a3575d; 0x4b8f86600680f7f8; 0x58ed75e1793a3873; 0x3fe610bd8027c98a; 0x783552ba6bdd7ee8; 0x735cabd389650613; 0x4bfc28d4a2f1e38d; 0x513145ea8e3e8188; 0x499eed55e8207af6; 0x1d6ea8d142775e54; 0x738532cc31b62e66; 0x13cb677a144d5ea8; 0x2784c0756ab849aa; 0x79d350e77871055a; 0x2bc548fd97f6c0e0; 0x1a03f8db154493d9; 0x7c6428879d1d44b0; 0xc1abb9b2e6c0968; 0x1a7123ae2756ff29; 0x1c249f823a662f75; 0x594c7780e0f74f89; 0x1929c694aa8030a; 0x1fee7bccd8ba5f0a; 0x1dd0f617e4aad4e6; 0x38cf24b6ee2dd201; 0x1b6527db223f0c40; 0x6a19552097119324; 0x3fb17e00d5af2cf7; 0x42eb479dc8098f59; 0x7bc6f6b0e630e4db; 0x307b00d7087bcf09; 0x397373653280b6bb; 0x76b0a13bea6a9b52; 0x73d3e14a51970d18; 0x7604da0e77da3e54; 0x4e30df8a84f48ab1; 0x12f6853d44cadb08; 0x535cc41f95815d14; 0x4c97c676d2ec395d; 0xaa8246fe7b6c021; 0x3b7b77056865baad; 0x692cc1397638dc8; 0x3709b70e4aec409d; 0x2c53b0be0d76e12d; 0x48ccdfe1010db077; 0x6d1ced9a4c76b9df; 0x74d0403540e13d1a; 0x77cd1636fa54a877; 0x1348b3c771f5fcf; 0x686d31cd51c5af5b; 0x7dda58fcc15b10b; 0x41a46bb72b09a790; 0x739aafeaab65e9c7; 0x111385b79a1a89e0; 0x20627140e931d36; 0x4c262c4172b1c364; 0xf6160d25ba28de3; 0x2f1bedb3267e1a7c; 0x49e0039728e287d7; 0x6060cc746c009267; 0x562a50a11e1f8a23; 0xc8080b23b6e5e09; 0x19af34969e01fd15; 0x25ba366db3937538; 0x7d0e7734ca5ca37c; 0x2afd943c3dc6d6fe; 0x4ef65de25c3e91a4; 0x776847d01281dc0; 0xcc6adc693ee91b9; 0x196ed2aae979de51; 0x456552d28c077b2f; 0x423f9f1a659c7ac4; 0x56fa6cab5d7f21bc; 0x6959c26ca6f077a4; 0x3c126566284ec3a9; 0x7bb12ac4a623a781; 0x52057afec21f3dce; 0x38e5eb512f1053e0; 0xe494b22e80ff1f2; 0x38cd61eb51f97d79; 0x18eab495335913e1; 0x4dd01e89969fc9bf; 0x2a22f70910831af5; 0x3d12eda441bd920; 0x58463e4b33dd331f; 0x6a13d455b173e1ec; 0x5c2e6b2f1b5695ec; 0x126133bd7287afa; 0x64ebd1037c948d07; 0x17765fbcba34cae7; 0x3838bb8704580109; 0x5f9f3ecbd823ddc4; 0x4a3cd470ba852c30; 0x15f6d60bc0bfd034; 0x1145012cf13e4426; 0x4eea2beb766deed9; 0x4d992338ef5b93a9; 0x1366d5efb2cdecc2; 0x5248a8113ce634ec; 0x198b736bb9a2ea3b; 0x37f4f2f544325ccd; 0x733487471ff9aec0; 0x3417b848e8800e86; 0x2e4dd7d6d0e8b4e0; 0x41abeb0939430d1d; 0x2c6f37c43ed0008d; 0x7ce22ff236b2aace; 0xb0363c2997069e6; 0x10cc0e4f58a9a33a; 0x406fe601986dc106; 0x15ab812fa30e78d0; 0x14a80037ac60c04c; 0x6f4efd004f4b1c8a; 0x5a0a4cdeb9772704; 0x18318fe737556aad; 0x984e92fb4ca6931; 0x7865ba3c8e456d46; 0x6f79d80e6c135a11; 0x36ea515801970b21; 0x163b71f89416981a; 0x67467afc36f40209; 0x75a0e8ba9b12f34e; 0x4e6fdaa2b17614f; 0x1d0632b9c4672f1e; 0x256d775e5d8cb5ea; 0xbe261362174649b];
   [0x7dfb58ee42a320df; 0x3ec3204b0b4f7c33; 0x5b1742e1c8865116; 0x65f5af02969d90b4; 0x1f604b91cfd9523d; 0x3f9a45c6e72db069; 0x5b12b59f34f2d90b; 0x5fc895e4510304c9; 0x53f2e1eff33db6ca; 0x5f7569243a05c6c9; 0x6acb30a61cc3c5af; 0x13656f1e65ed1d6c; 0x3cb90897e957e595; 0x4ff9c6da1cf4fa58; 0x664b357a67d60422; 0x316217a453a49ebd; 0x545b8be743aae7ec; 0x62c12f681fad507d; 0x28d6ed144e1196f4; 0x711e1fb769860e7b; 0x7916f7e69034919a; 0xb713d9513041f76; 0x6e2ece7e306a7f6b; 0x5ba482353d997a17; 0x2a603da1c792776c; 0x7b66757672c3a25c; 0x54bd0aba4a442dce; 0x48535f768202dc2f; 0xb375dbacbe9a40e; 0x103cbf7a7d9f8a8d; 0x190a5a1d5da4497e; 0x26c2a534669686a8; 0x3e9e49f66974e885; 0x239791049046c6e7; 0x117015d9e93c7f38; 0x68346e692ff90d80; 0x790f0f7f35dadcd6; 0x23d6f7b8f08c969d; 0x250c98cbbead3e3c; 0x3c91a09b1a015dd6; 0x5ec4302edb04587e; 0x62101fc11f87a795; 0x2cfb47e1f60488eb; 0x26c0768c1e4173dc; 0x6936eaf999e0fb2; 0x7e488e582b91b9d; 0x730ee1c079386945; 0x3b575a063b06fb70; 0x1f86f7076d45df92; 0x6d86ff721dc4911c; 0x72bf4679ca21deba; 0x4e11c6a938765ed3; 0x488a4c49e793ac3c; 0xfaed2509f79f765; 0x4d4e38c0e785b9c7; 0x294483f47f63e0d0; 0x26c06e276c2b6285; 0x791aee595321887f; 0x2a66d82b5a1d55d6; 0x727f9173f6e6d452; 0x13920c1039359d89; 0x1c07b28c3030bc63; 0x5abb25137d040b89; 0xfd90440ac09c14b; 0x1f8bedfac6d55edb; 0x4040d0142e2f604e; 0x8962580a917ccb0; 0x8819362a861913a; 0x24a365bacaa4898e; 0x924baa7bd52d540; 0x63d704e1472e906d; 0x3e71d4b7e458e52d; 0x694ad2b05920c026; 0x7c7d4100ba3bae30; 0x8e9153b22b536ba; 0x5af9f500e36cbfff; 0xa5ced0fe0228f48; 0x28591b54e159c592; 0x546fa2e1735eb9d8; 0x162e8ad7769883f0; 0x36c64c066bd73ab6; 0xd81ee0c6d3590fc; 0x6c61b1bbeefee8a4; 0x726dd26f3303fc64; 0x75a86a54ededf13a; 0x1f5f765a1e6ea43c; 0x2f6f74b81cd91a42; 0x50442709ad78fa14; 0x5738a0181d83f9c8; 0x50e940329f020721; 0x1b4a7e5b4ed601a; 0x72229d9a4dc28b63; 0x679fa218f3c7d977; 0x7c21476fc0826b2e; 0xd57b5e123e76e69; 0x3b713e146156d8af; 0x65bbe9f434f23091; 0x51ed72fa2689a2af; 0x7654b50562dceea; 0x2abd8b3db8d2a2cb; 0x7d4443f53229542c; 0x3cbcbffd9acb2f8a; 0x53aa331854fb11d2; 0x4fdcdab6b0c1f834; 0x792b424c8976d58f; 0x201b90e8fea9846a; 0x3f823b870c7eb158; 0x6b352d11de6c2149; 0x641589b4ebaba4bf; 0x22804f24a280ed88; 0x30060f1281d8e004; 0x77dd470e2af1fd56; 0x41d1947d565950c5; 0x774a38892972b4e3; 0x100473eea461f843; 0x346643c87d7429b4; 0x319a689ca8baba0b; 0x25c9c89110bc24c5; 0xa7406afa04de24a; 0x1a64c066c195ed16; 0x2085c503d56d8d1d; 0x1bc7888aeb7e732; 0x52b1a78ba584eedd; 0x26298b00379d0bf0; 0x10739e9eb261176a; 0x1c8628a24a53cf25; 0x1819572c95ea49f0; 0xe7d08f66ada60f8; 0x6cc24b1d9b56507b; 0x44d318d1e8ad68c0; 0x66fe55f95c6152b1; 0x15836a46d1c83d18; 0x69720ee7125ceb46; 0x52a94475f1eec909; 0x6450a7bff651c28a; 0x13578c6a46630ff; 0x5248001ec85f8ff8; 0x4f04b90a2230bb8; 0x78ac9b73e4ff1517; 0x503492f2b153c21b; 0x62ce2f41d486ccdc; 0x3b29e9c3fe48c645; 0x134c81d6b0b12f0f; 0x1b2ee9dfc53e3407; 0x7942412174b7471a; 0x736dee4e101a75bf; 0x7104184fcfecf484; 0x53097dd738a7cef5; 0x3e187f49fd623b1f; 0x25f290bdaee1813b; 0x3911ae90e73c3cc5; 0x4de9509b8f247a5e; 0x3c661db4070030fd; 0x7af64b5916add645; 0x16bf751a678c8278; 0x1d2b5db2fc483db; 0x70d089383cf76c7c; 0x2bdfe9647e5d7353; 0x177fe8cbdeba7b54; 0x2fe5d1d2e5e6e05f; 0x270b5d2ab7bd54e5; 0x60f4d988994c3528; 0x4f6043f055078682; 0x1c30df821fbf1ed7; 0x2f83f0e21a999b0e; 0x638702061861f590; 0x379c78b5dd04aa0f; 0x274bff0e2be9b281; 0x5add8211f4155af9; 0x587f5e7852c4b3f5; 0x1435d164abb3fd3b; 0x476dc0d97d68213e; 0x1be107e0138a7ce; 0x5fbb93b6c609b032; 0x5553375d451d60b1; 0x4c50aa33d161e0ca; 0x64be1e42956e724; 0x42f74c26f04b3c4; 0x5bb50b32591bb8f8; 0x1897277eb580ce55; 0x2d8b77e8081f2280; 0x1e7fc2168afce33e; 0x28e26c921ec197b5; 0x57d6d64b43b3db13; 0x15e8f1b37fcafb74; 0x54100b8a7fb51fb2; 0x55ddd1400fce58cf; 0x5b2c8d9d7754c297; 0x50ec0356dbe00cc2; 0xd2ba493c01adf59; 0x67a5b72798425ae3; 0x12a968a8e7b43deb; 0x77192722913cb11f; 0x5c100d793c9a0373; 0x4261cd8a1bba45a3; 0x73ee93c1e86a2a83; 0x26aa41765bc27f09; 0x255a45bb3c58d0b0; 0x247446f32ac79a3f; 0x519ef3a45ba98f0d; 0x3f515c560e665fcf; 0x70c5eebbc54ea339; 0x7894e0a21f02f583; 0x7e35061c4fa77236; 0x7852970f9429bf8c; 0x1cdb63eda8761f02; 0x50843f7f8bd22c45; 0x30417df432fd1a35; 0x77460da310e61660; 0x5b2ddaacc1539443; 0x114209eba6f5231b; 0x6a2b9d4999540c43; 0x240096ab49581b4; 0x2bb51236d5e1a4c; 0x2b6a2a52c78cec2e; 0x2382bf5508fee5b2; 0x542470e88aaa9fef; 0x7c8e2fea2f6c81f2; 0x29c503c6b6aaab5b; 0x247654709504889f; 0x3485ab473d7687b5; 0xc74c03f8900052e; 0x7af0e7c62a9302a4; 0x27d9c2d467bef5b8; 0x11f6e731733364d9; 0x2af8ff90d0821a09; 0x5f55ee647504d92; 0x5c92bb320a97078d; 0x496c7eb8f063b186; 0x1b24ed4620007794; 0x4a186ba8a7a715c6; 0x4cf04637c5b80d36; 0x4882045649a4e51a; 0x1a88fc4bf46f5152; 0x371134f8a825b664; 0x3a83110fb2f4910b; 0x63a2b1d1cfe33f0; 0x3923a9069f8e371a; 0x3338532b87eb48f7; 0x6d8e3bdc567963cb; 0x4abf73a8887ad2d9; 0x2882225fb47b4cff; 0x7b69654a856c310f; 0x19b9a9cefe2f23f; 0x4da1d1432cd8ee67; 0x45edc5868d32ec91; 0x501d2bcef8e9ad5c; 0x7fdda28250cf2686; 0x64e00d87d354b2f4; 0x4bc72a58e1397ba9; 0x64b3a360a26bee82; 0x643a977d282ce1a4; 0x8a23c9fb5e46a8; 0x507f5260663887b8; 0x72d2ab54ac45530a; 0x73095060183106f7; 0x1f54936a41cca42e; 0x9eaef439aa7ce0d; 0x6572640309b763eb; 0x225574e3f835ca11; 0x4d40d881adac6a83; 0xa3b95682a2502cf; 0x42ddcb5a1fea7917; 0x5ac71b4a441fd52; 0x15288fd4bc3e3a45; 0x538628abd2df7124; 0x32b5b6a885821b6e; 0x12c01fd68d42b95a; 0xf88c2c8b6e9d38c; 0xbb37104847998d3; 0x63860080e3931c1d; 0x72f8acf5edccd7ea; 0x73bda106e59800fa; 0x2aa344e861924088; 0x3c7d1a22073a4358; 0x4cf782e00b1493d5; 0x57d4916330daea33; 0x38899ab327a9a5d5; 0x6f2de87d57a661ed; 0x63810c16b2001f04; 0x7ac0f543b6a070c3; 0x2f9383b2e216d95c; 0x4c9ae6dad91187dc; 0x744c50fc6cab3ab3; 0x3f93db6a91d85d25; 0x6df263b740cac71e; 0x13463ea7d7648469; 0xd996cc4f2a6804e; 0x45944fa49b5fa5bc; 0x56980bf7b76d7c59; 0x6fa6b7951afb0ad2; 0x36575191301023d; 0x6b75554a682f7030; 0x4fc6433932b2f7c1; 0x61558d5d417ff63a; 0x5bad9b037ce1daf4; 0x7e45392f48cda645; 0x3b78fdf5ba181925; 0x70b5197bf29e761e; 0x137378b6b4b23bef; 0x4688290886447c42; 0x2a77efa12540f0ea; 0x522634c6a2b40a74; 0x3a457ca92e8ff1f8; 0x1e8b9b07e91de02; 0x46413454a5ffbde4; 0x46c0b1593b44070d; 0x5bc38f62b2e6c89; 0x5947b715a918743b; 0x5c2a35b4c336ce2d; 0x76d021cfbb44fa86; 0x133b630b17a7e956; 0x4809a02caee1541c; 0x3cf90bac7a1a3772; 0x5274145f4b418446; 0x63d238c751bf42f1; 0x2bf2afb7a5fdc2f];
   [0x42cf7aafc4452c3a; 0x4891c7190a479ca4; 0x6a80d36f8f4472f7; 0x2b707dca76381d2; 0x1a4bf9e049b1986c; 0x4092ac8389095ff5; 0x29af5c85272c862e; 0x691eae632aaa662c; 0x4884042c2e1ac44e; 0x40bd63fb736f8426; 0x39c4386658147923; 0x337c79e6a3bac54e; 0x3b2c81c434cc4ba; 0x1739108c93b34579; 0x4e4682164639deed; 0x29266956865b6ba1; 0x7bdbad06c7fab118; 0x49d07a464f290952; 0xd2e7e75e79d07d3; 0x603e8dcf61b4dc2d; 0xaff29d9fb157519; 0x3e4df703319bce66; 0x4bd184dbd2d1c823; 0x6732c739c5f8a7af; 0x143351d4ccca72a0; 0x22c4e160faa4cb67; 0x6dbff3453fb9aaa7; 0x1badb759a93f245f; 0x20489ece16f90567; 0x5306cac83646efff; 0x87591e27dffd650; 0x5ac917f0046c9eb5; 0x5aa5a5f677896691; 0xac92d24db7bebec; 0x6a01226dc65fb6f8; 0x7f9c9ef0c3b59d49; 0x63cdf8c9a6dfe672; 0x4a1375d17db25124; 0x356b5f71ad361de4; 0x5edbcf498eb1351a; 0x77e52e1351d015e6; 0x1acd2a1ea6d9d717; 0x66f016e1b0a42fc2; 0x67799dc4133f06dc; 0x4ba404da8a3a2d61; 0x63021cd1e58c4fa3; 0x528416fa59ae056; 0x4409861f293bfd0a; 0x3b06e55de2c42c86; 0x1861092698b480c2; 0x60bcd135994b953d; 0x1abb1726339d4abf; 0x4a821bcc1c4a8fcb; 0x5c3b47de4976e34d; 0x768c4a678da24949; 0x20256ea08995d7d6; 0x6fa6e77d03e98f04; 0x7785ff77d6ecdaed; 0x45bc641832bbba6; 0x510c8cb279f340d2; 0x4406e9442c9fadd8; 0x700988e57e6084e8; 0x7edf4f5ebece04f5; 0x6a59dd066d59d8b8; 0x3a946169cb435ac9; 0x3d1ac1e5808f6324; 0x3bbf33ab27986bc6; 0x55503dbcf4b203f9; 0x507b723aac4feb5b; 0x56bcaaf6696fdfe3; 0x3a2a483f463784a4; 0x4cefbd3d7628a577; 0x5cfee3c66937376; 0x69daab05c0fb2945; 0x78e87171a4a5f615; 0x49faf7391bd77ec0; 0x4d8afb75edb66a6a; 0x273e825cf70b27fa; 0x44e8d7d70e0060cf; 0x73d368d2b65960f9; 0x601edd4470d1716f; 0x7e5a42ac05e95be6; 0x6624f0e5fa5327f9; 0x7287abae240a9e3; 0xba641218490574b; 0xb206d08e4267061; 0x36bb0c0a2b70e9eb; 0x269735f782c85039; 0x3ad5ab825f106bd3; 0x29a244430e4c9817; 0x3970d450dbe923a5; 0x466e36c2eaceedec; 0x372329fa6ef6818; 0x4906cddd39ddedb6; 0x17936e739a3d4c5a; 0xb26e93ddba29c0; 0x225c04f1c02de9fe; 0x273d0a6b616d9a4f; 0x1df2d46005bf4432; 0x998c1c1cb961edc; 0x246117392cca4ab; 0x7d1b44ce210abe2d; 0x26a347dc834a9db; 0x50f3b96d59ed72a8; 0x36676694d9380ddd; 0x7b75dd70e80e1905; 0x3352474e458e15c; 0x19c69a65a7a76a9a; 0x2a2f67d2b672385c; 0xb9965bf2626d48d; 0x30f77a1826059630; 0x1da779c24a1633ff; 0x273861849fd4d043; 0x4b973a278be8a4e2; 0x55e78d5b384f4ff7; 0x4c0ba79a708838df; 0x7f877bc21f9c0aff; 0x6b79a9c17488ed27; 0x5ebb7f7b6bb9b928; 0x419ad464de3f0a40; 0x5c3beb3c1c93edf3; 0x5fa52fde251dbb9a; 0x6539453d4882c0a2; 0x52f1380e065c818e; 0x7dea83dc6358dc; 0x40f5a43b2cabf04e; 0x23265e8888899a08; 0x6d651be4c571c852; 0x147864b4f52ebd87; 0x21480bc3f47329ab; 0x749ab9751608fb3e; 0x4679bf46d6d165da; 0x17948c68970b7290; 0x5361eecbde075af0; 0x4015ebc90e2ee878; 0x16bf4eee8e41b1c0; 0x24e114d03831493c; 0x27508fbaf22ce7bf; 0x7df46c1945fd0c3; 0x7b3df88e1cb6dedb; 0x673045316f6119c5; 0x177dc0b75346a9c9; 0x453cd6c272ddc64e; 0x4cfbd5a9031047d6; 0x6b9ce742c664f157; 0x2a31574aae26bd03; 0x2d3dd1ef2dc73cbb; 0x2ada1bf63c3aef56; 0x1f4aeb75109c0e2e; 0x4802561618e44a79; 0x1cd213d6b4644b5f; 0x46f709f794840a5; 0x4bde9cd8d9b8a41c; 0x1946ab2f918878bc; 0x704c2da15c5f3622; 0x2842fe5d0110d45a; 0x30d765e45273421; 0x2738fdd472b2109c; 0x6d2c23e33353adfb; 0x7d54ec15083f5078; 0x3663d5536f69ab58; 0x43d0ecd04f03e8a5; 0x7561c7ba1f37ed34; 0x5b99d03a0c917895; 0x545983693263d30d; 0x3a3ecf7abacd2c5e; 0x41e521d3889da929; 0x111f1c7eb0874b5f; 0x4b67756ca9a9cc41; 0x401acc75204d5d28; 0x33ee8cd4bcc0524a; 0x29750ba118f085c7; 0x5f9dcd8c98dcb44; 0x459ebb4ee9ed3625; 0x62e120d42aee1768; 0x33eadb9668f8a113; 0x1b16e79768ce2faa; 0x6fd2e0a6183147cd; 0x23e92296207fd6bd; 0x6896925b304c4c37; 0x6dedc3bdaef0d4e0; 0x6f2c3a39de1b8061; 0x5585d4b77ef27080; 0x304d5b442af18dc5; 0xba593e782517bbe; 0x542a328115cd6d36; 0xa46fee21f39f426; 0x7121f576ac4059a5; 0x468e1cdcd16972bf; 0x7782a8856d2966ac; 0x2dc291b762ef24ac; 0x551e3533b0ed777c; 0x7ae84d49f2ec0a02; 0x1ae9bf3df44cf8c9; 0xf2cf50869b496ae; 0x3f1bcc32009e893f; 0x2f4347c82558cf59; 0x78ab06a5eb456d5d; 0x2f18812a0e5e07c4; 0x7e53019bde0a0e7b; 0x27d79163ce742fe2; 0x6b4fa2d04ab89224; 0x16416f2a1489d2ab; 0x26d3fe987c1cc340; 0x68c0bd7092314518; 0xdb6a038fc03f8a7; 0x4a06b153238b4972; 0x2ff3cbc840203524; 0x4b3fa2ff7e672ce1; 0x15ae337ca34530d6; 0x46eaba8f4a411ac9; 0x68c5983a043002a6; 0x42ca29f7b28f8584; 0x39689b21eea51578; 0x4d46d9ba0eb9a628; 0x7514b433149c583a; 0x60aa8860cf92a26d; 0x263b7e0af8958678; 0x52b4c1c5ead49f1c; 0x46b90055f32bd743; 0x4b4366f5c94dcabf; 0x6da5e54cbb3bcedf; 0x575a40c5b6d93324; 0x4acfee336c4af8d5; 0x6c1b03e327d6ccac; 0x4774cb6391ba926b; 0x352218840d78eed2; 0xbe1eede02f6a58a; 0x4a0de0de1f10259d; 0x361ddae79a1b33bf; 0x3e660bdd259d0d6d; 0x6919cbba608bfd29; 0x45c66ee1a281fb63; 0x9639ddc89e4fe64; 0x24913ac86fb3db88; 0x1fa616e201e999fe; 0x7192d876266c0c42; 0x6ce6c3a54ce80726; 0x4826bb51632554c2; 0x7c4c7bb4d5927070; 0x152fc76fe55f408f; 0x1746975912d0dc76; 0x22e3017490970294; 0x3ce67ad454f3b3f7; 0x192ff3444c5b0d1d; 0x2b36082719f0cdb0; 0x3c0483b48435f78d; 0x2580fabcfd6ea805; 0x65904675cb0aa35e; 0x788dae63c0c8b8cd; 0x4bf5ff189d8f48f5; 0x1dfe19fea3e1bf50; 0x5844c627225f76f0; 0x4b3dd0623eeb918d; 0xfa07c3ee630e44b; 0x76c49632258aeb78; 0x2c15132ea8372a81; 0x635d369ed8899ca0; 0x6fce0f6e56416b1e; 0x5f860622e8f1e3ec; 0x277755db8b088d68; 0x52d72e3ea5233994; 0x63939fa1882ba08f; 0x189e32d6aa8a6a1d; 0x3b00da833517ca8e; 0x30f454386d3944c5; 0x2219d441ad47aa56; 0x1a2125102534c11d; 0x2dc289a02189ec1b; 0x543d57c95bc69b0f; 0x3348a02b5a80a50e; 0x408e06072da04c88; 0x720edb8e4ec3ea49; 0x115cbcd5396bf9b7; 0xb619e0f6ae9d804; 0x579716bc0f5a8a3e; 0x7bf19ced1cb71e1b; 0x239c254a7268e61c; 0x41b43439f673864e; 0x5bd1de60bb4a59ea; 0xdf58f5423cd0a82; 0x4a202cc70275e228; 0x52be0eb80293cfc9; 0x4d7e278d77f0929e; 0x3ce05448803aebe; 0x4c9bd3d869fd5805; 0x291b5ac3062982e1; 0x255ead191d709fb3; 0x39743d9e958d6077; 0x7ccd67413da0070c; 0x59c223590154930a; 0x65985216069690c7; 0x7c1b518c35ffee32; 0x663b07392de6bdbe; 0x4d9a1ef1dedfdf87; 0x47112ec7f3363272; 0x9050e4bf1860d91; 0x1a449eb0f63ee35a; 0x6b8b87d1922abefe; 0x1f6e0afc2c9d56db; 0x18a48706bbe73cdc; 0x5ef96d4fe506c93b; 0x38725264d3e0d7c3; 0x4317fcbb3c571d3; 0x1360e56105e2bb2f; 0x6afc2daf80c8eaae; 0x77dc3610fd8686a4; 0xd756da38a11ac39; 0x1448ec1d8033b822; 0x63beac9c665761b0; 0x4ee50db41aa51af9; 0x479198bbbdf4e1a8; 0x177dd1b47a3b1a6; 0x678eedf52016a29c; 0x2b6f4400fd370323; 0x669e0bf621bf018e; 0xb297b500824b4df];
   [0x70d2b8899c3bc592; 0x74be4774a57b36d4; 0x668d16f45d542e8f; 0x3cc516c2d905c7f1; 0x2f7f1bf72154d469; 0x6ea0f7d8bec426c; 0x316b8c0e0342c90a; 0x3dcbf1505ac05de0; 0x5714274cf1c288e; 0x33f3000d655268a3; 0x64d49f640bf8858a; 0x150e21c7374a3c0c; 0x505efd66c6800f66; 0x6ca862a80607126b; 0x56260bf75cfa6eba; 0x75039eaf97b155e4; 0x7a14e9253836ce98; 0x7e09feea51b09473; 0x489f4c90edad58a6; 0x10c2a073ddfabc4b; 0x3b409e50f51e3e9; 0x23e74c7ae9b948d6; 0x5cdb9afc3980d563; 0x7dabf0fca63b7929; 0xb790380a3af3434; 0x50d32521f77aba75; 0x54f95771fa1e7842; 0x24e77f392d302047; 0x3c65c18f96be231; 0x506941750ec08807; 0x322d83df116ba4fe; 0x5dd32c7791947abc; 0x7c4564fada01172; 0x559d5ba783dbeabd; 0x65e7953abd673e56; 0x39ca57a5d00bfd9c; 0x6510064a64935690; 0x39c44ae894ceb41d; 0x4da5e9fd6577e39a; 0x3d71a0ae9f1de25b; 0x1dc5d7b51823af79; 0x11c3722349374f57; 0x52f2204a47b2344c; 0x54fcedda21b675c7; 0x271b9566737e403c; 0x348bb31bfc010f93; 0x5a8d0b8d2b2b69ad; 0x639654705647ffe2; 0x902d554703dc47a; 0xf421cb1d3a110cc; 0x1cdbe64239504dd3; 0x6682dfbf469d174f; 0x7ce042bfadacf69; 0x4db2b296534515c0; 0x57b3d714be6346c8; 0x319a1f0b9c188561; 0x45e6b8c4abfedfe9; 0x4e3e7fea16bb325e; 0x1d1d038ab07bfff1; 0x7ae1b3b8875d328d; 0x163356b11dbc09b2; 0x723bbd3ce35c4be6; 0x110f52e3645864b1; 0x42da80daa35b895d; 0x5dca5d5ada9035df; 0x5f4b95524355863d; 0x1d5f85a6b9e9c1c3; 0x6d1f7a14afcbf852; 0x68138fb9b1b6b2fc; 0x10de6ff1d3faf27d; 0x4ab24b6af596c4b; 0x10c895f0dc8c6817; 0x379d291d2a0839b4; 0x207ec3fb6177fdeb; 0x7d6e13c138cc131f; 0x1f8dd0c3b6f403a1; 0x13827a3e2a315313; 0xcecfffe3c982011; 0x551fffe623eb6e1c; 0x56ecc9221cbcd2b1; 0x44573f6e7a799b9a; 0x19e0ddfcf8356f2e; 0x6deacdcd156e6944; 0x57b8ca709c63b094; 0x1d3b08f3aa1f8699; 0x56714c705772150; 0x62ddf3329156a746; 0x5df12e73e734737e; 0x5f1be881af4b6676; 0x2ac347dfa642ffee; 0x306ed7dd61b16f48; 0x21ef4792d9c0f33a; 0x23ec984b424db876; 0x46d928fa124dfe8e; 0x1ddd5763b013c5a; 0x2a512c4686e4244a; 0x1505209dc0af12cc; 0x5df24a83f73efaa4; 0x32034477c7868fdc; 0x64306d7cc005a9ec; 0x326f5a278937c771; 0x22868f4ed5da4848; 0x353187ce0b917c85; 0x652d2522edc03f8f; 0x46e688bd2d42c4; 0x696b320a2345dd81; 0x4d0418df9d8aa336; 0x33e983bf07c1325c; 0x1d9cd53826f6eb76; 0x5b5b625326aa1eaf; 0x3c58031575b7a858; 0x33a5c161b773f70a; 0x24dae524f2604ff; 0x3f0363bba607e85f; 0x47bdf1ec6d7b0d27; 0x7de17d3c2029b92; 0x535f802eb08a831; 0x6ef026ce235c1fbc; 0xbe9c2a8584b82e0; 0x4610fbb40a6612f8; 0x7fe711ea35244849; 0x2eea808047c33e89; 0x426478e344fe6966; 0x42f1a430e47b385e; 0x7ac446d9687a6824; 0x35e1f38aca942631; 0x5882a7d179526bd4; 0x4160da0a302352a7; 0x287ce377d42c12ce; 0xd9bc4ac8584a684; 0x3baeb9f1db0e4f3e; 0x35f0c46d9f68d749; 0x9a69bb28929e834; 0x6d2db0383a693d50; 0x6adaae8b00670f01; 0x35c023adc1255eab; 0x709c52e7662a46e5; 0x4a6cfb41eb8f5c95; 0x4b2a31f3a4a3de02; 0x764bd3600eadfdfd; 0x5ada3a5b25b18948; 0xf526a484783eceb; 0x5ef5d3ac699b540b; 0x63f10a7dbb9df4ea; 0x7d151d79e8e552de; 0x45ca6f593365773e; 0x2b4f0297e0d98056; 0x4c1525375b58401a; 0x799826a90814a2b5; 0xd776d66fd3f5a22; 0x55320e11dd0d962; 0x7bce03c06737b203; 0x31b52cb63d112fd7; 0x1e2fc3b2a95d77e9; 0x4521c3353bc0de2b; 0x512b292dfa08fbce; 0x9d73b3d8b35dd22; 0x74e47d0b7d1d1ccd; 0x7888403921105b63; 0x600964284158a8e5; 0x3b09911934ebbff9; 0x2d479c21a0238200; 0x7f2bf0fba0528e02; 0x7cba32afc79deca0; 0x169dba7bef6edff5; 0x33be4822afd89d31; 0x51a720c0e27c4c8a; 0x26767e9205b5f2c5; 0x734606336f062f9b; 0x4dc1b9cc78b66898; 0x2706da72e867b391; 0x12d94a5d3d2c7169; 0x4a969e608b20912d; 0x4dc90ae33b5cf2c5; 0x513a5c7dc88022f1; 0x4410b581ad2b450a; 0x3b87a5577bdc3f86; 0x63a86716314756b1; 0xe6c1dc45ceaa7cf; 0x6bd9ab2f47780b49; 0x79fe3bdd79e52ef2; 0x3f8daf4f19c72b8b; 0x53410948dfbf0f63; 0x558276243eb1a193; 0x1d7f22d2ab2c749b; 0x7615c4869ad05172; 0x1bf5ab024c6df258; 0x6090c226296d50cb; 0x4fd206c26cb6b6e; 0x44b001cda6071b32; 0xe045165b71e9464; 0x65ca25bdd48553a5; 0x739f5156318df03a; 0x7baddb5c25bb6697; 0x26d03bcd9621f805; 0x78012196023a6e0e; 0x37a839b74a793fae; 0x3103a3981082f840; 0x62e79a561fccba99; 0x1d4e722ae4552dc6; 0x7f075a493009f0db; 0xc7ff6e9d62741f6; 0xef776647946613d; 0x51b67f2b0d70a814; 0x323e6a60003a8235; 0x1bb202c3846c876e; 0x52744d50b8690f83; 0x40951f247cae138c; 0x69594da16b94a6c9; 0x257e2754df4cf8cd; 0x10b338d9f6ad1514; 0x74a6cac06824bb9e; 0x335c59439f1d3407; 0x47ae10170aa90240; 0x471bc27c89022f90; 0x4a55fb880baf36f6; 0x1d9d2db4711c3b56; 0x1772b6b08138195b; 0x439331743c589f19; 0x375fcef11d3e7e93; 0x40a98ec48298e82; 0x54cc6900b2525bdc; 0x50bfa6f5b1ec4685; 0x73a6253ecff859e1; 0x101091f9b039c06d; 0x46bcbf4dfa7f2513; 0x48ec6d73f4ffd65e; 0x7a9b562bc215ec80; 0x4eb132673f130180; 0x1447da4ad625d3a; 0x33320ad9b5c9de97; 0x2f6b50c4d3e2f559; 0x2a0ef112e6900f9e; 0x23fb6c9875c10c41; 0x5e65fc8cd6ea9973; 0x1050910ecc50fa50; 0x248adb37bc79359c; 0x70505b13ed33ff39; 0x28e22cd8081b1950; 0x41f6fd7b1f1e3a6b; 0x9fc44b16ce8731b; 0x24aea1b39ab74acf; 0x3c25cdca6a51cbf9; 0x9fe2ffbef7f599; 0x268e634805aa889f; 0x768e84a16808e72a; 0x252c65cdd60f42f6; 0x74ed4f251c71a193; 0x58a74f4c0f866adc; 0x53c2d37862754767; 0x10cc6482bce4a43f; 0x498ccff2225c0982; 0x2eb00f2e082bcd0b; 0x1744bac57e1f2114; 0x31bcb26b3be411bc; 0x1bebf68bac1de716; 0x2f81593daebf0e06; 0x2a61de2ed8d4625c; 0x1b17efdeff387846; 0x5fb95b227ad322fc; 0x662ac13a5766b27c; 0x41112451cb7eaec7; 0x2924dee7ea73a6de; 0xd51f299c73d8457; 0x305ee68f94f94fa5; 0xb1793b1ba3a7cbd; 0x52e9efb47aff6186; 0x3af9bcb42fd43922; 0x2c3eff4ada1e0538; 0x66d8f76470677009; 0x40ba946129f997db; 0xde5c1af4c5dbcf0; 0x3c15b99f173ad5a5; 0x7c6733de68f5b322; 0xcdc75622bfe32a8; 0x7ab81ac2aab73795; 0x68c7b6e0d2310f14; 0x1e3b8118bb31d7c6; 0x385d47ee15af9723; 0x3c24fab23bb303ec; 0x782dc021e3d75bd; 0x46f3592cacf4a967; 0x4100fbbcd5b76d81; 0x3292bf56c03e1cff; 0x585f9242dd7d386e; 0x7b9467d015bce27; 0x4a58a385c33a0038; 0x3aacde483a05b26c; 0xe4458497c39bd14; 0x63534415a0a5017d; 0x4c9f239a12dd5371; 0x48d12bf2675f26aa; 0x1284b8ff4cea1abd; 0x4a3ee27ecd991164; 0x23d0d6295a62180f; 0x44e49470613ffac; 0x673d22540b3e1f0b; 0x2143805e7f55979c; 0x5dcb6a4ede2d9b98; 0x38e85d8ac7f58e40; 0x32bdf0dd817b78d4; 0x57c91ca5d8b71b2e; 0x39745f3e4dab3271; 0xd040d2c2c97785c; 0x7696a6fcc86e6b43; 0xf081e56737d69cb; 0x3f45f71ea96bf04b; 0x4bdc5fdec8842c62; 0x4089be2319d433c1; 0x4956df38c0b06687; 0x25acdf1bbdc2de97; 0xe477aeddece3bca; 0x2647539457738a6b; 0x352e57702014b672; 0x7db92dd4655ff90b; 0x171818c662e600bd; 0x10b540b9f4c7e55];
   [0x6dfaf89b3c5389ef; 0x1c73b5eec66d32b7; 0xebfba46c248fe4f; 0xc4d689e706926b8; 0x1f6c39620fe9635f; 0x175f6d2313f932df; 0x433d7cdcb99de503; 0x6c8940bc563d54de; 0x1e223b9e8a9f99dd; 0x52bc5794949abb29; 0x1d7e5610ceccbc0c; 0x462c128e205621c7; 0x37a2de35879834d2; 0x571f30d181606ca8; 0x3d1f23a457b17be7; 0x29fbcf57c96ce7ec; 0x3172c0d7def3d943; 0x13790ecc1257ab80; 0x5a854e08860060b2; 0x118a6d76343f8764; 0x313dacada3a61e20; 0x5b867ae758762793; 0x22b4eef55dbe89f9; 0x475cca11fff4945a; 0x6dc1a75ecb04da01; 0x64fe59574910380b; 0x1f56a80afc2203aa; 0x5189c7e356dae5fd; 0x3629c935b3e51f3a; 0x4b6e936af1e48fbf; 0x3112b9ce6cde9b66; 0x6259453eb455c810; 0x4c34734afd372649; 0x7daa16b58c2b894; 0x59cc0d5dd0b741f6; 0x475ed87abc94a721; 0x2a21fbb6b7711b96; 0x317f936e7827e89c; 0x4b428eb1d7460607; 0x594f041f056b80fd; 0x25a9cfb8a5e8d83; 0x1a092c5858f0b0cd; 0x588ea936be31eb13; 0x8c4f42117b984eb; 0x7384206a69b1d339; 0x1a774154b0da06b4; 0x4ee7530b5296ce3a; 0x339eeb06bc757ec9; 0x1141da9d4eb17bb; 0x60060c1b192e1642; 0x71a6fead8b0eef34; 0x667a8d09a77900cb; 0x7aa3030cd930a3e2; 0x1f25907463c2d413; 0xe9d0a925b7b6726; 0x91ba720c6c26886; 0x4f531924537cac49; 0x15294cfa92221b49; 0xfc123ee72725233; 0x5151d4bea8e0615b; 0x7d5a404a9f9c26c6; 0x32ef66534a3e3af2; 0x763f8463a3172237; 0x31b26045bb5e1265; 0x6429f0b3a53f5f59; 0x395e36f694722291; 0x712a4e8980c6bb0; 0x326646423336157f; 0x286fffc1b61dd708; 0x26eb096444d261bc; 0x738c635f03f3ef; 0x1aa0526fc7340f6; 0x482c259e025487db; 0x695d74fb2ca80694; 0x74b8367b746413a0; 0x43ea37a48d47160f; 0x187ec89e9f333ada; 0xf399c4966b0fe33; 0x62b2e4d4fd79bada; 0x7d6a37e28ab7cc50; 0x7a026cac3bd7c3fd; 0x1c035769b757b132; 0x65d8aca900e0f422; 0x1e95ffbd345ad0b8; 0x59b8089e995d6f69; 0x329aa08305b12fd9; 0x5d8735b7f2f3b394; 0x25ad04e8784fc580; 0x187bebe1bcbe8542; 0x1e2c5a6b346f19b0; 0x48483a713a0948d1; 0x1af8a8beffcba746; 0x74aec4e92b723c44; 0x48e4a01086926842; 0x247cbe8c9862d1d1; 0x7e338feea8d3a444; 0x48b963499d9f67d0; 0xd496b99f182fed6; 0x1085918557b1a372; 0x184b05d177dc2679; 0x75eb6a9cc6985aed; 0x3e91689051fcaff; 0x258da50302612b33; 0x5204295bbe10f323; 0x6a5e628298c796d1; 0x367b610dc8050faf; 0x545a27a4eba2d596; 0x108b8ee6284d44e4; 0x68f3051021baa0da; 0x2288996d65e305ed; 0x195c6087be009ceb; 0x6136ca08f3e3cbd9; 0x2542a348e3c9ef18; 0x25d812591d28e02d; 0x5da797aded0a8439; 0x17b77181f1b0d99f; 0x67d1caab9644700f; 0x29728600fa1dd5be; 0x56535b395d3bdc2f; 0x3d251037cf0b8d8e; 0x1b21f7bc69793fc9; 0x5613de4b6689144f; 0x7b093e9830cc4933; 0x4314daab5c13a2bb; 0x66cdc9c6faf5ebd1; 0x67886a98e14bee08; 0x1c8e9624ba874d4; 0x1567dd85c33180e9; 0x714682dbe0907184; 0x3527a8c27ce71c4f; 0x2dfe6dc6d06e3828; 0x6e33b65d758f1c62; 0x11b4bff86b1f9dd8; 0x38f16c7a6ad71b6a; 0x22c6f9d495c0e63c; 0x61fa4dc62178ff7; 0xea74a85407e67bc; 0x696a800e00d14dfa; 0x27bf885d7538385; 0x4c82f98ba1891c6c; 0x2eacc920b50e09a0; 0x557b5211576ee1ac; 0x743d956cb14466e0; 0x56e2abe5356b7e59; 0x45aacbf56741936e; 0x5b11dcc3e9540a42; 0x3469b5574f82422; 0x2d2ac5060726bb3a; 0x69c25d56682061c2; 0x63b25770abf477f8; 0x221c0731db8fd103; 0x460b5f913e48c530; 0x51a2a4acbc6c3b1f; 0x1315bd57cdd0f0e3; 0x51427b0b2e60a906; 0x552a4b2514960de2; 0x1f2d59b089830929; 0xb1e171e3428986d; 0x2bacf458e5f5b2f6; 0x6feb7dd5d27ff819; 0xde8bfb6003d722d; 0x3ed553d15a4c0fcf; 0x2e0d6000f160b33b; 0x579f3c92597fa0bb; 0x1cfd48ed1f8c6e3e; 0x9ad7dc376c065e8; 0x2caf0a9279378933; 0x1b795ed255f02a07; 0x7c5ec1203d6d4db8; 0xa5ee71c98df1a01; 0x6e06445fc8de8205; 0x70e830dcc76a48a4; 0x48d2960bb8b0f0ea; 0x464e644d7fa6c1fe; 0x227f59e0c5ff7fab; 0x398a325fb09226c6; 0x6c54a57e0ebda3d8; 0x4d5434b63f8b8414; 0x7f15e1cc17308a46; 0x395c0c7058aeeffe; 0xbd4eee42414f55e; 0x7f42b82ad6df85; 0x33b5748c457768d7; 0x3cdaa34e03796d0f; 0x331613ece66774c9; 0x555dd5285f9594c9; 0x74b1d11563612250; 0x794667dd4aa973ed; 0x676d3f3b4b706035; 0x2d7e0310287ce46e; 0x4d5a2312765c0c17; 0x2e720dde8be54636; 0x696f24e61cf9f7b9; 0x606b94aad3f9eb33; 0x48f81aaecd8f74b; 0x42ee622e2a814293; 0x30ef23fca93e3322; 0xca50431228af199; 0x606f6c3ef3e64ea7; 0x2f34301129d2663d; 0x70224d8b3c48ef2c; 0x61eda78735471840; 0x1c39c17e768e2177; 0x19d8a565db6a1875; 0x7730ef121d70fe9c; 0x78a2aa7b3d8490c1; 0x333a4dfecb348a02; 0x20dddb4a04e6504b; 0x4972b98baccbe499; 0x47abbeb90c075e0a; 0x452e3476116cfa58; 0x7572d8437879b02f; 0x61a453b1b13f1ced; 0x16f0f2ec1894ba78; 0x1acab09b82065581; 0xb558eddd726a919; 0x2938348548a70a52; 0x10cb29a28b558036; 0x1a77793c4ea4c290; 0x757594069976c6f0; 0x5d497926f6a8e97c; 0x140fe3a4feeaeb65; 0x1fa332f590b2044e; 0x78c685fd701f5401; 0x61a0d7fb92303d42; 0x6574836c4a0c12f2; 0x5ec61516d4657b39; 0x46d80eee6a036997; 0xe1719b18ab484f0; 0x89f8882fcedbb52; 0x23a33ce5a3feeafe; 0x180fb0afb3e51c25; 0xf542856ff7768f6; 0x58056799af9f26d1; 0x7ecf1a4514c6f6b2; 0x1b2ce0ff59ad324d; 0x6825010b011af2e9; 0x59284eb6721ba2a8; 0xf2d3dae5c68f5d; 0x2b21b1d6806518e8; 0x7642da8b077f745a; 0x337b2d376ef550f6; 0x7feb88cc107c9961; 0x77a2e2b9e34ac98f; 0x5a55f747ce669912; 0x7dfe50330938d0e8; 0x1ddb29eb76744c0d; 0x3ecfa3787f72a04c; 0x639715c8738f13f4; 0x290a345dc984a20f; 0x714982a35f2bd367; 0x2bd0a56e5543be56; 0x5be1a91dc0cc965b; 0x769051367a8d1688; 0x2c2a1cb644b87838; 0x41fce90ed84e9443; 0x6f1857599c7b4be0; 0x5aad27ab8d612f11; 0x36ad83d9eaf09859; 0x1c7a3be671a81c6c; 0x1a5157d36ebc26d4; 0x76f0dbabaefc9bb4; 0xe0e0e564a66d8d6; 0x114a2a0d3ed74728; 0x1c5bf670a7da29f5; 0x2a836d7950914ae4; 0x4b7a733bb744318a; 0x4aeca349a177c217; 0x596761019845ed28; 0x2a4a5e1b290f72c1; 0xdac31143de20f47; 0x5c83d8cbbad82a18; 0x63253858cc322267; 0x1d7a87c6a8e809c7; 0x7b8ff055f76160d1; 0x3885727e06689dcc; 0x34b42bfbd2243663; 0x77d2d942304f56e8; 0x4041c16d50aac522; 0x13721a1c8593ed04; 0x2a9c3dee8630957; 0x7619d7dfcd570a00; 0x568bd5b5801c6377; 0x4e7173ad56290c8a; 0x5087107955d7f129; 0x31b9e9fdd51c92d; 0x278f78fc7133e1d5; 0x4b4ab7c65fb635ac; 0x616fe44f52ab6f93; 0x3389d287e9551dc8; 0x5f55ae496eac1f04; 0x38eb2f62e7bbe7fb; 0x6361e853f394f81d; 0x580ea78d9ea8b8ea; 0x2064435ab3a62b42; 0x3fba73516f60ea83; 0x5c15f951d638bc62; 0x103e821006811432; 0x4b2c4e4268dae3c1; 0x6ae2e689ea91dfb5; 0x5fe98ef10c136ca6; 0x2ea359ff2466e3cf; 0x6a8b1870a33bcb39; 0x9b4ae034a05dde9; 0x5e12f049e0295687; 0x155a528acbd7170b; 0x75cf411622e1e126; 0x7ac900200bc6c892; 0x5570aa7495258c1b; 0x1f33ce6f4a741529; 0x16657e95acdcc509; 0x7667118b999a3dad; 0x430eebde76bfeddd; 0x288f43aa5eb8a37f; 0x3c6851f027216298; 0x7a599452f87269ba; 0xcf6cb74bfc7c072];
   [0x41cd15533181dad2; 0x1f620404e941fe74; 0x66d1339e920a3f0e; 0x4a7a74685340270e; 0x2e366710cd60babe; 0xa41b851d1964009; 0x3ee8f4662bc22a42; 0xfd168d682228731; 0x76add0cdac1dc20a; 0x5aa1c11c771a2f05; 0x206c522c64f27b5c; 0x1b07593fb2c33c06; 0x26e329e0ecb18d4f; 0x61a5b826445802fa; 0x5ac0ed4b77a4aa0e; 0x746abe60312e2cad; 0xe9d479b2a8306f9; 0xd19b23f4cdde2d0; 0x6c7d91fcab10074; 0x4e6a66de4e21795c; 0x3a2b1ce1ea2f1d60; 0x5f3e2f64e220619d; 0x396aa59ed5778a11; 0x1b7669d8bdfdb366; 0x623e7438c1affb07; 0x514da81075fd066c; 0x497cea16e9c6d10d; 0x550c526ba1062066; 0x4df3567e5577f34d; 0xd384c116b7ff196; 0x14ee5b1a5e13de4e; 0x49325341ebca7c; 0x4b70c9665900fd80; 0x38a64d100c4f707; 0x340abdabd6c4c09d; 0x2e40a3461e6d4cdb; 0x3abd6baf77f828b5; 0x79dcbf0c9cbdcf4a; 0x1d5524ae1b25d044; 0x7265e10c69ae22e1; 0x3aa30c229ffe6d96; 0x7ee3aaa0fe5eff8c; 0x7cb29535a8a7d7c4; 0x1ae2b5e4127e27c3; 0x65ceac5988321856; 0x15e0973ee5911c0a; 0x5ffb786dfa10ff99; 0x7a62124de03aea3; 0x3fd7ced0aba55915; 0x627f7c34a53a5255; 0x7a84d5763bbe738a; 0x7a320b0e66f0249; 0x93e1c6bb8cd49dd; 0x5e51f0d0354184a4; 0x7c6445fa150b85f; 0x33963d4043d200c5; 0x736ac0568e0b2e76; 0x557345f33edcf44; 0x4cb8240d56f48f1a; 0x2c13f4578e12cbf8; 0x30054e737d323b5f; 0x63ff8c64a055ab73; 0x5d0f364c28c59442; 0x2a3f5a51b21eedb9; 0x67a1e874207e8bd6; 0x6074707f3f472741; 0x47027a3b69e0a12b; 0x7b0af4a1baf9e6f8; 0x1ea96632d78d3977; 0x7d96eeb8dd13c2a4; 0x28b9ef6b40caf3ad; 0xe948d977de8a69b; 0x3ecaa6043efc9fe7; 0x6e083d03480b29f4; 0x3a1224caa79ebeb2; 0x2e489adfc8c22bd9; 0x14dd48601e3c60f0; 0x43c0c6c734a5ec5d; 0x6798bd18036e0984; 0x331b027b7def5def; 0x7836aa30df0c3e89; 0x3f6fd33cff66f93; 0xef40e6f9d226403; 0x4562ece02294299; 0x5229b920add38b95; 0x351ddbca04b6ae5e; 0x432966b3a124f83c; 0x39b1ed68deb5d1ee; 0x300c08d40d3b6912; 0x3c363829b95f970a; 0xd01595b9dbdeedc; 0x31b2ec526c682252; 0x52d661f35e64bda5; 0x7d9431f38b0e2576; 0x57548a89028565a2; 0x3c0e05f4f5dcbb02; 0x64b87f333bcc11f; 0x4f974779e9ff5762; 0x2a3f0b49640f0e16; 0x66bef0b67c6e10b4; 0x65a2ca6641fc08b5; 0xb31f26dab9d8442; 0x588a4e5604b8036a; 0x6ef722a931b22e56; 0x482408877215c37; 0x4ae54c2d04b87b71; 0xa2ab40707f5363b; 0x31c53f844a2e4aaf; 0x7754c9bd773fcf3b; 0x51b3d404643c210d; 0x208536a44ca28846; 0x46122ab3b941b825; 0x891e8acb09cbcdb; 0x1f4eb4eea678e806; 0x586019c1a028f66a; 0x10a74a8e0ae71602; 0x7fdcb6c46d592a73; 0x1beb66b450530c69; 0x6aaa65f47d21f2fe; 0x1405135aa6a6ca42; 0x10b04c833e88b42f; 0x50f46244967aa34f; 0x3eb9ca3ad6c7a270; 0x3a017bea85ea0653; 0x313dfd3a1e9f98fd; 0x5a1d484d847f903c; 0x2aae6ba1c3d1e3ee; 0x1b3a8f2d2d544ed4; 0x66760df22f5d9329; 0x4b406a387f9a64b3; 0x7861995ff170d6d3; 0x5a588b47e4d58916; 0x43da1c5037e9e44f; 0x74a6ac82042f14be; 0xe02fc3a5676cf92; 0x769f56abc4549d4; 0x472628f0b3583e42; 0x54284d5f267a3608; 0xa9075dc27a75a2; 0x54b8922fa737b3bb; 0x28760f27255981dd; 0xea693955f5678f7; 0x4748f6add54c97cc; 0xc2b00ebb0a3d34; 0x554be6437b431146; 0x67c2bfa9853e9946; 0x577c695ca5f84959; 0x5b7a51985ab9461f; 0x18e5559adab544f3; 0x735de1c5d47d4c3c; 0x209d0329fecc508c; 0x52ba66e5834cebe9; 0x550d531036f2dd98; 0x50a6feb8d406d586; 0x1ed1452fdb0dc011; 0x25f6cd50ba7f4e62; 0x18d803ce1dd9d8d5; 0x519ea9ec6f148b8e; 0x2997bafef99ed051; 0x473c27c9dbb3670f; 0x4567d6a1000095e3; 0x458c24f4ac113c3b; 0x52164a7e0095fe9c; 0x1348a07d311ea7c1; 0x4d6f923163cb855a; 0x14c975c23f7e27ee; 0x718425716161d534; 0x254767a2f7a24342; 0x24a3836ff31bdd60; 0x415cf69d76c8f37c; 0x43385a4adc2e7925; 0x6972803fb8d322ec; 0x5343e75d2574b92c; 0x4de0cf4eeb7e4e20; 0x7ae7abba8a01c027; 0x316db0c164473254; 0x160279178c4b27b9; 0x13bc5df75dd3a14c; 0x81bffe673e08f9d; 0x29ce1e31baf08242; 0x22fdd04d982fdc4a; 0x13f1fde871736fd2; 0x1f66bdb93c5ffc07; 0x7d39bc7f9f697265; 0x12c1afe5fd9b0b51; 0x6aa16f92b404461e; 0x287e513f569111a8; 0x482201968b230077; 0x67ac2cf625efa85f; 0x5fec40d4be82e5bb; 0x5fda2e92bb83c685; 0x656d13dcc6cf8550; 0x6efd30596cee1b8d; 0x2717144c6567cde2; 0x58b05bf61c4b1090; 0x4d513594d0f72053; 0x1a931d43e19e9a46; 0x3ecb040f9e9d7f5d; 0x697af37b53e1cf42; 0x5b86d06c0d53208a; 0x5031a5ed91256042; 0x332c046344b0db4a; 0x1ba864d4477ca62a; 0x62ddadf1194da14d; 0x46dba9db72c07a5c; 0x6d25545a61e2367c; 0x716f7bf8e42edc4a; 0x661e0fcb3eed5619; 0x2a6814756e20048f; 0x1db9d00dbbdacead; 0x6feadac7d895045a; 0x596cc7933af6ae46; 0x379cb1ba46f39280; 0x49e6ce62bb374c13; 0x4a1ca35d6c2f7aef; 0x4e8fc7bb61366a59; 0xab943162fef3a89; 0x12141fed4017c2ba; 0x24ec2381b263a9ac; 0x481d38bc0aade3b8; 0x1f29df2c325468c1; 0x741e891e7cf810da; 0x54e3637c719e264a; 0x6f0e2a86aa2f56fc; 0x5c1160a0149dcde3; 0x36a89327e9af6730; 0x26a0bc6889c08bbd; 0x5d3bc31980d33eb2; 0x7154c0a0dbee6578; 0x4371d6cd2303605; 0x6ddb4f92c86cea97; 0x5908ff986289e9e; 0x3d2b527990228335; 0x5d38e0d40dc2548f; 0x7b965ce2d56d3c7c; 0x543eb0476fd16391; 0x69c5fdc3bd05663d; 0x28c308c6de9eb50a; 0x26f04b51bcc9404c; 0x763d124bdb00cc79; 0x120d4a3fc897fdab; 0x3f0faac6c8037cfc; 0x341b5262a0da4d92; 0x127c59b9f6561f34; 0x30199579d8c28c08; 0x75d098c8d632efa5; 0x6452cd20a66659ff; 0x3607edb33e9b0c1c; 0x7dbc1d01e14815a2; 0x3c28c8540ef1512d; 0x5d9cac30fc668398; 0x368c4b474e70941d; 0x57cf0557c7fb9e6e; 0x7f3af4162863da72; 0x54973b894c418d64; 0x36d067a6cf1647fd; 0x10168f5b98cd9127; 0x7b7af7b77924222e; 0x1aca12083412e52b; 0x30b59677da68d42c; 0x9db1a7cca32d79d; 0x257fef7d3cd29a11; 0x7223242a3314f3d4; 0x74107178040fee4; 0x76159f58bbdec3a; 0x2acf2e47ae10f9e5; 0x4da175d041a039b6; 0x4d8c2f8e6670358d; 0x674b938a81d964f0; 0x8d100e4eee5a7a4; 0x5c6ac8cdc0d106ad; 0x4ff6e7952457c4; 0x2b5899e55fb1e092; 0x7778463ec5074bf4; 0xdb6c9c6ca4fcdba; 0x1c2678e6014a5fc8; 0x4d94420c06a49d87; 0x2479f2eb5eeca75d; 0x6947ea812ca21c11; 0x359ead6480c528d2; 0x4331bed5d0fbc4fb; 0x5ed1d1f430097eb7; 0x3ba78ad421900855; 0x1c30d0bbbb049e78; 0x58bbcf9ac7073085; 0x73f1a4a0b336efb0; 0x4cf40f5009f5e010; 0x21bd6d095c57a616; 0x5f380c4835809e21; 0x397d393c1db352e3; 0x4aa683beb1886d9e; 0x2dc1e759bdf34ab4; 0x1647dbdad99a45d9; 0x74673bc5b9186b33; 0x6ead7b00bbf2ba40; 0x3b16d2cc3a74285c; 0x30a67acb4b0dfdc0; 0x34148f03e737e9de; 0x445513ba77db3a60; 0x59a409b355783374; 0x14eb8759ddc47667; 0x4ae389b44c37e29c; 0x4fea602ee23bae54; 0x6df59278daad0bbb; 0x3aa25e8a1bd405a5; 0x568e1c4fd5ba2104; 0xd5357fa4ff21515; 0x1dc74fb752f5c0e7; 0x104e45b5f88b050b; 0x155007c745efb118; 0x56285e6b4a21ccae; 0x6519a6f2d314f158; 0xf0d65088ff9f688; 0xc458d150c872db1; 0x77065e97240222ce; 0x1550cf9e8ecec145; 0xec79e436a3d3];
   [0x698b81b5f3837c19; 0x1942fccb0ac5374e; 0x5ca58a4a981f3f93; 0x5645a990bef4dfbf; 0x1dfc690cf459c501; 0x30e53054a1165b4b; 0x58c3e340e96d49c0; 0x2d5d34d176f0831b; 0x5144140a5645fea3; 0x1b4a49fcd75abb07; 0x1d47bd9987df8290; 0x36c421777735617d; 0x3ef79ac173151e2e; 0x4ab010d27d64afc9; 0x76e3735e356e33d5; 0x4f4b98616e767908; 0x7585fe39a1f98d6d; 0x7cf42960633f6dda; 0x15a2608cd252c082; 0x3dab5c7d1da6a83f; 0x16273f1aa5e1242f; 0x6ac379e49ad908c7; 0x14d420fcba19d59e; 0x4a0998bca0ae274a; 0x13782db7d358092c; 0x792d8ed6bfa563e4; 0x214817aa70cf7484; 0x4a30a70b5bf4b4d; 0x4c66b804b03918d; 0x79eed6ef6b82ea40; 0x28a4fca5956857ae; 0x5f19dcd34714e3bc; 0x56d3e245ac54517d; 0x50ed24e734bad5d; 0x36c3d0b9083b54df; 0xc5a459b3b0fda2a; 0xfb4625d8cc37533; 0xa63f4e0aaa60ad3; 0x10f9c73246e0761c; 0x57d2d81e0b5ef163; 0x662b5beb18b8cc63; 0x1290ac311f302be1; 0xe8c0e4531f62b4a; 0x1f01879b5527c33f; 0xf385cbae64dc15f; 0x1c90ebf737a534d4; 0x411c0f33c4779a34; 0x2586378e0f40c838; 0x3e1acba8bb92908; 0x7810dc43f403e9b0; 0x6d1aee860eaf01df; 0x615d4e757dd80bd6; 0x4eb9dac419deb7d0; 0x20834d3d37881309; 0x364726264421fd84; 0x15b9a2da373b8668; 0x58119f7961bb8cb9; 0xc738e552b57582f; 0x34d1203ef1ab32db; 0x4d0922b43a08ac3d; 0x78d6e161b6903e3b; 0x70d2116043b8f534; 0x30826c8321bf2f17; 0xb3fb0b6b7f292af; 0x6c1b12c1b7ee9da6; 0x39aa928d976c3464; 0x616b9f9822d9dacf; 0x26ed2643f40e8dfd; 0x3391ef5f9b180b38; 0xb533e00f48a4229; 0x939cc3473786251; 0x2b45cf7805756d1d; 0x28c7f1c397e65ce2; 0xe783c72a638c925; 0x7268b4bbabc165dc; 0x27d63a8b95f1eb9d; 0x5354dfdf1930ad61; 0x1de082a211d1ffab; 0x3f34f22488148259; 0x4d9a3cf881e2e371; 0x7c67eb11d3551ed6; 0x1561026ddcc65888; 0x2e71bb7cd877be9c; 0x311efbdd9fc4c7a7; 0x3496813b1e52197b; 0x31f82f1150d182ee; 0x3c99fb7b49ca00e2; 0x324df79f6e5c6168; 0x2fd58ff21913bd8f; 0x33e88302ff4875d3; 0x752d35b823e821e5; 0xcfda92b5c5c3a74; 0x1af46023399de0cc; 0x7a86170bb77d688f; 0x5df0156bd3db3643; 0x7303eb8a74f3d448; 0x3c1d1026e7380e24; 0x78d9dc94d5808e05; 0x6222ce568dd6e7c; 0x6f4ab7a371ecff26; 0x249560c1be95ec7d; 0x21e2d0ce772bc98c; 0x64947bcac2544ccb; 0x64b62ea2ecb39c41; 0x41077d1e7fdc410e; 0x37cef6907194d7d5; 0x16cccc40c1b6d4f6; 0x2b17a2d0ed579bce; 0x24a66bfa111c9e6; 0x341cdcf3677beb16; 0x519d2d6b31e89c8c; 0x6354d2dd0cf54e50; 0xef595ea499028f4; 0x4b95a53c9f27230b; 0x607e6dd28a667ec8; 0x7bda68f5f2707a80; 0x610af862f980b5ea; 0x4aea950112bca85a; 0x59b1c238f16e6d20; 0x5abd8c668e79f567; 0x5c081a2e20e0a63b; 0x5966fbbbc0672b84; 0x2c496b7099080f33; 0x6698a7b8e7ad504f; 0x4f0c62af2c550548; 0x14ebbefc5894789c; 0x7769efd375eaa21e; 0x281d2b15b89fe301; 0x225ea0d46e3112ef; 0x2b7dacce681a4f27; 0x51247321519ee80a; 0xf6e770cc86ca005; 0x4cfff1cf95f82507; 0x5136f5654feded07; 0x7079b01bd40e09e; 0x30206af476a6aefb; 0x2c443b2f4b48b381; 0x61519978f687637b; 0x7018f3d80ec7edd1; 0x1600b0651b0004ce; 0x639ff281a3f58aef; 0x18d5ca9f03914833; 0x273e559a8bc3e3d2; 0x79fbf2f353b6877; 0x2a6e66468a9d0490; 0x90f760697c00f92; 0x19138ea942e3d8ad; 0x3da813b5d28c8d0a; 0x20f07be1801fc8cc; 0x59e6aa1ae4be28f4; 0x4570d4c94cb65349; 0x274ba4dd11738620; 0x5f48dced28ff5f4b; 0x5928ce003d23d0b2; 0x31f7ce487ca02d08; 0x69ab0a3e4131c2ad; 0x25f4e77db8f2887a; 0x57e2c52ab0528405; 0x45dbd15f33cd46c6; 0x71cff5b446fe03c3; 0x3a94af450162ec10; 0x2d0d0d6c5ad5629b; 0x1d64ee59bc1a34cd; 0x409bba2851892dca; 0x1f08934cd98697c2; 0x19e2f1ffd9be968; 0x526a2e6c9ad2a96c; 0x1e4aa47bf173fd25; 0x43f0cceedcf31878; 0x504215c2981e8c53; 0x6702df016292e302; 0x2a9340b29eb9df13; 0xfb0821e4aa40aa2; 0x17eb75f16fd35444; 0x3c5fb01a7a70adc; 0x55a98920f580c6e2; 0x23f7ab87617e0897; 0x28a3208c9c7f5a7e; 0x4e5edb840a3ca9be; 0x46df85724de6f6fd; 0x4103676deae1cdd7; 0x4ba6663057c34d44; 0x229fcc5cabd0039b; 0x3fe486892ee93aba; 0x28a11e1aec597508; 0x678f8c836b5f41b0; 0x247c04a53d2c1807; 0x25e6b4c5cb316fe6; 0x5920331d87801045; 0x114b877de41ec7b0; 0x7e8bcccd0aac34f3; 0x78eef46a81ffde85; 0x63524b5c29511e75; 0x2194e71028e58b9d; 0x66338c061c0702ab; 0xb99fe6000e91c3d; 0x26c764fca653f442; 0x8fd12dcabfb8c6a; 0x2e3f0fddf8114f4f; 0x282053f1073ed8e9; 0x67ab175051dfbe5c; 0x7be9be424bc934e5; 0x33945cfe891c2f67; 0x257f130e4eff2b06; 0x2d160b9d8f077912; 0x6c0d05908d771e49; 0x56b760ebe3715f79; 0x7d07832d8c50af5c; 0x2777707cd727a5a4; 0x74efd5bea04f08fc; 0x4e7afcd83352bf86; 0xcaedaa83ab9297b; 0x64c660476f9af55b; 0x163c4a2ca677f8bc; 0x450b466e98454b17; 0x149abc212658da3e; 0x57a9942ba1f03ec4; 0x967ee5781564943; 0x579c42f717bbaba2; 0x4ef5590b296e5713; 0x3695c5c0509fd20a; 0x6d3005ca3f136d13; 0x7bdc5e38d552c9ae; 0x18a0879c50d28b8; 0x3ea5fc10691d983a; 0x3410d2a687720ef1; 0xc57255b6927a165; 0x61aeabd12849a2b; 0x74bf3dfb6600b485; 0xb740f76872f7489; 0x3393db1d08f775b8; 0x38bc610e38bf13fd; 0x54e8a9d57f59a6c6; 0x61abf550aa802351; 0x252eb4b4c03abd5d; 0x1bc0f1573bd1811f; 0xb605ba8e0c31399; 0x6f89b211c84b4708; 0x6cbddc8341fc0f4c; 0x5da3f1218db4161f; 0x72dd1f8ccfef080; 0x4352b6587d73b900; 0x7c2e4840cc6d7243; 0x405711f91be27105; 0x376d1c64bc1d2186; 0x4aa69daaeba1c6cc; 0x4e47710fe3b293ce; 0x401cf97e2a45adb2; 0x1801214d80c4024c; 0x8477dbbcc034978; 0x101e6b273345b1b5; 0x2d8f0c2016b49dab; 0x1b6d66bc08d41017; 0x311fb077575b23f1; 0x2a2ffd890722e2c; 0x295f78023f3a2add; 0x46ae3e1052cfcf0a; 0x616b52e12b35c2fb; 0x4b9fd7c769bc9ce9; 0x70eccae37ea48d7c; 0x44fa5a6cbaf66864; 0x3297d45f1ee7f697; 0x43edad816d4e798f; 0x3092b955ee018f9f; 0x15728f3e2f8dcf17; 0x2196a0ba0ab43e50; 0x9ad9796b4aad236; 0x7c11c8fb07bb9425; 0xf2d873e668c033d; 0x5d5bf36bb8a08777; 0x7d18ed123661cf7a; 0x327759e5fb2e146d; 0x2a370844fbdaaa43; 0x2299e3324db392a4; 0x3ad24fd7c61129c4; 0xddb55eb2b490ab6; 0x1bdde33e54feae7a; 0x4d16e11e0b4b063d; 0x54f5b8a057c5b701; 0x3cc74e62d66350b6; 0x699bbd28c78c13c4; 0x4a8798ce4d3aa06e; 0x40c18f4cb2b5a867; 0x23bf9681444c2288; 0x3ca5967f61831a5d; 0x710432b6e33eaf7b; 0x3757e3a75990eaad; 0x45f70557f51d1b13; 0x4626819f94f87046; 0x4aac4dcd6fe6fd96; 0x7024db6cd7f3cf65; 0x6415cbfddfb10006; 0x25dc787810f5a9b0; 0x4dcd14a54b48fed; 0x2e0229e1e41ff302; 0x3203343e04f6c25; 0x123266453bd5a146; 0x4732ee4ba579dfa8; 0x7442a3c395faa162; 0x250e856653e36c5c; 0x65cafdda5ee64a5f; 0x2f30b6b37b01b0fa; 0x1a7d7dbf8586575b; 0x4fc9476905dd112a; 0x46b98365fb9f582d; 0x68a8b68b21d040cc; 0x3e3feac876bddfe1; 0x71ad990bccc53bf9; 0x189f8b4e53ce9e27; 0x49c85b21f0362788; 0x6c5d9e444bea0a37; 0x62afb70eaf2a7585; 0x7e0945e2120e1c1c; 0x37820d585b841888; 0x27ffc0d0617f0deb; 0x7f6e17c52cbb36ae; 0x1c3300155da167c];
   [0x11f8812ec1804fbd; 0x5229c4b3007327d1; 0x1ff664b3de50098a; 0x20ca5399e9c9b55; 0x58ccdbebdc07e035; 0x2d52ce903f1b42cc; 0x4b8cdbdaacb55a6c; 0x44e441596eb2d692; 0x764ea2591b699439; 0x4b81bb972a02e3dd; 0x1985e7863a1af79b; 0x65dcbd99ebdf97ba; 0x742e289a46575d5b; 0x112d63d48eefa84a; 0x270730d1fb078a8b; 0x656f40728fc4c043; 0x70741b1fec1627e2; 0x5787ff9b9014afb3; 0x2b9d1f3a51e35ca4; 0x4e1fee4ef4591d27; 0x509609b2f2484d9; 0x44c93662070b9078; 0x4a75e5c650eeab5b; 0x65c4b490c95b2c60; 0x57c4b6d23278c2e1; 0x293366d367a6bfe7; 0x4f0b2edd2a416d6e; 0x25a7b264b2b37d3e; 0x308deea5f61c5a45; 0x2e4628b5c5efc16; 0x644f762ca4136ecc; 0x42464525f9d05e6c; 0x6b41d9a847093a11; 0x73b0daa71bef661a; 0x43b38d664cd9e7be; 0x322f32b94a0581bb; 0x760c6341214120c1; 0x2d0eb2281d5ea551; 0x6c663f6a4e71c490; 0x33bee55fe54b730c; 0x7ce5a6f5ed0e3db3; 0x716e426de00b4ef8; 0x3c25eab573f01136; 0x794a2a31fe86bd5c; 0x408862f2478d8236; 0x67550c36971f8e2d; 0xaad7b197b315ff; 0x50a71d31ef64eeb5; 0x6295df3e73cc0320; 0x3ced815510ddaf1f; 0x581782a9ceafa2fd; 0x7d15aec32d8a3634; 0x6250572a2663509; 0x1af02f8557d2db19; 0x5af573ab6ca63a20; 0x1f3d451e86ab30c2; 0x2577925ec2cd2a9e; 0x626d6ccd135f1802; 0x20b2118c76c126a6; 0x2e2aae2f49c8ede0; 0x23f2c55d91f6a045; 0x13c4134a7ce82206; 0x25560a6ab83a3102; 0x1d5f793dbd609605; 0x5a3cd077ca98d4e5; 0x2d93de8a51c8bf70; 0x16f5498d0030a93b; 0x5aa82c9bae11a128; 0x7d79504e6d5587e2; 0x3bf1c1e6abc160b8; 0x4ee73ef3192f7caf; 0x7fed07038035f447; 0x1a9c4fbabf236e6c; 0x1836738526794aa4; 0x512b49cb5b323f22; 0x4282d73e65f64c42; 0x12a33354f0517459; 0x4e605ac862a555bb; 0x2da1dae0142847cc; 0x6cf364fe40ed6570; 0x2de6efb8a7416baf; 0x7caba5815ad1b44e; 0x3f09c8074a43cc09; 0x24ea62d77298ac11; 0x3165b62871defe4e; 0x6a1f2cef11b09fe6; 0x70ae64bea09f34f3; 0x4033573d35794ed7; 0x46810b9968eef755; 0x43bf842c9ff8f076; 0x1567c174cd0eabb8; 0x47aa16f549b05c40; 0x5f3792fbac4a48f7; 0x67890703f82bbf14; 0x55bbfb405da3c198; 0xfaf194681aeffad; 0x39a94dc0317aff1; 0x46b47aecedd227d6; 0x60549c94d59da128; 0xd241033ad6f170a; 0x1d89e594b6632208; 0x46b1b8d551f1746; 0x2774ba5d76acad2f; 0x1e39acd0632baaad; 0x76dc91b925cc9537; 0x6b569ce63a1a134a; 0x64b516421c9f4422; 0xf56e9aa61283cb6; 0x7aa6aa29dad94fca; 0x71a868bdd89e47f5; 0x47e89cb0905ebe8; 0x3a65b1dd0b1d4a9d; 0x5e375d8d249037d2; 0x27301ac5e64e5293; 0x6ec16297fe95a8c8; 0x3db09d636613b5fd; 0x7bf451bfeb4dfb23; 0x6594b647a1d3756a; 0x5e358094a8bd98a1; 0x47fb4735a3518cc4; 0x45018647afeef316; 0x3a3cf186472d4202; 0x451d3a04223e6c5b; 0x41ee0284398c7bdc; 0x42915ab435ae8257; 0x701c861b2ad4fac5; 0x1370e22dd0cfcc6e; 0x723d6e054034c51e; 0x35a774ec3a31e80; 0x4b477ac8bb56e7d6; 0x2c4e19097ff69e02; 0x75a99807f836508d; 0x65700451f3fb5c40; 0x3969c009d3ffa8dc; 0x6af68e481cea8f95; 0x41e9f00bf424f43a; 0x5719332b587a1420; 0x33a2235c9758a4e9; 0x2171d913c57a19dc; 0x4145be0a109b2c5c; 0xc47d931798ba54d; 0x7ab4c3453e7356dc; 0x649e4c84a46dbaa1; 0x642a262b7b18e58; 0x1a5fd2b92d4f668c; 0x1e33167352f4259f; 0x72fe4cc2d8c217b4; 0x50fd9d52187f0fec; 0x5166d58573798f96; 0x15501e376b222505; 0x5c7a9de89ccef542; 0x16f01dbcf2c3e5bf; 0x2574a6bfff20f399; 0x321ca5db84fa8c9e; 0x55b8a76648d945d9; 0x332d0d607da742fa; 0x576ed161aa8c43ca; 0x5417fe4f7219f841; 0x56bbd898510b2093; 0x215a8cda158dc109; 0x7fe15e7c997bfb8f; 0x344b2c867fb80c8d; 0x25f39d63409e71f8; 0x2ba11faa53c219cd; 0x371ca7907ad3b32b; 0x5370d915902be7f8; 0x4628c2561f395ff0; 0x7b9a8a7877c083ca; 0x2d9ba6c0acfe4262; 0x478642e1dd7e621a; 0x4bad1354832fd071; 0x667e1b35f7c8775e; 0x519bc6d51a66bfee; 0x304e5cce48d22266; 0x77d70334e67d6632; 0x72c4d9854df7834d; 0x46e6d5a6b799564b; 0x3f10cc5c7cc84ec6; 0x2ab02db7c25a5fc9; 0x5f748302b202533b; 0x1f5e3f6e10ee8e50; 0xdc14971a715b5cb; 0xb0d497cc716471e; 0x5e9a683a68089e96; 0x91f3aec74b4770a; 0x6647d43691c146f5; 0x67a0cedb76030131; 0x4365e1afe315d368; 0x479d32b3e4f4e251; 0x4fdb0293c4a9fee1; 0x28abd07cb70a82ee; 0x4b8475e499165fdc; 0x7e85f81b9d88621c; 0x5c2dc940f22aeacd; 0x2cf60b1dbf382918; 0x6d3b2f7d90f77fb5; 0x42bd4310750c83c7; 0x2a9f311805b1ce70; 0x537aba9a561806c7; 0x371f740243faea58; 0x71ce96019886d0fe; 0x6f2c5d5b5154a4c3; 0x2dcefbdd16635ba2; 0x441a99148e2aca17; 0xf69b65ddfaf248a; 0x7151f4c7863f1f37; 0x3df0e2913ff577ca; 0x6b9eb49e063c3cfc; 0x140cd589ba5b0064; 0x782ad8fac6360e3e; 0x24bc7e8edea09e9e; 0x61383fbeb4f1f8fc; 0x34f8eb226640cb23; 0x17da7c766a35ab2e; 0x3ba04e21764ec908; 0x54f5c1a9c9b6a2c9; 0x2459048912465ca5; 0x5b63dedf80680ffe; 0x515906bace0b7ba8; 0x7bfe9b141c283ec4; 0x15365de9e00e5241; 0xc24a2091eba28c5; 0x34e568cd1ea423f2; 0x61aca64b1ebec93a; 0x7e01683fced91a0d; 0x78fc006c05cc32f; 0x7f5834bd786fae8e; 0x40f5536a44c80ab; 0x2e0d48e42bd743a4; 0x4765fee106bfba05; 0x34773d9004334a5; 0x1c6fe49194aef90b; 0x3d7c2fb6a89e9f2b; 0x365a11c97ac2ae22; 0x3bbe186d3414b49a; 0x60721b727ab5613f; 0x757062e4a7b4b1dd; 0x387a2ce0be4e8343; 0x5b2aae718aa4e535; 0x77e49aa3ac6afbd0; 0x2c94d6ae5369cab9; 0x53485998b5ff39f4; 0x257c77fa4ee7385; 0x61b3ea13e3ddcd19; 0x67c37cc6ee51a9fe; 0x1146b75514776527; 0x65e0005834b885c8; 0x2588c7bdb2ad63e8; 0x2adb24dbab52b1e7; 0x25d3df8302f5aecf; 0x358a54099f2cd7eb; 0x3a2c65341371d43f; 0x24fcdc8da17968b0; 0x187868d354fd3e08; 0x4c3aeb3b0bb27cd9; 0x60be67eba68e0f0d; 0x4aa6238aaf6c3025; 0x2c8f2af02a15d14d; 0x4695ac9fc512bf3f; 0x2d7425943d5a744f; 0x213e545df6bd4ffc; 0x311d0343971bdfa0; 0x13c17fad9ccea6d5; 0x48da7b9ef4890b9d; 0x6b3d77a51121e6cd; 0x444602915499ddb7; 0x5696f1accdb7e92d; 0xb18af3eadcfd5fa; 0x67c214275b8f35ed; 0x1a3e5d8d12c696d1; 0x1115578082c25e9c; 0x5f6d830c59d9da5; 0x51a3dd59452a88db; 0x18bac04cbcd01963; 0x725c1ba6319d74e2; 0x37894ca767099efd; 0x26d12c5b5d9b38e1; 0x379c5540110702f2; 0x739ea9aa81cc5709; 0x623cdb8ffe6fe7fe; 0x489ac4b26c3a57c1; 0x15f6594029cb8049; 0x16c57893c729f962; 0x504b85f4564d4c75; 0x6b273f8aa05e2cf; 0x7bdca28d9f3d2fd2; 0x71599ad8b804e6af; 0x88338c17a0791ad; 0x7cb2de2615803900; 0x13458293a478a5b3; 0x5483073339efef13; 0x11ced927b5da48d1; 0x5250daf6e44061fe; 0x63fbb8bab7033c58; 0xbfd01bc8b7d7504; 0x1a7bb5a887a045f4; 0x5e4e95ce2de759b7; 0x2cfbc1a82d75c580; 0x795f3e68d2eb7c7e; 0x1fc285baaab9783b; 0x58b95d7a1ffcfedb; 0x73b14581178604a3; 0x17990f996d4b3d6b; 0x25cc068f679a16a1; 0x41dd601b5877eaf9; 0x6e9bea42c8fbc3ce; 0x7701185e687174c6; 0x6c1977bff03dbe28; 0x1819c5bfc3d266d; 0x73168e18fc6fd2fa; 0x75f762ab1b28c251; 0x4349d1413cb4d468; 0x3047a2711adc9542; 0x1c9180bbbf751467; 0x372b21702aff5677; 0x3b3bb603806da75a; 0x5cb0a034996aa3a];
   [0xc9073d306bdae63; 0x4224eee3fe35c451; 0xb067f922e35e0d7; 0x726e72c2f3067b0; 0x7a44e56e059c47a5; 0x4ce9518ef0415df0; 0x77d01aa6be444612; 0x6cd640376ed7d7e5; 0x540eb913a68aea3e; 0xd8789ae35682cfb; 0x153f325072058643; 0x674963c7a87d0559; 0x95812de81b742c9; 0xc4523a2af03d698; 0x465f70bef25bae82; 0x63fa1081008c23a; 0x32c48b106a85b2ea; 0x612f92e3dd8c5a3b; 0x68b280b5914a018b; 0x4e4dd28217ed2ad8; 0x6b1b2fafcb4c10d8; 0x582b2ad51f65d892; 0xee99dd1f1838fdb; 0x2bacd8ebb5e1f83b; 0x1c0b1efb021bb1d; 0x1f7bef1f5d830667; 0x4554ceb2be434190; 0x25ec725d5d5b08c9; 0x428a225a8853f69b; 0xd065bd9e553607d; 0x68b63077532460e9; 0x2139f9cfe4a2ae16; 0x368570d919a6127a; 0x61a1604cca52c7b7; 0x32247d0921bf6626; 0x7fb4cb7c7e3aaefc; 0x2ee207ae8edb5d34; 0x33fbfd69d0b6375e; 0x12cf1fc4a35434b1; 0x7106ab3de180a941; 0x4e5656f104df79e3; 0x49fca8b695bbca1a; 0x1279f5eea2f26e03; 0x43f1c1e1f4707f21; 0x22cc16bdc4801d3c; 0x7fa44cf69b04e4fb; 0x55a63ddf85c69545; 0x27a8121d68982559; 0x4832c0ac4a9a0004; 0x2ea1faf18e6b196c; 0x6a166dea57f2db3e; 0x5b85a84b36ef44ec; 0x3cfad3d9f5d92d3e; 0x21eb5e562bcb0c42; 0x74a2f0d0f0487142; 0x4efac5000f60b323; 0x4bb135491e0a07f4; 0x3ca8489950f8cc3d; 0x7d364091f70926e6; 0x53dcf374f3730d17; 0xb96f5f48039d112; 0x479737748e0c0f55; 0x5c0618026b9ec344; 0x3542ed4696b515c4; 0x234800ea7edb22ad; 0x73f2a8daf448d480; 0x27967c06b269f6ef; 0x58f07abcb59900c5; 0x6b4390f2d2ff5319; 0x3d0581d5ce50f76c; 0x3504e3eef69d9cda; 0x202da03fc3d7a07e; 0x3674860e8453444d; 0x34230a0bff72c4c7; 0x412812516e2d013; 0x6d8a0b6269879728; 0x17450f683ab9db93; 0x3da1d45695236b12; 0x6dde02be880dc793; 0x7494940e695b6b9f; 0x2412428660cbecd8; 0x314437dc4602668; 0x5c30f1348aba9c8d; 0x1158d5305e0866e8; 0xb281ba8342f2eff; 0x6b474407ecdd2eb9; 0x16e92b6a824a8eda; 0x641248f0cebdf052; 0x429501ba44ec6752; 0x7e1a346cbdd4ce0a; 0x6d91f16607b60cf7; 0x13a7c6930fa6b50b; 0x4f19106f91abc1b4; 0x52cd5133d96e5459; 0x3b6495f7b573e8; 0x3681ab73cf866e6d; 0x407a4b00247d0b3a; 0x70a6cde731fb07f5; 0x222c8431b8a70654; 0x3270fbee56440407; 0x2dec39c5572a86a0; 0x34050e4598e358e3; 0x434cc3aa43d4fd8d; 0x7f3306643c5e30ee; 0x57ab01e720af6ac6; 0x2e77dee8a9f6a98e; 0x3c9841bf09b1bb61; 0x56cf51e4685dddc7; 0x5cbff27f4abe81d9; 0x1ee39c741ecb7ce8; 0x64bd78519581242c; 0x1b4b2b9b565e446c; 0x44ca848569b7b9aa; 0x578a2ebf789be658; 0x7af684f444a1cf35; 0x1fec47ef66f4d564; 0x5041e46d90ee745d; 0x66c426ffd9a58ba5; 0x1da4529820016c55; 0x215f62a9249fc76; 0x56c32b54c248714d; 0x29c6336a54f37204; 0x5e9f0dd12cbf272b; 0x4521466733cc7266; 0x7e84efb80a79a28f; 0x1262aed965058326; 0x1dca18eb5159dcee; 0x280e2d28204f9c88; 0x14cabf7124921822; 0x2c48f4be3194705c; 0x6e606bfaa06fef09; 0x1819e870d87c8597; 0x7a7a32655539cc87; 0x1e5030fcdb211859; 0x5a67e0d854befbb2; 0x14c67da2f68fd874; 0x25519bcf55806de7; 0x5edee1df25191f1e; 0x24645d2495aee201; 0x650477b677db1cc; 0x6dcbc99a8b66bef4; 0x78699534502babd3; 0x3b4c1eebf2cc7f58; 0x443dae01d1ff5d60; 0x7983a337e40a98b5; 0x1156783f6cc8d2; 0x4c4262493aceb97a; 0x12ebe819cb0734a; 0x22075cdbf15eb779; 0x4305397f42337009; 0x623ac655e6218855; 0x32cd82cdd3f09cbd; 0x634bc735b91e2adf; 0x6cf20901100ec997; 0x2b2f342e4b346f88; 0x72a7a722ec063e08; 0x7ef45da04d9413d6; 0xda5510c64f22c4c; 0xf0d9a96902ee12f; 0x78878409c4c11062; 0x1de72df3de6534d9; 0x35f0a69893e1a487; 0x4de31f1ca0840cfe; 0x2b65daf7ec4604c1; 0x4b6ae5307ee71cff; 0x69f4a11ded6bc706; 0x78abe94abd7bba48; 0x761c412093bde905; 0x62c6e50b64d1e8fc; 0x4e391b0a1202fd2b; 0x26d2723e40bda01d; 0x464852048744a806; 0x3d1fbf9dc47258ee; 0x59122388e3bfe74e; 0xf71307999d7ec83; 0x62716970b612fad5; 0x75de50bd3de25c6b; 0x4d5b37e31ffece49; 0x16f619e33f13fcad; 0x5712f00c4078a96a; 0x19011ae480d912ba; 0x2ea13abf6f4f3b30; 0x4ffc79e8a437bdb3; 0x5bd8286cefd6dc9c; 0x4717c33873447f47; 0x2467fde58bdf531b; 0x5d9344e296094fbd; 0x7d028ed79afb40d9; 0x378894bb2f26015d; 0x7753de985c2bbf64; 0x78b552530a816696; 0x67b156cde17c2d15; 0x70a151601250e7a; 0x81ac4fc01e3869a; 0x3667cd067063d647; 0x3807677db8fe6932; 0x702cd5fcb5150842; 0x475f5f8ca07712d8; 0x42e284536495ff87; 0x6c0cdee83392e471; 0x1c0261a51ed1b2e0; 0x7327d7c6f1594157; 0x5fe541feaf10cde9; 0x6335e24fe8676970; 0x6ed662f366194146; 0x69aab9e378c43eba; 0x76c835e0dfdabdfa; 0x25ebd2da75180e9e; 0x5ad0614bc7eacdee; 0x142c498ea22e2817; 0x526ffde7ddaaf30f; 0x269c7510a9556f4; 0x70fa2e83b41970f8; 0x344e94b04da3bd41; 0x19c7f45614fa944a; 0x218694dc4a518e07; 0x166e48eb430efd61; 0x51eeb129abdb7ad0; 0x68365cb75a559540; 0x4b80e1fa02ecd881; 0x16eb1d394424855c; 0x384e73b9276be714; 0x63f9bc79ef9ea1b7; 0x10b785bce1c82604; 0x3e7a1e5d95047c9f; 0x6a470c380a76b32a; 0x59487579b8647501; 0x3585dbe0b3d814ea; 0x129f8ecb020e1136; 0x4a4a08af75cd8264; 0x23dced8f862a9293; 0x72e0591eb62deec9; 0x7abf3be3dbc00c84; 0x2f6d3c1d4fc0e27a; 0x54a1a3957962a163; 0x451a02a9fac3717e; 0x799df3ac080f7bcd; 0x5a9313d9af3a6e7a; 0x4d4cbc2f1ae35392; 0x1d0599d70da42f5b; 0x2934576ea1f5ff4b; 0x7da850dd22264e28; 0x57689e929be11ee9; 0x195a5b6549544780; 0x77bc87e0070baeb2; 0x1124e2a3069ab89f; 0x68677728c1732ea0; 0xbb0ee8edb0eab9d; 0x11b542f002671b84; 0x4e7c03b03c87cc31; 0x12f493ea0c080b52; 0x5c07d4dd4b8c4955; 0x6049832844be9cda; 0x358791a5d41e95b1; 0x12729102c91fd68e; 0xd34ea51648f446f; 0x71c9dc428747ab5c; 0x68682eb8f8718ed0; 0x3fe85813ac028a71; 0xa17095069c97a81; 0x59b819eb01436ab7; 0x448c33e9b0ae4eae; 0x7d8efb4612a46168; 0x4be6abc572b93aeb; 0x3072602ef17789a6; 0x21b8f6c7b0d2c0e6; 0x1b0b28d26ceb204f; 0x1aaf7e0a6a7f5e02; 0x34beb0e8ff9abfb7; 0xe4798278516853f; 0x6402359005d4150c; 0x76dde0b15ca37391; 0x3c8fb71e36c0f446; 0x6e2f98aef7eb1526; 0x2b9ef587bc7bb7f0; 0x55038a30ff0e5df9; 0x23f70537ad1a1e86; 0x4fabdc323d8785d7; 0x14e925a1d4698147; 0x3f7ff847c38c6f0f; 0x39d406e091a5e8ce; 0x603d37d513105a70; 0x66c686a1114a466b; 0x22bc551754de84c1; 0x2ec08b2ffc837df6; 0x327fe8a9037b9eeb; 0x5eaf8fbd053430b4; 0x56e05ce19a6a08a4; 0x6e8ed8ba24e2a9af; 0x1e51220b1c650aee; 0x7285affc6d39faf9; 0x5bf700b4a7497e73; 0x961bbd1405021d2; 0x568586ea02d1dbdb; 0x7720160f38b60597; 0x13da8c2ae2f17a69; 0x585b702309597bc9; 0x58069aa23c34db98; 0x2e7ee54002eabd65; 0x12775c40d491cf81; 0x6e64d150c74c73ad; 0x1a0fec53ad678c04; 0xeabb3a83e4a6149; 0x3997d141dfb2706f; 0x3a2fbb2376a5985c; 0x740184ee1182dfb7; 0x364a3b4c2a4491de; 0x48ceb0bc6dafb06b; 0x78760547ab57109c; 0x485109552c59b32e; 0x62aef09c7d777d4a; 0x23000f432131c938; 0x5c01ac390c7c2c6d; 0x3ded6d9f913ddb8; 0x29a3d930582e7775; 0x37421b27c654fdfd; 0x51b99dad2103d43];
   [0x7904d87dcd3d1254; 0x6ec6863228df66ac; 0x62a8971658355db; 0x129e9044a5807b4; 0x795a7ad6387c3fb1; 0x637b2298e2d0b5d4; 0x49c1a214c0f74d0e; 0x565a42b2ef642dde; 0x23157b13b705fb1b; 0x56cc822d576ca17; 0x3caffc05f90b6a18; 0x3a9992a111711db2; 0x19c0603332e2f083; 0x34b9e89df5efe920; 0x46c40b09f79129a9; 0x5608c7857592b734; 0x6222cf771a71c97b; 0x48dbcc9c0b7e0979; 0x2364c315bb250f8; 0x6cc80274142b6fdc; 0x5c603c84a00a598a; 0x7964f04e14fac436; 0x23592f61eda0f278; 0x49f9fd736dbbcc7; 0x338b1fe6ccbc4de7; 0x17047f4ce71a60b0; 0x35bd07430c840694; 0x7ec95aa42b2cc5ed; 0x423dbfce1ad8a271; 0x756e286ab23fe33f; 0x6aed91ffec09170d; 0x6264da3bbe08795a; 0x223a7991bceb379f; 0x2a18fd9c255bbd51; 0x4dd4d06efff3333e; 0x446dfb2548ac13ad; 0x39c7dbe27a2464de; 0x658c6ec647d2f5a4; 0x5b70c817861bd9c0; 0x7e09a66247ff7f30; 0x77303862480decdf; 0x4af13c1aa124f4fb; 0x79f1fd49a112e085; 0x7310923b62643143; 0x7a14888caf9a3a0a; 0x2ec3826259110bed; 0x5e2c5ccb2c1fa5d; 0x169f72c024c46a79; 0xd80000cdec419eb; 0x7791d7bceebf84ec; 0x399b53ae389ade13; 0xaad08b8623a6b4b; 0x601bc88d2c1e167a; 0x2f7d02dc3001a5f7; 0xc6a84701992b0ea; 0x33ec6ca2c670eb3d; 0x12c6f2fa6a418da2; 0x3b75b859c965fb9a; 0x4b1f668106c747ca; 0x2835927ec8f83a1d; 0x1f880eac41fa51fe; 0x3a586400e7005f12; 0x656e9ea9ceba1d9e; 0x7a1dbe0a29469d99; 0x44957cdafc4d2657; 0x5c0d6b25a1c990d7; 0xd16a6e66c2d94ce; 0x172999514b13289d; 0x489f4bfbedd9ac7d; 0x6c451f4977ffe823; 0x2b6c2233ba706b5d; 0x5ea4599be93a1972; 0x57579afd768c1689; 0x4cd5be0f433fc81b; 0x1a031afca30a6796; 0x59152314295ebdf7; 0x775593e5f3f370f9; 0x36e4b4cadacfe8dd; 0x2e5fc21dcc8ef6ba; 0x4f5da8d0d7087437; 0x44e630962eead04f; 0x376fac103d1720f4; 0x1fcc3c063066c8e9; 0x54c30efed12a2025; 0x79df458c7a690bf3; 0x1e50a6d5ed3a83f0; 0x302aebc6459c736; 0x70b99d272f4b6bb6; 0xc839c23f7b8fa5f; 0x27867d1ad85e942c; 0x4b8b50b2e503208f; 0x5175e05cf192bfa9; 0x46632c833a529a65; 0x7d00a5e24c7757e; 0x77e5207ec7c3f451; 0x7ae152434bd4a8b1; 0x745cc5bb20e1267e; 0x6004dd53483414bc; 0x1e4495657e5c2dd3; 0x457be9fdd2e5a40f; 0x199ceb4671c38872; 0x4ce5010b1f7845d7; 0x2c21619e3843a443; 0xfd62c9b5eadf2e8; 0x68559d37eeedc630; 0x794ee84484f44877; 0x6a71137ee2547f4a; 0x7ee2473e4c0d056d; 0x27ad169fc6c41bee; 0x3975992933d46d18; 0x5c2c7f97d78258cd; 0x5f11e4bdcdc61037; 0x3de114245db93b00; 0x6d2cc95356066a2c; 0x2b2f2d5186bc93a3; 0x4c95f11c1273cbe3; 0x73f280b16f716694; 0xb593193f9fe0a74; 0x4f129371977e73a0; 0x14b8e27af53661d8; 0x4c404d78775bc2df; 0x154a1140be887013; 0x2f2a073a88b8a62f; 0x3ec36ec980ae04be; 0x6514be416d9835c4; 0x6119f755e1d7e53d; 0x4e7bb4cebe654e9f; 0x20a2be18f5fd83cf; 0x7ce61ff10fefc8bf; 0x5f6b8d5d8e0d17ef; 0x65850d52914bd075; 0x6a4c56ee6e476e55; 0x6910025a3805607b; 0x414ab8f78c51c4ca; 0xd20dbbdda7f4251; 0x30606755f4c774b; 0x11ed6afc1c92490f; 0x2b2911a178cae676; 0x55a0c6b441a2a560; 0x3e7db9b3e5be0286; 0x4db330d4a027b346; 0xbd0d9e58399ae9e; 0x638559caadb03515; 0x28fdcc53ef6fb6a2; 0x76f873b84bbb9ccf; 0x9369dde50802b56; 0x416d7e52f74a8346; 0x6e1526607cd7ca5d; 0x2ee9f8c724a26170; 0x3c23892d8184c702; 0x33040809648b3706; 0x620ee4fca3afcbbc; 0x64a3faa195ae556e; 0x5661658a99c9c378; 0x189aed8ed588b79c; 0x497d791e32aac214; 0x37efe576194f326f; 0x5e8ec97112860cec; 0x7ee0861ebcbcaa5b; 0x6acbe70c2390911c; 0x2c42e0d4d8e6af57; 0x337314dad9f9e32a; 0x1f569bb9914a4a8e; 0x3b09470f052ce0e8; 0x249508f67dd5b665; 0x630665315bc028f; 0x6f6dbfca5d7bb33e; 0x6f3f0b0ef4adb378; 0x1af433768b231229; 0x67fd59a57fca09eb; 0x1545610b66399d99; 0x6a05674e6e8c6620; 0x731d86bb7838c78d; 0x75c925ce045fdb85; 0x796ce58089445a9c; 0x7f0e9f464f8d1dbc; 0x11f0baac9e3cdefc; 0x1cd32a5fbaec7f28; 0x22df71004479d2b7; 0x5e6e6c0818e5f3ee; 0x4424cb11a4e70ce3; 0x33ed91b5f2fe9be3; 0x14b7533e1b87ce15; 0x2c406a5713ceb581; 0x44115e2865a6379f; 0x8d4f0544e2046f8; 0x33789e3fa9db8e9d; 0x64e689b7f78f8f26; 0x610ae89c9e24eb10; 0x343017fd3f18091e; 0x20c6bda2713e3ca4; 0x6e2737761f3b96ec; 0x3f1aeb3cd567261a; 0x55c3cb9c212e01e7; 0x4044844c1fa4fd38; 0x30f42fd8c13fcdc1; 0x1d3ff5f3b57a0ddb; 0x248aa45f1fbe1843; 0x39e2bd399f6c95e3; 0x5ed1b132bbc1a5ee; 0x3c0fcc8341256fee; 0x7f86a87a81fc535; 0x127358293b2a883e; 0x679a450a01bb89c0; 0x6f6e29e11fbb413d; 0x61ba686ce4409eb4; 0x44be0a59a5deb4bc; 0x539f6275c72bba5d; 0x3e2f3c8043549191; 0x22c3ea3c1fd82873; 0x1bdb1f4b6afd7949; 0x75fe709dea2610d3; 0x2b408548e38fcf03; 0x56b2f4cb364eb5e; 0x195bbe873e446d10; 0x3fac5dee3bc956a3; 0x55d33506e2e864d9; 0x1dd25fe94cc6bfb5; 0xf26ff5f61b2d048; 0x5130fa4b9c1afea; 0x1fa9782eea39bedc; 0x9546eeecc32ab9d; 0x26f2d56bb0229979; 0x7ad4b30aa310371d; 0x6f558855ab7e1440; 0x497215cbc457f032; 0x35679423d503b47a; 0x75b1270c202be835; 0x42a074acb85b0c9e; 0x3237aaf47b9a1ac4; 0x4591d09b893da8eb; 0x121597d67389d068; 0x3e54b1811d0c3454; 0xf13706dc82ac1f1; 0x7b8611c0fe3528f; 0x2548729aaf6508e1; 0x107aaee95e33b0af; 0x699184c448a3931f; 0x2e5c93d0ec4d1e5a; 0x53781114796241d6; 0x68d80401ac034dd4; 0x147e0524eefafe93; 0x2948dd25a1647582; 0x7a7b628cadf99bb4; 0x70f89090866f4463; 0x18a7ff60a202e1fd; 0x6e2ab721ab39c3c6; 0x41d243ec742c466c; 0x583a9be528c9a10f; 0x5590803f22e76c74; 0xade4749d9e424be; 0xf775ab73c1780d6; 0x29dff9506334bb1b; 0x3a147ed98fedb73c; 0x5ef30fc5ec8f9d98; 0x74cd9bbf53eff50a; 0x78f9509f09517483; 0x5efcff124ec8c62c; 0x50ea6d95799430dd; 0x3f44201bab2b0500; 0x13b894aa46dbaac; 0x4bbad7d7cbbf6f8f; 0x59a3b8ab4b134e94; 0xf511da21dde500d; 0x73fc3fd3d3e3b922; 0xf953bcdea7eeadd; 0x73a148ccc791ab2a; 0x4213a54aeeb200dd; 0x71de848dcfc6be8d; 0x1d56e5930c6eb15e; 0x250178ac974011d6; 0x1f8c02faa2964a0d; 0x143dc2f90a9b9697; 0xcce384e67750b5d; 0x75ce8aad28580ba; 0x9640c576e3affc0; 0x74ec40069de8f127; 0x4ca10c4ed1045280; 0x127db17d90b9fee8; 0x2f96b39d9fd4f490; 0x38b7125fc5c427d1; 0x671613008a4d4d73; 0x2d23540465e86789; 0x7ea1d3c50e8780eb; 0x1591b951d4097dc6; 0x50c8081540faee84; 0x7d766ef39bacf13a; 0x5afc156c29a6a221; 0x2914e7144a3c8332; 0x7c478bc165225ec4; 0x67528a194b9922f4; 0x794e14aaa31a98bf; 0x5aa4052ebcf3b57b; 0x25be77745e574b5b; 0x5516c12a16687cd4; 0x52f7dbcb65f5a569; 0x30efaddea278cb8a; 0x55e46ee05b18b4c3; 0xa79fb8b12c44c68; 0x29ab737e27bfcfe2; 0x3817377c29ec8a71; 0x2148598b8c758782; 0x133cece68c6037a9; 0x7586db7788127fd4; 0x8b6b99356d31b73; 0x75addd00dec3f467; 0x6540b4d4fdfd736f; 0x50887d0d5ded416c; 0x5756169e0c48fb69; 0x4317ffc99491df59; 0x4bd4a823d3213a63; 0x59426a41378bd540; 0x6b0cd3fdef7bf5d0; 0xdcc7af2fe7c37e6; 0x5ea3f9d472187b18; 0x4a1cf3e4cd86b40e; 0x7d30560fe96a037];
   [0x158389dddadea778; 0x54a1d78eec34700a; 0x63660b23ec807773; 0x3b02c573fc1f04e5; 0x7ac4041736460487; 0x10812f77529a1aae; 0xb08514a4568a8e; 0x60095b8028dba3af; 0x2d4de4adb7f2a61c; 0x348745c10e310637; 0x3233c7525f11182f; 0x7a5bec22f24da9dd; 0x2cb874aedc7264ed; 0x7011bbadef7820d4; 0x527d7d5d107a75; 0x42f65285f27a09e2; 0x26dc643b333d5006; 0x248820bf2c1c1904; 0x15b184ecd5208e1b; 0x4d5872e5a565f594; 0x7876f2b475507cf0; 0x117c0d20c3e8872c; 0x4961995b7f62fea0; 0x210d5f3d92722159; 0x3bcd11d6592f0424; 0x6427f80a10c8cf65; 0x1d6a3e942b1dd2a1; 0x1134524699ecddbf; 0x732bb17ff5356850; 0x706457d2b85a92cb; 0x3d75ab6f666b6fb7; 0x6cb2321a3ae43968; 0x1c1d302cb4a6e0c6; 0x74540c6fd1498f27; 0x183548c9715b0091; 0x618bf956e069ac43; 0x3c4a94677689c8fd; 0x321f305a48182dec; 0xe4ab527f551a8d2; 0x2dc087b3325b3cf0; 0x67799a216016d9fa; 0x2c73902a8d1bcb93; 0x62e5dc6c92978864; 0x312ff843c111d64e; 0x219ecc040b65f7cf; 0x457e46b0833b75b4; 0x344f3379f8b03d65; 0x7a531c423cf91dbb; 0x1c011f8ad545be42; 0x1aed29a771f2022b; 0xbba4ce0b73550ee; 0x3f27d180fb2188d6; 0x645dbf1b0cb6b7f4; 0x1652e317fd188377; 0x382958887b39f198; 0x26a3d17b168e357b; 0x204fe7c0d7cc16bd; 0x64f366d7d929c8d8; 0x54fc40795f8b0d30; 0x6bdf5b9908b5646f; 0x729110e18f7b211f; 0xbffd6bdce55bb76; 0x49f55c0f21870a6c; 0x6fb679a59c0cc737; 0x50c0a78658ad53bc; 0x711b882a1e6c15e; 0x42298efd31b0620a; 0x348b7575ef56f6ca; 0x24fb79c928eb3db3; 0x7a5490d4c2ea18f; 0x76804710d201f586; 0x170daa79e4c07d60; 0xb7561320fea8769; 0x70aac4c4a122d139; 0x78bab76d8527be2c; 0x139bdace3a7f6782; 0x943352e048da54e; 0x87f72139343f052; 0x423eec2176e397fa; 0x63150d92997b12a4; 0x5e76b0788128acb8; 0x44a105c53e160a0e; 0x6c1284dee1682dda; 0xbabbdd231f462e; 0x3fa739223b5f4651; 0x411569ccf76adce9; 0x651131708e3b440f; 0x7cbe16fa001f42b7; 0x3c0ab7bcb7c38417; 0x49a501e6356c6555; 0x2cb83fbac0ab407e; 0x39895e5eb8f4a9b9; 0x1e263c5894a0d8ef; 0x4712137ff3c09881; 0x8d8078b95542d8a; 0x10bbca96bb8b243a; 0x5e812b95e86c8b5e; 0x2f646a32277f1cac; 0x5ddaf76fb8e83af1; 0x521630a497030ba4; 0x200ad5aa7da52cc1; 0x7e19608532deff89; 0x7875c364f407c6a3; 0x61751cf9b2541c51; 0x2fb275f652529540; 0x1dcd42436764343d; 0x5e0af5855e7e253e; 0x7938c50a27ce26ae; 0x10b47da21033ce3a; 0x40b363e65613ab92; 0x4069becd24505d1; 0xfcc988432c8106a; 0xe5c2925af896f4e; 0x78592763862075ad; 0x5c3dd9953513dcea; 0x2266e8764f2250ce; 0x9f53d3cdbcf0d42; 0x623b1f14f4400d40; 0x3cdfc04097d791e8; 0x3035e4cd1c362bf3; 0x686b205090eae2fb; 0x42dfce4dca28a910; 0x41fc5fadf7632cb3; 0x11769f5c524283a4; 0x272bb4d8d2e0d073; 0x2e143ca0cd474573; 0xe54db9498183273; 0x592a68db3ee6e7f3; 0x7494f25409768b7b; 0x3ec8e6a87056e8d3; 0x1e14a7ea1076621f; 0x669f1094e19e4b72; 0x5560e808fb20427; 0x388f3462d7d84cb2; 0x4cdc58b064c5ed50; 0x6c21ea6de07bdd48; 0x2f66af8e566be72c; 0x6cad004ca5c14534; 0x1d9807a6a157c443; 0x5949c51b4aa2efb; 0x7553210f8db9a725; 0x169d884419381465; 0xcc282c4777312bc; 0x6630c2692beeb726; 0xcb554baf955e199; 0x2cb09df36b6b5aec; 0x63a6c52ad1dfdc74; 0x1545cb7b0e548c66; 0x66253916eae4368d; 0x25bc98fb93061cf9; 0x2748c1c4aaf636c7; 0x156d25de0f4ea0d; 0x40a6139e6bb81414; 0x48303fdcbaeb23ad; 0x7cdf5910e80e878f; 0xda7840cc1e850e3; 0x1c13eedd511f4795; 0x5b85295894cb979f; 0xde742193e2bcf79; 0x56edc560cca9fdd7; 0x69f584870aa17176; 0x230daefcbd88ea67; 0x48c1c11c8453b0cf; 0x66e90be4439bcd1b; 0x61a3f6afad41fe7b; 0x49b1bd0494f8b701; 0x130c468cfc26be20; 0x1f65f19a1d88f88f; 0x322ed407f8d5d6d9; 0x5788f6d5416e8cdc; 0x5c9850b0b7c19244; 0x3412dcee5566ba22; 0x5de19bde61f25e27; 0x2f963ab9a2a36d7d; 0x5084f61cdce775db; 0x56c5fe5663468052; 0x680948e5ed087f77; 0x7c121027ef7c9dfc; 0x2adf122e06d67707; 0x15a11dbdcfab745; 0x1af3dd81126ade30; 0x6f9f194d627124b9; 0x2665767266dc720e; 0x377dbd1ff72f40e7; 0x741712ab05eeaed6; 0x6dd41591c5c2aa5b; 0x2ef2cf8f60040a53; 0x33b971bbcc22ed03; 0x5bf238db0762a38b; 0x24aa8dccee858d45; 0x339d459f9b1ea527; 0x7f61d2b304e7a5fa; 0x17b42bf68e6d661c; 0x14f392adc01a683d; 0x5b4b12fd449b1106; 0x2ace4c96942d5466; 0x6c240375cfaa7f28; 0x6459c66bfe4c69d5; 0xcb725e7e05b1b53; 0x2a68492478697620; 0x4c424ca5d383954b; 0x7dbe022b0fece1f5; 0x54f3de22b2eaa44f; 0x7e6918d89d4cda39; 0x5c4ade0f8d375eac; 0x973bc383a33b0de; 0x3215c7f8046a77f5; 0x671643e9497f4b49; 0x43fadb69087340be; 0x66a1edff11c654d5; 0x28216ec9777faf14; 0x405880c1b0a4fa; 0x19bc4538b641071a; 0x58b16edc2564b541; 0x15bd4393b524def1; 0x3c1fb7cee1e6d828; 0x281d8905e1f0973; 0x61134edcd36fe50e; 0x6ee36879da1af8f8; 0x38bd874302b97805; 0x1e4cc6b8df60c7fb; 0x206ac1dc3a528040; 0x1694d2786120dca8; 0x250fab96056e261; 0x26b5f4453575b739; 0x4568c446f70d360; 0x438fb80107d317d9; 0x4b8e42803bc25633; 0x40d43b6c332a4b50; 0x4244209b4e0a1015; 0x3bd530af4cf1a25d; 0x28fe1a5af58a8295; 0x6caa33c5bf5a46bb; 0x22bf5884dd4cb2a4; 0x1823a85090d64caa; 0x3ab7a10ee4161df2; 0x7765f8fe08e4011f; 0x7cf1fa78111252d6; 0x44efe636cb805883; 0xef6d1e59fe706ec; 0x50a28db85746ce10; 0x3cae979eedecb41a; 0x43365d92171cdea; 0x358cadba9f14b430; 0x22176e61f0e0f938; 0x4909890022292d94; 0x6a405ef0c860c1ca; 0x50ab3ba3206b10ac; 0x2ebb61f89fbe8fae; 0x707f2ba724118028; 0x34c6aed1a17c484c; 0x199fa4d3c9b72d42; 0x157515749e8bdb61; 0x1de3565ab53e872; 0x5da0c0df4ffaa876; 0x4f05c89c210678fb; 0x5ba0190e29f4c259; 0x33284175f0f004b5; 0x20d978146e3b3436; 0x2e9980a29ec73771; 0x55885f62a029049e; 0x116527710415e602; 0x149c0459547a8697; 0x3ae3e1005500f622; 0x23e4dad7d0289111; 0x68a4157a593c39b4; 0x11f9ddd66c6db6bc; 0x63a206ed16f1bfaf; 0x2d58e09ac0b85104; 0x241cb3c5ee17732c; 0xd5d4ccc6731f3c8; 0x18e63f6b6e32dbff; 0x4fb7f24c07aa76ba; 0x47e1d4c89f8628e7; 0x5382df6e6dc3f05c; 0x42dea994b613f33c; 0x27e01360f58be733; 0x28246825c59edcda; 0x278d46232bfebe05; 0x375a0538f46feb26; 0x3345a37aeda405fa; 0x3dc29fffb69cf77; 0x7973cf6b2e89face; 0x36705c621848d680; 0x3e9f3a8002d1ea2c; 0x1347d81fd3deb243; 0x7db1b2894f1144c8; 0x394de38ad918bcde; 0x3ee23e36818ad0c6; 0x449118cd7bfa0f40; 0x2e868167f3859b71; 0x5424888b2651a3b4; 0x436f56e17015b9e; 0x55af94b72361d416; 0x59bbb61c2979796d; 0x1d1541271a7cd965; 0xb9ee222a83b734a; 0x73d04fe0ab0dd4ef; 0x7d712e7fe6d48399; 0x2d31da611b8b5cb6; 0xa78e2d2de439e93; 0x2a37d4b65e108c0f; 0x3e5287fb9d0315f1; 0x603c13d8a7fce7b8; 0x5be8f5f24cc2bdfb; 0x67c8792a9ee72e5d; 0x7d4292dc13e37b50; 0x1bd7422c2f3f1519; 0x56de9b51ad1563f9; 0x1e0afd260718adea; 0x281d2c1c6c390958; 0x796847a87d85964e; 0x4ee23d993459afd9; 0x68076e7ce2dfd1c2; 0x5f2f5c1258166c64; 0x54691068011ef799; 0x6cc4bddd578d3e6];
   [0x2f4a774e80ad8235; 0x1844584d4952e3ab; 0x68439f71fcf1f301; 0x1ba0a04442bf81e1; 0x67b956d0ee917c5f; 0x47f76d753ca4bebc; 0x49e8c0db25f6f278; 0x4e0427356aa9e8e1; 0x3b4f5b1c52ff4ac8; 0x72c3dbe647107e4e; 0x31a360a16992e4b1; 0x425a0a8ba3c66521; 0x627a5c60966aa10a; 0x47c074d0abc9cf22; 0x7cc55b28bfe4ad31; 0x3b7942a56922dc2; 0x4e6bbe01e9f7524; 0x4733799aca01e2e1; 0x986ef90e37a92cc; 0x7d11750817120862; 0x5c3b19d4e4373da9; 0x25c1688c6f24bcb2; 0x568318ff4effb467; 0x5c28e22894b38d86; 0x22ad96d7c9b3d7b4; 0x58772c3a7109c619; 0x5e664b5f3436d02f; 0x300a70ecb2a7d3b; 0x34f6002748b0ffcc; 0x7002d0bdd8936803; 0x15d3605c8c4fc386; 0x6c4666b492e0b2d6; 0x61c018017cb2341a; 0x2ac168003ca98231; 0x46be57537d14a1ce; 0x2009ed63212bf368; 0x42c2b8342dfe4c; 0x54d75e8600f78a35; 0x5e2e550ba4f6fa57; 0x2e95a6ae9d8d1710; 0x311cd574d9abf898; 0x670807225906bc2c; 0x5223dc3a8e1821c3; 0x32e449a8016890b2; 0x5b3c4ebd646f468f; 0x131f99e733a2ae12; 0x6e15a26259d61249; 0x61462e0b342d5ac1; 0x541d2f76682b3251; 0x3477fef687a62ec8; 0x6e4bf5313b1c0944; 0xc162eaa53962705; 0x7da1189121441427; 0x9280c9c39aba70f; 0x6de686698f25ae12; 0x6b2fdd1459dd528b; 0x4f36a79f8f230609; 0x36caa8d50673cf2; 0x5b6cafd7d4e2775b; 0x7185e1648505266; 0x5bdc76f50071f9fa; 0x26aa2a211c3c5058; 0x96d8119eed3db0; 0xf33f5f8dd1f339c; 0x6f6ca9b20b8356e2; 0x5241c5e3c918788b; 0x194d0c674d710050; 0x3c8b591a6e75e4c2; 0x21377f6913e90c3d; 0xfd2de2fe036ffda; 0x33ad2c0ce6a26d91; 0x77ab91d1a3fc670f; 0x281a0e8844c95e8b; 0x7c7bb6aa1aa98041; 0x3539bf6cc77db0f9; 0x641241649be59857; 0x5e10b31faf7e8409; 0x237bf4c06616a1bf; 0x69126598a9e74612; 0x583e9ae4a5282b76; 0x43f00d797664b7c2; 0x6ee9e042e95d1c88; 0xfc63e8e6b6cbc9; 0x408f0cfc8f6357ed; 0xff989910e63cf53; 0x1e8b5a1ef76288c0; 0x2d26f9a44320e17a; 0x74a588d208b66bab; 0x4b35c682ca844d34; 0x536c35bcac60ec3f; 0x2385279483eb7086; 0x416078e67a0df4d0; 0x5db1b5869d933720; 0x6c00d90cd3c44c7; 0x394a6b88a096d1ab; 0x4f8248b8dbbe4e8e; 0x552256f1870efae; 0x195deb7b74124926; 0x49d389e0b2637a85; 0x3cadac53a19765a7; 0x1b501ff046930baf; 0x5124946d015ca8a7; 0x3541866da6f8c612; 0x25c14d1df427f444; 0x203a3179ad93a11f; 0x697b1c1ef12c09e1; 0x2d80582b30eb027d; 0x353da3187bef2650; 0x241c5194be7f9d3e; 0x58ca17d52d32cd0f; 0x29211ddb636ce83a; 0x411041176edfcbd2; 0x7f2df47814ebd954; 0x72865d0ac6c4ef4; 0x4cd37f9e3248c2fd; 0x51e1be7a71d78af1; 0x1c7155e5329ba40c; 0x7c1ff2b8260295ab; 0xdda79a50cfa7e55; 0x6f608b2a57b11170; 0x1bb32e4cb615badd; 0xaced59f69488b83; 0x6d43cda8ad13fdd4; 0x57944265d1467aba; 0x7514502441c1c273; 0x4e055217b8b19eb0; 0x4cd9a0f1bd074a46; 0x5ce4ff3e8d7efe0c; 0x345e8b93b7decbd1; 0x2bb25a2138c1b894; 0x4a27133317214ec3; 0x55633316b9bf4c58; 0x7956d1e96a7c18e0; 0x1e6f86656557d0d2; 0x4a39a83c08697a30; 0x7d4269af8c14b7ad; 0x5b5deba2b9023262; 0x6fb57d5ac48b1bd9; 0x33f24669990435b0; 0x7c2ce645d3d80802; 0x67f3f61581a953f5; 0x3b391c904b6b4664; 0x16880f9316120ea4; 0x4bef36a1e4f703f1; 0x7f4531af4e108314; 0x12a8f9a995a559fd; 0x2dfd15c0d404d175; 0x58ee8d49b421cea; 0x6361501b57b4d7ee; 0x26dab4a90536bbff; 0x575806289d63908d; 0x3ff5e08b2b52a387; 0x21dfd5d5a992c27a; 0x2aa6b8e04f864659; 0x21fb6d229708409a; 0x5084e3343b8bd935; 0x10240318de66f738; 0x75b68c8f6f5d4899; 0x42d87d7525148e0f; 0x45c43ecc78db591b; 0x664469288d8ae67f; 0x337df8fe4e8f8478; 0x53fbffdb03521ede; 0x1cfc6f1616b22979; 0x515b6befb42cdd58; 0x7b35a9a448c575d2; 0x37f6989f854c4846; 0x8acbf95e154c533; 0x5a59e53df8cd9fba; 0x456d68c8ee002614; 0x3fdf0cece1bec395; 0x6315a9b972494f2d; 0x7f2c67f2a24a5a53; 0x7c257471f5e735b5; 0x570379261713a3a5; 0x197ed825df3e2742; 0x5a45a2c239eee947; 0x2b66efa09d78dd9; 0x6c80c37248cf0d1f; 0x4e76d65f8853b39a; 0x4b271a3fa75a76a4; 0x7b24979c21af91c3; 0x7bab658f82612e78; 0x53f537f04e18e533; 0x3ca8a2fb870220db; 0x89bf4d30900af50; 0x743ae375f6695ec7; 0x5f1fc01d9f3203c9; 0x68f402d311297753; 0x384425c8300be84d; 0x4a4815773279c093; 0x2fe7fd732c564a3c; 0x6a28734d98449a3c; 0xed671cdc5ca5780; 0x6cbb976f8cd8ae81; 0x6b99c64cf7284c21; 0x2f018030a98fd38c; 0x7c067a012daab840; 0x717e677b9bb166a9; 0x1b2b758683dd1e4f; 0x3f11cd92420faaf9; 0x7b1209d5f2e94ab2; 0x164aa540ceef9562; 0x713722398a3de657; 0x4ecbd40779231f1a; 0x6573a70c9a456996; 0x1f5b7437b6787bd0; 0x4a9b250877dec934; 0x48f79ed53662351; 0x6b516dfb060b0a07; 0x54787e0bd788bd89; 0x5927bcee1449f91a; 0x30979c18ca4afe6a; 0x3ed132143c2de942; 0x5e36e460552f388; 0x719bdbe96cbf8872; 0x1466995adf428641; 0x6dad539387614f07; 0x6d4167b991fec748; 0x5af5d9765cb277ae; 0x1c83f6fbc450ca3e; 0x40890a3c0d7d50ee; 0x395d32d9eb3ff8; 0x5c96e4cb3fe47bb6; 0x1e64d8ec1a4d68e6; 0x157b13dbd2668c6a; 0x4b503936b1d239cb; 0x50ca77dba980c4fe; 0x752139586d6bdc57; 0xdbb23bd29538439; 0x78e08d5cac0b486f; 0x3fdb0fcee92ccf0f; 0x4ce1b2ebc203b672; 0x22c9f36d8162f8b3; 0x23a585b0d6af4b54; 0x61ec5e32ce6a683f; 0x57e3d81b40c8028c; 0x4d4d78423fb29984; 0x379b004c0e2e2a5e; 0x49a485b0119b09c7; 0x69cf2db9828e723a; 0x7142d99cea41156; 0x5eb0f86332f36bb5; 0x70fa869b5347cbf9; 0x6b75af2ae3f2b697; 0x6f8aac860a5aa275; 0x5c33ec374764a5ff; 0x1eb3804bfb1b652e; 0x637fe03a8e3de164; 0x6d53d4cde529ad29; 0x359d433622843b23; 0x70643e610fa4d1c2; 0xf99b3bb45ac80d4; 0x27e39fb8e6012215; 0x258132dfcf96087c; 0x503c836b0e5d4f6a; 0xfd20374f3ca3d79; 0x4bd12098b5f7051f; 0x216be5c18281c943; 0x12e833685941fc0e; 0xa3f7bf460550668; 0x3d1d07cceb0b70bd; 0xa66114683a5adda; 0x2f9e16830f09062d; 0x11092e5aeb10c3fe; 0x33231196ef96cdb9; 0x7b527fc6b53bbf6f; 0x71bd830ddb4978ca; 0x67385f24a52d919a; 0x62df2d5efda4abdf; 0x7154d966b0051cfe; 0x4cfe4d1767556de; 0x2c71c64a160c67aa; 0x1038ba458e0a8441; 0x3367d69c5bf21032; 0x282dd8402baf0c95; 0x259f235bf6a1827a; 0x60cce76921d7c9d8; 0x60b49fa69cb916c5; 0x1554ce25260e07a9; 0x4d170c7b18356357; 0x50e54cd2a4b89508; 0x74cf78bfcf3e4709; 0x94b555162642851; 0x4c00de8a1e04ee1f; 0x4fc3269b7113ad85; 0x379809e6126e14e2; 0x326163cdac01e59f; 0x48afe96a8469da51; 0x139a7de94f8c3a39; 0x1a75b2bd0961233c; 0x3bc03ee2d563949e; 0x2e9aeb239f428298; 0x68b1d21e36dc2546; 0xfb6ef1facfcc012; 0x6df5c7fe2e6b5523; 0x654c1648873fb477; 0x5822377b8154293; 0x3399b30b5312545a; 0x7f51c5df66f59d7c; 0x6a5934b7b6717eee; 0x45a55e782e29626; 0x521fbf35e9b4b1fb; 0x4249578c168e8095; 0x264886c726c421fb; 0x1e789bed0b4f6cf4; 0x73cc08d33f52072; 0x19039d7f5e84496c; 0x2e14657fda4624fc; 0x4ecb6e60c4c04c3f; 0x2a44bc36d8e2493c; 0x7b898143d1515975; 0x6f3e76702ed5a310; 0x3333db91f18c7966; 0x18176289b8ec8959; 0x2debf995757e1ad9; 0x22859ba073d1a8a];
   [0x27e185c61b788d5e; 0x1187cd0290e3c98; 0xe34160f9f88d66b; 0x6f6d78dc21cc81a4; 0x42800a03e6164f2e; 0x7b3e6eb5f3eec4da; 0x11ba244707b8aa01; 0x6b31af20d311118e; 0x1e52c17b9310101c; 0x45afcb99891f3225; 0x45d061e0a74f5473; 0x3968a682e1f33ef0; 0x3321fc40728f8680; 0x4b5701a1838dbc85; 0x3ff3c4887e6c0b02; 0x55f1c091ef8193d1; 0x6137f65a99c37b5; 0x48cf58d2a91ec7f4; 0x6a17c2f62b50f50f; 0x93bb91445e58636; 0x7c26422bdb7e2d3a; 0x4c811df4a3190806; 0x4dfb8f47788d39f4; 0x36e29c95854776f0; 0x6984cea999b573f4; 0x798dd8f6a2127ceb; 0x690d0be8372ac322; 0x1c097982b3c20516; 0x4d322af9b9b87fde; 0x3077c392dfdf477b; 0xe0d0496f5d65759; 0x416529296e96ef72; 0x45088407ee05096c; 0xea2dc93d5a3ab64; 0x19d7c826c2b63682; 0x5e2e809619189a30; 0x485b433254b88e6a; 0x79dc57dc14055a76; 0x471944ccf4ee882e; 0x48ba06e2a24f3835; 0x623123a1244f9b3c; 0xbd451f1e3a97948; 0x3b01d4afd106cf4c; 0x3d564bf37123b826; 0x795f5cc132d90e56; 0x67736b9a0aeb8d29; 0x56068e1f8f2d0b2c; 0x60af93309791b661; 0x1ff643e5b12fb856; 0x6e6f7d60b189d5c8; 0x2d40fa8f4d41b82c; 0x1c736fc3781fad58; 0x1a022640152c6490; 0x3e13688cfe01d645; 0x4b2cb2116a98898c; 0x7b4feb62feaa9155; 0x2993cf266eb5a4aa; 0xdbd4c42e85e7557; 0x7a695121e9a30273; 0x59d436d3ad88a786; 0x60864662fd447687; 0x5e3e2a1cc9754cce; 0x1801b0f1361876cb; 0xd51f1d89aa7b570; 0x4a8b4e216f204a46; 0x337b5347c96a2761; 0x3dd4fc7a59623dbd; 0x28649aa9495cd4ec; 0xbd01e5b15ce1aa; 0xd819066adab5a7d; 0x34000b39cf633499; 0x50d20adfc48ba452; 0x69bcc1d385a3224f; 0x60fc53414589b0c8; 0x65d01ec18bef9209; 0x1cd174815ec7a163; 0x2a018e005b1eac54; 0x753b299ede39fb09; 0x7e7bc83edc8ac308; 0x4c8db8ac99744bf4; 0x8ad4709bb7664a8; 0x2222188210a8eb8e; 0x2b501a44eeb1fc1b; 0x771b5659f31972fd; 0x140dd74c6a12ad77; 0x20d7031432e66f36; 0x3e3d0056c9666ee8; 0x5f87fbdd53a51606; 0x7a18159c5726565d; 0x51b99f2659375271; 0x3daecddde072df7a; 0x7255c1b54ff5f26; 0x1dcd990ae3a4892c; 0x5f715d5316714f8a; 0x6e9a31f8c5d0ade9; 0x31971e2450a6497e; 0x2ac12d86cb4fdabb; 0x50da4965139b5f3f; 0xfbc6e4867ce3e7c; 0x3cf8971e45e7e59a; 0x49df8066c0417fca; 0x432c6c69f1aec912; 0x2160bfa64980bdba; 0x4683d1f27552209f; 0x68a6d89ade370064; 0xdab1449cb7861de; 0x5302c8d49c6def45; 0x2be12952b79f900c; 0x1d033ee17b2e8924; 0x4871e63a9db64bdf; 0x38d6f1a47409c2ae; 0x1df8ceab2e12e96f; 0x2bfaf6def386ab81; 0x32a0adf6f8ce9971; 0x329bd9ec5272d0bc; 0x6c1ea09e74e129fb; 0x7c69008fee2cd9b2; 0x79281fefbaf74532; 0x61c5311285047605; 0x3dbce518a93b4cc4; 0x3d1f85460ef9b59a; 0x378f878ce2915a78; 0x5679df405e5f8f2c; 0x4d0f93da82c4b232; 0x60131200ae719a49; 0x78716bcf4b4b94dd; 0x577710477734e63b; 0x2bff046681fdd0c4; 0x52ddffeede20efa5; 0x4b8e8b86d1a3eca; 0x5ce6a49c36e0ba88; 0x148c508e29b5a04d; 0x3a63c0bfcc90dfc3; 0x25c428c37cde57f9; 0x57c240bc8b2acdd6; 0x498dc9e54ea1283f; 0x7f6311371b345519; 0x537a637eb48ba7c5; 0x35bede9edc721177; 0xb66feea0ccb3880; 0x6535bdc76ffd7873; 0x5913613ffdcd0e44; 0x5daa1f90b4ffee28; 0x6fd98a9e1d3c0c88; 0x1ff1d46c0e7de527; 0xf4437de989870ce; 0xe8e302f2c72508f; 0x1d5efe87f57e4c2d; 0xaddde18e4b3eda7; 0x2f761e1e960ff109; 0x24b422fdb06ce133; 0x2f11ccdf2bc382cb; 0x3c66da070a16ebdf; 0x26ad331b7bf18f3d; 0x357529f84f15ac76; 0x5774d60486494276; 0x578eaf568b45f167; 0x17c6d468fefd2b2d; 0x1cbbe7fdec653d9c; 0x26e283f3766e4de7; 0x50b50fe396030dde; 0x4d87cfdbbc3cbba3; 0x58e2777746497256; 0x75973ff28b4bc141; 0x64514cba70f60001; 0x19df0664a3fcb30b; 0x3584ceaf12546d32; 0x4fb8812a90f575c7; 0x7746f6b80ef9c65f; 0x57a02a2e7c0d06cb; 0x214fc2e2700db144; 0x5df98776f654538d; 0x709fb07fb5c7370e; 0x2d142ec3dc857b3d; 0x73c76ef6643c1487; 0x45f6b72f1e0bf69a; 0x4b63552ab95e3c4e; 0x43ede1c8c05f7e96; 0x685406eddeb75fb8; 0x6825126662b31d32; 0x7bb3a8f1541c4d1c; 0x67b4e07d838ef7e1; 0x65129dc30c23138a; 0x7e3f42a648febae3; 0x156f557cfda3533a; 0x5a22270cc0713565; 0x54b046028782386; 0x32276544884e9ee3; 0x5fdde73f1d95e196; 0x165f9a879e87e63; 0x2eacdd83449c8807; 0x37962d1e10de5980; 0x6ed8d12d3f364ad2; 0x623acf45081b8676; 0x5e04543f89918bc6; 0x4a08403a32bed8a8; 0x607241045e7505b1; 0x5f1169d288a3813f; 0x1dbb594cfed49ace; 0x1811f28cb179928e; 0x5e2f57ee8d24af35; 0x7c02a5e9ddebcfc8; 0x77939d5bc10da62a; 0x659a1d9c830c163; 0x1b6e3e5229a5ecd2; 0x208e9d65af84ec7; 0x42dccdc88926439; 0x163489a8caebed1c; 0x3a8063a32aafb59c; 0x23d200a9c0f3b505; 0x38a08d209ba00749; 0x518faf1cee3a8b8e; 0x15f830ca8c8e7522; 0x5d4ffa84b1845b9f; 0x76d7669f3fd2230; 0x3ca5db8eb5f3703c; 0x495889519c929ab5; 0x5b5daab83f4ad608; 0x3ac05963f02ff14; 0x7b3c9424aea70437; 0x2c7fa7ea5821ec31; 0x2ff2830f362c64b5; 0x9d1ed1f3804479f; 0x132a7dad2f26da28; 0x5daee7b80dfc2bc0; 0x6d4c80d28e006e8f; 0x31524f1fcc7a127; 0x67926549293b35c1; 0x64eba551cef868ba; 0x5e2665187a4ac070; 0x146fb38401e11b47; 0x30ac9cc253f47eaf; 0x65ec72f6a5c09ea1; 0x25a10647b50f907b; 0x7e5eaf1311a19d5d; 0x5e0931a2e26f0ebb; 0x602cceb318d68877; 0x6a94dceb80f1e849; 0x32135f25adc0046; 0x603fc32a9fd66c9f; 0x79925ed5c7f3fd95; 0x337879f21459668e; 0x6d92ead26db035e4; 0x52d8da138080bc01; 0x58f976643a5e9478; 0x6237b26f850074c4; 0x409a495e7739df97; 0x77683d0868034fed; 0x38f9aaec2935950c; 0x474045f9cb30ef05; 0x451b2bac0b6e269f; 0x6e7071a8381010f9; 0x145484e1064ad1ea; 0x1c1cc87da3061cc1; 0x7c86b28b40cfe048; 0x306eec01e4a8333; 0x618130ba70109bf; 0x38093e8af5ba7a27; 0x19ca257e84b5e451; 0x381736020079549d; 0x442e7b94d59c574c; 0x67df103b68ff99f0; 0xaee6669f4243599; 0x327255fdca631e87; 0x72e6b854e9ff8653; 0x6430d65bdab78303; 0x6981e53c2ecc13fb; 0xdb263fd1f47f31c; 0x2abee712709adb8c; 0x4c2f96d40726dffd; 0x6fab17d1fbece6f6; 0x97349523004782; 0x424255bab10af22a; 0x35c96c59f76d5c0d; 0x1f2c6c164cc7ac5; 0x7bc5024f6256c9c9; 0xa4caa728292fc67; 0x19cfa85f0e37dd6; 0x56c3710b2a735784; 0x4815feec4805469c; 0x485746b91eacdd2b; 0x119f738a6630fc9b; 0x3a5c8fab5f0c79d3; 0x332e1eda75a980d3; 0x30c03090553e553a; 0x57102a22594434b2; 0x307da7261155dbcc; 0x6216efed679d93f6; 0x30a0011138f84bd1; 0x166c316af9470014; 0x24a151dd702fee0a; 0x4d88a74d454af34f; 0x241d7e1cd39db12c; 0x2a72caad85c8626; 0x335e9fb4caa00d7d; 0x74b2875420bc7224; 0x724457873cfe0684; 0x23ff5d5210ab71b; 0x7a64b704ed36ecf2; 0x63bfe76056133168; 0x87c1643245009d9; 0x60d3df51c8797549; 0x1e6e2b8fa36b60d3; 0x1c0b015d8ded1015; 0x91f4fcb5007e5c7; 0x6c2388d05d4dc4dd; 0x66a64b8d8dca7bc8; 0x3f34e2ba9a4eab68; 0x411eba3bfa91ff1d; 0x5ed8fd8aa4ac3fb1; 0x8454f7b8a0942ce; 0x119d63de40328474; 0x3d026098c72d3c92; 0x6efd68a4e017e1a1; 0x56371f1cc123988d; 0x7f859949ca47a832; 0x23944fa36fd7957];
   [0x33487adfb5e1f3a8; 0xf9340ccc4030b13; 0x3325c96e78f06a12; 0x4ea77c0d6080d684; 0x17c892a62749224; 0x2ad0ebc536db50bf; 0x2433d9ad5cec0c0a; 0x587095183d28f017; 0xd149d107a1695d1; 0x2c28d8c325e44027; 0x5a70a5ee29855f73; 0x1e9dc4a07cb7934f; 0x6c1b27d621e37b2d; 0x32cc0eed4cf4329d; 0x6a61d776fad95c7a; 0x55e2f9156fa7c0d4; 0x1bda787a154a702e; 0xb46ac6d67d1c935; 0x114dc18f37ed80f7; 0x27410db873b57d29; 0x1193de2adfcd3a5f; 0x302278ee40cb6b87; 0x141e9f3922b50ad5; 0x42060c5239f05136; 0x4e89f8e1bd6618ba; 0x1da603c0183f35d2; 0x199ebedbdd1efbef; 0x55dce65c39d0e39a; 0x2758e611e872c3e; 0x2b3d4a08e04f5c8b; 0x2bda4f62b4a9bba8; 0x2c513806f8707bf4; 0x58d49390674927a6; 0x70e97571f67fdeca; 0x29e42be96c4fdfe1; 0x270e5daa1240d5b9; 0xd7abd824da212bc; 0x693eb8f259b8ece1; 0x4fbe2ebf094c742f; 0x779fa9a9e581e03f; 0xb601c8f85dad2b6; 0x5f05cab91c4497ad; 0x45bee623d01a4d84; 0x1b3337913192ac61; 0x2859170a74b08fa5; 0x59e1eca1efd6d72f; 0x1067548e1424a20f; 0x591116b42d018691; 0x2e85e537cca11294; 0x7430d6548b68da01; 0x33387b125ee4efff; 0x3710e0cbec2df32d; 0x2fcf0231628a19bf; 0x7db1fb1debddbd7b; 0x75ebbc58a65b939; 0x4ff01483b98da5ca; 0x3cadea38f008799e; 0x4b86d076a23253e1; 0xdebc44d183ec8bb; 0x3ffac65db0f5863a; 0x7bdf77fe1a99b6e; 0x5c4b4d1b239120cc; 0x16ebb880379685a4; 0x44233dcf74a16f; 0x4ad3df6865152bce; 0x32d1fa231e498ae2; 0x48d2e089afa04490; 0x2bf1b15349e8c9f5; 0x5833a580959710f4; 0x7045462dc4d942d9; 0x2d19675dddb464a8; 0x3ed20d678074af66; 0x732a8a626f34e3f; 0x6aeb85887781bfdd; 0x3b8e6cfa1423fe56; 0x62dfb8942ac2c89d; 0x2a3fb751bb602648; 0x4b0afdf90704c024; 0x375f7808befd1ddb; 0x6af30d591ad98758; 0x227d639b334f6c00; 0xe0db27dfa081701; 0xe7b89698db1dc4a; 0x6446a0c47660d8bb; 0x753ff22bf0fd5eac; 0x6d750b1cefd92eb6; 0x28f7e201f9971cb2; 0x56e0cf0b0fa06a1c; 0x203d7d69038bc89; 0x66677d7aaded4041; 0x589f12fdf9ef427; 0x5d30a8824c2f224a; 0x255dd8c5e62848d7; 0x473ade4cee899e94; 0x3e29da343c54b6e2; 0x1209bab846a472dc; 0x77901f9f5c9ce6a2; 0x23063e187c615f04; 0x66c417ce7d247e1f; 0x5d6d4daad6fe2f03; 0xcb673f08ed73ab4; 0x3e73faaa7dac96d7; 0x5736092afeed656b; 0x7b230dc56b3ab520; 0x7d0f663f47ef2bbd; 0x712769e7d8d08b79; 0x41ed2bbfe9313f57; 0x7568ef844a468528; 0x121b6e3d3202b1bd; 0x15df153c411da83; 0x707f63e47adb41c; 0x7ccb48876f1eafd4; 0x3dc4fe516b56b5b7; 0x2b80c514629f5b47; 0x4c851bfc2cc195f7; 0x32e5abcacb8be94d; 0x7b003e6565025c78; 0x4b9403a09732c0f9; 0x3008c8588f302ac5; 0x389212454eb8ed29; 0x2c5adfe766d87c6a; 0x379f70318e58d1e; 0x66d2fbdc5b49a28c; 0x36b4226ef1007334; 0x691d718cd841a4b3; 0x54ca24b6be9508dc; 0x746f1bd80cd3931; 0x478284b5ef5ff0e1; 0x24c3aa8ec98cb743; 0x34a10efcc48f1364; 0x1ad03690e9aca6dd; 0x26421a071390b5; 0x380d5bbc885bce3a; 0x7603d4bd58ed35ff; 0x4804ae27dd2294ee; 0x6694f20fcc2c8bb9; 0x37f7f58e598e50e8; 0x1fa6babb720bad3c; 0x703bf14fe364ae00; 0x59df01ef5c3582be; 0x15dc01d33600b1a7; 0x42f430d262aa39b6; 0x254bfe097b02dc88; 0x7018e8330b4f2cfb; 0x698ec38b11bfa6f1; 0x6c01c341fce550e7; 0x11a745803255caed; 0x613c5c2aa146d22c; 0x36effc7efc89fdc7; 0x4d929f7d47250f41; 0x60b21519cfc3d144; 0x4ea76baf9e75eaf8; 0x6671260ec0c05250; 0x7632bd6e1401e4ad; 0x1d30d57cacdd70ca; 0x2936db2f4559ba2a; 0x634a4c4ec4045760; 0x6e14c12fa6a316fd; 0x335606e6af6cd8c8; 0x3725b2a510c0315a; 0x37fe4515193d5f3d; 0x5e8d966d9d241d1b; 0x7d090abd702a01c9; 0x76de4797b8686d5c; 0x6a0680f2987f69b9; 0x2bc86a324600f934; 0xcb3da764fe4f6e8; 0x57e214cc5dce3e1; 0x15dadba5d717da7d; 0x680d2453c4364ee9; 0x1ac2857ea097b0a0; 0x743a17d88ed143de; 0x19368b92ae571298; 0x13bf57244bcafd82; 0x26cd12947f72cdfe; 0x9a3d9ccefd67e8; 0x4ad986945a965993; 0x4fd872ba99d1d6f9; 0x28faaa8294bb7b7; 0x26e0b34455e5314f; 0x62f394b2d4c4f879; 0x513914dbe09c5aed; 0x62e99ece446bdef; 0x32ab50bf5086040b; 0x1624222c361828f9; 0x532f25f1b94f0d4c; 0x3d45a884cca69f23; 0x2995c7cf133ae1e9; 0x4688eab27b7f063; 0x40956a68a6374ce4; 0xc1a902a59f3065a; 0x9121c76d2b5c596; 0x2ea1d461d3e63046; 0x49cc7218f87d9c3e; 0x3364515fb9dd60cd; 0x2db2aaf101c3fb6f; 0x1eeaa4a41323846f; 0x55c1279bd9fad0b; 0x163f765e314c10f0; 0x2c97310eb77e6dc8; 0x1df8dc1c79bb5bc2; 0x6caee3e642ec5965; 0x60b8eff785083c3b; 0x5d2a95182186e45a; 0x1a2ee55d0e23e5f3; 0x2afd4f675f127220; 0x6c9dc258c3e84f55; 0x5716d29b9c9f9491; 0x2ae136edb85a579c; 0x2373c9ea322f4b57; 0x52169b74baf8e9be; 0x6891f5b359594722; 0x3ea5ed61ba69ac4; 0xb0245e9ae9766d1; 0x2d1a570b6df9de7e; 0x6d15d910bc463a81; 0x1654160f29f52bd; 0x1a81d33b2a6f940e; 0x25af405329d8958d; 0x5e85ce5eff55b5bc; 0x6888672f79b5fb8c; 0x2d4e90de9ae4243e; 0x2a91824fad3921cc; 0x3c1a771c51b2d933; 0x5e1d69ed081ff04e; 0x186bef1b61dd92c9; 0x623be5417af54bfc; 0x1ce979a91d3fef05; 0xb7dac0d0eee27fc; 0x6c00974e667d36b0; 0x2a2cc4455fb37239; 0x61b69ecf7ae0a02c; 0x4659a5721564244b; 0x78eb2acedafd11a5; 0x7acd32a6065f726c; 0x2c842d9f24be944b; 0x45f3c8fbe8271cc3; 0x45dc5f51bf04ccff; 0x22c2b13c2830fef6; 0x6225539a4cda18c5; 0x78120fe8ae2e8333; 0x4482b13b8d493f9; 0x4bfe21e038e0c107; 0x10344d4180c900f1; 0x3265c8630ec842f9; 0x1cfec768f8add302; 0x5981bb8752808cec; 0x7337f93e13ccadc7; 0xaae62d858446843; 0x18f479ea23ea7342; 0x7a8e8da4aeac5d5a; 0x3e5e44fbe6f9469a; 0x4055a2efe383c72d; 0x55d564f5c85173cb; 0x24e5bb890baa254b; 0x2f6647a45f934eb6; 0x3275176ea86f8b9a; 0x4b47e2b6d5a2432c; 0x769d37d3cc99006a; 0x44227cdf8120211f; 0x57800bc5b12ce98e; 0x3852eb1c8d123c34; 0x62e58f9cf15b6ee3; 0x27d7702a85119e17; 0x6200a23d6933f3ed; 0x29215ef68ea3e16b; 0x16e5bd40c73665aa; 0x422506edb4ee1ed4; 0x79fb1100fbe80106; 0x6dba4d7ec6b3f1ac; 0x8d6d8eb4fd8bdab; 0x17a449ecf864c11d; 0x30af2cae7c7f0eb6; 0xb86673744793f3a; 0x27418096a4467c6e; 0xc3a7922cfa7aafe; 0x32e768b438fa16f0; 0x576c364071078e1f; 0x5867f02ba8da4eea; 0xd877927a5cfb5fc; 0x1e360839bd8f40b3; 0x12924ae7ee135870; 0x7ff928b3ea806aac; 0x5799a2a23f90f3de; 0x1bfd2d6315c42159; 0x69d40b57f2823a71; 0x7824244f7c99fa67; 0x428cc4be1baf9460; 0x4491ba1a8cbc84ed; 0x77f155a598d6177b; 0x78a879262977ca96; 0xf6be60a647671cc; 0x64cfe8d5dbbf9dd3; 0x5cf0089053cdac74; 0x743580f90644bdf3; 0x4cb19f52819694b; 0x738dba9372771243; 0x7c288b8206f35848; 0x4cc393af3f39fa59; 0x34e97c4a2ea62aef; 0x65e22dfb78f734; 0x669ca1d97f276d20; 0x3b2dcd7126efeaec; 0x6436e057432fb703; 0x7d73b551ffd5900b; 0x67b474eebcd7c1be; 0x3d436097252a5f19; 0x268bcb3e2b021a3a; 0x4efc969340167b19; 0xc6115de4f54adbf; 0x4e95d49512e64cbc; 0x601c2401bdc59caf; 0x164ad913342ac6a2; 0x2d1a5aeb2838deb2; 0x23ed29d89105c65e; 0x4931f949a74e6e28; 0xeec24fe06feb6f2];
   [0x26d821c17a3ff496; 0x903abae3c2834b6; 0x7029870631821fca; 0x57235c9d291c08e6; 0x454735a22123a1c7; 0x19950cbfd24b6736; 0x3c0fce49933d97f; 0x37c8d3c0fe5cbad6; 0x1d23d84c81015f22; 0x4ee7b3bfd9c02090; 0x2841b9682dac8c42; 0x6b3d0b9f6c3913bd; 0x721ed49bcd188cd8; 0x1802eac35e12be82; 0x4ffe90fba53d9dc6; 0x5d1e1c3bd4c4ef05; 0x2a524232e65d941b; 0x6c74e5c2b5357108; 0x2862aa6aa5789ef0; 0x5ac84042772f49b1; 0x3c6b10701a15a676; 0x7785ea1d5146d29b; 0xe56df4b6c65dbc8; 0x657a7d17ac8d302; 0x504a16e72c27ffe6; 0x7d8694c4227494aa; 0x499b020674afdd3d; 0x62b7d52678012145; 0x44b88821d7f334f0; 0x518251fa3c56c3b; 0x2d1bf891d7677910; 0x26c935077854ac49; 0x356b66c878946a9; 0x72a7a0db6e5d43a0; 0x56c2249a6546cd06; 0x631d7ed314287414; 0x7404e84df3fc17bb; 0x5c13c5c563dd4803; 0x5ac15a80ccd80dac; 0x9895c5ca13a9415; 0x758047a730ce678f; 0x705d17ec69307c10; 0x4f973dddd101f3f6; 0x595f46f33d945cdf; 0x13ce35c3834113d1; 0x1be4cbacf840201; 0xe42d66b6bd3c0af; 0x76d8152bbc7af048; 0x20f7fe24090d4a2a; 0x22a9e1b564af4de6; 0x51ff9802b8f9d357; 0x5b52a6bfe748baf5; 0x1a5c8f3b3a8f2a39; 0x5f1373a140936e26; 0x34cf7ac8d1fbbbbd; 0x1dca9e52bfa02a16; 0x44a0cd1c44d67b83; 0x38e93dd5973d4141; 0x3116d06e89d36a5f; 0x7019b59f91151a9f; 0x7acba6b1739d7403; 0x6658da0a0486c417; 0x48cf189c7f6ed507; 0x42f4581bcdf93d1; 0x4901e1882cbb0222; 0x1f6dcb158e69037; 0x1a3c9bfddcf1f4b2; 0x6cd1dc5338ad506; 0xac0633794d67f14; 0x1aff25d327654556; 0x5c3ee6dd1121c12a; 0x1bf08a2b67990357; 0x7ecaa3c08db2705b; 0x4a04df125be299f2; 0x3d12b8ac8cf23e4; 0x26d8f1001abc2ea8; 0xf0cf9522f065a56; 0x26ced045a8aa4be5; 0x5ccab4468a9de549; 0x2c932476ea1c9f11; 0x5f6e1dad978b8e85; 0x6b9d5575c034649e; 0x334c935fd92e4758; 0x48728b939607f4d7; 0x432a43757e6c551c; 0x35f2934c0dcc05b; 0x2e7e8af01827c9b8; 0x4c7fafd385f62020; 0x215047de7dd7ae4c; 0x11c1ad44e6f0c7af; 0x7142336db971497; 0x41eabfa2d4c4181e; 0x527078c5460b0605; 0x1779627780270444; 0x5427d50f9c6e816a; 0x68900b790ed0be72; 0x4a7348222ee68779; 0xb65618b0f3ed92; 0x14dcfe959b6d5d3f; 0x142a05af6b0f35c4; 0x5956a0b29c80dbe0; 0x28e8db11af7e0a71; 0x4e3b8d8fefb6428; 0x3d6065c81a9ea678; 0x112b0cbe65f2f5f0; 0x1da9b40b17b58d4; 0xefeb1d9160e165c; 0x59c0bffb9f9c6da2; 0x6e56556495b36342; 0x19cf043eb94d5f29; 0x1be31aa053f7233c; 0x44d964a22e4bb2f5; 0x7b0f2e3c37ec1b99; 0x2a7c9b94dcb37eec; 0x18b52d1e3d7b2dc2; 0x6f4966e97740917; 0x7c2d8ff1223f29fb; 0x59b6f85a8c1c6df6; 0xb43b306e23ffd17; 0x27f6dd550704a8ae; 0x3d2d9c3a8e87cacd; 0x327b580f4b82e9d9; 0x235c48bdc7d40289; 0x3cda49a134a5826a; 0xb89b73f1c29960b; 0x2ae532209d859c10; 0x66667b53dba26dd6; 0x7f58cd33b490f2e3; 0x45b38b5d61265be7; 0x1d1872f3cd29f141; 0x12f664c8c171f5d0; 0xf09ff6304785438; 0x466f66e9c366e85a; 0x50a22eea1817e9b0; 0x273820ce1e30f7b6; 0x4d168e68d49c8aef; 0x325790717de8d01f; 0x713360dcb4993ca0; 0x2b3a9354a62fc69b; 0x51d797d7d8ff7aca; 0x57a395834cfa0f1; 0x67311ab6c4bdc692; 0x3019de5d48173757; 0x191a3779e3f4e0c0; 0x26cd60078c8a13f4; 0x594c07150e2733d8; 0x514bba553e539412; 0x3842f0ec8093043e; 0x2a89c7c6aee5d3d5; 0x588d122ba96cd7e0; 0x72dacac99922baff; 0x76ed73e698cc8bb0; 0x7a393372d54a6d98; 0x4806782577211d1; 0x149cbc0bc3a78125; 0x696857c1554c325c; 0x5b707868430c0cab; 0xe8d4d0f5a4d6244; 0x214b866834c9547d; 0x13d3c4b90ab0f8e5; 0x47e45c21624446e3; 0x3709ff3dd0336bad; 0x5e78193b69f0aded; 0x6658561aa438853b; 0x85e88d6e9606c55; 0x7c4ad113acb3ea99; 0x46e0eb781113cf0d; 0x4c3b79f6457839e0; 0x390545337569b; 0x6b4b727bc4143f74; 0x4d15db14699e3ad6; 0xd9efa8261d1ce3b; 0x55d25a2d09fd7acf; 0x7d62cbf9905534a7; 0x3a87f588da32956f; 0x4c1f7c8b6346aa2; 0x7498a55e27c4d92a; 0x5099178503e20aa9; 0x701cf630c6d10aa4; 0x36f120b2a8dd8311; 0x3abce5e968b18fd8; 0x2f126bbcbc9244ea; 0x97cb117137cb18a; 0x47f9655e04f9fca4; 0x767d4b89efff6484; 0x15518377c85b6a0a; 0x2cf35fd2efdaa79; 0x471ca8feeddab68a; 0x756b9cd15c2de7e9; 0x16028057533a0404; 0x755836346fab467a; 0x3482e1dc24dd4096; 0x6e2c579b356017f1; 0x79b6138c34298ff8; 0x4b83deb30b26a601; 0x4d8853ffe678c4d6; 0x27e9bbab11dc9acd; 0xb221da8a067616e; 0x2938390dd5da2ddf; 0x5075b6b3682b79b3; 0x1d4cb9ef1252f7ea; 0xefd7eef16749168; 0x99cc3af4b4469f9; 0x6d2c62382d8cc351; 0x6ec404fe013d8831; 0x29b4b5adaad3762d; 0x5fe7571af2b09ab6; 0x6b0749493e2547d7; 0x3cc1944ea6e3d464; 0x119339dae1e10270; 0x50b9188aebec7f0c; 0x245fa3ac6d9f5ac8; 0x41694f995b75bb6c; 0x71dc41c7b5fb0bc6; 0x7cc33f20e72fdef6; 0x656a5406a391766d; 0x42305ef14a4335d0; 0x46fe07d00a3ca5a9; 0x645fd0093e584a3b; 0x297e923386da961f; 0x2c0175573546f72; 0x71c77b7b65763b2f; 0x45709cff99d37e45; 0x7f5f4e6dfa288fe0; 0x6a22e10ffbca45bf; 0x4d7ceace619adc09; 0x206521a972270f65; 0x414b12d28aa35a45; 0x45f75e85f4781254; 0x3daee97fb7918b40; 0x17ddd373c9e34eeb; 0x4ec36d1842808e26; 0x3325e75731063f1e; 0x799c4bdfd2102f84; 0x590895dffe8d6aac; 0x7ed10e9fef0c87aa; 0x5af944a4e7ecdf39; 0x77cf6444956e1cf2; 0x424ca0067cdbd6cc; 0x4db95e29e3a713d7; 0x20a2863b8562f123; 0x5d53ce3771d8162a; 0x69776a4d563ca079; 0x484ca4889bf2744e; 0x3109c69ea07d36a8; 0x25130b85023a4f2e; 0x7549574a73d4093c; 0x47a4d2969dfc6c36; 0x33f344d461ab600d; 0x2da94a9af3daa31d; 0x2bfc0d96c4a2db06; 0x59b99fea9643f064; 0x3ca1c400dca57fe9; 0x79a68ef080e014a7; 0x2b1031f796a57077; 0x7f6dc134e696bf7b; 0xc1dade8bddda2c8; 0x5f2a70872565fb06; 0x1acf8bb2b61b862f; 0x3393929e0c2732; 0x282584bc4a609af6; 0xd327f0b49a0222f; 0xf1fb738ceedae93; 0x1688e3797f68dffa; 0x438f4f33bcdbbee7; 0x35d26b22be7a7ed2; 0x7e039280042831e1; 0xd8a9b761f93bc7e; 0x573bb1b83abe068b; 0x653ccbd7eff56d81; 0x21d3ae1e5de293d1; 0x1110467291278e69; 0x4f628f0b47d9933a; 0x7b2484992be3d932; 0xb215587fc0a13d2; 0x75571dab79fec4b9; 0x4d6e4c6bc3d9cdfd; 0x5daae020b5d38f0d; 0x5b13adc9adaacc16; 0x5788500688a9d1ae; 0x7ae5e00433d5419b; 0x519e86f15b20a470; 0x60aa88f5e78d613a; 0x1c407cb23bba3812; 0x7e39218c3ca7a7bf; 0x50f313b97d40a3fb; 0x347a82b90312ff80; 0x4140036ddfb0f198; 0x4d2eb1563bd0e8f7; 0x4193442f286e23db; 0x7c01fefcf29fd0dc; 0x6d6d536c6fc922a1; 0x472dbe445204fd14; 0x5698f9dc8c6afdab; 0x40fdb5bfd497861c; 0x18fbc4be6a6f445a; 0x18cc40c9f6352613; 0x41e16ce0114e99a8; 0x5df4da3b2fd4b499; 0x13044f9531d121e1; 0x5ce830ecc782baf6; 0x101bdaf13da908df; 0x6a90b9bb802813d9; 0x3df7e1c5b3a5db3b; 0x2e0646581a0a6ea1; 0x6878432b23d6dab5; 0x5b8ac791e728c734; 0x516c887aab658e36; 0x227274f8b4285e31; 0x5580951d4c4fc8bf; 0x544445bdbf0a9fa; 0x711ebe5a908c2fcb; 0x15ad1b4a474b1528; 0x7a3224e161007d80; 0x4815b0be3ab35a4; 0x23ded30b7f461473; 0x5ee39db08fb0d2b];
   [0x440c947f00d0fd2a; 0xfb4ba8f2833ff25; 0x1efb172ef31860c2; 0x73567226b2c839f5; 0x1e3ec1c78e36ea2a; 0x5b11c2dfb80a252f; 0x31a7044f572afc00; 0x4b2556e01e206fe8; 0x11c235d0f20663dd; 0x1b00371c15394629; 0xa3b33d9da9d4558; 0x394ab1fae8150b23; 0x516704731edf0aa2; 0x3a064bfddd91b5ef; 0xe1f20d8eeb464f0; 0x527674ae996fdaa5; 0x3ef901af4b813326; 0x3539bf4b33b376bb; 0x5e95ac86abe27c31; 0x12d6dc208c5a1605; 0x648aba3cab0ec5b5; 0xe5ca24fa4fab505; 0x5b50e462d7773682; 0x2246711eb3d49404; 0x14b8c4ac0c381c51; 0x4318a43e02daa8b6; 0x7b82f3fc87f5845b; 0x1eacfc2d2b53e8a6; 0x20886ae574d248e0; 0x504d8f21da475f80; 0x518d99a2cb2c86ee; 0x67202bf392c729aa; 0x74ac6018495b02a; 0x11e118b7c94d7116; 0x4db8f5bd75342c83; 0x4fc5d119f3bd52b5; 0x23ea5844014f5005; 0x4b1622ce97736d52; 0x1cb236002d5ec63d; 0x25611b095cee0c1f; 0x39b29144788e9429; 0x71fb8ed5fd4a61ff; 0x743713e76dd95136; 0x3a7fe24bccdce5d1; 0x1105f026b77fbf7e; 0x51d235f0e9d45e04; 0x37cb34ea4495c880; 0x6b30b4fb89b74ea5; 0x2dc117abfd4a1342; 0x20a70f9f6245c1dd; 0x7d22759dc773d885; 0x44c4f0ccefcd69a9; 0xae80ada70a569d; 0x7f166c8327b4f5d4; 0x2f77c5ff9a375bad; 0x45570becfa00790b; 0x2e03debcf9fad90; 0x1dc8bd8b7ef50e11; 0x7bf7a456344cab42; 0x557c8da1f11f00a0; 0x73ded2f743cf2016; 0x4066359282ac20c; 0x47751cf1bfad727; 0x4d4aab8eb9ef932; 0x69d4842eee81798b; 0xc427e425c7beb77; 0x15d5803977bfe099; 0x4c567b65d58c47da; 0x7b739eb8b4380c55; 0x4e064725a9456ad0; 0x15b4ca2d0bc5e99b; 0x365d68fab7dfd8a9; 0x2f0863c5a91ca98f; 0x1da2da9e1d9830b5; 0x16948b751366a0e0; 0x1ce69a14c7409c4c; 0x372b55ffb8fb679d; 0x4a8df8bef1386815; 0x1de337b050898a8; 0x5d7b88419f8bcd61; 0xe19d9d5549d2383; 0x177df8ba1e739e01; 0x6777685d0f686ac6; 0xd3ee984f869813a; 0x1a446c5958f17237; 0x756c168dced28100; 0x134c0bd026c2f9e6; 0x2440c5c3dd0ebf90; 0x6bbebde27be15cb5; 0x1d5b902b4a7d9c46; 0x5d100f3e31caff24; 0x5b50d0da3fa8875f; 0x1f9eba614f72289a; 0x4b6b6fce83d3e7f9; 0x2c2f821d74edd08; 0x169132fdfd271e08; 0x4106887679f7efef; 0x200d717277892311; 0x44a312b020f2c79b; 0x73fe4a12a58fff5; 0x4c168bce1a94b676; 0x1ddbc5c63df8970e; 0x793553e6e47d7c2; 0x57f80a1e3cb6cc65; 0x26da1f728ac6f321; 0x5f03c257d0eccda; 0x57108d737f16904; 0x406a9d0b8f8573e6; 0x44545f8becd13786; 0x17d98d18af612095; 0x238468f2914bd93e; 0x1a16b4d24722965; 0x5afdd985c8084d06; 0x569720695a0a65af; 0x32d4f4307fde2aba; 0x61a27b7930a93058; 0x31a6c8274994a813; 0x21b05192deee508a; 0x7c3166352c7053fe; 0x43f54e2903933a7f; 0x3293bd340811ad86; 0x28737d8d6ae30857; 0x99d50cb0a198fae; 0x24d492f2e55cb749; 0x577b78ad4840ed84; 0x112efcd45e414f02; 0x558b8559376930b9; 0x96542812f0f9868; 0xc893a95d4e6d181; 0x254349725c3c920f; 0x2f4488a7068529ec; 0x23188d89a1632a8; 0x23638a3bcef317a8; 0x5e74cf85116b6f9e; 0x30efbb9001b150da; 0xb3993f6e36c31f8; 0x37f02804227cfd37; 0xf3a147b9c475589; 0x157776e3ce26ab9b; 0x7edca382e51dbea0; 0x4dc1816a4de10685; 0x1a37c32cf3dce20e; 0x1846c28c1fc09ec6; 0x53c43989b45e661a; 0x6f4219907a10662d; 0x5b2538624c580ff; 0x3a286d786a6f1e31; 0x3a19dc7dd7f8fdd6; 0x536453edda1baa12; 0x66e7e109a54b1c87; 0x3243692f052062a8; 0x75c8b3eabbe5d211; 0x742ade402341c562; 0x6d68be16dc05c8a0; 0x2c01a3498a7a254b; 0x157ba18079d69d2d; 0x5a9959adc9b8da80; 0x5b2230e7b5dfda87; 0x4bf49d920e45de1c; 0xae8252554980719; 0x97ff892a8bfac56; 0x65571cd89869ae6b; 0x4e989f2b22f1b9d; 0x68d722e352b1be88; 0x3119215a301e68b7; 0x3d3a77eba735c8d; 0x662a8970b586c475; 0x5aa8d5cd1e559f19; 0x5677d493ddbf0f49; 0x39c39936ac69da3a; 0x2e047cbf09ccd4b7; 0x2a1f6c7795249247; 0x2f5418e0378d37fe; 0xb28073007feb99d; 0xcfa0e045cc4c4e8; 0xe884ebba0a466d0; 0x76329e30cd799a84; 0x50f076fde8252d2e; 0x2cb2df15d4c75845; 0x46da5503561bd402; 0x7155d24114f7ace2; 0x51ae63505fbed270; 0x68fc7dba2c4d2dce; 0x4383d47cac0e3fa1; 0x720a4d7fbc0aa18c; 0x45536da759199b7c; 0x178a352876d18d29; 0x20ad6adaf687ab23; 0x107b9bee0619b03b; 0x4457d34e6c0d65c; 0x44196c180a70ec60; 0x3ad5e097ea4ed04a; 0x2345d902470a4e06; 0x6dfe84b408c7e0fc; 0x79103f0b2aaac70c; 0x52612a83bb53e2e6; 0x2ed5bfa6366dbbd3; 0x2268d5716f89e9c7; 0x36567cbdd51a06bb; 0x5517e169d4d847ae; 0x6a4f091af3813d8d; 0xc1750e0f4870251; 0x7d1cb19b8e7c96c9; 0x6e1be1d5728c6ba0; 0x411ae008ed3465d3; 0x4404157a5e7f81a6; 0x6e20b171b46c8dbf; 0x4fbdd353ce48b9d1; 0x5f6083fd38f3a435; 0x3e4923745539a421; 0x6986b1e3829827b8; 0x1d6b626c50a0d03c; 0x76a3bd6f1dec0055; 0x67b25fb9f2ea3c54; 0x3aecdf871b19814d; 0x39b1da02032299b3; 0xb35af186e05873c; 0x2d7539749fb07d9; 0x7aae8747fff3a671; 0x3919fe563a382346; 0x5091973f1c034648; 0x3d0eb239b0f68c68; 0x512ed4098b1a0bb8; 0x401868694e7af104; 0x7312fc2eef8a28d0; 0x787c4d00b54f43d1; 0x5bb81a75bb332855; 0x4adfa4b65e0fc447; 0x3650d4459d3687bc; 0x5e3225039fca2eae; 0x7ebfaf4a06a04397; 0x43d5f986db775d20; 0x119ba73123776198; 0x5377bb798bf99289; 0x2d8f81d51c26651d; 0x56477b038ba7b681; 0x505e1d56a30a43b6; 0x94dab9ddb02c56b; 0x2ae706c76adb449; 0x304b0495d0cf7756; 0x506395612c2583a6; 0x2c01db42ea287145; 0x61ccb47446176f9d; 0x65f45809ca822dca; 0x6eec86142bcbe30c; 0x5278e515dbc540f5; 0x4bedbb045e5acc29; 0x28a24efb999671f2; 0x29eadf16952d181f; 0x53c7b5474f9d5e91; 0x586adc0276d2206a; 0x6270f686dc53361c; 0x11646ffa93b85f6; 0x7100add81acdbf59; 0x541601bd339032b5; 0x21fe4c2cf6bad4ae; 0x47a230d4a45d9f1a; 0x6cf9228b01953af7; 0x8eff1f04f3e1f4e; 0x55abb8d126eae4a8; 0x21f20b636d7624f; 0x12d65356a643abc1; 0x1fd224505ba90b47; 0x213982b92a9bd0b6; 0x1990255ce09b0c3d; 0x1a6508b5dfeb2769; 0x329ed1a24c3608af; 0x5d2354e7271ad0e6; 0x59547eb39094a8da; 0x3398a6a16610ffeb; 0x33347733877b912b; 0x3fb93dde6d2d740e; 0x3293afcffe3b500e; 0x55e6ed17283a8d0a; 0x2e233bd30377f813; 0x38eb2a4f7a17dd25; 0xf2a0c3bfe008bae; 0x1bc10d531bd3077d; 0x32d9a47e3f998a08; 0x413c7d3ecc20c4a6; 0x5a8d37fad41639f; 0x609123bc7c7eee96; 0x3b77160d65e9f2a3; 0x338f2f5f5509d50e; 0x7e938234ecb8e94c; 0x53cb1e75dd694fa1; 0x6c8a17d7ba663fc8; 0x5ff3cabb3a1c9717; 0x36b0e61afa4ff1d1; 0x32f860de03274c97; 0x6ad4c72f338ef718; 0x13ef5aa5ca061a57; 0x2383d5e30902dc42; 0x11ed5a5f6d42c6e2; 0x5b7732a8371859aa; 0x132d21994ba2464c; 0x72697faa3d65eae7; 0x7ac1aeeea693c63c; 0x1fbc341fd059ae3c; 0x131dfe12019a769e; 0x1a4bd97c04ff024b; 0x655aba2e9678d3d6; 0x2c11615a9dbfb8d1; 0x13b85c4ca9e1a0a0; 0x45d6031994559103; 0x413c05b3d97e7ed6; 0x399ed9d7ca2e07eb; 0x66015772bfe850a8; 0x41f3b9af3682aef0; 0x7cbb070e93e37f0b; 0x21413341a7f56bdd; 0x73145ecb9bd0e039; 0x4272f6c9520639a6; 0xcc090571b8046a; 0xef37499437a74d4; 0xe9f238f476b1b49; 0xb6f4f25d64ac4da];
   [0x10ec93822ce36556; 0x17c441ccac3b6fc2; 0x4fbd61acc812d4a4; 0x98442dc24e37532; 0x29db342a30a2fc80; 0x415e4843c7274d4c; 0x7ea469e6ca16c43d; 0x6b4f7f202cf4bd0d; 0x350248b27272aff0; 0x41da7040ba7b5d0b; 0x4a60f558aadb79b2; 0x6b4e10465e0729ce; 0x4b4e81b5828e38b1; 0x4bcde6c222de4e21; 0x29e047958e2c419f; 0x712d8259c868d199; 0x55822761fbaac6ac; 0x6a70c2380bd41c1e; 0x7674a98a96d0b402; 0x618e7454950ee637; 0x67b1ce0e2941b990; 0x1d00f165f6e1905f; 0x484145ac1c79693a; 0x3e5658f3e0d6db58; 0x133cb89bde89b886; 0x5704cd901aa8d200; 0x6399ab7d0d62ac97; 0x34850a9a697005a1; 0x4c7e2b01096dbbcb; 0x5eea63d44ca6bccc; 0x384700e1b18a0951; 0x31d77a1883ee9b2b; 0x45c6639d6a928fd0; 0x40499eb18c411df3; 0x6769d6ba1c0909a2; 0x34d5d80e015e648a; 0x457c544682af4da8; 0x23d20664119619f0; 0x7d8a12b2dea4f701; 0x1a54df549de8003d; 0x2c577653fdc8d4c8; 0x7507c7bc25b5e1bf; 0x37728c42a7c8225c; 0x3100079d434b78dc; 0x1c35176c2a1b7012; 0x458fa64b7b0e1b3b; 0x5406d263e7c7fe3f; 0x6e75edffe8a00e54; 0x12f7aa2e7fab9ab8; 0x32126af7c8595f8e; 0x7aecf6e4665d28ec; 0x2a108ad2be6731ab; 0x3b152ea49c9aa266; 0xca8e2169c7d64b5; 0x770f0b220e990fb0; 0x3e03858428d1abfd; 0x284fc229c7a33fe6; 0x5b70ab1c2d616462; 0x87f22c7c956bcb; 0x18536c1ac010d034; 0x5a75bb66b33585b5; 0x63bf167563ac6cbf; 0x65e8ddf69099e9ec; 0x2086aea7b98d1c30; 0x4470dd7d65bd4662; 0x6f8cfebd2eeda7b; 0x79a78f4620a466c7; 0x2296b6f082d5a26e; 0x373253b6e6433490; 0x64f457c2a2c0ef6b; 0x17f27887c54c93f6; 0x41809d2a1955d4be; 0x7fef98f788adefea; 0x666c0731fd5e8f0a; 0x62e093d3502a0c44; 0x5b57a80418263bc9; 0x6def34dd4d523c22; 0xe29842470e30610; 0x5db7636f0d2e6c9a; 0x7c7b9ba32e35bf5a; 0x7e7cc24d03cfeaec; 0x32353b8b99823aa0; 0x4885d26dc52dd9bd; 0x1da42371bb880d0a; 0x1303732d97487b86; 0x381c52e3798fca1e; 0x6927e8141ee1676c; 0x3df573b5da3c659a; 0x3ea9d5ee32645be7; 0x51a31c352a86aeba; 0x350bfd1f27780582; 0x6c109f64dc82a736; 0x219c7c99d3d8614a; 0x2425b91425c1a1b0; 0x2b6be363f0666796; 0x529ca6172e6210b9; 0xd65a04be90b565b; 0x584b6d5ac378ad7b; 0x642846f9bd405ef2; 0x3df80ae8271d34b7; 0xe4cb3deacea503d; 0x194b2c8ad059230d; 0x45feb0da9a63d607; 0x7e48277658134d25; 0x57bd35c90c300783; 0x97c45a5f19bdc09; 0x2af781ba7abdd14f; 0x3cb662dc712f8cbe; 0xccd87c4c79b656e; 0x5faaffa2cd59ef33; 0x6b8cc43c10f3ede1; 0x156815ec864ac71b; 0x4bfe0805fb455660; 0x2b94442cc2fea117; 0x4f2febae4206860a; 0x6c79433132c1bb7; 0x19cfe1eea4c0b8eb; 0x3cb38011f676a8e2; 0x24c4f0a1e78dd7dc; 0x2454e1d5411f6766; 0x3afd8e29210b4b62; 0x1b7b628f1a39748c; 0x1553f8f383cad044; 0x68faf9d7b272b179; 0x14332b241f45f1cf; 0x66f61ab7822c87d1; 0x2fd8bcfd44273957; 0x547e9cd14568a0b6; 0x228a062e2fbd3c49; 0x381a1297fe98f3d0; 0x21002fa86df7c34e; 0x10fc4331a7cc616c; 0x207bf6229730a06b; 0x62c45e32475b0c7a; 0xe89967e980c687c; 0x95c6f59bab51de3; 0x3ffae0d61e1aeaf9; 0x6c1a3143e82435a; 0x5797df3b6378deb2; 0x5b8c4c5fe75065d3; 0x3c79e9f76dd76b01; 0x44a2ce841b3de819; 0x19b91fa27e2f5aa7; 0x486ddd47cb8ee4a5; 0x6962791790f22fdf; 0x380a34d7596ab9b2; 0x7afe6e2905b3fedf; 0x4d118fe7aea36a38; 0x3ace5557f7be696c; 0x7f8f91793ac3ba40; 0x719a5fa092bf98b4; 0x4be496fd516d7b35; 0x69aa555123bb65e5; 0x51db24e2b43c098c; 0x38177ff49c5ec79c; 0x5aac67a2f6c55058; 0x25148ceeccd296b; 0x15f5ab161d10bf58; 0xd32141ff4635174; 0x74903c97847fcde1; 0x36d14bea3ff3e0c8; 0x120c5b038204f26b; 0x468472ead7781b57; 0x2e8a45d7df2b267a; 0x5ae1a3a18ddb96e; 0xc4f3956bfa7d7f4; 0x3f8c2c84748c0671; 0x653d6964e7cd356e; 0x164bdfc2b9a4415f; 0x614b1b23806be1a8; 0x1ded4871f5b36f10; 0x44dce857b0052d0e; 0x28b1390222a4e90b; 0x74d50c889eaf79d3; 0x3fdf31f09501bb7e; 0x435a406efc3a5f48; 0x20b45c7b16d1d6b7; 0x3fd4e01b9a0a194a; 0xfaf0c3fb1f3abc2; 0x66d973e6593f568e; 0x5eedf4660b5064f7; 0x565a7e15bcf566cd; 0x68bb4363459ae66d; 0x53b23df6e860074e; 0x4f0dee6f75cd95e4; 0x81b22691aae839b; 0x1817ce767461b862; 0x5a8778a980726bd0; 0x67d6a4c80df88a5; 0x5d56a4155ff7eb14; 0xd92ce0898ffe97f; 0x58a1c3ec46bec68; 0x7c5746126f14d9ea; 0x1ae935e052d3c57c; 0x7823722638afb715; 0x1a59f12c4f6ae8d4; 0x7395f5e0b269d50d; 0xadd3abbac2a3109; 0x69668e7d13350e43; 0x3dff2062814b44c7; 0x4552de5e20c6bf4f; 0x3accfe3301d4f1fe; 0x2d876f06884b137c; 0x6ed35e05be17f825; 0x7ee7de87d8d98c91; 0x27929231ef800f85; 0x7d5316a0580d64ae; 0x5fbf45b3977074c6; 0x79be94d1e791b89b; 0x7b5027f9094b23ec; 0x4e2d0780c439b6af; 0x529bd0220dd04091; 0x79ab7beaef32c1b1; 0x1e1a872d70b8ad77; 0x75d4f5ddb613c8da; 0xa66d0fdfe954ea0; 0x4b45a0419f728a22; 0x36ea07215243fb9a; 0x380df1affbdced1d; 0x631da7ee7434b48e; 0xe556813aed73530; 0x7e7682495c213277; 0x15ce5b62f31fef21; 0x416a484026c5c22f; 0xc63d32649bc1300; 0x64afd90260b7d31a; 0x35c680f1a9f29ae; 0x58e1cade72199634; 0x4797127e015e0fd1; 0x2843537da6da014f; 0x3e66a33b0b56ba45; 0x337c9900a7080c3d; 0x683e637a82fdc598; 0x4399c0abb3a36774; 0x2c5db0474656c746; 0x5feff3aebc4b895b; 0x6391e1b095c4e75; 0x1c274db7464f5185; 0x793da8d2bbbed8b9; 0x17a3f08fcc170b00; 0x6331c4ab710e072d; 0x3f991a6dec059841; 0x50cd533f92440e51; 0x7c58575b8a64f55c; 0x5ea223fa07e92631; 0x3fc5f55d1a22191d; 0x63cb7c961d3571b1; 0x6b7ab8cd24409669; 0x17a90f84ef55d834; 0x666276fe7ee3a61c; 0xd22f8ad42e50a22; 0x49528e26c1667a3b; 0x7d0e59adacd4c195; 0x72eaa4242ea364f1; 0x7abbb0f87d143605; 0x582c3da2c41c4c1b; 0x4a49a5a6c3117c1; 0x404eaee046b5e0d0; 0x6f2377726f70a52a; 0x92deb74552d0231; 0x7b211c4318918747; 0x9468140bdf995f4; 0x4d671e2cbe6ce1cd; 0x5141722573559079; 0x635f81ec402c7d84; 0x326be538ef02362d; 0x7cfb32d94f27f65d; 0x352b06ed97a3cd23; 0x7a7dc952d5e22d3c; 0x3faad93584d5a9ad; 0x47286087c7425be4; 0x1c615fec053c883d; 0x2068b70a91e8e67; 0x32c9d8be06baa464; 0x607b9d95da5ecba7; 0x604c97f9989f6c1; 0x439d52b1c77c825a; 0x2fed757ce34c4c1a; 0x485fac9bdb1267f0; 0x45f5e6e481811a03; 0x4c2a594e7dc61426; 0x5baea4fe04e29cf5; 0x142c0019dbe50a5; 0xa31f73d0acc2f72; 0x70a5356664280fd; 0x5ec74efca91707f6; 0x5abdd7f7eb9fb057; 0x15de248b0f2c24f1; 0x5ec1c418724ec988; 0x46727ec6f65644f7; 0x43f5ed2a46749c45; 0x68050b52c8168a6b; 0x2d907c486ea2ddeb; 0x16245e81b0ed2a08; 0x6bdb9a9efa17f451; 0x58f1419b8ae8daa5; 0x540fd42858e2dac4; 0x3d12a934f148a631; 0x1390f683fd80446d; 0x619f088331476794; 0x7506f32dc5b27003; 0x713e8f254ac689a4; 0x174d97305ab53ee5; 0x21386321c8ae5c42; 0x2c460b6adecd1514; 0x437fcc987761856c; 0x68982197cdda5efc; 0x3cf474bf50409c05; 0x6822d404efa2f738; 0x174e96927c5f568b; 0x2cb6b7377d1d7e1c; 0x1e8530a074f64fa; 0x1f666ea5ee5462da; 0x531d25709eeaf407; 0x26ca8732d49bf0a7; 0x7134150e32e3e21a; 0xffc81cde5a81f04];
   [0x1b57cc67254c31b5; 0x3ca60a49859f5ca5; 0x476ef91eaeba7af7; 0x3302f91e8ecc81d7; 0x368ba6988d9ed86b; 0x3ab079d045b1e064; 0x2eb6dda17e8eef71; 0x15274273b13e7c4f; 0x1513cf3dca8fd7ad; 0x1747cb199f759995; 0x7e5d4328f01541a; 0x777a50fd5440ac77; 0x6dca6147376d986; 0x3b5d126bbad1ca2; 0x7c5329c843b711e8; 0x643e7fbfc27b8326; 0x42ebced4862dba00; 0x3a94e90f07e12616; 0x4856e26a1e3083c8; 0x320ba7f723bf402d; 0x4296ffeb92b722b9; 0x5ede84a8dd3f6d6c; 0xe8cad9ca2b844be; 0x29c6fece38331a96; 0x3636cd9e2297e7e6; 0x5ca3add36aa41f76; 0x6be6bab768d2866b; 0x4908c4c2bd168ae2; 0x1c2cc5bbb122a5e1; 0x42788fbb59105f0b; 0x1d91741a6d3d5119; 0x41b546dabba533f0; 0x15426aaa9663dd39; 0x726c3af8b628be1a; 0x4a38a903f5a73960; 0x2cf2844edd61f04a; 0x267a9eb8cd588504; 0x3af1005e84476926; 0x4ce2849640186834; 0x3238a2014399ee24; 0x6ee459609966afb0; 0x296963be7fd8fad5; 0x37f3209ab9b3cc7a; 0x4507ebf1013b7532; 0x43ebad1c455b2c96; 0x594db5296272bc1e; 0x77d1ef65de09bcef; 0x9d22c28b5c41aa; 0x3a5121dce68decb1; 0x798fd343c944c740; 0xc04c5ce8f505ce2; 0x45ed0b868c42de5a; 0x5f82fd04b9f3c216; 0x7249867ccbd35b74; 0x78c048eb0e845723; 0x68800843511fff50; 0x4cb23ac8c3f2ebd6; 0x6d80a0d61d3488e9; 0x16d9b0271aa56394; 0x43c02a1b63a3888; 0x49b7187828e9e92e; 0x4c479549cbe81a8d; 0x706f03f8facb5b13; 0x35be367338a8efa2; 0x7109aaef795b5061; 0x6461ed39a08d4d2d; 0x531bcf443f5511a2; 0x3f41cdea28336f84; 0x23bd9b74e942fe51; 0x4dff14081cfe464d; 0x61b79f76856756d4; 0x56c1293fc2ac99a; 0x929c727a67670be; 0x573d59327bae9071; 0x41d9aa9023158a0d; 0x34a8f497fe96129c; 0x3bf82a041bc1ea8; 0x2ad7199363ce70db; 0x3871288cced2b0d3; 0x7695d8986eb94c7b; 0x3a5ca905a69fe05d; 0x563dfd3bd123c592; 0x78bec97cc8e7df46; 0x78ff0386544d7821; 0x59f2e7a07a21592c; 0x5e1e5c383345e24f; 0x46e3049721bd88f7; 0xd16330cb5970873; 0x4754aec22cb96e4e; 0x3786779da6246ffe; 0x46ac5700667e566c; 0x1bcd0252d895cb00; 0x78a42a368ad129c2; 0x3fa98900d998ecbc; 0x790a2290ba70c5a3; 0x1a5a763b9d7a5c6; 0x43fbcd5bd5cbeea2; 0x34de1993b27c393; 0xb800c802ba70e92; 0x251c39cbee4e5ab0; 0x4fd116a56e2890b3; 0x6f06589d1a80232e; 0x4aa01da210c52d0c; 0x1c64ef2952f3812a; 0x668cf3c3f8b09295; 0x2b11834c03274394; 0x747f2ea516b9c1ae; 0x34fd0c02afdb9b35; 0x4eca42c1b1ca63c6; 0x6f6ae88257457e93; 0x27eecd255b87c02b; 0x3b2d8af2874a0d37; 0x43f7f6cd43bfc32a; 0x7e09f69cb2ab8cf3; 0x3acf2e9137523874; 0x70a1e5d21baa54d9; 0x6328ad533861e188; 0x6c32f1acb94c1ca8; 0x814f6f1c5e6d8d2; 0x77f6c3a417ab1f80; 0x1c2a63d09e4079af; 0x452a3e4b354e83de; 0x1887eb300f6c9eb3; 0x4b17e5acbebcfced; 0x51b366863ae9288e; 0x6d2ddc0c26689b9e; 0x510a6a65cc8395a7; 0x507577fe101711bd; 0x651ca5ea1cf3db08; 0x1b2cbcd3f9b22ba7; 0x6f2e35300c4b86d5; 0x63b6825fb8daea2d; 0x4e8e15b78176dac9; 0x7f75313f31bcca08; 0x648f896a30096d13; 0x2deac6ccb03ba3ba; 0x7386c3807f512a29; 0x2b6d59174ff9d3ed; 0x17fb5d626fc3be64; 0x35e7de4ce6385782; 0x1dc272b401ada126; 0x7b1d5c9ef8f84a35; 0x40d163e16e0058d4; 0x53d6f6481787b432; 0x78929f56c886aae6; 0x62108bd61317dc1; 0x6984c9be12458f11; 0x3fa6493d82c2dc8c; 0x7d43cb1ca95d3be4; 0x35f2643902c28a1f; 0x1418fc75864e9748; 0x729a7331bb534821; 0x44baddb8fd9ebe8d; 0x39cb66af6f6c0a12; 0x68b9fae3897041ca; 0x4355b978e7c8c448; 0x5cb53078a656e0c; 0x1b5a8e3b2ff9125b; 0x613d1061ca6c8c25; 0x3e178e89f5b39496; 0x74adda2eda169cbf; 0x3c9e65648062f777; 0x512e1ba67b1c5982; 0xb3c04e0cbbc630; 0x4e0e96373a8d0ed7; 0x2d258aff2a591d8f; 0x816822af1a570a4; 0x21d50c73edfa5677; 0x137e30d868d2b3f4; 0x518733f3bbde0777; 0x3e91854cc4f734a6; 0x1b2c111a47f1e2fe; 0x34f830ada31dd946; 0x4277d80cc1f6903a; 0x632165c45088c5b4; 0x455f8b644d55c854; 0x7ad97d009b42455d; 0x226e45f10eaf730b; 0x4c7fc68cab68f870; 0x3295daa6c7437c73; 0x73ec20792812d107; 0x25c9cf9882ca7f1f; 0xae1e293a68cd566; 0x621496619596720c; 0x53cdecaf2e1b13bb; 0x211ea58cd6b0a1ce; 0x2edb9d203308c3c8; 0xf3531e556249c70; 0x655f7725e76849f9; 0x492527aa5fe6181c; 0x3fe2eabfd093193c; 0x1059f62cebda564c; 0x7d77a70e2e5366fe; 0x7b756372d4160b23; 0x5044ddae78da2c3e; 0x2e8ddf7e703925c2; 0x779d49108a76182e; 0x242bb73eae5eed4c; 0x58721bf5a534e60e; 0x8fd4697d9f1977b; 0x51c25ca082606edf; 0x65f246e50958a8cd; 0x55011226d1960323; 0x70f815ff9ced5c0b; 0x1390b0fad576b762; 0x7af97c241b5c7d9c; 0xa27cbbbb77556c2; 0xa0ff47d5858345; 0x5ac40143451d1b3b; 0x475c6c38d6b53dfd; 0x63b9a05cbd09e383; 0x732e92fcf88eceaa; 0x5c8414948b9ced92; 0x74cbceebf3e7fae; 0x77604dab43528acc; 0x7eb084da1d526417; 0x3133f71b505626a9; 0xd0dd691ee791fab; 0x35dc4ad63a2fcc4e; 0x1b2ce3949b836ac7; 0x47a3bd6215227d9; 0x5171572520f5316c; 0x151b51f04112b64d; 0x28c13ef32225cfa4; 0xca0906e8573a7fa; 0x722a47e7263bde05; 0x72779a0de83d489a; 0x6b94ab7f268d8e7a; 0x3d304be868cc27d; 0x5f9e7142fae30f7f; 0x329ba656f5aa290; 0x37d4d5f80c8c06dc; 0x348fabd7df3ce404; 0xf7c1246089a542; 0x736b62a589aedb14; 0x35037c603c764973; 0x719a08e18f899e0c; 0x277520aa709c28ea; 0x49f0b9eefcd56754; 0x124bd0e39c0bfb63; 0x6371a00ab7980ba; 0x5669f8cb33b579a; 0x7cc2bf70e78aa368; 0x2692d9cca0cdccaf; 0xf6149133a19a5de; 0x37ea9fcb06b5bb84; 0x5de5c4080389a043; 0x5cfb519c094f0058; 0x94efcdb23101791; 0x2b070736bb8303d3; 0x72cc8879784b3d1f; 0x787619d5b831b68b; 0x49d924354222cd50; 0x1fc87a0a200c2da0; 0x358962e7fca7c2c6; 0x592b0ac1b7c051b0; 0x7f7f067141ec0b0f; 0x74c58047c951b8bc; 0x1b4628ec21fbdcb1; 0x32d7fdf12a351ba1; 0x6eabfb58ddefa578; 0x4db9756eb48e8fc5; 0x54efabe40cfd8ea5; 0xed2563400daf057; 0x42be42748222b3da; 0x3f116bb94a718f49; 0x29147b999ae4db37; 0x6f441f0cdcd9fd23; 0x2f3f3b8f79691277; 0x2e6794d368b77bcb; 0x13c2b4e76d3f7c22; 0xe756d0b7bbccac6; 0x38392d2ed7a1f618; 0x7160a13541758dc4; 0x7a79e4dc26f25a3d; 0x5dd5136fe47d25ea; 0x5523ffc6b895a519; 0x4c7e054c767d0751; 0x5f59acabebf46997; 0x65c3ca4d3c7dea0a; 0x31ac449fb9a53e57; 0x336db800d4e07320; 0x2c1e9b5415f329f9; 0x26018adbb8d1875f; 0x327e56bead334f98; 0x652febf34f1816f5; 0x39983cf9218ce809; 0x10c463d67eeb6d89; 0x1ad0a8aa1d707b9a; 0x7ded9818bb2245c1; 0x1a60e1c93987e6b1; 0x16ac4a62f39f587b; 0x2cdd017fe2e28188; 0x5155b627f57064ba; 0x48787bf01be7736e; 0x7fd9d7e2e8f51583; 0xffa854694d68701; 0x6fcc937607cfba92; 0x26026d2b74c55cb8; 0x2522a80a0d8818f2; 0x25a2f83328c93834; 0x35725927c2bd6b06; 0x3f80f05a27e1af89; 0x47f848efeda9823e; 0x4ef0615812a21542; 0x428f428e4ba61fa1; 0x7ebcee14fc6867f2; 0x56d31aa672a6d2dd; 0x44fb381f1eb54054; 0x6052bde40a6174cd; 0x5480f8008f872039; 0x2c813cc31b8cee7f; 0x6986e4ac35f28e55; 0x7776b7242f71cb6f; 0x7c37727665fb3563; 0x3882d28b1c8e5671; 0x6473adf9f641ce6];
   [0x5c668b603b5dd068; 0x5ffa553f614c76b; 0x18262f8be5e6178d; 0x2b765f92ba139661; 0x32b2f3fab162ac98; 0x7d21ba2ab3d028f5; 0x50b9936594124589; 0x188ef5e7a99f1b6; 0x3d2e6f5396e7c6dc; 0x1a922bad72c29b10; 0x5436e7f2195edd6c; 0xaa925f893eb9e95; 0x69c2c4acd9b8c0fa; 0x11e1636efa7757df; 0x66ed946eec2083c2; 0xd8566db4163feee; 0x307a345894e0ad25; 0x3e6ef8731a3cefd9; 0x77dd21b57265883e; 0x30bb1ad3107a62a1; 0x2e81301ea7f6b7b4; 0x429a9757d167b56e; 0x672723e71252de9c; 0x71483d599c8f753d; 0x23cf515f180128a5; 0x1c13011688fb0d7b; 0x500720939af66f17; 0x4563d14320e1da38; 0x2c94e0b772c70577; 0x5d395f9330d73288; 0x618ad6f134ac3f8b; 0x2ba9b4edf6430c97; 0x2156f618fb088f0; 0xff6758c737d7ee; 0x1577f93f90cb9d8e; 0x5681b837cecf50ea; 0x5cdfefa28f7dd8cf; 0x7b725479c95a31ed; 0x3702917d3a818768; 0x2a4330239e5396fc; 0x33481420cd464640; 0x62d2a0542585bd1d; 0x5936069dd817d6cb; 0x10f6b26aa9828299; 0x74a25ccaf8115739; 0x4cc3963b8d1a83ac; 0x26b6242fe1a49642; 0x4fb989b810b8c8dd; 0x2395269428d6e320; 0x2228c5336604f1cb; 0x6eed8541a7ae3700; 0x1a2294070ffaefe; 0x1eb143d08bc50bfa; 0x5f49bb6fdfc22441; 0x27dbf4c8c2561763; 0x48276c970a86578e; 0x78be79e93ef775c; 0x271e020eed7215b6; 0x396f64b864c607f2; 0x3351ca4ef4bf6ac6; 0x60aee75ec948a1b5; 0x20b2d02c437b0faa; 0x34f4b9626027fe94; 0x5921e35d0c62e72a; 0x4ea671fc87e09add; 0x18e88f0bab36bbbb; 0x54c2e20a9ea82d6a; 0x4b577b359374809a; 0x4545323b03729a6c; 0x36d05949d759b781; 0xfbdb9d48a6b8bc1; 0x34ef40b237ca0fbc; 0x54192d75e821339e; 0x6083a2c4ce9c037b; 0x37d9c85420cddd1e; 0x1a5d91dcb626c364; 0x72a538515a5fcf3e; 0x676528d57f9748d; 0x5d5232b949b2e161; 0x8bcb9325aee5570; 0x7d27e6906431feac; 0xea808f37a7276a0; 0x67cb24f98f2b4732; 0x32fd55f9ed3bb0f1; 0x5e8b45ddb1c19287; 0x503a3b89f445fc44; 0x219617b58e8e6cfe; 0xaddf80f2a95c541; 0x1f13b77703c5397; 0x1191cb7b9ea1b5e8; 0x3b8672f696ca870a; 0x68d442552e53622d; 0x1139c8163ac1b592; 0x3ecd15148760dbef; 0x77b4dd0f5c7e8ae4; 0x57eb8a47a9297ab8; 0xbc2a3927b4324fe; 0x50f30cbe0512b425; 0x467743350283db8a; 0xd69325fc093e1cd; 0x53777fc25a7f74ba; 0x44e1fc42d917f27; 0x4da924cbc35469ff; 0xe3ad32ab45dc01d; 0x3e5eca431aa3f83e; 0x62f4e8826fc87d9f; 0x472c1371ca1ed807; 0x1686760cae080963; 0x381b53b232db7af; 0x4390304e1f13bdb3; 0x2d82754f5aa34458; 0x217c98626cd05570; 0x5328cae76ae3e4d7; 0x5fa5746a650e46e6; 0x74c38dd6d7e5b033; 0x6d99731e90d545a5; 0x49e32a8a3fcc9a80; 0x5b6753e7e48dc20d; 0x40af496f618e0174; 0x2c8a507de6a74049; 0x40f3f7ad2455076a; 0x7187716f07954dc6; 0x476e3887e84e0955; 0x2e140df4f1ba73bd; 0x61e46e3e8018881; 0x5b0b093020dc392f; 0x1fcc7852f23b2b3b; 0x35ecc8f6a7bb3d3f; 0x80bd6aadd8476d3; 0x2e7a07168b27dfb8; 0x1bf4ead242317d0b; 0x1eeccd5edfcbceb0; 0x6c20c4d4d8c1e918; 0x6a0230015e3a7ee7; 0x70b118528a3b15c9; 0x371110daec87a83c; 0x849edb6c59af8b0; 0x3e9adc542dd04e05; 0x47f7b58329320cee; 0x311f2f399f061e40; 0x1ba621a817ce38a1; 0x2e5c3dfef141fbc5; 0x5b2ca476c5f8a6c6; 0x78e0bae5c8bb9aea; 0x7e04ce4a73f52860; 0x310889b0ed115f7e; 0x747fbf18d184123c; 0x2be2d4cacb2e49b5; 0x6e8663dde15d56eb; 0x33259a3bad77157d; 0x5a86e552e580fea0; 0x13a491eb72147bce; 0x3576902a5e2d7616; 0x32b16f9e04f184df; 0x7afdab6cc98afd98; 0x6c4db569da52a968; 0x42b9affd14cad945; 0x7fff6bf7b46e7a61; 0x37bfedd1e133d989; 0x22345fe05e6d4a87; 0x32b9ef81908ef9fb; 0x460fee2fd729aa27; 0x1ef966e277e57daf; 0x1e06d1ef5fbc3fad; 0x7231fdfc69562ce3; 0x50faa31e12cc76f9; 0x5e9f221ddef3bf7a; 0x18f3d45970ddca19; 0x248b4afbb2d50309; 0x3d8a4f54e86d18a4; 0x161f32abe8be2aa5; 0x2b11679b099cd23c; 0x7ccdbeb5a9c035c9; 0x1d3104c905666fd6; 0x7ed2c33091fbc951; 0x50a6fc88d9840a26; 0x34468ba84d664b71; 0x2be54ffdb7ffe91; 0xef0c6215b47c63; 0x4041180776841e8d; 0x518eb24d0f451268; 0xda902928d77e36d; 0x4f8681f58cfdc1b1; 0x4e2e4821c4d62aae; 0x326901bf7918385c; 0x66b90f960fd9d6da; 0x730c2cb86b265115; 0xa993a1e1a35f963; 0x65c84a2c4272a995; 0x411db8903db62afc; 0x10971f19232ea99d; 0x51af3c2947aa81fe; 0x882d416e4842f6f; 0x688cb2110cc55a3c; 0x75fc76cd182416cb; 0x2fbaa9765d27bb4c; 0x106dcea73ddea49c; 0x3a0e51ce4b5c57a3; 0x33f7d49a232c4246; 0x181bb604f75558d0; 0x25ba293d923ce58f; 0x4bc00932ba8a6f8c; 0x59f568c414dce811; 0x1a3d6145ba54eece; 0x3cadfe8c05825829; 0x933772640886daf; 0x3b8be1d0b8e1cb65; 0x3d0659e1b5e5a3f7; 0x38eaf61a1902fde6; 0x2ed23808493b59ac; 0x56d20e441f6abca3; 0x2c4ce11014820c50; 0x118756830a229ce4; 0x66a5f4a0eba6541f; 0x3872b8fa9a3fcd0; 0x27d45677015d7429; 0x146870aaebeeb01b; 0x7fc56f6436066406; 0x621e1010339abc4b; 0x5dbb2bb08f4f841a; 0x6791697654be8639; 0x6f66091383ef21ae; 0x128632d1b9e24fd3; 0x203c5592c9a69289; 0x13dcafe1d12181c9; 0x27ab2a2091cf4b52; 0x415c0ba677f7f10f; 0xe8778206cffa20e; 0x1df622e2d14f0d61; 0x664cb6d8465a0bc7; 0x4f2410e4bda89c57; 0x3a41f1a0f2115803; 0x1b252adb64f4a667; 0x130b92d98cca2af7; 0x32234088a9d3cc98; 0xcc9c84203eacdd7; 0x125d90fc8a7612e7; 0x78361de070856e85; 0x2601156658ea97b6; 0x3c91c92ebc6cbb37; 0x7d6d2127257671d7; 0x3155d5919072e543; 0x771dfa394bdeee52; 0x7d76f2cd797270f3; 0x5b80ffe17d6d421d; 0x1eca5ecb296a3e49; 0x1028c35a4fc3299c; 0x52165cea817b2975; 0x37559992debe3f09; 0x3bd86f9041effae3; 0x1ca78bc4f73acb00; 0x1e41ffb4eb16c7f5; 0x535394c167dacbc8; 0x1a95ca731799ac1c; 0x428d6b5625d33d0d; 0x1ac640e77e653b20; 0x454b0a95b1d155ee; 0x687e34fb27b6db80; 0x2b27f1a103dde62b; 0x1402ded6cc4bbb41; 0x7732d6829c1cbc22; 0x4f6dfd295eafeb50; 0xf3d16934f59166f; 0x756caa5629cd63f7; 0x3d9b6a0c2c811a8a; 0x7704a9f3d0f40814; 0x2071d5940764c852; 0x793dbd8ae7187bca; 0x49c7dfafba69b2ee; 0x51730834b63d8dfa; 0x1001a12ddbbf15e2; 0x5d02b8895395b854; 0x256c7e884ca0cfcd; 0x24ece731b1d84057; 0x29ad128f13e302ba; 0x289111bc0fb21ad9; 0x7a6ef4e1f9fad3d0; 0x67f16fa2af18df03; 0x66602ddee04cafb4; 0x323d70641432b28e; 0x60e748a78629febb; 0x2dbb97048302b384; 0x12732a9e4b5eab69; 0x2bd779ed3f5f457e; 0x299c7fe1a9411bab; 0x1dfdeadc0dbd1047; 0x35e0bf40e8135b92; 0x788cea7a6acf77ea; 0x4a399b0e70655585; 0x3d68ce16d9b176af; 0x3b3e52277f9dc145; 0x34d6efb77df2334d; 0x519c5fb05e5dd209; 0x236bab1b4f164bfb; 0x5d14ea99b3dc0e9b; 0x6a2d819e83bb94cd; 0x67ae8ba00df4a391; 0x9d731b45f18330c; 0x4d5c3e857c247c82; 0x2c3337ae73a9da78; 0x3e63c87d4f65c6b3; 0x6e8956bb7106afed; 0x762eb35f6184ee33; 0x266fab3fe1ac6cca; 0x14f5be6625196c80; 0x6cc4c0bf67326dfd; 0x544a866c3e0065fd; 0x1022d474e0105c10; 0x4acfc7c9606c1487; 0x7930ac2d05314784; 0x7362f26654cd130b; 0x2766229452023ce9; 0x1063340ac7bccbdd; 0x3c6f434f7cb0f1a8; 0x342c6252f9429e5e; 0x57a488a2f35bd0e2; 0x607b1fe8b7aef9f];
   [0x6ff37ae78fb82850; 0x176af463f9db4607; 0x316d1c1d379ff0e5; 0x605759d65088af07; 0x2a5da49e1b40035f; 0x201a4bd95e908cfb; 0xb25f091a4a2f1db; 0x6479bd99a4e71918; 0xeeaa76f7d4a22c1; 0x4abbfc8f0e083f48; 0x21d935abe5ba0eb6; 0x484d2b1df85690b9; 0x407a2237eff7f35c; 0x224a3ac18450c81e; 0x5582d970be419f57; 0x1c4aabb3e12bf585; 0x62504601b513a70e; 0x36c505ea9f5ef3eb; 0x79a382fde86586b; 0x33b415040fa2b756; 0x27756e39e14e51a3; 0x716dbe60b29a9005; 0x6308d8ba834a1de1; 0x77ea78385ae0c1a6; 0x3f3a44bd98d5ae79; 0x14fe16ccb6362752; 0x49d269ff97c29709; 0x68a0b4d0bc1ea7d1; 0x57141ad55d660419; 0x1cd810b8e556df66; 0x6d749440589ce367; 0x6fe5f1e02939e2e8; 0x65f836301ae5ca6c; 0x75f0c4afc04abd21; 0x2a3fe3f80451e033; 0x63cf808c90caffb; 0x5a2d8dd6d6cbead3; 0x7020183b908c09db; 0x66830c74175ecd92; 0x52473a8201588899; 0x6f251d7c8119ee38; 0xe3928cbd3a0f256; 0x3df8978bbe01c32f; 0x477e72b5d96c3d3d; 0x290f5a4fba79147f; 0x3675e27d72ff695a; 0x4397a0194994f1e1; 0x50bb0f133d62be6b; 0x5050ada5a0f0a332; 0x1aca6b1cf38de918; 0x595f9135a30acce4; 0x1cd90e185fc0af4a; 0x2b61250a41a9a337; 0x30af9780e3228564; 0x1fdac4c52d2c1a23; 0x46b63272c58f1ec3; 0x56fb693bb36480b0; 0x4ef519f9c20b0499; 0x61beb8b3a96bfec2; 0xe39133c730b8be5; 0x571f2ecd084e6aee; 0x5e8aa249e58dd129; 0x5fdae3b54dfe076c; 0x6f3a4fb194d153ac; 0x7e96d689257a708d; 0x7f173617f46427e9; 0x4258cddbd3675680; 0x784da2fa7f331fa2; 0x58afba4625a0be96; 0x3feb1321c333964b; 0x3ec047d36445e9d; 0x6768721395563256; 0x74ec59beda4fa2a5; 0x6f3b391484bb0b3a; 0x5e5a8fafcace2e5b; 0x5cbafacf1e1add2f; 0x4e46183644e21907; 0x6c0eacefe6c26208; 0x66a5750753a67d64; 0x1177a9fd74d55dcd; 0x24416323106faefa; 0xd9f1d60a696076a; 0x6e2a400d882177e4; 0x499691248a68f2c6; 0x68193c1643352216; 0x764beaf664c03b72; 0x392f8b7d030041ba; 0x3d3ccfd6d0aee183; 0x3d48b0f791f81bdc; 0x4dafca7f08fde780; 0xaa6f6eba1291977; 0x3f941f2f3f989c0; 0x67fe60dbc97473e5; 0x7f528118fe610662; 0x9bb57be1202d392; 0x531a4ef2a9121b60; 0x755ff6a9fb4b6e8c; 0x7db7be857007acae; 0x3860c7fd0b09ddb2; 0x2587935d8abd191; 0x6cf51cd54720aad; 0xd007326a5a653f4; 0x5907f35a7396233e; 0x2d876cae58be4b82; 0x7fee3fd59307a47a; 0x3fe016c446201033; 0x17bc0bd0b295c0a6; 0x1f5789bf40640d35; 0xb23d5d535ace626; 0x5ae9405f98d2bb98; 0x7fda2b306ccff840; 0x20c5a0a334b8879d; 0x1ab81760e383b255; 0x16cb2466a0a61b89; 0xda7f2da34e331c3; 0x72993fa78ec1c94e; 0x223e3ffe2795fd9b; 0x35a28565ce878778; 0x3e8aa059e2d0e29d; 0x3d6608be2e415446; 0x15d5c96ca64b6f41; 0x45ccdf0e5d296488; 0x38d7b1c336facb8b; 0x360efb3725d53010; 0xf829f4fdd798fac; 0x587586dc1d3ce2eb; 0x2e48a0db06dc90ee; 0x7fdb7408666dc315; 0x6a77171d6b526e93; 0x112e31bbfa649a4; 0x4840961010fdcafb; 0x3786480b55b1e60e; 0x549694289b9dc51; 0x5d8f4cec4975948d; 0x32e150472d170204; 0x4cd67f5204fac56a; 0x26d141b77a36f7f2; 0x747aebb18ce1b523; 0x40a8d4b22117ab6d; 0x4c97c44bf2617ea4; 0x7845b4006b93f393; 0x75ad59b6fd488881; 0x67e65606c415be5b; 0x7fa33ca245fd9d7; 0x25c4c7edad25e4b8; 0x1ac1ea111e9373cc; 0x1d82c7a2f393cba2; 0x520ff9fddf32c8ca; 0x685060311046696a; 0x49c9bf562463c2b8; 0x59b6bd3daedb78de; 0x72fc1c69fb4cbf0a; 0x6c682ef441d253e4; 0xb922f0bb5015cc4; 0x61bee85c5d90e72b; 0x41d817d6d5471c17; 0x207a2d7c8a7b46e9; 0x18087985cf36961; 0x75e18666d173763e; 0x5667969f44eb234c; 0x2eac93a9e97d28e; 0xa6097f8ae302408; 0x5f639f023297614c; 0x60b060a92de80ac8; 0x407096d775ef12c8; 0xa7c97328d4c8025; 0x48d644b920e8c55e; 0x34fb9f943205ff6c; 0x5901034db923f411; 0x72b4694bff791db7; 0x2ee5f1d31997d40f; 0x4b4360a45cf7372d; 0x6f0b38ebfa0a13ed; 0x15c19ebedb808259; 0x381d2bb33d172db0; 0x77f0ef138972fa39; 0x56b18c30e64156dd; 0x143ad8f80bd0c704; 0x23160d63bf003306; 0xadebefb92869a1b; 0x452f5ff606f738e1; 0x1ec49d6078763cea; 0x4213e047ed0b02c7; 0x5ac2fb6b276af1d8; 0x9214353df32c2b0; 0x3482fead361d79f4; 0x4a94a42815c7dc87; 0x48a946565d9dd52f; 0x9909be8cc4be9b4; 0x5c67a1310867dbbe; 0x1d644a1ea20347ea; 0x43d3ccb3cd49bedd; 0x60a7683cf511c41a; 0x60ff26d51af7603a; 0xeec5f363d69cf67; 0x37d18cc7ab800e54; 0x7f6cfb53045b42f2; 0x6064ed8a4b24dcbd; 0x20905704637ac47b; 0x67d0279091214362; 0x19694741adaade0b; 0x4a061fb44601099f; 0x501a15c009db729f; 0x16de3d9074e5415f; 0xcb9e80ff265a1ca; 0x6d1ffe6007c06c01; 0x51c64c2d0beded12; 0xb3ae9f5e56c40fe; 0x6d09dc78d4b8d9f6; 0xe0c5626982817a4; 0xb2c6b76d2d4a6a3; 0x565767dbb148e92; 0x34f875a5a96aac97; 0x2d7918a71c0ba778; 0x4294333947308b41; 0x33cb25f4a74ef2cb; 0x54530db216eff39a; 0x2c7f31b33b47dd58; 0x1594898da74e2d08; 0x7a9b277341ac1cbf; 0x6af8e70c20a5632a; 0x77a10c95ef4beb11; 0x11f2a9a4e8fa489e; 0x49320165117f56ee; 0x2b8caa13a0f1b12b; 0x76a94452bf90bcea; 0x67413aa846bb574; 0x47e56a8e5205471d; 0x773e64947d0a1de0; 0x5154e83b8703487c; 0x5d8ce44181ceec02; 0x332be585d4e89b69; 0x561032c16e38d1b9; 0x2c0e190db3714bc8; 0x25ab819f362fa17b; 0x5a78eaab0efdf475; 0x34cf1abdafd9a9d3; 0x1e2bc92027ba9492; 0x2049b67e772bf219; 0x6ebe036aaf534618; 0x4e5d6b5c65d2d547; 0x1ee9a0db3fc27130; 0x566cdfa79372d5bc; 0x1816ecd91590df41; 0x30b0a507d6a212fd; 0x5e636d019d8330e1; 0xbb1d427e30c79b6; 0x46ebc212fbd45dd4; 0xe0ffecd23b7c835; 0x3de396456e3d14b8; 0x3d3350962225872f; 0x1f7007652cf88e37; 0x663beb1102da8c8c; 0x2bd0715d51dd372a; 0x2f41c0f8350cddc; 0x2561a5f79a1f7e14; 0x33ecad54a060cd91; 0x377c755ff3410c6a; 0x78854e642bfbe85c; 0x3d2347faf563de49; 0x3eb4f4e1c95a2182; 0x38c60a3878e62926; 0x3bc3eea13bcfaeb2; 0x5f3779e3701a07ed; 0x3a3fc3c18a3cab56; 0x7d0dece0bdf41d84; 0x23ea01e164c0b92f; 0x61de2da069cb48c8; 0x675b750f7c7d6c16; 0x37c560db92e64371; 0x51cd4f5ff0c3b4da; 0x5293dcc4df2bad92; 0x228303dd4a60e361; 0x6590d931196f72dd; 0x74cfa2c8f6c695d5; 0x7b653c66c7a397ed; 0x7b47d3e182e4dfb5; 0x519baf0552c22ca; 0x79ae7dd4ccce2c84; 0x618a9415d314db70; 0x1f157c6d4f3403c8; 0x2126845e4c1c3546; 0x3e94afff6052faf9; 0x522e7306bc15b140; 0x3f5f89da57549304; 0x67b2e3cef4a2faf3; 0x3642b6822a9ee606; 0x4e9266bedf5ff880; 0x22beb2b7edb5bf5f; 0x1c5cb996448de7e; 0x5bfa23262e3d9d3b; 0x1c57de94e65a1d24; 0x1d4596cd600be3e5; 0x7bab076410b5c004; 0x4ccb88c0d9effac1; 0x208aa9bded91c2fa; 0x7bc42cac8ba21cd1; 0x7ea31e6f29b136b5; 0xd919edff0b1322d; 0x6d751bda2ae35189; 0x5aa842de20b21227; 0x530dd532ec963876; 0x336e33bfa039a7dd; 0x2c8c64a1fef548e; 0x45ce8352e3f309bf; 0x5264681c31b6f688; 0x1fe77c0c84341e22; 0x3df8cebee395f403; 0x52098818c1c99df0; 0x212229fbf2556c82; 0x71ec83e31b1f8dd5; 0x1d1902c5b3d5cc21; 0x76e4b95fe1de33b9; 0x79a77d9c3118c506; 0x251c7d985a8fa8f9; 0x233f72f5c77f19ee; 0xd5fc03396118a04];
   [0x6e47afa64595ffdf; 0x319e1a41d35d07e9; 0x5baf5a598c315c32; 0x619ed9e85ad03bf1; 0x3bb14789e8ba31dd; 0x3d261b45ec91dea2; 0x46901eb334bbdf7d; 0x675516f883eef2f4; 0x5b9188d7ca911cb5; 0x1faa654180d4bf89; 0x35796a38dc624e5c; 0x767f68674ac59c1e; 0x1e539f4c75e9a370; 0x50a8a2ec8bfa4aca; 0x186ef4f233a989f1; 0x7f49831a7b4cff5b; 0x7ee80030605ddc4c; 0x7fabd93b6781bb15; 0x2d64f052c27abf3; 0x6ced53ba13c01f2a; 0x44e13d165e777928; 0x57c42663ac1378d1; 0x5323589b90362a8f; 0x1d493dae66856ea0; 0x4b362d8ae55dd033; 0x25ad73042da0b1ab; 0x7cb09236fbeaff61; 0x49ed8fc1e299db16; 0xfb5470addb7aef6; 0x35d41016522acd6b; 0x320e71e3513e4c8e; 0x778ec96ed5b4c4e3; 0x36f08121bb28813b; 0x648d12d03d166780; 0x1705ce273aeeb83c; 0x487bde8fe80f82ce; 0x13ebe0ea0a37c42f; 0x62c8e49030a80867; 0x641ddf98279a8e7e; 0x46d0a767c16db600; 0x2b08e7f21575d45e; 0x251767a9a98d5e72; 0x12700d57be60aeac; 0x1c348d64139afd7f; 0x56baa3fe832413b; 0x42e8bc7bd9bdc6b5; 0xe75667fdf1f5160; 0x1be6d1ab71eed15f; 0x129ecdeae55bcd55; 0x525fc79f580c46d3; 0x206c8e210dd184cf; 0x2e91f9523cf5a80b; 0x78c24ebdf3b7526c; 0x23af0688e9fd2a1e; 0x79079e523ea0e399; 0x422f8ff716a29a31; 0x496dfb8f79fd082e; 0x5e45db590d53a36c; 0x2f97a4020d76c9d8; 0x44d916073f336d61; 0xaa7122cb9c4c8e9; 0x211740213d618e1f; 0x6b254dfdbc99b8c4; 0x16ee44ccc8df8d0d; 0x3abf99970c47d337; 0x3dbd453605cd8547; 0x4cfb7d111916537; 0x5415dc262d58b4e9; 0x12c6b09ddc25f9ba; 0x5d42b562c657acac; 0x10615ed1114befff; 0x6fddc42e66ee96e7; 0x5b2e1bab29ce1cda; 0x17429e7c48363b23; 0x5c5b3934370dd927; 0xadeaeae9bb1ae3f; 0x406ff11440004502; 0x68df04d1cb299cd1; 0x50ef1ceeaae6e00e; 0x4c807d2bf6f5be07; 0x65a02b38510d36a3; 0x13d4037de753a863; 0x12bd4852bddf7c22; 0x483c416013c46b10; 0x2cda2804be295dca; 0x1c2bff934dece623; 0x10392653ef59dbae; 0x1777265f1b79ef73; 0x434b7746b5379042; 0x667f6d677961a3ee; 0x4592799436c9605d; 0x26327c7ad9edb15c; 0x48db7305b7d94563; 0x34754b769dc0595a; 0x3af9a496851ea1b5; 0x7edc663e7d047a96; 0x6677440c11fc7eaf; 0x3e0ee14e7f8311fb; 0x18c689b8a0791b86; 0x12ead241b49af045; 0x6f22b84c7da37172; 0xc4b9452c3451dd6; 0x1c96b3c4fcf91a64; 0x7d18290c8cc3c165; 0x7ef0384e0079d0b2; 0x78dc49179e6fdfdf; 0xc935c0e00ce71c6; 0x55ae26531ec0bcbd; 0x64fb48a547917f8b; 0x485e302055203a5f; 0x315ef6d68da1748b; 0x55aadadad10162d9; 0x4ba0467f418db519; 0x782fdf58ca45f9a3; 0x6daa331753073ce; 0xaa0cd15325dd7ff; 0x60830ca95cc9b95; 0x54e7b46d5946ff90; 0x1891007e42c79829; 0x5dd787c94f8a03e1; 0x9a3c7bfcc2e0364; 0x1673dc9b5addf3d2; 0x6aed19594c43ea0d; 0x45ff0c3ef14a70bd; 0x708827dfc8f33c64; 0x458c394084b8a632; 0x1e1d97888908b9ba; 0x152bdc06c283683d; 0x6f5fe3710e83aef; 0x86d0e49d45a97c; 0x1882c9a514baed7b; 0xbc96a3b9a8d88; 0x58fbbe3fc3ba734f; 0x1d919b6decbc0a7; 0x7e275ef2c9f3ef18; 0x7774e6b146bb777b; 0x60f6ee8ef455704f; 0x697fa5d8ea1124e3; 0x341ba9ba1d93dac4; 0x4a00ef9efb22879d; 0x4b588ff684ce9388; 0x20f814812cce0592; 0x676a93ec6653b2ed; 0x2e095d2291ecdfe6; 0x2b55bc4060b74515; 0x175ecf9eaf73e4f8; 0x7013ea7196744f90; 0x17e0aa5142a334dd; 0x63e4dae6d2e64718; 0x7028654ae5d64203; 0x4c52c9f20771ba26; 0x377867861903e187; 0x5233d4040dc59059; 0x71d5b5682b39a97a; 0x4b38eca307a0fc32; 0x2f967ed03f04c98d; 0x7ab30405333df621; 0x6f88775122ca7583; 0x7e117423d3ef9b00; 0x63f758e5e85fc4fa; 0x2afb66252cb0e010; 0x2007060975c8c035; 0x5a639221d6e7f334; 0x3a20e7f30ece19b7; 0x28b4669ba4f83721; 0x69bc08fbfc27f7ec; 0x843ac8d7aed2556; 0x241ec49707413d7c; 0x793045f613398afc; 0x389a81205fa05f63; 0x13f8c8a209e32af5; 0x1a949c204df65a11; 0x780c94727701add; 0x33342637925f5061; 0x6fd726f853c00463; 0x78503c27ec9d756c; 0x1fc37459bfdc066c; 0x7e237df39769c067; 0x1d19556378f55a94; 0x5593f74250812936; 0x3468c0d9243852c0; 0x6748e88224a69945; 0x5966088e15a2c398; 0x44d540f4620e1c64; 0x44476431a67a5fae; 0x4ad8ae8bdbbd5682; 0xe37186292625d8; 0x13a8e0bedac032b8; 0x741eb3503c68ffb7; 0x41525a698ad3334c; 0x2141cdfcd4c81012; 0x5c3379097c557b20; 0x767e5170ef36c522; 0x3130469e47e4bd99; 0x1132a28668611493; 0x41c8927e4f623092; 0x31f12caae23862c2; 0x2ebd78ed422bf438; 0x6c9ea18173992b66; 0x35252779a3d2610e; 0x3f9dd5229d35f5c4; 0x771f27ac61446884; 0x72a848beea52e108; 0x3a8fa6948d324087; 0x77f8c42a164939bc; 0xe392cf933906e73; 0x14b9672784d1e482; 0x825714625033438; 0x6ef3e416ccb1346c; 0x36c91f6eb4bd038b; 0x50644abe3edf8414; 0x26fae3443fd95abd; 0x27e90c23e6d67926; 0x453017746358be2c; 0x3e3df275ff272229; 0x40f6eab90e9de554; 0x3e36599c0240a199; 0x37187c7dd7881503; 0x7c99cbd196127a62; 0x13641db5341e62f7; 0x34395ede55729ef9; 0x4bb9c0f9925b1d; 0x7f44573787bda82f; 0x5f72168d5b9a8f1a; 0x16f0d8205c36f783; 0x1322b8468bc2a99c; 0x606af4767bac9091; 0x55652447cf0f1d1e; 0x1ea55d3b3272cfc; 0x4f72d7ea8dee7782; 0x30341ae22eced4f; 0x92207b2b38f5827; 0x59899ce9a6273b68; 0x38b720cf30b1db54; 0x6ec813c644c047d2; 0x611cc848d3fb47f5; 0xefacdc5d1f40377; 0x1a402961ec480d4f; 0x64c82e194e95d7b8; 0x4216f079e26e4e4c; 0x41b819c75d58090c; 0x5d8ca6583d1a04c0; 0x1241c3cc11aa53d4; 0x4829fcd2e08f91c8; 0x5b5cb8bea67cbc2a; 0x6369142ece913fba; 0x481f4123c5edc612; 0x3902bdfa45ef2293; 0x52f5c393f2c49070; 0x4485130c0b0dc746; 0x18e9206352ab48b3; 0x6dee8b31f4ab09b; 0x440da9705e2165a4; 0x1864478270bda9e7; 0x2aa03fde75d6b4cb; 0x6526b5c5f0d893c9; 0x10db398a12844d9c; 0x2a8cbc7aa85614b0; 0x5af4497a833ea86a; 0x2b39537b6728b96a; 0x553c78d53e87739e; 0x4111e582c8871ccc; 0x3dfd78497bb9bff9; 0x1084dfbb1cdff71c; 0x68ed798afda08b78; 0x475cfe10e17a48ce; 0xc80f1d1e53d12b2; 0x591a7c28cd9fcd6; 0x192341c14c10f672; 0xb2528933c44e804; 0x83f7385f0c3b790; 0x133eb2ace214de18; 0xb320070598d6851; 0x31588401f66eaee2; 0x44038b8336db359c; 0x54b38945ce7e3c31; 0x321e193b9f299e69; 0x43b1f9899a48e261; 0x1b14cba69fa1cd36; 0x33b959d0dd4fe219; 0x71b5aa12cebd9923; 0x19efc3fb8d0966a0; 0x372510c926aad51e; 0x58ba34db5bcbc30f; 0x87e6adeca577a70; 0x1023de6eeb6b15e3; 0x6c82cd34c15288c8; 0xbfcbc14ca57fc8e; 0x21ffa23fbc6794ea; 0x2b39b08e57fc4f95; 0x176cea74060a63ac; 0x2a71088d09b30c78; 0x266259b3040bfa6e; 0x1526c3e1f1011cad; 0x68f8b3c7f07d8989; 0x623e3cbe64af4c59; 0x2d934761f8815dc1; 0x48925f61ed585a87; 0x22d46a3f9677c907; 0x1d24271c2ff8e37f; 0x7d80e3c62d66bfa4; 0x222f5f3347de03e6; 0x6e517ba3ae949a6c; 0x24ec9ce12c48a5da; 0x3be091d57caf7cfa; 0x1195dc4a136b096e; 0x6855cff982a45ab2; 0x1338700899ee1973; 0x2a306d4259111dc9; 0x65565b9180c1f843; 0x7f1bd2d7a58ce114; 0x2b9c44f9b0ae786e; 0x5c5bf82649b21f09; 0x1ebf936478efa20a; 0x424ddb3f668fb22f; 0x393263c91e7dadaf; 0x6a119361b6dbef2];
   [0x60b695a1fafcff9a; 0x53c83979351abbda; 0x2a729c63be70d3c2; 0x66d8ff50da78298d; 0x771a1751186131a9; 0xd8e811cdef9ee63; 0x6f67d4eed060699d; 0x4318343a0225908a; 0x66c672a71bc7613e; 0x6b7ccafd47f50acc; 0x3d51d994814cab07; 0x309b45a4e5117e6f; 0x4948c6e3dfe8cca1; 0x61e5a3cad5d18a6; 0x6c6ae562859d73ca; 0xf7966d3f564ac17; 0x2846f7f36c53d879; 0x2fa39e7b2aeedf0e; 0xe48221c165dfa15; 0x77d2799504c8a496; 0x440dff350d983739; 0x6f6294a209d5a4e6; 0x21e9e26b10b6df10; 0x5ba71a9fc76e4c60; 0x49679aee7ef868ab; 0x184d39d7599fa65a; 0x60fe6720d2c3762; 0x88fcc6a2f015338; 0x40df0661f71b45ed; 0x3e92a527f0276ce1; 0x6c3376eda999c8d2; 0x66f8fba1df105687; 0x52a7a494dc7c32b4; 0x645c43e115722898; 0x264e846c2b3b6306; 0xccbae5293822148; 0x79d9d577ceb57b4; 0x1906c7d67f277b32; 0x74b86b0060af56ce; 0xd785249bab378bf; 0x3ee14204ac61cf71; 0x56410a04074a5b09; 0xa4bd89c834cb948; 0x4be626576489963; 0x34c0db882bf37784; 0x2c03c5088ed86624; 0x6f414a49c9862481; 0x3bcbe4d24770866d; 0x7c2aa5a8a1563f04; 0x623e186b65acc946; 0x4a7870b3af268892; 0x410853c2a7f0d1b4; 0x24a1bec1123ec1aa; 0x37117380707bbb25; 0x289aa8ce854a0bbc; 0x1da947a916bc0bbf; 0x1a62dfd95050e840; 0x6f0dd74239704606; 0x561cded3b95daabf; 0x11487da55f04a7c4; 0x352fb72473c507ce; 0x59f623b4dcc80928; 0x34cf19abe26e364d; 0x3ba69507cafbd515; 0x2265dc09cb17ff55; 0x3f4b611861cc586c; 0x4837816e50055b38; 0x6973c69ce747ebe9; 0x2fe5963160269ddc; 0x20fe09d73134d9bb; 0x558f01605cacd5ad; 0x4ecc86684ac81a92; 0x4c2f63491b5d0c48; 0x444ac22315fd9c6d; 0x49df6efb72bc45ff; 0x4a25151b8cf7fa02; 0x1d6ea9d7a895e603; 0x695eab3fa6eb0846; 0x53e5e95ecd509226; 0x34d8c0e161eab960; 0x46645f2b739f1b56; 0x12265e8bd81b9e41; 0x15d72ffe885512cb; 0x100bec40b9cc3d0c; 0x190f6404225906b0; 0x80e7c6b1afd70f; 0x57ee5c91448410ff; 0x5b99a28d891083bb; 0x248dbb02bdf43a8f; 0x7f3b43c7524d160e; 0x313093f616e55ce; 0x403d4fac9600df0a; 0x56a4e8a75f520508; 0x3b47632c6b7a0bc3; 0x16d168c9467514f5; 0x2764afaf0ab5b27d; 0x1890c4a0044595fb; 0x629ffce60f15cbc6; 0x3026c8f84ab49f9b; 0xc96d81f366effa0; 0x343d71441fc0e7e2; 0x5c1ccaa8e45333c9; 0x2d33f341611b3a11; 0x79523ccc055bdea6; 0x14d3e3b01774f94f; 0x23cf59c723522ae8; 0x71c4bf0458150e2; 0x609d7c7c7d0df30a; 0x371180df7f92f8a2; 0x50fd4ad8dd04c0b5; 0x59f87712d4f18d46; 0x7a39ea5e1c238cb3; 0x669f3c4158d9c508; 0x5760d5f788d25165; 0x53974f7ef8672266; 0x1077f004c9da233e; 0x56b78206bb3b4c54; 0x17f18129f79fde4d; 0xbd8f7be38472808; 0x50a89771ff158569; 0x2af3eb73fae73fb8; 0x4501ef75c4435a49; 0x472954ace1085b1b; 0x372b1d2b8bed02dd; 0x46f63ad49b5441af; 0x5e657131237aa6e7; 0x33911991e669c907; 0x5d88a513faa76c5d; 0x74d80be8a0952025; 0x5ab5056b7ce03249; 0x18bf9875ac611f97; 0x7fd82080694c41a9; 0x1e27fbd48760df96; 0x14603a46f9abd83d; 0x70f23648d71863b4; 0x5be2bed084d96b29; 0x53f2bf397ed07858; 0xdcc22878aa67903; 0x3e149c229c1df24f; 0x325a1b2705c3c20d; 0x3f6bb07e4c25d717; 0x6f31cbba278f385c; 0x599769edcee9ef41; 0x7afe1967621cd687; 0x2da4d9d732f8b86a; 0x2a1c9a887539ddcb; 0x3bfa60335f7f5250; 0x3b26bbd07ad0755d; 0x7cafba338527ab02; 0x442a9bdfce397e1c; 0x1de9a6df97ad8c80; 0x1031c1c50ad4a942; 0x2f61d3479ab40748; 0x2b20ac03f04ea305; 0x54a20045c4e7f52d; 0x59bee672360c79b0; 0x6fc83c208a075b6; 0x4c77c1e9ea1dc8c6; 0x33ff82a53e77dd78; 0x77c2d16aba545da3; 0x5ecacf9d7bfe5d9; 0x4edcbfee137279fb; 0x72976c1aab7adc01; 0x2675e3e4bb685089; 0x245e48f5f22cb82a; 0x4edcb6a1de5d25fe; 0x5e94bc647b54692a; 0xd5b66240ed077bf; 0x3ce63df200da3011; 0x373dba79f795bae0; 0x1a93e1b603c3c729; 0x469848c91a57e8ed; 0x34d26c3095bb7423; 0x31255858b3b0007c; 0x24caeec71e105904; 0x17137daa125ffa0; 0x5579fdd6a1d7b1ac; 0x73734d20685d8e22; 0x7996532fb22e3def; 0x66b606c267e45585; 0x16c5498e16bcb1ac; 0x2e5069ab8b50c90a; 0x3c2faadf22f47bc6; 0x70efc1713a297ec5; 0x219410fc6869df33; 0x7992bdffde3fe331; 0x7abf390fdf3d0c52; 0xf00b3df516477ad; 0x6e70ce91c34b0d4d; 0x5c6267ce73cea486; 0x42483776b40b8c83; 0x252037c8c5fb1a75; 0x1d92150b66697b6; 0x3a7106373ba2957b; 0x14ba1ee58603b50a; 0x7bc44d3e0b2aab9b; 0x74eabe7a9b943803; 0x7791b3132322ab7b; 0x66e26689d0e10740; 0x4548bc711e1004b4; 0x6f6e3bf489e66730; 0x2530b30afea10b7c; 0x4e9ca28c947417a1; 0x358de990516c6772; 0x1c03b0f85e86dc1; 0x34ea4929db819df5; 0x9f5397ccc7bbc3c; 0x7cf1a494bdbf3bac; 0x6ab4da9ccaa38c8f; 0xb85e0a90af4b986; 0xfaad95c1b261b51; 0x2742f5e4f3412281; 0x798be61d09a66c52; 0x155df7de8d77b41; 0x26178456fca7b563; 0x125bc4718de05f54; 0x77b89088b0043a5; 0x1dc8c4fe489b999d; 0x637e0b84c010f604; 0x133c55f81701fbb5; 0x526439f3f264b1a; 0x5db8d186cd63ce1f; 0x1415ff2062032762; 0x48dbec8d2b13822e; 0x2de527a831179b22; 0x49a9592c79fcde85; 0x6256594a5cd717c5; 0x603468c82a05ae2d; 0x42f8469944434b44; 0x56211d3b8e58ef15; 0x75e895e703e695fa; 0x2fb13ef16abea662; 0x14090afd5bbfe630; 0x6b1b045bf1f9a94d; 0x27650286265fdaf1; 0x6a8ebad5b34fff11; 0x6c4c81d65d253cc6; 0x828b24cdeb1f91f; 0x5fdef0372f88d0cc; 0x708677539f038f0c; 0x609b850cfad9e704; 0x152c9fac1beaea41; 0x336db168720c96f2; 0x1dfe6a80c7179e4c; 0x2e91e0de9b280a2; 0x5851dc8b32f200b5; 0x3829b758e0b5ce59; 0x589ef36a41bc3494; 0x867bcd027287216; 0x59fe082a4d54c173; 0x3a3b2cda8f333828; 0x5451b1d4dddbb763; 0x572fd6c8f69de17d; 0x45aeeb75ec3243cd; 0x459f382de27f888a; 0x7c71e59bf034d05c; 0x7c3bef28cd9cfbbc; 0x6ab10dca8e0f5a95; 0x329b7f54b08b09b7; 0x47bd6acc8073db05; 0x56eea891df27b7c5; 0x2e16cfbed5406cc2; 0x76dc2174fc65c9a; 0x6f573636b85d5cf5; 0x553df2858416c432; 0x4204fc3a3b44e6f1; 0x7a75fbc988121aae; 0x10e8f6636afa145e; 0x66fec845d83aae37; 0x1fc6c741fbeca7e2; 0x38890e871d5ddbf4; 0x7698f0dd51b4a6e1; 0x74dd9d7afa81486d; 0xb5ac7ef9f5e6a80; 0x532b441da0093f11; 0x349091461b46f868; 0x47dbada551165fa0; 0x1bc110ea85e67cf4; 0x6a6f84facc6b0318; 0x1dbc5af5f833d0b8; 0x43f1d43d88d29a03; 0x13a1ab9e8e0f9492; 0x764cae2b0b4d6ab9; 0x8313ea918894b82; 0x7032a4b46ae4e70; 0x5ea7caf638791df0; 0x56972d4e43807dd9; 0x2071d2185356608c; 0x5f779681e3050089; 0x18b6938aab7f0046; 0x6e2c68cb44daee01; 0x70d85f80fa539756; 0x65732fbd78346c33; 0x6101f3ad326df3e0; 0x53d99efb26f3e73d; 0x5f89398f8b725db3; 0x222e82a036007430; 0xea17c0c70977a20; 0x489daad283631d7b; 0x199f92b1f0cf677a; 0x33fa921819f34199; 0x40ce3de7dfbf5d6c; 0xb52b4bb4c6eed2f; 0x353b8d1331840555; 0x657e6ab68ba00a50; 0x49aac035634a316; 0x7a030b510870a88f; 0x6041049c1a66306a; 0x4a3370a86f5fd637; 0x2d872319e69d6582; 0x22d0ba3901ebd1a6; 0x299a39a0f0fbea2d; 0x49d2fe059bce2a04; 0x737b5cd1393f5e25; 0x355c41c9a6baac34; 0x75593eb0f67988c3; 0x7b6ee16dad52520];
   [0x6534da35023b15e8; 0x60545a2e5bab700b; 0x12e8ed93b5cb95ea; 0x42a7783345b5dc9; 0x113d04f768947659; 0x5e0edacdf834e597; 0x47aa40eee09ca327; 0x17364a7eef99787d; 0x15caf07761c36e8e; 0x41fd1fd99e177de; 0x4707a46f359b7868; 0xfab96ad90669bee; 0x4a7f106e28de3f5a; 0x29a3696f223ce6d6; 0x7e6db967730b59f4; 0x134076559f87d2c4; 0x7e8ad434a702be5c; 0x3e79f7be7e835205; 0x2a31a8b198d17c8c; 0x68d5edc5bb1541de; 0x7b2e147757c5afbe; 0x134ed8d11c664ec6; 0x583dbbe249ef063; 0x3bc60cb90506404c; 0x6156021f833ad039; 0x67abb54a8d230176; 0x79428a66729e0f9e; 0x2e6cd6837df27869; 0x46241c3d789e226b; 0x7ebb02cbf990abb8; 0x74577695f3745fe; 0x168fe45a962fb5c; 0x2cf8cfbf0ac5c0b7; 0x31172d9141443f7b; 0x5182ed06a251d7c6; 0x29762c99bf16536a; 0x5f8af81134a1b5e6; 0x7268b92cc30a73f7; 0xff23f5f4e7c52fe; 0x1e77bf147cb253a; 0x752847088c9951a; 0x56f809564ad6fa9c; 0x2de4d416c8ff4a25; 0x7f6ddf581c81a014; 0x77a922b203b59df2; 0x66ea85fe4f26b117; 0x7a41e6530d60b8ac; 0x288d91cb14029da7; 0x7be08b25bbf121ad; 0x700c4f5cf9147549; 0x4398dbea933e26b5; 0x1064aafd4ec0790b; 0x44f87a81e5d03e92; 0x7a1eb1a574539c74; 0x7d5eef8f81d6b0f2; 0x2fa30ce9e4ef0e74; 0x1265a50ea20bac7d; 0x1fa0925036f8702f; 0x58bdf894c7e2dc8b; 0x78a998a2e6764f32; 0x6186c1e8b9507dec; 0x7314917f0a7e990a; 0x36f8f60b0cec17fc; 0x6f7f91a6859f5c26; 0xa3d0f3cba747e00; 0x7092f6728d4f7147; 0x1ff24f5eb72df78; 0x428be314c04760a2; 0xe77d528561af559; 0x6c08ba0f970705fa; 0x3f4a123dd806b38c; 0x4c4c884a5d3240d2; 0x35d228c9752df033; 0x4ce259f0b26b645b; 0x54483d9d1682de5b; 0x37f319e1e6a7eed9; 0x53f7758a34b0a24; 0x51e1c618de079c22; 0x3607abd983f48e67; 0x34c5f947c93df65b; 0xfe03d857f51ca5f; 0x72d8ba7da5d17fbd; 0x3cc3d786a8ef43ee; 0x18809e6527d03619; 0x36062c8322528164; 0x13b2338c84456f20; 0x2e52f83ee93da9a0; 0x5b3ad2d0088e5ef1; 0x6d90897729690a84; 0x48be98f8445893bf; 0x7050095d0c2460f8; 0x2e8776fc1dbbf020; 0x36e2a9bc734be972; 0x4636a809903c12a5; 0x26ee81a93fd7612f; 0x1866efe636d331d2; 0x28529867d285e876; 0x4b333292197d83d3; 0x4efd16910fdb6a0a; 0x3c3b99e9a9a88025; 0x5a786d5932567175; 0x2ee5f79b33e9c897; 0x613dfd8f66cf4edf; 0x3eca22b120f299e8; 0x23d90f2450537c9e; 0x5ff06c5cb23d5f4c; 0x22a95da8b2deee14; 0x10527e44afc8b201; 0x20dc71ae06a06e72; 0x743f1a78cb118514; 0x1932b8ea5dce8d13; 0x4b8b0c347e98c6bc; 0x500ebf565b391119; 0x34e2af54cf487bfc; 0x72ec5610efaf1337; 0x1e980aec17ac1fb8; 0x15c9bc4aef4efbbc; 0xa53dc4a748d390d; 0x556c28da8f193aec; 0x296d27450670f18f; 0x1aeb8f59c3149df5; 0x62964a7510334a53; 0x267a79412d20fbac; 0x29922f75795b3d81; 0x4456f83068523b8e; 0x728b22fa6ba24375; 0xd729a44ab72cfe5; 0x5aca64db4ce46c0e; 0x207fefcf15092b5a; 0x2c254c6213d39906; 0x5e88f86f378c8e41; 0x54686e9b4ca8d065; 0x632491e33c48204b; 0xb6374d3dddab5da; 0x63b327cfa39a7dd3; 0x38767ec536fbc221; 0x1f5485da4ee0bb30; 0x62fddc94f74c7ae9; 0x3c8643485f53ed72; 0x5f18b4a894c7f255; 0x6bc64f9fe14cc81f; 0x1b3faaae7dd7e07b; 0x7cf39007ebaa896d; 0x2b6579aaef75931f; 0xd013dbf976987c4; 0x6321355b53b96ab1; 0x5e99dda264e76600; 0x180d0d22c05b2894; 0x67cff652fe31333d; 0x6cc923a957b3ce88; 0x5ed2ae4a6d039d56; 0x54c4fab3fc50758b; 0x5f0b2bace9223aaf; 0x7ef1b172a27f4247; 0x19ddde1cfd5c6b92; 0xbac3688581aea18; 0x1cc6bd4a9da3af11; 0x366bc183397f9a0c; 0x16eb1e8ecfc4c601; 0x7ff614d7c0e6e05f; 0x306008eaca427792; 0x2063d2938c1617f2; 0x534ebfebdbc59a58; 0x67cbf07459c293a8; 0x4914e3d3fabae23b; 0x47f7378da77a3512; 0x3a7c77b857b3f497; 0x7a1be449928e741e; 0x5782366c0bda15b7; 0x2b542a0f7577d8cf; 0x9581c6c739e35cd; 0x667132acf06ebb51; 0x56edd87d4ae2f878; 0x2bf748e35bdf6ef8; 0x71159f0b79be9276; 0x1062112787ee6365; 0x3ad8dc7876a7f9ce; 0x22543965e029adc7; 0x37781c2d5fd37d75; 0x1f308ef3f9009e6; 0x510e7348e7e27a0e; 0x82deb988db94a3d; 0x4ec77a284ebbd289; 0x48f73f774a357fb3; 0xd1c7c7aed747939; 0x103f4504c0eb9c64; 0x7f4741370644786e; 0x591eead05c327d70; 0x7df5de976db08712; 0x6c12589f9cd25e2c; 0x3389d2b9e7180348; 0x4462b071d3b38fc5; 0x4bfd2061b43b7ef2; 0x63ebb473837e2cf4; 0x4d61beecf9e063c2; 0x17ee55ed5ecb7844; 0x43383c4a9d24561b; 0xda6bae9d2a1c77e; 0x439df08c4f1222e3; 0x77f995558740cd0a; 0x52f8bb9f867f9360; 0x3b33217795f5a418; 0x6c2f6655ec94666; 0x4132af225bb7440e; 0x3f3e71c7ac2865f1; 0x50e9a6875084a9b4; 0x789ad78146fd5d54; 0x34aeaa7db17eb6f2; 0x2e2eee2824739543; 0x721c63401e8d15fa; 0x51b0519a6b4ae703; 0x5d648f723f0026cf; 0x19eab8804199f456; 0x350f0831320da451; 0x5363ea4d2cdcefe6; 0x5e1ec03cf27181df; 0xc1682fa259be1d0; 0x5a5b6e4b1c48b74a; 0xba5a72b71943290; 0x66b0bc74cbe7bae3; 0x65c5b95c8571881b; 0x745b6f555a84f0a1; 0x2fd96fc51c982b41; 0x4e2ee1df8a31e0c; 0x7e0b37c9b6e777bf; 0x5a1889aa11798dc5; 0x636f1b05baa7e8ec; 0x1177970ade656a52; 0x1faf522fd9393a95; 0x21c3dc9135463d0f; 0x20c0cbb6a83671a3; 0x3eeeaa882f043be3; 0x3342a2c810c5c481; 0x3131c9cfa62c078f; 0x3927adb76ea86972; 0x73bf0ff694a6d834; 0x448cb8811682dbb5; 0x3033429f7515c68; 0x7e066a337c372fc5; 0x2556e0e45b747c90; 0x745b30856e29ab83; 0x536aa7677dfd3ae2; 0x538aa556d1c90c23; 0x653e759447aeaa11; 0x789f2d19362733e9; 0x7d9e0cf7fddac3f2; 0x3405c83f4df2e54c; 0x753ba279039556cd; 0x2a15ef0c71f87c86; 0x449db5a0a521344c; 0x6931e9b1d45406dd; 0x57cb1133c08afaaa; 0x6d8a6eb37ded7e01; 0x3e59b118acd8f87a; 0x2fa8d91849fb9610; 0x3f5b30b1a6c22c4f; 0x9c79686b632fdfc; 0x6dca9008f6355e9a; 0x9c2daef72be5608; 0x40e5f9992bc75a3f; 0x5bf36b65bb6a546d; 0x2111f548039efcd2; 0x34b4694cb2b150c9; 0x670a38267a1ad932; 0x30f5331a1f04450e; 0x49ea4e5b18a09968; 0x716015d2bbd8a61; 0x19385b4d445f326b; 0x61e942650b6538f7; 0x190cce20ea728ca5; 0x1037090549303ca2; 0x1ad037885d37e87e; 0x48ca2f235e8bc861; 0x6045945f82cd7342; 0x7cd9276730b46d30; 0x2e8692adb83144c1; 0x3d26ea2c001e9ec9; 0x45f284f6ee9ab971; 0x46afb85a72bbe6b2; 0x61df4a880062197d; 0x4b08d88061c59e0a; 0x7ffeb3f2431cadcb; 0x42b0134b7684c97d; 0x139afa8f4ff88b1; 0x69579ae60887e9d7; 0x1c56baed67de8ebd; 0x427fe0d57f6a6235; 0x2b146ca7a04f9b95; 0x18dd6433328dc921; 0xdc62299a6ecc545; 0x486864f66c14bacf; 0x2ec612a83e7b8e3b; 0x17660d7453154dff; 0x6bd7d0249d2befab; 0x22077af0ce1076aa; 0x25a77f770067a071; 0x24fbceff9719a6d4; 0x11c5a7c183698383; 0x6c26356a8eb93c11; 0x7b054f225846838; 0x4c46972288362575; 0x1b17f11a54978d37; 0x14120e3982a57f13; 0xed0ab823aa7778e; 0x78c835cc2920b2ee; 0x571ee295bfc66027; 0x50f1384f11a4bfd6; 0x17e51174449bb4d8; 0x660e6f074d45867b; 0x7c2a08eb25a8c587; 0x6b712f437ac36061; 0x16307561e0e75280; 0x89e80ee1a3eb0a7; 0x260d6311811a5ffc; 0x58b4cf8c58ee5fb5; 0x420c328d195e9197; 0xb9eb57bcc027934];
   [0x4fadcd78fad9d1ae; 0x6ebac757ecbea80c; 0x6b420e0821ebb4e8; 0x157b1ccb682c2814; 0x17c82fa2aaad8730; 0xb28ac1d2a0aa24; 0x5b79e4d17c15d776; 0x46ec50226e85aa3c; 0x79179a4cabf3cfd7; 0x2b235ca578662ff2; 0x623960b0e6b64c03; 0x42660165359c3fa2; 0x2f7159a9983a5689; 0x5852e93b503eb2d9; 0x6aff259630d3f331; 0x5e3c8360e69b6443; 0x3f53cc33215228f5; 0x1938cf4dc45bf77c; 0x1df9f1440ad01dd6; 0x159d0b44acfc6cad; 0x635cd71703bfed48; 0x2c88159020191e2b; 0x3eb40f05750ce3d7; 0x15b393718575198c; 0x4312e91404dc1ec1; 0x145b606c625c908f; 0x16bd20db8e1363db; 0x2353df3722e2c471; 0x411aba1e25757592; 0x53c50a23bfcba422; 0x664de31027cbeb50; 0x4ce5b2c4add75d7c; 0x46436feb3118063a; 0x2f7e3451ccc33e09; 0x4b0907d9e9ee8d5; 0xd1e2ffdf0d0aba9; 0x1071f87c17238316; 0x379d026538c24230; 0xf1725e4a2e6b25b; 0x7d9cfbf49f6fbd50; 0x2210f1791d3e1c66; 0x266fc7b910c7f986; 0x736f2365554a3171; 0x625334d7a14266ae; 0x557491b896c86d94; 0x71f162fc20f963c4; 0x67f4ca128ae59c89; 0x34cf00aa3423be23; 0x7e0fbcfc759b5eda; 0x3d4fb11eda400ba; 0x55e666e0ee20f3ff; 0x332a756f24334760; 0x3f78923e79469774; 0x104e4e283e5f684d; 0x1c8e8cbafec22f3d; 0x5e4c3817be668a2; 0x38b247499b864282; 0x24b0cc1dc5fc0ac8; 0x52065cb5d91dd2c; 0x5a922abcbde4859; 0x57b39c82723b98c3; 0x2ed9f411100e4f57; 0x578cf2149c389852; 0x5828584d25a18341; 0x421e65cdc946f7b3; 0x4ce4db04fef944e8; 0x424234745fc615a; 0x54171a068dbd6b6b; 0x6c6daaa0084daa9d; 0x69a1c93d77d28e83; 0x5e03de8093096336; 0x44c754ebd6c6ab1d; 0x8f9479d0fb76832; 0x946c21d9e73a1e7; 0x29e220e9f4d6831e; 0x2c74bfe89de4a54e; 0x776b420bf9efa33c; 0x1900d131f13a5fbd; 0x13ccd4a479b8b3fb; 0x4cf00820e7b16a8c; 0x5ccefec4a0a6c37a; 0x6bea0a1d500220b6; 0x652acbd2f52913c3; 0x7a5969ddd1bf3199; 0x7b4b6c04fc1336c; 0x5764b98fb1e11773; 0x1a3ca8d01e3b6370; 0x2cfd58cb9cf96fc5; 0x10b4ea86a38c0e15; 0x642a2a1181203c8c; 0x315aca517263680; 0x60d226590a0dd175; 0x7a26bd98b9401e2a; 0x7a222d193ee67211; 0x17d588e0cf17daa3; 0x6440f4f44685ff1e; 0x80b29b73130ae57; 0x71c253c08c43516d; 0x1c23d2bddf1ed65e; 0x780ded9ac720f447; 0x617533abe6df4259; 0x30cf79411cdfa55a; 0x328702536b6c9610; 0x4d1afc8dbe4192ae; 0x2f845e6b6a12fb34; 0xb9f55f52e97114a; 0x3591c25943a6315f; 0x65ab40cb92360cf4; 0x209d36c2a48f7295; 0x26c3f03ca2e32ca4; 0x3af806538e828d0f; 0x28074ea30b587e5a; 0x37440abc308101ee; 0x1fc8231ea7700760; 0xbc4464f0dbfad6d; 0xc0685c07350aead; 0x35fad53519cfa9ae; 0x1d232a593f550f61; 0x3ce33eb8e482b5cf; 0x28d450361fc01984; 0x114b329cb8661ff9; 0x1960522b5282a1bc; 0x4644859ceb367507; 0x2b719aa0445af26b; 0x6dbbfd74c7cb1f69; 0x59e6b080f4d35825; 0x4eaa36583ac2b77; 0x428aea6fdd55f6d2; 0x33fb275131db00f2; 0x2766d6526a3cf26c; 0x11f75c7504fd776d; 0x28bb59bece9793b7; 0x735c9df2cfa0469f; 0x4a670ef1dd3f8afa; 0x1083ed271f2abd40; 0x59cdd5e9fb7e1d54; 0x1238cb9bec25c4a; 0x2356ae547a07dc27; 0x5959da750ab65635; 0x4b174b7f8e82cfc9; 0x334cd7b4d90fe5dd; 0x5a3a5fb6c5b50c1; 0x20acc66e1522885a; 0x4b271dc095e2e38e; 0x44c7dbd5211ed267; 0x2f67f499e608796c; 0x4f1a6498dd8890de; 0x40845f3a9ce75f0f; 0x768bd26e79359943; 0x59ae530878c57bf3; 0x626fad4be0409461; 0x6db7c97b7c823ae6; 0x1e6aeb5503cf7103; 0x55e29aacb298565; 0x4951725da5112d16; 0x4521ee69b5ee6a1d; 0x5411ab58fcf38715; 0x1f558d5ba3c64803; 0x141e65ddeacf142b; 0x59c0fab60124a609; 0x22e24f8d56bb43ed; 0x53df02f6662af5f5; 0x2222e900a63f51c2; 0x3b4877e6250614dc; 0x203d1ebe62bd04dc; 0x3004bdbadcfe7dbd; 0x47ebbb1dddc0c959; 0x171480ca030e37e3; 0x7f81dda0a82dd479; 0x3c5c747c985c951f; 0x487430077a935190; 0x7b91566508a98c29; 0x623247e92424aa37; 0x610c46137313356e; 0x6fcda04f6f513d50; 0x259541ae61f626e5; 0x77b4f3a97977421e; 0x1bd2557b96396338; 0x74bfec73d9369ec4; 0x92b3fad3eaae1f8; 0x116cfc366983e861; 0x7c0d17004c45e455; 0xf4ca476c9c78795; 0x180a8b8fe96fc4eb; 0x32328a7efb63ce9; 0x63b6a4bc35ba6106; 0x7a632f39f0c7274c; 0x45a07b87315f9d87; 0x7e0bd35f06862af2; 0x7fadd04d3c1614df; 0x3f9ef1132c72413b; 0x6e33350b12060981; 0x1a5b3e7d9af75a42; 0x1d4cfcf424b581bd; 0x129a23ee1a3ab944; 0x44993b06be908123; 0x172491f3050f1127; 0x4ce93d9b4a82f4a9; 0x445d1bd94cb2fe37; 0x4bee81283b355d01; 0x375a97cfa19ac544; 0x5b03b888ef0c637a; 0x70f5588aee3be5dc; 0x223a8f218b47c72e; 0x6e786f67772bac23; 0x40ac67cba2d3297; 0x299a2ddd72c031d; 0x259310d308cb1bf6; 0x72218afad59fbc73; 0xa5594eb92a27f43; 0x3d4d06f2be88b01b; 0x3bccbc7e0eaae8bf; 0x417f861c56ca1692; 0x35ef1ea9839b2338; 0x7d576a7980f008e1; 0x215a5eb2fad0e8c6; 0x5e0e4842b8f9ff51; 0x64d51aa9baeb2b18; 0x44649e20db1501cf; 0x7daf4dcfc6b98947; 0x5fbba95d6d4cddfb; 0x1cc4f69b34f377f2; 0x2d8995faf1e7855d; 0x53dc0a4829526dfa; 0xeb5fbb2ec142e21; 0x3a5f79754c6db36b; 0x32f8d1894d7bb871; 0x56ba11f7411d6fe; 0x51383832ac7db660; 0x537a977a10fcd96f; 0x3f044e124da49a8d; 0x48238a872730a2b7; 0x1af2bc1bbf0b2be2; 0x79996590e0c53b30; 0x4dba966fe1f8d07f; 0xcb400fcc4a6c92d; 0x1e96f9aa0963f81f; 0x34ed109d8a37ae2; 0x33f27259fb41e27a; 0x361e88f4005ea6c9; 0xbc807fc692ace07; 0x3aef36935840187f; 0x126c63a439089bff; 0x48090adddf8fe2aa; 0x48ba163bb9d80d67; 0x5638a130a40e9b5b; 0x31f0c6b6e64475b0; 0x748c4c492ecec927; 0x1493386f1d4361e; 0x57fddb0e3850457a; 0x471c16fbb3a71ec; 0x4749f1ebd05625d6; 0x149dbe9312723b3c; 0x53743556d17dbbcb; 0x5002207379ea69f6; 0x6a68e6dc617ecc70; 0x38875d3b055e3920; 0x4e44fb70c1c87b39; 0x22f2d6e62fd53c34; 0x52bc489175d59582; 0x72d1955b4c3f5d31; 0x46f66f24eedce81d; 0x3293340d46ed2a9d; 0x2d26bb0fd285434c; 0x3c8cac4d7ff074a3; 0x455a0d36753313bc; 0x47178d46eed4e37a; 0x6968306adecf0a46; 0x1f8485caaa05bcc3; 0x24cc409e1fa8c1d9; 0x6f268fcdf2c2cd8e; 0x251c0ed05b2df076; 0x4a2a6a5157bf16a5; 0x43a43f42ddc58e25; 0xd67e59aaf9e5571; 0x7b4014276cb9241b; 0x3537ae7ef2f754f6; 0x5b83e749755711d7; 0x6904e5e5fbe5406c; 0x7dbd4ff9706f771; 0x1fe0369f3c3c11eb; 0x51c4ce022be93991; 0x2c97f74d6405ac45; 0x77dc37f48b8b8a01; 0x3b0a600ffd6f384b; 0x13878343d37012fd; 0x2ace5b66bf9e9bd9; 0x209b618b23974159; 0x73a27817dc2ae4ac; 0x2f96bfddb9eb4ef0; 0x5baa85512b7743ad; 0x1b9f55e46650da48; 0x458aaf92ad637325; 0x4cad12b57249647a; 0x771b54019df4b09; 0x7c75a2db9f9529d9; 0x75d2779ddb311f31; 0x3998d41e78fc5d17; 0x3e1f35d984438038; 0x4036e6b38f1d0e8f; 0x66472621ae351549; 0x2a8dbe216f651615; 0x52b8298e39404ef3; 0x41391462324a8bad; 0x41007f2b4c7df2ec; 0x965a5b66bbbe6a7; 0x4d1967e9f267463e; 0x2cb2b60c46e4a971; 0x1e21790f94488bc1; 0x68b761c2a5e856fe; 0x493639d77f06e42e; 0x6d3d78b010d30fe2; 0x39d691d8768dde0b; 0x7098afd180343e1e; 0x161e87400230b637; 0x4866e5e011154621; 0x57e5853c5e91694];
   [0x6464d42259a0579; 0x66c5ba65a97a09bf; 0x4d1dd0392e0f0a97; 0x5601f11249e3a760; 0x2bacc587a2b975bc; 0x3de1f50eaae3e941; 0x4bd3178f04537825; 0x5fe4d4f6d9795b03; 0x3d420d2c195f20e7; 0x3976157d9fdec8b7; 0x2221c5a4f2f626f7; 0x117df14c20f30178; 0x4b8ae8f089066672; 0x2656f0e5422aaec4; 0x718d3c551cd8ef4c; 0x2a123d0f7811ef14; 0x4d28199c6f854e9a; 0x6b65239611a7132; 0x39507b4c8e19a8a6; 0x3c9f72e7ceb6f878; 0x100de5c87df16c59; 0xed0a079b677ebe; 0x5e46dfe003076bb2; 0x17fdf6eec539c680; 0x3d0d66678bc8afe0; 0x3c96ae14f1975ff6; 0x528f7ade45710a8e; 0x46b6de1addd1d84f; 0x625b84ee8482b5d7; 0x4129fce8652032f; 0x502310c78b6ea1d4; 0x2ff6cf7a967c081e; 0x3565d619afa30fa2; 0x4116720d715ab302; 0x4fcbe5ee0b4e5c27; 0x3f5fad033d76e351; 0x244345ab2a661f9e; 0x356ec14841baa1f2; 0x1f1d660eb0d98e25; 0x33fceb7e2e4664e9; 0x701e558b9699b3b7; 0x7608924f058d7bcf; 0x7a79936a1d5a28fa; 0x373742b61472a2c0; 0x2f7e906de730324; 0x404b72a5f0628c8f; 0x78d9f434220c739e; 0x7538646eabec18d0; 0x525b4256030b2907; 0xddfeb7b66b32ff7; 0x1823dbdbd9ed0c93; 0x6484136505cc8549; 0x2cbc9f95bfba83f7; 0x180c2dcd4c277c40; 0x34374853c3ef97a5; 0x5809a5f0c0e980; 0x29397d61136a687f; 0x39a9be8d137a1130; 0x16fbc6c21258c231; 0x736a1c9d2385625; 0x4769b9b3f7c564c2; 0x136a99740a329900; 0x70de999e24335e0d; 0x71edd1e84917f899; 0x51d42cd665b5f205; 0x4206ed42f4c9950f; 0x6a66b7f5fb7b840b; 0x304fc8038f13709c; 0x4343227ef1f1ed11; 0x613b83467840cc02; 0x2c576db665f4934a; 0x17f1772175fd1c97; 0x1400f0f7d04dd9a0; 0xe755c8d258a6c88; 0x2a6e15dd16591740; 0x7c51fd18773b645e; 0x52902e7c08f5823a; 0x720dbdecf6ee990e; 0x55ac3ac6965e4ce4; 0x2117cd0235e58ee5; 0x3163fd526a5d649a; 0x333dc2a73863bd90; 0x1c69035d8f2ff710; 0x4715e642e8b53cd9; 0x477a63307817dd87; 0x61f430419726f79b; 0x6c47a9f2a8abf12; 0x59d0a9a8253f088a; 0x5eaf92c025768de0; 0x7639f5699c3ffc75; 0x3712b6d307eff3f7; 0x10ecb082d7b925a7; 0x1d86bb6a21fc9b40; 0x38bb1978ff98ebac; 0x55048088f63566d7; 0x2b3b4de90ccc8d25; 0x7b31a2f3317bf1ec; 0x343cfa167c3f31ce; 0x7a07796d1030544d; 0x51f1869168281892; 0x246bd174e52caafe; 0x369853d6c6ec433f; 0x4a366f422dc1103c; 0x10b7fa05cfcf31b5; 0x9836f4ae373bba; 0x743e576f80d747b8; 0x5d036d5b84762942; 0x357722a852e77bcb; 0x6a7919013bd74857; 0x38bc97e15b74531f; 0x5f051606bea582b2; 0x63eca6f9a70e5cba; 0x612da344e5bd86ab; 0x51a3aad8e801dc4b; 0x148fa44ab9ab40db; 0x6f4b86c215cc5abe; 0x2a4db8afc5209be4; 0x30e103a6dda1764d; 0x58c066a8b38203df; 0x3891658efe4e27d4; 0x35d950ffe729d2f5; 0x603cd32d1be18536; 0x629ff573d7ed862a; 0x5295cb940ec93f89; 0x250465da76e4b091; 0x3f154f78cfa6e9df; 0x35d285446a746e32; 0x563bcb3c436273a7; 0x58dedde480d507cc; 0x635a76694df7348; 0x1a29c3401359f00e; 0x59fa3286152d8515; 0x77dc238bdbefe1cc; 0x1d829462eb6290b8; 0x1ab5bc8e7a67c70f; 0x34f03ef485612803; 0x4a7e46d88fd8118f; 0x75a751e776687e0d; 0x62d7ae04baaedd54; 0x732e550bcf0a2f2b; 0x408648fb463bc46a; 0x21243a1821faba0d; 0x19de6f0ad0de07a9; 0xba40ec316164081; 0xc4819481d81faff; 0x2953914ac5671dff; 0x7c9d9d7c9ebc4ef4; 0x3462b9eeb1da2214; 0x7b645d3a24058d58; 0x2c1721c2e78241f6; 0x21acc442c6a3e1a4; 0x30cc8a6197508642; 0x16afc42642076e04; 0xbf9a19725d3c39d; 0x7c2b588eee837203; 0x5848ee225783ca1e; 0x6cc787371cfc50f0; 0x2c76823d795d8d78; 0x439e380593e6433c; 0x5aa28fe3fe25ac53; 0x23e5917ea897260d; 0x7a49bb8cc9534da6; 0x1f180dae34fbb272; 0x3e53bb043aeca0d2; 0x54d75806149fed07; 0x513f52db99537f8f; 0x11c8f52e8ef61dd4; 0x2c6c73b7c68fcfec; 0x3407164e862d4e8d; 0x76d165143987234; 0x1d9370015fb32df9; 0x7ebc99da925178ea; 0x4b683f82661bd36d; 0x786d39979325cff4; 0x4727452a3cb9488c; 0x461b6fcc4ec0790e; 0x6c4c9c9d3382a07f; 0x6795afc36f50c268; 0x6d0cffbbf62e69bb; 0x558958dd2ca8522c; 0x3d6285a699fab9a5; 0x1aff8580aeafc0df; 0x462cac7118da3eee; 0x521f2a4b54805dc3; 0x7df0960c7a42e6b9; 0x666417a4faf9e917; 0x38cb523a9eb3e3d1; 0x5b0c63a51e4e7105; 0x7837fa14b197d6c0; 0xe2ef64045ec7af2; 0x7297b8aa476c3b6b; 0x222f73e4167196b9; 0x48152dea22a3e21b; 0x3190fe43d2743263; 0x70580f1a681d605b; 0x73ab41ae9743bac4; 0x16952d0215aa4e23; 0x53decb45ffc95c62; 0x604bf4d51f4997e8; 0x46283b8372dfaf5d; 0x1de300ac70edb2d0; 0x71e20a2a1369641e; 0x3676dbd50e89894a; 0x68a99c69b7ea021f; 0x13abe54ec5cd31d4; 0x1fcd546d8441e896; 0x5555e0c39c3dc05b; 0x1144e50e98348347; 0x2da17d5f82848960; 0x60a638653eb8fa23; 0x79de71bcefa7a083; 0x368ec3d698f2c32e; 0x426a733f3a762e93; 0x84ef18afe48f3ee; 0x39ab8a71a9806c23; 0x329ae7c952f4b3ac; 0x1d9005b723fb1058; 0x361f1fdb9e3408e5; 0x2c6525a5a4977981; 0x2aaf9ddd87dc3975; 0x5da367f8535d4d38; 0x756d4816ad069052; 0x246957d904c5120a; 0x193ae5a43d6de2d5; 0x67057a32b43577e5; 0x4af5e1bc9f7266c2; 0x273d5d78293b2ba1; 0x4dfd6cf2603d4dfe; 0xafbdeae512a332e; 0x799a308ed7e48a81; 0x1080e92f2fe57c4a; 0x3760e56b022a5484; 0x7b1ed04720d1f68f; 0x7ca3e4c36a334ad3; 0x78394253495f41e2; 0x6559897ceabd6d1b; 0x3b0b2f4b073e3923; 0x72a097e29158875f; 0x1d2604b4a77b865c; 0x1458d44b0cb11703; 0x62658588cd11d149; 0x44bfe4b8b4d5f9db; 0x788ba74c8e6d584e; 0x22b31288630f199e; 0x4e95eba3eae51ff6; 0x4360fbb511e3fa13; 0x7c1f6816c1179f12; 0x4c2c983e3bd9e846; 0x7cc96212dd6f9830; 0x4933a3129fd6097a; 0x4b74efa7829671b1; 0x6ec541e11fa68440; 0x2e9b6639a65ca3a3; 0x3071caf953bca5fd; 0x36930e2127f6df8; 0x4354db8da8f67716; 0x6fcc76d0dd1382b6; 0x454c1bf4ecdd9f26; 0x7d1ae6899915e76d; 0x17721fdb8e2c099f; 0xa21729a8a7f2ff0; 0x604b2808a7bea5b5; 0x32878a3b3d5af41b; 0x7f548c380f009ef5; 0x21ac5e27bf6f98ff; 0xb266ff54be596a8; 0x1c7cacd9de4fd430; 0x5cc549c05418b681; 0x28e8e82096423bdb; 0x1c06c1856ee28cd6; 0x3a3d2ca47d8318f7; 0x66c64c552def61b0; 0x5bb815c0cfd706a7; 0x331d253a1b6a255e; 0x29f5ba7730c28cbc; 0x501e5addd0f8e941; 0x6a6133e4cd5913ac; 0x4710d84f1b1e4c63; 0x6f2d8ea5c3eb28f5; 0x38b37472d8439ac2; 0x3d789f9c0c6b7e21; 0x5421659de054b3af; 0xdb8cb44c1b00a35; 0x2691fd061b920c3a; 0x569fdca29c10fd96; 0x4b516b4c370a2662; 0x670d6fa0fd64fbe; 0x7a7f083036a713fc; 0xd9b9bebc53e62c2; 0x7d93152e7a13dcb1; 0x158e5fa586f51bb5; 0x62dfd46be255d1dd; 0x11413c89ffc218ae; 0x4a2c16f21994b97a; 0x77260b85a6d01a1c; 0x2da928a35c8b3390; 0x31f5708a101fcfd4; 0x73e6132c2a78748c; 0x132aaca8001a3c50; 0x318761fad72f0eb1; 0x5177d0f1405f6a71; 0xedf15630becebb6; 0x40e37f96011035a1; 0x204a1cf54ee36a5f; 0x34a3fbf731662536; 0x6201c76e82257a06; 0x5bbad1a29ebebb50; 0x74d3f2f6914f197a; 0x6cba7da9dca8aae2; 0x69786e49c8f18b7d; 0x63260ca0d1d7ff09; 0x22943f42e4d3fe35; 0x4138fe734f35afff; 0x84899ecb7b90fe4; 0x11c89d986d417d48; 0x29f373b0505b0ef3; 0xb1967bbf19ac507];
   [0x4cc409bfd1032989; 0x166d19ecdfb73f95; 0x65251d3dd4489786; 0x112ed66704a01d6a; 0x317018ddcb0f26ae; 0x72ba3e55501d7abf; 0x126df002349e2502; 0x4f03f413bb258b6d; 0x77af7e21f7c740c9; 0x2ee9722228327030; 0x3eedc4172d346f88; 0x6de48fa377b163c5; 0x49ecb87d15aa08c; 0x661721a65b44d95c; 0x79d8c46343991e58; 0x2405adfa5395ac22; 0x511f055e995ec9f3; 0x6fc1042addb9f32a; 0x19afab88fbb277ca; 0x2a36fcf38927bc0b; 0x24a054f1887dabae; 0x32b2b393820db7c7; 0x5a5fbcdfb0f5285; 0x3789c7722b83bc4f; 0x2eb6157b67a22673; 0x8c1c84c18cdbc7; 0x2a7feac64a24c158; 0x2fe5ee0b36c3f2bd; 0x3d23548b3e3ec365; 0x732938c78ef099bb; 0x5b2c0aaed51707a4; 0x6816b9d94d1c05b; 0x6a30f8afd1d14fb3; 0x63d819687e5da9a8; 0xfaf0c5cc34ff78c; 0x4a40d5732e6aede2; 0x27787f0ab1ec1ef2; 0x3d06491e32dc4590; 0x34a7d1f190ae5274; 0x742139172ea421fc; 0x2071303dd734143a; 0x10bcc9fb1040e9db; 0x1e525cb009160f9d; 0x6eb065b7b7942969; 0xa2d939c5faccbc6; 0x38a68b5a5d3258f4; 0x82c64d93d0371d6; 0x5f07533b9334d909; 0x2dd36d752bedc97d; 0x5df03358ce189483; 0x13ba5ba7ea272d4b; 0x552ffad8a7dfc428; 0x2b22e09ad96e32d2; 0x949d263ff274196; 0x391b55d69c4040d9; 0x2f651de11cf9d28; 0x2e21775542f90c7e; 0x4fe853f89ed626a3; 0x6232fdcfa62bdf41; 0x49a86a00de4aa78b; 0x18de4429de007228; 0x60cc63f844fb2d50; 0x9df19ff8e7d4e88; 0x1e31d04d2d90c2bb; 0x31c0515b9061fd5f; 0x10ce282523b584dd; 0xae709e32d0addf6; 0x61e2562299208971; 0x6dcc91201465f60; 0x4d92d27ab20e10ee; 0x324f4ab3f7a30124; 0x5bf3f0103e6434c6; 0x4ac87b7da799f5b1; 0x6c53649c14d71333; 0x30554b14eddda36b; 0x591b10fd31c11bcf; 0x136d0e20b2fbb78b; 0x21ea6eddd8684842; 0x51f806544fdcdf32; 0x29cfe5949af1bdfe; 0x395adc2348ec0f00; 0x47759227e4c98221; 0x47bd05bafa8b4f2e; 0x4bfe26a5ff445adf; 0x42757fd9e43c5dbc; 0x2b0fdadf1797f00; 0x7a92a937f5b179ef; 0x6b15a1c2ad74dcae; 0x26ede0ee866aa55c; 0x4fd6c3652b0e67a3; 0x5879664c52524944; 0x7fb51f8dd55cf669; 0x7002b29e5b794177; 0x24b7c149fdbca53d; 0xa416dd47bcfe027; 0x74636c8db1d3076b; 0x644c727447065175; 0x5e7b271d36c2c2d6; 0x600c0f7ef9f7253a; 0x7a9f4e24f1127e05; 0x382b1457aa62b845; 0x58f4ba75931c5199; 0x1688d690ab257473; 0x64800a9acf90de61; 0xc9a5e086b2bd05a; 0x7762593c2462ef4a; 0x1a8d7c30b401e6ff; 0x5ef689f8853b7c54; 0x18101f86e41bbade; 0x3e5b5c6e61714515; 0x47dd53f3b0ab5274; 0x5e6737705cec9aa3; 0x4643b2eaaccf6685; 0xdc75fa0256fcea9; 0x66fa86779b0720a0; 0x2d644a3d83d4b37e; 0x48890453d728d1f2; 0x52d98c2f23dd010b; 0x139c41b50403cc93; 0x53477d57f8fde450; 0x40b4eb496ac98e03; 0x4deebd7e442d669c; 0x76fab0d223d53951; 0xb06ad30a4fac610; 0x667f8f7a148960bd; 0x4949fc7f5d6f3b0d; 0x6ef5cc8f4e47bff0; 0x6f87446b3bd34e3e; 0x7de426a8dde3c1ff; 0x67cd71faead5418a; 0x474a750da0214deb; 0x66513a3ecab9987f; 0x54945afd03faa0ed; 0x7fb3c4082fa4e813; 0x3b183464d77c561d; 0x2935c044883e6ba0; 0x294596ad556ba1a; 0x5002f2d498280ffe; 0x2b7c0701d43e45da; 0x58c2c2029d069f12; 0x4e539adf3eb27f52; 0x686d93cfada18ec2; 0x44f8d05dd88cf561; 0x27165905faad9569; 0x1d9d62532ded6aa4; 0x37c9315de9f8a4d; 0x77694b10e9813eb0; 0x1a541787f7052680; 0x6d1d5dd12b4d0a3b; 0x35e098edaf292ae5; 0x494e3878c919cfc8; 0x7e2221e2cf06403f; 0x7f41157f602a36f3; 0xdc52584f713183a; 0x411121edeb1b7b98; 0x271591cb0693ec12; 0x5fe9e66afcde03d5; 0x3935a52909fbfb82; 0x5cacb8058c31cd7c; 0x7c6931dd25d20308; 0x65cb646e21e5110b; 0x74f43109eea06393; 0x4fa57243c71ebcc9; 0x621a9cf980a54f65; 0x53784c94dd82156a; 0x5c030ed45d2cb49d; 0x290fdda10a4688a0; 0x472497fd50980312; 0x23623ea781c5ed35; 0x20c88d870771b9de; 0x256dd2ff4b7f5761; 0x1b3b0a19eca02aa1; 0x62aaac7c4d86b9fc; 0x62b65ef02f704b0e; 0x611713b1352f81be; 0x3d446d4c63c4c2bf; 0x27f6eae4cc667017; 0x2d863bc65c19bce7; 0x2a10e644c94b2501; 0x4d8dc312a8efa60b; 0x7e7216194e7561da; 0x28085a669fc075d6; 0x51c64a7a78f222a7; 0x29bce3505867b94; 0x98922949308c47d; 0x61575a36e2ca4e24; 0x39934b40646719e0; 0x25cd740099612771; 0x3afbf7d6d743b4c6; 0x774c0bd8890255e; 0x20bf920e3ced83a1; 0x22d6e47ceffbdadb; 0x73f066f1e2f19bbb; 0x48eee73e8e40292f; 0x73c97f0fc9cf8789; 0x45b5484a4044cd6e; 0x68fa98aae6d28b23; 0x5071653446e7b20e; 0x1c7752b7c59a5a8e; 0x40eb8a8c897779f7; 0x4e66df07448cfe5c; 0x1e23c00671236283; 0x2a627d916012ab4d; 0x423d910fde086585; 0xa621d6d78f49c1b; 0x39935612a04ac929; 0x72aee9346dab6e14; 0x1edbd9317d83b8c2; 0x774ca8d596c67b; 0x5c3739b49eedfeb7; 0x48dac28047284731; 0x5458ecdede643fbb; 0x53a8a8b11b9582ac; 0x40c741298236ad9c; 0x4943f8527feb1de9; 0x208fcc536ab8113c; 0x482e9dcf9b6d5121; 0x6e53d4fc5fe0d544; 0xd1ec8ad9dc88b2f; 0x1777662558803e55; 0xf2b207edc7f423f; 0x5191001d15691017; 0x7d5be0a93c131a1d; 0x15f299d60e2192e4; 0x182966609797e2c4; 0x7cfd15a3915553ab; 0x6510f84f17e0e4b2; 0x51b72d7bd201e418; 0x30b229a056b0714b; 0x28a8fe25055cedd6; 0x1fed1ba969755186; 0x5f4d0c997c9013d1; 0x38f1e8f0c619a555; 0x1be8faf14751d397; 0x3931325329ccaa72; 0x31b1f065e7833b57; 0x644dd7e33e9b8f9d; 0x4f22b9f09b33bd37; 0x4b38faa5fa66e37; 0x35bb2ed78ac637a4; 0x2b7700066efd92f0; 0x498a8b4f0421b2a1; 0x1901524e98d310a7; 0x3aa8046191d2ce83; 0x8bd7a96a41d2fa1; 0x2ce407faa28d1225; 0x573a1d4c5657df6e; 0x10e39084e4acee31; 0x5fd95b8136498cce; 0x58f3073636e2dce4; 0x28db398d6cc16b1; 0x3417c68e26ad7774; 0x340d0716be34915; 0x73718098f0a565f; 0x70068d728a823c52; 0x7b53f1bc387b6e25; 0x2d5d6e72d82dce8; 0x3680c5b469898dff; 0x36c6d64a18cab93d; 0x4abf9c887531bb97; 0x5c59e19de4967347; 0x2e7fc6e30162133b; 0x3cfb4ac1484a240; 0x4f654c76ec0457d1; 0x444c9ee58b09560; 0x2ff5bbc807555c17; 0x7825ba7c2b2491bd; 0x1d12c1b13cb82775; 0x1656b9639ce80000; 0x36518642eb08a339; 0x6a2063b972f919ef; 0x2dfbf6464785efc2; 0x6651a814c2232325; 0x5ad7254e24925451; 0x5815f0b2891e67c8; 0x2f2b6c497641dc99; 0x201965fda7865f29; 0x3ec6d98997e936de; 0x56d9f74a352e019; 0x7cd4d69fa3ef969c; 0x3ff7d3845ae21e1b; 0x4e91dd94b2e92228; 0x2c204529ea059c5a; 0x37e7015478f129b1; 0xe0251c44e1a4635; 0x509cc134043a24fd; 0x62f64ecf7c230016; 0x6f6c7e1d35eca861; 0x7af2f82385bc6aba; 0x1a6a749e5b000865; 0x120351aac688198a; 0x833bafe033508a1; 0x4fd317f05112e98b; 0xfbed7006575f2a3; 0x41fa5f8381cd5bd6; 0x7d284043ab388244; 0x6e1ebd8abf47a4a4; 0x10bcc2f45eee846f; 0x4ca4ec1227fc39f0; 0x46a4101ec32cd3c0; 0x276f8c9306baf87e; 0x7fa5280e195b9e65; 0x698bf02a708585; 0x7da1036260b2474a; 0x238846fdd554920b; 0x394b1d77770ff845; 0x64d44cb9104acb42; 0x7ee6066206641d24; 0x6bdc87e24293a301; 0x59cb245686fb72cc; 0x52267743cec9e45e; 0x13ed9f92e3749e3c; 0x1acea3902b5dff26; 0x80bdf0c3aea77cb; 0x48ef617f4ded3979; 0x550fdeb0a1cf8a69; 0x820eac8e78f114c];
   [0x751d34a33245217c; 0x7b042dc03d4d680; 0x76f63b58e1573a24; 0x5f202a23a524dd37; 0x612a092ba55ef538; 0x61af96156db81b85; 0x30daaca22293ed07; 0x63fea1a7937592d7; 0x4f1e3149ec10590c; 0x5946334707b45079; 0x58b547b2d375c2c5; 0x367d2cf44476e485; 0x675541ee27bd0611; 0x455a2c7944546107; 0x391e17d1c4f843a7; 0xcd4000bcbfddceb; 0x3ec74a90cfe1011f; 0x66604a84f1864108; 0x4c15401cb0d7c9a5; 0x75cc84643d29bc20; 0x4a276060737d0e9d; 0x500c4cda675cbc96; 0xb85e9eb33e36340; 0x3fae6225b4973f26; 0x697cf1636756df7b; 0x49139ee6b33b90ba; 0x7d07e6b55e79e609; 0x781bfeee11870f64; 0x234a367c51bf98e4; 0x7ea769056a370765; 0x6b41cbf431994dd5; 0x3be0ce68ee41796a; 0x356f1d60cc9c884a; 0x7640c0351d9d8150; 0x64ef8b989113fc30; 0x62a9169fc3aa28e4; 0x23713aa6b5d3cfa0; 0x61bdd29af247ef83; 0x7f18b820b995db97; 0x45e6a1412fa89879; 0x666948028997b8a3; 0x653e80f71d6605c8; 0x7fb9b316cae46e47; 0x53a24b36f3f72e97; 0x70c1b23ee1014c04; 0x38a6d0e02a1cda5; 0x6da2b72ea24eeb5d; 0x688e1ffdadd72acf; 0xd11efad4f9f1915; 0x1c5ab3d359a80573; 0x42355494600cc73c; 0x2506a51b3f1b2004; 0x50e52e78d0eddfc; 0x349e1980db9ad819; 0x19bc3f7d7d874143; 0x38dccf0ca632adca; 0x32d473c97aa8a8ba; 0x416e36e31f2c3ec6; 0x4e226e528b695247; 0x662938d6d9bfeab6; 0xc4f33635c329f04; 0x738fbaf37dcffc; 0x629e91dce35eee86; 0x3be0f7695f718860; 0x4c8f6d44ddd9ada2; 0x7b6a3c110576951f; 0x34b3d0fa620f9207; 0x38fc989475a9c073; 0x22fe6715fba81532; 0x78cc60acec0047; 0xaa9541cca311d1b; 0x72e439cbf98055bf; 0x42c158ac521c7d06; 0x355937244beb4e49; 0xd8e4cbba83452bf; 0x4a3de7b42612949e; 0x69ef86d55a020802; 0x1b2b0fa8c82cccf0; 0x69f8ebc1a5ee5c1c; 0x272f397f2088b9db; 0x736cb3035f0c8766; 0x1152b82d2d9d01d5; 0x47b60a68e9381fa4; 0x4ed4e7255ca8bb13; 0x6f8ce1e87c8fedac; 0x32191c6f003f5cb5; 0xbc4e1824d172cb2; 0x10fcd4431089d7e0; 0x24172fbf774a7c2; 0x7d7eb04cfda2e5c8; 0x4dba22c5691cc931; 0x5cd0ca92937b7d48; 0x27af13935ba69fdf; 0x21aae19df0195775; 0x7b2578e5a83f0372; 0x4534aa220ba6b542; 0x750d1bdf00706b63; 0x74e7647f7bcb07f8; 0xe52838a977eb87d; 0x45cc70bc73bba97d; 0x200bd589b7851abf; 0x6842444c660ff9b0; 0x59427a272cd30141; 0x2bac3cda1c945425; 0x68a7bf750708c274; 0x2e165f13149ebd92; 0x7ab237056cbb548b; 0x4cbaa1922c91a82f; 0x90a7c65fb870726; 0x5768303f0f46bd1e; 0x39386186c6454c95; 0x670a4fc0ebc68c0e; 0x1d030f07346d2164; 0x3ec8bfc1ec3f8aa4; 0x7ae4d86a039366cf; 0x21d5fbad784489e6; 0x6b828d989959b83; 0x44d0c176b5dc2980; 0x3da9ae12c51b12aa; 0xf525d6603913043; 0x1132338f41701b9d; 0x7841fafc6f319b93; 0xe73aa89dff127a1; 0x4bd0e1b6be086b63; 0x74b16c3d201e6ba0; 0xf00ff5e7db2094f; 0x77ba213817c3215f; 0x665c00ab89e3303b; 0x410f1f72d90260c3; 0x469d65ba2744699c; 0x1965e3908dcf3c7b; 0x3a18170fb6c81038; 0x5d4d19824bb5c2c7; 0x3335dbc555aeaa4d; 0x1d6f4527c2811b6e; 0x24d5081f3e759779; 0x4cb96fc6b7f1bfbc; 0x6f59b9443a0f3e5e; 0x49136250103c321b; 0x1013723bacd4943e; 0xbf3a58110767108; 0x75d0a597638804e9; 0x519e8e934241e214; 0x10bf2c5345a25e8f; 0x40f023a31f2290ac; 0x3dacae2cf787a1dc; 0x4bdccca7d62c88cb; 0x3fca07c90f3dc90c; 0x2b434538f4f0bd8; 0x97725cea53ef8a6; 0x2f85cb5490598e1d; 0x678efe3dc4951488; 0x448748276fa79ca8; 0x7f47cd980cd040c8; 0x6713ab872cfba804; 0x2f9ce36ad623f75e; 0xcb14b8e4f59ed1f; 0x3c61ac6a264f6db9; 0x225e82b6bc685386; 0x6d1c78ca711224e9; 0x5585b1f7c2a6ebd8; 0x3b0410be51b6bb76; 0x79711e117d7029a1; 0x2a47c9c152799c43; 0x3bf1aece94c2d6f2; 0x21ff76fa02f4e594; 0x476fcd5fb2930db9; 0x74e4e9ddd75f0ad0; 0xe21e5bdb0442002; 0x9d0a4bc53abc184; 0x2392cb012ed68bdb; 0x5ee65aaf698b34b1; 0x15312a99dc6cc7e8; 0x11c4fb977484bd15; 0x73fd9f6246b72b8c; 0x5b10315a28a67686; 0x39abac6325379cb4; 0xede1c109dcf4e0e; 0x7175aff3306d81f6; 0x7e5c85645ec54a3a; 0x29b732e3ffd6bdde; 0x32865217abee8fda; 0x648eca85e4121d5; 0x3ee1a8c9f17fcb60; 0x8c1d26e199e750; 0x7d3bfe46f90a9cbc; 0x28eefc7403c63e83; 0x910f1fb52da5df8; 0x1c9840babd1f8967; 0x7ea7eb7f1352171; 0x7be883d60993118; 0x316f94ca9bb2efb1; 0x700e1c0b827cb80; 0x1ea62c14ecf9ecf7; 0x529ada5eeff7d547; 0x37bb3cf9a319ce81; 0x4bf444180bfe20bd; 0x60a2d6f2f2c901ab; 0x5b632e49c66d7c2e; 0x127484b15d4df62c; 0x10eb832c18e70abb; 0x726da5d5cde5ad54; 0x4db028d8b1fab8f7; 0x5e00ddda253a2d1c; 0x165e14ac733ed83f; 0x5ddf172b076171a7; 0x6ec25fbf2ae69f57; 0x4d66dd41489161e4; 0x789d7a650a8bd06d; 0x754d4d2860fd9182; 0x3dea206142a5ec38; 0x5bed8d06903baf39; 0x397d6c2add5d923; 0x1649d08e6c4e083f; 0x6e0c8aeacf62c357; 0x5a7a336c2dd9048a; 0x217f35dd0fc3469c; 0xa04acb3c98990a3; 0x26ac5693dc08d3ed; 0xd65c2c0cee59f19; 0x167a9c37b59a382c; 0x32572715862fe28c; 0x6be499cc6af8cec8; 0x71a5900f2898ebfa; 0x7915aa559fdb124d; 0x169f4a2e5a9df2fe; 0x73cc79424fae1cbf; 0x5eaa69d572f5ff6b; 0x54298592189ab8ba; 0x1c6cd8d14abc4d1b; 0x45501f7cfb5836dc; 0x1b2edf1f738f20b6; 0x153f127d881314f8; 0x396e405e42ffa05c; 0x62777f7d9eb87001; 0x6b778c24dbdc35a5; 0x19e45baab695e14b; 0x5bf8d078172f062d; 0x170d6be9449c8200; 0x30210a2c9c4cbbfd; 0x23767f7b59917f42; 0x414aa94fd6dc327d; 0x2db9c045dd3c88f6; 0x6963c4c0263f701f; 0x31e6b1e553584a68; 0x546d12ea0095a315; 0x2241a8f678bf21f0; 0x439e9249d8f0f55a; 0xea92efa708b53ae; 0x7767deb0374c1fa6; 0x67ae9b125a64f96; 0xc1731ea046d336d; 0x52396e250878a1cb; 0x564bce587730748a; 0x3cb5a2bcc2bf4220; 0x3317407b01906c10; 0x5dd354d6f37e2521; 0x42510460622fce53; 0x82264861c55db5c; 0x56e83ebffdefb1b5; 0x6357161d7843e14a; 0x9787db486c2f416; 0x2d081482b8eccb01; 0x72e1783532bae8ad; 0x5e3e6f6bbfa5f6a0; 0x261dabdcd914707b; 0x59067080f88f9a27; 0x67c83680ef511a4; 0x7e340a95e824d404; 0x64c4ce245e3bb3aa; 0x191660959bc4eb10; 0x237e13eb503b9be8; 0x4eab53e05ef619f9; 0x7f27d5e0645ee5af; 0x3bd820e0ea95dfd2; 0x279c43d932585b68; 0x744198c6fed3c8f9; 0x38165e47aaaf6cdd; 0x6f77e705ca5b8488; 0x696df05219abe1a7; 0x4b3a04a5a54ba9ee; 0x5e71de9fa3c8bf02; 0x3c2068eb281ade03; 0x7662c25e93c7201d; 0x5ec8f75daa185b8; 0x5e6b96653c3f1e84; 0x2897d52f12c69fab; 0x589521964b7b5979; 0x1a4ba916559251b4; 0x19006f0cff3af0af; 0x581b1538a7fabe26; 0x1a6fe0e378cbc3c6; 0x2a4053f610116dc3; 0x14d446662ce52a90; 0x69e0cdc98d60a262; 0x363dbcb59f59ac25; 0x7e4409d76fefde9d; 0x2df15eeaee95561e; 0x2b06a73a0180fc76; 0x3659a3ce004f7023; 0x4d8d03ecd001674; 0x481db2776293f904; 0x1a2b1af3e95ec313; 0x5a4d6c89871932e; 0x7058146b97193c1f; 0x2a9aef59b63a06a4; 0x1411175f626c8536; 0xc5167ab29e95ada; 0x796c5fd35e7ab50; 0x3ce252caf52c0b60; 0x63bf5c76d3ce34e7; 0x1367badee0b5a017; 0xf7ce8fb05b30eae; 0x18ec3554210bf010; 0x632138a466d11f64; 0x5cd848fd327314c6; 0xed81c3055d882b1];
   [0x5da673cc2cc54ffc; 0x73bde9b736d92ebd; 0x37b94c442042c8ff; 0x11fef7991b1a6de; 0x7775b3bba509d634; 0x4fed2d043bb684df; 0x3cc772ce3eb5f4e3; 0x2f7431dc93b27f24; 0x2569efa9685daff5; 0x36448485b53496b0; 0x78f2f68d4fa80f7f; 0x2063f04aca9daa14; 0x78cdf602bff59172; 0x3871a35f4b60e670; 0x1bda488b003593b5; 0x2d92d6abd6a43210; 0x7020d654dcc8fb95; 0x2b2872f614ea594d; 0x56e6e075cfecd432; 0x3431692441f2a8a; 0x37d2eb511292910b; 0x2cac8334e4c8463b; 0x7d5568377fd3d4a; 0x436a87a1024ea798; 0x331b24a9033c83a; 0x10f0a05bf027b444; 0x5a88960fe7377551; 0x5f39335a5e39b14b; 0x2e739de4e9ea5af; 0x76a1ec829c8c4ec6; 0x2db56c0f50db322b; 0xcb832645a9d19db; 0x4cb1c62da4bea632; 0x107735ac4c08a4c3; 0x8acdc6c1d7e7a8c; 0x221344cd5253e111; 0x7e12a8df7f885c07; 0x5f9c830f90d622e; 0x6447e9d3a7b44077; 0x2acfb345d51525a9; 0x2b93afd2e057a9f8; 0x2e96a6b6859b9ec6; 0x10d0addaf518ca80; 0x154fd60cf496f638; 0x2247e61a1ff5e9fd; 0x66bb78d362984226; 0x13202ba11f7f1950; 0x222caa584800341c; 0x5aa1c00f3511aa71; 0x45e23a9ed3b0aadc; 0x392fc6c023c1faca; 0xfd7dd26b7fb1958; 0x50e596b23e7d35b1; 0x6831e44b92435fd1; 0x6fe591fa5bf36b68; 0x6a03da4420c8bab0; 0x269e4e4844f9018e; 0x40a3d972573907d2; 0x3745a8a2d39056a0; 0x551bb0658b37d179; 0xf23c64cb019d25; 0x5db01d3f7460c758; 0x5aa229da1068f1a8; 0x609d6f8d2ed9b66f; 0x5b73547e5b5ff219; 0x13a316a23c034db0; 0x692d52d1e7347e13; 0x4ade9b7339ed6ae7; 0x3756173b6641d9f9; 0x4946243d780027ab; 0x4ff8e49ab8b0aa5b; 0x7d08da09d2b225f; 0x4beea2addaeb6046; 0x4573504a75021a0c; 0x49ec204070af11c2; 0x796475917b688ac9; 0x4f680322defb55ae; 0x394b341f92b7a239; 0x43291745720b555a; 0x288333560c6efdc3; 0x65b29f4e574a7b3; 0x12a406f9e1463a49; 0x211285e085e952df; 0x5f56bcd7b9487e19; 0x576918b581b8f785; 0x126c4599bde875f7; 0x51294b0e97e05db; 0x7178323b9bcf0a03; 0x25b26cc19c368a7e; 0x13eeb97f038579b1; 0x47de9ce78875c26b; 0x6681b52f59c41cd7; 0x72d5897b6e25055; 0x5e25ce8bfb592834; 0x24c7d8e8b2ff7bd5; 0x22427961ad2d5c6e; 0x1a3ecdfe1f28cd78; 0x339454125c4e0e64; 0xc71f9307d1f6987; 0x57ae93d840b478a5; 0x207459e0f8dbc5d3; 0x146b4afd577b7ad4; 0x141cbafd19ca8ec; 0x2fec81003d2db6d9; 0x66ada3c706a47102; 0x4372148268d38082; 0x1d7ce89703e0ff9b; 0x4c11ac9398bdf751; 0x68b2cf206d8bde93; 0xcb5581150dda072; 0x55adbb3312076a21; 0x2dbc3f8d8871c367; 0x1e2bff5ff46a45ec; 0x37da1bb58f26d11; 0x321ffc98b96273f2; 0x63bfc3ec361f40e8; 0x3c46ba44fab604ff; 0x7033c65b5e1f252a; 0x17197fb2510c47b0; 0x4a2350340af5dc1b; 0x4946ad042826fd67; 0x35686514fd4a94c0; 0x5161a96b27761ea3; 0xe49f41595943101; 0x1755b1684d67ce0a; 0x41345f2e4d45d07a; 0x58ce69b0e431ad74; 0x782b37d94a6dab6c; 0x2081709443306f6c; 0x6183fd728f402e4c; 0x4f71136a5c0c1ba5; 0x17a927da5c7af80c; 0x5401df05d924c250; 0x35e17305545eb8ef; 0x59aa1cd2b86cc6f3; 0x29e0f406d84f658b; 0x6051a41dcade9e0f; 0x4e8c3aae577cd114; 0x732cbe45fb77092c; 0x1bab4b5aaafb6342; 0x420536ab67c4004a; 0x777feeb4a0bfba3d; 0x7927fbf98b04a5fa; 0x342fea36622ffd07; 0x1e2a8c450d540cb8; 0x5f7e6b0cc45ab7e1; 0x209403d20ff9592e; 0xd783c9d6c62b074; 0x2e68f94a8c1cef9e; 0x3164af38f5b39c27; 0x7eab6a35eee5fee9; 0x7103c263558604d5; 0x298d8c7d0c2a0327; 0x1cdc8e9edb093218; 0x174e35c424ff5297; 0x47d8077a8ba5df06; 0x5b01fe5fe3c54744; 0x5a09103b82b03460; 0x6ce7a165e7255b7b; 0x76c0333ecf19fb6d; 0x24a9c5890c9dd54; 0x6ef2f13ff21ee3d6; 0x1d4c8f0b4991c6ab; 0x1605d101b745b6fc; 0x1620c51f475447b4; 0x7698d48e2c3e2f56; 0x4ea5389b634176e6; 0x350ac475219d7ac4; 0x54517828a5d35de2; 0x18e0066f7c7378cb; 0x61494ad06d7398ed; 0x4c3678ba8e8540ac; 0x8194a02ab188cd; 0x30b819f2e8333b68; 0x1320c703c4680010; 0x726c47862aac9087; 0x249debd9382584b5; 0x10934c0bae0887cf; 0x7d2579f190d48870; 0xb6cce1a67ee1e47; 0x5f39dc054c249ac4; 0x5ed44dcc6ff38c4d; 0x712b6d215fa35b7c; 0x1968db7419193aa4; 0x4aa41461441cbcec; 0x219562a2ffdec825; 0x6b27bb5c0b28b416; 0x47f0fa8f0bc53148; 0x53ffb617f8ad8859; 0x79ad84c00b498f69; 0x61d2f21f0e3baaf0; 0xe545f154bbcd436; 0x2cc58fd15e65932d; 0x514e502dde57e174; 0x533babe29a01bed; 0x1aba5f520dcba3be; 0x512e4b310f72f806; 0x4ecb601b0bdf392e; 0x4216f311534af8ff; 0x1c3d8aa49efeab02; 0x3d5ca69d48a88cf6; 0x3effd4a7cb98e766; 0x41720b7bae97d9b1; 0x7eeefe3606f8a352; 0x176419c1ac28e4c; 0x590e109e3045a5ec; 0x56e91d7c5a3f77ff; 0x29b060b06a353c59; 0x1d5c84bcb100dd74; 0x778ed4733be883d2; 0x72919c8b63a31dbe; 0x4f0a3cdc91a298be; 0x642583d001b14ba; 0x6759a4fd547fc98e; 0x16d75a10d9bfffd; 0x24e90f7f91990ca6; 0x4c11bc38b18ccd96; 0x669696ef29c1389e; 0x517bc8c5036aa653; 0x608ba97d74e35fb8; 0x7b162466af42823a; 0x4a31744f5b1d9c30; 0x2cffcbcf4b9e9e7; 0x121f3fb42dd526ce; 0x7f1616b32f248d0d; 0x5b4e77fd722cfb16; 0x49b208874a18b515; 0x417e88ac5a07d98e; 0x3848c01e8bb4fe61; 0x6042f683b0e8fab3; 0xd4dbc22b644ce74; 0x76d0643fabe714b3; 0x36e24ea57ca67fdc; 0x7a9dc7b6cec8ed3d; 0x5fd584f598da7ec8; 0xad1d6590bda60b3; 0x290eefd76d3ee49c; 0x3c650447ef2d28c9; 0x4768cd1c12cc42fc; 0x6b35f086ba51339a; 0x50fba580ee0602df; 0x137b7c0ddbe81b1e; 0x1087f935055cdae8; 0x5c7a054be53884bb; 0x673a5f2cc0600bd7; 0x36f143cb733ba888; 0xa7527734972d308; 0xc469656031abe29; 0x571ba572713410c3; 0x296feb9a0daf352; 0x213dcaef7d2727a2; 0x784c616055430eb2; 0x2625b801fa404c3; 0x36d3e31f6db7c385; 0x6d47af047915f85c; 0x50f8bffa08777c08; 0x2fd91461981cd298; 0x6bfc4dd1afe646a2; 0x24ba956fc87072e7; 0x7efc9e9555a6adaf; 0x748c743536b98683; 0x67418936e4972fe5; 0x482877a8dbbb6f93; 0x12f51d0510e55929; 0x3919c6c4b110edfb; 0x36421c59fd492cd8; 0x6bd1eba9d6ec04fc; 0xd6af71c53d188f8; 0x425b9162fe50771c; 0x3020d4f08dcda6af; 0x7ab2e72d827771cd; 0x25822b2f2365eb9e; 0xdefaaae48b36d2d; 0x6520eb52b61197f2; 0x214aa724cb6c49bf; 0x3dddb55f1d9e5497; 0x3c6c4f7b1a5f56f4; 0x6f24b2b1d480b80a; 0x3c0d425d988a8670; 0x6829efb4222321e3; 0x50f4b9a1c1929cdb; 0x4809f2b98cef3c10; 0x1749af1f5d28b546; 0x4433d0e2f54338d0; 0x2b3ede5dec43e8e3; 0x4c19a6022e5b85fe; 0x1c72f062cbd1c9d3; 0x30bd7470b7b735fc; 0xa727ac80ed81106; 0x1dc42f9092479f4a; 0x34d4352dedf71ed9; 0x165094a05f59fad0; 0x139f1763feb88a30; 0x73dcb1f78d0b2c2; 0x2d91c939daf20df6; 0x69c38fa3a14892dc; 0x171175d565b7e2ef; 0x57a53bf785077714; 0x77bfe51d3c890c62; 0x702b0a6b0d362928; 0x2d7b27f07222ab44; 0x6f779b6fb122c161; 0x6fdd4c8fb5e4fb4a; 0xba60cc71d98a8f9; 0x12032cba4dd50297; 0x255bdae327bb698; 0x25d5446632286861; 0x3708d813a939a212; 0x1ecb1d3e70e66b27; 0x170915c0ff888750; 0x13de2eb74a008374; 0x75d1574adc6b3b02; 0xf1c4bf81329bff; 0x2b723d67323377b8; 0x115f3ea5f3fa3c25; 0x232d4638417894cd; 0xcfbe74a7e5b1837];
   [0x5074e9a0a052e9a3; 0x6b7b4cad0a7e167e; 0x13bcb8b097c41c33; 0x2327aebe8728a987; 0xa03bc585dd043c1; 0x710af73b33181c63; 0x2eceda20e8557940; 0x5d6c49e4f1583529; 0x695a9d0a579e1b98; 0xbd833a014db99fa; 0x60fd5d94feae2cd1; 0x567049ada6da7199; 0x35f3ea8c22781cba; 0x169b287f414be68b; 0x4ff13fe11447fdcf; 0x568eb8b14c1f36ca; 0x62f296a9f68bef; 0x3aebd206eaf43290; 0x66bafd0095f79f55; 0x161885394e0d1760; 0x105c967093f4137a; 0x7e55c01054b2e582; 0x529c88139fd82cd2; 0x3e4ce6061d3bab69; 0xeea0cf860e44603; 0x5fc70c6903bbbe58; 0x5f0fe22e60e19781; 0x482fdb9ed19de4ae; 0x4c0ac4ea0965c07e; 0x55f4669d7b8fd9cb; 0x2675baaa7ea47da2; 0x5f716e434fe8221c; 0x28d76d2ad1e626bd; 0x355082458de15696; 0x2ec5d3ed4af71503; 0x6c0f207047ca8b27; 0x3016c1a8a0b6ac9c; 0x153af7cf48400175; 0x24d69a0a6dd3328d; 0x474db054df6f8708; 0x4e5900ed9a342481; 0xf3bdb4c771fcc29; 0x433da32e69939e87; 0x2c5320c5644e443f; 0x71e60b33e394e07d; 0x19e7e9a750d7246a; 0x6b5ced56fae2e20a; 0x5a0abf90bf20159e; 0x67af132db8e3896e; 0x134e7a47ceb9b528; 0x535263ad4cf873f5; 0x3557cd3df29f0d92; 0x71636b8bae6d59bb; 0x71cec519c18d97ca; 0x3ac17b9e9ddb0391; 0x65d00a5f9716f49c; 0x5d3cd8c5bb313a73; 0x26454dc70eb8f77; 0x560145f9b317dabd; 0x70713bfae4ad392; 0x688948ce2bde38dd; 0x4097bdce5db35c79; 0x734a21ae7ddf721e; 0x25e9cf07a052501f; 0x609d36d0286d38d7; 0x2f846278df1e25d4; 0x2e64c5f36c0211a4; 0x125bf8100b7c0499; 0x5a9bbff758e18492; 0x4f053d8486ae07b3; 0x5aea6ef8c92c3b0d; 0x1ff24690a91fdd9b; 0x3621d9487cfad688; 0x9924412da275c4d; 0x6439c51cbeb47bd7; 0x50069a43fb9efaf; 0x75227bca8f6b9f2a; 0x1654072fc2bfc048; 0x2455ff204267cbc8; 0x492a61609a847f67; 0x6e24bdfc049a26c2; 0x447841614363b4b2; 0xf7984eb3c5be81c; 0xc9f9f9f8ba37aee; 0x7e23d710a8750b6a; 0x7222830a90ac1c10; 0x37065440195533eb; 0x1b7bbe3db77388de; 0x1872c702294c6952; 0x48e0c7fea45ba850; 0x3c81104bff269a20; 0x1f431b42f97677c4; 0x707143a13a5340b1; 0x765de6bee83d581e; 0xf5f74d23319cfb0; 0x16980309c5fdb8f2; 0xa83dbabcb393cf2; 0x3986f02b55da7439; 0x1178380502458df8; 0x166519a2733a92dc; 0x5cbb4772716313ca; 0x755673c85661ff43; 0x1476d863f5f42a22; 0x1fa2ae12038d1985; 0x2466d13712566ecd; 0x1ff6b8c916e1e2f3; 0x7047382f29b983; 0x2e6c78bf67ecfa02; 0xf76c393320b3c5; 0x79640d285bc8362; 0x5edb9d34ced1c633; 0xa7dd29ee9a30516; 0x3e8bb73c4f59d0eb; 0x14f57fc2d15375a0; 0x4deba90a265fbaaf; 0x3320025b44924a79; 0x44f2895e953257d1; 0x38fb7bffbc9c8dcc; 0x3d17b20701c74cb6; 0x780ee3dd95849746; 0x1e1a19c775446e10; 0x720d94e73ae1f9f5; 0x463ad3daf748ada0; 0x603f17ade461c4e4; 0x4086a3813cd9961; 0x3ec0f52e316602e1; 0x65dafad31b60bc09; 0x4e507b04b31c238b; 0x38bff2d635d029f4; 0x319aa5d703a89bb9; 0x6893abeafdfdf2bc; 0x4b4698e469d1c80e; 0x2175502dab66c7c; 0x37e37047048ccdb; 0x6656f71659a56cd8; 0x7b978d5dc4423299; 0x1f2de4af97233686; 0x7d843c4e55a6e2bd; 0x6153bf47b9ead011; 0x63364f840e597c62; 0x3aaece4df57872cf; 0x37c208d39db0cf46; 0x78f558d3bad80cc5; 0x5ad54021d9fd5fe5; 0x488d1b7d7b7e88fb; 0x586f3e19c02c40e7; 0x2fc399f8504874ab; 0x26765c74f6beb326; 0x2cb026a18cbe580c; 0x4edd1116f4693d2c; 0x2793b5ad02600483; 0x6adcf0926933b672; 0x337b585553ce3ad2; 0x144b0e0a2518df1f; 0x61737cab5a6c51a6; 0x36558e7f57193c9d; 0x23a72c9f28ea1af6; 0x212fcf4be965a03f; 0x12a927150ce89c5e; 0x4c599bbaa56ca38e; 0x166270b73512b226; 0x25c38335a68a1d9b; 0xe2d5cce094afa6d; 0x3ef4fd91a341584d; 0x2659ba6c5cfe9065; 0x7837eae48dd07f5c; 0x6af1b4f1693c0db; 0x697796faa2a06a4; 0x681803ad01cbafb1; 0x1a0574b0ed8f02ef; 0x4bd0b479cfbb6c22; 0x5f46ba8f8a1448e5; 0x6242db8ca9f934cd; 0x462c3cda6e466a3e; 0xa44d77d3fa66363; 0x54adb19f0d82d4aa; 0x315f60c7e12c72c; 0x618cd6b6620720d0; 0x5f28334b97aead0a; 0x91d38a5cdaaf0d4; 0x86a16c5a50be39c; 0x35d102c544398664; 0x6c8a5a2cabc0390f; 0x569f0d42db0d40f8; 0x2c5d29b05146cb7a; 0xd62394b012c4d77; 0x88588d4bda50abf; 0x7c207d0d27f26e53; 0xf5f655f18a6a743; 0x29dba56832135478; 0x2bf432855a24815c; 0x43f1b5f76b6b161b; 0x4c9bb5c9e327462a; 0x116386aee5f412ce; 0x4b5a67fe1e66078d; 0x4616af51a22dec42; 0x5ba041076e3cfb69; 0x757c06c21590cbb8; 0x9af9f7ee98c3c75; 0x544edec6538bdb79; 0x1a601620deaf3f93; 0x4b53ace8d8c35768; 0x706b230cdffbfbb; 0x15981f011f7a15c4; 0x236a33b217446c8b; 0x490cd6838da9512f; 0x1a81d46cf1626291; 0x6d3b514c88b6374; 0x387022604f6ffc76; 0x6ea9ec80850a03d1; 0x3da16c80eccd29a9; 0x41fee907bed4c56c; 0x521afc18121a381e; 0x7b006a875b180912; 0x665547801e271040; 0x76930c45e9c0f3e; 0x14833535c726720a; 0xb762e8970bad72c; 0x2787d38097895339; 0x42cbe96fd785e22c; 0x7b5896fad1045d0c; 0x35aa024e74f5c9cd; 0x60cab0b95fa9eb6e; 0xce5763614cef28b; 0xfc9b08868d0c300; 0x54024053a2f945c9; 0x4b57b933e304987d; 0x3789fbfa1f77c399; 0x25289f3361c68d58; 0x5b4f38ff90c9027a; 0x54d9a70434a1779b; 0x7d5b14ae44064712; 0x2750eb932d151654; 0x3305f60e964af3bd; 0x7421e1fe7f1c4abe; 0x53505411863e6e33; 0x42f7c98ac16e9b38; 0x68422378dba5672a; 0x77d8195db8990fee; 0x63ab28426be5e92e; 0x4c587a2878c720d4; 0x418019707c1a6824; 0x2a0e12b2fe55045a; 0x142ce60a7c391b81; 0x3721c47bcc952661; 0x3a2be7923a6fb18a; 0x3ca1d1c560911018; 0x402b62f51a9ca461; 0x8ff8763e870af83; 0x199b1fa9f4b92902; 0x3770536ea834a90; 0x38840dd6c2e65c41; 0x5ab861c4073d6d16; 0x74deea809d6c1bd5; 0x6568d27ba3ad4bd0; 0x6301d0b5e0d884ff; 0x5b636d8e3f07aef; 0x1818a70838f368f4; 0x270f89a9099a8ec2; 0x52f2cb12addce800; 0x4c8fb98ae8a6ca32; 0x4629314142d527c3; 0x591c8235d6a2b73a; 0x439672758575231; 0xa13f3c6a6f3fa9c; 0x10a670b361fcf980; 0x39308ac0c58fe13a; 0x5c33655188b3fd18; 0x1b1bbe3135572d5a; 0x4b92a8f62de640bb; 0x7cc071007593d45c; 0x58f43610e39bc533; 0x5ed75ac8e977df3; 0x539aec5a900d78ab; 0xe2ff1bb1bd5eed0; 0x6b0fea7d22cae96; 0x78c909e5ea4ac20b; 0x1808b98bc01ee3e8; 0x3ced43943afa3c1b; 0x48cc3f922e7bf3a3; 0x3750c1ad7a7de5f0; 0x3ef9b5c76343d01; 0x51dc6fe8f43f452d; 0x65f7ec64a39d8572; 0x1c0bd43a50e588a7; 0x543232da9125d879; 0x16ebb5de61306ad1; 0x561b32ad28a73a3b; 0x1463298b549af59a; 0xd3f3aa3a28b88ff; 0xd7fdc9ca398ff3d; 0x629f9b3559315ac4; 0x1c649d72cbb25670; 0x238a516d0a3f41ca; 0x719369ff40bfa984; 0x1dd9ffcf9caccd19; 0x5429972f4c1c936e; 0x6815a88ae6234eed; 0x7973858899e7429b; 0x71a9b0e62b70bf4c; 0x229fc6e2c20ddf26; 0x775f48c5775bde98; 0x547d8bb10878c17e; 0x33524ce395ce5688; 0xa7e5b56dc8ffec9; 0x23707319e86983ec; 0x5111a9313d70f049; 0x637678c8ecfb05e; 0x6a8396b419341ba8; 0x734bc9d830137ccb; 0x587611a419941fd3; 0x26ebfaaf1094e613; 0x55df7c523de63e82; 0x2ecf4c89692445b5; 0x43421700b489ca27; 0x1750fb9ba087168f; 0xede7a2234895d2a];
   [0x6b302a5dfa0bb34d; 0x5cce653a69c71a08; 0x71a01ac852d72ed5; 0x1763d16d387e2f57; 0x6045204ae1be58af; 0x3ae3f5b573e6ac18; 0x74e244c23b04f173; 0x1844b2ca2b40101a; 0x57dd4878af466d89; 0x4392a19e6d2c6c83; 0x61a5b7553ab77a9b; 0x14d512e2402ac04d; 0x2aa094c22abced50; 0x5aba7b93b123d676; 0x2e71a895786091bc; 0x240947a15e1f4e7e; 0x6272995f564fe3d8; 0x3f3cd42f319ce9fc; 0x68a8be43226785a0; 0x2dc0f3ebc53fd135; 0x33ea4a622616e50e; 0x474148b03d63ca30; 0x4a9f844c52904d28; 0x25263f88729df5f9; 0x447eb62fc599b4d; 0x6724e30f3e7859fb; 0x7cb8f01acc927b97; 0x527ffc1b7fede42; 0x74336cfa645c405a; 0x16ac46d70c21da00; 0x6684b7a6058717b5; 0x658eced605890156; 0x5c33c404f7255cf8; 0x6b9c38aa79dfe93e; 0x3393664d6fc400b8; 0x27e9e8a498b21de3; 0x77a2663829d983ff; 0x4c610725ed3b528e; 0x26f39e8197429ff5; 0x131af36eccf4cc99; 0x1f1012064bc89599; 0x6859ab0267383e19; 0x31dc50cce34309e2; 0x6cc368e7695f22c2; 0x5403724996a743b9; 0x544ad32efbe9ff9e; 0x4510a1754344c7b8; 0x4c7c20ddca978a1a; 0x4c40a8619ae7688e; 0x1648483eada76d90; 0x7073d5aa9caab713; 0x3b9adcee26e20d13; 0x387a13f4cc72c953; 0xd01a91f2f95d54d; 0x700e0a5f9de6bbad; 0x77c55a0adc01a679; 0x4183d9c0009ecfbd; 0x3bd9c9cb015a8cfb; 0x3bdc2f8b6f6b61; 0x6baf7fc72a00c8b5; 0x7b623cddf7695882; 0x6dad27a10a7d8d63; 0x505bf86de8481062; 0x20001b939aceca8; 0x618a0fbd83751a46; 0x56fa08ce9928c0ce; 0x1f3a9fdfc6032b4f; 0x22aefac7b10c3a88; 0x759fc7293b8a166f; 0x6f39d094b850b843; 0x431db98865e401c4; 0x34918f7f08618c1d; 0x451479b9a0cdbd81; 0x2acdac4ab5259f7a; 0x56998f7c8426123b; 0x1f86289ab6812173; 0x353909967fa46e95; 0x2c8888c9ebc16759; 0x7b56bc4a5d16b108; 0x5a291d84635bdf67; 0x147d36294b70271e; 0x2a83758f887b66f; 0x58f28d9081c365b6; 0x6188c7952d578c28; 0x20eabdc14d34a1e; 0x2b9ebf75dabbf792; 0x303f337ef06b2508; 0x20b3ea91379ba70e; 0x4c36bfc52c0b3014; 0x4789adbd7cd72136; 0x2af384f9c4e4910b; 0x6ff6d71815148f62; 0x7b23440f2cedf6d4; 0x1a674475cd47e9d5; 0x1e276b397547ef7d; 0x74c7892f77026bdd; 0x44a335e6f5c0e257; 0x3bfafa22d88fbeb1; 0x5b89c5d19bd4e169; 0x53e73cd265de6cef; 0x6377dc4f67d9c962; 0x279dfad2cedb43cb; 0x7de2e747d4636373; 0xad0fabf148a300d; 0x659619a5de4f5d72; 0x2b387ed9ed96bdf3; 0x5f62382c0886432b; 0x4f6726d32d9a46d0; 0x2bc916d194a29a5e; 0x2daa16e0af166a26; 0x230a5b838ddb2732; 0x6133aff1af10603c; 0xa0a51e578808d11; 0xad7341963427cdb; 0x56a2320a1b131a5f; 0x6aefed2054f13601; 0x17bd4fe00b313b26; 0x513312dffead3e; 0x40c18bcc1edbd7fd; 0x7abb4cba368b06f4; 0x3b65d876754db742; 0x12ca77cf14e79e7; 0x3be56269d43a35ae; 0x7a9a28e08e5cfabc; 0x3f8cfd5789a6d99d; 0x6c4fde8c7587f98; 0x4d923009bb018ecf; 0x66f1a261db2369b0; 0xb6478de3517bd6b; 0x6553a0844f9acfee; 0x4758ea6b70b1aebc; 0x781831db4af06a5e; 0x51407164da610cb6; 0x62d847718b225216; 0x19db0226b05e9a1a; 0x7fe1e472a03bd94a; 0x48ae39beef80e98d; 0xa5a9d8d4a50e10; 0x19c6b0e002f347e8; 0x29a175a2b9c704a0; 0x1982571c74943a9c; 0x6054996b6e8e4013; 0x35b4fa84d24ea0fd; 0x6220a093f70a61e3; 0x6bab4f57586f23c3; 0x1f2216d5bbe8bfcf; 0xbbe21418dcfbf82; 0x1754b5cc367a160a; 0x74abbec4308c9cf7; 0x735b77ce91e8d567; 0x2dcc900ac7977d58; 0x39036a324d24505c; 0x5c5a7daca95e066b; 0x2bb90d1aeb618d7; 0x7badf648423b46ff; 0x6cf62833e6a81594; 0x5ed9e579581174c3; 0x236a0ddcc11b5020; 0x4f9e9c2630634c55; 0x20e22b48aacceb3f; 0x5dc4b31c66fee299; 0x2ada989c1bda7971; 0x66c74048a78c6d08; 0x5158059e15901503; 0x2880596ddfd3ab03; 0x22d0d07ab91b69a2; 0x4a3f9fca04d798e4; 0xb679d5be1e56c55; 0x511fb285de684146; 0x3c3dddab6577a2f8; 0x17011ef187dc23cf; 0x7bf4f075ad8d10fb; 0x1656cc905dc62511; 0x2726307bbeb5b2b0; 0x2ea6f3cb0b52155d; 0x2dcda8a1621fba6; 0x5e4ddd693fb22843; 0x60a28fe02703283d; 0x2944d8fdd1332b63; 0x5338c814b895e556; 0x58cfd36f688206ce; 0x652ee0b1b176cf71; 0x2e2073970673032f; 0x423aa208203f7b23; 0x6ca6eca03a7bdd72; 0x6940d0c3b0f9893e; 0x59ceb819cb4f161c; 0x594e212bbbb848a7; 0x5ee2959984906731; 0x11fb3ea655af1f5e; 0x40086cbea0c5ac72; 0x5fbc60b47179f46a; 0x37970805841478d9; 0x69c83e2cc4db26ef; 0x291d1b1af30b6bca; 0x64100f4b840f2289; 0x4e93cdedab03e2; 0x4f95c9eaba4dd599; 0x3037e56eb093b2e1; 0x641500ee3413085a; 0x1015482051eb96a8; 0x6637d9283ba5e920; 0x4724368ea5b80198; 0x657dac10f9161de3; 0x2e25d226bb09f91e; 0x5ebb924be647649e; 0xa293f483ffad625; 0x4b9f050544395865; 0x7393ba998607405d; 0x6a895d2091229193; 0x3d5413e875edfce; 0xcc2fa761e9b70fb; 0x79b887555c8ae983; 0x36a86501d4905824; 0x45b52487f76b8979; 0x12989e809d006416; 0x150516eba59f3fd7; 0x6af1aecfbd883839; 0x660ee3a0c1bb36c3; 0x4349d84e58515f59; 0x235e309bce9a1516; 0x18dbbbd9e59c3e81; 0x71e96de6a39c144; 0x128eb87c003d5697; 0x57e51aa551d165c5; 0x4d737a921f0be794; 0x574b2c0dfdef440c; 0x111347c0430b3df7; 0x5561504fdd4dcc; 0x7116adabe14a534a; 0x5dfefff607910469; 0x3642b138660afd69; 0x52708982e2e62f9e; 0x20609a8fa2e9778; 0x6b9902c90740562d; 0x52e330eb271307df; 0x540455eb942d03c7; 0x340854c48d624257; 0x10a676f8f1254ea2; 0x24e227640cf02a3c; 0x73b98c2a9c670410; 0x73e553ac6debf985; 0x79c75abe840a5fcb; 0x3db6d88c6a6b8485; 0x4aba2912c58f8602; 0x4a3c4ecefe01bbe8; 0x4f33dc60a239698b; 0x49eef0c70c072e45; 0x59c998c9a3cdaf2a; 0x27e37e2e1b0354b4; 0x71cac1a137e70eb3; 0x5634df31f19eb188; 0x31687d4da1b66197; 0x60dac5ad74331aa3; 0x7bd0c32d10ac9a36; 0x1e54f49b84a2f9ca; 0x7ba86ccb3a2d0e02; 0x2913e4e93a5f1277; 0x18e13bf3f2f6d0a8; 0x764d6b11948a930; 0x19809bff656b509e; 0x443a4456f3118cf7; 0x120746f2c24eb91d; 0x2d12f985ccdc52d6; 0x129718d4d51dbde; 0x61ec9ded952fe683; 0x658ab72c0e142447; 0x60ab8527fbdc33a5; 0x66f4b71333e7d447; 0x4904e1b4b9b3eac9; 0x4ee515e48e32735; 0x5a06245a134504f0; 0x79715f5d87094a95; 0x75b77a096897eeb; 0x4cf15258764115a1; 0x40c560c7971cbbf9; 0x2780aafaf85d0b; 0x7a14b362ef780430; 0x95779848e063059; 0x627977f1730e75c; 0x720316a9ca9871f9; 0x7b010710bec00e09; 0x648af48034466b1f; 0x5a747ee6c0d5b85b; 0x7ed1d71615a4eeb8; 0x6cf0fb303a014f2f; 0x4f92c1b63dcc1870; 0x564f7884d4fc3669; 0x3a87ac0088ffd32b; 0x560b0cb62a2a235c; 0x1de400e926ee643e; 0x29c144aedac3aa1b; 0x175f85470ff31689; 0x3a6091ddd7ca9740; 0x1fb4c99ef9df82c3; 0x637df8d170137047; 0x38f58d87e8ab8e7d; 0x495f0d34a5f2a2d4; 0x2f5383d6377c65e3; 0x4ee1cc940195680d; 0x43861f14b2eed6d9; 0x3d43ae31b50f1871; 0x2cfc95b0996df2c5; 0x2b6113823451ab8b; 0xf416a334ee5f267; 0x276d43265d15ae13; 0x63095eb9e82a659d; 0x62b5e1b1f5ff880f; 0x5b7167a14144f250; 0x10f46b0a1291fcf; 0x68eae1f78e1784b6; 0x6e3f8089ba9b2d74; 0x2b73c5d108b142b5; 0x6f11ba1fb9b2061d; 0xf64c4283281b743; 0x6cd65234a4278dff; 0xa8fd97530d5ba2e];
   [0xcdd8732eae4603; 0x6ecbaf83e7a5decf; 0x20722f84013b807e; 0x2d417005c7595c18; 0x64dadfe315c52a7d; 0x662d1dfe58e95c1f; 0x7661f4bc645e8457; 0x7ac6dd0b1257177; 0x1ad0745abfab2f03; 0x2c6672f58489bdab; 0x7947d0d2a083c812; 0x736309e306bc3381; 0x1452798018fd9e16; 0x25f03f9189d779cf; 0x70e97c52da7fb211; 0x5c589693e010207c; 0x59d7ecdbad17511a; 0x664897b4c4602f; 0x6000b5ce3505c934; 0x4c11591c529558c0; 0x60ff1cef791cf893; 0x47c14a59104a1d3b; 0x5474b29df51330ef; 0x2e3dd99af5461bfb; 0x5317687b5a750021; 0x326f837c07102937; 0x1705fdc9887c37d; 0xdd7027bc34ea79c; 0x21cfe126ab1ae093; 0x1f415000e440e797; 0x35e1274cd7c10462; 0x11308d4920706560; 0x72a5b8d75e7b3b09; 0x69aee83fc0a03b3a; 0x1b3e85ff5fd12630; 0x1c25d28193c07a08; 0x524104d66a7e1ea3; 0x5b43bcef5344a50c; 0xab56fce1e5483fb; 0x3b3fd34cfe1c223; 0x4e97985dbdf5e832; 0x7ddc76275f64baa2; 0x6c21bad605caa915; 0x4c6d51c45a284fda; 0x77df439dd93310a5; 0x4ea11e33743b3e1d; 0x3048ff72dfc29234; 0x55de452989a67d36; 0x1fab5931c54f8ea4; 0x550b910b9f4dc9d0; 0x295a187f820c7c13; 0x746249c5766d2783; 0x303057ecb82b6f9d; 0x638b0925ce6df746; 0x58f8419c825ca685; 0x37b42ddedebcef97; 0x4e27982acf9bbf47; 0x1ee0874475f4a5fb; 0x1eca3b6f419876e2; 0x7e1a6fa2ed3d2841; 0x370396c417d162e2; 0x1d3b27d8774b33d2; 0x44c09472c334504d; 0x4350e548851a37ff; 0x3e4fee8c410de919; 0x34cb976d461c8def; 0x5c934158e56b372f; 0x487ac57d4d16b573; 0x166e7a7fe888b756; 0xd7c3cf6a60d259c; 0x1c8261841c5ec84a; 0x446a80e99104f0c3; 0x7a756237ece7fb57; 0x742c3fa26f68368f; 0x165efe1cf8c069b1; 0x5e0db30948367d89; 0xd1791934a701eff; 0x5afe31f1c726b839; 0x3be3885581d70799; 0x4083bec1ce66e906; 0x6f2b9061294dce8d; 0x768dab2a74dde703; 0x8c50facdb688f22; 0x6ccab52cc66f1e0; 0x11992ee76ce8d23f; 0x3e1d9b17ae9d2cc0; 0x48d3f1464b8af454; 0x319cf70bdf871270; 0x7b3571c5d5ad85d7; 0x6cf197f13d3022be; 0x26a7fd7f62edf112; 0x3677301f7d7ab6d3; 0x2d39bab14298b548; 0x72496ea64aeb9a94; 0x64d4b77996cf95a9; 0x4eaceedbcb95c388; 0x78b78338dd1e7b54; 0xb375b740278d63e; 0x59026aff41c031ec; 0x570e2804730d1b86; 0x2cecc926e19697fd; 0x43e6ecc0ebe9f371; 0x3da55f027f510f29; 0x27b05218df0a5061; 0x408c6f76f8815ddf; 0x31b276c29b4dec8c; 0x5c589a9214abaf4b; 0x476cc5021f943d7a; 0x6be9b106c8af49b5; 0x77b7624ebf07eb01; 0x160f0cac6f85d4c0; 0x3e764ee7bcf71ee1; 0x5926184df04ac3ae; 0x217e6bbd0e9f9194; 0x7b08e0f7d7044dc5; 0x1a4c5df38b3f1ada; 0x6a6946801572268d; 0x717726c0bdc11663; 0x6fda4e48f3d136f6; 0x50a7b90c94188be8; 0x7d15880111e0700a; 0x56ae7e1e7294b147; 0x6ab250ca40945e3b; 0x34869783cc505bfc; 0x2b5b41865b1c75be; 0x33cad12d59b03513; 0x1e8f3d75f08d5d68; 0x4c3c330894dbb409; 0x16cbf2b6c21692e3; 0xcd73eb4576e87b; 0x4035cab9573440a7; 0xa247917eb01e94c; 0x4230cf840b4f651d; 0x71e9cfb34c5fe5d8; 0x570661af90fbf2da; 0x4f987dfaccddf008; 0x66c7eaa1bbde2268; 0x26362ffbe8dac558; 0x7435ce38c74c09df; 0x2df6415ef24c5fa5; 0x347d25e9f610ac65; 0x5b73030c1ed2fe6d; 0x482f19a290bbb2a6; 0x6026648fffd32045; 0x1635a84099c7bf88; 0x6b075f8af2cfee7d; 0x16f2d3b13d8f738e; 0x18fc15a11254d20b; 0x56a07fd421704063; 0x240cad99de2da974; 0x7e51c587bb6be23f; 0x2e3ca8d9930e8480; 0xe1b96c6256f1bb4; 0x56b97402d759f3c8; 0x3c3d278c5d1f8d59; 0x37d1ed77b346bbc2; 0x7761e59566e41c70; 0x24022461f34466b2; 0x1e518bb7320128ac; 0x1110e4fe53cb216e; 0x37ced37e2a7ea2b9; 0x521114a69fce4b98; 0x727a6c954b36699c; 0x33bdc8a8a7ec8227; 0x5284d202f277b038; 0x1ec3f0d57cbedffe; 0x2f21c3acc5e2320e; 0x48014bf9b0fd9eb; 0x43d8ea0d6b7f5270; 0xfef900e5ebc3895; 0x1432ad3e4b6abc39; 0x2e21d148ac33888d; 0x40ab5aea734681ce; 0x66a0710d40cbdd76; 0x2e44fac39f1ffb0e; 0x2aa895ebf1df6d3f; 0x10d710d30044b215; 0x249eca00a3ab4014; 0x5748e9053d8e3ef1; 0x223eb399b9d53cbb; 0x5d79cd76a74fad27; 0x20b660aa245f0e26; 0x4f69e4c3d7b526f8; 0x3b9028f31845a025; 0x13ecf03e48687411; 0x7b3291431949b6df; 0x21582d1f054ebb8; 0x4273f4935810994a; 0x46197520f01c245b; 0xe8c7296488d45fd; 0x4d1961603f85822; 0x5c06c7fb82dfd3ab; 0x42b92db5ea050cad; 0x677e6cd000e7453f; 0x309e38e114b5bc2f; 0x74dc7c2ed577f852; 0x7ffc3ff250e3d88e; 0x1af4c5b9b5980f80; 0x1760534db4a4622d; 0x5e548cf36426e5cf; 0x6737f774f44207a0; 0x300e03b4fd68ca25; 0x4d2e3fb42d4ee51b; 0x2848abc4110f4077; 0x3f64b842ab37135c; 0x8d23ab7b8d4f889; 0x18de46689fddb9d7; 0x65f279890c336f28; 0x2fd1d43b4b2d093c; 0x635c0228739dfcd2; 0x4edd18f5cc2b82e1; 0x425bf57139b2eb77; 0x25366ffe62315dcd; 0x207c2ba4365d7301; 0x4486f7e497ea25d6; 0x7281f9184eade046; 0x2e0d1f428c84b70; 0x2eee969f709ee621; 0x337992e0766d1ecc; 0x1a81cfe2a7404551; 0x113b2140c9361a7e; 0x726a4ca352140da; 0x739195cf30d30c62; 0x412e07ff99f5ad4b; 0x797c422a7abc3858; 0x60895b250f741c72; 0x152deef0c40d37d7; 0x797b02f9dc77c0dc; 0x5179aa4fa5496ce8; 0x467e702c2c5a3b09; 0x333cbeb5a75eda11; 0x7f8eb0d4d2b24b86; 0x1ba0cb773cf61a06; 0x332fd889d24bc44b; 0x4453d4c66b345f14; 0xee1d8aa12c8df89; 0x20b23a26ae37f604; 0x2d63b69d939e99f1; 0x71dfd75c993e404b; 0x3cb731047d7491de; 0x2d88ab5ee0c73381; 0x6391a8019823dff2; 0x28e00acbd3ee0dc6; 0xbdc9528567d6351; 0x30073ad44a3a3352; 0x62eb1d21d3743299; 0x1013a1a184af04d; 0x72ee3923c674ebb2; 0x5b1e9ce8090b03b; 0x656f143808141165; 0x679ac64a0a9a0f74; 0x617c0b6aa70d6066; 0x11581d95dd32ce21; 0x3b81de2cf5d6c1be; 0x158c8e09cf9909e5; 0x37c2aaa66117288b; 0x49f893d6958d73a7; 0x5d399dc96e13b2ae; 0x5ebfe925c0001988; 0x52a9d1da974165b3; 0x145b8d6f5061edb4; 0x277acc26012ab135; 0x7d375ce7d336afc; 0x1d8e88b23497d720; 0x6c71f39741822913; 0x1b2649ccaa662940; 0x3228a5288320ed6c; 0x5c2dd59fdd75db7a; 0x6f07b55307d4f3fa; 0x399d2b00239814; 0x2560a8104539a7e2; 0x32dbb149a082fd12; 0x307fe3a02ab108c1; 0x6e95e356a715f872; 0xe3670ef1eea6d3c; 0xfa7fc3f9e41331e; 0x1b611061a056ab0b; 0x23ba41d2c4bb8fe1; 0x72a9b49ca2013ffa; 0x56fb0808c3c942dd; 0x1d4171282cd377c2; 0x4ff5aa16269cd8e7; 0x6e5f125e0f2ac4f3; 0x2b1e5f66eaa50649; 0x479bfbaa76e3a540; 0x7632566d905a585d; 0x621b9a0812e46ed6; 0x182007288365c4b7; 0x544f59dd7b778140; 0x2921c4508bdabb19; 0xe61dfd3f49e392e; 0x1012d2eb74a4414b; 0x48687cd8931cf29e; 0x9302cb80236281a; 0x681368d81ac5dbc2; 0x8301d676519944e; 0x486b146a1bf7d237; 0x17a987cf3f6d2a52; 0x71b518803112f2f0; 0x60c4fa5a77ab232e; 0x76cb962ddf6db6c4; 0x32573c21d522b2c8; 0x2b2a90d26531be45; 0x6a763ee808494601; 0x7a637b1fef6a2963; 0xd3e98f0a1716b35; 0x2ae1d1a4e89dfcb9; 0x6bdbf28bb4a6dccf; 0x7ddf113f75d38ab6; 0x5fd50d3c85932fff; 0x3bd246ddd7ba6ec2; 0x3a766b59a1938475; 0x56fba4052558a2b1; 0x1b18d5a896d670f7; 0x6ebd075b89169ece; 0x5df6e8261476c542; 0x840687b3eb25087];
   [0x6fb1d3bf7e394a33; 0x28301a9e631f0b29; 0x3415b45ab0c1a465; 0xdef19400df20422; 0xd9b2bf57a8ec5f7; 0x4714fb6fc6737355; 0x668e9e709335fec8; 0x5eb9137bf5a59b10; 0x774ad4c832a186f6; 0x66f58986bd535244; 0x580125619c811245; 0x32363530ed4e8e1a; 0xc0d96ddc343ff52; 0x4526f51ad5ade7df; 0x8f87f75346df80f; 0x1d03bb08dce88e5b; 0x2fdafaa601bd2209; 0x63df3b2600be9772; 0x309e2ed6dc9e3e6b; 0x5961e8af5cfc3df0; 0x263bc73e72d40e50; 0xc165a8920a3b8f9; 0xcfb01b4bd9461f4; 0xf5e17e2c5e0a66b; 0x353451b0b66eb39e; 0x493b4e6cf40c5d4a; 0x20331b4cd23b2cd6; 0xdc27b85b21f8dc1; 0x38fb873f60c6e70a; 0x4d96589a0df1a638; 0x55c7c7641c0baec4; 0x6dfca98c9514408c; 0x4a9335f136bb3cb3; 0x7f9283b988233b9d; 0x64f729f5f7bc5a42; 0x6101349510949405; 0x20fd044045b1d6fe; 0x336f6a038d493df2; 0x4f9dbba5189fbb3d; 0x3f3ed524817894fa; 0x1fa9a1b4789b98a1; 0x7f7419c2415c9eef; 0x1ee3f320993c8c28; 0x2a52050960f16cc2; 0x23a86517a5022c00; 0x62c4a54feb1bc8b4; 0x21e19f71057c9f2e; 0x176c832264e9b63e; 0x4603315bbbd69fee; 0x42c6c4a33a972322; 0x65c19e14d50ac252; 0x114e55d7b4794876; 0x7d84c947504d7c92; 0x7fefb775977a677b; 0x101d2f287cdf6861; 0x72f51f54f28c971d; 0x2ee2364db96a2876; 0x397d31be46ceedd2; 0x703e3dd760eab9c1; 0xf94cf14d7778a2e; 0x10a83c703a3b07cf; 0x270324e480d413fa; 0x13bf772ddb1fea4c; 0x1bd4e54fdfb79d14; 0x743ad067f018b2e1; 0x30ea8b9781455a7d; 0x765298d1b8d1251a; 0x7263d1d79805a9bd; 0x7fb6f89b0dc9fc50; 0x196ecae07bbd4732; 0x2277982c930c54c2; 0x2235744e56052339; 0x1647fc99c5999da4; 0x2d3d7444e02462; 0x79f55bb394b4e182; 0x17d3f812b80274aa; 0x21a1c048d96b34aa; 0x78d07b65436a2258; 0x4ac0a8c3b863bffa; 0x47eb549048e848cd; 0x3d07b31cfb6d020b; 0x4ad30347d3306350; 0x7783cd4d48f424dc; 0x59b1d5f6320b8b48; 0x3cd6145662550ffb; 0x149edcd94918d8bb; 0x24c096b2e9330747; 0x58ebcb28517ad8a2; 0x79111fadb34beac1; 0x3baa2d74b2e33229; 0x5bf75ef88d4a88bd; 0x5e50b24390821ec2; 0x51e78998dddf8967; 0x3468a3407edaa1b5; 0x5a7ace4b797f84ed; 0x68821e700cb1f218; 0x6f3e0499c38578af; 0x2588eec7e76967f7; 0x68579ea1be27222a; 0x56b5bc3ccb4abf29; 0x2bb64ea34e03a097; 0x688be3b7fcfd2db2; 0x5d5081e4e635fc59; 0x67462516eb78e18; 0x7c49f485afe60581; 0xe1bd1fb623706ed; 0x76f24f031b3fe0d7; 0x1efb872e56aa6e7b; 0x18be835c32f0e7e2; 0x58989e46309ac164; 0x7ecec8a1b673e098; 0x601c488a710ded88; 0x21c77b8a5a23eb54; 0x3b8a171dec6be24e; 0x5acc5916dd77564d; 0x828db186b5657ad; 0x16ad888df52f4958; 0x212672979c1a8bf5; 0x166e337c3ea82ffc; 0x47763e0f15334ac1; 0x7ce43d8968184a88; 0x3221196c7464fbeb; 0x33da6acc8b95ff7c; 0x5904759df8ea1ba1; 0x695b41973fd20008; 0x449448c960245054; 0x5c0dfadbcd4eae9; 0x2351cd9ae5a1bc08; 0x5163f93356cd32bc; 0x737a404078a624cb; 0x4620eff655ac8f71; 0x1a6422cc67a40e28; 0x239182744b2f355; 0x62d0f76e911cfa10; 0x8392f9461781db8; 0x60d5f857fce840a4; 0x15a1492edca27d09; 0x18fbc46f9fff461; 0x5ecd0a8862849b63; 0x444ac9325e37a436; 0x5384e4dc50f7a22e; 0x6a29156302a451b2; 0x4b15ff46854b08ea; 0x43d6a93203084935; 0x5c14c082b8f2b3ba; 0x58343e09ef1ad1cb; 0x2707c893a9c2b29e; 0x3d2c300130e8f7ef; 0x7869892e5aca589; 0x6a26697a5b5417a4; 0x2f1dfc583197309b; 0x5430380ca8bfeaf4; 0x5c312e8a1df7031d; 0x717325822c3b694c; 0x2179f9385085cd2; 0x5690bef94050c974; 0x3c88c7bd56f35f33; 0x6ce6be4a850ab77a; 0x7821a6b60475e01b; 0x703b8661fd15e989; 0x604078aff7b1d2b5; 0x486b088685f966ed; 0x451eaef07a167507; 0x6edc7e2ce3ac7ff4; 0x2fabd0839bb45638; 0x2a0ac3fd1bb4ed38; 0x618f32edb3465565; 0x1d86b216f2c72592; 0x4c345be579ca0c13; 0x17c57beb3c61f7d6; 0x1f9d0b45e4f4270a; 0x3905e5058ca8c303; 0xd16a5b82d34c27c; 0x486b03ce8fa8f9a1; 0x2e5ad85260424819; 0x2529b99febc61281; 0x76e7f488ae32ac0f; 0x1a05a13c7125babf; 0x1fa33afedd0c3460; 0x36f9db1342ab0046; 0xd270663d4ab377f; 0x5d851692ef160cfc; 0x51a03317accc3578; 0x7f642a8c5ccbe921; 0x52374eb1d4c90b76; 0x30837b477ad8be04; 0x79d7e0463bf6298f; 0x170ef104decba1a1; 0x15abfbfe1959e1d2; 0x3ccd25a50791762c; 0x6af3dcc1b68862bc; 0x6c2f35bdc9fa4423; 0x739a1cec2a186441; 0x72dbe302693f7bdc; 0x2f704ba17eab7ade; 0x3309f96d8464b6c9; 0x6fe25c890579ba82; 0x13f8711c4a44149c; 0x4866a69deecffb77; 0x2e2cdc4b9fb2bff4; 0x26636ed9a4473506; 0x46ad6605dd9186ca; 0x6f2ce96ad4e80e2b; 0x4c4fb4d80dafd112; 0x37325f1a58a6b43f; 0x156457f5015024be; 0x49f5111d2a8c35ee; 0x1c96eedac908a856; 0x5d1c80756f3a961a; 0x4c48a70f253968ae; 0x1e7cba72f2169d23; 0x3987a2929d9174eb; 0x7e3d188200f3a2aa; 0x77a393d0a4016960; 0x469728b8f395c739; 0xe60830723cb6013; 0x396e5c91d04bcd11; 0x52cc738d581883b4; 0x3043d9aabbd64af0; 0x6b8bd77f2cc6d450; 0x6ce4cb179ce2a67d; 0x640b0d5c39a6af1f; 0x1218fc6f4f2449e6; 0xdc5e8e55acee0b3; 0x393649aa3b5bbd24; 0x52b85ed3420b5775; 0x2dc59d7dc27fdf98; 0x2e064f9e84c713b9; 0x277c44feadccd4e6; 0x6bd0f25733c8353f; 0xd1c17b20f060971; 0x5c68bae8d6826f7e; 0x38d64771fe02ff9d; 0x5b80ab0ab0b7e43b; 0x65a051c9591a8ed3; 0x29c31b3b75d2a274; 0x2f9cbc54c06bcd76; 0x35c778e229ac2cdb; 0x4982238addda0ab6; 0x7827ab4f4a2d8e09; 0x23351a499089239d; 0x7ce893d4a5f933f9; 0x39e1eb7441347994; 0x2462a48fe3fd5729; 0x514ad57f4f4146c7; 0x4ba30048d25282db; 0x5c38e90d1eb31b63; 0xed6b23e66df81d7; 0x1d133356c5543cb3; 0x35ed739708c6c924; 0x1b233a4e5666e643; 0x46bca5ef866239a4; 0x49e07be168743b89; 0xf2082c24910ab2; 0x4383e7473a3be18c; 0x6cc1d20fc62ed330; 0x46f84ffb92afb644; 0xeb91da75b22188c; 0x71f6597f605d6003; 0x614342cdec192a7f; 0x7b762f6e2af4fbdf; 0x2738463c9ff4329f; 0x3c173ade2333ccd2; 0x19415a841c87f5d8; 0x1e119d09ec463b7e; 0x742e8395c903126f; 0x11026c135a3fba34; 0x7e0a3165acc7422f; 0x7d580fe39683b2dc; 0x18925f1dafdab002; 0x2e1e9ea43b0f6b4; 0x5c12e9d305f96f98; 0x11346c6e553d3027; 0x6a191953f1beb9fe; 0x7b970dc262c4c4de; 0x4159d8631d124410; 0xb7740891cf9b7e; 0x5f7c8518afa51a29; 0x4fbe79fcd5087e87; 0x5f5407cb8bf35b73; 0xaa180d65de4efd9; 0x2f744a2ba9c6caa9; 0x35d2e479cc73649f; 0x72a38b27f0f8e586; 0x52190a8ef2ca4e53; 0x61ddb7de277467d6; 0x20ad88d378fb2fce; 0x756c2956c8e26f82; 0xc01dc5583af960d; 0x1772743d507b6137; 0x59a5d84e4c8a52d1; 0x2b80d03a03db6831; 0x2cd4ae6a3bb5c786; 0x606401ea911de7d1; 0x7e8a6a6312e44c96; 0x7b51cb02e8c05730; 0x40a777cf5cc50c50; 0x60ebfb37e6e0a0c2; 0x45e2f997390542c; 0x4c10dd3117b92c10; 0x993c6278d95c241; 0xf7e0d875cf480c1; 0x40ac90bd8ac7cb5f; 0x5370ec68e07b1316; 0x1a9c0947a5636a70; 0x35707e4308584f0d; 0x5f21958ba42e76eb; 0x315e8f17550c03b6; 0x3da69044c4663fc; 0x1306efb98d4b86d1; 0x1a3e106825d7768b; 0x5602bba1c7b68f49; 0x5c82009d6bf778bd; 0x61e565920ac16044; 0x6732de59716e7869; 0x4a3df4f1293012f8; 0x8336bc013949f9c];
   [0x48d1df82d4d8fee; 0x3a55c0b87c5b0927; 0x4d7d866886873968; 0x247824fc32ff3b43; 0x357a4a30d0c60128; 0x3e8b07b4888cf3c4; 0x47abac7104acad7f; 0x569771d7b3ee804f; 0x324c2ed9a4d7830c; 0x129057f903e7d7c5; 0x6abbc5db3c786c13; 0x194a74ee335701ba; 0x35acfe925932f3e5; 0x2dee4885b331d2aa; 0x347c2043141ca3b9; 0x66e8c67113fec61b; 0x1dd29ec53e007a85; 0x6d83840f3cabe53b; 0x651e92b7fcf7ff3e; 0x114ec4e5ec09b54b; 0x31370cca4e6bcc96; 0x41a3fff58cb52b5; 0x58285e5018712c38; 0x1f64c61a9d225340; 0x7a3ec398553c627d; 0x37b24288d2983686; 0x28ce127914f3e489; 0x8f2537f33979c3f; 0x6c7feedeb4b3c179; 0x2eb461fb73bdb444; 0x49fd5bcbd84b773b; 0x7f0f3b2d3515c66a; 0x244f4c9d5ee629f4; 0x457df8096e9113be; 0x410e995350cf97f5; 0x54c1c465560604aa; 0x5ca1d781fbdac9a6; 0x7fb071d67486e74b; 0x2c965b09a3c7c377; 0x785e96ee891d923b; 0x66e47b313bdea9; 0x6c558494827ffde3; 0x4ec1a9d5b01c5181; 0x4415d848ae2bf4a7; 0x6db1912a7e31cc3; 0x62ba0438fd243a08; 0x3f5c8cca979e154b; 0xe7f2cd3507b60af; 0x60fc60f29884cf8d; 0x64796356ad0a4a9e; 0x5e5f9d682e0ddfc9; 0x3ead6e28bcf79e12; 0x1462b9b72a2fcecc; 0x4ee79fff03fd74cb; 0x73f90173b96199e8; 0x6ca1b8e8511ce47e; 0x7e7f115dc7b47cd5; 0x535eae34cc00b89c; 0x643b1e2c84a0cd67; 0x28238cb2664feef7; 0x796d396db255c209; 0xe88a954567122ef; 0x4807b647ae082456; 0x6455ece8a813312a; 0x492d999545adf987; 0x7e28e9ae6ce27e0a; 0x3a1a7fa85dbaeb2c; 0x77f95c66090e16ab; 0x4b2aaf139477c3d9; 0x365622aa072922d6; 0x48b452586b2fdaef; 0x2e984a751889375d; 0x45dfd8acc1cc606f; 0x1d0eea07b07dfcc9; 0x78bdc91c4ca17f32; 0x1110e6b042e4b7f5; 0xf5c2a62ea6cca85; 0x32c8284914ab4b1b; 0x5993df1184563f3d; 0x3136cbe2399e42c1; 0x47b8723c936eea87; 0x5cbd734d51458e6; 0x5f412455982d103d; 0x10478c6d236f896e; 0x49b7ab110617f779; 0x64c495e7b624fea4; 0x49622dad624fb960; 0x6be279032f31a95f; 0xef967bbbbe22093; 0x779ecf5c704e7c2; 0x7050fb13325ff8e9; 0x24fdf3b0be8febbd; 0x7e860b14524e6663; 0x217adbffe72d9d4c; 0xd8ee5a04d6a7fd; 0x3e1e6de4380759c1; 0x7bdeb61f43dc2de4; 0x191262001aca3642; 0x49aa46600b9a32b7; 0x484138e24460f187; 0x752303816b11fe0d; 0x744be35626f314cf; 0x599497e2a40a4cec; 0x5f0f0c53b3b913fc; 0x79d29e6ab72c19b; 0x79e781a21b27bd2d; 0x658847675de01ad4; 0x7b4f8967f59f9e07; 0x3dc75a618d769f; 0x218af6065b6a50d2; 0x602ff27aac62cf62; 0x33c4fabea14f4403; 0x1d15c04f84d8c409; 0x76941aec7130763d; 0xa2889fd00dacc8a; 0x796183d93f66bf45; 0x5bea28a3ee0618ac; 0x29b5961bcf21366c; 0x3f2c305ad39ab310; 0x415e51c8e9ed1561; 0x6eb11afc1fd22f27; 0x64e13c628a61a1f2; 0x2112efbd192fb567; 0x74cfb07175c68e72; 0x2c043eaea4448a91; 0x7bd2bf9ad5aa346; 0x2ee5771bd558dd65; 0x2e04ed408cc4d000; 0x5ca1952c9821a84d; 0x606fc8e2d38aafe9; 0x68e0eaf3dbcc69a1; 0x493f49e5a7452d93; 0x46f683e07ef290a9; 0x37ce7775c19dcec4; 0x71c2e19647f761d7; 0x16a8c87bec22e4bb; 0xe4904f9ece62290; 0xa9691a97f8ac105; 0x2f9cb3aa816c8fdd; 0x2b23d66bf774ed13; 0x4990956fc6e8fc71; 0x757c9179dfb78f9d; 0x514628d8a43a2ab5; 0x6c05f1b325a3a6a1; 0x14417ae0628b75dd; 0x221fb4b7bf62a90d; 0x532336ac1de9712f; 0x3ca2ee22a947d814; 0x3dcdc9195e3718; 0x50df576525008ff7; 0x2da7c3de4aeef69; 0x2fe1c6f6a87e3081; 0x1603968425360d70; 0x2f0bab916934e467; 0x35d344b00a77c765; 0x5b016368bd6ec9cd; 0x53aeb48378fb558f; 0x38b21764a5405fcb; 0xeefa9e458903edc; 0x5cef0e36c6380994; 0x339b44ba0b1e75bc; 0x1c2b4cadad0b8450; 0x57054aff9ae0e483; 0x2a60618471d75401; 0x30b94b94c7679ae5; 0x3b4a0c2807c56001; 0x36be197d1bc915ef; 0xa53edc83295ab2b; 0x420a6270b7f8b89c; 0x6cabf08846a05c32; 0x10de162162006ff9; 0x51a0450c17cac78e; 0x4ef2108a5807e72a; 0xbbfe9a73b3cc849; 0x3c8daeb159ff599e; 0x78adcfdd58d96bf4; 0x162ccb399b6f80b9; 0x15f44c8079b4122a; 0x2e5521a9b505fed1; 0x404028521289e4f5; 0x63a052bbf3d071ea; 0x4cec9bf47f8385b5; 0x3e3468bb994606e6; 0x9d9b0ada05ddc90; 0x35649d8f4566bc0; 0x5eeee0f816da733f; 0x223c6f949064134a; 0x774dbeb3c3292325; 0x49a574d4bf164306; 0x36f3c756e19e3e7b; 0x50762d68279eae5a; 0x39cc4a5368238e0b; 0xad4904bc79665; 0x4acb71392f222155; 0x632e4924c28a89d9; 0x1081405874e77206; 0x298a7aea947960bf; 0xaa4fdc81e3fa847; 0x400b28c0609433d8; 0x1fe04a1566555608; 0xa90542c8ce49a78; 0x4e100f2081e63d35; 0x3f5a23810f7fccaa; 0x5cd1c030c2b6d36c; 0x46e32bc1a1b5405c; 0x73309b424fc25e8a; 0x2c70d90cd2ec79e; 0x629cd47da4a27ffb; 0x3c3bb904b52c3f30; 0x2f9cd0153ebbd7a; 0x7220ddab255f30b5; 0x2216f963d7fb9324; 0x10564df1d6c7bdf5; 0x3f85ad0a00d9391a; 0x402804f09cffa529; 0x2cdc56c67ec1f44a; 0x4439936ac019288a; 0x2ddec25f6c7f0bd5; 0x6bef0040fe4fae06; 0x1519e3ce1df8eba3; 0x591936fdf4e8edc7; 0x65aebb8bb304fb72; 0x7a3d742db09fc63a; 0x57495184ab5f552f; 0x51369a43dc955a29; 0x1f8382fc8d38dbfc; 0x3b24e970cd43c9c1; 0x3c8f8a5ee53f9bbc; 0x58f99636a604c4c7; 0x3c094521c78ac6ed; 0x5c26c022649a2240; 0x60c6010efd80de2a; 0x4d38bdc87b0fd432; 0x18870a0e36c6643e; 0x64858733d385fdfa; 0x6fa202e1d3cc2e9c; 0x74047386794962bb; 0x47fe5e88449a9fa0; 0x3c547847c8d1653a; 0x5a0ee11974809778; 0x5dbadb3208bf8805; 0x32687c404eab8de8; 0x5e8a804894e4cf5d; 0xff7fe3b1e71e283; 0x45f111eaea6ef3bd; 0x6ec1952497565db9; 0x289acd8f514a017f; 0x5c615302455fc3f9; 0x7b0b8bc5ecf5dce9; 0x3f341ee3888a0515; 0x46ca694a30c1d1e; 0x7b56c4ad841f8428; 0x40f5c9d5051f444b; 0x29c83f12c2000beb; 0x2f4fa7a114300398; 0x5669112f1cea07ff; 0x66a0350a6416a111; 0x3ccb0487ec6a8d18; 0x1f3d76374870eaf9; 0x75831c045456f6a5; 0x35576220bbaa6132; 0x271cd643291f47e2; 0x30f4fb17bf0a8199; 0xe14f7bd308c59f8; 0x5fb104786da658f3; 0x12e7eec22aa32de2; 0x70404c66fe334d19; 0x4acf41af1660372f; 0x2a8a645206350991; 0x4d7deb0b5b1a4e85; 0x13c8e0b16d2069e5; 0x25a28f741d6cf19e; 0x2e6edd214316c5d1; 0x459a16ed7259702d; 0x4dc8d30dd416a9ad; 0x4cd616adf603029b; 0x3e0be41c86e89e48; 0x6970a0241f498185; 0x2139d2d1500cf78e; 0x1430cd5e4eb8d90a; 0x2c069f83fc60fa1a; 0x6ba0ab228e73ee84; 0x1b413dbeae06957b; 0xc7a99fa357cd8e6; 0x7ba6102ee6aa0f69; 0x29da0964c2450f62; 0x29b5c24d75e82553; 0x3fc1dd86e3558c8e; 0x5b9daddf29b66d44; 0x533224795b3a46c6; 0x2a00823dfbb087c1; 0x658a8286f85a61e4; 0x2fc7879aced19a99; 0x272633a31248bb2e; 0x170abdc7da19a5c8; 0x96884f735bcbb78; 0x53d0b0f722eb61d0; 0x1cd66ee30928673c; 0x1fdad8eb7b885807; 0xc3ec4cfe53d5362; 0x6b32f8436bb8c211; 0x747897941602dc29; 0x5a2cf442c5871793; 0x1f99df7b165ef76; 0x47914aeca48a3752; 0x3d50e4311880329e; 0x167400e9731fd18a; 0x2c6172508c9f9047; 0x32e16585e14cf2dc; 0x233d53d1349e2229; 0x703ab34590695fc7; 0x1f64e660d7281b5c; 0xc9f6bb7eb586abf; 0x1bc3011e0b0e153c; 0x3dc7a91d8740af91; 0x5a3c700e2a119e78; 0x337ddc69156307d];
   [0xa54b8f927337b4d; 0x399aaf01fc4833b2; 0x11b6c2814448f79f; 0x6f894c1e705b198f; 0x713f33bee126f99a; 0x37d351a25c01b2c5; 0x68be8b77300ff757; 0x20c6b4a5d3849aee; 0x4cc7454a3595caff; 0x2a65b1fc5e0fee33; 0x70f266ec2459522b; 0x5d3e66fc0857079b; 0x22b7fab3f8f6e58c; 0x64c24471cf6fac67; 0x5b479a6413099023; 0x4eb6db1352e3fe5a; 0x537a3759add0d858; 0x5c1f1fd2e4046cf3; 0x4d5d44f2a48f0aec; 0x1c57785917010f67; 0x7d2ef82ad4bb35dd; 0xef3d41d7edd9d0e; 0x71f217a95f342c5e; 0x735c879d51749d87; 0x170db5ba99f49642; 0x4d8543d567392f5c; 0x4f948b4393658c21; 0x1d3652223644cf18; 0xa045781ec1c209a; 0x65cf354aa4f47842; 0x6a5eb696edc0d51d; 0x43dd863de57f2111; 0x99de769a0e0d44c; 0xc0262ca7e2c8354; 0x5165a512e3c1ad51; 0xce205e4727c4d5b; 0x5bca62ba702848ea; 0x4ec0e4882b470fa0; 0x628175a5885f7b75; 0x430edade6af20e4f; 0x249c9de809a9c26c; 0x5463b0a71eb6d0cf; 0x23f6bb5e0b4349d4; 0x7e35c6e992f88e87; 0x5c784cf421ed8156; 0x2154082893a80c9f; 0x36e02a24306b160d; 0x6741e6bed4dddbff; 0x2185be1f8d4b4626; 0x198158e68c47baaf; 0x3b425801aa09ad4b; 0x31fe1bc63d9471e; 0x31293e6868bb18a8; 0x4c15ad90746f12fa; 0x662f6da2da6c517b; 0xc5552ea828e251a; 0x5f26f71397ea2d28; 0x636b56a80f5baa53; 0x77fb8a0bd478ddef; 0xfddfe30eee02583; 0x2d7ae02d935e65bf; 0x7116d6718619b48a; 0x782ec6858dbb60ce; 0x59fb47ff018e3847; 0x463da88c53f3b64b; 0x5dec9292d5b203c1; 0x1a7a186f3b64aaec; 0x36247a412fd65fe6; 0x325a0affe677db6; 0x134ccfd1eb74c47a; 0x6fa64c578e4d2965; 0x1474e0243e601db4; 0x3c1ff5a391e51c9; 0x7230d0808792ec02; 0x6fd27db6da5275d2; 0x33b18968f363aab9; 0x2d4357f6dc0c84f9; 0x6d74747a52c232a7; 0x25a81992b272d9cf; 0x4152113219c9a74; 0x78bba38338fd6a5e; 0x35a93b5d20f059c6; 0x335e2b1cbcfe2466; 0x2ea78f3627f95e5; 0x7a5da939d7a0139c; 0x64fe46d4bd932537; 0x211451f3e99b832d; 0x36eee04aed22959; 0x14347182472bc7f2; 0x797d345b5ae71da9; 0x323827586ead2944; 0x5827d575a35adf5b; 0x6da95d46a7829342; 0x3bc0379f838babb7; 0x52c3daa7c76edc24; 0x5e833fc041ee2ff1; 0x3e2732c57ba5e9dc; 0x6b9da3878be56796; 0x49b476e695dd5f4a; 0x40689346f401c8ce; 0x53aceb2d3bafb113; 0xfcd448f41dd4af1; 0x2720621e07da4e82; 0x2ea12dd139fdf276; 0x4fa19f55e6b875d1; 0xc6fd8a9e6936b70; 0x1ac9bc4ca804abb2; 0xc1c32c33a75d674; 0x379a42eb50d835c9; 0x426c72c3800c44ce; 0xe25840222be5d19; 0x9e589e544707a51; 0x1557aa5293acecde; 0x2d188183634ebc44; 0x3ac5993d95299caa; 0x7a4d160492aebf92; 0x5c62436496359e1e; 0x16a89578a54371fa; 0x61b099033ef9a5a; 0x7d85d236d9390d64; 0x1f36b00b074b5c27; 0x647a5e4e58fe12e; 0x75358db396fa737c; 0x6dee5a46c994702a; 0x6b0282bcb1b3e44a; 0x7e1b489e441e9c4d; 0xe5c586defbdd773; 0x4df90b016e35780a; 0x75d7f6869779be81; 0x6b87d753bb44e252; 0x4344685f7b8aae48; 0x5c499e1d3959298e; 0x5b7d28bbc409e0f1; 0x646400b7e1e73f8a; 0x8515274a8657251; 0x4a8582a34dae63c1; 0x5d11ea6d2a6a82d2; 0x7797365eb5cad23c; 0x45eec50b415f696c; 0x32ab1a0df4de9032; 0x7c8574f0558af61b; 0x1369eab65d26bd3e; 0x4befc8786058cc51; 0xd72a18e28d211c1; 0x5b551381c29a2c65; 0x3b65b0066eb80db1; 0x2583ed343d35790d; 0x7a5b6f417032bba8; 0x1d347380692b5a5c; 0x20e57f88fdf193b6; 0x79decedaa73c1f65; 0x7a4018be5d5bec1b; 0x7b9167b8faeab0d; 0x385fcc0ac909c819; 0x9ddf4361ad67085; 0x6f7868cdfc0ef03a; 0x6580ec117712ae26; 0x1566b60b6fac63ff; 0x275d17ab8aa7a1c3; 0x28e55157d5f92616; 0x5f2398e6cc8a444b; 0x7f849b9a99a674ab; 0x5f9c8307a288c46b; 0x5b2267424b7a352a; 0x5841384503c7d6de; 0x5d75da0c05be95d6; 0x677bc051b0cdd8ab; 0x4f40cf64ebed5677; 0x602187fd58eb99ba; 0x250546b3020e0ca9; 0x70db2c28d3bb4456; 0x5f67620f5a221daa; 0x4cd6d390fd906262; 0x5f52df3f767bd0da; 0x715a5e86257bfbc6; 0x5c2675d4c92ad1a7; 0x1f62bfe87a3a14e0; 0x22b4596771f75bab; 0x2149eb673a6afba6; 0x7b668e592f5b9fde; 0x408ca29408b66390; 0x2268f8dfbf94ea92; 0x5742fdb915f125ad; 0x6a76291ce900dcea; 0x5d7383c51c8fb94; 0x91424c7f3349429; 0x6d4802723f639e30; 0x781241a4979ecab5; 0x2a5cfaa3c3531d4f; 0x707e028824077911; 0x46c6a99e6124aee; 0x4de7370333fb5d5; 0x202d0bb458b7aeb2; 0x34c7c450032c14cc; 0x6821ce158884df39; 0x5cc9c826fb3bcb7f; 0x503a3925a3bcfb97; 0x515799415bad65eb; 0x4eba6771a147f53b; 0x221f630b704805c7; 0x352a3e5d592387ab; 0x63028b74985aaeb5; 0x5204b2f0f187cfa6; 0x7f6a263cb19c3987; 0x604f421c8ca3e64c; 0x49fec7b04df10e22; 0x6ab86f58660676cf; 0x4077566dfbe0f0ae; 0x2e7bbe4d2610c75a; 0x476946c3b7b4bdec; 0x4e0f9395482cc82b; 0x419c85a49af8f1c2; 0x66d3f58b0ce8dc4a; 0x1ccc1dd8e223d5ca; 0x33c1cdb30c43f341; 0x3fb0341d80546b79; 0x45dd867e7d89aa42; 0x613c4cfd4ee5d4f5; 0x4b462f7c2924e600; 0x3fb424a8ee4c0f38; 0x4f2512fd99e4ea4c; 0x53990b6d6ffff0d2; 0x25057fe9c1e1b7ba; 0x6358e62295dfa772; 0x42a208cfaae91359; 0x30853660a254399c; 0x69bf61ee2069af66; 0x6666f0f289d45a2a; 0x5470aeb801106a5d; 0x74e31524cbd46a4b; 0x2512f89fdb7fb594; 0x6da77a3d6e419760; 0x67c1b26c228693b2; 0x131e8a3a68f3dbe8; 0x539bf1d91cf62e22; 0x5c50bbdd2cef7282; 0x6322c6a55b4eabb2; 0x377b411c762db6d2; 0x19cd1e711fd5f108; 0x418204eb675e7f42; 0x5392f644b40efa9; 0xa4ca22aa963c186; 0x1394e5299573869a; 0x6be9790c3e593785; 0x6d46e6f549049fd; 0xf72144024b5660d; 0x36d4e46c1a9d7f47; 0x5ca765399b3caee4; 0x29a5a0c23f3f468c; 0x70f66b9a0ff0359a; 0x751f978acb0b8721; 0x395dafb780fa6b5e; 0x45dd541c3a9ba48d; 0x5a66e3e99566a35a; 0x79cc31d89b6fdf10; 0x15056065b1946026; 0x127b8d01558841e8; 0x551940f8f41950a3; 0x58512e6e56e7b6b7; 0x5cf8b5bf829a28ac; 0x4f3d6f2be3c81654; 0x796cc1522bf757b7; 0x2f41b06835a67918; 0x4ecbbbac0696d176; 0x75f48ac1b1a56489; 0x2cca77e532c60fff; 0x7f08a788193889f9; 0x20504d7e15b4af13; 0xe6639917e15d2d5; 0x5d1ad44c9ffcca6b; 0x114c91d6a17bd761; 0x1f5cae25bb04fb80; 0x2e92f29d02578227; 0x7136be356840cf73; 0x21b9a80b1ebb0b4e; 0x5df6afa6fb06566d; 0x4a133865172cb00; 0x104c8390d9a9064b; 0x4debfe5eac31db4f; 0x4c6aeb1eacac2c16; 0x1bf39d203a17bba4; 0x35ba968f4c4338d1; 0xbfab06917745ce0; 0x13df6e95fff6d532; 0x7d1f262f66e8c762; 0x293fd98fda44e395; 0x31a50bd361bc45d2; 0xd4758259804fa2d; 0x65c2f3caa44319de; 0x5c5650b86273f780; 0x3177308bbb8e3502; 0x19932a5befac1327; 0x332476370c678490; 0x375c83a7b0c7a56e; 0x6b0ba41c887eff9b; 0x3e5b35ab3a7a17c2; 0x7a80139d73aed600; 0x3b6c2aa64c35f792; 0x68c5934db1604d0b; 0x5e20b241ccd188c2; 0x6fcc888563e5edc7; 0x354075ef3a5c2c44; 0x7c1de26159c3eae1; 0x6532070484c43fea; 0x5babb4ea31112fe2; 0x180e846b0d660bf2; 0x5d4532242a98a95; 0xde38fda7a538240; 0x64c490502e13e001; 0x61dc8a57cd7a8ef0; 0x6f8e550089a005dc; 0x61fab1782d8fd063; 0xefb28567139dca7; 0xf911761888b1131; 0xda72a1749cdf221; 0x76d574f4e8d5b028; 0xc145755648acd5f];
   [0x4ecf9ee7f39dea5c; 0x333345c60c4cd2a7; 0x280191946c00de2f; 0x177625979893e845; 0x7dd6d0d503f463b0; 0x5061b7e2af2b77b2; 0x6e385ad514e76070; 0x4d858874c32487d7; 0x1d4b8f3b48a03252; 0x6e00e472feba33e8; 0x673dffe0faa43499; 0x1e745cf97b393c2b; 0x6daaf19991251d54; 0x51f8505d9cda0e9b; 0x2cab7d8fe5eb1ede; 0x1738fa19d0d78fd5; 0xb710c159b5a0552; 0x756a8aa1e7fa440a; 0x62d8b592de41627d; 0x332f0f152de94df4; 0x45e6917cb7a4684e; 0x53996504b45a5125; 0x2d439239fa069630; 0x693739db0f7436e3; 0x267595b5be42e0a1; 0x3fa3c399b5641b07; 0x604acfee6eaf02b9; 0x52a823fff234e2b5; 0x75a27a230022a5e8; 0x4e01885c64a8059b; 0x1fa1d757bd52190d; 0x50c65b820ac8200d; 0x7705aafc10ceb05a; 0x7421db334bb3e6d2; 0x3d9cba4ebbb65ff1; 0x18cc1dd88625ef13; 0x3e6789168c1dd2bd; 0x1707b91281dba708; 0x5000bd9f97a4016e; 0x41fce230be5ea6f0; 0x4204c9d68240577d; 0x55868cb2da1f4e62; 0x40052c38668e4c7c; 0x1044a80dd1fb804d; 0x64aee3d6bbf8e88b; 0x3b22195851820005; 0x5c2c62b5e55344a5; 0x1e23ebb44a166739; 0x47fc6189d57067; 0x47204a4d06a573f7; 0x1c2d9ffe6ae42248; 0x120b2c13f7b43cdf; 0x43e9be5bfc5258; 0x42bcbe15712dcc22; 0x6f42c233f4e8ebf3; 0x27de17d44904b4f9; 0x263bbc4a694bc1b6; 0x77a4c1ab77aa0f9; 0x320f37eb774da74e; 0x73cfa4162de27e6d; 0x130040342ebbab0f; 0xc84c654360e2a63; 0x28ddf4005d0970dc; 0x696eea3f1b0749e0; 0x5b55402f5d1a808; 0x1df26dadf89134e6; 0x1dbbb17c9123f0ad; 0x3c949c3f520512f9; 0x30aacb3192f8844f; 0xacb107008416328; 0x76a72d349ee4dd45; 0x7b62b5aaeb5cb356; 0x1dc4456d6d3035b3; 0x18889737a70bad41; 0x5e36a9514d678887; 0x24cdaa061f6fb6c9; 0x239aedad26e743b2; 0x77259f1b970474f1; 0x75812b5f93491b2c; 0x5b060c78286ab747; 0x21061d1d3065321b; 0x734f364fabef2205; 0x48ec326a3c731b61; 0x5be7e641bbceec9f; 0x6bf0e0b1999aaae9; 0x1925432fe6f71410; 0x1af35014783ef1dc; 0x58d49fbab2cd51cb; 0x13b70dd909dabe1c; 0x69ffe9379de90d40; 0xb5fe98c1b91cfdb; 0x2e4c794fd4c65464; 0x4a96ed72f3d6b2e8; 0x76fdc8e5132467d; 0x1a62dd8ad9a0e6e8; 0x199e9a65475c54ac; 0x215bad09087e255e; 0x67df9963d9c5018c; 0x16e04139a9ae8e71; 0x53b602a268c43c42; 0x32c5bdedd37d3601; 0x108c37bd898c0e16; 0x2f84d506c4c890f8; 0x1ff3ddcc6fabc3be; 0x52bb3e9f58f6fe0d; 0x7be01b185f4ce563; 0x3a0758e630f1b23f; 0x2c0a45e35c9003ee; 0xb6f2a6aa822d20f; 0x7b7761e1b81f3803; 0x22f04a771b96b286; 0xd59866d75f5e0a3; 0x3cd800bf47966a15; 0xbb6b363c2cb3eb4; 0x1be31e500eee36cd; 0x3fe89f87b7c83d6e; 0xf7ce27fb944c1f3; 0x7d15041d731fecb0; 0x3e1c2164c836a0d6; 0x7605ff31577e1a1a; 0x5265a5686adca9b6; 0x301c3f787550d3d3; 0x3179a27853621b5e; 0x416742f12c7a0c75; 0x2a453c2d419e71a5; 0x2dfa10c9114bd65d; 0x1cbb863ecc185cf7; 0x75f98a6ccc012406; 0x457fbdc765db2894; 0x76207f0311975f71; 0x35b6ca0e35bc6603; 0x625b80992485813f; 0x59f9855ffaefd6c0; 0xb3ceaf636e48bc4; 0x13ade2a7d67fae80; 0x4ecf66e65c83bf05; 0x516b1af2bb74150; 0x5859e5b571493842; 0x34b8fb92a4dd9c0e; 0x3ff4dc7ace0223cc; 0x5b9c4845d48a6a83; 0x589c7d6c957ea8eb; 0x67ebc276c827e877; 0x22e1440cb37ecc5d; 0x49b87e4046fc6c9f; 0x7176ea85f9aeef4f; 0x355e41046c7ed0b4; 0x360ad727cf377a5b; 0x16ff794fd688e583; 0xb9c01d909480775; 0x1c17b5850bc3e0ba; 0x67ffc5a99c859750; 0x4c5d0e5dca376e3; 0x9ad6134586334e; 0x5d8c3e3b83348bd1; 0x60e143b3d338036; 0x7a3f79e0fa83c852; 0x77f1031fa7c4e4a8; 0x5e76e4d747d30531; 0x6732bbe833cec387; 0x39e8ba0a9162265; 0x2e0707838f31f8b7; 0x2d735190c5d2008f; 0x4f8bc4e102fddde2; 0x251f22667fb082ca; 0x7b8e7e87cee86d3b; 0x36482ffb6e9e0a0b; 0x4fbe630ed2e386b9; 0x24ea9a5bba07b294; 0x7cd3a6b10aa31b35; 0x13eef773e1f17a36; 0x449997f740181281; 0x29ec507e83bf8d07; 0x45556397a6c4ce35; 0x3683c1cb838d43e9; 0x43c545459313334b; 0x1c8c7fd7b0d23ee4; 0x2d8905fc68ed5d57; 0x1e555c3a6e66430a; 0x6643d5a140b8e971; 0xefc6e0a9e2abd20; 0xf5a7adcdc309537; 0x36e8be24108c829e; 0x559824cd791767a2; 0x1a62dac65768210e; 0x762fb8d12566d1a0; 0x10057343bea55eea; 0x2d616be0253a004; 0xb5da4a39bd83bb2; 0x6d7ea2897ae22462; 0x48811b65b1de95d1; 0x6b60d7c5c174b1a; 0x2cf9814a8975032a; 0x3c08d7fafd337198; 0x48b480801566e5c1; 0x5017c118702f258c; 0x7c671fe9e12697e5; 0x1131bda25ee77374; 0x6fb176947768684; 0x238cc3a0b72c91d; 0x7c2465534fe9ad62; 0x18626128cb3068e6; 0x3574ec91ba81908d; 0x2fff50824b27d2a3; 0x2b595c2b91c9a66b; 0x159e111c1f072be7; 0x6174e6603d8f023d; 0x4b45d318cf27df80; 0x6b3bb374df1a5117; 0x4b7a95e03601e4ca; 0x244fd3db01490f66; 0x5887d67cc49e9e5e; 0x1db098a349cc04b; 0x35dc4ee55614dc7b; 0x73d1d405ffc34843; 0xacc23e74dfc15ab; 0x481719139a3bc8db; 0x2325d4c7fedeb4c5; 0x14e7b8bc9c80ad1; 0xe69e572ea919561; 0x6e22cc8a8fcba8a1; 0x10cbba4e73ff5c31; 0x5936266c50071fef; 0x2a6b44e3d285f3f9; 0x492d5dfd28b0efb5; 0x7c021b180d5cca72; 0x3f3819bbda3929c8; 0x776abb893803de1b; 0x19356009e3a29ddf; 0x2bd8c88c7c22c54b; 0x23dd96ad33cc2cb7; 0x1f6e0220402f47fb; 0x7dc781d44f57f586; 0x1eb7f30406af35a3; 0x287ad883862421b9; 0x1f1d4b28d5f08156; 0x7e1bbc2af37649d6; 0x7d62c7b28c93896e; 0x38a2e0931fc668bc; 0x18b33ee893d0c274; 0x32b5ce836a178801; 0x73a38a997e5eb0dd; 0x14b9459f465b7414; 0x53ce8e7cb3c5b80d; 0x7b13f18e7a5d2151; 0x554c0178e9c9c6be; 0x2ad4dfbcec3a187f; 0x3ec6dfcd49789d25; 0x5ceea38cda628cce; 0x67bfe488da1a262b; 0x86dd0b6b2dee9d5; 0x7cfe6c17342370ef; 0x47fd3af40922e350; 0x36c2095967aef1cb; 0x457d95f2984d0f1b; 0x922cd96dac57d58; 0x5b06df21dd2c84e5; 0x13150cfec2a085e3; 0x4ae88a626dbda3bd; 0x6a03bdf820749e52; 0x1af0c8cedbf6ff7e; 0x24f8facc04b87b2; 0x24e6600804929cab; 0x4df404cf0d6380a7; 0x664730fede2b71a9; 0x4e1fb352db399c2a; 0x2d2f62ef1db008f2; 0x797e7d8403b8452d; 0x10331f5a9ba18ee4; 0x4f176e72dc45de6b; 0x432b189aceaff179; 0x1aab7429c700111f; 0x334263147d910709; 0x63c6ed00f1c96c9e; 0x212904946091e755; 0x709c17754ed41c6b; 0x232e67dd109f4357; 0x443d0da1b470bc1f; 0x5b03a504c0b83aeb; 0x2a55c243b8dfba2; 0x548fa13189b0c2d6; 0x6e283be9da8fb00b; 0x3c708757ed032a61; 0x470158a383041607; 0x61041de99b438c9f; 0x11f80e618c0412d8; 0x64626acc2e8deb0f; 0x45bfc9b4e081c728; 0x41ccd78c01a9fbb2; 0x4c854329442ac78c; 0x3f1135f0f635b0ea; 0x48d46c3e5a4a1732; 0x61a4be2851337872; 0x5edcd5bbd74a6ee0; 0x492ae27fc58e43e3; 0x152c657e6c874c71; 0x4f746325d2450b21; 0x7b25c827aa32c078; 0x2a35009dc2b312f8; 0x7324dca3bb80c6d9; 0x3af3106989c1579f; 0x7a4db52adcddc6c6; 0x17a6a5f67864de6d; 0x4251618ff6f276ac; 0x2627c5020d3bff5c; 0x4e408ddc59657b6a; 0x3c126b02054a15b6; 0x40a7f23b59d868ac; 0x2355b474cbb4b286; 0x7878ba914681e7ce; 0x638a97222b08abb5; 0x1b0dd8c650e4924; 0x3f1f3d06d1429cfd; 0x658dfec81055597a; 0x18bdd7d77d329140; 0x7a27b8738a83dfbb; 0x62c3e7f5e5668b0];
   [0x112e835694f9d1ab; 0x21e8133deb2574c1; 0x19c409ee633ec196; 0x5e8a72172e5fcdc8; 0xd5431461ca400e5; 0x69b9ebae6f4cd8ba; 0x11e5140c20c1566a; 0x5ccdbf938b96bf5b; 0x45b80f57d0ddb046; 0x5fa2e5bf61cabfbe; 0x7be6639e5615e821; 0x692a662dcb37a8c1; 0x7bfcd62496318e80; 0x8609cd3309d527b; 0x42f0f4b12b93954a; 0x17fcb5fbe2c0c0ef; 0x181009a751af4495; 0x6564ca445b1797d7; 0x41556761d9e3f991; 0x3a14f4930550e1f2; 0x315a0641a2a2d62c; 0x2b2e65f52270ab53; 0x3cea160144d2efaf; 0x4f50bca11e38737c; 0x2a89771a58024d27; 0x301a195cdfb40044; 0x3154689ce0f00d94; 0x4d220dd041604c3e; 0x7863ac1ac7ba7df3; 0x4c8e3890a1a1537d; 0x2f526b33bec164d; 0x3340a6d3055380d; 0x11e28205d54589ef; 0x1592ca9d5be51ed2; 0x35a9cfbb1a4d21df; 0x1d16e55984f41f81; 0x1f1a7b1049dc6f95; 0x2fd271dc984f4e14; 0xe5d1140b5dacaf9; 0x67603d10de51bcc7; 0x7a686a29842c4283; 0x573a09717eb8c42c; 0x4702ac94be35a0a6; 0x2883262d842d8026; 0x3de575a588d11b73; 0x4caab3e69c564bfd; 0x4b67f71275291300; 0x18700b5c1336108a; 0xa5b19812249e1a6; 0x6c2b94acb61f64ac; 0x21e198bf1343a3c6; 0x60bdd21e411e2968; 0x35d455855f84bb81; 0x661223060130d7c3; 0x188788261ec6865; 0x38cd6072f8925dca; 0x368b09729e6f3899; 0x25bd485edf30b839; 0x68172c500a57d1d6; 0x573f6118ee46a2e4; 0x4e8d29adcc507837; 0x1f847dc6c1ff3328; 0x4d6cec6abed7e3fa; 0x3ef967a27ae2a2cb; 0x56ba9740f619ef6a; 0x128b7e8431608641; 0x99e709c6545fd53; 0x1ded74fd72e99e46; 0x1481351d474c5197; 0x5163aa291e9686ff; 0x4ed454859350d3ff; 0x79a067f6d5f059c7; 0x5a46633813febbc4; 0x6e2c2afb75c5ce19; 0x538ad075e88ba52; 0x2a7a20bc0d18a792; 0x30fb3007d5648c5e; 0x30c00b34d18acf49; 0x2aa3906cbebba5ab; 0x351efbc40f2eda13; 0x9460910d67fca; 0x6e35152644a9b840; 0x28ecc68d01ed9b8; 0x23dd2907470ad340; 0x69554ae38e957f7c; 0x68dcdfd70e50a434; 0x2a8e71d051b63767; 0x3642202a511ba970; 0x1b200bef2bbc8e28; 0x7de266491c33cc2b; 0x54ac7abefd74fc20; 0x612ae71ae9e8aa85; 0x34a52183e6d52fd9; 0x5c655f17b6ed0697; 0x458c4296d86ae9b4; 0x1fd189a5bc1a9dfe; 0x39c3a73711886420; 0x350e34744ace7763; 0x6d46b47a8f078dc7; 0xd389bdd9979038a; 0x6bb56465ba32ca67; 0x5bafe891962871b9; 0x46348e4e615ac67d; 0x15ffddd520e7d0d5; 0x285bfff911dbbb18; 0x257c403eedbe920f; 0x6856fd7ab61fd5c4; 0x550076d5e0817f76; 0x3734916d757d8fe1; 0x46530474dc1ab577; 0x45b7b38c6ced1ee; 0x7a879deac7aa4ee; 0x93c4bce55123ac6; 0x75bbaf3ff3e45b1e; 0x5c715e49209eef54; 0x2204a05230a69caf; 0x2f9d24a7ad3c0374; 0x51ba59b53d49a057; 0x1b608903b9a53d2f; 0x1b8e553c607e8cb9; 0x100de254417d96a1; 0x1042576c4a6e2626; 0x5e76fe70661da698; 0x3c91a30ee264aeef; 0x7b121c4bc1ec31b3; 0x40bb907e1deb61d7; 0x640418fc3cec7e4b; 0x23237ffcc492e9f0; 0x467f4a710dd5d0a5; 0xf9b8511a500a478; 0x5f9d6d5d6bee7ee8; 0x3a2067706218f97f; 0x50f58ae06a9b59cd; 0x7d6f76dc3dc4c60d; 0x3b1a1c628f746ec8; 0x60631017e424d78b; 0x5001e0fa4eb04538; 0x326b6733f76050e1; 0x2d8ae25676d2168f; 0x59d9cf2c89769899; 0x30c51574cb311642; 0x5bcc676debfa0483; 0x3b9d42277787f1f; 0x532484e2227391d3; 0x44248cb66759a129; 0x55a5ce06f36d44a3; 0x55bc8f25576df443; 0x563d039e97d79db5; 0x52835a9d5e342931; 0x7b8193c950bc85b; 0x6104d12a36c10b42; 0x5de937da8616231f; 0x557a0692e381f5d2; 0x608ae395ee27f5ff; 0x5203ef96d7dc13c5; 0x7fb546b66430afcd; 0x46c36be37f397567; 0x65614ebd475bdd7; 0x6aab62ebe0561f1a; 0x57249c9c4367954a; 0x33b13e550b7f1687; 0x6053c8b24537eea9; 0x1a8b89c783257330; 0x5b1e6d1d1eb020d; 0x50ff1f0f6ecac1ef; 0x1a6b5ad8714e99ea; 0x3e75436ac86df53a; 0x676c6b620fa22ec; 0x55f7f902317bb724; 0x543b23872a2f1305; 0x5bad31f9548ea730; 0x42dc669aeb25d7c0; 0x1079c614fe6daa7a; 0x1224329a87efee5; 0x2ccfcc64eeaeb94; 0x75d000b5427a0828; 0x2812fccc1de7b1db; 0x2d3e644d6cb3e84e; 0x78060802bd19d51d; 0x6442d20c4454a1f4; 0x471f31b1ab70008b; 0xe0a7363b3f9b463; 0x1a4b259e0e2c1dd1; 0x21d46d91a1921534; 0x277b877e1eeed334; 0xbd43ac0ef4d7b8c; 0x2ec01cd0df4fd46; 0x472507f6ec765a43; 0x630f4c2ce49ae687; 0x17807101370fe385; 0x5c88da8f5384537b; 0x29d70d7004a272ef; 0x11127c7039d27ed0; 0x55a57cf6096bfcee; 0x71ebd84f9ad9efcf; 0x72b07a57f06db9ed; 0x6b7924458e29ba0c; 0x66f1118bc4f88750; 0x47848baa0f81279d; 0xcd82abc741c9aef; 0x5cafc1798c728a83; 0x4714baeba7dc51d4; 0x333b9e49a9c2eec1; 0x6c1e7daa3dc2ddcc; 0x67f2cdb307711c9a; 0x18fbc7f6ad1fc946; 0x312d658c07d80dbb; 0x647669a0e174beaf; 0xbb3d7309cae2179; 0x5a854ff015e0556b; 0x6cf6b3566a1c5ab3; 0x526cf362714a0f91; 0x6bbb9acc37ab34f8; 0x726c7af94e3979bf; 0x581db8bb41f7ff2b; 0x629418e9e72d91c3; 0x1cd76abcbd88c01a; 0x6cb202f73dd43c4d; 0x42ccf3bca7caacb1; 0x3df27c44a016ddc; 0x56c0d55737758ec3; 0x5f575ae626b0e8ec; 0x2d62c797b67e1f20; 0x6d022506cd5bdbd3; 0x77ebae7922e5bcf4; 0x1718fc37a318bbac; 0x1d24fe64cfe5317e; 0x75f59b9663200ba4; 0x19271006058d8f65; 0x7582d4e4387be31b; 0x48fd562749ccd9ba; 0x3442b870293a2633; 0x54a6954dc568923e; 0x47a24de17f932d26; 0x3274c1d2137d5837; 0x50f0bf54b59e556e; 0x1d1a46438aceae82; 0x55efa0a84f5c7886; 0x54e7eeb8d8ff9c0; 0x5ef5322135d2ba3a; 0x64e24e8bc1c9e4bc; 0x39e531338b11ff02; 0xb4ac2abde970b21; 0x1aea3a4e201b1ba8; 0x52ff92a2aadb3a33; 0x5e311e50f74b03cf; 0x3a1408880bbfd1a9; 0x5ba676b2946b786e; 0x4f8ded4a0159fe28; 0x71d8827c2a831720; 0xefad549364dcea; 0x2ffa14bc14c5db09; 0x6f530b74860bba87; 0x4c8f68c185f4ccd1; 0x7c997744009afca1; 0x53a9bc407dd2e6da; 0x70ff4b8520b4b894; 0x1173fcccaf463a35; 0x1952526425201f59; 0x64fd2d9e4e230919; 0x7a9c8a387baf388f; 0x23fad05d8346b188; 0x240c12ae8ea447fb; 0x155f7bb9de099607; 0x1e7cb790610b0e64; 0x71a7336fe9b31ded; 0x25926512fef801ba; 0xb50799701d4bb12; 0xaf793e16b2153e6; 0x5435397bed5a6d88; 0x738d284c816dfa05; 0x22e1228cdd2ad50e; 0x729ac9cb9b9eaab9; 0x178f59074c2338de; 0x63938f441653d88e; 0xa42dd60f3f39047; 0x4c439212fc719450; 0x52d0d13d365afe35; 0x61cf89f87ae0cec3; 0xb05d208809af74a; 0x5cfb40eee1e1da3b; 0x7a66acae07bcf830; 0x3d2f883f157c4dc8; 0x5c688c6095208461; 0x3e7d161a9ec2b9f9; 0x31368bc1b3614dbd; 0xbfa53c6aa42ef8a; 0x54090452ac7269a0; 0x25186bc8a893f769; 0x55f63cfc036aa059; 0x6fcc86f9de1b474b; 0x21f8712245a92e21; 0x46fd6b6be28756c6; 0x78f0f391b6fd362b; 0x2be21ed699c97486; 0x694b982089f49949; 0x2f9327965d29ed9d; 0x2f7226f94de6a134; 0x7375936b53b2f8d2; 0x397fcff9d38e1e65; 0x4fe43a6aad8cc43c; 0x17ec8dbcadba3200; 0x4e8930de5a6e597a; 0x1971117f306cdd0; 0x5937200cb0569d22; 0x6297b39c44329152; 0x6a2f130656f5635a; 0x39ae149c39fe0c0b; 0xad850772d52e78; 0x209ecb5039d88ab7; 0x32dfae8a1ba507b8; 0x713c2a496c7abdb6; 0x27af7fe9b7c0e82d; 0x599c41483b77ea63; 0x7c1b3dd036ef6d62; 0x46281834e7397ea6; 0x53ed332f161b164];
   [0x47819f5c6651107a; 0x20563a7cd440f7d8; 0x6ad14dd3a9427d31; 0x627f1475508cc15c; 0xa8b916f7688c3d; 0x3e3f3e38c841d3b4; 0x49bc729f2efe27a5; 0x25f924e1366c0ca3; 0x7a09cb831ac170f1; 0x572bdb121be980bc; 0x34ae35300147624a; 0xcbd80801816b281; 0x6522bd0fd7b84bef; 0x21c1ed4e7f7b5919; 0x2bc256610e0abae9; 0xce7fa993935322d; 0x45c0ef6557ab7088; 0x11c944ff124e6516; 0x3bcd57e778d6b7c; 0x5b4f53e0b65fdffa; 0x6e09fd43bff9da8d; 0x4723354bbf1f31a6; 0x4f77fe59c4ef88c; 0x61a5ece9972f3bb7; 0x5b167744e6451a3a; 0x63d6bcab1a91fb48; 0x7fb97092da73e56f; 0x44ae2c9de94f17e0; 0x12d6059655b2e09e; 0x7454fc9f7bc28d68; 0x1b1a909f27cfc77d; 0x20232546e3143eaa; 0x1a10ea78cb5f73a9; 0x119a3b98ce6a059f; 0x2eb1b10c6c18e724; 0x1961fc7d22959d3a; 0x176c941ad6d7d795; 0x1db120f69d7ad6c; 0x43b13589e5c89aff; 0x4a79e1a1d229749; 0x1d6418b09dea97e5; 0x2acfeee09e4e095b; 0x254291a4c045f8ca; 0x2241d59bfcd7c4fd; 0x7386797e2116950c; 0x34527fb3efa6c1ae; 0x30de3635ccbe43bc; 0x1a4a141dfde09ecf; 0x78665961a954bf52; 0x7cbc51f1d0f3d711; 0xd19b6b41852e772; 0x4ec51d7ac4a456f7; 0x176634374f0b8627; 0x12f7840e96e443f; 0x6312bfc677694f16; 0x65be002aa455f284; 0x6e3437c941f4d4e4; 0x3cbcbcc9fb07e36f; 0x2e895bb4c48825d6; 0x403daae2276c31cc; 0x32d1834e7eaecac2; 0x4aea619fb1b510d7; 0x76961172ae17b09f; 0x59be001cc577caf2; 0x70863fb492b96bc; 0x419a926ae8ac9906; 0xa202d698e045f8a; 0xeda7a1a8c7eac2f; 0x1a0ff2e0a1d4da82; 0x59196618fa85fd87; 0x33aa127f6f27254b; 0x747f87b08024ee8e; 0x228e0e0bb1b5706; 0x347f4d34cf77411a; 0x4ea75ca5e890a1f7; 0x417688916abf96d9; 0x2eeccfd770fe2e73; 0x51b74ebdadff4f0c; 0x48081c474b1af3fc; 0x7adba45cc1910adf; 0x104b28fbc390529; 0x3285fb55386f3021; 0x23320023d4649628; 0x1516ac1f9ed9f4f2; 0x6aa0176dba5e6d25; 0x21699da473334cb3; 0x75ff0965f5e89cd5; 0x67cad8aeced5ff0e; 0x15dff1a1b38e39e7; 0x9be3daf7919696; 0x7bc7c49d9f772912; 0x38de5313e802012b; 0x6f3d47026a33203a; 0x26493356707bff7; 0x68663da7a040c5c1; 0x224f600eada290a4; 0x251534da80074ef8; 0x26805d23d0be41d9; 0x60550046bb6491a2; 0x6e836ff52a58b2b7; 0xb69fdca96db16c1; 0x332670143d406bcf; 0x1e7942e3ca74145a; 0x229a6403a0211227; 0x260212adaf49298b; 0x54278ed2cbc9539d; 0x21fc6cf3949fa089; 0x5881a7174f1ab5d9; 0x7e2cc5864dac496b; 0x6fad1507734c0a93; 0x1fd8ea94a0a0ac81; 0x2e71cf8e6b964808; 0x54a6a8bfaa20023e; 0x347f4f3932cb63b9; 0x7917afe285f80250; 0x53f44a175966a71; 0x179f14a9a3b97801; 0x4fec03ac786d2d55; 0x68d398652f441e59; 0x444c7a77538ffc0; 0x2962179a6e33435e; 0x210bb776c20c479e; 0x70f75da08cd5bd66; 0x36650b40c68b28ff; 0x22918b2bf39d2feb; 0x4cc4716f897b8bec; 0x54116702bf1b320f; 0x38f090272ac1b1e1; 0x5e3366336a7da36d; 0x6cbcb0f1a091fc78; 0x706a456f2d6b54a4; 0x17b1f6f87b91c40; 0x74e7a7103cbde4ad; 0x7404dd5348dce286; 0x1798f1ba7353b9f3; 0x287797a402c17f78; 0x2c0ab4a046f8602d; 0x4e6696cde5a783bc; 0x35e0bf3affe12847; 0xe687ac300f2d12d; 0x449bb971abbe3311; 0x5c7020dc6e8363a4; 0x371b46096b73bb39; 0x1fcace7ea3d2e3a3; 0x52aa8dfc84c5412d; 0x468917644e845cd3; 0x2368a7233a1b2c2b; 0x27bf1bc915a75821; 0x562262b9c83d25d1; 0x36a5263f89a6378b; 0x65bdb2437e7fee6; 0x599183cc0e052042; 0x6ea83a5a835e0758; 0x2a93f7d82294a47b; 0x127e24e1dfa6b3f8; 0xaa18b6c598bddb9; 0x6026fc6f353ed199; 0x6ebe3aa0940b7769; 0x32ce093e2cd13836; 0x4ca4664c784209bf; 0x2c2aeb20a7fa85a0; 0xebc1dd429a5bd9c; 0x1c45f9e9467571e9; 0x15fc9dd7998ac387; 0x63ab144c112f51be; 0x7c95bc45297a6d89; 0x97d604e28ec9f13; 0x5c7c8de7811b9730; 0x57dea1ffbe160ca7; 0x2941acf280d29e60; 0x264616dedf48c353; 0x741fc29c5b27fd56; 0x7c4604a5bed3a353; 0x2ee373b1cca3b93a; 0x1b5748fc2b0b194; 0x45f6c10c0158a613; 0x67393766006c1eef; 0x49d4fd8d337cb330; 0x49cd61a7a82b2f40; 0x2a311b554f520360; 0x64674984d28b5878; 0x66e69aa5ddc519c2; 0x500dd715566cb063; 0x1973984f5baa9806; 0x7823627c90e2e4c2; 0x510c1763b22bc27c; 0x5e88d277d4a2d2ce; 0x1a995ab376fe6da6; 0x4252b9433efc0cc2; 0x60193103ca43e1c6; 0x6297a3baf15ad9e3; 0x3e832f2d70cf79f5; 0x24030c940a7f5da3; 0x608d2fb5a3bc484c; 0x68eec689c3fb5719; 0xe9e2ef2c0149400; 0x74c9d449244fb973; 0x800ee0c344270c7; 0x28e862239dda5198; 0x2def180eb4ab1181; 0x5094939d1f1661f5; 0x2d358d95ab61d1bb; 0x7e66feffc41c6f7a; 0x629d541bdc041781; 0xae154f88c61308f; 0x690d20959e8212c2; 0x229e7500eaa06155; 0x3bf847b7454f8f82; 0x31066fc90d95123a; 0x2f5c43d4a7ab87c7; 0x120c4f17b1864b17; 0x1a02544733c6633d; 0x586fc5013f20e0c5; 0x26e4df25fc0dba7e; 0x3bdc7593970a0c36; 0x703cb666aa0301f0; 0x2b633cee9e1bc281; 0x7f7c676dfa99a683; 0xbc8768099409a1d; 0x6bfde5a262ae6f47; 0x133e4c470df1a0af; 0x5fcc5898fe34702f; 0x3df67b44e560877a; 0x1ea3a7867275843c; 0x6e02278d09708301; 0x609c4e7e09ecaa4f; 0x11249e9e3e7a4cd4; 0x666988138e18318f; 0x14dcf7505018bbf2; 0x28355427678b2776; 0x2ac385e1e8000d32; 0x6e44e584556a5428; 0x579d3def73fcd2cb; 0x52d156572e82047a; 0xd71b82a49bdaedc; 0x3c6ad316793fe23b; 0x4ed1e37c04651910; 0x285827b44c4a2755; 0x4cc8e4b9a21e12d1; 0x5516d6269a5d2426; 0x4a8e567265ab727b; 0x6cc4e6e85410845b; 0x1d3a1148423a1cf2; 0x2b6d38329561ac97; 0x1123ff10a97c94a8; 0x41b68624a34110c; 0x748625d7efc257b0; 0x1a49900686cdb433; 0x60e941bdd84f8bab; 0x62f780ea99ab1ec5; 0x6e9ffebd5fe57b2d; 0x26d30a56d8607a38; 0x53959962fee9592e; 0x7b7fa12858f1eeb1; 0x33eeed5fb97dc550; 0x34d785f66ba58b24; 0x567068000cc8506e; 0x5743f93c5b3b4c37; 0x19630874f39f2c87; 0x77259e65ade89525; 0x4986dabe840e4eac; 0x5038568422e2ca45; 0x10109b57ea14b14b; 0x3e804d9fec48fffd; 0x26829aa2d1e673ee; 0x7311d16ddbc207e6; 0x3ae39948d0e417ee; 0x27c83289fde996b2; 0x54e8276240102b79; 0x1f09327cba74b2db; 0x70d0fab8c55895d9; 0x505fbdce8bb754a9; 0x542c6df6bf424f04; 0x7d6ef7b5ba43e8e4; 0x4286cdf55b7035c0; 0x34468b62792243; 0x26c0a9d645a3e758; 0x76d5205922749471; 0x26eda5704552eeda; 0x5c23798b17370aa1; 0x57acbe7ab75ded7c; 0x5de0d575acac1295; 0x21cd86a221b7bbf; 0x5492863ed8006a09; 0x4ef53b051dfea56c; 0x3190feb8b0bb4c50; 0x37e160d5adf120d3; 0x67cfda2a399f9036; 0x23c2e5ce2ce341ce; 0x16518e9f361884af; 0x3d8699880d0340f; 0x52d124289856a7fe; 0x6c316d9934199093; 0x1adfc28836f68a60; 0x33a5d262a960aeed; 0x5efc72dea49576a1; 0x578ced3e03b89b92; 0x2ee3e031a1b48d8b; 0x3fefa8543216bb92; 0x3e95061b03639d95; 0x14b11e6d0e309838; 0x6b965390f8dee482; 0x443278ad598b7d73; 0x382558ee4967f715; 0x6f0c28b6a173036e; 0x6bb6110cf7cc3b6b; 0x7ea531b9d1e4b1c; 0x7645b89a750bd05b; 0x5cca16ec4a86aeb4; 0x205d70dc18ea1b89; 0x603e767e717212c; 0x578b2a101794da51; 0x11cf10adddf95fc8; 0x3bf20da61f9e8dab; 0x180416b2d1cc0c0f; 0x40cc123fb4ab6fad; 0xf20af27f184da0d];
   [0x5788229f9fd63170; 0x4678d3b5c6022dbb; 0x50d39bae18210762; 0x44e25f670131cee5; 0x10bc4b29bff792d1; 0x3eaff63b6c3bdeeb; 0x3dad35c802c62262; 0x33b3422d0dc96625; 0x30db526d264fe74d; 0x2d2be2c33bb13538; 0x5e0b6ba0f66c3c6a; 0x21565f46e9e2afd6; 0x70e93ee3028dd80a; 0x189de78c481dcc19; 0x3ec3de45393b00d1; 0x47c9ee6c74e35842; 0x31d1cc72f00c0e2b; 0x48b72265800971a5; 0xd09ac5ef05d58ad; 0x39a5ef02f4b8b414; 0x15b7d22d81afab73; 0x17925feac7e03d01; 0x375ec4aa216044fb; 0x147688d522c42758; 0x10bf69838e45c6ca; 0x54e99f2fbd51e631; 0x79c4996cbdb90f27; 0x7b4554944caf644b; 0x6ffbc1d333259861; 0x628f80819096fb23; 0x3e4af61545db037e; 0x5b4ca0f1a52db1f1; 0x60498ebcf110407e; 0x6f8fbd262fb46915; 0x536fa8335bd9fa1a; 0x3ac321cade08dfb1; 0x4142d099fca7678e; 0x2a4f07266e1cdd80; 0x5a300c97e82fd123; 0x72dde1f2f9e45c98; 0x183d5d417b6dbeb9; 0x28145dc7bf52e138; 0x2132fb3b1844bb0f; 0x4b603b0a46f52c65; 0x4dba3add3d7618b2; 0x4de3c57fb938ee89; 0x49a5bac974e7780; 0x8621534e50eb9b8; 0x5a6f55766bcd8d87; 0x72f1cdfe1d874d32; 0xcb568a95bc31d38; 0x477de70c35e3eb7f; 0x529b0a7c490fb5a0; 0x279753db2e3c1c6; 0x86098e5932a82f0; 0x5dff69832ca294af; 0x275ee79ef5c81f0c; 0x298fe88670ed84ce; 0x35687e6f91bfcc61; 0x99bb25e28f79c6f; 0x46844d926bed0b8b; 0x450b8bfca855048a; 0x464e9eb0610b5cb5; 0x5c2d53aa53195bea; 0x1282b707f9beea10; 0x4ffcc64ee032d8a8; 0xe799972f36fec64; 0x369cb2647c139e23; 0x6c54b2e3c80bd4cc; 0x2228b7ac120cf658; 0x7105b91c083b2d5e; 0x1e2e34c153fea956; 0x307b2c0af91e0645; 0x77d3471aea8fee9; 0x468e61f11c978c63; 0x34c4ca7c35825325; 0x4b00e0e57bbca1fb; 0x34965c1d5fbf6444; 0x757a1cd1e1a33689; 0x6c9bdcd37afa4e94; 0x7b0c89bc852cc7e4; 0x585dcae3a359b545; 0x147e7a6f5e0438fe; 0x3170967352fab64; 0x59edb7daffd9dd7d; 0x17f08fd1431fd8c6; 0x2ee5bb8834aa5ccd; 0x4817f3112e6877f2; 0x396005b1714715e6; 0x61cdbedca710d0fd; 0x23ed2068cd62e26c; 0x79859cf8454af8dc; 0x269045aa2d4cf60; 0x7897aed3ef9ed61a; 0x2a0524ee81c3ed45; 0x258e11aa08444c67; 0x608cee63cafbb7ec; 0x5052da76736ea741; 0x4f20ecbef351210d; 0x399f1b7b856cde67; 0x2d3258a5f4f42d79; 0x5f64ac76a402929e; 0x7e5aa07ee2c84498; 0x1d17a193099deded; 0x383be7f23015e57e; 0x3136e7d94df84e4b; 0x1d63b1599b24c182; 0x716cb4390d8ea949; 0x7eea39e54b075028; 0x4d66c81029aa0ef8; 0x3de17404c0fffb7a; 0x297195de5256d1ba; 0x63205ebda873947e; 0x75549f6f930c4890; 0x6078b68a429ef9f7; 0x76e2f4793f1d00f4; 0x15db460d71e7a952; 0x568707551fe5266; 0x6cee41eaecc32b4e; 0x50d0319ee63397eb; 0x5102f398fa85f9e7; 0x26d2cf1b73d23551; 0x4aef621af8630c62; 0x64254e6bfce35fa1; 0x447c09126a510975; 0x16eda852021023c1; 0x35b6eb4f2aefb5f7; 0x2c85201f402a3d84; 0x2ff6f9d85e42284c; 0x14c31b858734e706; 0x2837f3f26310ee2b; 0x103f62d457d6fc5; 0x71833c1cbeee79f6; 0x77ac94a20419071c; 0x63fe564f85921387; 0x3047420f583c7045; 0x4dd0997b8da70fa4; 0x599b7699afc1d2de; 0x337e58a91419a306; 0x6be1196b85a21384; 0x50d4acc3f3164ddc; 0x292627ed2ffeb3df; 0x5840f2b66a7052d9; 0x5bae04a61b02c3c0; 0x7aecb7b4c909be73; 0x40e98119343a143c; 0x58f00df58c61500b; 0x47b8cdd732a75ce2; 0x2e4e9a5d1d0b8995; 0x7b5e84cf353e16d4; 0x2e15251e6fd098fb; 0x2b9c358207cd1f60; 0xff786624df370a5; 0x42b017b25955772c; 0x5c401ef9bf6a9e3; 0x260232923375c3be; 0x263510dcf346a824; 0x102a031aef857ec2; 0x6038883b6d454c20; 0x4f822049799b2856; 0x1524ce95d62313e5; 0xb4a15dd06a9cbbb; 0x260a52d4278ca995; 0x560a3e542951d3ee; 0x182cbc1d5695b3c1; 0x54e43663a1a075b9; 0x268bea02eb68d3bb; 0x6d01284d1c099060; 0x6716d036063a09c8; 0x76aa3833adc028b6; 0x70384e2909fbe9fd; 0x218b178c13a562c3; 0x72930a83c41c9066; 0x625e276bc935b8ad; 0x567e4fc1fbb792f7; 0x2cbc2f7b703a85ef; 0x51e6bf7a1ca77ea6; 0x4c72c1fd9b8d62f1; 0x419f2e3fa50f3ab1; 0x598137a4c9882e10; 0x43a8765a8e38327d; 0x1da2369529fb6bae; 0x4bbe926f7447d60f; 0x23a3356fe8eaf2af; 0x479379be90bbcedd; 0x4915aeb064b2994c; 0x49a5bdbe57c7c4b4; 0x5700aeb60f09c681; 0x254a03668c66043a; 0x3e51c0d4f1435eaf; 0x6718b78eba4b698c; 0x75c0a8c7ce94e6f; 0x39e7436c579f13f2; 0x62360704ae99f760; 0x27ebc0087ea2f7; 0x1f9f6bb3a8734171; 0x73f4bb0999b01021; 0x2a1afc3739d364fb; 0x4e2992ce8c5116b7; 0x51daad711ec9ba6a; 0x45069f41eed06e5f; 0x48a4074d7113c84f; 0x4eec1724cba46235; 0x2f26bce0ab307b08; 0x7e08e8e8c38684f1; 0x164eb9f1ca5abf2; 0x4f16d23096c5a983; 0x597a503746595177; 0x6dc241d187f2580d; 0x4f25df87358c8ff7; 0x3699fe94dda7d095; 0x4fe15d83b800530a; 0xea625be6e32f4d1; 0x7d789f5608f71245; 0x36908e92a2b132d3; 0x2c7045e8a4d696fc; 0x6aeed5703b511b1; 0x678ffee8af9a1b5f; 0x20f7080a5b57f91; 0x5a7fda2e10de4cf8; 0x3bf456fc657488e0; 0x4ba2d70f5a08ebce; 0x6b9bb1fcb3e3773f; 0x7558e6fb3fcc9b1c; 0x61c600cfd38c2946; 0x51efe11dbb20051; 0x2b83b793e45e449c; 0x6108f6341fc5f204; 0x7a48ded1d04606ab; 0x2be0bd55237bc279; 0x621dec47f8c8cdd2; 0x2d6be69240f4c86f; 0x44d3ee7175c895f1; 0x5a4046ed901221b1; 0x747a4ed236492d75; 0x486e641eea9ac004; 0x7481db5984188fdb; 0x1e0747749d492226; 0x1a566e82705e0059; 0x68de50da46e2ffef; 0x137bae9c4b9c4276; 0x116e2f8484d5ae2a; 0x56f25225388c1c9a; 0x3ecdb5106325af04; 0x278ba243486aecb8; 0x45d47c4b8e71a88f; 0x26fc1c9665cba9b8; 0x4aa179a2aec173f3; 0x335373b808d4c19d; 0x679f7cad7939e390; 0x490dc073d2ff06dd; 0x7ba6fac3947b2c62; 0x39de7febb6c8d9ed; 0x1458705e0856592f; 0x3bba67a90d0f37b5; 0x3617cdd8a7a38c60; 0x47a259be9e4d83e5; 0x1ead3278a8ec180d; 0x3d14c3f74c1b7adc; 0x27c693099f81f63c; 0x318a4cc0a3f059f9; 0x2e19f471615abf64; 0x500e0b0d099f4fe; 0x59740b66c432e255; 0x6064e726e7d51d90; 0x6715bf8cdf4b6d7c; 0xc28d2bc8b8d2d6a; 0x170eef340d906cd; 0x7077b2b27ff28d0e; 0x11a509b9fc0beda2; 0x1b58ceee27375205; 0x41ce69db62a2c8e4; 0x3782b164d8c0125c; 0x4b378d1340bf0b32; 0x2656c8c5147f4284; 0x36081e96d317afee; 0x6cbc46236d20aaef; 0x50edf2df80174554; 0x14bddaf3da25724b; 0x2828a487ed86fd4; 0x1879775e5a0ad85d; 0x545c34d3a0e65c57; 0x3acff4b3eb7dac79; 0x46394f1ae55259e0; 0x1a47b70fcd22e0b2; 0x19e13a04bb60310e; 0x76fb371edf11f35f; 0x47d68963dc64b531; 0x528db9eeb0cf759f; 0x345458750c403dd4; 0x57e32da2fb29c86d; 0x54ce482412f1825f; 0x3a5f8d84da34cd6e; 0x724e69dbca58a350; 0x14138d5924ea757a; 0x52629aecae7a6ad6; 0x168d87e7d9cadfd1; 0x634cc0ffe690df6a; 0x5d764f7c16fe96f6; 0x1c332b7bba377501; 0x59b25d59e66bdea3; 0x731b3add70b8e244; 0x1bb2299d469445d7; 0x277ddc8b1c3e6e21; 0x194f3bdbe51445e7; 0x4e897af58c8dc7b4; 0x7d291c7f0e56149a; 0x472616b3b1c44bc3; 0x3879290e0075df53; 0x52284ee5516488ed; 0x15cdb734371fb443; 0x2fefa8ce015fd671; 0x375b092c61647e4b; 0x23b69cc617557f9f; 0x6b8c303de65c85d0; 0x11b8f3263a4388a4; 0xdabad69f90d14d8];
   [0x4aa9ebc910c7601c; 0x24caa4cbdcfe055c; 0x30b490323aa23d7e; 0x17ef3b67dc22f3b6; 0x76ab7dcc149bcc6f; 0x314e0f96d4539c97; 0x62220985fd626c34; 0xaa8c361763b21ec; 0x63173df9631aed5c; 0x37f5500c8c8cc93f; 0x63c896890d47cdbe; 0x42f8997ec35995b1; 0xc6ed4f2360b802e; 0x991a3b496a6505; 0x63e02b494ef9eaea; 0x6ca6e2b753b4db0; 0x6f68ec0060006e09; 0x5579ab90b0dc985f; 0x16619a4000b67192; 0x274b7011c1da283a; 0x777a7a14b5d7204b; 0x71309de56b02dbae; 0x96d263137997c57; 0x2aaaea99e2c2acbb; 0x297ed1535b19cb4b; 0x68b8bea6e4b67dc; 0x198ca96fa76fa71f; 0x226fc5ad757439cc; 0x6092580579d7e520; 0x5878506ef6b33d71; 0x4d828cc856bf04b2; 0x766a402157309ae7; 0x90d7277761c2b70; 0x32895e326a76bb09; 0x7067dc62b52f303a; 0x225695666a5e82f0; 0x17eaf0102b1c8d03; 0x4a136a9ff36e809b; 0x65bebc0fc8a54d33; 0x7c470a7961038965; 0x1dd6c7796f6206ff; 0x5cd728afebe4d810; 0x7c09af26421d4fa4; 0x67d816bc75cdc5b8; 0x5bbf00ccfd1b464d; 0x203ae4be501710f7; 0x263239efb30c7c94; 0x752643b9266f1e33; 0x35ded16fb2bd553e; 0x3fdf9142ce777f6c; 0x1c40ef48864d6abc; 0x2a94c0dd18b27fe8; 0x10ddbba058e6d63a; 0x4f8e82e36ba9e9b3; 0x6bae386f5f20a88c; 0x1827c685ed54f28e; 0x30857c0c5ae8d190; 0x1323a4bf56abeffd; 0xfbb0624cbd2cbb9; 0x26d86fa2380cc4b9; 0x620aeb66a7a04019; 0x4273402938017a7; 0x605b2f85146db0f; 0x396ccf582ead7e20; 0x2fdffe2d1a55f10e; 0x496548e0bb2850c8; 0x4457162d36447b6b; 0x6eeec8d6428bd9d4; 0x635a87e5afd151a8; 0x53702346d5d63a93; 0x24ef0f76254c7600; 0x4d7403c57c68b159; 0x7f3861d41add2859; 0x3c63e1100275b8b7; 0x2b35ceb60c9c4186; 0x75a26d78454cd537; 0x737fcaa5e32fc130; 0x28fcf76cde266a7b; 0x267f0b08233386ab; 0xda7ece38574b291; 0x1ba4164c3770a75f; 0x6e883ad79935e9d3; 0x7515431b89a68f66; 0x50c56357ea3ad1e1; 0x4361eab3575bffe; 0x513c42034be9675c; 0x7dfb17c079d34cd1; 0x76b9f53c626179a2; 0xc7bb004debbb5c8; 0x1700d279a0644d93; 0x18df9a26de069bc; 0x956beaa18054d24; 0x60f3bf024e5a99da; 0x7f4273e61aa470f3; 0x5a4e7fa4373c2b1b; 0x70323c77b13fb84; 0xdddf05d86de76f7; 0x7bc1e46b505b462d; 0x112b78ea2cc5b549; 0x388df495c0d619e2; 0x7ae8718110bf31e5; 0x2ea384bd73b95001; 0x61940f1a8fd33f8; 0x3bb6b77fb0ef8d44; 0x53defa10f34cf6ff; 0x5605e1950937797; 0x7cdba14a9bb6590d; 0x65abe321ce05d6ad; 0x6dd149e42551e0b; 0x3490c22de60dba54; 0x3a97bb8822b54b44; 0x378d8c234ff999fb; 0x5fbeb3358245ab17; 0x11fa71781f7926bf; 0x40a8ce0a6063095d; 0x3d9bce413de41095; 0x7cdf45143fec3735; 0x3f46a49e0cd5a71f; 0x2787ec3cde32a299; 0x6ed1a254f013ddcc; 0xa81896d7fde7406; 0x35ac0b56b88c3dba; 0x35293eaf62278858; 0x3fc663513051fb9d; 0x19770e59797b71cc; 0x54798a6a7b7b870c; 0x65d3d3ce794fcfe4; 0x9a63ca846cd04ca; 0x6c746bb1f3cc59a; 0x49881b3f992fe0f2; 0x26f58e848a02a895; 0x6fc036ed95f92530; 0x74e2a120b41c10f; 0x7102843ae6e307ed; 0x3d5326a6902ae3a; 0x6ff44894255ad964; 0x6ec33a32f492c915; 0x12269a859c43cc6d; 0x5ed563865ce79cfa; 0x41c2e75ac4cd7609; 0x695b2bbcb81d28cc; 0x2e49f4c68a184b7a; 0x7158466332048fa7; 0x65580aeefb7abbff; 0x5d740c0f7b34f47c; 0xf7816550c1f9010; 0x5b0dd4bdd3c509c5; 0x734c2ccaf53271ba; 0x5fc253a5c890a54a; 0x54a57df5375a80ad; 0x3ed38e80ba12efdc; 0x6ce006de20b3e96a; 0x4a79833bbbe9d474; 0x68ea8937429a63c0; 0x59dd4b1b646e9495; 0x54d77ebe9d20b3c6; 0x59c4b7d8acb1fb0b; 0x33d9affadaa3f644; 0x74df6afeec3cf44c; 0x7023f86d4f016a6; 0x1eb9905f7b46d7b0; 0x4c36c474ad906b91; 0x4e03c2171f45d5c8; 0x291119740a73a44b; 0x704284a039a26ec5; 0x2b6249e2a4aba186; 0x2cf14f20cb623a90; 0x5a840a05a4bbe42d; 0x24658ab3b83c1b79; 0x4b71d1904428d25a; 0x2f73cee9a4f1abfa; 0x3a1c7d5153a341e5; 0x1961166fc75fe4bc; 0x45cae26248f4fb72; 0xc7dad4ef61a9774; 0x3c60bbabf498d35b; 0x915039bfe1bc784; 0x61c2c0a86f6ba67c; 0x7ba14edd888d1f55; 0x29a472acea8f07ba; 0x1b0d31715ff00e5c; 0xf33e386257a6388; 0x2034a3e516b0103a; 0x77bbb83bfb4d3e9f; 0x42d5e084142c9bef; 0x2b3846f181a342d1; 0x3aeb08254ca3e8a7; 0x31cd348b70048290; 0xad66cbfc89fcb7f; 0x55a85bfecdab9442; 0x4cd3f52fd1060a8f; 0x6c8a1e91812677ae; 0x1c4d3133524f1691; 0x5a58d3b03ef22352; 0x7e8302340ffdd4ae; 0x4e4d7687ae7d57c5; 0x4b8aea337dc351c; 0x67ad6ef89e963a5b; 0x4e9b57728acaeb7c; 0x4ed83b68bd0e344f; 0x2735258bf1e4ab10; 0x607e0bd4b6a5f065; 0x8e63145e261a37f; 0x68a9a66390782592; 0x61df9d5cd810c8f3; 0x78192fcd912531a7; 0x2f543716d2de55f7; 0x3ac83f78128ef865; 0x675753c249b51c72; 0x1254c84a487144d7; 0x24262a40940748d4; 0x1643ad2ac7111aa8; 0x8c8811001c72545; 0x1a1791f37d005801; 0x42ad457f571c082b; 0x473b3cf286f0b757; 0x5f0dd7c1ee99142b; 0x4a1e2f454f5c7855; 0x142e3a9ae07929fb; 0xeaa421a2767483f; 0x1cb979bf12b6409c; 0x3a8e46ef52fc51e9; 0x62d4bce521aaafb8; 0x190d589532ddb9df; 0x57adc3add4812596; 0x1a1fc0fb58a718; 0x1b4f6708f1d4efd6; 0x4ba05e57a2e970f7; 0x28393fa83844f418; 0x7f1bb32a8ae1676c; 0x177e6a99ed83e097; 0x5fab59e9232270a8; 0x33d760f61b60d520; 0x4d980dab4400bd9f; 0x453654979db7736b; 0x583b6d89f3df5894; 0x3c18a088fdcc497d; 0x16e88881874122c1; 0x76534a1223a3b13e; 0x76f5edffa90cd3d1; 0x219b6b6c100a01b1; 0x4a4295dec994641e; 0x600d54fd823c8cb9; 0x3627a65697c38a11; 0x66be53fe7990a403; 0x4f0520ceef6f1861; 0x1c9bd5fd5cc555a2; 0x420cd087b53ba3b8; 0x44fdd8720b90d75; 0x39ecd17e2101d44c; 0x11624769a51719c6; 0x6b36d7740cdfbde1; 0x26d667e93ea4d36; 0x3c1366a64b074eb3; 0x994bd9bfa1aca6e; 0x1e6e4bb3737c233d; 0x69086a1f8deaef44; 0x3950c011dd793827; 0x3d5c0526e905172; 0x13f3bcfbbc69030a; 0x7c53487056fb5fef; 0x5d5250c2a6caa16c; 0x540e5a0e53ea12fe; 0x299b2ffedfb42a85; 0x79bf534b2352d1b1; 0x46397e32bff2a588; 0x7a6b8dc3fcfa849a; 0x2caf96edde4a73b6; 0xeba38209e03e511; 0xb3b20b162c7ca19; 0x310c06ec9280bcae; 0x65d2422e6ff0f3b9; 0x1f4dd281142ffd7c; 0xbaf09df70a0aeae; 0x32e9b14831f38375; 0x7eeee8d591f0ec6b; 0x427d3309dad543b6; 0x6639cf5f62f751db; 0x7dfc82a53d27bd73; 0x698455470b7648ea; 0x7ed6ac4917569703; 0x316b8548d5d6f40e; 0x46c4ec6f23b4b803; 0x691e7a58244ff115; 0x73dae27f410a23a8; 0x70a95cb2f880d106; 0x1adfb54e24384903; 0x72532b923637bb75; 0x31777e232300c1c2; 0x2a69121c85efea9c; 0x3c8bf3931326ea76; 0x5c0e442d1e23a82e; 0x31e5e02f1d7609fc; 0x5553171f466ea45d; 0x40bf63c26e5bb118; 0x53303dc41a012cd7; 0x4346e7f2c24c4690; 0xab250e1417ce923; 0x6765978a9ed4cfa2; 0x7c93b86d1750b88d; 0x54f3bc05d4fbc9ea; 0x2caaa208ea4b3928; 0x2bc74b28f8ef622d; 0x2f81890bb7a157f8; 0x6dbb7a6d0546300b; 0x11e0e71e5987a18e; 0x325fef13a2b60e8b; 0xe99fce1a94a545f; 0x484f94c1ef40d771; 0x4b7fcf010cec91cc; 0x52f0d46ef7bfbcca; 0x30825e0ec9f50340; 0x773eb408dbaba30e; 0x7299785b28a80819; 0x6345ea696c004a99; 0x6713fc5343541d7; 0x1a3ea100b3ed0df];
   [0x66249864fac07ae9; 0x562fdb4fd32d54d4; 0x6d7db0e54dd13059; 0xee0a0adb0db7235; 0x5c5ca0513293ec7; 0x27b453ff7a20ed32; 0x231a9f7f24d9b77f; 0x3429b61fa5fc530f; 0x1cfa64518c562e37; 0x4875fbf97f39a72e; 0x41f88d0b898dd780; 0x6047dddac5ac42d2; 0x27a48837d41e0f85; 0x6627798710e6b764; 0xf58a8396defe353; 0x792b683073844a2c; 0x3d928a8989ecc1e6; 0x6eb181169f2bf0ee; 0x7cf53eebb57082e9; 0x49358ff95b210622; 0x766405981e51be16; 0x19695ca7845faf06; 0x730fce3f3bca7a5f; 0x102078a805e20d51; 0x5a986614e1fd06e2; 0x4bbce5cc6c52ccff; 0x346eb0846eaa2cec; 0x33612ce818054b8c; 0xf624da5e8fd822b; 0x290715fe433535a4; 0x3f61aeeb8c1a78dd; 0x7aa268b338036a8a; 0x39e8fc5cf1830f19; 0x3e69ae90c79290f4; 0x7cd332c3a1d89606; 0x6f82f5c79681c339; 0x19d56990b6ef039c; 0x5192ac4f18ab1042; 0x1911ea63547fa8ec; 0x28ee892e8a6b9b9a; 0x4149db9abd91ed62; 0x44c60e48481a8bcb; 0x1c7bd02c643cf1c5; 0x66321b0fd2d0c2d3; 0x4f2cd01c757a38ab; 0x48807de4561b7eed; 0x5364d014fb2c1cbb; 0x59c1c6fab8e3fd5f; 0x52195825eb3eba9a; 0x15e2f1ff9f9b5a2; 0x4a26dbad6a1752f7; 0x1b8388b21805a96f; 0x92ddebc292ce586; 0x3405eb9ab58f1462; 0x2e92f42b7ef78317; 0x2f70e6c395d0a572; 0x46888ef447ec6f35; 0x73c2866a310b2faf; 0x5455fa7a52e6a6bb; 0x62de13d82c2f475a; 0x65812545b725dc22; 0x4c9fed11e6a04c33; 0x678082a772b5360f; 0x2f670702d95bca6; 0x49ebf6625d9037bc; 0x8bf26eb31f16287; 0x140bddb008d8b751; 0x59f88dba6d77ae39; 0x757c589c0e0d0fa0; 0x7a18d26865d9a7cb; 0x7757b240aa7ccc9; 0x7d80a5a609e7e4a3; 0x511efa9833f29992; 0xc73815860e2fc33; 0x3d371bab1ab226a2; 0x1585380048e29e7b; 0x35c530e7f92e2238; 0x6b27ca63f8c55b48; 0x33a65e92906d4811; 0x61964f2f34afc28b; 0x4070e57b7c86aca1; 0x66c267fb213d9edb; 0x4b1bdf9230f8b618; 0x578b33ead910da7c; 0x45364a6045ed5811; 0x173f94516da7ea3e; 0x1793d6e76c3a1607; 0x517a9267e6792461; 0x678723124365e6bd; 0x66bfe36a998c08fc; 0x268496f2c17ef70e; 0x4b43c096d410735e; 0x7cc4cdcb4ae8799; 0x3875034cd0a4b254; 0x1356b381c1b2fcd9; 0x21d3912ba1fae993; 0x3e7d13ed1b15786b; 0x1dc0628a2cf1089; 0x6453ccebe863a17b; 0x1f7e0557cfbabc60; 0x59066ba7230d6748; 0x2605172c347c49c9; 0x379b453e74e205d8; 0x585b733b1000c40c; 0x1c5bd4b44e728591; 0x30a787901f602b79; 0x1411dba38d2c0b0a; 0x213bb79b604c886c; 0x12cc3ebc2935a524; 0x3607662ce3030af5; 0x121257e558e67dbd; 0x792cc2a4bdf0caa; 0x21f54492c1a32176; 0xd835a2f1f7b52aa; 0x70a96ca8cd656c82; 0x3045698561224b2; 0x6295d4278a1cabb7; 0xa8a8df4fd5afe34; 0x598757b94d83cab2; 0x112cf082924f853b; 0x7b9797dfcb6b8fe3; 0x10632cf3923b5260; 0x28429a20eaeab85e; 0x436595f9fbb03e37; 0x51aa0eaf2085650a; 0x77327d6e39f244fc; 0x520b9f98f3f290e3; 0x21ccf05a72ec34e9; 0x1505d899b851f893; 0x7b9d355d732187d9; 0x9051aa5142cf5ed; 0x7805f8731e706b4c; 0xaf3555799764b5f; 0x1eeea765e673278d; 0x14ffad7abe84a5ad; 0x4fcc22409edba7d8; 0x44704a13f40fc4b0; 0x5f66c888277f7c44; 0x7298f69caad33cb7; 0x5d16a64dc93ce2fe; 0x8c95a8997b7001c; 0x55756e53e95a13d8; 0x3e7b2f13d3c6400e; 0x65a31163060c7e46; 0x3bcd88c92a20ed00; 0x76cb8d796caa1419; 0x2f62877b5cca4c6d; 0x7f830d9a0a61d405; 0x72b761013d064570; 0x748a36fa478b0d21; 0x2664d9824055aaea; 0xb42aec1fc563c55; 0x48c6a5816ce3a24d; 0x2c2e84da95f6a15; 0x2ab05eaaa2ed5e25; 0x91601e581c38e15; 0x225c67049199525f; 0x7f4a9ddf74e7ce9f; 0xb0ea144f030b29c; 0x2ae02d23d5d4858a; 0x637c6f28adec4237; 0x7951781b21dd1037; 0x676a378eab6337; 0x3de3c64ba5cf5659; 0x49ef57de793c0e56; 0x153aece97befb62e; 0x7a430ac0c6af8745; 0x49a034bd9ab8d0d; 0x328fd9f760479bbd; 0x1cc275b6f472cd26; 0x7e0242c85e79b47c; 0x3e04ffe2c4a51b2; 0x5c9b0ae0cf665405; 0xfd82f1ca11d1577; 0x295d7d64df696241; 0x64cba8b9a2feaf85; 0x63590ccfd0da5384; 0x2a8b2e677f56fdb1; 0x2caf054b07192396; 0x7a85bdba1c67516a; 0x55d424f8c67c2ebe; 0x6f168866878d19c1; 0x5d23dfe02f5d0d3a; 0x417128f697598dc4; 0x43379a35b674aa45; 0x114f1aeb613ff7b6; 0x5b05a42399a2a4d9; 0x56ae2df7e02fa0e6; 0x3ffb0d50fd651a60; 0x7cd8e7495c2a7b1a; 0xb0711b3c6007e6b; 0x50ff121f69c7decc; 0x4674222688adb664; 0x5697fbb071c47e1d; 0x490f30f4487242c5; 0x6c0a530b43f5e129; 0x54ede5ac7e052562; 0x1922d69595faeda9; 0x7f310e644d7690f; 0x28cf2b0d77a1fbd7; 0x40a62d1dbcdaf5f6; 0x6eb1e8518320f54b; 0x6e60b48b45d11e43; 0x1d78cfc4d8ca82a8; 0x282e05d000a69434; 0x78f5550ee1b1989f; 0x3d9d9896f8a38f18; 0x3f42d26f5fcf7837; 0x3c1fb6bce271502b; 0x5a27f67fb8d6dcab; 0x7aa9f1bc4cb62367; 0x27f5793063583c32; 0x4e9976ad5cb971a8; 0x57f5c53870d0aa64; 0x19eb7eeba15d3ff; 0x366db5643d11a694; 0x7212db7274af5183; 0x547af406d4c5330b; 0x3361556a3c00762d; 0x45d1c34cb6e28f1e; 0x778da70b664b9b38; 0x718f1d03ae913cfb; 0x34702523797120fc; 0x616ed558182819e3; 0x56ed4a5b9e7f98e4; 0x3e7539ca0ec64c04; 0x3ff7d9d4ff4aa9cc; 0x3a124cb972e9b8eb; 0x17b8149a99304502; 0xdc6a747f95a04b2; 0x53222cba34a15f08; 0x602f2fcc8247982; 0x14756707d80fee9; 0xaeb780f585e9f9a; 0x4ee079916d9cd18e; 0x178b67e122eacaef; 0x489f6a225a22530b; 0x487edb71b5ff18f0; 0x2febba650a558070; 0x7c48055415bc33a4; 0x30e881080df0f157; 0x3be9405d4afde9e8; 0x6ff179bc61c074b9; 0x7b5592a1cc084823; 0x34a2849d7613f353; 0x19ab00d84caf47a9; 0x2bfb8e9514e6118; 0x50a657a585b28bf1; 0x3a4349886007e773; 0x105ff1e682b6dea6; 0x2b02f78fdb9a1b9b; 0x28e445d8e483cf2; 0x40fbd5499b06f140; 0x768667ccb29d0906; 0x65ea24c8a286fc64; 0x2adb6f70321a145d; 0x1d98a7775d3aa7ee; 0xce6d9cc83f49c01; 0x1f296c928fefa563; 0x1b016fc7faf8fa9b; 0x7af3f416d57dab88; 0x2593ca3217683359; 0x261ef8e6e9221b07; 0x14d6110e2d3d9dc1; 0x15fe71171882f2c5; 0x2005994401dd2b97; 0x7bcafed4d5ff64aa; 0x6fd1d5f591a9edf8; 0x67bbf38741d93cb; 0x507db0acb0faca47; 0x31d223514dda0aa1; 0x619a9e0e0d3795c1; 0x42d21b323e8e94f3; 0x6f3271308b088ae5; 0x1bb133dfaa0f624c; 0x771a8dfc2ab810cf; 0x54b9ad27972c3897; 0x68da7daf288b7b67; 0x33216d54d84ffbbc; 0x575aee048a577a7c; 0x1b97612a2fb1a1eb; 0x6de98d8376d42c85; 0x217a36aaa6d6601; 0x29e9e852505caf4b; 0x2ee72eb913f4d0d0; 0x54ab0873462a62c5; 0x6a6b4183417771d3; 0x579fc856cfafa572; 0x7e440b34031129d0; 0x5cd5df04ff766e10; 0x65d51962f3a04e4a; 0x71fd0c7fa1ba3f15; 0x7dae7b3942a113fa; 0x45bfb483995cb0ed; 0x3cf998a62b83207e; 0x4b814eef9a83b29d; 0x54b59c561dfdeca3; 0x661a59754e0491d; 0x1271ec3c6155635a; 0x360b1ad3fc5506ef; 0x49fa1c7242e43eb; 0x5da2fa31b61a54c0; 0xf0f35ccd13dcd1b; 0x10c95212238ba131; 0x3be65f391b8d88; 0x21daecb52871a2b3; 0x63548459e48d4e9; 0x6e903ffe7f98c50e; 0x53a202cba582abde; 0xfdc0dccee217fa1; 0x190f19249fa6b7c8; 0x52cabcced309381e; 0x3a9d663cb82e01de; 0x5d261e5662ce71ca; 0x41d15d0ffd04282; 0x4ad1b99ee196b999; 0x66b037c8959db8c];
   [0x4ad096f8b3335aa2; 0x7aaca646d6f17a7b; 0x268ecd8bf7741ed6; 0x161e3920fd53c6ac; 0x157f2a38493bb41; 0x1669018ab5099d07; 0x7f664a54e2508aa6; 0x2e2f907c71de2977; 0x5410bd721afe0bce; 0x4be5f35c8ce70534; 0x2234f41b1380d661; 0x230bb41076d780e4; 0x9cab2353bda0ef4; 0x3b9082ea0368fd4f; 0x65163600452ba990; 0x1edefeb858866808; 0x35a3531e2de90a57; 0xa851a0a63e9f606; 0x5d7fb8ade7026dd0; 0x58b134aaf8a9b090; 0x2652eb11d4a7c92c; 0x6ba798b3d1b17868; 0x64520ad9796ad156; 0x170268e7b4be0a38; 0x33a9e91f0f39b7e2; 0x3f50a48669ab5449; 0x1d7e4ce06d59af47; 0x5bd2393660d636b8; 0x51d9bba114e594df; 0x5918d2a8f775fffa; 0x27698fd02eb2f2de; 0x25759c8f204f5aa1; 0x62753bbed525ddbc; 0x3f58724d6f876d3d; 0x230d4421a35e5ff; 0x191cbcb8923892f6; 0x3c7e3eb16124e38f; 0x1703c5620f32c249; 0x4be63e0e5544191c; 0x43c01382181cca79; 0x31205d8f1469b071; 0x4ef62466a3d83647; 0x4a7b876404ec776b; 0x750d97a7e89019cf; 0x314596d3e8a062a3; 0x34373f3a00692da5; 0x168f89717394df8a; 0x4c278ffa64156a6a; 0x3c6570f06b7f28b4; 0x79b2d97f41e1d618; 0x572a5f2808837b4c; 0x7473f58a082f7683; 0x4cccfdada8861fa9; 0x669c7cd9e3d52798; 0x73ae0a621913b147; 0x3ddf07e415556437; 0x711adc242f7502a0; 0x5628dcfa8db8746b; 0x38d91f7ddb91dec1; 0xce8fa5910f9cf23; 0x353f37a4c9984ac4; 0x3580c0668a3c392f; 0x76590a2e36e8e171; 0x2a122dad133d5c50; 0x37de30d285b3ba01; 0x9b05307e1aaa4; 0x213b1a1f9a5de959; 0x59352b242ebbd2f4; 0x1ef0dbd420e6f18; 0x345dd0f85336b6ab; 0x3d2ed1a36dbd4c20; 0x2c9f1f2c987ae5f6; 0x7f72cfdacb18b5b0; 0x1649f12ad430dd11; 0x4246386181f3f021; 0x165f7d48b0d9454b; 0x2698e9c3ac8f0451; 0x415800ef093c3a; 0xf1b65a6fce25fa5; 0x41fbb25de23eb027; 0x10d7aa05d708504e; 0x7b99c532c227fd3f; 0x16a2b76848d6d62f; 0x438cf21e2afc4db3; 0x2762d5c8ad4d9103; 0x2740bfc47607e7a4; 0xc47b2bf03fb7904; 0x79d75a4f44edb75f; 0x74cc5520789e002e; 0x2d8d768945675c4e; 0x215660a4bdc8b8ef; 0x614364fc80e6afe; 0x7b4ce9808c11a74a; 0x21c879dc308d58a5; 0x433e2f88b9451785; 0x3707d337cd0d43c7; 0x3fab7f46849c5a86; 0x8f2159382aab7bc; 0x51133ca3770555c2; 0x4017e0c3905f495b; 0x30edeff7585e82ba; 0x5e1ec26f4a28b84a; 0x775419d8b515d080; 0x414a595ca3bb232; 0x116c5cfbd916b9f1; 0x1829de8fc3457c1e; 0x24526512f56e94bc; 0x1fbf4a7172b10cd1; 0x3725f7dcf880c47b; 0x7dbadd8afaa7271e; 0x14e57985b3a7f8b3; 0x1665e8b24371aa2c; 0xa7fbdeb6959fa43; 0x22cb77dd12e566f1; 0x29281b485533768a; 0x46373a7723610f5a; 0x5f63bea7df6c25d1; 0x30e1d174a57aa4a0; 0x5a07024dc7c0ed92; 0x5b5001b9ca659c9b; 0x344aaf4624d5677b; 0x1badc198c5dc0bdd; 0x1c4d142760d703d6; 0x4dfa63c81a122486; 0x74b88d3543ae6166; 0x368795c13a7decf9; 0x45a5dad71fbc9802; 0x54011cf30683f45c; 0x27dd94822aac0e75; 0x59175128f5a9eeb9; 0x140a4a87952f21f4; 0x67cdcdcb2535f934; 0x409dba79c9e18043; 0x2edf15abb0964610; 0x6646db5d1adca4b3; 0x57df12f9775f9e16; 0x2d03ebec9de3d514; 0x322452cd8491e32f; 0x447b2d29fc0c2bf8; 0x36ccf8b3426b77e8; 0xdb815f653391055; 0x2a85e2f51f8bc71; 0x13dd9fa0ef158d40; 0x52571aa986c118c5; 0x7779a218fca6d3de; 0x565ae1a199ff50c1; 0x2a894eaae042b82b; 0x16104f7bc1ae826f; 0x62ec8871e89004fe; 0x4daa1644acd0c77f; 0x1be048f7c4ddbbea; 0x2edab158915fd0cb; 0x5a99934799c59d3d; 0x4dd78c913397c388; 0x62c58be37a92a26; 0x38db94ad630b6ea9; 0x684a60fedd4bc963; 0x2e8f7d51272a2b36; 0x16c86b500389e0f4; 0x653c4cfeeca3ba6a; 0x5ce6ccb62e945d1e; 0x4195906eb19a9a; 0x48f9eb28bf7f41b5; 0x2c3ca8ba5aedb874; 0x1989444677382b95; 0x525187c8fb16763a; 0x2886404a521d20b9; 0x1a06da386c01b97; 0x45362b4f52e17c7e; 0x6f93162541808ea0; 0x6c189a516469778; 0x70be718682c39ac4; 0x41da056751884a0e; 0x41cf521061b6a929; 0x7980c548bb99d596; 0x286a664dd2a972ee; 0xbe2c3a9f5f8357a; 0x23c1e45f116429c8; 0x3b44d8e11cef4ea9; 0x6f41fb8495b58163; 0x597fbe96c978c29b; 0x3788ce0db4b68c8d; 0x44ca26f5d4f411d0; 0x10da2f306a47eef6; 0x3a009b0349b9aefa; 0x2e447bef812682fb; 0x352d591f2d045935; 0x320439b583dc7be4; 0x2faf586b4a71ce21; 0x26ec94140c98e05e; 0x6358b03a8c3f49a; 0x7335980ce1f35908; 0x640b4486f55147a8; 0x59ef70cb19b76509; 0x772b372283a96a11; 0x44449f939db9cca2; 0xe6a28760ee694e0; 0x6670576270813f93; 0x5c0953071992840a; 0x65aa55e6319bb9b6; 0x73c2c5501431af00; 0xee766b52e1a2ddf; 0x213514495767cbc4; 0x68d5a6b79e56fe25; 0x10d64d80efd9a5db; 0x7f505dbd6d0e262c; 0x669ad78bfc414f38; 0x5346abf0878d2121; 0x2404fab6f590ab39; 0x4cee5615045e5077; 0x7e8038aa6758dae5; 0x699ad1154b30ca76; 0x60b812a0d9f2323a; 0x3edfc17b940945c2; 0x2edc19e20f6ddb6; 0x11e5d28a725485c7; 0x43e1225833daf888; 0x2238482face28d29; 0x5ee9c1c90cce42f8; 0x3f24dfeec7b7fade; 0x31b2a5d8ef2298a0; 0x459f00e07851b0e7; 0x6ff5e7f186c157f2; 0x70f14471fe32f47e; 0x5cb9922fa7fb6041; 0x2c6d6a54da404363; 0x1ad65debd4860c67; 0x73e35a5fc5714b2a; 0x546be14f6ce318d1; 0x7e1a695f59c8190d; 0x144808847a22348d; 0x77a5228b6ac4dd2e; 0x2f3c949a282b9f3a; 0x55ce2268655a0247; 0x250625e50fae08a9; 0xb429fc743d28bda; 0x4c967dfc72c81a45; 0x3dddc4b6af6a13b5; 0x4aa190f965c2668; 0x327a42f35557c0f1; 0xae7efb7b5a7b527; 0x32faf4a3906696cb; 0x2c11e3bbc088e023; 0x41c4dfb3244ea829; 0x341d3ac7fbbe265c; 0x7b7b33090d6518f7; 0x1f09bd4a1480eb5f; 0x540f345837e2244f; 0x7ebbb08beeb0d28a; 0x20d30d7872619a07; 0x680f246a1da17bda; 0x3085e61cd3aac738; 0x437ac073370f6a67; 0x67c04a37977886a3; 0x7e628bcbbaab8814; 0x15b4764d83ef6e4c; 0x4b8b43c0a8cb71fd; 0xc6bf626d77f39cd; 0xba23c9c46ff6371; 0x33a06fc7c9eecb6a; 0x304aa48453959487; 0xce511d508457ad5; 0x2c2101389c446410; 0x749c30493f8dbb00; 0x197549383bb59ac9; 0x2bc2adccda3d33d; 0x4e4467604819aea0; 0x4a542abdca4e758c; 0x276d3d1738193349; 0xb55a706312dad9d; 0x60c6d044d31e4c1f; 0xe65c0b61a9f5131; 0x7abe6a272b29e963; 0x1fbdef77d8004047; 0x6a62913ab61654e4; 0x62c080d28fa945ae; 0x66f0f5f1fec05866; 0x8be292b623e0e93; 0x6e49ee00004e847a; 0x75029be1f7d2b220; 0x739f7d00fd034731; 0x4e56a043052312c; 0x5105bf0a8605d0a1; 0x569e6013dc3b3a39; 0x5a2ee5088a9d4f9b; 0x7f253f162dc01ae2; 0x1e1dc396ee981481; 0x38a3aa4ba40afcdb; 0x66ac317119c11c4; 0x75b1e5eeedaa5ae8; 0x721c4f136a6e3dbc; 0x14d4b7409103f9e9; 0x78441cfbea6b77d5; 0x30b9d9f291331931; 0x70ef8975047292fc; 0xea40b7dc57a9125; 0x19353e3e48179577; 0x29e010833f79773d; 0x57a065b934d8f4b4; 0x5911a9fd02b33e74; 0x7285602c224f0308; 0x58cb4f5ae0d8c802; 0x253e6dc0237da4ef; 0x19a3b65078aa73ca; 0x78c751fda40581c3; 0x6d7a5d5d40d69c7; 0x23f12f79f7b16e6; 0x2e771cfb8c2a47a9; 0x545abd5fa5fe4ad2; 0x2f9b65470d751a86; 0x25521bd29bdc2357; 0x2d9d0f4a6419e258; 0x60292a856d92e2a2; 0x696bafaf10c86f17; 0x7fc92ee19fe91992; 0x3dd0c0a0add0d895; 0x45744e5fc78344d];
   [0x3d259694525e68e; 0x54d9060fa31d091d; 0x60318dc2eaddf7cd; 0x437bf0ed6f23c4ca; 0x5f3420b209f781e6; 0x3e54960d20409426; 0x1db03fb6b570e80d; 0x3534d4b2a1c711b9; 0x79b11a8979b9efe2; 0x5223cb7a7d075fd0; 0x6d9e73140ee3237a; 0x1c9c345cb3165a1c; 0x3db1ab2f89a7c3b4; 0x1fb98e5e43314e65; 0x407ed13f8fed3c93; 0x1555e6469ab8072b; 0x6305820695e65821; 0x2d5b8d85f36f5e20; 0x22f616aa44d34e8b; 0x5c1cc00ff9b174ee; 0x31f4908c5ea1a4b; 0x612931aacb43af18; 0x5babdcc0928e2d3e; 0x269799fc9fcbd003; 0x6483fdb1f3f62bfd; 0xd2ef8bda98204c9; 0x77256ba4442dddd6; 0x4a9d87eff8cb1b0a; 0x5710d3f6073ec328; 0x7dc58e90bbc7b974; 0x7dc9337cb97ec8dc; 0xf683c60331eb878; 0x6c83a3d4414f813e; 0x54d1f83ab07dc098; 0x68380af5bc3a50dc; 0x124099e592365ba0; 0x404b236fc202450c; 0x9df0f4bf66574c1; 0x30981dba795e84f7; 0x4efcbf8fe463dace; 0x48b9035282c351e3; 0x59fa95b4fdf9755c; 0x65a9940714b4ea7a; 0x39e8d30975b171c; 0x629478e864a07487; 0x4bc8c594e8c3f8c9; 0x5004a2016945df8; 0x535cee3eb704b903; 0xfc8d25c06997d2a; 0x5d154ef5e21e65b9; 0x205ff9f163b149ed; 0x3a14551b5c624aa3; 0x7bdf587ecb4651f3; 0x44b011f5dac48b7e; 0x20b7119ac8ae429f; 0x171863469bd40418; 0x1b10c349d5939a5e; 0x5d782d17c06ebdf8; 0x13d48d14ce5b2611; 0x5b31edbb1e788abd; 0x7fc1f4e0678aca7d; 0xb1ddf8d1949dda8; 0x489c1f506c030bf5; 0x62787315be55f87b; 0x475b1f2d15e5c93f; 0x550b4257ab8fb1e5; 0x4bd19f981bb3c8fa; 0x94729d0d5672441; 0x12b93e05c824422a; 0x35b0613c96ffe5e2; 0x69da15302eebcf73; 0x6cf53466b7ccab3c; 0x241e24716a95d0b2; 0x7b53997a44844da6; 0x3c66f8cef1c86972; 0x1177b38e2f18f178; 0x2e5215cc0e942f66; 0x2a86839cf08f6906; 0x17af939b7a2afc79; 0x6605fc7a1f13bcd2; 0x515ee40da06b78f9; 0x2ccf592edd1b03ff; 0x4127b7187b45cde7; 0x29f44635a4f7d012; 0x3860aec58c74c123; 0x34fe8ae203a053c9; 0x2bb29ea953082d0c; 0x2bb39819932fee0b; 0x657c8434dc633c5e; 0x6da3ba18afb71058; 0x5b95041349ab248f; 0x458e8a4431c4642a; 0x5f2b90a1b1773d39; 0x49c5a4888b4d452b; 0x6cdf5c9400e566f; 0x729cdf930bfee04b; 0xdf810af22147e60; 0x31a467f3f2feef6; 0xc07ae78ded12dbc; 0x6f178def4a687dc; 0x1dcfad97cdda1aeb; 0x13e63b1183d56146; 0x592024fd2f1468f9; 0x521d1e62919860b; 0x110cd82d77688882; 0x4d7f97da2825f5b7; 0x2f2b976418df58ae; 0x428b1bc2b82eaae0; 0xbaf0b613625ef17; 0x211e7f45c1742657; 0x7f26f993e2404d0; 0x42ccc2e67fd41339; 0x428181eb362d4cea; 0xbaa1f76990a87e5; 0x2a1437c120cc9; 0x5fb920e890f39ab8; 0x4090750e027431e3; 0x41e54866e2d75b96; 0x4531d3eea9fdde77; 0x64acb6475248fa7e; 0x7a0bde916d91fec4; 0x5e8e4783eb7d59f4; 0x6a63b0c74eaeb527; 0x19c0364c08084b7c; 0x28ab276242cedec0; 0x545a07595e9f92f1; 0x49220b424d1a9773; 0x2157cba12ac6e170; 0x5ae6f2969609cb19; 0x2f928109e025359c; 0x3365a3990aed9d58; 0x4c94783b2d5342e9; 0x74e9f8bc45df34f8; 0xd2d471d85e5c20f; 0x2937df938be2d75a; 0x430890e151aafd33; 0x636120a18519e129; 0x8af1013e6b389a3; 0x2d20661e64876837; 0x2e879e40eef47953; 0x34343bf9a828ee93; 0x7d665ac3544ed52e; 0x3c5ffdbedcc36b21; 0x1b68d4d90236021d; 0x6988a2b6a4fd8052; 0x7f531083aabd3563; 0x7486537a3c178c66; 0x654d707648790e4f; 0x151fa240a8dba3c9; 0x33169be01773453; 0x108bf47a67ca68dc; 0x1108ae896fed5fee; 0x4ae30418b459e73; 0x549dd01ec5e1774b; 0x4c683f19f7efeeb3; 0x129bb1453232b8c4; 0x33a6161a99918e40; 0x5de00bbb23ee889f; 0x3ae76ff1c400b48b; 0x2f3af181d339dfc; 0x6faa2ed450ae457c; 0x623a4bdff0dabd0d; 0x4b39a2cfcbeb4121; 0x17f65d3a2a58e3b9; 0x3a3561c3d63f1aee; 0x5dec843573c496c0; 0x6732bb691c1f95b9; 0x1a9fa65486b941c0; 0xfc623eabcf02dbc; 0x41ee6e4e6a28c03; 0x521602baf10abe; 0x27739a5edc1a518a; 0x73974dce4d218ba0; 0x41de6bd4cc3e91df; 0x6410904875596a38; 0x7653aca923d97fd4; 0x7107e747aaafe6f5; 0x5619f231388a510f; 0x85e4ed235a62496; 0x3acd7e402c1876d0; 0x38e25cbeba8c2aea; 0x667b5f309bddf934; 0x729a28eadbbab998; 0x33e12ee01e19b542; 0x44db2735c9797979; 0x7b27b390358d9203; 0x35493c3be979fc57; 0x51ef3574167da064; 0x116e3d71f0da8b84; 0x189ffc7154770b5f; 0xf19d69f25f95613; 0x5d060a766233e16c; 0x17cdcca3af8266b1; 0xd25ea83d4f22de9; 0x51f8d518123fadee; 0x756c5ad5ee3f11d0; 0x46a34388bf59bfc9; 0x1c4c3f161affc517; 0x29d63ae9e884b542; 0x1ec8d51430cb5b2c; 0x2ced28cef435799d; 0x21342ecf26dad737; 0x45e3bbcf7ef723ff; 0x49333d33922ee12b; 0x20c38506cb36204; 0x613f47dd0bdf52e2; 0xbf8fd05fe2c6a96; 0x26a715755282d2cb; 0x5bb90991ece409d9; 0x3981017bffd867db; 0x6905a7ab2392eed; 0x1968738ca6e3b2b5; 0x35199a4f3fe34ddc; 0x6cb1ad1fea56502f; 0x673998b0682ac52f; 0x25d26ade7d7d5322; 0x6f3d64fdcb0df5ba; 0x1ef8b2315d4dd61f; 0x1b940ef06ca34ed9; 0x27b78a82565184c9; 0x52c0292db5b9930c; 0x572f4ace9ddd70eb; 0x1d0d84aa509dc28a; 0x5bb113622ddd2140; 0x3fa9669b0fed8371; 0x272e48795eca6202; 0x379759434f46a13d; 0x4f0ab0e492611ff0; 0x20612181dd8919fa; 0x6489968ea0d8512a; 0x4984f3cd54adee6e; 0x2414cd65fa64f373; 0x7ed003b4f112d50e; 0x14cfbe7eadf569af; 0x1870295b5b47eabe; 0x29b46d47312f6bd0; 0x4247c7389a03b209; 0x228ee146248d358f; 0x74ce7e20665293b2; 0x4bb9766164b0666; 0x3c4e4e0e6d155629; 0x5552e034cc3c47e; 0x5b00a687623ffc27; 0x7dd43169d1dd42f3; 0x14110e1ffcd18f18; 0x27c7d52e4404233d; 0x1ba2f17c03e7871c; 0x705cc336ef93d353; 0x6cff3db234b1b917; 0x34877d42fc04772c; 0x47c1dbd38e3401f7; 0x33bc66c24ec9b5b3; 0x578a49c2d35547bd; 0x2442b0f0f30b7656; 0x3ff4e6f6e212c488; 0x4fb4a61456cc8cc3; 0x2f0ffff7bccf27ca; 0x71ec41bae3e52e1b; 0x7a0293fbbdf5f69e; 0x544e36ad6bd88183; 0x6f9d4a452b5d67e0; 0x55e2e0430eafb8b9; 0x3c92e06e3546828e; 0xd8641a303792d20; 0x49a486f08d8e331a; 0x3719a6ea13ac64ac; 0x314ea2a12e7f698; 0x6790279b4f098dc2; 0x3ca53abf3df7d17; 0xbb94ec2cd580eba; 0x31a382ab68e61d09; 0x2327cc1a0a9168bc; 0x7a3169d28453f794; 0x633ad672337fc117; 0x2bcd34921532f365; 0x480f271e8b84a0ab; 0x41f63c2ec17af374; 0x1b70ece781859f3e; 0x57fa10241527c6a1; 0x25ba2f58b4fb62c2; 0x39bf388950924670; 0x5f24341f74386347; 0x6203b3598f3958fc; 0x36e4b02fcbd71346; 0x527dfc26446f251c; 0x2604c5bf366438b4; 0x31bc08ac99a1433c; 0xda03a800adf1cbc; 0x4016c3e3a9316887; 0x3a3a048b1b2d7c66; 0x7ceb8a06861e20c8; 0x132dec1cab3d55d4; 0x3a32effe069f5d52; 0x523dfb26a6a38267; 0x735dce52d3b62814; 0x1174b9ced097cb13; 0x7521ac9945500dd4; 0x3c9aa810c43603b; 0x56e4536745749d72; 0x551692976a7e19ab; 0x24dcb2a805298946; 0x6725b7b2ea814c15; 0x41e3f575d3386983; 0x41df040e088390df; 0x410944e1eab63a1c; 0x4b7f6fe87fd34e2a; 0x3c8fcd7dd1070372; 0x2b526eca95f286e1; 0x26711bdf33c0aa58; 0x5ec1cdb7692acf2a; 0x4f0449739e36d683; 0x1ee0790407b16e88; 0x2e55a4b6ad3bf167; 0xc5c61778b25056e; 0x75b7e1ae16f6c6c1; 0x2e1c5050ea4949d8; 0xcc8799a9b486333];
   [0x775ef70e78cbcf14; 0x561120c5ec256e59; 0x2be7e4b1efeb4e1f; 0x7d74785d376b540c; 0x2665830580bb10b3; 0x66b915ffd551d966; 0xddaa414e2ebee93; 0x2e076d702116161b; 0x655468fa3eee1389; 0xf77ab600e897565; 0x4c4569d210dd2679; 0x27d7b8a01acd617f; 0x79645cfc1adea1d1; 0x75a2ae9b881b070d; 0x28d8199feb89f410; 0x5a6d515410231ad8; 0xdb03f76dc1e419a; 0x23e3ca7e587c025b; 0x32efacb743af2a01; 0x7f165ff5b686ebad; 0xada524faab08dba; 0x26212d046ac5d271; 0x57c1e6f0b2e5b397; 0x7c392e6190fed286; 0x4b6c70d41788dd88; 0x432bc3c86d84080b; 0x6424f4f2785d2da5; 0x5bdf12d74bfa7e00; 0x50a21e633353cd9d; 0x1f6717589aa05772; 0x50df09d3149223be; 0x7c5d78ffbcd9baf2; 0x3961a1a63c467c48; 0x6bff447f2b9cad4d; 0x1ca5df593fcdd2b6; 0x40564f0eaa0996ce; 0x279fafc4de0d689a; 0x293297077a5d8c24; 0x68563962d8e71da9; 0x6b367ec1ce871855; 0x7aff8bc2cd94c556; 0x5fa92a427df254f8; 0x76a5fee642d211b9; 0x776c867814c22cc4; 0x23c7c23298e2abc4; 0x5b8937b3c714bbeb; 0x612dcca17bae2773; 0x7f59d7e83cc4db7f; 0x7ce2228c828f85dd; 0x2bbcfd6ff117e792; 0x2553db9c24763f1d; 0x62fc1828a100359c; 0x77b0539c9d2a0b32; 0x67e2895a464639d1; 0x5b13ed1f66ea45b; 0x22e4333d7151db2a; 0x676fc6b9219c0dc3; 0x1b6e1aea28060f42; 0x3a2ccd8dfd130d94; 0x704cf6de43f99361; 0x443ab73b93086b31; 0x249dac2b6f9ad311; 0x3da29d65dbb7ca97; 0x7bf377743b13ca02; 0x2a2ae06db7b01274; 0x8337bbca22e29ae; 0x30a6005bf0af616c; 0x4b2ec791b5de3208; 0x2eb5bb4d9a033baf; 0x17df4fa1dce599a0; 0x5e93d7fdead84c54; 0x2280d9ea9bfb6d9; 0x58d8164fbe2607ef; 0x269392b6a99aaf80; 0x3b3b2ab52b04bf8e; 0x20cbdbbd1b5e6a0a; 0x4afb55ec3e0acd33; 0x3856b61ecdf551b9; 0x5f071dbdd9091380; 0x4b6c948eda27feb9; 0x470c98236dc7bed7; 0x3da035c9538bd176; 0x2c86fc25d7fbc762; 0x7c899c19c574fb9d; 0x5c1a1bd349c53d78; 0x21b3d417b6a31ca0; 0x26e04728f40aa5b2; 0x661bfa87d7b88c44; 0x335f617ec6e9e251; 0x2ed744bd30fa43b3; 0x4cb5e12d489bd7bb; 0x3b5782a45b52379b; 0x32400175fd33adf7; 0x709b4698c7607ab9; 0x4684161f39d981a6; 0x40982116886c6be5; 0xbc26029bd9eb83e; 0x13c1db09f67d3af7; 0x2329d52cfe97af85; 0x5c200645bd7e22f9; 0x125d68e7b9f21598; 0x2cc8159b178bd606; 0x1fe63018b59882af; 0x307ae7eb1e24e6ee; 0x22f9dfa767d67078; 0x3aa6193b81fdce68; 0x2232a73a7a1c41a3; 0x5b9d841613f88fa5; 0xacbb63173da680; 0x6f21f56aab1ab1d3; 0x6586eaaccba3b391; 0x4fdd5d3e971ab5df; 0x4f20c4e2ff125889; 0x7d0fdb6254d15cf; 0x2902860ea7070b69; 0x4298db2a436bcb21; 0x77dd5a5f805f83d2; 0x33438305fb6bd0be; 0x32661e630d2c031c; 0x582f371b5ad39aea; 0x6309b76f2a474cb2; 0xf10fadc2a89d533; 0x45007b328b2049f5; 0x54af4fbf18d8d343; 0x574fc4eef280de17; 0x2e8fdb194bd6c6db; 0x61ba7a418a68e815; 0x6233b797c160eeb7; 0x3e657dc1da0222e4; 0x7d1fc256ca19d436; 0xc741f6caf3973a2; 0x7bd3dc6a381e2946; 0x6fa49c46af6fe75a; 0x6f9c75dfd185a4e; 0x1d3acc2eb910c021; 0x34cb2b7e87dbd66e; 0x5ff4655196ff91be; 0x4ee79944ff42082f; 0x3a462d9d96b737b2; 0x1dddd11a577652e0; 0x30b6a1d1922d108d; 0xe94ad6c8b6c9844; 0x49d6b96ecd25d485; 0x193b12b29d491176; 0x7160157cdfeabbce; 0x5383e87a5a19140a; 0x735e308fe38b421a; 0x790a8c8e6128d30c; 0x14901f05c0cd334b; 0x606b38c1ca7881c3; 0x504936ea194cec0e; 0x5af1ef24bfcf35a; 0x64dc35afd3af7c9f; 0x622e80b8849664fd; 0x3f2ca7d128e1bbb; 0x25511879eeaac7e4; 0x18773bdde825dc27; 0xe70d574d45e78e0; 0x1b32bbf91241c980; 0x620cb26c1ebac0dd; 0x1b2bb3bb0ec5c724; 0x5c6f402d6575fca8; 0x4efd1d3fb0dbcc04; 0x6f3d549d108bb2f4; 0x104305ded4ed3dfe; 0x6aa7ca3e4a3506be; 0x1a7f6402299ad101; 0x7756250f596fbb2; 0x57b80e568fb47417; 0x1b7f2758b1a1861a; 0x5a0cb09fa8e9fedc; 0x11fa78ade528e426; 0x280fa0e9af25822c; 0x247c2f1c146f4a38; 0x9ab94295c3776c3; 0x2b5c6a1e01bed7cf; 0x3e6dd9378ae152cc; 0x4bc4317de56154c1; 0xe15e2957ba6d26; 0x42d1d35e29f20dc3; 0xe853152bab5b942; 0xd4a6f7abaad05f1; 0x7ec9a9accc89eea1; 0x148d5cf307cb96f2; 0x710f1d1e9dc71ccd; 0x5fc186079fa06902; 0x23dfaffda2d4eded; 0x4ab1b15b54562a9; 0x290c88fc1bba3c0c; 0x4f2f1379176cab2; 0x7ee2e0bcc95a081d; 0x1ad34e01fe0f3af4; 0x1a78155ce01c13ec; 0x4d63e12eff74b38d; 0x2cd1fa3acdf307; 0x6be847f95f52e6af; 0x6abff95cc29622ac; 0x21c5b9fc3c19fc80; 0x219c19d19ba77cd2; 0xaaf9dc55c52a353; 0x41f98cbf7f19bea7; 0x1490a1297e7648b9; 0x410a9c45dc44d20b; 0x681862b94a1ce012; 0x4631661956d6c917; 0x407cb5671792f991; 0x175aabcb3bcff5c2; 0x56560de08a2250b6; 0x19eb660796d7cb2d; 0x356ac7d22192314; 0x6878ed0bf22f8f91; 0x738213a85254d531; 0x7023f80343a57745; 0x79c6abc58bc55fe7; 0x32193632d7c0f76c; 0x50eda0c2f3982d87; 0x71bf40ee9dcb87b1; 0x25b0e5c3634e911f; 0xdd1c2b1962df417; 0x5abe8c9897c506f6; 0x4b50f17ae4242548; 0xb16c08562a20c24; 0x714335bc96ab96f8; 0x332eb3289f4fc92d; 0x112e1a7eeed1fee0; 0x536496f62174bfba; 0x110842d7df5ef375; 0x599517f62bc7577; 0x5b3d7b52fc62d903; 0x1aec93ab9bc10d9; 0x2f3243e2f0cc708b; 0x5779e6722935d34a; 0x15eb5352883a20a9; 0x3b1fd0c74d90fdaf; 0x3ebcd8ea6bcd22c7; 0x216f102b95cfbc29; 0x432c279c686ec4c1; 0x1afdd86d48460623; 0x5aacbb63c81eefce; 0x54a2ccf0f40f7bbf; 0x58dd5bde28aef8de; 0x35d3e7664d8cbeb0; 0x3214557486894a0d; 0x5d2d8aa03b172110; 0x312d007127e37524; 0x2a827f6c8fc4e621; 0x7b24c6dab2f75081; 0x51c2a175bfa9bf7; 0x415959cc1a0a5287; 0x360e097cdf988719; 0x52956f79c76c4f28; 0xddb18d6f30ce3bb; 0x510266d11c0001d8; 0x42e3a4f84393f1db; 0x56036bb237d81615; 0x552a776b0321974c; 0x4de39c6af65f29d1; 0x6f35dcdff122f3a0; 0x6ec3210eda5c092a; 0x1af2258056442010; 0x2ad153a6e9371105; 0x5e3699bcfcd2113; 0x3ec97dfd0087ee98; 0x55efadc0fedbee9; 0x1e57c281d411075e; 0x53ee49d1e3acad96; 0x8a4d8877c0b611; 0x2e6153ba82892e56; 0x339a0d3329ef3df3; 0x414f5882d240542b; 0x28453ed28c4ad016; 0x468e09354717837c; 0x24047cbb3189374d; 0x4d0dfbe9ce26c517; 0x5e8504a507bb5a69; 0x4e1560bc5f7c95f; 0xa7d0c57b2635cd7; 0x54f58e44dca60e50; 0x5fdc5bece763756; 0x23f5b2589cfe39d3; 0x5495d17289c55d4c; 0x3df46823fba0f99d; 0x76dfa7367c8305ee; 0x75b8369002288daa; 0xabf639c8d905ad2; 0x39169c9876e76d92; 0x21eaf905e1b5d440; 0xbcac14ce09435e0; 0x44762b02cdbdedda; 0x76edc468baf3046c; 0x6bd91a00c915ae10; 0x4fdb375b7c7d6eb7; 0x13319aac30a59e19; 0x1c722184c2482cda; 0x150cedaf11aaa096; 0x6b886192671bbd68; 0x2cf3ad6d19249bb9; 0xa457591a7fee0b4; 0x2c3fadf15fef35cd; 0x1788d31e25526b06; 0x1af49622ec9423f1; 0x4ca773c158ef7e9e; 0x79907563057bc1c8; 0x1f45785222d7ead7; 0x271047279dd85302; 0x50b5fb55e2b06a25; 0x4c2007a35b32859; 0x2d2e6fc8c9066c55; 0x70cc304358371048; 0x68f355f8cfcf4706; 0x5db279b550250d32; 0x5a0fa1024cbb54a4; 0x53672bf206c4171; 0x6c7ae1cb137f850c; 0x6eba9a18d2bf80bc; 0x56ecff5386dee51; 0xa1e1e6ddb0f92fe];
   [0x32b59b66d35ef27a; 0x597ad95fa4132b9a; 0x1792797263cd2c56; 0xc1b6ee494cc4378; 0x357219d02eb6239b; 0x17c2ea8d57325cf9; 0xe0905e136853774; 0x4c49b48f58691b4a; 0x24861c94f372e8ba; 0x192c41ebba69d0d2; 0x58801c6f957f62d4; 0x16d91547c66271c1; 0xcd4c64388c7499d; 0x30e41209d8459001; 0x11ed23ee7ea2b325; 0x4787b8f15cb2d3ef; 0x5f3d90438377780b; 0x60035020b3d78f8a; 0xbf9d0d13e036c9a; 0x176b9a7031023efc; 0x209213707d2722ba; 0x368fb888dcb0ccfc; 0x7af58270af4eb55; 0x677fb09c70fb6242; 0x6456623c46b2eb01; 0x7e46044a323f569; 0x710316c616862f32; 0x7f8e50ccc7ca9a18; 0x3939407a7c773283; 0x2e4483ac145a4a33; 0x272c12f6d90a68eb; 0x7d3a1eb9be5df279; 0x6a812cdbbb8a7415; 0x40bc630fd8193b1b; 0x34ca949586b017d2; 0x74c6d304911bb094; 0x479f5090fd94bc06; 0x29ad073a71bd8bc8; 0x234862902cff44a9; 0x793f249d122f2dc8; 0x559b0566e369318f; 0x5688b58e0218f5f6; 0x14cc893e27cff6ed; 0x77628d2ab11849f2; 0x7a9f3e11d09fc82a; 0x778912c376cc4dca; 0x115d2b22496836c4; 0x6b393ab447232c31; 0x388f384e64ae2bb0; 0x7b63b36cfbb4f723; 0x71b40cb81bc0d502; 0x545acf67f391dee3; 0x5c56ff31a05230f; 0x436e30ef96c5d17d; 0x68f727879e4ccb67; 0x11605400536e4291; 0x3be5b324db3638f1; 0x1d8234256dc465ab; 0x7c69513cc01ee72d; 0x1e00e4284aaa72d2; 0x6a88bbd29bf3cf09; 0x324a87157a9c6d10; 0x15741b71340098ce; 0x2a4f62cb0c7a2ddd; 0x384325a17d0ec7b0; 0x419bf120e7f037b6; 0x7567bc6995b9f6d5; 0x64c33a450a04444e; 0x2069767ae91443b5; 0x2faa8272982f2fd6; 0x576c393912815529; 0x217642bf5e0fc2e4; 0x3c0d4c41dc9d6870; 0x7fcf127ded95d3fd; 0x7d25ae5662d1a310; 0x3af4f5449d1eadaf; 0x53b6c2092a821e77; 0x135342917795cf48; 0x44e5923dbd912784; 0x3cbe6b8a163a97d8; 0x4b269aaa388d528c; 0x3e1e151d4264757c; 0x1ae8744eb822657b; 0x1f55b5d30197dda6; 0x18e8ff318f50a1d2; 0x39d7be8819b6e874; 0x4c207ce4325a877; 0x1be8f440ac2039fa; 0x67371315ba4d5a12; 0x237bdc1096d73a99; 0x178e5c71f11100a3; 0x5c7a3410fe812b92; 0x15b5997b804d225c; 0x7aaaae4b7bdb5782; 0x8aea0fb14e86211; 0x6611d14b60cc4b72; 0x73c2a7d76ac733d; 0x523dfaf6d1975c5a; 0x6ee29470b0e35c3f; 0x70506a6f59749fb6; 0x7d500074ec15bf3d; 0x224b9f7734c3d8bf; 0x2605d89c0f36c9e1; 0x6fccb770d38b6b21; 0x199405e6d6a84bda; 0x5ab0365dc8b13866; 0x3a00cf33524f10f1; 0x3ff4dc5da0aef44a; 0x1929b5a4ed1cc491; 0x5baad9eb41a94df0; 0x34e4c9fbdecdfdf7; 0x5a4a24ba96bcc69a; 0x13621d80c8277eaf; 0x233f8c7caa77ae5e; 0x63bc45e782433dc3; 0x6e41485062657f5; 0x1c52d2d14422aeb2; 0x1048c52dd2fef8d; 0x6538ff4c878ede7a; 0x5a6d2a0ac8dacbdf; 0x79749ec73af4c679; 0x766cc595ea2a844b; 0x34330d511d88168d; 0x6e62781f364a7e71; 0x6c711225252724e8; 0x25867cf5d3e36977; 0x69654a01bde3b217; 0x4c40965928b9c9e; 0x5f22e6cef875bfd0; 0x26f88659c3318fbb; 0x3ff75426adf3d373; 0x1365caa6f74e42bf; 0x3964615a3a7e4444; 0x5e394dbe749d2b2f; 0x325a9947b32b8854; 0x46ed82474dfbaac1; 0x640198b842746738; 0x6657a596fd3e8e32; 0x2ff1ee02a2c4546b; 0x5e7f72966bb8666d; 0x30922d452394453d; 0x20afc05c56d124e9; 0x35b83d42aa080ff6; 0x3bb3dc2db9ee9f45; 0x1ba855d8a16b2f14; 0x438f5b04c16235a9; 0x22438feee0895ba2; 0x58e5d68086f447db; 0xb1c7eeb6ffe2f33; 0x68c67b5227e3a032; 0xd0da1a709e0eb89; 0x7a10a0f09977082c; 0x35277ad13a85f83f; 0x914b05246e8f87a; 0x4f272f8251106e8; 0x6d0dfd56c7aa6056; 0x6760218150dc0f81; 0x4da41502a7dfab0d; 0x5a0ef8d85e8cde44; 0x68828f4bc9f0e82; 0x1121e5375fda3162; 0x1b1535297557086d; 0x6c933b14331cd33a; 0x2379dd0c598a997b; 0x6225b59925907a9; 0x4b9f05d86da8512a; 0x3c9f66cfbac12cba; 0x2a0a21f660b168eb; 0x105482fdc48f66a8; 0x3ed7819d50f17efb; 0x3dfbbb2da036ac54; 0x3caf060d6dcd4a0a; 0xc592efa5997094a; 0x3746fc5dc4a870ff; 0x2da9133487a0b6fd; 0x43f52a1edab2f1c5; 0x5742b0c230fb74df; 0x5f510d58fb0dcdd9; 0xac940f17d9b828; 0x1e834c9e7e48130e; 0x5445d25680ed1056; 0x69c7da43943490cd; 0x2d531aa46f17c2f2; 0x85911d96c820ce1; 0x3c68b6a2cbb37e61; 0x62e2c38e90d12514; 0x4b153b55dc121abf; 0x79063d3d3e52482; 0x3067bc84b33ad2da; 0x100f62f1a69885a8; 0x4a14bed72b14d076; 0x5b3b067bdaa87921; 0x5131c2858cf7aeef; 0xa0ea6bf5969ebb6; 0x399d9d4c23606050; 0x3e985c7ab59df996; 0x75c0f0db3ab033e9; 0x647444b7f8caa760; 0x419905c97371a541; 0x10fb1aecea1127; 0x7707294bfabdbac6; 0x2bb8a3d71db54063; 0x164342bf3c766952; 0x22aec52471ee3e91; 0x7c12eda2c284acf0; 0x5626d279515d7459; 0x30d26bbc54187da2; 0x490540dd27e45846; 0x3b7ab90204ac06ee; 0x5b45c1fb82c9f684; 0x7b92c80038d37610; 0x35ff92b3f81f0cd5; 0x424ae49b1d2f395a; 0x446a83c3bcb5f8bd; 0x5cc75c3df52a3237; 0x2cd45d3e3af11ef; 0x2691c00ae76234d0; 0xf5ea68c8afd18c1; 0x699d68cac59d476a; 0x2ef27ac6113f2618; 0x8841f8f6b47d349; 0x362c92fb8e52128b; 0x7cb2156d4b7c623; 0x5f86691fdfc9e4ee; 0xf70f392b2a8cc7c; 0x320a1eb1ed9b5ea1; 0x218455943521b695; 0x66feb0400e92e8bb; 0x5ddf0a0546b0f9a5; 0x509e70ad2f0edc0d; 0x1a2fa8a5822e6489; 0x3622686d5f1a15a4; 0x2439a759c8c882bc; 0x2edf751841b7c51d; 0x7d4236711ad256b0; 0x70d01b0539fae843; 0x25adc036053417fd; 0x6b8e09578fc4ad06; 0x1f792dd1e0a2bdc4; 0x34823909798bada2; 0x2371c09290938608; 0x124789292224eefa; 0x9563f0e86c00c56; 0x6bcee8aba83575d3; 0x29a6f33114d1d4fa; 0x66228b423553b030; 0x27cf31e3e3b48230; 0x2f1a007e9a46ec69; 0x3ed8c6c0a9b5c1f0; 0x449a87f94a1c2a83; 0x38d064feb534971; 0x223906a989d9f71e; 0x7e3948ca23afb665; 0x33ed32fd7e8c8094; 0x5ccdae9fd3dd649a; 0x5e22f7eb4888f5bd; 0x3f14c81ea9e14334; 0x1562a05fac99a354; 0x1a750c12d321e0f7; 0x4bff485fb457ebbe; 0x36e217b2e689075; 0x60b6aac803a2d7aa; 0x7ef2d517fb9de7ad; 0x1f7d8346085fb815; 0x3748e441341820f4; 0x42977df00a1e303c; 0x3e3b2dc550c806f3; 0x18f104f6df955af9; 0x4be16501d2747a69; 0x6e97dae314c327bb; 0x5a3677132b216c87; 0x7ab746bd45d89918; 0x8d629cb4d262667; 0x1385ff4320eb9862; 0x2ed03ecdd99973d8; 0x2b4aec09cbab7e7f; 0x458005a0c528aefc; 0x54e614d462ef37a; 0x5b0e7c2f4c2ef2ab; 0x465488b7b24d4742; 0x4da274067e80925e; 0x311443fe3a117871; 0x204d9167f0f5a655; 0x7663b1847d5b4dfa; 0x6e210caa467dbe0c; 0x285a8100b3e61693; 0x66cde1903886f8ad; 0x2745d741cea11ae8; 0xa9d042f420795b8; 0x1bcf8ea248fcee9f; 0x6a3c53a00bb3d883; 0x76df47f96745a973; 0x4584dd8a20a7a52d; 0x99d33f47a5542c7; 0x340147fe186603bc; 0x7bf31ecf0929fc20; 0x712baa998b524a2a; 0x3063ce2ad6a7bcaf; 0x7d0d8084cfda65; 0x6d7a615e961faaac; 0x49c0668a26e8817b; 0x64ff5cc15c015164; 0x2d3e11bd6c9f6b4b; 0x24b8ecb92e543c15; 0x3a1fbb3a470616cb; 0x33c3a053fd8e7777; 0x7c4a91ffa16f4079; 0x7b8ddf9775ae1751; 0x457520e33776aedf; 0x3196d0f6adbc95a3; 0x4712b5814276d897; 0x247a6a1e1593bba0; 0xa3e688006f78f86; 0xda15b3b8171af9; 0xc4d9041bbfda101; 0x73488bbd6c135458; 0x74ce8578fb12e67];
   [0x10d5f070c9944d65; 0x384460421ab13b45; 0x7f0c9f82c7fa875f; 0x78d95d868c198827; 0x205bd0ddb3a0a471; 0x2c125457bd80c4ac; 0x43cc83ece71b0265; 0x271947e51d4dc4e3; 0x4e14ebaffa8fd67b; 0x89672e96b3e5aaa; 0x7d1578956dae4910; 0x3f1c190a1e1882fd; 0x4389b5f3d9c3b8e9; 0x55b8916879b9a444; 0x239204ef5180258f; 0x1337c5336534dd72; 0x7eaf570751277d39; 0x6e0614330475ef55; 0x382d1a43359e9afa; 0x19f67ebc11b456cd; 0x1789dd8cbeced982; 0x22dd8491358b11df; 0x20836921c52b392f; 0x72d2e22c21e0a600; 0x6af84f8fa5ea16c1; 0x3bc1842fef94abc1; 0x58e39bfbfaa8734d; 0x4f11c096c30f484f; 0x748efa2152ae1533; 0x33fcc4fa69ad8cc1; 0x32ebcc7980ec5368; 0x13933b7f634471d1; 0x62584b15ff333d7a; 0x78730aa1965376bb; 0x78265ab820ceef15; 0x2d443f27165615ca; 0x2b3e875a801870d8; 0x1e22b51c6a1c5dcb; 0x8ddb7d0da891627; 0x7398038a129f7278; 0x61367debac6401b2; 0x3855812f3bf422a4; 0x380a2b5e578d77a; 0x1dd1acca5d660027; 0x6dc8d71e4da8022e; 0x6a92ad3bfbc26312; 0x4c89e34ea139c8d1; 0x7ca84c727ac21b2f; 0x42d0a1e15bfd0987; 0x6e73848edd0691df; 0x297ede79ab6cabe1; 0x7b11cbe74bd02b6; 0x567a67bac23807c; 0x5afded8f12fb8118; 0x75cb2a2727ee62d6; 0x45958fb130ea4c36; 0x67c44a5da12da520; 0x2ac636e805629208; 0x577681600347782; 0x3a2767b867f43a40; 0x22aafbbeb4924775; 0x23ae2e61dbab83b7; 0x24ce1ae304e0cacd; 0x3ab7d17377cabccd; 0x7d5cf16df65e6266; 0x723e3530616785af; 0x107c3d1e3b33f382; 0x7a0d0a5f15740272; 0x68e9c7cf0d8d421a; 0x68a537d09f0aa4ec; 0x7d9bba3fa17bb9d3; 0x24dbcf12295edb9a; 0x55322fb17221900; 0x5be58b06d86a28c9; 0x7ddd0fa69476b4fa; 0x4418ec6bcd41db32; 0x391009a7840725ed; 0x504ceceb044e527; 0x66797443d89812cc; 0x3a2582db0b05d639; 0x9e0d078b3e9c0ba; 0x1ecbcc7544562692; 0x38f48d95ebd54bb5; 0x2aada24953111728; 0x64e577f1fa7722b1; 0x65cc88c3d72f1827; 0x2dfaf30830a6b572; 0x6747be791efc02c4; 0x7af0107f0ae500ad; 0x66fb791a7403c3a; 0x5a4e347051facf66; 0x761c059ede2ee2c2; 0x43e07884747d48a; 0x2bbc1ee60013fbf4; 0x5cdc4324fdd6c249; 0x2563e85b5e27455f; 0xaa15bcf707aca7e; 0xcf93bb15ba2df7d; 0x5525cd7143d5c488; 0x5d8678d78d6b2414; 0x4dbdfca50a186f6b; 0x328ccf2c858e15e6; 0x5c676b5d1a4fbb9b; 0x1c0b0fe69f47d3b3; 0x5f7e8210b3a4b7e3; 0x7abfec5cfc5961a8; 0x10e0073bbad0098e; 0x46d7c375d19abfa7; 0x3d4dce787ddc5baa; 0x41f3c7965660228; 0x41da48833924bc72; 0x1eb54da256354b72; 0x34d93a945c86b3d4; 0x351f789b6e33f3e9; 0x15b2c13593605675; 0x20e9d72bb4566643; 0x2c9473b56d1c115c; 0x414c815f0f8d2514; 0x9ca022ceaa4795d; 0x153e7197860bdad5; 0x71430aa47952293b; 0x533c5d571aba7ca0; 0x4555e805d910ffc0; 0x5a249ba1801ca830; 0x2323f293bba2c849; 0x21e2760f6526e365; 0x5a0ed3fa60835f7b; 0x7137af2e08e4afb7; 0x23c9aa89288f9063; 0x4284cf6a6641cf2b; 0x1c6f77583e08170c; 0x89dec3b65fae868; 0x329d014108da5c2f; 0x66effee04867d216; 0x3eb18967f0e1ff7d; 0x235f51961eb2526c; 0x16b0b3fd9d382369; 0x6390e73e2a49efc4; 0x1e62a622e2114654; 0x2a1a331ba74627d0; 0x415b10e40941999e; 0x76e1d238a7803156; 0x7266fb1eda34c778; 0x41f7c666a547753b; 0x5f880d2970a0f4b8; 0x2bb822928afc94a0; 0x4c8e80743d9bde17; 0x398184dcc1d013a1; 0x54b71bbd41e05d76; 0x12d0552f33dc0c83; 0x39c02484ad18ce2b; 0x7985bb51a4a8a8b9; 0x56310a68997c86eb; 0x66d1e7b6942a3915; 0x7d8dcc31219bb4f9; 0x7cacb31d6f8b934b; 0x27e6fb5d0a5f56a9; 0x74a31720714e6bf8; 0x5dd08de3f3a52e3f; 0x10f34e008fbc594; 0x5db74fbbd2f5909c; 0x5b21b2e37730b622; 0x443804d5780966fd; 0x1f6ed69ee3cd10d9; 0x4cb5c5c319123800; 0x3c4e57b3d260a05a; 0xffc0d4ce236fb2f; 0x335fd4cb0d28f9eb; 0x7edf29713795dc4e; 0x547b1a27b6eda508; 0x64aa3ca1393da915; 0x375f1c65e53995e3; 0x2b492f53f7be8fc1; 0x4f9819ab1bfccae0; 0x2fa6d3e7f6aed7c4; 0xd34d0b548f5489c; 0x26d705cebd46b32f; 0x37c084651d059626; 0x33034e78bda6c2e0; 0x27a975133a82b8f4; 0x44d4999056d04319; 0x1b3d47a9617312f6; 0x5f098f9f5e083089; 0x2d9ea39c5e726905; 0x2a7585c6cdb48b0d; 0x6639cd6c09cd13b9; 0x345a4ce4e7456402; 0x10942dc29397362c; 0x473079fd338208cb; 0x3e3112fa4b176106; 0x7265dcb472090040; 0x58751eee24429487; 0x6b0536b6e33796e2; 0x487649e85414afd3; 0x4828087758a41b70; 0x735c070b965befb5; 0x31724154e94ddbf7; 0x506ae4d0d8d0171c; 0x28c5c9cb6a0f2f1b; 0x47279f0287454819; 0x20df96a49d765cf9; 0xe5d54d0f92e34e0; 0x2376431fa4ec93b8; 0x39e05b42df2a44f6; 0x184ab4f581682dcb; 0x6093a319f410f564; 0x4ef6d8eca4402694; 0x7b8cfc94d4a7b46d; 0xdce32476fb95d8c; 0x690f530f051be721; 0x76f96b098f49c83e; 0x561b07f6a118e5e3; 0x1bb2971c44a909c4; 0x745a8d04a1fb659f; 0x54b1277c477481e3; 0x4391d9a9d3bc3389; 0x5021dd0ea3be9974; 0x60bfa387b866d048; 0x541475b4a7bc41d7; 0x6f67ab1fd186f817; 0x58580855053327b9; 0x4b25e4178aa10947; 0x3d985ba21a057850; 0x64d9c071ee429703; 0x55ff7e3e9fd17ec1; 0x784e581cede84765; 0x72e0136902716431; 0x5897048f7cada12d; 0x4db5d1a16497ab3b; 0x4e192a6716853603; 0x566392b6a6269413; 0xb209a9ab554114f; 0x420d6c012b44d6a4; 0xc0c18d8e0120f55; 0x7b0b65bd945a170c; 0x2971c87cf74c2e65; 0x34dfe7bb4676b304; 0x36305707f26be19a; 0x152976a37681e425; 0x461778e52f287c17; 0x5923cf4a0736a882; 0x1b926b5a8fa1c318; 0x7fbd72db50c1883a; 0x68a1b418e10ae331; 0x2d1273a9ca2ebcc2; 0x14f78b07df53cc8c; 0x5acf6e9dec8a4c9e; 0x4a6f5165eebdefb1; 0x2a68974cd0eab54b; 0x92453729509eede; 0x2d4a22f0ddaad6aa; 0x281a7b441f875863; 0x4b53c8484af04904; 0x234f2b6cf6911598; 0xe603c338a3bc33d; 0x4cd7b21534ed7580; 0x36440353bdf94814; 0x799523158bfb1bf9; 0x524591db153e9713; 0x239556351928ae2; 0x1c19d79707fc9a63; 0x360f95b7d3317582; 0xc45065dc3dafe3a; 0x33fc55d7549415a1; 0x6887e43e1cd23e0a; 0x6ba5c89f99a28110; 0x28ae558eb31a613; 0x8333fc36fa39d5c; 0x75028c755bcbbac8; 0x400e0125d50a84c1; 0x79558083ca1e439b; 0x6dd6d5c3dbbcef2c; 0x5d496e8e71c321ec; 0x6003784ed8def3cb; 0x256b1fed6a8cb8d1; 0x6704bb391b7c83a6; 0x6c9e83e56a1c4281; 0x6de818ce133bec6c; 0x1171c33aff2ec676; 0x67c55f27d051b4ba; 0x7754eba6d187250d; 0x3f910b1776d3b107; 0x3715dfddefa2690f; 0x9e12b7acac3528e; 0x6cb47cc38fc98bd0; 0x1026952dd4711517; 0x6d528d22ab7ce5db; 0x33d01fa50e8c9822; 0x1210fd035c32955a; 0xc6bab278a35ea0b; 0x103c005ea2a0fc61; 0x39868af439b4fa77; 0x143f9cab8696e332; 0x12e4297c92a23724; 0x4a9b58efe52b0c39; 0x42e8bd9fb4541409; 0x6cf6d01576769feb; 0x7e4a86dd15b08860; 0x25b32e52d32264f7; 0x7beefef2a8e2a8ba; 0x32a7faa1e73aeade; 0x3ce66de11081ea29; 0x758820554bb1541c; 0x1d166580984acdaa; 0x28b887c56a4bd49d; 0xc14062f01b34c8d; 0x27fc77b44733e890; 0x409ef327346b23b; 0x42299789b2b231a9; 0x7db21a45857250c7; 0x7bee7d951525f1ce; 0x4822a9dcc46c5541; 0x3d5835787019cc49; 0x14a3e5eebad1afc6; 0x728ad79d546db8d7; 0x443eebf56a36366e; 0x68c3b96ad6d1f49];
   [0x4bb9722377108306; 0x4578f5e5d3a6da42; 0x5f7fc11d002d4a75; 0x1d3156b8e1165d79; 0x2201d4665da95d5a; 0x72c7197db2b16c28; 0x5415fbdd323ccb67; 0x60e44409957f9f70; 0x10fb7bb1994617ea; 0x6051d8c1aae0703b; 0x726f16a9b65e4ed6; 0x1f1fa04c755e5fd7; 0x14b00e02deffeb94; 0x14fc842c14dc3c88; 0x4ba7117419ea2890; 0x60b2d74c91c318c6; 0x6a8b8151aec36189; 0x21d7538daf685e7e; 0x68229c35f10ab1c4; 0x1a589fc0ec439a83; 0x28b8312daea9f078; 0x63363b4ccf24eb7f; 0x7150a1a9e4788c2a; 0x6c7d031e87a044e3; 0x375314ac5587caab; 0x7af539dd10399f5a; 0x58ad93ea602159eb; 0x3f5b52bded0bc3f1; 0x6340f50e95973520; 0x2727304e437147ae; 0xe25830f5fd4519a; 0x15702f9225e5cc45; 0x415e279886149f0f; 0x3d34886c039cdfad; 0x2a0f3daa8c3fa1f4; 0x4c013acbab5f0385; 0x111dc9ff8b8f72e1; 0xa39bda711fac9fa; 0x63c581bb7dd44594; 0xc506f018c47c37b; 0x55b98db5501afd24; 0x6f24b8fc4a75888c; 0x1fa2f0bb5bdfe3e1; 0x19ddbe9b6936da67; 0x45c81cd237246f2a; 0x1a8f6231cb9a88fa; 0x20f127077befefef; 0x59df840f672f814b; 0x45f4df1604d45e95; 0x40da719c124e33c7; 0x328dec533affa55d; 0x5e5158b5f3cbacd5; 0x39cb856f789f1a81; 0x408c291c17cb941b; 0x2159c0f49a40b8b4; 0x5fc089330f1d5c38; 0x1ee4b1b7682f9013; 0x289ad5b73239d159; 0x2dfd6afa697b219b; 0x1cf05c6556fc3475; 0x5cd4d732f05c33f; 0x643d7bb9204f7cdc; 0x5af2e60e800d6379; 0x6aecbbf566427f6d; 0x4e5c23bb6ec2f2d2; 0xeccf1c2f19713c2; 0x2a695accbb132952; 0x1a9107438e0510d7; 0x7dd9364a133ac74f; 0x1db8b071a7a1b5c4; 0x3f97419b2c564b9e; 0x9c23e36a9d2d170; 0x2e7ea83dc41cbd29; 0xfbe4bd2b0e7eb1d; 0x3b48c8784bb1fdc9; 0x2cdb6f543fb547bd; 0x56902b45677089d3; 0x72608a18be9c1de6; 0x3ae505795439036e; 0x46800b30dde2819; 0x47f4a6103e3110e4; 0x50a2d6678b53ec30; 0x57f47db1fcaf77ed; 0x78bce78d2231d80d; 0x70dda2e7e55124ac; 0x2124716566cc0381; 0x494ada0ce8edf3b6; 0x58cfcfde5fa1eb21; 0x3510163554f9cc94; 0x46309e0dee03a440; 0x61513d714add7806; 0x540258191ca56e66; 0x219b38a0ca6395a5; 0x51ccdcc532df3309; 0x173915c3554513d; 0x55d93d0a6540548f; 0x8621854f618607e; 0x4ee051ce0c9c8648; 0x16518dde347f4816; 0x71f1bf12d6b8312; 0x7c6ef4c09955fe45; 0x119bd5e873ffdd39; 0x51f63ee8e85a6a7e; 0x1d7a1ccfa743fd6f; 0x1d4976701efa315d; 0xcf7079cd46ca61c; 0x398e471f5c6fcbb2; 0x4a2bc2d53c02c5db; 0x12512159e95477c3; 0x5d4bfd2b7ab2a37b; 0x560bfe28c1aafabd; 0x739525feffbcd7bc; 0xeb8211cef6cd50b; 0x58a5569e76adb145; 0x2e4eba4e86817080; 0x458cb38c79a9435b; 0x44a37cdb78e42349; 0x136213b447bb0d7; 0x6205012a591ed798; 0x5ce4c43e30662f9; 0x7cd6b2a70d216d69; 0x2dd2fdc26ddb8ba7; 0x27f5afcfe8101730; 0x54fa1bc8b627ffeb; 0x3de248491cf4aa33; 0x41752fc6184d2c60; 0x15bade50b793ebb4; 0x2c92c72da9f8bc26; 0x65e147f032cda9f6; 0x32111dda488c4a6f; 0x3791d6575a645c46; 0x3bbcb03e860ae0bf; 0x6d62460c484ed2f7; 0x54880954e12a9770; 0x51e99d2ec2354ce2; 0x6c71b44269adada3; 0x7980932456c99ff4; 0x4a1861c47f6f1e37; 0x5c3cdd426adb9544; 0x570904c26dfcdb3b; 0x6b3b9a01e88c1faa; 0x7dcdd1e9a41ae59c; 0x2aec6015e746ef7e; 0x4779ac02f4d1ab06; 0x4d17a8f93d82382e; 0x51d39594b02462cb; 0x31de4d72064d6cc8; 0x595825a6823e08aa; 0x469827dc506b4adf; 0x18528984b2568b21; 0x2508452fd61b350c; 0x32e03400c6f0172c; 0x68f6cae204368bf6; 0x606a83d00078b9e6; 0x2f0303abc24ff8ac; 0x22117589f1667deb; 0x440ae1366011d8f5; 0x4fd8a85e9f113e17; 0xb96833ffd0392f6; 0x1b5cb3eae42e8f08; 0x7ecc64d093e401df; 0x1fa044b0f0065f9f; 0x6993e4d7e4ae5f94; 0x1b533bbc392dd538; 0x3a8481c799139b3f; 0xb59362f4d1e1e17; 0x375dab970117d1d9; 0x523a785216a652ca; 0x4f90b8f03e9297c; 0x129e1eb5be26a5d6; 0x17368615776e636b; 0x6ac949e261f65a08; 0x6e85e00858c7bab4; 0x75567173872142ea; 0x3df338f2bdd2292a; 0x3fa701aab63da6d; 0x661367b85e09fb83; 0x1cc6bdfddaf1eddd; 0x331252ce5b8a6aac; 0x1e93da00dfc01fb2; 0x11ba5aec6fa8b1b; 0x1d96a026a84e6c74; 0x26894911c2174fed; 0x3f1d482301bc7c15; 0x3b3dda1db449e5d7; 0x34a875a9d85a4369; 0x367b07379f5a7293; 0x31a7751c2bcb489; 0x6279d93c403269f8; 0x3092090ab819a07e; 0x60dc40702497bf9e; 0x203bd1bec68e2471; 0x252f66718f0fa93b; 0x62a9aac322fb7af9; 0x47447ce77f00ae42; 0x3428d5d908f1e518; 0x1d2dfe22c990f07a; 0x600be3780e47f9a1; 0x398fdb6a8884c907; 0x330e675882784c45; 0x37fe7ce93ef8b426; 0x7130fe60eca8dd5d; 0x2600ce3d6b7f6d2a; 0x6f1c9967c405cd7e; 0x4f98f8a57cdda9f4; 0x75b649921ac6746e; 0x4936c80f3bfaf694; 0x261cb71013d42110; 0x236d217e9565d971; 0x227e8ed6870cbc61; 0x312d0e89bd2a5c16; 0x347a25a383096a1b; 0x2d141844739e3bb7; 0x3deb4189fc7176d2; 0x51e1de7504280891; 0x1458642a5ee8695c; 0x610a0d983bba660f; 0x5706c9a4041bea92; 0x28837d6a0ae8aed1; 0x25ccec7c6edd9fbb; 0x4068032c5b331bfe; 0x6c8212b2b53e98e0; 0x28afed93f627ad10; 0x6c9a4f695967aaa4; 0x2a58b7a0bf8fea5b; 0x72acf95d10fe0aed; 0x189e454d2813a354; 0x3c3959aaf4e4786d; 0x238a61d67a7efdba; 0x64a4ba67caa9ef65; 0x6ada662133cae45c; 0x20b45b72af6ad45e; 0x6ae1b2e9bde76cc5; 0x7591f20b8cf46436; 0x12a983b9fd25354e; 0x6b383fd6f85b1396; 0x7a8abf895f5663c7; 0x72edfef082af03ec; 0x4abac8e9697b6518; 0x6097b1e38e1829c5; 0x2d6042334f30b6cd; 0x3778c45acbcc40f5; 0x1769d58ef599d96e; 0x29a94b4bd5a2941e; 0x21ecf8a36dd111a4; 0x18aa4a93da18f321; 0x17759ecf44efb293; 0x7afedc2be74b03b2; 0x7a800cf6357c4c60; 0xe6d0e630b2b9a4d; 0x5f999df618b3b11b; 0x6429c3eccb30666c; 0x57cf8f31dc28cf39; 0x37c0fb817048434a; 0xf436b683e35fcf; 0x758306ee9e23743c; 0x6663bfa68a516bf6; 0x40cef8650fb720fa; 0x11969d599738e771; 0x1c6a52bddfb53118; 0x11bc2a6656f5ba18; 0xd88219985881864; 0x7a74377703b28e62; 0x747887367f660520; 0x353d29f9485ff37f; 0x29e78646a9694401; 0x333580d4a744ee5b; 0x5b79030d91fa7ca6; 0x5bf17c682f9efafb; 0x70c83496e90065ac; 0xf25cb6be2fbc23a; 0xe7effd2a0364534; 0x20482ac6baef8950; 0x797a1dccfe477073; 0x1e9d848809395ef6; 0x48ad0932407d6d59; 0x45a6c1d76fe27482; 0x1016dffa934d6966; 0x69e8c40c6b012cdd; 0x1bb657dd633609e; 0x6fce35ced8880716; 0x6f70acf761dcede9; 0x661de31dce59befe; 0x7770c290afce1fba; 0x572ebc0b9f874063; 0x5340f84141c142; 0x25bc34d16c62d207; 0x76045fbe78e594ee; 0x5912a5345129bde7; 0x32dd1639bcd9ddad; 0x150982579c19003f; 0x63c1f6bb4101e057; 0x54856d8aa6940769; 0x10aa9eb2ae9c2e09; 0x577c5a5696b9520b; 0x45abd22b6ba9e494; 0x7dde5711a61676ff; 0x35bdd0fb95eb7260; 0x1705ac48def069d4; 0xf57df7f85fb7c6a; 0x60a6ac7092acd539; 0x4699b2fe15f3bc3c; 0x5f5489d110dcba28; 0x73d184df0e92c6fc; 0x7d21819ad80473fc; 0x36f55d3ae5e22b5; 0x7f6f93cca25bbadd; 0x79d46695cc913e3a; 0x1bd06c230ef41c73; 0x444c8f96bc3a7ecb; 0x43d4170728cd0572; 0x2365322fa8a6ac1d; 0x43857cd008a2df02; 0x3351ff97e98e6559; 0x1d5b9fa5e2a077e; 0x2f581ec01e8000cb; 0x6e71c77fd7a2a77];
   [0x2df58d19c45d84ad; 0x7ae1973f7fa6ac80; 0x105af03ad5f06f6d; 0x55661d52b31a9fb2; 0x153dfcfac724819e; 0x5afa1a2858272407; 0x4583bfd6008a9416; 0xa290d1566034dca; 0x1452d7cbb1bde9a1; 0x17317b722a235230; 0x603868040e117d63; 0x432e72efce7f3457; 0x24470331036837e2; 0x4b8cd5a99b728a09; 0x531cf005fa607617; 0x80612ab18f18a77; 0x55934b71559f584c; 0x21d65cae02937d46; 0x77c92927a17a95db; 0x3495d5a592c8be2a; 0x537b9cb3486baaa4; 0x2e559d8c5215c8b4; 0xb487a696113e068; 0x5c5af2e56c123c7; 0x5bd93b89cb4ab9d0; 0x3ce8446bc60e22d3; 0x2071bfc199be50fb; 0x12111266555ac337; 0x2cdbc0d48e29271d; 0x5818dd73637c86d7; 0x4261baf36d88be3a; 0x55d2ec078b7d2d8e; 0x50400e0ef0af2346; 0x190ab1185c3d2e61; 0x28de85636dda1fb1; 0x2b9dad1b32f498c3; 0x74b54998c8ae8cfd; 0x19b1676a62be4f89; 0x85decdd298878ec; 0x603bed55a567aa6; 0x49ab3d1889343452; 0x12573f30185f1e27; 0x6bc740d1de19f272; 0x6ba87d777f7710ca; 0x45c1ea644b5a4210; 0x53c377ad39778053; 0x52088f8e551ecc37; 0x5b87564938fd76a9; 0x18cec8b6e3272208; 0x2a27b988f0e2bdfc; 0x57cbbbabf8027d52; 0x63ec3f54f6c61ae5; 0x5753598a1e09833a; 0x780a10ce4ef5423a; 0x564640a5e67a54bd; 0x144f1f7bf6c1455e; 0x3e30bcc5e9d8c749; 0x715172c66fd9d1e5; 0x45a64edefcccf0e3; 0x2c7f80bc718a0fb2; 0x5ee5c529e4cbc56; 0x78e919a420b974f; 0x7f613ec234971262; 0x3f5d47fa79aace43; 0x128047cd5f2ad74c; 0x754aeab9409fcadc; 0x7eae3016064e3f12; 0x169d7c15161f3752; 0x1d0b87aca6eb5fff; 0x211ba1a4d472d4f3; 0x57de80ccb4e6354; 0x51a6dde7d4ce58c; 0x67b472141e239427; 0xdd2f0ddc0e807c7; 0x2d68f4ceaf0e6574; 0x4d386643b64bcddf; 0x61ce05ec692b3180; 0x583ed6b61b81de35; 0x43083ef58e183a88; 0xbff0a8d25b86a9e; 0x4a4b29d2f442e1e3; 0x2f10238f458369b8; 0x7b7bb9ccd874584a; 0x3cbce452d8b40a03; 0x7405b9a1a95c56ef; 0x4bbbaf92a72311c4; 0x5102493084475093; 0xbcea0261c291fec; 0x1b45a57d212d5406; 0x3258361fcc5bbe98; 0x627d92e949fbcf58; 0x606090a1b075afa0; 0x4f461c4695be31aa; 0x50594975ee05987b; 0x7206fa9790be45ce; 0x1dcc18a150ba53e7; 0x1f32c12964f53e99; 0x3c395e2129fbc6c3; 0x4ef5a6e161bc5a8a; 0x59db0ad479ba77c; 0xc2dafcca65161a4; 0x6b85595500c4313f; 0x614dd01d6288fb53; 0x2592ce47b1d02c11; 0x5577a5407902aca8; 0x2ba48150f60f1c55; 0x515c75cf8997a27e; 0x74b562715cc01be0; 0x4e7466f418cd009d; 0x7697bb348559de71; 0x53f53936eb15c27b; 0xf1f7072c29b7f6a; 0x6cd7e35f35e2a187; 0x588fe3bfe99ce86f; 0x1c57d92e3960694c; 0x2bc47b912115ae2b; 0x247aa12c24de5816; 0x3a12540844f69be4; 0x1aa2b1a1f62661f1; 0x1994a1462d81b60; 0x2090665ebefa5dea; 0x63a4315961feffbc; 0x5912f93a9b388bb5; 0x1cbe71b53e9539f4; 0x786e80c8b6e24cea; 0x7cac7d0f3d769d58; 0x66025668755cc6cf; 0x6057b07666ef3066; 0x53d5da1757ed0f84; 0x35ef52d4744e98e3; 0x174ffd1024eb3761; 0x417457e1c47e4208; 0x6d5e55d727e798e6; 0xc84da7d64f30b1f; 0x9a64a4653fb8a44; 0x64edcb200d726623; 0x15bc7e6c1a3f8d76; 0x5b78fecb6317613c; 0x1c49473969047017; 0x19dde6847d468486; 0x168c76739343352d; 0xef7c020ec4918b0; 0xcb0797c4e9ec31d; 0x565d928b67e5dac7; 0x71f01b28b9dcba24; 0xfb27fbdf2bba034; 0x177fb3dc563f883f; 0x49993974ae86897d; 0x4e884ceae88bca94; 0x7279ab6f4f36fb72; 0x7d3812c70093e358; 0x2d9066cc80cc3a2; 0x4daea44d58663943; 0x45a29c26f7adac8b; 0x784bf7c61da51071; 0x4db57428f602364f; 0x56da00b5fadd9f37; 0x7e127af714148c95; 0x427c50e02727d9c0; 0x695581256328bcf5; 0x77589379ec8f31f0; 0x3d3b7ab68c72b478; 0x4747b73498aee3b9; 0x468ee835e252ab8f; 0x127065b5b3e68589; 0x68d6542691804032; 0x47d25ac1f9be6cda; 0x390c27bd14ec3f63; 0x4a954e28c6e96417; 0x5c328d706aba3db7; 0x6cc6b6190f4b2209; 0x31a789458719425e; 0x70a414f2d5bbfa80; 0x469d87e56a9252ac; 0x93653b0dd9180b; 0x633f07c982ddffa8; 0x1afe733d0165282d; 0x780e41a81e55f864; 0x7bb8de76731a5af3; 0x6e208c8dc198a55f; 0x4d90c52707754230; 0x409e16b71bb4825c; 0x48ab433c5bf38ce; 0x7e39325b89e99360; 0x2243e0ca46cb5931; 0x7eb6a51d4ea51c11; 0x12de8b809fb0f67f; 0x51695dc4124d8430; 0x729cf4b9ffb0677d; 0x13dc9454a409a405; 0xdc1fd7ccd6adb91; 0x645f7166a51dfff8; 0x5299fcb6b4e18b6a; 0x763962bd45a979fc; 0x273c1f9b50584d6e; 0x537d8d234eff7281; 0x1558838b55104a15; 0x4b5833fde1da530c; 0x6d3995e864858683; 0x205cc9dfbd53f40; 0x71e8fe1735547099; 0xd0dff0a7535dce5; 0x4757ec61f0f03bb0; 0x3054fbb7cdd7ece7; 0x4f6a6624becbb238; 0x40d5ffe3c93003fa; 0x6f48d4150cb01f15; 0x4437ceaddef48d85; 0x8b6dfb8eacf14ba; 0x3aa98976fae39f0d; 0x4c198d893b68c2b8; 0x119f335c2e501644; 0x540ef590a4456b38; 0x4d01881a18e76751; 0x38b08dc488f92b04; 0x2e0dcbe4ff24fff6; 0x425b82a701680c2; 0x68d21620c83b0b52; 0x74be0049029ee143; 0x4533fe1c1764b709; 0x7640d4cd6506b059; 0x2ca484629eed649f; 0x6a1655e4e821a3da; 0x1e82580561adf32a; 0x3a3e6bcb66f5c0d2; 0x7c6d5a2a2419004b; 0xfe152b9bf11a1a5; 0x5a1dac82a9a6fecb; 0x3ed2d2f8ce6210b6; 0x4fcb81eefadd707c; 0x5444ea23d567ad0e; 0x7171ce407feda16f; 0x438dc28665289fa4; 0x583a0cfd860968cf; 0x22e04167d5f45372; 0x4a5b249ac5d419f; 0x3b3f72f5d71bd8ec; 0xaa723f7d4aebeba; 0x5f43a8da34099905; 0x38cb9b887c440f95; 0x1593aee505e60af6; 0x70475f9d6a14a32d; 0x4ac4541f9d9f69d2; 0x426ee82170ccbcba; 0x121e08a0b8507780; 0x3f2221eb2480d72d; 0x4ef67a6502c1fab5; 0x53ef17a4fc677207; 0x20766dc150f1aeb1; 0xbe80ffc3bd0c3c0; 0x4b0563a1cfe4fb33; 0xd2895a10bb8f61; 0x6610d81cbf1d0c41; 0x3b6c9b0c0e98a7c2; 0x7a47851f6fe149f; 0x3058009a0e6020f6; 0x42df04f23cc4cbb; 0x2acdee30bed67218; 0x13816d0f571b6703; 0x66284e2e5a97b302; 0x331c78193138f188; 0x5fabd634d1c67744; 0x6decd7a49fe09c9b; 0x1b89ab0114277721; 0x2e8b052fe9f2f168; 0x720f3a823d0ea176; 0x4ecd03057ad5e1ad; 0x565f2e1308371049; 0x6b57eb791e09ea82; 0x7698f7e237813dda; 0x64705aa54953160; 0x2a18c9e71d2df054; 0x652c0d0a951e9f2c; 0x2c5136066ae348b9; 0x5f0e11f7f6aba6b5; 0x259e00ea3de3734b; 0x1c1812633b2376f4; 0x26c74c7ce906ae92; 0x56ffd7d82293dd96; 0x75335d6ccdd5a3d6; 0x4697f522f99ef116; 0x6639b1ef62c0d81c; 0x58ce4df69fbf784; 0x226216b882b65b23; 0x73e793c3d887a646; 0x1e1b9c2b12ea6853; 0x47d31fee935abaee; 0x4d776ea949a7d3a; 0x6c0c3d02972e404a; 0x43a54413b676bec2; 0x3b7252833e6e9ec6; 0x3e7d52a8ed29ae3b; 0x4a35ec24f9f8d7fb; 0x334ad2d15f7ce6e1; 0x4981c7a24fe0d7e; 0x16be445a7f4cd72b; 0x312cc0c970db4892; 0x3d00b0421b957cdd; 0x5eded15adf91d631; 0x78f44aa8908ec310; 0x53903caa1d9ddfc2; 0x1c3180cd6f07f535; 0x7d013d7e8a1de91c; 0x387ebc3e8c6b485e; 0x28ce14226bbed223; 0x438483782b86ef2; 0xec7e87245f204ff; 0x5c1373307a5f47b1; 0x366ab02cee3fed76; 0x10cb86df9d72e2c2; 0x4607336689b631dc; 0x3d875376de9222e4; 0x665104c722446105; 0x5b7ec561eb021a40; 0x37e539c4e326688a; 0x50fbe31578e63b74; 0x54272c8e222808];
   [0x30b4fa6d88785f6e; 0x3210c64d167bba3d; 0x38f086ace4b79e5; 0x495131a97d9712c6; 0x7bed464a252688b4; 0x72710bcafc7a3e4a; 0x41f27f7788ad075c; 0x7ef09e207bbd4ad4; 0x79731249994cfc01; 0x4dc1fca254120783; 0x571b02dd9e3fe6ac; 0x2c3926c0ec8b3e48; 0x77658ea095a4d390; 0x562e4d1b5baddf56; 0x2bb52db107247363; 0x76d2b340f4782c34; 0x3615fc339bb73320; 0xd36919defadf713; 0x54739ec5657d8c87; 0x3af6a9523e944cc5; 0x1fc6e4cdd6195520; 0x58ece997bf9c9040; 0x870bf68482de541; 0x5dae2a3fda7b5041; 0x3db596b97e352d68; 0x6712af2cf716d942; 0x42700cae511efa42; 0x284b77bed482a62a; 0x496910d875ba98fc; 0x5fe16746b17473c2; 0x430beb450f7a8577; 0x43344fd599302a73; 0x36deb3ec13af318f; 0x7aea2635e029485a; 0x2bc91e432c38746c; 0x71a2b94debfd26c3; 0x6f5b000e0527cb04; 0x3ae7490c5fa61c4f; 0x8b6175af27b161e; 0x3c0386a68d5b5689; 0x4010272111c30b88; 0x75b3a4d20b37e2e4; 0x4e349a7178768803; 0xd6cc502034e63ae; 0x420c6b675131397e; 0x5f5e06f84fcf1412; 0x624aaada0dbdab7e; 0x2fd7baa4af476083; 0x2da34b8b4b43f1b7; 0x3b123767d5ca3066; 0x23f827b6994c5245; 0x300343797893c103; 0x31ec18b02691167f; 0x424b1c92a52174c3; 0x6559a2b177634310; 0x5ec3f3557afa0356; 0x6a079ed76600346e; 0x432eec68ce471ba6; 0x3629362bf1a181e6; 0x36828a5ebc7b77ad; 0x5a39f68fda9f63da; 0x5590dbed0627bb86; 0x454cd16ab370b489; 0x3daae5a832a082d3; 0x1907df120d2bc425; 0x2e7ffe582b2518da; 0x44e10bf37d97847b; 0x722223df305712e5; 0xeb04d5dd5420a80; 0x4f498e4e623251ef; 0x5a850e97a9944b4a; 0x519619d6cae57e35; 0x1f54ec1d704aad23; 0x6b6e2e2918f03510; 0x1fd5a915e4acb3e8; 0x3ebbe9b70923b7ae; 0x7f9026fbd9a679d0; 0x5366027a30ce934; 0x7ad251b4a9a09134; 0x56797be5e14ec222; 0x3a1c86b2abff1c26; 0xb3b36b3ac247efa; 0x472ac957e1e4e5b8; 0x1a486c46237b253a; 0x1e523d174ac98e60; 0x2e02e9d228f25963; 0x97858111aaef876; 0x6cf52bc188362f8b; 0x71a814ee02576c04; 0x228af068c3291421; 0x2327878dceba1eb7; 0x44892506a32b5e38; 0x657c224f53640ba4; 0x174f516e891c136f; 0x646bbda98e3a8f0b; 0x28a2274d12b77a08; 0x75bfac7a25f4c23d; 0x2f848708b94fecea; 0x419da51535507844; 0x29b854eaa6865328; 0x3f01340242b37e5b; 0x60bb2075c6dd664d; 0x102478664efb676f; 0x59c3799e9c3e64b8; 0x2868eb469a2bdaa3; 0x72d2f21decb7c901; 0x6b1bc0343709638c; 0x6101c36b8c2d49f9; 0x5bee12fd56410f56; 0x7d68498643d2506e; 0x36d82a6f01ee7c53; 0x4db506329b0235b; 0x606a2e3564568555; 0x58af2dda87752510; 0x35462900034d461a; 0x5c7bd2fffa18b17c; 0x5952720f00e129f3; 0x4cd4d81ba76342dc; 0x592f15fa41bab80c; 0x79e17b4a457e49e0; 0x607899e1811a23b2; 0x4ec97a6d5dd77963; 0x3b6617ab868e233; 0x692b97adaf4624cf; 0x419d942e0c6687a6; 0x410d3c8e83f0951a; 0x468b2739fd1c92b8; 0x229b138409bdb074; 0x574d2fd613d59e74; 0x59610d43d538f6ce; 0x5ff3147a758a18fe; 0x47cd909d51434dec; 0x18fda43c27d9e5bb; 0x3b2f7dc18405e27b; 0x5c6c9995d41e8353; 0x2d113495b1714cda; 0x373b3cf9ff9b9c38; 0x49b1eccc1b8adb7c; 0x417f5c33965b3ac7; 0x13135c38632e2571; 0x5e861d479b68c6a2; 0x20c1c1e55d902d2a; 0x62887d7156e5cb1f; 0x5e8bb8afa6a57339; 0x7adb05b2eb3268ad; 0x6772b5b1d2a0b564; 0x1510fb2287a3e96d; 0x74e7c8e094152995; 0x6b6e2e738ee37628; 0x3922768d4f307554; 0x12250b8e50dcd12a; 0x23665d7b202ddd4e; 0x2dbcfc1f8020c163; 0x2fccabf9db6460b2; 0x6415617e9d648638; 0x2708086ed359c055; 0x4b022f851bd889ff; 0x3448ba04231a75b8; 0x466128226eaf66c4; 0x25e797ba618f5049; 0x186a53e58ed97561; 0x5ed34fc4692a3f3b; 0x4f014572902caaad; 0x513f238cd1c01f5d; 0x44d9705a552fcfb5; 0x7fdc3c7a557ead5d; 0x12e6f7962fafb2f6; 0x22bab3bda2b5c255; 0x54f593f2bd3b525c; 0x7e1fbdb237866f8; 0x7ecc1e5955d10a55; 0x22e7a1d140757e1a; 0x1b928c93fd4d827a; 0x70a478304819533e; 0x4dfc8a398c65eda9; 0x630796c44e418b2f; 0x3a3733ec82934ff0; 0x2d9c8aef6d71f5a; 0x7ece42d45a56594d; 0x3e440dbb4f8877f6; 0x8f8a24aad1371f8; 0x37b8d506596b0f02; 0x62481ec87ef66038; 0x51fa6bbfe0db8ac8; 0x30c942316ef8bc05; 0x710df3c63a3a917f; 0x699bf73723713c40; 0x554d943579954674; 0x98cc9071c7e88c0; 0x4e4ef70acd3d076a; 0x78f46d558554b3b1; 0x6551f0a0fdbe9a7c; 0x6664a60ac391e3af; 0xf9b1fe2ec9c91dc; 0x7684b7657ce3ef5e; 0x1101b8123e913f27; 0x28a3ddf75c50fca6; 0x3f73812521e87d6e; 0x56604866837fd809; 0x5554ba49a83bf6d3; 0x501d797e16812f15; 0x1f9174bab7d12c53; 0x54d77e3ec1ae46f4; 0x18e8c56eb63344d5; 0x8bb2589d05c54ac; 0x3b15053eceb30a3c; 0x4a1422c2ae834fa1; 0x180238e23eebbd04; 0x2e4fd4ab6aa50ecb; 0x1cfdf81ef16f76d1; 0x4f4ccd4ed89ce5be; 0x6a5e2c9f2d0bcd2f; 0x44cb97985b0763b8; 0x1702862c0d097a2e; 0x25963e3437b5b642; 0xe5a96be5c469556; 0x2760c6ded26f04eb; 0x836550b31c68e67; 0x5ee1405576203e0; 0x4275dc680b79e240; 0x299cebca7a151d63; 0x7a7c268647a9a5ad; 0x17b11a75fcf2aa8; 0x51f72ec68a2ba1f5; 0x26133a9181bec07e; 0x6bb123947d88de84; 0x40c6490b95faad68; 0x2c1bc6d187014ea4; 0x563482466642914c; 0x4af29198c2a7c376; 0x52e3a006e6a04adc; 0x2d414db70b618c98; 0x2959caefb664dd67; 0x72b03b37f8cc4e57; 0x71be69382aef0bb; 0x4b17a933e19c331c; 0xb45f182f869cfd3; 0xaa7d4eda1fc9539; 0x17a72aaddc24e081; 0xa33fb4164e464a7; 0x543655d584d98c65; 0x260df686f18a7fd; 0x127daeb8eebb4f8c; 0x240d7bf2ae18944d; 0x6a221087491d6b13; 0x62f3109816ea9e9; 0x4e6f2a74804a77b8; 0x5faf920b353c683d; 0x13136645d1e0a549; 0x16ea560cda17c100; 0x225d8dbfe81f3876; 0x6fff6f244cef21f9; 0x4ebba6f4ebef4a78; 0x56ce9c446fe1d72f; 0x20044b621aa4eb55; 0x66ee9677821684f5; 0x41ac1194ba629f2b; 0x1c40292c7a7ace7d; 0x428539a37b1e4062; 0x463bd1c05351d541; 0x6ab2447643203ef6; 0x72e2e254df9233f9; 0xaca6835008d956c; 0xa03c62bec312dd; 0x4f514462a5fe18ba; 0x40016459cdf6887; 0x10f638e589ce7a75; 0x3e5585b27b84aed7; 0x6a85cf678ded83d5; 0x6d7143354e014bef; 0x4687c6086b6a203; 0x3d87c409c853ee5c; 0x7ce391b7b71767cd; 0x1d2e18205186823; 0x7abcacbb76ced7d0; 0xbaf5d702fcb5d45; 0x788b61af71d1e37d; 0x7204ced51da7a4e; 0x531d1c6ec802bc26; 0x4458936bd243ff42; 0xafb3fa98f3afa47; 0x38977d9b4e917040; 0x2f53988b5b3fea2c; 0x5698e9b1f2889c38; 0x4b6be4caf4d699d3; 0x50daef3d371bc7d4; 0x4ff9ee53c80a0a56; 0xd1da77bc6d49a7a; 0x6f925facbe6e912d; 0x17530e531e209963; 0x5aaa5eb5ada1230a; 0x3007727022642fb3; 0x51aba22f708ec5db; 0x34e1155475ecd322; 0x63bac619db6d044f; 0x37d101107300d05f; 0x1d36f9685f6639d6; 0x4a4c11b6b11883ec; 0x1f5be8e4e0401dc6; 0x2fb7f429edfd0098; 0x54afdf6195aceaa0; 0x49c402f312662; 0x61fb0de3af97c54d; 0x63512da75673b24; 0x4a534030ce8f19e; 0x4dd0dc1d2648ab00; 0x295cc1468cc1993f; 0x6aa9d692b914d669; 0x7f1350c5d9b71040; 0x7ab5ba18393f4372; 0x61e59c961cbb1671; 0x6def572161e48864; 0x3ce53ff7e5d8ebea; 0x4404e07bf783ad9e; 0x7e35e40a57b2d9aa; 0x71c6c4e779836055; 0xbd145e36cf2a7d0];
   [0x1c4c00f6778fff6f; 0x8b7fe0ccaf2d435; 0x53c19b13f49cd9bb; 0x67cd354f13d9c2c0; 0x36a08aa34fb863e8; 0x14f5f5a6afc1a58e; 0xacb3f002db2566c; 0x691706998f101f7c; 0x57d31fd2208dee27; 0x30ef8602a442f48a; 0x415e799e3516320; 0x1ac1ac539c7f92b7; 0x68119895a8752150; 0x224f5fe1cab9b405; 0x59225336ba7e6198; 0x1d7b5ee978318e6c; 0x4193ca3241d70395; 0x5db3fcf30e9a42e8; 0x4fd372056767d9b6; 0x69e3366220b2e583; 0x4419d729dd345cae; 0x3549da9639efc381; 0x22f5d198dd3ec04c; 0x1ce18024c403b6c1; 0x14089b9b5b780c84; 0x9d595d7584dbb5a; 0x72dd5997968e154a; 0x4938493119458a8a; 0x523638d07417232d; 0x372e82e5e51785ad; 0x798152992fafa8a5; 0x1896c396a718589c; 0x5de12635505bbf8e; 0x490f88f58a886357; 0x1daa4ab219c0470e; 0x504028027041c783; 0xe8886d34ae4efee; 0x312ab433229406de; 0x73a88a0a2079b7a1; 0x7faaf26f6b24d459; 0x2a617e9c7364af97; 0x6fb57c4eb8dcba5; 0x478463288d2d236; 0x6be85e0c163ed04e; 0x9d9bcb374b23970; 0x4de06a7bed709914; 0x1ddf23a7e09409f1; 0x23b7ecf49236df4e; 0x263edc823c69b3ec; 0x50e7931064ae2b56; 0x3817cc413f4e5a8c; 0x5fec493691c17941; 0x597515cbb6dfed3c; 0x1eb50acc2db44c; 0x728f69d49e3ef16; 0x1f2f0a3eddb27e73; 0x6c0176963b150819; 0x604f9f427d77244f; 0x3e8fba0fb38aed09; 0x20969d7fa407816f; 0x5af5f134d3eddf48; 0x43cf18234677077e; 0x6f14e0c7192bf450; 0x161cdeffb1dad86d; 0x587ec4f4bc2bf13; 0x52592a451dda699e; 0x10993405845b10d2; 0x57e0cbfa1d547780; 0x235555664c549a76; 0x40a8354ad66f9a04; 0x5247da283f0d706b; 0x43b6a5b50310283a; 0x2462dfb0e5d51d98; 0x1e94f6c4f48b673e; 0x63235e4e34df04fb; 0xd62cfe86f706f77; 0x56cad758b969e303; 0x39f19bf6191c0bea; 0x484e6034e23c0e3b; 0x2a3104a2895cca9e; 0x2f64d9123bdce396; 0xb52794aae9fd9b; 0x6656551444c39bf1; 0x2ccff9941ad5192f; 0x68cc52da76badf2a; 0x4ea8dcbc7a85425b; 0x33bc4adb5a5cd970; 0x11fb0527134437c8; 0x7643d52818abbfb4; 0x5e4857dad6599f67; 0x3376ea3f5b229f9a; 0x6e12d6e3b539fb17; 0x199913a56a665204; 0x7572cd865c6e8d08; 0x788ab10a296a96f0; 0x4f1dafe1614d7f20; 0xb1e0cd1b81b7541; 0x6ce2664f4361cd2; 0x2daea7f324388dca; 0xd43d1bdd4239011; 0x5d33971d05d3d560; 0x32f24c1ee2e1426b; 0x781fba6818c1080; 0x2849d7bc30c49fb3; 0x1358a7eba65ea129; 0x71ea9f7a3dfe3d22; 0x25307af3f4837a3; 0x68da6d3f57fa5a46; 0x1339c52b6fd2e834; 0x6d50dd428abb5f58; 0x1286c2e15f01534e; 0x3996f76dbca48a79; 0x57ea290347b92471; 0x413fc0efc1db520; 0x77f9a056846bb04d; 0x7852b543679f9baf; 0x9a35ebc96ecd3b3; 0x20a0728d95ccafea; 0xcb411b14aafc3bf; 0x58ff6870d15223ba; 0x14ad4921156e195b; 0x7c4933e7c6b8d651; 0x20fdf73adff26e7b; 0x6cfcf8bef6c44cf4; 0x64338681af706016; 0x1cc7ba24be3d2e37; 0x4448b5e2adeb1596; 0x637d110a6e334a54; 0x759f405b1119113a; 0x5fa57bab04bc908a; 0x7097c9077723bc48; 0x4dc724a078a68329; 0x655d7155035ac1b7; 0x79fe165a14dfe4b0; 0x4add24b08fd696f8; 0x275a1f86e2b6cab2; 0x5670f169cfa34ded; 0x53ba75b0fc42fdf3; 0x997744818e20054; 0x650214206ae4c29b; 0x2eb07408af47395c; 0x7e1658c064e2f21e; 0x561d08d1716a09e1; 0x7737d5e8df2c1076; 0x220e62f7c3b336f7; 0x742e9bdc33f52082; 0x66658c024920c369; 0x67b0eaa352621c5c; 0x21be6729a8b067c2; 0x47c6eed8e720396e; 0x6cde8e8f9b06a0a8; 0x72a029cdde51ce78; 0x26513db5bf81d2be; 0xc4e094ad80b1a87; 0x619e63639fdd104f; 0x76658cb551996ed3; 0x50c35c44d869c8bd; 0x75d68649594e0522; 0x3a278794d2a61ed5; 0x79a2195ca5c58d50; 0x57c890f5b9ff575; 0x1f4da38d7053ef27; 0x66b1839097c05b03; 0x6698fbc1b94fcd1e; 0x3e5ac1dca84e692c; 0x52848d186fb29b3b; 0x458736e1ea2d571d; 0x459591844998df18; 0x44e3d3afcba59c6a; 0x1811812b9e7d052e; 0x5fc50e2568e2dd40; 0x251ffac23fb33ac1; 0x773d4de8faf3e962; 0x6fc067d65f0edf2d; 0x2e07e385e9334d8c; 0x5e95400a4688353d; 0xf42fe9edebc5305; 0x1c2477c6e26ad944; 0x737c8a0ccd92e209; 0x5eb5ed4af8404b35; 0x6af628df07c76b5d; 0x1c7425ad97422581; 0x58c8ddd0a0c7359d; 0xce22e26b067604f; 0x30de2d3bfe445a4a; 0x15e39b0361cf526d; 0x11abf6d0aa075216; 0x53833469358e21b1; 0x1084a37b6b936db9; 0x7b4ab4518ce92614; 0x4b63a8146ce3f501; 0x68ff0034f4659f85; 0x3e193b46468ae85; 0x43add2c2d3408afa; 0x549e169f2cdb61d6; 0x1d3fe5daab4439b5; 0x699cce2a32d33127; 0x249bcd94866db2ad; 0x54dd27df3d92e209; 0xe59c1598677ef55; 0x58bcf5cec41b5892; 0x11615b93038de04e; 0x1b91b4613b8bb877; 0xba8873eee976659; 0x622aa4b25c5ca038; 0xc8cc90c722765c9; 0x55f202095abb1a56; 0x30c83efa3eb6b2bb; 0x7caf7d6a51da63e; 0x9d94b831e591c22; 0xf21ed2825006893; 0x31303b02cce82c26; 0x73f25ac7b546f3db; 0x78ae1d9c8fc7dc6a; 0x6ac0a71c71362d24; 0x37211f8e1c458b24; 0x6e5a52d922ca60df; 0x14a62197b6a3780b; 0x7f09ce7685b9e724; 0x6447cdae657e1369; 0x727eb2c2326e3174; 0x265f98844b7ee606; 0xbea34d25d2caf60; 0x63c72d48374c8ba3; 0x776ba98e25049159; 0x1330886985d5981; 0x141f744396160fb3; 0xc0d5aa122772ba0; 0x36489c9e44b051ba; 0x2a01b15a886a5fe6; 0x22c1cbf6554d236e; 0x72b6865fbe273413; 0x7da09277956d26c0; 0x598ef225f31f3546; 0x35c332019732942a; 0x1cd93a0385c88124; 0x6a47edfd4d2e4c3c; 0x4e4424fc207b0fa8; 0x7a48750b42fd810b; 0x783c7ccd5816d872; 0x10a21754bffb13f9; 0x13d89b5b4ca14118; 0x1d226b589539f258; 0x62c753308662fb55; 0x348e08bd8e345e14; 0x6448b4d4b8e0460e; 0x2f0f87d5744547f3; 0x50a570016d9c0cd6; 0x543cfddd5f9efc12; 0x6fc1e21b981747cc; 0x25c2d96d2d92dd20; 0x42e9b336688527bd; 0x2fca9da55ac737e1; 0x62cc23941b84d735; 0x2e8dc26986eda529; 0x79cf0f30c960b4da; 0xdf47ab0d0e0e5c9; 0x226bef3acc496633; 0x168cd589e9d37072; 0x64bcef9d0335d16f; 0x234e6ff0453e2860; 0x6c0e086d71c33922; 0x38586258e748e985; 0xcf8c761318f986b; 0x3e68876381249c2e; 0x604b403d20d5b80b; 0x64592ec6bda70717; 0x1cf4568cf123090d; 0x62c852d64f13e31a; 0x5f867928ddcd2a5d; 0x2e879d9764105217; 0x3ae6ed66a8ff3c2f; 0x1a90e59a2d946198; 0x2fdd25ef48384aa9; 0x3ad3adc95f19240c; 0xb31c393be65c9fe; 0x585eb261da4fe88e; 0x78821a342cf4f438; 0x11590ea41f1d9c86; 0x19d18b9af62b9f7a; 0x62010ce161310491; 0x22db20a67b358e30; 0x53be288cd22ea803; 0x40465552da7bbdd8; 0x78b5cb991c77d198; 0x1c232de163152d09; 0x629f1f5efcd7839b; 0x6a48ed1174e213f6; 0x25b767b0fbbc136a; 0x7d3ce677cb3afa87; 0x10f54d0092741dd9; 0xd3d6e1bd0b66298; 0x38b4f8e08807f72d; 0x53a226124272186a; 0x4013c078f1ba082c; 0x2ec8475014c56e93; 0x79f3c48d7dd1b88; 0x75d38b73916edbe6; 0x22bf23d3806e4408; 0x260c01e4552d99f9; 0x44d53331f6c4f0a; 0x1e22d2ba63856da; 0x4000a69859d567b4; 0x5e370c6517c0e048; 0x55e2d32bc3de3f8c; 0x40476cf32df1b4c; 0x6383ddc1656c0949; 0x5490997b010f4d43; 0x4f9e355659c591f; 0x706dc421511b73be; 0x1d99e09251925eb6; 0x5f5967f57b23c771; 0x2f939ca5a2de9406; 0xc459193fde094f; 0x5033f1d2b8714b17; 0x59f114c419455779; 0x7935edee816eea1];
   [0x6bd4157bf950cd5d; 0x489a55739a22bb5c; 0x344b1c0108118629; 0xce100f3f4ab39f5; 0x415c8732226e45e2; 0x1956655e7b6505a5; 0x5876b8637a8df2ed; 0xcd87801de70baff; 0x4ee1b28567c17fa4; 0x1440a5671ef40aad; 0x10fc1d2006850c2b; 0x1199b63f10ddb5ce; 0x6afbd464a57f167a; 0xff7e8c2128b897b; 0x5f80ab451b3bf9bc; 0x43b99d2f5938a4ba; 0x53ab99ab3d281eba; 0x1a515237f48a6dd2; 0x2e2578f2b63169f3; 0x29d646cda6bad2a0; 0x26b0c2b397879bea; 0x4b48c3edd2bcf67e; 0x719d1615a9f75e00; 0xa9597a72171b83c; 0x10e4e4eb364682b5; 0xd1af765dd3e4d03; 0x760a0e914c948bba; 0x234a4a728f21d46; 0xd4cddc11bb737dd; 0x1046b64a42d90520; 0x2e37fae4b4aa2753; 0x6a505dff0789c66a; 0x5d7bfb81d23bf1d1; 0xfc99ee92e978074; 0x1fd84f80b080a32c; 0x784deeaf0edc1624; 0x649fcaf0323deab6; 0x414adb4eb7e84e4; 0x5264684e0b743307; 0x3345bb49da2c0788; 0x67863bf3b47ead2d; 0x5ef0da77cfc245e6; 0x3da098aa58a58032; 0x1181829d7ee38aac; 0x2a4e90c32eebfcea; 0x1e387b5bcf8f6b78; 0x7e8e51228637971f; 0x1c7d8e18781993f0; 0x241e0e298d5d5269; 0x1837f924948609b5; 0x76a29c8efbdc1731; 0x10fa1e68054d67f1; 0x6b3f33657d48b6c5; 0x7197ede4169a0e05; 0x749b82ff59898114; 0x398f1b81198ca8a7; 0x7da1d97007053b2b; 0x7f484e16ef8c9b31; 0x5c8976fa11686d7c; 0x67dff039e0d72f1f; 0x55f7dfb489a6e598; 0x1b34a7f94c04f2c6; 0x78b9ec66df11a6; 0xb29fb802a09ec64; 0x561294f1f7a75648; 0x631db174c619e057; 0x590107d7b3667d2a; 0xe691a4675bdff48; 0x2032652a51ca7c61; 0x1efa580e7a928b01; 0x1a9e2c96bac449fe; 0x489325c8d73d4936; 0x2f63e0c3f27d7f98; 0x2f3b91e41910ebcb; 0x73a3e4a70414f546; 0x20b7abc35b26c79a; 0x1e189c09ae6970bd; 0x6e4d4d151766fae0; 0x3d1a58443e3d7c28; 0x3067c6c933341c0d; 0xdf2671fa7148f0; 0x6e494ebe99c0e6a4; 0x78f208855c108ab7; 0x32ac8198edb371d0; 0x2e7dcb5538a2a592; 0x4e1aaad4c10c2784; 0x370a6f1ad4c97f2; 0x5913ffcd512b1fb7; 0x158e1530ce359b27; 0xc2b8eaa35beeab8; 0x5ca81705a5c71160; 0x7de0861a6462ecbe; 0x6e32168acfbbd84f; 0x2bc25673a42886ad; 0x6a209264cf43bb1c; 0x7a6ff7c63146eab7; 0x133b821bead6b93b; 0x580d578d1433bbaa; 0x4fb9459a26da4d29; 0x6ab96e1764520cb3; 0x2a15cf09de434071; 0x26bd77b04c1dd80; 0x6a33404ce95cf93e; 0x65fd5327919edc10; 0xdb3e755e7318f9e; 0x52ffa1270b2abc0c; 0x11ad31608186b296; 0x5b94e86234236c41; 0x21d760af0349ce6c; 0x7d942abae96a5025; 0x22d49b8b1cfc04d9; 0x7dd7066f985174e3; 0x552189aa753fa479; 0x4da0826f4eb662ca; 0x465089292cc2de2b; 0x467c4628d6a8ea74; 0x20fdfb57856f53aa; 0x4e1683303162dab1; 0x301d886c3eb8416b; 0x3bd65a67f2291261; 0x47e09423fbfb04ea; 0x79be00f4bdfd4e77; 0x6f98a0dde3e65500; 0x74f9ba3f04aea9d9; 0x44668f2888bd2379; 0xab763c6dd207042; 0x5f591556cb4c71d5; 0x34088e0ea3a77981; 0xfde90f2832b02f9; 0x2e598c019117297c; 0x170825ddd419ceb4; 0x61393bee82d36812; 0x5ef3bdebdecbe75f; 0x57ef6797226fb486; 0xad2c50a69dfe824; 0x45ea907f3861faab; 0x5ed28236ddd79e01; 0x3b7b2b19e8eb0872; 0x19068b048dcfdb5b; 0x5eaacd97810e989f; 0xb44e0714982c5e6; 0x4e6217ccc0193581; 0x46911a55f28cf80d; 0x38251edd5fde6ee2; 0x2f0871131e856510; 0x7d2631cecd125d6a; 0x227e30e181fadcfb; 0x6688936cfc99d8f6; 0x2ae51339025399d4; 0x3da327fbe2e48c06; 0x5656b275a12797ce; 0x4b0ab29bf648ba6f; 0x199415d07583a97f; 0x163814d5df226689; 0x3b52264166ee701a; 0x5b413a779900aef9; 0x7f2359dfacb1bed0; 0x7a3857854bf1f6b5; 0x58a2d5aef5b2dcd6; 0x64105fe5bc2acaaf; 0x1c95fe50a1b79ad8; 0x3b9294dc92e636cd; 0x7bbc87ae0c91aac2; 0x3c88de8d5f242c89; 0x32885eeb43c0c6d7; 0x66da7b6aa42a5714; 0x298fdfe1166a3503; 0x30d47e248c265717; 0x14297c7c1ec938b4; 0x78c38afc4b25fe32; 0x2d1602765648be0d; 0x24c9fe34dc8e859b; 0x27ec252617a18f57; 0x1322dc2d10187913; 0x4c89e77d54419be4; 0x67bb077bb2e2a34d; 0x6356a9c499dad9ba; 0x159d8843957ec878; 0x75640e23cce6dc6d; 0x413751e2ea32ec10; 0x43e934c9e99dde6d; 0x68731b24be463775; 0x6211fdb73cdab458; 0x2cc33ab0ac803bf7; 0x42ceda5008b6c684; 0x4680850a9811a9f; 0x669b27abe89a7588; 0x18c490613a5f0a64; 0x2c5c43617530a4ad; 0x2f75c6f9db68364c; 0xe6a5aaa9a05bcb1; 0x41544f1efb98b565; 0x308a60a934fc4e26; 0x63995d8f0fd07864; 0x23265113cb0e9113; 0x8c1249d7dd25b5d; 0x112a4224c2513375; 0x3af8d7415210e6a5; 0x544ab92c231aa080; 0x18268c5f030d3f45; 0x36429b6a48179741; 0x62f283d807dfcba6; 0x7662c7c73d60d51e; 0x256656e2eaf852b7; 0x3c1f53e2b0e42ce3; 0x5a05fe1aa511482e; 0x58fbe9fd0569f206; 0x58fbf671dac93250; 0x3507db29ee867362; 0x79f39ee75bf59442; 0x65d7ad7dfdf1d91f; 0xc114aa8cd188bb; 0x6b1f4f8b511d2619; 0x7aad17469f52b78d; 0x1d0efd59bced0d4b; 0x52c76acefb7e40df; 0x6546f1fa2be63a01; 0x5c93252b5280ae00; 0x318ad9c1a28a3fe8; 0x70d231b06b44deb6; 0x5ba0e495b493f43a; 0x7d4a44136f1a5e50; 0x2dc5332d12063335; 0x26bd8391b24b10be; 0x63092fa5617e1a9b; 0x5292d3603d64420b; 0x3d4cf22a5d031ca0; 0x1823ad3b930c1170; 0x4781a27dd1256d25; 0x10abb25cd417cd6e; 0x7f322151770423c; 0x2fddb14516d50f7; 0x4fc21b4bc2378c10; 0x6f6653b021fcc826; 0x6b0e38a94a0bc9ab; 0x61f9cb888d3afdb4; 0x4da1f398e77131b5; 0x5b42e8177cea3be7; 0x945620ca6af0b0c; 0x165c6dde6f7a8113; 0x46de68d29d22f881; 0x2dc2393b052eee08; 0x15a42f703a60abd9; 0x4c61c441e9909dd; 0x1d84a2db36239250; 0x1426f3a1fa34228a; 0xcc9bdfa7f1dd46; 0x3a7383329f85edbd; 0x6d31b4a355369764; 0x75ed8f46cfa8110b; 0x44621b525da117b0; 0x604aff5608eb94dc; 0x4d50b8b4fa21683d; 0x1ef698a7f5f25073; 0x1aab4c4e70e5a992; 0x3ffb074fc5ab08ff; 0x1876f71c8bd9a870; 0x18a84246b68d7eef; 0x1e281b42be52bf66; 0x113337353efe8f46; 0x26c218de8a4cbf81; 0x370833a7f7792c1b; 0x3b346a75f62dd4e5; 0x38985741dd93d086; 0x61932729ccd33921; 0x23bc766aedf156bd; 0x151ac8cddca24672; 0x73963779e5d3ef0e; 0x55fee08f4d7d5d88; 0x4d9defe5fbef0656; 0x3d2ffd67b4d15fa5; 0x5cf63860789b4bf2; 0x5923a0e5aa0c84ff; 0x79783b6dbadb57ef; 0x73bbac3bf4c8986b; 0x3457f630752cf7a3; 0x22f0859904ef2dc; 0x25e734fca0231abf; 0x433dd07c5c78e25c; 0xdccb53e6ef3654a; 0x3a87a9cfdfeef2e2; 0x37d79818f361b4d; 0x1b8aef3d224adec3; 0x78d0eddb59aa47d7; 0x1c3f8e3faba47f64; 0x59ce65d31a8471e7; 0x4eca4ba84320c4b3; 0x7d13bbbb9ee43364; 0x2d7194254b51feba; 0x43c292dd428500b0; 0x4b84332737323d93; 0x56ec14aada31cb8b; 0x346d68b675dafb59; 0x28b39b36875a747c; 0x5a69b2e08c198b26; 0x46389351b95700e4; 0x22f64d9019435161; 0x2a29fa6503d679cd; 0x2ae53c68557b3bcb; 0x2295a8059d10d302; 0x56a7b18dee59d15c; 0x24736e795d5f8761; 0x69b4f5f9e49c9c53; 0x1197dfdeaed26b82; 0x6432a9b788aa49b8; 0xe2fbdfc73989823; 0x6c693463eef1abd5; 0x60d1f8f63bafa1a8; 0x74736a3e3d927389; 0x4a789b5f1ed71697; 0x330df49a8c3e5c5e; 0x5822b27003b4c487; 0x5e1c7eedd8f8c21e; 0x2e55a918a06e23c5; 0x18f415fb52789b94; 0x77e9b02c98026801; 0x748569f3c74f3f8];
   [0x2e32a4f5967c64f9; 0xfb46fc2424476b3; 0x6671441058861059; 0x69b6744b23e03f27; 0x5f5b097f79b145a9; 0x5356b33c38aee755; 0x21568b2202f73612; 0x541c8b2b21de1f44; 0x607753127e8f6cc4; 0x10ef63509fa6016f; 0x535e60b0ea720252; 0x4eb2566a6f7c6b6f; 0x75200a793e400aa1; 0x20057de07163f562; 0xe65116c914191ef; 0x76afdcd7d50c277d; 0x3bf09cf8d1700f1e; 0x3bdfe2a5b410783e; 0x271699048a24efe8; 0x2ad7052a529f3a0a; 0x549b938d477ac167; 0x5cc4535d13e6f42a; 0x1795e48e9bb90619; 0x1cadb28c3ef01d8e; 0x2eac1b5bfd7d151; 0x7be65c52d459afe8; 0x19b853148ec7f717; 0x143cdd00de659e79; 0x39eec7aee3441a92; 0x4f2c89d4f66307ed; 0x5202772fc5843de2; 0x70af735ce78b09e0; 0x474043c45c5e4951; 0x7dac7f02c216bded; 0x732206f41c69d1b1; 0x1a15cc1e65c3b4ef; 0x1decaa96fdd026f0; 0x14fccaa5ee73c7e3; 0x2b3c8da9841772b5; 0x27857031f4492c91; 0x693f81ed4fbe74f8; 0x28a48774f83e0ba8; 0x174d75bcf4c7c959; 0x701c3460f43809eb; 0x3577996c69efa71c; 0x5266c3859ea03ef1; 0x74cdfff71a532979; 0x4d81258a5b36b1f1; 0x15734c2d89c736d8; 0x333a0d773c6d6236; 0x49e922c1f51838bb; 0x763e957f72f10d11; 0x3c990c21e705fb07; 0x5e1d7be47b69cfc7; 0x6209022a7ded3f0; 0x2e4f2ed4de42571b; 0x80eb17a3cb9ceb1; 0x11ddfb27a1e5eab8; 0x3a34f40111eb537b; 0x1875e5f230d94e4f; 0x2244eba1f9c528b; 0x230625e744ee2c3a; 0x7ff290992f185d19; 0x2d22b1d899f40d3c; 0x431bed878f154c9f; 0xbedb9e53e76465b; 0x4be2db45a6ae30d8; 0x420e618902e91f97; 0x5e664f760fafe98e; 0x6b71750f2f73f031; 0x20ac08d57317085a; 0x56d9c400dc74440d; 0x3f654d67dbe2d15; 0x5d0e8fd5e47c6114; 0x3f7f52babb5c3f4b; 0x3917195f979c8fcf; 0x55d725e2816a8d78; 0x405d5a16b613e211; 0x1ed8e9aae11db531; 0x31006d263c5fe47b; 0x5178611b2deb9653; 0xc37f2ac96ba4f12; 0x2262270a865230bc; 0x688940e7783edebf; 0x247ab12baae61d88; 0x7f602a4a9ba989b0; 0x6a84961a5720deac; 0x52821199ec9da79c; 0x40c8584a0e592375; 0x246bf8318d6e8b73; 0x1ace9bc47bdaf56a; 0x675429255d612680; 0x679bd553d1079f41; 0x70b72cfd56def585; 0x2531e635fab5d91f; 0x5358fe85eed98704; 0x1a5c3ab70db0dab7; 0x1381418a7fe610cc; 0x45d4c45c967ed843; 0x5985662a6421633b; 0x7a253cd511c1c89; 0x4179b92eeea5e670; 0x70934c761b59127d; 0x222e6ef498129ba6; 0x2c77b776e77aff76; 0x7a79b8b75a647a24; 0x1502aa115a571da6; 0x646ddc530517bb06; 0x2a0a1014cb0f3e22; 0x2f4eb59393f05438; 0xfa51f57e4908e16; 0x5af07d95148d610a; 0x1dc81a3556e6fb55; 0x2484fb91d15d79da; 0x181b6ea05010554b; 0x4bb0cf16eeafb549; 0x426079cc1f66e452; 0x2cd97e1b3f7214f; 0x2a7de5a127733b45; 0x26f2f6fc6c97f458; 0x67e10b91bbee0d11; 0x5b3943ce5f018613; 0x4400050f515634cd; 0x45c5b69ee650b6d7; 0x1f6c3e05146a97fa; 0x7a1b6f9e848ba652; 0x1b293a9d76cf0baa; 0x10eef4afa3a96b8a; 0xda3c4ed92367014; 0x597cd8dae87f440c; 0x4b107179c874798d; 0x6f1f464502176487; 0x1406530ed66ef871; 0x340fa557220fe978; 0x1e2b186b3027fd5e; 0x45687c4665436462; 0x6228e414fb795db5; 0x2929e32099719d6d; 0x28168afad72f8e8e; 0x579ddd3ac2a71910; 0x665698c43c380872; 0x7ec086ac166dce88; 0x42e1a8a0473dd1ec; 0x725225bb01ab2ec0; 0x182fa6f1107ea803; 0x26e30b2992cfb1f5; 0x4936c1166cbd03b3; 0x3c1fac9575d3e77f; 0x4eeacdaff58b1e90; 0x7901ccd8bd7af827; 0x2b2a1978bdc13920; 0x2b9d49cd9718a4e6; 0x5d00bbd00092929e; 0x1ff675aa3054384c; 0x41b3fde6145fbc6b; 0x103b2bf49c29c05e; 0x39a19e013baf48e6; 0x157350a0567d49ed; 0x39659350d207037e; 0x3aea6162168b7eeb; 0x5e8a61c5da448550; 0x7197a87aebfeea92; 0x7ff40ce406d1ebb8; 0x15a814be10ba82cc; 0x37b036eaf20bc308; 0x202109c44c85223f; 0x1060d26b8d0cee28; 0x5de4792395be94fd; 0x5cd576e83cd0b352; 0x289559ab89f3c208; 0x56e054722f6221f0; 0x7859d770298aa8cc; 0x161b02ebbf046f9e; 0x41f2bbb95395f5bd; 0x468c3b82edadb909; 0x438400ee4dbd3ca3; 0x67e58f766de1f168; 0x731e2e2656e6a470; 0x94801801f6e870e; 0x3f7c5466ba824bfb; 0x4250f04cfac24806; 0x349859509709b496; 0x53a13a8835e4f481; 0x41b3045b86f0d517; 0x772b29d527dd48de; 0x7e0b55b773f5ae91; 0x115f695749f5103a; 0x16d2b1b474068214; 0x83bffdd6cdc4853; 0xbeae2c72f7fab6c; 0x4616845ab7ddea96; 0x6ce94bd3e299fbb; 0x312de7f57ad7e8fc; 0xa1f1054acd522e6; 0x5d3e441f32fab968; 0x1e241ae81229f9cf; 0x57ba0557cddae5ed; 0x3c4c8f925e6f26ab; 0x4ced53e4e3f3fcb6; 0x1cafc10b8f16233; 0x28737999a98273e2; 0x5cd0d8b74b1aef83; 0x8c569fe616f03a1; 0x2a0ff8bd1e0226cb; 0x24c089f64f6eae7b; 0x4d61273c5313f965; 0x71734edee124b6f9; 0x5264d9f6fae083e4; 0x288b336470c260ed; 0x262a6511d304f184; 0x7bcd612cae0264d0; 0x55f8f9f870c9d4c1; 0x2d42387054d145a1; 0x5471ef7f403d9fc; 0x1c3e889d599aea62; 0x630ba4c9a4a2a419; 0x2d2bf72c229eca94; 0x1343e878ab8b4c1b; 0x17caaa61cf6916a3; 0x2b4e1ba378981fe9; 0x3a08420ac4a20f0f; 0x5a253cde2fa8a3ce; 0x504d2ef8351d46e6; 0x4931a4f349947a28; 0x7b31d29eaf47acd0; 0x207f1c4ab0d29738; 0x4ab3ace4d71bb835; 0x600aa35bb227eb73; 0x1855c9bda600156a; 0x42e0b09027fec2bd; 0xfcec132de5bf352; 0x359eff922c1c2d02; 0x5a8d32ad11671d2c; 0x6a567b751b50c903; 0x1a3cc21932936432; 0x7484960766e79d6c; 0x3590a97315b40a8; 0x296256933c913841; 0xd1683087a506b31; 0x40376bacfd0a5b46; 0x30763378d9758790; 0x757e0e933bd25421; 0x500d6921739a4458; 0x73712612737c03b9; 0x7928f70dc5938557; 0x5dbacb557345c3bf; 0x74080f6d28fc13f1; 0xa11b11fabb697fb; 0x73b41aca4a7df432; 0x1691e9878038fd49; 0x49a061284ec9027d; 0x55d74010e045e9eb; 0x61fbc87dd3dfe850; 0x3fca27ab4cd4673c; 0x5ab3145c9613451d; 0x7c22f52dbebdc129; 0x54fbca41bcff7a37; 0x182fc40ac8e74885; 0x4691ee057a6af8ab; 0x1cfe3e751654e438; 0x201bb2a75b7cc62c; 0x33da168963a6aca5; 0x6a8342a286abc334; 0x68340f005d309bc5; 0x6413ee3c73b196f5; 0x2d320154132ac7f0; 0x651dd92269e302d9; 0x216baba18c243b1c; 0x753cd68b1ff7b233; 0x4087c180b22e05a6; 0x34874fca406ea64f; 0x4c13371b53c9381e; 0x6ae87b284393b4b0; 0x57f7e0a9e28f7c45; 0x7de7a2ed31918ebc; 0x2da7e8b64298d8f0; 0x5415c0e97e9cf82b; 0x6f16db90ad30373c; 0x3c815ddb4a0a3f31; 0x194edf3a1a3534bb; 0x7d3adf0ccf0d36b1; 0x74f8d3a8f288dc5b; 0x40591a1979cf1837; 0x193376d818fc41dd; 0x6b682bb0641ac0f9; 0x4699a082cc03280a; 0x744200fe688de85f; 0x45352e39b783e2d5; 0x31e2b5b7a9d904db; 0x40ef230fd63c421e; 0x2190d68fa5beca6e; 0xefdbb71f396dab6; 0x6d8b7ff3472030e1; 0x57bd27191e1359d6; 0x21cd5bcb65750f5b; 0xee69454208cbff; 0xd42a5f7269e0a60; 0x202412a57e66eab7; 0xc7af45213a257fd; 0x1da690520810bf3; 0x6fbcb2328f334206; 0x17f2d5f4e485260a; 0x3ba39688ae8c1a6b; 0xfb79ba1f237fcc1; 0x74a920f3de0920e6; 0x7ded9d7debf54f21; 0x4fe12cfd8b64754a; 0x200c24846f43551d; 0x57ecd65b4771fb8a; 0x784b67151529c202; 0x29d31c2741af3147; 0x517e756c643b5ec9; 0x1d9b94d7fae86c2; 0xbb56682d61b7392; 0x122d761b535ef94b; 0x2634644a32237772; 0xda126f0454f0bf1];
   [0x7c20b640a1a933a; 0x59a04d5206331e79; 0x57f7fda9a5c71735; 0x20131fabbdc12506; 0x28d57672d207dde1; 0x2705117ef4b33756; 0x41e48ce6a0c9abe7; 0x34756db67f053ebf; 0x17e846121422dc65; 0x4ed5db0546f49588; 0x591dea477d145231; 0x292479227ea3ed22; 0x49fe1604b0751298; 0x197fef9ed02f2217; 0x166c39bfb851449; 0x7b485c2065525adf; 0x4e29eaed8bd6b0d8; 0x34cbaea2c7973d09; 0x7c145757da11afe9; 0x341107cdaacef940; 0x76516ddad5f35bc8; 0x4594ed14d708ab2f; 0x7c29276d16beefe3; 0x572711d4282a5ab7; 0x672a1fd9b1c4925; 0x4af86088a790b2da; 0x5ca25798d1d10ba7; 0x38247c0e805caeb4; 0x6f53ce72bf207666; 0x5e7957974689cd48; 0x340cf0534689f7a2; 0x3244685ab9d4a609; 0x5d58622b1b25805; 0x4b07c79da35a2a4b; 0x696143c44bcb2d09; 0x3aae600562b729b3; 0x5037d5bd57646ba5; 0x11fdf1423b5a71b6; 0x14f1416fa5948d4e; 0x7d01261c33baa241; 0x7eb31a6c6acf44d6; 0x2f35b8cd2d1592b3; 0x25f39e5657829cde; 0x31252b92e8cab9d9; 0x5f39e7f91afa8aba; 0x3fc23e38a18d4f3c; 0xcbe32db865e291c; 0x49678187293b3696; 0x59486f53e76a449f; 0x32aa51255314481e; 0x4a89effde9ebb680; 0x214e2c7b7df94c92; 0x734b628ff1bf522a; 0x40899bfc4e876a34; 0x62b3edd7b98d077; 0x79fe55f9ed04c1e0; 0x33e808359a60340c; 0x3343d098474e1277; 0x6f864d34533d48e8; 0x75de6969e8000d51; 0x4190c2d1a3b90143; 0x1231151538e4a244; 0x14bb416052b4f9e6; 0x79a8bb42f8e652cd; 0x202111e300c1494b; 0x2d9a82de0abf9133; 0x2b3f8e24752a19de; 0x7528f07bdcfc6259; 0x2d712510bd89c9bd; 0x40f2294e3992f885; 0x2992e011deaf3939; 0x1ba938d6bc4f4dbc; 0x4b603da4f782c4c3; 0x3c0b315340cabf07; 0x2f766259eaaf9035; 0x7f382eea5c9fc135; 0x1e1eff104235b730; 0x5293ca17617f477c; 0x529abdd56772a2ae; 0x307ec684a0046b41; 0x2a4c3542bc5677b2; 0x333c6ed8f7d2d644; 0x650aa2d497693c80; 0x694a27c6b63b55b9; 0x2a4faf10b5a1f8f8; 0x664588fd79422ff1; 0x6b5f7efbf89eaa36; 0x2e5b67a20592a2dc; 0x3d20abbfe6a6f588; 0x2c6a7ed8a0613c81; 0x5c57d179b0186339; 0x735fbf80efebc8e9; 0x3ba37b6a866e13d5; 0x4708c56f2cf5d62; 0x65d9e01a0509f99e; 0x107092baa8539ebf; 0xcf30e53a5f52957; 0x648efc69a9af3b57; 0x38a83958350dbd0a; 0x59e231431c62dcb1; 0xe1437f621d89d7c; 0x57b4f17834a3592a; 0x564981c6054aa2fe; 0x3224c2e57eba4995; 0x25e8410ad7794ec3; 0x6cdde6032e7073bc; 0x484c3ceea35bebe6; 0x4f68314f3d7379b2; 0x65500df6d83a0731; 0x3e27edd09bd9fe02; 0x73136fcaefad2c28; 0x595bcbe6774ec970; 0x3c4b474eb2e9a4c8; 0x71b9f237be149349; 0x4361cddd17d1e7bc; 0x48d0a8c06b84efed; 0x42a2e5e5a00d1d80; 0x53a2429c9fb85d70; 0x4e00a073ff19b9ab; 0x6c9750297a0c4a7; 0x4119a2aeb7e53673; 0x54c9b8f2621856bd; 0x58549debb9e21ca2; 0x28b112a8e384fdab; 0x63198ad494ba0816; 0x50c89f64553d1f07; 0x684fe10cc9d64885; 0x65934eddf26bf1d7; 0x791afd00c8c61cab; 0x4e781283f72d192e; 0x59729aac3051892a; 0x7030c00f05778e60; 0x512a05862b17119a; 0x355493ac63bbb85c; 0x4417e9df46134854; 0x2ced5691914e74a3; 0x34846114f3e3dc8a; 0x3e56d9992a1b5215; 0x40634b23633012c1; 0x34e80d807ee37599; 0x378e736b4d786347; 0x493757ea655b77ae; 0x65db465e9367de3e; 0x70ac833507f2faf5; 0x5e09c09093404740; 0x3e9fbff6716e49f; 0x1585d94df38ee50f; 0x3df37bd21583080e; 0x11baa8f997d37190; 0x6a00caf784379523; 0x4e1683be883e27de; 0x484f744549396782; 0x294496adeb7feff9; 0x77cc79c36bfc699; 0x4a7a01bf2e498271; 0x462d0c56caeb8877; 0x57bfa64342e02061; 0x5efdb1acb36ea8e3; 0x725a1d6628e88dc3; 0x5d5c0b2c5edfbf21; 0x4d64bcf5e685024b; 0x19a7aec1161d44e9; 0x4682995a240abe6f; 0x540da8ee6bc88505; 0x7c201e82f82b575a; 0x65d877e655afb670; 0x433fb51692fc0432; 0x32a1b811caef8bf5; 0x3c2629b921900334; 0x104440904c6fad6f; 0x2fa147b7a6948c4; 0x633d723644da702; 0x57c67afc3602fd2a; 0x542ad8e3e098b5c7; 0x1025cda8975c6df1; 0x53be7a009a87f8e9; 0x708019e6521a1e64; 0x6d2fd720462c69; 0x47f89f716f6b56ee; 0x6f11c5947313b4b3; 0x1bde4a8d54460682; 0x383ac25ae76a48a4; 0x2038d063024c7315; 0xa0259177c1444a4; 0x295681d3f5328d08; 0x553d9d00d5688e7f; 0x550a23e527b0e8cf; 0x47a195f7c0caa0ae; 0x55e942e75a28f0a6; 0x7561dfe27842baba; 0x35b09ab1535936b1; 0x1d549166c153bdc6; 0x5c4a99d813fc5f07; 0x6620c58256236548; 0x4e7734b188e0f22; 0xc4b525bd77aacd6; 0x20a9661f072ec347; 0x38f1ad6225e74a45; 0x3e23fda9ac150235; 0x3d15538ca6301063; 0x63aec215fc434aba; 0x31b042fe5759dc5; 0x1144af01bb2bd7aa; 0x335ae0e61674b29c; 0x320555a00b8d55e; 0x5a78438d4f3dd2fc; 0x64cdd317a0e8b6e0; 0xe25703a96b80764; 0x5623c86167163c8c; 0x5774ba7d0d8544ab; 0x62ff8c818db466e8; 0x36ad097043af0426; 0x421f04a8ec0501d9; 0x62d97a343844bed0; 0x2f11399c7ef668ec; 0x1fa085ef4b898612; 0x17004b075344fdd8; 0x61e3fb4b645aa7a9; 0x42532ff143a9029a; 0x10b460d69bb264da; 0x7c85e02b17ba2742; 0xd17ad29e4638817; 0x486a75c9fafe52d5; 0x121651ecc5ab7dbb; 0x46e5fba4115c6566; 0x4f177a6ce8f1fc65; 0x48b9d6958a0c1636; 0x52209e558cc7e404; 0x2da8fb4e81e1a0ad; 0x57a6a7b9a00add78; 0x4e5f769b0f2ff299; 0x3e7254bbc551182c; 0x330f885e33215167; 0x14fa0080681b5941; 0x2203638c137e8fda; 0x6ba0869250289549; 0x4a8268de1ded0c85; 0x68b171ee8766b3f1; 0x7b6a10e58d510e8f; 0x4e064d10b372bf50; 0x4737197d873d5548; 0x457956808b82eb1d; 0x6bef2553d2902256; 0x6787a353b21cb281; 0x65a48f37dfad58f6; 0x6fdc9e145a37c450; 0x5c82bcf9e4093ddb; 0x1c249e494d600bb7; 0x594c526e887fa069; 0x34073e1dc5a4142f; 0x7994054f5861d39c; 0x4bf8a3353cbc5220; 0x29bc856fda8614e2; 0x762581226863a822; 0x958617c0151d928; 0x3609a3366b3a4dd6; 0x2cc3feebfce45f23; 0x4cee3cfed7e69889; 0x275082bf66885f77; 0x286bff5f4f322a77; 0x6ec652ee065b3adf; 0x18c678adc6078e99; 0x5f84f3e7bb7cb368; 0x389d7d0eedd4a423; 0x2f30b51b75e01303; 0x7329b36ef3fda58; 0x5b27016264cd1dc3; 0x3a3b5a5b3c75d598; 0x75247076ee6eacc2; 0x30fd639e662e37e2; 0x5127aaf6be35b19c; 0x33f101981a2f9159; 0x1df3fb7157619372; 0x7e6302a4e27e43ab; 0x6d1fea2d2558c834; 0x6b9ab35e883a39bd; 0x5c0869fee44e3e15; 0x1d4927e4ae973bbb; 0x4b2bf2ce2eee4e23; 0x5bbd8505f7beb843; 0x406944fbf5c7467c; 0x5c76d8bdae3e4554; 0x2285b64e93e389ad; 0x4dc08aba5a412e67; 0x6b3f73155aef4cef; 0x778be6a9184de87c; 0x25844f098ed339ad; 0x5d21b2596f4b758c; 0x3a3f6e6c62e02ae7; 0x536d27eb1004fa7; 0x63694889f2ae2d6f; 0x377586cd3fcf9c9c; 0x94cc01758ac8018; 0x13a6257f4c5aec26; 0x12da4b1e15089c30; 0x1715828836c0b7ec; 0x304679242a8329f7; 0x4bc4e8625a3f523f; 0x3d0a88ab8f567b82; 0x78b6539f33a0ed18; 0x4e96742c57559e85; 0x7e97774d2eb2770f; 0x7cdbad4f3716be02; 0x34164f65d6796754; 0x409e0876e77719c0; 0x1972768c6aba6f6b; 0x40d217b872335b8c; 0x4f3c344373a50a6f; 0xd25bcff1a51f5d7; 0x7c76362aef60b660; 0x2301bc504d59dc7b; 0x5ea4f44004c29d43; 0x4435b2d7480f194d; 0x65fb10cdc381bcea; 0x674fa029530f40a1; 0x280bcccfb4e475d3; 0xd81990f00ff0fc2];
   [0x4dc7e35c1f06527a; 0x483046d1c709df28; 0x3fd6b078d272f581; 0x120c0c5c58f93c07; 0x1a35132123306c8a; 0x71634924037515f8; 0x683986449899d154; 0x3cd1060ea806a997; 0x161e4fc8a9ab31a2; 0x630a3518998852f9; 0x732887da7ae22e0b; 0x6cdec6f7b718009c; 0x20832eebad71c762; 0x683670da934da9b8; 0x27258b9081a034b1; 0x47a3df3421e4536b; 0x19cfd240b55c48c8; 0x43105ec013f02b75; 0x5a2ab6ddc31b835a; 0x502858b73a05a070; 0x28064467371d81af; 0x2f40dc7ae7c5e814; 0x28bb96ac2892072d; 0x2f77b13a791c9384; 0x2a3b9a704195beac; 0x45bd5b6367577297; 0x73a3ef2e5b7f2301; 0x442a90054d866801; 0xc10dda0db6f240b; 0x37d9337d60df694; 0x7a93ac7ce0c29490; 0x46def874cf159cdf; 0x9b0659bbf74639a; 0x3d0cd960f9bfb548; 0x1f2c6546f3af6366; 0x53bd56cf77289126; 0x413e574bb0ee7f03; 0x650945243a2e0966; 0x5301d80b2db5b77c; 0x35d50265b720d2f4; 0x768827b01b09ea8d; 0x4558b3808ff2fae0; 0x3414b41668078eda; 0x61585319358867e; 0x4721b4a7aded9e9e; 0x4a6438e5318b30fe; 0x31dfa1d47ab4b5ef; 0x6c5c1cbec3d55363; 0x35ecaac143a49b2a; 0x5d927778bcb44732; 0x45b5c0799839c30a; 0x5b6dbe0677d88034; 0x5b92c98d6c3c1658; 0x3c51c5d81158c785; 0x2c2cf1058ed1758f; 0x41d9fe35cf7a7d71; 0x6585d21bd42f658; 0x5a28fd9ee4a6013e; 0x53ce8e841559a97a; 0x24e512f2d683d165; 0x4262cfc4f9e52a0e; 0x29446befa7159f30; 0x567f60b31b6edf7f; 0x1316e0b4eb9cdf7a; 0x63620a2924176067; 0x531077168ace027d; 0x223d93b29d7e5a3; 0x146380fedfc87945; 0x37479438e76a5d1e; 0x13e2d37c2f4d121; 0x5e179d9912f47f3; 0x3d95e6d83830fd30; 0x795036d8be2b71a1; 0x17b01320e4fe576f; 0x7eae038662190d73; 0x2c1b808951a891aa; 0x35a5a0afd58b8928; 0x6c018b16f4de60b1; 0x437f0eaf720fae0b; 0x702398860b9091c2; 0x6da133debe14242f; 0x49d47634c3dc04db; 0x4480aec81a8734e4; 0x4e775f3bfc22eb6b; 0x62661ea35b202da5; 0x5a9922da0ce7fc54; 0x6d6d360c7861a6c1; 0x447d457cd15405aa; 0xb3a1f7ee2db41be; 0x2b33491bb99bf6ab; 0x31a006bbe49532fb; 0x5a45825c7a69b5f5; 0x43c8cef938155672; 0xff3c720d93ee26a; 0x2b2f9f54013f693f; 0x56aac554fcff4ab5; 0x4bb9ebccf53dd3a3; 0x5f4fa99536185852; 0x611c3df6d94731b3; 0xd2609aaacd87ad4; 0x6635e33f64d986a0; 0x50b1c0539edfe50b; 0x61ab84f9998ad7c9; 0x599c8466445ac2b1; 0x1f199b2982ea9953; 0x4f235d34d2297bd2; 0x18933b46eff3f710; 0x13107304b8b44958; 0x33ad1132cb4b5817; 0x7ab2b276c7e221e4; 0x585f1fc12dde4e4b; 0x310577a6b417c9ec; 0x258fea0b9c86dfcd; 0x2fa6ef80eef4f960; 0x35e145d867f980d2; 0x1c7b6e7f9d770bd8; 0x44145b773584c1f4; 0x93ad1fb8ed0152a; 0x4480221055fb4c4b; 0x6308dc3b2c88f1aa; 0x6262b9804e49fea4; 0x265e10c3c672b162; 0x3318710ab8f3b022; 0x1a78c31bba363ae6; 0x5a89a1221a8c2f2; 0x1c607328bf69dd1c; 0x2e8ca4967ed45024; 0x6071392c55fbebbf; 0x4e5ddb42c536afad; 0x3d2b81c2ba950a27; 0x22ed7bbef354b2a5; 0x63e1e7edb0740819; 0x5e5a52d41b7c7281; 0x11c59c9fdfed89b0; 0x6426d9a8c07ccd7f; 0x7fb7d7d90147b1b1; 0x965e9de81ed4976; 0x5b42a89e236b7da4; 0x7becd689a6e343b5; 0x637a628cdf0d41bd; 0x6d57c8c06949ed4d; 0x19a3b44a5d148657; 0x5d530a37720d1d77; 0x7c2713a34471c929; 0x577745f6c0595bec; 0x693bffe80c600575; 0x7eea03308868482c; 0x92f515ba1ce59a; 0x2642c2f8bbabf0da; 0x4f7fb77fe4ac71f8; 0x61a1154b15bdc06e; 0x559317f9be5015b5; 0x269540f873e635b; 0x62a59aed2ce860a6; 0x6fc6082fa92c226d; 0x5e6fd8d4aa533318; 0x21a9b2c52d2b463a; 0x5765a4364a9af511; 0x5d7cdad7a2d29edf; 0x52730180b6f68585; 0xdbe8b074b214043; 0x6b3cb0ecbc2c3a65; 0x2c66572d324f363b; 0x118a96315f59f38d; 0x41e671071bb052d0; 0x63b453e1ca2a8450; 0x7b65149d35150d66; 0x682ce1514a233640; 0x2f96554852a061cd; 0x5bf63afa31dc0833; 0x640144d423eb498d; 0x7e38b06e5cedc115; 0x269ff72ba14312d7; 0x4a138a338eaff5f4; 0x51da5410933a27b9; 0x5458d7ef621079ea; 0x32d5fdf493831260; 0x5497b8e23002c243; 0x2c3d1ed74517adf1; 0x131fdfd6577c0fce; 0x389e572f41869bb3; 0x7bbaad65fdaa4b44; 0x1df496a34bed200b; 0x7e05d02097cbc8ca; 0x54ef6f500be44785; 0x34e3de84a4e8fff5; 0x42d57e23e97e3509; 0xa1b692ed2f3d14f; 0x25225264e7911cc4; 0x104a53b59e38d91d; 0xfd12c378ab7367b; 0x43de4afce72533d8; 0x5303633fd86b132a; 0x5fa0370fc49e3e40; 0x1ee453511e0426c5; 0x5ce106367c1fef2; 0x766aeb304c27579e; 0x2e5e543d0c244c43; 0x599b7a9f06a7ebab; 0x486e918a4287ee16; 0x7d5bbb6ef87e50f3; 0x66b86ab504459b12; 0x3414dc0e0ca333ac; 0x7ff66c1b4af77709; 0x3da1e83f294c76e1; 0x7d3ef770b5fdf18b; 0x61b028d1ac50c28c; 0x7b9cf9b2d1115519; 0x62a778f420cf3ad3; 0x3939a9ceaa7bba67; 0x19752db3a21adce7; 0x7b79da2a1164e769; 0x212f64d027f5d143; 0x6d9037fd067b4ae3; 0x3cb8cbea3df2b214; 0x4898467eb36919cb; 0x26f32bc90a4f8833; 0x35aba5131acdc37; 0x1f45ab79e38a2409; 0x4b59cdee0111c3e3; 0x334637eca815f5a9; 0x3ff8f693c31453d; 0x238fd6b90970294; 0x76b1d7bf886ca153; 0x75a0a1b2257b485e; 0x6fae35099a29180b; 0x7af2cc62ee43afc7; 0x29849253f59ac923; 0x2b35db77a816cec; 0xccf2d6ba4fe78d1; 0x676537d7f73258d3; 0x38a87f5bbeeb7905; 0x6ed95fca4d99cb55; 0x68086108be6f9b1e; 0x21639d72daf0297; 0x54afe399191c3d1b; 0x75785bd1d622b6be; 0x160c038aab0c8f28; 0x39b24dc7a4c4f80; 0x2a8914491d5f12e5; 0x2a3fefa3e49de08e; 0x5a1bce0c44604e3f; 0x5ca7693172757e23; 0x22a367866bee0736; 0x217ab17b3f6b7e86; 0x53db6e0fea008e5c; 0xc969128e1b3306c; 0x78e9f19560ea4fff; 0x42a761d047e951aa; 0x3ed367bc915bcb45; 0xca6ff9fd150b15a; 0x1f86a0cb332b45d8; 0x3c5af108eb06157; 0xc16c115b1300b9; 0x648a784afa4928ae; 0x48eb1454966a9f30; 0x351de436e72c757b; 0x7ec89d66e77bd6c6; 0x7b681ba8ab791696; 0x676cca69784a3136; 0x4c9141f0dada7ebe; 0xa2602097e4bad0e; 0x55b070a2762d5f1e; 0x1fa1f76f0e9d060; 0x209db42f69068af2; 0x1e10c284797f120e; 0x2b230c6f44ab2ca9; 0x29f29f575e33352f; 0x231cbbef02ac9868; 0x6cf6bf7a498e2884; 0x48af58adb8fb03b3; 0x534c2bc1f10436b5; 0x6266ddf39c9f3ada; 0x1ae38df81cdf64b1; 0x7008bfa2b05090e3; 0x3e70d9c9ddd408d0; 0x425e0ae5a9aa2ebc; 0x1deac6055086f165; 0x6dafbbc5951d1284; 0x2d1a1fdbc842a553; 0x8c6c2acea88cf81; 0x7dfb61fd1f6bfb2a; 0x568ff21596b8612d; 0x59576b950ea7d34c; 0x746bcc35fa886f9d; 0x7e1e6fc7fcee115b; 0x36d22910caa55f30; 0x391c90a42c667f2d; 0x60b05461e7ff2d9d; 0x26ae093b93902d5e; 0x16eb1a67bc5747c5; 0x60f3b2d1980d7736; 0x497941e31227aa41; 0x79ea0e341505b8a4; 0x197d0a487c24869f; 0x16d7743960f89ec9; 0x17dd65d0eb29f68a; 0x4ed4b2f11f26874; 0x7b2386dac54e329d; 0x6ad716574add064c; 0x595eed7c6b3b71fd; 0x26780a572cb811d5; 0x4bb4b913bc87775; 0x7d894f79f56dac33; 0x7f93d574a7cd6994; 0x56b0e9ad073a1806; 0x3b60570a6e4ae648; 0x1b560bdc37e5c55f; 0x184fad5aa8c172ed; 0x6008508a05096913; 0x2be5dd33a79f3af; 0x2b48740c25c491a2; 0x1f73ca0963ed3e82; 0x419d732e67ec394; 0x23ac722206dd9681; 0x67baf2b262962e6f; 0x9382c542e21cc38];
   [0x1495b3f57f0d38d1; 0x606e78a4be19a98f; 0x66d80ae76be94cd7; 0x712dcc3c61b4cc37; 0x235bfc40a73a3853; 0x2c89bac388d8db57; 0x235322f2b79a5993; 0x5ceae67ba53923a3; 0x6cd9b19e73e4d0d5; 0xe5ff6fe25771d25; 0x5e56333203ba2bb8; 0x3a3023ac86541173; 0xa59d02952587fa6; 0x556a2b1cb202accf; 0x640bbd86cab119df; 0x33557129c8dde69f; 0x1a0e2a0c51a6d55d; 0x71ccee7f7b2bb57c; 0x762f669aa6615464; 0x3c7d788797a58513; 0x69523243a4750263; 0x702cf0ffdc83eb7e; 0x260f8c91757c63c0; 0x32864c425200b8e2; 0x725c41669d9d0559; 0x59ac301b9d0b8c2; 0x113f8d14245bbb29; 0x63a048a3df3689a0; 0x70810a06a4db53c5; 0x524e286ef1b82868; 0x260473b81ea681f6; 0x6ef3be3542f7a74e; 0x1578c058d0d31b44; 0xaaa76f197e7a2e1; 0x67ae47c4058a4d29; 0x5c3f8722f162e476; 0x75ed253f4c7c4bf1; 0x2d695861c7d075cb; 0x7ef4c1b47b2f4ad4; 0x7ae7c35642ad663e; 0x77701ff5fd81dc81; 0x58e539040fa8eb15; 0x6c10456c97072950; 0x39498f4dc3d89c5e; 0x27aef9ae11261420; 0x199e52c510f771bd; 0x72341853c1a62fa; 0x6740935043fe99bb; 0x4c1313e91ea824c; 0x2a8e51545e884dc; 0x6b5e1a1501578e; 0x33f45819e1eeba72; 0x747740b68d280255; 0x5d32217d4cd0d40e; 0x22861156117d150f; 0x41fa6f7d1bd9b0df; 0x47834bc82755adc3; 0x35f45880cd646b63; 0x78d55e87e64376a0; 0x5c3216710bb5cc62; 0x2a03346376742dab; 0x60cb504d78810943; 0x42e84b125b858047; 0x5e9376dfd83fedcf; 0x44e1a71fd93e58c0; 0x55d6db46498d25fe; 0x6cc3da43840f4da; 0x1792db179649562e; 0x692e10b710897d9f; 0x5af677d9ded4ad8; 0x49a9026c81c71b89; 0x510096613dbf20bd; 0x6f53614323283429; 0x4126629df8660352; 0x672fae8197a8f42a; 0x57405ffc2bfe2204; 0x428a915043f0762; 0x6a601fe9d3f10e70; 0x63af62fce7bddb60; 0x16e85c4cf2f25d3f; 0xf24f5880fad5f0a; 0x6d53b3842d4a4d08; 0x49c353cfa2bd8ae2; 0x1213d1cf57b605b0; 0x6bf50dec308a2b8e; 0x3e4b7239357c5e1; 0x18f8e7683e7bd818; 0x448c1f390757d783; 0x4c9926981fb6260e; 0x5d2e844d89c3ab91; 0x7a27552bc37fccb3; 0x2eedc829a28a755c; 0x430d9e918130e3bd; 0x40a59a8d5299ea4c; 0x72fca4545f54bb24; 0x7525c0c7e96eb23e; 0x43ed6d0acc83463f; 0x1544017eb9cb2498; 0x707c321c9bd66e0e; 0x5a3b9b82b47726e9; 0x35938bcac72c4409; 0x7a84d68d1a9704a0; 0x5438f70d394632a3; 0x30cfaa7503c3e725; 0x31b581ef25b65507; 0x6db52fa9be7a42e; 0x677bd686ec25dc7; 0x78d391fe5a5cb40; 0x4f33325c0696d27d; 0x171d1c47552989f8; 0x19734ead5f8ea0bb; 0x4dfce398c8cb1340; 0x6210b5bdb05d02f4; 0x2d712513e263c000; 0x7dee786ff60294a7; 0x179a8dc19811cf37; 0x749d8afed08be2f6; 0x5b77b7a7257ad676; 0x37a8065a4b99741e; 0x1e2b21e21579676; 0x40987fe5e3134b7e; 0x4a36cee4db2e63f4; 0x2f5180da1e4ef66d; 0x6b022f57692e1867; 0x2ae5c7d46f042fbe; 0x37f6f4f92e70e534; 0x6e93baf1b137b7fc; 0x24bce5313be22ce6; 0x75a77fd262b76137; 0x7827104041680040; 0x5ff048d9ad94dbb6; 0x54d4d28b3b239a48; 0x7caa4c3ba551312a; 0x1038b4a1a79e6ad9; 0x1764bd1d2e7aa9a5; 0x5c607351c0dfc5d5; 0x3a6e89aa488649f; 0x19d74ad77aeca27a; 0x7d6729c26a69d2f2; 0x432403259e79a4ee; 0x5ae1cb776d8c9874; 0x795815276f1cda0d; 0x6844d687c9f9ca8a; 0x53c8666ad9b980f3; 0x5f76e98a09cc67e0; 0x4419bd05d450fc88; 0x4c428ed8ebd9f819; 0x65782d7a4e149c2f; 0x55057d483e2f2013; 0x2e0ce08b1fa4ee48; 0x73db9c81851991bc; 0x404a2eadbd899a26; 0x23260774d357961e; 0x7c944df4cb5ebf9e; 0x471c6a702ff8133; 0x9fb2d4a7065152c; 0x172674f709dfb4b; 0x5f4acc4f6381c5fd; 0x1296b56841a8ace7; 0x2836f5ed20a4916b; 0x482d7f8b53a5e38d; 0x4672458d12749ada; 0x688e6064fa901a5f; 0x1af085de3bfc49be; 0x6d55d15e89003ef8; 0x42f8e829e7e04c14; 0x346b960081819856; 0x2583d85631a3070; 0x152e589f240e9af; 0x4a563c67b2a32d24; 0x12a46cfc8685d97b; 0x15690b6059b494b8; 0x775146202271c2d3; 0x4220445819c79689; 0x4b88b7a97deaaf5a; 0x5809c6936ea90c69; 0x25a889e6c0ef3b57; 0x19497a19beddf005; 0x4094558d3e52662e; 0x21268ffd954bd81a; 0x732aec28dc64a67e; 0x71943c7e8691ef0e; 0x2c0f183695b2a57b; 0x898499df65e0318; 0x5bbdb3584816e024; 0x31391b20e4bbf6c4; 0x32bb4484ad48be3f; 0x27e14ff014f0247b; 0x4408f197467ffa59; 0x6cfddf8ace83a53a; 0x570549b2e095df66; 0x502a1bddeb9fba6b; 0x5b2e773a2457b3e1; 0x6921b3f6e9af0518; 0x3b44a5236c951381; 0x6b1fdf9d726c4f28; 0x484a9251ee5189c5; 0x3142989801e0506d; 0x5542a8a198cedb97; 0x48ad49f7fc801c81; 0x1e27f5f3efe324ed; 0xef94e9a55e5f8c2; 0x64552dd799d5b5ed; 0x762756235f9f1385; 0x19f0abe5a48b5772; 0x61421f62e00d7798; 0x3bc35ade0c7154de; 0xb53bfd250f44a56; 0x49b446a12568cab2; 0x7ee2f21db7577504; 0x9aa3542e5cbf772; 0x5f20a54a54545a57; 0x4518ea825b0e655e; 0x2dcb139540d42bd2; 0x50473d375df73337; 0x1ef3a732471c1f4e; 0x189e5cce7b6ca24c; 0x3ec2981494fc8191; 0x19404a1e3e4171ec; 0x66b680b9197ce60; 0x5cb8aa0732bd673b; 0x4f7d75e5af534934; 0x2cc4eeeea21fd160; 0x77938688f6cfec2b; 0x3c041f2e0b740857; 0x7597e116a84ca663; 0x602052f15cc452da; 0x288e4e86bd35d316; 0x14fc33b664775bab; 0x2190fcdb112ecf52; 0x7669711c7ec1857a; 0x4c110ce8d0bb7bdb; 0x4427f2ac7d00d230; 0x2c2ff1ce2bf47b9a; 0x4be4d73c6419e13d; 0x517e2505f905c3e7; 0x4926de7f9e966ce8; 0x586498fea4b535b5; 0x718b0e521d259e41; 0x427ea66e7dbf4d8; 0x1eef0a9844724f7; 0x57d1e2975daf8300; 0x7deda48120d95f01; 0x34fa84e25529725d; 0x71310bcda5fcfeae; 0x2f66797a0af1b547; 0x3955c25acddc1c89; 0x6f5eb4db7466e26f; 0x386ed30ceb429b49; 0x7f90638c181daf7c; 0x7719bda3fcb78991; 0x3f2a353d1e79725a; 0xd8219e043e1ed6f; 0x783b9201066513be; 0xebba176743b2b12; 0x48ca44e6f2c7e0e4; 0x3f3525b7fa649e66; 0x42ca6c1214c38276; 0x605f9ac66753f2a0; 0x29f7425399588065; 0x6291d7bfae1fb606; 0x3e0ba60d22b9538a; 0x5a3d603aab16b1bb; 0x2ec5e48dd09d5431; 0x421f5d8b806d19a2; 0x6a3224ef5b50d11a; 0x25092cb0ee5577ff; 0x50ab9b07f6275fb7; 0x2dd7de070f574203; 0x750a4fb33a14a3c2; 0x1bdc6aa25294c434; 0x3c1fc4f669bede67; 0x6f0dfaea4016fe80; 0xbecb71488010376; 0x529a0b7a1d916c3f; 0x5857558f505a40cf; 0x223081f8691b9525; 0x6bd18e44ae62933a; 0x297dc3f59267e3e; 0x6c61740863ac1d1e; 0x21627e73f6403a69; 0x36fe1afcaaf3bde5; 0x1ae241f0849736c0; 0x4ad0d5cb37f1cbf2; 0x5f8190dafd044d07; 0x48b3224c796fda87; 0x26f93bd1ef6238d5; 0x77e80a92ee4d3359; 0x12385f41e74bc0b9; 0x198f1aa509b6e5de; 0x2475300e652ed062; 0xe6c3d52cf04a0d7; 0x574c15cf56529d1; 0x9d3f77916f457b; 0x3e482b79cf0c33aa; 0xc30ff99764187dc; 0x4d132d551dd910be; 0x5e141a23cc3bfab7; 0x61f15699f0e9dbf8; 0x4815b637e319e76c; 0x1e0c3b8661608178; 0x14ac47de004a9290; 0x314cb4bc6733c116; 0x2a64ab4cf1e1379a; 0x3c302249fefeb1fc; 0x7846b98689543d93; 0x5a9e351741d7345a; 0x17d965f6c78aed23; 0x1d1c5994ba0f0650; 0x71151f93c7515b96; 0x5e34d7457ad24ce4; 0x2582735a143af36d; 0x29ea39418576d78d; 0x381a71ea2c51a474; 0x4d2e28d42b977453; 0x6e9e0089c0938bcf; 0xa67f25c0f5ed513];
   [0x6efc87045f35c17d; 0x208aaa2bc2f4fdaa; 0x5b7750c412196bd; 0x7c90e921797a762e; 0x4133ea69dd29e4c7; 0x1cc5a13f0eb04f9b; 0x7eef9366a6de01f6; 0x8c9217676ffea92; 0x6acb6a0a56c47965; 0x606834e89c54c225; 0x51dc635b4784d01d; 0x495bf08c514cb41; 0x14ade7e7469d5234; 0x2ffcb470039a2d35; 0x2a624d04fde8c2f3; 0x46046715da120c39; 0x43fe9487f55102e2; 0x49fad171478a65b1; 0x31834640ad96704a; 0x4e2b52ef8b4ebbf1; 0x1ec72756296cbc3f; 0x598e898a717a7a95; 0x337d2c8a4cdfd042; 0x6dedaed9953a860d; 0x1498f3a4e0d33414; 0x41c5dc6228c47b53; 0x6009d2c9bc198b69; 0x3c7a575a7ce69dab; 0x2fcb4099e106a76a; 0x7c6b658248ac2ef8; 0x792b38efc69753bf; 0x465c041770cff0c0; 0x22eaca23dd9fbae9; 0x2e595740f5067251; 0x5b735926d9a47c04; 0x2bb3fc7f9cd7b47e; 0xb904e2480a0fcb5; 0x78b2a23b41cedaa4; 0x40fcd898d5bf9e64; 0x1f78aa236e2174fc; 0x599510dc06aeed37; 0x65bb97a34b194e35; 0x6b3913a8229a2ee9; 0x46c1da57d9e2ca83; 0x70432db5e44ed0d7; 0x3d197304d731df40; 0x29ea8db1a3b08da9; 0x42c0da04972ad4b8; 0x45d506bcc01ca393; 0x18e2316c695e0ef1; 0x16e2686519277f65; 0x243dece3e63caaa2; 0x24153d7aac4ad835; 0x31ddd58a0da990f2; 0x3a760e15431b12ca; 0x7c0f5de5dc42816f; 0x709c9f4f20756f42; 0xfc294bb50bb5091; 0x8ad0e79742dde9e; 0x81b4c59acaa2b92; 0x318bb057bce0b35b; 0x4e8cd953a780cec7; 0x17c07c4c884d6aeb; 0x6aab17b3969b8315; 0x32a06812e8152fc2; 0x2884da94d24020ee; 0x60bc5ad125784a08; 0x2da54396b8a867a0; 0x5e2dbea413509d07; 0x64b6e86718a3750f; 0x52580e5fc33a5660; 0x706ed0384fa5bc60; 0x4e4768c33f97ad71; 0x2a79a8e6177db90e; 0x1e595072573ae025; 0xc79a4b5e5175a7b; 0x61753e8a024aef18; 0x312a319d9ff2a301; 0x4ecbf8a5edee516; 0x6dfb2cb11b9763d3; 0x4f1b58805862a150; 0x5b662323fb2c9773; 0x522a042941af0e9b; 0x7774ee56b934adc3; 0x4d6e1261eebedf80; 0x6403fd8290395f96; 0x2b90fe8893870864; 0x64177a7b9f2f3e7b; 0x1d547c155c0b7a9d; 0x1f822da85d9be401; 0x67e11d54e4cc38da; 0x3d52b0b40bf629ef; 0x5904a4f4997add75; 0x208e8a0619e8b2dd; 0x3b1658dba0a0fcaa; 0x6ad21a2f0aafce9d; 0x5ccb145103f5a011; 0x64924b78715b47c8; 0x7259293ad48ce506; 0xc0d4305aeedf9cf; 0x6adc1f5ea493224e; 0x60c0a99ae5cb9f85; 0x545c00a4b98c25c5; 0x1f228e6cb76a5808; 0x3e52cc11bef3001d; 0x5113b4e0883e60a8; 0x3c552159c25eddb0; 0x6c6fd7a4f6a4da37; 0x3d620a926f1e3e07; 0x7afd2d799334c9cc; 0x4f4a4769057523fa; 0x7339a411ee85980; 0x3101d235f699012c; 0x524abe4992041d5b; 0x3fb8514d9c573d94; 0x43789380dd27379b; 0x7ecea6d77aa83f18; 0x2c32e373f45d912; 0x1c0389ba8bac431e; 0x7969513d54a97401; 0x28d011a73632a691; 0x7964b58fb85da33b; 0x78b5a2f5afb46c8f; 0x3d4b5faa21cf80d4; 0x47dba9d5868e367d; 0x6fdbfe6fef742a24; 0x7e0c27fb9b9a396c; 0x1138693751561163; 0x4bd6f158f83f870c; 0x777c48a2ff4023b5; 0x57a354e02e054c7f; 0x12d4d615fcf95192; 0x1a22c8b85df8963; 0xf859c9cde2d3636; 0x15f5977018ceaa0; 0x7f91d09d1b3e29e4; 0x2a94ad375706aa55; 0x4ca4d25c38200c68; 0x54e0f764036908fd; 0x35bbc121d7f64dd5; 0x7d079f91050ee76c; 0x6046a1eb9749ad38; 0x61e1bff59f8b70ca; 0xd15c4a4e3de7084; 0x23bd91ae95a86368; 0x52ee134392d5778b; 0x5f9139691411b34b; 0x14313a918077b228; 0x2605a6f61300cbbe; 0x32ab36799999380d; 0x613c0169b468a115; 0x63c78dc99e9c0a76; 0x79ae04687b1428; 0x4650c3531982fa51; 0x7ed0841e61e3a8a7; 0x5ab45b786585e46a; 0x4adc9150b8ffb00; 0x11c691903c7d670b; 0x15a47f3103ec2d8c; 0x59b124be0079e3a7; 0x6f7d298351d08b5; 0x20f95c25ce509c71; 0x2217b8d41db6f6a0; 0x435cae11509e1dc2; 0x4bf1916fefedf9bf; 0x6ae202c06ea52120; 0x63f4ed839a46e325; 0x7e036e3a9e00672; 0x7daba19a04b95843; 0x792791afbf1c25c1; 0x511e81518cfe0c80; 0x5bcccb6638244fd2; 0x187ae62fb6c402de; 0x51104118d587c98; 0x43679b9070641727; 0x2ae3771cf4e24a77; 0x7aa6b41c8a146d2f; 0x5f16f85019314d79; 0x5deaf4e052787c41; 0x718a74356dbdee1a; 0x6900409970a57d3; 0x53c3f2da18ebc809; 0x27834fd11231a144; 0x71ffc4eedbe5803d; 0x7569c2a9f31bab30; 0xe9a1d1a64e28996; 0x49ce4d6c7919c82; 0x413cbbe4d86914a2; 0x5e41a28fa4aa0361; 0x5e5bb732ca34d730; 0x58324145c2f3b988; 0x684190eed7c15e9; 0x3077d99169247577; 0x215220be7dd2cd45; 0x3a4c2d65a430a083; 0x4f3f87835d398f7e; 0x311548828b16c00b; 0x370d9cef1dde10a6; 0x409b0f91bfcba916; 0x50952ed989e0bda7; 0x60aecadea313eb29; 0x5d5bbd3d63df7ba9; 0x58f51788d1c61684; 0x2cf31819c03e844f; 0x3ba0deff40508511; 0xc3f43904f41e10e; 0x1a5a8aee91926e7; 0x4dcd592bd6904e6f; 0xf0aab7629d3c789; 0x6caa72d55034367f; 0x5ce31036ba1b0764; 0x53c66a6672394233; 0x6f4995ef016c031f; 0x7a8773978643e73c; 0x782da3340a2288a8; 0x325181a432933531; 0x683ec27aaa634216; 0x2799bbedea358a49; 0x7e0f14d7a8145fa7; 0x5d5b2a7ebe8c6256; 0x8501bf26ab469ff; 0x76cdf1ca9201e6bd; 0x4107ccdfbe997388; 0x73f088e4430db959; 0x43ac93403dc2df16; 0xe7e5abbd9843e80; 0x46ade91423ff7016; 0x3a19c7a06cc352b5; 0x53cb80039af83477; 0x563d7317901fa79a; 0x79cf384de436629d; 0x3b7a528669f2208a; 0x6c85b0041327a1a7; 0x63ae15bbaf875487; 0xa28166b119bb6a8; 0x26a33a1783ca4fd2; 0x40d7e8fb0e94699c; 0x24db6532cd5afded; 0x4328e25c677c65eb; 0x7d474316facc1be5; 0x558707288012843d; 0x63de3b8c5b352506; 0x1bce6e3f946bc08f; 0x39004940e02ed92; 0x1053342511ac4409; 0x314cb56bbc167f47; 0x7b6cee35bc16653f; 0x41c2a1752f45b82d; 0x13add7225e6cbfac; 0x54a1e6f5209dbbb6; 0x4b2bf9568e085f8e; 0x382d29bab69aef7b; 0x245a5fdd4360533f; 0x3e58ce7ebd00278c; 0x24adf9b03b25f16c; 0x6bf96496a1e3334a; 0x47b96a0b2cfafc03; 0x14ca0ec2ab999c9a; 0x35d84731c76c6f61; 0x1d1238849e6b5ac2; 0x2394095b32a439fd; 0x60782624fb903174; 0x3635a8e844cd51fa; 0x500d516cef1de560; 0x2cd90498798e25f5; 0x767eb86992093536; 0x37fcae79012c87f5; 0x6c587d352964bf29; 0x7c18a74e5b260062; 0x62d8d340c0edbf59; 0xaa26274b86d8b75; 0x7a2c1bb5fe6480cd; 0x46fcc8600c803266; 0x2a01b36cda416221; 0x2d5917059dc53e22; 0x34d278f1efa37875; 0x3a1868858e3a496e; 0x4336450e3324e61a; 0x1b3728b49e5cd9d; 0x7e4cbc11de821b09; 0x56fdc3ba92d722aa; 0x73bf8fb2423378c6; 0x6d67e36cff680ab9; 0x783d06492a4e54cf; 0x5f04a025742bd139; 0x7a0a64c737aa2254; 0x1259f01151155ac8; 0xda170ba4c040459; 0xf0472c76754e657; 0x276e22b19bf91ef; 0x4de9ddad615a461c; 0x209bfd07cdc2bc36; 0x475bbc9ec0525c53; 0x16ebe2c5dc18f7c4; 0x7eeaf1b4558413d2; 0x695ea9ad452aa310; 0x21c8a5fe1099368f; 0x14d8053bddcf2223; 0x2d12a52465438585; 0x1eb83a45731f4d17; 0x5219255e4c7cde38; 0x5bce82a7aff2f9b2; 0x1930047f570e0ca7; 0x6902ac3ef23d4f7f; 0x29da04f693e9d687; 0x143fa7ad1d1cc721; 0x7244b7b7df14669f; 0x49164751a59cf9c6; 0x3794e0f92fa3b07a; 0x6ac79896c5bda51f; 0x35a07c1b030bf428; 0x42fba81fc51a9419; 0x54613ea5b8d0c3c9; 0x18824a2816ed2f6c; 0xd8a2da3faf6e5ac; 0x4e16d2be6c2e0d6f; 0x3be3ae5edcc7d9f];
   [0x7ed0ba933add93d9; 0x41a260dcf179cca8; 0x5faa8ffc7e0b7ecd; 0x6826e562daf596ef; 0x5d37976379689306; 0x14d555f5bbb722e7; 0x375071340c2a9e14; 0x76da9475e3357ed5; 0x34d3d065587d674; 0x3df451194dff76aa; 0x457c2449018106f1; 0x4f123f4432ea307d; 0x373423c44d32cc67; 0x7f12557af36d66bf; 0x240b9928032335b6; 0x14d3916fff72f9af; 0x41a9f27a39603e47; 0x750e35818ee90e30; 0x7059d5155a6bdc66; 0x50818d1fc8b6e0d3; 0x15e4df1a6fe46d21; 0x2c36895a03217281; 0x2bba1653b215784; 0x2c79f3f22d09bb86; 0x72ec12ac38e9aabd; 0xda76c3cd2602926; 0x2add7ac547beee34; 0x705f250d26434e32; 0x1001ec7a31b8d74c; 0x72d394a8c9d5291e; 0x7a274af6d0e41435; 0x412703b883d1ab61; 0x49e86bfa1ab0328a; 0x420a47c35f5219a2; 0x73f24c76b8d41908; 0x6340b1f70f0cb9db; 0x1c9e121869ead09f; 0x66f830476841ca47; 0x1411fd62410d651a; 0x7007a04918f8fcb; 0x5b06a7914409aec5; 0x30250c4aa59c1976; 0x395a49f6f65dce78; 0x3decb59d136a93c3; 0x413456066d47e036; 0x30179e2eaefda5c0; 0x161581b13c1d5c4a; 0x2047a6f74f60737f; 0x4a328e0b073e498e; 0x710fa11ddc15ba5c; 0x34f0adaf65845529; 0x629c11383f93efe1; 0x79bdd017518bea54; 0x62ab49c6a728eeb1; 0x7ea6a662050c55d; 0x29bd442c8b63c5bb; 0x1cf7e70d92ee37e3; 0x5c4638aa0a96e11a; 0x18775ee5781fd889; 0x677441a31a06ba50; 0x45c439e0eadf51d2; 0x269f1a867ed1d126; 0x2045afa731c2a40c; 0xdd253cefa21b5af; 0x815d5e7c6fdf18b; 0x21b6e8bdbb618133; 0x38ede9356ff0b06f; 0x5c8315f59b38d60; 0x5152f9252de5c688; 0x8545e30320f9ece; 0xa75cef944020286; 0x24db6c1d867d9755; 0x2cfdbe1b6f40c010; 0x46c2a80d6cbd7ecd; 0x101a40a4f7e1f3de; 0x76cbc5dc6811b5aa; 0x4ada4d51e3af91ff; 0x70f07d05c722cbe; 0x4e9947c4002a634f; 0x86ef4450d66731; 0x34e75a70fd51428a; 0x20aadf115481e270; 0x6cad618ec3c0bdf3; 0x7e58793dacd78d1d; 0x7d9cbd5ad408d754; 0x5b6991a3a3d41f69; 0x4d89e66631b3807f; 0x7bdb8ea8c16b5ebc; 0x1c313fd477d2e78b; 0x5662d115877e3751; 0x5217b83f792c7659; 0x125088091c22fcc; 0x3d7e90d26722eaa8; 0x37ff20ea4a369187; 0x5c9bbaa32a1a3854; 0x299251ba26f31812; 0x25a3ad5fe32887c9; 0x6f2f3f6a03119d46; 0x5842780425d1a666; 0x6c3fa8ea499d63; 0x15a0190a8dca88b; 0x6743b3ae0b08d5d7; 0x155ed674a65760a4; 0x7dec62f624f6bd81; 0x3852fc74b08ffe75; 0x55c4e02495d6647f; 0x40412e3fe22f0368; 0x23692666c9a8e4ff; 0x1e16abd68527d24b; 0x5e8ead872f071f1f; 0x3e486a00ce2202d6; 0x3597dc7ab4acb316; 0xa72dc49303ef74d; 0x617069a13add75e3; 0x11f9c1ab10540606; 0x2842c201c19bb00c; 0x1e4ae221a4013ae2; 0x113858fa5e4850e2; 0x68a9e43704feda04; 0x1d8734c1f7e0eb4e; 0x1dfe7201e3633d32; 0x13aeeda25ac5e050; 0x51a73757370af0d0; 0x6d5bcda59fde3a81; 0x47d0587725e5a72; 0x528ebdcc7363217d; 0x486a7b38f666d8f8; 0x703e3702a2f91f31; 0x210ad4f5f0d4b369; 0x2f1b9b8bc8f86c88; 0x4b72b02809256c2a; 0x2bf237bbb9cdfba3; 0x652ab72b9e824a1c; 0x7624dc7e68cca6fb; 0x18a46e4ba25a3203; 0x5aeb75489b0c8619; 0x1ab646efad6920ad; 0x1f23fdfc609c54a5; 0x2a2db8e569cff717; 0x7ec4c3de51e041cf; 0x2c00081e52058478; 0x665531654653c979; 0x54985964be8e1f14; 0x7dde2087217035ce; 0x22f5244efd732897; 0xfb54b4c94c8e17a; 0x7efe82fbf47ae683; 0x4f8a6be99fba6e7a; 0x6652c50c09d1032; 0x7907efdaa5f1fbb; 0x371c62204082244a; 0x7f38f00ef7300347; 0x44b088fce5910cf7; 0x28ec060674f0ed8f; 0x64e956bd07f2cac9; 0x7b92d35175ca95f; 0x6acfa0eb406b046e; 0x4c6e80baee6f7b6f; 0x1d62e22d85903682; 0x20388200bf0785ec; 0x1ade7920f44b1bb0; 0x29ee551c6e8c79fd; 0xb135632be8e3752; 0x39392d9c737a826e; 0x6b86a50d2d0eb2f; 0x3778183550126472; 0x7af0f0b5209fc6c6; 0x594f5217f0f67ae5; 0x758d858493c917eb; 0x1befab6cb8050db0; 0x1620c10a3dc8bcbc; 0x62565debbe06e157; 0x7a5cfa08d2e6088a; 0x512ea4c912522741; 0x5dee619e9c84b921; 0x6d5ce998930e9f3e; 0x6dcf52d8c55fb8d1; 0x2892dbf388e8a63; 0x46b7804ad70b8537; 0x2000d9ef40afcff6; 0x556a8cbf3c632ee5; 0x2b6da5e2226a464b; 0x2d516209a18c3592; 0x3db2fd13f1d2bb64; 0x2be40305dd962a5; 0xa5b0d2baeecc025; 0x4c151f412b1a881b; 0x4b6568a2e46c051a; 0x52241e629470e2a8; 0x31ce899d1e934e5c; 0x62ae96c05726a18a; 0x7fb8946c9f8659f6; 0x32921f6e3e43d602; 0x2635e1c80f7f080d; 0x5ed7487b3fbf32c7; 0x3accf69c2b22996a; 0x641827ccbdba3dad; 0x746308a2aa18356a; 0x49fe7df15910689c; 0x776b296913d0cacc; 0x7502a4d0a4b602b6; 0x3cb7814160493b4; 0x7adb64d8833600d6; 0x510e834924ce1b71; 0x3819dd04a1c0e21e; 0x6d7e8d6c8fb79f97; 0x6f5e47eae0380ead; 0x820614a6786c0cb; 0x1b2f18fdf24f8f84; 0x22c4096af2aa8dba; 0x1f536b5452be89f5; 0x382ab3ab781ec954; 0x33e731ec47fb37e1; 0x662bfc4f1a3822ce; 0x3b47da0206556f1e; 0x5ef378ecca82877a; 0x71c344b71bd345ed; 0x122d7fcf1630039b; 0x5b5e9f708236968; 0x6c026e524ed5a8ea; 0x249636b1e6eea7b7; 0x7ff73740e2735990; 0x2abbb95bedab27ad; 0x160531835809dff4; 0x3655190e8ddfad06; 0x73a43e47a79951ee; 0x9d472ad93a61d58; 0x662ba2edc463d0e7; 0x77be130be4103e1b; 0xcabef34ebe8b72b; 0xba1334297a3f28b; 0x326bcd28ddc8b330; 0x2cc0e584271702ef; 0x4a40fa41712a2927; 0x3b9259c06542bc0a; 0xd8f43530e4d4c10; 0x269efedb336a7b40; 0x1b629b741afb2db3; 0x5dfcef96b3ec619; 0x6284849349a3fd6f; 0x1062ed7ce5ccff1a; 0xd754f27b2eb0d8c; 0x28fa73302812fd2f; 0x4d3b39bb710223f1; 0x568f52bab87c9cba; 0x7ff16c5e46dc3ff3; 0x68e085c1e3b4dd48; 0x6c761830292eaba5; 0x6dbb1b91723fcc85; 0x378d0a5d39b5786e; 0x6b64c0fbbdf6ea0b; 0x64e441f8074aef6e; 0x3d7e021fe4fb30cb; 0x72e08fffecdc4037; 0x6c7b04ef7531da21; 0xae2914fbdb04006; 0x553243c57d9c9940; 0x2307d89bb0372296; 0x3a74fcf2dc5d316; 0x1315677ffa0f40b9; 0xf11bb433e9afa73; 0x23ce9dc3395c165e; 0x73d7757961a050d; 0x147b416156d97ea5; 0x7b2757ae6df6efed; 0x2472158de0ac6377; 0x4cea24cf41d1a610; 0x58dbd812e717ce41; 0x39d7a1ee95609627; 0x5b6a66ca8056a0f4; 0x457323bda1bc9b34; 0x4fb3770d657a2cf3; 0x6e7d00458fceb97; 0x1dc6ace2acb114fa; 0x3125c3d6ee14b306; 0xf34e61efa495450; 0x3b547c60eb9cc026; 0x40a71fe06e58823d; 0x2e79828b521f608d; 0x7043d3183b0865d7; 0x103a15f7e665ce89; 0x5c1e202c91b80603; 0x2389f6018580bc5c; 0x3eec995f3a72b5b; 0x4df91f68b905714d; 0x36fa53f1de1a7256; 0x2220ecb990310440; 0x59af2a4ad10c9548; 0x6cf157bd1dcacfb4; 0x19f880bfb4823e22; 0x5011f76876e1e87; 0x990f01d259ef37f; 0x49001fd66e3aa211; 0x4a733c3d49fb79f3; 0x61cd25ae45978a00; 0x58a4b5c3457dadff; 0x21ee4beccf190342; 0x3728b5c8d2257c3f; 0x5d7d918d36a00b5a; 0x61b1db0ceb29bf8e; 0x267465d7e367362f; 0x2f2978c8f9675863; 0x428c8a4a1b9b36d3; 0x5707e012a826241d; 0x24189cb27cccad3a; 0x46c981d9ba4653af; 0x687dbfce12b8684f; 0x70f1af6b9d6902f2; 0x5dc20f8419b4c913; 0x77f34a254f18caf; 0x7c2d53170946cc1e; 0x28d684d7608b99a3; 0x65ddba1a248e376a; 0x636b17331c1d6dda; 0x14a63dfee06c61d3; 0x5be1591d03625ebb; 0x9c0ecdb1a1fd11b];
   [0x56020be8aca943d; 0x7b813d7c36fb962a; 0x1947a804ad04e6e0; 0x6022336c66a849c3; 0x2cf39ad26436daef; 0x48f9d6cc8ff866; 0x6e0371f08af373b3; 0x22d1b0698ce72812; 0xa0cedd2e02680b0; 0x5ec765290daa5614; 0x5eddd43190f72688; 0x11a8f10fec039a60; 0x25f951756292d62f; 0x68cd319710bcd505; 0x5c862a753d64ad07; 0x35abd1d313dd9ff1; 0x6a09e5a050884960; 0x9e7583d42a0f978; 0x89ef59438ea0769; 0x1951d9b6cc6a0abc; 0x57f9fb0653e1b184; 0x10386b25b29e63f3; 0x46636330533a2a68; 0x3afbc236053580ff; 0x1999f5f9660c341c; 0x11541e7be5430eb8; 0xf8108b54b2fecbc; 0x400199138f48e172; 0x643e0f1992edafa5; 0x5a9312180c63c4e0; 0x2c709543ee1387bc; 0x73252053c315805c; 0x62903be1426d9345; 0x1b0f29d4fdb9236a; 0x5f6847d4e72b4916; 0x57cbac03752f89b6; 0x7363e981cb1f1bc9; 0x507fe16a773eacce; 0x1ca1b305735f70d0; 0x743a012366abf2f0; 0x3daa3d19b539acd5; 0x2d9997e0110adad6; 0x32fabe00692df4b4; 0x7b8897ea5cb7a65e; 0x1939971fd0605128; 0x264a207b34b9c35; 0x1de47ceef7984d8d; 0x6b4ac0120f203114; 0x76e56963e7662953; 0x65a7623066bdeb80; 0x4dd44b8e7311df6e; 0x48137f7cabf9a158; 0x1b0a842b1589e359; 0xec89ee3861ba137; 0x97760ea1272c59b; 0x6c053020b746a686; 0x32e38be45ed4012d; 0x374f59422d5072b6; 0x6572463a94ddf56c; 0x62526826c0e6b1e2; 0x2a05c55b3f8fd0fa; 0x2913002cbae4412f; 0x616c0a1c890792f5; 0x3e1de9f814442c65; 0x205b5eb8f4c8bce2; 0x1167af9e3a27e52b; 0x71e061071d36660f; 0x203922133dc79e30; 0xe37c1071b6058ff; 0x664105f73c077845; 0x1f930a94f2001fb4; 0x744edd1dd9617881; 0xe59eb11ae642306; 0x7a147a621ac90c29; 0x2a7efcf5d0250aa7; 0xf3e28e6c8b7afe6; 0x3f6bea516450d479; 0x4e7dce9a988b53f2; 0x30fd4bd84a24a770; 0x3ab227e3262bc1ec; 0x65b8a660332fac83; 0xf3b9842767db868; 0x57a0e77649508cee; 0x2a531cb2f3cc36c1; 0x3b4c1fcd75577196; 0x11ce187d81ef80e5; 0x3279e1e6d622992e; 0x766a6f5a4df3f58f; 0x2ad7dedb82910502; 0x3fe12d1adac549e3; 0x18daa1e4aa623f0a; 0x99c7509a4d13bdc; 0x46c52ed94d7924a2; 0x61ac7c1d146b3487; 0x1fc9891846549276; 0x7556cee1c8ca0e7d; 0x52d511d3733d3f1a; 0x43b8b8ef3ca6a618; 0x7df3da31708a67a7; 0x5213b0624cfc704f; 0x1d8cd7a5b8cccad4; 0x593acbf17b88d37a; 0x4341dd83e13d4d6a; 0x3f15493d993d49d5; 0x5731b529cbab37f5; 0x1d21fd0e93d88ece; 0x21553e545b1699a7; 0x64f05f864b8e6c62; 0x3bbd8be46478b9b1; 0x5fd09e3fb5bfdb20; 0xf2c0ee1d4bc2055; 0x247ab1c3d3743454; 0xce06748960ecd42; 0x1fa28c33b62843b8; 0x40bd848d62f43aee; 0x10910437504bc6a2; 0x5f1df8ff9025f8fc; 0x541b365c78683fe4; 0x5dd3ba47c4a620ee; 0x637fab7bdadadace; 0x10a54d084a0819a4; 0x409663eaa6baaf59; 0x66f9ff789ac8601a; 0x239b09fe74e797fe; 0x7135572f2e0ea4b0; 0x356c5c8baf1e468f; 0x21759400b49db520; 0x72e3d935c93c176e; 0x718a7b4055f120df; 0x7f563f3c614c50b2; 0x4624a8e3aac3b3c1; 0x76bde46dffb724d2; 0x45761bba1c41476; 0x6c990d24c74d4256; 0x385957678e2c4fd2; 0x1ca3a3b945520cc4; 0x2bbd850f3463c637; 0x58c5eff5b9579098; 0x23612d69ce172210; 0x38d50b032f10857; 0x318cb43dc47356a8; 0x2030c326d5f2365; 0x4998cdbb0cd00642; 0x61b29d291cee8143; 0x7c45182c6da99488; 0x527747c165d2393e; 0x21547192ed615de1; 0x4ece68ccaac0c4db; 0x557714fe422ad6c2; 0x3363229f7066f39b; 0x242ec2f4bfdbead9; 0x1a0e1361ed5d0c20; 0x2ce22e8949a46bcd; 0x31b7ea4516e4a05c; 0x60c48eb4dca2b5f; 0x5e75d686628c0f36; 0x1f39890a8fc31ccd; 0x68b969683f5bf0fc; 0x26552291ab9f8719; 0x69f26d21c55d7cb; 0x11e3b991c4af144d; 0x6e4b18d312ed76cd; 0x47565204d4940340; 0x3db6122b04fa42db; 0x396381cd9dfa91bd; 0x3c4bbe9b91c545d6; 0x2fca31ffc247132b; 0x6cab1e25be5e6e0a; 0x2651703f7e9bcf95; 0x7754045c3439247a; 0x42efa6f33db91668; 0x2a841e41a2753819; 0x6a77728cba17e6f6; 0x4419ce7907c9dc1f; 0x31f766d84d9e8c43; 0x7944995c8146f93b; 0xba7445883a5147d; 0x2242c509f384dcb5; 0x456c50dee313c4b0; 0x52cf838a32e2954f; 0x5113082fa1620dc2; 0x6af7d6758d3046fe; 0x27b1f3b5d525dad6; 0x474f5b2df1517eb6; 0x46fee95a01c3bbcb; 0x2626ffae10bae14; 0x7006f4c71981cba; 0x12da565d55a44465; 0x22bcae6efb5bc513; 0x7504da3bdd5cba40; 0x4d662dddc6aa8921; 0x288513bebc6750f5; 0x3b1d621ec18ca0da; 0x53127f6f9408905f; 0x257211b8730927e6; 0x657ec3d047933126; 0xe79c85d32501be5; 0x715ac584b6e553fe; 0x6ccc7dde07f4ed69; 0xec279fe38d8fc89; 0x60673072468da255; 0x266301ea19d90f0f; 0x13f2bc10fbfae6d1; 0x6dc36f6482689448; 0x67bb381bd5eb303a; 0x264952c9fdf690e1; 0x27d479abdb912a2f; 0x292fabd9436abe48; 0x1502744adcbabcbf; 0x2abeff5d468a4b01; 0x37fe2783c7a3e86a; 0x7849a63ab3554ee8; 0x3aa62467ef727f4a; 0x1c0c775693ebe0da; 0x6bd0dff76a41eb13; 0x3c9155a152292edf; 0x4a7656a21930839d; 0x10bf6c6c62f75291; 0x6b84fc50be1cc677; 0x4e7414ec7a6a411e; 0x836bd92108b9951; 0x5356b67a7ddfa511; 0x5628dd8133bf38c0; 0x5c7a473c8ff6a114; 0x6a1bd4e770e316c2; 0x469088a77a5f84bf; 0x298f84692122f7d6; 0x7565a87e327a7d1; 0x30c1f543b0041d9f; 0x75bb5d47131a0379; 0x6366cababdc5b70d; 0x70e6a131d975272c; 0x7f2992fddb5657c; 0x3dce2a7c1881dadb; 0x497ac640182a5120; 0x266f456b70a66b96; 0x1f99bde63af2fe65; 0x6a10f38d278512db; 0x5d24b44ea622a693; 0x397a318cc5593e5c; 0x346222e4c8a058b5; 0x43e01e3285a35b93; 0x17482eef5c7605ff; 0x6dcd9b66f1c7cc59; 0x19628884ff1eb31d; 0x65cf68584b0168a7; 0x67434cea262c6f3c; 0x4c694b838729b711; 0x4b25d34bd21b4f25; 0x1ed2c6398b26fb79; 0x4f402097d2a1a6cc; 0x1c9fcdcbaba0e1d0; 0x502d4c04a956f025; 0x45193c8b4cbb22b6; 0x5a94fa8d97e3d98a; 0x53cf60be2a5394a5; 0x3c868dc63599273e; 0x181230b5e500aa48; 0x5baabfecd45ccb6d; 0x53627c4bc1d13685; 0x405547668b77d815; 0x2187c679f39a5b65; 0xc7e9835ccd900e6; 0x2d3774446f714ba3; 0x6cb9b3b3c7f21c35; 0x6afef622e2d2b371; 0x1cc7c57f0b2e21b3; 0x18466710368fd5f0; 0x3146968027b8749a; 0x22c504b0505e12f2; 0x14d864741abcce7a; 0x1b67c61207dfa78; 0x72e0133259926c6b; 0x470a7d370f1d7982; 0x35f740abcbc2c248; 0x3f937610783a3262; 0x4aa6fd7852c55e1f; 0x187789e14858fe9a; 0x8b25e5f96eaf288; 0x30a19b0416e8c1e6; 0x14385d79707e20ac; 0x4685cff2efb83afd; 0x63b32288094d666b; 0x1f893398748363d8; 0x156849559ea422be; 0x50cb8a74452a2c4d; 0x6d5af406b839abf6; 0x48e8968a9e5599b3; 0xa7885de646b5b71; 0x209a4330ff29f3c; 0x7ebc9bf256d75a6; 0x50208915fe6a92f6; 0x3961b7349fe0befd; 0x5519f1d676ee82c0; 0x6161f2a7b39475fa; 0x223ec3791683a5c0; 0x4067df7b5ce7b1db; 0x40f9619bcc6edcba; 0x411384130805a3b; 0x4a2bffdaa17e771; 0x27d06a36d4051554; 0x746c938e570763f0; 0x358bf1fb44292683; 0x4ecfd9fa9b167523; 0x4e6a68b1845700e2; 0x2d0b6446d06f90dc; 0x58eec8ecdc567875; 0x43496bfa50ffce36; 0x6a36a41c67d63dce; 0x3bd4a5a2682b4509; 0xed4b08dbde218d7; 0x41a70bfb767076a6; 0x1ae20df474d7a328; 0x2067b302bd656376; 0x4736287dd848fed; 0x7bc7fd5ec82c71fb; 0xda5bc16446d0a12];
   [0x186e714cf8fc68d6; 0x3cb434c57e5277f5; 0x57c9dde295fd37f0; 0x6562ae8a1a15a0e; 0x1b05ca8a376e6da9; 0x76f816133597bf71; 0x23aad7f9e9373182; 0x688c92d6ec2c4c43; 0x21c06196eedbec79; 0x31efec4580c89773; 0x2fe6206a38e9268e; 0x766761a8a9093abf; 0x49831c2e1921497; 0x356596d44d9e864f; 0x6ce297bcf53a3d02; 0x1762819ec03a6eb4; 0x42f1e86555f51077; 0x1657bf0538db4736; 0x71572e256f38b52f; 0x1a2ad4a5ab771557; 0x63af6de828254600; 0x4acb664565a3296a; 0x48a3654aec0b2e1e; 0x22a620af79035254; 0x1b6b5d59fe47d95d; 0x15a7a7e3e5dd5d74; 0xb65c2f91d78238a; 0x519979ae33add7cd; 0x61196174bbb72053; 0x55d3680f0c288fd9; 0x673eb8744c09f35f; 0x515401d399d65804; 0x7bf57bea753c2d9a; 0x1ae9cc45e54c97e6; 0x7c9be8a28d125ce9; 0x1a8543a566ea76c2; 0x5506b067f8fe5f6b; 0x1536a9a9576e752; 0x7fd0cb426e76e9a2; 0x785e2c0f686216e; 0x55daab3fe835923; 0x3b1b93bc8e953b5e; 0x7da4db06de81d5b5; 0x3b7754ec2b7f4dd9; 0x39bfa16273abc460; 0x3c68331664a97f72; 0x722da8934abd2c2b; 0x4749017ddc7f3702; 0x786b24d620fa230d; 0x3cdc769d6d08d2e2; 0x64a80b0df4eb07b0; 0x433c6238e2f1aad1; 0x77dfc844e8bda720; 0x6360a439ace0a191; 0x399637c6f1beddc0; 0x1513b4db918d589; 0x3dea13469bb2aeac; 0x162e10137f86982b; 0x41cd297c048fa6e3; 0x1d9a558d96bd1746; 0x436c7fe67a518472; 0x5a32cc86a3fbe7e8; 0x2c44e2e2c1db7742; 0x5704c1a79a8d19ee; 0x19a26849f19357c1; 0x20ad30cd48dc7f8e; 0x2d552ede7a0d9ab8; 0x6b7b581869a1f479; 0x54e5a8ea20b57b0c; 0x3dc753eaa6e52509; 0x5df7e66dc5e0315f; 0x514b7068b1fd17b9; 0x49da1d8bc08a9f79; 0x542e9f016a1df838; 0x28f03ed1f488ff40; 0x957ecc427cdd123; 0x470cbe4e4704a80f; 0x93590eb04694ce6; 0x449f1b032b98e2f4; 0x30c4e38c93debb0a; 0x604cd319b941c866; 0x291b75dca4f21798; 0x11d64b6a098865d8; 0x44f539f0f1ca1f55; 0x4a618ae6fdacad6a; 0x4fa7985ca6919fb1; 0x14e1abb2e331c01c; 0x4bbc8344dc2e0884; 0x7eef11ab36e7b6d9; 0x6658aeb500ff993c; 0x3349df2d74462ba9; 0x6392f245309e3324; 0x1037223db9af768a; 0x2f8189698598aabe; 0x45a4abd174c05ba0; 0x52b99ff10d959b7e; 0x1345b570fead0159; 0xa398aee4e4ac495; 0x4900398539b7aa15; 0x680e298a1c74aecc; 0x386db079273b2160; 0x6da3bbbde8a3be3a; 0x797d50cc6f45a445; 0x4e2e3a6c46472bde; 0x589bbdfe6ce25258; 0x74f93c9871b3da37; 0x10b8100f07971003; 0x1f324dd6f638bc4c; 0x69b2e52d850e869e; 0x3f3b98d742e88dc3; 0x28597c48444cd484; 0x4bbd8ad4f157f6; 0x1ffc42ed834b68c9; 0x1acfb1b7ce9fb238; 0x51885864a11ceaf8; 0x28212830994f0eaf; 0x1baa4cd77a6997ad; 0x5345f84f85e77775; 0x60a3966ceec957b3; 0x7448d4da6c05a100; 0x3f75c6912986c8e; 0x6a6f876ed6b0ce51; 0x1fbc2bc1ad58e61f; 0x3cbd43cbe65bd5a0; 0x3eae5d7b63da0bd4; 0x6d6e9108cab68069; 0xa9959a740715b1c; 0x6fe3beadea4f8635; 0x5d73503029e8c0b8; 0x1a26ac2f29ece327; 0x7d120a08cebc6001; 0x39bf059e90d01d22; 0x6f5b87a6ccbdbd88; 0xb93a67505460b73; 0x1179b11fc1f0c4a4; 0x7bcd730b39ea6888; 0x5b880347ae4c16be; 0x727f35aba5c7ada; 0x5a3bc7328325d609; 0x2177b77addd65e43; 0x3d6f317aeb2fd4d8; 0x3be3560ed40164e2; 0x2120b5bb3efe3bcc; 0x558eac755246d282; 0x3432a4a46920c887; 0x348c7e5e6e3412bb; 0xa6f7570849db7cd; 0x7a03e7bda6cc9a24; 0x563a6cff50192c36; 0x8c7156167c2367; 0x304111d1161044dc; 0x547320f341dd6e19; 0xd7eed177f22c6f2; 0x2210e0a237e21c13; 0x9ef315ddf83a9ad; 0x7dfc1dce4edd9878; 0x6552342e36c00adb; 0x37df5faf30d2f881; 0x5edd63bdecbc948a; 0x304746286fb80db8; 0x71af7a20155164d4; 0x567665697dc5006e; 0x69e7440bd0c0576e; 0x2b26c4d02bfcddd3; 0x773786570e269d0d; 0x43703a0a49f8696f; 0xea5f2ce017da1b5; 0x22fdc014f3f73fb9; 0x17e61b796d1ea685; 0x68e19f357073d792; 0x324afefd25962861; 0x33b0f25b881bd5e; 0x116f2680ef7c7210; 0x5207deb0684f6ebc; 0x64e0eaa5c4a5f5af; 0x3514039d1dc28128; 0x3d45ff11358fd7d0; 0x4408580bed01322f; 0x64ed1027dba05f3; 0x4206a510867da4f8; 0x4d2120c9117249de; 0x127ad3ac58965026; 0x4171aa1f1891e9f7; 0x21ca33ac68609c86; 0x50daee7a92e5efe2; 0x4016452c58a7ab6a; 0x279add0e0c3a1bcb; 0x5951266bc3534cd7; 0x44527158f61161b7; 0x101cc5c50ab92233; 0x1009b841a5a18dd3; 0x2e1decc74512e556; 0xed714bc22b3e1e1; 0x36dc4b08bfb4b98f; 0x1aab2bff711a67af; 0x5877dd0434769122; 0x674a6087757700ec; 0x3642d6cfb12f07fa; 0x6f603f19e73341b8; 0x7a73c1c5950cc3c7; 0x3415195f82de42bd; 0x63b090cab871000f; 0x5f33cb7b47001fba; 0x34f95d82630657f8; 0x349536c6f4766160; 0x412ef37431f7fd3f; 0x46936ffb29997564; 0x6119cb37b5687243; 0x29495ecb39a5887c; 0x5b0e73ee37abd5a2; 0x5d7363521d275bcf; 0x78c21d8825d20750; 0x7926f11c7391309f; 0x15898d45b03ebd15; 0x791215b75be1ceda; 0xce7a9f951ba1272; 0x5ee1f2b9bcb565fe; 0x5e55704cdf493e17; 0x6b5a76a6cd34f2ef; 0x36c008a75cdc1776; 0x65543a02a0fd6cda; 0x3f15e0b59ab81403; 0x2500a35eeb12dcf2; 0x1363ea122bce5a1f; 0x2a93ae720419f8ad; 0x38a7644f1b31a782; 0x6d5b00849f6deff1; 0x6bd83ee265210bbb; 0x5507d3f3cb3243c; 0x1a8576e8f4bef24e; 0x356e9e2bb57f0de6; 0x23d9ff425dd9e243; 0x76609b68608730c7; 0x33f7d78c6a5c6ea8; 0x3e745e88e54dcbe3; 0x5defc464fb48a691; 0x190cd3267e9e0ff4; 0x78f99afb6a7d2ea0; 0x3199fe1e92674786; 0x351393afd6cdc9e9; 0x1165798fcaf3a3d9; 0x75180903b316de09; 0x5396b2a34d981aa2; 0x360cae56ca14fe4c; 0x6d397d79d578ce5e; 0x6783a585b6592874; 0x7891cb3b34d81e29; 0x574d0792eec8314c; 0x28695cd2cdef4b78; 0x668329adc6432c64; 0x7e929dd6ef9657fb; 0x4003192372841f9b; 0x574bfdce9d7a5567; 0x2605d99f30d44fc7; 0x34eaa4d6540e338; 0x1911e96840d3eb56; 0x112a21a921f25803; 0x71e2b9a0746c7567; 0x3c6a8189b9542ab6; 0xe10e71d73c9d91c; 0x2730cd1885a92750; 0x3803cba55e22019; 0x79d8f44f1e8ca6bc; 0x1e56720309cfae0; 0x744f2540d1e37958; 0x57f037f5523536b7; 0x3f395a514ac7c531; 0x14f5ffbba92d13b6; 0x242ff4b78144a983; 0x321f924a519e1f40; 0x74e038b40a9ad26c; 0x5e4dfb9befa9abd2; 0x7776d749db848a83; 0x12f07a7b71fdd4ba; 0x4a6ac42aaece7953; 0x4b3c7d037a91d37; 0x7d3c0ae12ec6dbf9; 0x14e5dbb4a5131b1b; 0x33eba44e6409aabb; 0x318992d9e38ebce7; 0xdba1f42e9dd092; 0xf487c6a227e1676; 0x64ee3d2c9032a786; 0x6fe74dc972ecb5d4; 0x3d210b901470a45; 0x2c26f716a62aa36c; 0x51174f4868b0b881; 0x51c767e55cfcc1fa; 0x31a02f9239d459b8; 0x3bc27b47fec88a58; 0x62c4f23c96a8c799; 0x3c82aed325cc315d; 0x95f91b97dd745cf; 0xea4934f1188c010; 0xa641129df0c335a; 0x298b269c9a125f3c; 0x18022775a1c8d891; 0x606c9f5fc59f70ab; 0x19824b9b787030e2; 0x1d8bdabe2087a648; 0x7529052869fe58b1; 0x73a4977b9219f3da; 0x472921494ec6422; 0x5ca2dd11df4cead6; 0x3eda58592cc66838; 0x71c2cd1885042eae; 0x673c7ff36d0a2c16; 0x458905238b5b7506; 0x18f30a63c6f662d8; 0x4682887f2457d1d3; 0x376f5faca5f2be86; 0x7ee13a360a0df005; 0x4803eee053b5befa; 0x49138a9a508216cb; 0x67e5ec25bc9111f; 0x4da6d493f0ea9173; 0x48767840075054];
   [0x1aedd52a4f8d9a77; 0x781a5c98a36ef564; 0x7e826283d52b39d6; 0x6a6d4f07f091027e; 0x3e649b53853f9291; 0x5997d036461a0872; 0xe70a4e56fd2fe59; 0x5218000d345a2ac5; 0x8051691a919b2ce; 0x4c39b57acd51fe49; 0x6ceeef047e51eb50; 0x65a228ba2c6aa7e2; 0x7d912fd823360925; 0x186202b514724565; 0x213291acdaa21941; 0x31cdbea0c209329b; 0x6f0f05e875d82688; 0xf8d7d7bb538e0bb; 0x7326e8243b59aed3; 0x40ab7e90ff10516c; 0xbadec44ef35d2b4; 0x35261e6ab1e9204b; 0x29a66798f35dbaef; 0x21062c3b138d75b2; 0xde41aa4824beebf; 0x28efc609f95f4fbc; 0x4d4c10fb0151f07a; 0xde794e1301a75ce; 0x156364ac016f16e1; 0x15cfb834d5b7dca9; 0xfec35c840e0ef12; 0x2a2c29623f02e814; 0x5c9d0b39ebd5b89f; 0x2db44b3493789e84; 0x61e2dddf0d001ab2; 0x394028bdd608a0c5; 0x7ab52e8acfaf37a1; 0x559705cea2161609; 0x4585e1c31eebb69c; 0x6d0a13714809ef94; 0x52b72a262b20acc9; 0x200dcf67308d0d4; 0x2bf3c6c7b99c6c6a; 0xdedecc82b784bb6; 0x74b0911d88b545cb; 0x316d1c7afd64d1e1; 0x3939b028e0a5b477; 0x6d3a337646c075b; 0x47b7cb288b64959e; 0x4412013d07209d8b; 0x76fb80f84e3b1ffe; 0x2c00a007007a61d9; 0x59a5c34f53bde024; 0x487ca013fb3323c6; 0x11cd219034e6d363; 0x6329f1d6e9fca42; 0x2b69f673556aa93b; 0x47a54323b2bc4f9b; 0x56f91674063a8ac8; 0x5c5be5a790199ca6; 0x621045bc97842b14; 0x1fc7013fa9277e18; 0x5c4deba2f92f39ac; 0x74c6701881f06cac; 0x3b3ece619e04a170; 0x662bc2d7d7f4b581; 0x7812c12da238ac87; 0x3cc593c6fe033b73; 0x76478ab8788727ba; 0x2af2649829d2f767; 0x5315f38156ad7b90; 0x141e4aad2cb2180d; 0x7f498a7bb03a1415; 0x49cae08c649103b2; 0x193fb988954b9db8; 0x31f9f48fddd6fc2a; 0x1890f45d9133c737; 0x74628c95bd06b6dc; 0x1de77590837048fe; 0x6f00a2e2ae5b9ef5; 0x332df11d9d65c23c; 0x3a5d23354d260bc5; 0x3fc1b0ca80c94241; 0x46e96feb9852b6ba; 0x2f528d0d533ac94e; 0x6bd0a340cd2ebe53; 0x22409a560a3f0660; 0x14ed6aa2e2150d7f; 0x5a5c1f07a40bb991; 0x1ac8cd80cd3bc26e; 0x16cf58be30b9169; 0x2813366af9635e18; 0x5bae2d28ab9e5217; 0x2182fb7c3287d36; 0x158e4f8a999a9dc8; 0x4e0c1ae292d6f4a6; 0x5eda3bd63f0c1fd7; 0x9cbbfa565fa7e9a; 0x3ad1c479aad350db; 0x14b211dda85519db; 0x56aa7e1fb682a645; 0x19b0a0d7c8e6a868; 0x7145b39ec637f7d5; 0x20bf59fc45b92259; 0xa3b52ce36d01fa5; 0x27098f34594d8d85; 0x776717e3e3c385b4; 0x6f69104dd099b73c; 0x5b151cde6cd5b1ec; 0x26209b077b73526c; 0x5f09e12494926620; 0x3eb63096afab9975; 0x4a6b5fd29bebde2c; 0x2fb4bb108983743c; 0x1cb5b35d5900e263; 0x7700a5722c72dbe8; 0x118cd52bba33f5fa; 0x5d0cb7ffe29ac8ac; 0x1c423b6147e71bfa; 0x1589a0b8b1a5e923; 0x6486fb6f302a371e; 0x5f92a8811928f204; 0x55700d74b1d860a8; 0x24a3fca62f5665bb; 0x558c9c22b795f1f2; 0x55387bd98683fa85; 0x36679416d00632a6; 0x5c473239558f1611; 0x55caf8f189f557af; 0x483708db0e2aed4f; 0x39d6c99399e30d63; 0x2fe0f1ca2da8478d; 0x1e2d37c9131ea405; 0x2abdf5450e9d6058; 0x4e37d53ccab8958f; 0x179b9f16bf38b81d; 0x4a8953d682a4e038; 0x7255dd0591927e5; 0x770f2832e8e4bbca; 0x1e0423e5e7f9689c; 0x74c8805259bac56b; 0x72851b67ab1725d7; 0x1b9f09a616ec1a5; 0x5cf7518c44520edc; 0x59751872a641bed0; 0x660c7b715c2aca08; 0x5f3c979f71ea4cd8; 0x2125601de37fdd02; 0x6c486eb35ea5502b; 0xcc791015346f06d; 0x3857d8ac81a4cf23; 0x753cb2d3f103cab1; 0x427f72415b3075d6; 0x4fa807fa2f202c54; 0x2be1fdf561d803c5; 0x5a77bea19caa7c76; 0x5b3892d8acba90ff; 0x2c80e37dee182902; 0x68a61120300024eb; 0x55d18f703f6618b5; 0x79834abb5402c290; 0x30cad54974e6cf36; 0x51e98697748767ea; 0x5045978a1b53cbb7; 0x1f349e151afa7f37; 0x26819735dda324bd; 0x37107af6f19bab9c; 0xf704c8324f4709b; 0x1a7fc651a917529e; 0x7b43d6f26777b555; 0x6eac3816a6cd5d6f; 0x7e41deca64602e78; 0x184c57385b6a5f35; 0x18e95c25ab7e13f1; 0x34bf8f27dd48740c; 0x55ea7a8bca969119; 0x2a57febf66ea3ad9; 0x661c7fde29eabe23; 0x197c83accc248f3a; 0x27f9cf60f6738522; 0x63bf1a3dc29c6fe3; 0x41f166cbc029e332; 0x71274d1dc43b1b06; 0x6f6f274dbd868720; 0x3dc3bbd458c30259; 0x4887db76fda7c4b2; 0x52ff7e74b424e610; 0x5fe0f0f5ad49e97f; 0x6a59dadf264215e4; 0x105bb6f9d844fc36; 0x6c403678a2e2dff0; 0x67bbfcb08b20ee46; 0x6a6e1060da687e76; 0x55c83d9ed58f74d5; 0x417d107b6fcbb3bd; 0x73b1d0a2a6744b8b; 0x78755a854477e0fb; 0x400d24fa2b96e124; 0x79cc5186c22ea334; 0x4a92d1bd46afed2c; 0x437dea3fbe033178; 0x6804ef2b900b27df; 0x4a68ee806c421ed; 0x295be8b4b3fb330a; 0x65536ab1add3007a; 0x6741e07cef4e9ebf; 0x184f9efdb4e9e51b; 0x5d1c8ef901e16e34; 0x54230fea3dad26b6; 0xc8d1c25f72af0eb; 0x18f64f7368d491e2; 0x79270845868b2800; 0x7b555cd2af5229f8; 0xca19b197d230641; 0x1fe3fd61d3427622; 0x13c0af6d3fed8c84; 0x3e6f56442d6a74cc; 0x62b6185842162030; 0x254f724459b8bf58; 0x51d04544bf5fee1d; 0x3c2d8bc5b6f7e09b; 0x3090279b29f24f92; 0x18ae8a2fb16d9e16; 0x153837e7dbad5a4d; 0x442c9f32dd67d533; 0x7421366aa5cf5c97; 0x451df3255fa2dab0; 0x13776e6c36de5f82; 0x3b298650ef9f0a72; 0x26e343c4127c4714; 0x6d183ffcab208f7e; 0x410bab6597174b83; 0x3ef89bf9f9848aa0; 0x7544a63e6b80cd53; 0x63a3c5da9d53e576; 0x1e3256f0628d7e64; 0x768893b20f1c7204; 0x339f8110ccb9614c; 0x40e27e6cd6230cdd; 0x1ae6af5a36cb12a8; 0x27f381bbc43cbd60; 0x30a483353b0e6bb3; 0x799996154932b248; 0x7a62d0c5c689001; 0x6b7313c31056ddd8; 0x52d56c6db76bddc0; 0x1bf92774f93b8c1b; 0x451d0ac197830d43; 0x62e54b4290537506; 0x631bbd4686d068f5; 0x726db7e15b3efc08; 0xb82e68bfd755831; 0x48d8b4dedd0105c8; 0x64d00f89d009e9cf; 0x439e4cd0e4a1336b; 0x16ef650c6c04e73; 0x1802055707a49821; 0x3ecf1f111909ad68; 0x656fe600b23630f9; 0x107a5c470e655766; 0x3ee7d31f189f1430; 0x34c235d73cf2ccf2; 0x665e5f1ababe882a; 0x5387daed8b4e2cb5; 0x1c7121b48f6e51cf; 0x12b6c2702fa422; 0x364d0180177c4a4b; 0x494d242b4d3dd3be; 0x2389233a87713231; 0x1e8a46ef051d3392; 0x1148b1451b2d8ffa; 0x1e775f6813622966; 0x60e8a79c23608b41; 0x3b92e7ae57e152c2; 0x6a7688191ce538d1; 0x226594e210fcdab2; 0x4f87c500d49c7345; 0x5042ac8515ffadd; 0x20f972f560a5de1b; 0x266ebf583b04c60c; 0x336aac9e698dcd25; 0x3b06ccb64bc7b79; 0x5b864d14e900a0cb; 0x2f0d31e850e0d0a3; 0x37dd8129a4ceb996; 0x75c0b1ff103415fe; 0x86a1871bbf54cee; 0x3ae23945c9c653e1; 0x5eaf602565f366cc; 0x2fb963347af61a87; 0x5adf43546d321faa; 0x32a3bef60b4cbed5; 0x6a7ecb3815e6e008; 0x5a55089e5f0bbb3c; 0x505a0d0279a935ea; 0xbb6a75ef3098738; 0x372de3d99d615783; 0x358119501d1004b5; 0x65f3e00531d501b7; 0x748e3b33b0f51e87; 0x26576fee23c0c858; 0x78137494feb47d8b; 0x9d258d9fc1047eb; 0x5aa3cd4ddd3479c9; 0x42c50ee4f0ee402; 0x1f9212c96d9e946d; 0x17abb2f1d811318c; 0x131a37f11d399486; 0x284addb50ef18699; 0x571b58f0c7fb8; 0x7aa0f632aeeb082e; 0x548f39499b5dbdcd; 0x2e279d3ae022a078; 0x72dd6388f2728a4b; 0x4cac6e04ad2f57f5; 0x1f9817c84afe4f14; 0x6d84088aa217b7a];
   [0x57631e642e320157; 0x30ec69ad84b6d16; 0x43d4abdf4d6aa6f9; 0x32289a35fb7b2b20; 0x1834f667b6c7e7fc; 0x2695e30451014ecb; 0x63781949b5c307f3; 0x128c31f4838d5411; 0x19adff504954131b; 0x7ec5b43ee404907b; 0x272239a9a6fc4cb5; 0xdacdfeb63306dfa; 0x68fc1193c96a4d39; 0x20f1f8e08c42c54d; 0x96c9a2dd7dfd3c4; 0x56e5eaa89dc03f36; 0x1e6a5ed790c5d76d; 0x3127bea80962cfd9; 0xd9c67d64dd1b47b; 0x5a6f9580fd2f348a; 0x1f8991c399574758; 0x63533f0f4880efef; 0x5c81d71c7a806f7d; 0x4f3337db34a236d2; 0x5a0babebd097912; 0x31e13e27526a302; 0xb9c4f0b778e4478; 0x1093f6a840377669; 0x32d9071125482ee1; 0x3115f7c26324ff41; 0x6ff076ded5f250c5; 0x264bb6b7466f2fbb; 0x4767f96693b0276b; 0x75b008f182300b31; 0x1a83baca9411dec7; 0x59e48baa36b0e2ba; 0x780cb66f6ed5ffa9; 0x64c3562f74a5e9c0; 0x17367f1fa45cdba2; 0x1686ffe124bd1f6e; 0x2ad0e26dacb72ba3; 0x166cf6278483f53c; 0x36ac055a15f47d8d; 0x6a3e9a42dad5cd6d; 0x789952ea1ed6fa4f; 0x695ccfeeb2f55028; 0xb350b2297452d5f; 0x2ce5ffd9fecc4aae; 0x612aaba9b2c34001; 0x700a9c036e090bc8; 0x4c87c388ca377eb1; 0x164599d766b03c18; 0x5fcd1c24b33a13af; 0x3752ef36fd62367d; 0x2cdbfe205f5a22b9; 0xd7b2d0d10dedd8e; 0x9d316adf8cfe5b9; 0x43cf262abf7b36de; 0x645c829afec52688; 0x556a2380b90299d0; 0x44fcc674023e731f; 0x6f996aef9d432b9c; 0x21576e8346e58ea; 0x7b85f362324001b9; 0x670c6ad20973ee7f; 0xb4a08f8a797f689; 0xd066f850c9f9143; 0x64dd0dc263111a00; 0x4011f7ba67b6f925; 0x4c2203046b72f89d; 0xdb968035aee9f0f; 0x3d35e3530f6ed40e; 0xe63206e01141813; 0x16dca5bed30d841e; 0x6a2aaf836367c95d; 0x60404aad36eb7463; 0x24716f2d8467bae6; 0x4756b5d8675ed07c; 0x3ae03202f5334119; 0x2b6ac123e14382d0; 0x11eee066708fa3c8; 0x194bc2db5106e75d; 0x96c84afd9738c0a; 0x17c2f3f95cb731c6; 0x2c1c6fcd7388e5cc; 0x34b46c3b72e0a303; 0x576d4fa5da6ba351; 0x3d75d0b8039423e9; 0x1b0cb0a72f2e6257; 0x2601ae7e332affbb; 0x54cf60a531b2fd1b; 0x7e9a198006660b36; 0x4eb995ab2edce1ef; 0xa00b83c71fa1f00; 0x4201c936bad6a9cd; 0x538e1157f0deb3dd; 0x6b9ff48ffab4774a; 0x47dfb594cae2ce3; 0x60d8f429f2c8b0c7; 0x1cabdcda4d78e2b7; 0x5fbfb10708f333ed; 0x4e44823976211f76; 0x1533f1063f1b5fb8; 0x7aad0ad4ba96a31d; 0x2e79e70258bc6354; 0x4d8e343629bc9ae5; 0x742d52757fb9259a; 0x76e0ef92ecf82407; 0x1faaa6019342303c; 0x167496f9069d5237; 0x75bae844ebe5ada9; 0x4ef253fe65191064; 0x6ad32497b6a281fc; 0x6b9ff85e2274b200; 0x1774a3fdcef81392; 0x2b4658d9c64b16; 0x7f1b717ba0f59df7; 0xec79ba2cff29db9; 0x61121cce451d886a; 0x3fc9f593105f9751; 0x7557b63493b5f8c4; 0x3c3e5a1bc5b4c82; 0x2b37c1927545ff69; 0x36f0bffa6c6bc9aa; 0x6bb17d5541f65d17; 0x7832dde7cc6dfc48; 0x5898fa558be09857; 0x7a13d81e7600b88d; 0x598134b4f4fcc666; 0x9398e83dbf75f86; 0x141fa81876be27b4; 0x41a15fe97078d997; 0x502ca55f9ee8067c; 0x4c7fd251e939ed7c; 0xb4513920f6c5a9a; 0x436b15d456e6eaf2; 0x4ad0de2bcd03b46d; 0x54337e7ec597b2f9; 0x358e6b5b84e10466; 0x736860f3c17d7b7; 0x18e1db64442ac671; 0x513a7b9da09229be; 0x1c86f2c5db0788d; 0x79222afd41afba44; 0x3bad93ab30b074ee; 0xefd57e0eab4ac1; 0x4a2a73d9a6cec97b; 0x202602a27fea220d; 0x5a61e5d448e1e0b2; 0x1e3fe4789470fbf5; 0x25400568f5730fc; 0x537cc6ea826ea4be; 0x4bc8109ecf421dd3; 0x68ffe9f95c3d3961; 0x2c5f433be6420936; 0x34a93bce4faa3f3d; 0xbba77fcbda11e5a; 0x2c72fcf68fdd7203; 0x105e06fc2688fc78; 0x1830f27a073ed1ab; 0x5fd7fafb7449569d; 0x4bd7dfb47abfbfa4; 0x59faf8d13c51fad; 0x489cc2df2147da66; 0x40e2ad7161b68eb7; 0x1fbbf77dd090bb11; 0xdbda3f7414b9e43; 0x53e854433a518733; 0x38bdae672a862765; 0x64bbc78561794f7f; 0x14f8a8da9320861c; 0x6640d7d36058d105; 0x3d930165bbf2f0e1; 0x6982e7f8e620fb7f; 0x6366bf0ac9c831a2; 0x189fae2fe00a6f3a; 0x570b43dd1485a1ac; 0x165c7f93d29e6b79; 0x53dbb66c31cfc00e; 0x5f387a020507ef4c; 0x3b0df73449ace1dc; 0x3c54fde8ef07133; 0x29bfc62ff553d33f; 0x64c4ef52e5845678; 0x60d28f6137f995f4; 0x3e2ebf6cfe456415; 0x793cb4427b3297c2; 0xa1bc2aa024bf0b1; 0x4d3cabbca78bb8f6; 0x71e26a16cf266f60; 0x2648c62330405715; 0x78284060d3dcdabd; 0xbb88f7f9f4c3edc; 0x6ec5eef229310fd4; 0x5f19d2c1875212ee; 0x5200850c7c003606; 0xb10b38f3195f45f; 0x464183b904578346; 0xa0e74f071e55e4; 0x1ed7287c22765142; 0x4ee5908afe4435f7; 0x2780cb62e958d676; 0x781df4ffa9b45dde; 0x5b1a4d04f39aa676; 0x24e4b06bcc90c910; 0x463a80920d5a99cb; 0x4d4f8d2c7608d0e3; 0x22e14c3360f87f3; 0x64cc8aff0e6ea3b7; 0x4d10141dccc1656; 0x3503fe22d0250568; 0x4164ad3aa1ed9a6f; 0x19467a2c9aede177; 0x20f830578dade306; 0x1981580dde7c6cc; 0x219af58128a40a57; 0x293b41b4ee8865ee; 0x6649fab9a497fc97; 0x5d90cbf1c2cdecd9; 0x24789d2ff2127d05; 0x17b96349122f383; 0x1561a569835f0f34; 0x532bdfd09b8123; 0x7a024c575d0652d2; 0x38609a2aa1550703; 0x29f4f9b678c7845e; 0x1f3112e960dd2ae2; 0x4f16a729b00a25a; 0x6463e2ae9a2569cf; 0x2edb0641235d68ff; 0x49b1eb20277020db; 0xf7e544e714f5fcf; 0x3cf21fdd09b8147d; 0x3facceb793aa8834; 0x2bcb1e25a59d82ea; 0x189bb77ce96a4425; 0x619277ad6045e0e0; 0x4d8e406e2e7d6a5e; 0x71f792f643f10b70; 0x5fe147e9d3f9625; 0x500e67c773dd8768; 0x710040ed72673744; 0x13c59045f4536606; 0x1e67088fd4b6b577; 0xb4f3c95a6ee04a; 0x6ddbaf8cc534b566; 0x18b5fb1c5ae03f54; 0x1cf835932280a149; 0x84fb68d37f3c74; 0x4fc8d6343b0ea3a; 0x102da7b9e1ae2e29; 0x63a99262c8866f9b; 0x50922d9b102c96cf; 0x14ed51f20b67ff50; 0x78f53ff18f6aaf63; 0x39d9839c0e1e12a1; 0x7c2fd07b91132334; 0x466d885fa7f4cea7; 0x134f93ff3d65ce58; 0x23357fef4713bbb2; 0x4a4e5c4c28ced1bd; 0x5639b34baeb632f6; 0x70940a81c133bce3; 0x1c68aea39ba602af; 0x584feba9cdcb6be7; 0x70eb2c04b8eb0714; 0x1ba86f76ac94a189; 0x22b036b1b396c428; 0x670eda91ffacdd01; 0x420f7e2093df4b36; 0x24803bbd6dec1576; 0x4c1ca4fd39dc7f9c; 0x68d43f7f5278d65d; 0x5cfcef66787b2aff; 0x3db0ec97864958be; 0x63810d3cab527751; 0x160b90e94849080c; 0x617de011a0602457; 0x77da59de33758a60; 0x55d5fbee2954b0bf; 0x69e0b24d27836199; 0x5372fbeb3aad4cf0; 0x1a1e405a9ed12e6b; 0x359d54a9d667a966; 0x4c6c8ed8ba771efb; 0x3223403d5e739cdf; 0xa2d572b8850f80e; 0x3564bafde81a26f3; 0x119035cf3260ca5b; 0x5273728a33514f37; 0x6a81a0fe78c70803; 0xde13c3521d5d91f; 0x4caba03090c342a1; 0x126a311dd0eb4f15; 0xe10601b5121d243; 0x298e2b978f6f6daa; 0x3c0172cf0848b5d8; 0x36f1bf3d46b5bf28; 0x1a1523cd5ec000c9; 0x61cc684d48e6c16e; 0x7753ff1203dfbb9f; 0x41652898d395aabb; 0xdc62bfda65b6745; 0x4c14f368b6284751; 0x628f82e4e146e00; 0x4487ba6be960fdbc; 0x54697ac470ff34e9; 0x5eec7c5666409475; 0x3e1fc4e4e930262e; 0x61c6ef4106b3c61; 0x50b3c1ddd5dad49b; 0x3d04dc06411a22ea; 0x576fc703901f63b8; 0x6d9d4e1aba328487; 0x447ae1e5e0ea170f; 0x20f06ddb97ef74a; 0xc5f5f02491712];
   [0x5a16419dfa55de08; 0x6f779b6fd6f39abc; 0x533157548426825f; 0x32288eebf9243fe; 0x62bf077d9475fc4a; 0x46c962d0c79518ed; 0x760a7af7c0ca02b2; 0x73d8466bbbd53b3e; 0x27f8f1a931b810bb; 0x2b409bff0833aa29; 0x565ae2900c57af52; 0x6e998442c380d83e; 0xb89ead62d6f205b; 0x6977153c66e4f9b3; 0x1d911b4899900202; 0x73834f445a004ed8; 0x41460f850dff42cf; 0x2cb284b8de836b09; 0x478032a66ee6b73d; 0x74482f1ebfee25c6; 0x2f865eb5bfedd2b9; 0x5882096b1fe7ba4f; 0x4c69b02dc7f24aeb; 0x190c562f37620bb1; 0x34b148e2bb968c25; 0x1dde5e94542378a2; 0x77bc43fe3440d819; 0x66ff45d40b9f0191; 0x47aeea5869f20da; 0x7d4f5dbe1789f84c; 0x24eb419da337694f; 0xa137e4c36dceb7d; 0x1160993f5fb9e47; 0x692f0a2efebc3a90; 0x3181b2e0f8b1d892; 0x4a4cf182d3ffc3f9; 0x7ba9d96240f76f47; 0x397ad5a8890cb3d4; 0x48af7e42607086ec; 0x33b96f81afd985a; 0x216c07a42e6e0653; 0x73807482947db9ce; 0x6faaf9dddacd0a33; 0x4cd35e27a023f8f6; 0x4793ebf7caa85bf9; 0xe94b2f841124825; 0x3215b52f6bacbcfd; 0x2e1060c09b21f937; 0x2218cb9fd9442c75; 0x7428ec101ca53e30; 0x615ba16ac8ce3312; 0x2631fcbbf6a08c99; 0x720113d5fecaa8d8; 0x6cd5538c2d2fa2bd; 0x6e76950d0610d2fd; 0x265f741e2cbddb5e; 0x448edfed4fda8227; 0x36571943bf928f4b; 0xd6b739dea0f30d; 0x342fce50b558bea2; 0x5ff241f725a083c5; 0x557902b7fe8a989b; 0x450e265ed08c43d9; 0x5eaa4c4e63345c16; 0x12ca89813bfa4a66; 0x69880c9420ea4772; 0x76be96b7c4de836e; 0x3a9aba6519f48390; 0x34c366fa7c9fcec0; 0x3fc9404b93bdaf1d; 0x6fe683b25be21427; 0x47a9a20eaf66d28b; 0x237ec5f2c7073538; 0x62748eb855985c36; 0x39b7f68c0bf8d62c; 0x68db336b3110ef59; 0xaeb8e7f9130e914; 0x19afcc92c2d0b132; 0x47024d019f0f153d; 0x332fa541d07c1cff; 0x5ec151f8562a0027; 0x2a431662435c4d87; 0x2ca0e64e6314b4f9; 0x102fb2fe84c2bb37; 0x5da349658ad91bf; 0x7f7e8b55236c8209; 0x4f5db8668ed5b5e4; 0x2da03cb9dc39a8e4; 0x4379d20176cfa8e6; 0x2912b8f663115c82; 0x929ead0a1beffbc; 0x4975edcad186efd4; 0x378e0a2a05e4a9a8; 0x4edfdf9693c5df46; 0x1d861cc4a71af6c2; 0x2548bcc66c4be7bf; 0x3b5be6e79dcc7de1; 0x2e6b402d747ddbd0; 0x22b447081c67d3d7; 0x57674268bca3eb6c; 0x567510f81c9c69dd; 0x19148d946aa65b7a; 0x7fd1d2c15e151d; 0x2c7aadc9572ccfa5; 0x38bee5d74b0bf61c; 0x4970ae7a98879c3a; 0x1364b8f2bc96c88d; 0x5f9bec2d92ff6ae1; 0x31190179c3017aaa; 0x19bc86b95555661c; 0x620f709ca5f5af1b; 0x39d5154ef10be43b; 0x49a75b4e6cd09e1d; 0x3737c253a6df628d; 0x3904f7f717c39ca4; 0x44723be3b71e11d2; 0x71c7772fe34b90bd; 0x8abcc52ac615d5; 0x238ebab305496f2d; 0x62fcc8972818a542; 0x23a03e95acba6504; 0x4deec0674b21e48e; 0x19315e1a890b27ce; 0x220a1b42b8b4ce4c; 0x3eaf3bf56c9bfec3; 0x588e752688246d91; 0x4c074ae0076f5b2d; 0x3fb050214502846a; 0x67925f4c4b2e60e6; 0xa08995a3242f1a8; 0x356033b7b3ce6ca1; 0x2721362094514ad5; 0x1f2c579c02b2d2b2; 0x67929b7543019679; 0x2ad213e5cfb3b86e; 0x55c0bf1931e5a691; 0x7d33fdb93ae2172; 0x71b986b20aa6cd95; 0x2154c36408caf60a; 0x6bdafd1bfccc7e3e; 0x11e6e7b5cf4ccbba; 0x5a47ed6a71beaf96; 0x653fdc604f4b35f3; 0x56cbaa4219ad11dc; 0x823f0aa6937e171; 0x23b38c6972d0bf8; 0x60b05d553c5adae9; 0x49645abe77e75503; 0x244c11ed4cf11fb3; 0x7a15e989ed88f151; 0x3784b8f17af82eba; 0x24c0deff5096c067; 0x4d4b61da5351c05; 0x2365f6d9aa8f807f; 0x4a0d8a1938bf3622; 0x2647c79514e2d041; 0x72312e0cfb1a3976; 0x20a6084651b157aa; 0x450ef0a82a263d5d; 0xbfd23d07992dc0a; 0x171397561eecce67; 0x498b2da1b17d2116; 0x568b2a14b067b037; 0x3e11c3b8b3ac1e8; 0x5b74f0dff409e772; 0x6c87c70513019f17; 0x73ee6b09021ac0d9; 0x116e924e93051172; 0x6dd2c29281253b4a; 0x57d2bf62e19cb43a; 0xeb276ae97ee6c88; 0x46d9a524476ec29e; 0x4c685eebbc660c9d; 0x43cfb19059dd9a7a; 0x631ddc3f7456886e; 0x18b2edacfa9c764a; 0x14a2911f7ae8344c; 0x411d2683f80212d; 0x15ebf6a76a82f113; 0x974c4613bad596f; 0x7a4f4199fe140b4d; 0x2ffa7f8dfb452869; 0x130fe9b4a18c08e7; 0x473333bd34caa420; 0x728860b9fcb74418; 0x4fe6fb427a723f4e; 0x6ab9474a0867ca3; 0x793691be3a1bdaef; 0xc785fb2361001a; 0x6adc6ff2f3a5dd9d; 0x2488f6f25d05583b; 0x650da589e42a6d97; 0x61d8632b7d7e100c; 0x6ebb7da66c1a1536; 0x396f752680e6913e; 0x74325edb539fdf9b; 0x47adca0a2e83862; 0x2563db5e367a59cd; 0x7c15b261f430492a; 0x5f4e8500bc1acc0a; 0x3bfdb2022f409897; 0x68fc5341c66d8db; 0x2d261f4f3e9e6647; 0x3b5c1d26610e5509; 0x3e03040f28f34ba9; 0x52ab0bd4e4421b5f; 0x27f78637fd890120; 0x1dffecb75ddf7dcf; 0x4cc1c44ac339a323; 0x7a866a1e5be33594; 0x5ea47a56ef7cb1ea; 0x1e7af50ccb8a9152; 0x415a235a448c3052; 0x27d814dd3b5edd73; 0x21b85b2508ad5b6; 0x4809b406bba20e36; 0x373acbfd4e28e2f6; 0x7efb8f36502cd886; 0x640c7c3fcfefad5e; 0xcc25aae7a9eb820; 0x144e1d525504379; 0x727671eaa76b699f; 0x6330024e424b19ce; 0x6d1a06d2f96b601b; 0x2adca77bd893cef5; 0x5863050f16224391; 0x604545b65245242; 0x49839162af4f63ec; 0x504c59808ce31def; 0x616d80c672df4f12; 0x69a3526bee62461c; 0x25425489811ee9f2; 0x4efb45dd544770a2; 0x190039fb3ad6ecbf; 0x4fcc0aefd0816082; 0x51b50db55d79eb21; 0x5fd9937e6c9ddea8; 0x7499b6a157c58233; 0x1340132c9b624f92; 0x1da1a99372cf3d8a; 0x3f7f6a503052b73c; 0x12a2de5b248e76bc; 0x58a69374dada6dde; 0x51b5064263c6ce76; 0x774bff01f82bcbf1; 0xb026e95392b129f; 0x7c21ff29c8344f3d; 0x20bd1246ab7f00e9; 0x19b38e623f63e1c6; 0x2c3f55b01cc58c5b; 0x53af2aad188f1a62; 0x370517ff04e8d50a; 0x22dbb715bbf3deba; 0x4c88d309e71af46b; 0x28c5c6f2d926e077; 0x58f08c83ece44e21; 0x6429f56c3091baa1; 0xc2da1716efc5f41; 0x4b879c65d5511f58; 0x1002c3d269cfca9b; 0x5b0c5cd2c357ffdd; 0x4e3de576b755b460; 0x1e6f2bf5ee8e5bae; 0x2a7dc7e60ed2fc5c; 0x43d595514d810f6f; 0x5a1ce33d35dc2fe0; 0x5f581770648036bf; 0x78705f658085ea1f; 0x2f8b62903416f636; 0x67d01f32c0fd75cb; 0x777aed692293393e; 0x6a09673d5a6ec0c5; 0x9923e2549d70593; 0x54777dfb38cf6268; 0x4c147283533b3279; 0x67bc049603fc863c; 0x5d5f3562010cd762; 0x6248f64f0841dd8b; 0x741f8e6d51e1e42c; 0x437744723aab6ea0; 0x702b6d630520f15b; 0x2aefd161e9510e76; 0x1ca39de18db0d8a9; 0x778088f463efccc9; 0x32015a01b6b65b5f; 0xa8df5395910f6f3; 0x133fa5a9709a29fd; 0x1012e896c0de3c7d; 0x7ce177a6acb0f844; 0x73b93937a5ba0f7e; 0x4913d108aed89d; 0x43e5a09a5133877c; 0x5525855b68b98ce0; 0x583887fd51de7ff9; 0x313419ce71a2b670; 0x20a71f022c79372c; 0x7081d01d4686e592; 0x3555b111076fe1c9; 0x73c6372e084def12; 0x78437ce73fa146ae; 0x3ebe30e33460531e; 0x2922905ffbeb4a81; 0x631dd2eb05aa74ab; 0x4f73c4ea62d9c52a; 0x5688fe8f1d4a1c96; 0x6fd59b57f3d7ccd6; 0x7382b3d133a6cc36; 0x445ddb5f9ead1a0b; 0x5d01f2f9bdfb6ca4; 0x33273cccd227e5ce; 0x11966a4b82f2fd9e; 0x244264ea42037133; 0x6469f3d4743232b8; 0x4e649e1a44563733; 0x2a298f149343514a; 0x40efa952b3b645f9; 0x952394f567f4cc0];
   [0x4f16038b731850f0; 0x665feec80cf83f41; 0x24dbdf1d1d329681; 0x21eb92df117d06ba; 0x2b38775898a4b440; 0x51ff0948a91e8a9; 0x363d98972f8dcd52; 0x4aaed4dd04a2507a; 0x229497f3ae261bf0; 0x2597175148a014b3; 0x13dc8a4a56e2c77c; 0x4be63de3d4a1fd7e; 0x31e6ac941250bddd; 0x1dd548d200d1d62d; 0x2d5b1bbce60b022c; 0x59d83f87ac9ef090; 0x641028f9270a0487; 0x11cd2b6d11a3e70c; 0x2d5e8bdfc5fd8a3f; 0x3a1849648b2b2d6f; 0x660eaa415986b63d; 0x4c95a8e0f549b5cf; 0x3366a17efd73ad18; 0x5bcc3eadd51b839; 0x4ba64ca2c5a8c606; 0x6564efea4b1b8bf4; 0x4f3bbbd3a9ca156; 0xc9dfa839b050198; 0x72a1637107c32a87; 0x2a52150c3f806699; 0xab8a86bb1cb2c2; 0x771578354fd297ba; 0x1821753eab46eebc; 0x4eaa42c8b67ff262; 0x15982ee196e110a4; 0x5910295fb8581180; 0x18bdf1037974a8e3; 0x19739daa6d302468; 0x23603a9b02e492f8; 0x6bf29d686d0d39d1; 0x383430900f7562b1; 0x59f73ac2e714ea34; 0x204669cff5266450; 0x32fa4705e71ed407; 0x6ae01fe495301a16; 0x7546cf49eb372a82; 0x636e9d6173595de3; 0x13a35d70fd6ad039; 0x3aa60bb1282287aa; 0x1ea419ceaed60f75; 0x3519ae0fb8e73449; 0x606544189e11108; 0x1e7cecb04d7c9825; 0x55e7a58bcd02a7c1; 0x39178daebff74dda; 0x2b2f5613e713be20; 0x73d1ac9800aa594a; 0x257facc63697e3e6; 0x7bcc5b846fc29783; 0x72e9e80ceb39a98a; 0x5ec70095d81172b1; 0x4742535569a11de0; 0x25cf1283fc4d85c5; 0x27f69ed1432efab2; 0x59bee444b2f3b85e; 0x49e6a4b1b9434dd2; 0x5308c68cc2f3fe92; 0x7b8289e112eee34; 0x69b0841ba567740; 0x401c8a024b4a02b3; 0x16437b9dc1dceed0; 0x6a7bfb75465170e5; 0x41eb0aab3f9793bb; 0x60e5e8f5cd343482; 0x72b4916f4e6c0a05; 0x2823618d0e4bf853; 0x35ed6da6bd5235e9; 0x1771b60649579932; 0x232f3b41a7a0defd; 0x2bac10c25352db2d; 0xf82b008b4010da1; 0x1e1eebf4f31f1223; 0x1a686261731a2d01; 0x4c21969236204bcb; 0x4b5253d04c9781fd; 0x1f3ffcaea1b205c1; 0x5adc3a05a16462a4; 0x47b873a43b1bf518; 0x73472a0acd253d9b; 0x404f42e5fd8d7358; 0x5411f84654b8f2a2; 0x3ab65fe350f4567a; 0x2cb9b4d2558566c0; 0x1abd29a77628b037; 0x42583e85bb141660; 0x2b8c9eb206d0fa9f; 0x547edc6f6f1c4d8c; 0x6c3fe2b872a7b27; 0x5a2e76e1d7ee45e0; 0x11dbf3a55da67ee3; 0x7082c82a013baa0d; 0x1bd26b73cb626bbf; 0x392ce70ab18dd18e; 0x4f150912a253bba9; 0x55cd5cebd42916aa; 0x45d5f641a1363d03; 0x5d04950ce5bb45bd; 0x3d328ee0cb457f6f; 0x271b83f04d08cd80; 0x609cea11f18f96be; 0x6f83215cfd7a904f; 0x3e383009f7481ab8; 0x5db7234abe6c8f81; 0xd170e1ca28e9f8f; 0x1727bb966d0b1431; 0x218bc2926828ed68; 0x2ff131d0c4b2ed32; 0xe1e7d330b6f80f2; 0x1aa5a3dc3f846c48; 0x6cbb915d2a89cbdb; 0x5552f09f18dcca8d; 0x6af4c8fbb2f80b46; 0x7b83c9785ebdcc52; 0x767f6db786dfe13c; 0x7bb1e306032044b7; 0x4b5cfa2d65923da7; 0x43efdac8f4336f4a; 0x1297045801969f07; 0x41463f4bd942a2a8; 0x481d4d453e434b09; 0x597b6f724f3eb4f1; 0x1ba3adf932c91af9; 0x76351ac29953b63b; 0x4e1dbb307325eb4e; 0x634601458813fa2b; 0x3e4f15043a9df675; 0x75a87ac9afd91a9a; 0x7d354c39d79b182d; 0x21203ef5ebc09f2e; 0x348aacbcd566a6d9; 0x69fad418f9162ae6; 0x6fa5685ce7eb28d4; 0x39ff5d2d1327e4d8; 0x468a1c5caa991c6; 0x55725f3c2cb41f64; 0x6b82374ae259fe9; 0x208b09e907c5750c; 0x74db8a3526137684; 0x12b1e0402237dbad; 0x6a15d927a5da8cb4; 0x2dfc86b604ec6d63; 0x5931b1eb46b9feed; 0x471569845d146d03; 0x129b4f8f0bfdd9b2; 0x47b5814e3aefe792; 0x106d6acec7342922; 0x7b7fda8eb086263f; 0x2895cf8290eb06d9; 0xb6c29ee0ba224c1; 0x340b88c3e182c764; 0x250ea1bab3e52132; 0x2b178d469f9839ad; 0x7be9f04461acc26a; 0x5e6a618d898b2e19; 0x65ff471339c0d9b8; 0x64fd914848e2e0b5; 0x51a83a6c17486ce3; 0x6741c8de51150cd2; 0x7865d064bd880341; 0x480892a1b80be284; 0x36dd6b7883ed63e0; 0x419cb1c924be14af; 0x623a3973d72ca2eb; 0x4f5dc6209cbd0438; 0x33a63adf94476d4e; 0x32024f8d3957345a; 0x2fa014cf092ff9ab; 0x7b70853cbd8eb484; 0x3e74345c75f5b00b; 0x7b34ddef82ebaa4f; 0x4cf38905a09fbca; 0x1feb120754f4e1ef; 0x705b0426cb518130; 0x46307eea8a6b9923; 0x7ae3b3788c95620a; 0x297d7ffde3e73ba5; 0x73e95b1ed6a4929b; 0x592ee6493a44492d; 0x5d1c1c94115ab94b; 0x51129c3dfd91b645; 0x72784a166fae5f8f; 0x239db49f292bacff; 0x22749988ac93b36f; 0x2fc3734c67c6b53e; 0x12a70ad4b6ecd017; 0x5934a12911f4fd5b; 0x322c58a981bcea7d; 0x199090409c590488; 0x18dc36e092206374; 0x47ba304733a6726e; 0x4ee06e68f90f7d63; 0x68d9a8027923fa79; 0x1f17bee4caa2ff2; 0x26245c5113e86285; 0x22597b1375527298; 0x6c8c3436b4e50810; 0x692a1e4515856035; 0x10e87465f0657047; 0x237d9173595ca0a8; 0x208b7b2dcc98d979; 0x61fcc808034e1fd; 0x37cb304c96ec638d; 0x37b1d55cae4791fe; 0x166e15595880316f; 0x44768f9c66cea350; 0x428fd59558aa0199; 0x5921d9b2c7522835; 0x6d6c286f1c0fc477; 0x5a23d239cbdca799; 0x2b1363a862cc0331; 0x7e707798d2fc1331; 0x20c48fad12bf3d80; 0x4e74ac8713e2ff20; 0x7ec82ecffa1dd96e; 0x4184f5441acc4a8a; 0x20a086735172d195; 0x50fc707c81551ddd; 0x6fd3f51cc84c8e6e; 0x101a347deb5e5f00; 0x18c1b79a4d2b20df; 0x63c63e83d9fb2516; 0x55f811ef8cefcccf; 0x21cfe22dfc5e162e; 0x3de4fc17d4c401be; 0x6c5bdbcc6b5dc520; 0x244c5408eb981e5; 0x1022e20310d773be; 0x4f6a237889581edc; 0x6033d1ccffafeab6; 0x36264d1db0579340; 0x201ebde17831d062; 0x7f9e005943188005; 0x3044667d4bd6d271; 0x1800799d7e9a91f4; 0x32d9b7bcac6257b2; 0x3fc8104c716bbc09; 0x71cade81c46e178d; 0x20fa44cc3b1638a7; 0x1fe78453006a06d; 0x56723cfc25eccae8; 0x46bb14230b71bce5; 0x4e7966561270909b; 0xc064e1083609cff; 0x764d5335b6b50867; 0x2c57ea358eb5493; 0x5fd67826517caf07; 0x1cd85f9eb99a5061; 0x5d93e234ad3ece02; 0x695ef6767a859a90; 0x2cba7e286b1aadfc; 0x6a0258411b0c325; 0x2759c98c24f6578d; 0x28be956b914de891; 0x7ccc99b595600dc3; 0x21eaf6e081ef25bc; 0x11a8c6d4ed45164d; 0xfbae10360fb0f21; 0x163373f704f33e4d; 0x6f26ae8e2387a81d; 0x3eb093de58214838; 0x3bcc39dbe2dc53ec; 0x4f3e7d0b4dfc418b; 0x26a2412935d832af; 0x77486c07cd7bc0d8; 0x7ea5f00e26e8e317; 0x3a0f8e3fb437abdb; 0x56d1969d9cd7974; 0x129c8c59442837b9; 0x526a1e12e3c9028f; 0x36ce7ec7244b83e9; 0x3004ade8af1475d6; 0x5d563217f9050220; 0x449e1e0fb7eac57e; 0x3500b7134ff2dd76; 0x54788bde452e7013; 0x39640a4acf3d420; 0x2993017725a256ae; 0x29561dcd435e94a6; 0x62e6c97955c3377b; 0x4ab60949fef277be; 0x5fd71c13d89ea4dc; 0x29f6c0598917e169; 0x7663601c22ddd5cb; 0x28a49b86de544ebe; 0x61fa2b7455c649c4; 0x205285a7b7a95763; 0xa3fd4318247436e; 0x4fcec3690604915e; 0x6202a00965ff3662; 0x7d4914ffd849941b; 0x5ead7532429e831a; 0x2cd68a467183d80e; 0x75f16c6aebcb1950; 0x20558e9be5c8f051; 0xae7d76fb000922; 0xe98c764fb15a678; 0x6568df01378c4170; 0x48fbffe497b8bc47; 0x5ebb58a757c5f7cb; 0x6cb6315067f3af62; 0x66ab72143e7da0f2; 0x7748b274ed9664bf; 0x57e67b4a3cfa468c; 0x1fb5fff3f66b6221; 0x1ba73b005c1863f3; 0x30ab352bd55c3b09; 0xc57cab052513c14];
   [0x4aba8ef168c9e0; 0x25a4af2ede7a9753; 0x76255cd107869a0b; 0x38aa7afc4f87c3c0; 0x207634023a037c60; 0x5799c1c53744f1ee; 0x5fc727db5f61788d; 0x52801acfda5096e3; 0x148fe3f39828b314; 0xbe6ae0ae25b5d43; 0x16b6a27fc6bd01ae; 0x6b36379837c92758; 0x4ef4524a836b6d30; 0x1a81c3807b80ac9c; 0x689b97f4d4eb0604; 0x73fbcffcb6fe7127; 0x40bf1153593e62ea; 0x4a3f48fd24968406; 0x4dfed0465c574a60; 0x61d1e23394e7305a; 0x5cc2528b9d9c74cf; 0x753ae6f029e4d3bc; 0x53e0df44d4a9e2d6; 0x30278b20ef03c201; 0x330c64327fa2c027; 0x13bfbfb18aa2548f; 0x6bb56a305bdcb52d; 0x188abce2279fa522; 0x5a03ac9ffcd30116; 0x18f04e35a7bfed78; 0xbbc9489cabc9960; 0x7e227089fc94e8f8; 0x1fd617c70e7776ad; 0x62882275b4534816; 0x3cbca82d3afcd2ab; 0x7b098a2e70860e68; 0x66609e8fa59dea89; 0xd1ae27ef6601042; 0x33846118b12abdbe; 0x70c03dac12ca5290; 0x4099d29b0263a2b1; 0x7af3bfb10b2e0b16; 0x4a87f3527d81a406; 0x71f02942e03dc937; 0x393362bc898d7988; 0x34637c1f4375c2aa; 0x6aee9458d007bc62; 0xdb60418539ec57a; 0x1f7deddfa51c9348; 0x266733b70cae9758; 0x207e06568828ffb4; 0x1aa682b31e576e4b; 0x4ed11fb4e5441058; 0x614b35f58837d883; 0x6f71032d697547a7; 0x521eb67be6154bc8; 0x3369cd6cf22f66a8; 0x391c35cbec1d203e; 0x7440e96bbe165be2; 0x62e7f4cd08ec244f; 0x5e1452c6ba1c15ba; 0x6c15edd9a011e714; 0x772774d0487e77c5; 0x68a99c23d402d1b0; 0x27c4b6eb9404e798; 0x6022f55e52675518; 0x61b88b0b17ae7b49; 0x7d41dca89915ab92; 0x43ea1934267a11b7; 0x5b5d83ce5dc22f19; 0x31fe833a105bd6fe; 0x742ce0ec0f4aa77; 0x5b97fedec6e0961d; 0x1800549cebd76c8a; 0xdbe2f5f13d53756; 0x41f7b5d420f412ca; 0x75fe474973dfb432; 0x1b2d519e8adf6229; 0x491fe690bccf0159; 0x4ceafef6f32d65b8; 0x379367cad128b10b; 0x50b85d0c03708a9c; 0x4fec5cf73d73526b; 0x710b4eb136fca05b; 0x4b1b8846f45c162d; 0x4d9c0a44c5306898; 0x4336c650da6da759; 0x422202867036e9b6; 0x2518b394151230b4; 0x5029ce3a9061298b; 0x3e458632db8052be; 0x680112308b28119; 0x51eb2890c4f39b1; 0x5d361125fddd33ee; 0xdea536f37f2de4; 0x53f09e7e3957bc9b; 0x5275d08452776081; 0x14e53e3393145c6; 0x7a8d1af3be46328d; 0x607616c00497c74; 0x7e3f2683666701cd; 0x6484c42ab1e292; 0x67827d7018811c9f; 0x31533c510247144e; 0x660461831f18a08a; 0x22eb59ef866f1828; 0x3ca1ba90e806fe87; 0x44dbaaa69cbd7c94; 0x72bc2e6b921c6ea9; 0x1bba0a3b863b4702; 0x366805a330f3286e; 0x71c85cc3282939f8; 0x67e71234a98c4663; 0x39e9f725fd82e5f0; 0x48df8f4c980ae9ef; 0x26e74aa8816fe3b; 0xfa47afb26842dff; 0x37eef8491a062300; 0x66f3c3e8eca58041; 0x78e55251f6b87a08; 0x52b82c20d4c4e31c; 0x2dbf1347a7ab3946; 0x7579a6789fe62076; 0x5f6580f328d205d7; 0x2381c821be98a350; 0x4734193a8e424d94; 0x5a6164cb883e0fc9; 0x6868763c5473a3f6; 0x567acccfac648e90; 0xbe945972141aabf; 0x2628aec0c1ef53c9; 0x20ac8089f3e0316b; 0x2d4788644847c010; 0x22a4d00c1f284696; 0x2763dd4cccdc6df5; 0x1a2b0208744ab99d; 0x5231405e3076ae43; 0x4414b6eeb8bc4a02; 0x48f393ba048cfe23; 0x23dd3926b72707ed; 0x40dd79244408263b; 0x49b33357623a94e3; 0xf04746bc141edcf; 0x105e45070f068c76; 0x2233a71cfb558813; 0x3747b9985f6c2e34; 0x3e90cab95ad17018; 0x58aa55a112798a85; 0x7e424dd69a062d23; 0x6728cc2766204eaf; 0x410992d748786bd7; 0x4df7c48ced789fdb; 0x4c92b802026ddb8a; 0x41f36697bc7e88fd; 0x7346daf4de98b4f0; 0x6ba5276aa8654be5; 0x234db52f4665a72d; 0x4da325e03714b996; 0x6edc8f139585254b; 0x4df6ce35f47504ca; 0x2b6cf6e425fcd19e; 0x5fcba8fb36825880; 0x146b7e8d3f05ca0f; 0x6fa82d45129538be; 0x2121fa7d9fc58153; 0xf4421995482f052; 0x7e35cbe9470172d0; 0x6422079d4d644bbc; 0x7f5013f68df2c212; 0x52f23c8bf1ba744; 0x166ad7c734e92fc5; 0x4ef7596dd5460f0c; 0x51912368592b07bf; 0x193b7370acc9456f; 0x684b2a7dd2c59378; 0x6b2e4f7e03f26484; 0x370c71241df969b1; 0x58b67971069e6df2; 0x565d07ce00478ed5; 0x20a1e9ffe3020243; 0x5d17993d5f1a78b4; 0x75c294c1a2b8f43b; 0x1102766d1cde0e47; 0x4841b45c9ab2e4c7; 0x672f656310e60c3f; 0xa431b89e0d335d; 0x2e6a518d8b1d5e0c; 0x50bdfe299d03789e; 0xb9436bc7f1a1cd0; 0x39aa3ed80b5e04a8; 0x467bae0462561a2c; 0x276a7b1f312ef472; 0x940c7f5cc9c5796; 0x31d7f6bf8b110e63; 0x6fe973f20756ccd2; 0x3f46c2b5ef5e41e8; 0x8d8fea76de971b6; 0x15c2568adb2584fe; 0x656fdc71af1a553e; 0xf8a9ecd8eeb26fa; 0x6f4ef3bcc7f9a8c6; 0x3c76cd0c229d7198; 0x1a4f6d27a7e5a4b4; 0x176316966572d782; 0x608c0cd4881e66a0; 0x4ce69b3327c11a8a; 0x1330cebb19989fba; 0x583adc40efa4b831; 0x6bfcf0d2853a321d; 0x741c39e825ab281a; 0x1989a29d8ee53998; 0x14e0f6232645ff9e; 0x344dff9d55e100f0; 0x58796d3685548552; 0x1c464c860b79091d; 0x3f2cb662838ac800; 0x2dc985fa5cfcc48c; 0x7541649733d55dca; 0x473db093d8e09c17; 0x3692243bed01f513; 0x6178be3550a54486; 0x7f6fd8016da58bf7; 0x768796147bfe1825; 0x2090737502102082; 0x68fd3f1bf332898f; 0x36f86c92eb16b79e; 0x3b044afba789d271; 0x86ee18751bec4b0; 0x3012936714c7c16f; 0x585c9715061bb061; 0x360f61cc2d24cd9a; 0x214a7bc36baea2f1; 0x7360f6d6ed4a143; 0x5b9ca4c862dd765e; 0x6ad6a65414fb9b1e; 0x3640b8c6ef2f2a97; 0x362f9ecd616e79d7; 0x2764345c48fddfc6; 0x5dce1da4e45e0ac6; 0x7b72760e07736efe; 0x1bf0e8d7d131b728; 0x619336263fd47a12; 0x5009dafa2a7afdf5; 0x6a92a2b3f31d2db3; 0x7060d9a2e81259c; 0x1bbbb2ec00a7403e; 0x2e894ec79f49ec8a; 0x74b982a7ed0c4036; 0x3114a3d893a8a6a5; 0x3700d494e56ec1b8; 0x3aabf4d19943de71; 0x2211e4b9cfd88391; 0x4807cc9beec30b1d; 0x30ea567bfe675357; 0x14cb8540b07e2cd; 0x217e89f7e43e56f7; 0x78bd82d8155a46c7; 0x21f68f4b8893f6a6; 0x2681c2b9d961344d; 0x7b5a5976c7c214bf; 0x2a528a0bb4a0f652; 0x7d3fb3ab4fa7cf5a; 0x3ba8f5b2245b0d6c; 0x3e7da3f44dd8ef35; 0x3bca8d619aa4f44b; 0x6c1c80db50c47cfc; 0x130825e39ad3e472; 0x613f8a6ed439de9; 0x36a0535a53e1c26b; 0x3d35c828a4de64f3; 0x9f4942552260b61; 0x5916cf1a336fe4de; 0x568c90db93710efb; 0x6526c34eb1a017a4; 0x3e990e1ba91e97df; 0x316b7d96240adb7c; 0x695dc6ab7d623803; 0x33688c96087eba30; 0x53d01c488de978bf; 0x550471de0c7f394b; 0x75a8bc711b6da013; 0x734854cb7b337773; 0xc6b4908323a4c0b; 0x7ebcbcbf5159d198; 0x3de4d1e8d5d5f182; 0x77afbe06c6d9b2d4; 0x10e508408429a9f5; 0xb79efddbeb5ac6f; 0x601bb1b8be714a10; 0x5ec0a39ccc1d278b; 0x5c35daaa25a6a213; 0x31bd0b6f8375104f; 0x59852f6bea41390d; 0x3d43c3c93bf18c17; 0x6c6b40811c24f757; 0x4dd00998f17134ca; 0x3db69f079d7c71b5; 0x20f2c21898ba9ef3; 0x400931a4b45f835b; 0x427a29ea1f85cb2e; 0x14b8356c6ecaf3d9; 0x518ec85ea08a51b7; 0x1667597f176d8d72; 0x6f2b0368a6c88d5d; 0x184f30b446abfc75; 0x11539405f364f6db; 0xd3d7fb9a627619e; 0x1e31bf4a005515cc; 0x57b4609dfdf744a2; 0x7e43d4dce0146f23; 0x6da884d93053502; 0x241a1c8e6e15c5dc; 0x4c87fd78de9d5cb6; 0x445a6abb4184432d; 0x2991f3714ebdca6; 0x2abf3146c200b7ed; 0x687577edd7a29bf];
   [0xbee684383afac10; 0x6781fbb39418dbd3; 0x6b016b9096618fec; 0xb6764d8b78a3828; 0x27e414e56e084024; 0x76c551b6406040b7; 0x2207019434c6f112; 0x220be27e86b842f0; 0x74cb22c375fecd1f; 0x523f1e176f0bbb06; 0x5776a6fa05f76780; 0x470ec1639ab1243f; 0x53d0ca2db9c42cdf; 0x6293ff265e024361; 0x3b5b675bd4eef3b6; 0x3be921f33ed6e32c; 0x4ea5abfeaf4059db; 0x60c75791c4846b54; 0x51b0d38d0a8d77e3; 0x331dd4ae78f03b92; 0x461892cebdc4d5b9; 0x672074b8da9b2742; 0x7d4ea331e2a420f; 0x5a73ff41dfd41f59; 0x1094a9982b51826b; 0x25ce76d792f920f8; 0x7ec430d978cc577c; 0x205120dc041d8969; 0x62981d655e90f491; 0x50767a5d566944fa; 0x5c9f2fef7c07c9bd; 0x6ae43c166bbb149d; 0x64987b13c7b2cd82; 0x1bf6f0b087261d3d; 0x4757d4f606b9c07c; 0x7611b45de8850ce6; 0x42e5b5c6458a0b42; 0x3ad84675a959d4ed; 0x19bcfd92593c420f; 0x38780dfba433a32e; 0x5011b2d97ebed949; 0x77cd5a3fb76d20fd; 0x75e54f6be8018736; 0x700a22c1793e1700; 0x1dd26a086fb7d5c7; 0x7e848399405f957a; 0x9f05a65fb22e0b; 0x209d3ab4557e7d23; 0x369a434cbc53b41d; 0x41a6c096affb1694; 0x5661cd3a0bbf4765; 0x77ab76c63a2c4473; 0xfa8a32cb511a970; 0x7807d07f0d2f5318; 0x69fb5712cf83f177; 0x48dd7cb47fd93eb3; 0x3ffd50e73de5234e; 0x2c3439878db0a0e2; 0x7db2fbf549f10b48; 0x5b2c9dd152b2a477; 0x2977cb0d3ded146f; 0x637af1e4408756e3; 0x41aa6a04de3d2f20; 0xc2cd43f07ccf60; 0x25b1ddeb8817a742; 0x64a0cb87ac741a8e; 0x4634a9896618c615; 0x5c18377be722ff95; 0x16d694ca39c2d24c; 0x32f24ae21198ce89; 0x2f9413b4010fe5bc; 0xe5fb96b75c562eb; 0x1bcc04e542605ee0; 0x19290bdd62c9e513; 0x41c2776c96cc651f; 0x76708c0267be285f; 0xd2bade01088ce92; 0xdf0f1d025d97373; 0x6a0c6c7d91d6bc3d; 0x173282b088717f69; 0x39ae83a4a06c2fe; 0x7d9f04c1db2b0713; 0x653cf086e3927964; 0xa033e450d886eea; 0x7675a8e2b3771e91; 0x4549ceacd5f89eba; 0x664e3e35c8e63769; 0x3207b5ecf2422b90; 0x41bda62380f70caa; 0x6091cc0352bb7c56; 0x19ac469fd83c7453; 0x4645b29476c523c4; 0x507741c6a0138ad9; 0x1d0d03ac4428f5f; 0x5629047e6123c956; 0xfa5e770e9120927; 0x4f6bec71c9e19294; 0x62b49135678811d3; 0x549eacc29c7c4c2a; 0x1d267e2d4f284b9d; 0x458145baf1735909; 0x895b3ae9003be26; 0x5a36ee6256a1bd53; 0x75e086aa7253d6e6; 0x4a66288de5092341; 0x3dad8bd60e6c2959; 0x44fbacf4225dd1ce; 0x581b15fb5c7239a2; 0x29c0e28aba196da4; 0x4b2a08c90bdf74e8; 0x35ec0d058ec0b73a; 0x5b7a21ec78b77d0a; 0x32aa95794ae58130; 0x15f799526e301c31; 0x655218a367289098; 0x4f453804415da7b; 0x301f8b19ba02fa41; 0x2a48a3e157b276f3; 0xe8093ea5310f07d; 0x6cfd825b504b6bfb; 0x55a04020a6cc63bb; 0x33f16cec62683b4b; 0x171bef85efa78298; 0x2847498cabd73db7; 0x4510e69787be44a9; 0xdb179f580111c72; 0x5c41e97e4ec6ce40; 0x5fb667bd717baf26; 0x63a99d807896068a; 0x7a8d587138625132; 0x6df492e4a3307608; 0x2e268fa965ef6c82; 0x5aa78f9e57380c09; 0x11100f4c4d6c16a6; 0x114427e228ab99ec; 0x40e84af4f2743595; 0x1e782c029bff881; 0x79c9fbeee1379f8b; 0x30e0df72d74133b8; 0x68bed3c9b97a6562; 0x1fa2f231ac9e4e1d; 0x6efdadae852fcf96; 0x92f54ba1b2c9da2; 0x6cbfa56e35d07f2; 0x1778e8dfafe2be6f; 0x7929a7f7b7f800a6; 0x397d86236c6895f6; 0x3452efe5e569eff1; 0x7188d0cdd81af3b6; 0x44652839f3da6fb8; 0x595f6eda5ee5ff98; 0x25dac2d6ed93575; 0x20ebda4d733cf6e1; 0x51a8bb25684bd493; 0x37f6c7ca40d10f7c; 0x60062c130e11db6f; 0x5021fd0ff0677739; 0x7d399e826f7da2a3; 0x66434fff13609c60; 0x4523b88f3a91b3f; 0x26791eb981054c3b; 0x63b9dc4ef6e316e4; 0x1b6bfff4e5abc1a5; 0x42abd4f900229cff; 0x3ec5c99cb5d1278c; 0x7e62740e99d59ea0; 0x5629eeddff98d802; 0x7a83bdfda26985f7; 0x263c856cdec830cd; 0x5e2d45ec9483cff1; 0x63e664aa8b907694; 0x4029fa4a6b074ab7; 0x1228e89797ad1bac; 0x3fb25c3efdfb801; 0x29f2b44b09245e70; 0x2a869bd90328a605; 0x28c7c3cc8353fda3; 0x3f6364dedeb17bf0; 0x2ba532c27d4ec647; 0x5a8db2d4cfec89bb; 0x5a66e736e93bde29; 0x2d40439e5fc96044; 0xe126e81c4bfa37c; 0x2cf38f0eaf666980; 0x5acb6b5de657e7a; 0x3f96364fd24b7812; 0x64196709d14c906c; 0x3f433ed15c23ba76; 0xb687ae513f01a27; 0x3e65f0fff4aca4f3; 0x3added823dd92c80; 0x5cbe9247bd027102; 0x7e1ef012f685a0d0; 0x58b1c109415c461; 0x1d52b1f43b1aa855; 0x661d768fccad74fd; 0x52bf16c82f384522; 0x7991fc77474bee9b; 0x43fe0e9f61e7b58f; 0x4913a812a3273635; 0x795fbcde33089816; 0x4ea934482921fa07; 0x1f3ecb1413156e; 0x3ff0b61f62ca7f64; 0x712da6a1e97af6c7; 0x1675f450c906e429; 0x5379040d2d8fd01c; 0x7c39f8faddb5b75a; 0x718699cf0e42e85b; 0x138f48a3d10e719e; 0x1193359c604b579a; 0x62eab4a5aeb00416; 0x64b12c214e060979; 0x7b11cfa1b7b37594; 0x62d6e4190302aac3; 0x69f4bec932837761; 0x68a1058e496804f5; 0x680f8a00c8e2574a; 0x3db54cde4f60ace6; 0x65283b4d840e0d69; 0x358ceab2f3b5ba35; 0x78334c973b70a174; 0x7cd1b07b444ba4f9; 0x49b0a23bc8c1a660; 0x10fbf411d63334f1; 0x6c7a58721254fb59; 0x4761db6b0af5043b; 0x3c560701fe8bf801; 0x26d95949d224e5fc; 0x30b1302fd9ecc0c; 0x5a82c1d921ad9188; 0x3167d81aab79f747; 0x43ee253ec92add31; 0x4870f8b12e499fd7; 0x68773fb3df2e5c6a; 0x7846c8cad21367b2; 0x6cc15a56654550b8; 0x51826c6136edac66; 0x73cec5434c5f5b5e; 0x2c2d35cf51608feb; 0x67f871e2b93d81dd; 0x1806458e82ece62; 0x421ffe0d6a75492e; 0x40eeb1a2f5f14c7; 0x2da5edc4737abbaa; 0x3b349eaf6cd04e86; 0x4eb9def39b230bd4; 0x62ce94dbeae033ac; 0x1e7dd009ad9c8a5e; 0x2e05987ed9673d3e; 0x590bb6f2874ff08; 0x3acbcb66d16190e8; 0x44b19dc40949279a; 0x5a311ff2ae51db4f; 0x20d5bfa4f93e07a1; 0x40f7e410c016c25c; 0x1b6a421a3fa4a9ce; 0x50766b2d8d8aabcb; 0x418ad3f507f75610; 0x15e0a0bf6b3bae3d; 0x2690551ac814bb59; 0x20e0befff5dba47a; 0x1b3e15cc0cc96e3b; 0x42ebb8b870af5eb7; 0x24a0174877d5c04d; 0x3f47ea07d95daf49; 0xeffaf84b3f48535; 0x300c3e26ce4b074d; 0x5bb792250307f641; 0x555ebf169a713a89; 0x7173b188a3a4455d; 0xc36920b066fbdf1; 0x17bb6a33f1173933; 0x464636ab4fe23ff3; 0x46ea4fc845731f11; 0x38071b5041d29fd6; 0x58578874d7cd36e; 0x5ccbd921ab921c3; 0x7c0cd0892c7d1a5e; 0x4324434f0dcd0da7; 0x16710479f77c6973; 0x2d8ccd2216e1dfae; 0x7a3265c992033141; 0x7a194fec70a86397; 0x40ccc929b1c77aa8; 0xb6f9b2cd9b3b4a9; 0x25af5bf412d85bba; 0x3e559a9741695308; 0x6063b766565814b; 0x5c797ff8e0437ec1; 0x5ffd0aa0cdae3f01; 0x1b5163d6d7bc0641; 0x386f5e98a64e7dca; 0x3186667040033fd8; 0x5191e11912b6d5d4; 0x4da1c28b015bdbe8; 0x1db7c586edd94ae0; 0x2264aec1ffa54288; 0x3514d188bbfb996d; 0x48bc23de8bcfd811; 0x5bba5a684325d3b9; 0x257b602bccff8a77; 0x443760e311db3377; 0x644aa838869712b0; 0x727b8b191f36481c; 0x3878bc22b4fda3f4; 0x167024fea27f94b4; 0x26278f22191e6e5f; 0x3dada08eba990d71; 0x70af9c8c62f2c112; 0x49aac4305943d175; 0x5eb21a7efc28ff2a; 0x69ec934439c58cd7; 0x65ecad13b94c37f9; 0x7374776688cab2b7; 0x3cada1de414b106; 0xe10310407790fed];
   [0x15500c10e0c05622; 0x3557313530a88c5a; 0x273527b166fa4828; 0x73440d86d9ec9ef1; 0x7021c7f790d06b16; 0x6918a2d748c4c18a; 0x33c809e1c45e44c2; 0x70a43d0f8f94f754; 0x2227011d2c4ccc8a; 0xf845e2b13404951; 0x36978b24f3a8da77; 0x549b4bbab8e18977; 0x21fb8c6973fe725b; 0x76a10344a0ec3df7; 0x4722aa6d66a0840b; 0x39bccc75f5e51ee3; 0x384e830a1a06fc10; 0x1ff1b733079daab6; 0x6a9ff7e0c0229c00; 0x5b626312176c6dc3; 0x231b978e0ada7733; 0x2f0a5232eb1ad7bb; 0x3eec8aa79e74330c; 0x389bbaf5939ea225; 0x412100b4a52ee3a; 0x2733fefc4ba3b3f1; 0x2783f4c97b29a0bd; 0x9da999e9b656da6; 0x4da35041530ff239; 0x203607383a3333ac; 0x38881c28d5ba2e4; 0x7aecf7761fe5cf65; 0x40d3cfd02e8ee281; 0x30b5a6181b607a3b; 0xadd38d01bdf3d55; 0x7be4fb8b74ede553; 0x2293a9d7d123b47e; 0x494f73f4e8820e4e; 0x267c38c2e029cfd8; 0x6dae9731eff7f66f; 0x2757a1afcc51b33f; 0x38fb16f00b212187; 0x2555bfd94d5f8d4e; 0x46422c12d6be1b69; 0x788912de5c17c051; 0x11bd43961f11d3a5; 0x410d70d5da1c7cb8; 0x168ed34bb8f81d1e; 0x71e5aed446634660; 0x6295c2770153440c; 0x530dbba5507c8232; 0x417b4b24cdd33f0; 0x3a248c44083c6294; 0x21f3794e176dc45f; 0x248d613e6f3ba18d; 0x28eab63126e164fb; 0x136534f8a071c803; 0x1fb14a0d2f0b5f08; 0x26a9750eb7f90a48; 0x26b44b00f2624bb5; 0x72baabf825af8b8a; 0x77a7cf0c34e91c54; 0x5078da0f953b7216; 0x4680ee8f04f89c46; 0x6ad2219d8eafd405; 0x1bac3ff70a1c5344; 0x5799ca1e3fb63dda; 0x33ee9c41a3079d7f; 0x6d71a5fc72bac619; 0x55bee1d5f3e041c8; 0x44b560256da6f5ac; 0x206eaa8fd8a23ec9; 0x183e0ab8df1abcbc; 0x3ee6e961c8e6bb7b; 0x77e711ff0c63a02e; 0x5bd75f2c741a461f; 0x54e07ef3a7091ead; 0x625105bc345af55e; 0x42c65a4d72ed0c6f; 0x2cb8ddfa56eec05f; 0x41af0fcbfa4f1d2c; 0x1ab4818b7262115e; 0x6542005790142019; 0x6cb4c6bffb50ca86; 0x2b787890bfd0686e; 0x23e97f63f720e039; 0x111248c73e00a4c5; 0x7bd9affeaab51d21; 0x54f53931bb49fe5e; 0x53a290418ee9f667; 0x57b175c24724412e; 0x100f43f7ed8e33aa; 0x57a0058258347b50; 0x5b40831f722bb259; 0x164284b928b3913f; 0x4d64eefe30ce0846; 0x6965e0cfb2e77ea0; 0x5b7a6584f093e9; 0x663554bb4732f6f6; 0x4eee810deaa6f700; 0x1cdb36896eea6549; 0xe34a6f38ebf565e; 0x4abde9e8dfecdce1; 0x227dd57a50d981c7; 0x59d4ace8e0a8df46; 0x41205d018deef8b1; 0x9c5ebb61969828; 0x4481056e8d5db12e; 0x721e5f840c1a8d54; 0x1aca4e9d581abe81; 0x2d18f5fe4f76f96a; 0x101ed04e9c447e4d; 0x6efdba4d1c1b3c95; 0x25f8f6c909e2ca4f; 0x41522887fb23970c; 0x6d272cf74f217518; 0x19540f11de796e1f; 0x69907fb55f577f8e; 0x5672ac8a54d4d6c9; 0x3c473b164bd191c3; 0x186b55e9c910a6be; 0x6212edc0b2746f3e; 0x7a3e6e5025c64faa; 0x44fba6b0553c1c76; 0x3535d0d6a2542d40; 0x35c0295edb39df70; 0x81c7c89b975a997; 0x1deca2d079fe83dc; 0x249b2b1e6aea8e6f; 0x4d19bd95c624dbde; 0x28366f12e1717ac6; 0x984fb33c2863e85; 0xbacee633f70a2bd; 0x5587a26ff9e5bf5b; 0x6d7d71039bb6d34f; 0x34dfc351fb1c0b89; 0x722149ed8fc000a9; 0x24321c6154cde381; 0x19c3c2fe04c24dd2; 0x6e0699cf1540a27f; 0x2cdf5a7e3525f338; 0x16ebc26c88e8941f; 0xdeb22f3beafb337; 0x162033f4d257f836; 0x3a21f5c5d6673eed; 0x32eab949eecbb1de; 0x1f8363d97daa3642; 0x3589c3ae03224206; 0x7bb5ccfe7b5f9850; 0x6650af6e8bc65e03; 0x4deaf35d882d137f; 0x1f92e36b7689ae3b; 0x36271e426defd99; 0x415c85d37c971bb4; 0x564b606b96fbdeb8; 0x29662f0b1683eea5; 0x47083075cb640f06; 0xa2c7e8acb99267; 0x4ef0a4c5813b3ea9; 0x4455886bc58ba718; 0x15e237879691ebf5; 0x7c1fdbe3316b609c; 0x21a23eb4577aa90c; 0x231013a07cc5de6e; 0x150687a1a37710e6; 0x2a1e059ed6ce11c; 0x1d26c636f979f908; 0x549cdafce608b558; 0xdfe73075f2ed571; 0x68d82704ebb04851; 0x4bbc8b93664f1c77; 0x45a269c78883e1ec; 0x27def4d81d7ff289; 0x44a7eaab16cd9dbc; 0x2263204139ee3e5a; 0x729fde29860f5e71; 0x115c7b7516bcc433; 0x7ebf4aad2c812bde; 0x3b369e6c8992e757; 0xf061b71336bddfd; 0x3ae6ff0d8a1919c4; 0x1482751ea52390cf; 0x1012ada1d8f242e3; 0x8bac4e4978de4e2; 0x532a4e8415659b08; 0x3699123fb7ef65ea; 0x53c61d55b4689e25; 0x6f6b923e42fc7098; 0x72984128b6374a30; 0x71c88a77fccd31e1; 0x3f3103b44f1d88dc; 0x5a2edeb37bdcdbc2; 0x7e51d3066a4cc37; 0x7e7cec11e463d566; 0x7848fa7811a6d866; 0x48000c9e49; 0x42208a8c7ff87d7e; 0x7760173e82d4ee0d; 0x349d757af1b80f2d; 0x499f77e81e7c1624; 0x2d4fbd5800876cd1; 0x6e16be17fdbbed9a; 0x55c7a57da08f52c; 0x4ed37b4edd3a13c6; 0x54d6929c9f6a8c5c; 0xe4c81536afafb29; 0x7ead2b04dd7acbba; 0x3c9736376fd5cd2a; 0x6d7e93555312f279; 0x569c3410f2b7c35d; 0x4c28ba84c2f55cdd; 0x3219ba981abcec8e; 0x232a3d8e68e8d429; 0x306baec488fd45f6; 0x3875c84a0447cc25; 0x66a1a01157163461; 0x1bde5ef321da0037; 0x238d6c5d1b8e11e2; 0x1414afbc22c9746e; 0x58f31a844518876f; 0x22d4515f5294070c; 0x37c22c82ddb71682; 0x926bcbacef8c817; 0x274444a27e1f32b1; 0x2d06e055b79d5b80; 0x473ff26acab20854; 0x12d788ba954e4e1e; 0x7b788872455b1a68; 0x3400e711360aba40; 0x551a4ae608705795; 0x643c0eb85683353a; 0x17ae3431247d8ee5; 0x5962664aa91cd3bd; 0x2f0c521b417940d1; 0x34087c5ed23ddbb0; 0x44db9d937de6df31; 0x4fcfdb2db726e157; 0x3e22d02ec85ea06a; 0x52fc63e5714229d6; 0x388431f388c6154c; 0x62bc633fe35b1363; 0xf8133723d700308; 0x72dd810237e24568; 0x6bb041bc97a3fd59; 0x1f8907706b138ef2; 0xb2645ab08523bb1; 0x45dd370029e7df74; 0x9c2259692694949; 0x12e8ab34e8f4bb72; 0x4ff6ef96f53c4db3; 0x2ffc3ac51188b829; 0x76bce2a4bd3fb09a; 0x192c4372501d241f; 0x3ae33e79693cd6d8; 0xeb14a659e18e6fb; 0x607a9460d02bb17e; 0x6b6b42229dd2be5a; 0x72ac533b713fd7ad; 0x58085d9431f672a5; 0x5bb40d4f4361ad0c; 0x615de7824c4febc9; 0x7118457a74b17480; 0x354b5b62a1ea8f95; 0x12c747885fb1017a; 0x2685688d1e3f4217; 0x4bf2c61a1a08c3e8; 0x700c303428aa0e9d; 0x2e8e6ff2aa763cf2; 0x5a98112bbdb9eaec; 0x1e3d6b11acd1ee40; 0x168f7ea23c5c4cce; 0x22f3f5202f1ccd5c; 0x7418f91eb960784d; 0x6c60900f434012dc; 0x556a74fcc676454; 0x2e9533113ff475f; 0x6be05473ce6cb27f; 0x2bc62e20449e9ba9; 0x4304d8c27965c9aa; 0x78251fbcff18cca7; 0x52fbbb4b974b00f6; 0x5fc08eaa43f26834; 0x282b441d182b037c; 0x5b550ee5c5e671d3; 0xbbc284db66d430d; 0x45fc4dfc243cf8c8; 0x23a9084870d21f1; 0x69f00f886a1b3106; 0x30b8939a3dcda1d0; 0x212b2491c2896433; 0x1362e103f1a578a4; 0x5054daab6a128cf7; 0xb0cc59703b9ac7c; 0x58083814134d19b7; 0x590633f6c6a210ca; 0x4871a043d4147c13; 0x5035ecc39f52eeb7; 0x2ecabcb8e0f5f047; 0x12162742832c63b4; 0x78cdcdf817397310; 0x3b8dabc9f9458461; 0x73834959cfa8c248; 0xc172d7502026d61; 0x601b74618a42411c; 0x5854280e42ddf0ad; 0x5911a1012cca1d41; 0x4629e645bc0ac6fb; 0x6b94e662f1a08c55; 0x58f592a34b208b19; 0x14c2d6619c518ae1; 0x73c0ca798c8416ce; 0x9c54ed5610c4cde; 0x66980a5e9955cce8; 0x5b4c176d01a58cd1; 0x3a4b5001ddf786fe; 0x694b979b4e04470e; 0x50772d9ced88982];
   [0x53679f7dcae4539d; 0x4ac626c4d17fd4fd; 0x43e1a9cfefca5a96; 0x4995aa0da887a80a; 0x78662475f09ae2fb; 0x238709b146b94ecd; 0x2d82a34b3e878632; 0x743bc5032f8bd5dc; 0x5d79e3747a13e9c2; 0x68b48ba4c9fb66d3; 0x56000cbd4bdaa639; 0x649c17c72d042de3; 0xef5f5f08a4ad93a; 0x15cf43a416bfff40; 0x289d48a346038e69; 0x7634b96611f64fda; 0x672b023c83d5bb65; 0x19c107ceddcf9163; 0x4762249f543b6556; 0x20b36ea039018bb6; 0x5fb47df3ce570e1e; 0x2cf660c7d3be6375; 0x33aeca0f16cfe520; 0x795b8f34f8ea892a; 0x5e469625ec3e9ce1; 0x922ebfa6667d01f; 0x388aa4ce1f0ae173; 0x669d0e2002aae602; 0x65392352cb308018; 0x72086795157d94c4; 0x413460dea7d3aa96; 0x12ffbf5c4a1f2d3b; 0x5f47cfbb73d6ab77; 0x54062fb28b98e83b; 0x55b41eefd31062ad; 0x5b6aa1dd3e7476d4; 0x296c5292565993f1; 0x3451b83602be6ed3; 0x118e9b099394e0a8; 0x97c2907cea815ec; 0x426565c6cf1be36d; 0x55a651b5bbb74793; 0x7347406e1e9bbeaa; 0xfde8595eb3e6758; 0x11108377b27cd54d; 0x1d1fd58b4427da94; 0x794c46ea62a4838d; 0x3c07347c77c7e32; 0x5a9132a567e7b12b; 0x4001e46d507c1661; 0x689e2c40824a71d9; 0x23924562c5180c63; 0x71a6733567daca18; 0x5df0d72005264b25; 0x6701f4d5a4f4f5e3; 0x64332c80ec871c99; 0x5ce3badf1d7192d9; 0x19a9660da4ec8d40; 0x493921b81837f009; 0x18e421f4c11ad2c3; 0x5e85e819972c0beb; 0x408153db6ed96e57; 0x34a71f158933dce0; 0x243ae2e43a8a97d0; 0x6d6763ffc0eb9297; 0x556c49447c66b31d; 0x9aadd7ae1416f41; 0x241b02bd9e9ed5bf; 0x437cbe80361fb27; 0x58cb10c68063e914; 0x1bcbe4131dbe9aef; 0x1086f9ab06439e57; 0x590a628013a315d7; 0x243cb872b69c4bf0; 0x3fd5a20ce752f9e8; 0xc55948704f2f85; 0x60ed3a85c2298e96; 0x1e6176c09d0ed46b; 0x66c904f7870a9f4; 0x2201d1149032be33; 0x3a2aa249411e2a96; 0x67c963d6f2a432ff; 0x58fcb7cbf0923e12; 0x7af77d168322dcb5; 0x74c90f91dd7ff832; 0x3c7b4cdaf2db861b; 0x4340f3dfd97fdf41; 0x252c75ff0eef1c41; 0x3793e25977fe87ee; 0x16150c151d0848c0; 0x676035ceb4fc0c84; 0x5e598348ab54d5eb; 0x53c3d41b1eb19a94; 0x341f37c65baa1691; 0x1c6a71058bde29db; 0x1b5b7081ec309c01; 0x23c93367b90b3a61; 0x7d1765f37b2b0124; 0xd7b7be75b8b7c03; 0x1b9f6b3281eba737; 0x48f234ab02d6ec99; 0x505799fb81b20cf7; 0x636fea55fcbcbbbd; 0x357541a5ebd9e0fa; 0x3eddaadd049a7ce6; 0x33663e0682a547df; 0x5b2ef621a91b01a7; 0x1f1dda400a3060e; 0x669e82eca90c3229; 0x3180dcaa1deebe5e; 0x1dd15e91dd180f9e; 0x1d2d83e5102ebb1d; 0x50627a36a0aeb82c; 0x993a1416d648681; 0x798441d43898a088; 0x7f8f0cb9ba1a185c; 0x3feb1ab8ae11fa8b; 0x61b9e2ca0009a900; 0x280a01c3685bccbc; 0x2dbaca4d10d729c3; 0x456015152853f049; 0x5596215bbd197026; 0x26490ced07d57b6; 0x23c81acd24a96f68; 0x36cb5dfcc4e37792; 0x47d51b29a3aa1ef6; 0x41a36fd4e0b5c6ff; 0x7568eea4b8aa7619; 0x4366683b8e74d85f; 0x133e368154298a16; 0x2715f879eccd3fa7; 0x83d46c9b6bb5c5c; 0x2219b7b851a59f3; 0x563edef80d46df6d; 0x3d21ff0db84c4e62; 0x17ca4e8538ba453f; 0x7f05b9c4d1b61bc1; 0x780358bd2fce3f0a; 0x8775389fdf7c9fb; 0x6c4d8e8d667fcb84; 0x186e3495d6e01796; 0x17369891d3a35e4e; 0x73ceaf08c9dad0d6; 0x28914120d780cb76; 0x4e50fccaffa05802; 0x2f03e5f943bcbe5e; 0x30d7570e0c99bb30; 0x7b81aa042fac32a1; 0x7ff1ca23c1ff9865; 0x306c7b8a28298722; 0x4441e0d887d3ffa3; 0x16635e8e1f64570e; 0x1b3bfbba90e3da14; 0x17aae6b3333532af; 0x74ba65ca74968760; 0x41a3abffe1828549; 0x28f199c8ca27ea29; 0x488e5a749f6b54d; 0x1a1c03e3120d5cb9; 0x67d6ba3e437c5e4a; 0x54b0296a3bf52fd2; 0x6fb04ced84c16754; 0x94dc50301fc810e; 0x7e71442e6bfad128; 0x72c090620bf55d43; 0x5ea99341645e2717; 0x66e818b9cef18d18; 0x46e2c132a67f3585; 0x495df01d1e6e5498; 0x4876e31700551702; 0x748e50cab1b8100b; 0x565181a9a7c0b50f; 0x6e9a2aa2fe8812a5; 0xa85fea31c80c649; 0x12a2d3fca66e21d3; 0x3ae73af29b4a946c; 0x77b952153c0c7382; 0x15ac70d077b993dc; 0x4739a19429bb47b8; 0x6df69a09e36593e5; 0xe6f40bce447bb0f; 0x47aaa6d38f64b1a8; 0x627269e6bf4530af; 0x7ea8d6015a1c3a30; 0x2f0f4657a4aaab6b; 0x186889c7d086e941; 0x179643a1b5282426; 0x35da3df149236025; 0x67e43622aa1ea3f6; 0x27b85f2a1d7a037d; 0x6f3cc97b7fe4f012; 0x62cd10272366ea3a; 0x5de3e6c1afd4a6eb; 0x4da9185152c50c8d; 0x906c2aa8808df45; 0x4643c2ad1ad2cb3d; 0x5b0ebd3e71eb0737; 0x77cbc44751186d4d; 0x3f7bb87084f945b8; 0x9caff8eef757111; 0x78a1ce9327279ce2; 0x78ba6c68ffde2cc9; 0x36d1aa5649e0779d; 0x16439c14d147bc7c; 0x4c6658b63874bafb; 0x6846ccde59d2ae9b; 0x26a4be867f46c1fb; 0x783ec23903c4727; 0x247b0f81edb951a5; 0x529f5b81f3390ae9; 0x18110d4fb59d54c5; 0x3e5cb15e9d4a709c; 0x472b45c3a8fdb0b9; 0x1a7de77b63a2372e; 0x362be01dadb4a8da; 0x5fc022a1843892cd; 0x30615b68a84b3fe7; 0x70390f63d7ceb21c; 0x1cae873fa3b06326; 0x39017919e6b88e9b; 0x4872eaf1d0b37fa; 0x24426aa496c67b1; 0x1e115dff579327b5; 0x3d3feaa25741b756; 0x4c7a8810e9ef81eb; 0x70b55bf278f586a2; 0x412df4a3243b2dd2; 0x16255990ad0ac2c; 0xa8fa64b79355cde; 0x60648e0a4f9d89f5; 0x34577f7dcc668e8c; 0x390e10866306b59c; 0x2c4d93a75430bd1d; 0x544c90842021534a; 0x7d54eb01dcc90c08; 0x63f759d67e11948; 0x57a63e93ae926a08; 0x3a1a8cb856a8e96f; 0x2471550954b19e61; 0x1a18e61d852e5b2; 0x5bf0ef6372ca7480; 0x20db038bb89f50f0; 0x82504acc368a917; 0x7326da744b53e303; 0xe5c29035de03ad7; 0x524cad206b2a807c; 0x38acb35d736aefe6; 0x1b8ad6959e279056; 0x6cc61d01b0fcc853; 0x2f79edba9e692e2c; 0x262146c49e06204c; 0x157f5f4de9818d34; 0x5428bc4f653cabbc; 0x2c364012f648d7a3; 0xfdf7c5d51d1a42; 0x203b51d3bdb4b467; 0x43b9b176dc53e68d; 0x5457683cd2fe7ef7; 0x5bf241f782a5dcf2; 0x237b75574d681611; 0x20761d0b7cffdb0b; 0x385aa808efd30152; 0x7e6b9d9a492341a2; 0x5fc79e5759228c40; 0xe3b98053bce429c; 0x57da0f1f88516622; 0x471ed81f52afb516; 0x6388e0b2ed03bddd; 0x6381322737071cc4; 0x15e3727b9d6ad77e; 0x4feb773af199a320; 0x703da3355c7d3980; 0x300171ff33969964; 0x1bb9925875092358; 0x60dced68c7894c84; 0x61f5722d6d9aa258; 0xe0fb330c5355298; 0x9633a63a1020827; 0x18a45813933da578; 0x15d2c4817bfa4c3; 0x1f61ce2fd8fbd5d7; 0x28c835b2c2d7f863; 0x664cbf37891a328a; 0x72d79a6a897755ff; 0x50806a97889d61d5; 0x74e8186ee32fd886; 0xca51792fd8a9a16; 0x78f18babf57ef093; 0x290035de16445c9f; 0x211412775540b270; 0x3730291a692daeac; 0x7cbf7c10fb85503a; 0x5201b4528990cc93; 0x11a28b1aaae03be8; 0xd18f4f80bbe46; 0x165af03f774b04e5; 0x19e6e342c6401587; 0x1f8189d2463d2da1; 0x4e6e915980c1387e; 0xbd09670544b9d0c; 0x2272627387917859; 0x42b8c13499fd7d01; 0x1b20ccdda1f298c5; 0x120ba72a6d9889e6; 0x70c06fa5cd84fc9e; 0x248c4d6f1007f3dc; 0x4bd1697ce00afb97; 0x82fa1b9c16eec3d; 0x76faefbc45d2a187; 0x12d4dcfab44a92e; 0x3c29438803f141c0; 0x45b761267e45a285; 0x1b2f15e1c2e1ab8a; 0x74e3e42e76856e6b; 0x419196807243dd45; 0x74aa966a5fb3d8d1; 0xe9da5e85f6c552b];
   [0x2a819a1d95385408; 0x4682a5ca97714685; 0x3e1664f06f14aa4; 0x3619806257876216; 0x618ae8071f80762b; 0x2c1c6e702ef7d2cf; 0x278e7dbe8792ab90; 0x9376214605a9817; 0x593fd85092d628c; 0x6a47f9e315ef4ee6; 0x6e9aa08c2bd4b98; 0x42d863d30907f124; 0x76e454d1b6f815b3; 0x33a5fb6caeadd3c8; 0x771b571710c583e7; 0x20d996e4dbb5aa65; 0x2a1450c8cc8262ff; 0x556140d812e5fcee; 0x539e0d7f541e05ff; 0x3b6a56b3dd86f438; 0x481494b1b83e6ad1; 0x233fbfa8c56ff95c; 0x74947ee3b7caf89e; 0x4648797b4683d3aa; 0x1db5f97d30d4974; 0x29b065de3787fa28; 0x55209aa1ca9b1521; 0xa2edec4523cdead; 0x4df479364d930779; 0x4f244cbf3bae1f6d; 0x140450859d35dbab; 0x1dbcea97f55da73c; 0xf7e4897e5619f8; 0x67f0812b7f070c6c; 0x2afcf45e8bc1e98c; 0xa490e56f69a7a55; 0x493376545c50b41d; 0x14aead0778eaea74; 0x471eef5e9eebf219; 0x22e68902ba3f979d; 0x29a3b065f573de5f; 0x55a39f5a0326574b; 0x15298800bd2bb9c8; 0x1e688fba7c7dd757; 0x6424bbf9de09079a; 0x190c7f6800046cf0; 0x205a4a6b419d3fd8; 0xb1c6b766212a2b0; 0x79abf1d3e3239e5f; 0x7f4b1ac1fbb4f8b; 0x3a6eceb1a17f63e1; 0x413ec4914f133c14; 0x30ef852d676157ca; 0x22b07be56d5e1764; 0x1a0ec16d25932671; 0x1124e19e320624c1; 0x11693565019bcfc0; 0x144d54e407809f2e; 0x6b5ad0d4e349e74a; 0x50a2d24c41a2c931; 0x5e03cab34b28883c; 0x481691e0243cab53; 0x449e837fbcc18aa; 0x400fe5c2daf0e902; 0x21a962249efa1dd2; 0x10fa5f5ef922ab88; 0x34352dde402d81b2; 0x29a7b9bd9eb739da; 0x23cbad63c451fc04; 0x2ff8dfb5ecf5661c; 0x3a0216d88ffe652c; 0x11cfb7b8fd36e292; 0x5b6c92bf958302c2; 0x55b37c2555649b90; 0x29d9a710eca87d8e; 0x6dc67a157be4066b; 0x3d9e0d62c7f173c3; 0x1278d8b93d9f45df; 0x7bf784fc6c2cf8f2; 0x2550e6993dbd68a5; 0x1fc813573edc7735; 0x562b9e2ed6730bf2; 0x3e1f6b04ae382629; 0x26368b2cf1da7f6; 0x5696503279b4bdef; 0x690f8c1ce622c50c; 0x62ad7939c5b5cecc; 0x40f6427f047b2cc2; 0x3ac052bd030f4231; 0x30167ba77e730c33; 0x303ecbe5b9d26315; 0x2929ecdcc3a2fda0; 0x44251fcbbff9cac4; 0x58e98677e212345f; 0x63edd43f1a6df99d; 0x624b99a7cb32701c; 0x7787c4db7fed9150; 0x2a7e901ac8f4c8f3; 0x6318fe2fc86a35b9; 0x470f06c9aa6bc2df; 0x31dd760548edce89; 0x779a5d6a3347a43f; 0x1e4bb4f7f96ba4e2; 0x27adcf6071e046f6; 0x5b1f264ed31e8064; 0xfd72280185652c8; 0x58b755adc50de273; 0x12cdd797cb7482b2; 0x5d33d77e97f26074; 0x4d6beff8b43dcbc9; 0x57a70a47ab3b4dea; 0x46f2c7c33896503; 0x161a5ec38cc8025c; 0x1fa335fa6d66f7cb; 0x14c1b1be7788144f; 0x77d2572261e6e180; 0x7092be1f5d85422f; 0x23340f32fdd3051f; 0x473aa913fa339c56; 0x5ea9c91f55b6d1fa; 0x5eee93aa6a20f831; 0x26df6a98bf2bdf18; 0x7672658374e57e52; 0x6dd6e57e2574aecd; 0x73cdda6f992f2a50; 0x77652f5ac8d2c5eb; 0x25cf02d132e1d90b; 0x5a2ad657261eab4e; 0x60a7eeb39e9c8f61; 0x24916f845f0850f3; 0x5728ad3f183e7871; 0x7ab4bad2040a9477; 0x6f5b96003b25d702; 0x167c33ab1718cd07; 0x37f047e80e389fb3; 0x511c483406821ed7; 0x50237c2f85463226; 0x5323d64ab7e7abe; 0x2f4deaf08ca9b953; 0x7e9df7680ce6fac6; 0x665b7e29b81978c6; 0x6122e26fc45bc17f; 0x660de94ae0f6aa; 0x30a85ab37ef3b049; 0x1969a50ab961c7cd; 0x16779bc57bc4e786; 0xc7fcedb94c7d661; 0x767020d2c1d734f5; 0x5eccc77c1e3b1139; 0x11338e33ee1d1c03; 0x35900f924eabd5ad; 0x2ede7e2dba3e6fde; 0xfa43de7a9fcb31c; 0x2df71734fe586419; 0xd8d359bfab24763; 0x1a30c78ae95a8c13; 0x41527a6b05dc71d; 0x374b3d02a5f723d7; 0x29478de11171c5ef; 0x80b89dafb7a114d; 0x19365c488d135155; 0x3bf1dbd6ac6e1080; 0x33bf66297d1347fc; 0x1ce680dd4ebe995f; 0x11d0fbe4ea4ca76d; 0x40b320eaa2e53e45; 0x42f584a2762f8657; 0x24d13ee6d92eb262; 0x6cf85df617b81acc; 0x10273966b12d9f10; 0x7068c919f98d6dbe; 0x48d42a4ff0b795c9; 0x45597730137fbb25; 0x6d9d36f77008be59; 0x5cf08f1046eef572; 0x7d6a932b42309c54; 0x46dff2b54a29d0c8; 0x7256e3409f7cbb09; 0x111f183358c5f28; 0x1a29e02ef161b004; 0x7f21616f1f22968f; 0x4a3d747a7f29888e; 0x17559d994273db72; 0x59908d1fe3fa17c8; 0x5ab0c989c2e625f1; 0x5b579ca682d361af; 0x2bb0d76c5f09771b; 0x67699b5adb5a9e0a; 0x23e9260f68588475; 0x3fd674db12f1c76c; 0x69223cc88a3a2533; 0x245d14609bf62261; 0x4d9e15a01b564002; 0x3e9ef03ba7b3c86e; 0x73b4b4366b69e6c9; 0x22bd75d078d62192; 0x440392d76393c2cf; 0x34cb4e5481b717fc; 0x205a95e23c5829a2; 0x7f409e3d702cd4b3; 0x2aee5d6999a52e9a; 0x501e8dcc2a29f9a6; 0xb9106d1e24fac39; 0x73a98cf882d00f51; 0x6a91b673d66d9968; 0x5efdcb94141fcdb0; 0x10f4bac3e5ff840f; 0x5cfd8aae51017f6e; 0x1d651b2ace54c63a; 0x1a634a17f43a415e; 0x1f1021b7124f8280; 0x71bc2eb5d5c91ee7; 0x1f3cb7fec79d8333; 0x55ca06fb3d6f29dd; 0x59fdd56ece5677bb; 0x1e51b509c6ec4496; 0x29409d13e57ba9ab; 0xc9d0391a8f2a085; 0x2060b887defe7eaf; 0x2af10178815780af; 0x287f2a4400610674; 0x538b77a7b65a7635; 0x256a72663c1934c1; 0x4121da9e0f8b1914; 0x7fdfa62d4c28c62e; 0x31649ba37efdac56; 0x33bca5590be6d81c; 0x451887fd81fb9bcd; 0x59aea0326d2bec7f; 0x3a5a8d68a648924b; 0x2b012423a4f1c7ef; 0x7235f6290abb8314; 0x4390e078b52c5783; 0x3d22dd29b0564dbc; 0x64d38aeedc947cf0; 0x42d0b6b3472e740a; 0x7f4fdf0c252feef4; 0x122d1d9bf2a6b266; 0x780b9b2f134b53c9; 0x46bcfb23eff92654; 0x53dd76d99e8bf925; 0x70ed0c6dd22d2275; 0x14edf487f445b42e; 0x1a44f8fd656a7f93; 0x48e826fa29d916ba; 0xacf820d9224550c; 0x54a50f4dbdd24238; 0x61019f763deb0813; 0x5abbd766bab83153; 0x6bafa1b0c0b795f5; 0x354098a37078302c; 0x32cf05747722e14b; 0x3d90a4b889eac80d; 0x34b3e6168101e894; 0x217bc8c41157dc73; 0x7d0dd23c1b245c50; 0x1fec61432762c7e4; 0x7b8cfa652bd980e4; 0x209f81725606dd0f; 0x27f4cc439ff77cc8; 0x67a1800747157ed4; 0x7eb58bfc4283b88; 0x66a152888a9d06f8; 0x1dc9a308e14d4156; 0x543729185626942d; 0x310add859968ac2f; 0x274cb80423db94aa; 0x69742fe11b695344; 0x19f7c5ab1742df70; 0x3e41f4b8da30ff31; 0x9e42eca8e73d41e; 0x2aa3b55001a7d4f3; 0x56167bc9dceeee3f; 0x1f914d495d58af1b; 0x354010317c85e6ea; 0x5f34d19c5e094fd0; 0x7b828b78bf2f8744; 0x43a3b200d8069444; 0x4983c7424059b9c7; 0x76e98c0747473b09; 0x75ec0b27826dbbc7; 0x98b70335a167175; 0x5322e8717a0b75cf; 0x2cddf32af34cc15d; 0x88b7de722a0eb29; 0x623abfbd73288f20; 0x473eb49e272f842b; 0x66c654be0a292a60; 0x465257be33742abd; 0x718edc28d9643534; 0x2d1173fe5d388fce; 0x1c53897b8695639a; 0x1a028e8c053bad6c; 0x6f8ac4a51cdb417e; 0x5e6697de0aed3614; 0x33fab00edb4da23a; 0x46640f625fa8d377; 0x7ae7e8676602db2; 0x1d6c528091744a61; 0x1d2bd2024cd0c9f7; 0x65a21948ebf7d2d5; 0xf092242a6c25a9d; 0x362f9174147eeaaf; 0x237c269defe53ecd; 0x7d64cd05cd0c32fd; 0x13fba7f316e0f94f; 0x41f61d95b71e4611; 0x242d58876e5a278f; 0x22b69c2378e4420b; 0x62a9cccc83ba2144; 0x6fd0bfd1cfcb5402; 0x8f9ed2bcbd31493; 0x2c0ce35863b95d2; 0x6b405f35532718b4; 0x2861a67fbe568f0a; 0x75554a1726929854; 0x86306a0169b91f8];
   [0x638937a0a09bddb3; 0x15b6b6c556b9adec; 0x77d8d4b90e4c19fb; 0x89d7efbb0b2d1c4; 0x4c8fefa3938bdd9c; 0x46904f13b8ac2f90; 0x326caa02dac06261; 0x5e8665a58901b5ac; 0x55f4cccda1a3de; 0x137cc4c613e9e1d6; 0x6ef8de59474ce2ef; 0x20c907983b97a7cc; 0x23f2bedf55ddd6f3; 0x6f179a44d2fc8aa9; 0x23da375bedf2564; 0x7ef16e27e2d7ac49; 0x5ecff09eeb4a27b6; 0x52f79eb7cc1fc08a; 0x145c72865540a970; 0x48661aeaa7db3743; 0x476c4f2a5bd2d15d; 0x539ed11af254314d; 0x49ee6021e645f169; 0x5186d008b5c4b8ac; 0xaf0574c71d8d490; 0x6283d184663d12ca; 0x2c8d395bc879d07c; 0x2f8f127cdbbba3de; 0x752e86ebbc017dbf; 0x48258447013a2a50; 0x6849199a59efb694; 0x604d6d5f55c60fed; 0x615dfec2e850eade; 0x4d1f436699aab435; 0x316056a10b88375d; 0x21e3adf9a7df889; 0x43b8fd3432464d83; 0xeba606fba42cd1c; 0x5cbb0f12aec844b8; 0x3a829513c17baa80; 0x53cafbe0622d9765; 0x4acf769d5bfaa876; 0x440120c6441273c4; 0x580631ba162146a1; 0x23fdcc93103259ef; 0x68f833fd9a8586b1; 0x8f24506e2644573; 0x79283fae6cf288c5; 0x15221a715d9e2cd; 0x5703a0266c5588a9; 0x695753e75bd924e3; 0x70be9f56309e3a7f; 0x17068fead85a6f73; 0x4c7408a3eec7ff78; 0x4e4e822ec4fa606e; 0x73353abee81550f8; 0x6a404da71705dfcd; 0x4db6f68d0e0a4121; 0x58a70761b823b07e; 0x4185cad7be936887; 0x7ec2cb44705c7bb2; 0x67b558ae28db31a8; 0x39b5e61fdf602eb2; 0x2ea65e82531b94a0; 0x50bc0150535bb612; 0x4e7f18ab9b2ff4a9; 0x6c0be0e3016ddeb2; 0x5bcbb81d49a1f127; 0x59172b0e5540c42; 0x12d6cc314099ab33; 0x6dfdd5942ffb8d85; 0x3ac3fca9ffc17c6a; 0x34ae0836032060e2; 0x3eb6a407191e0d6f; 0x7ba6eff835aaa6fd; 0x740081072e390bbf; 0x793bafaf81b16917; 0x776a9171a55b48fc; 0x3b2190950473991d; 0x3bf772ea4e924150; 0x4476290817c418c0; 0x236e439f363121ea; 0x7f98cd3d5a2a0fea; 0x511d81d16df2355b; 0x234fdd6c9114ebef; 0x224b54819d37e00e; 0x3529161faba7e500; 0x6ff2f5350b1fe6dc; 0x78a2dbdf3e260b11; 0x58b1ea510914082e; 0x6707bfd1674c3c2b; 0x51155b45e78bb6fc; 0xf8a26d425812495; 0x24653ac9c46ac7b7; 0x6a74b29fe3b07494; 0x166de8b873b8400c; 0x135c51c0b8931f17; 0x3f776db57615f45e; 0x31f0c1877110fccd; 0x47bf80a29813166; 0x31fac92ee7c38547; 0x5d9ea25a15bcb31b; 0x1569cd739871191e; 0xf65bb6ea2aa3d68; 0x2fcb8c4e53581954; 0x7426a12cc54c29ee; 0x1a1df94a1af4f3fc; 0x2379685e00fc5304; 0x1863c10a82c43396; 0x18f0ca1cf055cbcb; 0x27bd3cf675f833f9; 0x7dc8faf55152d786; 0x4d8128c539cc2e37; 0x311364840981e592; 0x7c33295659009218; 0x38c9f8602c3dd9a5; 0x51aea78f6f742bff; 0xe8e9db0385fe977; 0x10d16e0ba18f23f4; 0x9f5e9349575f074; 0x2bd9f317350426d3; 0x2687218c445b2fe7; 0x46cdfd451d8a9c24; 0x21fe2ca316b01173; 0x26fa7947027d9462; 0x1aa5bf11e2063278; 0x2fc594a483b486b6; 0x2c225b645c40e1ea; 0x2cafd52d12cf43df; 0x553eccc46ed47cc1; 0x6ae814003fdaa3dc; 0x2c42ca846e98d4ed; 0x1b097c845ed010d5; 0x2e45ab014b3a451e; 0xd8feef0236ed784; 0xe2d5f682559a6f6; 0x40144d2bb636cd8c; 0x281dccd715ac812d; 0x73981dc8db8a3445; 0x5eb10a25ea81b138; 0x1f3635af6370f457; 0x7b7d71086d67cf50; 0x60d082a71585d731; 0x54d3f319959d6840; 0x2a39d8805011d200; 0x207184e1744c4f39; 0xe88d27aa11ceb01; 0x6fe6daabe6bec3b; 0x27c6c02d62d4b7c1; 0x44acf5339da07b6d; 0x6fd4da7dacb5444; 0x2d2ba975a69458a; 0x1e1546ccddf5a42c; 0x41c02636ce6ae3c4; 0x67048445bfbc87f; 0xe775ad999a1c6a9; 0x55adbdcbad36d746; 0x9331e3b6305c4b2; 0x66b9a1c1a50d4ef9; 0x2c5a4034d111a6c; 0x4ac295b3f23f966f; 0x392105ae1ea33dcc; 0x61ba28a6c31cd115; 0xed9accc0bbffedf; 0x60d6ea2bd68cefba; 0x68c90b26e771ca0e; 0x28a34287c25bd8b8; 0x5ea6db4eab688099; 0x3bf9b0b3b231a90d; 0x571176d8d2488365; 0x37aafe2e4d2e6689; 0x2ab3ae91bb1a53b1; 0x2200f71e9309db25; 0x237d06a64918eb97; 0xf0edda7f0899c4e; 0x427132ce55e7c735; 0x10166d384f5c58d2; 0x68f58330b1c158a7; 0x5fa01421e6d6abf; 0x2e5165aaf032efaa; 0x7340940a76c611ef; 0x261297c529a16c93; 0x3b366a8ea9ca1c1d; 0x3cb4085e92455c6d; 0x19c722b8b6263c59; 0x75b933fee10a9560; 0x68c9c0006b560ce3; 0x158856f20c121dc7; 0x52245a19c0abfac8; 0x77c87c13c802266c; 0x315691636bed63df; 0x754d84082ffab3b; 0x5ad94e3b594e9004; 0x2d79a04ecb9fa70f; 0x35bcc5fc174546f5; 0x2ca2e9a7b572ad73; 0x119008c24d28bf8b; 0xfd7529b0d97ded; 0x367c5673d1122f9b; 0x6117ecf14591699; 0x5910b5327f1ca7ea; 0xc70992b12d8b6cf; 0x13083370942afc4a; 0x13c94f1e80d74d7c; 0x748c278a779619e2; 0x1573a32855ee6f73; 0x31cb51a9d47a80d1; 0x184f6bd14a889a4; 0x4637d717ea43d3b1; 0x7c449c429731fbbf; 0x2975166554b76aec; 0x5ff409d3d9244271; 0x32b42d99f96b29c6; 0x2ae95cf08f846470; 0x590fbdb48ddcee72; 0x525dfec551f7ec1b; 0x380377563dc73b20; 0xca342cdd6a3b69c; 0x4ce30bd7af0518c; 0x19f91d9ceff3c6a2; 0x10e0d8567c156548; 0x772863e0b1ead4b; 0x6650cc85d3a5e040; 0x2f28a33b1f0415ad; 0x6782be3a3407da25; 0x17f0762bbf374c51; 0x4403a3c1a9d23199; 0x536cbb751a3c845; 0x54290b1710ce07ab; 0x1165aa527bf6b0e; 0x8e3b6d63ee9d2e5; 0x5ea66d503416c6d5; 0x599d05aa9f9c6dbf; 0x6182d8e7f6390481; 0x387afe9f0553e33b; 0xfd09fbecbb787c8; 0x52a6f39245877be0; 0x1c084eb55fc248f8; 0x5056a7944ff0a6ec; 0x5e73dab190c5ecb9; 0x3701ba42166ba2b0; 0x7f9ec9ed74b605d6; 0x61a6dd8351d37c0c; 0x3cd332e1a94dd655; 0x598700ac260f3a96; 0xd315759548ce0ab; 0x20f0b5f6ab588042; 0x40b4c38a97f20f99; 0x7e946615351079b8; 0x285f640bb2860f3f; 0x3511498353b9f405; 0x57e969ea0fa25d02; 0x65ad21dbf830d936; 0x4bc8595c99264036; 0x7739324b11e82bce; 0x5cdad668b2748345; 0x27a2e4f4978dd1af; 0x1c31c6e641c9370; 0x154e703586fbf7cc; 0x615ce5f876fc1604; 0x1d4966af6db0fb6a; 0x61195356cea944cd; 0x7744170fde27858; 0x3803c6b23c7ecd62; 0x499e05caea49908d; 0x4e0efdc91cb7785b; 0x73f170210c52951c; 0x12c5b9bcd117b765; 0x12dd4725e4dcc4e6; 0x1517663c7529fbeb; 0x50af3500c04c7d; 0x2219deaa65443853; 0x39985b155a3afe0c; 0x21d1bec4798bd539; 0x1bcb56cd64e2c08e; 0x430ce19820c58f54; 0x14215e257651b4eb; 0xeab8ef689c44136; 0x44dea44263256d87; 0x1239156362d7672b; 0x2921c64b98951695; 0x14e51915fe41730d; 0x5ddc8e0d8708f1b2; 0x10993ec729f47111; 0x45691c3b26e8cbac; 0x784962f9c7abb46e; 0x4cba8dc4161dde18; 0x5544bdd6f186586d; 0x7820a4f13ba68c35; 0x6b6b42cb6d704d36; 0x595387150815146a; 0x71aca63d47d5bde9; 0x1e2295b54df08b49; 0x12c034c1eaafe98b; 0x49f37dc1057cee4a; 0x402d6d786e69550e; 0x73e7c224e7d20f1e; 0x57a6881d69b4218f; 0x55eba03011b5f5d2; 0x238c9b31fd1f5549; 0x5b419db50cd441e8; 0x4aa95243b9ce7ef3; 0x301ee30d982974e1; 0x6c26452359eb9894; 0x13c13aae0d8f3cd0; 0x64902a3b37891f13; 0x3736b5dfe3059309; 0x425f65f4efbec1d; 0x129d2dc7c7b1090d; 0x531a5e26356518db; 0x2c15608e97b3f333; 0x32f337feba92b308; 0xe02751c41ee8dd5; 0x575e98a40cb21334; 0x88b95c1721bfdfb; 0x5cedc073ad876298; 0x9012728f4ba41fe];
   [0x1139eefc250cdd0b; 0x344aa9c351a8b20; 0x1daa5ed6202f6f13; 0x54e5f4e4d6a611c0; 0x10e5adf69a3635a3; 0x55a91e7a0d2d7775; 0x6846710161679e27; 0x45ce76f8a59a24b4; 0x30df8c864ad1b6e5; 0x3534426529b83d48; 0x4e40666410c65bb9; 0x2007267b2261e966; 0x3a2144fb9a1f692c; 0x6d742d65a906c510; 0x32d8d7e60d62dd30; 0x5f68b3191da58f23; 0x54ab16efcc78de42; 0x2276bd15197df6b7; 0x48bcce670d73be9a; 0x51f8174919db8597; 0x2757efceaa994362; 0x4fe92b5e51d12841; 0x8ff34c7d66e458f; 0x22eaa25c262edf2a; 0x416fe1c426ced19a; 0x7f9ab2b9f27b2390; 0x102b4adaa6667267; 0x5092687102201aff; 0x6468f7b4e910b51; 0x649517d7beea8738; 0x36fbb78f1e7d5fc0; 0x2be23947ede4d5d8; 0xe4caf64bd29f495; 0x3af1f92f8628c129; 0x13b3521adf9e9543; 0x1e601d181a613c64; 0x3f48ce9d10a4115; 0x2e66da429b245ac1; 0x17ec1827ff487491; 0x6c40b511816c837b; 0x7b79eb224f104836; 0x58868405eaf2d3f7; 0x20b36b6aed42162b; 0x5b218fe6b308d3d3; 0x101ebb93b8fef49; 0x5560cd2733e26df; 0x4f382598772a06ff; 0x6399f6f9ee47ab33; 0x51bffcaf09f99f29; 0x60a902660e5e445a; 0x78d7b50b5d4849e3; 0x3e9b27db1fcce4bd; 0x2cc4854cfa95fcfd; 0x51cf10f020ede721; 0x79339471a1501057; 0x57a4c76252df4505; 0x213674e7bfb80da5; 0x289fd14719bd80e5; 0x768fe8d3adc315bb; 0x4572c99219015551; 0x206f77ca1b8fea2c; 0x1e50045512dd5430; 0x2878a495ced8e066; 0x27d0c85a3baa0c91; 0x2604b58bd679ef64; 0x1cd9b7f8c8ad6ab7; 0x6f07de284a609410; 0x52834e8a3a316ef5; 0x59103548370e8dea; 0x5025cb3c5f65a7e8; 0x6baa797fd1d8a7ce; 0x7c4d05dc9f25e2cc; 0x3f49da6a4f79e564; 0x793b391ea9befb6e; 0x21dcb88d40ef097e; 0x1695441d6385a928; 0x1214392123417e6b; 0x34ce96ff491e1281; 0x22826de6087eb081; 0x4744f165fbdff121; 0x5b42e7510300dda8; 0x5d030449bb6d1040; 0x40242bdf694eac6a; 0x3d4adc172af866eb; 0x3a57649bf806091a; 0x73e92ab06d1cb6f2; 0x3782a47a058fcfff; 0x5054f6a4d46fda7; 0x6707fcdf469c5ebe; 0x38f5e8c1325e1c61; 0x218cc812ba41b962; 0x5267fbed8dda9030; 0x7b499d000017b71a; 0x2022bee3ce0008dd; 0x6afa164a98fb8464; 0x50c1adede34334e6; 0x18d3b95c13bc869e; 0x10e430f687c9c760; 0x2c9a6f154aebf85; 0x171ad2090b98bbbb; 0x13891b5950a1e60e; 0x38de59e2037d8e76; 0x23e8548ee16353a9; 0x3e2002de0746ab94; 0x5d72a0cc72b4efe7; 0x4d353cd099bc188f; 0x1ff9b2cc97e12054; 0x4e6fd2e54045a324; 0x2ef43cd69a757b6e; 0x19a3823cb4f328c2; 0x36445565794b6c96; 0x4bdf0b1712803ca2; 0x2aa1bfb18168e248; 0x486140637e74c871; 0x3ad44fbc8cbe3748; 0x133446593cb41666; 0xfbadfe668e3b9ab; 0x27065191879b4fec; 0x5149fc5490e44b; 0x22760dd501683640; 0x55f734d846f644ed; 0x40f8bbb1ab3f0727; 0x74497d3bb218c744; 0x8724f38b5c8934f; 0x14d5488a4faa53f1; 0x76fc9aab93850ab9; 0x21bd916bad4763c2; 0x33bd2ae235699fa0; 0x39ab76c163054c7d; 0x65cf7bf099e97631; 0x27feef889098e52d; 0x1165a2a65daeeb93; 0x29029005a3475fed; 0x520332452f16fb94; 0x1cd853f6d6831374; 0x4c30e1bbc9e6c8ba; 0x68091152f0a143a6; 0x3e80a118965b6f22; 0x7e5c25a69f3fa619; 0x43d6e5cfb849f257; 0x3ac4f039f0bf837b; 0x79f6e40af02f0e4e; 0x134af857cba4ee05; 0x24621ae1610a292e; 0x7089c878f3fba536; 0x13cc0eefc25c27a8; 0x7411170647a6dd7b; 0x75147d8966d5c940; 0x29032822b81940e6; 0x2e7802e3bf063950; 0x7b2c93b2828db7c3; 0x3b9b92945fb05922; 0x47befc4f8ded058; 0x549aa9ca0624a549; 0x5aee38e33555426; 0x1a649431bc78ff59; 0xa447012b27613f3; 0x7f819b4411c4720d; 0x67719b4842e2f3ab; 0x6c06d4f3a1512133; 0x379c51432ee3edcd; 0x25748508f3b21167; 0x454d8e9d234ed349; 0x401277f3c8208afa; 0x1d89d9368a7f34e1; 0x424bd6f2ee179531; 0x7c9030cf702bf03f; 0x54df18ed749dbb3; 0x348b203c93ce8d63; 0x727044417faba2bb; 0x6436a426cdd9ab2; 0x33b68b3ded80216; 0x79758034b09d04ce; 0x58e19af8033df4e7; 0x5c427c25ab77a60d; 0x228ad67ed16ac4a; 0x7de663b98e3919b9; 0x29efea703b71d1de; 0x5633458c79512d0f; 0x348566547271cd3d; 0x2c7209196005a265; 0x22555790a0790ae; 0x12a3f6e1e4e80cf9; 0xca386b4473c685f; 0x450dce698598f31b; 0x54925c3e013bc47; 0x660bd7da308337e7; 0x2ad81204009f147a; 0x7bf385c5b1cc76f9; 0x25e30ca213b92851; 0x7f8a4935d03211a4; 0x76d8a9ffef5c7be1; 0x2172c903caaeeb7c; 0x16308f72886798b0; 0x5a36454eebb73f94; 0x23bd4be05ec8799f; 0x4693418d3b13d640; 0x47097c3152108ccf; 0x52ee98be95b9f5b6; 0x28b9628fbfb342c4; 0x76a3cf644738c563; 0x7aacd3689d862fcc; 0x316ea467982bc292; 0x16f7defbadd03fdf; 0xe7b13ec365906ec; 0x24864dd977a1cf0e; 0x7de9cb304447bb19; 0x16dab3aea898073e; 0x7222cab4454f644d; 0x2ac8337a28afd517; 0x43a995de7944a20f; 0x79c4904206ab2908; 0x11ed66f5d8ef510a; 0x577dadd8c7d0955e; 0x44887b9fcca88719; 0x4472714a7630fc45; 0x52a8efb3caa6721b; 0x1a468036d14cee89; 0x73a8215fef1bfa25; 0x2f4582780af589ae; 0x2ab34a8d9c732dc9; 0x23709fefde293d3; 0x453a69ca56c5a56e; 0x5d94d09c5a1993c2; 0x31942a5f9f2730d9; 0x3b244c96a8254537; 0x33ba0b6b8f712731; 0x665b7a9f6b606f09; 0x37e434118ff332b0; 0x66ce6dd617ba6124; 0xde0548d89d3fede; 0x42893c2c608b89bb; 0x5693221146c863dd; 0x77440666f283fb61; 0x538df99ec0062437; 0x81d78d314b92c95; 0x7af2ee8a75bbe6fc; 0x63a2df23db4f3253; 0x2ef85b53a5faf5a1; 0x64a8b444784511c6; 0x6cfb2619fac654f7; 0xa70ecc37508bd99; 0x76604542030b50e8; 0x4cefd10f321129ad; 0xd43570cd26f085c; 0x340484d1665cba8a; 0x3a7c23e7ecbd8bf4; 0x537ea494d3ad796e; 0xfd630b10c50ac7d; 0x6cc83128ad2ce393; 0x73a93b909678b2ea; 0x7b6211758cde74e3; 0x641dd9729ed964f3; 0x4f9a681cd3860e10; 0x1f9d74ef58d094da; 0x49060a28bf33c05b; 0x6ed976b4d2227a4d; 0x11dd9cb54bc015c0; 0x63dd87b7a803081c; 0x578512aeac77c86a; 0x245b2e8d0d8cf3d8; 0x63b5baae6424f5d8; 0x2d371c51a08e99d4; 0xab139bf4292865e; 0x2a2a90c923581cb3; 0x593682cd382c3e21; 0x28207fd83ea6fea9; 0x2511eb6ea05425c7; 0x4f8abe3178b621a0; 0x403e1b75147937e4; 0x875b425204a4901; 0x61ff0d7b4cb37576; 0x34ee0146c9091468; 0x72abc25eac77f9db; 0x7e071fa92499d8a9; 0x63ab97cd795ed8e7; 0x2e3931fc78835082; 0x6eb32116b0e4fe14; 0x48991b499cf6f555; 0x341c3dcf9f0fd228; 0x1ac498a1ed149569; 0x70e3039d0d438cd; 0x72adeea0f2e2ac21; 0x7ad5b000e99852f1; 0x4f25e2dac5a77c08; 0x313448b29be67e6b; 0x44d7fdc2d59617e2; 0x3ea16438e19b9aba; 0x3fddaac210e7168; 0x4a21b23abb6badcb; 0x3a2feb94a5b9ea76; 0x106d4a591494de66; 0x1700fd7c8d218c98; 0x77b6d1dfd0961d91; 0x63b9ce711c478832; 0x7e046fa6c387df2f; 0xfe33ae199dd7b1b; 0x778ced67233fd7bb; 0x75e9347fb4014ed2; 0x69d708506d626fc4; 0x42494bf535ac5d19; 0x301d9e741aef294d; 0x394f0c520445ff51; 0x8befde7660980cd; 0x289f24b99ca0825; 0x2007374339a48fef; 0x48fcfa20aae8b105; 0x47027e97e22cee58; 0x6fae18acab5e5254; 0x56236a02b1fec445; 0x75c2bb0282991622; 0x22105abfcdeb2a97; 0x6493e3f1e77fbb40; 0x107b7eb3f8cecbe2; 0x6d65974c6661a649; 0x7b6d5573b3889004; 0x72dd7144c821118];
   [0x243c54edeaf2d0d5; 0x277927d8b57e48fa; 0x41a48f30853adcd0; 0x39d55b4a189f2afc; 0x791cc01aed05fc4a; 0x56d7416768725287; 0x3ffd0acbedebbdf2; 0x7c5f51a613e62e3b; 0x564352ffc090546a; 0x11af5ac67a638750; 0x30e8bccb62226055; 0x3eda9bf93bbf2c43; 0x4f583d2016990890; 0x942e12e71108907; 0xb8ba629eed97a19; 0x33e8e705c2f7dce4; 0x38a57a8233861dc1; 0x7b458290c7e2a64; 0x16f24ca584345242; 0x6b8f972c5e452072; 0x8736f07e3585e5; 0x4a309a2ac55edada; 0x79afe26c63674e17; 0xb94f985ca1ed78b; 0x3bd1051097deab7b; 0x14d049042aba156d; 0x67a7372a0c1ff9f5; 0x26642ec4e5a4258e; 0x457fa3bc44cc10a8; 0xa0ca3c588b2070f; 0x5fed2c5201073291; 0x535834f7d7eff663; 0x5297ded9e5999b29; 0x79dfe2a4a4b25154; 0x599c619092bf2046; 0x1b4eb4bed20a52e7; 0x1daba2f70d3b57ae; 0x460e00eb59126a8a; 0x5c3ccbe13967ed5c; 0x42e7214de031c7f0; 0x100c70734f65583d; 0x565e8f37ec5b1c80; 0x3e5f4c9266a45579; 0x68778ca6a1fbb082; 0x3288f42f4da126f0; 0x5a0e10ed89ff1bf0; 0x26427152be9d1f38; 0xb26a06cff4d613b; 0x611131ed428121f1; 0x2f5b549a3d6cdbc; 0x3081861cf461e08a; 0x42d2b54170767a3e; 0x5e82f396701fd90c; 0x43c940bb0daa6643; 0x787dae800ad3ed87; 0x392cf0b07326e2d9; 0x2b1535fbfc71309c; 0x5d92b1b7140a328f; 0x7a1403df257cf423; 0x79d23201bb72a8e6; 0xfeae0c095e54b35; 0x3e615ae7a5cbeed4; 0x61906c0b4a2794cb; 0x3551e1d28b393d5e; 0x7f3978ee1af6f602; 0xc0de3ab041263a5; 0xd8b69800c5454e7; 0x2bcafaaac65c00ca; 0x2526449cfdd4b47a; 0x537cae4e86fdf4f3; 0x18d8b499322cc8a3; 0x792b64d224ad2772; 0x43a24ebdc1a4f08e; 0x5f56895e28fa639a; 0x539b11f9b10c0266; 0x106727d745210385; 0xa2d7e624c7efa4e; 0x2f879f7cf390bf44; 0x540cbe475d6044b0; 0x25789d25b90f0710; 0x7eb4c8dfb84c73d9; 0x326b1a2ca3757a69; 0x6f750442f9e62ca0; 0x696ded3861aed11b; 0x6842ac983c4c6b75; 0x3d8f979789446a77; 0x703a428efbe31004; 0x75f69b8f0316babb; 0xdf3e9dde7ca3ca1; 0x7ccbd3a67f10b95c; 0x352bcc57256a442c; 0x3e4216490d8527f7; 0x2cb0501ef10c18b8; 0x352193ff6fc81c05; 0x3a63ac488bd6b304; 0xde2c8845ef4e468; 0x79353b8e7f1cfc43; 0x147b6194dc836096; 0x98ba3da479423cb; 0x2938227d8a4b706f; 0x26af56407006799d; 0x4a9c70a56fef6af4; 0x45e7e5fc75bcff3c; 0x662be674e2ccb128; 0x2f83a7322c0ad522; 0x21577e34db4dbab0; 0x108990d556ef5abf; 0x1ea9d5d92aed1554; 0x62379d8b3ff2cd0b; 0x56798499b802fd9; 0x71dbe041dc7b604b; 0x2c6fd943be15f895; 0x597a926ac830f655; 0x35af648f1ece37b6; 0x2acaa3692ebc80b1; 0x19eedf7360f5468b; 0xf1cda2b0adcbdb0; 0x43cfbac8a78b6589; 0x12621bb8fbbbd547; 0x1f028d6f4eaea609; 0x4685f81650e94c15; 0x2f6a2a1090afbf40; 0x334006ee0ed21806; 0x528dd26efe9a8814; 0x379a2fde01d19718; 0x7e881a1d20ff2510; 0x4919dbfe7c5ee4c8; 0x4f5906e4206d031b; 0x56d8a379a1e77a16; 0x1d9c9779a6677dd5; 0x3d20a9e03c6208b2; 0x77f1ea2df91dfb7a; 0x385288846d8212de; 0x67747a5e9ecfcf3a; 0x65d7e9493d7922c7; 0x1495b56931e5aa20; 0x7333651af1f968da; 0x1d33af08e9226455; 0x1615827717fa5fa7; 0x11d718b3e47ca06e; 0x2aae2746d51ea462; 0xa435347311ed6a4; 0x75e199ca07aa2045; 0x2c8e6cafd8128076; 0x33d49ab072e71f02; 0x1d9e65975d7a1245; 0x7923afa38885ff0; 0x4b5324ec62baf068; 0x55b9a80767b5097b; 0x41976fd13fab6dd0; 0x46eb9c7a44003a10; 0x49cc55d0d84e45af; 0x430b4454df774844; 0x2b5c238c75f4c780; 0x2313ba0afaf06b63; 0x23f778565df78336; 0x292b74aec8e2402d; 0x56781093f027a4ef; 0x58d7d335560e9467; 0x4faedee9f16dce0e; 0x38800344be940a25; 0x4b233d5d933235de; 0x4da09188596bec91; 0x3064c7a8eaa32db1; 0x27ca91c25bdaab90; 0x543d9059c4069ce8; 0x5f292f8055c2b705; 0x2efca2808ba2aeab; 0x39a5b8b3537574cc; 0xa9f555927b3dfc8; 0x6922096eeb613120; 0x2be437def09b9e9f; 0x34209f1bc959c3ec; 0x603ad3bdc419e59d; 0x4267a9608ad067cd; 0x12d5693deacedf73; 0x71d238ba4553a96c; 0x6c1854d27dcfbba7; 0x4123cd31e0abea34; 0x5c747e60690c5d13; 0x44fa12787fa703f7; 0x4b665ffff6649eef; 0x191a9b247ec53dfb; 0x306071ea82e5528b; 0x34d0e644adde951b; 0x7a7536be3ceda243; 0x77aa070f2f51777f; 0x668cc43e35f2e476; 0x23c75b5c91c01ce3; 0x27b9102773b8a268; 0x582958e0705551d2; 0x5f39ffefda0daef; 0x430b9ed4c39a037f; 0x6ba0347eba058767; 0x4e0a8d80c379750c; 0x22541d9a9a14e781; 0x4629234578c9e010; 0x2ce3cd924a71c1f1; 0x544ca50ed68900f1; 0x241ddc02d74e22ee; 0x2a8523cc31344937; 0x49d7d38b2af4c76e; 0x20a697c5ec10a6a2; 0x3e64762835d4686f; 0x1c88dd76907bfe53; 0x8510d4de6e40db8; 0x2c16102f0de498be; 0x110547ee48767931; 0x6c68e6539f776629; 0x1b5f23355a756732; 0x2936ba0f692e46cf; 0x55f5fc170140c73e; 0x6ee680fae6ae2236; 0x6b049d877f28a019; 0x5bb1a8993e854991; 0x21f26500bfe4fb28; 0x5a721028b1efe5a8; 0x355691cae3edaf97; 0x51735b84894ecb3f; 0x3658249dd5d5f5c7; 0x6f9b51281e93e3f6; 0x2ddddfac9d35cdb; 0x78eddfd29aa23ec; 0xa1133249dc0e86a; 0x2249e92f6b9f7038; 0x63c3931634679edc; 0xbda65f4c3bf4b23; 0x608365232745f71c; 0x6f8bf8ed4cbec429; 0x33657eb54412fb33; 0x3efbc90643e61ab7; 0x3174222b85750abf; 0x3dd0d0d151ca2153; 0x33bce8d047928ae2; 0x7b99555d2c5b0591; 0xd567c4108cabeab; 0x38e4ae789d2f9d86; 0x4706fa6a1d0527df; 0x4bbb318b65b8f9a6; 0x12c5b94d65018ad1; 0x14923a00ac6cd7e3; 0x23a1ac45db10d683; 0x2ae6a86f2c61b7bb; 0x2066481965580d69; 0x3403a9c0044b09fd; 0x1abc0b2a4b6f4dd4; 0x5fbdf6680401b641; 0x6666ff909bda9a0a; 0x394743213cee373f; 0x683581690b8d2d39; 0x3976339cb66fe1fc; 0x70b384e9087a2e83; 0x4baf81621a3109f6; 0x5acf3bbb1170d432; 0x7a5c4afa64bc6a7e; 0x77e9f77c8a4cfe6a; 0x66776200fbbfdd7d; 0x4a3b119940321dda; 0x30dc946a350bc563; 0x206f612b831f81fd; 0x1cd628526177ff5b; 0x3b25d88fd485515b; 0x31b26e4e87de3b3a; 0x38018c15c7b7b6e9; 0x51a74e82e819379; 0x5a5b4b5ff5bf7ee9; 0x40b1a60eb24fca41; 0x1f9faf274fadaaf1; 0x12527d2eb300ccc2; 0x66bada7f7aea4cb4; 0x35befcb3babdd2d9; 0x56e6ca6abd8a1d89; 0x503edb9751ab82f7; 0x5ecf8536ba6fd3fa; 0x685085c79aae794c; 0x51b730c33a8f5f61; 0x3a28399cecadea4e; 0x62751a6c90fa07df; 0x7e889d77f68b1876; 0x1cb9c14045eb9a7d; 0x488e330ec3220694; 0x5f76e5d2141d696d; 0x1a43a0b3787d0bc; 0x514f93933c563b76; 0x296972c9a2e6d868; 0x44301f10a11b1a10; 0xf86c773f033e277; 0x11e95b764f1fa592; 0x5ea23f3d3516b164; 0x60e4b6a790dfb435; 0x52fb247e37717156; 0x34355f635d2c2bdb; 0x416d210c4799ee85; 0x36b0b981c458822c; 0x4c2e63b85c552863; 0x5a9cd716222b49a6; 0x375bf9ad5570b47d; 0x42ac36ad283983b4; 0x740088dc168cb661; 0x161e6b08bffd2960; 0x20db3bce03b7c6d3; 0x69e2d2713a0ea2c7; 0x24206e1822dbf9c4; 0x5ffcacf6d9a1f7e7; 0x282d95380b5e6cc7; 0x2c5a02eeeab1e207; 0x722bb143bc48a58f; 0x29944caf6d965c6d; 0x145c6966cf624b98; 0x609f1dfaf155e5a0; 0xb8533c33dba7f95; 0x3025b3064c3953a3; 0x6ea095cf5290fbf4; 0x2a09bef96ef3d7; 0x3d7db753b68caa9a; 0x64d547b98643c1c7; 0x1421aa5d43f2dc2];
   [0x5a66bf8119deb984; 0x142c405217aa7e02; 0x35fe83497f18f88e; 0x44515aecaa336e5e; 0x615d189cd0d4ed18; 0x133cd093903ec69e; 0x6997e9896ee371e1; 0x63216515019c179; 0xb0cd15f97ecaca9; 0x4b71ccab14fc1e94; 0x4c9da94f4121d26f; 0x2fb767c0223e045b; 0x70d17975e95888bc; 0x392cf7118923afb1; 0x60896474689688d8; 0x4183dc98805fa86; 0x16d538879d6ec21c; 0x52a1e9b9e2faa449; 0x9f3cd759b69dc92; 0x20fde4d30217a58b; 0x696c7f445a4f95f0; 0x6df01c1056520668; 0x4ed0638bea4f4b90; 0x6277b560e5a53f16; 0x414ed2794d24b628; 0x35170362582ed865; 0x54cb374de784929f; 0x1b27aedec438f34b; 0x23bb27c21c9243fb; 0x4f3c13462865f55e; 0x17cea4d9cbd7f899; 0x5d62d544069fdcfe; 0x1fc983cac76f0088; 0xe2189c95ef5d71c; 0x2205aacb265b9cc0; 0x73559ed50c379921; 0x554125b27550cde3; 0x54ff55b9a7d08639; 0x6b4ba6d0f17038fe; 0x2e42ca85e644893c; 0x1335e18cb85ccca1; 0x53dfdf972f62a6ab; 0x63ae2a2e10bb30a5; 0x1672ad4e928e327f; 0x54b910d9151e226b; 0x6ada293b98bc0386; 0x1272218798896e5f; 0x643396280b55852c; 0x339767421dcc7ba4; 0x42852827b3e3417f; 0x263ddd523cdaa9a; 0xe99971919455836; 0x672e748e07250943; 0x745b536be96fdbb2; 0x79bd75b9aaeb7c93; 0x42ed4975a786ca43; 0x4cd586f694bc120a; 0x20285d770da0f571; 0x557f079ad996d2e4; 0x6a5563124498ce21; 0x34a2e44a46b2c75d; 0x5737f9363232cbb3; 0x521a26bb2fe16238; 0x328264f203ad83fa; 0x47f46d66c691edfa; 0x10d16da220b78da5; 0x316e39074c08e397; 0x2f557b08aa64fb4a; 0x434b0460dd234138; 0x761eef8c00a2d09d; 0xc3d1e652158936b; 0x1f60338f2deed17e; 0x3c9ccddbc6ce88f2; 0x73e10b069bbaef92; 0x1e06412dd2caad3c; 0x7ac14ddde6ad9e76; 0x3cd24160cc17f0a4; 0x1f67a487e7f4f7f1; 0x2634f0740996611b; 0x265d031926b6ea94; 0x7f16151e7d3c3572; 0x5bda24d4389da028; 0x72b34211b65a75ad; 0x46f271dc36a235a5; 0x8962dffa1b3dec; 0x1446fafadaad2e6a; 0x7240998941ce560b; 0x2eb967ebb31af3ce; 0x52af4cef246c1bf3; 0x4fe8afc11fe342bc; 0x31a7a572d147a3e6; 0x4c1bea74a0f5ed0; 0x20581751039d87ed; 0x4bb61fcd971362be; 0x3017441394451ff0; 0x1ed6cb02394e02c0; 0x12579037ec1f636b; 0x354ab1703265ee60; 0x3417e6cbf02a211; 0x6b6e0f55447f8c57; 0x6f90478da633233a; 0xd1d72773bf01a4e; 0x1815edbead67bb53; 0xe5ecb1a8b6ed853; 0x53c188ab7f345d21; 0x420c804f01689ffd; 0x26b8afe2f5fa5429; 0x4bc6992bf2d91626; 0x1b9287a27a7c6001; 0x310d9a78cb8bb0f7; 0x31e36559ab2b1131; 0x5242a6fc0b963358; 0x6d8fc93980cbf3ae; 0x7e1eaef570ebb2e8; 0x18a49fd1326289a1; 0x2206aa0fd7915c79; 0x6922f2ff3bae28bf; 0x3c3b2dd0940d6a9d; 0x395083a6182590c8; 0x193d07026913dcba; 0x635ae4a48838bed0; 0x35e05d43d176af89; 0x1e2bb09ce02b3811; 0x3d81b8ab58934f47; 0x5ad3d1bf3af1cf39; 0x3890d27af48c68f6; 0x58c0db5f435b3844; 0x733abc6e70e717fb; 0x65164fb615881f2c; 0x189b4c62124d9523; 0x706b752d4d7e6dbf; 0x1dc7302eb79de162; 0x62ede9d0bd5ba736; 0x6b94490bf9073ed8; 0x77ef15d4afc45552; 0x7b41b9c7e4915556; 0x570483e1e5fc85d5; 0x2c691ea9b657e6d0; 0x312560ad0ee87963; 0x49098d8eb3e41a82; 0x26e380963fdb7352; 0x38de898185a434e9; 0x7da6ca4c02c01335; 0x48ffbcd517d2f284; 0x7ed4edc85654073e; 0x7ae964b1de818760; 0x5046d4f6f7caa018; 0x338f96b296238055; 0x7fe4a5fb546445e; 0x28a65dde8b0af9b7; 0x192ed6452bd3a980; 0x524c4b95cba00abe; 0x457f7f723d27bd4d; 0xdf6bd01fb5b0c5c; 0x40ec6b4e65262dec; 0x326bd57fafa853c; 0x6aecd38aa08f4ee3; 0x7f689be972792262; 0xda68f73a4fac690; 0x32f4407a166b3e82; 0x4c8aafcc309f948c; 0x2b8adb07cd59b7d4; 0x23b9491d285ad27f; 0x3620bfd7e04ecc; 0x76da5aa9e6dda63a; 0x56dac8eb4689a53e; 0x3ceb000a69b25b06; 0x5111a8812b4783ff; 0x58bd343871289088; 0x17c3f581cf4c8e78; 0x10b0de86962bdfc3; 0x10ea799a53b9c9be; 0x11d7b0358d55b631; 0x635c64629883124a; 0x67b0615575bc4d0d; 0x77b960dbb4289b38; 0x303bdd2a30db5752; 0x4182ebaf5c95e84b; 0x12b169f01a6b5c58; 0x2b801d85c0e315b4; 0x189899c42185626d; 0x6358711214dcdb4e; 0x6da10959022b5b6c; 0x3d82105aff5dcca6; 0x3047024bfd740c51; 0x79d09956ab7bc8ad; 0x44f4fe0225c31654; 0x70660cda94873a20; 0x2b25c9fd3b620a5e; 0x6324096e2beaa168; 0x5f1df6a0d899f82a; 0x584ed18a9243e9ec; 0x7a39de1c63a5c746; 0x7eae65ba9b57322; 0x5bcaea3f3b849e3d; 0x7423835a3f1d260; 0x3a83ef1901a8e0b6; 0x63a08af9983a2b61; 0x13187368e9dee6dc; 0x274a8ddfcf1768d9; 0x45295f5fdf0cddf1; 0x22f1a427144f9af0; 0x5fe743f1e6a40690; 0x7156b66e179db708; 0x74d98dc1bfc5e25f; 0x3750d52f8946c29b; 0x5ff4b57a92974929; 0x24a0a68d02437705; 0x5c95a63832b5bdd; 0x6c2d7cf26457199b; 0x381cd6271ed93393; 0x4ed415c9c118ea35; 0x373182b33a08a0ce; 0x6ce01867f0124835; 0x7ce83b4ee27083cc; 0x6d83319cee5a9cba; 0x4ea4b3d3e2855553; 0x68dc557bbaa6637d; 0x2229b6aa7af93316; 0x2deba98b8412c44c; 0x29a0c855f7d767b2; 0x2c0f0b51930eb4f5; 0x79f81c32534669a; 0x67a451651bc42c13; 0x6f9675b5997dac7a; 0x5c8252f91cf4f650; 0x6de9fc7c0aec7c30; 0x563d5f5e992beba5; 0x5c9d309495ab5a7b; 0x39de200f5aa38c92; 0x22988d577d5e75fa; 0x6f5eb74d5679572f; 0x67c7ed79e7f4e6a9; 0x38c9106d6de82e79; 0x6e6229e5b05985ce; 0x7bca618d7131b879; 0x690e198ef3dc4697; 0x6876519c06045172; 0x52b85a9a723234cd; 0x7fa5fc35975a174b; 0x415e41ec4db38e62; 0x2ca86d0b78e89bf; 0x59cbd4b3d279eb51; 0x6bf785bdb24ec7e7; 0x2a66a5bbf87325b3; 0x778dbfe24f2da863; 0x112f438e99fb59c9; 0x76bd6140652bc53e; 0x45b44d4b145a7101; 0x184db5e4fa7cb1be; 0x3c070b047ebc22aa; 0x15acf3360197a659; 0x77ef0744d4eaf4cb; 0x22f9864b73a55f18; 0x5214b17e43238e46; 0x4563cb9c1fe834f1; 0x1a044d3f5d67b5f1; 0x40a598d5ece9a755; 0x74401f95552ee878; 0x4622180186642ad4; 0x6aeecd67f9a26366; 0x3584b493ac26e9a1; 0x476810c236079b14; 0x56ba7997812077b4; 0x57ba19ff39c054d; 0x5f2bc8095026f35c; 0x72ee5520833256c5; 0x6cc02a9463ef0b4d; 0x41d91252c630a58f; 0x5ef83f3a82d57dfd; 0x2780e52389bfc529; 0x6d872472c26df2c7; 0x6b95f0f049a48b19; 0x7ae65f738782f457; 0x4be4abeec4b69fd0; 0x3ccf3b5056e92c92; 0x610b7551649d3e7c; 0x44f40748d7b3464c; 0x768167f1707664a8; 0x27a4f056c416654d; 0x3dc4d713b4811874; 0x7dc2208d47340fc9; 0x20b36e0b5a5a8726; 0x381104a9fa4e4db1; 0x1db9833e9df1a029; 0x29f4428886607221; 0x662cb21e19a65bbe; 0x10751adc90b96606; 0x60d3b09c33e534c8; 0x423fdbb33e595151; 0x747a3917e52bc057; 0x7b83677d48d52943; 0x789fffec4947ca8; 0x1287a2c871af638b; 0x21a65677589e1bd; 0x175a82e3da56e49f; 0x1e1331fd52e204e; 0x47ad61123898708f; 0x10f3474c07e84b08; 0x210c6bac42ff9e94; 0x744ecef7e8f7262b; 0x71dbb756899d7e7; 0x6bb44d9e7d97fe2f; 0x5bff561897986478; 0x4f8f045e40510d55; 0x6046c72451385d03; 0x77c4962488cfba79; 0x687481662645afe1; 0x7e5d03f0dca81212; 0x4ecb6d3a884f8634; 0x757ffc1217d064b0; 0x389fd5d546874921; 0x32c71fffb395f52e; 0x4434a00a7ed2fbb0; 0x296fc4c4e936cc98; 0x693e95b27a910076; 0x8c30a27155350d5];
   [0x225d7ec43145f75; 0x7c3caafc84762e8a; 0x381423a7096c8244; 0x524da176ecded657; 0x28de0fbe35e290da; 0x63ed1293090a4a92; 0x7c2472f41c2b3beb; 0x4e6426367b60b8ba; 0x5b17a0ad7e06cb35; 0x2d02beba17f51e61; 0x1134a528318228a2; 0x3874d7f374c2d8fd; 0x4eae5c2b7c105d0; 0x709c24db964c0471; 0x49ce87201b60535e; 0x30c1a14aaa65c23a; 0x6d8bd7e42cef35e9; 0x2eedbe103da8fc74; 0x7b2845772ab275f; 0x40ade39058e3212b; 0x7d9508d2f5ad3c59; 0x151e9d4f1d76af43; 0x43e958bb5143d449; 0x5460227ddd7fff16; 0x246b6a20a3e5601a; 0x39e0147c67d8c270; 0x4f2b60922c94587; 0x73e303a8c66c83e8; 0x6bfd3b7b185ffff9; 0x25a087933ecf9abc; 0x6d560132186c4807; 0x61cc43064dd5ddbd; 0x7bff5e58cdf21f7b; 0x63bc2bdf8dde31c7; 0x208cd2680eca4aab; 0x7aef2b819f52aec7; 0x7514f12d46817fa4; 0x2cda5f41b8b55020; 0x641c4ebef743bfb1; 0x786f7aa7b1f40043; 0x76bc6a40b59e9547; 0x6d7026c37baed70e; 0x4539e5b7e6267803; 0x3d6bbe2e2326e5d0; 0x1b3e1e42dcb8e9bd; 0x51e1244f82639855; 0x5ae39ea6d02ba3c3; 0x2702500afa9cdf6c; 0x71937de5b18d87c; 0xb78c609cea1a288; 0x5182de154b7c031a; 0x4946a6e1945856e7; 0x660391278a1b11d6; 0x59dae24cb135f7e; 0x204e389018997991; 0x33ea0cfd5786178a; 0x317241da335a417e; 0x7f8eb9af5eccf070; 0x43f09dfcf826458a; 0x24e5c0c32c74afec; 0x756f03edfbf46aaf; 0x24622b5c3e03cb87; 0x3b040f14d15c7fb9; 0xc6697f7bdb91e86; 0x2b26ce01858e8d0b; 0x2c4f00bde094429; 0x429cfdaa91cbe068; 0x406c9ab0040aa910; 0x403ecc5ce4ef1fb8; 0x7ebce38c4e8123e6; 0x1493f1ea6960f22a; 0x3853db92b4922d34; 0x6ba9f3b89833465e; 0x65ead446ddaed150; 0x5b53eb9670b54a16; 0x646147bc2c373530; 0x16c87b5136eec197; 0x7a9556c8f0669c86; 0x768d728775310342; 0x68e64861bee22e7; 0x5667dbda9a2efad0; 0x85f3e4955b5ae28; 0x55b36fe96550cb5; 0x282085a1f1fe127e; 0x72d6399ed071ba2a; 0x32346809c696bc3b; 0x19cb56d1c9b1bcd8; 0x703cb2aeee43d2ee; 0x7e017ff01183c399; 0x1b66d7b87efd42ef; 0x6d6a305e0d8b2e57; 0x3dfc7623e6087f7b; 0x1377adbf79481ead; 0x2bd44c531c80a4ed; 0x180dc407498fe4f0; 0x2695639040bba63f; 0x2ea66776f17627c4; 0x1b1f367aa08ce8f; 0x34450b29e56d8ca3; 0x3c98ffd32cb24f9b; 0x4cf4d0d73a60ba95; 0x7037e3ca1622116; 0x10a497dc301ae3d3; 0x7287609a04bf2bd6; 0x6ea9d6547ef61259; 0x4b477d1d2c6663bc; 0x6e8d54c5a7ea4875; 0x223b5575384ba16f; 0x3c08e7fd3f35d3e6; 0x57d35a5ead209223; 0x32f8192fe19464e; 0x240a443debb9a495; 0x5ac75c4c83af96dc; 0x5c5c8b8240547328; 0x4fef72e3a539de6a; 0x2fef3d6af32c55eb; 0x5942d1544b4067eb; 0x11d80c19523738d; 0x2ccd1b545ea2b45b; 0xbbfdb6de046ddab; 0x6760c0cd3d7a219a; 0x21e782b43259024b; 0x285115e8c94a149e; 0x1af634ac610fcb86; 0x1905f73e0eb5cece; 0x453a7264e575b0b5; 0x37a3892e86ed57c1; 0x575ce3c877d50cd; 0x7725c90dbbafb9b2; 0xff63cd3a2f6d155; 0x610cbae1b3a9e2f8; 0x392e41f8311ecdb4; 0x8bdb8ce81f61124; 0x64913291a0641b5f; 0x17ef0f3666071df8; 0x2d61344e12191d6d; 0x790e308414cd0ce0; 0x221838e78695adec; 0x74123907010e78ab; 0x792cbe7f12c136de; 0x289563bf0c9b8d20; 0x3481409232cbe5b8; 0x16902c7942e00e0b; 0x3051f1a42643f27c; 0x80b92d1257ed4e7; 0xdb40823f7d3b11d; 0xb8a05d078647363; 0x6def83e027e16560; 0x3288e491be815763; 0x1655ece435c12a64; 0x24aff38bf84d4ad3; 0x335274f07a3edf76; 0x77bf7616acc8f4c3; 0x2e52f5abdf1e1c62; 0x582e45b05f82183f; 0x683bd363d2540bc2; 0x40cc238a30b2d314; 0x21d31671b7953b59; 0xdb9b8e3fcd9d0f1; 0x6e234cddafede648; 0x3b4e089310816303; 0x3355c1c76f0f66f2; 0x3fffe602def756e; 0x4b45f87b8a0da659; 0x68631045e6767382; 0x4c8ae9d27f7db768; 0x58f57ae13800602a; 0x3745ea8562c01fac; 0x31f661974a5176f9; 0x609ed244d3cf0ddf; 0x446cb7b76eaff331; 0x673b5900aab631fe; 0x30176e4c0473a187; 0x273e3fc5cb132fa5; 0x6c4ee1cfedc6a813; 0x4a1c64fef157c820; 0x5f89ec828d7be391; 0x3c1f155f61b0025d; 0x6c260f5c6c146850; 0x55e71eb85ca988ff; 0x200f365540fdd982; 0x30f5046545bdc7ee; 0x108eb20cb5f400d7; 0x7bc6df39041dbd10; 0x19555330d4f5086a; 0x133fd93c5efbfc48; 0x799af4d3161a3deb; 0x6ddca4ff9c029e74; 0x29882854aead4139; 0x2e204d5645cc2495; 0x2aafb4f09ff982ed; 0x36bafb2e6cb77d1f; 0x9d586abbdac032; 0x2a7e20e23fc16a80; 0x5162079f780183a6; 0x647b5ab882896070; 0x2e991ff6377f062b; 0x1a2ff885a053580e; 0x3ef607056d7f8e76; 0x7c39d25ef219eb71; 0x4d88664d3da26f1; 0xdff1837a606578d; 0x4a45104b93eb4cf2; 0x25442b88372891dd; 0xf21f4c0eefaea66; 0x68fd0a05440c0703; 0x6e3aff7d3b929313; 0x6ea93f17819d293c; 0x54477ff6abe15db2; 0x2aa319bfb229c382; 0x1a5b766fc0e7272a; 0x121f4aaad839942c; 0x34942c23c97a3bba; 0x50681e2bc07fa844; 0xffcb7640f503b94; 0x76d15e13a1828893; 0x10039f7fd4b97ba7; 0x6cacaa2a0c71d535; 0x8a478c2f0557baa; 0x6764926e51b0019; 0x312fff7d0d0801ab; 0x26a6840b60b0a80d; 0x3f3d665118f0a54b; 0x44dc654812175477; 0x8a6f25d7ff26303; 0xb9283e1897693ef; 0x4df4d36fe49b9b27; 0x52bba9ac093f87c6; 0x420edb379d584703; 0x23f5e119f1acf9da; 0x4b2e16985948982d; 0x315f8e317185b651; 0x3d532e554dc0b40e; 0x28ec09dcaca0437; 0x5bca6e3791aee4ba; 0x28176a018a8bc4d; 0x43750a9a56c45d6b; 0x6eb6dbd5d3b269a7; 0x3f66b2765a51f0fe; 0x5991283a20bcd2a7; 0x42b9d161303dedd; 0x29773b12817ac017; 0x2cd3e9c61c23dde3; 0x886148ccc0b3470; 0x783aa4e80fd166f1; 0x5be00083b4ae4883; 0x5bc944e60722517d; 0x45693a5268fe5a59; 0x7379274bc663f2eb; 0x58a53de58ca965b5; 0x74fce4473d24322b; 0x72b84f4349d66ca1; 0x13098c3af60cfbab; 0x311786ce6154081c; 0x4c860e3696ab17a0; 0x652a086965e13746; 0x6158fdbc14f81a35; 0x50bb0c57634080fc; 0x56175c27f8d6a92b; 0x56ad827faf9e12d3; 0x4ce220af866059ab; 0x1d35b02f06cecfe4; 0x2eb7d7643d9fdaed; 0x223fcf2156f595d7; 0xb8e2915f8931cc1; 0x68e5c0aa3b2a2e62; 0x1745862fb5dca14a; 0xb417bd0fe99dedc; 0x6904a36a44fdb911; 0x3fe9f6a3a45fc3ab; 0x68e59df1d01dae48; 0xa5d6240361e35a8; 0x2c86b613dede4555; 0x4254baa0de6e0bce; 0x617201bbe77c9530; 0x114f4f724b21031b; 0x6b3a04ca902424f1; 0x416b3a006c5c6743; 0x3ac94018765ca9ab; 0x73f99c6f4d37aa7c; 0x53d44fb14e072139; 0x30507fec03e9b7dc; 0x3d660cac7f43f432; 0x481b5ec9079510e0; 0x182239e01fc3e318; 0x7cd029a17fcc8107; 0x2f6575b0445f8fb; 0x45b57dd656b38f6f; 0x1124d9ad574eebb0; 0x3768ae1c30a5cf0e; 0x1ce631718e55cff2; 0x7fde7e94ef1e41ed; 0x3760d05965ab3f2f; 0x3c4d2b9e534f0eef; 0x281cb53c0f03f2fc; 0x555a040a701221c; 0x4ba835eac0c9b9c1; 0x6a9546a93854ae54; 0x5bf67e587178263c; 0x6ec53d75fb038a26; 0x55e4f7fdecfe01f8; 0x1bd62986c6334c7a; 0x6da94ea0d6d28097; 0x3ef4d86b6d3df79c; 0x706f94060f088697; 0x3b31d1b8208f4271; 0xf74f5c030985a6e; 0x15ad7b76cfb75a9e; 0x2296dc6ef5e9630f; 0x9c05d194b2daf8e; 0x38f17d8a488ff1c2; 0x62327cd145b96e26; 0x2fe8a2c83fdfee94; 0x1cc3a920f86ee021; 0x2dcdb2d4d63a0231; 0x52f2c26241204ed8; 0xbf09966d2536b5a];
   [0x6aeccb16c6ea329; 0xafb5bcb3c541d58; 0x77c8375485e5f8cb; 0x440f95658104d968; 0x597c8b12fd8f6c79; 0x2676da48b24d0763; 0x370eee67597db438; 0x3de1752413664847; 0x20a3ac2df846c9e1; 0x45823168977cdabb; 0x25eb6700f6a28b8; 0x62cee550d20285e3; 0x4ad19c44e92567d5; 0x5a833b5455b47e19; 0x15b859de96e29961; 0x2ca2965535a6a938; 0x1b16d71a1cb84ca6; 0x70237efe6822179e; 0x7524a553f9436517; 0x5bed7292459deb26; 0x6ca4b8339c343641; 0x76ad46e4140a36bb; 0x7fd179f659f7c00c; 0x377b1094d3f561a5; 0x4dba06b280387d48; 0x70796f44e26cf08b; 0x17325de776114744; 0x5566558f71b30466; 0x6202d4bf13694426; 0x7be97cea8510b08c; 0x2b7140c418d283b3; 0x77068cc0d871a64e; 0x2f7cdbfa31725993; 0x3911b1f9f415996d; 0xc5a3f788d3f24ad; 0x13a7781496ef2a4e; 0x6e71a05f9be2326c; 0x549418bd323e891e; 0x3a9104dc04f6d8d3; 0x72352ea2646d13a1; 0x59552a01bcfcbb89; 0x1b936e3784e7f477; 0x6110aadcf854164f; 0x4fd912b68c3b39f4; 0xda1196ef83a658; 0x1b4941f870261a3b; 0x697f6f26bbf4a29c; 0x842d2d3c476d3b5; 0x560b8d37ca496c47; 0x40114465bb76a4cf; 0x74ddc784080e20ec; 0x4dcc1a15a9754b1e; 0x6a37c8f47994554; 0xb8e4237cefd0366; 0x7359263b5a555d8b; 0x43ae73487fdcc182; 0x762d7077dd70ad33; 0x7db6d541b970514c; 0x18d637e55775423c; 0x1a498f8dd396e954; 0x61b019e56e7466bd; 0x8ac090de531283d; 0xd525700307c6650; 0x7d0b18dae6b52d02; 0x616338ae2e907d; 0x179c4b69d5864664; 0x2590f2f3c5a91a96; 0x4ffbd240b5696cb9; 0x8a35fe48334e820; 0x33811d0517fd2705; 0x77043f725a0d5359; 0xddd946537a94fc6; 0x1037c077e377cf6c; 0x26c0caccb420f848; 0x523a91df41b0a3eb; 0x53bd131d100b442b; 0x4c4270bfb69d3528; 0x18298f0fc7c0b448; 0x5ff6e2eb7351c424; 0xc6142a5dbab601b; 0xd399761e7eeac96; 0x64fb607a38155db9; 0x567fb5870534d5a9; 0x78c9fbd7ea8bef97; 0x276eacb9e6c875b4; 0x26306da1527cd31; 0x3cbb9950cc79d683; 0x40102e1b10704278; 0x79ad58f24bb37984; 0x360756856316077e; 0x308b1736ca1cf96a; 0x22ab52a2ce100932; 0x3a7eb43c0a4a6e96; 0x21f41319ac785c4c; 0x254d330daa6d3ef2; 0x22b81a880db37cec; 0x3b07e9d4e72f4afe; 0x6646039db7ee4626; 0x60e432d958927c07; 0x24d8a4ef70c9f419; 0x79599011c796ead4; 0x300e2b3a1056f6db; 0x2ed08c6d1b83d4bf; 0x4bc11b6f960dd370; 0x73b38b22b4d9e5d5; 0x34174f7aea7dd58; 0x584c5d608b877c10; 0x34cfcd5140640cd5; 0x1b2b53bc1f118beb; 0x78208c4e81c4dfa7; 0x19645d34fbf17ca5; 0x1b70af3608028495; 0x55ec29bb61d7edb5; 0x125a2915054762a9; 0x7b7eefb11c37a2f9; 0x193d80d065b2fc61; 0x49c2228059bbb524; 0x62e7a331a5897e1e; 0x41da6baf214125de; 0x5f4f67f37b769a11; 0x217f1504140cc898; 0x2ddaef4546e0da43; 0x17e4a8262a5081d; 0x71b940d4ca066cc5; 0x54f72052f4ae9575; 0x6c700c6d1e9a7e7a; 0x695242f1ca80f567; 0x53eba4bd59b038b2; 0x4f154cf6f27eab01; 0x521a072e606f061e; 0x54ddc6139fb99707; 0x6dee7794fc74b6f3; 0x7e79bbe40c8f08ec; 0x96f4d41aba76477; 0x4ae3750a65c1867b; 0x7267cfc0690ed195; 0x13479ae804303934; 0x1f7a445aa624ae95; 0x765cde9c85ffca77; 0x1d8f5913b51592ee; 0x3c10b36f4dd5162d; 0x2ce694c57bb216f7; 0x72a9df4ee7280d8b; 0x54e6bca1d19b7767; 0x5910f21dadd9966a; 0x758b656d34de11ec; 0x266721a03c8cd850; 0x3eca930f2dfdeb48; 0x1f5ea3d38a2be772; 0x3e81c82fba852e66; 0x2c100388bd4a4f0c; 0x4583e879c03ba841; 0x320bd36bf28bab76; 0x466623c284639fee; 0x7ca161eb36d77585; 0x7b1975572cc3c293; 0x4612c3e88054aca8; 0x78ced42c4fb603d2; 0x63ea748a8a93c9af; 0x44b5e4b71e7d64e8; 0x5a94ab0d93365c47; 0xc457da3c6865568; 0x52fd65b34e7ce864; 0x49ba5603a65bb396; 0x25b20996d0cc1889; 0x4d0273cec14f14dd; 0x220623b9b409fd11; 0x761385d11fb67134; 0x6b2280c6b416641f; 0x1896fa6252f11b24; 0x493b895e54df2305; 0x54f697fe99565c36; 0x2d78201633264fcd; 0x5e183695bb9609fb; 0x2aab57d99dd2e55; 0x492f3462d9ff55ab; 0x1b954fff1e77a5c2; 0x49cd297eea521984; 0x60c44bd2e6f68db2; 0x42651c5326447f07; 0x5cd9ad56b9150fff; 0x2d03f05b2a354551; 0x7057bdb964e716a; 0x2d597005bdf816ad; 0x4d1518d7766063ee; 0x304b3280a9b0013f; 0x29a7dc138bd50dc; 0x69caa7295ed4fded; 0x69d9d5d96f98cb62; 0x1512ac249e6f679d; 0x24c086c04ae15683; 0x4d72f7705fabe908; 0x17b1e7c5a18a0fb7; 0x1783e5dbdc43a812; 0x730cbd13ebbee769; 0xd9cd507c150b7e8; 0x55f764c7be401ea4; 0xf632a623d8ecf; 0x4793c830b3846f44; 0x37bc30589106f09a; 0x2bff055da96cc47a; 0x6b8fc1d492be3c2; 0x79756df7c073ec10; 0x6cb4c867574cd46; 0x4fc530d5511e2dda; 0x697a6cd09351bc11; 0x4382b1c901a68961; 0x22e2c38aa292ef43; 0x7d01fcb80be669d2; 0x62526a11a9962b46; 0x2023a2336334b19e; 0x6b6914539864f97a; 0x220bc0a00f1f1ca4; 0x205f3d58cd4a187a; 0xc01f9947b4b9843; 0x53417e395f861239; 0x14bb25780049ff9e; 0x51576cb514debed1; 0x6fbbdc729ba192ab; 0x36384070d9c3f51e; 0x10de5577dedf1b0a; 0x6ec4d1df5f846ab1; 0x117d6da3f8a8c656; 0x5c6e0f5ebec977e; 0x6db6f8cda20a4bbe; 0x66933c25969f6840; 0x9b89a9bea11fb78; 0x995f304840cc509; 0x2045859e6627dea; 0x77eabbd903bffc67; 0x22bc6909c0394a3e; 0x26b600af259f3fac; 0x25aad2421f04a8e7; 0x76f9bc5b40b897d0; 0x585df2a09498454b; 0x6272bf8e772e8bdc; 0x74007ef1a0ccbf78; 0x1953ca860716eb4c; 0x3f28fdfaabb9aa9d; 0x2baf1ffa82b482ec; 0x55cfc1a6bfc32ea1; 0x6c113cdddc96b6bb; 0x2b0375ab70155cbd; 0x73ffb19ad9630804; 0x171b3926a2526134; 0x402e8d97eec9ffe0; 0x5f987c8bef405f48; 0x330afc717e80a2c3; 0x138b43730b1e2457; 0x381a3c7396ee9ac7; 0x645f2523cd94cfa4; 0x53f2dc677a767d98; 0x3f85196aa8efea28; 0x7e8df8c215040b0; 0x65271a5479f136be; 0x62c6092090906094; 0x5ca27ca2067950a0; 0x58ad7c8203b421d7; 0x6874bf57fd5dedaf; 0x5127282e8b929d7b; 0x24e14628e4f9af6d; 0x4a1af3c714340b55; 0x7316f286b3b48130; 0x764fcffc7916bfa; 0x5cc25330902f1238; 0x148f06dfc2468b8e; 0x69e4510ec3e62b77; 0xeb275f4bd031847; 0x58f7da81abc87d3c; 0x450e1f233100a1bd; 0x1cbd54c22327d429; 0xd32922bf456f15d; 0x407dcc6c36868972; 0x7125e0aa73879f1c; 0x36a5ed2a5c74a44a; 0x1f9f65d43ee3561c; 0x51444b001337af61; 0x6bf289d3a360ac59; 0x1379d65b0d4ad9ef; 0x6098858713bbc95d; 0x43dc39ceb5fc17c5; 0x11dfb9500e5ebde7; 0x38282478b4cba8ea; 0x3349ee950bfcfdaf; 0x39634192ddf18f21; 0x6d061a18d10e7579; 0x5755238dde2597d2; 0xa4c17aabc1fe44e; 0x44985c37e98eb149; 0x3f2a834ab1197270; 0x1bde0d5b5a6cda9; 0x6d76d3e11ba3eed; 0x1887880ca01d8ca5; 0x998b22eeeb213a6; 0x1d71cee7c7bc7308; 0x5fa790ece9db0651; 0xd9a19ac1b904753; 0x4c092f408fc27115; 0x1e3ec58e5eba4406; 0x76f94aa8a0544283; 0x42ac8c0801a38379; 0x79e38487467cf9; 0x4c7d679a08f96ea2; 0x2fcc9b8bbdc1b9e1; 0x5155f1d2f20b822e; 0x5cd33e6193cde94d; 0x35faa17db7a6c63a; 0x386ddcf7e9428e57; 0x1a29cd31d20c0554; 0x42374ac547ab6adc; 0x2488dce53c46a16c; 0x9820c181fd9278; 0x49e8dc80a2ff8faf; 0x439021703e89fda5; 0x25eeab932d057c99; 0x64344d1fbfe866e7; 0x118f14a29300bb0];
   [0x655f03d14795b6a6; 0x2de91e9dd943f59b; 0x755f761d77d473aa; 0x21ea6efe459c0746; 0x2a525746d606f582; 0x69bebabd0bfc563c; 0x772e0c4b747b0815; 0x1b234d0cdef1ba7; 0x1e272b38bf9e1e1; 0x67a9e2979fb87cbb; 0x7e4e8e0b96b5194c; 0x2acde63cad265bfb; 0x4b68937d96e33c37; 0x38db935558c7b157; 0x4483de2260a1f2a6; 0x7e68f9e4198f0e95; 0x6584d255c07ce791; 0x7034d9928e6eea8a; 0x606d48ca52871c9b; 0x22cc679b35840277; 0x6965a0894fc5e97b; 0x45bd14384f48b5d0; 0x328b687b44e14be5; 0x2c00dc682b26ada2; 0x641332cc7eea36f; 0x5a0333ffdd0ea6bc; 0x4c0b832bb3b0d42; 0xbd9b1e02d5514a9; 0x4c96e417172d16e6; 0x3716c6f9b0334e67; 0x359ea5ea0ffa6f6e; 0x7dfe9020a117a29b; 0x20339841a62c6b6b; 0x45e134e746f6cd1d; 0x7f9e01030f027b0e; 0x53548985b7444a22; 0x696c9f605a23a811; 0x204fb0f8d50e7950; 0x2a3bdd0221ecbefe; 0x6b71111541c3bea5; 0x2e9520be28f1d046; 0x1d73c829476bd9dc; 0x7f1da86d69b6a1b4; 0x7db0c9c0c37e843c; 0x53ab39d481b49e5c; 0x6ddadf68ec1ccf91; 0x698cc0f6f54991cc; 0x299fc880381c8ca9; 0x23defbc8824d6c58; 0x562f7847021b3c6; 0x45cc039353b153b9; 0x6e3c8b639a548a48; 0x4984f5861bab491d; 0x38ce0860f5b85938; 0x7239e0b4e33c0a5d; 0x2dd9b0e04c6da283; 0x1862bf021ee56eef; 0xd83ffe547769955; 0x75915520347b4bee; 0x77a6549221120d7; 0x49e32b29ab6b6913; 0x5605734629c04c34; 0x61fea08af90d8578; 0x29cb36e959f435f5; 0x5a16441ac187c62b; 0x6bdf35da0a6a4991; 0x768cfc741c7eae0a; 0x54fc186aa85a72a3; 0x72f3f73c687931dd; 0x2c452ab37cfcc630; 0x6dffe85478d1aef5; 0x120bdbc7325bc73b; 0x5eff826c041d8c2e; 0x50e03d64af5efd26; 0xc615cfdf2497bc4; 0x48ff55b22ab748ba; 0x5d998f24d8647c34; 0x735a5b36ee19fd5d; 0x1706dafad25b0606; 0x1df7a477411b0c23; 0xd4001f0f3edb557; 0x4f582d8e62156ca; 0x6bb78e1084628d8e; 0x1a87f6c698a1f0bc; 0x7817bd5ac4a00d1d; 0x7d2dfa1d011c65fc; 0x7910df4692da40c4; 0x717a86a7dba1c23c; 0x34820dd8d69496be; 0xcb243e0329d7da; 0x2a70476ea0081201; 0x6e60e9ba37265414; 0x15333587a7a92778; 0x7b30e6117cf0e4a; 0x5a5183bd476b71de; 0x7be75caa721271f6; 0x340973cf3968f59e; 0x5aa56d5f0bbe90; 0x20a85e1d660a8ca3; 0x462bd6b5956f8ad1; 0x11c77035d1d093b7; 0x4b4e9d3c831ad93f; 0x158d677869c2ba5e; 0x278556fa9da196a9; 0x4849e42086a63729; 0x46b47cc25815e716; 0x3408a2e4116489ff; 0x340cb15e404c165f; 0x43ef607e34d0f80; 0x3cb39c5c62eb7105; 0x5151afad3a617109; 0x3a37a2b8358ea597; 0x1d6039da5008b321; 0x1ad67f1ac642c2d5; 0x149f0745b012ae80; 0x7860fb5c4b525893; 0x7b970c21799ebe0f; 0x5fdcea46ac307054; 0x2f6abbc2120b77a2; 0x5116b23e746a1333; 0x75728d4513f176d9; 0x62e74e923663cd14; 0x4ab9cc728ecca2bf; 0x5b555e7d463423b1; 0x4f5709dfdb523c4f; 0x2fe71628fd1d9636; 0x43f06f72777c14c0; 0x61faaad3960e4f6c; 0x2f9a6836d3294569; 0x14cf1a7caa85fdfc; 0x329f5623b418ad32; 0x775ab0a908ec3c9b; 0x4ed8ebc580b10d8f; 0x57d4e002e1979384; 0x53b6b9c83293b7b1; 0x6863ef2b383da98e; 0x50301c643f690409; 0x3195a900e2db1b7b; 0x27084a7b3264af4c; 0x5e9ccf7095ff65f9; 0x41a54515d93300fd; 0x6a6aa939b9656760; 0x24040bf107bb647c; 0x7f39bc6ede0094d7; 0x39011179a74a4ece; 0x297252b5daa911c1; 0x140421cbc238fae4; 0x61e2ff9b38386ba0; 0x2af563f94946bf3b; 0x3ade0ce6910b90c2; 0x10dadcb29a3777c4; 0x12caeefad0607ac; 0x1430ddcc735256ad; 0x6c71491e4c8feb31; 0xb988e8975ba799f; 0x713f5f0b81a550be; 0x34d2612adc4448e5; 0x360cf674e6393de7; 0xf42368f887fc76e; 0x2e146436061e2df2; 0x78621ea217dd0101; 0x48d6b11d7367d463; 0x18dd611d10ae2aa8; 0x33e852c74611a994; 0x48cb96cab706c165; 0x3319c9f4c7e2fbb6; 0x64014326ae316f58; 0x5f97fb906146ee6; 0x3b060cd84dc27016; 0x6f8a0b5d3acbf04f; 0x3e5f5553a079198a; 0x11704762e4c5edaa; 0x23b7358e0d58aafe; 0x4108b4f4b319cad; 0x5ade4dc8c168a460; 0xb83b791cb6354a9; 0x47d6e381513010b5; 0x398047a885b13da; 0x22912594f2675e8b; 0x184c8f78d1dc4924; 0x33ebc936217b1795; 0x73a2fde7f11eb545; 0x589edeede9152ac9; 0x6099764a17f7e9c2; 0x2b5e0f5edb6cdc72; 0x6aa61cd7dd4fe5a6; 0x5aea219362f27f05; 0x3b8f589a951fa72b; 0x3ee2b7721b6bee22; 0x79b15873b0409189; 0x78076abfef538c8f; 0x5d722ba77bb96559; 0x4356fb9dd3d0fc8; 0x54b6d924b19daf22; 0x2b4cf7064638d165; 0x8b6c14e7c3b8943; 0x880706f4439ee6e; 0x702b29f9a5c396ca; 0x76de5c82125f4631; 0x45e4b548b6deb01f; 0x53b30b9c5144968c; 0x79cd652ad9fb8617; 0x68501ec0128d7299; 0x3327b52c1f9d4bee; 0x1ed793a4cb39fe37; 0x5583776b474b0b50; 0x62f22a293ca605fb; 0x45428d192c9b1b08; 0x385cbcc9761b1e8; 0x7c4a1e099d6593b9; 0x2e98b112507c396f; 0x693dccd5056435ae; 0x46cda3f441557268; 0x7e3d41949dc83489; 0x354f8be172a011a1; 0x61051dc81cea0a41; 0x145e93cf400fc3b6; 0x3a03cd56b580e390; 0x68b90aae0efba9d4; 0x301965e989aad902; 0x4054dd51d5df4669; 0x1212256a37298f87; 0x1e131db29fb3a2e3; 0x5ea52c7180388652; 0x6cca27f9535ab9e2; 0x7e30300498e671cf; 0x5ecdb0caee6a7bb1; 0x338d359441dcac7d; 0x69551729cd59dd76; 0x3a2bf8ec28f5e23f; 0x14019adce367a0c6; 0xda8f8f266be62ae; 0x2c7fe2b3c0b821c; 0x678d88a43de92ab2; 0xc3aaaaba2c02b5e; 0x2a628fd97b758078; 0x5dad69fdabc1658d; 0x4c46f82a0669d283; 0x5d3036074a450050; 0x4c6af816820ced27; 0x1c67dcb4274fd024; 0x71c9518b923167dd; 0x3056b1624e62b096; 0x7e6218fc24bcb1f; 0x3dd3a47c627ec1d3; 0x613baf986ab5b496; 0x7aaa6cd60a04f01; 0x185b76c42c82ac7c; 0x427bbb2217e74bf4; 0x54010bbe8c9935ee; 0x5fb239e3c85229de; 0x35b186071b24b621; 0xf126fe78fcb3fa2; 0x6bf7e15bce156fd8; 0x310d6030c48e19ce; 0x4a96f572e9996c34; 0x61b53cd38f5ac723; 0x2777072ad2d3e8f3; 0x26ba98fb272f56e4; 0x1d927322a365bb24; 0x60811b4bff6fea0f; 0x593381d63b5e2206; 0x67165bf030815fcb; 0x3abff141ff38cbc6; 0x58d553a7af1332f0; 0x5377dc1e42885cca; 0x769dd46671481747; 0x4abecb8c003f958f; 0x17da6da3e858ca22; 0x3d293d055598a1ea; 0x629776ba281072df; 0x50feac2626041864; 0x69a0602ac94ecce6; 0x26f07c285a5363d3; 0x561e4c50b076c4a8; 0x501fecc8fbf4e023; 0x39fddc1fdeaf1e34; 0x1a77c883dff71e7b; 0x38eaa7e26cb524fa; 0x19d5a83e6ed529bd; 0x52467842448f7a30; 0x4dc99734899b3d22; 0x70a48332c9c1946d; 0x747598b93e2dbedf; 0x1b65a96051207d94; 0x739e753af8765b46; 0x50e4b750947d04da; 0x33640e084153cbc1; 0x160393706a78e1af; 0x487c1428ea4f8b85; 0x1b20bd91019a9407; 0x547a64af3c3392d6; 0x2f056a0563251637; 0x728db6ea5a5e674f; 0x5a3e553225f8e04d; 0x644cb6ec8f8982d0; 0x4fdf7b39e1311d79; 0x23368e2c599ae074; 0x60b59075ec899488; 0xc55170eb7002745; 0x3f9be917d232d233; 0x6f27b1abc1c34bae; 0x448a2fa6837f5d1d; 0x4810e4043c6c39e0; 0x4b42eb7501d9aea2; 0x7f369eace47a9bee; 0x5c6ace0952f5acaf; 0x504e87da60955d06; 0x4710be7e6a2c16fb; 0x660573a0f1ec1f5c; 0x55a88d6d0b518b6e; 0x33525764aabd7e5b; 0x38d3aeb9b03cdf72; 0x325dc88ce35a7c18; 0x690f67b1a1df57c2; 0x2fffa4d71aad610b; 0xae7fc22be9874a1];
   [0x714a9f8bdaac578; 0x600d5a608cc201b2; 0x7dd28596b27bba49; 0x13f672cb95553ec5; 0x58b49a4971669444; 0x459c28f9364f7a05; 0x375103f276611e2e; 0x1d354399c73c3387; 0x955d478cbf14885; 0x2a14100095c71363; 0x6811283f8493864e; 0x461cedc94f2e206c; 0x25de51933443c4f9; 0x1dee003b8d1232db; 0x1659fcec97a1c940; 0x218a80f2a024d6f1; 0x797595d838462e87; 0x287548f4d8bc4791; 0x7e8b6e28138e4f5a; 0x2775ace4d9087290; 0x34c94d9562e3217c; 0x803f9c9dae9026d; 0x7728f4a89e70a78e; 0x10ec94edab84b427; 0x27da3f437811ed0; 0x683fd45eb9d762a2; 0x233fb265c70cc7b; 0x433f5dfacfcbe77d; 0x4c44ca1b95d235b8; 0x2f4cb7a19d99a078; 0x38ec00c5b4be31a; 0xe0f556e735596a6; 0x6c77fdd464e69bb2; 0x706efaba3a023a3; 0x2d03feb2e4d1890b; 0xd89e46423c12fa8; 0x26762c267c839417; 0x396d176c99dcbc9c; 0x23604b50e69bcdb0; 0x24d4901718a37850; 0xfc96c0ff0d5b175; 0x4bf99c30a3110d3b; 0x662709fe9eec80b4; 0x2e7e34d6ea154d87; 0x37204ce3d53b65d7; 0x4d01c21ae51af638; 0x45ef38c9d298f313; 0x702a31fdc76d2c0; 0x4719a3856d6a769b; 0x1e50d2588aa79776; 0xfd651ff34cc0a90; 0x253a057b5ea47492; 0x423b778d5fe8c91b; 0x6a9c351329782254; 0x3416d518150ad216; 0x1693b429932eea7d; 0x4cc5cb8970b6340a; 0x1b4c71695a0bedaf; 0x3d44e8bf1406cb3c; 0x88ee8ad7f302047; 0x6899ab2695eef09c; 0x1706515d0b09ba5c; 0xe99b91b4978f9c5; 0x547348ab4c569bb7; 0xad16be5a45c4d1c; 0x68e600274068c587; 0x5f5b1202f8f82d7e; 0x1b5f90493f5d366a; 0x66c9d6ce1489de29; 0x3d68c6e311f725a7; 0x42c213197ca315e9; 0x2a25f203a4977f8; 0x52e8e42464d3585e; 0x4cdf7fcdc4e93f56; 0x7efd9d9bf261edb3; 0x5dfdfb125e433c85; 0x5762ebe39f46d575; 0x3159286dd27c2587; 0x2b0d57d59e6ac8aa; 0x96ae655b6afefe; 0x615d23c5bccd5b88; 0x31ce477488e6a43d; 0x38810b07a82e277b; 0x6e963d9ef8b0d975; 0x38f5c00dfbb02b56; 0x234b6f5681707d7b; 0x17913e06f8d39479; 0x2c04c96f45423ced; 0x2c20237a495715ef; 0x1718c72aafe5e3c5; 0x333dc310b00ee661; 0x66c1b4c95cd22863; 0x10886fc3de58bf85; 0x7f99bca336926918; 0xf079cf193fa0e07; 0x124e3b9ae7c721b2; 0x3b7dfcd1f4c11196; 0x7739feff6437b4c7; 0x24cc825cd8e8e5b3; 0x3c3ed2134b4b122a; 0x1927faa49008a214; 0x156d2a3e05f97421; 0x466038a86802cf41; 0x4014ba7f43190c96; 0x1732a5ec5d7744f6; 0x246d5d6a9366418f; 0x7e2a8a935f5669b2; 0x28bf42591e8c9e3f; 0x5644316c2d77eb2d; 0x7f4d9791bd58290f; 0x5db57f6de0b7b79e; 0x6007d5ed7a33e89f; 0x225ecf2d3e0446a6; 0x7698761bb023a63e; 0x73abb936cca0b11; 0x6672ffb1247c283c; 0x204495bda01a8722; 0x61cb28a0b9339218; 0x65aa33f79306d941; 0x4b1ce8d817ed99df; 0x133f7038309474ca; 0x70ab45298c7a0194; 0x4aae58651a74c7c; 0x557dae50ecbb4336; 0x1e3df95ccb14a4fa; 0x753bae223b06a811; 0x45f6fe8ffb382cd3; 0x1cd10dc729e130bc; 0x215a5a0e1ff7724b; 0x60d2c0ad6e083a66; 0xdbd4ab32ac99d8b; 0x2a3507f9b1db3693; 0x42ff69db74360e24; 0x6df3a0dfcb7eab69; 0x1da42697cf75c3e9; 0x78ef4f663f5f8342; 0x1d82454acbbdd381; 0x28ce6a89105c0842; 0x66f25fce5673c69; 0x4fd5d55051a91837; 0x11937cb5d5ff92c6; 0x431eeaa38687bec3; 0x195c1d602888e3ad; 0x5399b0b92b8d576b; 0x36e6a5c5a523eaae; 0x274fd414d5ec9c4c; 0x16007805266d9b81; 0x13eeb34c66a0abfe; 0xd8c2eb3a70e0c3e; 0x670bc50f1d39f5b6; 0xd3556592de50334; 0x51ddf3c0b13921b1; 0x38db73d4a66269b0; 0x7b76f6d1f4390629; 0x1c0323f55a39a407; 0x26e37ebb6a9c8b81; 0x310076db389f779e; 0x215a3c07dd2582d9; 0x546114c69ef62b0e; 0x4aaaea6edb5ecb69; 0x74fca4ae04f4b2ab; 0x22bf6831c453647b; 0x3f6f650dc9b222cc; 0xbc0970599bda3b0; 0x18ffba8284fd2022; 0xa7db36d3b37eb04; 0x607458d6ab40fac7; 0x31b3d13a73c79d91; 0xd1cd87942a038b4; 0x1e1e2c88a60c0a7d; 0x33cc8ea6e9618141; 0x5e9bf10918833ec7; 0x183d6f246d18aff8; 0xacac752c7f49d8; 0x6d2769fe7b8b5c0; 0x2652b7cfdf1ce6f9; 0x212a98d3248a09a4; 0x6c5aeca9d94b7533; 0x29b13ad62862bc82; 0x31b2279596a649e9; 0x3416489a921b773a; 0x381caf7aaff19cf6; 0x30b701bfed91ad2b; 0x50853aa472dd524f; 0x6e53df3f798f4596; 0x502acb348d83651d; 0x31692d49ca5ba0cc; 0xc8385a84d973abe; 0x4a263ec8b0c219fb; 0x4a053477a8db3085; 0x27355c8f562827b7; 0x5e74a4699a30bd0f; 0x55b1f9f9d24200e1; 0x12ae14f146b58955; 0x2895955cac7252f0; 0x4d09f3d1880f93ea; 0x4b436d564f442394; 0x65a9383d47543dd3; 0x13adf1edab6688dd; 0x182ae4f6617f5e5; 0x1beeaa17b9286ee1; 0x43d6ff8660bde8dd; 0x7dc425290a956d4; 0x247ed492f262f8cb; 0x773fb4f1d82623c8; 0x557e243d8cc21407; 0x4ffc1e1503a943e9; 0x567bcc222027b637; 0x23966da75db69c70; 0x891b9223395e891; 0x882a47522cffd1; 0x3154a43fffcc0344; 0xc31f07a14d8af8a; 0x44a86182012f3d73; 0x2bbdf923d58e6fed; 0x2552e7f4f5417c2a; 0x6c081c695a3ab7ca; 0x46e90e0feb10d87d; 0x293fd227f6d7ffaa; 0x6944d9109558ae21; 0x19c49ed7f74b50f; 0xb7b8c6737a5aeac; 0x4568c3616c4fdaef; 0x3d66320e2c671c6d; 0x42f0b4da4a0be4a; 0x2716a8e89993566c; 0x7c66bb5e1044dbe5; 0x2aae557a296273b; 0x187770a220f978bc; 0x41b9d0910deb74fe; 0x42266ac72127abc2; 0x5ca12ca35ea2e1d7; 0x2dba4d1981b48112; 0x7e39c629c1b4d352; 0x6939188067e88d00; 0x4daff3f50d9b957c; 0x3ff9f25281fd25f6; 0x1f784a089c3f7cf4; 0x45b46b2d6c6899d1; 0x5591d2db474bf2b9; 0x2f1c6a1096f7b61e; 0x4975423a1357bab5; 0x8eac0f99c80cc3a; 0x2144204054d74038; 0x475a322ebaa666d7; 0x26dc2381693ab631; 0x78dd64da7d79bd23; 0x712e14ba91d4b0fc; 0x1b91ff784083a08f; 0x216482068f1adc95; 0x203e6ed22ba4bf6d; 0x70912da74a845801; 0x689d9cee971fb9fd; 0x592e4428f5da9205; 0x19b988f7ae8a1ecd; 0x34fb6280e59e985e; 0x43f65d7be9c161e7; 0x11d8c12b17e5a547; 0x2b5904b33597ad45; 0x5d712265e365d3e3; 0x6671d4fc058af2e0; 0x101005d219a0483d; 0x3705a8c785acebc6; 0x1410c3e370959fff; 0x36e0980bf2a8908f; 0x513e28f06fa12a6d; 0x5f749bafff76c1a3; 0x7f0a46964db202c0; 0x67d4cd0df8cb4c9a; 0x717f2f0e9797c88f; 0x5ac66d46e28d4f51; 0x1c482347c49064b5; 0x61b05eea37dcbabe; 0x1849c1b0fc9cdbd6; 0x417d26ed816172ce; 0x489aed06d6ea07f0; 0x65ad398294f5b32c; 0x46e415d5b9b07bcc; 0x523592976a104db7; 0xbe34880a6e80254; 0x6f3e892248be706d; 0x13233ae16b7e94da; 0x3c6eca4baaa5dbb6; 0x6adbc67b23532820; 0x2581fa1f1650b395; 0x5fbcaa13ce515c5e; 0xea4e5d651ccee59; 0x244b0274efb49da8; 0x2f346e014316720e; 0x5d512ee5875fc1ef; 0x79b22db134d7bb2; 0x10e21e5b77741639; 0x5b1cea4e0ebb4b9f; 0x120394832bef90a6; 0x4db59cc44334639; 0x6cc4d81d5b1ea32; 0x4ada76c2786523bf; 0x958d4d61b2e90ba; 0x256323d26ac89c19; 0x7d0caec9668792bf; 0x7f2085116aa2ef1f; 0x5e19c97c579a1cc2; 0x25d8e10a357dfade; 0x317a2f998720f47e; 0x3129041155b17a60; 0x32057b86860e87fd; 0x358b976f49e53197; 0xec70923cb4dd1d8; 0x31ff8a6692b6e11b; 0x26af415e6276d432; 0x6e9221f44247e58f; 0x5d61308669a178a7; 0x25ed744cbb991c15; 0x1fe60fc867db246d; 0x81d151fc08fd5b7; 0x3b0f2f62b2dca10f; 0x3f0623071717adc];
   [0x84700fcefb94e58; 0x4895c29b53908ac2; 0x53290a35f12421ad; 0x73b312b5928acde9; 0x62794136f8ec31e0; 0x3606d72804caddf2; 0x4aba6bcfc28c6181; 0x390625371efc6795; 0x4dd00a9ccb1ccdce; 0x94654ab1e5e61cf; 0x1e490a5e1ecd4c1; 0x57478d05b50fbae7; 0x1c94af3edd0507b7; 0x177553aaf9f74ae1; 0x694ea00aa8e53b8c; 0x493f6c564dbbf7a6; 0x7414de0bada9ebd6; 0x13cc60d54cb8e811; 0x4b58dad0608a6e44; 0x747a6ddb5187154e; 0x3a45657dc003863c; 0x213de3795001c321; 0x73969244c3bdfda9; 0xc213d30d9de7904; 0x623b2da16c2679a1; 0x6491b583b0d6df2f; 0x51f43a74f5166614; 0x6c4c7998db9553dc; 0x6535ba31c1f9975c; 0x7b161b5ed9a63e05; 0x4c0c997fb096bcf2; 0x238bac2abb288d13; 0x4efcee80980cfa66; 0x1eec868af77494a; 0x502cd0d64e0be61b; 0x4db197ae3e4a27d9; 0x428dc2cc08fc54ef; 0x24e7fe66cd1f8f5d; 0x511202624605715b; 0x5aadbe0521381cfb; 0x7a5fde16967b09d5; 0x43cfffb20190e90b; 0x64a62d2471656a70; 0x1bf89a137f93ec36; 0x4bf1ef02d9716a7d; 0x4def82f01a24c012; 0x1d2a08b87f979db; 0x77ca1400ca25ed1c; 0x5c9c5cd48054b703; 0x3174a9621117ed1e; 0x44856a4d6a7724df; 0x5041f188a0b53ebc; 0x3151b583b5d5a0df; 0x24c7aaac61d42d84; 0x76ecf27dae72969e; 0x139b52f7d37e53b9; 0x7b2ccedffb88ff9d; 0x49d1a874637e63dd; 0x7c441884f10220a8; 0x6bedeab49b32ea54; 0x6cb29ed8f69b33bc; 0xdf3dd5f7141a91f; 0x5aabf694a42fcbdc; 0xf480e4dd7932eaf; 0x4ba65be1399aa65a; 0x669b8184273c413f; 0xb4298c11fb57d80; 0x7110a752c7cd048c; 0x3fe90556602be2f8; 0x240043b5412948fe; 0x2b4074da14f60219; 0x7e9b6f98982460d7; 0x53360d537826ee52; 0x2cbba38bd78fef84; 0xf080857eb228c94; 0x26fd7588ced4c6a6; 0xd2a8b606d22b3b; 0x50de3685baf5c00c; 0x6bf24691c4f1f280; 0x34ffa0b2ad3c1c03; 0x2d7c21db1ec21df1; 0x72518518e0448018; 0x7a7af5558af4ce85; 0x36c3f90bac3e7eaa; 0x2558cd9547ab9141; 0x152fd267303b2d94; 0x7276b2308ab3047; 0x60206c147e0a1a7; 0x1ed3ca339da62027; 0x56f815470fc25e19; 0xd1f21ae597c04b4; 0x5edda7b2f44c192c; 0x6df8bf0c8bd5d3d6; 0x646a2280b012fabb; 0x4aa7eb6abf3aae7c; 0x720bd0b94ef9f57a; 0x3bc7402a0e281595; 0x1c78c8c2e85b1428; 0x187bb07274aa8111; 0x7b3f7d4075dd5094; 0x745c21e6cffd3631; 0x26ff26b3f4a845dd; 0x64dc1a785a405700; 0x51668ed3defccedd; 0x6af0b3e5b2428ec5; 0x7d0b485b2b0ff28a; 0xc6c055d698be297; 0x2fcc3bfbbbd195a1; 0x26fbf09174a1e76e; 0x509d53514ed01839; 0x424f988cd215267c; 0x42428129023013f; 0x6874309382aa0c12; 0x5f45a25ce586da4e; 0x3d610c96da7ad94b; 0x5978980644b2bf9c; 0x7de93c6de88f30e9; 0x2a72d2fe0936db6b; 0x32f37143b69d99d7; 0x165a45f70b320a67; 0x16a7fb633a8eb6a; 0x63e267bae89c3d5d; 0x25ec167bceb8ebe6; 0x416a11c7b6daad52; 0x6056fd067db62cb4; 0xe120218e882021e; 0x53d3f9587a64adf4; 0x68dfc5852522a7a0; 0x272519defe32ce3f; 0x4ec485b9b13848e7; 0x1e51319a48a3691d; 0x2ae32c9301e4d7a0; 0x639cd54967c862ac; 0x14213b6e31a3b41a; 0x5cf53107d61be30f; 0x60fe2575479dc336; 0x314297cdf430d74b; 0x19d0690854bf8241; 0x5815341d123be024; 0x3da92a33a438294d; 0x35afea3d5d24015d; 0x3cecc5c8c4a00562; 0x8a100c09cbed564; 0x31b8f075aaa3c19; 0x2cb8aacd94bfc163; 0x52b78a77910b666d; 0x76e1b7685ce19d54; 0x4fa55ab8faeea948; 0x7bc708760bda6e2f; 0x3de5d074e3a8e554; 0x6b1cda66f6b3148b; 0x790deb591f14eaf2; 0x789983c22ed5d8ed; 0x7eed8550edbc169b; 0x4ba4aecf4c1dba88; 0x5d81d65883baafe7; 0x32fddebe09dd12f6; 0x19094d137104d9a1; 0x709a0e910d9f79d2; 0x5dfbb9f545cc5036; 0x3a4d06ffec10d238; 0x5ed70588e164874; 0x594b8e616fcdefc7; 0x7e8e47578e07fc85; 0x7b8dd38e5f891b03; 0x32c9b51808dcf138; 0x77e88f49daae8de7; 0x7a7a062bb00382a8; 0x43612e4bde645740; 0x7f70e6019478c8a8; 0x2eb8e65075899223; 0x1eef6cdede5f1f00; 0x42fec2e90360b2e3; 0x703c3c0aee2c5035; 0x3695db7b2dcffa82; 0x744bd793559adb4d; 0x1459663f9b17f18; 0x697a0742186bada; 0x3fadc2c178a8d1b9; 0x3132761de1150e37; 0x7daed57937ddd27; 0x4f2ba2d9713729f0; 0x8253097f1a9223b; 0x256ce664b3ae9a50; 0x21147cf8f0027bc5; 0x56600843a6487fb; 0x6880f1d97ce8e284; 0x78d23227d44e7a54; 0x2abe31d91afa133; 0x4937ec4bb8c90273; 0x39c0c0fc13beab5b; 0x370ac369c9a791f1; 0x54abe95c4b987d8f; 0x3f2ef59674f46be0; 0x3bff6921ab1f9e29; 0xe1ab9e7409c0348; 0x30cb9922ba1f69dd; 0x177b1deb48b6a10e; 0x56a22aa82c5d168b; 0x45a65e770d261c7b; 0x30ce1dd69a7103d5; 0x4a415d8df80588b3; 0x19b7977d9e0a90ad; 0x2447eba208559c0d; 0x2eee1dff6ad3ad37; 0x4957044aa3a4491a; 0x6fbc9a838c065762; 0x448281dad7743982; 0x7a462b4018c7ceda; 0x77cc5efb5bdd601a; 0x1abde7a33d50fc71; 0x4ca9f4ace7f75122; 0x2bfff7e3030f7c6b; 0x7a58e9f26010e146; 0x56a8fb673ed06fa6; 0x5c2b946206c941f9; 0x37e4fd3b9629d908; 0x2b8cc93057a9d67; 0x25f2981238f0d626; 0x20acab8b3ba13f1b; 0x7ef1432d82273fd9; 0x2cbf97894a023461; 0x86420ab44ca61fd; 0xe2826fc4bfe44c5; 0x5cfae517064849d9; 0x2b329313fbf4523d; 0x9817783a69f04bd; 0x77fba25c16f0f82b; 0x22450491778df061; 0x7d2e75cc40a46721; 0x5ad94077c7694e44; 0x5657090077fcaac6; 0x54b2ddaf208cbdc1; 0x4a63bbc238c5a4d1; 0x4a03d9f8d8081066; 0x328f0aaadcf8d5f4; 0x7e2fe7ea31df9310; 0x5a87a7e83dd1110; 0x37e2d90360838fa5; 0x7fe719db5dd74a31; 0x1a6085cca54d99a1; 0x36032d1bf488196c; 0x7f0e12e9fc28715c; 0x796ac81a9d9000e0; 0x7d252f5bb3033431; 0x61bbc7d30c3e7c0d; 0x29f2d86f11c1a5bf; 0x71c1f8d5aa8b60fc; 0x2656c0d77a235c57; 0x54823f57329cec29; 0x7d40e44e5d78c5f1; 0x515d1806d3b5ff85; 0x1d9860d6ce24bc04; 0x7a515a1c9d43984b; 0x1e8d0caa0ec62c9d; 0x1bbedfe35631b9bb; 0x22ee200bcb8bf86e; 0x71792b1dfc91494d; 0x7491f5b1d180d820; 0x412dd98dd285b0d2; 0x2c4db0fb18c29617; 0x65dd6ea9fdef36d0; 0x14bc43ae578bc0d8; 0x59b622fac3ecd276; 0xae5ce0ae98b2871; 0x348e73fac85e37aa; 0x7c945902dbb02c01; 0x6eb50629fa60e564; 0x6cf4decf4d5d1f5a; 0x6ac6a2f89772fc13; 0x135074a554ea8dee; 0x3dd4006182493461; 0x347b52072d6c46d9; 0x45efd1fbde926c; 0x2cfa2d5fda801f8b; 0x3205121b6cff7034; 0x21c7fc2aa6f2cb56; 0x1374e4ba4cd4cc81; 0x32b797691d75b60c; 0x5b1b76da4ce59081; 0x1274b1e5b13b794a; 0x2c14da44bbf2a27a; 0x4236a7d403d579a8; 0x451b6f7d6fa6d316; 0x78a5102d293f34f7; 0x6f6e48a4880e2034; 0x5941f1b85fb70d7a; 0x5dda99778c4c964e; 0x34add7a72994471c; 0x68670f7ab5a57b6e; 0x59545ef7d7bfb47f; 0x3ceafbf9e9acc2ec; 0x4223d53b6632a980; 0x599aaae007f8af7d; 0x326674afde1d6a2f; 0x2e4ab88ff12b951a; 0xb7dadb75a1b5f6; 0x3e2e28a605b7b892; 0x42838f7f568db841; 0x4e35f39eee6b15bf; 0x2490aab2838761dc; 0x71d3a511f245e36d; 0x5918317e81e5eecc; 0x7e7f875022c0f0ba; 0x1a77c11c7b98519c; 0x4500bc5984adaf52; 0x3f6fe5a79f7effdc; 0x100aa968a676720c; 0xf6ec3d38fb57208; 0x30c913bb843ca8f3; 0x49f680fafa5eda8f; 0x3776e7f81b191079; 0x242b946f482aa617; 0x10d962bac59284a2; 0x50f78b9bf618c08a; 0x279923824d925317; 0xffe35298e921205];
   [0x2e83ba06aa606e52; 0x6084a83dc3eddc0e; 0x7ec3f60c72abfe34; 0x30735d4bc75cb989; 0x76ea35417472f69b; 0x5a6c1057adec14d3; 0x45fd3ef583c56343; 0x667632c2117618c0; 0x7dd48b9d91824ac3; 0x17e2810da8da8b0b; 0x1f03c28d377b42db; 0x139bbb70fe8ae90c; 0x7835a92742e044f4; 0x175bc3dafdbc9f97; 0x660607ffbdc78aa6; 0x4289dc505edb1046; 0x3e57d1dc61cdbf02; 0x406ff10b3cdb02c9; 0x1b7d87392f44359d; 0x635890e01184338c; 0x78dd38f356ce9aad; 0x6145dff7c074998b; 0x533367f78b66db47; 0x58fa5bd823e758e1; 0x51d62b1d97d80403; 0x4565215015d5ae6b; 0x5ce9274bf199b90e; 0x6ab17cb311b65def; 0x21fa95f583dd14cc; 0x482cad5d83d53cf7; 0x4caf9552fe791d1c; 0x3f91b9f46267838e; 0x7516eadcb5ed2a13; 0x16e940f4afc41741; 0x1da18cf2dfc545b7; 0x6744fb5b3e0030ea; 0x20438e646bb0ad7c; 0x74f0a8cbfca05b1e; 0x3e8fc514bc6c45e9; 0x61825a466b739be4; 0x580c083d8795e8b7; 0x2cf7ce0e52119c28; 0x6ca887f52e9340f9; 0x1b59f72a4b651342; 0x27df595a48f73c87; 0x7d62f5d2ba9aa696; 0x67a0b9293017770e; 0x49ea2e2062e9eb2e; 0x2fc9015b0e7a96fc; 0x7c08feba888b3968; 0xb3391573a512519; 0x3a75c84dac1c373b; 0x1d7c758681dc2d36; 0xecd3aea81356721; 0x40d7c3b1b97ce1c4; 0x108269220adb3302; 0x466b1608950f5150; 0x113bb69bd5bb74aa; 0x1ff2627dde8e75c7; 0x37778f2b1e889a78; 0x205fc9d28184bce1; 0x3ca2a137d90219bd; 0x27827a04351adcf8; 0x36d7ab794a4ddd30; 0x534201ac1164d408; 0x397e8ab7280eb251; 0x729999757532bdd1; 0x4d099ee8851f21f6; 0x2a49628b6e873622; 0x3c2c004147434a87; 0x78c4cbf64f3e3d12; 0x2f1ba67ed4f0eb20; 0xa143ef4f75a2958; 0x1d48b54d159b3b23; 0x70f6a9289fadf8a5; 0x7e5ada4f4a7bdf90; 0x6ed77d002293e06b; 0x5974c0d089da825b; 0x65d953b5a04d6b34; 0x24c265e5a8a8b8bd; 0x54a4a21ad118d211; 0x65fe21d4c6d002c9; 0x170ab43ac29b2502; 0x56c6c07dd4862c; 0x22001afcd177714d; 0x6583e19dbaded6d2; 0x327302683c826f3a; 0x5ccd7f981002e705; 0x77b1ee18a5e66cc2; 0x1ac9b62a83cde03d; 0x296ad39fc35b33cf; 0x21327dd603520da6; 0x166bfdba180e8875; 0x1e052d98c145b829; 0x71883068d08b3af4; 0x2f68a604648a36a8; 0x40589a7081629a23; 0x2ae9bd2f1edf398c; 0x2db53fcc70a020; 0x1cd736abb9c2ef40; 0x2e90ae6e654f0d5e; 0x7f97a45305f84a2e; 0xcf2efda52007921; 0x2cacdc1370ed224e; 0x2556f1cf259292c5; 0x54ccd8afe0051149; 0x24c9f6cdf320adc6; 0x19fcd9a31f9e3bc4; 0x20dbf1b9372514d; 0x586311e401a4079a; 0x21617e05c399fc27; 0x5adbd977188f395b; 0x7e09c7babb2b953f; 0x49f185a97f3a868b; 0x1d7947aa2d9118a7; 0x525073a2c958a723; 0x4018ec840c292f16; 0x1ae144b2ac5087d3; 0x18cff2f34d894ad2; 0x53897ba8f7dfdb3b; 0x6af8000940c37972; 0x4c7d94913d2878cf; 0x7b279f8227cca7e3; 0xd7d8b1ac023cdf7; 0x4abadbc4294a3134; 0x4d54bc8a9eb3fe85; 0x36e5e507bcb52a0; 0x6a8e2bc63950cf61; 0x2b70d3a57629dd7c; 0x42f8a3842db63a2b; 0x63b3c3726df1179c; 0x66b016ce396f2856; 0x19c8f339050ec787; 0x2d9d1427573493de; 0x37a5cf8727cdea1d; 0x3edbf0dd5e56ad08; 0x382088daf29480b3; 0x2b4991e0a4e20da9; 0xa130f5e5ce31fb4; 0x12f4b48fa63d0031; 0x2e476ecaf1b0f0e4; 0xdf677d4fe886c2e; 0x7590b18f6705abb1; 0x5e39b68ed5f91de4; 0x487b909fe43c670b; 0x9369df7b4548fe2; 0x39fe6af2009b5a; 0x404bdd66fb5013ad; 0x382fb2340569ec29; 0x6e6e743d0fd77058; 0xb1e583b4cd30249; 0x22ed236fb3398379; 0x2b229da68c3b5396; 0x13cac23cfc4c0f82; 0x4048b9321c8a5a2f; 0xc2e8998aaea9a49; 0x56fc14c5057c11c7; 0x7ff1c6aba87bd415; 0x581a5502489cc3f6; 0x4ef4266a46355dd0; 0x6430fa1b4b004aab; 0xa2a9d8062454a0d; 0x531b4095c16e4d5a; 0x5490877b8795c511; 0x1e87efd7f2a6a51e; 0x3718c37ea00f61bd; 0x4120c9514706dfe8; 0xbe3aa707ae900d8; 0x160f56485a8439b7; 0x411bd8f8d9d30505; 0x741491f64286d2d0; 0x7698bdc2bb68af71; 0x59733982700e330d; 0x603791b0e1d6b22d; 0x41624323d43b2936; 0x55054a7d0dfcc12d; 0x693d26f43fff005f; 0x19112967fda8247f; 0x1724a7e42d874d78; 0x3fd7b616206a1dd5; 0x743f40cf8deadce; 0x1400b9e162a39568; 0x7ef6e01eecb33e64; 0x468a1fb6e71431ec; 0x3aa53a8a2b020bb5; 0x4a127fadfc30b812; 0x55e7fabf8ea9bcc9; 0x27d7c1a2951bd0b6; 0x2fc2e705c7dcdb6c; 0x5a8775b99c43d2b0; 0x71db5cd6e872e000; 0x77a9efd3b1a4b564; 0x60361b757970092; 0x70580a8a682f08f5; 0xaf0424970b148e4; 0x629c8f208a544862; 0xa5508d6e1fe7519; 0x3cd97badba4204e7; 0x732b672857d4122; 0x5425ae4e4228945c; 0x73b6adf4d368a6e5; 0x560ba7210d7a6736; 0x15ea369a2f4e21d4; 0x27202408e9eefd34; 0x3aab9d1c20302a92; 0x2516f1d6d13237ba; 0x6b103839e55a81ef; 0x26bbdccb560ecd9; 0x35ff3c1bad13a72; 0x3e5cb49c2b92f36; 0x684f2bc897479e83; 0x44f6d65e382b6fe9; 0x5b8873520b111b36; 0x4ab81b22934f76dc; 0x7fdac5f3c29b147a; 0x6fbd4774114a7c83; 0xce3e36bffa88c8e; 0x3d1e5c13b6fab921; 0x2562a8859796706a; 0x1ca5f48962b082d6; 0x4f6b414fb60b1ff5; 0x555ad48cd98803ba; 0x4eb36ec8ab1cac7a; 0x772c7bb22ef33975; 0x1404176ad89ca031; 0xb7d31dc6f06e16a; 0x79f9f61d7e0d3f8d; 0x6be612cb5815ea2c; 0x45907b395484dbd7; 0x2d2a692ce96b3f76; 0x451bd048f19318d9; 0x23f7b219b5c5044f; 0x334ba4941c1c0ce0; 0x2e2fb94a58142125; 0x38fd03a8d84b32ef; 0x290aada5bed88bb8; 0x49ce8b0de6648fea; 0x480d7071389c3c51; 0x5fde9559534f89a5; 0x4e4f6718af9e5e41; 0x3451cd44cbcbdd6a; 0x5c1a44b91c2315bd; 0x364edec94ae4be78; 0x7ba7d9541e77bb55; 0x5ebf202a1652a810; 0x3f0e9bd9ebd0ef13; 0x34f2fa51be90590f; 0x586e0ab02afbab14; 0x64f23d313e6dad57; 0x5a0db3a439b3a24f; 0x469244d5a4182bf7; 0x33f8334ad436edb5; 0x6a42a243eccd4b5b; 0x5449edaa79617449; 0x1645fdb17c4d1024; 0x2474d04fa452c8dd; 0x6755801c6d9304b6; 0xa03d7dc16632a54; 0x67845dd072e415e1; 0x1c2a3898082fec3c; 0x4ca0a30ff2cdae19; 0x59c82faea5451ce2; 0x575fa954e3420992; 0x5579216b8a2b48e1; 0x6faed0045a92dbd1; 0x5e0fa4a7d9f1b220; 0x7f884a675e5daf67; 0x186785bb61604a4; 0x58defccb0216ef43; 0x77fa610bb2b57602; 0x2d54d741df3e4cb3; 0x364f2b149f72a3f7; 0x4db8f1a769ce12e4; 0x54ff45b803f9bec1; 0x5de7247b0cfe4e43; 0x675af6cbaa8f79b4; 0x4531ae34a36ffa04; 0x57813bd37c0e4c83; 0x3d4fc6e81641ae5e; 0x70624d11d73fd065; 0x913736fa5f81b2c; 0xa480a4bc72603c7; 0x156877f950cdd088; 0x480f189e67812aab; 0x30060d66da1e1c0e; 0x7b64436465caf641; 0x65d165120d3522e6; 0x3f807f074bce7656; 0x5a1ca988b3bc3e21; 0x41397b87d7a16ce7; 0x42bc39b5e75a0ce8; 0x35d7941f9acc385; 0x205cb62ec44a99e0; 0x434722a16b3d024e; 0x2f0730a6c355cdc9; 0x9100daa72646d9a; 0x59a878c65fb82fa1; 0x86a5ea17391bc4a; 0x1637d2073df08a7a; 0x50fa96dd42e76ff3; 0x5df38cd8b662ad13; 0x726e1ff60ba76885; 0x30747393db7c2bf4; 0x799f373973189bd1; 0x6f7e0d1b40491767; 0x74e22a196263b8a4; 0x3fb5d7a3dd03e42; 0x72f03f848715cb11; 0x5b2a22d41d3a57a7; 0x699b0ae07d732913; 0x365b3c77d021de3b; 0xcad1f0c2a6c8c90; 0x4546f57ad3b3625d; 0x298bea2e5d4b6855; 0x58d1bd43514e79d; 0x7271de2fbaa20df7; 0xfcd040da4f0bced];
   [0x50642749e80b67f8; 0x3ae45975a73864b; 0x3e6016e47d2e290d; 0x3440d77a2575fec1; 0xffa1e868c116f27; 0x60e55bb327b77302; 0x6a21adfdbb41f0c2; 0x3f92a4bff2161ce1; 0xe2b4e3119478172; 0x7d5b777c37ad57fc; 0x7f93def499483e77; 0x6fb15c095ac1f48f; 0x5dd5bb2b5785de21; 0x339491b2c711e817; 0x27479806ba6ae3e7; 0x13a4c5a996220515; 0x2937565962702b20; 0x2f9f43e94ce70e7c; 0x2c5f173aab02c303; 0x6719db6d6f03c60d; 0x62290c489603fbcb; 0x3a013c33087c6a57; 0x2ed8e91dd74d7ef4; 0x3d494d2019f35522; 0x549c5612dce99918; 0x16b6586c21e29a90; 0x255172146b280c08; 0x297c14a5d0a99908; 0x5443d3f017fec90f; 0x5cfa2f3ee3174ba6; 0x222ccea2a3e46b54; 0x4fd8503b5fe66013; 0x6dc2ea519bfdcc17; 0x4ad907b951f199c1; 0x5e61a9379e592e1; 0x4496837cf9cbb942; 0xfab56376ea1e0c1; 0x70c8054890b6e1bf; 0x3711b146d277098b; 0x661d1d7a76f520ec; 0x588e23bbe6516c0; 0x4d460712f36949d6; 0x2663a159f576ccb2; 0x329f6c9e99fcdf8a; 0x743958bfe6887734; 0x52ef09b9fbbfddf4; 0x2b443c55b14933e6; 0x12279d7faf30ae93; 0x65738153e49b150e; 0x11986087adcb6716; 0x24b8f335d408948e; 0x742cbf41bb2e8a6c; 0x40152fd72cdc3322; 0x2d7ec1f3c6314880; 0x5a9718f9a5366e69; 0x33df9443abfcb163; 0x4dc6ba21415bbce5; 0x4346baddaca881e2; 0x37a5c7a4f5a98cde; 0x56d8f10769129fe0; 0x3ab59b0d60f0a080; 0x7126b57d927be95a; 0x118ba291e36b486; 0x1ddbe6e57ccd5dcf; 0x38c601952da99417; 0xd468015809b91ed; 0x58a3043204f1601d; 0x15935c97ab1c0940; 0x39c376c62f6c016; 0x408cb7336477f3f0; 0x488c8bdad0473340; 0x20eafb6bbb7ff6c9; 0x751ca2e64e9298a8; 0x4d95f104310d762c; 0x508eea91e09d54b4; 0x780fb65df2415760; 0x7dbee461bcaf157d; 0x267983d4b6e46d24; 0x77c647ace84ecf8d; 0x56dab04cca2b45e2; 0x17fdeb460868190c; 0x193d4e2c7ec9da7f; 0x35b46aa0f70f3360; 0xa61aecd268f4c45; 0x4b9fee3948630733; 0x39d6e2772872c8e6; 0x60344039441ef353; 0x64a8819eee62bdea; 0x7178c745e90e437b; 0x3bf90e609171b2ad; 0x7656da88cb1d99f7; 0x252fc721656f3ea8; 0x3c278fab3e3ccfe6; 0x3ae48c13d4d38ef5; 0x69cac961033b6c9e; 0x27fd799a006d4902; 0x33a27bf10c98d1c6; 0x2079af639a382b12; 0x49eccd79a0bb327d; 0x6ef1990d44907dc6; 0x5eda24b8cd3882e1; 0x2e41af73d9c1e52; 0x470e0fcea84147ce; 0x4656ffc5f19964c7; 0x66b215f08924d6a6; 0x3287a028fdecadfc; 0x6226fc2b0e73c35; 0x3d0337874aff9944; 0x24cda1a3018515f0; 0x1f2496ee5c80d497; 0x50a622512dfb1170; 0x1f7dd044676a5c0d; 0x572b3ab5e9040055; 0x5b434c0be0df5c6a; 0x519a8a80644c1a7e; 0x537848cc5374dcd6; 0x486b9c3eefc30866; 0x21c10cb27599ba4a; 0x52ed9357830c85f7; 0xc69a31b17ac814c; 0x6c6b807d8f2f0868; 0x6c27ceb5af55fde; 0x5b8efee5badf8811; 0x3ebdc79450340a51; 0x324a055032204f85; 0x76b66c1bac683168; 0x35a053a419683ccb; 0x5fbf4d92a9e6a0eb; 0x5b5540604de61ae2; 0x63dc2715c0394e3a; 0xf2b854b4e1a3177; 0x3bd4b3fe3050686c; 0x16c9ca2bd9e060fd; 0x57fea6399f6a3293; 0xf80b3d84f9ef859; 0x4327464e65f05ebc; 0x5f5e63d93637176e; 0x11be613ffa91a229; 0x49034cc7fcd2de50; 0x6543b61e65b6946; 0xe5c7030713fb9f; 0x71413c08429b942b; 0x6e92c3dbcac52996; 0x5aed739e2c671c69; 0x524b4adc5b8c1062; 0x34b18cb1d0f25c2e; 0x7085ddacbed4fcfa; 0x7040caf83ac78538; 0x7394a59850160924; 0x334d08db18a00726; 0x278722c2b625c1e5; 0x131990de1f469900; 0x69f86d62c3c054f5; 0x1887df255a73a1cf; 0x28848a855bffd800; 0xdfc3450fd8e7dbe; 0x3815711992dd5dae; 0x4f787399a29a4887; 0x5b0d475b00711172; 0x7afa24f9a24e99ba; 0x22c50462fb4b6778; 0x5e61d02edfbc6d4e; 0x58394a7ee340e89b; 0x29c518d3d14bd58e; 0x7878a4a1e46766c1; 0x3d9ca69dfedceca; 0x5bd783602715a3d7; 0x229feacd3315b751; 0x4561293d85c5b846; 0x4231106e744c058c; 0x27ad8919e37b067e; 0x30b11f66f4911da8; 0x4b900ce47790e952; 0x2ffbe43e855b6424; 0x176c7dc9658998b1; 0x779db7bde93f25a4; 0x40a4e76d5cc061d2; 0x3f3d73bbf8b87737; 0x4ff9a39e60bc1d5f; 0x548d1c45c67a05fb; 0x2881dbb11123b584; 0x59230f96bc22489a; 0x1f5a208ea93b2cf8; 0x7879f2f082da484f; 0x7887db364b72cc8f; 0x67f556bee434ec01; 0x410d87b967a65c7c; 0x6563356e32d25865; 0x203ddf48164f538; 0x6b57c750bdf9bc2d; 0x366c633211f02d03; 0x6129297b4ba6c56b; 0x69d73ae3f871c651; 0x2656dd274bd16bef; 0x17ddbef80ac58db3; 0x3937c4b566e066f1; 0x5a4b0572e638b24c; 0x986574c40cabeaf; 0x62d37a4cd36bfce5; 0x24c257e64bcc2ff3; 0x2ea903a4350dffa6; 0x20abc9f589584f81; 0x55e9e221b2a59e02; 0x5c96788918f52cad; 0x46e900812c35166b; 0xf32424d780185f7; 0x322aa25b8861caf2; 0xee41a1da33e181; 0xad624fa1f908319; 0x6d72689f2cc7572e; 0x13de10030c6da55b; 0x7c69661a8d2cd213; 0x567fffb12d29782; 0x64324d196ee2cc1b; 0x21b578aa1941830a; 0x523736f904b812c6; 0x2a2d5b89b4a3e056; 0x292163e582b731b0; 0x9c24072e7219b72; 0x341a9c7bc76c5772; 0x7f01eeb7badc81e; 0x75331dd0e8751b5; 0xde5255a3aa87211; 0xe5429929f5986c; 0x3c947d902f9feb96; 0x392988a58a5b82b7; 0x32e2d93540a6a922; 0x75f04ea871a29253; 0x47119f5ae237b9c; 0x7d7767e1039cb839; 0x59a9b9db8692d690; 0x4697abc391b53121; 0x581573a5b45eb8e4; 0x5a38517b6a8ed48d; 0x26b59dabe10437d7; 0x7b1d2a20d9dc47ef; 0x526ea5f901127708; 0x4061d28e367731f5; 0x66e7fbef219dbebf; 0x195cdda4b7b4002e; 0xa344376248a4cc2; 0x391b326c495244b4; 0x7e3b58ff8529ab78; 0x43e410490b9ac366; 0x51c8f9651b9a2ae8; 0x7ad63a8e0517deed; 0x820c16b7e4caa0; 0x205b547414f15df4; 0x21afcbab8ca9cf7e; 0x1b1dce7a488b0a8; 0x7f9d798c8e6df7ce; 0x3b736d7024a678ec; 0x4e4f84508e115ed1; 0x2de35e056d349ec0; 0x388c19a3003b1147; 0x1b08e5314c6cad61; 0x2d6f9fcb549731f2; 0x2a59d37c7e14d11c; 0x1495da8eb582606c; 0x36e57e22b67c6675; 0x785692747ac830cb; 0x7635b7fd8878970a; 0x2ee4b75368de4e71; 0x73de1f0d7623904; 0x410bfc00655cb6fe; 0xf51f26b2f0672a; 0x54ea9d9dbcb30964; 0x4fbd5f372520cfa6; 0x348533d79823230; 0x6e1c9274d30d3ae2; 0x371c0d0392e85bc; 0x4ea1c657b6bc3745; 0x3e5cddba2542e38c; 0x361bc652805cdb81; 0x3730f8f3f6b76648; 0x29678e0812465d58; 0x30e2e7075a3b4b83; 0x132271721c999e5f; 0x2bd450d5ae4743a; 0x789a65bc798421fa; 0x5e62a84ba93c4387; 0x1da4ba34d739a3d6; 0x7725c1c5761094dc; 0x4dbe2cd8f62d67c3; 0x46a3eed0d1488a89; 0x5fd2e921336c71a9; 0x2580c639d2b77fb; 0x139a4f77a1f524c8; 0x24466cbfb096cb5e; 0x603b5fd38231e894; 0x635c594e846f0f7a; 0x774cbc52c8bdfc3c; 0x44ebd103dc484c7d; 0x56f131629738d36c; 0x6c83a980d155e00e; 0x56f770ee49dae5b5; 0x634caa62ae91e490; 0x7f9f71134059e990; 0x64327f45617dfc0c; 0x1bb69b5265aa3d12; 0x732f2265af1270b1; 0x67f9f8ff7600af96; 0x10ceb63516026de5; 0x9926286e0a20ed5; 0x5c66749b038bf7ca; 0x1b0fcc341beddb8c; 0x1a9b47cbb8b887d5; 0x2d68b9eb09c9832; 0x46436480dac7928e; 0x9c5f07a6d46ed6a; 0x103b381ff834aef6; 0x29796fd0c09f10da; 0x2a16e4e1b7f51874; 0x782e89d5255f9faf; 0x22831d39ad712a73; 0x7ac4f0c2a6934277; 0x60312d8d34f3aae];
   [0x5fb0544864cbbb60; 0x166d072c1f084755; 0x1386d6504a34c0d5; 0x394d386e536ed41d; 0x6354f8e2603f8855; 0x50152deb0d31f863; 0x4316b415728d4fed; 0x5d8ccb54191c7cd7; 0x2fb6c2f2ae5462e8; 0x3a4c74f928f5da23; 0x413fb3e21311a65f; 0x48c640ddc1b5948; 0x759fe5087eae943f; 0x165a3a447c2acee4; 0x3a8f2570d176dbce; 0x17ce1146d02872b7; 0x4b908bfc4c1e1a71; 0x7caf8e612f82df06; 0x5113d306256b1a18; 0x7cc67868b5de21c9; 0xffc58f565c5fa9f; 0xe7fd1592bea9bb8; 0x70601c9c70862e1c; 0x5e553a6367b10e88; 0x30adc7b99441d59c; 0x3f28bbae6252e7d3; 0x160d76d4d9101796; 0x3d751b4382fe46e6; 0x60e12846d19d189a; 0x6ff53b6c904e0bd1; 0x3d7f10ad10cef033; 0x17eae094ab24127e; 0x6993ce86ed67ba70; 0x25cd1e799f17f3; 0x7e71c8e0d63676af; 0xdc423f31fb3daba; 0xf1bd946ad85c701; 0x7dcd382507fae62e; 0x524219df6fdca42b; 0x3894f488c8ba4a8b; 0x2dcee44172d74fa; 0x60e255fbb1bf59c8; 0x9cd8b14b64957ec; 0x49575e5399c9647f; 0x3b23ca6b0cdd464e; 0x4c1883a194f970e; 0x75c211a6864cc98b; 0x2a0b9ff1171e6990; 0x3bd042357a0e56ae; 0xeaa0000abe850d4; 0x3f4ae743a6432693; 0x265a274c9c52178; 0x3487e7f6e82a405a; 0x129ae3fd5de70f22; 0x197aaf5774e74bc6; 0xa88e8cc28067159; 0x26a643108bafd043; 0x8182a8893a93627; 0x6bb128b4fe377c83; 0x13d82703e8b7a773; 0x44bb8f7b1f63c42e; 0x6600d0d128599832; 0x241ceed1c2b39d80; 0x6d41f8aced2a3af6; 0x730aff3db9f4bb4e; 0x4540baf26f215e1d; 0x6556cb0c483beb4e; 0x16aff874e97523b8; 0x13fa2339e2908fa8; 0x4ca55d60612e3aca; 0x4159d66e49de138b; 0x257da1240b09063; 0x615ddf5bf7a32992; 0x66848da109f9477e; 0x4d68c65979d6027c; 0x142a4736df3df47c; 0x2c2b8e05e7fb016; 0x777cf28966e4f11e; 0x4caafb395e5dd785; 0x6c93a1eae3c6acf9; 0x41ab0977d68e8e83; 0x29dac2376630ea4; 0x53c1cb1979feace7; 0x45b623a4ed21acf9; 0x1af55864e4599c29; 0x3613ae1949ac76ba; 0x598b42a67b485b24; 0x7452f86edd302cae; 0x3f5cae9405c5f469; 0x5d4f0412e452342c; 0x14105297c9293be; 0x79ddebed315262df; 0x273259aaf6857f70; 0x3b3f193b16545b1e; 0x44cff5d373cea3e5; 0x78e76faa69965d8d; 0x19f3d6910de7c97d; 0xdccf40b2c15e80a; 0x7c2bbf0fa1386d1b; 0x6b4a6d4265c436a8; 0x772dbd4dcda377e5; 0x2302ba34b0043813; 0x3b2dd49181775361; 0xefbdea010c346c8; 0xc5808ca8103dfed; 0x14caec11d2304227; 0x758dc05a70bc90d8; 0x6f82f50956d0119b; 0x73cbb1eb37781b68; 0x17ee94f4714468b2; 0x4ee403aa5865765e; 0x70e7b51040539ae1; 0x1c70ac7e9245a932; 0x768559248f27a980; 0x77413c05a518ffd9; 0x4ab3fdc60b2b831f; 0x2b69b7db162ada86; 0x4408370d82927ac6; 0xd24566a3a4b33f3; 0x666a3257aeb5fa3b; 0x245bc466c7ce20a0; 0x6257b7b6baba8594; 0x2e1349c808fa18b; 0x18d6f8db742b8e8; 0x9a90da819fa7867; 0x49c79ab90d18b29d; 0x45aac1785aaec319; 0xbad4bf8ffd5913c; 0x15d2f5f0ef3ecf24; 0x3df74a4ba412efcb; 0x62fcfcdc61e42517; 0x44707160b31cd6c0; 0x728d041bc4f741d7; 0x2b8262793a075b; 0x21b7e8c6f1f290ed; 0x596cee97cbb35504; 0x15bef53cc5420d95; 0x38ccad478436ad88; 0xd0fcaf91abd76cd; 0x1208ecd24b96a649; 0x198a8fe1b21ef7bf; 0x3670ccb1d58e00f6; 0x1abce29a0999b545; 0x70f0e461436302fa; 0x51ccd5ebffda2560; 0x42d8cfdc3af7b67; 0x7f9a0b0a41227da5; 0x2f7b2b02e0226c69; 0x2f3fcb248c56808f; 0x165098a8d387839; 0x676c1c06f3521e9b; 0x7b070a5e950f2f3f; 0x269cd08c6fdd555c; 0x7920503087c9863d; 0x5881e335c848b1b1; 0x3e93911dc274fd6b; 0xb9e2bc985ee2b85; 0x6413a551341ce594; 0x2d318051b293b511; 0x503dd04d5c3edafb; 0x295f72a71ad25625; 0xc2cb20a3e542784; 0x758b8897c2c6f2b1; 0x5bf6078201287141; 0x24044aa199fb5ba7; 0x201bc456faa46946; 0x2296e74f64e67a0d; 0xfb7dd284a94b82b; 0x8fa1aa199e77801; 0x52329a3aa5aee3ef; 0x75a516b9de39aff9; 0x28dcd61f72baf8e7; 0x617a84c6711268fa; 0x59bf052e646662a9; 0xa10c9a7925e9f37; 0x75e78c2976cc4aac; 0x3c62a90035c33f95; 0x78f9cfc6e9dc214f; 0x30039cf2bba312a7; 0x33c195fd789d05a3; 0x620eb1671bd34f4f; 0x37c9ece0252857de; 0x7bf95969e491ef56; 0x1244eb7a84349a93; 0x43ae5ceb2e02eca8; 0x5c329aa4c5107dfd; 0x5f1a7dd8557d27f5; 0x3a69ca840069f0a0; 0x11d3b30fbdc86fc2; 0x64ffaa3ed26b18e9; 0x7ffd375c80a61b22; 0x5bf025b93b889db1; 0x10b3a439a95677c7; 0x229275745263da2f; 0xf777df61798b2c2; 0x52dc27f841e06c83; 0x658b1956caefadaa; 0x9c8c6a81c7c1542; 0x41f952df8117cdd7; 0x3ca090b744650c4d; 0x50cf0d076a8ea3c9; 0x58b5e24fd3db397c; 0x53741e45d4514a7a; 0x47ea535664c15166; 0xcc57bc95f7e6366; 0x4ba9dc4feb3a2a2b; 0x7bc535d1db40a12; 0x55fcbb3780e75842; 0x4573bbb1b5354c8d; 0x6672a90fd2345d33; 0x45297e29bdc4d74e; 0x3918836cab9004cc; 0x254edcb0eba8fcc0; 0x7e09095115baaccb; 0x2deaee583d9f7846; 0x1e590a07ea26f3b1; 0x1fe954b24e202a76; 0x69213ed5e3a6868e; 0x7e03bf935b5222bf; 0x4558c58a0cb4cdc0; 0xf434144e70250c0; 0x7b9565e3c652323; 0x761930dd55ff3124; 0x26ec83eec3c2862; 0x5812d4dc488ef4e0; 0x71dc93dc7b39a683; 0x465fc9fc7ee89ff2; 0x6878c255b944abcd; 0x3d2c2af11d2e17da; 0x4ccfa3edbcfda652; 0x6e6a256e3c31d94c; 0x16f9fc4c8e4a2427; 0x5abcc9ccbcba644e; 0x373da2be239351c1; 0x2671101c5898e141; 0x9ba9d1c97af8d15; 0x4fb19a9ee4203f97; 0x10f19ce41077d209; 0x56cca3630e6059c1; 0x5d12ffd7035216ba; 0x640b0b9370a12373; 0x7c277876bf2b96a1; 0x5e4d31391a1026ce; 0x6876cca6c8b02cfd; 0x56071e617461323a; 0x5bcd2aadfb3164d5; 0x13209270b4c68512; 0x661d38c7cae82785; 0x7f134d8c89ff76ed; 0x25f2b359224bff05; 0x5c1b8a76d64b816; 0xd741d7ca2c56627; 0x38d28289f42816b1; 0x5a38482fa5175a06; 0xd2bd7d2cdba57cd; 0x20cff196c91c1143; 0x3547757d08e21ef5; 0x6d8a5e810872c3d7; 0xb938be604b65e98; 0x4ec7d1a95631cba0; 0x4eff3bf9812cc500; 0x4d5a7a5249ca073d; 0x71a69355dbd5de85; 0x20d72e4808c99ba5; 0x190eb8bdef71f391; 0x79a40c49630b64e0; 0x66aa565df0a3eeca; 0x212e8115cc44f895; 0x2b0caf77d069d2f6; 0x2592056c5d78b882; 0x7d6c354e5763acdc; 0x183e9a48424ac671; 0x37005475b4203e1f; 0x6e10f3b5976dd56f; 0x4b029077bcb9d38; 0x225d354d685ac71b; 0x18af269a455dc6cf; 0x645a36bd4703e7ee; 0x584149c7f139e4e1; 0x7de3c2811a8c4fb9; 0x150779edbc6a1a49; 0x689376893283a289; 0x580d415f7ec8eeed; 0x71aa8c174019cdac; 0x17d5eeb4d87330f7; 0x68b23c4591d770d2; 0x29c994550d33deb5; 0x16e38b940a166f09; 0x1f74894df4f9a419; 0x7afbe53545189dcc; 0xad1fb3cfb400bfb; 0x611b72891d0ca7da; 0x5338411d057738e6; 0x4340ff0c62b2356f; 0xe12a39c8e023949; 0x15c122dfee826504; 0x5b3aff0ab1b75de8; 0x6798600f11aea34e; 0x364e6be4e4dbecdc; 0x32afcc6dbaf6476e; 0xe0d20c043096ef5; 0x15e14b390da3af7e; 0x45089109724ba42b; 0x734856947b657b1a; 0x7dcf9c0ba0d0bbe2; 0x2a265588a1bf8bf; 0x3d6969478b9e36b2; 0xf1ef8cb23ba863; 0xd7f329e0ab9b8c5; 0x1378593fe3705f47; 0x2a368f01cfbc5deb; 0x5a073ebd5778acd0; 0x31765736b6e01682; 0x59aae5180fac26a2; 0xa5187334d25cafc; 0x225f5afc9b305718; 0x9e212b16a1f05df];
   [0x7b1b4ba6c31f8f0c; 0x6f78dd4eff47b3d3; 0x66b0ca7a01c12509; 0x6c034a6a2296f366; 0xb08142c7bc905cf; 0x9670e9df364d868; 0x71c2a50fe2507a69; 0x23ef2d39542aaf7a; 0x4672079d7bf2b05e; 0x589c5f6be29b2ac3; 0x3a0cca41b2de0b09; 0x69c61fd5ff5efecf; 0x22813fef52eaefb1; 0x75dfa4c78fbd43c3; 0x1f3e2b77dd7ad3cc; 0x1334cb7fd75cf6e8; 0x603a3a09175b5be; 0x58ca670bdd9b5e0a; 0x3655e732405693c8; 0x52d0f06362efdea2; 0x21801bccba4abd9; 0x8e9d0d75cfbd6cd; 0x3c6d3233b6ee3e07; 0x3920f31d60ba65bf; 0x5ee4aa7f2e7e1e45; 0xaf33740c9cb386a; 0x776983bd83982e9b; 0x79fb052850f8e9b3; 0x5fdc06f15608c8e9; 0x5a4c812a0303e894; 0x5b04e3e48d9e754e; 0x13b8428862c5b981; 0x20482ab414785f46; 0x31f90e349678fb94; 0x30306dcfa6e0e3b7; 0x6204c5d6fd81cd9d; 0x7a9bfd5a0b327807; 0x32e59b3bdba52c0c; 0xa576315701c104b; 0x76c97b079562677f; 0x7f3e6dcb7423018b; 0x12df9a7eb7eb7129; 0x53ed5814e2acced7; 0x58c35991c71d42bb; 0x6e5d5b6bb37bd85f; 0x7c9753c4507149f5; 0x1833685042ddc3c4; 0x74fd58c29303e60b; 0x2cabc4302f1c433; 0x7f30feadd7a68d13; 0x54aad8ca220a3d11; 0x749171201980df01; 0x76585213a20c0d77; 0x754359056395f37c; 0x47bbdea4049aca6c; 0x6c5e21c31bbd6dc7; 0x6da5000c2d9d045; 0x6462b5b455d2b7a9; 0x35f17ad12257ce80; 0x3e4566fb45c157f4; 0x5d7904c5de3a6b62; 0x44d0c728e53a0b94; 0x6ddd465f19f1cb7c; 0xa389029a84aa4f; 0x37bee379034a7e1c; 0x509d7003188f7c7; 0x700c592ca4d706eb; 0x7f2e6ba6315bdd66; 0x47770c461320be6a; 0x26638f1cd8d1c591; 0x79dc38ae99014f63; 0x3d6219f492357e1c; 0x30c0e49f1aa21b45; 0x7498217362ab432f; 0x69a34a8c18d216ac; 0x45085d07b974276e; 0x3ec4e05e99eb8f84; 0x3053bef30821170d; 0x7472621c378d59be; 0x7dcf8dad6bfe3947; 0x6e5879fbdda0fc6a; 0x5409e84d6368bad3; 0x74d5a401017c1271; 0x363a5db80866b6a; 0x41b1733adec2c5b; 0x999cb620fcbc6f7; 0x378dc51afdce9643; 0x47a70e8302adfb5d; 0x391aae470f0699c9; 0x660c9226a476e6cf; 0x149e92fbcf17c7d9; 0x1ec7421c9ff4b765; 0x3eef87ab6311f858; 0x47bc805894a8cac4; 0x259bcf6dbdfe16ba; 0x2fea148e1f0899ef; 0x1ea7c8f0e5b29a4b; 0x50c6067116790af1; 0x17ee30cd18c2a452; 0x3b3706c25992a182; 0x5677c96a5ff0874f; 0x17f7fc17a9372cc9; 0x7b57f782353a80d7; 0xf51ffbfa7f893f3; 0x76c71762b95f3e0a; 0x191d96f95d728f60; 0x6d5f2eb2d8388b61; 0x1581b8efbf5c2be7; 0x51942fecc6753817; 0x3031e6d69e9f44ab; 0x46d82b782bf73841; 0x133ab5c430b19e56; 0x61b9e4582d363189; 0x35904fac82c78f79; 0x316ec716cf598bbc; 0x7481d433b69cde6c; 0x44c20d173fe2e145; 0x362ca4eb7e23d83d; 0x73abf3c7f22577a; 0x605c6bc26371f415; 0x6aced7d651a5fba1; 0x3f1dd9f61dcb2737; 0x1f73ee79be82f693; 0x237cd6454b1aa94b; 0x39411ac938677cf3; 0x5dc0269a14343976; 0x44565a712200d61e; 0x1c43d8799e5c4c1f; 0x5fc1dce5d368ab8a; 0x11462a4f49997c55; 0x36334d58e4292bca; 0x5d308f7b8432461e; 0x3347b1dd17315be9; 0x269f0e1be5d7a30d; 0x16afaa4a4df49643; 0x2c6cd7d415f6949f; 0x51ecf222c46f5b45; 0x3474d95473833092; 0x5e893a90cc631cf; 0x24df0afa72855cff; 0x7b3d15f0ee4c89b2; 0xcd0c6b022478fff; 0x34041990e01fafee; 0x394f17589fbd5a49; 0x145f2d61c62fda0d; 0x14f256eea8b40115; 0x5e60c22c480aef1d; 0x493a3e85abc62e15; 0x1b561ee52f0b3f0a; 0x2d2aa7d0dc757414; 0x4a7eb4fd5299c2c4; 0x47458b08a3e7c9c2; 0x74b33f8980eb95e2; 0x45f6dc13d502287d; 0x206ed96bbe96fe94; 0xc1dc3b928853c1e; 0x3061ef0996c047b0; 0x2c2dc72d378a5834; 0x5fdfeb7e0a3259f4; 0x54d5a38c9fe36c78; 0x1c67d6caf1f55ab; 0x7c920597dbdaefa3; 0x2e454f8ffdc94422; 0x553db0ddea77ecdb; 0x565d54f4e0308ac1; 0xe794337d993f8a8; 0x24ddf79243ccd504; 0x2de8377d309f2ffe; 0x14dbb4fc8c0b5c8e; 0x58062070958add9c; 0x1c39cfd64507b7bf; 0x7e31b7c587eff317; 0x587a5eab062d9001; 0x4514c039f715cac2; 0x46c52fa447c095b3; 0x436f3dd012129ed7; 0x1001d064cdcdd539; 0x10eb69f604b1f066; 0xc2ac65af5124aef; 0xf33b5a07e82fad8; 0x650097535f2b41bc; 0x73d0fc7471904853; 0x12ad8cff43f8d53b; 0x6558fd345d971061; 0x78359a917978e61b; 0x291c4a1873b967ac; 0x7e654c4da1e66abb; 0x1737b8269d625098; 0x70eb9e44c23d8a7c; 0x16afad5a49d1afe9; 0x7a3e26473f15eda3; 0x695321fd5fb305ce; 0x2603811fc8a40cf; 0x767d0e8a4bd70434; 0x5166836393a5386b; 0x2a624eb7e80944c; 0x5aa2f32fbdbb7846; 0x19e19751fb66ef30; 0x4116bc25a2f0f639; 0x59e8500e56de8819; 0x10bcd2e06fd0b6da; 0x68cfcec2e6131648; 0x270be727ae6b23fa; 0x493f0c5d25adc953; 0x667f45a4d6f50fb3; 0x51035679f5673d38; 0x315c5583995173b4; 0x363bffd1a7894869; 0x2e0339d0513ed21c; 0x51a5e62b6ac144f2; 0xcfc3ae8bd32eb28; 0x361c21b0ccc5538; 0x2816488fe84f042b; 0x42f6f45485be3d99; 0x3a41e77b00471da0; 0x7e6710034245782b; 0x5f53b8163e8d8181; 0x8d264a53aa81354; 0x57ae2f33746585c1; 0x16983130f04d8bc2; 0x7db803eb8597de2c; 0xaccd4cad990f0de; 0x685e508ffa61ce00; 0x302a79fa9a016ed7; 0x51c96b0f06179243; 0x19e372ca42113d26; 0x4004b7c4f40f7079; 0x584a8a56f18070df; 0x8dbd0d0f30c84b; 0x4aafcab64bf7fe54; 0x35a778f51dbaa8f6; 0x9c547635bc4ed8a; 0x3fafd16bb051fe53; 0xbbdc6f78e34cf47; 0x7c80b5f8ccde4aab; 0x4d637e27d985313d; 0x2d358bdccd4f8420; 0x5152d678e82ea95f; 0x25eda23e3d44b275; 0x441cf2e23fbe858f; 0x2a61210f5e2fabf4; 0x65840fca90f60951; 0x218a9d3315627368; 0x398473516c988c8c; 0x2aae88f7467348eb; 0x48bdbdff212bb394; 0x2471e5ffa8b8447; 0x709bcdea222da5b3; 0x70922ec19eecabdb; 0x1efd89440c7fb9af; 0x289b426ae2448d48; 0x7d405987a18d1ed2; 0x3db0cc152353eeae; 0x791be18f6f5c8917; 0x224e1aba0deb076a; 0x1c992120f727686b; 0x484416f3e3d91cf7; 0x66d18245a6cde311; 0x55a2220ad09d0506; 0x6adfe3d34eb30bbc; 0x47534b19aa9cf48d; 0x7d77f4da7d1577b5; 0x75455435d0351eb9; 0x5279234168c631f7; 0x9f03f407d6a7480; 0x52c84c8dd908220a; 0x515d5bb1ce7936f4; 0x2773c248f4476065; 0x40c48f262f4a771b; 0x535cc750786e1480; 0x1d5445b99a8a5a4c; 0x58488137f1c18880; 0xcd04e55ae10df33; 0x500579e6f42599cc; 0x1e366e8dcce9020f; 0xb0fe191706144a0; 0x144f9242f67bb9be; 0x3e0b68ca58259dff; 0x7659ea75039d6d7e; 0x428ea06e974bb149; 0x71d82ea75b5930f2; 0x7be52b45472fa010; 0x29b75f771307328e; 0x157847eab2445a1c; 0x796abcce26ab6ec5; 0x6b398979f882108d; 0x7384fea62acf9015; 0x7894da379c14b99f; 0x66f73b6f29c08e8f; 0x542439afa9649354; 0x971a98ee3848611; 0x2156ccd564196fc4; 0x732a21e2c41c8bb0; 0x1b1e1504034802b9; 0x4d228381d8145adb; 0xb731d596e9a6fdf; 0x5472bb163212c41a; 0xd3a3e7753025051; 0x65f560e3ab7029f5; 0x6931cd96d8779037; 0x264b3cb2156bbceb; 0x3ec18617d9d6f99a; 0x2ef6b98340e3d672; 0x6d9aba48d5b65a1f; 0x4597f0b6dd55b4db; 0x62fb9a420deb2ffc; 0x7a23f1b90d9f60; 0xf3069eeab7d8f7; 0x7cef4af257a1ae3b; 0x75f859596a1263ee; 0x56bae667b7d84601; 0x344891c6ac601d76; 0x45d107561e0e4e6c; 0x2a6962eaaa994f97; 0x6dd1699e51cc664f; 0x699fdc3963153a1; 0x4008c8b608aa5d3]]%uint63.
(* for each bit, the multiple of the characteristic polynomial in its recurrence *)
Definition sf_rel : list (list int) :=
  [[1; 0x7000000000000000; 0x777693d];
   [0x4c02bd6838dedf91; 0x646cd05d719a83c2; 0x2734cd68];
   [0x1564c2aa6a512320; 0x3ef3e0fbf7e85df2; 0x581a7e8];
   [0x2c378c6db4e9295d; 0x7155353c02e04ea3; 0xeb9b0fe];
   [0x620ed54badfb5c52; 0x39accff81e173bb3; 0x16b39d15];
   [0x657ed0583616b0e; 0x70248c51592c12bc; 0x2bb4bc3e];
   [0x7e8f057ce5ecc421; 0x366fc80e3f5a7dc0; 0xbfe9db9];
   [0x3081d075c9fbca9e; 0x65b79212fa4a711; 0x1fc8a3c];
   [0x152401d4ed9ded66; 0x1ffea513e7fd20cc; 0x19ad4960];
   [0x52827c7503f2bf54; 0xaa74486172619d9; 0x6219ee6];
   [0x20a42e118f53fc06; 0x63b2736642bd4df6; 0x26084363];
   [0x41aa610ec39fba83; 0x6a815f028a84d0a; 0x14898d0];
   [0x5b988ab016fcdba0; 0x7ca6d5c695586b60; 0xd157130];
   [0x6552b46193298ca7; 0x4de5ed69d8aef69a; 0x1503bc27];
   [0x3b9e77010bd64654; 0x7725bcecd6f57df; 0x1dc12c7f];
   [0x2dd3f0b1457765db; 0x23f1b1d9072ebb2e; 0x161b5595];
   [0x221236da4753fbcb; 0x1a490e893b9d36f1; 0x1632252c];
   [0x711ab42f2a41c26; 0x290612ffa9c90336; 0x34e01737];
   [0x1f2994c0a0dd7b13; 0x5804d5abe68d0366; 0x147951c6];
   [0x22b885e3dd8683db; 0x19b453b354b47c29; 0x19310c8e];
   [0x707269783d5c23a8; 0x6e9b4e47397f2067; 0x3f607f85];
   [0x73e227d983a96a2a; 0x1523769786959d70; 0x31d3820b];
   [0x63dcefd100c62092; 0x4fa55739ef1b94d3; 0xd93c402];
   [0x324828128322fe05; 0x2d3174a7029d39e4; 0x3abab97c];
   [0x5dfbc7636f312560; 0x1331f64d5bbc4db5; 0x1da1c8df];
   [0x7cd6cb0fbe2872cd; 0x11b338d71108ce69; 0x9f7c547];
   [0x26a0a5e9e04e9b15; 0x4c092f1b9094087a; 0x3aa7ff23];
   [0x351e7452ea8092ba; 0x1ea5e31b30060c0; 0x38fdc2e8];
   [0x2c913d959a7dfb49; 0x365a52ff73cb3ac2; 0xcbf061c];
   [0x55a8ad6afab0baf2; 0x73b2eb504e51bf75; 0x260c42a];
   [0x5db982a8515f7694; 0x7d86a4925e889717; 0xdd7254e];
   [0x55dd401158ed2ffd; 0x509d903817f8af1f; 0x292b2138];
   [0x7ef80c4ca2ba573e; 0x6c224aacc33dce7f; 0x1f4fe8a7];
   [0x1a866cabdab112f0; 0x32108172c65bdc64; 0x12d7952f];
   [0x41b5eaa5e5edbbc2; 0xa12bfd5d7ee79bb; 0x3efb0038];
   [0x637d81506f9fe485; 0x52bbc2533dd259b9; 0x301ed573];
   [0x324cc84b7565107; 0x2280ecbf12245d91; 0x222a0f5d];
   [0x3be4f61133f628e8; 0x6e436a58444d7d5a; 0x321d8eea];
   [0x67eeccc72e685836; 0x67fd0889c53fd1bb; 0x663848e];
   [0x3673420db6711e4a; 0x2d4d9314887cd9f9; 0x7f8b2af];
   [0x3cf3bef680600055; 0x76c61962aa2d032c; 0x3607572d];
   [0x384586551de240b1; 0x684555f34d435b41; 0xa09dc51];
   [0x338a7718501a03fb; 0x7e5d93bfb6101a75; 0xc213ea5];
   [0x8ee4c716f52921; 0x2f8ad050c44d4e1b; 0x2cf305ee];
   [0x6d8b46fba7207a9; 0x108f036a8d6d6ee2; 0x27802fe9];
   [0x603661042e0191f2; 0x55e3a86d21e5a9cd; 0xb16f761];
   [0x66a5d6fab8d2a8ee; 0x691ced1311f2d340; 0x1d85ad70];
   [0x3e614e1fa7551ef1; 0x64c7f886b7c842c; 0x3a589c30];
   [0x5833152addbb13d7; 0x2be0d79722f7c65e; 0x2a921d02];
   [0x3a7f1340f2507cb0; 0xae84a395e2aac52; 0xd2fae8d];
   [0x3cb93a80d423ab23; 0x3592825ea8f5e472; 0x2272f40d];
   [0x691ac1cca5218a89; 0x4e2c783991183e36; 0xe781dd6];
   [0xd738b662d518052; 0x3bb75cbd98df4bb2; 0x2e7ee18a];
   [0x5f505191452754b9; 0x7f923acec5afecc0; 0x135ff59c];
   [0x13b4848cda9a58b2; 0x249d793a9dae1c6e; 0x169922e3];
   [0x632dc5fb87e731bb; 0x492e0448de9cf0c0; 0x42f633e];
   [0x7c65242e3c23d913; 0x7da6376d320e94d4; 0x1b2bf74f];
   [0x4ff80938f9e328b; 0x5005a67923901a9f; 0x1d0504cd];
   [0x574cf3721e9b8b42; 0x1c301097e673ecae; 0x3c40584];
   [0x5f98cfc71c9647a7; 0x6cfa1f39ec29d57f; 0x1a5dd8e];
   [0x4a1b7d5d272b04b1; 0x1d6bc93eef630e2f; 0xdc02824];
   [0x72856f8c8460297a; 0x10f144c82d42f567; 0x2afa551c];
   [0x4f53a07489bc888f; 0x1041576536ed03f8; 0x99d2059];
   [0x55f41551c150b297; 0x5d9d7e3c2840d8f4; 0x2d486948];
   [0x1c7ce0512a5ecb35; 0x35e0af2f520eab93; 0x34eb608c];
   [0x6253141ae87123e1; 0x4a608c7bad403a09; 0x113c01b6];
   [0x49e502bde1837710; 0x395e72dd1a20b761; 0x16c6dbca];
   [0x40b90da90f15aa65; 0x172eac2eb089a5ac; 0x3984e784];
   [0x49a62a605eed7281; 0x28866691fa533b71; 0x145a1efa];
   [0x53feef7e4f1d0c32; 0x2c5b79b5f119b0c9; 0x1454612e];
   [0x43ecfbf47804e17e; 0x157f180678344bd; 0x263abd94];
   [0xba15907fa092c84; 0x10e7dd8c48d5729; 0x1dca0a8f];
   [0x16aadec00979602f; 0x2901fba90541667d; 0x2f524329];
   [0x5793c5d8f44f183c; 0x7acb13a55a286330; 0x2c97fc76];
   [0x297bbfc30918f114; 0x24fe78ff5c011eb; 0x3d4c4ebe];
   [0x3255092ba37d67ac; 0x4d71dd4cf0268ba; 0x36d14e1b];
   [0x3e334606e5c7167c; 0x12e556ecd9231197; 0x345947af];
   [0xb86bffc00f74cd7; 0x1f065c435cdda1d2; 0x2794c8bd];
   [0x65f902462c9553eb; 0x7e9ff5adbc0eaec4; 0x20a24bfc];
   [0x201c1ec784e09b9d; 0x668addc98fa1a325; 0x26a6ac7c];
   [0x2cb50ba08d78a97; 0x5c907addd5210098; 0x88833ff];
   [0x4690b146f63052c4; 0x7f7b6ed23ff0c27; 0x3c9924cf];
   [0x3bd2aa44c1d8cb20; 0x3483071a0f980427; 0xd57e40b];
   [0x4c88f09ab83c9e57; 0x3a55fa8addfc5a7c; 0x1f39d123];
   [0x17f576fcc603f9d9; 0x3b2d76d1de3ee1a6; 0x3601e4f4];
   [0x3cb808c265dd823d; 0x1ab6b68fafc537b3; 0x2af629b7];
   [0x4a6433ba3e69261f; 0x4a010b483b5bdb93; 0xb99bd00];
   [0x9954bdb84f930da; 0x7e1fc1d1b0325ffd; 0x1d10943c];
   [0x4e5d8b009e7ed54c; 0x40f966feaaaa735c; 0x1f327be];
   [0x986e19062169dc3; 0x6d43a90e5f553aaf; 0x3e950052];
   [0x399169e98b562548; 0x65226503e069bcfe; 0x33eb9030];
   [0x239b183047a723d1; 0x7892ca624f365f5b; 0xf3edc0];
   [0x57546f2cafc55d1f; 0x18125a3ecef1cc9d; 0xeb8fa6e];
   [0x1c3150bce8c6b276; 0x300265015a4f7f9; 0x80c4d17];
   [0x675c66d0d49ae4b1; 0x5e2b33f4a358a9dc; 0x1f525213];
   [0x5690620972b82587; 0x643f1d02c556eee9; 0x339a49bc];
   [0x569c960ec4bca5cd; 0x721b584a1c03ae4e; 0x13e8c76d];
   [0x68064c12bc752bd3; 0x5c43537c393fb241; 0x1d692c04];
   [0x596c53fbeeb7abed; 0x59a54f07ae6118ea; 0x305cdb49];
   [0x35779002d9446140; 0xda940da22035e3; 0x360a3b63];
   [0x5d12132cd6921f1f; 0x70742693ddb8e46d; 0x2db2881f];
   [0x5f2cc1d6081dbbd7; 0x35168d416dbf73cd; 0x25c803c0];
   [0x43090a1d9b6845d0; 0x326b3d14bd52512a; 0x87fbce9];
   [0x4e6440feb2a5ccb7; 0x33b2a691e7027695; 0x29138268];
   [0x192c2048fd456b52; 0x6b36c370fc09421f; 0x33918280];
   [0x73ba643701aca58b; 0x2c2e61b6e470cca9; 0xfbc7c09];
   [0x34df71dfd9f1fe8e; 0x5fae335ae12a83d7; 0x13020482];
   [0x50a115002428926d; 0x7aae8bc8de78736f; 0x9305a54];
   [0x17d1a2c1e5538c72; 0xf47ddbe11fa4594; 0x22653229];
   [0x5b83b07e0c156821; 0x4e31966cb2e196ce; 0x301d3064];
   [0x6eb63d8aae5d089d; 0x352e05051c8e6af9; 0x12de57dc];
   [0x753ed2d0b9723fc9; 0x66239b6f6561177b; 0x33b05d76];
   [0x10302cae6a0ac21f; 0xed60c4906531a70; 0x15053a2d];
   [0x4b09ee3132183b4b; 0x66721201af2da308; 0x30916b83];
   [0x306c4f37dab5ce7f; 0x7e98f952341fb3e1; 0x2d5ac50d];
   [0x34ea29c48ea9dce4; 0x16b8705f8ef2c0fa; 0x256a04b4];
   [0x4b2faf61df590303; 0xc3331f3e3e9119c; 0x83815bc];
   [0x6b2a576699ea8025; 0x4126c910b98677bb; 0x18084a51];
   [0x5a2c050fe8b67064; 0x3188ef7cc9d0e951; 0x389e6285];
   [0x9cbbfafc0bbf365; 0x1bbd514f106ef559; 0x3f0d0da8];
   [0x13fec0a18caef50b; 0x3fac6afe0cfc9102; 0x31fb0e3];
   [0x36389cac8d71e53b; 0x672f3859083c2166; 0x381e293c];
   [0x2d9533e528929170; 0x268fffaa1bb34737; 0x148af0ed];
   [0x6bce375c4f2293eb; 0x5d23745e0529272e; 0x3f683856];
   [0x3fba54fa8f6cb359; 0x63c002a1f6f7572e; 0x32849127];
   [0x745873a402f9b72d; 0x24d7624fef0dceb1; 0x1814f5dd];
   [0x5d6ebc97d1502e4; 0x241477e08a23957; 0x352c385b];
   [0x793e9c4a800bd079; 0x134477b27b319d59; 0x8ada74d]]%uint63.
(* the quotients in the squarings from x^(2^14) to x^(2^144) *)
Definition sf_quo : list (list int) :=
  [[0x940fa643019ef79; 0x5f385a4205fa964b; 0x294b41d4146160d0; 0x3d9cb3fdf82ffcf4; 0xfb1418b62bf05bd; 0x30e928566ebe3e38; 0x6f709f6821f38076; 0x25cf979522a50c22; 0x31ae7bd4358adb25; 0x66509edd705aa9c8; 0xb8f0a84d2de31d7; 0x4189dde842f5cef; 0x779fcc7729a26dae; 0x49031504a94cab88; 0x10539a70b027e8c8; 0x45d45041f3339ef4; 0x68fe193af671cf82; 0x3d4a5b3f3b2f4ea0; 0x812022a0713e4bd; 0xa22248bd4254154; 0x33fe425ae566a60; 0x66ca59fb4d18714; 0x699e94bec08745f1; 0x3485781cd0aa15ce; 0x4d3cf751daa77891; 0x387e6f556cc73344; 0x48165c9dc0c687ce; 0x1d750aef9382e9c0; 0x1c3d42e8778d9726; 0x779c5ef2636f017a; 0x6cf72c38f79b8f96; 0x43d20305f79a3ceb; 0x5c6ca36256b410f0; 0x7fcb6810ba754d8f; 0x698539ccc59ea4e3; 0x1f6ae152018cf1c8; 0x77fb8e77da2e8007; 0x1bd8c6518b30b5a0; 0x1a4354795ccedc5a; 0x550373cd89434954; 0x1e59ca31f17704f6; 0x66d27c4325ac313e; 0x41142e2313c89bac; 0x1660a4248227044b; 0x656e8f99cde4e80c; 0x1fa0c7bdc38515d9; 0x327b53cfb39ec668; 0x5599bc02663bf26; 0x2851f6082034667; 0x78b35988057823c3; 0xce9269bcb25e696; 0x72bf8c06ca667e0d; 0x1ec7977a279a129e; 0x3286f436eff685b2; 0x48fe693a09f73097; 0x65f18b303ed73fb7; 0x2588e0360c61d495; 0x719334cf8d419c48; 0x3a706c55013b8636; 0x7bb1c5e747e37edd; 0xce606c401273836; 0xbccd052455058b3; 0x4ebe7059a9fcb2b2; 0x4d43e47427e3a06c; 0xd477a3fddd88074; 0x6a92e6c9fe6680fe; 0x6d8255ea8a8e7a66; 0x5155f060fec44685; 0x7ab8cd6ed8aa31ad; 0x57e311f8a7ff18df; 0x5c09ec53c1078550; 0x7c2b5ff0eaa2fbae; 0x44ca7ff083a1acf3; 0x39b6c5f07594160d; 0x712385ffec2cefa0; 0x80547ae872a484a; 0x3e74af4a29b0950f; 0x42d81754d34b4c1c; 0x474be9c28edece9c; 0xa3e96a3d421493c; 0x73010f1e53f7bb80; 0x479dc4986e656698; 0x6e99ab25023c715c; 0x45792e05b2943f0f; 0x41c857818022a33e; 0x3c80442e6ba45da6; 0x28a24ceb198656e4; 0x35ccfa3241ba616a; 0x644390756754835f; 0x30454338225d3c3b; 0x5d82ffcd010e90eb; 0x313f72b490c96b2d; 0x292ac6e3fa7886a7; 0x2a780109f2b42083; 0x603254c4b7c250b5; 0x3be877d1540aa2d0; 0x2a45c0b5cfd0c1db; 0x50a6d76c03639a82; 0x56141d2f511cbc51; 0x38def681b31cea3; 0x22b5fe9752861721; 0x721db19765c67c73; 0x62781cc2b982a707; 0x43658cbf82b8cf65; 0x11fca563cb584e9d; 0x62aaef3dadc486a; 0x74128bd04238597f; 0x548e4fbc8204e2e6; 0x8af543d10951aad; 0x76221f179c82db39; 0x6e3fd108fa41b1ee; 0x1880632b2ca8086f; 0xb7b042dd9d62502; 0x464dcb786fe2477a; 0x697d6ebb3c9547b8; 0x64eeead7f6428c03; 0x545af3df3d8c8ea; 0x6cb3bd2eb193c335; 0x68d283448b5eb3e5; 0xecb8e2575e26bbb; 0x28bbb59fe2fb446b; 0x7cdc084511152063; 0x7d9a18726b722716; 0x654da5025ea56dec; 0x54bc5c8c8acdac22; 0xacc356b819baa2d; 0x696f1ab11832623e; 0x1b53a03903527f8a; 0x638a3b1d6b079df1; 0x535cd2a681bbf8bc; 0xbbe1e33ad28c89b; 0x3c0a37e7a7645c13; 0x74bce59161a9e7e9; 0x1464485b60dc9ca; 0x74210382b75a90e5; 0x7daafb61140fbd0a; 0x5aaf47f57582432a; 0x1cf1e55762a45004; 0x11075662570614ee; 0x7945667b15e04262; 0xaa49ecedce1ea33; 0x12a5a968287ea816; 0x668023104df48f0f; 0x419404683b097be; 0x181ea742e7b000e5; 0x713288b2010c2921; 0x11326ee63425d44; 0x6c574bd78a4700a3; 0x5284a55a5866c111; 0x78756280afea001; 0x4a6331a290016; 0x707d1e85c068bf09; 0x798a294c92817a10; 0x53608b4b429c514b; 0x62d0a0243111674a; 0x508470c01854240b; 0x486e84888aa94483; 0x591493562087d52; 0x2ae692e1c118aef5; 0x681a01508722e068; 0x30100c444a288038; 0xd1f1b39503f26c; 0x163212640460b00; 0x5d486f0e38614042; 0x21421488052c247d; 0x330108a80603407; 0x2178b42302207684; 0x40070d88000f70; 0x919138904000018; 0x66e04248348a8203; 0x500000104000060a; 0x103a684440645a0; 0x805848320580900; 0x7023153a28810001; 0xd58885000830580; 0x81440000020d050; 0x40a045888c008a11; 0x11081d1420201028; 0x444222440080020; 0x181100890402a00; 0x5002000000040888; 0x5008a1100091082; 0x201122004402000; 0x885420a0010084; 0x22200002805602; 0x2000000004000150; 0x80140200102801; 0x4008005000000000; 0x110080040000000; 0x4400000000804; 0x40020; 2; 0x800000000000000; 0x20000080000000; 0x800000000008; 0; 0; 0; 0; 0; 0; 0; 0; 0x800];
   [0xa866088a8d844b2; 0x4f52cb91427ada82; 0x4b5b21e75a4b7ef1; 0x73daede08fa04814; 0x5511c7c094d769f; 0x7b0363097fac7cad; 0x22b24a3af87314b3; 0x43036ed0fd05e354; 0x13622b397bf5aeef; 0x26da770a3a6674fe; 0x778a6b66b77d5eb2; 0xfdb54cfe9d05027; 0x6803d66c3cefac74; 0x6569d919103ef917; 0x133828316fec722c; 0x348ae0cd9278eace; 0x411ef8ed4b54ca8; 0x1e65f5cd5a345e55; 0x39abb13d4298a13a; 0x1c9ea082d09cc062; 0x41b645ff71cea386; 0xa64ecb2fb9aed86; 0x37f2404fab831b97; 0x72a5ac0afa528061; 0x42dded27c2bfaba7; 0x4b985355185d36c6; 0x5da1d8b993e6b5ef; 0x4b03928d4c0e1ac3; 0xf99492270537c68; 0x24902b0f6100a4dc; 0x5592a12159735620; 0x125a370b363be4c9; 0x15e020ffc07b06ee; 0x159b8b785221874d; 0x41dc064f438cf3a1; 0x4334410206a0d2ef; 0xb2023edee98d643; 0x55af12999f908c8d; 0x41e0e31a915f4c90; 0x734facad02bff4f; 0x1f76a4be9b6d67ad; 0x6a28614ed12fc4a4; 0x5edef1b6bac3a247; 0x5f0e99be01552052; 0x6580819db88fbb5f; 0x227ff10e7c14dfe4; 0x58e02d06dcb30c38; 0x489d221cee928498; 0x509d8e38b43cba9b; 0x33a625ad072ddbe6; 0x3f5a2c271bb1cdbd; 0x384a1c50cb3bfef8; 0x6a0208719f50acf; 0xd254235601b688; 0x5861deb312b348e6; 0x13f70a15d93e2a83; 0x2eaa9a43b6535562; 0xa181326ace6065d; 0x7ac88cfffaa42e5f; 0x5ac903bf224bd9; 0x6d5afc5f71e982c8; 0x53c5809728524353; 0x7d91d13637d74cb5; 0xdc866d921668e84; 0x139d5cbe4a0a6b06; 0x7460efac64c42cdf; 0xc846e801a57026f; 0x702b600bf140b7fa; 0x1fda40897ee7e472; 0x64ce4e1363482ef0; 0x7804d05c1cdb12dc; 0x1abeaba72e2509f1; 0x6a19eb3c768d8131; 0x5d6ffd239189016f; 0x4214a974e00e5235; 0x109d920309443eb0; 0x6680e630050b9fb4; 0xccfa981fcc096ff; 0x4d1e6f4078be415; 0x5704c229e37930ad; 0xe13cdb4f0d72a57; 0x432228b95c6c0143; 0x65ae7ece634ac38; 0x6add32b50e8a4f74; 0x125fa40ecdefde69; 0x60e07c8605684975; 0x6c26dea8542e62eb; 0x1cbe90e2d5a9d41; 0x67f18bd96932bb82; 0x398bd00a1b5fbeb; 0x6002fb632419e363; 0xfa24379735915e9; 0x64f9ba8e75b20c93; 0x72f1066e713df07e; 0x3a654dcc78575463; 0x6d4e72a90c6bb60c; 0xa2f6f2b57df35be; 0x2a6ecc86b364d6e6; 0x5df0b34912c10f93; 0x439eaf1de3c811a5; 0x13f13f5160e515c8; 0x12d8482cc1cc33cd; 0x3aa4db433ed04e00; 0xedfcd6f70a4b54f; 0x1ebff4d6d3f47417; 0x415d2c409dbb1887; 0x1732ccabc1f2e54a; 0x39c1bcdf438e78d0; 0x1ea8d5938c0ecca2; 0x4668c100b950445c; 0x36318f666d32cd8b; 0x56768e27ee87d312; 0x366c06dc1d50547b; 0x7796453ae90a0b7d; 0x29d7c6f494a4f121; 0x7f5100dac762a885; 0x5dd399932b1c7331; 0x52cc811e901e44ec; 0x71c6a40d524e68b5; 0x1580c28f79749968; 0x47b519cf80bc9d02; 0x49993c13e44aec33; 0x665801b20f6363be; 0xa9abdf7a8e6d7d7; 0x1ec7a9a7d9d86fd6; 0x3cfa60e3fd0fb351; 0x112c623e42455fa; 0x34123accfd07e812; 0x387bdeae660f61b7; 0x391701395c8a9c79; 0x7623e21dcdee8a2; 0x111cdf5ccd04df84; 0x1b5f1556401589b9; 0x3665517f9de297e8; 0x7fd1ce3b231274ab; 0x7ba2914699c1f17a; 0x49b189495ffc9962; 0x6774125aa3b6b573; 0x5f8ab7bc692aa046; 0x31eaff2636ea0dfa; 0x5fde74faeec0572a; 0x6a7e56e9d49abe34; 0x48e852469eae5d13; 0x5fddb0def9fa578e; 0x6f1f06811491b2fd; 0x15268b66566a669a; 0x5794144eec1f6f7a; 0x6178d23b3a10beb5; 0x23aa9d0d1de20a07; 0x4e6c815b277d2a96; 0x1119ca54e8d1df07; 0xd288aec68116d9; 0xc6120f9ddfdedf; 0x729e9fa34bef8768; 0x3fa4fc82436ca3ea; 0x49f3d044ea722855; 0x49542e5d7672b969; 0x64d87c9fa3f49bb5; 0x7e104c2a7d42b3fb; 0x50b7603b320f1fd6; 0xf3b8dc1d740d3d8; 0x64373e7f7aafe57b; 0x1e3ac9c75d596ec8; 0x24de7bb88fd0c4fe; 0x34742f33f5e2386b; 0x9fd2321d6daf766; 0x564d3e7b99fa9c5c; 0x6c9a5f343c9a783; 0x2e5aff66bfed07af; 0x69536b416277353f; 0x75d993100b9acfd6; 0xa56d9473d3b45d; 0x1084ef8c219287be; 0x26bcdcb1c1b53b3c; 0x675932d6b09c94f1; 0xca4ebbce9536f3c; 0x575ee2bb9a73391d; 0x162a3a06cb9c6a48; 0x9b914bf8d381752; 0x792f471cd4b16a02; 0x50f904648965b798; 0x13b4e59ec3c8c1db; 0x41ad5d4fcbd414cc; 0x306c15abc7a14d05; 0x76b7391092f131cd; 0x55727ed40f13375c; 0x1924e4fb30aae3f7; 0x1b6bdad44bf6c6d3; 0x12f48b60233fc83e; 0x1d84f0f321d3bb94; 0x623bc6eb8c0c3453; 0x7aee6b8069343ca6; 0x29dd4967fb935402; 0x50d282db2916840; 0x6de28cb50e588388; 0x3847336340314670; 0x47acab209a74c525; 0x3f4fb7b5c70a1b4a; 0x5a04422e510c9f69; 0x6c6afaa4c624b293; 0x5cba7f90382dcd8f; 0x6e399b8ad25c05fb; 0x17eb7d07de75b4bd; 0x14d6c2fa3b2629b4; 0x7fa5ed37094dee72; 0x64ce62d11c443c2c; 0x5752bec98b802d8a; 0x7664c93432089904; 0x45eea9a283a43ce9; 0x7a6811d5ad3e5966; 0x5b1916f5836cd8b4; 0x6eb2202f62345523; 0x16c800280c0d045c; 0x6ed432a2d648a3a2; 0x21a1808603257e7d; 0x59d780d04eb1db8; 0x7e540e2feac64e03; 0x79bab9b0c468158a; 0x432cc90824ff04aa; 0x7bf6584f22bb1113; 0x75ec1503a1d83dab; 0x3d52a19230ff96f3; 0x622592ba9baa9546; 0x4dd025925669cb02; 0xc4dafdfbc22e1e1; 0x361804b2188174fb; 0x4bb08d60924c6ecf; 0x194bf166ca30042d; 0x11b814acae56bc3c; 0x3587791a6116037c; 0xe927fe61c2a188d; 0x15b8ed6a62cc1806; 0x296ee79364072573; 0x4c27a5dbb34faf0c; 0x7af835608683dcf1; 0x573a4d213dd50352; 0x1a236eede7722522; 0xc4d5f0e440e4c85; 0x56c5b2676407cf39; 0x219dd1a250c450af; 0x7697c2099147bb6a; 0x3dc705365c23472b; 0x1cd1c0758e17854f; 0x617202d170721a6f; 0x6e234974b3a68874; 0x364fb73f5880a801; 0x302c5b132244e282; 0x1e44ada5dbefae7; 0x689df676dc638b9f; 0x4e90502312ed6e2b; 0x1dd7f29a49b0612a; 0x8fbc3d97a6de539; 0x1079f8959632f5cd; 0x28a4d22a39776560; 0x6dedfe7fd436b011; 0x57691e15e1fbb193; 0x230885d74be374d2; 0x7a2b0e0053b1581; 0x406f7b23248b51b0; 0x2cf9f8daf25221b0; 0x5f2693fc3c9f8720; 0x170aff04c2f6378b; 0x295bc68335b332f5; 0x6df80c5c01df5b18; 0x5169d42e779502ba; 0x427dd590d83e9223; 0x276dbb62a5b4fa8b; 0x675c3f3c70f74370; 0x9872c816198b54; 0x7e1196210c7c3815; 0x7e099fbaff0600d0; 0x68518a2ae40594b0; 0x1ca2c368210126a8; 0x60156577eb9ad7be; 0x16ca106d64bf61fc; 0x6c76ea3f9cf4e379; 0x2ed060354b9c782b; 0x62790d5fbfda7abc; 0x199fe03462b48d87; 0x3821c696251c54cd; 0x7b3d4cfdde205d81; 0x39b3c3a778b20f4; 0x5ed051149838b8ed; 0x227d16bf0d0fbc0a; 0x442672edf4f12c1f; 0x55aa2fa853d794b3; 0x6c2476634411df7c; 0xa0ca7f9a636c19f; 0x34aab1bd4240dc3d; 0x1e887ae3b40a45a5; 0x59ad820a144a5bca; 0x23c32a129cf489f0; 0x5ce3140f4cd8e392; 0x7358fd67ab47024d; 0x19d28e33eb40786e; 0x41882c115e913480; 0x58b40ab9299195f3; 0x6271d4a39704e202; 0x623046329e73ab47; 0x60ea38206b73647c; 0x3cc687ddcb670e0c; 0x2df914b0e253e2a1; 0x1c3f9624bfa4d9ae; 0x5a4778024c5b8025; 0xee90a7099b9bef4; 0x647d58bfeb612da9; 0x5fa50d94d0700876; 0x39361430fe1a3831; 0x41010145e24da4ab; 0x2280880a2a8a2880; 0x51101140154000; 0x228228a2202880a; 0x1510505500504010; 0x20802808222aa8; 0x4011015541150140; 0x2a8a08080a80a88a; 0x510450551111045];
   [0x5e267133e5845891; 0x64ea07c0a74d2be4; 0x1fbf298dc61987fb; 0x15a5c8f866e2fefa; 0x7ca480c942274907; 0x2d8099a332eefa4c; 0x67633073b9eb3cbb; 0x1a6bd82ed0da0529; 0x315150160611436c; 0x72c63b3dfe2c47d6; 0x1544fa3aa4c4cbf8; 0x8815fa868160c6b; 0x68a3cb87c1814677; 0x6fcda27bbc9d4f82; 0x5dbf10ff90d7fe25; 0x10a28422093ec9e5; 0x36229e93241e9a42; 0x6f8186d8abb3d862; 0x4d603a7fa8a4d0f4; 0x4e9d4dc689873d38; 0x6f7f702783385b7c; 0x69daa66b12396257; 0x16042c2386ea2b80; 0x34f442909aa66bdb; 0x1dc5e1e9431066c3; 0x258bacd32fee1142; 0xa86604498577b02; 0x2e89990f348e8574; 0x31f8a339d12b60df; 0x3259dec9a3881161; 0x4529cdc82120cd20; 0x320dfabb828d89c; 0x3e6c6745559b5b2a; 0x4c7766fbb6ff8ee6; 0x102a3fb1f23480ce; 0x3d0a08ee9b98686c; 0x5b97e06e01f0dcc5; 0xad053c7f8cef20a; 0x60ca5653aac31a08; 0x139a439bb058c011; 0x6769d0b1969b2da3; 0x248ff9214607a47d; 0x70646f8c222a90bb; 0x72c1916f832642ab; 0x38c5e72c0686e10c; 0x110f6236ef19ebb1; 0x7ed2acf2dcc12351; 0x413f6861a5f2a4ed; 0x11e19116b1dba0be; 0x236a82caabebfddf; 0x2ef9ce5306d0c4e7; 0x3bf62740cfbeaea6; 0x3b73cb4276a8ca4c; 0x77d14ef96b392b85; 0x77a9e8b94754c4a2; 0x682e410801981304; 0xbfd01ce2f63454a; 0x21e35d60b035c432; 0x4413dfd73a43a5b2; 0x22c5ff6df7c63bdd; 0x575da741476b4b53; 0x4059210da3c31b75; 0x6da906bbebc9b572; 0x1fd00a8b66e42e2c; 0x6cc8e93712b78807; 0x3454758e8600b8df; 0x78886f5328dbfd86; 0x1318cae9eae92f77; 0x462dfc0a7d5a6a27; 0x1175c8969f8c5e6a; 0x707923d34c8ba3c0; 0x47ea705512abdecd; 0x488c207777a88655; 0x64c3e124ee5d54a4; 0xcddfc600ab476c1; 0x73746e18bea1c18c; 0xaf33132d7a1ca42; 0x6e575fa10c702bb3; 0x5edf2000e6b06229; 0xa008f1fa0154b22; 0x4015ce97ed1acc0d; 0xad85ab9c79b4475; 0x12b2fedfbca9e459; 0x67dc5ee2602b7bd1; 0x6181ff74f6c81068; 0x2707c10c7c178962; 0x13039819e6b3c61b; 0x1dbc973c3b72f173; 0x2d450650c2b159a5; 0x7f19bcb7ee4797e7; 0x78430d13ad4c619a; 0x4b9ef14cb9dcfc7; 0x6d5f4e110feef95; 0xd28a3f8828d59ef; 0x1eb5b60099ed0653; 0x10fb13af96cabb55; 0x1c7a710d80948cb8; 0x4e8aba239c821cf3; 0x43778160b708a662; 0x3f2b6d775737cb7b; 0x1912b913cf5f97c4; 0xc088fb31b01c429; 0x5b7d31acc41155f1; 0x5388c7938aa9c5ab; 0x6f138ae72a164728; 0x2b8c014387fb1e71; 0x37fdd20b22df7c4a; 0x709998afe8411ce9; 0x4af0caf1239738f5; 0x53495aab87b7c9ce; 0x65bc71bb10eae40d; 0x26e9b40b2e3940; 0xd8e9f98e827ecf8; 0x5b7681b0605eb3ff; 0x2ab5cc0d6612263; 0x1ee1b57cdcb290e3; 0xaddc57bd93bb177; 0x765cb2211045931b; 0x19951d85f3373afd; 0x6c4c2515aaf7e9a3; 0x42f3f2037e40c3c; 0x79c486f326250a61; 0x268b8c724b97f6a0; 0x30f59ca7ed4b0469; 0x145b57ecec5ac03e; 0x57e3579615c45d74; 0x4b5687e72e4c5b08; 0x19c89dfbfaf4924; 0x445acca2c363a029; 0x208fcc056cdb25fa; 0x2bfe5e0027a500d6; 0x1309e24ace15eb2e; 0x35c483f30d280589; 0x7ecce4b81b1da81; 0x35ff97767e0a7ac5; 0x792a0986ece79b16; 0x6b18cfcef9f67d3c; 0x6e0c75c069506b37; 0x6d4561ce6a94e072; 0xdf5276bcd3f56b4; 0x5ec79148bb1a19bc; 0x21a9d3e6c026314a; 0x2237fe7d350e39f1; 0x3402cf26beca0d62; 0x3391957091d33821; 0x701cbef22df6ac9d; 0x19f231168acd7f6a; 0x571bfc1ac10ea238; 0x4245022188ba6c04; 0x26758828f8efb2dc; 0x19222b633fea0488; 0x5377e901149a9a45; 0x450b47db42e57e9a; 0x3d906f3ac5bed175; 0x70e1347adb805a72; 0x4f55ccc9e5c7865d; 0x6356fcac1d751a5; 0x3d7f22bc24cd2fd8; 0xa683ff252c49c54; 0x2ac192478ef8a2bb; 0x57b173b8ba2f491a; 0x6ce972a58d0d91d4; 0x3c66d586a245dcf8; 0x6165797034b7d385; 0x714571c099b24ec1; 0x306f7bd4987ce8a5; 0x5e5bac685678642e; 0x6303224fb19b6ef4; 0x61c23fb51bac6c94; 0x70494a7023efd358; 0x343e828cb5c4dc29; 0x33a0bd0c494540b0; 0x457063ebe30681ff; 0x44bdd7b88ca73693; 0x13a498e584c37f63; 0x5a0855913fd6da50; 0x1861852953e95e68; 0x3d6b573470f2476a; 0x2701be522c9d6c22; 0x25e4b937f7d7fa01; 0x73aa80f643f15780; 0x15dad178648701c8; 0x488e8802ad17f82e; 0x4723cd266ac9434f; 0x584f06cf090d06b9; 0x6f0ec78baa3dc624; 0x6d0b6213809a7ac0; 0x65079a3ce8a7deca; 0x31bd8c7427774494; 0x111f7afdf03fea3f; 0x63c3aa1d6d5880e7; 0x987f9f28b8a4df1; 0x4969fd6ef14c0902; 0x3dd4fbf6eb923038; 0x5c169657c479a56f; 0x66ae937862815bc; 0x98bcbd3cad1d369; 0x13faef7fe9c6e0fa; 0x6d76f37cd1c8cda5; 0x412d32e435f23acf; 0x2f02e6f90791500f; 0x76d1a7d809178a30; 0x6887dd80f33549e0; 0x50a3ba644418fca; 0x62317c9be6f5123f; 0x4c0689694d563bfb; 0x39d2f9cfe67144ac; 0x604f3f3ecbe1fc28; 0x18d7b7589eac3ff8; 0x465b5020757d0593; 0x30d91657744332bd; 0x3aa0f5d956a5e3af; 0x5a0b0eb8ab8cdc46; 0x4d5bfd96a5c1d81; 0x594a616adaa4329b; 0x3c0acf8b9fc0d4fd; 0x348d53d0b53a1c6f; 0x2ef44a4e7cfcb8ad; 0x22b6f835715f8175; 0x5056c9d4eaa4acd4; 0x25ad6b967f33ea35; 0x215e342e597ef8d7; 0x6920ab66a5056d87; 0x42f1fad751cd5de6; 0x6fd3f88ea17a6db0; 0x4f4c7cb682fef45a; 0x8309a918972c0b5; 0x3f14562e1972c629; 0x5d38df7cb7a46c87; 0x202d1640d454992f; 0x609c5c343babe99d; 0x4b81512a0c497b95; 0x569d74357366c91; 0x194c45f41c35cbea; 0x19da9db108f7a14e; 0x7fd8c39690f14bdd; 0x5bd1f41550d83730; 0x41fae9e91868dafa; 0x13b574b3ac6ade32; 0x3c7dcfc9085935a5; 0x63127bf777ba3329; 0x5296d7214624c1ff; 0x1e47b7c3c75f4172; 0x2d750566a4f085f5; 0x3a032cc493c387e9; 0x636d1771527862ad; 0x27273300705b43a3; 0x19831418789374a6; 0x3721c3d2ab24b078; 0x5ee8f6fd1aa1d2b7; 0x1312da2c0f3dfc77; 0x2234ad39908bdeb7; 0x1550c715336b81a8; 0x5864a39b0a6f8d50; 0x763473f33323e334; 0x610559982b0b03e6; 0x6eabfad34424a06e; 0x226a5479b9f0f941; 0xb62b3df9c323510; 0x69fa1e4cb759e1c0; 0x79a22ea86cf84f6f; 0x5355ee58aac7e1f4; 0x725a08a3c5e587dd; 0x59887801eea20e0b; 0x145cb161bd406062; 0x152576e5ac78df62; 0x3a8014cb70be4408; 0x142bb4861c562b34; 0x274dc1b72f1652a5; 0x30dc9387e8c00397; 0x453034ebd26590b1; 0x1563ff750e0d2446; 0x432075a81fe376d6; 0x254ed31c784a63b0; 0x7a27a987adca8096; 0x1c75461143d3b946; 0x41794cacde72d3da; 0x263fb5e7106673b4; 0x1e287870501af619; 0x673dd3fe603e88d3; 0x1ce219196449b009; 0x40efc26c7102277b; 0xc52321019ab277b; 0x6e791b214027c19c; 0x3900286dfcf32b96; 0x119fa606b14fc690; 0x2419d49cf54fc965; 0x75f49083819ed2e9; 0x25323230a4f50838; 0x47487a8536d32043; 0x53accdee62e847c2; 0x49fd41bc03826157; 0x761275dad465201e; 0x4d441cc2ae064209; 0x56271569d9ffc44a; 0x59250d6694ef300a; 0x6430e3e263dc8a71; 0x39a50434f6c51d8d; 0x15f1a44c8b130d9f; 0x2dddf462eebf1dd1; 0x490721f2981b5662; 0x3dd93b7c01c4a3e3; 0x3fd5b6ff9fc7468b; 0x448d261aa5abe1b5; 0xd1a2f37a4ab9893; 0x6f4ec278c3b953d7; 0x4bf5d32fe6b995a4; 0x7e9b3715b7f8ae88; 0x40445050b879b45a; 0x20802a8822a2800a; 0x5010004151110050; 0x28802a200028a80; 0x500551451044541; 0x2aa22a2a222a8a82; 0x1014154100411551; 0xa82a2a2a820208; 0x541450055414545];
   [0x53c8cd0c7f6ad2d3; 0x516512457d22c94b; 0x2e3401bef84f04bb; 0x61b37097125009ed; 0x400b438332a28cf3; 0x1c674c31dbee8888; 0x60807caab5bf647f; 0x31cb81a124e56364; 0x634117853da1e78; 0x1ff665b3ab48e4c1; 0x45e2675ee974cf31; 0x33d982255ec7db50; 0x38f2b1364fbaf13b; 0x24c6db0ef67f3cb8; 0x1cda5a7c19eb1b76; 0x27aa52b833da2979; 0x2f8595b0a8d6ad28; 0x26c13bf077fc90bc; 0x40eabc220080ed82; 0x518ad0048a8129f3; 0xd74614f40a25dc4; 0xee9c95d9be7a0f0; 0x1f73a2c39f409a77; 0x188ba4cca95662b9; 0x6b12abd6fed7503e; 0x108c764177be7ad1; 0x78575080ef9a4d15; 0x4902e6a1cee4e108; 0x4dbe9b350f032ba; 0xf1181658b6cb552; 0x29e289a33aa81919; 0x1365287f702e9b53; 0x4d5792d41290fcaa; 0x7e8ad4837cbfcdc3; 0x68a54279965f52e2; 0x39e221db7f6fbb33; 0x5308e777b68cdbef; 0x31d0cca3de75a5d5; 0x190c818e634cf321; 0x6c6c48cd060c0e8f; 0x18905365ea29d297; 0x7c7a230ffec257c0; 0x2caccf65bf427716; 0x39b2986f7aacc0f5; 0xcaf4e73c87479f; 0x4b582927eb4a00b7; 0xa07bd29d3449432; 0x36b75ce65bf1c9ac; 0x40990080ed030453; 0x25082a04e1658729; 0x75e1a9d7529b2715; 0x6bbbe6e69b9d4db1; 0x4e9cc40bff171112; 0x17a0dbcafe53245c; 0x7d1f7f91d35e1c36; 0x70a04b327bffc60b; 0x167098c8c1140a1a; 0x512451413c31c544; 0x534b6250aa37695a; 0x74c27e7a6f7d6cc8; 0x1967bab46a66f898; 0x6499eb11d30af2e8; 0x461dce35a587e71f; 0x71b9eb291f8b05bb; 0x6eb781353fa3f9ca; 0x69293bca00620ca; 0x21fb27281fbf6dde; 0xede8c1a8926be0; 0x2251a6a5ad5915ff; 0x3f51604429cb2edd; 0x1496cffbfd1b12f9; 0x7643edaa8fd153a9; 0x6b420dfbafe83c4f; 0x591a0f4be3647ac8; 0x630d67604cc276b1; 0x6625ad61851310ae; 0x6477d6f1ecb76bbb; 0x6710799fedbd65af; 0x98fe8f773173183; 0x105b7300995e7bf3; 0x4fb348ade8589d29; 0x1f8c5df411a2fab5; 0x988d7bc93954732; 0x4fffb63d242f5f17; 0x413cac9461787b73; 0x5d0cb6d2c5e0a4a7; 0x4d97f343adbde1d3; 0x1d726643225d3c54; 0x1fc27bb30c696946; 0x2e64a29592fe4ae7; 0x5362ba3d28c308ff; 0x939a05d3e448536; 0x6a4aae5036a1b6b5; 0x5ce0f362e186a60; 0x6d5a0332dc092e46; 0x3678672e8a06b89a; 0x501d3d882d661276; 0x4d44cdba77342f56; 0x501e07ddac3c21e0; 0x17c8f31bb391def4; 0x2bb0417156f98bb8; 0x4c5104a981089ca8; 0x7ceb83b213dd765; 0x36e875c2ddc69adc; 0x7e538ea3fd4087c5; 0x5c65b47cf91754b5; 0x47e69810614ebd12; 0x27ceec31af1b5309; 0xe9ef02c8e50f684; 0x70de6580fff615b7; 0x3b035a0724c3275e; 0x67297fac9332d1de; 0x7dc75938d3db0952; 0x6d0f7d275043fb15; 0x4d745c36177fc16c; 0x4d94688a82802d7b; 0x4fa8ff2780200b32; 0x10ff23ab1b463ea; 0x3f3150a42d92089f; 0x1d055c1508f72e00; 0x754b5d7a26ca61f; 0x406923571a97e3a7; 0x5b914fb8ac051eb3; 0xed5407e4b552da8; 0x4fe3723d9c162f80; 0x55067e0b178d4c0d; 0x46025dac4f0503e5; 0x4a009fe82354bc65; 0x5ba1143955d06d5; 0x2bc9c178ea2f7eb2; 0x71718cf7358abadf; 0x78555a8561f3f944; 0x449df78c836cec1b; 0x4ede04f2abc30430; 0x7f54d8df55e63eaa; 0x7a70d7132b2f44c7; 0x4788871d485d7906; 0x5fd192f14c7d2931; 0x36adec73c7290c56; 0x79510960bc2681a9; 0x4a4bd36ed21482f7; 0x1dafe2ea3043a27f; 0x2558ab1ca3d3b01b; 0x7285b0f50740078; 0x6bea4d3b81890ba5; 0x6aaaf5a6dac85251; 0x5b0bccc29e3a9358; 0x554d5723558df5dc; 0x36d3ce93a1021629; 0x1f1c2659fe805a41; 0x3cbc8dccfef36ee6; 0x40f92aaeb8d0c166; 0x38f705c8f8abe1eb; 0x68ce189a02f32bc0; 0x5b050624e81de9d; 0x4143ae5a4cce6eb6; 0x3d0c5ce50307c48d; 0x23b2b655359fc66f; 0x52d5434a25186a33; 0x3a8856f5cb4fdd6f; 0x63cf7fe94c975258; 0x4579a5e4c34aa135; 0x40ab6909fa971aa2; 0x747050d2175a8661; 0x276c9322c9536135; 0x591b546058d05312; 0x7fcf5bdf10569200; 0x7b7fb8672d5d6a7d; 0x556a5fe598c61b5e; 0x663da70a4835d7b8; 0x4bca73abc3ee24ef; 0xb96d2b62b52595f; 0x4bf822eb232f94b9; 0x64ed243bcdaca674; 0x287c6451f2de5861; 0x70c8a310268505be; 0x4e2f4f75a6fc5b89; 0x7ce009854da74795; 0x117073de91c6229d; 0x1725b8b1d25551f5; 0x7c0a6bf06bf1c5fe; 0x11267742b949b30b; 0x7963524d030490fb; 0x195775436869274; 0x30a513952cfe921a; 0x4b1faa218ab5b02b; 0x6e05e9b8044199dc; 0x7c50e2ae6c79e9ec; 0x7999af19dc254b1b; 0x7ff46eb62a684895; 0x315f419008a22610; 0x36e9f89232640766; 0x20519f30bb430e46; 0x56ffa633dc0b26c7; 0x7df15e2bd3b21dc1; 0x3f465c2c00f85355; 0x57388ba9a138cfc8; 0x44dafc5ce9880459; 0x2831b96d5543b549; 0x117cc4594035465e; 0x4a714d500bd207de; 0x11c8e6cf067ca320; 0x5c1a7786cf6e62ed; 0x69b00771afd22bd4; 0x36d211c2b556b802; 0x1892c83fdfb0ae99; 0x4ecc9619a8de0a7b; 0x5a928e0f41dadf6; 0x84041886997774a; 0x6807143df936b560; 0x7ecead0f14b2495d; 0x21b7471bb7db7f12; 0x60b0275bd81617a5; 0x58185312ac557111; 0x718e03ad58969e6f; 0xc2beefea57c60ee; 0xf827da329b54d5e; 0x2296e7357bab60d0; 0x1cd3d25c571c8987; 0x45219f49382c21d6; 0x17dff14a43166d93; 0x74c0b8016104a7c1; 0x6446474d3e0f75c5; 0x35a17318da481aa; 0x182171b6383f0d26; 0x2a3749eac90cbb92; 0x300fa05e33617ecd; 0x2172dd16135d20cb; 0x164d2bd6fdd2cd2; 0x10881c16e227ada3; 0x569344eb54724e9c; 0x12867ed778c3ad31; 0x3fb08ef264bde13; 0x6b0401cf168a7ace; 0x3feeb21fb61b0418; 0x3cb7e46f135d0e48; 0x74be5333eae29c82; 0x4133a42669c5ee85; 0x683d979a15cd50c6; 0x27b53a1ad6c4143; 0x7e54ab307fec971b; 0x46cc6a4216fe0c08; 0x552b0b11370075d2; 0x6fd9efa01661305; 0x18c9a5213f446486; 0x7cbbd683e69685a4; 0x12ae0f4fc9a0beaa; 0x1381637831963f8f; 0x67c2008c3240788c; 0x2c680b70a28a3dea; 0x475822834770630e; 0x5e52e39c713bd109; 0x5e198ecf94919653; 0x7de149bfbc25e7b6; 0x609154b9d244e19d; 0x559774c4ed5f859f; 0x5dd3b4d1cfe5cf52; 0x66bd94d66fd7c209; 0x7100b830a2f80cb1; 0x2a25f70785d14d30; 0x24ebb3ca9d9e6b5f; 0x6b9b87d3750fd4f8; 0x3cf38aadb94d301c; 0x45e6a623e627c65c; 0x1b0b6970e91d44fe; 0x22aea3ab7fce92e6; 0x36a8fdfb70e17989; 0x5c651f28f3fcfbd7; 0x2dcd2e19293b34f0; 0x5b82841fa0876cee; 0x5120c311c6f86b7d; 0x5a74de0962bb4eeb; 0x47aac7a283bce3c7; 0x31a620d4c528e1b5; 0x2bffa72d52921fa9; 0x35b0a6c6cdf2d7b0; 0x38e66e7f0464f9c5; 0x2104bed52e6fd6b0; 0x414df8d4375c72df; 0x6f4a00bf5ed41f1c; 0x51dd6de1ef1caf8; 0x572955186708265; 0x5d4870df02addcb9; 0x25c7835759c92996; 0x3595531cc58eb35c; 0x7d603e962e38470a; 0x67849795a9ac4fc; 0x72b46a96741315a8; 0x4aa34798e366c283; 0xcf259f51fd96acc; 0x55d261d06bfba538; 0x5ac06b23d43af5b1; 0x16de0ebf3f04fc0b; 0x41d7188665f49d5b; 0x11b5e46dd47f0c43; 0xa4eea950a9bd1d; 0x7a6edbf3dca0686a; 0x259fc5d7e8c432; 0x3f672fc218ffd6d; 0x43717f107a2eeee2; 0x50f25339ab8549ad; 0x438dba39e0b8bfc; 0x5cf76c856a86ad1; 0x21b6364d86325a34; 0x5671a71efcfd7bda; 0x16a5fa35950d9d47; 0x67d833ee2b4c6bcd; 0x523171447e7654e4; 0x50041410362333c9; 0x8aa0a0a08aaa822; 0x5505440411451151; 0x2280002aaa2280; 0x4010115055500514; 0x8a880808082820a; 0x1511151541015150; 0x2a008aaa02022200; 0x111111445010405];
   [0x66580148b3326ed0; 0x7811695b00b649b6; 0x528f9b2d47b9744; 0x1f67e5b6c199d72a; 0x32db62a3647887c8; 0x43bda88361888b76; 0x594edb28bec07204; 0x79d122908aee8de1; 0x2cc8cd2a59ce88dc; 0x67e82b48ea803441; 0x30fc05f422a96997; 0x20e65c0ddc61e42b; 0x7fba4611ce6dd43d; 0x2a6626cbc7652c32; 0x45bb2a35e58733b4; 0x3c521db0495af516; 0x40538ec00fc88a1; 0x53badc88603c68c1; 0x6f518fda79464978; 0x7d0a57ef58b11e27; 0x115d034257fbb054; 0x2c6daf7cbc60d3a8; 0x22544e5c8249dd31; 0x3bf2508fea881e09; 0x4c90f36a3170cbbe; 0x54a0c7672af4213a; 0x6721ac9eeb779c13; 0xa1813693c3617d5; 0x3f949db1ff5e4e06; 0x71a411aebed2b63c; 0x27aa3177c2fd0d3a; 0x4cbf303ac76be889; 0x54f6fe711aa1623f; 0x60650752c106af55; 0x307ce207ec54d4b9; 0xb20fb54196f228c; 0x707c6950fae2a716; 0x3a6c4ede767f383a; 0x396c1ea025dd94e3; 0x765ebf7267986a3; 0x50928c4fbf4d1e3a; 0x7763d2a3b544495d; 0x20e5a6f127ac3578; 0x6f3969aed5106f5e; 0x50e11175492b7b3b; 0x3b11a347073d6a83; 0x279108aad30160ad; 0x7a6ef3fd1621663f; 0x7410d7f0d96f0e79; 0x55bb8cae80a99dd8; 0x33e841eb53a677; 0x225089ad39098447; 0x3de4ace336c29a4d; 0x538506fa503ddc2a; 0x34500e7c08952013; 0x3152387e54c10cda; 0x3c86411cb9306a1; 0x2853c6df6c10cbfa; 0x2d0f50b05ca81bb5; 0x3a147f3d2216c555; 0x416011733c9eea0e; 0x12c7253295a7693b; 0x52937a3975be9929; 0x106142576f01c038; 0x397f2b2ad9a3a5d2; 0x4730942ea3aff232; 0xd06cb5ef7e0b177; 0x37bb535ae96a6cc3; 0x1cb2087f9e2f169c; 0x5e22131c9662bd8d; 0x3257d923c3ab2700; 0x782d0ab6a39743db; 0x70bef75d02c8bd96; 0x43208f8d41ffad; 0x4ce5f4c89a44e6b0; 0x69a7003dcf92ccbb; 0x4f2bdcdcba3e93ce; 0x5c6981cd6c321e80; 0x22745b9e3c6b97a6; 0x2af5f66e85a6c9b7; 0x8b702f6085a146a; 0x58189aa1c770985f; 0x6898c55f7cdb8d74; 0x496cd885cf45874c; 0x29f987eb4a2a5361; 0x20299957c35d5e87; 0x4afc2b6d2c09c92b; 0x125c8c64491e7b5d; 0x2eb0944483f79; 0x7f0f0acaae4d8306; 0x3424cf1f60ab462; 0xf41da57b9a030bd; 0x6e9f84361bcf3b58; 0x1113f31568b42265; 0x1b7f6170d29945c; 0x69b7172d637ba95; 0x7943c35c5f8a8212; 0x5565647fea010619; 0xc50f8d2d9d04f0c; 0x40b116da39a6bb03; 0x2ce59d585733e180; 0x10eca5ab042805ef; 0x45a7932f90c19bf3; 0x3451e18be5cd1cd; 0x60e887229433d63d; 0x4d0d0e6fd94c7c3d; 0x74ae02c994116423; 0x6855026c7f8b238b; 0x637519a8d0d704ee; 0x44ed83f52336b6f4; 0x6f08a6e8cac9a187; 0x6bd2bfcd946de2e4; 0x28cb39ff11000a4e; 0x7b5806e820b8d4e; 0xf6c80f7e0bf2637; 0x29f9c5ee42855b24; 0x301720edae4a69b3; 0x736ee8813389068b; 0x1ef5bc806286242d; 0x18da1e12e3c24658; 0x3e198988a945e29d; 0x6fd625bd94e48513; 0x22f12597c3ec7613; 0x26813f643da465aa; 0x587d283fc433432d; 0x648ea55e4b3aadd1; 0x59eb5c3c8334d148; 0x1f9c08f63444d098; 0x6f10a24bfc5eeee9; 0x710f264136e72afb; 0x2d8ae0fc7dcdd1d5; 0x407c00ef794a7ce0; 0xe5c70df537572bd; 0x5110fae1716c1cb; 0x7f0021413312610f; 0x5865b030d64e7cf6; 0x18dce54620c2c262; 0x75bb3703a911839f; 0x3b09e56157c93cd3; 0x4a0b1ba009654855; 0x2221129f1c1d9559; 0x73c4cbb3218b3ca7; 0x3ec88d7b6b59adfd; 0x68fc6d2ff4330530; 0x6ed638504521e81b; 0x1f155e8a65823b39; 0x670e64fb92350bb4; 0x6502b129fcc39de5; 0x45bbba58b7b9d21e; 0x75e993d32117f045; 0x425b8409381207ee; 0xb7307fab5e65586; 0x595e3f458e3a1280; 0x47cf62e6ba0e62de; 0x1edd277c16795d18; 0x70312219c96f3b8; 0x637e92c5c6d0e32d; 0x2e07420c4bdc6c02; 0x44908a232af485f9; 0x3661c78de4f8d7ba; 0x13c03ff1ce99dd8c; 0x222871c9e631efb1; 0x6d2bd45e777d1cdb; 0x2bc82586bafb0cb1; 0x42f9fc7d04d18d7d; 0x67d569a0cbe490f2; 0x5d2a01d0d5404dee; 0x21b7d9d2a465fe5b; 0x70d0bbb4e6b37b24; 0x61115bdcced60c13; 0x7b27da465c280547; 0x3171be129639bcd7; 0x59ecb8d31b966d7e; 0x48420f2b5df79e3; 0x38f1276201b2b8a8; 0x23c59b43a550b859; 0x62e027c9577f2980; 0x58d405da25a189d8; 0x560a6c018501045a; 0x24fc94384f2d5063; 0x65ac143ef6475073; 0xa3aaea7e2f7edc6; 0x5b50a67a5220b6e8; 0x3f538120351c3e2a; 0x4499a52e53f6a4e8; 0x3267aed1d90db6b6; 0xc5f34847aa1e711; 0x5599bc78ff459779; 0x1afadb1272ca73e3; 0x531d6a89608bc9d9; 0x149f8ddb791f7557; 0x1fdadb0868a7f2f; 0x54dc1dc42bbb7235; 0x74f437b1e0a5ea70; 0x9e1431809464eae; 0x7ae3601acc4389ac; 0x4804aa2fc3b3e8ee; 0x7bd4231e32fc080d; 0x25ac28525dac9beb; 0x41a81442ffe0a0fe; 0x310155bc57b90165; 0x2cf25f0e26c84093; 0x658dc67c49bfd43f; 0x7120b35692fe7534; 0x27e562e654e221c8; 0x74d65f79ff4b27bc; 0x73d322693ef15d8; 0x6cd6bf5621342875; 0x244ed16992c9b5a2; 0x1e78a766acee4dc4; 0x448e46330be2ce3b; 0x27e0cffd1d766647; 0x2e9b7a825d9d449a; 0x3486acb9e00b26a4; 0x1edd7142bc5f5400; 0x7af1ac748f88f137; 0x6bba09100f8eda29; 0x6e48df76ebfd6553; 0x7c996bb767df6ba; 0x47ef8635e76469de; 0x19d8d3b4b81a1ad6; 0xde972e67d36ce5d; 0x279fa8865ab6a057; 0x6c7ca2d8c5c99b38; 0x6a7d96d638326575; 0x182496cf0541953d; 0x57c703e08b213e93; 0x90cd5ac1cd27c4; 0x79ee31a931b0a151; 0x5f4021e6d529b6db; 0x33c9258aa7ebbb48; 0x5e481ea2611a16e; 0x184d1d4f85ab151c; 0x3363b6bc3c6c084f; 0x3752f1a6296cb11c; 0x5a88db9714868248; 0x141ad02d53416de2; 0x1257be7419b8fcdc; 0x37948b89d83d889c; 0x2aa65139f93de7eb; 0xe74dbf23f9ec078; 0x35e95f7da9a5363b; 0x81b7a7a93ac6a35; 0x5b6179d599bf5e52; 0x3e0c5a2ac7ce23d2; 0x5bb62e5ae2bb24ea; 0x12d4af778498524d; 0x4d9a01c017bd84c4; 0x5489178eec72f2b8; 0x4ce33e7907ad6a69; 0x24efe9473a51c792; 0x8044445195e6e08; 0x7cc243c28e040801; 0x2c60c8a9f3db282d; 0x55d62293b89a1838; 0x427acc718a520051; 0x6dae53fb89481d04; 0x35e07b450810c3c4; 0x68738cd2fb094cd8; 0x3cb49bc681160b30; 0x3a80e10aaee38bbd; 0x3ed239bfa190b3db; 0x68d4e439fda8428a; 0x953306167bee566; 0x61b8c4ca6b26d7cf; 0x4832c41787fe2250; 0x729640a7ca6060f9; 0x324270fbf7a8718d; 0x4bed71621f2176a6; 0x3b46e35c6ab836c; 0x5899245cf2d27dad; 0xfd76f65a03c27d0; 0xe5b7ec0289d0f85; 0x2cacd622e5d5cfe3; 0x6aad58b4cbc1be6d; 0x7136ffbb09475eec; 0x24e209a676acbeff; 0x324d0e2b5e29d3e4; 0x7826a35259b97b0e; 0x5e6b0fabbd23efcb; 0x2df062b82661eb3a; 0x42058245d72afb27; 0x57e651fe194358a9; 0x304094e84047138; 0x4e21f2d8573504e8; 0x5dc6dd7c7bf4e6fe; 0x4eb8c876a539fefe; 0x3857812e4667083f; 0x1d6669973ab88af4; 0x773466f7fcb69046; 0x5d0d2fb5c69df3e; 0x2e75d14b164d852f; 0x5c136b7b36c1af4e; 0x23a45723de1aaa64; 0x76b7dfa7ed894ad1; 0x1de1808044a045e9; 0x642cb2dcec41e05a; 0x3cbdf34aa83c1001; 0x3010d5e1c43ebf54; 0x2bec1a260f8b9528; 0x67ac6bb36f2e8774; 0x578598b4a304d9f4; 0xfd35b60b790bff9; 0x11cc528a8aea635d; 0x365e06c9fac41e8f; 0x6f3a66e57970c334; 0x4c2a83b9972e1871; 0x430b351a1c7c6ad0; 0x50115544b9ee455f; 0xaa22a28a828a8a8; 0x4501140105450114; 0x2222020aaa22828a; 0x4404550441004150; 0x2a0a280a20822028; 0x514101514111511; 0xa00280a8a2a282; 0x545500054104504];
   [0x115f8f24f4757af4; 0x4c731e1d4fb28acf; 0x70f8431d5e96aef9; 0x5006b7bfe30428ce; 0x496de2ade776e2af; 0x304240a61805ce25; 0x53eebaf0b39154fa; 0x776db502a97b04a7; 0x5e733fcb458f3d7b; 0x403f3c7fecc913b2; 0x30db73fa71c77301; 0x6db7d39016d8eaa4; 0x3218e6dfe08ab0e9; 0x7711316fbc1fc0cc; 0x502b8e20e67348d3; 0x582cf709177bb565; 0x20211df836f59cd7; 0x3e70076bafb389c9; 0x47bd5a4b023eb297; 0x1a4c69840973f63d; 0x1994787eea85115d; 0x2b60f365e7a55020; 0x1094cbdfb2d8d292; 0x31c1b639af8c2ef5; 0x132b3d6a898f08da; 0x3044e8bcc6f08cf9; 0x477f6f451920fd4; 0x2b0906701eae6912; 0x2261ec5715a51f31; 0x74d9b2ef8411b01c; 0x45e813c5bd7ca218; 0x50c1fed4550ed757; 0x3f37170d2fb44771; 0x7f811e351e1709ad; 0x1f80daa56aeecb1a; 0x5713bb93f54d5fce; 0x5a0072fa480329e; 0x1cfb54e4c0bcc90e; 0x4f134b57e7ecf7f7; 0x237508f5548b510a; 0x45b097c37f1a86b3; 0xdb0de7006b1e41b; 0x1b74404cfa500dfa; 0x3a5c00cabfc33ae2; 0x6123b16779454aa2; 0x7b28aa2de8e7cdd4; 0x6dc0a519a8d95a67; 0x41cbc4c54f40dd07; 0xd53fec00039b15; 0xdb11fcacbc8cd86; 0x27821e710e50dd1f; 0x26009be8cff80f18; 0x3d04ee602d51e52; 0x526e706ac8fdc330; 0x3d4eea7546e11995; 0x2c204d2ce109552d; 0x20856972db98e2df; 0x6e9af1284e675831; 0x40a187ca6a613d4b; 0x28b9443fdee23e07; 0x4982a595f8be389f; 0xd502aa371533267; 0x1e2b74f9a0227b10; 0x51d53e0c397caa10; 0x3d5ebf7e120894da; 0x43251ef42a8fd987; 0x2fac2bb2d061ab47; 0x6478f1d15473aacd; 0x588e06eea8a5817d; 0xfad0d7ccb052244; 0x4ab6941709c6e13f; 0x123e33228111f159; 0x27e6ee132ddf5e0a; 0x75e31bdb84e60e48; 0x1d94f82dccf283ca; 0x4472cd64fc785903; 0x6e2f2ecb4408ad7e; 0x11278c32502759dc; 0x58a3db304f4e0dd6; 0xed835de1c21228f; 0x3478724efdb43f44; 0x459c9b09e30a59c1; 0x4c68736a0e69dc1c; 0x77a4f0bc1b72d6fe; 0xe227c4e140bfd5e; 0x279fc31cf663e964; 0x5086c23000e4467b; 0x5127fd3d5e2c85cb; 0x2920289fdce929d; 0x5187ae92fb55e866; 0x6ace0c5d800bf372; 0x549726af717b99b0; 0x5a5c5951d44d9293; 0x534ea70f60010f27; 0x1ad3bd2b2823a27a; 0x140deb1e40d30159; 0x7017aac06cb5756c; 0x720fa9212ba6dab9; 0x462fb7e603e99c90; 0x2a83fa7d39b1d8a0; 0x5edb1a5233188a38; 0x78ca315558da7e2c; 0x3ebbccfebb323305; 0x4909663c143eb3bd; 0x65c1b73d685e6ebd; 0x74298b2774da49c2; 0x1acb504de372b283; 0x4a3646bf5dd79ada; 0x14b38e2cae103a7e; 0x63a8065cbf8008b7; 0x233319e7dad173ed; 0x20890900019b55cd; 0x5736890d74b36c54; 0x7f2a6a9655db8775; 0x5264fa5198d67282; 0x6ce063bc183ef6a8; 0x5d87d25cf0a78146; 0x4b2bad4da8eea288; 0x21ef29714771d774; 0x368e48044eb2928e; 0x7113ca3f7fdecac; 0x768c6c4a71223f2e; 0x43ba35e8e988dd39; 0x10997fdbbadcde87; 0x58f00648f5af4bc4; 0x557d9094474ae608; 0x68ae0cab5946aa29; 0x43c74ddc3f3ba2af; 0x1bf1c917730e9858; 0x2833f3405cd36e4a; 0x2ccc653c63c9df67; 0x35eeeda9879c5b3; 0x6562f9d00e83667b; 0x63b1d97b1fc9023e; 0x5cacd5c0f4a0352a; 0x132a737a08b62c0e; 0x3eb7986d67f50b63; 0x9bfe719841d6706; 0x382fcc1823ff58a1; 0x478673d6847a7672; 0x2aea1aaf65cf4a95; 0x7e3e8b9cc1334f80; 0x31c0246f20e54315; 0x3d7f765b66ac60e8; 0x2c402bc3b8a030d4; 0x6d1b8469fe19fe8; 0x2e5f790ec39e51c5; 0x7d82b179ca47d8d9; 0x3359ff012434268c; 0xab8d8bcf4c6be2e; 0x5af1613dd8810c9f; 0x5ff9979035da34e9; 0xf314ed17c5a9637; 0x2524706e7cdda85d; 0x6344ab03a0bd2442; 0xc5843fea5708b91; 0x17b6dcdb1f7a8d01; 0x2ef13522ca460e51; 0x58bf251882c5558; 0x4b804e07da1807fc; 0x64802b6ebbf6a3bd; 0x3e0a26ba14ed3693; 0x52c2e75e22f4bb37; 0x3df183cf948fbd32; 0x47621d85be86e0; 0x67a756e81e5e6e61; 0x46dbc9cb47654ea1; 0x68eff998c05c4b9e; 0x14628ae63bae8754; 0x2246476a7ff5c8a4; 0x3acc200bb732d73b; 0x53c8dd33026ba92f; 0x67d3e315fce62b59; 0x2346e827c923d1a9; 0x234fd089de55898f; 0x7b99551c18f11d9c; 0x7baff08542844a35; 0x20a47e6336c0494; 0x36dea87b125ab866; 0x24ca677cf4562687; 0x6c26837c5110d8ea; 0x852cae2a9d30b02; 0x42af10c38e7b372c; 0x4499eb0d22d043f3; 0x4410e43dfea17e00; 0x79a622ded08ffdab; 0x412c1d452ccd222f; 0x499968ef832b8cb3; 0x9dbab8ce6881f9a; 0x2755915054442c06; 0x258b1e671748ba03; 0x2301f2f478a0eabd; 0x36bef726d626c938; 0x176ebc8093065bb; 0x24cd28656651e1bc; 0x19d8c6fe87555c7a; 0x40d055ef1887d228; 0x3aaed10284f5c84a; 0x35f5242d27653bcf; 0x6d4de29fa88ec1a9; 0x59a60e27c7d20e6a; 0x796f18d5129bc63c; 0x261fcc9efa12e1bd; 0xe37b3a38fd74f36; 0x216cda9356a45b36; 0x53573e58f2c767a6; 0x7b8bed12f504146d; 0x28a7815a74a00f44; 0x747fc53539cc1129; 0x6a6b268e1cbfc921; 0x56eb37812eb16867; 0x1097cf4fc16a5fb6; 0x12f81cfdac9c7e1; 0x21332ca33c7ba474; 0x16a9bf9cace2e0ce; 0x5ba416bab726d091; 0x70765a924d2ef4d4; 0x686fb5f8b0e4bcec; 0x7c3b3c6e63dd10cf; 0x1fed8234d630b54c; 0x13b3363b6db828bb; 0x2e0eec8b58b1c5e3; 0x6bdb0dd05a4c61ba; 0x6120bd54eee319ec; 0x4e1584288204f4dc; 0x53f150f18a4bbf8b; 0x3ee84eddab37252f; 0x32718739e434c96c; 0x3a606e70d419e9b3; 0x5b7b6ac73e79a808; 0x3b464b94657ac73b; 0x390691daca24d8d0; 0x7a1f7d698a1591e0; 0x264122bc792841be; 0x32aa7dbae157e42b; 0x4bf4340a7d84bd1e; 0x62b511861ac5d56d; 0x65b2c3f2194f0feb; 0x12f593ef15efd746; 0x642af83d67e47e54; 0x5d45c1f57ab579d4; 0xd562c343d51644f; 0x70c3d8faa299ab93; 0x13a4d366a85d7e68; 0x4b176da6d79c7419; 0x2e29fa23372a8db8; 0x7c8b13675bfe1f61; 0x3703121267604b9e; 0x2ed2ad8c07c32c28; 0x29c33778f9a7c119; 0x319307fd077ef30c; 0x15eb35d83b2f13fc; 0xfdd7c0b2ba15ec6; 0x7533e7e4b19e126; 0x73606cdedefbc467; 0x6c87e1a27f0426f5; 0x1643f7133a7f2996; 0x1feeccb43b14fa0e; 0x6df1b2cb8e398932; 0x21fd5bdf30053ba4; 0x30018876f700d4f1; 0x1bb30fd58c1b9d7f; 0x35b7a0e7266730d; 0x198f8ff72e3e00bb; 0x123b807e053b3459; 0x9f71e889591e46d; 0x6c5cbb1ac0ff1b04; 0x4ec03e0e96a9af88; 0x624221c12258d5c9; 0x1c5585a4e8b4b643; 0xf41be5f3758c5fe; 0x77279cdef699041d; 0x267abfb6ac09fc1a; 0x1c382549e55f8c2d; 0x19cbdc0798544ade; 0x264e15ed78e05398; 0x3ffd3a53686b9e75; 0x244258ebdb1cbaa; 0x652e2b304a67bcdf; 0x71aead6f8dee6e6c; 0x64bf7bbdc33c9853; 0x45212eed58751326; 0xe038cafd9b39a31; 0x6935b2b93e57c922; 0x71188b3754d4c040; 0x344258f93a236bf7; 0x29f0da94c5c5ec27; 0x4a721f43eb46d2a; 0x312c27956002f8c4; 0x59abeeb0538600fc; 0x2781b85824469068; 0x94f1c7d54722978; 0x468875998ef07765; 0x218bf8f9d0bfa219; 0x424c4d681a8d3b4c; 0x61bed598f2dad919; 0x52dd8052a30a4c7a; 0x711666b600a336a; 0x70e696c5926b4a10; 0x156b13aae7225b72; 0x6dfaa82427463e42; 0x7afe7be4f5b4b059; 0xb7bbdb6ca4c390f; 0x608acd4058d290d4; 0x44ad869b26ee8622; 0x24c0f46e7f163004; 0xbcbf7a2a852840f; 0xcf87eb8cffd8c58; 0x41404445d564318e; 0x20082a2200a088a2; 0x4010011551400145; 0x22aa8a0a8aa08aa2; 0x515415451440145; 0x202a80800a020022; 0x5515000455544555; 0xa082a08aa200a28; 0x401010450454551];
   [0x360e3145feb5ed2e; 0x2f05cb0bb329e7e7; 0x55c21857ab50027a; 0xa5a2047e0a9802b; 0x5f6b0a669494060e; 0x54db668c91c7402e; 0x4008d72f21ca04; 0x23e345e5e856af4c; 0x6ec7242b95c12539; 0x7ad7be62ff1f3b06; 0x647576f952da591d; 0x5f05a928c73b2be5; 0x40297199f6a536; 0x638605cc37e52956; 0x18058d0e09e99b5f; 0x48d13c0a2c2ecb56; 0x3f4ef34761691aee; 0x30f16a0de9f3dab; 0x7bd6de1d1b103e2b; 0x1d5ef4948abb402a; 0x14244a1f62bfe2ba; 0x31403481b251d66; 0x52c5d8424802cea5; 0x2e539b3748f37202; 0x6cfcf913e43e5431; 0x5d1bf235b05ceb8b; 0x927806308972b3b; 0x5b4f40c5680006b; 0x423df45ea143474b; 0x5c12fea34c791eb2; 0x3a835edce4a8e350; 0x70dd32def8375808; 0x665bf18195b9146d; 0x3113b9e2a08da1c0; 0x65deb2cf5fc845f1; 0xbc15da6e7a0b340; 0x6101c33e4ca1bc5a; 0x438ff68fd022151e; 0x548e91b9ee3f9af9; 0x6ead7294ac0b9f12; 0x2e7fd1a223267a17; 0x42ed0363d8940222; 0x426652cfdd950909; 0xa3701f8fa177911; 0xbe97b11111dd54b; 0x3a4ba80e6c0f4069; 0x9628254e56257ba; 0x2ab508a6143a07e0; 0x39fb1ac89d7aec1b; 0x643a4d1799fe596b; 0x54b4def626a8643; 0x495d616c59d53320; 0x56bbb9891ee1e1cd; 0x6da9089a6a3b73d; 0x506a505f75a8fdfd; 0x4cd2b93275209807; 0x6632f846c2a3c64a; 0x1aa1a05b2a6f89d7; 0x5104c6212ceb1ff; 0x1137a7f623e1172c; 0x4fef549e0bd4ba51; 0xa568a65b6ccb2fd; 0x3fb6d047732f2b54; 0x2f29961d6531bd0a; 0x32c3a879b5f07b03; 0x127fee18de5aaaa5; 0x46fd06483bc871e5; 0x7a492bffe323219; 0x1c89ca5a0c27211a; 0x43b1df556b86bb22; 0x7aae16186c78dda3; 0x250fbbea74ae4ee9; 0x4240a654d876874b; 0x5ab5d727a8d52862; 0x4a95bbf875e6de7c; 0x294a7c1860c0a1e2; 0x30870afbe872aa2c; 0x1e84c6389257a48d; 0x47bbe77255e3b739; 0x3698df379110e854; 0x7aa8c1a2fc0e7a68; 0x7a022e18edf4f268; 0x4ee9eaa14076706a; 0x38e729f8cdac8e57; 0x1153676273688d56; 0x34aaa39d62eb3b35; 0x99643cb97dc9554; 0x6db59fc4774d5518; 0x18405cd793639f27; 0x550362a6382b8b03; 0x1df07150056b4210; 0x66e54df54e6a697a; 0x2bf7b235733c24a9; 0x7ed5948c62e9a540; 0x2cd1277eec6b953c; 0x69a5a9bbae3f9ee; 0x967205ac721d6c3; 0x1e98540cc8066e8a; 0x712b92a0933a3c26; 0xce821c5dceb8522; 0x7fcb43bd7c6fbad8; 0x3e777d53931c52b8; 0x2d10a7fd848702af; 0x3063721c6bc1db9e; 0x24694496856b192e; 0x73ba7f94fc5b9fa2; 0x2bad99d0da3682e; 0x3de6d985e37958e0; 0x40f45a3f96a876e5; 0x7038d7cd7d99c8ff; 0x73fc5e92853796bb; 0x28707e75939cd03e; 0x281a8f0aa5e8f59f; 0x1dd3f2a8cffcfe7f; 0x3afd99bf36bfdb8; 0x517d51bf0c7b91be; 0x3659b3fdab295812; 0x374b3e05468b1343; 0x56271529d44a9c09; 0x751ad8aad5e86f6b; 0x7aeba915417f25b1; 0x70a8883b500d6dff; 0x24a41e3f80f5c11c; 0xa34952a3524277c; 0x1f2e17f6d8da45b8; 0x11f84e50ec134843; 0x18e5dc47091f5b68; 0x80163b2464ff1db; 0x6c6850d8a4fc120d; 0x7607fc00912b9b74; 0x643202fc6c5da785; 0x73ae3a7643a51046; 0x736b77346f0f4ff3; 0x257bf24c07f7429c; 0xb9711992839c63b; 0x525a1539fe7aab4; 0x34611bdc213a0649; 0x6a0f8138e0c4ed1f; 0x686097676be1948d; 0x53f7e132522855d7; 0xc4662856f2d9c15; 0x1092445139a740a0; 0x60cd11a4a068ad18; 0x742549ec2eee4403; 0x377fafc17e28e5dd; 0xea8d3ec7cbb157c; 0x5d219ca4ea0850d6; 0x745515f5ce1612de; 0x49b5591c52344cab; 0x32dddfd761ceba61; 0x7c0c5b1156c314c5; 0x6f5f1139b0c7d972; 0x20b73ac8435d3d30; 0x1752e2153db04464; 0x1e12b999686c89e5; 0x7c2fc824d8a774fe; 0x3f9ed4ea1bd0feb7; 0x7f1f9c9b6a9533ff; 0x2617e9cfacc37870; 0x9ebbdb4a6a9015c; 0x5295121b43d5d999; 0x84981d45433e610; 0x3132f98caee4257e; 0x64ce8c109c2418ab; 0x2a89eb4b91405422; 0x43a482c8d5428dee; 0x4f9f862674393667; 0x58e4af77b19c37c0; 0x3573774d8cb705e2; 0x69912e20cff14ff1; 0x91935d2eb3c4e88; 0x5481b3206f11f608; 0x7a50fb20440f23e2; 0x3ac41560678ea878; 0x2cfb4d80eaba5cd3; 0x4a650058d0f77eec; 0x5f4c12ca26cea1f9; 0x3a93f34a311c3aef; 0x5ba8e1fc2b0bb471; 0x4dd145da6e17ee96; 0x4bf0b1a3c14e801; 0x7daac45223c992f1; 0x7ff70845cd847c6f; 0x5dd83d3746d79a03; 0x2ee9deb72989f0ce; 0x7d9df09f2f1a600f; 0x52b650c23dd10583; 0x703f9c6448d19830; 0x2c91a54eca903287; 0x148441be531553de; 0x4128328836c8223e; 0x58db8071fdf81c49; 0x8dae57e92f018fa; 0x8ea0664d266f934; 0x32c7a36d87661231; 0x17fbd4e443bab965; 0x15005fb2ed991116; 0x95d0fcec8c38f03; 0x3ed56c84515f2c18; 0x2fee2a57dbe23b6a; 0x3c56bde03125f61d; 0x269178eb2255009e; 0x642e82907ce7c65c; 0xbb5e07da29e263e; 0x108ac618c8ce8613; 0x5eb960eaf5d52942; 0x47af412a34d58830; 0x40de8ac042605e25; 0x42e16d2136766c45; 0x3c77954fa9df6e5; 0x50cdbbc20c7424d5; 0x6052da7fb033857f; 0x6f14f42b41109e11; 0x32890a1729d4559d; 0x46681498288e6612; 0x165644a743ffe8e2; 0xff5cd68615dc05f; 0x678652ef2518166a; 0x7a5d4219f59ba2d6; 0x2b4130f24f2e3b11; 0x42c90b98a27fd423; 0x749b780707e91dff; 0xb6a36f0cebe70c8; 0x57191d0c0aed8f11; 0x77d2e8e1496d423c; 0x4d0d9885c190f40; 0x12ceb85fe12529d9; 0x45859c9584476ef6; 0x41a387a84cd5faff; 0x6ad52cb391e454b; 0x3d37add61d467b15; 0x27f00e20c41ceb9f; 0xc3fcdc93f7f4dd0; 0x452a72034a8db1ce; 0x2ca683a4a34e4cf0; 0x32b9f1cae0bfd6e3; 0x781fdef0ade7bd1c; 0x171d1eecf1846431; 0x75f85614f704d015; 0x7fa035cbd119806e; 0x3bcbfc8825c0e0da; 0x6e79a6f5f3ba069c; 0x122b6c2247b28d52; 0x176722bd38d6719; 0x25bad7370604dd65; 0x41da4929d5b269c7; 0xac648e5a5b0a574; 0x3eaf8c1e95732743; 0x6a50b3a9250bc71d; 0x40e566f05d6ff0df; 0x35614181295bab9d; 0x13a107e1f301ba1e; 0x39332fed46992c6b; 0x527a1164b74d1e7d; 0x1457349be77cabf5; 0x7defaa7a05d24c34; 0x74b809fa5d2a6a05; 0x3b83398eb03acb82; 0x6ca6a937e0636d16; 0x1905ddb895cfa465; 0x51e85168c8127c5e; 0xd9a643c5740bf51; 0x34e5a8d1db18ceca; 0x5fa48cfebe2d5ac7; 0x56a46ce2c373e907; 0xbbb0648cf95ff51; 0x791df0393698035f; 0x7b7877536e6d7a9; 0x24f3ead5746e15ca; 0x269ae943e95e89b; 0x487fc96f5a18b10a; 0x696f957837dc1692; 0x3a187a2432d7b539; 0x3eb28487535da0af; 0x4f3180ae6873d349; 0x77c16ade0d1d6c4e; 0x37eed985c02bff5e; 0x3d05da0f0c348da8; 0x5712c338041b8935; 0x30c4d5cc219745aa; 0x797b370beaae84cc; 0x47240f0cc7d053be; 0x10c099ba244b3536; 0x745eca54a69fc588; 0x7a9deee808d18cab; 0x747900fb48eff60c; 0x2b3d89e128ced3de; 0x9101439509b7253; 0x5a55c911f3bc6e72; 0x7f2855346a8ef9ec; 0x29c94ddd5ee44276; 0x4bd68d7850a4b7a0; 0x4597ccef1c863166; 0x7ecfe2bdcd1c094e; 0x3f975653e6d58c32; 0x3c09be7de18d047; 0x37e5c3bc76aa3fe4; 0x2eae71225de0b82f; 0x5c783f7058f63513; 0x2615dc9c114f7d1e; 0x25d85a6d9db99d68; 0x7da8ad3bac865116; 0x29d8d79aec6e9f54; 0x79159dcd93d380e4; 0x5a165468ed8332d4; 0x39a555cb680c922c; 0x36faec6ad644b1ff; 0x27682635e53131c1; 0x5115410152b95f6d; 0x2008a8a08aa8888a; 0x4510404044541110; 0x828a8800020aaa0; 0x150110040104050; 0xaaa2288822a0088; 0x5145050114441410; 0x28a28a2a028020a8; 0x15405140540115];
   [0x5bd1bd38b1456186; 0x56fb0df1b97810a1; 0x51f1fe4bc16dd410; 0x3327fbfa8f0d557c; 0x6c85d619936d3958; 0x520cce1551b0f3e9; 0x71df40a3fd5208bc; 0x18c7f5e98f01949f; 0x13a48c0c653a0ecf; 0x3f94a4cb4d2a60e3; 0x68e69a65a6b7cbf8; 0x38e6530c9343cdaa; 0x5892fe61b28e0614; 0x7ab79169bb458e48; 0x4dafa3ccdfcea39d; 0x1fb4a4bbf6a96446; 0x1b164d5d715a9af3; 0x5edb3bc06b94957a; 0x2855cfd33fe81500; 0x81a93fd9a360fa; 0x6388afa5a9a36a6d; 0x338213fc47960a40; 0x377ba24e6239e4db; 0x40e408bacac34593; 0x563ee5ec77ddcee7; 0x3681f5badfdb67ac; 0x6dab13d6e0d96fd5; 0x4822f1cd150e16a7; 0x459a52b537835408; 0x8c104da4e09fabe; 0x742b81ae7c3bf7e4; 0x49139b7bb865d103; 0x63a5c84fe3ca8f89; 0x5ee0e82e261f815; 0x14d48a8bd83781c1; 0x250ca43563e38ed2; 0x684a40d54769d9b4; 0x39c7239aa04c6270; 0x361d02dbb6acd289; 0x60024ddf4e84c699; 0x15b084d208b028e7; 0x79c7b3f9f625c0c2; 0x6a3678e5b20f8282; 0x7f2746e16990980e; 0x1f0236a87ddab49b; 0x2a1966723e524ef8; 0x78b718ffa2cf707c; 0x67f379b65cb6644e; 0x605c23eb28d1f94a; 0x7901755122e35ad; 0x7d46df021f78f591; 0x4ca023c815dc2f90; 0x3e8677f7d3e3ddc5; 0x5653b333ce182199; 0x22e37c1a5bf31a9f; 0x2db8cc643f1b3b74; 0x7da43a735b0cc4dd; 0x7319fee516766a1e; 0x7f97c74e7f2b2072; 0x49920988fdfeebe2; 0x7a8db29d7a3a2e14; 0x652bb207c67901bd; 0x1d914a16a23f7bd1; 0x45dcfcc016c19f10; 0x461c2f2ea245a25f; 0x5afc2db9d7455d86; 0x49cc6041c38c5b33; 0x68f74e713c8cc726; 0x62df6ac8ac29e90; 0x31b5fb28ff92e986; 0x72e019189396ee6a; 0x2ead1006cd88b2d3; 0x7e5697a95abc43b4; 0x38a24ed4de87802e; 0x680a856692a996c0; 0x617941e342a68b34; 0x1eaf9aa017cac64; 0xc12d2247dcf6f31; 0x7edd0a2f429a10d; 0x43dc30cc45150f77; 0x7e1ab4606109b8bf; 0x51108fcb1f8618eb; 0xd3dd3aea3dbcdde; 0x6da838b05c0323b1; 0xebf3a545cfc19ff; 0x196060e75a9157e5; 0x1c81fb22b996d24b; 0x236eb5c448178d4b; 0x726053a66190090a; 0x53b46e71e0560fc6; 0x1586e926556de340; 0x697cfd05b118f588; 0x7a5925709814ccf6; 0x510ee90d81d40926; 0x298ad84861f6de2; 0x2e75ab745d853ff8; 0x412369d9b1b30e8f; 0x43d2c2416d349562; 0x22731031fa71e215; 0x696132f25d8f02c4; 0x36bbe13c9d248665; 0x61893accb14972be; 0x68dff58a79dcdf36; 0x3376da1f397550dc; 0xedc1892221fe686; 0x598496f86c37d8d1; 0x18466f008fbeb5a5; 0x37b1c92498ecdbd5; 0x2e396bb03a3c64ac; 0x695fff6cd2a63071; 0x53a06e42e1efe2cd; 0x62aa1ad04289526c; 0x24a6fb9a732301a2; 0x6b00d57909bf2c34; 0x328a8a28a1fe74bf; 0x17d5c20f7871ce29; 0xa9c295acaa8c911; 0x6917186a9830104e; 0x498307fb526327cb; 0x36194b69b07c2f09; 0x46579a82a5ec44b8; 0x1cc135dce2490ab6; 0x393ab6fd8c617446; 0x5a94290114f0246d; 0x2882d16bc5cde3c9; 0x48f9806d92c58da2; 0x2f1e2782e7ad0e50; 0x4729a33d11d94415; 0x279d3536997fecae; 0x387c47e5df47c404; 0x2279da5af9689368; 0x67b801f04199a92c; 0x359a684523e63594; 0x13a9f5013ac2bdfc; 0x44749a3f279d439; 0x424edff5b80a7563; 0x214740b38d3baeef; 0x34806890645b3fa; 0xacddb9d1174cabe; 0x23b7b12027359ca; 0x69421736bb934316; 0x60a6215b62edbfbe; 0x358095b77df8ba62; 0x7c6c5c5475f8a063; 0x7a68c4970f53e9ec; 0x6e5864069cd7465f; 0xdb2c8b63ad99547; 0x11b4afade4fc67c8; 0x32fd3bd56b5603; 0x2075b4e73b2094a9; 0x17ff2ae1c5acbfb; 0x50042721beffac39; 0x3bf1dc92307dba2b; 0x58a0fa2ab5d29815; 0x60dfe400d7015847; 0x657f5341659af20a; 0x5a88fb5eaae775ec; 0x55a8fb642958fe79; 0x932b60206d8e72e; 0x386c720a38a7e701; 0x6599c6ba011e9ce0; 0x717bef33f7861c9d; 0x2dc960ae6b199d34; 0x62e8ad75d1b9e6c5; 0x155b9b025407a101; 0x73952530a38ab44f; 0x47ee46543575a1e2; 0x335d5dfffb978f1; 0x53556a19dc89ae6; 0x74fbca7a21e51aa1; 0x7d569d9b54286115; 0x649f75c87bbb72ff; 0x1ef712a630d7f9d0; 0x5c48c6e5c3c4a63a; 0x5601c735048908c; 0xa91554dd1d883bb; 0x2e66b70ae9b02500; 0x140316ac195630d1; 0x4bd63bd0b423d973; 0x2cf16bd30b40fc6c; 0x6020a1e65d640f8d; 0x79de3298d5e67d4a; 0x7abff233b9c102d9; 0x4e9e0c20af7e0cae; 0x700e41065eba9924; 0x5cda9a7b3bd33878; 0x70fa7cf8c5f3ed86; 0x3a387b27f8940132; 0x682c75fc7547e494; 0x57b56c9344178562; 0x2114c3fa01429f70; 0x1f5ab3ec80d4952b; 0x2db31094d2ca0b9; 0x56d03346997dcd2; 0x62d20edbba30b836; 0x11b34d88f179d27b; 0x173f80b2cedace8; 0x765003a755028cb3; 0x72ee689a6dc167d0; 0x7029d81a77877824; 0x60c2a6f908cfc28e; 0x12fce4d03811c7e7; 0x8508864db91e787; 0x59ec4b7407734d61; 0x108a814bd3afa08a; 0x1fb832b8ced2ceb7; 0x4bfb8dd8cb578875; 0x220c05372d248252; 0x549434b0789233b3; 0x6b87daeed331143f; 0x1c9153247198f5de; 0x39f15c656618df5; 0x39c3864622bd2ed0; 0x71012cc76fab5251; 0x2de89b24a785146c; 0x4bdd49aac0178d98; 0x10852e969af9c1e4; 0x274fef4104d285e2; 0x46809bb6107a8e99; 0x738cd1a169bc575b; 0x31778785c5f10bf4; 0x54136b3e1a416a32; 0x283eceffabcb96b0; 0x5d87663d4ce25efd; 0x7d24dd6f41ebcc6e; 0x253a435a171fa242; 0x5caf068db6d96e6f; 0x6d59c1a29d2dfde5; 0x2a32fbc398d6a231; 0x51658b5817dd0b3a; 0x17e378f15232d7e8; 0x7748eb67a27e7bc1; 0x7653bfbe60d2ce51; 0x5b425a646103076c; 0x7a603d881169e94b; 0x2060a2281288e103; 0x58916f9d6464b4ff; 0xd3e002b5c1f09d; 0x6f776c4d6d9c253e; 0x41267339497625b9; 0x45ac6212b5f02874; 0x1b49e074359e472a; 0x6c527a2ecba6f142; 0x4b15fd5d37ae0db8; 0x1832c4a46eee0a7; 0x3f2125dd7265e737; 0x6b2749eb4246a75d; 0x19da414b93a51e95; 0x1db27c6c5d0c136; 0x413b04bc08800129; 0x5c96c79e7375df90; 0x2518e8e687cc460; 0x4b6b6add90b849bf; 0x780e524e8ccbec52; 0xbe455ee1c3de4a3; 0x3123e97b382f0315; 0x64eb35d5dbce528d; 0x3c89861e6b676ab8; 0x7aa6fa3891b24d88; 0x1890265644317d76; 0x116b7393f122b50e; 0x55f1760681dae683; 0x742c7f14bcd3ab18; 0x153fdf9b6d71ea9b; 0x2ac42610902c7c33; 0x6a1c32e15ea47dc5; 0x36ee003833aede4; 0x39948cf843abbff1; 0x36304a3815ef3a2b; 0x2be4b2e406eb854b; 0x6d2ab2d46ec07ed; 0x2f561f2db462d70d; 0x41840a89d0a1959c; 0x521f9523f47c2a89; 0x523ff573cde1b90e; 0x7dd5b648ab87f5c; 0x537ff90fb361a791; 0x7c065c4fc9988c1d; 0x3a265ec1e6a09b55; 0x650c51793240ade9; 0x41f096af4602eaf6; 0x4e8e762f9d8493ba; 0x41b4ad7fd148d187; 0x9c9b8917d284420; 0x21b884fb85504dfd; 0x7419b32b05fdf8ce; 0x321fc02dec35c3fd; 0x3f4046526d6b4766; 0x781e972546805fb5; 0x3ceb9e856bfced64; 0x7a487221ccf2cc36; 0x79044b60772c6787; 0x1c4cf2a1c2362868; 0x59ef491c6a6f848e; 0x1139c5a69c51ae2b; 0x5dbe8966181b5402; 0x3e5b79826c428b3d; 0x6069f93d7b5438f5; 0x14a939f59f0da678; 0x7f4df96bd07920de; 0x7d3c3795585f23f0; 0x7881d1ca921c06ba; 0x1db45da2b60661f0; 0x3c68663f9e1044d5; 0x31c7b50be5a037bb; 0x6a9524950640eb58; 0x661957452a2090cb; 0x3276ac286b75b493; 0x115114046794eb2b; 0x20aa00008aaa0082; 0x5011455110445010; 0x28880280a0288800; 0x4100551010414404; 0x2a08aa80a2028220; 0x4554000441150011; 0x2880208a02220800; 0x114055151055100];
   [0x1453ae7f6d4f7884; 0x4076bb53ee30c8ce; 0x625dbcc15ebc9839; 0x31f032385c9a528c; 0x6ce69efa0beecbad; 0x1ee8c530ea02f7ce; 0x630f0418cbb3f165; 0x3c0f0dff770e8447; 0x4ff2cffff28caa24; 0xba8d329b08570c2; 0x38898d5fe1c0455a; 0x5b099a4ad3fb70e9; 0x119f725374224349; 0x470182696adcc64f; 0x20aaf15d9bdc8b8b; 0x11df205adb4fdd4; 0x101d9829c873e4ba; 0x2b6a7191d978cb5f; 0x5755902372bd05ce; 0x6819b90e70d6b559; 0x2b6b3062255e1130; 0x614689610eb12e85; 0x30cbea66463f273; 0x2b2d6ef881752258; 0x703715b108e68955; 0x701910b06345dc39; 0x53a7f10c6a2dda42; 0x386bae42c6894452; 0x42c2f3d8612bc5b5; 0xc386a58ae39010b; 0x38bb0a528e7bfc7f; 0x19ddfb98510b8749; 0x7210221cd3e81c12; 0x479711bcdb4eb756; 0x5dbbb0f32baa314f; 0x16468afbd9d1a079; 0x48d335a633ea1c94; 0x23ef33908a0aee6c; 0x2ef02f747a1c92c6; 0x2dc69e794cce578f; 0x33ed724bd2e8ff2e; 0x3938a2b95d438256; 0xdd45b7085483f6d; 0x27e463412a325fd0; 0x6014e6450a7224e8; 0x47438fea98135b52; 0x6f3a6951b245ff79; 0x3aa356d89c973e53; 0x2686bab68b3eeea9; 0x5ca5bbb45f998d64; 0x3e33497234763e0c; 0xe905768d9f7231; 0x9f023e8b56eb176; 0x34b8dd48b5e36e11; 0x7682076d12ad9c07; 0x4353067d077294bd; 0x71d462023c18b350; 0x2bdf43ce8d188411; 0x17ce2ff3ab92e6c1; 0x25c05e66943dbb5a; 0x222a7ce81434b84c; 0x62b023e6f30272f4; 0x35abc2dd075bb8c; 0x716c132fea208c65; 0x6c94878649c666bd; 0x7a01cb0c2dcf95cb; 0x2a60f2d279a0a37d; 0x3871179e33b48d6f; 0x392facdf786f56dc; 0x1e11ea615f1e3764; 0x5b08cf3aff72b93b; 0x5ab930683197a0c5; 0x1ea5321a89767268; 0x565fda062429b8ae; 0x305b4161b8115fb8; 0x7d37dc4fdc2bc0af; 0x5b4c39a33b907fad; 0x5fb3611c31d672f5; 0x544d4c50306ffe42; 0x63b0b6e5a6176949; 0x64690cce4904d401; 0x5ab7bf36d4008936; 0x5ac5c10ad8ed2ace; 0xade880d72b3a157; 0x42cb69b97f38e596; 0x53a35f9ddc4275cd; 0x6406243e7ce27d85; 0x74c4fa0e2dbafd58; 0x68e221dbff1ca114; 0xd0433288cbe4ef4; 0x29ff3e8d4fac6133; 0x39d6723fd91c6e31; 0x475ecbb7833ff787; 0x45d4d845396d0cb0; 0xa7bf904895732af; 0x3e4e97460a98cff1; 0x2284d4cb111f1d65; 0x192e7cf62ef2a71e; 0x64bb139663418e51; 0x21c83b7917049541; 0x7ff80aa325cd17bc; 0x17f2e55c499ff5f1; 0x47ce9541600dbc1d; 0x7e29794233ddbc12; 0x3e8dcf4d33fa90e5; 0x114c34773f874e61; 0x6309ae9b986c0bac; 0xafc60725e144a24; 0x73e47c2bbe134571; 0x7ef4b7150e2a52dd; 0x7c4b2bfe9c16ea01; 0x5691419648e633a; 0x6f25b2084c4425e4; 0x2bda4ea0c037749b; 0x3b8db382b221d34c; 0x35edfb50d87d8e6c; 0x59924c8a6eadac6c; 0x3583b0427e56f63b; 0x67e1ab17792ddb67; 0x15259a9fa0b32ac2; 0xba0fa70dc1f41c8; 0x1536a8dab8e8b0df; 0x72f2144cba074055; 0x60154079caf28725; 0x30da74058dbb596c; 0x5abae9c0bf4e8b0f; 0x5657a90927182245; 0x5aedaebcf38b336b; 0x6f9f13a46d191d8e; 0x3dd179c20b7a166; 0x9397b051a20173b; 0x677570fabc6e04e6; 0x707bbf097d391264; 0x10545e4f4979b183; 0x239e528e3a932ca8; 0x5ddfbe900ee03a88; 0x725ea6cacf4b47ec; 0x5e8eed014bc953fc; 0x3e9ce066a14a96cd; 0x3b8987000f1c40a2; 0x4fed275b3b8e6cd9; 0x270fe7487b6ff977; 0x5671a84bc226c2be; 0x38adb03885e08d62; 0x1472efa34ae7e157; 0x36f4c9dc65b70dcb; 0x1911a68d055b8f48; 0x7d121ab92298e54d; 0x517131da9b1228a5; 0x6040550adfa35e58; 0x45f51eebf210bff7; 0x75af5a0f29ed9aba; 0x21185d1ee202f0df; 0x624e5f0a3ac9a65; 0x50b97187f3b3f31b; 0x351374987c32c887; 0x7a87877dd39fcc94; 0x15670de093b03f9f; 0x85d64dba06b873e; 0x2b4f1c220f4301ff; 0x4388234fcb9e10f7; 0x7c4b14d061f2179f; 0x2b8c03b3d82616d; 0xfde2312c341b1bf; 0x6be2146e16cd9227; 0x23ee51758ed515af; 0x352fac1032850999; 0x2d89eb5907e1d2c7; 0x6b155c9d0178ab28; 0x5aa439aeb406c9d5; 0x20e55f83d5b63c53; 0x523981f470fa2173; 0x5cd4476debb7e9a; 0x104173cbf8f92ac6; 0x3f178bff48887711; 0x72dc478ff69f8801; 0x74f02f17277a3d57; 0x487c2386d63cb10e; 0x12fe4ddcc3d6606d; 0x64932bc1eee9c18a; 0x2d222fa0c17d7093; 0x353f2e87ba6464b5; 0x2e506111a29f158d; 0x2fae7bcf0cfee36d; 0x1496822a390e6b0d; 0x187dacb98db41a97; 0x915f7018bda4d46; 0x15acadc7a02a7d99; 0x166903869bbdd50; 0x729efd91bd45cf11; 0x5c39184f11ca6c2; 0x2ce41394baf68944; 0x6aef4549e16e87d3; 0x4d4132fce323db41; 0x1db314c6442ea574; 0x3203c17f94b72326; 0x3de07c90bfa31392; 0x2256b96367684e; 0x75d14eba43211db8; 0x1afe2553c6140833; 0x7cd64acfe29bc880; 0x5ca322cb3ed67c68; 0x25318a4761ac645d; 0x25db503020156eb0; 0x62b619190c9d831; 0x74997fa6660cc374; 0x6f4b2a2ec9bba0c8; 0x65caa8daf53770ec; 0x1f168d4b73d6b61e; 0xe82e7ba9d83496e; 0x47d195dbf7389085; 0x431e54421af8224a; 0x2fb7be421fdade5d; 0x3da1c7d423e003f; 0x4d358ba678e96b86; 0x4db904fff24a28a8; 0x5ca8e2aa3988135a; 0x37fd3c33e671c229; 0x30c11b01f1b2f50d; 0x1cff0c294446706e; 0x21c46d28bb27a140; 0x4da1c56da70b2327; 0x7551cf760a048787; 0xd5572fa33e3734; 0x563b4e91ca7067d3; 0x4af2e8fe7d9230a1; 0x66db4dd88056c2f1; 0x1719e879049d0bf9; 0x3aa1bd34ce9eced; 0x46171e078579cd8; 0x682b52cab7a1ae87; 0x2542bec606b841bd; 0x3963102bf81bd129; 0x5e24ac43710e8e9f; 0x2c495742614e645c; 0x7723c76a5274d94d; 0x1d5d7af99c167df6; 0xb1e01984b616633; 0x949b12f93624a1e; 0x5bb5af16e29eebf4; 0x678a180def955171; 0x126f4106f4337589; 0x6af1d020b2fedf02; 0x164e9c6876852eb2; 0x60964917a075dccd; 0x10950d7dbfb971f0; 0x3037cbf47e195f12; 0x277ce9d30f339bfb; 0x7a811d40dfc72fd4; 0x4404f02abfcd4d9; 0x64c58760a03ead70; 0x5af785a25eed62; 0x4255befd287adfbd; 0x3444dd2a9649a6ab; 0xefca15cfe0d89b4; 0x50f5f8757797f6c6; 0x41232c7825850bfc; 0x1521596aa0ad29a3; 0x578a3bd353943046; 0x7a0f68fd1b01ffca; 0x451c4026d3bc92f; 0x335fb03f2b36f22; 0x1bd5a21a40e5b652; 0x1816b7cc66347cee; 0x73c3c4697a82abc2; 0x507cb491d1c5999e; 0x66166e1e06711696; 0x61d4e7ecd11218c0; 0x145166030986f5a9; 0x292fa5d9e4809d95; 0x17f64583cf19f4e8; 0x4724b4306ca59fac; 0x59037ef09234d0ab; 0x661c5875d10b52be; 0x695689a5e2a9578; 0xab194588dda9551; 0x13747fc22530aba7; 0x1a8bacf4ecb8345a; 0x147b344402ab0dff; 0x27aa1efe94e8c162; 0x42004f91ec2280e6; 0x25d10723bbd616c2; 0x468b87716d6f157b; 0x5a9c24479b4a02c3; 0x4747d3ce44c2c1f4; 0xef73726eba16a38; 0x747d930b64ac17b8; 0x3ada1c7ddb91bd4c; 0x47ba93ef043c0e8d; 0x4b8348e3ac55d1d8; 0x6f2ac1d7aa7371d2; 0x6b15a621f3f3e4af; 0x5def86d4ed8f7f2d; 0x3297e528d9877b94; 0x596d289447f14c73; 0x6ff9e2bc8f8be949; 0x48a605a9140ddfe2; 0x403fbc15604d2f52; 0x46641b0653bc5920; 0x4182ab53926c724b; 0x3adcdb741802e1c2; 0x3cdc4df9fc2d3ad4; 0x79e1155b1c446575; 0x428fe81add6e0bb5; 0x4ba0aabbc1824e2f; 0x780ffb8cd8a06997; 0x6b428dd5abeba1f; 0x37d2f32e544a2d7d; 0x14540444dec7a977; 0x228a8a08222a2a0a; 0x1441544115544444; 0x828a822a082a0a8; 0x4400141104014111; 0xa22a222200aa28; 0x5504115144501444; 0x8aa8a80aaa288aa; 0x454154111554051];
   [0x1ec7e4ae80b38d16; 0x4da709c4e1c67a3c; 0x755cea57423faa2a; 0x785a25fe89d24c; 0x135a735f163b9443; 0x4e307732d2845994; 0x6aea2400511b5b8b; 0x3e3f85676b75f2bd; 0x5cae1f40c12e2022; 0x48bb33767dfa4f1a; 0x3d10c13f4488b809; 0x52cdd5fad104358d; 0x3c0ac4cfdf11fc3; 0x55f47b04d309175b; 0x31fccbd4597cb3f7; 0x3f97ea39d0a3f2de; 0x20cce7cbfcae5e4d; 0x76d91c68320fe5c; 0x3aa0c676415bbc5f; 0x505a7e3718470a19; 0x767ecef4f8945f3e; 0x3da42cae663435b6; 0x45e81b73b3699a7; 0x834582ee746d579; 0x82546c79ddded25; 0x5e87246f7faea766; 0x3b60b4757b73caf3; 0x2c0444eedf3b9d0d; 0x3e911af2c8464986; 0x3ebc87d926e0f58d; 0x58c9f86aa6d3050; 0x7519a0ccab8afb37; 0x3949c628a79bde61; 0x61d56fa7e9b7d60d; 0x7138142f31770f1b; 0x6df07910f5bada39; 0x48584136d198393d; 0x1ca110ec8085c9a; 0x2b9f52495ae77623; 0x1e180c7993664a76; 0x701a7d1e5f13357b; 0x51e2130fb37499be; 0x14ef35c31b406ea1; 0x5ddd0a1490c64a42; 0x6d36566a3fe61982; 0x7ee328f68389cd73; 0x3302f4fe8b41bfbf; 0x124e81a2b4defa35; 0x5d6a208b28f67b06; 0x2ea7246f0d4b9d9a; 0x6a7334173de122bc; 0xe2e5b9f7c82ce31; 0x24ce43518181dfa3; 0x38400dd2f4830010; 0x63a446e38fba899f; 0x316756930b9fa0b7; 0x46497409ba8ff21c; 0x73bc558641d2b9b5; 0x5139b04847657090; 0xda4f25fc57e8ef4; 0x16aeaaddce888960; 0x5848d67a30661628; 0x7d5031fe3a5721c4; 0x12c13832d669390a; 0x30c9bc5f48cbf351; 0x4c77aa2b2af2972d; 0x6601fcd18c8b80f6; 0x5d4e238b4371c53d; 0x74033aba79fe2736; 0x76fabf12e8904779; 0x6278916c1c20e1b3; 0x650f4f2039d78f8; 0x6d7d0d51808644ab; 0x1f0ce6ab43798778; 0x1542ec7d5c0512ba; 0x6ed1a022934b5232; 0x3da4598ad8760e1f; 0x1b18c8841d8f380b; 0x1c0e06a455edb62a; 0x425d6961457d74d1; 0x4608a1056b96021b; 0x7c996908e08cef15; 0x197003646136592; 0x7acdafd5708bce12; 0x4642c12d910a0674; 0x130097f484bb36c3; 0x1572c6ded852cc3e; 0x5eeb62baf2d69044; 0x3de6b51eaa26b63e; 0x12539c6217e1e070; 0x125d7a63e5028cc1; 0x2ff38d334c646c78; 0x13d06cad34fab25c; 0x689c55a1fe6bd747; 0x48438c1ce00f5b18; 0x79701c614c29f09b; 0x4b423db0e13f44cd; 0x33e4ed002805341a; 0x3ab6cffddceb4351; 0x455fed95898e579e; 0x2c29d78e11085dd5; 0x3539b3f399d25b3c; 0x1fc9f2ae96872618; 0x17371ffc56afe24; 0x57756693156ec15b; 0x6e2bac998501161; 0x20c16e7acb001538; 0x47b6a9f22b66f812; 0x5f2f782aa1b80f22; 0x43b1e2dd84b60c1f; 0x55bb9afe955326b4; 0x21aaf8428f8be432; 0xb98f5a566dffaea; 0x784bb4bfe91e2e55; 0x1f01cce9a8467da1; 0x401639cda865a718; 0x577074e8cb63db54; 0x2262f05025242b80; 0xc2a46ffe8f13bf; 0x96a13804eb800e3; 0x3a24f9938b31b9ec; 0x537d26489197ef0d; 0x55ea00f6aebf3e96; 0x4725fb1f36f0e940; 0x54ce675f11a8ca09; 0x669bc7242cdf4d24; 0x18963c3efbc636f0; 0x730b2124d92a509c; 0x23c2fae124232e44; 0x5cd95f3479041b32; 0x4fda07cc0388d47b; 0x1fc41c65f3ad172d; 0x18d118e61fd71f6b; 0x633f95586a37d1e2; 0x27330ad3d2cf17d1; 0x35b22e6e6f4a2904; 0x71f0d065faf8ed8; 0x5922c72aa10721ac; 0x38e4f0b0113de5cc; 0x4230ca3d59428e5c; 0x6f496f996e3ce08a; 0x71bee099e2e9f0e2; 0x145999522e2f426b; 0x4525e67b7369d4f6; 0xe780bcf7fa495af; 0x18b985700b248ea7; 0x2952fc2733d8b754; 0x5503063e9585f320; 0xbb057491004da84; 0x5834d6b7239f81d5; 0x60a1a3eb0314f9e7; 0x1977211cd197abf6; 0x5c373a79f9fa0166; 0x7a64eb06ba8ba8dc; 0x5f9e295f8da390f; 0x495d41100e91b0ce; 0x5038ed78995db598; 0x2197b59cb3b81cd0; 0x11c3968e9bb669d9; 0x1e24b37aa8df739d; 0xdf5d59ba1b3f1a8; 0x36407aea3366829a; 0x1cf541e66735c8c7; 0x158fc26f9053b97; 0x2439587f62bf1383; 0x26900b2a2fbf75c8; 0x233a4ebd60571599; 0x34cd09e67b22848c; 0x5631ba21c37ae8ae; 0x7831493cf3bce73c; 0x3990c051c245827; 0x120c55d595ed55ad; 0x6013751762fd9af1; 0x32998781076e3fa8; 0x7583e71154abe938; 0x2865c72077766164; 0x47ed9c45f156bbd; 0x18c66b25cb5cd273; 0x7a7faa1cdcd02f22; 0x425ce763bf0d7d62; 0x5af19b98cc36352d; 0x16ba6ac8eb474777; 0x9a8e1654a9f5245; 0x4b11bfd8e459aa5d; 0x784d5b518f6b9b1e; 0x7d23a546ce4beae; 0x3a6f4b1eb4a1cbee; 0x1f420e96c426f69d; 0x269d7c33c985eacd; 0x6cddc01ba0c33e9b; 0x5536e220eaa5cc8a; 0x92b48ca8554f65a; 0x24273bacb0a8ff30; 0x377a2684563bacfd; 0x5c3c03dbb010763c; 0xa8d099c251dd2a2; 0x107c4f4ae60aa940; 0x4b91e5fa568f8fe9; 0xee66eb7a47b2a50; 0x27972dacb359b642; 0x1392514e7b43c9a8; 0x24a954aa39406720; 0x1b2c2240569c66c; 0x1a29d6964af134fa; 0x20829d84beb5948d; 0x6b02d1ad74176add; 0x5a16b4f804e87a01; 0x101ef0a84e1919b3; 0x3da32dbc7393ca1b; 0x1ea6cb0f81b940cc; 0x5a3fd8f2117cdf3b; 0x615e9dfcd345bb89; 0x390df24ff238922; 0xa064bc8b3595bd8; 0x3fbdc234a99804d2; 0x3eb2ce5b26d60371; 0x7694d6edae99a93d; 0x3ad35262c38aba1a; 0x625ba23a5a98d611; 0x1d0a51c9901bb7e; 0x6881c8d5a60e8a0d; 0x64413b2c3f0ccec6; 0x612f0d0ffd72249d; 0x48e786bf83258997; 0x145aeec19718a1bd; 0x38946a07097d7007; 0x6f219632959930f0; 0x5322649f51e1a4b2; 0x567fb9222f155243; 0xde5f4954098f4ad; 0x48fdfad173f7314c; 0x17efd05394a48932; 0x34121dbb72b10c2e; 0x74d9c0c7c902c706; 0x5a362d9daad739a1; 0x5a10f9a1ca4529c5; 0x5bf90e93d19739c2; 0x721a315c393dd340; 0x22ccd01207ba62b6; 0x2df35afa917e81bd; 0x4ce6a82853e57a66; 0xd57c43f4f996d31; 0x386bdaf081891a98; 0x323a245487bc13e1; 0x1e60a6a90e81806e; 0x628c874a7e5c3dc2; 0xe600709a1794b22; 0x27cf67a5dbd81894; 0x2fa2fdfd2e28ad18; 0x76cf73fe3bd5f0be; 0x57756d7a9f869d37; 0x31aeae0522e8200e; 0x4162cf74eefc80a6; 0x4a73164414aaff2; 0xa7aaaf5fd3fde1a; 0xe22e3bf763914c9; 0x7f231e1b6d6a4fc4; 0x4d9f9c61b5002202; 0x74179460171bd478; 0x4c9cbb1ffa671bd7; 0x2fd01dda80f9c866; 0x22c958396d866082; 0x253901c7d83e93c8; 0x33fd526a96e87877; 0x7c356697aa7a0995; 0x7572ba5847882c10; 0x6bfdf0226ed12cc3; 0x4e030739ccd4b9c7; 0xd12533e2abc8ed2; 0x6e23ff0610f22a97; 0x26a63526cf5db40c; 0x51a2b7fb459adc22; 0x27794e15f471352a; 0x3b3f52d2642fa58f; 0x37618a6e952adfd7; 0x9f955b4aa3387c6; 0x59ca86bf87b2c35d; 0x5f1533e02de3263; 0x4e1afe8a0171ef5; 0x154d395f6a5ce418; 0x663cda7434f2dbf0; 0x12922a020b532b29; 0x3241fb31d35ecc3a; 0x33283e6edb504a11; 0x4ed3e88006affb60; 0x1207781cc7c851d; 0x2e507489db13c1d7; 0x14aa7356e3792df0; 0x3961e551af4653c; 0x18c5a30813ca33e0; 0x7c443daac22c43; 0x279aa1db2c42896f; 0x728fa8ad0ee66cda; 0x113670c30529ea1a; 0x56485d52a879d0c7; 0x2ad904323ad62cfb; 0x223bbcf18c90705f; 0x225b866743ee01ae; 0x1eb07af4f80ba7e9; 0x343bcb766516f1eb; 0x667e60c66598ee8b; 0x57e8ead86c64afc; 0x1a9cacd53f75843a; 0x38242e4e9879d65e; 0x3b440b44fb29cdd9; 0x7d31729bb7eb5031; 0x715be19676a63782; 0x6b082f7734d3f137; 0x5015514ead7eb35; 0x228802228a82a800; 0x5445041411155001; 0x28022082a80a20a0; 0x4155510401415004; 0x8028a8200888a0; 0x10145150405445; 0x22aaa0a02a08808; 0x554155104105514];
   [0x5822bfde56cf48f1; 0x77c77598172db947; 0x2e6da5ebe5dc754d; 0x2b442d3b0a807d6; 0x6464fd8b981bd8a6; 0x64c11dbf34b7af75; 0x37410c3125e6d50d; 0x1096227af0a60291; 0x4b064413a7f17cca; 0x7da484c36a9f4c0f; 0x704e161d39ba838d; 0x652546b04eb0d022; 0x1122095d4901ad19; 0x46d681f62cadd8b9; 0x513a7fa763d1ff3e; 0x39adc9125f01a66c; 0x258bf292d7bd5306; 0x525cdc16fe3fcb20; 0x7f579846a128b1a5; 0x6dbff147b9c49429; 0x73e781106fbbff9c; 0x419e291f518b51ea; 0x5246ac0f63440928; 0x7cf0c9bdedf4c5da; 0x7915fcfb1c03e3c8; 0x4f495e0f674bc6be; 0x68cd69fc41ad7313; 0x498f8934e11e30ea; 0x5858b98c1c4936bd; 0x48e4fdef4f99d0bb; 0x9abbfe946e9427f; 0x458ec37e1a0018e; 0x496727de18f383d6; 0x50213d91b7d7c394; 0x71262109afd539a6; 0x2e14c55d150144ad; 0x48057cb55221c058; 0x7b4b378fb620aee1; 0x49e583c1557c111c; 0x4398080f684e9dc; 0x2c96eee708c2c209; 0x18f00c83770aebd3; 0x3bca424aa8989900; 0x508507171574ccce; 0xd0a8a720afc5556; 0x26da3b771aa341; 0xad72d4179023fd6; 0x1af6788ebf08b00d; 0x3f74315a1d21a3b0; 0x2e955c1bed4af7b9; 0x7052e8973eafcc8e; 0x45587f25230bdf8a; 0x689941e735102474; 0x25a010472cfaaaa; 0x7899ed3a541b5857; 0x47957104173bbee1; 0x6d34779742932c09; 0x2bb2a2655f7bc1fc; 0xc5b82c9597deae6; 0x123358051734775d; 0x676861a144d07291; 0x6b174a83f979da7; 0x3686d08364065114; 0xf3031bb464ae032; 0x16dc9e1d789005f1; 0x72bd48d3ad15fe93; 0x63f84cf846e6f2ca; 0x64d225cd0d98af79; 0x392257e236bf865b; 0x326e0a3d8d2674e1; 0x20c5f6793eaec186; 0x5cd21804a6a2e504; 0x6fd879cb1ca6f7db; 0x6901e916c318de62; 0x231ebc5619421114; 0x922ea5b9e26ffd6; 0x52176411e5077f85; 0x17dc5d586fe1121a; 0x63d74e1a9c9abdbd; 0x57d42242c94855c9; 0x1c6093e912a02791; 0x79ab5b424c78e6e2; 0x773a78b525325ca6; 0x5d6ccf84e95a0635; 0x178780eeaf7cb3; 0x186b35736aecb964; 0x389490837bfecf40; 0x224ae6eca0478fc8; 0x54f8d7b6e06f5911; 0x713a4049430efc43; 0x299e3980cdd4a485; 0x6ba756ad8b093451; 0x73b5da29f740cdae; 0x2908587a8ef79994; 0xa3b86ce31b836f3; 0x48de6aea75687204; 0x418046eacac378fd; 0x5a657d3cd936b695; 0x499e22c2a257e744; 0x26af9b8640d9352d; 0x7f6a01d171df6a95; 0x404610f35f6f6314; 0x70826ba5f540d833; 0x34cbdf7d27ec384c; 0x15ef86a2f47163fc; 0x3618bfd359e2254a; 0x1b2e56bd56d5bcbc; 0x105d07f077c7eaec; 0x6c591a8a87b672c1; 0x478581bd3ac29282; 0x31100334d0385f1f; 0x3f8f045a641b8262; 0x735dc8b8c4f4ff6; 0x19ed4f172bb426b3; 0x36e25f50d90a53a6; 0x7588bcf47c7952b3; 0x62dfefefcf68a2ff; 0x60ab89b73fafd6e3; 0x4dcf9638f7c71cf0; 0x1da5dd1cde79aa1f; 0x4a2ab349212d6c66; 0x1f10166e55cc21b0; 0xa45ceba2f42352e; 0x1869c1ff98459e7a; 0x2136a0f414e0dc1e; 0x68632d41a44dd4e5; 0x600375321f217e4c; 0x6d0fa73eb4d2f50d; 0x2a6e15f09c6b82e8; 0x31dc8401dd9bf6d6; 0x49330948e1831347; 0x13d369200479e337; 0x2748816ec8fd9981; 0x4be2c3f9d77c5161; 0x645cb8daca342a79; 0x53c28b5609813d2e; 0x1059034240067dfc; 0x3d0c2d9403a36d0b; 0x30e7e17363d1d86c; 0x3681c131f8e455e6; 0x12580fde5008a757; 0x48e581ca61c7c8c2; 0x798d4cfd15b8d2e9; 0xd9aebdc29366b7e; 0x600e282966662fb0; 0x73e67eeec17a96cf; 0x24982fdb905adb89; 0x3ab655f50f48c491; 0x5d3bbcf98c5f1b1f; 0x4c93a097dbe53090; 0x1d3106e5d419e361; 0x56803080012134e6; 0x2899e0579bdbcd27; 0x56f5781ab9e87feb; 0x1db02551340dbe89; 0x746cad0125f7eb86; 0x77e9b3f325322c20; 0x69d746012081a6dc; 0x3fdaa34d15b7d0d2; 0x2641bca0dd1616a8; 0x4ffeae7af09a9eea; 0x63882d304e56570d; 0x40378228b966044d; 0x56143f1d8eb91a05; 0x5567c463aa791e80; 0x50946bf4353f1d01; 0x6d4de12f903f8e93; 0x5c562f93229e036d; 0x782e4a615e361c09; 0x719d7b981c06ee83; 0x1fdfb5bd769096bb; 0x14973eb065e83843; 0x6ecd15dcdf2f626b; 0x5fe711db1495bb52; 0x78d82ecccfe6f601; 0x4f493874d1c2cbe5; 0x6e3d59cf2af37e9b; 0x1526b4d0e67fca2a; 0x375c5924169d10a4; 0x3781c95c76adc0a7; 0xd5e9db581361a11; 0x2d5c177feb0ddf0b; 0x6665ababa869ba5e; 0x7c06083c0c0dabfc; 0x4b0f8527bf6675ec; 0x66026061574d8322; 0x10346a68be057d37; 0x74ac1227746e7a89; 0x7676e72224460514; 0x3f6c06d4fe63d8a2; 0x478b0b3d84112ff5; 0x1532caa90a62d51a; 0x53719783ce2945cc; 0x443bc85c59906021; 0x100269e0e22bd8ce; 0x35621a8c1a7e359b; 0x1f93dcc672e5913d; 0xcc171bed90d8247; 0x27966897c55e9eff; 0x422352dbb3d7b0c5; 0x7da893b906bbc973; 0x3399d81ba640be26; 0x374f22ab4f7238fe; 0x3812be14a41eb7f5; 0x4b70c86497da40e6; 0x733ac178cb5a47e4; 0x47b9c9e25ae90dc; 0x15e2487475c8cd77; 0x6d335b430d31008e; 0x63e4f1989cc8543a; 0x273859531a6780d2; 0x719eff3e312ca80b; 0x660470ce81c20525; 0x7f98916dab548f97; 0x41993cf1cc0cef7c; 0x177c01464562dce2; 0x5d14d3b772bf01c2; 0x3e027e9b1d985de8; 0x126af10d24d8eb3b; 0x3ac8a840848ee1e6; 0x5f7b202ca481ca04; 0x7a4c7e5f8c56a734; 0x6fdba26d2556a3a3; 0x2fafc33a3a222368; 0x39ec1bb8696c06bc; 0x69e40c84c4e337b2; 0x235e61cd18564c74; 0x4472242cc1d02bee; 0x304b0d40f1322693; 0x4de44ccafe1ea62d; 0x53a049f6004d9dbd; 0x5fafc035047802e9; 0x4511ac88a73658b6; 0x24d1a18ff434f940; 0x4e118665f7371225; 0x718f04cc88896864; 0x6254c9c61cac428c; 0x3acad411cbffe0f2; 0x6e9f0740f62d51ee; 0xca17b853eb51d68; 0x7135e8441252417; 0x3a495f6c58f5a637; 0x4be81d1e18b39c09; 0x6a6c48c1be812acc; 0xcddb2098b002516; 0xb81bbaf4f3ac54f; 0x5884ff5a3f74a0d7; 0x219e6f3cb5610ad8; 0x7bbb9238b2c39472; 0x42c9ca5ca6ba4dc8; 0x40e12a4847500c69; 0x32f10d4471333c75; 0x69edb94f24aca740; 0x2d1f8c1d7aaaeb5e; 0x739af62b6466f9b6; 0x1911573c9730ce92; 0x4054a21a1bf85c64; 0x687d02cd78645ac0; 0x6ae0f20510d371b2; 0x693ff36c3f9d7e64; 0xde0486614542a8e; 0x5d70e347391c2cf4; 0x4c0ef5c8f42bcb84; 0x23c60e16e5705e5d; 0x1549efe76be203c1; 0xe2e09e8524599b9; 0x40d27a53330b256; 0x6359c1061b14f427; 0x717d44fcf7a0e3a; 0x2f14e7ffd1e20de8; 0x47e08eb68263ef3b; 0x271ec6aefcd45ce; 0x74f8c0e9422d0e1b; 0x641a2b189c85bab9; 0x48e4ca5dbdb096a1; 0x70fa82ed16f73b3; 0x2a256b209e66c7bf; 0x5521b334b785627c; 0x4825462559aedd9; 0x2d45224873508307; 0x3e40ed340d53d017; 0x549b7b02f5b4715b; 0x10de169ac342546c; 0x2494cc5764a12dcd; 0x2b62b7856a8a19e7; 0x39dae44dfafd134e; 0x6c1c08571cb5d48c; 0x3154b7f697a91f67; 0x4a7cd38c5bcd62ba; 0x2cfe84cb14c7ab30; 0x1ec51fc8930f137f; 0x4f73188efb392590; 0x505da819e849e46d; 0x217b52f885572f41; 0x346a26e599ab1f1d; 0x59834b5840e74095; 0x3f1442d0a7d39106; 0x5d9cc485c1cd9fc6; 0x4848d0dc2821a2ce; 0x71ddf532bc88fee2; 0x496e8fef7521546e; 0xdf8bfd20b675ee2; 0x66a52bfbb309629e; 0x1c30e74b6a1d5929; 0x57452ec98c721c; 0x18d0b9582a93758f; 0x4331a15c0250632b; 0xe7bd8f0ae2e306e; 0x451010559534a76d; 0xa82080022208822; 0x1141404441415005; 0x8a0a8002008880a; 0x4055440055015455; 0x28a2282082a88280; 0x4505515105400455; 0x28aa22a888888022; 0x401051140455515];
   [0x54727b631d3cb5c8; 0x6a610253109cbe70; 0x39fb8c67170b4b83; 0x3fdf6c186bb42937; 0x51b1f1ddf76bbb83; 0x41143c553394167f; 0x2fd53c8b547665ad; 0x4ffac73a4385e14; 0x13ca81d036c3f1be; 0x230e6e4e86aee54f; 0x47a956da94b088a1; 0x56ea82090a874bcf; 0x38163b0ede2f5e15; 0x15087f702cb61295; 0x42d18bde9c2b4000; 0x7003cad1df790b0d; 0x28129b983b25517a; 0x2582c6e9787e4ec7; 0x137c832fb7f097d2; 0xaf078042d184058; 0x7c6d7cb34b50a6b9; 0xe987b3687257bb5; 0x7f359c52b21f5776; 0x780915e8aca88f9b; 0xb7c4a57555c712f; 0x6a8c50c9cf8a3890; 0x5b60cad8fc4be97; 0x2763f9aa3ea16f65; 0xcc7c17003783744; 0x3e87b86aa9d89b1e; 0x51e04be3ba9bd636; 0x406320322a4f520b; 0x7d93fad6394480c0; 0x21258188dbf15d64; 0x9a9ac5f1a255132; 0x515b1182143dbed3; 0x740d634f2bfc057b; 0x538ba565ba9f17d4; 0x29b0bb37c0192eb2; 0x386ad81eb135aa05; 0x2da3d1a9a372ce1; 0x741294d6b475e343; 0x7ea2812653b2d0c; 0x622407589ac4a032; 0x32dee47759f32d56; 0x3e93e15a842af2a3; 0x51af8c9a8e463002; 0x254bcd46a3f0c811; 0x5a49be6634a19fe0; 0x5fce8977a41700d4; 0x203d7ae4ebfffaa7; 0x4a51ce1a62c611b7; 0x2487b60109cbd8d4; 0x77844d486148e56e; 0x282fad0df6275aa; 0x1c8bcbdf55c52482; 0x742f0c783b765a7d; 0xca016e3918d38c9; 0x1e903df020469ee0; 0xe03ab847244e9f9; 0x578ff02d94923af; 0x4038aa5b87bc8214; 0x181962a2e8d6c1e5; 0x16e1d43504893fa0; 0x2559d5fc1ea3b9d2; 0x7372c27c5fc62d19; 0x3cdd2a51612a2536; 0x1cc080b7fefe3d23; 0x5e3921ff4379826; 0x532a39122c4b6082; 0x463b7d7ae4018474; 0x667512aa29de08ef; 0x415e226fae83a137; 0x23e9a718b465f1fe; 0x22741ccce602da7c; 0x1f56f2f2db0465e1; 0x9674a70984cfe9a; 0x4c638f6cecc29de9; 0x3e0115ba238792c0; 0x46236673dd1627d2; 0x654d8e9d712516ae; 0x3a134bbeb08ebf98; 0x2fda4c4449f472b8; 0x56ce65f698cde77c; 0x15ec83f668e75c8c; 0x7322da9bccb2fa58; 0x29ea4159dcfc08fd; 0x7e720eb7338f9642; 0x4e663998bc75447b; 0x1c0eebe1a1d339ee; 0x4044884f10a107c; 0x80c992205014c2a; 0x6a9d7079ec4667b2; 0x7c4b445ba7e3fa5; 0x4beaf683bdb6ea2f; 0x213a770298a79daf; 0x68af3fbb526119c4; 0x4ec446942d8d5241; 0x5b247cd169d81e62; 0x7225ba11334b38eb; 0x4f43e9b0b0450a74; 0x41f1f05b2541e954; 0x33296c15a063271e; 0x8a121150adb9d5d; 0xa02516cda389335; 0x1236c565b4e0f85; 0x72d4eea223098f8d; 0x73b5892b7b7fb76c; 0x355cd5dd1ddef002; 0x482dcf10019d4b42; 0x64253594670ba05c; 0x3ca51e42f41fda6e; 0x281e6a60b7b05061; 0x6cd9b8ab2276a22a; 0x1b121cfd02314fcf; 0x887eb1336c50ba6; 0x7ee6658764ee9fac; 0x447cd9b9b33aa86; 0x2c98b750ff03013d; 0x27561636b845a1b5; 0x3b3fa846017f09dc; 0x5bc46ea577c06ba2; 0x1f5463bc1ba725d1; 0x13b6be1c78b5e570; 0x53bab60b119bef7e; 0x107b228db312be98; 0x235239e479156dea; 0x5a467c8b3f3feaf2; 0x3bc94ff6af801dc; 0x1067eb02be5c17de; 0x69a2887df51fa635; 0x55e0763e274bdbae; 0x2b92a903a59cb3c; 0x73f119d6adc99ae0; 0x72a2556d17f9fa14; 0x1dce359ad1bea2e2; 0x2c88db1ac461a240; 0x29896c1474363fad; 0x740d8820e852173b; 0x494262bde9d3506d; 0x2ccf54448e127c3a; 0x58932783ebe3fc95; 0x1fd6cf05356d8410; 0x3372d39995405178; 0x3fb3e7159695ede6; 0x1724d31987475c63; 0xc7b4bbf0b64f3be; 0xbaff1411508d30a; 0x321061b9d78320a9; 0x1a9485ba609a6c5d; 0x6d344fe0362aa9c9; 0x3d09196a7c7407c6; 0x502f1e57bc7516cf; 0x22a5b3c12cda69f8; 0x111632e6c599f5bc; 0x1df6d70252ec0b2c; 0x238d3f9fd958629b; 0x5af0e4177b7599be; 0x8f8114b78e0170d; 0x7978b16b3cbf206; 0x3f0f3e8fdf21cb64; 0x4cc569b698cb9b36; 0x19a82a371b8584c2; 0x48fd4ed38a1210f4; 0x7ecb763d995f5125; 0x5acb717301a6e2c5; 0x7c6887cb4de2c997; 0x1754ec5f1b2f718d; 0x23ed98cbcb6234c5; 0x5807cec2554038cb; 0x2c337b317b33474e; 0x1318e2d9cea4e95f; 0x5ae7cd7702967181; 0x14366d2e158f1dda; 0x47b774aa9a0c7826; 0x287146599a9fad94; 0x312ed4102b09f6a3; 0xdef3fac2cec6130; 0x6e24fa8d43e566ea; 0x129cb2cc45671f8; 0x5ff24fa510abfe99; 0x1ad66d93f1f12034; 0x579a76d07374e02a; 0x6b6e2947dc7f6e5a; 0x126a3b49ba092b65; 0x672044f402ed2e7c; 0x488bbc665a255826; 0x1043ee8981eb2a7e; 0x16e6488c0eab57a0; 0x6e40e14bd57e6243; 0xbba92f2c3759799; 0x5c8544c749f483d; 0x7a586131262c6a47; 0x6cc01a4161f99910; 0x38ae7383c57e6682; 0x692722dadb16d24e; 0x320186f1aaa887f9; 0x4cf918c6ad4a171c; 0x7aceda6d2b085fe0; 0x1befda1ee1efb86d; 0x1860b0ffb66b48d6; 0x6043a92ac16e0927; 0x112775b77a5af6b3; 0x49358cbeef442e4c; 0x28015f1d645b44c9; 0x5d8b29faf068d17e; 0x1c0031200334e0f8; 0xc5e6843a83f7e90; 0x6b77435bce0f72c5; 0x293d92f20efa4d2c; 0xa0519f31182b85b; 0x37521f2c532dd3a0; 0x3aad8bbba079a0b6; 0x73a365a1c211c623; 0x51c8badc13f7fca6; 0x33833203cfb75f47; 0x653ec537c4f3bee6; 0x13997fd3124cd06; 0x403da9675c518ac9; 0x3c551c9737ea8a20; 0x78b665f31d79ab1c; 0x36a702dfeca9a165; 0x11d3038fe4f48a2f; 0x7cd152642cb95e61; 0x3635e4e4b6e47b3c; 0x5b61bd02f262cc0f; 0x6a1630f9857c9d1a; 0x2b6030e404ac491f; 0xe029d94296ce99f; 0x335b9409197369db; 0x3c17732439ae0c78; 0xdcaa5c2f1f7b90c; 0x4c67415309f1144; 0x1f9f7a7df20629d2; 0x654894637562a3c; 0x3a02a31a3e9fdc7e; 0x7992517ed3ec857c; 0x75154783bd7d8431; 0x5e3cbbf9ded51a3e; 0x25f1f1fc7e826da7; 0x3d953936f5e32563; 0x1de8cee4ce98eeac; 0x5f279b36859baceb; 0x162b372780431aee; 0x2bc941009ae5b327; 0x4c0b573a274b9527; 0x138fe56ddaad7a17; 0x475f6527d2381255; 0x701e575f23cfd52b; 0x601d7d72f90f41ab; 0x71c7b235533b22c0; 0x7495df39d22dd41f; 0x4b542bf3447ac520; 0x2dfe5defe26f76b3; 0x1e5ac2e8983c82e9; 0x18f7451719426e6a; 0x67999804bfe1ee52; 0x1ebd0844ced4d86; 0x76eef5521611997c; 0x7d2ef7fda2497d5; 0x3e1306f6c2e47b9; 0x36f301a0279f7107; 0x3b38d58361926cf6; 0x5e86abdfdf8ab898; 0x694d0d6595bf46ff; 0x25cc9d82f75563b4; 0x26636113af07db46; 0x6b96c63c9b1c88ea; 0x4c18a3de4b3c1331; 0x6e85d52367cb1147; 0x7f407cffa38e2885; 0x7982ea9d51eb4ada; 0x4fc0b5c26abc105a; 0x36c1774b05c7b28; 0x62d07cde959c18dd; 0xad3b71dc8d9f9f6; 0x43f1cff52bd5bbf8; 0x5fdc2a548e986a7b; 0xa72ce9565e28b6c; 0x531379d85f9f3d9c; 0xf87302d48956e3; 0x4e153287ac9e5453; 0xd65cab83eb7f464; 0x7f9d3c7ac2475ac0; 0x7aef988668b4401a; 0x62e57c8b9cfd9f65; 0x3d9fb54030b5a6ce; 0x124375295c6dcc96; 0x4dfb909de56daddc; 0x548fda2a85802b69; 0x37acf0eecd10f564; 0x577175adeb7bd188; 0x757bdb36746b7006; 0x414e948ace10a8b8; 0x7d105d0bc705fa40; 0x788e31e2ba48e46a; 0x595e79cff009d6a7; 0x4d8d958e48f5a412; 0x5b6c7b4c4a98b402; 0x34c452f4c32796f0; 0xeb587ebeb490108; 0x6445beb7fd16f0b3; 0x69793066e8d4d399; 0x7f9c0a8a13d1f5c; 0x2f56e56efe3f8c8c; 0x72265c66c7c4b05; 0x19c0f4f1e9b3f12c; 0x62012d0a84fb5fa5; 0x1410050559f903fa; 0x2a0aa0808aa0a0a0; 0x4110051041445145; 0x8080aaa0aa82022; 0x4515041055450510; 0x882820288a0a2aa; 0x400050155100445; 0x882aa888a80280; 0x45401554001404];
   [0x3ee8f591a09b1f2d; 0x599d12253c30cdb2; 0x159e9a5bc402d550; 0x4e733f0e47a11d20; 0x111c30614a423c6d; 0x253393307804b16f; 0x736cdc43540c0ac0; 0x50a1a1e8a8c4615d; 0x5d1b2ef4acc3443; 0x4e1dce6bed209d9d; 0x3b5758d212cf7c9e; 0x3c5985db169dcaa8; 0x354add64c3839fd9; 0x43f905f6689fa92c; 0xdaf8b19dfabc7e6; 0x21d2eae3123ddc27; 0x129f582c1bf6db5c; 0x605938d352fb22c2; 0x45cf860e2cb78eb5; 0x5b741decc3dce2fe; 0x5e115306c4e0a35e; 0x4785a6b47848bcde; 0x6d8c25a974c44999; 0x2c6221d383ad17f9; 0x49ed24f44312fbf9; 0x387fe7b9c3aa75d3; 0x3f708635b534bb60; 0x4ea8487a40bfe8b; 0x2c6038d698e25704; 0x1f589e724bee7ab6; 0x12ba867f92a8cced; 0x3393701b1175cfab; 0xca76f1c163f2490; 0x3761ba116870e736; 0x40f7a8d69a948e3; 0x59a003f9966ffc41; 0x7574a68de135943e; 0x29550fbb0aa6ad26; 0x6084f9194ee07078; 0xc68019d05daa9a; 0x505784046efed736; 0x5eac9c78a6c36cda; 0x3d0295a71c3110ef; 0x602c27304ea2a3d; 0x6e161a34c98f1203; 0x7ea0da1acbe75ac6; 0xefe4e7e22dfc25e; 0x7dcf1de4d3cb2041; 0x344f41ea89f947a8; 0x4edd85e662da5ce0; 0x5698af7cad8b1a1d; 0x1c12ba634de89505; 0x6dbf6db056ce7332; 0x3b47c9b8547cb74e; 0x31195931830a9803; 0x79968b637d48bc35; 0x71641d5904a801b3; 0x4a7dbedeb8a2d237; 0x6e9c64b93ee7e4be; 0x57d05161de8ddcd6; 0x11b5f9702764a52d; 0x7bedcd4839d6ed7b; 0x606727b4384f5748; 0x3812cf3f7fb0ff3d; 0x30eff473cdd73458; 0x6f209ee68198924c; 0x49fbb41008694058; 0x784278d837581b2; 0x7fd2d886f73e783; 0xc913b27b8d1e812; 0xd2d999b4a085e5e; 0x16efc91030f55bb1; 0x4688437a4f98bfb9; 0x8e9eb8081756f33; 0x4efc96b903b9a1f2; 0x2a2ea7f5fe22bfa8; 0x2a230b5a70f581a3; 0x6443b44e798afa33; 0xdbd032643bd1f18; 0x13a627b95276cf18; 0x66087ae935d49011; 0xdd1ceaac73eb679; 0x40893e6c6ec5cb76; 0x7e8bceb91ed850a4; 0x55ca2598138707a9; 0xe9c3b8302276c3b; 0x1a49b2d0125d5b4c; 0x97ecbabbdb683b6; 0x766b2f91a14b1cf4; 0x3bfc5045182384e0; 0x32bfe39ddd4a58b5; 0x102f829321772ae0; 0x48c80c9282135dad; 0x1b73e188ba6fc361; 0x6c4b37150ce93833; 0x2cc22c3c7281005b; 0x47085b760e082695; 0x273d442781a34db6; 0x4c656f0596810dfa; 0x726e2a7871c4b31b; 0x472a79d57db01c62; 0x5df04b51527b3b40; 0x6249b176cd8aa5c5; 0x347fd36d011b09a; 0x171aa64cf86f85; 0x1ccebc9047d1df94; 0x55518fcf2b82a9c0; 0x563159631ac3ee3f; 0x2472b59da3a772c1; 0x3794675dbdd2867; 0x55a7de65745691f6; 0x3454357668b01cbe; 0x642ee9d464e6090f; 0x60a3d951a56fa7eb; 0x7147ce2edcebb388; 0x54212110424f07bc; 0x3a5bcd5660f7a328; 0x448d8045566e7b81; 0x177a89e9c917fee9; 0x301992c855a76b7; 0x215959e7c30fe7c9; 0x24bc33593c236087; 0x71c11939fe4d9f09; 0x273533c886bce69f; 0x19e472112cfb45df; 0x3ab8ddc9f2cae855; 0x2b27c236eaf34eb7; 0x4f62f97aadc49d8a; 0x1590a9a910ec96d0; 0x749210eaf99b4c8c; 0x582ea3d03dc21b12; 0x4afdf4f91a14543e; 0x1cc0b95d4ff82f15; 0x1c7e3acf14f1f052; 0xf126f89a05514c5; 0x62d5d643971a13d7; 0x11b2fe6f776c8a16; 0x7fef19d7e66e8b3b; 0x648df3d0170053a5; 0x51a5c354dd2ac303; 0x6089678aa93732b6; 0x5687fc87ebc579e3; 0x19bda12f9891ba56; 0xc4a364172daeee; 0x1640d049fddd4222; 0x417723c30b11cd9f; 0x31144f2435ab1c2f; 0x19826693965941d7; 0x42d76ac5b64fd9e4; 0x60ec109c76e0a98f; 0x3250c9187d90ae1c; 0x7c1ce43e79f433f1; 0x4730c35166390924; 0x52be90e1961c2d77; 0x7eab89354342f4fa; 0x124d5d56e78d3d1e; 0x6913573edbde75e4; 0xf14bbd35c3db3a2; 0x4dbdf18df9fc743; 0xf240ef70db8b92d; 0x2a0888f2e9077812; 0x4fac8529d994857f; 0x7396e009bd09daba; 0xf7fdfbe2fb4d5f1; 0x75cdad15c76552a1; 0x3571c2cd9e641265; 0x1120626cdf1ce156; 0x1ce16fe9100f3423; 0x74f6817aafbf48ab; 0x415348884be0f5a3; 0xfaea202a9c3aea4; 0x28c7aa410f99acf3; 0x3e979b93d085ce4c; 0x531e41b25de3ed6f; 0x41ae4b02bc5a5208; 0x4ee6d46d73f600be; 0x5411f4351d0aa74f; 0x38aeea53fa9649f9; 0x39b1330f1daf3dd3; 0x526bab870ab4499; 0x1d8c84d95bac53b1; 0x1b5ea67a69530dd1; 0x77ab2f85834114ab; 0x35cff28c9227c168; 0x14495f979ede5df0; 0x45da2e152385557e; 0x6be00cf2ff911764; 0x5bbbe1c38ce96e53; 0x633829620e353a74; 0x5f5f30dfd96edbe5; 0x1b381b7b97df49b7; 0x16286ecf714c9ad5; 0x234c2e341ecd0928; 0x9eeed9bca5f36e8; 0x7ef5ec3595722d3e; 0x5bff41f61e4d897f; 0x499f04b27eea6efa; 0x3837bd3686602944; 0x338d79d692412856; 0x10ae0a52cc6dc93a; 0x193c67bd012bea5; 0x55c78bdf974959fd; 0x58663be18625c1bb; 0x1bc8ed48f28a61ed; 0x1132d9df16bdb309; 0x577782c90497efb6; 0x59218b99c66a3380; 0xcd2828fb26def06; 0x1564385711fcb5ea; 0x1aa79267471d94f3; 0x3a570c7efbdf603a; 0x12715e872e1aefdf; 0x3587ef2ee35d34a5; 0x5f6950c4d593f2bb; 0x17dc3587cd023733; 0x20dd4ec80190befe; 0x7e0b5c02150b27c1; 0xcf68a81f7023d4b; 0x42599182f3712f3a; 0x33f82e5640f0fff9; 0x5108cbf1dd3fb7fd; 0x481a5b016de9e04b; 0x3c6e95d22d465c76; 0x6987855e858dd125; 0x25622a4684f9d873; 0x1c07783f4b9a643c; 0x43eed9462baca021; 0x14dd7dcfe1f0b9ca; 0x5f9ba29f8a3280b1; 0x3f54fb1552564198; 0x58ae5fd159add9e1; 0x7ebbd90a5d8993cf; 0x798559b85f974a6e; 0x4390b3fd71048ec5; 0x4c8b5be708c37da7; 0x116926eec86b5685; 0x5cb827402e1414b3; 0x3cfa539f79daf51a; 0x3ad759f9fb8478fd; 0x463358201f1631cf; 0x1b963f40137d08e7; 0x7e6c3b34b87c40d5; 0x423464562006015b; 0x4fbba703a542535; 0x356fad57a76e48fc; 0x60725378632510fd; 0x5d450770a4791632; 0x6480b502bc938826; 0x4b5dd5ee6294f741; 0x3bd15e9be350b843; 0x36a785bae71499db; 0x2f4c47a9e8fb59c3; 0x2ff096e9cff0c876; 0x60b0e9a4c9fb50e8; 0x51e8f7e1e8e095b2; 0x792dd43f0c63a2fe; 0x567adbe8c76d28a; 0x11010dff3a9c34a3; 0xd8b8d079f58c0eb; 0x57bebcfc612ed465; 0xf2f2e0e60db89d9; 0x6459d9be3d3c497; 0xd1da1510d48f58a; 0x28eef1229b55a7e5; 0x54b603d942a7701d; 0x7e79a85d7d65c639; 0x6c1db01b420b7de4; 0x74c999a39cd914b7; 0x55582dba28eda167; 0x7944485df1954adc; 0x3441034af44219ec; 0x32ad89e53b24bf1f; 0x50a7f8fc030d6ac2; 0x41f0e07adb8c7dc9; 0x5f9e32549b9aacdb; 0x19981f9150e57dc6; 0x524c403b806c6cba; 0x4d81f7112de7478f; 0x206dafeb16069669; 0x75b49222997519fb; 0x206235ff5f3efd02; 0x769f587396fdb64e; 0x12bc4eb1ce550f56; 0x10f5d9f40ba5ccb7; 0x3dfd9f91c9b66a5c; 0x328ff60c8b92dbe9; 0x1c9e4ca05df90758; 0x208ce5ead5af853f; 0x1052abb2a93ab8d3; 0x4a1e2a5fcd8d9b43; 0x6f9bef83aa9a94a; 0x72af6a385c9d3799; 0x513c028f44a1c6a1; 0x428a940a2f39712f; 0x7aab73a270535072; 0x1d1ae30bb39f4a8f; 0x26805961ab2324b; 0x5cc816a19f5b3cee; 0x65257c69d85d3445; 0xd49c69e6bc16594; 0x76e8fa8827a0c239; 0x648093731b52f7c0; 0x5b5fe1360aca286a; 0x41485f4578626e93; 0x79548c7ddaaa2389; 0x6d6a1e4214d567e4; 0x38b14ef65290b1d5; 0x5fb3d75d84f9b8de; 0x11440010f0e3a746; 0xaa00a0a88808a2a; 0x451405050154515; 0xaaa2a820a208800; 0x1515054100004010; 0x2a88288a08082a20; 0x5101510141415145; 0xa222088aaa0a28; 0x505151015514504];
   [0x5d5fd5cbaf020253; 0x64d918294a29d0d; 0x5941b4db59a757da; 0x5e85a00a4bdcd4b0; 0x5c7519afba5f5255; 0x58742fecb308581a; 0x18d689b3aede0da1; 0x1c7dd706d5d4ef05; 0x101fe22f7aa0b209; 0x790fd3dcbab9056f; 0x3ad579c3481f2b7; 0x6b1e02e079de424; 0xa3547adbf1c8fe7; 0x119dae3f0531e187; 0x118fbe68cd268ad8; 0x717dec98c0185873; 0x2e2df779a2ab276c; 0x7c3e04bd989b315d; 0x584fde45bba7d4fc; 0x38a0d473c82cbcfe; 0x152b167864a423e4; 0x5428a5183a8d9e3b; 0x7d171759a47ae000; 0x18360606714786ce; 0x2d49696ad0fa3bda; 0x1f9fbae86dada10; 0x5eff8503c87a9460; 0x415c7eb3e5587a61; 0x67c331f7ae08426e; 0x56947172418e9b33; 0x5ad810afbdc1c502; 0x324fc698d38a7db5; 0x2e3c8f923eb351c4; 0x7df97afbfac67acb; 0x337c6e2ca4f20fd7; 0x4daf6faf65153371; 0x11fd38156f83ad15; 0x3b4642d48154679d; 0x34728b17289af2f5; 0x2051e4aa71321c5d; 0x61a41e8a0ee9eb83; 0x50b713fced450e17; 0x4c1b5a2090055a69; 0x3f2089675931e362; 0x7929d623c0cad721; 0x5e7f6572bca5db82; 0x4a0752bbf74cbd61; 0x76fb72454cfdcfde; 0x708659435b7409a2; 0x1a697370f9de602f; 0x57da200c5fbfc8fe; 0x7833bf4a006a4ba1; 0x5dc297cf6e49d5de; 0x4fc8a223d9963286; 0x561740a3778ab9ce; 0x825251ee241c152; 0x694df2453b5d55a3; 0x2ac5a2a481ec71e; 0x2a8cc98336434108; 0x51c1fcc4ea685a0; 0x10db639ca373486; 0x1ca2897aec367c03; 0x222a08978eae0508; 0xbcd8c6e2b5e2aa0; 0x562b4a005a3c77ff; 0x4dc80cc48f5c1c01; 0x7bd2376ae09625c1; 0x47ac32fa1bcb0f84; 0x6863d4cacaa06fb; 0x33cf650c504254e6; 0x7721cf9a3ddba96c; 0x731a5b7b9a98c91a; 0x4cb3a25a883d6d1a; 0x2a6b2df983fd8515; 0x5081cdd4a208fda6; 0x718466b73583d60; 0x4ffd6015a8e65922; 0x154dac7ef3c8e17d; 0x6a3d1382f8abc11e; 0x373072c717bf276b; 0x282cf2dab1552ce4; 0x52ab426770974ebd; 0x4f749c9d230a817d; 0x26fcd5d53ed003f0; 0x253b65c4be168d97; 0x53bf47914e9c3ec4; 0x5361cdce43b650ca; 0x4cfb0ea520ca4794; 0x3061336114e9948f; 0x6653e6eb31875ad6; 0x6d763c543f4a70b9; 0x37e268817c6b3de7; 0x4f8408716215c00b; 0x54df4be4d02641d2; 0x338559cdf4ba45b8; 0x3d945e08f7fb6329; 0x6817a8161fac4e96; 0x6b1c7e05ba8f87d6; 0x49338302cf0bba57; 0x26fec5ad40fadf8a; 0x10da28f87c78248e; 0x2a173c0791e4141f; 0x58fc03c1266ba19d; 0x1e2ba4668490d498; 0x59a5fb0c80c6e2e9; 0x2431a45346256271; 0x6cf042e211f34a8; 0x65702c49affd9322; 0x7267fb6df88c0af3; 0x2ff4cc4b42498b31; 0x5ea948da875c1276; 0x7aa2012652353e48; 0x3d9b7144d7656692; 0x5700a03db705c343; 0x5d1e12bbf01661ee; 0x4d685bb95ad1020d; 0x4aec0db196c3bfc8; 0x6661a82e870db68d; 0x149e7687070d38dc; 0xfc2b3b2c0b0af71; 0x303d6c34db8984b; 0xbbba513bd6c9812; 0x59013bc005fb625f; 0x6ae2f22fff6c895d; 0x5d461048f3b8c245; 0x2329536db8deb6cc; 0x15e22bb5ffdfb50a; 0x5e832806716e76d8; 0x1b49648b5f93c233; 0x69257ffaceb7107b; 0x2657d730477bd418; 0xe7deec9025579ff; 0xa129f1e721dac40; 0x20248b1310a4220e; 0x702d7c2ccd9abbe9; 0x274b1856bb309976; 0x1210904f769f2e5f; 0x382860d3f79e4c29; 0x2bee4e16ed9426e2; 0x6b4db34266257c27; 0x3bdcb0c6b30c86e3; 0x2bdd351d392923d3; 0x1868603f22d1a522; 0x6ee0587f5ce74131; 0x351e375468b6eacf; 0x6d316e9c2c01f85e; 0x407d875b7620ce7a; 0x5b4ea0b6566d4c54; 0x1123a324c702c117; 0x5eacf95096a509ee; 0x4add1d0656643e8; 0x4b1b7329a881f118; 0x330e697a688d5b75; 0x7e76229b03dc808e; 0x17a4986ca8f007b9; 0x5e1dea880f703ec3; 0xc8a32b255abd24; 0x3456f518f69ac035; 0x5f761320d10fb508; 0x3b2fdbba53f31d45; 0x69401e734bbc65b0; 0x1674c6c3d5f8b766; 0xf2eadc0e73ff2cb; 0x2a40aa0e711c380; 0x8c9279797f45239; 0x1f9bb0ca13627754; 0x7ecb87c3b9b35b8d; 0x1e4be201545cf453; 0x10a049a05dc1bca4; 0xab2346cb3d081e7; 0x143a907d69c5e678; 0x2935e0ffcfb39180; 0x4a10ceed539ccd70; 0x4f46e7cc6a2aa505; 0x964074408494fc; 0x506d218217c305a4; 0x47ac160e50be069; 0x487eb1a72df7e4f; 0xf044ba8539ea5bf; 0x44a62b446f1038cb; 0x33cff5d01b746485; 0x6c6ebcb11b760d9b; 0x1bb5af014bbec618; 0x381f1ba17eae41aa; 0x4e4fe1488e113065; 0x13bfa474612ee300; 0x6aa58d67bcd472cf; 0x7c5d4b0e4bdc6f3f; 0x173433963131e57c; 0x899942848aaabd1; 0x710b451d841d4fbe; 0x253243743241eb7c; 0x59ec787609bed8f6; 0xcb965b944e48957; 0x5ea296de29df7ee3; 0x5e9899b0c916934a; 0x45b7c1eaab1864a1; 0x761918ff9a2f1db5; 0x4fbcc32be349957c; 0x3b3d1e2b6c5cc1ab; 0x976e25efc309b70; 0x64cb5982e36336fe; 0x7182e0652ace38be; 0x65d0470c52617d99; 0x2bc4439b4440e9e6; 0x91a7143ae8bcf21; 0x4f6cdc678252e50f; 0xccc598f0b71439c; 0x54d1711639aeb907; 0x43f37a8a3eef9ffe; 0x5e1836ecfc7219b3; 0x2a08a0f1ea1dddee; 0x3871e6e29d8a0583; 0xe079dee2bbbb224; 0x5a13e52fbfdd6817; 0x365a044a9fc11ff8; 0x1daca828fcad697f; 0x596ec61fd4d2adb3; 0x77ad3d0589f741ad; 0x194602642a62b61e; 0x6f43f12005a6c950; 0x4a5b1c74515328f2; 0x45f28a32a649f0a2; 0x3c531c16c5d08a5e; 0x691d4903bbfa604; 0x691cbcf28d65f7a6; 0x554c13e5f6af2388; 0x77beb9134e608b19; 0x5fc62bec893c6288; 0x60582e5001e29c5f; 0x4400fff8be7cc414; 0x40f14798926532e7; 0x4218c831d5c0a3bf; 0x7827dd9e565c6c37; 0x2a54f6b1abd7b2ad; 0x22baf0fddd81eb; 0x214fe9f0f7c93791; 0x6a88a7e965e705e5; 0x65befc30d100b0a9; 0x20b0e383363de8b6; 0x39a8172c5ffb87e3; 0x3ffc5ae2e1d7ef1d; 0x1eec97c6026f111b; 0x7a4861fede1085ef; 0x35f3fc96b490a1c5; 0x2f8fbbba86a72ee1; 0xb44e76921be4ecb; 0x2e61c58c37379c75; 0x5427507796eb61a5; 0x7723fe54257c74ad; 0xf78a55b4cb87a7b; 0x742b88c4c7ac5b62; 0x59d7307fb8bfdbb6; 0x5ed8bf5f1f1c5b71; 0x5a18d6e2a15a8a74; 0x212eebf88a2115cb; 0x529199f00b644174; 0x46701fc426211837; 0x624547eb05601850; 0x35bdc5bc746ca6d6; 0x6c937e133c0a4c18; 0x47926f7edc529b3d; 0x24958680df68d76f; 0x7dd06181ef791d56; 0x26246348b822e451; 0x18850c12330bbb9f; 0x6640a4475c8e2c2a; 0x6854f57d11fe6e9d; 0x2446d19c4c5ce678; 0x36f8c02035dfbc; 0x5ec763d1a4ec771f; 0x56fddd1804cca2ea; 0x2d5b028e49c7c7b1; 0x1ff407179d355881; 0x572f979047aace1e; 0x3fe544d1df0632f3; 0x31974ecf3af20e5a; 0x485adee33e2aaa80; 0x4bf0d3104ae3d0e5; 0x75fc760beee0b1f3; 0x2873f0ea735db2f2; 0x4e30e342bf678281; 0x55234bca070bd6ee; 0x635ec9b94788b5bc; 0x46ba97906752398c; 0x16117fd9263b8358; 0x6c33a982090ed037; 0x169af82e106a4f8e; 0x6231b95387e2a82d; 0x149a4273831f6737; 0x4ef1f2da578f9667; 0x259a50b5408d2979; 0x1f54ee4eff989361; 0x4280d6fcfb545a3a; 0x24e1e0bd9a55ada8; 0x4bd133703b15dcb; 0x61efc6fcd21a6373; 0x47d2c20d7338922; 0x6fe41d7807971db8; 0x59d5ac8097644590; 0x6e80d0ff30e2acca; 0x65752aab525fe10e; 0x3d614e94672dc452; 0x7450d38097fd4110; 0x7122704f34ac49ff; 0x58fa84c4a516bdcd; 0x169c5148c00a874e; 0x6e8b967b785202f2; 0x10010441c44b7b96; 0xa882080828a82a2; 0x4141515454511154; 0x228882a8a88a0a8a; 0x4405104410010104; 0x228a88282a8a208a; 0x5115441045041114; 0x2222000a2882a2; 0x400515414405140];
   [0x40842a463aba74d5; 0x24cfa8c53a7c84bb; 0x193b793db8ca3293; 0x5a6c4a5352c00c97; 0x6770af97b5272def; 0x5ae219578deb320e; 0x14afb295d535ba6e; 0xe2d9bfbf5914141; 0x37496dde76fcb443; 0x38fdd03ab04e9e9d; 0x757642953ee99d01; 0x34db6cceb7fbc7ca; 0x3d999c2684ecbcb0; 0x88f78ebefe4b5c8; 0x7bdfdfad63a9ec97; 0x51c2caef2db827ad; 0x7707d4e8edc511b5; 0x7f2e625631a539cb; 0x539e025d738c0eb; 0x4fd181c87b681416; 0x79c84d975b0196ca; 0x743a9ee17637e588; 0x45505340a5d681c; 0xaab71e387af1009; 0x41e62299962ece82; 0x3c28d7bbfbf2ca12; 0x56606e5a67b3ecb5; 0x7dd77b3c4ed51439; 0x5da2c93852e9e8dd; 0x62c553e03c0df343; 0xebb40bbac5b2675; 0x297737a1a50e7465; 0x6d7c3f3b5a81cf5d; 0x417620091bbddf54; 0x3dd3fee9c4dfc874; 0x3548e33ff01bdbeb; 0x775eb9c9a2f63f4d; 0x77dc58580247b284; 0x42e61ea967d9f717; 0x1c1c014ecbb130b2; 0x90c7f8a06dcb355; 0xe44b2d6ff604c81; 0x3b3f7d640efbf8a; 0x4cdf6d32ca443767; 0x5fba648e1df97f4c; 0x1cfa785fc0e8911b; 0x56d406f77a16ab77; 0x17f1a7570244f14d; 0x9934dd51b80ea34; 0x731916e516ecda3b; 0x3826345832f53d90; 0x29d2557e11f4bad0; 0x710d23431574e263; 0x55a0e55ab5e4d2ca; 0x21eca6127ff60041; 0x7ae722349dc183c4; 0x159c525388a8fede; 0xf5b5fbb11cedaaa; 0x780ccf8c16dad1d0; 0x5b4e9ab6b3cd6540; 0x7eea6e590423bd73; 0x3226a887786d8848; 0x39594c791e8f585f; 0x2ae21a7cd2c8264e; 0xbf28af44b70dad2; 0x7f5094848ea9e769; 0x5a4426400a373cf6; 0x35de9725fc143d45; 0x61eaa012c90d195e; 0x341030c31117147f; 0x5ec64fd0b0f462f; 0x434a2758dbaf3e9b; 0x1d335d06013bb8fd; 0x6034bed5ee049631; 0x45a700aa0906a001; 0x1651de41396fedab; 0x3e544e58a1dd7ed8; 0x6d84d347f984d518; 0x56d2aea9d7ee541e; 0x122c6c2abde1de25; 0x1bd7f1f74fed18b; 0x18d00a6d06da565a; 0x5034d4aec04ff11c; 0x7aacb5f247320a62; 0x230f04d31908e0f6; 0x7e5c94089ace975d; 0x68ce73628e918c39; 0x5dfeebe344f3bbda; 0x7f2d08e2051e533e; 0x5b4a9616d4c5c768; 0x7195a0b74b9d9209; 0x530ff84299ea1e71; 0x50da63aa91deafbc; 0x2cfa6c871c9612a2; 0x61d11d23d6edc17a; 0x5d8492973b62f51; 0x78c1b4d7ecc809ed; 0x75d41ec66dabda79; 0x29d2b762089f0d72; 0x5ab8aba2eb15c171; 0x61ff82afbc8272b; 0x6df4dc6849b9b49e; 0x541740fec6619eca; 0x323da15b9a41941b; 0x55806e04add0aec4; 0x54c543362b6d2884; 0x5e7768100e8ed1dd; 0x1aaa8a465113cd9b; 0x29933fd80d5f567c; 0x7481a375a4e780eb; 0xff4c928d1b9763b; 0x50e772867d481c04; 0xd98ad4c591ca16f; 0x62bf9c201499687; 0xde318fb4f924c33; 0x2186d4896a0d3353; 0x1c5d1e814df9fc9; 0x67a5f59e21eca429; 0x73135d90cbf98e39; 0x50b0ceeae8b40a55; 0x58e42f4fa8eedbae; 0x2f1374b08a71372; 0x48f28453d7cf0d20; 0x2e97cf1a3978fc76; 0x6d3d8238f41a1f6c; 0x1005c51979884260; 0x6261da712787c759; 0x72783a33c8261e9; 0x6ad192cc75a71cf1; 0x1a1c6501cc180caa; 0x548c52fe3422d38d; 0x4a150c5a3bd368e8; 0x1f75dc6b81b77827; 0x14c946e52f14ca6b; 0x2e5845858d3a8817; 0x6a4a31e498edcc42; 0x5a4c5f91f40487d; 0x4e685f434c80ba20; 0x664b27c8f420c37e; 0x369755b48ce996a7; 0x7f0b4bcd9c4678d0; 0x454b3bd24ac0dbe5; 0x769939c23b626b37; 0x27d53a482f0fd00b; 0x35aee20805b9ff62; 0x5ecb25444fd4b712; 0x3d05a5d5873808e8; 0x78d70fcd3293babf; 0x4b193c4da7649eff; 0x50ad0935f1ad23ad; 0x5bfdf3e848dd5453; 0x497d3fd0600015e; 0x1d70bf9c4d33d312; 0x2c4dc4d4884e1a8f; 0x4462f031957dd617; 0x649c0f30e00fdb0e; 0x5cacf9a67d51abdd; 0x4619f180d741add; 0x1e0ce6282410f7b0; 0x352bba276fb985a5; 0x4ab0a122fbfade; 0x18bc5d4884ea8c3c; 0x3f3cbdd17243e176; 0xc4ebd8a41642d22; 0x683826498274fd34; 0x6ae4e36a50079131; 0xc0bf05f4512551e; 0x63edc3c9f81de2d4; 0x374d2e61ea75fdc; 0x74af14915383aa2f; 0x23f03bcfb2168333; 0x5e9bfc6b72d2458c; 0x5fe1a6baf0012cfd; 0x382f34f2442768a6; 0x53aa084b3d274c79; 0x4d3f2e5d6f6dd595; 0x2d8facd49e19f64f; 0x7f3d151697bb1b81; 0x6d875106dfc6ece9; 0x5620fc58d723d882; 0x2b01868ccaf4391d; 0x51a6af7639ed2ce; 0x49647c5fb3878d50; 0x2779e6e2e6fb0c20; 0x563f7d125297573a; 0x564c183539c2a9e6; 0x32d5b9892e9b2c78; 0x295427c99fb62fa9; 0x4eba4db83208cab; 0x269cae23127e3bcc; 0x5ca847e250894663; 0x586918035db275de; 0x5056cca70dbd12bc; 0x6327ce3e96bd1328; 0x72657cb7957d4d3a; 0x8f1e13e7a72133e; 0x1d6a4075714a8bfe; 0x6d5f1ce75ef7af3; 0x7cf65ff87dc7aa7f; 0x31cadc39473a57c1; 0x585a557895c9b4c2; 0x757f490d4851ff3b; 0x200383cc233f1f74; 0xf62dd9877cb072c; 0x3ead98c2e20a567a; 0x30f9efb662df5b4e; 0x1971f49371b8ee86; 0x752ce78d9fc2ff1d; 0x3035f02f597cbd3e; 0xfbce0c5499f57f7; 0x561ceb13d09996c7; 0x7db46881677618cf; 0xb51d09491d83416; 0x7fc1fca96064d303; 0x549cf1e4cd9007f2; 0x2bb9a18d06b35589; 0x47e41d9931251ae3; 0x6ced19f54e65feb1; 0x7c3f5bcd6763a71e; 0x1eaacef81856405f; 0x5a830655d09892eb; 0x16b9d177ca8cbbb6; 0x5ca2aa1b06811cfc; 0x2f441a0b08cd0782; 0x5452fb5c48d3b413; 0x1f6d009ff5fe5bf0; 0x4bde9ac3ef589f06; 0x4e8484bd325d0d1f; 0x423800b81e2c47ce; 0x374e7cdcb828aaec; 0x63883b26999e048b; 0x65aff2ca39d2b631; 0x71102d25bdd7256e; 0x3200ec43938e8422; 0x2333099cd9f9bf52; 0x5ac76cf6e80b1630; 0x5463a653aedfe599; 0x49b59186c589f2b9; 0x24e197fd2e465b83; 0x74278a4cd3e0c348; 0x28445c35d3e50416; 0xecf9f913b54683e; 0x1a3dcd5a44950440; 0x24b97a1a262c14e0; 0x2627b3852bd20bfb; 0x25f4800a5ae04f9d; 0x398a95cfc5ea01ad; 0x40ec336cadda4536; 0x1ad8c4f198d6d3c6; 0x59d68089927d5ff9; 0x4df05182779437a6; 0x744c32145ea1d3e3; 0x7b61c7807dd4a630; 0x1282cc120b2d4a36; 0x4c49978dd854b425; 0x70a1d5a3dd43acf; 0x4f2ae3dbd9882014; 0x399eb776b3e5da61; 0x580e5228207ac864; 0x39ea70f93538ea96; 0x4870bc0374b4ab4d; 0x460275f3c5967bcd; 0x299728c616f8bf2; 0x38d7fc4c9a082739; 0x50ee688e99f28506; 0x7ca6cd907b3c6f82; 0x6928b47d36248090; 0x14a519c5593cabbe; 0x7ee7613f06fc5813; 0x6d7bb707068479a9; 0x66e0f4662f0c0624; 0x1a6f8c98741cca09; 0x718fd28139851b93; 0x1b60df1169a44978; 0x3216c97b41d001fe; 0x25b003d2ace6d79f; 0x71e5bf2bb534e6fc; 0x60290c2b0e45edb6; 0x12bd0c1a4c5ac4ef; 0xc54893651208d0b; 0x11e8a45cb8a16056; 0x6d427533df8c8823; 0x105de8049a6f7a90; 0x71d7d48f20ccc089; 0x7d3c323f989088a; 0x36fcf60cf1681a46; 0x180d999af3fe2150; 0x7e89ec6fb9231fee; 0x587882040fe8be9e; 0x1f257c3eb21f2eb9; 0x7a71ccd1b7fba268; 0x1c0e8719e585a476; 0x24a1cfd9feb2fa55; 0x31d480fe80916385; 0xbce039d63e596f1; 0x44af00b23e2458d; 0x2bf0da00f2652be7; 0x45bebe181edb7f01; 0x553ef5493ed78701; 0x69806ee84a631f78; 0x25269e650375dc0d; 0xa8758a5200b27bc; 0x248a6d02b158db09; 0x28eda29356da6654; 0x714e7489b42c10d; 0x5a902c5225acabba; 0x3798fb82aa6d0abf; 0x2fffb7fcd20be7ab; 0x1544545db612462; 0x22800008a0088a28; 0x4014415405540015; 0x28aa8800a82a02; 0x1551400510014100; 0x2a8a202a8a28882; 0x4144114111114155; 0x2a888880a80222aa; 0x451010110551445];
   [0x34a89228803c07b3; 0x4b633a45367c4d44; 0x3c9613a5a6ab2196; 0x3826999b1bde0079; 0x3d827d2be114a5d6; 0x91902081b4cd018; 0x3fddeb6ef0de4c89; 0x15cb2a0866f0bb5; 0x770eced5b5dfe5c5; 0x7f4d98f28a651a59; 0x4f0476d7e47cbf68; 0x4fafe125c5dae9f5; 0x5311d2359aa5b9b5; 0x7557d9e113d46448; 0x51bd4658d295be09; 0x202b7176904655fd; 0x216e11a6562a30f6; 0x40a29e838c0557ab; 0x53fde124fce88035; 0x6e56349eccc2a00b; 0x1d92486a2a333a90; 0x282fe3d717aa1ef0; 0x4e13018f896b0b44; 0x36e2cab84fbff114; 0x46c344e5f995ddc6; 0x7b6b8010df511a29; 0x18f325bb48911b2f; 0xfbe650531e65749; 0x7ffeaea538050ac8; 0x7e45a24e675e0db7; 0x3a7e0df31c42b4a7; 0x2871a8f018dd214b; 0x6bbec1fa7a37aed9; 0x9cb9cf258cd6a71; 0x83a9aa32cbefb6a; 0x3b26cfd7f43b7faf; 0x463c5dca331d5e01; 0x47194553ec0ceb1; 0x254cd047e4cc464c; 0x3b7c211d4bf2d7e0; 0x3c9feebe60a36e50; 0x59eff4a774513fb4; 0x38ca8b36c37152d; 0x35b1361b26a06744; 0x2f0ea312a7835b44; 0x4e10c68a5d1bc85f; 0x6b840901f9836269; 0x1ff5abeebcdd7363; 0x59c0eaae74dc95db; 0x6706e5b8bd3941fb; 0x2fc5ee6ea99b36be; 0x501a451bf6f497fc; 0x4c71daf369fce74; 0x273174501fc54f3; 0x19eac710db3e3916; 0x4621e1024541c5f4; 0x4a4e6ed5acfdeace; 0x166b5f092e0cb295; 0x2de27d848aff3421; 0x6af48ba70fe34afc; 0x60e989120a8b7fd6; 0x330a907f215fff5; 0x123dd3e9f9c85069; 0x4e3b7847cf47b453; 0x870dd9e973a4f4f; 0x34c49f9a30377e9e; 0x3f01279c4f16b6d2; 0x5126ff3fbde02f75; 0xbad67827bd00f3; 0x4e208c43ea7ffa3d; 0x49920cd40adff4d8; 0x4e44761a6b8be0b2; 0x2c76be06e11898c; 0x2e07e7ff5c0e7441; 0x284f735348a2a851; 0x34989a985b823975; 0xf7f166ce6deadac; 0x677056e9cf824efd; 0x3edb9b7bd682add7; 0x5c58c57647b614d2; 0x3b799bd9b9b35da3; 0x32b32e6f52d39ac6; 0x7648868d387015fb; 0x771f918fef97637; 0x43c0acda870ef31d; 0x4ab00714b88e886a; 0x6291c91d8ac68a25; 0x4ab012e6019f2b34; 0x6518bc32ea203870; 0x61bf2d24c9ad8583; 0x3ac9dafd3fb861e7; 0x7faa5f316e7c92a1; 0x59a9fe644d3e5f97; 0x7d366d515e95966c; 0xfd58b937ec5aa5c; 0x1401e3f7a20dc38b; 0x592d56ca289470a5; 0x1b90e055957dc0af; 0x8709d6e7753ea34; 0x178a6d567965cb27; 0x47ec48cc8b88708c; 0x580333dbca7559ef; 0x78ae59c086fc3f0a; 0x37008418cc498ef1; 0x5b11873cadf2e59; 0x2a43e0683f48b213; 0x629dab674c9b863; 0xcf494560d05b118; 0x5973c4ef8b54045c; 0x73e44ac24bd50bfa; 0xb74565eefe06141; 0x5f19c82469209ba2; 0x409d1dc55b5cbb24; 0x4903c13da9b4e2ef; 0x2df9f3ed5e80aee6; 0x60ccc83349417143; 0x152b1d6bd0eede66; 0x3aa3f00c48722d4; 0x69186d996e1bdadd; 0x678b2d53a9ab575e; 0x74724440fc82a148; 0x2330cb96a640935f; 0x6e3adfff588dfc7f; 0x2aa773efc2e9f0a3; 0x202a33138a5d9f71; 0x4f50c71815bfa247; 0x4752a74278ee738c; 0x39bce076c66b2eb3; 0x751e2fd0644917e1; 0x3d401d1610a17cb5; 0x6aee555637913a79; 0x1ba30f0ed234c51d; 0x4c3b478b6579e53f; 0x7ab28c5c0962eab4; 0xbc5c1e83044db44; 0x19b4bdd3df8f43f1; 0x7dbde50aa34f0231; 0x69d5c6d9819e93e2; 0x18a0720ceb109de3; 0x22911fb2eec2157d; 0x34b523cf0fae8dbc; 0x6a983dfcc2749efb; 0x5454fac9f9a92af8; 0x61ef0fb5e846c93; 0x32181b1e20f9ffbd; 0x67214d2e56b153d1; 0x21a57decbb657b57; 0x6c5beee7ca0d5b20; 0x6a1832509b5b0294; 0x3f42d1a3236a9324; 0x6f82dce73aee280a; 0x4e938954f4111a80; 0x4c2df58c955c144c; 0x2011f56b828b0ce7; 0x26dce41c8b92ac66; 0x62e0b724a35cd3ee; 0x44fdf671128caf5a; 0xf368efb1db6fad9; 0x7c5484074852ed48; 0x65452eed767ba30c; 0x75baad2b52d5e1cb; 0x58cd17289ce3e0d; 0xfeaeffd9c5c37fb; 0x4876d21865adc38d; 0x528da4a7bc0b7b5d; 0x3f41021b0567a2c4; 0x2052473d66d851bf; 0x7673e48a3af6b606; 0x23c149b1e376d7c6; 0x768b00821ca20962; 0x3e303f9677dfda5e; 0x7df287914124fd66; 0x1fa4c051d736ee36; 0x168e4f2e8ea3f30e; 0x1dbb881390969c20; 0x416223e24f3606d3; 0x37c9d4aebf819bcc; 0x7c79ef2bd7775401; 0x36c23a68c6c62c07; 0x1a84cbcb6b8b0d42; 0x67b79a9545df71c2; 0x4ce549cf36aa5005; 0x5666391ff1c6cc1f; 0x75919b17d7f6002d; 0x637fe2d037e085f8; 0x38c54ea521d2fe5b; 0x15a5a1aab65713b8; 0x79ad86bb426115d5; 0x7311409737cec43e; 0x26e59457a48bece8; 0x39b425257fdb9831; 0x3733c4e5fa75dcb1; 0x7cb9c5041285d58d; 0x3d8f063295119c; 0x11dd48e6bdf00cc7; 0x1633603b6e9375ca; 0x51edf5db44c06428; 0x3622bfc6522601cc; 0x32db9c146f63d22a; 0x55d5d83130479fcc; 0x28ca7b1cfeeb6c5c; 0x6f4a6dd92f93e9d9; 0x55903f1d727b78d7; 0x1496efca1661512c; 0x188f75788e7c7669; 0xeb4e74fbac1133d; 0xc1a69b647456f81; 0x2ac1a92757c250dd; 0x793fbc42b9d00659; 0x6bf40355f26fda20; 0x3ec5be645d3951e2; 0x4ee61219cecfe786; 0xc51b98fdf19c3da; 0x1d5418794323dd70; 0x6647b0bfbbd167a0; 0x44ca3114f1a0d937; 0x754c3f83e16f8d80; 0x5b43b3b240142675; 0x3974a4d13b6129f2; 0x71cb408a7d91e2c0; 0x5905e6ebc3a281cb; 0x37778daaa8097340; 0x5fbf6ab7d20e5aad; 0x11cce05c6357695c; 0x6b366b73d81ae875; 0x4d26397b0dd3167b; 0x65ccfdd5f7124f62; 0x1a74bb8d25e813e9; 0x278527aaaeec4de9; 0x477b17617869f970; 0x11b67a235438c6e6; 0x11d7dc8d9f2d2e; 0x6e274a133bf5575b; 0x65f4d4ba7486fd7a; 0x477d8bc1331e7112; 0x5553e109d7c0306a; 0x384d3df402839665; 0x4703772c1d9761f9; 0x3161aaec8e853335; 0x4c98e74be14062f7; 0x2f8d10931fc63d3a; 0x49a7b610e0c45ab9; 0x562a08243704260; 0x6402d6d3d3a65c90; 0xee68abd5dbe853b; 0x12183c926baf1594; 0x94d208d35353eab; 0x95a4b11187b268a; 0x3ef3b78b544adba1; 0x7a6b139bc1fa35eb; 0x19055b1fcc1ccaee; 0xec78186313f72b2; 0x3e4784f0786215c3; 0x5d2426e1ae6b6b23; 0x7e9936123ae4d395; 0x455d1787ad509307; 0x125c68e50744b807; 0xca7755bc9c8abf0; 0x75bea7379bfa1abf; 0x1002b9655a1143b1; 0x4aa22e760cede677; 0x108260a9b0971880; 0x69b1d8bc9dec7cd7; 0x23f0efc49d4ee31c; 0x16fdb5d999684231; 0x2330af29442a403e; 0x5a768ba5685999f7; 0x2e57fb9f7fdccd4d; 0x5963bce1c9766191; 0x4807c563028bd546; 0x72b866658df070e8; 0x180183ee35f11ac2; 0x89a23f9df79681e; 0x505bc7c02a39198; 0x1a05f06cd78d5806; 0x1c8450cb61d73da; 0xc84f2ac42d5ed49; 0x2a83562ea7419df8; 0x68989506918b360d; 0x3ad985a8028ec44c; 0x2c3c78507e0641a3; 0x3dfce2dd484a939b; 0x5d5854f6d192b410; 0x1413b4587aa3f6b1; 0x663b84fba11ca9e; 0x4c089d07f25309bd; 0x74a0894121275d63; 0x35c872386b32229; 0x7e551014bc2e9446; 0x32bf4957616f3e14; 0xacc5505cb089cb6; 0x14bf6ad96670694d; 0x769ac68c992a1834; 0x2d46586c66402958; 0x3d39f5b825688ef0; 0x25c911d19a03d559; 0x27cba84abc5cf540; 0x2d47cabc140aebcf; 0x73e4a372e02dae5a; 0x54e0f198202de019; 0x287a1d41cef3414c; 0x3282a325d6ef4268; 0x79fa33ff1c510579; 0x6cc5427bfddbdb81; 0x61b27d0213761fed; 0x3c09ea1ecc9b2aca; 0x3110217e242b0f55; 0x4de0efa9de659341; 0x5544155502ce7781; 0x8882a8080a0aa00; 0x5105450410150440; 0x202002a8a0a820a0; 0x5444404154540051; 0x2820aa8002a2a822; 0x4541055450151051; 0x2020a2a22a82220; 0x14511404540515];
   [0x18f61df67213ec53; 0x530cc7c80b42bead; 0x5761ba1ac1a1b570; 0x18d192156ead6df7; 0x2887d3e16a1f5862; 0x5433c0f8768de580; 0x45ba80c0d9db451e; 0x5215a3ea9d77b011; 0x58ef04542ff62386; 0x3516b89d03cd3ec3; 0x78b5863bad396e2e; 0x511ce18ca0ad9a04; 0x68b6a02f75645977; 0x44ba6118b80b830; 0x228ea6723139f63a; 0x23196d46d01aa50e; 0x72162baf0e5b36bb; 0x104c4becc7f6a9c; 0x21749b7511a463ce; 0x508bbb4e660b5770; 0x8e5e22246e66034; 0x55c8b1f0c3b848e9; 0x41f2de563faf0ad; 0x1093049f6b4689d0; 0x697764b4423d16b4; 0x227112b0df8fab79; 0x754467c3dc5b2cb9; 0x14868d0bc858391e; 0xc4fc7936abd602b; 0x550c33dfbdb71fe4; 0x39896c2ed00bf001; 0x70c11a380cd3ae5c; 0x15ee6c61630669d3; 0x34d58d5e50e3ab57; 0x7ffb0d395194dce1; 0x21f9185952da53c7; 0x3f453e700ff590c5; 0x15d01471c96d14de; 0x4d0e9e6d80758357; 0x678d59bf90c989dd; 0x32651968ac99fe7e; 0x3b3b533e3f39ecbd; 0x327bd10d08aaa367; 0x65b15eba201e1c57; 0x629fbb79e4a523ac; 0x73b8081f8737aa90; 0x856314ee99f758e; 0x2d712fb8116ac05f; 0x5b998252cf974382; 0x604940ceba369614; 0x25af67b149c42e8f; 0x3f8122514528d9f8; 0x69657936b95c8f1e; 0x21defec0f5b31de9; 0x164326bd534ffa00; 0x480b0adb6eb7b325; 0x4b4ead1b5da9049c; 0x4c138c96a4f654bb; 0x6bcaf1e8cce1a6aa; 0x7a84f1b722b41fda; 0x5873359ac67b5eb8; 0x257cd0b5094304eb; 0x17dcc29319c50b11; 0x1fb17cfeb4c63ce5; 0x774506df2cfaeecb; 0x88804b70e3f440a; 0x626bfa73598367b6; 0x70377be568ca8adf; 0x8b45fa167a97d2b; 0x2bc8312bb6d6b9b3; 0x4c83d39fb9942fbb; 0x3ecf7bf5d49d1aa1; 0x7348008daac7cdb5; 0x113f735265d5a383; 0x534d932fab05dbd; 0x782c112335a48125; 0x6963ef070dadba9f; 0x25f3839dee1d5127; 0x2fdaf208fd5d0fe6; 0x57b11d391f138257; 0x34f5417ac0e5275; 0x4ad10d26ad62b24a; 0x59e3433dff84db38; 0x20cbc17899d18707; 0x57ba8dc30e572afc; 0x22abec0eb551f4ae; 0x5b58deb087ee77a0; 0x6abe155bb63c9402; 0x1026dc2a513b8a83; 0xd66732720277fec; 0x466251c71e9aff48; 0x256d78059b5643f6; 0x5566914afbbdd303; 0x71a3cfada4669514; 0x1c220cf6ea1e8008; 0x480eea678fcc5a87; 0x1960596675e5bc83; 0x127b53e8ee631b32; 0x593a19d8281a0d5b; 0x7064de459da7c894; 0x7f026ae8c03c9e6e; 0x38707982bafbd96b; 0x7fe83ba996069873; 0x480448a1ed429da8; 0x85232fe1007dbfc; 0x239f2801c71e80d; 0x12b0f2e9149b3ee6; 0x4c4761df7d65c5df; 0x38fb76b36e7754e2; 0x5bc4c38c2a441cdd; 0x6b6b6baf916163a9; 0x39cf1b552ac9663; 0x41d6f91d8ba1a6b5; 0x573b72df7e38c551; 0x32c05916c72e321e; 0x1b972e34ece79968; 0x59c2743a419aa32d; 0x77b2983a444dd42b; 0x4f8ae55121931b6d; 0x1fab92ffae9945ce; 0x3b4dbe0b16db96d3; 0xda5637434f05d0c; 0x655494784fd92cc7; 0x61832526d593dfdd; 0x5caff4929f5cce68; 0x45f412527781d17b; 0x7121c1fb4d267647; 0x5949ca6d5259f45f; 0x5e4e25fa604a99a4; 0x11a933ab277b0a50; 0x59b574ce8ca3ea2c; 0xeafd45aca6bfaa5; 0x17312255b8a9ef88; 0x5f14716720f28840; 0x1d6b185d329bd608; 0x7909928affc15fae; 0x15209847b4f70d5a; 0x236e40fdd4b07b6f; 0x5c2b4e47b35e52c0; 0x250101e994b4da14; 0x27f5e934e063e391; 0xae14ad3b6f7c979; 0x65b36f7297214e0f; 0x42e28f54a81fd797; 0x2d97043a15aba664; 0x7e1df3e8022e3635; 0x4074f2c7479477f7; 0x6c90bd7919436610; 0x4ff57afd259215d8; 0xad090979664a201; 0x16f0a0e0214dd434; 0x6c997229647944cf; 0xb431f645eb449c7; 0x51712845212cf1ba; 0x7fe8c7ddf535414d; 0x4a510d79dae83299; 0x6313f5f97423a560; 0x3b709f4851baece8; 0x1e8930b0fd2a229d; 0x128192acc0467610; 0x4b166c7f6b383d6; 0x54f75ed0f623b05a; 0x62d515da453136a7; 0x27ed5e5cc723390d; 0x43989f792172297d; 0x6edaa92d16c05ff5; 0x613de30b7da981ca; 0x58c988f599c2bc00; 0x115677f8bfdd922; 0x265ec5a9f9682b1; 0x5a9f77676eb13297; 0x375c709b03ce7d9; 0x42ec28e1ea7119d2; 0x1afb555a64dffd24; 0x1539fd96a6b5f446; 0x51a5b38652bfbd7a; 0x5f7c9887a644421; 0x3e4b585ac75d1c03; 0x145437c829eac992; 0x5b1fd0aaef0b0571; 0x23014d55538ab432; 0x1ef1807a5c44d8c5; 0x4419b62346abf772; 0x3e7fbda3f3a3f6c5; 0x1ca7297b0e5dda0c; 0x2066cf66a46f3fb6; 0x5d5bddd5fc88c17d; 0x3746299ce16824bb; 0x4e9194d60d07ea; 0x306bb85c3e38caa4; 0x56e5121b61021cc6; 0x2abfc763ea5cd369; 0x239d92f780f108eb; 0xe42c14749c268bf; 0x26c8b75b9f21248b; 0x1123330160daebf9; 0x4cb3d5c5cf03a403; 0xffe8b926dfeba69; 0x79dcecb146ec104c; 0x628d1fb6c0121b51; 0x2fc151a504becc3f; 0x74efff77d7c6740b; 0x60df1d24f88a6582; 0x39ab8580b53247bb; 0xb4d6e6806edf2b4; 0x43a9ed05ab44ec4f; 0x5ba874e7a0fb6d21; 0x483a06ade3e789b; 0x12d6f291a0935527; 0x6e6ddcbbdb3aa7c1; 0x1d4d063bf0436b0f; 0x172fdf0b7308228d; 0x63d87f39e691f43b; 0x4df2de5d55964fe9; 0x433b2e0fc0ed5a3d; 0xafe368303f996; 0x13a75af8a226bacd; 0x88952568a2a06f5; 0x4d0bc9869b117782; 0x1bbf64d21e1dc8e8; 0x748e11bc57ee56bd; 0x2d84408ec4f6212b; 0xcd632331ad09a47; 0x4de91c63ec750fd5; 0x20fb66eb9a403234; 0x77a3b1ad1a807ba1; 0x1aca2ea3ee838417; 0x58c48534db8822a2; 0xd764854fed8b012; 0x2b4019ab9598b9e6; 0x41aa788e66341bcf; 0x36f749b9265f2fe5; 0x7b33aec2cc3c72d4; 0x23f3f086818ddc8; 0x27138d4fc9bc21fd; 0x353d4019365c7cfe; 0x7dc2c36121fe1236; 0xa72c0781b7debfd; 0x2b54a2522d03e042; 0x2780849763a3d20f; 0x1e72b53f9e90a9cf; 0x1c19b8386d90f5bc; 0x1012210f60171cee; 0x1490a61a49f15fbd; 0x3b8dbdd78bbc3a75; 0x3bcff1504d2c9b79; 0x566a458fbd3d6f62; 0x67dc7924a6127b83; 0x6fee012a6a2d22ba; 0x31ea1be23cb58ec9; 0x45dfc680d7d0267a; 0x64e8320c1855035d; 0x6c14045afcb99b1c; 0x54acd45a082c53e1; 0x2d97c36febafb90b; 0x3b3e770f3a1f2b65; 0x7add53ca5c64100f; 0x5c2b6def5fdee1a4; 0x1ccf3b870124b54b; 0x6bc040ddf6491428; 0x122df1d6302b3901; 0x2fe06af32599ae7c; 0x7aa90e62c6ed5167; 0x788bf1355402d5ad; 0x226f2d1579339b41; 0x48f83d15f22a2581; 0x3c72e5987276d5e; 0x6039d40642495e6d; 0x5e8c27929d0593f7; 0x629569a25430272a; 0x60e5a48b373b04ad; 0x61be2cbb14611f9c; 0x208f166dab5814c2; 0x5f8eb74cd1f3fd9; 0x685c3b6bfe26481a; 0x3fc13b92f31a8f49; 0x5cb6cf4b393d46ae; 0x61d21cb62f8c18c5; 0x7d9e768d35f8673e; 0x1d103f3c09ae4f82; 0x2b9a19ddc13416dd; 0x3055d8a9221fe842; 0x219070ed14f61b8d; 0x12ce4da093f31e70; 0x2558c0b085bf5485; 0x11bfe27d91986bce; 0xf1209cb38edf984; 0x21c5219d9351d533; 0x69bcde724c0332e8; 0x790fe7fdb207a39e; 0x38b2335faf7ee5d8; 0x75f487384dec2d3e; 0xd819d743af89554; 0x4ed82fb236386d19; 0x6bbbea05aef0c420; 0x1ede76ee6427b7ee; 0x5e8f63914c76c90c; 0x72c27a9e49d4c097; 0x2bf26150b70dd314; 0x1ff20ea9a8f44410; 0x27d2e89b94b0b9a7; 0x55f0eee9821dcd6d; 0x40a52dabcc8ed4c7; 0x7cfbdff624074e10; 0x2ef050ae62c61afe; 0x2f14fbce47d3e307; 0x2c0865b08ecb3537; 0x2efd04b496335636; 0x414004549b2895a5; 0x2a0800802020a20; 0x5404551114550154; 0x2220aaa080a88208; 0x1111014141010501; 0x28aa808020000028; 0x5454404111415041; 0x88888808288a08; 0x451440500451555];
   [0x36e43e05898aec68; 0xdde65d71b74ba51; 0x3113520408b827ed; 0x26f5bd2dda45181; 0x1b9964e2aedd4a6b; 0x6d27586fc0dff385; 0x36ccb73f5e980698; 0x73df3056abc4c209; 0x3860448e5b67cb09; 0x7c7cec1523beaa68; 0x5a309148352a73bf; 0x4f6051d4354bd513; 0x7f8a0c012329394b; 0xf1a75aa5608bdc6; 0x71deca3c5debe99f; 0x2809e292d8bd1456; 0x7c5e6c6876e7cb4d; 0x299078671c9187f3; 0x13383685e224a130; 0x36d756b0b09e1ba4; 0x4df37713e6e4c879; 0x57492dc5584acf28; 0x4f54419745331ec7; 0x7a08d44f747547ea; 0x27766a149d296962; 0x1c812c923dc8b46b; 0x305a9345a0d8fc6c; 0x4701d34515d312c3; 0x4b9399973dd4bbe9; 0x1a0a7b6e73ca1c57; 0x1f61849853afa55d; 0x4a7f7d83bc91f8d; 0x7b09622f5c764ec4; 0xcacf84eff0c81; 0x63520ded438e1f20; 0x308eedff1ab891f3; 0x2e1d65faa4979eb6; 0x33c5cdeacad255aa; 0x74ca6f4ad05db71f; 0x28b499c9ef3b8084; 0x599ea4efd77b729a; 0xf9a24a85e7b8131; 0x68d1c4b604c3e109; 0x23633d84908d2fa4; 0x395f63b22da3e0f4; 0x1a8e5c5403a37d87; 0x350694cb31e59792; 0x3e064bc47bf8b295; 0x48fab85473e54a09; 0x13a4510e79111666; 0x32fe04ec755c6523; 0x3daacfd3ba6c582b; 0x33e1c72f9a05c9a9; 0x1a7a07ebfbf06eaf; 0x26d83a9592ea612a; 0x229489589ed856db; 0x7ed28d4d4ba3c160; 0x1953321893c43366; 0x632cf3994dc84af0; 0x39c93a50732233fd; 0x1626cc1cae6da6ba; 0x5173999c4e1f33fc; 0x217936bcfb3ae747; 0x140df5cdc3832c57; 0x37fbfa465cf10272; 0x5226344ca89be66e; 0x622bd3ba1601163c; 0x216a696c977eb8f7; 0x47c7e2c766b571f8; 0x6a436e1ff4aac520; 0x66c4629d73658a60; 0x76897f452e91d79f; 0x61dcda338f932f23; 0x6eac412b9e9471e3; 0x1d53e7e1d25b7520; 0x1b028dbf87e7b8f7; 0x7b28f67db2d5c9a8; 0xcae92302d80500b; 0x37c05a35a9f02a1; 0x6ed67066167c7e43; 0x66f5a6ca10fd6b15; 0x216d5c511bde3898; 0x40e96ea21df87232; 0x999fc0a211879d8; 0x48c53c31a26dd543; 0x7132cb38dc295c22; 0x401563b367c881e2; 0x36eca0136db7a5e5; 0x8c929edb2bbbe62; 0x535106b64032da5; 0x39e7bf56a8ccb357; 0x553a6b2141fbd3fd; 0x60137c05baf94f2d; 0x715814e4cf7c0bf5; 0x349a56bc107a4d96; 0x1923af9938a10a9a; 0x7412fabe0a98df6f; 0x6f5bd816098a927b; 0x3f72f5ff67e38671; 0x4cf3f29a10c85733; 0x5cbd077f5d193d95; 0x7b062c76143251f4; 0x59468f4d3309be98; 0x24f5c57b2ed5f70c; 0x339e0f2770941e19; 0xee2bfa654d090b8; 0xc0061633a02ea41; 0x2fb1e2e9a0f17b80; 0xbb5b0e8982204f4; 0xbc3b5197aa866a4; 0x4f2f20642623d1b5; 0x147fc59895e84f45; 0x54fbd7ba0b82c57f; 0x552bad37543bf0e0; 0x6e49d3b8ba3e2a3; 0x390e02fe14d48566; 0x6b48e9bcd4c543b4; 0x1a5c41b14304cc08; 0x7c71a1a3d2c14b53; 0x17ab12703068e756; 0x43b820cb8fe508e9; 0x7acc0a4d4f8fc501; 0x1cd192b8c13a8aa9; 0x1aa66cc1b3d95a28; 0x4664041aa0d5d3be; 0x6f2f3d5c877c1736; 0x165dc0fcc5348cf2; 0x41dddc03dcf85d22; 0xb759d6fbed48767; 0x74b8ec7b2e70b77e; 0x64f1e20d61eb3bb7; 0x311eebd7874c69de; 0x507e0f29b9e853cb; 0xf445e260852dabc; 0x129043bbd2984be9; 0x2394ba3ea7725618; 0x229b983cc7934078; 0x5f60c5d9d88a65d3; 0x68f933b76e02b6ee; 0x6a66e5cb2a747467; 0x4165fa98518e69e1; 0x2aeee747f9d07e06; 0x665d82d23c2f8118; 0x288e9f4485f367f8; 0x3b397cf8ee04a560; 0x5c0303eb3dc05a23; 0x224ccfeb711b0984; 0xb73f111fa7d8427; 0x677232816d93f8f1; 0x23d58cbd71bfd46; 0x660ed7abdebd6d90; 0xe45eb10ab248d6b; 0x24536f69372e56f6; 0x59ecda59147214e7; 0x7f79089e32d8aad; 0x2ae56144df24e84c; 0x1bdcf26cbba3e11; 0x26006f3750d675da; 0x5b552582cc6ad766; 0x3fffee0f36d62a2d; 0x47218e0822c6792; 0x120d92e254a06239; 0xf82f62d3ad93af6; 0x2976ebcaf3b6da67; 0x5f73df061f4a0b29; 0x2dd290a4c307194d; 0x7cf8067c99c6f2e3; 0x805ff21fd8d490a; 0xe66b63a97cd79ae; 0x5264b268a082d94a; 0x6fbaa8498af24d6c; 0x5bc57c2aeca1abc8; 0x7efb637af014622f; 0x7c9f4f58261e7ccb; 0x6758513f13ee84ed; 0x3fbd70c55f869f49; 0x36fc4c492360ba4e; 0x74d618aa7936ccde; 0x24af88925304a10; 0x41a555fa832b2073; 0x1f16a52549109e8f; 0x4150bab21afbaab6; 0x5c6442ba4a62c8a5; 0x4bfa812ddd76b4d3; 0x4e6cc6962c89db89; 0x5ec1582116dac5af; 0x79080afbd1a5a384; 0x522d93e7619f0273; 0x7cc3441b69705795; 0x719ea7aa345d58c5; 0x543d222dfad0e037; 0x6a3a08e8c7b46d8b; 0x3423c6d795a3a83a; 0x3b98263adccb0a15; 0x594536be4c40e530; 0x1fa49f6abc780e9a; 0x3f4bafdf8966748a; 0x2db33320c8bc68f2; 0x3164545ac63f7be8; 0x2f8adc04a440c4c2; 0x62b1f8a20c1d1106; 0x1c4d6c66acd0efec; 0x70af911806efd765; 0x3fae74d2e4f3610c; 0x340b2a477c8c206b; 0x7d7c45a9fa3b0300; 0x72a058acac6112bc; 0x5ec355e45e92f46a; 0x7a7bc0c7275abd1e; 0x70b68360c4ca1b26; 0x674813eed29a2642; 0x547bdb7579c10ca3; 0x60f0c94b5a8dd493; 0x467483af1aac011; 0x35e02fa048fdf49c; 0x22827a268ef32c7a; 0x78168a43b174beaf; 0x69d4c7562b4b9243; 0x6774e4467d96e0a7; 0x6204b2c6c7079e49; 0x34c7f4f1b8bf799e; 0x4f0268ac259971c5; 0x6dff8dca4020ad52; 0x77e65ac56f9e9b8a; 0x35409bfb48a46f15; 0x1579bfb14509d90b; 0x50913e0d5c21580d; 0x4e63035a88579421; 0x5e00ee04d4861a75; 0x430e10986c013b61; 0x21eb427741f316ad; 0x1230ad98991dd82c; 0x68bc9ca0aa9e637e; 0x7c9b1c3b1e47de67; 0x23c3103b71bbd674; 0x6f873d02ff9f1d51; 0x2178880636414044; 0x604defd9eaf4ee4d; 0x7d448a8483c4b469; 0xf48aea092979a2c; 0x3217bce45fdf8a19; 0x367840e5cb8ba205; 0x2b26e6cc2356e922; 0x13bc4d691c56da7a; 0x6536e2cc9902a962; 0x81ca017a0725a23; 0x7256bb6b3bdf2b1b; 0x615e5a63d1c9a1; 0x34cd9c16c4aaf61; 0x434dff650aa7139c; 0x17a8d054e4b9d7fd; 0x73351666dd45bc85; 0x753aa4a0f0d52501; 0x349cde2aab2759ec; 0x689860a1a1718361; 0xd977a5d96230a42; 0x266f5479479f5490; 0x5405de1a4033922c; 0x18c52e6ffb32c422; 0x1645d9ffb69a97e4; 0x18063c0fc18ecbe8; 0x350e1f0f2ddfbfe; 0x5ccadc5de862ef15; 0x200efe1aa7aed698; 0x303d32c8dfd56eaf; 0x115005e257b1389b; 0x3654de5418ddc1ef; 0x7edce48338701b4b; 0x41c4b510ffc763b3; 0x3a11258379fa8fc8; 0x39aca3b6dad1be1a; 0x3f94cd6947b78bb0; 0x9a628cef0f16cea; 0x758042992c763083; 0x25611ec7923dbb03; 0x35fb8e91bf7891ac; 0x5473992f73e1f5fd; 0x26ced28589bc947f; 0x5ce462d49af832b7; 0x19b9034ca64f3c1f; 0x3796b45308326935; 0x1c1356f91c8e58db; 0x629b427e185c010d; 0x53752d24b3cb3d40; 0x36670f86c0828209; 0x17ab48e248e5564b; 0x51e57be8ba9ac6f4; 0x97f298892923c86; 0x47d2c9853cea4ced; 0x31be84d3167a0f9d; 0x734ccd5e7c75ffe2; 0x459cd221a25130d8; 0x1ece3c61789e0ff2; 0x27921d97d2df73c7; 0x8b7efce85cf2c99; 0x2543d30d0c779401; 0x4597457c4c7f5946; 0xf8b9c11a513d006; 0x255c06569719730e; 0x38ffe82ec3bb09b6; 0x25c6a471cb3b4571; 0x5e9590849268d433; 0x9d8850bc2ac687f; 0x791b13c031e8db33; 0x5d0f6d7df13228e3; 0x2d96c13aa469a67c; 0x5ee7eb94c08aa903; 0x34c61922be54cd24; 0x450541112a9b46ec; 0x2222a08aaa0a0a; 0x5411154411444104; 0x2208820a0a0a28a2; 0x101105105014400; 0x8a8aa28a282a00; 0x151114505540101; 0x8a80a82022a08; 0x154501541445455];
   [0x480586d207e187bb; 0x71f68d1df58fd56e; 0x3ab6b5a725ecbb6d; 0x38a83c2c9174f705; 0x2d84e2389ce694e9; 0x253ad11c0b7de5c3; 0x5645bce60208751b; 0x5c462a1781b97a47; 0x5a42f236ce0fa58; 0x43fc7bfb755747bb; 0x48fda9d1c4340078; 0x25d44434f438d309; 0x1a1aedea30620892; 0x5d3e91879141441; 0x3068e169e74e2b94; 0x339cb420b93aed0d; 0x7d8cef81e06e6f2f; 0x6be27a9de6cf0371; 0x5bd724f302e61f6; 0x588d4ce773e70433; 0x2b89f8e3539f58c2; 0x34591f78c8bddb3f; 0x2ef7c1ffd9bc2f5; 0x10dcf0df55a71052; 0x16d773c2d0443de2; 0x7660ff1fdda2f86f; 0x1c1cc28170f83151; 0x459534e7e289f338; 0x72454019b83a88e2; 0x510b159c697b6759; 0x68ec5151f0a4da17; 0x7f2cbf82ac87aa29; 0x6e4be0800acda21f; 0x3a257534fdfd196c; 0xabee799ae4c22c2; 0x98c35948bcb83a9; 0x29b84b251883c08a; 0x5c8d4c15aae18faa; 0x2533a4ac399ddf75; 0x1e1f4e09a577e44; 0x696eb0ced822855c; 0x430b2bf7c1fc9936; 0x22be85c1a5beaa7b; 0x61cb610142d28e3; 0x1878959c7e15185c; 0x6be8833f69d58427; 0x53b3875c3b6de566; 0x6029d725f925610e; 0x4d347cfd6aee2fc8; 0x140c65b83336c968; 0x274cfbf53e478da4; 0xc063f3bef2e3733; 0xe4c3ee8b4aa7e31; 0x489d26a1a199ec32; 0x63b523a7f2c59180; 0x751dfab7b0d51971; 0x239bdde3fea89533; 0x544c4a3fd801506e; 0x1678173e9f371309; 0x6897469bb30cfcf5; 0x4572a4305a7fa818; 0x6f22b51da195bbc0; 0x6748b6bc4ce94faa; 0x30d973011fc343bb; 0x534fe910252c4f30; 0x53738caa349b3a4a; 0x6c60ffae571ab0e8; 0x1aa8f90eb01a77c3; 0x7418d3ddeec65068; 0x61f735e45e7924df; 0x3f39de5650ac286d; 0xa7f623be9c71c24; 0x2346b584cbafbb1; 0x1893dd44228bee00; 0x97105e31304eac1; 0x5eee5229c6d84abf; 0x19028939e8ebff13; 0x46de3bef8475341b; 0x4bcc2b15951420ea; 0x150503ef3a9416bd; 0x76bfa9889f877378; 0x161b6a7ad5b6e06f; 0x78fa303b912be4a2; 0x438667fa1d589699; 0x1cb0a0c69640b7e1; 0x42330900b216c8f1; 0x14b65e044eebaa73; 0x2b3bfef295d42c1c; 0x66c6d68b502b681f; 0x517931ff59a36bc1; 0xee2a9bd302ad480; 0x5bc811ac54fe9b88; 0x533916a86f654c89; 0x582160e958007d76; 0x5f037b6475ea3bd9; 0x1623dae832dfedbe; 0x1c408ea93f899046; 0x3ac327efc9be414a; 0x3a2bd8d1aebb4fd1; 0x25b8235ed858c687; 0x3350f9ef45a1a56d; 0x55febc86ac25af67; 0x3eb1609f8dde2df2; 0x42651e81db50a2c1; 0x27bebda8a745c9c6; 0x2e9980c7c8cac57d; 0x1bc43905babd3f9b; 0x20255a2f25acea64; 0x6154bbcc4b19fd85; 0x2792ad35c7655e06; 0x3ad85781fb53a5fd; 0x65b7359f67a86df1; 0x691d27beed8a7020; 0x1740e04dde948ac5; 0x1eca85e1621e6fdf; 0x2e9f6b43d42d4cf; 0x2ece2a750359fea8; 0x76d3ab61648f6c63; 0x1ea6696769cd8c45; 0xe03138428278852; 0x14721f5f79b2e974; 0x3b9fa2cbcd326a47; 0x49bb093c689b8274; 0xb162c57c74c202; 0x4677aa0827cfcd7e; 0x52d3701bb68bb5ea; 0x753fc76b1200145a; 0x5fba33d5fd09786; 0x46fd83847caf758b; 0x656324aed13679eb; 0x46806728ead0a272; 0x221d96876b9eb9e4; 0x4bf3badee5abf531; 0x1a3e0bb4ef00ec3a; 0x6972609a921ae31a; 0x529155db43578bf5; 0x6c41b96022293af2; 0x30144449a4a05a3c; 0x7d32b538ebf58dbc; 0x783984e2246fed93; 0x6f0a2cebc866ef61; 0x189c952b71ec01e9; 0x6a4ab02c414f0c1a; 0x36f8ce9e2030693d; 0x7b69f52e8fa10cea; 0x1b57b6d3193b1227; 0x4a1771654cf79382; 0x713ae23cd28dd52b; 0x50b9a80b2c3122c4; 0x6f734c11fa7c0844; 0x5dd75118dcc835c0; 0x2713e71df53da369; 0x59b72331ad35ab1f; 0x274299a32b4e1703; 0x67d3292b79be10ad; 0x394619efecc8c4d4; 0x53a21c51d486fba3; 0x724ef0cb6e4bba99; 0x72e3216f99808ba1; 0x3fce767aaac1bbfa; 0x3a81b674a1f631eb; 0x41c54f3bde34521b; 0x6613c25cf2ab61ad; 0x71c6e855d866b0ca; 0x355d48c0445a273b; 0x351feeb4ad4985d0; 0x685b255629dfff4f; 0x5a8d5914f29e7d9d; 0x5ad364af4f4c072c; 0x56512d7996d728f2; 0x425ed46f263a1f1b; 0x7a62e65ccc217a2; 0x62867c57adecd420; 0x36e433c9c958d6b0; 0x65d75443808b89e3; 0x4b56aa6ae1097c8f; 0x41e751ea219fa7d0; 0x6b4f8dcbc2b542ff; 0xb76f09cc0719980; 0x77906961e9a14445; 0x72f6d405190cac73; 0x6556230ba3a1c; 0x3d973d31b929d6ff; 0x25a59b84f2ceaf8; 0x4af06802394988eb; 0x65f625b612a92966; 0x1945f196a992ec90; 0x1780c6f78e5826f3; 0x1e51d1b5cb630341; 0x695534f558ab0171; 0x20f1f7733583b364; 0x3b29743726acafe0; 0x7a5be987ceae907c; 0x71dd8bb939badaff; 0xbecf31a8e5f0024; 0x79db8d5ed3045e54; 0x1aede6eeea47ff08; 0x61842ca5cbeb7e2e; 0x54add046f113347; 0x60d92b0ca28966ce; 0x11745765d65fd809; 0x7507f03a6f359944; 0x51c14a3fb6c89fa4; 0x60eba36c4f0db6fc; 0x1f73dfa9aa44f5b9; 0x7b90aade72eaffec; 0x50b6557c291bd714; 0x6f6129f3587f8685; 0x4d4252bd0b0e2556; 0x54cc4b37691febb8; 0x41221aaeee7a5800; 0x2f4bc9e54a8ecc20; 0x7bfbbc7c2b32d687; 0x1ad9abf86341a2a7; 0x608c0cf2ab6089f5; 0xb2c66846c69c416; 0x7a4a4f67e8b182a7; 0x239290becb9744f3; 0x3adb0e9d2b232a70; 0x3911b78893d97818; 0xf2e4e2c6da07374; 0x487af0b0f9cd3627; 0x7c7cc6271148a1b1; 0x29f8b0b6a28ed599; 0x3d4ba1509b31f9f2; 0x1d76776084393749; 0x774e078c5beda53b; 0x432a058027f0554c; 0x27e0a6ae692b961c; 0xae85081640d987a; 0x6014640e0d681f29; 0x16f60ea0be370796; 0x35df32eacdfbbce7; 0x3a3713db3a927716; 0x41a356f42192a477; 0x1409e3606f6abebb; 0x62cdcf79a460d421; 0x380ab55a903cf378; 0x618ef757b9c7ea78; 0x759475158786a1c7; 0x2a1c9dd198d09f1b; 0x4365f25f1a727c21; 0x6b60857bcf17430; 0x503e97738e8733de; 0x62d8083d7e015af2; 0x35682b7db1cfb6b9; 0x27fbbdfc2432f594; 0x6296a0a57f8c63fa; 0x554410b7772955f7; 0x2084705c426c408b; 0x43d850ff6e4dcdc0; 0xa6e348dbe1b1d6; 0x1973d4bfc896fca5; 0x1326ce00f1811f79; 0x30754f8b2bd0221a; 0x122c270c293fce21; 0x18462d711b454490; 0x5991c4772646a56d; 0x4a6cef39434a9bec; 0x1dd8b2646f0fccae; 0x6391588654e292c; 0x7ea8cd792e13e26b; 0x43a1b3047820b00d; 0x73be3f44d3e10b70; 0x2368d60315bd4344; 0x4693f5e122c80997; 0xed02cc77c679647; 0x6eb361a677bd61c3; 0x110d3912c2829d1f; 0x3d876ca532247914; 0x795eea25e15c72a3; 0x3158a25c3165e8b2; 0x3438556ba4d6e0f; 0x1dc33586383cffc8; 0x2f2de5f25090e8a0; 0x64bd97eb35d2f17; 0x46bedb07b4a2bc10; 0x591bb0ca8cc3443b; 0x423334c90a99f9f0; 0x736d65122ea65e59; 0x67ce2f4926c5c10b; 0x351821dd8a597783; 0x53f7f38fe75aa3c8; 0x7ad9e15f9c052d3b; 0x5c91a0542533af90; 0x7fcae167b94f64ba; 0x54766c3ae77d95ba; 0x49daf1aac358050e; 0x373746b4cf319f85; 0x14667906dff71ef; 0x3411914a7f9828f9; 0x2ca108de28092ae; 0x616e8b104ecbb662; 0x41bcc81946da0757; 0x272ddf772559ed6c; 0x7a3ba2d8f471a511; 0x60317cce41dbc75a; 0x3183847d47149dfd; 0x651dd5176913dce7; 0x2741c331e19b4d7f; 0x59a4cca58d23055d; 0x45e0e5abf9784961; 0x442675817affb3fc; 0x22bdc6922d8cb6af; 0x41fe3b50627c94f1; 0x2a7a606a5af7e89d; 0x2ae6c54663b01b4a; 0x62f9fa9ac1bec53e; 0x55014410e78bb199; 0xaa8a02008aaa828; 0x4504551111510544; 0x2a22aa282aaaa2a; 0x14114001054515; 0x280022a002008a28; 0x4451405454150455; 0x2a2a820280888a0a; 0x514550444054444];
   [0x4683b8bb9ac21c39; 0x30ba94f19f3512d9; 0x149910ac6ddd01a0; 0x185c41478411c5ee; 0x78c83b654a52294; 0x374461b4f04a25f5; 0x3b6014e4ab07642a; 0x365b29c23beb86a; 0x13d6dead764cc408; 0x446096bd21c7c075; 0x72708c0f689e62a3; 0x2599485f16a7e800; 0x6c543c9dc8613fb2; 0x646a3462e166d8c; 0x67db57484d1eab8d; 0x61e011f3f9aa8ae2; 0x435a806a454f2593; 0x40902e5b850745ab; 0x6d95fcb1e8b318f3; 0x6d85be8a7cb5cb64; 0x59b6568a7666a1b3; 0x7fa733336605830e; 0x4003f92f1ddd5897; 0x10fcc7178efc75d0; 0x5b39dbbf112ef8e5; 0x53dcc13042fd5771; 0x29b2d298a93b3dfd; 0x23cfd613c944b250; 0x408e55ebea8b25b2; 0x1ce1ec2c32cc90a4; 0x10316bf74df56ace; 0x6aa5857d098bf563; 0x3476b076824442; 0x2d16d27b923967cf; 0x587f41ef8205a7fc; 0x7ba3ff6008d089ef; 0x424b07edb9cb0c37; 0xaf75f9f17ece7b3; 0x2ffba0df28486df2; 0x16ffeec46a4e8a1d; 0x6c9ed964995baf61; 0x53aefd4d2e00c726; 0x1205e4e38df18a5; 0x56d1ba2d4fe4595b; 0x1f8af90aaa698089; 0x7218ddc4d1ccef99; 0x77566e55976bfe46; 0x5b18fa2e84adaf26; 0x6c64157c72e65259; 0x24760feaadbc2a52; 0xfecffcada34a845; 0x7565d57329a2becb; 0x4386d5485f50bbb6; 0x6b6bc64660a1104c; 0x1d4ad8dca801ec90; 0x2ef3a81a85a8713f; 0x5b68e09f29a8c08b; 0x2c1930889e1d4339; 0x2e850ffd9ce7c6cd; 0x4fcedda8c553cd3f; 0xd95fbd7553a98d0; 0x5b4c2c0e0c365b52; 0x36fe89901be6f8d6; 0x602138e433659dbf; 0x6af15a1fc319adda; 0x3dfe0969dbec5f7f; 0x3a766365715d76e1; 0x3943d72b808d3ad; 0x32e4d71070e3543a; 0x386b4a35f0191246; 0x746c167e146b1e45; 0x7d48ad2d38a2ab65; 0x41a46e6c2603faad; 0x1cc0bc2621d19eae; 0x6220694047252b55; 0x4529a3bccf666201; 0xe615d32ce35b2b5; 0xa2339f78909ade; 0x4f9304c03205252f; 0x29ec5a3f342664ff; 0x3eb212ae3ff98704; 0x5298c36f0ee83da7; 0x2d734556e829c57b; 0x763e20b53348f2da; 0x20aa8cef4d69826; 0x5c0ef01ba1797727; 0x12785473cf863511; 0x26528a129b7697f; 0x4f65726208964848; 0x70eb4b2a5e8a0227; 0x4e58384fb9765321; 0x5a4f0729544f1430; 0x7c2a127f6ff8d04f; 0x61f0e115baeae973; 0x41733cb012c54092; 0x64fc9887429f052f; 0x716d74620bb7b9f4; 0x5389b89d5b05edb3; 0x756911a47d479759; 0x665ac9fd91e55781; 0x7cd29d17b0882e37; 0x2759747ffdc10df5; 0x7baad630907a6b19; 0x130964c2f610674b; 0x3300594bf75e0d2f; 0x2aae8a7353746902; 0x17ac3b5a9ebf61c4; 0x7b41de346d7b2fc8; 0x3bb27ce184ed74e4; 0x17bfae82a6fd15fa; 0x1840bbfca7a70fc3; 0x32dda3c9aa12c8cc; 0x70229e15a905df1b; 0x5883812e978ca31e; 0x26239183ddc3bd30; 0x510e845f9b33e165; 0x5115dc2a616a212a; 0x721cfad181757301; 0x72222b9fd43356c6; 0xc404ea1aceaed42; 0x20a31ea2a55261e3; 0x51419269a8191560; 0x3084b754ae300789; 0x3261eefeadbeb291; 0xe3e9fd9ed637b59; 0x1cdc5111ce66dce4; 0x44cd57bc2887c996; 0x76d8e093baed1f79; 0x140834c46096fd23; 0x35026e12222c8a61; 0x187670fd0bbf782a; 0x588a6249f60db21; 0x6e0a7b505c0d6baa; 0x5190be2c969d6205; 0x62c1b0b069a5dd32; 0xd180df3a8d9974f; 0x1189d5c0b1938fee; 0x39473b5ef9ccf146; 0x78443cf654d546f1; 0x592d3b20411c2872; 0x3d2cd4bcb0c738db; 0x54fcc03a6c72cf95; 0x4d86363b20016aac; 0x3ef90f777b955d20; 0x17c7381dec97e7c2; 0x6278603ecad875e7; 0xd66a674839821f8; 0x77089006d47ddf0d; 0x5fa2d2e4322ac5c7; 0x155faa92c11a7744; 0x6e568280223c05d7; 0x199ff616bc8561b2; 0x5547f1595a031ed3; 0x7bf8a8a4199e11fe; 0x1f3d83262c425716; 0x2f5d93ade61f249; 0x1e118300d6592725; 0x4659665f66919c7c; 0x31171728c6b0d04b; 0x7e6eba4f68516ac0; 0x69cd921d00f56fae; 0x774e37713a9f8f86; 0xa598b7699660fd2; 0x370e656c892b2b82; 0x49c087f87bbc7593; 0x7ac55b47ee88b718; 0x3edd2b05e19ee349; 0x7dd607f0b32acc5a; 0x49397063ae5c96cf; 0x55d5a5f4f6b09122; 0x47d4da491eceb3b3; 0x3004edd52022289f; 0x547ea53efe29dcd6; 0x4bae7ed9f21a7ef1; 0x6d0fed5b872f09af; 0x56aff3cc3d75c3c2; 0x3a3487181885415d; 0x3fa431bfe73768a2; 0x4cf4710f1f1064d0; 0x1e6bb46f66cb897b; 0x4ab6775d6ffd31ea; 0x30c9f19940c481d5; 0x4894c43b5271ee8f; 0x7e7426de2cce0b3d; 0x18d10fd2bfc791b7; 0x7f42c5958135f2fc; 0x790a74dba5019fd9; 0x5fe6579c4e03fdef; 0x14b382ac3d379faf; 0x75ef7bc3c73afe36; 0x51831aca0a0cab57; 0x68eb2e24d0bb3d10; 0x5ce5e162c8d9bbe4; 0x1bca40886d5d4c61; 0x564bedee4c24dfdf; 0x37dc388eef830ea; 0x6665dbe36f680d5a; 0x310fd9fd5cb5d897; 0x45a0fe595739eb0b; 0x1cfaf09bf2e1a13c; 0x31d5017ebb6c47d0; 0x5a2004498777751c; 0x718bf1dd7b91890a; 0x557f4b70ef1aabb9; 0x73bc866c081bea67; 0x632a0ab53aa84a83; 0x6a5e29b636c89178; 0x6557af2f9a4fc108; 0x7b1350508d4b9ff4; 0x48682ccc3c5fa2f5; 0x28434df7ae7feea1; 0x5fcd7c2c8a1d58ac; 0x349bb573240712c8; 0x3014a0657d3a4d21; 0x21e613f39fb55740; 0x1f60d5357894c525; 0x358c6be3a57d9d6; 0x3b0de52ec74e8e8a; 0x4625bc1f44aa9b96; 0x2692a2088a714ecd; 0x2ca116c1e12c3fe; 0x698b02595340df1a; 0x4890cbc258312e42; 0x7e5b00684ef5b3af; 0x53bb3a0b8fe331cc; 0x7edda9cf7bcc8dcc; 0x1c8e09ce34ad0248; 0x2011754d1352fa24; 0x78c579e405d1f977; 0x5c852028984d6b97; 0x785b4e5659ccbac6; 0x3eaea8f544ee2d3f; 0x7983f68f5650a359; 0x774741aa3699296d; 0x4113753e69361108; 0x79f5d23b6e53fb81; 0x4bb79dc40f9fa1fa; 0x34b01c763164f3d1; 0x44f49456ada65c62; 0x2ff553974f150cd3; 0x7820df8dcb10adcc; 0xc9fcad238cda30; 0x1831c47eef1c7b3; 0xf7ef41882a475a0; 0x47c3422735be4674; 0x15eaeff0cce3d8a5; 0x64296a3a774a9336; 0x2d91f794190dd736; 0x668a47598a685046; 0x61ea6fd1acd781b0; 0x341a0da07b82cbf4; 0x6d8643fdb7a6daed; 0x6e4db41072de0366; 0x6ac5953a737c88ca; 0x70bcf459578e75c2; 0x1994b619ab787915; 0x31d0e5cff49907e0; 0x6a73971287c15b02; 0x6d702af8e901d7fc; 0x13d68a3c0056038d; 0x2b44523c4feef912; 0x46ae238fca6d69a; 0x721d3932e738ebe5; 0x27ae125aba2ca170; 0x1ea66edc412dbb1e; 0x2bd99f3d3deab1e9; 0x3ee4fcca190d835d; 0x5d1c65029e12c54e; 0x35405fdd5f540536; 0x55adf3a15d3d5211; 0x56263c915d89e60c; 0x441edbf93de7f1e8; 0x29e926586b2d287d; 0x72537bdae85e246f; 0x449445a1c6281c7b; 0x10327c7b5f4fd2bf; 0xbc8ecdefd21d860; 0x51886ce77c37b580; 0x58a45f78ba573155; 0x7bf589b6c3dc6887; 0x1d31396bd423578e; 0x459c465cbab0be08; 0x3c106a416ea040f3; 0x59681adac1b4f63c; 0x6c97fb1733885a33; 0x525b27e279432372; 0x6dec843a655811b8; 0x6bcc37ed5b62e4eb; 0x6c91939dfab20bf0; 0x3ef2181eb9dc2ecc; 0x3a21ee469b051c00; 0x608618c50d8f8434; 0x19ed3c708b8d86c; 0x493837e4322f4561; 0x5156d5fe00783e17; 0x66d171144ee59c1d; 0x5b9ce88a060d9725; 0x6af10542a2a86f7b; 0x542c84c2ca408ea1; 0x4910960ded3fbb36; 0x1b536253b49c97d5; 0xaff8c236b6d9439; 0x50766be2651607a2; 0xd9f181a6d6400c; 0x17e1db26404666f7; 0x42157bbc3e73c034; 0x6469e79a97f4a04; 0x21ffdfe362ef4423; 0x10050410fadda6fb; 0x28a2888a228800a8; 0x4544140411440000; 0x2aa80080a00a008a; 0x4511151150041410; 0x28000a22a200a208; 0x5550404140150440; 0x22a8aa8808a20282; 0x554451550150010];
   [0x1e77d0c2579a34f8; 0x6d1eaf8d67fb63a1; 0x4d617065a1682354; 0x68b688f1c698dec9; 0x738cf59064e93449; 0x3e4c941ca07b7645; 0x32965b7ba5d23da2; 0x75172ba338b14137; 0x1902cd03a4138eac; 0x469cfa9ef50227b2; 0x4f61131416d3347d; 0x57e06f38c12f56cc; 0x14fa4b74461c034a; 0xc87dd28d84f755b; 0x79e1c60919433640; 0x1155f6ae2033fd09; 0x2f3aa4c0f7790763; 0x6eb2e70f3c5aa97c; 0xb27577eb62d4c70; 0x7bfd97f1d595a61d; 0x368bf94582a1d6ef; 0x6da7135560d1e68e; 0x70e13d8e4094e529; 0x6c27adf5915aa44f; 0x1839532ec6349e66; 0x3b48c0a54b125ff1; 0x1fec83d843e1ce65; 0x64df723cc6e423eb; 0x14340ad9b3131d07; 0x2bcb3b44868bb62d; 0x2d7ebc03c9855758; 0x49574a00010e9d11; 0x5c5bb5c5e70593dd; 0x518e055e537025c; 0x69a5bd0567639abe; 0x4c3f51be3bec6e04; 0x1b082df3088240ae; 0x59f594ded1a6ef30; 0x171f73e275247503; 0x287dbfea4f9eb226; 0x7a85102afd65c618; 0x4466045e8dae758a; 0x17af14d4206f305b; 0x2ac1977948e280db; 0x1e58d23bc69e29a9; 0x7141cdb175bfbbaa; 0x56d0c46509855196; 0x790f0b339681babc; 0x61a79caea15ce559; 0x32c6f642d66c60c0; 0x43b7639b823fc1dd; 0x1fc4b1bfcdf4a503; 0x34560db004da9ede; 0x6d1555fc8c5738f1; 0x490e0a5b261f6804; 0x4c035213abe142e1; 0x130664e42ad29109; 0x5eb4545660dcebd9; 0x512e966da9dcf29a; 0xcec34f0217a6802; 0x4dc09386e6738595; 0x5249388e8765c412; 0x724d539f8cabfc12; 0x1cba203fcdac83eb; 0x4d238bf873ba234a; 0x2fc2fd6c16e059e2; 0x3136cfd0be2cebf4; 0x2a635c0880e635de; 0x52be70a5de1820e9; 0x6b2d46bcb0c1f236; 0x18b5b4c761bccdfb; 0x42d2d4be12d2ed9; 0x265fc1ec7ad4804e; 0x3f09e021a9e84b23; 0x30234edf1fcfca8b; 0x2c0f2d057393f7f0; 0x2392250aee18af87; 0x26c91e50147ab7f4; 0x6871ed0b5b5c0a30; 0x5e82c200b4504744; 0x3dd32e4d2c72eef8; 0x52f2c55740bb764d; 0x75221fe1c9347a58; 0x2d9b8f76f64715ef; 0x5a76ed33a401fd3c; 0x2d1a52e4d3f3491f; 0x420b7a15b52f3ca1; 0x4492c1e46d953005; 0x303e23115b0e6e1a; 0x1c3cf94131490561; 0x55dcc743571d8573; 0x36e9a3119613ac0d; 0x6483b5fface3e6c5; 0x2c0e3fc54d298daa; 0x5edfbf43e288c4cb; 0x5d1bd343622c0038; 0x5a72fcb10ab2026d; 0x6e9f1ea3faee5d8a; 0x26cf7d4c2bed9e6b; 0x323780b077fd276f; 0x8ae1b5e4f584a9b; 0x537d4f3ecc50c52a; 0x1bf1fd933ddfff27; 0xdfdfe58f13f979e; 0x177bc14906175288; 0x6744ab153de80568; 0x56996a17779b9027; 0x364057ff6f389aa3; 0x370da0fe028be509; 0xecda7e2d2107067; 0x41859685a6b836fd; 0x4ca6996785b61eb2; 0x7fd5192571e0b566; 0x2b8220d7c40b127e; 0x74e9bbe020962288; 0x790c23761b05d39; 0x25e26835cb3cd92c; 0x4a638dfb950db499; 0x145c4ed46c77ddf4; 0x45a63a36c4be9448; 0x624ac48112f703b5; 0x32c03b889ad1ba13; 0x6e2ae8c1ea5b5550; 0x408637c766fa2e75; 0x1af4f129766f722e; 0x92c410cdc1e77cf; 0x36bed1b061b3dba3; 0x4e7a5184d09a8874; 0x7aaba1da6bf44e87; 0x7f7b3f7ebefc5696; 0x13bd9e708d753f77; 0x6c7a6ded50a2109a; 0x4d08c6d49b91b803; 0x5d563b538ea45462; 0x75d3aec6a74557f0; 0x1339c644d829b518; 0x482d994672acb894; 0x1854fffc3d9eebd; 0x51fc9e3d80957671; 0x429f23c4827d32fd; 0x5bfe41c7aaeebf33; 0x35e8e7d5a0154efe; 0x63ad4add355c4017; 0x6d51b7cfb2ff76c6; 0x3268fc321351a20b; 0x6199038802fc548f; 0x473181abc31e94bf; 0x2dc9a754e5f29d59; 0x593bd26445043628; 0x11c2db5bce36da8b; 0x58f200c89734e809; 0x5d341536a9de88e2; 0x57bbb8c9b4c00e8a; 0x3b4f23c9cd82274; 0x25edb37572148775; 0x12564046f2df40b8; 0x4a0ab15060f1504b; 0x11e81631bac77fdf; 0x3dedeb4b6d63d708; 0x10d4a68c0c31a75a; 0x68d868423ad60303; 0x24bcf06c50a9d046; 0x5005f91d440f2bbb; 0x2fe1df4a0a45a798; 0x229b7cb17314dbf4; 0x7bfb140ba668a431; 0x68bc73cdc525bd5b; 0x6500f60b72c50a84; 0xc204399ad9389f1; 0x714f93456a78b6e6; 0x64cfc2e6759dac98; 0x49514ccb819ed81b; 0x37d5ed5ea8df7f55; 0x5187463aa2e2b4f2; 0x58e2b12ff79aff7; 0x1028eccd0e4f2edc; 0x37511260188d0af4; 0x63bfc68febdd0be6; 0x384628b6dc09543d; 0x6a85a52d2aa1747b; 0x75ec23267f87cab5; 0x6ccc4ef2b36b21be; 0x5dd9ddb8eacef394; 0x294165b4dcac6f77; 0x6fe16bdf72560c5a; 0x62ee02f350a68545; 0x44a9132a2d8799af; 0x7e45793f6de9e35b; 0x331095bde5c85b0; 0x368165d5eb82d44f; 0x44bf45b90d37dff8; 0x57fcee6b3c60783c; 0x6b17ce66d43e8e07; 0x393907dd05f769f4; 0x284fb7fd017f193b; 0x6136eecb3754d03; 0x52d367ba31250507; 0xf236e6b71ff7d7b; 0x2e37920c7cccb49d; 0x4c9a59fb0af31a04; 0x24f6aa51eca577e9; 0x66bb43079f7a3e3b; 0x1040b53832e3e170; 0x151e4b37db604a96; 0x593924910e43cfcd; 0x315bccdcd602a6fe; 0x25ca73c1ffb5a793; 0x42a3f898df9af220; 0x1fce027de10fd3fa; 0x6c9616ba1d6eb504; 0x7316068f9ea3e631; 0x34fcab977cf65556; 0x3aa3b2c5d1339bf7; 0x44ae68f6d6c7ccbc; 0x313147c526abc7f4; 0x10a7b6e4bc070e8d; 0x2a265903ccf41cb; 0x78911fc43e8e11e4; 0x335aa47b795ed37f; 0x5b8e5421deec9334; 0x23dc951ad3ca8eae; 0x37869217f77fd910; 0x2b771bae6baeed1c; 0x5daacd1539156986; 0x6b0555d2da73df87; 0x22fb25cd87faded4; 0xa77c606f8787ea2; 0x607936db74a28102; 0x1162766016d628db; 0x65bf2e697aca3d0f; 0x5be91add682005ba; 0x661e61a1c9ba6de4; 0x62200d59908e09be; 0x7318bcc2e84a035b; 0x3d49abd768a13fa2; 0x42717dec6ea935c1; 0x32990211623de83; 0x13bbca82e7dd6027; 0x4766fec57e1aae22; 0x5d050da1557b0d7b; 0x3524bb03b50ad337; 0x6a112d3ee94127; 0x5ba9b927df89e59a; 0x7a1e60b5ab3c6219; 0x2fbad9f84d62023d; 0x3c95b5ab4f75fffb; 0x37fa35a37ebb6b3c; 0x5ce1a361b4f51ce1; 0xa281042f67c26aa; 0x4019efbad129986e; 0x13a45bcf1a3871d2; 0x2fc8c090398ee442; 0x632b8ad8263eb1de; 0x3f1d5e325154506; 0x262e6eaf600fdf78; 0x17016bec5e3e7c99; 0x44a31d4334d57ce4; 0x3e8cdd2d24805c5f; 0x130d277b5a214f3; 0x48ac7161926160e2; 0x130c2ecfac011adb; 0x6db2dde639b10fed; 0x840acc29306ab7f; 0x626f19b19c375cf8; 0x13ea8c9a3a8e40c0; 0x6f5d011e69717839; 0x6654ae8d8eb6450b; 0xdb521966e2f0963; 0x5cdb1cbe6e37262d; 0x4e1f0d651c644320; 0x4f2a455a7a18aadd; 0x7b04ad51f93e1ea1; 0x640481ae12eef6e; 0x414c84bae729eb4b; 0x5a1802412f7a1b5; 0x41073ef2bc73ca50; 0x155ecc690468e43c; 0x26b7d6aca468c908; 0x170335f22e8cc240; 0x4ae657a9870c0cb7; 0xaf43ce549c6a5c6; 0x687d7983eeb440ef; 0x406b59409a8227; 0x481ffa550f41a5fe; 0x51d2b7c4d56dbc7f; 0x68e6c906d4b4b1eb; 0x542343036d9075e6; 0x400ce52d5681cee8; 0x2f7dd9519142101d; 0x2817b0a62fb62422; 0x59f5ee37f451daa0; 0x59694041547e4243; 0x2737f2d56a5d52cf; 0x4694c5d3b0c10ab0; 0x683884c545500c23; 0x2895d0a7593e8273; 0x7923ea48fbb150f; 0x47e650f5608ae0a9; 0x3c6b06aeb19c52c9; 0x2c75bbee6931699a; 0x70d6df0ccb24d76a; 0x3eb5c167c6cb2bf8; 0x362edc7cfb2a9a94; 0x460b51c4bfdf9da9; 0x2d4c793bec3f5d96; 0x7676378d86cb851b; 0x59507e6974ae3bd5; 0x2fc63d2abd665aec; 0x110015511495827d; 0x20a208aa8aa80888; 0x5454414154001104; 0xa8aa2282208a8a2; 0x4540515551140015; 0x2a280aa2aa8028; 0x45054144544104; 0x20202020280200a0; 0x4041140544110];
   [0x6964b65fdd3a5810; 0x574d79aa7a9cbb44; 0x4828431db73b768a; 0x44efaafbb193d744; 0x368b33083bdfbc88; 0x172f1c482f31c028; 0x71ad9e34fa4d8391; 0x2f598ee6a65e415a; 0x90f74e7979e305e; 0x1c1e45e1ad6d634a; 0x506fb90ea1360245; 0x640b754b3bf3e13c; 0x198d0b248244f76e; 0x22b79da349f8f6cf; 0x2269e476a0f9b0e; 0x1552577065e98e51; 0x2c6991c0516176df; 0x79003cf56956e295; 0x7b32b2e8897156fc; 0x1d2db9838ccf9be5; 0x44bba9ffe8f2e62b; 0xa6abf8c0bb0b61; 0x11bdda590be7ec84; 0x31523013fb4a9765; 0x9c268f1464b8881; 0x20e46299ce527480; 0x1bf53a0724e4ed72; 0x63fb93ae9b69866a; 0x283a40fd531b9ba3; 0x2527e2ba50ccdd31; 0x69abb690179c7f3a; 0x18f705e7f6af33e2; 0x610890696122da11; 0x48e0871d0164539; 0x75fe24e2d0767bb0; 0xd7efaaa2763f46d; 0x6bd28f08aa76f990; 0x32ec0b77b00ca5a1; 0x15a4ca0aab7753ac; 0x7d43e795cf162ff0; 0x5f1fede2b2913b15; 0x586490533d76334e; 0x7ca35081c2c29359; 0x3b49a14b01694e33; 0x59a3764fafabc5c0; 0x76a0241d7963be0b; 0x3339a54f2904d38a; 0x7226ffa210bb0252; 0x155d72dda1785962; 0x437c5a818bceb9b3; 0x4073639f3913a43c; 0x34e7554d7f74021e; 0x4892aca01ec59822; 0x7a3881d7b453e0c7; 0x7b31695ee7fc0865; 0x3e343176966ccf42; 0x7c0855e7c417f2cd; 0x1d2185b59abe6f7a; 0x2ea8d2ecb56b44a4; 0x2ed583254d0fbfc5; 0x6a4ae1e63da256d2; 0x72e448ae064fc84d; 0x4c7d8dae6507dfed; 0x70acc3e5be6c7ef; 0x710dcbb642a0942f; 0x11e3a4adb5adc8e5; 0x1e4a9e8acb0d2648; 0x54ad101870001041; 0xf0031fdfed923f2; 0x20a95b652e7bb8a2; 0x6e1818caf607c9af; 0x59935de537448fe1; 0x4fc01bbccbd8d456; 0x7eb20c397e6b9cd7; 0x21794d5528b7368c; 0x4e2efae27a756c7d; 0x71718e1e90bbd9a9; 0x5e35d5ee359ad1f1; 0x2789f2096eb62752; 0x6a4a92e2331155cf; 0x492e07ade517db7d; 0x7ccced485db9eed0; 0x1f4ca3525306a005; 0x34802fbe7b9de58b; 0x15bd0b0a5d7de1bb; 0x3ef7b6810435dd0f; 0x39c9222e8694e721; 0x6200bc6777a693ae; 0x69b9414c7ca5fb02; 0xa60363bf639365e; 0x22061321ad9d2adc; 0x10267650a76db4e4; 0x52168c99602a9695; 0x65d3f8f05a7490c4; 0x141b4a1891fdd55e; 0x697dd3f1f763bdbc; 0x3f965d366e15e2dc; 0x8d9f5d2e1ab8e4c; 0x6e567b1ec2e3d721; 0x27dd1009402b329d; 0x2aa1da74fbc71056; 0x40fb7fd61d15354a; 0x7a4f01699bd51a05; 0x66cf54ef15ee5b98; 0x17c3a0f293e60301; 0x40a47b93e151bdb5; 0x5acd548c80441973; 0x5beb4053901c615c; 0x37c2ef9f71002306; 0x4e2161f2fb8d51f3; 0x443c8185a40d4763; 0x16e92197159f7708; 0x33c09d98debe1964; 0x637789f29b1e5df2; 0x7ca53689a2c2fb28; 0x30a48ba580ce5ab9; 0x1a29b2db52d87d28; 0x7160cad2ef829ea1; 0x36ed215df9d91e15; 0x1516413e1c2cf4ee; 0x2d12d8ed83cd4679; 0x552185e7cd6730d7; 0x705343e75d898d03; 0x45f5187ec01273fc; 0x36caf3125a9582b6; 0x4804ce294176378d; 0xa770bc71f09672c; 0x193ccbc8e57418d1; 0x60927c767e3cdc40; 0x6dc10694c68eef2; 0x197b5ab69b175c8d; 0x6cf183d684460574; 0x39530bee6f329a8; 0x63e534e7b643444f; 0x2e6acd7072e06548; 0x4d2d2df26d33b7eb; 0x5e281ff4092520c4; 0x15e79c991edd6d5; 0x2e87363ce80800b2; 0x4e95bacd5391c8a6; 0x4cb166d4934be265; 0x254dd77610c38da0; 0xdb3055f34bd71ba; 0x47e42f167c728058; 0x56b6e0af295b322e; 0x44863755d1c669db; 0x65619a90a0275f11; 0x5c768d7427b1be94; 0x16513deff4085a6a; 0x4ae675efa7cba04e; 0x7093d736f0132d8; 0x7bc380ac387d75fa; 0x77e1239a90ae6050; 0x39c317e67c5dfd0b; 0x3b9e417a51c2eb97; 0x6101b465f2397046; 0x7370e90b04253460; 0x37b3bd0900ce1f2e; 0x4437d55da2ce70d8; 0x238a71a3fac238fb; 0x21b1068fdf141d7b; 0xda08f3718618534; 0x4986618ffacbe665; 0x29ad1bf5542be780; 0x1bd9eafa29860e2b; 0x234b8cab6198603d; 0x4df154748149d872; 0x1942b46b3f203e19; 0x309d33eee880d513; 0x4f6315a446d79b4b; 0x1ee86b949c789b6d; 0x25fe35301b1bcee8; 0x19c2085c1ae74c50; 0x5db101a9a5b732bf; 0x56b5e18bc0bcb21d; 0x2bd4a160ac4d932f; 0x432e18530170f6dc; 0x361084cdcfff78e5; 0x4b5c2e4eea6b91fa; 0x63b20a086d212191; 0x66108c62ce457ef7; 0x27790c5bb8898d11; 0x1f3bdfdb30a784a5; 0x6055d40d21352680; 0x5c81cc7f717e3cdc; 0x1834a53af79a7132; 0x2ef5a4851264245b; 0x206d7013ca2391d5; 0x5ac59ac424fc68f5; 0x750a3b0c7efb94c; 0x513ccce427760ee9; 0x4e36a3b912acbe74; 0x4b59eeca701736b7; 0x3765db068461278e; 0x120d84b9f356ecad; 0x650ba77e9aa2b7fd; 0x17712404ac8cea23; 0x4eea15f52ce6ead3; 0x3ff4fe787c267276; 0x4d7a6ff6041a8f86; 0x2a33b7db61e7e3f3; 0x224236c9b74fcfba; 0x2060e26162fc6983; 0x61b00be581576300; 0x7eacf7277de1a871; 0x5912040e8b74ebde; 0x6cbc66ea8b309caf; 0x5ceaf38633a58eb4; 0x3974f79c98d648af; 0x7319b33417b5ae30; 0x3dc7e6fdc298fec3; 0x27d9e7fc7057242c; 0x2cee80bb4eab5fd2; 0x7ad8d8cdc5a57fa1; 0x30970a5c8a4ba6ac; 0x756544c9b2bd26eb; 0x45f7728cd076d782; 0x1beb1616608e9e44; 0x7a638c927ba34e1c; 0x3a4b99867d327316; 0x1f7e7299732a1f89; 0x7b0ccfb84df3f1c8; 0x3cd8dca4b993903c; 0xd0687b555203374; 0x1e3f12cad6bd6b7c; 0x3f7d2a427abaae84; 0x3040ffbb5c93e2bb; 0x7da33daef310723c; 0x78b0ebf2237c73ef; 0x400671f92ef09a26; 0x63a5442bedca386a; 0x32cde8a69f3f0017; 0x59b44f22697b77a9; 0x19d79d86bf9d0c19; 0x6fbe0df76c25687; 0x37370ee670b8a8a3; 0x11f2b3b54e2c2f7b; 0xf765a011d7150b1; 0x119e533ce9c9a7dd; 0x6de80b20555fe520; 0x2d2435da0ab819bf; 0x698b6bf981c77a55; 0x2a10822bd5e8fa0a; 0x213609d1f6c9ffc8; 0x38f66705d032f654; 0x5f72463d83fbab5a; 0x4db5c51dd1ac68b6; 0xd0e5c1c4106f204; 0x3b7d18652094b2ac; 0x63e76b0d9c59bc8; 0x3d9ae9f9e1f7b114; 0x218c62299326bc6d; 0x3cfe5a49c80cc969; 0x41eb32772d46ed36; 0x84dd7a3382c8920; 0x3ff1e4805c37c0e9; 0x3e3008485def1ae2; 0x5642cefcc57bb80e; 0x244af3522f2f4f89; 0x5ef09e25f9f673fc; 0x1647613600cd13a1; 0x35b9dd208db1ea1e; 0x6c1717b223c7f710; 0x45c1cfe1bc4187c7; 0x971df09a57f84b9; 0x12c2350caf146f58; 0xf56fad38fb5ed1e; 0x7436acb80ae2b808; 0xb7a5622448d5658; 0x5c4f276665236504; 0x721f7d40a839f96d; 0x6e05196ef235b200; 0x48ad1f51a75c3dff; 0x3482a7529d76af2b; 0x4c69a7fddd9ffcd5; 0x4ad24cded9ecfe34; 0x3bf90ff0ee548e92; 0x4594acc900725fe4; 0x650af507dcb5ffc; 0x10c7c723c9ac58a0; 0x45ada5774c1dc066; 0x6344ad188db6088; 0x2617d84df7029805; 0x5b0af9cb23541b42; 0x9162a5714c8670b; 0x683d900695b77a97; 0x3e3feca4b25ff9c5; 0x21036eaf40489772; 0x2551d40d200b1362; 0xc37592602a27b08; 0x5c6cfbbf6a2713d0; 0x6ac68a686e4b5166; 0x7004cb8ad3a62a23; 0x3f45f60628d1c675; 0x6e4fc8e81e7ff264; 0x35d5285fa6dbe185; 0x3c3de8f7fd2bf105; 0x22eba66f973fa6a; 0x7da8234cf5c81c34; 0x35d0fc81ec286f8c; 0x444ad64f26ece161; 0x6f43a84edc79c58d; 0x7376967e3ae1676d; 0x6c44d1c8ee47e158; 0x5b930c6dc032bab2; 0x1e106eac580cefc8; 0x322863fd7e7306b9; 0x69c0d118c97f97ba; 0x51014151215f5b2d; 0xa8a208020a2a00; 0x1451550015551410; 0x28888a0080800802; 0x1515114115050151; 0x2802208200228022; 0x415504050000505; 0x8088082a828a02; 0x100505144141514];
   [0x6c7a38e1c197945; 0x6f10fafba58c9200; 0x7470e061f2e43a4b; 0x5c90e3ecfb5a08b2; 0x5f3436a4699123de; 0x7c954665a36e9866; 0x504edf4af571a0c4; 0x4069947b34479b00; 0x533b5acae611a5b7; 0x27651bb6c4f97b53; 0x583617228a462f84; 0x72ee4e544aab296a; 0x983d496f32e0cb5; 0x1f78ef8a67f88598; 0x768bf7e37775ee5d; 0x7b084016bfeacfcc; 0x26df769d02ad75c6; 0x10ccbc48e2b317f3; 0x4562cfed1568f3ac; 0x10e3173ac2f9df26; 0x37843486794a4222; 0x7bd27a3786fe968; 0x31556b7dbdd7f3fb; 0x3bd9c846b7f8746a; 0x117b7005fccc9300; 0x27251238e1badcd0; 0x4182b3567e65e9db; 0x3f0f56c2abf64dc; 0x143c2fc4e1db1394; 0xd63124e8a8097b5; 0x5e0925329f52176c; 0x20b66a77d4857a7d; 0x6a7bc4c3b8d36589; 0x47b89a41e2364483; 0x631d6c719d74a6d3; 0xde7694b6554bd07; 0x1ac52568f7a5740c; 0x1cb1368f69d8563d; 0x1e62660541276e16; 0x7d9e3cf98fc4dd7e; 0x1009d6ccd1506da7; 0x4594d69c7eb2e3d3; 0x729e3211fd22a47a; 0x153793f2b3add27d; 0x3e061a366908b1df; 0xa52e443b1c82180; 0x4ac55a722b41c8c0; 0x2122f63195c511f1; 0x7dec60b27b7e19bf; 0x58e05fc05328baff; 0x69f64517d2c76b71; 0x7e1272a01c41ac44; 0x7a42aa787782337d; 0x25b312ceccb41862; 0x6b41ae21492a7fd2; 0x494368dc7b5e6839; 0x7dd31422bdbc88c1; 0x2b2a95bd94fb174e; 0x30b829e1f86c7db3; 0x204cd3a8d2be8ca6; 0x6f47a52b3f4c838e; 0x6fb2d97b413e5416; 0x622a4ca022a86cdb; 0x541ed6d051c07f02; 0x523ade8c0eeffabf; 0x40947baf1162722c; 0x140e9ee13cd12869; 0x2c99cff1fdef2e55; 0x3ac3a011ee522f9f; 0x1e8086b68d687e85; 0x37e1599f5113b1de; 0x723668df21963a80; 0x762d3cae7f7c3007; 0x12b60e4cc734682; 0x397ea4306e421e23; 0x6a9c6e50b02f3532; 0x49c106db99e01bde; 0x5a2cc5f8b4d19fc3; 0x43c76a57fb098001; 0x351411c05617a450; 0x402cd9238bd9b5bb; 0x2485d3d1bf8ecd65; 0x111ac11de500532a; 0x7d351d35e048c939; 0x4e14b7795aeb2e93; 0x13cf1183385f308b; 0x54fee85122f225b2; 0x571f09faafe7966a; 0xa8bb70a0131d5c2; 0x5d5f59ee56800814; 0x75a067608f7d2205; 0x4cd0507b21852951; 0x1d3613296fa24973; 0x7c554401ad31763f; 0x144f1ea90d68acda; 0x65f5cee37547b583; 0x3070e29e64e2a886; 0x84c7451b41d01af; 0x453a95d9266b65a7; 0x35ac89efc2b4f78e; 0x4643572865bfcce5; 0x12415de876a28a81; 0x1d7424edc70cf36d; 0x2d15c276e9925c1e; 0x6b8a2f2a50a6aa; 0x52bd18aad465c823; 0x785ebe17f480884d; 0x2b597ea2859c77d0; 0x1d71c779931b7747; 0x74a9a92a6e138a8e; 0x4c53b37bd376a1a1; 0x6e8778ee357b6fac; 0x5ba76d13cd83841e; 0x60f416e4e4d016cc; 0x609269d0c588d63f; 0x7332094c08452a3; 0x2ab59d5afe258218; 0x448b805afe42ae62; 0x5cef25bdd0d53f3f; 0xa8d0eadf87320cd; 0x36623c19db3bb81d; 0x1c8d2a667756edb4; 0x6f9783546264354a; 0x5bd0438e45cf72cb; 0x9e5eb8521986290; 0x3991d4cc01f4735f; 0x1521b24a83a797df; 0x3aa7db6cee9f8c38; 0xdc0e554347afd1d; 0xb7f7bf25e5bb35c; 0x1cd2361708e97b78; 0x389784976201eedb; 0x123e8161c18466f3; 0x5b66432621b190f9; 0x4700b1ea5bd8b824; 0x32da5b6d096dc746; 0x6c60b98d3257b9d0; 0x217d19aaef8cc5ab; 0x6d0c0e56b1834ca; 0x527f8788d4743ca3; 0x4941022ccaa21ea0; 0x73dffda0aa27442c; 0x68d67f608c2bf37c; 0xa44e878387b43c4; 0x1171fa1c1adfac5f; 0x4098152d30185edd; 0x68bb75c88d3d09b; 0x4da0c18f05aad33; 0x5577c70e7f36d3bd; 0x77ca1660b0c7011b; 0x91a6fc6cead4ad7; 0x5c58d364c3f32b77; 0x274721ff9f4f3abc; 0x194342dba0e3db07; 0x25372da2a028f5af; 0x3939cbf0ca55c994; 0x4933e5f7dfd8a7de; 0x5fc2874d3bfd0922; 0x7bed6f08fb0bf290; 0x25058c0b578a0dde; 0x6edfa846b59c38e8; 0x513aba02fd0a6252; 0x4eeba6c3a3a25d7e; 0x702d1f349847c2ae; 0x5f3dc91f5c6df5e9; 0x2ea26e01574fbba1; 0x1acbc4d99dad71ae; 0x74abf721f181e0db; 0x5c3a95cda5f7ad4a; 0xbaef909711e4a4a; 0x6cc3e3fdeff25af3; 0x2d42a11a1df724fd; 0xe2e1a671c3cac8; 0x651ecc7fbac9342d; 0x2ad1cd7b628526e6; 0x76a2ced808eb1342; 0x201a4574196c97e5; 0x3f5317b1b3ea41ca; 0x68bc966b2bf0c146; 0x2a6e0d922672f18d; 0x3286b0009b11d945; 0x2280a499c8997286; 0x5bcdd265801fc847; 0x3ea2a458b166169e; 0x16ddfa3538a16fec; 0x4d0a18a23f9a3100; 0x1d17de6567a49d6c; 0x345ad8916ab5605a; 0x5cdf0fbd3480a6e7; 0x1119c0255d783913; 0x7a851e45818c3086; 0x67c79171ac7a00f0; 0x62686682b63ebb33; 0x21b2a81b53ff2c9; 0x63e4aa8e7053445b; 0x57b2198edfa6e909; 0x5d70092337fbfc12; 0x217a97ac7fd285df; 0x325200fef12659de; 0x75b3e053b5415cca; 0x580adb0d5fa15d13; 0x30b062c38bccd71f; 0x2345a0e266cb1c6; 0x36af07a0812d27c3; 0x633987c27fc1dc33; 0x6e4c74ebafc572ed; 0x75ef03fa263c3631; 0x4677fdc26a326e50; 0x4fa55a5a247a36d0; 0x343a316c6df9afd9; 0xd48cf919f973e7e; 0x39efbf367429bb01; 0x2a3e522f08a4b740; 0x67561c01c4aee5c3; 0x1bda79357151f22a; 0x5fc903836617c201; 0xe26f90b6d91a1d1; 0x7423dce44f52ab37; 0x61897cb3d49608b0; 0x73c3c85284c06723; 0x22302d88ccd7ab11; 0x422d22c1834b58a9; 0x376384fbc7cc215f; 0x6724295c409aa110; 0x380f314eda4e822; 0x3ec0ed32e82b7f41; 0x2979fee5b0533217; 0x3f5597f8eb99d2b8; 0xc2d430937c2b66d; 0x2e34a8c857a4196e; 0x311a7e1078dbcb48; 0x676cbb807cd177da; 0x6c39f245d504075f; 0x1260b48ea24ac3ba; 0x78d487002eaf48c5; 0x24a693f30f4aa2a5; 0x54b425868999b106; 0x1b0a0c968a712546; 0x5adfa460dcf9f301; 0x79433964882c9586; 0x71c537376c7d81ec; 0x2858cf90fa8270f9; 0xf670feb0c61df0a; 0x2b08b09c711fa9f5; 0x37a20465bffb9cba; 0x25ca7ba4879e1c87; 0xa18e0f54b252776; 0x608ad8d69c951de6; 0x6a3593a6775c5279; 0x1cd26591214b8c63; 0x67fa5d4ed4c87747; 0x9575acd760a516b; 0x6dbecead6afda98c; 0x7ab5989229d73e3a; 0x265215b616f9c3d5; 0x29542e266d10fdca; 0x345b3bbbec3e356d; 0xc5b14ad6d5cddfd; 0x521d341b21b47848; 0x204e44dfcea20021; 0x388ac7d66323dcf; 0x27acdbe61fbb1060; 0x6878c51d554ecb7e; 0x46a037bfb682c4ba; 0x406cdc3fac06acd8; 0x48da8737b5851530; 0x3879903e3fa97849; 0x370a82f038104b4e; 0x22a4dc269f48b623; 0x45b7ae6e02b2ac0d; 0x46bd6b9b748b57d2; 0x13c86730c9c3417a; 0x58832167af2b0be0; 0x1e36393bbde4e25f; 0x6eadf13571a6266d; 0x3da8d0dd53b69a76; 0x756698ae227bfa82; 0x56c1a437a194b6fa; 0x6b06aebcc865c71f; 0x6e8488f206c24d0e; 0x711b7d6f7004ddc6; 0x48221eccce89064c; 0x1db5779544f06b40; 0x1f2913d418622ca2; 0x1cf368673a7fe993; 0x1ae2fed51bb71b44; 0x7f30a98d112df74; 0x768381a4d7b2ed7f; 0x523a937f957fe412; 0x6007327fafc1313f; 0x6fd2105e95b7004b; 0x2b9f8f3f0408942b; 0x6cae436fc00f282f; 0x73ce66f940f6adf0; 0x3c0c23dd8029f84f; 0x6ac68ca2a68369c3; 0x14dd53e47f77c67a; 0x1cba547b14188e0f; 0x4cb8ade899259ce9; 0x153dc8504f00646d; 0x1e189d11677984ee; 0x6132b2dd31549db3; 0x7c7ada9ccf45d304; 0x3e2e03c76ce5f3b0; 0x1efb77b56371e606; 0xf7fbfef6f0aa8cb; 0x7ee7fe4458004231; 0x1ae8401407bed6eb; 0x10414104bd06a2ed; 0x2288288a82aa2a82; 0x1505145404511000; 0x22a008002aa082a; 0x441111544401544; 0xa22aaa8aa282aa2; 0x5515015454400114; 0x882aa808aaaa222; 0x540151541045000];
   [0x486b39bb5709cc05; 0x480a6ee6e5651cfa; 0x6201bd30c59799cf; 0x3d4a98532e3cf219; 0x63633e73722f6077; 0x3e5e71fa2e81e7c3; 0x22901bbdac014f6c; 0x4d7e4a2751088cc4; 0x27adf7dd0bacfe8; 0x4d94994272559582; 0x16c3f5050d112744; 0x7bef7a12b6e585d4; 0x5dea3a2db2b3f92a; 0x7c5e527981b8c0c9; 0x22ffda35bd3ed6ac; 0x68ed23dbd1d36ee; 0x77f2dff7f84b62b0; 0x7aec0175b464db18; 0x6ae350e04ce90f9c; 0x24cc85556f3d62b4; 0x680134a4954ae76b; 0x7930f53e531f6208; 0x5fa42c64bc21c595; 0x14411c65ee1ca144; 0x6d40dd0aa448857f; 0x40ce39431e20762a; 0x75856138da65dac2; 0x6bf144ff02f5202c; 0x5eccc6e7fd05b70d; 0x3be31206e9f60c1a; 0x307cd48d0d37ffc; 0x6441f2f06040ca66; 0x13d37c3f546798ae; 0x64e9bd0d0c853da3; 0x6abb12e6d24b3bf2; 0x462b7e08f506e76f; 0x30292236d7907e89; 0x529c40140d979b3; 0x526770b9ec3fa364; 0x3b6ad86792682cea; 0x3d5b193abd04d419; 0xe44aea3682ebd43; 0x66565150dab83be5; 0x6c3a2b92133df8bc; 0x7ea52b2fffa2128a; 0xbcce373596e5bd4; 0x77dedd7074778509; 0x595c06f4b11d1a3b; 0x5daa9459e5234ff1; 0x3f219d85d7aa7dd2; 0x40fc7960875cc4f6; 0x28696480100966fe; 0x4a53319226e1d165; 0x17040e612ab14900; 0x1c9102663b329e36; 0x66323c36ed4680b7; 0x5fb36a882db9d78a; 0x53abe0e796ba9420; 0xf1e2e9650294c5e; 0x6b7ddfb8424aafaf; 0x4571ff1a3c95ac4a; 0x3fd120d9ca00538; 0xd80feeae9c6cdcf; 0x2723eb72cd70d2fc; 0x6c5881b9de918675; 0x20a093dd134318b; 0x3889661b257a3cf4; 0x559e4dce851d78e7; 0x63e441983cb009a; 0x60a1c791a16c31cb; 0x2a53abae2b111878; 0x441f755596fd3804; 0x6e0c0cc2087ccdbd; 0x33617c078267c4b1; 0x5170a1d02e8727df; 0x7bae73c3d7cf177d; 0x112b99082e87eefc; 0x2cde670386964507; 0x148587734cb8a975; 0x63f3d3da78309a9e; 0x43a1343aa01e8eac; 0x30df34d7b9ebdbc8; 0x6b548c187e740ada; 0x6837c5513d734861; 0x60343bca20a39010; 0x59d3be55fb2b6b6; 0x1bf5cedff45653bd; 0x389e7020d8247eee; 0x38e712a2a9042a4f; 0x594094c18a6b4dc5; 0x2a5e70c67391348c; 0xd98d7f67440fe81; 0x2f7e08b9de91e0a0; 0x6c6e2d8f146d212c; 0x1058edb6707cb2c; 0xa2eb1e96efc4336; 0x4331b056156d6843; 0x8e195f0ed8f9a7d; 0x45df1a4a1e6f8047; 0x3226164c7c192222; 0x22a8a606ad0f9df4; 0x161e4a10a704552f; 0x2283bb1865bc04dd; 0x6593d23704a754a5; 0x9beb7881e49f63c; 0x9ab36fb4c298019; 0x2d6d0064e621ee9d; 0x5bc0d4aa7506f4ce; 0x4baecd3d3a5c3b4b; 0x13cf06b3fee70d0b; 0x2da419c1432ede1c; 0x3bf3f69d6ea0fb49; 0x1e015e2ef0b78623; 0x2ec0761df015c7c2; 0x71286e3b62ff78ee; 0x616c2e5c811cad68; 0x4ecc196414519ab1; 0xd992b6f5019fea3; 0x77c5d886e21ac645; 0x126fa4c5b637722c; 0x736bb94bba7fa031; 0x2d07f581fb0cc7b8; 0x125373f6c6feacb4; 0x3228064b274e1f3c; 0x4097791e7822a4a1; 0x447230bacbf6a64e; 0x436c8e2964c0796e; 0x11419ec3e6f07f86; 0x3a4308fc46d0e885; 0x6b33452048b09a79; 0x53ab1a5615d33b3; 0x51ee8448d5fbe427; 0x12788e3783c5e99e; 0x130568c497c3dc6b; 0xabd16580e9c6dd6; 0x6327f4fa062c59ed; 0x1da45a00f557e7bd; 0x3b3dedc0214357cc; 0x1bd1855636662788; 0x707f2039f00847cd; 0x75230659be3f72ff; 0x3f0d0539d79bf154; 0x7a5368ba9d3f55ea; 0x6dc557d7002e555b; 0x4344f4afc7ff0af2; 0x7bcbdcebc5927ded; 0x4b1a0aef42de0080; 0x70c331a551aaffdf; 0x6c6a26fad5f3a1b5; 0x22ed40dae677ee46; 0x159561e9ba3bd078; 0x2931447c5532e5c0; 0x1cd358853c61d266; 0x6546b4f9305bb7d7; 0x5633343b2b65098d; 0x66badf1c5421e677; 0x48a6dc950bb5800b; 0x6517f0a29d47e579; 0x298ddd43f692b1d4; 0x4bed5ff287398799; 0x24d8996b41957b76; 0x6440f678f79cc7c; 0x21c059797d5546f6; 0x4f5881107c476504; 0x2b2a0c627003eb77; 0x5afbe4f5d27a2072; 0x69ea6971e003a692; 0xf268a2ad062022f; 0x35e1fbd55fbff965; 0x48058aa049394bd7; 0x5087770d0bce46e9; 0x20c977b313eded46; 0x3db336b0388287b8; 0x93be7cdc212b487; 0x2b32b4cf781e1e44; 0x38ebbc673f2e3457; 0x3a4b46cdf07af00a; 0x2814a085e56ddc45; 0x329d24096b107436; 0x20155da78b563dad; 0x42f2e6454aaa7b83; 0x78729366fbac92a6; 0x2523bc0e235485c9; 0x460afc384c9ddbeb; 0x4d5a33f101296539; 0x657d4d19381933ac; 0x6f6f70625e36d41a; 0x7e5ac123ef57dd79; 0x1bb3762ee4a31cf0; 0x8a0a88cae4e4afe; 0x5bf7a6e4db4d84e0; 0x33bda3d4762176b0; 0x51b6fcb0f5afceb2; 0x334cd9c3aeeab158; 0x74341755671d37e7; 0x3843f5963b6fbf87; 0xff89bef1f177353; 0x79cf18aca19bdf61; 0x29963e83711df533; 0x65bdfeab2fc0f80; 0x7d7b9a7b112e9a4e; 0x6723097676afbdf; 0x144a41aea9ae518d; 0x553a4b88de6b307f; 0x304fbec106bd0ed5; 0x28af81eadfe09cc9; 0x7a38e8fcdee682c5; 0x70dac500abca0eca; 0x6c54dc4c698a8a6c; 0x3c9e12bd3aa9e649; 0x5c005443581e52c3; 0x69a514dd20d22c52; 0x2ceb8c48c82512e1; 0x67373610965f10d5; 0x388326b866ba665d; 0x6b0865b2e8749f8c; 0x2c9f40fa265c2eab; 0xebd7b4d153a564a; 0x55092dd85504a026; 0x432d7b8361dae351; 0x371e57976431e72d; 0x6e4e9f44222c78bc; 0x7085a87eacf1689f; 0x3f845bf13280ef09; 0x4871800d6c53f526; 0x9e2e988baaeda3; 0x22b25407b64c6d2e; 0x6c4f6ee0fe887bb8; 0x627d2b41e7ed7bec; 0x56d2816906de231; 0x62bff7446b0b3644; 0x7577bbec22516243; 0x5c4ae5477bf0f2ce; 0x18fe4f0a0acaf534; 0x1354652bf08a8eda; 0x6b4c28483c8b4ad; 0x647cb023556c9b4c; 0x68b3147aea5f1ed8; 0x55450a7291be3219; 0x48a8b2a385c2952f; 0x7c75cd052d8edb89; 0x4ec91fa5079b4dea; 0x542bf015e62b1c52; 0x4544ef3507e9bc46; 0x759775fa6a8617aa; 0x3e09c53362c4debb; 0x1cadf2fe620829a5; 0x10b5c24bba03f65e; 0x5247d9b370d34e40; 0x5654ec09461474a5; 0x29d2d806512b0f0e; 0x651c85df6b1c943b; 0x7f13b50d81de8c01; 0x72c86e58a30d3e43; 0x1f9485950435a98b; 0x53d8bb4fb9aca1d4; 0x197fdfd37b2d0a17; 0x771ecb02bdedb442; 0x7a816585999f2052; 0x4343dd6f108ce89c; 0x4b126b310b127da; 0x7a148a9a76f5f58b; 0x21441e0dfc523cce; 0x33ef46666921379c; 0x7b44c7d831aa2dcf; 0x292934bc831d3aaf; 0x36740e1c43269a0b; 0x194b8780d14081ee; 0x6725eaa74eae2977; 0x2e72c46646e43923; 0x5591a68e3277903b; 0x47963b5e86efebc4; 0x62e52baa12f21ac0; 0x3e51da7309b300c9; 0x377b8dff44680b4b; 0x76c341bc5a89c9fe; 0x64112cf001c3f108; 0x7d8b9eab54996f05; 0x42a3ed4324680505; 0x5f1563b0aa538a35; 0x58e2d7da40c58d4; 0x1bd37519332c7fb5; 0x29a6addca2f66994; 0x996a97e73b9a484; 0x3c76e14c94929668; 0x12ac4405d28ad886; 0x65962a1b53bbc6e; 0x4b69f3ec838f9a1d; 0x6f2498d0cc742006; 0x35455c2de569675c; 0x3b12ec350667189f; 0x1b7cfd41a4ec2ad6; 0x4e3d1c650630827c; 0x6fb1ebe56fbaa79d; 0x5508b8719f3098aa; 0x2307ce772e6a71e3; 0xa3e2c381f37eae6; 0x6920e6de106b98f0; 0x360d5af222ae2474; 0x362e79a740a08a2d; 0x60d5590d6bd72168; 0x210b8442df1ed4b9; 0x109b72510d9e18c7; 0x330740c39bd6388a; 0x78fa2c25d3fe0529; 0x2510281b5343e079; 0xcb58f32b6e18226; 0x251654475886b00; 0x15154150cabfb992; 0xaa8a080822022a; 0x450510011544400; 0x22aa20a2008002aa; 0x5151000505005511; 0xa8220aa8080008a; 0x5155010540440440; 0x8888222888280a0; 0x455554410055101];
   [0x4aff058d773c7caf; 0x238e14674a9df123; 0x40cf4dda278c385; 0x12fe32cd2998c8a2; 0x47df5c512580f0b5; 0x574fafecf8e8414e; 0x2a9449bec69a21d7; 0x5b6072fece55faf0; 0x3bea6ac02b8a07fd; 0x375a65744db51477; 0x2797978ea25bb155; 0x4c103c9212fb4f34; 0x6629b1d9deb005b3; 0x4beb93eba312736d; 0x115a45039354f512; 0x9ab6712ceb4453; 0x68f781c1c13847f6; 0x26b11c48b1f83a48; 0x4658777bcd60c8fe; 0x77076d4b75eccf7a; 0x7af82021cb203802; 0x166f69751e91f954; 0x7ff1e2c36d0e5650; 0x4bf37156964c8793; 0x3a55cc1961f9d0fc; 0x7a8c580eaa683700; 0x4ed98d607dabb3a; 0x4986388428857e7b; 0xdc660557eaf1813; 0x5394093140f2aab6; 0x321aca0e314f4417; 0x45dceec224998d05; 0x571198f86a80ae1c; 0x2f14434513d8c1b3; 0x28922c0057410265; 0x71b577be7eec6bb1; 0x43a306d3efbefd21; 0xa2d384b25d3d62d; 0x5b349dac89106d31; 0x169abeaaea7ccc4f; 0x485eb72db3bf1d5e; 0x28946023d77b0482; 0x7bb48d1544dbb316; 0x419cf0f1064aef6b; 0x16f814ed8ba815e4; 0x933ae98b59ca849; 0x1c0e91d0a457b2a6; 0x332c0d85798edc3b; 0x414961616c8ad8d2; 0x7b4e8aeb91de6bed; 0x6523059d7a37728d; 0x245f39a0b3e10f77; 0x72fc90dc68b9c22d; 0x6508011f2fd64f5; 0x64322f44c327dfd; 0x4eca53e45740e155; 0x7de093554633592a; 0x252ca8594b5cb6f3; 0x5dd0f156b927b53f; 0x6c45f0a059a9999a; 0x3bf5336596fb85c2; 0x8aedbee1e9cf739; 0x47434bd07188ae3b; 0x79118b0ef47a28; 0x4ee824b8b5f673c3; 0x4363631524730f7b; 0x2f184f3189adcf6; 0x5f12cf0b2196b8a1; 0x349ed4b286cc5f60; 0x7ff07bf764545de7; 0x344da5c53aa96704; 0x43ad106c1a628ab9; 0xfe305d0c6b8f819; 0xcfd77fa1aa50a0; 0x23cc53c18e5e8fdd; 0x5cf0219d0f9f1117; 0x65acd0b75dd6f358; 0x1758399bfd8108af; 0x308bdfe5829a4176; 0x362c6d5e45feb83e; 0x6df2dae0a27f3e39; 0x21eabd460f7c6e64; 0x305a8f30d788c901; 0x7d4877b54d35e58b; 0x4dd93fe7a7906d5e; 0x11c37df69b71e4c7; 0x1ad2b67023e8771d; 0x1f368c4981e2ad02; 0x61d251c28c1fb967; 0x5dff77396e4aedb7; 0x4fe5df6948097dd1; 0x2e20354b08a1ce42; 0x163b3156793c776c; 0x1740fcc0ad4f5ad1; 0x40b171113c8781d1; 0x3f01bcc1da4df31b; 0x251f2550a3a94b60; 0x6be412a362c08d19; 0x20f115b83e11dd76; 0x2766c30b3804394a; 0x11f1bbbf82b118a6; 0x407294344256661f; 0x644328c14d9c0dc2; 0x280a1ef6c4f707d5; 0x6f940ea5c9df76b; 0x315749e715e486b8; 0x3e635e13d289ee48; 0x32474a4a00ea6dea; 0xe95541ac8d8e43b; 0x654fc341c9cfda38; 0x195dbef04d1494f9; 0x1fe9cec532b9f7a9; 0x64024b91735f41f0; 0xe376b3f394e14d7; 0x5871b3a2905fb546; 0x3b4cf9fd35a54ec7; 0x7dd0d2101cc25030; 0x5d3414789b4eb523; 0x72ac53ac1cd2de90; 0x52518aecb9ac5ad0; 0x4ddb1ff307024974; 0x6567387098c0df9a; 0x184912c106859cd0; 0x4cfec852c0db2c6b; 0x6c7c82447a4b377; 0x7fa50e155d95260b; 0x2e3571bf756a7d3c; 0x373fb9f56a3dfff6; 0x7cb589ae78e332f4; 0x39aad6e660fe646; 0x6481a81d510abcab; 0x599df3371c03d3c1; 0x607e6ab1191168c6; 0x1c1179b5d704ca55; 0xb5c50346dfbaa8a; 0x50e22ae99e78e358; 0x5197032d9b60c9e0; 0x41ff68afff69af3e; 0x4adb2e0d730a3c3a; 0x274d03702ffff022; 0x1a52893ec51f5e3c; 0x7276cdc0cac0de4f; 0x65dfc1758a772bac; 0x5d20e5ca6f4e5407; 0x7bb1645a243a4554; 0x76010cf0c2474632; 0x370104f5100c99e4; 0x5250e065c28c46fc; 0x16fbffe462cad05a; 0x41d9be11ca4df13a; 0x97167958aadaa72; 0x15e64fe57f626e41; 0x488484b165fafef5; 0x5850342fc7fb4eb0; 0x28e1d7e31091ef53; 0x5508cde483bd681f; 0x6ca9aecfe9f02875; 0x6b4721c6bad96723; 0x3d951db7a566da80; 0x393bec09e79fc9c8; 0x1a304f415c73d047; 0x105a71d4ba1ac556; 0xfaf56a4f5810747; 0x42c9a8c190de16e4; 0x307ef661fb0441d4; 0x36468ba22fc2c570; 0x99f51402e8d707f; 0x18aff6a1d2ede226; 0x1ddc43ecbd8aa6cc; 0x26b45423d69e7318; 0x5dbdf77837cfb8bb; 0x3010f59a68f4b9af; 0x54f27784c9602d51; 0x670f187d61178d15; 0x62ce2068c46ec2e1; 0x780d9d5791c3cc2b; 0x2b1026b96a9ae75c; 0xd46213184ca83fc; 0x5c72bc78c6a6602d; 0xcd61ab0764181b7; 0x5644014516c1cee4; 0x4d6b4831ce872d5b; 0x3ee601e5fb0f06a8; 0x706ed175d7d5259b; 0x64020f3fa5c855ec; 0x2a42a7c2941f0cc6; 0x1da137d691d352ff; 0x1373b3db81c1eec4; 0x36cd5daa9b784234; 0x64b6b92f39dea82a; 0x7efd8aca42f99bc0; 0x779833073daa143c; 0x5371f0dca0751984; 0x6ec66c7be03785cc; 0x7585395f0cd560b8; 0x1f1e2353117cac71; 0x4d67ee04d19ae9ad; 0x73c8369aebe141fc; 0x17b79bced45ca195; 0x4cb20b0f8d55e7c2; 0x588fbfe4e7425670; 0x6db117295692266f; 0x21e89bdf890de42c; 0x580250298965bf4c; 0x722745f3368590; 0x47bd4e21f947ae66; 0x3615c8b31eb1d31b; 0x1a2f1dbb49d3b9c3; 0x3108ff1e3b1a0e8c; 0x33486dd91ceaa3c9; 0x7da51cff24fb3f9e; 0x2609583b87cb4481; 0x771fb692957f083c; 0x3974b7acb58f362a; 0x2b42259e12f3dee; 0x553564f898a8818; 0x3a155beb0fa3272d; 0x41a4953a6aece629; 0x51c5d44145ca7332; 0xe10d0ec47b9671f; 0x3163d2816df33530; 0x1a6d72d6b22f32e3; 0x2726fa70c4c04ef7; 0x773897b8d38365b6; 0x6edb6bfff47dc412; 0x4f6038d75cef468a; 0x12ac9b4dbfbf7c22; 0x556d1ff6ac0e2e4a; 0x348b5d32704327; 0x20fa3693f6030203; 0x1ea82eae35c386c6; 0x207bf4d903586ace; 0x6bf444c417520d80; 0x72fdae6cdcb25759; 0x58c5c8ee6d331878; 0x7e88206ae1e223ce; 0x1c746b5607bd4211; 0x2cfadd1d8d960782; 0x7fe4bc1e005a94f; 0x121da973e84521e4; 0x12ca0cab729ca2a; 0x46e81222a703b15f; 0x1a137313383f73e0; 0x34fe72faf4c5120f; 0x1326fedb71bd3706; 0x35519240927eceda; 0x1668258f81881bc6; 0x94669c34e4729d; 0x8b49a68ae312886; 0x4df7798697bfff63; 0x2beaf84d9faf74a3; 0x788db51bccda18cf; 0x756457d0d06a99ae; 0x66f8d286cb718a6c; 0x453d4c6ac2b600b1; 0x5bffec07c3d092f2; 0x336d713f52f45d26; 0x3fb4960c29552983; 0xf5f34d585cefdf1; 0x3bf322638ff05049; 0x447a2b654372fb0b; 0x51950b59d5114b0c; 0xd1e2ad267e98b12; 0x63b0310e45b216e1; 0x3d7c86904fcc3432; 0x24d0468d5083d38d; 0x451d1d9836689195; 0x72c0c76daff15d3a; 0x2b8008229e8f3ea8; 0x6abf6c675ead487f; 0x4c478077de0a117d; 0x31ee94a5ef6d553; 0x358d069bf04cf491; 0x7ec911d75c17975c; 0x2a275809f2c6e3e6; 0x22a84f146aba3dc8; 0x381c8d2cc8bfe113; 0x76e04625ee544fb7; 0x272d57cf27f94f92; 0xa4023026707ce8; 0x5847e5371269effb; 0x2e68f8badd6c924f; 0x79d34cf9b6f88cfd; 0x7ad06ff0c93aba75; 0x247531f4cb922dd7; 0x67450580cfbf45c; 0xebd6b724bf191e6; 0x13bf2821b7e403; 0x653bf950f2da8c68; 0x523b507d05141edf; 0x1dfec653dbe640fa; 0x53a6c3af17c30a6; 0x3dae79b736e9688; 0x60295d42817f92a5; 0x72bc464b9c411c2c; 0x493dc4cfcce430b8; 0x7e1ac7eb2a7a00d1; 0xce3bfb5c0a56ab7; 0x30aa6a60ebd52233; 0x74db6e0472e33456; 0x68200fab654100cb; 0x3b01d69ff2554eec; 0x2e423d59567ca527; 0x52c8399bdcdc445e; 0x7ea23184e41eb1fe; 0x2a1fc7c88224aadc; 0x120a672807598b06; 0xcd4bfdba0e5c2fe; 0x414455504bfafa2a; 0xaa282a22aa088a2; 0x5010410011110415; 0x8220aa280aa880; 0x504001411554514; 0x88222a00a8080aa; 0x5401504011541010; 0x2288a82880228aa2; 0x55555150454400];
   [0x3db2d3bdb81c181e; 0x6bfa0a34b51797df; 0x3f67af93624212e2; 0x78f5e635c2dd65df; 0x551b70bf322450e1; 0xfcd5e16fb5d51cf; 0x3d8c96b391952334; 0x76308223c34804b7; 0x52df25e8c67ef7da; 0x50deef6981a8c839; 0xe52f2ba030238c2; 0x607ad126b2f35707; 0x52bfa79ebe115544; 0x3e1064ecff644e21; 0x4cd2dabc68cf4975; 0xc5d0c917046257f; 0x6fd05cb52fcad22; 0x5efe075158e27960; 0x49c72b2e7f8d99d2; 0x6df1c6e283693119; 0xcaa8007804edacf; 0x5cda9ae0d28420d7; 0x1e0ff00e0c2f25fc; 0x23200f9e1d2a80f3; 0x605a48fbdcebb1d5; 0x1978f22c3026014f; 0x383cef97c422c76b; 0x58efcdd01dc704e4; 0x2d5bfefb74b5bb53; 0x1c86d414bcdae80a; 0x4361db7156db2949; 0xdd2e322ea2f6eec; 0x2206f88f9fa4ca21; 0x6c460f17d27ee8f8; 0x43b9c03755d7376b; 0x24762dcd69dc1b08; 0x55f9b1b145fc397f; 0x2eee685af7496435; 0x5f02ade7355b566d; 0x266cfbf2197b56a; 0x2ce986810481026a; 0x2667291c8f3b6717; 0x53565b6c832ee7c7; 0x4a65f1cc73f86daf; 0x76a6d330bc718efb; 0x26e773beb41aab65; 0x211f10d60e50aa25; 0x69d01a0b7017982; 0x48dfa5bafd326d19; 0x1c39847316b30c46; 0x77f7a4da3dcd81c4; 0x4b1b2e0a1632689b; 0x65bc8bfc96e86b48; 0x40ebbb01e838632c; 0x1e63237a6703ec75; 0x7b9604188d2a42a2; 0x61aa702e52b1ba30; 0x443db8a4ed775d8c; 0x6dd0be73b0fdb25e; 0x37a2ec897bdbbd21; 0x4ff6e745093dcb6; 0x48618da9187927ad; 0x1265c35954d61e98; 0x1302a680efb619fb; 0x15c33e0a1eb8f021; 0x307ea7d675975b74; 0x2e7c63186a34206b; 0x3d8a9a6db3b38b03; 0x339e6b7d04a5b702; 0x121dedd8b8ca832c; 0x37a57a5ac7de3c99; 0x3a2e26ce80e504ff; 0x187708c8ed73d32a; 0x246c85137dd67b9b; 0x1666fe298f4a3d2; 0x336e65467226fbbd; 0x638821b0460c5b95; 0x4a39fa2df9793c8c; 0x65c3eadb79605d21; 0x508bac505f57735b; 0x21691855e9359408; 0x9ba8794a2c6ba5f; 0x32851bb838a6d765; 0x1c204d04e5ae7d5f; 0x285c79c8bc31a289; 0x7f2ba7a08759d20b; 0x3244c7f3d7b220a5; 0x752267241b548b25; 0x3acd9d498267534e; 0x2b05a51a3c790419; 0x21d4189d6f43cf27; 0x4ee64d04e8adaccc; 0x5d089ce9a1cc0865; 0x5180d70bced2846e; 0x4749b11b63f50a5b; 0xb36cc60c7b2208c; 0x32b0a169215b1552; 0x54322208bad26a22; 0x2ad0ab59d9d4daf4; 0x5591694b1b430b60; 0x549f4d8fe8ba878e; 0x69ede9a5760c18f9; 0x3599c22c01fbeb99; 0x323a349ec1f9cb7c; 0x2de5d2bfd0674980; 0x1b9aaa588d807731; 0x7f522eeebf36e0; 0x710069645c4148f6; 0x45f4bc55e742197f; 0x446979deae31ae9d; 0x54a1a85fa0cbef1d; 0x1997ba3a4827bcdf; 0x2966738582f1d101; 0x7fd895b03ff2a1ef; 0x508531c49dd1f73e; 0x2096abaa1444f993; 0x526e7c28126790f7; 0x1f48200894ceb679; 0x4f5c9f51daa6fc02; 0x627e41ee76dd01a0; 0xc3adcd3b9574e91; 0x17f33d4a3c344a96; 0x4abf9f487ab0fbbe; 0x4ac0ef0302d3999b; 0x47c10d5c5db10876; 0x43d1f458115949b5; 0x7340dd504ff2a872; 0x2d8e681ec91ace44; 0x6d99cdf5a1868b94; 0x7e00dc07880dfcea; 0x5950661aae25658a; 0x7ff2f6a3ce7f800d; 0x7e8d38877c4d2ae5; 0x5ee72e1ba4af6cea; 0x3151c510e7be3dd4; 0x3eaf84cca1f30f28; 0x777b80322d490aca; 0x4fca5d83fdb1d7ed; 0x57a62d805cdb818e; 0x635d82f69e5c62e8; 0x3ef194c7572903ed; 0x34ff7ef5bff763d4; 0x20de589cd12bc460; 0x2d6ac2dd00e41d4e; 0x5bcaa1b32322a7a7; 0x15ac4620c80d6771; 0x562a1f10e81cd675; 0x4046af53715261b1; 0x721aacbf3a934e0d; 0x1231d300eb979fe1; 0x323e479f8ab4cdf9; 0x67eb438407505107; 0xa270718753025c6; 0x56ea057f1054fb3e; 0xfccee66d0a7d4f0; 0x77c10e1067406cce; 0x5e0c0c8c6a7929a; 0x52d44c71bffd3b8c; 0x33da3cee7af0a572; 0x76d0e814f65df811; 0x7ae3c4334ca030e6; 0x68dcd512df4b43c0; 0x769e7ff76e5204c4; 0xd01b59702251e21; 0x603533bb99301008; 0x49c245adab511707; 0x40bd7c469c122caf; 0x5d9c44125208b84b; 0x786678c03a25a334; 0xf3706b9bc4d9001; 0x27f9c317e562383c; 0x2ad97ef53ef098bc; 0x4b2149dfa5634005; 0x30155ebc3040b105; 0x33b8f42d2cf04905; 0x602cbf8ca541980d; 0x2715eaef2a6f3f59; 0x541b91ff655cc758; 0x3034e054d069c88f; 0x6592b44958ea08ae; 0x3fed8e149583c1b6; 0x4779f25f871f784e; 0x3548c6b527109732; 0x5f0653578d0f5c91; 0x2c26e56e04d50452; 0x3b8c2fac3ab3a9fd; 0x34eeec1cfe1ddeec; 0x6b38704c10bf809f; 0x7f8276e7be61ae19; 0x29738d296a5c2763; 0x72d8f121aab65d0d; 0x1f6b284b436c9c76; 0x33d60632bc6b46fb; 0x4ea5447c786d0c29; 0x26d380e1989054c4; 0x39260c2c35e66616; 0x4aae62a50da3d14a; 0x76dcb140eb64625f; 0x1168e1322bf038a7; 0x53f1293116924549; 0x1d730d969a7e38da; 0x3e476a75dd292d13; 0x2ff851e2b28ae353; 0x76bf902ee6e9283b; 0x76a67de7a4a57060; 0x212187bcbf0758e2; 0x2dc0dd1b75108c48; 0x20fe86e72aa7aff; 0x16b44ed267eb69cc; 0x7310b84185338e1f; 0x21e6a78cb22807e4; 0x1d99ffc0c66a54e3; 0x3707f0d1f9bb35ae; 0x650c67a29cf55d4e; 0x27770ae0418c2a1e; 0x20752699667a6298; 0xd95f1fde58e12ed; 0x162d97d24f14d656; 0xbdc643b91923b3b; 0x5718b5e28b6223ef; 0x3cc09ef7a7514a66; 0x3a6481f391000ccf; 0x19815de54f1a6a1e; 0x6e29789525a0b0cb; 0x22e8ac0f2c92471b; 0x709c5a3ce64fb111; 0x596b375e1972f4b6; 0x4c7e8138f8e2a0ad; 0x487a08a23325c109; 0x98cdae89dd732e0; 0x7e0518004757a5ab; 0x2d4dafa8a4fc25cb; 0x46ebdbb803c5c8fa; 0x628bfd2d9e2672be; 0x1e10e228df5ddb2d; 0x6c357de29c93c23b; 0x4710600360753212; 0xb4c70e039fa2a0b; 0xcc0a3ca4ad2f4ba; 0xc715860c58591e2; 0x279f62fb4eab1dce; 0x34946659d1a47670; 0x7bec1f37dbe310ba; 0x4385b00dacf06251; 0x452a01a33518eb31; 0x4352b690e7b3f8de; 0xc3fb8eaba33173c; 0x4870b619fb4624ca; 0x732a123d9962045; 0x4f23528cc1a3ba86; 0x5115cb505425a924; 0x6d48b4e9a0a5ed0e; 0x15bec1bc398d3cc8; 0x1dab1a54801b666e; 0xab5a521a3e3dd40; 0x5fe2cb0ac1380ba5; 0x5311e3e9078b43c6; 0x71b560ea0f6e2f76; 0x657eead47daa8dd4; 0x6b1726565e2c6d85; 0x768e95a4be5eddf2; 0x79464b046dd4e516; 0x156ee04f02cc75ea; 0x7fab80f647519760; 0x3417220762d39625; 0xb07949c1c52160a; 0x7855245c3cf2fc6d; 0x4c629c26d099e987; 0x23d06dfee98ebed7; 0x41a78aae7a753be1; 0x26ea96283b2f66fc; 0x1d75b5cc63c1cd67; 0x6390ce1bd7e88adb; 0x8943e084127713f; 0x1c32cdf6f937b053; 0x509d366f52cfd26d; 0x353f0e6a03fa413a; 0x14739503f71884dd; 0x6a0736830df5e5e2; 0x217f8c5c96aeb9ef; 0x265fbdc00241b2a; 0xad0a62f21ea6f07; 0xb19edc1457aa668; 0x3aca23ade7f45b77; 0x983bd8468d61d81; 0x29272c11a8370b21; 0x4583bda851c60c81; 0x5d0542d4f8219f04; 0xe81415433855561; 0x387a7ca04442fec2; 0x4763c45b39199e51; 0x6e60ae86359d49e0; 0x1c34d895da8e716f; 0x2ad0e5cfe157cf65; 0x632004f11bf0c31d; 0x1b33b2de6d286b05; 0x2f54c38e2766d0a0; 0x5ae525ba3bc69389; 0x2080843971301180; 0x410fac98826b44ae; 0x13b22be2002ff149; 0xd8c087dd0bcbcbe; 0x373e36f48ac2fa0f; 0x2da091191abe4c72; 0x2a606acf8015fb47; 0x77dd1c00b6b794a7; 0x2736306281b91930; 0x548047620ff1c0cf; 0x54044551b2e77a3d; 0x22a80822aa888a8a; 0x4450401155544400; 0x28aaa020800a0a8; 0x4014545400504005; 0x28aa8a0a08aa20a2; 0x4514444145515150; 0xaa0a000820a88aa; 0x515115145405505];
   [0x5045e98ad337d83d; 0x69c6b0989caedcdf; 0x7001c033501ae2ee; 0x4470035f068d1fad; 0x6d05fc19c3cc4f0b; 0x448a16d9cff63510; 0x78c9fbaf46db3ace; 0x570d879bf520c15f; 0x4f867a532739199e; 0xb00650f4b74e169; 0x1f8f2ae792b29360; 0x3cb6c33e978880fe; 0x3cd85b1a826bc864; 0x7d0183a728efcd79; 0x6d59bf927e6d9562; 0x206694d20a216560; 0x37f3832328582c16; 0x25e9779e55aa86b7; 0x563a16b7b789e989; 0x44d616b4465cd5c2; 0x216faa9006b77b1; 0x2a8816e5b4198bf5; 0x3ade2ef6abdda56f; 0x9503a147c12c5c9; 0x971ef20f5385a25; 0x1e12e56adfae548a; 0x42a8a3d97236c62b; 0x4025e22034725a74; 0x5a06878d9b186595; 0x25d51f250be4b68c; 0x584c615a5e9e927c; 0x78946a8475b68542; 0x521a760d70f0dedc; 0x3690d8259db1738d; 0x2f865b1bd1e8be1e; 0x3797af912f874d5e; 0x78ee9b0d92952918; 0x44a96d5503527dcf; 0x35e5b804abbb473e; 0x4e991281e4d3e688; 0x3bf02c92ed01cb55; 0x484031552bd45c06; 0x19f234ae2e2ec54f; 0x2a121f37f8cdb631; 0x795ff1c83d4f674b; 0x375b244874e664f9; 0x6d44b6d4b779c961; 0x6e91003fa1c632fb; 0x55122a1883de2140; 0x4f1f6add8b739f00; 0x38e222b2a1adfb95; 0x2d7c4ddd8c353ca7; 0x17b02bffb3242aa5; 0x2d26d429f610063a; 0x2d6c72be3f2f9184; 0x336be8121b32b19b; 0x7c367e4cd3da80d3; 0x746dc1198db3cc0c; 0x6af4fbc95edc67b0; 0x167385a38bb3f6dd; 0x50c8f4495cd81f62; 0x7a8fa24db39c90fe; 0x17dff242296deccf; 0x483c6dd81051ccf7; 0x4349aee97fa16efc; 0x75a28c946fa60865; 0x302b528dd420a55f; 0x1ebc237088e1045d; 0x632179519393d1fd; 0x12329f35391d7ff; 0x78c41a064524115e; 0x16879a87a7fb05e1; 0x35f539ae4680c36e; 0x2ff7397f9e9ebe7; 0x5376122be88deca8; 0x2109c68528340327; 0x4878221df24af868; 0x53e22dde7aa5471c; 0x25147f9515374c0d; 0x55c334bf75be69fa; 0x20151c0bc1cc67e0; 0x37c4f7963da47866; 0x28ff21bfcab38c1; 0x7cf22899a2f11c8f; 0x42a621d4719a96af; 0x6c2b7383fd265d6c; 0x6bbbe8ea0ebe0cf7; 0x6a006fd32fca4adb; 0x14641f28f922e577; 0x1cec241846781d7f; 0x40373f34400ef3f1; 0x3304cc6ac00fbf5a; 0x2173904e9d3b0370; 0x2966d9e802263311; 0x3a61d863fed1369c; 0x73782ee837a8c480; 0x57dbf354fc3c807e; 0x61109bff7017e2ab; 0x4264af6a37d02538; 0x769a803a881dcd55; 0x3a2e737eab2ae800; 0x38756bb979a2f629; 0x25cecf7c1cb89ca0; 0xf7e3a963945b559; 0x4fdd0be86b8d97e1; 0x45a13ad44424ea65; 0x3ef04ddf4e15c68f; 0x6cb00e5c43598bb3; 0x3f785f5967862c47; 0x70c3d6794ac4dd37; 0x2d59faa7f79a5a7f; 0x4c8f373389c4fd84; 0x1396309cee8d9aba; 0x44b3ac99e3e2faf2; 0x71e6aca40a0633b3; 0x37ebdadaa5c16032; 0x60629a96a2f55e1c; 0x343151a4bd07467b; 0x31eef9feff7a89c6; 0x2b010165ccdcb17d; 0x7dcd7f8b7b53b5be; 0x20dceaf09b423def; 0x39c71f391a488086; 0x34a08a9f8ec0f76f; 0x57f333e9948fbb98; 0x598430edc388a77f; 0x143f6e6bacb47dbc; 0x36701f1aaca4e671; 0x462c9c88835f9433; 0x785a6bba3773fc39; 0x280284a1a6485ea1; 0x7af58c6702a6a8f6; 0x22d44d23e0088eb3; 0x378ef454f13eae96; 0x3bb05d16df9f8919; 0x5a7cf784a403f85f; 0x335b3088d894625d; 0x2aa3352ca0dbcb4d; 0x36650799e6013034; 0xdc8cd14b406bd29; 0x47c4daf9bf869c0b; 0x46d8cb3ecaa71dcb; 0x2d4b14ca970c9abe; 0xb97c7518727cdf4; 0x4c2fde56d165688f; 0x3ccd9f1fcc285f18; 0x5a48c4b52f61405b; 0x603eb6d84dd3bb1b; 0x2e916cec1d36b441; 0x68464349494a4a98; 0x1eadb29118f9081f; 0x489345814f09aec1; 0x2a135020ad63669e; 0x2f058beb6b66179f; 0x9f199ac5a317e4e; 0x25ab999af6007563; 0x5ce98dc0229b70a8; 0x5ffd284a0a2f1284; 0x5e3f9362ecae139f; 0x27820fda5b3117a2; 0x65c3e1a943eccd68; 0x2f95dc0b819c7634; 0x5c88e87a4e81626b; 0x32e792eb8edd838d; 0x9405e38d5912df9; 0x33e4fa995bbd36c9; 0x116e23a9ffdc67af; 0x32e1650bb1f06e7a; 0x20915095193058f1; 0x4a2e89120014a081; 0x38eacf6e68ef2b59; 0x32753a4d1bcffa6; 0x3b7ee38516a6e453; 0x248987b900c7ef65; 0x4ee8b618720e4982; 0x530842bd0dfaccfb; 0x15b9b12f7380a841; 0x7307ce45ecc7d0c7; 0x24376784984007d0; 0x71c1415181827972; 0x61f2e57a209f6873; 0x1b4b1b2e60e3951; 0x37d24978a3ccaa54; 0x776259d1b093a60c; 0x200d89f7d40cf41d; 0x1d395cd42fe188e2; 0x734e846ae4a4d804; 0x2db7e0aaf009c170; 0x4867f7f31f23a8f6; 0x6358944368baf58; 0x51fa2ec17507aeef; 0x66208bc5dbb4c713; 0x1d47c4208bcbf1a7; 0x61e0defa042a3a60; 0x1731442cfbb946ec; 0x5c6153a07b39097d; 0x770907528552eb05; 0xa18715504fd183a; 0x5ec8b9615bade822; 0x3bbb705328564ad7; 0x4f1124c32a89fa66; 0x6dabdd8cb903036a; 0x3f5db6911c4ea2cc; 0x5e2d3d3f1814f951; 0x41a261994fd157f5; 0x76888f8e44013215; 0x4c64c414fb9fbe7e; 0x5c662ff3d16fde25; 0xec1c1d83e19177d; 0x3cc5c325de2c810f; 0x5dc52286051c11b5; 0x4dbd58287dae789b; 0x53891a0dee0dac20; 0x42840bd5157526e9; 0x539f294789f26fa6; 0x471efff47ceae30e; 0x1fc12f75eac330e7; 0x16cab39be346f2e8; 0x7111f547bfcf352f; 0x1ec9b9e9a2af69b3; 0xce8446ce51871d4; 0x2e91be60773af9a1; 0x3daad1d2529d10dd; 0x65cad79056ea57a1; 0xa30d89cdbc3287b; 0x6a058ebf150b6429; 0x3ba1068c8070b1f; 0x23d88ed19e47257a; 0xefad07bd9e8320c; 0x403ff8809c3b122; 0x45e1bb5f4ab9a7b8; 0x33524222136dae36; 0x72abd3d6d276aff0; 0x39949334ee784358; 0x491ba66c39141ef4; 0x6d7158adc0625e27; 0x2879b87cef7c4e79; 0x1fc903df15261af2; 0x2fbd09e6bdfa6917; 0x973c042db4c5aca; 0x2a9faed9e1e8f233; 0x45c5a653338c0faa; 0x1e39e27727b76e82; 0x7b691ba46d0a34cf; 0x41fdcb5da477910b; 0x58ef48260ca3f7e4; 0x6aaf2f8bd183fb53; 0x5e523a97e7ee6bea; 0x4f53f93dcdc2e065; 0xa935bd605596dd; 0x62323976396f2d7c; 0x414d6e4246cf2db0; 0x2baf57580ab4d6c2; 0x710da4c37de8935; 0x47dcf1571ac1f6fa; 0x5419bc59739d521d; 0x3d91d32c23824f6; 0x288fc45044f7d46b; 0x7498f01900736d96; 0xb80ea93b462cab2; 0x6fb47850726e87bf; 0x312c42c1a1e6f45b; 0x686e898b74f26c56; 0x2f3b32963a44725; 0x5773ba41a9c3cd22; 0x8e0b027458d8da3; 0x13bbbadb750e62ea; 0x549eccc8c87d428f; 0x2e2dfe18705d5d65; 0x304773045ec9b080; 0x158c8d414494e00d; 0x71f7a9105987b07b; 0x4cb396068544dda6; 0x2a2b6a4127fa06c2; 0x33722169bb13a4d9; 0x52a7dbf388a9b54b; 0x2b333befe05145a5; 0x7f122023515fc514; 0x5d4f8c6355b7ef9a; 0x7b2b760db498a424; 0x18cfeada1c5a1206; 0x687ef87cef1cf5b2; 0x496adac19fc53fed; 0x6328fc32b1483116; 0x36903191df3ddb43; 0x447a5d6c394b2bb6; 0x51ec857187140514; 0x2fd87b3765122ae7; 0x28b3cde52cd03d93; 0x4cbd15592ca042b; 0x7f3b1f836fa01a99; 0x5616df59175eb072; 0x37628c79b4e0dee; 0x150c67099ffdc88; 0x22890ef2dbee8b35; 0xce2e376edae1c4c; 0x1281f54bb65b3c0; 0x3e444f5fba5fb7b4; 0x7409d87adf6d7cce; 0x7f4aa54bc1d13e11; 0x485be0d49b75310f; 0x7b8214f139574640; 0x7fc1902faad7e3af; 0x7d1e1a331cdca700; 0xe566f1958e8d8f9; 0x49108106e93de9d1; 0x5dbd08159f3edccb; 0x2a76c15b1a81d9b7; 0x5051440130f62523; 0x22a00082808a0a8a; 0x154005045554545; 0x2aaa00020022082; 0x114054414101441; 0x2a208a0a08a000a2; 0x51101040154510; 0x888aa20aaa8828; 0x105110110055444];
   [0xd1cacb261d03220; 0x2025817c3a06b4b4; 0x47add8a4085f0daf; 0x286fd225f42b4db2; 0x14c2a90f26bf517c; 0x2871d298a0bccc91; 0x2ed6e7802956ccb9; 0x4766ab87c290764d; 0x2f2f44ee6cc33849; 0x261f714fc39dfcfe; 0x3c896a796df593fc; 0x41d516e6e353fe29; 0x34aa23491a5868be; 0x364f07b4746b9cc8; 0x1c32dce591b3bb37; 0x20391325a848a406; 0x6ebe65332b45185b; 0xd088697014ad177; 0x357d0c2315d3388; 0x3f1c620656113f6a; 0x4716c44f9a84009; 0x1d8a8d484983dc84; 0x207ab5997a6bab06; 0x5d7e3ea13e165c6b; 0x5e184437a11aefc2; 0x3900d7cd6d1a03c4; 0x2f7e4143ed6d3cde; 0x7fb2ee2642a6bf5e; 0x2835a57ec9712fa2; 0x5afde48e111528b3; 0x6701cd7b2e2f5b53; 0x14c1a448b70e78fc; 0x3f9da75edad084cf; 0x624d75d6afa66332; 0x2e24ac58de943f35; 0x4227c4493afa0c3e; 0x91a4cf548f9296b; 0x196266834f008abb; 0x69fbb08dddaaafcd; 0x2b537e0cb7691bfd; 0x616ff45327115e03; 0x418d925ad4353090; 0x291093dd025ef61d; 0x383328664995bf73; 0x25a04e1b5c421822; 0x64f019cc87a64ecd; 0x7ebbd0106bbe2aef; 0x55ae2f5f05fae368; 0x4f85bef6ea66d8b1; 0x6d2b12fe73281198; 0xcef8896997dc387; 0x24f4c59379d0fefb; 0x4e2aee2f24e85176; 0x105bc20ba76cf955; 0x92671d8b015b5e5; 0x4630f25d221bfc50; 0x4e84a2875320eaad; 0x2178a84b299541e8; 0x21d7fff21b893885; 0x4bb40b61dd38c4b1; 0x49d4cf7f965bae3c; 0x1af4c720f0a5126f; 0x7115cc9dbc080b8; 0x1033ef5fada830c6; 0x83d1ea1fab08813; 0x140efe851d5b2747; 0x6ea1801b624d991b; 0x5b8682d2c26f97af; 0x167e26e8b3770f63; 0x22568ea1d86a5e85; 0x6f8db4016f9948fb; 0x6633fb048248fdca; 0x5d480fd47aecab06; 0x2de46bc546c0fdef; 0x36fa9cb444f7e94c; 0x44b4cd859571fab5; 0x60dfc38c6392f20; 0x7e612dc6f51acc; 0x688ee118a3c570ec; 0x12ff64beca422770; 0x2ba113114ac3e963; 0x61c3bb32431e0969; 0x3bfcb0cd8c57429e; 0x6aed05bfceead271; 0x468052f74fc2ba4c; 0x431b4a9573d5617f; 0xac7a800b3aec63; 0x2d0768559115de8b; 0x48be34a13f49f0a3; 0x725d229afc68547e; 0x37d11a25bcf1d815; 0x6f92cf717cb1d768; 0x405c53de337fc502; 0x65f3043e5939083b; 0x1764200fef506736; 0x1fb0174708e7dfa0; 0x489e79b77b6a4c3d; 0x4a09d545293074df; 0x5e4b21c7da99c13f; 0x2246510aa071f473; 0x6cc473fcdc5c4253; 0xa0860052f3712d2; 0x1d03b0b131035be7; 0x327945eca5c1982c; 0x1d32991541ccb35; 0x15640a8d33ddb8f2; 0x69dad6717673570d; 0x286fe1eeeeeb943a; 0x4bbbe42a9833c617; 0x7dc06e326637a139; 0x2504dfc3301464f9; 0x32d75971cd9742fb; 0x5d735c61643debcb; 0x6a3575b74a906b73; 0x533ebe118647dfc6; 0x5bef4f1fe643e2a; 0x2203fbfe2c363eab; 0x5e4c1b28013e89cb; 0x4b9158dff2fcff73; 0x5634d110c8346245; 0x11c205f4db320b86; 0x214813c818e25580; 0x3d93d49448536338; 0x10b8a21a2fa5236c; 0x1612c87d51a4dec6; 0x6fba6ca2cbd57078; 0x46034dbf0098c392; 0x7cdc2ade5322f244; 0x6612384c29168861; 0x2d7b89d71a170521; 0x595a4fd792fbbd1; 0x3d184f05837409b5; 0x70869e5f2a2fb9ee; 0x7a55c40f063d2f96; 0xe0ba942dc86eeba; 0x79d6a807e7661a31; 0x6ae6625a28694739; 0x6ea33f1b76bd43b5; 0x3212dd9463a3a358; 0x3cf4688766248da2; 0x33dfc7e6cd956051; 0x5da182936d1882d1; 0x5c6f9255d102e961; 0x2f1bd1905838b7b6; 0x6446e7168f0dc790; 0x10faa3c7873f22b8; 0x7193148f7f88f2ff; 0x7289e26c5a613815; 0x2c1862b6788f8630; 0x6cccb73148dfb9ca; 0x1300f934efc412e6; 0x3a090df027a67b01; 0x75493ef080bb82a5; 0x4291e7a940732981; 0x330e100f3d1e6cc7; 0x60416f88c8a0c4a5; 0xbd98fe817f9bcba; 0x4f085f3727b3849; 0x14bdfc320127ecc9; 0x49e7dd14dff5b5d4; 0x5c7feb9a2ac49bdd; 0x4841d6cb650b2fa4; 0x33a32143d38c5ccb; 0x68c3a21a67f891ef; 0x699fb0fee42443a2; 0x456deb958fc21f4; 0x17851e0cae7ae4a8; 0x13055335f833b910; 0x3833d364441ef762; 0x7b537c158cb58613; 0x62ae69b3c62c02b9; 0x56b2be838540b80a; 0x644e0ed3d6119a5; 0x58561d12ca768058; 0x78431652d9164d10; 0x1533bf54882a1c9; 0x7318d1f6ec3eb8c5; 0x1f6887ba6537c928; 0x4d8fccfc2090bd62; 0x60dcc15b399a2963; 0x35b4bef7057b27cb; 0x776d502baf192125; 0x6751543a1662a221; 0x799445c5b12c968f; 0x520140a58cead171; 0x1468b8af4dffe54b; 0x16ca69859ce351ac; 0x227e5920304185ea; 0x12d8859af12f85b; 0x885cd217c6b1d10; 0x63adedca7fadffbf; 0x3582c1d41f15e691; 0x2ce899063902f06b; 0x19278f4ea5750d85; 0x29358a406a34a5a2; 0x5a3c385759c81268; 0x7630d9a25f2875c; 0x56650ca176d5a24d; 0x4ebfb27a993ff166; 0x95f4bb3d39e252f; 0x7cc9223b1ddc4320; 0x5ff292dd7506acb2; 0x1398c3326a28a288; 0x1a7f5fb6c2025fb3; 0x7c635f3dbf2778e2; 0x30d0288d3499d901; 0x3a9197136d86952a; 0x19b45333f7774c8c; 0x4803b5731c731b89; 0x499eb092a2f43a61; 0x71c375ad94a127df; 0x563d272f0876cad6; 0x630ff62a1cb60c3b; 0x554e145fdc9a48c1; 0x6ccae98902ef919e; 0x2a5661c73c20990c; 0x37414057ccc7d2b0; 0x3bebefbd1137e6ce; 0xc98e2dd550086fc; 0x55627bbe04452494; 0x7ec40a0380ba3b3b; 0x3d9082e5ab65bef2; 0x49443ebdab73bc8f; 0x1fef214fa4813f0; 0xd9a87a5859b60e1; 0x53f405811b4f3071; 0x24c5a9165e6660cf; 0x2123fd54cb74123d; 0x384b00c695a1c24e; 0x5ed9a43a08438ee9; 0x1627e3b3cda57938; 0x6cd325b40a40dad0; 0x796ca960bd164105; 0x17c5836201aecbe; 0x2b7284995d23d2f2; 0x79860c607688b4f8; 0x50b609a600f2df30; 0x5059fa7fcb892517; 0x262d4984e04ed17e; 0x58ba17fc14b7fac6; 0x88a3b5daf84d1c5; 0x309fabfcc5cee1fc; 0x27b73ebec217a2e3; 0x6c09ab604e16b7e8; 0x56c1948ac0f3bcd0; 0x7c654ecf633097a2; 0x101d90ed194f9048; 0x67d0f51caf5498ed; 0x1827c039355dab99; 0x1fbb05c13c848f1; 0x55f170c388183d48; 0x251d2888f00cfa40; 0x32bdbde606ca94a3; 0x6e25ec0f5b414cf7; 0x4665a7809b99d8d5; 0x5d18ac48c4830cd6; 0x2f958a18750f134c; 0x213a5d3cb087b8a8; 0x7fd0734552a0afe0; 0x56bc2725b98f86a5; 0x11434c44fef2825f; 0x4ca120e6bb24e945; 0x36823f378fe7ba08; 0x377656af08200485; 0x18e2f483c64f775c; 0x3565c1e3b0d43b66; 0x30b50113316268ad; 0x6a93147635a92b31; 0x353d8bc331447f3b; 0x5f426a9cc6de746; 0x432d9b544cfb7429; 0x108512e272e0de78; 0x326842723b5124fe; 0x447704a823adf660; 0x1494bb232840ed7c; 0x721622b95754f7bf; 0x52f28bc47c660082; 0x5dc2325a14816b2c; 0x572df10fe8e136c4; 0x4aa4522f414300; 0x9538edb02f0e35; 0x7a7ee31e96d4d556; 0x2afc51e7ca69dbf0; 0x4e1698d251cf5411; 0x74d7c2239e2a59e; 0x5d1dd94845fb9f51; 0xdc05f1b13591a38; 0x5b0d95b9e7f160ef; 0x707286cdc0526cef; 0xc42a94dab102a59; 0xa89f91fb57e2241; 0x187ab0e928c11b05; 0x4d1a14f886ba0c3e; 0x2cf8f64e18bd941b; 0x3a79550e01d323f2; 0x59f391dee6aa0459; 0x788b56d27e1173a6; 0x561c795a518a79d; 0x188a893ff851049e; 0x42c66272eded5e33; 0x2ec3fb882b856414; 0x8cd923913e00b9b; 0x581b54653ddbd213; 0x3e14a75d4a6ff808; 0x7310ef13ec8ac55c; 0x711c07a3712c2fc5; 0x3ba7e45d25a4891c; 0x70415f2242b20f86; 0x15554110c8cd09ff; 0x20a002a8a208282a; 0x505000444105410; 0x282282208808802a; 0x5411405115044411; 0x2202802820088222; 0x4554014141545515; 0x2a280aaa0a282a; 0x444404555045114];
   [0x4875f1ad314d5331; 0x19d5a9e155111074; 0x403c9e68b1ac71b8; 0x4a92d5897864964d; 0x2e901c1cb914635; 0x13141a5b567b9eb; 0x1e0aee0c1832a3fd; 0x43a0e81c1f398446; 0x6fd9328929c753ae; 0x26bd403fd7706b61; 0x723447d4c03b4520; 0x24c94cec09abde7d; 0x7d73dbb9f870f54a; 0x399b16dd964df09c; 0x4fa41cc2ca0408c7; 0x259b63d2d8a851ec; 0x60089f1e2de8fe0d; 0x5be611277b428847; 0xd227e06f9e2ada9; 0x4f71a5df6f0de067; 0x34fbd3d0bf10911e; 0x5bdca0f9598b5904; 0x18cc77f2b764250f; 0x522b2e8552d37ce; 0x2b2fd780fb437605; 0x26348fbe948f218e; 0x5a578aba8043d65c; 0x3045176dfe6bcf6b; 0x1c09a5e7cbd7e0a4; 0x35d45b611b632ba2; 0x1efa2e863af45b81; 0x2a8f9aa5d724b29b; 0x26cf5aa733b7838f; 0x5e8bc1f8acc5cd5c; 0x4e479a949c1deb90; 0x2edae4b7cd9e8340; 0x27a5b4038093fea; 0x7044d423f9e3290c; 0x280f9f90181403cf; 0x42c9d84b37b03ff0; 0x6e7bf0653993ba00; 0x904b9c8b5ee36db; 0x4438cf3accb9513f; 0x1223f5b28fef70b1; 0x5fba94d3892e3c3; 0x631817e7cd7fd6ab; 0x30a31f278526c21a; 0x61ffae70ec19c5da; 0x7bc6d55460c2d4a5; 0x57f7f3aac9309051; 0x1c9208845363b994; 0x6276861a03f594d5; 0x45d6a1f42e84bcb7; 0x4636d514c368d21e; 0x5713d85d05514001; 0x483c8c3603f206b9; 0x3ec698da2afdd81d; 0x543b54e9dd0425eb; 0x5a5d13da55489e8f; 0x51827df02437dbed; 0x4f1465027486731a; 0x4ecc37cfc4d0c386; 0x35def6561cac90dc; 0x7b028c9da12f817d; 0x594ae78bb18a1893; 0x713d29010d1e5a9b; 0x39b954c94dbb1252; 0x12a3e611c95cf88b; 0x55c65c7ac04dfe20; 0x70a108b43ef01c8c; 0x6cf0920639c6a641; 0x6bfbdaa44eb935f; 0x5abd01ab0bdd5e0d; 0x590297830795e869; 0x32d88cbefb960858; 0x2ec1100e10385208; 0x12363573e5c3cc1d; 0x29faba95abeb7f08; 0x495861aa5bb3d351; 0x3dfaf4c54a87d76f; 0x1eee01c2ffc3b2b8; 0x570be163d2d6b6c1; 0x690b443ca2cd892b; 0x40c4eab62afb4e3b; 0x1732f22998744728; 0x2a270953b0c60cfc; 0x2bec3377ca6971f7; 0x6d503f9d8bcfab2d; 0xd68a1655e0dfe26; 0x7c5bc1ea20c420f0; 0x2f8de8680a7623ff; 0x69ba6eb18054b02e; 0x34d2e69dc5bb9dff; 0x6793c52dc530f0f7; 0x3156901ff490c0b1; 0x394a4d6e89e2c5ae; 0x2ee682a07e1b42b9; 0x21981258b1ce6a5c; 0x1700698a118124a6; 0x32d4fa697ee9edeb; 0x6680edafdb3f38b; 0xdcec4145a45c3cf; 0x660ce5bf4f494037; 0x66fe51e788edb3e; 0x2ce4c0fdacb59387; 0x4af65d3f59b5b7b8; 0x179aafaff64436aa; 0x61b8dfe444debebf; 0x13d94402963eff6a; 0x74cc81a5f47784cb; 0x393e463e009e10c3; 0x239a3d35ebaae6ec; 0x4903e31037fbe3fb; 0x2ebbea4cd6c7f75; 0x5a776c966a1a1ae; 0x5f32276fd1e9a526; 0x49810482792a5d69; 0x3263e5b3de9b1cf8; 0x7f4e8c7fe2fbc68e; 0x6149e735b835ef0a; 0x75421e603f30e380; 0x18fe78118c58db75; 0x58cdf9f3e7af313c; 0xbba43d21876770e; 0x5a4c6cf56433c4a3; 0x674a2f9624a5471a; 0x7a4292792198e56e; 0x6a1bac8197a56d33; 0x2ed993443da83037; 0x3d803bf3e2e70ee7; 0x59bb42bdded2e071; 0x3de754546275206a; 0x687649ba033ac284; 0xfedf11892ae5803; 0x41ae5a3fcc49083c; 0x27c78ef62b715460; 0x4a57a03aae06c050; 0x41a5fad53a05a9bd; 0x7798c5dc8a4b4307; 0x3cad02980ebe4f24; 0x3fd02207e572564e; 0x4f1efa77a61d1c2e; 0x1ff9024d30f119b; 0x3c17bbbfba82eea7; 0x360c031de3279d60; 0x3a4585c3d3949d51; 0x43102312560092ce; 0x1fd0f325553400d0; 0x2627d42c65314db6; 0x5a8bb4cf2e3d3d02; 0x30e857833f82f6cd; 0x1ed163a10f6c186c; 0x725a8a033c33573c; 0x6eeab5553803ef56; 0x3282a8aafc1554b3; 0x60a7c42699279fdc; 0x766388b35beca83b; 0x1658816a3f8689c8; 0x7642002b1b9d751f; 0x31f841862adb3717; 0x56254088a4d6a230; 0x7135eb1aca9abc3d; 0x4dd07df8c21ddbb8; 0x3aa563fb3c7f482e; 0x170097cc7acff44a; 0x285d2d5136051d3; 0x5e4f835988a11fae; 0x6e29045b1ce4e501; 0xaf798d127a6004; 0x29b1318ace7eeb6f; 0x545229d9e46a987a; 0x7b2e4efa43620da9; 0x3345e0bacefdae6b; 0x330f465cbc490229; 0x3626f308dd6fdecf; 0x6bcb737411a4a5f; 0x41b035a8b3b7cdf0; 0x2552955c935bc948; 0x5b49c49c813c7eda; 0x282621202948cb94; 0x14ca73fd204757ba; 0x3063ed3ff5e2ec5d; 0xf5f0783dbb966cd; 0xdd2f373ead0c7b9; 0x51a8749ad940fb77; 0x3cbd04073d3e49a7; 0x1dabaee1c4891e6e; 0xfa6ba92717341a0; 0x20a67b0fa421e2d2; 0x7900a586980e736d; 0x301c256ed31d486d; 0x5ca0798c8582b0ae; 0x73fb4f76946e0ec7; 0x667928da355282b7; 0x17b490667b6b19c6; 0x34a8a205fc9db421; 0x74c2ce2dbe6fad06; 0x64f9f10289ecfd4e; 0x1a10936c4274b446; 0x8eb84c29c9186e6; 0x153b1b91b97baf9; 0x1d8d5036f7fcb03a; 0x497ffca7e4265f56; 0x17b7fb8e75a58c79; 0x1bb25b435a2344e3; 0x7538fb646bc68e1b; 0x4068a907c1c684b9; 0x1cb6d44c7e77dad0; 0x40637408b3d1e381; 0x621e2663f425c2d1; 0x7b4d088638f8542d; 0x525b89ef62dee5b1; 0xfae0780ff61d2c9; 0x6426511794509f5f; 0x44fa5d9fa552d49e; 0x21c2bd46e29203f2; 0x4a29f15405bfa3aa; 0x6b4d20a6a62c4729; 0x3754d757eeb29eec; 0x2e9afd7bf036c496; 0x39482be62c8bd917; 0x3c4bb2186b241152; 0x2600f020e6c49b2f; 0x7b6ae5bf29b9d302; 0x2e055e14a09e301d; 0x723427992fa08607; 0x4a68fbec72e5d28a; 0x3478d4aaf51be507; 0x1e8cefaff8742169; 0x658235210cfa12cc; 0x12e9ccf24d1a6cce; 0x22e31bff7c49f5dc; 0x5dd0513bd09524a3; 0x7fe1965cd6f653a1; 0x567bb9f06b77d6bc; 0x37ff5755c794665f; 0x412622b39a3ed3f0; 0x7cb0d6bec8912caf; 0x59ff9bf03a6b69c8; 0x14139e23032c0174; 0x5c902014e034a9; 0x52aa046ecb7f08c7; 0x9c6e07c409002e6; 0xdfcb4e5b9cd9b5d; 0x6bd19e3b1a790869; 0x150bb4261f0e810; 0x5da3e1c954f2eacb; 0x6c71fe00076207e; 0x29121f2be5616672; 0x7d05d15029975733; 0x3861f060717d4adb; 0x6f35ddb696db18ed; 0x419d33633e8c808; 0x3ebae51d8f821f87; 0x39cb9feabda7bb9e; 0x5b0fad10c4344495; 0x14e9d48e8e0c7818; 0x412f2abdceb63179; 0x25ba6772889d8bd9; 0xad9f6cdeeb12fb9; 0x61e3f07b2bfb6e70; 0x54303db1a99fd1b8; 0x1aab5bb47517f370; 0x2a38fd5363dc0904; 0x5e5e2cb4e9fdbb04; 0xa9f1d968511b0c5; 0x55828e828056d41f; 0x1f6905aac2446ec2; 0x65239cbed20275a1; 0xa9f306c31989dc8; 0x63df4954211c31fc; 0x72caba1420669151; 0x2b2ea45437907b95; 0x5d33bf3e25d1f2d7; 0x1468c7608a588f7; 0x2f78f72baef5c200; 0x5b2655feda686434; 0x7a7b2392a3172607; 0x2764671708b51310; 0x2f75dc80265eaf67; 0x51b66abe74a8fa39; 0x26b283144f7aa1eb; 0x2d56fca64692eda0; 0x26b61f149ed189e; 0x23dc522a1bcc12ce; 0x4350a7e716e91e52; 0x70dd362c4fb8f1e3; 0x68beb40daa77b832; 0x64b7d273951ce48d; 0x2d3a10752c7ea84d; 0x35f5ecc2e5f0708f; 0x138538d27e043fc2; 0x332cbbca9388a17c; 0x5d8dea22bd7b743b; 0x2ad75798003b4a83; 0x4bcbdb7dc3df1795; 0x3e393a73847c77fd; 0x42dd825e9d7fd299; 0x7dbfc7ab4c48c22f; 0xd544aa3e09725e; 0x2af444af825ea42d; 0x2b27ca0033ba7378; 0x78d85b6082927751; 0x5216283e2239293b; 0x57a7abc5d324c48a; 0x5971f851f6171b64; 0x74f64b326ce25acd; 0x72577b5928ce952a; 0x5111155442d2a51c; 0x222a2208022222a2; 0x541011411050500; 0x28a222aa8208aa02; 0x4544055005455144; 0x28082a00282a; 0x1400114515511104; 0x20000882a0a820a0; 0x14150045055454];
   [0x7a13d7510aa72fc3; 0x6396ed58acc0ba82; 0x59c0ab029f8b8b1c; 0x19ff9b6a894a698f; 0x2c1168528063d1ed; 0x441ce1b9f96d2c8a; 0x8fbc6ee891e8dc3; 0x53848cf9fe12450a; 0x45a65e445fb1435a; 0x54cf042f2149d1bf; 0x1dff37249497b497; 0x2a0dbfff9864f8f4; 0x14dad5d745ca868f; 0x7ee931c442e6ab75; 0x4d6f9b25501057af; 0x34e9afd6025ab05d; 0x3c4ea4a46546eb8d; 0x24b76a018b61994; 0x6c5e7b0d91d4c08b; 0x65cb6c3fd1210baf; 0x9f1f01e1f5afde2; 0x64bac16c2bdbb9b4; 0x61b44ba7fe1c45e8; 0x442835b91eb125e0; 0x7a4103fd65f3eb4a; 0x2c655ce7e02f94cc; 0x30bbbac27496fffe; 0x6efc3dd30c2306ca; 0x76ad45eb0a28c2b1; 0x6677b6218bd465ac; 0x4c63e668223bed4f; 0x25f549e0d8feb0ed; 0x643b7f0fa306955e; 0x1372c4dc46cad22d; 0x6434f99c19295ee1; 0x575d5b5430e8fbbf; 0x302628e711ef9e8e; 0x1cb6a55600ab63c; 0x1385681caad2542a; 0x475fb570ff23c31d; 0x416930d12eb2b45f; 0x4ad6292ca9737560; 0x484b0cb36cec488a; 0x46f8ca2f8b57d6e0; 0x4fd1f1360fe21dc5; 0x2fbc5c7709195466; 0x5707e9092db9f7c4; 0x4ba9c32550e602ba; 0x6479a25e31e6deb4; 0x36fb30f265e4fff0; 0x10ecff4b2a980511; 0x6cef7f0c41ec643b; 0x1bca927fa8f77ddc; 0x30b916db5d522486; 0x5daa388c21420405; 0x7cab29eac470ccc6; 0xd8f7658dcf4b68a; 0x438dc9807d103c86; 0x50c4ac9d73311c20; 0x50dfab3a9e60c4dd; 0x3465d82e00293b39; 0x53caf58c3eef75c; 0x34b9e092ef4a0ecb; 0x1172c4fd216b53b5; 0x2fb36f6a6c43a450; 0x6ab56643bc8809e; 0x33d28a27f2f2e637; 0x46def46621408b3d; 0x68aff6a2984c9c46; 0x3fdf511e6c18b81a; 0x659f21b8c6624848; 0x71820bc95512ad22; 0x2a942c9d00537052; 0x1d0ee7a5d308d13a; 0x50140c1c526bd2b3; 0x7a8a424d994ba459; 0x33d56a72bfb7a38e; 0x8d7da5105ddb3d7; 0x67da09eed8d24cfa; 0x525c4196837d628a; 0x28b0149bea686f1; 0xc7c5cfcabfa0725; 0x4018833a2013e974; 0x7ff6afa0987f9446; 0xf7d4b9571223ddf; 0x1dae7154bac7c918; 0x379843dd8e20745a; 0x5d2c3813b2119244; 0x1aa0cc17d1f66472; 0x28201b09c9db4f7; 0x158a72faebc31445; 0x34eb2e19ef8b3792; 0x4b64ba558955faf7; 0x4f581cdca2c493aa; 0x35818b6074f3349; 0x7b3d92d95290b3b; 0x6c6bc5b38688f466; 0x4e34de284d29a707; 0x5787cd0dd4f05b94; 0x2dfcceccdabb0ef5; 0x20007377a80f8d48; 0x5c454b7d12fc37b7; 0x2275c91563fa9dbd; 0x798d42e06a8b1e07; 0xcebe7631fc74ff5; 0x4c62e305a1f3be98; 0x1527274d14bb7e02; 0x15c21cb4a53a9ce5; 0x3bc8b044a03d5097; 0x6a7175309a4004c9; 0x375c099d7a426fee; 0x2fd5e2c6b549c52d; 0x3fb0cedc9e6609cb; 0x7d3b9b8a8f0987e6; 0x1e5bd2316a7d16d; 0x59076656db8d3cb5; 0x5f3d1842890481b7; 0x49a4e2a7dcfd1d8; 0x1a1d79ca36e99224; 0x390a4a8b836a1a82; 0x39a77e7e170047d7; 0x55bbc28190c6365e; 0x7a76ceff460d5d7d; 0x49d404f842fe4648; 0x3fd6c366072c90a8; 0x5095560c63b05a8; 0x69efb7a86ae5f601; 0x6f5b5118905cb309; 0x10a438c8d56768; 0x1dd620940190725; 0x12b03ff421bdd032; 0x6974b806c6dc0c9f; 0x3c8157461cb05da1; 0x49deb8ef2711441a; 0x539343aca4fcd5b; 0x7ecef26a5b0d4179; 0x689e31378c8d63ee; 0xa83675e1a2f71f9; 0x538bf9d58dc03ba9; 0x4fc1b7aa4521cc9d; 0x13b540ea1ddaecfe; 0x666d33ca74cd9a00; 0x6fbe295a98e1cd96; 0xbd0414ff74db607; 0x438aade11edf4e2c; 0x38b01c89633bc607; 0x3215ad41e6cc443c; 0x278b018251022a30; 0x279afc99e5ee9917; 0x623235fcbc4790b7; 0x1250301d789b75df; 0x1f58096de90feff9; 0x1e6be29b348d928; 0x5c46de21717950bf; 0x32454ff869937af7; 0xa0584e2152a1195; 0x496f4eecaef1b31e; 0x1366994909a310a0; 0x13f121f8524a2538; 0x2c42be642bb6647; 0x341ee2aec84889a1; 0x13475b42beca4162; 0x63f7b00893e50961; 0x6c25986b296201ce; 0x12aaa1b5479caaef; 0x67cd21a420c60a43; 0x577460ffbabc30b4; 0x1af9a9ecba88a315; 0x3c30d3938882a4b0; 0x318fc2361ab30755; 0x31fe53c76068f194; 0x4c341b5cb6af4cfa; 0x4cfacbe1218ecc38; 0x119f719e4305abaa; 0x4809d8821a1286c7; 0x2e2d6b10d672f42b; 0x76939dce5714c00b; 0x5d54520611d3905d; 0x2b9e74e0d50b23ce; 0x146770ec6f57c20c; 0x133814d45df9eeae; 0x1127507c37027b74; 0x615bb038171a3e4a; 0x396cd1e1ccbdbbbf; 0x7c4d2ae331fb4545; 0x38150974ff14c6f0; 0x3e85f6c7457d0550; 0x23b1eb34c42c5c86; 0x712a74be00c5b8f6; 0x314e9290a5327a52; 0x53946307b15b94b9; 0x25c7d4503a4c29f7; 0x60d5e5a9aee14076; 0x132673f188dfcb2d; 0x21583cf3c42e89c3; 0x37351947c3fd83cf; 0x1958c12ded1024f7; 0x3b2cdf3264fbd91c; 0x7d99ae9fb56d0108; 0x1bf955130cc04bde; 0x302ca6213398c4d6; 0x7e6253d504242ce3; 0x7e1d3aedeff44ed8; 0x243f715005ef1f4e; 0x4601b84afa395c66; 0x21834cc51364845e; 0x42d2d47301b6f60b; 0xfbc4728ea371099; 0x660dfee6afe27624; 0x3cda07d236c13ca3; 0x2b3f79dd6231244a; 0x79dbdc62d2fc8f7a; 0x230476efae9b9c04; 0x180edbe4c737b5bf; 0x258e47682230f34d; 0x13eb93c90ab026a6; 0x11b0e082c6c80052; 0x8746a0b90938db1; 0x4301198d6f8e8bc; 0x771485d2cfb06997; 0x6ed0e60bcfdfd2b1; 0x24807adab0690a06; 0x6e5a60d0eda0dd8e; 0x4390d76f6624f763; 0x76b7e3112b6aa2e4; 0x53abe0945150d261; 0x4468688f42da499a; 0x7e6c1eb6374cbe87; 0x3a8f690270a0e8e6; 0x2f9ddde3fcf89302; 0x57f07f1258d7e3a6; 0x3cff82b4eb4a6d9f; 0x37a308c03a095e6e; 0x62cd6d640a8fab75; 0x504a2febccd726bf; 0x2cfc698e4474c4bf; 0x597b05175725d3bb; 0x679855e3f6a2ad55; 0x56b67eda9d5581c7; 0xe78ee60b17327e6; 0x57db8a577ec632e5; 0x4fe837c0125b7ec7; 0x433d71ab94c1c0a9; 0x674c3f6f51d7b94a; 0x29494ddbcbe092c5; 0xd019e10a51e9903; 0x47e6945ffe3737cb; 0x3133afc0410c98bb; 0x363feeb2d0fc819a; 0x750477464e32031a; 0x22564e091b11a2fb; 0x7f5d2ae8f8d6eae4; 0xb7f3c4836de8623; 0x3ca376b90bd216dd; 0x3bd629355a8802f0; 0x5cb2a95125902732; 0x60b1f3b6e1c1d214; 0x47d3e9a25cda25b3; 0x2d3e7b2c1eb19292; 0x55126ca44abfa140; 0x4a58224ade7761d4; 0xf1374a4b3647d30; 0x48ab3cfc751c9da8; 0x1369661a2d6f468a; 0x6d8447c8145e8f9c; 0x71d136b85e993e8f; 0xff2d6a904171ba2; 0x2caec35630f4a38f; 0x793ee9f057db92c7; 0x19ba651b52f9db4c; 0x6821e9835682052b; 0x8d93888082f2b5b; 0x731a2bf0cbe0e13e; 0x47de55d794ce011c; 0x7756548767e99815; 0x5e24198b9884763c; 0x52c422d67c16457f; 0x7b5074d3e9eb8925; 0x2c8f812c5170dbd1; 0xcba8743a6351835; 0x29b39178d4869c92; 0x7963634677a86f65; 0x5359e2cbdeb1b6d; 0x37b9b688661133a3; 0x1bbed67d54dd505a; 0x4cfc142bca8a5a3; 0x7e0434bae904f0a2; 0x586304bf96f0c4a; 0x4913fd9c30927bea; 0x3fe0e6a8628ce4ad; 0x4dc3d76344a19c9; 0x403dff657339a8b3; 0x5822875b4333dcb4; 0x27f994ee18accee1; 0x2798e41cdbc51e11; 0x5bc35321cce28c1e; 0x49fa579dc5d4d638; 0x183fada13f66aadf; 0x2d5c88783db4b920; 0x3b7de0642e32e224; 0x4addd6bf59aae16c; 0x2448f1d002ee7784; 0x1eb030074819d29d; 0x7bc53c87d06da936; 0xdad1cd63cf1f108; 0x2f28d54e134d903e; 0x6b4de16ec0a106d1; 0x77c8039f5e9f71dc; 0x404104143a25328c; 0x8208a2a8020002a; 0x5014055104551001; 0x2082a8882aa0022; 0x5015400454445451; 0x28000820828aa0; 0x4544111411044555; 0x2202802a0aaaaa00; 0x151011445541501];
   [0x413e2cc46ec5d2f; 0x50d95935b48bb2c1; 0x56224011c1d13bff; 0x14f12bd686aa5d9d; 0x753cac4266e3f21; 0x54eed55423306e40; 0x251977164d7a770c; 0x40398a4969ef6346; 0x55a4f3f7da2515eb; 0x691c445f6a860eb8; 0x4fad39a424cd6168; 0x7a832635adc693e3; 0x61d9ad00d6d30f28; 0x62d0427a6d6a7f47; 0xbf116952dc1e119; 0x7c650140dd0999f7; 0x1c2a727e330f7f11; 0x40b7a94e18442a49; 0x3f629bed58825b; 0x6e3d99d0e28a870f; 0x6ff17c17d107f726; 0x5fbd02e7099f5532; 0x5059675a040411d1; 0xe5be40aa2962827; 0x78d48add16713888; 0x77aeac38cd8ac31e; 0x71094e8291fac5df; 0x2252b3f52f6f13ef; 0x6c4fe897058b1d54; 0x58878ff063764917; 0x6a5d6b850c44e1cd; 0x7ff2c1682adcaf98; 0x6da6372444fe0e57; 0x1c1e561c6057a4e8; 0x29f6f6003f1a369a; 0x3487a744a2f55908; 0x1596ac12058743ad; 0x2f473669348d1c3c; 0x5431b6aa5f74332b; 0x7047ab99542e9eee; 0x1dd6bfcd30471066; 0x5d923b97ea490786; 0xd477fdf2a33cbb5; 0x74d5134622568ce; 0x28d9168f1086439; 0x60fc0a1b0b6780a4; 0x3f9ae80f8f763b6; 0x5a71fc343fe230e4; 0x617562d4f99246b3; 0x4f07e66830d883ce; 0x6382f20064463923; 0x16dab70a3a607adf; 0x68d90b759d5ddacd; 0x4d0b5bcfd2c3b6b1; 0x7fdf0e4cd1f2f1fa; 0xe2338bca7c84e19; 0x5362e63f293a0260; 0x5f043c9ece50f71f; 0x1602ca23c92244c0; 0x129d853993ddf50c; 0x34916247059e994d; 0x58de43e566a25485; 0x27eccc9f2e2a064f; 0x1659587b42d59b91; 0x699efb23ded3fe95; 0x4249d8d70148225e; 0x441e387df75f2c32; 0x5f6f6d09506ad419; 0x2c0eb1844e323992; 0x21c0d37a4fb6df9c; 0x2fe48cd48d292474; 0x5bfe779934a25a1; 0x61fd0a72d2179c7a; 0x25b44de0aa69f2ef; 0x126cecf6fcfa6baf; 0x5fd4ee497ccf3f04; 0x4330469ffa18fd1a; 0xac3f55076a5cb4b; 0x7cc49d3305e7401a; 0x72ea0d47b62e2767; 0x2339e60a1685492; 0x35e802ca04d2a3f0; 0x1a8d4cadf30089a8; 0x46769d311dfb7c91; 0x43871908fb3a6d56; 0x6169c261d16b04ac; 0x15aa8c287372cdca; 0x9444245535e5e7c; 0x55a0664d822fba43; 0x13c2a47c6fac5339; 0x140af9509bcb1ed9; 0x3674db4eaa81f3b6; 0x430d900b63b069a9; 0x40672c84d379ece7; 0x3f06a3cb178afe41; 0x6a3fe6c43af70bae; 0x6f2722839728b168; 0xb33d2ea621f1dd9; 0x3c6adb9eef6dca12; 0x3131fe9087dd4757; 0x156de4fdcf795c1c; 0x20c7787f1271de8c; 0x773bfa54794c76fb; 0x2e49d2eb4b410859; 0x7030360e39888d7; 0x4d6f0a4b525a7b9d; 0x41ff1aa07bf598fc; 0x73f92acd4608e9cc; 0x20e624e54018848d; 0x12786ceded3efd10; 0x7600e357f482e165; 0x263bd76fdffdeeac; 0x6fa02e7ac21c6cf5; 0x6684b3311cb78901; 0x530188415692878e; 0x7d561f61ccb71e87; 0x2213d75319cbbb63; 0x7be26e1c6f32efd2; 0x6edee6b15d60e521; 0x302de5978376ed42; 0x29bf64bc3514fa41; 0x3268df84dec442d4; 0x650c4121cd7bfc5b; 0x4c3fe9dee2c82c30; 0x153e485a64afcb04; 0x2f15c77a28024ee5; 0x50c876f630f97ba9; 0x4962a0fda95f10f9; 0x54cd95c3a91d0cc7; 0x5d1217da2ebaa1ae; 0x2a5e3318819df2c; 0x7d61ddf36d3511ce; 0x3b268f5cdb54602b; 0x72af228a52bb47ff; 0x32981154139c9eb4; 0x119d0bf75721ac08; 0x28070696d4b8df11; 0x7a0412450a27157f; 0x400255493e122bc5; 0x4eb2d39170593e53; 0x703d3d8af88df6cc; 0x2106a7be4347c1c5; 0x11863ffa0d7192b1; 0x6ec56c9791fe7477; 0xc3832123f3192a9; 0x62bb2f61c3d763d2; 0x36bf3a2df9048c4; 0x6f6a3f4a795b368e; 0x2edd65848ebf3d07; 0x26615af83fbba2b3; 0x675b2195d2303752; 0x481a10cb3bf821ce; 0x21a3ba76fd8874ac; 0x480b7062f0a11297; 0x226f911c363ce6c6; 0x75300a79f1f20236; 0x4acc7b4b2c47737; 0xbda93589ba059ac; 0x5fa059dc6358a819; 0x60e0ab30ae1f9314; 0x4fe94695be11d19f; 0x37b91e990e9f4b26; 0x5a78b3d4ecb307bb; 0x9d358b97620d7fe; 0x63184229ebddf25f; 0x61c1d30eb50c1673; 0x5aa585a62df9f5bd; 0x286f7fb77b80d31; 0x45845301da10ce8b; 0x3eb03570e90cf606; 0x3c317541abbbb534; 0x1499341c1fffae3c; 0x3205da0d7530e13a; 0x975ea3244d52021; 0x7b0cf106f173e3f5; 0x7226119c46b7dab0; 0x5a98b8a7c3106a85; 0x73cab9efe28961ac; 0x53c72aa59177dde0; 0x6ef20d56055347a8; 0x6603fd40819cfb31; 0x56d80e9140609358; 0x139bc454eda1ed33; 0x685951e086f818e3; 0x1f1375abc4d3046f; 0x4a8cb9d160186eea; 0x2e82579c70f573a1; 0x124c23828664ad6e; 0x7698100c409b5d66; 0x724741f18706cfdb; 0x74639473e3c62310; 0x315a4c37f88d8d73; 0x7257c017cbccdd2b; 0x33fa5da33170b199; 0x1c9aaae33c223b38; 0x1caacb3d66e43ee0; 0x1f491246c556f0ca; 0x330a095ac7d6f435; 0x6670ea613d0778fb; 0x21b8b6f178bad97b; 0x44e6bfd701ac02d7; 0x715cf6d5d2937acf; 0x6a1219632d468033; 0x2774c375fcc0f0ba; 0x195d93b6fc998e9f; 0x5a6b73d171542443; 0x3d5dc08c5621a921; 0x6fa78688656265a9; 0x94a9d21088dcdd1; 0x19c0f9e1054706a1; 0x42e497f721ce7925; 0x23d15bf522f8531a; 0x242ab62ae4de8b7c; 0x3a73ccb721ff7a77; 0x1eece6d12add6c39; 0x3b9a5aa466079f01; 0x262ab2fd0c221753; 0x52779d9762fbb5ff; 0x1e113eeafb7f8f33; 0x7ee33d9155b78f41; 0x7dba384f4821f7d0; 0x61f7358beb1257a2; 0x13f4d578b9700fe4; 0x171c9279fec185b0; 0x46f6e13630f781e8; 0x7dd953b796ba80b9; 0x5330ce8c87f97f5e; 0x5a6a8ebec5764f84; 0x19e30a71ed551a53; 0x3d56e1398feba866; 0x21744b27e84841d1; 0x101b67173060f197; 0x3aa73c618497eb3a; 0x13e64ec9d9224db4; 0x30b43d94ed4b1deb; 0x30afeb37227beff1; 0x1c2b82c144a57583; 0x3812475342c1b3be; 0x7375e7874866af57; 0x581aeb02aeb16d2e; 0x5ba668fef6d98dc5; 0x67a39dd7cf3e9184; 0x34ed3fa88c3ae057; 0x6b9fa0929f8a18fe; 0x21377a7fcfa2faf1; 0x3ace84c3de60a3b1; 0x69ef79196e12c3c3; 0x7c95dcf247e230d1; 0x2fb2f03eedcf24fd; 0x6c5d29d838d5b9c3; 0x3aefa8d1d8b05e08; 0xf36d6bcd0fe0a68; 0x774e3b97470ea075; 0xc677a245d4bb289; 0x3dbee8643bef462e; 0x7651c0131c946bf6; 0x70bd33fc24b9db63; 0x464003f78a92566e; 0x511dc8af4a502145; 0x791b9086a0aefd7f; 0x7629d42f352c4aed; 0x1d8d5e58a97be1ac; 0x2c2cc8bdf23271c5; 0x394a0304586c5c8f; 0x34b166e270947fae; 0x27e81f9ca00f52dc; 0x655289889e863655; 0x3e268aab5792ba9f; 0x5223bc40264dc940; 0x48d0d5c532060d86; 0x4f339ea8e14c5c49; 0x3e44b59b6e3cf1e5; 0x5085fbb8491fd18e; 0x2ecf04fb632e1af; 0x38f313fd838244a1; 0x5244f1b50ba9b55f; 0x951d4e013cc1ee4; 0x4f7a979946e363f0; 0x4c0c5f4e2aec6671; 0x689854de0e00c409; 0x7e71f11390000e10; 0x2564eea291a78d77; 0x3021b40456fe7f8d; 0x2a2fecaf74c74c59; 0x2fb623bf5b2e8b9a; 0x6a129f8d12b98651; 0xaf84f29c05e4c4b; 0x2e08d10c619e1a47; 0x6d5cc4501698a1f; 0xbca2714ea595cdd; 0x1f4aa1e97625c450; 0x3f5a13608e1a6262; 0x4b2f89e6d88348f2; 0x2f3a2c88e259dbd; 0x5ec83a1ef5e59414; 0x364f4ad52ca2aa91; 0x5a29ab30b941414c; 0x3faa3a4abd98831b; 0x43380ad497b6c19b; 0x526cb047c4347792; 0x846b33d1a740531; 0x51427553e9d99f8e; 0x44f88d76dc11a856; 0x39962dd66575ac4d; 0x37caedfa5c77cdfd; 0x3f1a8a1e3fce450b; 0x16f14854c29e6f27; 0x78f30b51868bca45; 0x454454017ad20746; 0x280288888aa0a208; 0x4511401450511515; 0x22a002a080a82a88; 0x1440015441444055; 0x8202208888a2200; 0x5445445514010541; 0x8a0a22a028a8aa0; 0x154101015050554];
   [0x70b870d4d7d7025b; 0x4ce713d01598f921; 0x3b8fda1d97275ee2; 0x510fcef1785419cc; 0x301476ab71215eff; 0x46811e9b192498dd; 0x4a47682f0c0ef25f; 0x732b9dbcdbccce71; 0x2aa5ae19becd04f8; 0x7f3399654ac80343; 0x7a307ce920cf8598; 0x5815cffc468a0b9f; 0x203ee78ae6729e5e; 0x68c5a2b71cb138b5; 0x3eeda1396fae3c29; 0x4ef1ba66a0ac402a; 0x36592b1d597b444e; 0x459c900b505dfb56; 0x2bf4c2d6e48b5b2a; 0x316ebce1295e9ea5; 0x12414b5b1d855040; 0x5a7ac4e3b94b3210; 0x659d910f19410c83; 0x4e6bc466e22da43c; 0x5e073d53dc78b254; 0x731913e8bc34cbe5; 0x2d3046be3012b7f6; 0x5dd82950da676241; 0x415d15411d8d35ac; 0x4faa11a468a80c5c; 0x602fefa96ef2fc7f; 0x41694e0a37293719; 0x50867963618f666a; 0x3bd2f53ae5bb0f5a; 0x7b805ed13109577d; 0x1fe86ee70bfe7180; 0x56d643ba6b55748f; 0x48d2dee041f3097a; 0x630c91ccdbaa053b; 0x1072abfc22f0e4ad; 0xcfca6305f4c57f3; 0x3cd2cff3d8aae1d4; 0x372a5f8d51f36789; 0x4a8ed7aa70be7df; 0x1127933bff5f9f82; 0x4a2221a4abd249ff; 0x73e21be6cec18517; 0x33e2fb970681c955; 0x3bac761479da0345; 0x3c73c0473a3910ea; 0xae9b643ff8728f8; 0x416f7cd3be1be8a6; 0x2614c3f91ebcfbcf; 0x74d041d5b8baf0c1; 0x3d6ebb93a3eda280; 0x4b86e51b82943e5b; 0x7a7225233c5c467; 0x564cba63070e8cef; 0x6ed45480415311; 0x7164a8bcce59c985; 0x3f6e0647a25732a0; 0x64eb01b76b3062a6; 0x670d705ecd712ea5; 0x44adb499481ab239; 0x48d81f766758b8f0; 0x2e1b6afb67dad7b3; 0x467ae275c05f7f17; 0x188cbdf720f3d5bc; 0x464d2afa7d0aa92a; 0x51286057d06cfde7; 0x6abe404e00336af8; 0x31f764f1302b3352; 0x35cdeaf08faeb85; 0x7f66ce4e13644f4; 0x44464df18f42b47f; 0x70cd6f0644666a27; 0xf72ee0fab3adb6c; 0x4e7bf73bc9a736dd; 0x2f5aa3121cf3e0e7; 0x4f936096cc51e978; 0x28d5a10418a78bae; 0x51596fda0f024927; 0x6d8520b129eb28ff; 0x7bdd29a55f227782; 0x1fe2a71292d76638; 0xcd17db0299ebb1e; 0x484fe28421e0fefb; 0x3cdf1dbe8519eedf; 0x51d5748b3ce9d5c0; 0x7d6f8218269af034; 0x67312874bc5f3075; 0x29764e5a21c90049; 0x571766c85fbed0b8; 0x3468efa2d2bedb06; 0x4625327c185e788; 0x331eb6008149b282; 0x6d83017d143167c9; 0xcb4561d85fe27a6; 0x96fed87259e7c81; 0x67df5589fbb5cf3e; 0x3ce608440ccb7cd7; 0x7f8a7c523584d2ee; 0x373901c5afa6d14c; 0x684cd1dbaf8c138c; 0x111eff1a55db2462; 0x78900a45af543fe; 0x46ba6431a38bcaca; 0x298411ee86fab347; 0x78d9be04162b96ba; 0x54fe723ebde620ad; 0xc87c760c9bea5b9; 0x9725a3e2b2fde55; 0x31d1289493aaf54a; 0x947ce47812b0751; 0x4b04cae4fafc5e8e; 0x6bb0cb2779254c9; 0x71103d74a9fce9d7; 0x5689d3f41bc64b53; 0x6784f889c79fb1a2; 0x10cd7c37e5694af9; 0x75b244df9dc2f998; 0x1d75bd9dd836ba7; 0x22baa50d6aadb5be; 0x4431745e698741a2; 0x3989d7c89fc10792; 0x42dc7703e92842db; 0x49774f5f9539566c; 0x27eed8b43e85c710; 0x6d6185dd62d30829; 0x61c5fbc915934eff; 0x7a9a6b975226244c; 0x6a9762c6ae670571; 0x225cd09a0f2f1122; 0x44d6ea52f5b80a6; 0x23b5a3ac6fe1f6c3; 0x75eb15c25bb4df8b; 0x6570c3af1bee24e8; 0x4dd64a1f3d7bbe88; 0x3ba9aaa3a648458c; 0x2cb56e16e277444d; 0x3e80175b1cc2a3d3; 0x3ee83904cb264b64; 0x21f8d07f45a83322; 0x20b350a2fcce0eb3; 0x67a6a6b47f3fc116; 0x3456373ab7ef576; 0x67c76532dc6ea0c7; 0x716bd51af37d5b70; 0x232b21a98b2b6b4b; 0x3d2750fa67921a02; 0x28ed8ae3dd5749b7; 0x39f8ede394391df8; 0x28adae2a0eaf2e54; 0x3076afe814523763; 0x2f07278493c9128d; 0x6772deeb36383a2b; 0x37f5a43e3f857bd9; 0x466fbc4f99abc80c; 0x2ab5e7df93ed6f6b; 0x636d6f2e05261437; 0x6ac2b2ed1548e8d4; 0x165eb2da96d3a72c; 0x3f113fff21a359b7; 0x37f604802400f8a6; 0x1ca451db5cd7f5a; 0x5dd3835f004f1e58; 0x179a06c4ccd60bc; 0x5932b2c1580f8c56; 0x269231946dc80bdd; 0x51b0dcb45ae09585; 0x7f84ba76de3c0a19; 0x712a2340b17b07ce; 0x7e635b5d627baf5f; 0x331d07e5c58e0424; 0x38bf09c9a0a74dc0; 0x233a0199c40e7622; 0x3a3fb9d9b26e8cbf; 0x1d64014e225520c6; 0x66dde37820ca46c4; 0x75952808c9bb8eb7; 0x118165440898e09f; 0x48fc6e6da3ae797d; 0x18f64c65c0171fb2; 0x7193a6eed2ccc02d; 0x71b57c45842b315f; 0x4169324f3a44e505; 0x67fb2c11f001fa1c; 0x5ec12d3e9c4057a2; 0x4338a391dc4fd9aa; 0x1970bfefa9993a66; 0x23f46362a0db9c70; 0x1b596b0c3aaf1c6b; 0x622db7f60b3fc94d; 0x4be4f03da132a1bd; 0x61f7e78a978cf5da; 0x27f0514522f9d3a4; 0x31d6bf111aa2f0d; 0x4fdca29b2c0768fd; 0x72ac36af80f944ef; 0x4ff6e7f360d2f4a5; 0x433d84070e33df2d; 0x5041f78097cdd064; 0x4877b390486032bc; 0x2dc885d17cc9da86; 0x60da44578125d7be; 0x55c357058f8d5969; 0x72133a008eb418f8; 0x44807a83fbad93ca; 0x3f54ad19491951c6; 0x8b3a3f9cafa9e53; 0xd738577370cd886; 0x1a09607b451c5716; 0x2e430d7a4e80b914; 0x7863d736cdb4ef27; 0x429f304d8b95110a; 0x6a96d5951d3df1b3; 0x256fe1f4b27dcdf8; 0x5edd736561ddc852; 0x28ea5156689fce33; 0x26b1f6cb781ed541; 0x3c88bab9fe9ba881; 0x70424e5f65c7830e; 0x6d1aefe7c89d3713; 0x40fc677bdb8537c1; 0x182a21e0b953928f; 0x728d10b4f25ba0a5; 0x2ef2d2d7e30da10a; 0xe639dcbf0f0078a; 0x7dfbef3d5e696c12; 0x361fa97b38bf3caf; 0x760fbc87ee22d6e4; 0x1b0351d306e191b2; 0x5939115ff782c116; 0x56e4c548a3cdc7a8; 0x6a9df261f6678667; 0x4d016c4bffef9962; 0x7f631b4f66fb7fcd; 0x1f2cde31e76e4e66; 0x4aa0a76dfa23eacb; 0x509722999fc53e59; 0x71449a1905b508b0; 0x2cc0832b6ce9c9e0; 0x3cd02bd7cca26c44; 0x46b2a46ebcb21fe6; 0x4ac8b376d89c91c3; 0x6bb5fb1b6eb293ff; 0x4c1dae3441f7c7cd; 0x4bf8af6b771b40a4; 0x23b220c9e81bca27; 0x4704551bb55a4636; 0x5d07f85d30fe07f6; 0x62d6a9dd3bcaea2f; 0x5b2f77b00a3e73f3; 0x6ff28d0be6600e44; 0x24fac07d53cfdfa; 0x434ffca99a8155bf; 0x752f8efb5cb6324d; 0x4be87966a8bd08e2; 0x6871b81f14c62ad4; 0x960bbb81f6077ce; 0x23a4884b15d02197; 0x394e1732d423a3e3; 0x24c7034a2b25090b; 0x5f1b6e1a76eb3e74; 0xd22164a0bb9ed16; 0x6413c25772df64f4; 0x751cf8f7bd14bd; 0x729aefe93be8d8f4; 0x214889ad3971eabe; 0x66774d91f2c5675f; 0x24ad4aab8fc8bd5b; 0x4a3c59d685cc0cc1; 0x5d461e3358a41997; 0x581c34d1888806b0; 0x55080ee528324c2d; 0x37e20e1130b1fce5; 0x4afc4079624c69b2; 0x8ba838c3b2f5f6c; 0x695682d3be6eab7a; 0x727c5a7bddece2dc; 0x4a4c54973fa1a74b; 0x239c5b52d8042a4d; 0x711aa43a8958ab68; 0x6c588f6735cb1b5f; 0x52b4f90df19999c0; 0x386265bbeaf7045f; 0x4b93af04952e368d; 0x6f0665e500442790; 0x4f935315c1863977; 0x3421fc15205ae69d; 0x687708502743bc29; 0x768e506671e3f629; 0x6e5042e68f8a062a; 0x305abbbbc79c8479; 0x502bb29669cb67eb; 0x6b4ad7f43622a632; 0x1213e7fd39442194; 0x23c9a2554ac7155e; 0x42b861dcf2becc67; 0x3e7efb933a2b316f; 0x65b8b8c8aed3d211; 0x102966dffa78353e; 0x4121863d97585751; 0x43d1a668b94a7d1c; 0x617b0e9a234d5555; 0x70c8186f7997d887; 0xa116ed217794de5; 0xf72cc2c650e0661; 0x55141544dab5320a; 0x2aa2088aa8880882; 0x5551010110111541; 0x8a82a88088a2800; 0x5555005555540415; 0x2208800002200aa8; 0x5440445515504055; 0x2aaaa2880022a888; 0x455011050554110];
   [0x66983c29eca1080d; 0x581d1f7d5fc98bc7; 0x4c1c181c4c6cd60; 0x5fcba3cdf8c8e625; 0x7a4cde8549bdfe01; 0x56e168697abdd236; 0x79cbf7f0aba2fb69; 0x2d4055aa659ef0df; 0x312552be00454dc2; 0x973f8bcb0db7651; 0x612ca6dcbd5ab861; 0x3f62926da448e19f; 0x281dfd48517d1126; 0x69e34f727dd84693; 0x6db5d5a0c2e5a6b6; 0x344c3e6ec2045602; 0x98407fa4c12d54b; 0x4a1a6d21547ecd02; 0x18889af26b7fd141; 0x726487bf0fb59be2; 0x66aa9487653ff749; 0x75a820d0b392c342; 0x26f1d85457af3feb; 0x12bbd67186f1cc77; 0x6f577d29640a74c; 0x6a4fcbce34b066d; 0x74b13999406c21b8; 0x26e138247470c84f; 0x13b306d3eb3f08a7; 0x34ecaaf17260088c; 0xabc11b1a532de19; 0x4bc2ab6c52183d47; 0x73f169f038ec0857; 0x508933a3857111bf; 0xe2d8d1ea0f413; 0x775a70c30eb8fb46; 0x6e22a25351a6d67; 0x137c6db1a69f10a3; 0x604f43f5aba072eb; 0x365c4ec273af078; 0x495f797fb606a489; 0x14163a220b6c312f; 0x73dcf185bfdc5f99; 0x3b87777d312c6732; 0x41f50532753aeb6; 0x3f23f18a83afafc0; 0x5e126368ada18211; 0x4bf6796a80c79f06; 0x5d3036e95793ec5c; 0x290aed6031698730; 0x7eb1a12f3fc52ee9; 0x252d2b7786581dd7; 0x87619c445e93a6a; 0x415a1721b0f00648; 0x6ae4c6454a9ff700; 0x715cf93343f759cd; 0x495ddd5d6a1e729; 0x2734b908304d04ac; 0x412c6be2b8104150; 0x46548ad098b679b0; 0x2093a387c46537e9; 0x6c6cd0577b692a4a; 0xc4601043b69fa9d; 0x59cdcc9d88027340; 0x1da00a50e2f8d121; 0x6102758206ff2704; 0x67545b97630bf81a; 0x5f8f133591544cab; 0x291f730b37f92b89; 0x3ebcbbd070fdc907; 0x2bd937f8a2e27bac; 0x7c244bb4e6a544ba; 0x6c93f1cc3736b4a7; 0x733a9ba5eda32bb7; 0x79d4d3957418d1f4; 0x41b20f442680df78; 0x218fb8a2c2518d00; 0x4fc789001a102218; 0x3f0d96fb1a903269; 0x357f71999651ea34; 0x1d4dc649cf09f7b0; 0xc8697b202f86ea5; 0x3c4f04a9ce445da1; 0x7da5b5fe61d845cb; 0x411f21e674b6cfd; 0x3bce3f6a2832c8f3; 0x4315b52cb42f3d7f; 0x75eaf21c6f4a2ac1; 0x4a5977f45f2168ae; 0x2034aa7610011252; 0xb2188ccb88f81c4; 0x38978c4380df4974; 0x5f5bf4618fa1bab2; 0x5601b180df000717; 0x4f3cca33c812b6ae; 0x763c5629c83a198d; 0xfe3a98bfe86f5e2; 0x5e5184f5ac1b51eb; 0x2011aac134eaefb; 0x1b5c9d6b11a759b1; 0x763504d571272860; 0x700819041f57a739; 0x7f74655fd2c74929; 0x8ec7f53be025236; 0x163cb9b9097206a3; 0x5f472410d2f178eb; 0x2250476a621dcda7; 0x6aaf70c287aa7da8; 0x6d554f8aae727f86; 0x21a14eb97418e237; 0x67f4228808b0ad0c; 0x37a82590bf23a9df; 0x30af58e1dff07c37; 0x5b1e36deedde6540; 0x56b9441b74cd269d; 0x74b4ae69c5eb72b0; 0x62b49522e6df2767; 0x6f6b1e26a8efc3a4; 0x5bfdd0ca4b3fc3d1; 0x62cce5b9b4ba5ba; 0x2904424c26e04e30; 0x7ffdce7b6199966; 0x707f78599bb6f43b; 0x4a1c5a9ebf8ea726; 0x865ae8479d23a40; 0x3f85a36322d2a84a; 0x1c28177c57a0ac; 0x77c1a7a15bb3cdd6; 0x5ba5bf678905444a; 0x6c1de47fe818a87; 0x25662ec422893fd5; 0x40f6247383c8cf90; 0x94707935872f0e7; 0x7ab4e06215814b07; 0x53ece2ca49571d4e; 0x364ba4f375102dc4; 0x4580a7355dd711f0; 0x588c5d9f0bcf9752; 0x637ba03525821a0f; 0x5f316bd50366cdee; 0x4176fd03cbeb5d6a; 0x327071bdcff22e9e; 0x470baca2f36eb8d6; 0x4770fdb352d15d45; 0x1d43b7a66bfa6dd7; 0x7fd6d284e7899e3a; 0x5b932ed2d96ccea6; 0x57feb6523a5cd5f4; 0x58eff9dd68c15d31; 0x1fa4aa6b2e5581e; 0x111fe308e1334e77; 0x86a915ff92282f5; 0x2bfaa401bb292847; 0x650d838897d765cf; 0x18c5042cacef3d9c; 0x633cbdccacf4cd64; 0x1c32da971ce1ff32; 0x1f784c6621aeb788; 0x13e65aeccc8a712f; 0x56472bc51d2598fb; 0x1a485e23c0a65778; 0x3943a8b5dc94d1e; 0x3eb8a2a49ed9316c; 0x37402ae643b288ed; 0x6dac54cc3af3926a; 0x5fa196467c0474ca; 0x505aaf621f29bd12; 0x568dc2aadff6f7da; 0x6ebf2d4e8a8e8441; 0x357340e4d9e5d1fd; 0x4586f00a999629b9; 0x424661728648b144; 0x310e5088fdaa3a9c; 0x483a1ba8ba087087; 0x75d3c62885461022; 0x5c2d7c6a25678028; 0x5540b434c3bd8f59; 0x46b30929b2e5a5c; 0x119c1bbda901ce48; 0x2b12e1379c102cf2; 0x1c91f249f14009d; 0x5de4989139ca0cb3; 0x64f2085c5da610d4; 0x7bc1fccbc40b19e7; 0x7d74836da066e4ff; 0x206eae6ddf3a9109; 0x6d168be2e34f66c6; 0x69fb530fbf1bb5b7; 0x25129124045a0860; 0x547016da407588af; 0x26dff8ce83a3bbc8; 0x52204014d07dad44; 0x32aeac6f4d61095b; 0x768031f6e88e2106; 0x3e8fe47c833fd66e; 0x1ffb854e9b4d1959; 0x160f4255c9c10bc5; 0x3ffdaba4f9281a05; 0x28a4b2a0e213f7f6; 0x55e98d47f367b2b6; 0x3ed484e8cceb272d; 0x1c97d31e795a8de7; 0x11480c522357578b; 0xbdf0d0279508158; 0x4b554cf0eee7f29d; 0x4aaff5b8a2a8c3e8; 0x2d35ad6ed85a63a6; 0x7133098265f18aa2; 0x7052af5cfaa0918f; 0x2c3c8176ac5eb8c3; 0xc1d08336a91f348; 0x28a63b6a088da615; 0x6a4e92302309a095; 0x7506e3b999b992d0; 0x66a49b7b664367d; 0x3f19522ee6851fe; 0x11bb8e139d2882d5; 0x13c6f2e380ac2674; 0x454da619ea3f8c71; 0x6849b143e172a64f; 0x55d9f4f4fb695775; 0x6867e1570e065e84; 0x6164e81fc97cf68b; 0x686271b04bd89b84; 0x73a23ba8b6bb1602; 0x5404d4e420592b27; 0x145264a87420028d; 0x3a4b5ffb9140835a; 0x759b07921d5875a9; 0x53d9351b937c5a52; 0x2e693c0ff021e206; 0x49b5ddb4f87b6919; 0x44dc001892554042; 0x382cee118af53361; 0x756ca6bc8ca2ca27; 0x2b71882f72e66718; 0x5d632133baffa7d0; 0x27857cdd9ee6ed1; 0x4493e737b9a1dd14; 0x170e6544eff79ab8; 0x216a411f0c913348; 0x2a4bd05cc1f5a8c0; 0x134f413e3dea007c; 0x3def312206d070ce; 0x2748caaef735ec61; 0x138a9c4a590e4704; 0x132d7b011d4a4d42; 0x2a1257ec08516acc; 0x1ff354a4d2683c5f; 0x31f44605af029582; 0x4dbe541249eb34e4; 0x5cad3301a6171ea2; 0x10cb4d27d5084578; 0x63b40886cc9c2aca; 0x5edc965c48d676b1; 0x244f2b2f1b38782e; 0x193c93ebbc615fb9; 0x772755fb808c613f; 0x783b9a0f07df2df3; 0x26f6516c24cfcf5b; 0x3d490e1ae11e59ff; 0x1c56fa0e67119cfe; 0x1bc60e335e8f4df0; 0x7e7ec3ae08733347; 0x407e6f7b08bf3c1; 0x242f1f31e34e3b7a; 0x42f31a15122a31a; 0x76f6cca2c976d7dc; 0x7d01cd4e7fd4464; 0x3e8bbe4825105964; 0x60bcb8f3a5f1d883; 0x4674ff66d3bb9a40; 0x493c9c52c16d6173; 0x46914c8f18ad4e1; 0x4057bb7ea51a8b26; 0x7da284b882187943; 0x18cdc95bc132bb2f; 0x4b664a2fd82b7e9b; 0x3ece388bccb73ffe; 0x3b9c950811517907; 0x49b3d4957c7f023b; 0x13c32a936f4597ee; 0x60fce09431d55d3b; 0x3e35ab4cbb619b; 0x7128a2329d96a1a0; 0x4c3783cf70b850f9; 0x67ae2d8807db1894; 0x20bbe98aa74dc652; 0x34b5d4dfbfa209fd; 0x22c58f1b85239201; 0x3b978b597d690aaf; 0x6991243cd60d2895; 0x31e175e86897914a; 0x4ad2ac9dc5d2a2b7; 0x32416c3b4f8d5049; 0xc640c73aceb97c6; 0x5add1e30809741d2; 0xf6f3e7de993f037; 0x5a3ecfa7c4acb7ff; 0x1d41e14bf3148fa3; 0x1d60b6d60845ade8; 0x2f211fb9f3d26b1; 0x478bae111e179298; 0x229eae3fcb245349; 0x2c58dbd6405f2503; 0x2e651be013c4a5a7; 0x2fda38c6f5709e8; 0x18ba0b2033f31920; 0x44501153ff83e3d; 0x22a88a2a88a8a080; 0x5015545410154440; 0xa20888800a08088; 0x1145444105551451; 0x28a22080aaaaa0a2; 0x1140540401410451; 0xa008080aa0a2a0a; 0x155415141011544];
   [0xca9f47aa8abf382; 0x36d68df1d9c71aae; 0x6765a6f81a38c5ef; 0x4e6d8d86be6a5dff; 0x7bb58912bf95209c; 0x6329d09f2c00d531; 0x30272c4967c15bed; 0x6eb56b29b176228d; 0x456102a505e84a53; 0x48d72a47e22581fa; 0x2caac9c726ff7cf9; 0x12fa8fbca60bf062; 0x1656dc1f9a957016; 0xade6766831b063f; 0x650909d99e3e2207; 0x2417dffd01e74a99; 0x409962edd427ba76; 0x2c3448ca81e15d4b; 0x7c20a56369cf4c45; 0x5caca16a0e425967; 0x5667e3f9433d1a10; 0x119e94bc1271c0df; 0x7c98c82df3f36b1c; 0x45b4f49c6cdb7b58; 0x5677fbb708c024d5; 0x43e7579502da8e48; 0x4666eed29e9e95e5; 0x477f96e288f30952; 0x4527165dc7f634ae; 0x133d98aadad9edb5; 0x2582462924e52090; 0x3da23c4e333fa8b8; 0x12a641ac533f5ba3; 0x70ea479a8579295; 0x6b20e9012aa2bbeb; 0x903bda6d4bf0bf9; 0x3173ad755e7a2ba8; 0x6404d5b58afa0dd5; 0x4ba246ac53f1d7b9; 0x1b0d86c3e67825ce; 0x52ac7d0ba4fd2f48; 0x61f87da003f44846; 0x42027d29ff6c61fb; 0x4a3ab6d1b3457bd8; 0x681bffa47fe17dae; 0x2c48b4db3d809da7; 0x2e3db096e5a7719f; 0x13e5726edd7462c6; 0x688ae1e60e5e33f0; 0x3dc682ab5fe6fe9c; 0x1dbaf6d550308bb5; 0x7c69d64fe9899574; 0x412e818d88f84c77; 0xb4585e7cf0e1042; 0x6d25eb94a0405156; 0x7adf1d2747b6d9f8; 0x52813783106d4019; 0x1a405ceb5a5104a7; 0x33b3283943886953; 0x2b14ad4ed37acdea; 0x7fe7fc0bb68e9ac1; 0x291a8b7c42a92b51; 0x6e501aa3c8b7a72c; 0x3042fff312e01b34; 0xec75af71936f45b; 0x5699159bcad245fc; 0x7d0a9f1e026b3c66; 0x58347bee85e8e581; 0x3cf921dfe2a09e4; 0x25b7968869f15a82; 0x535769a21e739211; 0x6cffa22dc8eead60; 0x1b78cb5df9568b37; 0x5fe427886f44e065; 0x52233ba4c5eeca19; 0x7f3df62d3e130c88; 0x105ed20347f9bceb; 0x3186adaa466d620a; 0x2aefa96caaa893ef; 0x2e96b60e8cddc711; 0x6f23230014da212c; 0x1074c025f99d00b5; 0x16aaddbebc8642c2; 0x3a888ee6f26c6572; 0x36c3fb9175cd83e0; 0x1af585ef835449d0; 0x33eb9e63ceaf59fe; 0x788ec0fe794dd534; 0x17d6d6f9064d5881; 0x4e552e0e216c81cd; 0x7c5ad5b2aafd50ac; 0x6736da744b6df587; 0x32f4a3fca468b704; 0x30e21b113e060262; 0x27c942e7b63efa42; 0x12ee3c48423aa444; 0x27e63396e6272f84; 0x67c8d38115427ff; 0x65e20d644e8ff01; 0x5ae93ae12e1d37e6; 0x7d54426b79314eaa; 0xe06ec20ea8b0aee; 0x2f23e73e882dd1fe; 0x33edb24f857ec42e; 0x53b1e5132e2e8384; 0x63a7c03e39f86046; 0x2d6113d6fca63aa2; 0x317dff46ce93bea8; 0x4605a63dfeef66bc; 0x68cfe3993c018fac; 0x48265b5a1f5902d2; 0x712805138c2e8cb8; 0x6aa18ff4b920e145; 0x6fbe01b858ccdeba; 0x7addc5bf0d8a9fdd; 0x57e3a5ce296cb850; 0x53096e50b1294c7b; 0x60eb981d5b4909fd; 0x1c5673d4099ed5b7; 0x4b2ed169b571e758; 0x473e050b7bffc731; 0x268854f5492f1a70; 0x52210e1ae7fc5d8e; 0x110907209ef4dfce; 0x3772551b857a45b1; 0x1086fed55db6fffe; 0x5cbd8fff496b0f6e; 0x1b140a34a08b781a; 0x3d7a9dd70cbf6aad; 0xfdeca1cf79a9e27; 0x7ab2b0be243f2754; 0x591911b69d495e40; 0x45ed7c9912f9f99a; 0x15d5bc1ccfe5d8a; 0x2e69b6995b83b40c; 0x3ea3fbe8f09043a4; 0x362e99de1b52682e; 0x5129ac178bff44c; 0x1926be267a0a8ead; 0x3d33288f8ec70a31; 0x592b98e5fa3333e2; 0x1baadc54c6f30a27; 0x573bce7d8bdbc675; 0x1972751806649dab; 0x34bf95b264353447; 0x2745303c64cd46ff; 0x700d9c651f787d46; 0x149aab34749fde78; 0x6f4ca5f4f89d1d14; 0x21b67c1047bd1dc9; 0x73f6380af484c23; 0x267fd5d37236b238; 0x207ad1905d5e5feb; 0x82a3a0ab91fa8fc; 0x7d49f6a7347e346; 0x1beeabc1e0b12c65; 0x39514ef2ed7dee4f; 0x5a7043b7cd17df67; 0x3940f2d8e415f5e9; 0x62e0c5c4e52ac820; 0x205507ef9c878d9a; 0x263aef3afc51a7a3; 0x64a8abfc1009ac6f; 0x746d55e299c55e33; 0x60e03941970d2cce; 0x439b2a0f7d47e77f; 0x3650698bd7da4b3e; 0x4a025e8b08e3d02c; 0x5dcafd3f51a493bf; 0x26be33b3b28e89eb; 0x2c0b3ff35fd8ebdb; 0x10b2b79b4fd84d0a; 0x41d228e981b69f9c; 0x714927fe9e35718c; 0x7253aa1e9cbc303; 0x6dc05065a5c1121f; 0x517865a25bd1b3b6; 0x7f7143270a3464c; 0x1372da4547b9d9ad; 0x4dc5f5e7ef0dcd84; 0x75673791e8cf1b93; 0x551d103c9bf59635; 0x3d44cf11579311e0; 0x700dfbe51efe76e3; 0x4b36d267d62b4800; 0x7e914185bbad3be1; 0x4f43ee9b5d388d27; 0x5786601bb97c74d2; 0x33af9525cfcb230d; 0x7d03b972abeac2fd; 0x2b88a274b115ab8; 0x7dad1e52b9bd60c4; 0x3f21c4c753f7aea6; 0x670a4c56104aa99f; 0x406eacc1abbe91be; 0x4eec40204e88db0e; 0x79fc1fdf7445ef99; 0x2308046f8be784f9; 0x56c1c566747c069c; 0x5fc372205f0442f8; 0x641e7b004a7c2230; 0x32e64c0ecf3efa67; 0x440edbcb15bc4aff; 0x515859e78b126e2e; 0x2ce558f03a228498; 0x1d185299616f3a75; 0x2bce5b845625eec2; 0x7f7e47f810f8f19c; 0x1b41f0db7952024f; 0x2315680c24bbf21a; 0x31b8baffccfeab03; 0x7d2dc5595f850a49; 0x4f0369d3d92e7787; 0x381899ffc238323f; 0x407cb9cdc8c96f44; 0x1decbc7998b6522a; 0x457e5a9723cbf43a; 0x1a0eab9ea6758993; 0x496b39b374978fff; 0x205fe75a43ff2bfe; 0x49d81f753666aac9; 0x4a65813b2a83138; 0x3f2b5d43e508f5c9; 0x2ee47951b7a503d7; 0x74ab0ac2fc25d0a; 0x1af19c60ad154bfc; 0x145b98f22f063d5; 0x4fbcad09f37a7700; 0x6941db9ab3d2ae9d; 0x771d048c8e0b2239; 0x7bc04e7e059a25bd; 0x16dd255f1a265c88; 0x704917a37238f774; 0x3ff3e3ffb75dd426; 0x1897e1d04de8f717; 0x185bd833caaf8762; 0x1fa11125330f6bae; 0x67c4510bdd66206e; 0x405347ca715a4b15; 0x309c16cec8570360; 0x11ac88f43119119c; 0x6898d49ed4c6ea82; 0x551795fc3a070c2d; 0x495fe3cd3ba51d54; 0x216e75571b7d643a; 0x2553c12a4fb8ddc; 0x589f92ed7e1afc91; 0x34a03fb97cc7a08c; 0x2c31bea65b7bb2f0; 0x7d06a0831fdad2d9; 0x4aec7136ddf7bfa0; 0x5d7bbe5b2589a936; 0xa56c4442f2c6704; 0x3cc81bd799d1f81c; 0x7e93eab4bec83476; 0x2b1ba09642ae4a9a; 0x7e5715dfc50421b9; 0x69e6e1a19165deae; 0x6a5989cc1d0df50a; 0x2cc158a04a943b65; 0x6f003e09b5e2403e; 0x11379e791adf127d; 0x10c397af45d6d476; 0x6cb1669f0817b705; 0x3337a0c4bc8b077c; 0x54593a2590d19040; 0x6d04b82832f02658; 0x499e7a31957cd6a9; 0x1e606f720ea1d279; 0x597c7901310dff0; 0x24920537fe04d173; 0x39ce129d81641dd9; 0x5b67ee3b4b90fd4; 0x66246c6a53ec7765; 0x8931f1a87242bd2; 0x10a6226843e0c5dc; 0x22464bf26e446871; 0x328f8a7c6f590eb2; 0x65f2164796136cac; 0x35934c758f7915dd; 0x1525ac91a528d094; 0x4e1a6de4c6b59c5a; 0x35f4e223d8c6769a; 0x312c2c1d3aae3071; 0x2624790a39067703; 0x61b05a35156735e; 0xe33e9684c8e33ea; 0x2a3982de3db5df44; 0x70873de82b94921a; 0x2d462f664240cee1; 0x2f135e2c2b7b0400; 0xc5dc731b617217e; 0x3e9004dfd8729c8b; 0x38cdcbccd3d22460; 0x192132f6eb2cb4cd; 0x139f9ef9b074b5f5; 0x5a89f25b9c3ec9bb; 0x3c91918e1cb19626; 0x60a09712345a7748; 0x5b18af9d5b7ffb7; 0x34887a4e5f09aa44; 0x128548c4bea9ed81; 0x5865a38cb29f6f39; 0x49fdb40b901c2fcc; 0x276b8f8813b0b383; 0x35b15a1e6e96c04e; 0x5cde52b0cef1ba54; 0x2bd339c467d24b7a; 0x455011458d2e9aec; 0x200a28082088a2a0; 0x5510501541444401; 0xaaa0a28082a2002; 0x140014114145500; 0xaa2a0008a80288; 0x411155411514400; 0x8082a02880a8aa; 0x441545540155501];
   [0x260aaf655c81951c; 0x6bf8798f8111e5d1; 0x66e0fd08ea6a7aa3; 0x5a5235c4a5bbd822; 0x267c181af15c1ca2; 0x220a3024e9106ced; 0x772d07647684e206; 0x253d95f22275a0b1; 0x4b50844fcaf9b7a0; 0x402d6e3125b9366b; 0x2956813031f7653d; 0x5f0909aa73e2380b; 0x5af74284f64a8f56; 0x59c8323105ba8302; 0x330a6e4c09f05871; 0x6e348ae91065688f; 0x39662530d1e326bc; 0x643b4305c5d55bcc; 0x337c2fa0190e5b86; 0x37ffe24d2389ec3f; 0xf6d96b46b445554; 0x68f9fc260fa81b27; 0x7a8fb879d2e02c0d; 0x20beb2ce0fa639a2; 0x262e4be264042fc0; 0x66cb6d92ce3528ef; 0x78506324a6c57b8c; 0x56ebe4489a6abc26; 0x4d7b5c7eb5b8e69a; 0x4e27fdece7c3e377; 0x8f55658183d9514; 0x39bed54bf32bc24b; 0x37fb8edf37685a1e; 0x45e48a938f35bdd9; 0x1f1658f572177002; 0x647aa4140ddd9d55; 0x22262780a7ceef6d; 0x589c9c1bf3a1d171; 0xe93ad92d5f71e3; 0x4045c7e12ef49ea6; 0x6240e51987411b5d; 0x1d26d8f43cdb5d11; 0x1944fb5cddc997bb; 0x3bc6bfe003ac0f44; 0x3fbe6448dcc31744; 0x2f9e5eedd4eec59a; 0x211a09dc66c4acb4; 0x2f30ba347508df13; 0x4df731fae9ffe27d; 0x28e89c48cacac8da; 0x4034362429411aa1; 0x68e74592259eb0cf; 0x467e6c3fb7ae8481; 0x152ab622d30606a7; 0x122b8211282c216b; 0x539b4a0696f8fad2; 0x44969851323be71a; 0x283870fe047a23b9; 0x22be64e166712a17; 0x6e38f5f79e2c14bf; 0x2be75e1f452d095e; 0xe7d20a5ba3f3771; 0x462b568ce78a7a42; 0x34da23da53142085; 0x61754aece939d5dc; 0x6f4d820929c981f6; 0x791e3e057436194a; 0x316b102c7ace0997; 0x232bbc1d19db1e0a; 0x77c55a52b4e5382b; 0xcf61a761699442; 0x4d247d9feecd2b0d; 0x7766d3157d2b0caf; 0x2792e2aa48595fcd; 0x4484c348ce9c2501; 0x7a0c7ef81c005bf9; 0x2bce30cd5ba71065; 0x6f15ceba192997ea; 0x1aa82bff7e4754c5; 0x6edadb6656d97fc6; 0x1094748e280f6a26; 0x8b7517571d18fba; 0x1ac7cc8010966290; 0x58f9c20606f479c1; 0x71eca597137b8ce8; 0x77a024bc9febb941; 0x278b6284ae0ca2c3; 0x6249339ffb4e272b; 0x3bac5e4242f59d93; 0x29163bd6ef15ea69; 0x4ca51432d4a562d8; 0x7d85c51a32e21004; 0x685248df5398e37d; 0x78564402bc3c97be; 0x7cf4fa364972977a; 0x25408c30785db167; 0x613cf8742bb5685a; 0x1ef7c782caff51d1; 0x4fb3a9c2d2297230; 0x5bd456b71f9441a3; 0xffd64e9acc81e0c; 0x1daaa167bc014487; 0x6714eb699d78acc7; 0x33a30625b8fdb6e1; 0x263306b7d2bb0c4a; 0x6f7ab87ab46f5c54; 0x442138e79ab93ec5; 0x26896d8ec074f02e; 0x5fe8f5900be7cc0b; 0x28add7401f537135; 0x7a978d300d534ec0; 0x246468946b5757e4; 0xab8037b90a6aae; 0x47b008335f7d3782; 0x442e817d23f2350e; 0x6816e29ab471918; 0x75f412fd8accf963; 0x7884f64ca3f847a7; 0x31da6d6b22db0b4d; 0x7891a7b86bfe8576; 0x3670bcdb8138d537; 0x3d80fb2e4fd1b482; 0x6e0719d2b0d1faaa; 0x5313dd63fe7c3c1d; 0x273ddf476137fa41; 0x7c18e870118c8230; 0x7e07aad38629f8c5; 0x6927cf1585654fea; 0x25e48b4bf3a81c9a; 0xfa243afd865f593; 0x3fb69d7baae31938; 0x1e681377e643fb3f; 0x65e0e22c9a1db30; 0x7b6284c29f998bcb; 0x42488d857264f49a; 0x369ec1be4490e36c; 0x3f4ec1b999d7e456; 0x210d23d76dcd723e; 0x7240ea7193b8f1e8; 0x64b42504696ec1bc; 0x1dba3cbf20633edf; 0x3605672319c958e6; 0x6370488a8749f208; 0x4db4969c011811c2; 0x24a292fe97ec5888; 0xb38bf08f1176af9; 0x1192e36ccd51a201; 0x1afb32c23d5261e9; 0x5d26f0216f468a8a; 0x7181bd0776ed42ff; 0x7ecfb893532e51ec; 0x7dfacb7551d7623b; 0x3cdb1f7e0165e787; 0x4f43307c1e5b60fa; 0x2b4bcf927c4cbaa; 0x10f4b4805ce4d28; 0x689ad1e61a9af22e; 0x536a0f49e52e236a; 0x5e40322da47458aa; 0x1ff2f1680cf23f01; 0x6f9fef551a63c6f6; 0x7b87bda752a95d0c; 0x55001f6bee5e5d98; 0x2059ea7f4b8b5fe9; 0x238665e0f34e36c5; 0x294eaf1d438ff61a; 0x3c8c402d7260240a; 0x1b35e1d5a0aa3485; 0x408544ef7f0a9367; 0x60babb7c240e15bf; 0x70de89d0c75f1233; 0x41469c08297fc593; 0x1d1a1c81390d6e44; 0x679ac14793e84a09; 0x17046f4e4b62a757; 0x7e9bc3bf3066a439; 0x7d1ffab6a5483184; 0x585be3f0be44f7e3; 0x57950bd46855da1c; 0x1fad0d322fa8d89a; 0x5c9d919cabe299b9; 0x50a081a93b977362; 0x172249eed2aa0bf5; 0x4ac251c783258ffc; 0x7939c82bb6c663e3; 0xc78f2b6e6aab0a1; 0x68e8a73f1ac11cd7; 0x42d35bc39fe5a447; 0x369382506ad4d391; 0x18466c2061ab267c; 0x5a6ff380338dc803; 0x32cc9c71b218ec52; 0x27cadb78f71165c; 0x53516a26cd9e15b0; 0x1cbe6463dce0ca9e; 0x72627123f081eea8; 0x7fe78b5150852a61; 0x1b1da0701d554f08; 0x6a40e71b6f917e9c; 0x7f37bcc6fe47a6fd; 0x3b19d33700f5dd0c; 0x19fd8b9a99ff58ae; 0x1ad868d17e908ee; 0x53d53a1d03db8cc5; 0x28b78537c3b3a29f; 0x615364cbda979398; 0x34cfdd02c01add1f; 0x2a8a78cdbb2e5138; 0x7c46219a15aaefd; 0x2eef65fad001cce8; 0x594db829fa8a2ed; 0x1f82f26d954d6d71; 0x45be6cbd352b2cfe; 0x5c03d53d3300d63b; 0x7d01287baed04766; 0x77836f99e2a22bb; 0x3d03958d9e36a3d9; 0x72172ea79737e495; 0x73b05d89c088f644; 0x67bd6566cb6a1671; 0x2703d582ef047607; 0x76ce083fb580dbb1; 0x79e786cd0c07a6e3; 0x4ddc27647fb9a0b4; 0xc179e5d2936e80d; 0xe54c8cfc27ae9ea; 0x1ba3a7c817fd7e86; 0x4ffdf9ce2377d255; 0x110eedd92cc66813; 0x66a303da286ee1d7; 0x6ba2de739e4fcbba; 0x652db701b5b08356; 0x6749f2ac22bdcd9d; 0x2b2c3ad5d0750ca6; 0x269c410e353c8c5; 0x27bba76c4b5c2f93; 0x5c06662daff86abb; 0x4497175ded80a94a; 0x4cdb1fd48578700d; 0x5536e0b26fd18724; 0x4e37e52397506443; 0x5c26e67d06f0e6c3; 0xa17e9cc3392a7b; 0x50371d5725bd4188; 0x1bb91550f2dbb355; 0x54039010bb50aeba; 0x43c79ebb758419bb; 0x50acf85fdffffbd6; 0x3e31e8216c31b540; 0xfe84b1b54a4338e; 0x9da1ac97148454b; 0x4b9c744f7b888175; 0x621411bcef874629; 0x4798545f62c69e30; 0x6cd9f9edb9a1694f; 0x8020bf4bf3ea396; 0x5e5509d59c73bc9e; 0x37b1f2939a403db2; 0x5ec07d8faf770745; 0x112b4272137d6354; 0x6b45f4962a835ece; 0x3ce308d988669372; 0x65607c74dc561bd7; 0x742fdf9057cd9746; 0x4ea4d87048c4edc8; 0x5ba3908fb6766452; 0x56c7582649668cbb; 0x75ab4fe8ae1d7edc; 0x48143a9a8dcd527b; 0x65f4b94261ee759d; 0x78193e92eddb2ff; 0x45bc34a5008f4f00; 0x3f667db1ed935b63; 0xd8b42ffb32ee324; 0xff64be6b114d8e4; 0x5bbf30c1f4cb8296; 0x1e1289760b364ee3; 0x79e1a8cda9eead2; 0xb7411af14c8009c; 0x2815a2dcb70348; 0x11a738d6bdd7fcbc; 0x6c952d4e254f36e9; 0x6475ca406547dec6; 0x1c08039f40a8391c; 0x659b1e99a9591e84; 0x1e1d1eba77a7bb91; 0x62241c0f91ab52f1; 0x5276227c9de46b71; 0x7cc8a7867c040cd1; 0x15692d4b18df516b; 0x5cfaff149abd1bb8; 0x43635c8a6de09764; 0x78c6f6dd38b061a; 0x454c9620698b1ccd; 0x4850b7e8242fa834; 0x43c8a7ab883ab602; 0x3fb2ee8e3e5c8cb0; 0x10116da6b1e7b6aa; 0x192d46dc0ecf9fdf; 0x6e0e6dbe84f35c8a; 0x5d0dcd90f319533a; 0x1eae2dd6952d13b6; 0x49cd497465cc9f87; 0x4485f3af50c55ac4; 0x2fcb2b036cfac074; 0x1f6d46b35571eab1; 0x4438b04771fb017d; 0x5cb13c0e9e3b44c1; 0x415400a8d8304c; 0x22828a8a8aa2a0a; 0x4504110101010405; 0xa88a02288808a28; 0x5051501151150055; 0xa0280882a202802; 0x5454555551115410; 0x28a2a02820200082; 0x544410045414504];
   [0x3332584dafeb2e15; 0x21390f5eac10b598; 0x613c83d1d7e8c4ad; 0x578126f6d947e3a3; 0x136d562117c603a7; 0x30aebf7f2fe4a55a; 0x3f642e109393c86c; 0x2f7f1049775ce486; 0x73b912c1ceb9a85a; 0x3667e3c3cfc7077a; 0x6ef3f51a5a47b0c; 0x408846af14d23164; 0xd919a109bf960bd; 0x50147b1caaeea9ba; 0x65cc606fbdad91de; 0x6d0d47f0e089907e; 0x502cc6d3b2d02e5f; 0x168b1b0487f5a8dd; 0x476af52edf6a52c5; 0x669ed726ea59321a; 0x672134a1eb619722; 0x1adbf469a9f47c57; 0x4fbd9e31378b3a9f; 0xb91759437f911e7; 0x415e395846f61d06; 0x3117538b70112709; 0x3a2418ef2081b3e0; 0xbe2e93870d91c50; 0x497a289b6f055a29; 0x6c24d854eb46e371; 0x53983ba71d0c7fb9; 0xb42be0f2787d5da; 0x43fd932a227cb787; 0x3994019381e6b5f1; 0x6d53034bf15d4136; 0x7f79cf8322a57dec; 0xbcbebef2bea2ce7; 0x2510f5e340bc7e1; 0x532f2e29a41cb2ea; 0x7d644c437646bf8b; 0x71a6681b28f51532; 0x6c432368187ea82b; 0x88c4142bbb9537a; 0x1e89b910ad5f88ae; 0x7e208f1441125041; 0xe36f50a46692226; 0x28095b7cae061008; 0x34f6be3c75c62236; 0x183974125b55b5ba; 0x7498a85156e67aa8; 0xbae0bfe4fa5307; 0x7414b9cdec6071e1; 0x19a08c50ad61683c; 0x59cecdb79e21305a; 0x41044c82b881b2e5; 0x3bc45e04714b084d; 0x6d00e81a2b5e367c; 0x5ac5506099cd7f45; 0x68c0cb3f497a5fd2; 0x317c40c50f5d3317; 0x542dca02231030b2; 0x72e62b35def05c1b; 0x677dbfe2028d0f93; 0x10f4734077116c82; 0x6e03c01372e42c55; 0x52369e403c0d37de; 0x113e8f0ff5fb289a; 0x24e503eb356ba59a; 0x8c57fe57a8db140; 0xc491f0a995d0895; 0x2e07340d2e06cc8e; 0x1816b60fefc17c99; 0x9084743499590fb; 0x414aabaf823cee90; 0x50aeb593ea0713aa; 0x63165e90860ea1a; 0x21fc5ab1e914f8d1; 0xceba284814bd829; 0xadc7a574d480075; 0x4b043ecab3df665e; 0x1309efe89562a339; 0x76a2f1902672ce2b; 0x1c43fc9b4193a813; 0x6ce2293bab63dd1b; 0x1d3397853a21690a; 0x7e13151611cc012b; 0x1489efbc768032f8; 0x68646c8e62c2cc6; 0xc0a0f87e316f5d6; 0x3c4f963017252d26; 0x1070aab5489f255f; 0x3beb7455fe0f7b01; 0x28feb3a0036052f6; 0x34eb636137a873fd; 0x1e66dfa921911e5b; 0x564d42271eae0179; 0xc9bdda38cba456e; 0x7fc6ce32b779573f; 0x1e39bc00ffbb4fc5; 0x6bd46c886455dfe3; 0x407e9900192cad62; 0x5b1a861ca675e5f3; 0x5e0800ae476ddb2a; 0x1149c257eea9c8e9; 0x7f11cd6bbc499611; 0x13ace945fbd99ad2; 0x4cd7231041d60770; 0x75fbd18c8b35dc1d; 0x136428c92a7c371e; 0x190dd5fa2fa3635f; 0x5d128e96f7f75a02; 0x5043128990e6b7c6; 0xa8541efcc87d126; 0x131956447586e508; 0xbf2cd5490e14e91; 0x308602f239b262b8; 0x7fccc56c2c1f449f; 0x69c5a78734256b72; 0x658c168568a71cb0; 0x4ac71e0abd2a10b3; 0x7ea108ad6c86941e; 0x700c2686d15814ea; 0x3c932eb06bc21927; 0x67539792dca9e5d9; 0x3d3671add74639dc; 0x4c5b897e39be32f6; 0x71d6eff146f0b12c; 0x7207f35805b28d2; 0x7fc1c98d65fc0f07; 0x667a10839af154cc; 0x77ec2362ca6fcfad; 0x703c929f55094304; 0x328eefd1898479e4; 0x717a6639c1dd694e; 0x633bfa8348ec5aea; 0x43c3d208b700b4c0; 0x2f28bbb542aa9bb9; 0x5b8476de82e80592; 0x75adc0664fab3c07; 0x3262353e48e92ecd; 0x6d18a8c483066d38; 0xc127a5ac13f1dbd; 0x7b5dc5f0621bc8b0; 0x547f366283968b29; 0x24fb8374c02b19fe; 0x364d1716eaf28d2b; 0x58e6e0660a629ebb; 0x350b97a51a5b1743; 0x134caee599be495a; 0x77df178ec5b04743; 0x3a4ac898c8611201; 0x3fea6e543e7b2559; 0x27b7e0b08a4b8ce1; 0x4713deeacf1b8590; 0x10953933116d7782; 0x36ec10c85bd9fab6; 0x17ed27bc85bb1c94; 0x7724122a507ed98b; 0x33583f9f863ef7bc; 0x45c96123f1c36d53; 0x6e7d01804dbf4541; 0x2f7a7fd93beba028; 0x71d233718fb95cbe; 0x743d01ffa61e071e; 0x40a1e3c96cc28f9b; 0x2c9ebf9ef450c9d7; 0x4424d8d7885401c7; 0x612e9ff72e9c130c; 0x3cc6bf08f5b500a0; 0x3f3af70eb5c2ee10; 0x5042b454d103e8c9; 0x3433756c33533e78; 0x10f19ffe5cf70f45; 0x21e3a5c5efad2827; 0x43fb0679720001c; 0x54128c6776df1d21; 0x72ac115c00e86e46; 0x1cb814446672b2d0; 0x4a2d2ce6c6dcaa84; 0x2af083d100afd89f; 0x1d579e6f62a0eec0; 0x41cb578f8b303754; 0x107d5440ae11bd06; 0x31817f4f2bac8ef; 0x33eda56ff6d86c84; 0x27d94f72411476c; 0x21a27711b45cd2b5; 0x5a10ad70e1e0ceb3; 0x27d78d82c057e6bb; 0x4540f5923484424e; 0x5e4453f9d9fb84e1; 0x7caaaf73e522365f; 0x7e53e72eda20bb64; 0x1ace81aadb300c93; 0x79e5a306cddf0a13; 0x5bbd550ae61ceab; 0x5208731413c220d4; 0x34d2829fb3e2cbf3; 0x1c7ca8ac0e980a63; 0x66ca785263b7a89; 0xe9b87052e70f610; 0x610d57277b940259; 0x2270a86bb7e3ecd8; 0xad509cc4d6b3982; 0x20a2cebee93b2a21; 0x55cb2e20e8cd485; 0x5e016df30389d662; 0x42d96b342885993d; 0x319b79c314f8e68a; 0x53ab2fddbc2dba66; 0x467616f56d7bdd92; 0x7f752e1880a0c2ad; 0x27b07f4c7ce349d9; 0x5a7f1538641538e1; 0x2bd0891277593afc; 0x7dd5fd208a597758; 0x2988f911b55ffa35; 0x26e466839577b755; 0xed4824a2621e533; 0x16f9317b10800be6; 0x5b7dea868ef7d1ea; 0x253f368a6cbe466c; 0x17441c81eef3763a; 0x456f484749d4e96; 0x97834bbb45f1b64; 0x299b4ed6ac852d17; 0x2a7b023e5632d733; 0x514e873e22e0eb3d; 0x5be7a9fbe819506a; 0x66d0397adf929fe1; 0x2b7ab77839074310; 0xc45855188a79974; 0x75f4aaf975718982; 0x67c64e6bb01fbff9; 0x57d6b98f80037e4a; 0x3f1074130c0e62c; 0x55825a742ea682fd; 0x514c98101bcc3b2a; 0x649106fcbb82dcc2; 0xcaf27f733a3070c; 0x413813af52f2325b; 0x2afdd6678a2747f9; 0x4be2d2c047910094; 0x1f2a94900ee690dd; 0x69d1a0a0f5247f5e; 0x11758ee5a6bbd0b6; 0x1af1be99494410ad; 0x157cc450bd6c1d7d; 0x379de4b81f91df9; 0x263e71e00e43434d; 0x68af40ab6c2d29ff; 0x75f190f07e5f5b66; 0xbc3d467723c3b7d; 0xe8cb9c180885045; 0x2521a1c7dc8f01e9; 0x9d7cdeed781822f; 0x47498c2f563018f8; 0x5c056f4ab71c084f; 0x33f469a355f4f0e1; 0x7506d253869a7e93; 0x21b9f6df48bbd189; 0x5ac2e283185ec7e2; 0x5a25d2e78fa698dd; 0x4df15318f9aca6da; 0x75d1f97ceeaf54c4; 0x375cae4de1b45a5d; 0x72d5c8ec83269fe0; 0xb9e16e01d5f5a25; 0x28b0f66840092af2; 0x567cf2b2b0748b47; 0x3228c31f0a78569b; 0x3bf811a71eb1175a; 0x223103f60728d27f; 0x34f0acff6d8f892b; 0xe94c390d78938a; 0x4d7ce9ec311ff758; 0x25e40fc419cfd196; 0x481faf30f4c0b187; 0x30b09aac72e3094; 0x134a9e1b19fef451; 0x44082c61c0ba5278; 0x2da27294d08bd7e4; 0x4fe453e547ae65c4; 0x52d5f19413909430; 0x1366244386dd3846; 0xee44d6e6fd9d3d5; 0x7ff20304ca5dc1cb; 0x2884d590bcb02f97; 0x3aefbfeba14e20f; 0x1f88146fe5f67cd2; 0x2dd6941f8eeb0a7b; 0x10eb51ef311c4995; 0x40e109cfed25431b; 0x5e4c2458f6c20860; 0xf78e317603c279c; 0x3ec40e3f998d1cd6; 0x7cb5c83d81cb3323; 0xd95c0b17279d1c5; 0x679f4e421dad441a; 0x4696af57ebf9ff65; 0x3fecb42c0e5f8fd; 0x60369c6e2fc9ff90; 0x43de6619481c4d10; 0x6864e96b579a42f9; 0x40299755052c90eb; 0x756b5cdeaf2b323d; 0x6c4c2edb7a3be140; 0x2fb842d09266de78; 0x5140104513879fb2; 0x2820a2a2aaa000a0; 0x5104040505010400; 0x2202028000a0280a; 0x4415104045114015; 0x2aa0a00aaa2a0a8; 0x1141411015014514; 0x222aa02aa8a2a000; 0x14145510510544];
   [0xecfe1ea5da0da00; 0x52b9c00623e24e1d; 0x4b1d6c442d72fe0b; 0x1d4400bb5aafe8d8; 0x63411060fdbe466d; 0x17a548c289006037; 0x701dbcc0d7a6ab95; 0x7a54c892c07532f6; 0x5ff0919d5f7f6600; 0x7144990d1003fca5; 0x24ce8f7b30032cbd; 0xba88bb0cd471442; 0x78aed4ba871dd84a; 0xde70857bd858a3e; 0x3cd2336f1d8648f8; 0x41a3839cbc75d3cc; 0x5e2b9eb55e45ef61; 0x5bb7915f0d975ed3; 0x3b9bc5679b64da0a; 0x7370cc4f9ce3fd97; 0x61419189592aaa3b; 0x110c542bb403b6fc; 0x35f476146cc07379; 0x7358ba0c6a2c5b41; 0x3ed260f7f8632d9; 0x3e3124a6ed64e3bb; 0x5ecaec5b326f9f75; 0x6bfc1b5fc21e973d; 0x1a0bc1eaa352010b; 0x738cbc78a7036929; 0x11f88179723c93fc; 0x16cfc54ac2eb59ec; 0x6c0be6619b7d1074; 0x48566f7b518a953; 0x74579ceff547a0be; 0x619ba43fdff95bf5; 0x6afd54511994df0c; 0x626c68d3a4ea76cc; 0x5e64b0f986b04365; 0x366eedfd1b7195cb; 0x16d5892823b99093; 0x4e4b0e33269fd2d6; 0x72f40e1affdcdff3; 0x7f1c7c24825dad5e; 0x34d1c33dc2c34ee; 0xfd8e296ef2faf67; 0x2f6f9cc84a1ccf62; 0xda4a7fa61a3158c; 0x519b60d13dea7cca; 0x2dec6eea4f4be98; 0x35a05083f1bf9f7; 0x707ab59de21a5fd0; 0x1c4d7658a5fa1c37; 0x7bedd029563b697; 0x4da05e8320b032f2; 0x2437b99b5a027c5; 0x4e3b2f284b7b34b2; 0xeac61f19b6d205a; 0x77698bf50d71a0a0; 0x554173e14d126167; 0x4a4074b87e30aeda; 0x6539aa4d79558917; 0x6d3a6d945168d289; 0x260d0c465f57194e; 0x6cb45dacc70cccd5; 0x28bcd5ffc5c50293; 0x4afa1a43c5b8898c; 0x18bbd99ec64d6d8b; 0x2ae18bd49d9a10c4; 0x6816df1d30f8b24f; 0x756b9d75d0ca170e; 0x231f9697b90340fe; 0x65de0a2d5880c1; 0x2164001d17d298c8; 0x10ccfe5431ee6328; 0x6682e657bdb8f710; 0x6185b45fdb22a430; 0x158b3f4a15d3584b; 0x2f813e208a98e0c2; 0x780e3d049a3cd29b; 0x670dd2b4c75519cf; 0x5607ce620b0b8976; 0x3127c3161c41d682; 0x9e9843f58ca16af; 0x27d496624b5d275; 0xdd9fd2cd68631af; 0x211a5a29b81db80f; 0xf09dca38294f196; 0x5194a3165bfa5384; 0x5125438a2795263e; 0x129cfac411641f6; 0x63247b7d450b6453; 0x310f66317035b838; 0x70228e3b0fbc6b5e; 0x381a87e8316a94a8; 0x55e3710082503561; 0x5852c47d45f238da; 0x5b0bbee2733f812e; 0x5a4372f495bace22; 0x75a5bb7526503cdf; 0x5c028628c7d6b039; 0x4358abba99ede9e7; 0x679e316d4f2cf9d1; 0x40ab7b52b54adf08; 0x5b0de12f0b074dd2; 0x432760c1f2d46ba; 0x5c218b0ed2446fa9; 0x4013f950fafcd5c9; 0x2d6704660fe7ea6a; 0x102b02ed0f83f707; 0x5e6bbb9f2393272c; 0x1877247a0d118869; 0x6c466ec6a839ef1c; 0x3b2770a593a34c4e; 0x38cbeccdebff8823; 0x3cbdb0eeaf3b52de; 0x2ddd3e3d6cecc4e3; 0x32047fad67379e9e; 0x332d4a247d11b47e; 0xf1d47a83ec84e0d; 0x2b9738bf247ce6ac; 0x48e816f65aae9454; 0x15c3d46a04aaca98; 0x3a91c13ecb928ecf; 0x2717fa84e69281da; 0x3ed4dbab2f41db89; 0x77051246c26eaf38; 0x7e94671c4aeda08; 0x2b82492a0052617a; 0x35577f8fa5cbfa9d; 0x597038e591785e56; 0x176d135a466b5d27; 0x56177b81d61795a0; 0x156fc8be7d2eaef6; 0x6e9bdfd2ad0b4109; 0x6a2e23b5c412730c; 0x5888d209d893ff3a; 0x4e9e6c2cea09ad92; 0x132496a088136cc6; 0x50a1aae3500e9a14; 0x227f51029f39727d; 0x62bb5f59e25712f8; 0x7602f0135f3c8210; 0x7d2f5e0b56aa7953; 0x544a62c9546a1885; 0x1856c3d2a0d780ec; 0x74c78f700c6ae082; 0x34af770243329ffe; 0x2e23e3695978c761; 0x3d04810c988fd99c; 0x1698608f4cab5843; 0xc236a1eb17da9d0; 0x6e3f24f0d5d2f1e4; 0x59e18e98c72908ff; 0x51a8d719a9ab1a9d; 0x7f9e0fb856d05c81; 0x11e06ab3a97f6c5a; 0x659602350fd294c5; 0x2562dec18a258cef; 0x2be5e78d70b0ff3a; 0x73283ae182d6ef47; 0x53c83ce23ba2a77c; 0x1272cf973ccb09a5; 0x1677755ca1d92cec; 0x2ec931195c7d618c; 0xf39290f3a7c11f0; 0x5aff10a48166fcc2; 0x2586d70a5dcd01f8; 0x21c280b4c18c485a; 0xa31f2090c6e97; 0x5f1391cd102220a7; 0x7b3c02395ae8c03c; 0x45d7cd2604ce7b4c; 0x4835f34d158bbfe2; 0x1628088c9d2e9a67; 0x2eb0f10231209ef7; 0x101aab0acc358a33; 0x4f1aad1323d16c5f; 0x484aac704c933126; 0x2d42cd8b730c415c; 0x590af45ffb9aa241; 0x720c44d710ae63da; 0x6bb4e44e36014025; 0x18e9d9b66523b60d; 0x117f6c49d7cd4f68; 0x6cefe28f6cd06850; 0x610ffb4d2436b31b; 0x9383ffcf536294; 0x6fb8747a4a89401f; 0x7b05b9d225e9aaf1; 0x30e65318aa3f4107; 0x29f39daf2d3657fd; 0x3b71a74d707b41ff; 0x516d8a82392fa144; 0x4b993469c26f34e6; 0x467a137c9ead1c13; 0x3de7e20485ba2c20; 0x6c03b152ea7977a0; 0x15b02b0266b27c53; 0x67fd087f89cdfe92; 0x637d02625eae1be2; 0x5370671145bd9b59; 0x77b668cd63c6971e; 0x287fa5be4ba4ad3a; 0x6984c8f1adc032b3; 0x357233aa299b330; 0x2fa0380a9bcdb68f; 0x3bbe55c6ce7a5c15; 0x5cbf367e84b313a7; 0x3ff8783a818b48c1; 0x898ee358aadc2fe; 0x178fad2544dc5e81; 0x58f3adf9ac11bf0e; 0x2f85c3019cf24376; 0x5075aeacacc2053c; 0x63ae6456db41cc2d; 0x2f48619a468eb15; 0x1a3c8fdf92701b07; 0x3f2c1b41f3aa5c71; 0x61fea84c31e93760; 0x11f86f8d8d3d09c7; 0x4cf3cb00747cdbf0; 0x4a02f7a26f2524e2; 0x62a2c3d53d9116f4; 0x3fc3423ce186d492; 0x2a54d5ee10873fdb; 0x6ccb75876801671f; 0x31abaddbcaa995d5; 0x9915d7ad5bade26; 0x2067bd7a37651317; 0x601b28e06f3d064; 0x5d2b2b0e78c1c598; 0x695945db30a96ebd; 0x436340a4c3aa2dfe; 0x4a9d5e89a0674ba; 0x20b82f9687a9a00c; 0x5422a6492c8c8386; 0x6a18305185fdc628; 0x17f122f14da4df65; 0x6a8c29eef76e379b; 0x5c585041e72f01a9; 0x2d1b02f6d3839d00; 0x7ffffb3532076893; 0x3b310e9e8205e7b7; 0x26068c30519af96f; 0x396e8c1af210bb52; 0x3dcde2ee9beb1086; 0x667a460531c49a59; 0x4f6afc6e73da0591; 0x47021fc060d663e9; 0x3f59b33bb65d9b05; 0x5a064dda41948edb; 0x75c59a5571de08da; 0x5d34489610f2b895; 0x55901758ae32c799; 0x353ef7c64b3ae184; 0x1939c420ea7ba444; 0x5e107a6bba96ca2; 0x690c6b333393d104; 0x49b5a67a9e098d37; 0x4cbcaa90d36dcaa1; 0x86ed4bd6a3c3e74; 0x2cfd3ab9240b1520; 0x1fc703087c1e30eb; 0x547ff52506eb29d6; 0x761369c07ef10fc; 0x30d5b637be5f7ee1; 0x7a13f6aa143ed9b; 0x6a77198c4677ac53; 0x77b67e2b69e8e9ec; 0x7fe419848eee8374; 0x38868644878718f1; 0x2f8a6fde902814d2; 0x32bcab6f01f466df; 0x76280a36384c3557; 0x320e64013ae88e22; 0x1a19abc1eda152ba; 0x3c29521e0e29b9f3; 0x2a9e7e483647e0d0; 0x53c2ab638f121d53; 0x2206e117db079c55; 0x39e532d77b870972; 0x272b66dfcf1d945; 0xfcbfb222964203a; 0x4db386fbf6f7e02a; 0x19681fb5143557df; 0xa5deccd3940f6ce; 0x938d592451f1f29; 0xf1e40fc8230bb99; 0x64f1bdbc5193676b; 0x397ddda169313635; 0x36d58c5e683e000d; 0x52dd813364633b17; 0x410eb2bc50560623; 0x5a2e0b77a2c38bb7; 0xf2704613dc25230; 0x61b588cfb40e52c3; 0x6b8c22b9c9985ce7; 0xdca614bb56611fc; 0x2dfea5c5a783191; 0x79bb8f43f6372ad1; 0x5f46ca432d4cc1a9; 0x49a8446d9ca8e6a9; 0x204104c61c421fd8; 0x40e5c8ed68653b7e; 0x468be24bcdbf1153; 0x418433275b88db66; 0x312f3fcda0458f1d; 0x5545514181b9a055; 0x288a00a82a2088a0; 0x1415451045000000; 0x2208288828880228; 0x1451545004015504; 0x822202a0aa28280; 0x4145440001540050; 0x220a820080280; 0x405450001101100];
   [0x626da72b5b1eafe5; 0x71263dbe29e4064b; 0x61f876d4cd58cd31; 0xfffadeaf28ada6b; 0xa2ac48f95550bb7; 0x215e8f5baea62e4c; 0xcc181c0265cea7b; 0x71b37b5399da98da; 0x36bdccd79cf74f34; 0x6e81623dc00d85fd; 0x1bf15a4a048eded6; 0x26b8bdb10c5b43c0; 0x79ecf31ef626cdfb; 0x282fad633e455f32; 0x54c5be23f2830eac; 0xef355c604018a79; 0x5ad4a82f1371ccc2; 0x7ed9a676f8e938dd; 0x60bee85cc8820bdf; 0x5b4cb591646401e3; 0x2830c058df7c9565; 0x68909b65b6c719d; 0x68bc976564d53593; 0x498fd8f318151425; 0x6293d50686f8579f; 0x7ea6b1b4fd085fa6; 0x392d366ce8facf9b; 0x66965f4720530fad; 0x4ebd5ea530d2c79c; 0xde97e34bb5dbba; 0x389bb69447e470d7; 0x120ada7556876f6d; 0x24e8714fa1a9fe90; 0x7404ef5517800d4e; 0xf9d1467fdee9f7; 0x717f37dad42afd7b; 0x117ff3cc35db847f; 0x231f20ff7e483b6; 0x53217191aede0d41; 0x384899fd66082ca3; 0x1054b59dc5a33a43; 0x6c40f00357e5d4c7; 0x7dd5d6398b5cf201; 0x76aae43ccbbe0412; 0x1a561d854adbd3dd; 0x4bf642a370efeda; 0x64636a4de3d18bbd; 0x74036bfe60c01ac1; 0x3403c459ca5657a3; 0x6833daf5d8017380; 0x989139bbdc3bcf7; 0x3cc81e5ebd8efa0e; 0x6c7ad9199f2332fb; 0x2b396ba66f8992be; 0x570b2dc839be5cb1; 0x1df4883a096fca04; 0x973fab1b47cd1e7; 0x57cf8ccdc45a2069; 0x6cfe4e076bd07ecc; 0x50c32534e63a29ab; 0x13bc2acb0e221367; 0x250c2bc2891be331; 0x35fadd4b5478d390; 0x742b40325ba53977; 0x1a3de8f3faea4a6; 0x3ff70b009701df94; 0x747022ae0f0989d0; 0x76ccdb98626719d0; 0x634cd4d83a4e230d; 0x4a25dadff70723ea; 0x78c21d146ed78d5f; 0x426beb474e37d023; 0x4fc635e18606efca; 0x5f71793491317d2c; 0x72ff730c2af7d817; 0x72a81a1a65961506; 0x64e25d8315cb3193; 0x47ab3b09e24c671c; 0x4259e738fe76562e; 0x49616bc6e5b7c4d6; 0x5b3df5306c46ac62; 0x5472a46977b67a0e; 0x56ca1c1057b87b16; 0x7a0a8a941c64db7b; 0x7f33670400d63848; 0x4206233f671a0799; 0x4d2ed2b124ad372a; 0x9694e3a76c3d07d; 0x46cb2d4e5bf45141; 0x50a97e16812d8ab2; 0x72b7d0dfa0211dc; 0x71974a89b6492e13; 0x7f8427675d85a451; 0x9b54305dd38b05a; 0x733606ee7bfa25c7; 0x39563d6eeca971c7; 0x39d771bfd9d6ca01; 0x17ab438b4f784b1b; 0x70da39d8314522c4; 0x2ed641d72d71ff1f; 0x74508ca5ab755081; 0x49d1a6e778655d6a; 0x710f211ef93008f3; 0x67c1b90b9e6f5a39; 0x78914dce895fd412; 0x2816273300b58f41; 0x2913a03c05cb21a; 0x5ecbe45a825cc5c3; 0x51243e2e4d22d69d; 0x5fb4eb3fe637c78b; 0x420f689115c22a8f; 0x2b501b76c64d3cb7; 0x73d13fc0ec68aa70; 0x7e21e92555547fa4; 0x339c81786be2f403; 0x2caf31d30806b9ce; 0x525cc870a60d2147; 0x7e6ea0430e6f720e; 0x6821cf704ff460bc; 0x1898c544b2fc00d6; 0x37fa47a0030f00d2; 0x3be835fe55715f30; 0x25d9fb312e163c23; 0x49796d7ff3af513e; 0x2c33c36e416806a4; 0x3d37d8b7dd845c45; 0x3bddd44449233b3e; 0x63e0e3591a075719; 0x14ff04ba5bc83c1f; 0x6d74305924ef7e97; 0x711c16000ef952fb; 0x609892796a7a4984; 0x2eba89505a9ab86f; 0x3d929170ef511405; 0x5d65acdbdf8c4b37; 0x53f2495ddc76313b; 0x79ce720f47714fe0; 0x1636ff2a0f486fc0; 0x4738faf1abe8c46c; 0x27c84feed26275a6; 0x6e7d4a8cc92f348f; 0x5b812a608baf9e14; 0x37b45544da449cf; 0x7690db039f0cbe85; 0x314936cc74ca5b98; 0x45dfc7f050af1fa8; 0x25b88fccf64d0824; 0x7c53a295d7dd53c8; 0x84c9703c5be9af7; 0x5be28fedb2f40fc4; 0x7f0f37d77e061962; 0x2c03cb4056efb0b7; 0x50980db0ec3f8df6; 0x4079ee5b8c2dcac8; 0x6855227846e2c99d; 0x2104f3191ffc7c08; 0x367fb82a6799023c; 0x4217c3601f6c06ca; 0x5baa8ca3affee141; 0x1b093ae31e6ee2c0; 0x7f86abbf4697f0a9; 0x4a2ee7d372a4e70d; 0x79791298f0ff1c0d; 0x1fa5b602de168f04; 0x4f5a9119f1effefb; 0x15548f0dab678bd; 0x79a8a9b7e1d5dad2; 0x56b97fed6aa3495f; 0x2ddcdb8d2ff228d7; 0x5a92cb01713fe946; 0xd3f21822e661bbd; 0x350f6e225145bb4; 0x5a850d64bbc2df98; 0x2512d0eb4927641b; 0x73797579623c5b7; 0x2ce4e862034169f3; 0xaf264f0f40864bc; 0x21f04878548899df; 0x48a36efb3981621e; 0x25d16ca914c21e08; 0x2655c07cb46f4814; 0x279739211fb380bc; 0x7695c9aaa7b1d0b3; 0x2a94dc9132e3d1bd; 0x7921a1d95e323cb4; 0x3d86ab2dc0201a9c; 0x6ce2066b1288fc80; 0x15357d97f66fc8c5; 0x160602d7d584d84f; 0xf68956ab4a71e6a; 0x34eadbcf31f7cbf2; 0x5400dfd7158d60f0; 0x63a8831a07815056; 0x25929c43a704640d; 0x79487c69ab07df15; 0x4c21ece7a7927616; 0xd0eb867d707a5fd; 0x17b1a24c28c13782; 0x54417b0d78a9ba1b; 0x5c893a88f169fb3; 0x27206a1416c2e86b; 0x50b120006fd4c985; 0x499e70fe4373556f; 0x43ee0606bf0b1379; 0x51fc3304b124525f; 0x1f299fceeb2be2cd; 0x45ec49fa40cc2670; 0x58e363826958874b; 0x4a2eb8598976a5b7; 0x79c6318461d4a4e5; 0x7e2ed3ad6902d443; 0x714463e93a329922; 0x7e2c93e695efaf1f; 0x75ef5960af4790cf; 0x79f5fdd47468cdc7; 0x14336f77b3fd63b3; 0x7197d3d3a798c5e0; 0x4fc6e9f911d34016; 0x43677dd4cc5d62e6; 0x42015bcaa886adcf; 0x1c60bcfdbd922344; 0x312f51d5afe5a36e; 0x61b89a9f0d5cdc8f; 0x54ae14e3e8ca2653; 0x110f37caff4d41bb; 0x3dfa7bb1a7d13e4f; 0x5293c2b4c242ec40; 0x5267a29a96e7fb67; 0x165af1103643134; 0x344ba43788cbf91; 0x6dd78f367ac28b1a; 0x61fbad405ccd9cb7; 0x38f892eb74e8335d; 0x39fea3da4a06de93; 0x1c647c772215681; 0x13cea48a187e2040; 0x4aea632e46449ce0; 0x23e316bdbd18c173; 0x6872ee23b6554b2a; 0x108895c42e81de1b; 0x40e48cb72a062fa6; 0x72ac6a4509798fe3; 0x72199326ba31dbba; 0x5818a95a8cb40b6f; 0x746af76d4a07ff95; 0xbe1fcd10a1eacd8; 0x2269a5a696d2e692; 0x779a58d81348716b; 0x2cb05495c6e742c7; 0x5889bcc16d3ca6c2; 0x990a5cb07b7c55d; 0x361fe0bd7a9a705e; 0x176143af47f68840; 0x72a3ed607ed22c1f; 0x16c32de0a626cf59; 0xd9ed6225304c63a; 0x7bd5aefed7c42443; 0x65915814da3cb8c1; 0x5a66240c27c7fad9; 0x4d435f40360d11a7; 0x70265a6469eb4190; 0x38f0370fc0f01190; 0x10834911bc500cf0; 0x2337233c0b1b1e78; 0x3e3a8e4fd13dfa73; 0x5eb0627495d8207a; 0x7f9b2a133297604d; 0x49d3a250e032bf7d; 0x36ef1bb76b3f3719; 0x76275b197675e3c5; 0x41b23199f4689854; 0x645bdfbf0cb17804; 0x49851cc1b36a3e15; 0x132ba730eb112fa5; 0x3a903d2711474ce4; 0x3c17e24b86e5d9d; 0x58c2fc532b7e1e6; 0x1dfe096d4d8e76c1; 0x5166e703dcb3a1de; 0x7349789aefaef1b3; 0x1d6484253fe06db1; 0x7c63e5e24acf262b; 0x25887bc24f1eefb7; 0xaa31553c9be6ddb; 0x65528a8f4a2e8e5c; 0x1aa7e7d0a1782cd3; 0x64a3fa437be6701a; 0x54d10996873d3dee; 0x75b19fcb2dc87c63; 0x1ec7ed0d0f9c6055; 0xddc69b64d10607; 0x3a47428ac934af; 0x34b6ce81960a2c00; 0x1ca1f4daf901732f; 0x7ce5cf0ce95bf128; 0x2554c6dd52e2f297; 0x49f7bf421b0fc3a8; 0x1abe0645e3a00e2; 0x1e55c9924d07762e; 0x98168a37f495adc; 0x5f416e58066cb054; 0x552420ae11d7b425; 0xacc9f27fc43396a; 0x23e9a36e1e5e7081; 0x401e9a0dd3278f06; 0x70c85deb6c3ce87; 0x64adb34003306d8a; 0x2f5dd26ec539cd4a; 0x4015014b7c269d3; 0x22088a0828008208; 0x5510040040541141; 0x2a820aa2a8222228; 0x4005404104105000; 0x2a20a80008222a08; 0x514414150044410; 0x2808088220200a02; 0x514114410550445];
   [0x219acde783d9de48; 0xbf106828ce1bbb4; 0xee92428682038d7; 0x3e2d682a8ef3b164; 0x6372154dcc272e44; 0x332b13def4fb924f; 0x3372716f45663c93; 0x2b425654af6501b8; 0xdd96b523155a9d; 0xd9b76cf88b2b10b; 0x377b354fb6079621; 0x1eafa00de6afdbc5; 0x6e1fdb9cd559df6; 0x42f56e33d4d47c3d; 0x1dc221b809fa9a5f; 0x486288e88181966c; 0x3c0b406ad75b5f95; 0x65e9e91c56c65c62; 0x1807a9d78cf6c49a; 0x47872e5a6bc18f87; 0x1cdf2db891dfeb8; 0x5c1c33830aeaeb2a; 0x68d5b7c009c4916b; 0x27b51413e84d366a; 0x57c83040ee707f08; 0x410959bca5170dc8; 0x74fb9f29433bee2e; 0x570bdee9ec49f3d0; 0x21d1fab1064999d3; 0x23a23655b5a939d7; 0xc793846d62d820d; 0x1e48849ebbcc7fc0; 0x7871d2d5e61b74b4; 0x3f6d902194530aa9; 0x12a12434c0779b2; 0x122f7b7d9a03faac; 0x3476616e8b813e09; 0x4787796872812b83; 0x57630765bcb8367c; 0x62cd4220cf405e69; 0x4af4424a61c2518c; 0x305dd7f2f44e8241; 0x12c008a8ffeb8077; 0xf96f716da6dc1cb; 0x50958e3a82bed61e; 0x7c42efcef13ffdbf; 0x422296bd384cf9b6; 0x52cc8d8a71d6e7c7; 0x6c5bc0aefc11340e; 0x64e5a4b20bedb811; 0x6b440b31e193f542; 0x46f7c0dd54414d19; 0x7ea38ab02d45af0c; 0x281dcc08f75b308f; 0x6f863263bcb5f88e; 0x6cbd3fe1869f36e1; 0x5c46404548d58cc3; 0x5dd7ad8b995c06a5; 0x1a1eb19c6d34d35; 0x667a8b4dfdec83a1; 0x6aa2f80195f0e652; 0xd2ccf4d55bda7e7; 0x3907b6362cba9460; 0x47f54a560b2da884; 0x40a487a93fe809a6; 0x2486a9eb34f3fd7; 0x78cd3aafe8bfe241; 0x52fcd64f40dc1b37; 0x3694f0a9e8f302b1; 0x32b3a14d12e57500; 0x4a50e7978cbce09b; 0x33d93f42886eedf0; 0x33f22f0c39cb81c3; 0x4a727f64b0e03fbf; 0x54ebb333e9749e16; 0x3ed6871adbe52f43; 0x66ba6195c76796d7; 0x72cf5c310ac7bf1d; 0x3739ba47619b8d6b; 0x16cd9bea99f84699; 0x7e9b4f7a1818cf61; 0x40a05a289e3b3beb; 0x4f69f00d576a1112; 0x387d756ca59e8feb; 0x4d0bd29c7128c255; 0x1ebdf2f9b0aa7552; 0x403ad08a9187e457; 0x8410ceec36df353; 0x1cbc19d729a08c1e; 0x25b395d04f5d64da; 0x11885de5e78bacd4; 0x204209c7d6c746bc; 0xb4535d7d01148b3; 0x4ffde513fddfe096; 0x568af32c39f57f43; 0x6a0ac3cf98c07420; 0x7e50a6df649e4f88; 0x2de6558a00884217; 0x3d954fa710d33bec; 0x4c7ed0961bc4187f; 0x4703864539f39f17; 0x24e17623bc2158be; 0x707ff4d563041ac4; 0x323aee567239dee5; 0x3be937bb11a69fe0; 0x6ef9910c8a1197c1; 0x4027dc88a42e47c2; 0x74ce4430d5e716b8; 0x1c075a9bb7b4cc9a; 0x2a4b38b4de9752e6; 0x3a14322e9a090473; 0x3b8c6f75fedb0e65; 0x48dc86c715896ffd; 0x3903ad338e69fed8; 0x74281bc7bc595903; 0x256ef4cb16f896fc; 0x1e431f5749aeff7c; 0x576470f8f34a065b; 0x446998ca699dd82c; 0x34c776be4a04dddd; 0x5cf74ee618dc0e4a; 0x4a697379ef3cc05c; 0x7277a9c88d2b5b32; 0x3e5202a4ccf868a; 0x39d36b6906671fc6; 0x1616dfa804408ef2; 0x41d724689adc954a; 0x7ccc7d9622209cdd; 0x77dc656979ee5934; 0x4a4cfece1b3afb9a; 0xff68b4abae8c49f; 0x1d459cc602aa646d; 0x315e9d41c259c58b; 0x12c05c736bab7bc7; 0x36c62067f364fc7c; 0x2b0be89265c7d79a; 0x8a7e772ceae5c77; 0x20122200e02d7eae; 0x74e3aa1734e04d80; 0x77a4237e29a8d979; 0x2ad9fee8c0634aa4; 0x1075c33e61f0f6df; 0x5e3f3430d3f8b74e; 0x5848cf0941092992; 0x18c1435a3b308411; 0x74596b1e79813ddb; 0x5969ad6bcf6f0039; 0x7a2109bd0e9fc080; 0x6e2233d3daaf9; 0x28bf39fdeb0777d3; 0x7f8ee12c48c03f4f; 0xa508725b9d39e42; 0x47bb6d80be072ce7; 0x36b40a0d0fd324ca; 0x36a2ddf8c4a5aaa3; 0x2e5e60f329e4f9f1; 0x730c28d5c06a99db; 0x789c1a7cc989f6a3; 0x685fea1488100e75; 0x4cb0196437bd6532; 0x4a5224eeff6491d3; 0x1b8389c6b0351921; 0x1c9cbc4c7820ef8c; 0x5051484571c259ec; 0xbde3708bfc5cf42; 0x3346338e53090497; 0x3187ed96a3fc0b21; 0x78d06120607b1424; 0x46fbf354f06c9ad; 0x777bc72e5d190920; 0x3cc3b114560fb79e; 0x3851ac988966b304; 0x1a2e76dd8aba5016; 0x6366e7639df540b7; 0x274c5826a6ecde6e; 0xb5b4f03670164de; 0x4f55d438016df40d; 0x65826cd3a1fab23b; 0x4e301dece44f1b22; 0x4a93027a891d1038; 0x1cb4540ada4e3e0a; 0x26961f3b749b9b33; 0x100247b9f5267727; 0x12e68a06919b898c; 0x4a88b1f8aab90968; 0x6d252c2731ab555a; 0x1d8d191e9be481bf; 0x475956cabcaa885d; 0x6f1103fa41588786; 0x155a330e9ab26d08; 0x3cad36bce2060818; 0x40da13de39128c38; 0x6e1a1929b780b596; 0x7cc6981a0c15f4a3; 0x5d678fc752e2bce7; 0x6b0d010b44f104b7; 0xcb8e0bbc43ba440; 0x734033c36395a1a5; 0x607214a3607c846d; 0x1c2c2fff71c27eab; 0x13d869e6a7ca6673; 0x55abd9377e2f50da; 0x57913489aacce1bd; 0x153b84e491521930; 0x37f38997dc5870a3; 0x366273b513622a66; 0x2c0e0148093a0c5a; 0x4b8c629905c63158; 0x23727052124ac188; 0x1ff4248cf9a75cb; 0x767def19ed5f7af; 0x3f4a2eaa16a43b; 0x160ab155cbdcc5eb; 0x5555948b7bd8f6b; 0x38f2f7bd6b731153; 0x11e250ef18cdb994; 0x22bc3f1259193d66; 0xfb0f88a47cfa5db; 0x6f4923541e1c7100; 0x456863389f187f7f; 0x63207c4d6c57bec5; 0x8bd6387e2a0b97; 0x3db8247c6e00da1d; 0x70eb7d9287bc12b1; 0x54ef89f2f568e333; 0x3378903268c17b0b; 0x7ad90844474bf9f8; 0x4785670a0c291421; 0x1ccd1698747b2f5d; 0x35661b9e4d3f4055; 0x3d3658bcb7ba8bff; 0x2e271faf69ac8869; 0x2ef6393f361c2cab; 0x2703510237ade6b4; 0x22c4fa3a9953919a; 0x374e451af641d0b2; 0x60f4525d9bc42ff8; 0x3bd4c0b14f773b5f; 0x162be6defc1dc9bf; 0x449567e2949725f1; 0x20814464a27384b1; 0x6902a850d467968b; 0x11e860ac7b7ad794; 0x4b0f55f426eb827; 0x5ab64141c15d2b3e; 0x4ff4724cecea9463; 0x35f1159d3e3823f6; 0x20007b1f03c275a2; 0x24ef91931ccbe05f; 0x1aede48c7acb4fa1; 0x644758ec8d8297a2; 0x57aa143fdab38e71; 0x4cf83707ba2f8181; 0x42654b876ef299aa; 0x527b9bb9eadbe2b3; 0x13298f21fb96c477; 0x418638d67de288f9; 0x167ff77ba0f88eb2; 0x46eaa39e3cb13311; 0x5a0ab5b595c92acc; 0x13d743eb978d4b9; 0x50eb271698af6342; 0x520b4071ee3a98c4; 0x6944ff7dba58d40; 0x446811f65560d705; 0x168a63c1e275ff8d; 0x9e414232abd2649; 0x77ef54e4063a937c; 0x7e3f11ef5cdf9e0; 0x385ea76e8d6f7100; 0x6845d74134443255; 0x99a69ef183a14db; 0x14d3c8ad00023eb3; 0x2debd6f810d36843; 0x250510bcb21b9e40; 0x72342bb99f144180; 0x17fed011b4dbd6e7; 0x54cc2db21617611e; 0x9b6e34e9d953189; 0x196c155b7ca4eb45; 0x19420e2ff8078deb; 0x445e554bd2a042c1; 0x7d05961ca5f34d4e; 0x486a6b9020f79a97; 0x142f4b078639afd2; 0x2ae44382e5e142bf; 0x299a351cbd4cadf7; 0x2a5123e0c264e0c4; 0x35a6cba2b3d38e1d; 0x711d922ff19b6ba; 0x2fa12a033290a8a1; 0x4aaa893e89a81c3b; 0x31b075f5f30af8cf; 0x4ccef41d5c7f3523; 0x4b04a7d12570c3be; 0xfcb82da1d09acde; 0x69d35ab4d799a379; 0x269475a97c952fa0; 0x4d148eb74d055141; 0x4b005efb7d2a1562; 0x1c74edb246f03f33; 0x1c73d916ccd9848d; 0x523d30ad3f2128c8; 0x479d8bd6c8468432; 0x3098c6cc76876a9f; 0x4436275a950f2360; 0x42268a0bd414cf26; 0x6abcff2f0e7ad7de; 0x10005014df516ee4; 0x82280082828a2; 0x105555510100; 0x222228208802a28; 0x4410114554540155; 0x220a0022a202a0a8; 0x4100411100405400; 0x228aa2a2a2a00080; 0x450015504010050];
   [0x338b2d3648cf1199; 0x42f3c9356d52d360; 0x198bd6287ae4e8f5; 0x7f443ec1b4ad807c; 0x730a11ef8edb3df8; 0x609fa69da6cf850e; 0x414f97d46be62b6c; 0x842d14673b1c618; 0x1c72ee437e0c78a2; 0x1a540f30efa768d1; 0x2c67d82585299d5c; 0x1485c6dbe8edaac0; 0x6853a8f7a1c90897; 0xbc63773a72c4619; 0x2586e1bb5ee278e5; 0x243350d90cd57c7; 0x66407857f6a92ad; 0x2d5301fdbabf84cc; 0x47b3d368d349002c; 0x55ae8ce9a2de6383; 0x13e7a9181dcd1f81; 0x4d1371caa4fdbd71; 0x76b6ad57feb7c420; 0x53860251286e9653; 0x338dd92bfc7b7c2a; 0x27818fb522e62c6; 0x4d0670401cbf7e1; 0x2de977bfa4062f20; 0x792e7fbe03d4f01b; 0x65bf90d68be9adda; 0x663ec1f52f51c504; 0x6d047aa9a1889cc4; 0x429f92b6f162a2c5; 0x5ea47f59af5a0276; 0x2a769c95eae83c85; 0x3b2881af5778718f; 0x11556a92acceadd; 0x319352af77518768; 0x4916d33d55e44c0e; 0x19d4ac060ca8e1cf; 0x4a0819aae8f29812; 0x446893101bf5287a; 0x3528b840110936fc; 0x3927c988720e04bb; 0x2a471cf76d93070d; 0x639a25b0873295f; 0x25ab64a8b8c032f3; 0x174d20ce7cd48322; 0x578ec75588c2bf31; 0x3d790a47012f183e; 0x13530f6b849876d2; 0xc8a68f736a38a51; 0xb65b67097c65bf0; 0x734c6072af76ca42; 0x4ac9dae851316df9; 0x49ae7045b6edfee9; 0x24304e60032c37b9; 0x7b6d335fdb042b0e; 0x2bffb6c13de33f6d; 0x59e05602c0d8b542; 0x322635f94ece0973; 0x7a005f70d2572130; 0x52bf895dd07cda30; 0x8bac4bef1e212e7; 0x2a89422a43ce60ee; 0x377884903d8e0ea6; 0x210d3789309c642f; 0x454fb46230e133a4; 0x54d960ae72be8c4e; 0x215bc71120acf2cd; 0x622a1c631f9b7e2a; 0x5146357330c38a29; 0x7cfdd1ee289bcff7; 0x7586158d5024c9b; 0x2927749b5338aa97; 0x644752a5734d96e0; 0x16d6b3db45caa3c6; 0x7e5dd2e6e07be853; 0x5edec184ad210287; 0x5cd3945c21e335d1; 0x51ace98654356c33; 0x36a37b6608988d67; 0x305bc30590216268; 0xd22324f65d0d873; 0x52351321f9fba440; 0x642c0ca56651c025; 0x77ded43e3c457d69; 0x3ecd649ab1b44d9c; 0x686343b4b9d098f; 0x42da79f509fcd8f7; 0x1769b4a2e9e7a3a0; 0x4d96d7bbf891f0a7; 0x3767163566cf1796; 0x2f8ea6272de11599; 0x291eefe5464a7378; 0x5fe22c025cb3ad40; 0x49bfa543fd0a3a96; 0xe099119de97f36c; 0x7aef56d5b053f41b; 0x62f6c14f97b7be77; 0x3d151891884fdef8; 0x273ab4e49b51049c; 0x27e9562845386023; 0x63b9f12bfba9e90; 0x6b4ebcd138ef6a51; 0xdbebe4a17cebaf4; 0x585eb39db08ec8b7; 0x408d4e1f93d94a0d; 0x7bb14cc53bf62d76; 0xfacdd6df54718da; 0x7e63bf4c07f3914; 0x55a9d98017e9993; 0x18f563161d568f09; 0x7e268c50c6231dc3; 0x5ee81b6f3619d383; 0x69141a623998ed40; 0x60672268e64825a; 0x3778903d9d752c85; 0x2997d396966f40f3; 0x24fbde5a443274c3; 0xd17750926f1514b; 0x4f4b4bf0b534c4e9; 0x4678812eab091b10; 0x7276cf7284c04571; 0x5871ff1953883f53; 0x131fe3e7129f7a53; 0x11bb371f45c8e166; 0x2d81bf4dfda6db56; 0x7e251d10516513c5; 0x433e9a80731bcd4c; 0x6b20b3e5ac45ca0; 0x702efd78c8199685; 0x58f04d6e2b0810ba; 0x46f837a9a1cf1d14; 0xefa9222329ba5b5; 0x5b73e9daf56c9848; 0x755441d80eed380f; 0x390a2768dd577594; 0x18658b380bf74baa; 0x38f82347c7ae2310; 0x22e9f2d5a41babfe; 0x399c3abd4c43c61d; 0x1c90590654b5cdc1; 0x361c090e49e97f90; 0x57a8282669fcd03; 0x473d259be2071705; 0x6f9ba3d59af2baec; 0x4cb86cf176c3ef5a; 0x181642046522c942; 0x213a8e9c45a65a37; 0x591bb6bcae0a721e; 0x71664c1df3849bbd; 0x4365311585dfbf11; 0x62bcea89e76612b0; 0x5c1692076193f2c2; 0x56cb809c8ac119a7; 0x64c88a484ed083a8; 0x2ff4955af4a37975; 0x62cac5571ebf6b58; 0x2f7f5725d9c28a61; 0x1295e592d31ffa1f; 0x5dbcf3b69ba5228b; 0x4f4498d362b72399; 0x6e6d758d0e7ed44e; 0x433bb752a96eb670; 0x59bccce0b73c5b07; 0x4f4c26a73882c197; 0x50bcf67f08316bbb; 0x790a8cf8e9dbf246; 0x43f4c940a36bcdf5; 0x3c00882ed4075b8b; 0x2425760b19128af4; 0x39be1505a1eacfe4; 0x24ac0d6be6a170a8; 0x4ee127c7050353e8; 0x76c6eeb078a75f47; 0x45379744927a9487; 0x4358fca4fcfe228d; 0x3ed8c8e5947271dd; 0x16ba9b6e4bb6522d; 0x213e974bfcf221d8; 0x207b0baadc2a6a42; 0x232c68c4272bf8a5; 0x73c3db45904bd699; 0x466bf506792638c5; 0x2253cdfd9b67f86; 0x3ecfcfd36bf81626; 0x550a09f21e9bc647; 0x44dd07d7776ad9d0; 0x4c8dcb7a3870ae4f; 0x26fd3677d8c5d421; 0xc24e2b7282671a5; 0x2a52246f38532d9e; 0x1843c589b0805be4; 0x7dd2b451073ac8df; 0x5e08f0a4a2da307d; 0x74e5c32bb307459a; 0xba5dd313f0e291f; 0x35295d58215236de; 0x2105ea02125a7381; 0x1edff2659b4ecd33; 0x247641805b3daaa2; 0x7639ce5e1fc3e943; 0x7ad09196ba7f4ace; 0x2fae34c307ee859e; 0x273291c79bd5250c; 0x21caa9f7c30a5a59; 0x413387cc01944c48; 0x7bf2119a44bc2120; 0x7a495f59b94ae615; 0x21dcd46705533fd1; 0x3c4efdf9245ca15e; 0x10199025f1c32fb0; 0x51d17fc62f0f4abd; 0x2e8c6933b7ef2e25; 0x1c39c1eebad6a4ad; 0x358f88574f8ba308; 0x30ccd44c0236c4de; 0x4b6a0c28c01d5ef0; 0x80332cc577cc5ed; 0x5c92330805d85ee0; 0x618ae87771533836; 0x9126ab22ef17517; 0x2dde19208a6a7cb1; 0x65807a76af6aa44f; 0x537228bf818c5055; 0x743c7e05db19e62b; 0x360155c88434169; 0x59338b4d62eca84e; 0x2e7644056f1183f2; 0x2518344c260089; 0x45992af570206d4a; 0x16f148f5d90cbc1; 0x17d15843739b47ce; 0x729377e48e2c2424; 0x130aaf1a8e539608; 0x389fdadea3ee013b; 0x683dc4a2bef77612; 0x61f58638cf0baacb; 0x7f7b671cf6ffea7f; 0x34d6749a6408df5f; 0x54eae0bf79159197; 0x11568751af46b2a1; 0x5e65ae85711a623f; 0x307b8b9ba68e1697; 0x3019cc077187645a; 0x63d43c9e8bb2996; 0x40fdfae464ce5dc5; 0x2a37fd856722123c; 0x4eb7ee4aefbc71b7; 0x79c1aed7daa39315; 0x6043fca140cd6105; 0x4623acfa941ef943; 0x3f76e6766df34d58; 0x3de60f58a949861; 0x32bf96c913d8dee2; 0x411aa45773322193; 0x1a73c887d9034643; 0x39557e88f498295b; 0xdc1fd1f058e3a31; 0x61cfdfbe6911739d; 0x5338a2184b86c83d; 0x4658ece4cb647c3f; 0x571bbf3138a658c3; 0x565d652c1e5491c5; 0x382a7f01243168bb; 0x7defda8a82a2a1f4; 0x144ded453c8ebe6a; 0x18bbaad83294dec9; 0x34fe5cd093f9cf8c; 0x10a5043d42a54529; 0x3a875413bb4a9413; 0x13e0aa343c287bc1; 0x1b2302b9644679a4; 0x38528241b57cd313; 0x2f82904f3d0db1e7; 0x5f07b75ef24d7cee; 0x5188fc120a04c1aa; 0x3ea57cb491e6a6d5; 0x5674f630dc55aef0; 0x286dc599a58665a0; 0x4a5db9b5f4df1e15; 0x324dc2fe51e35720; 0x74e6c6eaeed76612; 0x26183346796e5af5; 0x4331f3d245a9c5f2; 0x57809460b6d3412d; 0x4f81efbf23200e9d; 0x28aa11d30da9324d; 0x55284fb431bb8ba5; 0x4a61d0db9a5938c6; 0x5f922cf667c0c5e; 0x6e17d64342c07c09; 0xfa0714b3ae47676; 0x3e0b3d18933f809c; 0x622dd32b866d5cbd; 0x68ae597c5b03419a; 0x68c66bc98e5cd1c0; 0x47730972dbf3a14d; 0x237343c5dec57af3; 0x7509010851c528dd; 0x5dbe0d64c41ccbac; 0x5dc64965bcf2fbd4; 0x15e19734aeab9369; 0x314d332fb001dc39; 0x5fe514c6d9c61666; 0x6bcc35831519b0ff; 0x48e914b5ffa6ddb7; 0x5515114477eef8b7; 0x8222a28202228a; 0x400505511155105; 0x20880a8800208008; 0x155551555104004; 0xaa88802a8a20288; 0x5111440144400040; 0x808288aa088a22; 0x115554514040014];
   [0x133a7cd33c88946; 0x7997dcd039dabf50; 0x1f30e4edec67f76e; 0x73f9dd29be4b7978; 0x100ad9aba44b66b9; 0x1144f12d61649164; 0x63e8906419d18463; 0x57cedf977ed65ef6; 0x4c0358e4b46cd4ef; 0x593355545985681a; 0x529834bd17aadae6; 0x69e48977ba40c0b8; 0x874d1ab3bb94b3f; 0x6275383ecae3bc70; 0x7a6bad56da09fa7e; 0x22859d81aa61bc1d; 0x75abcee7ebbd2e48; 0x4d0915124fdb443c; 0x12d32018a74d4105; 0x5f9ecc14b18cd8c4; 0x24463f067c7febb1; 0x14422aca7ca37533; 0x1d3199e8540cd09c; 0x409a685ef891db6; 0x698dded089c1efa5; 0x7c88d049cb31378f; 0x52ec7855234f2f14; 0x228dcbfae4ab3374; 0x7ba079b7c1b15182; 0x7544fb50eb7a8d5e; 0x33e92ea5144308a4; 0x425317007d33d4a; 0x10c7274c261af0ae; 0x1f92a25f9f3e39a3; 0x708a629c8614a5ce; 0x5bcbcd321a8da6fa; 0x6053225906653e88; 0x6d004e21da86abc2; 0x4ebf3aeb40aedec1; 0x57a199cc8de4eb2f; 0x4608434f8253e2d0; 0x310658ee98c9e144; 0x7c3b71ece60e2d1c; 0x71539df7397eb9ee; 0x66e39c283efd0b8f; 0x7ab6e2e7808beef6; 0x5530c740758020b2; 0x28f0f62abf37641d; 0x58cd27c740356e42; 0x17a3a803d6258a5d; 0x2341919092c44158; 0x74cb49b3482fa137; 0x26eb014c4df5332; 0x7bea9325d30bf2db; 0x44ba7051d9c8448e; 0x1de2b96d5ba2a9e0; 0x24465b78909cde48; 0x6b27710e345b7ccb; 0x6aeb7ae4d59c146b; 0x9782936c42d14d5; 0x273a25ca306aeb6a; 0x546c2a406a7093ca; 0x2078817b1cca3468; 0x6797e1b558f4fdaa; 0x362fd22f83697f7a; 0x5b58971cf60e6cfe; 0x2357d98884a27419; 0x6c3fefe8ffd6a7c6; 0x28aaf4082cdff5c2; 0x782427c641dd91bf; 0x2309ba27da41989; 0x2f793c89479d6218; 0x62ba9c92b49a44f1; 0x31338dc08bfafc58; 0x7645c9fc891cc3f; 0x1855823ade65771d; 0xe21576cbb133e35; 0x4f206583a5e757d8; 0x17308fa4761a9606; 0x558eea1016312f62; 0x6dc8c003bb0fcd7c; 0x3d2b19c5f752468a; 0x33e16937a3dc5e78; 0x211967186c760beb; 0x3d06427e3a91b3fb; 0x3da160bdba587356; 0x3df8e13eb854b82e; 0x2fbfc900ac1b1b88; 0x44711e4eef401b1; 0x601df801935169f; 0xbefd32770c74cd1; 0x5f607c0095d8c309; 0x5fe1c34efa5ca3fe; 0x2f6677d7a12a184a; 0x52ab78ec4669820a; 0x5842fbdd2d5aaf98; 0x71c0dc9ca9ad8afe; 0x5d4e775eb74303af; 0x1f34e013ebc5cf80; 0x5adac13a94ba88f5; 0x1791fcf2591bfddb; 0x54f47df50ad69e69; 0x7549704485f07d8d; 0x3d41c6cee010dce8; 0x689aa31b3ee41d4e; 0x69d66339653708a0; 0x76e1f27e854553ab; 0x1a89a9828736237; 0x4847f410046a514a; 0x3c8b555783f83bcb; 0x4892e8e495094348; 0x7055dd8ad602b3d2; 0x157c689c4296210f; 0x7f78bc0c6aa1d8e7; 0x6d637cc4cd411bc6; 0xaa7580d7379afc0; 0x329ce3747b12ea2e; 0x5f78c56f42ca6be8; 0x30b2b9b861230afb; 0x3081b3dcfc1a7649; 0x515738b95e0349a6; 0x73c72ce458e5592a; 0x27baa9852875400e; 0x757a28341c25a42d; 0x7350ce80ca87c280; 0x685ccfa530a5bdcf; 0x60fb3f3a034e8021; 0x58495c659301be38; 0x49be6d68ce1a1f6f; 0xe076730f8fda052; 0x6c8ec07568811f88; 0x68515f63c754e4cd; 0x3c9869093040df43; 0xfb7820d85379ddc; 0x7a32bc0a01820500; 0x6af94a56e1cb2630; 0x11e56d4936b8e340; 0x7a875da29a7ca2a5; 0x1cfb85213e1f27cc; 0x38b4830ac03f8fd0; 0x22f6ac1838345e9d; 0x3ea781afe6e8c1db; 0x552aa0ba72250288; 0x15dd2023efa3966e; 0x69854174bca6f433; 0x4dd0582671a5c543; 0x171defc970b68db7; 0xb55972d81e54e56; 0x3aad5eac8ef4ca81; 0x5a02e32c2b5f4c30; 0x55ee2aef953f45ed; 0x2b5009199fa37f96; 0x3fe1b95e32b5e207; 0x5cf8c0c308583ec2; 0x355b5105b3f8e23d; 0x60adc4dbb3ba3aa; 0x21b3f935dbcef43c; 0x5fa4d0e098a1decb; 0x23dbf571428ea223; 0x7ce72ae1a7bf0c2; 0x6bfe7657e00d343c; 0x34a01fd765f8d0b3; 0x2ec5d02137d188a6; 0x4650052776a3c2da; 0x6c9ae9b36ad18e60; 0x945a33f7a007164; 0x66df4c16318b9533; 0x5819855540e13ee9; 0x7ca3cfd255885289; 0x78b5b38c7d0e6006; 0x3be164caf0762659; 0x1eeb5050ffdba2f7; 0x524191c3e44f7133; 0x279b56dfca195bf0; 0x39d1d735f47e0971; 0x62c0a049f7b18129; 0x21f4be67b4ba063b; 0xf0760e55a31e7bf; 0xfcf1617b1ef30d8; 0x1373582ec759ed43; 0x780a5a36f200abfa; 0x11629c7a0d8724dd; 0x7eef5b59f5e3b1d3; 0x2443f0b6e2d9228; 0x57925da08e7f63cb; 0x8a86e9ee19107d; 0x46d6c36b83b2962; 0x5900cb7ba0e8ec7a; 0x5fa9c65d0c56d0ca; 0x316945dece3a1375; 0x6177b25ecc5320b; 0x7ba91d19fbec5cc8; 0x6b8cf0f0d833181e; 0x2aeca357a1da75f0; 0x10511f0de83c414a; 0x55a5b00c9b6fe635; 0x31b189f9aa1d8c60; 0x3da8e3bd2993310e; 0x342dc06dbed1268b; 0x3b87ea897b2b373f; 0x51a74b1e8414c87b; 0x47e9bbeb5c9ee680; 0x2a79127d67552764; 0xd2b2e229609e58e; 0x1af4c379a75d2ec3; 0x5af5bc5cf5ef260d; 0x790c2a4b295d68aa; 0x7fd12d36043b75f1; 0x3d7cd08109efcbe4; 0x1ad97855fa7e554; 0x4a6f752982bef4e6; 0x59506d1f55b918f4; 0x7cee84a41cc78b44; 0x1c3cdc6bf5847d4c; 0x6ed3615a12a156be; 0x296f3cae374cc5a5; 0x714c48ba3bba21d7; 0x54e7b1820dd73d4d; 0x43cb6b73b01d20a7; 0x8f379e7741829bb; 0x4ee33af2ec9e75a9; 0x10e6dbd517732294; 0x8f9e50fa8a8503f; 0x12be896013d25b39; 0x2a454b862b4a55c0; 0x62c662d05485b64d; 0x53fea54fafe86bc4; 0x72c642739b619d47; 0x381057c28b2ce825; 0x5afcf06c121f39d; 0x74dd40afaad35679; 0x57b1c1f443a40ccc; 0x563a39844c6e55ec; 0x3f76d66c8763d65f; 0x2b0dc925d7b870e8; 0x79456eb67d4d214b; 0x7c059daa17dc39eb; 0x2365533e7527d74e; 0x27e57d439977f26d; 0x3ededb84adbd8d4e; 0x543b8623f17b010e; 0x3e637cc0d064fd40; 0x3dfd3d9aba3b3206; 0x427f5a810cce1739; 0x10ca937c9f6ab5a4; 0x572548a64923e4db; 0x22d434ddc2e3c9fc; 0x45062eb2c1748caa; 0x1ccf3e5aaf677a85; 0x69ebfecab64e7fca; 0x65921b2646a8ef3c; 0xb195c39e21feae9; 0x15ae3900bf550254; 0x3c0400b3a0af816d; 0x351a9f94d06fe068; 0x3326ae32ecab37bf; 0x217e553951e99de5; 0x43f24089716f7139; 0x5c4d9cb3103a4c73; 0x709301ffd487494e; 0x3e0cad9f81c3f8d8; 0x6ac99d76fb8e125f; 0x72bbb33624747679; 0x2a75f6d5abd1556b; 0x7b7115d60888311; 0x28d8374c517f5b6f; 0xbf6f332fb514243; 0x16f486c20ffb8403; 0x51814ac8ec04879e; 0x18c640f53d7f928c; 0x1bbc8dd17e4461e9; 0x1379f6976a11df0; 0x310b5d855bc672f1; 0x53e6532768c86fd2; 0x2f3b8d512dfd01e5; 0x77683620d188950c; 0x6f08b183365bf485; 0x32adf42dde2aac19; 0x99a351a14b4d65; 0xcf54b36c32d21cd; 0x41902bd402c8b2a7; 0x4860561de569e93e; 0x506e5963b323f23a; 0x47d9c07c6a54fd4a; 0x1aa64817a116e1b6; 0x3486b0d67947510; 0x49b52af1d1ca0ccd; 0x2f41d563ffe328a7; 0x28515bb81954e0ff; 0x5d9e3cc5b212fab6; 0x447e558799396e7e; 0x389afb79bd0db22a; 0x48c3903f419be943; 0x7327ffb7938ae5d4; 0x314917e988925050; 0x7cc0233a81400fb3; 0x4680ec6dadc96c09; 0x51b46c94b56a250; 0x255bd3d105d28a35; 0x3d74600a6ab3cbbd; 0x11d303cee1b31d44; 0x50188bda57786a13; 0x20a65d3a130ee72f; 0x66650c1aa61bcba7; 0x60b94778987cede1; 0x497e095629f29fd7; 0x2654a51c29f8d045; 0x3bb2bf610b3017a8; 0x45045055e961765d; 0x28822028a22000a2; 0x1015100414510555; 0x88a208888a2aaaa; 0x5514010115011041; 0x800a02a8a8a0220; 0x1041001101400414; 0x8a8822a8000200; 0x541011041115544];
   [0x11c15ba592a26649; 0xb8cdcfebd01d97b; 0x35bd4c9a8418ac0f; 0x5277514c2a32b483; 0x47c14784a1c313af; 0x66ba40774c4acb79; 0x7aab1c80662e0fc3; 0x281c368bd470e0ab; 0x1b30a2668871bb0e; 0x1745a6d12d3aee50; 0x1c0ff4fe10fd875c; 0x4aa9a79df7f52e56; 0x152b1465b4d004e4; 0xc585d7e89c153e0; 0x65abf8a579eb870a; 0x4c2b95b057d18c5f; 0x27b1970dd0985be2; 0x7d0def86a6f4c387; 0x3cb57254ef4af358; 0x7c23e285364e8308; 0x673ff5ae22f1c2a; 0x57896a1e08d7e2e0; 0x55350c045b32c401; 0x35f59b2f31be8afd; 0x5ee1fa0692542849; 0x687394e02272b33a; 0x31349ce506ea63a7; 0x12dba51a8ed9d086; 0x3dae5b6c4beb425b; 0x53d1a492dcf5cafc; 0x389ea1d0f0a56804; 0x6f1e7d8400409df7; 0x1a085d4d6e90651e; 0x1aa10174cc5368fb; 0x9e8ac5662e98244; 0x3494e06548e64f5d; 0x171f36a8d5612da8; 0x4da86d0afffc7d88; 0x306877e9d3923182; 0x4237414db3bb45ba; 0x66aaf8f4aa33df28; 0x350505e7cef0b6ac; 0x9fb8bab8541bab4; 0x460089cdbb8662c3; 0x2fff653a3d611851; 0x7cd484922cb3547d; 0x1f0afb7e6fd299c9; 0x1f05ea3218aab4d0; 0x49d5aa685938dfd5; 0x24b992610ce0ff46; 0x59a9a60ff66e43ef; 0x4c8f56c469eedf44; 0x5b1a93950ae2273f; 0x6824181581a7818b; 0x730223ad1cfe965a; 0x1483defe1691339e; 0x44c3f7df0236f070; 0x6af1ab7f86a739bb; 0x5cce6a7e63ff41db; 0x25f659994982f62; 0x4aa66ff7de72ef63; 0x6af00a412dffe474; 0x1626c457e0084dc6; 0x58461bdf3b314c50; 0x7fc38ede5b34d271; 0x6cc69f9704eb22f5; 0x1cadd544499c0d8; 0x5f495d8c4d6c48df; 0x2b19762da6a1b7bb; 0x636079558d4c4935; 0x20e1b70fbca53558; 0xd17384c52b90026; 0x789fca3ca0a82b4b; 0x3343dde5414cda7a; 0x49fd2e02792d2be7; 0x2516a0a77f46b903; 0x66240ac97fb9e688; 0x75b9840086c51c23; 0x369eb44edac6ac84; 0x2e317d8d252d84eb; 0x24ea22a0112b79af; 0x7b50c068d7c75558; 0x29cecbb83be2e8a8; 0x6a27653129d9d1e9; 0x17f6c25afc5f1a51; 0x2ed951423214fbfc; 0x15624cf19a1859a2; 0x7a60b8b091b546d1; 0x35fe4a5b8a1fe705; 0x2c69b18002b49628; 0x379ae0eb787c4d0b; 0x50c3c50dcb3d063f; 0x2f570728313d6182; 0xd22c81223092f5a; 0x7f2164e7f66a72a6; 0x3031d9a923f58f8e; 0x34c8849621a676ed; 0x7b9ed76b6594c2a0; 0x18fd1def11e83860; 0x127366e85cc73f32; 0x5b2f4cc21122b3d5; 0x105b17a0e298d70; 0x387c1c04fe32058d; 0x547571c783aef5bb; 0x649446871f179bff; 0x5a6f285dabe63131; 0x55269d5c6736190b; 0x4652a7c2f906202b; 0x486257adf0ab7305; 0x145e1274d6bb1f79; 0x58206adf0563ba48; 0x4e6a13e0a63343b9; 0x309b43190f7bf7e2; 0x16a6fd5357e0d51c; 0x3557ce919f14b210; 0x2b563ed907d51276; 0x1ba428ce83e97e78; 0x2ccbcc56c9e2834; 0x51746462c967a70b; 0x2ced2f91b5ab49e5; 0x4a65379180303c83; 0x66445b8edd63a9af; 0x68ec30d9d97c4d7e; 0x7bc9c6069fcce9bb; 0x2c19d000bbcedf55; 0x6a746921051ffc7d; 0x4e25cc32f0793ac9; 0x7d7ee0f957507c62; 0x26edfa190adcfb20; 0x262940f17286e3ac; 0x56eb2c01d4793eb7; 0x4688daa387ac0a5a; 0x436531b642f091c7; 0x1b44170d3ef1b518; 0x3833dcd1ed121b02; 0x21ecd8d588a084e0; 0x2b5b8f37dfca5b74; 0x3e6dd3de3df2eb4d; 0x4fbe9b031e1d47e5; 0x337ca51b86f13d90; 0x5a07d3c3df83112e; 0x16532cacf78a0ff2; 0x640e9b13276b635e; 0x72b41706096ce023; 0x19ba0fa70b87e0e; 0x7e0141106f730789; 0x3b4ded7dc0e2b6fa; 0x27c115ea345b72d1; 0x4bd8a03fd4b44b7d; 0x15ffe117ab7a6f94; 0x15edfaf239dc938c; 0x2fa43947a6ad5376; 0xcbe2f66380fec41; 0x44551da398b44fc9; 0x4b61ba382f6c8d7b; 0x7588cce8407da79; 0x42515147d7a90836; 0x35d47ed752b7592c; 0x31f936a22bab3cdd; 0xe0266ea6d7bb5ad; 0x349bdd76b6d19622; 0x7f7cacafca15d2bc; 0x7c1399ec63351b55; 0x238a1a8686496702; 0x6a4d7b0ccc5dac2; 0x7b9c68eccad1efe6; 0x6da55e2ebcf1bdde; 0x5095ae0551d3cc1a; 0x42a80a5eb597044c; 0x4bd0a4c35e7b2470; 0x24bbd84bda2a5632; 0x1b9b4ba4de38894e; 0x30a473c63a545e24; 0x4e8b2a8ab3582740; 0x6291a15c9204a705; 0xbac5b574ba5bc8e; 0x6e7a68b0c6a1790f; 0x7241217cf03b2970; 0x48835a2598d6710e; 0x5d7aa6177f876ec1; 0x64ac3e2cd943530f; 0x40666ead192247c; 0x6802d5cae8a36ba0; 0x23783fe8e0d630a5; 0x1e0de9bbb3357af8; 0x695b8a4bdd894a39; 0x2b4efbee4f19a6a2; 0x1c395adbb2d432b8; 0x7aa8b0eecf284b7e; 0x54a6d69caa2f9655; 0x27cbac5b307ca31a; 0x50cb17149e487ae0; 0x48019aabc85fad1f; 0x5f8cab9df6edf3ac; 0x2c7c540a57fa8855; 0x670bea23053b8363; 0x17bbba0879bd9468; 0x3131d24ce8d97a26; 0x2b08dcb67b5e691b; 0x55d55f09968b5f82; 0x658e2df8ca9e9f42; 0x582737de9cd59eae; 0x2cddd531f084a682; 0x6d0456f416441eae; 0x179bee82c9fb2d9c; 0xa4b2a06b42b30ee; 0x2854a7ae9e25686a; 0x4fdd9a0025d3a991; 0x4526b4891b7e1d17; 0x11dad39777fde54b; 0x2111b475a89ad2e1; 0x4c613a203bdc9a13; 0x6a63f54ba555d6b3; 0x2e5eafa574d36e9c; 0x3292183f082dfd47; 0x70a5c2aa3aa2e5cb; 0xfdb68cf4dcc1454; 0xa86bda43629604c; 0x4bd1c3e4d75f62e9; 0xe22396070506cc0; 0x7667d4341fab36e5; 0x651a41f3bb94aa4d; 0x3c62ce2319a1553e; 0x40b3fd0f2277f2f5; 0x77def8509d019d54; 0x6dc6e0ae5c2bb917; 0x7023b347250d0542; 0x5e03a76716200625; 0x556300ffd7d698a4; 0x2dc53bc0bfd29839; 0x1acde8c22b7dba24; 0x6038e1d2f6f36c82; 0x7cdae6095906e2df; 0x54090288bb3e0943; 0x68ecfd413e35edb4; 0xbb0fe68e8ac6fa8; 0x405e18b6982cd069; 0x5bf0bb2512272cfe; 0x3ac7eb1419b8cb2d; 0xeec7a541f356319; 0x349b8ed38ae02c22; 0x763ebb5a5f6879fa; 0x54636e3b3e4baf2e; 0x642a0ac3ee08ab81; 0x7470751894b52aa8; 0x2e6cb825596cccf5; 0x22e8968a785360c5; 0xd91bc462d08840e; 0x6679c861f9dc7266; 0x576a8d496eb58752; 0x797b83da6d3fb30b; 0x2a244e4887798035; 0x5b8efb1c6040541d; 0x7edfe8ada363c5df; 0x2de60d348955120c; 0x5ffe672d91e790c8; 0x6f4239eef1464562; 0x23dbe39a21e3c5fd; 0x1753157aafc9fc40; 0x56cad22aa032b1c5; 0x5725ab516f9af7d7; 0x2c1f5f23a3976bab; 0x45488eba05f3e7e5; 0x4caa855852ba1f16; 0xc6e26072a36a121; 0x55b8792022c482a0; 0x40c2a6b7121a4840; 0x2af4f626f80ca92f; 0x73ae1416815a2fc3; 0x2cb92676fa1fec75; 0x1dc12b26311eaa3b; 0x22cafeea0d5af314; 0x14e14cbc6df80845; 0x276bfd2466d717ac; 0x767f5e8e1f3a6601; 0x4b3f42a59d537c14; 0x206b08c2fc820e4e; 0x2ac5a60d94be100a; 0x61b46d97607d51eb; 0x4d065c7cb19cd21b; 0x19650fec926fae67; 0x6f164b768deccc18; 0x5b4128cf89012f5d; 0x300446463893aac; 0x38dd004523ffc972; 0x7f43c5f019db6da3; 0x2100c3f9f4de3f2d; 0x3488b4d619a338af; 0x1c7a16e27224069f; 0x62729d1605ef03ea; 0x2002cb259242f84; 0x19b84155eabb6543; 0x6efc9abd3540d860; 0x3d3cf1f187a477bf; 0x764e0e1b4f465094; 0x658820edb2c8b223; 0x79f661d34c6adce5; 0x222cf1488666c0f3; 0x305ca22a9bc05ca9; 0x750761b03290b2cb; 0x2be36306b88cf8b; 0x4f47ec4604c59a91; 0x2f5601b17acb2831; 0x7eec5783f8e35ff1; 0x15f93a358838d572; 0x2e4cb7803343fc79; 0x5704b7a99b80bb96; 0x7ab823716fcc456b; 0x441005002074327e; 0x2a208882082008a; 0x401041001151145; 0x228a2aa0a80a0a00; 0x5544400441504014; 0xa0028802a82020a; 0x551504501544411; 0x2a08a2288082002; 0x101011155011005];
   [0x392b55d7341e94cf; 0x3962d9977e7f155e; 0x16d8827637c01f44; 0x32c54c20c1a1f869; 0x1a036d09f1c1ac9; 0x799c79314803844; 0x6f84b8e4ae7ed853; 0x2992d7b526d1997d; 0x2ed7436640bd75d8; 0x75e4d37d47d742e4; 0x643e51e8cbafd135; 0x74571c2f8796cbdf; 0x42189f40a0f6d8e1; 0x2c7cd7763b738edb; 0x3e3d016aebd3187b; 0x42442acb26a57f3b; 0x3e2259a951a80ae8; 0x30d8e24bb68c2a9; 0x125547dbdd088917; 0x50c00dd3b7a4b70a; 0x74ed79057056248d; 0x24c56372e0fa07d0; 0x4acda9cc167afc2d; 0x346edba62b50e598; 0x708a00a650aa1bbf; 0x85e2d5797f28669; 0x4ae68cd712640034; 0x425de3824b5ca67e; 0x1135d61e3fcf8f5b; 0x23f1805fb909cd5; 0x6901f2e0bb27d41c; 0x6dfe599fefe2afe; 0x29057dbf6fbb659; 0x4d666d5ecda3dac9; 0x4a1be29d3ff01fbd; 0x605119c2aac4fff4; 0x68a8417a53234542; 0x7bb533049d40fdcf; 0xa4392bddaf90380; 0x3ca93dd1a8a50845; 0x2e4f164f616e4e2d; 0x7561a773a9a1f52f; 0x324a8ab68603cd42; 0x5e7fd820a384341f; 0x45d22c48f06f9669; 0x4c2b8d5d9b1ded41; 0x391cb1b449fbf6f2; 0x6ef3940e3b189689; 0x5e00961abcc43570; 0xdfde620eb294953; 0x7e257a3ca9ec1cfd; 0x500ad3ea1564fc4c; 0x5e4cafbcdb9503bc; 0x75e3767cec2ed916; 0x1f0a381d051b0523; 0x3e6a5975b2c7762e; 0x49b43e59f53ec912; 0xa6bfe51afd36aac; 0x1e06af3c559de67f; 0x3cf386b77b07db9d; 0x52c5d35bb2921367; 0x49673dea13185f1e; 0x2306056ad2160068; 0x44e8a945853cc89a; 0x7e05a02f66eee7ff; 0x49a9cbb914b134f9; 0x5e1f1affaa8aec74; 0x3a99962f51d563c6; 0x3be83a03f71bfd0b; 0x54fd6c7e0f338ebb; 0x22fed62d8c4381b1; 0x373e3e298ba57a80; 0x369a430e21ee3dc2; 0x7745c1cb10c5fc8e; 0x3f56cde9ec3c8de2; 0x114375a714b82e26; 0xf0be72b58d8fa57; 0x7c52da3826e00cdd; 0x4408d53df7f042f1; 0x25fa3c9aa4915d0a; 0x28576a1a8ed09f64; 0xa038d75064d9b36; 0x36a335cadfae3add; 0x190fe85063e2c571; 0x5b0a348832af50d7; 0x9d8951fdfd6a5ca; 0x13ff291c55c80909; 0x444ceef64d64ff44; 0x665d27a4adb8df7a; 0x5278dd78dcd78731; 0x2053ac6b881c3e16; 0x404cdc68c32bbec9; 0x24549c6918db92c3; 0x6d3296752af74472; 0x73332b7509f5daaf; 0x7432cf1aee34e0df; 0x3c8251283747cba5; 0x5ee6c64f277acda3; 0x50026cede37a9797; 0x675d92ed93f8ead5; 0x25dc9d7986fca4b; 0x4c8b9c4a0a15b131; 0x180d8002a7113d92; 0x4987c412dff375af; 0x73f08bb9ef5867b2; 0x3deca75d9c8f6780; 0x19a8d83dbf69c40d; 0x26cb92498d5ec0fb; 0x6fc69e5255ab73f4; 0x3eafa35f9d633158; 0x75d929ba0e829157; 0x148d2c00c2a8ac0f; 0x4f32eb28df42bfac; 0x104db5e9b5c711ec; 0x4f689ca8eca0f322; 0x36944869e5f0a43; 0x72480e834634007; 0x27ace722d1f27a88; 0x6cc9c9af17ff0e59; 0x7d170bf1cf68ce81; 0x7c90a6bee205e0a9; 0x35abc8d7bc807d6c; 0x43882f0cf26b5ae3; 0x1db3e6bdf6755eda; 0x657790bc9aab5dcb; 0x734a9ad830901ee2; 0x4b64da327e403cef; 0x5c4e5607baf4823f; 0x453e0e69d38653aa; 0x31a3a23f38438f86; 0x195468b1e84f4720; 0x4e8c4001dda1fa03; 0x787f8e304bb27888; 0x759edf2c4b43a0d2; 0x428b9f51b3c7107d; 0x65f011e1f22907c; 0x47caf49790153dd; 0x67cb4014d5e931af; 0x28e2662aad71d451; 0x22fdd2506ad5f89d; 0x33c536cd45494b9d; 0x34e95fce7e790dea; 0x55b84dcf0ccbdfda; 0x6d763ac28235731a; 0x5def045f686d0a3b; 0x397ef89f795bfeb; 0x5f5f41e215dd9dc2; 0x8b278a4f8b35ef; 0x2f60d7547f946d58; 0xcbf692bddb94800; 0x25a3c5d39cd2a1ae; 0x731a55d538032c79; 0x54e0bf120d8f77b9; 0x4d4a2e39ee207c24; 0x355f10f30cf6ee40; 0x30897dd98294975; 0x2a1d7400116c2bb3; 0x55ecbcfd761417e6; 0x302f135e56c9f50b; 0xddb82a6b64f2047; 0xa6ba729c84366b; 0x602789f52bda9fcf; 0x775ce92855da8f2b; 0x3a5abedf3dbbc9f7; 0x2001e3589280ad05; 0x1cf5c82795c07c78; 0x2548bfdd538f1282; 0x2b39da64b68ff185; 0x4f2d945db88bedf1; 0x46aa7ad6a49dd39; 0x933f7c6524fc8bf; 0x120b8978dc8adb21; 0x47dd9930c3a97fed; 0x189ca36dd2dd05f2; 0x3d90a256cd9e88b9; 0x605c7deda98634a9; 0x6d8242336428f6dd; 0x7c00e2bdfa2dad11; 0x1880d151ddcfaefa; 0x718e94a000977452; 0x38488ab337fafd56; 0x16abf4514e46eacc; 0x73ad6eebcfee127c; 0x5c004cdc54eeb36c; 0x258dfbeda4dde486; 0x2b74e0d302684320; 0x52c72d189aeb594a; 0x59ac2e2665f52c9f; 0x22ceea4f71da2929; 0x13982d26dcf7e32e; 0x680d2cb7ae529a1c; 0x616ba802e9f96e9c; 0x72eb489d1415b75b; 0x1256ad162ff4935b; 0x526e291a7a4389ae; 0x68191b1ae131bae6; 0x4deb6b04da42e89e; 0x5e8a21bb35bd008d; 0x77c554939f1031e4; 0x1d313b66898970c0; 0x384512cfdb33f900; 0x132b1c47a3ceaae0; 0x29f4539a0fd92eb6; 0xe58fa13d4441633; 0x5ff58e634a4b87f8; 0x5eb101c52e747f12; 0x6b12d4f4de5196c; 0x180ef7209fd8cd80; 0x62c6ceffcef46082; 0x1c1f6c5e5e50f048; 0x4577483bece9a79e; 0x95c8b1c18e2301a; 0x45c40db83ad24f65; 0x78bf27eada74d399; 0x34ff5d86a9d772ce; 0x64e213f880c037be; 0x1014351b4101defc; 0x23ce0e69a06162f6; 0x3d49041dd21a64ec; 0x45adc9205b95bf77; 0x6bfcfeb896d52578; 0x385252eb7d62c21d; 0xe4635c554f198e3; 0x2fd7904359df1a5e; 0x2b88293a374abef4; 0x4686a47475fca444; 0x3ff03943a32a6a12; 0x3b1b819d8e92f3dd; 0x4fb7a25a598fdd26; 0xbebfc9cd7c91d38; 0x7bea8ffdf662bf52; 0x760aad049c8d37f2; 0x2a07d2ea681232a1; 0x46a72b835b9f24fa; 0x6376b4ed53a71422; 0x59519847927387aa; 0x4207cccebf101b81; 0x5646e37fd819b6c7; 0x72374fc93f9239e3; 0xb11e0c2f4bae96b; 0x775da4baa3ca4abb; 0x5d241f2257b28af4; 0x7c68a94598a79afa; 0x28c182c3df38dd13; 0x3c705fb528d91250; 0x77fef328c6de061f; 0x279e2d233a954e73; 0x1d95867bc68892f2; 0x58674d15e8265e2b; 0x4c95dcc25c4a1a87; 0x2f708de8d873cadc; 0x28b7877056f7dd8a; 0x7815f94c388b4aa3; 0xe585cfc427adaa3; 0x4c25ff499e76db2a; 0x51654d7e30a974da; 0x70e3221d825bdb4e; 0x5216041c3d43a8df; 0x359e9357d762cb28; 0x364c0f6b7d042229; 0x36371a0d1501ccf7; 0x72f53fb25d3fa45c; 0x1eb37a8da5a47882; 0x6d9ccc5353a52e12; 0x78053255e62b251d; 0x5f8e3a865e824e4d; 0x7bcbb7898b84da51; 0x638761422d43dc6b; 0x761bb65a27f33233; 0x5552a3eabd6b8fd2; 0x3294745fa93f30ea; 0x721ea3857753225f; 0x3cdf3bb8e006334e; 0x4d2e2c7cc90bc452; 0x4645152ffbac68fd; 0x1848a717d16a273a; 0x1d42354e0fcb37b4; 0x63d556d4aa79e87e; 0x39f4cbb08792421f; 0x2901d60b6f36279d; 0x4908bf01328a442c; 0x2b79dad025865610; 0x571cde4c11cf4e14; 0x3b19141abff23840; 0xcf4e6804d989652; 0x5c7e5ca56e0153f1; 0x6313f45c663bd477; 0x56aa59d43fbf32d4; 0x40c85a32c515f2aa; 0x2cef1e8c221327ec; 0x195a2bedfae454df; 0x4bf2de80db072c8f; 0x1518e8c0ca3ab4c7; 0x1e6a50b8a73fca39; 0x2674efd2557d32bb; 0x17e06d1faf488aae; 0x29b1782645667d71; 0x5f02187399738b61; 0x45b39639efe995a5; 0x1081ffe21a1a84c3; 0x20650cd3504c3f49; 0x4c6860009f361e7b; 0x62e758f562d66694; 0x315890af3dea051e; 0x2255887f8a9ae160; 0x1fc14b2c7689d350; 0x1368450ff3458985; 0x3c388b4e36d9958f; 0x51001040fb622769; 0x82288a22a0a008a; 0x1405544404054444; 0x20a200a888880200; 0x5551545404154510; 0x2a0a0a0080208200; 0x5115101005115044; 0x282882a280080222; 0x551111141415505];
   [0x1eb093ce867dae6; 0xc9722742c5f2b6b; 0x526a138ba3087f9f; 0x65bbf605bb84fb87; 0x77ce82d44fafa970; 0x74712e162d6ae600; 0x77e847eeb3bca7ff; 0xdabe8e816f8d3ed; 0x7a7e4798a4e041a6; 0xc0fcc5ca3efa387; 0x22993da6af665c38; 0x12e3020e0bc74fc6; 0x40f027198ad09013; 0x13b0bfd6c7d832f0; 0x79f9d71e7b8ee33c; 0x36669e96442421aa; 0x6f8a13e47470df74; 0x723977ab1de00ed2; 0x57d77582a42ff53c; 0x4f78e824cec17edc; 0x707f7e5d5a3f92b8; 0x2492f4ef26d3d379; 0x4920a0e2b5232f12; 0x1fdf7f352e3756d5; 0x37b1d0f44c758fcb; 0x7bc243e886647a43; 0x383b53ed4c5268; 0x4a03ad3ec3a4efd6; 0x195c4a7addf420e7; 0x3a3bf69353c3c461; 0x7ec7e3fcfe976d40; 0x10ce500f1588bf76; 0x6b1645281ce2f118; 0x207c59a2566ec545; 0x5b983c622b85ba95; 0x180bbb11ac8e4ef; 0xf4671672540432e; 0x4e53a8660a111ae6; 0x790723048da8d698; 0x801fad0e075cef7; 0x3b19682d0ec73167; 0x8227edfec232e98; 0x783704e66ee6d1b5; 0x12c7b3d700b731c5; 0x5e7bfc065523ac64; 0xc0fe347c86bd143; 0x1fede1893b54dd96; 0x20dce7d552f54d8f; 0x2102abf18c7517bd; 0xf26dc95cc8927ea; 0x2df142b14dca9730; 0x338dbe9953faf2ab; 0x1054491be5a7b420; 0x40ed397dfa6f5abb; 0x394e79c6756e14bb; 0x68d1e1d25762f940; 0x42d190767dc00f99; 0x1cfc393861a10fc5; 0x23b7127746bc4596; 0x7ca7132238c3d017; 0x154d7745483acdcb; 0x76a222bd7c03fc84; 0x309417542476d220; 0x276f130236b54878; 0x4845fa252e24e4ef; 0x2c28530367e9d676; 0x6f419f9b32ec59da; 0x6dc9e28e7e09ab0e; 0x567d15cc9f6cf2cd; 0x44947fed505075e9; 0x71371eb039ee543f; 0x4d8d8d8df96e765; 0x15a3d6954a915565; 0x103fd7e4aefb6a70; 0x7e399eebd1b040d3; 0x4a74ea99d3233a6b; 0x6f27659f13d96b78; 0x28fed1017e087abf; 0x1702b1d28ec4c83d; 0x28b1f506862679cb; 0x3d9308a29651e4ce; 0x1d652058511977ea; 0x3478fa1627cba1fe; 0x605c03b8403ca511; 0x561a4f3899b40e31; 0x67fbbcdffbeb145; 0x7e8c70fbf66a948c; 0x25be070666c7e96a; 0x24eb0f28c8a29122; 0x37f8b55a19b72997; 0x49b8fdc428af8dba; 0x3e6e82d41895038; 0x3ba132f9823f44cb; 0x57499ea65074ae77; 0x4d5a97b4138923da; 0x530d74b9978848cf; 0x4286be38fa20df0a; 0x724268871ce8a18e; 0x3db42feef62cd164; 0xa1d084a0b265c0a; 0x3b9bedf872e03305; 0x20b0f17b58f7f3fc; 0x3c9ac90ba0d3aa38; 0x1141e20e072d9e68; 0x3fb35d5913e15cef; 0x39f0532cfb3a3a31; 0x2039145964298a8a; 0x5092360a7a6cf850; 0x66fcaba89c7a2dc7; 0x7f1ac9a3374be49a; 0x6a534e4ca05a7ecf; 0x21cb6426bf1adf95; 0xf326612e3be136d; 0x39ea42548241d00d; 0x79f219c882f55515; 0x721ca600fde75061; 0x3ab9c4c24f11ae82; 0x50aad551a19d10ce; 0x597a6fb16cc0a66; 0x120b7c5082c90b8; 0x72571b993f58b4ec; 0x6b5af388d118f86e; 0x4ca953c65eadcf38; 0x4c311db8235af31b; 0x3722367ba0ed4e6e; 0xf138e06b8bf7be3; 0x6e015b188f06a7e3; 0x76d0174af8ef3ad2; 0x2602090264b2cf5e; 0x357fdf3e8fcc11bc; 0x197dde99cfc4b51b; 0x5adf7ff430317045; 0x1338724701015e5d; 0x34e518e6193d538b; 0x7631a713226728e9; 0x21dbd76f593630fb; 0x668a2cbc82c9bf79; 0x57103286d5d87100; 0x2ee7d2e815d51f5e; 0x51517fb0d98ed9c1; 0x4c6413e4e2627e71; 0x78c7713a8fcd750f; 0x34b5e31d3e4b9615; 0x5638c87a630eb6c5; 0x4c1f477d65023287; 0x5705c7aed7f95cb; 0x53b707b27231efd4; 0x7da0e3e33eeca9dc; 0x7ee418e55932cba3; 0x5283829f0c1c5ea8; 0x21df85b683fe439f; 0x10ed76769fcdda64; 0x228b55f738466236; 0x15ba1d64478d6c54; 0x53468622bb6a500a; 0x4f62f7577463878d; 0x1a34fff1f89f7a53; 0x5b9649d1f65ebc03; 0x60261a799564e1a5; 0x1e665b45a0b2a408; 0x7e6d570f0d5a5af4; 0x64ccf7019a034652; 0x2d011163df142df9; 0x5528de4c4784777c; 0x4c00ed9750cd9ea8; 0x54471cafb02b9dac; 0x7c6733a1144158d6; 0x3a8cd3acdbcd468; 0x7a1035f8fd859bc; 0xbd44894766fb98d; 0x5e15c0d42d4571e6; 0x131c95a062c8b163; 0x3d60427cfbaea3f7; 0x5fc854b5709466e1; 0x14d1934aec6a77b3; 0x35ea9fcf7f1f8937; 0x5fba30981379e800; 0x5f27ac1feddd5e4f; 0x2885c55d7551680b; 0x2a68a4a0c3d31945; 0x7b8902996a8d8926; 0x19d16586797dcc94; 0x4e0819de912392f9; 0x1ffa8ffee14ff9eb; 0x4afa8ae92058ab0d; 0x59002148e43d9d8b; 0xc3e83765ff8f986; 0x785f4b64152b26bd; 0x70c471938bca0fb8; 0x1b3aeb1c8563d9aa; 0x254f6959749f0edb; 0x64a8b4e9ec868342; 0x4766ff34237f60b2; 0x7b3ba12ab50b992a; 0xcedec5a2450f3c; 0x34e855789d3f3e4b; 0x17832269c89c025e; 0x1762980365743b6a; 0x7a34fe55eb17666b; 0x3d78e88b99a08146; 0x41e6f44724460855; 0x59aba52496276377; 0x7a4641a5967de428; 0x9490f340be8a470; 0x27ec4fe0286c43d8; 0x165429f4a02d4f87; 0x4600a0302a724cad; 0x47ffff215116b01a; 0x7c1f33f9aaa4ead; 0x26021aeddf502a3c; 0x4f9ee8859ff19bee; 0x71511aec6a6921be; 0x213eaadfa35d4fc8; 0x4ef179675ef3dd8b; 0x6b8915347c896ca3; 0x169cdbec89c1d4e9; 0x3c2d05c95a0dc45; 0x75927ddcb9a47aee; 0x5dc5eceeb8013fee; 0x7edefc6c8dc33d43; 0x43c005cc6de5301d; 0x3d3472ecf60ac546; 0x8b304db636ac80a; 0x263628ec5ff521cb; 0x52c7e5aa34aea3ea; 0x5e0c001501f9ba9e; 0x20894ed0dad0e4ec; 0x3898e7687b567a1d; 0xc61ecc2c20812c1; 0x36f00258b57c5d90; 0x402e99549c9df046; 0xd2d3c1ea42d397; 0x48bcb82c5aff2e07; 0xa8ba19d041f963f; 0xd66c80dfab48bd9; 0x6c4ee65d4aff7cfb; 0x7485f0a7d0ea30d9; 0x784b7a24adacdd7d; 0x6f46bfe9dd51340c; 0x2ca70aec1de5a2f2; 0x13046d0944877f4f; 0x67a6535276d624f0; 0x6c7ea1f6c4a1930d; 0x68066253015782c9; 0x6cdad696e5dbf20e; 0x5ad4b35f63bbdcde; 0x1e74dc8df37ff9e0; 0x79cc1b24831904b7; 0x64d633eb6b6fb844; 0x203711ab40e8067b; 0x3fba22f8272f57b6; 0x6006a27ec0e603ee; 0x16c7197b363bbada; 0x3dc122439ab47c72; 0x49a59f013835c65c; 0x14e1f309be534d2d; 0x177ad0b24728ac1b; 0x7e7b1b4ae9d6b6f7; 0x564be5060256a266; 0x784fd2ed7c8e8da3; 0x1eac3a75155c1ea1; 0x66e96b6d2a3f5bca; 0x301c3be48fa507a5; 0x712ede8e51fcb748; 0x11dbf1a34c48f368; 0x50aa6846b5da9771; 0x68b0f3bd48c28dff; 0x7998e6d23336210; 0x69dbbd2be97f1d07; 0x2f3fe8b113fdb412; 0x17456e54910f9189; 0x40c27aef07e1ef22; 0xf0288e0dee4217e; 0x2738ecd56a2801a; 0x9d17d9242ea4fe3; 0x152f4aff4026d427; 0x7134e4b13340e2bb; 0x175e4a70ebf8e3aa; 0x6a4a6b15e6439d49; 0x3a01c4523203a7c1; 0x40beb6496a628d85; 0x4e6ebd6db2ad4d1a; 0x661797647cf8d5bb; 0x44478bcbc20090f4; 0x7c2a811117bd2501; 0x2add54c25b49a506; 0x3f67b99a32c7b55f; 0x6cc40f797b3e847f; 0x3c228c22727ee1a2; 0x387d0af52abbfe6; 0x45c79ed4b529ff56; 0xc967382337680ac; 0x6532e83c5dca0f57; 0x5d4432ff10f9c359; 0x645423107f43932c; 0x7a4f502cf536f979; 0x3a40b6c7718b37b3; 0x71b725d0653ef41a; 0x3b0178299177239; 0x16f2e7b5beaf9736; 0x3d1ee689dfaf7daa; 0x2e6f76afc03195c7; 0x2990e24f915af880; 0x215a2f99ff1a76c0; 0x279bef64bfbda7d0; 0x49c0a1145937d45e; 0x2dc26fde5b391025; 0x49dcf496311270fe; 0x44555101fb0d3402; 0xaa8280a820a2222; 0x1541100544011040; 0x228a28aaa200202a; 0x155500151540154; 0x2020008a8a08220; 0x4510445501140404; 0x2888222a20a2aa80; 0x550410014151045];
   [0x2d5b9291049a58f0; 0xd8986635ad91f3a; 0x1b1428ac36f11259; 0x5e1757ac1fe6ff24; 0x41be20d3a3df643e; 0x3cbaa88e95cf4909; 0xf2c40e645f88dea; 0x6874285e9170aafc; 0x6300ea63273e7146; 0x6a170956dcb77079; 0x6969b8832d333f63; 0x5d043585f81ed39e; 0x78005585370acac7; 0x6a072a3cdcc0db2b; 0x7598bde7aa317bbb; 0x2177b0282b5d8472; 0x75a7e001d212537d; 0x45d299643115ac3f; 0x70b4a30b0d85a113; 0xcc0dd36e2e76fb3; 0x41d8a9b88d1f590d; 0x3910858d00e24b1e; 0x4f361219681a4e9f; 0x437d197a8ec4ecc3; 0x140306eb7abc55fe; 0x6c8ddfae843170e2; 0x5e9a554fcbf77c91; 0x11291e1e848327bd; 0x7f12ade8fc1180da; 0x2daa42a7c12720f6; 0x7c8c367fce2214f6; 0x5a123d6c9fe6f286; 0x7384d1fef43a760b; 0x2b4d0daa6153a665; 0x48ba8464629b2b05; 0x2aee4b004ddcf03f; 0x1a416b8ab08505e; 0x11d609286a01fa5b; 0x4d3fd0e4a24409d1; 0x62d39121ded94390; 0x66ad58a352bd11a7; 0x322a0f96ceba2c42; 0x55f4adc665989649; 0x417ea51064aab736; 0x60364df5c0896c00; 0x5c0c4375510901da; 0x4b32dddc3e78bd50; 0x428dfbb8efb28056; 0x166f6532b3747425; 0x3ce649b40aa9ce0e; 0x40eeec58fa64c3ea; 0x31151530eff38d66; 0x190907ff45d9d201; 0x3f7fcdb6feeee153; 0x6c2a8992f8514d78; 0x28d53a40a50d6593; 0x5ba3a5a36f0c3dec; 0x1e5d2df3d6c74dc8; 0x42222fa78fd909f8; 0x23cdf88c611e2f5; 0x71f108a7eb5ff7bf; 0x254a52bb8385ec06; 0x245a8c26aec5b63b; 0x7ff76f25902cec7; 0x399b7b7c05dce88b; 0x45fea3427faa553b; 0x1de59ab90c287453; 0x127df32b5ce80ea3; 0x3a121f37e51df8f1; 0x798653b0d4b70ce8; 0x3014df4a711e44cf; 0x7ff786020b5f4d11; 0x614e7aaee34e69f4; 0xa75be14f6bea30f; 0x3f219da9f1ef4ead; 0x28af027775e68d3; 0x6a139dbe9f281fcb; 0x52f5b6f6918d4ff2; 0x605c3e31cd70b82f; 0x772f3863b12c5735; 0x559e0b262c4a15c5; 0x6aaad14e1edc457b; 0x1290f0c67f901b73; 0x3c42910bf35693db; 0x65f6572d0091b34e; 0xe9354ee728cc8a3; 0x4e520f93ca640523; 0x3e7b5a66db6d956e; 0x644a8bd1446acff1; 0x38f68851f844453c; 0xe70ff71e5e040d; 0x4e6fea672111bc8; 0x67e783cb9f4d1e79; 0xdbb293cfb539ef8; 0x6f91b7a6b9d93386; 0x135fc16feba710; 0x42ecc2fc9fb5f2d2; 0x3edc3dee195657b9; 0x145a42375e79c5ac; 0x6d5ae2918fba781c; 0x12a3c09189a1858; 0x1c226bd3cf1c09ec; 0x3f9a56e9da60c64e; 0x7a0ec63a3d976cd0; 0x61aa0ae2e52c96e2; 0xd7f07e7f2b284da; 0x131245c909ada371; 0x1f5049528cea99e7; 0x6508b415945ba2f0; 0x22c58bbedbfca36a; 0x61ab6d33680f9e66; 0x79c979d70582bd6b; 0x3734cde2174532ca; 0x32bade9136c57fab; 0x1a04e980ba79744b; 0x1b19fab21116587d; 0x49fbb18d56534e43; 0x328c0f0907a0d480; 0x1f3db4b21a0517ac; 0x4b56cf7503204ebc; 0x42eebe1a4f3e7fde; 0x7ed7307431144ece; 0x69293fd6751e2269; 0x14e8ceed6097ae76; 0x19fdffadc499e2a4; 0xaff2c09f5537568; 0x2979b85b71a945fd; 0xe3564728a49c366; 0x4ce9451a9aad6159; 0x108bdfbbafa3fcc5; 0x581c7d517d7f2d06; 0x5b5a3a355fe0799c; 0x6cda8f212baa98b5; 0x6123fbb44350fd2e; 0x5074f76ec22da404; 0x6c6d64dd91265ab0; 0x3f05af3adb5aaf21; 0x31ccdc22019800ec; 0x5f734763f9c82077; 0x7949bb6137cd373e; 0x179697cc173066e8; 0x4b67fa4960b2ec7c; 0x6a0d79b3bc4c2514; 0x3379378d1f479c7e; 0x7ad01dcc264725c0; 0x6d0c3071d36be3b5; 0x2a093ed50f6f0efd; 0x3b629562669db277; 0x526473dbfcab9898; 0x5bf0a94c2c01ae60; 0x1a9099fa3ea06fd1; 0x6fabf44acc310c7a; 0x1d05393fa65a1b8d; 0x4136bf8af7469b53; 0x1b36255489af6d43; 0x1424eeaf3f268eb9; 0x10bd4e1d4c150a42; 0x1dfbb4168d90bfa4; 0x577c2eeb812e7953; 0x362b3ddcf0afb1c9; 0x15c646a919586dd0; 0x70c9200aee9bc1a8; 0x49102eacadfa4b31; 0x16febb14c7995051; 0x26360487aa3754f1; 0x7e6be929d791eeee; 0xce60c255c6dc3b1; 0x4b15f704e7174963; 0x4f149cc5499a6372; 0x59003c85339c8b8e; 0x720f98b4cc1176b2; 0x475c396b1338e1c; 0xe409bfec822cf7b; 0x459801c00955890c; 0x4e58ab90bfdbba3; 0x2f896e4845470adc; 0x6a72c749bd606679; 0x442d6b2aee38034f; 0x1ebfb0bc835cb619; 0xdc42e00d8a60feb; 0x2a1cb3ff0b8f17aa; 0x5a6c85e1da44b74; 0x79d73f228c189dd5; 0x6475ad949680c574; 0x55bf9df2af9c29bb; 0x3c7ab1f5f7a9549d; 0x1f9b33dad9e87946; 0x45ba76f424144a64; 0x1d15262a131adc2e; 0x82cacc6b1615f6c; 0x705defada22408d; 0x73745767b1263180; 0x7e848f331ccf4c73; 0x7c760ce56693b5c3; 0x3308f49190a089e; 0x4f8eac2ad8dc65ce; 0x6c326ab725ea988b; 0x6e019028af0fde82; 0xf4ab858af7be039; 0x26a564e6a12a3128; 0x3b08c93111096043; 0x4dcca18652624429; 0x6b2d868356bf1a6f; 0x6e9af649135395c7; 0x639df6639f86255c; 0x65ba0e503344365c; 0x28ac8b922ce8a475; 0x69218e92487e52c7; 0x7bc02b6821dce410; 0x494071bf80948838; 0x1f55d86906e75126; 0x8504649def32822; 0x78fcb5573e9df7c6; 0x7fb236baaea1af5d; 0x5e04cced8922cfe5; 0x1f345b00e0679190; 0x19b97f43a47f9038; 0x4b7f1f0fdac55ac0; 0x11f5abb700cc5650; 0x58933b3986683ada; 0xe6ef6ed3a7e0dc8; 0x354440e204bf401a; 0x2581945a7492ce20; 0x5b8702089646f752; 0x7531c4931912e198; 0x4219f6a892c193ef; 0x46059695f13249f3; 0x49ce976081b9baf7; 0x6b74ecca035a3553; 0x470976e8a633f21d; 0x42c11f8c4ff025cf; 0x1940a40d667048af; 0xad30d19cfc7e11a; 0x30d28237960ac6d6; 0x6a2d30c44e32b58e; 0x7aa0074d259c4c13; 0x1dcdc85875906290; 0x663e96831f7b2285; 0x42864068d3a064a1; 0x3515c8ad9768d37f; 0x5f0c38cba4dbaef; 0x2c1c8e29d5a4e85b; 0x5a0037280fdb853d; 0x17925be1886d60ce; 0x696d58e754bb06e6; 0x2895e31afb8febca; 0x7764ab74e76d53c1; 0x3c46f10d78917475; 0x58c094bf8e84e6ef; 0x7cfaf4c2ec36f304; 0x2eefd4b7edf11105; 0x569bc047e56e2385; 0x56d96be7544a117; 0x644cf536c72e1259; 0x4e7931e12c22d8e4; 0x6edcd3acac41cfe9; 0x60cc0d75b5fa25b5; 0x7b80a2842399bc84; 0x10c326b72ff51c04; 0x520397fa333a7b69; 0x45f8a463a6d494e6; 0x369e3de3d84f6c66; 0x57cdbd233feccc10; 0x631a3f4c33b80a3e; 0x6297bae9c844ae2f; 0x1d197b52d6159b8e; 0x2bcb3f3f7ce92e9d; 0x66b6c4627a4ddd56; 0x5d9b41350d353763; 0xc3c88a8d5864bb; 0x5ec3acd8505900ce; 0x59bd68964073c2be; 0x2397ba8c20824947; 0x53206c6ed9002e17; 0x1c424c9a85232e27; 0x4b72b29b0fd570c8; 0x7afcc887eb3ac278; 0x44d521682ea5ad7d; 0x5a2d991ca1d61df4; 0x8e94dc1a1760112; 0x2daa4a792a4d4c; 0x2e07114b80e920e4; 0x632b0700b1866e5f; 0x77255ffd6b19d492; 0x35eba27cd5fd143b; 0x7e7ff788f5881ba3; 0x1ef4b4123487c7a2; 0x1bbb4fcdaf168c25; 0x3ac14fe06b22b821; 0x32adf1d57804c852; 0xe985beea419d013; 0x315e7713031f6821; 0x4f9ec783a4adea57; 0x678e10287793930a; 0x2fb08656574913fd; 0xa861e65a1c45e93; 0x78cdb2a9d1f63ff7; 0x5895c32d2a3b743e; 0xb2b4af0c295c718; 0x43d25aba2552f3c1; 0x70c2bdd66b871a26; 0x589418ffd9e51501; 0x2ebf5581cdcf1988; 0x7a8073f271408032; 0x317c69e23989d20b; 0x340d85117a625043; 0x49d3e0b72d9e6b14; 0x40be315752b2c913; 0x50140140643305b6; 0xaa088022082028; 0x5145545055415444; 0x28080a2aa28aa82; 0x111045001541011; 0x2282aa00202a28aa; 0x1054054411111044; 0x2aa8220200aa80a8; 0x101100514015104];
   [0x44fefe4ab57abb7a; 0x72b21d355a7c9bbb; 0x18d8818fd6a2405f; 0x28aba33bb105be1f; 0x598500185269c9ac; 0x5e782fa0cad1797d; 0xb5d13d28fadb3d7; 0x268361e6b9bcbd6e; 0x94d4b06f7cf7a57; 0x52e185e8847f2a3e; 0x4af85f06bed2d0b0; 0x6eda339ae51e49fb; 0x2616984eb60fa133; 0x4ad7cd5a31b03e88; 0x2fe5336c3a8a4d78; 0x1c8abd08e34ebf31; 0x2ab0fc5e1c8f33ab; 0x5681f8f5110accda; 0x7a5f3e2e9a391733; 0x50e47ea560d50c9; 0x5b6f92f54a923e85; 0x1741072e904bfc06; 0x374a23f1d17a3713; 0x10db3d6ca8fab512; 0x615d130c0fefb23e; 0x3b37fa89b5c5610a; 0x96169a852dd567d; 0x1dce48a123280a59; 0x6431dc91dc087c24; 0x60935526aab9b487; 0x378627e29aca8c3c; 0x14aaae9bd5aa45ab; 0x388184d8dd418760; 0x5e3bf83856a776b1; 0x7b8c638b4e28c552; 0x7160ec2c968ad156; 0x10efdcab235d620b; 0x37cb05755c23e196; 0x34a4f725803b340f; 0x20efcf9f2361570f; 0x5dc65acdb8b2f7df; 0xf07f3cc767d5888; 0x3bb1928c0c0f4303; 0x1c4a8a3ab58b1688; 0x541ecb663ae8e7d1; 0x32bab0cba1437f88; 0x267d3b87f5368189; 0xf551c9e96324a38; 0xeec8a31e743ba1d; 0x56afd3c9fe28a288; 0x5cce10cd61c15d78; 0xb243c586f787046; 0x6f37f9d73e8877e; 0x1806cd5aebc9e4ad; 0x4779fd9e67eaba93; 0x1e91048d07ca9a2f; 0x75fc6726b7a0ccef; 0x424a4e5e3106a8f1; 0x7fae95cfccb277b6; 0x1fbbddd36b06a3ad; 0x7552cf8252b88092; 0xe40e07f44a0e36; 0x1bd5ab89031ad068; 0x21ba2246cb0296f4; 0x1126b290a23b0868; 0x78fcf8358e73e93; 0x16eb55a274dff59d; 0x1f9f576d54da5eb5; 0x2dbe5ac4d0edbfc0; 0x3c627e00b5cf81d8; 0x6ff9d47d5adf8017; 0x1b899e24fe199892; 0x7a10c42647cbb36; 0x734944e49060873f; 0x4d9c0770a0651325; 0x1afe381d2b607641; 0x1eca470f4794b7b9; 0x5162162dad841e0d; 0x495b26f105a8f057; 0x2694a257685ee2d8; 0x2a2bc396989c3ba9; 0x3cba62b30f6029bf; 0x3c8ebc5f13b09d17; 0x36975f2dd40363a6; 0x448321eb70ea0819; 0x4e2d6530e83dc14b; 0xff577fdb5900747; 0x21148e112c16a2e0; 0x5aabe0393c7a93af; 0x654afc83bb1a052c; 0x7ac1274deb3252a3; 0x3e0309ad85c5edc1; 0x6bb6e9ea23202dee; 0x5eb1eb160723f17a; 0x22699252701fd0fa; 0x51fe8f2e27ff744f; 0x5af9c0b168d54c2f; 0xe557af5a8067786; 0x59acc87bad26656e; 0x2cdb80b1b4fbefff; 0x4ed613f78d9d5b2; 0x750935b0f28d09f9; 0xdb5bfea090ccee1; 0x1fb1e9730a291ee1; 0x7bd77c241c62d8e1; 0x10609f5e97856aab; 0x70754010adc1fcfe; 0x38ecc45e6dc0825f; 0x7f4b71fc597ca8ee; 0x33f3a2ff3fa1cddb; 0x40d4933fd3ce5332; 0x5efe56d55c81fde1; 0x2f63c7fa72f2be54; 0x3436101bcb7cac13; 0x5692f206c315a50; 0x606fd37ce7079bc5; 0x5eb82d76d2659d2e; 0x1fee1460d5b07bc0; 0x1a8cc4b5d05c4f49; 0x2e6cf4e04e0ba23e; 0x79e84556d51f550e; 0x23dccb9c7edcab40; 0x3b2662feca794f58; 0x31e419c64f43479d; 0x75692f2b8373f83b; 0x3b5c7945638bd6c9; 0x77c2c46daf75a232; 0x1598afe2cf594eeb; 0x2f4e44f7e9af7259; 0x2394ce4ec5e69777; 0x9e678c15f2bbe2c; 0x75e269601cf8611d; 0x139a223381bdc2a2; 0x454ee454a6aac46f; 0x744c6f645d896262; 0x75b444a1668c0a9c; 0x752bb1a786d4e236; 0x3fca008cf87b47dd; 0x3852b627a78390ab; 0x1b4e99b0130199f9; 0x5727e38663c06ea; 0x5b24fae803957b8a; 0x3dfea411f5c34c16; 0x77e1670f420899e9; 0x5ff49dc29524adf9; 0x2c153512f075d402; 0x3e4727dfe8e3468b; 0x3a8420ec43665087; 0x7bc83e093e2245a7; 0x41e3e0aa1d67cf1; 0x23472359dc546064; 0x1dce39aa7422d582; 0x1a0c7b6f492e699a; 0x4def09b2817707cb; 0x454a02fb48f184d1; 0x3d391e5623584cb2; 0x5a17b14fc50a398f; 0x652d41cec6a94232; 0x7c3b60ecf250e551; 0x738f457123dc0ab3; 0x47d5757ddb9eb5e9; 0x4801ca9cb3e379df; 0x393e6972fd8dc208; 0x43c5e3df6721e4da; 0x63728a2b2676d527; 0xdb68de3c2d503d9; 0x55ec4d2f151f7d2e; 0x125aef3a8ce07878; 0x3140a44cb2a13c89; 0x418b2e303d9be779; 0x5b3d61e4c83b107f; 0xd5296e871224b20; 0x50af43a58942f433; 0x18ff9029f5a6dfd2; 0x62688c6348d27926; 0x3e62c26707876323; 0x1444dfee8702ce6e; 0x3b713ca60836b0b9; 0x7bee5eab6a465cf6; 0x553c9812d63a975f; 0x62a116f0044fab78; 0x129b61a50a1440e2; 0x5bb025eb31b856d6; 0x45fcb1bc3e2118c6; 0x76cd161a6330ada9; 0x47b09def72a6de8d; 0x65cfce699c17e83e; 0x7a0e74c32cf69a1; 0x7fbe69eb13fd3897; 0x537994b24b69f996; 0x86d24ea59ce9195; 0x1f107b552ba25f3c; 0x6a70651794661a4c; 0x694733e84331f66e; 0x47cf0d22a92d0f5a; 0x6476eb032aaf05f6; 0x1d26aa75d83387b7; 0xe2f7b89b674ddfb; 0x3673cb5e0d3f4a48; 0x4dc01070bc6ee9b; 0xdb115a7dfd7cba3; 0x4558966b7371b2a9; 0x1316e4485030f2f5; 0x5a01c72956c3da7b; 0xccd66648402fbcf; 0x54ababae873549f7; 0x6e9914a53e202f9b; 0x3d7560fd71fd684d; 0x54055bfb96cb7033; 0x7881ca26bf32502e; 0x4566c872a887b23a; 0x65208a263c218e72; 0x5096ae746a43c676; 0x3c5ede25c6680145; 0x9c90da633af7db0; 0x6ce6a99414144fa8; 0x675fa5de4e6d632; 0x5f39ee407136638a; 0x7ed5f1579000cecb; 0x7c8c2c57b05e751d; 0x56236d036d1fb550; 0x1e7de38e8f87967e; 0x587d4ba031a819d8; 0x49e668486f7b8eff; 0x4b4a5893ff0dd8d6; 0x65926f7ea352f107; 0x77bcaedbd8745f98; 0x34126afce2265541; 0x735e62baa748d3f; 0xb7b77b675543589; 0x4e1f4e387345e850; 0xf4b798fe5a4a05c; 0x34fe59cc2f7fa8e; 0x3797262de3016a55; 0x1ac1788d0ca1f63a; 0x6cb956b5129939f1; 0x50ef53f3146235d4; 0x777fb9a7ae48bdb1; 0x3d34346d2d680e17; 0x34f39abb86d526ee; 0x3a4cd46661c69173; 0x2f8298464f4f3ac9; 0x2727e147f1b9d678; 0x60b8866c75bcf075; 0x42d3ad91b0e0a24d; 0x6ed86e477812a176; 0x429154dbdbf8c864; 0x374e284bd46e727f; 0x287fd00257504d73; 0xb8c79f3a2bf746e; 0x49e924053c2730f9; 0x23f552feafe29d00; 0x1e4ea25ec5fa315d; 0x8af72bdd00818e; 0x340cf2875eb9918c; 0x7d00abbb8448b8b7; 0x6ab5becb630578d2; 0x2410f92529dff53; 0x3a0d2abc0263aa64; 0x36fef960366890ea; 0x47c22d4635a22e98; 0x596619b13aa360db; 0x2f9b599d68904909; 0x4fb42284f5588c2c; 0xb365e0af6dd9eb4; 0x7efa65cc9c2fa349; 0x328dbcddaa8f39fb; 0x173e844a2538122f; 0x3b915d8b04705fde; 0x71365349cdd42f24; 0x6d435df862c0a5b; 0x2ba42ec88d3f0d61; 0x2f30b9b2a2c6e627; 0x20bec982b9878cb7; 0x69a965a447f435e3; 0x3958b5219792cb8e; 0x1692d16bc2f3d5a5; 0x1f5ccd2bc46af221; 0x64a465b0656e5e3c; 0x321f466cba561613; 0x1ef3d3635a65b514; 0x19f6d04adb5e7331; 0x3c08915385bc59c6; 0x709346a1da205a4d; 0x7338142541b4db67; 0x255514827a481cc8; 0x47116d9d0fb63326; 0x5d885b10e7c24853; 0x705f02b95bc8907c; 0x41eee87f598b2435; 0x31dc7480752e203a; 0x235f6d6a2234a7c1; 0x3a747024b20adb44; 0x836bfab43606ba7; 0x2b351840e9fe69cf; 0x239fdb1ba3548821; 0x5affbafee79dd2cb; 0x7cd375777bc6a733; 0x6e345737a1f9159e; 0x2888aa3c44ea7027; 0x15c3a6b618ac2654; 0x17d6390c2ba2fa8d; 0x5afd83497ea51760; 0x6f7acbc031a48bf2; 0x41885df5aaf74d5; 0x512138ec33531b58; 0x1277ed1fb2ccaac7; 0x2fce365149494d10; 0x14007fa3f4d; 0x280880a8008082a8; 0x414014055100505; 0xa280002008220a8; 0x4141545055150515; 0x20028aa00288080; 0x4455444041055441; 0x88088a80a22202; 0x15515040544010];
   [0x6e86ebcf9fe2eff8; 0x3fdd807d54f45ea4; 0x3c2b8f12df74369b; 0x3e80efb55280ee2c; 0x2ad264b9ccc0f3e0; 0x553c7b774b7e7e8f; 0x132389e817ec4f59; 0x478da66ced396576; 0x4f2f6fe62c3e5a18; 0x430440983d712a13; 0x38855c28852dbbee; 0xba104b4e2e41c64; 0x43ebb095c4afe2eb; 0x54da696ea446f450; 0x71d2c799962b7e3c; 0x4db665925693b924; 0x2a8078a2aa561595; 0x3edaf2f4fc8b9fb2; 0x2c9ca41c7948ece7; 0x3d3aa6563608cf68; 0x701c592d738ab761; 0x73f5eef7fd455ec3; 0x257d756099a13f08; 0x6d72d27e595e3100; 0x44cd7c0ef18d3379; 0xa4b6a9ae14ea5d4; 0x3a1770a3eda12119; 0x63d937a5531a259e; 0x36a79ef3925e90b8; 0x5454ed5569d84604; 0x658c96bfaa826b8b; 0x7a1f62e59e6a9ce4; 0x46adfbd09d6954c5; 0x2259f51058ec49cf; 0x374b465a03835b02; 0x3e9f480dcca6ef72; 0x78200b370ca737bf; 0x1afa76f3c199a2d9; 0x25798750301098b7; 0x50bc87e58818b57a; 0x165bcfca4847538e; 0x50c2a7b992b4c8a8; 0x3685f0b1a9a8e3a4; 0x70eed08ec8755795; 0x3764e267aa1f2e91; 0x1f49ec86cd9da58; 0x4eb2a77d8fbe89d0; 0x16ec94c99a8fa6b; 0x559ba4bce44efcf9; 0x5e47d568b71eb0a0; 0x5b9c745bd64df0d6; 0x743da3ab62dbc739; 0x731b12ad8194a246; 0x5e2948e3227c43d4; 0x48feaecb40506a1d; 0x698a8df1dab70abe; 0x22308a95c038a489; 0x1fcc681f6a13ff51; 0x1e8d476a980d0eaf; 0x1ac418acab2b17d5; 0x3204a5324acdaef1; 0x51bd7d8a17234f64; 0x1c6d976ae5a9f0e1; 0x4ed50a6623a13ded; 0x3d924750ac9e10fa; 0x2da3eb9d6db6efd5; 0x5db318ad88b5350; 0x47b549c7be0d97cc; 0xfe5e00a945eb46a; 0x1eaf8e839165dc74; 0x3ef3ccd37fa7b936; 0x551b3f24870afe2b; 0x77fc97e079c60439; 0x5fd682b097f72c8e; 0xaf81b17aebe6f10; 0x55ea8bd2a1bde8e1; 0x6704bc493c6009b9; 0x1f47de72ce9a19ac; 0x3fb919368290218e; 0x7cf183bdc365ec8d; 0x3a2adbc98c43f73e; 0x4ac181f5e2ac640d; 0x7159678948d913bf; 0x2df20b56b671d7cb; 0x36473f6131dafe6d; 0x6e560fdd70d7c38a; 0x34834320d3a6102b; 0x600d4972fdfd705d; 0x520af7005dc51494; 0x3ae5d2279aea817a; 0x6f589e6f445b6471; 0x4231750fa2b69709; 0x324c273fcd5e06a9; 0x131ad28c0754e49f; 0x4923bf8034ed0435; 0x29c17099b7ca9bab; 0x62d4dc77c10084c7; 0x26681a262d696119; 0x3ff5e19aec7631c9; 0x69d8ab5c0bc44cc1; 0x78ce4c3dd23c8c2c; 0x6a87b0396dcc3e39; 0x68f2815193505352; 0x5ace530d7b4fdb09; 0x6ca65321896f3084; 0x2f723faaa1448126; 0x1e843e9f5ccb6ac3; 0x21b449e5be3ec28d; 0x2064fd658e4105ed; 0x70f915b740781229; 0x7fd9a8ab476b1859; 0x41242e8dbe53dada; 0x4419e726aa662f86; 0x3b78e41c19c3a93a; 0x4a059f39b675656e; 0x25985773ec97cc1d; 0x5cc3219fcd94a3de; 0x152850607e33a3e3; 0x562b21eff80d9d0b; 0x33d3ee7e5465a5cc; 0x72000182b26b6d6e; 0x4bdc3d8ae8f10e42; 0x2aac76745a313585; 0x65eee859b81c8d30; 0x698f2ef8031e5cb4; 0x15047ebfad77f64d; 0x53d76202c1c54bf0; 0xb7d71aa61e6a71c; 0x2b48644f78259101; 0x4526862c2072164f; 0x28dcc0ae029dc524; 0xb0caa0f1cfdfc19; 0x24c351da0955b338; 0x7986893d17dd1d7d; 0x13a6234b198093cf; 0x77be8ead7ae18e8c; 0x25ba32e36793cbac; 0x36240b15a62a3d8a; 0x20c5af51ae42485d; 0x518745bad770dd18; 0x4d97393644230c29; 0x51da456b201d56b5; 0x58c7f702c37a9d95; 0x390e9911b0d98427; 0x3062941da90be09b; 0x6f48a9b2e7f65c08; 0x4176cac59cadaea1; 0x1d597529a725d41b; 0x429010a3575a1184; 0x739cd32a843a7dd9; 0x570d2c607850abd; 0x2359a21fd6b87394; 0x651dac26aac15a81; 0xd4d1ddc999d2a30; 0x62b0cc84cf74038b; 0x152f5637875bd1bb; 0x279c3927ed35cfa0; 0x2fa092a5e02b16d7; 0x8814692965aedcd; 0x5b0f3e6067f9f65f; 0x23e09d587ac934c5; 0x29b262f606698123; 0x7dbbc364576542ea; 0x48e1e8d47422c028; 0x12b9fa9c849dd472; 0xf355fd115c00825; 0x794b4c1461497cb9; 0x69344de155ab7c6; 0x75acc0687646196f; 0x6cb3c1116431e53c; 0x46e4c171ee31d2c1; 0x430421920dc54639; 0x75056f8fe982d3d0; 0x3a190d3adbcf447f; 0x6af34fb66db14348; 0x7e9ad08b1c5541a7; 0x7df79bd3d37bd956; 0xf14d3a9083278c8; 0x453cf4c16999cece; 0x665409f262ea5a5c; 0x43d16f3aa862001e; 0x4f57565935f4ec0e; 0x750da89c45d48869; 0x53ed0a7f1bf3a732; 0x688b01383cfaa70a; 0x603f79c370449c19; 0x4b28c0a9e06eea0b; 0xf19097213998d32; 0x17066d1b5032a147; 0x7cbd9c2eaeaf68ec; 0x4ecfc821d9c01bd2; 0x7f9d65392fd6f569; 0x56d629ee39c47fb5; 0x4e10ada7474a3786; 0x1b955b8036c107a9; 0x4f3c54c8e8e5e110; 0x342d437bdc9c4932; 0x454b002e486391e5; 0x53bf5fe7fee27686; 0x4df4e01a4945b087; 0x19aa0b9f604c2702; 0x678e241448121fa1; 0x5490a622cfe420c4; 0x12c56e58a183d768; 0x121ea4ddff83a3db; 0x2f43152cb84d6f14; 0x2e9ce38d768dd815; 0x13e4e02af42effba; 0x4017906ca34f497f; 0x62a3775a475e1468; 0x3286629ca5b09af8; 0x44a8007767ec1970; 0x707e0b7554ffa290; 0x5f1e027c617ee442; 0x64883fd815bbbb42; 0x713e199b39462f7b; 0x6d3b529def18cde8; 0x25c1570a7af0d9d8; 0x686b0319324ae862; 0x736b48791b6f31cf; 0x3e2939451de2afa; 0x568946e11c56adb0; 0x2c64b0bad06d1d08; 0x7333ce1ff7ee9bb8; 0x53a1d9ffc3fcb6bf; 0x640dccb55f90957d; 0x5dd5d958e7373f6a; 0x6a8537dc3ae8bea2; 0x3ae7901ca356a0d1; 0x6b6695b1e365d05c; 0x5bd952f43fcd145d; 0x4102219a4eecfcba; 0x2cb91589fef5c50c; 0x60f7e9bef663b17b; 0x7690da853187c073; 0x229dd5633de1ef2e; 0x15a8c12595b1e522; 0x19ccde8b1d8fa719; 0x400ff7e076d303a5; 0x132c015bff856099; 0x34c31f0e10d15034; 0x495c26d4e82b934f; 0x4d460a3223290a6; 0x641105580e327e86; 0x7812ace1f7d5ee4a; 0x51c04c542fe00358; 0x313baa5f9c1f96c0; 0x7608489c2c12269f; 0x4397f6c4dde7447c; 0x5b7b2a23de55994; 0x3c1b16aef1f9a9ee; 0x7fcabde273b62bc3; 0x7e79bbbd5078d9af; 0x3caaddb35d3e3bdf; 0x7e3727c8b769330a; 0x5ba9e135fe204e27; 0x1d5dab6d279b429b; 0x9021adc6f193d34; 0xf60822302c9fae3; 0x39677a477ae68e11; 0x59e74efaf0baaff; 0x5d85709bd8c6d85f; 0x5adb923561f4f3fe; 0x11798e12267d375; 0x28d41335d2417e53; 0x34b520e04f25ccad; 0x30740d99f039c02e; 0x1a1a956c35f406ec; 0x66e23c9f17ebd67; 0x1e15f63605c9abc5; 0x35ba04e5ed764e31; 0x4f20c8306147f9b8; 0x768451f3f89a214a; 0x51a970a1d9357025; 0x770b2df7b01757a1; 0x21fb2305a7286d51; 0x3f458ee574362443; 0x5f473034e33c4736; 0x56273082e8b7200e; 0x68018606d19e568e; 0x53ce92d21fb03347; 0x45b127002a3890f5; 0x48929fae236a5dc7; 0x55442ab0aeb5e2d7; 0x24e368705615b8c6; 0x369c2fc13dd41890; 0x2916f06d22dbf2c; 0x6b66bea873ba7b1f; 0x3ad3ba92d90b2cf1; 0x5cf571b18e041045; 0xdf387891be3d186; 0x6cf5c210363cba90; 0x3541157b778b5411; 0x7712146258213924; 0xcfaaf59ac293233; 0x37e47b6364649d10; 0x76f24e11396fc2a8; 0x1432c8a525b4677b; 0x683b457dd45f73cc; 0x6e21dc8761f98fe2; 0x507262b88ed5843; 0x5601edef1d46d4e5; 0x19e53b6ab2d48be5; 0x242a07ced32e4daa; 0x5e717300993f3c02; 0x7c0836978e9940f7; 0x444954288f6e48b9; 0x50337f2257eb28d1; 0x14041406d55f4d3; 0x22aa280882a2280a; 0x50511411545000; 0xaa22a0220828820; 0x1115111051554444; 0x2a00a8a08028aaa0; 0x4455050411514140; 0x2a8aa00a82822880; 0x140050415010150];
   [0x48257f06a8eab6de; 0x5bcfe10be23dbecb; 0x439846ead4cee36; 0x5253c7531a4d3b20; 0x6a64495d3cd86eef; 0x1925af59a4e2dac6; 0x68c2a8635b67204c; 0x88c827630735867; 0x1a85c0d5021bafef; 0x7234297d06462903; 0x36e6a5e86061e107; 0x7815dba9427de9ae; 0x60ff5a168a0a8770; 0x63fbfba30f787df8; 0x71d5e274b28b67eb; 0x6937a48a2b137d21; 0xc1b716853f05677; 0x528f5c1b10be706; 0x16fb1985eaf3f412; 0x3175d004db8606bd; 0x5347ed3256f6acfb; 0x2de78198d5a0cf32; 0x69f869e103746ca4; 0x7f7a1ff8c58df96b; 0x6bdcf6c3cc4f98e8; 0x155de98ab195403c; 0x22cb8db53a6b323d; 0x413005098a9b31cc; 0x4f49dcb08e07d98c; 0x7af4541b3c69debe; 0x43160401865bada8; 0x267bffd5c3a9b23c; 0x33056d27f0f1eb4b; 0x5e9704d7eda70a2; 0x3a293bd2bb304b35; 0x45326eca6a911d20; 0x4dc25c78174e8765; 0x140a3ab075977b96; 0x71061f57af306231; 0x1393bf54bef9c7ef; 0x712e517c09a78d39; 0x7db0212cdf0278b6; 0x5fdcb3ff784650e; 0x2fb653b515523057; 0x5ff73fdfcd811794; 0x381dc73b539abecf; 0x41adedfa282a2e5e; 0x558450b83c2df6b3; 0x6594d3a393aefa91; 0x3df80d39cf53410f; 0x64af85308b61c449; 0x1c37d5c2cd414d59; 0x11799272d50be091; 0x67231b0679592859; 0x75f0b1019a11596; 0xaab5a0777047e8f; 0x6d16e2c48ac94fa7; 0x598b06fd9da972b; 0x597f8ca8c5637c94; 0x6a45abadc7502a1f; 0x1775d82fabe905c5; 0x22f636bd3d43f536; 0x6c4fa529ef4a80a7; 0x55b73d74ae7faed8; 0xba3398c756c6543; 0x26bf95b6a897d058; 0x2471568199241551; 0x3229bbe5f1a87b4d; 0x2937b0939a67c160; 0x1b4e6d8f3a9e7576; 0x3f13783664697ec4; 0x4182377929560201; 0x225456ff07b7241d; 0x2a2343894a976fa0; 0xd39935d6d903882; 0x79d7c2d44bf4d90c; 0x76f4cdc4adf80907; 0x67e17559f9c88767; 0x6a9b0864cdf58a68; 0x134fa918c6114510; 0x28556799a1d12549; 0x73e5539f7ebc3afd; 0x46e2747f6b32024e; 0x3c2d93cad55b057a; 0x5ebb7f7cf4c1d458; 0x1086f909715ad583; 0x383ff405b7fa2283; 0x5a097be5428f3802; 0x1ffbf0b270dabccf; 0x7401af5f26ef5bf0; 0x5123db3ca53a66dd; 0x71349bbf6098d2d9; 0x31d81f8996909b8; 0x1c5d40416bb9fea9; 0x2644f26448ed3f78; 0x33b9b8f4d2c2547e; 0x21c2934f28fce72b; 0x34a0bafc1263afe9; 0x5bab81a6cc07812b; 0x1939a135d957c47b; 0x421a3fa6c3d83ce8; 0x32fb55cce8ed2790; 0x27a2199de46e79ac; 0x2b0a162277c325ab; 0x2bfc49c392d0ffe0; 0x540a14f0d2c0dbe3; 0xfb0539079f3bee1; 0x56c0adec481b148a; 0x22345924958971d1; 0x23d8287d7d0554b0; 0x2e59e7d94ad54194; 0xd220d621617c370; 0x1e622ab62de2b85b; 0x65fa0c00a2b46d11; 0x363dbb0c94ad53ee; 0x330eb67546e77179; 0x4d80bac4a8c36342; 0x3c8e258016bfd82a; 0x7b51206ee4aebdf8; 0x56171030f5650246; 0x39697f6a1cdc9d45; 0x3fcd8d47073c0f8; 0x21fb66cb32dee449; 0x4c41f280e9e2c4a5; 0x5b91579c86770c29; 0x5c5d5b466c1937fd; 0x2848c1938b766baf; 0x3397e0dd07ce5dc1; 0x1322624037d64dae; 0x57d1f034f1151526; 0x10c51ad629660a02; 0x3e4e883798fce02d; 0x72af4d22861e85bb; 0x5b56d962cb188d4d; 0x5014a6bff799f358; 0x3352d8f569502ab9; 0x24faece9ae38bceb; 0x5161765176c36421; 0x39358ae66925e38b; 0x723b6958be2720ba; 0x25f8ed0238361d26; 0x67da2e84536a139e; 0x118d9b7302eb4c26; 0x232cade05114f0a3; 0x6195fdc770707d9a; 0x3d9199d724eed233; 0x2d475b8181e6ddb0; 0x7604247180ebb170; 0x21c4df4c219708ca; 0x2ec5113757d6f63d; 0x54ab94985d00b150; 0x645b80db47e37641; 0x6cde4a33c5a13956; 0x9cba16ffd01e445; 0x71572304d5a756cd; 0x7fa7cf36d5deb336; 0x7900a2c9ef00dff3; 0x2189708f6cff7d5a; 0x5703c7cbc5935f5b; 0x67207e090edb3fc2; 0x2235626a87e7a584; 0x179241a8cedbb3b3; 0x73772521e4bbe67b; 0x775e081e10ede155; 0x15843d6e14c0e225; 0x5f7c3911f1d92d22; 0x3d72f754a86037ed; 0x57017ca607a1805c; 0x6219eb73dbf23519; 0x7c872530bf4e5658; 0x6dae42a5d6028279; 0x1e08f19f747365cc; 0x615c1fcb58139fea; 0x5e7de52240ff7cc2; 0x13c6757f822c5fef; 0x277a8f85cf7d39c2; 0xa6655698188e373; 0x6ee962e8af068507; 0x711de017eaee8527; 0x598b3a7849e23cac; 0x428ff73539aa2b73; 0x27ca1ed7325e10c3; 0x704c151ecfb37646; 0x1646ffd89c26abb4; 0x33d53d9c1b1215e9; 0x7baba21086649aa2; 0x16028d4ed9a61790; 0x2031ccfdedddfefa; 0x1d6dfef748707013; 0x61d4322823f13bf6; 0x62303de1f91003ab; 0x2139ccd2444b7ae0; 0x6d9e06e79dfbcc89; 0x19b9136776904d3b; 0x6df055a83a3426d7; 0x70dabcda1d1720d6; 0x1de4ea5fdc0bd2b5; 0x600cbaac52b830bc; 0x3b5a48b03de89e07; 0x51228ab538b73f05; 0x40e0d19156298b3d; 0x147f28fe3f0a716a; 0x46dba2ac3abf8084; 0x5ff8c20bf4262311; 0x36a83d8a31647dc2; 0x3425283c11fb4d0c; 0x381649342175675e; 0x2e6c0bea2121e478; 0x35eaa778c194343d; 0xa4695ffddf4d2dd; 0x4036dec8c02e10bc; 0xcee477c8b864a45; 0x41e898558812d187; 0x2f05c3f3aef61318; 0x1201209159f26a42; 0x126376df0f3fd969; 0x7e1171fb31ebec62; 0x42ff3d71d4c253c9; 0x2ecf274f86c8e9ec; 0x1a26e9d33f035076; 0x73f2e80a07a3c298; 0x102c91eeed97ddae; 0x21bede535b3f8d9e; 0x31cbffdf7a8fcbfb; 0x49ad65ec47e3ba4c; 0x32313f030cc0498e; 0x438c7416ba245c9a; 0x2c30c3e20e006fda; 0xa37063d1609dc95; 0x332cdf030f8143ad; 0x3a7d78b5f7be5124; 0x3c32775037c3f7ae; 0x5859d73eb7f1d4fc; 0x798d998faf5ad599; 0x6e8ab4a61378c19e; 0x14b489f2112d2336; 0x7b6833a3eeed28fa; 0x4c4c8d9ca54e2f1; 0x1dd35c3615a9c0a9; 0x55c6736f9bbae0de; 0x15482eca491b9149; 0x6db9fec4992406f5; 0x6db37704c7f2a600; 0x44a148fe9d6a9dde; 0x70681cf0d6842956; 0x5cc0ff1571f58df2; 0x62e33454a3acd9a; 0x51ef79ab2cda68b3; 0x23d9d7bb6f8bee6f; 0xee7b2e404aaf2e2; 0x1a8e31d0a58cf50e; 0x6390e9f9f4cdf450; 0x5aa77275b86cec8; 0x1189d0409659c604; 0x5abf4c9a830a49dc; 0x45903516488ea519; 0x6b919c55e90c0775; 0x42cbc564f488b2cc; 0x3a364f43f927f7ff; 0xe4dbcc3db754392; 0x62d3084b1dd29247; 0x71714e50a3601a4f; 0x274b3a2da65caef3; 0x5f8ca20ca3de4819; 0x59a246b103153bf1; 0x720294614493e8f5; 0x232d57924b7c76fa; 0x2729aa0d6835bd5c; 0x7c19aac3e70a998b; 0x2c64d9177f531e75; 0x1d029365e3ec4df8; 0x4a0cca8819e4ee75; 0x2f5777bb6930dbca; 0xc4a810234e9f9ac; 0x2ab9f7da1c490a21; 0x4abaa6a0b904f276; 0x2bf4cf8fd8f5bd65; 0x7f4e5948b323b616; 0x48ca7c4b67b2ba6e; 0x758922b5446151ba; 0x19e692a4eef827bf; 0x77f356525eeba4e; 0x2731ae5cc9c4bdc6; 0xa915c5d3f17d859; 0x36cc010b7a48c3e7; 0x1889091d61226e46; 0x7042642a6aac035c; 0x6330a49cbe5f0b5c; 0x50d713d60a3c7091; 0x1ab7d2f3d70beca7; 0x40a7dde809e4dec2; 0x70b7bc327f03a982; 0x7a421564e27d0503; 0x4869aaa493ce14bd; 0x5a46f69ab21269a1; 0x2261b78271032f33; 0x72381c87f01523a6; 0x1aefc9b4ad16e70b; 0x2c60a5ef870812e6; 0x15f44463cd13c01f; 0x4204abb2e453a6a7; 0x49afd7eb18634f76; 0x50c2fc478f978cc6; 0x7990fecff17ab8fb; 0x2ce24e2af37e8755; 0x144d1d800e424c0; 0x20ee16b4abaacba3; 0x2c8b5b26edf6632; 0x11044444130a579c; 0x2228228aa02828; 0x1055415500104111; 0x20028a282a80a20a; 0x5404045145000545; 0x22aaa008a82a2002; 0x5050150111040044; 0x280aa0080aa8822; 0x10501440040054];
   [0xde024726233c07c; 0x6ae79ea15e22989d; 0x1a451c72c6acdec7; 0x5b885732e332b705; 0x6a623d05e1eecc56; 0x4232fcc364ef3681; 0x2123974bcbee61eb; 0x1eeb9a8789c4b06b; 0x74d3739d88effa6d; 0x9608229ad965015; 0x18cc82034424d8b6; 0x57c1d347ca2b4104; 0x6acaf2fac2a2fb7; 0x5bec9f4d61cb2b37; 0x78e750cd907585cf; 0x69a1a0638fcf212e; 0x8d762f75103f713; 0x27a5eda6a63c47c3; 0x5bfc66ebb0bcfcd; 0x1cf12a780847fc12; 0x268b1d61102d2175; 0x6984a0888a5ba4b3; 0x565bcf37147ce051; 0x149d70fa9ec485f2; 0x52b442bada0f8447; 0x3a572e17c948fec0; 0x132ae7c9290b97ac; 0x337e6556d5004b57; 0x771faf4283c0fd84; 0x3ccd06ff46117fce; 0x5fd8d7530c1c25db; 0x6e887e9e5e235480; 0x5582f06502134c9a; 0x5f7155fcf6d0da6c; 0x64df2d59950a7d9e; 0x26d3cdaaa40af1fa; 0x756622c154d90427; 0x1406007bb7fa5585; 0x21baccc9c9287e40; 0x4bcda1598232d1be; 0x698897d4074f95ab; 0x16dfddfc260056d2; 0x79a001eeda6cd1a; 0x48ed374bea95c6bd; 0x62e1197e52640799; 0xa67cfcaf01a06e4; 0x579ff59c6a48a0d9; 0x47b1d538927d2b58; 0x5f2fdc32ef3fd7e3; 0x40a058b8b667ec7f; 0x7e4084456e7e9cf8; 0x153528f48e462822; 0x87367dd8afe386; 0x335e365222cb5908; 0x21ff37dd0c709f36; 0x66aaeae720d47dd6; 0x7f83c1fd2c490870; 0x5df93ba73020d07e; 0x5457fee0287d5fae; 0x11b00d0b24351a06; 0x49be95ba6c2f40a7; 0x320a6ec5273d2136; 0x3afb358959e46ea4; 0x63030883a3909283; 0x52275e9f324d1452; 0x2077f6e5e66ffdc5; 0x50caf3942bfeebb0; 0x429a023fb97497c5; 0x285325f5246ac3c9; 0x53a3ebf7acc25533; 0x63a05d1026f19a9; 0x30daad22be794328; 0x5361d7538cf55015; 0x30efc3cab850eca; 0x31c0d18d61979751; 0x4df7a7eb5ceea618; 0xa3f81fa8f3c83f1; 0x285ecc2b9b71e43; 0x5bf14aaa56da1f25; 0x2fdcadcd77d0608a; 0x8e1e2c05377d14e; 0x3c432bd3b3bdcd28; 0x613843878a4f323; 0x980ed0ab34d3dea; 0x5a18389b223b4cfa; 0x3ea838ae41db93cf; 0x564188e4731b03c8; 0x70f59de2c9b91d3c; 0x1ae3179ddda7a480; 0x2a933922041e93ff; 0x481a2df8363f0d0; 0x7ba7bdff745d5bde; 0x3eaf8b9378b9b1b5; 0x1d1f1cdb7f55d9a6; 0x3f67b6b364730442; 0x53abea6bada7429f; 0x27b8a8957872b154; 0x697e9f26fc190de9; 0xa3b957e7bf06541; 0x1815fb000a319c34; 0x1ce753e90124e3e5; 0x28e979c1d3faf5e2; 0x794b90d44c2c61a; 0x67b8be7f97be8153; 0x42694a2888b1e60b; 0x316a0e03de4546c3; 0x738c77b85dcb7171; 0x19786626b94b800b; 0x669f847b3e66a204; 0x3bf842d549ce2456; 0x30fd41a1240ed313; 0x53442dede6f13485; 0x59005906dc81ebcf; 0x43eb8470ea86bd7f; 0x4d39d86c290e38dd; 0x1cdda3671456e0c8; 0x13d84c3c9d70c86a; 0xe859a30a9bec245; 0x1e92bd81d387e7db; 0x482f1509237fac4d; 0x4f7b864194bffca; 0x2265bb448aadd3aa; 0x341d8f3a3f348b35; 0x22722bf164c02db3; 0x607ea4fa4770876d; 0x72fd237d6678a57a; 0x1f40631f2f0087d1; 0x737bf45373d47561; 0xbe7683e97a4217f; 0x7f2b36e46f786d81; 0x7abc727570be6a45; 0x5a9f8e1c98bc6785; 0x3205c218f55255c3; 0x35cf33acbb2e83f1; 0x328be4f7a382d16; 0x6533698adb5c117d; 0x26c2f0aecd3a6f0b; 0xa04081f16617a23; 0x3db6428bb367fa12; 0x499d7b11cdf08284; 0x685ba607777ac386; 0x2f3c0ec6499a8055; 0x5b7db1a71b8498ce; 0x1590154b09efe42e; 0x50789fa009b3ffa1; 0x14758d3cce9f56f1; 0x767c59194394d377; 0x36bbcee17ed0fabb; 0x616cfb4a041ced3c; 0x734dd024e8c9b16e; 0x6beb4d6adee17379; 0x2f7b8994dedde1a9; 0x6f72b954ca3cc31c; 0x6c674e21c27efb1; 0x6e2c62305a726f7f; 0x46c0bdc28918bd2b; 0x2d78e64aeb880eee; 0x138a67da517a479f; 0x2e338c9399b1c3c; 0x4c8a5291b1d14e45; 0x55e290e6a44d3bd6; 0x6d840a2d110fead2; 0x387c5a1ec56edbea; 0x3faae3eb94b6bf7; 0x77600cf5cc1aa9f7; 0x42e51d3c6f7bb070; 0x3481cdf4b05e66b6; 0x1afb99751f75b8ee; 0x7a7ee3743c8447e6; 0x64fc02751f810569; 0x2477a067d69b7e85; 0x51979bedfcc0ca5d; 0x2af4ac780994fe6c; 0x69d2e64e451a2bc1; 0x23b667d40cd97e0d; 0x766c3f21f630336e; 0x4f300d2c25331a87; 0x4e732c6b79d5926c; 0x1ef7f070bea25ff0; 0x4755f06ea1878f96; 0x6bdef26ed92cbcb3; 0x7a0cee268bda2e35; 0x6e96d1d9359ebf43; 0x3387248d20aa4297; 0x49878fd83f2e3ee0; 0x2b762dd38cb2dedc; 0x622928479c9e8866; 0x190b71a3a23043ee; 0x3cf02e2d92bc68c2; 0x47d7dab2d3ced7e0; 0x59eef505f5738590; 0x72ece54af5f13991; 0x4855268c966961f5; 0x3db61d3d35309027; 0x54bf59977f6a8cd0; 0x4a3d3e4ef0978244; 0x5c92b4e046ef3fca; 0x76d4b58bf956ab13; 0x4de27c960884caa2; 0x3bdde0a633d1f8f3; 0x26d178f0d269a350; 0x4e50b26a31e54c56; 0x5e027a997f2e9fad; 0xf2e8cf63eb1665c; 0x90f88f963d23f1e; 0x52f70712ec5234ca; 0x4be042796eca083b; 0x44d92ee5079236bf; 0x598bf1ef7031dd1e; 0x1a057d550d6cc8ca; 0x29521bac9b797e37; 0x2bda2fc932a1b580; 0x6a6225550132f1fd; 0x13bbcc62930e076c; 0x75d2f3a8a7111dbe; 0x20d4479e7dfe5cdd; 0x48a1833c16c7b43c; 0x60345f820b06a53c; 0x6c6b623ac77960a5; 0x5024f6809243ba9a; 0xe2eaa7d65a69bc; 0x7e5e478b620e662f; 0x3ee90fe80725f5df; 0x3ff6148ce5255f85; 0x6b649380d0c15efe; 0x2c223228293a3c55; 0x3d4c8a335e6d4839; 0x41c9df06a093b0c7; 0x10b8ae18a3eb5300; 0x2fdb1513d426b6b9; 0x23d249faa5b14f42; 0x8df05ca3b8b1493; 0x7a36e02c598f7c8f; 0x80c055f02e4677d; 0x707a0ae6b7d35797; 0x356ecb7fce718cab; 0x479310963d82d48f; 0x56667bd7ca5af5f; 0x6356cb8eeb088399; 0x3790e19c02d5d100; 0x6a74f85c8749d0ff; 0x17c86d51eec5e5c9; 0x26eef6470555f026; 0x5dd9e81b4e8b1fad; 0x3f44284f4589f2d4; 0x428f25fbc4ed9fc5; 0x1f41c055d7543c08; 0x50c5acf8f69a9f27; 0x4fbe722c237bd617; 0x2a56de06a162379; 0x1f46baf926f67b14; 0x7060936fe3e5a8d6; 0x4e785ef2cbe8ab01; 0x54c531d1f6ac425b; 0x373b893d5f6e6c4a; 0x447d7178fb33949a; 0x5250ee17f44fc21d; 0x21b9579bdf6529a; 0x2582114261fa1943; 0x78552d84442f5802; 0x71b7fa2fd7be356; 0x355e6228d9b8a0cb; 0x3fb4c9ac6a962963; 0x3a9c08fd30f89785; 0x2a08b703fe34ff4d; 0xe47cafa5c4294eb; 0x4a0233b977531c3d; 0x1c7679f7d1d3dd90; 0x71ea73015860e5d0; 0xf5d624b8c5e9fa8; 0x68ddddec97f4b18e; 0x55f1b4f3defb108c; 0x5e1b8f4a59d9da3c; 0x48571484d1ab28e4; 0x6e028ccbd2b34ddd; 0x71ea485031e1cb38; 0x4a938d1d584ad85e; 0x7589ee536e3effc7; 0x40925d2d7010ba52; 0x5b2622d4ac34793a; 0x40467182ca4cf62f; 0x54867acb289c4c9b; 0x38df5a8f975ac3fe; 0x3b60c6d46227db90; 0x322d8b0dd9570038; 0x6a8f412798d50a42; 0x5b0418107faee836; 0xbab3e006a6a334a; 0x262afe97085356ea; 0x5b00d5e3f13dbc16; 0x5f60b23ca60e3fba; 0x829a24006ca6bb0; 0x24e0427f87a3df1d; 0x4e506e868044d047; 0x14ed49be49073515; 0x73de3a7bb55325b9; 0x6b926d5d2f58d2f9; 0x5a6eeb89958768e8; 0x30324629efc54b5b; 0x6d7b3eb48a77749a; 0x304543bcc43b3260; 0x5e241c5f4648da2d; 0x32dd80efc3ce45c; 0x12c1f34917ec50e8; 0x4d6a6842e76dd44e; 0x71ecbc3ef75d5b8a; 0x6caaf56f30fc82af; 0x4eaec46819a6a98; 0x111511401e7ecf2a; 0x282000a00a2228a0; 0x4411505411004114; 0x2220a02088280800; 0x5501054010545001; 0xa80802002208220; 0x4544110504450550; 0x282002088028228; 0x51545150440151];
   [0x5b375bc511444122; 0x24975283596219e4; 0x4e4eb01c6c170653; 0x545053478bf01719; 0x5b13e2d2c486ef37; 0x536edd6927cc8f9; 0x13559c717d61ef72; 0x1b52e757608837e4; 0x2fe9ced5380933ce; 0xdc343def95411e4; 0x6b21d577b33acaf9; 0x16b187677327cde; 0x3b083ee3c4458c0; 0x1bff96d94864b78f; 0x7906864d2764fdd; 0x66da83b5fbc3c2be; 0x1be562922f5fb092; 0x7900711a57622ae3; 0x16c1dc06b0086d4f; 0x30d585db32ff4a1c; 0x15865fb84a0997ed; 0x2cec096eafa3426; 0x48157fb9470e9125; 0x45be133dd2b92bf1; 0x12984e437ee2d6f; 0x33553e0b24d0f25d; 0x24c2d512f5fc1d1d; 0x2e0099088c7e7644; 0x5545731cfd89af14; 0x4b7b9d4579e38a6f; 0x4d2efd8666d279d9; 0x528b1d4aa193c2ee; 0x671c33e441590dec; 0x26a07608c1476891; 0x778c7da3d01929de; 0x2bc30dfe46e1c10b; 0x6506d68a791986c3; 0x2241a3568173b0a4; 0x35d05a3bb803774c; 0x39dbec8d71f29b83; 0x7c46ca7a1c0ab988; 0x4fb8df17650c9fc3; 0x3f4ff960705450c5; 0x124dbf850ab01132; 0x3086d3a0c867492b; 0x36efd7f50e1ac6b2; 0x1327894b3e497e49; 0x5677d0d70d312d3b; 0x1c7127df6c1471af; 0x2e8a808f302c210e; 0x33482368b567c3ce; 0x755219248870942f; 0x50c1e2dd344372fe; 0x126327fd57977b24; 0x6af45bbbda67d49c; 0x61645d6c8bf0e7af; 0x4549eb06b5c5322e; 0x45b509649a1fd61c; 0x20449552213198a4; 0x7354ff04c5f04ee7; 0x5365c5420e8f24e; 0x1cbc332112f7f6b2; 0x6bf26e8576017384; 0x58159275c3f68557; 0x46d2854771f02a8c; 0x5c073f62b5bd830a; 0x40d980e525212a78; 0x3c488ec18584756c; 0x187ac2f0095afc0; 0x35ccf8017b0db46; 0x14122d6656aff55; 0x156d8973716567dd; 0x11199e359796dbd9; 0x334b3dd73d1e5b5e; 0x45b4d9d56026e37f; 0x75c89163b9c02a71; 0x594bb9bd5232628; 0x3ac564a6e211bc91; 0x62a1236100177571; 0x3192d72ac251c38f; 0xb1ae7ffae3d3f17; 0x238c90f4a86dfffc; 0x69d8f62856c6ed9; 0x18694d2e61fddc7c; 0x30aedc054ed99c82; 0x28192914f1156582; 0x257a979cd64b270a; 0x1acf8e63508cdcc9; 0x323db7ba0f70eb57; 0x19ae0c6c179dc05; 0x32e3d3613550e4c2; 0x65929db9c67712e5; 0x40ab3e65d95ae2b6; 0x3f93f295f7959d7a; 0x7cffefbc7b9d1782; 0xbb0280fd227af57; 0x7dfc181142ac27f3; 0x129a580f20d86280; 0x268a734208e5a8fc; 0x7899368159323f4; 0x143be172f2393b2; 0x5d1ffb789370f438; 0x7915acc8ff6ae86b; 0x28833d24b5943546; 0x48f03694ad1f9ec3; 0x574116cb2c535701; 0x42a75cab1efcfd40; 0x321622e050f28720; 0x624305ebc909e8bb; 0x4965c282c0503f7b; 0xa23f34b9a8d9906; 0x46375259d8f693e4; 0x2d0dff716a602eeb; 0x448a84573089af14; 0x67f0c9489395f0d5; 0x2957a25a4929494f; 0x4fc942badfad0e0d; 0x61211fa825659857; 0x6ac938660700f69c; 0x7321ae5310c45f8d; 0x654de79b325df302; 0x452af106dd2db157; 0x498d2667b584689c; 0x5b94abae5e20c44a; 0x40c6b4ed5d38537c; 0x4c77828c8cd98014; 0x4ab0cec66c14dd96; 0x259989124b7d7421; 0x5ac1bb03cd733e79; 0x1ee100e59ecbf1a2; 0x29df57c8cec76c97; 0x10e781729046cc65; 0x5baa3ef5c7216450; 0x200a7c01c0d4123; 0x22738a9afa8e23d7; 0x2b67776110fc79b4; 0x4fe982114fd0f6c8; 0x5bf6e308c7ea0e7b; 0x696a4d5d0f7c1c8b; 0x502d74a263913a0; 0x1688462d5ce2cbf5; 0x2f6f30c3f67b71e0; 0x1e7df6b7aafbd614; 0x191b16b6187e1f4a; 0x364b01dd005996e6; 0x61ec711e552bb863; 0x3becbfc8663a8b1c; 0x74b4f5df488c8160; 0x1c879c320d54f4a1; 0x185bb5fabb1fb867; 0x4ece7100d1c6731c; 0x7de1cee740d7fa69; 0x11a7424dcbb073ae; 0x6bdda44f9f45753e; 0x4d10676a2138ff43; 0x39fe60388ccd1a72; 0x786f5aae64643bdc; 0x64aed10afa557a2; 0x1d2344fab737b549; 0x5899af70de557cb0; 0x1e7d04ad3938ab55; 0x632a61bcddf1a57e; 0x12892e7b3ea5a44a; 0x62365deac32ca52b; 0x1bbd44422fd0e57c; 0x608b33e290792c8d; 0x7477c0f755927db5; 0x77a1b45ec36e00bb; 0x155dc689e5c19d86; 0x285bf2cf2b6699d3; 0x1b6e935812325931; 0x5bcdf1caaf8edd22; 0x594c29b6ba589f2f; 0x1dc3aa6354388d3; 0x34b6ac3a4c66bc9e; 0x5ca46017878ac57e; 0x7e72a78c072f2ee; 0x6ba1b99d77853014; 0x4e05c9bb33f2fc4e; 0x2cd5863dc3b84a9f; 0x4ab2f7542c0f18c4; 0x310cfb101988aec3; 0x63564f1274f7df22; 0x1e204a62bd9d19e8; 0x42d59b1e57de1edb; 0x647be30554644250; 0x1192b1d3454ec6a5; 0x70f87651024fea73; 0x134959d8e0db4f16; 0x68b57d4faaac87a4; 0x5736c6e41ea0c2f1; 0x30409676908eca6; 0x321004bb5544c319; 0x3206fd9a9c30c03b; 0x3284b5e5c1110157; 0x47cb052b55a3c34e; 0x75062e87f9f5c931; 0x6c2f6d4699441920; 0x756f89dab71e24e8; 0x2e2198e2279ebe3c; 0xc52e5b441944700; 0x471b61360f0f22ed; 0x25737e2550dd019b; 0x472ad59cc1791b12; 0x38555fd3920f1b77; 0x1c8c4764667c35e3; 0x2a3fadd51d0b9913; 0x1af55b7f6b55798a; 0x598e3a7ee4a70810; 0x452e9af017e6df03; 0x623918dc7ba265ac; 0x20a05b3f1439779c; 0x61bad7826a6000a3; 0x20702d0c23198644; 0x6bc328c91dd51625; 0x2fd7424e9da404a8; 0x1d0131c7cf38d6ff; 0x46bfc91277a436b; 0x24d912e1ef5504d6; 0x38f9746c8b0fed5c; 0x7bb8af85cddd2095; 0x3170e11bcafde61f; 0x1a9d71c8bab7603c; 0x29f1d153030b415; 0x6bb1cc26cdd37854; 0x32df994662b4c2c6; 0x149ba2b116a2342c; 0x68720ab0c9421973; 0x5aaae64cdae4983f; 0x3902e4a5673dd8bd; 0x5b52159f6ed6fcbf; 0x101bab0636e58a6c; 0x644cac5ecf2121fd; 0x130ef46770f4046a; 0x12cbd9011396b327; 0xfe609e64527a01e; 0x717e2a2d156a14e; 0x3c72b08d8f6604e5; 0x61df63662e3e0ba0; 0x3590147a2102f585; 0x1017f22090326cac; 0x564fe882f294609c; 0x6e5424195c7c8622; 0x5c8f43a10bc05997; 0x4fd91396bb7a55ad; 0x5d4a694549793f2f; 0x66021cd15f3d07e9; 0x1d9e13b8131ae6c1; 0x235b3cc6a89f219d; 0x6ae9e26112979646; 0x4c2cd37c106e4a27; 0x203c8df559822cf6; 0x6d66c6f5a39acd44; 0x2b2167731042497; 0x31a3e5506c746138; 0x46129a4e51ca7e05; 0x306c3354bd2054f9; 0x559e5b90a9380006; 0x25dab7e00cdeeed1; 0x295a6bb26e63edaf; 0x62e37f99bbe54808; 0x6754ce0f5705e2ad; 0x57c273b864f872c0; 0x3fddf93ee39eb94; 0x46917f3aee3ba172; 0x4bc1a9508cb9dff0; 0x6d0445ce0e3f5ec0; 0x410fe48448854be3; 0x463f1f784aea12b7; 0x15f2015e8dce8330; 0x5b68dafce6ecf567; 0x45ab3a8b82f367cd; 0x181865d9c0e25c85; 0x4183f28d2b5b7450; 0x45e67118580e4d72; 0x442167c1dd45fba0; 0x3240e634831eac7e; 0x25b4bae1ddf99c05; 0x245ee4388701c816; 0x412544dd834649c0; 0x130deb01318e55f1; 0x3d2c5d81add2002f; 0x3bd0f1b60e322d6c; 0x717b2517bcb2439; 0x36b04f7d5eca3306; 0x6e7260c7811ef054; 0x277896bd8f1ba1c8; 0x6c2bc367b919d6f2; 0x3cb844a136ddb3fd; 0x130698ff8fa3542c; 0x1ef4066cd63ef795; 0xef5fa94c6be730; 0x17bb685d201ce532; 0x13ed1b0fe32a34ac; 0x5059b57e0bf1917b; 0x2ab62df7929dbdc9; 0x6569fe0f8957e917; 0x5a074c0b73919e09; 0x7cc86f559dfb7441; 0x4ab2a7ace6bc6efa; 0x2380032af6b5d702; 0x24f2436941458f52; 0x96d156f70bb4cad; 0x19f5f7faf7e2f8e5; 0x7e1d0db144e5d85e; 0x736f7affb557d3ac; 0x49f60404a3bcb9c2; 0x3351fcc6cae8fabf; 0x54404051afa5db58; 0x22a20208822282a; 0x5055500454410401; 0x28a0202228a8a82; 0x4104140110044550; 0x282822202a00a288; 0x405000404455545; 0x800a2aa82a28aa; 0x555045041154014];
   [0x788f73c0c26da7f; 0x6cd579f4e361c662; 0x57443b7570f063ce; 0x258b6e29aa1c037e; 0x38bb46cba94dd679; 0x569f93cd8aa3b4bd; 0x3e1a2cee1e53af71; 0xe4f90a8233e6164; 0x173f9173abe3df23; 0x32cfa856dbd9916; 0x15f62764a7c97810; 0x2ab9587ff012f9a2; 0x8784fccad46d536; 0x26049c886ba235b8; 0x4ec214b909c0714c; 0x65bf51a083b3b55; 0x3727f0de7c2b9126; 0xd13c4f053cb04bf; 0x797de67bf5a7109a; 0x25f5c718304d4f38; 0x27569d65b214c3e4; 0x46ba9c86a35428a; 0x7e99fda21443f49f; 0x352d4223b87b24b3; 0x666526ac89a77926; 0x13dcaff837a85c78; 0x7f75da960a49af85; 0x1b2c60bfae2f9ab1; 0x31a9c7ce55ae7066; 0x5fdb5192a596348; 0x31d4508c1aeedbaa; 0x336cedab0dc48da8; 0x45d67ecd2d4ca76c; 0x7b67a21cc0a82a47; 0x4ec7a803fe963b88; 0x2560f668b29778a0; 0x76d995e1180024e7; 0x6575c57eb41ce671; 0x298f7c97d5fd8133; 0x12c51a1e034d490c; 0x14a8538e3d7d9a2f; 0x2ffb31163809dd9a; 0x6eff9e91d32f8e41; 0x3d7ea60550a2a29a; 0x46b4a3a6f0c7ee98; 0x6c687c6195d346f6; 0x3e9febd494266477; 0x6c420bcb47b34af9; 0x5e01d9da258cfea5; 0x7743f6d0c07b3d55; 0x647c237c0347e779; 0x764c0fc58a4e7f8b; 0x4610635e47d21490; 0x1e4c99f217bd2172; 0x235675e4bfb3b6e0; 0x368a8982a9b5e6c4; 0x59ee942eca477944; 0x75d325463c45c4f; 0x5bfc3a333adcecd6; 0x6fa64995b5f86671; 0x47b9f163694fcf0e; 0x7a176a690d006faf; 0x1c6363761a598bc2; 0x7929a4c87184e604; 0x79b04a674cb80e69; 0x3b985a21cecec0f8; 0x1189871f55613538; 0x39fdc0d80600a7a4; 0x4d57af16ec08e09f; 0x36cc2f0febf2a9b2; 0xbf198d7940f8813; 0x53612b8f5c712351; 0x16f123d60968b471; 0x67ebc72bd481fbf2; 0x66eef6d0456721ef; 0x62970bcfddcb6d4; 0x50b5505c7fe6f872; 0x1a1471669b07b0d0; 0x3ac82963cdecb79e; 0x2490ec94749f4da1; 0x8c4fef436d0f3c3; 0x93d8c170c379d55; 0x3fd9ea44409f774c; 0x1712489bae251b2d; 0x676c62e1110d7848; 0x242c403e01ed0d4a; 0x58bfbaae5208c427; 0x1ce047fa3f8a34fd; 0x2fcfb36b02ebb8f6; 0x12c8d82423fe2562; 0x718e722a4360d693; 0x6725939a7ae09515; 0x6a399cfae3712a7a; 0x7cf096d9d1c96838; 0x30c117fadac6a6aa; 0x58dc846b6612e84d; 0xc38fb92e52f8010; 0x4f41fde19585319a; 0x21eacb33c2a77028; 0x1a68862fac1b6886; 0x3a71e7681e8fa805; 0x4836c0a329c0dd2a; 0x6d6186030cebe66b; 0x2a23e622a0ec8bba; 0x101ef3b77445f530; 0x4184bc9696120b6f; 0x4e2bdcc2bb060ce2; 0x346a5cfbdde72e26; 0x3bb08eb0cf4dd0f; 0x5113d1097d83508; 0x23ab3a7943abd681; 0x69503a9a164f0001; 0x6f6facc0bd030898; 0x15d4d1676a4144b9; 0x3010a96b1cd3c006; 0x50c0dd7c941ba188; 0x7327947ee1dee3ad; 0x73edeb7cc16f460e; 0x2b06b808bf934262; 0x1394aa0feeb0debc; 0x747805749389fbf2; 0x2e50a7772cc4cb1; 0x1084811b0acd59ed; 0xd274691ff5fbee; 0x440f5e03f5a02647; 0x44f14911d6101872; 0x774a412b73d309b5; 0x37d2b97b32cfb8; 0x7f47d02e137c5ad9; 0x4e8841e84c2eb4d7; 0x3117bae529a5129b; 0x641dd48121dbeb38; 0x2805afbf0fb2959b; 0x2e73beda096e6ad9; 0x605e1b34c03c19aa; 0x741a560cf6ea38d1; 0x739a19a413cf8e4; 0x5c769c90797467d9; 0x657eb4a49148b58c; 0x207debf73a85ad03; 0x2965663735926eb0; 0x4e6fddd2eac06eaf; 0x1bbf438e55babf40; 0x7250f610a562fd26; 0x6470eee054b66ead; 0x5979e22e0c40af17; 0x3a208c3d0d37f543; 0x69bb4a6ca5ee397b; 0xb2fdab3427d6f66; 0x1b6e5d5cdd77d0db; 0x48d1a825b0324d3a; 0x7a9aca23906fb54e; 0x6fc0fb4acd14ac58; 0x280d7ee9ec2238dd; 0x3a71dc60d722ecbe; 0x457a8a59e74c316c; 0x7840158dc7264798; 0x4bcb98b128f0e311; 0x72f0e3d42d5b44f5; 0x7cc0ce9a517fd8d2; 0x42774fd5a2569f6a; 0xbefc970f03c397f; 0xa92b93135c62881; 0x546dae5d32c81df2; 0x76ce635f133b87fc; 0x1b23d0aae29402cd; 0x4b2368c5be3d060d; 0x631771dbabeb1f7e; 0x2918c5c25468019c; 0x20103a135e31c9b7; 0x7c1d27af82cf25fc; 0x39418c9b8933990e; 0x286429775f55a987; 0x2d8632c4c9ee3591; 0x7dc93d514256d0ba; 0x319fb5e313d6f123; 0x56f85cd1fc352f8f; 0x7669e20fd3e483e; 0x4ad61daadf5c01f0; 0x247797dff64edb58; 0x49449637e617dc1b; 0x62dc7d42682d1ccb; 0x5275917f96d50575; 0x70d1272ea0501be2; 0x61c90fc69f408373; 0x2e9785038e98c79b; 0x4fd3314acf702b4c; 0x655245d26be2d91e; 0x2bc0cab33d146e14; 0x448aa1b9c2b2f9; 0x2a1e05815f1288f4; 0x101c130c32fe5d0f; 0x30622093446c4eae; 0x1c10f1c3821a588e; 0x584eb3d02b0ea52e; 0x12c48c400f1e49e2; 0xdfb2a206d2bf9e8; 0x3252ad18297226eb; 0x108126def726fc87; 0x278df0b5da89e781; 0x2967e4a065b01ded; 0x44ebcfbbaac355e3; 0x65eddd045003b45d; 0x36229e7504b7c4be; 0x2ef262f531eb874d; 0x4ad9f2bf8af23cb0; 0x139bb5bf18fcc7a0; 0x5b1a377c10aee50e; 0x16e91dc3096c9598; 0x69164949c9a1583e; 0x2329256805d3d789; 0x72023e0d9ac154ff; 0x1c1c7fd08ab9cb0; 0x764fcd00abe63aa6; 0x65a87c137390af7d; 0x6d5f82d77261d96c; 0x7f64764fadcee238; 0x64b42fa2fdc728e9; 0x16a9e1d0173f789; 0x4175a7f50bc9d3f9; 0x35cb6d9ca4ba8737; 0x5af5901373ad6024; 0x404112eb9f6531b6; 0x4ad53f6fef8ff69d; 0x25c79c04fba0eb97; 0x15d0e4a0544c63a2; 0x6c7639f9307e8d23; 0x4dda8f54402e948a; 0x20d7764ec42e61d1; 0x446fbe835092f004; 0x383195a13ccb8c10; 0x4968b5de1f972104; 0x18a9d1714f87e855; 0x3e787c37fa50b973; 0x74fe70268cab2b8f; 0x21ce3c4dda3753f9; 0x38d7b27a7dda3832; 0x7dc99235b24a6bbc; 0x5e65347f5122c3cd; 0x2e3af4d0df87519f; 0x23f227b1034b31f2; 0x2c809aa343c32f8c; 0x66cb829d84986c18; 0x128208c102828fd1; 0x6d866ca798a98814; 0x25135030399d396; 0x622157769976fc1d; 0x74c10892bf1541a4; 0x1a8677d9d27d6622; 0x7ff6ead04b925baf; 0x1190382eb581b30c; 0x4c4862cd45aa1658; 0x6bfe73a5658ebc89; 0x278e2522f6b92543; 0x6c49af116b9c9d16; 0x28ea077691173f59; 0x7df7210a0d7ceed9; 0x7070ea30bb45d79b; 0x663cc50ee4c50ade; 0x7d53e79768ebc3a4; 0x4ac02a5fc13be833; 0x2c4a64463fa97380; 0x9fa9b6ac43d317a; 0x5fe257220536c6fb; 0x7a14d59ff810f275; 0x3cee9621dd5211bb; 0x444c066513d63e3f; 0x672d071ac9da8ee0; 0x54d22051df99f0df; 0x6559048a5ec9b8c8; 0x697f273ba68d7980; 0x29cca4e5c0bb008f; 0x25d3c7905ed0353c; 0x74219ff7e693007e; 0x1bc210c34c8d5ece; 0x7f693a33ea507b5d; 0x1dd6bfc6957795b4; 0x1e2c82ad297ffc9c; 0x6db26a7d71ecbc6e; 0x1cd9759b30cdedb9; 0xa96644eb06d02b9; 0x194e7919a9bced75; 0x4bbe4e0e00b575c9; 0x688a297fc04f291a; 0x3e0d6eafb8fbf72a; 0x2152e631ac9f7654; 0x2d20b8fe741a160c; 0x18a141b401bd76c6; 0x24cedb1cf7b9c51e; 0xf09e53d022ebc17; 0x2ffb3fc01f5ada2e; 0x249b0b3607de1473; 0x797c9d911b96565; 0x188071eccec322d1; 0x4df508ae7fb7ca0d; 0x79f2a08d6060231e; 0xde978a60b82c713; 0x6b87fac750ac9be0; 0x7af3b1eddf78c058; 0x30a41a390a0b8f56; 0x227ec001101266d4; 0x4c7f7d8e21b5258e; 0x74b7a6c56b6adae5; 0x41d1483feef86fc2; 0x1ba326c3aa0e04a9; 0x421222247e49353a; 0x2895880d98d6e718; 0x8687991dd2d678f; 0x11451515620cdcc4; 0x2a282800222a8028; 0x10011115514101; 0xa8a8a280a82aa0a; 0x4511014041541104; 0x22a2002220220a; 0x1044040404415151; 0x28882a088a228020; 0x110444400041415];
   [0x46ed29f9b904d972; 0x1fc1036cbd3b72a9; 0x726513a6d5db03d0; 0x5736b001586a9f01; 0x6a8d7b1e0bb9bb4e; 0x6496beab59b2520; 0x73393d7bb32778b; 0x6f875ad4f076f1f5; 0x3e808d9af3525b95; 0x5eef8ca747d0eb4c; 0x5fd852cd9cb18a1f; 0x6838900f8725ef6f; 0x7be34abb4597415a; 0x55072c6f4a78bcba; 0x701fe589aa0ffdd3; 0x30ee1160c6c16b01; 0xdf67e0751be3d50; 0x38179c4136bf6fcf; 0x3d7166cdb4d2aa7b; 0x3ba1050926c2b3c3; 0x7687fb0a1a78a1cf; 0x3c1e8c73953916ae; 0x2decd67eb9b35fc5; 0x2dbc6b0151866123; 0x5dec840d8d22636; 0x59931fd2450163eb; 0x4c8650a0b7962749; 0x495fc445887e8513; 0x3b3f20dd406c1eb8; 0x3c84f95364956a71; 0x4dbde5ff19f65437; 0x4811d4057a22815c; 0x3211e0b7f05b92e; 0x1e3a235bb3f2a93b; 0x53b600dffef630c1; 0x16bea46cce0cbf71; 0x27b07a6b0d27bd2d; 0x1fa14ba18f241507; 0x65e2cf58568c7549; 0x405ca381c49b1006; 0x4e2b4789e2009b7; 0x21913d292c51d427; 0x4ab283f30060542c; 0x32fca0d41a22d12; 0x27dad53f4bd79ca0; 0x7922f3407c400355; 0x67a70b05ca62793; 0x4ab7307026ed1dd1; 0xd0ee552734f8283; 0x5fa2a638f31bcba5; 0x536139412d14d89; 0x3c3ec6dee5495003; 0x6aba058f008bd779; 0x71c43909e17b6342; 0xfb34f8986848e2d; 0x3e5ae4143ce607f4; 0xe02c9e5ffa18864; 0x3bd67885fb33ee31; 0x51bdef6a8510dd69; 0x3e2479dee2c53a38; 0x79507908751bbfee; 0x769640a6c32a0406; 0x23a123ba0a32bc9c; 0x693bfdec47d9cb78; 0x50011e5ed15e01f; 0xbc2a8efa964f7df; 0x2fb22b943e9d2943; 0x4fec4348d2d245c3; 0x6f6dcdc6b8da9428; 0x4e24020023e9fcf9; 0x2ab9583a7bf24ac2; 0x233383f29604de51; 0x4d0075318c9bacf1; 0x468e0433a8748ff0; 0x7396f205f1fb4172; 0x1f96e98dc1327a48; 0x7774995e9a8e0679; 0x5f1730ac88bf15e; 0x78a907e4daf9c430; 0x8aef479b3c89830; 0xa609951e017adf6; 0x7c102135122dbc9b; 0xc32283a0d8c6e07; 0x52b78f0a3d87fd5f; 0xd60884b16fab8e7; 0x3415a2669596873f; 0x44dde84caa1c6ec2; 0x24237cba5a213d2b; 0x76ef7a4ae71fcffc; 0x4c68401b6116c083; 0x44926ea7348b396a; 0x5d2b606c5a06e5b5; 0x1b350207029fc805; 0x52c5ce136805952b; 0x732f5b845959b52f; 0x220b79785eaf49f3; 0x44ea11cdb61ede34; 0x79b9d3c26ffe7d41; 0x57c3f4e48e75c725; 0x661c2306240bfbe2; 0x7db29c5cef15d3b0; 0x23665499fe804334; 0x53128684f0700022; 0x1f8833d194ebbc9f; 0x2286fec00e8f418e; 0x4fc680e2d239339e; 0x7fbfc90fe8082418; 0x2b1c295f1253aa1c; 0x457e0e12b6282e6b; 0x4e307821b0dfda46; 0x33fab58b4afc5c2; 0x35f86b5f616fe9a3; 0x3c50c8ac233a4d61; 0x6f6acc411c211429; 0x4990e48b0007610; 0x454215f5513dc07c; 0xca55e3f58ad119d; 0x87b3d9287b8cc86; 0x13e7591717af3049; 0x7cb5c9c79895931a; 0x5663a672f0e16d51; 0x594af0b2069b6f5e; 0x13cd5ea7a7206998; 0x45be0a1913f5ecf0; 0x352466ed413d80d4; 0x16f45a32cdafbb47; 0x7486edd8c771eff; 0x6769eb83ea038621; 0x4af84ab12d965d63; 0x19ff2f604bce566e; 0x1d27f2fdbc6ee183; 0x623105e2f8798392; 0x37d1a28b39b39044; 0x53d5f17ef04c9c36; 0x1bc8e30e7d071236; 0x22507fd28b45c1bb; 0x44949456c1b12027; 0x1c2ad0f3c3d05e62; 0x6ce43cddb31a6561; 0x2f8c7f8b1b0efeab; 0x7c95e24f56069987; 0x72b79975e0960639; 0x174f00d35d4e1a37; 0x4ddc3f530b5d7f2b; 0x674777a7efb3bc53; 0x5a74d8d6160e3b8c; 0x732ebc34e8a5b6da; 0x16eb6d4f38becab6; 0x589ddc90a83f7374; 0x46f4fac254af03b8; 0x79db9389b184df47; 0x44f22511f725c267; 0x375d726b24e73f5e; 0x3597d2cb01ffd8e; 0x1cadb2e26178b3aa; 0x17e4fa09ccca8cd7; 0x13134405f2fbaf66; 0x28de6d93bae22e37; 0x48f613fe0d04380b; 0x4c7b586ac2a46042; 0x7772b6a965b0a989; 0x2812a73d95e574bc; 0x787857b661bb6d32; 0x6923f6116138835b; 0x5c24a7d408673321; 0x7cc0fdd8d8950576; 0x22bd279ccd33dad2; 0x7572e7e797172e41; 0x418a679d10561d1e; 0x31a0f563795d2493; 0xdf98dd2cf3a21fe; 0x38f8628ea3e393de; 0x2e0b76a5d32069a1; 0xb11e417efa4429a; 0x62d97ffd3af8d8dc; 0x5097e761c5d4da9; 0x7b1ffc1510a64c67; 0x631b620f0aec8b3f; 0x5d4704a2b67a8522; 0x3b2fb9a003987085; 0x2ecd1fd8f5e09927; 0x317cc57b9605875d; 0x69972cef32dcab49; 0x5067521772e219e0; 0x6d5f8785ca3f3897; 0x7af5d2f96964d4e; 0x5e68708f2bef265; 0x4b9be72966b59532; 0x337272afa0b1094d; 0x71eec9b3b9bd34fe; 0xcc3607a935c699e; 0xe1fd8c48a36ed08; 0x6c60cd9ddfdd083d; 0x69be16ef903ad4a0; 0x1f43d1bf44ee47cd; 0x51604dfeb2207073; 0x381db95033b2ba02; 0x1da67b91b06ba4d4; 0x4d2fe831e928d55; 0x42c05f818bbff2fd; 0x4dc573af403abc1e; 0x240d08dd87ac158b; 0x67c7613992569109; 0x47e1e04fec9d2d82; 0x5988b1bc31e271ab; 0x5480de337d6a7e80; 0x2ddccdcddf34ff39; 0x20d1d028a1beb902; 0x52faf09424c5865; 0x23a12a1753dd4df; 0x48e1f5abb349036a; 0x5ad5fcd82d5f95d1; 0x6a7637d0ddc519f3; 0x305789b76fe4ac7f; 0x616100bb956afba5; 0x5148c6b4acea0822; 0xc92bf72228439eb; 0x2c44b7a9229d7cd6; 0x5cbb4e5a0bd35c40; 0x57b479c53de3c3be; 0x28986491f0f089e6; 0x5198472a54fa190; 0x2a95df9644449f8b; 0x526a705b6fcb9fb2; 0x1f074a6fdffe25db; 0x1e718e0d659cf64a; 0x3e1997d64e6e373f; 0x5403ba622015f71a; 0x172a96377887feb7; 0x73c23fdaa00472d9; 0x4e90554338e75f94; 0x2d2f3e5349129f9e; 0x1ea78314835510c; 0x4eb6ba0b27a2d07; 0x63dbcd85cf9e95f0; 0x3b5bea4db61ec32a; 0x244af7d423dd30e8; 0x55a6259e73b8ddb5; 0x28de446c349bde3d; 0x23fe411f9777c936; 0x255730e026f0360; 0x699298e4bacfad5b; 0x578a0e8a2dadffdf; 0x75dfb8d9a1178f49; 0x338c0d1ff762335e; 0x13bae8d2d794c835; 0x29d669ecbcf793be; 0x4b8dcbf533313bce; 0x8bcce656404b5d9; 0xe363052dbe22c4a; 0x3ca99ee839174426; 0x5ab39a6d9f6dc9d3; 0x7974739c2c212735; 0x3f7ed06fa0b1018d; 0x22ffc8b84e8489c6; 0x4d0b43fe4f6c97db; 0x1377e98395ed7505; 0xc0173c9ba0deba; 0x2a52b4f36dc851af; 0x4544836a1ce45181; 0x6de6c4795e45fb2f; 0x274d35e3901d4146; 0x215ee2fab786db8; 0x6b91793e0888477c; 0x5d94f86e32e43908; 0x3a5138a437d3eb6f; 0x1af62b1a1b607e03; 0x311bc64dbfbb8a87; 0x1e76542f43f53d5b; 0x697dba1391ac4473; 0x13caae98e714c4e4; 0x3800d0fd3ad86358; 0x1642772e2786cddc; 0x4176f8b814cf3bb; 0x710eb89022898a7; 0x62b1e7c0e1abc67; 0x61b4bb8bbe69aaec; 0x14fd7483cdb502a5; 0x59aaa5d1243349c3; 0x64683621cae160d5; 0x28a20588cca6d176; 0x50d8950e1f1258c9; 0x2440864542c093ef; 0x27392988a0d0c8d4; 0x596f2926121ba154; 0x73c20d55600fb922; 0x2da06fe17479af70; 0x73912f75e6f5daaf; 0x14c0de03f2fe18c8; 0x469c7cc1eba1c08c; 0x753f03a14013d1de; 0x7683d2144c928871; 0x707996fb90517add; 0x556a16737694694; 0x2d43658284534f05; 0x29e2e4189776601c; 0x51dbd6c6df4429c; 0x60678a418699dd3f; 0x1cb32c12fbeed327; 0x422c9c3e0063858f; 0x8ea45acce8abf4d; 0x7ce361ca0ab81aee; 0x2a30c4993eaef6c2; 0x433188acc3b2c487; 0x74d61367bfc167d; 0x413680ac2c061ef2; 0x5e85007530c8cb01; 0x4d24a616cd88e03f; 0x15510451245c25a2; 0x8a88002220aaa00; 0x5514400154110404; 0x2a8a820882aaaa88; 0x4051541511541140; 0x222800a2828020a2; 0x105410000550514; 0x2a00a0822a82a028; 0x100410514505045];
   [0x7b2f8617fbc5e643; 0x2e2660cab09468fc; 0xb3378ea7128b2db; 0x1333fe42dac219cc; 0x467f3d7fa70b27d3; 0x55fd674703a4c17e; 0x3d2bbc1d4e015ce3; 0x3def82817dcbcffd; 0x6e8b76c2434ced89; 0x60a525904886a327; 0x2324b35e0ef1eef0; 0x30e96e8ad4655bac; 0x70ad0b855c963ed9; 0x7e224b900ff4266b; 0x6bb03684e861a998; 0x70f1eb66081b3744; 0xa6df182f6c08ad2; 0x50b0c9bffb46a45e; 0x5d6c005a1f88538a; 0x782923557fa9792c; 0x6f59af3061d15850; 0x27b0fa19a0800809; 0x4782a9a548d8623b; 0x26bd65930785c85; 0x2921e8fb4f40d24d; 0x3d0f25b641170677; 0x7eb9b17bdefdd556; 0x66d16ce7f4435422; 0x54f11a0678c64db4; 0x44efd7b787ac8eac; 0x64fc985cdf5edeb1; 0x486f695485387450; 0x21ee5b4d048b2c8e; 0x77bf460ff134956; 0x19173c564a184d99; 0x7fe9c271271eae16; 0x3b9cd3d2df110453; 0x7e988c10a7485ac5; 0x7026f7c2d3e84c6c; 0x70854e7cbd7f06b7; 0x75fadbaa66bdb5f4; 0x6970752fd662fd5b; 0xc6eb21ff6b36a74; 0x4910baef2bb8f1af; 0x41c2a4be2694fb4; 0x371da0c157f9690b; 0x14168da7fc5f53ab; 0x63855b61a4949cd1; 0x634dca12ffc67a76; 0x702522542db132d8; 0x6741cf6ee20e1e85; 0x649f9d8a427049db; 0x51f550b50afc3f17; 0x505c45022e4fe982; 0x7c2c6a054d9e2f9f; 0x750223da4953068d; 0x205fc06bb00bf064; 0x15bf19fe5ad2aab6; 0x336777bbe78a432; 0x5b32b3fd81263ffd; 0x176eef018175d0e4; 0x422284a437f2585e; 0x2e1f37e94c7b7d6f; 0x4aa4d38eca8c927b; 0x5b16a2ae801098d9; 0x631330b6b3b0c6e6; 0x13b9772d504fb8d2; 0x26f47a45b47fcb00; 0x44f3103effc3a2e4; 0x273a142ee5cf1e10; 0x6d110c4d8b038428; 0x299c20a8bb9e24c8; 0x1482c225b743aace; 0x4f5bb3dbc97cf10f; 0x4d5800c95d2fcb9a; 0x58812ee27549eab2; 0x70e5e5dab9b0c130; 0x5affb01a50c6948e; 0x75e3ffe6155fbcaa; 0x3b5743ee9e1429fa; 0x667e777961be0a10; 0x3127c6b6d2548092; 0x2eacc529523228ab; 0x26de56ee63863e75; 0x1885c06cab239fa7; 0x1030864a52a03f1b; 0xb1f5cb0cec3794c; 0x368f985271dfb12b; 0x3f168db731b052a6; 0x3160ea05fe4b222b; 0x52e60c5bfeadf072; 0x54ccaf841deef479; 0x1a4b4280198cc1fb; 0x440c36bd1e8151c6; 0x4ad08c0452f60650; 0x7d4ae7c408a4de04; 0x7c6c46c80e16c8c9; 0x470f176fbe5a7fea; 0x69101c3e35f26518; 0x197a7e584e7168e7; 0xf37beac2401cf64; 0x538884f6ac793192; 0x10e072c0ec2794c3; 0x49f486b08e033d5f; 0x51c115ca89220f87; 0x73ba2459f03e8967; 0x30ce3bf4af372b74; 0x44dacd05a1313a19; 0x137f67b87939bdcd; 0x327b29a95804930a; 0x5737e08822a45ea0; 0x6cc813170d2ec7e4; 0x37dcd6f639a1cc89; 0x237111881d539263; 0x2918733dda5ef603; 0x6d803aeac1fdaf1e; 0x1a7b242317c9f2bc; 0x7a8439c9fc87dbb6; 0x4a5fb355de8edfe5; 0x2ea3d0483add2939; 0x67a684a05685947d; 0x783246643e2abb59; 0x60f633140e1a8177; 0x49604948ed1d5586; 0x7b333c53f91fcb18; 0x919a8fe13d7cc98; 0x32b42a6cadcd8bea; 0x1212b8de65f8e2ef; 0x67e0139eb573f4b8; 0x380f274364e24e61; 0x512338609cab2634; 0x1b130d9cef4811a6; 0x7dcba8dada093ac0; 0x6b60b7926e618eba; 0x2b33814b146dba69; 0x6bf409a898d46d20; 0x448d7a008ee33dc0; 0x551ab832e9622519; 0x55f04c53b12b9953; 0x713cf60e6aecb9fe; 0x2eda35ed1108ff28; 0x3e2f5038f149bad7; 0x7b9d5119c24ce6db; 0x1b5f84c9c6fa0f9d; 0x60572c78455c7d12; 0x20c53f89ad518d62; 0x5057612c98fc42a6; 0x630e4673058ebc22; 0x151a265b8d5061f2; 0x35badd667413f6dd; 0x4033780c78d63b9d; 0x2adebbab1ab8ff61; 0x17a5543db4c5cd21; 0x278b2f06d4604e12; 0x5af25acc9f93dd5b; 0x2b8a4789bf203e2c; 0x438911a7b7de06e2; 0x14302ca4aebf7430; 0x45f17c94a08a6906; 0x2d5036cd74d13274; 0x76d17849292c5f69; 0x4fc2a61dca8bb099; 0x1743296a98ec80ce; 0x752ff1a8f700e920; 0x19c73322d02565a2; 0x2d397075d752c25e; 0x40ac26564c5a9120; 0x672233aac967693b; 0x45b9d7e28dae0a29; 0x4c8cb4ac1e6a41a9; 0x558e45197a7cabfd; 0x4d42c0f14c7a268b; 0x33cda91d13383b28; 0x69d528011e9b29fb; 0x3aca33199d202684; 0x56e03f82d235e770; 0x7bbc8256e48aae4; 0x1f80337ab5d5d495; 0x4f186f25d8edb53c; 0x673a10b6563532f7; 0x60fae77b23117a4f; 0xb6b47f8a4e55475; 0x3d3bd610dd5c3f38; 0x7ca7e47246661e6b; 0x324d1251c625971; 0x2fcdfe550c67a1ce; 0x6c96111e01ad71fc; 0x12389f17c4c517fd; 0x85eeaa1131f8cc1; 0x6bc25bcc87b7282f; 0x34aa89c4d1793ac5; 0x5b3b1d6cdfbc862a; 0x63ee9f1997648ba0; 0x1069d8b26160ac3b; 0x6955f01cf81b9192; 0x7f041898121cd1b1; 0x127e6ee86671abd1; 0x7a1154f175e2da46; 0x217893400a7abada; 0x10082d67c1d6ad1c; 0x5c9b1e1fdf00077f; 0x7ce20390caa05b2e; 0x6eb23b791ff0f497; 0x5a0065464193e908; 0x101a5f125ddb1f40; 0x3affb000a44f8080; 0x4634ec48f5993911; 0x5c36b7a7ebe069f2; 0x45f0d53e5baa1b2f; 0x19404af14627d6be; 0x27eb06ea0d10e4da; 0x5ed17c4308802f5a; 0x7a9e871d51826c73; 0x27a0685b5c4a5a4f; 0x17927d7c6bb06f84; 0x19e0b0d09e169fc7; 0x1279179119c0e841; 0x22c5c7f933829ed1; 0x3a2611a3c104fc56; 0x6d2e83f52b38de17; 0x198857534e5a74fa; 0x27353b9a8fdfb50d; 0x49d03a20dd5698f3; 0x6ec92f6ac7cbbab6; 0x3a1989d1f96c95f9; 0x5192eb66cfa84291; 0x183825758e2f4fbb; 0x4946ccfbde74241d; 0x224c49feb7f2b1c6; 0x7f68ac4619e9d99c; 0x2fe0509656d984d; 0x4fa51b33f481dc41; 0x6a6661b2865c8f32; 0x7b9020d3aef59904; 0xce5449bdd1ed7ad; 0x45812d296b24b39d; 0x1d4f19fcd547d63f; 0x4ccf2da45e7daeff; 0x6b51a398bf0aa937; 0x364865157e67457c; 0x28f2a80169d4768d; 0x39dd496712ed4861; 0x39012ce308b4255e; 0x4a41824bbfcafcc4; 0x3aee3e612162c78d; 0x7402d656e6dabd43; 0x4cd43365a90c2b21; 0x375cf2d57c44e2fe; 0x221f886b11ab847d; 0x1fb9b3aaab026f46; 0x37e28740a4921aa7; 0xf620d191636dd7a; 0x5784f32cb1609763; 0x59ef50f397c20887; 0x2fe15e676c0517b0; 0x4806f9ff4653ac34; 0x157b3e0b3efdae4a; 0x6c9ced005f2f6746; 0x3eabb9550cea3f31; 0x325e94c2d0562915; 0x1a496cfe86629045; 0x657d7ea679207fba; 0x57f15cffc587cb38; 0x7bc3797ce036fe38; 0x1845958f39b81472; 0x3e38cc833a04fb6b; 0x350a8afd599f437b; 0x3ac709731a1150af; 0x675bcad4c59cc500; 0x22e8a075f01b0b6f; 0x5621856d727996d0; 0xb5c403301f65e4d; 0x5699fd57e3783c0e; 0x3fb6a8de1fb4e5d9; 0x6e5db8808b080c49; 0x702bc797b10496c5; 0x45cd36c27bb83dcb; 0x3e5c3853a2823b1b; 0x4645b4d6b4a8d07f; 0x76df11e998bb5dba; 0xd9f1da42f468b1d; 0x58a6b24710aee188; 0x2d9230d6478250c4; 0x5826c02da5a776d3; 0x3dda875ac76d3c07; 0x2d6e94785f1b8bfc; 0x653662d3d8bd5e0a; 0x1b7f8f4102d8c3ed; 0x47da5a3732bc3f53; 0x64825b367b879bba; 0x47f49f570ee60293; 0x1f3a5422fbfa5c45; 0x21648d175d70d3a0; 0x6caf05ea90178c8; 0x5daecd3b8028eaa5; 0x5a7712976bde0d90; 0x2f0a5e513948e07d; 0xe7066563d4a8af1; 0x299e301b0c10f13b; 0x4ce051a457f4fa9e; 0x306662687542341d; 0x159262cd313ddc; 0xd6f6de6c7407add; 0x3a30005efd2e3bdf; 0x2acf66ec7c60288e; 0x3c2cff4ab750ff97; 0x275d019d3d1b5a96; 0x68506bb7f3d0eade; 0x54155140e776f09f; 0x2aa888a08a822222; 0x1044041444045541; 0x2a222202228020a0; 0x41111144501411; 0x2200a8a820200a0a; 0x4150441115545005; 0x2a822280a20aa28; 0x511150454055500];
   [0x798efb9ae891e061; 0x1782dd95365f379b; 0x5b8e8ece26dcf64; 0x70bae52a99167167; 0x3a7e85a45cb1e622; 0x22379840f36cb184; 0x720e630e400c0dfc; 0x17fc3cb157e1cc53; 0x1befd70ca890ecac; 0x140f6c5df20f6d97; 0x4dd51a0a38993958; 0x2a7f346bf21a381d; 0x5e26d06088452154; 0x43b19dd316a3c872; 0x5a6302ea87b41502; 0x19e6313543cfbf5a; 0x7b67d0a2908ea2a3; 0x66b29d5fcdaac78c; 0x61f264a7fb3f5eb5; 0x22bf7a1f1ea24646; 0x2bde8ebdb3a349f9; 0x10565b3756f90d4c; 0x3ddb0ead42297dec; 0x17530d8170e4818e; 0x3a4404a10510dc04; 0x38fe5eee8ccd405f; 0x12e946606cf75c37; 0x79d6062a35cbf65a; 0x49cbe6d4d48f05ed; 0x3cbde2b5d11a85eb; 0x666a15856d3a5fad; 0x69084ddff86832c6; 0x31dfdcecf2629cfe; 0x68c5e355db24d814; 0x662919305198a65e; 0x6801e65d4ea422a; 0x7ec5f5d32f024e81; 0x59fec78214ab5fc3; 0x7a8faa6ca026a572; 0x65c2f9ff3fb2b53; 0x5effe3cf924ad2b6; 0x425c659ce8c34fe4; 0x16ad9ee26a92c889; 0x6cd7207158523c32; 0x1fb8279dbc4361b7; 0x1d2b355136de5745; 0x4409fa0d5ccdc916; 0x3f45d70a929e4a38; 0x1ac78bbc095161ee; 0x63302d8c7db0699c; 0x61c59bbe6a881bf2; 0x74ae925368150927; 0x70363477f84594c7; 0x4b0759582d198b01; 0x6da996b5b23c2c52; 0x5323403ccd71110; 0x6e06b39ecd795f98; 0x5a5e20d35fc900b8; 0x23a86d72f83055b6; 0x50b8aa1ea0897c1d; 0x140ccf5c8868902a; 0x3c4b371a26b89411; 0x653f4316f3e4f88a; 0x8bd901a7d6bfab9; 0x1bc70161f972f056; 0x6bf1e912d2d120ff; 0x4676a0afcc7a725d; 0x74ae9005aa26d80f; 0x38161b0b38b00f43; 0x702ebe2876dd1d7f; 0x6433431cbc8f8193; 0x6a28bd10c905e0b0; 0x271c70f6527ba747; 0x3ba5d4f9c03a3913; 0x6ddb59b8b3db1ee9; 0xaeac5200a5d68a7; 0x718fa322b3261a6e; 0x5f084439942616ae; 0xcc2b608376034f2; 0x4ff4c2b0f95fbf33; 0x1e38425d905dc937; 0x521a231e9e48e63d; 0x7abc26bd7461e03; 0xfd1499e5cef7c56; 0x5364363fd51ac41; 0x63daaae80e690cd0; 0x1f00878b2008f6cd; 0x1a22b36b813379e4; 0x3febbb650d39dba; 0x693c3c346a33c1e6; 0x3a2701dbb7e1b47b; 0x42b4d0a5d1ac3366; 0x279f0ef22b88f217; 0x2d17e5bf5da5ee9a; 0x478c4f46f2e566fc; 0x7d7ccf672bf4ac9d; 0x3b6ab2a9d82bbccd; 0x20bc9a157d9073b3; 0x3a191f8d9ff6ee99; 0x74255b9779f6ca5d; 0x32ba73ef46765530; 0x2768ea67257a46d2; 0x7d39575967a5b0e; 0x52aa64fe252d367d; 0x1bff1eb08ef0b3aa; 0x1f3228c1ad424567; 0x255e0aa83d27f641; 0xd8252fdbf467167; 0x7a27b37d692b1fc3; 0x10c3fe7ce22ddb19; 0x75fd8a21af990e34; 0x7f39c073862c4d6e; 0x7354406a4ff21548; 0x603e9044e29e3303; 0x57245fcdf38e67ce; 0x6a5a723517d1c3e0; 0x4876d03aa606b68; 0x7b74e1996506a89d; 0x4e65888f661b7237; 0x7d571cbbc50a22f0; 0x2f36009686fa928d; 0x48ea2c90ea4f4dbb; 0x73adcf2fc5ddaa7a; 0x68ed5f67da208e3c; 0x1fc31ae3a368a654; 0x7c43a08c66bc10c4; 0x364195ca2a183664; 0x42c96c83b29ad408; 0x41408ba92b56a6f8; 0x239a0607d87704f9; 0x713f7de40e189ed3; 0x38db30f2fac5e4d3; 0x3238a977e2a32a3a; 0x27d27a16e9fe9d1a; 0x750bc47e0628d8f7; 0x6774f5c75217395b; 0x5e78a311b446a9; 0x155f7b21950047b2; 0x12f9d923f9121e16; 0x1fdd16cb026599b2; 0x49cdec5fa311066b; 0x7217ed7abcb37574; 0x79b7c323fe8abb11; 0x7141f838ccea8809; 0x106849e6750a0d37; 0x5d5e6d1f7a6c089b; 0x2a1f4af24d62db75; 0x7408a2e1c22aa4ad; 0x2d89c028258d901a; 0x6013bd48cbb6bb4a; 0x5df92047ca29ada7; 0x3cbcb89d2fc6ccad; 0x3ef04f33b906177c; 0x18377daf25c3f332; 0x69a318a6ac747a9d; 0x706e695fed2a74b6; 0xc1fa8bc233046f0; 0x2c9be0e7e655b415; 0x65efc48d1fd1fe00; 0x38e993a751a74db; 0x3d5e0bc81113d7df; 0x5b0035dda2c88f13; 0x75ba74a521ce031e; 0x126543b39ebca781; 0x5218013aa3b85d09; 0xa8c8dff5ceff48; 0x35da088fa8861b6a; 0x867f6dc9a5475e6; 0x7fb4d8b530fd8aff; 0x18e0eb4c33be1251; 0x53ccd7b4d1ab8e05; 0x1c93cedbfce7296a; 0x7a8121f48b3ebeed; 0x4317ea0efb92b7ba; 0x774bfe5ab26f3bf; 0x50e98434f15632e5; 0x48447821dddfcf38; 0x2eca6feae910239c; 0x42d66e624c48bf6a; 0x623f85fd69e22d34; 0x6fdb8af5cfa4e8d6; 0x78ddd4c39956caf3; 0x76c54393557a63ef; 0x3725d542aaa19c49; 0x2bc3890f4a0939a2; 0x44e650bc163b2ecb; 0x15a172d56cda025c; 0x60c19ad2715226ef; 0x45de509fb5ad87a6; 0x15149ad31a51a6b7; 0x1c75de9a5f0d96b2; 0x458412ea3971cde9; 0x1c45a6e4627f9d77; 0x7ac1ba12b94832ce; 0x12137d6bd6bb0224; 0xbd8047bc8ec9e94; 0x7c307df3948a54b6; 0x7d4ef9e44757c723; 0x24176261a2269300; 0x39d60848d9ee0a89; 0x5ef6cc0d1f171a5e; 0x641f88b71349fcd1; 0x7637e2b0292c1f00; 0x4370e4a804b30561; 0x6245c4cbe7280aa8; 0x1ad0f5392b42c3b4; 0x645e80b459f5e81f; 0x6c375e7bd3ac7897; 0x48129364600369f9; 0x6aef6258304e16b5; 0x3969f83c41dc1383; 0x7e614daa646bffd2; 0x2dd556077364ba91; 0x7f5610264f2fe3ff; 0x58fcd1ff99eacbc3; 0x3b9a1691128f0067; 0x6901a9ed62a68ab3; 0x5523a28aaec7ec7a; 0x6e5382db57bacf99; 0x25a3575a1adf6044; 0x6ff637d9063f716b; 0x4d6a69eb61dec8eb; 0x2f52bb3a6ca39c4d; 0x4a42223096d602a7; 0x60b577771eadf191; 0x1259cb1a713b0325; 0x433a2b733b559812; 0x6a4aef12d5cd4479; 0x32339b42c20bf990; 0x1b7eab361854d8a7; 0xd9735e20a2ee6b0; 0x6dbae3983d860108; 0x7e2929aef6ba8206; 0x77bda232ead2a4f8; 0x4e4a2077966b6cb0; 0x50ea81d9359e4e6d; 0x9e2ddb1d55ba68; 0x66d0ab0de88b6068; 0x429b849e0ef854c0; 0x48d351df8519fc0e; 0x18d6b555e696b5e6; 0x30a685ced9de1932; 0x378258e3c623f85c; 0x44de080e95dab4b2; 0x6927cf110d6db783; 0x30692d5ec39b5a47; 0x4ae652d162390d3; 0x68ce578b8e1c85f6; 0x5eb06da2fb58b2c7; 0x2bdcb4064e3f4275; 0x1512924f2b9a6998; 0x5934ccb1a888e118; 0xbfc8480351b17cf; 0x259a1bd9c3946f22; 0x4785dc414c020305; 0x34f7ef48a7b3f8ae; 0x7b9cfb29796b14e9; 0x2513be7bee94d30d; 0x4a8cb7cad2a47bc8; 0x2b4097d4e82eddee; 0x2e3b3cd67880a427; 0x210ebc61e9fcc4a0; 0x6b847b5d29943a35; 0x17671be8d41bd95b; 0x4496dbaf8cf39856; 0x6d5e1754e9003758; 0xdab4300ab1ab0f9; 0xbf66773f320ff95; 0x6962460ea2edb98d; 0x6dde77ffac3c303c; 0x75cc5e95f91ae0ca; 0x4b83b95bab082872; 0x47cd0b3b025050be; 0x58c96a8e483c3137; 0x687880f04842e4d0; 0x384929cb3c1a9539; 0x7211d1c6bb61cf9c; 0x1e924c681776727d; 0x22139a3dae2a50cb; 0x1f848806a3f1bf27; 0x282d149d26e43a05; 0x55476f3833c0590c; 0x3335712b6a1fcd02; 0x251959fe57640916; 0x7b7f959970ecf9d3; 0x4f8326e23e15bd8e; 0x147d380a69fcba08; 0x32bd9c6fbb5026fc; 0x7aa24f7ea96635ec; 0x63c0ec098b34eff1; 0x307eaed39774eb76; 0x6392dcc1837c4c29; 0x5e6e3aa2e84175c7; 0x2ea5271834791fc9; 0x419d698275d11544; 0x451ff803506fab13; 0x1c04c8621de271e2; 0x61f4b29ed0094a4c; 0x4587c5b1e994cc9e; 0xf7ea1ba44b19266; 0x7d0e52a669281484; 0x6641aee07709d544; 0x297e1bd5590ec737; 0x401880bf7d441808; 0x11175c606c2c9d64; 0x65c502a3a033da01; 0x5cbd860e0eb874fd; 0x4f4ea93632874768; 0x1404489eeffb5; 0x2200a82020aa280a; 0x5414501141510400; 0x28a00a820aa0008; 0x154115500455115; 0x2802820a88082880; 0x4151041155540455; 0xa28088a22aa2a28; 0x445555504540444];
   [0x2acc0ddb4dfe7fc3; 0x395722cdf6f54b41; 0x7abee7ef00103617; 0x5838db0d582c784a; 0x2e05f50090104b87; 0x42fc3e71f58a1296; 0x4c0864e3d695a15a; 0x6e8a5ff8ac29eb70; 0x1d343bd5981ed00d; 0x4655bbda802f42b3; 0x4c2b3d6829c14808; 0x1af80eeac94d888a; 0x6077d6a7d9258638; 0x37beb2cb39fb798e; 0x551f91c7e111277; 0xfa223ab64af763; 0x41f8fb0c3672c2ee; 0x71e4aaf46e93503e; 0x3624010a5bca8dc3; 0x4d6cf9c0c5ec40f1; 0x605cf597dfdfcd7a; 0x5ec7d41bd856e4d5; 0x2ac14590ee873d4; 0x2adecdecb52b2b7a; 0x7065c9b2ffb8c791; 0x5400606d8715fcf4; 0xc2d82af13258313; 0x37a58e446e58fe94; 0x325e59fe0259a1c2; 0x70abc332bf1a6fe9; 0xf9b5cc6c4061d01; 0x139c099273dda72; 0x3d882f7a45032d67; 0x2e41c68d6412ff8; 0x5d45b5b7050091a1; 0x6b55709f4b508845; 0x5e11c3e398fbe3cf; 0x7e5b7559ec2cad17; 0x69795b1f8666bfcd; 0x53bffe4380293f02; 0x4c6649870ebf93a6; 0x506450ab419aa1f; 0x620d3bc1801b682a; 0x1cc4478b0e6b98ae; 0x40b0961f989f5aa9; 0x3605edb1e5abc32b; 0x71ab409a143bd394; 0x78043f24287509d2; 0x1307f5cb72920c14; 0x5afdf0032a434098; 0xb2b9c9716f306d0; 0xe8b5939d8f6dd03; 0xfd46ad76335ee54; 0x2b6f2bcde0cef75e; 0x350e0748b1999670; 0x501f6a3146c44759; 0x408107cc29398318; 0x192cda995e104b47; 0x853c1422b050b2d; 0x22056d4fa005ec66; 0xe1afbad1b2308cc; 0x4e32b5f37e2d65c9; 0x44d0255eac7781d9; 0x219e3f91ce2cacb0; 0x776c62437a50a621; 0x481a9531ce4ca3fe; 0x27b692ce5da9045d; 0x1733fba6a07b47c; 0x55759f420a355083; 0x42e7e04486dbdd6f; 0x77a7bb869336b9b4; 0x2c299ae7c193cc23; 0x19ed0db1bbfe398d; 0x13c0be14d1613751; 0x63716d52e3337852; 0x35e17d5c4fd4a79c; 0xcd40fcc82646002; 0x43601d6a82b478ed; 0x2623f16374465162; 0x37a89f6731a2aa78; 0x7e79d0f1658a82aa; 0x444a04e921279a7d; 0x64c70f74c00badf7; 0x240dac4721f22418; 0x4b181d2eb844d0e8; 0x1245ae7ad5f79e2e; 0x5cf297ea76f4ea13; 0x7ede0091edbca70c; 0x3b89fa4e2a2ddfe; 0x20269a7909c9ea06; 0x5a4a790d46379d35; 0x47e218cb3b8762d6; 0x6e566d993d46b632; 0xa65c7744b4f1fa; 0x5989965916ebfe48; 0x9c7d05fdf860a37; 0x43105f57e3a9f83d; 0x274bec57e1e81b8b; 0x23dec834032eacf6; 0x76e56e413bd8bec9; 0x2ad327de00edc652; 0x5635c5abe83b364f; 0x143b90ff02d8f1c0; 0x3f476c2e08f66270; 0x28d7a8043f6b24e5; 0x21ff47718f9a4048; 0x6604ce4cf3a06bb7; 0x2a25e5b7c6694478; 0x2931afe3c41f9b59; 0x6461fd5e868bda68; 0x31ffb70ab2c88f29; 0x6295d3dbddb85bac; 0x117ccae811f1c912; 0x427994788faf95ff; 0x3d162767250cf1ce; 0x364adfe02be881c2; 0x37cd3c84b3afb72d; 0x5900e73338b79f4a; 0x244fe1a462097d50; 0x79e5809137f8cceb; 0x1a94f82812c95601; 0x15d6d57b6cf3b99d; 0x66aada6bc99976b4; 0x44978b073763ce93; 0x21d52d9be7637b74; 0x77ec55b3fe4ed148; 0x56260e794d1c5c30; 0x22a11992347bfff0; 0xea2909fafcbf628; 0x950f2bb0dc1f1c9; 0x42abda134842ae19; 0x3073aa462d8c712d; 0x7486c58abeeea8eb; 0x1134f5eaea941ebd; 0x5f1ef227d8db725d; 0x61507d5bfef20d62; 0x74e73ba6f058c9df; 0x2804d4bd30839dbf; 0x6b306f6d3b815e2b; 0x4cd7e1900fe0b76a; 0xf32093d0b3d3bcf; 0xfe6fb559443e256; 0x1c9ad18996e4a711; 0x3d8d0b7101705fb; 0x280d0feb8ebc41e9; 0x34b689544eb9a96d; 0x2337368bc42a3f9; 0x43426c8d74c51135; 0x7111b34e5f73f817; 0x7548fd689b744776; 0x31743ac4ef001a2c; 0x7269758a3ce9c6f2; 0x563e9467ad5629d7; 0x706f4aafbb1ee29a; 0x6f77c64ca632f57e; 0x7714d78fce1473ce; 0x1d75b885e78db071; 0x6ca676bc896fcb23; 0x3a0638ab39791645; 0x54076f19056f6e90; 0x23c78812d03f5f9d; 0x560d373c906de17c; 0x54808a13de37472a; 0x681b07922f6abe99; 0x634e8a550cba5e03; 0x7d1ab3d9059265ff; 0x2b4a69eb07cf1d27; 0x5c9e2046ec7a12ca; 0x3d97f6ab261c455c; 0x1e68672427521017; 0x8949b0d4006c758; 0xeaaee76e0e061e; 0x24f5bf7286304ad4; 0x40018b800cccc8fa; 0x75bdd4d2d751afa8; 0x7b72e12fcbf0ba8e; 0x1ab29973bfff29c7; 0x33e76e26e9525df5; 0x685f8551af09f13c; 0x314f506e22de4c85; 0x2a4f7418116387e6; 0x2c03107dd8eeccda; 0x73c9d1892d08c66f; 0x5942484d26f24be0; 0xb3c7a313033adda; 0x4e3a012fe7196ec6; 0x5ccf7e0ffe4cd705; 0x49e570bfd9858699; 0x78528408c7c92e63; 0x6a7796c249fc0ec3; 0x2f1d9d1bf569bc88; 0x7e459620c5dea353; 0x251a9894b7a3cdde; 0x6571ce0f4bd358c6; 0x46ed9c6099321b5e; 0x78fe6243175468b5; 0x5aefe364cf12c9dc; 0x223e656afad871b4; 0x5e3a1fc72946665; 0x59a995f483f14c81; 0x3500eab2bf97c16; 0x382a7cb7f45251f3; 0x172f57fd9b755757; 0x7265cc95dd352a32; 0x17a8e0581f600af5; 0x60613032b66a8d4b; 0x2349ac8f582c5d40; 0xdb3d7145f2b8d65; 0x6ecdb654433c7550; 0x78c957d4df0bd879; 0x6b238438c433aa05; 0x3af5f4af77e78f47; 0x18e12f901c65c7a1; 0x4357e4388ebcef4f; 0x706ad3a206ea6720; 0x3f8bcb75d6480f70; 0x257e4df73cf6b1f1; 0x19035fdb0ba32814; 0x1ee4cf4a10932a3b; 0x72402f4727f3689; 0x15082d5dfe836ab3; 0x7fae4cace09e2b88; 0x4c48f1c0d94e5eb6; 0x3278e4f6b230316b; 0x1c4bd402106962ac; 0x4d2145f26cf88939; 0x64d381b238de9b4c; 0x30dabb9a2829ffc; 0x55cac4e4f374a91d; 0x5906b6becd680816; 0x30c1e9cc7a5c0685; 0x58ec317dd9e76660; 0x7aecb0275d4c9004; 0x4db4aec49bcfda72; 0x4b62099f87783949; 0x5f6f2e1ee8ef12f4; 0x618daf963b3f5e17; 0x1d09c7e1889e9c76; 0x28a31926c0e1f03b; 0x6e30a980f05ffda3; 0xd425b662b4c917c; 0x1ac4bf7eda1694ac; 0x341511af54eb68e; 0xeedb763c4a707f3; 0xb3ee1346a4a6f8; 0x566e8104c740c9cf; 0x253cce46c3d7999a; 0x74038a32479166d; 0x2aa789a28a849ebb; 0x5ce2eb8b4247e0eb; 0x5e4c148455e2691; 0x513b11681e7def86; 0x32213192b63179c5; 0x3078930949542ec9; 0x5da02fe84c26c7d5; 0x3fd764ce04a3bb25; 0x1067ef93f1286830; 0x3de4f90e6e966778; 0x7dfd8f8ffe3f8500; 0x4159d47fce8b9c9e; 0xb04b62ffae65c5; 0x54db66f78606bce0; 0x5733e654a702d182; 0x6d796804a00205da; 0x3334b6884a9a765e; 0x7c8ca1a92af26aac; 0x4d2988226cad98c2; 0x51bef9e03920938d; 0x3f5ad54daf79c06b; 0x7d8381f5031fb473; 0x2f0b8fb0ba50b62; 0x4bcba2c66250d87; 0x202e22f64f9ecea2; 0x5613ba619bb91135; 0x2386bf33f41f96d5; 0x33bcda3724ea2113; 0x6005fb786f714f08; 0x1f740ae154fb0d2b; 0x79f6ad19cd808900; 0x1538f98f21cacbf7; 0x79fdac2c555f4327; 0x1f4dd020d5bad44a; 0x87c5a6e37e66ab0; 0x3a51f9b62881c6c; 0x2e7ecb583f4ee690; 0x74293da1c45189f9; 0x339da09ab886cf95; 0x32014343ab30af19; 0x4dd73a7d0dfaca6; 0x2bb962c3638de520; 0x1c6a9a91eb1f86b; 0x54f95e4767dcd5e0; 0x6d0fbd288cf7f21c; 0x7e8494397ee731b5; 0x6e968ff842a8e4e1; 0xfaa5911049a4913; 0x7e292842780c16a9; 0x27ce440fa8d90f6a; 0x5d77ccda0699ede0; 0x7f385a1041321721; 0x6ae662eb9453349e; 0x3b528c88ace5d6fa; 0x3f4563adfc343aec; 0xd9f1ebcc530c688; 0x3471e7fd8a68bdb; 0x5d5bec386d237acc; 0x75c76873713aec70; 0x444dbb96a7344cdf; 0x5504451fee8efdb; 0x22880a2020888a8a; 0x5411150155405010; 0x8a282aaa00022a0; 0x1410045151401054; 0x2a20a8a8a0220a00; 0x4540510111551115; 0xa8a000288208a88; 0x555455454440445];
   [0x317e3d6a007f2e6; 0x5cf590e3e340f03f; 0xe75836d60174be7; 0x1b2f5a60bd8d184d; 0x40e0af4a6135a975; 0x437f93acec7f3f20; 0x7c863aba92011148; 0x4265077cf7141d36; 0x7c889ada48ce2823; 0x14633b27172b57e; 0x78a7b0e3531d0f33; 0x3b7ea37d93d84bbc; 0x22d403d15d2c2a74; 0x2ec0d2a625ea5c8f; 0x465fba2a8c121272; 0x426e500feffb5a63; 0x200f7eb4d33d1eb8; 0xa9e83b4d24b0ca2; 0x5f07a098cc6b76c0; 0x798e36f94de4d38b; 0x4514fd0ef659407e; 0x62a47838450b5d05; 0xf3226bb7cadea34; 0x611f682c3f6b8adc; 0x5e548cd4991ab433; 0x3188aca6634b2153; 0x73101d04d11af12b; 0x2bbfe22ec23e664b; 0x71ccf69969fb6d39; 0x553a4d4aabfe1eca; 0x6e8d38de5bcaed61; 0x2241d357f357eff0; 0x5e114c00cfdb9c93; 0x288593b5e0af4af7; 0x1c5e61bc5fbafec8; 0xba1f29fd52f105e; 0x2dede6ff7fe07652; 0x632c91a72d0b1cd0; 0x5f907ef789b2a230; 0x337ac62ea8d1432c; 0x2479bb11f7f9414e; 0x41b8abba0b6be785; 0x709534f1907407d4; 0x15c0e495ae8ac98; 0x7240bc250a0fd2f4; 0x51b4a03a4aca1865; 0x558d6841873693e7; 0x6cdd4ae5c78b78d4; 0x5f0454a9ff178b3e; 0x1c9bc896512ec41b; 0x3c619ac10e415ce5; 0x33c1cd1b6376edec; 0x676fd1b08c6978ac; 0x60c9be85ff5f7278; 0x4bd6b1dfe85cc32a; 0x2978b5a034b4a947; 0xfbcb714af646cfd; 0x407a3045d5990880; 0x42c5444d445496b4; 0x338983f47772aa33; 0xe0cbb3c7514ad32; 0x26d71b0fca4d351d; 0x60679fcce2ea656c; 0x3c5e7a2a473cf6b3; 0x5af9f7fdcf2aaed0; 0x64369e2124c099b2; 0x554c5a6765000fd1; 0x29b83d537e09f0c6; 0x410f55a3c6d1a3fa; 0x1791c3f219d2f11e; 0x4d306b6ea6171bb8; 0x1d75c676a381d507; 0x6f2a597e358c791b; 0x1bac56abf67aca9c; 0x2dbcf43ed4986848; 0x2af3de0d99f81913; 0x7f6cb045163def01; 0xe8263b282b5897f; 0x35819f41d598d4a0; 0x6959813c23039766; 0x449e29f5ebf2a820; 0x8633351ac6c88b6; 0x2711ddd95ac3a7a1; 0x54252991f47aea6c; 0x7878372566a50334; 0x7976905105f434e8; 0x6f93ced9edc27a16; 0x1d63121488cc9334; 0x2be4dad1469680e; 0x26be51e08717e28a; 0x438b55388d1f61ca; 0x1932525e56fedc67; 0x5e0826653970615c; 0x1ae53e2cac151d7e; 0x5d8f9b5d82103879; 0x4646e144d4f1e20; 0x55d4811a4c83c050; 0x1c12505a72395b3e; 0x6cd9c7a1c25032d3; 0x113fe477a81abacf; 0x19ccf2ad66ba71db; 0x1db28c5d7e452b70; 0x601604c767234039; 0x3243295fe8d082a7; 0x556623dcb3d77ace; 0x7e3903f2cb481990; 0x425809e9ccf65284; 0x3dd2e77bdefd5ae5; 0x5f68b85d5443525a; 0x8601bbc05b596bf; 0xa8b90a238cbef14; 0x3b4d0acd08efef43; 0x15eacc32ae6bb141; 0x1bdb9d3297a7c1d4; 0x49d2d7b4fc04b0fd; 0x5a31f367c7e5a833; 0x7640795d3506e85; 0x447305cf3155e18d; 0x4b6a312b7b8ce856; 0x195f76cff254deba; 0x228ae564c0655d7d; 0x31280079f748a61a; 0x72e0fb75d1ecb73c; 0x492bc032ff864028; 0x57bef3a7941f7947; 0x26b510961c96edb8; 0x7a76f94e54272d78; 0x543b4ebd7aadd1e; 0x1ec7b9a636d9089f; 0x7a3aabe0a6b8ab8; 0x56e8caa6f99f8bab; 0x686e8ae3cc845637; 0x56ab3f8bfd094ab7; 0x17fb9d3eaf8aefdb; 0x16e29c1984fe9395; 0x10c925c34aeb31e1; 0x4ef9598185a72980; 0x4ef6cb7b5153dad4; 0x736f90cd9470a01e; 0x330e1e088b245313; 0x4105e81f2947f46f; 0x6c7d568ecb023693; 0x374712e91e501fb5; 0x79de40303a6a20dc; 0x5427e01eb41af5f8; 0x443386f57c3b0b4f; 0x14203c8343e08a23; 0x692c2a5bec2b58fa; 0x6935d58a0c0f58be; 0x6dc185b3a322e030; 0x3d06da3dea0a64f2; 0x70447c91df92e76e; 0x2d0c838e78a64e43; 0x4b4d255322c2f2b2; 0x58f5d29bd58deb24; 0x37733b08fd6a653c; 0x34587afefab07d6a; 0x6c8e3f141f46356c; 0x3bf811b10d84db1f; 0x27e4de530c0f4971; 0x17cdca9c0e1cfdbc; 0x7886aa1085d95f9c; 0x1bcf343bc5bff550; 0x1a3496816aa9fac1; 0x1675a70cf35bb9f; 0x5308d76b09c6b2a6; 0x7f217e3451ac8e3d; 0x389d06299d3fa965; 0x538d927432a75fdf; 0x2c1d400d362b6231; 0x625df27d2c85b059; 0xea479fb3e881340; 0x6dd3e4e1bd5842f1; 0x476741a6892f4b9a; 0x497a92649f71cac3; 0x5a8e56002de99b20; 0x44541ca956b64ea7; 0x8bd92e327ee21cf; 0x457dce849839c4ff; 0x2ef6869751a80ff5; 0xb45c32313a89ef2; 0x2068d4052520b821; 0x65592969ff7990fe; 0x7cb4aa58f17a9dc3; 0x5283c0c1ccd551a2; 0x41e575a1447ba1f9; 0x49a455c09d9d2b29; 0x7581e68a6705869e; 0x2b0b79a952db9bd4; 0x628e7362482bbb6a; 0x283510af057c9ce2; 0xe1771950dd04602; 0x198ccb76498c5cb3; 0xf21df78945f9877; 0x12da95f9868ef982; 0x6cb7c0c8af273b9a; 0x2d9f38c98d4ee7a5; 0xf097c4a0045a073; 0x28c5b3c01b0a8ad1; 0x7c2528ddd1b01505; 0x2bdb29c41a613b01; 0x4e0928664cc7b97b; 0x2db2d7e3a825c9d8; 0x12bbc7067e407424; 0x4706f56920d6d021; 0x537a2d20da4900c0; 0x2380febe8ba6a4b8; 0x71cc2c9f80f82320; 0x511a6de867f85d38; 0x4312e27515a42d9c; 0x47008e0fca8636a4; 0x4a598fc169643871; 0x29f6a96fecc75362; 0x812246148d2f26f; 0x27e6bf4a0c96166b; 0x3b9b00488f6027e3; 0x515a1ad95b2c582; 0x4591f1210d6473d6; 0x4082fe7d9f6f08ec; 0x328e09be63c0dae4; 0x54001d1f00e01ed5; 0x6365bbbedf875410; 0x4802cc3a72938308; 0x3815b68fba0c6a16; 0x75c1c8da973d8957; 0x65bf4fd0313fc9ec; 0x45352b790c29fe38; 0x6979dac89ec62bb5; 0x59ab853512456e90; 0xdeb975a439b571b; 0x25fdcf1c894fad77; 0x4bcdef52db764dbd; 0x11d35cc26c0b2c17; 0x595a3c7b0d4f1ae2; 0x6718343c73d13510; 0x55f0f1248faf8988; 0x7a3aef9a37c62889; 0x143e43555365b03a; 0x2da821fe8bc2ff5b; 0x5848b73a0d4fd106; 0x435eb9497857ffe9; 0x5e2155a1e6084654; 0x12ff8febabcd5c20; 0x7e12206374b6848b; 0x6bcaa8bd50835e88; 0x31d7770bb39d61a; 0x2d921cecfdae60f8; 0xf93bd6aae557479; 0x4ca52c76f57c0004; 0x79d314cd2e1383d1; 0x5f07e9ef183acaf4; 0x3ea1fd715ed9b1b9; 0x4a58c23cfc0dc9d; 0x272f41054826f0ed; 0x1ae865356ac3b167; 0xea9b06fc154d97a; 0xfcfeeeec085d6f5; 0x3ba1934314d86b24; 0x74246f623a420742; 0x21cfb664a8e5d3bd; 0x15f750429c283dad; 0x5d34a27c40aaef; 0x7b0a586aaa9e1fe6; 0x69ed6fd401383573; 0x16e32c0e9dd99e48; 0x37d05a781e0fb67b; 0x63c278afe11aa239; 0x79d82d8bdcc2a59f; 0x469e572d1d44e836; 0x2364501ba2b7228c; 0x557f86970d5f4192; 0x524632803bf6940c; 0x442040ecb1f70e83; 0x73c9117121ed21ff; 0x2aae44b5914d9265; 0x2683583b50f8722c; 0x366bcb494bfbf241; 0x6850da3eedd708ce; 0x6848d5b829f0541c; 0xe1353a57101ecd3; 0x50848f6188526d5e; 0x7f8c1fae4c1a184b; 0x51c6571d106e8baf; 0x1104a336f2b6a270; 0x11bd489d3976231c; 0x4cbeb1f0e5010df5; 0x57de9c90e832fa99; 0xc2ca48258a905ef; 0x733abf3bee2d2a93; 0x18c7c0f49cf228ce; 0x3407c711ac5822ee; 0x67a71e219c8967e3; 0x2ba467f8cfca762f; 0x49541f7b88f391ae; 0x71d4f322330ab1d6; 0x1881c4a087df5249; 0x74a721dc4cf9d72; 0x5d89e4d97a42e3b1; 0x811f741d755bb73; 0x3f0b4a819f2eed34; 0x411b62b4418f5054; 0x7b9631c519e7f55d; 0x21928e2142d3667f; 0x7eee0876dfa8986; 0x69f5f61e3adc266d; 0x1abd4672f0ba247; 0x7b8dfdda88634b9e; 0x4149567895926874; 0x4011045c499f0e7; 0xa0aa000a2aa2a20; 0x4111005115445444; 0x202a82088aa2a082; 0x4140155004450055; 0xa2a202a80820820; 0x511140505105145; 0x288022a00aa2020a; 0x404450514145501];
   [0x2c3754f4793c1a68; 0x28cae53c7192d894; 0x757c841474caf19f; 0xdbbf7aa85b03124; 0x2671c08f20940f31; 0x66863f43664c4d2d; 0x375c2616eded655e; 0x7a3ba893600f4dad; 0x5fce070be9828d2f; 0x69683b7884754206; 0x3fe101655e42e213; 0x5435c40f30415986; 0x6a9899db8c2c1bf2; 0x206ff63430adbaa9; 0x1f925af84f105f44; 0xd75b9e7994d124b; 0x130e50369f82761d; 0xf218862402a889d; 0x38607f907fcdc9b6; 0xcc09efa1a93d557; 0x50fc94de0cb34687; 0x3a53540161f9872e; 0x2db83c3d88c6ea20; 0x601738046fadf572; 0x791ab2b2bdb1f8ac; 0x355d6cee877d15c2; 0x5c759b32dcc06dfe; 0x252d488e186ddffa; 0x4a9e477a040c7ebd; 0x7706ad3484239d42; 0x6d5ca49b60400adf; 0x144865d50d9445df; 0x2f141d8d479aaa1b; 0x601b3f5c21ed28b0; 0x14d7f0be22918f88; 0x2854e5846d7f4374; 0x1b7ec6ec01e90f8f; 0x5cef5eab753dcfbe; 0x1a6c0caf0c135439; 0x25997b44bd5ac636; 0xadf4d41fa796ee7; 0x5669ac96357ce90c; 0xbfff365b6be1479; 0x6a5fa3f55b6ef481; 0x30e0f58b2b985dc3; 0x243ff1c27b19ad66; 0x1f02c1230b287be0; 0x5f60f720e8910188; 0x3f7083ea89a5307a; 0x65ab69437d5799af; 0x7b4628e92f343cdf; 0x7cccae7987b2c66; 0x6f541e228a4ad01b; 0x16ad4f31e12100c3; 0x34fa250263cccb3d; 0x3636be5f7327ba7; 0x1c779c7dd13f6d8; 0x245c045e0ae0f1f7; 0x55e9a00f37b96d2e; 0x64168aaf0caa44d1; 0x34c0fac5cd5cfa73; 0x666b236822e0cb6a; 0x63260e8dfce25cc7; 0x18873a5a58dcefc0; 0x385ba7133e16a942; 0x291d3c5aed85c315; 0x7973fc52fe270e17; 0x4a8b1fdb96e73c08; 0x1188cfd61191f149; 0x42df846fd646254b; 0x33c4a9cb636c48e; 0x157dc7e40ebc0972; 0x7e09c65141373314; 0x1cee315c60efd1c; 0x5a6cb2c05f2e415; 0xfda6f60bf5c9a5e; 0x5c2a73aa1da307b8; 0xe7b6431bde6765c; 0x3faab762d36dae00; 0x32f2073feefccde1; 0x574279678d52be30; 0x676bdb6580c99f3d; 0x2b4c2d463f011c84; 0x402b0207c4ce858f; 0x56d60e6eddd5148b; 0x3fca4761335321c3; 0x5f65d979dc018694; 0x34fcd7330e6a71a1; 0x70cb5103e2f13d4a; 0x219e5134268b2d66; 0x138146d126256646; 0x57eb57cf3d11342e; 0x5e799ff6e8a26baf; 0x327dd9092a16df40; 0x3feb55641727c445; 0x6d02a095858c52f1; 0x59842d3a40066cd7; 0x2ea2b9754022f83b; 0x22ecadc8725e0759; 0x3a971aca00111473; 0x399a145eeda05f27; 0x144879e9dcb41fd4; 0x2f8fad1cfd31a608; 0x2cf7fb7adf0191c7; 0x56163446a9a8aeb6; 0x3d3afa3595a5cda2; 0x42041213049086f7; 0x5ebbbce78fa851a4; 0x5f8141fd519e965c; 0x6823772d63d324a9; 0x182a9d7daceba625; 0x6c918fd0df0f2b38; 0xdbd6f46bee037b0; 0x1f1fe1b445d7aeed; 0x4d84b0579a13159c; 0x5b43c97cfbf240ad; 0x65fa90819dbc39dd; 0x686509c2eac505b0; 0xd927dd0845efac2; 0x6b93208bd7a10b3a; 0xda22df0927a26af; 0x57bf9ab685e0f4ed; 0x6b1f60ce5007d55d; 0x2cdae04fcd992e48; 0x763b447cfd914dcc; 0x3ca218c7c5b51b69; 0x657539838626daa2; 0x7fc34a7e01e5af5d; 0x4f773e5e80928d5d; 0x36b69cf0dd4db626; 0x255a3b23d357dafb; 0x14416fd9f920559b; 0x1710d1f66176bd38; 0x51ece4d712acb5d2; 0x625a3392d0e2acdf; 0x79f47c6b0e33b8e5; 0x1f26c551a9916092; 0x28421b4ddc5f698b; 0x712fd0b5f0b94f5b; 0x76b7607dac849094; 0x529e4ac3d1200be4; 0x700dbaeee39c6969; 0x656a4b84cd39b833; 0x49d855bd7c19d0f; 0x143121afa22d9365; 0x4841f6453b2e7363; 0x3c06dc9c0f3450c8; 0x72010153f280850e; 0x7987d49867dfea26; 0x5c771877051e4495; 0x32a801d1890ca940; 0x58fa5fca0254632b; 0x6f61f07f20ef126; 0x50393c0a3a10f305; 0x5bca012cf8bf5e91; 0x11e384430d520f5b; 0x76ada08b7f97c015; 0x77394ca9b3a0cd3d; 0x5eaa1101ad6ceaf4; 0x3373e38d24f038af; 0x28748de30eb8577d; 0x2101d9e6f1735be7; 0x75a5777e79a24afe; 0x56612f9efca65765; 0x2ca41a76a91aa9cb; 0x2c4b62e74bd92c84; 0x42943005de553816; 0x3f22f08b1e52e6a7; 0x20605101c9c5484c; 0x11fc0368396778ca; 0x4464b7577608266c; 0x49e74f339a6bd6fd; 0x3480a34e01b105ef; 0x54a96a2264592616; 0x779ca47cef62e196; 0x4355213e0c7eac50; 0x1e68d7a441cbbf9a; 0xc7eb250a18d6dbd; 0x36964158dc9244db; 0x491b5467b483bdd4; 0x47d97858dd8b1ece; 0x72b044cf5bdda8bc; 0x2dd06a49e234fd4d; 0x14f9007181423a76; 0x678b4ecaa9aa97d2; 0x7252d695255addc6; 0x4416548b55cd7759; 0x12300bf08c38cbab; 0x74144b355f10a85e; 0x66238d6c1236171; 0x3f1e830df853d982; 0x5dbcb857f1547006; 0xeea92a5d4c4a34b; 0x538892ffe962f686; 0x17cb2e99ea530682; 0x5074ab620537e68; 0x576f7025d4649d6a; 0x5b34e92773795fa4; 0x4af036c9440c7bbf; 0x5b56c3fb0222d45f; 0x23568f405e375b04; 0x6a32cae0cc8c6281; 0x70d2a1821cec21aa; 0x3882a62eb20def35; 0x7151e4397178fdc9; 0x52d8567e4c42a3ab; 0x692741aeda59a4ff; 0x7e0aed18b2cb5e83; 0x175bbdb2dfc7e29d; 0x16226e787dd64480; 0x6cf5159995ea36a0; 0x1f75629596ee07e2; 0x5faccc2f32a81d89; 0x3d403489afb8d779; 0x247707cf9f8d0840; 0x47768b525d402a67; 0x41192a8039c9ed2b; 0x623528cb495b9647; 0x101f717b91da282a; 0x21a2a0f290ff19fe; 0x146824bae977df18; 0x7c60ae40e7285a4a; 0x34cd45eece7e3c36; 0x63d3fecae1c73197; 0x6c4bb3f9998a1b42; 0x7bd166e473d19249; 0x95a7ac6a559e731; 0x4f9274e35f4b2d92; 0x6f546b777d7cf5b0; 0x61dccd719b164e52; 0x48bf007f9e1b5747; 0x30546666e69e6740; 0x490b80acdd3074bc; 0x707a9a35ba0cc0ba; 0x4e4804dd985f8dfd; 0x40c2e2f55c4651da; 0x213d0caa9328b1b8; 0x18f8e1d902cceda5; 0x420beca885c08a61; 0x5413ea3c5e859dec; 0x29a2155ec51400fa; 0x1d54af0de45d451d; 0x533ceedbbc66412b; 0x6e62b117c5a88e7e; 0x6e0b1399c1771fb2; 0x671bb3c561d9caf; 0x3a8c4f1c99e11591; 0x7df1648fa01c6f1e; 0x1230d123c2de2bd9; 0xf5cd5bc5f3c9d18; 0x43fef686e505f143; 0x1bd17c7f527df1f6; 0x1ba954a191329f51; 0x62349a9a1998e5cc; 0x76cdaaa5cb350851; 0x76c5899f00684ab; 0x486d3851215ce689; 0x1b0a285805af059c; 0x6a9bba4d2fc6d8f5; 0x7b37ae98160ac399; 0x558a552196d4c4f2; 0xcd4ab5181a4caba; 0x646f3e28f349b957; 0x78734c6ecdca4d56; 0x257e67e5b039780c; 0x21c3e988109f1538; 0x7698c5a960c30cbb; 0x60ee417dff2be009; 0x4393b34b960c9940; 0x37734b0c447518e2; 0x17697c3dbe4989bc; 0x906cd58ee5c0fcf; 0x1b13dac063aba8ad; 0x2745ff95b38577b2; 0x201dd3e3b28225d4; 0x6286f166e987163c; 0x5d9bbb80e0429d88; 0x697b07b81a73f381; 0x3ef7a755d4a260f4; 0x5b3c2d92cd3bb74d; 0x2d067b0186ea846f; 0x5944c83b9f844b6d; 0x111a77ffe98beda5; 0x7967407f9f7f7409; 0x5791e60e21d36be7; 0x33f2075796d1bf4c; 0x450bf8ce73245d2a; 0x133b213ab3989ea9; 0x55621975cea12d4a; 0x372cc786ed3bf12e; 0x601de00fc9cb6ad7; 0x34b85ca64afc6962; 0x7908eeb83cbc12b1; 0x408f4f00171e38aa; 0x291778991e233870; 0x239a8088a22a981b; 0x55196e812c5b4341; 0x5527812ccf0fe6fd; 0x382b3da8fd43e28b; 0x476de23953ceb5de; 0x86f82e3d7971663; 0x68c6d294aefd84c9; 0x75a73f8abd10061b; 0x41e7b8c95606182a; 0x7bce16a0705e052a; 0x4a38039ba627812f; 0x1b11ad9b57a701dd; 0x3728006870015026; 0x1010541e3aa8773; 0xa0a08802a08228; 0x1555515501414500; 0x282aaa22808a28a2; 0x40001404514015; 0x220a2888a2aa288; 0x541504014044045; 0x22088002aa2a2aa2; 0x515541111505151];
   [0x76b6644aa8498da5; 0x4a3716908e247756; 0x5930c3e75f7545bc; 0x70d49b49af49014a; 0x5fd80f19b74a2ad; 0x2faf0e8a3a8fe678; 0x41b9d9f8c97452dc; 0x6f1db37b1666a2c6; 0x6d6d149d90b327b3; 0x4d2f0ab5196a0de; 0x4d2c74d2d1bb7a48; 0x77c6e2fa45960899; 0x73f655b78533c017; 0x140727ab1e842e51; 0x61ad9b4ac1da6d63; 0x649b394067555817; 0x1ee8a8ff129a927a; 0x28f7e56550437db9; 0x6b17fc174b6ff34c; 0x4c6648c71602187; 0x56e4e5dedb16114e; 0x60b1f7ec0b8cf6e6; 0xbc4f756f7665ac8; 0x1559c91ca28febbd; 0x2492c77f1cbe83da; 0x24286959bca88b9c; 0x606f752b9444986d; 0x4d340fca0d5396f6; 0x6eb1d3294f5c76d0; 0x4a43fb290e2d8cae; 0x4a3b96520c2bc117; 0x78ab193cfde623aa; 0x4e99e303092fca7d; 0x7cd6331e7cbc97ed; 0x24c841d200c56990; 0x64c71e132e722dab; 0x6dda9a12f22fc75b; 0x73c174a905fd8d31; 0x4b146a6328a34388; 0x4f1a0e77aec146ff; 0x47dd5447350d97f4; 0x67e0a4418ca479bc; 0x56788bd195335a8c; 0x2767070df870da0c; 0x79445ea740cf7d2a; 0x486665c80d94e14d; 0x27bf0cde13670395; 0x64fefd92370b5826; 0x24f7fb37588c6180; 0x298dfdd881f566a0; 0x1f8ce435c888c56c; 0x6fd79c95cb04c5f3; 0x2cb15a9d73aaba25; 0x7c7217768a19e63a; 0x25971b832e536c18; 0x7f651f1c4b71248d; 0x7e09853600c4019d; 0x799002a0e9660af5; 0xde78c3e6d72f0f3; 0x4a995a8ae87f2ad1; 0x5f22cf593e9e9a06; 0x5ac911311aef02f9; 0x1c2767a673917874; 0x18785e90e080e140; 0x7f08ecb13c8b55f9; 0x3f772d28db068b55; 0x197c1edfc0a10622; 0x3f517b228173596b; 0x318fb466d6493293; 0x1ff494530ffeb498; 0x35fae83253ae70b4; 0x4f942c0a1a96e87e; 0x2b637a20b02d24ae; 0x564cfcca47683a25; 0x58e81cac495b2a92; 0x270304c086e69302; 0x1b798d1d5ed11918; 0x63423888dd44c2e1; 0x394124717082bd21; 0x5a0066eaaf2bc7e7; 0x7968f66c409df19b; 0x35c873ad401bdc7e; 0x33087cba14615722; 0x123cc937f5b52e1f; 0x4ae93e72e248661c; 0x4e76bcbf9e30abe4; 0xfc8f435432046fe; 0x35e58abc17c9c9b7; 0x2dd123b3f95292a4; 0x6897957fdaf08ccb; 0x54535bd2d51d0ab3; 0x6a4c71ba28303c4; 0x1ebe269a9a16514e; 0x2ddf4911016ad38c; 0x68abbd34929e7772; 0x7e593dcd3da2efb7; 0x60699fbe64e0030e; 0x642a1edc761695a8; 0xdad292f1e60473b; 0x5364169c05838d15; 0x2bf4f18d035c43d4; 0x3c03e2676f183eb0; 0x588c1058f5aafecc; 0x2acae41cc79cb5fc; 0x36eaaa1dfa9965e0; 0x6bb612de46352201; 0x263e1290b72dbf91; 0xd383732ca670014; 0x2b339a059b76c4ad; 0x5a0e0d89c96f86eb; 0x3307cc970f630fa6; 0x37a39091c0b56916; 0x2afc16f9f92b972e; 0xe98045cf1b252fd; 0x113855f33ce9d42c; 0x35db1284d9f39a37; 0x2b84485dffc4e0cb; 0x44c7fd15837faa35; 0x60eccaa914afc0e7; 0x36d8f4cd9c97e1c6; 0x4c3a59f953782839; 0x4c95c1a6b2f61bd6; 0x236440324eb44b4c; 0x567698f6a373f23e; 0x34d2563a242fe3f1; 0x122c412ad22bff46; 0x6a08030edc8c45e2; 0x30572b7e1b789609; 0x4391df3d4c07056; 0x26778e1bb65a8bed; 0x1c11956f956c3a9f; 0xeb68d786d6663b7; 0x5c67c0c24225371d; 0x42daff1e35515c80; 0x5026dce9faa3070e; 0x321fcb5261bc23; 0x53a7dfee6a2e4045; 0x2fbbdfc60e974243; 0x4675353ea461b3c6; 0x96958fe97297c41; 0x47fcac1f95fe8b04; 0x2f54eb91a2ba8756; 0xf2a74648cefae3a; 0x7ed259444b05bcb3; 0x7b69e08eb38b6c91; 0x20944afb974a3bdc; 0x5a55710bfd8a669e; 0x1fac15b903cf96fd; 0x6e8a20434447aef9; 0x2b0639b4ad46ce6b; 0x54e37fdeb322f4; 0x7f934970baa671b4; 0x32c658e819032fb6; 0x4279f15b35e2f52b; 0x3be21ae7d090c55b; 0x459bdb97136b6131; 0x59e0e77e96ed7079; 0x4318a4346004c03; 0x5793c4cb97088a0d; 0x8251c87c252acb3; 0x36356588869846ea; 0x8de6dd90705f6ee; 0x2ed22776b77d1e5c; 0x732027b61d4bf257; 0x71bbe8d47a2ea437; 0x741c1fd465fa6847; 0x19556912f2fb99db; 0x1d12f96f0f060660; 0x4d6941c771b3a9c6; 0x2d2b8932ca95f5a1; 0x466a1d7f31808fb8; 0x75e96ebcb47e0945; 0x54271013325b7c80; 0x4e0e75b01d74c43e; 0xfded7ac858f3533; 0x4606b5087be8be22; 0x243bc09f2614b797; 0x78aa89baeb9bc581; 0x3c59efaab19a6aa5; 0x1b7d5e004099ed2f; 0x7b69e9527c2078da; 0x799412f85489548a; 0x5f204be4ac0fce3e; 0x31ed761acfa63c7f; 0x71e204d1586a236c; 0x19f368264a56c502; 0x644c2d688f0d94c1; 0x597297547d3b8c1d; 0x7a7ba156c84c5bec; 0x67af4ee4d6b77cbd; 0xcc1983df6dccfe; 0x9485e7b1080a867; 0x249bbcb1db293a18; 0x3d0cf13624a1a4bd; 0x1bc7ffb819c80af1; 0x44cf4c57d34ecaca; 0x508a94bc7bd6026a; 0x30a961719dc800ff; 0x44be60450a7c3ec7; 0x52a945c8dcaf9b76; 0x3084c3c98fb4cb32; 0x628beb5009934453; 0x617b0944f3672963; 0x704c0fe0ac679333; 0x5ef6ca66ed389224; 0x74e890d4eb7285bf; 0xce31dcc8b75aa8a; 0x7c6e732dcb4fb576; 0x12d2d42545aadf8b; 0x53dfb59bf23e5ac4; 0x6e531c1ec236ceb0; 0xc1f3ce3fe0987f5; 0x1a82fa73b2daaa85; 0x53dd0931f028a907; 0xa693c3a0f67dcbd; 0x1a52301e47fcadb9; 0x541af324dbba7858; 0x4583f935c9e1a994; 0x40637bba7693fd2d; 0x6dd8b925155a95e3; 0x266df3740e856382; 0x53b46ffd19f5a893; 0x37f28a69f19da636; 0x2157b4738ae0199a; 0x5add995f21700d52; 0x6130116fb52bbc54; 0x503fdb6d8225302e; 0x7bfaff0d3243b49a; 0x278b7b415c3992ad; 0x5483e7522489b99a; 0x34ce20b5dc67870b; 0x129b184049951456; 0x2b25f6bbb14d1802; 0x7a96fd0a22efe603; 0x5cdc725fe3356a9a; 0x59453af49a3cb49c; 0x1b4f19f5768aca47; 0x29f96831fb5d6167; 0x1ed8f11e2eb8f79e; 0x5173f79526a231cf; 0xd7009ace51d11e9; 0x59f64b92de9bfd96; 0x476b92af2075a056; 0x7d82f420bc531ed; 0x35f17122db6f33f4; 0x127103dfbf99789f; 0x70c8b9c3b99aad5f; 0x372b19889a5f7fe1; 0x6e0af5aff2230b5; 0x35e9253c600530c1; 0x573f432b7db2f430; 0x519cbc6d1539e4d6; 0x3aea32b1131c6bd0; 0x6b34d172daa5ccaa; 0x41afbd7350bf221e; 0x5a3d28616f91bc99; 0x4c48c40c4c665f11; 0x5d05fe1d38abaff6; 0x36e03b2c6c12419e; 0x7320df7a8a19191c; 0x468aad8a34afaa8b; 0x7f59a85eee7d88a0; 0x6414c7971edbaa52; 0x592e8ce14abbec6; 0x201c88b1e89ad00e; 0x55e9e4c4223da683; 0x525e250dae7225d; 0x69263351cf347f1d; 0x31420dcb3d2f8d77; 0x2684039f2cb0c684; 0x29b70984e3f46299; 0x2bb0e1c574e91dbd; 0x4fd442f40f8f5b69; 0x2ca05608a6220632; 0x7bb2cdb376b80865; 0x2defb84121d8e513; 0x21e1fd83030c6393; 0x51f7a29850aaf534; 0x6b34cf6905dc4d05; 0x7dd4f938756eab2e; 0x7dd96060a2a21063; 0x75dc96df53267883; 0x7f9c8076d4bf1c60; 0x4a0d09a0e2c8a85b; 0x6e6538667a1a19ae; 0x3360d355a8ba1378; 0x3d67f1e19a56f1f7; 0x10e78bc353236445; 0x27633dd6479a0570; 0x23c0fcf8f43596f8; 0x25d0d79639af2bd2; 0x3f3b3fc944b1c6e8; 0x6f20a6412a8c27f0; 0x2a2a552beca471da; 0x524a8b5cbe30e9d4; 0x35caae95c735bedb; 0x40a8dd995bc32a56; 0x50a2341f675dbc0b; 0x442bd54cd6ceb509; 0x4fece6fb80c0a5e0; 0x4e00b762d5bf37b; 0x1e412ba9eb964a1; 0x678ac7f7780b3ee1; 0x3fa6d9a992c40cd2; 0x4164d2f166d55061; 0x273fe628a93874b1; 0x57d20e52f26d2f34; 0x48c5a1b7bdaf8870; 0x41515000d0c5e5d9; 0x80a008280228aa0; 0x551045551541104; 0x20aaa0a8a8a8aa2; 0x5101041401005000; 0x200a882280880a08; 0x1451101005550140; 0x8a082202a02880; 0x404050444041051];
   [0x5e0083292459a54c; 0x3b99b1b2f0ac6bc2; 0xe4eb17f951f069f; 0x72986575401acb09; 0x26446b258efd1350; 0x3b8b4823f7410060; 0x1f63fc1d93ebb44a; 0x22aee75d1da3b86e; 0x61283aa1e21286bf; 0x4ace3870342190a3; 0x8dd54974953b09f; 0x272be108b7293242; 0xc413be69de8a258; 0x25fed63befcf3536; 0x4dcde7a96531e580; 0x2e353fb74d4130d; 0xebd44b2c2d0c51; 0x3fa0d319b01d4248; 0x7faf7cf86eeaf98a; 0x4850d7a26793d667; 0x642d386d71a77a5; 0x64f856b0e776d898; 0x3093f22fc4d40c8b; 0x4badfb34e2b8fe35; 0x3dd47eade7c41d1f; 0x4196505dff4eae38; 0x758a429e278bc2bd; 0x4d7541b00fb08e4a; 0x3dc839f32129e09c; 0x1eab5fcf9ea55974; 0x2d5c7ee7107cb358; 0x503d018903ffcb6e; 0x4c76746708c30a7d; 0x6025af60a319460d; 0x27659419653b1340; 0x60eeacd198510428; 0x6b13654e51e57ed5; 0x1c65250a2c7a7ccc; 0x329b9a1b97c4a9aa; 0x146b0e125ae449ce; 0x6369a7d90c079366; 0x5b5b73a366d30208; 0x7190a823ccdef392; 0x4c86e90e434e10ca; 0x2c10fd8a9447d389; 0x6f120c473f89198a; 0x402a34e18f954e66; 0x443263f3a16d3fa7; 0x4903f346168ca583; 0x54220e18c9a8587f; 0x3ce181826ccaf892; 0x3274143910f83794; 0x29017efb36335cfd; 0x1bd1e4d0bb19f912; 0x30e09f1e4380b763; 0x6517a82a1c6def37; 0x11173f1323a6e053; 0x42a57be24d73efbe; 0x6470ab06ae9fe90f; 0x260102322904a5db; 0x796f3d1084782c1d; 0x3521d04c7513021b; 0x20d06809bf5fa27b; 0xbafc245b015b4f5; 0x511da6e813c5547e; 0x7b3151decc9a727e; 0x3d3035a8e1b0da5b; 0x13013dfae20676a; 0x1d26c8c145337bfc; 0x56af13f0b621e39e; 0x7e85f4aad76b862d; 0x6bf9678acf63344c; 0x16a36953f76424e5; 0xb8797b7e1874d78; 0x7a785c937deb3f09; 0xf196afdeeb807b; 0x63c7081c63def13e; 0x42ba84931402bff9; 0x4e2f53713ad8351f; 0x61576d56e6f52b1b; 0x4dd4828e49f93d96; 0x1d3a9e23b5591687; 0x4e2f36e78dfabc1b; 0x4bdfdec922f7a8f2; 0x4d8894a91318679b; 0x29fbf5fcb6cc056; 0x24dc16e33c89f967; 0x507fc080c0d946ac; 0x110daa94194d5bac; 0x3b22ba4976c575a0; 0x4a67de828e90bdc5; 0x7103f5a5d39dc1cb; 0x63b13e76029738c6; 0x2bf5e6150bb51cff; 0x29c929b6de851243; 0x5f0bd36f3c1d8620; 0x1d91038d57f1dc7f; 0x72c816ad1ad31db2; 0x7ef6f8cb0b0baf00; 0x5285cbe34a2adf9e; 0x6f27739972c5ebe2; 0x7703aabf762f7454; 0x1df52161a2be3b16; 0x6b5d3b0d4bc39040; 0x48186f5b6cd1e00b; 0x27c332fdb53b2381; 0x176316a8460b18e; 0x5d61dd44df129dd1; 0x4115f9180e271332; 0x636651ac039bc946; 0x2a78d02914535f26; 0x74914b90d22d426e; 0x1f85ce1d30f9b95; 0x48e483b18a3f3b1c; 0x6e0866165fd1344; 0x5266d287985b10d0; 0x238393a6760195ab; 0x426ac0f99732bd4d; 0x6a957283e34ec66b; 0x6eda3054981e7dd8; 0x1e2f41b266f40351; 0xa800d5b667ca05e; 0x4f272343c4c6fd; 0x3b632e993ed3fae4; 0x32ea956aa5f03479; 0x4a7e9656c4a6f305; 0x677bf29e142c006c; 0x10515a9e434869f4; 0x53431561f71b15ce; 0x2663d7541a4eebb1; 0x1f743edbf45b432a; 0x785a4ce008c0e073; 0x11041734d785e559; 0x3c7e134be7a1d7ee; 0x7587789f94194eb3; 0x6b112866890f66a4; 0x480b69fe2309f379; 0x6cb7033589d35373; 0x124c432e4580ba0e; 0x6cf919bd261554e2; 0x22b51c313bc02fae; 0x2a1ecfd7a0ff16f2; 0x58b1c02fb5de84e; 0x7148125e2871c716; 0x736cd65f053b73c2; 0x3c5fbdd9ed694d50; 0x118a4d1dc47bf4ad; 0x4ff08262417e0997; 0x575a873a87df7cee; 0xfd086fd4caf890b; 0x2a557dadd7fdfbd2; 0x60e6aac32d36ad0e; 0x1b9e3b8d9cda1c35; 0x1138fdc12ea7a674; 0x15c6170b6b3a3a27; 0x55e7c96cd92cfe8c; 0x4889e76115dd26c5; 0x739180e2c389593b; 0x2584285fdedbb421; 0x4e9f0360518c3c87; 0x5c728197f55e9be3; 0x4290a3fcd62b17ad; 0xdfaf488c3513c4b; 0x5024023aedd0b2d7; 0x2e3fc01aa10bc023; 0x8821a201b89a238; 0x64544db45392f950; 0x708b377200ae9e47; 0x277da7fe65b1b1a3; 0x4644e8bc34443112; 0x3c06e6589fc8302d; 0x6fc3a1feae9fbbfb; 0x4123161ea8e466f4; 0x3454a6efc4046709; 0x2a7e961dfd583f8a; 0x6770aabd7bee319d; 0x546e9d9821bb89a8; 0x1d938fc1fe7e5086; 0x3400dfffea8034e6; 0x442a938cc10b20d3; 0x5cb3d9b3220f43fd; 0x6fff15101ac7d91; 0x2ff1b4ca78c8a957; 0x26c21486b8c2f24d; 0x777f254c2633df37; 0x14806f7d60910221; 0x25e7d890c5fe7efb; 0x1f8426e50172e880; 0x82bb36956dcb65c; 0x1f304568214b88c9; 0x734c075f84de9c19; 0x4a8c23b37739bd42; 0x33e7c8a2215e611e; 0x2f30fe8fc5a21e85; 0x2af26859c58e1814; 0x2011a85e8fdbea00; 0x3abcf3b3dcb1cb2; 0x57f229d546252931; 0x2744fdf017591c27; 0x3b829ca15e1a7b4e; 0x78b328fc41cac1cb; 0x36d6c8ad4f98bd80; 0x287f80ca5b60cbe8; 0x7b0999d0636df0f9; 0x5b75a65b28bbc54f; 0x7d765629fcf9a659; 0x632055090ab97cb8; 0x54350904b2008f74; 0x219937c33b3a3f43; 0x2f8f6e63b9707cf0; 0x619f9a2701ecffa9; 0x1af0d04202d1badd; 0xe57833a232f5c8d; 0x3379b22314226652; 0x5d368da1584143b0; 0x6ca74d1b898d0aa8; 0x6d662fbce111f31e; 0x786abe40d822628a; 0x38351c2c583aecde; 0x4f7d1ab5058257c2; 0x284f59366c0a14ce; 0x643d6a4ba3c64463; 0x608caeb826a1f7f4; 0x53de0e4a8ebbd4fe; 0x5ea5c35bcce5de32; 0x1110bdea1027e37a; 0x22a6c94c345b450b; 0x36ef047e1134cc3c; 0x6fb4af74adb214a3; 0x21bb52eacc319c88; 0x3aba3062086b2fdc; 0x3b5fda1907fd21ba; 0x7d8c29e9e3cc0eec; 0x3c809023b538c3f0; 0x11db99f5a6621474; 0x5aee71e57b8691a6; 0x76ce7a73cfd50dbe; 0x7576783fb491102c; 0x4115ed34bcb4375f; 0x18ead2d6750a6611; 0x69dbf9dbb44e0b1c; 0x104b89b2617b3f14; 0x67d02a9cb45e19bc; 0x305d9c0cc6be27fa; 0x529662442dd7d4f0; 0x2871cebe21c53a01; 0x2a2539cefa1bf7bf; 0x2dcd710a51a572cc; 0x616525fc92053665; 0x6f80da857aa5eb9b; 0x6ca023b5b41332b2; 0xc1c80c547bc46d7; 0x3ff47e754482a49d; 0x7fcbdae339a597e4; 0x6d805ef2f9e85e1d; 0x499efce74501056e; 0x39eae635caca4a7b; 0x652c0d463479928f; 0x735987f17d9307; 0x3298fd8b48f4fb30; 0x7213f26601481982; 0x6bf9feadac76052c; 0x1dfd6ebee5bc50b; 0x483a17b6d7277b63; 0x650d31f258081ef7; 0x1e0b7a6c5859304e; 0x56b7a4de2cb21532; 0x7fe9cdd9fe14cd92; 0x38b650a8a4210bc8; 0x61ef1bf9dd30846a; 0x3ab6425711703da8; 0xe83e5a0e792835b; 0xfea5d8093fce8d0; 0x2aa653445abb27c4; 0x275c6728633ac694; 0x5eeb26a7b81dd632; 0x55444b4a30f138bb; 0x69d3495ea3a5bae5; 0x398f63602e1785b7; 0xc38f173680614c3; 0x7904cc67ba8b92a2; 0x2101a58f84e5cba6; 0x19c4ec177d172c08; 0x5e06eb9fce78b9fa; 0x3574a7babcfde635; 0x15ff28be72ce7ccb; 0x37b0591a0e277c64; 0x53b060b889a357fc; 0x42b589be88dcf4b3; 0x759e51ae0c0298df; 0x7b0cec337fa1e980; 0x5d75347b662abb29; 0x3be3fd317ba08f5e; 0x6ffe85aeaeadacb6; 0x35150f0c24277414; 0x2dd1403d235f2e79; 0x2e84535e12eaf4ad; 0x2d072d0343401e8d; 0x1102af8e87ba8669; 0x3a8afb945f7b5be; 0x51fe01f2c47e1dfd; 0x3f3299e2bad7212c; 0x1ca299756c9033a2; 0x4e8d6dcdad7c6cdd; 0x66b61fdd95895cb7; 0x4c8ce374047544d8; 0x1e1a9dfc21672915; 0x534884dadefb5ae1; 0x45400554b5f0da3d; 0x2a080282808aa282; 0x451410150004414; 0x8a288a8088820aa; 0x4504400010040555; 0x2000aa882022a0; 0x40454414411414; 0x2028a220880aaaa0; 0x505045145145015];
   [0x55656277e0cbc8d1; 0x624d1feb446ab5c; 0x4f117f61ea349f7c; 0x5afa288ce4c022bc; 0x113dadc773945683; 0x5595d209b8b02210; 0x2c12fe384249bd3c; 0x34dcd26dfe8408fe; 0x38a34933b9026313; 0xff43a408f803ebf; 0x5640b71394dbc379; 0x6214545bfdce9061; 0x432528c0851f172a; 0x23beee5635f89067; 0x1879dc15528b21f9; 0x686ed0dc4e2e53f0; 0x9fa8a585afa981b; 0x3a9f39ef1eb5e776; 0xc8ddce6a7e9ab7e; 0x5c4b46cb63da9028; 0x3683f77612dd6ae6; 0x410eadcd5e31893f; 0x76945624b2df97e1; 0x6d6efdd2f78d7b1e; 0x692b043eb5b6924; 0x29722a5186b3f3c1; 0x28ca81c62077685d; 0x69de7f66850dd03b; 0xa3bb775b5b629e8; 0x9c52279b9832fbf; 0x643b12184ed54668; 0x78fa47bae8a4331e; 0x35410f7f0d02133b; 0x3bdf6e8c88a25ab9; 0x4e61e0d8b765da07; 0x78b9515db13be49c; 0x467634b6a28fd37; 0x7f13503c950e4a40; 0x55433556161ae7f3; 0xe3c96fa9ecef43b; 0x608d0d0a2b87a6b3; 0x61e0f78af1a9e3a1; 0x978e785e4d0e684; 0x39944f4b79af05eb; 0x515320ce9c954741; 0x3cc1417341879714; 0x9a654b49ad386d5; 0x132f0b9569c05f53; 0x13daccec890c3697; 0xa8ad36eb274ef38; 0x38cbf4b867f4c9f9; 0x55e3469c15583324; 0x6952e9226a5aaa4e; 0x7b5522f1a4a41a0a; 0x71a79cdc8e4467b; 0x5c18c12e847c92a; 0x6ab7b719edd71ff5; 0x3089a2f06882fcf7; 0x54a7c3550151fc03; 0x1861f8ece4e2c175; 0x665351c825075381; 0x77400b25aeef1975; 0x10880c03d23f5711; 0x5a3596f388219126; 0x38e51d99ecb2b7af; 0x3f6c77ce033d70e; 0x5a54e847ce26799d; 0x7448b530f879a50e; 0x14c914ea96a733b1; 0x6283f2d81455a033; 0x7d8bc2beaddc5e55; 0x2becdbf8136bc325; 0x1bbe5b07acba3815; 0x581ed7a80d1b7f0a; 0x74ebd2233b227fe1; 0x3f882027adc7954e; 0x79c5cd775ffea78a; 0x5e6e4656ba21fbb1; 0x796e5aae9ae38a82; 0x29c3d5632455cced; 0x70922e4142526fa2; 0x35bcf1fe0a747afc; 0x4a36c74f73e83250; 0x7f60828fd56b8d62; 0x61da9a70cf54940e; 0x65d17691e70d85ce; 0x1f73f02b636abb9c; 0x79de8a56911c743b; 0x7858c2de3fa57835; 0x5604aa7b9e1c7438; 0xcafcb228ffc54ce; 0x7b7f048b5e3032d2; 0x13e3b9fb7153d3fc; 0x5800854d7c5287dd; 0x3b5f698966f62072; 0x571e64994eb829d1; 0xecdb15c32833ce9; 0x4962c5ece034ec24; 0x15ef2f0e95fbbd75; 0x35f6e45a26608c8c; 0x1fe8668d20627354; 0x3b7afffd2cb2cc33; 0x3e72209ec087ae90; 0x7cb20efb2fee1d21; 0x1642e44bbe195eb3; 0x34e3e30de95d0fe6; 0x34a4ca675773dd3d; 0x2e069c46e444b0f7; 0x4ea5302c218bf54b; 0x270aa3254d054d8f; 0x674147af90b8a29f; 0x6f8e11458afaf87f; 0x165160c663883efc; 0x55671e07113a4b81; 0x312c129af49e9feb; 0x7e9fe51befc93673; 0x8301edeb06459e1; 0x202a6ae64fbd45d2; 0x62c13cb41196b5cd; 0x4fc24f6145296820; 0x4b8ea1333ead84d0; 0x2223852f91b2d9b; 0x1cd5538ab6486859; 0x5c1d604b390c32d2; 0x5098333676e39bab; 0x2fdd62339d63234a; 0x495d563b8ed586ae; 0x796541c60d22403c; 0x43f0e1184dc19b0b; 0x4b65cbd67acbf8c0; 0x77ced6cbcce1c5ce; 0x3545261ffa132f4e; 0x47f99da443e90e08; 0x1e7792a93ef6ddb; 0x2ae843f953fc57ff; 0x7638453149603fb4; 0x2d8803b270dadfb8; 0x6b1112ba3e56eced; 0x1b82af85dde1c44a; 0x5146b2b125f4b960; 0x5be19837f30ee932; 0x6e2e9ff9fb077e4; 0x6f28290317e25197; 0x3fbde9f2f2de27f0; 0x573e6610c1058d51; 0x35e65f2b45eba151; 0x22f7902ed56bbf19; 0x15d67f40dea6a3b5; 0x52a420439279ec28; 0x31d496eb4f321841; 0x7dc79b2ca028f2e5; 0x1350871a6aeb7e0d; 0x5db666e66a74e103; 0x422e16d8db12aafa; 0x628b0a7793bc42de; 0x477e73feab958a8e; 0x1ea2cd10efbba80c; 0x7554e89dcca358a0; 0x244ba35451038a37; 0x1ad192a1395cc1e7; 0x4fe641940188bab1; 0x15a36a5fab893fe3; 0x7fe47212422065a4; 0x20462dbbcec0922a; 0x2654dd50f577908b; 0x1161e4e04187219a; 0x33c9b1ccbf49ba2a; 0xf7526f98dd1f569; 0x744123d09f7a9573; 0x6492564a4f2be90f; 0x3d3579fe6d9506e6; 0x1c80f444ea768a6d; 0x4eecc0db1cd40a51; 0x39a431ce27e9801; 0x5401fc1d634db87c; 0xc64d38912c0ccdd; 0x11b6715c88351f9; 0x230a53c1bf71e0fc; 0x403d26d446cce32d; 0x212fce1ad338066d; 0x476b229aa09e460d; 0x9ff54859f39569a; 0x2edb7be61d96a4be; 0x5017c32050960834; 0x516ab4e239e697d1; 0x1f9daa6fafba0342; 0x262768907fbec82; 0x7e4b606d1efb399f; 0x31cc0e1b8f363e86; 0x1f9888617931c104; 0x27b0dbe8be85e967; 0x2f2c075444b5b1d9; 0x332785dd79c1c9e9; 0x1f8c9f5e469740b2; 0x58d4859c956352ee; 0x459dc22d7212c6df; 0x585331a9fc18059a; 0x5d4c0d4e7e4d667b; 0x1e61d6599c5e42d6; 0x36b0ee83b24d070f; 0x2beb328f1fb7c5ea; 0x53e63a5f7319e7b2; 0xa795ba9da98454f; 0x3a2b2cadb7a37af8; 0x2374ca284245409a; 0x6053ef0a383ab5f8; 0x34f843034ec9a934; 0x25bb95e6c17a008a; 0x6bda675c84b95071; 0x7eb307a63f689e14; 0x4021a9e63ec2bac4; 0x6ba535bcdb62cc89; 0x42eaa5e03e468a27; 0x78cd8c1c4e6e353d; 0x606492ac325a6666; 0x376f0a4e65dc7d05; 0x3323204424cb69d8; 0x35dc4b96e9b7a384; 0x28dee37d5f4322f1; 0x756bddc1ee626235; 0x3c13d436955865be; 0x3e0310d10239d67e; 0xb73814cc77d332a; 0x10f0f7fb4df6e168; 0x4bc7abf4041410a4; 0x28692a8a2f40ec5b; 0x156a9f2e88d605cd; 0x4926d4b0f17e7d14; 0x19e8cb0c3555a074; 0x501ed7e208a6c36b; 0x2c33c1df40e6122f; 0xc5a90d7f660280d; 0x448fd490ec8b1939; 0x1436dfb9d10f350b; 0x3c86216b343ebe64; 0x5935ecf8b017ccd6; 0x29eb555f1efaab6; 0x26eb0562ce0d93c6; 0x654724e9124f092d; 0x40a7f7532fe5e3d5; 0x1e968175d73deb44; 0x6de9e286625e3eb8; 0x37c0c8a2f6eeb0aa; 0x75eaae2465e53765; 0x5a391587755db716; 0x7fa9cf5804e25c69; 0x1a827e8f0455bad9; 0x43245d6e82d05975; 0x29fa2ad66020df7d; 0xf55dea726b7c076; 0x7939ff41d27de26b; 0x76176fea86d98059; 0x7c3048ca75705e25; 0x6e100daaf3b63e79; 0x57156e0021076fd6; 0x299970dce0d88003; 0x71c254dffd7e47b0; 0x627cf0b4e9b43f2d; 0x209cef6a0ec1c9a5; 0x33e62001defc5d1; 0xbf3d2405f1242c7; 0x113229f3bcef81f4; 0x7a4e57392a8caedb; 0x79ad040cd5a7e233; 0x1c24cba073f2bbd0; 0x68b24a460b54ac7a; 0x5b106323e60eac48; 0x7075756b85f0b91d; 0x1ef061ee690d1535; 0x49451466c177c2d8; 0x412c9d04711e25e9; 0x59d340fb6ba3dc75; 0xaac76fc5488da; 0x7db1545df2df5d62; 0x1d90da9d6e9cd31; 0x4c63becac7aa085f; 0x47c7f8ea2c240eb; 0x3a23358ca3888c0d; 0x7b6ade798c4ec04e; 0x6f29639cb80f076a; 0x39c765fba5c9326c; 0x2bb71773fb2c18b1; 0x478a32e193a95cfa; 0x3d740ec2cafe9b9c; 0x49620d58ef3f459b; 0x766719fb67844b07; 0x3d2ccd5adbf6e274; 0x2898e1db2cc0b064; 0x486cbe77bc1ec047; 0x2592bdae12f34b6f; 0x4cac7f2ea3b62c67; 0x17d1f586ca982a65; 0x63f3469bc0e2ef50; 0x1243c58b5f7e3e57; 0x198822431012c133; 0x10a236c3fbb12c87; 0x2bbc52dbb97a83ab; 0x5b480eef166a1b24; 0x2ca1d006b53100ab; 0x6be79ce8a99be2cd; 0x19f08a825e1e8e5a; 0x4ee45dac96abb1a1; 0x50e4fb2811a5a7e2; 0x49f93bb497e93d4d; 0x31e3b119d42fcf00; 0xc09713269d4fe4d; 0x2125d219af723967; 0x32b293cd209a4c20; 0x45044050d485908b; 0x8208228088a8a0a; 0x5140054105101141; 0x8a820028008aa8; 0x5051155040115011; 0x288280a88280a8a0; 0x5441114550501004; 0x8220a2a08a28a80; 0x404040451014154];
   [0x653bce75d0a0cd22; 0x5c8c3fbff9a1dafd; 0x185c6a88ce2a931c; 0x59881e2c51185549; 0x162f9d4057778d2; 0x46b38089e0f93526; 0x3adf8b74784e269; 0x671dac76a5f793a6; 0x4740abed8ae785dd; 0x13e450e1792ed796; 0x7c8eb30b63a904a0; 0x514e7bd3f3d78739; 0x7ff0c9245645bb38; 0x11abfa2ba8322cb0; 0x1efb3e2a531ce09; 0x4ee19ec630a0e66d; 0x58a7986c214c2f6; 0x7838df6931912a9e; 0x17c60a20b1f0cfcc; 0x2837555da4a0fdc0; 0x28ce086db1b44819; 0x7943bbf35f38cd21; 0x499124ab61fd4b79; 0x1ecd647c80adfcd4; 0x17fb02c9a7da0ba7; 0xc0550e8ac37d01c; 0x68b638a7f37d036; 0x3cb2fee54eed1281; 0x158cf728d68967f8; 0x3e8dbe5aa252e77c; 0x2329ac81de367210; 0x3ab19bbad0994769; 0x30c44a5690b4395e; 0x5d844686f9d628b1; 0x4ac13bfe5f866823; 0x6335a29533874616; 0x6b0b2a288c387179; 0x40248746fcac2f0c; 0x4d5f84f868977733; 0x1b1bd2ae5b0f422a; 0x75cd09fb582d4705; 0x34ba15f981205e18; 0x1ba83e03944e87d6; 0x4b42e06ae66090e2; 0x640cc9a2474ad2e8; 0x4740430bba1210b6; 0x54630bfe0f595044; 0x3911f71e25820ef7; 0x5d56c7448a9d526b; 0x64278be9f3c9fd4c; 0x4a38a92055e1313; 0x2a63ace92c160661; 0x4b16c23a14d45503; 0x46bf4bc458152b8d; 0x5d50725c09da40f; 0x36c52e945e899c1c; 0xcc03c5cc4b93421; 0x5e395ee57c6db939; 0x2d7085d33c749466; 0x1d885851af3b84ab; 0xbf1624f1e482301; 0x25ba730a6eec54a4; 0x32ab2165cb8d4871; 0x3bfa438b46761984; 0x64f96ff5bfb6ac29; 0x5408ccf7c5185b41; 0x94d87e559da5ce8; 0x1bec4ebb10380e50; 0x369f590862a26e7; 0x27bc00467fd2d7f6; 0x39a94c535fb42218; 0x3f2153982dd11f52; 0x37c7a284a4c0a49a; 0x28a8704a3ad4e1d1; 0x272b5173473806a7; 0x2befabecfac46c02; 0x625c61ecd2038b8c; 0x6f29b1ba602f282e; 0x45b1c7d09f81b924; 0x67e39635f195ff5b; 0x16a2295296189243; 0x2ac642ac0e374168; 0x70c7e68b30e7020a; 0x7a134693188aaed8; 0xdd31432c6cb2b90; 0x276a26299847b77c; 0x58b43df16e49ac09; 0x2e5fe2890fcb4a5f; 0x3a74e5f8d0b0d75; 0x122db54039cc1357; 0x25e5fea99162668c; 0x73c442516a08a3c8; 0x2d42fbcefa1b1618; 0x311cf528d36378d8; 0x2e834c1b63ac2759; 0x2d513025f6db3d3b; 0x619e7a2dc565bd62; 0x3e62117442d5fbc3; 0x7330da9d0bfa9d18; 0xe3f8374934672c; 0x4d5a9e9ed479bed1; 0x7c94c259cf555fc; 0x5ecb8b06b507085f; 0xc1766f78692885c; 0x7d61d60f4738ea86; 0x3ad442c8eb2b15e2; 0xf1663f5658b40c6; 0x1eb518a6194c6972; 0x113c5711c5b65734; 0x50f87f85eca62805; 0x2d9d33edbfa4bb5d; 0x4f97e7c300b4712; 0x43ac0455fa2c86bc; 0x2096e3a14a9f0df2; 0x1b5d554253bd369; 0xee54530d9714861; 0x211346de4c06f418; 0x6f5b1fe5910c1865; 0x5a43c5e10b1bb0f2; 0x3c01048c23b41fc8; 0x12905c677336faec; 0x2053181cf1acc142; 0x174ffd52bcca7d5; 0x75133ccc92e17b89; 0x4ff7cbd365049c91; 0xf86c722e4586c51; 0x5effe3a3efafcca3; 0x64a0fb9732b507d4; 0x202ec24963406e24; 0x3eccf6ad91cc2c17; 0x493b6f20e2be6ab2; 0x6f04a94e820834d8; 0x622c06935b9cceab; 0x36501c3d697b93f7; 0x18990202374910ba; 0x680587a5f63f6f50; 0x36f7722cb841de50; 0xa1f8081e24b7ea1; 0x47ddc68f6af47cb7; 0x3a840a37f8432255; 0x71bc70ce3bb42b2; 0x7adca56db7853124; 0x4f2326c982338d9d; 0x40cf26b93c7295cc; 0xf90278976192d86; 0x2c6646aaa8489513; 0xdf8ddece10468e2; 0x7352ebece8dcd428; 0x6b3c5bae16971681; 0x1736c7e44209906; 0x7ced17a75ce74f5a; 0x2b91c64d7b1609c0; 0x5be69408008cab2b; 0x7120b6240d125fcc; 0x4c091ef2a866d781; 0x196555270b9057e9; 0x1693dcb378c4a996; 0x6e21428feac919f7; 0x4e58c9fc7570f897; 0x7e376a569bdc69a4; 0x5fc3f7d9d1ed8888; 0x34897f099932fd3a; 0x38b9afefb92f18d7; 0xee1510c87c2b431; 0x355a3ee29bf56420; 0x3a1569535b57c08; 0x59a3552d4d9a740e; 0x39e1dda6528bb713; 0x3c1e814236871fd9; 0xa343b1958505f6a; 0x4e676311017110d0; 0x575aa2dc1452e8e0; 0x5bab263d0d45a4f3; 0x386b401c7d50b0a7; 0x5df67e7bf463d99; 0x2c7cc975a3877eb8; 0x3358d28405ad1669; 0x51574223de8e5e61; 0x872376dc68e7a1b; 0xae2a3b5eb0b3892; 0x17f997f08530f628; 0x7d1404b2f94c5e21; 0x7452a19a5cf11f59; 0xaf447bfac6e6539; 0x18de522f2ece29c1; 0xd0a859fdf4e9771; 0x577690a0e8821ea5; 0x69129820b25c96d5; 0x1bfbf111d858df7f; 0x55046e1bd611a7f1; 0x45ea3746bc43b0ce; 0x46bf26b1b8d014c1; 0x6f9800b553503daf; 0x346e7eaf4862a1e; 0xd231980f3d9eb0a; 0x3131e733fa0d4d2b; 0x79079b975338148e; 0x4240041e95e15d81; 0x13167320fb1785de; 0x303ef2590a8343f8; 0x3a1d09d0cd39bce8; 0x59b9e5c45428ad1c; 0x534eacd3c348eaa5; 0x2ddf29db0d5f15; 0x78cc0ba6317b8432; 0x3baeffe8c0cfbf45; 0x43a3c39521fde77; 0x2ba592a37de9c9d4; 0x773cace7efad2c23; 0x3d385b3faad3d684; 0x592e7468d9bfb6e1; 0x694b6c89521232e1; 0x7fc6750069dc72ee; 0x3977afbf0c39f837; 0x75029abd020c5a42; 0x2359d71ce2250afc; 0x2952cf324f6aa36a; 0x4557829814b9659f; 0xa3dfbcbbcf09f5e; 0x491b7a2de96d9c10; 0x678fd995d62ab62; 0xb18bed5a96f3219; 0x242d8dfbbee26c41; 0x6947c85f877922da; 0x7904d9b13c48a66b; 0x70c5eb6f5dc87cfb; 0x2ab84ca756725666; 0x6c033ae226a29e5e; 0x7313cee6c162295f; 0x38f839d0496264a9; 0x774c52a7f666c991; 0x195c0dbc2294c017; 0x798c8dd424043347; 0x25d48fd6db4e1212; 0x4f4b005b98ad6278; 0x6c56082975b12be1; 0x19f799f28e4ddba1; 0x1398a676343e8a57; 0x2940dced30d05330; 0x35c48a9f727176fe; 0x4753e0d00e1e8f16; 0x650d6b751565a265; 0x70ebd29a15838d7a; 0x549dd969f2354fd8; 0x60318a904d8e2867; 0x1fee8f33ac4cff0; 0x712aa157b78a2944; 0x731565a76b8532bc; 0x203f352036a02de5; 0xda1df88ce10fe91; 0x516a9a09c3d91d6d; 0x6573d1338af8f127; 0x3846a56b22b018c1; 0x2162f4de7b8f769c; 0x5e09c24735461283; 0x378d22051cc09cb0; 0x69fa118225645fc; 0x48b65a880a6803b0; 0x71e64415e7a10cd; 0x6600cc00772e00c8; 0x37d4e85e47fd5811; 0x48745e24c3fd3595; 0x6ef4e4860a8de35b; 0x1b81352a96bb19ff; 0x3e101f68e79db70e; 0x630f5ed992f308dd; 0x501605169e8d1c39; 0x584dde0ab3893bb2; 0x1400abb74ac96b8d; 0x60df3823b1f10e92; 0x23824d6cc41d52f4; 0x3c031ee0e7b060c0; 0xff69a293f9dc1a0; 0x4c76db0c02da5b90; 0x3879f5369dd90dbd; 0x24d4d036865b21ff; 0x367de03bc7d9a997; 0x478f4f6019496c45; 0x6566bc1ad818a5db; 0x656be6278bf8461f; 0x3053cbcc8aad4c7f; 0x29fb6b9381a1e5d7; 0x7f4b0735440d94bd; 0x3622d450c01c568e; 0x6e3178581a6e007c; 0x231cb1cf7014a2ed; 0x663751346b7d8fa9; 0x4843e3515fa7019a; 0x729229c79b24434c; 0x6e8aece20137478d; 0x2e6d8c7a4f0acecf; 0x2d5ae6328baf4b07; 0x31d10221a2aadbc9; 0x343716db0055bcdf; 0x1bb9c5ac3650349d; 0x2fb7be229e3efb65; 0x2ff463550934ef9e; 0x6d4ef4d9e8829bff; 0x3ba9e9973f3b5d5a; 0x6242bc1564bcef8b; 0x25b2d24e3ed3b2c3; 0x6e95668ed112613f; 0x3c09ef41a9c87b18; 0x7ed4f3054554556b; 0x41499b445d9111b3; 0x1226850cbb13d6aa; 0x2db7bac8fcd689b2; 0x5ec37fd2bbc2aa0b; 0x451115f9a3e75f; 0xa20a8000a0002a8; 0x4440050010044540; 0x220000082a0a00aa; 0x5540551415415141; 0x88aa0a822a0a8aa; 0x4505045401445501; 0x2808aa2202a8aa8a; 0x545151055444104];
   [0x2a80c1d01c4c0981; 0x744c83f3b717e03; 0x732ac77cf29147ad; 0x1fb256335be041df; 0x2f3d666446636dd6; 0x677bb78044c132f; 0x2777c242eefeffde; 0x271bb6b2357f7c6; 0x57f66f6de534fb0d; 0x44262b5cab181fee; 0x5a397fda0d1555c4; 0x27b98ad81c7496e8; 0x34a3c60e103a852d; 0x795456cc80c7639; 0x702e55ca152faf13; 0x57dfe3a3f4ef0561; 0x508df678c3153706; 0x6dee74cc05a2d9e6; 0x19f5c4a613151bf6; 0xa58396e0bf16ac7; 0x477efd7a417f2342; 0xb2c9399d8331f41; 0xcee36055cbc4f3b; 0x174f05c7eba92380; 0x462673e751777d18; 0x11c0cc9e00baf6ec; 0x7ad3960c906c5afe; 0x1fe1bd4b590ed6d3; 0x1e6ca0e92f43c1bb; 0x4fef0db2db5454e; 0x170753fdb506afa0; 0x5cece9d29d3d2cc1; 0x437274a2d0f85af7; 0x2a4a0818f7cc427; 0x24c1ef8bbb5e1c19; 0x4fd5008c2eeb6ce2; 0x5b00315e0ec23b0d; 0x5bd164c40ebeaa8c; 0x6969401c9f4da289; 0x75aa8d6344c238a; 0x7c0c66ee5538f159; 0x32d5d5790d240619; 0x7a9ef8382a7b7586; 0x27f514b49cbe8c4a; 0x14d78e5ae9957df; 0x3141b941087afad0; 0x7493f9a8a22b3ee0; 0x2a3f30023741a0c0; 0xf07fb41a2b3e90c; 0x1fa07996ff00b496; 0x576f7d7b635a824; 0x365d447206205fc3; 0x70e1c79b14841c65; 0x676d0167a51b5d37; 0x554fe450924db5d6; 0x2772447de29eaa46; 0x194a1ca36816ef45; 0x9b467fb59bb1182; 0x6043c3de6f996318; 0xb38b87a1903b5a4; 0x5a8da8e9583eb705; 0x4c48c7f0b6f7e1ba; 0xf7ef423fec644cb; 0x6be576cf3cf9b3bb; 0x641b434e631c1449; 0x711c398a297d058e; 0x3e77f3299913da4e; 0x62dafea1da7375c; 0x3778d85993c70bbf; 0x7662b8c4ac03775e; 0x268a447708e5e92c; 0x4f57fa3dd4759fa8; 0x2a876407725a0fc8; 0x46a971c0f94cc146; 0x3c94fa9691900caf; 0x487e3b4c69041cdd; 0x4b9cc54cbdf491de; 0x718e471e3457d22b; 0x4b4ab486b5558902; 0xc2bd62412dc57da; 0x17ac77aa76dd8f65; 0x462de2691f2d7d43; 0x2e78b142b82f90f1; 0x6251b7dadd7c279d; 0x1772e0fa8cda8dbf; 0x5e8f5cc72026c77c; 0x4968bf060f62d475; 0x4755666bdd475a28; 0x56d76daa3cde1aba; 0x6164c1632c868358; 0x42bd74ea3671fce; 0x4d9cabba3c6d77a8; 0x3b581f79b8961ee6; 0x1428e1d5e0b55175; 0xe493f0f25601e00; 0xf5262a32560abed; 0x5500179e162e0a41; 0x6b5a09ca8949ac75; 0x1cbe2658966dd3c4; 0x3c13068f14fcb365; 0x3ae2c1fb1ea54c9e; 0x141a87fff256988e; 0x72eb9bb5665c6a77; 0x67d5f2075d9849f2; 0xaecf8328c560fb4; 0x46f0da7523adbc1a; 0x52a705271a874c3b; 0x2363feb0e44f8b93; 0x50033bbbda2a2906; 0x2679138ebc2b6a39; 0x2f0297ef1cce2cc4; 0x595477ca1cadbe11; 0x3bfd840101465541; 0x64ffaa9a0634e877; 0x6c64730532748b25; 0x2147766786226709; 0x3a573ca1b0c4979f; 0x5baa94b4b20838bb; 0x24d690f75103e335; 0x4ee017e18bccea60; 0x41cc4ff0dff3c303; 0x3608fbeaf788733c; 0x714ee1a761981d8c; 0x78a295c435a40225; 0x7dabdf3ac0912061; 0x207b8e356936e037; 0x4930ede7040fab84; 0x2f24998b73069b1c; 0x417e14c59e5718be; 0x7907384d28941e89; 0xf03e7ecb5b041af; 0x4b00f6faf87b9cc3; 0x3d84616c65094ce3; 0x7dcba74051846a88; 0x374b441b85b262aa; 0x37fb0ff60e52fb23; 0x5d15f24bc2ae1923; 0x4eb8a8fa0d3e5140; 0x77d9f097fb790c9c; 0x4ba1f402adb164b5; 0x76e522b3443657ce; 0x3adf7c9c780ec9c3; 0x5e4c054713c036a3; 0xf91ddc2c5b45ed0; 0x360db5a8988d43fa; 0x67d06940b2d72b9; 0xc5c2cd2daa8eea5; 0x4f08567cf685e167; 0x3c9b3232f8305bf2; 0x7f1aaba82f754957; 0x1305b4088a084275; 0x1a52f4141da353db; 0x4abdb902f611c077; 0x3638d0cb5d0cdf6d; 0x2671fe48488b5a88; 0x1f2909b966a12342; 0x44b17a1866e2c4d3; 0x52a33e20be460abb; 0x78eb6c9ddf083563; 0x99f176bfbfd11a5; 0x3a4d43f6c8977409; 0x57076c6b0d1f61a; 0x521e589fd1edacce; 0x425715272ce8de32; 0xc1e4be237cb1c90; 0x31d21acfb7b166b1; 0x259ad257a4e3da55; 0x6a7aec6fda46fe96; 0x32a035a3626142ba; 0x6d4fe26a5e2ec9ee; 0x1bb9573e20d72261; 0x1e38b9a6f5b14109; 0x340def67cf3a311a; 0xa9b64416ea14573; 0x10d27f195362a8fd; 0x253481316792efe3; 0x335d03afd3308be1; 0x6d9b54ccaeb671ca; 0x6af67044c58db117; 0x61be5285df19954e; 0x339b5d8b265c4306; 0x68b6ae0fb7f02172; 0x47ccee8a2e723b70; 0xa69918eb1eef088; 0x4ef669fea525c786; 0x106386e4f4695b49; 0x387d6119e2ba331a; 0xa81cfb3087b14a0; 0x1d8d5f2a822c004; 0x11b953cb71a6d7d5; 0x2345b9c0a8bc0974; 0x66019593fa3c5c82; 0x2f4ba9b9ed0f0e86; 0x1712ae27745ec35d; 0x27eb2ae74cff9bd7; 0x4058a7ae49dd7801; 0x750289a45bda1927; 0x7d7f3c8a20aaa73f; 0x6c4d678f888ef914; 0x454d1fb0f19f49db; 0x36c0631d08477c9c; 0x7f46085d0cface37; 0x49b18dbc2ecd0f67; 0x64deb80ae75686; 0x4654dbca33f779ae; 0x718facf20f89bd6a; 0x1cf5e23684ddf0ca; 0xdfdbf1daee42c94; 0x5e30082946bb3004; 0x225830dbed2d6d63; 0x5821185211087f03; 0x6b6311bbf1e9d15f; 0x18581cc78d3327af; 0x6495b74a1c517585; 0x7b89e1ca0e639462; 0x66e5427f92ea2ad1; 0x63982d99990a4dfb; 0x570806a7a4147ede; 0x40f2833beadb9b80; 0x4a53b0267eb29fb3; 0x54939e26dea553e6; 0x6fb7f24e17beba6a; 0x2808228d35cccc5c; 0x3a48a61232d56b27; 0x1924fa9103cabd0e; 0xd2c855f5ba78e29; 0x9b63124b88de72a; 0x549f7888795c63a2; 0x26f5d15fa9383b42; 0xf8786df6dffb82d; 0x5af471723b8f64d7; 0x5fd00abc1011e370; 0x2976e928b5c35c41; 0x11457de700f89cf7; 0x1f5cb750c8297fe9; 0x40edccaf84d2eabc; 0x30607c1c862a5686; 0x39437b55912e017d; 0x52713a7b2ea60653; 0x7f791d0c560ed75b; 0x2b48e023f508fa15; 0x7fa55d05cb5f5898; 0x71d12132e6c1c4be; 0x77ffcbfd75470bf0; 0x33cc96accdc22a1b; 0x5b5e7a06121f7e53; 0xa82900b0274d180; 0x2535bdc82e7fb345; 0x6785e510ef554d2d; 0x2e95403b84bb4163; 0x38aae4d199d6ea11; 0x3071aa727d63027e; 0x5e8262d7bc95e69d; 0x4d5f666f6f7121eb; 0x6a84bc120122cc12; 0x6ceb2f13a12f7bcc; 0x366f3b1e5b8c3f3b; 0x50146b22bc171391; 0x272af0568467188d; 0xeda8324bfed99d0; 0x552de9ba1beff134; 0x5dae0235545c0fb6; 0x5bed058fecfc24aa; 0x43815fd23d674cce; 0x529cd4b4cb174ca0; 0x5ba3d0765e8218f5; 0x433ba52f54eec42f; 0x1cbee8449b594c32; 0x2de62ee2032cd871; 0x2d58844db0c34115; 0x66dafc46bb6226da; 0x7347e0e90412c034; 0x116fe25eb395ea4e; 0x14274c6cad468a36; 0x469da67d4d767d57; 0x6a7da5d7bdea1ed4; 0x6726273da73790e3; 0x4aa9da7e703af50; 0x2b1c3dee9d8d8d; 0x7459d09ee0a35c6f; 0x35e8ecf1dcbe32e7; 0x50d7753147800f1c; 0x1630354053260f7d; 0x1609a15247cadb65; 0x77df4ddaa247d956; 0x34a926544e5c36e3; 0x6fc766802c14c692; 0x1af10ea5563b8283; 0x347c88ecddc5ec07; 0x14f9a54893cae495; 0x32b16622e36b7160; 0x5ed2d55b4d8a8168; 0x2b8447cfbe4228d6; 0x25ace35c58bebd61; 0xc6c3805faec732d; 0x1715fc482d80b39c; 0x147cd2aeeeb420e8; 0xa21338a674ddc17; 0x5d9d68ac9651472e; 0x634e1d4acde10bef; 0x4edc890beddd6727; 0x61ab016dda090fb6; 0x1e05c1aa9f4e68aa; 0x5f8f865845ab3422; 0x1f6bdfb2f78a335; 0x457e319cfe918b37; 0x7dd44020a7c35677; 0x26f75f895c0e5164; 0x114544553b456b24; 0x2020a8808a8a2a0a; 0x1544044414044411; 0x2a2000a20a0082a; 0x4105145455055054; 0x2200220a2082aa88; 0x5555004114; 0x2820a0200802aa; 0x150015100454050];
   [0x3c9064a7c944c279; 0x657ece2566c32310; 0x2ab2a51e232f3866; 0x354b8e26d175fe36; 0xf190331abc7f5f5; 0x9b3a9bf321a3448; 0x7b145db4c45a962d; 0x11931ea4bd8c44ef; 0x21d27cf45a88ca55; 0x77805cb69ee0ae09; 0x774217ce85d724aa; 0x1df5ab7fd6413c5d; 0x653e3d340ee8b886; 0x130b4229b842b19c; 0x28edcef666dafb07; 0x51db9e7c9b9ede2c; 0x5fa1e758169f2cbb; 0x218f7739374d0802; 0xe05b9d74eae9644; 0x532f79576f25b2ba; 0x4eb0cc4ab0b3819a; 0x70599c01189db7b3; 0x3753384aaace6f5f; 0x1a8e08bbc3d8362b; 0x72a6d527b34438d4; 0x212313fb4720298f; 0x3713b44a0a94478d; 0x7940ac505426582f; 0x550d0d9e7db7285f; 0x116e46fa757f285a; 0x24afeed65be67983; 0x39abdbcf8fa429a5; 0x47a10e7bd21e535a; 0x18c91f010cf4510f; 0xd52c2a771577cf9; 0x2844abeca24a5562; 0x5cf5f54a71e17c83; 0x6510c50b40885887; 0x638b2f6798ab8f37; 0x4f6080a52ba02744; 0x22e7a1db2da5217f; 0xb2c1ab26db5f135; 0x55ed4b6191763552; 0x2a2566a54b9d120; 0x24d4c02dcb8f3fe7; 0x59c0129ca0dc6214; 0x477d1a5025bebce; 0x66f1502c6f368f85; 0x2e1e536df9451a4; 0x48b38a0c7661612a; 0x705f13fbd3231f01; 0x59d73fa066bbed9d; 0x15f94e485b074700; 0x34e32b83ca4fc16d; 0x43d39f424749b12e; 0x78c763affc16a7f6; 0x6392a8238933176a; 0x17bf851202942edc; 0xf2c572d9507ef05; 0x210e3579006e166f; 0x15a5c098664ecd94; 0x255b8f29309ae479; 0x72c453fb7818fe67; 0x4e65ca94be32ec60; 0x3b6c13fc1c0987ed; 0x3fb26afa5ad0b9f; 0x8f9dd2c7dcf38ab; 0x4846ceb4c99117b5; 0x54650a3673d0b163; 0x566f834917d1e951; 0x22562fc5273fea23; 0x356a46875ad22a41; 0x583b4f8554d283a1; 0x363bcb66526b65cb; 0x3018ea13ff1df446; 0x9c2857320d0f906; 0xfbf24a9c93ca808; 0x38448e59fa933dc9; 0x33bebdb258137aef; 0x59205fa5204f713; 0x62316bbb427315b6; 0x6c7e6deea2e575f5; 0x442320b1973b1557; 0x236f0fdeb68af0d8; 0x6b9e7cb9b54d7120; 0x3bec8d6066df80a4; 0x409cae233265cd3d; 0x3016c52c2cf13f96; 0x529d2d2d922bf927; 0x596059808da20e67; 0x6f99b933a9ec99f4; 0x27624c0bcee1fe86; 0x1f6751054621bc32; 0x2e7f46bf4c340e51; 0x32910a9f3ab39b68; 0x59c81821dca9ae29; 0x1dbabd8dada0d589; 0x1ced56969cb9c953; 0xe7d01d345081177; 0x51f8268c3bb2a9c2; 0x180fce8e3b73e93; 0x41e016d6cb098960; 0x7f1ec99bd19b947a; 0x3e523633a94571cb; 0x6207ea8662b6f8d0; 0x5386671e97dc121; 0x7978dd13270c1383; 0x19cc5a65ea784960; 0x6874925b57288b6b; 0x66ea28d42e8e31fe; 0xc5132566f7055fa; 0x25a478dfbf5530ea; 0x20c1ba43569baccc; 0x7ec14cdc5a7af253; 0x7d40b05a73234682; 0x5534b34c84cd3e0c; 0x6b483334d9f66250; 0x1213943005e7ea41; 0x2128501605f5ed6c; 0x176cf3759a1d546c; 0x664f6e45c9e66f1a; 0x4bc710955c5d5faa; 0xf9d3df7152d28b8; 0x27498c95ce464148; 0x19f4f3e5836b428c; 0x35e1b04ed315df39; 0x66591710ca514670; 0x296914bafae468d7; 0x5507524d6d72937e; 0x2c9eb54b4e883c03; 0x5d588bd7d7287fe6; 0x5bd96f0249cd819a; 0x5aaaaad4059550fb; 0x6130ace58df26a63; 0x7f11e739aa580d64; 0x5bb57448a5cefe29; 0x2a3c332e329c6e14; 0x38a9d70dda44b233; 0x1a2c734168f020d1; 0x6e4cbba82e739db0; 0x1749fdeec2fdcbc3; 0x1f3c00da0cfcdac2; 0x4d1739d174d2a579; 0x2665aaa3eb3fa0bf; 0x197a566920051ea9; 0x6854aa4b9341e3e; 0xc4d11f43782a4be; 0x1a83e6b3921d8a6c; 0x79d737f8eb84b342; 0x5b367dcc6ae1cc52; 0x7a2163b6c9e7dd3c; 0x544bd216df5bf03b; 0x6bfac881c4241717; 0x7f1a94fb70d1ff37; 0x7e41488b21ae8287; 0x39e7bb0e8ff24559; 0xcf03ecfc28e24e8; 0x11f8c44ac1496b18; 0x7e00f5d9c20b5783; 0x2b1315adac1a43a2; 0x1444c2f1e4cbcc81; 0x4877ad56555cd4db; 0x68d3ebf33f11da8d; 0xb1f752a8c2e5990; 0x49ad6e6658b4eedf; 0x2d654c64d1a5ce0a; 0x6ccf3d2005b89f99; 0x7049b4c008024c46; 0x6d0ecf2f0838f7e2; 0x64e19a0ff257eca2; 0x3066012a6e1d4911; 0x69e53a161192c303; 0x5edbf4e98c8dc68c; 0x5d5b90ca8a5e1019; 0x3f803cbc5a4558b2; 0x612d983d543c3464; 0x3e263208a7f9b04d; 0xb504f861bea95d3; 0x10ff14c8f5821a39; 0x2718fd5efa8b2680; 0x65109a1d6662df9b; 0x5bdf291ba450df1; 0x217ac2aed3d263b5; 0x2250dc8b3c70a6; 0x548676aabe95a1be; 0x2e0760b992a46dfc; 0x7008396ff2d83e45; 0x51cfed3c37c92462; 0x2a4a9a1e4bc918d9; 0x46b7eff0e8d81173; 0x22575f227e6bbd80; 0x5e318fe38ba664fd; 0x4ff6239970657ce7; 0x4c7cf1e9c90c5c9a; 0x64f5a56c6dbfdd3f; 0x4b3646c8ba062edf; 0x66cdc581ac79d61b; 0x668a57ad92b97821; 0x7f91f602a75cf846; 0x7d172c52e40b2685; 0x706cbb9b4442eaf; 0x4512f53bda034414; 0x1b2bed6dfc9fc222; 0x437ce72d2899aa38; 0x17da4dbf47923544; 0x444506b578b922ce; 0x2f0776b7e5ce0437; 0x26092c6b4eb50563; 0x40c365cdae626fcb; 0x37a7603eac664916; 0x66dea9b030d9aa4c; 0x79961ee4af7df5d2; 0xac32a6a0dc6c623; 0x3658df5d069f810; 0xa7d482dd2e5cdd3; 0x4380bccb9f9a9000; 0x9e3bef2650cbc44; 0x364d95fd41efd644; 0x6cbe6c6af199a5b3; 0x5b33be16bc6b51f9; 0x425bf558d12a64f; 0x506f2e15b3914e8f; 0x3bd0f51e1b7635d5; 0x3c813e5abb0f1bbc; 0x173c3374446ef407; 0x194739cbc82ee728; 0x473bd447f2d047f8; 0x70535dbc23abfcb4; 0x316afcd3b06186ee; 0x359cf56d61246ce3; 0x20fd0d3f264a8aea; 0x6fa5ddd1253b6227; 0x52f5087d3c1f221f; 0x4537ab0586981083; 0x6488b51aa74bf4e; 0x5a5fc409396ef54; 0x57f6456ebc795137; 0x6555fb34b9f95212; 0x2ed5c21d0929cf05; 0x73972c4920a3119; 0x3d20fd8cbfd29008; 0x454ee3b9df7a4cb2; 0xe4d5f5985809731; 0x3e81f15b54511a7c; 0x6c42217559c7a409; 0x3fe51b25dd4c5b0f; 0x42486c6cdce3be75; 0x6ecca9ddcc1b03cd; 0x39631c323769ee44; 0x5f118d656f33a85d; 0x3ca8c1ce02bf86fd; 0xf5dc7b098d09877; 0x31746aca72a17b57; 0x59a6b7a471cedf24; 0xcd1197d24014d67; 0x30f2ccd6a25bbdfc; 0x2f64c9b6c26a0db3; 0x2f8a204db85da9da; 0x36aff157c745da83; 0x287973089ec39da3; 0x39fdefc20bff8be7; 0x1e0dcdbc0f5d9828; 0x65354cc428a1f0bb; 0x4558e90e33e22abb; 0x39de31fd2c541bfc; 0x17cddb100558db7; 0x283ae23f8a424361; 0x20755e4577dc3ecc; 0x643d447d358c6396; 0x8b4546a1592db55; 0x4ca41fb04d8dbe1; 0x12e99348e64cbc7a; 0x3cca8a4ef728c0bd; 0x3e1e2a543db8f22; 0x2c7c9679c402c5a4; 0x6ce543d55544a8f; 0x7e0e9c3a8e5f58cc; 0x1e607683b0e9fc4d; 0x2e97efbf92b1f355; 0x1ca9e86e31000428; 0xd6daaa153d6cbca; 0x2ac640e173b330fa; 0x284c5a2118f86a5a; 0x31d81cf60dde778b; 0x426b30ce7da89cf2; 0x3094ded7c7f0cdbc; 0x13cbce11ef8f7356; 0x10ce9f5430b01b45; 0x41445dbe38fc64d7; 0x3f4171d8dd84b0b8; 0x717c94387df8594; 0x1a5c60ce9c9a9ecb; 0x70ae4e4ff1c8d987; 0x7bf584b7997fa4eb; 0x32132d4bec9766b7; 0x633656d63b753ee7; 0x57ddd07ecc015e48; 0x569b035fc9c52971; 0x11c18ca11b7af32d; 0x5486cab344f3945c; 0x77603cf7c6ba8a31; 0x7be9ff7345277083; 0x74ae872d58f01de2; 0x21188e22f66e2217; 0x547f942e714e014b; 0x55938a4ee1684732; 0x17a0edda70f31d42; 0x2fa118ca8988082b; 0x45141541257ab03a; 0x8808000aa02a08; 0x4454450400010405; 0x8aaa2aaa008aa0a; 0x4150144504501411; 0x828080a8a0a2088; 0x5055004141450054; 0x2802828000a08a80; 0x101550150500111];
   [0x3818d55e3ad355ea; 0x5e91fd95e722c2c5; 0xe6085c616597a27; 0x5bdfbecd7d303b08; 0x68338f0dd814d576; 0x3d4b36e362e3d9e4; 0x26c2d35526a17ed9; 0x257e5070a25ee6d5; 0x26318537c771ae43; 0x47b02ae2d184fd0a; 0x3f2ccf76f6e3f5; 0x438570b067bfbf8e; 0x42985a3dc5dad403; 0x658cb33cdcb6f0f2; 0x59b7cf634923a434; 0x5bbae85900044cae; 0x69b64167e1bc2a00; 0x11be1051fefc1213; 0x1b146e6945dced13; 0x175820d5c648c3a; 0x196c7d627e4f318b; 0x2462d7c3060fe962; 0x40018e5cf00aeba8; 0x3a3639a308afb3da; 0xc35ff390cc69f8f; 0x7de0d8043c39fb4; 0x6f8364da00e8b5a7; 0x15404ed31583ded2; 0x5f1de84cce523339; 0x265f6f7fe41fd846; 0x29819bf1a83bd34e; 0x18c83883bcb9e0f8; 0x4547d8865468a7d2; 0x2427b77166a193bd; 0x450975618a6f5c14; 0x2efc2a824e4af9dd; 0x62f01ef843f8ad84; 0x69ede639868d5b17; 0x29614aa0f02d0d50; 0x68480b3e12dfc40; 0x350118354717b38f; 0x4f34a7f166abad6f; 0x4448564033d3e768; 0x18c7a4ccbd13b745; 0x3f7494aa69332739; 0x5715a7d0ff5327a4; 0x4bb5e6a026ae46da; 0x15275435ffb3a1e5; 0x10c2edab3c87af94; 0x2b90cd07bf05de19; 0x3ba3cb95ff6af18d; 0x4d2c273355f72cee; 0x211d9f1071ce97e5; 0x669d30e594c512cc; 0x3682b27153409a2a; 0x4fa24e710bce6e00; 0x309471ab29d6bd9f; 0x3609f854d7f6e083; 0x6a9bd448cf6e2f82; 0x4210f9c32b97931c; 0x1c3053a07877753f; 0x2901cde9c8a2e3e; 0x676852a8522f496e; 0x356f1524927cfbd4; 0x483b16db751e6378; 0x537e21a985ab0234; 0x33d225b7def377f9; 0x3097d04c5b4f095a; 0x73fcd0511b1a6010; 0x44351cd9d9839fe; 0x50a3b77e6889c997; 0x2ae6851c17f97c9; 0x57ca9ef8b8fd8d1; 0x4a97c4a4b941a0bd; 0x51c5d17594f97f4; 0x50f018ccd9dea587; 0x715b6dfe436aad50; 0x15a3a186a9437d8c; 0x1f608acdf4b6ea42; 0x482734e7f6f13a8; 0x7ad922cd78f540e7; 0x3a6d2423f254ae42; 0x530020fd6f76ba3f; 0x3e441a26b0870457; 0x48d8de17045b1f82; 0x72c704e37b63cd48; 0x47aff6cbe3f96f4b; 0x1049010c42ea1367; 0x5e9d683c571d872e; 0x4911c13e9ca1d8a0; 0x49d99822ea9dd454; 0x123308562cfc23ab; 0x6dc7f6e94b2040d8; 0x2befdb750165b01a; 0x587501c84c0ab7b7; 0x74b964b92ec7b413; 0x6176070048ea4890; 0x5f782ce7fb1e496c; 0x41cb900be3a913f7; 0x164f4c0006bd0bb; 0x6d612bfe4f3d3e80; 0x48c87e4b6ceb1630; 0x30af7b976f28a582; 0x3f2f5de5bc82d702; 0x6d6e40d9a47845b; 0x2b814fa57a786376; 0x7f38321ab2a902fa; 0x7fc4d1820536a2fd; 0x42c5f5268e7c0ffe; 0x46f369f46ce59732; 0x43e40c43ccb00a5d; 0x1b0fd0d05312bec4; 0x173dacaaa8f7250a; 0x26fae44959b95a2f; 0x1101f3a78e116829; 0x43b8c83b6e1b557c; 0x416a2277ad3cc4e3; 0x5c9a7bb1dd2eda7f; 0x51dbefc70d98bfc4; 0x5c0e095ccfc7c34f; 0x1405e771e844d3; 0x254da89a7554a87b; 0x646d5bfb097fd5b3; 0x37a9d6a61a5a4801; 0x58ca684113279494; 0xc3fffd09c27e527; 0x76d81cc7c392a316; 0x38294ab22315191d; 0x45182276371fc2b3; 0x40aec11742ee845e; 0x4a458ee1560d2c4d; 0x107c5c7acce07875; 0x42d1cd2ef5e654c0; 0x1e9f7381033979f0; 0x68bbd5a04ce17fcf; 0x7af55de916bd996e; 0x599d7f219e1bde84; 0x46d9eb1b0d004ae7; 0x1c98c040e8852f84; 0x4976e7104e8ccf05; 0x7e4819c39a54994d; 0xc3b5aae33a347d7; 0x6d07703eb87d3a66; 0x64b3438b643119b4; 0x6691a40806a43956; 0x30b993077f023456; 0x34a11d2ae8dffe5f; 0x2a2d9d83ed7ddce0; 0xcbc5af9048d542e; 0x4e6e1834782d77f9; 0x4c6ee89fbf77048a; 0x2a8c77b473bd1457; 0x7bcfdcee40963583; 0x573abda84e873095; 0xb14f4b7bf6b6aee; 0x7ef9dcc8e8619ad6; 0x4cd50c3d42591f8; 0x72c4cedbeeec9b08; 0x228f6778ff4bfc24; 0x12d629f298d60f5; 0x57ded53297488cd7; 0x54c5a08ac8f5fb6; 0x271d5ce7718016ac; 0x3fdb274b61f04959; 0x73a09559a8ccd0d1; 0x165db0b8f5e9baab; 0x3c098b9a0ab7d60f; 0x7447b5c241267ec5; 0x7f3e784554b2a9dc; 0x5828fc6e55fc2c0a; 0x35ef023ccce4c2bd; 0x70d48499e7c07177; 0x190c48ab056aac5d; 0x5f74339f97d71eeb; 0x964e2ca2c8c005a; 0x14efff2db650e236; 0x18670f8c2f3f6cb0; 0x487e302760c272ad; 0x5ae92dc50d6c6df3; 0x2622a2bc2109a434; 0x6fdd662ac677208d; 0x3ebc1cb057cef1cb; 0x3039da9b278c6495; 0x572f446e48dc9760; 0x5dfae2a323ec4c0; 0x5495f708fd7f80ce; 0x28d5e98b2c4c0862; 0x10252080c7f597b7; 0x318f767b78e63cc2; 0x6aa93657a22e735d; 0x318a48e65d8c21a0; 0x5327b8dc2e6aecf; 0x77adc8ae432d434c; 0x5c08377364388825; 0xae0fa9b148b9c85; 0x408be2c6ec0ed90d; 0x56e1c092f65bec9e; 0x4b1fea18c6e1da07; 0x18fd7eea12074760; 0x574868313778b36d; 0xe935fcb58ad7de3; 0x12aa393418a430b7; 0x2dacef168a84f28f; 0x7de89657fa0cf93b; 0x6575f80ebf9db56b; 0x765268a264a7231b; 0x6ce11413e9f65d31; 0x2255c3e61cf16bc5; 0x7acc8b25dc6dedf8; 0x3bb115e28c28421f; 0x16867a9eef86da58; 0x1a55750f932b10cf; 0x41c3e5b4fef970bc; 0x22ab778e8421a94e; 0x2dc742dc2d61d925; 0x436ceec2a85f3f56; 0x2510e51d61ac7d38; 0x6e9a8f0cb0e5dd84; 0x7d5b3e1770ea627e; 0x70acacf26797f647; 0xd81354911b63ec5; 0xfe35a66cbb05e2d; 0x7808f0b420fdd872; 0x75703b8ae818cd10; 0x5b3b5b229a6eaae0; 0x359e0a2ec3d2ad60; 0x55628fedd4f1823e; 0x85723226898b02b; 0x40aebaa4f2ad844e; 0xc57f6e3a9914b4c; 0x2edcc2eee353c06f; 0x40395f8c1724f522; 0x3b6df207e3debf62; 0x66fb420d94e8c823; 0x2515fda11392bcac; 0x7304879126826bc9; 0x46994915bf82bfc0; 0x3f66d26c6f00c3e7; 0x1e5f495abeea6897; 0x56c8c9177b068819; 0x47a939356b1f172a; 0x74222d3604aebcd8; 0x791a46dd9ed467fe; 0x284966bf122db9c6; 0x43f167fa39c3288f; 0x1e59fc126b9b9793; 0x2251c09365c394; 0x6227a37d0508b966; 0x1a144348443677c4; 0x1aa2278a045d6f85; 0x1891fcfe5140776b; 0x48fac6ece82e9589; 0x6ecac1c9c04ec593; 0xd7b884b7fd8008e; 0x47db7bfc5db3f600; 0x4be8c727431e7d28; 0x4a4d809e93c1ac38; 0x2a5e4b798b0f6d5f; 0x2a3332084a64e9ab; 0x7f76a6cbaa24e61d; 0x5556899fa1c0eff4; 0xff156bc2637b2d3; 0x48ac3486ecca71d7; 0x510de552827fdab5; 0x6d776c4569133227; 0x3ad1cde530300ea2; 0xa23838028b554e8; 0x47547e5866b0b4a5; 0x550e66b25c5cac65; 0x3e0aecc605bfca6b; 0x669265f0e23682a6; 0x246fb5765505ddc4; 0x586091e007918e21; 0x1a229188303ef90; 0x699997b6c32eb820; 0x6e8c5ac08c58f56a; 0xb4c97eaab47d530; 0x1604792c5094c956; 0x4f4d5cbb0442c4bd; 0xdbeffdce1036770; 0xb77e8d8a107a12e; 0x423a01758fae9415; 0x4e72b598f998b428; 0x17e75bc92a3aa86; 0x1358b2ab8db297b0; 0x13c267aebcaa65ff; 0x764e6304e10e212f; 0x4be8e4c4f4dd402; 0x5eb995cc341ff7d2; 0x2b5bd10a1807c8b6; 0x18a608e7b360144; 0x3de76ab6bd9662cf; 0x60033247ff29d099; 0x373ca1b1bc166b23; 0x27088909bc3a8019; 0x6630248c29e83a38; 0x2355341a5fb1a2b5; 0x19d36c7f29c37e3d; 0x3115c9b6a15019ef; 0x1c91a90dfaf29de8; 0x2d28edb3820e1aa6; 0x3c690e99f4d31cca; 0x2d2ad79c3b8f72c8; 0x3b0768afcd895c49; 0x6da5116fde8d898; 0x708f9cd11fa469d4; 0x1be43c64290db4f8; 0x6ba1e5b0af32eabd; 0x1444045cff37392; 0xa008a0802a08aa0; 0x455455100544140; 0x200a002a22a0888; 0x451140144444415; 0x200a220aa202882; 0x4440011014441454; 0x888228220aa8a8a; 0x455111414105100];
   [0x7cf74e085957ca0a; 0x89353867dea547e; 0x236296d3ed6572a1; 0x13d2722a6b9f8b0e; 0x418a07978ff85b79; 0x54db1b78e08cd003; 0x67b51a0786c90fcb; 0x78703f3c03d97b3c; 0x17605a921b6b3a3c; 0x4d50dd80879d7718; 0x2ab70abcbbe468a4; 0x6fc705efeb3f368; 0xc6090834c692b0c; 0x3200e1f534a6a359; 0x4f69154d9a9f4a23; 0x70cf82aed6165227; 0x5601ddd425be412; 0x31e2b9a67b53c3bf; 0x3ddd90755f73c023; 0x5d275c91d4d68ec2; 0x635a873cc794c919; 0x621de553a301f370; 0x16dda375a250ce53; 0x3efe20395b7f646d; 0x6849ce46cc2c2f3b; 0x48de71da027cddca; 0x52b5d149146b5cb8; 0x342a5c8d3d62dbfe; 0x447c06fb91d71861; 0x6c02a6f7f113d1cf; 0x3e6361f6e3e28c2; 0x74b73d0647f1dcc1; 0x6b0692767a8bb0f4; 0x31b7583dce3ca530; 0x6d8ec7ba08f5a93; 0x20025b28c692eb9f; 0x34d65dbe4f624c; 0x6d7bd37adcfb796c; 0x64d2472cdfc0cd07; 0x2b982a5bef31399d; 0x373ca14529093c30; 0x174e220665709bd4; 0x27c0972ad6bba87d; 0x180a5692e719d0fd; 0x5ff813459aec7822; 0x71ee5beaea4a6201; 0xcaea889976da705; 0xe589cb39176f31b; 0x1606592392efe79c; 0x41862bd70754ee19; 0x7a6506cafa9b26a2; 0x4dcf072e7d925b4b; 0x7b23f53d7fbf92a1; 0xb68e2c13a4d274a; 0x4faf25c1b8a4d583; 0x38d925fe5b035722; 0x585ba6d67c10e73d; 0x663360ec531bcd82; 0x1f2f33d8ecdd5799; 0x62d7f86036845148; 0x74081d22f3deafcc; 0x3e9acb9c703baa25; 0x4808d6a31a0b6185; 0x57be78838b6aabed; 0x2800c25d23c223e7; 0x4b8753dc1e92cc2c; 0x28a2cd8eba1a0a8a; 0x157f1a61a3bb82b5; 0x170eb6fc2d8b4e40; 0x677a48fe6b28b2a6; 0x5a7c9abed8bc47a7; 0x74b0fe463a348155; 0x80eb997b9d1fcc1; 0x3bb5b34b600797ac; 0x701e95c53b7aa91a; 0x1c09c83eff434af; 0x7b8c28ad8681d531; 0x79beb33c77c2461c; 0x7d8b4d3d47ab02fd; 0x4e5dc402cbc6cc6c; 0x2f37418997e0167e; 0x5177e2dbea4c6e30; 0x1ca5b6cb9296dda5; 0x2dfb48d2d5c681fa; 0x31efaa0d34961f0a; 0x5139586654b2c94d; 0x699d1fabb599f067; 0x185e23cc64141357; 0x74a6aec6f98e8e3b; 0x6096167a7c4e3a9c; 0x5f2d0e549b095e2a; 0x17ff50d1f5898738; 0x66c63ba3d4554d8d; 0x3ecf621d7da63b13; 0x4412f1ee1322757c; 0x6d88fa152bb7bc19; 0x377049a135f9ab16; 0x571dbd13af40f723; 0x30e39f9f27b8a5dc; 0x3b1f0d4033ebed5d; 0x1d31b77ac24c7501; 0x4ef267d489012dee; 0x2228f24e75eb817a; 0x730377c88c10a36c; 0xfec693f92afff3f; 0x490c6682c53af188; 0x6a76c751a1ebc83f; 0x71009b188b2d855a; 0x70bb1aad68c69012; 0x41d6d8fd2722bc36; 0x678d49b387c486e; 0x407b14e3322ffda1; 0x32b83fab93a7d138; 0x77c6e4d9a6fb5add; 0x3b6dfdfa5b6d4fba; 0x46676fb5cfa21b53; 0x1ded82aa60c95afa; 0x5be77325969bd418; 0x2704fa8c912ec25b; 0x21ba1694a1777d0f; 0x4b70b342f0e4a478; 0x5f3ad663d4e8685e; 0x418197e080727fd5; 0x2b1359e3712b5be1; 0x3e330e9d1bbbc2c6; 0x7fe8b8c27c0fd2a; 0x1e7899ac96509e57; 0x6816acabd9d98072; 0x5b4b673648c2f08b; 0x7e2dfce03103453a; 0x42388be89bdadc5f; 0x6c8b3caba8582c01; 0x2d56c93257946318; 0x4a718fd145fc5c72; 0x7e4509ac41bb1b77; 0x5c2f8e1616b16d4e; 0xaeeef5c4186389c; 0x6f465c3397575493; 0x691148ad18c96b9f; 0x5d42ecf56a660d1; 0x56c1625e103bde3e; 0x472ec4a9a972e7af; 0x5584876954a71835; 0x1ff6e5b1da2ccd22; 0x288c63c7015d16e; 0x182b656549edb8ee; 0x323db02326a54be6; 0x4d67d1e814a7f03b; 0x1f80d6e6fe0af3f0; 0x478e75a0e1d9413; 0x788a98ea279e116a; 0xa55bd1bab1575ec; 0x629a6bc20498bce8; 0x6be2ce55010fbfa9; 0xec57f164f6a18ad; 0x37a6e98a7114f9c4; 0x8bfe4de05154b48; 0x8e5fd9bb330d838; 0x4a77c1e0c7b0c432; 0x3752acf1545b922d; 0x63b0953b44a4ed1; 0x7b108e578d1bafe0; 0x4eb8f245c2c94ec9; 0x1aecfff02a55fa9c; 0x1639837f53904ffc; 0x1ea29ceb0e9588b2; 0x46430441de99efe5; 0x5bd59d26a2f6b3eb; 0x6f18be21de94799b; 0x167326c51726b156; 0x43bb36a5dcd5a965; 0x634d5d98ba95d3e7; 0x39119ad19464d84c; 0x2ef2ce0ef1c07a87; 0x5567955e0dc7ef86; 0x26c78bf3c345cc95; 0x4aacec8fb07af4a2; 0x6ddae1dd69364f01; 0x2ac6139f065b5775; 0x209831a74d0a7e57; 0x687210877dd7dd1; 0x1a2dbe5a1ca225a4; 0x4a5235badc1887e6; 0x12479527c090a7b3; 0x3a804d08272ecbba; 0x5442721064f10321; 0x775b26eba0872e5f; 0x1d01642f5e4fa649; 0x5843ff679a4fcde0; 0x32b43d996343b48d; 0x39ab2a8f6732de75; 0x56aceef6121bd0b0; 0x5a5846e55b0de08b; 0x5353544ae13a2116; 0x652eb9eab412f761; 0x1027948c5229bf9d; 0x539d679b849c780b; 0x6c334dae12743a28; 0x62d3dc55c6a06a49; 0x165dd69a5c91984b; 0x48bc1b7361b862a; 0x42756177853953f9; 0x23937756dd98c514; 0x7e0faa423867274d; 0x27ae475f0ef938f3; 0x3c7baf785517b04f; 0x56230b66181b29fe; 0x755cbbfbd2047cbe; 0x1b62fa53f6c6d00c; 0x4c5c53776e5798e4; 0x71f338d4abdb04a1; 0x1bd6d4b1aadf3b3f; 0x4e17a807b7cd0bee; 0x35f66f037f6a02e7; 0x4d0aeb4dcc3f187f; 0x1b7f64399b824d52; 0x2f7cc94eed1b119c; 0x711e9ae0befdaf7e; 0x2830e88e046b1c3e; 0x39ba03bbb598e560; 0x33bd9da879f4510f; 0x30317eb3ae9de938; 0x6419e2826005afa9; 0x39747de456a4f6d6; 0x5add721730c36ab0; 0x50c898a5cda47273; 0x433df3a707657cd1; 0x15cc4344171b961f; 0x3a2db07e5a4ee512; 0x7e2e78449147bf47; 0x53b5d5ca808f6ca7; 0x259a0a498f3fa65d; 0x644cb9c6af349b64; 0x44ea6e466f24902; 0x21d8d0304a5435aa; 0x34d52efb4e23bc0d; 0x3219a2b10208370; 0x7a155927782a311e; 0x6ff64210cfcd8714; 0x5a4ddd3783253f20; 0x67c1d23ec1df2bb9; 0x2ea91e508246750d; 0x65c4c1c12d033629; 0x3834a53160546f78; 0x546549e9976edb95; 0x538b2ff3628d7790; 0x7b71363ca5434c40; 0x6c9f2352d3740991; 0x62f1fa0855102626; 0x7aeda655f941405b; 0x1192191b8433775e; 0x10514bbcc71e5d3; 0x24d9cd8beceea400; 0x69f8e73b6cee46a1; 0x33e3dd7f5b447cbf; 0x68f83c0c683d1fb5; 0x61b5c20f39305914; 0x5106bd6052d6e7d0; 0x69d1922a69b1b060; 0x3916df9a6b9db249; 0xa3be47f5d3bc782; 0x664001fb9f3e0806; 0x233eebf9bbb6f447; 0x7d25149d46b82d79; 0x61838f4ad15a7bbe; 0x27ae21c206a6a74; 0x6127f2f322353353; 0x4965e7f08f8fd192; 0x201c1f67e9227209; 0x408a5c2de89e44eb; 0x439d2f223e8e65a4; 0xb47a594c8c127ff; 0x46b6cabec33cab10; 0x129fbac06eb85cc9; 0x7481ba0ad9ac6993; 0x13ce096bea42a88; 0x44e02b89b87c95c9; 0x2d07aabdda3bad4a; 0x415d04b1c0f17c30; 0x7eb9763a8e63dd57; 0x56e83ec067d7a87; 0x3814c6236ea4db27; 0x51ce94294b43b1c8; 0x78b98dc13a12fa2e; 0x33eae44dcbcf5e1e; 0x392242f3b40be31c; 0x3c27121690f7bdd8; 0x4ee5f6fdb0cf21cf; 0x30bfca2848cacac0; 0x475e46e3f8206d6d; 0x20ab74fa0a2518ba; 0x37223d830bca6d98; 0x36ad8580fc92496b; 0x18beed6dfab92be7; 0x1ab32e3298cc1552; 0x6064f892512f5289; 0x244bcad3001150b5; 0x24e370acea24991a; 0x3b95bda20970f1a9; 0x551be849572d5803; 0x274c0f58af96ebdd; 0x41f7b2eb397a8aa6; 0x64fd0e18d4321530; 0x6083646901d1158b; 0x6d637ce56ca4a494; 0x27622635d8690763; 0x68c1ba71639aabe6; 0x86a5ec163d0644f; 0x14454150f27bf54d; 0xaaa2088a8882828; 0x5540554515101455; 0x220808020a8aa8a; 0x5154041040145041; 0x28820a20a8202a22; 0x440114401515001; 0x2208820088022a88; 0x511550040045451];
   [0x5730fd8f06d2ae02; 0x266429bb358b3739; 0x578ca6d66738d8a4; 0x609e10782a373490; 0x3719d85fecab54e9; 0x577848c4bb5531a6; 0x6cd2d6404f24e745; 0x21b7b8464014f199; 0x1415fbbb15ed73d; 0x5dee079e3fdb3e5a; 0x7f8193997744edfd; 0xc3a331222c4349c; 0x8e920562d231c8f; 0x7673cd92d913528c; 0x3ebdb7aa7346888f; 0x3d38117078f1ec58; 0x4ee9254605bd49b; 0x5a678f91253a2973; 0x1024873381a1799c; 0x9b6e6836551e8b4; 0x74113b3f7eb90cd0; 0x6ecea0fb7c472e17; 0x15fde1fca3fbac3a; 0x1d6ca35e868054fa; 0x42abced987574d63; 0x17833dbdaa76fa65; 0x612da76e1c6f13ac; 0x5c121a9b7c55aed5; 0x14ec0923a5dff216; 0x72a4615b8f2f5f00; 0x6a8fd1f160ccfc8a; 0x407e6294a4b9d43; 0x26ff3c41f6bc1aef; 0x475628fc71b5072; 0x4a03332f5fe68df8; 0x3bc8f2638448cb57; 0x3864b8e7419e336d; 0x393d4247f4d3bfb0; 0x335c3d125dad03b0; 0xab7670c773605c6; 0x46f781c38c4b67ad; 0x4540edbed4c2523a; 0x2edb9b5c690b86e5; 0x39e344bd672851ad; 0x111d95b45b6eb6db; 0x1a63f205776546ef; 0x17a0f841b63b913d; 0x4191aa92feb12b35; 0x35b42125ab6d63ba; 0x22980e11ca8d0f68; 0x33917239a948ba5d; 0x256e90447ebb196e; 0x5d767afc23d4b6cc; 0x53ceab831cdebba3; 0x7828878ad6c5c688; 0x2811ff7c194dfe11; 0x2fe33c4ee29b672b; 0x34b5122ed5d9b6ff; 0x7502c7b8ba318299; 0x1aeb41a74e1fe641; 0x5479ff6ced295abe; 0x6e97a112906a821e; 0x5c18c990319e4225; 0x53c70cb92cd04570; 0x13d83e6ebd9b5232; 0x13bf10ce798dc901; 0x1af6c3c5ec46aed6; 0x3daaaa9b04be0f21; 0x15d80de59c573ce6; 0x139fdb37b1a3b6f4; 0x5510f4a5fbf3e23b; 0x467f01d665b4eb8b; 0x52a6311078871f32; 0x3893d21c96d84689; 0x724e5e6645343fd2; 0x1462c96665cf5648; 0x7eb12ec907ca4305; 0x6ae8b22371afe39e; 0x2672a7b7dd006ac9; 0x4cdf6bc21772431f; 0x26b8ea4ddd699662; 0x64a5732e6e636f7b; 0x2bcd4ef054bab47e; 0x6287f64b6211ecdc; 0x7ef095af5d841e1; 0x5f7015b509ac628a; 0x211233f25d86fec3; 0x5acbf18f11c036d2; 0x42a0b0efe1771a84; 0x64be73ebee527678; 0x337915dd6834c3b6; 0x206451c1fdba18d6; 0x534479385ce42fc0; 0x51cc4babaf455173; 0x37fd583c74cee687; 0xf795995b659dd90; 0x1982b8530119290b; 0x7214a63aeaa94a2d; 0x287b0a26dcdf85ad; 0x329f9c5e9b7bab45; 0x55a19a905b0fc8fc; 0x3e68d074cec4ae10; 0x2a284f9b4d437b97; 0x26c67eeafc607677; 0x441a07e2860ac0db; 0x789bfd7599eb7138; 0x6f66549f88feece4; 0xffc4bf6ed264e3e; 0x379d04c09d10cba1; 0x67bff84e7e6785d9; 0x1a6a7c2aa2346d8d; 0x7e5d518b61ef1e3f; 0x51f3b20d53d345b; 0x6d1a35f637805ea; 0x217a9631f56dee7f; 0x29bc00e7695f200b; 0x11aac18f4db95b2c; 0x7361fa1b0cba75e0; 0x121bbf1c810a219a; 0x5811bc17cbfb0701; 0x4988b2399476add2; 0x71c1c7dd4277c876; 0x4a4484fce9d7a74b; 0x51823f9a2d42bdba; 0x53c653f12f4b7f0; 0x5f9fc810957ce4e7; 0x6b2a825157a7df88; 0x6b81426905710cea; 0x779e9a5c41091eb8; 0x4f0978cd20a27d0b; 0x393094dbc8245383; 0x6755a29595c2c161; 0x234e291960ef4c82; 0x6c185dfec4344497; 0x7ec41f9a1856346; 0x558fc0ad5d699af0; 0x1346344988d34e51; 0x8d859dc5623c375; 0x18e64e02e4b52381; 0x13ae255f349a80c9; 0x24ae7e5285f4dae5; 0x5a195c610d29a24f; 0x6c791c07e590d4f9; 0x7774e02b0bf293fc; 0x5f9501483ced16b7; 0x38f3395c3a147efc; 0x581c3325654dbde3; 0xab715fb2017c762; 0x1080042a02cb3633; 0x4d675c5a4d18307a; 0x51d770c1c1595abb; 0x4f947a4dded3251; 0x78914e2786a34106; 0x20a60adf262291b2; 0x304ba89b23b67b3a; 0x189307e61135189a; 0x32c9e3863ebaf3e1; 0x6655c25f118f008c; 0x1d0151ab8bc709e; 0x27749bd51bffc83f; 0x1bd53597912f8ddc; 0x734399cbbb7ab301; 0x69ecead6b79febb4; 0xa855d03b24f8e19; 0x6962be13db8b0b02; 0x2ff593d8b0b529af; 0x517f3c046ed9ea20; 0x2951991f5273ccea; 0x6d286d03c00588f6; 0x1c8c4ef0c665f0ad; 0x5958ffe4d988a8eb; 0x3d935c312f5352a0; 0x3df55b6b8e08aa4e; 0x5e1b5dfc6497c2ab; 0x61298df5050c2c4e; 0x4dd4bf0ee5d9f633; 0x47630260c3b38df4; 0x5fa5891ba12e7c44; 0x7b1a2f00262d5caa; 0x26a461602944a099; 0x60165c46496724cf; 0x3b7a05c68935e2e7; 0x25d11b095148f57; 0x36daab21531d5780; 0x1901235b937d5026; 0x54a1b88bc2a7c9; 0x9d961cb80259d55; 0x73cb7a65fc144ad6; 0x56537c7983dd6d89; 0x302fd4958bd25bc; 0x2d69fd34c5bdac94; 0x6a6e14d619c37fec; 0x70118a3d9cb76f30; 0x16c041947dcfa2dd; 0x2a67f5c59567693b; 0x5737db00e7324c88; 0x39c0cb02ae9fb4cf; 0x16f7391513f2c23e; 0x55b9ef5bc6c935b0; 0x1275155b97657462; 0x5742b5f5d4076623; 0x2293ee144ba2af2a; 0x2f05abeb912eb763; 0x2ffc30b3e1cf695; 0x44d6bf579dd99f08; 0x7a88859c50fe39a; 0x18bf8f29991de88b; 0x18328dec39324026; 0x6a98557e645c3f2c; 0x54bd160ec5b0c9b7; 0x558682faa9f33d32; 0x41ac50e2f2e6b05; 0x53432364e2929e7; 0x38326f604d9227da; 0x5e077e648373419b; 0x1a3fd2bafd4a5b69; 0x2f8ee10544fde67f; 0x7f0a69ee73f350bd; 0x15339f77925933eb; 0x749ab47e53f0f443; 0x72c247d93fbe6d8d; 0x77300be6a2549190; 0x10f9572560d94ceb; 0x7b1770ca11f6a2be; 0x2a440c1388a347d; 0x4bcf74239657fb92; 0x1ce7a316dac99326; 0x7a77984a87d1d309; 0x3907346474b77f7f; 0x298e9564b0b3d59c; 0x5577ee3a7e6effaf; 0x7f9f37150fe241af; 0x53de9b071fc3cf32; 0x58e98b20e01c2fc; 0x7f19e6d51f65ee43; 0x7902b94300864a71; 0x2d8540ff1c945f22; 0x2c621f9ee7fecdb9; 0x36d5992ec7cda044; 0x64cc053b18ff0057; 0x554652f0477dd709; 0x3680907d36669a44; 0x7abc96f08749e59e; 0x2c7cc5617ebe6b0b; 0x1f3b79ca96f183bf; 0x490be2576fa97f1b; 0x122f4b7d5576b91; 0x6626af9c64abcae4; 0x475ee88c18232898; 0x72c1410a639e3b17; 0x79c59b6318783110; 0x7216322054bdb06d; 0x5546bb9cd3148ed9; 0x4cd6c1ebfe883d94; 0x3208cbaa3900864c; 0x3d0948d6cd8f4388; 0x21aec6c4442e3450; 0x6f57d58cee07008; 0x5bb9adb79dc6d1d0; 0x7a1345923030cf1; 0x294c1314e0e106c1; 0x67be9ac77559df27; 0x2398ac1f38af369e; 0x412a91d0f33d68cf; 0x69193d9bac48916f; 0x7a3ead3204a75dc2; 0x12d93eb7f01ec2f6; 0x54136a97b6af1aad; 0x49b086e57be8cda2; 0x278b05dfe5f017f8; 0x3428836c33b23b38; 0x61b5ef86f2a545a; 0x23aad46bd9accd53; 0x461e61c52141b659; 0x93905c0216efbcf; 0x6754e279e43e683d; 0x2851bb257cd6a6b3; 0x5dbaa00cb9dc126b; 0xbba5f980f9a7c15; 0x583689162a0393df; 0x345619aba098001b; 0xea0847230413fe3; 0x2b9d5193e308e0c9; 0x2517f81d8cd688d5; 0x7032be5e00c2ceba; 0x736ac38c388ff2fd; 0x5a986dbc53942539; 0x1ed76e0f7abf8bfa; 0x676eda1e552622b; 0x7fab06c06cea1aa3; 0x17b7ca9f9e9b06b7; 0x460b565b06cd51b9; 0x4a7737c23f1d116; 0x7f8d89adf1a7905d; 0x5ccd0b3df33662df; 0x50b0377760e1cc79; 0x342baf8f192d9197; 0x7a46f9970050cf0c; 0x6f915154285e6a9b; 0x216000bb3f671a69; 0x11fc507ebb625f52; 0x72466267086e3d8d; 0x329fe5b8664cad87; 0x72824589a4cf4b07; 0xd381c4827df7bb1; 0x470fffbe31f70162; 0x109b401f30da399b; 0x1b1c162ea11d3bb; 0x451004a68d12a4; 0x2aa0082a2022022; 0x4115540451554115; 0x2a888880aa82a8; 0x511000145514054; 0x2208aaa8082a02; 0x4510150111510405; 0x2a88a02a2888a2a; 0x514401500114550];
   [0x4b6a5d26ebf4f434; 0x28f14b74976244c1; 0x5514448cb21b6ab4; 0x3ebad4a29df194f5; 0x2463c63b6fc9bbb4; 0x4db05b084d7962de; 0x15705a522190f870; 0x3f8f90960dfc755e; 0x5258a996f7fb00c2; 0x64b5709421a804f0; 0x3bf008b93aaba755; 0xa946e6e72a8d84f; 0x6985ae17150a9343; 0x41c43ea93eef1b8d; 0x4e43b44b0c94d2c7; 0x3ae4b1a6938fd4e7; 0x18b55369e5984933; 0x37ec1e64f9b8251; 0x7d79e670729b1cb; 0x13b46cd80ba3c257; 0x34cd00716e39de6; 0x52936be792775ab; 0x4d9165c7db6573e7; 0x6aeb4e73113aa735; 0x526276c94cf83285; 0x4c83fdf392b3f647; 0x4c9b5ef3a6382d95; 0x61e00979defd1fc0; 0x3540bd073f12308b; 0x2f6029216225f5d2; 0x4d655853ca004431; 0x273248b56cfb2ea3; 0x415d4e13cfa03b30; 0xf24d838a1684cfd; 0xbc27224f23677df; 0x2f234d57fa8271d5; 0x69d9dcfcf808de2b; 0xe81cc04490bcec1; 0x7140fd0a50c7e337; 0x34a805d4a2079b47; 0x22e05456ac2ad269; 0x222efe9c2f9ea120; 0x5e4bcf0c311b327f; 0x299ab4b7748aa245; 0x3b67a3e314aaf3a2; 0x3f97c2a0bc75e136; 0x3a19998f8bb8b5a8; 0x38cbf49ad8635432; 0x4aa5f9454dcd53f; 0x553141474c379ebc; 0x4b14b78c4e7c2b4f; 0x1f643c11b5985e29; 0x5439c833fa80739c; 0x470abd834b6f6db0; 0x2b8c308dc21cc7bf; 0x7804ed77e72aa6a8; 0x10642372718f169; 0x3f393f5f94369ab2; 0x62c147b9142530ed; 0x4ea902e53e5ba034; 0x7fdc099f3768c444; 0x5f2ed86a3f18dd7f; 0x32acbd465b17c01c; 0xf2950222438af5b; 0x43c4cc4df72e51cb; 0x15e394784b426762; 0x75f59c92f960c031; 0x29ee6ccf1ef4d13c; 0x708c5a2a0587b6c0; 0x572d1f6a64a4e955; 0x2e5ccad3ecab062b; 0x464bf8b0da81662; 0x3d0ce53d2b25cf7f; 0x4347245d391a4b37; 0x7d0ede38ec4a2da5; 0x3e3088e5e638c08d; 0x3caa6fd207ff4901; 0xcbd45ba7c4aea20; 0x6647d2097aefcc16; 0x4a28db4590687235; 0x225dc820f52f3c3f; 0x12302c8a003b971f; 0x4b1173bae2a0f7d3; 0x3d6d07a88d91a4b8; 0x72ca4333705e3ca5; 0x66cbad4144e2c834; 0x56874a9d0200d032; 0x4264e160e02abc98; 0x46c2659365fa6c9c; 0x4c39dbe604012114; 0x48584082bafba220; 0x52433c5f8d2349a4; 0x3326efe045722923; 0x63a912d24f108ecf; 0x7eb5ecc2627b1be4; 0x22d79fc508e8ade; 0x22c4e8208360681d; 0x6cfa6c7b54f75506; 0x4236cd18fa176ef1; 0x40e27d303c66ddf7; 0x2c48f607470919d8; 0x6dc5ae2b4ff90376; 0x6b4cefd8484c80ca; 0x6b457627ad4a4dad; 0x6f4665dab2ff57a0; 0x4d0e9124b1bf036b; 0x1810a680813e5bad; 0x3761118015f3553f; 0x6b9817a1c8e9d383; 0x30b23c51b9bf9ffe; 0x682fc5c13b33ce0d; 0x5233a86d39e3bbf2; 0x5a54763afd91721a; 0x7ed43195c8a07e9e; 0x570a6b4514864567; 0x334b9e51fa208d81; 0x2b8ba3c499558e1d; 0x19e04e11dac1e2b5; 0x953df5401ecd55f; 0x426db825e6a389c8; 0x4c6fefdc86c8c21b; 0x328debb9ed3b6b08; 0x37931979e2447130; 0x603fb842e759ccb; 0x2803f55992563f83; 0xa9248635d83ff86; 0x348074f78d24bc9a; 0x63e3ebdf1ded195c; 0x2e8375fb7f2010e7; 0x65942ca01a354062; 0x253f76379bb0d1c7; 0x1f43c0a46afb38c9; 0x2a6f66f212e56bde; 0x543ea9b4dc6f0ec1; 0xa08add16cf72559; 0x5a1129500c81b7b9; 0x28289a7eee7a7a1c; 0x154a9d803331c289; 0xeb5594edda45833; 0x28bbcbef57978c17; 0x16704c4b7c5109f5; 0x22cb3dd2c0d6cd96; 0x30b06636670b2b36; 0x1770f4c4a80a905b; 0x5a425ca50b7bc94; 0x73319163ee335fea; 0x66fca6b7f4f4321b; 0x1af0339566a411b; 0x52ea287fa4b09bf8; 0x64ae21ba69c72407; 0x35df757bca86f319; 0x57ab38920881f88a; 0x6314f2c65d7b993e; 0x42c7e4b568cdb384; 0x30176efc7c1d2d17; 0x5b290b6ab1ba8dd6; 0x5042f777e2235ad7; 0x444a793dcc8d4191; 0x92aa0ba8163085; 0x51e1c02c3e98fb5f; 0x29a96b9e8d68815a; 0x1b9cc89d913d1c0c; 0x182eb38450a537f0; 0x1778ae87edf1a8ab; 0x52c5d60d5d0d0f5e; 0x72ccd082d11c23c5; 0x15e8a9acdc086fc9; 0x64f59b9033f0532c; 0x2b6ba9641447b05f; 0x293328e0d156bf24; 0x76997a7846781624; 0x53a4b99c591c8ee9; 0x2974d308e43ae985; 0xe8ba60d29ea0892; 0x5c941ae98561d777; 0x5cd7c8f0c8681c2a; 0x7567f2e0fb25c34; 0x13bd5d33531930a0; 0x4d4c01510975a0bb; 0x5c4544684f1ad950; 0x708f28789b8e9b31; 0x5070c6e95061c8b5; 0x4d40c05118e9f3cb; 0x2802cfbab554cbfa; 0x26d120877d8485aa; 0x5e5d6fdd6ab27c4b; 0xac57d5b47eaf0eb; 0x2650ddd0b4345560; 0x9ae0fad933671e0; 0x39bf98045fa85341; 0x59dd9028f145c25e; 0x2c56fc9d60f3a887; 0x714315ce1f6291b6; 0x98e74d2b122ab93; 0x521f407d79a70af3; 0xd8d413d9d878a72; 0x5416b5fdf5040076; 0x6c8c67888fd0198a; 0x4b6e0eb5eff09da9; 0xd2a942fe7195716; 0x75af7b1724725d03; 0x53a88a8175c47fc1; 0x1de85765aae3632e; 0x3d77910fe9dcf155; 0x2afa5d2ef9418485; 0x340422eeb23a974e; 0x64db34025601d244; 0x7a7f72a10ab62426; 0x60cf90cc4e8389b5; 0x4db9a3f232e43b02; 0x1ccca2e24a523dd; 0x78671e0badd4b8ac; 0x45aef3388bcc7f28; 0x575f4264dbf51a42; 0x18d519608b93ae44; 0x35505ba622990e35; 0x1ebca7b6b2651fd; 0x1f2adda983772942; 0x4bc415771af30d1; 0x6ed1bf006a329bad; 0x5e4f8b1085621677; 0x5d5595e8eeb842ef; 0x36db0eb6875855c5; 0x2547a37f5fda68a; 0x3f4e8d56a08c93c; 0x7d62b31f11720bd0; 0x2062494f2f2de3a; 0x5a152fe2c6d636ac; 0xefae77fd5c236cf; 0x686bd6cc961e7183; 0x1ff01ad2f9a20c3a; 0x76bf9c57a5da06c; 0x16f07157a37f59a3; 0x6b274f9ab9f5f7d9; 0x3835d65f6b08792c; 0x539344b65575c3d0; 0x4d2c89360038d0df; 0xc20d130f782e13a; 0x48c117a08683f56; 0xaa32914d1cdc63f; 0x69035ed0456e75b6; 0x1bb44eca512094bb; 0x57e29a520bd50dff; 0x367da1b3443ea485; 0x670f02ebe011b861; 0x7013b8ea33eba2ef; 0xeec862b24005ddd; 0x5aa1290d17f4399e; 0x18bc5f26435a1aed; 0x4fc7a0c564350175; 0x2758fb9f2481475e; 0x176da554ed9fa24f; 0x2b63b905952517c5; 0x142a6ce98ccf8012; 0x481538d1d9341bb8; 0x467da6480ccb3b34; 0x6a6e30af2be9a641; 0x3429cd5118da8e5d; 0x4e2b22a2072d5859; 0xc535588a7db217f; 0x74fe328fe22e4cbe; 0x959ae45f5e3d131; 0x1837b32dad3c1050; 0x1d35d7639c2004c; 0x639588a091a94c25; 0x6dff7e7d6223f16; 0x7abe46e4058ad18; 0x5c650765534868c4; 0x2210bae6835a737; 0x4648b6fd0a1623e; 0x53ec9c6832700656; 0x726530631e9c75f3; 0x7322e0c327d21e4f; 0x7f36242d68984d42; 0x5dcb7443fc991f26; 0x244657351208c228; 0x799a5ac61398ac66; 0x184cfdc0700680b3; 0x2201a25a872cb21a; 0x1c2af67c6cc4bec8; 0x61f464f18e878d71; 0x2dc4b6af53523753; 0x7a2e0d4ec3f67964; 0x7abcea2196554165; 0x4fab8f41e791c5d; 0x1c8d4f02a382caba; 0x34354cd8e399b1f2; 0x4fedc887aeb93821; 0x5f58a461727ae9b3; 0x6d9b3f5e6609ad4f; 0x43b11d7935d396d3; 0x77f30a82dc50175d; 0x6dd1ece3a127aac4; 0x4adac437f677f112; 0x31a784e8fb080769; 0x218db316ec774bfd; 0x4b9c31d386598995; 0x13bbc000ff6f17ba; 0x39744d321fe47681; 0x5dd6127c69b419dd; 0x5cab40051973cc3d; 0x6fd414ddf4b36220; 0x7be74d34dba790c5; 0x5cc6d33531f9d315; 0x7d72cdf397fbd7ff; 0x228517c4e291fda5; 0x393600bb0b230621; 0x2003e20ae7db3e0e; 0x44415000c50a7cec; 0x202a8a22a2280220; 0x1111040154011001; 0x8a2a088a8a8a888; 0x4154400044454454; 0x20aaa80aaa80002a; 0x1051514401510541; 0x80088a282aaa082; 0x400514540005405];
   [0x411edcfc642433dc; 0x6f03e1f2bc22473b; 0x6c0219ac9e8bba98; 0x6548324cdfd93d8a; 0x12ec9b2e758ae362; 0x4dd6ada38da8e21a; 0x795e15c512504201; 0x54267fd9c2f2f746; 0x5aeab0039b0da2c5; 0x3f71ae5e0b15eac0; 0x6c7484873ede88f; 0x66b6c32841aba029; 0x69f6ed720d828529; 0x1ce1894a004c4b74; 0x16f8dac623e0bcc8; 0x67606abec8efc245; 0x5dcb0fb2bec018a5; 0x791185caec19f706; 0x599645a607156b1e; 0x415bf05cb5db4e2e; 0x766eaeae6a1d7aeb; 0x499e7f1c8804cea6; 0x6d1f7cefc8045813; 0x56397b8c8c420f57; 0x20426fa03a6a70e6; 0x2cd86db8e6ea7573; 0x289754ce7030ebdd; 0x23c55ff223cf3294; 0x6e6654a2fb8bed65; 0x4aa5ea8e416d1df6; 0x5d3a895fe4617106; 0x10120cdc580eaf50; 0x76b09296cc45e356; 0x375b58a65c3abb20; 0x18bf3f02e2e1ed05; 0x604960e840e2d7f9; 0x36ca609f90d66554; 0x2025ba8f19171c07; 0x30ba10d29b4bbf65; 0x575935ffc063eeff; 0x6fe90c4ecbf1a374; 0x372d3f0fe9536714; 0x329685793604f591; 0x140ab89a956c685c; 0x7e3ac45e911ace58; 0x69589575deee6c15; 0x432f0e461829172e; 0x57febe84c24da22e; 0x5c137b449de868e0; 0x4393309ccb7ee037; 0x4032ac71f1cca858; 0x336aec1c58d28619; 0xe6d30a119992ed; 0x5dff4094ef95c71d; 0x1106645e9e84db33; 0x272bc00b627fca3b; 0x4d48d21de1c60428; 0x35d3fdf2fa05a2ff; 0x6d0671fc37bdf255; 0x394dff0a8e186c1d; 0x364f946a8f0d5d8; 0x287dd8ac4757426f; 0x4ae86b40a9b86b91; 0x41f129a93fe32490; 0x1ecfdd23626f477; 0x1a3de396b414b690; 0x170972adae233c7e; 0x5ad1270b3b514651; 0x70f8cde4c0fdafa7; 0x6dbc99ac36d0c281; 0x2869f09b1a8ec701; 0x29a4e5f9d37a54f7; 0x459d49003d02b476; 0x3db366654be99beb; 0x64c40dab092f3ebf; 0x342682d95c45455a; 0x2b70736db16d8a88; 0x4ff740793b2ee844; 0x409ed1979e86fd75; 0x244783e78c19f258; 0x1f0a791b21f1379a; 0x5f371fc08189d93a; 0x31301109fbd613a1; 0x47d505669a5a43b1; 0x6c55e69883425fc9; 0x10645e65572e3da; 0x703e7319181a7fd6; 0x66b8c56fb618b7a2; 0x5636117a5759c571; 0x2ef68e06f2937c0b; 0x1b2ce21ffc2652f3; 0x62e4ce15a41209f2; 0x1af727a03c196697; 0x676a4b72bf87c0ac; 0x67936f246b5c598a; 0x5ef0d2f2adbec24f; 0x628f5c6ec47e4dea; 0x7d6c482ac645cb59; 0x64815da2108e135c; 0x358e8e556b016816; 0x788d43f91f6155a8; 0x292d1f1023164648; 0x5c20212a72526d5d; 0x14cbab99d99e4c63; 0x2d33d1f46ca5ce4b; 0x2f36cd531638dc51; 0x2d55f0cb66617759; 0x6b0cad8fbce4b9a2; 0x43ac178f9c22ae9e; 0x4661ad45c0943deb; 0x294139b8896e8d1f; 0x1d59b388ce2e42b4; 0x78bc34ade563f906; 0x5207cb8da42e826d; 0x146246bf2d486e84; 0x17c1305357852ede; 0x534a3066d71417d1; 0x515689e88724bfbb; 0x3a552bf8570bb985; 0x18590e26b958e9d6; 0x5c8ec5cb999c0da0; 0x3c155e685aefedb; 0x5fc48bc00bea2ef1; 0x71f81c04e355c4e8; 0x2e3e3b899cf72924; 0x422bd6d9459516ca; 0x46f0fee8b2d4ee22; 0x3c41974b24dcdb0a; 0x31191fdd107c4b82; 0x7c4d05f7b4fd1657; 0x3f30982c5f201cc2; 0x3ad8dee0a7d7db16; 0xbe63b8bc1665ab3; 0x19c8f235c9621fa3; 0xdd8dd06d70c817c; 0x8d2d39fa7d34d30; 0x70fcd7137a52219b; 0x52f5b724e4595199; 0x5aabb343b0aa3c7a; 0x62d54a8a5cad6647; 0x1f02c0428a6f6844; 0xf32b102e6d84ffd; 0x1ba169f4e24eae17; 0x283b3f13b35d5de1; 0x74f21ecc78f91c96; 0x7ddde2ac0237f267; 0x34a3665461ec9f6f; 0x28d7fe5e3d6e3815; 0x9d4df8cfe3b15ce; 0x4920d200a1c8aa9f; 0x2866a6f3f2412b95; 0x237ba9bb0b8d9b4d; 0x1c3de0eb7cfafa2; 0x46748e399eea855c; 0x279ed04b703d550c; 0x250301d40f547feb; 0x85674c4bbeee861; 0x2b8dc80c2cfc159c; 0xf0f68d41e1eaf22; 0x2e6d5c54b3d5362; 0x5a6b2c2a3c924a2c; 0x2ab2230d09bd3609; 0x413cbb7c5a21b608; 0x2a3dd433a8b739fa; 0x7512e05020327c21; 0x1a54ae3b4badb9d8; 0x2b8034d9b41d1480; 0x4dd75218627f5b86; 0x277c95bb4073f2b; 0x7418a12a45562382; 0x7be7cb8eaf67f8c4; 0x19f8e5cdf8e32a2b; 0x4ebcf3bd461960c6; 0x3bd54ed5740d652c; 0x2d0a26dd5f333341; 0x6e26bdd04235c13b; 0x3e77adff1f536c86; 0x70c71d8e56e1aecb; 0x74dba784a0e87b63; 0x25e1284ac407d5dc; 0x631d12a3c04ca229; 0x332167da8ddbc278; 0x4a5d48f539407901; 0x42e853e2ebda2e8e; 0x37a43906bb43a640; 0xa7a5da4c3b3b030; 0x7741590ea8c82702; 0x5021aa3449fbe8c8; 0x6c0e49c8601709e5; 0x65454aaafe88b31a; 0x5ee7468a1824c4fe; 0x78da91d4e0be9b85; 0x579a57ec407f454a; 0x63720cdb21246a98; 0x6ce83ab80b97200d; 0x1cd7b71f4bd6bb6d; 0x57daa95cbcb3b7dd; 0x434faa7633192498; 0x1f8ab0108892120c; 0x6a058401f04c01e3; 0x7918879434e08f8e; 0x2fc6233e4fbb120a; 0x2641c344e0857175; 0x9779e9e1f9706e3; 0xc0469bd601bb76f; 0x3c07bc756c8bae63; 0x206bba27074a12f2; 0x4f5b8326fc321172; 0xc26998e3ea0ed20; 0x117588b727597c47; 0x27a964a46de6fd09; 0x7e83cb8fc320cf5e; 0x3783c7922f18e066; 0x53d3e1759c3db5b9; 0x385130e86b48f146; 0x38eed9e9836e3489; 0x1b6512b3bb42f2d5; 0xe6615d741e3fdb0; 0x1f516a39a4d9236e; 0x70073269693b0d4f; 0x1cde9f34d67bd01c; 0x269b2453e3224727; 0x3c6eb0fac397ef25; 0x684b23360bfc513b; 0x1835e9a785ba83e4; 0x4200810011ff307e; 0x4f2fb1645a79648d; 0x7888a3667db398b4; 0x1943fdbaa1fb465f; 0x764feb01b2e05159; 0x1894307bce9f4640; 0x34088cb0e8fc5bb2; 0x6278c50dc24107b7; 0x5cf771641624024b; 0x194e467f523fc8bd; 0x3d38e05aab186b05; 0x3ad4fd7fa507a25f; 0x2adfda5258a83d49; 0x24995b3f5a304033; 0x4af57209ab64f69a; 0x689d1f4d9207a312; 0xb74be8a35143aa3; 0xb866a010a08cce6; 0x6d2341fae964a25e; 0x4e41afa71e2bead8; 0xfd302fd31051ff7; 0x2bc9c842dd5bc91d; 0x393e4bb3006455a5; 0x50b41169a7ad28fc; 0x3c72ede4856fa9c6; 0x2fbd1b0c14889238; 0x4b6e27268f6809e3; 0x72f09da663665454; 0xf028d45b2c5b982; 0x7d53bdb943805bb4; 0x4d5f6bbce4d35487; 0x59ef660501957d57; 0x10ea00f7f47a9a96; 0x48e7473ac2a514a1; 0x31aca2c724ead514; 0x1b261e3ce9c37319; 0x74cdbd4d39e74630; 0x366aef7df6213115; 0x7ff3b95ece8eacbc; 0x61c5ff8ddca96800; 0x7f6a739738f6c704; 0x3a222974697df439; 0x424570867c63af30; 0x6a288ceb1ec97c80; 0x420da2f818730402; 0x40f37187e264eb72; 0x300d6d68e22e2e1e; 0x682230e254a3efa1; 0x602111f87541d2f0; 0x2bd9ee2ccf5e1ebf; 0x3cc5f944373f0cb5; 0x5baec5bb223c131; 0x1daa94e08fd191c5; 0x1988160346433386; 0x292e55c55d14f874; 0x777c4f9dfcb830d2; 0x71bcf03c23bde5c8; 0xf82c3088eb5b44f; 0x64c0c2c59dafed3a; 0x649c7320201d3227; 0x14f29e1b154d41c3; 0x5e1341580763555b; 0x3761589a87554c27; 0x526794b9c4a7ac0f; 0x455515a378f4e78d; 0x710e6f58d8ff5700; 0x2f7de9bd63df758c; 0x6f64bba9646a62ac; 0x27f6775cb1a258e5; 0x5028dfe0ae8969c0; 0x685504e1d581eedb; 0x26ac4cccec80a2ea; 0x63d4898f9e7bc48c; 0x48f33a74a81e00dc; 0x2300de1d34b85e5e; 0x6a2a2db4e7cf0acb; 0x15db79a286f03809; 0x592596d199a0a30a; 0x5ef6a3d5189b56f2; 0x128c6cac9f9baadc; 0x6be772e748fa0a46; 0x4b34cf68fe73f1f2; 0x70c1e9d37aef0a86; 0x4515505122248ca8; 0x2282800280a282a8; 0x1555400455141154; 0xaaa220200808aaa; 0x511554411400; 0x28aa280a200a0a2; 0x5415051144414141; 0x28a8002008888200; 0x111044545040505];
   [0x29bc8d5c94f53a2; 0x3b7ac22dfa8311ec; 0x1c61585c60f213e6; 0x1d43ce5f0b63ddc4; 0x737c62285f6bd664; 0x7b8e0e363d4578d; 0x7feb87c653d1530d; 0x4c097d8e52e8dce9; 0x169f2ca68fa74513; 0x2e36133731f9dae0; 0x1e65758460cce5fc; 0x4d4d60dd977ef211; 0x886c5c60cebc5be; 0x69c8c02aff786f0b; 0x483291a9bb701b3e; 0x2790307a1b433ff8; 0x10199a1f9a2a0cb2; 0x1ea526a675a54ab2; 0x1f52a8b921282edd; 0x4a69a7cb360fc4b7; 0x394f4311fc8a6a5e; 0x4257b54dc39ef7af; 0x2369401dc21f39b0; 0xda39dcea23eb053; 0x173d7744351c409b; 0x5f18ec7f4148d4c0; 0x3e0c4468c66c92a2; 0x6a34eebd6d07be76; 0x4f967779f6810733; 0x1f0b3877adf5b09f; 0x2895d8b36c0d0cca; 0x3b4fb6a31a71b30e; 0x26cd397cdf243e1d; 0x445a0b5304a15896; 0x6d74109e1e3e9211; 0x5d92fd85c34bbdfd; 0x33f869eb0a7a6c5b; 0x3760909af043884d; 0xcc3c6600e3572c2; 0x2d9e691ae52ddae0; 0x23c1cb4fae2de625; 0x29b174d53a7bdf2; 0xa9a7e3836755eb0; 0x4fdbe07d9fd7e06d; 0x6349ff7f0f4b1e67; 0x1057805ece5b4b6d; 0x13a74a201fb23e42; 0x325b2c4de1b04796; 0x2eec0a3afe8444cc; 0x10094df30fd2b739; 0x54c5cc380845672; 0x6cd9470a1f6f01ce; 0x24515ea7829c40f; 0x77ba10c4ef773d0; 0x3ef4a1ea231d9406; 0x59d8d0878fa3dcdb; 0x3f5f1668476eac8; 0x37ebf6b511faa27b; 0x416044ae1b97a2b2; 0x56884b6ac3fd0404; 0x7010284bafbe98f7; 0x6b4b5d13b4be8970; 0x30897c6c22610995; 0x26f2dd5c68466a4a; 0x6c99b337800d2e98; 0x75e79e64b55a9b66; 0x6f5cf0e254467734; 0x1b93da1393d29334; 0x64aeab741f485f99; 0xb32597e73c0bb04; 0x32a3b3e9ae6dd787; 0x6a482d76d191ff73; 0x5aba5e1986bb75bc; 0x6808cc20a205c980; 0x6582a97da8fd1eab; 0x29a2364d513c3423; 0x5f3e58ff5d84041c; 0x1f01beae84de942e; 0x5531d0cede29edff; 0x3fa709f64566c4b8; 0xebf94f9d7895d29; 0x570e06f24abf2f09; 0x40279cacbde4142f; 0x20b760272b1e5d2; 0x7bc22f81dff0fb5c; 0x2c81b5eeeedd8fab; 0x227ad88ba842512a; 0x2ebd2a2a4235ecc7; 0x1fbee05d5938762b; 0x47888251bd67f033; 0x268bdf21870a9264; 0x546c36b348571806; 0x1477b278db503703; 0x7b928ad64d33bb3c; 0x667135e442c8fb71; 0x113e4449a7c13f0c; 0x18dae2959ccc931d; 0x2da81e2294a3fd48; 0x77f75e0a2dc13996; 0x5d1b64324631428d; 0x48f7d439f677a1a0; 0x51b9b8ef3da23707; 0x1f93fb592dc58fef; 0x7064a8b8f97b9e76; 0x26bf22d65b23915e; 0x7ba3e42b79f8d230; 0x38e8c1697ac80638; 0x22692152827186a0; 0x6d7c49a8b57a8653; 0x842e1163306b09; 0x77143cc9da2f125d; 0x1c1fd255a1fbd7c3; 0x3ddc652d159d90d1; 0x67f283a499e3de58; 0x1d788c93afbf5416; 0x6c5168f6dba11fc0; 0x4831a51dd94ac8e6; 0x442d450e824259f1; 0x358501e1f4bcdaa4; 0x3330cc40b66e56a6; 0x1cc455a3d52122ed; 0x34dc8b6925ec960c; 0x684b5afb8f9e52af; 0x7d6ad773d3544103; 0x228d5e06503c8f62; 0x2d120abd5d42305b; 0x50369c76633c8e9d; 0x20973ea6944ddba; 0x53e17b71859c8205; 0x293518653c7ba1d7; 0x696395730ca86608; 0x34403cfbc943bcf8; 0x4a93da1867636a44; 0x1bc4177fdf422583; 0x429c377992eb8415; 0xf604fc1cf22bed8; 0x7d840f84ff52a7ff; 0x12d8ef3aea97b574; 0x18eaf2385482d00f; 0x1900b22b9c2992e9; 0x2c8e8d6af38cd555; 0x75f8c30824a3dfb0; 0x40920cb15a60c345; 0x4a6bd647a9f818ad; 0x42b693042ae4704e; 0x2bd948f7a2265f7c; 0x559126271802a3ea; 0x3c6974db1414d6c3; 0x45db9ed10ca7fe99; 0x5e523f007ff3e371; 0x3ecf7f629adc5b99; 0xcc68fc805b9a5ea; 0x6c51affc2660e01c; 0x50217a75273ffd4e; 0x7bc6e133843f9a1f; 0x47bb2f52545f12ed; 0x5a1c8d387f4c068d; 0x62567c852c37857e; 0xd9959236742e40b; 0x1a641d3a13d52bd7; 0x619362962c32b347; 0x2ba3654ebd4acb4c; 0xfea6bf6f2517285; 0x66437bdbc798a458; 0x6396e4473280c82c; 0x4386aae2fe0f5621; 0x44237cde253e9575; 0x7ceffce9e557e39f; 0x600f9f1a2fb86741; 0x2c10c812626daa2a; 0x135d12cca2857ca0; 0x44c3037a471544d4; 0x1c7882a4364019d7; 0x47683ede42326c95; 0x50aac31293021992; 0x7673195364ff5ab1; 0xeaec6b55d38750d; 0x7005d3d943ecb75c; 0x7eb20a6cd0139bc1; 0xa2d151456486a46; 0x6ed9c25fe00b2de4; 0x1b69c41d284bec02; 0x7cbf96bf3189d858; 0xce9325214ed9b55; 0x5dc2baefa8b71d2e; 0x2b3ad8e6e2368ebc; 0xb398d4f89fb76f1; 0x77d9836f022b2d1a; 0x2197a48a9399ee23; 0x546bfa5ee92f6744; 0x68044af148042ea6; 0x4fd10bd67c064f0c; 0x7e74012558c87545; 0x6ab26ef24bcfdbcb; 0x76ac227cd7c26233; 0x701e0cc8e87d7903; 0x683f23b15dbc2684; 0x2cc9df00e601ddb5; 0x3bec91a766b47a26; 0x6446dfa6dce93229; 0x6bf0ef7a9f8acd49; 0x4f1c0237d3665e97; 0xe3d38f2dbbb6076; 0x5ab0bb9777db67d2; 0x2ff43b6c6011cfd6; 0x60f0f48e74be5005; 0x759c91e367dcb420; 0x36484b9341e39e7c; 0x63341f4840de7a96; 0x2582fc63a57161f8; 0x5672e613a8983482; 0x55b82c7dcdd0694e; 0x76fa87c69d758590; 0x1a86aa0cdcc238b6; 0x6f9ec85439cff024; 0x3e9d711d2faa708; 0x169a5c1ae3bf721; 0x64c6976dd5e6d82d; 0x4c029c5d22e74562; 0x63f9a7210e2bc2d; 0xc18ef96cf02370f; 0x42c59d1f641bb85a; 0x61e0f2ea3626bf16; 0x5777ea7fa826a9d8; 0x58582cb49187b120; 0xa924cc5886f8793; 0x387468dd297cfb88; 0x573c251de400256e; 0x36eba6757833b959; 0x40f8fdcd237968a; 0x677b10ef2dbe3c81; 0x5c86d539a06be013; 0x46a1480bca0f9842; 0x172999997c9f06dd; 0x3ec175c6304cf256; 0xeaa7e56ce3147c7; 0xddc830ee8642f66; 0x69efd909f412c3f0; 0x55417031a7e47f7d; 0x555d22b64a40f6bc; 0x276ebc8b811edf; 0x4736e2f430bac24d; 0x1755e685ee1fe8c9; 0x3e815b5108744be5; 0x1ea73e2e4be764e1; 0x89db8df99279252; 0x7bdb35146ce1c295; 0x43beccddda0016f7; 0x40a9529e215bc838; 0x1c0eed0bcde5e10b; 0x55ac54300c04843a; 0x671ad2bebe98c74a; 0x7096496000ca389e; 0xaa2d5f5f45bce5f; 0x2a709e2622949fde; 0x1fbc52a36e252a02; 0x3d5913e91ae3b1e4; 0x75e7606f7d2f757a; 0x16b4ea4d685e51c7; 0x349d6b1219e8bf1e; 0x7a1f8a73334a6372; 0x67a0e8e490a8e76; 0x5c3eff513752e3ed; 0x6994cab003a68c59; 0x4f9495d6ec014aaa; 0x47cf37742b4123ac; 0x14f8e6891361d667; 0x1d7352a9a9e84d4b; 0x1afea369adf64b56; 0x5eee1823cd1ed2f8; 0xb5232f0b193ee84; 0x77e27038afcf6694; 0x2164978c49eec498; 0x59b520366b62b05; 0x18e84190fe2b7717; 0x4ef6384de474b3aa; 0x44e6537acbb601dd; 0x1fb363a19f239f53; 0x27a5ad8f52144c19; 0x3303012c4faba8f4; 0x1d8f4282e9b27f7e; 0x56894c99d9d5b98c; 0x7484dad9d725188e; 0x9583f7142636b92; 0x6f382a8c2dc67694; 0x27ea941cd2ab4c15; 0x5bed02bf62711907; 0x132c559fa71e31db; 0x401015454dcce982; 0x47bbcfce0327026a; 0x629a3b11fc503e7b; 0x324cbb17aa3c2227; 0x4ad94ed2aeb63deb; 0x4f23d0ab798bbed3; 0x28001d8c80e29851; 0x53280c87cdca3397; 0x7fd34d0610d3ed7c; 0x5f8b5ef4e8cb02ab; 0x380a3946c08f6f72; 0x56790533ff378aea; 0x3b4508680e81dde0; 0x6f73e81143309123; 0x773e8199e86dbf46; 0x4732a75299f762c7; 0x919170aa1314296; 0x404c7aa6ec371914; 0x67971b78a261b032; 0x32f684b81116958f; 0x5005004bce82368; 0x208a2a0aa828888; 0x1104044510444541; 0x28aa008882aaa282; 0x44015441541144; 0x200a822288a08a28; 0x5504451444404444; 0x802a8808a80a020; 0x545411141051415];
   [0x5d5f2949276277d1; 0x3981833af309bfca; 0x75ea17f6fa666abf; 0x110f64df7c92047; 0x7457101c3b789c0c; 0x10bf66130eeddca1; 0x68a0081e1c1710cb; 0x7f2bf881ab547845; 0x33846ab741a4b82a; 0x3b76077bc8647b9e; 0x6af6c7c52a3872b5; 0x5733575c7634d57f; 0xfde0ea3666dd699; 0x415660bc3b28ecab; 0x459d29cb2b7ee3ea; 0xfe0d0e44612ac57; 0x40afe1c651c626bf; 0xfa4c0c11de1d801; 0x2d3430038ee3511d; 0x64c3cd675f6e86f1; 0x6d5911e7b8cfd8d; 0x1a190647d0b3ed3e; 0x6b1d3c3aa764c7c5; 0x234650638c732419; 0x3eb842420cfbaeae; 0x6fccfe440bb98d0b; 0x50fafaa9b4043647; 0x4336912846ddc1da; 0x6a73501eeffe5b1b; 0x6d305e098f98fbdb; 0x649ff7975f958711; 0x459e1717eb48248c; 0x12715016fe694c30; 0x147049357d21bc61; 0x2676e204a5477b22; 0x3bd5f8c749955c72; 0x4f6a7af5569c42f; 0xa11ea0912726489; 0x3936c6e2fa1309bf; 0x57ddf4f58d466bd5; 0xd0eb7399b9783a0; 0x19dbcf16ccf293e9; 0x593994701bc22e51; 0x6b26523d768f3e54; 0xc7d8a4346d4194f; 0x140e93d5c5067633; 0x3cb402f936419478; 0x4382f36bfb9de7a5; 0x1fefc24ca72d1ed7; 0xc38ca963358b274; 0x16f8cf583fe08193; 0x62faf0f447865d2f; 0x175bc7ab16e3d397; 0x37520a6da379271d; 0x7bf5defb3ca87b38; 0x73b8288ae7ab2032; 0x31c39abbe8bc1402; 0x35fb88f0ffc272d6; 0x43d79ff2240aaef9; 0x6030ce1846915194; 0x2f850a6f43a9282a; 0x1c33904ed81ead9d; 0x4cec4ed3c2b8f0c6; 0x28d0e1a7057dbab5; 0x54a96ecd1b655e7; 0x4daf1345b03d3b4e; 0x4402c27832499e5a; 0x355736f7e12a3dff; 0x54bc7c16cad7bf4c; 0x5080b914b141dc27; 0xbb50b002babc9f; 0x66e27fcb90df12fd; 0x2d9557267efdb24; 0x6661d9635a8e04bd; 0x1a82001203acb334; 0x660b117b725c6378; 0x78e4a6a1c97f2054; 0x7db7e2a74b2cc2cb; 0x2c2341427905ab80; 0x75112a4636f14bd3; 0x2d78ff7d322136f8; 0x1b952abde899c635; 0x150d4a796fcd1eee; 0x5af5cff305fdb270; 0x623f3214359674c3; 0x557c86b21e453d51; 0x57026008ee6edd3; 0x72ecdfdec56814f2; 0x2f99cb3dc4d0217; 0x310f9d7d34a7982d; 0x2a839d2b4dc19af; 0x59660e22fdbffc73; 0x28bb69870bae3945; 0xbc88f78e4fc3457; 0x611fa22c61a68ff7; 0x6e358de192847207; 0xd6fab4f223eb3c9; 0x10825c8c3e41ee17; 0x554b7f85cc263868; 0x4b875db2752a5d2a; 0x7b77e52b1ab7527b; 0x3ee2c1f3c378d608; 0x6ba12d5d01fbfa33; 0x3855861f6c2ee045; 0x3171e75d229f21fc; 0x64c66de00e465ec1; 0x30630745acdec2c1; 0x1f236b33294cfb81; 0x2f05198a1a3d8fb7; 0x3eb135fa5008fe61; 0x4fd2365d8a1e5d88; 0xff23f3764d0e31a; 0x6473c8094c2b8a05; 0x6ef705bdfa52247c; 0x50141701931efb11; 0x29f4eaa8764014b4; 0x1e3f6baeddeb5f1a; 0x6af521d0f83c7d81; 0x23fcf694a3aa60f1; 0x6fdfad8a15b00377; 0x67c1512e3373a45f; 0x1f92825d1e1d4106; 0x167a9ae3b1b3cb52; 0x19a2b088cc02e830; 0x4ccae917dd4962f6; 0x64689654ab00e5eb; 0xf7cd8f4e0a1a9ea; 0x230a05b4a5ab76e5; 0x51794dd71bac21ac; 0x6ff1b892a647040a; 0x188d98218920f799; 0x3d1891458f6a2d17; 0x4cc44ac2f90be8a8; 0x3b79ec4d049aa913; 0x6a747f2c1cc606db; 0x4683b7298e89bc0d; 0x74537ce48b8d92a4; 0xbc5dc6e951274de; 0x367cfd8189a58b46; 0x2dd64d2b2749e36d; 0x3766c42d6103ac9e; 0x4a126ac75eadeb9b; 0x6c335e96a98dac10; 0x46725acce9d14a1f; 0x121461548f611a98; 0x666bf8383218f787; 0x2328aaf36dd14733; 0x787135364d9554f9; 0x3697a15df345134c; 0x701512445b657cad; 0x44670f25e5a2b5e; 0x4caf8808c7d39ec; 0x74540c1b45b4e617; 0x153c4faa1bde3e5c; 0x7c8678b28aa395b5; 0x1a249a8713aae0d5; 0x26b4722b363c83d3; 0x1f3417e045da85d5; 0x1aeeb3fd41f10422; 0x77ac4ca937c30f05; 0x79a0ab5c84fdd675; 0x4ccf64238d334e3; 0x2141276cb55db134; 0x6be696c73bdcd686; 0x128b867f182eecc9; 0x26260dbc03da0ad6; 0x74edccb2a300531c; 0x12c81d907e2c9271; 0x29d623bb78c3d7c6; 0x360a8810c9d600e9; 0x31cad7a32ae0fb58; 0x433577f808a69d38; 0x63e2f5cdcdc6c66e; 0x2d21f812da3bede; 0x14313de5d1964895; 0x1290b3e17e3ffc81; 0x26147c9585dfc6df; 0x592c5c4b027b67e8; 0x4df4c5c8c87ebfbe; 0x15c22a016b2ce83e; 0x2bbc44d4fde4e21f; 0x193185ef87d55150; 0x563877dd16e26ba1; 0x4c137082d65e3d9e; 0x75cdcad1e32e3a62; 0x6d16190b0ef60eab; 0x3cdd781e820a995; 0x34fe358e6c1bbb9; 0x717eb95dbad40bef; 0x5aa573b26733352f; 0x507d54f38b5dc599; 0x2f2a8a3958618ba2; 0x39df727a69fec00f; 0x463a0410f1a3aa62; 0x4466aef7ab43be16; 0xf12dc4e610c136b; 0x1446db1c568d712a; 0x6259359459af69eb; 0x6a11ced968a2f737; 0x640322f233c1af58; 0x56c0906f916daa58; 0x4474eb63daae973d; 0x4dd82f5218da4c0d; 0x410aba4eaa5dbc1e; 0x4c2bcac5b4554f4; 0x4ea433ebd3f9ef2f; 0x75c14a6f1ac052b0; 0x41f10928ff367528; 0x38aa5eff7b14fe26; 0x5792b01de85838af; 0xae1c1eda08a9e7c; 0x6d759db31eae9fd4; 0x268848842f7b6988; 0x1cdab367304e5d9; 0x750424675cad317a; 0x1fca67cca7d1ad1f; 0x44ff64a5605eeac6; 0xf92033d87277f11; 0x42ee924bddb041d4; 0x242d79984f584af0; 0x17cb4a4bd7d91fea; 0x3c55a3be20bbaaeb; 0x176bec0077a636c3; 0x61bd957e011b62d3; 0xd9bd5ae5b87209; 0x36cad53ab563ee15; 0x516eeead2ac9981f; 0x8e542f379b6bc92; 0x76b2288d07e1f692; 0x47f279ad7cdf3f56; 0x130539809039b576; 0x42d8ea0d7c9a0266; 0x4552f7ced2d3c49c; 0x21647e2d69cde8e4; 0x5bb269d8b08fe066; 0x55c0dfebc4c06634; 0x577f3793e56715ea; 0xf1871159e14dda5; 0x884ffac757a3230; 0x298024a84c348d3a; 0x3616ec856af4d51f; 0x2788cbe1aafe292a; 0x3fd26eb3f6389e13; 0x4463f37b5261a0f1; 0x2ded562af89d0822; 0x298dcfe6e9de47a2; 0x46d9b31e4233eabe; 0xa173f6457394dca; 0x880dfbfdedb4833; 0x1fff6b346967069d; 0x5698163e1195b4b7; 0x573c63e6c5eb91c2; 0x7a437fefa688b805; 0x124b252722d72ec7; 0x280c9af0c9bebd9a; 0x31e80e342d86f845; 0x35ad71c6b670dda6; 0x2af07e84da0d9001; 0x5c726ec680a639b; 0x4da665bdec203744; 0x2c16030983f7000d; 0x516b5ac0b3a51d76; 0x7776b9459223b7f5; 0x32d8a0344257dc29; 0xacd2b3240b4ecb2; 0x5b96a2f127543413; 0x699d0e21fa61dba8; 0x6705f5a9abe78e16; 0x14423ed144c3b62f; 0x428212bb65c0b803; 0x3e5783ed5a910bc2; 0x3b50a271839e8e12; 0x6bb021da2693ffb1; 0xc168e2a9f828848; 0x669575e2f6ad93a6; 0x50cbd334b7a8a859; 0x51dae2f461a1d2c0; 0xbccc0a02958a9e3; 0x2cdf37d5de4472ba; 0x2f67fe48b96b67f5; 0x156e40a59105a516; 0x37f851b89fc9aded; 0xc4c24678e706d5; 0x357d3303d58daab; 0x3a688c5116877710; 0x3786eec32dd5f13f; 0x275db1e886ea26c9; 0x43ce5140f89d8a02; 0x389d9c17a6b9426; 0x16a8a15e179827a3; 0x6a9a25020b3f9f8; 0x321a46754ac6d029; 0x7ba051e744b57ee7; 0x775ceeb94ea9ccc6; 0x7efac8c83df0f760; 0x4f5171c4c36e48e3; 0x7a2cbba3e0fb1126; 0x577da239f377e8b7; 0x618c475dff7d003c; 0x74847a352b6a10d4; 0x384ef731ad15b257; 0x107b4db952a1969; 0x1519a607d191d891; 0xd39b9b16d98d6ed; 0x6786893bb8cb723e; 0x620422f909b6cf26; 0x46fd835543fce0a5; 0xa61447c4ffd5b3b; 0x1401514b9e4f530; 0x2a20a20a2822022a; 0x5515440114541114; 0x2a88a8820a000a2a; 0x5505004504001540; 0x2a02a22a0200a80a; 0x511111415114050; 0xa22aaaa88822aa2; 0x545050100044015];
   [0x768602cb485535e4; 0x6be406b2fa68898c; 0x62a0088f96dd9d0b; 0x665f0f05fa002b69; 0x25a6a784e3eefc6d; 0x4073f57b6bb32ce4; 0x6ee837d88ee64622; 0x46826abe3676b46e; 0x6abf1b3515c3c1; 0x68d490ddf3b41f01; 0x7db92ae261e5e4bb; 0x2611089fcc97ecba; 0x37dddc779a50614f; 0x7eb88ca293223dbe; 0x7089e7b3bcf89ba7; 0x7bd150bf4bbec43b; 0x49e3ed23de075336; 0x559a197817f0ed2f; 0x77d9dd85e04a2559; 0x27489c90921d642c; 0x20133f395b5db00; 0x6ec5b0e4938cf589; 0x58cbde02c3e38668; 0x4f32e5849602446a; 0x866d26e0315f92f; 0x214effb5b39dcdc2; 0x2587b60ebf91c0f9; 0x4151ce6161fe33c5; 0x12178c81ccd57560; 0x6ca4d2d3331ce9df; 0x296b91362acba3cd; 0x54ebd416b6478b17; 0x30f4e7a04ff71f5c; 0x5e7de8ae0d3bae81; 0x4bbc1f8a9ba2939d; 0x5d0db4e1bd1ed12c; 0x8848bc54f715677; 0x35621be0ddce91d4; 0x25083e42e7356442; 0x2aeb40c5d76fef29; 0x438921d64b288de5; 0x113284afe49653b9; 0x37623162278bd73a; 0x25c6830c8ecb02b7; 0x1c25630993496a69; 0x2d079440bde8294a; 0x15d6862a00d410ff; 0x36d0c14aca634736; 0x7cffc9a9164f8f4a; 0x5b75cd949df01638; 0x5a0e435bd0ad9da8; 0x7b97cea10f724d85; 0x63a01e8a6a3f31ba; 0xc84ab9095940b3a; 0x10d0a12dd9641bc6; 0x26be2e275a45c15e; 0x554545bd15783cb3; 0xfa3e64bb1ddc086; 0x3633da1e9307b1fd; 0x123d2e0b4206a00a; 0x3d61fff9ea257e64; 0x6daa6e36fc1160b5; 0x55703cbfe7058520; 0x5911063f05745863; 0x70a2c133b7747c13; 0x1827fab75de00381; 0x1a694fbe64760b8c; 0x7200c6f14534493f; 0x2a757e0b7331ec1; 0x26376f7b05a58361; 0x1195459b0a2df24f; 0x3b39b1d943472249; 0x4105b334b2607cff; 0x581ee82249b4e4dd; 0x2df62a410cf25019; 0x53f7032ddd0f0920; 0x690f52b19331813; 0x5610336238caafa8; 0x26f6776ae9d4db1b; 0x298f20b9b01758c1; 0x50c82030776ab04e; 0x5501170b0c963b7e; 0x25a955014e666db1; 0x41d3239b805e766c; 0x5bdeb9c27571aca4; 0x39d4d0d25ecc7879; 0x2e2651b7dd3b9c1f; 0x2eac6e8d548fcd6b; 0xc09a3594c7f1460; 0x2ca2c29cadef92d0; 0x30df78992b8d61dd; 0xbb6b78d1b48904c; 0x366a5f5265b8dded; 0x259a5ea9c7b87bea; 0x51249b21fa7e3b51; 0x539d38430ca99eb0; 0x4106824859b37d29; 0x38e3ad7e9e0dcceb; 0x60aa3b3618a0041e; 0x3bc83d9c6a2764e4; 0x35cd35efe00f5071; 0x4680d02e34b2cc13; 0x4a6bbe4382bd25a8; 0x4c38a215e837b565; 0x5808d251ea1f2e2a; 0x21fea66a608c445; 0x33d55d8213c61915; 0x5b7a12ada53e590d; 0x356e8206a9d33003; 0x6846b0037bb7e598; 0x24e79da9fa27fd94; 0x18e2531e12758f01; 0x42cdc869d0df7978; 0x1a2699e67ac95c03; 0x72d3410cf34a1179; 0x38855a4b82a4447d; 0x107b969e7ae5adf1; 0x2d79fa54b08193f2; 0x608dffb3349b5da3; 0x7f5752c65bf716a4; 0xd7476177b1c0fed; 0x541a46f193195ede; 0x5258bce0ba9591f0; 0x2ce5c91a864ad4d8; 0xac7c06c9e1b5f9f; 0x729c2c448bddb7b1; 0x3e0483925d562790; 0x7f46e7a5cbf6c154; 0x78cc8493ef4f818d; 0x11f4f3c3e34c10f2; 0xa0df211ca701fce; 0x13735f3b06e5308a; 0x78d261a4abf2c897; 0x731e97dcb60e3bba; 0x6b5d7950ac931107; 0x87fc5157c838958; 0x2db879cd2a4b989d; 0x16398479e469e644; 0x1561c0a831e56388; 0x626df64ac57f34c8; 0x2a158c3e534d5f28; 0x9e91bb6e8ed97; 0x15729852d5f0c26; 0x4f6f72d80c8da260; 0x6fae80579cc1b978; 0x71593bbb820012db; 0x5e39c14a2663f3ae; 0x34a1048b701cf6b3; 0x9f5eefde6b9ea21; 0x50306beed07c2444; 0x67e76b5740d86509; 0x2567493a98420f52; 0x6b0c1d66219af58c; 0x6ae739761f377c14; 0x526fdb53ed5c55d0; 0x7a6857fbf75745f3; 0x1cb4e34c018bc167; 0x37304e2c1caee596; 0x7ae3c977a1a76665; 0x1ff62bf4f0924e5c; 0x610357e93ff4f89; 0x2a02c911a3464bd; 0x4748abe4901b04cb; 0x62f9130abc44efb9; 0x48363c9acfbd046; 0x20b349afb394d19f; 0x3a1dc0138d22432d; 0x57a04a319054cbd4; 0x7ed8d5c7f16a83a; 0x1ab4f41c10e5359c; 0x67aac771728bbcf1; 0x5bb3d403020d0c64; 0x244f9a1b48d1b783; 0x56bcd70824849b31; 0x13121be056a40318; 0x71b52e128028bf51; 0x23f19dbea01a948; 0x599d5f8169633694; 0x12ddadc34db4bfb7; 0x1ac63196dd5945aa; 0x3c03154a21ab4f54; 0x7a8a440d4f2ecfda; 0x75125ad0328e0686; 0x681401025a10b2ec; 0x4f37c723b850e569; 0x71ef02272b841ceb; 0x5aab1a2eb0ffe20a; 0x1bca0c3bc6494627; 0x45dd784d5392107e; 0x1ee23867ef351b93; 0x13df53f0b70878d5; 0x525e5d04756b6124; 0x58b1272b8b6f3231; 0xf65f9e93c883c6b; 0x42d4bdce42701d9f; 0x6c0a8e7466ecf5d; 0x159f265c7fa1f799; 0x553d71d513a12f70; 0x30c74b6e64183f73; 0x7e4964ff5160d7e2; 0x6f4e93c137f4e22; 0x1bcd17a368663a5d; 0x4cb8744a5c8bd91; 0x77c206ce1a5e5d32; 0x72a5a6614bd35c6b; 0x69b4b73c6c3624a1; 0x221c15e736bf1aa; 0x5429d0b06fdf0cba; 0xb38a419fb9ac545; 0x5ad0a57c485110bd; 0x364650ce16038cd1; 0x5f1151dfdbfcc7f2; 0x5e96c5077b574156; 0xe44a4b26f0cf5a6; 0x2debb959140323ef; 0x4a1ea933a3a171b3; 0x76b6c411b3bb8757; 0x5d3e489ee795c379; 0x6a071d8168263b8f; 0x7241b703810d31a3; 0x71c3447abd02257b; 0x5b771017872c467a; 0x319941657fae81c3; 0x30d5083f52c2d616; 0x15808fa7747c0ea5; 0x274a1f6547f844b1; 0x17a059ab8e1532a3; 0x63a56a1cb0dd4918; 0x6a2277c258116dac; 0x76ffdfa8defed86a; 0x17e8f89ae599673e; 0x3c24e145b8bc082d; 0x7ee18915a0127cfa; 0x266ce2e5fc1b3693; 0x53f84872df68a3c; 0x5cc45081ebd30045; 0x460da316903431f5; 0x31c92671ad533588; 0x454f42993a52e633; 0x43cb5481c13fa54b; 0x31fe58d8ed1f68f8; 0x8f9bb9f2aa858fb; 0x431c47a9f4de2817; 0x16f45a131ccc43f7; 0x2e250c8de36523d9; 0x51dc3c4b18791099; 0x1b60b3a88ad9dcd2; 0x39572e2efa891193; 0x117827487403363f; 0x3ae1e725638b24ba; 0x3339d0f992a2e56b; 0x2c22462502051077; 0x57bcba60c344a327; 0x229f69f3cfd0214; 0x5318bb5902dfbc9a; 0xbd44f0a6057862f; 0x158e6118c2b86593; 0x6a5782192bcf0ff6; 0x607d152604928abb; 0x61737f94fb56652a; 0x6ce58a85ee914525; 0x1c665d56d1a9c14; 0xfc4c0dd233dd8f; 0x3f29bffb2c7c53d0; 0x14a61118f3805267; 0x4fa64d5ddff773c1; 0x4a4a4a49b8fe3b53; 0x1eb597023ad04bff; 0x19ba3ea325550a69; 0x75440297bba94c99; 0x50b53df3961ba517; 0x201b64a94d3f9b7f; 0xb15fdfddb86d0bf; 0x50935a07943ae64; 0x2c20cf3cc36c545b; 0xda0ec86e87aecde; 0x6bdc2b7000db6ca9; 0x556127ed2bcab561; 0x66ed60fa0bcaa255; 0x3b8a51df8e2102d6; 0x764e769c695ca3d5; 0x1a736c501444dd9f; 0x49bfd1f920c68b4c; 0x7361428866e5f3f2; 0x5c4c1dbb16ba30ff; 0x7bc4f5e631772b25; 0x29705cee40ea5f7; 0x6afe543fdf01a426; 0x30789a81e7b0e11e; 0x190d9186f50ac6f8; 0x6f02255ed7c03d1d; 0x32e3a40a7ff3d9cf; 0x60b2fd170453b5cf; 0xb48608855c2c808; 0x274a5b6f305656e; 0x29dd81e26488033; 0x565c6d5eea8c4ebc; 0x295d5c91b79dd3c; 0x7cdcc2b1f06b65ec; 0x4cb2c73f399263ab; 0x33cab8e94b3dea46; 0x77e38b9ac1dd901b; 0x75842351a6fc6269; 0x397fc08ae0e75cbc; 0x3a1e02032b38d679; 0x416bc091914d0a55; 0x3d1bb8b8a629811f; 0x6747229a1771e85e; 0x505045459ee5a61a; 0xa200282280228a2; 0x1050551404554155; 0x22a022882aa280a8; 0x51414101440401; 0x2a282222808a002; 0x5050011451540404; 0x282828a2080a2882; 0x455051054541551];
   [0x123b97ce5726ec1d; 0x4ee922bac38792f; 0x449a1031343ff09a; 0x1f88d26b4505c5f8; 0xfa25ca6a975003e; 0x7234f59bbeb29f3a; 0xa6607ff74172fdf; 0x35b36ee19c6fbc05; 0x573380475fcabc7e; 0x616c1de8da59c1b6; 0x33822439ac0847d7; 0xe4c9ac751a7e6f9; 0x7790beea0232a909; 0x4f44c1697a1eb528; 0x1440afbac03b480c; 0x2e2ddceddeb8579; 0x189204cf15b55b72; 0x5b7bf2ebb5ef12d4; 0x63d0560ab9f6751d; 0xbbe8bd8b6ef9dc6; 0x4d1429029684baa4; 0x580046ad47ee0a14; 0x7fe52b5155262223; 0x3f9a169fc7a27ab9; 0x45b96a48a9aadbcd; 0x772972c7ec921cb1; 0x613557b37a632288; 0x1e8d154b711b43cf; 0x358fa776830250f7; 0x502dfe57291de9b6; 0x1acc04edb4bedc72; 0x48e43a3f5a0284ff; 0x762ed2bfda3f75cf; 0x4f6ab6fd65b9b142; 0x2db889458c365f84; 0x6b7ec3d649b556f3; 0x7a7a61892e50be32; 0x63b7b26e94dae1be; 0x68638f2f98993176; 0x3d4164d3ccc0e6cb; 0x3dd23a7fa45b42c7; 0x661a6bbc77ba560e; 0x1b44942e8261e084; 0x3904a07fa8b46ed; 0x2030e84b1ce103f5; 0x61b570c4b7c7c270; 0x5df63238cddf2cc9; 0x35ed4b576021c82c; 0x775048cb5e8ed006; 0x6090540eb6e47fe4; 0xe989dad21b1a8f3; 0x611a2d415ebaea88; 0x39e0134f60c96b93; 0x7b5434b6412388ae; 0x5e16f754e6989e85; 0x9205349e5727795; 0x759132fc5e3eeb70; 0x62bd1076aab07ac; 0x167313ab09a345be; 0x137627121182d97a; 0x1e7a8650ec566860; 0x4dd44be1ae31f230; 0x243a7af3b9bee2c5; 0x26196f84ebdff73; 0x340fbc5fbb3e659f; 0x2f76b75776514048; 0x3fe19226cd697e5d; 0x7b214dd17b86c3d9; 0x1378d16a6027b32b; 0x27b181e0ea202b20; 0x4ab5eb779bd5da1f; 0xa9e19091965cbc4; 0x1e62d5c444564cd7; 0x3b469f9ac9387fc3; 0x3b9efc92da757624; 0x75bc2548d74d763e; 0x2155c041157f24a8; 0x9b8416f05f1bec1; 0x7cb0fc6943f05605; 0x2604b828cc268551; 0x413296df6381c506; 0x6ea7e80f46ce2f12; 0x769959aa3d8b3924; 0x1112363d18ea83ff; 0x5e2b6fb8a62ead11; 0x73d0a5e556e60181; 0x4476f46f292bca3d; 0x1cc25dd6aab19509; 0x386b863e4469f387; 0x51e10fc3990751e2; 0x2b850395846ffbec; 0x5c2d4030d01c1a6e; 0x7d7c1210905adcd0; 0x27b525820d5f8296; 0x50fd642b153ff9b2; 0x2cf26c890340933a; 0x7e468383d5195dcf; 0x3a7568e3e9b3e97a; 0x155b5daffd34f66b; 0x6419ecea4b7c27bb; 0xc0e4865e487c7f0; 0x3f8cf16306909c4f; 0x5742f2206bcd18eb; 0x360c0f3ac454dae9; 0x3f091f29b3713f87; 0x42e037d1f6dd6536; 0x5154588e4c709f91; 0x6ee47b745092ed65; 0x2d38ebcead3273d7; 0x53a2a97d9d99a004; 0x583aa58278539fcc; 0x7661eded786fd4fa; 0x3ad6eeda139788c6; 0x2f1d3139b22029f7; 0x6abbd40319fa3d0; 0x7e3b7a1820979ded; 0x46c2ea8add69e2d; 0x3d75e48aa875ae25; 0x4cbe4d0a5560115f; 0x6f190100084a86f3; 0x2eb8b27eda90047d; 0x72df8927759c77e5; 0x45474fed6a30b1f9; 0x47511603e9598915; 0xadba63b553529a1; 0xa4f775d9dbf7e6b; 0x77cdd7284878040a; 0x48c8735a192c4c25; 0x3fe00c2c7798f636; 0x7dd28b09b6c3cb31; 0x31dd4bf742104e8b; 0x72efc31fc83a555; 0x1b72d082dff6a599; 0x60986581ecfa864d; 0x698435ce3aa22cf4; 0x2de4a07dd4e147da; 0x379599efbb035ace; 0x1165859b64682ba3; 0x640ff2673955dfdd; 0x2ca7a19ca949401b; 0x3db4eb75023d8a5e; 0x2ebbad45873027bf; 0x1cca4f8bc84bccb8; 0x71850bbd9dedb7f2; 0x220b3b3b5799b634; 0x76c6ff830083d95d; 0x247c63911b4c7fc0; 0x4c939974f648c156; 0x315ecfc3563d756a; 0x2df0feabaa9d855a; 0x2e5e7e5668c6a4b7; 0x70b3eac2bd66b478; 0x201cc1900ddc46ca; 0x4768324107a41eba; 0x505a3c6a166ee95; 0x701f12085b1eeaf1; 0x347dca43e9dca423; 0x13d55d1d4e3ab2d3; 0xfd5e409b1827b5c; 0xa644a2aee9083c3; 0x12924b7e663baa3b; 0x1812ee419260bc1; 0x67d797e88b215be8; 0x48fc13f063b418c7; 0x1d2a822841c24e94; 0x1072ea9b81042016; 0x19eca2f6cd2fdfac; 0x452d2652fbd8d3e7; 0x5b01055b621905a4; 0x4a02945083c6c2f; 0x3d450876f514b8e8; 0x436b2ad89bf1982f; 0x33b6061b52d192f7; 0x68a46a5d1663d58a; 0x4827317fd3afe3c9; 0xd142c25b408ee1a; 0x5742c6a3d0f87054; 0x3e5440bc48b30893; 0x4174603eb5cbd34; 0x1b31df9951f32751; 0x769efa4b69ff61df; 0x20458e29411a9ac3; 0x3c940d963805077b; 0x269395ea02176bfe; 0x39bcd08d06a5ca21; 0x54b4acaaf778b7cf; 0x14513576181fce5b; 0x73a30014e5fad41f; 0x69a0a15947654aff; 0x1a82fe930e1b2cc8; 0x2180612f3a72c4b5; 0x7bbe4088698f8248; 0x522c657c6cdcd4bb; 0x37559d16cc589e55; 0xc75a591f08e7c1b; 0x42f3d156f9d87d38; 0x78e9b838e1c5c521; 0x1f636da5749fe995; 0x3ae1bc0ff610fc6a; 0x1eba7750521754cc; 0x5a01468f4ca5732f; 0x3353124841b09a23; 0x2aafaefd5c0cb455; 0x2c6f8f51afd8f19c; 0x6269708c69cf0674; 0x22dcbfa216ad33b9; 0x4c2fc9738e4302a7; 0x2ab82bc44224568a; 0x3d3bff70f78aae67; 0x6d4177996ab45ced; 0x48ba3cc3d53cc899; 0x44825f24723b091a; 0x7b93ccaaebc3ed2d; 0x76f97340be1a05fc; 0x34f681d5e43be837; 0x54429c25f47442bd; 0x4562bc4f7652d845; 0x1b1c54e6e446b44e; 0x62acf6ca7f12b3a3; 0x6a4328a881b4c07c; 0xa0eb381a629bc5a; 0x2f80a1e88714891b; 0x9d70c29ecea831d; 0x6fb7397507c57c51; 0x4b2324cfb210934b; 0x6bf1ae1129872f09; 0x1cc45805a1d809a1; 0x13a5de04c9be4550; 0x1e46e93808ef4d56; 0x5d01c4f0d5e1dbbb; 0x9013fd01be95076; 0x4a3ef53c81daf449; 0x545c40212a2202bf; 0xc89da7475389133; 0x1c419de9671a1d70; 0x6bc8a621f75136a7; 0x713463c1a7152d10; 0x4e81460244553527; 0x5b6d8f07c9e3bc4e; 0x86faed60cfc8c3e; 0x139a56cdd03d1027; 0x7a7bf7a6986ddefc; 0x31d3537065df7d9f; 0xc620085867e250c; 0x678e76a92b7c5850; 0x50738c95f6a05c06; 0x73054c98205134b; 0x14d8e4f94916656c; 0x3356aac962b3dc49; 0x462a3288132fc3c7; 0x6f455dc908315ea5; 0x8b8b70f0983b3b2; 0x776ac0fac70c44f6; 0x46b84d1203b10fc8; 0x22af86bea683c799; 0xeff106fd7ac9762; 0x3fd75cd6740f857b; 0x7fecdc7529491d97; 0x2713eadbf4da7075; 0x3d54b31d98dc7384; 0x49f6ea814dd30624; 0x73a312f056ea410f; 0x6cc8edfb03999eaf; 0x7a1c5e32cae116e4; 0x45f8e0bb894d6195; 0x1bce1a164fe5c956; 0x32ed50325ca62af4; 0x17d40acf95d3fda9; 0x49f4882568f8c68b; 0x4a82ecfabe22e50; 0x4cc86f01d4efa5ca; 0x5d205830b7b5cfc1; 0x1d6e0f0d3cb88fb8; 0x23850183abbe6b7a; 0x6757e1509ba4384f; 0x23562085c65894b5; 0x6bd529f52e605da0; 0x2adb2037962d5762; 0x111efa0cc576151d; 0xac2654ce73a2ec8; 0x55da0044dce268e1; 0x248c1ba2b981ee26; 0x503f20423dd447d0; 0x52f4b927580a4c; 0x2fccbff5209280f0; 0x28fb74b4969a2bb7; 0x3300c70b4a2f2523; 0x46cd38d11d1596d; 0x7f73987b2facc97c; 0x3ad282fda46922db; 0x60de3205c08d0c1; 0x19027d1ede6e6e3e; 0x247b2c0bd9494bb7; 0x2c1130a1a98c2e30; 0x61ac5a6933f823e; 0x3930dc77f4aa2b4a; 0x579f633ad93721fe; 0x26d8dbf773ff67d4; 0x5f7d7b61d7ff2a70; 0x73ec046f587b9d66; 0x66205b2da675134e; 0x5e8aa1cbd817154a; 0x408077abbc303b00; 0x2c903d560ae781b7; 0x736b7850acdb0666; 0x7154a02625bce99d; 0x51c6b9178a3deb25; 0x18f3448627741749; 0x15045014af47317d; 0x2a00a0aaa8802282; 0x414444444455114; 0x2a02a8a20a228a20; 0x105500411014104; 0x2000220a8822a8aa; 0x5141415410044110; 0x2820a8800202a820; 0x550110141054141];
   [0x133c1edebff4be57; 0x76da682b70f36574; 0x15cda29f67b71870; 0x66bb0011873fed1c; 0x16fa857b2283ba7d; 0x33922e447e970bc8; 0x52b4738008087932; 0x5f4d4156765c31ae; 0x14c844f0402c8ce4; 0x40cd44c4bad3f1bf; 0x3faf722ea2b2524a; 0xd43692adf4a2510; 0x40f1e100a7187db4; 0x6831ed72b4a9483b; 0x6a2becc3de46580b; 0x62fce7ebe8c65d33; 0x451cd8a5edecf49e; 0x35e78099e55af581; 0x3573c94b7eb3d9d6; 0x6f2da870a6fcc847; 0xfd597338746ff83; 0x64eac4d6cabaf9ea; 0x261ed181276d0523; 0x8f4957b781d011; 0x2fb0398af9fb35c0; 0x3749e35698d03fe5; 0x7211a707e2c61e0e; 0x23c42d248f0ee46a; 0x711748d733af8203; 0x9dd5ca295fde0db; 0x738a72852210150d; 0x163e4472c788efd; 0xf0ef67ee99ceac3; 0x30daac2927a98716; 0x77b78f9e143f90c2; 0x2800daf1aa82d329; 0x49747202049e50b7; 0x3af80e078a037fa3; 0x315053768e1c125b; 0x7e6cca6002c94267; 0x43c04a47adf92c72; 0x73d011ce477749c7; 0x465f0d5809d62f7b; 0x986a26b2cb9871; 0x53f2d21be5197824; 0x181fe5daf360daf4; 0x1fa95feaf45c9db7; 0x55d731cfa5a6e0b1; 0x65f283acca5f55f2; 0x2b6ea574f12fde24; 0x1aa7c314e4243642; 0x6fd062a0eba2c922; 0x3e5243af55dcf754; 0x1972cb9bd00ec1b7; 0xf586db756ba2b87; 0x6509c13abbcdc64f; 0x150397901261ce49; 0x6e18764a6ee1af2f; 0x43732ad247b0f041; 0x6a92bfc8ce2437; 0x4b9a9feee0ce3516; 0x6a7611a757595185; 0x5af325e5e6a062e; 0x75c682ea3f7140cd; 0x2ba5814b10f74851; 0x155ddc1a2989b6ce; 0x577609d8a5416f73; 0x36709d7851b77f05; 0x368ae4dd37097058; 0x52c5a716843e5e9c; 0x6ce3420a0164050; 0x5a81386484d24ae0; 0x714f17f7cc3d5e88; 0x5e5c9399467d4aa1; 0x7093a3009d09ba21; 0xfd7b4855bf636c9; 0x37bbace98c0d5f68; 0x1a2ef8a8d62da750; 0x7fb0bd088ec783a9; 0x40733e5800b7c3cd; 0x3ad3bb35c4767428; 0x76b985057e31e9e2; 0x67a84836e2608aba; 0x166f2cf7bed59155; 0x20409a55399c5186; 0x3658b8a34f1d8898; 0x44e90fcf8277cb82; 0x40d2f7fdd2531345; 0x5fd6aa50a216c80f; 0x72cf6844ffae6326; 0x6e2cacbc83ca4ec5; 0x485b63e563d87873; 0x494dfc1cd590e122; 0x4715854daaa8b26f; 0x4c4df25720f211b6; 0x635c961924899bc9; 0x66fbea546e7c7520; 0x740b16bca6b104c0; 0x41d1264f71c638d6; 0x27ed17e955e03aea; 0x5ab30bb398b89a30; 0x640871233e33d68c; 0x6146ae39f525c56a; 0x4617d67aa4c1c59d; 0x4a48062c0b6fb88c; 0x5145696ebc69b942; 0x5e98c995a00c575e; 0x101cf43e22b8027f; 0x76d5a0eb967cdcbb; 0x74018e022abde02a; 0x71b0280f125ac06a; 0xae3c7582a1fecbd; 0x6af95370577dbd66; 0x738a35ed289890f1; 0x6ec9dda630023b10; 0x48506c3faa7bba00; 0x52cd3bd98ada1693; 0x7c85efe789390c3e; 0x48904335af2948aa; 0x39384b1febedb9e8; 0x437042b639e8dc10; 0x2dd0e73ad354b8cc; 0x1f3f017021ee9bef; 0x2449d605960505fc; 0x4ced321d7d893cde; 0xcb0ab2a4ce50536; 0x36de4ba2b1e7574f; 0x1fde012b787e17f; 0xbd00dc148a9c170; 0x283ad42977849c1; 0x41d190d1f263c6bb; 0xdd0765f96dd8eee; 0x7bce27cfc0060e7c; 0x363786f6b6412f83; 0xc1b97a6ae176cd; 0x27a6b1e31a3bf4fc; 0x280cfb4e4d343e6; 0xfcbea4f711072a5; 0x3d89f118a8eec166; 0x75fdbd27ed2f3647; 0x7d2ea67dd208a0e0; 0x918ae4e909be2c4; 0x4dd5f24f6d16bb10; 0x2f98ed9ecb84f157; 0x2e5229b583c82c69; 0x3d1367918a6d9bec; 0x25fc01139ca37aa1; 0x3d3caa50b465d165; 0x77043dc46fcc0470; 0x58bcbbfe95b1d318; 0xbe016b90f5d5ec7; 0x6c4510e134da115a; 0x1c5786e198b3653; 0x3d6eaf47188fe573; 0x5523d4b259301b6f; 0x61edc4e2e8ca4336; 0x1aad3df880d3407a; 0x906ec111a0f2f3e; 0xa7d36dc7fa275d2; 0x9884f37e744c9d0; 0x47771f64c7fc795d; 0x62312bee83247ff8; 0x675c0cc9b48781eb; 0x4d0b41606641a09f; 0x18ffdf028da91222; 0x6f36582f517f53f7; 0x455611254f806c8b; 0x633c4d5b02e4be22; 0x6d52b5b0d7005900; 0x5d21cbf1691d27ff; 0x5aa5559e248571a4; 0x66846c6e6225597c; 0x387fa7fedf5332fe; 0x66450e020353b8dd; 0x1a26a351926a07aa; 0x1f48a4e535401b2a; 0x2b2c017465f7baef; 0x269554a53c88daef; 0x57ddff3656583ea8; 0x69c49db5367dd8b0; 0x5d444913e1096c3c; 0x2547364ddca6b747; 0x4e1eba71a75f287a; 0x476a1696c3f0fe17; 0x3759f44f6e3b10ce; 0x57b0959a1ff501b7; 0x34e841bbf9635e8f; 0x7e860066052f43ff; 0x2772dd0c33e4d8c6; 0x6ae45aba6468b045; 0x2274033d48fa786f; 0x72e1f730fa8a2b07; 0x5706397c249d6c64; 0x7d0dc4e31612ee4b; 0x318467fc49ef7a2; 0xeee69d1e62dc711; 0x6ee3d51cd9f7efa; 0x7dc6c9dbeec87626; 0x43fba005b40b8ab9; 0x1d7de8dc3eb67dd0; 0x340f965a819eb7e0; 0x21e74f9c26cf458f; 0x702eb2aa69464d4f; 0x692d36e18f75f138; 0x5092d29b0c171a4f; 0x25ff7ac0fd115b4d; 0xf7d4a606b886e31; 0x10eeed69d2d3a6c7; 0x7313602e8558921f; 0x2ec69bc493f392f5; 0x6ff3c953f57d148d; 0x47e61c2829e88aab; 0x18d5da5958f6cc03; 0x34069957c351093; 0xbfafd45620371f; 0x4734b95a61858aa7; 0x7fe1b47f4e9ffc5a; 0x50a34472804a4ca8; 0x130a4e56296bf55f; 0x39fbe8c155a4d63a; 0x4fd2a1182b18d9b9; 0x65cbdf16af7990f9; 0x4db188e2024eec96; 0x26ecd3f442039c90; 0x32960825da041750; 0x4dae1c514171c379; 0x585861d3caa8b9b6; 0x23374641619ba96d; 0x26d5e493033fb8d; 0x949dc898dbff2c9; 0x24ada7a425603a61; 0x67af7e1fd52d0c0f; 0x5ea9639b60da32a5; 0x50089304aab8f217; 0x5d54060299354bd0; 0x4447807e082d4702; 0x2c6687d9980d3017; 0x18ff82e7dcbeec50; 0x6df11afcd50368f7; 0x234ae6fca77bbe71; 0x5cd0e48188b8dd74; 0x4cd99693fdd242e0; 0xaf0e7a10c93bf35; 0x49e5e486fadf186a; 0x292879be12d3d312; 0x15717070f0dd26c3; 0x332b0f27e88d307c; 0x47c4c2645a726592; 0x28a9a321bde1eac9; 0x4b8ee914fe6ec2ec; 0x53091f17844643c4; 0x3784b55b24e1c8f2; 0x232e5f39bc678860; 0x7cf3bd8b2dc6b55e; 0x6b1b1c4fa0688f63; 0x61d9915b1a3ad6f0; 0x157d429f49d894f5; 0x1e1863a2ed8b1c00; 0x6a77e997ce51e1f2; 0x3fe00636a2b6cc56; 0x6a31efe061bf5aa4; 0x2f16f768002ffbe9; 0xa81302c14b69897; 0x601d1143c6ec3b8a; 0x255bba16e74e5e24; 0x22e5eec2651933c; 0x77ff0cee86f3b741; 0x177ef160cced32c; 0x179b28fc024faf7d; 0x544760985ba52743; 0x564fd35bb04f5a02; 0x48f344dd1b6519b6; 0x424f96a483f131a0; 0x7548a2eb1a21d226; 0xcf59734ec18c091; 0x20a2f9e1a6e2d219; 0x32b85b45ceceb4ff; 0xfe3853193a4add1; 0x6eb93766689cc5d7; 0x2d982a0e7f463c9c; 0x6d5b3447234c0983; 0x7fda04344424fc9f; 0x5fe7c7f63c165276; 0x254e0544306429a1; 0x43486aef2470fbea; 0x109e5cf76758ef39; 0x10276e4f88595a23; 0x4f411412c6e0f88d; 0x3ed326d4e07385a9; 0x66afb54e72ed33b9; 0x71585aa915be0ea5; 0x36923bdef4624783; 0x2180f710fcdaa413; 0x1fba42b203d680ec; 0x77694d28b0218fbc; 0x5ae6f8d386cfef66; 0x51f82ea6a15312bd; 0x28efa72b68564a42; 0xf0562c9be48bb23; 0x7fc61c09d9f3271; 0x7a96da53e5286aed; 0x151ada9dd81c8d69; 0x346ae430ca8d1335; 0x744f454c80f6ad5c; 0x18a3b74f36f73666; 0x62715709e9797bd8; 0x4a76ccc2e1512ddd; 0xf90f8a4b1ee2b67; 0x5015414471d40348; 0x2aa8882a2228a0aa; 0x1450510145514150; 0xa02000820a80222; 0x1455001044555140; 0xa22028882082022; 0x4115104014050000; 0x2008228282a0282a; 0x104001040511540];
   [0x3d1808add6dead8d; 0x27c4b8790babf935; 0x633cd712c22b4809; 0x740926218224368d; 0xcb5b504369f4bd9; 0x6bc39489f89c0a47; 0x1e99edab5a989d2c; 0x6bc9a9520ba73cdc; 0x40189aa13061cd99; 0x242ce3a0be4746fd; 0x170da93e80e6e3c7; 0x11f87a4110b7ffe2; 0xaf011f492114cf6; 0x50935bdc57dd2466; 0x728ffa3d31667c2c; 0x54a886132a757f4c; 0x21aaea4f9e7183d0; 0x7d39e3b684081258; 0x4e045536cf3138a2; 0x346eb88e6057b856; 0x4a0b4a3bc862497f; 0x217f8c7ad1194d06; 0x11cfe675e29effae; 0x34b05f8bbfdc268; 0x7e4dc5c6dfe0a6a4; 0x1b2de4d72dc288d4; 0x2f6f98d5c07200ca; 0xb192fe61d4e9617; 0x2e9c984fb21ab44b; 0x7df2c3c808fd55f8; 0x5413fb8422535783; 0x573f1b13a04b2c29; 0x4f7ce0242aa6cee5; 0x6c5349ae4d82f633; 0x1b14179580fbbad5; 0x1772521f18f139b4; 0x469a935635ccdf83; 0x8c3654794c9b2d; 0x7fa9778f07e543f2; 0x6da5fd3e881034cc; 0x1d3db72f0e352162; 0x4c0c65e1963fc88c; 0x66ca93829157db70; 0x5a96e1df3364c798; 0x1d59be80f80a679a; 0x2e63087a9e403e07; 0x767091d06a502c0c; 0x6da03b8c0f037f4f; 0x77c86e7408890b21; 0x739ab2b30a1aa74a; 0x488dcb0a464417c3; 0xa353359d1c77f2b; 0x3978a0e7e2cd4a6c; 0x734b2203e077d7c2; 0x102db3e0bff937d1; 0x66f3e1cec2be2bc7; 0x44c20b06cf0b4eb1; 0x441813263a338a52; 0x33df87c0880a0961; 0x55459362b557d250; 0x7f7888b3ab0c777b; 0x2adc7edf679cff22; 0x39b0ec44883ecef; 0x74a6375d6b937d23; 0x55c5de85cae2ce50; 0x674fe7add9d8822b; 0x56b7f0cc11af9e63; 0x7d849042849dc96e; 0x7a6959e1a17f4610; 0x4f683908fe220cdc; 0x3cfe97e5e60f1f13; 0x603549761ca3ce86; 0x186a4722829ec5d2; 0x425b720e49475192; 0x75e6a9d1b80e4e50; 0x60b3afb4f1d2062c; 0x19131bf448a49b13; 0x5dbb1b048bb31291; 0x6fb25b134cce1b17; 0x57b41cde4e47486e; 0x426fada70877cb9b; 0x254e99ea6bf4c513; 0x5cf3c442b9e0bd82; 0x255da6d86211395b; 0x6cb120964f92b84e; 0x2dc7ba78d7889787; 0x73afe5359a47502a; 0x500d8af9fbc11cc6; 0x3b7fbf413d39a060; 0x55f1890dc22240a2; 0x22624254a93bce50; 0x7887b6ab201735da; 0x49aa27beb9a9a033; 0x43c751e411745101; 0x30a79cfdaece3b78; 0x3cc718d74048710d; 0x3b2d3fb39f4fba18; 0x7c61f5e664cdfc11; 0x51d1051f5266e40b; 0x7fe87e9e76772418; 0x5b5392d5bfa0c9f9; 0x5ad1f32e164ff4ce; 0x759a1d9e54ea99b2; 0x57395da4c9481604; 0x46ef68e51cd29ed2; 0x7993c7f8e9f51e4f; 0x5c1eaccfd69bb68f; 0x67c7c8ae3b49126a; 0x333f672cc8542154; 0x470dc1c25ffacd5f; 0xa75c33ea0dae1a7; 0x5fe221fd71e4a5f8; 0x623dd3e3f00efe87; 0x2635af6da4004503; 0x36ae9ba8dab34fa6; 0x6f030b8b32168ff2; 0x60ed0bd4b7c4380e; 0x52e3fb2285e8a5c2; 0x6dfba2e515dfed9c; 0x315a821203bdf1d8; 0x5c3c633911c74647; 0x656a041d67c3b757; 0x59f2dbaf5aaed41d; 0x1423034750bc75d6; 0x1407c690b88c9241; 0x36dbea31304a31da; 0x24f144160fedea7; 0x33e1c28704fffb3b; 0x5ddf9993bd0fbfaa; 0x37e285236ca50110; 0x47c976103ccde08f; 0x73d85c3c87001880; 0x3935aae01af2fd43; 0x1d6dd11f19ee8556; 0x7ea8f7ce03297042; 0x1a6a8782cc3e6cbb; 0x684e0a0e423f7c19; 0x211601928c40011; 0x67b7e1b1a54de9c7; 0x24265820f9050039; 0x7fd5e47acb4b7f64; 0x2602e9ecf7d0b864; 0x6b7a1f2a45018b2a; 0x34e9bac92ec0521c; 0x6059f8fba6eae97; 0x55b6a1596c27dfbb; 0x422ba0e5e5fd293; 0x6d67bc98465a942f; 0x799f8a0164ee248f; 0xf59f36a5cc6f142; 0x66c520f15259de92; 0x29cb8b9bf44621b1; 0x24ec01e177a32af9; 0x31dd504b089c8d; 0x7cc1815fcab413df; 0x6de4fdae137f3a76; 0x2052821e8b9e6296; 0x6e4bb30575954d17; 0x5674990669a3f71e; 0x1f497aa387db1369; 0x2a638cd4b8eda568; 0xaa4332070fe06d4; 0x1e65224a13217d9f; 0x46e120251774cf92; 0x1db39855b888f340; 0x714726d99270c8c3; 0x236306f8dfc76a9a; 0x5c8b525da64e8c10; 0x6557c0db2f5e0f7b; 0x51f17c84bdce607d; 0x267c53fdd7228101; 0x689fb0f59013856a; 0x4cbbcc22fd407bfc; 0x7395f783a8fe526e; 0x105aeae780e8a347; 0x18f8ed4460085455; 0x2b43a94d7b6efe04; 0x2a45194964033aa; 0x67dd079d9491f75d; 0xfa0bd817e3dcdf2; 0x59c340d25f5d8b7b; 0x29299caa4b0a4a36; 0x30ee47f15d6ef; 0x5a5fe75e4b3db0e0; 0x1c3c38fb3cbe4063; 0x7dccdb7bcf75239c; 0x1c1e8ab03b41ca04; 0x70caed86c7b01b28; 0x5d12c5f574ba8ec5; 0x695497f79a8237eb; 0x637f819d1d2e863b; 0xcd9df99dbee056d; 0x717d17d517f18911; 0x3ddbb224b573c0e; 0x2604be28bfc0e302; 0x560963bf334d8bac; 0x4c209e07545a3f29; 0x6541cdedc4479cdf; 0x5fbcfac04a766168; 0x7e55cec372253a56; 0x656b3e7a735dd0cf; 0x44b55e1007584aa2; 0xb5e80dbc1ef3e9f; 0x20f1116f5a74d96b; 0x21a5260446d96035; 0x4e6ac75df2eb74f1; 0x2d8103c324fd0902; 0x4459e2e4c5aa1d5b; 0x4d6555279473e1e6; 0x9477e0cfc976692; 0x7e72f839bdd63d8e; 0x2806c250905a274; 0x4dd56b9ae91f5cfe; 0x6db8eb5777545d76; 0x5e90656cd8ce72b5; 0x28f1cb1effc47bcc; 0x3b5f939e4a9446d6; 0xc8c27546a580ce5; 0x2a40bc03638895ee; 0x71fe0a3e8407d75d; 0x52801ff6000c5872; 0x2d1e19ce4a41334f; 0x3c1528309ff98983; 0x6fa735d5bab8b77e; 0x7a8acf8ecc8e9748; 0x55046399849539a2; 0x685785ac8dee9657; 0x35e4407b4d6c8b0b; 0x4577c0bca2dc8863; 0x69701e98237d9c5b; 0x3a9e303430a4ad2a; 0x57c00f150ea7a5f7; 0x64d00aed1e2406bb; 0x92a4826d5525142; 0x67db7b75f1c9045a; 0x92c11042d715b85; 0x24eca9b6efd220f0; 0x25ec5dedbe1c4f6d; 0x4bc2a82adbd1a025; 0x6bd5a97f31ab3845; 0x7cc682fdfe39ad9a; 0x51f551e8d8d46bfb; 0x34b143a77af3f204; 0xf4760af069df727; 0x1f0113287c776ba9; 0x4ed86ff281dac304; 0x41aed91ef9e7b773; 0x492731657a0dd79b; 0x751b110b350b6cb6; 0x3a570be35f186f93; 0x5b1cd2f2e53a56c7; 0x1055249b6271f457; 0xab1d8d606c31e5f; 0x12d45a7f3ffe1407; 0xf315453c463126d; 0x7d36bceb99ae37ef; 0x496b2598fc10b185; 0x21cec8f07b54359; 0x4966b135c1d2ce3a; 0x34f7040c231a88db; 0x9b2c57ac5cb79a8; 0x7818a3bcea2f2c73; 0x35560ebbc00b77ff; 0x3234df990cb5b60c; 0x276c6b7385ccc916; 0x5883e50719054ba2; 0x3a3e68fb1923ac31; 0x19474976cded166e; 0x50528d6f2460fd84; 0x5b65f0119931c027; 0x487bfbda3bec7267; 0xa903194f385f8ea; 0x584270668ebc4363; 0x5fe20fbba39c8723; 0x560d6150a48ac508; 0x43775b26fbb7db33; 0x7f4a90fcd50cf8f2; 0x84521b5a2647b54; 0x3e73c48fc6f0bbc6; 0x761025009f90aeb2; 0x73a93d73670cc804; 0x61043068a8ae6370; 0x1cd2c9635599549c; 0xe498e43358ed655; 0x2b8abe37060d0966; 0x198542b1afb8cab3; 0x7c20c5fb5b6f5f1d; 0x2d8b9a366f697a13; 0x239384da40bf5ca8; 0x73a2b5a10241e962; 0x621e69b320d52c43; 0x1bcda840fe114e77; 0x7297cf8d11a783cc; 0x580895a60801eadf; 0x3f2581026a355c0; 0x199377ed63de38a2; 0x7d25c0b98bbc36bb; 0x6d410931fa217165; 0x129a184f776bd810; 0x37f1b5bd4202d1a8; 0x6daf2b7e87723ef9; 0x3c9ba79e89d3bef3; 0x5475195cd4b8e53d; 0x6c70645ab9c206a8; 0x78f1928d1a5f8c56; 0x44b9a83ca776be9d; 0x1315ec3dd00ea83; 0x3ef362e5b61d5b5c; 0x11110041e892270c; 0x20820022a8a8a80; 0x1044554114104110; 0xa82802aaa288a8; 0x1151551110510110; 0xa22220020880000; 0x5054100051104144; 0x2022a0a0a228022a; 0x544111041454045];
   [0x7da9d039146851c1; 0x724ec8e44744fbe3; 0xffc00f84f8b745d; 0x6f1b10f9168b0685; 0x366c048027184cdd; 0x1121d6787636b6d6; 0x7e063565f4acfb53; 0x21c9441dad2c7880; 0x5a0ccd9240220475; 0x6e4555572374e4f; 0x30ffe199ff9b604b; 0x5959892538073cdc; 0x2c1485a518b811be; 0x25310e590ab84ae7; 0x27fdeca5296401c8; 0x5da10342048f00c1; 0x23aabd450dcaf462; 0x3047fb2f4f8fc3cb; 0x5f80d4d95ad72b71; 0x103a60c34376808c; 0x8117c6f73339571; 0x642d56963e264c94; 0x2119485709a963dd; 0x42eb6387d7389216; 0x63e3c1b4307e2a89; 0x521d48bf54decdad; 0x373a958c0cbc6fb6; 0x4c9df08c7fde54fa; 0x3f20d47335893bb0; 0x3a4ac09e99e53a00; 0x61ca3cbf78884ebd; 0x12eb8ad0c1898980; 0x654797d50fb40542; 0x655c396801b4cd9b; 0x1ef70838326364d7; 0x4f834117af80a524; 0x41f3ff22c697d5b; 0x350a6776a9a2b98d; 0x5c9eb1006b4f73ab; 0x2a04eace514e9616; 0x58d5d504d82bb71d; 0x4eca857f27323f30; 0x173586ebca53cd14; 0x76af29c5103e4d13; 0x164b85d5e60be5ab; 0x3d9c3fa6a625cad9; 0x46368e37bd848c20; 0x7d28a2a77dc89333; 0x5cd8fa25a0bc68b8; 0x346fe1c6d67a29d9; 0x1dc89979d725972d; 0x50a9492c08693d02; 0x221b1a5e9702bf02; 0x2ed9b9686da56e34; 0x30f838c253e4b4ef; 0x45ca2243665a46b5; 0x447ff4807101f6bb; 0x4829814caf938018; 0x1b37ec9216981f23; 0x6f41d17609b905b8; 0x1884a17b6d7bd3c6; 0x2d4f8c49572582cc; 0x17ee9334ad0f887e; 0x12ba2ee9ecac5457; 0x3dd37b28e9745abd; 0x4d00f8fb1d501f7; 0x530461290833727e; 0x55a69e6993ddf316; 0x235fd79e98943131; 0x17730ecda39664bd; 0x5eca97847737832e; 0x6e3aaacbfd7cdb31; 0x6a001f6f15cade03; 0x103b67019d37d1d7; 0x216c7a882c71d0e6; 0x5027c3d2f1151ddd; 0x7e0b297ecedadb91; 0x1948702ac3e34b07; 0x42f305a40aa33605; 0x2ea0dee551ec6c2e; 0x3dda41a337cfb8d7; 0x7bdd8dfda102e6a2; 0x546d3c14445189c; 0x14bb154c68c0a815; 0x430e5002f807b369; 0x591fcbf35897d67d; 0x7bbfebc5398e04f3; 0x78958fa151b44447; 0x193b449081dc7a14; 0x689e62c8f80f4bff; 0x76d0129e19fd9581; 0x413313ac27b5e609; 0x362625f438894785; 0x6550cbeaf577c6bc; 0x64e3d5d2f03a0230; 0x5da2567cd9d7ecbc; 0x17df9ba1555ebc78; 0x1a18cde0dc978b02; 0x2a3add20fb1ab4a1; 0x2003eddf016a0b95; 0x2c7e0dd59212b9ea; 0x16f7586520b838c; 0x5162082f8c7d00a1; 0x4d325a0a1ba012b2; 0x1038507bb48dc314; 0x64239c710b24b60c; 0x3835fd3b817e7d59; 0x59ae5bdcc934db18; 0x4c8a2b72485705a9; 0x1991434362676ce2; 0x68de9e9fc7a4b4b1; 0x152ed7c3c1f9b455; 0x11c8740ee06cbbe7; 0x1666ca6ee38455f5; 0x23667e8176d09c40; 0x25620c6710b2c621; 0x244be3f5407c615f; 0x48b68069384b00a3; 0x360b8b70b3d2dc02; 0x54bbfc22c389a60c; 0x7400cc439be1168c; 0x112d8680c6913f38; 0x37977152cb958a3f; 0x7d900fc7560924a6; 0x845cf269f1ae448; 0x3fd14f62cc06ee; 0x77cb8707593f99ac; 0x6f50edb027e8ade6; 0x781e89c57c464a36; 0x1460cf02a868053; 0x7b3b39938196cae0; 0x4321062cf7169861; 0x770ad843eb877c46; 0x134048592e5a4e3d; 0x8064f0f89cd2a57; 0x232f0262abe5250a; 0x3f39f9fc258a7a59; 0x265f31d6cbaff025; 0x29c9cb23ffe27455; 0x55dfaa7246af930b; 0x79ea108e471c64bc; 0x2675453d325d4038; 0x740581cff32dfdf6; 0x67c12880673ae7dc; 0x4180aa4f19dc5cb2; 0x40b751e4b3337feb; 0x33d3ab0376dbc5e1; 0x7ba408d073348158; 0x330a39a3452a195e; 0x5dc38407277d6b4e; 0x3f6ccf00e6a2719d; 0x38e605c0ecce7396; 0x33068543a58f82c7; 0x3cd73ada0e79e783; 0x78fdfb0df836c9c2; 0x22dac347d2f322eb; 0x4a4636cdca6ea06a; 0x5e8b6ea625561e90; 0x1d03798207e0cee4; 0x672a79765961f476; 0x1339e3d406b89cab; 0x36b1db7572d95d83; 0x24f654feb02439ca; 0x41eb60eb280f9834; 0x5c962312862c4b8c; 0x133b084bb9cbdfc4; 0x7d16431a7cd7e2; 0x3e8515b4b37a129d; 0x3a0fdd6067022952; 0x59500f4235481daf; 0x400e9b0f0321bc85; 0x3634f550fa6bdfa0; 0x4eea708aeff5a33e; 0x4d5900915980c2d3; 0x58df071fb523509d; 0x62aa36099892d542; 0x796281e3b2682533; 0x1139dc8a50ba74d; 0x4f437283cc2d6c2; 0x3e1d96906cbd4c38; 0x6083a58cb2243df5; 0xe88365c8af61b0; 0x4bc90c524acbf114; 0x1f164ddbf291e848; 0x6871ce0c185cc49c; 0xa144eae6b82f52b; 0x31d56feb6cac83f0; 0x35a21317cb9e96e0; 0x66c3c6911874c37; 0x738de10b734bbe54; 0x7054324be13462eb; 0x6b34db91258e1ac7; 0x44d3cb4100f4f87e; 0x53e6905b6294b056; 0x425c55a640ae70; 0xbddfa0a29a6f96c; 0x89291c37099b535; 0x59cd00585aed55c; 0x75b4b23cf20f1e6b; 0x4329cf837d5213c; 0x4a11178cfd97fd5f; 0x4fc387f0842125d6; 0x3b9c9c75a3e1e91; 0x3050a643664afd80; 0x4fe7a4a54b6a5160; 0x508efb29c97636bc; 0x7f30ee1aa5f2ab52; 0x11e6d5a33e8f5863; 0x57552d7225392ae; 0x13629fbe90c6be2c; 0x70c6656bc07e4e78; 0x4dc3b90192ff9d71; 0x36d5fffd0bc2602c; 0x4683ddd780ac78c4; 0x337d6b9165855b70; 0x51aae599cb65d753; 0x5a34fa4a3fd2c21d; 0x5231901611bcdc3a; 0x29533d082b16674d; 0x11061152655bdb6c; 0xe33f897ce57f9df; 0x6a647d9ba8fe1c9b; 0x40a34d50e6d2716a; 0x11b93297bd7eac38; 0x5699c49cf44942f; 0x2d931ec7f99c5b9a; 0x472558bc0a7cebba; 0x1cd0198e101ae373; 0x5ad5bac5424645e3; 0x1c1f42a9718560c; 0x5cf65f26b9e16d16; 0x6ebbe941159755c7; 0x3697917a00989451; 0x5aa2b3f197fd3486; 0x1ed800e308be3c83; 0x28e79fdbda9e98e1; 0x62a6e4ae172987e3; 0x153eef00aa1e5415; 0x1efadf1d884b8727; 0x5fa329bca4878551; 0x5ca126d5c02a2ac3; 0x2bf83d168f808893; 0x5cb6d2a40d11bd56; 0x51f38f723f6d13f8; 0x5e03de2ad7625e66; 0x3e31abf2a28113cc; 0x27cd456ae88b5009; 0x52c173c742fbedc0; 0x345efc747b7af3bd; 0x2ddbaabfdccf3c9d; 0x4cd3af9cb4c5b4e5; 0x49b46e0ce7ec259c; 0x76542a29a973bc7b; 0x39529e5d38c923ed; 0x79ae8916157d83b4; 0x23fa67c73de9be2; 0x73f0a013eea28b66; 0x7aecc09d37523e2c; 0x4b25ad2acb50e61c; 0x193401c3186fbced; 0x1d2320c2ab0df90; 0x6c71f203d17643ed; 0x7f49f5bec2d28b07; 0x7a47bbb18467c8b9; 0x462ba1bc9dad22ab; 0x33195d1946ce5f11; 0x337c247d4e2e0bd6; 0x754f5c3dd075504f; 0x1f76c539f52261d8; 0x10f9250425dc01ef; 0x9a95d93c7842a03; 0x13be9fe0da690c55; 0x6acfc03ab7fae3d8; 0x5e20069078c5b4a7; 0x7c5c490db585d297; 0x421dc03b0779e2c8; 0x7bcadf65c8000d69; 0x4059a9a50e3bd88c; 0x1ec97287b5e4c149; 0x2d7fca5f94d78c68; 0x6c9f91bf43a8f42a; 0x6fb9edc3e5bc923f; 0x54a5c6fdd3595b9; 0xc027a26be241c9b; 0x125fcc014a104b5d; 0x5f3dafe6339aee44; 0x10e9e90d3000f1bd; 0x3f0255fa8a007e25; 0x4057b57401c2c857; 0x2910b616a9365d0a; 0x7385c2b0b02b32ed; 0x38015af379026fc2; 0x58d926c7ed02209c; 0x484f4f631a443371; 0x1340d80fa2a275; 0x173505bee57e554e; 0x58c8fdbad9e72a37; 0x4a7521d4f0f60ef2; 0x1b42d625607c3808; 0x8282fb5da489c90; 0x6ceb46f1ced8e3e5; 0x73f3838da55bf25f; 0x50be873dbad79235; 0x7da990c3e286ddf4; 0x776ae1210010c512; 0x27092934378d8019; 0x5141505935a44906; 0xb7f33102e972b42; 0x514044114ec5fc32; 0xaa80a2a0a2288aa; 0x4100044110114544; 0x82880aa00a08a0a; 0x540444155411151; 0xa80a8a220aa8a82; 0x4454051451514014; 0x2a2828a0a28aa288; 0x54054110155451];
   [0x4afa041101cdb9c3; 0x3293565583cd7081; 0x4aeffb6f6b7b2f47; 0x31c24879222e5b04; 0x406613754e7bdeec; 0x46d389b5dd85e004; 0x3d6d70b6c7943efc; 0x68625be4c0089f3f; 0x67a6da56d96276b; 0x613ce88c233c0dd6; 0x374a28480a6749bb; 0x4dcf04799499dd03; 0x5c9926c47ed3e10d; 0x25d34d974d3a9777; 0xb4099347df1fddc; 0x6c2a0fe927f9b95e; 0x1bbcfd20ce4eaff9; 0x70fada45a5288518; 0x440284d6a9985fdc; 0xe77df1f5fb5a5e; 0x349acd953d187bb; 0x595bfd68b0e732; 0x446fdddf156760bd; 0x508e4009897052be; 0x707b53673c1db230; 0x73a4fdea19928c39; 0x50ae129479848bd9; 0x5bd72fe96fc74478; 0x2834fe1038c23967; 0x40e4491a6512b2e5; 0x7326b09217869c7; 0x29864ffea720e0b3; 0x61cb9654e3c1355c; 0x3211918d65313792; 0x603d24f95782ebed; 0x3ce8338268e29d2b; 0x1e1e4b1f297557b8; 0x3b9d4e12da560228; 0x335834d6103bd464; 0x329c13aad7059e2b; 0x166124eefc278ef0; 0x68ada58a5a09e90e; 0x2e30721efabb930a; 0x463fcfaf4c0e5079; 0x827695b2569488; 0x6bf29c0683fb995e; 0x1f1cc2c179b56c01; 0x27627443f48686cd; 0x284b923144768ce; 0x56f8529b494bd1c8; 0x4bd2f1cb4c4e8479; 0x34e8aa7bf737e99; 0x7a4ef496f5ce36f6; 0x307a013dd19c1417; 0x115c17d45af09cfc; 0x270e16103eca202c; 0x7b2c2e0dfac239ff; 0x7787806b19f6b6d1; 0x6b9b47e22de183b1; 0x31e26c2c084c4976; 0x3422c9ae64f796dd; 0x373947ce15732523; 0x49040175050ae1a; 0x4e65c9b668aac637; 0x6d6c42acca096cdb; 0x66eca05d04d0a12e; 0x74dc5468b8d5242; 0x35e2119f527d3ac1; 0x3e57bf8a0fc04e85; 0x282baa64d079d4fb; 0x493f910b4c6d81b1; 0xdc6abdb557c8fc7; 0xdad420985e00405; 0x2a447b0b29db92ad; 0x78a5b381a7349b83; 0x7f0b1b27850e65d3; 0x7b11064e71e093b7; 0x63f80ec984e701de; 0x1b950b23df73441a; 0x1e00c8b86546b4bd; 0x69411868d554c064; 0x5bd7a5025f17a6bf; 0x3b338b82acf5f789; 0xd350f6f616f3f63; 0x668c3a618f0f7c79; 0x2f978fb676548b33; 0xb62ee21f92fb893; 0x537f8cdd6cd3708b; 0x3a54ad176551eb1b; 0x7d1b1741419da0a4; 0x7fa7ebac9ac95bac; 0x3e4b39798bd4f0fb; 0x5159136489bd894b; 0x2b51b6144a27f7e2; 0x3fbff6e13228bf84; 0x4a0f6d70e6e1d2ef; 0x7cda38e069be3e02; 0x74eda503f695e359; 0xaf898a11a332ae; 0x7076fa2b81d4ec78; 0x44fda8c8b8f77e53; 0x4c5c6f4d749fd583; 0x567d6d60dd229bf6; 0x5ed320f72d47ae96; 0x4777dc7811611422; 0x7e3658064249cbff; 0x668d6bbcb780048; 0x5971ab216cfe7b77; 0x1c7ea665c0f354; 0x497ba92bf5635712; 0x5e184150cc1c7605; 0x5d0de42eb69c22d0; 0x178da0fcab801fd1; 0x533eb2a365c1af98; 0x43372b2055015773; 0x48fe7f9c96e76dd7; 0x6c9b962fa5ed7b62; 0x234269d381a05321; 0x602b27889e338fdc; 0x1f0c3314e70ca32f; 0x27eb57cb6588fe5; 0x2137b1a6ad7ae4ac; 0x2c4efac938188a6; 0x658593a946fbef9; 0x777e18a72aa3a4dc; 0x32c95e72c938cd61; 0x667e079779ed0874; 0x453c24423d9e4ca5; 0x70dc540421c05a83; 0x50e20849e04ea1f4; 0x528c73a637ba57c3; 0x31a25710d283465b; 0x31e1096ad5754d5c; 0x326ce54891fa4b0b; 0x212fedcb4e326b6a; 0x6357ab6fe9d0cef6; 0x3cc33eecfe978a60; 0xd3e23998039990b; 0x6116041d8fd3b3f7; 0x4186d2877da5267; 0x274ec06e25fdc670; 0x1b5e525e0b062ddb; 0x4bc82ecdae383ecc; 0x5875465d9299c4a4; 0x73bc981ebeebb4f0; 0x6c80a2b33d1a88a2; 0x766f93df784c3cae; 0x56c99c95bf214c9c; 0x25c65cc9a547f346; 0x12fabcf1b2249ef3; 0x52afbd94f9a21cb4; 0x54f1ec6459d46a0a; 0x7a3a69b2ca516f0f; 0x7769a9601ccb2909; 0x69f5f68c2420713a; 0x6fa7e5e6f764c246; 0x6dbbb671449b738b; 0x26a1d6d64d4e5ab7; 0x2fea907d1b80d0ce; 0x11ade476968b5184; 0x3ee47b2986c1a554; 0x66b7a0f9c4c97ed0; 0x784bfc10578f0c43; 0x646ec6df198a163c; 0x7aba6972f114bf98; 0x123ad0ddb79fe905; 0x43a51e664efe01d0; 0x1987897a656097ea; 0x7c020915002d7cc6; 0x70004fa8d95ca584; 0x7d3d9ba13e7e99dd; 0x4d0002f4ba01928e; 0x29f2b8f933a0242; 0x29d8bda18332be58; 0x23db657c9b1c20af; 0x3ecb5c1470643c5e; 0x33fe52c154686202; 0x2cd2330c0592051d; 0x78230460295a00c1; 0x64d0405acd8e4adf; 0x4d0e32e4ebea435a; 0x606f0361206c22e7; 0xf4d8f8b6b38770b; 0x4d3b3ba21f2d6e82; 0x496fb03fc7463468; 0x5c6cc1bbb05d83fa; 0x55fcc125d8c65314; 0x7fab179997eab31c; 0x371d5e96a0cbd90f; 0x120adcbe5902b89c; 0x33f4d518d448a46; 0x3deffb6229afa69; 0x53d828b4a13afac1; 0x1c312826cbd4611c; 0xcb5e7e53d2c6b23; 0x772b68f228b5487f; 0x6b2c8020701a7d6d; 0x4c2b4a9be9242460; 0x2ad8b5cf98643966; 0x4d9016199320526f; 0x1863f81305ec0bfb; 0x7377d0663da4d8aa; 0x7b445cba94ac7cab; 0x268b1a37ee1e5d93; 0x2d6a38d92393ee84; 0x555cd2acf396cabd; 0x2b55f6f762f71a17; 0x736048111525d21d; 0x33914f9bd2e5a391; 0x35537eecc5ec6836; 0x2df28ef10f626ae3; 0x6fb8d8dd74e02bdf; 0x51262a5a0363a4f9; 0x2c2c27c4e577cb7c; 0x486a50100ee7b0c7; 0x6c79000863cd4080; 0x72053f20eb5dd5e2; 0x19278bb039b52da9; 0xbd2cb1dec33dccc; 0x1ab981b7cff0c076; 0x23b34f4c7e4ec9cb; 0x6732a06d1b0e20af; 0x6b65eabac6ce5160; 0x68225193b679236e; 0xc9716405274a5f; 0x1f7cd4d4f13f8a50; 0x3d45871e09397f59; 0x618d6635b6b9981d; 0x650d095aaded7f55; 0x69147f91ea353a9c; 0x2af521a45fa7929d; 0x331365d36247d47a; 0xc313ecf93f11a23; 0x7f3b78f68304cc10; 0x4c2b1375e296a77b; 0x2f5bd9deee1bd296; 0x48e594566c0458d1; 0x2a2760091679995; 0x3b5cd3cea3a03ad3; 0x28008bea733040ff; 0x5984d4c886b9dac2; 0x6b1ec0d99d6a9e8b; 0x63bc8d40d4b2d3f1; 0x6ff0a958eea9cd48; 0x7b24621f92e3b343; 0x734e574e79708d0b; 0x222adb75bbe17821; 0x7c6a34f13b273afb; 0x748986a7c77a261c; 0x418f9bfccd7b0800; 0x4089ff41596316c4; 0x7b20f3cbb73f4580; 0x68729237c11432ee; 0x4fea42eeb386878c; 0x23b38c20229d312b; 0x75898d2cc97a55b1; 0x573decf825bdbe14; 0x41d00d85cdad693c; 0x6b66cb73fa34bd24; 0x6ae35bff66e1d61f; 0x65f061565acab41; 0x41a94d33cf09ffa9; 0x2f60444df88f6a58; 0x7a3de81f5b6973eb; 0x373304766a7f822f; 0x749eef8e579ded4; 0x273608e068b66672; 0x69beef7ff89c071f; 0x67af8595cfe18978; 0x7c0bb6ec249003cf; 0x346f2fc8f49903fd; 0x45ebc155cb6933a9; 0x4093ff9a69aeeab0; 0x26344feefe1a8f54; 0x16393b938d47a177; 0x451c9a3ff2bb421f; 0x76d70fc1ba7d6efc; 0x776ea1342ef54c70; 0x449e9b2adcacbcd4; 0x78e0061db6ce055d; 0x3c42eac588c16339; 0x2ec5f963d6885e7c; 0x28c746da01d6a709; 0x4ea9fdac9d6cda71; 0x2472284963e58faa; 0x8cff548d01f32f5; 0x8172af238324a93; 0x31a0acad12b5a2a4; 0x7abd9b9be1a08def; 0x47022928758ef0ba; 0x7176092d83171b6a; 0x1032e499e8da9066; 0x354bd9669b74ed27; 0x825ccd9a8844d39; 0x63c767da1ac4cbf8; 0x6ae2601728e5c7a; 0x2ba116e3a5be1d39; 0x42a2c3f8b78cbdc; 0x65537817258d0044; 0x2186de15f3f68f20; 0x2ca0a4c35ab47493; 0x2a1805efeba67581; 0x7489fe7e512e370b; 0x65f5b9d669488000; 0x40120d6ca29ae243; 0xbca9ed6b506d87e; 0x1a762d35ebca0444; 0x76a5105e71588c1e; 0x55005514c44ab007; 0x2a80a20002828022; 0x4011444415401041; 0xa808a2080008228; 0x1450045154014001; 0x200880000a802a2a; 0x5105144054011045; 0xa8a2a2028a28aa0; 0x400550015401100];
   [0x4e9c2c0112bc8d05; 0x3036a83b9a7fce75; 0x42766ace2bbb1926; 0x35fc7fe7f8d49916; 0x63ce7511c4a14693; 0x23b1a96a8adf1531; 0x14ca770bd8bf5e8b; 0x3ed8ee4c1dca4683; 0x449d4b89a87eadb9; 0x24262409816a4728; 0xbf5d4dce37c0ac3; 0x3b9305ee12424488; 0x4e3c2fea9a306aa6; 0x509fad01dfc2c96a; 0x2bb5f54d36424bd3; 0xc3d1780540639c1; 0x6158292500fe0a5f; 0x528c3a53b1909c84; 0x1c330d0f9765464c; 0x590ccb0f5e565b5f; 0x2128ff4afd5ca5a0; 0x1dade958506a3f66; 0x6fbc941e12927795; 0x653ce5da564a09b6; 0x58c6ba6a67f39f2a; 0x584812a64e9dabfe; 0x37effdc8666d1fc5; 0x5dbeed670234184a; 0x7690273dc0fa167d; 0x1a349b75d7787356; 0x49d232a55ad4a39f; 0x1fbd0671f4173746; 0x1a5acfc0a55d1137; 0x113d8ecac42b3329; 0x65482b571999f1a1; 0x2b5c786a01cd834f; 0x117f9068710099ad; 0x74856cb61fa77f91; 0x18321ed737f09785; 0x74e14a5a6afe3ad1; 0x13b3cb56e0e4e139; 0x58893a4baab82e94; 0x48eaf7028f5366dd; 0x3247ae34d2767ae9; 0x15f1658615b311b6; 0x6c60a0f6058bd47; 0x2612b9b659e3e5a0; 0x470462231878c1bf; 0x729a6bad61b6d89e; 0x24dc8c8974bc5c78; 0x39a0c92f60793e08; 0x262d32931ce11038; 0x52f21a5c6d69f8a6; 0x4751866ff37ce892; 0x1edc93ea66e14342; 0x6bec4eb045561c80; 0x5e63544dde3dd3c5; 0x3ced3f2a26d2e2c3; 0x2a1c063174719be4; 0x274ce710a0c0eca0; 0x20d2963a3b92556d; 0x122518928783b56f; 0x3da5cc67523df5cf; 0x538e8f790b1d44f; 0x2bec6840d3bcee26; 0x536880a5d5e21eee; 0x65f4565e065e8881; 0x654ecc984962e21c; 0x1d533a45ffe1aa74; 0xd40c344482494fb; 0x394072b189c9e0ca; 0x2a89a87916a78ace; 0x7dff7bd576932e99; 0x2dec0bff76fefd5; 0x2af33992d23c9c14; 0x7feea11a59dd9f43; 0x99ad2c8e04d27ec; 0x432fdd3809b66ed3; 0x244ab81005345cff; 0x7b28b8ae434e68be; 0x647cc14ad1c16593; 0x23f99fcab1bcec77; 0x26b6b17c03e3ed98; 0x7715fb1830f5d172; 0x7228a28f4a075066; 0x21efef6c16f993e; 0x791c08d32a8b2ae8; 0x123aed878144a3ac; 0x45837eb3121a387d; 0xd6ccaa6a5f661e4; 0x1d7e31554477c067; 0x99d5c50f55c4b88; 0x415e353a1a8d3e9c; 0x5443c77f115ac377; 0x65df275faac32a5d; 0x10414e48e7cf7279; 0x4380566c9dec5179; 0x69769bee0bb10120; 0x4fbcfdaf8fad6dd0; 0x79ffef164318e3c5; 0x1095682a9bfb51bc; 0xaf6dc5bf480090d; 0x61c1caa4d01eecd8; 0x35e61bf7ea273903; 0x60b609af5425f6cc; 0x2cfc90ae8e3ddb64; 0x6cf2376c4af9b60e; 0x2c5f208d934215f3; 0x416e5b2bd6e6fdf6; 0x39acdda888cb7935; 0x3182bb681c1e8646; 0x6ad44c42840eddae; 0x420786639c78128d; 0x4c1f6c3a4ae42f9; 0x400e6aaffa94bdac; 0x5a0b30e277520b4a; 0x36bebb533fc6e85; 0x1e25731aece58a93; 0x5291f3c2a05ca1d0; 0x355ff6028ac8572c; 0x2724f621438a13cb; 0x5d3fe29589c1ea3a; 0x7594cd7a7e950992; 0x19c3012ffa2d89a; 0x4d96d37125837c93; 0x28d96f9ed949d45c; 0x3980752ad93adb97; 0x160578673f7f708c; 0x596f562d4310aa89; 0x6380a27b57797279; 0x5b3ee1227149a5fe; 0x6de6e71f5788cb37; 0x445c9de1ffde38a8; 0x5f1e653a03c05564; 0x7ad2ac43a2f60cd7; 0x3304c05df1aac4ff; 0x75759e3de95e047e; 0x433009cb331c090c; 0x2f13650da73a156a; 0xf778d118c95aaad; 0xb95888b6d0a3ec5; 0x6af2eb70743598eb; 0x6eecc9db26361555; 0x4bb142c67f45c3d9; 0x507bc57ad5b81f91; 0x50aab9e91e63a504; 0x79e1f9b9943998da; 0x71cadec2cc1ba192; 0x3a001ac96ef9a0c2; 0x7cf900844adbb495; 0x8f61f6d991936e3; 0x49e5b45658139c8c; 0x5a40b56d6ef928a2; 0x3b62b15fe17edcb0; 0x6b7489666227a9a5; 0x47bde17466a5e183; 0x20beb8307d7be28e; 0x3496bb7c9b58af88; 0x2361e91b8a4e2d81; 0x5745be41b919c624; 0x7765f08302c8a9ca; 0x5fbd0d03c080e4a1; 0x3ee9317155cb4460; 0x71235ec33db69b97; 0x2a88c761303a6750; 0x4efcd960f2ff790f; 0x376812a637873bd9; 0x7a454ab455e32ef1; 0x2d462c4857116022; 0x35459760659a8849; 0x227217964c6dbd73; 0x17211623fb82c484; 0x592a79740918123; 0x9223c7e67ea4a25; 0x1fb3a7b3e610fc53; 0x4a2b34c4c3e859b8; 0x4ee1fd838fbb84e2; 0x6a2aff176a9697d6; 0x3bdada57561efa44; 0x11b5f9cacb7352e0; 0x7ecf9d6624b5ebcf; 0x51811eb981828786; 0x471beb731a20b089; 0x5922eb5b08c35a6f; 0x6b794bbf1a239a41; 0x4fc6ad1c82e9fc35; 0x3ae60e1184794d50; 0x7a24d04f9fc19099; 0x88432040855a0f1; 0x2bc027a7c4bc3b69; 0x744cdc713051ac87; 0x2ab0986fe6490e3b; 0x1e41745f6eadba69; 0x41e57fa09aa5fe81; 0x462463f7aa7f2752; 0x6741c7b3b129337b; 0x59b659cdc62baf41; 0x61f05233c3a51cf1; 0x327ed56f678487f; 0x6eb500373a880bf5; 0x674ed3668c5709f5; 0x7d73966f0c5669e2; 0x915a2c7533179fc; 0x6e198d572a0c67a2; 0x3863da2dee0cb3c5; 0x6f6ef5722d74e5f1; 0x1353473a538d96da; 0x5797a33f6d608fb6; 0x1356ec9f14875b8d; 0x37d869210b6ae019; 0x1fc9bddca72291f6; 0x97a374ec283bc46; 0x4bd70087a23674c4; 0x41d216bb94daf935; 0x35d159e418ce899a; 0x1323a32610bfe33; 0x2c23d152b4872334; 0x35ec9bc611da8872; 0x700f3f2d6ffc5add; 0x2258e0b1f7451cf; 0x56c12d3f8d18941f; 0x3ab948c2d4abf7f7; 0x5e26c42f5f8f8315; 0x6c43a33a4490467d; 0x2644d904eb6230dc; 0x2ee3555103ef11b8; 0x4515a4fbcff70799; 0x35f863657fe16dd1; 0x6aa68a0e2f306887; 0x560b0820724ac41b; 0x6bf8803c2860733b; 0xe8e0f45f92b09db; 0x15cb8b2f6182cc76; 0x5e2743a1d9cf52b6; 0x7bc8a80e2e381eb5; 0x35ca34c73a8352b; 0x397d5f073bc83722; 0x712801f0604c46f9; 0x27780aca4b6bfe05; 0x512773cddb7b63b; 0x30754f4716192f6; 0x46a27d2f2f7f870a; 0x7fafcdaea9077777; 0x12e75c1cba655dcd; 0x5ad09e089be8a246; 0x212a33f2f2aa6282; 0x84b452dae371cd8; 0x1d1662063e842a1c; 0x1a76ea5a0cd38a65; 0x3b435ce5a2496902; 0x29a610f3d140f998; 0x2644ea3f987d9b2d; 0x3355200cc39119f8; 0x295e200bad31d5d1; 0x1770f6eb942f8ec; 0x79ccce44ddad63d1; 0x2d3f80e34a564d7f; 0x63a374b0db4b803a; 0x19a8ce01a93e904b; 0x7580495c8d5b4235; 0x476a07f794280a1a; 0x6a15caa992dd42ee; 0xa3e4c2d16369f59; 0xb67c43733d6b7e3; 0x47c81066ac80272f; 0x140ac94f2b99d15b; 0x3de36bcdb6ccedbb; 0x2bcbe1f75e782e7c; 0x4929c15c8a32e6f9; 0x1a301e19d0fad97e; 0x9370e2cc94553a5; 0x7f5d7ad9bd03172d; 0x39b3a55aa157832d; 0x6a310b3b0d67040a; 0x5caf8fc2f4046a90; 0x5b18aa1e7c878222; 0x2f19a6222dbcb7ac; 0x4d19641de7eaa940; 0x1cfa61a11891b261; 0x4ee044ecd5329e0a; 0x59e2663646191cfd; 0x3aca3fa864c33434; 0x1a3f416909140587; 0x115a1ad7e97fe548; 0x13e31155b708998b; 0x64e54b0abd42bf9c; 0x5060a7b8d111d8e4; 0x2d4db304038025d4; 0x7076f3b1d7596a0c; 0x6432c8c12fcf7852; 0x25e39e4b65dc81cd; 0x2541603004471683; 0x61fd373d63dcf22e; 0x6b6b3ef1781d9607; 0x2bbd4c30372dbcad; 0x7514cc65e5b6728b; 0x725d27f169fffa6a; 0x4ffc65b88b6ba993; 0x5e83484d2a674f48; 0x1b29b08d87c139f9; 0xa8718b95020a31e; 0x1ccdecfb7fcca942; 0x74eaf6333cd3bf3a; 0x1aa8788959708485; 0x31848f67ecca762; 0xa1b418eff655dd1; 0x72fca77c3df0baac; 0x19c6496c7f3bcb97; 0x45155406146802b; 0x200202a8a8280028; 0x4051550144144510; 0xa220000aa088228; 0x40005115414504; 0x2008a8aa2aa0aaaa; 0x5555445104551110; 0x2a202aa0a82a022; 0x100140151145415];
   [0x3e320c3dcb4548e2; 0xc5ea153c4ebf8a1; 0x172c74ad19bf5e8d; 0x2f23cf62ff6fcd92; 0x42513f3582329a8c; 0x15b89ecb6c872052; 0x447169d2965b850c; 0x2f9d88cee4e97124; 0x476c3a11e26416b2; 0x84f7f4755ee39ef; 0x25e0eba2f5f8b40e; 0x766882c982f178f7; 0x545c36ae79010a1a; 0x462e602f39221f9a; 0x28ebe4cb2f4b163; 0x6093fcc0541c59d; 0x3e1efeddea389c67; 0x11ec2bc4e303ab67; 0x249f0652b1cb745b; 0x619b72e8c34f2ec6; 0x44ef54adbdb0a1ee; 0x530e8b919b46f12a; 0x22b5ce710ed1ec79; 0xffe3a03892ed27a; 0x9a4108dd9811af2; 0x64891e35854aae7c; 0x5fb4a03edfea9170; 0x30fc6fb9dd9198c0; 0x28f848590a740925; 0x245fb348f557e9fb; 0x593557f7b51b7695; 0x96063a7623ff16b; 0x331647102f8c23fc; 0xad2ea9b58656f3; 0x1ddc347b1d323385; 0x19802bf06504acb1; 0x2368265baeed39eb; 0x6f69b1f38a44f7ac; 0x5e00f63bc2d68eed; 0x3818a9ff1e50afda; 0x25131a5c57ae2265; 0x374eb72fce512dfa; 0x3845fa39a099b54d; 0x38038b74dff79505; 0x1e7397e565d1185d; 0x577456c8a57cefef; 0x56faf4eb1b0832a6; 0x22095a13c13a136; 0x667f79b1b2e09948; 0x1de18bbc6c5bcd19; 0x3b518572769c3d10; 0x160bc604adb6fb02; 0x51a8e166507c35a0; 0x4f6a35e000bef79e; 0x4efe0c66d23ea26f; 0xc5c10066f7a9ed7; 0x1428273f504fa67b; 0x3a77821b777b8a4c; 0x366e6c3fe2a97b00; 0x22f5d143b0da39f1; 0x44d00fd5fec59fa8; 0x6ced5684d3ade5dc; 0x89457bb3aaf44ad; 0x1723a1ca280ec326; 0xbfbd883ffb7d3d6; 0x72caa6f6a93233f5; 0x7ea06eca1c9623c0; 0x780ed8c0ae57fbe1; 0x107d770d571fc668; 0x353e06e0f386cec6; 0x2906ad56dcefb6d; 0x239d2bc2e914ca51; 0xa3c33aef017a34c; 0x280fa9401b6846e; 0x2b372abbbcdcb900; 0x6b06127503f0bd06; 0x7a09a5c8ef611ab1; 0x187dca00c484667a; 0x1b99512a3baadfc; 0x2a17f3367e890876; 0x7f9b6d084ee0353a; 0x67705138c576d35c; 0x1637d58ea5208599; 0x56a69c92996b9441; 0x2e030adcd0a19e06; 0x44728637dfd458c4; 0x73e8300f7adcbe73; 0x2fed997cf65833aa; 0x620f5e8f2de52ed8; 0x3927b9135356b3f3; 0x1855105511bcab69; 0x7b0aa3ef63c60cb0; 0x77a8056a23b97521; 0x67f2546078bdb463; 0x19a827f77b3d6936; 0x128e48d322df8574; 0x35b833677e8ad57c; 0xe8c71ead0bc5571; 0x2c77b0880c551fe6; 0x46488f0031fa7a68; 0x1e7885cec5d580fa; 0x1dc9f0caebc7c7c; 0x2b7e232c2eabcc8d; 0x6d8bd729f10be33; 0x5b448b2c2afbcb8c; 0x621d378a35e2cee2; 0x788d7a5649e28c14; 0x37e97cbb7f4aca88; 0x6cf8913ce909a5b; 0xabfe8e6849c8cfd; 0x41f98179219b8a42; 0x46ecf6d429be40e4; 0x357bb95a5315fdce; 0x4cad573c43b0b758; 0x738d1fae5191c9fa; 0x79dba889d52031bd; 0x65472d954c166bd3; 0x66ec07bc0dc56df4; 0x41cb49245af2f8f8; 0x610332686c063a4c; 0x2d30a0c8f23f83ee; 0x3741a67da8431acc; 0x6211aad47292e8e6; 0x218e1fd985b90f91; 0x50f7109cdecd10b5; 0x4b3275d90c0c6b64; 0x5d6695a64fdb9512; 0x25c004c42d3ef420; 0x2f1e73b89c3917cf; 0xc03fbf98734391a; 0x2b95a75dec72462d; 0x7c40519da896dfdb; 0x1eb0ae5ffc29ab39; 0x762b43c97f5d0bbf; 0xe393e51ac837e0d; 0x32b27da4d25bfa95; 0x57508a21eecf27b5; 0x1b4709b166e21379; 0x38d69b82b92371c1; 0x41d2608ea1f1e7e4; 0x6921c163da68c159; 0x401b11c5db673fe8; 0x2187477fee6521f1; 0x34b37f64357d070d; 0x7557c8a5dabe11bf; 0x66bb0180c9ccb623; 0x49a72f48c9b79595; 0x6cc9c5adcc96f53; 0x7e37bea282922e1a; 0x6e239d2b2999a5e9; 0x69c699231eef13d6; 0x17be75b307e4ae7f; 0x6299aeae7441b0d8; 0x1ba50702ca000ec8; 0x651942ae0602758a; 0x46f7bd7ab5514569; 0x488fe788c77da67a; 0x17b372ee3599b2ef; 0x14641bab0eeafea6; 0x7d667556ff03787c; 0x6ba78beceaf4e55b; 0x5f2b21eb920027a7; 0x1d65021f7840ee7f; 0x2a4f393e051721b0; 0x7acc66f8241fda96; 0x463b00126f4f4fb6; 0x15e6eb20f620728d; 0x70204523e8adf55; 0x2d7169806fef9642; 0x56f1650f59a8a244; 0x24c40dbbbf1a1140; 0x210bf9566e8b735a; 0x681bfe678dabdeea; 0x2e877e5a7ff70330; 0x5c3a7d2e0e6fccf4; 0x35ce018a304fc5c7; 0x5bf112ef67c8ebd8; 0x1a4c273862202707; 0x49486a44672c127; 0x76d606e2e8773430; 0x280742e9c16996f0; 0x241fbd95090f7f9; 0x417fa6615d27256f; 0x35f5d751f569cb5a; 0x3dfd3f0940ab743d; 0x79df1cc6d8c24b89; 0x27e5499a0913e47a; 0x482fbb731a3f1caa; 0x70e8fd5ad2ec967; 0x2d0f1dce60c69280; 0x704bd55ef2ffbebc; 0x5451a607a9d1af0b; 0xd3d43a8a21835ac; 0xa9bb21aa3611ab9; 0x47b5c7f2000c8390; 0x655628689ed8c156; 0x2087977dadc33c7a; 0x215b278c437bb9b4; 0x43a5892ab6599702; 0x691d409f58b0b1bc; 0x2f915f5d89de9fcf; 0x16ddc7c3b10d1a9a; 0x6793844f005da755; 0x374701b420566fb5; 0x61702597a4680cc; 0x1ac494ddde607949; 0x55735145cb1473; 0x50f1e9a2d2d5d126; 0x25e436bffe9f4f01; 0x21f061cffb5dfdb8; 0x127bd4f1c9882fb4; 0x3ea7aa9d9a1f57c7; 0x1fca82324632c228; 0x41724bceb1ae52cc; 0x6590da67e7d3a591; 0x636ce3d0ed12a9d3; 0x111a63e1777d2d8d; 0x557932bc68950ea3; 0x4eaba83f5d3b124e; 0x62c8a090f2a1ee6b; 0x253f7d1a572d9940; 0x4790c416e5b8a46e; 0xc25d939810eaf31; 0x4f3d8b1e60a26f0f; 0x16690423426aa71f; 0x14f072898dc611f3; 0x3abaedf767dafde7; 0x4632bd78769688ce; 0x61991e913ffe90a9; 0x26ae527ad3812621; 0x16f320464876fcd7; 0x7e776087a6551f5a; 0x154c43d37c07c722; 0x597a1d8d4b5cabdd; 0x4c0b676ee3ee8077; 0x3f2e2e2cb5be19f9; 0x5f1d83d3fc2d81bf; 0x18710c746c19bf9e; 0x7898bffb200c5014; 0x38f3991b7a6adb5; 0x67119599273122be; 0xebd181f78ffb836; 0xcec6b35e2ad64fc; 0x705142364da11c38; 0x42cd430825566695; 0x7e940af9377b966f; 0x5670e14ac4677844; 0x63114487154a8b78; 0x56f72d4b3f6a20ac; 0xdcc5e62d12e2f9b; 0x5af6c934ab436647; 0x5d32dede7deb0386; 0x66385e3de1a2826a; 0x5e511ff99ba2ee1a; 0x4ac486b6a32f1a3f; 0x78a4177bff7962b4; 0x78829079fedf37b8; 0x5618071c7bd97395; 0x56cbb7026833ff8a; 0x239a1e8069a72996; 0x61d108464bade5b7; 0x56df6295a26ca951; 0x4747efb0ca78b782; 0x4e984db1532bd6a6; 0x445ce6270020d648; 0x68f9745fb21d1832; 0x5513670a6d6b870; 0x29f34f3861de69f9; 0x56c4dc4cc950c6e6; 0x61d187f2cea8c603; 0x7d967ef198f9ff9a; 0x5a799a41052829b0; 0x4f0e71fe7a0a35e1; 0x92b1ce722851820; 0x2830dfce1324f4e6; 0x497a834a3fa587db; 0x73efc2020b46bda6; 0x2f4b593f729bdc22; 0x26c4480279f29fa4; 0x6af1597aad39e23b; 0x37c41ba165b9496e; 0x2022e78379547472; 0x4904c7fbf94f764d; 0x5bcb911b3b615fb2; 0x5f71f5f15cc8b6ca; 0x216ea9183eafb67b; 0x6d7238716a595169; 0x3f5411d7cade61b2; 0x4522e929b5e29096; 0x544ec65791bc19aa; 0x134d0b45e1e721ed; 0x291846cb1be7221; 0x633f84dedb7d156c; 0x6dd94b879d4e1c4e; 0x3f6473def992e702; 0x4823491975d747d4; 0x69e1e07824f543a5; 0x4e73fd1b90224f32; 0x5baadbcb2f9bf4b3; 0x5f50d60d884ffe25; 0x1a602a73ec18a75; 0x34c323b94885605; 0x4c5edb90e82331fb; 0x1cba546ff9204898; 0x629aa795cf71d74c; 0x3877d61b3e789872; 0x6c38922274828483; 0x526f5899e1fcc01b; 0x451545114c38e446; 0x220aa082aa8aa882; 0x5551044000410141; 0xa0a2a2008aa028a; 0x5141001014000014; 0x88822aa22a08822; 0x5444041110414540; 0x220a0a220228a88a; 0x41450015045115];
   [0x6d264374aa545b4; 0x76dad57e5f0053c2; 0x3ddc11f4279a0cb9; 0x3c01eab1ad02518d; 0x136c72a90d587aa9; 0x51305cd6eebe017c; 0x660374c9bc9b9dc5; 0x1b75636d34a05534; 0x3f9d32021c68347e; 0x2c0977aeefb7a9b6; 0x7c8f960c767f4fb3; 0x79f186f8d6ec506d; 0x4790c07946354d1c; 0x61d0dc4b60a62b90; 0x249f36f8a9f2de12; 0xe57e93abbd17b5f; 0x5a50e8c0c17b6250; 0x7827068a11b6eb43; 0x5a20f56769735fa7; 0x45c57a4f96f93469; 0x30a333c5c7ab94f0; 0x105372389040c671; 0x245f58a3ea8f235c; 0x35b939708db29740; 0x305e5aa7cd1a20dc; 0x5be27f89c215b62d; 0x4d3be850ee73711e; 0x678cdb866e5c3536; 0x64dd91d238671853; 0x6824140b206147d; 0x36ab631f01ce1e4f; 0x289c1e2e534cc157; 0x60865f0fa5db8dca; 0x86d622ae20c1415; 0x31fb153e950236a2; 0x600d65ea6f812c9; 0x33811b0cb5b0fb82; 0xf55baae0f781812; 0x39f1cdf5f0a203f9; 0x2a9641dd87c7aa4b; 0x4a0cd761d0d8e980; 0x1e2ad4fa9ea72100; 0xa3d093ba2050fd0; 0x7f57c81af0609806; 0x72518fbd5333a99e; 0x150e7784d32b5463; 0x1cf3a5ce28c14a39; 0x58d51905994fcc8d; 0x4576f3013d4604b0; 0x23ec0a591ff520b3; 0x5671f2bd9752f9f7; 0x6041329e81a3ce4; 0x19395a6448631a4a; 0x1275a0b48e2906c; 0x251c3c9957155dbc; 0x73f447db633a6a34; 0x55609d4da2667e68; 0x7e2bb6ea283d06f1; 0x502647f98d590829; 0x1acf26081c02a193; 0x7923f5d6427c5006; 0x2e4dc85886cd170b; 0x7bb7f0193c7fbe4f; 0x50df05c97bbcba95; 0x3d9b4480080f5ca3; 0x503714c116b97d0e; 0x970840aa2b3ca48; 0x5935049d63974ff1; 0x335215d8ed5e2a8a; 0x4df019e3783400ad; 0x2ed424641680da30; 0x12cb79856397e613; 0x6ff65a2df23a8b5f; 0x47a6c6704cd342d9; 0x4ad4fa64e8ad53c9; 0x253818235e75863f; 0x384cdb1f6136b0ce; 0x2f47d192100d20fb; 0xc1b25e7ede79894; 0x5139bacd22c30de2; 0x71678aea1a2deaaf; 0x2fa2062fd425a918; 0x2181dc6805dbcdea; 0x525b5a3e66532c0b; 0x3feee2171648066; 0x509ea6f3f70bdf5; 0x27457d2d49472444; 0x6c41da3e45c76120; 0x42ce9b00d2db2ccc; 0x518b20f8f1599912; 0x6ce5a5b666597596; 0x69a421536a8a2421; 0x3c18e866a742b7d0; 0x10fffe649e35aa46; 0x6c70c1a4b23eb10; 0x51afc9254e0c9a77; 0x84e9ca0f4d5fbc5; 0x7bf2bf17aa6b8c28; 0x2cbae5f5b3ada670; 0x6cf2e221dec1ec28; 0x3c56d4d5b6637c5; 0x296d5689e3b2312; 0x52d98d69a2339e65; 0x2261914595d11b28; 0x1c1a473724f04382; 0x53ca8eeafce67d03; 0x37d6200abb85f0b5; 0x51ab7bd1cdfb3ce6; 0x3a89dd09b5909b72; 0x4facc11a37c75942; 0x37686274f0a884d3; 0x6c0caa667c29cc1c; 0x20680cd88fb8f45b; 0x459d80d7184fcf78; 0x6ac11aa6cc5ce057; 0x27175ce6a022f3c6; 0x30814b5924a5ed01; 0x63796bc5542fc973; 0x18b179d44ce610f5; 0x43b5f4780963e44a; 0x5b844b496d64111; 0x30171e272c6d84ed; 0x6743b54e3c380bb5; 0x65b493423dda4cd4; 0x465da6b556667f5b; 0x7d3c0b5f3702dde3; 0x6a08cdb4cef4af5a; 0xf5a42d2bb6e2e3c; 0x1ef6434a7a4155a4; 0x6ac6c5e2cff8912d; 0x5daad58b768116f9; 0xfe2ae559f79dc38; 0x3eceaff8f393f85; 0x40f0aa3c132a94aa; 0x4ba2bc565b3a3c0d; 0x4b10fdea882fa321; 0x277cea05d753bc54; 0x39d1d591ea7e89e; 0x52a5a7f7c7b6d1a; 0x4e8430a3f961e7a4; 0x2ef41b6794c5f3f; 0x5a8c4d09fd5994bf; 0x27f96b954fa9d1e8; 0x587d4df37cb4f598; 0xe40739bec7f9a03; 0x750a4dd864eefe8b; 0x1d6f1eb7ee0eab4b; 0x76bc44d4521ed8de; 0x7753c42ac544cd06; 0x4a8746f4e2ffbcc7; 0x4b77ed19d0dee572; 0x33485e5359d4820b; 0x6866d7abf9d676a; 0x46ca3af63342d011; 0x2b1c01d38b40d00a; 0x497540adb8dfbc06; 0x5f4badce76d4d4f2; 0x1d18d1897b0b7d52; 0x4a5bf3afc8e5254; 0x1b4c4bb6ef0b53ee; 0x90e64c9963fefec; 0x3a0db9a4bab7d6f6; 0x3a41990176d8c9c8; 0x4dd9e7bdae76e7ba; 0x43db7248f3ac91f2; 0x218e91926470943a; 0x5e5ee114cb4477b8; 0x603e1c388cea84ae; 0x437a1f4f734f9e49; 0x66aa31dd9281736f; 0x95a95dcd280a5a4; 0xe9a8f3660e123b1; 0xb13f9de19679e79; 0x2c6c22502780dde1; 0x73658aac97b570c; 0x61ac98dfbfd409fa; 0x3735f3bc7e3cc84; 0x1a11f2458554cda9; 0x7a13398a202a983c; 0x1ceb8b95ef8b9e8c; 0x4a260da51c30170; 0x538e420ec490e305; 0x764cd6fd99f7660b; 0x1fb8b8c461553415; 0x5fac080678ea6014; 0x1fdad0bed086d5e7; 0x183ef6ff9d8471cf; 0x571157d437e3dd24; 0x2d8e42503fed021a; 0x1a293c29700f44d8; 0x46dc0c502fdaf3d; 0x25e7695dd260d45e; 0x687442072a321568; 0x382155d97167af76; 0x56a792f8f9496969; 0x6fd2756c580e9c19; 0x5b01a9924b5d1471; 0x2a4a1b6e8ff2f467; 0x1711be14cfae8bcd; 0x481f7b6ae560521e; 0x1efe38700a009069; 0x2c91063d047d283c; 0xbe1bb289f4bf286; 0x20ef69944889a6d1; 0x73f3f626b2125a0d; 0x5f9a135bea108762; 0x3f4ca795e16f2789; 0x34567064338b1455; 0x4eb846bdd75c528e; 0x14d95356c9a0258; 0x151cde0c6b5bfb41; 0x6c03da141ebf1965; 0x7deb3444dba08f2; 0x194af22ac1a04fe; 0xd435a79f1733d6a; 0x653ce2348315f679; 0x635fcee8b53fbfdf; 0x3474766d40d2c75c; 0x547e4fc1e450b2c8; 0x6544bdf48d60dd64; 0x2bcb8845fabfc6b7; 0x295f62ea6e789676; 0x1e90f114e1ac5470; 0x21c3c30d4c83f81; 0x1bfeeca7fa36b5ad; 0x3a4dbce72a8b06c0; 0x2f0f10116a4adbd6; 0x6df1d7b22d7edbe3; 0x575360b70be9fce7; 0x2d46e5443e67380c; 0x3d3a31d6827ec7c4; 0x65f575a0a633ec1f; 0x3970dfad1240021c; 0x1b44305552d0e248; 0x318529c504f7010f; 0x3bb6b28ae2b9d160; 0xd5baea90c03c1b6; 0x75fb4aa583cab2ec; 0x5fc9eeff314373ae; 0x1e991c3ee5adde4a; 0x23619764e9382a17; 0x395d26c1bfc7aabc; 0x59f6b3a17726759d; 0xd045a8410b8744f; 0x7c7903b8cd8d3030; 0x13cd6ec252b1dc11; 0x53ab3a6941043eb6; 0x7cce31cc41e919c7; 0x18614e94a9727fc3; 0x59e53e1360d7bd6a; 0x6c2bf57ae52e35d8; 0x505c7edc50ba07c6; 0x5eb6aa1df786a094; 0x7f4b6c65b5406ac9; 0x6770ba65ae6d7c91; 0x144a91a347ca9158; 0x549d5de734f83510; 0x2d1b6fd15c9c1c8d; 0x494773ac7f2a4ba2; 0x863336bfff3004b; 0x396591243319f4a6; 0xf04408d47cac7d6; 0x1855870ed4627dcf; 0x7d136b3ec07020fa; 0x4ded29d848eab93e; 0x4dff356baa80f8f5; 0x777cc54dbb2c7f4d; 0x77ac8e4461808886; 0x6080d13a0a7708d1; 0x416b8e5fedd00662; 0x5bef7d23c4be129; 0x47832e0fa95575ab; 0x47df6e7cd33d23f5; 0x655e261097ed6e61; 0x1512635b1b236b68; 0x6aba0e47643bf665; 0x1a633fe0fcd593cd; 0x46f5c1dfcffc49b6; 0x11257e9b73412a92; 0xf5a6a6c81e5acf2; 0x3aad323391221e99; 0x72156959aff8b736; 0x25f9f140001f4dca; 0x621db421c9a15e7c; 0x4cdd8be7e4001fd7; 0x32add0e9d5db6d29; 0x3b177921f7c6f19a; 0x66fe3bbc90a71fe7; 0x6c267e3169423d5d; 0x4c77de133ee4de62; 0x2270d8b59443086c; 0x4cb4466bf887ee4e; 0x443f2c796d2400b; 0x77657f03778c3ece; 0x5d77f2658643520e; 0x6a5a4e1644de00b0; 0x7cebb539ab2d8fac; 0x1fd90fe2fb09b3ce; 0x7376107b524d65c8; 0x126d66f20fec3797; 0x1d9dd230ade0bdf; 0x264c579ccee39b9e; 0x47ad3595b7117c90; 0x28d4913fba472323; 0x72f891a9728d9ecf; 0x4ab1204937bfcea5; 0x23a0cd3e25bb635b; 0x558393137ab4b31c; 0x510004eb4d1018; 0x280a020808a8088a; 0x1011405001104015; 0x282aa00a20080288; 0x5544501151054415; 0x2a8a8008a2282008; 0x551415050401440; 0xa828a0a8282a000; 0x550400045504415];
   [0x27856933441048ed; 0x9cf50f5468f8c50; 0x470138beb8bbb415; 0x7883c67bfd9cdb94; 0x124bc74820762e7b; 0x795eca03ecf2ce4; 0x259d455d30235552; 0x354a8e5fd76b5cf2; 0x40e1587bd4ececb0; 0xb8c7ada1b20e0da; 0x2e214e8f84d8c4c1; 0x5dcf861aee86d092; 0x14dd0bd40b39ea80; 0x2b596f0050689f16; 0x66e67928f17b22a8; 0x7d501e0bf1767d0a; 0x59ffb6c36e67b3fa; 0x567a42a9f21b889c; 0xe2103d6c7328c7a; 0x4a6d3c002e19e25e; 0x7493c20354cbfaa4; 0xf97191a6ba988ba; 0x1f4fb100e0315f4b; 0x1f56a292d6182c7d; 0xf4115a5d99600df; 0x469a026392bc36cd; 0x400a38b5af13ed11; 0x1dc4070478b1f31d; 0x3f739bdf536b6e8b; 0x27b0696faf43b66; 0x721740505b03e66c; 0x1e2a7e5b489db646; 0x919322956167cf6; 0x37611a512a6459c6; 0x450c49b4fd876fdc; 0x2b5d2c5447c6799b; 0x4440cc62c7ea85d5; 0x17f5adfd100a6418; 0x4041b67eefc7e215; 0x3bc5c851a6799249; 0x30835f0d09f2beee; 0x7651c43384a4a385; 0x4827676b4c2c8d5b; 0x736b5e1d583bb20f; 0x58d86bb26760cba; 0x584faccd9a565043; 0x4fe00bf2ec6e3a83; 0x54dca353bdc6c7b4; 0x68ae0059d6fddd2; 0x771ba36c77caa7b8; 0x6cedd352fae7f585; 0xb98ae823846c7af; 0x3cc9a5d00e547089; 0x51286c6579055b2f; 0x5d51c0778486045f; 0x2e60c2b4adec9f7c; 0x65f7393993417a06; 0x6bcdc3a4279703a5; 0x6fe3cd2f75b868d5; 0x71067f97a340b1cb; 0xea7976a29747f1c; 0x14ba87d45a2d0df2; 0x7a71a6d6c74043b3; 0x189298e4b986b4cf; 0x18e0bd8684a5424; 0x3f712b6258c11644; 0x3ff5c5ea0da5df45; 0x73063513ec51688b; 0x14f35b07cae3f7b1; 0x37699cadb68316c9; 0x2ff3947743fb0858; 0x39b8d03224ad7e96; 0x5e6bf887122d0c21; 0x60b2834fbefac96e; 0x75273d5deb26c92d; 0x6e23e9e2e8eb9691; 0x16fcb702cff2e633; 0x50751cf07736d48f; 0x7603436c7518db2b; 0x30c5adb9c359d62d; 0x28858ae24f35d4ce; 0x1cd2e35d3fe4d283; 0x5c9cebc54fe90160; 0x37bb9d8b7979bc93; 0x511188b9ed38f320; 0x12acdf3e99778c2d; 0x5a8205375be583a3; 0x5994f7f9108f0214; 0x31d605e4cab25ebb; 0x4fa70c3b0ae4fda7; 0x2f6f1a2d4bfab877; 0x20c1a9f46fb72285; 0x5444e44a41b02b52; 0x6e0713587edcdca7; 0x41c4ed0db1346814; 0x264cb05eb6a8162b; 0x2c57891fdd768a5; 0x44e4281c72f9dfe9; 0x3f50838c8ef5d3c7; 0x782cb3d5a597870a; 0x9b044f27a4d5c8c; 0x59c6fd45ea625351; 0xaa5ca150ffad6bf; 0x261fdc2728d6ac0a; 0x70cce6d58c0848af; 0x4bb2ee93abef3da4; 0x31c6c573e863577; 0x2e86ecc0923d9b7e; 0x70b62b22212f87b7; 0xd98073c77532fa7; 0x7e4832b5c7c984ef; 0xbf2c7b5bf60c720; 0x5b8daf941f3e8441; 0x49d7d3b801ce0f0b; 0x726a9841a399ebd4; 0x6f1d69270390085b; 0x5466503a4d0a7702; 0x446eef53e765609d; 0x573f45f9cd7cccc3; 0x633c87fb08d00c15; 0x8812939a48dc96d; 0x58d72b7f86ca672c; 0x18485eb77c8ef1fc; 0x2dd4108e1692c01b; 0x488a1f38897f8ea2; 0xf26566b904730c0; 0x76a7ec20796b8b9d; 0x36c689190dc419e6; 0x406ff95c7799bdbd; 0x1395bfee1699e612; 0x40f3af1a2b695f6f; 0x79ad167fc2871a60; 0x61d1dd6391899a75; 0x36be063ac4abd848; 0x417f0093e457f66e; 0x10ce706b00c14b2e; 0x51931d98c39b9352; 0x11d516cdc1ce48e; 0x4eaae00292462ecb; 0x37d50ac5735dc50b; 0x4c87450649482feb; 0x55daf83ef4e9acce; 0x4523581518ed811e; 0x3c2fe3ad22e3d82b; 0x203dbf5330f07ece; 0x497f84ec0cb506a3; 0x58162052aeb032cf; 0x28d8bb8696b4f875; 0x720ca5f33d028dfc; 0x515e0d988dc4b13e; 0x3bdd4ca48934c680; 0x4d4766930a0217f5; 0x311b520a531087f; 0x7cff507ca4fd50a8; 0x227b54ee13551cec; 0x30cda56da3adffdc; 0x5a94fce154b226cb; 0x3b9936fc84094606; 0x31a96e8d56ba6e4f; 0x2d39ee8a7eb76125; 0x605921333903991e; 0x7e377d12489066d9; 0x44f41ae95b194f19; 0x1140ec10ecc71eb7; 0x54980921eb0e26ad; 0x7de6dd8faee1cb66; 0x4203e4ea4d48c526; 0x30bf16057ffc069a; 0x376b9ad06abbead0; 0x50299ea96e2537b1; 0x2b8a4b34a5e4e524; 0x6d96f3fe6123bb02; 0x56cdd28f9e185160; 0x4482ae6caebc1be6; 0x34bdd5ece9b61960; 0x436f7f1e855bccde; 0x21f610bfe4556e4b; 0x4724c213096ed45d; 0x5138332be5112b82; 0x23ec7c4826d93767; 0x2b882ee27bfbd033; 0x1e7f37d7b2f2f78e; 0x57d8abc1108f84bd; 0xc30ce4a1b0430e7; 0x5920197d879cbcb1; 0x2e086faf2f5cab5a; 0x2891dab326ce3218; 0x7323b718ce92333b; 0x3dad9819b5a9d327; 0x30ec6f3226608d3; 0x3f08728ea50ed7ca; 0x3eb4256ed9a3ea95; 0x3df401d1736673b7; 0x7f68f66e56258a7a; 0x7f5056e76775962b; 0x23eea247adca38b7; 0xf750d3ece86d8c7; 0x3a4a35415c412652; 0x191ecd9771cb0540; 0x4dce16775c197ea0; 0x658a797953103292; 0x1abce43612695cba; 0x56a4cdd0f9ed1c09; 0x6c0ab9778207963d; 0x18a9f1fb9bf11675; 0x680f80b1090e14e8; 0x5db8956b1d0f7673; 0x1a2c4d74b086bd52; 0x220d4b50ce97deea; 0x22906092e0594f35; 0x4c052093a4fc81c2; 0x4810eb0990bc6153; 0x1bc5bdfc8e8773b0; 0x66ef7ab14da388c8; 0x6caea99f4aa67098; 0x1b41c8eb13d4c10d; 0x517425b74a7858c6; 0x9e007868f8f46b1; 0x698127974bd4f639; 0x7f72c052575d6704; 0x69e7e852203d826e; 0x47b5c5b9dc171c75; 0x2e74b5734d09c335; 0x37881048929389f5; 0x756af95b22a495dd; 0x76981f858cb343c6; 0x5392d7cc5ecd901c; 0x19b6e21e1b2472bd; 0x2176d7828c4b02c7; 0x6dbe9425bda07f0b; 0x13060852f39bcdf0; 0x507f43a16a8f127c; 0xe55d425182a130e; 0x6e921eb1b61da045; 0x270b82f2544dd4aa; 0x76afd3223c87ad1d; 0x2309450700be64d1; 0xa95bbc2d9ea9771; 0x65d0c87fda11ddf7; 0x70a63642794be646; 0x103c28de71192f1e; 0x7f8cbb84761c92ef; 0x725017fa75ae246f; 0x1a7de1574ade9785; 0x9e98031b67d680; 0x1db6e3aefd01fa10; 0x3fe5b1336015284c; 0xe14dcd9bdeb8f50; 0x2702416da631fd8e; 0x5401c3dfc56608a5; 0x1b67fb324aa24c32; 0x761f61dd70c95dfd; 0x4fdd55b537f1612; 0x6f196203fbf4f496; 0x2901b4d444f5c031; 0x7d1ada5766c08935; 0x72b64bffdc7377f8; 0x2b33f345f6ba1724; 0x371448258e3ac64f; 0x5c3200e9b49a5516; 0x4a14d7da08254614; 0x5af81659eebf9f53; 0x4b4aa9e301a74dd4; 0x4ed6ff212a7113a4; 0xadab0f8f930cca1; 0x4c31f81a668ef50a; 0x50f6a9c4a6ab38e3; 0x5bf17d19cba3e66a; 0x3e2d701dcf80aa61; 0xd6c633cc038d5f3; 0x7e62d38c16b451cb; 0x418cbee16c41a535; 0x7622ef4072de173d; 0x149bd0b3e3b2ce08; 0x5e39a7871360bc9e; 0x59e5fa061fffc386; 0x197a7f188900b6f8; 0x5f3ee2f05bc5ba3e; 0x1c316b8738253380; 0x56f9cd7c6b83918e; 0x55807576194a3656; 0x90c2e649f3234d3; 0x592c1d012e8b4d69; 0x3a4ff8b96c053e6c; 0xdc5449bc0f4e96e; 0x1a93b0f1e298a63d; 0xa66a01c9603e3a3; 0x317124ded126fbbf; 0x32524d07487b0db4; 0x1ab017989e7735ae; 0x34a2fb5c428d8599; 0x28458a7c769decea; 0xc38efda4d51d72e; 0x146f663673125379; 0x404df3a1883310ea; 0x655d73a29a523648; 0x7421ab64b00b912e; 0x433064fef13d0d24; 0x2199ba0820001f05; 0x277055ef9761ab8b; 0x75956cf70a00849a; 0x4515adecd5b75d21; 0x423280bbd1afb9cf; 0x4db6e3e85f640b87; 0x6c464e4355ae7e03; 0x7a04b91c445c9841; 0x54f76a2bcdb274da; 0x447a36ecabcadff7; 0x540504059452bb9b; 0xa2aa082002882aa; 0x4141541045014445; 0x8aa2a888a0822a8; 0x511414114111554; 0x28888282a8a820a; 0x5115455444510110; 0xaa8a080a22288a8; 0x400155454454145];
   [0x7ab03087ccaf2c1; 0x194bd2e2dc813628; 0x29443b94ec139e25; 0xfcfada732f08b6d; 0x3290c0fa60817076; 0x531354be54baa3d9; 0x38b10814ab01026d; 0x93d163823de646c; 0x6a1073b99ee7fa08; 0x5b36697438fa25b5; 0x11a1f6ab5bae1095; 0x13ed7cd9dab3cb2f; 0x177c99abb01ad066; 0x6fa8bbf42979cae1; 0x5db1b0de56753c82; 0x1dc2c23c859160d9; 0x68baf409d3b684c2; 0x5eba58f02d196de3; 0x4ab9035604516534; 0x4cc8b497ab6239a1; 0x6c43726e04e4673; 0x5fa58f0b6d9c8402; 0x1626d2a4fcda7661; 0x51a4754c24d2e65c; 0x6a79da1cffbcfc1b; 0x676900ab45a13a8f; 0x369523d8203b309; 0x4011f2bcd634d0fa; 0x7d5f3e3cd527000; 0x3c4429609b116172; 0x598934a7db9b3f90; 0x61f8326bfb7a958f; 0x63f2a8e42e06d67e; 0x41ce3085e417ad54; 0x54e2ee5bb1c9645; 0x793dcbfba04ee993; 0x52c71973f1394ff7; 0x51282b64b12c2bf5; 0x21d2c9588d033385; 0x18916b8327600818; 0x49d10f6e79f79cca; 0x5b567aea83494980; 0x20c5302894f06a8d; 0x29f246e537b41034; 0x6a172ec73045b37f; 0x2999b607f31980e1; 0x3bef8da1a24b16f5; 0x13dbd2a840a84169; 0x2778690cd987f4b4; 0x4180cf026641df02; 0x3869fa08ed5049a8; 0x7e8177615b0f5921; 0x296c613020a38ed1; 0x7f0de4d49cf6250; 0x7def6f77121edbdc; 0x6932f408e8e4e1cd; 0xc08955c65f4f274; 0x74f66257834850b6; 0x23fd3a8edd4e7817; 0x35af373e5378e667; 0x3a53b4b1397f4739; 0x4aaec3826ea87245; 0x5139ae35839f38cb; 0x417f710e6e2e09b7; 0xfbd2736b4a167f1; 0x7fb0eb58e38d4375; 0x3bb9d0fd685e6ac1; 0x61f4bbe5e223112c; 0x56ef00c021c0bd2f; 0x2a7ec7de24034f2f; 0x10dbe8a28a38bbe9; 0x62b51cf891129312; 0x1251a6762e8fab9d; 0x3144f0adbba3c0a1; 0x51850ab947c0bcba; 0x6fbaae0aee2411a8; 0x61e45da4c55dd97b; 0x3acfea8ba1c4744f; 0x688d741ab27806fe; 0x33a15d131747a64c; 0x7c08a68d6d17d397; 0x148a80f5a62643ed; 0xdf83db390e6cadc; 0x2bba0d94baeb0dc4; 0x3e764c47a18e70f; 0x7649d4c6ee46d290; 0x72960370e579b2c3; 0x254710c5f11c66de; 0x528c9622ee43d54f; 0x2675c95da48a1822; 0x761a3a244f13fa45; 0x30231ea2a269bd50; 0x7fb3cb6fb0c5c87e; 0x3e22d4d613454992; 0x7d02b1c087e5e685; 0xa85ec313980e900; 0x1e00010666c634e1; 0x18ac7913d2881447; 0xe43eee5e9753f16; 0x2421075d73a7972f; 0x2504a9743fb847ec; 0x6a6a289045c8cf69; 0x739e891dd67c6daa; 0x2a3c6740056025fb; 0x73f205a1b8af111; 0x5b15fc767fee35dd; 0x48a82718841687d5; 0x438fd4b30d4109e; 0x35778ddf0c71a0fd; 0x51f165cfca234997; 0x1d24595c8ae0cefb; 0xbd2e5609da16265; 0x5807a21872c29507; 0xaf56d6a0f8467f0; 0x58d871639bf27b4b; 0x7af690702425ec25; 0x5bc0e2b97d65b456; 0x4e62bb40ba8874ab; 0x362d640c6cb28435; 0x783ff0394a0a6de7; 0x659e0247bcc69ad2; 0x4b2faf0695d02e45; 0x7498a9e324afaee3; 0x3d2547bc03c20caf; 0x2362ebd66bae7326; 0x14f8b4e45dd3840b; 0x23a466babc476739; 0x347abfa2e8ae6df6; 0x65ee6e550b535d0b; 0x32ee71572f2fa5ca; 0x235add099b328766; 0x21d3fb545916905; 0x4633e641057fbf52; 0x3e660ed9bb75f9c6; 0x7b07e387335a1142; 0x33c5128b3c2f2434; 0x431b0dfe15f91b6a; 0x43becc34a92a8e3c; 0x688d1ea9658815bf; 0xa9c69e0ad805259; 0x74219c88b385b8c8; 0x3503c1bfe4884a72; 0x5f2ab46749f86ee9; 0x6697baf298ee11e; 0x38c0aae87865ebc9; 0x2f7e15fcc3b137d; 0x7764ba5d8ab9514a; 0x6326c7d8eb1b15ab; 0x36fbe64c7fa9cc59; 0xd9f2591952d9490; 0x44c1af9df080237b; 0x54fc7efcf88f7dc4; 0x4f7ca558e09fdf3c; 0x363fb130284e3818; 0x77623517001d1477; 0x55d39860dc2306df; 0x6a87d3204956f163; 0x51ef96efd20338e8; 0x39bbe3165a97503f; 0x6b596eb53f142f8c; 0x6beb2ffa964c3f57; 0x39090d37cec94831; 0x5b62e97aafcb4cd3; 0x6529467914f73fcd; 0x45e68f21cc6ff493; 0x3774225b4bb2719b; 0x3e8fef9a3568c90e; 0x469c66008c9f951; 0x608a946fb890cb70; 0x1f672cea91d0b6d4; 0x1f4847855888a53c; 0x71d904d4c5174baa; 0x4c7b47b467196c05; 0x12c90e111e13b3dd; 0x143f0612b4af28c0; 0x4fd3126a41b97da0; 0x686627c3bf7f760; 0x4f4fea8a04bd442b; 0xe192e2dbb05dec6; 0x161f8b6ea142c15a; 0x5c12f745bc4fd88d; 0x3ca00c7665abc8a0; 0x14a6b3f99d9f630b; 0xcc1f45b3e12798a; 0x5f5a17ecefd2146c; 0x4f5a1f4b293936b3; 0x665cdb5b339bc118; 0x4c2fb7e534422744; 0x512af9ca9db10533; 0x1b7ee001b2f80a53; 0x1b4f500f78aa299a; 0x72362e88aacfbfc0; 0x6194a72d08e5601e; 0x41fec13896751a51; 0x3803423cba88b81c; 0x389f3735ca55f01; 0x610a43c5a64a4998; 0x3297a44bf403caa3; 0x694e3271426859d0; 0x758c8f19036921e1; 0x7fc5b47edb84302b; 0x2d8d39e1f38d6a39; 0x7d6a1b1820b49d0b; 0x7c6d82c12033fea; 0x7f8d57bacbf57b2e; 0x4c50205f3d4feb2f; 0x412974b580e39ab; 0x7e09fb4e2efc858b; 0x4259fbf2b8560c7f; 0xc0a790d59dcccb0; 0x7569201cc08e5e0a; 0x6c1318438a596ea5; 0x500d24c1a7191fed; 0x6a1a1738b571a89e; 0x5164b5d70159748e; 0xcb263916b6fe378; 0x660e342378ed4530; 0x582b3b2dffcbe662; 0x39c16b9f0259f13; 0x68ffcd19730f53cd; 0x477646c80b470a44; 0x4b2dace26ee4a487; 0x17656687e66f8156; 0x4833d3d89129b5ce; 0x15ddb4b968029b86; 0x16037fb07db826d4; 0x6f05c15bc231af50; 0x4dfbc2f9485365b7; 0x32ceba6c203c8943; 0x3147966a77196c09; 0x579e97e73e4d0353; 0x39fee4e1ecc40d2b; 0x3556224509a773c4; 0x481ec4bb72cb2416; 0x312ab1d1bb7484b0; 0x2be1486a504e5fe9; 0x6bcaf1ab0cfe63f1; 0xf29320c972ffe31; 0x3d1c4b4a350c25ba; 0x490b5187b77e74dc; 0x2d4ad5657bd3561d; 0x14fe9e557712a479; 0x63bc748c4f89f8a6; 0x432a1c332900cc3e; 0x2dfff15cf2d6951b; 0x4acc424c09100cc1; 0x4cbdd8b0f16e8a7b; 0x577fbe06555d531f; 0x5f16419179315f09; 0xefb719caf3b2c78; 0x2ada04a6a962f04; 0x397a90333230ad4f; 0x6ae92798c48b5bd; 0x5e1c22d588feef22; 0x6bba13c42ae20685; 0xa8fef94d1dfa9c0; 0x407e40f0da366e5e; 0x3f48adf07bad132; 0x2c4d059a94070bfc; 0x42c77fda9a0accb8; 0x2d7ece35b74bd348; 0x1a0eba7de0b723e7; 0xdb433dabce57a0c; 0x6a482b4e61e8a2e9; 0x7afffa4d03ad0ae3; 0x4d87553169211053; 0x5ab564085025ccfa; 0x6a8a5665aa8d4b69; 0x38918d4eb41aec8f; 0x2988d9056a14c803; 0x6efa654638e704d4; 0x2caaa25d06cc70fb; 0x513ef43355b3fcfa; 0x6d9801c391576e01; 0xa4c067dcaa27716; 0x2d30a2a1d7bed60a; 0x4c7b1bcd4d78d993; 0x3c8a75cd11775596; 0x65f27bb613051611; 0x714b6d16ffc7a33b; 0x57cc4a628f45446b; 0xe4e816524224dcb; 0x54f7455e6c406a7c; 0xed47989d90ed441; 0xd9e4b937843e550; 0x431d4f034d7089b5; 0x5d9ff3a1e07c5837; 0x6a995fba9f39e656; 0x5b0ac41a218a9c5e; 0x736f7bca3c95fbce; 0x7fd43aecc30111f0; 0x4a048884e1a9f5ab; 0x348b5e36ebc6b626; 0x5a342969ea158a4e; 0x4535f4cc13be4152; 0x340b953ecd710eb9; 0x4eb87bf25282e515; 0x681df89cea9278c1; 0x7d528bf1915b5406; 0x229826cedb967ab3; 0x53b3721d666c985; 0x1913865c395b91c3; 0x1bb6f866620e2705; 0x2b07e22a155ae79b; 0x1368c667f0a9fb9c; 0x426062653e9d8e7f; 0x70451b373cc41149; 0x8dd5d77e13b8dad; 0x5055004948130de; 0x2a8022000a8aa282; 0x1554014145515540; 0x28202aa028220828; 0x4151541000510140; 0xaa8aa2a202a0082; 0x1150505101444544; 0x222a080082aa2282; 0x404010450051515];
   [0x39c85edc6eeff847; 0x53ddc288419b3508; 0x40f553a9cb54d15b; 0x1781dba2b81a2527; 0x3d02182b6c535411; 0x545b8b2d2d2eb15a; 0x2647bbfb3fe7d7b6; 0x1cd9b0159f52c8de; 0x62641db26b5fef34; 0x1abddd4b9d2053ea; 0x2d623190dd3f58b3; 0x67e0a5635202cf18; 0x68c0fb01ab6756ec; 0x7abf60957432c0a2; 0x4e2e660a72f3db65; 0x4ae167763e1ac89a; 0x35435cffa92ae2f4; 0x5d6a2043261e5c8e; 0x40036d405dce2a27; 0x91e4524180f5086; 0x4e5dae988dc63d; 0x3f5038053c543232; 0x57e81c7362146ac2; 0x310014eb260ccc10; 0x76eb7f09b4f1b2f0; 0x1ffe085a5f4b6b1a; 0x3262a31f15243ad7; 0x18309ca868ce6505; 0x72b45cfe6924ff7; 0x74b4cc721aea9555; 0x60b4736612cb7c95; 0x754da1fdd2e9c5c5; 0x1f52cbd2b7830253; 0x5c192bf00cac33cc; 0x7fe0ebb456248942; 0x774476e7d3919bd0; 0x5db80eee1a21c5b6; 0x35f3e138ef31a95b; 0x27984c815edb8884; 0x471b28e2a4ba1e98; 0x68077ea1d9d0b37c; 0x1a3bd22a18755dc3; 0x425ad56ad0e7bba1; 0x7fa71923e0087673; 0x7a017486db5c6a58; 0x18662d5e1ef79209; 0x73a12afe689a74c8; 0x1a794c5ea7e968bd; 0x55a999cec16881d8; 0x96a29f8659c3f18; 0x3ffa0673e217b96b; 0x57732cc5ba971c3f; 0x3936adb85739b14b; 0x52e3728548eceae5; 0x30621efd03a0731c; 0x75ce6a22d09c7748; 0x13a0030c6f0c174c; 0x7e05349c7f2387be; 0x6672ebd097bbf3c1; 0x550174cea1c3715c; 0x74eb1d809ac7e109; 0x6ad13f50fd4c5126; 0x6b7bed2ac1965bb5; 0x4a8c91d4d4b00301; 0x25fac1e6d0b8f06e; 0x69f2cbb4f3381f69; 0x515143b64aa404f9; 0x6f37403bea93b9e0; 0x43d497a65344b0a2; 0x516305d45d2df910; 0x1971e6a820b4e06c; 0x5044a676f468332b; 0x4d745457f0c65ec9; 0x336de4ed0a47308e; 0x1187abbd9f7841e; 0x22c9bbad6302464a; 0x1978d4d502417d7a; 0x46675db1f31d6396; 0x5deba7e6d540d808; 0x4c239788a317ae59; 0x65b26f5633de0957; 0x31fa91b243a1ea05; 0x72efc1d7c7e03c2a; 0x4250547ed384d56; 0x3d850e5acb6ed54e; 0x11b99086068e790b; 0x15e9ebf834d5fd8a; 0x48f4b916c6613ea4; 0x29fd8fbd8a054af4; 0x674faa9155e172a3; 0x629033ccc547f080; 0x3ee999211c6d0c6a; 0x5d7a8a15b5dc480e; 0x7e52c2750973a141; 0x1d6864c21f59f2f2; 0x3a2612767884e712; 0x4c89d94bad330da0; 0x19de04ce860c032; 0x42031321174f26ab; 0x141e2ebe6aed2919; 0x4f131edf345ebf51; 0x17c37e08c524aef7; 0x50e343bf2b855d1c; 0x6e609ddaaabcc452; 0x56c7eacf71da29e6; 0x212327d7283bd704; 0x3c1b47729ed2c6f5; 0x56a632b6c0694de8; 0x4d6686ce353d66f3; 0x7363cfeeb246012b; 0x28a0be3a1291bca; 0x61fd9aa6cd2c9b83; 0x4772769c6a829e12; 0x6b3c2b22aa6f62a9; 0xb2ede5204cc5542; 0x72e8bb9cd05ad8a; 0x765261f152022e29; 0x19cb14d302d38790; 0x63fe9e01f436bb7e; 0x3cb3fae37861ddde; 0x7ebf54ca9c1e4996; 0x6ee08e4b21e5c907; 0x7ea2354bd0ff851; 0x4a68b3ae43545083; 0x465caa28adcf8b7c; 0x280059e2ce4af168; 0xedcb10656964ac8; 0x4f32a66339e95fcc; 0x71f3a7514ca13563; 0x620113e4f4eb1977; 0x4da958685d712e5b; 0x3c2898723022e3c6; 0x26b4ffb15ee3c693; 0x4c312a3817b8e139; 0x12142d599024f96f; 0x4c6d4f4d82fdc75; 0x6da7e134c630ff57; 0x168ddb828e60ad6f; 0x1bd2124f2ef4701f; 0x5ae769adfe494c19; 0x621039c910817b6; 0x5bb025dd0456606c; 0x624199ed65cdb4ce; 0x2ce9b218eaabdeaa; 0x717bc5b62fb7f50d; 0x390dfca51e3a3261; 0x5571f1b48300f773; 0x168afec6cc981828; 0xd1ba4eb6e7d835f; 0x1a13efbecfe16398; 0x3460eda2e984ff0f; 0x6b60e77b911b3f99; 0x156e259a2dfc8656; 0xd6ee5de4dd05bd3; 0x76fe8929cbf34d15; 0x40cf436dbcfa36cf; 0x2305c368e5f5940e; 0x4123ff57128c1565; 0x5bdf2b4610497ae; 0x757e8168967c1f71; 0x37ce9b701c4b198c; 0x6829b12e645aa43c; 0x344e21f7f0532671; 0x26f96ee06e05e1f9; 0x7db362cdc92c5109; 0x7244520d1998c70e; 0x158f2221d80cc016; 0x5c24ef0689fd7e0d; 0x6ff4ac0f48c1e3c6; 0x6a3aa0eaafcf685e; 0x31e1e70453976f1c; 0x272b85ee91957f9c; 0x55c2309e557579d2; 0x78eadcdc528f18bd; 0x3b96cd7ae3f19e5; 0xcfb148cb4a8c1e6; 0x5069c5f52250ab25; 0x13cbd8581716df76; 0x1f459c605e952381; 0x45ad9ac0d175c025; 0x59f2bd57180118b2; 0x476318b6103f63fa; 0x3ef18d8718a7dab7; 0x4911c2d15ee49148; 0x64b58e9774fedd24; 0x5aea185e5a8ae3ae; 0x29f721fa29dd2e3a; 0x49622c6afdf92901; 0x5cefa1c786455c0f; 0x5a0df1199c53cee1; 0x5f1be7c5752bb09f; 0x7883f41319de0c4f; 0x3de6209b3f3cbc2; 0x23ac9bd1c4b782e9; 0x1884116f06126e4e; 0x790d644bd165091d; 0x642d646610309eb0; 0x3be53bf943f8dc06; 0x25e5cf94074e32e8; 0x63e44175deb25e4a; 0x452a7e37df18ed75; 0x474bef025606035c; 0x32ad6a59395305a; 0x4eaac52bd9dcba53; 0x62996b26e4d8a69f; 0x6fd04423cc3d3c4; 0x24fb7049b991aaf6; 0x48603439abce347f; 0x61be6d9295fd561a; 0x880cca930772370; 0x1b91a9787280f4f; 0x3f3ef1f9fa375a2c; 0x6bca24471848165a; 0x2a35bb4b3df379fc; 0x67fa815d4b6a1a3a; 0x7d9817623918308f; 0x662d315d9a8e8bdc; 0x2897816ac3ff705a; 0x6d8878ab002d386b; 0x64234668cf1a1718; 0x387b53b2737a2d01; 0x4be35413041d9897; 0x31f2b680c36d73dc; 0x1570fda6ae91c81e; 0x476b8f72917aba95; 0xf78f28840c1cee6; 0x6cdc35cbe9a11ea3; 0x251e81dabdc4637e; 0x34f0d2aabe498fdb; 0x5a899dc3f2f9e92d; 0x29b322be8b07b902; 0x11a6635b77ea4ed1; 0x40e8378497328c5; 0x74978ecfdcc08a4e; 0x14da00105d0c5ac3; 0x4257d2ff53847e0; 0x47128b439218342e; 0x25d6f34992293261; 0x456eda73a6f1132f; 0x628d8c7f7375cd13; 0xf7bb4278e7fe496; 0x4139618956f5e298; 0x401dda566d62d8ff; 0xa1d0b29bccdaf38; 0x10db40a4c3f8aafc; 0x7776857643d6cd68; 0x6987890542c3ebbb; 0x36637553b89986ce; 0x679168d914d0500d; 0x1d6d9ef74a1e09f3; 0x4c8e82e3fc75b94d; 0x42d3fca1ed7f4008; 0xb29dccf14b20697; 0x3cd0414673c1bf13; 0x3c166a49a89c6ed8; 0x1a5b328072444d82; 0x547cfdc6e7c9a2e; 0x4b4477980fbdf3e1; 0x799f403a9ece83ec; 0x5da3c7fe4e3d622c; 0x4f5444f8c8beb582; 0x7ec0993dcd862d5e; 0x77252748098e9594; 0xe94b8680722452d; 0x4346f0c40882d094; 0x5dd7433e171e4a14; 0x3dfce89368d7460e; 0x54b2a73f702a500; 0x4dfabfebbb5629c8; 0x1f96bd64424110b8; 0x66d5e5b30defec7; 0x1b2b599ed24ba3e; 0x58be3d98d1a10ceb; 0x19f16513b560bba4; 0xb02af1e622580af; 0x2b432e831be00c4; 0x2a185f5109915511; 0x669ed3314b4d96e0; 0x41ac3eb5eec409ea; 0x13cf66bc919a11c3; 0x7cedb5b5c143047f; 0x214d5df50fddfc40; 0x428736330458028d; 0x661dadd6d6fd89c8; 0x478c4141759b6c74; 0x24afffaef6d8ac68; 0x35b5256c759dfb61; 0x68b99c86fe103b70; 0x6c4b26ac4e8ae631; 0x750ba9658a0070ba; 0x792e13147105c9ca; 0x2234517ed437b7d1; 0x2f4b9d1f8533ad43; 0x7d605b1dd4d788c; 0x5070ae5ec1392eda; 0x5bae13e900373368; 0x720e05d12e4a5335; 0x364c8efbae0b89d9; 0x6ab6085415c46418; 0x63e46f4817c7116d; 0x3be4b37726a0627e; 0x7353157b804202b7; 0xbf605bdbba4e12f; 0x216e7d9757030a76; 0x7bf0af1e5e72d9c7; 0x5e28ad6897dca755; 0x67ff496af7d61343; 0x5fafd0f65a301f9f; 0x44140551b5281052; 0x28220a82a0a82a80; 0x4051015555555044; 0x2202a802000080a0; 0x1414515555140044; 0x200288802a0a0882; 0x1050044154101104; 0x22802a2882a08820; 0x501400015500511];
   [0x4f2aff36ee02c049; 0xc7166dc2066baa1; 0x59eeed9daa62a163; 0x6f275c535d946400; 0x5d652333ac305e7; 0x12c582b94c033953; 0x126fbad5163a358b; 0x2899cde1bf3a36c6; 0x289bf4359f1fca6; 0x424d8ce02966a4dc; 0x3e2075e2da75d57b; 0x7daaf14b04874c5c; 0x4380c41615482de3; 0x722c42a8a4931877; 0x72e305787453a349; 0x6aecddaf4bfef0e7; 0x156c2d87063f1bf7; 0x7164aa25ae2455c5; 0x96c6a9c80c23cc; 0x1c4371a0165166c7; 0x61e052a532e9fd36; 0x751ef2ea315a596; 0x77a9f38186b41b14; 0x5754d858c56d5f4a; 0x436e4e3abc3deac2; 0x21d027d9c82ebed1; 0x2df0231461e4ab2f; 0x6a2dd8dcb065d41c; 0x747c9dfddb41e16a; 0x6b290b873a095e8c; 0x2589f7be7a83d906; 0xa142a7572b35f8a; 0x45c69bc0f6f8ddb7; 0x3e26d80e1548ff67; 0x4220a033033b9f83; 0x3a8723c33843b8c7; 0x3254df3e1e2faf98; 0x1f99b7facd7d26f6; 0x7f1b1a527c186826; 0x4f1e6af576cc1b96; 0x3fa4e76e35113f46; 0x51cbde567b05f577; 0x2e41a4481b7ee2a; 0x50eeb7a576c92c48; 0x15875b0badd75169; 0x36290b876f410ce6; 0x457d697e62ec416; 0xbd2e62b4b38df42; 0x1fc58c72c3d27bee; 0x68e59594a7d5f96e; 0x558f6753324eb9ea; 0x5467d9855e467dd0; 0x496b4dedfe9e6fa9; 0x2017542f942d678d; 0x2106ead9710d8ba8; 0x431fbf832d496722; 0xd890e0d0c43a7ec; 0x4124ed1af8bd255f; 0x570c275af020f9c6; 0x32d41113fb6c6c56; 0x6bd70e1149481992; 0x30331a4a790846c1; 0x244add37289a242e; 0x58b6b5c77da1fadb; 0x1d9931c4ad9bdad8; 0x5958620312ac56f8; 0xf25459c1a226ad; 0x872a5c7df22cd59; 0x41e0312f3f2c4ee9; 0x2b5304ab2e26922e; 0x64298cadc1374576; 0x4bc071f2c2acb9b6; 0x4ca3523ba40146b9; 0x5afc5edb2a2262dd; 0x61bd1d4380300e8a; 0x38cad210263c31bc; 0x4fd46e920262c722; 0x5c6138efdaa8654; 0x5fa0cdf02612554c; 0x2cfcfd370ee24dd9; 0x464c0da943409e3f; 0x596d7a51642c3920; 0x734081d065f6fc35; 0x55dbd7de47916646; 0x1ca33e90e2d2c88; 0x3a777081b98307c9; 0x734d7c3309bb2b37; 0x222613e80e3799db; 0x6b9b7ba79c0a325; 0x363c5f74a9a930b6; 0x5774268fbadb86f4; 0x13e9ba9979a19cd0; 0x650819567bbdf030; 0x15cfc362ca1e0c24; 0x3d772a1ea6e3a5b0; 0x77bfef97a29695a5; 0x37fb279643d98fbf; 0x2ccea5916bf8f45c; 0x18ceb913dede8192; 0x7a162f60ae68d640; 0x6b4f198f3200a763; 0x5ca39a1e030e576; 0x206a449ab6d487ec; 0x1a0422b7d0646d37; 0x695eafd8c13612fe; 0x6742b9dc7127237b; 0x7dc92dcbd0cf28a9; 0x43688261aa783288; 0x6800ef4dac4db4b; 0x40ddd3bbe3eaabf2; 0x278bed995e6c5830; 0x3f64d6be7358f0fd; 0x4a8e6ff59459ff08; 0x7c010a787e5cbe93; 0x5d28f3839d2f8b28; 0x3d0061b5c2250af0; 0x20d1d22f5603e75c; 0x29fb64fb9e22de72; 0x6318f9fa8c15bce3; 0x6650a4594215c8ca; 0xb8b974b4c487217; 0x37b06aa8df23ec7b; 0x267f403427c2427b; 0x69900e999c69b47a; 0x68b0b16fd80eab4d; 0x4016bb972bf23ea; 0x1da7ff3acc08c0b0; 0xded5eb734d7576b; 0x756ca573a52136f3; 0xa8f344a350d8d36; 0x712ef1f2154f014a; 0x453e2450aeb766f; 0x763e4272a8a6158; 0x2ec923526d3cf3d9; 0x7812fcd7098bdc0d; 0x48e6def02af2e70c; 0x784b808e324ea9dd; 0x74a24ecfc1577115; 0x105c0f38f8aec20f; 0x2a1e27a163f43b4b; 0x7e3ef98b8654d004; 0x3f6788f88badbdd6; 0x19b3602538c3d62d; 0x2b28f203cab3fc2c; 0x3df9227b6160f2cc; 0x76717b3038197f5e; 0x6097908006f7e141; 0x603744305e71b68a; 0x1e22bd11200b4ca2; 0x6f00ce1e481a5967; 0x143eadbbf95ce983; 0x7699e5c1292f9682; 0xae3578c274f8158; 0xa4843d37ade4c55; 0x3d73dc5a069dc29f; 0x5378aaaba6587c60; 0x548ff8e2c16e3e4b; 0x227a9704d5b1d790; 0x75d3b70b53750355; 0x2b6aa02e12ca2bed; 0x13429e364a49c1d7; 0x422ab530b90ccf5b; 0x1554d3fad3d5f434; 0x6eae05ec3b2244a5; 0x6f54d12b4388fb30; 0x6b725b39b0711220; 0x1eb7f27b9dd28e5c; 0x428ef932f5782e67; 0x466025c6ec1235df; 0x44c8686052668253; 0x30f2be241b308d96; 0x34db61d9246a65b; 0x27a3ca9ce89de26f; 0x2aee0631007732b6; 0x71ec10602d4ee489; 0x5ec95a20795de3d5; 0x6955fa1ad3d662c6; 0x6d6ca8ac676d04b7; 0x1e149b0a7f1cbb30; 0x13c4cb37cd57a116; 0x709e1036b332bd0d; 0x2860efa4cad80c1c; 0x77dab1655f47747f; 0x4fd9fd550241abd1; 0xf5be8b776e73c73; 0x6f5d580167de7f92; 0x336f89f97bd9fe77; 0x49adb05788a3b93a; 0x20d70ca5e53e2c9f; 0x5c77f83f7bb57588; 0x43c8f98fa3ef65e6; 0x61fe8f0c76f9d9e7; 0x4f68abb6a6fe5c31; 0x7d5790bd459000cd; 0x62601e67f261e1e0; 0x1fe07699f0fcbd0f; 0x3879e9de858b5f10; 0x5188d09d3e8eb672; 0x1639c58d57ead895; 0x38976f3f380f3533; 0x1f2741535a28e666; 0x7f2f5bc72503083; 0x57e0c3f9d40322d8; 0x24c281935c08a63c; 0x2c97c6aede3feffc; 0x7f2be3261c14055a; 0x434fa5a4027b0af2; 0x6be8f28cb4b3a95a; 0x145e65e1827e2c4a; 0x4bf1ac602421741c; 0x6778a43aa7aee3e1; 0x3f34a7c703ca03e2; 0x71071ab5c56ffff9; 0x6fa9da25e9aebac6; 0x533b18999a048f6f; 0x532318c79b524947; 0x5c093279e213b41f; 0x26294fade39bc7bb; 0x77bcf16ce0f0608d; 0x6ff21ed4e8ab17f3; 0x79491c422dee8c5f; 0x7ff2d25cf76c39aa; 0x588184869c1cdd06; 0x10af28b9dbedb9a2; 0x4baa9d67bc33ec08; 0x4b46f0f42ec0394e; 0x5d390d78ff0ff898; 0x7573ff00b1eb42e4; 0x62b50890272d9b7f; 0x4947bee0f277ecff; 0xc9813da3fafca28; 0x193807dd2ba84611; 0x1668549a5974a662; 0xb9229888aef9c9d; 0xf3f8f7570488964; 0x34103818d975b6a1; 0x3a180724104ef5fd; 0xb1afa5554bc61d8; 0x41c36f1d169881f6; 0x71b625a855dbb224; 0x618a90c5428bfb14; 0x125209a9590d1035; 0x6597394fa0884870; 0x7edf45b46f6e97bd; 0x267e7e8e40f8d0c; 0x7fe0e4bcd065085b; 0x29376626a2c6bfef; 0x40136dd1c37ebd37; 0x58819d9ad41e5b1b; 0x32a4d33631c9df40; 0x5aeaa9bef948bf9; 0x773fcd75a6a8b5de; 0x47f907dfbcf17a28; 0x143d1f19e4116d4d; 0x10fd382ceb1e8b55; 0x6a93b3cf5bf3a5df; 0x5ce6eb3ca5462cc4; 0x13ddb818f8486d4f; 0x81981d35312e7b6; 0x65a0df2158f166aa; 0x163e19df5b45a899; 0xedd7a7b2e358399; 0x21630271aafbfcd7; 0x29d655b5398e6d76; 0x57a5476555184f51; 0x221cfc0a7001fa96; 0x15d4b9564a3288f1; 0x70ab10fe7b15baa0; 0x2152e1120fee6be9; 0x7c3288f6962d1126; 0x38df7a765747c48f; 0x726839a65ac0ba03; 0x3eb5480a20e5d293; 0xa207411df2230c; 0x1f481e3bda286681; 0x6ee7e4ff87176cf; 0x384907047cdfb1ad; 0x43a642541ccd1973; 0x40a18a4d5d42f543; 0x37049945aa213cda; 0x4b016344df065f8a; 0x30366681450a5883; 0x2c70938ac65e184f; 0x2c366dca73b40094; 0x6769322bba5b51d1; 0xd25b30e7c5c8338; 0x3726a3472ffc4ea4; 0x65e1b70fe7d397d7; 0x7de939619529c93a; 0x127a4dfb16f80016; 0x3e58aea2cce2c115; 0x40ee12258ae8fdbd; 0x5fa2e562c5c699d8; 0x702cbab895fb32e9; 0x2e1b5a490f4fa819; 0x1dd933b7f8ffb2c; 0x47abd24b715799ce; 0x73044ec4e286abdf; 0xf15ef2fcc7571a2; 0x5631b98189c8a674; 0x4c6c03a5784132af; 0x3155e11a4d37e531; 0x4594f2da144a08d2; 0x7f30f8db90f9d1ef; 0x702e7746292d6b13; 0x7db0c0ce3eb0bc6c; 0x5828d91f6210dc31; 0x1d096f77f5197eea; 0x4514550138220852; 0x2222a0222022022a; 0x141511555400511; 0x2220a2a22a0000a; 0x5051450151415415; 0x22020002a8a20a20; 0x4104105414115150; 0x28a8002202a00228; 0x141104011500044];
   [0x4de0f2f51ecd5ef9; 0x552074f42424eac3; 0x2ef02b61780e6beb; 0x6eabdd7b2f18cd6a; 0x77486f3a0efc0d4b; 0x58dcd4a3aa0faf8a; 0x12ef0f283d9cad2f; 0x578334d28c8d0e28; 0x6ac1b95402d895fe; 0x589f7ec773b6fe3c; 0x37b3052a36860db4; 0x1544bb7165405361; 0x2f8e7c95d9bb14f5; 0x34ef475927540bdf; 0x2e7c8a05e507d7bc; 0x263a65b753b9f1ac; 0x51e3b73d22b85d61; 0x70ab2f3bec68b99; 0x34fdca8d1f6ddc77; 0x39af764757c40f54; 0x6c8c4dc589fb78f9; 0x44b8285ac94d03a8; 0x1e749ef35f4717c9; 0x262a3a67cbbf964; 0x1123f97ece724b4; 0x2495adaf7ebc4aad; 0x3dce3c6fe23a8440; 0x5da74776847edf82; 0x27e014641fa1bf13; 0x7824ef4c01566180; 0x7e88856d177c0f8e; 0xc3c92c3d80faacb; 0x558d2eedf03939f9; 0x2ee63577625ac5f8; 0x4fad112fec9231a3; 0x3d530c18a035cc2; 0x62bfaf3330741ec; 0x4a3855566ce8aff3; 0x41b5187ad52cd16c; 0x417d8e101c417b7d; 0x49753d4da13b4775; 0x1e9a3bd321ebe367; 0x6809c2daf07fad1a; 0x7d21173d198c982b; 0xe4efe269f6459ff; 0x278d2233b670135b; 0x47a6968b2203b56a; 0x5e7e1a180101cbe0; 0x16dd1d7a4af8ff02; 0x218ea2d36fd65501; 0x50139884d66712d9; 0x6d9d76772c45d8a; 0x27d35f3517942063; 0x2354fcac9dfeda0e; 0x3dba3a1237ba3c46; 0x8c461197db87609; 0x4d8fee701256ce83; 0x7a26acb951571f13; 0x299300db86bc1acd; 0x5de05c56ba38b133; 0xf771225d909c89e; 0x34c24fdff2fce544; 0x835a3d332d40871; 0x189af8164d37d0bd; 0x6d7b693ff76a6e09; 0x7091a318a992e713; 0x510a029b68c18701; 0x6bcc22ded2581619; 0x6ea83c066287fc51; 0x4bc606203de2fd3a; 0x41ee0659c10c6664; 0x43c658349f5466cf; 0x69a10fed08aeefcc; 0x63af674181443849; 0xd6de372bd76c6ab; 0x368c7de0ee5c2bcf; 0x5d0134bd0bdc8fb1; 0x790dd121cd15ad0e; 0x468b358b7ac6ecff; 0x553fe5d4bf6aa245; 0x2ef83bb2f2fe5c2b; 0x536a01bd9643dc3b; 0x7a0d2b3811606732; 0x5eae24146c50e674; 0x7d7b5e57c2370cf; 0x6d3f89f018ac1aea; 0x2815fe979a5b8c71; 0x4805c9d4f30938bc; 0x6c9ab805d9e5cd4f; 0x44eb7ce160dbc6cb; 0x63ac8234cb78c1ae; 0x4cf0ce35a2cf6e77; 0x701f1e1344ff82e; 0x6c0f9f654cbd287a; 0x20927f6f9012242; 0x4b1043fa43478a90; 0x1816f8b31a61ac58; 0x360633f0f9eaeb00; 0x41d054e607e2e474; 0x275e0eec8bd464b3; 0x13f7e1d026f62c52; 0x6b51a6733054e6b; 0x5f24f03e925f2fab; 0x49a67ee0ef4137f; 0x76a629bc9d955411; 0x29ca747204a87cb8; 0x508a77c5ab4b8415; 0x441a1c2724508cab; 0x5bd065f7388bd841; 0x78ffe6004dcd37fa; 0x2917697d5496df96; 0x55d391dfb2baa60e; 0x4c28608232f86730; 0x3b8913c523ba3cf4; 0xd6af317ad534a1f; 0x1f1d404ff77e7bea; 0x50c23c53e09cfae8; 0x4f21a22d537e8ad3; 0x4814b0f6f89ec6df; 0x63647c0b46891ffa; 0x78609e8fe93d7b59; 0x2c476b9b568b2ec2; 0x1c19f4983056606a; 0xae0222ea725fcb9; 0x716253e652fdb185; 0x68d84219ea83ecb1; 0x418a706c8d13b322; 0x17a93204b7866fde; 0x5e1335e38a50c220; 0x1f08c59f247909fc; 0x33c91164a0cea49c; 0x4739051b528a6a19; 0x33c1c388e1476a1; 0xdae0eff3da37aa4; 0x250d4e37c524f7e5; 0x27744106b2e8e57e; 0x7250afdeb81246d; 0x5bdaf49bd2287560; 0x612adfeb908665f7; 0x1d26c3b8377a130a; 0x73a5e634dd220c31; 0x19430e42e6f9ca8b; 0x571638e494336a03; 0x438e227fcba79ac7; 0x44e9ef5387e59482; 0x79f6e59d92a81ea6; 0x58a68caa5fb6c6cc; 0x33988fe3daa4fa33; 0x345fc66c644a38a2; 0x609d454cca77f62e; 0x4c313027c74917ad; 0x5fae3904e53687fa; 0x7da3ba055d34f6cd; 0x3660e4385fcc3703; 0x680b1fdad7842eec; 0x47409c08f9ad3b63; 0x46460cabfa111b45; 0xa325562472e1011; 0x26e71d28af14be3b; 0x2f5759481c3392ef; 0x243c04dc0e5c22b8; 0x51437032feb6bf77; 0x380096afa91d8cab; 0x6b74a1097c8a2b57; 0x6a7a2a0b60f8bb2a; 0x21529435193e2e1b; 0x718ab25491b491d3; 0x1d0799b536f2f347; 0x21fee655f4a53450; 0x7a199adae5aef440; 0x79ae933624b7bb28; 0x2e9248d25be146a6; 0x218c4d19e306cd51; 0x73e4d031523dcf55; 0x55271d567cf36188; 0xb15395b3ca53923; 0x6b652c4e69fba78b; 0x42127385f540a0bc; 0x7784d9b32d3753a5; 0x6c3fae6fadba68f1; 0x13d819a8cb7f1086; 0x5ddf8aa5927e991c; 0xdf5c55f3c87dc2a; 0x5ae72be2f44efc5d; 0x1ed2486882c666d1; 0x1664492f967d0082; 0x7e7c9e5e03d2d5d2; 0x4f4a3537699d7d2b; 0x2860c11e2888b375; 0x40f808e8aa9e894f; 0x6be6478b5626c2ff; 0x566f86eb6fa2c315; 0x692ad5a6268991c2; 0x5ab9a9e8d0e8432; 0x3a48b1fc3e2a97ad; 0x33124dfb743b0326; 0x78939c4cda4e619; 0x5b1ae9644bfa625f; 0x12ae2f414396ab6f; 0x4eb0c60244be1da8; 0xf1907b91bd0c3a3; 0x3353240b7f4b1fd3; 0x64a1a29f82a18c54; 0x1a36bc8e38737a; 0x6521a755fdd43042; 0x6ec1be4dbf7bf2b; 0x23faee0cfcea846c; 0x1d5affd2ec4cc6b0; 0x4bb7455b8e00d87; 0x6d53dd9d3d521ba8; 0x32d79d2eaef1172f; 0x10cf35a70eb4967c; 0x2c3d75c81975654f; 0xbb3889908684856; 0x2b8d02cac79fe893; 0x1e3d6d13b5c66fdd; 0x10e79e2e782483a2; 0x25be965363e353bd; 0x65c93c3e1d79de26; 0xa9a329e6629b284; 0x3182cacb2013e1da; 0x71708f485524093a; 0x3d662acb812b1513; 0x296dcf5a067b991f; 0x785e53ca4730b496; 0x596b876ddbf5601c; 0x31807f9ee6e9a39f; 0x11bca04f7245773; 0x60b7905661e85111; 0x466285ced5975522; 0x49a50c56e35b1c6e; 0x1e489b6935e7549f; 0x3eb69734f5d2ac1; 0x56c1202e2e3862fc; 0x25308633d7b76552; 0x7d47541e0c064afb; 0x801f7c9b78d7619; 0x160160754f95994e; 0x3e802eabf9e79390; 0x37350f771efa1da6; 0xa11c1fb52db5eb7; 0x55b0795ae8e32f48; 0x5c9b05773c836d40; 0x53c204d238214cf5; 0xd5c81a1b3c044c1; 0x4db7566de4f96145; 0x373f4f05c5b05ec2; 0x703fc202787071f3; 0x92df0636573e62c; 0x580af8c790e5afc6; 0x3d9d1245bed2867d; 0x5b98d68515f0e996; 0x59cb090f2e62e806; 0x3f6b668e02284a20; 0x63f20c85a3d1ce6; 0x16dc26fc63da087f; 0x38fe8fb7c6cdf8d5; 0x476eb94b67987154; 0x72530bc96dff9152; 0x63e19d578bfe3bd0; 0x6d1bf0592fd0f473; 0xe59ef22ae1c4b89; 0x4b6d59fb3e0eb0d; 0x7d4d2e41d85b0f62; 0x3c91fa9c239ba0c6; 0x5e9589b2362bcf9f; 0x1a9199a6c815ec99; 0x366d08496cc158b8; 0xa724b274cd9c9a8; 0x738754edf2acd971; 0x619403261ec13a21; 0x2f54db3f92de7ba1; 0x55bd69f4bceafcda; 0x5ae248ba8720f73a; 0x7fde8ef88b692c76; 0x6b772352eb5523b5; 0x418e0bd913e7206b; 0x64b17b99c26c7bbc; 0x10cb098ddfe2b25; 0x77061f2673e97676; 0x61ea71e11e424077; 0x59f8e16ae2fc1ed7; 0x12b7cab2666237f; 0x79a5b10a56f85723; 0x3088e2c7cbe28fbe; 0x64aa6532225cefc1; 0x34329bc8a8d3c41f; 0xeb7658c4fed528b; 0x6ff64d7f416492e3; 0x4bf638d58f784794; 0x458314197563aa0b; 0x57931194821915fb; 0x87a291cd7c2054; 0x6b0ec87b87516ad8; 0x5eec5fe7d5a12bdb; 0x58993f0345307bc4; 0x4a1c884ac16cb4e8; 0xf30e652d78c88cd; 0x58ecb490fb259746; 0x77614b4c6f68a494; 0x175e6ed908aee2c8; 0x324b28be55cac982; 0x38f2b1be2e07ce9; 0x48cb7836fe125484; 0x292d10239d33d01a; 0x47a08fa5a6f62078; 0xde6f64923f55bde; 0x5123c043d335e58c; 0x4544005901e10e; 0x22202a28a2a00a20; 0x4515510150015015; 0xa82022a882a2208; 0x144550441440001; 0xa2222a022a2a8a0; 0x5400004541150401; 0x228a02a8a0a80288; 0x40050055101004];
   [0x48fc4788d3fb862c; 0xe8225d9a46c8ff6; 0x4384446b17b72755; 0x486fbc59de9cce6f; 0x2b31785f3002db8f; 0x31d0cbcce989c08a; 0x962c07892d854f3; 0x1169d7c8cf05e19a; 0x4ec84675ef1b1ead; 0x398c782efca1eead; 0x391affd1578c5e27; 0x25f10771e1a08c4e; 0x7e5952ff35787761; 0x22f788ebd3093e05; 0x2e24e56a7229b439; 0x25dfce170fc8523d; 0x4a1b485c1680a84d; 0xbc45cf4322daf06; 0x4a76216a2fde6e10; 0x1a63aa417a3fb70; 0x5012ece3eb072966; 0x254fd4b70eb900e1; 0x777d68f01db2622a; 0x10b72def5dd2f114; 0x20f92f7f66e658e0; 0x6aed5529c2296b89; 0x35eaba2a91fb2dae; 0x6a1cdc2e0deb6a04; 0x2aabf723e812586; 0xbbb631339c8da67; 0x383f7a177d157a24; 0x258e54cad61eeda2; 0x31b14d6ee23a5c16; 0x2323ae4226d47604; 0x3ba7f398023a0b53; 0x1366a678f5b975e8; 0x4c71d5eda1646f1c; 0x5204113ba6b2ab68; 0x7efe4266917bab2d; 0x582edf6181da932b; 0x594f621cb1f399b0; 0x64cd01fcec22b422; 0x346d18566ea070f9; 0x54855638b676f87c; 0x2c1922109498ddd6; 0x6f5446f24e70ee75; 0x17c48c53b0d8b4a7; 0x370ed08393136fc0; 0x25e255830ad510b6; 0x743d39cfdcc65855; 0x64ee01f37c17dddf; 0x65f9c3c034deb9e; 0x6b8f17518b10ba50; 0x1d6ab38bfa5688dd; 0x2dd7ca75824dfda8; 0x2b4b09118357658; 0x1c7ee9279a866b12; 0x50f9fbbd1371127d; 0x511e38438b7689c9; 0x4916132c1628b48; 0x3c6977a2d33c0829; 0x4a56ccc3556e1e16; 0x4e11569c47c6adde; 0x75f6d67311d7f440; 0xdc85669982554c1; 0x41d1d5e1289903b3; 0x27677164dd57ae57; 0x2f1dcace89626f4e; 0x2af4034f2ed2430d; 0x68abadc37327e1a5; 0x22673f822cc36998; 0x78035dcf89d5cc7d; 0x6af28c7fa4ff5faa; 0x26bbf215438c195e; 0x4b9c65ff6a1956b0; 0x7b3c1b086f6bb6db; 0x5f0f9aaecb3db3d2; 0x29694c9097ccbb0e; 0x60b7a0b1460f1fc4; 0x33f7b0c24eb0e43e; 0x8549e3154192822; 0x1309e0ec85bbc4a6; 0x43f4de422b761382; 0x30de853b73e1b1f8; 0x6476b37defb0dca1; 0xacb2d8b21483b1f; 0x70583511fbeb50c5; 0x60428aa54bbdd355; 0x3df779c3e9f3f10; 0x6c2ec8ae6642bc61; 0x164f2f4f28835d39; 0x520a2bfe8024c62b; 0x18c556ca415b7075; 0x1f4d9ed845b70bd2; 0x797e5840bfe21fb9; 0x41a962b5520f7ad1; 0x2c8943a2c7fee1f8; 0x71b349bfae33b6ab; 0x9f61b75a28cb56b; 0x1cc608f234be3005; 0x2cb41be0cc041ba6; 0x19e0876fa52feae2; 0x5304fc7e31e0db26; 0x5cf08b7dc2717acf; 0x21458574a39961e6; 0x401a3699d79bd24d; 0x56d7c2e1194cb67e; 0x1e207c3c11d830f5; 0x6ba7d0b9373c1028; 0x7b7d76775ac94579; 0x2ffa766dc406bb3d; 0x554c43b874c7011b; 0x6564dc7d0310ad90; 0x402ff66f5105cce1; 0x6c5378c869033ae; 0x5df937de3831d737; 0x5915ffc379125293; 0x79d3dc4a20fb9d9e; 0x54e65851f8c2010d; 0x12dd88c5d69a9e96; 0xf2b715ad19cc2e4; 0xb44752d9a22c6ff; 0x27f33785f9d854af; 0x773ea5601cfe27fa; 0x7fc9d4ec47580d70; 0x15eeef525aeacd6a; 0x52e4a04054426582; 0x6259f044e4c788ed; 0x36c27c6e851b0d53; 0x63b2d312cfd980f9; 0x52b6bc2d1bced5d7; 0x47a3e3078840fa0c; 0x429a754ab6756338; 0x5d42723ba289e06e; 0x7da913c4cd02190d; 0x1d443b0c6f44f798; 0x28edcfa7c3dd0f8b; 0x406a0789b455048c; 0x499cbdcbe8aba8c7; 0x6aca3e73698dcb2; 0x3246ccea454267d6; 0x77274637cfcd617e; 0x7574bd08b0c7a2dc; 0x3b90b6215ab2b5; 0x52fb775e52385608; 0x381b2d90f8d2a1b5; 0x2e7726ac35b35a04; 0x60fe3b0ff20a7495; 0x6b26d338cd6930ef; 0x6ca31fe836f309b3; 0x1bd9d5ddfd1b09; 0xe90ed5b6499edb9; 0x202e4a572bb7ce5e; 0x6bd6412e31f72a3e; 0x182b55a334a48cf0; 0x3905e7fe2ee3eb09; 0x5f6d8bfe8e71e341; 0x62fe11bed8b41a41; 0x4556b15b3e810e2; 0x5866354e095a3329; 0x2e0264e3ac3b0933; 0xc1957876fd8fadc; 0x1db03729a486f8e0; 0x3900b2dc34eb4041; 0x4cc7cae4338f744f; 0x6242ff9e3c777ce1; 0x790ed015934eea7c; 0x662b6082babb0527; 0x471cc02a2cbf25c9; 0x25e5d278bfd46256; 0x3ac8f27a548bd6b1; 0x280a9751729057d0; 0x5ba0171bdd008ab3; 0x170d91cdc41e65f9; 0x5ede4bca40f8b271; 0x20d3bd3fb27d4b8a; 0x3cf9f342a399e5bc; 0x1fc491aa5963042a; 0x4b7af96c4cf17c66; 0x383e03ca0dfb802e; 0x566ff6a759a6e6ec; 0x536e7e3ed4b39088; 0x189fe0015e2aab4f; 0x20c4c43fde2d1402; 0x7027c9733ffbeae4; 0x5fc1059ff9147577; 0x24cad75de9a99fd7; 0x2fbec6945251ef4f; 0x1b27d592ea9d76ac; 0x248819882c65d03; 0x2c1d83ca916eb6d6; 0x6898d66109d83dec; 0x7c983cc0ce343844; 0x19277f9305746b93; 0x6a4adbcbf1fbf349; 0x2ee5b039762b3b27; 0x242c37eaf4d00bdc; 0x759045c526951ed2; 0x6e233bccee0be858; 0xc8ddf819ea270d2; 0x291e9e1b73e5af46; 0x4a23f425f122dc1f; 0x2cb7baa4169f5ebc; 0x2d80e03c1a0986e; 0x84d90968e45ad; 0x69f948fbf1439ac2; 0x6deeb2db77bc5a99; 0x7503de7a7afc18e7; 0x5cdcd01404ace5eb; 0xcc1dfa226d0f7c9; 0x7696ed8d83078235; 0x7a007e3c80517a2e; 0xdd2213d1cd10bc7; 0x6fb9d3170bb193bb; 0x7b425cf97ba76951; 0x2b81177d41452399; 0x72729849ffcaa91; 0x78d279c05f7afadf; 0x3d40a808408bed49; 0x305ea0ab5b15401d; 0x4e9f12425866e96f; 0x38cf79a3fbfe5b9b; 0x51d115f77e76ec24; 0x6aa7e79230aedfcd; 0x1ba3c05416cad8f2; 0x23f90dff46d230d5; 0xe3be1c5f5f679cc; 0x594c1809f30a9f6e; 0x2a3a3d7d05fca01a; 0x4ede82d8c4a244b7; 0x671028cf347ee12a; 0x3c680170ce1deb2e; 0x7e2095cf7666deb1; 0x246998cbb48188e7; 0x6e850124252154b1; 0x62f1adc99f086764; 0x2593f3a02ca67613; 0x14f449810aea997f; 0x271400fbc3cfe9e5; 0x5116072ab5743435; 0x49eded5605857526; 0x681e4ae4a6ffbfd5; 0x8a29a8332ac867; 0x3365f3cba4ef6562; 0xb5992b7c49a0ea3; 0x49991ce6ce4792e; 0x2eaae674ae7e1303; 0x75d70979b409de8c; 0x3b8cd7ac0a2bef17; 0x5121f67df969962f; 0x2baa3b70d327c2d8; 0x29b2061a586378ed; 0x283db1da425eb982; 0x12b685a9e629aeb1; 0x722e13ebe7231035; 0x5942195de7df9918; 0x4c23459c82668886; 0x72eb82a52981aea3; 0x1fd904739bb390f0; 0x3a033a3324a90300; 0x4271c02e45bfe23f; 0x72b7266120b8392b; 0x1344d470f3b38e50; 0x3fbbdcad5742220e; 0x54da52f28672d7d6; 0x4ac68916dd388019; 0x636c23d9a490bf32; 0xc3a9b016cc4a1df; 0x4e02737638f9e6c9; 0x493897738715bb34; 0x7de4d5bc90b51b7f; 0x570fd9f8a96b500; 0x5c35835ace6b09b; 0x68bde555d9429bcb; 0x44c85e882eed6716; 0x5d59fec35a7de203; 0x3cbd7ac571d0991d; 0x5a5f6e2bf16b1d0d; 0x69492dfca156f76; 0x1f39a0ed4f9ba117; 0x345abb6865110bde; 0x1e031fd8f3bbb45d; 0x2116dee93f0193c1; 0x5e5f8813454050c6; 0x4335100d0ac3d5f7; 0x3846191b19cd8f47; 0x7e521f950091390c; 0x6d0ed265ff4c40c6; 0x22e0d3f8ef8df7d; 0x238cff33b967de5b; 0x82b2572ecefe8cc; 0x2a4a6dc72e0a4ad1; 0x7a6ae232deb35293; 0x48194e1c2b9f1bdd; 0x412102d7f420e011; 0xeffa65d227e9c35; 0x5d3ea370c4d8c2a9; 0xcc6abef8a4c54d; 0x1b4a160c87e7c16b; 0x315a3be396f46744; 0x1e73213d33291fb6; 0x59567ba277cd2369; 0x7c1e94a0a27ed2a4; 0x14afb39a4338176c; 0x5f9f029af0bb93f0; 0x2a101ef7ee1b7f39; 0x1901ce38b6054b63; 0x46445825da3c63ea; 0x4541005a341b1d5; 0x202a2280a82200; 0x5541440050001005; 0x22220a0820a22828; 0x4510550550011445; 0x280288a88a000a8; 0x4415441441054045; 0x2a0802aa0802208; 0x510050404441400];
   [0x6caef68dbbec4c7; 0x283aefa784b1993d; 0x374a7f3395f2b7d5; 0x265be3ba4145cf93; 0x3a630479b4b21d7e; 0x7076bb07037d13b; 0x42e9810039eaf32e; 0x5d5964b562f6865; 0x209b6569c9d2b724; 0x45ff5b3b9dd6933d; 0x9d9e875ad9036ce; 0x6ffdf51110d2c640; 0x7dffb857bfa36dd; 0x5310c5139263f395; 0x47c61e9885bd0f1b; 0x705a43e4dbb2db49; 0xd3e07e58703996b; 0x1adcb26e9ae322c8; 0x502014fa94180313; 0x5f5d6b2bb14d4f5c; 0x7f8de1791c2a3059; 0x69824bf7b4491a05; 0x781506b5ad4f79a7; 0x76a6fdc316ce1a37; 0x38cdc3d48e4ab3fd; 0x442e5b694c7c0b3e; 0x372504f7134df466; 0x4ed21ac59cffd916; 0x6e2c6621bcb9220c; 0x72886b75f0b142ab; 0x3ecb4a99bb403696; 0x59c7de3da985c7f3; 0x7252eee4750f6d24; 0x69e127c5176455d7; 0x2db04e68cf29d11c; 0x414a855338218dad; 0x232591c52e158e1b; 0x7c7cf90138a9896; 0x4bcac594f82c36bd; 0x3cebe9f8a61aa3a6; 0x5f2befeeecd4997f; 0x740a0475ed0e29db; 0x4cf3f573fc5726ec; 0x709db144d502cc54; 0x7f6ba0d7bea23f76; 0x54770b190036e4e1; 0x6b64e8bae91973c; 0x43101e4653e526a2; 0x1eb7596affed6ffe; 0x14d5194073af01d6; 0x5793bd0f6db79ec6; 0x6a24f13dcde56f8; 0x14eef8979ed0d9ce; 0x68a3cfd75a907843; 0x7bb83b815208f1cf; 0x26e3eec27fb6b60b; 0x1f53656da62c64d1; 0x7d7c69fe3675a8d3; 0x4834b692ec70bcaf; 0x1af8ca393d4b590a; 0xb8aa9a5ae260033; 0x41fa241580b92280; 0x3b144b5ed72a37a0; 0x7b5ed174c0a2831a; 0xd682c0a64f0c242; 0x5bbda762f38a40b7; 0x3fa4e8fb22809a15; 0x1e77fdde6ac70e30; 0x340a2a52cb705b46; 0x21f014c3e0bbbbfc; 0x7bac6b567ad5c8c1; 0x77dd4adb84f08ff9; 0x6727e3db0b33ce9a; 0x558ab53009447a41; 0x462c5826a04a08d; 0x712e930aae614ace; 0x2e929f3f4fd4d79d; 0x36ec3d126661ccdf; 0x34f89f136d429eaf; 0x97e9807c5d96116; 0x62c7f1b6ad38f1fc; 0x7fcda484006319ae; 0x50040d3cff6f0a29; 0x1bb93cffd98fa801; 0x43cc1cd16d93a2a8; 0x2be478efa002ed50; 0x5eb3ee0e8474981c; 0x121c5c76dbeceb14; 0x188e64e7e110611e; 0x322a24f10a93dee1; 0x5edd16a880268e1a; 0xc77db268a59e22d; 0x7f5b24ca128ec891; 0x3ab0725c0872703c; 0x7f082fab14a9ec79; 0x100f06913247f576; 0x7748fb0ae2c90568; 0x69e1351e7bed5098; 0x5e877b4f865ed6d8; 0x5e1f076a11358f97; 0x77668286c51ddb92; 0x1415a40fa2590c5c; 0x6351d9fdf46f1601; 0x1f9084871c4672be; 0x64975b3bea5afc36; 0x11db34d8a139df55; 0x421ef6f0a1d6f4c5; 0x653813de6771121d; 0x370218b7230dbd9b; 0xfcddca175665b73; 0x39366d9243a0c332; 0x324b8aee975d7624; 0x3591f4adecde8572; 0x74eefbbf90fc2351; 0x364af20aa25823ca; 0x7258322dccfc8748; 0x2582acd96d2fc070; 0x79d1bb8d1aa1eac9; 0x54b39532acd191a4; 0x4a59a7c74b3a5f06; 0x3ccec528bbf0becd; 0x6f5a306224832827; 0x6ae3b61f2daf312c; 0x7a46ec91bbaecb39; 0x3cb8894b55348e45; 0x121dae0147c4017b; 0x1cb42675e5dd5d4b; 0x29b7d2e5e5fb6de6; 0x1a133fb4ceb09e48; 0x6ea7e4399d1f0c76; 0x9a48496c6d43852; 0x253b793b250e0668; 0x71b6d4c85e4d61a2; 0x1c768224e211101; 0xa5808dd2cd1a122; 0xc5881849c07411d; 0x36a134f8e18654f1; 0x3203adbe5c1b1f52; 0x61bc0a3b54c8df2b; 0x43276de8dee4f824; 0x5e39d295bfb37a9b; 0x137a5519f58c178b; 0x4e62d45e9dae5607; 0x1ad2948febb55a17; 0x6ce7f74560cfadbc; 0x50a18f168ad5e46c; 0x354c3f2bedb38838; 0xee6ada1723ea3c8; 0x243ebe8d793db5c5; 0x1139ced766f6e79b; 0x26629401297b2d49; 0x3b159163119acc40; 0x12bd3e983a46ec47; 0x1a0e86c6ead1e1bb; 0x54ef545fb42cb2f; 0x61fc24f82b94d56f; 0x5b5ed5390959a7f7; 0x6a2a28dba7611107; 0x5863cd5d33ed8ac8; 0x2c435968d14c450c; 0x4171b94cc57ff9f4; 0x441319bf0ae9e8a1; 0x129a55eca3030833; 0x2603a6321fa4c8c8; 0x3bc30b2ec0248438; 0x224d4d3df8c288be; 0x113cb36415537d12; 0x5be2c8d6b3a7a34e; 0x190cfccdfebd3826; 0x50d9703759ee5d6; 0x172bb2f420585ef7; 0x2299b1d46f6bca42; 0x7ad01c4dc02f2d0d; 0x54a4a5a664512f16; 0x5120775c4fe4fbfe; 0x2970742c1436197b; 0x54510f43755f907; 0x1eac720c376d9ba7; 0x52147c74431d25a3; 0x147c33cee4f92b31; 0x3ee083ee52b8638b; 0x5cb0595a51703c47; 0x39bedd73e5ced0bc; 0x4e04870188f4c083; 0x405d1a30d482727b; 0x46e0586d012eede4; 0x475a819c61c7df70; 0x3a8f7db5d72911c5; 0x289793115bb5f8e8; 0x7f4cd933cd3b597a; 0x1b865eaadbc2fe8e; 0x3578a219da0bb755; 0x4e077ee51ff750bc; 0x789f74299bde390; 0x7896186c97088192; 0x32b8c2fd4e6c82a9; 0x66011e89eebf2e8d; 0x6853ea7436ad4187; 0x2da42c8f46cdf1b4; 0x3e85ea2a0572f450; 0x799c0b335463c48a; 0x7af487b25ab362d; 0x5b1da3235a4fa4c6; 0x617b2f93f743fbda; 0xed41d734ed27044; 0x5b371c14f968234; 0x39fccb7322071c78; 0x3c2b4faa414d8528; 0x47beb7446d10427f; 0xb42f896f2ca3350; 0x180e794697136d88; 0x29220e97a4003d7a; 0xdfff83854991c60; 0x6949e69bfd3bdd8c; 0x5416d1c190ecfbc5; 0x13741eb977327107; 0x3a0f6349f6fa4acc; 0x69548f07b919a8cd; 0x78adcb1a77dcfda9; 0x429e2dcf61abb8fa; 0x74acee977c9a8999; 0x7e862e84c75e3002; 0x17ff459d2f2f03ae; 0x4232dd4997393866; 0x6c52cbf5c281699d; 0x39e7f63f3e16c989; 0x680ba25d4134f256; 0x301f9dc53361a21d; 0x69ddfcc0d6b25a63; 0x51fb3273517f7c89; 0x50dc94d0eea87191; 0x2716fee76435dd4e; 0x38de706faa5c3ddd; 0x76540c87ee089786; 0xf51b0a84d76d24f; 0x7878759bc801eb10; 0x2ee768d6f7c12a04; 0x3910dfab18ed09c6; 0x7f6442237ff14d9d; 0x3b4332fc71884afe; 0x2ec115778bb6c05c; 0x63c8ca1c45e1f95; 0x186a29b4180a0681; 0x4b48f72bfd1cf9b7; 0x74bc21f43f5de0ee; 0x16b13f72189b7e0d; 0x132386d4090fcbfb; 0x60852baf4f31718; 0x3dec462261b43188; 0xc4cf37eabd011c7; 0x8f9d7de5de44f42; 0x3a8c19b4519e1d7d; 0x3c04f2aaba0d7edb; 0x5b85cb747ad0be56; 0x16fafdec800d007b; 0x49bf4f900ea053eb; 0x51a147fb63ce0ae6; 0x2c1a93c325f4b4f4; 0x4bd0f7be95ce0e3; 0x1ed0585ab322120; 0x3388d95c5e1f778d; 0x2da1e152f50134db; 0x1374b51f1127e6ea; 0xb8570778c3fbce9; 0x4d599bc9f859bf39; 0x49de09f41da5615d; 0x444d07928e46ac9c; 0x44af5a10806ebb34; 0x3d170243ca9d0dff; 0x3811989df8fcbb2a; 0x4db08285fe0c4b73; 0x3898b375a272267c; 0x790b6330d8f2c49a; 0x2d012083bf8d4722; 0x5ab526cc0cd82a96; 0x65525c844d5ced27; 0x77b37ae6c7a274c7; 0x695d8a287aa5159b; 0x6a368f27685d06de; 0x592688fe72af558d; 0x582bd757cf5b0587; 0x5281f761f1babcbb; 0x768480606fcd0862; 0x1e747cd6bc347ee7; 0x2e2f54d68a513d9d; 0xda8d4dba7ccbd53; 0xd73f07caf41e92e; 0x79161457a7b4c6e9; 0x53168fa2b124deef; 0x6fdd4e4495714c98; 0x4b1f0a52dadc59e3; 0x73ff37e97d4baf44; 0x1449c4788d6c69b0; 0x35e00711d258a7ca; 0x141c28e6a0871e20; 0x7838724fbc0f62d7; 0x5daed542b6d3f5fa; 0x486e42859c9ebd31; 0x66af5bee8d01ddb0; 0x1f31d20e789101b0; 0x4fb330309a5fb8b2; 0x36511097fc59308; 0x43589b1afd8568d2; 0x4b2e13d4d66e210d; 0x7a0104e1ad5d945e; 0x4af9b5e1e18ba39; 0x744085800e505e17; 0x2672afa8c3dabc5f; 0x41504451f7a6453d; 0xa02a228082220a8; 0x1404141410415151; 0x282a2aaaa8a80022; 0x1105441140544501; 0x82000808a02aaa8; 0x4511041500441045; 0x2008288220828a2; 0x515100140455101];
   [0x10b4a9d30bc0e037; 0x5c197072f503c741; 0x3df83ea7cdd49c5d; 0x7f0f8645e8fe1072; 0x3b3a4041a3968074; 0x1065af19e9233a9b; 0xa0d70879bdf574c; 0x797f1a0659ba3cd2; 0x6f4a482e6a65a; 0x745f2146719cc87d; 0x61faeda47987c358; 0x2c4f38f561428f94; 0x2d64b3aa4ac84cdb; 0x751777c6671ee061; 0x555e64554132293f; 0xbf00f3864efaf62; 0x7255e3f3d06c5881; 0x2702460fd1085e03; 0x52ddfefba0e575f6; 0x4d56264d7ecfaa7b; 0x3637b1db2672187c; 0x28f35ba2d326299e; 0xb0f2b84c16ff51c; 0x11cbde163ae4bbe8; 0x7f1f57670e2e0c13; 0x73f8cdbcb6ba0fae; 0x5df24fc895712d93; 0x1a0536ce35ff01c7; 0x4dde9c0114575d8d; 0x52384b0775539a4d; 0x6d3705499174e1a8; 0x3f41070ab8fefe77; 0x7783318fc2f5cb82; 0x2d324d15a720f7f; 0xf5a7b16359ccb03; 0x3c9b84f6525315f0; 0x6c692bc8971bd659; 0x317f74b13726ab82; 0x7bfc5709b5d773cf; 0x55e089fd4311d6e3; 0x851c1707ceee0e8; 0x5f6eba2078af1f88; 0x59b982835021bd00; 0x195380ab6160b36f; 0x827f59b25b3e535; 0x7e2d459660175c65; 0x1b3186de9a7a7913; 0x42a53274f013654; 0x2694a7eff1254a7f; 0x79d37f08f9502714; 0x61c8f9a9bb3f6a36; 0x3ec1fdc5e424859d; 0xe37be7ee9cc7ba; 0x79d700c5fcd68aec; 0x10e2b65bedbb024e; 0x4e0410184c4d29e6; 0x37786e69d653288c; 0x41f3104c9a36bed3; 0xb75a6af2d043312; 0x4e99f0e39801ec9e; 0x32fdafc3da8d128f; 0xb5f19676b7e6a6c; 0x7b3149ca570c6daf; 0x5bd8731ffc215f9; 0x443ee68bac64ca43; 0x3c23a6832d665840; 0x1a7a1ea226c741f; 0x6cc956d2cb4a6ed1; 0x7b38da03af325ede; 0x11a124acd1a28e4c; 0x33f05fe09d2d226f; 0x26a0f5394529314a; 0x3e8c47bc95232f19; 0x237bf10090b129f; 0x6ae70585a757e69a; 0x56e586f0828baa53; 0x47c113c2c2ca3db5; 0x5c0aaaca4ce10b0d; 0x53265ef6663f2528; 0x37bd2f1ea553e23c; 0x2461def481e85fd9; 0x105e3c096d0d5afa; 0x24d317e94b700a5a; 0x61f484c48ce28fbd; 0x26163ae037270ad5; 0x7dfad382a7c1548; 0x544d31b9a433416c; 0x6e817c9ee5c7d484; 0x52d443ec52cd9f8a; 0x7cfcb27fd6e92d2b; 0x3c729363b677aff4; 0x409ed2675eeb963f; 0x7a5fc1dd2eaec725; 0xd3923c2f13132da; 0x7e357fb5a9019e29; 0x1e7a797b1eed4552; 0x77dc44bbb0c9e2ed; 0x47b48c7a718a0e08; 0x6ae0388833fb120d; 0x480107b725d4a720; 0x3c63d93b94314361; 0x7699456b97485160; 0x31d8ac25dc7adaf8; 0x4a568ddc4cc3db50; 0x176c45cdc598aa40; 0x6a0477536891ea22; 0x2914e688b947a9ef; 0x148420fb88add303; 0x6026b27f920540ef; 0x2dee5498b8f75c13; 0x52f02bf9de58d707; 0x4e3c27b0e156e2f0; 0xec96123a6a5d071; 0x19dae7f9afcd66f1; 0x155754813be9f671; 0x4c5c74be5d64ad50; 0x7cbf4d2961ba1bc3; 0x4c24ddedf4faa05c; 0x5d825b641b2e892d; 0x69e2fe8e6db9b82d; 0x136080949282dc4e; 0x398d0c7b4fb28793; 0x52222f35b1b35b1f; 0x6833a25aacebe79c; 0x2c44c2dee19b9705; 0x2547a8de83949f36; 0x48828e158bf11345; 0xfcdde77a9694407; 0x6b449313f005be76; 0x1a4206239e48f771; 0x2a117dae9d0ea039; 0x11d38c8bff44fce6; 0x3fad2b3ef4a6333; 0x5d8d004c0942eaf5; 0x362c5259a8545c0a; 0x5e58648be0787c98; 0x7dbe10308e1c6020; 0xfe3d837d1d9ef93; 0x1beeb4dcb7aa804a; 0x791ad71dc166893a; 0x68094d56eb70e2cb; 0x5cbf875db34eabb3; 0x750581b426cea220; 0x2ddb378dd907a7ba; 0x5d1d642100a518de; 0x5c77983e51d42565; 0x2070af2de9fd06b7; 0x1a3afb7601e154; 0x6503587f7047cbcb; 0x4dcfe6800fc62b0b; 0x22fad0fc640f3222; 0x153df396ec27ca64; 0x11d86a5ea0732632; 0x6cad90de2b0bbdea; 0x5b0507d553c25c3b; 0x1ecd4ae43653c135; 0x2302142f2f4f0475; 0x1274200cb9e6ac84; 0x345cc26a2aeb38ab; 0x4a2af02ba00434b; 0x1ec6bc6285791b09; 0x1c192908f5a0fc41; 0x31eccd01ece56447; 0x24e24d630ae5dd93; 0x32d18eef432b13c7; 0x321a79a4d5c0d3a6; 0x1e466be660a04608; 0xd63cde2ecf047da; 0x15c6299ae77361de; 0x5627da5a5627390c; 0x44da6850e451863c; 0x19a97033e2a2c469; 0x59c73fe249b16875; 0x44f5f6d906fec51e; 0x5277f53a55e226cb; 0x13f4c5b6b1f069b5; 0x102028cb2d8182e3; 0x59776edfc697a4ae; 0x77819f8336061282; 0x15aeb0facb8ed43f; 0x7413398d0a96d254; 0x5f9939b36fff847a; 0x47b1d20ff4d815b8; 0x2bfa8780e9cab165; 0x5a51e91a102f68e2; 0x5c630261e5d3733a; 0x41e9bb302c03590f; 0x5a1939cfce27af61; 0x42bac7566db3888; 0x58c83a4c11a0cd53; 0x4d6f5e4f6696e60f; 0x28a38a2a1963270d; 0x3e982dce0bf09d9a; 0x2fb595fd1cd10e60; 0x6a385a781346851d; 0x2ecc355d759eb8c4; 0xc968d23a422f5f8; 0xa23f771ccbe7db1; 0x38be34c0b2d03e8a; 0x4e121d9574e63677; 0x7796e50c601a1cb3; 0x312a99b55b669c36; 0x7138df9762a2bd8f; 0x3777858cc68ca83e; 0x5671ef98913c673b; 0x489b31a3165c4d36; 0x61e8d762cb57438e; 0x112576ee744d0f58; 0x338822304c16ccce; 0x5b6a7ad7bc7cbe49; 0x1a30d95a67a44778; 0x3fc2cd605753b14; 0x6e4bd6a0f5582e13; 0x63783f9b6c804abc; 0x4c85210a5e847b6c; 0x37f032c0614a3b96; 0x79f739915de504ff; 0x28d554729f7d4e3; 0x357fc79caf20403d; 0x1c5a16bd0801a74e; 0x219d336c77f9f9b4; 0x4c16998f849b8d92; 0x18b723b28aba12ed; 0x97a1958c7a1a737; 0x6524416fb9ae769a; 0x4d0dbe2829072a0b; 0x3913571770747db3; 0x32b675eb425e5594; 0x53f5aa9c1faf8656; 0x24fa2590eacfcbf5; 0x5d4bca551da5e8f; 0x1342ada2182c81f7; 0x4cba4efb590a3905; 0x3d36ea6fcee9db55; 0x328c4657cc1b7f14; 0x38f3f5afb528a811; 0x9f56bb94e169003; 0x134663b0f3b93bef; 0x2c31cf24ca0c98c6; 0x742f1edfbd0b0b62; 0x1ce498dd927b5213; 0x5ae8f51a94ed08e6; 0x53d4c9bbc566fae8; 0x36fc82c553110d25; 0x7c875fe742dcb792; 0x6a07b377e0f26bcf; 0x2fa46b9e0f46fa56; 0xe5ee32bb298ec25; 0x6fe1191b2b8a9dde; 0x2d2cd84dfcb7b2f2; 0x4521360596a8453; 0x4d39ec93e490e59a; 0x1b1d5f9aba1e232f; 0x56a57a8de627c8f0; 0x77392095224e76ff; 0x6fb451e2a4b4765; 0x1d18fcfb76678b37; 0x9aef60c1e244b84; 0x22cb507bd9bdca79; 0x19561896ee0bce05; 0x67acdb49848953ea; 0x14094224c159372a; 0x60ef089d1b899468; 0x6aef505d5bc10ca0; 0x3b0b4b5a475a34d1; 0x4fdcf58e7d334083; 0x54f69116eba3c8e4; 0x597750017e341c63; 0x2907ab612587ee75; 0x1309d3136922eb46; 0x6a981b5f3846913a; 0x5fedee1c0bdf83a; 0x755e0a8235dbc5da; 0x2b291900eac8d1f3; 0x9060a1ede6efe25; 0x59ef055321db742; 0x7e7ce5bd52462142; 0x3afaef96b4d9608f; 0x27193f5e86c5a9f1; 0x37b0d07adc26eaf9; 0x2f050f16d392dc3c; 0x5287a5543cc74bf; 0x354f48518b9cee8f; 0x84a7a3031639d10; 0x92471d921a1932d; 0x5f861d9ac8cf75ed; 0x2cf3080acf1aa44d; 0x3839d993317259f2; 0x5a1a0b4f4f401deb; 0x1eca038afbc79f71; 0x2aaa498dda839076; 0x5f4ab536f5f50f03; 0x68b2a8938bff30d; 0xf6768c19db9fde8; 0x72f7f7dfbc3e97a4; 0x30b4a893171a4e57; 0x46bc9f67c0f96114; 0x7451ef8cb8b9a203; 0x61957d2a43b216f5; 0x619400e3c4a202cf; 0xb484b78e56fb08c; 0x701f59786c41ac1e; 0x5ea4ec5c4980344d; 0x3c03f716ca1676d1; 0x3fe441da6d736160; 0x12d69024d98fcacd; 0x70f3e58f71f0c2e7; 0x51850acda8b492b9; 0x10011547ac78a9a; 0x8a00a20a8a0000; 0x1444041441510401; 0x2022a22aa0; 0x5441450454550451; 0x88aa20aaaa2288; 0x5055405015441500; 0xaa20802a0228002; 0x154145455104545];
   [0x3acd08c1b0411cba; 0x64667a5bf39de0; 0x5ba0759adbe6e3f3; 0xceb895617b7bad7; 0x43f2d1914f62990b; 0x46dda44fc0cfb853; 0x3ed810dd94abce29; 0x2e2533fc43a00460; 0x6626036f64f0746a; 0x34fe4219b0f71b84; 0x6e36e8af54d7922c; 0x55ce80c566a6aaca; 0x434dd9d0e249eab4; 0x5fe0f535a183cd1; 0x2ffce333e513a485; 0x1fb6d522ee2132f5; 0x7ee75f167d13c257; 0x112b3d88a27a27a6; 0x6f9860cc5b0ce285; 0x75f0b62bf980f963; 0x5fc09f832d5796a3; 0x2f43652fc0f984fc; 0x135b5020ef21d4df; 0x6d8662c39fd0acc7; 0x3716bf63504263bb; 0x315a3380e0639281; 0x2b013865d5120ff9; 0x7bf0b6027830d7e9; 0x5e2f629ec87fff87; 0x112ccc7b211eea29; 0x28ec67aec3cedec8; 0x1da58fb91be18ad; 0x3ded041768aa33fe; 0x4c9f6af07be18943; 0x4655e1a1e4f5b3b2; 0x1827b2e83521f86c; 0xd2ab0046d0f4cc; 0x63958e7d9c387506; 0x47abf845d6d6c9b1; 0x6a564541a34255d2; 0x7e085e92492ab2ff; 0x768771e9e63bea4f; 0x4ffcd180aa9bb8fb; 0x78f7ab76eda28f4; 0x736695845911889d; 0x69cf8e77f3f77fa6; 0x2057f76d459df9; 0x20715fa8f119ba4b; 0x21d33e6976fe9cec; 0xb809178f48d2011; 0x393eebab52d5b25c; 0x32406dd1c868c642; 0x7e320da2cb30aff1; 0x4c112aa7b1adca11; 0x35d5179e6b3b69c5; 0x610783d1e06957b8; 0x2a76e8cf3bf4879; 0x1cc5919819ef4efa; 0x5e4e2b956ceb6268; 0x4cf3f6ee3a502966; 0x56bbfd32c919fce9; 0x1c26e9ae10107d45; 0x5326b6fe541bc7b3; 0x53501518cb671e09; 0x3c5eb24e1c065d94; 0x8dab14460e9662a; 0x15517f73456e0aaa; 0x57a407076ff12b5e; 0x5c19f8276433d114; 0x69d4a48cdf37f7a5; 0x4fbd8d5a313652fb; 0x620f17249afdedb6; 0x35d5e8ab55f2616d; 0x4081540ebbee1b58; 0x4f2681b2bf4dca74; 0x5ec83efe93c3c78e; 0x21c38bda566e32f0; 0x7335a8ae97c0ae69; 0x73d021cefe94960a; 0x4b5982e5cf8d30ac; 0x114f480e6ccb0cf3; 0x58a3a8505195c86a; 0xbc64534c800da74; 0x23763af14d64ae2c; 0x7b8c8565b702a94e; 0x65384cbe8e4bf7c0; 0x6b52b28b568cc3dd; 0x5b29334ed06d3b98; 0x31d077c1d3f9de20; 0x2558b13016cb4d3c; 0x386b4f76574a05cc; 0x297316f5d0512e19; 0x506aac81c856e36; 0x4dce3a1c3bbf1b2c; 0x7aed5da4875dfd28; 0x66a28accd3bc285f; 0x64b8bd8b4f7c11d2; 0x27a396b09ec60246; 0x46ff36ba5f3caaa3; 0x7397462e53f1bdeb; 0x25809593509d1811; 0x2a3459ee20e0ec7a; 0x3750aadf84bc9b3e; 0x5b576eb15afe676a; 0x73231d720607fcdf; 0x647ef6bf03ad4d5; 0x5128cf4e4f2a7964; 0x10e6c40c038d9f42; 0x62cbda5a26149299; 0x178e2a6eec77886f; 0x2369f599f7b7ee8f; 0x68d7b22da1e6f82c; 0x46fbaf6e69c716df; 0x73baff78dff799c4; 0x7370feb8e5d67d56; 0x48ed00d67d5692a9; 0x5aee2953c78b8981; 0xcd868484cde6021; 0x251feb4b7dc3ceca; 0x21b811667c46ab71; 0x1a0102c4d082f7a3; 0x323f27fe8819951; 0x64238db0ed4324b3; 0x554e80bdbc06516e; 0x5b117ec1e0ad7603; 0x5a4d69f53d7e1108; 0x41620a1e2d2ecb84; 0x4c50814eb8f30c22; 0x74030932ab3a57d8; 0x362ef1917b4747e1; 0x73e828e1288830e8; 0x6eed15e0bd37d074; 0x5cca9e30c701465f; 0x46cf9f5674d9ca80; 0x4018982b3d1d6d8b; 0x2eddb2750fdb7986; 0x2a48d21f951a311d; 0x2a924390c82fa4a8; 0x563d0b4417fadfb9; 0x2b90587b023536b2; 0xe5faf5ff314a577; 0x2ee6070288a7a0cd; 0x26cdfa00c3371d97; 0x78627d524560a8c0; 0x4a16599c544ea97d; 0x2f3a8d986d0d5274; 0x71cee62a024a406e; 0x4a9a09a90214928e; 0x7dfc22e1b3e1b203; 0x72b86baef3a59214; 0x3adad5abf90db1f7; 0x3cf4881923e5ace2; 0x1a54fce711fd4a2c; 0x242f627cd5bb903a; 0x218845f3ee1d5be8; 0x57bf087c228cc3d0; 0xd1af0a50092cc1c; 0x565c316d37a8fb93; 0x559d81d534bec0bb; 0x2eeef0802ae9c82d; 0x4da2d869f1051fb6; 0x49012c31d067f59d; 0x9240c9ca8fb2538; 0x5c4216f15f96fb83; 0x4cad5392f5234de7; 0x74704eb9da4898f7; 0x4fa1a878e854ab47; 0x2e2e34e87288bab0; 0x771a0ec805085721; 0xfc798a6c99f53c9; 0x2c8d6e2e03b3f0a6; 0x342c3a5f59b5406f; 0x57036dbe28e94d28; 0x5b9bfc989fd1af64; 0x5ff462dce91bedc0; 0x6218d476e84bb9bd; 0x11c229f3105082fc; 0x1b2111c19fb9dd25; 0x238ea27bfe626c22; 0x3a84148395cc996a; 0x3ab045c18827b243; 0x4890f213662ea1e2; 0x6d7719ce6617d152; 0x3b5f9b36ea68ec29; 0x7228638fcabb354c; 0x795ee0b0483ee2c5; 0x7d6ee8c5fdf492a0; 0x7571def32b206a31; 0x7255cccf1a362f88; 0x783e97055bb8b93; 0x26d234ca6e88bae1; 0x4d969d57a71748cd; 0x2aaa0ee50ba05e44; 0x4aab332fc3acaddf; 0x8e343ab8900c978; 0x201f0238aece5c44; 0x7c4dcbea5554d7c2; 0x36ee7309051a7423; 0x43953373a8161342; 0x27f0d4939186c064; 0x549354c41ba18cdf; 0x7cb66417408daade; 0x6374fee151eef9b0; 0x47ead33caa48d6c6; 0x6162cdf560d507b7; 0x51c595f6e6f82129; 0x7d9939415888a560; 0x3cb515b12cd2832d; 0x4ee871e63cac7e45; 0x3e87e22bb3c57f20; 0x115457374378233d; 0x766416752383211b; 0xd64c95e8417246a; 0x33353218908f2773; 0x58768e8c20fbfd7; 0x268cf3a26b877ea0; 0x78b6f765a55ba387; 0x2be70613f82a1b02; 0x745913c720e987dc; 0xc7cee218765a0c0; 0x720a6b4138e9c1fc; 0x482010c432dade48; 0x4fe8a3e89f300fbf; 0x6e15e8c195d5294a; 0x76ebce5779aef68d; 0x61d2133e21e347e; 0x21fe7b6e9c1e764a; 0x45c0266a4b5f0c5c; 0x2ca2101382631eaa; 0x42a2e29878a775ef; 0x11b46a88f2e3a4e0; 0x3d11c468ef3eab45; 0x4ce44b55ef19d94d; 0x318bf7b7accf3317; 0x734ecd3c253765a8; 0x58c8e53c6f1f6c6a; 0x2df09e4a7f217335; 0x57a2a45b77d5dd19; 0x768344f831fd71f9; 0x7c466d86661568f7; 0xa60548996c68a7b; 0x7ea1e4cd6b56c6ae; 0x5bc27df666549d4b; 0x251e835d10e1aa11; 0x6d3e369b1b7c9a1c; 0x2423a06ce67b7bb8; 0x7f3b79d0d27341ad; 0x5babaf62a452f93; 0x615c19ae27ec79ed; 0x2769b55ad766bf4f; 0x1cb604c62f11eccc; 0x519047f9ce7ce5f1; 0x618088b2087e696e; 0x7ab119b98f3419f5; 0x37240a09b90ffc0c; 0x10ff99a9248c9c7d; 0x2b3fa841ee833cec; 0x8498f26930c7ad5; 0x6e6dcb02ec25db61; 0x6380244f2326f2b7; 0x6cc5bb74a16b10f4; 0x7f5863dff49010; 0x73b3dd3eea51f97a; 0x5747544e67184235; 0x29cdf7d6517c7dc3; 0x15a2d310c487ab83; 0x57fb8293e5d990be; 0x7e787c355d017c43; 0x2ee04c86bff1170a; 0x5a41a7f0ed28a446; 0x3c7c38bfc7229bf; 0x6027d1b0443a3a51; 0x72718b9bd12dd664; 0x5c02fcceb423ba6d; 0x7ff5af99d667a8ac; 0x55f9d39e8fbc60b3; 0x60364ed8fbcda312; 0x72cb46cd20f2a5d; 0x7bc7ca4db9a1ed89; 0x6802cc2cfc193a63; 0x535763f77624ff74; 0x5f7163c536d7848; 0xb3f3162d53d5b65; 0x4cfe94e004a43d42; 0x697f013bf4427ff1; 0xdfb18cf6ea64a22; 0x5c05438d1e80efd5; 0x4c39ef75fd0ec7cc; 0x26453cabd33836a6; 0x75becc48ba752b64; 0x3fe527686b84b976; 0x4ae0a8169ff791ac; 0x653353354a995087; 0x117ad2d38de0cddc; 0xaa6bc678f976e68; 0x174d4c4f5159a42a; 0x19b8fafef1b1eca9; 0x8061715dc0df678; 0x7068a056f34d0707; 0x66ed85a3c22fc5d2; 0xd9db37459824be5; 0x6f26ebc260882178; 0x3e22ed2c546bd479; 0x1f8e729a3539244a; 0x60c8291c07c9e158; 0x414f971e55afe6a0; 0xb464e19ab916151; 0x6f96ca7e800381a; 0x51540114d2c6329e; 0x2a888a22a28828a; 0x1104444410501455; 0x200802808a200088; 0x1011000451011; 0x2280000080228a; 0x1114015401155445; 0x22a282aa28aa0a0a; 0x414111450455501];
   [0x139ce07679ff8021; 0x33470566b8c78e38; 0x20d99f4243e36d35; 0x13b9c2014a8500e3; 0x740085d6e870e08; 0x2a60a24cbcd078ea; 0x6bbe4a3d89672745; 0x1c9c8f9f32985c94; 0x5141f9c8e7d4523b; 0x115f75aabbfb6d59; 0x494da04beef5c812; 0x44050081d1047f5f; 0x43ead402c53ddbb; 0x5c648b6810bcf1e2; 0x480fbd25b66d20a; 0x30c781fb3a61abd8; 0x6b893241bf350198; 0x5a4ef991446adae; 0x76f850bf5359005; 0x42a74ed9d7f317fc; 0x1db35178dc5335e6; 0x9cc95906459058c; 0x5f11143661c82f34; 0x5ea9b9c1d625725f; 0x557a559013237403; 0x80df90436189ca3; 0x6b330ccda31dda28; 0x1b918ddbd16f9e20; 0x7b175751912991fb; 0x985188699178c33; 0x7c2ed48c9868971b; 0x28a2e0e83017f009; 0x38eed1dd455b349; 0x3d28a27ac0f34b9a; 0x5c5848c95bccf33; 0x45c50553d773b9ec; 0x1646ffc70dc9eeaf; 0x141a69a569ed5d23; 0x6da5787fea45b058; 0x3342fc6683df0d83; 0x78bb045a036ec225; 0x4e998eb878089ec3; 0x9edd539362fb53e; 0x7a73eb6141fa0514; 0x3acabc0982aca01b; 0x2b14ae76be507413; 0xf128768fa46b56b; 0x6006ebaf9e4f8948; 0x4a30d4c5f1bb3f47; 0x2c76d127c178199e; 0x7c468dc9d185d792; 0x58bcc6ceab669673; 0xa765b792a276aff; 0x7a1e9627a36d4727; 0x452edb929e59ebe8; 0x366e3b3afdb70f53; 0x4e22b299079501ba; 0x66ba9a85ce4c8bb8; 0x7401bec3400578c7; 0x1d7f1cf30de75e26; 0x6784aa26e65ca456; 0x7f3bf5b7446e64f7; 0x5d43ec6f5b8a9e14; 0x4fd1311bdbfb14a5; 0x2248c5639ba0d448; 0x3c4e47598bcac992; 0x670ad17f4c4da002; 0x70bb15c923c273a8; 0x43340d04d4e95007; 0x46547cea2546888a; 0x4eb986c52c55fc3b; 0x165fc8b3f733cd60; 0x63a16ed367dc1a29; 0x23cc17fbed474dae; 0x50abc8c555f0f5; 0x29a2442cc40408ff; 0x43a78060aa2c573c; 0x6e48eba7a333f902; 0x563292a31155e0e3; 0x452b1d9495e625e4; 0xfab8f247d1c6143; 0x4e15fce9583c5164; 0x73f5d5a443ca7516; 0x1dd4d200d58d64d8; 0x13a2f3b94650fcb2; 0x7032dcb5cf9e4a0d; 0x1b4928199d5db5f4; 0x75d5a61f0259686b; 0x73e86bfc44dd8c4; 0xcc48aacea048ab5; 0x6d165c467e4587cf; 0x23d4a73c99493151; 0x2db3d9f6ab553fbd; 0x20fa11cfdae158c7; 0x30762d16a2b8681b; 0x19ed1eaf41c72e5c; 0x3b5bf6a7830584c7; 0x7fb7066ba4af5594; 0x72e17224894536f1; 0x1b6bb9dc3312eaa6; 0x5bf81bad48e48065; 0x361698b8b8bafc0; 0x24ab308762947ee7; 0x160daf89e7e49a04; 0x40afbeb547f4f72c; 0x6695549af601bede; 0x29e0075a187e05e1; 0x75c34c745d77ce; 0x7354a1b478dbe2a9; 0x4e4504bfc903de19; 0x7a48adc73e95d554; 0x5bf0f651fc6f66d; 0x2eb2a8d2b2683e84; 0x17a6989f530baec2; 0x1ed0bcb9c5388ad3; 0x571d2c6e8ccbdec6; 0x7be34be1b5c87db9; 0x74ef1a618da42ebb; 0x457420d6e1209c07; 0x1d519a49a85e8c29; 0x2d9dc7518f59c8ef; 0xdd1aa3cd27a89ca; 0x4505e26f6b0316bf; 0x31fd9948a4f4fd83; 0x701a6fbda05899ae; 0x787a56a4c7ac1016; 0x137c85df66c67edb; 0x73c899fe23a57f3; 0x2d0e44d36e63db11; 0x26d6c7c4db5b3f10; 0x43d05c4c055f82d1; 0x62056e9eb1787980; 0x6016b312e4e01bc3; 0x23d04051197f1fab; 0x37e6a3c70077ddbd; 0x2a82aaf0f2155070; 0x5790ced9ef987aeb; 0x55b09ac9d5a6e5fe; 0x38fcf11410161ae; 0x4f959bf2854b1730; 0xa7c69b4fb74cdd; 0x404c13e1e980a056; 0x55df20b2a3dc8435; 0x2cd50a3c2584dffb; 0x65c21156e0fd4e47; 0x39594cd51bc534cb; 0x32984709538d787b; 0x4adafaa23b026034; 0x26dc9eef2cfed14a; 0x691b6c2b336c637; 0x9acd71d4106215f; 0x4b2ccd0753d70ad9; 0x470af79f1be5779d; 0x135495022cbc560; 0xa283957d48d3402; 0x4656f2636d86a179; 0x5dc101bd2d541f39; 0x1c3369d95447b69a; 0x2e6392a4e15f41a9; 0x640eca010fd5f19; 0x51a78c4b10b3663a; 0x39236c00519f743c; 0x1998f548c239c530; 0x3638316e6f0f9107; 0x210b095591451a4c; 0x3418cd164536db70; 0x6bc934b066c7058a; 0x301c45bb6218528f; 0x585f59f940c8eeec; 0x4b5b2a24a188aac2; 0x1d69a545395c1155; 0x450b8f157d53c1b1; 0x3c224a3de5597338; 0x7abedda11a6eee35; 0x38870991f87ab771; 0x513d5a53a6e6609f; 0x33c4de52c5a6905d; 0x7a32c09a56624e32; 0x4951dea34625acd2; 0x48c9670dba21e387; 0x28fd4f2d07d0e78e; 0x50707e0bc3c7ade9; 0x45cc197a66434aa9; 0xba3c0800de0598c; 0x3ec993c29fae4d9f; 0x78bc0de843747e4d; 0x41200d365e64cd; 0x1fd5f5ec4d07562a; 0x6273179fe905aeab; 0x733d2876ea0c852b; 0x728412a9d4a115ba; 0x225877086f880421; 0x3a8a5d9e8a8b14c1; 0x321509f72c781dbc; 0x21daefbf1ec92c8c; 0x7548bea64eed184a; 0x1ef74656152b2462; 0x1e1740cc5a9fd34a; 0x746140ba35f4b70e; 0x4a39717c02bc7b55; 0x582ff6529323a1fc; 0x3522a83d896c3e39; 0x194b8f0727305d15; 0x2f7c1919ac290217; 0x7624a6dd94d0402e; 0x62a490a5c6cc9e33; 0x2b94cb59c872a75e; 0x6cd74fdcdb3958d2; 0x6b9b20671227d12c; 0x234c41a5d56138b3; 0xa63c948ba89ed6b; 0x49ec7fd91be85f74; 0xf0022e553118412; 0x334fac29faa14ea1; 0x4b22d2172f2a3b54; 0x66814acd1d865ea9; 0x76a10d3d33fab39; 0x145d8cb16577fa78; 0x1fe72e5f42164e61; 0x352dc8d6c5c1a7cf; 0x5ef3d2f213955a30; 0x439b4a2235e1358f; 0x13bb57a5b8c011c0; 0x485eb388f207a177; 0x2ee3ce59af2179ec; 0xc2985199c666256; 0x5bb4f953d899640e; 0x2226f5af50615e72; 0x1c0bfb2825005753; 0x620a335c41721697; 0x7e2fbdb2f0e60d0f; 0x3b216c0da791e6e; 0x7202dbacca139114; 0x473670c4f09a9266; 0x1465f53463b40f11; 0x6d1055c02ea05a7b; 0xc709e01862209bc; 0x42ccaeb40c0a4e02; 0x1483e82613225a68; 0x6e7ec2f26b64c7ac; 0x2bc69890b6c8be5c; 0x3c689b6360a3838d; 0x5adc2232f98fb710; 0x3a427bdacd71020; 0xff0ac128ec4a937; 0x698e185397e93200; 0x35bb50e3e5d25333; 0x3cb320cc3ccef746; 0x69247a7fad099488; 0x5e593aae794cbd77; 0x5a0e7092705d9c96; 0xeb4ad75304380da; 0x3c828224bc6c2390; 0x546c1062fe099e6a; 0x79eb604f6df8efc0; 0x440968e5d1f466e5; 0x56e4665278cae0c2; 0x5cb15f3876e3a6d5; 0x4d0cd8f92bbfd55; 0x28dbc39532ec403d; 0xfc62f0227cf0158; 0x34ca7c42f3926797; 0x4f11fcb70f4456df; 0x57c3129a6ef7ed82; 0x75718a259cfa2098; 0x1c1a2a2163e935b8; 0x208212878e0b8bb; 0x7bd02adb64312521; 0x84615e5bfc57e4; 0x7c0c00922399fa69; 0x2c360d7716b98318; 0x4fb6d80822790f9f; 0x2e4cbb81b0456825; 0x3ee351b3823bda70; 0x38622c7dbf7526b9; 0x1daf515b04a7ac27; 0x7c602eb1905e6659; 0x22471656b49f73c8; 0x1730b952f0c72458; 0x2650884d820e4ab0; 0x67309d3ad9c38912; 0x45f061434cf56c41; 0x51e907cd685e0fa5; 0x151ceda89049e525; 0x7d6f20c39804ae07; 0x6108db6524c79658; 0x6a36e71bad2d5af5; 0x44b97d8eea8b4759; 0x687af9401c766350; 0x1968ce22b873c298; 0x70e932a4e327a9b8; 0x2926f5c73d43deb8; 0x3a9ea13bec47c62e; 0x3d8cef1aae3b2351; 0x13fbf4841de48957; 0x1fbe0162ccc0c875; 0x678c70fd31fdb4a4; 0x614179e8b20c5225; 0x67224a50bd3082c0; 0x436d8ede2ee5105b; 0x3eb41e6ec3d5a4cd; 0x3040e65182d4873e; 0x287448772ba90f24; 0x2217fc9a882bd5ac; 0x421786b435568263; 0x3fd63311fb256536; 0x1c52bc00d987ec47; 0x322853d27eac2344; 0x4100551530f745f3; 0x220a00800a822a28; 0x4004055140540015; 0x222008a808002000; 0x4014045505010414; 0xa888800220a2200; 0x1510115001505041; 0x288a80a8aa0022a; 0x105100511001544];
   [0x4c85baa7ada23a4e; 0x211a7bc124a7485a; 0x625a175ecddcf659; 0x5e190b1eb0a84e2e; 0x1a7e266eba985b7a; 0x43cd94ba7217159c; 0x607b99b1582d63f; 0x57dadc9133024eb6; 0x1bea17b35fd24d0a; 0x5d456b109254e0d9; 0x7960cdfc013ae20a; 0x36261545e6590723; 0x58904a709e4132bb; 0x444bebb7566a7633; 0x3e7f847fd24caa2f; 0x52e0c8c54ed6f92f; 0x304b4795af8acb52; 0x106950924b0f9923; 0x42dd534c54c9b259; 0x2763af38228104f1; 0x346e79ae1504cee2; 0x560f7fbd3302697c; 0x430259a7c1ebd3d; 0x6cbfbfd3bc75a54a; 0x47b2839e7629e418; 0x4ea170cbc31ee9fd; 0x5fd933e3c0d0f4; 0x11a8c9f5ef7a7b7a; 0x3bb31be6d295abba; 0x73a30f434c74d761; 0x7d56306aa8ad645f; 0x668368ff61d73559; 0x6fe1399a3d2e7b1f; 0x46a456ee6c5beba4; 0x391da187ee95513d; 0xce3601e62a41152; 0x5aa77572ad647733; 0x22e09571abdb97; 0x4c4a91523c29cb76; 0x6dc00cac6612ec8; 0x65b321934af557cc; 0x520d8583740b49ee; 0x3a7fa85760ea4696; 0x668b93123b3be18d; 0x74f9ce7b4bf4c2b; 0x3210c432f3e9fabd; 0x2f14fea5f69c32f2; 0x3b0799c44f36d4f7; 0x5699b27e7ffcdfe7; 0x362237e3f5cfd737; 0x4b51ce35c9a1bd1b; 0x6c13976da52b3345; 0x3a74fd6d18a026de; 0x67b2b5317bee2fe6; 0x473cd76f7dbb35d5; 0x40bc0701edf167cc; 0x32cc6f0214ad65c8; 0x76c171edc58db7a1; 0x21e2a02c22099493; 0x99195d51ba39012; 0x2982744c860fcdf7; 0x207ffed2eec2250a; 0x317a5d81f701306f; 0xd3d7c1701427421; 0x2fe105cfcaccb3cf; 0x3642b05f6f7f4df2; 0x71d57bfff1c6fdcd; 0x293f0b593ed53a78; 0x586b7d6d6d87b0d7; 0x24f5e1ec12477c83; 0x354f34dbf8ad3096; 0xfc53268460283af; 0x7ad3d0ef7798f4eb; 0x1a2b5616998c6fc8; 0x61e097d953ebb6fc; 0x2391c487798f82d6; 0x4d192774e0fc56aa; 0x694865e814230985; 0x6dd0fd6adc81b604; 0x2bf21639f2ab4e02; 0x7fe53cb69e57e808; 0x211d53827282ff81; 0x32a089bd3d5e77bd; 0x11b68797c0cc271; 0x36b576d5319f469f; 0x5c068f0f3193173e; 0x706fdfaca4998629; 0x5f9b84a4b8f02ce1; 0x2e6dcae30078878b; 0x6073834b00635deb; 0x67871d8273c70e06; 0x2c2c27ba576bec7c; 0x4e4d3142c660f0cb; 0x156bf80054b13dcf; 0xcf35df30f2e2eb; 0x7c1ce4b569ae65cd; 0x6fdbb4203096cbe9; 0x565e8d1ef2b018bf; 0x47920ffcd853294; 0x39746fda26d281b3; 0x43d8154c380b6e82; 0x625df1ec4b5be56e; 0x3a621638b03ec762; 0x3ca7d6faab10eb75; 0x843ad57a432a7be; 0x7eda7c35ae5921de; 0x4bbd9036a4d83686; 0x7de4f7d132579115; 0x2bd3b93d3b21a9f3; 0x6a52a39d184ca388; 0x6c6d60d64695a564; 0x5957fd042d8527db; 0x3279ed23077acb43; 0x7a4bf9cf108cbccb; 0x5e9e1314771c60b2; 0x2cb55083596123c2; 0x55003196ed88590b; 0xab7a35f198e04fa; 0x38911848255e9068; 0x658d50489b0d0d2; 0x57e76455c9aca591; 0xc32fe74baf9037d; 0x3ebb85e30c5ea704; 0x17d37c6f0be11f06; 0x728f09cb75cc0293; 0x779a8a2402ed8635; 0x371492b22719239; 0xbba8f101e0beea5; 0x3ad68e95b2c6f84a; 0x7a8a6f1d82b43bd7; 0x279da8d8e1e45b34; 0x44dfcbb1ce89c29c; 0x59b16a6bba08ac82; 0x34e5ade2bdab7fe6; 0x7ebaa1e6fb7666cd; 0x14534f628edf698e; 0x1a6c0126421007de; 0x1cf9b7a7d208018e; 0x64230a0af0cd1cb6; 0x3e1341f8e441757; 0x39b54ea2de8ab129; 0x34d8404c3df1d94d; 0x20f18bc2cd399d5d; 0x8105460ddbc9e27; 0x59d041223c7c6731; 0x2f48951e4a49c1d4; 0x7750b0a2b13c1fe; 0x45203bc22fb42da7; 0x2afc73062b997df2; 0x4a501c87a73c1fd9; 0x5a338be9299e279f; 0x65d13709ccc9d618; 0x29b2cfda4f4ab26f; 0x2a6a99e2bb1bac8e; 0xa7268162e230182; 0x48726c8cd3c3d4d7; 0x527c84e641dd4a24; 0x65e0f85cbdb38435; 0x56777c61cfa46e6; 0x42b5e4b1eb5c0cac; 0x30569422b5b02674; 0x3a681d2f301a0117; 0x31f46101493c6729; 0x2452095d1e0cb047; 0x512058f14e6a2f92; 0x4ca5a74127d10552; 0x305a5996987eb6b7; 0x61bcda3f5982eee0; 0xdc29c3b417bce92; 0x752852549136668; 0x1e66bc84d444f887; 0x79f9e2065c9d86ac; 0x4ba90fcd83a8aa6a; 0x1ea172852f4a4444; 0x5e4ab5054551af9a; 0x5a4662457644c418; 0x25e27a037e4a63d5; 0x129a5358fc4a0156; 0xcb39262873b62c; 0x7dfc8960dc6ced7f; 0x690a81262e7a84f9; 0x5072c1657c72966f; 0x4ae3757f29f4ecf3; 0x7ea65b01259ceaf0; 0x14bef4eb42d415c8; 0xe3f2184fc4fbf91; 0x7592795f3b3dc32c; 0x3f96b793fa6332bd; 0x37cf4203bf230fdf; 0x7ff1a3bb9cd97584; 0x480311cb5531d28a; 0x5a32e65791959c30; 0x1037514d307e7f1c; 0x11d0be8b4df9ad8d; 0x4a3e052ffa29da6; 0x3436af0c96946195; 0x22702c030efe8172; 0x59d385740dce979f; 0x196c624a124f1e80; 0x2f222e6ea163bb31; 0x1483597a2d411046; 0x78de8845f886b7d1; 0x11b13e6ecba6471c; 0x654be5d7e5765ef0; 0x256348a73123e5bd; 0x73a350de4f53f11b; 0x67d6013dbdb76be2; 0x6c678bef02d52122; 0x64cefa1632725c35; 0x21de8fe104bc718c; 0x2fd572505e6bbb86; 0x3c302850b1d906b; 0x1161d3b1e2bc0d8a; 0x6424c5cd0dc1e909; 0x686aaeb1430e58a3; 0x53409706ac4c4c16; 0xe8b317808b41585; 0x59c6bce7ac1e936; 0x25c320bce1a1d5f6; 0x60c2ef2337ddbf0f; 0xba90783b8c56e96; 0x11ede991f939cfe8; 0x2590921c4e880cef; 0x306b4bf03868968d; 0x615f1fc0a59389f9; 0xdf9d34031433cba; 0x5a2c88a189e25acc; 0x14175e16371baac5; 0x525cca72fbed4404; 0x2577838e3fac5d92; 0x5d4aa8e94c8555e3; 0x3950f0d781b574ea; 0xac51770e38f0462; 0x4a25b4013570eb84; 0x5fcee2071b7412ce; 0x7e6a0f607093161f; 0x14699bd3077bde01; 0x7765e4300bd15dfe; 0x4ce563fd68ad34ec; 0x67b4d04226e5fa42; 0x1413ae11db7c6649; 0x4156632b7b62725c; 0x39ad7306f97fc73c; 0x193e8b0693b6b185; 0x670677f63a1511de; 0x4b9466acdc31c1d0; 0x4be638128863a807; 0x2889cdd0684c643c; 0x7e95272327c3dff8; 0x3bad56d0f950d159; 0x4bea8abb0322dbea; 0x59d86b2e78a2b9da; 0x43e7a2f08cb9f2fe; 0x73ed8182bc57651e; 0x49c04684a591accf; 0x30bc458249676e2d; 0x1f5d0d2576c25d02; 0x681fdf92cde90a90; 0x1e9d9dee4757f081; 0x2eff6c97518d114b; 0x70961c6f154c9f6; 0x2d01281760d4cbad; 0x77da69b2d135609; 0x299c938d4e429f2e; 0x149748afaee7cf91; 0x5d4fbe47838a7e64; 0x26b086c15369a816; 0x469df8e36491a08f; 0x74dd285a52205dd0; 0x43cab4f4298f3d26; 0x1a491d1c08d3d1c6; 0x3b8982d9d1140f7d; 0x451bbf743f505d0; 0x740ba31c7e79c872; 0x5e8f55f8a95bd2df; 0x3e8797eed229e073; 0xa65ecad5c9fcd8c; 0x7a72a553cc156358; 0x3a72d711c58aff62; 0x66df69655d733c31; 0x7044b422d9865722; 0x6f40c6a60b3babda; 0x2513c69204951d69; 0x1152d872cb398bbb; 0x639b3df6f1717387; 0x2b48a1053b51153f; 0x49eb1eb3dae157cf; 0x1a57b4b666ca27c4; 0x73ebbe34964846c4; 0x7e1daf93640657de; 0x6c6cedb3c9970fba; 0x78b47079a4ed8222; 0x7d1542b3b1332dd7; 0x503ecff13dfa3aa5; 0x6bf61056ec56b843; 0x154d2df1d46654f; 0x1578b80f577312b2; 0x318a539972f83226; 0x7e379332b616c099; 0x7798323b4483ee9f; 0x4ca5a89c10be47de; 0x122ea69194e0fbf8; 0x2d305d0313eb9dc6; 0x53e95e9d84b7bd09; 0xe32f2738bb52f8a; 0x173fc22cca99262d; 0x5f15d175c35f31e0; 0x177c46dab8792bb0; 0x41040050a1d78968; 0x222a800802228a82; 0x5041554510450104; 0xa0288008a2a8888; 0x4000001505010000; 0x22200008a28aa228; 0x5055410151441505; 0x228882a02082202a; 0x504144141551404];
   [0x75183c63a497e8f1; 0x4cd811a299f3a894; 0xbd1f24a1b58f890; 0x4a20521d82b215e7; 0x4d8ca0c37b0dc5f7; 0x4c42a48bc385726a; 0x5c4537b5edee5b6; 0x1c5e6d71b249d67a; 0x2f06108d338e0457; 0x793e1fe03090a604; 0x749545c1d16b737; 0xbe1cd0e5eb6df5e; 0x568c73b5acdd39df; 0x7e38439cd618891d; 0x69a9b4e0e71ce044; 0x26123a425cea7119; 0x329eb86f4770195f; 0x59eafaed4d0d76ea; 0x41af5716229ac95f; 0x692162f5539304f; 0xd5d1a86907caa69; 0x2438f46477dbeff5; 0xabe45c3650c3904; 0x73ac2089ea08122f; 0x6473c1ba835f523; 0x521905a55f185951; 0xa7a16dd9c4be00b; 0x38cf416fa05edb9d; 0x75f26b3003f520f1; 0x6d9c8b7e6ae78ae3; 0x7d6b8dd926e7b8fd; 0x6a694e8440595204; 0x4ec1af8060c6ba5e; 0x3be90d7711ef8a70; 0x3621293c0e4625a; 0x104843f4f3c0f211; 0x46f4b65800fb4d5b; 0x3d733fb1aa89243b; 0x1dc4ba8564d5eddc; 0x119ac8699949b6bd; 0x51f68472c8e1cd4f; 0x44fa633b2e7bf9f2; 0x5b6388d1505d7824; 0xc399ded85ae7762; 0x1d536f0ce92ef9b; 0x65e9422dd37bbc63; 0x20c296b58fd6d381; 0x296ace54f31aca95; 0x7859479239ef7341; 0x601c533c33ac5dbd; 0x515d0709fed0c2b9; 0x6a0dca93234ad6ea; 0x69ecf93082e62ebc; 0x23bffc5b6c7be80a; 0x33e5b49cd4747840; 0x1acf706579dd7b91; 0x349a54f8370ff626; 0x14704c4b2a6f2797; 0x515e79ca3f7c5502; 0x13790494761dd692; 0x6c7f769f474ab58b; 0x48ee7dc10b5512a1; 0x3086e6af2056f83a; 0x58f572c1ed8b3079; 0x35528dfc41e9882c; 0x3cd312236c5abb8c; 0x7ccc70d8dd596217; 0x30e48efa3ef37eec; 0x3cedce6810cf6549; 0x18f15a07ec859a7c; 0x600b9ed06d323f76; 0x1afb89bc0ed4a7d7; 0x7e9844afaf86410a; 0x3c540f2c232fae1e; 0x197809de534bb36f; 0x74aa6ac7b66d1abc; 0x73e649738087811a; 0x19712081207e5093; 0x7d0c0aa8163c1892; 0x1365a620a0a9527e; 0x4f22605cdbb0f69; 0x44ea977df3b788a3; 0x9b8b7c6f63d07ef; 0x3e67b1fa3ab734c4; 0x63d2c2f47445636a; 0x79c8ee0f2bc0930f; 0x65e7f1c4ae03d69c; 0x1e29ec5d3f4c7c71; 0x2e5d0c1a2192b842; 0xfe94b3571848724; 0x68650caaf3eb9883; 0x1136f5dcea9beb9f; 0x6165fd16fbe9e8ed; 0x696e62af9b8219f1; 0x17fc26f03f4d20fc; 0x6604922b152fe11e; 0x108035f6074adac0; 0x17b8fb42ad1a26fd; 0x5ce6ef6b60c60263; 0x185350e3daec3ce0; 0x71cdbd722481b414; 0x64860f8615dc2bba; 0x36d3e112bbeb86e2; 0x3d2dd99f42341da0; 0x4a3ef606ad8564c9; 0x237e243c2101348e; 0x709a3ab927e674df; 0x99a5596d85a2a13; 0x1b66a9f1f30e8243; 0xce36e3eefa4ef1e; 0x5d6f0dec72fbd1c4; 0x790a7ff33893735e; 0x1d689d0d8f8f11a7; 0x6fa0641fc232199d; 0x706924a4e7e45558; 0x60cb63dfae940ae1; 0x536711ed7d791b87; 0x4cb664efd7d81563; 0x7b368269ebceaadc; 0x2c232ee7366a193c; 0x5b091d05db9e813d; 0x66ee43431b26f02c; 0x49eb5b30711ae116; 0xc73e9d11503ef2e; 0x44e43d58e739d0ab; 0x25d9382c8ef52825; 0x7e7dd3cc8e090681; 0x1660cca3c464a7da; 0x1b44fba6f409ef07; 0xb6f89d8d5f24c; 0x3d8b1c0a9824a7ca; 0x1f7d1af560dba3f5; 0x651de2f4258d179b; 0x68061deec564d547; 0x73111cd6f5141a33; 0x1fba1fceaf13a131; 0x6c60386dcaafb9bf; 0x3a95a8856c442545; 0x53dd0a99ba8cc695; 0x69baea299027cf7d; 0x51ab7465ad00ff4c; 0x1f4d790d1123bd41; 0x59c721da40c73a43; 0x6afc73679ac031ed; 0xd838460cd2d0f43; 0x5ed7bdc91e0d1810; 0x2a8b4721adf12128; 0x5e666039677835ca; 0x40f0b0c6a3c9c0eb; 0xfc81a16b1dac38f; 0x55e1eb122dc07b53; 0x76144c3272e4c66e; 0x691614a7346f99ea; 0xc9a5e08d39907f; 0x17df5442a785dc53; 0x191c8dd44b0db9; 0x3579fb64051a490a; 0x55d28f3fccae0417; 0x35ef7fed127bed4d; 0x389658dfed0d9322; 0x6ac53945f95fb38b; 0x64b5c76e8d7b8757; 0x268ad2c1a69b3229; 0x77fe500e2a1e964e; 0x5d81ffbf97c10ab9; 0x687a1123b33ca082; 0x55521d4f4c369bae; 0x5b98eb11f5309adb; 0xc554ad0a3ccb37f; 0x1967fc79e9e63898; 0x76853e1552ea9be4; 0x353af546c7a1e10a; 0x5c76b1ab4d442aa7; 0xd63a6402f964f; 0x3acd8a5a07837ee9; 0x69f6c41a67024705; 0x14134568e80e79c7; 0x1494395e5e092dd2; 0x88b4a1f399a85ff; 0x4590f8454ba7e797; 0x10c6d50a23335a0a; 0x788fa6392a6aea62; 0x5ee15a9e935c8d64; 0x13f0dfdfb71f8072; 0x7b454615a118bb54; 0x75ae34f6da3824ff; 0x3ca31573a9ba7aaf; 0xd9fb79c5f80188e; 0x51313b1502053ffa; 0x77094504d8fe686e; 0x1cdede27bfdffc24; 0x30d21044874cbd2a; 0x4843550a6814106b; 0x75a9bfc3bf56e2db; 0x6876a01d5625b4f; 0x571c8261f54a32ad; 0x72ee4414e614a80d; 0x46f2df3dd8ad99c; 0x7edd81ea01009cf; 0x79603fe58e497ae6; 0x7e041a2efe1fdae7; 0x5af68a48c31a8fa; 0xa2dcd3ba871d63d; 0x3fe4d2b833af7239; 0x63d4c958ef7e2c1; 0xcc89223840125f4; 0x53ca5f53f06be1f7; 0x7414d06f97c0096a; 0x576fe148292db52b; 0x1dbd92e3edeba080; 0x1a48e1efc6541fc0; 0x181e335081cf15ce; 0x2cd87972e99ae776; 0x2cf09579db1b7e15; 0x4a22b91bd9230c5a; 0x41cd6aaea7d63565; 0x3de94eeeefdc13b8; 0x144330a4e0639c54; 0x7f23a6f302340c6f; 0x6c810cffac15fa90; 0x7145804e512ca7cf; 0x2fdd8274739d2974; 0x361b175cc46e08f1; 0x360a523a1886aca9; 0x1a5d90f88701771c; 0x4eb74edcc5dd6509; 0x41b6b5eb7e56538f; 0x693c5107f293827f; 0x616596510438e3f7; 0x57419f5a3628311d; 0x4578641f1e84a93c; 0x4f3fe8b219c0c573; 0x73144789cac09b3a; 0x6b319be813820545; 0x28561764fc1a8b48; 0x3996625477e07705; 0x77c5ecaa769aae23; 0x7a64305699b73386; 0x32f8d40cc43fa633; 0x113d18a55fec62ac; 0x6b8236d537b5da95; 0x8755a8fdacd1056; 0x1bc576f79a36b570; 0x74ce2e97ef1197b; 0xe23ced19539fa67; 0x61dada1111200570; 0xcce001a7bcf73e3; 0x2d79c9c8fe72735f; 0x17e4c000b21a42a1; 0x6be72169c538d89d; 0x6e93d26b856786f9; 0x6a76c1ce009eb1a0; 0x47cf09bed67d9381; 0x48e2f7b7acb9bb33; 0x24389d7de1ad6a74; 0x6e0ee2746b772fbe; 0x70935e9e951c84e8; 0x32854bb850d4c563; 0x50ae4cdaf2425489; 0x358f6d752239894f; 0x29be865c0b900a72; 0x313cc920c6a23dfd; 0x5ec7a82b56278d40; 0x4da0aed9248a3b75; 0x688b40cb6c5d590; 0x1a2dfbe9addd81dc; 0x3889be53571b7e4; 0x11c6aceb8ac15649; 0x631a70db3c020f45; 0x313cdfc68c4fa6f1; 0x5fc628eb87bbc85c; 0x429ddbac07c372dd; 0x4a5c780187527c52; 0x736b964c6b202bef; 0x578f2cabfc36924b; 0x1cf050bed1d269b7; 0x4111e252fcb31cb3; 0x75e65232f1818baa; 0x4d004e5b054ed1e3; 0x45258a93a6e44918; 0x67af88735bfae36; 0x1f7efc195d5588eb; 0x554bc5e4521d0d0b; 0x7a79f40b723bb834; 0x2eda343e76a39e7c; 0x7a1daffe9b28648e; 0x4f665d5067a6fb17; 0x780c0a9483a9c1fe; 0x2052235447ad120c; 0x70df6cc5cd5a6a97; 0x1d163f2c2abddeee; 0x10b2bfde063f8f6e; 0x24493717bf7b88ce; 0x3b38e8e489ac9845; 0x66d89ba31887c002; 0x31e8a5333e950881; 0x7f29684ad4448b1c; 0x4687082fa8f7893a; 0x773ce387f9151d0e; 0x338288a5c3701db8; 0x13a40dbc3394ce48; 0x4d3ce33e99586f9; 0x6c0ee001b31d3d5; 0x50dfa22cab4f1be0; 0x698b244feb147881; 0x5cc0e8fcf8986b; 0x51e40a8e9463766b; 0x19aad8062b6dcf0c; 0x55555045c83c4115; 0x22a0a22a200082a0; 0x4541051015151510; 0x28080a2822288a8a; 0x4005104110504050; 0x28aa2022280a000; 0x5550544050015500; 0x200a22aa28a80082; 0x441400001104114];
   [0x6f96d7f91069e618; 0x571bb29ae2c75170; 0x75267721f5537f9c; 0x5c6961cb00edb472; 0x1ade722e5d6ae3bf; 0x13c2550f5cfbf8ba; 0x669b872a4f7254c6; 0x5ee38f943a0a536; 0x47009b539256359e; 0x6bc1032588e76327; 0x5e6f10a8cefa8aa; 0x1885004a25a367c7; 0x293602f2506549f8; 0x12aa874ddd53ddb6; 0xa4be06270c88610; 0x4b0c73568390d9f; 0x640710a906b7ec2f; 0x6c7dd2e6a2f6b29e; 0x479f6be82aa65349; 0x7729b662731458a6; 0x59da46462eb4d80d; 0x1e74cdefe1f51430; 0x6be6e573202112b6; 0x5ac3553c76b0ab91; 0x5826130f2a8ae567; 0x29c60ab276550755; 0x49d97ff4aa076bde; 0x18dad1342d555509; 0x3c2f64c6a25f55a6; 0x773b9992d22b20b; 0x4008cb82009464e8; 0x523f0f4a4d09ecd8; 0x2280828e06fd10e3; 0x663f0acd57321f79; 0x7b5c94be7f4c42c6; 0x5540e6084dfba31e; 0x20ab6802e479e383; 0x67088a2efb378630; 0x296cbc592b05eb09; 0x1c15f6937da6fb6f; 0x5a3788dd4c787487; 0xb140b593e8d8db7; 0x25bc7b6c7fc0f6a9; 0x54029466280452ce; 0x2efc5c1653b786d4; 0x4d36d1e1daa5ca1e; 0x2897c1e649f4af65; 0x3ad513a446007714; 0x3129ac827dd5edba; 0x5c843acfc7b8b8d5; 0x69a72cb5380aeda9; 0x127163eb51a83594; 0x3b0554ce1ab750d; 0x45d2cd769ff8d4bf; 0x24c82ec497a445ac; 0x3287a737d4d3914a; 0x48348fac679ba0d5; 0x9d9115055b89605; 0xe78ec705f130ea7; 0x5f3fe41ebcc13fe6; 0x1b33d28d0a432975; 0x5a0b3111b5069337; 0x22863c2031852236; 0x75cf26187d7a273d; 0x2bbdd7e70527c53e; 0xee156e335b41b3b; 0x7b6a9b70497f9a96; 0x34284f146d8272bb; 0x46b69cc4abc6dfad; 0x52d05eb442bf1084; 0x3fdd847924090e00; 0x7119c1be3aa71d62; 0x52f6254896ee4034; 0x7f08f407e4f1207e; 0x35054bb15cc313e0; 0x4d7150534fb48d7b; 0x409a8da2b128fda7; 0x7c8c23949c431e21; 0x5e022174a0355c9c; 0x4f89c6f43d2df9f1; 0x3a15fd4aa6fe6cbb; 0x772c2e6f00baaf8f; 0x8e008b7580350ea; 0x243ec8f19ecf5262; 0x26c4c75f8fb3f2cc; 0x140becbae3858f0c; 0x614fa19976d96369; 0x79597b74493622e9; 0x4af63e2dd025bbbd; 0x427bc34ff7f16313; 0x3244ecf8158e6556; 0x6d43902c7035e966; 0x753da2bd8787f3a9; 0x642d2b7f4da72388; 0x2968efef6a4647a8; 0x31a7097a29ef47ef; 0x1f6e0110be50421d; 0x8cf90e753998fb7; 0x60eb1bf7250ed5e2; 0x4815d9fd9072321d; 0x256888e8ad1f719b; 0x6bf326b4a7cbe7ff; 0x515830b5ed8e55f7; 0x31d1ee1cd3592814; 0x79a259ecf9b6ef49; 0x17fa490090f671a0; 0x5dd727e2d0b133ac; 0x4a35e1d03dc5cf19; 0x1928d235aff49b13; 0x64563bee8d860777; 0x61c17cf2c01ad40d; 0x40f3af9274b58914; 0x45f3ef08879ace1; 0x328d779de398c30e; 0x591809c2d15c66fe; 0x546fac536f0d4ff0; 0x476c7b9ac683cfb9; 0x2fdfff5da2fff678; 0x738b205de76d0bc0; 0x221e5dd883d1af3; 0x68838734cdf5e69e; 0x495eb87218568254; 0x2787fc5a595174e1; 0x47738cf413d507b3; 0x468bb0f0e4dca203; 0x329508f34782a4c6; 0x3816cdb6d0fc2fc2; 0x25f1478cfd5afff8; 0x4d655e823e81da56; 0x1b40138a52b89fc9; 0x3d9a946a0be1d018; 0x552ab2fb722243b9; 0x73b2c1691cb4ac32; 0x3f50956da65e515b; 0x5d3322708c2ac6d2; 0x40a8f700fa6b1a29; 0x3153af00891d676a; 0x285ab6e7e5a330d7; 0x19e01cc5483814c3; 0x21867a250fa88370; 0x50edfe97b1953b63; 0x712f7f08cd93c7e2; 0x64c6ce17406a4d82; 0x17b54c53150aa9ab; 0x609ccd763245fc5c; 0x6746113cb0b01699; 0x61d0dfcc6b9dd580; 0x7701aa2aa231d51b; 0x3f1b6b4128af01ad; 0x19b82ab8d2215cc5; 0x2143b0e991d7ba07; 0x23acd8b854dfa04d; 0x7e78692a420b0d33; 0x7238123c9240250; 0x1632b9f71e8effa5; 0xea9202761330143; 0x1f29d49cb5f7cf48; 0x69c477c5a0d465f1; 0x4c5fdd858ee42868; 0x4c6917b647d09ac2; 0x40fec00befc142eb; 0x484123ba22626d75; 0x4900337af1c9165d; 0xe7055a25012d6f0; 0x33d8d8f8daa453d2; 0x3a3ecd60ae1a2383; 0x1f75e138d7d29435; 0x654bcc2276831aa4; 0x6dfb702c8b3aefd6; 0x68f3db66284f5247; 0x76a620d1635fa6d2; 0x2df29e1a56c32c36; 0x32d83c33e0b6811b; 0x2a89e61ceac200d; 0x28b32f1c87c875fc; 0x71d75ee5724432b; 0x39ff804aebc11e4e; 0x3dc5833577ba187e; 0x65428aedd3fbd841; 0x4239881847b92245; 0x603de1026c1b02a9; 0x7c698f08f7704e29; 0x7d2cd7435b43786a; 0x438f11f4eb31ec2f; 0x7465236dad5178e2; 0x2c3b55b16cd42fa; 0x7039b1a0bb89f50e; 0x40d72f2213df0a4; 0x97c2fe4968a1af; 0x1d4a1d6d3d9de693; 0xc0cd6fb6d47d2ed; 0x5d6d6ea58536e894; 0x1fab96aefb5f882b; 0x63f3cd607fdbbab1; 0x771e58e874e32c62; 0x7b0cb57b5407f2a6; 0x310df58ae1e23713; 0x72481f24ec194b09; 0x1552e132bb38dc9a; 0x3b00278562a3fb06; 0xb9ae43eb3804cf8; 0x33864edefedd838a; 0x6aec6948b1b241d5; 0x5bfb3fd444789f60; 0x354f7c4d24680051; 0x6f329e44cc470ed8; 0x310d26bc799da55e; 0x4f86737a0a61498c; 0x2ff2dc1d71f7a071; 0x4c405a6b8df3c9cb; 0xafed495f61b0f3c; 0x75ee05abc21efedd; 0x6d94da05b7a092a4; 0x7e01bd569dea0d2c; 0x495d548e66de81dc; 0x7b8f19c444b028fa; 0x58d328c8f6ddcb04; 0x753d3f23c3ff0665; 0x3166f230858a2f58; 0x5382828888b6f30e; 0x108e1f8e38298a0c; 0x3c0e3140132cbc01; 0x4c403828ff555ec5; 0x20c5ff45fec9720a; 0x45b6af75373408cc; 0x7a78f674e82b2c58; 0x16616550084aad7e; 0x15a0c9428e41768a; 0x58e178d06f781f2a; 0x2e7e6f894ec8ea66; 0x4726ec24fc112aec; 0x5b0b55943ba9fd3; 0x735b7990e148c5fa; 0x42fd8a8a1c21859a; 0x50c90017f5b3576; 0x2e8f6ce5e1bd9be5; 0x38ebc1e98d47b65a; 0x100383349ff797e8; 0x159899cbd4d514c3; 0x3ebcc0030d4826e8; 0xd856fffed4a6047; 0x4d0678e3fe30e37f; 0xb11dbf196c32b04; 0x1151a1960bb29cd0; 0x41daa6503e63c745; 0x1fa097ba7d859e4d; 0x271ab2a034d7f8d4; 0x6a0c798cc409bf08; 0x6eb659c2ba528e02; 0xb1ec9e27930f241; 0x4c7aeee9ca40f45; 0x6ca5bf1cb317e9df; 0x5c29badee3b718a0; 0x7f88c75c36d64356; 0xf753830b9857984; 0x38f7a7fd88729dc1; 0x1d1036684932f8d5; 0x7004aed9fe068708; 0x3d019c32812477d8; 0x3bf0072db9070e79; 0x71c40ee9b149f2a6; 0x698914f612395d0a; 0x59ca901bfe96ac66; 0xba420bb28284177; 0x471c0fe2b40051fe; 0x4a14854cc645f53d; 0x65573639182b1953; 0x5e2ee99ab22821d3; 0x1bbf867ab58b07e1; 0x4f93c952216b1246; 0x5a347397077da20; 0x50b01e1c4528f252; 0x229b2032a104ddcf; 0x5c47b079e29f8e9d; 0x430a6df04a41ae08; 0x4893d18c21844b59; 0x171b64ae24b85bd0; 0x53ab5978da9bd27c; 0x7e7181851b01d0bf; 0x37dd1adfdf125939; 0x2684b513d5ce02f; 0x73241ef5b381c615; 0x6149cf0eb74220c6; 0x130eef7fd27f892e; 0x50f024b11bcc4138; 0x63a64f9e7cae8e78; 0x46ce8891917ba38c; 0x2d31fca8c4afb293; 0x7bf6121ec90af8c1; 0x7d851a1fe3dfd118; 0x3708e5645dcc4f89; 0x620a0e05bcc4f90c; 0x4ca9382d836ffc5e; 0x520275109c0ad784; 0x7275d23e53745799; 0x79406a533216f092; 0x4a9e6c8f4f2bfe3f; 0x28f714e7b685d870; 0x774bc3b889a3cb58; 0x3430101f02b30e4; 0x5bda3aef3bbe5cca; 0x21632c130ffe2f5e; 0x323f097ddb87c3e4; 0x100da491d19e7a5b; 0x25fdb03457c74711; 0x52f05e7fbf9a29a8; 0x7cf1b192d3aaa8a5; 0x4e1d80c01e1026f1; 0x400500145fbb9dd6; 0x28028a2028080028; 0x101550414144401; 0x2a082a8208a2880; 0x450144415014144; 0xa8a00a0808a28a0; 0x5010140000551014; 0x2280222820002200; 0x55544414415551];
   [0x514230ee75aa364a; 0x133cf1f3b6c34844; 0x43f920442c30939b; 0x4b23a1c771e1185; 0x574e8ea77bf67ac3; 0x4af2df830e73d128; 0x7f676cf0f0a66e91; 0x41f6d0e0235e91f0; 0x132dabf818ac4e02; 0x437f8c9452f5bf5b; 0x5fed6cbf1a0631d; 0xf3fdb47800dbc58; 0x6fb1d3a2ca73fca0; 0x2763404e061ea8c4; 0x25ff4f088e4bd3cb; 0x73455d1cf9afd65d; 0x5d5c873bcdc418b4; 0x6631ade91323ac17; 0x5ffdd3a8f30e2d9c; 0x16274bd8c59d2c70; 0x6ee0a2484b27baa8; 0x743621ba99641d41; 0x7e57010abde47381; 0x297d7e710c1d0c71; 0x1d7fb992af435b6a; 0x6e8d6fab5f4d709f; 0x72db9f6ab8752fc0; 0x24e0fea74288d607; 0x4779feef5b13029d; 0x44dfc3375f0203a8; 0x3af968cdaaaf9cfd; 0x405534e92f3dd1cc; 0xc3bf309274c55b9; 0x6f0fc3819af860a4; 0x1b787e242b790950; 0x5a9522306833f408; 0x8020f87b8600ab1; 0x7c559b75598fa0a; 0x68fdee1954848c0e; 0x47d40d3ef09a929d; 0x2164f0d69de2a17c; 0x7a8a95a7a16bb1ca; 0x3e7f29ef02f0e979; 0xf145494b7b59875; 0x500da3f46c232675; 0x1d1aa4e863fa2d70; 0x349c22026f46d542; 0x730ad0d0d6d6da3c; 0x636397f18b12da26; 0x29e5b7cfcf242911; 0x2f37320bcd5338f4; 0x1f8653f9bab59ac; 0x2e819669562b9f30; 0x6772dda2b3d10a24; 0x781d6251e81dd8e; 0x34f2c92b46b2433f; 0x37b57bb659a0f4fa; 0x7a5fc188d5f05be6; 0x12d3e38d3a64fda5; 0x78669bafbd589263; 0x41452d91605ad589; 0x4d930c4fca9b561; 0x7b7073d47f4bb9be; 0x6f5610d6bcb5681e; 0x3b99c79fcd28dc1f; 0x1ab935ff941beb41; 0x123d13fbe3a86a82; 0x336ca4139c24c62a; 0x59435f1faa048b81; 0x4a3242897497256d; 0x2926921d8d8a9b5b; 0x3f58fecba870224d; 0x9ae909d397f0ca1; 0x39f4cf492163a8a3; 0x376bdbb78931a6e9; 0x4dc73536fe93eee3; 0x37161be3bfc2a081; 0x647ec45a99978131; 0x8654d6c660ca9c1; 0x1c2e2a96ce9a1dda; 0x57d6a21a14b608d5; 0x6a6d645b1b7f99d4; 0x1afe3aaec6f12d1a; 0x7a3b0d8d908e11f8; 0x3dee3b02a4cf455f; 0x46342ad360a6fb29; 0x3679a2441958e210; 0x3bf29539b2bc592; 0x2c31fde98cf3d7fd; 0x6fc602e48863f739; 0x7b42e7bd45998283; 0x7b3b6940477e97e5; 0x4f9a2a8d06d39eb4; 0x77062b1982c39e8d; 0x54c54fdfaf9247b2; 0x852f72bcfc79f9f; 0x5f899b9fcd579d61; 0xc6fadc20d68d256; 0x3487ef8b68cf9e0; 0x1c2d2a903e31fd7c; 0x3b2d68ccef73a5a; 0x6f9de7b02df1ad9c; 0x10f42565d050ca4f; 0x2dd44680d796ad1c; 0x7cfbaa3bae14d8f9; 0xe8f238091a82354; 0x704222f94b29d697; 0x5e1a90a068d14c21; 0x32d87efda1bc4c46; 0x244d4e48ebb7331e; 0xe0c30423eb86f1c; 0x23e18e01e8ffc58c; 0x343264b7a74241b9; 0x701ac9d64d3541b1; 0x41d7d4ecb431e79c; 0x5811c82771f1c2fb; 0x75cc0c3c88fd2eb0; 0x66fc0e2aad5e528a; 0x18ecb227bf3487ff; 0x52cb58c763bf6ef2; 0x58600487afcafad9; 0x149821e3e0c2917; 0xb8431c135374547; 0x2026e1da64af3cf9; 0x364b99d405ba59f; 0x716045b97ba1ff8b; 0x373799caea64482; 0x713062f3917e859b; 0x5da8aa7460f39902; 0x7365cc06fed127db; 0x32899b7972c2c307; 0x5305b6d8c6acbe73; 0x1349bd2f49cfc428; 0x6e3955ae9aaffcb2; 0x2dbde1d49a04113c; 0x4a60df8e99425688; 0x5b086569ecf74749; 0xb98741c7d62db05; 0x33e01b28ae27067d; 0x4a506b18422bfb1d; 0x2071b6632323666b; 0x2b78fdbbcbb465db; 0x4ac83d2d90af617c; 0x12d355f55fa9105f; 0x635a3e567370ba5; 0x65d2c692c1d4f3af; 0x56e700a2277b93d7; 0x1c7d74bff78470fb; 0x472f2973b352c7dc; 0x64f25b5ed4d37a29; 0x5a52df22aad574fd; 0xeb67ec3837515c9; 0x4080c041c6c2cad; 0x66e60755d72abcc; 0x53d2b3db29049d1a; 0x68709fddfad3c6fa; 0x67fd5701c4b28267; 0x199dcd4cb7ca86c2; 0x1bac53b7ea8af97e; 0x1e203b0f3a45e843; 0x70f837e0851a1a6a; 0x35828b2089b3add4; 0x48d32f2dac0866f1; 0x3bfefb6098ab2ed1; 0x60ca34ba791a5db1; 0x5b8a6e618c591dfd; 0x7b2c0cbbe04a0073; 0x2fa5d00de569a19; 0x33a6bcc14c3f2604; 0x6b18c8e2d0c50639; 0x1b45e8f7a44de634; 0x1337bb3ca35b7c31; 0x71a2d040c3556851; 0x7c1ca561ad406616; 0x2b9522c9c7e3fb29; 0x4103e101ea25643b; 0x5ced235248c95e5a; 0x306481cc0373bf7c; 0x19bae1eaff8f69bf; 0xf66f6ac074cd302; 0x365e7ed127950102; 0x3c0419feb0d648b3; 0x1671d4b8d382b713; 0x22f101162b4a56aa; 0x3ad2d5daea18a8a5; 0x7353ea42e704ba1c; 0x3c11f763f8004dfe; 0x71865fc27dd8c585; 0x583445d008ceecd2; 0x161abd2d95d1b382; 0x229eaaf24b8789c0; 0x73adcd3140d99bd7; 0x120b6fff485aecbd; 0x560ee442a24ac242; 0x16308d9243f7f34b; 0x1830779ddfb3d7c5; 0x4059acf414714824; 0x17dcef4e4a8441d7; 0x45d102f5b3fb9759; 0x2ce75f327c989fd3; 0x24f6229739285656; 0x55fa14a8c863150a; 0x5767c394f3402d38; 0xbac2d26ccabf133; 0x2f166e4831426c10; 0x5351cb241d1286b3; 0x514511ddc6fc2158; 0x2fa4dcebc53caba9; 0x2360290b71d181a2; 0x748b2f3c4a8c117e; 0x2809a47249ee1432; 0x51f999b01c353fcf; 0x7f98b33cbfffe167; 0x3e4e1c6aa0c19be5; 0x37bf42f3f41e614; 0x73004bed014a477c; 0x46cb2ce609d7f01e; 0x70c2e6b37fea68cb; 0x6254fc4d2890398d; 0x40cbc00a43d779db; 0x6f1709b4a59dd3f4; 0x7306acc9353295ba; 0x101dec1b7f682e16; 0x36103a3dde8e14eb; 0x227d63010bfdfa2; 0x1805ed9259346faa; 0x510a74a5e0482cce; 0x4913e01596f06d9d; 0x64eb91bdc2da86df; 0x64b1e5170e288c92; 0x575649832fdf1249; 0x51c87938e1a25b24; 0x7c13966c425357fb; 0x36e5677ee1c7e30b; 0x5ac42b86de7deb5a; 0x3712b34a62956555; 0x35a0c775c0af524f; 0xa843688280be205; 0x34b55e1800680ac0; 0x2c94ce42e17915e; 0x470355a8f1b3672f; 0x173d15ddcb6b629e; 0x555cd9d9b016f1b5; 0x2d0c3b6fee7d60ae; 0x7aaf6321171151a3; 0x6af9eb9020aa9e33; 0x325a54517fc8811c; 0x6eed3ea17b3fc2ce; 0x253df74b916e26ee; 0x393802619e688f3b; 0x3c6d7780fbebe47d; 0x23d4a407248a8507; 0x59cc5d1b15f400c4; 0x57c28dcc2da73953; 0x2eb8fc1440d8156c; 0x1fca274fc1ff1cea; 0x728732309cd784f6; 0x1d856d1101fd48e8; 0x3da9f0fe5a9164b0; 0x7c99720cc1294c4; 0x64f66b8b60c7d797; 0xe11bfecc9dc1489; 0x5cc0fc26052ad862; 0x21749c222bb98ab1; 0x122784c378c28d5a; 0x33c02ee9cb1e80bd; 0x69bccc78768f4303; 0xdfbadc7ad8e0014; 0x2c52c424bf5a3ac9; 0x293704d67698e0; 0x5dbae6af99876c57; 0x73847f512bf9560e; 0x2d6f04cc6d06ec5b; 0x14bab47a1c49473f; 0x702b466b8073fbeb; 0x774558c4e7b15beb; 0x6a166cafc9e4f804; 0x2b0bbf36db1c307d; 0x12ffecd64fb34c33; 0x63129bcacf6b4138; 0x6bfd9fea7edf790c; 0x27639382dbdbcafa; 0x38547579f22e56f0; 0xef478bae252bdee; 0x5e5601da0739c273; 0x4f45588d618241cc; 0x7256dd142c5924e; 0xac2f39eda2fed11; 0x2abe010ec5c4853c; 0x1305b49429243902; 0x7b4a04847b43b3b7; 0x627fa4fea6a7554c; 0x602bc8a16f247c30; 0x2c5ad04ecbba6160; 0x1e7553df8b7515bf; 0x2d2c16bfd1184cdf; 0x34a4e09faef318aa; 0x26489129ddbb81b9; 0x7a3af69923d2b200; 0x9f6720d797461fd; 0x7ec886888fb699d5; 0x2c43229391f930f6; 0x160015da2d7013a4; 0x9a378dd24096aba; 0x6a6b37de83893332; 0x15644df1732a6745; 0x562c3f661ae10457; 0x786272a3d3fa200; 0x4540541d0e60cff; 0x20a22aa0280a2088; 0x1541545554155005; 0x2a88aa0288280882; 0x555011415104045; 0xaa2088088820aa2; 0x1551545041550110; 0x2822a80002aaa00; 0x405104550500001];
   [0x2693bed3a8159a52; 0x261b552d5fe8e597; 0x3da940490a91c1fa; 0x47b420117234b355; 0x4d5d8fd3f2faf209; 0x3c8a2b8e4dd9614a; 0x1209915b042201d9; 0x65c91bb6f0c2e45b; 0x4f9d23eba4da2ef5; 0x431a86dcc1a5ff63; 0x16ea27c589f2b34b; 0x5d4724b2dd7b8081; 0x19efe136191fefc6; 0x50cf7a8a6075a815; 0x6d8bf2462c5214ff; 0x1a5675ed4c2640b1; 0x196d5dcff19e8d8c; 0x164e5ae00b2c91e0; 0x515e0d4d80aacc73; 0x63197a5ec69c7e91; 0x37e0fd41c515bb9; 0x33dfe3ecfbd13119; 0x76b936afa2ad670f; 0x2f29c29b258a2d49; 0x764292074401b630; 0x7fed8bf0287c7c26; 0x41e3e410280f24c0; 0x253432c84f5d6f6d; 0x6d4b1cd91695191d; 0x58754625292d4a4c; 0xe414effcf5f9bfd; 0x6738215b3d10fee2; 0x55af940003df0c86; 0x1a5c23b7bba48fbd; 0x61d181b090066446; 0x5d49415003309bed; 0x54e560ad544442a2; 0x483dd2f87e6da7a0; 0x74bbd847402f1c2f; 0x20d4f189dcf86520; 0x7079442ec0ba1a28; 0x100aa777b11d32cc; 0x4cf615e9cf396feb; 0x15407686ec596cc6; 0x2820ca0b21ebe05a; 0x20f7e07c8baf9af1; 0x498eddf184d9791c; 0x2c04c7dcf05e1a5e; 0x7999be74d78d5058; 0x1cd9dd2fdba3edd2; 0x5d586b1ed0dd672a; 0x514b49542780b706; 0x427ce77771844c00; 0x16314e728e0c71e3; 0x2099dd96aa05028; 0x2400207710219cd1; 0x214c85f0e5ad81ea; 0x1705812553e9b011; 0x17838ec4ef41a821; 0x5f5cdd9b93bfa4a8; 0x1289b576346cb2b6; 0x1015ef15843d9b0d; 0x3f1e197502bb6365; 0x5e673ac425998cec; 0x748480ea71deb446; 0x20acea3375698c54; 0x7c4c1919dcd99867; 0x1f438f6daf80c1d4; 0x49591d3169dde94e; 0x3bc0d5c103e94a31; 0x4fdad923e2a809da; 0x6e219d3cfe6cee3f; 0x457e252d294ead5a; 0x642c581f401cec6a; 0x4f89537fad3f776c; 0x6cd81c44d6dde727; 0x3332aa8c150a017; 0xc4223f3adb1df3; 0x478d8d104cabcaf6; 0x234df55b69c541a1; 0x33b5c08b42c2b43; 0x54163bb801f93636; 0xa56f946dd1d6051; 0x6adda3bd2ec1217c; 0x7bc124865820fa95; 0x52d5c5528852bba8; 0x3b8b7e05b7d64fd3; 0x3d1a59406c3a6d40; 0x8b93048f342ce33; 0x78d1521be152c1db; 0x68283847cd13416d; 0x322381bf6a1f7ae4; 0x46ddf4ad1334609; 0x1f27621cd189e077; 0x23f78e08c2e9c5bd; 0x776047ede70f65a; 0x62b1f9d89700f73f; 0x12d0238a32362242; 0x177d2c4680ca0ed6; 0x3fce4cd30f9df78b; 0x4ad3150293b95244; 0x2765f8777e0360c6; 0x7016b5ed31ac02f7; 0x11912731ed9a3167; 0x394e063708e235a1; 0xc87c8b1aebdc0a7; 0x1784b26907d101de; 0x6625776c78216b8e; 0xe108d29c7f51da3; 0x47321f802f264490; 0x4885f5b0d98d84db; 0x532d9c2d89de5119; 0x45410211a1e32a13; 0x3a2568de545304ec; 0x2acb26649d46cb55; 0x80c38d9b650a15f; 0x56eeea27ce5faff0; 0x4742c59da02aecc1; 0x4d5dceb7bb61387c; 0x7059f34cf7f3c7a5; 0x7bc77c16a48e4eca; 0x47ea4259b0310697; 0x42323a2eb51f3d4a; 0x6a0468e6f3826f1b; 0x56f0fe0b78551f10; 0x62329bd340434a76; 0x1a0cf4f6772f621e; 0x3a62101c658ee260; 0x3c2dda5c9e26bbec; 0x42d28944e32ab770; 0x7610caae2ae0ca41; 0x1102b30b15e240b7; 0x5ce604f300385a9a; 0x8ec18b7fdfcb675; 0x35c6e275b2901317; 0x2aeb1349501fa08e; 0x6373b03af62ee74d; 0x103d0560d5432795; 0x70addfad2e6434a4; 0x22a5f256080826f1; 0x396c739f81fa459e; 0xdf134be0be70af0; 0x55ecc12f91fd08cb; 0x3b6807deb03483df; 0x33dde5b653a85df7; 0x3f67d102760fa2d0; 0x76dd5c27c775719b; 0x3a714715e3a12f1d; 0xaad0641d865c0b7; 0x6709a64fa264c8f6; 0x26edb8d553be1901; 0x1e4dc20ee89ae68f; 0x25f91118be573ce6; 0x577a68f3ca338d54; 0x584e03eddb362b39; 0x32842cba416d60cc; 0x1e83866c82e7cba4; 0x4ee4589002733930; 0xc71846896627be6; 0x5749903d72c86b97; 0x396194e9600b1ccb; 0x66eadf10865ed87a; 0x52c583c883091c76; 0x72262901f6d51841; 0x15c6ecbec1e85a4; 0x763cc6bc5d29cdcf; 0x5fc5b713efa4067e; 0x5121fed3a744d185; 0x3dea4c7b06dc2f5f; 0x2d14b6ee91417868; 0x38dd7a94347fc547; 0x3c0baf0d13d9426e; 0x161e697662ef730b; 0x2bf9ece39d25c3d0; 0x4f5277d3680932d5; 0x1351245517bf8b2e; 0x67d8b8a33ff387de; 0x7715fd421f395fcf; 0x52fc63d99b640720; 0x6a414aa1bc589524; 0x7c3f872a8f7eb032; 0x5832cacccadda5b2; 0x75b94764e14343ac; 0x60d1184f8c79d811; 0x7f089b1f11007bb2; 0x3c6f2591e19114a7; 0x5ebf6f4fa32fc5b5; 0x76deddf292d26dd3; 0x4ce9a26c80b99424; 0x5a64fed3e93c45f4; 0xd59a695db583e8f; 0x2660d116b913f5a0; 0x4de94c8ede0c0a63; 0x6df22b64cf5d0d30; 0x7d92a75958da6c92; 0x369c03b0dcc651a6; 0x5af000ab2cd8e5bc; 0x31f25095e2493e40; 0x73b913c6a7db5a5c; 0x1fe831ea1bccb479; 0x3fa9289783233ab4; 0x4509530d3dc00c33; 0x5d84ec371645c8ed; 0x2ca4bfa52b743885; 0x70db6c477bb02e2; 0x29a96867565c1971; 0x250410a3ac00f6f8; 0x4083dea33ad4799b; 0x19a9ca933f62da78; 0x7dc2d6fcd8fbcda6; 0x4de46b1a313d8be4; 0x20be646d8461206; 0x5141f5af6bc5b28b; 0x5e41ab56d512d75d; 0x742444224188481b; 0x1fa2a080afadefbf; 0x5d784ee205f3f685; 0x100ee9f03acada12; 0x258d1e4951df3c57; 0x1f2653825e968d2a; 0x2c424eb674f93010; 0x688c854dcb9debeb; 0x31ba788293b33a2e; 0xba02460a1683dba; 0x23d6479d59b7b07c; 0x6b1ee3703662a410; 0x3c13236deb1620df; 0x7a8a5e49d16e08d3; 0x321e3a87231f668; 0x4515fb59ccb5c8df; 0x6a366b404caadc6d; 0x5cd1aea8d6e4f5a8; 0x1d3c33e023207efe; 0x7c5c0e2768017cc6; 0x9fb6d0a69e17eeb; 0x7c0eacaed917509c; 0x237a14e6cd40131a; 0x1b6efbd39f636148; 0x46b2b3dff57e4a36; 0x2f63a170a8a74d85; 0x6865b9110555bdd6; 0x23c0c6afbdc31738; 0x3b587a6e4061f6f0; 0x6c197bf2ccb4e5cb; 0x2ee9f4b7cd1d9b6b; 0x3cd92e6f9cd49620; 0xd4ff3d8a20a265a; 0x606b0cc3fa6f3065; 0x669359e40c97816b; 0x490b057eb309fecd; 0x47ed9efb44ed9787; 0x7afdd461cb1d4668; 0x65ae208470f6018f; 0x63b53e75f5546b1c; 0x565a3ed0db3a82ef; 0x765df748092be177; 0x2c6b3287716f27e0; 0x3e0c923494aeaba2; 0x5473145627ae3fb3; 0x1aa3802d46a48662; 0x14e048a1efcbe266; 0xa8d2be80b5539e2; 0x23447c8840e1c127; 0x181f43e7fa561e6; 0x6bd18d39f9e1b6be; 0x4175df044e103950; 0x59fa9992c88ca4f9; 0x18196d45f75e7610; 0x132f778956e535e9; 0x321ae238dc4898d9; 0x75429bde287eb657; 0x4185e6eb5f416667; 0x527a4865105972c; 0x5af8ae7e4f611ba; 0x3069fa5974d6159d; 0x45876d81c727d6a1; 0x23a6af1b12f40ca6; 0x1020e04243e3392c; 0x319361cc16d0ecf7; 0x759c118e99c48e29; 0x256d7583e219db81; 0x32f2b2c74d55ec41; 0x52647436f50658a0; 0x297e88071c21815e; 0x69e8f8d60429b0ba; 0xcdc7101e8361f0b; 0x747dfecf613e5c57; 0x258583688c3239d1; 0x6e752b2595d8be48; 0x7b2aa17d7a34fbe0; 0x60afa45b496b8284; 0x28556b33521895f7; 0x78e62911e27f0d50; 0x2f803f2ae788e3ad; 0x28df76687297218d; 0x75cee2d5b8db5c98; 0x790ccbfafad75dcf; 0x1b36cd97cfed48fb; 0x103fd501b1511b75; 0x749cdc6231978bf4; 0x1ea7ff9132b3ea57; 0xacf4da578d1f59f; 0x1228707381596d75; 0x6d1e2b9bbfef44af; 0x5dbb37930308cf82; 0x296caf53f8a8f020; 0x5c27246e31b01b08; 0x5bf60aa4cd202989; 0x55544511b307572e; 0xaa0a2a2a02028a0; 0x4110015145110000; 0x22a80a080a220a22; 0x1001510440010140; 0x2a00a020a000a082; 0x1500114155550400; 0x22a2a8a08088088a; 0x510101155151101];
   [0x1af067f97c67685; 0x238f90019c2c87b2; 0x12bd3b8258de1b67; 0x54dbf7beb6cddcc5; 0x718008cd35561922; 0x392c72ffa1ace696; 0x7cf7f54f7621b6b2; 0x6734ce208d4aa033; 0x4799be3d7a50e9a6; 0x510ff1e527c3eaa8; 0x7999c7586000df62; 0x3165fa4f03b24c5e; 0x575605efbd0a6c05; 0x1bd40c909e00bc9c; 0x4f0517a9ebc0b943; 0x72b0486e42a7ec38; 0x4d837ddaab5296c7; 0x3ebd9e1b6d00d2f6; 0x51b4f71bc157cd94; 0x6237e03deb09241e; 0x5bebe654edf49926; 0x115907a95799811c; 0x4c759038a2e909c7; 0x7a6fc8390c9ad066; 0x1ae4d287873e9115; 0xb5affef76fe9c82; 0x636f051cf9d6cede; 0x4764faef7632bad7; 0x32db3f7dd05a86f2; 0xe3c8d5ca148ffac; 0x2094a7a665dc65bb; 0x1c8dec434f683e52; 0x5608acd58cb3ff2b; 0x137235f71614fac3; 0x2fd271d63b043917; 0x5ce91a1c913c623; 0x506e2920044010a1; 0x3859494a78aa0aa9; 0x777f02c494cc3610; 0x1a9f9f6f9575d3b9; 0x7d6ec52a197b166c; 0x1ce984675c4d0bf8; 0xcff625b08880b50; 0x531edd122e2277a6; 0x5341789a4988b9af; 0x54d52ecf7310b852; 0x5aa38d2a0310b8b4; 0x36adb42f8c012a6e; 0x1e30d152adda1561; 0x30362f18a99e813a; 0x43d83e51f7ee2594; 0x40a6ee819839a200; 0x1870de95b69294b7; 0xdce927e61694a1a; 0x3a963c67ba3cf943; 0x2a1c3ccb88061476; 0x53386b7d5324151f; 0x6474224a283f513f; 0x7ea87a09df8e1867; 0x1171eab94f9abf90; 0x5c5de4ea7ae25103; 0x34d2854bc5d58801; 0x478c16a667e35d9d; 0x6c2ac4f97960ad68; 0x2948d869cd2d7aaa; 0x1bebb9c3bfcd1464; 0x285daabd68b3ebe9; 0x6098288a44a0738; 0x76f3e4f51d3ff42; 0x491f24442bde189f; 0x2e23eb49f898e322; 0x67a7acfad5cf05ed; 0x23303e018c44e8fa; 0x4e970849e28fcd15; 0x7dddea2a4585bef5; 0x6b3c26c95ecc60fa; 0x112a109406626995; 0x3971b0246cf130c4; 0x71c703bd7da0fda0; 0x7e2e1cef691bf07e; 0x5bb761c5e95b79d3; 0x8b40a9af13eaf6e; 0x3058891d0f8653e2; 0x645995c2ba1dd5f6; 0x529b6615a7d10fc2; 0x51aab619027365ff; 0x7ab944968f9545e1; 0x262f1288e7db398b; 0x3df2ccc11ad5c84a; 0x7192e1e3d3622468; 0x47e719fca149e49d; 0x2126c0ce4b0ff817; 0x349c472f9a604b8e; 0x791edc35f5943d55; 0x12f6c9abc7be3f59; 0x4e5ffee3ee9fffd8; 0x7376167998510a27; 0x3985dbf72ce308f3; 0x7cb1ce5495752d31; 0x77e415ddb1051f1; 0x5add88b882b0ea01; 0xaa60a35b16f923f; 0x7a95f92d11710b92; 0x58cf3af198bb7986; 0x7df04cf90236f53d; 0x472176aa9d22b19b; 0x1e1bd88872787a92; 0x7c00018d5072a110; 0x6de78a5e3277c7a9; 0x38afe93212f5e9ed; 0x7385ea2df5deb5b0; 0x4a5cda948371af7c; 0x104c8fc4e9001462; 0x42436a03ccf776ec; 0x6caf64368720bbe4; 0x1edf01f8ee1c53a6; 0x79871fd761f8ab2c; 0x75127abe66fec240; 0x69431c8e6126e1d7; 0x4a47840266af8b33; 0x6f1d046fd488631e; 0x1fac2c27473f0686; 0x2b6baea66cab150f; 0x3ec5738fe627b63b; 0x23c0ef77849ca224; 0x4abd780f6db77103; 0x1bd6bec51cb74ee2; 0x66e887daff4b976d; 0x1185b66e03eb2f35; 0x66c6cd9cb9185a7b; 0x4ad443e58700d868; 0x5fc6245996ac54b9; 0x72bf66aa1af677de; 0x4a73865bb073b9d2; 0x2551293c0218238a; 0x7d7cd741b18aaa09; 0x52e9472decff4d65; 0x7ccc37d382b0c3d; 0x6704de0443856514; 0x584309301b1751; 0x6df6a17db2d38733; 0x2b02c2a5df5383de; 0x39ed1e34120bf8e4; 0x4d319c7e91b2743e; 0x159506a2997b4232; 0x5b3aff1bfed18aa; 0x2cff1d8add2ad0dd; 0x5e6384f9a236d2dc; 0x74f68c03d975c02d; 0x4e6061d73592a92d; 0x2388c8c71d090674; 0x3fb106bc6def8c57; 0x4a063ee5a5c3be43; 0x256bf728ccaa3cb1; 0x73353cd522f669f8; 0x52a7cc00dbae95a5; 0x652f199d4928ccb1; 0x8038795282772c8; 0x61b498337dbc1baf; 0x1f1488d290d96ca; 0x32d21f92c9920de6; 0x4393e29b26318b03; 0x6179a13de4bf96db; 0x52cf746255e6d5a6; 0x1d13552b3301d783; 0x30f694252c0c28ad; 0xa3e4eb9e3be5ad5; 0x472ad4f118d70624; 0x261e70996f0c21b2; 0x6da0f90e665afa39; 0xfc3068c0b3db70; 0x39f1fd1bfdad9535; 0x6b8fb7e28caf84b3; 0x6dea3e8d06b4d0fb; 0x236ea4dfa3872503; 0x2a0d4740449c550e; 0x2a181c3904a6a29; 0x3acac586d49040dd; 0x3d9994d3533e9bdc; 0x2f58192d2b50c901; 0x1966dab56de267b1; 0x2b0c8cf5b961ed88; 0x70d1fd8bf76214bc; 0x7ca9d14f2f04a6df; 0x6edb9ab706e11b1f; 0x2d7f6884f11876d0; 0x3ac984b8b4eba4e6; 0x75069c5233e43a64; 0x632b9517b1cbe64a; 0x267ba483c0fd1112; 0x4d24227a22e1be8a; 0x67c350013b198100; 0x7db6f5ec73fd3bbc; 0x7cfdb8e3c107be15; 0x438979b8e67acc3d; 0x6df9b5cf649c352a; 0x3aea7d2d32f56a0e; 0x4dd2d0ca5cf4757e; 0x2c9b1ab3c0b2da27; 0x6f04c87a23d776cb; 0xd96ba9ea44eca30; 0x2f2741c03765bed; 0x20412bfddb65b3c2; 0x1d4b788fe92513c6; 0x51bc7d37b7f1ad56; 0x410af612a217b603; 0x71f561d44955da9a; 0x69db171722f260c9; 0x72051a71eefe791c; 0x34b7852a334256d0; 0x6f864b9eba5fdd66; 0x525ce2b7ff30ff06; 0x7e40585080f1eafe; 0x15902ae8a102407c; 0xe796d77bc9a5571; 0x52d42e3882ff9212; 0x2e5c267fa21ba37; 0x6b1b998e7e8616c2; 0x59f51da391f99af3; 0xefd59c86940df2f; 0x3a84f762de137774; 0x1e1c9d32ccaae13b; 0xa589a3ade077f76; 0x5a73e59027b0d1; 0x2c6a5ea33ab1b755; 0x54cc3677c63517b; 0x50af5e3019331cd7; 0x2c0f5b2598906a05; 0x76f8a72e24edd00e; 0x36fe6bc61f63af7a; 0x259174b642aced87; 0x2c71f62726420015; 0x60405989d97f1cb6; 0x4a499c92dc1a10d8; 0x100827aa783ec26c; 0x3fc92c45147c2351; 0x3ba6088c24d8916f; 0x7f4f824ffee01969; 0x21b421da8ddb1a58; 0x61533c819f507421; 0x6467021819415420; 0xa75e6eb8f0b75a3; 0x259a2fa6f05b486d; 0x6586cf3036737ba3; 0x3373f2ee01db1aec; 0x578e1870be03051c; 0x7c5b56f19aec5e7c; 0x257b3c07db23de06; 0x7c2d0796604841b; 0x2003ce2c7b49e9b2; 0x29cc3843d5fa1ad; 0xed8f05ffa6c42ac; 0x2fed9f7afc7bb4a1; 0x17b01d06fac4e6c3; 0x3a1f121f78419988; 0x6100ced8d59866e7; 0x3c4a1afec9c7ed85; 0x5871d43ea208465; 0x57d074ad4a8759e8; 0x6c3bcda404367fbd; 0x6a8f4c4bef832f6; 0x4d38a03eec3f64be; 0x27dd9213c00c91c4; 0x316f78eecbe44744; 0x4de9f9f15b3e4301; 0x58ff312e13bc016a; 0x47f85a94353a60d7; 0x1402206741d7820a; 0x283b23de8a5beb13; 0x7dc6b717c0ad8ade; 0x3ba7e1823c630cf2; 0x43ed9a6e4909d0cf; 0x4e1240819cea5a0e; 0x5839b3c0d277bb4e; 0x6610722e67c31087; 0x283f9c076622f574; 0x490d3c6519f2ffc6; 0x23a80aca32bdbd11; 0x66397afb01cc9b5e; 0x70b6c2fe6063f07f; 0x6f9e647c023ee816; 0x4bf4367afacfaf3d; 0x230f9f9a23f92ef0; 0x6946cce41d4f34f0; 0x7777f110922c3ae7; 0x6b4ff99fcda5bdc5; 0x47ed0568548a6d25; 0x23606fda03c869c1; 0x64f6519bc456909b; 0xa49db2c3a6d7dbb; 0x196b71193325695; 0x389ec5a04f80b5c0; 0x7adf203eb088ccf0; 0x78a2434233dbc9e7; 0x6b1fe8aaca44f31; 0x67ec8d9834162eb5; 0x3f982228d364d5ee; 0x65215d920cd7ed73; 0x155c5088a7837964; 0x28033bf67889ab54; 0x3c0194298d9d5874; 0x4850b9a8bd76c982; 0x3f4e55028015913d; 0x25c18968f5dfccfc; 0x314eafa66a7aff23; 0x74d6b95fa9e9cdd5; 0x3d46a8f1f7c81187; 0x2fbc81197fb39ef9; 0x541001010107edf0; 0xaa08a8888a08882; 0x4154004551404010; 0xa88a88a22a2a8; 0x1541451015415000; 0x2028280222228288; 0x5504401015511541; 0x20808a288a022282; 0x154500514010];
   [0x3cdc8d664249fa1b; 0x7e966f258ed64244; 0x298072d28cd49c92; 0x499fff6adc8f91e5; 0x2c7bfd5dab205899; 0x2071b2cc44f761c3; 0x1083790558a82464; 0x63a319fd775cf40f; 0x2ff74449252d39c5; 0x73de716cb756236a; 0x6db42bd3093cf25a; 0x272d86a338d9b6e1; 0x324a451864489a6c; 0x236cef06cbb7c2da; 0x24223e1c3295af07; 0x169445ea0412b891; 0x78a71b4dff290db1; 0x6425400e7c4ba8a0; 0x4c1ff4f8baa21ed3; 0x39db07702e1f18fd; 0x4fbc5b75d55969e0; 0x204b379bd9be31d3; 0x45c703c695bdb0b9; 0x347ca20744106efe; 0x30edb517147f36ea; 0x781d4ae374fcff34; 0x6a22be117560b873; 0xab7c997686ea00; 0x389b983a0e33ab20; 0x4a35ef0d103ed815; 0x65e59c96a954740f; 0x7fbf2d043abf7f4e; 0xe995e34c476d766; 0x2b5b215b282b8206; 0x562e312478a1af4b; 0x261637ff046331eb; 0x4e0bcff516022070; 0x26dd055bc8ab3eb1; 0x6bb49fab3278912c; 0x1294e280907650e1; 0x5d2165ca32240035; 0x4a523ab28aa9f17c; 0x40037ae9ba737dd8; 0x1aec688a54cfd813; 0x6d2ba9db222c07b4; 0x4741ce12ba2118d3; 0x13f7ec47b94ff1ea; 0x572880c344eab71c; 0x660ec1d313f40e3d; 0xacfd32226542822; 0x6a310ccb2ccd7d02; 0x42c9afd09f31b4fc; 0x706edc4b634f4c99; 0x7523a429e8b02f8f; 0x9f38f7eee5d7675; 0xa685f20860d9a38; 0xe51c4b18b273a3d; 0x7e75c0230d4fad3f; 0x11d19838d799a421; 0x6237c0e3d0c2f531; 0x707651b7778058d6; 0x6003db1d26216b48; 0x13f26aecd65b4015; 0x5daafc2080c01369; 0xda7a3a54e67901c; 0x3129c59ce3bce686; 0x40ded2b9382f2ef9; 0x278885b18f25a84e; 0x3571783f732a13df; 0x11b6b6256f5d994e; 0x26a9bfa94e736ed4; 0x7312e28964de63ad; 0x48ffd31ab1796cb5; 0x2c0fe0a7c391ac2; 0x7a24d189013d8522; 0x3d48659465cec640; 0x7bcc597a61cbe1b1; 0x6f7c039597d245d1; 0x562ca9db48e81a3f; 0x7852c9c41bd42166; 0x1ba07bf3aa2c5d5e; 0x1cb87d43aaea9485; 0x44449e7fe430232; 0x1a76d35277ace10f; 0x5a37bd03b89284b7; 0x1be9d8be40a8bcbf; 0x7257fb242d2ee20d; 0x14784022cc963893; 0x2435c93148e9af5b; 0x20041ae316a209de; 0x3512fab658de84a6; 0x50d34b6d5a2df1e2; 0x2ae0a76599e433d1; 0x288bfe534f7e7944; 0x161599d075c90857; 0x319e6610fe586dbf; 0xd12a8c2bd5d0733; 0x5fd5ebd83c10c60b; 0x44a5389727fd47ac; 0x4814728362c35974; 0x3efb9e40c6c98e6f; 0x2ec190cb1545fbfe; 0x6b4213e0e3304796; 0x1cd374cbb15ea06e; 0x295e00de807cf36d; 0x343f17d951230f02; 0x6464fb2d7f93b30c; 0x54eb0efa4125a914; 0x58207926638ff501; 0x5002ad7a8b3e4f79; 0x115b37d7beda6ce8; 0x5ca6ebc2d7d542e9; 0x5f3c52bc6a8064ad; 0x3bfc0505b3d6dfe2; 0x4c3c654a17d0c449; 0x3941dfafdb9724b7; 0x2bc5a7cb070b1d7d; 0x58cb844e736ec791; 0x274e33f325c74d78; 0x4c490c2a82d116fb; 0xfb8f5bda21dc690; 0x22eae7b2e4ac5d5b; 0x723650f810b42a6d; 0x2bf1e139d252907d; 0x3b1dbef9a28f08c; 0x31bc6c028313fab5; 0x7583bb34f2b850b7; 0x38d99417fae822db; 0x328717bc2864ddd7; 0x6fb807fafa55d679; 0x42c3d1d89c6fcae9; 0x36ec2dc143fbdecd; 0x5504d34ff442eae7; 0x14e28f333073aaaf; 0x1926d070a0d7bf17; 0x51977cff61d850fc; 0x7f327ea00670fbbb; 0x495527b901f836b5; 0x1d2a0f43d2cd880e; 0x4b063909563d33b; 0x6b591a83aa8206b1; 0x48b7a65c1a29d7fd; 0x7c0ef9d95b139ed9; 0x78e5404cfcd27d98; 0x689c09184fd40383; 0x38597cb6bccd083; 0x4cc3cb79fbb72d4f; 0x567504e75de92e66; 0x568c6448b9149b5e; 0x5360ad568c5b9551; 0x64c53a5bedaf7ca5; 0x5dd4ec47c6efe3d6; 0x5fcc88f2ce681ad2; 0x59fa21a4afec4a26; 0x40b8a03bc0346f43; 0x6eb463087be10a30; 0x9375ca2d2a5c30f; 0x2f8cd9d7210f10f9; 0x5b085278e07cf42d; 0x2f319afdd42b6a0d; 0x34c72682e817df; 0xdb541e01e01e0c8; 0x7c7fd58d6cab4fd1; 0x742d580e7aa296fc; 0x368ffe2e10ece492; 0x733fb58951b69065; 0x845dc437d5f954d; 0x6c73194217055896; 0x4e83a13547341a9e; 0x34527756bbf1af55; 0x41f0b459282d99b; 0x123c376159ea53e7; 0x45a8011dd21c40ae; 0x51e98c93faaadedd; 0x73e7fa5f9c430a13; 0x1c7bbd980b36355e; 0x49c7885d8950a475; 0x7527e35c43aafcc3; 0x2ad3d2d9b6e95835; 0x416569ccc7c3daf9; 0x21d1180a3a5001ee; 0x7d7d0e699391c886; 0x77d86ac98efa8dee; 0x10f9235cb80bf23c; 0x1f070c1545e11a48; 0x7e0ff672095f0889; 0x51ab2bf3cbf364db; 0x117ac737ac447c44; 0x3d1f9e822e01e5d5; 0x302e087197d6a693; 0x7f546df341a2e89e; 0x132e582fc0d0549f; 0x4eafcc5e359607ee; 0x50ac7252acf90d45; 0x796e75a33ca06dae; 0x50597579feaaae9f; 0x6a6af2fc110b4858; 0x4ab4dc1247117f38; 0x37c1617552082399; 0x6caf73866e7417f6; 0x76e367a479cec41; 0x31131dd0bd19153; 0x2559048083a6f831; 0x632946201c6508d9; 0x23223f27e7b1979b; 0x2e74bc6992a23c77; 0x4cdf263f3777e333; 0x670f7bf9a0c3ec16; 0x6f26912c29c0626; 0x5b99aef09662106b; 0x1e065f41d7ec0861; 0x54055539b75fc444; 0x71c0dfee74066926; 0x6c6d3edb4fefcff6; 0x53be86811a0f1d93; 0x40d3d75a6b73f02f; 0xd5fccc3926b206e; 0x615515c4aa14225f; 0x7bfd37b6df26f1cc; 0x1800670f8bc3f5e9; 0xfb84534011f120d; 0x5c37f483c09403f3; 0x2ee5408ec54a4678; 0x115e1dccdc7dd453; 0x5720bb63046d99aa; 0x5a8936a7ae730997; 0x41835ad6c2e116c2; 0x23d9d6fa0205da39; 0x7c2eecc419eeeb74; 0x36fcd6d9d657a38; 0x7660f2915a90c386; 0x421fa6bf49ae3a5e; 0x537feb10d3aed3a6; 0x40da338caad5de09; 0x32ea1a6f5ffef546; 0x2a7e41c1e91f3360; 0x4844eaa374f877e9; 0x130d3362f27f95ad; 0x114807f5de9bbb96; 0x3ff71d368bb76473; 0x13184d8547efdb38; 0x3d0777bfe3f14b87; 0x62d2aba44b0f940a; 0x1a3e364f9461ba2d; 0x7170b769968ef164; 0x5d8b4f2f7b1187b1; 0x6700a3eccbb06a72; 0x4476c70dfa4c9abe; 0x7f329eb4c54cdb9c; 0x728c2cb1dc788122; 0x2caaea05d9ade437; 0x4e8816683b80d335; 0x7485f8697d75be01; 0x439f6cfddb1bb656; 0x758761df43453289; 0x22a6002442d1b173; 0x65d17870b46b9f13; 0x50b3b0537d29cea2; 0x6d5d8e8b96915390; 0x21233a0c77d9e95c; 0x6a39be6ba7dacb36; 0x64e8339fc9f8fa1b; 0x5652c7ba576c97b3; 0x1d2cb065952a0c5; 0x1193281dbd4d2a31; 0x18349d9cdacaf363; 0x61b74f59ced5eaaa; 0x37e01f6ebe3e79b5; 0xd3ef36e047fd3b2; 0x634a7c95de5ca78e; 0x6eb55698f1191e47; 0x730bd8d69624f274; 0x4fc42fef083cf8fd; 0x5377645b1b4361f6; 0x14100d7a5fc461f0; 0x123adc35b7f52950; 0x61cf033ee62ae680; 0x1d593b179fec5b64; 0x5545c9dbf5c27a12; 0x7b261e7d469c0bc7; 0x66be26f907a0b208; 0x5cd84bd051776804; 0x3ebad6f223a7e4be; 0x1d47e9a11fcbbedd; 0x680a4c4800668b04; 0x15b1f5d7c6b6a92e; 0x50a49e8f2b635eb1; 0x6f1fb8d8c39a1f5f; 0x775b7db1aaec411d; 0x50cc1cf41d044fce; 0x35cbf854e3b2ccc1; 0x2cbade0b32b2361; 0x3b1a7cc49b47400d; 0x89e4e13f4c4e5d6; 0x5593de24570730ee; 0x9c2bb4b497c0722; 0x33b4fedd972325b0; 0x3cddef1134e21cc2; 0x625694f13a468ca8; 0x3b7081af09e158ad; 0x216bcc8d19dd53dc; 0x3d27bb463ef70c3c; 0x7f34d26a7cf13084; 0x4ed51d1e3bf08f9; 0x5b2ade0d2ce0c989; 0x2b68447f1bb8fbf5; 0x41893d88f9c55ee0; 0x511774c4e0e04ae3; 0x451550044a929e85; 0x28a0aa08028a0282; 0x141415554040044; 0x28a00aa088aa888a; 0x4544004151400414; 0x2228a8220208080; 0x5045010050115001; 0xa22a88882088a0; 0x54145405115005];
   [0x4c6bc9e4fe956d0e; 0x10f9b2c9e4a014e7; 0x616760dcdb9416cc; 0x49aed9b59ed5ba5c; 0x6207f476e123bb6; 0x1f6be65aa0dc31c7; 0x53595d42aefe358a; 0x35fef6dba0ee07f9; 0x4489a5dcdc2a4dfb; 0x413e77c296d8d12d; 0x1b1d64cbeafe086d; 0x3e57bc714f66f6fb; 0x3b80b030b4d0d520; 0x55cc93c8f5477f0d; 0x9f4c967e24b7ad8; 0x2e49cd4e980e03fe; 0x7a61ad94e759379e; 0x3d580037c074689d; 0x1004cd63eacb4b4; 0x376ca2e97096be09; 0x38ca86f63db2a14b; 0x3d17725713c859f0; 0x7f2e58e6361ccc7b; 0x5fabcb0698645a65; 0x5e8cf1e513871991; 0x13826bccf06b8c55; 0x55d68a5b958045aa; 0x20c9171da7d35a2a; 0x6d2d7b78e6f70a39; 0x591493f6a9185791; 0x2f22c8e99fd16cc1; 0x6806491e6f66bd1a; 0x47fa37900146a469; 0x732892e9c71b9dad; 0x72f23f8c351ba321; 0x54150805412d9ba4; 0x2d344d59bda0daa5; 0x32344662416bfb55; 0x3bb742d7ac2c0a11; 0x37552c588feed011; 0x63ac4e2c89efa9a7; 0x1ba61d6d491f5edd; 0x7f7153d244d33d10; 0x69c9ec88b80a6861; 0x29fec0197222f561; 0x27f2c5ae74770a7c; 0x7a45e2e2037ccaf1; 0x4b70b5ed3b5a575b; 0x3fcfd45d8c3347ad; 0x50418e2a4ac65fa1; 0x301461ee50d98615; 0x3235629527505c98; 0x11ed0b86ec591d9d; 0x4191a86acfd0ee15; 0x3ac0a946e8bd7eb0; 0xfaa84b23960979e; 0x24c7185e3c3f2119; 0x6b082556a791a52c; 0x1187060c62510b46; 0x5d4841a6f76a1087; 0x63f35fd2b5f32279; 0x5af78fe49a64119f; 0x2dd09f9149061ccd; 0x1943c4932599bd99; 0x2420e7d01c64f1f; 0x1759eac800b8920e; 0x7dc4ee429d91ed20; 0x638f82cacb6b3a6d; 0x558b8e33e729962c; 0x48d7181bddb90d69; 0x4678a36964b56eb7; 0x6faf2d0f3edf59e0; 0x3848830f26d83b79; 0x5e76aa094c8ae8eb; 0x672041f1ff598599; 0x1b45661fbb988021; 0x3a81f1a9a49c7e02; 0x32914a0e6d831f00; 0x4d283a0933dc6fc0; 0x5ebe4f5d16c905e7; 0x239dd7f427762015; 0x4793afa72aca33c; 0x216be1634f70489f; 0x185423a347bb5b67; 0x2f3a756988470b83; 0x4aaba1de11257fbf; 0x6041d3f2433e00d2; 0x5fe6037ca465a87; 0x4a267d6a2f679a1c; 0x56ecb4b04f7842d; 0x5b37cb380908238c; 0x644ed91f0bcc4134; 0x7c543d26b37d30d8; 0x37104f16fb52279a; 0x69e0b41f3084b9d4; 0x5095b401469f6467; 0x1b6a18a5c105536a; 0x3b4ee68df1550a37; 0xcb7123869808ae6; 0x6f5a6a2e5a80295d; 0x7487ff7ac391a034; 0x35cba79032d31b71; 0x3279243dc6f8cbb6; 0x30657cf14f592d3d; 0x269fb17b5c4e2db4; 0x2f5423a25f8e1b3a; 0x5d19641511039fa6; 0x7559f9573c07c55; 0x5f533348eecdfe37; 0x52368fd8affe3b4; 0x4fa7e6b53940c4a; 0x4e93eb5930fd3e95; 0x5d014ffdd84bcc95; 0x54bb2bff485cf1ee; 0x58bb102931878bcb; 0x2397286898541ff0; 0x395857c5e6dea4b0; 0x542603c742072f48; 0x12cb56783438061e; 0x3fd49a4243a3863a; 0x5168756f7cccd12; 0x603ad218367cb78e; 0x1ca1ce575b73d974; 0x1d6ce451bbdff4fe; 0x39a97961250ba5c4; 0x7bea87535a3a56d; 0x28af5510dead575; 0x46e8ae99319da993; 0x7904e48044bc0781; 0x25a5bc788c1b4b74; 0x5463e5ff994d7cb; 0xaed043585f4f94a; 0x79124eb58c4a2d81; 0x132ce3ce230331c7; 0x152aa298fdd4f1f9; 0x62f699258b5261a2; 0x5e404adef43de2c3; 0x27e2fe101b096854; 0x383dd54e6710e627; 0x31628164805ba183; 0x2e81db7f32cede50; 0x4ca6876e7e95cdd9; 0x279c680212cca40e; 0x4d9d760abdc7b993; 0x7da32e37faa022f0; 0x431da478cebd3c7b; 0x1cc23d07f6543d9f; 0x5cf74819196c8056; 0x64db4c413b9e4585; 0x5c5c2819ddfbc7aa; 0x1c4e0e30f9ae568a; 0x1514fe7db8859975; 0x32f2f71ce32245fe; 0x23853dcf16b209c2; 0x25de410dd2abb970; 0x43589f06d1578e26; 0xe441a7d58f65f52; 0x2bf2cdd000e21c6c; 0x2cafe78c8013ae8a; 0x315e35eb4eab5cd7; 0x31b1e3429b39d558; 0x11c3eab998b98e2a; 0x273e47716992ba2; 0x24ad1a207bde695a; 0x4ac2305ddd52b533; 0x39d189c853ebe0bc; 0x1e687a77ee6ea88d; 0x282d3306bbac9ae2; 0x61de037d28ad1880; 0x5ae4ca9b6a839209; 0x3a866ba3fdd9f04; 0x62f90f99e9aaa99d; 0x5ccb92a6707819f5; 0x3e514f440cc88d1b; 0x3791446f305d2f17; 0x5b857f8a71a38ef2; 0x65d0c2d4e79ac927; 0x253857ab8a5c088a; 0x62f690c1b6223500; 0x246851cbaa5dee5a; 0xe79470113a9fa2c; 0x66901638a00aacf3; 0x642f8e656beaf490; 0x105f2e08ad319daf; 0x8c2d6a4f6800a44; 0x3fd531ff148fbc42; 0x520a24df0b45a26d; 0x4089067401a09cf; 0x65e8792eee616f7f; 0x12c55fdfb3574c10; 0x5127aa0be704ce08; 0x763dcab91582b49e; 0x3bd33cd1e84124e0; 0x69609c2db5817313; 0x1b54747c4b43ebc3; 0x1c458a7759a55357; 0x41a7d97d4bbe556a; 0x2df50e8520d0c738; 0x2f133608a89ef4ac; 0x1766eb1b44ddb579; 0x7aa05df69c0f8105; 0x59c6bc26807f0b9; 0x6afe35b27640fee5; 0x176dc335ce0dd841; 0x65c3bc7a1580c1e8; 0x54cd49c743002e99; 0x3ceaaf4c7f447187; 0xf00d55b0d2389ac; 0x706d5dd665f06f92; 0x414b6d38271dcd17; 0x40f2dbe814dd24a4; 0x75af631cba893d71; 0xea20a93805757ba; 0x4dd6a9d00f39d602; 0x35d214cb972d6ee2; 0x1a87b2df979d8c56; 0x3f4e7fb21e7525bb; 0x7e93e8f47a60330; 0x1ec8523c63123a63; 0x3df928f544e0c2c7; 0x76b2b239e9c9214a; 0xb550b3cc18c7cd; 0x3ccb0fe1a90a0b83; 0x36fd89e8c0bb6155; 0x189fe3a4b02c7f34; 0x74e1116bf65a0d77; 0x3c3f77734764e92d; 0x6d3d579a2057441a; 0x5e68cb6644596ee1; 0x3007b7a9c91a5994; 0x2e2634490e944e5c; 0x694a4f6a7f8929a2; 0x1ae6ee8e4fe11fa5; 0x1cac3d2d863d15c9; 0x6526d73860efd279; 0x6f4d662cc2b0c0ea; 0x5b6c9c1c4a959c92; 0x64a0a4c097af5430; 0x429a3b0a276294c5; 0x3541c7cf33ddd9e0; 0xa6217cc4ab8e279; 0x3ae75ae639031606; 0x2b71dea36d22b2cc; 0x719c06840c246fc3; 0x1a484a80658dd5c3; 0x4960de1015531508; 0x7a4644a0674aa945; 0x7973289d3b376893; 0x5be8fb48899431a1; 0x34c3a3a1cd56b6dc; 0x40ddbe2a2962c4e2; 0x90404cec805102a; 0x70c758fa0eab40a6; 0x4e743df9ea71a3a5; 0x29879488f1f76c5a; 0x6298917b4cfeecd3; 0x303d355a23b2c2e9; 0x108eb07071c9c5d1; 0x5cdae471c3965981; 0x50d1d8e4a0d1badb; 0x4878052ee4eeaef5; 0x4c2c40df36a65a52; 0x19d7242177459bc0; 0x36dd15d718191c3c; 0x67cbf3d9509f984a; 0x553343a5f9b0dc5f; 0x448201a62d2869ca; 0xfd09187a2682fa1; 0x38679932b4383ec7; 0x2a57913f6cfeecc9; 0x612dead0575e1671; 0x3dd951bd69d6d27e; 0x6e96b7fd87e70d45; 0x1f046134e2dc84fc; 0x41d512cf5cd1c1e0; 0x7867e05b0d3e1515; 0x66a6243b2c40a95e; 0x185fe888b65dd389; 0x2ad9593895e84108; 0x520de1020c9208af; 0x7bfd09282012787b; 0x4c671b7c2e3edf50; 0x1ead3e535b58f23; 0x34aa47d106b23601; 0x6ab9b22dbb97fe47; 0x779c097b60501512; 0x6943bb174cf9801f; 0x45589976d43f6c65; 0x1b91ce01b08f569c; 0x60b06a06848e5d6; 0x18a42c0b47938b5a; 0x6d3069946e8b0908; 0x1f6c69c89a1b0507; 0x336fb380569f4df; 0x48d7211628a59309; 0x3dd3814b9fb96462; 0x7b1ef196b50905bd; 0x40a15e9fa470cfdd; 0xa7ee062cea361f; 0x63bd57f027662036; 0x2c646abeb4f92ddb; 0xd2883a901206a9c; 0x13dd755f4bd5e261; 0x6e47197d7878e4cf; 0x1f5404ba2b0972b4; 0x54ce229b58ef38a1; 0x2b6567571e96b3e0; 0x20b12af1c8000ff7; 0x51545145463d4f95; 0x28a2a80208880a82; 0x110055454514055; 0x2a82a82222a0a20; 0x5140110414505455; 0x288aa08a88a8a808; 0x540444155450511; 0x8a00022222a8822; 0x11405400011111];
   [0x23f62c2f7bdf1185; 0x50cc5276166a68b2; 0x30c539c2c23cd86f; 0x6477cd3535112167; 0x14792eaf3be003c1; 0x1e3f3da8e448cec1; 0x169be5e2af08f93a; 0x50e8d74b4fc88c76; 0x654c2efbe41cc9a7; 0xcead364ea6eb3c7; 0x22e8a80814116add; 0x1ec12feeb69ec35a; 0x141ae689f8642764; 0x2b90c733adb8df54; 0x78cdc206164e88fc; 0x550359bc4b9efcdb; 0x62fe7fbec7dac389; 0x407b926c1e3f2e08; 0x6b3811a9a16fdbd0; 0x77c425b91d90281a; 0x369ca4007cd968ba; 0x138221220de82c62; 0x59902de35d6b0ba7; 0x60f458a21a368c66; 0x244a9fa3204cbb32; 0x33e1c7ea3391232e; 0x19108a4e9fd74b4f; 0x327b99f227914521; 0x2f0482d813735c91; 0x5b31ff879874b24e; 0x61629da81f51ccc5; 0x4032124e5d40560a; 0x5920de5054c47949; 0x59abaf3a2d3518f; 0x4d03eea9aee2129d; 0x2f94964fe61be2ad; 0x4c3097705bd5a0a3; 0x3f0733fe1b1d09ef; 0x8e6bffd8dacc1d; 0x3ad845dd30ccd545; 0x180358723c5381be; 0x14ebc0cf328aee44; 0x738d1d187a38a9b2; 0x15618035fd881c7d; 0x6fcadd28ae9205b2; 0x52b3fefcfb842086; 0x4948af0201f3638c; 0x7bd3a88934881af5; 0x51ba8b3ff0c38f8a; 0x58304c5b410392e8; 0x54f3655211f84bae; 0x4ade147bc28e1060; 0x6d5d9c60b323495f; 0x6bf882cb90716af7; 0x89e1c4df15d4bc9; 0x5fbbf4e452311ecd; 0x42db274aa18913c3; 0x118836fe455b081c; 0x53858a6bb02da3a2; 0x2da980803e66f107; 0x6e25b184e6ca6849; 0x6ea76a4bb2b0ea18; 0x6e819ef27356f077; 0x38bf1362789f40a0; 0x48baa34df607352; 0x18b602e0e5cef9e2; 0x538e8fac2c1464cb; 0x7023cccf3f7c0659; 0x13e6324400765905; 0x119d616773ac0c6b; 0x581a9da8fb1e86ca; 0xb078076afe4e71e; 0x26ac4e4e679b18b0; 0x140810a2cc3d653a; 0x2fb7596ebd681df8; 0x24838f94e608970b; 0x4c4994af68da0654; 0x6222bb1500150aef; 0x110650504a0e7643; 0x52f846516ba78d9e; 0x48b9f21921e4e134; 0x328eeb01b40b4b0c; 0x1490a5af99340a31; 0x474b49ddd75ea60; 0xb6452a95777b3b6; 0x157b6222b2040e76; 0x5f1af917feff862; 0x30d1d714979b9a78; 0x9f91864d31a58ff; 0x332dcb0670a566ed; 0x1c396061466c3446; 0x66cd171b28199cc2; 0x37cede5f06defd56; 0x22526bba9e7e0fe9; 0x13c8d03eeacc3aff; 0xbe93150b1b21ed7; 0x6e199afd37331466; 0x65d317a1c4214d3; 0x1fd3b7c9ff4b5220; 0xc6b41302180e87b; 0x4119c586c7abdfec; 0x79e3f3c0522ffeb7; 0x10e9a0aa66026cd8; 0x1dd9c40af53b205b; 0x3f747f23fbe99ed2; 0x2d07aca776f08d3e; 0x4c4e20c96db615ed; 0x5e0b139cd48da042; 0x5bfa9099294ea408; 0x370ceb9acc9aa647; 0x4e3d70e16203c109; 0x2d78ffdd8c681d8c; 0x25ed8192e5fbff9; 0x1392249f89f00c20; 0x60bdf1c6d417f417; 0x2fd217b9b2131a41; 0xa9900dd4a0a8e8d; 0x50548c6b58c84b45; 0x2960de001cd36f00; 0x3e005f9edd409aa4; 0xb00d92740f3709e; 0x4f2c40ff1e7c50f6; 0x18ee3e18d79ab579; 0x32f53ef1e3f50ad4; 0x53d13a63a663a755; 0x4a1d50952f965e06; 0x42457522d2c27db4; 0x3dc08bac3ff2a2d9; 0x662f95d49e8f5569; 0x3d903ae794cefa22; 0x2d8f12a348523063; 0x17cbf65484229558; 0xe51ce6c2297d214; 0x496f76dcb8c945ea; 0x7ff4afa0e86aa4f9; 0x7f225151d8250e0e; 0x2e1eaeab71dc98bb; 0x7a1dbe1de0f62df; 0x5d055b13439b9066; 0x6cebfdc16c126070; 0x360ecc42a861878b; 0x1dc6d7cd38352e78; 0x27fb08f4d8bd645c; 0x7884ad330d5fe4b3; 0x364ded52dbe727b3; 0x5b50e8d80c2fd4e3; 0x4d612ff09643115e; 0x7d56f88bb037d656; 0x4ce0f980f3f8fedd; 0x7b407b6637eb953c; 0x304a6152ac92cc94; 0x1912e43af8fd8390; 0x6bef7450fc7c888a; 0x6442d0af1de90ee3; 0x46df12effa9cac20; 0x7703d3c0abdd92dc; 0x59b4a2db44d65cee; 0x1b4e3abcd707722c; 0x26cc2aae40e8577b; 0x31817bda05387999; 0x1e7431eb9b1cd754; 0x3da660a79f9f159f; 0x1a8c41433359f87a; 0x1c7fa53b47fb5bb2; 0x53babdbef9f0558f; 0x7c8b70c8c12cc74d; 0x516ab7d5ef7058d5; 0x1fae42200e84d58e; 0x572481b91fe78064; 0x7d1c7407ce045328; 0x317b3d3d3787261e; 0x47422a74bd6fe99; 0xafb4f8572ffa713; 0x5e391872c38e877; 0x5e4a775aed3e1098; 0x18d5da5fc0d81c3c; 0x74f6a2963a181742; 0x1f2891971678b783; 0x2eded80e0af79af3; 0x24ecf5e359e00496; 0x529fd981c6b2361c; 0x1b2bcfd0d228445a; 0x7c95a45bac7eef4; 0xc9f26455cbb9f25; 0x36009927c864151a; 0x2bdf1dc8c06a8a04; 0x953b6cf54e6dcf4; 0x5cabc65bf1ca7062; 0x328533d67ede93ed; 0x2e8b1d1552913ba3; 0x3b8c76a88245128c; 0x35655f976ef96d7a; 0x5347870f2301f12b; 0x2eba92887947ae5a; 0x61dadffb271dcbe0; 0x4368c3a003dca330; 0x77cce9ec4e90ed29; 0x522e72fe3f2c514f; 0x8525d0308fbc871; 0x6589f4689741f952; 0x465d18635e7bbbf8; 0x1cc67ba7c9b15b29; 0x673a98456da8d0c6; 0xcca9eeceb2f98af; 0xc14e7b7d7ca0d2e; 0x1fe0246c2205f3bf; 0x26e61f14fd423fa2; 0x77ab15552798e506; 0x71123d89a7aeda81; 0x4ba538a7089019f4; 0x1ffa18faeda7587e; 0x410fa92bddb28818; 0x72da00fb980ef31f; 0x6744d1145a60777f; 0x43fe50e4cc9653e3; 0x33e5e3a9eff859e6; 0x368a33138428b0c4; 0x3564093add287dc4; 0x79f89c29b82f79f9; 0x57c616bfcc2a9fbc; 0x29ff5ffa59d07134; 0x342c68556fe2af30; 0x647a419f52ec4886; 0x63067bb0fff23511; 0xc4e5c9506c1f5c2; 0x6d4b7f39abc7dc2e; 0x10143fc4f2c60129; 0x3ed1cb8392edba91; 0x6a1ae520c0d554b8; 0x5d12f48dbbf2cdbe; 0x933c01a55f529b2; 0x4679ee6f0ffae576; 0x923419cb2676a3c; 0x6c6afbbb0e1d3465; 0x182fb9efd5e21efd; 0xff33fdc639ce4f1; 0x207a5e6c96489e21; 0xbf61a8c9710ec2b; 0x23bdb8e3b017fec2; 0x69994131448cc00c; 0xd70938439b0305b; 0x57e4ed61ee827b24; 0x69861cf3a3e87c99; 0x7612ceaabcc2a438; 0x64a08b2d188f8e38; 0x79c2b246a9f966c6; 0x76e4b0f8073d4b12; 0x48062c311d052d3d; 0x17469df0f6cecfc6; 0x70d76551e1a468f; 0x148fadcc4da424b4; 0x668736c01a893426; 0x42d9d61cf494bea5; 0x25c4caab4e5889ff; 0x79cd0c1e861b9aa3; 0x5c1e144fa44db5f9; 0x7581a240031edec0; 0x38a045b3d2f92d51; 0x3f2274484ce54123; 0x28c880370f087833; 0x6b6635575a7a7e4d; 0x9ee3585e1f18369; 0x52491e3c0943d62b; 0xb5e7a73453b86c4; 0x311bf1a8aebcd15; 0x6dc171782ebcb3bd; 0x68b93584c262ba1; 0x8356fdeece12988; 0x12e4704a903aff20; 0x5c7860e673d809d; 0x663fa300473013a1; 0x4774920a17e9f028; 0x2e5e483c4cf7dad0; 0x4b0db0d7a6b54efb; 0x4dcd9595d15ac1ad; 0x55132e43a2640ad7; 0x716be8526ff53492; 0x11faa5913f7a8d81; 0x9da6fb0298a2db7; 0x7a5094004383cf93; 0x75aaeb8088161ad5; 0x2a8d065b85d908e6; 0x1ca26625c441b332; 0x6af5f2e4f5fadd92; 0x31cf7c52ef985b82; 0x6414e90909e0b4ed; 0x531bc6b55f72a079; 0x65f1dab0669d89aa; 0x65d0950ba6ffcbd0; 0xd0e3dd8b64ded07; 0xc703ebeba5b8140; 0x6db4d116a1c6bfb5; 0x7e155e7d5b99f674; 0x56f924f04ae17375; 0x137442d8d7f5bf6; 0x78c7acc8e71b49ce; 0x267e7bb72aa68212; 0x1a75a55e11f31bf6; 0x5e9d2b1d616aaf65; 0x72b12b461e687cd6; 0x433a79cdb80a3d96; 0xd446ca8ba765f60; 0xc346812d36a883a; 0x1b74739c6f32b65c; 0x2541d2a49361a7a9; 0x34d92af9c56e8eb9; 0x1031516ef1b92b78; 0x53606ff67ccd8bc3; 0x141544115d093acf; 0x222000aa0280a8; 0x1115014415510014; 0x2a2a2a08802a0aa2; 0x5005150100505550; 0x8a220a0022aa; 0x5440504401554100; 0x280080aa0a888002; 0x40415455140051];
   [0x6423290da76e89fe; 0x32f1ae41bd780d8b; 0x76b425ec5a243928; 0x729d8cdacab771e2; 0x6a1b00997a08a720; 0x62e76d77200ae671; 0x893ef357d7ffec1; 0x348c61e79da517a3; 0x1a4ce642c18ad94d; 0x5896ecbb784f5f47; 0x5f2d321087593f5b; 0x303f4f146344186e; 0x60b8bc487a100235; 0x5ec4b9d0d377be3a; 0x184f619e388012fb; 0x250c8e9f413cb1c4; 0x274ee058ce73673c; 0x7acbc771546bc2b; 0x1c6c724149efb7f6; 0x5d2aac70d5c97eba; 0x75a23533259e6132; 0x328969f022ea6501; 0x28c5326eed4d95a; 0x1a21f6fc8a51a69d; 0x65edfab25df1cac; 0x6e2e4f25449a200b; 0x418b26ad8d9c6792; 0x6d5b6f960534b01a; 0x1424ccccd499287; 0x4b7e111e07553ad7; 0x1bb68566b7a7d465; 0x79e824f9b271f788; 0x3d0f037e580a25e; 0x28040f46171a8130; 0x8a2c743c1456c15; 0x5d7c0e48beb08333; 0x3c2b93ba1336ea1a; 0x33a404fe6b8f77ff; 0x7ac87e26c481bc54; 0x66f9252d54d5ea7e; 0x60653a3bfc78b222; 0x36c84704d76a51ce; 0x438632143311da63; 0x22fd10fdc2b95215; 0x4c622f28de567375; 0xd11eed008ee844e; 0x2c05aaa52b6cba7e; 0x1ea08cc81c3f9b8a; 0x2c9e8418b2e125f9; 0x5c72831cbe5a223b; 0x539f435c6242032; 0x7d6c3017e1e61093; 0x3c3be7552fd5d4e5; 0x134867cdbd82ecac; 0x1570889b39eedc85; 0x157ce25db53f5edf; 0x294b93c65fe21402; 0x44975461dbce490b; 0x1c8d581d1b7292b; 0x7234a920002a9872; 0x6df3b9a7de3e00d6; 0x5bf8602f28f66bdd; 0x40ba6194b594460d; 0x788917b1c4ad64c2; 0x30cb30576baf64de; 0x4727529a7391d34e; 0x372fd4eb587d625b; 0xc12a559164a2785; 0x270066565c7d2589; 0x35dad4b9fe360a17; 0xe1b986970fcf998; 0x659991ec63d9fee1; 0x1f2149cbf0cc88ba; 0x49655d89aa4cdb3d; 0x466c370568150cff; 0x19db56da159cad57; 0x6d54f97850de31fe; 0x6113bf42e1078b26; 0x65f1860ee8d851eb; 0x74fb360d097abcf1; 0x5a0c1a4fb3a8d6c7; 0x5e76968a74b06c06; 0x1387dff5b5fd01fe; 0xb768044e77ba057; 0x38126fb0c4593dcb; 0x750dc8a4c66e1025; 0x2b34bc1fea43fa04; 0x36ec59c96457a8ad; 0x52af53a5fcdcf073; 0x688980e18aabf3ba; 0x27b7beb58b9fa0be; 0x46848e9ebd372b94; 0x3d12eb2d64fd9bc7; 0xcabb4df1d5a874a; 0x4ad2aeef61265b29; 0x3cec17a65d03f247; 0x55b32a5a5ab0cd94; 0x58b82a940bed1546; 0x3ae2c1cb96b4dd4e; 0x6e7286875ef968c7; 0x58a4047e98c6c470; 0x1131177ebfb50222; 0x26c989d9adc2310e; 0x71273e1d7e099fa; 0x2482ac2c83c37614; 0x671b6e6086923620; 0x76ee5fe02def6d98; 0x7a11c84accbcee4e; 0x7a67c93436a7494a; 0x1b1378ba1c4b0be5; 0x7a0262c361487fe0; 0xc02c6286a662cb5; 0xfa47a34f06d1deb; 0x83f6434f4c8da25; 0x73f6f9b3a662d98d; 0x515c66a3799111a2; 0x67eecf38e2f7322e; 0xf0079a41af13cff; 0x13765db2bcc64d43; 0x7e2c5a816cb26806; 0x5a1fd6299748d8fc; 0x6da0580b059d69ca; 0x3d1d5ed136d2e75; 0x272945a140ef8c15; 0x87704c91daf6d5e; 0x547a13ce8e99eb9b; 0x62609615b4057978; 0x3408bd68c7c42fb; 0x5fbeb192925daa0b; 0x31706717b2f753c6; 0x7fbffbfccadd0679; 0x20d556be52e9e681; 0x42fd70363e9bb741; 0x146a642cfcf1ed99; 0x1f6b3b511c4761; 0x2736e49e1c496bf2; 0x1b8db1ad41f9eae6; 0x591184797b22e499; 0x577b5239a9c04105; 0x4eac425785642d34; 0x62c2e997d1749ca2; 0x7081256e6d0b40ca; 0xb37affb13b2bded; 0x658736e3a72d2ab1; 0x24b4f29be43d857d; 0x4e445b7b3c2f32e5; 0x4d837ebafee70c5a; 0x5c596275fb3afefc; 0x2a223de45b09846f; 0x1515865c84b74a1e; 0xfaf1d8f6c193aa0; 0x52e4d4be92355796; 0x3dd69f7f89f78e39; 0x7f04fb0a27f31971; 0x104490e8e8f09e8b; 0x44637095c7101748; 0x4239e75b93f34ce3; 0x6fb6407a2c049895; 0x4e11df29b655237c; 0x2fec92b54989cf71; 0x5eed478acfac2977; 0x6680e1b51a307de0; 0x1a5ee44c9e61010d; 0x7c626fbd0d8702f2; 0x7da8e55ab6228737; 0x71a0c9142eede5d8; 0x7bde0862fd320d9d; 0x67049e8f73db9fb6; 0x49dba7baa3167891; 0x1f9f71f4037f7c2; 0x4a098c08b2636ab3; 0x4bfe30df164d4670; 0x8b38628c96e1c42; 0x1dde24e3cc4622cb; 0x121ad7a5c56a566f; 0x160796a07f9cfff1; 0x64f913542feed5ac; 0x265f8c77301880b6; 0x57b49e8a459d10a7; 0x4e97bc4ff5e3731e; 0x2eff11ac30cea0b0; 0xc5cb19705839484; 0x6b9f1deba8d91b46; 0x36d667b974f31ffe; 0x7fcc16db30aae3e4; 0xd1ab25805de8772; 0x7c9341c7313345b3; 0x4150aff68774b02c; 0x4971ced313edbe83; 0x1e1102dd40568836; 0xc1e299ebc4731e5; 0x5802da6a1f06a3ef; 0x6183142e746f6951; 0x716305bb85bbe9e3; 0x170957ada8c5a9d3; 0x6c364b7c7b01760; 0x24192498f3e9acb0; 0x32f8cbe0e94bddfd; 0x37f30c9f90631156; 0x64edfd4e758fb752; 0xf68e11752313b9f; 0x244fbcf1472001b2; 0x5311203179933425; 0x70b3da616e03bbd3; 0x59c2ecb6049f6741; 0x4dc50069ddf4f564; 0x729fda5657815bd2; 0x62e663f476640749; 0x1a87cff60dc176d9; 0x208c60f99cd93113; 0x2dc983ff69bcc5ce; 0x26e16e187377d880; 0x23e2960bb5ec5f77; 0x226ec18e1c3a384d; 0x5185cd70dbbc46a7; 0x74aef8b86a20b034; 0x6463134063fed1a6; 0x5c2e20c979d2251c; 0x47efb40af30848dd; 0x4c059728c3c0f7ae; 0x2e48946756a0775; 0x5023bf7afc400ac3; 0x1f60c1eaeb7622a0; 0x1ad054686d950c46; 0x738f9dc58d87baa5; 0x76b8514f02de10af; 0x124bab7c16833e76; 0x47c8a6ebcc092ce9; 0x2b43f2e16a66cc68; 0x31cf43e8376e02ee; 0x421eebcb8dda2c8a; 0x1852ea017d9493d8; 0x7c300d88a1cfe08c; 0x6735e8ee073a07ba; 0x3a89e6b456b6194a; 0x2595ecd865645c85; 0x188333b83652e717; 0x36f9f3173848b073; 0xbb4df10efa66b4; 0x51f46f84c7794bc2; 0x61f44cb467917d03; 0x45df48f152a53b9; 0x9195afd10eb6eff; 0x6c8c74c6a5ceaa38; 0x736e9db9a9784dd; 0x37beeefb4da30d77; 0x1b293fe00cb36152; 0x3e0a5e139f8b8319; 0x7a070e1188b8cce8; 0x2328b4ba0bb017d8; 0x651cf676116bdf4d; 0x3f5c9acce0862c4d; 0x2298b6ba21d1823; 0x569e6f200ca3c318; 0x73a35bc8e8a38645; 0x63ed059c17887100; 0x6be4d0c5757ab1aa; 0x6122dc802e7ad59b; 0x7abc1f8d7f6a92e3; 0x50c22543348f9da3; 0x6ca99b9c83a9f72c; 0x4a692d0e12d0bf15; 0x66a28f193c9fe594; 0x1c6555c365458432; 0x21f5c9eb9b2eb0b3; 0x159c5a88e8bb9d13; 0x135da9593ea8f9fb; 0x26517abb91241102; 0x6c9310d18b9acd20; 0x346d22406763795c; 0x18fb0094360b3288; 0xa06e71f82df2008; 0x267e758c415ff24d; 0x5b47c652791cbe4; 0x8e171dae53ebae9; 0x6b2cbee8d1d368f4; 0x4ba9c6d1e91a7c7e; 0x38f04afa28d14b68; 0x60291dcd76f02541; 0x23ff51a859885c0e; 0x6da51d4ab3c0ea61; 0x7ecb0514d1cfe579; 0x4a2c0b61e3782a16; 0x9280f149525baae; 0x4571e8ce14afab5a; 0x5b8d08b20e58b314; 0x53de4164fa6570f8; 0xf8d85327e912119; 0x391b0061fcb7896a; 0x799b0e8056d36917; 0x1e011a448407b451; 0x1e5ba8dde1514b48; 0x1a32aef4a478fbe3; 0x7f9e8e60b0bb0503; 0x5c850d357bf900b; 0x4d69ba8776fc2d1a; 0x686dfd89bf517783; 0x4ea8d8703a8a2acd; 0x30c66cd3a903584; 0x1ab19032529a0a2; 0x68dbbf827b4f26f2; 0x3f77e40bdb4cafe4; 0x6bff7762ecd90868; 0x6840650f7e810707; 0x33b4826cc49724ad; 0x6e8960975b86d2ba; 0x60e443843adaf74e; 0x1767ef5213fa2d7a; 0x54055045fe34934e; 0x2a2a002aa80a0a; 0x11550501141501; 0x28008a2000228288; 0x1505554145051405; 0x2208280222a00008; 0x4541110514401411; 0x20080a8a88200002; 0x551041051540145];
   [0x7cd4721fb617e38a; 0x62b98b8bbb05de6e; 0x3b9e6124839766b1; 0x22dd3d10dd6ec69f; 0x1bf775fd6ac6389; 0x46dffd2790b79ed; 0x2378d8b44192550f; 0x57398228835792b8; 0x4afa7fdd624e9794; 0x3d1a992757b90793; 0x74236e563d2c73c8; 0x3b86f03c68e6a904; 0x6b5691de8899c072; 0x55eac4f31c3755ef; 0xa2c624e472645ce; 0x1ece791e0ff7bb1a; 0xde081e233404572; 0x28875577eae97e12; 0x423c42c95c9ef07; 0x2cdaf69d81f25694; 0x1ce8a1503cac5ab8; 0x112bea0840625fbb; 0x2a0c763f6ff49802; 0xe4149aa0d3ef197; 0x55edd49fe3b40cd8; 0x776d899bc2848048; 0x6d040b54fc730c28; 0x5135dd6021b7a01; 0x7667f52eeae191b8; 0x192db8e518d479d; 0x6810b39ead8036d0; 0x1695d3b68655e65b; 0x6dcb75428da15598; 0x55d59dc19fb27501; 0x10ad3d21e8485475; 0x3a4b44b5295f06b4; 0x2fc2a6c068e608a5; 0x6d2be347f602f1b7; 0x648bfb6556955b0b; 0x1cd5708973305ea5; 0x39a00594102e9d9; 0x450f983ba6ea0526; 0x5f809338e755152c; 0x341033992a1680b1; 0x738eb21b2445e181; 0x4f4e4f76729346a3; 0x2b8e1607cf188712; 0x7d62dd956c2ab47f; 0x35a1b06dcde66ee6; 0x404e92ab2f43b8c7; 0x578c8d813d4ca72d; 0x7541765613c8248e; 0x55679c46164c0cea; 0x7e8c3ec2700f20e1; 0x148226707605a4d2; 0x3c198e38e49f57f7; 0x6403328f286b9772; 0x3b5402131b313585; 0x18467da5ecaf2902; 0x4dd03a86765784aa; 0x5f145f2710c66d1b; 0xe7415a660428477; 0x24f734f663efcd03; 0xc9ffe0322097885; 0x76f25f05b67a6f8f; 0x26d871e288cf9242; 0x84dbe01714fc3ac; 0x5896d8c717b63655; 0x748ba5a3d318d16d; 0x73ff963bff32c83d; 0x5282c40c625aa997; 0x27be1b2e33b1a3a2; 0x700367dd6fcae7a1; 0x21e506e0789d6ae3; 0x75c6e5aef359d54b; 0x3237432fb89f897a; 0x7b1d9d435ad151f0; 0x56f2a1962f8e191b; 0x6f1bb9c1025864b1; 0x633de3bfc7f5baea; 0x5908aae724fe2516; 0x2e4cfd859ef115e7; 0x1080f0f8f0f404d0; 0x2e946a104dba1cc0; 0x40fefc5b120f9f2b; 0xd37b269856d11b9; 0x6337886065be6e34; 0x4ddcba6cabd64195; 0x7fa8a242651d3677; 0x14382b4c67961fae; 0x54d0ac38b47bf12; 0x602d0df33788dac2; 0x6bfc425d820a8cb8; 0x1542e408a3a8b46d; 0x5595dc1310bb7b35; 0x928383da165bcd3; 0x116c5a4d16e434b4; 0x34bebdaa51f89db6; 0x43eb5ba6f0fe07e4; 0x6a1b617365155ad7; 0x587e82b56a540b8; 0x7e488d33c2f6dcdb; 0x1d7b71de33cd8158; 0x7872fa1604dfc8b0; 0x62186176f9563703; 0x4541efd2f7c04d3d; 0x58e268b02077772; 0x797ec2c18fcbd623; 0x12a03f8a8fcb52db; 0x1b8447796cb11991; 0x7b02544d4a4e9ec2; 0x34a3d4b62f1ccc7c; 0x3b9cc1918e2a187e; 0x34e9a27d0b4178ff; 0x1f0285b14fdf673e; 0x7ecb3b27954242cf; 0x2caac4fa460d0406; 0x46eb0b88cc2314bc; 0x23828b3c6bdc1403; 0x3418da628d6e3f04; 0x5b392adb07fcf5e7; 0x2ebc341540442e06; 0x217982a3d21e89d5; 0x75118cffad8e9d7b; 0x1f8317cae0620826; 0x45451f4060074e2f; 0x1f2a749a77bac8af; 0x71dceee94eabe2a6; 0x5b7fe7099de1a75c; 0x132107b00340886a; 0x394fee60c9efe3ae; 0x629dc0e0ac811cb4; 0x5e5162016653ef23; 0x83db82061013953; 0xb562f0114f47b6; 0x5b953e2657b829f2; 0x1ab01677fad3f967; 0x1ee403035c8f5d51; 0x6ba761c12c73468; 0x44b0368795b2a36d; 0x7d8506b106cc5864; 0x9eaaf2739fd897d; 0x60e3e574c2dbc6b1; 0x1d920448ed21a601; 0x40231f28595a956; 0x61d973485ec86a77; 0x3267e990e0085c03; 0x66b7912e30560f3f; 0x295110ac5cc76ab9; 0x7be2baa4c77bc672; 0xa84b0b1f80b085d; 0x68fc578edec53836; 0x5739441b6a4375da; 0x37b1345c6e88a67e; 0x6eee8c8e57f70fb2; 0x23e415ddc2772973; 0x343959ef2d620b53; 0x6b438895645c6fea; 0x366fb48214d22ee6; 0x3149b7aaff37f1ef; 0x1ef46d530ccbe198; 0x57b1e3dfd27a458f; 0x6df1d4b8a0a2e5ea; 0x45fe2821dae5d34d; 0x760037612e20f87a; 0xc13c0340021ceef; 0x7d5461adc10e2d9e; 0x7c5ce396b748ff8c; 0x53afbad1c29b9067; 0x6c26baa62d3478c; 0x5dfea51f3db4c311; 0x466bba609ca02a75; 0x9c1dd8b06566633; 0x2d138fc3c826004e; 0x133c72e78ad9298; 0x38eaba138a7a06fb; 0x64e0cb0d78a2fac9; 0x7494df82fb05964c; 0x28235479a94cdae6; 0x4ecb3df0623440a3; 0x57b6cf58fdc7f997; 0x6f632459d0c02ede; 0x2dd094a8f62e553a; 0x354b76eef9b4e661; 0x1ff93f7eead3dc8b; 0x529812a3371af4d7; 0x3f4e67ee51dfcac9; 0x275bd4fbee7222c5; 0x45160833354742b0; 0x39d5cf526d6477f3; 0x682c95f7494adea1; 0x2a4b7fea8ce34d38; 0x2cac70d519444cbe; 0x4cb476f8fb082398; 0x7bb0be708d2c8516; 0x1651255fce4355e2; 0x5e2b1247d79c15d3; 0x3062ffda53b4ab8c; 0x49c50bd4202cb67e; 0x449630d53763bf2; 0x4fd6b01573ff04f9; 0x672c711394018b43; 0x5b8918bb16903b40; 0x70aced36e9975ae6; 0x2ea2043cab515a97; 0x573aebaf68e71c8; 0x7506af22f02e1ff9; 0x26383be36221569c; 0x48ae52d4f1527fd3; 0x64155974c61958cb; 0x3ab65e180d5f8061; 0x54a56a37c6c75bad; 0x64f516a2c4700595; 0x897df587077ac8b; 0x391c5fda3ecdb90b; 0x27c424279160040; 0x5005e0c259c81487; 0x702a89dcc5f691c0; 0x431d7d7d78cc8404; 0x7119d169b0784079; 0x2710140c38426019; 0x1edaafc90a846951; 0x283ab63e5c71924e; 0x1f5dbfbbb681deec; 0x10cc4e6c139a3587; 0x71f273c088a61e7b; 0x7f7ec68e17eb3296; 0x5f4d25177bd04682; 0x3dcf2e83ba5784f2; 0x101cf6fe353569fd; 0x781afa5ffefcd2a8; 0x18e1f59f72bf0981; 0x59737a2337458a80; 0x6aa89d0a5e6cb947; 0x7388eb60e7cc606; 0x77dd9547208009c6; 0x2a11977b76735994; 0x134d4cb98f02742e; 0x6a87139af2ae7d1c; 0x227a69a1bacca62a; 0x2971b806cf8a46eb; 0x71d09194a46ebe67; 0x79f5f11fb955cb54; 0x5424f22b6e4a717e; 0x2be33375088c0b99; 0x66523bf029579aff; 0x38a4305e247afb08; 0xb09b61e20755e1d; 0x564c31b718135dc0; 0x22a856186b81333b; 0x66d71650a8f1dd5a; 0x67df265c857b54a5; 0x53595661a74a1dc3; 0x52336b48d28d5b21; 0x2b5e156da8bb54d; 0x4164d7e98c11b34a; 0x2b9b5ca1b53917a4; 0x26e87136e9f34253; 0x35dc53e12cfec708; 0x13043bf52eb919f8; 0x3a931088670540d2; 0x12cfb2bc2900575; 0x63325db45b1c9b31; 0x32bf6e21d6b2d25b; 0x502d38154f53017; 0xc8a6a8d3bef92e2; 0x5334b713d3ff1425; 0xe34c607bc0827ea; 0x3e617ac8dfed3f08; 0x24ed3f937e3e5034; 0x159f42f30951d68a; 0x5aed79b11eb6d408; 0x34b311ad76539989; 0x25b05bc13a5ef34f; 0x1204c9f7066c4a6b; 0x30cfd945157a1445; 0x431fc53c3175946; 0xdb073076fb5d74c; 0x1fe4086a6f4f0c52; 0x1c0f976c42610760; 0x8e66a489016b056; 0x45eb3e0669a67605; 0x5a1c7701e4ff6931; 0x138f7e66a18fee3a; 0x1a8c36b9db3011b8; 0x29dcc54c0036339; 0x52ed8f3e2b51be31; 0x11b049f23a1e8e70; 0x43c762a4e57758bf; 0xd3afbb1d1f78e8e; 0x4f2b0a10282cd04e; 0xcaf9b939d508b28; 0x7cefe279c60088a6; 0x170360f98f653f10; 0x71ab531c544d708c; 0x37ba3533a538e5ba; 0x779e6f9bf36e1b86; 0x5022dea367c2991; 0x5ef5479432fe8133; 0x4eb655f42ff4d11d; 0x318df925b9f3fb6b; 0x744cfeedac324944; 0x27cf1d8a8a87ba0c; 0x1f94d46c9788f423; 0x7865a3cfd95424bb; 0x6f76bc837ebfb7b; 0x32dcb2facca05c29; 0x78c2a14cd5a944ec; 0x45050441df8ffed9; 0x8a822822a802022; 0x4104145041151044; 0x200020022aa08808; 0x440400104114115; 0x2a00aa022a888a00; 0x110011154005415; 0x80a220008a00a02; 0x454555445044551];
   [0x3282463fe8d063d1; 0x20f4efedc443f894; 0x573bdc8e4833cfc1; 0x1ea538e8fcb19710; 0x324fbbbc397c7620; 0x6be16e4e36696594; 0x7b8e043e0693743b; 0x2f34a10eaccf6d3a; 0x5581a81cb49a6823; 0xac95cab7adea995; 0x486f7373b6b04474; 0x4f1d4b9d45d99cb7; 0x30ff1204b5e77619; 0x79e7fa8db923092c; 0x5713e991ad5df71e; 0x5bde564c958e87a8; 0x5d442b0834401cd3; 0x55adea4add2af663; 0xcb7c90738ca025c; 0x6a2f5923f6eee914; 0xd77629ffa5ce2c8; 0x1e78a88f6d369a8c; 0x7d4ba3e417790fd2; 0x75317496f06c1929; 0x2d8fd2a1d7fc8413; 0x203651f5534031ba; 0x475332fc41e6b17; 0x2b9f39adfa08a32b; 0xd73aabd20b643bc; 0x583dfc584abb3745; 0x7c7031c4775b11be; 0x33e52af9a91b600e; 0x120fa5d248b0212c; 0x3dd7dfce5828a566; 0x5fc417852b032eb4; 0x5524264d1b0c8f14; 0x715780c078855d8; 0x657932d7f76d860a; 0x3079d83f0b0b97d7; 0x241665c3046806e6; 0x7125b15e1c7027f; 0x331efabffb0f60; 0x58da72f09c551c3d; 0x15a3a840ea6cbbbd; 0x430efce43f859af; 0x9a0b08087a7e1b6; 0x14299f5065f1a254; 0x660a3a331403f93b; 0x5dd75d435b46384b; 0x2dfee3fd0cc2d981; 0x24a0152574c2d2e3; 0x701bba586676d349; 0x46e052b27f1d36fd; 0x73236f48200d3e10; 0x26fe5664a3f4e9c9; 0x53e0f4b2a5dd9b01; 0x6c13d55378e1c4c3; 0x7bc7b50bee39a357; 0x452ba79a547609e7; 0x5e7a3b03686f0b84; 0xed388c4b23d35f9; 0x40eef7d1e2b703de; 0xec76a59685d724d; 0x1c34bf16ec2592d2; 0x145f1ed8140d3cf9; 0x4378b43cf5dafc1f; 0x58bdbc8be7f27cab; 0xac222f4822c0e65; 0x2c2491deb46f1064; 0x1983290330f3b206; 0x3fcd076c6cea23fa; 0x37c4f20f70a94ea6; 0x1da37216695404e; 0x384c3e7d96e09f6c; 0x50c8f5b252a16275; 0x50adf0bac1e5da07; 0x1ff5108fbf6a3757; 0x3319daf8ca011a43; 0x5cb9ba62a60ec397; 0x30acfcead276382d; 0x19da5a044084b951; 0x4de2e29100b4fffa; 0x5d1ca22698e0a2df; 0x8fbd63ab92c0ba8; 0x69b57c12923ca902; 0x58322826c1bf0f09; 0x11cf7b122d99977; 0x7823dbae172b5acb; 0x4b1ca4c2ad5fc412; 0x592e57cbef96efa9; 0x50ceec41f0a69948; 0x2f6ed6fe8dcfa90c; 0x11f19e728b2aef02; 0x7b66742bba10dbf; 0x5b94eb78f72f4af1; 0x690b0dfb09936b46; 0x372db9d31eb1561d; 0x43a472535987a087; 0x3f3d96c797b5a955; 0x3e7fe5566fd61d81; 0x2d409805fd2150b; 0x2251aa6bfd5fe873; 0x4e13c101d617c3d7; 0x2a05f7f33f715fd9; 0x723f25c38d9c9320; 0x708a2a10293bb5da; 0x49532b13be0a909f; 0x208d9b198d5f52d1; 0x7494e77bd8add3c3; 0x394ca3f4c09cbf41; 0x6918e581ef14529a; 0x7f7bc2d831fcb5c5; 0x4291ed10d8d13b41; 0x4ed8a7c3e3345f3a; 0x4e2fec7c3f057201; 0x44b02fb9821fccf3; 0x4c297eb5e841211d; 0x5fb2a9d4de17cbda; 0x17ca947ff1ca1bd3; 0x3579480698f492c7; 0x5888f467c5940ce6; 0x7cd3c767156dfaaa; 0x138912a37cc09e8c; 0x77fc0a735e56d463; 0x1485906f79214b8d; 0x4bd13e908eadd3f2; 0x6897f156011793a2; 0x6df2bc6176c96a; 0x5f45b6055705c570; 0x439b4b6dc89b418f; 0x6c87cb595ae7c560; 0x39da49ff221f34e8; 0x26574d4ee3bd2379; 0x3283c3a22f546703; 0x35968355793a0b7e; 0x9db77e95883d52a; 0x3900e37fbd7f1c7e; 0x3819362cd2d3a2eb; 0x524e9982edb01b74; 0x5eccb5c75fba6e75; 0x7529dc91e5766c3b; 0x30de8f32ca879d34; 0x279bbe10fb21f3a6; 0x4d0faafbf4cf94b5; 0x1169a45968df9f42; 0x3a7db941bde9f498; 0x1da1d6ba57f66a17; 0x504e68e521726abf; 0x51251bb64a7ecd65; 0x79788f97d06540ec; 0x2d3741f021920c5d; 0x12142cf13036b608; 0x20e643502d42a7b1; 0x145da9b7f81b629e; 0x4839856b871779d3; 0x46030b80c07f0343; 0x11fcea705c9f76e4; 0x570da2d87a27e443; 0x16fcbdee35dbfe69; 0x755db3ef8ff1899b; 0x35bd81db87ecc45e; 0x1b1e4ed5fb902476; 0x172dc4294069fe0c; 0x5413271d248d348a; 0x14efa5719eb9ee3a; 0x67685795aea88b71; 0x126cabcca65ebc34; 0xcf2aae2a05bc2ae; 0x71fd9143b9b494e9; 0x4dc9b0c888bbe5fc; 0x4e77653973e92a65; 0x613bb8fe2bf4afa2; 0x413ae2250c89b3ea; 0x45ff547b8db126e5; 0x7720f40398feee8a; 0x672135038fcd0f86; 0x25c783cbd53e151f; 0x3218c05b7bb60570; 0x106bd9db880611e9; 0x5972b33057823b2f; 0x67186c3f92e04561; 0x4d75e7f4dd5cb16d; 0x706cc49cc08d2cd8; 0x646f6392dfad9b5e; 0x6afce44ec0caca83; 0x444b9db7ee8e9d84; 0x2d3a6a9921273a40; 0x5575b1c72abdede; 0x584639558da9faed; 0x23d8d368b0fade63; 0x2507117122c02939; 0x3030d1e9870b33f2; 0x6212d7c1a98ff1ef; 0x666d8b34df85304e; 0x30e752f2e6a525cf; 0x11b27e2e24e761e5; 0x10eb6aeb642a675a; 0x3c888545666e245e; 0x640494dec96d4f63; 0x7d8b723743fc6c37; 0x543996fef50754d1; 0x7be9ce0767b9a278; 0x75c4335ffdba6948; 0x31d8b5b7b8cf083b; 0x495fa729d0972878; 0x3c1011aca6e8903e; 0xaca53680d04dc0a; 0x41a2aebc5afe9c04; 0x9c2c714864e6802; 0x6627f742c9f0db44; 0x5bcb09d417aae120; 0x104d64dcbfd4a845; 0x4568d195510215f4; 0x204611c3a897e139; 0x4d814949f466a0bf; 0x320d4af8ce0cf14c; 0x6629e92943307a66; 0x6b20e3e832b25e44; 0x19247a9f22f433d1; 0x11873fa9895fea43; 0x51f937086cfaab37; 0x4f7ec515f4c4bac; 0x258e7dfc66c9f694; 0x5bf13a821aafe5c; 0x52c3c9bfe13930e9; 0x52d14cf274debd09; 0x3a113d26dc810486; 0x3c536ccea0702fdc; 0x334c2ae6e26ce30; 0x40d3392c8ef28229; 0x51b7fa73b5a172a2; 0xd64e95c64f3159d; 0x419fd48c51c3aa16; 0x48b87cb478962ec7; 0x570a9927e4655599; 0x5d3cc84bfa07c49b; 0x14fceb16f1407111; 0x674905f281cbae2f; 0x54bb6e9d7e40ba5c; 0x75c19b48a37729c4; 0x3f49f3652ffc7f66; 0x7b1cf189b049a7c7; 0x3e542fb0e3764ec4; 0x2b08c0b28a5a4364; 0x3367cb176eff48c0; 0x636768df1d2d9aa6; 0x91f41b017feadf1; 0x6c1d1d1e6db188f; 0x442228929438e12a; 0x1b0e657f37e9a01e; 0x309e13ed546ad6a7; 0x1639876b09cb78cb; 0x6ee838f6ff7228be; 0x98f8d8f5a992ea2; 0x1b3a19a665ba113b; 0x2e42d9e1077a8d5b; 0x54f0b3f82c115f63; 0x1c773a77feb599a4; 0x6d8b7ba133afa827; 0x27fbf9576bbb6949; 0x192496f842ffbc1; 0x79a002c3755a545b; 0x1fa555948392aebe; 0x7f3f843aee0a89d6; 0x30db1a6e1dd943d5; 0x4bef0d3ed85357b6; 0x39228196092b41f; 0x34398e98f8402e41; 0x1a5310ee74adc6be; 0x7c2df0eefe43386d; 0x47e543c331b39521; 0x3cc1c8cb719bff02; 0x5156341387c6aea0; 0x8f2db3049d8bcd0; 0xd2ca26717c5fb43; 0x56d2574acb958461; 0x384669b4dbe35021; 0x5143cc2873f2a39a; 0x5dd65086081421d2; 0x56a8dbe42c6c3bfd; 0x6118243bfa04a2ed; 0x3e510c67b5b6e30d; 0x33fea89b52ca1f55; 0x16eb85030b5c00e2; 0x1d24f25f259f26bd; 0x3b72046fc61434df; 0x5ce8c9ea2631f11d; 0x6974de20612036a5; 0x1bc62b88cef6d78a; 0x44667165cd199e3; 0x153173b022d27a7; 0x4caa84316dec7dc7; 0xdb230cc372fc87b; 0x61ed882561ddcebc; 0x46445ee649be714d; 0x32b014e208ebaaac; 0x11f1703a36654501; 0x23a42357f8f94062; 0x5595b7fa164a4ddf; 0x3358fc67730130e1; 0x445ecd474d9b8a06; 0x47f3439702fa3b72; 0xdc227ae73b45d5; 0x75febdc806f87e7c; 0xfecdb551d1240cb; 0x70a216d03ff4e5aa; 0x5eac8cc8582fc148; 0x7d56de2225948e1; 0x500540404bdce4b1; 0x22aa20a20208808a; 0x1055044045504401; 0x28a8a2022a00880; 0x5004005005015444; 0x20a200208880028; 0x4155054541451110; 0x282a88a880280a2a; 0x54450500555110];
   [0x39be9e32684097ad; 0x5cefd8b72c429d72; 0x4e46921b0ae80a8e; 0x2deb3b5a3453c778; 0xfca7f3ae2552588; 0x57073f73a7b91179; 0x2d2effd830233675; 0x7c9f9db22acf625e; 0x434e489bc364a023; 0x1b960cea04f20fb9; 0x76ba0d15a6c7d141; 0x359e104c7837db95; 0x9fd9b0553af36ba; 0x456e0f5979637431; 0x708e06a8f3605a4f; 0x6ab4e6779f9a7580; 0x2de62be46ac7cb2b; 0x3b8e34bf829c26a6; 0x19a2a390566ce0e2; 0x6d9e5b4f82efaf99; 0x4c137498085ff962; 0x50eb9df35abb8760; 0x6d7587efef7f8b3d; 0x36670748ec511947; 0x18741b95e4792895; 0x64677a8ff95ab398; 0x5194eea829de3a8f; 0x4c21981702cee1bc; 0x6fa2be05ec81b38d; 0x656b9fe9a00b8e09; 0x4d180ba43e9ede6c; 0x3c5af762eefd6f94; 0x298b431fef0fe72a; 0x4e9b52c492bc869e; 0x655f8d6785c7960d; 0x373aac51bcd91beb; 0x4cdc259c4c6a7538; 0x5e5384de57a99a73; 0x7ddc9a47b706e104; 0x34f1f085070d9389; 0xd9115922667b995; 0x70dd17ec00610860; 0x9895412c124c97; 0x4b99281178c560c9; 0x44b0be76cb4a6299; 0xec6ef0fa736a0a2; 0x315a389529a85c48; 0x77d3901b41f62884; 0x225c9cb47c5d7217; 0x530963e5cc97f682; 0x1789d231adb5ae20; 0x5a017b46348c1675; 0x4b140588b2ea06d8; 0x738d084c4e448ef4; 0x3c2ebbcbd16fdd7e; 0x4dd5e474b45f046a; 0x485f39e10daa3455; 0x75b5e733d2930631; 0x658011119d19dbe5; 0xdc5e8804087dabc; 0x7bcc794cba7a58c9; 0x56f4ccb08be55f10; 0x3d5b6ec9d543b519; 0x6b2afd50d440a997; 0x2e72d543d08ff0c0; 0x1b2d52023a972416; 0x4e25108f4b99e435; 0x68c7de6a920d2430; 0x68755a402c4e3908; 0x3608513f82c15a37; 0x1218dc1ee169cc0a; 0xa90f37cf6f61ce5; 0x6fde37d5deaa87a3; 0x1b0329622da3041b; 0x5c271676e7587aff; 0x4c5c6be2eda1319b; 0x58120f5e364565de; 0x57f9db0cf86127d1; 0x2c9a28c99688a327; 0x6b13e1276247f0a1; 0x22b4c36788788f14; 0x5121fa2abbdd1915; 0x3d9e133d825c4359; 0x6c2d7d724298675e; 0x73f66a70747ebccb; 0x1546352403d3d609; 0x485d58f2ab543167; 0x7f3056471949f0e5; 0x44ff7295b5981f85; 0x79676b9b72579b67; 0x273948d32364a885; 0x6d8986d97dfbc19c; 0x5e6fdccfd28c293d; 0x55df88f4701d9861; 0x419f9879298dd51b; 0x706a5792b0c8ace3; 0x10b48a39bad0b3e; 0x3bb1f3efe189f2c8; 0x46088f7706e9d1e4; 0x77df36f0e3d170e8; 0x5a63673286b55d26; 0x513aff1a15b2a94b; 0x35350f9124a22a35; 0x2902d3e2c69c885; 0x59be02cafbb88524; 0x46658d4cca78c233; 0x63060525e3c6a12a; 0xf35a5c28ea4a69f; 0x43d00eb2824cf9ea; 0x643977621267718b; 0xfc0ace257f915fa; 0x2136b8a0deb63627; 0x1270b2e18bcc8a8d; 0x4075e27a96eaf0ed; 0x6d0c612a655a6f43; 0x4b9b1e5757fb66ee; 0x1db924ffe31d7184; 0x1a2b7c450488731e; 0x1a15f22d99ae972; 0x7f8a19d958690dfa; 0x51987deae98e731a; 0x217cf62eaa19e257; 0x216f3d59fc191fd4; 0x2874acadf1319bdd; 0x5d06a6d844e0fc8e; 0x16d84872f7a5338a; 0x7dd852d2fb21f9a0; 0x54229ad7bee0f564; 0x71773220cd1b03bd; 0x25060771486f17c4; 0x3f5c759225a8757e; 0xa0ac505e616e281; 0x28be4c2b2689a571; 0x69ff64a2d7a8b0ec; 0x25c2815d397962da; 0x5706015a328ee243; 0x5a11431282e831ed; 0x6b7826be851935ac; 0x1926298027816bda; 0x5315608bc0a7d923; 0x1d97612d763648fb; 0x78fc5388bf8acf4f; 0x5fb3a1c2af315142; 0x1d9650d692b5f557; 0xbd7c289aacdc45e; 0x5c71baa225004f7b; 0xfd9d9c4f3c69750; 0x1d5257713b62b7fd; 0x595c85b2bc56b979; 0x1627d894d1e0e50c; 0x6db14c1df3bce89e; 0x716be259a035f34e; 0x6773ca40af1e91cc; 0x33bc79297b544d50; 0x1e42509d4ff8428e; 0x2334263a6f8f5249; 0x7de6b953b280f00b; 0x7be86a04c9aab1e2; 0x4afc570224c9b19; 0x4d06c20044bfdb95; 0x6afede197b686e73; 0x236a27c791a75053; 0x147389dd33397c42; 0x74c001522e8baa56; 0x2e14103fde344392; 0x15c07d789e8c4f4a; 0x6bb6fdef5732664f; 0x731fe76429c809bd; 0x572fbf4c89612ef4; 0x213838c21d3decf6; 0x239026dcc077a4e6; 0x3f89e2cf7fd3c157; 0x161e6c91c15b045d; 0x708138be7d566563; 0x3f78cd9e9b53472; 0x7e59f4f0ac3aa376; 0x29b424926deccea4; 0x6417f349a0c0f0ec; 0x557f151b0c6eb607; 0xe02ea6a6218027; 0x1c66727326096076; 0x5791de86ec532cfa; 0x6f7a82925ae2b4bf; 0x36fde3b22ac64e52; 0x12d69eedca87423e; 0x647a5d09cd181649; 0x21878ffa33ba4d97; 0xbd884980e61a7d1; 0x5f201be94b63d791; 0x456d39550f8aabec; 0x2a05d403a6cf87e9; 0x1d3d5ea886895466; 0x1dfdf53c97ab3abf; 0x1958abffa28fe42a; 0x6763aaee2a5296b9; 0x5ea8006798c37ead; 0x48bcb0cfc3067c16; 0x1096ceb397d4b3c9; 0x161f960fd4a9aaab; 0x1080ff66d5963d8e; 0x24072cb067f3dd6b; 0x670cc2260b1fef34; 0x1627e56a4d1a316e; 0x748ca5a8a6af6eea; 0x4f4663c36d4ddeb5; 0x57733baebbdb8c69; 0x4f6626aeca4fbede; 0x1f409ef3448ff8b5; 0x60a9acfbc33c3ed5; 0x1ff0e1864fae51f3; 0x174bf9b5d332ab29; 0x24ff73c006e3139b; 0x731100e1055699c1; 0x3cb8f1909d8d6fb; 0x3deb95628df0350; 0x7234cb1934dd24e8; 0x74eda7be6be964c5; 0x38a5d52a2d538b16; 0x4b211389ccc0bb69; 0x1182919ccdc7b64c; 0x34c8809de2a5f96; 0x6ba008a156463ff; 0x5c314c83df1b19c3; 0x3e6d52eaa255b017; 0x2e22e4282b589a5a; 0x53ce1c74aae00f4d; 0x4b7983f91e4f857; 0x70f1b458b5657f73; 0x4da3c52494eb73b9; 0x295d40c149fe6f04; 0x26c541385586e470; 0x25203bc4ea391f36; 0x4dca3f19d6742da7; 0x74876aba4c86ba32; 0x5880dd1268bf1844; 0x4b538cadcb6d9f3d; 0x56d29a16d3c4a072; 0xb3ea9b8ad6afb37; 0x4825e8dfd467fdc2; 0x3bcd9605ead49b24; 0x529f020c2941b705; 0x74c9ebc30c849370; 0x3305764e42797f6e; 0xb4935d5c3205673; 0x6ab8cf2da51ec36f; 0x14837eaac52ef52c; 0x1f14f67b3b258561; 0x9aad02e1165b521; 0x3de008b36f9e8077; 0x6a762481d74571d3; 0x901221f78afc3e; 0x67941d069f8eef60; 0x4a43fdb04dc076c1; 0x4b5b59df31c2148; 0x4cb07e0e7309900c; 0x774bb6febfd26b0e; 0x39b9ad35e1ff0094; 0x58a9fc8d239f49f1; 0x62bdce300ba012a3; 0x17dcfe146dd5ce41; 0x39915dac58f932c; 0x5fd00ff13053b052; 0x4e0428f8384741a8; 0x7aeb07c4aa460597; 0xfdeaa0f198ff398; 0x48f8dfedaf21d3dc; 0x6166a0a050f70afe; 0x3e8caaadedcd3d37; 0xa60fcee3fb9b898; 0x37e59a2911d8bb41; 0x78e4a8ce56e716e6; 0x39202996cc435381; 0x4001188c6ece681c; 0x11da796e63b3c416; 0x4f11f2b3c8725e74; 0x46d199dd0d70ddeb; 0x6e70febfc99a9721; 0x532c5c486b7c628c; 0x1f0b36b5a5f75421; 0x204f2e12c9436c50; 0x4f23ee736d9af54a; 0x4c5029c35170e860; 0x73c2dca211f5c7cf; 0x377fddc9172baf43; 0x18cd859b3decb77; 0x9d16c773aaf37f2; 0x7ba5ee13dc98bb46; 0x5538bd31ac7d25a5; 0x4f3bb0ad9f0ec138; 0x585ac523622068ab; 0x15f267f12bc91dc5; 0x2dafc16bddfd8e53; 0x68c986a8a158f269; 0x64b103589d61bd70; 0x727130e3a009e9fb; 0x306ec5a8cd2064c8; 0x6e467f6b37dd4bad; 0x48533eca1edc007a; 0x5df1d14bfe9e3c2; 0x2e2ab2381a7654f4; 0x442a3a558a54962d; 0x339e1223282aca18; 0x3c61cb055f7db2ce; 0xb7473c618f2f2; 0x43abef8a0258cd76; 0x50737cb60061f52e; 0x43823d31bdf5140e; 0x681167686df7814d; 0x1140140443218af0; 0xa802200228a2a88; 0x4005115000104040; 0xa088228a880a028; 0x4555441555051551; 0x80aaa288228a0a0; 0x5514401111140015; 0x20828802820a2aa8; 0x11045504011544];
   [0x1fcbbd093001ce7d; 0x7e0e0131395d02da; 0x17e3f761357a27d9; 0x39e04aad735ad16b; 0x4ea0a106cae74423; 0x5fdcc3880ad4a1d6; 0x7cbb07c0b7c69fb3; 0x5218c19c76144f39; 0x259c8f87ecb382be; 0x1baa05892602511c; 0x58035424289d372a; 0x5c3ab8a28da10fec; 0x7bc34fdc3043961f; 0x62a4733af279a140; 0x79a111b3d317a471; 0x304f31487346a3e9; 0x44b0b191b6e188b7; 0x768a5cbf5e858bd6; 0x2052562f70b0c40f; 0x1eda37585c8ed60e; 0x5d62179c302d2c49; 0x3c7dd832cdba6a5e; 0x39fc3f78acf85956; 0x3a34c38da101fb15; 0x7a0cd0839e48a6a7; 0x19d9615914964f9f; 0x67ad3137f4101777; 0x4056478a85e35fce; 0x64730abeca32ffef; 0x6446e1de1516f8e5; 0x6f949bf31ba6f561; 0x72d5e7b5942aa155; 0x2d997d141953eefd; 0x2865d2824abac505; 0x34a43cd7967e48bd; 0x34260c5e2fce5ad0; 0x7f84c815b07c2759; 0x5d5f4a5d7f8010f4; 0x1dd1fc6cc7553269; 0x2c5fe77cadb6dacf; 0x2130aad3be3ae036; 0x39d129399f4610bd; 0x6a19c297420692fe; 0x36d5f8c9b465cccb; 0x1ba452240c7eb00; 0x1567c1d205af330b; 0x6f8d4f3f6375cfc7; 0x1d61e1569d102756; 0x19955c4e1a6a9ab1; 0x25343703acc5244; 0x28ccc0f5d733f756; 0x25a9a5f7baa29069; 0xdbb71b64f96f3b6; 0x159c24a65abdb8da; 0x1789a6a4929d5b25; 0x798919ef96d5728d; 0x15d14e1e45322429; 0x255ae904cfbdc645; 0x469e97ead855dd76; 0x2621540664975f8a; 0x716131dbf80a95fb; 0x27d765850914dfca; 0x52281e0ac79f0475; 0x9f63cf11da2e7e7; 0x24a3dec2c02e6a7; 0x72fe8b80a9e2226a; 0x126b911e9636a211; 0x5d9632f1e7b491f1; 0x6f21f3238927225f; 0x5475f45e8550d6eb; 0x4ef26cdf0712c553; 0x25197327920de06f; 0x4567337508c12e6a; 0x5148ae831a2dc3dd; 0x725d4d410cb81857; 0x54f75545043ae6fe; 0x68d9fbe986d4af1c; 0xd9373f9d71f2361; 0x7c5ba2512ffd11fd; 0x7d5ddbbdb0e75f8; 0x4ee0eeb0e208e896; 0x18c0d106f0af2ce3; 0x691785b42781301; 0x67c951394f1fbcbb; 0x66b816c2990a6e13; 0x60ccd31bfa714f4a; 0x18468469ab83542a; 0x7c42b323d3dcb168; 0x5d2efa8b53c9218b; 0x7f3c62e3863dad77; 0x4e2a290b3ccd737b; 0x429515fcc32ed0c7; 0xf6b35013aab1d96; 0x5edc955dabd71820; 0x53cab5a6a3b0e987; 0x5d2f9112eca6aa0b; 0x7f50ce731744a434; 0x4d2b17c229cc21c4; 0x4bb4ef3712ab798a; 0x595589fae37daa1d; 0x729285c37a0b943; 0x60ebb8467ff6b5c7; 0x22d803ca5ef84b93; 0x6adee8f3ce6358d8; 0x2b985876531c92a1; 0xed32a364484fbfe; 0x12d17f721113a76; 0x6bb27ef9169462fb; 0x282763bde2bdb90b; 0x21827e6331489182; 0x28a48a727a2f899f; 0x34b9deb4c5e75734; 0x181edaf10a4ae920; 0x7bcc7b75ee697081; 0x4aa09df41fac0323; 0x54caea2e2e8c5694; 0x578132f8657f3369; 0x184f248ef2199813; 0x9bc47bdeb42d49; 0x66a813c990009ad0; 0x2e625aa84b268793; 0x789fb832373bee58; 0x3d728c5212d23f0c; 0x636258f16167805c; 0x3f92d7c0ea8b5d52; 0xb78188ff6d08f6b; 0x7a662f2d8c981b16; 0x4033d7313aeabf51; 0x53fcd91dee4fc013; 0x72d613e7a89b35be; 0x111b75658448f5fc; 0x720206e0709b4c83; 0x6a41edcddc748085; 0x4eac1b86db38f1a0; 0x1c19d18d4cd00fa4; 0x2999e35964b8fcaf; 0x99b3fa04cab582; 0x1b6d7853dc0d1b0c; 0x3d2ee63240913ee1; 0x5155a9bb1f86b1d3; 0x5feb4cffc43359b1; 0x481b52284da5f4cf; 0x506f4e8a1698a002; 0x6260076ef87e442d; 0x49faee7ecfd4607d; 0x31213b79f63f2851; 0x412d031079251ac9; 0x99e037de1bf535c; 0x47c1260e1f993a84; 0x5294910e180785f4; 0x3316c3bb325b1f87; 0x6c29150e3feda99e; 0xe1f57c231b2828d; 0x19280dffc4f1b24a; 0x6509c050f9618157; 0x490df592a5ea9e84; 0x4668f0b99ef41c30; 0x8b56cd3bf0cfc1a; 0x2aa77e7458b2e79e; 0x77a269b68651e650; 0x2fe4792453c2a450; 0x14c7ba59f54928b6; 0x6873ec5c729868b6; 0x1f9e94d0b269a7e7; 0x53621b46d778cf8d; 0x4481d60fb6e3df3a; 0x39ef9d9ae16cf487; 0x5d004e92c23067aa; 0x75e89663706ba634; 0x649d98139e6ae628; 0x488075d4cdf1c10e; 0x63914f9ab21b1d44; 0x40bc1657a4622730; 0x6a214fa462f22e1e; 0x542d888372c12b38; 0x58c0a7b851d32789; 0x6f195a1433493f1a; 0x74321e162c80a4ac; 0x247fd774f2621cdf; 0x185428f57c5923ac; 0x4543063def909928; 0x17657af728275b6e; 0x34c0578b0f2df0c2; 0x68a0d31a9a6c8128; 0x7f1a70560586333b; 0x2dc7ff5905bb8df; 0x89f4d2f7e79d86e; 0x2745cd80bc96a924; 0xce34b8c0f703d44; 0x35a7c435ab1da5b9; 0xe5e2d5f08360f02; 0x65c6574e71b514bd; 0x577b9ca15a3991d4; 0x561ba72ab4482470; 0x39e00b712b9265ed; 0x639b11f2031b6bb3; 0x1aa31a383764f26a; 0x379c906001447bf; 0x635607fc864c1981; 0x1c8c6e1525b75d9d; 0x6aea94cc64c81f32; 0x2708a48bcd04d155; 0x734087d5f3d5ae21; 0x6203b467002b8dfa; 0x54937c149eb164cc; 0x534ecab196855134; 0x31339ceac1348bf7; 0x2ccdeeea3ae8d47e; 0xf6a3a763e950da5; 0x40511e31efaa0756; 0x3df7d41147d98507; 0x606c0bdeba51f62e; 0x457b3e560f947bcf; 0x5344e938c2e5cbb5; 0x4871f89c4fe4f1ee; 0x7a38e7eae4f07747; 0x652f981af7fe592c; 0x5ce36b658855f56c; 0x59f135a9e09e1e57; 0x4c007542d3db4a04; 0x698d7f6f3c197785; 0x732eba5ca41abef2; 0x729e8fc004ea565a; 0x745b41fb1b42d15b; 0x60cb8f7478cbca67; 0x45f9680dd576ef65; 0x626b23ee1475e249; 0x1d9771d2618ed8ae; 0x23d137039257fe1d; 0x394a513393c5c62d; 0x7d51ef7a33572073; 0x78e6cd97c5eb8c5c; 0x6fec46873a04794; 0x8d1922fa17a97b6; 0x1b3abebe558a39fe; 0x5f625d331bb386d; 0x6ba29f65122be0be; 0x5201faafc697ce5d; 0x3c01dfda30dee38f; 0x49e4839b90f27dc3; 0x5da30c2b2604f508; 0x7336d2169e15419f; 0x50e94d8a732aae3; 0xfdaf1083b8b1d15; 0x6a6e59e75d0bdb67; 0xef2f24d0a0b8b1e; 0x779e7f5e50862ca8; 0x579e6286f9d12e37; 0x2bd58ad7b9f45d6a; 0x30b7fe89681211d9; 0x68da7bfb47f2fcac; 0xe1cc37cee84228e; 0x284dac6d0e300ad5; 0x34bb1fb4925118ee; 0x6b917a74eb881563; 0x7dabe3c38bcb9929; 0x2092b49198b171b3; 0x23d8d444d0106495; 0x277d9a9f0880bf48; 0x7723823358187c9; 0x64227219ba57e360; 0x3f5e9325f5417aba; 0x6ed693cb9d972338; 0x3cb012fb9235c04c; 0x7fc693aa75990589; 0x52c99a42d13e191b; 0x1c8661c514aff0a3; 0x3d855f8b2b65bcc4; 0x46f4007ba8314cf2; 0x7a03fb8b2d15f5fb; 0x171e2efd78b859b0; 0x54fb9840d56cad47; 0x3bd8c17bab01aedc; 0x18a240b061a011ff; 0x220d9cd2f32296c; 0x3e95eb74c5f9d21e; 0x680f7bf00426ca09; 0x7bf288b0cb2a6797; 0x5db866d965b71ad5; 0x146e8837e46548b4; 0x300e5da1353823bc; 0x7f494f7b17b16cd; 0x652320ba41156938; 0x50e4342554cb8a27; 0x5a3b52c867a8beb8; 0x3fe85ccbbd983a94; 0x3bc2e58a0e049f89; 0xeb70bab37b3f823; 0x4e67386d9fa3d886; 0xcf4d0a7c5ed5e7a; 0xa2b632d878644fd; 0xbaec2c8a93e6ea7; 0xb5cfa4443402fb3; 0x737bfa1703bff75e; 0xcff0c3337af4777; 0x4c08cc3d077d0941; 0x561b266cbdacada4; 0x7893c166bf980d1b; 0x568f303bdce267a8; 0x6ae9cf26ecc1428d; 0xc6fe50d7cf6653; 0x15533e16ef706981; 0x13106cca3da95af4; 0x26701e4881b361a1; 0x2b2462b393edc0fc; 0x4339edb7baa8fd20; 0xcaf18b244cf6105; 0x5413848421484be2; 0x55445411be205726; 0x888aa8a8088202; 0x4141054440444545; 0x28088a8aa0a82a2; 0x5154101055514014; 0x28a808808228282; 0x4004101150101000; 0x2082a8002a08a80a; 0x551001115414550];
   [0x5533f6bd154f16db; 0x218d3f0e1b086382; 0x77bfec85537366c7; 0x25568fe5bfdf5bf4; 0x2ab3d7c95af5a429; 0x205c99dfaec62401; 0x669bd65e6826c78; 0x7885ba0f8fd833fd; 0x2e5a4e124a3d41cb; 0x294bd03cb2a05024; 0x6efb8285b0541015; 0x4ef3924d96e059a6; 0x606a32a9b90d0a89; 0x2101b7b4620854; 0x38a062d179e13c43; 0x6d08fc6bdae2c88e; 0x51606b3011df4b49; 0x507e915e89eec8e1; 0x51d6be988d22e007; 0x252a1d79ba69815f; 0x2a79b388fc0827cc; 0x23b354f573dadf50; 0x32aa71d0a0134253; 0x5bd5b75c6852893; 0x35626081952b19b9; 0x4c3ae26ae5086ba0; 0x63961ce8745d604; 0x1f5455dd68873dee; 0x78bbf780f2e291bf; 0x2a86dc1bfbde87a; 0x4409087764c202db; 0xf73922ce8d016bd; 0x4ba234672aed2c14; 0x524161e4209daac1; 0x7f79db57a801d127; 0x2abc476c71f9d9ad; 0x7dfb5e95d156291d; 0x4182eda63794fe1b; 0xfb43743d070535e; 0x6c28cad2be06b307; 0x541cce63e0c1cdf5; 0x37e8680d209c6ac3; 0x7eeac590043bf1e7; 0x786862579cb5d8fe; 0x5cad5237a9de7e18; 0x3952bd66cf019117; 0x77829b62b3ac84ef; 0x2e07027022b583bc; 0x49ebadb5962af3a1; 0x48634d8eb7342410; 0x76a260b49a8592d4; 0x3bf6cc5d71e2713c; 0x39775c5b11d72a2d; 0x7747cc717f70b7a3; 0x7f88d70bb2d2aac4; 0x61510c47a6540c9c; 0x6e3b6aa4d280a547; 0x49881115a8ef9e15; 0x65aabbb4b5aad22a; 0x4b07cd2d1fe96dd4; 0x7dcf042170468c4c; 0x317e48704b5935ef; 0x1588d82ea7ee2ba4; 0x1edf044a29d88154; 0x5c9e7365a58e7fe; 0x5fa99b5b086d14ad; 0x40a6c1ef599d5366; 0x4d213c8d036c2ace; 0x21365e6671153d95; 0x4fbb8d8127eda267; 0x550e994190873e30; 0x2c37ffa5cbb5f380; 0x3f40240905a073f8; 0x482084b79fc5738b; 0x3c55ac54f63139aa; 0x64a44fc76ddde667; 0x148268ee7d00631a; 0x47cea13d715d8a57; 0x3989cdd71cfd537d; 0x5e9cfa4da32c24fd; 0x1057182ee11e165e; 0x680e6ec8f29f87bb; 0x70a4c6d289d5bc8d; 0x29c9ad18de91e107; 0x672666eee403ea4b; 0x3a2aad28bf31d9ab; 0x8526b2c006ee0a3; 0x4a27a2b979af6b8; 0x245e80139ed0fed0; 0x24488c79e57139b5; 0x52492a7e7f3a408f; 0x25a74f9b9a9980d4; 0xd4da14264fd8ef5; 0x3191d9509ba08f98; 0x70f6f26bccd2d93b; 0x62a51b134e341ddc; 0x143852ccffbc86b3; 0x72e14ae52445f046; 0x3d4435d35a5340e; 0x5b3804016735928a; 0x1db4c4b2532cfbb4; 0x69560f13ca409de8; 0x3098f2bda108bab8; 0x1f311ab4a26e7192; 0x69c671aba583aa55; 0x1a8bb69c64d5bdb6; 0x4f4a19c60fd8aec6; 0x769f7b7b5be4cea0; 0x8bb082af5f46481; 0x620cc8b0489b48c2; 0x4a17cf3dd33571cc; 0x4465ddc11f5afa62; 0x724adf6fe35a95c7; 0x43bdfe3eec014f1f; 0x45f8ecf3d5a5dffa; 0x7f52336592f722db; 0x245dd64b52afe689; 0x10ca440c25aceb25; 0x772f63df41f4a1e4; 0x78d562a3f928b9b0; 0x2f645612e4eab230; 0x115b8d8f757b30ba; 0x19a6de3f621b35b9; 0x68373df4ef453baf; 0x3636c8ecc2ea27eb; 0x4ad8c8c0780279d3; 0x5b0c4ad241c7df89; 0x2e8dba84e65c665; 0x22cfaa4de4e3c607; 0x1ab5fba0e4a528cd; 0xf06cc37ba954671; 0x1c70818e547cdede; 0x7df711bccef19d69; 0x680b4e1176d3f21b; 0x666212651e9277e0; 0x19668014054ea2c2; 0x6fd18fe981e43a83; 0x34b76918b18fd622; 0x7b7aad409e191308; 0x22e2483275a7dbcc; 0x42b8936c2187c373; 0x5274db5204c7ec73; 0x56056dac65362808; 0x59cf46a1f52cffd1; 0x12f414b7180f860a; 0x11f9bac5d873d665; 0x1492f428ee822650; 0x344fefcdcd043a95; 0x101c86e03d292624; 0x15f7ab0887b64b4e; 0x4cd4aa454ef42b1e; 0x17c4ff5e46ded6a; 0x6761b67a3f9798f4; 0x38f0074bf56683fd; 0x3be695d8f77ba382; 0x3cbd1a4d32b63949; 0x2ccdf71875ab282a; 0x28f9b1c9851623fc; 0x4dbee52bc60eea0d; 0x7505636d66ec7d6d; 0x79a11f93b49a8551; 0x2f0416f4fb4f83b; 0xcf93697bbb78814; 0x12b36976205e1ca2; 0x5a8e126b1db65586; 0x28b0a5cab9fb0dac; 0x1def6b4d25114070; 0x6fff6968e7f61330; 0x61843fb63640ddf7; 0x727ed76fb6ca96e4; 0x407a209c9b970fc6; 0x9d87e928660b3fd; 0xee53152bcf90fd4; 0x13e683aeee505781; 0x6760e81a59f87d66; 0x7ee5b02e816706b0; 0x663dbd3f7b431a40; 0xf2151d524755a28; 0x234bf833721c701d; 0x6fe6c105958814aa; 0xc011b22a155be91; 0x4abb619bae53d07c; 0x53e820fba750705b; 0x39e1a9133469b482; 0x781eece282a7baa6; 0x3dbb977379964b92; 0x1db3579d4bf1a00d; 0x57618615fb86bdce; 0x7f6e4531af895762; 0x443d33715da04f30; 0x23476568ea3b44c4; 0x736a0526fd8b0320; 0x22c315125c692871; 0x61d24c7082405936; 0x4a98bb5c2cb672e6; 0x154d0df9ec0c35d2; 0x7bfb4b6ce84dac39; 0x52d6541db52f653f; 0x3e88f3afb3a850bf; 0x3dfac8866679a85a; 0x1fdd094f1b2be42b; 0x47f33bbc500576bf; 0x41c61d598d40a168; 0x1204408db227917; 0x136d8b41607e9d22; 0x2e1fd2803e86b72d; 0x2ec7cf94648e4381; 0x72b21c1de68a5093; 0x3b071d8af708a995; 0x7e4fd929e645a373; 0x75c3255a463f9c45; 0x2c6d96e32b2cf794; 0x274751ae86c70c28; 0x17353209e5eba4ed; 0x67795039800c031e; 0x57d92751a9d438a0; 0x19f1aecc6ad69a61; 0x7512c9586f5fc104; 0x5ec207b802a6e967; 0x2c77790b8e3192b4; 0x1d9f907b24c68bda; 0x1cad321684013c7e; 0x72753272d26f9bb1; 0x70557c786b6a3cec; 0x31ffc406f88582d8; 0x69b0b01e54e7c90b; 0x64fcf26a0869fa65; 0x554c38a3633cf52f; 0x2894e1bde2c10603; 0x56f84b4959d92c34; 0x3fa1f80723db6fd8; 0x11261d6f7eb6ce57; 0x73f6b326eb2e593a; 0x5c222a9f39a6d8f6; 0x59d83be02f3265b6; 0x66139798316fbd6c; 0x73741a76455ad307; 0x7148f08f438c50ce; 0x6b2dac2b7428aef8; 0x21d4e7c0f9d8374b; 0x29c7f8a795f68a45; 0x15f03459877e0118; 0x18257ff6eb07cecf; 0x29762ad09a10bc48; 0x6cd008603bf47e2; 0xbbe9ad97d18b2ba; 0xd830c5c79813d0d; 0x1daa616c63c68edd; 0x1ef048213cdc53d2; 0x7768a8cd6b61c159; 0x3da96f9e9bac07e5; 0x2bab2ebcd8c3878d; 0x6b72201d7f406436; 0x5a8a5647cd5bea2e; 0x76ede6347d9b1920; 0xaeb034c24480645; 0x605a83e3c157ce07; 0xa9017bcc3d64910; 0x76595351e1820a47; 0x2586045acc31e74b; 0x1f5ca0f0bd0eea38; 0x3749877069e1c457; 0x1aae44a9fec50c92; 0x2f5b96ff41bb1ca; 0x67e75c248d42307a; 0x143532984ad2a5fa; 0x5807c79227cc038f; 0x27b566ba433ecaf2; 0x14e92bb9af6305f; 0x647c13aeebe2a424; 0x3312342babbbc057; 0x6782adf6d7a128af; 0x756198768773554; 0x384890a26a201c4; 0x51b80717fa15b6e1; 0x60159661317eafdd; 0x2c073754ec932526; 0x6977d8b046bd42d8; 0x2433cf6265bb809d; 0x6a3c890a9fb20f22; 0x4623701411b8d1ad; 0x255b87090fb4b791; 0x10e84598173f409d; 0x655d1b0e1052cee1; 0x7dd55b00b390475d; 0x72325596cdf3015c; 0x7223297028022ec3; 0x44edce22db6dcb58; 0x1b38a87630837f69; 0x324aef7f1ef3bc2f; 0x5962d934abf7fd6b; 0x2c02489231529f98; 0x20de445d264ad77d; 0x5a768a6b5b87a7c7; 0x6a8e7c6b91601381; 0x2ec602010dd86ec5; 0x6f6c3d739d37bda2; 0x2b915cdcc6341882; 0x574cc7d751d7e645; 0x2549247e430d18de; 0x6fa15ec513ca9091; 0x715480dc3dbfef99; 0x70038603c24009ac; 0x7bd7e994e7d21e03; 0x49cdc4fe86d9b93c; 0x6ba73f0eea7c873e; 0x45456491d1970bc9; 0x290bb6de116405e1; 0x4101051ea7180a0; 0x20288aa2a0aa82a0; 0x5410010550011505; 0x80820a022200aaa; 0x450505405551041; 0x28a00022a8aa002a; 0x1105151504541115; 0xa220a82aa80880; 0x551040500104455];
   [0x2fc3e23efef3de98; 0x75a884a50b6dc0a7; 0x5c010208388b09d1; 0x45117f94c8df26c2; 0x56c9259d6c5fd353; 0x5ed249c1ca582058; 0x146381257ff915ee; 0x18bf6f51dfff0a8; 0x66f341f3b654f2fa; 0xadb59442cbf3106; 0x7aea8a1a8ea032c4; 0x6596d0e23163a639; 0xee67d7186127402; 0x20e0b56892b69c53; 0x18d76f308eb56f0; 0x5f51124b8e4d9b0b; 0x29146958055e04e0; 0x4f1304790b094fc6; 0x2dbca6e40a05503; 0x7961dafeaf4688bc; 0x4d35bc389145f1ad; 0x180b8d4d3ceabbb6; 0x408190f9e2872b35; 0xd4b9822c1ee8b34; 0x169755ce020f0188; 0x3a6229137ba84da0; 0x3d01604cf9b2bb11; 0x75daa063272670f8; 0x1870281fcdbf0962; 0x1e18721286fd82eb; 0x4a77101f1bbceaf2; 0x498b35b03fd53e98; 0x4f3cfcca29022fec; 0x41fca15a430d7e1c; 0x73fdd596ba6c357f; 0x4c19a431ca76c009; 0x4c5d1ce1dad32fb7; 0x29e5075b1e9826c6; 0x67e87e0e76c3af2c; 0x4d97920b6b191dca; 0x68ba30aa6cab97cd; 0x752f388693221cd5; 0x1429c468bc27c9e1; 0x2a08b544033cebb0; 0x7ecb9e25f8b83a74; 0x617fbcb94c5d2ca; 0xe427bf63b88cd8f; 0x6bb2d8987aeb47f; 0x7444a79f83a5ab12; 0x558f813de1550907; 0x5917ce700f964373; 0x13eba2ce8e3e8a0f; 0x1752d7f82d00970b; 0x140f03ee4316ae17; 0x256c213f2084dc2e; 0x58ffe1ebd1781e7b; 0x1d4da7580d0da5e2; 0x7a80658cc23e02cb; 0x43b14d8e9fb0247; 0x1b63ab48f8d55ca0; 0x6712c215361d97f9; 0x5ad2b0f59ae4dee8; 0x4c66e2b3c15abee2; 0x1a349415d884e255; 0x5d6abd4347073c33; 0x26b2ccf12f45037d; 0x46b158824fdd468; 0x348efcd785558423; 0x351166cfb2e9a8ea; 0x70373933113e5b25; 0x451ed0ddf4d483df; 0x6f267c2366352de9; 0x5e681a4571853acd; 0x695cbf643a1a1af6; 0x548bb7a1f180930c; 0x2bc4995392c818bb; 0x798acf9350422278; 0x4cee8c6a9cd5b120; 0x15d6df7403706061; 0x7c501180e952cb0; 0x52e2927744ce720c; 0x1cae8fed2a27b132; 0x2c929a9ec3755d; 0x6b835036ab0ed840; 0xbfde8bd89e22589; 0x5d0bc3afed410069; 0x6226e979f8b1e84c; 0xd1ca49e2ca7d58a; 0x6aa6fd45e1a77fe5; 0x4ae79e5b6a543f88; 0x4ff7f949fc667e2b; 0x3c3bc4bf1300ba9b; 0x7faea5ac50db20f8; 0x73b61d141e4c2c5d; 0x4e930860e5faf78d; 0x22f6f66c23514785; 0x56eec5a25f4dbf80; 0x7223f3440a427c7e; 0x415ce7e2bd00d016; 0x37c7e157e6ffc872; 0x430784c8bdcbbb90; 0x36e5b5291f6dd6f7; 0xc1162d5177ebece; 0x40349dd0a391f9ed; 0x619fcb6c658f21fd; 0x8634d266191f9eb; 0x1c710d493cded386; 0x6d96734d6d52594e; 0x25cf2bdf62cbe5e; 0x1ee3297c665f72f3; 0x319f74f1c3982b1f; 0x592ea9a84d5533de; 0x39c8647454664934; 0x1f4966eee901208f; 0x177d41ff320ffba1; 0x496519ac9af70670; 0x243d2630b1755697; 0x79c8cb5d60a1a4a8; 0xc3e33a4659e0919; 0x7648c68dd4942bf7; 0x59dbaca7d1feadfa; 0x1cd04c3222a6f349; 0x205bf82fd06a601b; 0x3596e8236acb1d64; 0x7b0f4cd24c3fdef7; 0x3c643455ee267337; 0x64a7463e3aa9823a; 0x466b01bc0ccbe589; 0x5c7291f0d783e49; 0x2fcd331e007c0ce5; 0x7b503498d94cce7e; 0x40211d91cc989e93; 0x2de773467ebeecf5; 0x70ef3715fe01642d; 0x798fe79ff29859d9; 0x4bdcc7cf87e66ef6; 0x3e4b751c23560777; 0x12e35966cf493d81; 0xc81eecbc8d915b9; 0x1417b8975fda2ae4; 0x291d60dbc0d70fc8; 0x70ca5e3a30a74482; 0x4a251c0b1f2fe96f; 0x6e582457c36d3552; 0x3ce90e54a564dbbf; 0x183c4978c13cd986; 0x40464e2a241c2902; 0x59c9030e88f9d6c0; 0xb5c47d1ee5d0c97; 0x4bd13fdf06b846a3; 0x1a0328d5c6e0455c; 0x5eee132e5d99692b; 0x57ef9d84b2b14ec5; 0x92bd85f15901b33; 0x55a5e5480b28aefe; 0x2dc939f7ab5d54d8; 0x378c5ff5f942edd5; 0x29febc1d46812ca7; 0x3c5a5be042e5c222; 0x2e133bc74cea112f; 0x7268cb5154db027c; 0x747c6abb85120106; 0x55f9d3841d5c07dd; 0x523dbc567ef397df; 0x539512bfefc05df0; 0x5be666eed49de212; 0x29007cc2b40aeb1c; 0x4fbc5cc7ab70b4cc; 0x76018599bd44ab34; 0x427f6601b63ace76; 0x77bfff7095950789; 0xb1acad0cd86c7b0; 0x45bf756f4bb4fa24; 0x499355cf9c7087a8; 0x4154824d78ee7a17; 0x35031f6ec5c6c3cf; 0x46ebaefa9b2daafd; 0xad938642f754417; 0x731d70baee38d77e; 0xcf7f1a72bb0bf75; 0x1568688af40cea56; 0x39fa27b6c8d05dab; 0x6df6f8423f6bb103; 0x19fffafbef820085; 0x3f97f67a27f47509; 0x13b130d58d1a7ad1; 0x4aaf7f63d99ef008; 0x87f592389f782d2; 0x448f76419ee5c152; 0x5caf75d49780650f; 0x2ef545d19d4480a6; 0x38461f283ca27225; 0x54ee3f054a0062f9; 0x44dceb5099fe8bee; 0x2ab5e019017d5698; 0x75b558e2f53aa4cd; 0x1ae3250cf58bc0ff; 0x8e83b39d50b79c9; 0x7779730c71e56224; 0x5ea70de9dda2cfb1; 0x64f0ac166bacfc38; 0x2e2ac18ba41f40d0; 0x32ed8116e5ddd903; 0x1755a1dab5e84455; 0x177d3eef47fe24e3; 0x4e91c08ea33b769d; 0x5c05c427cc3c42ac; 0x1fb88f5b4829013b; 0x67d2333b0a38fa9b; 0x25a380dfac9b2812; 0x50d69c63a8025c9a; 0x40fa4edc885a661; 0x14e57e09779f636e; 0x2dba97e63661ed01; 0x18688f9b8c4d7cc3; 0xf58bb7f014779d9; 0x156f8c33846002cc; 0x1eed00bf29ea5d69; 0x5d7822423d3e5a2b; 0x2753a9aa5a798f55; 0x1dc0ceb9d05dce27; 0x27acc4b176bb1859; 0x755b78508d3fe4ed; 0xd180167027ef734; 0x205aee37c0eb3313; 0x2a0e3c2373ab9b24; 0x20983fb5a9d54b5f; 0x230da919b6fda2bb; 0x1af15ee9e69e8d34; 0x5bc0d70a563e060c; 0x2c3f07d3308ab233; 0x73aa80ccb2758173; 0x37c319224456df81; 0x2057dd136d5896dc; 0x10375a0833ddce47; 0x1ce590043bf50a68; 0x126fbc04186e97fd; 0x8e5ba063cdf530d; 0x61baf23d021166a2; 0x23a03e1981c73b6c; 0x5352f708f41a0a1c; 0x4efc095725b60f34; 0x448f9003f3792913; 0x14e25b71f5092eb3; 0x2c374362ec4fcd57; 0x59fa26a96504cc91; 0x71c58293809830de; 0x2fa4fc2af5f46193; 0x3b7cd4963e118a32; 0x38b8a1f4c0de4ad2; 0x89be19d6c447a59; 0x6926d8210bf0ece; 0x5db22046f677d874; 0x4005cb6dce2ae83d; 0x470bf5c3e1a5264c; 0x2b800c0925b9a49e; 0x77e0ccded8906637; 0x2d13ae3fdda08dea; 0x45d4044b9e6f9c6e; 0x12b1a0df5d7dd6f2; 0x2519c22ebdd23aa4; 0x67a05052bb754505; 0x1b25222cd9431f58; 0x19ae14704922a194; 0x2259cad4026ce531; 0x309556fd0880027a; 0x7b11753afb62d549; 0x21dc08d24bda6e73; 0x66cb58ab0d820c1c; 0x195f11882806f3f8; 0xe03d71b4d6e1af3; 0x6bc11e1ca6f3dca1; 0x7a6b8a3fd4a63503; 0x4bb2abb33ddefa0f; 0x7722e777f0158dae; 0x2195828b8e7a4b19; 0x61fb7451091862a6; 0x5bb1f3fb3fe01c67; 0x86179e7f748da28; 0x3a611bbc9aca9322; 0x36790cd13633b51f; 0x5cc5deb3cc94e0d8; 0x53f3f55618d1336b; 0x2b95ba369a9ebf5a; 0x27649bc0a8a97a2e; 0x25a68a643a4c9b1e; 0x64d47fcb0fc5f78d; 0x132051b389352023; 0x271c62f8cf535375; 0x67fe7ce041c3f009; 0x75fbc428eb6ff641; 0xef52312a80845b; 0x6f47c8557ec0007b; 0x15874e08ca861a0a; 0x3d8a3de9d5105976; 0x478007a45a5fccb2; 0x3841421cd382ce8b; 0x5358d299d4981437; 0x3a7053a669aab91f; 0x2385a9b76419e774; 0x4c4dc77b350c0f69; 0x63d20ba501a3898b; 0x9b188bf343493f2; 0x681e3e510210b640; 0xc1adbfe03918959; 0x7a6d5329bb054c2b; 0x38e53a396f9bcad0; 0x263f1fa40d30da27; 0x544054047199de44; 0xa8a0a0a8222888; 0x550155414401554; 0x22828a28aa800228; 0x4511110015014454; 0x288a022aa00a8022; 0x140450151450141; 0x2a8808a222a280a; 0x104445000414114];
   [0xf08cc851ddae66e; 0x6fbc3b52c65f17d1; 0x4a8da7229efa4683; 0x1f1fd5d901b96087; 0x1dff81f6b3f20503; 0x5c1d3ff2d229d409; 0x60e5173e5514313e; 0x68ed2dcbda467f48; 0x7bca75e483d850e6; 0x6a122be571dd6dae; 0x6c1bb0fbd68a2e3b; 0x1a34f74ba521d69b; 0x25b563cc1b91e9bc; 0x7bf1b953a84b2a1d; 0x753d982162c67dda; 0x6c980b0bc5b4fd2b; 0x617c21b752d5939a; 0x32be40c6b63e49; 0xd3ab412ab49b022; 0x5afa952eff8fe10b; 0x4fb08ea4565b58a0; 0x293478d09be0146c; 0x476f4587e244dd4a; 0x7a5ff27c1e5c732d; 0x23a3ab35d44de378; 0x65f9d7406c039a1b; 0x7ea2789142345de7; 0x7e4ba1d774267c4f; 0x289148f4aa2c947e; 0x520bcc04b702cf7e; 0x418fddad2c25ca34; 0x7a53aac16ee1b391; 0x753e4b8d96e16674; 0xad541c1c0d8d33d; 0x51fcfa8b9028f848; 0xdaded3e62054f57; 0x4bc1c7db65192589; 0x37dd46f34761da9c; 0x6fff8cd738b25086; 0x59b48f5a3f6d4d26; 0x64b7e23ee9e31487; 0xce6c7becfa91bd5; 0xf72cc79c87dce7a; 0x77ef55c64c94f970; 0x7941709b2f521157; 0x586bfdba99172240; 0xf0aecda92f3d1eb; 0x4db561319424ebac; 0x8522a3cbd3588b8; 0x2fa01d6152f53881; 0x14b10f24c1cfaa8e; 0x59c57c3a42753652; 0x5904d77e14ca5b19; 0x22b5dfbf1a704b30; 0x688e18e2f74f6636; 0x363cdaf2b304c369; 0x4798fcd75ec40f38; 0x46074651b6f51b80; 0x3b74b7da279630ab; 0x3de9922747a1e0f5; 0x12c40e9106feb298; 0x2afa6e5e8ab488a0; 0x6e93d3f9abe4ea46; 0x147ad4b325dbfdaf; 0x47fa243bce86faa5; 0x5a216123e11558de; 0x79541a584e785495; 0x77237ac7593e2175; 0x417dd8c7f1ac640; 0x3c4532801e28ac37; 0x3c695f27d7db20fb; 0x2281abdcdda50740; 0x3c28355f4b162cf1; 0x72a8bd2d9c6f4035; 0x6b8367af97c2a675; 0xcc97f4973fd5946; 0x508dbcd62a6b88df; 0x301d9e6f7af9753; 0x436ba4d405bdf221; 0x372328eb43229fe2; 0x3dfbdf1b1affb1; 0x55f93eb7178acc20; 0x405acaf050eb636a; 0x67e8f9262f49c871; 0x2d3682e511485d6a; 0x761ac224f8f1db3a; 0x605fb33175365f41; 0xfd7b71d3351ca51; 0x64effa697b6643be; 0x33aac20a5c7c34ff; 0x57289b73e5da2878; 0x3dca8060d3bc4f43; 0x7db7ae62def7b334; 0x113be2a7b13fd454; 0x108cfac1225323ed; 0x3bbf090f535307eb; 0x3c50f5da6a8ebf8c; 0x5dba291cc9d08e17; 0x5fd2a1a57e09cb29; 0x57fd4f26d500688a; 0x6c61cccd4efa6cf; 0x32ced33548aea4a; 0x1e5cc9ddacbd4810; 0x3b9b0110ba9c9e64; 0x51606d7b97aae860; 0x1f0ed491f0cc3; 0x552991c80724d676; 0x27aee69e6be17b73; 0x29d4d336e280e691; 0x773f38653c094db; 0x681463e4055215d5; 0x7a863ef9738ea602; 0x73644737cb14b623; 0x2b830e771ae0b9bf; 0x212c93524eca6270; 0x1f91b36eaf947540; 0x36eec3cad3e89fb; 0x481f59b4fa532e2; 0x4a3f3b4913768e4; 0x748203b1effac839; 0x620021f4eb84c0fb; 0x96dce7f8ec02581; 0x65c22cf446cf1b51; 0x6cac5bce496e9945; 0x32aa4f33ff70b166; 0x3345a30c810335f8; 0x1dff165ff8f8724e; 0xa95f5da0afc81b6; 0x3abf67f1c7633a0a; 0x5d5574a3bda21041; 0x5c93e787a215b2de; 0x1b9618db9e5d05a; 0x396149b12f9fa902; 0x341e5e3df004989d; 0x771d6a676282e8b; 0x479520d75c680045; 0x4ce8b20ef3b4b37e; 0x2910644eb6273fb3; 0x7ad3543dc5881b72; 0x617472967d289e4f; 0x227254edb78285b3; 0x2daf2f978c0b68b2; 0xb3621db79d1d3f0; 0x56978ace377fb29c; 0x23b8f199c0ed0df; 0x74fd6db3551684cc; 0x6e41324643e6ddb4; 0x4b0b416f696287a9; 0x546c031363726a3a; 0x567f5e9d82e33553; 0x4cc30cc39973e16c; 0x4f03f8b66b804f4a; 0x6bba86ff9ea30fff; 0x73da66c119be3f1b; 0x70e70a8910d1a818; 0x36a53c0ed3d273db; 0x64b947a8d8ff01d; 0x7804d08275f4f0a4; 0x39762f013d98efb0; 0x334c82e2b7545717; 0x23673a37984f261a; 0x36ffd2d5345e9ae0; 0x80229e03598a584; 0x1ca13db36888ed82; 0x5b5f86a7f44d5ef3; 0x256cc6df9359852e; 0x4701bc76f6ed5197; 0x520e54b507b083a9; 0x26c98ad08f73840e; 0x5a82f908f081d00b; 0x4139475d8aff603c; 0x4838b6e2083e668c; 0x6a8327cdeff69436; 0x3f2c85984e6e1b93; 0x3a3c286963757715; 0x7ced74a38a28370b; 0x2a45ae6a8f1ed1ae; 0x3aa20f8b20da3d1c; 0x23f468196f7d1fc4; 0x6c347922d620467d; 0x144b24b12608b12e; 0x2a904d17e8b8fc09; 0x7d665733a5f85083; 0x57bc966400828e9c; 0x1849aba8a702a741; 0x716be991a33a1cbd; 0x738ec1b7946bfb52; 0x49977a4fdb219c29; 0xb1c68ea6fe2b51e; 0x3f14566046b1f7b5; 0x7daf922d04f43458; 0xd9163fcc1ebb919; 0x4fb595252150440; 0x4399ccf317078ef3; 0x266a341d0a2fec5f; 0x4de9e8b93eda315a; 0x5a0f28691e96b5d3; 0x432c9abc81accd58; 0x36ed33f7256bedc5; 0x3782817cab77a; 0x3b30dc84311acbc0; 0x1b2e42a9dfd1091c; 0x5a7b6613f46057b7; 0x47660a9d0e6b3e77; 0x4598a99077a17d0b; 0x735229d6bb2cbb0f; 0x3ae23edf105ee21b; 0x5448d165bf7d33d8; 0x1879b9dfb424fc84; 0x49391b277b0c7dca; 0x92ae2f1460398ad; 0x36a07483205d389e; 0x508e2dc634a5d850; 0x5e9229e089e1027; 0x19dfd2ddb40c6d88; 0x24135f453d02e60b; 0x5da1754d1390d8d7; 0x440afff6d4e78a46; 0x58158e078fe5ed78; 0x2599b930704c5b17; 0x4a2c04e99657ae0; 0x516f27ca4afd59f; 0x7fa3a773248b81e9; 0xb41b4da571b7564; 0x4bc44bd4c5d05096; 0x4b110e732ba319bd; 0x4285545d0f50f146; 0x411f6105d2ce90eb; 0x61b329d9354386a3; 0x35fdee2568163362; 0x1cbe65b8f393f33d; 0x5cf0a38489b93d4d; 0x32e2ad5bbe394c73; 0xf58cdacb1bcb5e; 0x543e50659f59c219; 0x20d6f49e380f89aa; 0x2a920b1b95da3a64; 0x772f77cb76767a7; 0x789eb035603b521e; 0x58dca25639840331; 0x593b851712f72cf; 0x4289e6b284d90bba; 0xbc5efc5f86e7e46; 0x792888e79ccfc600; 0x47ac8e9c748e3b22; 0x1b8e3b9f2fedefa0; 0x7b730c266a996d8b; 0x6566f5fa54408001; 0x12d80b6cfd807f8b; 0x4a7460af9e387f8d; 0x700986a135dd01e9; 0x35752a431061e152; 0x4df68da13ab00b02; 0xb5fdd2c6f297e0c; 0x7231223143e9c980; 0x443a18b82acaf024; 0x41b9920a8a9d8054; 0x14f9bff2a046c00b; 0x742c44dc3a673c24; 0x5f7cc22e3e6eece3; 0x17b8083134ce01f; 0x5392f5aac547b55c; 0x74557cfcf63b0d07; 0x7ee0a3f9210a3e18; 0x6ef01167abfd02a1; 0x6b87143805b01f43; 0x2b410ace48a22435; 0xfcefa592e681960; 0x4075e34038ec6b07; 0x4589ad01a0db3635; 0x3943ae24f4ae6d15; 0x2f4a835b61ac80e9; 0x2e687f1090f292c8; 0x691491ef9032fd90; 0x6ccd6be0ed93b5e6; 0x3a9b9136abfcea66; 0x7c49101bde173748; 0x2d170b4d5c83d1e9; 0x1f39ccfbf5d4b32f; 0x69e709dd0871928f; 0x5dca9e6b52c1ef91; 0x131d95e46b638c2c; 0x4756661f2266e27; 0x6f2fdd3cf4c2da12; 0x7b272b8fe9a47629; 0x565fd50d68ba3aab; 0x15700df71f949c6f; 0xbcb680af94c0b7a; 0x23cae7c1e830b642; 0x448a68e849df8b2f; 0x34ac86d9b4d76de4; 0x3dffc3d50989e046; 0x5303ce2c901f12eb; 0x61510f9fc347d6f4; 0x2aaaa8628b1a2537; 0x400ceeb19587b23e; 0x361f045056d3edc4; 0x22f357ef4b5b5e6f; 0x65f450d62a959071; 0x6c52fc9e58f8f11c; 0x12a77b363da4d02e; 0x34dc807278a36113; 0x7b74636140e1f7e7; 0x13600d8f560c2268; 0x476cfe0355eb34d2; 0x1d0e2b1ede0a666a; 0x1188bf432fcfe643; 0x5543e6cdb8fae6aa; 0x45104441196d53c3; 0xaa88a8a08088aa; 0x5040501500055044; 0x202a8a8880aa822; 0x5005045550114040; 0x80aa0020822a80; 0x4151001514015005; 0x28222880828a088a; 0x41401415541050];
   [0x2d1702dc7da22b40; 0x3b2cae8dea70349c; 0x67ab9cfb50587e27; 0x7fea7bd4185c8de3; 0x41f5d4f9894df928; 0x369e74cf3c409876; 0xb40c6adcb4a1efe; 0x4338f3e24c7a967c; 0xe5759770a25338f; 0x7f7a310bd2c3d2ee; 0x7496139cfa3ebae0; 0x27a9961b1b2145c; 0x73c130f5feacedb7; 0x1ef793dc97833305; 0x72f7c99a2f221913; 0xea9a04a0d0fe8a6; 0x6ce18bea084c973d; 0x5668700869673b; 0x7c396323cce3efcf; 0x63e4239374359b5d; 0x2143ec4bd8b56ce9; 0x569b851af749ee3c; 0x193aea265a8ab4d2; 0x31f191f95d8c3376; 0x41e0f109fdb1075a; 0x17db1f5097d4c977; 0x6974fa1e74e28a8d; 0x1b54e600fed61b1c; 0x392a7935c13c082b; 0x32d04499efa0ac8d; 0x6037e10874cce6f9; 0x153286bec0a09090; 0x2e463572a9575606; 0x40dde7f042f5bcda; 0x37d44dabcd310734; 0x1d5c846bd4410b0f; 0x616374ef0bf27584; 0x13a67eadda638667; 0x6f3885ad6d5ab13; 0x4fd09973833d5420; 0x4261367ade7ab584; 0xb3f752938ddac06; 0x5c338ad32e2f9869; 0x7d64de6f885c2d94; 0x7f623a8520caa0e6; 0x845010728f898b9; 0x1607a6e623bad530; 0x1e87ef13e225d39d; 0x8ecfae471f3f0a0; 0x1c8bfbc504c4e452; 0x747d968344a6f2b9; 0x6b547ef13cfe2ddc; 0x4e341801f9a059eb; 0x169e7d15ce909969; 0x705f9c4edfb7330; 0x53f1dffb65143756; 0x277ab5ffe28960da; 0x7ab00dbcba941a32; 0x65c50ae00dee5321; 0x5e7c5da39f9acd01; 0x68110c19ec7ab19e; 0x6943a58b480df871; 0x5dc4de72d36c7053; 0x79dfa88001ec7d67; 0x63fd64f97b5fd765; 0x4c2ec1fcf192368d; 0x13ffbad92d8c3e5b; 0x8ef47426dda8a9; 0xf790ac1d1e06c48; 0x4cb4a0ed5156c050; 0x75c47a68b146e99c; 0x231b8a2101f72718; 0x3e2c063c8f041f10; 0x6f1a048a23bef1be; 0x321cc09d1112da5f; 0x2975c6290291b855; 0x3430e56e157de7c3; 0x56eb4cc2ef94fdea; 0x374b56a9b9dbb05b; 0x4dbffaa665515dd3; 0x6a43dc9b58d702e1; 0x629587da298b59b8; 0x6a92357e439824ac; 0x201d63fb49c61133; 0x492c03125eafcb4b; 0x190db5da50600a75; 0x66d33c8702c9fa9a; 0x6ab7c4685120796c; 0x68915ceb8c804aab; 0x3d91c5ad2dd8990a; 0x4aa1b90c031707a7; 0x6ba0f8ddeb67229b; 0x529cb18d7268a26b; 0x2b7f02b6a9c14240; 0x62f5e5b2b8d1ec0; 0x4ef1939af4c9b705; 0x341cec841cfa62d3; 0xc146e41d158a65c; 0x4a3f84ce9f3d6a6c; 0x680bdb6525a740b3; 0x4418dba513728ccb; 0x60694be8fef49f14; 0x77afd964282ba26b; 0x2618c6e956ee1731; 0x66e53cad6c9c8f8e; 0x3320803cc50eb025; 0x2c7627999eff82b2; 0x414cf17b50709e5f; 0x2bc0fbb4d6d6352f; 0x4f579cf4233a3931; 0xb0c2df52282369e; 0x1d9a06f3799a3fa3; 0x69ccdda4b03761e2; 0x4dc9b56021674659; 0x400122d72367df1e; 0x6af4779f1df10e3f; 0x2badc4e2363c6eec; 0xebc9ff6f0d0d44e; 0x15fa595a1a63c519; 0x6a8e68937603f35; 0xd3738e0f1f08be0; 0x5ffdc648dc9a57f2; 0x55f2a92b5e89b451; 0x75819fc721df5043; 0x5945ccd0a52815f1; 0x7345885777caf07; 0x3648e58538ff55e1; 0x322902bf64550784; 0x2755d6a6efc0b991; 0x70ca52fe7236bc69; 0xd0891668542858d; 0x4660e8b855c0462f; 0x6257bf6d31ef6feb; 0x11df2686a4a76abe; 0x2f90bf9809c5767; 0x42744f4b47585d44; 0x780db962202f52ce; 0x21010aff0d2590df; 0x33770b6804c0e422; 0x6f497135d45e75ab; 0x738ced4335f2983f; 0x5a6911d144c023b; 0x536cb39f5e69ce78; 0x7ca934438f90b3b; 0x1a5b5fc1180797ff; 0x2be5c05a290a9ec2; 0x15985730553b1ec4; 0x1d63d315ffbd0429; 0xa0e95f21cfd00e5; 0x7ceba71a4c49962a; 0x189c73d37be4f728; 0x17c74b1d95f67149; 0x27a659f6a8ab284c; 0x28e9b8320bcda7e6; 0x63998fd70a08a36a; 0x64ecae48aa626bd2; 0xc3b522fb6aef25d; 0x6a84d78e8bdb8fa7; 0x43db370a4f87fec4; 0x7de88de2a75bdf77; 0x6c3f9d4321ad9d12; 0x7f4841e55d424742; 0x29469f09baa275af; 0xd33ce4a14fe24e5; 0x696b3ce9dc2a2309; 0x2414dd355f07872c; 0x3a5797a5a6d2852a; 0x780110540488ff2f; 0x7ac70d075a42ef46; 0x1ae271a05784eb0a; 0x7c36d03db18072f3; 0x32a607596c36ef6e; 0x5b296789650f4f0; 0x32da641e929cb2a; 0x889824a2b421539; 0x7c11559cb06eabfe; 0x4aa64a5fe9759856; 0x7f95f73082a27a7b; 0x41f67628d30bb468; 0x11d7464af71f1ca; 0x37fdf45b1a608b9a; 0x6819c69844cfbb05; 0x3983ba3d38abab; 0x243147a74ed64740; 0x32ca3750cefb2d14; 0x3422ad30debe4f8; 0x466618089dec8e02; 0x3155b440804f42ef; 0x3f3769cae030cd5a; 0x5d79c351d9538046; 0x585912b35843a4c2; 0x25860186b5fed0c2; 0x3b24321aca2dde6e; 0x4fcdc5fb0ec7e219; 0x227274ec91e64cbe; 0x3985e46dbcfa66e6; 0x5429568ef8cdc479; 0xc26b3c0c706c74c; 0x6f0ec00d662626c; 0x1248eaa61a9ba71f; 0x1d97172c97692969; 0x7679af478493097b; 0x76b75bee5c8ee0fd; 0x2e32028661d2e5d7; 0x504e8e513d29f877; 0x54ba6deb271c9bb1; 0x3eae3ad733c42fff; 0x7c2fc50d563685d1; 0x525f46238e7cfc60; 0xea399905ced940d; 0x66770df0482b8032; 0x7fcd89b79d917609; 0x74b17421ea9c51e4; 0xe0e203a96226f58; 0x2a3f0a70901b65e2; 0x6c09ca7461f15948; 0x135194fb002d3a96; 0x68ea3a954a7b52f6; 0x1ceb1ee6b2caaa04; 0x4e59332e87c48ac5; 0x34e401f8caa51f79; 0x5107c9682df04ced; 0x381e2257a11968c8; 0x1e175f77036e219; 0x62171d69099d6881; 0x52c409d3899f7222; 0x28d86fb9849a0542; 0x5c6d43987e1ad61c; 0x1215fbddfafed6c7; 0x4e1c3a9725086fd7; 0x6d084ef7aeceae0b; 0x64710e4541857c02; 0x368d13741522b685; 0x29b49a30f9a1c99; 0x61449db8d49ca80a; 0x2248b70091d2967f; 0x5f8c470c7e284c7e; 0x12b9e37b230202e5; 0x338b99122b068771; 0x4a749e407c34fdb2; 0x663b86e0a44573d8; 0x3f2bd1e1697253cf; 0x52d46b5f0d2809d0; 0x7fedc73bc297db7d; 0x3fcfb1f6dd6ab183; 0x39fda983ba1a046a; 0x1f08c4ec9847cb63; 0x38ef9db9aa648e49; 0x795631fc5d2ea830; 0x53337dba803844c9; 0x3daa73dbc95b112; 0x6948a5baa88c3338; 0x5cf7ee3b12e6bcf; 0x37256118976658ed; 0x1df91e4d4d7b2acc; 0x542e3f0c043e58c0; 0x5a504bb9dccdb0be; 0x534e1a8d58049117; 0x229e9b9b2fbf6a70; 0x2f8f05e01ad341f4; 0x54b7853a4ad5d4c0; 0x39af36a357842ab4; 0x2010dff56c5b1683; 0x1aeacc75c8ebbf49; 0xbad7b6afa344ba2; 0x6f2af083b66c4fa1; 0x3a1c5dec630894fe; 0x705aeae8d0bd5a6b; 0xdd10b0fd6ae72c6; 0x220370a1f5b04e1f; 0x6edb170e2b00fbd6; 0x96dc2feb4f2f8d6; 0x1bb621ef3de92742; 0x6a764b658dbce3aa; 0x88963291bb3ae8f; 0x41f906663a32559b; 0x33957c213725ba3b; 0x34b43f8efc6df156; 0x1f5402909d352e61; 0x2fee7c32ff58b4fb; 0x26090ac09dad4d9f; 0x42416b4d5217c6bc; 0x33476ace43f667fe; 0xc944e925eec3364; 0x1607c99acbf57fc5; 0x6557f3034a17851e; 0x706a4035f75b30c5; 0x54794cc071686397; 0xeebc032fe7f3269; 0x3f2ac86c3e781202; 0xfa4a07818c27b7a; 0x3839dad37e121cf; 0x7523c0a6e077dde3; 0x367ae54d3b4c5c16; 0x6a85520a9c31edc0; 0x2cbd24decd91fcdc; 0x4a639a1da005891a; 0x53de91163ea95a7d; 0x26b0b8d7aaf0737d; 0x796cd034441877c1; 0x37aa19e4c283ba31; 0xbd6ca148ea676fc; 0x1fbf4ade9fb200f3; 0x6f7d59ea81da12d8; 0xd5be5d5ee2d5580; 0xbd18366217d22cf; 0x147eb71355deaadc; 0x53d0734b1f8be0ce; 0x4454150526117fe1; 0x20280a22a2020882; 0x5440550445104050; 0x22228a8822aa20a0; 0x11540544155454; 0x22aa0aa820028000; 0x545001141540404; 0x20022aa80a28a00; 0x110015505151414];
   [0x64018b5f70aa9f7b; 0x297c1562fd9c033f; 0x51a82c44049867e4; 0x513b556b4e3ad07a; 0x34fbd54642576899; 0x373e4dfcf7f37166; 0x6bd488fe65f4ea73; 0x31bd5612eb49604f; 0x4cc0a45d27d1db3e; 0x230e5b260cd88b88; 0x4ba964f5c0696339; 0xb61db49b170a261; 0xdae900290f12761; 0x584607408dcbf923; 0x17e20bf807d1d293; 0x6d4f6f56901af66d; 0x1ce81fcb1a96fb31; 0x669a3db9071331df; 0x32c3f434a9dbc254; 0x4b7704ed1cff08cd; 0x21716540b23aa015; 0x4f5f3c418443a544; 0xf85f8692b6acaf1; 0x1f25925e16906813; 0x56de9223c25f0c5d; 0x3a7b0c2f41069719; 0x2c294a2c270a4aca; 0x5fc533f687ded527; 0x7761d74a4b6a78bc; 0x508b42031f021d0f; 0x53c8cfbc6e64ae88; 0x3b28a23fdbb3703d; 0x754e7d3479c4c702; 0x51ba239a66039b1e; 0x42f455fbf4580655; 0x17e5be9096150a79; 0x2797450955de9c2c; 0x7b22b4b8e86809d0; 0x58d65e00b3b2b7b9; 0x3d7c602334fcfa4f; 0x48e2081b6053428d; 0x74d77a3aa8e40a16; 0x483a1b7b9214db2e; 0x1b10d2a467f5eb77; 0x72c874dd903d6d32; 0x6293e58c3e48cb8c; 0x28c6a0c85594a92c; 0x241dd45773ac6161; 0x5d8e9c4bc528a985; 0x67c901130cb9a1ed; 0x59c21157c9283f84; 0x2cf78b3f3e969dbd; 0x5036c742314fff89; 0x19448a9b84a3bb79; 0x1cfe9e8ca2f6695d; 0x31dcad33868569f7; 0x38fa8eeb913a9b97; 0x2c5fc222376bb3d6; 0x6a9c2e12c61fd4f5; 0x1445057fdcca6473; 0x247435c410f2d4ea; 0x21cbebdf67e6f7e1; 0xf4c1ddd7f959731; 0x52ff2191f6eafb4d; 0x57186db70189374c; 0x2cfe9b18bc497a5; 0x16a3c8a04ba7e6cf; 0x4aa57279548d63b; 0x4b2352eca62d7377; 0x5aca76000202705c; 0xef947a2134101c5; 0x303b3a1d130ea99; 0x62853476169c6da8; 0x712ee1f4b40a28f5; 0x1b5aeedf0dbfbe62; 0x627d47834d5c54a5; 0x28b30f33eaf65eec; 0x2d0795c683a45193; 0x6da9c51faeccc704; 0x7e06f94eedfe0912; 0x6b9d497f9ed17e74; 0x685f3625893f8805; 0x5a4022449ddd023c; 0x5f9ffe3f11bfbb2f; 0x7c8a44c0772b07ca; 0x336409cc0bb808b7; 0x66dd1b720dc6c8cf; 0x550b233e4864a80c; 0x54a800e82cabd26; 0x565277c6ace4aacf; 0x7570e7d19b8aafe4; 0x467f1296cb54a711; 0x32e93313bbf40d60; 0x28e30d4d0d64809; 0x6675c55d2e851b97; 0x26bd42b4300732a7; 0x40f9e124f2e98c45; 0x7aeeb0f3e2b0f2bf; 0x76e342277aa727fd; 0x60262899680639a3; 0x3c0b46f1dc77bf8a; 0x158e33ca3ee44047; 0x2480314135ebf85e; 0x12a80f41d63b309d; 0x4efd4e197f60535; 0x49a755ecad1de8ac; 0x4797caf85f4e3d8a; 0xba57e6a9c651f53; 0x5b6511a887a1a1e5; 0x1d084b1388fdfad5; 0x76fda10ccfe94239; 0xafeb84a014d497a; 0x536657199763985e; 0x5db207fe1e9e9bfb; 0x247ec6f4b96a481a; 0x3d19a67a6f9c4178; 0x4bcd81b304bf8ee3; 0x38673b89dbe5a678; 0x52f61b7e1ca6d660; 0x752c4ed805652a92; 0xb84fd331c75d81e; 0x77e02ef12551401e; 0x19eead2ac37a1882; 0x3b0297109b0d3d33; 0x5791fc4ab11f4528; 0x17ec7c1f33f77e57; 0x7e25a618caa6770a; 0x175a72cfcef17f3c; 0x4712280ac7fffba5; 0x1b8f106110811925; 0x4d05d0b9eb9db308; 0x5d5f2e4a1980491; 0x475abced86569dd5; 0x5dbd0d9ddb8ddbfe; 0x248dc0ffe9ee36e1; 0x770dde134c35ca5f; 0xd97fecffa07c32; 0x403608609d68d6fc; 0x3eba5abca50c0fe5; 0x63cb16ed66652e30; 0x15463bb6045d3e39; 0x1029f7ec8d17f6c6; 0x42f98e1b8680147d; 0x6a10c257aa77a0bb; 0xc1bb3fe95b16ccf; 0x525d60f0c7efda7a; 0x38a253886ae4973; 0x11efa6e47d0cb0ae; 0x6e2c8d897ab7e116; 0x7facd38f6ee1ac48; 0x6ebbc5fb0c8bc01d; 0x1998c0f4c2d03a35; 0x6124b772fbc03fd5; 0x652403d3c215bc72; 0x7c50237700e2fafb; 0x14bd6484bae21aab; 0x385c1007f7e69c6c; 0x2326973fa54e62a; 0x57e8f9074f301947; 0x17cc7788415458d2; 0x7b8308a26720093; 0x5156ac9cab0f910d; 0x6fb8641d0acd38b3; 0x2960dba61d02faf7; 0x6bcdb858f3dab944; 0x58ec914a7e4d059e; 0x8266de02261e9c; 0x731a0a3519d9a238; 0x672e0e8adb080ad0; 0x21e95d9f1288b519; 0x4ff0e473bc5938b6; 0x46e62cc6107c24de; 0x7dea8c8781cbd20c; 0x5da5a0902e3fb8c0; 0x6800abf4ec36785e; 0x9f1cc5ba0abb839; 0xa5fba3dd82802a9; 0x60f1d8aa7825dbe4; 0xb5a4236bcd4d08c; 0x5e7027b8df7ec2d4; 0x56d3dd67a8e1f3c3; 0x4439bc1c525721ec; 0x53738fadd090c6c8; 0x1fe0d918d2c596fe; 0x75c3ff4a55effb4; 0x1581d26c705262c0; 0x1c4b14ed995c813c; 0x2783fda520dc2778; 0x2cbff4f588347e92; 0x75791947c8a579f5; 0x26c8d9f3268c2f0e; 0x53d546b774c2bda8; 0x548f8053a840e14f; 0x383fb689d9790662; 0x5872942111d7d38c; 0x6df7fea220c85deb; 0x2482a69a4c15d68e; 0x401d139da176bc69; 0x3d014746d24a3a76; 0x1bff17fa78c9e94a; 0x78a0500d0269911d; 0x954a5b774bd45a6; 0x3a39f7879aa56d2f; 0x160fa0efe1d9f6b0; 0x22dfca027f0ca598; 0x4ffbe25f1f9faebb; 0x22a520d0be012d62; 0x53b9047fe3df15a9; 0x7a0447e8f808087f; 0x72b5f77c15142c59; 0x59047c35218ab301; 0xde62d66c66d3568; 0x1450b70c133966b1; 0x763b84cde1dd39a; 0x5839fe16dcb214aa; 0x673af746c63de190; 0x65d6f2d99b9a47d5; 0x7022d0ba4cbecbd9; 0x47f5a0d2bd7c0605; 0x76f93a90435e4065; 0x69af5bfa9cf208b0; 0x311973332199a385; 0x32ead93339cfac7; 0x59d09467a3859c07; 0x4e29a525a03ea5a; 0x7838d61e7cce0a6e; 0x86d45d4705c97e6; 0x427e5f3c829ae323; 0x1802e4407887de29; 0x5ba12c5b9cf500b5; 0x1c18c3f15bb5860b; 0x4e83cda22c79785; 0x7094033f91c26335; 0x1c11382e8bdb7b0f; 0x453ae511675b0988; 0x781b6ca282e37c84; 0x6e4f221f446dba1c; 0x7178d729fc93b637; 0x7172de15a16fbe9d; 0x6f375f20eaa8f161; 0x7a6dc6b2aeb8631c; 0x900082f927eaa8; 0x288028b22235baa1; 0x3f3f4b7a4d3b0af3; 0x5e740afc252364a6; 0x57f5c0fa192edce5; 0x3821db439448a04e; 0x6eb631cf33aad463; 0x1e8ae7ce83fac946; 0x76b5d0eaf9166e07; 0x7af7eaca7bd8282a; 0x4873703508966248; 0x2500e336001c23f3; 0x2e0196af00ffaccb; 0x4720dd3a825df754; 0x2cf25462d48b5cb4; 0x15c8826f2b3a67e2; 0x1e2e3f3fc7aa9390; 0x1fea13ad4fae22ae; 0x7d289b7db2fcdce6; 0x45bc55dcc3bdad28; 0x73cad7446fd07703; 0x76bae4f8e29da675; 0x2875851569f233ad; 0x3b30b101addb50d0; 0x6fa51471487f5336; 0x1c583e1a35f64858; 0x71e23841e3a29d61; 0x32a560f780560024; 0x3c6e32726e227a75; 0x1b85dc066ae6f73e; 0x218beb3c9caa90b8; 0x739580385153973b; 0x276d4e4f27748637; 0x487da9873d049fdb; 0x6802c2a2fa543669; 0x5b1f58da00f69165; 0x4f8ab2be74842068; 0x53163520be8e99b5; 0x21c4ebee0739a90f; 0x6afaa6fff7387b9a; 0x6e4741cfad47d7ce; 0x2260f29fbd7a9c23; 0xef972266f5e33f6; 0x5d21f2db2d23722a; 0x25076ab0e6a28e5d; 0x1be0f3cb3e5658f5; 0x1dede2088c2864a7; 0x79317dfd77c19213; 0x77c993a9c5fe53d7; 0x46e27afe52dd234e; 0x4eae52afbe92c846; 0x21b7d0abc90cfeee; 0x7159e74b1c7d35fb; 0x31265003aa32111c; 0x7d15f033d20072bf; 0x15abfca9b6fb5784; 0x4283c3f4e8eaaa61; 0x261ff216d62cd4e3; 0x33d31ef1031e0351; 0x1e9719f6a6be28e8; 0x60552075969afa1a; 0x42c4d9474975fc6a; 0x341f42aeb72376eb; 0x5ad8baac4a8eae61; 0x740a24c4815b7dc3; 0x7238e9557a5b3f23; 0x5e46f57ddb35e67e; 0x4405410585e1340f; 0x20a202aa0822; 0x4044141454411014; 0x28088a00200082aa; 0x1514101555045040; 0x2208a2a08828a00a; 0x5154044040154155; 0x228a00028a08a2a0; 0x405010055440505];
   [0x173e82e13cfea23c; 0x58b04fff731a11e; 0x639d3905f3e63d3; 0x718669a6c92be953; 0x391e47b14a0b56bb; 0x4129ac2a29a713d2; 0x5fe243ae5c73bf3d; 0x600041b3b5cb5302; 0x218b8312b5ecde7b; 0x3463c43d139f5d46; 0x5cebfc6b12962ff1; 0x248d1c9c0562f4d1; 0x406d83f7f82c7ea5; 0x60f0ae2548f2ce88; 0x466b0552e1a32ac0; 0xce9945b0b0867a7; 0x2efe884277b23802; 0x7d8a431f1dd09684; 0x3e1835f891a00333; 0x5159a93acfceeecc; 0x368b4d4060d72924; 0x50d3778f0e79008f; 0x17969f580343e699; 0x117e8811df2a3d0b; 0x713cd2a64fba88c2; 0x62176c910a48726f; 0x4933f097b9b069b5; 0x362ba8ea6aaf15b; 0x243630d230094bb; 0x2d2e648a0949affb; 0x20efcc1e095db5b0; 0x1f7cca4df5940173; 0x25d2602a97ebd2db; 0x651637112e2e9363; 0x3a7f7f7fbbe03b02; 0x29014aa04af2352; 0x4f5aa9256bb41e74; 0x13cb6005fbe696e3; 0x25c863149ac15537; 0x1c3885dbcd2ff1af; 0x6116888cffec4b90; 0x4208084fc0437eb8; 0x391ca857fa2f5fb9; 0x37acfe48cb0c9938; 0x2400e72d0c21696d; 0x1d545d897274e032; 0xe8cf944ffbd46e9; 0x7a939811147a5fc5; 0x622c0e63bb7ce196; 0x5aac75fe8a0ceec0; 0x5c8aa84f4a52f65; 0x21487817a5db70df; 0x7bf5d79a2bf5f3c3; 0x66d4e5c6cf52bad2; 0x519c0bc60b038889; 0x605dce7fdda7730e; 0x7a5890dd51308556; 0x2b24e7781afdd4cd; 0x795268d6c7c0e62c; 0x21c65d166f22f61d; 0x65b8954d299d550; 0x7931419ad9fc426c; 0x73effc11696d75eb; 0x19683135f87c32b6; 0x1e4b5365771a0665; 0x5ca7cd271a635467; 0x4bc934966aedddbf; 0x4cfda14de16898f5; 0x27870e1697195622; 0x4c23f92f3802a27b; 0x5811e0d13728715f; 0x182eea81b7315724; 0x631ca9691e219a0f; 0x63c18a8036a958fc; 0x1947033bce6bba4d; 0x5deb5bca134e85d6; 0x748b18ad158c653c; 0x704ab6df269beff7; 0x4c50b97a1d4f92a8; 0x7810c650f66e4a58; 0x475fc3cc08911830; 0x7e2893cca0b78118; 0x4dd1da77d232193b; 0x55d0c6e378f9ecf5; 0x3b4936d70889ad3a; 0x30b29ad207e608e7; 0x587e189f5a92df8d; 0x6ab0061879203e04; 0x5b35f076c910b1bd; 0x15f69ca95f7d1f8e; 0x1ba3f505cd57080b; 0x1434a1c9f3a733e; 0x46818b2669e098c8; 0x797e748ffa7acd89; 0x3387daf269e2862a; 0x17bd7d3846d9b93c; 0x432e1edc93ab3b91; 0x16a406d9567f9f4d; 0x5e6f083a7c3f3016; 0x444c48ca012c44ba; 0x684f341c8076576f; 0x42e7ad382b27cee5; 0xfd0c44d1a641245; 0x4e86cabf730add70; 0x2b6c9eb84032e3da; 0x74bdd43ae7eb37a0; 0x3d4ab4170d7df48; 0x13dadb89da96efc7; 0x3ec8f47dd0c4b734; 0x5c6e8ddf9a1ac1fc; 0x5870dd8c5f0b22a6; 0x3cc376f18359fa3; 0x3edacc8e4be8f750; 0x64cfa3ed3dfa4567; 0x15068563563e9171; 0x12ee5ab4935ec6c7; 0x123950573dfdee7f; 0x527231788db94701; 0x1730087d9caa7652; 0x377c68597ab3135e; 0x3b3c6f7488797323; 0x5ae8f0ff20f19463; 0x65f83ed1efbc51e6; 0x1ecad7e039cf8c5a; 0x2f6b05d5eaf26b97; 0x6c887ba48488e6eb; 0x4a6cf5e0cfb11a3c; 0xa23bd76c5bb1a37; 0x47268bd1823a2809; 0x2c9629ada008e91b; 0x1076d94d48fdd435; 0x3afae73a925135b1; 0x3d2bfee84ec2e6f2; 0x3fe9de241cb21718; 0x629cfa5da4a4d729; 0x5f32441c26a4e9b8; 0x721a79558fe047da; 0x7c5f8459a8473f7d; 0x692963a2ffde8f0d; 0xe5b4e9b52f5ad8d; 0x461733ec78d25ed0; 0x6e613ef10d7958d3; 0x2c5b73bb4e74dc73; 0x4db27fc0668652f7; 0x685fbe66a85555d5; 0x2985e887f7853f2; 0x685367cead68871; 0x602a17480d195db0; 0x7be8fea607c3efc6; 0x5ddd54f1853c87c5; 0x19565149cfd59dc5; 0x39342cc0f6b2bd56; 0x7c7ea29b3990b0f7; 0x28bedc2c67096c42; 0x769df8d9090034dc; 0xadb99067259cb39; 0x45d96e9e0a625f4; 0x2a9dc6264e73658f; 0x4e30d04d7621a7b8; 0x7601b1966b1cf361; 0x73d2ce17fa08dc; 0x4c204de1ac0d55a2; 0x76c32fc4d8d1a36; 0x2dfd70fb56b115ec; 0x73c8b53ce578f051; 0x116852e582a0c8c4; 0xae9193386e8d41; 0x5e4f8d90feb1d845; 0x32148e2972722ed2; 0x5d700735b4a1272e; 0x288d85f3acb18ccf; 0x61f5fc24a8b72153; 0x5c08b23263403c98; 0x4fd84727f3075e4e; 0x1ab07ffe27edadde; 0x7e886fd469fa3e5e; 0x20a3609319eba662; 0x37ed72a9e900b9a9; 0x7858ad71c2e046de; 0x76af624c689d0360; 0x464f2273e963ffc6; 0xc8c9eb37bb1ef2f; 0x2cde8197deb95601; 0x5aaa64bf2ed4ddc6; 0x188e576f3ac0ad89; 0x164b9e4fddc67906; 0x64e5e49cbe520306; 0x76992f943a05d4aa; 0x59e94ace083cb0c3; 0x7598f5e5e9c6178d; 0x3f7094675169653b; 0x9c4569e29b3e260; 0x12b63cae226cc8c1; 0x56021ac559e0ed6a; 0x2b92c8c0f32bb095; 0x795156de4587d67b; 0xfe3d82fd775c10; 0x2dd2bea7983b0746; 0x17d477407b813a67; 0x1f82bbaaab60b46e; 0x79d3a37f0d8d018f; 0x450d4d117accd6de; 0x13345ccd8afcac98; 0xf12f00dc6466c8e; 0x5d7119e8892ef109; 0x4361fa1c3600b26f; 0x1ab56133b6d696fe; 0x1c3fbf90feff20f8; 0x16e66aab417d3dc5; 0x9c3b4e3afe9bbb3; 0x64132cc55502f30d; 0x4dd4519e26e0fe10; 0x2ccfa4b6e06cef5b; 0x330e2bf2c4bb6c28; 0x376f6fa508713176; 0x35f4119343d25ab2; 0x73c2d1f542b9eb49; 0x31105111892e5110; 0x409ed49b0ed11ad1; 0x3b1f00934865a85a; 0x17374b905246f2ad; 0x1302541a7edacd94; 0x790c481b038d5c6d; 0x3ca334c5f5fd2891; 0x508092b496ddd674; 0x24db7ca3b220b18f; 0x198f417f889954d7; 0x33c996fadafb372e; 0x171696d6863007ae; 0x353e1351d7ea4ddb; 0x7696243d572c1438; 0x61c1edfe8e767b1b; 0x4287b844916cd150; 0x49d4c333853e8f6a; 0x5f8e107780a4656a; 0x701ec8e4cc05e10b; 0x5d5ff43d6fbcaffa; 0x694ddc68ec141d0e; 0x688ac53ca6b99e77; 0x3c454adc649027ac; 0x72ff42c9c21a09bf; 0x3473f417f96ff207; 0x4fd87a31b43678f5; 0xc7065346e0a5919; 0x29066a716e3de284; 0x4c319cfd46733c0e; 0x74da6c91c2d95dd9; 0x72a61269bae226b; 0x506faf94b657c04e; 0x6381327e115e3755; 0x58728bf996ed3010; 0x6d284dcc29202e1a; 0x47a51ef2b05e3ad2; 0x82345d4757a77c; 0x37c092ef88ab276; 0x1db1ec21aeb40cdb; 0xc0ffad58122ad87; 0x789a6fc16fabb3cf; 0x68f00833770ec12e; 0x3338a8de37467c4; 0x1684763d4aae3ec6; 0xa232eb0c6b858b0; 0x22c3e59f28e404b6; 0x7f743998ac11b0ab; 0x382c5cb39d4ab59f; 0x2e897fc5d2196a4d; 0xc4f1f9f591b099c; 0x52ce28dde779918c; 0xcc0497b482781db; 0x426e06e2f419e964; 0x70f3dc860f9c623e; 0x4cc09ccf9b0a8ad5; 0x440bfc7d119a25a9; 0x45ba1a8769c939b7; 0x9e658efe719b72a; 0x3221144265716783; 0x7b48106bbf70bad3; 0x43eee100c11d01fe; 0x2d5c30bd4267bc87; 0x3ff5a8b5b91e5b20; 0x6a0c9dfba9a4ecde; 0x2e537c632f946b2e; 0x3ce2ee9ee224b338; 0x255944d404e309eb; 0x3d4021da4542f8f6; 0x104f58fdeebb5e12; 0x34ea976c1d74d55f; 0x34411f4ab9ffc2a4; 0x6bf078b9b031852a; 0x422d601945aab964; 0x6d75830354e98f09; 0x72ed015054020bf7; 0x9f7b609b71a8c7f; 0x6c625e356c032051; 0x6223539d16cf78ed; 0x748a54a047015ca8; 0x65b25ebf6a0dab11; 0x238098e2b89448fe; 0x7ff40c2e2c894c03; 0x575d8c03e7a6128e; 0x642621fb85612805; 0x722938e722367989; 0x9b73fda0c2533e4; 0x31c88a70d27dd0e6; 0x2d531df97a67b156; 0x6eb592c97563bd7b; 0x2948b7c029e29198; 0x65337e527b8d55e1; 0x454445511caabf0; 0x288a800a00a2022; 0x100114044045045; 0x28a08a280280a082; 0x1400411450401000; 0x8a0800a88aa2a22; 0x505505114510455; 0x28200822a2820828; 0x4555504511500];
   [0x6891edcaa78f85c2; 0xe50f5fd98cb61ee; 0x2b299d9b57d8bd6d; 0xd194963d95d5879; 0x46876e630b0e46fc; 0x2161ffc5440008; 0x33d70dbbc2b1848; 0x3cbcd8a71b80bc6b; 0x2d90476d52373598; 0x17bdf2c2f3ccfd1c; 0xda40856d3d1097d; 0x26db8b036a51f19d; 0xd766ae1405a6de1; 0x5372d54e0e65bff; 0x2dce0cc02a005488; 0x60d737bb8f859113; 0x6150cc4ff0e42e7c; 0xcb2cf89502c20c8; 0x2a8da767c9ee2929; 0xc3f5c3d5667f3e5; 0x41ba9bd7e985649; 0x3fadcb8c9d40cefa; 0x63521f23dc433a9a; 0x4fa6f70d16e35df0; 0x261298e805a0ec3f; 0x1d463e29b73bca8f; 0x3bf31edcf05e26c2; 0x5bf75a3ddf4792ba; 0x4fbe348cab97f476; 0x3f1dc80e64d9f60a; 0xe4eec060a7a4799; 0x26f5f4d50f3bd9e4; 0x303297dbb2035710; 0x2707ca9d5dfa959e; 0x112e7be4ff686f02; 0x5da6da367dbf64fc; 0x3c52a7ff96d429d6; 0x26d056a16794da82; 0x6cd3f76ca1821405; 0x472906a04f5a763d; 0x6f6b8d381585e2ef; 0x62acb102946e75e6; 0x7d50d7f9d6bf587b; 0x59922fb57feee1e2; 0x3d7ed0c1cf2bffb2; 0x1df0f2c8be674a8; 0xf57e0e211fa83f9; 0x1f8cdca7422ebe80; 0x592146712864c18; 0x3e9549c30e1c6974; 0x5c48c0833d64f208; 0x128324f609a6adb0; 0x2847007723101398; 0x722ab5d486e4bc87; 0x4b87de6df058786; 0x376417cfe146b554; 0x322dc7042494d11f; 0x7c36725785eca606; 0x7434f958fba827ee; 0x3b7fdb60e0b816b6; 0x196a974ca8a31560; 0x9307cb01039033f; 0x276f99ec868c0592; 0x1bba7f7d8f86b415; 0x2b17e505784adb7f; 0x5243b6e776e29287; 0x15dd0ccd7950e3e1; 0x45176f3906cce76e; 0x28e6734a7a0d2046; 0x6a22971638e5886b; 0x653c8683734b2f6f; 0x6fd86038e0bbcfde; 0xf0b197acb383ce9; 0x736e16923b99de87; 0x455344a40044cb86; 0x6697c652a74051ca; 0x234b720d83f279dd; 0x6285ac64dc1f5751; 0x592d28e571d49bc; 0x438e926fe014799a; 0x10120e05c6b94acc; 0x724bab4738dd3821; 0x4a7f844db509d5d; 0x72e96856222b5265; 0x395a47494b3402c3; 0x53e3f851c4d5d762; 0x3c549e60d2416c70; 0x60447739dd5247c9; 0x4ecadfcb158a2cde; 0x3c14b290ca55e1ce; 0xd5f4323a528beb9; 0x71cb55002c29261f; 0x5d2aecf569670113; 0x5742a45f470e2e8a; 0x2316e2826782b63f; 0x9abd4b25a9b19fe; 0x6ec9cdc745ec8dba; 0x4ea1532618e86936; 0x10084dccb9b75c54; 0x4fd55d23c8fa62e9; 0x66f5db07576e011f; 0x455065770bead405; 0x513582f1c42321ef; 0x2baa56dea59458a1; 0x6848848ef1fe43b0; 0x37de0ad660b11184; 0x5d4a6c99a81bff55; 0x1b2d23569fc3050f; 0x2054135013db0885; 0x4f5cef588d73847b; 0x5916394ec1a94c01; 0x420e460d03382205; 0x11fadc782c9d3f35; 0x3d33f627f13ecf83; 0x2f91ee4b789643d1; 0x30d94c2939a98bc4; 0x77cdacdb6ba689ae; 0x7c495b5e36be717d; 0x330f9dc694c43d7f; 0x1257b86b1eae31f4; 0x1604e4691b4815b7; 0x62edaaa9b3633e0e; 0x68f5d712d2afc189; 0x1d689192c59d3c75; 0x648d9f33d8497682; 0x1bd29b2686a61a5c; 0x2de7c04faf8c25dd; 0x6251d0e622ce56c7; 0x4a85a65832247e1e; 0x49c53b4c1b80555d; 0x21889e105447d606; 0x24ebf215ebe7073b; 0x4a7911ea336ece0; 0x72da27089ceed67e; 0x1adb38504bf1485d; 0x3012dc23fa2398e0; 0x756bece1d4bd9126; 0x5710125687a13040; 0x2a68dc0538a84434; 0x759b51c6110d0603; 0x1e8cc60c852ea3ad; 0x66b035778cf0c854; 0x2d4ebc273b385409; 0x2de50026c8ee2940; 0x65cc6eeb0002347c; 0x77d038bc3e49bfa0; 0x3cf37d829583cff1; 0x4be2ced73720346; 0xe431289c155bc2b; 0x4a73237f8ecdbc5d; 0x4f02642896269866; 0x5cc4ebe9690e9723; 0x467ede974995c758; 0x57355bf87130f8cb; 0x2386140b4663e54d; 0x475a9f0b2fc74025; 0x27dc63366a84beaa; 0x4c1c4c06b3625455; 0x3e6e7da764f7684a; 0x11b54d7721111bf1; 0x5d335d7ab4368b92; 0xcd8265e6e099127; 0x3883d5a75a953b65; 0x42329d20df6f8053; 0x24a4e906e88c4e3b; 0x42b5a11ea8e3d663; 0x5b64d10d445d437; 0x3b5bb35232dc835b; 0x43f6a9cb1b5277ec; 0x2923825add0132b6; 0x3c73da318f55ece7; 0x3b3a50841f99d3e3; 0x299353d952081de5; 0x6ffd137f3f523d68; 0x5a9af59f37fb8e24; 0x318418d7e48788df; 0xc7fab6ffe79978b; 0x48c51289d34107f5; 0x4a54744f548bde33; 0x6e35a63762b64a86; 0x3d253ebf01b48389; 0x41679f9e54ab790a; 0x11a32af9b2ba6754; 0x1ec439b1997438f2; 0x77f29c34dc2dc8ee; 0x3c77aeba8699296d; 0x6004cd0c41bbcdd5; 0x116b9ed193043794; 0x4185f4157fe99ed0; 0x2a1b6ccc2de982d0; 0x6041d43b5227472c; 0xee9040f325a89e8; 0x5dbfc7f8902722d7; 0x6c71a453cf6455d; 0x10e0600c8883f8dc; 0xb50758d3b7f7a4b; 0x2e82d17c43b0777; 0x2797103a04633fbe; 0x4fb86a7abbb170dc; 0x4884303355b3882; 0x33f318987a972030; 0x6de782b43468794f; 0x410b12c50b71ae7; 0x5f34623827baf4a1; 0x225ef7c520e1fd3f; 0x369d198854a7e024; 0x36db1578d7288bd7; 0x130f92800605e7b8; 0x33e3b274c470929a; 0x7eb123e8aa6e1545; 0x6f94849e7c6d92a; 0x79cfeb06b9bb3a2a; 0x2868eb1ad4e26060; 0x3ca910a6573b00f9; 0x52ea9ffae857d849; 0x63ca753ee44f6298; 0x1f0b94a1429834cd; 0x6ed44d79eab4894b; 0x187aac42d61e2f48; 0x478c9be320bbdfe3; 0x74c81714a3950c20; 0x7239687f8c9f890b; 0x7703e44e7b133533; 0x64d15d7eba30f62e; 0x798b960319ce2052; 0x5c4983abe3a90d8; 0x35ba52251e8a5ae8; 0x57e515e7c038be02; 0x7eba4ab7c24c9b3a; 0x5210719dfcbee518; 0x4ab48ec0d077ca68; 0x7a47e7f1a0626717; 0x4528ce28c54c9db8; 0x53e8c4046f76a101; 0x6ee907d49f9e85ae; 0x3dc66723ea26cae3; 0x45ee10e994507f3; 0x225981b16169235f; 0x6c8e254622f1d815; 0x248de6d9dbedfab4; 0x1d009beaf43722f8; 0x30ebbed791632eee; 0xe404e68193a150e; 0x41a44b2184449689; 0x66ae5bd99de8e751; 0x7064f487242700b3; 0x829c0bb4044ea26; 0x4cf3e311f3e3c421; 0x1da3023cbe280ced; 0x79f214353724f350; 0x774141ca0c47c41d; 0x3fc36cb8d127b229; 0x5bfeccc0c9cc09fb; 0x34a9f8954b9b8139; 0x4b20fa98abdd3cf7; 0x48e104b6d2dd10aa; 0x3f214d90b9e2a555; 0x5135928b0dea36fb; 0x6252fe12f133369; 0x2b5f81a0772d50a5; 0x3711dc75c366d5e9; 0x570432ec64c1d11d; 0x352cb6cf26fdf6e0; 0x320f889e94333a6b; 0x7c0517d75f963b05; 0x279417f535443a06; 0x6a49c85dc8e14c34; 0x25b7779c817aa7b0; 0x7bffddc95adf5a79; 0x7640a3d9f29b61cf; 0x77a0226e0ea17b51; 0x42642ee53406b40e; 0x37ff500a78acd6c2; 0x2c2cba026864582b; 0xa39a18da01f653f; 0x77b36186241f2977; 0x3807a935cf94a067; 0x35d985318364a84d; 0x2f3b7b4f48da2388; 0x38eadb7b5506bcbc; 0x27d327ccb70b05bb; 0x1e702a4f403e9852; 0x3ee4cea857dc0344; 0xe345c343787b4d0; 0x117f03488216b5f3; 0x3511e1968be6f99f; 0x2543b0f8f962a4c3; 0x6377b97eb9827897; 0x578b076620687326; 0x50fd9ef643efa3a8; 0x42ec1e19340ab9c7; 0x5029c0bf61ca73ba; 0x72b87b58d8453f21; 0x480c45f2f9188188; 0x312dc0a9dfdd09de; 0x3f818ca6e1a3d6e4; 0x63d3647fe0c5bb0e; 0x71adfd9195976b52; 0x4644b2ff859e54f3; 0x70dd733bd44a394b; 0x34c9668d2e0d31b2; 0x7cae10e32616fed2; 0x4c6efbd174e9b1a6; 0x3f4f69330971447f; 0x787c9cebccd8e; 0xc9480eda979dea0; 0x465e80eb9cf4fa8d; 0x5b4c80cadabf18e3; 0x105100145fa8ae2f; 0x28880a00a22aa802; 0x4041111040111414; 0x20220a8082aa822; 0x5540115401004154; 0x20aa8028822022a2; 0x111051441145415; 0x280a002022a228a0; 0x55455155144550];
   [0x36f17daf9cf8bf15; 0x139d4a46bf476262; 0xca213626a5da930; 0x7a2e11c256450c07; 0x77d1590a81faa71e; 0x6b968b86bceaef17; 0x6a21cbec500d6d23; 0x4159d1e49b8be9b9; 0x29a3c2125f10171f; 0x4d3f877f385a6cbb; 0x6dd7193fd668a98e; 0x189a745b5b9a7b6e; 0x35f6c7cd2b8aa631; 0x62c98f8920d3a8d1; 0x21e4e76ede2c653f; 0x2836d89654909958; 0x131dc00597a0b938; 0x2555743d31a9c8d1; 0x4713b9947d41a85b; 0x56691b87c3a3a8e8; 0x3f60a148a705a83f; 0x6afaa218906f6968; 0x8c8321da5fedcc; 0x2e26509aab5b82f8; 0x2cff9433e921ad2e; 0x695268530dadb69c; 0x5ede84b6c1d0750; 0x204af57917cae942; 0x781b613ba1cb9ff2; 0x5c1babac9d7c324f; 0x5b47139edc9a9716; 0xa3dd73a604a0023; 0x5c70d91e57b58b74; 0x48a07e3149c8bfd; 0x3384ad1e4774546; 0x27e0760c77153fa2; 0x5243be1ebb04750b; 0x3b9db80b0fd32e3a; 0x2730667b734a8a75; 0x52ef36435e5bf96d; 0x5a5457f9e63051b1; 0x7af98e0fa93f297b; 0xdbd0ff1bbeece74; 0x2716f11c96bf8dab; 0x7b9c63aa3e734baa; 0x2cbbae1e8c5111f6; 0x1c1ad710ef086755; 0xb84b323908242b5; 0x20faf006c77fa82a; 0x615429b0765f3245; 0x1c8b2c6235f76f8; 0xab76582cb1f4616; 0xc7bfee157cd3146; 0x7563b8be013a71f6; 0x3da64576052f47da; 0x233778e9111ebf4; 0x29d9d0055d31669; 0x2473bc74ccae9ecd; 0x44ddbfcc574cdb9e; 0x75ec75d721b3548b; 0x1bed0d44a2fe3f56; 0xa95c9cd07bb7913; 0x4ec9e65c7834a994; 0x558dc60edca672dc; 0x7221c0f309491d9c; 0x1325504e39773da0; 0x3e3638734d710db4; 0x42a5f7f979bdef03; 0x7d69cf2392f87a29; 0xe63ee1fa3b23bae; 0x3620ff0d922d0eb2; 0x209726addc009db7; 0x109549e33cbc21df; 0x267a032b79f2fc5; 0x19c2687a37ae246a; 0x1109ef682531d849; 0x240c1416f5330737; 0x474fa676e7c40c2; 0x4215b83a714b8867; 0x667e946895d28f24; 0x50e4ff66565935cd; 0x7d73363ba62c424f; 0x272d75c5391faa74; 0x39c2251477d16588; 0x6c2e16843972b6fe; 0x6948c321471634a7; 0x178fa37cf6795a82; 0x165e4c4e246d3198; 0x29639db57ea4670f; 0xf7472506e7c8e6d; 0xc0d09bce35e5cba; 0x17708cdb75e5f446; 0x40de16b4c5010978; 0x1773be68d8a4f8fd; 0x5b6c5a687a2315fd; 0x319c6ec3759587a5; 0x59d62bcc8d8d9bd7; 0x467f527ec65d61c; 0x316e38d9d47d1c76; 0x2f5437b823b0ec01; 0x6587e15a7fdf13b1; 0x68d70bad95f63787; 0x6ec5bbf4714dc24a; 0x53b5ed4abbd4f431; 0x21ee98280f202098; 0x6983f82f40cd9a0c; 0x5590e26896d471c4; 0xa05a3f4fa07a88a; 0x6f111022957d131; 0x499ab5e2be6687fc; 0x7a8e3f2b54fce2f0; 0x15bafd96434ddde8; 0x6cc18a8819a9b995; 0x701a09f39a153cca; 0xad284a8b7ba3c4d; 0x3f9caf7f38f3b196; 0x593cc35ea480ff22; 0x3b071e976618098c; 0x62a976298bc75f6e; 0x257158d70c186090; 0x9a6b21946fadd5b; 0x618c8fdd3210a7a9; 0x2ba0d2775fef27b1; 0x3b2bc5ab219d8186; 0x63a106d04a0b3536; 0x665b152604c5d6f0; 0x243ec56117ecb564; 0x1c8b10beb39e11c4; 0x2e00a8d60c641a19; 0x3c3390a71d928044; 0x5022c92d3cfca538; 0x7f24ecb17466db9c; 0x30959623387b8285; 0x47dced66870862f8; 0x778c0c3c8bd40f28; 0x39c4c415b619f150; 0x1349205290391e2c; 0x3ecc3c84058bd422; 0x20d17410f01c0321; 0x13137746569afa21; 0x377bbe1d02b84959; 0x2bae904ba550d3ee; 0x3d830551b745bdc1; 0x7c0c610a8be88b8a; 0x3e3fec4fd3321c03; 0x6659cf1364256e1b; 0x409bcfbf6eb888c; 0x149b1138a1c79c23; 0x4906f11e4f7218fb; 0x95ca41a7b4b0262; 0x3a7889c950e51ad6; 0x49e0cd24c69a989; 0x6c249da55b1016cf; 0xc6c2ec6c739edf1; 0x48dfd2fa8d38d9da; 0x2727e338a520f56a; 0x136cd3f0890012e9; 0x46cde21ef01b80bb; 0x52524b1810767a6d; 0x26cf7135292f9e8b; 0x43dae336a907da65; 0x6474fd0385e65fd0; 0x7d39ce83940d7704; 0x575806cb0792c359; 0x42df9252c937135a; 0x3fa79b3c27423da3; 0x782433233f55b439; 0x34c44d7624f5f5ab; 0x474e987b039e9762; 0x501ab9ceca69a335; 0x7115f34979596827; 0x5bc5e2401399d692; 0x3878d7f9e0e086c3; 0xc0ab1dcd9fbe967; 0x7e39db4ea72234b3; 0x75fbde6e83797e59; 0x6bdeccd8d0c9b734; 0x512fcdb39fba963f; 0x377d270d3da8d12a; 0x641aa4455cab7584; 0x5468705fa5b806f5; 0x5e583dd2e02bad78; 0x63da8e7484b6fe2d; 0xd432a14755b8cad; 0x43a8b9f19b6cde74; 0x650b97ae726588f8; 0x6b67e57db6e3e870; 0xc171b07b51ba345; 0x1d45515aa2bac266; 0x73950ca70354d5ce; 0x101b058ac0594a53; 0x6e8b340d1f383d12; 0x3915785e4e614163; 0x5775aca7b828ee24; 0x561ad81c5134e94; 0x670fc313221c1819; 0xe6a3a932554fd6; 0x577ae27f5d9e458e; 0x7c8ae7e4bd110a2f; 0x5b2a679765abed76; 0x4fac52a731d8ea1c; 0x2a8af0890cb5e230; 0x5e856be205b8683e; 0x1173435c9011b0ba; 0x10dddb1257ca68b7; 0x8b5568d02f35754; 0x3a219d6fb5289667; 0x7bf393c4267b5de6; 0x9341eedad4b5d91; 0x4038dc2a73ba0c2; 0x1c2e8713d845f5f8; 0x6fe85074789dabca; 0x6a79a1a760b006e6; 0x1ea76f7319e0e2f6; 0x77600f997f5cb734; 0xcb75c6d94f4eb5b; 0x452a9311bd98d6e4; 0x4caa66a1e143a0b1; 0x2e95495508ab34e4; 0x483808d1a991cc33; 0x34db7137afb5ec97; 0x7284013fbab08d06; 0x88e3836a25cf64b; 0x345128d139dea3a8; 0x1804e4b07bb73982; 0x1710d46c19eef692; 0x29d747664910137b; 0x74ab27d2e40559d9; 0x6c10cc1b22253e9d; 0x1d7044c815e56e9c; 0xa5df156bb0d21c3; 0x63800e896b5ba932; 0x2b1a56b561cb9ab7; 0x158f044b435b5017; 0x238f966a4b11966f; 0x90a6201180ad9c9; 0x39e25fe56818557a; 0x776731592c3e9d33; 0x5b4d805986e13d13; 0x50a73d599ba0f1b6; 0x1f06aedf6b82ab78; 0x247f613efd4b466; 0x68a138e0c94f3b04; 0x4752b5a006ddd174; 0x1d3735b357bdc9c7; 0x26d0eca360781db0; 0x294f0f02016d6a5d; 0x47da5859fb504a0; 0x50082d82c43390e0; 0x59f91012984fa7e1; 0x7cb350890d09b050; 0x4e1bcf7806234b9d; 0x664525bfe72cdca7; 0x103b6566820e9e86; 0x143b1da2309251d5; 0x4df8cbe156150c5; 0x1b05a3f4aa74819c; 0x7736d74934e6b38d; 0x63746b49b9570aac; 0x559a1abbcc62cca9; 0x7d14aae6922ad8c; 0x461f216dc605409f; 0x77936fe400336ecb; 0x39f7624e19a20fad; 0x2388ee5e7b48809; 0x47ab3189c0876b86; 0x7371519d88d9d051; 0x525ae344249b35a1; 0x30e4367c45c03178; 0x58b3f2bda4cdd345; 0x60003c0f832a7385; 0x139c7c0297c8f1dd; 0x16d15117a9e85f90; 0x2f10f7e5fa6ccad2; 0x54790e606b5922d5; 0x600c459baf6ae110; 0x262950b6200487c8; 0x55179387a1c9cff8; 0x4fef9588154f1535; 0x44df32ea731295a8; 0x35a6aa74c6af30c2; 0x3e94e13f355d7b9c; 0x57bbe4721f35a7e1; 0x59984dc7a98bd4fc; 0x418f4d59f9f1a62c; 0x33ea0f93d8451e03; 0x3e212ed8fa65a163; 0x27d1c829697ac312; 0x7b7caa1776dd5c52; 0x4b52fb43a33c880a; 0x2ff07dd2d7363e7b; 0x6df1b19d9ddda410; 0x7f196af04317eb73; 0x54ac038a24cb67c8; 0xd7bd9d4eccf5282; 0x74d1e5c73e25f8e2; 0x462304843e77a915; 0x73b50043b57ef009; 0x450ca134ad0cdd4b; 0x513fe22fe44647e6; 0x15c9ce8274d58e7d; 0x47d0cc8c8fd6055b; 0xff43061ba00990a; 0x881dee80f4c2b44; 0x37af849096049231; 0x6944a827bb7aab7c; 0x15b3715085581c64; 0x197da2c46c6e08a8; 0x1555515476c8a9d7; 0x220a8082082a800; 0x4550554111440554; 0xaa028088288a022; 0x5454410151414454; 0xa2a22aa82228a0a; 0x504510540401145; 0x802a8aa0a0aa208; 0x114454411154140];
   [0x575ad0f3ac2f7306; 0x6b7ddc896d41a655; 0x468a4fb4feb9953d; 0x471fd6939633f7af; 0x1cc9e9d38f4f7ca4; 0x105cd90b462f4ef; 0x535ef80b1206458b; 0x294030906a67144a; 0x3a0300bc29dc0070; 0x77ee07a5c4b7dab7; 0x8b069882fd89d55; 0x52026a8865f11e0b; 0x30a7825abf373148; 0x405f7ceaa18a3bfe; 0x8b1dba4754c16f; 0xeba32a582e853; 0x15f84b85a59ae31b; 0x14e9c6d5e0324ac3; 0x3962d82f36a977a9; 0x5f12257667311d76; 0x4e605729c16fc765; 0x5f58b0743be0baeb; 0x453045069b87c153; 0x1d0883b1cdeb5894; 0x11f468918f956ad7; 0x8dd870e7e820347; 0x567d255d72a951c2; 0x30717620d2ca0bdc; 0x2c94a87e3191b612; 0x2baf607158b2ff6c; 0x39e688947574f9df; 0xec075e81c584aec; 0x44585c15339b09; 0x56de8fea99671e0e; 0x5c66f77f5159d5e9; 0x2615b24dd0b5f05e; 0x79c1474db06dca28; 0x7e397f78e0f3849b; 0x29045a57dd507fc; 0x3359608624af3139; 0x9c06f3283611337; 0x3404a18d5833c3a5; 0x3843a447069f5fb2; 0x142eeee3c02a8810; 0x6d57ccb89fba91ae; 0x7f9bde42fa57504; 0x31173b34f956ccfd; 0x6e3f3c8bf6e9cdf9; 0x32a85ff86c048efc; 0x1184cdc96d42bd11; 0x1468e7ba275e0f43; 0x480f72c4cc165c4c; 0x21dea3f30941438c; 0x306b28ac49f49e05; 0x6810e1956f5e0b34; 0x2da9cb3f30573f1e; 0xe119c90a94a3460; 0x30712ad3031b84dd; 0x252d23e9e7e2f668; 0x3f61fd369e22fbf7; 0x4235ba97b08f5556; 0x70048fee0b8b4d1; 0x559584c6313f13cf; 0xcd5d9f8d79f557a; 0x7cba3c16947172bc; 0x25e045ec0e6d4b8c; 0x1bdb63c5a57ddd90; 0x751d3e8e77bd94a9; 0x53bf152a75511610; 0x772e803b9530ea1; 0x186793c81680ecb4; 0x6fc958c8afb411e7; 0x501a5bfa3cd18603; 0x48a17f52fb1bba9c; 0x59119e3c210dbd88; 0x51df9894caa02fc1; 0x4315e7d92f270874; 0x5dfbf6197b3680fc; 0x32c52ed209157ce6; 0x1969b57146d6e706; 0x2acf76037ece2dca; 0x1a1215a8fb994122; 0x6c2a228e7a487cd0; 0x714fa57b32b006af; 0x6925967872775d14; 0x46caabd5e770f17e; 0x439f7d8775d55f8; 0x64db9ee288c6e49e; 0x1d3e2f3aa266f95; 0x3357137dc76e888e; 0x9da706ae00de214; 0x7389c8767ecf6bf7; 0x6c4d04c7b0d2907a; 0x44924fec65d5e32b; 0x6c08c0f83b146020; 0x4230a700f2d42bbd; 0x698192a69c4aebec; 0x763415cb0caf77f8; 0x7f0e22d914981610; 0x54f6dd9407fa27e1; 0x3f356cd3617dc49b; 0x656c1e11d58f8db7; 0x548354541632d50c; 0x55c7a2c97a264a62; 0x1b6b9f5cf3579abc; 0x247a804245b2622d; 0x14139b371ad60fb4; 0x230383b56dc4879b; 0x289415aae785a254; 0x47cea85c197ece4f; 0x75422574dc0485ac; 0x3d271e70d662c2c9; 0x6c7d785cebfe3a02; 0x6f54d2a4e677d258; 0x1c5e4052c8270ad1; 0x41cadbaeab60154a; 0x61e97ee68fbfd52d; 0x45d114af5ec6a262; 0x6ce35669a6630cd1; 0x6b178ac1d7760b29; 0x769c1c24a0b8e77c; 0x1beb5e4f8705c4cb; 0x51aca4187cd71d6c; 0x394077a5d92cea32; 0x6afd55c49b689779; 0x17fc11a7bcee9027; 0x15480efc1996712a; 0x7f0060fd5d970c04; 0x23e1abd07171b445; 0x436d41768762b736; 0x500a35df454788c8; 0x73aed975843de525; 0x69b69663404a89d7; 0x5a5a6e8b9a5d6001; 0x5b6b9d95e1456fd7; 0x47fbe85b3063a587; 0x6e4e2cef9e3ae337; 0x15615b912eec7a65; 0xd108d78e8d4c1a0; 0x6385bd9e84899283; 0x360c294ef8c1e763; 0x1a467cf73103d521; 0x5f47bdc95f2f6bd6; 0x5a5c8f157f73fb49; 0x3f044a441d7345d3; 0xaf77cbee8313e1a; 0x5c318967cb4092ef; 0x4d52bea27cca3445; 0x61908e476d93a2a; 0x12f8edbd2e8adf39; 0x1b7506ef39641c04; 0x791f65fd08526a6d; 0x3ff2722cbd8c9967; 0x115f7fb713cd9cab; 0x1f1323380ecab658; 0x7694ae9e7b2e17a1; 0x1829de2b90cc5238; 0x78269d9c5fcf1401; 0x614e94b66db3c8f0; 0x6ca98be8d22de9f0; 0x4d27d17950cdd91e; 0x6a8f52898d266888; 0x73c911db0f470514; 0x681e0329c087d0b8; 0x2cd258db58408fec; 0x7cb8633b3a96ad83; 0xbd8d03f4c0908ba; 0x317ce6094db5b671; 0x32c4503c89275d3b; 0x59659ad0eb7f745f; 0x11c25714f090776b; 0x29e353796314a8af; 0x7d38e0ff8173e2b; 0x286ca714974335ff; 0x3a36c0119a69cb8; 0x2b9d4fac3ecb0146; 0x3de267f46e4d2e16; 0x475875c9273bae85; 0x28b6c615b80adb25; 0x3af6f3873455dbbf; 0x34a67b95249235c3; 0x6cb5280b430ad8; 0x2c0105134a55a898; 0x78f49d07e6b4daf1; 0x5639cfeeb7f5f4ef; 0xc8308a3b9f1846c; 0xf256d668777c2e1; 0x25d420d412fc71f; 0x78500cdefa4797f2; 0x157bade8ea088ac; 0x30ba6bf25ce2ba0a; 0x7aff9dfe1b8f76aa; 0x4f74c55a5751e74c; 0x5213e04640f43dd6; 0x1cd95c97ee8054e8; 0x4b3cb2ef0c5f49b5; 0x3a1a409ce0fab830; 0x5544394097682360; 0x7d64166718cd861b; 0x64b23a09fd33633; 0x8ce455d7969546e; 0x3249e86b36d1455a; 0x56f307b0e83a3298; 0x195089b4ef283a67; 0x681770fcd4ff6176; 0x472be55a78d2591; 0x4a43927c6c493739; 0x12631df7762f8483; 0x52ce4e366720e98a; 0x64e9d5967002543e; 0x3ee54d458c765cd8; 0xe10ca63e81db19e; 0x2aecdf25e140ea9e; 0x2452dbdc8777e0ed; 0x26d551f1b726628c; 0x6a34cd0a617c83c1; 0x559d71b9f8d564a7; 0xe6501a270e0b7e1; 0x6979fcd2d435c68a; 0x7e9f8999c228bc67; 0x208be80fa05f041d; 0x1a0b4c06b921a35a; 0x78b411517b36a8cb; 0x18146211e424cd49; 0x5921b14819fce74e; 0x7e260b80fdffeb37; 0x4058a15046c7411f; 0x6c3ab4bd187e0f07; 0xfd1716e70bd847c; 0xfbe14f4df128233; 0x4910a8000c8b003d; 0x75936c0cb4df377f; 0xe593a265ee9581d; 0x72beb8808db13fd9; 0x3c338125b49360fc; 0x715e9c3a915c2d20; 0x309744a828929d50; 0x1edf7c0fa9cce92a; 0x18df581aedf541dd; 0x5c733ef95d053f65; 0x47f364327c13f0c6; 0x4a828f441675acda; 0x3581d56752eb8de0; 0x763de00927cd5460; 0x42b53dc8d790e316; 0x28a12b1cf75a0098; 0x53690718957a0944; 0x7848962d3008384f; 0x602bb5610b29bbd2; 0x30be7a98a7801c6a; 0x25dcf997be9ffe7b; 0x1ae72f41c8fe904b; 0x763bcd41699d7de7; 0x28a8fcfa2b661b70; 0x3d99cb50f2571534; 0x77fc4d7b7f0811bf; 0x3a72d1c06261154a; 0x208a362c7013076f; 0xe167b48ef7daa34; 0x135f260939013d58; 0x455ab1a46885435a; 0x1dd6e2c7865f70cf; 0x21bb5820667f6c76; 0x7a93ef0d9321c7a9; 0xdbd94017fca4aef; 0x5551156f195ee45b; 0x24d759cb5307ca7f; 0x40d483289c08da66; 0x62512ec2fe12b494; 0x1d9dd41f6187a7a8; 0x7a857728b33f3107; 0x3a80ecf9717a40ba; 0xac17067e2fc5ee0; 0x3080186478cc2050; 0x6875a4e1b9fd574; 0x189739a0f666a38d; 0x1b75a850e1d5aa8d; 0x2b0f57f6d0d02552; 0x38e53aa7b48461f9; 0x1e3f77a9ad576a6d; 0x445ab709043ad910; 0x5e7a3da2a2d3c7d9; 0x78179919adb1168a; 0x26b9866e1e6846c1; 0x7f0b71a4df44a4bc; 0x53a99da30ed58da4; 0x3e02df1deb5f4c89; 0x1bfa36c0113e1b35; 0x6e7d4f095ad39081; 0x56cd91bf54bc687c; 0x506d7150500b9b00; 0x3a583006a24204e; 0x197d87b878f527f; 0x7f2736cb297bc230; 0x3508a6f3f91551bb; 0x6dd33797c573fd41; 0x5df95355038fea0b; 0x5fedf12919f05889; 0x7e2c67498a101f00; 0x2475af2e2e150686; 0x3b5e56f01af29475; 0x3b4791f2828423f0; 0x1b91e43d46555167; 0x632e0439b74bfa88; 0x68b7acbb101666b9; 0x3a5f00f4db86c822; 0x3fc56568d79f1bdd; 0x64ddc01bd285a7f6; 0x40005501d862cfe9; 0x2a82888288a8aaaa; 0x4050415444544001; 0xa000a022a8a2aaa; 0x541441051511111; 0x28088a82a2820aaa; 0x540154411540101; 0x282a0a02222a802a; 0x441145544451010];
   [0x57454db55f39e955; 0xb6a08ba8df8ec8a; 0x16132cf5325f7e91; 0x5f6559f784630841; 0x7cf90efcf9d93a58; 0x68747e794197e3ac; 0x74f15e1ed33b1029; 0x7859875c25c245fe; 0x2fe0b09cfa7e6376; 0x31e12919b8dcdaa5; 0x64c56d59a3e2377f; 0x47c8599fd1297ab3; 0x688b907c099f0911; 0x7c834937ca3a4e00; 0x51a4a4bfa59c75e; 0x5d7a38dae1888156; 0x2b93c748bbb79d15; 0x70bff98d6b8867b6; 0x36f45cba9f435633; 0x99284aca0a62873; 0x5c1bfbe252fbc94f; 0x498a87345384fad; 0x27f8b61eb1676361; 0x2c78ff6fe7867df1; 0x128139cbce630e1a; 0x494bd98bda5e3cc3; 0x7385cbd600cde81c; 0xb24ac070ba09784; 0x2caeb65f4b528df8; 0x132b89931515868e; 0x78132ae5b4255ff1; 0x59ca74d92c76cb7; 0x3bd3fb74967328d6; 0x51d9f382e7c2960d; 0x2a50eabcbbac537e; 0x5a41fdd71113a5b; 0x5e3136db13aa542b; 0x666dd6410277dcef; 0x5effe3f3b4706d8c; 0x509bee081925a9a4; 0x5dbbe03c2ec1d0a1; 0x440bfa6c5f52d60f; 0x4639e343935770c7; 0x3f6781c64d3e41b9; 0x61b9f4b852c3644e; 0x1608b592b646fad5; 0x56e9baaf1d312110; 0x35b1fda1ee4c6055; 0x20cc0983570c4876; 0x1eed4beb5774c22a; 0x3bc825bac81376f2; 0x2b42eca57bbe3a10; 0x1f052e98111a4945; 0x293bd7267b41ff38; 0x66f8a607b26f44fe; 0x32577a856ecff87a; 0x2219eca6576d098a; 0x13febfc134d745ab; 0x3657aefc6e2ac04f; 0x75c1fb1b9d76cd9; 0x52ba27d8f4bef78b; 0x5ecdb28b27d9dfc1; 0x66b9c2a135f557bb; 0x69a675a9cec89b60; 0x7d102d142bf1e646; 0x2eacf274e88f8e12; 0x154f24f93d249d20; 0x603188619eead315; 0x706a2b5b3a7320f9; 0x384f75dd9bb13b23; 0x1b9daf16233aa2d2; 0x5d2e3f6dbb8d6232; 0x639f2bcc4cafdd7f; 0x21b8c93c8d8a7e29; 0x56fc97a16ce29e02; 0x61adba3f5d46d0c5; 0x3aec771673448651; 0x33f3fe6cc9887898; 0x1cb6c8639fec7b7; 0x181a3c14c965e9df; 0x63c85702cdff490c; 0x6b2a3abff7b9c912; 0x78675240bbf4ae2d; 0x1030c244d3b234d8; 0x4abbab51cf4c2fcf; 0x60f37537afa4a41f; 0x364eb29ba1acde59; 0x1e03ef1962adc20d; 0x60611cdb1b74f6d1; 0x14fac5fff942bfd3; 0x59fb9933a11a1452; 0x3d0181ed92291d04; 0x5a36fe43bdb3c8c0; 0x30ae2e8cfd3092e4; 0x3a410d34e4f329b4; 0x354f4c3862eff736; 0x4b936fedb0c748ef; 0x396a028a7ab114f2; 0x243186ac1dde9f6d; 0x76cf21d0b1856e30; 0x72204e16d22c5824; 0x112470a81646e6e3; 0x500581f80a757d75; 0x35d78d1fb6e90fbf; 0x2527cfb3dab58fff; 0x3b44c84559c05caa; 0x3cab84212842b035; 0x4f233faf3eb4e7c3; 0x238d04375283c420; 0x5723eaab58574874; 0x617cbcdb01895148; 0x3e12471b8a6c1ba6; 0x5a4b5ec3d5a49275; 0xec0af1e0e745523; 0x6eab7c317cca0703; 0x335fd44ddb303c6d; 0x5e0a3233ef13debf; 0xf5fafc0b569383f; 0x71dfce0dc7b9a5d2; 0x68356f2e7999d530; 0x6ec46efefcea3b52; 0x1f44654b891c5d8; 0xd19828109ae9b27; 0x3f5d8aa7cdddff56; 0xc02295b134260bc; 0x339e2ad58ba8d895; 0x6fe6485e0cef08c0; 0x4797556387cd80cd; 0x72e9676050aa0e6f; 0x6b18e3e5ab978863; 0x34ad7aea01bc72c6; 0x28f00b5b71244590; 0x57ff9522e55bd6e9; 0x6ed48eb49d9462ff; 0x59050bd9aed1d170; 0x2c63e32d5afed01a; 0x6ded39d14650cc0b; 0x4c3ad464f5ed1035; 0x7c3cf02a94858df2; 0x8b023828b7e8557; 0x6a61a3a43ae6ec1b; 0x1dd0946c75bccdac; 0x5b2197d8bb399f4c; 0x54bea79496e2cd58; 0x4e403c8cf1ff8838; 0x5a9d469b07ec6253; 0x54104f408e50e513; 0x4184d7f0192634ef; 0x12dad77090c15d35; 0x48456aa69586db2a; 0x2e3e1e1226ab770d; 0x4780cfe29aaa91d0; 0x167361f407c69b60; 0x650e3ae902b4fb0; 0x3d3aa24534bad87f; 0x2008cf4cc36a068e; 0x60c3125a774549db; 0x37dec31f97a8d63e; 0x4bd37dc7b70c76ba; 0x35279ca8779cb8f8; 0x846c389bd8bf061; 0x2a4eb9fa3df627ff; 0x7ecfecb80206ad8d; 0x623f9f74754bbf7d; 0x121f513cbc389168; 0x327ce9d78c3a1cbf; 0x4403e4e889ead649; 0x3ccc12917e0e8f07; 0x22f4e1b27c3c2ce; 0x532ccae705707e51; 0x891ec9c72046420; 0x5acbb847185bc94; 0x14dfae5ac5c1af06; 0x414c2345c13e89af; 0x77e81f6338722c57; 0x70a088a8d2d2a76a; 0xbc8ca4869d02652; 0x6fe771f8d37fc2eb; 0x6da0e6d9cc558f52; 0x6fc813b8bd47ed23; 0x2ce8a8c9b392d646; 0x7937f53a2a07a1c8; 0x1ab7e49c6b270a90; 0x51963e949a705e76; 0x14873d2df1b67a4b; 0x4902f12d197f1d86; 0x11cf2ce1a701599c; 0x186e7344bb0d645d; 0x6e6ad8a0e06b38c0; 0x5c88c559208ad757; 0x40fb83838d1d01ee; 0x6be9c341928d13dd; 0x6d4d968631af2f3b; 0x7824913b16614375; 0x983b428a8f4e79e; 0x75098feff3a7cc; 0x38fff6d6f318f671; 0x451d7410f517f9ad; 0x29d9bf9fddc57031; 0x5c169f5738fa212f; 0x70f91e5e16129ca3; 0x7df09b2e27add980; 0x357a6b5298440d23; 0x89bbfb45090b0fc; 0x27b80a35efc3d487; 0x7384fb033aa8c91d; 0xf9842e7730b4f83; 0x72b09b2b924e2001; 0x1c36c658044a8838; 0x682f93f7c11802d9; 0x4b4b88b5f7d4482c; 0x665948d196883750; 0x2ea142b43186d4be; 0x3a08056f5602579d; 0x79a4f5ddf70015be; 0x4720e2712fe6d460; 0x541e91e003ee9c5a; 0x11be2141b25a8d5b; 0x3b6aac100419c4b6; 0x6022be111993673c; 0x202729f254b8f80; 0x1ca5e3f8da41e752; 0x76a0019fdea74c11; 0x147d177a29bae999; 0xb9f0cfe4cbebef8; 0x7017cc03d5b142a8; 0x50af9d07eff063da; 0x32b1323cef5ffcfd; 0x78d1dd75ce64a245; 0x7670cb74ab11e6d3; 0x2b5f0fe51884cba2; 0xcc1628090850b1b; 0xca4d7876ca65f64; 0x1b29e4d5a8f2c983; 0x2c7d99250997554e; 0x2bc11c1489e35f05; 0x230de7d0f5abd5da; 0x35ef32d65c635e89; 0x39b32db56bea8b46; 0x5a858a6374cf27a9; 0x1fe40f9f0c8aad83; 0x695c164052507270; 0x49612fdb35a367b4; 0x28466a2324249089; 0x4664973c1d619b9; 0x629c3bca11e79b4f; 0x3a0224d6e1021b66; 0x44001f9da84df69a; 0x4310ad9bb73b55fb; 0x2d2b492715f1f5b7; 0x557ddaff68f0c05c; 0x6bb9e2f2e8fdaf1d; 0x647e56a2f85e3305; 0x8ea31361654eee0; 0x14e51d60cb58a477; 0x14618ce4a03abbbe; 0x6a76ed6901087d51; 0x3e21edfc18ca4b6b; 0x331f47797f49db94; 0x55a13b4ece2db9b; 0x7b7044756785bacd; 0x4498043e25e2361c; 0x3546fe4f3758bb12; 0x3d4a1c457e5427a5; 0x23be44f7f622c4ac; 0x6cd057c02a95e4d8; 0x7ae8d529c6f44635; 0x51e9ea1f76c094b9; 0x5e57e5d1f5d4794a; 0x73b09363a484a597; 0x3344e555c6cd1d06; 0x597229f8a6a184ab; 0x5acda03b8456337b; 0x6e3a0b5b9bb428ff; 0x69ba264c58e5557c; 0x2072b1563858865e; 0x66eee69475a34139; 0x74a639d59643c1da; 0x6c096f524cd3cf5f; 0x9e68717b24d2649; 0x53dbdc0d1179f364; 0x1d9183ac5e8292be; 0x2fdf4f1b11afbcf5; 0x3e043bf8243b11d8; 0x743c3742322e2d3b; 0x17b4965625b63cb6; 0x619bf14494911f22; 0x7be0470ccffedb66; 0x5bbcd09593320f30; 0x79a0fcc2f9b416d9; 0xfda5bfbfce484b7; 0x69aa4dae0d89c299; 0x78a17d0f4e7c51ee; 0x4b1f77be9b590950; 0xe8386a9e77fe821; 0x2ba2edf69c3752de; 0x177c032fe8e01f5f; 0x2b20796769f6897e; 0x365811e975463181; 0x12c63f58e144f694; 0x8f6d1bb22cfbba7; 0x2b93f6f66a989b16; 0x6345d0c268bf987f; 0x96eab25a5cfea68; 0x7a49d876f495b2ee; 0x309423d32b23b74f; 0x31ad148ee8f2bcdb; 0x1e6b7e856409754d; 0x50055400cac720d; 0x2a0a2800aa82202; 0x4450000504505155; 0x8288202020a2aa8; 0x5555455441141501; 0x8aaaa02028a0288; 0x501041541105451; 0x22a2008aa2a8aa20; 0x45411041441114];
   [0x6bafce013f4ede5d; 0x63b079804b547ea3; 0x92ab728abff69dd; 0x578dc54e15955d09; 0x1a8a5a0e092439b0; 0x4acfe1a80457af29; 0x7dd4bc26ec25fe1e; 0x4c32ad0ee6d89582; 0x397a785e5fa341a0; 0x52bae5003af13630; 0x6b372182a487eafc; 0x1589aca9c59bc41e; 0x68b250b8c7acda20; 0x3e0a77b413092b86; 0x78c77ab75da06556; 0x6c0cd07ded37ed80; 0x413ec600c121950b; 0x610e1b5273b42b23; 0x30fb202ab43de244; 0x20944f6ba08fa494; 0x51392b4d80a52ff4; 0x41a63ec1efe3d6ce; 0x10205fdaf691cab9; 0x713133386cab775f; 0x433379c9ba4fd20f; 0x2398b1a5dfb81b9e; 0x442c7e2dd555e6fb; 0x1540938779cf606a; 0x7d44b0b4062b2393; 0x2df9bde5afbe9eed; 0x3bf81203939a2ec9; 0x28259a110e5550a0; 0x527d36d7f273008f; 0x187f9498ee2963b4; 0x76aa55aee78807b5; 0x33b3d876f36b9b79; 0x8fb1b94eb8f4dc1; 0x1f5fd851e47daeca; 0x4710c30c819eed07; 0x6ad51112c3fbd0bd; 0x153473002a8500d9; 0x4b027e3606cc5ade; 0x491c701f10bc4e7e; 0x3c7fd67f7d94a737; 0x2d17ba87ffd6f079; 0x119f8381c0f7821f; 0x16da87c65ddb69f8; 0x604a7bb54b7fb0a1; 0x3fe0b2d377019a85; 0x43b096bca8799801; 0xe362bd8467c9d43; 0x60472c13697c5000; 0x6f394ddb976c96ec; 0x75c446792aad1e1a; 0x63fa2c8359914dac; 0x7418cf923dc5b31f; 0x47bbce6cac10614f; 0x7ec32ab3c83cb8d1; 0x4857668fafc7548; 0x2966d5504727bd29; 0x775c34fab186d83a; 0x126de15ec880011a; 0x342af863c87ad38; 0x7eb489e2601d486f; 0x54b5956bbdc7f929; 0x66ceba865e68a66e; 0xe4c814bff2ce238; 0x73607fc3708e9c83; 0x3e520983d6147304; 0x36d4900ef3e0e74e; 0x6b5937018e1fdbcb; 0x48d8f50ee60f1063; 0x4d6e2c023c707796; 0x5ecf2672dcccd3a9; 0xf9eab17760dca47; 0x327794e855f3f969; 0x13493f12f148bdc; 0x5c4a0eb53a0b59c2; 0x5094e718e7d2e2cd; 0x50e733ea5bfb5333; 0x435fe2b4f3b73285; 0x6f190b1575d83805; 0x62137dd82f262aeb; 0x31de1e6f154ed42c; 0x7a885a59051d99ac; 0x3470c30db86ac518; 0x6d61403fb38dffc; 0x4846a90405f3e09b; 0x18bb348cc8f12d7f; 0xfe894cdbf8009c4; 0x5cce8500cfe4409c; 0xa685d7dfcd06cf8; 0xbc4e1decc18c293; 0x2caf8774a305ae34; 0x23cf38cb6b49225c; 0x5e9af910a20fb964; 0x7b2f0cd20a92fd3c; 0x7527e749b30de1c3; 0x5115adbb9cfa9f3c; 0x404d9f0482c1c853; 0x45d6076e91a7118b; 0x1aefc843404390e7; 0x76c80515d552b25b; 0x32e72f2150fc4461; 0x59056f032f1afb92; 0x3db37e8cc18238fd; 0x671ecc46f2ff3474; 0x551d63b87f9f9485; 0x7dea4669bff91aa0; 0x3fd92c433b71866c; 0x54bd9031a97dd4f7; 0x7abbe295ed5e31f3; 0x195ac4e2ef12dfa6; 0x5b3a0c8a28ffb7cf; 0x580426e01193e0cf; 0x2f5a3c0efe89fe4d; 0x18c02d9aa1a4298d; 0x63dcfb7c79f69d48; 0x26ecc93e87b6c8f7; 0x20b0cfe47fb4da9d; 0x5b58f6673bd7fee7; 0x6e541d220e1a1dd6; 0x1713020b23fea0b; 0x45f2d3385ea11720; 0x66d244911783cbc5; 0x1110f574828862ff; 0x22be867c795594c4; 0xe221c28146ab2bf; 0x498bd5c6b7cc70ec; 0x48ef0369099259b9; 0x27771b2e503eae43; 0x7d6242d27a26d6fa; 0x1092db24c7156425; 0x2848bfd90538a48; 0x3eb3f07596ab537a; 0x5a2e358b90d0971; 0x66c2c90012262812; 0x735990118b9460aa; 0x32957d4bd87f780f; 0x7c1954543852b627; 0x5bd4fe3466c0ee19; 0x793a4a5f5f0ef182; 0x4c9c8db60b383fc; 0x6f898ed7d1c0129f; 0x36bec2fc067730be; 0x22c91921d4c05cae; 0x103f3130596b7283; 0x402ca03908308d4b; 0x2cb64b0c4ca5f635; 0x76c47ed8f2826fd2; 0x7cdf9b1487b6f56f; 0x55aa4f536951bde1; 0xc91243540f06d5b; 0x7fcbe9a6d98fce3b; 0x8b892c13c17f532; 0x38c3442d56d6c4e1; 0x2dc3870d9e70e6e5; 0x50690cc61431aea9; 0x3b5c967c7625571f; 0x75a6f3dbd37a873c; 0x2b36e71cae7e0ff9; 0x3378d7cda4b2451f; 0x258619f4a258a916; 0x4e632cab11b9f44d; 0x2b7827a27a248186; 0x13a7f79cd3ba43bf; 0x546d1359d143a219; 0x1ad1182dac4605f6; 0x762d77b4917db9b2; 0x736c397a5cb3f723; 0x16defabb43294d90; 0x6a71767ec6a3361e; 0x6ca9763f2a6ec5d8; 0x16e7c00add51cefd; 0x14181c1184437a9c; 0x42afdd6beb81ffe6; 0x14bda4f0ea47eff9; 0x3dac8f8719f33746; 0x78d225955ce8db37; 0x598075ba038b6dbc; 0x7f3094bf7f01fbe9; 0x68360d86aa694c64; 0x17d0fe3c18651504; 0x583fc952d9507da1; 0x74dc8bcb0302de53; 0x2052efe6045180e5; 0x6bf0d767fdfd99ad; 0x5ba8b7289416892f; 0x2286124b3643c2dc; 0x4f706d6eaf7a5bda; 0x5df56b2888247d39; 0x1f4628e6adb31b90; 0x27721e48f14dbdcb; 0x2964153b443a39d8; 0x6cbe64d472131436; 0x695e7d55dd2b0383; 0x551c5fce0b396525; 0xddf306d1459e73c; 0x2d9780bef9525139; 0x72d68014f90fa09a; 0x1a462d6d94272878; 0x1575e4c6c4448de9; 0x75de5bb692a96ea6; 0xd1eb47a200b5967; 0x5d883013ca46f21e; 0x32dea0ea15a90bb4; 0x883a745af725116; 0x2594340ca41682be; 0x796b76733256e0c7; 0x5dfa1cd95ed0ba3b; 0x7fd4a6ea8a96b69e; 0x7950c1ab6aeed140; 0x54bd455d03f0c798; 0x5544785f974b4c31; 0x291f5774f16c08d; 0x537934adef438252; 0x201d671d21ad1918; 0x52eaf610e4a26143; 0x3c2ce296f50c06a7; 0x1800a18f98de2caf; 0x2d981dd4054b37e1; 0xb45692ffd41d18; 0x3a0b4e8bad25ddc5; 0x4c753314e250e8d3; 0x2a9aa61fae64269c; 0x57c4f3b42e6ebdd6; 0x5b71c2c03783e70a; 0x22f2bf3ce643704d; 0x1165271cb013335f; 0x71324ae2bfd7a4c6; 0x6bcfd75a6db5e0ae; 0x66d5c23c3848cd72; 0x5e2be7c57094511e; 0xeffb3c41a150f78; 0x5b4fc247d40a66b; 0x28f3f3163c648436; 0x5dec789e8002b636; 0x229e851d5d1cd739; 0x71600c2e75d14383; 0x10bb35b577d6d948; 0xc61f0ff0e974647; 0x637074da81a13ab9; 0x2ea8d1f92404dbe7; 0x9414496eae284e5; 0x1a13b2dadf5d85ad; 0x7d57ed66fb592c91; 0x6f4c19841b460fad; 0xf0a67f30a52e9e9; 0x6790d36fc6a537cb; 0x3787f2b4a8218a17; 0x473879fac91f05fe; 0x30f880742968b954; 0xa5d6e7c75bdb46; 0x791656a75df8fb3; 0x2fb8e09e182ec14; 0x248d129e42992c38; 0x367d963e4075776e; 0xe713bbf0c23a4fa; 0x7e900a7c7d310b7a; 0x5b7dc3c8664262bd; 0x4c3ad5bace348069; 0x74f914ed43fa653; 0x6bf97ab403f265df; 0x7c624b350f51403c; 0x5ba7a789c3241b00; 0x582a02815f7b942f; 0x407af37095c34464; 0x1135580634f671c5; 0x5255fb00f14f7a81; 0x6ca7415796ac0ff0; 0x47aaa1528459b88a; 0x205be2855745270c; 0x6ed9b38debd861; 0x58619661c33f6102; 0x37c776653a2db37b; 0x383e91a0decd81b0; 0x135021d786acca6c; 0x7240e726d765c5d; 0xfa07d9ccfd5a098; 0x1525fdbea3a9b2a; 0xde3a7ee85a6370a; 0x6dae6d52ac97a4e4; 0x6c024591ec72567e; 0x1ae5a515c6ccd2fb; 0x57037003b12739e0; 0x24f3dea5cd3fa722; 0xd1fc9f601227104; 0x569533be3e2e0259; 0x1f2068612ce00fa2; 0x38d99335d44b7ffa; 0x134f981799810035; 0x1161be275a2d787; 0x6e48e2cc3a897fe8; 0x190fa60c092b412d; 0x10ed7f4df2a9e906; 0x71d37efa8575c3b7; 0x4a17d0eee0dbb6d5; 0x451f06932c2158fa; 0x333b2c0916a9168a; 0x737bb2a941262dbb; 0x4d575e9ecab4c67f; 0x13c2d5b7afeea65d; 0x2c931d24d1259344; 0x595163854096bbcd; 0x1bb10a89c0e253b7; 0x7c41abc414c32d02; 0x751f4bb5f0fc2730; 0x8c85a134a29d508; 0x11055041a49ff0dd; 0x888a082aaaa800a; 0x10115455540545; 0x2220828a2a02a; 0x551145405014410; 0x202028a28a2aa02a; 0x1400440551411454; 0x22220a8aa822822a; 0x504550440045544];
   [0x5d1ad5cc65b6b0a; 0x52235d27ca72dcf3; 0x66afe86826fd29d6; 0x41d07c5c057dab3e; 0x4961ede976cd2d16; 0x34fa4aa47bfbd8cd; 0x79b21c8495eee639; 0x340691bfbb7289d; 0x7d839eaa7971bbda; 0x7b66b60fd0e8aac4; 0x4117cd47c412bbcf; 0x353b0023b0803eb8; 0x6bfee927e8086404; 0x7f1ed165e6605162; 0xf4f81289a67d2c9; 0x4903bc1de78eeedc; 0x478626e6b882baa2; 0x41cdb2f9ed62d2b4; 0x13445ff8a5d4d55e; 0x4a26b6aa9afa0869; 0x65d68d6ef4c727ff; 0x520db0f898dac827; 0x721e1d51c52bb1c4; 0x43c5d30d544501d1; 0x33dac08115018184; 0x44d00208603e6d1f; 0xe342df6da9640c2; 0x74d250a8085ac19; 0x5c25d850a0682635; 0xc3c2b8f184355b8; 0x5493c14086ba8eb6; 0x3f5d1ebd9f6e5b48; 0x6599331731e8231a; 0x2e99c885adf2d9c9; 0x36d63f1aa6c2d76f; 0x61d5732df998be28; 0x6a37d26ced66ba9c; 0x411a684aa30a4736; 0x2d76fe88384e3664; 0x1fcd28ba58c737a; 0x36d4b936acefa9b3; 0x5e6ff5462c8f1ab4; 0x11fd359eac116b00; 0x327a065076fd3037; 0x3a1e8b5c5f234ccd; 0x25816c28d88dfeea; 0x4452553238bdadde; 0x234f8f776481bf2e; 0x2ee84d130c074ca3; 0x3a1e73ebe9224474; 0x5464740f9a845195; 0x7fd1c3a828e52468; 0x4a6d4b3fc1d0641c; 0x2058fa59f77820e0; 0x2659386f58d98311; 0x51a548958a573ef3; 0xfc530218e47140d; 0x565df97bdbc09ad0; 0x37282204df4a9ded; 0x37121edcc1e822b6; 0x22e9d6ec2fdcf59f; 0x52c5bf44ca55863b; 0x351d5981fb4620c0; 0x94c453e00587ddc; 0x5235cfadddac0855; 0x11229f74efb07f25; 0x7785a72fafbebee0; 0xb5b8ae1c2c0520; 0x7b1180ae47976e7e; 0x7757315098b28268; 0x1d53bf71024f79c; 0x217d70fd9934967d; 0x5b0e9ef42247cc89; 0x1bae9b449f593987; 0x7e15b8a910ff1fe; 0x719d4944678659f1; 0x36e1ab2fe1d99c31; 0x61bbfaaf531e4bfc; 0x394876c3cd00a900; 0x40b20b5cb2ee2567; 0x42dab7b84702355a; 0x18d43491be468c7a; 0x1365d0bf0aa874ce; 0x40ec254b13737190; 0x7c662b52e5029f9c; 0x43438d65b734bce5; 0x3d56f87170125e2a; 0x18e5152915200710; 0x9e86813d0c2f34b; 0x67070bd735fb90e9; 0x625d858668fcf208; 0x7947c2c1cc1b09f4; 0x11bd2d1a7a019aec; 0x5744837c7fc7e4b9; 0x4f6d62f7200d7c8c; 0x30db6c41fa717293; 0x4fcd95e6c69b2a24; 0xca599c0a96b9923; 0x44953d1fe5d53cf8; 0x493a247dd78bc16c; 0x308c27d89814d85a; 0x6b59201092087eaa; 0x6ccd24a88cf98ab0; 0x29b208847ea57dce; 0x23371e1fc3c62ca9; 0x28e0b71d4973a9fd; 0x628dde9fc046f51b; 0x124abbe720e047d8; 0xbf0a6d0e7e259ca; 0x51bd42a68167ec68; 0x6410c44db54786d4; 0x79fd87b14ca62239; 0x2cd8e1df57805fe3; 0x6fbcd0bff58dce3b; 0x3faf119ebfcf0223; 0x208cc27c955d7f2d; 0xcb41f0510304457; 0x78fa26a119a8f096; 0x257726f053a034b2; 0x4d3b1b57796c562f; 0x378ef8cf60287a97; 0x730581502691d7fa; 0x6096c67edcc3c1d2; 0x37b7dd8c997858c2; 0x163e59cd0606580b; 0x3c8a4e2f7177f058; 0x3f5be39542e611db; 0x4e3efd98d64c3a6c; 0x226188b4085681ff; 0x565858effed1c252; 0x42d0fd7b74d1c641; 0x57eb451172ff9d9a; 0x2f838d8e7ac6b08; 0x503a08a416d1118; 0x6e65e25d81484866; 0x7cc5a8a88a0ee287; 0xa386e98e0920eaf; 0x6c87f43e9105a71; 0x3e226c00344d5809; 0x47779a6e68721a44; 0x750ffc26599a0a14; 0x6f3ad40c960de92e; 0x5237fa60b4a69ce2; 0x45b06f3c5481d9ab; 0x23a8f43843a07c49; 0x2e003283a7168502; 0x593d4ee1feaf2650; 0x712649ba734f7eef; 0x4c897a624efcd04a; 0x2b2a7a1d74538383; 0x6ee5c099cca0b69a; 0x4dbefa6b7c5739e1; 0x669422bbb5cab667; 0x1b9fffb70e124504; 0x42ea04bb5bcc0129; 0x4dad8d39fac182e9; 0x7cf6602340f04aee; 0x2aa1609de739a960; 0x26b755239ef8638f; 0x2faf9a6fe54e6a84; 0x51a6b8103c91f7a2; 0x2dfa2e27a0be23b1; 0x439f455bfdd5ba72; 0x34bb50c253a12615; 0x732d4cfb6585f235; 0x228578e894d9745f; 0x707a86a1d28d1cf3; 0x12b4568d86a945c9; 0x153e9b791fcb9e33; 0x523103605a9bf742; 0xdd51ff01dcf1a4f; 0x151246dec38d497c; 0x2ff01a4f5ea42739; 0x1780d51a751b0f2c; 0x7b2ff9ac265ec55c; 0x5bc4372d10aa84c3; 0x1cf5982c4d9ce729; 0x5ec3e6c0fcad46a4; 0x663b788b09100a9e; 0x26b1cdb25db37d33; 0x46d20e3e16366e62; 0x1c22a2acde85f; 0x7f8cae276d7be2c9; 0x7aecce100a0422d8; 0x147c57c7a0073ed; 0xe0ecda8e7038d64; 0x71a1779c7f4e3ad9; 0x3e937c3ca179e4d; 0x4f79b24e6a344562; 0x4edced038141adc5; 0x7ac0711b7b0beddc; 0x312dc4c8aab00dbb; 0x4fce9da33cfa0897; 0x56bd535a14014b79; 0x3426f0d0f5f15c0d; 0x7a606e26d448b0b8; 0x49718f11476f9513; 0xee2a09cf709b22; 0x11f301faf904bf16; 0x1a388df635d4eabe; 0x75edf2167d4d76b6; 0x63dc141a599a6b08; 0x4d5df654dc189a83; 0x10767b773aa0b669; 0x575ca630539cc695; 0x60b5bfaf57a5c819; 0x779d9450c2ee3773; 0x119d95a457d08dab; 0x3ba5b6fa11584066; 0x2e2e6f145def0d8c; 0x1ec9b8cec476cfc6; 0x996349570482daa; 0x61466aa31f8aafe8; 0xb22e636d637a62a; 0x2e92a4f9ac145205; 0x424286c27d5ca031; 0x7b3d664a19db4888; 0x4d488f7da3e04fc8; 0x160fcd267b441c40; 0x25fb29f5fce6ed3c; 0x508b80dbf0c9ce4a; 0x266240f4f58ef8c4; 0x2109ea539d61f152; 0x24bc27157cad072f; 0x28ba68f46ed5eef; 0x2984786abf465e9d; 0x51fd751a854c7103; 0x526b8a37b957b154; 0x195d8f01eefeea67; 0x4026ac4c22b9ba2f; 0x635bd1be038967ea; 0x15cbe83892eefdff; 0x5d0b7f18a89c40bb; 0x2af54d2ef709d8e; 0x16352814cf39c807; 0x32f2e140910b2729; 0x2cdd63f059b84425; 0x714c315000393af8; 0x63e1836dca73d9f4; 0x7e05ca6035e219; 0x55be6d2b3a7013c9; 0x3ffd7601c39193c4; 0x65cc44e3a08f4d6a; 0x54325cd78e7600f2; 0x104b16d9b30b91a4; 0x27a9c0cf4be300db; 0x512c8f8fd15a0bd8; 0x3dd18e08d664a3f1; 0x3026df3d2388e8d1; 0x167235182058f006; 0x54fe74bd180c9476; 0x68fe3996f0c74e28; 0x537048ce4ff067b; 0x40869e15962f216; 0x681e47e461467c55; 0x3aecc317901179c8; 0x6f4d76bc731ec44c; 0x1e1e7f3b981fcf24; 0x3fa0ae48a1911e26; 0x24b6c0d9a97ff7e8; 0x751dc3ca878db6c3; 0x3baea74c184d129a; 0x547ce124fa16676b; 0xd519986d8e6f6f; 0x649d9e9d6e292fa1; 0x69e46690c72203c8; 0x7757ae91803cdb1f; 0x131726beea26e492; 0x1a13d3541a3eab88; 0x4a01a2167ce1dbfa; 0x466da98c2412a677; 0x6d5f635ba8c7ba2f; 0x2e47ac8a807aae27; 0x69d1dae44a7a64fe; 0x69ffa2e5dff64842; 0x2c3b61b9871439e0; 0xc0394a59842e93c; 0x5c13c6451aca1624; 0x23b80d92e64fc225; 0x17475687c65b01da; 0x6655c2ae5bc9c01a; 0x1f670059f7648d50; 0x2b07d903a8c90cc6; 0x269dc280d67250e; 0x7e4b0798e526735a; 0x44e2f1c5b807b602; 0xffca804eb19824e; 0x30e848e606cc75e8; 0x2f1d34e415f91998; 0x41954496a525772b; 0x528e08abf6962cd3; 0xe39aecee41936e4; 0x475eddf50eeff621; 0x4566b6c9a09ee658; 0x234e1d84f01a4acd; 0x594512bcd1294746; 0x61fcaa05083af4a7; 0xf88f1365d741a00; 0x4ca3ec4306275c19; 0x518d08ecc04b715a; 0x5e8f32e3b0617bb7; 0x6cc4391c606fc448; 0xcd10e40ba4cbb8f; 0x24bd8aa9a83279d5; 0xf3855af34426880; 0x5432f91a2bc5fa9d; 0xe441abb7e289697; 0x119cd8d71478dc7; 0x55405051346872df; 0x282aa8a00a002a0; 0x4004441011550115; 0x2aa82080008a208a; 0x4445105104504055; 0x22a0a202a808aa0a; 0x50550415054451; 0x2228a8a20a822200; 0x101411450110444];
   [0x7e4fd7baaf8f1ec2; 0x6513060af7b8d0dd; 0x3800cac21c2d2ad7; 0x1f71f41faa2ed6c1; 0x43ddd684707fd5aa; 0x3de30aef02610e9f; 0x2ba4140f9129b72c; 0x5ce6c72959cb0476; 0x7bd393acbaa0276a; 0x41e28da8c6d15caa; 0x75af4af9c2a17191; 0x457f021d562c656e; 0x65db71ba941cc37f; 0x3da41ac1d3bd61bd; 0x51aae000bf74b31f; 0x6eea86196df42d80; 0x682fe6caf05814f8; 0x1d355bc5d701b997; 0x2ec91c7778b4716a; 0x1c1cbec3ac6622e1; 0x3f2cd870b85bacd6; 0x7e440eed675e6523; 0x51520049461d49d7; 0x75526c852eec4b41; 0x49fef9c46f2e92c3; 0x7b04b0bc0eb1114a; 0x635232d93e7e668f; 0x2b2cf5e4e860f9e7; 0x7432c2b09e0cdeec; 0xfd9221a8e25d112; 0x50b90345a501c223; 0xabb353e6946696d; 0x2d78f55362c2d8d3; 0x74e974d7f392d3a2; 0x14e1e0b01557a71c; 0x5c39fc9f747a21a5; 0x6b7a6bc2a9b2205a; 0x3522a45ece231778; 0x3733adf69ce90c51; 0x4e7aefed7898bb04; 0x2b5c41b9c6065362; 0x209c51232e4b3221; 0x26cef2b1344227c7; 0x65f5adef71ab1755; 0x451207819a9155b9; 0x56611688ec4ef46a; 0x5b7add016946ad2b; 0x614fb8ecc0570dd6; 0x6136aa6ad93888a6; 0x5fc5999b40399dc6; 0x11d7d7be6c31226c; 0x22eb6343461c33fa; 0x2463d39bc08bd707; 0x47b1030c2e1ea60e; 0x1e349be1c00e055a; 0x4daa9e5b0f72b196; 0x487be9094fac6d26; 0x7048ac45e34d4e6; 0x62ce1cf53b944ca2; 0x67849148739ac163; 0x3c64a9195597b532; 0x60a1e0bda931739b; 0x16e29ea91e7ae710; 0x5ab05b60a91cc851; 0x34cef8b7110990f0; 0x8c23cdeacf3241; 0x4848f2e340885e3; 0x5441f2d790ad9360; 0x2f7f179e1681dddf; 0x50b6b2b9921a8eb; 0x6ef6b63af055a59; 0x1ebb03991b1debc9; 0x6915b977faf3d09c; 0x61cca21793731c35; 0x73ba649ab1881ac7; 0xc948e2c83aee360; 0x34333bb3277bf7cf; 0x26fc314b302c765e; 0x2ba2eae170753b8d; 0x48dc493b075d8f77; 0x8e4b451bda8fd0e; 0x101cbe81414c69ab; 0x7c637ecc7c92f90c; 0x41f821effb301ae5; 0x12782575e4570ceb; 0x6e1b40820f2d19f0; 0x39b20d6de2ed50cb; 0x23e5cd2eed52fe58; 0x6934324c5718cb39; 0x513fbea94d1cf35b; 0x6aa0a11823ef64d; 0xa1ce5000a762fd5; 0xd0e5b02b30201c6; 0x3ede3ba60650a8ed; 0xd4ead95d994c250; 0x1af112d555f986a1; 0x2a0c9e0f02191913; 0x136878c1ee5b471; 0x57b832c96533bcf5; 0x463b1595943c8abe; 0x3f83a7cc5607090c; 0x3bbcb042190906bc; 0xd20bf63cc5fe9d6; 0x277ac724afbf6108; 0x415641684eadf9be; 0x6ed32127fbbe8718; 0x210ed0c831db7e48; 0xfac578fa79afff9; 0x6076b64ad0832fed; 0x6d269ebfa7bafab8; 0x5ec95708d453a8da; 0x44a0009d1178f659; 0x21136fa04db0e44f; 0x5f54bc88f7865b1b; 0x136b2462f64b426a; 0x3d3d1f614db643f7; 0x66b741e2c5d6446; 0x2cd0f1748f52098a; 0x198e4f3545d1f0e0; 0x559f3a7788b1d76d; 0x49fdd5ae69505161; 0x2731b96ce0947051; 0x8dffc58494c0c54; 0x30ac2b818d1a768e; 0x6c34d8f1f534330e; 0x5ab3dc8e6e467d20; 0x4f2d6a3065e177fb; 0x238b708b7890f5f5; 0x785577e1db6f7295; 0x6586bb1ae26cc7ad; 0x2c6804aef69cd69a; 0x46a67e4dcc65968e; 0x54446d4697a0179b; 0x7014c8287a4e5ded; 0x5932447db47016c9; 0x199abe6cb0eade22; 0x21714fe783b89ec7; 0x29590b63316c5413; 0x15962a201f971b1c; 0x7cf26eed51e42c2d; 0x6d74ea90978c4b33; 0x1bd6027025294e64; 0x732e57e6f21b9b5b; 0x2ba25789ebe2bff4; 0x7db49fd7b8bd0e66; 0x36aff40ab597ef86; 0x213c93b5e1f12c28; 0x4b92a70dc80ff844; 0x57de1fb5a3063965; 0x6f4d14a55ab02391; 0x6a8ffc98084e1447; 0x1d4c98edc44312a4; 0x360118d6fbee3ef6; 0x6838e93418c2d860; 0x4684204e3bc8c61; 0x79f43e5f68293d82; 0xbe197aa949d8a61; 0x62f79ebd32eebf7; 0x4d7094d2185258e9; 0x4d644da713720412; 0x39f4714a14254f73; 0x2b4263b45a1b612d; 0x6619ab04c441c4e5; 0xf2fb3063c5c526a; 0x6d181b1e68ca5849; 0x5723aec9f5a219e; 0x258296779756c0f7; 0xb55b32d5a019c42; 0x6b14f4b3028aef22; 0x15189e8d09b82c29; 0x330cd1f50b55a339; 0x1f06d92da0095a03; 0x4e8ee99a5651fd8a; 0x929e32be086ae21; 0x25d0bafad6d7cdbb; 0x5c087ed480f61188; 0x1475a0223691c137; 0x1cf1ccd2ae8d5828; 0x421f27f1f437d606; 0x20a796a3bb6aae9c; 0x413222d90c6fa920; 0x6ab51c6d60433c00; 0x53e3f59f7365c885; 0x29addeee6fe462e5; 0x59933c8a35b6ca7b; 0x501a0060cd03b618; 0x724950c9bee9c998; 0x4f895ee3ceee7419; 0x693f5968e161674; 0x5cf60c184a7142af; 0x3731637ae51efbf8; 0x38be8f8dfa5664da; 0x3ded0624e6488b63; 0x521a3173aec78650; 0x7512b5c6094fefe7; 0x389fe6144613fabb; 0x11a19a76947b6145; 0x7972aa0f3f9c2f87; 0x1dbb94b57e1cc713; 0x4e769a7e2badc430; 0x7e1b12028f6f84cb; 0x263916f8560a0f48; 0x55d43cc5c78e6193; 0x2078e3e523eafd1d; 0x27352c318a65b1f6; 0x352714cb9688c4b2; 0x611db0fea86ec4fb; 0x43f5dc6a39af7ff0; 0x65f7e9b4f63e17c9; 0x7ff5a8943e5c16c9; 0x5ebfe1edff917efd; 0x7f35d2fc80937b7f; 0x36ba160e604f4d1; 0x6fe8748910deb227; 0x39d98762f8fe1d98; 0x444b32134778ae3f; 0x38309e48b25cffd1; 0x4f60d2952eec008d; 0x77803cb552628ae9; 0x617094b72682ed53; 0x5121ca8904184057; 0x6130e71bc5848a72; 0x203f73f1821b930f; 0x4e28e735955a078; 0x4c86fc4c10424151; 0x7ee94cea480e9482; 0x3f9effc826c7aec5; 0x3389252ce14054cc; 0x5d4e5a6b49964e30; 0x1288f4449b2eda95; 0x10d237c7339cd368; 0x4f947562781dfcc7; 0x3bebb65d3de00898; 0x2452c2fb20ab81b0; 0x2ce8b9d4c6fdb792; 0x2132e07bf3a6a176; 0x7966459d801b0fe0; 0x6b15a7f8a95daf8a; 0x7270e815552fa077; 0x5e15f168a216d640; 0x3cd4ff2396813a6a; 0x1da30dc184067b1d; 0x46bf46b8449b4516; 0x6f4b8f1813a2ad47; 0x41f720791716d08a; 0xa32a84506eea245; 0x1c892412f0966a55; 0x2df557d38bbe4d3b; 0x3543f917a615653b; 0x56c530705bef4eab; 0x165790c7dd4aca51; 0xfb6e99ea7f95ac4; 0x32888ca6d5371a21; 0x483cd6033285cacd; 0x66b778ce442523a4; 0x430c8df0c21837f; 0x50967b77c395cea2; 0x29dc50675f1ac0e5; 0x429ae0633416082c; 0x29a918ec462f853a; 0x7c741b7a29f18439; 0x55fb1aaacdf070f; 0x7132aa8da3171921; 0x30c5d5588e4f3300; 0x3982a2d3aaa15b4f; 0x4f8c09d42e34ba88; 0x220a14e6e8127b94; 0x5b779998f2fbfcfd; 0x2461b876307a5885; 0x1e76f2704958f311; 0xed1834e9f2dd7df; 0x4f769d14c306a8e; 0x55fa8dcc6890485a; 0x588df51cf7d8d8ed; 0x21a8da6b1a88bd85; 0x5873538d264b41a2; 0x5a4a4416b8eee578; 0x7f8fa3c8ddfd7935; 0x551e396e802d8b1c; 0x542344ec9d597b4; 0xf1bac390149cef3; 0x7e1256b670deb60d; 0x1125326ca0448a99; 0x6ae41a08e2e1fafd; 0x575b9c62091844b8; 0x617378fa436d5de4; 0x5752a8859e31b6d2; 0x5a7eba2a5159e9e4; 0x62381b5f5f45c727; 0x2a766d895672f663; 0x49bfe95fc060348c; 0x77792afb8cbcb1d7; 0x2e6f3f17305bfed0; 0x804f46b65b5d69; 0x742541278b26c0a7; 0x235940d6c0396c2f; 0x39770dca3f7e98f4; 0x2fd725740c098b52; 0x5bbd6548a8391ac8; 0x4a0cd63f56fcff7b; 0x515937240e409809; 0x1f321660e75cbfde; 0x4edabd29aa40dcac; 0x4586272a576458f8; 0x2a16ba604cbbf533; 0x2ea5c98aedb1e9c9; 0x72524b4a4aab9c3d; 0x3286344f0e3f16f7; 0x104454516c408b4b; 0xa2a000a08222022; 0x4505440411155455; 0x2a208a00aa2aa02; 0x4551040445105010; 0x2a8a0800200028a0; 0x5510515510414441; 0xaa220a000008aaa; 0x140045051005544];
   [0x5f597461acd62f04; 0x4592773682853023; 0x6bd147d8324adc56; 0x2dc266074de6108f; 0x1f100354c78dbb2; 0x739f3508bc023506; 0x31394eaaf430ee01; 0x7dcf4786d119548d; 0x54df5b998653c687; 0x17400420aeea895d; 0x375a77519131c32b; 0x71ed63fb96ed0d00; 0x1a155e311ead44a8; 0x41e83d4bf9d21aa6; 0x7bf3a726f47652ee; 0x740edb259be2e50b; 0x79297c3599484681; 0x692a1b7c43712b51; 0x4eb0f4acf8dc2d53; 0x73af06d4b1324798; 0x286a34ad9acfcaff; 0x558ae375ffdcb28b; 0x64122fd52b1e5b6f; 0x287baf7c755e26ff; 0x35d8cf496a17db71; 0x252ec4e8341198c; 0x50bdb2fdc3e93ae4; 0x67208182ca89f0a2; 0x6419e73d81b68d68; 0x7ad0815316b8588c; 0x6ec00019730df5c1; 0x3ebd00a58042b31e; 0x73f0df34e0c879f; 0x639beb72b709ced; 0x44c029427a7d2eea; 0x29e5f829c0b759b0; 0x620e5462e5df5bbe; 0x305f06359743e773; 0x525dcd79e3c5f0ae; 0x31874a9ddd77e40a; 0x6b99d08bf69b00e; 0x41571cd2beb6bbdb; 0x5d3928f6554a3eab; 0xea76bbb5d93d714; 0x7efa86eb798c4968; 0x63e740b9a1d9f33a; 0x6a09a0836ee4d322; 0x653a927ca3242027; 0x536f89405e6d2427; 0x73dcbdae5238eb2b; 0x4aaa3e7318476b93; 0x614ac89b5cb7dbb3; 0x2eaebe9fe049e5d1; 0x281df3a81056e817; 0x4df222c10a63ea12; 0x389ba1bb6d625f68; 0x3e36c310320436cf; 0x256c9086d43d57af; 0x2a86f6c67a8f59ce; 0x606e144d1ddf490f; 0x64608c3f98413338; 0x6c2758a331d52152; 0xcedec2c464921ac; 0x29a868bc0c6c8e22; 0x45e428c2f98203cb; 0x37e22e80d9d4a825; 0x79dd7a1dce59a64e; 0xc79d02085be6e83; 0x6dcef3c7f77f6557; 0x3f362933d17ad11; 0x7a42857143a187c3; 0x36f88738e7121e08; 0x54cb338425815909; 0x653aa7e14f3fb6e4; 0x19b0cb8e6f224162; 0x5a81ca62e139b771; 0x4256e16517617ad6; 0x32beda1b2d737d9d; 0x61089f78bc46b7a; 0x16ca081378b35ec6; 0x6df8eef77df41246; 0x5ec6ca4e53c69c88; 0x38f3972f516a5b62; 0x3e328d16b90e7b2c; 0x57af359abee6bb56; 0x74b8621ead303cfc; 0x2e1524deb8a67a00; 0x47cd3425e7081734; 0x395171033e72e041; 0x20dbe93dc46c5fc5; 0x466b28959fe0aa8a; 0x5e4299f0749bae0a; 0x3bb1934a76137e46; 0x775aece6b7b0bc53; 0x4f377aba5ef1efe3; 0x38efce37ade91d0d; 0x6bde50157273df51; 0x7ad9729432e97204; 0x5549965549197be6; 0x583d349e008d393f; 0x5226327c7ab16594; 0x176e86f13384323b; 0x149d2cbe0e81fcfe; 0x4c214690e96b84c; 0x2679a9b01e96a866; 0x6f5434367e364a7f; 0x3af695c7eb553301; 0x1d38e07d68f10867; 0x5e9871fee1694e82; 0x81d365258d79f35; 0x4a92a0f6e85a0562; 0x28e96a3c84ee83c2; 0x689ed914709c97ad; 0x7fe32e7764d64fc9; 0x3beb022ae26eaa39; 0x7639b3bf8b04b2; 0x39e740776127f2be; 0x74e2257550afca59; 0x66033416affab358; 0x28b2c1bdd0ea828d; 0x4f64664214453563; 0x224d7f3bb75981fb; 0x506d4b4db1be3f3; 0x3a36cef792235632; 0xc367e4fdf50df06; 0x2ad5e457f12d7020; 0x55280883fea597d2; 0x668b86f7710ebe52; 0x3fdd8cc9d65f07f4; 0x3780f0afc4128ec9; 0x22d9cfe0533be290; 0x2375072083ac7258; 0x789d1cce2cc8830d; 0x5aa54f1241f30398; 0x76cd414bbffa0eba; 0x2eb5ca553a07d589; 0x1e5a3d9311a2f834; 0x511665492cdb27e4; 0x71cff29db02f1459; 0x445c04505edf9e12; 0x36d7b6a615e887c4; 0x73c91f955fe0d44; 0x43eb475073840149; 0x3760efce94ef3983; 0x50ab32caf59276d; 0x6bd5ef1b6f415173; 0x3cedfa118bc6edd3; 0x62a46a59acb988b6; 0x729cd04946315595; 0x15e491496292e6c8; 0x3483d51ee1d34602; 0x18d37037a21c8a25; 0x688f21a15af43a3c; 0x629180bb8c2c6d8; 0x131b6663c323299f; 0x392a3aca040c6885; 0x571925123890cde7; 0x64ca98911156d833; 0x376036cf319caf35; 0x3a46fb47666b162c; 0x1b874e7775118ae0; 0x7f98c6b4128448a9; 0x770f033d3b8a6901; 0x6ec31fae9cb2772b; 0x7aee35e08e26fd35; 0x41f34ed8ba40668e; 0x1317802b3a487315; 0x714ef158c911e073; 0x3602f7d75d95e8aa; 0x2f84729bd9cc8f87; 0x280549675f6b242a; 0x6dda3c2e2a513e7b; 0x11bd150362602d20; 0x25f949003bd254dd; 0x19314120d8a63d53; 0x34ceef1c9ad7a106; 0x5e4b13f205cda997; 0x79856e780ad6aa46; 0x60833ac2dab92ad1; 0x65c88f4e6238dbfb; 0x6c11c6bf0571b20a; 0x45ea37ae641becd6; 0x217fcd12d3329255; 0x747155352dbf48f; 0x7186539766f48e21; 0x56b206c46bf911fb; 0x1c1b410df2f71750; 0x1e07db60246ef9e5; 0x1f32cf8cad2227f2; 0x76c53f755a8b50e; 0x1254a1087fc2ca48; 0x4bb803c7fb4c1a6e; 0xf84b2847ed7eb29; 0x1f4bacb126a25b81; 0x51fc5b1f2466036e; 0x69bcf64d0dfca3e6; 0x4b57e12585110fb3; 0x7baab062e3964671; 0x46c546ce0194820a; 0x226e3171c23382a1; 0x5772dbef41b68237; 0x54d8edf2d967c405; 0x59cc3b93c1c3bac; 0xb2b15c74a8b7aca; 0x3b4c6106a2a78b7c; 0xfa2072ca1a2a404; 0x3fdefa74002ceca6; 0x5b35ee38dff3f12e; 0x1e925491e5c6a544; 0x2373741187a72a30; 0x39063bbca685446b; 0x7239fbbb1259a845; 0x31b58d45de6f49fe; 0x524f4334299078bc; 0x69de62ef078d87ad; 0x7f6d7e95ef251f73; 0x694914bc89cb4c12; 0x7035c6e18cb2aab8; 0x6503bffc826ae05c; 0x787f33b6a97bbb6c; 0x37810987274ac66e; 0x518cbb71b7989395; 0x475676bc1a364597; 0x33d379f10b3fc676; 0x5a3047badf77d8ff; 0x3e660d44c955de4; 0x38c37437fe544913; 0x6ea555a4cc9c29ff; 0x1c1b638161ebf90b; 0x51797dbd8ad414c4; 0x15560b857712b353; 0x4654a89034cd0dae; 0x233d750dce018458; 0x127f7d3677941e53; 0xbd3a9905a428427; 0x12f8d3541074ba2f; 0x3933b35eae9e0ff4; 0x1a59fb598c6820ab; 0x53be88c3754d6100; 0x264d8f2a4fd42ca1; 0x6ba6dbca17a083af; 0x77a77b54f0dfa754; 0x30a61bc60d1440ac; 0x7eec0043522cd4bb; 0x77064440c5b8cf42; 0x74c899612e82a101; 0x6f2b62e79ab211d2; 0x46f583cd0c9b73e2; 0x2f35d4386c2abd27; 0x4b1329504810db86; 0x3ca9c6707e869645; 0x115f005c3fe6a16b; 0x6b3b72416a241b12; 0x6263fcff115dd359; 0x7587f4a02819783e; 0x7f714d3033c65825; 0x6c6c48d4e8c3c03d; 0x727d642d293e29bb; 0x204ba72e38b2fff4; 0x720e76960c5a7c6d; 0x601169607c6ece39; 0x516d8983ecae5871; 0x7f65c28a2c3b6a8c; 0x636152742b4a4889; 0x73eb08981cac6ec6; 0x16844be567609a88; 0x23437fde2e36e01e; 0x6a56d56db84d5364; 0x148ea126cd4c17f0; 0xa603d9e92a7a495; 0x224391a442419933; 0x72bd788a03128709; 0x2b5f27f5b80dcf9f; 0x47e88409faed0f2c; 0x68a440882f6c4650; 0x4e8803c733ed21fe; 0x69d89b2a8c8b047f; 0x56cd80bf1f8cb6b; 0x251d9001675678e1; 0x22d415f8e9879347; 0x5e96c39b4600de58; 0x17549d65512a1c98; 0x136e13a8dd81f1f0; 0x7ded9bfebab8b0e3; 0x786c359881a3c7bb; 0x6369fc4f352002dd; 0x3686c1acec4f0728; 0x7aa4f07e2aad555f; 0x3db9054cdd88c07; 0x6af25fa2ddb7a526; 0x3af60d0ef11137c5; 0x1206c531db7e9fcd; 0x66c61fe1a6c47ab9; 0x420b34a4ec7ea6ce; 0x7db02b224f31727a; 0x1dc47eab50b17fdf; 0x26399332ed914af0; 0x397f70dcd70559d8; 0x3b26d2859bd3ff6a; 0x70ee3c6351247a65; 0x2c9962ce13d5d849; 0x708d145ff6a95b6b; 0x30a5a9f78bbd9c2a; 0x3d9900b25c8591ae; 0x40223ebc8ac31d49; 0x3d5fac382f555dcf; 0x2789079342ddfebd; 0x67b618665dcf4d28; 0x414414505da164e9; 0x2828a8200a80002a; 0x4500005001115154; 0x2202a8002aaa8aa; 0x5005441401404440; 0x2aa82820a8a2888a; 0x515554114004444; 0x2a8008a2288a2820; 0x45010544514554];
   [0x67412806f65b0199; 0x470ebc66c9608f08; 0x27c9aa5c8aa02da2; 0x4b70d97933309ba4; 0x4bfd6d28c70a5fc7; 0x2897ecb0c751bb7b; 0x1c976f03e0c97af6; 0x1585da7c4efbdf5a; 0x6a20efda6c64a0a6; 0x28758b015543e55c; 0x706eabc0b0198bee; 0x48818304c7f0732b; 0x5db8d2082ca80658; 0x25a3be345298921c; 0x7489ec285522dc83; 0x1c9046338e1d1d11; 0x2ad397c004f1d1a4; 0x6d0e9ac3df36b1fb; 0x4bcdc0e2b6e74a16; 0x7fd027711e233a85; 0x61efea372152d8a6; 0xbb6531c7768bf1d; 0x40cfe07f237170d4; 0x71190103e73674ff; 0x66ce79a39ab49fbb; 0x5db9a8c8eec9e1c; 0xb44445230e00c82; 0x1ee83cbe4a508a57; 0x349d960da9c43b77; 0x5892fb26ab43729f; 0x79f3c9bf25485098; 0x6700aba51ac3c551; 0x246fe5fb7b9a281d; 0x5a5b9c1939467e3a; 0x45454837cf277020; 0x2a0ac9b1b80d89ac; 0x4171a0b7e9f57719; 0x5bcb84cb09f1a2b4; 0x411ce481d8482741; 0xd9be256225a07f0; 0x7b430f60d102f10f; 0x526bccc57fba2f34; 0x4a6ff0dfe83a4343; 0x2b613ec81fe821a9; 0xf10ac3eb16a539a; 0x607dd648247d8e05; 0x3d834286e41ba45f; 0x28b1e011f428de92; 0x6741959f7eb233ce; 0x376c066e432f839; 0x11b13ba17853b19f; 0x7ca869ae4d6c2aa4; 0x61aab41ffebe6292; 0x1dc638d6b71c8374; 0xada8696fb4a9700; 0x429d6009b2f21e4b; 0x2dd6d7356f035cea; 0x48de4aa4dbe15dff; 0x5c45c3271507d8b9; 0x611a231b34439afd; 0x4fc09b4a9266de5c; 0xe57402a17ddb972; 0x1348bd8a9530e157; 0x71097b0e2bc3eb98; 0x4e9c9e4b7cc59143; 0x1fb1257c96afab8a; 0x34e4f532f07f0734; 0xb6bb2e1b7b2c8d3; 0x4a4836146767eba8; 0x574cf667e903e73d; 0x481b128ad8728819; 0x7e8dbf3c4042dbc1; 0x3bf51589608b07b5; 0x477476ed85cf6f11; 0x5e3d7171e77ae09d; 0x15901c62a5fe41a5; 0x4ab2860fee7d12c4; 0x44f1d7ad47baba7b; 0x53a4968a2b8c396c; 0x7035f80442a8b421; 0x7337fe49657e0a4c; 0x5f117da389bae890; 0x7d61d10ecd65c8b8; 0x5d697b52adc9a1f; 0x31d2408c6dbdfabd; 0x45a231745577a280; 0x661994d57d5df2cd; 0x22ffe087b08ab6a2; 0x105ec50b027fe06a; 0x11ccdbe2ffc9150a; 0x1fa2d6065b340868; 0x122392608685c4be; 0x39b35c8468b724da; 0x4886129ef281d306; 0x76d1e241a0e6ef2e; 0x82d72033d139eb3; 0x5e76a07169066894; 0x4a320953d2697d9; 0xa2e97f8944dfe22; 0x316664e601cd2109; 0xc65530656315276; 0x60fcf681a9907dbf; 0x4821ffcc05c2d94; 0x2a4cf2978f35ea97; 0x63238bbb2b6b412b; 0x2dd5492aa33cb687; 0x152dd25977a3a7c8; 0x6964b2b002fb37d; 0x662b9b23c532f626; 0x1321d7ea636ab7ad; 0x2e9236e210aefbbc; 0x271bffaecc3f50eb; 0x70d1230bfc8e6e55; 0x1409bce25393b638; 0x7c2aeeae6e560409; 0x680b08c99cb302de; 0x1c0d03b6e2612993; 0x566dea8af29acd7a; 0x75c85d1ddff2b56d; 0x35d216330495c6fd; 0x50031853a85060e0; 0x4bfe676106a4227b; 0x2c1b000b62e77057; 0x53501c8ef75cb4b6; 0x3755224b32155b8b; 0x56dea53c09aba056; 0x1657c28d45f4e764; 0x3182b346dba951fd; 0x339d5a113a05fc4f; 0xcd00b80dace2a25; 0x1477e25066b4a094; 0x34c3292ae4b6df06; 0x5041ff62620c43a5; 0x54194093111ad04d; 0x8ad03906990eb29; 0x7eaa11b37592c8d5; 0x17b0fc36db8f5ed6; 0x1061ac7f950e0ef3; 0x1c4e7bc0aa29048c; 0x3941465c70ba5070; 0x2e7776335307a2c0; 0x20718d3faae45f1b; 0x74a3b1406cf6a8c9; 0x1513150a2ca01865; 0x6c00721a79e6bec8; 0x7126528c2433dfdd; 0x673124ffb107c4a6; 0x276eed64d6020041; 0x927fe552a90f97b; 0x7564b37ebe44e0d5; 0x2d2bbbc3ca9c4973; 0x65ae6f7406557b2d; 0x37f3d4a0681494b3; 0x4e3e5819af661794; 0xa13890b4bebbfa6; 0x6e901dfe7bd64bab; 0xbce700aae9d55c5; 0x2b733e63c902724a; 0x64c7c3403b783365; 0x621fdacfd2677c8e; 0x1a569ee7d7dfad1d; 0xa5fb3b8e22823c4; 0x64390e66334849bc; 0x18bba3bd79efafb6; 0x300baae2ded52eed; 0x36d79b818f8e3a2c; 0x1d74cbf6ce93e391; 0x725c4756029bf817; 0x43b630527085b358; 0x4c8c4b31b5bcbb5c; 0x69d073b5908a7b10; 0x276d195dd2cc6a55; 0x1fab58ba5dcecaab; 0x68c5a843909f372e; 0x724434a584ce790e; 0x545010009e43487a; 0xbf1f7d315111e6b; 0x6266beb507de060a; 0x52588e7ff5b8ced7; 0x3a2a731cf5a5c393; 0x4993d062a297d3af; 0x2115ea482e969dd1; 0x29e9aeb05f3c8910; 0x25a87db7faade0f5; 0x2b5bbc57167a81a5; 0xf2617990370bfe8; 0x60486fd0ae89e404; 0xb288b04de270042; 0x28606d41ef710a7d; 0x15a2783b64a5cf7b; 0x4a7c006aac4c8955; 0x26f7ceff31ea48de; 0x5380c49785d74248; 0x40b6118b906eabec; 0x443a1aaf90bc66d; 0x6edc2cd7cfae8a99; 0x2976d629d87a15b9; 0x1e5d901b0eb86a5d; 0x4d2dc0adc8d0d401; 0x331cc812438c7edb; 0x7c25b2352a6326; 0x3d3478dc2290309f; 0xf8d18a84dc27ef4; 0x7072371ef71be0f5; 0x7424511e340f7211; 0x5b95e16ec8dc6e7; 0x7c9fa8f67100ddfa; 0x15349be429bcfb96; 0x6d9ec6b1c772915b; 0x58e966b7945fd319; 0x1885732733c508d4; 0x2496094ec4b1f487; 0x5538f0ca08ce7934; 0x3d37b2fecd6eaef0; 0x2d2f868441f97076; 0x7c949a37a7b9100c; 0x7db45438b5b1fd36; 0x537989be4c62c0b1; 0x5045132df4ae5eb0; 0x1712abb9fe677da0; 0x6e5a738853e6bbc8; 0x73322e2b5b53abdd; 0x4e249713b8b30884; 0x3e8b495e6fd3b663; 0x4415475970ff6aed; 0x3d175499fb6f60af; 0x5d24f18d2d985997; 0x5a049df632dbd1c7; 0x61d53b0768ba367b; 0x82705e49b2ce052; 0x743daddc6fef9b21; 0x14b76ebf8c3f18be; 0x7bf592e5c6d2dd3b; 0x3799b954d2ed6ab1; 0x78b0f26f420e47bf; 0x66b63964ebdac281; 0x3f0ae0decdab54; 0x58f2d6892f614bb8; 0x1c4027bf6c1b19aa; 0xc2a5ac6b103b07a; 0x1c3c3f78189e4dcb; 0x6c23b108805cb07f; 0x7ac5079788d088a2; 0x268de2fd396a9ae; 0x4ec0963ea89d0901; 0x2cb7fd4b5be57be7; 0x4fadf2eb193551d2; 0x677d7f1615ebd1a7; 0x5a301ad68687fa15; 0x4d99ebb82a892163; 0x14e5fc820e4e7957; 0x1acabf4b6331bd00; 0x37fee7458dac4d77; 0x77546e3ff0f3902a; 0x7716f74c67ce6725; 0x46947b2741659149; 0x59d667c24d582f36; 0x776646276508903d; 0xc7ea8119088f9a; 0x18d7e177ff644966; 0x6d109be2c823cde7; 0x370e0d32b5336f61; 0x7a1ecdbff975a937; 0x40f040e931f758f9; 0x77d9b353609d7f9b; 0x61ae1134f882a562; 0x57131ffe326db261; 0x2c32b2602e52626e; 0x3f0d36c22f111816; 0x529f24ba33cd00dd; 0x6a6028fb37b795e4; 0x2d994447b35fe56e; 0x5465f6abbace2dcf; 0x4f3f6f2b426209ba; 0x189f49dcfc8e508c; 0x7c66e5cc94162f23; 0x7aea2a3178812b88; 0x315bc2d0a3e10f8d; 0x7277974b370d537c; 0xc07f7fab37f70ef; 0x5194e5d253b3ae58; 0x387a207e71c43559; 0x70f89af96afe9210; 0x67556fb0459a3523; 0x431da7af1a254bca; 0x2a726dc34d69e013; 0xefb0c8de8fbab0a; 0x4b962da9fcbb2d89; 0x7511053ca7e94916; 0x1c3b3d5e57a6f6e9; 0x3e9ef4d9f9c69159; 0x249356e6be288a5a; 0x1d701727d46f6ea1; 0x712d55dd4499e274; 0x35f87f3bc9ec9928; 0x2acb9c3178e7765d; 0x384184782ea7fbc6; 0x1e8b0a2116d02c72; 0x47f2570e3cd8e740; 0x57f0bbe410b034d1; 0x32e73d11a3158d52; 0x67f56dfc6b6deb6c; 0x15f1e0e0d6a1f200; 0x66a8cdcfc3c07753; 0x5b7b748fa45a59d4; 0x21ae0e1f66a4a198; 0xbf5f3e76bd30913; 0x4d907b6b249c5b9a; 0x10041005dffa206c; 0x228aaa8a0a088202; 0x5410501141151145; 0x2aa028022a882a0a; 0x101545514155044; 0xa8a2aa20a0a8220; 0x4450111544501545; 0x2a800282a20808; 0x455510144514041];
   [0x19e4b3d2d146b506; 0xc11ea83a3803a44; 0x41beda615e685b66; 0x61235a37142cfef6; 0x64463d363acb2931; 0x1e5df6c0409edbea; 0x36e0a448aeaf05e6; 0x2a93e632b214ebec; 0x409928a6d6c893c5; 0x205af69e79041977; 0x406ea1380b55715e; 0x606b0107888fd859; 0x6d2f29fffae2b7fc; 0x6560727d96534d6c; 0x3376e5782e69d266; 0x3f9ed681c3855641; 0x26b9b8d5cf4fd39e; 0x5076c1c0fda9765b; 0x270c797c725d4a2a; 0x179d80677aeb640e; 0x768b709e2b77655e; 0x20e6944b47257c6; 0x18c4fb92c58bf1fa; 0x98aa5fcf47254c9; 0x594c1fe2254d86c5; 0x7faa889577655f3e; 0x53baedd80adde66c; 0x43cafe4f95cb0901; 0x120f0d0619d28ece; 0x729791d184fd005; 0x679ad5e4adafc630; 0x6b9f9dab10571ea2; 0x22af8b4583844f74; 0x4c76d48be2749de1; 0x2c3009d48102b2c1; 0x31fbdabdc9b14e10; 0x7d9e91ef76a7a8d; 0x29c2dfe1aaff84c3; 0x428e03efdafba1d5; 0x2fce8669d56eca6e; 0x28349ad0694ccb6b; 0x56a7926ffa218e0f; 0x545f9b27422b8b6d; 0x790fb2957ca3ce08; 0x38c2e70d503e2624; 0x51788883d6464b7c; 0x1d201dbab0ec3392; 0x6c750864aea5a94d; 0x5f004373852ebe39; 0x5041002dde0f8ddc; 0x19f4355c6ca329a2; 0x425801927614331e; 0x48aa27ab8c0e9976; 0x1e7928034322bc16; 0x265d619225c2a422; 0x163c3e2030d618b0; 0x614988f56382e89; 0x78f917a4e4227321; 0x913a641dc9bd01; 0x77ec82d84f16f25a; 0x32e45712dcccc445; 0x47a24ea253f13c34; 0x51eac3ac908af746; 0x1cb0b11984781f5a; 0x2d07a18adf74104f; 0x476136987a88ac16; 0x52f289411218d19f; 0x4651651647edb895; 0x4473dd5b7ea3b503; 0x2eb2fc7f387e2217; 0x150b3d8d7e75a324; 0x6627c8cb3d3bee30; 0x74834a3c9b220557; 0x27abf11b7d7afb60; 0x3bec1815caba9d58; 0x36c979f2c6b01c92; 0x6d5aa868404255c6; 0x7471962500fae74c; 0x4c261635ef05d351; 0x5f126a427aad3b41; 0x23003709fde7fb7e; 0x34f59d45bedd9101; 0x6252f2daa4e02b1d; 0x73881eccaf1ea37c; 0x3845ccc9a3a24209; 0x21db568b44de22ec; 0x785d497fbe1f029d; 0x3e2c0893b383c15f; 0x360372a1e91cc464; 0x2b0a2261883f9b01; 0x1e02f80127711be1; 0x7e9a95ba0abf411e; 0x16e2f73f66e99610; 0x1b274925dd5faefb; 0x54d6b596eb9e6178; 0x48d2d5215758e24; 0x576b36d416cf233a; 0x6a4cb7ad10460b3e; 0x2a0fdb58b9a65a12; 0x7f7027dd99dc59c5; 0x14335b7607ce2e6a; 0x3b74d0096fc7fa4e; 0x3c485709db6c2bce; 0x741733268636fa61; 0x79d45584b66a1334; 0x4607bcf9fc16d214; 0xaa5052ff2985c5d; 0x65d42158ac20344a; 0x452bee63dca66374; 0x3b4d433dd0bb10c3; 0x2cd28e985c376cc9; 0x79477b77a926d063; 0x4871353dc0eeafdf; 0xffaa792083c487; 0x361c3366a24fec27; 0x52eca989cc9d18e9; 0x731a2a1310ff48a5; 0x2e987180f220d264; 0x3c5fd5c9fd5cc8a9; 0x5d95a02e234510df; 0x3002c353500bc126; 0x2177f853988ebb95; 0x7d4c0c3064a36509; 0x52c350818d044084; 0x1ce32b09463aef0c; 0x11941656ae2daa26; 0x3a4aa5cafcd623c; 0x6da9312ba61add26; 0x64579e63afa822c1; 0xb8050e54b7e924; 0x410fdd1d812ff969; 0x4f8ca209fc5b4dda; 0x4e448de0a40231aa; 0x3014d73f4f69f43d; 0x201227f65b0acde2; 0x2d919b9353ff91d8; 0x72e11287f8944630; 0x46e27ee20a384ccf; 0x7ec90d59553891d7; 0x40b8ab19b6db9c33; 0x33c781b74f484cae; 0x6099e8870dd3e0e0; 0x4a45b1c9c79ff7f2; 0x5de1b1cf0e8c2296; 0x7b1cc252cf675db1; 0x7364144ad7d55363; 0x75ef457dae8fddeb; 0x5d97959749bd3396; 0x28d33c37f803c6ce; 0x7bd281b24d1ac7f8; 0x47ed0b00c705358d; 0x43af8b4e60d49859; 0x3820df2f8cc93059; 0x5eb722b998787b5f; 0x6c361d41191ad674; 0xb539baaa910cf59; 0x49d53cfcc6e780d8; 0x67e10490ac718767; 0x9373c0e8b6f4051; 0x3837215f2b944ffa; 0x2fa1a337d3aab66e; 0x1d0b44963c829944; 0x5ea2a00a064b845b; 0x1346fd6db73c2545; 0x15fdb67de6e16ca9; 0x357d2033875826f9; 0x64a3460d3e3921ee; 0x43f51a2fea66064e; 0x1bde8769524f62ba; 0x19844af1818e98ab; 0x2f4d91a059fb5b2d; 0x26f9cddd74ce226a; 0x3e43cbe16f7c747b; 0x262f8ba3378dd41e; 0x2e5fa4a2cd568f97; 0x12a32c1859b4f81a; 0x6706600e22bdb47b; 0x6f7e1c406f9745e2; 0x3bb06b9bceffa223; 0x62ae3fff10ba9d80; 0x17c7114dea2c274; 0x452a366fb6c4cf76; 0x1109c956e9d7be00; 0x241cb104b1d7d5ec; 0x2eab75a425acd685; 0x92942d4fc38964e; 0x13a8a55ca708ca0d; 0x64599052b2ef8492; 0x40ef2020d864d18f; 0xd7251a60aff0687; 0x2dc380f0f45892f5; 0x7ed0446f82d50067; 0x78f64b7b91abb4a1; 0x2c13fdab9d563e55; 0x79b8a7a899cb3e17; 0x4e610b7c9a152f87; 0x78b8019e007660da; 0x77fcb83932d56f8e; 0x4a13c16c754f78fc; 0x4ae224b64f74b8c5; 0x4ef1adb6946e8144; 0x5c927c54291d9597; 0x3e3d0483a4e9b1c3; 0x7eeb49feacae6142; 0x309f8081c677b53d; 0xa4752773ffd2890; 0x35516e809eadd79b; 0x601c8596d6089e2e; 0x4cd2c53d9a609d23; 0x1e4d91f1c931b84d; 0x4e5a84fda5ec3877; 0x4c8225e39bdebfdf; 0x6d3275ea1ab20b40; 0x15859686ee68fe72; 0x7a4d746ee71b4640; 0x4c55fc173465e647; 0x3625bef53de6b5a4; 0x53518e28e6700a36; 0x4aad42079fb91684; 0x442c0c48e70b6e64; 0x573e1ae0856da30c; 0x310b5576383abb17; 0x38c2bf139ca15fb4; 0xb9e171adf952fac; 0x1f6b08b38213ab33; 0x5f5e29d6827c9a41; 0x3520bf716fcc4fac; 0x4bd782dfb44bc3e4; 0x27833abe005a3be0; 0x3abea719662d0541; 0x3b4f026a68e1c409; 0x58b0fe320cf729ab; 0xec00fdeef4a531; 0x1af455cabc38edb; 0x541d618d5249aeff; 0x6c2b547036b082da; 0x17b4812a307d1026; 0x7320d287d8a0d9cc; 0x69a489636fcea10e; 0x4a951982b9c717b2; 0x53b37f9250e9e41f; 0x32a69e50ac6c1c0c; 0x295ba5a33e1daf32; 0x68d94884ec04ee64; 0x9fa1b845aa596a5; 0x1d17acb07a12325d; 0x195460774abaa079; 0x529d3d74f654190b; 0x701a7b8ab7ebad3e; 0x2d3d05e7a240aba4; 0x4c294c97c5affa52; 0x202bca70d61fcf4b; 0x5a9366cee3f5df3e; 0x719847812dc55a73; 0x3c3c6b3717c5e030; 0x62e3993be9260b58; 0x23e07eca17d7bd5; 0x1ff8e43ced7cc56; 0x1e603f4cd35f503f; 0x72c996e222a60fa8; 0x2c67442405d0cdf8; 0x74ed52abe7ef5c91; 0x2ffa81491bd9bcca; 0x6509e9e866eb0e00; 0x207769c5746db712; 0x5973e092da06f1c4; 0x71bd062a95f66149; 0x6acbe643fb0b77dd; 0x626653f29bdc984c; 0x77fde1c7b235876e; 0x5de3ae1461a26774; 0x6a1592399bfcdb5d; 0x29f7c839ba0ed528; 0x7bbd16816e353ddd; 0x795dd832321c82b2; 0x31c3a8216a5a9898; 0x78f2c41b5ec864f2; 0x2fa6715a156409a2; 0x35e396fd372d1354; 0x1c29263e4d1967c9; 0x9bae4c8d39b8b59; 0x2d1b8d0ab1d97715; 0x6239f66cf84e3341; 0x37c31301d03e5a27; 0x1f6a72f20079de6f; 0x4063c2cfeba45338; 0x43883f85596cafad; 0x5d7cef862cf54815; 0x7ecc88daa7e65a7; 0x6f7f076ada41aa9f; 0x79c74e4e5036f957; 0x4b0a08ad698b684c; 0x6cb195fadcfe6ef1; 0x34b3cf4c97101738; 0x727e174b12850150; 0x17e74df167b35ec2; 0x630c263588582129; 0x641b9466f37cdcb1; 0x2e0a61649ff14ea6; 0x7b14185fb08ee9d2; 0x7efcd1e493ee9523; 0x2be457361e098fbd; 0x5ef0465ea0839036; 0xa46fd7eb034e07b; 0x674ccfe267500f3; 0x160f8005c3eb0ce9; 0x12e9909103f93e1b; 0x7b01c8a974e85dfa; 0x45501010fe3af244; 0xa8028aa8a28a20a; 0x1445001040144105; 0x882028208282208; 0x140455000514115; 0x20888a0020a80882; 0x4400050401554444; 0x22222a288880aa80; 0x551551005104115];
   [0x223af216a085e941; 0x3d8fb623207445ca; 0x22d76434f73fce86; 0x478bc59c5f10e07f; 0x4d11f8a46b6bb74; 0x60eaaec4d154b27d; 0x9213abf5ee87c99; 0xf73ed592dc2ea7; 0x1b266447346cbdc1; 0x4eb11fe2beb9658e; 0x2081d0f591560e3; 0x3791acee94147724; 0x3c090668c65b3628; 0x6811e1fb7bf1d28c; 0x13c619fbf330d97; 0x40b62f5419902b6; 0x5e81bd10ab17fb7f; 0x9bf9613e56144eb; 0x2742bc6f65f35438; 0x4eeb0f74e5aee277; 0x67fb4dbd7af64fc; 0xa9b57b532c78299; 0x751c47fbcf4a39f3; 0x1980c922c8886a44; 0x4b18af078bf14f17; 0x1db5094912a8d141; 0x9be3a16c08d66a1; 0x6d61ffed74dc28c8; 0x6561a942ef3de2f8; 0x79a7cad81fe913d4; 0x371809eae1242c97; 0x2fa4e00261f33589; 0x3972f14e9c44e34e; 0x1499b39497242dc8; 0x3f961f7858b8c050; 0x4999775e96edbbc4; 0x1cd72d79deddf47f; 0x26bfb3af978138ae; 0x462f941de49deac1; 0x6fca9824e54b6ccf; 0x583358ba08782026; 0x523fc639d74e66ee; 0x67264da80c4b9442; 0x7be6ea3a6c25e341; 0x7aaa5f78766abcac; 0x7a9d6a6737dce8ad; 0x67eb7d5fd51719ae; 0x27a7a79cb776b6da; 0x1c9ef4d87e386198; 0x31a79d9761494bc0; 0x427f09ece5da6d3d; 0x55717944d3e08a62; 0x78b2e4e5b34fdc3e; 0x2d3870b773de016f; 0x6e77e05289cd4913; 0x63353f043904b0f1; 0x3f7874af131601f8; 0x142c496102f3390b; 0x7d3a2cf88f03135f; 0x4709f0de2e7601e7; 0x6d87e206ed7542d3; 0x20e676370010744f; 0x6401e3596f5ae19c; 0x5717ad5b8cfde5ee; 0x5294222167db4d66; 0x30ca11d6a11daf74; 0x619fa464d32c14cf; 0x1cbf7a59449303f6; 0x4404ebf095fc16a9; 0x87c98feb21cd84c; 0x2eec4e37aec9173e; 0x5ba150d18d95c2f1; 0x13409af09dca7e33; 0x332d4afab2ea7e50; 0x5912463459c38e5c; 0xa1b99e1815f4b01; 0x41653ef96a946e8c; 0x1385d8f7fd28b089; 0x44db1afa47fbf8a; 0x74d635a41e37abbf; 0x693e670dd4f2d545; 0x7dc91581f757cc8f; 0x112a25f3fb285dc4; 0x73b23d42eb788201; 0x362020d01f46e2b3; 0x4ab908edca17212c; 0x3beb296033c9db1; 0x7df0f080afe6598b; 0x30dda48377889b6; 0x6aef7d19ca6946e0; 0x411891f331426a3f; 0x241a8191f855bf93; 0x12c2a89ee3878ab3; 0x7f9b57bda43a944e; 0x7f307aa816849384; 0x22de1325d638e5c3; 0x30669df384fc2643; 0x1e2e72857cf4d041; 0x1199fe3b3cce4a15; 0x6c7b57d18e05b752; 0x6a487c14e6435e31; 0x2a4c1983aa53f582; 0x6b3d0ef1b0325175; 0x21a6138cd619413c; 0x5278a5fb501cf2aa; 0x3588f625d2f8b72e; 0x31a4b8686fc3c283; 0x6de676bfaaf19a07; 0x1f2234decbadd8e; 0x7c37ed34044ec7db; 0x11acad19f4e3a0f6; 0x6034c311274afbc1; 0x4dec55896800de0d; 0x29a9d104fed65bea; 0x43bf45dd7b9282e1; 0x798264f1f78c9fdb; 0x9a08a2a8cd7e1f1; 0x1c63f6fa6b0c1ae1; 0x1a12889a4270a3b7; 0x54f7e6c52089a92f; 0x431d47d04a8a8ff; 0x5345193bf75bd6de; 0x7c775dd31220f4d7; 0x30b0a924535eeffd; 0x75345bc6262da9a9; 0x3d893c9000c7bb3b; 0x2695bcdb5d71cbd; 0x130cebef8c190346; 0x50710707d098ce72; 0x30a4310320edbc1c; 0x1c8d2b5986c06716; 0x5fd82d42e554dbf5; 0x42fc336f02d5019d; 0x1121ccb79d9375fa; 0x45ae0ca37d9ff971; 0x62bc57b2d4f82a2; 0x627cd33195473df8; 0x1dc5f45e28daaa01; 0x32fdaf800d6ca857; 0x39d2e1e3ca4a6973; 0x54cb4b5854dc76fa; 0x4b51460924f65a1e; 0x52143920616337c1; 0x10b08253ab1d3018; 0xed4e573e9b186de; 0x212c13579e06e2ae; 0x1346b625b6f65747; 0x6ba801c07b395c89; 0x4a82e9d43575cdc3; 0x75bd8ad2f91f2fb3; 0x562a1680fd022168; 0x38c2eea7dd857d80; 0x56b6a482c148ce43; 0x691eb4fb4bf46a90; 0x3edc806bbc4b3496; 0x3738e4776699206e; 0x517a3e8f40b9e1e0; 0x6a253197c3b3cdea; 0x1314bc33def7020c; 0x5a6522a5593292fa; 0x47f9ad9014eede52; 0xe1d42c1a14023bd; 0x40e39119c7c7c173; 0x50e4dbc2366c62ec; 0x6cdd6c2d35aead98; 0x73f57931ecc369b; 0x1103b2ece38a0e67; 0x5c733c689123e560; 0x211675fbf026a63f; 0x7093c74623f81da9; 0x5d7f58cf94ec14a5; 0x4538be1fdb71fa51; 0x157a25444b013ed0; 0x2d6d3395f114d38e; 0x7f1581adbb5eb57a; 0x1c74d18d93fb0654; 0x55c25d1bff8d81b4; 0x71b366d55d84ffa5; 0x539f2aaacc9b3e78; 0x1384ab7801cd36f3; 0x6b0da2256b5a9ff3; 0x2cc4cf7dde5e564c; 0x5d43015732ebdbfd; 0x1a31edd39995fd72; 0x438cf60ceb2a1d02; 0x49cd55f417c46a23; 0x464fd80b8f184e2d; 0x14b9685ee1b3d391; 0x369b00ae1c26c6f4; 0x38a1ec3edbd89da; 0xfa80427ffd2b95b; 0x7e30676d8241f61b; 0x28fcac40907861cb; 0x6aa2d32d80f43470; 0x739f56bcae2f841b; 0x18cfae7b6e2c7e89; 0x257a26ba3826f07a; 0x5c8375e88628d54b; 0x67ba068dbc107599; 0x79e1794975bad6f5; 0x213c7a29c3eb1b26; 0x26e63c85df4689b4; 0x4066d58abafb0381; 0x46fa39eacbdfb3e6; 0x3f253eccb68894ed; 0x2c6f3af40dfe8bf2; 0x16cd638438853eb6; 0x608e73d272bf0b2b; 0x43b9a4984c827228; 0x6c5c91a8ff3ec90b; 0x60929c6385359956; 0x2d72e97c58436c81; 0x47a773b71b47adc5; 0x2d51567379c1b108; 0x679e652f60524334; 0xe1bc04846421c1d; 0x7077a71e08270d46; 0x6b1b1bb9d29f80ef; 0x28cbf08ec25f1bac; 0x1ede3dc7c0c82421; 0x656c0a40e5618239; 0x5887290a488b1c00; 0x1bdd8f60356ad24; 0x1c66c104bfd82cdb; 0x52f5f97fcfe1e287; 0x57a8a858e5751f3a; 0x517087cb3163de0f; 0x36a662fd6f11163d; 0x555bd96d4503b6d7; 0x15db86f5ac42772b; 0x1d6cfeaecc31d20; 0x115e935bdf313483; 0x26c270d14eebf7a; 0x5e7fda9f28c7ccd; 0x7270f01cf4d42661; 0x10d93f6985021de0; 0x2e8734dede3f6666; 0x10d70451ca9bc612; 0x3acd0b31d12fb8a0; 0x29511074fcc48539; 0x166ec0a1769818fa; 0x43e7789545bf2e63; 0x4cd09aa4f18bf662; 0x49574aa656b841e4; 0x3528d50bed7e94c3; 0x39c840045cbdb496; 0x6571f039112ef0e0; 0x4d7df0e8d05d6b4a; 0x6ed4eae15946a238; 0x76417f91f752df57; 0x4b0cc207f4ff212d; 0xa622e7e23eb3d30; 0xe5a5f9eb528cb19; 0x69e6e80757441bc7; 0x5d8196804007208f; 0x18da88a7cf126cc6; 0x70331484f7656d6c; 0x48c6e3a96612fd11; 0x70f0cdb135a0b2e3; 0x267d0b15ce03d763; 0x42327e8aefab4b41; 0x179b3076bbc092d7; 0xa6e9555475cc83e; 0x47450770b7eb7a1; 0x696e93e92ed4de3e; 0x2b972bf1d20e963f; 0x7549b82be637d7d; 0x140f912494d22629; 0x10b5450f95c3c143; 0x562050a3ff6c2aa0; 0x25dba363c6ed270a; 0x5cf4f5392feca3b5; 0x5b43679a21924ca2; 0x373d0b9c039a2e5a; 0x5fdb4485c7e4a3c8; 0x31327b61ff1b7f1c; 0x3a995482ab064cce; 0x4546e9920ed53620; 0x40f9558ed2b374ff; 0x25ef2212c815de94; 0x67306b036e8af898; 0x7428830e3ff31106; 0x5f64cbe8f22baea6; 0x914125e3d35beb7; 0x1941f7129fcd8b14; 0x1ea61ac1dc92033e; 0x7453390456ee7c35; 0x63809eadc82bf563; 0x226e3fa6a5874d5f; 0x68c88c9414cd31a5; 0x7607a5c33409c587; 0x16a728a9ae8a55d3; 0x3279cfa5a59b93f5; 0x4b94f1602bcd3030; 0x22014e2281717129; 0x7ef5be707be616db; 0x1ebe66590b0ff3e9; 0x374dddc66dbba4b1; 0x6d6b2bcf749cbc00; 0xf8dd59e6aad8935; 0x3268af8907424a88; 0x1f562d98c8f9468c; 0x4c5dee2ab4e6ff0a; 0x3766f790b2b60d1d; 0x7e7a7fbef4079bf; 0x22e11b95c88aed8; 0x2a856b0d42f00329; 0x16f35d92eebc0567; 0x44451141ee019fca; 0xa2aa0228a88002a; 0x1441111040141415; 0x282a8828800a8082; 0x100551000441040; 0x8aa288220002282; 0x1051041545445011; 0x20822a0028220a28; 0x550045451454051];
   [0x2b1a03582af2ab77; 0x155f91a7ba26e468; 0x4393f386565514bd; 0x36e8f7829c58dcc8; 0x147e4ff9aeff4c22; 0x731a8aaaf5c4ce50; 0x40a2eb4d499d1352; 0x3904fbe60f9b7a4d; 0x37c2921231201f17; 0x387cdbdfd3b89252; 0x29570d8d67aa3d4e; 0x2b6923b9d955f151; 0x339e4b3f3933f5c6; 0x2de20654a41dc5d5; 0x793d9c04040db4f7; 0x4ee52891c274ce42; 0x75e261590c8aafde; 0x4553ca715ad73e7e; 0x1a53bb0a9a86a440; 0x56d0b88a74108bab; 0x5c27476911e7163e; 0x28b69e85d8562cb; 0x153643085117a63b; 0x773bf144908d416c; 0x375034e128956afc; 0x6c5487d47d626d0; 0x5c238a4b129ee34a; 0x23b2ccbfdfaa59e8; 0x2ca0c9342355e789; 0x662917f136605f02; 0x6865e48070a2dd81; 0x46b5e7547ea9cf55; 0x77949ac049a887ba; 0x7a4188890cf0f014; 0x3d31fb739b53a98a; 0x17821403882c0e0b; 0x6a73be1eb73e6a2c; 0x19ff2c548bca1469; 0x42055616a31604e7; 0x2ddfd516ef0fe930; 0x450b992dbb36f296; 0x6ce427b81525d682; 0xc2e9cb1dc1d1575; 0x61827333c678546f; 0x2759340c3d969eea; 0x6662cf9811676e88; 0x24d008a1a4e463d0; 0x1f1cb87d0969f94b; 0x727aad55212d2cdb; 0x7ed9f28c7f9c3449; 0x4840b6c9ca489778; 0x7eceaaf9258dd154; 0x4a0d0ec9cc4a9b9d; 0x70c49fd2354b23bd; 0x6fcb2128fec2352b; 0x2ad11e888b0c6910; 0xc746f15fd318f2d; 0x21114ec1ca1a1f31; 0x10c340a0168458f5; 0x7b017bda6b2edf02; 0xd112380edf3f46e; 0x35014ed7eee9d4df; 0x72e82e13c32abb51; 0x2d8a9e1fb12361f7; 0x44caf989f33afb58; 0x29ff6b94d3e91996; 0x6d2f413143a3e590; 0x6b7c0df18eef1f28; 0x3bb0e21525c2fd86; 0x15e0ea5c349c7248; 0x2515865d579e6d54; 0x75f767880bf9a25a; 0x54d44300b4b25dbd; 0x4bf5ac48688f404a; 0x5b1ab35068050fe5; 0x7749dd3b22344d4e; 0xd5d0ae557d4ae83; 0xf20fc72337e4038; 0x2061c9160ce83853; 0x5ccedf49c96b7aea; 0xa90e497d2ebbfab; 0x57467e46fb04f456; 0x24b20a7d9370cc12; 0x8ac0e5c2ed04939; 0x2a1c3d5121d7bf1f; 0x35ae1d3ffbb12f60; 0x66303cc6b595b03f; 0x43849d0e3690db0c; 0x6a1ccdb1ed30402a; 0x35f570f361cf1350; 0x64a02ee49444cc3; 0x1836d444b32d4923; 0x48599f5db8b8d794; 0x7ca47b8be3c3cbea; 0x698526b0c52d3493; 0x6294dfd7d6439042; 0x78c74c7f7244b25c; 0x3d2e674aa2d6943e; 0x34df9b29f9cce229; 0x3cc73e263512e94c; 0x1f72e7f9291e8235; 0x2458533e2a43ce00; 0x24a5879681cc26fd; 0x75aea8c4201756b1; 0x104e5259f6ab1a9a; 0x2efa3ffdb07e84fc; 0x68adc66d4977cc99; 0x3f08ae8773ebfbc6; 0x34d6a5c4c849ed38; 0x6d93986be4736643; 0x59c8f68ab31efe46; 0x76470e383e4ab3f9; 0x4139213ff1eccf56; 0x4a2b35a025f07e70; 0x6f00bae740bd3a36; 0x643262584611714e; 0xb415a3ca30bf203; 0x3b19e584ab9f575f; 0x538cd5de3a6e058f; 0x4e5cd1fef0416be1; 0x189065c027fa94d7; 0x40b8c650cbfc169e; 0x5194116a908a0344; 0x1f9c3b9e330275c4; 0x6b251debfbcae378; 0x758f6055a1fee37a; 0x36d0449a6e1f8609; 0x370f898e61e76d10; 0x315666fa0971ae01; 0x616c863cb4f70645; 0x39bae0725c2e6ba0; 0x6971f1e93b8168f; 0x30ca8ec01404923e; 0x61ae32e32997964d; 0x4806fc728cdd86c5; 0x26b60e17e489407a; 0x178ee7af738dcadc; 0xdbf273d7cbf14da; 0x4e229d2be745fb71; 0x36675feca9df236; 0x7df32609283b1a0; 0xc417d04a48584a0; 0x13e6b017963c00d6; 0x372d496ac254b0e2; 0x3a666921ab25342e; 0x2d8e678929dd123e; 0x2ae541beca67aa8e; 0x664ebe5120617d74; 0x2958859e471dadaa; 0x3b8e26f1ed1d5a43; 0x17ee2af2f071e27b; 0x640cc5719ebe6c52; 0x43853705f745f6f4; 0x55b24104522bf1ca; 0x64d3036a7c702e43; 0x6f690a20a62d348e; 0x24b69314660c57f4; 0x368e2a991729af92; 0x781127186bcba51; 0x40fbb66797f1741b; 0x7bdec966bba8385b; 0x1bf2ae3a0b6a22df; 0x1e9a21467fac1a06; 0xa83b2b35de01cbf; 0x3aeebda40481fbc3; 0x9c23436236ac9a8; 0x302c195565a988f8; 0x480fe5c7fc503671; 0x4a845b0210ba78ae; 0x178c4057edb35cc7; 0x327463f12276968d; 0x58a0e67ce2649f3b; 0x8fc30da186278b2; 0x3d093ab5dcc84bb8; 0x49519e0e2c9f91a; 0x5397c3698a0cc180; 0x592515799577a496; 0x1bac001a93509961; 0x20343f7d06e38e4f; 0x75307f93f35316fc; 0x604029177cec160d; 0x7e7f3e38e39e450d; 0x3d5d409f3d2ec7fe; 0x18b699148ac2ddbc; 0x2cb276401d755aff; 0x195ff5de9ef69d5c; 0x40c091297b473ec6; 0x1b32c2eb1926f98d; 0x1722b054576786e8; 0x240833a8e93fcfe; 0x78a13a7b2ad21a1d; 0x5843c7cf9be28930; 0xf6ae5db7a2ba957; 0x6a2f66bf8c0a3ae7; 0x6eab4f24f7a22647; 0x21802c4e29b56da8; 0x76224afcee319dc1; 0x2cea8175fd67d6b6; 0x28b4a10dee37867f; 0x57dcaab6a3c51a35; 0x62d9116b793f3a02; 0x1a9a5e3d4fe0fc8d; 0x15f88b7e338c0b96; 0x27b9a751ecf0d71e; 0xcec09c7f0c0cc53; 0x1b819d2c1a44ef13; 0x60fd5290b0cd0a4b; 0x534a0bd8e8b66ab8; 0x1d5b1d4f30b8c71d; 0x1076f06f706dd574; 0x565770a1e9d6ca05; 0x2024324b2bb2a872; 0x6a67ebb37aa63cc0; 0x46318c7ba07056c8; 0x88a6ec6a5bfb6a; 0xa6be26b648219c1; 0x398b31fd6267159a; 0x7a27012bced87f6d; 0x38cd72385c4c9c3c; 0x2af466f65e086c45; 0x55704171cc36492f; 0xb159ee87e7f5c9e; 0x16ce95ab14573610; 0x5863b47b61c179bc; 0x423a9d9a60ab3deb; 0x7df32367595c8aba; 0x30c7251879b77e03; 0x1c55ad7f15faf28b; 0x5d9bb8fddb1ad18f; 0x4ca3d77c407d837b; 0x4f819e8973131565; 0x1717890c05878886; 0x112e33eef8e9cca2; 0x62f3c5b81751f3b3; 0x51f1c7ab963508e8; 0x740d57f529574914; 0x1b3b41d23f147dac; 0x7107b5a90f5200a2; 0x1750b1fec4f19cb; 0x7ef6db95f7ea535c; 0x4f8a09a1fa8d667; 0x46d6a0f7af26c69f; 0x453aa652efbe9ee0; 0x4506a052ce38f300; 0x4a5dc47757135370; 0x52ca1440526c13e; 0x3264c0f4366b2d66; 0x2bce8a64053087de; 0x6690a46d0c810c81; 0x7d6942ca3ac64f0d; 0x5f102e168a34ed7b; 0x52ad205faec2d416; 0x2555509a7f8fdc42; 0x4391ca4020050a21; 0x29218e8886416706; 0x542cc49421fe1c0c; 0x2a9dae1d7e9893ed; 0x64471f7cdf758117; 0x6552701aa9653123; 0x3dc56a076a8dba9a; 0xc8163addf7c0710; 0x5b1c52af9b5e4a9d; 0x335d09c7c2ede05d; 0x568dd6e970d3cbc6; 0x408e076c8e3eaf2a; 0x6294ec43e0d0430; 0x5e3c3789c5de6394; 0x6937aa2195d43885; 0x60d4b3d883666583; 0x24418b4313d29c1d; 0x33e45e447b6ee8b5; 0x7da7e680aee66d64; 0x416bdc066549c945; 0x580f2bc1f0eaf9be; 0x4ac1b854c349db03; 0x58e19f8cd22a8efd; 0x58a1d39784d8b8ce; 0x22627a3cba70d1c9; 0x5a78637ad6548ef2; 0x5514e8b11180c499; 0x1e114fd2c8de3e9d; 0x55b1cfe1dbf02438; 0x98252630d6906c7; 0x43ef617705cdf77f; 0x619a9998e833df42; 0x487712f6eb718a68; 0x6e72a9a2ca2954a5; 0x31ff33c712353caf; 0x2d1d28541cdf0b49; 0x27deddbe83307592; 0x4959c27f6ae2b55a; 0x6b18510be592c036; 0x22a32907fb62a621; 0x295700e08d09fbc8; 0x6a20c6c5dcaf5920; 0x533328a97cdea32b; 0x285a1d30ec6b7b65; 0x3c4cfccda407adc1; 0x6b5d50fdbf5e533a; 0x3484cfa05bca382a; 0x695d02b2ec8c2b1e; 0x2e23d9606683644b; 0x2f86b23239af1f88; 0x754dffb74a961f60; 0x38b68117d206fcfa; 0xa0e2fe8204fd542; 0x48a8b76cfef88a50; 0x4bb0ffe28b92e94; 0x1555555145e40333; 0x2a8a88a0200aa282; 0x440141454014555; 0xa0208028a8aa02; 0x100040504554455; 0x2208802a220228a; 0x4415505004145510; 0x20880a2820a082a2; 0x5001110411005];
   [0x550b5d3457082332; 0x5e23ba1302ab89a4; 0x69324c7fc4a80f7; 0x11ef368bbc09aac0; 0x55b2c20f43935a37; 0x366aa2869251a4b4; 0x57049b5009d08055; 0x6defc6449b9c945e; 0x7d0814c7a60fdf6f; 0x42e8b96bab657baa; 0x6eb65d18d7640c34; 0x54211c86427f9bec; 0x9c199b0aa431552; 0x56a8c3c7296f3360; 0x21f4944024f4276f; 0x2b51e6ace6e068d9; 0x20cdc0b8567f598b; 0x4091c1ca01180327; 0xfe7460d36946ed4; 0x439aca162aa80402; 0x6c95254f7cd617ee; 0x6835aa15d93e627d; 0x2df5e141769bf3d; 0x19d362092be3eedd; 0x373824b37a480901; 0x384de70a58a86d5; 0x65f43d151de4b5d; 0x6f63b6dd1f87a229; 0x96d63e8a745fcec; 0x31a7af8c547e997; 0x588d37a2812e6f95; 0x5b0ab1bba6751ea4; 0x640579cdea3fc2f8; 0x3a6019b5652fe34b; 0x425c4d11ab56f314; 0x289ee76c47f8a7cb; 0x3c41e7c1f1ce8112; 0x5ef8336c02a347a2; 0x6814206653e7869e; 0x6700e094d163cc4b; 0x2b6399dc416e796f; 0x3e729d64f561939f; 0x768b74083e99e9bf; 0x294b67b4af774d9d; 0x7d68dc1b0ce5f03a; 0x528b65914d50b71f; 0x36afee11b6583432; 0x858f71cc06c141f; 0x7acea59f8323f8fa; 0x7964fad4a9c4324b; 0x547160140e015aa6; 0x14026a8b883e2e5d; 0x790193beebf450ec; 0x77af37fd28d87cdb; 0x75222df0ea120409; 0xcea3522b933e44a; 0x51212bdeb5ec23c8; 0x5f301f7b5a17e7d; 0x13c0a6615ba459e3; 0x55e61d25b764a7ad; 0x46bbe114f58f00dd; 0x697cb2adae89035b; 0x44760386ef2d2a18; 0x7162d64c1af8b89a; 0x1e1e55737c5c6850; 0x4168f7b9832ad1c0; 0x11ecf4aade824266; 0x76b6121c9f76d705; 0x4412219c7f025c54; 0x3e313bef693ddaec; 0x785b56e5c6043dc8; 0x35cc777d31efdbd; 0x63a67234a337638; 0x2cead810260933d6; 0x45e2015918e712d7; 0x650c55c05de581cd; 0x5c2cd5f21a4f51d1; 0x51a82402719e4d02; 0x14dee4f98788b580; 0x559a4aa3ac99661b; 0x4391722bfe3a8b4e; 0x57ac71aa368c5a1; 0x6c4a5c7b70573953; 0x365ea859567c5ce7; 0x7c5a62c65b1f1338; 0x75b434178c9e548; 0x4ebe76db7d0e6aad; 0x47958c2648b9d7f9; 0x4afc3f2705319454; 0x72b49edc77b2a257; 0x70a94a8a8d74104f; 0x5591331cc359d16d; 0x1bd52197fcfdd3ef; 0x3984531df705bc2; 0x18f66f1b5b14210; 0x5bfcd03acd712704; 0x20686227029028d2; 0x179425597b59c5ce; 0x1012412729a739aa; 0x62850062a6c286d0; 0x307d853d84274305; 0x70a685aaddc84df5; 0x69ee191a0cc11aab; 0x52ce2572e5e709fa; 0x32a0130b75660538; 0x7ad5fda1e42fd5ca; 0x4860fcde17ef770b; 0x24f0d1307b63dfdc; 0x71a9a182541371b7; 0x709096ca1598d35c; 0x259c629642cfd6ad; 0x7953323a40e90d9b; 0x58d808902c69c583; 0xfc55cc6fc8940ad; 0x4f814b5b24b1b6f1; 0x16c77a1ae00c6c4b; 0x6467842976932ff0; 0x38414c3180b49b7e; 0xd96be1aa6983273; 0x17d8e498e7c880f2; 0x185ade9ca562ceb1; 0x72b75ee12cbdf6e; 0x471e12d333925a90; 0xc39b57d661ac5b4; 0x3f34e6dcc7f0e3e7; 0x7bb6be662fc88515; 0x58810462c4e475e9; 0x269dad7ef311b096; 0x4e890668e8f6bc8d; 0x8a548227053d314; 0x28c42e3b2938a4d4; 0x2f545c8e54740822; 0x12c470634622eb85; 0x18d6140948bf7f8b; 0x1921593a03ac05c9; 0x344c2f88ecd72383; 0x71fd0b2a856683fb; 0x1edfa7d9c6b1e75; 0x6dcbd45d22fd67c8; 0x50a51d62147ebfa4; 0x6992560cfe02215; 0x4621d7c0bf6375bd; 0x2f83484038d1e12d; 0x78e59e441ecdf931; 0x1dc148502a64325d; 0x67a75e95e2810adc; 0x6843ed4f669d85d4; 0x3dd3250871fcbc4d; 0x6fb1eaccb37a2c74; 0x15e0ea520bbe058e; 0x700e854faff8ef63; 0x34bfeaa93726898a; 0x26d1c62c65af5b48; 0x737c42ddf4cdbe73; 0x6f07a538f1fcfee7; 0x702cd85e938a7385; 0x650b34af5098e87a; 0x1d74871affe7a21e; 0x2f439053a7036630; 0x50a4288fad38a15d; 0x13d87c8489c17156; 0x70488205bff7d7e1; 0x3b4b4ee6a91d179b; 0x4aa582b4a2a43b22; 0x77fcb4ed8d446dad; 0x21f44934739ef225; 0x239bb3645e314371; 0x3a3e90889a044f33; 0x698f06f4b0a98b73; 0x6d79fc50d51a33f7; 0x42afa9ea4f42ecd1; 0x5f0338d58ab36d6b; 0x4b56d920c5761e37; 0x7ef5d85b2372763b; 0xe69290004a5802d; 0x147b3283c25771cc; 0x576526e8478c32ef; 0x111e6a10ee9f8863; 0x55fc681ebd02a49b; 0x288f47dd413bcef5; 0x21c9e9bbc2adbf77; 0x1884b72c06dc227; 0x5aee6794805fa4a9; 0x212cc0732be09fe1; 0x1c8672242bf2d75; 0x3d60ca074cc16512; 0x4e62198a44de4f7; 0x4473ec59c26ddefe; 0x6a6bbf81f1492b3d; 0x8e33973e223f33e; 0x49dc28a50d7ce2e4; 0x603b58a0d4c3c8b9; 0x38c0cf2a4183245b; 0x7875d017e9a2dac8; 0x59fc215fc3ede9aa; 0x6a44b40c36cc6d85; 0x793297f33a3fedf9; 0x15cad62ed91fcb5; 0x74c0982993cf0b0c; 0x14415fef41f056b4; 0x605364773adb6182; 0x2a7dde09ba4e26ad; 0x29083e0e54476b5; 0x7db0c0bfeaa84fd7; 0x6abbcaa2648ea94f; 0x1a0214ed40df9fa3; 0x5589258e75a0d55f; 0x5302782a2a6a565e; 0x46a4a999562acc66; 0x92327afb3bccf35; 0x4504f15a4f211fc8; 0x87bfad0691864c2; 0x12c1dbf843c72ce9; 0x2509b8df81badb68; 0x21b0abfa58dcc1c3; 0x57e680575d581c99; 0xf4eb75f6226fac8; 0x6515cfaa100baa43; 0x3f99fdf38c9b145a; 0x278da9aaadf5662; 0x44120cdb56cde64a; 0x21594307d78ec5c1; 0x150cfe02ce108e2b; 0x3ffccb322af1b474; 0x300815a3403b38a5; 0x7b2412f91a6c6845; 0x75dc05157aee4d7d; 0x5b7f828373f7c04d; 0x6791976d6c3024de; 0x11b07348475978c8; 0x7c65b1f59866f2f3; 0x2b76d34d9dec7a86; 0x31504756157f7a23; 0x38f961c7ab0b0bf8; 0xa42fb2ed18ced9; 0x57cb17a5f16c7005; 0x4457de105393f9ef; 0x3e8b5716f3142e79; 0x2008c1d88a33f670; 0x271010e172d2e258; 0x7a757043b7fe31c0; 0x3e53bfc5d9011820; 0x3d2c6bb448a925b; 0xfec860d76accc44; 0x5c840c46bdb1b425; 0xeb0c5bc1d2f50d0; 0x1a6585e8e2f8ddd3; 0xde518760f351abb; 0x5c2f4960ba53c082; 0x2ee9f7a0986128d; 0x568ebf6b03176e4a; 0x7453159ad2724a2c; 0x6993c1570ed1662a; 0x3a70eb99b05c82c2; 0xfcf07f73d2a4b3f; 0x17a71a40f952b3c2; 0x19c283e7c638d2e4; 0x7b4d6d87974699b0; 0x5df4c81798c94ecc; 0x7b8a330eb2050f7f; 0x5c69b47d34ef8f99; 0x1752279e3ef4fa70; 0x3d44a2c1a0cb8c11; 0x771d0611b6444ff8; 0x1343d32aad3cda8d; 0x1f2ef716627f54eb; 0x22e8e7ceae6e025; 0x84f092daea12b26; 0x18ee02ba3790a75; 0x3ad7d7b280165304; 0x765bad3b186b6c9b; 0x48ff244c4ebaacd6; 0x78b70651f4309c6c; 0x282293fca486033c; 0x155a383a50354199; 0x30d85df041f6763b; 0x752feaf791f9b0c2; 0x30373d1f584daf18; 0x794d09aed7c3e4d8; 0x1777c9af06183179; 0xc5eed2e5d04e10a; 0x5c590e520ad90cd2; 0x11a9222817013891; 0x65394ae7d1ae0dec; 0x5409ce606195f519; 0x2506d10ecb6e6bd3; 0x5f6419d1afde8686; 0x6fe0fffa3545dd50; 0x625e5204b943fb5f; 0x5ac997f9077bc2b6; 0x4ec6660ba5106a32; 0x12024dc795d2e200; 0x339c47ba948a95e9; 0x15ffa0e4fe163875; 0x52cef738ad2278b1; 0x518609cf31e7222f; 0x5061da95bc516c86; 0xff9784ef4d36d51; 0x66414c8dbcf39794; 0xd4ddde4323cfb3b; 0x128408e390bd053c; 0x7f37a7b5d48494f6; 0x731e8be0368d618a; 0x7d98ce01c1d5acbc; 0xff4c6ec8a0f9577; 0x526f466604eff96; 0x55f2bfd03ea98beb; 0x7e329a7158f380e8; 0x4450111db6b1f2c; 0x2a002a2200a82002; 0x1410144150151415; 0xa8aa20a0aa80220; 0x54111501551405; 0xa822a282080208a; 0x411545411510550; 0x808a208208aaaa8; 0x451505145414410];
   [0x69930da2017debf3; 0x3ed11eb6e8c062c8; 0x5af49bd34c37f615; 0x2a6edc14fb6b909f; 0x4aaf02fdfa268787; 0x49d29c57675943a0; 0x3f5098cfbeb4b4e5; 0xc401eda8214f863; 0x6dd340927aac2785; 0x2f8c7b1954781313; 0x7405c405ae229b5e; 0x60379194078976af; 0x620bac20a7453402; 0x6906783766a34435; 0x2742d42b19f3dc00; 0x232f711b29f5796a; 0x126c424fab36cb7d; 0x11d728c5bd844c87; 0x102a57a3bfcc55ac; 0x5ea5ad1acb4b95b2; 0x3714c9b0f674804a; 0x4f72dfed5b3265cb; 0x27af958fd3b09965; 0x49485d9c77ea19df; 0x524963379b087fd6; 0x7b2ee63136863838; 0x8c4f1511719e804; 0x55fae182baeaf01d; 0xb026324bfc02407; 0x358c6543c4434c44; 0x6d008ba81dca0bc3; 0x3a2c82a8f9a9f759; 0x7a6afbc01c31d721; 0x2797ed1cc83c2a32; 0xc23dd1cb81b135f; 0x1e0e24b8b5c94a34; 0x5acb07c84f3c4606; 0x1fa12bebbd7f94a2; 0x44930d8b342f69db; 0x23d4732168281ddb; 0x28a0f12577b94fcb; 0x1d65c1b65944d8e0; 0x106a7cd949d6e9ff; 0x635f625346c52830; 0xd3b9cee91d97e54; 0x7e3dacad48b33353; 0x699ee5082cf13706; 0x21a5fef508da43f6; 0x759fa9b74417d5a4; 0x259818512a1db174; 0x134f62a60b97dea0; 0x398f42d0ccfce39b; 0x755fd14f94ca6f6b; 0x735d39647384078; 0xf5ad3bd0c766297; 0x6c93b3895ae12af8; 0x1172e7ba8efbf5c0; 0x2b3a8c3dbca925f6; 0xd800d2521a9b56c; 0x18549d2e42659f78; 0x3b18dfe1a39bf01b; 0x2d3229d06f2042a7; 0x35c72e9638edd5fc; 0x4b8212240fa8299a; 0x16ab577642146433; 0x7ef9695407d0fdcd; 0x2ae02dbdc756310c; 0x3c8dd13452318d27; 0x51d50d5973f0ca5c; 0x276e3b66400d6e5e; 0x11f88e32d5f032a2; 0x68cc8013ef4bafcc; 0x6174a5a33e93332b; 0x24335ad49fdf4427; 0x387bee785c8984fb; 0x13865d33a93c51b; 0x54941ef8a60f4e00; 0x75878a9384efa7fc; 0x400762808e75a38d; 0x1094faf292fa0578; 0x2cbf49a6b7d092f5; 0x39f6aeef436d324d; 0x11aa88a919ff1c32; 0x1f61d43f52af43fd; 0x33dabde4f45193ab; 0x31c2828bb4b068f9; 0x608b16315203a20d; 0x45dd1c24fde947b8; 0x7b3fa4d32ace78fd; 0x79ddfd74c8e5a2a3; 0x4789c929d6b49326; 0x781b23dd2c6d5184; 0x4fc85c20a76b8677; 0x1724f41a1e42bff; 0x3ad0794ab743b694; 0x407a03d24568ad23; 0x7adc8940516712eb; 0x11fe97f91f468654; 0x2d075201311063f3; 0x2a3ce3d080027771; 0x48e23691c117a4ca; 0x1b883d7aebe9d06; 0x5118ef7e0ce43afd; 0xdd196c8932371a8; 0x4deb74012edb0c7f; 0x27987f098b1c7b5c; 0x76e1f49db0b1993d; 0x751616469c957e1a; 0x4afc031e520f9072; 0x1dc531b78a5dfb3; 0x44bb7729e24cded9; 0x116550a618d7674e; 0x67a643a8de204498; 0x6e90326bef39927d; 0x5df3817f8ebad077; 0xcb0e9b64ede6da2; 0x5ee2a2a3b0199518; 0x104139b6fa2794b1; 0x3fb46c972fd7479a; 0x684fae6314c6862a; 0x60213591dadd876a; 0x451c9563529878ad; 0x5679bcf1470ed235; 0x521264a29b7b06a5; 0x271621c8a0a3afe2; 0x4d15c5274e7b7a04; 0x47ea6d17d948aae3; 0x44b80dfd82a7f239; 0x4fc48a11b74de0c3; 0x4046d5a3c72b1fa9; 0x331744e2f324e38b; 0x9a8252378762e58; 0x321db4d063baec5a; 0x7b22f045cb6dacc0; 0x6b699765b99a4fe2; 0x37aa6b3f3d3c5bc4; 0x183c62341bdecf80; 0x691b7d491044adec; 0x30736dbdddae8f15; 0xf8b2c5541a16774; 0x3a393bdab2c5b584; 0x2e2236915906501d; 0x5ba9350b596fe9d8; 0x249078e670410cd8; 0x68354e842c8b6168; 0x7bd79cbc2465fa21; 0x1a3d3c64d72cad0e; 0x1e97f5edafffc264; 0x47296d5bc3e2b881; 0x7e9d54074af212b8; 0x58fed34a12d51fd7; 0x63c06e003fc4f490; 0x296f0dba1bccd196; 0xea7b53db530a5c1; 0x29a26574a40442ed; 0x2734c7fb4f4058e5; 0x21615d67784252c0; 0x3aa59ca4dc096366; 0x7fe5b5ef28aacdd3; 0x2612a9f1f0976130; 0x2c2f6941848ecf47; 0x31666bc361aeec68; 0x1a63c812fee3ccc6; 0x92981128132c458; 0x61bc59bae942ab07; 0x85b55f432eeb2b6; 0x81575bb34e38d9c; 0x5498396c7b8a3455; 0x1463651523094e1d; 0xd523135cf2ace7; 0x378b101c235a9ea3; 0x712c337df7ab6b51; 0x78b20dba7eeaa248; 0x68c9a9cb8fe3c5c3; 0x42935ad9c534405d; 0x39591c8ca3805349; 0x1ed926e90acde21b; 0x3749ac476e93cebe; 0x498309b81c24fc5e; 0x1f174ae6c8809baa; 0x49f4aebf124588c5; 0x314a4b8ec9ca1ab6; 0x73d13bc60351b1e0; 0x12c798490d10c2e0; 0xca02b72ec9b5621; 0x7dc23acbbdc5ba6b; 0xfb63ce7ccd0ca49; 0x53bf2bd2b47397da; 0x19a88344b632a636; 0x76117e640f03167e; 0x3a7de921bfeec53c; 0x62b5ee5c93d67674; 0x4ee0d470a8e5983a; 0x18d74127474bb082; 0x4f9e2df7cdd0cf6e; 0x962615979093510; 0x34c3a8c57de28455; 0x361420c82d7e6ed8; 0x60a143d84055d7d2; 0x141e9861eb778892; 0x71df49dfd1372f07; 0x61d2cffad3e0848b; 0x623bde34d56ef5ba; 0x644e3007b9513406; 0x4a97ae95e35faf4d; 0x7bab3a84b2afd3b7; 0x5ec7a32314fdb08b; 0x759178d3bc41e153; 0x4d41dab6c10ed3ca; 0x23e4acae7ae20f9c; 0x5a5149b335b8d179; 0x7bda09fb98e12651; 0x640b0b43b77f084f; 0x4e0690ccbcd31317; 0x40399c73c7a20b; 0x4db532ecbb8459a4; 0x25b65db7007bb79a; 0x71779f12eb913b44; 0x53896f89ebca78a5; 0x5d5ff85a58cd2399; 0x2af5e0d60ff37ad7; 0x15a2915db7666f8b; 0x330d3a18c4058cec; 0x2d755e6b99d9a65f; 0x57296b7a3ea54365; 0x1ed984ae5dfe13f2; 0x54b6ae3769a02239; 0x7f1850fc1b982435; 0x607953c6ad6a797a; 0x7adc4cb46a2a292; 0x4e957e0b47a18689; 0x7c1bcc7dbd3bb31f; 0x33b8129414ef75b2; 0x6cf7e5b23a835c02; 0x476909fc021e7c6d; 0x410762b82b5e8064; 0xf31d043ab0f27eb; 0x76edfb7e849bbc33; 0x2f3ae2b53e1713c; 0x5b26675b4a21dc45; 0x20d215914bab5d8c; 0x5181437f3570fb7e; 0x7acce2aad1d6a7af; 0x2267c935b37e10b2; 0x652c7ef0cb37b502; 0x4b8c29d17727160d; 0x4f6cd28a927ce2e0; 0x4d1b6272c64c048a; 0x48c998a1f4fea98e; 0x3a362370ab7813bc; 0x2a2e9b9ff0a3a7fa; 0x58b108c3bc35537a; 0x4f474a90ee74dfb; 0x3d40b13d6c8e56cd; 0x3adb9c247858f7ce; 0x20e00a01df674f10; 0x1ab59a35c1559c8c; 0x2ec8c9e31e258ec; 0x7127471cde08552d; 0x1f1232b56089dbff; 0x3e1afda8c11036c6; 0x54d304823dd51105; 0x6c275d6d1476bdfd; 0x3ca74d56c036552b; 0x5b789888c91ba740; 0x2f8775cca9edbc6c; 0x48ab3ad9af352fd0; 0xb4d2332ea5d27a6; 0x522412e5dd0b16c0; 0x15e34399825ab6d0; 0x208aa953f289b77f; 0xfaaa4752b580712; 0x625dd1feb0d14a6b; 0x476cbc530e012a7c; 0x616c25385db1edaa; 0x287f408552e63dfc; 0x7d1651621a0b31b0; 0x736b2e51fc9f5f47; 0x2cb45a55cd00bf97; 0x205add7c7c589f9a; 0x4c655a0d9460529a; 0xa22969f67610171; 0x7c6c7f3912f3275e; 0x20a6b96bc2049860; 0x23633e1196835f41; 0x447a6c01ac5fa9e; 0x910980328bf61fe; 0x23c6fcb6652c435c; 0x228088e6635aa17a; 0x5f1eaf471395e04a; 0x7621e2a8c9fb2c1f; 0xc12438009c6d7c4; 0xc65fd200ff30464; 0x7715bf22a09f76a8; 0x63e92ef4772c6c30; 0x46b7e691a809ea5; 0xb51ed024602229; 0x1defb85be77b27c0; 0x33f3aee1dd2b5f51; 0xd0702842043b3ef; 0x7b5ebbc038518aab; 0x3813c32d83ed1657; 0x3c2a4a6c5af3e20d; 0x1f406dd8e6d0f420; 0x49d1de2de1922835; 0x1141e9b4f35ea223; 0x42f2a35767e93bc; 0x56c20e2f134b3b82; 0x541541505a43be43; 0xa0802a220888aaa; 0x155551540051041; 0x820288808a000a0; 0x5405450540515405; 0x2008a82a00aa2a88; 0x1505051511515400; 0x20aa2a82a0a8202; 0x50155015440541];
   [0x7f945a1dbbeb1de3; 0x6121d5abcabbc2a8; 0x26926ea856de1a91; 0x8a5f49aab79f612; 0x6df6d6bd9c57f698; 0x753b0f9d36010876; 0x217b77ab7e22e7a7; 0x35a888fb77f6e15e; 0x735024ef1743edce; 0x74d25baa96815d1f; 0x9e824a81bec015b; 0x1c8d5ff8f77b0460; 0x7b14aab1be0e04e3; 0x2a7bb8b21093137d; 0x79a2dd74bb3117df; 0x1d3bcf387b4cf193; 0x499ac136c85f442f; 0x7b70e6bca6423d55; 0x1482d4b6cd3673e4; 0xb2d9853a7b74ca; 0x1db16b3951785cd7; 0x6dac29d7c62050a7; 0x31b74b3986eb4aa9; 0x4b2a698c719b8562; 0x3a09ff502277187d; 0x60f0da6fd18be7d6; 0x3e34789ba57fc5e8; 0x326085dd92cdfe30; 0x7845586c92fb2889; 0x5c9d6c711f5eb7b6; 0x4466a443e10701e3; 0x382e0cd8e4b0c47e; 0x4320360c56b9709a; 0x479776b101b17885; 0x53c5db6484b55fc8; 0x27756fd9b7bae65e; 0x5dce432a9c51ca90; 0x8461e1e463b715a; 0x7e8d72665b580a82; 0x42e8247ed810ff06; 0x7fd21f2b9ffed21c; 0x392ca3252672b674; 0x6992e26249f72784; 0x795fd31cfaeb3834; 0x156bdc57e0eafd6c; 0x180b8d927a711497; 0x263e78e0e150ec4d; 0x2355bee749224b69; 0x574c2eec500a6a92; 0x15490486e819d556; 0x1cbd076897523a33; 0x60c1f4bffbf0db71; 0x5b94a2153f4094fa; 0x1cadc3f99b5fbe5e; 0x2edbf20046d80823; 0x387b78d3f7606314; 0x48a87242d129a055; 0x511b86889fee7640; 0x3545344cc9e48972; 0x5c32511b57c68fa9; 0xf35f2fc6d89fd94; 0x18b46010d4533835; 0x42524906c213a330; 0x1fa3ba9d57efbb52; 0x63e292b9728fa226; 0x1db949fad9fe66c0; 0xadca4629e5443c5; 0x1803f2c9b8488e99; 0x62909b874b83148d; 0x1a3894a20e247fae; 0x2ef866c11616bb50; 0x6a4b5c5e238feffd; 0x318f39f08b075fc7; 0x4afbb8bdbc1e7019; 0x453b307483850625; 0x79082612ee05662a; 0x68d29bd12944b461; 0x28bf60f2f453abd5; 0x5c33ce6ff3747551; 0x250e667d2980e6c0; 0x27ce78d8a017921; 0x7f3ecc96f9665689; 0x1e1338a63f31751a; 0x786bc11d8ab4a2e3; 0x200cb428ffc842aa; 0x57604c59876f5cbb; 0x264657577e85ba4c; 0x787eeb89efbc38ea; 0x303132dbe83bf9e5; 0x8879383b82ed4d3; 0x37db7fc3f9b5803b; 0x5a66582b7a265e80; 0x33596ad8b55627e3; 0x7f411255408c55f6; 0x3e70a2aaf4ae2efc; 0x1c7875351dd6ca96; 0x5ae3bcc459f231c8; 0x7285b4bd0704a344; 0x698007f0a224e756; 0x1eaa4fb5bca6b995; 0x2236960583c6ee56; 0x29afdec502989589; 0x2968c235347a1f8f; 0x65b2bb786374805c; 0xe110b22f1cdc96d; 0x78ef83cc0f7594f; 0x71ad3725dc0a73ba; 0x6be4c5b59f47e194; 0x331ce18337aba18e; 0x395b4b9e0f6f5253; 0x1b1d09e1a75de58a; 0x211062b6ed1320d2; 0x6750ce1d695971bf; 0x263d0d2ca603dde3; 0x4928420fde8e8e68; 0x83fab07bb1393a4; 0x2e28bf38bf90b055; 0x6d77d2b6cb0104d8; 0x252244a27e4f2e63; 0x2c4c8d16c0388954; 0x480e99a22f050c7f; 0xd24d9791b12f1f; 0x6c318698177ff8ac; 0x1c7ce1f40e06e689; 0x6961bf9873041a4f; 0x58ad12a0912d2807; 0x213d7709453289bc; 0x6199e9c7c4012219; 0x60828b54dba4c05; 0x60726d48586d08bc; 0x9da2ebd544fa141; 0x6537e839689f7a33; 0x7ac5274b8bc2eb68; 0x5421527baedeb71b; 0x53fe386cd637029b; 0x67cb8bfb9bbb14e4; 0x7b62f7fbe7f17b43; 0x2d07670808af104c; 0x2a3717113c657b60; 0x3b14be38345a0460; 0x613af13112c110aa; 0x7f271f20f22a6062; 0x4b38de530242776f; 0x283062f376734c13; 0x62723a7fea5691da; 0x3ceef89d373b8a49; 0xd35d1a99024f9c5; 0x6769719710f64120; 0x41d128b4e516049e; 0x32621b5396a226bc; 0xa37fb7890f92f45; 0x55e6270b4ad9720e; 0x3275b7e38f70a141; 0x7ee9a34575c157b2; 0x7c9fa6c829857195; 0x7db238b9bdea204b; 0x555a263a6680b162; 0x6cf3ac5663a3191f; 0x19323e51530534bf; 0x6dcab8bf4d6e2b16; 0x523170c825f093bf; 0x7750473d3cc07be5; 0x4cc53150dfad7af0; 0x31af9b8bcc1eb331; 0x7d2cb9f5ada57a5a; 0x3509c3c3e6b7097a; 0x22871ba08ff44357; 0x958510cb136412b; 0x15d73995e71f9c2c; 0x2a556977e210e367; 0x1a1cc62a6656e39b; 0x6a03a5a3a54c4c93; 0x42bd688e0bcd186a; 0x3a0d7567b6c19dd9; 0x3a54865847015ddb; 0x12cd90e1e8e75ccc; 0x69d14d686a059cf5; 0x7a756bb9de12b1f6; 0x7968720972a82259; 0x521cbf5905ff7e7a; 0x3d05e45b89d5986e; 0x271b5dc0512c034c; 0x21b69e62f9260e2a; 0x51a48b3a1df365af; 0x3a6fb9cce964d589; 0x490e0957a339365c; 0xb392ce50d6469f0; 0x5c6f028c7f5c440; 0x61f03200aec7faee; 0x2a7b4823e80d7485; 0x4995620eb5f72219; 0x61d5ae7bbfa219a5; 0x152312318fb4611; 0x2569dcd5f6b647e3; 0x7ecf901a6f684f2f; 0x31d247b73db7ba07; 0x41730446af8b1c2e; 0x44956996996dc250; 0x1b53f3384a703341; 0x60db3227653a4e51; 0x31aa0c7c0230fc66; 0x2320c0bc23b3fd7d; 0x2bc43306279dafb6; 0x61b9fce93177e9d5; 0x6addc287302c6418; 0x2042567399e0e78c; 0x19676fbd19522b9b; 0x39f45726b08ca42b; 0x156eb6bb04a408f6; 0x6c8a935996b32d85; 0x4a9dcc28e6da3a2b; 0x47c7fd6debf5f25c; 0x68bebe546ca6663e; 0x14323b3238e805d0; 0x1a6d12d1fb33918b; 0x447213efb36dcaae; 0x7aa5414ad4535637; 0x7f8474e8e67a71d7; 0x6df395896eb617ec; 0x58901172a01a568; 0x8ca130324b20f4c; 0x7e4d265c57e6e986; 0x61adac17046011b6; 0x6a3673334ebcae14; 0xc8a6e3426d894be; 0xba4cc1044e891c7; 0x17c3d4413e1bd3fe; 0x286f401b3335c7ed; 0x2f456e163e9b8a2; 0x3ea5208ddd370b94; 0x295afc9383840201; 0x6c975e0f83fb7eb4; 0x25f6232334e6701e; 0x1f441e8bfbfb68b0; 0x384c5d42f57fe88c; 0x75098f912ee1a44d; 0x457c1c1100cfa131; 0x39ece649af87e083; 0x3b9d85771337f16b; 0x644bf0b9ae325abf; 0x724031f7804dc034; 0x1de267afe0b1b154; 0xf848599bebf0e94; 0x1633c4338607e610; 0x2021fe966bb366c0; 0xc8bf6059ecb1499; 0x68f847d3f6ae1bdf; 0xf37478b6ad1d16b; 0x4f2f88cc975ecba8; 0x168560b39d2f62ce; 0x554051598f42d533; 0x5967dbc7e2c86489; 0x5f5a297df2f54969; 0x6b87fde9f101655b; 0x4edf18f4a1fe83e; 0x540cae46f934dc11; 0x23b06e850b0e07a3; 0x3f73be4494f6dc0a; 0x474f18af2f63d8c6; 0x414806bdca29088f; 0x4e093216f22e0bbe; 0x642acbf494a7410a; 0x237cbc2f20fe0d43; 0x70ef5bc35a75afa9; 0x4be66989a7c35ca8; 0x72c7bdf9bc31646a; 0x810a440c2e620c5; 0x1db31226397ed2bc; 0x1f0397ba76cc6cbd; 0x5723206e7ef15932; 0x798da788651c0469; 0x179aafaa9478fafd; 0x5e8f4205f09b9008; 0x1823bc901263194; 0x76b19ed3181387a9; 0x3bed9c21f70ef41a; 0x53c93b6e8acc1b54; 0x97e0ff75a45e475; 0xc7076f147c1ceb3; 0x2762c116c43e494c; 0x33345b66180c2493; 0x1d38843fb1bc20ca; 0x5f0c45cb9a5b1262; 0x5d62a98ed82568ff; 0x5b8b19d78b2e14f5; 0x5ac9ca9b28fdabad; 0x6a8c16f8228ffef9; 0x630a7914c2499615; 0x57ea46b3bae139dc; 0x40da76916df3b232; 0x1ba6ba9775992112; 0xef49cdc3199906b; 0x66beaeb09b00c29d; 0x7cfc05fe18499de; 0x19ea921a259e0d87; 0x3d9333134af901e5; 0x5060e9bcdb7db420; 0x3e217ac814a757d8; 0x209afeeddc4ecbf5; 0x7a9fc53de220fa4f; 0x64e5060e7b439f1f; 0x2982edfc064f8cd9; 0x28e1579a3d553cf7; 0x2f7354693688459e; 0x29f7cdb2a36e0bd; 0x797574896d0ee0e4; 0x6a42052ebee9179b; 0x4d24a224e24c6921; 0x101501443cc1040; 0x22888a22a028aa2a; 0x5054405501051410; 0xa8aa88028a0808a; 0x1555545450010404; 0x82a02080a8a2288; 0x1505444150004154; 0x2202008a00820020; 0x14400004504144];
   [0x5ff875173fc2653c; 0x3f657c55ec3fe985; 0x2ea943e310c266c6; 0x58905f933e2499c2; 0x59b9c2e4ef758222; 0x7efbf1f2990b907b; 0x13ab119ae740b9f6; 0x66a55e23a383cbf6; 0x517c27929a619fb7; 0x6cd000a8c21cd97c; 0x56632b0c6d3c366d; 0x50ca986fd4838da; 0x1b9e6522cd28a30c; 0x6a9c145bbba0cea8; 0x1928f103a8dd7f7; 0x3ea06ab67e7d7a56; 0x9b1bba5fb69fd9b; 0x1cd40072ad072115; 0x6036cd8cd607ff9f; 0x53fe4f37615807c7; 0x1a4a7974091fc12c; 0x67eb6a03e509419a; 0x6c4f788d58be7ff1; 0x7acef330806fb5c8; 0x76777a502a24c153; 0x19f0321253cbb9e8; 0x5e6d290367afd94e; 0x7f5650edc11cc383; 0x2ad8bdefcab080cc; 0x147de8326f8104c9; 0x1aae67365df8cf55; 0x61896e899fe3375d; 0x33d053b957144c19; 0x430a7491e87501f2; 0x1e4a4a9892c0ed2d; 0x6f8b420a36b4259e; 0x78916636e4dd9fa7; 0x3f721f59a01cd59e; 0x1603a3639c2dbbcc; 0x47392f85c85f2b52; 0x22f02adddaa5245c; 0x2b9e168bc0e32a4d; 0x17fa8d43d75def99; 0xcf7a4024ab0e59e; 0x1f42af308e02ac91; 0x79819cd0aeda7d06; 0x6742a806fbbf700d; 0x4e3ceb495509b371; 0x4ff40df05ba5f36e; 0x2efbc890e5e8c78b; 0x74c8c847d77a0aa9; 0x49b136329ebaa761; 0x7ed94b0ae35d669; 0x7d9e995688d918f6; 0x4b825c6765a322e; 0x46597006f88e09f3; 0x84b31681ee0694c; 0x3d04049c7c2754d1; 0x601c6cb6aa84d575; 0x77f94ad5bad037db; 0x70190d8e1cb61dc5; 0x5fef40c1fdcdf39d; 0xc561eb8ffd1b9f7; 0x4407e451229d2286; 0x165a210b1353057b; 0x127f47e7461f6302; 0x6da4a7cabe3d1358; 0x62fdc1b0e1a1e3db; 0x646e82154d76b234; 0x1176d20e93ac6057; 0x54043c9f62d877fe; 0x2681c491cf356da5; 0x1b961b5d21556d71; 0x7b2ba25205bd56af; 0x58fb3d83ba636917; 0x611a00ed70032678; 0x2512fdca840dffa; 0x6b773978acf6b47f; 0x200e4ac122c9cfe; 0x23c9fa2f1eb2073e; 0x14609db72dbc0b8; 0x58b149d2d8c6d282; 0x714348d9791fe9e3; 0x282f8945c885a514; 0x3225594b17f7dd13; 0x4efd01e4aedf0f7a; 0x54ab8bf676f5be4e; 0x406d72413fdad847; 0x55ce64bf23aa7c0e; 0x65b7f52e5a5b4ff3; 0x748864ed318bd438; 0x604977d27701b0ae; 0x11b2d663cd0f8c44; 0x4a21727acceddf84; 0x15c1b9ecd975bc10; 0x515221e383144367; 0x4121a8ada12c6c28; 0x466beed450d502a7; 0x74eeba9b4d438737; 0x6f5ccf51d05d0670; 0x6e7296b0a6b5d1a5; 0x7fa8c1af270d8085; 0x526c77d067a57618; 0x6468484b47f17cbd; 0x368bea7d634152cd; 0x634fbc1dfd39b0bd; 0x675d98b483fdbc68; 0x2c0d63883e1f2de8; 0x71ac7f3795c0de0; 0x6885f0ce0dcef68d; 0x65ff2ff899cc88df; 0x2750e5c101b04036; 0x27ce422960d12f25; 0x38b5364c09743828; 0x10e88b52b3c6e5a7; 0xdee63dd586a63f7; 0xee59981fce11820; 0x12b2e9f66bb6357; 0x3f71d09993433b5d; 0x7b2e76ca91e246c0; 0x2fa52f457ac6f81d; 0x19c73c634a0ac1aa; 0x764e6f2a1eae53b1; 0x1c5de6d1be31d71d; 0x5983e9aeca219ab; 0x4d20fe0ea85683d0; 0x1924644b16002fe8; 0x6d5bf1f98dd60261; 0x7fbc241ae8ec4921; 0x44a63024a2a3f32e; 0x482a3d946b50bdae; 0x54fbfb8ea50396dc; 0x1fc8e875da22a61; 0x742880af31bdc0cb; 0x10e4d8a7b70122e; 0x5d6ed5e98d6df08b; 0x55464486a40f5cd7; 0x63ee23c1c48a10f1; 0x70d8294de73fd91e; 0x75bdf0ff0f9af55; 0x5d8f0778ad2b2069; 0x6411fb94cbfb5858; 0xf0c99aa1d07eb58; 0x79b7fca208096158; 0x4ac3442ffed0831c; 0x61e316a2991a5acb; 0x7bbcc47695f88b7b; 0x17c5e612b7f13bd; 0x5287b3ba8c20ef0e; 0x5aa08534271e744c; 0x7845e3e80b8c73d1; 0x6e565b9f56bb735; 0x182d2763770a488d; 0x46ef8393827fdf4a; 0x7907b402c80edae4; 0x294bc3682a97cfb9; 0x3daaf5ea5b58c95e; 0x6d508a39e60632f4; 0x17bc5b9e93abdf8d; 0x1c644eb5ff23ee4; 0x6243deab3b837aef; 0x160324c15abeb66; 0x74c5d9deaae740b; 0x125d69b1b7a0f1ad; 0x25e8b625dd533be6; 0x4e2218983e4b5016; 0x685272385756553; 0x15e995f3c4cd022a; 0x7cf2c8b1f8c50802; 0x11c44938e0d8d9a8; 0x21c149711584fffa; 0x1e7ddeb70e503db7; 0x203ef131b0462853; 0x2f4ba5fbb59fddf8; 0x5db1a57d44335fd4; 0x19947b3cd642da84; 0x3b39891295bee5ba; 0x75ef8c9a9251a416; 0x607d6283dba85c12; 0x2fec6d9ae8999e65; 0x4d685b401b078909; 0x13160d254eceabe4; 0x3f4f5c4c442a4243; 0x783fa21e14f896b0; 0xd6f411ae8e6f212; 0x602fdb0ec5436995; 0xed272f826320a5e; 0xb245c8c36362323; 0x45cf4d4e16c59de; 0x6b29cdd0644de7ab; 0x3d5c87c8d1162a34; 0x342d1e511e2a18d8; 0x6259fe392c96d7da; 0x143b7146b3ca3cff; 0x40683fa0403ac40e; 0x43eee28e26499774; 0x5af771a0743065ad; 0x18a5cbd142a31890; 0x3183376f93b1891; 0x4778bde78c88510c; 0x5273bf075d25827f; 0x6a41153ceaeab9d2; 0x6244e379e89a4ac5; 0x282201019de9257a; 0x785f08820f74ce85; 0x640e479e23b91d17; 0x99e640cf2ca1ee9; 0x278704ee8420184e; 0x373cb1aa04f8c994; 0x36a0773c979c3660; 0x70633010c421e0ff; 0x52b8c20f1c82733e; 0x1aa2abcfaa0dd555; 0x34037d3ebd303eb9; 0x79e5b43f514ee854; 0x2028dd7c2a7a8aac; 0x24ec9989fab1f0c7; 0x6ff87bce11da4eeb; 0x6c5eb9017b1cef34; 0x87289a3d5263c0e; 0xf0dad9cb49032c3; 0x54834d3839de7b3f; 0x3992129a3cb5c81f; 0x650b4ca3651356e; 0x6ae397e20b47fb5a; 0x39c753333808e7b6; 0x1d4dc361f0e3d4ee; 0x304ef863730d7a6d; 0x73b1012329026b13; 0x6239506dcc07f1d4; 0x361e2cf9307dd1ba; 0x3b60774865842633; 0x5a48af2966dbc152; 0x733895608b1f4b1b; 0x7b3883d7d60f50a1; 0x2c2fc9a998b4185c; 0x4158ae5c70220bfb; 0x776350035f3996bb; 0x2fdb52db0a6b515d; 0x938334825f44cc3; 0x785462baf3c5997c; 0x755408c88dad181c; 0x68bf65717f6eade6; 0x649f34ccd2d1b6aa; 0x44d39c1e5fe17231; 0x7301e5eaeb595e8; 0x7eef55fab45c4c68; 0x3bb4dcc4acff9a43; 0x2cf7796a0de4a33d; 0x2b91a6a882f1e631; 0x7690caf2ac728059; 0x4bca9cfc3054b986; 0x3e5b7323bd5eea11; 0x1621d5baa5de4a1; 0x48fbc48c25d102b8; 0x4d3111741aa1ebb6; 0x5211f8d3c52a5bf0; 0x1b6d8e36e1bab226; 0x5e8c18babe9cd89b; 0x5665cd9eed4ececf; 0x550f3726717b75fb; 0x7e62132e38145c4c; 0x5382fcf5b5c6ff55; 0x651e40c6fa1111f0; 0x58b2ad219f17ebdb; 0x18598909c1b7dda5; 0x75ae28418c1ad8b3; 0x50ab142261b2dadb; 0x57aa7dd9d9f6dcba; 0x65af856c4827ff8b; 0x5609b68f918dc652; 0x6c9a45f38bcc5bd3; 0xc7e1b3a2c6c4fd1; 0x35c7679b71b4a87c; 0x21fb49d7b0ae9da9; 0x3490e9fbb641028a; 0x62f19aa4403f298a; 0x5b4ad958bb055565; 0x34ec32d5305988b5; 0x5e3b9d04b9a68dd0; 0x9d20680003de15; 0x68ea4cc652f350b2; 0x1d74f0a1c96383bc; 0x278cd576510910; 0x1a3fa5fae301d9a2; 0xc4245f29d852956; 0x6c46d1d1d416ef92; 0x2ba0cedf2ada4d03; 0x4b488806aa06aa43; 0x72de8789a833cb8c; 0x38ef30fd9aa5ae0d; 0x15aee43572c8c68c; 0x30a74235ddf969ed; 0x62764d93fbf51ac0; 0x3b7498eb5d16088c; 0x296f327e3ee50ddc; 0x63ccb4d8f779ed7f; 0x4368cd38e4802b8c; 0x2a50576125a07d69; 0x2cb4713665b63fd8; 0x5d98a5ae966a36ef; 0x3d930f67f1d609b0; 0xc69ef34e45c095a; 0x283bcd367d143ccf; 0x74639a8378670bb0; 0x7f7dacf08e0bd66a; 0x59ae3339ce761190; 0x50bb305d0d26365b; 0x1010150537939b3b; 0x820a0a828000a8a; 0x5110455141444005; 0xaa2a0202a2a228; 0x141040510500055; 0x288802a00a222820; 0x4040500454151514; 0xaa288aa8aaa0828; 0x114145155010044];
   [0x26c32a09edb3ee9d; 0x55fd0d0542af90a8; 0xf6e6fe3a936d10e; 0x34eecc3cb0a47ff0; 0x425a6b29ba4b2d2d; 0x2a6f061e1f512281; 0x2bfe7bd3df38faaa; 0x6fb651ee0a50d3d8; 0x7613c72c045dba25; 0x47264d41b1bd826e; 0x616fcd652bec4ec3; 0x39dc07baab02a15c; 0x54b52b5d8c0e40ec; 0x6337ba0980fce6df; 0x775ce41ba54c3bc; 0x42363832ab56310a; 0x6978f6b131bebf08; 0x3d9fb57dea1dc56e; 0x61ca6e53790ef7a1; 0x63facc824e19d217; 0x265a8c4af862b0c5; 0x4316690d126a3944; 0xca9f8b56c08cbaf; 0x53f97a0032586dd7; 0x2bdcf67cde71d332; 0x56ba6b7778f544; 0x3916fc0fedc8a106; 0x9b10e8644eba90f; 0x77d5497737f6898a; 0x4325cb37f8ff5980; 0x4af1b2bb83c97ead; 0x1bd442ebbab0d0f3; 0xf14d068c7b4a3df; 0x4de46bf81b80285f; 0x1857d6d449bbd4aa; 0x7e65436f926b191a; 0x24109600689b88b4; 0x694b5f8f4bde55bc; 0x4a4b0dc81902ec2c; 0x28d8bbbc5740528e; 0x4bc2963083457d8f; 0x7a8c90529e8ac1d0; 0x381491ae7772687d; 0x6de3454a12250d; 0x32cb673d92cfd2c8; 0x240e1b0a615d2c58; 0x4b7c7ecd66f6128f; 0x4990f2c373cfd92e; 0x68ac5d2b263d7bea; 0x541060f8757ff410; 0x3a29643bdfbf8c62; 0x46364e4fc77ea95d; 0x65682703099cc8a7; 0x237a267ac45729f0; 0x62b57af5c5998fce; 0xe0cd6b103d5d67b; 0x2d714d07008f5881; 0x777b9cf6b40b2726; 0x5ffcb54f18cb3ec1; 0x1427de7a4253a6c; 0x486d4ad27dcbfc53; 0x7b035bb3e553a211; 0x772c14a9e03431a1; 0x13f38e40e6d2bf02; 0x45d2517ebde2019d; 0x79a96ef48c9efb12; 0xd7e04e79bb041a5; 0x498f3eae37e4548f; 0x71e39320b780a04f; 0x147d9c61d3eb83bf; 0x73ae054e1205e60a; 0x6e1c4ef8bded88f0; 0x3f11e17a70a15817; 0x4171b204838beff9; 0x4dea1b6ed8bc0c67; 0x484208f0024219e; 0x425bc25f6b47352; 0x57291e36310aa949; 0x5224b468123b0b32; 0x113ce86ab8c4a163; 0x2ab65e3b74cc79cf; 0x78d092f2b1680e71; 0x6b30d1842cba5d1b; 0x2847822a9a5e1695; 0x25680817c0f3cbda; 0x2910d689b988d655; 0x23203656ab6d7a40; 0x540b62e736487fe5; 0xa0522801e065f7f; 0x2432695b3b008729; 0x7ba57f65970eeae8; 0x2aeb15be29a9dba0; 0x5382bb247a1a2f73; 0x5fafcc89059d3512; 0x193a7424e4e0d1e0; 0x328d88bb579e16c6; 0x3c61b8f23a85dfde; 0x1401721684c6191a; 0x669ce8b4b777f5ef; 0x1c1155c030f0681; 0x1bfdf384c8679850; 0xc95be71c5d35cfc; 0x5f6571eb77b0aa25; 0x3910033901cf3a76; 0xfb62e7d5bea84ac; 0x4985bc872d7a0b; 0xbacf96d2caffc4; 0x1402ba479bcbadc7; 0x76d76cd42b310586; 0x4c7bef64157c43ef; 0x6743db3e29b3e9b2; 0x65bb09ea25a8cac0; 0x2299935c2e4d6bf7; 0x7558b6a619e59ce5; 0x677bf8cefcf0ab6c; 0x1c26e4973d2e01b3; 0x36727997e226c273; 0x50fec3bf349531d4; 0x7225817b80813a2d; 0x767fb70dd996cef9; 0x12eee6ab749f537a; 0x6975d1594d76c2fc; 0x1bd606390cfe23cb; 0xf35898f6bd9fdf6; 0x446073dea17e5c5f; 0x549a80255dba2004; 0x163c844da29bcf57; 0x67224652c61addbc; 0x26cc0f4c5694c1b1; 0x29078b0030ae3a2a; 0x409b480fd5e5ccd4; 0x30adb648788c416; 0x7866c94ef6ecbb92; 0x44f56edefd25fbf5; 0x6acf5fc5a2741ec5; 0x2d14a4bd9f02fc7e; 0x4fe97df31f42b24c; 0x154153aa995e89ef; 0x2b1d9bfa46c40b06; 0x6bedb40b56a5b06; 0x429129301d9e44b9; 0x1482d0925c04eff; 0x45c5cdda52ff5ead; 0x2cd9067f8d37e5f4; 0x469d33f96d350259; 0x3af968470ed31eab; 0x6fcb8628e3d15c21; 0x471e16a9af5c686e; 0x24376debf5747670; 0x50ef74669b970f5a; 0x6786d5f8b5c41e2e; 0x6f09aa2447fa94d1; 0x7b600834c0818b71; 0x413239d9a8557d26; 0x1f4e10491c13fd0f; 0x6284ad3985e38783; 0x33c22d11fe8fc04e; 0x3b79e6f333c19c9f; 0x2c958cddc2b512d6; 0x76f19a2d94493945; 0x2e4919fd7eb5c244; 0x1e59cac78619a0a7; 0x76b2c9cc79a49ebf; 0x696e1bdaef1f8e56; 0x167394f79c7e51d5; 0x12c312d76897b4f6; 0x312ef8a27942f5cd; 0x1fb170d14db49d55; 0x1cf8ef1a1449a1f4; 0x4ec449bcf3dd46ba; 0x7695471f8ad6b2dc; 0x63ff3c7941f1691f; 0x460612bb9e206116; 0x3faa25d21ba3543c; 0x57ee8a9acebee2da; 0x19060a18b30c8bde; 0x509a899cee0daa4a; 0xbe7b4195377cf03; 0x78df13e3b2260c29; 0x27a2aa8e334564b5; 0xadec6bfaa92ffdd; 0x53c1ac7dfe7daad1; 0x451af37a7539673b; 0x17627e3348ef790d; 0x76598fe0e4dcb87e; 0x29f8f96c90ce8ee7; 0x798e38dcd304f1d2; 0x4ce7241ae3a272a0; 0x4e6cc7abdbd8119e; 0x13cc2c2bd8e6af32; 0x3d52b24bf254212b; 0x6034205752541795; 0x46b6399d8e2f7c6a; 0xd5ce68fd1f979be; 0x4dc36a92270d9d98; 0x5b90a0df7a318f11; 0x4d507e159de693ce; 0x27197d0904f468f; 0xb9ee1653bd3efe6; 0x4b13045ca6bc27eb; 0x7f5575aaf2244da1; 0x3af3eae0e0ad0c3d; 0x35391b84ca43cddc; 0x71d40dc913725a27; 0x3769d25b86866907; 0x24068c195c790017; 0x3a3573cb88bb6315; 0x6308bc91490ad8f6; 0x40048a0b52d03ecd; 0x2ed117aa264efca; 0x249656a635c89612; 0x56cca5e93ed4b52a; 0x26a36922c070050b; 0x6f0854adbe9c95a9; 0x796f048dc487609; 0x399e200e46c9bf90; 0x498953a9f1cdf01b; 0x70948ba9d16ce35b; 0x6fbddb217adc3662; 0x11fa4c58571302bd; 0x2b768fd4da8a744f; 0x478c1920fe5c1d31; 0x3c2371828331663; 0x25f515e5a8803626; 0x2f9a5ff4f9d3e1be; 0x4781ac25f2134eea; 0x5803da95dc2f4e98; 0x1e5ab859b977bd30; 0x5bfa1ada25b1833e; 0x18613c9ba214a917; 0x73650cc7729ef9ef; 0x279af268c5374df0; 0x524f3a8e23f3aa9d; 0x533f1478fe90d70; 0x3092b292c6d93996; 0x5b3e2cd38c896277; 0x623c5547e40fbf15; 0x7aeeee8bbdb1bfc5; 0x6813e22b05b4b017; 0x2ff62f0292102c17; 0x73a39568fd1d8f17; 0x40a959728055c8f6; 0x2de8b44cff87fac2; 0x43a5ce3df16577af; 0x54817c186a73afe4; 0x41d50db2ea63f288; 0x1e9932b011a8f44d; 0x219c0d22a0d2f943; 0x2afe60546cc31b20; 0x37c27ff9b2dfa5cd; 0x14dffff10f74dab2; 0x1f7bbe4e1ea98729; 0x3920c588eb852ab3; 0x2621746b8fc2f437; 0x326939aa97f7f888; 0x39b710db5f04bbd; 0x1501e0b7c9136c09; 0x2017127d6118f453; 0x3c87b352cb72aef5; 0x7ac60df5990360f2; 0x1ccc44098e0e693f; 0x3d6acf6705dc2f53; 0x5025400fd03711d5; 0x3d5662e73a668e73; 0x75038b96bffd772; 0x2aec2150171b3486; 0x5cc416ba79d0e151; 0x3ed9ca4ff1c20a50; 0x5dcd09e69f30bbcc; 0x46570a2a1f636319; 0x26bcd289cf619000; 0x7fde0a672fa34646; 0x1b858d3d7d25ecb3; 0x7917d9209752dd58; 0x4c34cd7989fb9db5; 0x13a988b16ca9710a; 0x2b2bbd1dc3071428; 0x55e35016b2dff463; 0x19513add68a0dd61; 0x7a02e71487dcf2ae; 0x230a3128ba67a201; 0x32ca95a0596e5185; 0x7f0d5651427d2594; 0x77a081bb8c814a24; 0x2159c5152a1fcf94; 0x4a8ea68489c6d4a8; 0x793d4a5d9c2749ef; 0x607f2bcd4b284403; 0x2b557cebea465b29; 0x6113448400aa4681; 0x468fb96a4221d0c0; 0x58429ed4eb9c58c; 0x1517cd8837da4032; 0x19a5a018b09186d6; 0x4ef2ddd59354d61a; 0x34d0db1eb6b06271; 0x32d68fa2065c2e17; 0x3cd9ffdbaa011ba; 0x721456e0c639f84d; 0x52fb56f4704efd4b; 0x14623730dcbe8e56; 0x2f56a888473a2f0; 0x161db202ba201f91; 0x48336d96dc77ffb2; 0x59f3eca93396dc14; 0x51d11d8bc4bc98a2; 0x693341490fc2e7ed; 0x12fe76341b2c7ba1; 0x14001a5d8a39a; 0x20020802a8a22280; 0x551455145055001; 0x2aaa0a00820a0222; 0x1400551001140404; 0xa0a8a2828222002; 0x5100455004105051; 0x82aaaa0a2aaa20a; 0x504451451051505];
   [0x7c3fa401071ff2b0; 0x3bfcaa0e53a13b97; 0x7e6893939d7ce6ef; 0x3328248de186e202; 0x3067bee5f6e57db5; 0x7968ea5b2d7a0b1f; 0x1ceb3e577ddcc488; 0x43284e2760a1e0f; 0x24a48111290f37f9; 0x11e86cb7a8b294e3; 0x44b20022a31fd5f9; 0x7d7c7ce66e7efa86; 0x5cf74df2ce45e1ab; 0x7a4aceb884751593; 0x27f1cc7786f015c1; 0x730461542a2cba49; 0x249f7c0671d03721; 0x547839ead2fb3994; 0x5bec3c4fa97c3582; 0x686758120f69b63b; 0x79897bde9adb9270; 0x7013e44208c29a4d; 0x4d1bdd8524477640; 0x632250e5795add4f; 0xffbc63977aa9255; 0x527d832ef38d5119; 0x6b88c18697be6c5; 0x3c7a752650b1ea56; 0x7fe9668a970eea3b; 0x51848e348992b710; 0x7be12f7d53f079e9; 0x7c4154b4343951a2; 0x63d42fd48d713c21; 0x795c07a898c4ee5b; 0x29d72aa9cd22eb09; 0x547ad1efe99d3190; 0x20ee2dd9b8fe1e18; 0x5f04f90e9ef872b0; 0x28fc26286926de75; 0x1403611be981331c; 0x46a5a0c830110877; 0x283b9b648cc534cd; 0x541697ef1885407; 0x6d65d811dcbfea0e; 0x1dfb88f50b4f9089; 0x77f3bb2713c83ef8; 0x23e7edcb7632d048; 0x1a244b70a9d8ed7a; 0x6fd2a5521a08fe57; 0x10c3324abf510ae5; 0x65258bb2db788eaa; 0x7472b598159f249a; 0x168f4382a0841fb1; 0x7c363185a748f3a8; 0x141251ba067d7ab8; 0x5b36499acd9cd108; 0x98c1757e71d9c6c; 0x519bcc1ec3bed3b5; 0x283d2e3e175326a6; 0x6adbc336cc6a4c28; 0x2ad71ed9dc199f4c; 0x3ae24558483c3a65; 0x715fc06e1893cb9e; 0x772c12e3fa2ca26b; 0x3c3f1947e218d4b4; 0x3b4c473db3224af4; 0x4049e444147b8610; 0x7a399e059780e657; 0x75c844deb25c8491; 0x68016797ba26eb57; 0x4ef5dd7d102caa1f; 0xf2f424dd63c773f; 0x2953553a0d313786; 0x361e4dacc5f6585b; 0x66994f096eb7096f; 0x6f4d66a4263c4bf7; 0x6d1ae3233f29bc33; 0x5e38ba67e61a8e60; 0x27f313c4343ce144; 0x3811e09b621993f; 0x7603159be4342092; 0x73a944ec3d4cfc35; 0x9b0085974eebe46; 0xed91a6385171be5; 0x7400de8145425349; 0x4db08360d190f5cb; 0x30db7dbe94d9d111; 0x47eb4fdff1cf89a5; 0xbb346b426e55a77; 0x63fe202b3d774125; 0x3da65ee5f21e305b; 0x1ccbe76fe297e7a0; 0x14cefaf4ade63674; 0x65a18887aa24a52d; 0x7508bdd1d44c9e8b; 0x5620acf6e961cedc; 0x693d18b0b321d192; 0x693646cd71137c21; 0x3e1502a2ae6aa4a0; 0x71f34a2c1d919c34; 0x1e0fc30c80166eaf; 0x24c80f0965459d95; 0x360d616d36236749; 0x5815e262b4123db3; 0x1ee5d0e6bf8a696e; 0x1978d3ff633896f4; 0x355a9198d42ca827; 0x2117854e72150ac; 0x6d79d87ae02ac4a0; 0x728cba191eb7261c; 0x3ab9741599eb13e3; 0x5daf708a3d747ccc; 0x58654b0a6dcfe1c5; 0x4cbc22566c1e63c7; 0x1ca778e766de078c; 0x361ddecfbdc19350; 0x54538f8c3d1cc10a; 0x4a53e5aa1088a909; 0x104d67328e2d93b; 0x7756846a41fa0dd3; 0x4420fb84dc4f2cc4; 0x181e42c7d7912a42; 0x17c8ae0068ec0468; 0x64497a1148dab294; 0x580a010f934e8627; 0x38d7e82165701036; 0x2298fa9d54b930f1; 0x4c920f5432953cfc; 0x3948260d7fdf5985; 0x71aa27166fb6a591; 0x57f82e2e54ffb263; 0x63d608d560361e0d; 0x82111b19ec0d00d; 0x7bd2aa4639084576; 0x537836b773e06df5; 0x5a8c7b2c7c4bbf1f; 0x2d85dc2b245dfdc8; 0x63807f74d8ee86f8; 0x7a1e5a7e552ab4ae; 0x1fb31b28b0c94647; 0x6a0ecb4240510ab8; 0x7c347227490a31b7; 0x5ba619766668efab; 0x3100839e85091ecd; 0x249bd412c2899238; 0x452dd164bd985bc7; 0x4ddbfbeca78dbf87; 0x61c26ce1fcc3967e; 0x1df3863cdec5819c; 0x2880343472325fd8; 0x4a90af3dda1153a6; 0x4dd84cd010361c18; 0x44ec6f4f2bbb1d22; 0x563867c03743d168; 0x6051aad424a15f5f; 0x6cd7b10358404199; 0x4a354d7badc929cb; 0x86cbd3c04225837; 0x2f765118a4e7d7a0; 0x3854674abee2fa07; 0x1c5be5168b9cfd6; 0x30783e247f9698a9; 0x54e54a0bb9f9f871; 0x234049c17ad6e1ba; 0x3c0b53f7c5f15ab7; 0x68ba6b5c3fd875ba; 0x37915656c9cec980; 0x53bb515d792d592d; 0x9b4df50b791d9fb; 0x2c00b2d6ab0a471f; 0x71ecde5e238503ea; 0x26b0f261a8b7dbb3; 0x32ff8a7a8dd0cf99; 0x3c7429f0699722be; 0x7b0a21ba96a37a95; 0x12f82996d74c1b74; 0x5a918cb4a80d17d7; 0x6af5c869591ff714; 0x182f8139d6369906; 0x30c0df47a921b285; 0x715a6814d85ec9a9; 0x3ae49621cb91ee51; 0x30b97246ee3de298; 0xfbebd8165b22182; 0x7c2e3090feb0ac47; 0x38c125bbf5ea4d6f; 0x4ff19c9ed94b54be; 0x17527d8c5508ac8c; 0x75aa69fbe9992398; 0x498139eca2105207; 0x482e3ec253d0b5a; 0x3045c53cfa1c920; 0x4e73669a6710cb38; 0x74f7efd0ff3c4bc5; 0x76bc7bdd12af34b0; 0x1bc62f595fca3316; 0xa564deda21f1818; 0x59de685fb8b4717b; 0x1c6d9136636449c; 0x1647cd16e4117f53; 0x7e39328415be96e4; 0x29234868d8df7d40; 0x37bd7e649695ae68; 0x497b18be8e1ec1d6; 0x4cef3386db390d92; 0x203e3567f0cff40c; 0x51361b10aa8e03b7; 0x5d36813a894213c6; 0x70adf1ec37ade6bf; 0x4445d80a655b30f6; 0x71fa730d1e912544; 0x62ddbc5871a78e52; 0x5a7fc18d11c04697; 0x737bbb69fc661a65; 0x755a158fef6cc479; 0x570304596a78b4a9; 0x3338e79b44f1d8fa; 0x4542312d1e134d38; 0x7b1a873c1db7a9aa; 0x73271eb17a7b7986; 0x5f80135d96ff2a8f; 0x7f10eb7e14841e0f; 0x768d427df662c1da; 0x72ac5b803f71b813; 0x33a46eed2cb66da; 0x7f063b0ad3cc584e; 0x72d25434860bb31f; 0x619d6640c8665136; 0x714e2a7e54cd8c86; 0x78e942b72a2388b9; 0x259134de98a42bdf; 0xb4fa7bfec7fbd8e; 0x230bf9eda00921a9; 0x31f6d161904bb530; 0x625e5b53e9e8fbc0; 0x18b4960aaa2826f0; 0x2bfb842ea14380c1; 0x222205a3bb8e9fe3; 0x6cf0aa27d78b77f7; 0x72d6bd52f220a1e1; 0x73c4153a7109b7b1; 0x5ba1a0faf5e996e0; 0x39e2120ada9e3ab2; 0x44df20b5383d29ac; 0x54463844662e61e0; 0x7e8186b395535186; 0x2d5f0b44cfac389e; 0x55c6c40d7b843525; 0x49b03176189da3c7; 0x3a039e0b43e3938; 0xf682edb9a7cba64; 0x262db60947fba498; 0x181353e9b67db01f; 0x655a516263585dc2; 0x58f39335fffda7cd; 0x7f1fec7cbea0d85f; 0x104322aac2d8e1f3; 0x6f9fc25979af4480; 0x72b77de7163d42ae; 0x546ecace8947bb51; 0x78dc853e068c4865; 0x6b6ab7ae7b3b974e; 0x7a6823707a39a0f5; 0x79a7fada7e4af6ae; 0x39dfd1cbd9724e31; 0x7fc05947ffe615c7; 0x1689f64aec4568c3; 0x52135064583e6424; 0x4ff44a9b269f0b64; 0x6938f71b5cc9b2d3; 0x1c197cd8efd7e946; 0x58d9721a9293d554; 0x23db9d9537da449f; 0x2c926e262d380429; 0x5c78c672c9765941; 0x439ecc516ccc2e1d; 0x1b3aea510f600451; 0x12a65360fb62f89d; 0x2c910511d11a3ae5; 0x7001fedf900b2a33; 0x70f3b9b8ff910215; 0x10c87eaad4ecb86d; 0x2eb04bb4f3931297; 0x718f6512567dd6ae; 0x7f577d0cd0014722; 0x273cdb28556c1a05; 0x52e1295ce86681a4; 0x62ad2aa8ad256ccb; 0x1e1c785ca0250c9; 0x2241c677e5aaddaa; 0x4477f0b0ef4fa090; 0x6717734b94c682ee; 0x2f50a8dc381ec6b1; 0x49b9cce30ad2bf31; 0x2d6d1cbb497fc2f0; 0x576635e2b51af3a4; 0x43577da91169ae12; 0x8e562165bdf06a0; 0x3aeaec6da985591b; 0x7daf8ffb1a79cc56; 0x14c1043c1539ced8; 0x205cbdee5efac105; 0x96d7a873cc1116c; 0x18d83bcc39c2a571; 0x2621ee622b5e983b; 0x1dd5e31079029a33; 0x312dbe17367ca355; 0x443d7605a1d4b814; 0x114104105d46e8d8; 0xa22202a82028820; 0x5000455011451000; 0x2a0082a8a8a28a88; 0x1500001445554144; 0x2aa080808202080; 0x414410155410510; 0x228828a280aa820; 0x40154444415141];
   [0x3732832b58c30d3c; 0x50647e3cceb5b2e5; 0x8011f554904f41b; 0x611c53c9903057a1; 0x40521cae46701a81; 0x557f63c0afe4ba39; 0x38a7081786d4b1b2; 0x3f85b7736adebd2b; 0x581d8922a66caeb7; 0x53ef56d6c3ea4e8c; 0x3c119b90abfe5a82; 0x17dd4f7f368dec3a; 0x5cc5c8ad894e0326; 0x2457ee0f4feb9dc2; 0x4c3884735e6b8bea; 0x2626f49af9641334; 0x47d66c749a71e072; 0x56b567ab27aad8a4; 0x6b8137a57802354a; 0x5ada3ce7b22de4e4; 0x6a951b18eeb82875; 0x6ab6fece9cd85240; 0xf682698d681ea18; 0x80f79b743a13b2d; 0x6bff111ff4272f7c; 0x594b89f39dc269; 0x3affbcd1c39457a6; 0x66e0cdddf77bc979; 0x21b56befe6c79c75; 0x40cf81e6c0d53ca6; 0x305f800acc7634df; 0x2c11f4f9894f1ce4; 0x53525ac102462319; 0x588ad6a471bce624; 0x2db091d11fbf7ec9; 0x4e928f93ea970817; 0x198300c81c3785bc; 0x4680b683ffe32bff; 0x298892e8443f2df3; 0x11a746be58d2cc05; 0x5f0a8466cbab0a9; 0x4901ad4b663b598; 0x182d2a2964edbdb0; 0x57c19726e66eea12; 0x677e49899448e5d1; 0x6347ae91aaccb8c9; 0x5e40a88b6a88d04; 0xbfded822ba423a4; 0x62e8cff22cf103d7; 0x7b78cf4172d1d3ff; 0x7ac81c15f4aebee5; 0x2bdc2bf9a40bfd85; 0x31c8f0624f3ae952; 0x5810ba2f395953b4; 0x57a7643f8693cd6b; 0x27b0fb29fad458d8; 0x7a82f51b852f3c8d; 0x1e3888c7e93ddd09; 0x490e5c9aa7ae093a; 0x6542a848e38890cf; 0x6f2db949d83b6c7a; 0xc3d5d1435d66983; 0x228a3699355f5cf3; 0x4b2a6054b6ac98be; 0x75dc8b49555adf2; 0xd7bb5eea6f9c72; 0x4287b079ec940f31; 0x760cb878fa95711d; 0x32f205783a40ffe4; 0x234825f526321954; 0x148b09438ee4a3d0; 0x24a4ac0add47009f; 0x26ba753f7a32cb64; 0x47f7a935b27248e5; 0x2edb02eafdcdfbc8; 0x3c0357b0ca5e726; 0x324dd9a9654dbb8f; 0x15e43aa8cc70160; 0x33148c9641f26a09; 0x50e1e1936e1da365; 0x715505cf55af21e8; 0x24b86c353b2cf759; 0x4ee1b1f21bc17f4c; 0x7a77a76698646633; 0x6da94d1bfcf24ca1; 0x820bf35d0c8770f; 0x711401b9b2acbb61; 0x3448535f7ff2ef46; 0x5b4f2b5f0555898d; 0x7252d0fa17f3fc4f; 0x6be49330978d3414; 0x6350405a5b3b083b; 0x2648920241ecefae; 0x5c17a025c33f4cff; 0x4860b7f09856e2df; 0x26198c3b503319e0; 0x3aa06ccc64e401d7; 0x750424fc0ff388f8; 0x32c09d5900900301; 0x2cfde4c278327e1a; 0x49be153bcb2f9ea7; 0x732054cb5c9be6d7; 0x1a021b30eb0b7e12; 0x3098bd42de71d08b; 0x2a81c18de16d05cd; 0xcf8935a6fe14dc3; 0x551ad1804acd8fe8; 0x70ed411da9b44bc; 0x46411da7d2248a9c; 0x546c75db015c1884; 0x33020334293f6a21; 0xd2493e109257cf2; 0x4fc505981660fd87; 0x5cf5890bf335cbfc; 0x3dbe6d574f8f51e6; 0x34cc81a5ccd51e67; 0x6ed503ddaa705f40; 0x2880a5c4a2286c05; 0xdb755af557f92d0; 0x2c02cbf0d84bf06a; 0x37cda4484813aa21; 0x673568f481efbbec; 0x398ac2e7561a8b67; 0xdef6242afb96392; 0x2f34d96a173d7303; 0x2ed9ff8cb3692cd1; 0x227dc147542607d9; 0x9fcc894a51eb1c0; 0x3860a75d85abf20; 0x5b657fb73e14fdfe; 0xe6170a519ff30b6; 0x45a11319e7170b12; 0x4a71ec2a2bd7f402; 0x1f6b09980aa9f4c0; 0x14870d02c0f7f985; 0x77317cf2c269d9e2; 0x3b99b585c53b5ae; 0x23dca58a565f88be; 0x1b70fe29191b7f4a; 0x10262e2284453438; 0x6d0d762f31436d01; 0x7ad26324b5ace846; 0x3123bbacc7ff33ef; 0xc73ed5ce11a2a19; 0x390519071ed84f51; 0x663a7677643b03e9; 0x299bf531b9e402ba; 0x2dc351c66bbd7b80; 0x59ae04625d159d7a; 0x6d7f7648e2035979; 0x6e71c93b4eb1c851; 0x18f83151c63eac3d; 0x1618db89c3e9c696; 0x5ff0392ff0625ee0; 0x239e24d2d83b2f08; 0x765d22e876d870b3; 0x4ac18382645f5564; 0x7317c25e0abcdd3c; 0x36b73f32f725c289; 0x6a028c3f429b2bfd; 0x6d6f15900902b5cf; 0x406bf9e036815de0; 0x3b081d153c2518f1; 0x3581a0d35082902a; 0x414fc13d074796e1; 0x7b7065d138f2c173; 0x693c07d4e63389b5; 0x13b32edf6cbda8fa; 0xc576e60947be032; 0x1c0a79881e853d97; 0x5b2c23f91102d510; 0x27fe9a2efd71db1c; 0x7d7d7edd4b1c33b; 0x373b73e8cfe74243; 0x4405a654f85ad3ba; 0x68a34a1a18795af7; 0x765d83632c969929; 0x3f7f7986c79a68de; 0x3c8a080e120ffa38; 0x4df5bc0afe64396a; 0x4529a36d9b778a95; 0x7e0b088fae941a28; 0x597c85661a5cefa6; 0x63e9206da78a44cc; 0xf9fef51fd7b25f4; 0x4920746fb48579ac; 0x61ed1b095a92d71d; 0x26875035ac4ff54e; 0x6f9fa64df8f3c534; 0x13030b39bdab4117; 0x57a3eaf64790583d; 0x2f0e7a15c65ce8f0; 0x7184ecce60963dbb; 0x255b9fb21c5a29df; 0x38a9045a6a90f604; 0x79a60f273d63b567; 0x55542e76c4e58c7f; 0x5f2689f44220f1e5; 0x3478c14df52dd808; 0x2f3891c382e0a5a2; 0x7f1c53ec42138267; 0x23fc32c8db7d1444; 0x6b3bf8983cd09c6d; 0x5837caf0fbc4af69; 0x45f3703fdeeee7c9; 0x57c746e48e22f463; 0xa579a69d83e1d4b; 0x38172f0f497af60d; 0x359bc732e0d7526a; 0x5d9da03b01edcb10; 0x2d6c1920d4aed270; 0x3a1d782de23b66d8; 0x43c45991188833db; 0x5b3c604fa280ece1; 0x4744b2202f4fa61f; 0x3b04461d7c4ae17a; 0x21bc6343d8b2f08a; 0x4bf51509c7d2e8fb; 0x3bfea05652321586; 0x39153be06180fe39; 0x4ffc441e7efbc7e0; 0x5034aba2c4f0829e; 0x2750248c1741a70e; 0x7ae9bde1c7cd5702; 0x64c52d7abe7e6fe8; 0x1b91e44338615ef1; 0xd4197b9dce06273; 0x293eb4fe79745442; 0x44f3efdef787b882; 0x38a8d3913df1c4d2; 0x108eeca14bc02c; 0x367e35e85bb68629; 0x4f897d85b9bb80e5; 0x441cd547d9270d12; 0x3e2a5608fa9e256e; 0x164fcf6f36a6b3ff; 0xb3b136e8303b7be; 0x5c27fa6163301613; 0xdb0f8b40e5e8649; 0x6c788538de3d35e1; 0xc8544efbd43f0a1; 0x6522bf03d89f4256; 0x55d65b6002f669b3; 0x6aaed0a2790cb50e; 0x7c8311be149ead96; 0x547d8d32facc09a8; 0x4dc65cb195c24486; 0x3c58c52b890bb158; 0x57d83a46c0ed9fe2; 0x67cdd323c0cc530e; 0x718eb95f67905d43; 0x4e173fb3e57ae9db; 0x63ed4e568948fe43; 0x76e5ddb9cb9aee15; 0x2d1c4283b8e3d499; 0x498f2f20ae0e7232; 0x413db519d4bc39af; 0x1e3c6b859af18b71; 0x2e68d42808970ea0; 0x6f8f077d76d4ef87; 0x290520da4e743eea; 0x611fb041c44615bd; 0x51faa3234ebe3169; 0x3ce9955074c0e252; 0x2434bc7336b83026; 0x548ef1a66febe2ba; 0x2d097bf6c00ac5cf; 0x663e0ecc88a238a2; 0x7662015969fd1ca0; 0x6de94666b09d3a99; 0x1af1df0819699fdc; 0x1279758519133df7; 0x3f7dfeaffdd2e0f4; 0x4356469bfeab6dc1; 0x3dafffd2d7bb6660; 0x191c4a183befd5f7; 0x4a75b08f51dec4a4; 0x49008409c2471607; 0x35b02f2bbf9d11ff; 0x128bcd6107d91975; 0x4dbc7537d304ada8; 0x2cb2c0b98fe650f2; 0xb7c487a07a74df0; 0x7a7c0b2d16b7fc05; 0x2226da3287adf189; 0x197e1c939faaead4; 0x61ff83e65a9b5aea; 0x2ae6b7fca8f3ad5c; 0x462f138b47d28a02; 0x3abeab3db2ab13fa; 0x3a7882b53dfffc9a; 0x5217fff28c05a7b2; 0x123d290f1386d208; 0x1b9330c40fcd6662; 0x675f712294592880; 0x4e50a312cb0d15a0; 0x31d57b71e6572fd8; 0x40cc5c7eee7ac714; 0x248e01aa885de2e2; 0x242f20fe19806fa7; 0x40d12d9edb6a14a5; 0x49c5b9943763138e; 0x7769a48a6b60fd16; 0x7a2342b3b2b4afc8; 0x5082655d7fa4b0f0; 0x3f35010ba628dc04; 0x785ea7e2de53264a; 0xd42117c139f5741; 0x415441ad6ae36b; 0x288228aa22082082; 0x1440104450544150; 0x288282802aaaaa88; 0x544005101540554; 0x2a0280a208288a00; 0x4144101441054551; 0x8022808a2802aa0; 0x541551150545500];
   [0x2b41f1144a6795d0; 0x462f20d03e16f942; 0x5cfbd5f632efde46; 0x1a19f153aeffa2ed; 0x52ec1d7c888791ea; 0x75dc6e0277862c85; 0x1abe2915cffec9e6; 0x65fd887e3519a82f; 0x48b92eabd8e0fad0; 0xee210d0e6172ad0; 0xcb7c906509c712d; 0x31132f916c2a8bcb; 0x18da7a95545591a; 0x44c095598fe2b224; 0x7c9949d902fde017; 0x67d22a9b0410c46f; 0x724634175cab469; 0x1ed0f133c9cccb53; 0x159e535ed7c2fc49; 0x29b0fd902462331; 0x77ca498a7c75f67e; 0x4fe08f5f308c3950; 0x30eb5fb412744ed0; 0x5b4502cb0216cd88; 0x2a5e205beb2c816d; 0x1a575f702f6c29c3; 0x1edd90586a0ba09; 0x44b398e055f63d02; 0x5fd494ad928025d7; 0xc37905c5563692f; 0x514b33e0e9bc6251; 0x52e8a3fa6b8d05ee; 0x4809a069c2b33b48; 0x15ef3bac526008da; 0x4ca23edb42cfc8ed; 0x39a5a14711b5ba70; 0x46fcdb91d5a026a6; 0x29fa307d41faa187; 0x18d5d06f7ad1143; 0x5e4b14bccaada9ce; 0x29845e5a0f1ede88; 0xea2e6bad5f02d07; 0x4647ed1e91eca1ac; 0x6d008da86c2fcee8; 0x468171958d41e2ef; 0x39c8d8d13caa1cfe; 0x7ac39bc6c54938a3; 0xb1bd6ff9553bfc2; 0x2eac56b1f2f7b8d3; 0x5a013b6111916e46; 0x4a2f820b169f3308; 0x71ff6b6ca208af33; 0x3ff6d7dedba76c0b; 0x4340f17475a5c08a; 0x392133fe66c6ef5e; 0x38432484d8af25fb; 0x459ef2e66d7219db; 0x41561b0b1e49420b; 0x5575bee5dc3396a6; 0x4a262531cee5d8b6; 0x5a7ff09d3b97b263; 0x7af3e1cb0300a5bf; 0x2369202f6877877e; 0x75d2cc85568cf983; 0x6a3abd13fcf925e2; 0x38d742f8aeb0cf10; 0x1ac1a5b5a347afff; 0x549a9e9fc117ac79; 0x2c57a09f0ead2cfe; 0x4b2b265c8675dc3; 0x6fbd7c312e331fa0; 0x28784f11398a40cd; 0x50bcf12f0b1e901b; 0x52b45b106b5680d3; 0x536a53d6e9f626; 0x661c6a3ae208abff; 0x31db25033e7b1ec4; 0x5b0af8676493b891; 0x1cd18ab3074d5edb; 0x78abac01c9d8f0b4; 0x181814a0737075e4; 0x3f1b33958378bda3; 0x470d0217800c827c; 0x6bef3c115b9affbe; 0x2d7b7eb1b744a853; 0x449ad660499e5f6a; 0x4c8c554511dc9773; 0x342182bcee16234f; 0x8db796c2e08f4ed; 0x5e9067d15aec3f4f; 0x53e66908b8377e52; 0xa79c033441f692f; 0x669f3bd09d9e02f7; 0x441ea212eab5a62f; 0x2634ae343cdf6e7b; 0x1171ed00ff82ecbe; 0x5cc7f25f51e48e13; 0x14457783d9507cc8; 0x25a8a3351a2b80b9; 0x6608d3b101a0de8d; 0x79d6e141ae7b7565; 0x79923d0cbdf02cd8; 0xbe6c4cffe2d9561; 0x5f646272bfa61d9f; 0x28178ee506bb5f5a; 0x425aeb42e7561ed4; 0x43cfeecdcafc8839; 0x21743097bb1d85e2; 0x400fb760c39c4df0; 0x1adea99908e36884; 0xefd35dfb59a2a07; 0x8cb6004ca2d71cd; 0x313f31df5952bec7; 0x61336be0d08fd8b6; 0x3989ce008ba29a9d; 0x417a1ebd29e87e08; 0x6da94dd0c25c9b43; 0x65e8b1ab176b6073; 0x61eaf9551fb3983c; 0x1da47cbc41a1a5b1; 0x7a449915ab95b374; 0x7ef9c65ef814fedc; 0x19867c58c99446b4; 0x3de85e3ba88a6fa3; 0x639021e9ed837f1; 0x3df399db8b3d489f; 0x2e2d3a313e56e86c; 0x76247bf435842617; 0x10618c043998c609; 0x7012d5e3457b74c9; 0x23ea4d7c581200ca; 0x2235a07a6605d492; 0x4b3b33bd11f9159b; 0x1b2ede4b273107ee; 0x7fd7e22adb542eef; 0x79d2f6716f534eac; 0x197cf2baef69ffac; 0x2a0bf7933d3dfcba; 0x1438b0c7b954c6c9; 0x737eff7c607e13f5; 0x2b830e7657fce071; 0x489dbd6b0e36419f; 0x51d45e3414e5e955; 0x21e9f5bcf4396d14; 0x609557309a39edb1; 0x696f852c1f84198c; 0x48a4ac125e3c67d8; 0x40ef78c6befa9782; 0x37c6064f50f1405d; 0x1055c5936c42ba6e; 0x4af832c2301e0302; 0x192bb32bf6194fe2; 0x5754f09f82f0d3a1; 0x4f978e0b111accf7; 0x1800483fbdde99a5; 0x48d273ff034d3d90; 0x1b6b806b43c510b8; 0x7b7bdc12870730b9; 0x776d228411404fc3; 0x1245db49070ee0c3; 0x6328436ed2f99f3; 0x687f7a8ffb618bd1; 0x706ef1915bfa22a4; 0x785138eaeb02ffcd; 0x4d4bf31798e22a13; 0x7be807d7adf59444; 0x4b92d0ddbcd9d6bf; 0x41b606c200f2e881; 0x2b12a9d96606b7d1; 0x3754d1abc5ba8505; 0x1f83fb69db6a19ec; 0x6d7d18df4dc2bc72; 0x32074110713b1660; 0x62ff4f45afbadb11; 0x17251e10239661bf; 0x64089eb6142ceec4; 0x45cb0668b8ae076; 0x78ec639a5614c7ba; 0x4bb97c3fa47c1b00; 0x6167753d7e84d080; 0x190795b61fb2c817; 0x1139e3b26a5dd3af; 0x7b1e41a0fde12e44; 0x3a547ec0721d31c5; 0x1e9d6cc567d3857d; 0x1b2a1018696d7b42; 0x5fcc7b22288e0ae9; 0x7ce005e215a06890; 0x3efed1405f8b92f5; 0x4835a3c85829fdd2; 0x445b737511717d1f; 0xe7724a4d56debf1; 0x50d706c8834db27e; 0x7f109202af496355; 0x3007f5701e511a84; 0x10362f9853944afe; 0x2f6c58b16c4a1e3a; 0x52f274c7bb76794d; 0x740daf5ee55e5cfa; 0x1ac95dfff438ad00; 0x7a5be96d73bfc746; 0x45d5da5fc9413388; 0x3f3a43194a561533; 0x2214e4fb821d5cff; 0x553471eefba0cf63; 0x621a1730a7fd6df5; 0x555b061f2e506058; 0x26f6af4c0cc9c1e3; 0xc3a7250d72bff56; 0x680d869e0c6cf6c2; 0x712b0bed0e0e5369; 0x7b321ca4dffe4ec1; 0x3a89c6bc666661b7; 0x145ef5f3a3e0f0ee; 0x3bd92ea2aac8d1e4; 0x5f10dd9ee2aa90ef; 0x64c427c01532e47d; 0x4d9d4d0676642406; 0x554d6b2a86da3dd8; 0x229694924094b2d; 0x7baf274a9d18275e; 0x43879d8da1ec0eb3; 0x6ccfd86ea542535e; 0x78fef1f98d2c0732; 0x32548cbef9c73a6b; 0x70c01444f641a329; 0x5f10f41f975c2073; 0x59f12957735cfa13; 0x65b5cd7d1e6248d9; 0x63b6848cbf5ead39; 0x7ffc51ed72119141; 0x3b0bb8d802a1277; 0x26175e9aa9db9be9; 0x106a28ec23754f12; 0x7acf1f6eeb6f7c0e; 0x524cdee8c39a185d; 0x103ccfa35a7b30e1; 0x1b132341a110379c; 0x465eff9185fbba2c; 0x7618dce9d37cdf84; 0x5ac3583fac5f0783; 0xc497798fc1790de; 0x7579414b91f9e25; 0x6a6cb150ff07be18; 0x330512ac11a18a25; 0x2054ed612cca6614; 0xbce55af234e1cc6; 0x154bfec16326df84; 0x2ac87d47cf4a5a9c; 0x6a8820a6ecd1c5e6; 0x73133a04c46a0147; 0x531102f84cdd17c8; 0xf7f67d3bff7b23e; 0x546c434b3374ab90; 0x43998c44823e8e1a; 0x358b58d1dd15977f; 0x347097f20b4498ce; 0x3d71a289110ebf36; 0x17cdec532168c9f7; 0x219d96375ce25937; 0xc7046c9e69f1de1; 0x17ca8a1d3224285c; 0x22514088a9a5a3b8; 0x47750e927d6eb3ee; 0x25dc8261101d9e91; 0xd05ef7a63e4f747; 0x6af03c027146e687; 0x7aee34d628eb113d; 0x7c51b8c48e32ad16; 0x12d5ba575e5d836f; 0x1b614e2d0242feda; 0x215f81bf11b8bc7d; 0x196ab824f7c039dd; 0x156b9207b305ea33; 0x4e8f6d3474dbb4e9; 0x1fbddd1ac28352f8; 0x418f462fb7f25d7e; 0x75ccc6e70594585a; 0x6c847db24b29b320; 0x5713546c27c99710; 0x68afde2fbed204c6; 0x575ea8c128b61f93; 0x547f1258388e94d1; 0x44f0567b37c50c5c; 0x302f0994500ed708; 0x4b09f2389aee95bd; 0x21b4047c6c26d10d; 0x7344f2cbef09f1f0; 0x3a9a305cdb540799; 0x2ecb4a390ac46acb; 0x2080d87517b7fa82; 0x40e66e10f04cc646; 0x439636b90f14e5d2; 0x3d49fff8adbcecd; 0x62dd0a9e38798cd1; 0x1dac06310bb32e86; 0x5ae7f4f5c57085c6; 0x137aab19c455466; 0x1ff8e391c80e5c46; 0x3adf3d270b4b2aaa; 0x6c471c69a90e2f10; 0x6073a70aa53cfa1d; 0x250c56ec5f5586f4; 0x697b61f886e06b5c; 0x6fdc4370e7931278; 0x695ec9e8afd3853; 0x44b7f750a4f663de; 0x480d9dd4e6c2d3b4; 0x55541040225728b3; 0x20a082a00a828228; 0x1105505140444501; 0xa22a2a80200a828; 0x1440414055144041; 0x22a20a80a828280a; 0x1044551101051505; 0x280aa28aa2a8aaa8; 0x110114514004054];
   [0x4b774161e29a2c59; 0x73b297302a7441bd; 0x755298025cae0ad2; 0x20d972d3c60f3794; 0x2602964e0ffcca75; 0x2f052adcea35d42a; 0x51c893735fcfb5d4; 0x700720aed19c9fc2; 0x67258fe36c253cd3; 0x69d0875684ebeffa; 0x3ca7e95baa300a41; 0x1b221dfdeb79a8ae; 0x166694eb5a7c0c6e; 0x6ab1e8764fa29142; 0x1c78272148e786da; 0x7d4e91e977edcbd7; 0xf2c8e246edfd917; 0x65b61353aa7c9542; 0x19ad298112a94aba; 0x35bd1ac72b18ecf3; 0x6ff498144ba1b4c4; 0x31a77fd13d7255fc; 0xabbde6cf2e57b68; 0x598191c6354e869e; 0x5f2afb48d1acf137; 0x2b03bb6e8ee039fd; 0x606f14513a3adf1f; 0x514383d92755b575; 0x6b82a8bffb76d45a; 0x492252677d0d603e; 0x75b3a09be0a150f4; 0x39b857d9f46b9bbe; 0x10d356741e98e429; 0x12eff1790f96795c; 0x5a25b19ba7c9238d; 0x20eb6e93d2b4a877; 0x433746fbebe88ab4; 0x7c92f48c32e31bb5; 0x26c6af160cfc1efb; 0x2e697bc1fd7b5c35; 0x475179c1cac9b627; 0x410eee3ae784df19; 0x73cab9ff0626ca58; 0x662a2149644ed5a8; 0x785f79a4bc0aec69; 0x56b485ae54bfa676; 0x1a3c7285a7388d34; 0x10221960abae58ff; 0x60c791c04f611cc1; 0x4a5bcc11a6e6b7f1; 0x40a7ee72c17fb4d3; 0xad72746b583c28d; 0x750d2099b5c4fb22; 0x7f7b7671c0ce30b7; 0xd95c6ef5dd9e9e9; 0x782d2bf6adb625b5; 0x4076715ed4fe028e; 0x45d627931fc4c7d8; 0x34a16fda14a2c2e1; 0x50815920c80d8ad8; 0x79254ac4889151c9; 0x7b6fd82b680f8223; 0x553ea7f278a6cde3; 0x11aee2eb2f0a3608; 0x599e275b6a264dd3; 0x61a8c8c3f6493571; 0x615f6add12d25e68; 0x6dbdfb5e2a6ad678; 0x6b6903f7e15a28f; 0x15ef27629ddaf60b; 0x2f1e35db0d1ed8dc; 0x1dc1b6ff018a2600; 0xf83ccc19939dacc; 0x1b112a250847883e; 0x2266ea87558d56d2; 0x62efa25fd6acce4e; 0x18cc4182032b6a70; 0x2f5bd7364fbc5059; 0x765cfedbaffd0d54; 0x35c9965f34ab4d6e; 0x6cd8fe805a51644f; 0x4dd40fc0d5bb745; 0x3961f0ed6c030499; 0x32ebaa3203bb2ed1; 0x151982879046803a; 0x5c7ff138e7e67e1d; 0x2eb66f6798b81a45; 0x75557406e017688; 0x3b76597e7ba54cdc; 0x4f8fb42e4157e346; 0xe8f44712ef34c2b; 0x534db88df976df02; 0x1eb0c6adf7ca0c1a; 0xe493556b9a8a167; 0x118b84965dbcd50c; 0x1cbc7df0f843949; 0x1d01da5fff2ec0fa; 0x10ae95f664bd1ba7; 0x5c15cef618d4ec04; 0x17dedc66adc063f8; 0x6fe983ead4ea0689; 0x354617c0e48074ef; 0x515937e718c1202a; 0x722eec322e1822b5; 0x401709f00b68474e; 0x1e5f5a3a6372216d; 0x5f2b78aa12a1d192; 0x6d614ae196fb433a; 0x78c4abdac3090948; 0x4912ad39db615cb5; 0x1d64a7edd801ed9a; 0x6656c09427d78999; 0x31ff46001abef7a2; 0x2f4b27405290739d; 0x37c28fd119d9d5a; 0x7b8bb9ffe1fdb20a; 0x2e4d71415731dfc5; 0x3eb120054a51f8f6; 0x4feb81336f4e06b0; 0x5d0f722ef72b1982; 0x282a09055c1d9169; 0x262179bff70e1fda; 0x192444a2a1de2510; 0x26276af01812538d; 0x365213cf13c56b1d; 0x6e7be5efb400ecd6; 0x3bb3a6a27e5c9cef; 0x677b314e8c50f25e; 0x1a904be5567ebec4; 0x3cbea045d38c3e79; 0x415f23f71872f4d3; 0x3051dc809caa2677; 0x3766701ed25633f2; 0x4cc4250b678a98a1; 0x6a859dd31e9c34f0; 0x61da6f81158c1f6c; 0x6fa8a2bdeed9120e; 0x4762704e5f3ffdfd; 0x71773856f3bf09b7; 0x1a7f64b0142f05f3; 0x292efb445b96cd65; 0x22bd463045a6b2b1; 0x19aafe89721a2f38; 0x19c55130e6cf9e21; 0xa64a69b06ce5aa5; 0x63f7884e33684c53; 0x25acc2d860f90344; 0xcdc8da00de3a5d0; 0x767914a525440622; 0x775a3d465fd846e9; 0x2993f8a5340669e6; 0x538ee200c96e18b9; 0x340f694cd06a53dc; 0x3161e6f54c134b47; 0x61abea04c2cee222; 0x1303e2516d54bf8c; 0x5ea720bcd79d21ab; 0xfe123cdb27c259; 0x4997fbd008736ebe; 0x1127aac8fd4447e; 0x43a601e3a34a3ed0; 0x67cbfab9c1029f49; 0x6d835aa38a9c1657; 0x6bed6a122fdac8a; 0x41bd1cf9e333ac55; 0x19f855135a8881d4; 0x587ef5976c4362d3; 0xb2c5c7023daae0a; 0x4b670cb6a696dd48; 0x4291c0a8f106e2d3; 0xa6cd371e9833340; 0x6788dfcec6f4f905; 0x7d8bfc02038e7814; 0x395ed7b323071346; 0x5727c388c70b2234; 0x364c675492e3ca2c; 0x73bcdaa82306b447; 0x172e02e37af8e7ec; 0x1f591c06c133f188; 0x5d8c46e6fb10b335; 0x7fdd14cf9ee5051e; 0x27ddab74c1aca8be; 0x4c8457c5a8611d80; 0x75d9d4820ea5e1d8; 0x6363b6acfe8be2d3; 0xd113101e8bff4dd; 0x2c39da32f056a36d; 0x5f970e929567fc3b; 0x713873f144357787; 0x4b6fdf3096b3807a; 0x5c4f24c4945798c5; 0x709cad9f3038bfaf; 0x2964b29ab937b75d; 0x67dbd7390a835a47; 0x225ea445a3acf522; 0x25cd43c0ae9313a9; 0x40667e60e233094f; 0x310f0afeb36eb735; 0xb41e4cd60588af1; 0x6b03db9c07fcd361; 0x6f97fc493a61df7d; 0x3a4cd88b2e2d1660; 0x20b4fb4a6d0aea62; 0x671032f5c91171f6; 0x412f0118626aea43; 0x18e623a471d6a030; 0x56199724970f26c; 0x39befa94127e8b00; 0x24006d00681f93a7; 0x66cd208d7125429e; 0x1d0ccafe87577861; 0x7a00b0ca73659f05; 0x7198a33feb501003; 0x7a9798dd12c4adcf; 0x2bafac93b6f9b06f; 0x7d3fc7850b886768; 0x19041a4a799c8c8b; 0x62320a8f3bb6b593; 0x39e4f14a47cfa155; 0x1b916a9473e44974; 0x654c88aae573245; 0x51cb3f50c290d6db; 0xe334630ffb35656; 0x4f367c002cba3ab4; 0x6428dfd4d0db5a23; 0x46ddc569dc38b72c; 0x7d39f6b2f1eed5e4; 0x58eae79cfc4a509f; 0x799c30e850fea2f6; 0x7149d036706e0207; 0x1209f89a0e0c284a; 0x1ba2cf839e32a0f8; 0x372d1227caf42717; 0x2d58ac3da180dca7; 0x6828211af0e9fdae; 0x74543e04ab2d321a; 0x66d060c10a8f0d0; 0x2cfd1d1f9311dbbb; 0x7dae8c7377facdd3; 0xa71c7e0bc0ebd81; 0x7af4d52f181a7781; 0x54524fc842240ca8; 0x5b50ecba75b84349; 0x4bb59e6a5f44941d; 0x2dd9d90159b1851a; 0x2c47ef7519442149; 0x303c53c7884554d3; 0x7193b8af0aa28a52; 0x4e38f4c3933a589b; 0x3419227550a853b9; 0x3058cd419941c7ac; 0x6467988642ff46a2; 0x6923d1b55662bbc8; 0x6c08938d42e0112c; 0x38d0585c7eb2360; 0x1e42919f291b29af; 0x31a6bc02d604d823; 0x54a82e0ebefd3b6e; 0x482ef988d7605909; 0x73d2d2107f2ced05; 0x7cb50267f3e7b828; 0x7b5522f710ed56b1; 0x19724e083a1ca9bb; 0x1f80ad09de148aba; 0x2b5eeaa2f5de0c71; 0xb4f4e7ef737d3d2; 0x1ebd89e70ecdf73e; 0x4b58a101cc6c31fc; 0x62c48dd880db7ac8; 0x11a29dec2738cddd; 0x239b7f1d854fcd46; 0x5dda8c9cecfc297f; 0xc6975132a860fa7; 0xf8c2911ad605dd; 0x603325e3fb744214; 0x3ae7d7738a2df0f6; 0x5bab796c6b78f883; 0x681a1f752b3ae276; 0x45e90fb192850a41; 0x38a9d4f152e8ef27; 0x1ac4829048095d54; 0x5ec51301370dd70b; 0x4ad70f00649e1f3d; 0x7eb6f9b56890c8e9; 0x4d48a54de225e0; 0x5d3b3c43bb1e882e; 0x14cd1cd8b4afcd7c; 0x145ea83d23e7a8a9; 0x152ac8e7e1ae150c; 0x40bb32acd5d8274d; 0x462eeb6681e7e481; 0x3913f8049f01558e; 0x4f22be79b38eeeca; 0x196ef604141b42f5; 0x68988e77c903752c; 0x6b84087c99dc1d3f; 0x668753f29ea59023; 0x7df66a74079d7dcf; 0x266295793dbb084; 0x6b746c549ef19572; 0x415201ff0c501edf; 0x587c2b3f43da1e3e; 0x7bd5d6ed3f240b8; 0x4eaf92129f2d966b; 0x724f6871311c78d2; 0x7a1b577cd9c50cfd; 0x66ae82ad9a999ec3; 0x7cd41824a41cc278; 0x5544000a6815fb2; 0x288a2822800a8200; 0x400144415445054; 0x88008808a880a0; 0x4115514144145551; 0x2aaa2a2a882888; 0x4501144444414115; 0x2288082a00288008; 0x514005515451040]]%uint63.
(* the powers x^(2^128), x^(2^132), x^(2^136), x^(2^140), x^(2^144) reduced *)
Definition sf_pow : list (list int) :=
  [[0x7bebcb506b0fce5c; 0x63b879a069d4d4a1; 0x97be66cbfeb29dd; 0x5707e54615155709; 0x1f8e5a4b0d7169b0; 0x4ac7e1802ed70509; 0x3980ac63ac25ae5b; 0x669885a4ccd237a0; 0x7d3b281e5bf640e1; 0x583a6fa21a7bbe92; 0x7b3224d3b0c2aaa8; 0x350986016f3b6614; 0x28b654ecd6acdf70; 0x1408ff961183090c; 0x38d26eb34df57006; 0x4e8c7af7ed154728; 0x6bf77feec534811f; 0x5d0e6e35570bb3a7; 0x4605e2c12bbc4010; 0x6a86121a7c329b76; 0x7c2541d716a471dd; 0x410939a1fa3be979; 0x237b04bd0322dfb0; 0x295e2f8bbc96a1ee; 0x2cba8cfb2d407174; 0xfe4ff3a03ee9994; 0x13e6029389b19546; 0x78a29dbe95269b62; 0x7101db0c791c70e; 0x1ba1b110f5e31459; 0x78886b763c815ddf; 0x583f07ab1f299fd9; 0x35b0d2fb3830f77e; 0x3d10493b937438b5; 0x63b6c930989a03e5; 0x33b20d7cf48c11c7; 0x18dde3de8ff86d16; 0x75964f50c58d5518; 0x65c6f38700ae8f2f; 0x125cdb5297dd444c; 0x6f44fe2dbf39fb26; 0x3b16ebc40e54dcc3; 0x51f3162a16a1903c; 0x67e1b99dc0eabd17; 0x6e8ae07f820dfc74; 0x69725362f1c5fcb4; 0x31327acfbfc77d3d; 0x278efa98e163654c; 0x57a4e55e9e0e8c01; 0x494df0947c01e330; 0x15d88c27c8786e12; 0x3e9f0a1102e124a7; 0x3e4dc6d308ef43b5; 0x49de9446c57920e6; 0x7d986dd6875269f0; 0x204ebe5c2f48ecd0; 0x10a1842acb1fd047; 0x3ba6a6e8da127edc; 0x790cd729deac7360; 0x1e8a79798a398071; 0x40fdbc1ddfce1493; 0x19ce9950187b49d7; 0x4d86dc8c5e41130c; 0x57969579ff123c50; 0x25f6120ed3fa67e7; 0x6e53f59fc1a89efa; 0x4065bb6828ddad17; 0xb9fa7f4d6b45fbf; 0x3313b9512dcf48d5; 0x4ce5111cdf7b62e6; 0x154b03b8c2cfa0cb; 0x3cafb1ba0cc75000; 0x31b1be4671c2227f; 0x4656ea4c098e8934; 0x3d9ed9502d9d5c1f; 0x7c71c80132bd20a6; 0x21f768a089ca7107; 0x46083b2f217c3824; 0x4c757f19e760e030; 0x8fc85d00b52e0dc; 0x650102b7612c6777; 0x703a464c85981ef6; 0x33c363760fa9c0b0; 0x4a5f6e5a185901e6; 0x72cf5cc4688b2b67; 0x393dc7eab64f64c3; 0x6934d805cbd37e0b; 0x3c232ec4b3351f42; 0x2383b531a7fbd156; 0x278df103a2cc2f7b; 0x436cacf2f460c496; 0x3fcfb49edf178a00; 0x17987fe7cffc1156; 0x723cd018dddb661; 0xb4ab34412ef8517; 0x23cb6950004bbec; 0x10b32c7740656f8e; 0x40a280d078ae2052; 0x2837f31353b33800; 0x539dd17d97a7b5e3; 0x703653316e4d2703; 0x714d6ecedc5dd066; 0x12646edd8ab71b38; 0x2cebb6bb027d4c87; 0x56917f051ac1a143; 0x469a772d32045cb7; 0x205fce6b634ea5c4; 0x5a7834eac1dbe5a9; 0x261fc4a6aa03b188; 0x55dfc77215bc4ec5; 0x7d41379dff2f1f78; 0x548b7afcae2b8d50; 0xdc79ab734a0cc45; 0x686aafc158b4281b; 0x1d478bb9745b278a; 0x1c0f094b3977aa48; 0x97d5089a3f9bd80; 0x70b365ad29efe22d; 0x5d309d7592792f9a; 0x681691c2b2c8b60; 0x42a1e9fee1eae28e; 0x550180a42b18d84e; 0x27b7c7a154c1353a; 0x76f6c72d211f4c9e; 0x6adfa2944b75ac8; 0x4eca7500ad3215d8; 0x3a6b2c8a39b96842; 0x9e21a8659916546; 0x10deacb4eae70de1; 0x716457b76156cee6; 0x42304d2f05ae0c32; 0x49a5201c7870814b; 0x6d4e05017d1cd8bf; 0x25fda4a348a36738; 0x30cebb446a02368d; 0x5ce5706524e3cbeb; 0x2c18058bcc690815; 0xfc84c47d314418; 0xa5426f9ebf30770; 0x1d0f8b7a6b447d7d; 0x6fd37dd92f44ba87; 0x573427f14654f74b; 0x562f4f46324d887d; 0xb783541c9cffdd0; 0x1ab682f184a956b; 0x3eb1127f2081d266; 0x1036636954b892e1; 0x482051874aa1b3a4; 0x4d3e95f4447242d7; 0x32cedfc90fec052; 0x6214d99ac479293d; 0x4aa81006e65285d0; 0x547999935dbe087a; 0x4cb1dc99bdf88dd5; 0x5ccc135770ecf4ba; 0x387b39c576a8899e; 0x568cd11c02f896ad; 0x73d47f643a1a6051; 0x25cccb401c33becd; 0x1bade4224e260f0b; 0x31988d1bfa7549d0; 0x2157807be8c47e20; 0x3c231c25c97cef56; 0x66d1564dc57281d6; 0x61a9381872b2e0bd; 0x79fbae4d6bfef797; 0x11d7981a0441c49f; 0x9f872ecfd2ccf59; 0x3490e6d23f046897; 0x55acf0dae6eaf990; 0x7fb29b0646bb8316; 0x38d6f675adb36aa7; 0x64549e1b8692b338; 0x4d392658734b1e42; 0x402b58e9d76bb9a6; 0x2f3921c650f0b362; 0x3799e3247b60b427; 0x4e3d13322ec43b62; 0x548005070b67acee; 0x764907fb96e24619; 0x4911cd585c5f907a; 0x5836f46cd3fad796; 0x493cb2d6609eb369; 0x6c49abc92fc8847d; 0x39e69767b46e86d8; 0x70603453a377cf02; 0x6fb2ae35e1853571; 0xbeef1c3a04a8397; 0x25811fca4f256b1b; 0x5b2e17ba25628930; 0x6a1b3f68f6b5ca3; 0x11da5ce82ff1511c; 0x4909de3dd7622934; 0x1570aec06984897c; 0x7ec041882189489c; 0x5976a669b2976142; 0x30093caa0b8c0da6; 0xa428b06e99c169e; 0x45363381faddea0c; 0x2ff54683cf32e081; 0x5e288f9160f31ec7; 0x7b50e30850fa50b9; 0x63a94482d9919d57; 0x61abb5cfeaceccc5; 0x109a8de45a3cdf78; 0x642e7f31711d9a65; 0x1cddb4313c346b14; 0x57527f3fc30dec77; 0x63269e9d60fdb3c9; 0x789fb6e05dcf6666; 0x60262903ad570c18; 0x736737451f8a0539; 0x9040549a75e19f3; 0xcc6474899c287d; 0x7df41216c3724d36; 0x439fb29dfcc2e178; 0x71b5ee79cd93466c; 0x2546319700540a0c; 0x42a24972f4c82d2f; 0x1613694bb2e7f518; 0x6a35d82281d9ff54; 0x22df98d41b032aa3; 0x152fb50ff717304c; 0x34273daf85425f2a; 0x2f657a9966fa641b; 0x935f1426753cc19; 0x4d812848d9002d69; 0x227fddcd97dc83d2; 0x9d0cd42938d709d; 0x7ba0020d825a3dd0; 0x1c19f7a0a5e1a112; 0x6defab6cc674329c; 0x625ac3862135d770; 0x4831ca9dd69e629a; 0x3ce3248ded160186; 0x59fdfaca921504a7; 0x44301f5174b23f58; 0x25696a575efae6f3; 0x5ce3f6466702712e; 0x5371a5defe088ae3; 0x558d0d84ff764e9d; 0x4d589694262ea8dd; 0x66865a435fb4fa5a; 0x66f9fa2d6ea156ad; 0x24899ccdd613c5f5; 0x69e8600889f51d98; 0x534a41fabd8c9be; 0x50b9c97458443905; 0x39ce25d799154674; 0x5d3282e3d0070499; 0x3ffb3669fe0037e4; 0x23bf230bf05f6a20; 0x1883f5fe274e842b; 0x504e97f7f62fefc7; 0x66dff44446acd81b; 0x5b5afc419898c743; 0x601858853ac1111c; 0x6bf153d9ed98ebb; 0x58e3f818f3013f1f; 0x388cbc8d39cd1be5; 0x4bc11a4ba1e2b664; 0x3aba43a28e193d61; 0x67390f5fcccdf1fc; 0x13d222878a2a1bc6; 0x664d2cee04a59824; 0x76d94ae562afac0d; 0x37b4847716ee00b5; 0x6d218dc1d12b257; 0x6801248ab9b17716; 0x4ac57e7b2821b4ef; 0x54a0e02741de9dca; 0x69c78d01e4733c3d; 0x6bd16ad4ad45d6ce; 0x49b03b14dcc0ffb5; 0x705af16264773c03; 0x78d5c357e49a2971; 0x22f1c97d4a34b700; 0x14181a1d026ccb1d; 0x4819cbea77c84f9b; 0x672347160e30d42; 0x871e0250794ec35; 0x117dd79f0255ff38; 0x42b59b7a4bcd578c; 0x60187015644a459c; 0x4738412ba2d6bad9; 0x2444443478ad990c; 0x17aa93f8b1c64a13; 0x2e63cca933f85c73; 0x111ba011b9ea627e; 0x56156643c2fc6436; 0x157db508f4611d20; 0x7bd5115d18b43c43; 0x49d28c40b04ca32e; 0x7a82154810611023; 0x3fd36d71434741ad; 0x5ec7c87ef6e22738; 0x6410378d6638373d; 0x7b9e2357944e37a0; 0x6bafb432df790a6a; 0x5d10ec2b6f4d7265; 0x3637cb9b8f925d8c; 0x538114c937b0d2e1; 0x91c852e6ad7439a; 0x2c3224485abb0555; 0x880ba7ff00dc950; 0x1a8000c897adbc63; 0x48b4dcf1427c5be1; 0x6b5e5dae659b1bd1; 0x6a0b459ca117cb20; 0x5dd3777a0996f892; 0x6201970db8a0817f; 0x75013c678d83d343; 0x3e335a33c154399b; 0x60a917c5ccfd860e; 0x6ad34b23ff2405a5; 0x33c9ceb6e68f179; 0x465b14aab769ca8];
   [0x23116803e20e0099; 0x4586bec4c1408728; 0x23c9ee09cbe06de3; 0x6bdad3f911121104; 0x5ff87d6c975b5fc2; 0x23f6c90e77939db; 0x4cc63f17e1897ae3; 0x15a772fc66dbdf78; 0x7b61eb8b2c20e5b2; 0x2a7701015761cf7c; 0x753aef80f5088bba; 0x620b89aec5d27bab; 0x9a9c61879ec0648; 0x2fa1b4b672303894; 0x21cca9690436d8d6; 0x36baee9126bf9d31; 0x167184f744f480a0; 0x5fcf24786098b142; 0x7ad9cfa3ae98aed8; 0x5fda567642e8da08; 0x14621286a5e4852a; 0x67b7eac5b5144630; 0x22a82368736bdf34; 0x158aa7e45a85359f; 0x7e8994b03704654d; 0x5f9c1f0940a95d93; 0x5dea128a589dae29; 0x15d1fddf20fb144b; 0x5a388043d41fc182; 0x59e78b18e7fc0693; 0x5700711d98ef8030; 0x345c44677e385250; 0x6c282cc7bb7615ab; 0x3cc33e9358a4a46; 0x1444161093f882bb; 0x417f379c23be17f3; 0x7a0f534c22d4d108; 0xa0b7df9217bea86; 0x787faa57a7bf0863; 0x78dc6690fe82e684; 0x315961de4bd29c54; 0x1fca3d4c2ac71f36; 0x5e1ff9a327c31eaf; 0xdb171fe64a366d0; 0x46b3b3b73a850000; 0x1307f811f3e1820f; 0x3adc4bcb91281fe2; 0x487df2aec9dd1c72; 0x54eb7bb50fa43da3; 0x43316ecc03443ad3; 0x631e20139121d87; 0x1faf8bb2d8f986d9; 0x2299e0ad540b8c9; 0x42652045053043ce; 0x24868724a70e487f; 0x5823308d88c77422; 0x6aefb746ad6453c1; 0x329c24ce1f83ae8f; 0x849b077e3504f66; 0x22c49f53f11cbece; 0x580f41806ba9f9ee; 0x43ca6ecfff9bfb01; 0x1acd6928f07ef912; 0x12e6f3264788e455; 0x1dc436f6b0500408; 0x64cc52904c58ea6f; 0x519263e545d6b6c9; 0x60bdaa0a3303f736; 0x7a5837a186374a80; 0x6d82784aba0479ed; 0x69ef454a57b6b22; 0x10f0a04ce3474d55; 0x3c63e00d6874535c; 0x5a649e1005b315b5; 0x1bb78b2e4f5badab; 0xa286bc7e1ee5bbb; 0x3b0d2d12247cf824; 0x1ac02c79d05340; 0x56c521995348f24c; 0x32ade2341c877b39; 0x58001920d4c3ef70; 0x1db4d6f4957b9f00; 0x745477c627488ee1; 0x6a563f1e44f2cf9e; 0x4b1543a4cfd8e22d; 0x4cc4a4bd6fc10e4; 0x41ea12c470440603; 0x628a42cf05b5c413; 0x2151135a2610906e; 0x6d05414a1b5ce3c9; 0xa1df6ff6a8bbd13; 0xed6f193a300cde3; 0x40dc33c4177a89ab; 0x517bdf7466325354; 0x2d0bca91577d085b; 0x5a453e1ecdef6c9e; 0x1e55ec7b54990363; 0x1a453083542d85b4; 0x4786551294481be2; 0x4534b8d783ce2eb7; 0x76ce0a5ffa622d37; 0x166b298c83b6ebe7; 0x194e9037d23894d2; 0x52ebabec64d4f38c; 0x1d77eb56f7effb02; 0xd64c37b71d0810e; 0x78777345f941783; 0x394277c0c4160fe6; 0x346483a306889072; 0x7c13f89190ded501; 0x153249af3fef36b9; 0x54c9dcd0caa18129; 0x7acf81d452d9090d; 0x2e63dac0ff0f66d5; 0x2df17c9d71d25005; 0x17a50ee34340c861; 0x4ab32d88a9d4f1b7; 0x64dff279b64d1108; 0x29a05256fd21c101; 0x2163854cf8f64393; 0x5477521d654dbc2c; 0x264686b36e9e8fed; 0x46f87274d949ac32; 0x7c93e1ed066b5729; 0x72479f2cca4c495e; 0x2f8f14785d24a94c; 0x736d9512eb6f7fe1; 0x76798303e72a26e6; 0x2aa6a74a2f3895fa; 0x488af936de7d1742; 0x1ed44031a6baddb6; 0x2cc1d126ea71cc4e; 0xd22ba6a17d41031; 0x42057467b024a3a8; 0x4684d0f393d10d0a; 0x6fbaaf75c5cdcbb; 0x562b64f701847dbb; 0x3ced7ccb69898da6; 0x2d95d620ec511057; 0x65328baacbb4c414; 0x2c1f1f226b6b35bf; 0x6da84bf386aee4f; 0x309a78f5edde9460; 0x57d9eb817659905; 0x5e5a2c3f3e69181b; 0x13a9a23d4a55612a; 0x5ca37fdb5c49dacb; 0x38ca4df9c479af57; 0x3a979fd50c6be3eb; 0x5287f2b3167e353a; 0xfe058780f40c2d9; 0x1a9646992c782500; 0x618e533d4353724c; 0x30b94ace946c9f6d; 0x27a4600855a3c3ce; 0x4163220e2e2180d7; 0x10724cdfa73bec5b; 0x35cf9e8e4c63c736; 0x1d1edffc0067f537; 0x26b117acda8a6dc; 0x4eb46f1936621eb3; 0x7614abeb24b90146; 0x4511956f9b9fd430; 0x3963574d26b2fd9d; 0x7a095d33cb67ba00; 0x4dde700e36502bfd; 0x75f4725b1a1c98a6; 0x4cf48f04cf9c312; 0x755bec7b1f29151f; 0x6bcd7dad636e6f4e; 0x53a57361a45b0f24; 0x69f7b659d52d005a; 0x7d77e6a267018bc7; 0x4543eb0e9ca431ba; 0x7db97591df2cc012; 0x3c6faa8fdff9dfa5; 0x4574f8e5c98da70; 0x6f9a74f53912555e; 0x5a917781008dc8cf; 0x2720faa5439109ec; 0x4700833cfc16ac24; 0x26bac68a126ecd6e; 0xe2da8269be216f8; 0xa27ac2c6f142783; 0x1d994da3fff03cfe; 0x324b079fd57f04e1; 0x3066e704b5452d0a; 0x12add64eb7b46012; 0x3bf33e3b6c93d0ad; 0x42cdf52422fa4179; 0x63acdb8ed47a40c0; 0x376748d8d2e5d1b7; 0x37914ca976e2ca95; 0x411009c6e94af321; 0x5b668f4c7a4a8d26; 0x5e554009924e0922; 0x386026756d686498; 0xd16fa576000bfe5; 0x4e4bb2edd0016040; 0x58ba113fc85c497e; 0x2c9f9e69724ff728; 0x4ab7e6019e848f5b; 0x2d4eb89736a08488; 0xd450f298318ced2; 0x6918253f99db967e; 0x7f56ce9aa7459f2d; 0x5ce679ea93b331d8; 0x67cd33b43a4432a2; 0x42b677cf5d835ba8; 0x507b8c52e1b79af5; 0xb9ef0257c7f35e1; 0x3866f6e462f1c5a2; 0x6be5281cd62d023f; 0x2862dcf3d0eb7b; 0x85a6c64f57e2460; 0x6f0ff8c04e31feb2; 0xb6efef96f6da531; 0x8b9e785425fde5; 0x6eb993f8c7242699; 0x4091c3aced94fe0a; 0x5a4b919ad1b60857; 0x460af17eb3766816; 0x7215b84f035abebb; 0x7a2de142bb951fc9; 0x72181b00795480dd; 0x5b33051b6c65322b; 0xd2f6f12d79c21b9; 0x114c349654c03d19; 0x2a9ca564ca5ad51c; 0xad61aa8a8ceea04; 0x5384180a9dbaaecb; 0xd12c3841b3fc4a4; 0x5fe9b4643702db2b; 0x41627aecf12a3086; 0x31ecfc1dac73485c; 0x77d671ae139bd849; 0x6beb02ba8ce21749; 0x4f70f2d64c75a662; 0x2a948ac0a4090694; 0x64bec9cf1cba8b63; 0x21fe8343672ee023; 0x2722ac3c600d9b55; 0x40f4dac6233259ac; 0x31ab79e3c443fb38; 0x66ab4c5a61df8ca4; 0x1070a930fa691078; 0x291cc50695842301; 0x45438728d0199ac; 0x1c6fe516f24987ec; 0x5a8c75d3b32f3c6d; 0x3c1810f2434cbe5b; 0x621bdb653dfcf078; 0x44bf3a63afb5941f; 0x5f7a37f3addae3d5; 0x77571fb56d7f3ad2; 0x66ecbba1f5b2416b; 0x592945b128e57037; 0x771987a482771b8f; 0x520b07541e7ed2be; 0x3cdf803aa77c467a; 0x4410c821dae0a8c6; 0x4c3240b970e2e555; 0x11aff04b8e8f29d5; 0x2a54654962a6f6d2; 0x3615490c47e97e35; 0x69b3e8b78010ad5a; 0x329661b00afc1961; 0x3c98367a90e5fa1d; 0x3b442a45e495a944; 0x3a369a13797cc539; 0x14cbfd4e44e67c67; 0x30a73ab5461b2a20; 0xc169a312e0b7ee7; 0x595c6e702d286f76; 0x777641226565e7e3; 0x2cdb684fcb7c4ce2; 0x3cc369355787d24; 0x4481395e495b6594; 0x6557ba4bfce38f95; 0x4e380470f24a9865; 0xbbe3a9069b22bca; 0x115585e1942aad70; 0x67716c8215a78683; 0x3e9b218d8650912; 0x9ef9b355d9cdc5e; 0x501204ec1d688b01; 0x61ad1c52b3d188af; 0x47b156979795cc54; 0x1994e070577d73ff; 0x495863b9979d4275; 0x62e6c06fa2929d3e; 0x135f037639de9920; 0x136b1bb12af97043; 0x7828957ad77b59; 0x7168d9359246a994; 0x5f3c6dc5ef1c8672; 0x6ee0964ac1cc7886; 0x112a9a8de1b7ed02; 0x15322b3526893099; 0x5b6afe5af1cc4991; 0x73183ffe204033fb; 0x38842ce9f4bfd477; 0x299423ce792ed598; 0x2a3a6fad5358abe6; 0x32100113cd145a38; 0x53db132824c52d8f; 0x5d32eaa497d5fe70; 0x1f0fc6e51692666c; 0x27700102a61ed82d; 0x7d1d73144414e4; 0x449b623b027b336f; 0x2d887992b1bbdf6; 0x6f113932b854f82f; 0x1ac121a4dc37db69; 0x462f0365d48c9329; 0x280c87eaa5582714; 0xf7d0d25eabb547c];
   [0x405e1831124c3727; 0x748bba9922a3a926; 0x7972093a85a94f7; 0x1b4514a93e83a262; 0x55a6d21f53931f76; 0x364000ac3a7906bc; 0x1650ce5058c0d051; 0x67cfe6cc31369c5e; 0x285d5082a75edb7b; 0x62ea93e389edf10a; 0x3fe7090887741934; 0x76ab1e8e42ff13e4; 0x1890d8e1aa571557; 0x548a49eda1e713c2; 0x65a1d14131b4337e; 0x29d3ee04ccea4079; 0x1bcd93cd563a589e; 0x4dee70a9f51d75dc; 0x667742e24b1ad7d8; 0x49012ed750a41641; 0x65b81f3fa96573f; 0x695a33b3a69dc0bc; 0x7fa75e0221f85dd1; 0x9fe2ff703e76870; 0x695d9b83f8b9e0f6; 0x573c382eb519f643; 0x61d986f2be0876fa; 0x60b8815d98ad9c70; 0x1d8b6131d21671b8; 0x49132e3d3337dd00; 0x541339f13f43bc4a; 0x7cd8062ec926e115; 0x1d0a95ed4cf181c1; 0x6ae973d14109b86c; 0x3c075e1eb762400; 0x1f0ce257c03b063e; 0x5281065b1d58706f; 0x6e9efa75cdb881af; 0xbc13d173ef57016; 0x5ab8b58e0c00dc93; 0x5706ee9327c89e18; 0x2915541e74dd75ed; 0x1559fb773345aecc; 0x5239b9e4a2963242; 0x3ecbfcda823b04a6; 0x2ee64dfc1eb414ce; 0x248e46be52d18f95; 0x2553aaf6f6a9c796; 0x73e279d9b616bb63; 0x65dc0bbf877b2ead; 0x4b52860b2bae6cd0; 0x6da00f896a6b865; 0x75af248055cea911; 0x7687458ca5f65848; 0x5934488a3dbc7a5a; 0x9ac0e3fba0ccd8f; 0x3f907052ffcd776d; 0x60adf194b5a849d8; 0x2879be4927edcd8b; 0xadbf5132b0e0f3b; 0x2e977a1f9a9ca598; 0x22a6c49f6df94159; 0x5109dd90aa0cc13a; 0x65fa6b6bd1221b80; 0x7d6a4a7f188bbda9; 0x3f54cee3d89a81a2; 0x43d75070c080096d; 0x1c5ff1887b8a186f; 0x3fff0562bb3e4b35; 0x1b0ab27e21562bb7; 0x75d07419eac0249e; 0xaf92a02b7203ebf; 0x750e262f8510ad98; 0x68210f4917429b88; 0x11d0d3f19d9b1e9a; 0x3aa3400524b1bfc7; 0x25e5f8dbd601a420; 0xaeadebfab8c0a29; 0x5863fa3d4eb4b8c2; 0x706e4412f70adb66; 0x5cadc4e80c8ea8ee; 0x4bb48c8b9bbee364; 0x783030eeddf0d0cf; 0x5201c9b2344cd7d3; 0x4824a9eb277fe4b7; 0x4cb20b7ec03c0627; 0x3895c113f5d01388; 0x3479e61dbceab70e; 0x1754ba88fca33fbd; 0x6d01943ba7becc33; 0x251481a98db46783; 0x2c5f86405bc1c876; 0x776f70236fdee279; 0x9cad61b845ec9e2; 0x33164cbcaf21fa4a; 0x1ed02a52fd7bc6c9; 0x6238c907cfec82a; 0x6839744b0cc7ee72; 0x64ff7c16621efd3f; 0x20fc001b0c6adb4d; 0x24bb7e40ee080e09; 0x4a6687a0eea779b9; 0x65496b84e6842626; 0x1a72b805d8f976aa; 0x3268365d789b8966; 0x21472771cbc6af7e; 0x2d4c0202a69e64a2; 0x7e97c14693c8b801; 0x56adcd1a56d7330d; 0x3b2cd69de73c1c9f; 0x1f0ad4d97d85c27a; 0x1dea9b2f1fbc0653; 0x1187297ad761771; 0x325229f4514face4; 0x53aea1354c80ce15; 0x2d0e35be92ea69ac; 0x301aa99c50f190b1; 0x6da1515cc756bb49; 0x1687f24b6ab86525; 0x79c9018a314236b; 0x3bd4c75ceadfbc6d; 0x28d05b68a8805ae9; 0x12a161b34f7ace00; 0x1c5a866c0a92d8eb; 0x48b7bb09084ba488; 0x1ab2389b79060cfc; 0x70c44bc4751978d4; 0x650dd63e9937a629; 0x635359570fbaec47; 0x42a20a8e4c9baae9; 0x3b5464ab7fc3f2af; 0x1a50995604d39cf1; 0x52be49d5ff7477e; 0x4ad027d2614d2612; 0x2a114d6874a1369a; 0x1b38b79b44dfccdc; 0x706e205b3d45584c; 0x78ece6a57fe035d4; 0x3c5199a119104e49; 0x21afe1633e3d8219; 0x3afec99425f84e43; 0x286fd73705988a99; 0x6ca9be33bb67fe18; 0x655e5b8e0c10f022; 0xadfd46499ba21f2; 0x23454ccc9cc98561; 0x3d7c859e4fcd92c1; 0x23e5b2b2c46f543f; 0x593fd7bbe8a690ed; 0x67d7dd2d7201de07; 0x6e46af517007b52e; 0x5730a2a80fe8b714; 0x1953385a897a51cc; 0xee9df93dd7a76f4; 0x7d3d822362ea6f4f; 0x7c5252792c3f7f88; 0x65dce504b54fe7ac; 0x357ee3cd52c4c7db; 0xd1f222c94a7c16b; 0x5d9a3de4ce10e808; 0x75ce99f05990d6c9; 0x64b939f466e0a2a7; 0x5264100762c9f1cf; 0x24b5f9f80497edf7; 0x46783fdb2ec548c8; 0x1fd737765dce5d5b; 0x59665005d23b6429; 0x22425a677e0d8c05; 0xea5558ba3305c0d; 0x6cb9989cc0261179; 0x1350017252b12b0b; 0x336314eb75a0019; 0x2e56d4d0973fbd75; 0x2b74bd35f3b0917e; 0xafd1525dd732633; 0x3f551f607d357bb0; 0x341f4c991cc4a111; 0x401b5553e417d174; 0x1e0c80cd3766796b; 0x43bc1ce61b0ba398; 0x582f72fbcbe1072a; 0x21a8eedbb4fcac70; 0x9bdd1cd09860ad5; 0x2b21b43f798d3100; 0x48012acadf896adf; 0x7d1735f47d85a1ad; 0x46f6efb0885f72e; 0x1bf12f3780742fa7; 0x47f2069c6ddf0394; 0x4e92c91bca108f8d; 0x5dd6143f1151e04b; 0x720c980b73887880; 0x3f58ad93872c4fd4; 0x40d1c7131f2d0b0f; 0x79966c724f2b48b9; 0x144ad918f7c9ba75; 0x19953c6f02db7f42; 0x42e2cfe1bf2d8dc4; 0x747544eb3a1121b0; 0xd1d62c470424ab8; 0x4afd9542c6976a78; 0x10c35d12e5995a6b; 0x7fd79bcc1e09f717; 0x454498d6853c93b4; 0x375cd9d89f0a948c; 0x3f570ae58a96a83; 0x12473734ead50486; 0x3fd1eb37accd40b7; 0x4d86cdbcdbcf028e; 0x2081ea809131126f; 0x499ee790218ece52; 0x1b06b68d1a8ac36a; 0x6415f91f7474350f; 0x61af59e69944506d; 0x323d7727f6003c31; 0x5505bb8f93b8a821; 0x687bacb13df6c4b8; 0x6e9dd7ebf13f6b7c; 0x5036204a1c7c12ae; 0x21b1da5ab64213fa; 0x3c8dd3ab87078072; 0x129747119d1816cd; 0x1b9b4e7d1a42b989; 0x4158aad527775e76; 0x39540c8a761d5449; 0x1b25ca6a95817fd0; 0x4adad627d4ac58b; 0x7aec58fb6a2f706c; 0xf5d60b41cd1b7be; 0x3a9e215b09555d1d; 0x2e42e815d52d2316; 0x6cc55a4d9a6e5e9f; 0x62c4248e92e9b375; 0x7d689a034af22f5e; 0x7ba0df3e8aab17a; 0x79c9076d6478dc7c; 0x2d9bea8d531270c6; 0x791ac5fdf448c17; 0x630835f63b42015b; 0x19a4be204f207081; 0x74200f04b1c92c50; 0x7debf4ec47c1f598; 0x5f36a259086eb50a; 0x3022952f66f016b4; 0x3e479995b04ffb17; 0xae7341252f0e027; 0x60683a9ea8ca14c5; 0x52821f6713050ac8; 0x5c27c498542eb450; 0x533c7d9d882d83b4; 0x6c60dec232fdf097; 0x3042681c388f8f9a; 0x37490625d8736; 0xfea09203df7221e; 0x36386381ba47656d; 0x356a00b128714f16; 0x75b4d3db0b5d9375; 0x4170ff7bb91e4dfb; 0x65e2e56c443995f; 0xf462275970310ff; 0x42ab14fcd2b90e9f; 0x254f8c8100ac5c05; 0x14d24e50c9202243; 0x7b7a7279d390cc9c; 0x595acbdf152d3993; 0x2d2bb55addccafb8; 0x1524248459fefb24; 0x27ac00c45737a1f8; 0x1498d879e92cf296; 0x6b3eea43f6cbe6b7; 0x63b843286ea8224b; 0x3abef44d7a483832; 0x33c3394ef66b0d75; 0x7e80e225392cb8ca; 0x30914af8d46541c7; 0x2f67919e53b54233; 0x72e437eac6534b5; 0x105e71a2b03bcb1c; 0x13687fa04f2aeb79; 0x6d775b809420303d; 0x25c731a6a3b53287; 0x687edd702440b751; 0x7c02da1d80ce5f45; 0x1ffe9b0cd0a3e7a1; 0x26d608eeec6040ad; 0xe86c7688674edfa; 0x7e95b043210b45ee; 0x1665f785ed893032; 0x3dec210c7cc8503e; 0x68e007c74945247d; 0x3f11c3a65a24a5e9; 0x79b6471d1808ecb2; 0x24970d332265c6bc; 0x60da5e521c8737c0; 0x4aa37cd4c8bbb1b3; 0x74b54460f7aba354; 0x352d79ef0d67b223; 0x9815946421b2871; 0x2a95741f51fe850f; 0x6c408dd1fddbf31c; 0x6253291baff8194e; 0x67621386d9e4b938; 0x3e8f6a4390fbba68; 0x341f1a381eec5485; 0x70f43d1000d4b28; 0x181c258048dc9e76; 0x7bfeaef86d7ced9e; 0x2bdc2715884094ae; 0x60fa0388106c5f96; 0x2a34449a4afcea87; 0x3f39d300a23b33b7; 0x6572ff5505867879; 0x79e7325a4c9b4e63; 0x7fde0d2590ea55f; 0x38ece378d2351606; 0x5ccdd778217387bd; 0x31f1e8e49ef39c8];
   [0x22966a0ce8b3eadc; 0x557785a748afb0a2; 0x5f3e2ef6f973d51b; 0x36cc6c961a0455d2; 0x424a2b2dbe4f7d39; 0xc7ae9c3f59aa89; 0x2aae7b87de79aaaa; 0x453653e6a87a51da; 0x2346c22d5558bf20; 0x67a4c7e331b7086e; 0x246a89602aac1b86; 0x1bfcadb0890803d4; 0x11b13a5dd95e05e8; 0x411d3281a0fc4455; 0x47748a04aa15d6a8; 0x6a1e309089feb108; 0x624a3e9a60eaea1c; 0x38c29e8f7b39ef63; 0x7a3cd5a3ffb96e0; 0x607e8d0965f7f8a3; 0x65b0225fbc49bff7; 0x560d863cc9ad90d1; 0x10c674f3f643f5be; 0x2bf2a58f813e1e8; 0x7e6caf8cefb50155; 0x4f86ed4b2fd3f054; 0x45b96f4b9076b60; 0x4d0df4572a686530; 0x4a47f96a0258c8f6; 0x38ff51e353949cf3; 0x382d6354cc3b21bf; 0x3d6a1a04b0313034; 0x5c9461816e0c8695; 0x5ba280190901b1dc; 0x2785e71f964b9a39; 0x1bcf5d6d4405375e; 0x1b0bfdf4359b2886; 0x36833602dd4e1135; 0x1348d31efc787b93; 0x6978554dc715d99f; 0x5b1dc5c3e075f256; 0x52e592cd72eae6d9; 0x10c82c5dec574df2; 0x79e385261dd432cd; 0x76624272d59e549a; 0x352ba71a81d5082c; 0x145a87fafab654c3; 0x566c563481f2a93f; 0x4cce258fc46d8cd5; 0x5e7db549f64f911a; 0x7c9c605631d37d18; 0x22110061fd09e996; 0x28faf7f53ab913ad; 0x2b8252db0d3b92b6; 0x54cdd2a92e5d0e96; 0x620f6180bd61d0ce; 0x499b297a8f510bb5; 0x38460f6160102509; 0x35d66f3025868fa6; 0x51a259863f76e1b6; 0x5f3b1d178b424e76; 0x320a5837f8753df1; 0x1e1afc2ca86cb0b; 0x70569eac51f24ca4; 0x29d250030e7a27a9; 0x30470c2d786adbdd; 0x621907662efc4d4f; 0x3606a392005b29ba; 0x6b22a6b77935571a; 0x6e47f901ff40bd4c; 0x4a4f688143463e3a; 0x607dad6e6e7f806c; 0x11528eed4c4dceb1; 0x5f0b9949df2fe422; 0xf4426142683f511; 0x447aded424145940; 0x29f9333a33d7880c; 0x16db3c5f7b0efaa7; 0x5ba63d7e6235fafb; 0x7fdb3ecf47b415ce; 0x6d9a6a4e0eae6c69; 0x12ea27de022bf5cd; 0x2ac4aa1db0742c62; 0x6efe45898ab4e109; 0x39800fb1ed6a8a45; 0xcae9c15d8a8266d; 0x76c699bb89081b77; 0x5655e50fa0f4d7ee; 0x1c8c6edf985b01b0; 0x1064e2a1187f9cc2; 0x7c789e1ff5d59a5c; 0xc410525b3ba0146; 0xfd38fca81e77d81; 0x64e7e49c7b212052; 0x502cbe10da0374fa; 0x77d9454b5af47436; 0x1acc1bee620e1159; 0x65335f0ff443aa27; 0x6e4ab3715eb9e1a8; 0x6860b0e422e2e462; 0x41ea471f7250c278; 0x6fa30898dc93299d; 0x595d9e2680ca071c; 0x7569cbd6ecf8788c; 0x734abd4684a5c6d0; 0x4fd268757b516879; 0x1aa92169f4c30cf6; 0x10b1e9a1b3c85794; 0x49642714ca50bdd6; 0x418b8fc3e556a56; 0x1021008e54b597de; 0x4d114557fbfe48ce; 0x7c422ead7cba121d; 0xc1c84bcfd11ded9; 0x746a8fdc98057541; 0x5e2ef7560b4e72c2; 0x10daec87dbd27b69; 0x53182bda8db50f5a; 0x16918f0cf86d542d; 0x2896543b30942fd1; 0x4ea5aa323b29c8b7; 0x273564be054977a7; 0x6242ea44fbd627fb; 0x275a8adae667ac19; 0x21f91162aa5e09dc; 0xca97e706812711; 0x67ecb320ba1e59fe; 0x61ab3f6553f9b237; 0x5a9bbc000a3018a1; 0x2c7bfa223c04891f; 0x15ea0b93f2cec800; 0x6387c55a698c777c; 0x41ccbe366039efa2; 0x1a12af36fde9ddbe; 0x14b152d8980c06e7; 0x500825957b72642f; 0x10470a3d59aabe21; 0xb48c0d0fd916aa; 0x550c14303a42b558; 0x11f897d26f6c0a27; 0x36a1f7f4ea09639; 0x43d5deac11e73fd3; 0x7d42a2cc7f16ccc0; 0x42518a9b9f280ee8; 0x2c26e881d0a12f02; 0x766ff8b1f79ba68c; 0x230e4ca2d7ef8426; 0x880667c526792b7; 0x62023f015abc015d; 0x22cf360954cf4cae; 0x602bb4e1e4ec153a; 0x404672d4f8930ebf; 0x6b234d54793c95c5; 0x9ed4cd4868e623; 0x33628f1b5eea794c; 0x5372abff1b77909d; 0x16edc5dce51060fe; 0x2aa9100862496b94; 0x578dc50b16080e25; 0x5e15be76d3cbee87; 0x4bc59156f497cbe1; 0x15bf82c6a281d815; 0x6b5ee6f2822317f3; 0x1c290ccf77c8910f; 0x563f1d64162f950; 0x5afbe360e3b6d3b6; 0x3eba849a91207aa5; 0x34101593788f36b1; 0x3dc692a6fdd1db70; 0x16c7f2d669cf1cf5; 0x26e85189a01ae1ae; 0xd1e427af9b6827; 0x68c988fb7f15d001; 0x4c7bcd52a9b3306f; 0x3d68507a6365b01; 0xbfcbc5e3fed8ee6; 0x5547f99db4e490ef; 0x4d44be183b10da27; 0x76f510e13ec447a; 0x12e768c4f1e42056; 0x70a5be5a10432ac; 0x616a1c17532f8e92; 0x1926e5bf6657502d; 0x4dda431c5a881b17; 0x94ec36c88b8037; 0x289307776d2f05a9; 0x119e2de4553ce473; 0x1eb9813c5e440f80; 0x26edbf9f3c3fc243; 0x488167584ad2f508; 0xf79935a9d0466e4; 0x9c0b9d9c884e00b; 0x26ae1d0c6cd60bec; 0x66e9236d1e891a4f; 0x491dbd0c40ce1656; 0xf862ddcc11cef0d; 0x1289589a155050c6; 0x2f36ec20943a55b7; 0x3801a59b5626def1; 0x671b24077f59958a; 0x2f1f8d23324f1450; 0x6d14f5e182b98a64; 0xb816b1173be1ef4; 0x1fe36621e6e31423; 0x7b13ee63f2774505; 0x6f95114f7698b125; 0x5f2c20ed4a21d420; 0x2c0de2bb977665cc; 0x38972b3a7a595790; 0x3f2a6519d9af627e; 0x3d945a92b7f11dbe; 0x1c9d63c35d3c3a27; 0x51d90bf1f2e266a1; 0x65361a756cbfae47; 0x1412c3cf86038946; 0x8e270a73fb05683; 0x2abc22d09d8a3612; 0x7f10cac00230aa5d; 0x82c53f28f71a1f1; 0x66784124d97ff9bc; 0x3c8e26e034922781; 0x1637dbf10fb22ecf; 0x45b5dc20783e7b24; 0x61acce9d11da2eac; 0x150ed4588684ca0f; 0x766731d031c29a39; 0x2816178fa3e74157; 0x2e3045162c0bd6ca; 0x77b32f772fe61ea2; 0x770af812284c9867; 0x3eb8e1125c8d438a; 0x88e3d555b286670; 0x164a7b7b7c378b5c; 0x20ad189e6f7b965; 0x20485a00b069ff5c; 0x78f792761abb9361; 0x5643fbad29c6c6a8; 0x5bdfe780e2144425; 0x2bf3d582913b5670; 0x27f6ff8dc78dcd2d; 0x19e5c2615d668727; 0x2dfefeda37bc4e3b; 0x59d2d2d058b63fcc; 0xdc9ba0396952251; 0xf6ca64bc8186814; 0x305a17ebfada97c6; 0x2163b7d979f63a7f; 0x3f571b124278d7a; 0xcb953922acfabac; 0x2fdbf091d5e0866c; 0x71cc821105186f4; 0x689ba7aae51b895d; 0x14d7c8e4339d6a66; 0x252bcb088e62b96e; 0x170a674adfe80ab5; 0x4d965843cab2ea84; 0x582031665c4e1b55; 0x5c517af9d9722ebd; 0x2626c66c7d5c8082; 0xb3d6c3be4762b64; 0x9e779101d1a559c; 0x1df61e10c73613de; 0x4697ebfe2c34ba00; 0xbe7fd845901bb23; 0x1d9624f27e09f34b; 0x634f121e357f11da; 0x7985954187c2d226; 0x5ace563bb6cd097e; 0x5167c20fd6620d5f; 0x4fff31b3010cdd99; 0x2e3a84955395b5c4; 0x3dd2908a4a45ea74; 0xb3589073675c5cb; 0x5c0cd9c92bee0a59; 0x4977017d1ef1ecfc; 0x77c5b56e81dcc133; 0x2d6d0711f43d733d; 0x5b68c71443447c77; 0x56bbbb696811f360; 0x654c664bae7b3c47; 0x431d19de94d84cc7; 0x503bc0c7e54a6acf; 0x5c81973cbf493680; 0x58c291eb0839bd03; 0x2da02b4c0f9b3ea6; 0x54d3264d50719b87; 0x269a67cc69ca5042; 0xa672c4c48fc6886; 0x5f0cccfcbe00884; 0x7af75f6c8b6e09c5; 0x42e2a0c2f6824316; 0x54cf02d19a8c08a9; 0x585ddb6cbb4e415a; 0xcdccab8dc2da6d5; 0x2a4fa5fa20c2481b; 0x6c1767f95b83c589; 0x6ec932f77f298693; 0x2f84a12a85116e4d; 0x4d12e85607c956d5; 0x592714e55819d92a; 0x66b4b08082b40d85; 0x52d8725b8a9f5175; 0xc815dfcd1b4bdf1; 0x6545e6ff81fadca3; 0x351b535d63410941; 0xcc91593e8d320ef; 0x2af4c292680f7d19; 0xc99d5b40998db8f; 0x467fdb058459f0ab; 0x6ca703c5f13369a1; 0x102234dec6426e82; 0x20b96b1cdced9188; 0x16493ea30328e3ca; 0x302f16d01aa3c8d2; 0x1c01afe6b84f76dd; 0x9a47e4d0f911224; 0x21eaa764b4db1f2];
   [0x5a324575a39a6c59; 0x7b3a9532a27641bd; 0x300299560daf5e96; 0x7172f9ce879d1c; 0x3317c20b4fa8db60; 0xf85827668357c20; 0x1198c2265bcfe5c5; 0x7a87a22cf31eb5c8; 0x3674cff72d247987; 0x49d80df68449c558; 0x29b6e90bae644e50; 0x31083755cbd1a0a6; 0x4732d0ae1a3d487b; 0x483b42de67029360; 0x5d2d666448e7c28b; 0x5decbbc3f765e9ff; 0x1a5893862a9b8917; 0x11de1a8a8d2b1a4f; 0x54e57d359c63033a; 0x54782e1f66668935; 0x568723cfa8c3104e; 0x20b4a7c09229415; 0x4c7147c8cb8aa2ff; 0x510d3a176c6b2d5a; 0x2b5c3dbfe8f346e9; 0x5b85e31bdcc98b1d; 0x4b53ac5b0106dffe; 0x747dae7742663569; 0x4c421a2901c2acbe; 0x5a6dfd7aeac409ea; 0x25dedbec109c3fa9; 0x4849f78deaaee87e; 0x385f33bbf47b8094; 0x4b9b277d4b6b8b99; 0x11f16aff56432a41; 0xa269944a460d844; 0x3710ad86d3559f81; 0x1a4a90158cba8389; 0x11b8770b44b627c6; 0x4b91c328077ebc43; 0x68657b42ab9e0718; 0x493c2235c170ccad; 0x29e5a3873c804606; 0x3fba732e74f818ee; 0x33d35dab12ef0876; 0x6ffd2a7f54f1d2ed; 0x211ed08f880feb18; 0x3821582db4390b24; 0x78c36e4ba787f68e; 0x4671306086518c50; 0x7506ac248b21752e; 0x36fd6cceb02b43c8; 0x3a8662e379790438; 0x17d430d2333622c1; 0x8082572b85b6626; 0x1a34d4e457964a8e; 0x3e7b2f80c6a7d3fc; 0x1c827d0f2cf63b31; 0x7e0355b2e1cc3a66; 0x7303b1a373365e10; 0x44591724c1a0b9f; 0x7c287f743966652e; 0x4099f5ada4174ddd; 0x1bcbb04e83e900fc; 0x54cd1bbc722d00e5; 0x6780553b0b07674f; 0xa593efc19d7eb55; 0x3278e9a0b386a2ce; 0x653de8f641a08173; 0x4db1cf4d0b5a0cf0; 0xe46da2a589e5d10; 0x63fef68596e98dc; 0x1657581ca3af86a; 0x86a063aba5ee36; 0x15163e8aadb7ac39; 0x1b35926745be192c; 0x156547dafd678e7f; 0x1288c9634d8c144d; 0x1c8768ff2d92acf9; 0x2b08af98a635179f; 0x6edd9d5016781324; 0x510d3efd0881fdac; 0x3e7bd8a9d4f884c3; 0x2b0d690444729423; 0x70ada6d6d7f0977f; 0x11aaf9227ba35a6d; 0x4bd0bbcc26f95e9; 0x5a96a1d15ce33651; 0x58a6ec2da5c83c64; 0x73f2c3595272e63b; 0x4c7db765f4081d0c; 0x5f1846e5b05f65bb; 0x1b2e2ba1061e7b2d; 0x15f9c124b0e487e7; 0x5597ec4ca30ae9d0; 0x22e4c4f1601530c4; 0x37048e401275e776; 0x6355f4ac8c3f3753; 0x2ac13edb9d092bc9; 0x24ab5e6bda784a40; 0xabac9af358edc15; 0x10805ba0a246e646; 0x97c3480fe4c0547; 0xfe0852c8cfb3924; 0x364176757cf3919d; 0x1e5d2a3a414947b7; 0x21d3e44925a06ed6; 0x1ba5922effe3d80e; 0x55d6ff4b212a9b42; 0x32e74c4886ce6a48; 0x226b971acd51d650; 0x79d86961ba75c3ad; 0x922fbccb2b54b68; 0x27c944530884b7c9; 0x7b1ef0a18096714d; 0x78e93b3ee89f7d2b; 0x5fd9e932dfd72a7d; 0x39cb9fd61b581ae4; 0x27dd4df3e7ad116e; 0x2adff0c9fcf835b0; 0x72774c02be8ff467; 0x619747f4a4bdf6bc; 0x6b11a3c11d28c5ac; 0x6f78f420719acf7f; 0x4acc968c4be02a5d; 0x17daea055d01851d; 0x3cdd7eb72c2c3265; 0x640d2112c4737330; 0x2853db3c0560213b; 0x2c188f6f43a9ce33; 0x62e5dc956c8c0d5e; 0x5c819ea95d7849f6; 0x4becfb627e8b80cb; 0x2ae2d53f819e58d5; 0x516f7b10222eb969; 0x732e58ecdfab7386; 0x77e7c266f1ee15d6; 0xd9079c592f6ac80; 0xf6a29bd36dd29d6; 0x313d618d1fcb89e6; 0x2edf2a69251dbed2; 0x6cea3e513512a235; 0x13b4a5b1d98b86be; 0x457f3d1c9e8c3293; 0x6ace4c56ec34aeee; 0x448b46cf978b8dba; 0x2c6cb5f1168f6b99; 0x6f5a21ee13579d76; 0x40633abd2ee08149; 0x2474831a2950e65b; 0x3d91a8f758c7958; 0x6f443dfcccddd1e; 0x5a7922f3b1a6e283; 0x59236994f1b36621; 0x6deb9e5b788ca941; 0x2204217fa21b2f1c; 0x3892b96f0d847a9a; 0x481688af22f1890; 0x6f85941e23e2e780; 0x763da1228c571dc3; 0x7cb27235ce4a9afa; 0x4151899ebb17b5f7; 0x2ff65bcefedf9ed7; 0x77ecc57ee89da7b6; 0x1d4d23e62d714786; 0x79c222d8becc7788; 0x34f4f76ed49895f8; 0x49651354e4ab4fcc; 0x141292fad7ec2710; 0x6e2a86eec1c623d2; 0x1d8d63e15cbac166; 0xdea6b5e2ff1ec80; 0x2112b0cbedc8a36a; 0xbb4d142aa6800e4; 0x289e6ee86d2546b7; 0xe93b667ddf10331; 0x3b8d5789408d1d1c; 0x21d13d451b5e4763; 0xcf44ba1cc55fcee; 0x78cab12219ef72d0; 0x29f8a3b2819c76c9; 0x3108bdb7b56fc1ca; 0x54bb1bf82e886930; 0x7836ad1e96e44590; 0x5105f077bf536e14; 0x5c96e2c119409969; 0x7bbac7412163ea3f; 0xd4ec79dd2cacd0c; 0xae1e42ae1b750c3; 0x30d5ded1c64eb4e4; 0x79118bb96b249d6d; 0x68f6b5ee1fd85f2b; 0x2c65a30851198604; 0x29db8277c96dc35c; 0x6bd8ef2a8b8e2cf9; 0x73584c1b848be1ec; 0x6ca25bc94aa2330a; 0x3f8442e267300b7f; 0x514b555132c69ced; 0xa9eece8ce076b8a; 0x36ff49758359d1a6; 0x1012cd03f4b86732; 0xbee5047eeb06f4b; 0x7c60e1124a23b17c; 0x5d466689d69454c5; 0x46b84281fe38fd22; 0x5d10ae1544a09eb; 0x4485d43d2f2576a; 0x6ea596a516df6b43; 0x1013aa4c9373af30; 0x258723aafa473e12; 0xf413531895c09fe; 0x5a3aea8d6fbc4abd; 0x9cec4abdb81f2e7; 0x2d3cde7e67cd35f0; 0x5d97ea48d029d9fc; 0x1307ec1c429af99f; 0x6a976c89f884dc2c; 0x317e3c059b95291b; 0x5d41535c2db765b2; 0x12c881241f7c215b; 0x567b646b8aeb01c7; 0x7d599c6a4cab8c4; 0x3892c3e2ffec1aba; 0x74ff4f30650c6f67; 0x64a0aba51ed31964; 0x71671f0e8f377f27; 0x3a9dd9e45fb970bb; 0x710c3bdfd6b849e6; 0x1e017af375fbdb1c; 0x5a344501030a76b3; 0x582b23e8777bea7d; 0x260a6ccd95970a1c; 0x39024be7e39f4936; 0x6782183d946caf1a; 0x6805d4939477b3a7; 0x3de51cf802001b42; 0xa5cc0d71a122da6; 0x2d9a1a041aeddb2f; 0x39512f4072a9c3c5; 0xcb8c1775c0aaeef; 0x6d4191f6d6ff2adb; 0x51c38179485577a5; 0x1cfbd6d3c075a3a5; 0x2369332eb7fb0481; 0x389038d64db29692; 0x63c43574c3dab096; 0x441b478ae2656d90; 0x11d8cb992b0cdd87; 0x714f8567c2030078; 0x47d0cebd33d0c0ea; 0x413970b457325d12; 0x430ee2b379fe10b1; 0x554fa098ef13b266; 0x46d3250257d90cf3; 0x3f7a056774817907; 0x7ca478f2e961fc70; 0x1bb3578a2839ccc9; 0x34e27a3d9788d4a2; 0x2f5ae00c42cd1b6f; 0xd4eda18b869e075; 0x562f139568e26e7e; 0x3a40905f57c78010; 0x40bece608a075476; 0x7893cc245fd777bb; 0x4608a31d29ab0cf7; 0x16ec1c0d9b4b717d; 0x689732a3738fa3b3; 0x6aa8ccf0fd4eece; 0x6707e54b1b85637b; 0x725dc0739c67ec0e; 0x2d5f2ab832127f3; 0x659be25711ba1949; 0xd58174097019e7c; 0x63a05bd9cf814d7d; 0x50d43b0f1b29c66d; 0x2a601ca64798ffc2; 0x30493c4cf54096ec; 0x70680658cc0b0cec; 0x5dd927e0b6064f5d; 0x599a6b489b0d504c; 0x4012524d443e3bc0; 0xa14acfcabf0ed0; 0x1be8e7d168da8386; 0x7a32a60eeb6163a0; 0x688a8a2cf744c1ab; 0x30b2a2aa43b8527d; 0x353fd0fa8c2f5a13; 0x467ff0420541317c; 0x43df88d5ea8405b; 0x48847a291d63684f; 0x18f2833e7d29a24e; 0x861cfea4817dfd7; 0x69d6a82f26b2642; 0x4d6fa282c1a12599; 0x508fd790c65998c4; 0x380f0363e22d9964; 0x3cd3e4cbfa582e4c; 0x3bed20bb3a85ebbd; 0x61c4d51a94cfc314; 0x61672583e92d065c; 0x5ebb10d6bae98090; 0x5f4c112c672d63a0; 0x3b2bcdb9da89674b; 0x10d78710f986de0c; 0x141b81f8adbbf243; 0x149526094f1c17c2; 0x7ededdb6a9658b02; 0x54fbe98ea26e1bd7; 0x25ac5667660a9f50; 0x4d352e9f4765d527; 0x5e3498d94064dfd3; 0x640e2ddbc6fa2a47; 0xec763282816dda5; 0x323b0e4d19e02fe9; 0x1cc181a9370cc578; 0x287ecb5c163b91c]]%uint63.
