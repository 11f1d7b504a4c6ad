(* Data for DsfmtJump, computed outside Coq and only checked there: polynomials over
   the field of two elements as lists of 63-bit limbs, lowest first. Nothing here
   models code of the repository. *)
From Coq Require Import Uint63 List.
Import ListNotations.

(* the characteristic polynomial of the recurrence *)
Definition ds_chi : list int :=
  [0x4c33fccf033ffc03; 0x18e79f87f9ff9e19; 0x7e61f81e01f873; 0x2097f000fc300c3; 0x3ccf0cf300ff0ff3; 0x42c9c7067e001998; 0xfa41d98410bfcf5; 0x161e0005f0ffc03f; 0x8ea2c82101c74cc; 0x21c4896d2657ea30; 0x4b10d0c64be9f852; 0x619807e66799a647; 0x700f0cc3f3c3f330; 0x786fd27d62a1879; 0x3f87e60678191f01; 0x16c80f602a0540dd; 0x327dc3978d9f45e8; 0x52f74c3062323eec; 0x4133f28e3a4943e3; 0x66783a476a79b99e; 0x5bd6206cdf3cf0dc; 0x23ccfad1be4d964b; 0x516475b6fc86f4e9; 0x71e55d184fcef5dc; 0x2cf959e4d08f571e; 0x5beb3b43a63fbab3; 0x7e966ac5184e22ca; 0x43863ead51e70e69; 0x4d1309734423971a; 0xa7a5e1972d48ece; 0x6966baaca8b848af; 0x633ff818052f1595; 0x6cebaac586344477; 0x77274455965248ff; 0x2a3b38f603900ea6; 0x45ccd595187137c0; 0x322cf03b0b0bd6b4; 0x64d30ee694ebf7ae; 0x33496603e2115cde; 0x76582b7b6fe4d7f4; 0x27cde5fd70a55baf; 0x300c86a62757ce80; 0x69b8fdf99b71d85c; 0x32a80fd93b10a281; 0x1e5bc79ab1d97537; 0x158f5fe59bafa6ba; 0x3ca200af222bd916; 0x3e08b0822a93ea60; 0x694ec1c28ee31a4e; 0x4b1f5d8ca2e99037; 0x24a1df119aaa14c; 0x659e7e33a611d8ff; 0x467b08b46dc7b02a; 0x162c235efaedf8bb; 0x76e8bd87d85fac53; 0x12500b6264e15858; 0x1002c60bf54af2a3; 0xaa42784f914c56d; 0x7ac6857916342422; 0x4dac0adfdeeea98b; 0xeddbd791a205a41; 0x6ce15ff75c1dbded; 0x1d6dd354c7d4f0a2; 0x546e6e5479c496ad; 0x2da0363233e708bf; 0x44bf197ce787550a; 0x4a663d651ab9f037; 0x58fbc82ae8ddc6cb; 0x25568d88bddf5bd7; 0x49334b0174fb6275; 0x236e1443aeb17ec6; 0x21f84c5d306b241e; 0x469a3f15e42c0458; 0xcd5883dbf3c48ad; 0x102bd0d05137b35; 0x4561fd1d64adfdf8; 0x25d0f39572a4a01a; 0x7001357c30da3589; 0x448d9a8da9770fe1; 0x66128dd5df4294f3; 0x7e5dc6540842717f; 0x5da179361a8f1242; 0x476189d55790d41f; 0x698f78a35bb7df20; 0x3c9169a081cbdb01; 0x4a1ddfe965f1da16; 0xc05d1020244b9e1; 0x24c33f692c2955cb; 0x217d9834a44a3f43; 0x1edade48f94a7911; 0x34981e9db19b44fb; 0x7e7e6c4c5ff8245c; 0x2ffd805f177322ce; 0x6f89fe3968ce6eaf; 0x5096dcd03c7bf181; 0x1958b4443a85d3ad; 0x1f536f86d8d335a2; 0x1ecfa74a72521015; 0x592ba9ee8e150452; 0x62fe297b96363467; 0x5f8d09b0073afd09; 0x3d6dc6c0e83e6969; 0x257ef6e7b0bdeba; 0xf84660a2f896003; 0x3a5bc7f5c868a143; 0x548b82689e28b11c; 0x262055e8b3c7ce9e; 0x232047fb8b7cc60d; 0x6f0eaab675e08ed1; 0x2b92346908796884; 0x61a0ed4509fb30fd; 0x312b7c48b208f514; 0x4f4aa4ad6d209e19; 0x22f85872a26f2f86; 0x1ec64d01f611c93; 0x315248db3c02423a; 0x13cd6768cd62da38; 0x2164d1174fe87642; 0x5d1bc02e7a9c9cc7; 0x4bc6ffaac18b002c; 0x609d62a98a7df664; 0x77b4521eb3655939; 0x7cc90c70ade7f959; 0x5c9502b69ce0c1a8; 0x2f7376890c751390; 0x451168b1480ca231; 0x1467d2cd3447625b; 0x334ba7fd1ed5c8b4; 0x592f499b776a40f; 0x75dcb9645f2cbd62; 0x2961fde5ccb8369f; 0x7bc13933b4030e4f; 0x7d695442995955a2; 0x4665ead97572f1a9; 0x45e718afd75c0596; 0x1b61f06a0c280977; 0x16a6a591f690adee; 0x284d38d5b5d199d6; 0x2da6db98d328bcec; 0x7be77b0329b26fa1; 0x1af0242e6042db14; 0x7143ed22597f1919; 0x225e482a0938d441; 0xb40053aa5c82ac5; 0x261a588337ff0315; 0x6801eaa726b24dc5; 0x5983e09aa8da29a7; 0x617e8d043dd75292; 0x592fb6ba0c8e91a4; 0xcfe4a5573595d2d; 0x3f66dc0ebd6231c3; 0x435ad7d86ad819f0; 0x599432b1f54ac5aa; 0x1a8c5b75fd3103f5; 0x12619071d026b5f3; 0xa48ad998419bd9; 0xcb8f66da5b70d6c; 0x5174912a3cd2f284; 0x5f7202aa8eb65d37; 0x76735dafdc8f4f8c; 0x227c4fdac33c6cc; 0x41d5142f63f63e3d; 0x51c278631b03dbe1; 0x1b8839132e95033a; 0x5b188d6e8dfeb384; 0x32d0abab753a7181; 0x680d570928b4a4ac; 0x5b4000e4cab586e3; 0x7cf21777be13ad25; 0x2dcdf2aa1dc9e8bf; 0x493e68b155e712e3; 0x35b168c055e81279; 0x3876c9d94b604334; 0x6785c5cdf1985c47; 0x59042cee57fae688; 0x118dbc3489f75f01; 0x189c46f8af3d932c; 0x671ae4bd7a34625d; 0x27ff815dc8d40a80; 0x67ce6f47383ab2ac; 0x38e2d85d80ef6c6e; 0x50855f32e115d095; 0x7b21b16654f04f22; 0x44c1277e71319686; 0x21f0f7f5311f6d4e; 0x3f153e12b0602102; 0xa777ae4db977bd; 0x11f684b7d089ef81; 0x2d2a2167abe38435; 0x3d436a6e6114929a; 0x46a840b1f846d6d; 0x77337e38650535c1; 0x41ae4a6898a7b3e2; 0x78b3c656cbaf3789; 0x173ff1fddfbc8f6d; 0x3c29ca560fc6fcb; 0xd58da58827c5c4a; 0x586031620d4d01aa; 0x17b6d4c47c5d89; 0x724d95b928a99b47; 0x2fca1ec0e94ea5d9; 0x32ba0584a0f1db58; 0x608d449d4b5a0bdb; 0x5751a92eaac5c186; 0x1ac63ba36aef144d; 0x8f73e50f9e1f316; 0x5a39bbfb0fbe4d26; 0x3b2dd898d65e3d1; 0x2afd2584c85c3261; 0x69c4ca2dbbd65c13; 0xf43b5d8b1e22b0e; 0x3d3a11d4b81de7f8; 0x4ea7706bc7c28d85; 0x1b53eefe8a384037; 0x7dcf5b08b30d58a; 0x721814ae92c08a39; 0x6cf8e597dd545056; 0x140c389db282ec9c; 0x44305041db23ba25; 0x43e33fbbdefb1cdf; 0x7fe087f03ec7e11d; 0x2fc9abd4cee026f8; 0x6035d2ab328b4a64; 0x60ca72008ec3eb23; 0x46bcc8fbbc33d301; 0x292559b104e31cc5; 0x3b4d3eedd389f1d6; 0x1f96cbb177b23234; 0x28c2a52f752f2b3a; 0x1ee8a8e7f87c6854; 0x335807bd6338011e; 0x20091e26a4bc15e0; 0x3816b59602b0d1f0; 0x4ca5a4006f24875d; 0x329c5ae47c358f5c; 0x179920d67d601a0a; 0x7c35553002cc0315; 0x72d836f47331d85f; 0x2853be57353c3b46; 0x34f2266d8e26d2b0; 0x6c83add5df45f9c; 0x2621e8498d94cc09; 0x1ae2645df5313280; 0x1bf987947d363c67; 0x568b5d61518d3af3; 0x861dfbaf07da514; 0xbd84240e99fbf16; 0x7fdbcab3804b4828; 0x43cec453c2640ff2; 0x75761504097f417f; 0x2a7169235979a4b6; 0x1175da14f8de671e; 0x42f58a3010c450fd; 0x23a89ed835d8dcc; 0x2ad0e63ad63f0256; 0x67bfbc76cde8ea0b; 0x524c5781964fc323; 0x63dbff6837041b92; 0xda7d0acc710bb69; 0x2e580270877644fd; 0x6b60df988e6eeb3e; 0x1b93e339e2e6487e; 0x70ce769d23165ac0; 0x6550a882630126a8; 0x7677b917a9663991; 0x4bbde21a1fad46de; 0x29da8443eb5e4b24; 0x19679b0aaa02954c; 0x2f7e318448505bc2; 0x12bc69d08f0b0615; 0x4e74bb7ac22e7639; 0x4b02993c015c43c5; 0xa2a7ad5a1720dea; 0x79032a46bbc5f481; 0x5478fc90ad62f319; 0x4cb50904ee3dfba0; 0x617a37ded4e3cdb1; 0xd688fffa016fc7f; 0x6d3f573e2761f1c0; 0x202c051b345e9178; 0x2b4bcf8760f09857; 0x4d6a568ea6053089; 0x74d3f235e0e45b73; 0x7f5981e9ec21ec7b; 0x4f99a3fd4dfb0cfd; 0x7dd487ea31747e0b; 0x2fea381fa7631dc; 0x62659b333be1babc; 0x2d00122e6db7765a; 0x55feafe5500c2ba; 0x38f914c9e52179d; 0x2409aae73ad50925; 0x4b7f17af006fdcb3; 0x1278eb99ea6773f; 0x233e6f0e6cb3d04c; 0x7b00c180fe1ab867; 0x2213dcc7a3249ca; 0xed51a3c7cba823a; 0x4efe0fa7e255d397; 0x1825a261ff9e78; 0x20135b68e3cc4bb7; 0x69983827a7c748cc; 0x5c8090bfafffecf3; 0x6067271f597ec700; 0x333440f88c37b030; 0x1f17e0e9996ffff; 0x3d0ef2f10cf0f311; 0x463846384638442; 0x488800f00708cb37; 0x10f690f6970e9776; 0x3fc1de11ee12deed; 0x7e7f9f9f807f8080; 0x7c3c3cfcfcfcfcfc; 0x199e1e1e1e1e1de1; 0x4ccccccccccccf33; 0x7fffffffffe7ffff; 0xfff; 0x600000]%uint63.
(* the low 52 bits of the two halves of a word as polynomials in the shift applied to bit 115 *)
Definition ds_hx : list (list int) :=
  [[0x329a5036cde296b3; 0x69030fbe30ec020c; 0x8dd1f7da6485f3b; 0x4c6c96e5d286d366; 0x25d88b278a64eabd; 0x527edfba3b0a6a13; 0x4f1dc5f933f0b686; 0x7bbea29b5c1ba9c1; 0x38997aa65ff57c2d; 0x2951d75e01565bd0; 0x69319ef87b3a1830; 0x7129728eab78e4ae; 0x47727368e1bf2d47; 0x67a2dba3f6146605; 0x6c83cd36a59e253c; 0x53f072d43d346950; 0x1bd11fe0f5e5056d; 0x33290ba6b2858cef; 0x448e50c1fc3cace9; 0x6bdadef5f9f9bfa8; 0x65129ae518fcd5d8; 0x9db7ccd75022aea; 0x53073e15efc8ec96; 0x62bc5aecaa95f5cc; 0x71eecd0ee14cb4d1; 0x3e29241ec2a0f7c1; 0x1c8153e590bfb921; 0x1d6f83d008e78ae1; 0xc6fdd36ac86b64c; 0x7bec2cd2f2e4c276; 0x2102d7c38cabe933; 0x66b222c7f2b695ec; 0x52765f2fc3af685; 0x470f33413abe4d40; 0x14fb9eaaf2bcdde8; 0x37127f0c29ab1e7b; 0x4037ca8fb89a7697; 0x281925da43cb1b2d; 0x4f7dfaed382e31ef; 0x66930a2a46da5c50; 0x64df2c8311df1b3; 0x53278c1e4ee3014a; 0x1d55c9bed9807c5; 0x57a44978b877eb98; 0x5319a8d30589dd68; 0x73327d98a2b90d48; 0x759db32719dbbdf6; 0x2cb86147084ab499; 0x2feb00d7209f0b7c; 0x2ccdf175ec51a000; 0x7fca629893e8512b; 0x2c8bb457854e10e2; 0x37bef5c079bf8242; 0x7691a3ad39a3db18; 0x1179e7a52e7bbf49; 0x5f859b9e8883a114; 0x70647d10ebbf6556; 0x70b2ef9a2384ea0c; 0x6cecc6ac035eac54; 0x6f3ed15a10e6228c; 0x4e22be5ae6df0d34; 0x2068f2058ca82b3; 0x6b79685af0484a51; 0x196a6a6cd791234e; 0x5d675adcb2a203e4; 0x70a060d4358e91e1; 0x4355f0a9d3cc3175; 0x3f372a283052f9d3; 0x19755f6eca7a4ae2; 0x18df2b48ceb0646c; 0x7531061a1adc68c8; 0x42456edde0399540; 0x487fdd70216ae157; 0x3dc1574292a7584a; 0x5b4ca1fe14dc72b6; 0x1ce1196e311ff252; 0x60f99a85ce29395c; 0x5fbe277c933276b3; 0x563186a1b965d283; 0x442246064d6c6001; 0x6ec99d1c6b7fd6c7; 0x56428b6a5ca29734; 0x1d61d619ecca3708; 0x6d87c3cc8fe213f3; 0x4dafa40ffcfb96d9; 0x582f44d016725671; 0x4b473c3ad7b3b033; 0x4015d6f2ae401093; 0x1a5ed3209a6fe4b8; 0x42babbc39340b3bb; 0xabf1d4d855bd5e5; 0x4a35a075fd346dab; 0x177a00335a6f2110; 0x135043ab2a42e551; 0x7b66117fd0da863a; 0x612090e74523a3d2; 0x4241bdbf112dda3; 0x7ab883cc7ed05b1; 0x3ecd24dc6179b2b6; 0x3d1d6da598d2414c; 0x4fbc7cacb8c2e200; 0x435663d274dbeb2d; 0x1cc0760ac85eeb81; 0x67747c1ae75c9320; 0x275181e3503964f9; 0x21cb334e24f1be93; 0x7aceec8a224dcb35; 0x36c7f288e1eba7d1; 0x1867e224952af6bb; 0x59bac4e44321d6ed; 0x54aaef0448e4d817; 0xdddd5e9418ab7; 0x600e073d6e853e09; 0x3b441951f86cfaea; 0x21815a1a72506bae; 0xec0377d865f5f68; 0x242c8f94201c82e7; 0x3ded26a59cb4d61e; 0x13d530716e154e61; 0x28f6260f27c9cda8; 0x3684f25e3f9db9a0; 0x6bd890e6dccf8046; 0x1cdabd7feb3925f2; 0x59a6b1b350ccf34f; 0x3e76717f80397080; 0x73f8c448d3180fea; 0x3934f89a27df60f5; 0xed2535567fa5bc3; 0xf322e7c848bf2d2; 0x5e29e78037353197; 0x84b25b18bd5667d; 0xd8916ed9bae1401; 0x2d8be4b0b6cbcf1a; 0x46fb3f9358cd8759; 0x301fed1158f1278b; 0x3da1db5dbc2c9262; 0x7e208c0da050b17b; 0x72c160ffbd47a26b; 0x6714b4a2236e59d1; 0x1829e9936484bf69; 0x661481c940123d5f; 0x2af9ddc0e58ed822; 0x4545bc87f9bb4323; 0x3f9d67c251ea8af7; 0x6ed176c30e41fbde; 0x4930f42413d71af0; 0x496b397ad2939662; 0x1d42480b853d00c2; 0x28a470398c80d8f3; 0x4575dc32c0a1bf87; 0x46fb366fc72d1c82; 0x381ab2691d8c4103; 0xcf20e5523ec7c3e; 0x5acda04be796a7f3; 0x3ca393e2ca803e22; 0x73af3f6eb8c4e5b7; 0x2a0452b2a64cb681; 0x57654126927deffd; 0x4ef450100e499b48; 0x71fa94ac770f254b; 0x323ac4b61561f4ec; 0x920725effb7c9ea; 0x56550cbf620d3a3b; 0x3dea8dfbc11c07a7; 0x1257d2953cedaedf; 0x38c3b5fe1964563f; 0x53e00df54e83b9d2; 0x502656cf7a0c4089; 0x5c92e20aaa843746; 0x1db12c0aad782234; 0x21fc5413e5e73987; 0x378cac4c93e99f2d; 0x201a2a58d2c7af66; 0x62f6ca5bcbb2c211; 0x516b0393752d64a6; 0x18b02fb68f047771; 0x554fab6c7213daba; 0x6240f57ea745e30a; 0x42591246e14d229; 0x6ac3348f162fa5ab; 0x1f33bea1292f5990; 0x3959a5b2c3dbdd83; 0x2a16718a8bf7421a; 0x1d5e1c30722d6eef; 0x55e2e2501a79a94; 0x5ee2ec6733f86d1e; 0x2335565df2cc4bf4; 0x67d335854f26e8bc; 0x11254bf97a14c764; 0x310766bb9c325b23; 0x4ade39b0e3621ebd; 0x211ae09225ee079b; 0xd4c9b21ac41a70e; 0x3b1979b2481241a0; 0x622105d8a6bee356; 0xf601479a1d3fd9f; 0x39e4ebc1c69b303e; 0x676e05f6636bd9eb; 0x5832046168a76162; 0x69d8bd7ffda6d8a4; 0x5834b77a1c51dc61; 0x2a5a649002d051e8; 0xabd72c0bf67e51f; 0x539bbe09c15c1af4; 0x6e9c1cfb38d8135b; 0x175a06348cd0ff0b; 0x1f8f44f994ab2c91; 0x2b1ebc669a35565b; 0x13d45b92613bea27; 0x402bb88cbee05d77; 0x25335c7c155cb97f; 0x7c40c67d06dc1655; 0x2af4f22118c584e0; 0x7f7a6bc6a189aa84; 0x4a26e67c31254150; 0x46b7c79d6d7ea8d6; 0x52cbe0802ec94157; 0x228b447bdd369e9; 0x3d1b660112d2a14e; 0x548eb59314deb263; 0x75c4badf54099b4; 0x43c026ce0fea5521; 0x4ead44217794a081; 0x175a0cbeb01705d6; 0x21284bda45da4b2f; 0x70974a3d78f1272e; 0x3ed0bc4b176e0ea; 0x2bf5857f0994849d; 0x3ca1e4ba32548d7; 0x62da92d2cc807cf0; 0x1dd6defe6400663b; 0x22f0cc31b2fd79f2; 0x27d944052eddfb91; 0x42b4dc55d7f7d762; 0x4e6bd3488982a07e; 0x6a2b17510916b6d; 0xb322837fa1baf0d; 0x445be9e4373bd864; 0x6612c05bdcd24f1c; 0x1c76ee7325c22158; 0x36f2884a01f213ee; 0x3cbce7013bc4f465; 0x265ffdefb82dc0a; 0x1d2ff68b8f46755b; 0x45d38f035a4c724a; 0x64db2bb6ec1ce9aa; 0x789c98dba3d9d2eb; 0x4898e9c264a5bbaf; 0x37e9049a16e3a20d; 0xb116faa3fe9194f; 0x71ba47751dd08c40; 0x31416d9fcc0073b5; 0x694d27c60de66b; 0x3ca894067ba4302f; 0x4eb0098c3c4315c8; 0x627b001ec9fa471e; 0x5db3a7f4079268ef; 0x6d03d3ffb187cd81; 0x287a14ecef435532; 0x7287fbf250140b7; 0xb5552114ea019a6; 0x64a18a284dbdbdc8; 0x7def7dbd048833c0; 0x5f2d61e10e235d5d; 0x7f4d8234e6d33e9a; 0x35b23df707d6d2d2; 0x31e9d8c916b8f1d6; 0x583b42882bab8ea4; 0x5b837097d8693786; 0x4aa031112fba9dc5; 0xe42497a84e7451f; 0x1801819b481ac7f1; 0x506d97a73ab1dd8e; 0x1125b49aa95a2b70; 0x5e2042eb02d44ecc; 0x2d42d331b318e38b; 0x19c6cca03d4336a8; 0x2d3aea7f1b5b54ab; 0x6fef72ac4420b771; 0x4d1451ad92d2ab4d; 0x2bc319cb74252570; 0x5a3a2f5ffda7f731; 0x3159e5bd52985ea4; 0x476df85ce4af926b; 0x1b48817943fe9f3b; 0xd17a92015bd1473; 0x12e18c65a0940d31; 0x77543fd8371d2eb8; 0x2bdb4c0b27278b2b; 0x3e3f6bcc474e10ff; 0x68a92bce8d1afe21; 0xc560152e042d242; 0x15c0d908213fdf18; 0x3dc5f780fbb48ef; 0x1f4f723007855cfb; 0x8e6ec4fe36fdea8; 0x1ca10a853e46c6b8; 0x5b694b59df83e065; 0x57ac2af255a01ae3; 0x13e24761024a9a4c; 0x36d0b786bfa7fb88; 0x3f1c1444a5d0e06c; 0x423d3491a1094898; 0x4dd2de9cfd786b03; 0x1c8443097a76939d; 0x397ad893bed228cf; 0x10b0e25b137a662d; 0x2b226890351cc62c; 0x7fe00604ba36f5d6; 0x5c200942f9af9fea; 0x2d34d42894619543; 0x68c46524d4b9bfd2; 0x1917d74133d806f0; 0x2fc398bfc428e5e1; 0x3ddce4e3c002c436; 0x45e2236b2f92f47b; 0x13da0cee1ed63ff9; 0x17ec79];
   [0x5ca1245566e49fe0; 0x54ca0dcde009d127; 0x2b5c23951875b4e3; 0x46891fad315d0f6b; 0x2303a864a26da5bb; 0x4e7ea96351a31fca; 0x150b555534f7d58e; 0x6a6a4a58996caaf2; 0x46737c44602fd4f4; 0x6d72f5ec5dc98ca5; 0x515aae1803c4c41a; 0x118f77699769d103; 0x78ab13cd90c7366; 0x128d065b5cf19969; 0x3e644521927d5b22; 0x7af8adc95f47cdd9; 0x726566667a890597; 0xccf1d8101254e9; 0x24952a1b236c4c1c; 0x43210d7de45d9adf; 0xc447c642fea01c9; 0x555a7ed01fb6f3a7; 0x66c65bf8a06ad8c3; 0x45f02abd1fd93ed2; 0x44a875523b9a22af; 0x10709c1b3b36114d; 0x14431a52cc08b24; 0x685817c4d658f5eb; 0x101d722d3f17a951; 0x1871510e00db0e22; 0x389082f5dda8ebb7; 0x42cc3527e1073656; 0x69a02c6569c68653; 0x6c8902539921ab98; 0xc14c16f6a86e867; 0x581afb791961e42; 0x3d39501a0c6273f1; 0x2adeb3e5f6bce7c8; 0x7dda65a9d827dc63; 0x1e935623062583ce; 0x4118606a83255158; 0x4a569d34cfdc3e83; 0x6ca64009926a5e07; 0x2940d1c79de5a2a1; 0x52c2368c7b59c0a3; 0x5974b3acb96930ee; 0x2f87fd0b975e618d; 0x4007fa86625c8783; 0x154d57e4b8aa06c5; 0x41ed6fb43830fda5; 0x67665d4a6f22cc23; 0x14ad62075c824c06; 0x77cfaa1dd16aab2a; 0x42198e69e38c638f; 0x6e3d9858326b13d2; 0x6e828784d0bce821; 0x53f759d70442190e; 0x7fbcf02bc47472d7; 0x20ac89197a4574e2; 0x1b3736e6aba0699b; 0xe738084cb8ac50d; 0x42d0eacf23825592; 0x4bb6b36a144e5592; 0x32d8effa2632aa9f; 0x3aed6590e2c2c72e; 0x526f285dd4c0f194; 0x5787101043de0652; 0x30e592c4230b0438; 0x4c24bc51c34fdac8; 0x46f1855348694cf0; 0x493d31ab52be9547; 0x3ad23192a3063a2a; 0x1509cf4238849b44; 0x6d1f54e398300845; 0x37043df081ec9393; 0x7009ebb99c23fbe3; 0x1cfb85f4423cae08; 0x4378c17ec5d5bc0d; 0x70df8f03ba0920a8; 0x2f55867c7da79c4e; 0x1a38236a7ce59d4d; 0x33018cf1392af04d; 0x34544398a816f732; 0x496bee8dc1fb8f76; 0x3d08499a0869dae0; 0x2779649b7fc1f1d; 0x3af1f021561089b6; 0x180c94e158c62bce; 0x5e8a8b4136b43c5a; 0x2318a4fc7a6b6a64; 0x68ab3d72a8f2e593; 0x48383c3faa8c02c2; 0x20f6e3dcc9ec6e4b; 0x57c9ef6c6998fdc8; 0x6ba7fbc1e2bb6ff7; 0x722854ed7ed48a19; 0x4db9a1faddf78738; 0xc8fe68a97f5b546; 0x7240bd0b0cd53f20; 0x6c6222dce1ec4721; 0x1c242fa0040eb001; 0x7899e6d9197f1c54; 0x650f0329ce1bc71c; 0x15c771cc81c8e6b4; 0x72537fd7916fe801; 0x4813258a5b807e80; 0x11a2a7888d2e64d7; 0x1be026617896615f; 0x1a625dfa43368f80; 0x77fbe13633d5a74a; 0x55067a410e940c6b; 0x23f9f44babf9d2d8; 0x685733f7f9183145; 0x1a830a9b95d3e97a; 0x57e2dfa4c15c5693; 0x571d48a8da3a96c7; 0x5e7dc8969a59f6cc; 0x169f24d7fca4e562; 0x35bf24464f4e0b85; 0x1786751f63263257; 0x22f0bfceabeb4b84; 0x7b2af66ebf96b091; 0x676e96793b210cc2; 0x62a4135a7efcd717; 0x80bcbb0328c70d0; 0x359f37bfe8f4901b; 0x626567a2e995333f; 0x7f68fa6f76e72b71; 0x7d1db9f973a4b1af; 0x1b06d465434b1d4a; 0x4a56f77fe68f1a7c; 0x160fd4b41237d8a1; 0x42dca33d9b394ed9; 0x32560f0e6b55317c; 0x6a0fb32999235a4b; 0x57c7d4eb4b2091ab; 0x70db1f6d1df937f2; 0x5ae17ac14fa94eaf; 0x15eecd4cd6aa7489; 0x13c31490b009de95; 0x7d3d8054c33c6708; 0x1ac00bcaf40a07ec; 0x26584abe781fefbe; 0x6a72fcc1b53bac48; 0x3bb098939bc8d83f; 0x6ce9f11a04ece8a3; 0x120ee515814bfc05; 0x102b0b1b5b69b947; 0x1783630498f2d62; 0x58aa26ddcc70b3ae; 0x36a121e45a773254; 0x65bfff310f9445ed; 0x58625cd080bac6e0; 0x52245119c9cf7501; 0x3fc6a5282cead60e; 0x7c6152368697cf2; 0x23e17eefffc369c0; 0x16c7f378f0c56641; 0x4d970b4c161b641a; 0x6a99f568287019c9; 0x46fd0575d9053fda; 0x25ca4f4693bacb5a; 0x4c35274d6a697b23; 0x386015798af58585; 0xab6e8dea3bd24c1; 0x50288f8322216148; 0x7546d55bf8d3017a; 0x550e3073773db10a; 0x5c6c1a1ebcbc2324; 0x2a530cc9fd8d6467; 0x32b004d6f9d2b2ce; 0x4d7de45e2a2a1c0e; 0x1f8346a655d7fe8d; 0x4e15d86174195520; 0x5eaa3e7537d50bd4; 0x67506f209c2992de; 0x4c758ca144e0e841; 0x3ab2890ed8686d41; 0x69fe7c7878cf1c8f; 0x267785f37d4910c7; 0x6ddd3af3a2b898b9; 0xceeed2aa58c06b3; 0x5e66eab9593a810e; 0xbbbf25ce0a7298b; 0x3671d13a44a31628; 0x78eb6b9ee7d80454; 0xe0cdfc6dfb48f14; 0x9a4dd99c88c5e18; 0x1070b4ac581f29d0; 0x1064a738d667a6b2; 0x714c284aacf4664e; 0x2a362364d846aa7c; 0x5171cfc38c3c74c4; 0x56b18a5287bf2a8e; 0x37fb84fd0c2c6cb9; 0x61655a375e56ed46; 0x3470cf5fee77c5a6; 0x1607c9b8d18e079a; 0xd82513da2e2ea8e; 0xa64bcd27f3557e7; 0x6c963e5d603f3e24; 0x26e820c39eb1ba18; 0x3bcce8e31186c68a; 0x448663644728ffca; 0x6079d20ac9778af6; 0x22b0033b0b86618f; 0x336517d67644e2e9; 0xed9daf046392109; 0x396160157e6fa7ea; 0x8763da8138d0d21; 0x397cbcd354fadb39; 0x6ca1181087b71efa; 0x6865923ba0c8faa4; 0x185c86fcf33e3a70; 0x3b3a10849eddd018; 0x4173d9657dc63a1f; 0x24e82b69adf7f2bb; 0x4224b5c4be1cf0c9; 0x4a442023535d49c3; 0x729650370cbb4ee6; 0x15a930d7f0e68d38; 0x7d8965a01ec258a3; 0x514930b70af5c5b5; 0x48156ed590ff3fb9; 0x41853d0e38e6b2bd; 0x6bcf77a7b548ce5; 0x2dfcae81ff826538; 0x21aaff8e5f68e862; 0x522598b5a4ee55d; 0x560bafe1b20a82ff; 0x57c17bddec08f9a2; 0x5d22a5ac934c6960; 0x49bee2a0b4eb4e87; 0x57233f0f4f8c736e; 0x890e7973856b8c5; 0x2ea0524fbdb810cc; 0xd2d5160e42c0394; 0x6ccaa316dfe50de7; 0xaaaf44e475686e2; 0x7715465dcba9d7b0; 0x411e48b513a5eeae; 0x1c998a82d89655c8; 0x48385995c7178513; 0xb633dd1c91751b9; 0x74c7cf0dfe9f1de7; 0x2cc02f28eaa57654; 0x13c1c68740543408; 0xf6172a50e746602; 0x4ba7228e641b85df; 0x7116874446872f1b; 0x42294d5cd315e346; 0x3d840e7c196b652; 0x972314acfbcff27; 0x5d5bf45de1783b4; 0x75404acd1f1bac89; 0x1868378537ebb940; 0x1f99d0cbe25f75fa; 0x4739801b9df17bef; 0x7ac7cb1b2af03122; 0x598951bd64b11314; 0x3743805e663d68f5; 0x716b839d5e147a62; 0x5b0ee294d6dd8e63; 0x4319f40cbcc2a95; 0x2c0ef23aa841e956; 0x35f6358b3a3a3504; 0x7aee50be7434bd63; 0xd06f349096cb123; 0x3f598145160a9630; 0x100cb60633bbef4; 0x37e9a56d6a10d316; 0x4cf82738cbff18fa; 0x68aa92dc86893fc3; 0x3e43f4305415c60b; 0x334bc0114970f8f5; 0x18a5b512a3e880b5; 0x7acdf58b03beae29; 0x3a741e2f5429c0a7; 0x32cb0fc89df9d87d; 0x1a1939157231f76; 0x5ae8a1b098878fca; 0x2b9a43cc2d8e4632; 0x3fd70b840b1e47d7; 0x712c753367338244; 0x3be6058a724b4a8b; 0x44e2bdf41f405920; 0xa176b337b157a20; 0x2bce770430b29fcf; 0x7eedab67f52d541c; 0x3ed9c9cf7b6aaae6; 0x720ab91ba483a9d0; 0x3a12e134f98e4868; 0x583841be1572252; 0x7969a479e0eb8e66; 0x653c7ae03fb052bd; 0x65fbb9cad4884461; 0x31cc7fe0c8b54f53; 0x1da9daa7bd91cd95; 0x6b7d04ce853ad6fa; 0x501c6f47d1323e92; 0x35f5c91fd06bab10; 0x5a35b433f7258b27; 0x22496f738dcd58da; 0x6db81ab081ba631f; 0x6421f69a789a15d3; 0x5a067e5a0b0fd026; 0x25fa81a26789c3df; 0x243726aa2e00cad3; 0xbb7e07b3f306d5f; 0x527da032ad563007; 0x4698d5148b4978b8; 0x58fba31d6bd70b56; 0x610f25e7a659607b; 0x5d349fc5cbd19135; 0x42b2d4aa52d424e1; 0x70a51d65bec82db0; 0x719dfbe9624b97f9; 0x28d5cf];
   [0x24619573e26dc32b; 0x1ed8fbf175cd6653; 0x7779ebc30a209f8c; 0x4b2eb4cdf183defe; 0xcbde1b1a710ee3; 0xf607938f3328608; 0x5cfbc7072c432855; 0x78dd1b5f66c15e05; 0x19ae238c67ea8df5; 0x370ca300b6d552af; 0xef17b6f4777f381; 0x50b28049cc051e4f; 0x61691cf77e9d38b0; 0x6811a8a087055224; 0x55ec960240faf165; 0x3bd055cff7e3a686; 0x4be2d86219c7244a; 0x1424d3a0a18631e1; 0x66029d25a2733207; 0x6f43c3b62d49d1ae; 0x43a9eea9fdfd85d0; 0x2577a1fe46592285; 0x7b08c19ced810deb; 0x708e338693128388; 0x5570643748bb9c30; 0x446f4a87a4a4fd76; 0x3062ae4f320366b9; 0x621c6d1022902d18; 0x388caadf550803ff; 0x606484ae992c31d6; 0x7fee83bf1356cee0; 0x1df8cf98f98c3de0; 0x7ee557010dc5c7db; 0x63d1248466fe4277; 0xc080b34ecee9009; 0x7ef55e7623d8cd1; 0x7587d37a8405d2f6; 0x36cdbc81ec528891; 0x32972a594eac91ed; 0x1a1860d1b853ea8d; 0x17f041746f89c4d1; 0x7b8a69bc12f8b22b; 0x645b4fdd94017c74; 0x673e3a7fdb8a1a08; 0x515bf3a8b6fb7a5a; 0x2f3517a3b33ab31d; 0x724098f22eb876a5; 0x3d446883a4219675; 0x195f76a964fa3233; 0x6f9b815cb8eeb40d; 0x7ac78682e2281738; 0x775156ad8bd28e1; 0x4939feaa2d29d943; 0x5ad0763e2318a8d6; 0x50262caae22c0e41; 0x528500a4fbc927c1; 0x69111a4ac9654c4b; 0x38e0ae9d27d865c6; 0x251e21a80d8feccc; 0x3715928289b6fb0a; 0x196f41cb1d05ccf6; 0x57c65e8e9ad1b15b; 0x919edfb6b650960; 0x5b59840d5c758cbe; 0xa06b62204fd333a; 0x1d9da5dc232ad2b2; 0x721161b6bfa95fc8; 0x5f9c49311feb0d13; 0x46253963912633ca; 0x242741e4e56397be; 0x6a6e84967860a5e0; 0x137aef0f9b22f313; 0x4d814dabe011dd00; 0x678c92a7d1ff73bb; 0x366fd870b5e65c36; 0x2bdc4f6cfbc01cd1; 0x443c59d14783f855; 0x7ad8ea16285a6262; 0x7833ad69b92b44e; 0x22d40d4a7d6067e; 0x469e9dcdd2235d8f; 0x53431df5b1ba5a9d; 0x38f3f349ebb2b960; 0x21bdbd4f799a3e5; 0x298024cf57b8f41b; 0x7e1f5438b945d50f; 0x2ba856500b25eca; 0x7e41beb36811fa69; 0x7b09b2f9b89f7012; 0x4d0130db5527d210; 0xe232dc5c9ac275f; 0x31e2f16b97e80a68; 0x2cf8ae6ea843a21a; 0x23c6f7fa3c30b81f; 0x5b0e4f7cd4edde14; 0x7c38fc09a71528f4; 0x79aa1e895dd0ea39; 0x78e98abca9fa923d; 0x4a42fbd66938ede0; 0x1a3c227f1f2f6d9; 0x228f4c03f8cc1fe; 0x5d79f44a1b7f2a89; 0x40abbc18f43b7baa; 0x5bf3ad818f905bff; 0x3ac7a5176aebec2f; 0x55e6cde24db85462; 0x48c211965e51262d; 0x59b53b9406f181dd; 0x5cdd4403a09bb2ec; 0x3ef498e4e39b3046; 0xbfeaf25362bee55; 0x2caef17ca95236c4; 0x1598731f58b90bde; 0x1b570a54bf9d87c9; 0x3f4fa8a3a6ae1d8b; 0x19362b2a4f133b91; 0x7b89e891629623cf; 0x1dedb68e8728583; 0x72c97f1147bb1b85; 0x4a830a6f1c54a33d; 0x7f98198c5af87474; 0x2d1ccbdcad500357; 0x711f50085c56cffe; 0x43f7005459ea166e; 0x4072765816aa2e2b; 0x185c3a4a02e6501b; 0x76027048553eb286; 0x4562b65245a9eced; 0x57f48993618dd47e; 0x22b75751c4b1fa0c; 0x2f5b05a0dcccff46; 0x81dceb811f55143; 0x653e544aff13f0da; 0x7d446f660cfab919; 0x69c0e39dd78bb100; 0xb01950c06034479; 0x6d2625f22aa98b94; 0x5b7dbe97f47d627; 0x4a9574c61a1e3e85; 0x1d7ee8c659f71150; 0x2314bcf25254131c; 0x32c84d31fbd2ba86; 0x5d735fbeba8fcee4; 0x53d0ed68ccec8ff; 0x63976a671f791aea; 0xa2431562585cc47; 0x3e28ad5b05013da6; 0x18fc0af19d79e1ee; 0x53fa10455ffbda94; 0x20bf480f9ab96f4f; 0x78aa1298262135d6; 0xdd95caffa772c09; 0x2127a842a25166b6; 0x1e6c02e66a26a531; 0x6a1ef161e0d270b1; 0x51d9b8014fc9b4ab; 0x2cf41467496d5adf; 0x1f54a2c9b90cc431; 0x7b4b15535a4d4dde; 0x145de0620f93d633; 0xc72d846da27ddb6; 0x8edea69efb27a5f; 0x4f2c44d042203c08; 0x7bda081785c2b6c8; 0x592e6a2d62103289; 0x265f959ad6a750e1; 0x1cbb49b45fe169cf; 0x46ce36cada021b06; 0x39803e7fdfc58be3; 0x7201d562617daab3; 0xcec7f90c306100f; 0x7f8f061f7a8fd27f; 0x289b8b05cc664e99; 0x21f80d80db06f62e; 0x1e12a101cc3a8233; 0x4ec36b85ef68ac; 0x3a46ec1b989232cf; 0x267df8f118f7c115; 0x4c31a17df6b5fc37; 0x7a800c5fecf07259; 0x3e3bfdf7373c56ac; 0x5132c9b1dac4f92b; 0x30f2606e665dff07; 0x1bbdef234a2ad8d0; 0x1b2075949031a154; 0x35f78616757ef2a2; 0x3d43c38d97fe4ce; 0x4cada7ba4b73d84b; 0x146c51b60877eaee; 0x2664242bc1befc1; 0x1f425a15ed5c0b3; 0x2e229c59a651109e; 0x1ec9c6cbbea3cc85; 0x4b433c8079e7cb10; 0x7ede79829ced4a4c; 0x56b735b5e8457c17; 0x63aa802435ecef; 0x65fc1c9179952fcf; 0x187b38633794c053; 0x205f392213584568; 0x51e3e1e677eaf6a4; 0x334cf390b9997784; 0x48edeabfa0d187bc; 0x4ce5545cd257ffd0; 0x52fafcac6ccd4bcf; 0x23ad805114f40ec2; 0x139b58152311399f; 0x20f8f2c976177a2b; 0x57fef4504a9e20da; 0x52fb871f3035edfb; 0x3fb55cae744ef08b; 0x28ad824725f41e6c; 0x589db5e2cef45507; 0x76a05a970e5c4b21; 0xc1c5d0ffa112ff5; 0x6567395c06ef03c7; 0x2b467e72ce0c636c; 0x5acee4cdd1b0a8e; 0x1301a51e3741ffa; 0xbcc9928dec88d0a; 0x134dc1bdd2ef6374; 0x5bf8a866a615ea87; 0x75c58e3029f2dd82; 0x6b128776e6dd274b; 0x598321e04234132e; 0x68c78f1da88bbadd; 0x13512a340a7d3430; 0x6f4c60a043da72ba; 0x1dab78bcb0c83ad3; 0x1a62915f909be0e3; 0x11ce60f2e5bec311; 0x329ba7022fd71f49; 0x2fe3ac5d8df4c552; 0x4f9c92775e720327; 0x22bf0d7f138d5a5b; 0x2dbae54c9da57f22; 0x35ffb7456118d99b; 0x1408fd4d2e80fbf9; 0x3253624d23dc9e1a; 0x546ae067b3ae5e8a; 0x7366ed6766362cb6; 0x51a302ab988e0aa1; 0xd978db69e86239; 0x65682d36d186f99f; 0x28edfc293d789d42; 0x56a970bd879e0d6d; 0x3598b01a338b53f2; 0x36a60c13c512604a; 0x62269ff9e3c4d10a; 0x6aad4670efda0431; 0x436d2e1bb6cdbbab; 0x5fce7380ea04106e; 0x532b6c2abe08ab14; 0x293f673df96e0ca2; 0x7af8a38b09f3bd1e; 0x702f31d776039e72; 0x2af99621698c658a; 0x525bdb03a01db3c5; 0x5d20bf4f88cccf07; 0x73f4bb222ad1e893; 0xa68ccf904a87142; 0x16e41f8a939638f8; 0x491fb77bcb22368c; 0x1b0d188dec87da99; 0x7d99d27033884c0b; 0x4bea38235b52eb88; 0x6e14f2fb67738ad6; 0xa9bc2d4961f6f48; 0x7193827edf3d587; 0x3ed304d98c0e9159; 0x4bb3631338ab75b9; 0x6f63055b514cbd0c; 0x293f842933c11e0b; 0x1abf88512b4a204; 0x7dbb7e38a8564ca8; 0xec712a6745c5a09; 0x5fc19a0627927e05; 0x21eed3c60a58189b; 0x239c259a6ff320c; 0x7e24b440e5c70005; 0x5d5f2880c243b60e; 0x41af9ef85f83ab4; 0xb41e09d93fbf09d; 0x6a585b1abd146190; 0x1b224f04e5d4bed3; 0x59d089eaaa56b969; 0x62ce6cd1bbdac91f; 0x564aa72760f3d15a; 0x7732aa97d34daa47; 0x76088946a1f320e6; 0x39f422f75cbe7429; 0x13ad309266785cd7; 0x320fa6ba5be5f7a4; 0x85e5ac0bd691d3a; 0x480167ee5e1bc3ca; 0x631c3e135b88127b; 0x28f1532b15af781e; 0x41e7d3a4cdf1fffc; 0x494328361df6516f; 0x609633c5d8e55063; 0x22c52adf7769c6f3; 0x5ab2488dbc80387e; 0x13bf39a6e2781971; 0x21e8d1be6d832729; 0x6e549bb1e2ea2407; 0x79de653ed5e0763b; 0x42e813db2467203b; 0x171a2b5056ecf711; 0x600be5749324ee8e; 0x43d773eecfd63200; 0x34ed378fabe5b1ab; 0x4aae3374ab141a9f; 0x61b0301f69545017; 0x6017203e48cd8ab7; 0xd6701b44b596e31; 0x29d9084a57f1bead; 0x3290c285b7690221; 0x31b95f];
   [0x5b40940542c9b525; 0x55779dc0cad7cd3c; 0x56451e07ea6fb42b; 0x3f7c2f790bc5b81b; 0x6762df450dda9a4; 0x7e75cd17099a0738; 0x3205e3320c4633ca; 0x3b1851af4895bb87; 0x45ab04d9693b1732; 0x8f217313f8c7ba8; 0x38117f517055f2b4; 0x4b813f8435c55e4d; 0x6e4d08906444c96e; 0x353a843331f7f861; 0x75038ec5d31557f3; 0x5d7f1178d92ff045; 0x3e7f6392a82f4311; 0x5cc3b16c26c1bdd0; 0x7f73cf22c2b2cf33; 0x20174e5bd579eb97; 0x589f6c79c424b8a2; 0x7562d6fe99451ae7; 0x26179c5fa53b2ae2; 0x6cfd545040ce9978; 0x1e62db8cd6189a56; 0x3d53dc2a0491f20a; 0x1baac23eb4763b0a; 0x1614cab9e58b226b; 0x1fb06e30b991e3f2; 0x65acdc8efa8e04b9; 0x7f9da340ffd44ed3; 0x72d161cdb5ef5f06; 0x312ba66964b0181; 0xa5f2848052715de; 0xdfd97985b661ecf; 0x77d5f82e0285a513; 0x3b281a220c52e0f; 0x53eff9837b18f93d; 0x73c2035d536f20cb; 0x472d709697397c5b; 0x342f3a0f0754803d; 0x4bc7e1d8e65ab2b2; 0x3bacd57a6c0e30a6; 0x5154fe16b916116d; 0x8fff7d1dbc74c58; 0x2242dc0d6e433f29; 0x1d84b07a8f3847ea; 0x14bccad0f184f2bf; 0x7a0d7eb28c310636; 0x1c1b75321dd8ab23; 0x114da336b7aa4c63; 0x26e23578a20f84a9; 0x270896e2581bf65a; 0x2619b3bbd6ef9197; 0x6cd9391b3db2e693; 0x4d68785e380145ce; 0x7580d74eb167351a; 0x6e064ed5f86b927e; 0xe690498fb3c9620; 0x171107549b01cda4; 0x267dc54a59ba2f9c; 0x28350caefcc36647; 0x37936203c031ae31; 0x34f28322767ad91; 0x47d29ee3be045c31; 0x20bd00b0cf5e0564; 0x172e75498fe1c272; 0x745835f49629aecf; 0x914425728e7e9e1; 0x12c47fc7a9b7d0c4; 0x33430a63c9a67258; 0x92d02569ab1aead; 0x79cc516b9d0ba242; 0x79cd780793345b6f; 0x3a83042820ee9b76; 0x7b4d0d92df26059a; 0x6573887aa87e61f; 0x7331b91118b7a370; 0x6f1a6135cc6aa9a8; 0x10ddfdbd1ddd9f69; 0x67ec843a027f55e5; 0x94eacca1775378a; 0x4f9a679f87676a6f; 0xb8dc355237034b8; 0x47c46523ce8a2f41; 0x161c9f16182e3f53; 0x394d84801ccc3b05; 0xf78857fe80aef8b; 0x68367f9a9bd44e85; 0x36c42ab9dd99d121; 0x6fe11a4961d71c36; 0x571e80dab137d0c3; 0x3de7399d91799cb2; 0x402a38fb125b000d; 0x327d8e39f25a11b7; 0x5f25f12db570f867; 0x4b3f17e0ab9b8da5; 0x7ba84633534e9c7d; 0x5e864699d69d9a07; 0x7d7f2e7bed45e075; 0x7093fae1d568ea64; 0x170b2b0f9a918588; 0x4fd483fd97dc3d19; 0x6f19e5b571eee83; 0x412115fd615b01c; 0x215368f94d7b2b04; 0x6b7cc48e4e7477fd; 0x44d3a51a0b210dfc; 0x107690b4fc580cf7; 0x413c9aaf10e62828; 0x76f8e52496c656df; 0x34a5297f09b3325a; 0x2120612233fcb8b2; 0x556ffa73affa63b; 0xd9269fd699e487c; 0x71262a58e1e9cfeb; 0x23cbf74a95691b51; 0x18befb437a73bdb6; 0x751d1fa48a2ee946; 0x665dd481f9147a6a; 0x2ba50c693510a622; 0x4cc82ba675680d1f; 0x770c998fd356af34; 0x6e1816f08c148ba6; 0x6ed496f9b99baa15; 0x22ae9918dc6c68a3; 0x514600c8be0f5b2f; 0xdc269ccb851611d; 0x677b96d4623dcd26; 0x3cdb91177632c640; 0x4d21f2e8cfb2ef8d; 0x7f94479692881b29; 0x3e43e13c9e83ba15; 0x69a2cc4fa2cf5e2; 0x5ca599bd3186ec97; 0x2808c8ac4f4f150f; 0x7160cfb90655d1ea; 0x27bc266867b02f9c; 0x75d0ecf6ef36de90; 0x68b3cba3e6cc5583; 0x43db3725c16e60c; 0x29a91b6dfc9fdb57; 0x6345ae0d7e9917ea; 0x22397fda35167842; 0x182233e9660c1966; 0x36fd04612f94efd4; 0x250573d0bcacec01; 0x244929327d86abfd; 0x7c82f5af996a9f7b; 0x733480548514829d; 0x4db22b938a20972d; 0xf8a6bf13e6cb8e5; 0x6f9eaf818ffd742e; 0x601542eedfbe775d; 0x1a68bbc61a8d3d00; 0x199a03b05be42205; 0x46be761adaa817c; 0x6ca05f6c96e40141; 0x1e686dc2a2222a26; 0x33b9d9f1ea90cf27; 0x559e0b990be812bf; 0x4e9bedf1bab7f6e4; 0x79a0132a8caca7dc; 0x2ee12f8e704e4cf3; 0xd6560a80222d57f; 0x4a54a413e339a77d; 0x63194d495426a371; 0x3d6db9994f3aec51; 0x4c732981c43f0765; 0xb62b2979e854755; 0x712e163d93824dbf; 0x89ddde2955ec562; 0x4136757cda6967e4; 0x2ec8f06d653769ef; 0x6cfa0afb92412c3c; 0x43d69321f7d483ab; 0x219e2b1da1e97e79; 0x203a09512a48469a; 0x7cf1617892cdb3f7; 0x160a486c987bb4e; 0x330d59d62dafc794; 0x5c3044d11f2eab15; 0x377f486aa3c55db7; 0x7269b0eaeb802309; 0x278e7b47fa9c10a4; 0x25a52f95fba9bd52; 0x53649f791cb973d5; 0x6f572aa8c48fb39b; 0x67412bd6b4fb92e0; 0x75c16780efbc1878; 0x2e07a4fd98bdba75; 0x2e6f3a8e9c89d985; 0x5c096417784b5781; 0x16f9b7cfa68e2017; 0x1604374332c9c7d6; 0x21bbc36a16be05fb; 0x75dc9f51ef2616b5; 0xd9c0f2efb5473b4; 0xf7acf01a5c13de1; 0x3ca1887b8949d857; 0x22eb9fa3fe03f886; 0x796ce9f73f8b8406; 0x3491dde85c392c4d; 0x18b8ffb69c4d2e53; 0x4bb016ab8eb103d; 0x50bf560958707a75; 0x46a6577a3f55ae63; 0x6bde799513b2b809; 0x538b1d231f525de3; 0x9944b21627bdfb2; 0x5ed2e6afc56335f9; 0x62c6739ad65d558e; 0xb21c4622320c1ee; 0x1a45e86642476b93; 0x47537bd9b996e469; 0x1a5e6c69ad5a195a; 0x5b48d29ab9619d8b; 0x53181e862c43931c; 0x3c97ff3ab060f57a; 0x4f968f0e062283c8; 0x6bb3080f4c572c3d; 0x5dcb9779e8771345; 0x58586eff09548f06; 0x6bc8bdd758f01bf9; 0x1a173fd14064bf43; 0x485321b14298949a; 0xe2650fb478e216e; 0x6fb04bd6982f3b4a; 0x1deb5145973a7e74; 0x715a31f5342f992a; 0x3d9fbf59589918b; 0x3efeb9f4e6312bf; 0x224334530228b07c; 0xf6abdd34b245bf; 0x5d00afca7ff047e5; 0x1f3d32588051ccb0; 0x38067347081f30ad; 0x63d6bab100f4ea14; 0x6dafe19047edcd5c; 0xd3bf5db26fcc0a0; 0x47f585aecfcb97f9; 0x50b6480460228c32; 0x508450ce6b3e9967; 0x40163d6424e89d30; 0x1cb10933f6a9b502; 0xdf413b223103638; 0x79b4355625aa5217; 0x67685128cb6a9a4; 0x40edff8dface6779; 0x1e56efb49d1d2ccd; 0x4d973a26b1bc231f; 0x38b38908e71c0682; 0x42659dc6a14babf5; 0x27b515e0896f4b6c; 0x6a02e39e7e3fd80d; 0x1c3f77215a71261; 0xbdee5a241c0a2a4; 0x74283bef321f0910; 0x1c625d38075b1a53; 0x75ec06cbdd2a54b3; 0x65b9bdd1d5eedc; 0x1e92838646eea8dc; 0x580c0386054f87a9; 0x466a3faa80c8359d; 0x4c3e6f4cde7ef27f; 0x6ce90be63728eced; 0x2b3c203e811cd1b8; 0x38a38793122a2c99; 0xe767ab373aa530; 0x46f7e002b3ae69db; 0x30c1d5b583ad7a61; 0x2e33624329409863; 0x5dde9420d23a4c1; 0x1c6849c5dabbf928; 0x3836bdb40bac2655; 0x14dd277fd4c4b602; 0x445fb00eaeef197c; 0x585764570f9ce117; 0x46c2a65afb9e4c00; 0x70dab3e751dc9da5; 0x7e45a037d68d10ea; 0x234b38c6f8474293; 0x3941ec5d8b558e4c; 0x1fca351e5d20af4a; 0x51237b7447a1b571; 0x5bf52e63e4ffa0b2; 0x6b37beb39a7a9a5c; 0x2549ee6e5ec58bd3; 0x5e2d672ce5725e5d; 0x311082c55744a32f; 0x6681ead1f76f2c69; 0x3f0acf3f97758c00; 0x7da94b9f51e680ef; 0x35b21f29ee0b0158; 0x2cbb2207b8274dac; 0x10c9a0b0d285baf1; 0x33c199656236bea4; 0x6fb6c6b05a6c2374; 0x5df936fb2cdcea5f; 0x13fb7f410a9e5abd; 0x364b4a147245dd9a; 0x22433917c26a4cb4; 0x5d1715a655088ec2; 0x2a575b22da57e4fa; 0x5d14a08b54ae43cd; 0x7e105187e8769dfb; 0x3c690b4c7a8a3aeb; 0x5db8d6130b966e54; 0x57df3526a59da74f; 0x67589ec0b84506b4; 0x5ee76044c2037ca7; 0x5bff5e74238c9283; 0x71d67cfd35f57c18; 0x502df4852df4127d; 0x6986123c64ae2e4c; 0x462099f7264ce24d; 0x17f9c6f712b51aba; 0x263514];
   [0x33b57d14e7fb518f; 0x26264fc6040517f3; 0x7b7dc5d24aba8e7c; 0x71db5ec8a97d0216; 0x338cc94f8cfdaddc; 0x7749077fea07913c; 0xe8a5aa7607bc88a; 0x2f28283938ed8caf; 0x5ec7814880be6399; 0x4c81760a1ec6e5b4; 0x4a3acabd645d357a; 0x788f46257253cc53; 0x4054f3eb01f06eb; 0xd3c9896bf36af81; 0x7551acb27a291eb2; 0x4ac81f66d9830bc5; 0x6777b83d94a39fbc; 0x483419e766cc7f40; 0x5cd9d4599dcba6bc; 0xd4e095ebf952b8f; 0x1f9bf2f20661d285; 0x435e86cb19c5f8f6; 0x61f79d4d7904b51a; 0x7222d1d983b9535c; 0xad9756c5ef2ac5b; 0x551ac2d14327d8c6; 0x3e7e22a8c559dca8; 0x32c70d4aeb226a8f; 0x336c94db70789af1; 0x370eb6005296dd13; 0x14165ee5be50a5b9; 0x6f17a34d1998975c; 0x31b204ba752a74b6; 0x75f6c5641bfe7598; 0x1548186df8d47e25; 0x6b14055d5fcdf8eb; 0x37b559fd01e21e91; 0x1424159dc7e531d5; 0x1f3fab149eaaca8f; 0x476663167af4070b; 0x5651d540a8c2b518; 0x5a6561ab3e3bc7ea; 0xc1d3fbac431c343; 0x164aeff3b85f15e8; 0x27513cea2851840d; 0x244fb21f8757e4e6; 0x583deaf6bf0998a1; 0x7fa57a99db364226; 0xe198360c40b334b; 0x421f864bdf024ffa; 0x6d48015b9d3815e2; 0x523b79735f337f4a; 0x184752c08920915e; 0x1bbc065a69e76733; 0x5c696e5fc88faa2d; 0x3577815541c023fc; 0x351522fb3bb6ef0d; 0x6e56d09872c5b65b; 0x3aec19b1f171ceb8; 0x6e69982adf2ee316; 0x48100a4b54202bd; 0x905dd9e54c7a263; 0xbc3aca4ed51c39a; 0xd5807bfaf897825; 0x710fe91b6b8401eb; 0x9daf08de9278441; 0x4b73909819b868f0; 0x3a1a296cc7ab573c; 0x46c29c0a519069a6; 0x7024c786eef7c4c3; 0x3b04f842ec8a95dd; 0x7e2bdcd9ed0930af; 0x17a7ae40718931c3; 0x55be01b5906017a1; 0x978904b32e88647; 0x7ee168404438bf5c; 0x691cf5b8733542e4; 0x7633a009225ac97d; 0x16ceee1f05b7fdfd; 0x53a901063a42c254; 0x2004daac79634386; 0x1ad565846fbf0f56; 0x37448e51cb53eb24; 0x1f120995b59632d5; 0x43c93a509e2600c6; 0x54ad54fcff678cc8; 0x1864b53a96d71dd7; 0x4f8b7aa6b25130b9; 0x55438f99dcb6b1b8; 0x68c63ae872abf0b5; 0x5c499bf3a41c3d3a; 0x2eeb9d029cdcfaff; 0x161e430a84ad2fe2; 0x4a1724a8bac7d86b; 0x3945af3fd374f19f; 0x99f1e1ddcf814af; 0x2bc322165d734ed0; 0x4fd4e0d1620e86f0; 0x246260d1230efa5; 0x4ba5314fc590ac0c; 0x2ff298b072039050; 0x58312ae4bf9d13ae; 0x33f368b688ca7cad; 0x1c25524128163e8f; 0x87d85ceceec4a37; 0x1bbc6711cab8cb1b; 0x4be8d502404abecc; 0x77e0fa54832b4048; 0x1ac5dba2a5525a68; 0x44160a13ce4d137; 0x669065d4bfd43c6c; 0x6effa27e3e29b38a; 0x2aa0823e6793dcc3; 0x166a7fd4e61d025e; 0x2858471fb5de215f; 0x6b3cb6de2221a587; 0x1e00ba6cf7bae50d; 0x17056088a766af01; 0x5a4552d850ccacef; 0x3eb14d1f36b6e1c9; 0x3c22ba0833ea5d4c; 0xe5477e18ba4573a; 0x4543c0b0dd04007e; 0x2aa1d9320442f8d3; 0x4eddcca0f0bea7e; 0x330dc09d52303418; 0x32036c6d6e112b4a; 0x70af47ce0eb7cc87; 0x270a8f175d9d1043; 0x4e4b848f16313cd1; 0x655195c6eba75a29; 0x4d11534b3b5771e8; 0x22a09a4f20e5d5aa; 0x13a2ef2a8e2c6a9c; 0x7fe798f30417dd17; 0x1815b9013eaef506; 0x1550f8b998752947; 0x4e7b3b7f8d7309c9; 0x2159d9ae0b0903d; 0x465fd32b3ffc30dc; 0x737dabf8a11165a7; 0x54cb5beafb437afa; 0x6b059dc734c4a205; 0x6b6eff861e9553d2; 0x5c0bb74ff5cc146d; 0x1c818bff1de3b17f; 0x191141b7bce5a4d2; 0x462ef3525180750; 0x2f8e83d759e42ae4; 0x4cc7566d77cb110b; 0x9cf304dc1b9a84; 0x30df34b838becb9c; 0xd0338dbeee83393; 0x68a74063607e75dc; 0x772ab878aca9490; 0x6bdb7bda8b4bc0fa; 0x3b09a8a9dd134d3a; 0x5dc1b25b61515d96; 0x2a36a388ba8af8e8; 0x48ff88efbeac9a5; 0x27c0d13c183bd0d9; 0x3b940724d5495a14; 0x49fcc45d9066fad6; 0x484160d29e295636; 0x23b5412e2693ccb2; 0xcd567ef1be77db1; 0x26b148bf66a788c7; 0x62c15791ee91fbe7; 0x67d2253c93296192; 0x7354aaccdd491b4e; 0x587a8184234c8f3b; 0x77f13e655aad26dc; 0x65d77550457fe20e; 0x432ddf34a5e9a86d; 0x71149df27ef90a9; 0xaa8e3eb2722debd; 0x16a32e04ea1071a; 0xbec3ab48961611c; 0x4107f97b13229403; 0x9984b534ca1ba1f; 0x5b455e5f41d0f64; 0x5e17f136258286cc; 0x7d9a855bb1c4133c; 0x40973269d3106c74; 0x562013f2af169249; 0x69ac353265e6ccb3; 0x108655eaa5272354; 0x30aab4dc13655354; 0x6954d01574bbfd2a; 0x1c843d5ab803282f; 0x2bf42eedd686fe47; 0x4695b18f11c6d368; 0x5d8fafb591bc6e85; 0xc11ac8d7d56fc8e; 0x763ab96a08698f18; 0x1a3a3629a819e0f9; 0x44e76c72e6dc85b; 0x3f736221784e350b; 0x779e54bc47cb204; 0x65c2e4b99301e70f; 0x1cfb6392aadb0b28; 0x566958b3d9dbea1a; 0x133c77f0e5c469da; 0x3bb4776ffda730c1; 0x56a2c687986043a2; 0x7ebced046e7a4b25; 0x71ba1d20a2e87dff; 0x499604a98c5bb00e; 0x22e56f5290b95076; 0x451499c33392473a; 0x279380220942deeb; 0x36c076bdbe458eb5; 0x3dc30c91fb70297d; 0x2441d05a89ecdb15; 0x5728748ce7f8caaa; 0x6d5765823abbfd8b; 0x60ba7e5f2edaa8f3; 0x2a393b85f13b0f69; 0x16a125fb9f06c204; 0x33c961e333e496b6; 0x1635a0d3cf338685; 0x4857a712cd144e29; 0x1b6d0e306828f153; 0x189670386eb6e4de; 0x471e5f236d1bccf3; 0x396fb574df27af6; 0x4cea1d4c173188bd; 0x2b765fd52f3056d; 0x2cdb44af5c9c0d03; 0x234bc282bf001a38; 0x34cc454c26c55600; 0x27a18ad43ad6e0e2; 0x4552e996dede196c; 0x317de17ec6c00341; 0x2543e4950733d864; 0x5b4bede8e52eb96f; 0x1dd14beca5d985b4; 0x5a7c08d63dd7060f; 0x2ab005eba637bf92; 0x5cc30b41e7b2e985; 0x1acdff567f2ceb4c; 0x7cbdd7ca3496dc34; 0x30e464a1b55b9feb; 0x28ec2b6e95dea701; 0x7efe1069230e147; 0x61c5025160205c04; 0x183d0469def0659; 0x6ed529d224d26dfd; 0x7b4e04d8ff9cacd2; 0x362a3b5e877b0ef3; 0x8645ddeb1ac8db; 0x55f7506b6e5fec6a; 0x46f32411259d0e4c; 0xe3beab5a0d9e317; 0x356aeecbab03626c; 0x1827122b3091fd22; 0x32ada8ed66477a71; 0x30ec5c8b21cfaac9; 0x3b95344d12e01095; 0x568f52ddb7f0db98; 0x8e9ab8a390a77f; 0x1433cc044d0414cf; 0xa4ccff8d1aaadbb; 0x18b1c9613fa2d432; 0x32232fb4c7e59f89; 0x28197226c33aae7; 0x5b08c52853553e82; 0x240510e403b29660; 0x27920a948995f486; 0x545420693d5d7f8; 0x72ae0fb97b90b43b; 0x7e871f0099c8ce2e; 0x36fbf2fcc18c8935; 0x73e9d522849c8056; 0x3e19cd2cd0281fa9; 0x7daa5ee119023cc; 0x7b39319b893bf74; 0x1c1e20402a07e3fe; 0x94020beb0df95ae; 0x138b936896cd1ba3; 0x6e9530cc2d6ac55f; 0x7fe79ca50c149d56; 0x26cd4de52c7d660e; 0x329c32e19e7accdd; 0x677d132820866828; 0x422bc0b42d38b8c0; 0x574b60f2e47216c3; 0x69c7a1f8cd6d43e4; 0xbf53ee2aac4d1e; 0x70684f8fabc94c41; 0x3c36f6f33db6dc13; 0x5ea39e495f200bc6; 0x2effff739598f83b; 0x49a74d7b867d1b99; 0x3fa6f78796b7bedc; 0x2e6de9faa9e4821b; 0x6fb97a575561a60; 0x37c4deb3a80ca1b3; 0x563e009a1266f2ce; 0x5fe7c3bacddda39f; 0x4a0671e41f4bf044; 0x307ec1bb1a5b40f7; 0x4440e95996a9b7ad; 0x963707a93a5b9eb; 0x2aef74b26855d851; 0x2b7381b336597c1a; 0x264ce23fb5c2b91d; 0x336f2fea33092b84; 0x175de9608b176c7e; 0x1bd4edea2589c082; 0x26552e774fca724d; 0x3bdce56241e6497b; 0x431294b9f3525abe; 0x360ff19129fbb39e; 0x2d4c766b36eaac05; 0x4ccfaf06a864eb05; 0x7c46906aee974f96; 0x3ea63f];
   [0x39c69984a35a796f; 0x7ea4747d5859b857; 0x1b3895793028f313; 0x6f279047104c7707; 0x5b8967cd4dcfa805; 0x604847a77afddff3; 0x72ab95c9b6c12c30; 0x1a1933093b8301d2; 0x7a0f4f24a94f2e06; 0x4c0885793833f305; 0x19728045fb636d9b; 0x30764410cdd0be43; 0x1b3fda40a394d8cb; 0x2bac088f90f2d797; 0x3d2f3d486c968fda; 0x2f1c7f3cff9ff34f; 0x7e3571875ca5bb8a; 0x62996f8bef2c6852; 0x692e0e11a6d8cf5e; 0xb4ca7f3bf410429; 0x6c66b4b7c6dd098c; 0x38d5d473ade96359; 0x4d76bb7781e506e5; 0x3d437ebf322b6e90; 0x24fe0549424a92c1; 0x5e1c6a8add2f199d; 0x2b7c686650ac1bb5; 0x5a5b5c97c8718626; 0x4cad87b32fb81ed4; 0x30230bf0b8fc8625; 0x4ca81b5de941f5a; 0x4b040713666c99e; 0x32bd84835a3dfc99; 0x7f078689a965dadd; 0x4fce9dcc6cc285d7; 0x24f91838657acfae; 0x7a4ce93cf5dc77bd; 0x15a218205e00b378; 0x11b58ed4f4e40f7c; 0x62ac8db2a3b32470; 0x8c4cc977c519fae; 0x787a6f16c0cf4d45; 0x7c524ab0c89b5825; 0x7c0d90a56b88804f; 0x29b9b8392904c52d; 0x19be24a3f149be32; 0x7b2d9ff14608738e; 0x128a999719423b5; 0x16e4e22726b12b84; 0x2cebe781554a4809; 0x3fc74cd3d47287e0; 0x79b3016e7d202ef7; 0x12371fdc28440648; 0x70ff39f716e7b9ce; 0x1c35a18700e381cc; 0x1ed06e8678047997; 0x151bfa32e64d2fcc; 0x59addc88d4a7d463; 0x1905a4cb230d753; 0x7f9e08a861a1c572; 0x2a44b3bdb3f45804; 0x7102247bf78bb8a2; 0x258bc927626dbe35; 0x12d9f0b8d148fe33; 0x7cb0a6280452bd21; 0x9bd166c57071526; 0x16edb398b57566cc; 0x218a625ab1d14eba; 0x3beb0499b1b73fc5; 0x916f8621bbcbf9c; 0x6f11143678606948; 0x3512912f2c1b600a; 0x1be4ec78dfeeecfe; 0x76c495c85c79699c; 0x2e5b8c0fe2ff40dd; 0x46565f53c920ae2a; 0x2736c94d1fd1d96c; 0x1fc4e78a0cdce688; 0x66c0991e2fd28180; 0x4ac4c666f61c4199; 0x1e5b8e5eb549b3a8; 0x38786ad7dda51760; 0x3ce8827e9f1e10b6; 0x56586392126c0e7f; 0x374c6f0ae45320a0; 0x526699828579ce0f; 0x455538c5263e0f70; 0x255081d64f68a843; 0xfe0c30eb8f81cb9; 0x60b3660bae703e82; 0x4a4331329dfac624; 0x736bd734af764ada; 0x10d143436cfd6e8c; 0x4ce762a3400a909b; 0x548082ec11dcebae; 0x20212029d41f793b; 0x1de2ddd7bdaa85af; 0x4e72b43a27de4347; 0x45725d16c1f1c4ef; 0x79aa68598aa58ea2; 0x85f848918afbb2e; 0x215fc15ff044a7a3; 0x1f0fc59f46efa0e3; 0x7014a2998cda70dc; 0x63919d80fbb10913; 0x6fc161b3ade342ec; 0x7048bd19e6522665; 0x36437b114ef8c90a; 0x403f57135a8ee807; 0x334fec1a23b70238; 0x5f351be521672b1b; 0x4d2540430b2720d; 0x7cf332387722d405; 0x5f595138874b949f; 0x2a94ca7756784e77; 0x3bcc25e6a283f364; 0x69443100c7430670; 0x3e9049d05bc0f0ab; 0x60c579fc9bca158e; 0x707aab2b4ff66bfe; 0x55c18a17265c7f02; 0x4e0144548a115c09; 0x37533c8755c21571; 0x16cffca5187572f0; 0x72afec242c9159e3; 0x7aec9c4676314c84; 0x43163134f607853c; 0x20f539c0c58ed66b; 0x38ef56ea3bc395dc; 0x2a38ded178a82bc5; 0x3fa728f70fa83287; 0x36b3764f75eff319; 0x2db045a806cf87b6; 0x38563835f19fc546; 0x51755b99ab82cdfb; 0x7a7ddd82466f0fe1; 0x77869ea085ddb2bd; 0x2f05b28669ae84a6; 0x1d04fda4c68ae8e5; 0x6ec704c7e725fdeb; 0x341eea494d4deb96; 0x1b567d4d03546c62; 0x29d40a6e2a11306a; 0x7310cf2624575568; 0x7dc15edca1f577fa; 0x3413bebb19b2e6e3; 0x7edaee51980a722f; 0x79236272628295e3; 0x1737c0de2319c884; 0x6e312224de436afe; 0x5426c641c51d5166; 0x3eaaee494412fa05; 0x432c41d7d5fde9a2; 0x73cb1d17be7ea620; 0x4527ee293c6ee9b8; 0x5abc6c77b6cc121b; 0x657d5802ec9d4e05; 0x3ada9de7b7ff1652; 0x6a92cc6a784c1bf5; 0xda5d4d8be6bea2f; 0x60aff85ad92b1485; 0x1b0b8c06bfc9d0bf; 0x25df4af37246aac9; 0x56f7c7233df6980d; 0x409e5b0dd5fb4bda; 0x2e10c0ddfb7433a8; 0x692afe65ecbe7cd1; 0x2b298ee62e1d0aaa; 0x58405c75acd65314; 0x370fcec511ef4983; 0x61083a5e8b45969c; 0x470fb804374390aa; 0x27e61eabfee24ce4; 0x26e945c2e9d945cc; 0xcd2bf20d267e072; 0x38a0531a0d321943; 0x44440b1c760c2cb3; 0x11ed9140e36e0aae; 0x19abdac7408f12b3; 0x1b1918ae3a986f88; 0x559bd8e70cdbc491; 0x7a676565351b2156; 0x23d6f778fa94eee0; 0x21d904300981a8b4; 0x3d9c80efc3977ee0; 0x5924aaf1fd6cb6c2; 0x2d93e50666ae6585; 0x2adacb8b5a36a167; 0x5543afaa5152f7f8; 0x120c6e49ce007631; 0x54e0d561419ce303; 0x2906aceec48daccf; 0x539a1fefd782cc84; 0x66e49973693512b8; 0xdce4c2a5f65cfec; 0x1391da6a0ccb1276; 0x47f5cd3c157e6650; 0x7a6aa4162f737f8; 0x31b26a44f916fe1c; 0x38c3a5860e290cd1; 0x290d4c0cb2d7df4; 0x7b80a0f1d1c4465; 0x2699737a2a4f255; 0x28f449841eaa4a72; 0x14d19f990cc6979e; 0x4009a57f13d5847; 0x4b2de151e0176422; 0x5a06bb9188a92715; 0x7d971b9ed570f0e7; 0x5ad9b761017b0610; 0x46dca3d6ca5329ad; 0x55afa3c80463254b; 0x4f2af0bf7f25bbf2; 0x67cb1fc1a87554de; 0x5a9d382f1f49a0f; 0x2055d808a94ba4d5; 0x4f8c7122262e659e; 0x6521d4e6b4c26664; 0x748307ebd7a68619; 0x29fc667370eee175; 0x6307f9a04fed86ec; 0x1194a7878465eff1; 0x6bbc4934819bb6a8; 0x23304678f415ed14; 0x5fb6901fb7578bc0; 0x60bf3d990266959e; 0x199dd937bebf1586; 0x54f90f15598db2ee; 0x11308b8d081ccc83; 0x71a8969ed321cae5; 0x1c50d7864239043e; 0x4c603e715f85fc2; 0x4ffcd74982dc4ce6; 0x1edeed54c68d965a; 0x5a5a22ebb43d1221; 0x6afc8dba525b6ff0; 0x1556e0ca896de91c; 0x6b13a963361cf32d; 0x67825e42c31e2a06; 0x45efe8aa2665fc2; 0x7b10f174b0305edf; 0x1debccb4ff5f3d0a; 0x79c3658a6b63779e; 0x22190c843e1fc4a9; 0x530e8af4b43f6c2d; 0x2bb4de96d74679bb; 0xa2de414c868b095; 0x24de21d0a6b33782; 0x6d00c70f4b8cd52d; 0x5e187db3d3d436a4; 0x39c9e39da6f3d3d9; 0x4cc8141bd672f1c; 0x7fdf8196678de416; 0x41348a21cc179c1b; 0x24c50907ee6d18e2; 0x562a0c48df491f81; 0x18347eabceeba233; 0x52440807fe235010; 0x19717656747c9dfd; 0x7c46130442e9f793; 0x41bf4206050c100a; 0x950b914556a5491; 0x27194cea018d5c93; 0x1f69c85fee6eaaf0; 0x64bbbf14d49cbfb2; 0x459d118d3058647d; 0x30daaced5181250a; 0x6c8133ccdf7c5658; 0x1ca349e60c3b6601; 0x7546d56f4da81f91; 0xa7666cd31ecf69d; 0x2d4b49010dbe7a3b; 0x71c0716b3213c83c; 0x2ff1364db1b702da; 0x790a7d9b2b6124b6; 0x6d49dd2304f7c5dd; 0x497552e4c1da0d2e; 0x12065e46efe4e8f7; 0x6a080e956beb9cd1; 0x5f97297bd1a8b22f; 0x225567b3bd38ec75; 0x70d721773c6c29d3; 0x2f599f79ccbdc242; 0x504bb7076b91034b; 0x5248789df5f6cc65; 0x7d0a081569fbae82; 0x6c957003a0c74032; 0xb4499ba27f2754a; 0x63208b5d71a20cd3; 0x72224aad6770b755; 0x6f5123be9b6bc84c; 0x43d889e5c2e284e0; 0x59a83455fc9445a9; 0x2eabbc824f914624; 0x8664710493cf337; 0x43507381dbe5b91e; 0x451bcde2feb11cd3; 0x19ff73650a81494; 0x54ed5719efa75138; 0x6e8744c5ce6a265f; 0x607a4a32afd32660; 0x308e59d34d7a4295; 0x3e412b6ee73d7a17; 0x41be7386cb660d8f; 0x27f7f75f9230a618; 0xaad96ce00ccfab1; 0x1bb2703b9c091586; 0x63df7ca5908fec44; 0x1867a3a901bceee1; 0x139f12b8c7bc7d80; 0x56d204f338779c2f; 0x5af13a54e3e8c919; 0x245f700ac194562a; 0x3acdca5a38586e0b; 0x23f7196ea85a7ce9; 0x4957715ed0b7fe48; 0x404d39a852ebd929; 0x292bb];
   [0x41a5860db0c1efe8; 0x455b74b69a5e915b; 0x7800c88ccfd466e8; 0x56fe5016ca258a4; 0x25aca9e7ae06eaf0; 0x657a1719176ca737; 0x6df53d250b05badc; 0x785887d1ed87ef25; 0x5096ab4329ba9231; 0x37211e7b1a5ca321; 0x62aef5efcd3e4034; 0x6d35de48be8c7f71; 0xc7fe7de82e82eda; 0x383c3ecc450ac4f2; 0x3a28c8cb882a919e; 0x43036affdfb5d083; 0x377ee98873529f53; 0x39d94f328c5ceebb; 0x220ddde0cce7bbae; 0x797e387b82de1496; 0x49d6f99e0ba43235; 0x52b5b8faa3c1c586; 0x93e3efde3a8aa21; 0x2359981b05bc865b; 0x365159d05465f46c; 0x524187ef61952ca4; 0x26a5aa109dbd5e0d; 0x5ff7c062bd6e3be7; 0x49d20fcc0df833ac; 0x55be820e6b717615; 0x330ebda42d3e957f; 0x157f21a753bdabad; 0x3a77ebae1d483585; 0x3c9957319f220572; 0x384477b15a243da5; 0x623ee947b2473bef; 0x3458bca4e9410131; 0x5c011d5d8812115e; 0x3f23b95457de6695; 0xc8cb5796664d3a6; 0x648be0736e05231; 0x1bd8a9e5793f5b0f; 0x25ba125a979925b7; 0x49fc4cf86882001e; 0x6bb0bd51df226f64; 0x5bc01aaae6fe75d1; 0x6e5a68b6591fc5c3; 0x1ffbd5d768f5cfd2; 0x75680d214afc825c; 0x18cd7b9761e1ea0a; 0x759da548f8dd03b; 0x67b87560af116ffe; 0xe7cfe935ef7e039; 0x185899aea74a37f; 0x5e1d22e0e6079b05; 0x5872fae68d03cb0d; 0x25cd7b18f456649b; 0x1b444521df892521; 0x471a6a685d609738; 0x4ae82c5892789511; 0x16d2923f4af38a09; 0x6b48cb684a2e9d5c; 0x1618bb46721ba96; 0x157b2b659bfe650c; 0xda3bb6d0079d2e5; 0x50a34d84024a213f; 0x53a5f28d40ce3699; 0x57822625b30956ae; 0x7f8c3990a1c45d33; 0x61dc6c164213936a; 0x745e03951e256968; 0x62031146b3dd37f5; 0x149417e8f6d26cd0; 0x71f8d0a0d93e176c; 0x742d2c9cefb855d1; 0x60142dd8b6e32c02; 0x6bc52c84db7de688; 0x30a8d3770efa154f; 0x2055ae829f223bf0; 0x5cf0a5610cf7ae5c; 0x613dc3649ae9fb92; 0x3967d0a7ebc5f257; 0x307b324d09a15e95; 0x40b62f940cb5b182; 0x3cd4ad5be953b961; 0x6f873995cf57c2e2; 0x5976ed1c71fe3590; 0x2c6a371060a383fe; 0x4270efbe0ee5fa15; 0x66070002cd17f347; 0x5fdbe60889a211e1; 0x50131c1c7298971; 0x37a3aa2d21ad9641; 0x46368dc4e1d48202; 0x249930bebb217734; 0x2d881d8b5e91a181; 0x5708166d3ba6b73d; 0x182f86aa4ffc6256; 0x5af3968adfde6111; 0x20280d20b3926ca5; 0x194e39b0b6e6a43c; 0x38ae5bdf2beb042; 0x37369a39c135e887; 0x3bc17cc8c70b8556; 0x64a97649faad256f; 0x608d26612faef825; 0x78360a9fa3f1083; 0x3b44e47751025515; 0x2cedfbeb725024dd; 0x5696fbd793020e6f; 0x604af83e807299fb; 0x24e1534b39f0cd62; 0x2fa585f704dabb0f; 0x5a53a403bdf5810e; 0x6944206a40be17d8; 0x6f53f75c9948c406; 0x1f702959a3e6e69; 0x84c8f297e25b723; 0x2b6307ff9ad9b5a9; 0x1de1cde182fcb2ce; 0x4c715a08adb890bc; 0xab607273dbc1c78; 0x8f3705b48c98700; 0x2657f52895741e8b; 0x5921d8a361044720; 0x565ba881c2b12556; 0x7168079471a49267; 0x77b25563fc92b9a0; 0x3eee5524b2bb8f40; 0x6ba19d7c0bb2b72e; 0x51924c6513257ef0; 0x108b3b25bd1a86c1; 0x6023892227dc1eaa; 0x37f35cc8e7ac2517; 0x4d251c570adc971a; 0x20de276e6e0dcdbd; 0x6133e5f22a356ec6; 0x449861ec82598385; 0x2d7b8f2e88d655e6; 0x12b0e000b475be87; 0x4d829200e910fa74; 0x43e9b7e63e4249cc; 0x3c11963560bb6098; 0x19fe560cbbab6f9a; 0x54dc07e7991e7acb; 0x6f9e5a4387f52c57; 0x38990389ece25289; 0x500b498f9fcf999a; 0x7900e5d1cb6d8ac9; 0x2ba0cdfdb8c28c7; 0x54255c41fee7a6a2; 0x2ac70ea8023db2af; 0x42627cde71679eb5; 0x57552097fde3be1e; 0x2c4496769dfdd3e6; 0x35f2482a270db82; 0x15380502c454e150; 0x1af6a84befddcc67; 0x47ea0ecf05d27584; 0x33362006a4783045; 0x7372fb157e459e0b; 0x6932277eeda7ce; 0x20883a95c9c441a3; 0x3ab65f5c7bb545e3; 0x30225ae8fb78c5f4; 0x3245fcf313a153cd; 0x13d1d1bb440b7146; 0x4c872cabf823ebd2; 0x28c3c4b323599faf; 0x4d9346843899b982; 0x1611b6939dca3da2; 0x58271041039f818d; 0x22b55a31cac7a1ae; 0x30b54461f69ba46c; 0x7b6ddfd066f35e78; 0x32f1932bc8630d9; 0x51de69cb24dfd708; 0x21b32939cb35ad4e; 0x3f15e515ef68506; 0x56084a7e1787cb3c; 0x4fea9220aa4fcc12; 0x632f466b40362470; 0x2468271c48624694; 0x3ef19081b43abfff; 0x52d961d67a41a833; 0x6f92d3c5166975cd; 0x18941fd11c4f2459; 0x23a5079e3425bcf0; 0x63bb7ab62257a844; 0x4a9ee8ad0e34a764; 0x2a3b6f479cf8ccd0; 0x62db767a444d519d; 0x1a8ebf20bc3ce6b3; 0x614cbc4a8042afcb; 0x7b85a0a25c482da9; 0x65fea3668568f718; 0x3b22564863097d96; 0x6eaa65590b51dd57; 0x34d1cb0d3d7131a0; 0x4b3af90db03fb092; 0x767bba99cbbe3083; 0x254f6ae7db8b3f71; 0x756e4a274a22146; 0x44c11e3dfe83db4e; 0x2dc0a894b7b9469; 0x788d0a3f1b884431; 0x3a8c7850fddb66cf; 0x60b24cf6e3ed7db0; 0x1299bbdadedd4d4; 0x7c65af08aed65f0f; 0xa6e5d82cfd7821c; 0x5a59c53e456a6607; 0x47eb45a74660004b; 0x33467474de35df37; 0x1332f213398eeb47; 0x62bb16d8ebe8cbf; 0x3e19fc642c1d5952; 0x51404316c2c9098c; 0x6a9f8dae77c88366; 0x55e05059aa86137c; 0x4fbef00c234f9e53; 0x228b6951edc4d97c; 0x13f7a2f37ad6116f; 0x7ec73ae5a0fe6c1; 0x2983e4b21bf74215; 0x9122287c3ea0cce; 0x799169e4ce8fc8ea; 0x17985a9f8e7d3d54; 0x1717beeb2156e742; 0x17753b746dc84e63; 0x122a0277fe834026; 0xb3d0b49fe71eda8; 0x6cc7d5ccb0becaa; 0x476bdcdcae967cbb; 0x6bf4bebd7339ebfa; 0x5d3f9d55cc32570a; 0x3cdc5ab564b7d5a0; 0x6489ef922bd888b7; 0x6a54cf6981c8cabf; 0x56ccf53cdfabfc9e; 0x9c1c97f528c2dd3; 0x79c34b99862ecb90; 0x228b8ba0ea535bcc; 0x313585f9e5cadfe3; 0x2ed771fa4d6e5306; 0x648b4fee25ba73f7; 0x468bd34945112686; 0x3d294e5aea73750e; 0x71251dc224ae6afd; 0x3a817a9fc523836f; 0x75224051ba84c2; 0x7c839a440aaede01; 0x4c7623297639d804; 0x51c358f9a025841c; 0x7f3e7f92f2fdde2c; 0x69a38d8157af33a7; 0x2e133aad31145e8c; 0x45b3451bc1e01fd1; 0x5bcb0dd00f2e44a5; 0x31883a25320babb7; 0x2ed2d291a95b4bed; 0x7792a773f808e568; 0x2684d56f7d8f3bb; 0x5e54f7410eb896a4; 0x51388488c77a54d5; 0x1b39b09ceca9f556; 0x5745d03e16f5c310; 0x38e01c1c01f87d21; 0x58fe9fc0a9bb3eab; 0x5c01e06db37a0411; 0x135c503393a5f2eb; 0x3de7feaa2c7b979e; 0x1c01ab68a77a8700; 0x66b5732e289a6bd3; 0x3fba3621a4848528; 0xe36bc79b7a80d3; 0x4c9653a49706b14e; 0x1c73373e45b38006; 0x565eb96604747ea6; 0x511078ee806d7dc9; 0x5e66b595a0e8b2e6; 0x538ab750d9499751; 0x75b4733b5525d72c; 0x5ce649ad2dfb0d33; 0x6d9bc852d3dcd62d; 0x7ad44e463e147144; 0x30b8c259202b51dc; 0x4c5ca7cade89ecb; 0x7027d331ed266103; 0x265f9ed05c5da879; 0x1a065b24ccfd1a21; 0x7605d3543e749085; 0x674cd1bd7741476d; 0x5976504bc2980a84; 0x719bda86f672e506; 0x2ec258207370d9d9; 0x1af74318d665bff; 0x2f51204f4bf2ebc3; 0x51a41c1d2a2484ed; 0x12947107a6b50612; 0x1f878eb6efde087e; 0x6e005b760f0b9705; 0x4a44e71c6bfb0d24; 0x35a8fdbfa9a123f7; 0x57294de0275d7893; 0x2f85110546b129b4; 0x584da6db5b55985e; 0x787b200a0720543a; 0xdecbde943d31f85; 0x6a9a2aca8a1d618f; 0x5fe611b1927e81bd; 0x3b3867ee474d60e4; 0x1c2e9cce77c3df36; 0x2f17ac8b0894a2cc; 0x2f244cb9093446a0; 0x20f86bbe24af573e; 0x65ef1c0c12a24fec; 0x3ded55];
   [0x2be34616110597ec; 0xb9813f8f4124d2a; 0x71c3b207030b75ee; 0x34c9ef7bda044a6; 0x2329801e221ef8c3; 0x62899291ba0a465; 0x3678ca288587c601; 0x43a7087e410cd7ef; 0x72d920db38f9fa27; 0x37ed35d92ec77106; 0x6f759371874658f3; 0x2b3a6f682d64c297; 0x7d5d8ba1747ed650; 0x3ef256ba851fb18; 0x2617bfceb4199d31; 0x390b6240a8405de4; 0x1b3c36ad3c0cf1f9; 0x1f0fd374d4a13219; 0xbc5f8a5068e2098; 0x5941b840beeb4c35; 0x740440afb5a15db9; 0x37aa4fab8109fcca; 0x4facdcca1e8555e9; 0x19b86c94b38fad2d; 0x381e680492423a5c; 0x419b9c310b9882e; 0x7a41a59c2af7dbf4; 0x44add68ec204dd52; 0x6a7f0e28a4f79863; 0x954bd68c4cb0391; 0x73b7fc732f429acd; 0x7b42724eee536daf; 0x7a6c09b046c84b4d; 0x21a32bd603abc158; 0x632364ec240fcc20; 0x4469d23b92d4829f; 0x5b30e828992c5d31; 0x79b0ed5d168a4070; 0x582f24682e2fa577; 0x66baf09385baa5b3; 0x2d9948b279bcf4e0; 0x737430598baf0715; 0x24fa79b29b5c017; 0x24c208ce5cadbaa6; 0x2c7447232f4e8c67; 0x678f0dcb216a09d7; 0x44589b4f5779a211; 0x4aa4be1995815367; 0x62311f2c71e1aa19; 0x2f624f7c1deae38e; 0x56e9a3e4f0a00db8; 0x3285e89596e8392b; 0xd1f00d2c2b8247e; 0x5f05b90f526eb25c; 0x6399ad16f20e7f34; 0x7a49e2bffb0626ee; 0x182a320dff4de8b4; 0x680ba3b2a0360de0; 0x67a2416312f63a30; 0x522d38282813cc2b; 0x7ef3d6e884986fad; 0xe9ccdbcde38bf5b; 0x69e8065c6e70781e; 0x8d215c40e032875; 0x212a2d6b95fd56bc; 0x292943c9e792ca36; 0x67ef51c46ee75f57; 0x704aeeb15d8a3bc; 0x34964a349081c28b; 0x5796c6a41902adc0; 0x31e16494b88912e4; 0x4793ba8e31033804; 0x4c645dc38525b755; 0x116ba9efe277daa5; 0x3ef246c8b50be9c0; 0x5720a3cfb6518e0a; 0x6c8548eab4cbf1b9; 0x254ef33a4ed6ab0d; 0x12340a690083ee7a; 0xf0448ba392f4096; 0x43fbad0437ae5200; 0x5d368903f35ec8ed; 0x2e0c1c47f5bbe2b7; 0x317afa5fd421485b; 0x24617a7bfd91df4d; 0x6710f6c2f37590fe; 0x7f0b43db3c086968; 0x31a819b598d19cb5; 0x7daa90711b44e52b; 0x6ab3758254394d31; 0x1dab52ac1e8cb785; 0x6c60c7d9729e097a; 0x4a454140aa28141d; 0x43d03b310068a89b; 0x2a6c0c272aa6c5b0; 0x6c16fbe7675cbcdc; 0x76b9406335ab8e38; 0x42776e9501c15820; 0x26cf287e77d90689; 0x182afc08d1df35eb; 0x189128a808e90066; 0x516533d35fa5cf59; 0xb71290c1d912a9; 0xb8e2ffb44aa10f5; 0x5cc594b60262cf3e; 0x3d04c291cc87e9bc; 0xf2fa43cd42283e; 0x30eac272df669cf4; 0x32abc4a997aff6be; 0x2a920fb2215f6867; 0x1b76a971d32f064e; 0x1da4323df66857cd; 0x446ee78dcd6a423d; 0x3b1f7c29c8d2214b; 0x19ff715e7e6dcfc4; 0x37a12c7d98840867; 0x74bbf1f0903d026d; 0x24769f3134b44663; 0x579319a8c34ca119; 0x79e23b24812d694; 0x66ce495268974e23; 0x104dea3f6c6abe83; 0x3fd7914eb13c4b8d; 0x3c63af503c22a077; 0x4847f49035867d72; 0x57c7111c3545113b; 0x11d324877898027f; 0x5cbe1a73b3f1460f; 0x5388df168cf2fdf5; 0x9a695383fdc4394; 0x250d2ea2d268970d; 0x1f1231dec7d9c915; 0x398dde3736cf1109; 0x22943a6b4e79566a; 0x460794fc3cce5cc3; 0x1b24ab6ab127eb0; 0x9ba9c688d92e0a2; 0x53259d3d5202abf8; 0x47b7d1d5d00e48a2; 0x4c6ea8fcab919d25; 0x4a9281773b8d570f; 0x21a02e6dd34b7de1; 0x1528863b23f253f0; 0x13999ac38023c8ac; 0x2b8e54bdc43f6eb8; 0x69aa80b817059316; 0x6f1520934c22dfd7; 0x6dfcd38554a67a1b; 0x605dd6311bb5ebcf; 0x1e9d5cc0a1361843; 0x724562ed3bb9757f; 0x10acc29458de5f05; 0xcf15860dc86ae8b; 0x5bbedb33742ae96a; 0x1a67b17e5d6d4612; 0x48547521f9ff7163; 0x79b8955298dfa748; 0x35988cdaa7ea6e7f; 0x4a724a3f7b91264c; 0x53e7ee53f8ee7234; 0x6190ae1f4e792167; 0x200309a5d01a5963; 0x52a5460a5d3d0df9; 0x79763b3433773829; 0x42b8d08018f310e5; 0x3aebd1021ac9c528; 0x67159a444559604; 0x378283969788f9f3; 0x47e2ce1f52a7333f; 0x21266508b86a5200; 0x3714d12c082b7303; 0x7c7d994a535f12f3; 0x2bd731282475aa41; 0x53cb961bdadd3f0; 0x56565c58ed0c6a91; 0x4c87acd8e82adeb5; 0x1b9e3a8f48ee658; 0x728f5574fb5efaf6; 0x2308aae4cbc37deb; 0x7c5c9dd7fb25f610; 0xcc2fe70410ce9a9; 0x51582b6750c5864f; 0x12bd72f08990c23b; 0x35a891ebbec8f5b2; 0x6d1b1999824f250c; 0x3d8507de01f7346f; 0x66fd0d3e6edcfd5f; 0x9aa617acc9bf3f2; 0x9d0f9c96796373c; 0x7904f11ac18ccf34; 0x797b656f5e3fd727; 0x30303ddd0ff6a867; 0x4e7b87ef6328ca87; 0x5978d852f999450b; 0x2f357f44a95fcf8b; 0x6263d3e6864657bf; 0x5a8715bc8946dbbf; 0x4059eff66aa69ac9; 0x4f9fe010e7f83be2; 0x4b86dcedf6920221; 0x4588df675cd47eed; 0x3a3422d4c179ad8b; 0x71c0f258f7c09e9a; 0x2ae5a5b59770c0ec; 0x29be0c082bcb166b; 0x1df2a35dfc64670d; 0x2eeab6f7b23f45a2; 0xe4e32fa4af77664; 0xdf9b966c300a251; 0x3572ebea78066772; 0x440439f2dbb0cf53; 0xa0c79584cec7490; 0x975e9a6fc53e90b; 0x51637c1bf34f8cdb; 0x20895f7aa2ae75a9; 0x49c9f1499eea83f3; 0x1de193a095fcf312; 0x2bbc22c090ff05b8; 0x8f1cd6913828371; 0x6d94d9ec05aae49e; 0x3d21f004948b4dd5; 0x6701a34a6caafd25; 0x6ae87e927f3294d2; 0x3af32c9351c285be; 0x323134c23c8f28d4; 0x20f9fddd56e3db34; 0x5bf63d2485506a65; 0x7f5ecf5e6fca9c3; 0x5fd49ef24adbaa94; 0x527c3f27af858fe6; 0xf66053529d98e87; 0x579162e08d801100; 0x16b36bc219bb5b16; 0x6e2047d700e166ed; 0x542854f26a70863e; 0x1ab4a83d7ee4d83c; 0x3f920def83a93be5; 0x1ff6f5bac40c8131; 0x5972df8d664b5694; 0x1af564435fd7e4e6; 0x50fc9f45c4565b38; 0x57f292991e57b560; 0x4a351a84f711b62f; 0x107429e8b16f6df6; 0x5983800c7c419a69; 0x763f7d8d262cdace; 0x54816f551ebfdefc; 0x7f51d0f8db6f9ee0; 0x2bf2a41f06c2b834; 0x46f94515fa8fbc4e; 0x6a004330646062a9; 0x43b010b00db29ca8; 0x46933c1bf849c98f; 0x69c74ac8e21208ae; 0x4684b24975d0d34f; 0x6f9df0d18323d08d; 0x5ce799f014a963e; 0x39af73a165e3cccc; 0x2deff05e27343ce4; 0x4e710933bafb9e3c; 0x6994702dd0d6d2f9; 0x558b5bfb1bb4e3fd; 0x24de197f10bb47b5; 0x2c2a5d513ce246ed; 0x40e6cfbd76a0230; 0x549e9cae05b54543; 0x65eff03fa4fdfbdf; 0x4a1eb81f24a1ae57; 0x5a4d499715e61ed; 0x3627a16ffffb66ee; 0x45a9ea4f500158c6; 0x4840ce9abb10dc42; 0x1970e9b4bc2f7ee7; 0x4a555338a77ddf81; 0x2f333585392f6bb1; 0x22ab5d99c473f5c5; 0x1f3b40afe0945129; 0x419c74f9d8a06889; 0x4c1f4509943abadf; 0x4ead230c01b51553; 0x67fa4f128bbf076c; 0x185a3b8981c8787b; 0x4584759231fe4e8e; 0x7a60cbe459272c3f; 0x2bb2299e1e7c6a16; 0x53a63471e0500aed; 0x58df7c4d415f12eb; 0x562032a25bb4191a; 0x7c004b993a90b76e; 0x1f5eae1bca63e97; 0x546bcdc407696b16; 0x6363ad5cf52e7d2e; 0x5a884c3fd0eb829a; 0x160bab48bc6b66e1; 0x6ff5858220ecf3b8; 0xbba24ab019ab07d; 0x6dbdcc7be2f6067e; 0x585a494f1dec74fc; 0x360d96f002514f46; 0x68bcafb359123c2f; 0x61b189e6d1975081; 0xaf45a6283ce3d1f; 0x7a59228c00edddc1; 0x65d8f14d2a99abe8; 0x1271a8661a489be7; 0xb4b3ad945c11a0e; 0x58d5bc80abfb39e8; 0x7961337897633ec0; 0x5471f9aaa1173350; 0x372437c5e302d81a; 0x5e8113b1f065aa59; 0x66676b2ef2f946ec; 0x1e839965107d4028; 0x15657d3b42ccabe9; 0x3caac325fb685046; 0x1faae6e18724f4d3; 0x2271f51e58aad42f; 0x3b29c3];
   [0x76894f2cd7f8a0c5; 0x34c0675eff23ee93; 0x220aef4112343761; 0x725b401d4132cde5; 0x762981e888df4fb7; 0x1d3509f1efa864c5; 0x754751b1f0dcd70e; 0x4b3e91ec8180793f; 0x2023b77f1a584141; 0x342f72d239808209; 0x24dc090e0efcc4c1; 0x4adffecb4dc6f02; 0x1974d704c6ac76; 0x32c451ce74f601bc; 0x3fe5d724b5b3779a; 0x11c9b79d6f567587; 0x69139f252429cdc; 0x707a8263bc4bb3d9; 0x7fabee6058bf1009; 0x5df451a5e399a20b; 0x56ac99a208e748b9; 0x3f260adbbaa6ea8a; 0x47900130ea97c4f0; 0xff1fc4bac4ff1d5; 0x478028b909a3bfb0; 0x600f26eda2803a94; 0x218122e70decbc6a; 0x7267386ad26e5077; 0x73a61d363aa5d577; 0x6f64e655473a510; 0x4f65aaaaf0020aed; 0x585f5e9568b07396; 0x1d7619f0b48e63a4; 0x1f852433c5704f7d; 0x4b7b310d4b8ca819; 0x7a593dc6535c0793; 0x1fa7bb45744b03d5; 0x13d7a01d1cc4d9fd; 0x6de154b959f34659; 0x7c0d4c4add5e7a50; 0x2913f9607be6cc97; 0x415e81a3b913cbe2; 0x27b72fed0265bc42; 0x120392c784a69734; 0x23119f5b2178be11; 0x4ed98b5a557a5446; 0x7029de1a2adccf96; 0x5bf549188738325; 0x470206d78d8d80c1; 0x10e308ea31a9323c; 0xfbfa0b82994ca0b; 0x11ef09838de04f58; 0x27bd9dc145d52456; 0x7bf95df2c8a3ce1b; 0x4e2daeb5b55c5d4a; 0x6e438d7630f8b06e; 0xff13d1286c8c478; 0x4db3b36b17eadfb7; 0x5b3c22dc0804cc9d; 0x19e945b4a8b2a980; 0x2d50eb5a8e8c7000; 0x609004bf48029cc6; 0x6da1ef268dd32245; 0x4739fe90654c7f8b; 0x65bd4f25f2435828; 0xabf4a748537aeac; 0x6d2ae0a484b19916; 0x4b6035f000d47426; 0x64a4a99fe3ef5864; 0x1e8f670c27a45a1e; 0x43eafed40ee5f56c; 0x4357ffd3471e3d41; 0x55bd97d9a5567991; 0x217b8fe146c200a8; 0x5e69cd0383c88ffb; 0x28cfbc14296c988; 0x2c4ec9c8b0db3bc5; 0x18e909ba8675424c; 0x6ef00e0cd61cd4b1; 0x535c5f0a3b173f38; 0x19e3dbfae3151f32; 0x3a8ef117ddeb5ff5; 0x325ce2b8295fd381; 0x5baf675c86cc7bb8; 0x6b0f698d02fe51c5; 0x74f7f65f851da16f; 0x4ffc93278927d1ae; 0x4f21d59cae971e01; 0x4bc6442f8de18b72; 0x207222d3673b08e0; 0x3ef159bfaf218eb; 0xf16c6735fd6f98b; 0x5bda05ff4104b972; 0xca9724438e127b6; 0x77a19b7fd113847; 0x16e102c244666da2; 0x7e75b11c93ee144c; 0xa341acc34b74569; 0x6d083f4baebe89d; 0x6372f05a26627141; 0x23c06ec003f0192c; 0x4ea6a3fbcff82e6f; 0x16449aec6f967e8d; 0x7550bcf7c5dddf2e; 0x16968fb14dfc3507; 0x9698a69f02adc75; 0xd087bef4d6ea052; 0x5da414a39d1bbff; 0x68c7b5d2f0b7c43e; 0x741c8076e3e5823e; 0x3cdd4b67dbe54bb0; 0x8f1ee4ba25b1654; 0x6399f81dccd20312; 0x7cd88b57adefda7b; 0x416d0d555fffef9f; 0x6f7affa0f2745b0f; 0x5dc5496e08fba83e; 0x2f72126ec8185848; 0x2b8da4ec04241465; 0x553a122430d49e2f; 0x4cfbd91e723cd5f6; 0x73904801774f6ff4; 0x291066680dab7eff; 0x5887857cb1de7be6; 0x57ef01b98e55a24b; 0x5813a2c45de5f6de; 0x15b106794377cec7; 0x37b25f9b315a3192; 0x1c63ddf3a4970aa2; 0x46179e44d53f103f; 0x1d4df423edb93355; 0x1f4ddcdd93a0109; 0x19d6ffade04b85a2; 0x18bf14d697a6cff1; 0x4172d5a299705a49; 0x6dc491abdfd7ec0b; 0x769e723b7228d664; 0x209c9ff262eecf38; 0x222f359b79369903; 0x6ed1a2ccd9209591; 0x52167b1f14a8ca8c; 0x41f7dfc27662af8f; 0x16bea5037d5ce19c; 0x1dd8c482188ff2f4; 0x73b6a77241da5e3c; 0x5c788af7f4962bb6; 0x24302b906aff3c60; 0x19225501e471c1d9; 0x4516b047118e047; 0x6efb32023c095dca; 0x49516e317f8ba8e0; 0x2b6d484afb8e373e; 0x72df7d368b826bed; 0x269242c9515f6ce8; 0x3c3b5c3a2f78bdc0; 0x14a85a391aad37fc; 0x5ec5c90997160977; 0x4cd1b4798ec4a628; 0x58407cdcb495e807; 0x6ac12613f5de2889; 0xe9723c3b80c0c9a; 0x2324ded2f2f788f0; 0x1c2ab4c39088578e; 0x734a53b4660f7aa2; 0x6738c717987e710c; 0x33900361714e421; 0x4227b9cc3d6fbcc6; 0x7c51566508f9cad1; 0x4a765585f8b8f23a; 0x59b4aeb0a729666a; 0x32992285a14b5ab9; 0x51fc28a66fc1b8ca; 0x6d88bf008f8627d6; 0x16bb9773249dfc77; 0x26742daa8c31522; 0x71575b01a841b68c; 0x56cee25695d36cc7; 0x3e804f113f7590a; 0x54d096e714e1954b; 0xc7e480c3fd70e80; 0x7c05f08a5501a0fc; 0x28fd2da099e9962e; 0x70c190dc3abb9085; 0x29db3c480ad14a22; 0x5c28f6489a6a32d5; 0x254afb9e85d0b63d; 0x5ca33d8f30f404b8; 0x47e36ee9ca53841d; 0x1c17b77c98c4b40d; 0x7263099d16b1582e; 0x5ae4fa4b4f4242ef; 0x10cafc071bb0a754; 0x1348926a13ebddb4; 0x5b5a45cc881cf4a1; 0x1322646c3ddebe01; 0x18f9de5f2fbe48f7; 0xdfdec9c9a5a1919; 0x4dd8f2f2361a978d; 0x2473301bd7d245c9; 0x23ff4ff3ce105c52; 0x56cfd106a6c6d566; 0x61d07e4e9375acbe; 0x6a12f33ec52aa1a0; 0x10dea0b6972bfc65; 0x7ce9e384eccd308e; 0x2b0de5134c2b86b3; 0x295a4db50e528739; 0x2b96d667cafb19fb; 0x5d9774e4efa8ab32; 0x1f8c4fbf209cc19a; 0x535ece64604214d6; 0x6848c537c02b473d; 0x2f26735959b65ae3; 0x6b011a91484e9926; 0x7bdede17df5612b9; 0x7048e40c50ecd978; 0x55f0af9b214692d5; 0x3f87ab564ca23065; 0x56c71d88304b3765; 0x6fbd0a824e44b149; 0x7f2dbfa3c4279189; 0x22b9afe218a4a57e; 0x359bed9245d81470; 0x59d6d47dca50de6a; 0xd4de34314115e06; 0x2952573b881405ea; 0x8833df4cb7888d6; 0x38dc7581694157eb; 0x4c75e7d5b9220e7f; 0x687e53683b9edb1f; 0x50f3c8ce688f0403; 0x51df23c30b684fe4; 0x2a0607b004b4fe9d; 0x368ddb623fdd2cc7; 0x7935f5ccc300f8e6; 0x409717066b4b6b9c; 0x1556e172d67e9cf5; 0x4fb4015a66bcdd57; 0x602711a02a365f16; 0x2d7be0fffce0b76f; 0x3f620ad40c07909f; 0x14bb24b8ca3d3ab2; 0x5f4840a1a923ac23; 0x76d5702f784c26f9; 0x6be824dabdc911ca; 0x764f8c72e3df1a0a; 0x1aafd3d8f723e220; 0x20ff5db97a78b9d; 0x1aaef04b999638f2; 0x6747b3c329a2827c; 0x17d970adccd59d9; 0x3fc01385cd2a745c; 0x13f4a7748f931aba; 0x606c3c429d939573; 0x33333512ce78fd74; 0x6f652aa0ebbb3b8; 0x4c636481a887d834; 0x117ff0f046accfa0; 0x5f423c8b1201632; 0x4a63e4bdd98a6d1c; 0x6274726e337eedfe; 0x60042920be00df3b; 0x42fcc6be710c23ee; 0x20d3c7b6cf1cbaa3; 0x2d359df0d35a7601; 0x567caf242651eb7f; 0x1f504d7de67b79e7; 0x1c63641822e4628; 0x4baa2774434c563b; 0xe871e53c64e83c3; 0x4a03344c0f2495fd; 0x12cde00ee377b27d; 0x72fe448fa170defa; 0x1e1b15a81f58b75f; 0x5f5e879c252caa96; 0x58ef9c03698c6ca; 0x36fb3f45318ca78e; 0x72b493c565c2cf45; 0x3cc3e17a19e91755; 0x7acb5f03c89240ad; 0x3b0be29335c87bd9; 0x267c2d7130f90041; 0x5d0c1558355e5bf4; 0x7261f5fb0bdad47d; 0x1163efc9067c8d12; 0x5f98a09c977dfd9b; 0x4248dd854b362713; 0x78ba5fb9e587905d; 0x4abd7aeb459e974f; 0x5666d38d39fc1e8f; 0x709fad53906553e8; 0x71d433b8f42438a7; 0x9fedebb72fdb082; 0x838ef3b10b7baca; 0x2a1293a9c12f37eb; 0x471144994d7f9345; 0x193903cd6b310df7; 0x67cc4be348bb6501; 0x62e4fa7821b87485; 0x40b20f0ec3176341; 0x3d22ac8d2ab473a1; 0x5584615c946868b3; 0x4d40ee382cdadbc2; 0xabf8fecf37829e6; 0x68e265a95e4ebbc2; 0x315c8d7ad05eaa84; 0x3a95fc280675eebd; 0x13deeaeff2890f36; 0x53cdc7841f3bf2d2; 0x1e31eb7e245b2f3; 0x6af63daa51a6714d; 0x49bb9213d83f611f; 0x365b3b703dbf672f; 0xc90b34c0bf552db; 0x590d7e6501ba9956; 0x84bead7ea5ac821; 0x1a7fcc7396cdb4ec; 0x1a5c68];
   [0x62f4b7142de5c394; 0x7bf541c5d574148c; 0x735a19aa2d5b1bbf; 0x593c2152143d5e13; 0x461b867ef4af1918; 0x597475dd07da83ac; 0x5a5e9ebe06e9fe23; 0x2a17619e7ec63c7f; 0x233bcd566fe88c0c; 0x13a7854449f4f7d5; 0x1e4732d5cb8b6dfc; 0x33c26890eb716c1d; 0x1631c28b1a5d7321; 0x32e65f8ba707c244; 0x55f8cb64ca82625f; 0x4c0e88c874e1d661; 0x5933372cf3a3dcd0; 0x15dde4a8d2882e2c; 0x53cc1a37b7bb9b4c; 0x6aee23c7def77b64; 0x36c22701d055e118; 0x103b8be12aef466a; 0x7a469344e650ab94; 0x2ab8a67c1534cb9c; 0x2abc12bfc777cf82; 0x52822ba4e8e56d9b; 0xca127818ad72fb0; 0x38bb8f5fd108b648; 0x3a16428a99d70705; 0x4ba5c55d4af90b87; 0x457f6d697d26ad1a; 0x50626ea2e0827d01; 0x4e4ea8347f98c2bd; 0x3ef051c0ddeeb251; 0x5e0c8eb870d5f064; 0xde74ab6a9a4ec6a; 0x37d795ee8237fd20; 0x6091bf6efa6025fb; 0x769a693bfe609f1d; 0x443fa0a9089da40a; 0x1d3f3f6a1f40de6f; 0x3cced2be47c2924; 0x172234fd46ba70d2; 0x16b9f3dc0bfbc70d; 0x114130127e82169; 0x697e3d52a7d5f24c; 0x2586298ce14fda1d; 0x7e45b3eb8a8a62ff; 0x52bf783cf06b50f0; 0x459991d2dbcc736e; 0x31292943f4956e2b; 0x6d96572b9d7b3d6c; 0x6988e5b009d00a9f; 0x5c2b1ae3becb78c2; 0x5a5177d82001fb86; 0x7e57a27989e65234; 0x63e963f175edc543; 0x82de7dde709b392; 0x68dd46084d819373; 0x2db90dae17a120e2; 0x718ff92613f7da30; 0x37041a7451b1731b; 0x37edaa99fe4d0135; 0x21ca9af5a72c9cf0; 0x29b7487a2e468609; 0x6dbc452743e10c77; 0x214cb478967bb166; 0x5ef4c46de201d6ef; 0x4d002924496cf9b7; 0x22fa9dd0fd509b00; 0x48fea03e7b57df57; 0x3af93fadcb5f7f44; 0x1f0f54c969fc03df; 0x263d7b4036bece02; 0x245651d6a5a611b9; 0x6fdb4159f57d019f; 0x272ffb7fac089a43; 0x9c9d0d48da257cb; 0x26ce620cf2a5a691; 0x347d31ca00140385; 0x66b182844adb4350; 0x16d129590cc20ce1; 0x51a10f71fc2b2d69; 0x6d04cf0f27024cdf; 0x65a15b9b9e7cbde6; 0x7e45fc66cec50d98; 0x66d5fbbb73c1768a; 0x5f2ff5ad6017984e; 0x5b3e3495b8e3448d; 0x1a2bf4765da07827; 0x76ca462003dfff35; 0x1cce8819e95d0ad8; 0x242a032d702c9b86; 0x7a14ee60df51ba30; 0x6956980fb12d02ee; 0x294dad7d8621fcd0; 0x7dc4a8980dfa1d01; 0x7f8d15dde121be8e; 0xfa7dbeec6af1ba1; 0x7993c95ee0f58142; 0x6f65c570818251c5; 0x7cacf87e9784a999; 0x6e55a03b2d403e4f; 0x4b68abda2f99a246; 0x489228df63939ecc; 0x27204675efa68d69; 0x5bdc0bb8c14e091a; 0x5ff3075f471ab469; 0xd661631b9d37e9e; 0xeba8d7d9f144369; 0x54ea08031d5830d3; 0x1ce129de663d4f78; 0x33fbbc2ba5b2fd2a; 0x713d8fc4abe05b1e; 0x5275ffef48e114c9; 0x629e6b971d69dc95; 0x57662e34fc7bdc33; 0x51122764568a742d; 0x5ac0bad3e2404310; 0x3e816c2de3b5a394; 0x414d771523bf8b8b; 0x8f3aff32a8faea1; 0x4f5f218b5295ea08; 0x229e3e6742fdc44f; 0x573da5acbb6334dd; 0x534cfb9849df4799; 0x6242a8709b4a7dc; 0x69e64269a25509ff; 0x2058af494ac331b8; 0x4083bc41d0101b4a; 0x5e424be0bc9c6183; 0x3468c6b8f6166da7; 0x4ea3dd083a5949a4; 0x195b72e7e29b799a; 0x50893e89f332de3c; 0x79f3762b6bc9069; 0x13d11a94efa8d804; 0x3689e21a536718bb; 0x3046e33015e65abb; 0xc17220bb19ca0e4; 0x3bc2df906062c3e9; 0x5a487d7066725d25; 0x579264525d406ffb; 0x63c18a267dc50a77; 0x69b2de3ad195f906; 0xb708a39a7472fc; 0x6d38ff4817f3ed83; 0x775f32d89b9c267d; 0x61f82b0f8706ae7f; 0x58009a18b079c306; 0x6fbc1c6a781c3e40; 0x25195da7e93191f9; 0x378ef7dae7852f1e; 0x1d6c74bf4c369ea0; 0x1ddc743003a2c429; 0x4b5c9582295e3941; 0x2e041e3358181c88; 0x4941b3c721139a37; 0x33baa3750a01196b; 0x46e891170377b0cf; 0x3d3b92b5fad80776; 0x4f8130f05f9c0af1; 0x41dd10af2d65ddb8; 0x55bdb3269993e714; 0x280c84b0df639f8d; 0x13336c296f550db2; 0x1699477f1ef9a73a; 0x27f6eab8003b3587; 0x244688696e4e0f4a; 0x3f3d3851cc11888c; 0x2c6536976c6e394e; 0x3054e670fe25bd82; 0x1c64e128c52cdfc8; 0x9de3b358d31121a; 0x1bdae509b7e57497; 0x7a4cf83523388806; 0x21d52756107706f2; 0xbb51f5d0639aa8a; 0x72759da235ca1969; 0x59e9314514bef967; 0x3cb82e525e1a05d3; 0x191a29ad9ffe392; 0x34d6a68f7a283317; 0x5eee445ad7cdecdf; 0x4ec5c94a01f5b423; 0x6b9c30e533f65de7; 0x49edcb9d09276730; 0x5109400628b741ab; 0x4d5b70b2f1d6f361; 0x66195d70224e6f72; 0x5495c182c26afa4; 0x18058a7dc1f3e22f; 0x1302f3d2958ad5ff; 0x7af588944f1aec26; 0x6da33477e8b9fbe1; 0x5ec88babc86b2e31; 0x554d078c3f07a1f9; 0x1dd7b138f952196c; 0x1255ff23e82d8da2; 0x4929cb9b8819d4ea; 0x22471a7ab8faa385; 0x6636011dc8f62f29; 0x2df67b4766df5ad; 0x5cf6a1d71fdaa7ad; 0x45b8d4741bb731c7; 0xa73966065051687; 0x1e83c98d133ddf47; 0x316c2ba04d6e44e4; 0x48f1f29ece161f1b; 0x38cfe27703aba42c; 0x28456adc30614a35; 0x5f18ebadf80f02c; 0x6e5147ee5adc7e2; 0x7f00a70f25daebe5; 0x677024acc5c70d90; 0x4174e8bb68db6661; 0x3135aafa770f11f7; 0x326cb0634e8effbb; 0x72dff836ddff3c26; 0x66b7548cba7ab12f; 0x152dc789b35c0b71; 0x6082ce7434d22cd1; 0x312feef3f063b914; 0x6d55442440efe5ce; 0x5905213daf7e1d01; 0xc2d52fe252a3672; 0x3e12d22a08fd2d6a; 0x61ab680afa575f77; 0x6ae1d104d1e7add0; 0x21ce240379543ee2; 0x70fb48e4b7324cf6; 0xa4a7d71cb4a38c9; 0x789e3a9c6e515ac5; 0x381080565771782b; 0x2c3399566078b5c4; 0x29b9a153fd570213; 0xfeb3f8f80037cd; 0x6491b8e5cc5f7666; 0x561e403e9d5d10b0; 0x526a688084ad5d23; 0x421355d534278ce; 0x28b9bddac3dea6a3; 0x76201872d20da098; 0x3855127e90cda31d; 0x25c1dcee48a9f3e; 0x7a3a8f35b2c74c78; 0x6bedb9eca7080223; 0x8f76129a793d845; 0x2277d4296945e414; 0x799630608f73120c; 0x751020f2326f2f09; 0x4aea906bc306cea2; 0x4aff148e84e7878a; 0x163d0378c366a3b6; 0x572f899630384406; 0x6a71cec4f7b6b2e0; 0x204a57b7e03aa7b2; 0x3eede209e68d1ab5; 0x78d35d3c458d91eb; 0x1bb6743d77a4c14b; 0x6bc5fe6cf696b1c9; 0x13d4b11111f4a47; 0x677763381ad5d418; 0x720f294e873f04a0; 0xd9205c12bfc6e68; 0x2a1327c39c55e037; 0x405d0fd926782a5c; 0x2c6f0413d8778001; 0x1af713d79773f1; 0x1191e4628470359; 0x34b980cccaeadc01; 0xe542d0d7312e2a7; 0x696a67ce2762bccd; 0x66a7e79d447dafe; 0x3ac295358e46ff0b; 0x739748d0fb8cf0f9; 0x8f10b03b5a38cfe; 0x425281733136a359; 0x6c67098fb7abf71a; 0x35e3fcce8c08386e; 0x64f7ae209f03de56; 0x705e93d32e9cdf28; 0x3c0f7d1e04cea997; 0x1bb60bf6af15f518; 0x6956370e72bc8e1c; 0x55ad3daca1f6e259; 0x73a62e840ebe2370; 0x356c63f7ee900e19; 0x21e29835d3123618; 0x70ae27a3215c0254; 0x17a80bb0ed084825; 0x42fd9fd0a6ae2270; 0x76774aa9467217cf; 0x13338ec6a821a18e; 0x4e9644ed23b0b2bd; 0x33fdde6cf07bd75c; 0x771826ab734a4cc6; 0x5dba59623db12b1; 0x6973d1141465d477; 0xd1370fbd92c2c71; 0x14cb9f54db4c4e41; 0x44c8af029cbccae4; 0x387e263cbbea52b8; 0x85ee41d7078a14c; 0x4a5177731b953e96; 0x5e763d4ab605e4c4; 0x56f14a7f35a52b3c; 0xdac06acfadc0cb4; 0x4503c0d6496a5264; 0x291b782257dbacd1; 0x19e48284c5b96e97; 0x255f1a060ad4a626; 0x6edead561ef70c82; 0x107e987ebfee5986; 0x27423f6dde9c81cc; 0xa8cf9e3ee6fbef; 0x3ab337c9c26d39cd; 0x2aefa1];
   [0x20271933f1c3bac7; 0x5038efacee80884f; 0x30e045e6377b88f9; 0x18c2dae32e444bff; 0x4df41beecb51981; 0x632bb4454ef28f7f; 0x249e3b465487b0da; 0x35b3ed003f3182e2; 0x3c68cef1361c7bf3; 0x480cab4fda0731b5; 0x5259923bd679f7e2; 0x380aa89df47ee826; 0x52a4ce3ce5b601b3; 0x50d9ae11767739c3; 0x66d8a61947bfcdae; 0x75976a69513a2e8; 0x66c0fe20437b1e35; 0x8d31a1d0966acde; 0x3469070167516367; 0x3a22492ce2d37443; 0x797d63d164e98cc6; 0x354de9ab7f3e15d4; 0x58640662b9b6afcd; 0x52001bc64e124f22; 0x2eb3612e25dd547a; 0x723e9c721397a60d; 0x357b0332399610; 0x55613d965447cbf6; 0x5c16fd9d2fc4a3ee; 0x28f40fcccc1f9dc9; 0x7da4a0487265a43c; 0x53e8402a06f01155; 0x313e89c03d204358; 0x123fd57b50b07e2c; 0x7e688b28e2173a5e; 0x19c1c3663b76b72f; 0x4c990669905ee52b; 0x4bf701820cb39b90; 0x41ea89ca9cb5bf2; 0x196534f37fbf8e79; 0x35ac25214dbe5fc4; 0x4c391aae8745c5cb; 0x1a41b5e19f394dc9; 0x7b84d371d184b11f; 0x65e9872439491614; 0x46f721c8bb6bbe5b; 0x6be6d9f21464b66d; 0x6602d15e7772e570; 0x1c0ee5f901f48ddb; 0x109b32c366823a33; 0x79559dbf1d5a9f6; 0x79beed5cebe9fa28; 0x6b50fc04dba609e0; 0x24c9427ea59d9e0c; 0x11df0628e1dd961e; 0x4653b77f3c4062b; 0x6878839f7728d29e; 0x3a64b8af08bebbfe; 0x6e6c4c0f8e9c4087; 0x496b34836f2be28f; 0x2cc8b79a0f4b9bbf; 0x3ea6fb2ffe3d3108; 0x55e0287d25344ec4; 0x308deba5d9e47fb6; 0xff0718a3e63cd4e; 0xeb8b9b022f38fcb; 0x84f51cae43ddc20; 0x461b905cc066dcfe; 0x6ae09bccc5bae259; 0x7a20d24037dc68f3; 0x5b75c0dfb1793e9d; 0x684d556aece22770; 0xa84b571deef9d82; 0x743a3114a70b8ef; 0x13caac56703d4774; 0x7f89d68ef4ca658e; 0x5f6bc9f8537280bd; 0x5eb26c3df5a28533; 0x68a054f677148f61; 0x552d5e9ee689a962; 0x6927ad3c7fae0333; 0x6717efadeb811968; 0x4aeb06e2f0ae75b7; 0x54db473d78774d81; 0x27608b6ff7b1909b; 0x3e5ad527af28f0e0; 0x485ca57b6dc31460; 0x5e1c8688456023c1; 0x1b3bbaaa82123089; 0x459b410af6d1b6ad; 0x1d68a82973dc11bd; 0x5776f9bcc6556ecd; 0xd98a39e03d53958; 0xb247b7b63fd07fe; 0x6d3384de358a7ca9; 0x3bbe9a2c49e0bb71; 0xe4ca4167c25820a; 0x2f7e957300ea9ded; 0x14d7161ce7270a3f; 0x49fc3a058acb52a6; 0xc5c6478acc01d5a; 0x1f866013bd7376fb; 0x5ef8c9b7fbb0324b; 0xe69ef9d54712d0f; 0x5a23f51685ad67bb; 0x78f93486eb58df04; 0xed078d35d458368; 0x1584710108f67f04; 0x71e4d85a0914225e; 0x3c860a8d3eac0f35; 0x27fdb390b910b046; 0x2222822461db51aa; 0x2021f9b343342ad5; 0x1a00220484a9b535; 0x780c29ae285f75ab; 0x13168d74f74a1136; 0x6e6bd297b8584627; 0x731bd4d4e80e2ab0; 0x638be38bd98150c5; 0x321fcd634b36a63d; 0x1661036674f06d70; 0x5d21f8daa415ee90; 0x2bb84128ace0f7d2; 0x5cdf35f8e389055e; 0x552c74263c79fed0; 0x18e9f29451b3d442; 0x743cd08213a68e3f; 0x650167cfcc8b636a; 0x2baf86aa87e613f2; 0x29d9f9286032f78d; 0x6ba36f8f0ac563b4; 0x291057d5fd51e649; 0xa532e0e2154e70f; 0x72ab8e9a6d75f4ec; 0x460844ee25726adf; 0x749786d583789e78; 0x91e5f0c84e1399d; 0x27e68bee5b432ab3; 0x3227d950e3309d0e; 0x2dee2683feb06699; 0x1cdac2d0eac12960; 0x45377fff795e236c; 0x3c384b349e4876c5; 0x695aba753faf9bfb; 0x7aa4c7b7331e423d; 0x6901593b0734a4d7; 0x2fbe281fa677ffb; 0x583c17a7d7a6f499; 0x3ce389dbd82c3112; 0x6e51d8a05cb840fa; 0x6e7d01eba4cc45de; 0x3f34ea512f45e1db; 0x36b6cc326070b3e1; 0x52e7062aa923b003; 0x61bff536fd9aed56; 0x61514fcfb4eeaea6; 0x525ea96e6caf96fe; 0x251a1fb1807edc21; 0x593b69b049a98922; 0x95faf21d8b3c0c8; 0x321a02ee165662fe; 0x61b728d14dcdc399; 0x7903c117217741d7; 0xc17d23d9668ca39; 0x3adeed8a513a2c46; 0x76369b23bc795b07; 0x767789056433f6a4; 0x3bc92e9917ad2f22; 0xe4d980f0e925992; 0x35e7f663426df414; 0x3768b65f21450040; 0x30d73fa90cff703b; 0x699474807209c55a; 0x495cf95f01b818d; 0x92721415606a760; 0x5aa72d8081e41bf6; 0x771abf6881ff6658; 0x51e9d6f521a277fa; 0x47c2f17af5d75b98; 0xe691bb434c99383; 0xdf304fca7a2a684; 0x606a52513d73e922; 0x1a3eb27b069355ef; 0x7ceb1c68f30205e1; 0x1e23e288ca80ca00; 0x18f283338df56f5e; 0xf49fa7142ffcc5e; 0x4348fe88adf72121; 0x41bc255a9f048784; 0x3b1f09813644536d; 0xa0c97b9cf81ca14; 0x123698eb7138de99; 0x5bbd955464075cfd; 0x6f04d6859355336e; 0x68a0d67a3054de10; 0x7a06dbdc9697ffb8; 0x7d6e66f424311963; 0x1d0dd87906d23450; 0x6404837ee99ab2c0; 0x69e311fdac051d9e; 0x6f32681fa7841aae; 0x48b187e0455609bc; 0x1329e36940bcf4a1; 0x237c9c23e4154dd9; 0x4f62c4fa63f96a72; 0x4b634fbe859deb1d; 0x5ea38c77912e4f7d; 0x2c39058d05726afc; 0x32d7645e5c3ac5f2; 0x1858f11ee81fcdae; 0x204d115fe46687c2; 0xc2c711ffeea8d5f; 0x3064a0d5609e52d2; 0x3d8157f932d1fa08; 0x4ff37c51e1480872; 0x389100c9ead65f39; 0x6261e3023bfb5d6b; 0x7b9d0656cf63986; 0x505219849b7fafc1; 0x47de268998bd3909; 0x486ea7dac227a542; 0x33af15b52cfce192; 0x711a2e0246c0b88a; 0x6049b2df5448d62d; 0x6a1e83f9737f0545; 0x787d23af199c67d4; 0x71084f84dcbe757a; 0x74891065af84dd46; 0xc5f726f6911cff2; 0x5e168b3b1af27bac; 0x3329512fe8c785bd; 0x6beba9b013e34503; 0x27227b7fd4a2b89e; 0x5361810073929d4; 0x7a7c96a65bfcd94e; 0x50e01a540a524e95; 0x22ffcd11856e6cde; 0x13cded61af91f33; 0x59351d55ef3d4818; 0x50fd92dd796ffa91; 0x54684e99f1173111; 0x29af6021b797b59b; 0x6f6fdf229837d5b2; 0x357f50f71afec690; 0x7ff493b67c5d4ad0; 0xb1ab2544146ba48; 0x344aaef139ec20a6; 0x36a13fcd467307f1; 0x34c96bcd6b6e0d1d; 0x45a55e2700d12957; 0x73019d4598b3fbb7; 0x1b029d140ce26607; 0x285b3e3603b0af6b; 0x25d3fd31a1c6b936; 0x4ecae42f1f26a1ae; 0x27fa23d32ea65f1; 0x1e17d658ebd37670; 0x62ad786fa385762; 0x2dd20e1793c3f917; 0x658d7eecaa7f242f; 0x374864a14b2d5998; 0x73c8ce4524e29538; 0x7050bd4a1a000db8; 0x7596e7d38f46d1d9; 0x442fc2ecf87366b3; 0x6d64ad9c2cff114a; 0x5f8786d3d4c2cf93; 0x1b2a9e51849d348b; 0x7555bdbba5a5275d; 0x6b615cfeff06860e; 0x447330f3374e9e02; 0x2200ea3375dc85a7; 0x30cac67ffa656eb5; 0x206b0b554579a8e0; 0x211d2e20eae13e44; 0x1a935d07ef7eb67f; 0x5d7d92572617e261; 0x531a418c7a9ef8f7; 0x7a9054d1f8d83706; 0x70a31ebefba80df2; 0x3be23ac9f7e22e39; 0x76f65b50d6798afe; 0x1eb07a821a4edc54; 0x6e7a6bdec2ba5b75; 0x77c6d4d991739747; 0xedff8a1679bce79; 0x7d156d6a8650983b; 0x45746432466e5f2; 0x319cca9c03cf33b7; 0x4cb3f3a9b528515b; 0x2ba62b249cfa27de; 0x44327b7129dfea31; 0x30998d147229251b; 0x3224ff426b62cc85; 0x18fec92f54dfe822; 0x2aa8959eb452eaf1; 0x1e927604a13208f8; 0x9825e5ad4d6726e; 0x463103050ce436d6; 0x3b9e9687644e8b56; 0x53469007471797a5; 0x21f70981a0b59f9a; 0x4495653cb53dbee5; 0x1a9cc0274aff54c; 0x8254ca323fbd76c; 0x223b37a2b8ee61c1; 0x29aa3da69afbb6e7; 0x1e18a7a1597c875a; 0x7b24b4a379b8c46a; 0x4be75ebbb63cf3f8; 0x3479e1e05099cca9; 0x344eaaf0fc3c3a52; 0x2b21274e334faf74; 0x182d6c27738f4ed4; 0x7c8ea10ca8f2bc75; 0x59e333b85cddbc6e; 0x5e0dc20094383440; 0x2b7da6];
   [0x2946868c21b19a7b; 0x3af00cfdb4b71f6f; 0x438cd1fb83c10451; 0x750ad1dba9370696; 0x2938ba91a3814a3c; 0x1998894abf8ce903; 0x7ee81f31334f9e01; 0x24a9e50e8f4ea0b1; 0x6a3a2a0b86894541; 0x7c9c6faef954c1ba; 0x467d3e44b63409c9; 0x2307994e448d10fe; 0x1249c7ed9513146c; 0x1046538aa369613a; 0x4f9f7b6ea0b6684e; 0x61c182c511cba4d5; 0x28d636fec596c3e1; 0x2fbe27cfb29eb92d; 0xb09a5311d61f917; 0x356d81b85d1af883; 0x1f98af7428d991b3; 0x3c1fe00b9a45f6f; 0x87244e6ffff87b2; 0x73775afc32b706ec; 0x5e181c863785082c; 0x2b9076c0df1ac13f; 0x418b9b1edd4605e8; 0x6838c0b8b81be145; 0x2bece3340cc71e46; 0x739a955b114764c5; 0x3b73e46efdc98db2; 0x3bc890cb5100c379; 0x2ef0830a2d5de9c4; 0x313f7dfe17213a0d; 0x1c9bbf39c63b2edb; 0x4952fae83afc85e3; 0x68e9817b3498a72d; 0x2f70876e1ee07a70; 0x665825d1d6bc9ff6; 0x7b2092d398f9e751; 0x10fede9beef5bae9; 0x89efa1d71e29ea3; 0x117f0f90ed284948; 0x4d02c4e5cfab1c2; 0x605f0901fe954d; 0x4c99ff320d5f0361; 0x138afd263470b85; 0x40369bc27e94bff6; 0x7ffbb75713627432; 0x5dbf468c45e5647; 0x2b9c75ec90eee1da; 0x38f435b4ab917fc4; 0x30bbeb9c3b9dc344; 0x6bd10b29639e63d8; 0x1f6aa76d9454b177; 0x4595674841709fe5; 0x28adbdfa30503e9; 0x5d9f4142dcd085a7; 0x4cba26a6679efc18; 0x7c834c357a259e56; 0x6c8ce9642fece031; 0x29c1c8fc8c4144d; 0x4005ca9939985958; 0x21659ae0647ad897; 0x73fd903a36e5b3de; 0x69dad1b1ebd28ec8; 0x170cbc7456f4215d; 0x1ec904c6fdad0fc0; 0x6bf671a82272d01e; 0x1d0184dfc462b90; 0x7d373f0094d0cea0; 0x569ff56938ef3819; 0x47bd9d933a0c783e; 0x3c1f910639bc8494; 0x606c1af4c01e5852; 0x4f357592ba5fffba; 0x582085a6456a5fac; 0x4e43cd394e78929b; 0x77ae110a37518637; 0x1672bc4460f9bd3c; 0x50b48a1a80ce30b0; 0x767d952f1eb193cb; 0x5a571199762f83d7; 0xed87bda6b3405f2; 0x1b5bf7af7bf26f1e; 0x4bec64776a7a2bec; 0x3b1b6b70eae54775; 0x4f19fe491fbd905d; 0x5059735512d5b445; 0x7f639a229c25aa9c; 0x52331056dbafa8f1; 0x3a1192a64a39b110; 0x10441756f77fe979; 0x7dab943ede804bb3; 0x710e3e2d5bf57700; 0x5c5898f5d6f8f051; 0x58bc8518a66f1aa6; 0x6884673111ecb9a2; 0x37c3726825cc4978; 0x69f162939eba6404; 0x3816c2112309f648; 0x4486cbed59a896d3; 0xa333291bc94bb67; 0x5896321c582d7c86; 0x6c270b091ff229bb; 0x4cd4417e373c156a; 0x402466a94c51ba8b; 0x4571f38dd9ded283; 0x4f868b519e769cfa; 0x394bc40d22557001; 0x17ffad1358107ce7; 0x3b4c1129c9abcad8; 0x6d47131714fb7554; 0x48605dba93a0b667; 0x1452e23123317d1f; 0x3132917e8ca2a361; 0x378b4bffafe0fb40; 0x7cb78cde6e0310b7; 0x20f34a33b702d15c; 0x1c692b89a8e5989c; 0x148eec9e67a0fa92; 0x462ddf1c6aa46b31; 0x645a930661d9366f; 0x11170be5bb2556ea; 0x449878f467d42449; 0x7a07b970b169585; 0x6f3efda99ef29e8c; 0x7af028c538e3f66d; 0x2b996170f37d76ee; 0x3af67806eded8c56; 0x5d96440cb86bb73b; 0x2238731271cafdfe; 0x53fc84336b5cc213; 0x23489eea831c5272; 0x18e83bc106e0029b; 0x4ff425677a0e167f; 0x1fcb7c0416640c3e; 0xb754e495eb03216; 0x465416b8792da3e5; 0x15c2a0d9ddba581; 0x532f247b0550d507; 0x5ff353957c873a21; 0x5fb4330df44b9cd3; 0x3017a0a968aec269; 0x6e83867e6f25e640; 0x519700eaee26fb25; 0x6d9999a0e53c32d; 0x39561dff16f4ca3; 0x44ea61f56857b6a0; 0x37e93a8e8d2cd4fe; 0x2a21b89334e272fb; 0x14736199b8373fd; 0x18e1458f43ed8b77; 0x24935632619f957c; 0x480732fce3f4f948; 0x695803f9bc3a89d1; 0x61e2ea4d0f6345a9; 0x558d7a26da479273; 0x2a85ba1540c78553; 0x4004e3f8c34fc25b; 0x35ba3103f9b71882; 0x1478f5270749577f; 0x342b787e05156ce5; 0x45d857be987c0e72; 0x5c3e6f2b1c33e358; 0x344efd315be523ea; 0x577b0e8761411f68; 0x47decdb4410a1ffc; 0x3dacd7dc11ee6f2d; 0x3acf166833f10f24; 0x483518d293b9fdbe; 0x4716558fe6c23276; 0x43922abcbd894a33; 0x12ca61b938a61b2f; 0x5a9a994e197baa7b; 0x5c0c2909caf7bc48; 0x381f7a8655ce4a6a; 0x6630a20e6114cdc7; 0x36a9ac1aaf34ac7f; 0x4b51685d2bad980d; 0x4eba51773da01cde; 0x5d27596e50bd154b; 0x55a8fc5bc0adc519; 0x7d5db7551534c8c8; 0x6c2f82214b471e3e; 0x36e6a4855316c9d9; 0x5ccdeeda22ca28ec; 0x3c6fd553576cf640; 0x442ed2577df6f11e; 0x3b6d2ddad539ee9; 0x75e017eabb36fa08; 0x4b17d5b0dfb2593f; 0x41b9c87edaedae19; 0x1fe876550117b7b1; 0x2e85218261297238; 0x3e4ae10c7234a039; 0x7a86746f7c2dd1e1; 0x653328062de8a031; 0x19b66561d3807e41; 0x88acc36690c211c; 0x507c4de767adc73c; 0x7e0ef4747a01956a; 0x3f5e9b7bf71e2704; 0x4bbce0367928172d; 0x3c94c1b730ab99e8; 0x57215299ae81f0b7; 0x7133e21b15b664b; 0x701f9da47a10a192; 0x686c915ffe2348a8; 0x2da9b771e7dd412f; 0x71ee3cc4e6b2da06; 0x569e1797c3b55f57; 0x59ba53c0ccc7c6c3; 0x5f42e66b5cb3719a; 0x442a36363911214; 0x5afefc5ef99901b7; 0x2794cafe478be96d; 0xf5763ffcb811d59; 0x295d1f5998ee438f; 0x721da2414754d7ca; 0x18ab78d72cfee9b3; 0x1f29d5c5bc577d64; 0x6b1fb36904c3d6ec; 0x1b42c78e92bbdd87; 0x184c8f8c7002d44e; 0x197942736cd3fffa; 0x607a354f29b926d6; 0x4a30438afed34960; 0x1b45bc1c8fbf00b8; 0x7f9c38cd285e821a; 0x780c14b8a198781a; 0x45fc09a8c973087; 0x42966bb008472a2c; 0x39641acdbba6b8d2; 0x35332472fea7bd3e; 0x4d3ba7e699d1d644; 0x72f4ef6a830fa9; 0x59f9869765c269e9; 0x5fd3f5feb93109bd; 0x2a75c51c1135e2a3; 0x66745edcc7707c81; 0x31091fd8b7ba6831; 0x4ae8dd4102c2b1ce; 0xaf4e63e152e42ee; 0x4787b5e59e9f35f8; 0x304aec92b24094a7; 0x63ca51ceacb19f9e; 0x210cb6db47d876cc; 0x8b2fed65d6e0966; 0x42dc60bee7ac564c; 0x612377f87613f5ec; 0x197156a6fd015ac; 0x48b8e8e44218b12b; 0x5b6bdc8e1a0d7afd; 0x5394629d372b3dea; 0x2f3a89d2b5f3c137; 0x1a4517643c7017fb; 0x38704611e05a3348; 0x2ff5fd2a35f383; 0x315b9cac94f9e3a3; 0x11617bf53b76055b; 0x2e05330dff9021e9; 0xd30f2ac133e9bf6; 0x543e3fa05d513b35; 0x4648673ae04d23b1; 0x300478d7f1712a78; 0x6180d4e8453e7c73; 0x546682fe057c2bde; 0x29f19b16f563c840; 0x1a8fa53c0b83432e; 0x2c3f9eb4ea9e8120; 0xcc16c54b8cd19c7; 0x3ad0d2b35ffc401d; 0x238492ce41b024df; 0x41a6a4ab9e3daac8; 0x9e2e52cedcef793; 0x5a49fe5d96d2ce57; 0x70aa704238b6062a; 0x4aa669205a76d2e2; 0x705af1c2c75b5cfe; 0x19522808324e186a; 0x3a274bfcaba5bc6b; 0xbfc2f8938c8410c; 0x250aff7527f09d41; 0x5270bf851262396c; 0x53705475215a0987; 0x72ab76b7f2025f6b; 0x6e3f65f288834e91; 0x2175cdb299461ba7; 0x741c414a2bb6f10c; 0x572768ec4e1887c5; 0x4e6fd72a99092a; 0x5fbc0e204e9e7e75; 0x36047bbfde6c92d; 0x68d78b14246cac2b; 0x7afa1eb8f08aa5f6; 0x62a241974b5af6d9; 0x6ccdaa89c92ca8a8; 0x57a5f7eff02b3bb2; 0x712042132fb1da28; 0x5827d20cf09ab96; 0x1c42ca6648bd2e6d; 0x6e1f2e4f0b343cc; 0x311b426e04ad8f48; 0x6b6b6be3dc20d5b5; 0x1fcfd2a3db4f28ad; 0x59a08ade000d800c; 0x47f0f67f60c90969; 0x61fb97d37a08fd15; 0x50fd3aa882c67528; 0x70d1bbda2466b89c; 0xdc9940d20d3bd96; 0x26b231b3f8e87662; 0x271e54f640d3f1a; 0x1859af3fb60a45ba; 0x382f9cba7ec918ee; 0xc4f0370fdc1cdf3; 0x14060];
   [0x642f32ff0952c4c3; 0x27996b3bea685e05; 0x6d49c51f412a3d05; 0x124397368b4538d5; 0x55be27b1ae69b846; 0x7f6ba9acb46ca343; 0x2fdb639f8a508d69; 0x37b0b04351a04715; 0x46a9c5ea715e017d; 0x2f3cbd1624a2a675; 0x88f84a0eb423dcd; 0x3a199d7d1e71e416; 0x2b78b0f33551202d; 0x47ec3994a7e805df; 0x3a484d782d229683; 0x18f0f5529bd4b0c0; 0x1e09d836cbe578fa; 0x6e56cf6293c157a7; 0x78acc78bd7790a31; 0x331dae1bdb34aaf; 0x13b6deb4d8050ea5; 0x5b87b2ee1e8811a4; 0x45cad362fb640643; 0x13edbf9723cfd528; 0x57db7b556cb6e7de; 0x5e94f19b54b60486; 0x1de0fd676395a11d; 0x75664e9dfbe18ba0; 0x3f791beeddaed7ef; 0x4b69c8a1d3e62512; 0x2b74708e3a88d268; 0x762fa452a1249d2a; 0x3d6cd1b2216a5381; 0x782982646937badf; 0x716b48048df5508e; 0x1c7006b949d02330; 0x42012032d53dbae7; 0x4efd9b55b158773f; 0x298fecb7e3f024f6; 0x2b368106b54f4078; 0x605c8c3251fefb5e; 0x62c9f9b1fa9a000a; 0x4df795b6876df48e; 0x3cc32e4374895523; 0x5841ca91232afd3e; 0x3669b1c3a22e1cae; 0x6bf652a06885ec8e; 0x70651deb05f79181; 0x742f9a289e0367cc; 0x6336e99bbf1e4517; 0x3ff96d7d4b53e9cb; 0x252e6f9f143cb436; 0x4070c7f80a733821; 0x441429eb0765f175; 0x18aa5bf1c91d16a3; 0x5940a0ba9c389ddc; 0x1651abfd7150b5fa; 0x6b9f811106a32466; 0x4a7deed3660f9302; 0x35919448e1e19d85; 0xf4a48ed122788ea; 0x756b1bf481a65508; 0x5079c98d5a2ad91c; 0x1ee55521677bc554; 0x652a186885cc448c; 0x336ce7acd884745d; 0x5b1cc1a9e183c64c; 0x6a81f0204c31214c; 0x45aceb4e4d37abfa; 0x3019d371ddcde539; 0x484f063b8127be4c; 0x26f9c3c26f80ee7f; 0x4039035422108d79; 0x474065cbd832556f; 0x725331c2eec3ab5e; 0x6d98f688c1ec88be; 0x6b9af96641ce07ec; 0x298958314cc0ab8e; 0x4ed3353c14783acf; 0x59da80132634b546; 0x3dd442fcb6889e65; 0x1f2d6a70fb82281e; 0x6290db4c230d6e66; 0x2c2ef8539f1ed0c1; 0x9295e4876402cfe; 0x6788fa04c0a02bcf; 0x8eb17960f2c3090; 0xb3e70eeaa868415; 0x4135f4cf6c85dbcc; 0x5fbe209e9a54611f; 0x4a590e6afb2725cf; 0x53f44c7cb45d28a4; 0x37811a9832a48d7; 0x3f27093045580a0e; 0x3fba0d1fba9f46d7; 0x137cb8e8a21d4286; 0x31efd1d210dc339f; 0x25c7c8c09c373f53; 0x505f2ebbe02e41fe; 0x6f8b5cc7e8fb9bae; 0x525fddc0e3210b58; 0x77da4668851e156c; 0x3ad5aca07c93c129; 0x3c34ee45a1e23267; 0x185345f20c1c89ca; 0x3e3a320090179380; 0x6df513e323df2d6a; 0x1d82e51529a0577a; 0x4149a063507b4d09; 0x7e61771db8b8f7bf; 0x5dc6a4f74cec41c5; 0x77ca43eeb7e8cc04; 0x722bc5f1dcb0d972; 0x461c3579146cfce7; 0x47e82aa1c2d68651; 0x272b216263d7ea9d; 0x7402218b779f409f; 0x4f5a71c504f66b84; 0xf13c19dd1bdad35; 0x7a76ee75f72d0c32; 0x3341ca4dcf68a982; 0x23a2d5d07d456f45; 0x1d30cfe924cda5a9; 0x64ec7bc51a872f05; 0x72452a18887b7309; 0x71cbbe8f2c903522; 0x55d86fae648b7858; 0x5b77196a2bb4c0be; 0x47939b46d93f9e9b; 0x329f8b910dc4f417; 0x4723a98d633b2a9c; 0xe4da3f1b8ddee57; 0x30bcdfedc80142aa; 0x10c1615d64e138e2; 0x5d99f571849ebe5c; 0x5f62c559d82b12d3; 0x58d05a9d973ac8ac; 0x5078e9576bbf067f; 0x16327c409ab3f147; 0x6dc288d34b12c57; 0x23fc9f47e4695582; 0x79eb2b266af84350; 0x55336ef5ca8d8110; 0x77c21c0c73ca698c; 0x56faf950894f592f; 0x5805b5d820062c85; 0x3f2e377fe1e5817f; 0x10dec7918996bcec; 0x2319e968f9e15d14; 0x52385e9f7ffe7519; 0x50a18584c25d7a28; 0x53bb340bf307904a; 0x268a154d6d57ca5f; 0x6a3f07e8060f4d3c; 0x5ceb947727fd42cf; 0x16096b416ed5164f; 0x7a52c4500b7adac6; 0x24abfbe947a42a39; 0x73f64a4cc0389081; 0xafba80283fd0ec6; 0x1c3a02d64586107b; 0x46e35319a0b25af9; 0x2950720da4011bf; 0x33d65be8ba1886d7; 0x393887598491c4c8; 0x73f01cff62d99b4c; 0xc76bcb37681fa24; 0x7c8b02b3685d38aa; 0x89fc08e74f94039; 0x7c0845d5942b3161; 0x47f9fc381b0c6daf; 0x2ff1ae825eacc9fc; 0x78d002618a9ac6d8; 0x7f185773bc4e37f3; 0x652fdf1230d2cf2b; 0x1d84688ba61bec34; 0x73cf58b6c5286435; 0x723b79f6a24bb78f; 0x3f63ba29d9802e6a; 0x2c4c95bf0298f411; 0x46fdfc3b916d1a0b; 0x2b69f10b748593b8; 0x750206994addf3b1; 0x12b7b509d7a584c6; 0x62c656634a569055; 0x28d528d13148b751; 0x1452ad91923b77f9; 0x1341705653c79e56; 0x64ecbe427e9b093c; 0x546730d3205b3f9a; 0x278bb57dc419fe36; 0x17799a1cd6f4875c; 0x2be0a6f2a6438be9; 0x2777ae2e89d8056a; 0x54d643d83b84a987; 0x4d8bde08a547fb8a; 0x5bb7e5850a363727; 0x6cbdda99860ade50; 0x1ba02c3a989384a2; 0x3be9d958537147ae; 0x11a474c89b570716; 0x533e06bb57fe5ac; 0x15c2fac9c1cb2a4f; 0x581b54e3bbd5681e; 0x5ddb81e3ae472beb; 0x153cfa041cc3ea21; 0x3cee035e63d987a9; 0x58aa19e3029a15b3; 0x61b89f54b3681830; 0x2915976f81617fd1; 0x35fda19f9633f619; 0x64d3c37b8dba0654; 0x7376fe818bb18cbc; 0x805a7f835c59fdd; 0x2a04c77dfbf9f288; 0x4a5055e6b521eb92; 0x260d3831225444c5; 0x525ef776aa798346; 0x456682bd2f0b8aee; 0x744296e7dd5f66b4; 0x14fbb2fbdfb0dd69; 0x4472eb64118b7cf0; 0x172a76cd457914da; 0x5963f3858bfc0aa8; 0x47228f78c1091b4e; 0x56aaaad646585613; 0x17ffbc618d148a12; 0x67ceecd0823e1ed9; 0x1374b1d74ff8423c; 0x774eb8753608a828; 0x408c83d88c034cbe; 0x5dc7f9e2e275808; 0x6aee9f5fa28f3cc5; 0x978e05d68e115ca; 0x411c5aec110e5e4; 0x5bf1e9b52896f1b1; 0xe070210117cb224; 0x2e58d6203fce793c; 0x4d3c7c50bd027e3d; 0x2e846add0caaab59; 0x5ef2bcce1db52b71; 0xd5c69ea4a7c4772; 0xe8a486ac9fcaf0c; 0x3c1ec89beba837f8; 0x27f110859378f93d; 0x580e136f8a4a2f62; 0x1eb756f190a47acd; 0x995558487fc9940; 0x496222ab2b3661d7; 0x16696c9fa2f0e31e; 0x6d7c9d70713ef7a; 0x35a475bbc339d283; 0x787693f088c5fc25; 0x2c2567811f46b75e; 0x2c2eac8d1c64f68b; 0x13f29a6f75c68f46; 0x2c58e1b168787368; 0x5f7cfaeaec6fd0d1; 0x39f53a2827fadb0; 0x27d6889048f4340; 0x130ea877191b3cc2; 0x2851493b4b7e174e; 0xa910347ad32a718; 0x52f26f447f020596; 0x47820c7e2829b99b; 0x9593e60fe85f2c5; 0x72bec9266ccf589d; 0xe9cb85b9ab40673; 0xe45621baec7ab00; 0x2ad0dcc69669ffd9; 0x3f92be9946a8a48f; 0x290e16fc3997592c; 0x14d3fddf8315a69c; 0x2dd885798dc8179c; 0x79b0ef9e1a9ec26c; 0x2f9b1ffd8d11a8b8; 0x5c02a0d258338f9a; 0x11499b9bcb47fce3; 0x21b6df8f220d2b6d; 0x6c5911e1b6759151; 0x6b247190f93535e1; 0x288322dd3b2c0493; 0x1abe7724f005662; 0x76b29deada59fd0; 0x20a6d84ee06c6293; 0x3a7af8b0e859a856; 0x76236c2d6bddbd05; 0x590dabe4257f4f0d; 0x4ea2c3835f9f5d19; 0x3212bb0c78245f38; 0x1a22390b2f9be7f8; 0x5cd378a6a10ed079; 0x65c69a1c9b31b7ee; 0x3fb6353379c8a7bf; 0x608c75e55178868d; 0x1d974a61fa4763cd; 0x439ef694e44fd9f1; 0x3126cbc08fb094c3; 0x1015a7bde9b9dd60; 0x11ba27c8c88aba74; 0x28c6a1e000c7a338; 0x1f1e1f83e85bcf4b; 0x244eee4d5a6186a3; 0x24342a029e8b91aa; 0x13b3506d00572560; 0x39c1bba81a3e81f; 0x24308dfd5ec6316e; 0x3f1b625450368e01; 0x798ce801c5f75557; 0x3c63a609a183c9e0; 0x47825f3b5b45d1cd; 0x333c8cd66db5e0e8; 0x397b3169cb26ea1c; 0xcdd1bc6226173df; 0x732d88957ea98921; 0x51a58aff1f2d86c7; 0x4236521a0b5f0e82; 0xf4d21];
   [0x10c8aaaa3a73d76a; 0x139fa0c53f06540a; 0x79359bde026a1c4; 0x293eea35205a3a4b; 0x2c7ba38c87811ac5; 0x6137fae672ae7f9; 0x2ab7751e23e6458a; 0x1f9e37de3ea41479; 0x709bb23c533efde; 0x33ae99854282045e; 0x42e634fe702b96e4; 0x7a5d6c4245d6e3b5; 0x137d22d7560935b2; 0x2cd1a9152fae1ab6; 0x1ae1bdc97ecd5db1; 0x4194317bf96c024b; 0x843d69e75bdffc6; 0x65c15ca8c7224062; 0x58c12d66928d201d; 0x65ea781b3cfbb0f0; 0x64cdb3a997dfbffc; 0x2bae4d1990d7cf7b; 0x7869d36bba2d278c; 0x49ba449b8ecdc70c; 0x3f76a17a45feca75; 0x378b69400a349da3; 0x6371ba4a188a2877; 0x60cf5bd4e6b434b5; 0x20d7185590321989; 0x63eacd485e601151; 0x7da4b3debafa1ca1; 0x4d85de8f84dc9340; 0x1352db03f2d9d48; 0x7f05c60c8067c049; 0x67bd2041dcba8ecc; 0x15358fea8f42dbfc; 0x6358a9187eba84e6; 0x8364c1347a78885; 0x1a4a566575350b8c; 0x58f33b1e483cd55b; 0x3bb295b25c3804f1; 0x2a4474ec40c8e30e; 0x4122fb09ef587cd6; 0x15d3ee56010156d9; 0x7f3e66b05d86531e; 0x18fdf5d4f9e7c0df; 0x46c34c085a2eb773; 0x6de81161afcb98b4; 0x4e07c02a5635ba71; 0x4fe7907fa2b96d3d; 0x6aadc70801c586a2; 0x31c341f283d9c8b4; 0x1847ac6c7514016c; 0x5b3c0b46eed38d18; 0x27723463b87872be; 0x342a166949a797e7; 0xa7d15d1cd0401c2; 0x15fa31c233ecf380; 0x3827902ad59a75cf; 0x572aaf0e3dc37c49; 0x1439c3224c7e72c3; 0x2d97adbc2d101bc3; 0x3b28cdf7ecf13188; 0x386799fe5a15f074; 0x5bcee77b655d0bc0; 0x26c43082363d04d7; 0x7fbc760fdeabd9ed; 0x6613315d53aa7abb; 0xe2072b9f3927c1; 0x85b820d43ecf47a; 0x1e04701c6f3365d8; 0x5310d0e5ad3548b; 0x10e7211637b16523; 0x52f2482db0d314de; 0x7722de6cea23992d; 0x547e79f957bd87ba; 0x5226ef4e14139001; 0x4c5fb3052ee3fd19; 0x10f4853e50fab298; 0x6efb7db185182cb4; 0x3d244008c37b05f9; 0x3853b7f910d62f1d; 0x7dc0b8261d6fd893; 0x2e0296e720b0bceb; 0x30db5dd366cb6f28; 0x5af2f08ba4a4da91; 0x79f3a41ffac58860; 0x3fbd001a92874d82; 0x65ce998435ec8ac0; 0x669a933c36af6b65; 0x72763efb48ed6b5d; 0x752f4682ce5b4dae; 0x27aada99b54f4e3f; 0x4575be6ef7127f42; 0x1c025e8f0e592a36; 0x275215f494a06854; 0x31350bf6cf157f25; 0x2d305ce768438aad; 0x300769147402f72a; 0xa743d712357b409; 0x4b260ddb3891ade5; 0x43de0d3728727939; 0x3814ccb7afd7e486; 0x64f02b1c33efed4f; 0x3c5c1326b51b9d15; 0x33711e9506a92adc; 0x2b94246e03c85c40; 0x74c8ce46fc4da33; 0x3b05426a331157b3; 0x7600fe8d65665919; 0x296109827f787561; 0x3828b45cb44aad12; 0x2f572a13472e8978; 0x7981bf98cb87c5b1; 0x47ab737fffd07a74; 0x2c839bab87ce83f7; 0x7df50c4b3a15268d; 0x6a4599ba4ccbd336; 0x3dfe9bb04676afcf; 0x361e35e4ee5af827; 0xd82bb7d7a6aad48; 0x332fb546e46de63d; 0x1285edd71b9968df; 0x3e77b7ecf8a41549; 0x775f949de6aa573a; 0x275ff268de3ee555; 0x36880458cce08bb7; 0x47b6279b4a90ce22; 0x4c4a3d2aab4215b4; 0x59446d5f3516cd7; 0x8399b9878b61be6; 0x4149838a76702e3f; 0x595c2e836c006adf; 0x3a5d940cd8b76b06; 0x1f7f4e53fb570ed6; 0x795d8173fe9de750; 0x26e11045b310a67e; 0x6e0888357a353a10; 0x18501fe1a29702d5; 0x561067812e9e7663; 0x2b63b46dd45a73b1; 0x6a8b60d665838668; 0x1e13534033a3d3a2; 0x3f33e213165037e2; 0x5f30b3d347d2277; 0x27c4964bc314e871; 0x7704221373f107c4; 0x64fe875e2e3ec05f; 0xd064108c884e84; 0x7c60e1293b982486; 0x5615f11e23b5731e; 0x39fe43a148cea4c5; 0x405fcc4c468831da; 0x24a6f2bce71afe5a; 0x2abd3b35520b2ff; 0x7c1cc5c6ea63c258; 0x1dec1e9658870554; 0x2ea94507094d747e; 0x2ce438fc071f4e98; 0x2452f7d0a371ea42; 0x41cceba83dffb03a; 0x692c1723a3ff0ccc; 0x473ba03d7c1c2864; 0x2386190e7959d805; 0x5c655a4030a517ce; 0x3f2ce95f81a07eef; 0x2dee95dc83aec857; 0x30abdbdf44330f08; 0x5890542b1de958d1; 0x65be914560d025bb; 0x4985cd1fee3074e5; 0x6347247d9ee26ae9; 0x605a5ead02d664fb; 0x692a3b83c7113af2; 0x2d872274fdd22e13; 0x120c7a343f629182; 0x2d8ea382d32629f6; 0xfcb09001dc9bd2a; 0x57deb8d008d4a99f; 0x316df2e7af6d1aaa; 0x771a436e456b9305; 0x31a692e36f9057c5; 0x7a57a3670e59bcef; 0x4c7e8cd66e4578d2; 0x704af3a8ad183b0d; 0x26b3ac4cfe6e1d10; 0x56a7c81b91a0bb8; 0x785bca5abc3653d0; 0x6be63c76a2773179; 0x23f153d0851c40d6; 0x33d07d142b26d0c3; 0x58d379109dce98f5; 0x776e5d8882c13dd9; 0x2d6c1397a27f56c7; 0x7651a81ac32ed777; 0x6d1c03acc3c3419c; 0x55f43dc3f32320d6; 0x267eb3509f09ff85; 0x18a45f0e043643f9; 0x2ab4e14fe611cc45; 0x564bed7de31bc4f2; 0x25f9514f719eb174; 0x277a374a40b5e144; 0x2285a470da94370a; 0x665e2e0a25691035; 0x37fbe85d2ae069c4; 0x401f216f4b9c0132; 0x58658409f31c95d9; 0x3c2d4e6c8b604b2d; 0x1e09b7ccbfc7c537; 0x2f60e1c569f1ca71; 0x20e9b67870116039; 0x60166ec0ded5adba; 0x189be963fcabd67; 0x67a6cd6a06ee13b9; 0xe1cea3daee4a4e6; 0x671417acb25ffbb3; 0x5a8af5dc585faff7; 0x520db56860d7df73; 0xd1f63f62e63d0fd; 0x7ae6979ec82a9b6c; 0x7872b7a1ab2d4ad2; 0xf001aac4a58f4ac; 0x6bc84790f9fa5171; 0x4ed111a40ebad58d; 0x511c310a46d3d1ba; 0x7384147afabd388c; 0x507f0588e29fbfb; 0x43e43d83460e4b0; 0x3c6fe1cace2ddc1; 0x11bdea86eed78a87; 0x4802eab4a64224b5; 0x68f5d7dc25d8a179; 0x6685034ed8ac8bcd; 0x4138412198de4a0b; 0x77de584a44273aa3; 0x1b6023a7335c9057; 0x73a73ca4041bcc1; 0x44a45794f4fe1eb3; 0x20cd206a92f7f76d; 0x548ac2b4b30a6976; 0x72b16a921db6c1c5; 0x2f63cbecd2f0be6b; 0x463d7b9eab8926f0; 0x1b860d3ddf647dfe; 0x2334160692fe3fb2; 0x72807d0dca57a36b; 0x6004d5b3cd50464e; 0x58d85d9fe09168d8; 0x5653b4e6da15a96b; 0x4294032319e2005f; 0x50fb5bf6fc5c3fe; 0x10bfdc50b35f8e07; 0x777733c672a2d37e; 0x35a0350e257e524a; 0x60febde526e676cd; 0x73810c3ea7f4f62e; 0x2b2e840d2066f80b; 0x3db5f6d5e658f584; 0x7be68bf35c7d9f81; 0x3d8a95da32c74e03; 0x5818c535fa29d032; 0x1bea8ca9b2886fa1; 0x61ae4fe8ca9eedba; 0x661350406ab85113; 0x29bd4454ed1084fb; 0x27d43824d48124b5; 0x21f9550adc94a228; 0x12f2a24c80b5cc61; 0x4084c246126e08a4; 0x56f5726c824e4e03; 0x6e5a606039f3788c; 0x181d36b50928a9c9; 0x3ecd1440715d4b1f; 0x4978eff916e69488; 0x78b7cd619517edc5; 0x18420d1d65530b24; 0x5bab0dc809fba65a; 0x1569c340a811e75; 0x2dede1c5df33e921; 0x42a74e6d049ca623; 0x4acc175d0020d848; 0x59a2eb65c400e581; 0x6cfaaf683c550fe8; 0x351bfc4a098aa57e; 0xd6d920abe4e8599; 0x2527f1b8a5bdcdb3; 0x53e467bffadeeb6b; 0xfa0f77fb56e7790; 0x23218fbe2d845841; 0x4b56cb77ce30e1e3; 0x5af19864da6573fd; 0x45df7fd13df59385; 0x613428a2dfd4e71c; 0x2d712da9349828a2; 0x5a263cd3ae930d3e; 0x736b3ae5dfc41193; 0x67c451e6522454c5; 0x3f2f61fc21fb485; 0x6a59621aa7d48b4d; 0x6b166865820e383f; 0x328a7144b24a50d3; 0x49483de000f9e7fc; 0xa25bdf67fd15dbd; 0x26953ba5dc5909b1; 0x18a59af0b09465d8; 0x6dae126e69698d7a; 0x5774f04613986ec1; 0x65a6749b4830adde; 0x44f6425ec780c1c6; 0x458fc140f728bad3; 0x5a7d2ca75d48b7ce; 0x3f964bdbc98c4def; 0x5b269829414ce644; 0x11a6cf2757abdad8; 0x1b5ee988d7631b02; 0x6909b1305ec73d50; 0x232728];
   [0x22f4dd1b603d84d2; 0x1bd0e9f03bf606a3; 0x23bbdce6ffe8022b; 0x4f82f9a38d067de9; 0x6c10def2647435d9; 0x5826f5435fc0d8cd; 0x43769ce39271bb75; 0x28b349e01892f562; 0x36d71a2de2a2d78e; 0x7fce85d3f3abd910; 0x5f0c162eae67c7c0; 0x48dfab97f2034686; 0x7142f7baa4803613; 0x5bf9af7f89308b6f; 0x1ae7152def74873c; 0x371a4300abf76a4; 0x284e41b7e5540b60; 0x167d0b616165a296; 0x37a644d2ad5e6301; 0x3c3dcb45a887ceea; 0x5f03dcb72b767557; 0x1dbe7c3a6f103a1a; 0x2b55a2ac82861340; 0x4ccb323427d3a20f; 0x3199b99422b99a97; 0x2bb98fa649be8412; 0x1c59017e3185f577; 0x5082a3d9f2987a4c; 0x12b9bd5120ad2227; 0x723c4a61978d1419; 0x93ba02a76a14a84; 0x565b6b168f438e28; 0x61f44fae42c4570a; 0x284dd0e22481570; 0x5224b29824e2fae7; 0x2d233f5206c72025; 0x2739a70c465c0991; 0x1d152caade8c4b1e; 0x613019d35f7d3bf8; 0xafe6aaa4ec1ac6d; 0x5e787b5a66cda588; 0x7b04c7dabbc58bb6; 0x47444641e830c8c7; 0x6cdd58b361427b8c; 0x5a11c2743206b5da; 0x1c347d7d0cd6c031; 0x2793e3b2c168cfcd; 0x2691ba5ecfb1179e; 0x798da476a4763b15; 0x25731d07749f0b9b; 0x7eae604e3c3c33c5; 0xdacc6aa8c49df33; 0x3270e06e8ec0a285; 0x5fc2aeab49fbe8b5; 0x29b17e0f62c9f1e5; 0x2a050fedb857c1b6; 0x7ac381052dd0715d; 0x35915f52ee0ee9b6; 0x6da39f399d346d67; 0xc0b9a5e19870c0e; 0x488ce9cc9152f81d; 0x6ec092725231c6f7; 0x694aeb19917c3020; 0x1a1d5b1b84b98817; 0x2e032ead932b21f1; 0x288a3d960b58c1f1; 0x3cc77ef8f82859b1; 0x37bb50b4f541efba; 0x1edee8da24ffdcb3; 0x1e0018d31e8a2fe0; 0x35cff4366b5d5924; 0x757fe646e0265ac7; 0x64966e14cfda1e4d; 0xf6a8f6cade894dc; 0x371ffbe12a50fb1f; 0x626a41507f8bd639; 0x40a2a9709ce1b5c6; 0x5cdf65c06bad4647; 0x19e44fd5c03a88ab; 0x211d69ce2ff1a1c2; 0x159e53217d6b814a; 0x403ffa41c413cdcc; 0x3a65c65191bd64f9; 0x1c2a5cfa282c0d8c; 0x65bec89a3faea3f5; 0x6815abce32103f51; 0x40b07cd578377caa; 0x35e5649fc4cf74d5; 0x26031b081c0e808d; 0x1872764c416c17b0; 0x1cdadf59ed347305; 0x782027243186a3e3; 0xa0db55a13ea449d; 0xbce8a10d5b26cab; 0x70ce4287cfeabe54; 0x144f0721db28deaf; 0x18f55be4c6f82f08; 0x1027c4d34bbdba7b; 0x2db782a6eec1a105; 0x6fa205fe556c1d13; 0x16539fe4dc6effa8; 0x3dbe8da77a5cf20c; 0x7f52a056b5621efc; 0x7a6938961a50c65e; 0x7107d0c6fd30ab65; 0x6606db7401898934; 0x7afd5fbb58a3ce13; 0x76ecf90d17591849; 0x5bf93ec26c96165f; 0x44c66ace1d6e7e87; 0xb441b351c45c244; 0x4b143e93529c2e13; 0x284cbfff21d5fee7; 0x15700386736d1c19; 0x4499fa7eea7f93ce; 0x3306615d9b8b2428; 0x483ac92ac292c1f9; 0x32f5357cc53ac3b4; 0x57e4a1ba95f699a3; 0x4d64b7187b9e1f7f; 0x606eff485586cb9b; 0x7a2d36fe1f30ac12; 0x4749cfb84a362b8c; 0x1dbd69cd33b7c24b; 0x47a28e6119366b2d; 0x78ee517488464fb9; 0x4793d42f757822db; 0x3a93ea03046ed35; 0x5b08afcb6047fa36; 0x6ffe007f2aaf31ba; 0x73c31634eb97530; 0x5cf078f9cc621b65; 0x218c586b170436d6; 0x79853cef082b14d1; 0xdacf723d31ff9d5; 0x4dc7ecec83535dc2; 0x1260b46ab5440ed9; 0x489b083d39035b09; 0x4ac25209eb578b5; 0x4500efae679ecd41; 0x2998b786e6838fef; 0x34dda5774b5c0d7c; 0x72bc58c541e83083; 0x4968b3323b235343; 0x403e6bc6f7b6c88b; 0x626247f0c293cbf6; 0x552bb77f01e25491; 0x25c87b7dd8d55281; 0x7f4a73a6985ba60e; 0x273a8e22aa363f08; 0x7f47b8f5620db8c3; 0x2d8ac6c45238dd9d; 0x1b8ebfc0fabafdc6; 0x5f3b768913571d36; 0x682849690c89cc7a; 0x59e92c5e19d30e79; 0x3edc920bb82febc2; 0x256a88d667496ce1; 0x75f94b34f08ae15a; 0x2c9410c602720fbc; 0x241e50db59094178; 0x7544489b205b7414; 0x1fcf1f13e0fa1969; 0x675fec0451fa06dc; 0x584a69766f384a41; 0xd330038a15363aa; 0x13431f30301d00b1; 0x2fd1239108b37611; 0x9de2d515d497259; 0x1774e1e85303acb9; 0x228014318393dbb5; 0x26d04aea2c0001d9; 0x79677d5bbb9205b1; 0x3a973f81c86a739b; 0x75e44e80ca6ae8bd; 0x3ea19082014d4d4d; 0x7577ad46ffb82b3e; 0x4dcdc46885c386ae; 0x1f7b1de8801bff92; 0x2a216f73512dc5cb; 0x6f2217f7b0ecbfe7; 0x6441748e1712533b; 0x37cbb3ef8578362e; 0x32cf53cca6206b98; 0x396d417f066b2713; 0x7ac81e1098102d18; 0x3284851f47d01ee2; 0x46c1c7fcd710fe59; 0x1fc2198bdd6b658d; 0x20e2e2dcdbea762; 0x7cf3f87f0c1d574e; 0x39619c34db8390f7; 0x4978a3b721558b22; 0x253be5e4414565c2; 0x75b43b11ee42d51; 0x39565f2a5363b285; 0x7ef7ffecce896817; 0x40897fe212205b69; 0x3236c206fdd63354; 0x5b29d1ece03af991; 0x5e70666223866866; 0x3d2ec5fdd71bc74; 0x29f046f4faae99dd; 0x3961dd5b035dfa49; 0x2d5cc330e159b5cd; 0x3646f84b5c7d1c94; 0x7a82a48f0c9c171a; 0x3acdbd7fe71e6178; 0xc151ecdd0801f44; 0x4fefa3eea9a935b8; 0x7e7966ed1e25fd71; 0xa1679660d889dc3; 0x5f1c58f34d0f2865; 0x2483b56278b9ce7a; 0x2b95366250d40bf4; 0x35345042e807451e; 0x4bd59d4567355cfc; 0x476387887b305554; 0x641554479c7a1492; 0x537b03792582112c; 0x6290770d0cfa7904; 0x56558dc4842ac966; 0x2e20351f5eff4561; 0x7009bfde3d3d18b1; 0x7a0efda809910573; 0x6e36926d83d3b1f0; 0x414867395acc607c; 0x5ddd9d712293015c; 0x397a2eed9f215b5b; 0x6d3dcfb1886707f1; 0x303ad524d012bb68; 0x6dc622a1ed9993d5; 0x9d13c1c5430f5d5; 0x1e0a3afa49da2f97; 0x2212c4620556f8e0; 0x1c666bee4c325cee; 0x4bb25b7949bab994; 0x68bf09e098be97ac; 0x46f1ebf640d46fbf; 0x1cf7c168e84b858d; 0x11ff6acd5a30e0ef; 0xd98128c54f16240; 0x1529bd8f68691c4d; 0x4ba4c8fc78bc4e26; 0x7f45257f2acdf2f6; 0x38555a3179a98ac9; 0xaadddaaed1c6a18; 0x24578c951eb71033; 0x3eb078fe4636701e; 0x680e0a514aa72238; 0x64a7583e01c9646c; 0x434a20784b0c1a00; 0x6e4fef6f80d49745; 0x31c16f2bd6677021; 0x5404ce55ee90aaf0; 0x586e10fb3a498dbc; 0x571dbe740cac7980; 0x14f8e1021ffd152; 0xd030d1f1b0a9c6e; 0x40e6f0edbd5f283f; 0x4879b7e8feaafaa1; 0xea40384f0b5ef38; 0x79b04b899eb4447d; 0x312fa21185f4cf40; 0x3293635eadff47ad; 0x63adc1a391d09afa; 0x4b2a8e50d781604b; 0x51e8fa343b8135a9; 0xd9b7de5bd7d1b3a; 0x336457c09ce5a0a; 0x5d70f8fdb2b62160; 0x7d55c0081db09977; 0x23835d86ebbf125a; 0x5aae094935867b08; 0x2f236855ce802d15; 0x5cd4eca9d897b9b2; 0x763f1c0d7de12fdc; 0x73b768ac18fead22; 0x478849492f2323ba; 0x7692ee3aa417fdcd; 0x14a2d4c2a2384f4f; 0x2d9c304ecfa9ceb2; 0x21b00782b2e39908; 0x754217321085a4c; 0x5c1d94eb61dce505; 0x5acef44f349de200; 0x654472ad9305bebd; 0x5dd895f5c863d943; 0x46dcf4a43e2d778c; 0x12ae418309f537ea; 0x1eebf2464b8aa596; 0x5c29022e1fd3385f; 0x3d8429eaaf6bb5b8; 0x5f234280858eef9f; 0x4c2fbaeda7214851; 0x4cae5d3a94b1fb37; 0x31bf1fbfb6cec15e; 0x292c496d5b0bdc9; 0x6a67d98f75dae116; 0x4bf6c475999ec207; 0x2103652de59b3ea2; 0x64ba73f22bd4095b; 0x6927201f5df995fc; 0x20e5378ebd5a6520; 0x4cee8aaf822453d2; 0x6cde166a680a3784; 0x6db1cb49786add4; 0xfb18a568b379840; 0x11f24af1ef7066ee; 0x111e57caa60de150; 0x629ccd5afb4ce59c; 0x3db72a658d80e396; 0x4c31a4a8b772a01a; 0x421f0f96dd4ad04f; 0x3f3aad959e908c2f; 0x4d8213ae7459a464; 0x5f0bb5c8fbf61e08; 0x1d09ee];
   [0x283ef404f43f932; 0x797a9a4a289dccfa; 0x2d85026a20b890e0; 0x1159022b23390591; 0x6c6878ee45834bdf; 0x9882a25c3928aa1; 0x4458c2805ca708c; 0x572d36d9d200cdb9; 0x72bca71f3c849ef2; 0x62902c7aec9c3500; 0x59093d7e26e978d4; 0x225d4cdf43eac867; 0x7a09d650dc8ce6f; 0xdfaaab8b0416cd8; 0x5c56b6d930a43ed4; 0x2d4e16f9cf023295; 0x505e48bf0a513b5f; 0x1f3e517710b6bdce; 0x1e3f4eb7130fa32; 0x42f2ddb238e96de0; 0x15e0251beed50f1f; 0xbfa648c4acddc6d; 0x794ee0c5096bb67c; 0x5f329e03989d8307; 0x63aedaa7e17022bd; 0x442c28dc0749f022; 0xea00687f09bfb8a; 0x41a47b15e8671276; 0x5c56a6552a31e4a8; 0x736bb3b5c5a548d; 0x74a648a8957ae015; 0x6fe32a40b2f37cb4; 0x45d18bd645fd6562; 0x75ce2f37fa48069d; 0x5e02fd8f4b3478; 0x4547eebacbc59514; 0x761d926bc1fea3f6; 0x6610ebd9669f470a; 0x3d11aabddc66dd8e; 0x6b9297b9de995cae; 0x5d5aa34aa3b12dd4; 0x169b739c49ca0e1b; 0x6ee6f1db20f0be50; 0x264cce687ae53026; 0xee62706beb33a96; 0xde5ba1f230561d0; 0x782a9993574fdb36; 0x667844f6fb44c0d4; 0x21e6725dc9f3d869; 0x430ec3235e8479ae; 0x3b8a7126b39eaadf; 0x6c352375f6923d9e; 0xadf55e19f5fdaf2; 0x2f92eb6e5f8a333f; 0x2ae4ca5ce7ad7a55; 0x3d8ffb1ddb4c04a4; 0x27c52e7814bc8403; 0x5e682941be625b82; 0x6fc615af0c6e76f4; 0x639a8b66d14649c0; 0x2efd43126e1f1a7b; 0x1acf3f9d9433ba90; 0x4dc685e521f58e34; 0x54f0b88bbe1fe4ea; 0x7c47b23c6453de1f; 0x70dcc5ab55f317af; 0xce82c113c55af9b; 0x19ecc6e86103a8de; 0x32084b11acedf4d6; 0x525c23ae605f795f; 0x62b8b17be7d44bf2; 0xa4cea29f2060f97; 0x1f1231ec4a719bc0; 0x4f3062efb3e8d6f7; 0x34d635bb37b3bb6; 0x59a6213d1b57e548; 0x181af232101bee2c; 0x8a13bd020e7c412; 0x70ebe8fc510b56dc; 0xebd83f0b99e8438; 0x32f55a8862b9a7ab; 0x5d455cdce6159f51; 0x4dc4be36badaf653; 0xa476577513a6949; 0x2f12f050a933891a; 0x5c3c39cc28bedd4b; 0xf111290cffc6eb3; 0x77b02ed97627e1dd; 0x514e6810fefd9a45; 0x4b12910f5afc9a86; 0x161d77c335188eb6; 0x6ef3ec88d07006cc; 0x51db3ffa15a99086; 0x633ed0e8edab41c; 0x15ba851999724bee; 0x56b9b91b27a8ea37; 0x22026a577af7d35f; 0x1e320c66b656397e; 0x45ac3ba58cff2196; 0x30c26ba63ecc3bc7; 0x720e8aac4de6e269; 0x22858292fc0f5cdc; 0x54e5586261c64fc5; 0x22908b27a531221a; 0x1e1a1c41b096e396; 0x3a82b62bca4c1365; 0x4939e0d106d02835; 0x545027b6f63ba8ca; 0x32cce2e98aa05872; 0x2b288f859b7e69b3; 0x5de6f5a550e5d98; 0x4c5a55865c139fd; 0x39659b0d8e917487; 0x7b2270d9c3a5c8d9; 0x6ae1020eb287ca85; 0x1b5629d337773f20; 0x2ec77e635b65bcb0; 0x48d7dcaf8e7b6c97; 0x74fe6b8d7ffb854c; 0x45a774143cfa5261; 0x5080061770dd2ec7; 0x4248b4fafd6e753; 0x2d54a3014af685fb; 0x5e5f047bdbe15ea8; 0x7ae0ca34cd72066; 0x62411b21a752378f; 0x50cb8ba3752de3cb; 0x5ff46bd5d1951918; 0xb149f9662be44ef; 0x58e157e3781407b; 0x10e21140f21243cb; 0x6b2f2797d9e959bf; 0x2bb2ac3ec8145ef8; 0x5ece66ad24c66972; 0x3e6c3b075b119efb; 0x4454f4621260c693; 0x1902a5affa15b91; 0x25cd255a5e53a9ae; 0x3e83d9726aa768f3; 0x6711041849519482; 0x5e8098c7b5a75b80; 0x2aa0716256431f38; 0x25a24111674f087e; 0x1ae837887b8d622; 0x5e8262a5a945248c; 0x356d28e5e55cc45a; 0x531f029bc4123bff; 0x776618742ceb6bbf; 0x1a6e302bfedfc7b1; 0x2075c3fbd6586bc9; 0x13f40c576fe12a3b; 0x5629d50fb2d15eae; 0x236d2e0d58e94b64; 0x2ddd901a776b9c54; 0x1ac462507d092726; 0x3be2c24092a67598; 0xc798d46b289ae3e; 0x58e9b32bb9ef51b6; 0x4c458b63f9abaab0; 0x39814a80e8b76768; 0x4d94f8f4466c388c; 0x3f6eb61411f8bd7c; 0xc92a344b2a45d4b; 0x28f10233dfc9a75f; 0x53e1cbcbd837a796; 0x5abd75ae01caad6e; 0x56f12ba0a30d843d; 0x1f508e75a19ec91b; 0x66a4436fb007784e; 0x22504c44b72670ab; 0x6e92c8f30ccdd56f; 0x5724e5c5622eb780; 0x22cdcea739b77960; 0x16f9021e9b415567; 0x38287689f3c4d998; 0x1ef930086db3fb6d; 0x1c0ec0c569c3f53b; 0x26b926d05f4aa37d; 0x305ff1979d35a145; 0x45fd08bed2623a56; 0x199df32c4b602de7; 0xae32e2185864b2f; 0x954b62565103749; 0x43a401d659a6042e; 0x696af83cbf6ad580; 0x3d8761a6e038dff2; 0x3bdee3685fac244d; 0x13d62baf0e7c0e7f; 0x4e3214661a761875; 0x74f0ceaa9c064eb7; 0x380929d4b3e7214b; 0x443a3f72692ae019; 0x3eace292307d157f; 0x5ddb7d0019cd6fd9; 0x1f487fbcd6c29c00; 0x4a464186f7132a9f; 0x54fb6cac286700d; 0x1832ce26d4081543; 0x2edf81f842705990; 0x1aeb6501be2ac82f; 0x67f91e59f090e265; 0x4b5a34aff002355; 0x42fd0a46533a490d; 0x57f30397c7e5de33; 0x6a5cf493d1041777; 0x132d39010857d864; 0x4b762c3022b9a293; 0x652fe32df6aadb55; 0x6beb0efae3bfc367; 0x3c8d6c992f3a043f; 0x3e9e872864153f1d; 0x25c576c71604054; 0x4ca59f52a6228ac5; 0x2fd775c3fce42d16; 0xf17b91051ce6782; 0x1ff84b0852e5e183; 0x35e715bebb0bc419; 0x7631338c939f869c; 0x28b2fbe9a0cc4050; 0xb4935d5e2a12a7e; 0x4bde3369afcabb2; 0x7372edb20b810d6b; 0x10ca510ee287ae37; 0x39c87de2c89f26bf; 0x65708145d3759ec2; 0x17b4b6ce8da560a1; 0x759c537b253bd935; 0x755e620b3765c010; 0x2f8fe75859e85c3f; 0x7e9d5608f32707fc; 0x4b93364a473cd84a; 0x40375b2b1d14b827; 0x6c6aa4c09511d38; 0x441dd0ff3ebb8293; 0x6d1bc364e76c9399; 0x71be54cbb74fe8; 0x12c14c934874cd69; 0x46a3b71d9664334e; 0x11fab24610f6395c; 0x30c5c9214479d376; 0x6c0466f798868109; 0x72baadef9a107153; 0x64439e0b2784e207; 0x74e86a57f271955e; 0x40ea93b8b1616025; 0x7d779b3fc2c96dc3; 0x218843152cf7abab; 0x66e1ace0a8d11f5f; 0xe9451e3e49b7ba4; 0x260206212d92f923; 0x69778deb8fa23ca9; 0x53e512aa836d11e5; 0x62f72a097f4ef680; 0x335aef77d2e346d4; 0x21bb49833399987f; 0x5466d74c4ed7907c; 0x375f441e83074fa4; 0x2a434c853da6a63d; 0x3cf9e8fbc4ae36d1; 0x4280992a90edc55; 0x238cdbb33b072691; 0x4ea38b86ab527f87; 0x5a6d55462168f7b0; 0x1334434a9d0ddc1f; 0x15d2d1272f73b28e; 0x22d1961bac9c74e4; 0x4974b6589532336d; 0x43f964cddc8c4b13; 0x2b6ee0555644e84; 0x1144493ba50978a2; 0x44f2aaffe9675f73; 0x626b4d67b998b226; 0x5dac15be7ccda70; 0x5ff50412478b5cd9; 0x1e4edf47b7ac6857; 0x513bbd955b82e5c0; 0x4f4135c70bc4c710; 0x28a0ff29e51e0e1e; 0x2e806cd39a35950e; 0x385b89e269c64efd; 0x31a8c46ae46644ef; 0x6eb5ce468f9bb0b6; 0x1bcba1310ef7b261; 0x6c58127834511b9e; 0x587f01f9aac18ce6; 0x67462df488ad920e; 0x36fe6af124e33ddd; 0x58ded1bf67bf36d3; 0x79df2f13f6bb4f6c; 0x5bbfe63545e12003; 0xdbca11d69cd9106; 0x603d8888bd7fb546; 0x4e1a259eae201c23; 0x281cb3ffef182b63; 0x1b0f289cfbd59603; 0x75d9bdb0db1aa67b; 0x624aeb9cc9f343dd; 0x4d8c94cc3f7215f1; 0x1b51c45b7724d54f; 0x16236d79d80307b4; 0x2a9d0e2fe40fe65e; 0x1f5850920d5e419f; 0x41b115c4d28ec2ce; 0x4907505f6b13b020; 0x60a6e65d5b02f950; 0x1856bbf618ceb84c; 0x51bdab62bd37f015; 0x69f7006fd7abf478; 0x526a45b342465b73; 0xba3b1d15890d1d1; 0x57ab3ebe41777f08; 0x4a0bb77c7f30b0e8; 0x573430a16b62584c; 0x1f910e59a7fdd0cf; 0x4cfcb3edc4cbb616; 0x35ff06fc3c329235; 0x435e2136b67f619c; 0x32118];
   [0x4d23c0177c2368c4; 0x56cdd3546338e5c; 0xe8d970c060f0b1c; 0x43689710c48bd591; 0x7b6248aad8437b00; 0x6398cc81ee9f8a35; 0x71f44bd74f60416a; 0x7426dd33783f6df5; 0x18faf7604d859b70; 0x6fd23bacdc689d51; 0x61cbce8f15815e69; 0x60010ce7f3464633; 0x5d5316f8d554b2c6; 0xd269c7d2046185b; 0x3c9ac2f462ef5512; 0x1344b94e620daa62; 0x41505e07a1ccd749; 0x262295ebad2fc0a5; 0x62a42db52bc2f5a9; 0x62b73fdddfc64dd2; 0x22032b229ab9825d; 0x3e01e261a332505a; 0xece9b4fddcf6791; 0x5a6571cceb4b8e22; 0x7e40902a0c75b83e; 0x187074e4e99c4477; 0x4ace1be01b1e9794; 0x6d7e60a0472bd3f7; 0x4e39f19b388328f4; 0x79ad71580991467d; 0x1e26352622c19a1d; 0x2049ac5e329226d3; 0x51f00d93edcdc777; 0x6e7f78405f51d401; 0x3fa3fe0c5059dae7; 0x78f20defa37b82c9; 0x31659427e07e7f29; 0x4c85675e158d0cff; 0x123ea077207f6015; 0x77b8ba8f8c064213; 0x3a41fe3c19f81bd3; 0x27e00c2876bfd83e; 0x39d74ef47cb0d964; 0x38ec11a015cb0caa; 0x564e71c25cebc275; 0x233f44cab1b9ffec; 0x4e12bf115f098827; 0x62c0048b442a3df1; 0x705dc9cf7f192367; 0x7b777e34cfd6505; 0x745e3f508ea1081e; 0x350e4d960693e0a8; 0x74adb631895dd946; 0x5d01e69758da3cfd; 0x7fc8c23527a81783; 0x362c84d22ec09c17; 0x5b61f365faa3793a; 0xd3df8ac4b7d3c53; 0x6615ab5a1007c1f3; 0x115d61350e683ba5; 0xed6f477df29dfda; 0x240c59c3f84b132; 0x7a0f288a05f54a53; 0x1b67bd2ebfbc7104; 0x5aaa481c48eb9e3f; 0x25edf11eb6d155e2; 0x2e841b8a97e626f6; 0x55cc28ce780a853e; 0x1ddf8d7696cb17f; 0x1c79deedfc643f4a; 0x715d5c10ea97adde; 0x1c7fd3975761e45e; 0x6b784817c39cd058; 0x1610b8e74283cd18; 0x256da682e40b46a1; 0xb3d77ef6a1936c3; 0x4b3e3bc1fc42139a; 0x7b1ac384d24ae51b; 0x5c6eb7f0c349e354; 0x65c5c4476c72efab; 0x2751ded54da869d0; 0x4dda097215e14714; 0x15e926a33786c21f; 0x5a4f1a0e89e587f7; 0x7211da76c7cddf1c; 0x2d26b4426cc1ac63; 0x1a64b7c69044daee; 0x3f14ac0602eaded4; 0x855e18c9a17272e; 0x56956ea785d6b1bf; 0x7bd1245c21c2457a; 0x79fc45b088088944; 0x26f2015da5df611f; 0x7b82ee015b5d388a; 0x33638daf7fee946d; 0x2ea93ff71f09b879; 0x3fffe487d438fba5; 0x3fea40f2d368f768; 0x5c42002c33c855bf; 0x54d9c803402ab469; 0x6ce561e21eecb103; 0xb531da021a59824; 0x3daad1c37dc0caf0; 0xc7131966cec2dda; 0x302bb1ee751edd33; 0x75b8fb90654c26d6; 0x6ef891953cfeb6dd; 0x68f80844d9b1885d; 0x6d839ec364f8dfa0; 0x5f170a242924eb7e; 0xa98fb7eecb65e75; 0xe0f48f56d71e258; 0x5b1af524b5c8f0e4; 0x582ca3016c7e0b37; 0x3b9343f5cf2de458; 0x19f13852d8613640; 0x47ec0653d53e3834; 0xaf005dec0820d69; 0x15cfd5e2797a5c82; 0x780d2d6a02eb3d48; 0x56c101770fb0f2af; 0xcfe8ae3dd32baed; 0x52fab47b469aa3ef; 0x7fdcd38a444a0719; 0x2912f1ae05fbcfe9; 0x51ee580ff8b8460e; 0x5a77b2165c7d170b; 0x3e61296ee35306b9; 0x221f05c18245cb60; 0x3df6087569ed8f10; 0x4d11eed7b06a14e2; 0x5216f101d5b4b5a0; 0x480d070c33a9d32c; 0x37360f038e5f376e; 0x1c4c04d7c546e9ad; 0x70435de089707737; 0x3a9989e691eb454e; 0x47df64536cee31fd; 0x587894f2cfd0e500; 0x687b4ab759db6135; 0x2578de9398dda797; 0x5797e208ff17cef4; 0x5c5e4cf426a543b; 0x2949ef1a564c809e; 0x751d96abcdebdca6; 0x3be51379d76d8724; 0x2b44cece0896144; 0x4ca4cb6060712043; 0x1eae44716fb0c210; 0x2f66590f4ec35d77; 0xff1273d977f07ab; 0x7c48da56b9dc4948; 0x32ed92006d63cdc7; 0x4d7cedde08fcad5f; 0x15e7639098f779d3; 0x7a4ff123b4eb0065; 0x4a68e810fa4d8df3; 0x587d9ce48854a0c6; 0x72d4bcbcb2a9b7a6; 0x63fc6e7e4614b53; 0xcc914ebf14d4340; 0x4fee0885550f5781; 0x1b43ed657b497497; 0x12ac87effb964801; 0x424c6ce8306e9243; 0x7aa0949a1d4a5fef; 0x409591cddb39cb0e; 0x1fdde360311c28af; 0x29433877d83bd192; 0x6a1a59fb2187f632; 0x213e29875e6e5035; 0xb70aa91e4981131; 0x7e789e34f1bb4e22; 0x1ce083f0f90520ec; 0x42bc26d3d9417a0; 0x3d4bece8bb6b4745; 0x1910bacdb1c1b844; 0x5866ef96ed0ed84b; 0xfb5d176d4cb37bc; 0x7e8dab0788228fb7; 0x78f38233e3928773; 0x27bf2a402fee28ae; 0x41974c9665deedb4; 0x208fb20661dd2231; 0x7c60aba6578283e5; 0x44868b42b6c0361; 0x5d08eb39f82ec527; 0x6d2afa14d28fb73f; 0x3aab24d5ad458c53; 0x30ebfcc27e62bf51; 0x7b679df504be967f; 0x1e1fb90c317dbf86; 0x49fb77e60204feca; 0x1fccef53630f83bf; 0x14dce2d55d719b79; 0x7b4a236dc17e7d25; 0x76dc7c3d105fefe4; 0x155e122bd549b8; 0x6499fff8d9786d9c; 0xad38fa80f7d45d0; 0x4bfe79b944fb255e; 0x366d444b70b19ed5; 0x6d8810fd512cf09a; 0x6586a944c2de8fd5; 0x2c0679fd77e9fae2; 0x62c7de3ca6b59ee4; 0x4198d63209a1245a; 0x5b597415e19acc1a; 0x3f6ebbd42073d9b2; 0x18e31d52894fed7c; 0x1004beae4ed6d8b3; 0x6e13524c0e3a91ab; 0x3ee64d58ef6ae3cf; 0x4b75198c9e171b04; 0x270e0ad70a0bc55a; 0x7dc44c099203f965; 0x83aea9c2a9e6089; 0xdd1d6259d5fcdb1; 0x71a452aa44374e2; 0x300a7ef175752061; 0x4267e52452085b0; 0x7d1545216dcc6738; 0x70dbb76557f3cba1; 0x7b21929a8492f424; 0x6c00a35248e3deb0; 0x330a38b9cb450e50; 0x72bbc44dbb70773b; 0x7b92a645de0e8c58; 0x71282e5a80388213; 0x1cc35a548ce421bc; 0x24f422f745f0040b; 0x25e7cdf3865c2157; 0x446e4e184f58d3af; 0x5886cb6af5f8ce91; 0x1288c02aa12512c4; 0xfee0af60afaa7a8; 0x7ecf54f10ec3357f; 0x4556d806a8826008; 0x7b274dcef0afd99c; 0x6df4c308e811dcfd; 0x6624a468b4060bf2; 0x40f0b654f2a37a76; 0x83d34f155d0f669; 0x33aeb2a63ec2f3; 0x28d89ebb4f389ec6; 0x529377004b092c3; 0x2fb9f558ca7ecf2; 0x351a334ccf1d18e1; 0x2d68f66b86ff20d3; 0x61750fde9b2dc4b3; 0x5951c8cf559366b1; 0x1d099ed4008e9648; 0x2d5af4a3e9743eb9; 0x41f5b2951ecb4005; 0x47e763b005dcf7d9; 0x7fd5e6ab007362ed; 0x4c60fdfe3d84a7bb; 0x646d7f502c26f3bb; 0x1c7172a63c4be4a; 0x2d38df3c2cb4efaf; 0x256f2aa13197e74f; 0xbf2c3bba120305; 0x48d6f0cda4681eb4; 0x16691faf877634cb; 0x5ea43d829cc6c3a4; 0x632a62e50577ce59; 0x3c1f7ef08e31cb32; 0xda55d231043a211; 0x60cc2a236f18b6f2; 0x4af07fe103912931; 0x71ab09f82661396f; 0x45585abd59acf28c; 0x255c9d730e0e4141; 0x63b2c41a8b6de143; 0x194b8d40769ed3c2; 0x5f5a6b903bc5cc26; 0x2abb59f56cba6fc7; 0xf60cacb10b55ea2; 0x1bb41a275e5ba97c; 0x70de453ebe981a56; 0x708d4c8a239acb26; 0x7b6b998336321a47; 0x7741c7b5ea1cdfbd; 0x2c2b0bf1ecf0c7bb; 0xd7fd2e31922c24b; 0x2b4eeb6dc932bf34; 0x642f33b58d01851f; 0x3263aeef9f4732a7; 0x9e7807fcc78f410; 0x592137e1c50ee4ce; 0x4842dcd13e325f9f; 0x6679e7d979c961d1; 0x2f414ed2ac7f0cce; 0x5ded030c2068d3d; 0x3d2d03c210ac74dd; 0x1c31de07759f56bf; 0x3ee51ae3a98e2e2d; 0x4387e49cff236fb3; 0x20187f3387df6b05; 0x4859f191602499a4; 0x7c7021f090f72f96; 0x351aaf14bf742c8b; 0x6c0b70f40660b260; 0x3329a0154286879c; 0x29eca4766bcec78c; 0x642be23348b08030; 0x206b42e45ecd9121; 0x25f9e2a39d8a7aa7; 0x6f950bd6a281ca19; 0x36831b71ce209a45; 0x1ed0b2f07f6f3480; 0x50f6cd3115040df9; 0x2702b173524c8edb; 0x4143f5a3712a7e87; 0x528f8ce11842b7fa; 0x2412a071f6fd3870; 0x535c2c37affbe325; 0x248bc];
   [0x3378b917cf138f85; 0x33d948520cb8f3d9; 0x47fbc8c64cd3fd53; 0x5d94a3e44bdc234d; 0x1799d19acf62d6dc; 0x415dac001fbb1e5e; 0x12c2d2cfb7b5e976; 0x6b1bc6ddc2f4595a; 0x51fdd608ea9846e1; 0x33ae424bb5bb5bf7; 0x63cfb16b2b718c28; 0x645e363c2313ee1c; 0x4aa39992ca3a5752; 0x3daff0a9ca8e0797; 0x2ea2a352ae7045d2; 0x56e0fd1df895e8f; 0x146b6743061bd386; 0x4dec852a8a05d1f9; 0x7b13e4a083484e5d; 0xebf3736cbb44d64; 0x23f3e53b12d88305; 0x32373a2a3270419b; 0x72745e79390bf128; 0x158a86d6e85096e6; 0x284fa802f08ebabf; 0x409c97c5b27392ca; 0x1bdb6de52a86bad; 0x1587abe897be61b1; 0x241a89bf11635d; 0x3ffb71fa202b015b; 0x573084d43ba73547; 0x45014487be4f381a; 0x4f1c513afdf5ceda; 0x53d2b96c3998a6f3; 0x3043d8797659e29; 0x7395205c5bdbdfed; 0x6ff9d8e9a882f18e; 0x7628527a22c59a11; 0x5baa8a0499664b5c; 0x48d4bd007eb995c; 0x2e5e0704e9c5895d; 0x51a089f85fa38598; 0x3801081c0c93930e; 0x4f8c9163515a2b82; 0x33538e5570dffaf4; 0x55c317aeae6c90c1; 0x27e29edf3bacfb4f; 0x3fd4089b84b06e62; 0x2b882e17ee806f2b; 0x43454f7147cab05e; 0xcc570e59c8093d3; 0x665963d811533c81; 0x186a6e4c0ebf4183; 0x6c687f6bf965c688; 0x45938f3314036efc; 0x63c2920b9a29b621; 0x2475fccbcd25d862; 0x6b41448897d9a4fe; 0x14dfaa7cf045c473; 0x28b899b238f7ef5f; 0x6a4ac93196f19ec7; 0x57f399036901336a; 0x4a89654e407a522c; 0x1e05ce1c8f354186; 0x39b9e7504d0d6458; 0x6c4c9b9d9addab83; 0x1fdc82e571329c86; 0x26307112890cd9ff; 0x1ca105d29b632170; 0x5efcde149fe16ea4; 0x25627b4641a238b3; 0x5d0819a2eade480d; 0x259a866ddab4634a; 0x3146b0125620b79c; 0x43005cb2f416a29f; 0x3837de746a6707c; 0x36b5506518410d90; 0x2472ed978e579335; 0x32daef3b4cc9cca2; 0x17b897091514629f; 0x6f96f0c973b1f153; 0x265e2cf474e30062; 0x7003e88cafd298eb; 0x5cfe33fdaa5be291; 0x3823e1959d57ba6a; 0x14692175070389e; 0x97e75d68dd82141; 0x2e9e2323100340d2; 0x6938b1a624ab4831; 0x1d9bfe41c5fcc875; 0x66db508ee0228a71; 0x798c3db41fc0235f; 0x1737691cc1a58f57; 0x319d37246c3fe42; 0x23191182deff8155; 0x5cf2d1f03c70aed7; 0x6eaf05c07b6a7f6f; 0x924b2139807a63b; 0x44390f50f8442be3; 0x3bb9c76c93fb9fe9; 0x72e3a619a50cf342; 0x674538d62b3d00de; 0x67ff5c56179f78e1; 0x40444449cb6b63cd; 0x44c35dbb102a22d1; 0xba5d39802a51897; 0x7c830d1ba4cf2025; 0x656c66fe180463c2; 0x78d97acea6c0be33; 0x753ecbc4e3ab8781; 0x756bf71b555487; 0x7f36cfe315f22a7; 0x5d654fc5da5cf81; 0x25419c17079b6dd0; 0x5a09923a591521b1; 0x4dead3f82347c046; 0x758ac68869eefe59; 0x7293d9ed78614645; 0x3a7819857bbe7d2d; 0x306008206b06f298; 0x2e4d586290d395eb; 0x5bb3153bd68dccc2; 0x6bba451d923e1852; 0x6d06769f71ab5f71; 0x4b51051bc4bb5fee; 0xa3075106b12e70c; 0x5c89a8098f48e9df; 0x4eb6bc16a4041a12; 0x69f8a7f5bb9e7738; 0x3b15bc42b93b7e90; 0x42e3b745cb2d3479; 0x5d0e8691c7906bab; 0xbefca286448721a; 0x1e47f3fa950c4884; 0x4082fe8ae2e2a5dc; 0x450ddd85aa5dea73; 0x32cfec6df5511281; 0x5a392caf76634f4a; 0x10608ef39b357947; 0x2f0b1e849546c608; 0x38f45cb472aece40; 0x493c978a474d304; 0x1de0090ffc7bc44e; 0x5bd98c744d7a16e1; 0x4716ea6a0ca217c5; 0x4dcdb0ceeb42b2f0; 0x60768c4a1ab6b385; 0x7e644cb6f4748204; 0x564bbcbdc22ac398; 0x6752059b58bf4b12; 0x773ca96f1b316607; 0x671ddb9072d0274a; 0x4b987f3433596e63; 0x7fa2e7af343ae99; 0x15219f7acd5e0e10; 0x5bc97751e1678b51; 0x1242693ee19bb6f2; 0x34c63b4694d038e7; 0x463f21085ae68420; 0x6c32928b3752433e; 0x5fad6474cf42a6b8; 0x7b484bd031b5856f; 0x791c29879fd197c; 0x3db7b835f63f7ddc; 0x7d6a5f3dd2c94389; 0x84e34c4141e7698; 0x1ec294dc70bacbfa; 0x7a2e6dcb93a051f3; 0x21ccdc629238d107; 0x4186c7a047d6e345; 0x2be0c55c17ec21e0; 0x678ea9793400eedd; 0x454c536c010995ea; 0x49ef13fef6edcbbc; 0x75ac660dd8f6e579; 0x33d55c84ab3eb6db; 0x7aa2c16f0257c73; 0x541daca7805e3800; 0x3449fe926aa172ca; 0x7839ba56bf17e50d; 0x15cd273984b2980c; 0x59c8a2848205c882; 0x16d0bdac418807a8; 0x24892a4905edeb75; 0x2cedfe771adaef79; 0x4cf5b104edbb573a; 0x57b1d0497fc3f5ee; 0x1c7b2f99b51e6ce; 0x551ffb33647587de; 0x298edb27be11ec1c; 0x5d4c4cb864b5176d; 0x1c6767829c68618c; 0x6b3b045ec7f3d023; 0x644af5b4c7a36281; 0x26d66c115fe3182f; 0x5a836af09e47875b; 0x14b7f9faa8b04f98; 0x67876bfe9eac22de; 0x2e621ac88e86d54d; 0x54f1bd8f520dc0b6; 0x25b1c55cc4e76748; 0x35292c8e0ebf8593; 0x79ef505e972216e7; 0x1e8c978d41218dc0; 0x5d25c54968c3231f; 0x12220a26b0de43fd; 0x549620652d3abde; 0x19209ac0857f623b; 0x135fc2f45935a0ed; 0x69c19c2dbe5e1525; 0xbba16c3b786187a; 0x5d20d50569a0479f; 0xcdca1a86153a130; 0x69944759a2849d7; 0x2a16b7accdffd081; 0xe8bfe475be633df; 0x3ba75d5deb14ab59; 0x13bcc9a545568a86; 0x3dd8673c1c3edef2; 0xc66c45777ccd506; 0x495402cde792a47c; 0x163bbdba36aed971; 0x650d1a9c68e3ceff; 0x7952aae6e85522ba; 0x7b1040abddcb0172; 0x4b740ef221f84a75; 0x7c65fe03d356ccdf; 0x1e5fcb53e840fc25; 0x7ac77b6ede963cbc; 0xa9d97a4a824c78f; 0x45d3becb2bbe6bc6; 0x25351e217241a27d; 0x5c57c952a19b9062; 0x75b0b100b414caf4; 0x261392b0041121e8; 0x1b6328ad98dcdf81; 0x75aafd143e46b39d; 0x68d3bed146757a86; 0x7efd77a0fcf03a56; 0x557bbd731e26ff61; 0x4783dffe7e9074e7; 0x33ffe8fea80571af; 0x520da011b58fa761; 0x6f8fe5ec5108ad9f; 0xc2aa703da6c25fe; 0x70d90499b8984bfb; 0x3430e2efc8c1a37d; 0x6888f2f82b9c62e9; 0x4c94989f228e5875; 0x6b78a54aef8cbd3; 0x32f59b758dc6fa7b; 0x4c4c5cbb176908f9; 0x3fc3715eb17bbd28; 0x6961e89b699ae32e; 0x7407534e8a907cfe; 0x458b2806f84df74a; 0x6e919a5ba42699da; 0x40a4ce98f1acc6ec; 0x4e37e5e310a33e2b; 0x35e76ba1585259b4; 0x461f7a7bb447ef42; 0x494ecd54ea983200; 0x3122c2c4edf170aa; 0x2acfa99ffbdb0be8; 0x4b36ae51972881da; 0x4ad5538494fa9553; 0x2b57085db1f9acf9; 0x694e0512a4e918b1; 0x4ab76337a2ce78b8; 0x62be3a4e4719424f; 0x34586c4c5f06c971; 0x48d3d1ab4c393589; 0x5da028d59545ae00; 0x7e97492f419b5a89; 0x7cdf5862914d1976; 0x26fbdec7587396a9; 0x48439a1ecf227dec; 0x1e6399cd5f9f50b7; 0x7c7de1a0188e3e72; 0x39ad6d6a1473a241; 0x5dc42d52054438f5; 0xdf8c690e24a1f5e; 0x35185e299ec3cc78; 0x28c1f932cb8c606b; 0x191a54c6852061b6; 0x4c16941a80c6d5b0; 0x760ee6b263ac386; 0x43f5eb1b956e4f5e; 0x5a80cb9e3f794ac8; 0x7c28f339fefc81dd; 0x49570d77707450e1; 0x3bd9e14b9a5712a6; 0x4ed8fcf10b5390d6; 0x57312dd289a53b80; 0x11cd89a973c7ef2b; 0x73b0161c64462c7b; 0x4eef046841eb95c5; 0x4425b1046c2f681e; 0x63d299497752b41e; 0x4c90b2c39fe22497; 0x20c8a165c167b404; 0x7de94f39c6608777; 0x52ad4305b6adfcd0; 0x4fab9fede08300b2; 0x63ecfc2c7320756; 0x4cd45e2d2af51571; 0x65d1b5d6b477daef; 0x60919e595a4d1269; 0x6436e2d50577985d; 0x434e40a3a84277cd; 0xf131faa019a180e; 0x6b6b8decf7a5e9c5; 0x19593e20a8fd227f; 0x6734d0553502e2c0; 0x6d0b22a7d6ae4229; 0x53c0fc7fea629a86; 0x56045e5a861ac50c; 0x212ac0];
   [0x729fef2cec4082e; 0x7bb812fa3e217f8c; 0x20e32a25aff28f7a; 0x495a40f8ec690e10; 0x1a8c9c711a5d7930; 0x6a1101c45bf974ae; 0x42861b4691012875; 0x2cd350f7eaedd19a; 0x1f888ad8061e3ff; 0x3e2e4af41e4e9b08; 0xd1b0c7c267d6727; 0x164ec2430b009d93; 0x20d8000c4e5a2040; 0x5ae6588c1369d0af; 0x672fdd7fe45da757; 0x17f5bc924e61ac0; 0x225901e51e243372; 0x285a61654d0160e0; 0x69a81f733478369b; 0x1807533df1634dd7; 0x646f33c6b2b72a10; 0x3a301d67cd765eba; 0x7747c7707a2be8aa; 0x59e5efffc337eaab; 0x7cbba3ac2b17a503; 0xec2848eed48ab03; 0x69fc2686fada2a3c; 0x47548f59be601eca; 0x1dc61f04ed06ceab; 0x75d31e147396266f; 0x7870dd7a8307e248; 0x707e6b52676ff8f; 0x50bb0d1521a25741; 0x6150271e0367aa9b; 0x31c78e309af5dc58; 0x263b250da7491e3; 0x79a2ed800a770ad6; 0x2d15e077cc2b61ac; 0x7de8c861b0b552a1; 0x438ad436140ed4d9; 0x64951b0c4ce02e74; 0x572fbbcffab61395; 0x13cff3677f8ff238; 0x78632601b41c23c1; 0x31a90405f030fc91; 0x75b497440ec1d0ae; 0x3872cb52348e17bf; 0x74408c67169eab08; 0x1165e0e908bc639a; 0x5bcd161a7adc9be9; 0x396951768b68afa8; 0x457d423be49f12de; 0x20cb7d1d555e901d; 0x45ccf8baefee4cb3; 0x5740a880abb60fcf; 0x4a07080ab9a7f7dd; 0x6c2e4baddbae96e6; 0xa3043f913eafa23; 0x3c70c28710dc367c; 0x2b357cfab5c17c48; 0x7b4238dcc986ae21; 0x2a4dc8a808fa1dd3; 0x6922514d0ec14490; 0x190719f922c16d19; 0x42cfbcc769cee576; 0x751fecb4af70e75e; 0x19d49f945d1be5ea; 0x77889c5c16076e78; 0x3ccca79314e886d4; 0x523e135733a034ea; 0xe1e0bb6c0465fe; 0x5f11e454e440e7a1; 0x1f1147dd40e7d9ca; 0x2c11d36d4f64ed30; 0x7adf4004883ad156; 0x46f0b76f6fa0ceb5; 0x4ffe04a4d0b1adf4; 0x69989b09f977f746; 0x5308aee5a391285f; 0x1823d38cf7a58793; 0x3ac2046ad20bfe60; 0x15eb1a553835fe9e; 0x1a80d78452322f4d; 0x1fd494527d27bb4e; 0x6d2713a83b461a24; 0xcfe34c5f7b086b5; 0x7d6ce71f65ffdd5f; 0x78179191bde150b7; 0x3e578ac836b5e318; 0x695e0ff62f6f20a2; 0x7936dac9646a8d44; 0x1be4e4069a3bc3a8; 0xbb2291d649eae55; 0x1a81eea2958e4027; 0x9a250fe5a8cbce0; 0x36a4fc10bd2ebff1; 0x7605265e9b3ea65a; 0x17182ba91faea7a0; 0x3edd0be2877df595; 0x24fed4bb50a82473; 0x42339fab0c618681; 0x8ac3b3702d9ee7c; 0x7d11ae61ca142a3d; 0x43fa0ce38dd0fba3; 0x5e1ff8eb1eb3c46; 0xabd9d8365a3e0c5; 0xc7084369a83d71c; 0x906162a2ff7cf5e; 0x15ec2dce80c1bc0f; 0x792a51ae9f1c1b0a; 0x79166697754a19b6; 0x405b3cd0f821a35c; 0x4ddc60869949706f; 0x19be707941047fca; 0x3b346268d0325d8e; 0x21cc65b958152b79; 0x5c5c728d05866c3a; 0x38aa1f94a712f223; 0x350fd70464a06d7c; 0x50262ff57c465038; 0x2b4a69a479795d35; 0x45c018ee17fff80d; 0x2c0088a23c981f9f; 0x4fad4877812561d; 0x4c6b7e50a136a713; 0x39b587bcbddaf0ef; 0x5f5365aeedc9989; 0x11c0f755bf244c5e; 0x41d91780166d9038; 0x6f3aa45e52500250; 0x385c203667b0e016; 0x4934eb622d5b41ca; 0x7ebfdc84631be109; 0x238932eede678d98; 0x677a5bc77a706d15; 0x486eacda2fe10b5c; 0x563a38860879833b; 0x60277bbf35608b51; 0x2a38e2b24b6be6e2; 0x69ae894c0b3b9144; 0x976da054d853813; 0x479ff30815cdb192; 0x5e5c9ad288d85eb7; 0x4e21edb9a310af05; 0x6a00acde6546a4e7; 0x15dda44abb1f6435; 0xaddb08a8bf02f56; 0x63682704d3c36aa5; 0x560f35f3f461bf93; 0x3a4619620bf939d4; 0x71d65dcbb4f82738; 0x7289cdfe1ded0cad; 0x2efefc1ca708d8b6; 0x69784df581b8e382; 0x4e31beecbb7d635e; 0x20d2bc69c31e4105; 0x1708750294a7eb46; 0x5701b8e75b94a2d3; 0x7231798acd026de2; 0x4207754cf1895a19; 0xbdf80d1abbe39d8; 0x79a80811e6247ea3; 0x808d01528019a6a; 0x5c8710487c2c2775; 0x809875a4750bd59; 0x2619297a268b3290; 0x53ce9f4efae6a861; 0x2f62eae7477105eb; 0x4ae653bce18dbc85; 0x7c5c7f8a66f78d97; 0x2946328e9699a5cb; 0x712f1dce7e5717cb; 0x43028f5b4051c57; 0x32e4b30075520841; 0x5a4c5c2349a3a2a7; 0x5ade282e69290a2e; 0x280c2ed38dc4b292; 0xf432c3b385ebc2; 0x5b67ad06d05e9e84; 0x7f4e5946078e6ba3; 0x7c9a4b6c7f2ae9de; 0x10875d76973e35c0; 0x2f45f73d126396fc; 0x2a743b52a8801cda; 0x75f8276504346e1d; 0x68c08b002ac8e5ee; 0x70ce246e07f90e47; 0x150a68d1c8d06a9a; 0x56d8c82c299eeb32; 0x52d72e82adae9c5; 0x151aeeaebc9d7ac1; 0x4874da5197602235; 0x67f0704b88e75765; 0x40640d431961024d; 0x46b6ba1205a70c8e; 0x2070cc38cbb0c642; 0xeba0d4c9fdaa493; 0x1d4f8a0971d7994; 0x7319915c1b364bad; 0x551f4d0556fd0391; 0x33c88aa1d0cbb9c7; 0x7922323dd471b2ee; 0x3fff76548da8b4cc; 0x7f63ffc1c3e8e94d; 0x5e1c29b1d6e62104; 0x11c20a78363185f8; 0x4ec396c5c14188dd; 0x454e56c5bb0af223; 0x53e30c4ac6a21dff; 0x27aca4bc8ffdcf98; 0x6a68e991c4affe3d; 0x60e205a91adeed63; 0x2145391aa70ad815; 0x2cb30ff282b88e66; 0x6d9b1f90d5a415ab; 0x69e919570db3ffa1; 0x2f37e5f8b22968e7; 0x6d72d19764741330; 0x655b9e1a9bf95f15; 0xa4f6e1ea2bae510; 0xd79fcd7b58e4be2; 0x5edf019b2c80ea5e; 0x10549ec2f136347f; 0x4253e68a3608fb47; 0x141603ea004c1a42; 0x3e7f1077091ab309; 0x11b7333dbe5d7cb1; 0x787c0ff62a24b5c3; 0x3e792f46237abec8; 0x33c6c97ad3034361; 0x341b97e64d316880; 0x7ee3f998f5db609b; 0x794384a55e5d62e; 0x69b79c45387b8025; 0x3f9c9cf5ce3acad8; 0x14ed2e5b6d7e5ea6; 0x4950931209e13dba; 0x624080a52b98c604; 0x7ebe95857a9c15d; 0x1ce8e29342731436; 0x23989b514c68a87; 0x4f2eb45cad39ca9b; 0x46c099ba69423e49; 0x68e9bc576dca875b; 0xdfc96fe72a86e37; 0x698cd8b1f87839e5; 0x7b294b215019cc27; 0x25e35948e99ef240; 0x194ca3eef3e5ee94; 0x4033c09a3e048c9f; 0x7ed71bf7b2695395; 0x5dbb2f8ab60086e9; 0x47102342ec42a40f; 0x7c5e7858c62bf898; 0x7d98fbda0119ec23; 0x18abf203a234844f; 0x42a42be7f4299280; 0x1d5ca7936236bbc; 0x2d3042a99f09ea3; 0x7f179bbc33b7f724; 0x4cf5432957168c7a; 0x6702d93f038a684f; 0x60fb2d244b858d2; 0x4356c17133d11865; 0x216c81e6dfb1b532; 0x27c83060d1abcd68; 0x74b3ec92eabef1bd; 0x232f18b298bec946; 0x4e42fcc6e45892bb; 0x6bd07760f2b44159; 0xcfa0711a6929c6; 0x54c064f5a995bf1c; 0x27c7345e5476d541; 0x4bec776c6806882e; 0x5c26f3d31ef59efa; 0x4382b465f9115b8d; 0x1e0746aeb23cb279; 0x27fe28a4c9d82f13; 0x334d037280b6175e; 0x1019252b8de2d2ad; 0x5f4bbf90ddce2b92; 0x38ec92f583bd352f; 0x2118c224fbaf6602; 0x174dbf5f0d3fbad6; 0xc99f79afb28facb; 0x33cfb693651b6be9; 0x6cf3228a0b1fe0fc; 0x7b27df9841a54ad1; 0x274a45a02daa388e; 0x61eda3793d0908ca; 0x353d3e1ee470b5ac; 0x11da64dbdde0a8af; 0x8fac88eb360e4a7; 0x1a7a5657664ce7ea; 0x726ae9244351ba70; 0x2b497a7371224857; 0x1c0ebdbe439aa6a6; 0x2ee8f244f887517e; 0x439b75584bb02104; 0x330b4da71a303d38; 0x3e96cbf34d17af17; 0xa9e300935a886b9; 0xaa1855ab8a5c329; 0x27ebd70e6ab70aa0; 0xb49852d24a6a45f; 0x4a88f15306444080; 0x53e0ee4836f8a21f; 0x67b2fd30815a33d3; 0x18e030e97ec23d94; 0x78c37669e955ce54; 0x49142f5656ecd4be; 0x58d44a7cb8ccac25; 0x77baba0fdb7cc5a2; 0x4bd897160edfe6dd; 0x28e78a83d317b92e; 0xbf013f6010f6d5e; 0x631258fefc3bc48c; 0x16cc27];
   [0x70235c5894839af8; 0x703bdd096f5aa6e1; 0x50369ff788f5b792; 0x6970eb4f80e3fb98; 0x47585a5f59fa955e; 0x15d1be1fb993a14b; 0x2218e45018535c33; 0x78840f5e0470d6f9; 0x5072849535e8f0aa; 0x6ecbb946123250b2; 0x1cac7116e5af325a; 0x1ee82cc8f3a4d225; 0x7731d492b82c5fa2; 0x2bcf3cb018e7b8eb; 0x6c752605f707db31; 0x3ba41d1f9fb7e6b7; 0x2cde31cf8657787b; 0x64fe2cc4998f1a51; 0x711d3d0c17a9edc2; 0x414b6aa1309d7b14; 0x22b4f04eef5677d8; 0x5f2979bdf572875; 0x3716ecb9590c3abb; 0x4b6338fe3f43feb8; 0x7b82c8d88b8695e7; 0x70885998df49654f; 0x278a2f7c48201389; 0x54f64020d2358487; 0x29b67b51d4e94290; 0x692d3879abf3937f; 0x2e6042d477e3d7e9; 0x50bf378471a18dd4; 0x4091d035d85bdc6f; 0x5d2f143ae55216a; 0x6409c4c376d50d6d; 0x322215d0eeac446b; 0x30a1944f444cc781; 0x28b36d0fc58be0ab; 0x1b3ad454c9770718; 0x125e8ae92b163900; 0x12885d3e1cbbc598; 0x187b5ad49d3b3cef; 0x68908f1559c5d8fe; 0x7b5810c31c1e24b2; 0x48a17d37d9d558ea; 0x34bf916f4afbd42c; 0x2191c837bad9db32; 0x5a7866798c07d13f; 0x14b8f2c9d945a2e1; 0x1f014bb93335881; 0x179cf6f2c41f645; 0x2060aea11d9a51ff; 0x17998f023c07cf7a; 0x6810aa94ec51fad8; 0x88e0f6ab9a78cfe; 0x6df1bf04ae807b1d; 0x697a9d01d601a151; 0x2f251b59f0150baf; 0x559808ae31130caa; 0x38d87845c6022a79; 0x6222e1f6c646b1cd; 0x613a5d4f28df4af5; 0x7fe32c18c0dcd52c; 0x16015c2bef7555f3; 0x7cc35163c96e4962; 0x61d61eddb494d980; 0x4153c5e17132e2b8; 0x157f7fcca6f9c6fa; 0x662b3d45cd705a6c; 0x207523a976a077b8; 0x22f294aec57eeccd; 0x31793398f1d809be; 0x3843c04795a2e6d7; 0xf6bc506d5413385; 0x170f0a52a6580b03; 0x405d1064d4a01962; 0x46eae0de1ba42014; 0x62bb09780cbcd5c0; 0x7aef102df563921; 0x152fccd23d94953e; 0x5f157dd0f2ad5254; 0x496dc97d46b27f7a; 0x701fbe518e75f41b; 0xad7d24b8253ed1d; 0x35202ad69501928a; 0x545a23a5fbb40266; 0x7cc57b9dabdec8d; 0x1133b08fd9c28648; 0x7b5574e4957295f8; 0x5dedd76d5d72d67b; 0x1a8d53cce8e6f24a; 0x751dba9fbec8fff0; 0xa0e0d05675cb9be; 0x3643d591e13f8082; 0x490fc8afe156ae88; 0x3a00ce6bd00ce73a; 0x77fbf6415f2b13aa; 0x21bb4b16fe496f97; 0x615252e69dfc04e2; 0x37d6f7d8a1f58d3f; 0x27dc9b41caa965cc; 0xe7de4b4550ce04b; 0x4e7c661fefaedce6; 0x388302a0186075f2; 0x24e6f0e0725f8e27; 0x702b605268ac54a9; 0x3cf16e65aa54420; 0x6c76d19124424061; 0x4461a3fac2f8cb4b; 0x11d45c02c3ac565c; 0x74756b9676ef302f; 0x1fea593cc2180f1b; 0x5689cba5fe6b8ba0; 0x1e56e9d86f82f027; 0x524c1a7eae2d49c8; 0x521eb30ef88d99b1; 0x259c09631e003b98; 0x7446d7c96c09156e; 0x3d099c48cdaad365; 0x33c5852a86c5d02; 0x4f9d5d313430aa1d; 0x47c17b1608aec6c9; 0x54b385c8e2b843b2; 0x5d8377c6c6dd2dd3; 0x66927a469d96c2dd; 0x298af09614b48d55; 0xe87cb7fc94d38cc; 0x4920fbdcb9c58d66; 0x51cf583b46925e5c; 0x3da3d512051d34a; 0x32a8b84e7ca1aa3f; 0x5fc988b363edb311; 0x5edd82877f81d5b1; 0x1fcb41e0e967ab87; 0x41ea7a1e21f76b2; 0x293bd4dc76a9ab80; 0x921a81504cc79cf; 0x6bad167cdbd6b239; 0x2489b4662a4be4a6; 0x35a2b11d20905e99; 0x56b57331f93c48be; 0x77a893a3384643f7; 0x572b8a7e4d639af5; 0x7a3826ab854ea3bb; 0x26a2d834442b6418; 0xf74f5c55354b516; 0x4b0c9d0ad19141d; 0x66a97e7a90b7677; 0x5bb46e64af3cf488; 0x4dddc5d8fcf08895; 0x779ada60e9d8026f; 0x6fce477324ed4b5d; 0x6d79e6ecbd80ce68; 0x7dc2764d5e2964ea; 0x883810741e5755f; 0x4ba32435b6d0421; 0x522b278578f05cac; 0x22600bf4400edaa3; 0x34e074284ecaf1d9; 0x66cdae1b7a540f7a; 0x762525d70200bd2c; 0x20d591779c0faf35; 0x3a8ddfaa2dbbd925; 0x51900058f7bd5764; 0x4ee227641fd617dd; 0x15d22a107d92ea0e; 0x4e2bd4c40e743e13; 0xaadb78215527f1c; 0x34e9d9ed97f02722; 0x532093d5179bc979; 0x37d64fd4d20c2ad4; 0xdf91487d52c513b; 0x1522cc3a42754ef7; 0x6b88f23918884cf1; 0x1c3ddbc98304754a; 0x51799a750ef6dd02; 0x4a798f682e9b759; 0x23281ef4ece2f658; 0x6e6a5b6d05c0c93a; 0x109a7e00fc3786d6; 0xba2f8c483f2edf5; 0x516bc199de5412d; 0x419db749108b7388; 0x6aa8ecfffaac79d5; 0x2c79642c6d0a85fb; 0x4ae940167cb05d31; 0x36cc72f04024e6e3; 0x425cc16512996be7; 0x479c3997e2ecd76e; 0x5a62d8cbff13e055; 0x33e730e62a4fbb59; 0x40d15ee1c82fb310; 0x305662e8732fed62; 0x7fe602b03a8017b7; 0x2481254c38920112; 0x79e14c8a1659a0bc; 0x2d49ad6455d0cd24; 0x6d09edda04474481; 0x3f707559dbb2e439; 0x75e3962e157191f7; 0x1223fd3e9605f0e1; 0x3525add91ef9b853; 0x1294709972c0b901; 0x579806715529961d; 0x2ab194f4bec6ec31; 0x5753d02242820d58; 0x214279c47377685a; 0x4793ae1c85109abb; 0x7eec25a91bdd1282; 0x16a6705fc325903; 0x74f4926408cfa5d4; 0x734cab3c94272f10; 0x302d6cee55e797fa; 0x7d536a03d15266ea; 0xcf2aa879382250e; 0x602b87995c070db4; 0x1ec48acf32f9d73e; 0x264183e9c2a045ee; 0x57afa28dfe875c3c; 0x207f664a7609bcef; 0x143f1cfa2ccd93d0; 0x1c7e782e62e444d2; 0x23a5f8ec7999dc77; 0x4138674fc878aa7e; 0x78ca011214b1e573; 0x162211c22a80e90e; 0xefce4852638e35a; 0xdab7764ad24b444; 0x1b9e548ccb2b4ef8; 0x6eb4c61c7e992ed6; 0x3b04ee3ac051d19a; 0x4426890939a48b86; 0x5c901d567f0ece7f; 0x7bc26adf165e2d10; 0x2e0ba3c9f759cfd9; 0x20c7727e95a86f1f; 0x4ed6c6b5ee7b376a; 0x6b30616ac2fa9551; 0x6fa8b27741f28d94; 0x4b40e0826841c0c0; 0x16062e910345d2f; 0x5b27a05dfaacddf2; 0x1fdf1fab87b5aafc; 0x113a8d42648c8095; 0x2edeab181d7486d6; 0x677c5452f1780154; 0x257d3156e0280835; 0x2d3fe509e4050d44; 0x11eb97c9df6c6954; 0x543700d9a06158c8; 0x678c344c726a0866; 0x62733e9947b15f67; 0x654eaabda5bcd99c; 0x51d2b5a782952f04; 0x750c1f8fa2880dbd; 0xa69ccc30c0e367b; 0x38c0dfb6ce3d21c5; 0x40690c315c0cbea8; 0x57ed1f2d6b581f24; 0x3d9d6121ac70aec0; 0x5bb2d25dface3cf1; 0x2bab6cb6aa703212; 0x4fc82f26a9a1d30c; 0x251b466fa80997d; 0x5e02d41cf26b9093; 0x23c8c35dc95213fa; 0x52ecb94bae6d50e6; 0x51761f0bde3939e1; 0x4bc44afc8f97507; 0x11ef6429988046e1; 0x54eac0d590433526; 0xac6e2fccadeb6f6; 0x751652d673e8b0b8; 0x22801e97cbc206a6; 0x729f4b40cc944044; 0x766c3ede20acf3bd; 0x778d940c15dba400; 0x6c2fead79204d579; 0x734b9df436862b53; 0x501a65478e3fa8bb; 0x8372d1c913fdc5; 0x164d92424983dc3e; 0x75cac92f473cb5f4; 0x43b1891c1427cd1f; 0x2fdf37b89d7826ee; 0x5517e024681ae6d7; 0x784152ddffc2fc72; 0x2f199dfa1c6f8d9e; 0x40b4bec383515af9; 0x3e003c3d22cb116a; 0x154817762b724a42; 0x2fbbed7a67ffc3bf; 0x6e750aa485fbdb8a; 0x5c5c2bcd9e94ffd6; 0x54b1b10b43a691a8; 0x93756ffe250bec6; 0x1a97be9ba43aeac1; 0x38f3168e3feb20e6; 0x4f6619c72ba1d4c7; 0x437a2999a10543ea; 0x2a4b0cc0732d2f79; 0x61df0971f2248704; 0x79908663a06a7354; 0xf7e36c7803f481c; 0x4fa18aa02c38d646; 0x2a4e76b76fe427a9; 0x70d8d6e5b69f8748; 0x74de9a248ef549bc; 0xbe2b612c42347dc; 0x292c1e73a1774b2b; 0x2dec14462f84bd98; 0x488ada8ed87d1e1d; 0x49212cde01f57815; 0x190f236dc79598d8; 0x576c57174f6486e1; 0x1bede459b1288fa; 0x6eef2b977e00838c; 0xc3f69];
   [0x4bb4d231493fbd8b; 0x1e255b2cc38d1989; 0x44de7d156c9738f; 0x5090df7127ead98a; 0x1cd64220fe8e50ac; 0x7d1674b14c7c3a05; 0x20a688b7730e4771; 0x785c79df9a5ec2e0; 0x1c44849896e83a6d; 0x3f59ee2a121da107; 0x7637f692f9093f64; 0x2a28bb38d64a94ed; 0x4e5809b41dd3bc0b; 0x796271752a2ea097; 0x6cbb4a7ff77fd7c8; 0x3d782f3189c93f3b; 0x1cd5051132cd6ec3; 0x41996a476d0f91a9; 0xc876808565db12f; 0x67f29c85e5488ab; 0x1fb52b534f2ec26b; 0x681a3ecc9ad7ef00; 0x35e66efa9b4130f8; 0x2de8ecf1d1d8285d; 0x5bd0ec5d4b266029; 0x18068c01d9048fef; 0x2fc59735407012d1; 0x2bd9a88dc46da9cb; 0x71e193db94574f8; 0x19d882898db27957; 0x15e8d00814fde5e5; 0xd1295daa3c842e3; 0x50577ab6fe5a49bb; 0x20a0c2e6005d46e1; 0x77c7e11ac3c63ded; 0x77f12740e9935caa; 0xe6995a3bd3ab3f1; 0x637d93a1c2fb687f; 0x39031a8704809581; 0x45506259ea47d9c3; 0x4fb4a4cd468555b8; 0x107cfc923bce621e; 0x6385ddc6132c264c; 0x2fee2be2c061b6c4; 0x359b737d2328c2db; 0x51625ce7f4aa5a5a; 0x78110b97e698b5cd; 0xdd49a675c7f5444; 0x4c8cbbc49220b70d; 0x612483cc071a7ff0; 0x1d28e91a39a296ba; 0x5e4f9feb012f517e; 0x5e9a00215b805f23; 0x6993de292c13d29a; 0x1df765f5b3ce9214; 0x7d2c8268fa267f35; 0x788c58f61b0467ed; 0x61e251421b44d1ca; 0x52883afd54f5349f; 0x5ff8a99dbc437363; 0x4b91376cf9962da0; 0x3f276e71a4457ab4; 0x311562bf6370fc3; 0x64ecf40f86b21027; 0x5b22110ca39da8b9; 0x4da6e1beeac9dbe1; 0x2d22ce7dbbecfaef; 0x7edd5d00b9107b1d; 0x97d8308700b78cc; 0x62135357a842941f; 0x182df369daaaa91f; 0x52807413a2a48bde; 0x1c03b5dc0d2a7257; 0x1fcb3cf44e58c2cb; 0x5c0242bc6b44b964; 0x7a88c22b924d59d1; 0x11a3c5abab560177; 0x13ab53451299bbce; 0x41970b03d0dc38cd; 0x3e4456322dde26f1; 0x53936cfc2766e4ff; 0x11c5c518ad52e0e1; 0x382568337ffa737e; 0x3293f45af2d28b7c; 0x4879a5a5f649ae32; 0x2fea941d4b825bf8; 0x5b4beba040ff0de2; 0x44f89fe1283187bc; 0x27a5748ea3de19ad; 0x59886e171e1feba3; 0x7ec3100598aeee79; 0x10634141b4cc9666; 0x7f1c0eefae7018fa; 0x25a9057dc901ab79; 0xa08e43b79253650; 0x79f35f83d294be26; 0x1957434e0f988c59; 0x4a2467bffbfffe7e; 0x267817f6ad3ed844; 0x73bedb8386186bf7; 0x661bd2c4059d29ed; 0x6d7181a5a99bdd37; 0x1858cda6e195b3ec; 0x29250c996bf4a099; 0x39229fbefdd3d355; 0x2e47f9c7bda447f3; 0x2a2183bd0eb97d3b; 0xd983fefef845ded; 0x493ed4da02e52756; 0x74c2a917e0c15a63; 0x19c86fc8e803e04e; 0x1320b04358edb45f; 0x54f463493365873f; 0x62e01259cf0b67a2; 0x4139e6161017c050; 0x3e8e629cafe4175b; 0x409246ec31c354d; 0x2f49d9f16635642; 0x4eca1e9123d8bbf0; 0x771ce41c10971b4b; 0x563c2c17d98a4bc9; 0x35706c453a34b891; 0x211661346177cd5f; 0x5391f21c2dcc4fa5; 0x4a302cc7e68dd3cc; 0x7dc782f649aa94c9; 0x21bf26f766d46e66; 0x20c10155715b1855; 0xa332fdc30bf99f5; 0x2d8a1a9d5eda09f6; 0x608824fc6ddee6b6; 0x6d66fa9ef193ea66; 0x3fc6632b00a20737; 0x5bf26241a0d3ffb2; 0x5949c9668d8fac39; 0x3f9cd82911fbec92; 0x18c04fca3d9e5c0; 0x48e33709875119ec; 0xd3353325849f4a5; 0x72c8d4d043868457; 0x40c664c1623e7c92; 0x3ff57a2b9b4d3001; 0x1e732698f83c9eec; 0xc9338d377b59219; 0x6549540ac7fbc472; 0x7da9b8dd4c7850f9; 0x6b1a8bb23db4e208; 0x2c2572853018374; 0x488abb31d91c0894; 0x1bb945fb1857e19e; 0x32d1d80bea5b858e; 0x1365733b25ee4fec; 0x79b2947eaeca0217; 0x4770a9022541dda4; 0x795080668f310ce5; 0x5f7fcdc27c7cd7ca; 0x45f0790b0edec47d; 0x2e044fec0607409f; 0x569bbc3759b8cd82; 0x2a2b19a0cd77c149; 0x54f7b6102b478d44; 0x730d05af84758968; 0x193807110459f50b; 0x117224b7f80b288f; 0x6af494cb9b7c0f6b; 0x13dce331ee2211f9; 0x36945617f9a5602a; 0x3ce0ca90e0e445; 0x323168291a67464a; 0x6fa7ce5ec2d49c4f; 0x21a5e7e65394d626; 0x3cf32b756330d07; 0x4acef1ad7f6a56f3; 0x7f6ad8cae3e5e438; 0x2d0159388b745ba8; 0x2c2d3dc2870d26d4; 0x1cb001752086acbf; 0x447cb98ab784b466; 0x4c2963045bb12001; 0x4234346a11d17d81; 0x70f4bc8eb930f527; 0x76458fe6c89b044; 0x1bf6b2d5af792f35; 0xb00438d73ec4591; 0x51d83ec86d023782; 0x57047e74d2d48b8b; 0x606e9457900b5259; 0x13f92f5eb509d419; 0x2b866450e5d57ae8; 0x1f59ddbeb5f21e47; 0x38a574b90be73366; 0x246a6aec910217bd; 0x48bed9dd5e5f6c1; 0x9e6ef5570861f3f; 0x7628ccc066bfc8fc; 0x55c7eb987d53e334; 0x54e634e4324240db; 0x61244f226f7036a6; 0x231af4b11f1ac302; 0x2b8de5d8335f2b87; 0x3ece1fffe393c114; 0x5c7740cd4671050f; 0x5f975ea98d2c4f2c; 0x42a0eda7673b1362; 0x3f1e89e460f2de6f; 0x5bcc3f85e851b404; 0x32046c864e38387d; 0x2ca48263c454224; 0x297b0dc28b8462be; 0x166ebc0d352518d4; 0x10a4aa0d124d6a34; 0x94ed5cad3ae171c; 0x619f85e51b806a95; 0x5286ce5591d0de19; 0x7cd4f483e01947e6; 0x46de8997be5d3c2b; 0x202a6b50e9352c17; 0x39288da4358e3e2f; 0x7bd93331fd03ec2a; 0x55552609c7e9cc3f; 0x7c0ccaea48c6b38a; 0x8e26d09a933c222; 0x7f0a9e0b3007e409; 0x5805b035b2725d23; 0x7e9a609d696818f8; 0x1e8c3f70e3a1a6d0; 0x162a4dc659d617ee; 0x7751b2b8c5b66f4a; 0x4f51479a0fae9108; 0x1b20d3cfa742d69; 0x5f4338dfa296686; 0x695bf4a9d9ecf61e; 0x394c9a65fdb42cb5; 0x1e25afb05bc1188c; 0x4f83ed0e7bbee239; 0x32e04e7361a8b050; 0x627a5f7a2c2c7336; 0x7c0dffb57397ef83; 0x6abe67d3c960b70a; 0x5fddb959d65a8e04; 0x1a6a9669eed9d00a; 0x7d178de636b0b794; 0x42b70d1b71aaae77; 0x7a12233d32b7e5b2; 0x606ad7577f4b50f9; 0x2a3ceb4e94854747; 0x3d4b3c30584bd934; 0x15705270d230c461; 0x394a6efc87bfaf87; 0x691240e32ae4c539; 0x1eecce0fe845a40; 0x3ccfba365b20fafb; 0x473476cb6d939aea; 0x5bcbc0989e691f27; 0x44f18080537b387c; 0x2c97c9887fb3587e; 0x6487c1ed4326fdab; 0x3a2b7c5ca8c80e27; 0x2f9d6ccf4096cddf; 0x4ed2cd9ed073a729; 0x1b1631a34f671d90; 0x58baaf164e68339e; 0x6542aaeb6fce3e81; 0x18b0334fb64a105e; 0x3333aa1f0ed2452c; 0x53913b8f6fe6566d; 0x1ed405883b7bdc35; 0x53f7c1ee0591e905; 0x4d51db94288ff355; 0x5eab4f76c425fb44; 0x16c015ac2a31cac0; 0x3f4ad857e1052f0b; 0x34aa07c8e90194cc; 0x2003916575106aa1; 0x3248493488ea51a6; 0x6742b69315f76fad; 0x49fea5663622bcab; 0x17a3b1975dfb286e; 0x2f06d8988b78a809; 0x1399953fe02d0a21; 0x22a16591e1c37e5c; 0x7ce2d5ea4146c771; 0x65b004e7d770a54; 0xb4ce6b8aa8000a9; 0x6050a77ce1348e76; 0x69db13c01307cbd9; 0x7b6e689d8c4c7564; 0x2093c08765d02886; 0x6a58a3bbcc89123; 0xe7ce2cc3d5a286c; 0xe6dfd45bd9d2749; 0x6d6a588c5e70d52e; 0x7550403869f64ae8; 0x7eb51d03d6c2ab6c; 0x705c18721101648e; 0x37d518b081446541; 0x6fffcf2d6bed58bf; 0x7f9a7c3c7793439b; 0x36f5c5d086b5cd3a; 0x27983e2211afac89; 0xa334d899311a554; 0x6ad838dde45ba662; 0x745061353c2260a1; 0x59bbafb20f4f17da; 0x6a811bc9de345f2e; 0x5157cd2bf29655e1; 0x597513ca4199c657; 0x1c57bdf3bef4cb98; 0x48d968a3b233ed1f; 0x7c5397610a951064; 0x47c5c92384e0ee69; 0x110d65269fca3fb1; 0x24fc30d3ad1375; 0x36abc5b12602b095; 0x18117b7ccaa4f754; 0x1c15ad5a73772462; 0x6e3cd9665eca56dc; 0x3455b9];
   [0x59bb6906bc8438ef; 0x355f9ae4f92d9c26; 0x79024875984b06b2; 0x35d97f63cd8b9526; 0x42d4a98e944ab6dd; 0x2cfcf486d6e4965c; 0x16bb5cc8bf3afa4b; 0x266ed9b0c4f70257; 0x2e61de977f233621; 0x12dec9c11faae89d; 0x3a3cb294be5c9921; 0x2ccffb3e4cb0edaa; 0x499ec0ac334e29ac; 0x19ae847026d9a430; 0x4d7733eaa22bfe7a; 0xc639b167fc519c4; 0x164d4ff320ca59fd; 0x37c96b830df018ce; 0x12586ce5564228fc; 0x1480769cbab950f5; 0x2f2e05a613a333de; 0x2d3c1af9962d1967; 0x7431d4639c8afcfb; 0x4c76aa3e891245f0; 0x307d9fc66bdeb0a1; 0x67e29735f79890db; 0x3f210bd4b94dfdd7; 0x70d04938a540d103; 0x6f336e84d62a19aa; 0x184ba41634409092; 0x76472aec15a59255; 0x53c61cdd8628e8c9; 0x6b84994ff69c680; 0xf9f91072a25c1e0; 0x5beea06fd1aeabc5; 0x49bd79cefd055123; 0x7b8eda17aaef05e4; 0x6c92f6ed1b1d2bf5; 0x510bcaac5551e1ac; 0x5c693de43cbc2a53; 0x2bbdf6d6802ad41c; 0x5128c7cd3275b11e; 0x1742cc0769114519; 0x9d818a3398f2075; 0x479cae4a3a75e284; 0x122fb2f92a55b1b; 0x2043c2cdcf22c69c; 0x38d257f83f7e8e38; 0x93d0d6ed5f10fe2; 0xc1f36b15750b5f; 0x8401278b994e295; 0x3f405dd2e3543069; 0x35d22562d5e5daf; 0x48ea3bc473455548; 0x2573b65e3fd52004; 0x2109518c967cccc5; 0x789cdc3ef843a601; 0x269cc3f604b2a570; 0x1b6e75ce8517edb7; 0x3e2ee88f210a075c; 0x172ad1078abd8ca8; 0x57612f2cd740bc2c; 0x2ff84d68b365d6e1; 0x4763ba0277fc7650; 0x454a347e72f9052e; 0x2f7ae663fc0c5afa; 0x6c6d882c8eed344d; 0x71e0e1345b4b984d; 0x372cb3cd8d63a76; 0x1c3c64c3a920acd; 0xe3b5fa1e7b32a98; 0x151ad58619a3338c; 0x3bf05bf1b64663f2; 0x455678fb629dde91; 0x19a1f6addbc5b09; 0x6b6dc294a2fe6366; 0x58bf0ffd6eaa6ce5; 0x7722a5c0c292948b; 0x20111862f3c717fa; 0x3e04d85d8c7ed57f; 0x5740b4c6af13124; 0x71151351ceadd9ac; 0x496a735edf500f1; 0x408be21af592a15e; 0x66aed494c29431cc; 0x3d81addd6f8d4f07; 0x6722b650a2873ec5; 0x4974be978fe6e9e6; 0x2d278674b38ff11e; 0x3cd491368ae33217; 0xbbb34d6c3f1d5f4; 0x5701c9d5d5e87b52; 0x517b9523b71bc582; 0x584859ef8469cc7d; 0x61ca137efaa90276; 0x122b432f7b079625; 0x5b032116b92f2669; 0x5f3658ea64d26a7e; 0x752e09f4c87094c0; 0x6a2482f8ed4e73b5; 0x405e1479dcdcfecc; 0x9b145a48731ebf4; 0x4d27999095e39419; 0x28404fb195d6d671; 0x79692444b63e44f9; 0x275c885e34bb4c24; 0x62c0aaa3f837fac8; 0x6c7f6dbf22e31264; 0x31e0f77a5e5ada25; 0x71fc647193f59878; 0x150112148f5d8d11; 0x273876da3419a844; 0x74708480aa82c109; 0x102c456507ba40e2; 0x7fbba634bb83cf6; 0x12d668d661af98a7; 0x57bdf7f8f0eb7a3; 0x2941576a531255e5; 0x291aca4da782b6e6; 0x61564e96bcbf55a1; 0x6bd81736d9d3fcad; 0x31d1b44b5a61fa35; 0x3971f6b12b35ed82; 0x2f084e6dbac3cbf0; 0x1f8d75e2216a3841; 0x3ddac6e28eb3453a; 0x1f235cb2ce1b25a3; 0x6bfcec0a736981ac; 0x371f23740413c710; 0x385e3959e6df6dcb; 0x6677d76a290a8a23; 0x5178d9f9f15bc803; 0x629c251f786a0faf; 0x69a5890036c56418; 0x110b0679fbb3bf72; 0x4c44d562dbfb4fef; 0x22c684e9381b9ac; 0x75c4fe4ef0a80dc2; 0x14bdbbfb1fa6a983; 0x930e7ce7807aa66; 0x5a652ff479cf5efd; 0x6f4eb3b30d94924e; 0x3dd2f6341378c8cc; 0x717a9d23022c9c84; 0x1a98f135de3a63d9; 0x1aad113f33b583b7; 0x9bc64e456796998; 0x57df961550d88a00; 0x6f47f8372af27ff3; 0x59e6a4c8ae577fed; 0x33776334a0331926; 0x6e2c8c4eea36811b; 0xb291c3f5b2c900c; 0x548e925a745f7b7a; 0xe480be4acb1c163; 0x14b3d9e996acb3e2; 0x308a26c37f7de7a0; 0x488a25d05d1039b9; 0x194c310b14f740bf; 0x46b34ddc889d7136; 0x1a8bab6d38d9538d; 0x18658c4734bf221; 0x756eb28c60246cc9; 0x4e62446c5f331c93; 0x1c37f4901d6691f; 0x3570907415b66581; 0xc870578393a5398; 0x8efb3ff89b7550f; 0x430667231dc5fe72; 0x62979e74c8acb4b7; 0x7dbe703eadb2851d; 0x3ddd30ac6b11cdee; 0x265a79d5db19753c; 0x5816dfd8fb4d4267; 0x456daa9a527add9a; 0x6d22393a256ccdf4; 0x136fac2138bd22aa; 0x5b986651201c681b; 0x3992687acf7b7f57; 0x3ba6c6f400bbd07f; 0x53d6e46ea87b4945; 0x78f33e05a7063b34; 0x4d3f82bb62c0a0fb; 0x181a1fa1b5ce0c90; 0x12b2e22bcf7ddfe9; 0x135797229e124929; 0x3b9b05961d15c549; 0x131fbccd2f551912; 0x4e41dc0b6fed3e63; 0x52cbffc38fc11635; 0x52434ea600b02124; 0x780ceac98a6bd10f; 0x79b85a4ef48065e8; 0x10361d3eb2cadc33; 0x555eb720a4cd9893; 0x4f7a8c4f27b08073; 0x72dc4648fa844ccb; 0x5a5e603e4bd66e3e; 0x3e06dda1649ac68a; 0x5e896253b63e894b; 0x4fe0090cd2e93dd4; 0x44cdc71af6efb039; 0x35605e81de0c1400; 0x841883417157128; 0x20bf92310ad8cd0f; 0x6a2de232ec1387f6; 0x6d3aecc57bc8dc75; 0x2419b411b6d2488; 0x2222e682f7654921; 0x2103efade7895878; 0x1119848ed9df21a2; 0x2f5fcbc3bb040cd0; 0x9bd9648a55f699c; 0x7305c3b40b572524; 0x3a8dc7ba2298a1ce; 0xe63cfdab5551454; 0x673f0264d437985; 0x6630e74e96df3c3e; 0x542deac56349a69d; 0x6d2d09f927ca6fca; 0x47f814a056dccf7b; 0x193c25ab25f5754e; 0x5dc2e352d25e1c9; 0x4ab8cdf419b105dd; 0x2ea7272d906802a; 0x7b5529ea52339b7c; 0x2ad7f4aa8ede8363; 0x406189c993309b23; 0x79880430cbf39aa3; 0x3d4ae0ae6ec91d7e; 0x733e1754c75effd3; 0x652c264f28918b41; 0x27002240eb11fc56; 0x29481a3524f839de; 0x303f80d53d2b76bb; 0x2c188d3c67ff074e; 0xcfc07fa32ac73b2; 0x7bc9bbadeae5dd0b; 0x5317061e5253a3d9; 0x39d5dcd439c877f1; 0x4f08a4c1cbab627e; 0x3b7e412c755fcb70; 0x75bcd76f3e8f5707; 0x3c3ebe2c6d2fc235; 0x62b48de26d1601dd; 0x5e9b2806beeb0175; 0x2732a968d8cb6778; 0x3611e62764fcb3e; 0x6a652c4b095b3012; 0x65561ab28b05d2ff; 0x2fac35bb4793ad71; 0x27a6dadf869fdf85; 0x24869a79096234a2; 0x108c83c5e103b080; 0x2e778fabae239378; 0x1382122bdd94abe; 0xd6552879c69f57a; 0x33a234e88abffd79; 0x4b4a55e9742ec5ae; 0x6feca220427b78df; 0x7a16abde79230458; 0x169cbe7f8f9f0f15; 0x59b65f9d24a81c14; 0x468f6bc5325afb9e; 0x7b1d704028b2818f; 0x759fa27758f017cb; 0x2e5f641b1acb818e; 0x65233067fb39b0fe; 0x71c2a53328471597; 0x18e7f9f88d196cb7; 0x1cd7c090b81f90ea; 0x703adfe52c0d0827; 0x254f5d81fd2262a7; 0x6c980243d4658cb; 0x19b8849a8847278c; 0x7d412514cd348037; 0x50dfbc4018979181; 0x6bfaa87894498d56; 0x45fdea7e0ceee573; 0x81c047d90f06751; 0x94e91d8ce0b3fce; 0x100047bb0cd1eb83; 0x6d9cd18d05fce034; 0x7892df41387ec002; 0x570a619b453b49a1; 0x20308ae51d223e3a; 0x7dbbd374c43d142c; 0x1352c5bc69548c3f; 0x2e5f00a0e351710b; 0x1fb68c84e476112b; 0x2d6d409a7f09fe56; 0xd09ff23fb55bd00; 0x7cc895ab922ebe38; 0x4ee6607bd5513241; 0x7e81ca0b29eb6a02; 0x693186c7558b5252; 0x56baf44bea93bad9; 0x4da61dd600259893; 0x7e084ce51a5deb38; 0x2632ab6cc8b674cc; 0x277461b2b9c9a09; 0xf28ad5abe714707; 0x6e729861a839e082; 0x6f17d92812653404; 0x5111eb9f9961fa43; 0x3ba427db4a6798ed; 0x472df679db345a2; 0x6ad5afd0681ae5e6; 0x31f4067709fd3bb5; 0x4b348d6dbcd5048d; 0x4eb54181578173b7; 0x691f4591d0357d46; 0x2dad254086a48bf8; 0xafee2030dd924cc; 0x38a6fd9ab461b762; 0x6554ceaf1e57c6dd; 0x13a41a25d85ecf3; 0x23340b];
   [0x3fb3e16b1488a053; 0x7f87a83cbecc8843; 0x6916a6994ad74ecb; 0x7110a32e0e5ce1e4; 0x75f5f8895cc405f2; 0x75edebb5b5f4a902; 0x724681f014ff1edf; 0x13ebf64565ba3d15; 0x3ff66d25810d0af8; 0x6658f9a0f740d3a1; 0x24ae380038d8ed2; 0x165c5fa2e0f5bf4c; 0x1a335a6a38d348df; 0x383064d276ed90e0; 0x69c03e147f1d739e; 0x20c1082a74bca175; 0x1679b3a5a800a2a2; 0x284f7d289504c5b3; 0x1c094a4f7870a92d; 0x4924a9e90f46e217; 0x4da3ffa61acb4e52; 0x64327514f1131b26; 0x643579faccb0b018; 0x43083a032e5a2736; 0x20a3ec9b25d3921a; 0x289f55fbb4ba40e7; 0x477e68c276348690; 0x1cbda21d23ad9620; 0x557920d32ef85eee; 0x7c3749011285987c; 0x69ad1a4167c26f0; 0x4d12cbf8d4ba0170; 0x6aa5455394edbd88; 0x67e6fbc3f0cd6f01; 0x508e1238532a1005; 0x2a1aaee36865d1bd; 0x15fe00d7f09e6302; 0x1ee4a220506c7bf1; 0x60492a2076b2156c; 0x7b0ffef56fbcf8a4; 0x8dd4bb0d673fb59; 0x1b655cfc983a3545; 0x16a5fd8b75d9d823; 0x4d66b481ac28094a; 0x26454af35351de05; 0x4b136cfac9ea64de; 0x309112c7fb43ea2e; 0x590aa2331bdfa42d; 0x2b6786ce869c67b1; 0x4c880897856e65c5; 0x3483e5c8cbacd4c5; 0x3767f36a7425da37; 0x3068b10e528b6c48; 0x3a1743430a00416f; 0x14ff55daf8425cad; 0x22dab999d53e01bd; 0x56aeaa0ac1514fca; 0x16bf762df189e08; 0x61f3683c2558efb1; 0xadde528cb62826f; 0x3953fa89488f3261; 0x4464833d91f81052; 0x7a8a8ab799f54105; 0x14b3734f3b68100b; 0x1e2fa56febf948d2; 0x1620bd281087b1e0; 0x2746578b8636e894; 0x56194dd30405c159; 0x12f73a3e168f2d37; 0x6b69c7e3d85519fc; 0x68a8383e67831d27; 0x46a2b4cd38d372c4; 0x473e6b76ff2634; 0x3e1e9e799d324507; 0x2b64b99e884b0b83; 0x4fa0808b017a2702; 0x53d0fb409fde6ce8; 0x31849fd62d38c43a; 0x65ac55b4ff2e7725; 0x551891e9c55d41e1; 0x2a7caf6e70ecc6d7; 0x667be524d541ad1b; 0x6978cb52851cffb3; 0x642a7347a70c5738; 0x3d2355e74b947bb; 0x4077c76b5238f7de; 0x7ba9baba48852f66; 0x7990cf0592d99bd7; 0x1c2bf80ff34125b0; 0x5fc5ecd694d18a7d; 0x43ce9b477fe4fb28; 0x352e99b6c8e9a4d7; 0x4014ae6ddbc43b11; 0x54407396327549a6; 0x77f0312c039e55eb; 0x798d5b93612024fa; 0x4c9e500a59339cb1; 0x3d961d0416ca201d; 0x27612ff9cc866019; 0x3f844e4da23c6213; 0x41e186ccc0825356; 0x2784a257851f404b; 0x14e42a811539199; 0x22b62b46da73d392; 0x2750e1c136b46dd; 0x58632135992bb214; 0xc8f7e1492fc7d2b; 0x67826d524ea2a31a; 0x7f8657b7723162b4; 0x19a426497c5c943e; 0x315a426f168fc7e9; 0x46e0272e71c78dee; 0x29a141560fa93c9a; 0x4fc2b43772ef1b50; 0x9c155210c748fc4; 0x2b7f4c989469f439; 0x63b1a28264394417; 0xa8b92b3472f826b; 0x21211ce140282d6a; 0x33a42537c60855b6; 0x608b71cce2e8ecb5; 0x18874b850d94b1db; 0x6daf74ed1211fdd9; 0x72b4e2e58c6734e8; 0x9e678f065e109e9; 0x6c795d13d237cf09; 0x72c87a91a79578e1; 0x4f774f6f4f9a5d7d; 0x5537f60f90e1ceff; 0x3deff0049aba3e9c; 0x1a65c123c4974e00; 0x5a3d182e0d8d6f6c; 0x2c0f4adb9e1aa422; 0x3d608c867583cafa; 0x255f95af3769d91d; 0x2110781cd52abb6a; 0x264a6a145d0eb826; 0x6c1f71a91bc75a6d; 0x6156ceda9927f39a; 0x112ce7e11b4025f9; 0x6f528ebe6630c9d2; 0x62ee283668676558; 0x30f78992426867f9; 0x367e83d5778735e9; 0x1aa8b3ac953313bb; 0x2526e21f55227b6e; 0x7bb1a76636a91627; 0x682015c920b8bca5; 0x42d31f267ca3d721; 0x6eeaef38bce01a2e; 0x78e0eec548b9363; 0x21a76e3b923b2457; 0x16a0f214e539f19; 0x69d882ea77d6a401; 0x2a843f36d428dc14; 0x7a53eab983d46b18; 0x5a0f8fccab648c8d; 0x70ac9219f7e02d27; 0x3fe0a364a2bbca8f; 0x66ff9e72bf66d7b2; 0x3d67e56724bc6ab4; 0x39fb2375eb2f285d; 0x3f7796f43a79a792; 0x41a4161ba8f30045; 0x7701bd7c9c911283; 0x235e38d764f01c53; 0x2500aaa94cda78b3; 0x56cae5bf13b8e604; 0x4a4170c7b8f85289; 0x5e590ed0e85b637f; 0x237031b1537b0985; 0x318b70e8320459a1; 0x7b45989cd4f56803; 0xe6ae8b62cafc9a0; 0x59323a7737a26125; 0x1352415356c392b1; 0x17c1a833e1beff38; 0x4af357513a263f7a; 0x27bf3aae3d0c95f6; 0x27b565dac2bb6d1f; 0x3ab228483f02a448; 0x5c66d828e58ee57f; 0x85e64f8591c48f1; 0x2a136dde20ac7049; 0x7efbed55e6a646a7; 0x6826f0fe74d07ebd; 0x668d9b188c3548b; 0x347aaeab12b7ec10; 0x3e1d9d82332ba2; 0x583e06e3b4879dad; 0x40369cdf78a2ea7c; 0x2e3d60c7c9cfd26f; 0x292ec13a489acb1; 0x13e1ac8620f71384; 0x56f859240fa83023; 0x135b7c45c73febd5; 0x32f26a95eeda5cc; 0x6e293b14ce22aa95; 0x2232f11866428d4e; 0x78ec8c08842dd530; 0x6c46d12447b57b45; 0x58b38bc6a67adb1b; 0x1e3213df4e05e8a5; 0x559ac2da6017e1fa; 0x3f94ba6cc37ef4bd; 0x33b6b70991fbea05; 0x2912d00618371aaa; 0x64f94703c48726bf; 0x73ccbe54077f82d; 0x1ad4f2f077121658; 0xd2f7e7cc78e29b3; 0x7854374f96ab1456; 0x37b674c1f9ae401d; 0x18a58b6cba0b2ca7; 0x45295441873e328e; 0x681702fd5aa16327; 0x58d74b796928a043; 0x36957dc175cf59a0; 0x20f2ca3fe54fc0b6; 0x7415092d2ffb43c3; 0x7e2184fd380d347d; 0x7d5eca1f5a35e7da; 0x1e6cb155a69f5939; 0x3135ba18fe65c3a; 0x7469a8865eb5f3da; 0x222477151db0ec82; 0x53fa14cc7adc4926; 0x7ffc94798e959bfa; 0x200e63b369715c90; 0x71a93eb52688efa4; 0x59f5a93c788232ae; 0x289896836e177b5c; 0x60e2c20fc9c24abf; 0x6d66d3ab253125eb; 0x99d42025e9312c5; 0x5a7f39a60509b669; 0x1577a23bfd3fcb6c; 0xec1ee1a99b9eb04; 0xd50fa0fa77585f3; 0x2289238f8d08d439; 0x5fbebbabbaf4a103; 0x40f6ee52c54b4e1; 0x6816c84e7537fd2e; 0x38ff3c52f193d47; 0x7dc2001af1a3b2b3; 0x5b8311a37725aa16; 0x7885a470e6972f13; 0x35ca9294084f437; 0x12e42b1c9813dd21; 0x51706a46ff951751; 0x4498b3715a4a522; 0x15ae96c9d704a49e; 0x39d8c7c87cd3294b; 0x6f3cc306907e24e5; 0x2eee287d9e120d1b; 0x270da2edbd4e2361; 0x529c8d621a539fdd; 0xeb5f8cb74ace8f8; 0xa5cfcb5884626ec; 0x60e0ffc7de7a0da2; 0x6b5be7a5cd747373; 0x6489e112357b34cd; 0x75c7e199693db552; 0x7af4cc6fec49a8b1; 0x711d82a1bfa7743e; 0x758b3d93730c7e82; 0x2a01a57d09722fc8; 0x212bb5e80454140f; 0xf7655b864d83f6d; 0x16aa1d765ab5a0e6; 0xd825afa658c8188; 0x2376d22b523e44bb; 0xdfd9746e179b78; 0x1b726f94479704f; 0x61f24e9440367539; 0x323835ae63cd1039; 0x6e10e22dbe5b75f9; 0x1806c5efe2ab04f2; 0x6e9c2a96924fe2aa; 0x78f63d6a18cca27f; 0x57fb948d8027a520; 0xa5fd36f56fb678a; 0x13900c18ccd1bf9; 0x1fdc777ce6ca6827; 0x37e30fa0c648e915; 0xe0ab59ca4137d89; 0x101ab35834876373; 0x769e9f1146825d77; 0x6bb4365058c8ef96; 0x2c2b541156f54e7c; 0x2e4c5ac5ae92e554; 0x2575fdf55c633555; 0x335a8aeef6fa2983; 0x452e4db4e04b7ae5; 0x5149cb63ab1bfcda; 0x5be0b53409e75f42; 0x36af86997bd8f554; 0x3abc96b17438c27e; 0x3b7500ddf24a9b93; 0x6f2d01beaac043cc; 0x6cd63126fd5319d5; 0x2b8950d7e6660c0c; 0x43eb27974bbd701b; 0x5892397683b2ece7; 0x79ceb42ac38b0db0; 0x3bdd120e854cbcd3; 0x2e1898acffca7702; 0x6772861bad5631c3; 0x351d6895afff6dc1; 0x6cce8513b99d912f; 0x655494a8e132ef09; 0x5429ce65c99789aa; 0x761869bc2c008a6c; 0x3aa204b7c8e63153; 0x17817801f2626638; 0x476474654f8fbde6; 0x2e85ff12a634d29f; 0x16f8b3];
   [0x10d9a8006d411925; 0x7cb762e7494c82a0; 0x66dc4275d6a6ef45; 0x7ddde2757a37deee; 0x4e0db011f96aea51; 0x38b2e809321daba7; 0x3c0a9956b5dd8aed; 0x1070964a8ccc1c53; 0x1d8c24794f80856; 0x6dd36d57c9c1c2a2; 0x68f20bdb5e1cee08; 0x3325ff46911fce26; 0x23502c68f3d73f9b; 0x29b51d2daed421bc; 0x3a910c983c59deb; 0x50db517ae8f6ff54; 0x702c83a621f24454; 0x5db8aaa0fdba80c7; 0xa3c393f68cdea5c; 0x2005e5a839f99863; 0x181c92ffe6d7314d; 0x6ad7c172a95f383; 0xc484d9bf2bc94a5; 0x357d337364fe2cf1; 0x4f5347984eb9f26d; 0x77dc03b803dd0061; 0x3271717a7e1d65c6; 0x3b7447f1839f4d; 0x644a788803680978; 0x14d56cd2c160b792; 0x57bbee39c203f658; 0x78e232a774d99ea7; 0x21a03a0ff0697019; 0x21ee0676c5f668d; 0x6690503185616178; 0x3eecac7febb00372; 0x47f91e83d7d04140; 0x372c4b7befccef09; 0xda4b8ae26a9623; 0x54570dad0c96b1ab; 0x6226e78542a04a39; 0x1a0dd23086238794; 0x6722603bae734a80; 0x3746a50a85d1b1aa; 0x171df3aae9d1e6d6; 0x502b5654f9b2f0e; 0x1e3885ab3833fb22; 0x7a5edc3ea6592510; 0x2edbd8fa5c26827; 0xf7260c290053db3; 0x7de333c225020a97; 0x5e980ad636faade3; 0x26a6710446e6ff68; 0x24d5cc3f45bd49d0; 0x7a98e9166e4d6572; 0xeccc7ee57140f72; 0x132c1f3a89a1b6bf; 0x64b05ef178c4c238; 0x3e1c590d257db694; 0x4cc32b68499332c8; 0x5b5fdb785f514bef; 0x21c8184f59a94b59; 0x69e7872458e0cda7; 0x1c3fbce1d137c7a1; 0x22866efcf230acf9; 0x2522ee83c29956e9; 0x61f93ea62ff77b18; 0xe14e3df64daca27; 0x2baa31173ebfe549; 0xcd62717b64087b; 0x4137119c4417a94d; 0x7da1f815542bbdc7; 0x39cdbf4575d84de2; 0x64a11494e53a4486; 0x4d3d82a7ccc0c4c2; 0x414805418d39c5fb; 0x70a1f29c6b5c7f86; 0x2023d13b7ecab7c4; 0x78c726cf755e3a93; 0x175b91921fe1438b; 0x211fe2f5698fd693; 0x5e82f73ff629b000; 0x64dcc2129e28311f; 0x4f40127db0dddc57; 0x40ab953ffea18c2e; 0x6e7efda2b21dabb1; 0x68d410fb55bf620b; 0x5dec8a8a7e42d2eb; 0x615944b67f11535f; 0x1808c646635df433; 0x5323a577d89821fc; 0x17e709b9244a733c; 0x230c8bb94e6b09a2; 0x5c98e19c3c3b7c3; 0x46453a64a432d362; 0x682cc0391e3a94df; 0x3474eb793f79db54; 0x250fed10e7506243; 0x39a3de8456caab97; 0x72635042271162cb; 0x4a09b7c0d0f9b61e; 0x2ae94eb919d3c297; 0x28aa97bc5966cd92; 0x47b4cc1f06644cbb; 0x2c7ae77680771e84; 0x769774b6befd602e; 0x334912f3043275f4; 0x5656cb895cb8c7eb; 0x7d4fe7a13aafc7c4; 0x47c0b76b9123d1b0; 0x712b29c953649e1d; 0x14737281e367e4c0; 0x23fa97ee895feb65; 0xf340fc41d75cb93; 0x13cae383547370f8; 0x2d13fc2637b0552f; 0x16581d68b8fc968e; 0x16465f8e571b4a1b; 0x3298aff020b1133d; 0x44ef237cb68b46fa; 0x324db229a2b1ff50; 0x76d36be8a4c830ca; 0x241e2f1ff333509f; 0x21233186bb3be955; 0x6ccd3eee66e1fcf; 0xb149d7e2bcd49b4; 0x1a1f5be79ac88a51; 0x2b48be9b4f360404; 0xcb5759d7d72c58d; 0xc8900d03ded1fcf; 0x712712edf4c09503; 0x45ca9c00abccf10b; 0x79ffb00c3f21b6bb; 0x3394a18d0fd08b25; 0xc352aa97c2a7616; 0x4d8cc42e14a30ceb; 0x5efe5f64cdcfdcb2; 0xcf5b253ed801dbf; 0x47e70f56c1bddf61; 0x1e3d5b57f84546bf; 0x5ca66c18db86a571; 0x26ce70ab1505250b; 0x3e61ac47725c8a64; 0x7edf0ea0cf1ac0ec; 0x5d60ef90b382bd4a; 0x94ce6d40642131a; 0x3e509ff76b505208; 0x2a60b677409fa17; 0x6004e4d4fbbc5e0b; 0x7c29f9447b508e52; 0x2bbe4a9b637cf6e3; 0x2d0f20dc43aeeb04; 0x72d8bd42053f3f51; 0x5337c1acaa238d8a; 0x49a2a37461e56b3; 0x3d60e64062823160; 0x44be62c61b2794dd; 0x6e5b1b14950ec0bd; 0x43fe0e53eb977b11; 0x747f05cb967ab1b0; 0x73dfa747674be663; 0x159aa646ee5343c6; 0x66abb6c2c2ccedf0; 0x31eb2518d52badb1; 0x348be74f14d8fce2; 0x38e94947caa37f30; 0x36f0b01ebe4ff4f6; 0x2aeb1e28759f16df; 0x5e8c36cf723dd3f9; 0x3ea359c8c8a08a83; 0x6c350a8bd63938e7; 0x11b7457ecca6e697; 0x52616aa3c0315af7; 0x63326dfd0faa4aa3; 0x3c9bab0304d56a63; 0x384ccacd5587a1e1; 0x47ac631129b4e1f4; 0x46107e534ee741d0; 0x5b6a8137c18ed46f; 0x45a8127b9b4ca313; 0x6090feeb560eb37c; 0x12ef196046818940; 0x72e03fa5fe7d3e53; 0x50e2521f4d918c39; 0x5f95064f42c30dab; 0x3be298d946dcaf39; 0x5abb75e90d53a359; 0x17bc4b306c4e1894; 0x65b01dad39316d6b; 0x3a7c33427b43937b; 0x2331d72dc347a30d; 0x2217f381e592977b; 0x47e000ff63453750; 0xb91d8e8fe9e78d8; 0xae1e33d9e8a1391; 0x368f4950dd157f29; 0x390d809863f6a03c; 0x2ca1086a83b4a4ed; 0x122f90a794c1ec4; 0x7fe5070d4acbb974; 0x68328b2f2800de82; 0x21390909fbfd5d01; 0x491daceeea2d6d9c; 0x617805ec72d8305a; 0x43939f60adbba1e6; 0x6c7ed6719dc50dcb; 0xd300e0c87285f6f; 0x28112c563049600d; 0x2f0ea0503a4be0db; 0x239f4343de94d370; 0x2146ff087056d3d2; 0x75237ec7aedacc31; 0x786f6eacb7310f59; 0x2919e904c04ed9a6; 0x62e602833b1cde55; 0x6ade0c69850383c5; 0x56c009164df313e9; 0x5c90d1da809021ef; 0x689b0e07c9286d80; 0x422dd171e0ce7b66; 0x4345f79929d3e65d; 0x3d51784fea424691; 0x1e874a1e7123f337; 0x7f136657d11e19c1; 0x5605960d6e32c28b; 0x51de8cad5db0d8b4; 0x154e8b59c300ee44; 0xd5b2b240a22a427; 0xd25fa62316e4630; 0x5fc8607bc440f8d9; 0x1042f9f3bcdb4fcb; 0x4100d7c8a3e6c4a2; 0x205dc06cc08409b9; 0x44d85de95dc22d4c; 0x74dee496ae690dc; 0x10fb54b0ad5937d8; 0x6550c2fe056c718f; 0x283b666b561d36d1; 0x59778f05ab788b1a; 0x3b04f0f39073d253; 0x5e2ccb8fbe53e36e; 0x6a872073f2704db1; 0x629b02074a04d1a; 0x779dd7346812bc02; 0xd36c3f90a70d0de; 0x5b10eb17568effe2; 0x734f99fd3239e809; 0x397459203b48247; 0x4c6bea66ac708ce7; 0xc561fecae735209; 0x4341f700b3ec5ee7; 0xd10b688abb0893f; 0x489b53e406b20537; 0x73c6c48272bf5ce7; 0x2bdf1052be49575e; 0x6179156bbae9f6c; 0x145dc0bb732ebfde; 0x63051e04cf2bbd26; 0x4a442fd73b72893e; 0x35c05e7fb1cb22ab; 0x38fdab22517d524a; 0x7e0264f45ec549d; 0x28936a1b9a117ab7; 0x16a9d215990b3243; 0x206b58eec8f9a4da; 0x2fc9c881b66dad93; 0x3d90b327745a934e; 0x4477c4b61a0146a7; 0x355dc0084d01d6; 0x6a734a3eacb3841a; 0x397423ea49002b84; 0x23583f9a922f88c3; 0x63c45aa6f83c2027; 0x1562164a8df58c37; 0x76eabd87de43b72c; 0x729090ce92d2d3bf; 0x14202c4f58f2e5df; 0x45e824c20770cc51; 0x7c59f2bb615714d1; 0x25a6589aeaa5a916; 0x19faea6bef90bcee; 0x35d61ede6a4cf361; 0x63930b69541907a8; 0xc6b4490e760d92c; 0x4fdf40fbe363c5b5; 0x495abdcc6924efcc; 0x6540c30d71df771b; 0x23bbb5c44163126f; 0x4664033c5d85c57e; 0x429ed9106fea27f1; 0x68162e9eac03c717; 0x4d72214061af9b12; 0xcf7080a479cee60; 0x217154273fa4a50e; 0x747432205fbdf714; 0x578266de97ca60b1; 0x42f553849789358d; 0x125ce7c53f0de3df; 0x5ab98912ec731e0d; 0x9fcb3c039ae673; 0x582bdc1fff1fd17; 0x2561a660158143a1; 0x3df6c048a5645537; 0x236ab3bce623d637; 0x3996c3d60ebfa293; 0x188440e83375d403; 0x7c910b09c694a335; 0xbcfb472d20640aa; 0x1dbd9e652f6b7939; 0xaae63bd1a42dff2; 0x4eb397c7472993c0; 0x1e2e11a6e53bf04c; 0x4b3faab55883ffec; 0x653dde3082ab9793; 0x74d5caaef504e642; 0x42c8fb5a43348ca3; 0x194ae8a96f938667; 0xe9c1d];
   [0x65f48a43482dc8d1; 0x3ec764a04edef0c0; 0x56153ea4ab88201b; 0x4afd30e9f75dbbfe; 0x1f4c147b278977c4; 0x78f1453c251ecd1; 0x571fd2f07e8d133c; 0x22e19dbc8bef70bc; 0x1f4e0b3b4669af93; 0x226a396cdaf53d8f; 0x29906be72f8e82ef; 0x1a084bdd5de6f5f7; 0x75da5ea1dddafdae; 0x39a1e10b0d1a956a; 0x33035af4a439bb62; 0x735f053109cf66e5; 0x255de1a86118043d; 0x54a79a272bfcfe05; 0x534480a364e17eb1; 0x75361e89c27d52d; 0x364132a8a0a47b70; 0x41345a6d86c44ad4; 0x1ef2a4cd3a82ab61; 0x77db2fbf9f48d7f6; 0x464d3e084ade2611; 0x204b2859159facb0; 0x6d25eab5fedda347; 0x624af93561616cb; 0x2a60149b5c1d016e; 0x314ea6d99d453178; 0x59a80ec8d8061347; 0x698aa788b1687ed0; 0x5837f20edd32c0bb; 0xb34f63ab1cf3f98; 0x195babc1f0858d89; 0x521d6aca52ec86b6; 0x4ec8f8a3a475a210; 0x353ffef1131952e6; 0x36827a4617d2eaea; 0x7fb1efd807d099a4; 0x507cc36cff47b882; 0x4bf677c24331d74a; 0x171b27511d8c5547; 0x6d464165b469b912; 0x119acb7278da4575; 0x5eb27f28aedd8fc0; 0x1eafc3634cf98b00; 0x58259795545893c4; 0x27af07aec64b124; 0x77773b0c00836954; 0xa518a335e934b02; 0x992d9b301facc2f; 0x6e45e20d9b059e4c; 0x494aeb5c35330c44; 0x68b59dd8d7a1e6f7; 0x327d19f922f88e95; 0x2e4fcd16e2211dea; 0x1b227fc58d725d25; 0x5948c3f710736f01; 0x74de07de5287ca6a; 0xa3a93b8becc99e8; 0x33c4c3511941e898; 0x27903abbf4f68e69; 0x422cdf787b9fba0b; 0x296ca1079512d47e; 0x1064d6f3e00c831e; 0x629571a61cddbcd1; 0x2a07cf19bf0ac9b; 0x1ea0e19db17bfa44; 0x7fb5200e6df613f0; 0x5065bb14ba9d1560; 0x531b4bac1e2996c2; 0x4978f087c2ceaed7; 0x710e33dc017e23c0; 0xa0e1312313066ae; 0x47045689f5b115d9; 0x4a992a5c79cee59; 0x4e95fbe3672a3bd1; 0x3b459118a782849a; 0x5562800464d71156; 0x5644d728e52d4f02; 0x56e414fcbdeb9c89; 0x3bb008e762d86ff9; 0x7eb0daf17a88e683; 0x17951fdb5744d97b; 0x9ddb1d728be80b; 0x251b5906d1a2eea0; 0x74b3248a6f65cc83; 0x35f1550e33082f8f; 0x7e527df29acf0970; 0x214cd223f96946c9; 0x394fdb2030a1732b; 0x2f3feb015d00a506; 0x1cd2bbba30a74f9a; 0x77c357326b84517f; 0x36a25bb60212e528; 0x7d55251c129997f3; 0x391aa0c21c00319b; 0x1aed0389d1fc5599; 0x71cb530332944d1b; 0x6b44587c6f6d0713; 0x35f119f63b254c8d; 0x138962525b250f05; 0x78f872cb458c7ac9; 0x5bee0456a96912f6; 0x7c7bfdc1eff1cf36; 0x41ee21886538da84; 0x261330a1d5d31a73; 0x3699f51569fbe228; 0x6d66268145658f84; 0xa79ccd04064b4e1; 0x56285eb714fa8831; 0x679e7a3c88930237; 0x154a48ddb2674e95; 0x414c7070badd3ab0; 0x1a89e85239d9f638; 0x27e62e8490356302; 0x10dda71e7c095995; 0x29c4363144e04754; 0x19d30bf169675d3a; 0x528022062ac81cbf; 0x5b0acbade7cf8265; 0x61b1d2f81d3de5ff; 0x7a4ce230a035bdd1; 0x50906cb9d3b89bf5; 0x2904c03a7e247516; 0x6f0a589b0dacdcb5; 0x3b3767e106e3933; 0x2a4bb953c89bfdc1; 0x3c57d12bb3e0c04e; 0x7071fcd62288c815; 0x3464c3436916ce71; 0x68c7c5a6807966ff; 0x2c484160a6bc64fe; 0x7584b6f34d8c7463; 0x674186ad16145218; 0x636b715273a87ad0; 0x34648a9e6d90bdc9; 0x2e828e1dbe0667fc; 0x6a22bb3c449d3cb2; 0x6e31201cac4012cc; 0x1ed6ff76da834061; 0x233736006a914574; 0x629990686f175bb2; 0x2d5143a8e3b6134a; 0x437e0979cb736414; 0x3cb6d803d12ae1b5; 0x593fe5c48d3ac411; 0x133f60628b6a8027; 0x28d2fbaed4681306; 0x7c485f9239d30d66; 0x581c843ad18a9a0c; 0x35db4201b9b064c3; 0x7555578a9bb600c5; 0x4d9ab2d773d3f04f; 0x4a231a5a4753832b; 0x16081c12c057164c; 0x1374a1c0fec6202c; 0x15faf9be9c23d525; 0x7b7a2cde3fb969d0; 0x2f6fccbda7061419; 0x5db896a870253269; 0x6885f6a4ab2f8bc4; 0x27a2198b89d0065b; 0x663fdce497287449; 0x727248be6c82f053; 0x706efcfac805ac29; 0x6cd4fef88c00ea58; 0x1a0db02f1259b4f1; 0x17a707582cce369a; 0x5e0876534274eff7; 0x5e00b8c6f87970b4; 0x5f8105931cc5280c; 0x74febc1b14a79676; 0x30b97097c2780a6e; 0x161dc6412637351; 0x5e1e2decc9b6bb80; 0x24f4e5254a147b5d; 0x6feb4a51c3b0250c; 0x2156b1ac79393f63; 0x1cb9c643aad50f88; 0x24b1721447b6862a; 0x333fa461747da0dd; 0x2b9fa5c29678f5e3; 0x7a7450188e64f72c; 0x3d4c7fe052435b5a; 0x45ef00973b598434; 0x633bb4fe4ab3cee5; 0x3ae09266e8875371; 0x3fd6f35efcad59fb; 0x2d80c1531a914f69; 0x9ff5f1fb5ea6937; 0x4f9efb8f1f9e4f41; 0x438977bf3c9c1c08; 0x4c523d0f802726fc; 0x44da846c271480cd; 0x7bdc50899d61fecb; 0x1252b9fe8b2fdc1b; 0xc59373d25c17d85; 0x4f448c33df0cea9b; 0x54b1521bee31d38b; 0x797034d0d337782b; 0x217a937a0d4d1b44; 0x3d8a291ba6c3ad91; 0x650ff12c0dd6dbc3; 0x13a71691822aa2c8; 0x5c7673c88ee439a0; 0x1aac05c616c1a1e2; 0x15845f60286f98c5; 0x226086f26d247ecf; 0x6b534080b7d774c2; 0x57cecce98263ab78; 0x4a435c806618d463; 0x4e7b158115fa8ad6; 0x2a78eaf8450010a6; 0x3793e5cc338a5c05; 0x6515d1ad1486755e; 0x19c4d4077e85549d; 0x4f4b6fbc02e57328; 0x7c90da53038654ee; 0x45c93a2cbabb24b0; 0x47530d268b225759; 0x3fb9420cd0e83b7; 0x87474a56b4eb000; 0x41c93c55ac1995de; 0x76d837f4d695414; 0x1419d9d6130cb3; 0xaf2296b92a8aa0f; 0x38b85dd181ce99c4; 0x3d0d9378e46eb3a8; 0x611884ff0640b5e; 0x12b6229413ad2fd6; 0xab1b9d50cd2e8bc; 0x4d1b875a4caac712; 0x754b8979bfbdbc07; 0x1a5d1b0dfffad5a; 0x3714a6c51dbb0415; 0x69f394a88a359747; 0x4d2f38abcd23baa4; 0x36dfe2db3c3ce33b; 0x6acee8e6cb81fc38; 0x6bf55a8222193ccd; 0x786526732afd126a; 0x6722f8796553fa3c; 0x299b4285101bcb07; 0x2a86dd33edb30e5d; 0x379aaf6598aaab5b; 0x5ecf1f8b4be8b824; 0xb7d95b2794497a; 0x2214f793b0092282; 0x29c50b79bf069974; 0x593bae93d5bcf7eb; 0x33fe59e3037ae1d0; 0x19fcf0feb9e94076; 0x269789a3565a1b94; 0x26a01f0613d6574f; 0x63cbc7a4af6b7ebc; 0x59bf8bc3f2e1caec; 0x56b6aa85c2d6e325; 0x2e35230e4f480bf0; 0x1b147cb82b4ecb10; 0x1f3785583aec2e9a; 0x3c9b1cc90dc8c3c6; 0x22015c6a3c0dbc44; 0x871a89b58116952; 0x59c4e107528744ba; 0x2d1db38caed87db3; 0x66001bb317c4d0cf; 0x401db791f6f8d5e6; 0x5a63e7680ad7adf7; 0x1b7d4e441f67dba6; 0x51728e6811f1a4ca; 0x6c860587da7deb8e; 0x732df666d369faae; 0x2260bc5dddfd6676; 0x6264091c162219cf; 0x792bda6eca76cfec; 0x4ca97286903e90a7; 0x602dd679774c632e; 0x4be801dcf46da17e; 0x79a8c67917bd9de2; 0x128d9c6e41587ea9; 0x533ec7902ba00243; 0x4b512289ebae381f; 0x6fe5ec90b3a22e55; 0x7917c2c7c4878ef6; 0x2b1c4dec799684bc; 0x4f72e6f99b23753d; 0x1beadb0055d917d9; 0x3d1f6e13741b9c7e; 0x1a07e85bc4b0dcde; 0x474f5900dee38736; 0x41a08b3ab88bc0a6; 0x7288440c72940066; 0x16e72c670ffc4e09; 0x3c0f9fbc223b4e36; 0x6f5fabf314463882; 0x35df654229f58922; 0x4396644682ed7200; 0x45f84c6c40dcd5a1; 0x76d36e6961a8ad3b; 0x4c0ca304a5322a8a; 0x6ecb55a9858a30aa; 0x689690c74e98cd76; 0x408b87e6c068ab5f; 0x1d60e3731e411e4f; 0x6469269189786fb6; 0x499e77c2b62dc4f2; 0x141a563d70ba1841; 0x1e700a38d7733342; 0x2ae2438fc9eb0253; 0x47ebdb15c5c93a01; 0x70e20aeb3f074fe; 0x4007c482f8b2f817; 0x2bcbfdb9972cad50; 0x686da15c5c22c148; 0x76c7c65da0aadfae; 0xbd183];
   [0x59352f39ebc3febe; 0x13ffc26f46d334da; 0x4f349844d1326800; 0x58e3d8ed6c3be647; 0x3eddf86ab2011807; 0x7f019d0baed3c94d; 0x208d7ed00b282ba5; 0x736216859d452436; 0x2bd6ce3dafa77855; 0x1fb980b9368078b2; 0x66afb6c25069922b; 0x4ba9e27651278647; 0x56b24d984fe6324d; 0x47464e6c56db69d4; 0x72b6f4612df746c0; 0x20b3b5ad6058a283; 0x694cd68a2294f70f; 0x36617446283598aa; 0x7e05c5e2475e5dd3; 0x189630aa25cdd3f3; 0x5df1919d82479693; 0x1dcf185c34345de0; 0xca8566a717ab58e; 0x1e843a213f5da0d2; 0x1cba806cf8c56ed1; 0x748e744500c25847; 0x3a465f849c8cb789; 0x3ddd6d9671f710d5; 0x3ec43328e8f9d953; 0x610f5e9a81573060; 0x10a6446be2440f86; 0x6ff3773d169ee03b; 0xef33c19515a3cc4; 0x5e23e1fa6d295c3d; 0x50f36c66496adaf3; 0x956f7716d484ee7; 0x6a65eec85d2dd53; 0x37f50d638f4dddfb; 0x59337ce2f32cf063; 0x3b0fb5eb389d982a; 0x43a0f63ea4f77e7a; 0x19ffebe3e8eb8bf; 0x86975aa44d7b294; 0x50f33260acdc9191; 0x4d9499c3de2bb3ec; 0x20153947403a2028; 0x24f62e35aa05fe7f; 0x4e27889a7c9e0c48; 0x760d3248e64bdc63; 0x6deb4925f6593b22; 0x3d6b6f8a7472a4a; 0x2e69dbe439c21622; 0x310b2b4d0e2d3975; 0x62b3cc032e55bd61; 0x4b0ae5d01adb982b; 0x63d6158bc42e8f9; 0x18df541544138549; 0x427a655260554c4; 0x513cd5dd0133415b; 0x37a92343ef323074; 0x7ebf444ea2c6c95; 0x6bdc2310ce016702; 0x32afdce980af2173; 0x15a5da5128304349; 0x3d0cdd019f0e26a9; 0x5c947c24ded5a9e4; 0x35520b81699c15ef; 0x499acc67a183cdab; 0x7d21de3bbbb0091b; 0x680038a3e9f9f850; 0x6764482c85c4b2bb; 0x68a9512201c48ae4; 0x4fc8a6c627431de1; 0x43e42eb57af70711; 0x711ede2e654aa026; 0x22b89c40b2354abe; 0x120186d8b7cf97d8; 0xed5947eb19350ec; 0x7492fe854d094d21; 0x77acfa3f7670126f; 0x52f97dd89376127a; 0x414ccc5ec7c5c8f9; 0x4eb9d30e3307b3dd; 0xc5c960b26dd0708; 0x4e991601d914d369; 0x40a72e5aa9bdc20f; 0x16341dcdeac8f412; 0x4389b3c6d43f1469; 0x308f73660e162b04; 0x132fe185394c4fd; 0x3331d005525835f2; 0x2d94c7920ce174b0; 0x3d856cfaf4a8b17d; 0x5c41972fa77272bd; 0x6fdcfeaba4b55dbd; 0x69a6c17ba3348f8e; 0x50da42823f1c19f6; 0x6f6c9f1f49998f8f; 0x3cf87f9cd56253f4; 0x63b26d51891a0bf3; 0xf9c0b3445774920; 0x4613ce33ecf2c54d; 0x7b31e3507b1db8ef; 0x43e0ad5250518ff0; 0x378604d3498054e1; 0x90559ec58a52714; 0x1ff68d782c29f3d7; 0x6e8d7bde98db9d4d; 0x23158b0168b8745d; 0x1f90493dbb28a8aa; 0x7bd147d15fae7767; 0x273287fcfceb365f; 0x4221e142f028c270; 0x2f20c8cb00ec8e13; 0x628e9bb86268d0c9; 0x7b46a953c5b38310; 0x40ec707f95778af8; 0x733b538115601a94; 0x340945c2d50bdac; 0x3e04b99eb9035b2f; 0x51ba222e8f6a8930; 0xcf6051c5c46a2f1; 0x13323c5851088f32; 0x3753b8293ffe36bf; 0x6dfbfbbe49cf60ab; 0x7f055be26504a7aa; 0x22fe454bfe9e8de4; 0x29cf3587ee437c92; 0x4588b55bdb88818c; 0x1ed5f67d0267c18c; 0x59f8c6b9086852bc; 0xf85fdaf7b24c705; 0x25ab53be25c846ae; 0x3918410e3344209e; 0x751472126e2fbe34; 0x48842d8e7399a457; 0x28cac0cd0a2de533; 0x6f324ea3702ce3b7; 0x6d0e5b23b4a44e09; 0x4c59f06d4a415370; 0xe39cebfd3e7d00d; 0x6fd4c93242598054; 0x3e4613f146d1cc56; 0x4e0428d5e64dd7f5; 0x5f9af694f799ac1c; 0x625555afddb9c8d; 0xae2322db7a1204e; 0x361d65a98905662f; 0x20ab13eb350c3c2d; 0x1b3f6b0a17d659a; 0x3f4c0f5623b5b84c; 0x45b20c76a95bceef; 0x3c5f329907357fd3; 0x9dd8bed53c8a7b2; 0x2e9439989b64d21; 0x125b8cf3c1feaf70; 0x777f83e3a0d9453b; 0x513dedd50132d63d; 0x7ce5da2da9ed294e; 0x6dea1368b9405610; 0x64ec663eeec551e2; 0x576e9b8f297b2ee4; 0x375e0d5a8fe9f7e4; 0x7acaadd41aa18679; 0x72ec409550a9623a; 0x451bac1209ff467; 0x646b7b7000b15a47; 0x3ab8bbe305e50f2d; 0x5871485545172fb6; 0x75faeb63769fad9b; 0x5bd1e78a59f52e60; 0x79929c66bcd6b228; 0x4864275ed64e715; 0x44ff18be90925d; 0x64cfb38e3a019c7b; 0x7cecbfe64f9a7b63; 0x6b3ac792084e96c7; 0x60488de611ecf1fd; 0x28b3e076abc80d35; 0x33c7d2bf2c16bfab; 0x5144e5c98d97b511; 0x50537e1c437f70e7; 0x745a61b5cb83bc2a; 0x6478dcb86c1d2a55; 0x7f9ba1cbe15e5cd5; 0x5f7f82fe443a48c; 0x68840df766aa1512; 0x1736b40f3b38766e; 0x413fd0b1631f5dec; 0x756cfb8fb2eb1505; 0x31bba9b502aacde3; 0x4b089fa5e125eceb; 0x4ee8e64e7d0fe44a; 0x12539efee7ac0a8a; 0xdf0bac62819076f; 0x6b56715de5594134; 0x345621985ee5d3a0; 0x5136f08dd315931c; 0x9132dd65a7554d1; 0x75ce38db18a327f5; 0x2f51e39ae243447b; 0x3130801ff9d1b7fd; 0x1d53eb0a71b3e9c7; 0x4e478016a24338a3; 0x2ff6249c95e1d29f; 0x47da001980035385; 0x3bf6de8b35a0b1f6; 0x2d5398ff387a1e3f; 0x2de5e7368934a2da; 0x79567de4619d2f8e; 0x4b2e036ac7299dac; 0x24109153f68f030d; 0x4ae4446b3a91f414; 0x79f62198be907f29; 0x6dae923a27757c91; 0x62abcfa26e99a7fe; 0x6493a053c56226ea; 0x12f1e24121e88435; 0x4a556a925cd0522; 0x318c65dc6e4adb8d; 0xb05e7b1050fe390; 0x29fb0a9c376d499b; 0x62c31b27658595b1; 0x18eb8e76fe5b8509; 0x5a5f4ee94bbb277f; 0x6f4489c26b7470cf; 0x1cb7f0786f12ed29; 0x53095a89f4c2793a; 0x58137250faecc0d3; 0x199c745e98bf0137; 0x217dd48a7d23b312; 0x1a6f01a2b5ed02ee; 0x6c89746d1e63e3c9; 0x124c21523dbb73eb; 0x122a5f0021e1b0c3; 0x9641fdb4ea259fb; 0x3243acaaa666cbaa; 0x40fb538a7acacecb; 0x2c2842bc75fdb5ec; 0x7c73394a086135ca; 0x1310a1cecdfc1719; 0x1b2983a37676d66a; 0x58fb5972885bf93a; 0x13ea10e113a392a7; 0x6b40ebcebfdc657d; 0x4c7a08e977f46ac8; 0x8bc82a53780c6d8; 0x162030d3c4151e23; 0x17b4491adb3d6430; 0x47ac623fa0233ec2; 0x71efbee376e38e8d; 0xb07a67c47981fc8; 0x72ad3063cc1e93f2; 0x64c5906d7d211ac8; 0x68c03c1cc5318e72; 0x21398f7cd6755d6; 0x52021c0fbd4acdce; 0x1d985cd0441e69; 0x3a767a781de5f202; 0x6309589ff68fa1c1; 0x2fd44ac9fd56eb9; 0x34f06638efa0120f; 0x33c65e26b4d84f48; 0x492fd4b3e3f9a4d2; 0x61e459ba6348d653; 0x3ed398283987d917; 0x47633bb35dffcb18; 0x9988886e0fcf886; 0x383517f5ba2cafb8; 0x36c3ac1fe44a7d9; 0x486bf5b01a21ba73; 0x500619fdb583d67c; 0x281b08d3889562fb; 0x55b7b7b20a2a6a68; 0x4b1e6955ea2e1a97; 0x14555ea4f203f2b3; 0x1c18cbf61fc6e074; 0x2af4ae9c2f7328a9; 0x79118b95886b19a5; 0x618e93fde1c4842f; 0x3c721eb5b869f60c; 0x1f1ed3b87d9258e4; 0x737d96218bab6da3; 0xeeb33e1a9638d9e; 0x3ff4dfbfab1e8a76; 0x6fcbdaa64e467ca4; 0x317165747ae7b24b; 0x7f8d80eb2d48add1; 0x5276c344acd8d473; 0x6ea40d7ef9bfbe37; 0x37a640d4ad5d29f2; 0x5a0524f47681b6b2; 0x7f8bef8f632586c8; 0x76008a68904c965a; 0x37e47ba984dfe50; 0x4693ad2564d77f93; 0x1feabefaaad667be; 0x433c29d4b04ef892; 0x2adb576a89afdd98; 0x12f70ba174c749a4; 0x623c100d02729a0f; 0x79409d904be6ab1d; 0x403ab011454c141b; 0x5dc70f17fe581ad3; 0xb4e51579a8f0027; 0x13168c84e87be951; 0x4bb52f1c34c745b7; 0xb1fb84f1c388f05; 0x7dd5319e4e5d69bf; 0x66a6c79bd7f1296c; 0x725236baa9773860; 0x6e1883cd8db5fd40; 0x51cff03e5fe55544; 0x24acd005e44d605a; 0x12f4413e5c4d7679; 0xc0107c94ba4fee3; 0x644822c975e8cf90; 0x272bac];
   [0x76215afab6e741a7; 0x12865bcd52177e73; 0x7641b43a12703f1b; 0x236b75c03889a3be; 0x20d52753655668e5; 0x691d990f6e456af4; 0x7fcd419385f4bf1e; 0x2de0dd8ea63825d1; 0x245476f17dfa446f; 0x21c025cb9bbe451; 0x7dcf74824117cd69; 0x6cb4a4be12fcb498; 0x69a9291a998e0bce; 0x2c4599c406bff8f; 0x76ae9f402e073c29; 0x7938516cfba8c6cf; 0x23929abc5a40ecbe; 0x46465cfec8d149d5; 0x3b82d3c40e210410; 0x2d6745df69d26a68; 0x3adbd8a2f353f3c3; 0x4d50489f0165ae48; 0x42f31b45b3c5e453; 0x3b4c834b9062b148; 0x42bb2dc4f3a049a8; 0x2cdd56263d275e29; 0x7dc20ec5d0b8e8c0; 0x589bab112e97f9a7; 0x66a8217b58465b60; 0x3768ad6bb7756e62; 0xce55dbc797e1f45; 0x12bcc3ab15cc5e74; 0x5f05bc8901e5f417; 0x63bc481d7113549d; 0x474353eb54ff3123; 0x62b2e203801663df; 0x38328bf67985f117; 0x27d014bccab85d0c; 0x4e7cade4173e9706; 0x6b50c203d2f51447; 0x7f142241ff0cb923; 0x3455de49a72708a4; 0x1d3f38a5ef580609; 0x5fd4961b7d93e5fc; 0x7175f047be0a138c; 0x7e29b8c070e37dea; 0x4883827a0a2e3a80; 0x59ea2558e57f6671; 0x2736407c803a33c3; 0x33ca93f832919d1b; 0x5f842108ca6e4e84; 0x81cbc7d827d50de; 0x33e8d39d545f8e5a; 0x6a7842add84a8e7f; 0x690f031d486cdbe; 0x65dc05b6e0507a3c; 0x1f7d72443a77a96a; 0x5cf70e0342657911; 0xcd602f50f4bca01; 0x60a7cd5b25458cf4; 0xb111110c47cae3e; 0x678bc45769b7f74c; 0x53c2a3d9662f69e4; 0x7103b2c93849b8e1; 0x289bee9eafe028e3; 0x17bd6d8c8ba50be1; 0x81ff17e64bb13bb; 0x1e3eacb545f4cac5; 0x43dbe61658f42126; 0x2f97c5ff87c25e6a; 0x35ed698efd0ce02a; 0x5572759ea7cbdb40; 0x1956290c8af7df7e; 0x2040d46c6e0c0812; 0x1e418ee46c5efaf8; 0x6a04fc9b54f7a3a0; 0x98faa4198ed1168; 0x6b8f0667e247451c; 0x7f36d8d14661bc50; 0x7cc5fcf5e9d1288d; 0x661c4f6fc7ba8c31; 0x6ec9883ce20d13c6; 0x35f8f5411e2d24d4; 0x27b63acbfd452de4; 0x27aac5b4b84a0e24; 0x6631dac315531c02; 0x7e9582131ae2a0b6; 0x201421b6e30c0c4; 0x40299ac5db2577a8; 0x375fd0e6274c1475; 0x79097ed2bbe4b8c6; 0x650acc8eac0bbb92; 0x5e79ebf6e9a92ad6; 0x5f4e52475210f117; 0x2af1960dd2914e8b; 0x51d4df050ac37b3e; 0x5d1fda72985a8372; 0x43d95a5b697713; 0x51c03aa00fce178e; 0x7a6c3aa87de93252; 0x142f5d7a22a41ea4; 0x14141fc8da686912; 0x72c9897684cde380; 0x3024fe7594fe9764; 0x388ce323ed7217f7; 0x2370875f95344706; 0x4f93fd7377c9732d; 0x541ba4c856ef133a; 0x16d0a0fe1e9a9677; 0x36fd93b2829ef877; 0x1ef646fce89ee9d8; 0x460e1957c8a5baf4; 0x55c14f02fd963487; 0x2780f73b001b8121; 0x35a9b5ffa566b74; 0x2011ee9a0790f731; 0x48afe001f69ecf45; 0x51df5a1b2c5d16a7; 0x64cbaf5c7a168578; 0x56b31f5eaf95d298; 0x6df715d72901e8f9; 0x36feaafadd20e2a7; 0x17ac6be2231c18a7; 0x11eb926ccbf4f0dc; 0x3fcb17aa7381db49; 0x74d96648fad6c71; 0x7d778c2e60beeea9; 0x743b378030daf026; 0x1acb0daa6dbf4bf5; 0x393491e7cc2a45b8; 0x6db4efb60777da99; 0xebc761d67402aff; 0x1657fc5934284994; 0x7dc18d02671f16a0; 0x5810e4bc82f03448; 0x27ee374fe2af4d69; 0x713fa4d5e4fcd750; 0x25b61f6e0cfb10b7; 0x7b90f169eee7459d; 0x6a150508d85f166d; 0x54f4665e732638cc; 0x2ef12b6c21d60d11; 0x65da20090a255b1a; 0xaf78a8cf22ca4ba; 0x17c514eabb7a5a42; 0x26192edb6c054abc; 0x2c95ac2b0741b6cc; 0x159b9933e4d67dc8; 0x7c232f1be7a06bda; 0x3a6c4d7d104c7b68; 0x1985f680786cb501; 0x53aeb367afce46b1; 0xad93bf7ba2cd82f; 0x37948b4cfd875d25; 0x7d8a4d9771cd074f; 0x6f4089af57166fde; 0x24feb93656fa353d; 0x5704eb913bc42f3f; 0x2b507e8b6af10c63; 0x7d7bed3c0cfc4e65; 0x47b512e177c0cec7; 0x75933c1b93b17f68; 0x5451684046a89251; 0xca8a3a444bdf42a; 0x78603b54f11a0b92; 0x28c9ba1a7375021; 0x51d025b8f0b7a175; 0x7a85432fce8296e; 0x4a949b3a8cb91ac0; 0x1c08f51b792ee0f3; 0x6dda6610d38bf310; 0x3af958dd94459802; 0xe0f3ebeebfdeb64; 0x6e45c16cc7f41a45; 0x13735881d11384a2; 0x6ca773c6eb4e3052; 0x4da68afa1fe40496; 0x14aa5a78d619fba2; 0x2008e45ad1eca32e; 0x22b6a7859310eebf; 0x7cabaceba7787bbf; 0x2d4bd8982e7ceac6; 0x4e243197551fbb60; 0x5bf8bc9faa2a3c2a; 0x7ec35e7068597013; 0xf22aaed3c87302f; 0x49155a81e953aa60; 0x60b1c15e5d8c43a5; 0x6ba61400928cbc3; 0x1fbfbbbee1750463; 0x3b23acce50a0f140; 0x1f7a42063dafbada; 0x53b8fc6623576298; 0x27264eecaa97089b; 0x62fcb10e86176159; 0x78ab137ce9dc12f7; 0xbef86f9e0b29232; 0x6a82aa939a7cd6c2; 0x406815f4943507b3; 0x605cd9195662427e; 0x6c0963e34c34b52c; 0x3b4ef4d23b493cc3; 0x649671349f449148; 0x5eefe06e819794a8; 0x44163ed2da2e387b; 0x2bef17b4550425c8; 0x70df7ce29a45dffa; 0x7fd0967a5a319d91; 0x29504a8fcd4ebe4b; 0x6df04536be6b01bd; 0x6b0cea61db8543c3; 0x27f5e0295e08b1ab; 0x4adbf669b66b40d0; 0x7a16fd14345e981a; 0x15184b9a73882c21; 0x20769339a477aba6; 0x1d342cadd7af4ef9; 0x78b87ddc40665b80; 0x46f4f0fc3f0e741e; 0x554a54d0d24f2e46; 0x2c4d479206f0481c; 0x200034396449bb71; 0x616ff20d8553623e; 0x792c21685eaf7453; 0x43d4456649ba370d; 0x6ce27f6561cb0ecc; 0x2a3a085ba75d3e80; 0x2fd32beccf81764; 0x7af5c371bebaf2d0; 0x1029204bbd059f6d; 0x69f7e2d2bf25836; 0x3b42c9cbc13c468d; 0x4ce3a6f8725343a1; 0x321ae240a25fa346; 0x427e9cb22b388638; 0x44a3df42907b0513; 0xdedd2b60942122d; 0xa441705f7c3bc77; 0x1fa407c7056669de; 0x2ef42da8dc5b5245; 0x75493ae936f807a; 0x7b006bd23ccec365; 0x11a91e4bb6f30a37; 0x3fc485daefdf2ef; 0x1e4916448c99a365; 0x7d84890f74a633de; 0x1cbd33bd3139fe19; 0x714360cab793d6c5; 0x50eb516f26a70c27; 0x6c0fc6f99f10e01d; 0xf048e9edf90db4a; 0x1852e53a4d3ead78; 0x8cc9dfa222bc8c9; 0x2b384cfdc166dfc; 0x36497344dc20647d; 0x3cfaeef922338c4d; 0x1e1589909c922477; 0x391540f4bb6603af; 0x7f6ff3af49605ade; 0x43113dcfda98dd1a; 0x3b31c2c94f851c4f; 0x37f438a8ed37b737; 0x159f47e571ae701b; 0x76fde68ad4c1083f; 0x771e9ff02109f9b1; 0x46ad080c7098ae5a; 0x1ffd3495c7a9e5f8; 0x20bb9b5744a21e1a; 0x433f64feefe3e8c8; 0x4b7501a0d72e3560; 0x6af73bcd7753b856; 0x6b39cca31765d67c; 0x19c0396b006232cf; 0xe956cdb7f6a8544; 0x1dac4425ca559923; 0x30dc98eaafc1c503; 0x596729342e1f9515; 0x67d065a5490a9624; 0x2db8971cbd232a58; 0x3a68d4abd54bb191; 0x4d5e484189a3638c; 0x2f78a0e10a65ed3c; 0x4efbdba66f0fcc6; 0x2042303682d65d1e; 0x250765ef51c2139d; 0x499f34dbe9882f2c; 0x1350de9908f611cd; 0x1002acf218f4bd60; 0x77b5303717f7b3fc; 0xaad9e238eef64a9; 0x3ad02668b67d618a; 0x1d73d270dc373832; 0x64473c1942426588; 0x72ca366ffa7a4dfb; 0x422558f11d1b926f; 0x2c8f3d467f9c312; 0x16c863178d62364e; 0x7170e46debdecd1e; 0x4dd1fe7dfdefeff3; 0x94126ed327d7943; 0x1fb2be405c41abb4; 0x6d023b4c4ed96455; 0x40054052c58b904e; 0x3db1645fb9ca09d6; 0x4267441382d46a9e; 0x46d8a261e9451d6; 0x6de7609a6cc9f89b; 0x4716016084607e51; 0x7f0299df6df1c365; 0x28874b28f236a6f0; 0x7bd7b4d1d970acaa; 0x5af82281b08dd032; 0x784e3147110ebfdb; 0x6b417db9484daef4; 0x4b9184624a1c6208; 0x41c6f091865de853; 0x2cfa1a7a83dfb466; 0x54a94];
   [0x41c089d07c8adf38; 0x1ce6e0972fb87808; 0x3bc53c8b0efb2566; 0x717bffd408b8a0ff; 0x76cfd7debb0d4f87; 0x9bf447a239b3083; 0x5c964ca30ccb86af; 0x2e1b39d027d94be1; 0x14fc7626cbd1f120; 0x709e66dded225016; 0x3521cbcce4e0f99f; 0x633f21a5c120f0d4; 0x27fe873ae797cdc0; 0x6fdfe3cf16396e4f; 0x165c2d0fa9dd47a4; 0x55c6efa80a5b9575; 0x3ca571458d89aa18; 0x7ba30c7992a8db69; 0x52ecdf36d7e5de00; 0x25bf311e14aae44a; 0x1a8b19d49d6f3332; 0x4c3b47d65ab640b2; 0x262b521298574b02; 0x17b4974a24cc506a; 0xc255a579f3c0dcc; 0x21c0b04eee2da58a; 0x7d60894f7a3101b8; 0x2e7dfedbdfbbf5b4; 0x1c022a299a5f51bb; 0x3a9946db99d5d985; 0x1cd271575adc6fdd; 0x7d30149478996f16; 0x1464bcad43538e4e; 0x1a855f532d8585f2; 0x552014d1e447725b; 0x16c7509e14fb0a14; 0x57070b62d7be4ea5; 0xb2183b9acdf53c7; 0x1364a963fe6c4717; 0x775d3fa129cd1b28; 0x18ac97815db88157; 0x5468b00e03e3d92b; 0x5000233a45ffd601; 0x529ca45cc4b2dc50; 0x953d4c3ddb2f21a; 0x26d8071e1f022f72; 0x7e4de3cf252b92f8; 0x7ffbb2a3d2400f35; 0x2f27462c7f4e94a; 0x300134a9af654b71; 0x3810a0c96d9130bd; 0x2a21072e4b788e8f; 0x791903248ad17979; 0x6fd2d080feb0d613; 0x31d95243efd025bc; 0x7f6a337377a67cc; 0xa6077db6bf53785; 0x661342f9bcf51c93; 0x11d1b7481c41815b; 0x11e6caab4eea3796; 0x276703c56b9752e3; 0x7991c09fb812df78; 0x33bd27e68e3e26d2; 0x5df2b2d7af455c0e; 0x5e38d39630d5fdd6; 0x24c14404ddba57c3; 0x1e8a31356b07a8d9; 0x4ef65866c57edd2c; 0x525a2296d4f01a3e; 0x4fd89c3c5b8a1351; 0x7778034d4ad58b0; 0x7655a3c5e89612cc; 0x41c4a4bdc16d0c16; 0x5cae8223e5afc264; 0x72ad81644e86ebc1; 0x984f6ba2943e00f; 0x64435da988e0033c; 0x50000cf5c621dab6; 0x54f827d9f828828e; 0x3889a7c02df4edc; 0x49c5231abc69386c; 0x73e4d642cb302a7; 0x7683ed27e543bfcb; 0x4d994ca213720b18; 0x67f5847d71843311; 0x6221d9f659c35151; 0x3f88af296aef2844; 0x68b8ec8a6360dc58; 0xd62c29234dc341; 0x3e4aa77ee0a78593; 0x117fc7c70d98c3f; 0x4d886b6635e321af; 0x3f8458b10efcecae; 0x35029e4980bd175c; 0x6517f09e0735cd87; 0x4d4d6af574c47193; 0x49e661143611257a; 0x651f496e0e29b420; 0x24ba88725fc5f3ba; 0x368e728a294edbb6; 0x4dba01494cb9daf; 0x4c676bf09dcdb913; 0x56fa976000bbaaec; 0x4e1d45af4470578f; 0x37333b4f5f904de9; 0x33923d2dc156d61d; 0x4b38e00e8ae01104; 0x49cf34cdea10cfc4; 0x4cc51c6146e9074e; 0x235510498dd00131; 0x1a0cb633aa5b73ce; 0x59f7109a30ce1317; 0x3b7e0c7c86292936; 0x7848495438b5f647; 0x5501d71311eecf08; 0x5251ad780bf1f465; 0x2052fcdc8b9591f9; 0x74a531ab73213204; 0x6c2eb1aef8a679b1; 0x39c26fa79e08b106; 0x771e449dfbf274f5; 0xdd1f01dc2c57c49; 0x34dc70bcc87d28de; 0x6a229752fa8358e9; 0x67a64ed16c44d54f; 0x6d62d772db5e1bdd; 0x3291b35affb8cce5; 0x7d76da37058364d8; 0x397388f0bdac694e; 0xc37e6566f7d3a03; 0x26cddd3b9b6e131c; 0x15e6e644baf2ba74; 0x2e0dc97e8b811f01; 0x1b7bf32217c9fe68; 0x507452d4794c814f; 0x31a0c5607822ba21; 0x7384692ef4fc417b; 0x30e9eae6be8dcc6b; 0x3fd2ee6fc779fadc; 0x49c889d27a1b33aa; 0x43b13b54897c7a41; 0x15fbdbc05ed96eea; 0x2effc4e10c7c001b; 0x4c53d7ab21ce982b; 0x242ff2acc332f51d; 0x243ef658141c99ba; 0x5b2c5ebb0a8be2d3; 0x175557027cd16f86; 0x713f72d53d7be873; 0x5375de3dff389e69; 0x7260be379836d07; 0x17da398c81abade0; 0x364ff749013e4ab4; 0x769f1ededea5fcd4; 0x25cfb0dc66df2203; 0x312205a926b0eb0b; 0x4ca2c563baa38e0b; 0x21c5c12fc944397d; 0x5d1d1cc789f9ccf0; 0x32ad8fddc2de53c; 0x17ba963f273781fa; 0x4df6390182bb754e; 0xb299457abc72fc8; 0x405c8521d9ae638; 0x6bb186d76b8e013a; 0xebbac99b2a1d3bd; 0x7b5f65ccf046ad38; 0x28b24f55bb67298b; 0x66ec7b710726b10e; 0x6f3d2e027cffc02c; 0x74888e558d1a6759; 0x4c48936d5c45b473; 0x39e6c347ac6d7faf; 0x6b2bc0735b24580b; 0x1a7927f7f883f0ce; 0x53106e8dba83a92; 0x4da92504b680beec; 0x69c29aadaa7aef27; 0x710683772d18828; 0x35714388ecd3c99e; 0xfcfbb6e0ed394e8; 0x2b5bb155d03fc7b9; 0x65714d6c60c29754; 0xc4cc7ab6747e72e; 0x64cdd45603827126; 0x6b56a97b1a451c48; 0x302584d06534826e; 0x510c19cabb6e7d1f; 0xb513cd71310b552; 0x78143f5666a40ec5; 0x7998712c273e23e1; 0x38d18af4922f7ad; 0x1aa7f7b24085f956; 0x8618d9bf9ac9e5d; 0x6e91e383396dae0c; 0x40c0f689c4516f1e; 0x4d832b65a8bfc9f8; 0x244d1c334721ad6e; 0x7f89d6db6316f059; 0x151cec31a179ea81; 0x4e70617b07c02f78; 0x6bbd3533be2b5b5a; 0x589eff4aa668297a; 0x2b96d76ba3c8220c; 0xf5ecda0abec547d; 0x61a78e09dd5baefd; 0x74776d212c4d71e7; 0x7f2acf13fd1069b6; 0x1accd9301b23b799; 0x5763869972b45da9; 0x235cb9fb0babafab; 0x2fa8569911158967; 0x70d00e28f8a89c98; 0x670c5cd2a48e35b8; 0x62401a9bac1a3fa; 0x2672e246610f4c26; 0x38bafebe45de90d3; 0x156d014d57619283; 0x2b8d12b65cad78cd; 0x6bb5a33dae60f0e8; 0x11d3c0d0fee4dc19; 0x7b9a74602af3aa10; 0x77a971707fc10393; 0x11647f445dc3bef1; 0x283e63cf1c7dcc7c; 0x99706ac88fe59ce; 0x34a86a37d07b42a8; 0x713cbfa605b1df58; 0x7308270dc7a773d0; 0x1346792f92be9b3c; 0x34d5b9e4115cd7a8; 0x70a1b1c35322d9e8; 0x6b6de30baa4cba15; 0x303c3aa405c76efb; 0x217cd195161e029; 0x671ed3e643827cc2; 0xff800dcd79a0f0a; 0x7a7140456f6c5065; 0x546260f611ac2c33; 0x74b3624a6789103f; 0x3ed320db636c5843; 0x19be0ebfb53dfe3d; 0x21edb1224e830c4a; 0x4e597d2da4c4c3b3; 0x746a21321fba5903; 0x117b6fbb550ab9a; 0x3d05fc5b7c2df58e; 0x50af52b9a44ffdcb; 0x282ea857de1bb6b6; 0x537fad9bdf85592; 0x5b96f9bd9286b57a; 0x17caf6d7e597addd; 0x473902642d186a25; 0x11a040f4b54ecb3b; 0x2553570db0ce15c0; 0x275b4ae52dea9768; 0xc89ac4429613618; 0x68e49fbf97ba8149; 0x75bbfd4d4e184be4; 0x4925419c51cb615a; 0x636b035704616273; 0x19328d8e51544ada; 0xf842f0c5826067c; 0x2e61dbd2f22aa451; 0x527bf4a179f251da; 0x3846f897dd586b8; 0x6d6f0d434d09aa83; 0x8f84aa2156325ca; 0x1c223863f08e75c; 0x2bdc4afc99a82281; 0x7ff53523f9297ec5; 0x6a297b74e35624d5; 0x6c882d62589d1d3f; 0x3393abb0585afde2; 0xeca6d76d5d8a9d6; 0x162f66fb884ab95a; 0x247be5c1899a81a1; 0x3d2937d4e3c04a12; 0x4d8b89bb99b69539; 0x301e075ce385d612; 0x281c12062fb6873b; 0x4ff38b39160ba5d6; 0x27137efc40e470b; 0x75e3a7037647b236; 0x1c9fbd84cdcaf34e; 0x4d86d748379916c7; 0x72bd66e05a5a2148; 0x599616e2bb228726; 0x113d0893d46a5da; 0x3910a35f632bb803; 0x5126d9a3b36246b; 0x4af009ab8723dec9; 0x1990e28e934d64c9; 0x5ceb98523d43c3b3; 0x198ebd3b0a87913e; 0x2eaf2cb0cd777d09; 0x4384ca3e60f0b406; 0x5f73a8a493f0004; 0x3596df16ea932a20; 0x509e2875ca3b7f3; 0x24f740b4d8c7084; 0x65b9a2e9ad84c913; 0x41203ffbe15627fe; 0x5651e752fe7b8dee; 0x16c3d13b6daa8049; 0x5ba177bba2e3794d; 0x51da2916499f4a96; 0x4305b92d3dda58b6; 0x2bff6126aa34f935; 0x7b750d4fcb1dcf03; 0x22e7b7bd143e66a8; 0x42d562e1c87aef0e; 0x303b3eee8788e028; 0x24c473751dba4b25; 0x504beb6985d85f2d; 0x1176a27f0b170b65; 0x3fca6ad732b11bf6; 0xcb300];
   [0x6d077d3f39c63130; 0x48c445a6a19b1304; 0x6848008ee87d8cc2; 0x4a56217a025b0f11; 0x23b533626ced5e2f; 0x4226abe8ec0e9b67; 0x1ea59d393628ef5e; 0x2816962312c11853; 0x61f73c9312f83fd9; 0x707d8dd6376c9337; 0x114c49ac025b0176; 0x578e198fd519040d; 0x57b148923327370a; 0x3131623a9393f5e1; 0x504603801ec0bb56; 0xafefc19f559b01d; 0x7e65a5948b7fc0ea; 0x6b730a60a5482765; 0x62456ba98c2020fe; 0x14a552101f76031e; 0x6c52fbe1431d3a4b; 0x5678b4145f60f522; 0x33653887e8e2f2d; 0x7ccf2e136f22e4c; 0x127ff467b879acb6; 0x27377efe3318c768; 0x5b7a87f61b1a57a1; 0x21beda73d812a818; 0x3d9b95752a06de64; 0x24d07a0b6193441e; 0x7747f7b0d06461a5; 0x4969c97c8f6ffdf9; 0x729a137e82057356; 0x435dbafe0a3d68e1; 0x16b4b88418feb6c4; 0x7ac7c22c949b46dc; 0x29945f00d907a9cb; 0x52250ec0d0acd2d7; 0x3f4dc8c05ecfcf5e; 0x582ec331f6572bbf; 0x2a6c900e751c7e11; 0x38ed5725fd76bd84; 0x1eb245d37f35f02f; 0x5ffb1098e33984f0; 0x56bbeb95dbefc2fa; 0x32f04738d5109c2c; 0xf71ace4e599d016; 0xba2372014da44fa; 0x30d7dfc3b372d2b; 0x3b09f32116acdcbf; 0x3a86a6e1d28f5c3d; 0x29fc074f9efe4232; 0x61e08f565a4c4327; 0x15e7ec7db79c74f3; 0x357eb33a86d688ca; 0xfafba276c4dedf; 0x6582fcbc1616c52b; 0x5c948fb0a02c9ec7; 0x28af7b6b550d600a; 0x74eb52189605c2da; 0x4a31509bca22d818; 0x203d2a12bd6e1e12; 0x2860e687b78c4c0c; 0x6ef832c5f6bdf40e; 0x2983910fca198d2b; 0xa7dd9fe9ae9ec; 0x18b1ccd08fd2af15; 0xca1d02f9589e116; 0x2b7ec0b3f32f3b63; 0x21bc759a46a640d1; 0x370474090b215a17; 0x439fb033e16aa7b5; 0x47afeb66d3af59ad; 0x68275ab93cd065bd; 0x4a117cd6edb211ad; 0x373fe978ca578b43; 0x1f9745565bf34f5a; 0x4413a13042ed6976; 0x375fb327b74c080d; 0x6ab26f3b8d2d4050; 0x13ca8ebcff48b016; 0x19f2af51f345f28; 0x75efc9122749d5f5; 0x3e61aba58f4e82f; 0x19d0be4c4af8f172; 0x765ab219ef6d0141; 0x1749f1b1770ef2f0; 0x52265e2e212eef4e; 0x697d9482d9ed62de; 0x118dd436c278213b; 0x4587326397c5db54; 0x273a4473503c5957; 0x3e915891a83045f7; 0x5a2385466ce6b7b2; 0x3d15c9991c99bbec; 0x8331753dd8c08b3; 0x4aa57f90b7322878; 0x303224b6c68c3f50; 0x94f276fb5fdca94; 0x7dce46755a27c98; 0x3d688590214b95b0; 0x17222d8bc1b72cc4; 0x57938ff802414628; 0x206a9482ed145b01; 0x11d146252b5c9d47; 0x5e1a88e6f9af6743; 0x25bec16e2da26ff4; 0x739567451edafc3f; 0x3cfed2ef938bfc87; 0x56ed0909ba93be6a; 0x19fd71f55e7fab05; 0x380e14c720c104a8; 0x23761fed6f56e446; 0xc59ec2c5749086c; 0x4c0675bd450bc2de; 0x6fd2a1f9d867583; 0x3cb62ce82341c0ad; 0x7fd4841705d45e2; 0x4fcdf0dc8bb0041d; 0x13e993f020b729c0; 0x96a66a4807f90f3; 0x5dd82627895a1000; 0xac09c5e3d31b01c; 0x77d25ac50c354b37; 0x327017c583d8569c; 0x42d43770b15bd48b; 0x50925b4c222907ad; 0x74e39966d4fdeab8; 0x119ad69be87e6821; 0x7286c6fbcdfcddb1; 0x6e37bb621cef0e0f; 0x67197e6ac382913c; 0x295efb842bb0c478; 0x3d8df75a6841ab24; 0x5a084f85af2d9461; 0x5ae5956bdd7fb773; 0x73179f96eba434ba; 0x7cafc1a9d0b90cae; 0x706167d7496a807f; 0x68cee9159e7c1eeb; 0x4e2a099a990ed530; 0x30c3bee10ac07182; 0x40339a40108dcf2d; 0x7b44f95f242b05bc; 0x377de4ccc800f056; 0x317dd8153e8f31a; 0x18c198a98522b7cb; 0x2dc1e53c80c1ce85; 0x4f4a79dbc03fd370; 0x4d1624b05f10d6b3; 0x654a5ba1d64a1cfd; 0x5c3acfd3f5ad70a3; 0x3b6b7e03f652022c; 0x3d3d7ecd7caa7528; 0x645e307d4a13edf6; 0x1b60456f2eb1efa; 0x229af4e3529403b8; 0x5580dd157b988134; 0x7e733f8458b4cc15; 0x6f81569ab2a0697a; 0x54d8e0ae533cc526; 0x66a2683355860b9; 0x24a48552157f1e54; 0x22ff04f7006a8d52; 0x70879737c320c29b; 0xa3f17eb57150f30; 0x2d70b425f304e159; 0x4d2a6b3f9241c352; 0x537bb6f2d5ed2bd9; 0x5c85a8e6b7d39444; 0x5f4eae8a686cfb2d; 0x49ec78f600020ca8; 0x3fb42f8c5c61ef27; 0x6c2be908b9f1e131; 0x5cceaa7951c05965; 0x307e87951a3b20e9; 0xc09c34c3ba39526; 0x1330bba1926b0a00; 0x6306dbff10547d72; 0x7a04091c977635d3; 0x7075f081776100f; 0x660994945ef15a9e; 0x6679962b668c26e3; 0x2849e2a2cdb7d9dd; 0x4e04173e3110edc3; 0x62a54861c148cd18; 0x3a0c42bff1cdadf2; 0x851c62b49ca4f8c; 0x67182b7d5216ca7c; 0x43d531125c5a8925; 0x54bfd533278a0c82; 0x70e76e97eda25e6f; 0x6041790d55ed0bb2; 0x4bef85a1577b198b; 0x6e3b9dfddc2290d1; 0xf15c2d6878161c7; 0x7479def154be3129; 0x997f1f0c65cde56; 0x4a3f074eb9ef8699; 0x72c11fe58889f74c; 0x1b2224671f500982; 0x5a03e1353d9019fb; 0x1de48965662a14cf; 0x35e24bb5d36ba584; 0x5b92093b969053c3; 0x726c4ac498dd73c; 0x4992b534d52a1949; 0x63df728cfe9295e9; 0x37dcbdd0147c616; 0x105a7ab293d8a476; 0x77164d49c92efbb9; 0x34bb84d8a8e81e2a; 0x17b9b404251fe9d3; 0x47d9184bbcf85644; 0x5dd33c3f8233274c; 0x23966e233dd61e3; 0x212b86f433d2da4f; 0x59eff05dda39480c; 0x1d90bbac846f7595; 0x5973ce99883a8e00; 0x34eab1fde75cc575; 0x16ce3f75ae77fe0c; 0x33c036b681e62cad; 0x5ee0565022ce5a7d; 0x458307fc56f7ee55; 0x38fa24b9834d362a; 0x23499931b526ac34; 0x9afe688f0e0756; 0x2160755e638f6809; 0x12a5e66207eae1c; 0x1e2a1309998400b1; 0x250ff925878f4978; 0x1a5511b3fce4bd0e; 0xd90d3f89bba2dcc; 0x230c536803b1f94d; 0x7c9a74b1bf214eab; 0x358d53d2e59201e8; 0x4e8a77eb2acb0cda; 0x418f09dbb5b6e679; 0x195755980b4a9199; 0x69e621fd607b5ccc; 0x86dd52c187cbd79; 0x1ad81dce3347fdf5; 0x352ad6d2f63a9ca2; 0x1aa12ced99466d1d; 0x562286acc348489f; 0x4d2defe1fbf1459d; 0x4f6a844cbf3fa8f7; 0x2874ecc42fc1e6b2; 0x658e846e3bf21e12; 0xcfe2e9cc91e847a; 0x6c3d9ef898030ec8; 0x1ef3a19e882791de; 0x77161e3b296c0126; 0x3bd13862db86fc65; 0xbc582ba3b4108d9; 0x7e9c3d9b8a12121e; 0x675fcaeb52c722b4; 0x7c4b08d524f7904e; 0x23576b83c868fab1; 0x7a563864e5d6d858; 0x7bd89e4936da807; 0x67381c0f1d54b6ca; 0x6df74c6bb603cdb4; 0xc512e4587fa2240; 0x509b8582f89b2f72; 0x5cd5e67b3583f5d; 0x6ffc1d9ac16f6fa4; 0x5d5d03b41c3114b5; 0x5362da4d3ade78a4; 0x331a1d8fc2b2b6c5; 0x2fa69c4cc7da1a7e; 0x3cd8002e3aea2a8d; 0x5fc50bca51e96190; 0x5c9f8087cd3964e9; 0x26a0bea08c48b5f; 0x4ab5c0f04b6828a9; 0x251b4dccfee9043f; 0x6bf63067aede0c9e; 0x1407fcba720b4e7a; 0x41989a6b29b91348; 0x6e01131094439563; 0x716f8e8b2bc1127b; 0x5d95ba1871b6db03; 0x4e15898d40a931c7; 0x766e2018373d18c5; 0x3b2d12c3a95bd0ef; 0x46f0a0c1007b3ffb; 0x242794952e15f04; 0x766e3da7755e405a; 0x28bf0387ac18a902; 0x66ec0bd34d1d97f0; 0x7669dbd399a2de13; 0x21f48664ae5056fc; 0x2ce9e8017b4408b9; 0x5afcc2126c57489e; 0x31f828abd7108e22; 0x75b04bbdfdfc6b46; 0x199bdac84ad0e69c; 0x3c780f0155ed22bc; 0x52b12b23ea686258; 0x61c12094d0e9ff32; 0x501f03157bdb4da8; 0x42ad8c5265d55300; 0x2006585d63119603; 0x39bbb7f07e8111eb; 0x6bb124c22c49757f; 0x3f2d150316bf2efa; 0x63d8bf1c189efec3; 0x6638ebd69439ec40; 0x391c59af66306e07; 0x26628119b504a342; 0x3723366ca8ffc466; 0x68daf5f8216ace25; 0x3465e38992726977; 0x985bd5251b17de7; 0x51d4aeedfdaa917d; 0x122719];
   [0x4ce9803ea377373c; 0x6b2ab9365faa5a9f; 0x308e4ccb4202c104; 0x1bf85c6e3f91792e; 0x4082c98cc82b17ab; 0x6b8a90c3822db94b; 0x7ddd5e41bc3c845e; 0x66a91a5510cb59c6; 0x6d788230943babf4; 0x3b03fa4b82724465; 0x34d06c1b5235c2dc; 0x63122198fd73963c; 0x3500968a5e80ab3b; 0xc1faf67a3a7a090; 0x420f984b85928435; 0x6793fe912339b29a; 0x52e8a49a5c1342af; 0x268d081fdac12f6a; 0x6a905b92acede08d; 0xb44bbc77b1af1b2; 0x35f3a057c4742678; 0x3e1ab2adadbc8d40; 0x503a3087ed58e5b3; 0x6dda1c73ec5df7a1; 0x37c6348185a2f6b9; 0x4b264221656ea6c; 0x46d596ec1611197d; 0x7b91c1017b4c696a; 0xba129817aed6c54; 0x49ea582832f32703; 0xfd453fdf750e33b; 0x6b87eef243ddbabd; 0x4b08e46dde4266c5; 0x6e27e63b65ef1f51; 0x6d8189e8a2e6b07; 0x6b1b71d8d7c1c2b8; 0x1929621f91b63678; 0x120ba4f5b826ed6b; 0x383ce98f03dfbe22; 0x2e66665b5ace62ac; 0x17b4d0d186a4eaef; 0x55a7f52d34798f15; 0x316c614fcce2bb6d; 0x1d228069d24bce65; 0x7653e8db53cee602; 0x109da4a71b5747a1; 0x651b67a0cd60b081; 0x37834a834668ac45; 0x52519bc8602a062d; 0x5d7393ac5fe4160a; 0x1ed6ae56a6883b50; 0x2ca25ea993dc99b8; 0x532c8d0f846a0cf9; 0x594c556a6beadffc; 0x3cc238a0c725c7c1; 0x39342eae15093523; 0x2a593a042cee2fef; 0x6c2f5b67f1de8a38; 0x7008929a2758725b; 0x551122c464cd7905; 0x4eb63b99dc9582ca; 0x2b8ccae023297f46; 0x11cfb9123054455a; 0x3e42860ae64c4b24; 0x2e86cf531afc40a7; 0x2d7a77b388477255; 0xcbacfeeb7423f6c; 0x7d192b482241862b; 0x6d67cbc9d9e4ea02; 0x323b307346ebd643; 0x21bce7b6ba6c3e01; 0x383e36809f4b2ce0; 0x42200ba97822b6b7; 0x3ea9525a19b63fa7; 0x7ad90a8657b752be; 0x1ef422420f4a6066; 0x324ff1fa0aae7710; 0x388da1a5b2bc1f6d; 0x338d0c5435c081ea; 0x1f817fcdd0de0ae5; 0x3092c1aca908050a; 0x3a7b63a3e0a897aa; 0x7b19fb373d642887; 0x517aba1cf7fc001d; 0x418113a959db2c1e; 0x13d7fc28ed67ef50; 0x48ff5577bf406faf; 0x35c4b3f262b38c36; 0x2986e649a471f4c7; 0x63df618a52a15844; 0x232c65b2db2a6c55; 0x698b69ad4f929de0; 0x33deeb280e0636f9; 0x78cbd15b32097110; 0x5640c709365dd633; 0x53f6be2a607d5c0b; 0x5671592c908f11a6; 0x76d3ae035b63cf44; 0x465a453b675349eb; 0x50d2d380565c27cf; 0x585ea79334bd1233; 0x25c1a7670c368952; 0x44509087c7a37934; 0x64901cd1187a294c; 0x5b7d33e56c25c456; 0x43e0ab959efb0e07; 0x72ff59d93d7a0931; 0x5bd8f70eea24bfec; 0x17a7f6be2183cc29; 0x1864ddad3636adaa; 0x6ef7eac7da3b8762; 0x6588947b303a116c; 0xe0c8b4b3a76cd92; 0x1083c5c80f296b92; 0x2b159163ba60bfc1; 0x7f8f896a6cc1c34b; 0x31d5e4775525465; 0x47fcb26c854a3808; 0x56fa7ae2eba53506; 0x1228849598fb6d84; 0x5b31f13363bbceff; 0x58c250b93c02e71b; 0x47ab8b6010ee3194; 0x7680e3f5482ac7e0; 0x7e91bf0c2a1d290; 0x1b76df2c0557c980; 0x25eb4d8e33912447; 0x2613b26ed4bedae6; 0xe235574ba0befa1; 0x3c66979cb9dcfb14; 0x27fdeb2eaca53e34; 0x3abfc3071eb421ae; 0x4950aee430f68c8e; 0x581340bcb4194875; 0x7fae7ca9aedb220f; 0x5248645052260c92; 0x411afb36c6c31c14; 0xa507a557d885d68; 0x3a2f88fde412185d; 0x2d6740b05972fcc7; 0x1e75e8fd1f1323e1; 0xc29367e56df158; 0x3f1095a1b0310f7a; 0x3633decefe1e6465; 0x6df856fa2925ef0b; 0x664f0f17eef2a72c; 0x1f816501630319a9; 0x6ec2abdb6f983d17; 0x72cf0018ed9ff219; 0x438a364963f3a8e1; 0x6db2ea8bc3f04b3c; 0x2210070941d5f2e1; 0x7a5c832871b5802d; 0x2f66c9ed36623a32; 0x6abb3e0bbe32bbf4; 0xcdc959824bd5a39; 0x3396c76888e7fc0; 0x44cc6ab2cc95c61f; 0x1e8cbe4004a477f2; 0x70281f22e01067f1; 0x3237183f846d4a8b; 0x227e711077f992b4; 0x6c787d98232f6414; 0x573fc9de7b142858; 0x4c28a8c78ba06ca3; 0x36e5b884c371f8ef; 0x7e20645c9d9c2ef2; 0x5cfbee1e3f8037a0; 0x3dbeda6f1e530d; 0x3bf5f1cf02c94513; 0x45fba97cf26ed075; 0x67686642c26e2872; 0x3b9578414403c3e6; 0x6bed28cfffbb2c82; 0x6ce0a96704ad2873; 0x4e613806eb8818f1; 0x6d81d5837f3d38d8; 0x4cdfd6708ecd3278; 0x163c6289ac510279; 0x43677c433a94fb62; 0x7125bf82ec39bada; 0x1dea08a0318ee30d; 0x13606ec80e02bf79; 0x73f8505f51fd6655; 0x5bf41b968203b983; 0x2697ec518f59ee4b; 0x31de9d5296ad83d4; 0x50967d20f6fd72a3; 0x645585e18f0bc511; 0x6d3069ccb52128b; 0x676750c9a16e7875; 0x3c68504361ae8200; 0x41436c96f95ce9d2; 0x7888e262cf15aa5f; 0x1d6e4b418e63f4af; 0xa1fbe7262074fdb; 0x5151e84a8a6710f; 0x13bbf6bdbba76dc9; 0x6773d11310bea524; 0x736fce680b7e0b5; 0x494c4cfa4a24f723; 0x31152db51944da8a; 0x3fa4def211c0cf51; 0x2db04d8815387379; 0x637a4657add2adc5; 0x302ec65cc542e692; 0x78023f540b24cc20; 0x1de56f8634c8e91a; 0x5de826d7aaa96c7c; 0x4e5fe62f76252bf8; 0x44b4731495d96116; 0x41c1b039791c92ed; 0x34ed264ac074c1cf; 0x2f93050890423ee5; 0x56adb1160ae945df; 0x5dd522c3d985f022; 0x4deffc30df594880; 0x74185d7ca1c0407a; 0x5419858d07533fed; 0x3c351b6d08af0444; 0x2eaf8966c3413695; 0x463162f0aefb831b; 0x5cd8024625c0cb6b; 0x554e9a2d2548aa5; 0x4a5c7c695034cd90; 0x6fc8e86de77ca66; 0x5d4a4a1bf9f555a0; 0xaaa8b2e105d469e; 0x18e0ccb5d86f29d7; 0x25d0b05350b9a728; 0x554da715c71e4bec; 0x358517452c98a16f; 0x4155b53dc15104e0; 0x540442456ac7ea3b; 0x64dd5710e2d02cd0; 0xea3eb2876a5de53; 0x489081161dc31e2f; 0x2223663b6a017bed; 0x4b6519f35fbb29ae; 0x1731403e06d8a6d9; 0x3cb725ed83419c57; 0x2a72c99af2c3b366; 0x7cbd9b5b13c97d32; 0x5c200c1b5164da8b; 0x776ec8c57b5e3802; 0x38876747fcebf6e8; 0x57ea1df63e39dac5; 0x6506d90ee2b7ba; 0x7e9f7ceb07c4737d; 0x8a7edb9d41da64e; 0x5f7477893970f1ea; 0x389569e7d724f2a1; 0x4f11e2bf16a8493; 0x114548dda4abaf77; 0x74b61ed899d9bc5b; 0x1bdd940eeecab706; 0x46c8aa3ee9f2cacc; 0x6c56f6507292ff54; 0x255441f4d924d2f8; 0x5b62ff75ad0380e8; 0xa2cbe29d8dad6ab; 0x4f89c687fbd6421; 0x35ab440b0b8406c0; 0x4a4132e473149d94; 0x367e69129b89a172; 0x39ce235ed896aefa; 0x3636b603c3f41c36; 0x44dbf868fd690218; 0x64d42fef58f61d9b; 0xabe18f75c826298; 0x58ffd360f34052b8; 0x38ed855c09da203; 0x2533801670a20c51; 0x277857784637250b; 0x4facb52e1a0334bd; 0x6f0fb3ff48a98f29; 0x113727155dda862f; 0x1339b36d2a789d02; 0x4f21680889a79602; 0x3a7be176760e876; 0x674dd3bd9d7b228e; 0x4a5ceb68c5b7174e; 0x11ca1c6d274d1f5e; 0x6bb8b46d42d3a304; 0xbeddab340f64ed7; 0x458a1547f8feb163; 0x13d26147e122061; 0x771478d0c0350ef6; 0x5e4cf2021a18d7bb; 0x7d2b321b3bc929db; 0x3d51ef32db38e4e1; 0x7c7e60ea73ea2383; 0x238d3dea709af561; 0x49e39256e3404a76; 0x73875971ba2935f6; 0x310de63960bfc536; 0x38b2a7adccbc0774; 0x265f2fd289cc2e04; 0x41e1257aea6d825a; 0x7ba1ba73f6569978; 0xa919247a3b81946; 0x2314525037e19e00; 0x2b41af8c8ac6c57b; 0x2e1f13693999270f; 0x123bb5a06c4cef1a; 0x680489d2037c5972; 0x4d6e90e6cd6bc8ab; 0x279df835ba9d1982; 0x4bb36b55b4489e34; 0x28a2293056814230; 0x5975b2d5d96b2621; 0x1e23d5f812ae45a1; 0x6654b49984db80f3; 0x4a7d4dce52bc1a19; 0x7c30dbe569cc572d; 0x76da061c1169296a; 0x34b9c8438c14caa6; 0x1cb218];
   [0x1a9c99dc7f283f0d; 0x7b3e5f43f77d0c0d; 0x37ec2a8534c2544b; 0x3c6b4dde356dfaa3; 0x1d004c04acc9ff7f; 0x25695062ebe39eb6; 0x5b911548ebc0baf; 0x660c3d0a0ac514ba; 0x14cf7055e772c7ae; 0x45d09c2fbd0fd2a8; 0x3a0602d4efe237d; 0x4adc94e60ad7d69b; 0x58d497924429c8ed; 0x4f67979c13c882d1; 0x2905a1fcf142e348; 0x411a307f0f37e238; 0x2851c5e4369a1033; 0x510200ab9069b8f; 0x13bc3f55b39b2e8; 0x27c3d2dc74dd77da; 0x449a2a4358659209; 0x1f6a03371c27d7bf; 0x5f67805dad4990ee; 0x16849a0cde713f41; 0x4cb3ca71f3fd41ee; 0xce497ba28f70e69; 0x4895da5e665f35d; 0x1423d2a3c2b8c336; 0x19774c3eae823f8b; 0x5865a9dd44afd25; 0x44e82140ac1a9e0a; 0x64ef0d3079b5d2fc; 0x5b6a1ba58e0b2628; 0x63d3681dc4b4ce; 0x27b2f5bbac10e362; 0x212135f100222cdd; 0x3a078dcbfc0cacd8; 0x308e6631e3fb3876; 0x390865e455b163a1; 0xa73d2b590622fd8; 0xae849e282317905; 0x35318cd3d15f31b7; 0x47f08cdb7182de82; 0x2b5cd84dd562897c; 0x68f7f9329b6c5732; 0x51f29c183cbf955; 0x61381d1e91bef57b; 0x47b46c04be01589d; 0x670cf5870409d17e; 0x58a9695e1d2b0a98; 0x78670042b9156de1; 0x5a5c025e415cb368; 0x22f4eb8e45f149ff; 0x5c83e328bd555c47; 0x5689a3f011d3002f; 0x834d4640b79a581; 0x4548505facee3892; 0x161a7a243d97df05; 0x40163e7454b30f6; 0x47f3365bd90fa2ec; 0x572549820c924993; 0x4e0007146c8a2420; 0x704aad112840b07; 0x58ed53ffa035a031; 0x4493e291090e84fe; 0xc4e4a98792579b5; 0x4344a3c320170816; 0x123d4793ef54c0c2; 0x3e6e51819152300; 0x43a6d312ff82576c; 0x19408fb1b384d8e0; 0x1227cf52151e4b71; 0x10ecb83e2d4796f3; 0x144532768eb462c6; 0x78b18762516d5e5a; 0x3f5df44ffe998a86; 0x1b834b3dc063ee3a; 0x6f0fa23aa90b78ec; 0x41303fb65d5113ee; 0x6427ff9ba57ef1a3; 0x8891d6d14ad6e29; 0x7f4fce352a5d6f25; 0x16fd81c61645ecc7; 0x45123a63a3b1a7c3; 0x55b6129ec64b09f; 0x3fd6636938edcd06; 0x1d4fc4f21955460a; 0x7c2f9721f65143a8; 0x2af1d05474eb9463; 0x6856a0517df49da9; 0x498ae32c3aea31b6; 0x318ae39caabd519e; 0x1b64ab81dd41abca; 0x5ce7498a6ddb2f4a; 0x303ba97c69090624; 0x46ac68c59243ede8; 0x3d216e26d41a99ad; 0x456a449b130c4a7c; 0x586140a19c9f26d4; 0x1e34688ee5c0b3ff; 0x234cceea6af2964e; 0x55d7c74812500f4e; 0x1762283e9c1b7aab; 0x129edb5f33f3cb95; 0x1495d055f9eaf8ac; 0x4a961cb39fa4e3f8; 0x147a17264909645c; 0x5a5370f5ed9cf009; 0x3a72a902665d04c9; 0xd9f10819dd6945c; 0x97dd8c81cfac73; 0x64d0c70628f51969; 0x729a1102e5e397cd; 0x486008024444c91e; 0x21e866b406fb8868; 0x25b1fef1a6ea7e7f; 0x22d9ea41c1f5bb6c; 0x4de76b9dfa949291; 0x5f10a0b6db39b91d; 0xcb0c7e2f9887245; 0x7c6e99d45b90be5c; 0x28985d7cd577f076; 0x22f1ba17878f5ae1; 0x7bf55d2798d2441c; 0x8cdb05e02f98813; 0x69f2325612e93975; 0x6cb460cf0e38a7b0; 0x212aa9507bb96079; 0x38433ba76f39264a; 0x278e10d049c2e8f3; 0x1209b39509cd7707; 0x713a9fe1c5dcd7c3; 0x70b9b4b9303147cf; 0x1d3028573a5447a7; 0x5a273f23da44ed5; 0x102da943863f52d8; 0x3fd0a3fd8b807508; 0x39c371cd7376de6b; 0x4e3570d3d1defd46; 0x6b8a974fd01e1b1a; 0x70ec590d21cc5f1e; 0x2daf0fcb16f6c803; 0x1538b6db154d64d7; 0x9b6f474956c841d; 0x171fae2881e906ef; 0x3a7871a064aa52b2; 0x741dc2c5d84269a1; 0x2c9e5aad961d368d; 0x5dee63add1a1ca41; 0x362f40b9636f22d3; 0x72f7893bb8289033; 0x6a0cc2f060d086a; 0x62403cc3ea804cc6; 0x1e55299177ed1f0f; 0x5965acb4accd0021; 0x106441f981704b6b; 0x7e3ba28a3cb98611; 0x30994e5142003e48; 0x31233eb2c7cb6f18; 0x4d133987a81e7f06; 0x49c55cb1fd92ea99; 0x3015e0e07bc91510; 0x1f8860b866052c51; 0x4963a013ab2e29f1; 0x137c4e78d44c9e6e; 0x63b1a1c87125c6c4; 0x3dcb3dbea4179322; 0x6e8847afb02587a3; 0x27b9e5368c3e3160; 0x4be36fbbe962dfca; 0x4cb702ae875aa9c3; 0x5c35bdb0301092ed; 0x65e65b27ce5e31e6; 0x2798b7d9502cc0af; 0x6effd1507ac1c7bf; 0x5be1c4d8bc63c174; 0x5098cfd429874e43; 0x2f854335dfaaae02; 0x2444ff37e7191084; 0x183e301645194e35; 0x6cab72cf7b3886a8; 0x4dc6257d9ede0234; 0x61bfc34084b303e5; 0xe17bf6ba34dd058; 0x1cc2a3a826f44fd5; 0x11bc7ee355efd84b; 0x596ef2ee310a8d56; 0x6d6f861f086d566c; 0x46eac677534afc23; 0x7ad9df908911806b; 0x410e343b407e5213; 0x711c308a7f443250; 0x3249c5bbbe0b1ba6; 0x26a2908ce5998c1d; 0x51ee860a130f1a1a; 0x7202e32fbd34578f; 0x304ddc6c5fa7e7e1; 0x1cd297ea3fb30c5c; 0x7185941748f3e397; 0x1f72e8a119303e4e; 0x26c75de7460cdeaf; 0x4a00137350f780c9; 0x221b5955f7ee8998; 0x12aba58aabd466c; 0x49bd3b51a48e7318; 0x44dd55d4e63bb017; 0x7a727f1d7edc6303; 0x48f89cabe937e18e; 0x53e1b834085cce05; 0x515f0e1ce4997eba; 0x73f65793db276869; 0xc67d40169a921bd; 0x377652c0309c0b6c; 0x5df7c3fd09c46004; 0x3849a847887f5e6; 0x398234a46e615127; 0xca7fbd923f25f16; 0x74f3e17b3fa6fe25; 0x2519538563b42c4b; 0x4d6fcbc7093cf237; 0x17795e4d0b4532a9; 0x1c1633d6e0a6708c; 0x756a659f93e6f855; 0x2929af0b5811611c; 0x4445fca0592f15c0; 0x33a9a992892eab13; 0x61dac77bd3045f6f; 0x6f56535696021b33; 0x5952888ad7fdfc48; 0x175f96af67886bf3; 0x14986fdf2b6e3858; 0x638a96bd187bea; 0x3324eb2d119c474; 0x2f00da6b13c81044; 0x47e1cfc22b0fd030; 0x196bfadaa85845f1; 0x4f6bea899f188dc9; 0x707e859709a2eb87; 0x699ce6daf5e2485f; 0x4281efb3dc680fd9; 0x1f759d949034bff8; 0x77e822aff1735fca; 0x6120a6b7467cc16a; 0x5abff6564064461b; 0x4575c5fd4c95cb96; 0x2e1fecf37ecd0cc; 0x2053f8e2ed538510; 0x5afab2b83bf309de; 0x107c088a021e9ad6; 0x584dea537ad330ed; 0x5185e738c1bb1b1b; 0x2f4d2b3022b1e4f3; 0x103c48e601bd782e; 0x3fa7bab7835b0b92; 0x3111391edb559592; 0x2210ccfef6c48a77; 0x245b799c9897977f; 0x926e864e6bcbd18; 0xfca47c772f93c56; 0x72e2e90c80202353; 0x2d489860227ebf3e; 0x148e6e5491bfaece; 0x24a9cbc3106366bf; 0x593d79a971d5bfb2; 0x2971ec6bba273d08; 0x69e14b74cbcf9945; 0x725bdf25e8aac116; 0x2b54456b522d620f; 0x5d5f2615234144d4; 0x1bf42fafa27e43da; 0x528c6840dd188feb; 0x75e773c9c2b6300; 0x78735ddcf765873f; 0x5fafdaed8a600bc4; 0x5d61075f5e5b8b3; 0x5c4b3855cd4ac1a6; 0x5620982a0479fb0e; 0xc1d88e39517e3c1; 0x1a6ccffb5423c44e; 0x2e7cb541d463cd3f; 0x212a46528622282a; 0x38e08bc9f7e26013; 0x570cb803a2132fb4; 0xa05a2f9696ab02d; 0x1d53dda20962edfb; 0x117174b69db1937; 0x1c1679703ffa7d3b; 0x41ee736e08d400c9; 0x79660ab0d1929fd6; 0x6c29efb2ffe30f63; 0x5e71e712fde02a52; 0x3e0bb61003f931e3; 0x58c6f3adac346df3; 0x38b55d93489a55f1; 0x28f21cf551ab23b5; 0x2cdcee28f0752a12; 0x278ad96320b13d17; 0x43219581034ed166; 0x53010cf06f74d034; 0x219201f0c9a2ee5b; 0x5b5ed2bdb8a3ee3d; 0x764104c705da89b; 0x18190a2671afa632; 0x6f0739cbd20f8862; 0x6e7e32ba7778f141; 0x67e8a63d1e523d5a; 0x421d6279ee34026; 0x4cba201704bec709; 0x3888068272cba3bc; 0x5c80d36ae2ce5015; 0x53aad4b6593971f8; 0x544c54a90d4dbc3a; 0x1189a175bc051419; 0x3972d6d0b12bba54; 0x2ec5914ea65ba665; 0x2a818b5026dd9531; 0x1d3850475ad3c22f; 0x32ac8d];
   [0x5096f68e300986a7; 0x65f0f437154bd699; 0x537e76c0b95b373b; 0x474cd2c48b247a22; 0x3784e667a837abda; 0x79f5622c0eb1c2f; 0x71ae311253813247; 0x1d9423c3afe5cc1a; 0x1a60a58a29f06047; 0x43df14cedc6421fa; 0x15558fa862a572ea; 0x7e29e2d7275aac77; 0x7c8ade244ec1af6a; 0x252d10967a02aa6b; 0x519ff318d81ff1d0; 0x63ed455eda13d282; 0xe0bb2cb48f5c15d; 0xad9498994f8be67; 0x17e6247d3b5e7f64; 0x388cfaf3de6de907; 0x2ac1545711dff9cc; 0x1ae1de2983548c28; 0x692f952aebb539b2; 0xb145c0656c67644; 0x572c5ae0568e4caf; 0x17dd2e18cbb1bc26; 0x28b120589401ff30; 0x42f2555b3966af7d; 0x35ed83d639fe9f66; 0x48c3fa02de787448; 0x6ca53daacc467e33; 0x3c6f608be02765c3; 0x12cd1a7321b0c2b0; 0x62c07cdc70e9b526; 0x652a04cb964805b9; 0x7c0021143daea756; 0x5ca35fe1a2b44ece; 0x3febf1ccd337f5d3; 0x56e1222ce5079bbb; 0x2cbee082d0e86a74; 0x61fb1df586158e8d; 0x64fe3b6fa78d473a; 0x7381128f597cc34a; 0x56868f9ed3a666ee; 0x5bfdc5b53ce86abe; 0x48a02c3a11cc3586; 0x723e7af79e00dbd2; 0x328a394d72959e5d; 0x396669c9a2a37b60; 0x4a142cf5c78ec64; 0x3bae4c2e695f6e12; 0x6ba0be5c124e455c; 0x19ebceef94766519; 0x1fd6f2c4cf2517bb; 0x6bbce93283532f23; 0x3e3b609b6f126c16; 0x6ea6343903354f2c; 0x3b7673a663b6a40e; 0x64f8e6f8644bc17; 0x59ef8e7e125bb0b5; 0x39a73dbbaae82a58; 0x102417a07cc3796e; 0x585afa5271675446; 0x1a24ccfda3e2cc27; 0x714acc673ef10a9c; 0x5d8745d33732cf77; 0x7495f92c4392c7a8; 0x7ac96c5fe8c542f3; 0x8f85232e30033d8; 0x5a18a014a565561d; 0x27dccda3af6caa0a; 0x53e82c1032d2ea5b; 0x6a352a7ee4c430b9; 0x30d569ee32f5786; 0x1ea2f33feafca277; 0x44889131f31b76df; 0x154e73f7b25d441c; 0x74aee4f15a12a29a; 0x7cb467e8cb1afe94; 0x70447a7b8f631451; 0x5721c11d659792dc; 0x64e80c1230721727; 0x703860c9d770a1a4; 0x56a114622f08c4c0; 0x1810cf599fd31823; 0x60b9359b1472d4d7; 0x116afadf966e947c; 0x7658176eeb6038df; 0xd01a63776deea82; 0x2e56b052c89ece2e; 0x2e2381e7841abad6; 0x3b0649b5a73cefe7; 0x627d848a6524988d; 0x7fd071f5077a0907; 0x74e1f94721b40c83; 0x53668a33d8bb92e6; 0x514fb34f119bd659; 0x177c9eb8956b8667; 0xb4f224b161995ed; 0x4d4dd5bbd3ebd959; 0x1ee235713dcfeeb9; 0x3eedc9e591ae01f3; 0x4b6c67bf8a6e2fc5; 0xb5b9767684305df; 0x3f348e1fa676b9b8; 0x6e103c851f896feb; 0x20dcb8151449475f; 0x1ae89c73b634cc4c; 0x4f47a957df58ff83; 0x42452d0a5d9353e0; 0x751292cd5e1a8d1; 0x3412a72207ba86e8; 0x2646b57997d914af; 0x18a6132a34c0cea8; 0x20345d1a95e26e59; 0x8b9ebecb715d8b8; 0x435d36b36b9d5566; 0x61c68d0433d45e22; 0x79e386f360f5432f; 0x360cc4e242804136; 0x3b09b6072c2f0a1e; 0x306fb8d45b0c75da; 0x3e99ef449762bfac; 0x6e739613a64f3693; 0x28a54fa909d78ac; 0xe1081f83610a4db; 0x6ebd3a087eff03cf; 0x1f49ba474e9a028c; 0x165fe064b8169ee9; 0x7b6fbdc410e6b0f4; 0x3da6bbe51f6eabe9; 0x159c231c5d882c70; 0x43a4396d2f233032; 0x6dd86d7244cb9c9; 0x591662d920b45e18; 0x70917c083db13a34; 0x18fad1f573105a3c; 0x3fc107e394a53c40; 0x7433013b50de67f5; 0x7c16c8a9a4c33194; 0x400c49f229a735bd; 0x489f61ff2a1e2a8d; 0x9b61c4954ab856d; 0x3e4603cdb4ac85e7; 0x317162daef356003; 0x41319251c281b058; 0x7ceafa1784a6c2f4; 0x355ce1c0d4c9e8f; 0x70961d343d2b383; 0xddaf6501eafef79; 0x212d54a9a362479d; 0x7b9068cbed5fab28; 0x34a7965d5e823929; 0x7f287819cd916cda; 0x73cd06ee6b77f780; 0x44e143269a0556be; 0x5a82ea976e7c9289; 0x725de75adadfcb52; 0x64c0f8399ec3b3fe; 0x734ba856b7ce19d1; 0x28a1132a4e1b32a3; 0x4e4cbc2af4c42391; 0x87898b29e968966; 0x1cab02641c3be0e8; 0x69cf4a36ac98799b; 0x1b871a250c7f649e; 0x50379fcd860ca104; 0x73bce7ec72344373; 0x21350f913912cd28; 0x35710a0660c66ca9; 0x3a9bfc103cf063ae; 0x49c68b9360e55275; 0x62cc5b3e6a7e673c; 0x748c15c96a23c773; 0x30246a117ff2a6cc; 0x2fd5ca0b5c61971d; 0x3c9283dac48e04c0; 0x45b3304a77a0e7b3; 0x161bdbc1cb03e4d7; 0x1c8e00ae1ec33eb5; 0x4edf330303131c79; 0x114fcaa4ec2b4e53; 0x74384578f6e77f8a; 0x2d07119d863b0aec; 0x42ef284632b1a052; 0x3720fb0e18cc7063; 0x412cad474f42e38a; 0xd30cfc75892705a; 0x1003929d5ca61e54; 0x2edb15817de727da; 0x52ed3c2103a64728; 0x797aa6ff4692f30; 0x5d51c89e511861bb; 0x505f6cc09e4d9107; 0x6f119ffb27f2b1e5; 0x948fde1ccf53744; 0x5d19df085e32be8c; 0x5cf35d84059a2fef; 0x1b42457c8ad56dd2; 0x36b86103739d0676; 0x7c4fa9cbcf051b6; 0x5971dab884fcf590; 0x1d9ccd282c2c9c69; 0x464b485ec83fd30c; 0x3dd70825f9620327; 0x78431060c6014a97; 0x4cd2167d5f06d55e; 0x2d641ea1c3e3dfbb; 0x5b65722576f684a4; 0x4f5047314fad419f; 0xbffd7742055843b; 0x306458def19083b5; 0x719389595c28483a; 0x5ade9b13b3be0410; 0x4c9f910b17106ec; 0x20d3b8f11a89c110; 0x2a4de4bf7245716f; 0x3963bb26f743825d; 0x3d0f6cd6721e7792; 0x7582d4ff67e04137; 0x168673e0f6843e9c; 0x19ef1ac13c4604c8; 0x52d6c0f5f9720dd3; 0x1ce9c62bae850b87; 0xdd8d1313e8413ee; 0x37cebfc73adc9412; 0x465c744e8fb43d20; 0x36b250f2ddca6f3f; 0x17138bf7b90bd96a; 0x6910b25f8d6759c1; 0x36ccac4a5af7561e; 0x7abe3e83040d4991; 0x4ea09e2dc331ab7a; 0x5c05254194104495; 0x1764cf08ea5badd7; 0x1ff5975139bf5884; 0x26560c5b2c350aa4; 0x303598465eb6f2e2; 0xe2abac55ee9e795; 0x6c53bf7aab40ac9d; 0x3b8c8600ebeb1dc2; 0x7e7235377f1148f3; 0x2b5c618b6d522cca; 0xafa249af8aeb0dd; 0x47ad9ed9e5c847ae; 0x3594905d171c3c49; 0x43b232444ccd08de; 0x6b7d717a94a31698; 0x3e30989a68af443; 0x71e60f761c02bff3; 0x78667b9a92d68c53; 0x57e382148b5cade2; 0x69e87f966cf761d7; 0x152f8e340b048527; 0x6b1483f1e29a0f1c; 0x7e33466406735bc8; 0x3c0293805094acd9; 0x1be63acad7ad3fbc; 0x4aa0bcd1d63a2df0; 0x544f90bf15b3f2fb; 0x3dfc74f3e6d8e5f8; 0x4b9eab98e34e20d1; 0x6b22d1e33f7ccd46; 0x41506feba2431bdf; 0x49f5981ca5e3de6a; 0x6dbb8c5ee1bda991; 0x59de54b026513790; 0x333599063c3932ee; 0x12f55579dc57c1e2; 0x10451b7b71777bf8; 0x14b9323cadcf8f01; 0x48a249121db59b5a; 0x49fa810d42282ab9; 0x12ee7364cdfa43c6; 0x335fe83c552ace06; 0x8e1736826beab27; 0x6dbc95bf42343076; 0x3d5895d0f5905610; 0x61060341d1c5746e; 0x13a1e1431fb625d9; 0x357f564c7da0b381; 0x5ffd0ab19f725fd; 0x7d364269a9aaebb5; 0x67c562cd3cce64f1; 0x23c3afdae8d0d90c; 0x1be4d445514433a6; 0x4893fc2cda040adc; 0x37c2f0fce40398ca; 0xe883937fac980de; 0x38f1a1e50f7ab8e; 0x23088c175ad46844; 0x75fd9650631fd880; 0x3f707106e124445a; 0x7b6c5efa89b26dd7; 0x4d10fb809a65abca; 0x1769693f7bcd65b4; 0x30b84fa1336d9047; 0x4020244f5ebb3772; 0x28dfde6fdda6d8fa; 0x67adddf864c3bb49; 0x6ff5829718a4f3e9; 0x1d6192d034929a1f; 0x717704dabecfcb53; 0x55f1995b5e8fe939; 0x3228e96871e73334; 0x2514fe94fa6c0e44; 0x6469400e59a6e212; 0x30ef89cb35472664; 0x43edd40abd9a07a7; 0x359f581c86282543; 0x7722e23569a685bf; 0x2db6b31f94ebc1a9; 0x33618e4c0272719b; 0x3982b474a500fa3e; 0x3956198b729f413c; 0x344a0ede8d377cbc; 0x313ea17df02e82a0; 0x322a71];
   [0x6c28635d883b4e66; 0x162f2856400c5641; 0x134c1e11988f9475; 0x23e2b5b7fcefeb24; 0x773fcd1499556bb7; 0x66e3b19a8ca695c1; 0x54f39a3b1c2ddefa; 0x26c2fad58f0f7194; 0x3700d35b7f979e75; 0x45f3bfaa9b4ce38d; 0x331f6002dce4dbf3; 0x6714a2bfc773af00; 0x69531f7556299550; 0x74d98924569bceb7; 0x58ed06a04dc763a4; 0x2adcfa106f4eaf08; 0x4cdb84ecf7c5989f; 0x118a0f2ac3005c0d; 0x7212870a3e931c78; 0x7ebbaece9800d33; 0x119f2661a2550c86; 0x5c8b8b20202fce8f; 0x250ea2a6bfc9d84; 0x5f69bddb37bb98d8; 0xb8c5b0e5ba6636; 0x6003e4dd715b951f; 0x21b317d922d6ac6e; 0x9a4146857739c7d; 0x4e18b89c6a24e006; 0x6a26be1a387b7a5c; 0x22720b74ff40d2fc; 0x29711d55ada08427; 0x3e7e2665184085cd; 0x7eeebdaeab4f62f2; 0x54d6efd31af68cf8; 0x45fdc7973e0f8e23; 0x56c11bfad01e09cb; 0x5ae0c8a1935e02a4; 0x4caef6374e0eb947; 0x1d60cb7b50f98fef; 0x7a5d8a93e35f6231; 0x46f02c2d77fa1c29; 0x10d6ab79c4c12aa1; 0x6433831462ec76e0; 0x7bfb64194e2a714d; 0xe0d44feaca4c71a; 0x509b2cd85bcd0643; 0x46322f442867da12; 0x5bbbd5200dbe2ee1; 0x23ac5b10fb23aac4; 0x6853bac011d9eb6b; 0x38eabe96b1446bc1; 0x53dec698f6d7a22e; 0x3418aefb64080356; 0x6eedbb1f2ee1caa3; 0x152fc706db57123a; 0x524545d037d2b9ff; 0x725f5ebcd3dddabe; 0xb7c918ea4e1a33d; 0xb2c3f41588f2fb6; 0x152fd07445e713ef; 0x3fa4d3a4f46701a2; 0x3e9f5f407310ab70; 0x473671a5f5b9354b; 0x388d44a7b552dbdf; 0x6432525028f9eecd; 0x60bf74c94ee5685e; 0x41c6675fdde60f0d; 0x540cee4664a47ee4; 0x6d48e739e2d6219c; 0x6ff0e20c7fe418c4; 0x295f42bd33775dc5; 0x3cc52d4fe8471937; 0x3d838aa618552887; 0x12d9185236b84575; 0x72de965b05ce79c7; 0x56de66e9bcf0bdf0; 0x1d4836fe3237ac60; 0x998827441e33d5d; 0x49fe6cb036c80e5a; 0x41d30009e975bdee; 0x239228687d737722; 0x4e87fa397b1ee288; 0x362e5d63068136bf; 0x75b202876702480d; 0xd1194089f0b0592; 0x6077ba08e7f62922; 0x10235ff4337b0284; 0x7794b882f52b8207; 0x6cc1385a14e99ba6; 0x5cfd52ecd5f5fb4a; 0x727aab321d6aea90; 0x6ed9d01d1c9edc04; 0x16df17ab6a3c0593; 0x193600174d122379; 0x2ad33f460dfb92c6; 0x3f953c661afce363; 0x706dbb6beadfdea6; 0x640a41cd01d1a31d; 0x197467986f9aa6ae; 0x76b18fd506ca0670; 0x189b5abdb635440f; 0x2d28c6dfcd8b1460; 0x170e8df8978b2691; 0x5bef4fbe95c1de6f; 0x6ef7db2541bfff89; 0x67f4374813fce4c; 0x21b7c93b41cad38c; 0x1a69d1d310a41ee8; 0x4f62b37c0dab721b; 0x196a6df34447cbb1; 0x253e5cef6ceecc7b; 0x667216d0a295c52b; 0x9664786a3fee02c; 0x49494fc07e50a6aa; 0x77c6f51894c907cd; 0x257e650ea0958d2b; 0x6b39a1d4221210a4; 0x4e0b7eb68dbad3c7; 0x1b7b4a9185a9efff; 0x6ec6601ba69236ba; 0x479f01e7c6263375; 0x5a8455d855480af7; 0x233c22d35de5f037; 0x126f7a1d5a25887e; 0x2572f464345c7a31; 0x774af138e5ef087b; 0x52af13bade5767db; 0x287b2781e128a11c; 0x747fe0495d4e6cc1; 0x4afcd5f6ec6a1f30; 0x18e5d77b205751d5; 0x48d098ca5737b68e; 0x5bc9ea01a1a8d66f; 0x3bc5551b40cc8a37; 0x7486ec120593109d; 0x66f24eb903c56b1c; 0x577a01f9b4a1281c; 0x9aabfdaafaa654b; 0x4905d590de063454; 0x62ed53c19ac62832; 0x3d83141f16f19d65; 0x3ddf69b820f63611; 0x27877b106476df3e; 0x34abc8d30d6b5c27; 0x62dfd828c597eb38; 0x6c8f6a679ea70331; 0x7af1406f71ddc5cd; 0x364b6815d3f61bfe; 0x7ed0eb0884799ed6; 0x6f1373eaa3ab7e41; 0x6bef9fca30bbe3e6; 0x8d785561c3cd153; 0x17719702a27e0ecc; 0x3153215a9e81ef85; 0xa8f62eda68d518c; 0x3463b6ae2100e1bd; 0x25aaa3767fe0f589; 0x11497f63191cc8cb; 0x6dfa566ce475f4be; 0xf7310e119cbf14a; 0x4c465a227c51f23b; 0x3b4b42bdf1f4c2a0; 0x20b8eed424449ca0; 0x1c51c17ac8a2df8d; 0x6934fb3e6566f1d0; 0x5f72a4fdde5fb36b; 0x61d87414c6808401; 0x722aefb66b6abbff; 0x453dbc3de373b806; 0x7ae7bbba07ceba1a; 0x1521f0e3f7a34291; 0x38ee5b6f47863922; 0x734c013c0f703d76; 0x432b5dd5076c4355; 0x6d02ad297928822f; 0x7b5e99f4c3b09544; 0x2f9dd28762b4cceb; 0x45d353b13c7c2dbe; 0x2cdd9b658a9f2a10; 0x456ba645d7cfa43a; 0x6a4355a54be4e07b; 0x5213be500bd554e; 0x77fe1890c77274d2; 0x31271bf30f02ca1b; 0x18bada83cf47589e; 0x3468fb8ada87bb30; 0x1b72e38c644ca3b6; 0x1e422dfdac311087; 0x20ac9a7bb081c427; 0x7da89bedc7ad2f32; 0x69a40f3d751d5093; 0x31e125ae28ab65e4; 0xb34ace8dfb1db10; 0x21c29a8e5ef6e715; 0xd0ee5973076e54c; 0x4530fdfcfb98550b; 0x23df1398db5e6150; 0x7a8dca96504a38e5; 0x22663c69959c2ca6; 0x78af20377332701c; 0x1c2455cbd035f6cf; 0x6046b16a3aabb412; 0x6b95f397b1e6b58e; 0x456a56a9c391c578; 0x1e03a9ae044e60bc; 0x7ab31519e8ab4f3d; 0x5fff52310882ca09; 0x7947d8be254d9adf; 0x12cf78026172968e; 0x68c34f040598dc21; 0x663645f815ff8dd0; 0x655a059c6cffb587; 0x4a8da72eb4ef79b6; 0x7e6a02103e78d66b; 0x136f3e6fe1458b3d; 0x5c6ee63b92dac008; 0x49216c511328c3fe; 0x74398269c90129e3; 0x16d56a61852a8e9e; 0x3baa77226a508bd1; 0x2d449ac28150d582; 0x30a2c8c6d0ea31d8; 0x2ad21b2357f9e36e; 0x40f298f196f6e363; 0x4ed85fa031d84f7b; 0x9d65e3c74f65fea; 0x16a3d17721c8c55b; 0x1a5d92cf3e011c07; 0x136998ad9b865612; 0x2e0deea16e2c3dea; 0x6f83bd3b4d79f6a0; 0x531ce1e45299e53b; 0x3a31a422b366bab6; 0x5e69788310eb0a96; 0x70809f6a3d9d95b8; 0x341e2bb026bc6d; 0x55d5f28226581578; 0x532e0e4d92896f11; 0x4ed6476c242551bc; 0x52d62a3c07937599; 0x769df232eefaa828; 0x647214983bf1a4d5; 0x6f2e35a6540348c7; 0x537c3ec1e379fdb8; 0x7dcc6e634951d4c2; 0x6272ed34cc877b20; 0x1f92bc113a4d39bb; 0x269d2c5bd3ed4bf9; 0x426c55a35bf8ee95; 0x487c4b6bd99ea10f; 0x28debc11bec466b2; 0x440a5a3f6ed8f331; 0x5882a4a2e6fbd55a; 0x237d22c93464101e; 0x2f68745339c8dd36; 0x51840f0ce09a1b7d; 0x1e98f8fe7a4c86b9; 0x720b776f422ebbe7; 0x728af63287723495; 0x6dce17efd38c847; 0x7ef6d20e4820fd85; 0x6af6fb413e4853bc; 0x3b57100594251654; 0x2fd7857150803369; 0x1abed15ede17ffb5; 0x5ba9396f386cda44; 0x7689f1fa8d52d54d; 0x4b6b232c384e66c6; 0x5f74525f8a1cf6e8; 0xf3fa6a3abe097e1; 0x7ac5f814853109d5; 0x7f88f115f6c6f80f; 0x15378da5e86d18f; 0x6cd7b3f5eb8b0cf6; 0x44eb3178301238bc; 0x78a10126024abe0e; 0x695b9a81ab7cb4d5; 0x1eb0f1ecc5e7984b; 0x1ecd709a3e370f6c; 0x1050e868bb6fe8d9; 0x62c1527d1cf85e18; 0x65102abe4b5b7ed8; 0xdddce9cd7396c2d; 0x2a49f204b8c507b8; 0x606884ad912b46c8; 0x19579db5f1abd54c; 0x45bcd25798af7d9; 0x1cdb8210d255709c; 0x581395c9bb9beb4c; 0x7914c09509209e8e; 0x437b54604343a98f; 0x10e8bd5bb33bc559; 0x537f8a24d0a27900; 0x4d30f380c54c2309; 0xddc81a8b5a0bc38; 0x61d23b5476aac9bd; 0x36d79f88706106ea; 0x530a74b366da72e; 0x42783a8e5467d62; 0x4a6825aace96ff6d; 0x4e674eaf17d62086; 0x3e6bcee328568d1a; 0x3168b53baa679f38; 0x650a8d14da496e98; 0x4a22fcc65ad96214; 0x401b663bb04d9bd3; 0x677dd111f240eb21; 0x64509bf4e462e8cd; 0xbd46c21780923ca; 0x63ee3e7622de9ebf; 0x6d0cbe2c7bd00e42; 0x248f77b7dd1e2193; 0x75544c48ab7e712d; 0x174e2122707fcbad; 0x49b732a3fc8a471; 0x45329077d66233e5; 0x23daca];
   [0xfdc2ca9b78f4f15; 0x3065308b86c8c380; 0x37fa97ebca4fd41c; 0x6abcb8573160eeaf; 0x2e1f9a85834d0aac; 0xe98530d5c726691; 0x26ea7b3db548773b; 0x4dca6b4c6245ad52; 0x7c03873d12ad9944; 0x6f37dfd7582d0410; 0xadb142582fa7c11; 0x18609b85a8baa348; 0x133c4a46b6c2ded3; 0x17e20f390611d8fd; 0x5249aa5b00062591; 0x1dee0d385f3bddd7; 0xef7f4b2542720db; 0x13ff3162c46e4e3b; 0xe799ec20c26d091; 0x7cd2dcdbfca5bccb; 0x2611096804c5f00c; 0x9196929e8e025eb; 0x5f8737d377622d21; 0x56819334c49cdd11; 0x4d4ddafb82af13bb; 0x78c71c4a6cc1ab43; 0x121dad87f833640e; 0x67c18430ed30f3c3; 0x19fa66ab42fafb4d; 0x3cf0d9127246a67b; 0x5af787ab75424a87; 0x345f846c30d6d736; 0x70b81e4ba22824b3; 0x1fdbefd10258895a; 0x60330fa6e43eecad; 0x14498fdf499054f1; 0x3383ab303acdebbc; 0x2efd4721dfb1c38a; 0x393d4d1063212d5b; 0x558e46530c3a1db; 0x7090b37feb83d3a8; 0x44b53766e5a00512; 0x4f075ef5fe820465; 0xbb02bf76adfe9ee; 0x4d5f85a00f9bc84b; 0x6a48df44ea9c5659; 0x57cd618dce91a825; 0xed3edc1da7a4f3c; 0x281e18c17108f20; 0x7f20d86272042543; 0x2eddd14202cd6cb7; 0x3f4a2a521bd88933; 0x422411bf51375718; 0x421529618e550ba6; 0x6b9311ee2cc9a5f7; 0x3fe15157371623f6; 0x7b0230ac0b651382; 0x65756a456500dafa; 0x7340056d783f4328; 0x13025e4139642f53; 0x4d94dc7e939168fb; 0x65dfce1b6d484d62; 0xf9f610f053951a8; 0x7d8e610c3b74933b; 0x24eed7e939d7c72b; 0x6bbed6a7b6875443; 0x704b4f27e750ed1; 0x53b0a0fc1ab80190; 0x265b17acc33e0770; 0x295f520b78f7c782; 0x2edb5e2e7cfe962d; 0x291c528e56fe0a02; 0x6510a1b0e7fd57cd; 0x2eee86f4d66f49db; 0x5b050bd14ba7a4d2; 0x23dac27dc856e3fb; 0x330e59afdc2ddedf; 0x473af45b05f3cffa; 0x5dec0b343f6f93ba; 0x4d46817d09ffb7fe; 0xc5dc73829a30e80; 0x59be6ed6222cb96b; 0x21d4f24379a0e7a7; 0x3c742ddedcbbda8c; 0x2676b6e67ba93df8; 0x700120316481a180; 0x2c4b379990f9aaa3; 0x6e5cc0e653c88d7a; 0x76c29e177c146377; 0x2effac9fa14ee64; 0xef7372370da05dc; 0x52ab3fe6ed8dc374; 0xac19d977cb76619; 0x218660953e9ad1ae; 0x683f323c1764fdab; 0x593a3f3489f04b88; 0x575e852088994f7c; 0x1b010dacde46b028; 0xdc01c907d6e320c; 0x3098b274d4154b0a; 0x3e40f69e1714420c; 0x63712590094a1352; 0x63408a49e1db063c; 0x7e996f2a872380d5; 0x58f8fc942f9cbc8c; 0x5ec1b2a0ec3562b8; 0x3a90263fbfb11fb5; 0x76792b16bab8363b; 0x1db6b3e06c82a3a8; 0x52d6bdda531eec70; 0x44253f54d623d77; 0x22d3f0c4818924ea; 0x4c0b5264fce2da4d; 0x3c6935c1636e1454; 0x2c188062894d6ec9; 0x3cb6e8a459db1c5e; 0x7bd823aebd380876; 0x7cf0c6053502f67e; 0x561d814dc17b32ca; 0x6c996cf1ad28e45f; 0x25383f11e08fbea3; 0x3c516c66b1a8cead; 0x2a831ac6e3791268; 0x354e6da9d5d6f29d; 0x22e5c241ddd9970e; 0x6cd9c9e9cfb89ab1; 0x538feff36b36fc25; 0x5213a999a2886e24; 0x74c0cd602d00f2ce; 0x2a2847a48b01db4; 0x4bfcabecb355bb6c; 0x7896aa506c2aff5f; 0x597d939d8de6e0bb; 0x507faded9449dde5; 0x1701bf3cf966cd74; 0x7e124880ac100e43; 0x2ae84bd5790c52a0; 0x58beeba13c58bdef; 0x242eb1bd92cc9674; 0x15d2ce0478a61b4b; 0x6e510f00d43fca41; 0x460683b81f2ac3e6; 0x533882ccec6d0ffd; 0x3f46c8915893b2a3; 0x998d15ccc9b7725; 0x1342417ec68dfabd; 0xbc67f7c200f308a; 0x127ac6fb2677868f; 0x4f27be28e6945469; 0x7bf89d9e54b2863a; 0x10544c9387ec181a; 0x1098965b03cab20b; 0x59af430d7e25ac61; 0x1975df94abd941d0; 0xde62f7b4f05d5f9; 0x781e69f821d3207b; 0x7c52fcb79d409694; 0x7c1170ab169587af; 0x309a58cc0d386643; 0x74c1967e9da6cd03; 0x2a25ae9c045961f2; 0x44e299c6ee11330d; 0x4513a7f379b4bcf8; 0x6fe77001278306a4; 0x6e9adb4b19b0a796; 0x3c18d966f75cf350; 0x6770d4f963a8956c; 0x347fc84fcffb172c; 0xeeeb182f44ef300; 0x771d58bfd95c2cf6; 0x4581ae02d92f8ce6; 0x722248c36fb14a5e; 0x6a63dacaaa65001a; 0x16bb07bc723b31ea; 0x6c120e429beec736; 0x2e4bc68bba22c27; 0xef3371cf176d6e2; 0x2699d32b3aa59a4b; 0x656f1fcab32e02a6; 0x26ac9bfa87257f1b; 0x6b8abaf547fa921c; 0x4d580791bb21e046; 0x27e3b3cb68f17e75; 0x4c2f9dceec147829; 0x129aa10b6ef8675d; 0x24857d7d06f26c09; 0x7a6c273c8c3c8cfe; 0x4a81f3a93dc4c273; 0x9493fe92bf03a50; 0x20c898936a3a79db; 0x108d02cb0c883e6a; 0x7a8d9fa2a8c794db; 0x5dfa82f604aaba5e; 0x4ec4cd9ce6225978; 0x9ad2fdf3b10e0ac; 0x5c8321eeda76665b; 0x26b5a446603be0b1; 0x5f4e205778544a3; 0x28f56b45de01899d; 0x5ad6400db086fc0; 0x7f10458dae50b6fa; 0x7a0a1c45bd06e294; 0x3a25acc4e1a58a0c; 0x2344cfb02a2ed1bd; 0x773d17672ce53f89; 0x4c8bbc7aa534e778; 0x54e5bffe6a60e13a; 0x70b64f4e8e6e0bbe; 0x13aaa1f096579e0a; 0x7141746b59695515; 0x610248993772ab04; 0x5314b21e80d04161; 0xfb5c251e7a5cfe7; 0x58d7de46a6ab07d7; 0x30dec96a471c8afd; 0x70489f996d3012c2; 0x35c35593639c32bc; 0x1c372e5cf383ecb0; 0x6ec50c7e176311b9; 0x14ea1646a17818; 0x7de8e5ae85f0372e; 0x47f4e6913411db88; 0x7df15a52717dde85; 0x410f02334b79779a; 0xe5523cfea727e45; 0xd74f15427699ceb; 0x3413ca71eecb4375; 0x29e6f8e991657026; 0x627e144549d6c569; 0x4e1fd7418528786b; 0x6f532204d47c5448; 0x566618e18c99a8e2; 0x1343a20754ebc061; 0x3e5e2842f458ea04; 0x6595a1167132137e; 0x8dc8343ae5a3bf7; 0x653e483814b36f83; 0x2b415fcdb6652e4d; 0x379ca6f3e4a08e48; 0x43306190fab762f2; 0x472ab522d9888586; 0x485e452b54d40898; 0x67d0423ef3241bdb; 0x334e8474f107e61d; 0x44ae6c44eaefc9af; 0x3511ddc1b0bd6c80; 0x31075be3ee3a2ff3; 0x8bc14f007379404; 0x221f5406ae3cf6d4; 0x78de7c167d0ffc2; 0x2cd611d7b80a36ff; 0x47749dd50673ce79; 0x1da4a195d7e4fcdc; 0x77a326d7bd6498e8; 0x3c20d4510910ec3b; 0x5197d2f2eada3786; 0x1c815071d5f6ac92; 0x686b5fcf49041c7d; 0x22edf665a1f7f056; 0x773c29a05a9397a6; 0x27099b0f97483d26; 0x2b2bd36ef0bdc8cd; 0x7f87b63df366abbd; 0x97fcd5e1c4a6740; 0x348a450d867b1e3c; 0x4b139481410c3c45; 0x5e77521a929158cd; 0x7582e4e09782fc3a; 0x714414875bbe3747; 0x5013c7e291812a8a; 0x2770e72bb60a6cff; 0x2e40a3c0c216ba01; 0x21561c250be3a9a3; 0x518abbacf9d65c17; 0x31226ebbac7bae54; 0x54bf9b8eee4c6496; 0xc9e135d8862fc76; 0x7be79b4720982473; 0x35e8fb6a0de8fa32; 0x48c7145bb0579b24; 0x3dde38a6400f8142; 0x68d2c2705b03b66f; 0x400a0c1cb13717b8; 0xb77e913f9de049c; 0x1073b34cbd5b0c5b; 0x18a7adf0d5bc7718; 0x33ab0187f12fc1e7; 0x4eefce8134a10bb; 0x1f3f258707b2de8c; 0x1bf3034c6b8a649f; 0x336dfa58a68e13e9; 0x689ea3195c2c285b; 0x5ba33cf1b79675a0; 0x7db873cf4aa12135; 0x5864f08f1b4d13a7; 0x1524e98791c73ebf; 0x6c85f9776b1d131d; 0x13532094f2c3654a; 0x1365e5dd294f2f7; 0x5f79d538c35a5654; 0x1e38e59bb5540d5f; 0x727005b136b451fe; 0x5b31a8fd60ebfb80; 0x29b4c9fb220f4845; 0x171899de6fa1e915; 0x7089627827090be1; 0x69711872fdec97f9; 0x19cdf604fcc458d3; 0x7ecc7aceb21662a2; 0x629ffe8220cd67f0; 0x2695b170bd3f4730; 0x2090a8d9dbba001d; 0x140b79d49691798c; 0x68711057edc0af75; 0x6a4a4dd66d172fd4; 0x6c44e0a7d27c31ce; 0x2fcda4891127a5df; 0x31c5c0];
   [0x16d549ff53e4c5e7; 0x4efcce1719742ed; 0x7ed1ba4d168fe87; 0x1347dc906d200051; 0x62755b41657a050d; 0x7c94268f009b0b6a; 0x57cb0da4f7ba8281; 0x5895733fec914702; 0x1d98f6433bd8d8de; 0x387e9dff67d2b04b; 0x6c565aba94ddc318; 0x68ea68846ae1e6af; 0x4fffc54bcfdc9515; 0x3e7dbee384952c02; 0x29da3d7652777e5a; 0x7ff1374dbd369442; 0x4c21a94de33c793d; 0x7ace729b2cccc356; 0x55c926affd03b769; 0x4fe6185c1c7d6116; 0x4e3a5af77c88ac4a; 0x4e15425b1068e71c; 0x5e77404e7bfb1c1d; 0x10415a19d6702aa1; 0xa35b214fbafec8c; 0x22ce22569c8f1cb4; 0x5f98ac244cf49e98; 0x3e25843415bea107; 0x49e0157fde2f3983; 0x15c1de049ce1ee34; 0x16a32b63436e5689; 0x47886b45482e0dfb; 0x347357b24f8acf8; 0x3a505aeaba597b3e; 0x6260abe6379b647f; 0x3338373730947fc6; 0x2b72cebccfb6b03e; 0x1096b545eb6ad0f2; 0x69c8e79bc7616886; 0x374890596896e1ac; 0xb61b11dafa25153; 0x4f3cfa3d11a9fdad; 0x2f8c49d291cc0675; 0x6a05b4b1d8ed6e4; 0x493c93044bdcda15; 0x6be454cec057a817; 0x13aa8fcb60a6b739; 0x4b0470c21097900b; 0x7a9d4a34f3f10324; 0x1ad1fe88e117fca7; 0x4dc3678d48d82d1e; 0x661ce993d7107295; 0x2c0fa5dcf4a830cc; 0x7195b0f495b65eeb; 0x4879f981873c3cec; 0x2b2db741f0a37e76; 0x6019816746678634; 0x2f0dd26da98a4ac5; 0x3ce62afcb83280a5; 0x2f209f80e784cf22; 0x618d5c3601720258; 0x2c8afc723df7f549; 0x45c67805a91b6caa; 0x4329d5ca8f3c0a71; 0x4e2192a98ed99136; 0x5db918e663b38e1b; 0x2d644c7d8a8d58b7; 0x28e81261e43ae928; 0x4ae30ab8c0d05bdc; 0x5b5c68d041a4bb0b; 0x49f0bcd316b431e7; 0x66ace3c438faf490; 0x4166eb6af6cb688b; 0x54aaa7bd0e78911d; 0x65cfbabbde5133a3; 0x1bd7c9cf4f747ad1; 0x3ba215e93e6ba220; 0x4bdd06be6d8ba95a; 0x4ef83021b45edb1f; 0x79ba5faa166c6adb; 0x69729b3ed3ff0747; 0x78f2ee58dac59219; 0xe8227deaf68bd5; 0x3de7e2108c0fdc32; 0x4f4571b658e4162f; 0x23d85b0e999d7bef; 0x30b0e2c3456ab38a; 0x1def8b7f89a2024d; 0x69936427aebbc188; 0x46a323ca9e27a808; 0x1db85e6533f56f9e; 0x514343f32f0c14; 0x62cd4097b3c6a86f; 0x4cdfd696435940b5; 0x7d1a699ea60c67b4; 0x1f07fdc5a68c7e80; 0x7295af4691a46389; 0x5d505046eece6bb0; 0x13381f00238cee4; 0x169dc4607158575a; 0x57fce74650d14b2e; 0x570626adaae6d322; 0x3a5d25c61bab55ed; 0x74c1845fe6c57a8a; 0x7aaf0c59ded2f66c; 0x7c750f0eb92dd2df; 0x5cf41d63856c8f93; 0x201de995c9d40616; 0x1c9e642d63087b3; 0x4f42e8399c90e51e; 0x7b93e22c5f1980a5; 0x3f2ca429ec0020ad; 0x275d794c45bb45c4; 0x5e6612ea88837250; 0x435b79abd073c7cc; 0x63441621500791c6; 0x63a2382f42aeda01; 0x4a347104d36e9dec; 0x1b949382c5a27583; 0x4693ba064db97ca3; 0x30498e627b6b303a; 0x3be6656d5a53d965; 0x38acc59f4b02084b; 0x3c1a1203573ae4f5; 0x3c8f56d23ad896da; 0x68851d3cdb631181; 0x67883cf9ae96ac56; 0x3cc2cec9e4dcaa1b; 0x7b600d22064bd52d; 0x2acecabb4196c942; 0x2d661b822d11dd9a; 0x6dfa4e4064924d92; 0x7ee8b1728165f4b7; 0x57bd4fa7849c4c10; 0x712db72b7c128a1e; 0x5f776f0fd1a26e8; 0x2db2962a22b2b0ed; 0x3f8759cfcbdaa64a; 0x61e421a5bafbaf1; 0x3cff7522b4663529; 0x2ba53fd1aa70aa20; 0x461070f17d1e4df2; 0x2b722e2c02deff44; 0x3a98af1832f57f82; 0x30f4f2e3b2d93362; 0x60a44a47a81e74ef; 0x3f18deb0343d49c3; 0x54909fe32be358e8; 0x78f61aedababba8; 0x6fd38b4e94d57e48; 0x7db2be792bbc7326; 0x1875a5cb3a0f11ee; 0x7372aa1f71ed48c2; 0x7fde38e1e435486f; 0xea89f5a199335e7; 0x3c991f0f1d1c0541; 0x7c5e8399884db6dc; 0x5a88b573a235ff75; 0x9d3221e58956d89; 0x36fb26fc911bd65c; 0x16825413f7bc7dd7; 0x48969e61c946978; 0x4a41fe51ab97fc6d; 0x2a1b38286f6ec3c; 0x3243932d80e79301; 0x50d26006fea2e083; 0x12beeb577643d89; 0x6655b17c827f4016; 0x30daf56f59d2faac; 0x4fee96645f7bf782; 0x5f9781dd9239e42d; 0x37f0421a28511846; 0x508ca4cc2adb2e91; 0x4eed0946d5feb039; 0xebdae30fe16df13; 0x544f84bce4eac904; 0x1d3fa69bad548ad0; 0x71005e5fc3d2c75e; 0x68151f3a20e2b479; 0x77e71428fac1bae1; 0x645831740bb1496c; 0x40fd787a2843ad79; 0x64521ba0f336fca9; 0xc5f2ae2bb528c1f; 0x67fc19de96d9d7a5; 0x15059a7980c9a399; 0x3c47dd9af3fe5423; 0x540450a8357343b1; 0x217e3bc78d2ccf89; 0xf1b72ddcaceb314; 0x563c74ec2ad2f96c; 0x8802465608e1b7a; 0xd7740c6ef9d91b3; 0x17227a1633f92f19; 0x1d911234b7014007; 0x5f68ea7750fab64b; 0x21b6a7e0c9fb6985; 0x266ac47c04052139; 0x55ce658c37357081; 0x1852b6149bcd068c; 0x77da82a3cef7d2e9; 0x3559bb91c8f3990f; 0x7c60836c87071cdd; 0x6a144352b47086b2; 0xb64f30b2006c2f4; 0x661be326634c86e4; 0x42b4bec4e5b0aeaf; 0x7109701f3b9c0039; 0x1f65e60220a43d2b; 0x470fdb6bdbdd52fa; 0x683cb5a8251a8940; 0x58e2b51f034e9b2a; 0x32151339b310893d; 0x69fdde4d9a88ac2c; 0x7d80ca740a84c9c2; 0x50fb6c77e64f8cb7; 0x4785fb19d351468b; 0x3a86d8fcca4808c0; 0x5d27fa5ba203ad3b; 0x7a784118a2c53c20; 0x760364040977ccbe; 0x48f3b5e1f868f0c6; 0x71a1c2df166399bf; 0x35cd29bc13548dbf; 0xb7236e7e05503e5; 0x43061ede533eb643; 0x4712cbae528a5dfa; 0x39528ccc699ae546; 0x560ef3baaa9d60a1; 0x6e5e86c0a81e250; 0x7caf463a64fc5a1d; 0x21e79a4901c4e6d9; 0x61fe6ce6f994131d; 0x6204f5ed3c65d8d8; 0x5d1ee82160fd8282; 0x3dec7a266888981c; 0x62cf5d068d87e8f5; 0x6eb5224fa705ea94; 0xe92a11ed0916143; 0x54597d8f06498dac; 0x6b0eb44e13c81fdf; 0x172b41586ff58471; 0x530f2b56ed76e65c; 0x32d7e6049366e18b; 0x3edb25f38033af37; 0x45a59d743e6d287; 0x21a8e7cd81b4037e; 0x299e61a411390782; 0x7002804028ffb3b4; 0x2079862f407e56af; 0x2ac805547e4e02f9; 0x11329075061982ca; 0x3e318e03e150941a; 0x78a93df8ba43ba83; 0xe3900f8ff9dbe1; 0x67f7794a79abdd34; 0x553dd74459e40207; 0x2ecf5d5a01fdd026; 0x2a1655e7db59968; 0x1c8567f23149166f; 0x2da0cb260dc94f88; 0x26d77537e51d5c0e; 0x5cfe565a42468cf0; 0x68a2380e1bf32125; 0x1a0796f833fe38c3; 0x7f78dde211c1f530; 0x6bd21ad3f3eb52ef; 0x75c4a13d1ee8ac9e; 0x31db9134e4b93419; 0x78d77910b31f8312; 0x69863b4e099e6081; 0xcee73afba1076b9; 0x4c60fda0bf81c5d; 0x609a0edbb9efe783; 0x729a183a012c8b4c; 0x298063630a4cc120; 0x29adc75f53f4a5bb; 0x468abd735a2c77; 0x559c4d592fdc8688; 0x22ce0b9b419d203f; 0x339123dc5dd0f751; 0x8ca35cf6246e372; 0x545b220e9c0d41bd; 0x305e93b0a4832f79; 0x2a1f36f60b7224e2; 0x44df14f2a871cd21; 0x38fb966e760489e0; 0x32ad2e3f2eae83b9; 0x134135fc9503d87c; 0x6ae57eef3fa71435; 0x20e088519fe29905; 0x36c19d4ee9280714; 0x6a58ee8e77b616e; 0x2d5215f7c5951f9d; 0x79c2b179385d4e87; 0xe000652d70aa12; 0x35ec5d8b46122dc5; 0x4c932f324a77c2b7; 0x60c283b07f64228d; 0x3be2c29f0d10552c; 0x75e5a6b043d65f81; 0x4688f0b84ed305dc; 0x30005f39c444ba43; 0x3d4dd5a0733a56ec; 0x1041a355a9cd40fa; 0xe377545a41d7998; 0x24286c0259f10782; 0x16ef2e7215584eeb; 0x4dfa490e5f0f810a; 0x744a6619c7cac89e; 0x4df30b572905bd58; 0x1a7081686fe15fdd; 0x2b3d9b77698e3929; 0x2bfbf15f3a38df12; 0x6a304f381fa6c29e; 0x6db82a75b20e2287; 0x5a145112b08825fd; 0x3f4f5e];
   [0x155c43f999d8785c; 0x603af22033069643; 0x5b0d479776389aa7; 0x49fc8fe56dc8544c; 0x43b3f752c84d09; 0x36e95dedbcf806e6; 0x4e47772cb9ff232a; 0x6eb33290bcb8b09a; 0x5b21dad495cd04e; 0x5c4d1328dabd45fc; 0x1b10597388a8f95d; 0x18c381ada1b37c3a; 0xbe38a21b72f3089; 0x1f4c4e745cebfaa8; 0x5785940b625ec624; 0x7ab23530b1616d08; 0x3edf6abc325a69e; 0x50c2d12c7d1814b; 0x248775fefd70f75a; 0x3e877b388546fa44; 0x5a94dd3665e3a5fd; 0x731297bc002ad601; 0x4c6f96a167578337; 0x3b6f0074c36c05b2; 0x3172819a46efd9d0; 0x37372fb99e634b03; 0x3b050daad8e63cfb; 0x5ec45d2eda9d6291; 0x214c4d53a32ab5fd; 0x39d56b9cccd5cd9c; 0x906714fba030043; 0x6f1cbc3137c77c5a; 0xe4cae41dd15ef95; 0x6717db9287f42047; 0x3e3c6ba2e8f2a151; 0x72d669dda0f901bb; 0x718140d496f4100; 0x449739619b408ff7; 0x539426d15635685; 0x4aec93e53c7c3261; 0x4a794a5facc608e8; 0xa4a3ba3bd1c2502; 0x1dc7d3394c6933e0; 0x5a35de199103ed16; 0x5efa47f013980ef8; 0x7ece76c949f7ab3a; 0x25f96c0de3bcd9aa; 0x543bcd65c48b46ca; 0x473cc3d41d15f062; 0xbf070d5235ab99f; 0x4d212bc566cfbab2; 0x4c0c78319dc3e63f; 0x4be92f48f03bbcb6; 0x7ead445b96530178; 0x1f39381fe86ecd24; 0x928b4ca017f4042; 0x6236a3f23a23a9d4; 0x9dcc9abd81bb41e; 0xb53b391d3c640b5; 0x76fd22ece8880c74; 0x8508a75e651a1cb; 0x4634c799c5ca910d; 0x456d77e5d0c672a5; 0x3aae999e684e478e; 0x21e640fbdb6eac4d; 0x1bad573fe41b8411; 0x165731d27a620e27; 0x977cff06ea36889; 0x59381e7dff19e655; 0x1a21b42cdfd641d9; 0x73ea4ccad59500d4; 0x9061d4cc5a9cfed; 0x411b79dc0b750c70; 0x587b0e918fd95966; 0x5f4807592790f6e4; 0x749cc8e45b0cf3dd; 0x54b1628ffce40801; 0x114c5f16b2f07cdd; 0x332301dbc1646fb4; 0x44edb3393f928a8c; 0x355e2e0497478562; 0x25c81f2c34982816; 0x454fd92b7f56c14b; 0x4532e12ea9b5699c; 0x5095cf2a5471a681; 0x1f0f67828d00a953; 0x2e495c618d43bef5; 0x696fa2201bc46d10; 0x46fbda94fb6c0edd; 0x4d7d6c28000c2710; 0x5258d2c4420aa601; 0x284fd7317ead9b5a; 0x25a8006179c3d047; 0x359f490acc725ab5; 0x4786b7725d0ac0a2; 0x32b981309bb37e7d; 0x5e8e239204b2a072; 0x4c9c96a57ec2879f; 0x47dddfb9bcf094c7; 0x5b6dcc823f95d443; 0x555b2280cc69b9bd; 0x2e751a4770cb111b; 0x35305c193ddc2cf7; 0x549b93f98afadb6e; 0x3277e66aa571dab8; 0x324e90edde3eca5d; 0x732a474fb9b93fad; 0x45c6b3af76fd2aca; 0x131de0f117f0ae7f; 0x5d5e7133ee77bfb1; 0x65b78e5fa531b9d3; 0x77271d7c9abd2a1e; 0x59279fa1071bcfae; 0x6c4c315670d623a2; 0x63fe49fe1fa01b72; 0x141dc9a9e8837f43; 0x2759cd6b40828f49; 0x60e727d66b05abeb; 0x632253e0dcb57ba4; 0x4e0684d51d5080ca; 0x75a6818341714701; 0x26664d595a16a5f1; 0x7ef3dac8b4b9fd95; 0x41ab5e3a18e86b58; 0x69ecf7ad4ffc81ed; 0xc91422dc0d12a94; 0x7b326c412d2be257; 0x7689c9f9003a3851; 0x15e33901902a9319; 0x66f08b2212bf71d7; 0x4174df46eafc1518; 0x77899cbc4e8d9f10; 0x6695c592e7301099; 0x5df7fde706ea5beb; 0x28c1d1d36d347df5; 0x5c59f6b1e0a2236b; 0x27efbea60b3b8f3d; 0x37c4dcf75c145d49; 0xe633d3d946a3dcf; 0x6477ab97ccf48ae1; 0x58be9ff623e7ba1d; 0x3d88bdb688c9c17e; 0x6762735fa2912fae; 0x3e4f2b2f04df6ae; 0x24d471d9c90c84ad; 0x583d88084678a252; 0x5eebd552146690ab; 0x3679445dba773e8f; 0x5e43459786858195; 0x606404b4a247f50f; 0x594644676b49f24; 0x17d225d8eda2de57; 0x3aaeffa7d7338a33; 0x125dab75d2d1d6c9; 0x1bdd31f8eef1f2b4; 0x552022bbe951a21; 0x70164c8ffc6fb04; 0x7657d8e0a1b207bb; 0x7e12489d7a33a244; 0x605ac68d6a6ceea7; 0x7ed793b7d0166d42; 0x389bde2d58e77d40; 0x27dd935311f56dfc; 0xb77e40bc7450c8b; 0x66d9a450d5a10faf; 0x2ede44d64492ebec; 0x70d4bd2ee2595dd8; 0x63318cfd2232364d; 0x6628fe2e997fc1e7; 0x500e4fa3c5c5bffe; 0x67b71768ef044939; 0x3b45498a60e376ce; 0x6555f2d40113f585; 0x452e39101b7b5226; 0x1c4febf2840f89e9; 0x4fdb5c97dbfeda2c; 0x2815f08c0fec41ad; 0x16fd139abad9cc8f; 0x5afadb4ebcd0426f; 0x604a2faa62eb0066; 0x164ce48b162c19f; 0x65ec1098c14d0b1; 0x17380e57984a21fa; 0x60b0e796e01b2b69; 0x5320d2231156fb5e; 0x67de60a5f84b828b; 0x1b31855a6ecfbb32; 0xe40efec7bb216c8; 0x24a52e4fbe501e05; 0x42b1a89b4901e5f0; 0xa687ed8fffa980e; 0x51d9e6f11a8d349d; 0x37c4d832a5d9412; 0x199fa3d11e91d04f; 0x44f8b6eaa2fc42e7; 0x598c21a39919e1cc; 0x708dc6f8501a5373; 0x6324df44d0680c34; 0x27fba488277c6982; 0xc4b27f968160322; 0x19dcb68154fbf3b6; 0x9b000fc581d69e7; 0x1882d7f34272b67d; 0x65f979d9e6378ee6; 0x4674bbf9efe60fd1; 0x76919172fe598a51; 0x72d24e9e876658ca; 0x25651e5072bdd76e; 0x147f4d811430a77f; 0x1b9c76e9bf41ea45; 0x65e01f72be6ebe3d; 0x11a337f10fab9fec; 0x3b3ca2f3d0fc2135; 0x58f1b719fbb7aa7f; 0x217b86336f4f7e6b; 0x39c173c09988204a; 0x4f222fb9ce74afa3; 0x4dc59e094901df39; 0x268b5c14d7f553a2; 0x3e356869a3c4d99c; 0x3581480c68e11902; 0x2ecf82e30409fe26; 0x3d82c5ca766cdd16; 0x60ed7732d5d37114; 0x75235a1399ef02b8; 0x333b5ba9a0c9ee4f; 0x4354b9813db23dc7; 0x416872b565aa96b4; 0x325a8f92db6434d9; 0x2d00b344c9d7b33d; 0x4bba425eb160e27f; 0x5438779a19f7a02b; 0xd2fe376bf0372b; 0x57c2d6866c9cafca; 0x45b4ee4db9828688; 0x160525ed97d6ea00; 0xbcc50a4e71a092; 0x10ed4bb360b1ce94; 0x7aa7b0b9c34787c7; 0x3e9a4d3d58c8151; 0x2696a19630444eb8; 0x64c5c52f54663d68; 0x109dffe1bfbb95e4; 0x6cb6426d3793e726; 0x20379b4406668713; 0x725ff02a9e89559d; 0x42a489849fa331e7; 0x407c110b66898787; 0xf9aa1184785dfdd; 0x520481c385ec112c; 0x5521fd3678cb7210; 0x6d4919be0bb9ef0c; 0x534761cc6148ee5e; 0x5920bcb62c6629b; 0x36298b0bc7b27074; 0x57ea1cb7a44b89da; 0x1fbc70d75875cc7b; 0x70d703f635525ef9; 0x2158446a230edbcb; 0x54b236c4ac34a9cc; 0x656e492b1f532431; 0x5ace895e576dc928; 0x7d432e0f9486d3bd; 0x173c4535b4ad7554; 0x53fddb002e4209bc; 0x7d412bc9e42b6706; 0x31e1a5419c6a2fff; 0x6d158e1e46ec0fb2; 0x39f570582760287b; 0x7731dc511b5fbf6c; 0x5c0ec5e8b26f743c; 0x2184d09380125106; 0xb8dcffe157ceee8; 0x61d77f8226de13f3; 0x2e95fc7e75b2f040; 0x430bbb4d49d6fd64; 0x17770918f7a07a7f; 0x670f09a09a7d3ced; 0xfe383a597f0f82f; 0x50daa1bd9aa9c596; 0x1dfb89aca9597b4d; 0x364e76212520f739; 0xc1713a1f15ebefd; 0x3e8dc7948a92f0fb; 0x548b3bbe0cf3d25; 0x5590ea09bd15b431; 0x58a11526236f751e; 0x126cbdcf09185eca; 0x2826cdc073182142; 0x42fa5ccbe81ad40a; 0x250081c779f8656b; 0x7ee6e126ab1efae2; 0x571456170d775279; 0x22ee2bd2b4123059; 0x6b1e9224abe73513; 0x4be4902096635e74; 0x1c1b919dd8d4f7d0; 0x206d236dffffadee; 0x3509c5d9f6d3c046; 0x75cc078fdd835c77; 0x30509bb8035afaee; 0x4ee7e41a79adf551; 0x67054ed04fc23abb; 0x69b739bbc1e251f; 0x76f73d28605ebe6; 0x2904a20a5491230f; 0x2ecb44af1ed34cd2; 0x579c9fcbdeabe232; 0x6b439fda0ec0c563; 0x7be477d0bdb5dcf7; 0x53e6565b8387a0e4; 0x24607f46f5b222d7; 0x5c9ee49103e26cb7; 0x2db2eb94c817730d; 0x36aabb13e9ac716d; 0x642bd224abe92f48; 0x5d1974112f8e1ff3; 0xa3543];
   [0x8302e7b013454f7; 0x4d2cc67fc48dddcc; 0x5f6b8590a42b742b; 0x14ad78534fd5c07; 0x6284c2ed7d95ad71; 0x771262ddbe024cb8; 0x59a6ad6edb532151; 0x53aedee0892fae70; 0xd7961cc76e246f; 0x603169f5bdab6f10; 0xf73bdcc9c8ed82b; 0x461c16504220bb69; 0x1ac3724280ff526f; 0x32f29a43a2afffc4; 0x74e0ec659e98ea40; 0x66463907cb512da9; 0x353711e48ed3117d; 0x3d494b38f73c0887; 0x2acdb19e434410e3; 0x1f141a8cd595b0a6; 0x7831aedd80bae2c9; 0x438aa29f90537f7c; 0x66b24a98a6f01c47; 0x2052f7725790efb; 0x15fe8f76a120e26b; 0x3b8ba73866cb0d1a; 0x34cd8d9dee6ac966; 0x5e4de1e22cf47a2d; 0x4ca23c2b153638d7; 0x116dd0ed7c494d37; 0x5cd5f259c1a4c173; 0x1e23294bd76f6799; 0x57bb525a84cb78a9; 0x35c45fe602a0e14d; 0x58f626d3309a37d5; 0x3e861da0d879b568; 0x6180690ddc145f56; 0xce96900bd0b26f1; 0xdd2046c67169594; 0x3da39ab14102f1a; 0x7a2446f631a440b6; 0xb2798e3b7d27f54; 0x1ee2d7f216c1d12b; 0x441e3862c0f9062b; 0x579ad5ce6dbbc438; 0x2365695fada68104; 0x77deec09588b9aa; 0x779312e5f127102; 0x5779b62966fa4903; 0x472d8ad2d88d7f38; 0x604902fb224e48bc; 0x28501d71d7a1cf3e; 0x4e40fece78bc6a9c; 0x36d4258a98cc3c59; 0x3a1e248ffd41f392; 0x723cbe113c01c0d5; 0x2ef022c2148107ce; 0x29c6e62ca5cd08b6; 0x7352b124891520d7; 0x1b4610b10f4ca02e; 0x7b83522ca0012c57; 0x14843f8b636319e0; 0x7b626ae2d202bdf9; 0x3f6b3945fc1fc2aa; 0x9992b33e303bba0; 0x6b1fc769123aea3; 0x5061e110feae2e20; 0x3148e679886feee1; 0x94c1eebb07b89d5; 0x4c9e285753c859b8; 0x53ee246f506f662b; 0x4199a615dae09e99; 0x406deaf15c4061cc; 0x64fb05027c638934; 0x4dee9d58fc86e521; 0x79b116710e313c02; 0x41325e5cbe7f2e52; 0xdda505c75076450; 0x277929069bff6b26; 0xcf6f71fa5569fa1; 0x3867282a3d21f448; 0x3dade6fb2af0082d; 0x2754e5b0cc19f111; 0x3b82a81890db9806; 0x5ce391034b68ac2f; 0x51cb45953a19689e; 0xcc591bc8b02b534; 0x76b207365aaec2a7; 0x55a4febb6093b7b; 0x6f3105e4c7831154; 0x1d03d6b808f7b71d; 0x29dfb554edb83306; 0x1a52aa86490cb0bf; 0x51620b518e238b59; 0x2e0ab61c245143e6; 0x7e9524f0e0ab9ec8; 0x1c45d79951bd1a53; 0x34a87053b20a77fa; 0x6d98e5d0e2a09aec; 0x2b58920522d5ec0b; 0x7141847923c0b14c; 0x6cb875e5303cb6c4; 0x60206d93d6fc95ea; 0xedd117df22f6f4b; 0x4163702db18b2ca5; 0x962991159ff3efa; 0x37192607ef7d0d36; 0x1d4b33e7bfb6aedc; 0x3ffe2afdff97a205; 0x53654ced83dc8c83; 0x31dac6384e231981; 0x345cd89f08c8439b; 0x2c439dae509c57ef; 0xd7cfcd93f8bb1b6; 0x4524440a1981bc08; 0x200f72bf87420cd1; 0x331b6f0ad694333a; 0x1f910ceda7a52789; 0x344da389571261ab; 0x6426eed2c6a00ac0; 0x35e79a9bdc35e5ea; 0x7b57265df5d3f377; 0x35dee3cb50e21f36; 0x7efcf3e8ebbdcb25; 0x47836e4c2c1ebf5b; 0x5f42699a18d11db4; 0x4bb2512d28f065ac; 0x2f6e8ed0d67e104a; 0x1491978bc21b75a0; 0x51ae281d1886a5c8; 0x3c28f04e5fae53ee; 0x6fc9ea1ffa543be8; 0x513365cf4fc82b43; 0x73e5213d5b03d414; 0x62740a5375df8ca5; 0x4146e0e0937ca788; 0x30cc5829ab779da0; 0x4230024f812c5a3d; 0x23aceb897304666b; 0x889611b2aad618; 0x74cc0d285fab1705; 0x1f6dc5ca1831f12; 0x4e0a444e4e1a36ad; 0x1e41577afc351e50; 0x13c3441c166be0b9; 0x5bf8534da63049e7; 0x2b94e4c1230a18c9; 0x3dfe0706f18f35a8; 0x36d990200ec59cdc; 0x5eed8cf465fb2106; 0x589112d8e0c1e5f; 0x66a230ce6cdcf6f4; 0x84e9fdf239a2f78; 0x194aba48862055ff; 0x2bc65617b501283e; 0x4c8db36c5508f33f; 0x7c40623d3c89ef33; 0xfc3d50cb796c03d; 0x644b147d3db77d5e; 0x3d36f43433b7416b; 0x75fda4ec9a47ba30; 0x1d32f7c2132bac00; 0xb64c5a8896181b0; 0x7664c6e93fe48d1b; 0x33a83fd16250c512; 0x75257d3539838c6e; 0x4d537bc601456ff7; 0x6050bb4ac85ff1ee; 0x32cbc1f392f5f4a1; 0x217c6237e43b1c88; 0x65f1444ea443a5b0; 0x69a599a9343d04a; 0x5b10146e35c366c0; 0x5499715eba3b777a; 0x1627a034b7c86ccc; 0x1d0418f01ee29837; 0x14fc64fde4ecadc5; 0x7657b697ff0f60e5; 0x2a1b46268e101967; 0x40f4649c4b3627cc; 0x2d062f69f9b51da2; 0x44c4173b5b66008b; 0x225ea15e6329f19f; 0x1e123238efb31e72; 0x5b51f7c2ccdcb14d; 0xc1198604eb143ba; 0x4e9e676633973dca; 0x208299428effcc2; 0x3528305ad4fac80c; 0x37e0a2c6b9504141; 0x196c6d80cf275227; 0x2b95a163b40fda59; 0x288abb0310343843; 0x3c31783eeb9cce53; 0x2a59d4a81fc80823; 0x6c813c303b404047; 0x8ac367074d3ca7b; 0x3d694a0c61224643; 0x53e2485b1e5b1858; 0x58ec0cb7e327f628; 0x29016806926459be; 0x24b5d3a3f1e70a2f; 0xe36ba48aff60b64; 0x75cc70b48fc4a6ea; 0x9280cc6af55d8ee; 0x320df2bc37ec3a43; 0x7fea81834b517375; 0xebf91f00c8a3a6b; 0x4985a9de19235cfb; 0x4b3c0e1ffe1cb372; 0x6e4c5523ee2c9392; 0x57bab94cbb901f33; 0x5b5591f0836df17a; 0x6fe832805ae21168; 0x704d8e4122f28add; 0x603b4bce6b199219; 0x6421863cdad4b7b7; 0x21af03fcea3da254; 0xbb3011f2fb79750; 0x548f07106a8d5d5a; 0x74664325ffa56b63; 0x632a63b1c97acc1a; 0x40ab81062e1752f8; 0x2f7e0e5c87eadb8b; 0x38302ad63d0b2313; 0x5d71a3dc514ace65; 0x4602da588b5e1496; 0x1318eae7026de756; 0x60c2cce8dcb498f0; 0x529962ab953e958a; 0x9b42a5222d5fba5; 0x49095bc41e00255c; 0x8f1dbacad349f86; 0x243c6842aea69786; 0x6b97da1fb28b2707; 0x2ae20e43ead7f812; 0x17bd8f305cd6d47c; 0x2b34b985b67c23ab; 0x68cce8054aff1c07; 0x1fa4236fd9dc7ecf; 0x1a5e4d52ee8ec0af; 0x257a798087631c2e; 0x78a84468d2c16793; 0xe8993d7dd06b2a; 0x1d6f1ca4c4ba07a7; 0x170e876c62fab085; 0x6efba8c8aa969d7e; 0x79bdda8bb360e1e6; 0x730aea5a6719b985; 0x6a027507f9b9463d; 0xffc07306b061cb0; 0x1113b7583f524ed5; 0x75ad1ffaad892628; 0x63888c5c7f616b37; 0x222f4d62966ab6f1; 0x4a5a9a2e1cf6da84; 0x2ee9f423dda6a8bb; 0x3a349cc6b7bc6783; 0x5fc3ec3dcd506ad9; 0x466d688ccce4be98; 0x234bbef8fe85d82f; 0xcaf282224f4979a; 0x67dba760bf705a87; 0x6a1a0fe95058bedd; 0x672993ad4e050106; 0x28db7358a838a74a; 0x9e9d00fdc181f2c; 0x4fb9fe06fa6f0ec8; 0x4e003433a3d5daa1; 0x545ffc1ffad6d779; 0x3f2a4ee592b51ba; 0xe60f203f7c6d198; 0x6c06ba17a7a64739; 0x5ea1c471d6f352c6; 0x7bf03f1dfab8a007; 0x4088ab0c4cc9da7f; 0x450fd445d0ca19f; 0x23ab3fce5182f10e; 0x29e349d7a164e59a; 0x315189e42d50e5d2; 0x75479894d9ab6857; 0x5af18df8f81a9910; 0x79cbb35deccd9c4c; 0x4feb5d447a754c9b; 0x4eb0780f9932a7d7; 0x3723e8a8edefc185; 0x343344723783cca; 0x7af0522f914eb481; 0x71416db4ba7d2ddd; 0x2022b44f6ec13a29; 0x196e1d774eac3634; 0x57f6f8d9b7c881cc; 0x5d95746768e667fe; 0x336ae65df75f5171; 0x78ed5ecf4e986fe7; 0x5b7517f14b3c159f; 0x755f8b1a7b731037; 0x4bfc899069daae05; 0x3ecafcd0f3336a7e; 0x28ee39ada6864a60; 0x62b8d05ebd7bca83; 0x6ada6663362a030; 0x15e0e930e64a03bb; 0x4b0897c9f1bc5482; 0x2d3ccab4f263dc1; 0x1be3913ee4d10e32; 0x6d0b538138adeabc; 0xe308098bb106f7d; 0x42562efda1564b34; 0x9a3453ca8d0eb00; 0x189ed1a6adfc7804; 0x19734be6d49350ea; 0x20442eafc2268d68; 0x64f03aee8fedd74a; 0xe2b6b642a4d55de; 0x17616bc053d49e19; 0x7f3af4b9d81b297e; 0x3fb4ab];
   [0x309a684d360f441f; 0x272589a0fda6fa65; 0x62b67f86b8223398; 0x3f35a757b1eed6bd; 0x2e64c34f75b9f583; 0x1a604f3c5bb7e0dd; 0x1a2f76ceb782c48f; 0x656970d7547f566a; 0x425f78e1f3b8c69; 0x4c785799dff12094; 0x12f4281f037db2a1; 0x14933451352a0d34; 0x774ad0deeb1b512d; 0x248e7cd828b90daf; 0x77a281ff48c1e3e5; 0x1edc58261ebbe1d5; 0x3233ed49cf7bc4b2; 0x46e68ebd7047a47a; 0x26e841bd1736e71b; 0x2f6823e45cbc17c6; 0x49f67e453badc661; 0x71720ca113a4c78; 0x4f4d1e906f4583f3; 0x3a152a1c55669b6a; 0x76e7107373cdbbf1; 0x7e9637fe35da1317; 0x6bc733792c094e3f; 0x16b0fc6d4f7fe47b; 0xa8296204f139adb; 0x227e42a0fd11e785; 0x1c37fba6535ee75; 0x63fa3d401e01e45a; 0x5fa07381ab3c57e8; 0x1b5a4ceead7cc3eb; 0x3d026248e0ff195b; 0x5d90add624db34b0; 0x63b491be68d04d6e; 0x30fcccc0a3199fe3; 0x5dd70d70236d36b1; 0x725b7fa6a954decc; 0x634317883a1e2473; 0x607a2f3c70eacce6; 0x3b17adc70db5c6c4; 0x75dfdd6b5be783aa; 0x3e473f3853ae69cc; 0x3b7cc607fa8e757; 0x77993de5dcaf3866; 0x7cbca7166c1f90ff; 0x3cce2c89c2d73726; 0x5ac5c4ede7875164; 0x26ae96a012738efc; 0x2e209e5077db8ec8; 0x2d48967bb0540c87; 0x473f77be1ed27af; 0x576f300a5a07a93c; 0x1f74a79f104686e8; 0x31fbe3455d48299d; 0x4e5b00e7cd9f8b06; 0x661b33b3bb110094; 0x7961143f967cbab2; 0x7891d1468a2379a8; 0x744dbe826685a666; 0x7b5ebf6fa4b84adf; 0x3c6a14ccf1b7aca2; 0x12a955ed9fb6a554; 0x7955dad93b757e26; 0x49db5be1016ed068; 0x7b1d364f4f39a05d; 0x1ec70af5bb18eb2e; 0x5585c4c4edd29657; 0x1b1c3eda67c434d9; 0x6a39b33c70d78fe6; 0x51b61bda2dda7028; 0x1204b62fc906f340; 0x53ff692a4e6a8070; 0x1b1726652eec941b; 0x3628ef717cf14c5a; 0x3961b6e7361e449c; 0x6b5c1dbcb582603d; 0x75bf5b7a5fa7a90d; 0x3b908f0f6b15193d; 0x4e68b2a043f35714; 0x179db623d6d34a11; 0x3085405254e0df62; 0x724cc83e9b413d42; 0x5cbd9d739f8d55cd; 0x3f708a5c3f8153c2; 0x27efdd34a404022c; 0xce24c1b828d7e3b; 0xb0ac533f93a9037; 0x6f4cc8b272b21923; 0x433bac94c450d7ce; 0x69265da82a61eae1; 0x383e8f34b50a62c8; 0x45bd2157928657b1; 0x6e0c7ddddbb4cb47; 0x2646289849233f8f; 0x37651f64d846940a; 0x30790c5e687ef458; 0x4975f2c3449fc62a; 0x6200f469d1ea14b6; 0x99738b0e034ced1; 0x2dd47d0ec6f5cf74; 0x6ddd627a9a600647; 0x7f85fc14f8e76df2; 0x45c63d683f355c89; 0x523280757806eab9; 0x39bce39a3ae3213c; 0x7806c429559f48d1; 0x1acf1f5b6b786dc4; 0x295699259a402ba2; 0x39aba47e8dbc67f4; 0x27f8bd0fca59f7f; 0x14317bc9a7901e7f; 0x17f9276138924f31; 0x9c0411cc3add364; 0x1ddbfc70ed8c57d9; 0x3d21329a896cd9a4; 0x7cefe0c079e0e4ee; 0x6934526937eb28a; 0x46b364687f9cc5b7; 0x52b5210407a4ca3e; 0x662799b9f8e77cfa; 0x7986b6256aebf4ad; 0x4fe4e9b6bc58b42f; 0x79e174f7f7a799ea; 0x55cc46de3a160396; 0x2797e3faf905181; 0x5ce3366bfa8d6cb7; 0x4efb818072870858; 0x2b08688b73602ef2; 0x4ae145d6fd7a0599; 0x250e231c7267a4a0; 0x783f525357f8bf14; 0x78c4278d323561d4; 0x192ddabb3b9150f9; 0x3bad5a3ce9b78797; 0x3bc5ddfe49368fd0; 0x610825bebc7b247a; 0x4b3870c0ff2b3ed3; 0x76d3e14ce1e2acaa; 0x1e244e3d0fc5b55a; 0x4efe4a5d865e49a2; 0x65ab1e30d01ae386; 0x3798311e719c4471; 0x6763f7ccf6ba86aa; 0x19cb5c35d289806f; 0x71dfdb5ad63e12c6; 0x33ff0129bb948f2f; 0x4067bb178567ec72; 0x94c851d467826b7; 0x36be7183f98e59b0; 0xf69a3dc4ff91805; 0x594f2d9af4ac9ad2; 0x6087924cbf64f26; 0x256a04f9feea6372; 0x48679d57ab9cf588; 0x22e06e47377cb364; 0xe1fede1d93123bc; 0x3a6487653190b39c; 0x717ad2bf2489b1e5; 0xd65c0d1b23bcba; 0x254794764582d65; 0x2ca4c67a4e984c31; 0x5d924bb26874511a; 0x2690c7181af5ddb; 0x71ca6f6f134e96f4; 0x503d481efd2052f1; 0x31b67edf177094cd; 0x2a1878614d9a461a; 0x1748a63cba922c15; 0x22632186df042027; 0x495db8f97c84e659; 0x3fee3bc0ea59d331; 0x2e097f50f9f3c775; 0x739c4350bb816e37; 0x5ab203da256162b7; 0x619d7fda56237105; 0x34ccb33ed8d803c0; 0x74549aa3d99c95c0; 0x1cc3e4918d07467e; 0x5c4065f2a09b5d6f; 0x3e559b0042472ce6; 0x18ab3ce5fcb9424f; 0x5e95bd8c7815014a; 0x217ed794421affac; 0x5910f86f9612f4a0; 0x4b4c73e76cc06211; 0x7d6429435f7b41b5; 0x7dae8277eb273ae6; 0x34e71af44b5f90c7; 0x45a0216dddcde301; 0x3bb9ad1423ddc062; 0x24d94ea105c20402; 0x44d15aa26370c407; 0xc5c638cb07082ea; 0x226c14c2e6886f4a; 0xca7fc7b651f0742; 0x6dd233875125ae2; 0x960f64738a8ef87; 0x32aec01c5e4c568e; 0x4871e976ea7382d; 0x4b3ef7fc03b4ba33; 0x4a59f65fb22debbd; 0x6eefac6d987bff3; 0x590e32f26a381c0b; 0x4cd73351c4b2d0b5; 0x1f6394b1b2afda54; 0x6e0dbd96fa94f6e4; 0x5f7ab89e7865c2b7; 0x66600bedf0931531; 0x20d57d04ebf8d4d4; 0x448e9783424a955e; 0x605c272986544f43; 0x7a5a615f5332af74; 0x708da13d35252ce8; 0x12bb012ed0f1e093; 0x309dd002f0da90ad; 0x996277989777e3e; 0x51cc7bc9eeb5e4e2; 0x29c75ae426eef61d; 0x6d8fe64e8acf92d8; 0x6d290f0d2d78851a; 0x36a7f7e9fe7a63e3; 0x29e56f99db416eec; 0x616baea14d4b294e; 0x1b72746573b049f1; 0x5c21d4b77473e5fe; 0x2fbc9eff1e66535c; 0x6f0379e31bec0eb7; 0x27d0387ff4814aab; 0x3ec5712d8b103fb1; 0x13af4d97b754f72e; 0x3cf6b93b5d5a5054; 0x1be8ee7c2d9a31fd; 0x6d59253fed052cdc; 0x480d9346532f63d0; 0x16b054e5edb6c2db; 0x544172e0c06b16b0; 0x28a6646c98eb46a1; 0x22bc09bf2f34ebb7; 0x42059b154838f122; 0x4bece016d2aaf14a; 0x7e044458d878d749; 0x1ec4c6e8d493a2e5; 0x725b2514ae06c989; 0x223e2664018d2586; 0x586eaed73fc6de8d; 0x6641743aeddbaed3; 0x523485e92fa11653; 0x784b27246ca76e57; 0x4c2b2a0ae96ad92f; 0x48dc777046731e21; 0x23716b2229187b7; 0x37839ce5414ff8f5; 0x2c11c5bec388a821; 0x6016594efc3cd3fe; 0x407811f9a69e73fa; 0x2c652597331cae95; 0x6f7f06e530d29b68; 0xe9e76b6933740d4; 0x2c9db93dc16cdf5c; 0x31c39a0eddd6be92; 0x1ae91d555195d5bf; 0x761820de6dbf2da9; 0x42bac11a51a5f842; 0x5e2331c047dd4397; 0x1947f4f63c0bb6e1; 0x441b36d54a546609; 0x36848c13eefd445f; 0x28dd30a595ed9c78; 0x3b858cb63f83d8c6; 0x91cfb035c5b3ea1; 0x2a0af31c0222e59a; 0x388d6a15de970d06; 0x2d329008124fd2b; 0x5ddf478fb0eb6023; 0x6b37141416365b79; 0x3fc65ce7f7c945f3; 0x439f285db7ffb8af; 0x5217b001c8a00b32; 0x3969397f5ca680e1; 0x4e9203ac12f7c7e3; 0x3a89c8416bc5b1b9; 0x3ec197251053eaed; 0x2017d5b2e2cc2cd9; 0x197e004c1c1d79ce; 0x28e9677f0d3abaaf; 0x60f352f19efa66ba; 0x3a71e4dd71bfafd; 0x3b4a29f53e0ec243; 0x24bc43f1d32721da; 0x6ce9223c1240cf1; 0x34184513716cfa5a; 0x1d370f6cd7031f9c; 0x110f4daf33907ea0; 0xcfe347611c2a5a9; 0x700cb2bb2dedee80; 0x161aabebedf619ff; 0x30d9853282807c84; 0x4c8b08633bc3bd29; 0x36d2a42d0de75ea4; 0x3a6ab04176dc2f1e; 0x7466de2069875fc3; 0x4ece1c76e17df254; 0x7cc1f8f379dba51a; 0x4f8fb48b184e714c; 0x662a15bf156fcf94; 0x6381afadeed18ca5; 0x2147a8ca2cd470f4; 0x71fbd3c144a75d68; 0x5c36689e05d47543; 0x3be3ec519a222df; 0x3ac75d58b1613496; 0x7942005941e2ec6a; 0x7f8019f65d0ffcdc; 0x7e32212744e2d38c; 0x340669];
   [0x25559b0a2f35fe32; 0x29f55da198babf2e; 0xfe19e0cf04bc49d; 0x6377279fdfa9da70; 0x7fd5b4de1a83c372; 0x387fb7dac44ea3bf; 0x36acb286fe10a2ab; 0x34d2d11e95199320; 0x75d52dec2d06b4e1; 0x4d239d4f0d30cf03; 0x68cd1f0590c7fea; 0x26eb18f93a627b2c; 0x39640e9b656f33c0; 0x2664b2aa516e26b6; 0x18bc7eb50eeb0c2a; 0x1ce6f91cae9b7cb2; 0x640be2a7e54cf1b8; 0x2e691eb02e0d9a09; 0x7394e3ac0aea1c2d; 0x43d1c76a5ad9a83e; 0x1b7461989ab2b9e7; 0x6a07908c91399b7d; 0x78e8d3ab496664d9; 0x7c09280c68e5e570; 0x501e45ceced13790; 0x209804c1d3e4d74e; 0x173ca84f4a45841c; 0x102ed951b09aca38; 0x5b1d9bee0394dc3e; 0x4fc7214ba0e45fe1; 0x5604d832c522c4eb; 0x4885eaa671c5d680; 0x28235b5dc095e688; 0x5a6283f6506373c7; 0x44184a2f0e8c4035; 0x3215f2cc1c86fd9c; 0x1a456433396c6d9c; 0x10f66a2572541145; 0x49e41521b5ef42a4; 0x50f9f9831211f273; 0x238d6b5dddc48290; 0x3b3a16d26a6ef82d; 0x4722f901e68a8543; 0x5da8b8ee7f2cacf2; 0x7dab2cc2aa3e7464; 0x3321ee81e2332792; 0x47b4c659deffe9d8; 0x82b847a5492fb70; 0x20d00439c1ec784b; 0x661f8f8847a11ba8; 0x23d8d4cb83530149; 0x500d08e3d1aea45d; 0x7d3aea1a1d1e86d5; 0x34240034e8f4b824; 0x3ada07ad403b6616; 0x350e79d737e7a07; 0x45ff3be13c9f6569; 0x97ef76126db5008; 0x194c08a9ea30c6a3; 0x42af688de2547749; 0x6a23d490d1fd52e2; 0x3f545a6390aa68ed; 0x3f93a8e6352458e7; 0x601b6733fc715788; 0x3d220b434c82ece4; 0x3b94906b17363f5; 0x7be98a13aee434cf; 0x35e9c463d5a2f634; 0x7e18d0d567e5a19b; 0x64a00e80bbdae1db; 0x1d56c6b5f0688d27; 0x2cbce883c14dd246; 0x7ee2e9df3cbf0f8a; 0x5ffeb7957daec9b2; 0x51f73f74375205fe; 0x410b2e8c3f28c053; 0x39d56f469aebcfb4; 0x5d57a2ee7a04669e; 0x6c8382bda9eb6cf6; 0x4df56e8a58420109; 0x2e7ad549432b05d; 0x2ddba8e03b5e4122; 0x766da46c72c7355; 0x125aef9ba556e191; 0x3da16b903126a827; 0x7e47ea685fce28db; 0x36ce89c2ccca7b22; 0x727cbbdac900ddca; 0x4cda3f38e32aeb2c; 0x4355cb9fb2343a0d; 0x48a083c45c1de28; 0x60bb4ca57f010a9; 0x476f829a7c3e869a; 0x7b7a3990c2a7092e; 0x2a13b4f28bd9548c; 0x43d3f586d8aeebf3; 0x1d411ee018a2554b; 0x6baefb4308fbdedd; 0x2739c7b0b9ff9454; 0xfb55962b8a77725; 0x2b342d85eba87c29; 0x5febeca9cced1d60; 0x20ae2d3d295df445; 0x53a5f04a960ede14; 0x10223ef459158cbe; 0x30b245a8e0c494b9; 0x70d79df8ddf92967; 0x6d0b5b83f9ee28e; 0xee106fa566e62c7; 0x4003959649c006f6; 0x5f64c67ca392a13a; 0x6891240ee2cd86d5; 0x2bd1dfc3b24ddecf; 0x6c831dac823ff3a1; 0x3e3e38adc72c8d11; 0x2869ce35033c8b5a; 0x22c7684d4e759380; 0x6e54f7c0333caafb; 0x2e7deb00ff9017ed; 0x4cb773bd9b7b5893; 0x7ba6852783ecf3ec; 0x2a85c69e565180d1; 0x236236b84ec233be; 0x314c7abc36160326; 0x5239d67b88ad55d; 0x6ac9cd2cdfd6188c; 0xb42daec6b1b7b3f; 0x5a62da94510ce7a; 0x25db20426a8af76c; 0x5657c80b2ce327b; 0x4fdf3b467e6642d9; 0x1f1e4ac03a0d1f65; 0x7d9109f31d59d33a; 0x52e4f8fef666ab2f; 0x5499d2111dc79ed4; 0x1ef46c14c4a42895; 0x50263776e8b1ad7; 0x6c7e1fad544d56bf; 0x3d32948bee89eaa0; 0x30338a03248d15b5; 0x630124b75f199a0a; 0x1ab3f0c7c2e9eb81; 0x3ea95ab16d12a76d; 0x7b572fcae79e3be0; 0x46e3d208965aa15f; 0x7dc4c04e705f6195; 0xe17c11bf217cd30; 0x7a1a60a7990cccab; 0x70b462aecc5e63ca; 0x478b7403bec79212; 0x52c1e66f413becf2; 0x128399fe646d8e2f; 0xe237dbb0faa2e75; 0x7f1f76e7c955ef48; 0x7438d06c7e112d89; 0x77ff5748904fc620; 0x6ecb6f1532f0e53b; 0xf1c8f03f6dfd0fe; 0x537eced4d78a1397; 0x5cfdf528a10481f0; 0x319d983d606da118; 0x7383e3072ad1615a; 0x1151be28a841e0d0; 0x845dbb8e52f781c; 0x743a015c36789717; 0x27c2f2227b81ee6; 0x6b1583e95fd636b3; 0x12d9e075496143d; 0xc720e4cb3ee0a63; 0x5f169f0a8c57021e; 0x6d6581e074c68134; 0x770eb47e9102933c; 0xf7f2b49b03ecf9a; 0x5bc0989234609526; 0x7cd823befd19adaf; 0x44de1f64c436eeed; 0x375d2291cc624bcd; 0x7d7852097c8d6b31; 0x701f9999a1741545; 0x52da9efed13081ec; 0x26c62ae60737a34c; 0x53bb0b0d8bc1db38; 0x5c7daf9074506a65; 0x1b72477ef54e7303; 0x743f65a3ca30a65e; 0x4a90b6f88d262716; 0x75dad4bbcedb9bdb; 0x17d88d90b4657065; 0x6f843f0d0125f726; 0x10ed3fefdc787f31; 0x6f6cf51470c9e40; 0x7e3c9d3531dbbe10; 0x11ee00407f2b100a; 0x7d09a1d831a43a97; 0x8919eccf6a918bd; 0x62fe05d87dc150aa; 0xe43c336b516cd0b; 0x7947655fe4464bf3; 0x7b06b305b12ed0fe; 0x7d62fb3391acc4d2; 0x271b675d2fee0855; 0x37e5bdbb6a56db74; 0x504391786544c6f6; 0x27c750842ad2f411; 0xa75c16fafa44cb0; 0x55c8767703b99771; 0x9125d87c6aad2ac; 0x58f6f9cb7b809351; 0x5fbbecea443a19d3; 0x419c5d33b5083f11; 0x695faa0c2251cdf3; 0x1601b9d09c15937f; 0xc9888cca99c0481; 0x1dcb301347ee1260; 0x4e63f3b1e851a81f; 0x2be2b0eaeb93e477; 0x6b0e8b69a5445435; 0x7615a6eb976c2ee7; 0x3fde1f8c5f699d37; 0x2ed0c995278f95a; 0x4ae32f9c50f80d2c; 0x1e517a5d6026fd64; 0x10a363ab746699d5; 0x172072784f48c239; 0x264dbff54ed615e0; 0x425c4d3652563d10; 0x12cf31889cffbb93; 0x7e5ab506b11d815c; 0x44a8b40d8180b68c; 0x303ff5b62d1ab7d5; 0x2f18614bed5d0470; 0x7868df0da2660982; 0x4b5fec4385114316; 0x580183c90d9dd713; 0x27e1bda8d8df3adf; 0x66be6b9007df58f5; 0x68e0775b491e4391; 0x7fa64d01c0fe364; 0x3a998148024702a; 0x40541a9285163e1; 0x1b079433373587ea; 0x142abafc597bd4a7; 0x47175ea10b244855; 0x18edd43e72d675ec; 0x72ab56d7a0ac8b93; 0x24c13be93367b77c; 0x1361de43fa1d6144; 0x17725b36ccf15f94; 0xaca04910186d356; 0xe1a1fe819f47efb; 0x2e43e511441c9931; 0x646f344d87daf296; 0x1dd6544b4846b8a6; 0x5c7e15692c2bfb76; 0x60cac2d52915d524; 0xbdde36f5cdbdc59; 0x5158c75ab3a44d51; 0x4261995180336de1; 0x7110aa3bf0d761c9; 0x7febb807d11d1f55; 0x1be91ec02f7965d5; 0x5463840862687e64; 0x698274922e989148; 0x6a86d9d682fba02d; 0x37f8bcb791f029d9; 0x73d8287f7c585f66; 0x173415d7b04bac5b; 0x587cf4e5792f6fea; 0x6ba8c69b40c60d91; 0x4b6ef9b6e00e196c; 0x36a925576b094305; 0x7e9297df493d532e; 0x3ef0c3146cd9c695; 0x1523534892b3efac; 0x1449d61efd5d48ed; 0x7aab75ca54f4ddca; 0x17853881c09b0c61; 0xba5260bb138e787; 0x303b47b71007a2ef; 0x45dc1ca39cb6cd60; 0xb812983569a043; 0x15acc38ac1ff60a8; 0x56951be78ffb468b; 0xc944101b085d602; 0x480894d72a44a859; 0x1f64d1cdbfd5b5fe; 0x2680d5976876478; 0x717c11d0ad161304; 0x575f549bd93c158d; 0x6ce327f2621ddd69; 0x5ff54361fa021c08; 0x715d89f885d78f84; 0x766b02770fd32df6; 0x6d599658a41e80e6; 0x3a85e39242bb7225; 0x7645694ee6221d3b; 0x1493994adba2f5c4; 0x42d62bf63352b056; 0xdc5e4b03c7c077e; 0x6d644b34dac99a34; 0x37fb9506ce0fb19d; 0x593bb62c16bf580e; 0x247cf63c0b3b0e9e; 0x32a2e2bc43d0fb77; 0x441bf1d1ec56c09d; 0x30c1ff49003dbbfe; 0x6fb6ab47e7d00222; 0xd4f6bb9a12399e5; 0x3d1474f63f6c4399; 0x285b8b443f739309; 0x21aad64e4691e67d; 0xed692d0f504ce9b; 0x1b99c6d145540abf; 0x6e3b5827abe74a87; 0xffa9dad4f4d9bbf; 0x5d6b40d39488a15d; 0x17a4859499e787c9; 0x12272c];
   [0x4aa5939927d3b4dc; 0x3874d6f904cef550; 0x155304e3cb47f877; 0x256d90fd634fa58f; 0x5fe2d994de164702; 0xba6c8e05506c445; 0x204124d1a7d477aa; 0x2e7ee54c6d3b5af3; 0x68c71924ae7820cb; 0x3c53baea24422a0; 0x22dede9c29b4436; 0x5a45e30059443c23; 0x23fd1a8a942d917d; 0x71870adc47f3a999; 0x1912010b0186f451; 0x730ee4972c550095; 0x61be45d93c7956d1; 0x6ec47d52c0e660b4; 0x243b55e5dc20c93b; 0x5d37ad5f89c4590b; 0x26fbae3b4c7e57c6; 0x57cfedef1ef151e0; 0x63ea7ae642d63c6b; 0x543f67ecf535eabb; 0x2b0967bbde9a69c9; 0x360aa92e075d71dd; 0x77b9892df4afa9a4; 0x3e5d2a61c0215a8a; 0x2d740bd7cf4d47d8; 0x2d290498ede2eac; 0x5d708156ed0568d1; 0x67c2bcc28a354568; 0x1610547eaeceddfd; 0x21ea11bcfce0d105; 0x169b2f12905b25a6; 0x3fbc6dfe019f1a90; 0x7235b97a625c0fab; 0x126a4fe563da879; 0xacb7d28347aa7cd; 0x4b7e90eb718752e; 0x6c27632467dd60d4; 0x408743741a22d1e0; 0x4bb25c53ab50e149; 0x775e970f814dcb45; 0x2e4036d9019d22b8; 0x5c44ffcf2aab674c; 0x45e96dc3560e0fc6; 0x8f5ec773f546ad; 0x4f89be45f52b3634; 0x78f0fef1e8073bf8; 0x265a485fe7813987; 0x4f3edfe2e5722120; 0x46bff86015933d2; 0x7eee26e52b78ca02; 0x2503e3b4bca1a32e; 0x3b372338ead46dba; 0x4f9955f70aea3fc5; 0x2eda5ebf0eb1b4d2; 0x224fa19029b6fddc; 0x9ddeb3c627ba51a; 0x2e17b08a23d23df2; 0x455aca2c1e376bd; 0xf45a8213a2f4048; 0x53ad7702f99a621a; 0x39989ec5cddc9923; 0x13a40725e0e523f5; 0x6d08c81c8366e1d7; 0x4dc6148db100b127; 0xecf48e030d1dd62; 0x605d05cc8b3d3e59; 0x1698faf5121c88d8; 0x27922180f4c796ab; 0x404fbc77e0fda58; 0x201e900ea999ef1e; 0x61b48823e94bc88a; 0x48478d20fe190d51; 0x37fb9c4a2142a54; 0x7e3c39a39c2ec25b; 0x22f19526e6bb54c8; 0x6a544497e9559c3; 0x6e8de87c188ad75e; 0x51d927ecbddd6de5; 0x53fe32cb639085ab; 0x7d984b59833b1127; 0x6d4b28a6ae11f978; 0x348b51d91fb7a2b5; 0x56204c16e3cd0230; 0x3139f771ac9089d6; 0x72320cad1c468472; 0x5454ae44723879a; 0x5e84a7e9fa09283a; 0x5210f6bc9c8fdd92; 0x35dd3f73957cb344; 0x29e193f8bcda173f; 0x3e8f0e76e9732841; 0xa48d074cc526e75; 0x6e58090ecd893caa; 0x2cab41491d080144; 0x54a8ad8828154dbd; 0x74ef296e60602c45; 0x156bdc3aea10425c; 0x2099c1bb05b1a978; 0x41d4ce1c8a0143a8; 0x7a279b46043c0a5d; 0x879377662541fb8; 0x86f361cd2ac0c08; 0x19767813c459215; 0x3e3f66ab7bd1e5ef; 0x331b2aeccf31fa43; 0x33b8348752dc4fd4; 0x2e4491d658399a06; 0x277016a6f5ece500; 0xa8b5cb5aa980986; 0x3fa961f587d6e823; 0x6ca4dbc7631216f2; 0x55bebbe76ab82097; 0x795ca143df4d3725; 0x1d4532a1106399ed; 0x15c1413fb5de48c7; 0xafc67a6b2e0558f; 0x751dbfafc460b498; 0x1689f1994a6c9f3c; 0x2f928b20ff69239a; 0x702190540bad4a1; 0x3595fae4d471848c; 0x5d7b17975aa038a2; 0x57299ace1d1c6cc3; 0x77275a4d03691934; 0x1caf49fb3373fae9; 0xb5f913db8355ca8; 0x2101456bbb277b9f; 0x1ccf7b626125f818; 0xb5625423ffcfe93; 0x20224575fea8b7be; 0x608af4718685c4fd; 0x7b27b07ec8dff329; 0x25cfb99e8f0c777e; 0x5d68981071a39f40; 0x2c7047bfe4440b89; 0x21647261b0d88cd1; 0x58243ded60920cfb; 0x7a4a32918346c318; 0x68541f39ff1643ac; 0x7bde4777b6a1501c; 0x716527f7c6a19bc; 0x219795ee01ca0163; 0x73fc8e7f915f8089; 0x26e44f102cb7a5d5; 0x2e895cfd76f94235; 0x3a4c011a59363605; 0x4e2f6e3eb44f03a7; 0x1870c921a76cae61; 0x2cb1c13ec81fc6a0; 0x69561a5d3e21075; 0x23489d5a3df72433; 0x3b0beb72d3ecd6c; 0x68fe304c24d53770; 0x1d294090af2d96f5; 0x233b9201bd05c8e; 0x7496e4a7e34e33f8; 0x7646733deb682f99; 0x132ceea30474304e; 0x20dd20e65189cea0; 0xc40e5ed908d3523; 0x4316f22ecb2c9a15; 0x1531c9c4d69b8ee1; 0x177080a7d8833fa1; 0x768bf7ec0fa1baf5; 0x7f64e457d5d94f97; 0x49b315814060261e; 0x56e2abb876816424; 0x513b159f670fd38a; 0x508d0f239db5f7e6; 0x4c641b6ed2d20a6d; 0x7328d757fa795a17; 0x7dd55774ffa97f34; 0x3031a5c2fe590f85; 0x35a6c1fcfb448887; 0x4a73d2e1d9f80b6a; 0x4e5cd8b29d2f2356; 0x18fcda64d48b4a29; 0x5e9206bdc9d297eb; 0x3c5ae5fd7b27230f; 0x779b88840c0cba93; 0x7c033629d5d77d05; 0x2d40e9ea5dc02fd1; 0x4280b91ad6a6e423; 0x5bff609cad399acb; 0x35a1797b2aed4f0e; 0xd73acc317e6a363; 0x53c262b771112477; 0x5ed96acd587687a4; 0x207a6a03af491f3b; 0x231ed49122306562; 0x4fa3a9e127ed5110; 0x378cabd04708d6b; 0x5ba01c8fe7ebc586; 0x25c840d0e97b0084; 0x6365ae4247474e7; 0x7ffec1f9389a8a4; 0x284ecc3befd0ef5e; 0x2503b00e52ab3a43; 0x5a49d0957370626b; 0x674e8394628ecf54; 0x5869cae31b92c04d; 0x62027c9e8eddfdcd; 0x322715c099bd1095; 0x61c45e95c44cb6d6; 0x2ef06e8b1d0dc76e; 0x3f9744e9f59504d9; 0xf8474c592baf54d; 0x5641d68fc6b848b9; 0x6588016475c98069; 0x5088b0c99d1cba52; 0x730f917f21525ba1; 0x3ab800ca635eff99; 0x78481fe639d79197; 0x76d0efdb06361322; 0x7183ff08a8058296; 0x1b3e4f4edd91162d; 0x253da960c8147472; 0x2c14a6a965d0d6de; 0x2d8e5b0a65615fa7; 0x5e603acd6f3c5811; 0x54aa68d0a86cb8ed; 0xfbfb2486ab5986e; 0x5d906f08a9b02404; 0x3bb96247c76d1a7b; 0x2500bade88644bbf; 0x529f98590abec8; 0x6bd8411d08a22de4; 0x1eadc9a9197c30bf; 0x668918c026ed3a1d; 0x35cda0b0f42782c0; 0x34f9eb40fab186d; 0x31350e60aba69e64; 0x319b9c7edfd91f32; 0x99dd13e5fbf79d5; 0x3ceaeb911817b140; 0x43654a0958857933; 0x47597452961b0793; 0x4510a813b6dc643b; 0x5077bf33e84e2fc8; 0x59e461f2d20ef7cd; 0x1899eacee2ef360c; 0x610c4d621e280dc7; 0x3b2d5954c500abf3; 0x6612efc8e55cc3c2; 0x2e5fd6e084039098; 0x2265dedb75cd7f50; 0x6771b85a53a9f29b; 0x3513c79a774b687f; 0x5c8284a95a611ebc; 0xcc2182ef9a5c3e3; 0x2c0d29d7b66f11ee; 0x2d1eb1b62b817337; 0x6d546a1216682290; 0x6fee851ecfe1c576; 0x55d236d9e5336d9e; 0x3a1483893179c9b8; 0x612345cc06639fdc; 0x41fae13afc632e63; 0x177024868c12ce1e; 0x1b1cea83175377e0; 0x7afbb3f1365a0ae7; 0x4bf0e7f495de59fc; 0x46efef65b513428c; 0x64fb9fc93e36e3f4; 0x24794cd7053b0ac5; 0x2703e640e152d345; 0x3414556f130d7b83; 0x1042cf4f2a71198b; 0x566041c50c2e1dbb; 0x18c75f8941a5e0a5; 0x20cc153b5ad8ac10; 0x5031c25c02bf13dc; 0x215548b79ce475cb; 0x59dc3950f6408126; 0x7d8d7962dcb236a9; 0x294400dcc466c10f; 0x31be927a450cc82d; 0x41dc890e9163c070; 0x576d2d536baa1e7c; 0x6b0331b458d4545; 0x5da409e8219be706; 0x3cd3e77021ff4143; 0x18a2c47c4f0bb143; 0x27bf6b313446e8fa; 0x3e341aed7a8eedcf; 0x5c6f1bfc2c7661a0; 0x17ed90e62a117494; 0x686ecaa284786483; 0x7243540e082d6443; 0x1b49c952861463c0; 0x7e3264bcb0ed6c34; 0x18f887fdbe92c4c9; 0x9b78eda16596ba2; 0x28b3c68f59b1333; 0x10dc98ee3c16a1fb; 0x2e072812f9e404b; 0x3170047ddd544125; 0x7403d931b6699696; 0x21248c37f84cde06; 0x7790d6716dae3c6b; 0x2db6e7a476f6b071; 0x75e1972562b20d6f; 0x61a8323fbdfbe5ce; 0x6694b514e645b4b0; 0x2ebe2df07af3e745; 0x210f9c0d170f7d60; 0x686aa3cda8b41d1d; 0xa604ea2db181725; 0x185703708ce2561d; 0x562e93bdfba0b94e; 0x7c5a5bdbf273f984; 0x2a21ae4ddb22db6d; 0xd7f929c65b89079; 0x3a239f];
   [0x31f9ff2d8bb6ae75; 0x66787a8aeed36f1e; 0x1a3f16a3a78c7325; 0x7606015e13d1b792; 0x274772fa31d9e4b4; 0x504f5cbeb4e641a4; 0xfb485cb016895bb; 0x7c328e7b6828469b; 0x6de008aa2f353ce2; 0x221d9a771e2467dd; 0x20e9558e467d8df5; 0x6a8b6e72616c0b05; 0x34f9633e85395550; 0x3eb179acd5ee7bb2; 0x1f2318c6f26c6569; 0x6b1f83742c72e4c9; 0x31b24a622e0e9c4e; 0x2084302c12a00244; 0x73bc5d4d4dd5f726; 0x408dbb5aff9a99c3; 0x32c0b083aa289264; 0xf8e30c02d7fb494; 0x21d2ea94276abf1e; 0x3b5eb0595ea0aaf2; 0x55e2f4c221266cf9; 0x74de03e943f13351; 0x147c74216cfdb7c4; 0x917b092fa710c10; 0x44a7d93b8341ad40; 0x4ec0351eca00591b; 0x6a2e39e84c20187a; 0xeabddfb35f910b9; 0x743c667675387cb7; 0x3cb349d025c45a02; 0x135ebfa0a083841b; 0x70957287c3cdfa27; 0x21a06e1ef3e4dc1f; 0x20a9c6c0c8f2f831; 0x3eb9331569c288af; 0x2f51f0a289709708; 0x15f3884bec5140c2; 0x1f96592c5b939954; 0x5d34b8af3f70b4d4; 0x51304db09aefb1e6; 0x4ec299c2611505ea; 0x27053d99da96b9af; 0x4725665c2f65fd84; 0x287f2f4e86bc27fe; 0x79fc93cabf0d5931; 0x380ead275d30974f; 0x5a3c1d0467cf83b6; 0x455dc7680e6ba741; 0x19b7eea40670c530; 0x139e5e29ddef6565; 0x57ed204da52a817c; 0x6ded97596361c478; 0x14a8c24cc39a6dfa; 0x4646b6caeda5d0c8; 0x604b19b732878b98; 0x65f89df0ed0efaf6; 0x7a01ae5ac40d14c1; 0x408327d748ea04f6; 0xd9e0c38b8c480d; 0x6de519e6fb157b11; 0x2883aa8ec2a8c470; 0x23a4c70799eb0a51; 0x89e6c3a4af96c12; 0x290c0511f5873c50; 0x746d88524078d356; 0x7bc052cbf4ccecbb; 0x246d4473768240e; 0xe1ed4bf137f41c5; 0x64632350583a667a; 0x8a85418102714ee; 0x4f5f43e2fdccc0e5; 0x2548d455d11a45b8; 0x45a577610d36a155; 0x23e5e1dc4d7d52a3; 0x2b1c1199df3e3819; 0x6ade2319c28e686f; 0x19703a9b17e495c3; 0x1f439359827685c2; 0xfc4c9f6932176a6; 0xd47c0f5e67a7155; 0x17204b97b6497148; 0x45b0bc74baebd16d; 0x85364000db02fc3; 0x550d87e43295e417; 0x59789d1e3f50a793; 0x54f3cd0e7028a303; 0x676e8d8a565186ba; 0x7cbdfa32544538f1; 0x420fc848de7fef25; 0x5e86de76589788d6; 0x45c4e1eb0d800c53; 0x4ed09a6923ee4068; 0x5cd846dcf32a77e9; 0x42e0145119ba8f72; 0x279a139e18751c23; 0x762d127869fd3628; 0x12c9aac955351016; 0x4a54aae0e200e11f; 0x40ff23c358fc3660; 0xbd1a01b28c514d5; 0x411a072ae47fe7fd; 0x737cdf325812f180; 0x761b8c1cb3b27259; 0x61298e271933d976; 0x5b66c97a1177add; 0x2f0091a345a4dad8; 0x5fa542eb34425532; 0x260e67dfd55eff08; 0x32b0ae588fdb640b; 0x847d934e5c3769c; 0x79cdd1a05a59887b; 0x21a365b6c4a5b63b; 0x270b27cb305314da; 0x3ae9f5105290d2b8; 0x15a74e8bc21f47a1; 0x2bd4531be2773da9; 0xd4ef31c640a4d22; 0x548c6b8554c44b95; 0x735a5d380524fe7f; 0x5d39b8ba28133d92; 0xb7d216fafb6a6af; 0x661396e984c0c4f; 0x2ad0c72837bd853; 0x4822cc7b34be5ee7; 0x24e8c63d971ccfd1; 0xc37848d860c68de; 0x606e5a74053f734f; 0x17885c01ce0f4049; 0x71e00d1218eb7985; 0x5bb8d7d7f95df06e; 0x44c9e331cdc46ac9; 0x20904e2893a33ca; 0x1e89d86f876acc88; 0x3040cdf76eb9cffc; 0x38ef6ef2c231ef6b; 0x7f24e39b60326ab9; 0x441c6282dd62d50f; 0x86663bfbf07a265; 0x350b8ded9a59b481; 0x44ab6fc28cb1249c; 0x9a282be567d13d7; 0x522aa558be467c2d; 0x4db252789fa6f02b; 0x12b32464aaa891cd; 0x5b779cbb222591a; 0x7d6972bfba3f7fd0; 0x5d42bf4bce932953; 0x4e3991fa343d9572; 0x1c892b4767baf38; 0x935685c79cdd569; 0x3c54bf721aef8b50; 0x533d492782c7e447; 0x1cae783a01687517; 0x143df653acb338ab; 0x11d01bb81ba198b3; 0x24be2b02f43ecebe; 0x307c1443f9e79e22; 0x1677b193e783339f; 0x297d9527aebf3d77; 0xf08915939a11fed; 0x1cd7bba3ad40887d; 0x22ca55e722d650bf; 0x70c1075c0eb4c0f6; 0x6372dde4304e3888; 0x6fa43cbddd9847ab; 0x3b98f33904e67170; 0x72dde6ff51ae1555; 0x2df25dad76a4a69d; 0x55ddd1fe7b3dea48; 0x60f17f2781af591d; 0x1575d7f234977e02; 0x67b2086a97e01b7c; 0x855342b9fac684e; 0x3d12be47e09c5ccd; 0x6718288f0f5ba15e; 0x3f4ace5c08f4616e; 0x5df042435a45e276; 0x590470a3eb39a5c5; 0x428c649e69e98cab; 0x5138181e677d547e; 0x2c397e656dedb945; 0x71b4dccbd5fa9a6e; 0x557773917dfcf2e5; 0x6285b2ac8c5be8e0; 0x1fc9fb91cb6c3e22; 0x31306d5170d8039d; 0x231306e0faff8a7d; 0x7b62af865bd350d3; 0x5ecd1cbf22a0d991; 0x236df13c2b160d5c; 0x59e41ef6b7a2236b; 0x39656c9cb47b1218; 0x3a26d728e616a435; 0xe2a3cd3bc3db717; 0x2948d6aabc8f23c9; 0x50c49db21cfd5cb1; 0x700b1da2d5f77465; 0x2ada16dc2ed4b5c1; 0x3b807a04eeee2639; 0x124c6c4e05ba62eb; 0x625a254eabc0c39e; 0x3e08095d21d60b64; 0x677e598aaed91ab1; 0x1a4f7c9bac3f1dbd; 0x567f5644e542b327; 0x3c318a391efbd818; 0x15a314e5fb26cb4e; 0x5dd02e748d65500; 0xda2ff73a504509c; 0x3d5bbe68d629ac51; 0x6d11950dc6448dc2; 0x1bf30e8e6ba4c0; 0x157868a5317b093c; 0x30d3e014fc0980c4; 0x56210c6ea35d3771; 0x1b2671e01c3c5a7e; 0x43926ad41f67f0c0; 0x51b11e8cadeb8203; 0x4b8545997518bdaf; 0x57184ff37e1118cc; 0x1bab22fb3e1258cb; 0x618a715455e8c2bb; 0x25aae86daa13a3cf; 0xf73283c53948d12; 0x96fec9ae367f2d2; 0x324b918d15e3da5a; 0x556e9915d72d6d3f; 0x630df8c9502e810c; 0x561f6e6b33d4a89c; 0x6e07ff0b7cc47a9f; 0x762d08ed564d87d8; 0x7a3141ad56b0468e; 0x672955be421917d; 0x720573c93fd7abc3; 0x39e40da5270e77f1; 0x1b343bb7c82b2aec; 0x966e0a9eb15cd1d; 0x6439a5f01feb97b9; 0x14cd32c06438d4f5; 0x4286b5d2a07fd6f1; 0xbc331384021f349; 0x3eb1ec1113d5c4cc; 0x52bc621d7fd6059e; 0xdc7397e65e5304b; 0x6a57b1807735ad80; 0x5e995b2505d7d4c3; 0x2c92b1931a9ecbe2; 0x344b694538b675a4; 0x5dc213d7048a06bd; 0x58a4dcb5462df3f1; 0x1e5febf35417c0b0; 0x3ae2cffd76344147; 0x33cda30c933bbc5f; 0x3aab2162c4e6eece; 0x2a27881c36c036dc; 0x3d77ff7526a7dd22; 0x53253b48d5740c8e; 0x34fe75e700e2746c; 0x1802c33a7a3b968a; 0x795634b9c094009f; 0x31d7fe686800c520; 0x4fce9049f046e02c; 0x230bd72744b875fb; 0x7ac102427a6f6764; 0x419352977c662b36; 0x962df532f4f9161; 0x5f222eca8d1df4ad; 0x7aae94808516cf27; 0x2bcbc9a9b5587f11; 0x329d602e4031f81d; 0x1149e7ef59820fd7; 0x4c11aedbc6222ebe; 0xaa7d7c055b77a8b; 0x1c7b3004c562119d; 0x50334178437b4069; 0x24b353cb37fd3e2d; 0x7ef4dc91233cee57; 0x43a6bf427785cae1; 0x1c66619d9a86e813; 0x601d65829fec0c37; 0x6c904f72f15371f4; 0x20e674876a36d878; 0x6bad9af82c3af650; 0x238056dd150db79e; 0x221dc7487d3bcb87; 0x27f747854397666e; 0x4418aa52e9d788b7; 0x3ae5594eaf881f9d; 0x5d6febfa7cd5147f; 0x4dda593d57f84e42; 0x5878bfa41ec4a667; 0x4cb5244cf7b329dc; 0x23d88976181753f6; 0x13dccbb5b33f8e0; 0x4a7ed7df3169701a; 0x576037b88d4336c2; 0x7125eed89e229488; 0x27d48073bb184c10; 0x6840cc7f4f8f66cd; 0x7cc73ac357afb72a; 0x46759fe1d138c08b; 0x602e03b86a35520e; 0x536e4f6491a537c4; 0x5d34492ea147c5bb; 0xeca2a4892a7eb2c; 0x4beab7bd08b119eb; 0x42983ee5238443a6; 0x7ba562992d45f808; 0x518b8c2cc7702c18; 0x6b180893233ba940; 0x28a938d03afebb15; 0x117087ebacaa696f; 0x175c395a172753ba; 0x30de02];
   [0x50a23beec44f9668; 0x3e32b88acce43e3c; 0xa463f31261d1cf3; 0x97c51dbc65cf08c; 0x41e501dcadf498dd; 0x6301fa34c6931ee5; 0x4f0d68664c1dbb2c; 0x6b65ec5556b9b076; 0x255300e69f782604; 0x219a3c0dda057584; 0x73adaab5d1c4627d; 0x6ee11f882c9316e0; 0x4d6918fcddb22503; 0xc2eab33951b0ee3; 0x29951af5d1cd36ea; 0x3e7e24ff0ff72167; 0x3b927ed254b28183; 0x66a4c0880c66e675; 0x3a4d7e83fa43310; 0x30abf791300b6039; 0x19a112f638fceaaa; 0x5a9810cb9bf39023; 0x469e8a5f5488a08c; 0x6ff00c69fefb750e; 0x224b48dd27e0577b; 0x1d7d965f6b9b8705; 0x339792d945af50ea; 0x3dfe1b800be6f57e; 0x5b75ea0231bfe7df; 0x1c68ec6934b363b7; 0x33382c1d128d4b7d; 0x578a8ffea854aab6; 0x1aaa300f09b5d71e; 0x6c793bf9212b377c; 0x1bed06857f67e875; 0x199495127180def2; 0x2c15939ee6cbcf85; 0x3e722c99e41f05d6; 0xbf2e335ffaf7f3b; 0x5f248ba6ebf567b9; 0x5efb5581738c6dee; 0x319ed8bbf6741035; 0x214aa69f74175eb; 0x719ef3d4f9ffe0a9; 0xa4dd3572990144b; 0x7535d6dbdc0e667; 0x38b7970120ac4d62; 0x2b58eebbca242c57; 0x4bc9fa284017efe7; 0x4e1d485773d7c5b0; 0x14e6a00b05158910; 0x8e7dfa9d50405d8; 0x17b577911c7880e3; 0xe4002eae710a738; 0x6aa459fc9cacc3f2; 0x356936629ef9848e; 0x753447fb928d9bb3; 0x3498c85bd5324ac5; 0x7cdc720aa9a25846; 0xca0e6e6c8eeb24; 0x196141c58a7627a7; 0x7265c742bbdff25; 0x1db08ede7095ac12; 0x6c10d573207e417b; 0x7e304e26ab72c3c1; 0x184bf685a8e447ad; 0x235fd3ced9a49575; 0x7869b557f01919aa; 0x6198dbbc2254f175; 0x6bd1312a597804ae; 0x6842bc3424f73421; 0x3ab7d266a59a996d; 0x2ae5375d2b7fbc2f; 0x1c0536faa769ecc5; 0x4b862e800b50205d; 0x34e7627d800f5315; 0x6c94aed8b24fefcc; 0x1cd762f52c2bf901; 0x3b52ce140a471d7c; 0x1efd8fb9ff029122; 0x652db38c01c34a84; 0x5c8905e120ba148c; 0x2a1021ceb4ff6a1; 0x5e202d4c4a849bf0; 0x6141c92cecfd0717; 0x69e2506a42c87b9d; 0x55c4cd67108c1b1; 0x50d3f35ae0c3236; 0x95a2657ea7eed1a; 0x1351fbaaa25e0441; 0x16e22ee5c4c023c; 0x675f7da6b2c10937; 0x41ed491e69856f77; 0x73d114f6dac02d25; 0x523058836f2260a1; 0x2679fd16056f8cf; 0x21bb88b2901995e; 0x5b25b2d9788d9f4e; 0x571104308ccf2279; 0x8b532f30d528748; 0x4d44b2630c0b34a2; 0x20f973f1bb521f68; 0x5913e2122be9ac27; 0x1f3cf9398d38a768; 0x1e219855f2ae162a; 0x82d599b8a321c9e; 0x395838fa7b515f46; 0x3dee622c22358658; 0x508e04c7a6912618; 0x3a3e270d333cbef5; 0x72fea2053686c933; 0x147bba657861a184; 0x5fde63feabe68643; 0x3c234c0fd30248ac; 0xad27098197bb38d; 0x12172821a9237b25; 0x21078b3dd50d431d; 0x6bdd7beecdc26e9; 0x1995ae4c4d26069b; 0x58118e94a87084ad; 0x545ef0485b9c6168; 0x95f9af40c1f9a5a; 0x4dee82ecb277d093; 0x917a05f1f149907; 0x5ab7c834d26d0d41; 0x591ff30633b4272a; 0x4faa4a5ae1d16567; 0x3954333b5f332a32; 0x6cc842c423a51331; 0x1a5c5030a1e2419e; 0x3b5707f8dd1b79fe; 0x6d6c83f4eeff2beb; 0x67ec6583df43b600; 0x7300b0ea1d0da8f; 0x41350dffb1f1644d; 0x639bd71678ce87f1; 0x22de74432318509f; 0x6143c8e56bf54838; 0x7ffaf0dc113384ab; 0x50c4bd938925ae80; 0x25f5647b773b111; 0x12b2906cd268dd43; 0x149eaa425ab49c1e; 0x808a139463ca7a8; 0x37ab543da6d79754; 0x7050d497dfddf214; 0x6de097b8901f2adf; 0x7a45770decaa23d9; 0x2216f31ea9a229c1; 0x65644e5c56fa970f; 0x751a025929d26e99; 0x750f5491643fdf1b; 0x4b3a5bc5db0ade3e; 0x5445c3b6ddf45823; 0x3c47ab16ef7c2407; 0x1765b6ea1c9fd5ee; 0x3f604c17f6ec36ee; 0x5248bdd946a613f5; 0x3cfb40098d789f5c; 0x13a5677daeb1e9b3; 0x163d8bd7b8094328; 0x30e8312b92ed9189; 0x72b43105094f97c6; 0x1fc4ebb021cc0309; 0x3602135df9377948; 0x58090f67611744af; 0x3493cb667d4eccc5; 0x586ffee7ea012d4c; 0xa0ccb2a98f9a12f; 0x2a92775a88b68d6c; 0x755bf6c29f1ae62; 0x4367868049dfe360; 0x3849b94025ea64; 0x387b54e5d271d146; 0x7e8721f87b326d55; 0x49bc49ea50702350; 0x21c0310ead40f64a; 0x1a53ba4c9f0fc8ff; 0x6608feb68aca7256; 0x3a4d2efee49f71ce; 0x64958c96777922bb; 0x4692aed4d4a59c53; 0x5e1d2e70aae58468; 0x4573a16cf8c8b65f; 0x6349c2bfbd605290; 0x7ace857c692b49eb; 0x21a3aded05184590; 0x66a4cd3f091fc3; 0x34986cd077fc8136; 0x15d2b41a8c0a902a; 0x1ea4a85d5cfdb477; 0x48ada635b77ff; 0xa625ef106251de5; 0xe9f3542d7b74aa5; 0x6e5d61eb3b855ea1; 0x41f8455b8dbc3f35; 0x633975a774de195a; 0x2983c3a8a8b7958c; 0x5566ae66bd3d67e5; 0x40bd02cf1ac3fd; 0x5fef656387dbf045; 0x4e60b31301f3ed0f; 0x12de3dd15da8232b; 0x13980429b51f358d; 0x15af766aea9e41e1; 0x4cf29a7fe979a032; 0x3011b9e9a4d7bfd3; 0x1c3f75e7aa3fbd11; 0x74f2f221b60004fa; 0x60eca04931a68b10; 0x714bca4f75d14a36; 0xe7479ee3195eb4e; 0x38bf46112d4b4445; 0x1ab6906683fb363d; 0x20ded71400ca34cc; 0x639ac19466670a65; 0x673d62a2d7fae953; 0x2e5051d8dc0fb5a0; 0x773df894e4bec57a; 0x332db4458690887d; 0x6a1cdd27fcc5e4ba; 0x399882a094b67ecf; 0x208c3dd9fb4248a8; 0x294dbd0592444a69; 0x362d9948a9480abd; 0x596152261a9fb82; 0x3c3af9bac06f65dc; 0x5c9c0974feb077b3; 0xf308e6e98fbff0e; 0x55fe32c995344c07; 0x3cda692b6ecce5b1; 0x437b68b607ee01ea; 0x504bd99d2e01cac7; 0x1dd71e4173c75d5a; 0x58ebfd96547c129a; 0x358c36a6e72eaf72; 0x24fdeebfe7e7e580; 0x35dd28dd9cba85c4; 0x765b97dc2eacf257; 0x6ccd5537022041ba; 0x5623b7ce5ca36b2e; 0x306b03aa789d78a7; 0x78566dc3fedc6940; 0x7492835c19685479; 0x465d718e2b5e86c; 0x2a63d455250bb5f4; 0x69ace17bba8e9376; 0x4671b5ce3396f118; 0x4a602bf5e4392e18; 0x3db7b7a0eba45fd2; 0x1257ae759f9d198c; 0x539ed6c1c5d30456; 0x68cc02d551c824ff; 0x50c4a6966e6e9a37; 0xc7be1e0ccdc2cd3; 0x27b6f36f05a85ee6; 0x7dae0c35ff9958d8; 0x1dccd30e6539afc7; 0x1589e7d2f4a915d6; 0x76ddd3c1fa8d296a; 0xc438b7fe3fa00b3; 0x667c45e28d012792; 0x3217a024603eb34e; 0x4f4be8ff6f2331a0; 0x57dad668d9343671; 0x337a3e04d532635e; 0x12352f832fff60be; 0x6a2ebc5a1193803b; 0x566c7716a43805c3; 0x503971f858c2fc94; 0x1e484f9590461bc8; 0x77cb3d057b8af8be; 0x3937d3c84b625582; 0x7b1d35c61a055b9f; 0x7e02c1b712cd3823; 0x444032af79eea7e5; 0x6b8ce492d6df956f; 0x8e640ac6b24a1b5; 0x48680ce364fc09e3; 0x75543cdf0ace1f3d; 0x312535546b78ef02; 0x3a1cd4b360f42b94; 0x137ae3c74ebe20a0; 0x7d4ef1227eb61dc6; 0x6f3554ef6915d87a; 0x1b8a10e2b08f350e; 0x23d1bcabc09b065d; 0x252bcf836c6aa6be; 0x19f8012c60701982; 0x30d346138ed31fc3; 0x724ab27e98826aec; 0x7800b39218a2b358; 0x27f89ed39851d64e; 0x6321b67935839b07; 0x43d1ba14d91d491e; 0x6215cbc92acab691; 0x24f0d2848f513ab2; 0x52293ae0bb0d53fb; 0x704f5b7b9870d2a; 0xf634a49ca18a9da; 0x2a45b78d2b3640d9; 0x529086683b7f137a; 0x63d7fffada2b861e; 0x3de2ae5d044a807b; 0x61992d6c126365ee; 0x24049ae669a2a901; 0xa265225e295118c; 0x5e2363e61ebdd73b; 0x7585718b3cffdca1; 0x1ecea1dae1f02685; 0x1950baa925adafc6; 0x3508148d84d22146; 0x328357a9c01ba9c6; 0x71eaa25557b2219d; 0x11c5c40b8e59a88d; 0x13f4dc63cf5979e; 0x15a3147c64ad6122; 0x378eb1];
   [0x1586a53eb26a2376; 0x4c363f7839f63539; 0x5ee73068cf5d4d72; 0x726503653cff08bf; 0x4664b4beb0891f88; 0xeadb20a98caf632; 0x6d101dd17f2cad2d; 0x4889acc5f858d15; 0x4f2393f40bebccb5; 0x11e7ddc7f39f6bae; 0x42fa07ece986fcd2; 0x5a09212e8f7f64d; 0x3a8eb2874d76abba; 0x3975ecef82386020; 0x4f87cf6ac33fc13c; 0x7a54969da74fb6d9; 0x63e90750cc60cb2b; 0x12b9d0da8e3a1efe; 0x6bba4a6229e99951; 0x7654aa86b31fbaa2; 0x227393382e7e62bb; 0x600fe23f176c9812; 0x32960f4d177271b4; 0x2c029e679ea0696e; 0x46a79988ffd794fa; 0x3fa54d52a06ca570; 0x65a0b781679c0fad; 0x4f30c5d76214d6d6; 0x37ec7df9e4c89413; 0x307c5ebbd2e801f1; 0x1b24e05f5758ad21; 0x12630a879305ff44; 0x3dbea7cd284536a5; 0x67149e8fda6846ff; 0x3074d570dbca9e06; 0x5a6af3c9b9ff947d; 0x47f4f25da8f9b46d; 0x61a27715c5d26a25; 0x413383b38a8b8136; 0x204b15bff3e1ffc7; 0x50e3dceadc418ca; 0x6ff9e53759b342d; 0x4926e55ad9663c55; 0x24a1b4e15b6811c; 0x53b9eb7f9837aa20; 0x693dfa529ee999; 0x49f643c7cc5d1f26; 0x44c8e3fe24b6ce0d; 0x4d0319096f4a2945; 0xdb4b81c807ef3cf; 0x21a314dcc3e23c50; 0x4c27b00c00eaa87b; 0x41cff9f3ac955947; 0x754ca2c3791a51b5; 0x1d093e1bd27d4990; 0x2b3ec0a069c9d9b8; 0x1230504f97f1afa8; 0xab50402b9f4f701; 0x482e45629117f59f; 0x58790ebefaec33de; 0x33ffab472908c6b6; 0xe39b0413c7bc079; 0x79953aa8f614479; 0x72f924a8238382df; 0x45f0c42d1c028df4; 0x1b90ab6084b6216b; 0x5be9f966990071c7; 0x1c87bd56b8a0f185; 0x3329c322f951846c; 0x780f63f2e5e1c237; 0x4fdd9de43f907829; 0x5fdacb2262fa62be; 0x6fdc617354c836ee; 0x6e76302b55897d53; 0x69c2f8a344475c42; 0x2526bfae9645fd57; 0x6a5b20031191c1d1; 0x7247105bc250a5fb; 0x6cf48a56c8ed2a61; 0xabe27578692982f; 0x3ac7fada996f29ae; 0x6a97550a43197833; 0x69afd9970c386755; 0x1c61ada98ab240fa; 0x11e5b5ec44f4adaa; 0x1b4150f7135c2715; 0x5dc72a400e752596; 0x6979212c9c24003; 0x7fd9fbe26b6a4ea7; 0x2586a71b7806d218; 0x14010af90a66f62; 0x27fe578550b94d9c; 0x5d47f73828e3bfaa; 0x694bd34fb95ebd7b; 0x2577341098c645bf; 0x79e38a3c9f1b9db2; 0x66ecc4b47d451649; 0x46993f0ccda86f70; 0x1f7094c2f27d767a; 0x17f5be7518dd1f40; 0x3e0c1f17cb2d8aeb; 0x5256a86e4f568cc1; 0x135a07e3c7a5fdbd; 0x3b8902aeeb87053; 0x786b7f69821fc679; 0x1449fe2aa48221a2; 0x4be4fa814f8b4cb1; 0x10a782c32e8de8d1; 0x7791465e312da572; 0x2467703df6311a04; 0x43e794267a00362; 0x7279eb80ceef118b; 0x36ba0c482f233f05; 0x1f227802987ee7ed; 0x4d6c391a05075df9; 0x487893aba6acbf74; 0x367cfc669e0682a9; 0x4e44dda9c6919031; 0x4ec91fb80dc07d10; 0x5b88ba18da913423; 0x7193f02731730516; 0x1594c8d859f10363; 0xcbac6e63d72f1c5; 0x54e3f736ac741402; 0x5565c7837f2d4038; 0x79e5dda1dfd61c81; 0x68b73b55c9cad64e; 0x147fcd264b7b7290; 0x5a6c8e17c21ad2e5; 0x24eb1a11c8d322b3; 0xd48c625a070353c; 0x4a444ee4480224b1; 0x2f06c975c364ca29; 0x615652ba2e4d5d9; 0x407e3e6ce3e9d26e; 0x4345c064e17c534e; 0x24d7e7ccd59b47f7; 0x6ea331d6d3468eae; 0x4bb6d3ace07745e4; 0x4769de4c51df40a2; 0x7c97f15eaa6ec812; 0x4a7af100acd0aa5e; 0x3eebae817a591a23; 0x22646d5ca36d271a; 0x4ce2d5eb6a6e3d3a; 0x7d73e43ee57c3807; 0x63916515775407b9; 0x204e96ea324370d9; 0x45c06a3ac49c664; 0x6740f057b3dba920; 0x2be060667b7c2b8b; 0x6ae6506f289f034c; 0x5b91d1b7cab6a3af; 0x28b57eea7fa3eec8; 0x234a2daf670e17a7; 0x53cee46e78264ef0; 0x79ed1df79e01e1ab; 0x1bd1f5db318cedec; 0x497e99a3d150144f; 0x3ec8fecf798c076e; 0x279778fa8a9b6103; 0x52e9d71e3452d2a4; 0x5049c92585fe5c74; 0x552029ee85136610; 0x261fcc1a302509da; 0x7a2d7718cddb5ea9; 0x273e36b621bf8ed2; 0x6fa80754e1a276a9; 0x6ada678accbf0065; 0x8d60f94c581ab6e; 0x1d9281db0ffa24bc; 0x62d2b2825df256a9; 0x107bd882ee2d4e94; 0x49b34da704193552; 0x7f2a180130368946; 0x2e36b57b2f5c3295; 0x47cbbf0e997f066e; 0x2ad02ba79c477f2b; 0x39bf09d753da5e1; 0x340c4117d8bc916c; 0x5920e2d7e375ba4e; 0x3e3b6f605e123512; 0x38cd09d299e2b006; 0x35183bfe2de78b68; 0x5751dee6345af499; 0x1f1484f9c73d2908; 0x3fce81697bb56905; 0x7bc56d20dce09d8c; 0x74c7421dae1abb5b; 0x7c454394b8eb5ef9; 0x7424b2937c104b32; 0x69d518758061023f; 0x36c2cb7e4d84fe03; 0x321ec50bfbbe0b52; 0x7e1eebe72e5c8071; 0x6f36c7af2c361af7; 0x7a18f9c00caaf630; 0x666d85d557b3c6b9; 0x55d4b4b7cf1cd13a; 0x3cba9bf175e8d663; 0x7c15cb778e8c495e; 0x19b8609669d58166; 0x5eb8b38adaa5646; 0x1199d97672ac1e10; 0x3e11ae3f16574e9a; 0x38caf4973886d0d5; 0x22f64f4a07ac68a8; 0xe45b4d4f58bf4c0; 0x110a86d14a21f93f; 0x24b4963c59bd3f3; 0x68aae5b2cd89e739; 0x1ef84c599cf68bdc; 0x5c8b0eb41dd36e96; 0x4461ab09f4bb9078; 0x5a2904aa2231814f; 0x280cf73ff1a70479; 0x1a6a294ca1e23da1; 0x1deba85bb149f55a; 0x1330b5e2905222e7; 0x2793563c54832288; 0x4e3ff084891d5994; 0x644730948d62a6d3; 0x4c7b4337182cd347; 0x4b3ed218ce41e768; 0xd4b9b0582a3cdde; 0x44c5d5415a943c5b; 0x30ef5f0e6db3abb; 0x31ba9c9676163ed1; 0x3c3f58bdb43659f0; 0x705284f518aee9b4; 0x5510c4a9ec4d0e5b; 0x74d510bbd362f98e; 0xeaea099bb9fbe0a; 0x31ca881a83cb5d2e; 0x699c0f21611f25eb; 0xd4c1e9a79572cd5; 0x72309f6de8f34406; 0x32b97388715098d1; 0x3bdd6e64e6e318eb; 0x4be9e3609a61b2bd; 0x63afdfd44e31598a; 0x6a3bf7864a075485; 0x7f48a9bc08739756; 0x2d00bb0706d06aea; 0x7c83d1e96e921d15; 0xb7cfe42e158c778; 0x3d78703863e29de1; 0x344f2234dadb12b4; 0x5635dc735db61118; 0x2acee17da8c69dca; 0x1d59d0ba807f5efa; 0x2e2eca2b0fb978e1; 0x457ae533a11aadc; 0x5a660f517b1ee311; 0x7ca3920b9ad0dc7c; 0x14ca76b3f5cb810c; 0x524006113e7bd581; 0x47f0fd2ad527cbed; 0x4a0d5cdcd543af5b; 0x636e087a547233f2; 0x575a7e7c17f21f27; 0x4316b686686be23; 0x3c5d608662cb048b; 0x380508c49cf3985e; 0x6c68c41c41a33dc7; 0x1d0724f161fe2b58; 0x5afe8feb8e8b1671; 0x30c717e3cb7d46a4; 0x5691292108a5bbc8; 0x95da09e3fd6aac5; 0x22bba3a980253936; 0x39b1f97158396f90; 0x21fd1c11b608822; 0x11f163f3bbe50319; 0x6542056313900326; 0x4efc7d2a1d5bf829; 0x64e0ef71db076637; 0x178d7d170c7966d2; 0x647a66815c3d3f79; 0x3e2d02299ce8fda9; 0x4976257bffb0ba82; 0x49369a34c0477957; 0x6dcb5aca8c4b1084; 0x6bdd792177d6e591; 0x6a03c750a6ff1d55; 0x4589f225a929124b; 0x1a4840497f146b6b; 0x665d7e566a2abdc2; 0x6ea7a760646f7715; 0x18c1cf0ad40f2066; 0x631ac5a290e53e4c; 0x1d696fc85f3e3f5c; 0x244450925df3d4ed; 0x357b6e8e2aa17ece; 0x483de9adf62b2285; 0x250eaf5773cff13f; 0x650ae4ee11194aa5; 0x568f3e11b6d1fe3a; 0x2be54613529a09d6; 0x5bea38210ec4eca7; 0x26422ed0115845bb; 0x1a81883ac6cd2981; 0x7a5892c46e33882; 0x2c5b2b192f73a88c; 0x54a4e4c1717a1a75; 0x3b427b994b1300e7; 0x7451538397de564e; 0x31433def69ff1fa8; 0x37a5613fa2811b43; 0x774ca6332a812587; 0x955d21a8772546d; 0x51d630ef4b87d822; 0x7966e9ae0ab399eb; 0x4b206439eeac24c3; 0x14c77dd6059b1a25; 0x3873515b3b09a5df; 0x3d7e6db913ecd7f9; 0x2b42d9];
   [0x638a2814c5e37d41; 0x29c5090870c4c838; 0x45b3d37f228b113b; 0x1a56c172765a4112; 0x167d0cf1920f5d1; 0x6260dcf8e2fce481; 0x20629903ca55d2ba; 0x41b1223faecfba75; 0x192b44663b52d329; 0x1b40ea72dbabef3e; 0x507aedda747b95b2; 0x58e54f559aa1d63d; 0x34630d961a8f03a8; 0x683dcbc14ed37d0d; 0x155193795008a142; 0x6cbc5dfe54f2ab5; 0x43a65801466e0902; 0x263d85d6c411c334; 0x1c3e8e2b2766a3c; 0x7c8582d7f0e33b56; 0x5c62b49d9e60daba; 0x64a06b424bdf8e21; 0x392f0da9ee573a13; 0x2554d668385387bb; 0x1fbf2a7c9c381e3; 0xa55506618d49ad5; 0x19f8a1187b9d5fdc; 0x4aa7b00a34eac6ea; 0x64b1516fdfa0e3d2; 0x1ca179d08ab3ef7b; 0x177ebe770d1ba37a; 0x3fd65ba79a9f1dd3; 0x4d34e778d1faf3f1; 0x5397a9d13355034e; 0x24ae56ab69c9cd87; 0x50d2d903abe8d578; 0x5c02847514b98c1b; 0x7fc3732accc33a90; 0x6a106664c4424bee; 0x3ac7ef7d34bc79f7; 0x6e9c805d2fe20148; 0x5d06a54afa79eb9e; 0x1dafef64e22f42d2; 0x5406789044b00779; 0x3dd6644aaebaf5ca; 0x7136ed6493da5f07; 0x7d4a3dffb3a4803c; 0x7c9e764e0ec19c39; 0x13ef2c904c0139ce; 0x713cda26039a16b0; 0x3846ea50965465ac; 0x548ea5dcd9116046; 0x1f591aa84e1c804; 0x659f2eababe587c7; 0x64e9ba8db5474cbd; 0x662ebf7cf3cd122b; 0x6f01d3768ec18b58; 0x4c0bcf0e9097d5cf; 0x379ac4aa3f73ec70; 0x342bd918866a8f2a; 0x310a05fc3f3381ae; 0x5901928399eb73dd; 0x340b8f54cf7ef5f5; 0x48d528be2f55f04d; 0x365ba34d5e4052c9; 0x5a2412784cd2103a; 0x64b923e9d7fdb9f6; 0x17c1581b89308acc; 0x34f5e95d476f4ab9; 0x2f28758894e8d19b; 0x48d69608952038e2; 0x60bed37cb08bab8b; 0x36b84c8b0fd49654; 0x1b07b5d4c270e8f1; 0x5a433573c324ba6e; 0x271eff46c83ad310; 0x23a9a577e3bd8760; 0x7bfa6418f0154985; 0x319f8f09855ddf00; 0x4043f3cdb1d0e362; 0x3302c31edc8cd7b5; 0x2f0ff07feed89dcd; 0x37ff75e93a34b5b8; 0xece4248ab0a1f04; 0x3685ebec9fb907de; 0x138ed2b9e0f7b7b9; 0x290d7e9adb52a7b0; 0x30368d5b08ed63c5; 0x52e525248ab8c06f; 0x354a10b15974f27a; 0x34e010b4b4681150; 0x41f97ba6a24d9c30; 0x7fc490f3fbe6de7a; 0x28496692549c687d; 0x3e703dc2157b7b3; 0x7c73e09e1c2b2d83; 0xab3ca93eb83eed9; 0x2ed065344b783484; 0x54751d4201ab8302; 0x7856c2e98d63d16d; 0x3c23a162d4554b60; 0x2eed8d366d656522; 0x67661db9b5d85371; 0x4965d761c47b9bf7; 0x531c9dbb1edd7873; 0x6471fc2dbaa28eb9; 0x5a7b0c39e103afb5; 0x2db2ee9dce4a38a7; 0x7c657ad557e44ef2; 0x1ef89841d1ade36c; 0x2d87fee3bdf6c02; 0x758c0cbc1e86d8f3; 0x7d03a7b2a07b2410; 0x5f1821ffdcc2a32a; 0x702b8bdfa13c7d61; 0x404ae238002c9e53; 0x247dff6ba1f79ffa; 0x1226a153fa653ad0; 0x65ef081f044bebc4; 0x1d6c68cc77f3778; 0x7fd5cbb0c2921407; 0x7d4e7cf1be604a59; 0x5b0c98722a1d97fd; 0x5534f9260b1c5704; 0x13b1978dad857ca4; 0x23b48cb0adc5a641; 0x57271321de97aac; 0x13eb70827b34efdf; 0xecfe01296e7502d; 0x99098629daeb0be; 0xba359e891b835a; 0xaa883df6b6d772; 0x4fccfcd05bedbc33; 0x1083df3bd068c874; 0x2d7d0fa71264103a; 0x7dd4309be0f343cb; 0x5cb5c4d6e0b554a8; 0x30bdf0ebf1c8bd4c; 0x1ea3b51a2890c673; 0x5010a851a0ca73fd; 0x478f95db99a523ec; 0x3b231a4716789c52; 0x47ece6b9e76c463a; 0x5fe973218af864cc; 0x2686b71f6394e1a4; 0x6898fd7291c901e1; 0x3aa2cdf726f30041; 0x4844c9020d076838; 0x78a3f4b33df64144; 0x572531e2560fb78f; 0x7ec37e0d2a651270; 0x1ab54e985a88af2a; 0x4679f4d878674199; 0x6c9a24a4d495ed11; 0x1524905030261d36; 0x86356774f4c549e; 0x2764b893630b59b9; 0x5b6510ed9ecd941c; 0x1491b6072d64425f; 0x6783cb74c68ca1a1; 0xdd9f9264a75b07b; 0x6592003aad711e93; 0xcc3ae155d1a46f9; 0x150e755b32e55480; 0x7781b5047d8a16f1; 0x7ef4742db96b0714; 0x5b34bb8be89100bd; 0x64c1c4ac2e414fd2; 0x652e1c5a52b88f07; 0x3b352fbb5db01133; 0x4481f0c144e9c291; 0x11f57cee8c9f9cb5; 0x17105fa7debb4d70; 0x654223225c049cb; 0x424134fa29fc43a4; 0x191b4d27ba30c512; 0x72ed3842d52c9ce2; 0x3695078b23d27205; 0x639b54f459051986; 0x40c5e855b24c3862; 0x2cdd8186c2113674; 0x3db9b61d8c4af980; 0x68a9f2aa3560cb7e; 0x6886d28f2bee9411; 0x263045bc8fb7aec6; 0x7fa8e1bef2893d80; 0x41337afdf5e1f209; 0xe1d7126f78b85b8; 0x147e160afbd3b40b; 0x530b8dc32df5d0c2; 0x2e64cb106d1ac229; 0x658cd8138cc423ad; 0x27dc404b5ee93c7b; 0x5be7507a45287de5; 0x5ab75d3f7bc33865; 0x4984af0e98ee2c3f; 0x16db2f39c98a6173; 0x3e1df7b82c179f62; 0x6ff7e9fe443f3426; 0x2c84580755c37a61; 0x6fecb2498dac9495; 0x73d85203e842bf1f; 0x3e7cf03910e708ca; 0x21647932e3cbb0da; 0x37ba6bc5b313406f; 0x8fa022979b8692c; 0x1fb0813df9280163; 0x76e0a9ff5b2dd020; 0x39fd1439e4d0316e; 0x30a3c0779f50ad6a; 0x1841a6a2a0e9248c; 0x5ef824a8a14801af; 0x44d10d33affe93f6; 0x107219205c4628d8; 0x5285a22333e35261; 0x54e43e02a1675448; 0x26789e054c717983; 0x69e8c97194eedd60; 0x1f4cca832690ab72; 0x6b7f902ed92fe03c; 0x1db794394802862b; 0x30f64174e43c33d1; 0x24d2a5c1b3f919d1; 0x72cccd6c49d46f80; 0x5c6078fd449df6ff; 0x2ac5834241a6b122; 0x622981b64858e1e7; 0x6578adbb082f85d; 0x52a2f3bbd05551cd; 0x7a7eccafc6b22e29; 0x7af3cc7aa3e3308f; 0xe2e31d78187ce99; 0x51306faae73d37a3; 0x3281647f3c7c12de; 0x54a34b4219dfaff6; 0xc4eb6f39f4453ba; 0x52dfb889d24ab30e; 0x82105d44b97ed5d; 0x223bf6ced8d08f43; 0x50b73759ba3d0ab2; 0x26762fe7c746b53a; 0x6dc628be8dafb696; 0xb9a8c1310a8d59b; 0x2a8c65c43e1a94f8; 0x72e4889c0f1d4d61; 0x6f6f245c4a3f5918; 0x5af3293d3faa9e1b; 0x3acb0fcd82627c3c; 0x45c746ee90265f6d; 0x1ccba4d6f942a119; 0x4742f246f2436a98; 0x6fd576b2fa355111; 0x49d405394f972885; 0x5249bc7803c38c57; 0x63fbc436c7f84c8e; 0x469a004e91ae1994; 0x6a3ab26ff65edfba; 0x5fc5bb1fdee2e772; 0x40c35584f73a202b; 0x54974b8968169184; 0x6a738d9db961bff1; 0x488add9d07569ad; 0x6d3b8a1fc19cf461; 0x19fb8eaeae1e06e3; 0xc2484cbf4f767a9; 0x5aed8df1914ef218; 0x2d564de423b38b56; 0x7bdc9b9e1404cc43; 0x4e1a11969ecf0f35; 0x130448d59aab203b; 0x2ac61c4419f4447c; 0x37e811db07fea3e8; 0x568bc4df06fd53c2; 0x2de58c9ae81d7b9f; 0x3c17f3de45e03cb3; 0x5cb6831eed79af65; 0x787fbe7c9233ede2; 0x4119e20c0ceb108d; 0x424c9eb081a44e3a; 0x3ba024e2e9a69543; 0x616ff104ff30c173; 0xea5661ae8c848ec; 0x78ae45481b1d14e4; 0x13d39eba3246275; 0x5469884ec7bc5673; 0x4f2c05e66ad79770; 0x3bdc7fd50a9aca2; 0x4d49bcfd9b27372d; 0x7ae71ccb29d2edf5; 0x5ece23c079f6b3d4; 0x1a4e17c7d86cbf67; 0x1d10a0edcc30124e; 0x78722342482c3b7c; 0x418c7e09dc3c8e40; 0x5e8f0d37d9d6c42c; 0x46a5302c64e3719; 0x5622ca98387f5160; 0x9f0ad2bea508371; 0xf58f540d49449a4; 0x8d6a296fda7013f; 0x1a37e8428ff4a101; 0x94d3994bccb97c1; 0xd5d50d2a9dd067f; 0x511d4d5ec10c729d; 0x7524c718f54b978e; 0x309a825766316abd; 0x67a3fb0bc9314ab8; 0x21f5975d28a66d86; 0x59c4463a056d5bbb; 0x6535f4a941cb23ca; 0x622766045c1ff595; 0x6a1ace721a6c5c03; 0x1b38ffbe753ef8a1; 0x7f596d07244b7634; 0x2a167e959bdf3c1e; 0x74497ebe33b6d046; 0xf4343d714875632; 0x219fde];
   [0x2b4fc5ad99f46cf5; 0x45fe1b3c2d384359; 0x4e920993e61e3456; 0x78aac34bf05f5426; 0x149df982eb7f08f7; 0x457e58604bdab16e; 0x4001545fd402d78d; 0x733717be7b15b91f; 0x56bfc9c1d9d0b409; 0x350cf7d078ba8143; 0x17f77c26f2302ece; 0x492be1eb29d63745; 0x1d8a29986c8b3a93; 0x7196a190e5b6177a; 0x1c6b2af67dbb0d89; 0x4c3eb169aafd3187; 0x4c6f688c312fc6dc; 0x194679abcb079369; 0x213109592e83928b; 0x4d54cac19225f00f; 0x35c1c64204096eb7; 0x471a4a0096d096d4; 0x46bf4a25dd5e0866; 0x288317fc8c83e844; 0x2c182ec98ed02b28; 0x299e37bcf4d3cbe; 0x348c96625ae6d26; 0x198707fe66fe63f2; 0x60e464269ba04448; 0x208852c733201b9a; 0x5153cb363b037b63; 0x3fe3236433bb51f5; 0x4453515c722a32c6; 0x513fd857870f973d; 0x5894856cb18cf14a; 0x4e16bc2bd5073993; 0xaf21bd8e6f9d166; 0x1d2bb566bd8c8bc2; 0x5f59ca76a44e5ba4; 0x46c0980dda550b92; 0x57fa57859d543b58; 0x43655ad6a1cfc5ca; 0x5ee7ca00308c3980; 0x5fa856d31b2b3253; 0xc02e6368266960e; 0x61dfd0be95046a05; 0x52e3a0f8946ecbc7; 0x5e2501a24a9d3505; 0x1ca542f5cef0ee9f; 0x3e06e7276afe49a; 0x11419540b810c11c; 0x6897b9680d22e7c4; 0x646d9fb045621ae7; 0x2c83614b4f7cf17a; 0x2797b47bad04285e; 0x5771e1b36c4ee401; 0x6605d910517272f8; 0x1ecc6d93c1ce2a5e; 0x398dd1ee2f29f13e; 0x6bf531c248a01646; 0xc316fedb31187a9; 0x147528046ed1fa62; 0x378c0a8a1954eb15; 0xf66dba7fc842299; 0x1d45654f873183f; 0x1342e8201512c45a; 0x46205a8da9932559; 0xad088707d0ab3c2; 0x57c6d598e0288ef6; 0x4d570f14ee99ca78; 0x4dd3f31e7cd2014; 0x137659f3a2ede196; 0x6c9855a2c39635ff; 0x2e4f709375e315f3; 0x780d4dfb7d8d484f; 0x1bc8664694fc673d; 0x3f06cc70b0eb2862; 0x6070cd48bdfc4c3; 0x129ec30517993ff7; 0x2eea0c0d0755588c; 0x1f885ab58bb7ff20; 0x30eebae51868fab7; 0x552b469482bc28d8; 0x477594ba9af5efdf; 0x24b42cdd16a9e337; 0x300ccd3471a28a14; 0x1be0ac766ba54a2; 0x730fbb6440c9e665; 0x29be47db9b693478; 0x4800559c9d635bec; 0x2513d945d0a8d029; 0x2941ecf53c676d4; 0x5fb814be472e193d; 0x7c1dc02b84999085; 0x74fd3d17d0e23068; 0x7dc792863e06d595; 0x4e1ae501efefb8ce; 0xced08fc4b593214; 0x54f07ff9feaeea40; 0x71f6ecf3e96502b3; 0x36114a1189611151; 0x52fe006fc216cf42; 0x3f0067cca029223; 0x365577c8530f0d1f; 0x3be0f11addff1770; 0x48a203290b1f9147; 0x2a3fec71eec15304; 0x5ceb033ba5f8246c; 0x7b4e4581a36baf6c; 0x61dc0e65f19c0c92; 0x3186a859e92be962; 0x36f132b5c6961872; 0x4640381301b4af3; 0x4bf639ad4ed33994; 0x10cdea70e08d2b51; 0x406944f42b6ea0c1; 0x4a48337adc444294; 0x28ad08bbfca0ec56; 0x74b5097f023d0273; 0x624c62a54b209dc4; 0x728447afdc05ea55; 0x5f7d7203be0a164f; 0x4552b45c855e2f86; 0x23c29c695e8ba02; 0x2e65b2087d99baae; 0x40579c64e814e6e1; 0x305c235d0d3b93bc; 0x327aca96d1513635; 0x2b7e2be0243fd3f2; 0x3f7d2182cfb05b09; 0x550fbeb5922511; 0x5bd05747359065d8; 0x57605456bb7d7f16; 0x57110e7142fabd35; 0x52c047f75a7d6cf7; 0x63bbcae38761be2c; 0x346583e6849f34b9; 0x339eae0d56ea4ab6; 0x3320fa1efb23b80e; 0x3622d33c3b0dbc1f; 0x503123b50d8e5096; 0x481839b35c242d0b; 0x4f7cda8eadeebfe4; 0x54311e0dab74c761; 0x6b8e90b52545df; 0x1642e596d2adb6f; 0x277a80c2b8689f8b; 0x1a16170bdcc48a15; 0x580f17b2a42e80af; 0x178d87faaf629496; 0x52e5be16c47c5150; 0x77f70899bf5a2d01; 0x61816e73810294f1; 0x750a222417d9590e; 0x4b3629308f4a9300; 0x6225de4cd1488189; 0x34546999fd7f4b4c; 0x7c42e88525523325; 0x14e89b715f64857d; 0x52b93f3c00c44f98; 0x17bf1c78ed2b6cd2; 0x38242b3422a43454; 0x66f70e4b10a0bdb9; 0x20fd98811905c090; 0xf398095abb3c663; 0x785284a9cf61a55e; 0x707309ce79a1af62; 0x1bf539c8feee6696; 0x19c7a51b46f1f84f; 0x66f54ed5f2ebb755; 0x7ea228c4b001d812; 0x5cfeb73012ba5196; 0x3d4287f9680dd490; 0x7b93a1f92055dc84; 0x6ef4166783f563e1; 0x111f398abe2c987d; 0x4e1f526e1920ab03; 0x146330cdc546c9a5; 0x6f2f4c30b79988e8; 0x13e454eaa1421105; 0x52356d45e1d9bcc0; 0x15edfe7bfd162bf9; 0x16e4e1b05338db36; 0x60c2fcda9b6160f7; 0x19aa026edc942bdd; 0x2b4404a277ad3d27; 0x7a0529000c11444a; 0x6ee2904cbc96df3d; 0x2bcd5bc800618e89; 0x5e4023cb63e218d5; 0x2132dc429795c713; 0x2280fa84ed988c7e; 0x49a4100d42560977; 0x2818986d25ab03d2; 0x2227ec8220632784; 0x47ed7c204e6c7b8c; 0x6804f265246f13bb; 0x2b3707838d30c1cd; 0x592f1abe14010da7; 0x678bcafe110cee4a; 0x75d677bc503361a1; 0x1ccad75e61284625; 0x6a45b4cc21c0eb27; 0x5418fa71218dcd3b; 0x5c8e73c539e1406d; 0x13c75534e5d020de; 0x3e14396b3db38a32; 0x556bb2d067cbd82f; 0x5289dae8525a08d1; 0x216ae988fe28234b; 0x6c96b81a35678411; 0x1308dd3b820d4a7; 0x35489487b99f3f9c; 0x267d8a7df4a7e128; 0x60b7bcf93e9ce380; 0x218f1dfb5c0138bf; 0x2c74406dda486394; 0x73638fedf46c3de; 0x5483badb712d7028; 0x51e561e2d3ec7e87; 0x21e3aa9e3af0c15f; 0x3c1ac780d883f052; 0x6d47fb1ced4961b5; 0x2e42353303c58455; 0x41e90b8a4a4835c8; 0x4f69e5d95cf5455c; 0x5c5f0d44694302cc; 0x12b245a710e4339f; 0x1d6da3bc7753fdf3; 0xb8e4424db7dc3e6; 0x3c9bc38086f914d2; 0x334b2fbca1e7378; 0x5f7a3129f6b0252; 0x7cb4e64306f6e73d; 0x14bcd024ef8d7a41; 0x3039f3b92c38e429; 0x3b46071015c12349; 0x7e7894f9eebfce21; 0x13c568ae0304faf9; 0x411d567c6e2846fd; 0x147cfad12d01a88; 0x67afd9347cb23716; 0x43df00017f4310c2; 0x31b5dbfa009d8904; 0x6606575fa91538; 0x25580f98858e4430; 0x10bf47adfbed6de2; 0x433cde262b008ef1; 0x30fd0a01da582b9c; 0x7581ed7ceed904ac; 0x1a163cc96f5ecdb0; 0x5e0dff516ee1281f; 0x1165283e3d71e8fb; 0x64a9b485b2125049; 0x5196446313fa2fbd; 0x401cb11cb89502fd; 0x56b5044e5d54be82; 0x36cf1e13a57157be; 0x6ec97603046eea3a; 0x5bc669f9a6ebfa96; 0x57e691ddae159cf4; 0x3fb3f2f61bca6bb5; 0x4b246cd065c16dc8; 0x3b655d51d4b1c3f9; 0x74864b972532dbc9; 0x293fab20be9b9bcf; 0x4c2d639cf62633af; 0x557d1be1f862bc2f; 0x33c163d572d0f924; 0x3a8f7ccf29a5d4a5; 0x43dec00c15f350ae; 0x1c2030e0b44461bd; 0x4a05b0379b1f11c1; 0x188fc4b7763ce48a; 0x22f96608baa1ab3f; 0x1be5c42e4f34bd38; 0x406c714506bea5a0; 0x11feccf8d05051d9; 0x585bf6264ebaeb44; 0x64095b511e259cc0; 0x3452d5c4194abcd0; 0x3b42ffef21f9aa70; 0x5e1d26adc7642ae7; 0x229f8ebcf5c67da9; 0x7b76601464d46088; 0x575920080ab06081; 0x73644dd2a7d7d9c1; 0x37cd398c83bd7e7b; 0x1c4fd3f0532cc009; 0x1f075efdd2080bfe; 0x308e5783de1a67e5; 0x723526742cfbc947; 0x24a66d0b37c9d48c; 0x661c3bfdfda7ebdf; 0x4fec21ac088d0caa; 0x713b5f3f105a1dbb; 0x7eb6f36e870665fb; 0x3a84b366f5471a72; 0x1534bd7d93acbec0; 0x376f963fec61322b; 0x57c5703729b6eb37; 0x3cbc2d68d44c0b8f; 0x5cffa94f1f85307; 0x487bb6e455bed42a; 0x347613e164ca0d01; 0x18426819b54f701c; 0x1c554e9f5ec5f754; 0x610a70c70f723c52; 0x74a281ce9559a4f; 0x6e8408ce1c63dadf; 0x6981b97a85ebb256; 0x28ae8ce842fb68e0; 0x67d93159cb6761f1; 0x679175672d580976; 0x5eafead18d1c6881; 0x1aeee1d3bbb3e010; 0x563160ec481f1d05; 0x12c7c6];
   [0x196b4336470f9232; 0x1e6bb4b28a2ae1e3; 0x2678caec9b2f7f98; 0x50ae167cad5cc0dc; 0x3424146a0a2cafc9; 0x55ae87f4977450a; 0x363ce6a6e02ecbe9; 0x32e7978b246647e; 0xd5d37b3b1f805cc; 0x1037ae92742b179f; 0x5800f0309a37a18e; 0x6101a7e493218727; 0x318d0bd87d7a652e; 0x48e990e8724c2672; 0x276e0cbc3602c49d; 0x3ee3c6574968e115; 0x285e574ef4e28aee; 0x10b0e65395781459; 0x692b6515925a17f8; 0x430b49c42d6fb772; 0x4694a14a2643002e; 0x7a847aa080e2fd0e; 0x2af3598ce43f39e5; 0x73d8255d308a3ab5; 0x41b22dc4c4bf7a1e; 0x4103e4ddf8000656; 0x7b3119c1d854bd68; 0x224002ec139c138f; 0x4da3ad285be1d830; 0x54ce95496449e7a0; 0x6b9cf13101bb556; 0x2a4f7d961d463186; 0x1eaba4c27eb7fdb1; 0x6bd4aee86325051f; 0x53fe3aeb8073cff7; 0x539f382140893308; 0x40cce5312765f99; 0x70f8eb47c8c1113e; 0x104029634dfd89b9; 0x287852a189e46e3d; 0x2b73ee3946de5694; 0x538b7f67d067ddd3; 0x7ef20ffbbcba40ab; 0x292c5872530754f4; 0x6267e67424afb1f5; 0x64992fddc34e9d34; 0x2e0933ebcab25d6d; 0x5af0fc25d459621d; 0x698ea15e38901b11; 0x2647fcfcea2d45a7; 0x2d1cac58b64684f4; 0x2cd94c8e12bb3e14; 0x2a7be2db94a2ba61; 0x4ae2732179ffca1; 0x5f57263c74651cfc; 0x205b4886e94aac75; 0x22643f2f340eaccb; 0x35058c738e843598; 0x53d2a1cedc8d225a; 0x72ffcefaf9297364; 0x42db70d735cfee6e; 0x2693db801dea3f4e; 0x684c05a190a4d96e; 0x5bd345d330778cf9; 0x751530dde14b20cb; 0x29b1e38b1e69700c; 0x6cb182bcba23bd90; 0x14ac330f5c99da15; 0x8d033a435d873ff; 0xcfabfaa6dc9e9a6; 0x3ad5995c62ce0a6d; 0x4a5a209d0cc7a937; 0x22e69492c826e30b; 0x7788a8d61e130907; 0x7b28822c4e45297b; 0xf6e01f2f796ccd0; 0x2922285a0f8aedbc; 0x3d8305ef99d50ea2; 0x4a74fc6026deab62; 0x4a52106f96ba6527; 0x1ff9e36ffee364c2; 0x1ae7828e6666e4fb; 0x656aabe13bb13e33; 0x28ee22c76f264527; 0x3faa967c90e0414a; 0x5c221f383b5e5141; 0x13c70b4ab49bd72a; 0x5d40857fd7f6d6d7; 0xf0bcafb6c3653dd; 0x525fe799f4eb521b; 0x660059d3aac636ce; 0x739e288cbd91ce42; 0x8b0ff5ac5a66f7a; 0xf050e62e66d8daf; 0x903bbd8923afaaf; 0x25e0d68ca69f99d3; 0x378973e28cd940b; 0x2f13a1d072ce2c74; 0x15d81d134f1289b; 0x17242a329f068050; 0x26efb6a88985c75e; 0x1760485df39abfe8; 0x484b482a1fe6866a; 0x619597e07a697384; 0x130a0adb0abf8a32; 0xb34abf944da5238; 0x78dc63653df2b26a; 0x354453728317f89b; 0x65a8271f7242a2f9; 0x3fa7e239113bad66; 0x49511d8ab1ffef37; 0x467862ca6c638556; 0x16d9c730fea51fa3; 0x4c379ffbf17a778; 0x5157c37451ee4f8f; 0x31473c67e96f81e; 0x1ec810c664e36709; 0x39f33da5b5714776; 0x5e01b925a947b536; 0x3002c062e56ac2f3; 0x427c17185c86d2df; 0x3be0325ee0dc7a1; 0x7a589a21bb796d66; 0x624e1b2349955d7e; 0x81c6c99c874f93f; 0x48eebee67b99a6a0; 0x7253dcba3125c51c; 0x6f78a0f863d8f846; 0x587e645159b50100; 0x3f87330e743aba3f; 0x61466662d4a9be2f; 0x2afa3e40144bc44; 0x420ee7a766eb8480; 0x5e4bcfe105e2a509; 0x1a2288951caf9337; 0x3ecfef819ae5110c; 0x53bfbc6965235256; 0x465ee7cf4663dc20; 0x78e62ec2b1e0c76b; 0x539ba9de088b5df6; 0x2c3d4b37e5141d86; 0x1052cb506b8b3d68; 0x3029314b63869c83; 0x73c5f6b8f0b47f4e; 0x3092532881b21462; 0x2cd31b0566c7794; 0x71321c083823e73b; 0x7ee4cc01633a373a; 0x4bee7c56da16114e; 0x58b5cd5aa5a4a35c; 0x2550f9fdbe70e36c; 0x2c95d1d577d9166c; 0x6b7f9d43ab811164; 0x9f16f694c3a34e1; 0x418aa4ae6512821f; 0xd2a09f7f4de5f4b; 0x2c47634fb425ebc0; 0x137bde4c2e976637; 0x1dfb9d8aabe73389; 0x32870af373ed4e7; 0x686e6563187a200e; 0x2dc2eba7ff4ac64f; 0x6dc75e3da0c0f6a9; 0x1f808df8200030c9; 0x507d2ea18ac358c7; 0x3404e49009573089; 0x7e5c534c3a83a776; 0x36099da1e1a9552b; 0x112f68a6b1282100; 0x13d9eae0b2c5297a; 0x24ba40ecf1b27449; 0x53f34254063b9b60; 0x35f1d791ee4797d9; 0x7284900be126fbff; 0x5aee98d0387ac1ef; 0x61bb65d6c6a00ec7; 0x4bacb632300fccc7; 0x392a9c775c46469d; 0x241eb639a2347d16; 0xebd9390679e50c2; 0x6babe2b7ee0b745d; 0x325b709606e2ac03; 0x703a357749935743; 0x5ebfcd24915f8663; 0x6893324f166a7cd; 0x176acaa9d336ad23; 0x67cf4f61ede1f9c; 0x31d100339a1b705f; 0x629cd8fb36c87e74; 0x759484c3b465353c; 0x476bff2802049862; 0x43f639205b19e50f; 0x636465f504938187; 0x75976ab3fcd837f4; 0x2331cdfa5723a31d; 0x210877a746f78112; 0x43a6ffb8129296f0; 0xa2cc5c268690315; 0x65ca651792e3e3f9; 0x1b0eb1cee08c1aa5; 0x750a96e925584902; 0x18b50cc0949615aa; 0x5308b8049369c44a; 0x3e0d34bdecd14481; 0xfd331b301ffc983; 0x1fcf2c10d39d8827; 0x175bfd10ed5854ca; 0x588b885ce1f46208; 0x41e1da144a6b36f6; 0x5e4332ec3ac9848c; 0x28ba6f65654b11ed; 0x652a1d7651545951; 0x7317c2202c57ab9a; 0x2152df772328ce84; 0x20b433952403420c; 0x31a1758ddc301d68; 0x3083376fc2eba38d; 0x414d93192b66e5e5; 0x3fa76897f267e00; 0x3d9603beec2fca26; 0x7628a66b9026a932; 0xf66c9a547b5662e; 0x16b9d045f44ff0d0; 0x19a58f77aaa22c10; 0x44237630b6bb4a13; 0x5e10cb39a75bd9d2; 0x3040beb0df0d13e6; 0x78570f0bfda0e0a; 0x12eeaa5695311166; 0x786fb241c3c991a6; 0x497a365d98da6a84; 0x4f8df813f65c8958; 0x7c60ad7a03d39e9f; 0x2bfa5e60dfca4319; 0x21a6f21ce53d7bc; 0x4ed7075fa7c2819; 0x63d69d823a3c7117; 0x785ee1898eb40abc; 0x4e5a21a0cbfecf0a; 0xd8abcea82b709d7; 0x4cab08d5048d0655; 0xd044ae7bef25704; 0x3bf37b3a31dbba18; 0x4cb5fb9b482ad427; 0x37dd143cfc2726a9; 0x6a11353f6363aa4c; 0x3ff29a478e7a02bd; 0x4e8767bd08d8ca8a; 0x38e5426902c42fa8; 0x14a6d80a2b834e21; 0x16933fdea00f511a; 0xd5067afa559430d; 0xe469287b973718c; 0x57e14c88642afe24; 0x5928e5fb3578c1b7; 0x7c498d2506c3c6a4; 0x315eb3cf3f43df87; 0x53a3d1a846c670be; 0x4b95208e376e3695; 0x4366d2936c501fa7; 0x5213da342ccf8c5b; 0x2efda3476a23cedb; 0x23156d18ca2ec937; 0x36ebd0c23b4293d6; 0x5da979636c2f830a; 0x338427871d8d2242; 0x2b3633c5b3bcd25a; 0x3a6bdb7127e49929; 0x36321154f067b680; 0xa0f7bf6f886e3e1; 0x2a82871682d6689a; 0x6adf05e3def99184; 0x51a1a7494343fd6b; 0x2f7819feccc382f5; 0x7cf7a0edb0500539; 0x3176ab434ff24cc5; 0x42eb12314d220338; 0x7cc0ab271ad7a82a; 0x34212f6837498d2f; 0x3631f8b76a9c9c92; 0x397db9bab9999030; 0x1ff4795a8d9895be; 0x55f22c985f1d5e2d; 0x73a881cde73e107b; 0x7a2b1561e2fbcc59; 0x320f904fd3274c2; 0x31e8538ceacc7d78; 0x42e28e456527cf67; 0x789c51fcd81d147e; 0x177501f62e371e3e; 0x5706c05c5b2636b6; 0x430f01b3b27a8b79; 0x29ae919d75cc665; 0x4ec2b6437d019b7a; 0x6102c996950ea8e7; 0x6a3528f46c4d6e3e; 0x6230884771931620; 0x31ecccc6ffbc4226; 0x7fa74e504c75b912; 0x67347ba729b288ea; 0x14cb7b4a71a67f92; 0x7f33ac1577df72f2; 0x6fcc6865a1dfa873; 0x4bcc009a054b0e13; 0x470ca333a1a069e3; 0x72a90e9942f7e7; 0x9192eaf76798384; 0x7e4e068e2cd9672a; 0x6da73141e0d11e15; 0x4242d7e9c19a4803; 0x7337e51e5dab710d; 0x905035516842406; 0x6988178ebfb92b08; 0x55199a75e81bebd9; 0x25c38ae86d4559e0; 0x57ace4b56ef0e6fc; 0x323735adfc51f2ff; 0x2d124f];
   [0x551d54251b736f47; 0x5a51ff94a36914f8; 0x56bdf76d098b7d83; 0x13d8b0f69944335b; 0x26c99ab9e8ac6f2f; 0xf0a0cd5a7621725; 0x39cbfb622ed5f8bb; 0x79c1366af477deac; 0x48a0843435f21911; 0x2ff98062c96acb1e; 0x56e4a4c649bc2e2b; 0x1b6104dcff4e02cd; 0x8fce609091cab16; 0x72ca715dd4fba434; 0x1d15517211e6b307; 0x3d31ca029a136b7a; 0x6e5d69a6cc7f2cbd; 0x65bc8567c6185a60; 0x71c7a25aec0861f8; 0x1d93c494f8ad7811; 0x475bc7519692fc1d; 0x33c9e46afa4e958e; 0x75b00d952902eaac; 0x12b8bc34ec108d4f; 0x7451bb4140923e5f; 0x71fdd91ca96697a5; 0x1258611276e199b3; 0x5a5057b00f695d16; 0x460fc17fedc03907; 0x66857456b8df3718; 0x44812cef62fde8e; 0x51ec967514507c; 0xdeec4ed841fd368; 0x6f752baaa72e4008; 0x6e7c13cdd90f80b0; 0x614624b718708a05; 0x5a98fa0ffbeef96; 0x1d3383b67b129003; 0x71179d7ddd4672de; 0x6b5014e88858958a; 0x49dac926f8132c15; 0x45d030baf20c470b; 0x4796b3978524dfbd; 0x2f94242717996161; 0x4b0e7035412c1867; 0xda4f44039bcd481; 0x73a58c69a1559da3; 0x4251ebdf683589bf; 0x2431e715db5845a4; 0x237a50818138f589; 0x2d1fe4130c6ebb5b; 0x5808c2d00aa5e8e2; 0x7478d71442663d6e; 0x717eeb3fa8b850a1; 0x11521e9a06cb1d4e; 0x5f9536851e476620; 0x7725a5dce4ae304; 0xeb93229d31bba66; 0x7e4cdea292a864b4; 0x52c6cff626e796f0; 0x794201b04f475b6b; 0x47edecb1fb4215d5; 0x352ec54c4823a135; 0x4677db5acc49fc80; 0x10d048c23c234d62; 0x215c799bd454a3ca; 0x760d5040df432ede; 0x69fc69477c1db88a; 0x34dbfabd629d46f2; 0x672c8094ddf4443b; 0x7c09e4dfd0f4ab9c; 0x111b06e603d2ebaa; 0x20862c460c304414; 0x5273fb96a79b6cb0; 0x7c3047cb28af2cd6; 0x2a62b7c8cc6a3e75; 0x214191034bcc9381; 0x48b0614c9ac5d84f; 0x48fbb74b6de66916; 0x44dd3044edd7ff99; 0x1e5b9f3fa3020ee7; 0x6c0f70e42af9e197; 0x818e95912210eee; 0x60ef3c48e789908b; 0x511e8a3737121c3e; 0x2df1ef28d2e4ab04; 0x3b6f2d8d61187dd8; 0x4177074342345aa; 0x3fcf18f7e556fe9a; 0x2c554b520a9aef46; 0x33a2ccbbe01537f6; 0x5354f6102e7a621e; 0x4e5462d8d3dbd4a6; 0x10322ae26f6714d1; 0x6688648fee44726; 0x27c22c78e9b6613d; 0x390fca0df5d756fe; 0x408deb0d44b00447; 0x6cfdefebd4e38880; 0x61c8c80a1f41b0f6; 0x376360c66c201f1b; 0x25b4b2e8c5045d8f; 0x74c2d2a1561fd38; 0x16569e680cc4402b; 0x42bf26a01a9eab13; 0x19541d2fcc4874d5; 0x265a430cdfc2f57c; 0x1318787d103c7ba3; 0x7671db42be05f25a; 0x5af2b4a0060ec4a3; 0x2487926a07f297b9; 0x17074736216e49b2; 0x48107bf4b2c85763; 0x27ba28c64c892c1c; 0x5aeabef8f484dfa8; 0x160df78760ac3dd9; 0x58a5f627a05ffe9; 0x51b7d1af1c920d36; 0x528486e1a18280e9; 0x73cb9d731d34f6b2; 0xb3c8a200a0c782b; 0x30023ebe8149d50; 0x24bf7f6a769a4e2c; 0x23a31fe12eb2fd95; 0x234225c643b07c3d; 0x6158c2770f9bfe8b; 0x5827ad7e1d5992af; 0x4bf252af827d82b; 0x52f62e3ac0c30d07; 0x797a4d82bbf9ca0c; 0x5c235deb0a32532d; 0x4736a19a8d0815cb; 0x3f9d5e07d631f920; 0x361157b56bac08f9; 0x74c7ccce28609323; 0xa26a09beef1b082; 0x3b203567a54db092; 0x274c2f4c57f358dc; 0x1b7ab9cef1a30368; 0x6eea7894a99f9dc3; 0x7965331ccb8e7645; 0x1a96b3218583e522; 0x50adbb7be3296ce8; 0x4bb4b9b06332acaf; 0x5b1db32b954edd2b; 0x175ae234f2ac0752; 0x2f1ae02636e30d3a; 0x1a56ff5e69efe854; 0x985b8c846d7ebed; 0x1503fb93a3af4d83; 0x562c65256a38dfa7; 0x6c79335d213815a3; 0x700710e811003120; 0x4a5ff8b4e7f7c126; 0x3e48de1e3659cb5f; 0x7d3ead90410d7fdf; 0x3fd1fb6517d3e942; 0x1f2caa59a5dd2599; 0x2ab3c16e4df66cbd; 0x6fd929f76efbbfe9; 0x516fa60a7ea1276c; 0x3be5f17c05b308a0; 0x3fba2ce2de26fda1; 0x45aaf3397281171; 0x51507bd6e2feb07b; 0x7caf8d52e0b8; 0x74a1478c00344d3a; 0x14d7f82e7edfb0c3; 0x62afc44499c0d330; 0x6aedb748aba18f61; 0x76db0a4be66b2457; 0x51a616b5f318184; 0x7fd2e6ba5e651f21; 0x49e529315750360; 0x42044ef4ceae9edd; 0x17a06d5982ec265; 0x2facd685e605ce89; 0x2824ade879021a1d; 0x32a68135fadc9a59; 0x421ac7a0cc8ba9c6; 0x16b3a5bd59bf3c; 0x4d0f20532e075dfe; 0x4ed4fe5142b146a4; 0x70548b99bfb7e9d4; 0x46ae5a681e8a091c; 0x351d9f7c588d861d; 0x1fb3b8e327cd1013; 0x203e4600b3b6423c; 0x49cc212aaf550073; 0x37d4b2216ef9bf84; 0x51ff241c7c48b80e; 0xc86c3af5eabe144; 0x54d2d3d27e10c6f4; 0x346c6959c4f9efb9; 0x61534d1c5c7d72fa; 0x4466d4cf0b257693; 0x1d02c6abf3383ab5; 0x35117b3b5b9296c6; 0x72b79d0ec5087524; 0x315c217df757f339; 0x71f492a9bf8dda3b; 0x2b88587c8c86f9c5; 0x1fd0d6c07bc8e777; 0x5afcd8b2f4c90820; 0x2c4dcd5d60adb723; 0x4eed730a8ce91871; 0x43b836bc64137422; 0x758788f794f9e0aa; 0x2dd4086b62c38b6d; 0x49139709feacf7e2; 0x41d68bf0a9bc0396; 0x31de532841f0b43; 0x15f99979768659f5; 0x586c7db5477c144; 0x21d9ec3a06a0e4b4; 0x3e7ccbe7c83f8c5e; 0x2d52b5c71b4dc188; 0x411460b82802ccf2; 0x63b690f613a97f94; 0x20b9d0c6b3ae180e; 0x4476db31c89137c4; 0x3555a05b4603fa1b; 0x58c100b15a433e86; 0x38d349ba992ee00f; 0x7766f943e9eb93c6; 0x38d74a0b0e1a6f1; 0x4ff3f251a59e9e21; 0x4834a5b694db256; 0x2a7bfa435ce2b1cb; 0xce7474b0f560516; 0x55fa5a80993ec105; 0x19709d4e34040252; 0x142268fc5c177c69; 0x7ddd17f717d5abe4; 0x533af8b904f5022b; 0x1941946c7961ffa1; 0x3cac95a855b3d9c1; 0x3c9a69213314caa3; 0x7b4f0f28d0c599a3; 0x10483c289b1fd918; 0x19f54b0474bc3b3b; 0x13604de53eaedc51; 0x720c80facd9cf474; 0x5470e0257b74d238; 0x446ce67dcfc13a67; 0x629fcf8d8c48e464; 0x735edfe4289d2ca4; 0x15e2b2e4972e53e2; 0x26f227e2e13f3120; 0x74198b8b5c93d3de; 0x5cae4d7f3dc0990a; 0x474f61f25c39c6f4; 0x92ad7b8b7899220; 0x46b90e1aa9ca76ed; 0x2298466619ac9594; 0x1f4474ea33ff3224; 0x334453975e021b2b; 0x78f96928d135b792; 0x13615c2b60eca2e9; 0x69ee35eabf0ff593; 0x68ceaea59e8d59a8; 0x421c334a57f1754a; 0x2084d4a34ae47bc8; 0x3099b68d1a100cb8; 0x693a32525da13205; 0x348a54de56ccb755; 0x4a7fe64af21b0390; 0x553579865176baff; 0x1a3fe78676bfc4cf; 0x5d543bd157fb319c; 0x302f9b22ebcd7a78; 0x3c1b0f99d2e988ee; 0x652ba3db60eca09c; 0x258ee8539e259615; 0x60960ddd4f4cd022; 0x34d7fae0ff4023e5; 0x1afb95522fc9acc9; 0x75ae570a279c2106; 0x7e56333dfaf890fc; 0x54571e755e6ef08a; 0x3f559e224c251ab9; 0x7558b6790167d927; 0x267dfd1a185cb7ef; 0x652615218e70bf52; 0x783b26b6690e0a44; 0x42226e3f2a615f59; 0x4c9cd830e87ae331; 0x3909ff59ad63eea8; 0x6c9e35d9a8ba8b05; 0x39f5f588f07c7770; 0x15854b588e16f964; 0x7da25ffdd1052e85; 0x5b090b08ed6d57c8; 0x6b91b5f61bcd8967; 0x65571f2c1123bd42; 0x28207d95a0fbca44; 0x639958b10d68980a; 0x3cf4446572b74b94; 0x5d642c88850210f9; 0xce23dc5f88fb534; 0x5e8193f6d2b0265e; 0x5ec104597d767dff; 0x1680fd3ff96ceba9; 0x59d5cb9b299c0ec0; 0x782d08aaefaace27; 0x6d58f15438446efc; 0x71da728fcba4dbc8; 0x3b83ab86c76aa5d5; 0x5d4f3436a6c7565e; 0x505e04738a2e85f0; 0x1dd7140160493805; 0x73acac9405206d97; 0x9dc96004b35b82d; 0x621cc510170749d5; 0x3129725f659f9723; 0x69c678f1aff8b297; 0x438ce4a2db98345a; 0x3c8fd7];
   [0x7221f9157232a7ab; 0x4b0c2d36c913eb4e; 0x2e2e74368ae027b9; 0x1948a299adf0b16a; 0x3503d0698e559cb8; 0x7a4a09143553fb5e; 0x48691434e29fa27d; 0x39c6c544cd29245c; 0x34975dc533b7c6df; 0x29831da7522d280c; 0x4947a039536f716e; 0x4aa02f91acb655ec; 0x1b6dc5eb91bea9fa; 0x6d2ef151089c831f; 0x65a21914f4ade643; 0x37dc00b015825a9f; 0x17645b04ee30bf11; 0x9a88a599dc483e5; 0x3afcffa0e8653760; 0x329bc5dfd3900c86; 0x69947313b4a297bf; 0x530fe16a415cbf60; 0x4b07be91162db6c8; 0x6de2395cba979689; 0x7b80268f241c503d; 0xc3e58cfd05b1125; 0x7c3b5de72d8a630; 0x490d2d1f7867e182; 0x676314b63a8b40ab; 0x73ed2bef5c27abff; 0x2648ac46ee9d775e; 0x29e5bede621d8e91; 0x40f2d2198ae3eef1; 0x5885214bee0dc460; 0x7f215f8d381103f3; 0x36355088a119ab23; 0x485d9c87e25402c0; 0x6d330bace463eb16; 0x5c00c4ee8ceddb06; 0x3f99dc7373c4729; 0x6b97b4ee6622f573; 0x2c2e045a5f0719f6; 0x3ca3f05367a2cb68; 0x41570e44a77d1af4; 0x2c4d220e442a783f; 0x2e4cbcc18870942b; 0x77d76e07718fc354; 0x7da04810ddfe585f; 0x749fa330e4c9aaf0; 0x7853c31e026c9f58; 0x3f3c223e3403d612; 0x790ed46ef6321f5e; 0x77ee3b5f470f94d0; 0x212bdb5806af9267; 0x1ed27f87327a3a5; 0x5a5d839a7bb440f7; 0x64b73fdee0341f16; 0x460d570deff0d569; 0x1a44a5141feb44bb; 0x19295276e8aa3ac2; 0x1f2b364d03ea884d; 0x10c9fdf2f97a97b3; 0x74ac35e9a6fabd33; 0x16203ab87c1b6a0; 0x3d81a921c32a8d8c; 0x591e7a317dff743; 0x17231e8ccc63b41a; 0x396c170d76f9cabc; 0x55ce9d10c3f09f8a; 0x27605d580763064d; 0x68e3ff7901e73a3d; 0x51e1134ac305b1a0; 0xc07fda709985286; 0x424d903582c2ae37; 0x2192b338ba17d6b; 0x249f959012e62989; 0xdb64a9add01d5fc; 0x4cd3fa0e85bb4e1b; 0x3f13e2bacd9acf65; 0x1ea20e879a993bfd; 0x2f451a1e8fac403e; 0xb899f815f12b75; 0x16a223c1865d4b5c; 0x619632aa0a29c5db; 0x1d6ae1edff05d5a9; 0x2a218a7710983dd; 0x7b2ab573aa2ff3c3; 0x50d110ea9a0bdd17; 0x6149959ddec54976; 0x5267548de4b47bcf; 0x54f5af087602d1f0; 0x21b6ecde4ecd4884; 0x2b5b6b7f93adc565; 0x1f0eb17a60794f0e; 0x2c0b8a1f1168796; 0x5b03ac428630ef0; 0x11cf0d19072db8a4; 0x29362e89fc8bd20c; 0x292ac0af697ec4dc; 0x28eb564bf510b940; 0x222bba0607f6a0b2; 0x5b19d1e43ed7589d; 0x749658aaa53b0e11; 0x60f44ab0a84a3c59; 0x4623f4276dc2ef0c; 0x152a660c3c8b0d8f; 0x2df1aca4a8326802; 0x2a09fe860a9b8015; 0x2e549524b03af0e2; 0x721bdc2c6ebea790; 0x647788d28d186f6d; 0x32b293e67bf07ee7; 0x1af7d99d42e1f523; 0x38ed58aada28fd6c; 0x7d6f4ef5920dd508; 0x69cff6e8c99ee267; 0x5908a00eaf1747e1; 0x42b782deeab72967; 0x6c43579e238bb9df; 0xd080965072340df; 0x58d2b6d1cb651faa; 0x5a5e751ca7c055ff; 0x59998655e5e58277; 0x16e81528120600eb; 0x8c74399d2ad43e3; 0x73c27f8aa2e3912f; 0x632a71a815fb160b; 0x5204d568e9ff8af9; 0x2d58420f8fc4bcf3; 0x67d9f455f8218eb; 0x429ff561ab017a5c; 0x7a9a186d503bdb9d; 0x123d83099783983e; 0x3688d88b77b5ee55; 0x1e70d1239db6c77f; 0x754b212f1db6f94d; 0x5f448ca0aae6ce68; 0x2a068b9acaf2c9e; 0x69f2ee5c28af9ae8; 0x4102ca40fc10b532; 0x25d5bcfb2d62284d; 0x2dc5694641c525ac; 0xa850553241191c1; 0xaa58ab90b95c7d0; 0x748c73691c548793; 0x497525eb32fe2707; 0x4486d4ccb0eec263; 0x2d68e847e2a0cbe8; 0x1539427352f4da5a; 0x468d51b5db6b1dc8; 0x1a21995f9affa0ec; 0x20b30d1f08508b78; 0x578a849aa08dbe95; 0x1b4a2b144d15c97e; 0x6a41a0379ae2fa57; 0x3c8bdc07a8b2f9be; 0x8c62be02eabe40e; 0x2b142af99519e5da; 0x1667adbb3cf735b1; 0x5a2db93990728138; 0x4b45606c70ec67a8; 0x1127b6b74edfa2a; 0x516860f179487bc; 0x185f090f630ef5c0; 0x39426eb561433b7a; 0x2410910d2e5bb8e3; 0x46086fb7157fa93d; 0x62da76108f26e029; 0x2cb0138bef60624; 0xfd0f13ffe9a979a; 0x777b73ee6ac6b2db; 0x65295b7f29e38602; 0x3a38e4911b056793; 0x25f93f08dbd1edf; 0x306e8bf8fca039ee; 0x6b6529ea6d781db5; 0x2c4dedef795944c8; 0x34f22fdcf62d12c; 0x5d29e3621574d5a4; 0xa1f73e7671d5b95; 0x59b14e68ed1e6aa0; 0x6c6e8a7329b83afe; 0x6daa7d3d28c0a7aa; 0x6e53ba0b8b1acc4d; 0x6f4117e455b40e40; 0x3bf1e7c0c46f693a; 0x564881755ecf04a1; 0x4a2be9c57223647b; 0x6d86b4e050add7a5; 0x7e10d2a089aaa26b; 0x5738cc8bccf4eea3; 0x51ba161b1bd7c933; 0x1768efd366df6047; 0x473b8316f2de5fe8; 0xcf8f848e02d1c3a; 0x4eeec2b6cb81bd20; 0x2abf0f66ef32a202; 0x225209899b128be; 0x3a3e30de1706ff5; 0x23ffe65c7d49473a; 0xe324f0fa4252fae; 0x5edfdfbffc19ffcc; 0x4a4496c1140e224e; 0x56ee63450fc39e10; 0x132a3eecf2d5c15; 0x3e3991145d8baecf; 0x1948c50e2a8b0110; 0x45e262685e5dd201; 0x3dc6c4f0fae0aa0f; 0x191ab377c4b9f562; 0x7298d2e2614f5663; 0x72a2f8d5bdb3a9b0; 0x4b37d4da1eebab5f; 0x141660b274005a45; 0x1c8cfe8c3c86c237; 0x6875e2a3c19ddb69; 0x572c57656a98e4c5; 0x30dd25df2770e502; 0x5aefacbb477c5c4b; 0x2c8c89ea58973457; 0x7e1dd17518612baf; 0x758ed31ab762bcb1; 0x6aaf0f2cd83ee420; 0x19dd5f55b0dcf451; 0x5e9ddbdf4fdb8249; 0x3893a7ca28284da7; 0x70441f9368fdcb12; 0x194ac0e8cb8d90f8; 0x5c8cb9a4218a6201; 0x3d2782e3cc95999; 0x68d9a7de7dd47d3a; 0x75f6029ba273701; 0x72e89a0af0d12d9b; 0x59a22e94892c56ba; 0xee3cfccc70f21e1; 0x77c9a85caf1197bf; 0x29430e06dea79749; 0x37a2b584bfbba34f; 0x4e1594599b89ff2d; 0x2787b3d22f45f62e; 0x1c03bf67e7e8b87a; 0x322b72b86970474a; 0x1903f99083cadca8; 0x78d592d0ce77b8df; 0x9986e35bfad2a7a; 0x5ee2898fd5137667; 0x7a8c999d01c3c70b; 0x4c4a367463e08ed3; 0x1053362ace256e05; 0x3032846806e457d5; 0x68e3b7a6592b5ef6; 0x5a65ddc7eb526c3; 0x3fa16155e6d71b6b; 0x60937f47f13ae23c; 0x4d293ef1bc2ae7ef; 0x6270d11711b42e64; 0x920531bf4d8c7d4; 0x30d9c2945a4657e5; 0x6cb3049d465c3a31; 0x67ffa545953f4cdd; 0x6cba1beae6b76f04; 0x22b4d652b7cab6a2; 0x4785803c55113199; 0x2fc44c9156c52f63; 0x482e59099ac06bf2; 0x1b84e604d102eda8; 0x76975991aa041b92; 0x1f5d24670950b0a; 0x7c76e02ff2109894; 0x1b0e2529b1b79a33; 0x53b567bd933d325f; 0x76490409816018ea; 0x506b25bd9e71271c; 0x19bd2fdd34183462; 0x1ddae694f1958905; 0x35041294f85e9b55; 0x75f5b584beabfc6a; 0x8b5f37259b16eb; 0x3a80eeb50b7a130f; 0x229a3ad9c8586a8d; 0x5bb4b00167b41ab6; 0x1e22dd3bd03809c6; 0x7e59e9bcfd1f34f7; 0x282f44a3401798b7; 0x50fe7360368b41a8; 0x33c4d1e8c6f94bc5; 0x36eaf1a52887b2d3; 0x253b5bd7d03285bf; 0x244f71288d0f73ab; 0x7d4ae9caad16632; 0x79f48b4051378e82; 0x53f0859ec9df3b80; 0x2cad679e5601eb3e; 0x4b7c04ddf494c316; 0x4c78f02899f4bdac; 0x2b901169144aae31; 0x4f6a35c2eb416540; 0x6de96658cb0e88c1; 0xb185528c3675c05; 0x12f3a9879e8f560e; 0x3cf438f561d5bdb5; 0x46d022abf9ae4d7; 0x20244d1b4e1eda3; 0x5aa747b12ab3ff07; 0x71ac489c0ae2beb9; 0x52e8e6c538e93255; 0x1304c6bf9191e8c5; 0x1e57e9a2a2186a7; 0x14e2355b21e18d8c; 0xb559ca2f3a64266; 0x5753964bdf11a5ac; 0x2f153bcbc7d8eb4f; 0x278972b3233c9bac; 0x20233a462a884088; 0x658ab67e2d053253; 0x5b47389782b97518; 0x16bf7def81fccdd2; 0xf647a];
   [0x30866b814b049f10; 0x14261d47b07d66f1; 0xd9098a9178a3adb; 0x3da3a65ee5eacbcb; 0x3d1b3298c05f65f6; 0x6f39cc272edb2861; 0x247e484a8b0027e1; 0x23c055d683fa6510; 0x3b2927e9e5cbb21e; 0x25f2093e135aa971; 0x5653ca8bccc049d8; 0x3a3d7e32c4b10f97; 0x251cbfd59f376b85; 0x7e5fa88866f08a29; 0x7bfa77ae2163604; 0x32096743492b6a82; 0x2af50599fa511f37; 0x33b4c2310874ffac; 0x794b5f17b5f794b9; 0x79f5bcdcdf0fa5cb; 0x6ccbb52314e43ccd; 0x817f50e811cc8b9; 0x4609fdcad1bb3e2a; 0x67b9e5be572e6bf0; 0x7b5497254ab0eb9b; 0x4176cb0f0f9c7980; 0x65132804cd3ea410; 0x481de4c6dc928b37; 0x1fb086fd263cdcbb; 0x1d2588ea243291f3; 0x3afa67511a5988fe; 0x1e26aff4724ab436; 0x5a6e4fd0ef325234; 0x3c7372ac88a6e5f7; 0x539e3bd57cd02ce9; 0x490c210545569e26; 0x264ca3bc5ab3081e; 0x4fefda4edd9b830e; 0x5865af72e52a7bdd; 0x313db738eebb8ff7; 0x5bf30d96023830b; 0x3a20a5e13dab0da; 0x17ed667bdb803ad3; 0x497587be4577783d; 0x3635f13610c16b8d; 0x723e2f0399add57d; 0x5a63cfa1e28128f5; 0x5214c2ca62fd1dc; 0x24da5f3d3828ed8b; 0x3480ddcecedd7e20; 0x755fcdc1465623a5; 0x723316f38c889413; 0x1b94b99736139864; 0x4c4c22e8ac2cdab0; 0x318f644687fb16d2; 0x4968f07e0bc365bb; 0x242cd4e55ba27ecf; 0x509a8ac3e5010fca; 0x4e23058299be71a; 0x70f920d919cd7c1d; 0x79d9d6d657ddbd65; 0x7750f51d1d719c9c; 0x798d4304ccf3523b; 0x2a9dfb8a545c0f4b; 0x4c0a16b1a784cd71; 0x2d45cb330f336c93; 0x4df5bf1f9ad6b9b5; 0x4c5ff50dc0924974; 0x372a9bf519d4c6e0; 0x7e8efe7b751ca4b2; 0x15aa35984e7cac79; 0x652bffec6a6d2d9a; 0x6fdf590fae3fdc55; 0x6463edc56bdef006; 0x21734bdc8657f49e; 0x4e3bb547553591a3; 0x21186a0a81136038; 0x135b340c48cb766d; 0x3b40299513f81c8a; 0x76b7ce642f2a74a2; 0x65082296a8495e23; 0x31ca692fd159811f; 0x4d7f0d965dc120e1; 0x6d5a622bbf858920; 0x341f051c6fcf8fcd; 0x6ed0413817993e8; 0x65f3a9e318d7fdfa; 0x2b305a7e3d172326; 0x7d8c7e1f94b61786; 0x3bd658a9d95f4596; 0x4d828a85388e765a; 0x21f1fc78e1bf1886; 0x5009f674f55420dc; 0x5137dbec16fd6a97; 0x79742ca5fe19da4c; 0x28d35492c27d2b31; 0x669f4e7987e2d507; 0x612e98c3c5bee474; 0x777408919513bdd2; 0x1d97dbb146b40ca; 0x76874576550c7f19; 0x6814bee199eee140; 0x6978e6b9632c73e2; 0x71c7222b689a9ed; 0x520147596ae16253; 0x57adb1b8b8833028; 0x4d4df5fd726dd3af; 0x28b917b65f828a66; 0x7fecf539e002cef2; 0x34ee3b77ec2c88b6; 0x66c70d6b01764ecb; 0x12553e4ef9888821; 0x5f057dac322957db; 0x338e992409020940; 0x417884993cee1e16; 0x6250ec63d2b29adc; 0x67c63def7903097; 0xbf32112466eccb4; 0x299894ab4fcd0cd7; 0x4e3ee242bd865f93; 0x21e9a8ac5c1a124e; 0x45aeb4e14f1269c7; 0x2ab8c2b23ed86e1d; 0x5ab734cac3b95c55; 0x2a1a8a1d313d6368; 0x32db80b3fc6b39a5; 0x5b8f52e098a962f9; 0x5423163e8e265580; 0x3827a4c4eeec3315; 0x4596f1728634497f; 0x211eebd051b8d838; 0x551487b5b0c8ac82; 0x79ed456aaf89c0ef; 0x37b93483d4165ee0; 0x5263ee565961b68e; 0x6022dc8609fb0659; 0x64752e14af978b8e; 0xa797e869358e027; 0xd6f28b6400341e6; 0x7ac62d2687644f58; 0x31e320e8c7656ec7; 0x6c8959a1e6272f64; 0x466613f30cc10253; 0x72fd896408795b14; 0x2aee52d9866b6df5; 0x2c064a06a5ba815e; 0x6cc4ee28bc3e5090; 0x56437f458905b2fd; 0x4131bbe2e238b4a4; 0x4c28c72f5ce93eb0; 0x79b86cb6a7d62102; 0x4eaee1a7f4627d1e; 0xc6f16c6a498100f; 0x73f5fc02bb240bd2; 0x7c50e16db870e659; 0x3ed0dc09cddd33a7; 0x18c7b210788a7eb7; 0x546abeb7a67b6060; 0x46a3ae11175d772e; 0x1c3b0898ac0b525d; 0x5a9cc66e5e447aeb; 0x58131eb197336794; 0x6f73830c70bd1803; 0x6cd58e3795cb7ad4; 0x9e9e6ea6f1442c6; 0x4050775aec32a7e; 0x212c67c362fa5484; 0x58be38c37b5a251f; 0x3c65350da91ca5b6; 0x5eb9d209f07f54cf; 0x72dd2efcc7aab1ce; 0x3c487e5a1f42fad4; 0x47dfe152042aa8b1; 0x7526ce1fdae4449f; 0x61a65898fd6156eb; 0x761e2c4e3d99be1d; 0x326193219b292762; 0x3f8186130f83bd11; 0x52903a3e967c11bc; 0xbc1bb0e77fa9bb5; 0xbfca2a6f8eace5a; 0xaef2400f62c6aae; 0x1c1970f773d7d5e6; 0x1295b942808e3d4; 0x88d609ff182abc6; 0x4251ba36df8704a4; 0x2600e64bf1a36d17; 0x73f6d0c99404c1d1; 0x6ba23365a52194b; 0x6d2d5eb1bac11832; 0x24531f2eab03ac99; 0x101277de5320fb61; 0x5d0f2fd0d0feaa6c; 0x779f9b47cf8c0009; 0x56efb162d472346d; 0x2d1f531f02b6889a; 0x21718fd10a2a8dad; 0x45bd57208959bd09; 0x4b497cf34168222e; 0x202155f0196307ce; 0x3569f57aced1cf50; 0x21e95a0e09b5e45e; 0x63e58202b9e3a5db; 0x18a46a900cdbc466; 0x66aaf587bd22b58f; 0x7f02b4b2f08de9c0; 0x2b6f8bc810f202e8; 0x35ffeaa0008b0635; 0x552b6b0c377f7024; 0x6bb1024d19de332b; 0x47f358c3e3fbce9a; 0xefc40466111a8ed; 0x33180ed9ef46c6b0; 0x3e0be4f7206c83f8; 0x4a78ec909a99425f; 0x4780e5062a2b0d47; 0x70cf8ab2e860bf9f; 0xa1b24c64c2e5938; 0x36d65fcb03f6fe74; 0x7a4aeea86beee074; 0xfb2222f502d3e95; 0xf2667ac65209259; 0x7823f2b20a9b1873; 0x1602e6007265c1f9; 0x320f0f6382a53750; 0x2a12bdbb8b75e92f; 0x4335d46adaa4b3b7; 0x66cd98af3cc870b1; 0x42bfd26344e937f8; 0x6206ce19f897d1a; 0x580b0da0c13c73eb; 0x406c9e50089430dd; 0x67a3dff0e8f836b6; 0x2ca256fb0a03e99d; 0x114549c3fa5d88a7; 0x7ea93312f5b3d897; 0x3aed3465f8e0d770; 0x44f7c8629a0e3f6f; 0x7d1242331f2c33f3; 0x23c242428a62a1e5; 0x6227d012c7f3db8; 0x305689c240d51138; 0x5dfd77f46d955d05; 0x71177741e0d07e17; 0x54a065c43cb9155a; 0xf526ef3e27851f2; 0x7778526cf89ae542; 0x5a8d167fcd204ee1; 0x4a623797a5c9594f; 0x4203e3cfee920646; 0x11b3fb67e034779c; 0x16a2f86b89f65112; 0x3eb68ad35de063c4; 0x6855ff371808333c; 0x9daa9c65d5ac416; 0x5b995d8efb34cea1; 0x46bb68471e0b8f2d; 0x2d083074cb8b6fbf; 0x687101076709a78b; 0x6441cc2eadbf1847; 0x62fddbedad5b7775; 0x40209bf25c4250d5; 0x419b585b205868e0; 0x49b1140817ccb37b; 0x7e512971797af49f; 0x7a028434c0d5aed3; 0x2860a3c436b1915e; 0x6800306f1295c31b; 0x1ea9409bc1ecf9ca; 0x2907fa4012e0ee43; 0x4d10996a6375434d; 0x56c57eced317ac00; 0x4c2033eb8f360363; 0x1ac2096b0aa0f17d; 0x41821724b6be8838; 0x4996ebefd5d8fe3e; 0x6d8d3f849895dfda; 0x21e380705f1b5792; 0x480bae2b297491a9; 0x2ebaa019d673d933; 0x3262733a8a6c50db; 0x21dcf8d871ef8539; 0x7385f29e5f5cc9ca; 0x1dc4cb2fa5445d0b; 0x7f67eb247b14c8f; 0x936cdedb6e2806; 0x6c078f50120a318; 0x22b4bd64c9c5fc62; 0x2f1d0e62d0642b99; 0x76926f045a2922cd; 0x6649823e234b6d75; 0x479f60d180049248; 0x61f2a6c21e6a1eb9; 0x1063cebfe9a57647; 0x36b11257d9e1319a; 0x1081c1f533f45140; 0x5411ccb596b3d6c7; 0x75d77612c27a6897; 0x50f161e66c3260c9; 0x7293424aab232b63; 0x6756fa051e5c4972; 0x69be1177093979d2; 0x4527aa33f291e79e; 0x6f5ab2364bf28ae9; 0x2388ac93ebb9e53b; 0x186a5e91dd9fdc9a; 0x33f0a9a2f0d39d49; 0x7b3c323cfbb5e0d; 0x2aa1156a11281b04; 0x7adfbc5d4061a5de; 0xe6a41f9c09433a5; 0x789c58e690114b82; 0x69ba08fd54aa90da; 0x6ff7121ab5c79598; 0x74327ba6a766c72a; 0x7a2bccb121b108f0; 0x66e5861f9755a27d; 0x11f654];
   [0x5b79e17970558444; 0xff301a39e90db69; 0x6939318dc4235cb0; 0x7dad0abcba44bdc2; 0x7a5ab436d0d5486e; 0x68f61514e52cc0f5; 0x39444405c7f1f6a1; 0x6d3fa6bb0ef47864; 0x5f50c191bfe8cb35; 0xfb5d44fe8569297; 0x5a521ba350d9e172; 0x4a4c52900a03732b; 0x1a81a4724ce72072; 0x5ea8d568b26e9964; 0x1c8ddaedf5dd0996; 0x5e865294609408e5; 0x15a76cf92cb1f96d; 0x4729166d7869d3c6; 0x6aeeb84f3920d7eb; 0x41d8923c223b47fa; 0x2c5fc158294eb636; 0x5a3816a772eef205; 0x25521d04ba4fecfa; 0x3d5eaaaf36835338; 0x7499f86064fe26e0; 0x2318833c1877e4e1; 0x61ba65ca894b3c2e; 0xcd89935abd84cd8; 0x44ca1ac1453c56bb; 0x626e2f9d59fbf598; 0x73bb14a005a04357; 0x683adbfb6063808b; 0x3cd1bdd95b9cca33; 0x206d6162238f1810; 0x7340fee61b615251; 0x4b751d5e2e28ceac; 0x62babe7765e7ed22; 0x3b2e97e77a194b1f; 0x5fe5f6320e7f5874; 0x7cf4b3832edde18; 0x5cb6bb1602d74a29; 0x2181e2dfe1df3246; 0x26a08ae5223a351f; 0x2c35727e2005d5ea; 0x43b48810aa904cc1; 0x6cbe86ec35f93a8; 0x64c02c234d70434d; 0x76f3fc070ad9d024; 0x3c20b9050646399d; 0x623fef348acfd373; 0x1d38da024b37ec8b; 0x550de01fce6a63f5; 0x57b2421cf181b7b5; 0xa1599d18a3c4a9d; 0x7d25e574cceef5a2; 0x2e07aa1eefee6ad3; 0xb86868419b700d; 0x4865e54cc0cff7e8; 0x39fa9c43bcdd8ef; 0x5213718997ee04db; 0x16e6af8d80ad12d3; 0xd199918c5de0405; 0x725b253952b44ef9; 0x21adb9242619bb06; 0x43e7bf77dd13666b; 0x7861b9d1d522a6a4; 0x4d883a1b6351bb50; 0x7f1c3c3e3d462595; 0x5cea8119e01c3634; 0x5be5e3ff086a211c; 0x1cc2be947e51c4bb; 0x52cd481e5231db3b; 0x46fa703718d8a619; 0x1688a46f932d8ba6; 0x33ce9af0ce935ac; 0x74e33abc6565dc79; 0xa1e84dedbe4aea1; 0x4fa33ad86f0ad790; 0x18eabfdd1a6df58f; 0x1448c475ffa35479; 0x2488f69c4fa4528f; 0x3ea22c07140288f5; 0x60bcb39164b332fb; 0x104e7bb2550f088a; 0x7f8cbd26b7d2a527; 0x36fe75104fb386c8; 0x7a987698149a45c5; 0x2d18018c1dda36e4; 0x53cd2a8533ccb1ce; 0x29db04d5b0b76344; 0x2e0c5255efb4f3b5; 0x31cdacf1229a23fe; 0x52f701febab63abc; 0x6f1239ae2052e0e8; 0x131ff2d93e58a2ee; 0x28c460834a7c3b4c; 0x1da21a139139cf41; 0x7b1eaaddc3018924; 0x48efe58497b22d2a; 0x39411940c8d544fe; 0x326f9d80f8be3d44; 0x6ef197ecefa50a63; 0x1df67aca8539ad3e; 0x338b391df30b26f7; 0x2580257c0382f2b5; 0x5b7c18faadde5b1; 0x4bdf2a3aed244b64; 0x35a426ab986a5047; 0x49bdef9abe6254e; 0x6224346c4f4986e9; 0x181cdda47306ece5; 0x678cad5a20625bc7; 0x4daf6ec76a5ebc46; 0x28c95a1f8e6d5893; 0x2409e7e56cc96351; 0x1e7b38e9bff35219; 0x554c7b6241cdd47f; 0x6cc9afb6beeb5f5d; 0x3f18f803a70f7781; 0x4a572967a97d4af0; 0xa15e6acbc0a3988; 0x2e40e418b1ab42a0; 0x41c51f4555f28be1; 0x5ae3c1baaf33fdbb; 0x5015965a3cb0f262; 0xd3c481d7199f371; 0x66d0a323152f2a39; 0x1affb1f2f687a644; 0x746a986f8ca52a8a; 0x747edae80c0e9857; 0x3beb0221efa75e2c; 0x273c19fd255e894a; 0x26c0237266ca5218; 0x1e35d32bdc17422c; 0xe495ca01701c1d; 0x5b170622e15c3b48; 0x375ce968dd90a0cd; 0x1b952f62d7d45de1; 0x63be8af8da3d3335; 0x6b02ff902a5cbe9; 0x71e91d027660c597; 0x6411554a07e2ae31; 0x4c2dea961d73bcb; 0x55b924bec9a27cd0; 0x20cc99a5540126f9; 0x18d34224a624de09; 0x59e40507a2d7f765; 0x2bf081d250a908e0; 0x76603ade46716ecb; 0xd2dfdbf07db2eb1; 0x5365abf81ac26d56; 0x508715b39f4894c5; 0x593343e46fc59671; 0x7dba7ed412dfae49; 0x44a3d7fc7a87f2d7; 0x44b7b39126433b75; 0x642b17a71c2baf77; 0x718cb641b56f4e02; 0x37f4a08e4e43ea7f; 0x5fe1adfb59a56d09; 0x34b3070c606a635f; 0x7c168133d204effa; 0x45095eda1e4b7e94; 0x17e0cf7c5800b4df; 0x754e26fecf7729e6; 0x2a5e29958cb05b79; 0x4c56138cbea1223f; 0x5dc9d8ad71e18486; 0x6558aa0921a72cb9; 0xf6296b411397ff; 0x355dd082d1792ef5; 0x45f4ebfacd948923; 0x2eff20dc2931bedd; 0x26c2a098dce078b; 0x455e42942cec154a; 0x7e224f025416e98a; 0x40aa5316954e5a21; 0x18538d1f11a2e36; 0x651770b25e21abab; 0x5c43b9ed90f32523; 0x660c95e5b84635b2; 0x5178ff6000d28c99; 0x622413f9b57d4b98; 0x139f01d3c50bac53; 0x5e2f9e20653ab082; 0xe381f7c8626576; 0x787086cb368a440c; 0x20063e903b36b307; 0x52b551bfe8a89339; 0x1bbcef55b849298a; 0x26dbe45f330a1ca6; 0x43a944b4506c327f; 0x745e4b0feddbb81e; 0x41cc8b8672136474; 0x1823c35223a6c28d; 0x448c4e33036162f1; 0x171a31868d189324; 0x382d81a074fd397f; 0x3e3555a1bd53ec6b; 0x33b633141d933d83; 0x42736f69b01e7488; 0x5536fd7cd86302e1; 0x37a1fc7bf5355; 0x6d11ffd73538f81f; 0xbf2683c505d38dc; 0x6b4730f2e20ab75d; 0x743ee896a7ff0e1f; 0x8b7936e84571d88; 0x14e2095ef93fd839; 0x586cddb8f3e46ce5; 0x1c46edc3c234b3d6; 0x6abb642e0b2d0ba5; 0x63d1205ca0a63995; 0x63573e66196d92f2; 0x18b02d85aed8879b; 0x65fc92b45bb755cf; 0x139c3959f8f3f797; 0x536fe3b0ccb5b4f5; 0x138f14df4d219759; 0x39f7ad6d1359ad8c; 0x1cb657847b8fd295; 0x29d8e4d744ff337e; 0x7e5f7ff61d135bb7; 0x6a0e5529e5bc55ab; 0x46efee2b92a34ccc; 0x2570303d62f3d7c2; 0x14ad1ea904eb0f3; 0x3a44f326a06d92e2; 0x1bf0d29355ff385b; 0x519a115a67bd8602; 0x199eff48106174e8; 0x5ac98674402fd521; 0x66dfad276159cd62; 0x7478cc0048a9d32b; 0x2e3214e37892b69c; 0x4e6df7a17a8e835e; 0x1ed944c63235e530; 0x274f6d059bffe561; 0x2f6255fb9519cd53; 0x216fbc7f261317ba; 0x198b14c33a79d5c1; 0x348a82ee85fd71e5; 0x12c0c97cc9661e32; 0x3a01e691f77af90f; 0x5d28d419c6796eaf; 0x41ce24cd1cb1d6d1; 0x71c65058f756f798; 0x15870203d3315b6a; 0x67e989bdb3e3375a; 0x3de980ef6265fd21; 0x7053a1bb92eb5a8f; 0x779af6e9c5106429; 0x7b94f2afeba4f5d9; 0x2723ca63a34f6f83; 0x39df242f5925df73; 0x1e09af332e6a886d; 0x2ee4e350902c3b6a; 0x1475d2520f58acc5; 0xf9393512d133466; 0x142d5b1d143f654; 0x7c0cd5c7ccdb44f8; 0x7a1e48d245d70e2b; 0x7ef3e5667d850176; 0x339333537f448b99; 0x42fe144d98c1e906; 0x51567e835080aa21; 0x258bda62d2cdb8f6; 0x1a03222d0d5d7b21; 0x4de30d541bcf3db2; 0x29c8a9b4ced79c89; 0x5dd93462644fc01b; 0x289f05d71de35970; 0x2763be31235c3c3; 0x5c7fa51b6177e0a0; 0x23e1c41437f070b2; 0x6bcaf696213d3744; 0x1c38a707534a0af7; 0xbdf2aa5d5577e4d; 0x1394b44eed5d8f2b; 0x1d98e9c8e3e0d5c3; 0x12be559aeba45c60; 0x3c7be2498016e529; 0x2f173c28cbabdc51; 0x411ffb58cb5a9b11; 0x70b095490078a3c4; 0x30033b239bc22033; 0x6c5784874340dac3; 0x5495a12780630fe9; 0x6550b409564fb822; 0x8f5102790f8b67b; 0x6918e72b13dea6ec; 0x3809e0e888e50fb2; 0x1f0707fea06e22a7; 0x1df91891603179f9; 0x763fac35ddc40ed2; 0x5e3fa2010776ae26; 0x2ab32ccad91ea583; 0x57e9bc357efc43f4; 0xbab49262e6864e0; 0x550ee23009dcbd0e; 0x11dd1ae15cf26edf; 0x3b2034cb469c1d62; 0x4cf338428537110e; 0x44b38206709d92c4; 0x6579c356e2f1e8b7; 0x23af7d3efc1a28c3; 0x94f5f60f03c824e; 0x1d06a23de17819ab; 0x47f7fbdc4cc2b748; 0x15a9c2e5b85abaa9; 0x2e56c75be92e0e28; 0x25e566db3808e62f; 0x493f848d6a189da8; 0x2ccd51da0a9d1113; 0x46dd9fc2f7953cdf; 0x7d5b54fd7dd25f02; 0x7bfff31d456bff6; 0x4250b];
   [0x30153c98c90eb1c6; 0x47fa3170f767089f; 0x32035d1822096354; 0xce1af3fad4cac2b; 0x2c1b10d42865a121; 0x28cc3580c886d6; 0x2c9c45ae30662050; 0x43aaa8923252725f; 0x20d6fd600e280196; 0x792f85d2cc753135; 0x62b8fd9db0fa7eb6; 0x733967b77e94f6ed; 0x2f5b30c82d67987f; 0x36fb4e7fe81b5bb0; 0x1980cf8113ff9bcc; 0x5a80e723f9bf3d1d; 0x6b1c517fbb02b644; 0x16a7712ffda0f945; 0x684bebe1790ccd47; 0x17cc0741c140a26e; 0x100b3aa109f96c25; 0x7bc4a4e19fc0bc44; 0x3040fe9597f1aa0; 0x4ab87126ee7197b5; 0x7c2a674840f89ec8; 0x4e2e41a9a86b8e7c; 0x213c3384bc906d5c; 0x7c5d4b043ae27dc8; 0x5c7c20c9c4dc664b; 0x148358d3da841a3; 0x1588f9a375f5891e; 0x4bb38a9e8dd9312f; 0x251f88568c054d4b; 0x20fbaf6f149a9517; 0x23f28eb625ab2db3; 0x29edf7d8d5a89208; 0x9c54ef009781014; 0x7a15b4b6be767161; 0x6670313080172a96; 0x3f788793a631067; 0x71fd138b4fdd2803; 0x766630c4bcb0b25; 0x2bdc441a59f9c7b4; 0x1830ef8356d12423; 0x11db7adb96b3640f; 0x5e160b0d226d8c57; 0x4cb8c6123134cd7f; 0x35eaa29bfbed7ac; 0x37751106b1e37e4e; 0x403770ab657ddc86; 0x64296d129fb2ecda; 0x4bf752409dc94ad; 0x222534a3ed2f2bf5; 0x405725bd46d0fe53; 0x1830f233e999e3cc; 0x6397c51eb487b0da; 0x1b3ac96b8e178f38; 0x685d82a31228ac3a; 0x4591439fa7e7abb3; 0x367ec77e7409a45c; 0x47ad8a9dc368931; 0x4b403a44ba2d8bb0; 0x614d0507332afb79; 0x4159f17d05b4bb81; 0x7b79db6171115fb6; 0x33d6115b49016b13; 0x32a4de50e85687aa; 0x4a9a58faeb7940d9; 0x1af747a12709e754; 0x11b2c2097a1488a7; 0x38b7f6369233c503; 0x75cf4b74a8b078da; 0x2ae2c9f9cf600c39; 0x5a120c370543c4c0; 0x1696105eb69a4c6a; 0x54c3b322743a1921; 0x2c2d6049ab2f7266; 0x1b5d8aee0d0e9d52; 0x320bedd4db45de96; 0x10d0a19fb37105e0; 0x18d738c3ab335672; 0x92e8abaeb038cba; 0x33db8f6177aa1c20; 0x528bb9f29ef85ce1; 0x5884f2a51fedddd4; 0x444841201d1063d4; 0x1a12c2c1b1d90cae; 0x68913ece69155ebc; 0x258aa65f24360d83; 0x3449510335478e19; 0x5a2919fc7d5ba1bc; 0x5e7e874805efb5e3; 0x5c9d1c5138133af1; 0x5169cab439f2c8b9; 0x5c5b3d4720228e85; 0x12b12d9d2485614; 0x13f98883b1ac3fe2; 0x5918947f2ca423ef; 0x2c58e94adee4fd2a; 0x145ee52a85fee806; 0x786cf8949162238c; 0x391d374f5bfcb28a; 0x2f28aa3d3cd0c031; 0x71ae4c9bb15fd3ff; 0x6a1bb4876017a991; 0x11c6b6bf0c72ee0e; 0x705a02c29c4c7e1c; 0x67b07f4a628d6326; 0xc211349ba683552; 0x76b791e17e8ada31; 0x40ca3efbc2e22977; 0x27d418a6eb6c7ffc; 0x7d768b0cca626254; 0x7ea809423f2b434c; 0x5cd1d60c79cbdb4a; 0x42e1ef324ee896f9; 0x2170a6d791cdfa5; 0x4fdfe3436f78285a; 0x20b256ef55e950e1; 0x54d3f59d64f828dd; 0x392281b3f1d68a23; 0x7b1b1b9ff64f20bb; 0x37b38a33ceffefa5; 0x63a39a34759ea02b; 0x533bd368073a1332; 0x56754102601a11bb; 0x4353efdfaa7848e1; 0x6c641371099d238f; 0x1dadb16c88f00047; 0x3a466782477ec136; 0x3a1084780d5013a9; 0x50411f6d959bf4cd; 0xab53d0ae2df0d35; 0x5d3600a8eef1659f; 0x62c3d659a483c5f9; 0x741be0ac48c8001b; 0x48eed345abb38883; 0xe3e5bed36f47580; 0x7b84369da6b425bc; 0x555fb3f936ba2431; 0x1953bf054d7d34a2; 0x75a3768f47790a00; 0x34615cc30d96cb78; 0x1db1e010781a464a; 0x6898f9830c1cb5de; 0x144a314be4565f25; 0x4065f49d9524d07b; 0x10a9767b015a8df1; 0xb9607d3673728fc; 0x35d064e5f66346df; 0x275f318d2227e9a; 0x427c6aa3b41aa9f7; 0x6704d18d1cde5c03; 0x732eb819329f2bec; 0x7f83f688cd95016; 0x2cb54b3bf8b12b31; 0x61a40a059ced630b; 0x25bfed97b9447b48; 0x4742f8ba886f738d; 0x77fbd421a1768104; 0x6a1165234f133071; 0x5ae71e3ccdaa17b7; 0x62ec85e0b4055cca; 0x1dd26a1a30411c5a; 0x2b3df2332746acc4; 0x58e587bbe632f9fd; 0x6a19ccf8223ad36a; 0x645e0269dd588c1f; 0x26e0e977f9122452; 0xa5e3816536140c4; 0x4558109387bcda49; 0x5136a7034c67fefc; 0x62c2b780c6fadda5; 0x5f20f68a5c6fa0cd; 0x61a6c7cfbab7f192; 0x641819042eb27477; 0x20d96889c3384584; 0x7bffb7db674e005f; 0x2827ec0778e4e09f; 0x3e41faca5a6e40ce; 0x1d796fe491a1c226; 0x3dba8146ddc51b01; 0x3d78602b37edaf90; 0x1ef0499ef13acda7; 0x3e763f6c38750002; 0x10253d54fbd30d61; 0x4267cfc2d52fe502; 0x17df04bcc1517b58; 0x30321a1873c0e8f9; 0x12bade5943eaf312; 0x165e196d5abcfa1b; 0x2dcae6e9e44d60af; 0x7fb7b1a6e463f609; 0x415cd681275b8470; 0x359cc462d699370; 0x504322969b13eb0; 0x2bce35732672062b; 0x7607cf191ce23d08; 0x9001a555878cce8; 0x2a0ddb6495f454d4; 0x7ce1e2ea0433d0e8; 0x62ab68113111234; 0x6fbd764effac4947; 0x355cae8e6bae4a5e; 0x1a790bca89c4cfa2; 0x5b5c0b4e4b2262f2; 0x1809cc3de9845d1a; 0x3f0b441fc98decb9; 0x4dfee8c7aff33c7d; 0x5d3d4b7fd698af5a; 0x2255a42f164a8bc6; 0x50606b78b0cd6b7a; 0x5d4c3bfd350453f0; 0x3973539f1ca65b7e; 0x2733d24a39ec3ef; 0x463411fe77d3ba35; 0x28c79d3e7debca27; 0x6e509653c0e7220d; 0x4a84461c4e8b16cc; 0x514fb469dfb71149; 0x59fba225e1d1981c; 0x750ace00d93c3ccd; 0x11ca5afbe762a3c0; 0x3509924958fce098; 0x1c870e041914efe2; 0x58af3dc6b523426b; 0x73e373c3443a193; 0x3a8f000b908fe300; 0x72dd4b6971699c19; 0x58b1597e2d6abee5; 0x7398aa163feee228; 0x1c6a90a1b915b5df; 0x28d9620a5a475ccb; 0x522e25f08e6d0535; 0xef6a6c2ab78f79c; 0x2e9f278f123c3763; 0x47aaf6e1db9c716d; 0x1ba6b05659bd6de3; 0x154ad45befae971e; 0x32fde97a92009be6; 0x3e0b2d3b02954c7; 0x403c0c1ad4f3faa1; 0x4a652adb70a11143; 0x49a46c8450141062; 0x397d0198b863b38e; 0x35ce0c7a726d0549; 0x4cb0ba390bf4a333; 0x19f3351b5f19ad14; 0x5f88b34b2353bb3f; 0x36dabd48dca22961; 0x696939c52288d7ba; 0x128987420bd6388d; 0x5210eab6b44a9ea7; 0x75d5c947ab1682bf; 0x3e330ce58b165fc8; 0x2a387b101625460d; 0x7c3be3ed3ff0e0c; 0x7a670e8e32bfab5c; 0x66b5711de1e28110; 0x14a6f61cd41f1a83; 0x54fb5f0cf4ef6b24; 0x5cf1c64048e63da9; 0x5fb919dbfff34c6a; 0x41b430e5257bf7a2; 0x1cae458aa678bfb1; 0x209333474b34793f; 0x3fe9cdfbedf8959d; 0x709725b2fb389182; 0x19ba58be754e7fd3; 0x1e1efed280bb52d2; 0x658cf7c9148a2b69; 0x23c1bd50fc2caadf; 0x35b7979807bc488b; 0x2aca3aff3952f661; 0xff9872359acee06; 0x6657f7bae0712078; 0x7b65da18711e7a32; 0x207811da8fdf20e8; 0x3115c1bd89778487; 0x1cea1481b935882e; 0x7828b45e2a82f75e; 0x3f077326dbe74edb; 0x7bf0e843152a7bbc; 0x3a66b91e43e68a99; 0x5b68dc5c0a610aa1; 0x477256527a422118; 0x69b43a5e6847fdbe; 0x75ee442f31eb1495; 0x18359b4789b14d03; 0xa4c68a6f91c1161; 0x767263211836d1dc; 0x6789e7eae418e369; 0x7bafaae1db3a306c; 0x7dc205831ab4c94a; 0x5a5771bcff48f36f; 0x37b8202e8dddfda6; 0xca2e0ba8f224d57; 0x7dfee769bb310447; 0x3b44e94a38c40126; 0x42880105612a4819; 0x78b5dd3a4553d26c; 0x78b4bc771a291803; 0x56e67499a272ef3b; 0x4207d0064e81d7e1; 0x5e692f3761ab2d2b; 0x572187965bfd6aa; 0x5909be92b6cd1e64; 0x3978d9ca1069d055; 0x6564bd27820a49ef; 0x3357d5e41d43efe; 0x6c7bedecb1c8ab6e; 0x46c650eedfb685f7; 0x5c97ad134d362a61; 0x6c50296d82f17a9b; 0x57c12c9b4abc6812; 0x1747996d41ec850b; 0x7a7413b297676394; 0xc433d];
   [0x1ea0ddf4564d4c77; 0x4336bab053a4751f; 0x5ba40367c6e29b76; 0x26558c67050e2c70; 0x3d90f088909eae13; 0x62cd8c2b96a7a5fb; 0xf6a6910ce35786d; 0x265a3df8b1586621; 0x141cab1fbecaf8f7; 0x39a8c1a6c842b1aa; 0xcba688fd21d05b0; 0x1bcbb0ff1d9adf17; 0x5c91cc7f8e1e4df4; 0x4dfce648212cd3a; 0x55c0507b19f081b7; 0xc56720602646891; 0x66cb5ad1c61fb6d9; 0xba56bbc6184b71; 0xe66da20894ad984; 0x60a263455c8cd2a1; 0x3fd810fca13deb62; 0xaca84f554330ce0; 0x68ed32638b406983; 0x11d400a7702fd0a2; 0x5b4bbac9f5438d4a; 0x1687e706f40f2a42; 0x31a864f579a71ae9; 0x32abf622e3ff1f25; 0x794829b5354387f1; 0x4546f5241f115473; 0x4b6838916cc23219; 0x1ec0a1fa06a39be9; 0x3c4bcbf28c280f82; 0x534b6ccf376d2f72; 0x3ae840ded547c45c; 0x72caace570f5a28a; 0x584b943fd3bb602b; 0x74faddaa109c07f7; 0x578a45edd3199ad1; 0x5ec7b6edd7b82300; 0x2678a8d534b3cb43; 0x1c21432f1a554806; 0x6d4e9efa5260375f; 0x3226db4931c249f8; 0x117ccde0eb6f55fa; 0x5ba1b59493179986; 0x695a99a3479a781b; 0x610074955753602d; 0x4dcde053e0f1580c; 0x11b946dc2d63b406; 0x54853e6bc176b411; 0x375800bbdcd1d52e; 0x5cec59bbf3941133; 0x406b9d0b27ae473f; 0x65b9d9f7107d912d; 0x204e4be6da734985; 0x68bb29a18ca1d9cc; 0x1b6cf2856bce9d07; 0x503d542fad712838; 0x61694894cc280d28; 0xa5d6acd40e25433; 0x7308a7b9121ea6e5; 0x10a113d9dd1c95f9; 0x6ba3f09b0e9df936; 0x7440eeb9442d72; 0x1b9d17b54e5e9f7f; 0x4dd5d2bc2a800962; 0x3463e63c81bb951d; 0x7ee293d4dd52e9e5; 0x237138570d08c76b; 0x20f1dea363b73874; 0xaec7f446a48c708; 0x6f88720609331cb1; 0x1db24a4b0c265dda; 0x60e64752c7448317; 0x20b3c737809ceb9f; 0x6d5c01822569058f; 0x13e359ba81837295; 0x2557398689a6087e; 0x4049d900a2f29b8f; 0x5902737754d9514f; 0x6c23b6a2cbcecae6; 0x1e5ecaa37228139e; 0x39eda51177a0bb1d; 0x22add3922dee55e6; 0x795466130629fafe; 0x6da228853490b0e9; 0x5d059accd4119827; 0x22cea543c692af4c; 0x5bfe978576e552d6; 0x14c9f0f053e7d838; 0x9de96c71501510c; 0x591611b6b96c0af5; 0x494e82848a6c5a8e; 0x499a6150eebca428; 0x4234125385f24fa6; 0x312f9f2fd3f4cd42; 0x5bc886a0be1d2dbc; 0x68002e5dd41b9969; 0x187e7691380e0d30; 0x57589e6f1cb4873; 0x6021fc2ec351d15e; 0x482880a891d802c5; 0x7c84781746d82d0a; 0x108a9a6192486140; 0x13c839982a1fda58; 0x3d6cad6ca24107c9; 0x2c3ba863a4d15bf1; 0x57bf784263bf21d2; 0x3875ce21c462ca7b; 0x54bbc7b5fa43d7be; 0x6cc9b0e671455db; 0x61053525657a3185; 0x5f90f25079861806; 0x2093a4cf64181cf2; 0x7c6f1f686e9462b5; 0x38d8d3d05f7b4732; 0x799a66688589eaa1; 0x5959b855de26cb25; 0x7ce2f5d6ee1fee99; 0x6efe367e05e5368b; 0x62815abd09d2d31; 0x649a20b01176596d; 0x63459c5daefa614e; 0x1c95a7d70ab63838; 0x3e39b232e0db2a5e; 0x2e4b1cab1ea7d900; 0x7015d01764055879; 0x1fa0f4674ffbad4c; 0x72b65d2563bdd74e; 0x4f9d437e621b0d25; 0x70ac266911e98b32; 0x221247f4406820c5; 0x731c58562e1ff944; 0xd859e8fbc226362; 0x186042f93419eb26; 0x42f2bbc3ca3054ea; 0x3ed27f06a52ef293; 0x34b308b8ec2bec9b; 0x50fb535390da15bc; 0x35c034fc0ed272cd; 0x3854cca686d185c8; 0x3889106460a098fc; 0x5b228d7259199184; 0x2b28192fb83d9689; 0xa241cf42856491; 0x535538b5ebea4ec; 0x5cc1ae3aa64ea8d9; 0x3d2f0d0508bb43f8; 0x30dac88e018095fb; 0xdd93ae1f149169d; 0x505183e1b36b30ec; 0x2fc8e9cf1d61ffb4; 0x2d08c997818fe275; 0xcd8679ff529805b; 0x353e8eb176cb4b4d; 0x52a486b0b28d1521; 0x4bcd0fb91b7eb2c6; 0x1e67604421323982; 0x232fd9721dcbf76a; 0x64487051badcc8da; 0x281b7a37039b1d48; 0x36a05454d5dc8e56; 0x77f0fff67eee1ff2; 0x44bf7222342da059; 0x35eadae9d92974ce; 0x5fca6d0b2121fc12; 0xc7032c0cf40d9fd; 0x93eaf943109aa8e; 0x6f582bc837c53136; 0xac1da80591bf12f; 0x359f40786a2d9081; 0x7c5096cbd2f2843e; 0x73e293049ad07e6e; 0x231eee45859d31e5; 0x5a3548c5e0fc4995; 0x613958128a3b29a7; 0x1c1910e512b395fc; 0x38ee6c0ea82ac400; 0xe76b59bff92ee7; 0x4c1b6ccc77f2a65e; 0x6f1434a2a7174939; 0x3762b12f95cf7a48; 0x1ecd814845b7e5f8; 0x2f88c81ed17a213; 0x30bf04cc4c63ed2c; 0x1404a0502e3dcee8; 0x3cc7b6cb7ef9a5e5; 0x75e55b4998bbd4ef; 0x1fc51af1e3f61198; 0x314aa248e93fa3c1; 0x6382969482c77684; 0x8ace7394357a80; 0xeba42b4fd6e904e; 0x2e67fa59dbbd32ba; 0x6dba8aba9f278ddf; 0x6e1091a02b3cacdf; 0x3fdb610b3e98381e; 0x519f30b4a9d59e61; 0x16e0a4acc850305d; 0x6ed96b6eb0cabd94; 0x6bd2eae4e3d37223; 0x4f8433db348a0c9d; 0x3622c9772dc7889; 0x6bfef4dba8c5b2ab; 0x5588f892b1317ba3; 0x64b97abc164dcef0; 0x1f8717b78d56030a; 0x647a115cf8cd26db; 0x1eb0fe937c63f932; 0x7c338d9ff8dc3cc3; 0x7f9996441eb9fa16; 0x49608720f17c50fe; 0x4d213fb1b170d0db; 0x1756e7ad08f0feb8; 0x71918b894da2c5; 0x484b9704352c58c0; 0x51917c61aed17080; 0x2084b92ff529f61; 0x6e80065909e52bf9; 0x3e4730741e47eadb; 0x77b8cb8b9666d79f; 0x51eb3c0deb08723c; 0x5cd410019ff22f50; 0xf529a2bd17c5acc; 0x69c195ce92f6679a; 0x78ddd633fd453c65; 0x59da26d89f2c218c; 0x2128acbf27590072; 0x3c49093042bb019b; 0x5fb6a57791b4b58b; 0x20f9d3973a7580f5; 0x9121d0da64fe11d; 0xcb3b8f56c9f85ca; 0x4b481d9843ee0e9d; 0x4f82cc760f2a1ec8; 0x3df56074538b0737; 0x2a701060c79e376a; 0x6fa8d25a8d775b2a; 0x49c3ebb12cb0591c; 0x2a2dab81311e6aba; 0x3888218aae95c047; 0x200ab86d2aab2a00; 0x158d8f2bb530044; 0x599b6a63775a7a7f; 0x73546861dd29c7d8; 0x2dac46f574e48492; 0x2e7b2feacbf51e69; 0x8fc12846bcb4977; 0x1c045abdcfcee486; 0x8f68d95d6d0f2fd; 0x25d3bc1ed4f4aa72; 0x66a20ffeec5d921a; 0x37ac3994d16aa1c7; 0x6955e4257e5a2725; 0x4499b8d3b039fee; 0x28f2766b04ea6cc9; 0x6c6f28a0b5999bf9; 0x53b9b24e5b767b2; 0x57f1f6f477396863; 0x1e6f7d0e38238f2; 0x561d157f002737e5; 0x5e37d142ae7586c3; 0x1cb1fdd027d738c3; 0x45dea91a3b9f3903; 0x3090e4a822348d77; 0x53df8f1ff7e03858; 0x4a359ed7cfc48e00; 0x7e39a39e9c566b57; 0x6fc969e8a19def50; 0x506e87027710e3fd; 0x47df59fc350ad9a4; 0x372385caae4b048d; 0x25beccfa5c0cf38e; 0x6a0e02878628c3e8; 0x27735a7319595f62; 0x736ec3e6c628b578; 0x7457ec100a448e01; 0x14f12457ca07fea7; 0x741c1361ac00d1ba; 0x136e170fabe2975e; 0x3f0566015adfe11e; 0x7d9d0feee03fc8c5; 0x6f3b48333c288c4d; 0x14503792b409ff9b; 0x16e2c2059cb85d92; 0x59e7db4fa3a16618; 0x47e4b31d5e6deb33; 0x57dd1216f15d8c2b; 0x13ff16fd6b5bda95; 0x2fc80216c5a37a99; 0x3123b95756c2b495; 0x2dcc4b19abe77873; 0x137a993f0426e04a; 0x4187b7a8c67f5866; 0x5547da058c6015d7; 0xc5fef75d6aa31c9; 0x34e6b64488d4336b; 0xe414e0d974217b7; 0x569274e7046272a7; 0x44be4cefc7538e0; 0xf15f2941b99c0e6; 0x6e8cda4263de17d5; 0x3300d0ed77e5478d; 0x4def5c2e2caabafd; 0x70936d91e9ec5c0a; 0x95d3277250947c8; 0x52bdb685be21c18d; 0x7670192212895ca1; 0x1565821a11c876f3; 0x1f6f18752bc1f2b0; 0x582aa899bcfacf8d; 0x195791f3f821bc8f; 0x63c124eb9cc57677; 0x13696c8ac2f06dda; 0x5a55fc645ca4c11d; 0x39a74d48a6f90497; 0xdaf5e];
   [0x517c19f65dfd8d63; 0x2b7a4c261973d451; 0x7eef2fadbadc78ef; 0xe05566ccff47d2d; 0x70292c8145dfde38; 0x74cf3de4f334c2a9; 0x4086fe92b7d5febe; 0x40a6088bb54b4ae9; 0x5a526a0bf51d63f8; 0x79926a805f723a84; 0x55ad0880863e505d; 0x24ffa0413cb260cb; 0x7f5973f8dec28444; 0x70b4a024d333a055; 0x715ab3f5ce1fbaf5; 0x3ae850e9e466b8b3; 0x2a82f6a8cef4203d; 0x1d83ce44df837874; 0x3c3f756acecb6166; 0x71af342907f8bd43; 0xdd4cd974f9812b2; 0x3b5f5919c6f6fe14; 0x52d8d16d8da9eaa6; 0x8792c806ef296a5; 0x6449dfc77293a9ae; 0x633d71a8571c9f13; 0x7e013c9cfa58bad2; 0x78ddd4e58d466b58; 0x6476d839633416bd; 0x1de833e133581422; 0x7f3e34537592ebe2; 0x76551dd16b930a96; 0x3e4bf090b0fadfff; 0x3c5294257b0c6f3b; 0x6d1ce9de3132ba66; 0x77612f215329f543; 0x6c0f0d1b6f30254e; 0x37897c7fedb11f3c; 0x559dafddfcc4ab02; 0x145f73a708039129; 0x68bbf7ac2ef74721; 0x2a5b72f32a5191ea; 0x669fbf48fdad2203; 0x5936ce54eb7021b2; 0x48e5b17bca453918; 0x20a98a4d4c096942; 0x6b680701430d205e; 0x6836415434cf5e; 0x446a97051951d985; 0x1a5a11e53b2df6ba; 0x2652edb8b5f5e598; 0x35193b648b2d64de; 0x2f9e801239bf8572; 0x54cc80d07a891c08; 0x2f25bdf111c76f58; 0xf17c6192d15026; 0x3e91a7d646908b0f; 0x2ebc79c7615cdc40; 0x4e2f02bb957d0a05; 0x5d1f62aa13c8f62c; 0x3e7c9361043327bb; 0xcd5fa66feaff935; 0x3baa0d2dd10c2479; 0x40bc54e475f8aceb; 0xc9e51e15cfd1662; 0x6ad130c0de17bbc7; 0x1295c3d5fc7d7e6e; 0x8c2ed36954e2810; 0x2f598d2cbae427ed; 0x8fd5c1d344eb1cf; 0x2405058202293c51; 0x3523e5849de4de2b; 0x92741d88d36ebe5; 0x2455e50f150fb4f3; 0x5bb7d00c9e7a8633; 0xba072d8b0c64969; 0x3f268a067f9584cf; 0x1446eea2b811bc1a; 0x3e4a98451bee591; 0x63df4a99341e02a2; 0x45c45cb6db5ad945; 0x310d0abc47bef320; 0x2534dcd150ae6626; 0x1b3f87b52729a43; 0x77238327889a3a2a; 0x77b18b694eb1f20c; 0x7523b12ef7fc75bd; 0x229a7f422e5c7a68; 0x1858a41cdd67d1fd; 0x2a24645df637489d; 0x1fb2a74bf97bfad0; 0x3c761770b7dc92f0; 0x5a493589355160b7; 0x55fb3b9f02a420f3; 0x465619f87ff1ea25; 0x46698968a8ce0731; 0x1f599491b451452b; 0x1e94fb4154c7c9a5; 0x4af5509a265c7eb6; 0x517d1e18ab24e725; 0x3fcd4b86e59f2c95; 0x800de1d6f92b9f6; 0x63f4f67180ab973a; 0x5c5d8e5530c23587; 0x7da20fb75b584a52; 0x3ba3e4e17dd95700; 0x673de01b3f28b82a; 0x3f3be623c33014a0; 0x7b629a3f0789793b; 0x7556ad4f4c5c0b54; 0xec1beb4035d9789; 0x242638d03c8b7d37; 0x20528ba3e1cf56ac; 0x6c19f275169f4dc; 0x56f15481d57e18b; 0xb4be75ca975f79c; 0x57def51cfa1ce9be; 0x7a4f184c75512778; 0x5ccc76a615cfb8c0; 0x2ab64d184d829df; 0x654316a5cea7d52a; 0x4fabfd55bd5c4778; 0x6c62aa51c58762bf; 0x51a7cd81ab056a72; 0x11cd9ae5c4f7bd2e; 0x55eb531788f29b9a; 0x21917179964fc96b; 0x7b85accd9db3d563; 0x4321600178ee9ccb; 0x8438c4e6829062d; 0x3d9d8614d2e80c8; 0x380b44ae2ab2bf20; 0x14d40223cabf37f4; 0x572cc028d9456db5; 0x6bc804ba6c655ba7; 0x4c998077427090b9; 0x37479d6dbe781673; 0x32b3f5913f9c63f8; 0x7bd0a1357e425f14; 0x16c6444f5c959088; 0x2dc433f2b489e4f7; 0x7c97fc43331fb703; 0x4dd0bdb32712d43e; 0x156544cc451db64b; 0x5220aba5d5233a5f; 0x7bdb8d143c4f5898; 0x3bb6f314c70547d3; 0x680a5f20bf045c01; 0x914e4452bd8b0c3; 0x4b04677e2fe5e711; 0x26b058447bd1fcb4; 0x3a4aead7f786464e; 0x11d3d786cbd0c7e9; 0x60d7884ddebca4cf; 0x272504b5aca9fa52; 0x5c18069f5dd02807; 0x4655a3b017c1c0cb; 0x71ccb67ba09fc988; 0x67b95c3954b4c803; 0x638d9230b37138f1; 0x340c10bf130a9853; 0x6f22783c29963a10; 0x4a3078ff04b32934; 0x73cb68140a894ad7; 0x65db6afa393e0420; 0x7458064e53953c35; 0x25d6fe3dbad63d93; 0x7ef10aecf0af2d1e; 0x407e3981719f072a; 0x3030ee00e21f4a13; 0x48adc9440ba4e300; 0x1fdf37a55797c72c; 0x4dc1527bd0d41b2b; 0x6463936d36cd70a6; 0x1a9d2836a2b8fb42; 0x25f0e199a4699061; 0x784c44a3dc324b29; 0x10b842777b58d539; 0x6e24c1381c8197ec; 0xc14f88ce8956431; 0x54219fc5c4912eaf; 0x3c8a2d6044aaf33e; 0x6de7d79d11b0f39e; 0x50f3f4f8cc50301; 0x2f56072406e06bb8; 0x5a71fdaaa445f055; 0x2df21df9ed4ecb60; 0x4fdb7c53d060f024; 0x36ce0dfc8fe41831; 0x7fa1507741e56d9; 0x3817ade76552d5a1; 0x7646cc096d4e4da3; 0x1e244e29ad48466b; 0x306b74b35e0259c8; 0x48b5a4c6334402ac; 0x7e64f135a69bfe53; 0x419f612d4f6d3ed; 0x279965b18895cbb5; 0x140e352de468011; 0x592acc77e5532fa; 0x2d6d94bf17f9611c; 0x78219f65f112c33a; 0x6214935f03822067; 0x2ff50d956b4b0452; 0x4f3acc0e56378ee5; 0x354a9cab65643829; 0x583dd33f89f07105; 0x6afa5e92e3ab76fe; 0x7b73143dacd635cf; 0x2d7ffb0a81122a78; 0x379b4e0cb4e37a3; 0x678f597e886911e4; 0x41f90069e9a63e1c; 0x2daff412357c4b47; 0x39b155ce65d070ca; 0x75c3e2beb6c83806; 0x580c6d8e7730c1c3; 0x78225a19e31649de; 0x17994cd5b643ef10; 0x126005cc74af5639; 0x1858c36c4065c59a; 0x45d2bbfa2e80d31a; 0x5ebdac6c25c6b888; 0x254c609f3cbd8a44; 0x5c3c4c3002c7006b; 0x3805fa7f27725139; 0x7c1ef1cd15cacdff; 0x2975a301891639a7; 0x4cdf7b9b3fe94b08; 0x566b6e963ae4b15f; 0x34ffb5a99cbaf062; 0x135b5aca93a9707b; 0x787e01ca002301cb; 0x588bb7e6abd1f258; 0x6f5e801dc632b56b; 0x24498618a125938b; 0x3572c858189f7997; 0x416c37eb77b763b3; 0x436b753f54b5032a; 0x73515bf511d0bdfc; 0x466724520018a88f; 0x65dfd310b0472df5; 0x44bbd72369b0104d; 0x249178c347e1d197; 0x461a101c3239c70; 0x3424ce12fab2be11; 0x2b8b479dbece8188; 0xba5900182ccd6d7; 0x78a9a5a0d87f3392; 0x663b529c411f8c07; 0x26b4763f6aef2864; 0x43f9b91bb762b3ec; 0x6380a5d3f606ba5c; 0x7b3a3693c0b5b6f0; 0x66ae6bc0750487de; 0x72a20b27c25d9ff8; 0x512c510615580b72; 0x6b7a0c0aa55f0162; 0x18ce99741cecba91; 0x12c33b3d2ce63ab3; 0xc646405a7acf354; 0x4fd1f2498e177431; 0x5d04bd666ec5c74b; 0x6b7011c7383f627a; 0x684f864350c1c37e; 0x32b924d726e13091; 0x29d479d1af47ebd6; 0x10495aa784f17c4e; 0x4b9e6750a40695b9; 0x63ffbf28b4652d6b; 0x429050348ddeb3ae; 0xe579f52f8747ede; 0x6468f25a0734336a; 0xd7ea5ec3c4f9032; 0x4fe5dac0f5fe0619; 0x7f014baaf694dbc3; 0x1699cc40d99a2b72; 0x68b8b1120b47ca6d; 0xa9d2919ddaeb818; 0x56e7a3a3eda4f8c; 0x3da516acf7ba2884; 0x45bd632cce573780; 0x40ac85319e2516; 0x315348b909b50398; 0x2ee3c9eee273f082; 0x60958570de2b6306; 0x79ef1070bcc6ad2c; 0x4cb1101eb94ef444; 0x1a245116ad6a0b6a; 0x1e3d6373766f9e2c; 0x5be7bddbe7f818f9; 0x55a6df752cfa2cf4; 0x7a9da9f88719af0f; 0x1844f46bd5cc48b9; 0x17bf191cddb0d824; 0x77bab3e3cb1456d6; 0x2180a63cab39f617; 0x1058c24ad1b85591; 0x736f974eeda6ce35; 0x33bf2bec9a349c83; 0x1caf5ac59a3af8ba; 0x61d8a5a12d26535c; 0x6797735a0b39baf3; 0x2614a0cb6ff16c4e; 0x41cd38477a7e10ca; 0x44901ced0912530; 0x4515b5bc0ed85f3a; 0x45642ece96b4a21; 0x60a6da2f38b11dc5; 0x69f06944dcab539; 0x601f718bb926bfc8; 0x194f1321c55a9dcb; 0x5d9b1214cbd75ead; 0x67a8939551605c8a; 0x72e1a5f7a8e3f84; 0x7637743e22435a19; 0x6f9f111623db77f2; 0x259a18];
   [0x6058ba7892cce1b7; 0x21b72bb72e43af58; 0x9978d1709fc3be7; 0x5bba8c1ff2c3b2f5; 0x11afecbc6844ff5c; 0x5aba41546b3f29aa; 0x47dca5eb66a6f45f; 0x79ce7f247e345d27; 0x41f51126619b8621; 0x46267a4c48dfeb98; 0x2d4ea580af7c717; 0x36399c87a3ad00fe; 0x537a082bbe26d6c; 0x11dd2c01fa86f89d; 0x3ca7bfc0c8856da5; 0x63c781cd02b54d13; 0x5fb983312fb21b3e; 0x225971c41a92d8c7; 0x320872dd5c40c19f; 0x6604e79969d035d7; 0x66fe10150c01fa3b; 0x415d59dbd45c6daf; 0x2285c2e87965b8c0; 0x4e52033f6f0d2e3c; 0x6e32c4692a6509c0; 0x557d298ac8e00cc6; 0x383076d3df42ee55; 0x232b4660316369dc; 0x407f9aeaf9bba1a8; 0x48838e8070df5175; 0x74fd06b26e6d3e59; 0x48f7f6ce61fd75a5; 0x59f85366d31fd009; 0x325593cc94e36ad4; 0x72046290309a8f5e; 0x6d424c85477fdc97; 0x493eb892d20d3ae3; 0x5cabbbf26aceafe; 0x4d6ec0cc409e352e; 0x1a31c17027d887f7; 0x6cb4ca04c47e3103; 0x4cc36dcfd7095e5; 0x485d47818a466068; 0x14c49b1391c3719f; 0x411b4c07430bbbbf; 0x47c92c2f868b331b; 0xf81a1876bbebced; 0x7276c14143e65d59; 0x7993215100d16b13; 0x673ae7f3e3b86c69; 0x2e7306692bd2e2bc; 0x574571f82099c517; 0x3b40070169e101b8; 0x2f10261a19c6bb0a; 0x493812e82323b26a; 0x17475891103e34a6; 0x204d4bb268dbf63c; 0x56e3a56882de9998; 0x4e586b9879542792; 0x2408768012343b4a; 0x590bfaf167b5738f; 0x74607d9ab7b9aadc; 0x2379644a92814f0c; 0x20abaead0cbdd5cb; 0x3ab67efbbc8df548; 0x4ac0193d90627f1c; 0x777724c06687bbef; 0x78bee41a5da682d7; 0x615f0c070aaf44c8; 0x63be0343fd189aae; 0x1668ba5821bf6358; 0x39784ee7d8059d1b; 0x10ee626229e157ed; 0x29e9f645098417c; 0x7ab32a98e8189401; 0x39023c90880de5af; 0x6949186aa2b356de; 0x446cbaeab615dfcd; 0x50023ebbc12421b3; 0x6cb2ebda5fd66f1b; 0x69541af63bf387ca; 0x2962d0bd77f8ad0e; 0x7baf9cf022b2f1c7; 0x120ed42e300c7ac2; 0x7bac6d4675f9ce45; 0x2197f969cf623b05; 0x51712649beb0fc1e; 0x602a64076f131e89; 0x303b330f5995a7b5; 0x79d418d24d5dadd4; 0x18fdf7635c5fadf9; 0x7b582788941968f0; 0x397a0cd255144b10; 0x4412509c0e97c0f4; 0x38f2d431ea15e00f; 0x52439ce716d1aaa5; 0xcc5286f8766fd1c; 0x7bdada78cc920fcf; 0x37f6fd29de291c80; 0x101080b97f5f273f; 0x2a4168e37c4cd5f2; 0x646c0254cfd5b0ae; 0x20065dad5a751918; 0xbbcbe93dae8293d; 0x51121ca7a8e655db; 0x10a0483035ed8885; 0x4f1373ed451ea3dd; 0x70db262e4097834c; 0x1e5c800d90a6bddb; 0x475ddf78864ed41e; 0x6e9c4ab32633ddbd; 0xa62b07ee0a592a7; 0x84bee4c5e5d0658; 0x1952e0ebf592e76a; 0x5cd3db2dfc30de75; 0x94585661ab15c50; 0x594daedfe1e2d70d; 0x4be0e6ae4ad74b92; 0x21c47a88deea6f12; 0x1ddbca9baf08e172; 0x71034ce942ffbf1f; 0x59332b3408e3f5f4; 0x7c8986ab0a849527; 0x81ee7f333e86dae; 0x24f6ef408d4fb7c9; 0x57179ef9d85d26b9; 0x78069b82a611a937; 0x730906fbc7590fa4; 0x189b57b8faf268f8; 0x7b3b42a519d6b19b; 0x56ecb4c99187b404; 0x3efd362eebd3fe3b; 0x733cc1b547a65458; 0x434dd26979828abf; 0x2ddf2f43d4c72016; 0x77a157aceaf07ac8; 0x3e0af0284f544764; 0x3913ba6e33f1a98f; 0x54779ae95c5b5f08; 0xb1c6f5f1ad67e9e; 0xb930512947a826d; 0x453cbbb394f1b8c7; 0x67f825334c12ec18; 0xc42b8854b13af5f; 0x1e2ec7e91fb09089; 0x3ec2815485adac2a; 0xb7bb141171dfe89; 0x41040382bb59d3fb; 0x538e05aa95ea1cdb; 0x211faa01b61ed22d; 0x3972e01bb1731d99; 0x2de13e69f36df6a0; 0x1140e325f5f6c1ac; 0x32277c1d8b073e60; 0x58df0f26dee2e705; 0xacfd5c2a3e01d7a; 0x192e89dc1b7e35cd; 0x1132ebf245a191da; 0x4cf19c81c8747c33; 0x53c45cb58a0ea38c; 0x572c5291cbb3dccb; 0x809ddbe9be0370b; 0x1b6fe9bc10d685d5; 0x1817a320bd6f6fca; 0x41403e6ed7d82ef; 0x79658d41bd6bcea2; 0x4bd1b0f10dad621; 0x382b5bbdb589b761; 0xe765f6acca6b6c0; 0x6ff000a8d44af12c; 0x5246a264550a9803; 0x1fe7ea75d363d480; 0x29c22f8e3fce822d; 0x1156a2dddd25474f; 0x25926e026449966a; 0x30e47f181573faf6; 0x7511de34c2f4b0e3; 0x66e45bf7d600fc7e; 0x10140ca73850f8; 0x2daee8a83795bb5e; 0x70ad33757814c86b; 0x63965e1d30f2c154; 0x7e07323e0d4855d0; 0x51708d2dd8233f9; 0x67ffc72d21e65d04; 0x59d1bf4ca0989c08; 0x50fbc55e26b190e; 0x65337b53614e1c5a; 0x6fb735432ad73b7e; 0x18312f7b446f2874; 0x5139a7416674f7f1; 0x73a42099e36cae6f; 0x35c3f58fe5eae44b; 0x2d75a489d0658746; 0x1822a4dc340d973b; 0x7a4979ae891b34ae; 0x74e93df0861583cb; 0x3846990b61d5e64a; 0x116504383b33278a; 0x4be033a77d11bcc; 0x1f1f095b952c5eb7; 0x7cf0fd8593c1f178; 0x71313c8dfcb6b72d; 0x368a55dc0d8d2bbe; 0x5a0369ee6f632497; 0x7d05b4e9e5f5ee09; 0x2c16cfcf315b3ad9; 0xcf9735201bdd08d; 0x2dbe7e0abfc50754; 0x220cc52476b8a7b0; 0x6cebc69e688f8524; 0x2a360744154c4dd2; 0x7123aa78de59aed3; 0x1e4671879277d53d; 0x4a9a55407747d0d8; 0x3dcb1ffd760bdb26; 0x192f8297fca57a00; 0x261bb0c664783a70; 0x63f6042b88460fd8; 0x5a79659508aaa4d4; 0x7ec2acc726823dc5; 0x51c9c6554658561c; 0x203420a14ff6ad9a; 0x527a9524fb34a1a8; 0x5ba0a7fedc15ece0; 0x625a2c53702cb1f2; 0x1122c8a2b923c15f; 0x39995f43bd0c50d7; 0x2f41993fcb3dec22; 0x77aa67681851be2f; 0x3c9062ddc7346d4; 0x57c8f6f44ed74d18; 0x6bf57c370da7783f; 0x1444c3ff35254c0d; 0x3ad07fb6fe82ce63; 0x6084b70efc1332d; 0x9a0f318939d26e2; 0x767eb90ccdd7e1; 0x82c09eb91f5149d; 0x5242c796e9a2e87; 0x77bc72ab0caeedde; 0x70138ae92d4d00c6; 0x5742d5b99af4dcd6; 0x6305243e746bb1bb; 0x4fb30d3469642fcd; 0x4055ad50109301db; 0x319c9376b332b92b; 0xa6eec947acda7c6; 0x59fa85397e2f4bd8; 0x2eb99d99b801ec17; 0x2366aad2d10b8c80; 0x4b84c044ff80490b; 0x548cf0a0861ee446; 0x471d4c0335540993; 0x18699d789ead28e7; 0x1ec8c3addeea9f4d; 0x2350258507be92a5; 0x24a96eaf8fb2499d; 0x14890c759ebbdb53; 0x500e0851c9a4c4ee; 0x4c91405a09236e2c; 0x2acb96fc0edc086b; 0x3c70c720ea1d54b6; 0x41a713fb8c8f34e; 0x4d7e3a901b6ea050; 0x67828fbc8bccc169; 0x72c2788a98c05275; 0x7ea6a890e37420bb; 0x261a000a0bc49637; 0x60a0a6a7ee00551f; 0x6d98385ba95ccce8; 0x23e495a2ace72f10; 0x1ed3e20f06673996; 0x711bf92eee6f785; 0x3278fd226e975250; 0xced52e620a7700f; 0x299049d27b1e6341; 0x71199bcc61e935f7; 0x50e48ace45dcd65d; 0x285e38a0e9894e0b; 0x4446a17f95f438fc; 0x44234ec6fee11941; 0x53b8e08f64f118f2; 0x64b22eaaf2ba76e6; 0x4d70210e18004e05; 0x53286463d55c4a7f; 0x4702e12226dcc09f; 0x22651a42ad4c853e; 0x76a96f14cc743310; 0x75440aa1a6b1eb35; 0x2f612017f44ba823; 0x18827a8b4b62ebcb; 0x1bc707473fa52972; 0x4d348120dd4cdcf8; 0x18ea2e4b9a1a53b3; 0x1b0ebe4ce8832050; 0x62962856526cc40d; 0x2b0531056f0aa33c; 0x6c35d6c2744cbd69; 0x2d8cd53dfa18782f; 0x2e345f4a7ce6a232; 0xb9970e8c1488c46; 0x60cb2dae14b97cbb; 0x23bc06e5691100e8; 0x1864d15e0481066e; 0x6bdf80c0b49a509; 0x5a151cd235d62a6d; 0x78ca8a42e72ee9a5; 0x9862e650797c105; 0x3f211b7d01ddad5b; 0x5c1a5ff8041c24f3; 0x6b83f061afc375af; 0x3ac1a95bf5751225; 0x36904194e9da9fad; 0x24adfed1c3bfccd1; 0x5ff2e55ee9c9a813; 0x3b664e1016354c4b; 0x1fa078];
   [0x39467ac98f69859d; 0x2e6b5f6ddc05a8d4; 0x117333e9bd35358c; 0x3086bf9f49f9082f; 0x18766fcfcfd1b51f; 0x5aaa21c6780b5fef; 0x5c16d632cfd7a627; 0x57003861a2fd726; 0x17fec7767534508b; 0x3f5c7ae63c1747e8; 0x7a1193cbdd62b01a; 0x46ddf81ad4900c1f; 0x2ce82455dbe4fbdd; 0x357f89e155a692f4; 0x2332c7837dfeb5d1; 0x7d84e08d4ea3b675; 0x67f83216ff7b5d13; 0x1cfe46dfa069c05; 0x68dc8e3b52f470eb; 0x32fd2663cc42ba34; 0x1b30bbe3f36370c3; 0x7d42fdc631222514; 0x688d90e0a09e4ffe; 0x7e6412b49874e8ae; 0x3f0a6c9ec4266fc8; 0x3008d0fb8dc6c800; 0x3972f5cc3fa146ab; 0x4fdf0312ddedf83d; 0x1d5b393af5f62369; 0x12994d7c3ecd3505; 0x554732dc8d73de28; 0x40827fedc5f1743d; 0x7efa31f238b8f0e7; 0x173d88fea3084fac; 0x5d81d493cfdcc26f; 0x47ad9ad70cf5e49; 0x2ba697f1446d5c82; 0x3e83ba384b870617; 0x1f12308b5d845969; 0x73debf13917d1ba9; 0x4fa45b681d069230; 0x6ad9c51885556746; 0x4ef6664473517cec; 0x7d5787b075bc032f; 0x35e3541f52e7c6dd; 0x3389c69da6caa84c; 0x6d5185d9d125d2ba; 0x56608ec00dc0a583; 0x3f96c78eed940ae2; 0x2f160ffed4da1ff5; 0x4c65750aa4d3aee8; 0x6a50dfdfbf85dbab; 0x37300358a146acc6; 0x55e6be58e35b0bd3; 0x6da3ad91d3600b71; 0x3849ef4cf8d05163; 0x46b54e6a1a5c2fe7; 0x3b565fe8d83849f8; 0x3cfb99d379d560ac; 0x9cc7396002501de; 0x175f030f7e0181ae; 0x8cd39bf99f07921; 0x5ae828b9d6318115; 0x2bef8f5f4e2bd97b; 0x51b1aab3489dc6fc; 0x3a8a0a3daeaefe38; 0x1d584d16d7b74298; 0x2947f5f58d1de3e2; 0x35e877eb86c86bde; 0x7825be7be9ade29e; 0x54d14b8ec36f002f; 0x1bcc790d4a7fc74a; 0x19fa5da817bbe6c4; 0x6dd86df79ec01435; 0x4670c8d05f79543c; 0x1fe7032021b7c1d2; 0x6e89e1506528ca36; 0x2fd0d1ad8541ab85; 0xce2b196c3fc20f9; 0x3fec5a52e0e90d90; 0x7f24a10b39cfaadd; 0x13c81e851b5c89f6; 0x30b1e9cd5ed503ea; 0x43a1052d1160fbfe; 0x4062ac40a47284a6; 0x6f08ce182e9c37e6; 0x3166f0084762a5a9; 0x22353914815f42c6; 0x7d5a4a26a01528df; 0x5fffb32f0c32e9b1; 0x6f49eace396b6ead; 0x42b9aea2ee724dd4; 0x6bf128dd0c6695a8; 0x7ea72c797e49459c; 0x1976014b95a97c33; 0x5824c6716ef4f470; 0x78391896fab06973; 0x58f3aa510c01baaf; 0x2fd23bd6a352934f; 0x9bb4939fc122456; 0x5aa9997b3228b408; 0x1062500cbb48748b; 0x30bf94f77c423700; 0x1fb22b73a30caa5d; 0x64474befc4313c10; 0x311fee2f2780d303; 0x50ca6796620f5cd8; 0x110c0812596c26ee; 0x209ef3bc5817e4; 0x2d4f34dcf218dabe; 0x24fd01aafcedbd62; 0x5448134d47a503ce; 0x26974157647449a6; 0x6b9c4f16c269e9e2; 0x5fe94ac8801881bf; 0x624a426cd0710231; 0x317b350c778fa978; 0x6a993e7c286402dd; 0x65ee123d4475e930; 0x58df5cc402101182; 0x37b3c410693889ae; 0x446d1bab28c35beb; 0x743090e93896558b; 0x76c4577bd2292ae; 0x44072397f653a8; 0x73e261d2be90b7cf; 0x6287335ebc0a01ee; 0x332ad5221d32c001; 0x4ca0760f4223ee25; 0x20e78b7fb6e74c89; 0x5c2b068ed215284d; 0x29dcee52d8d0ce9; 0x79a328ed79302caf; 0x50bbfb79f6f5cab9; 0x7192ee7cac88d768; 0x7cb2157bea171a3a; 0xd408215b100f591; 0x541473fabde5b9d0; 0x649c2f8e574c1ef8; 0xec62a240ed85b17; 0x2b05547b16d9a18; 0x6f56788ebd89b51e; 0x4c1b5ae95d30ff8d; 0xe12ebf30f599b1; 0x13871351756a7fda; 0x589ed0d40e32e00e; 0x31af2cd5f7f829a9; 0x641aa2de062c2dc8; 0x735546af8a70a393; 0x7114b6bc6421b98c; 0x3cd35cedefefda23; 0x10a63c837a97034f; 0x5b9a8de8cfaac64f; 0x42bc6cb1c636101c; 0x1a7e851b5c3ea145; 0x5f7116580a96d91c; 0x23056e240fb26829; 0x3a7fc159740caa16; 0x21889853343cbe22; 0x106ba464c2370370; 0x53397a83bdb06cde; 0x2efdc234a14164bc; 0x186ae2f32b87a79e; 0xb544524af397a4a; 0x7e582bb60656f254; 0x154ae2f2568ddb00; 0x66acbfa302a59e2c; 0x78ac82c882dc4d94; 0x2e23df00caf98da9; 0x1221c1d9a34bc51c; 0x69c8a6ab0536b167; 0x7456fc1b16783b87; 0x3a6c93ed49176abb; 0x7cd7052217a69022; 0x55e6bd65fcc6a3f3; 0x483e91c350b41f64; 0x43dbdba103295326; 0xff82be4e760c64d; 0x424fefc72b9b2120; 0x48788e6e4e04183b; 0x5234f31cbc3aa737; 0x753f748a78c26b95; 0x721c6777db565615; 0x3729b7356035826f; 0x63ec10b7d00781e4; 0x61fd4ac171639370; 0x2df794651b52a600; 0x77785c936e832fdb; 0xad74aa9b220a453; 0x291e7f5df2b2d746; 0x7665f8ba025bb051; 0x66838594751a2f47; 0x322f50d24e2b1684; 0x6d091ee44c30cf5a; 0x20807462973a87be; 0x6a9dbe62ed96428c; 0x27c4863e23da864f; 0x6878dbad0c741ff7; 0x79f25965dbc6e965; 0x5536522bc4dd5385; 0x23d2e212df1e237a; 0x79d47eac29dbe9aa; 0x7eccf563fc88556; 0x6ec15800e808eb28; 0x4af747fb8d7e3e24; 0x6607eb41a50ccde; 0x252ce1f1632b9a1a; 0x4d80464f379984ab; 0x6c277f65e554fbcf; 0x4f4a10521d8b3e0; 0x790ccba5561c674c; 0x17267e93d538e774; 0x3f75c9257a62cc59; 0x22061f76a1856099; 0x1cca1736d6c8bc3; 0x75617448a3b3b470; 0x721e78a653ff2ed; 0x319d78ebb424feef; 0x49da85c22cc38e2c; 0x2bb3fcb6a6683c4e; 0x222f52fa622ad68d; 0x5f6aadd38571a045; 0x729d00a02be98f97; 0x2dbd6511fcfd3d6; 0x17b7fa60b1292b40; 0x389d4f92cfb0ce53; 0x39e5574bec427816; 0x3f0eaa4b475f101e; 0x23876cc33a8fe31f; 0x7e8aba2dab67c467; 0x42b4249aacb2aba9; 0x730be89d179f9f9a; 0x6705983f2993c22e; 0x5009385cde3a6264; 0x33cb9e9c85f3f0c8; 0x728eea5ebba3156f; 0x6b3f76937dcf659e; 0x6a4da1d8a13d63be; 0x57686c1f061d7e38; 0x285e0fab2fae05c5; 0x3c47f4cdc65068fb; 0xb7b4e5a74f4563d; 0x2988f113841c87a7; 0x3b103d12e261f7f1; 0x56e4d43a51828232; 0x69d5ac3e350bf78f; 0x4bb0afa4b5b37c8; 0x6998b48bfc01ba05; 0x604e6d5503d92b3f; 0x3d0005b2a15fd2db; 0x6a7ebd4494e6a7da; 0x2f77e01592508bdb; 0x799e07b0506c7929; 0x7f3c313078f39910; 0x593c5fb257a48d8c; 0xf57615f92fb8f90; 0x38040f65497f8d1e; 0x606ea71e0b0a6321; 0x7354faf6808ee39c; 0x6bdb870f36a9178d; 0x3c1da496a95de49e; 0x13310bc080f4ea70; 0xbd84ec7ea6f0965; 0x6211d0ecab195de8; 0x54c794929406a1cc; 0x19ac1e723375aad0; 0x2c86b3ea8ddaefbe; 0x2941a19b8f8a815; 0x729010264cc72bcb; 0xbeacad4f6a1fd87; 0xd24574ec288b33e; 0x4eb4770836d22631; 0x754b2ae987f7942; 0x1849a1abe45e682d; 0x5d04f233d8040072; 0x5286a07590246ae8; 0x158f4f801ae6ee22; 0x7936edead8dcfde7; 0xfa9084b989f9bd6; 0x353f9128399318fd; 0x70ced0c4974ec655; 0x6b4d9b1963a598a7; 0x3491dfd35ba20bdc; 0x73344e80572eee0f; 0x5f27918740e55516; 0x1907bcc2464c8cfb; 0x45f4b5f9ca838b2f; 0x69f512d82b2eca1d; 0x3a206b24a735ce64; 0x1cf5234fb7c0276; 0x4669380c93a89cf; 0x5d2ca437688bb180; 0x30eb19f8f9dd2b4c; 0x21087dfe279b339d; 0x57ae6fb45dadb3b; 0x41129712231fce09; 0x717b703f8a658230; 0x7bdedb7b866ffdf1; 0x3eabd640c4e1c30; 0x6616e381227bf1ef; 0x4463e6b5d81586eb; 0x448a9038fdd2b7db; 0x1b91c80e974b6404; 0x2ccaa147fc43c0e2; 0x421b24158b91b184; 0x154e8616df9de62; 0x238c334854de6d4c; 0x337cb74cdc5bd407; 0x27f8e57336a1be07; 0x6f2059a39c5f8457; 0x553b86af44d656f2; 0x7a5414fed3bd8c87; 0x54ff3c117223e051; 0x1840173e42a70447; 0x3d4a3d1666ba1f51; 0x77d51c1dfa5fa7fe; 0x24d08be6c6021445; 0x2b9fe6];
   [0x641adc0afeda9cb6; 0x6ca1b8324610c5cf; 0x71c18a886327fd3d; 0x681568d2192de4c7; 0x34f49dd65c4d09d8; 0x2a42ae4fec86ae22; 0x585884f14108b055; 0x4f03e1d98fb9d8d5; 0x527d439b42e29766; 0x7032ffcddb2da298; 0xfcfecc86f070c28; 0x3058737541cdb992; 0x67005ad6a3328cc2; 0x24821bd6ffd19b4d; 0x7af96a99e1756696; 0x1360950a90bc3503; 0x1c3c5ac4c5459f8; 0x5a868943ca32204f; 0x3f0571b5051ec757; 0x3ed9de891c86045e; 0x238ef52b4266d318; 0x7955b69946c5afb3; 0x6b56df4d2a66dde0; 0x3959a09fd5538d5c; 0x7099978b6941819d; 0x5e1d49c7a7bd16af; 0xe89ce8d62425792; 0x17d1dd5e5c960cbf; 0x7919ed98f4d03407; 0x2899da0922a16a00; 0x5421a59828245ea6; 0x7ef4dbe22b0c120a; 0x642111b156a6eea9; 0x751e26dc229ef7a9; 0xe242afc446dc5fc; 0x103f4df1cdfa4811; 0x79b1791f5148bf10; 0x59529423e3f04ba5; 0x40e59972d2c558f4; 0x568b00492243726a; 0x49df40b627f03ead; 0x578fdb0c7cb1aa0a; 0x58466b1235ad5048; 0x456b85cf76bb3228; 0xd204941a2f25905; 0x39901d9174aeaac9; 0x54f5e0b5e3777420; 0x1b1814330440700d; 0x24405f0a635658ad; 0x1ea4b42e32f19073; 0xa0d4e952f740796; 0x6d94af6d03203459; 0x7fefc72bc735e49a; 0x34c924f2ce1ec31b; 0x3a193ea18bfb56c1; 0x64d47b3f601b76c0; 0x2b05687ab2ee07bd; 0x7c1d0c07fc7786b9; 0x705193e6afcfb55b; 0x75043634202f4322; 0xd7054fcba4826a3; 0x1dac642457c81d0c; 0x5bcb224a105db2cd; 0x7131643b981adae5; 0x61b05706ec0442b5; 0x3d1679bf82dfadb5; 0x346ab55b982b15d8; 0x49f7da8fcb0df244; 0x2866322e805f3dfd; 0x3b63ba04adf26802; 0x6adb021195f30ef3; 0x589c95db81060cef; 0x72e97578d6b418ba; 0x52fa0e104a4dae68; 0x3365da00f4fb4b60; 0x447d6fca2dfe0c3c; 0x243cc5edb5a65485; 0x6f650330f1c87322; 0x306a3a245f65946c; 0x34cfbaf57c23ff8a; 0x5e64b4d6c05fc09c; 0x799ad91e16fa9ae6; 0x45a9a61a37ea0486; 0x44803fe96f980130; 0x2e70f33e5cb2dab3; 0x12f984229a09258b; 0x64909b7c2bdd3483; 0x71f50433cbea984; 0x29b409fb851dd7ff; 0x75c52746b7689966; 0x78f9a3e87c6c760; 0x2b68edea2a7c1023; 0x12cba988e8151c81; 0x7cec3989728d64db; 0x31fa5e32a1a2d82c; 0x2705243e41c5f5a6; 0x21735890a17b2f9; 0x6f74fe89c08c4aa3; 0x24cb89d38a69e65e; 0x244b625a747dd9b6; 0x1559defe1062dbf3; 0x667d31f4b2e24197; 0x71b8ea65aa931c87; 0x384206669cb5daef; 0x38bd324e3caf9579; 0x5669eb2d6f91f432; 0x131847a9135f77bf; 0x5e2782066e8536c7; 0x7daba117134343a8; 0x291d365a02e6163; 0x57ec5340df36778a; 0x6656653e3e2de502; 0x7b952f5e942b026a; 0x7385ed5e879c32c3; 0x4a4ce81b14c8a91e; 0x7a7e639c58a85fb1; 0x53fa5d45cc629b42; 0x77821bd9b63ea971; 0xdc12adf5018ff39; 0x114eac99da131968; 0x7637aece45918661; 0x2061f34d32b06790; 0x6c51053c3d83e007; 0x1f40b2ebd24eaeec; 0x1a5cb3ad7134f19; 0x4be4302ca75b732d; 0x7f8bcd47dc74d7c7; 0xbfd4b8ed9fced27; 0x6cb85aae6af0a1b0; 0x16dd27d919d11b17; 0x7a8dbba26f6c1ed6; 0x14b121cff6ccfb5d; 0x63cc16e66c6af045; 0x5a214455f8e28299; 0x1cfbd83fc33768c9; 0xb894bf222baa8d6; 0x5f1831c1ab18dc8; 0x7c3a7ca3ca2b5ccb; 0x1fb7b663acbbaa00; 0x6460a2aea3fc8dd1; 0x5339351872a97d24; 0x7aa1a8b2c5a2b705; 0x67dd7338ad4607ee; 0x50ff6de2cbe50fc8; 0x2603cc34b5cbb275; 0x64faa5033c55934; 0x2b48e7da0c232ac; 0x316801747b6710e5; 0x1dd2e7eed3869ca9; 0x790ac9d08fd8582; 0x113cb55ae2ecf09; 0x6fd7656070e92253; 0x33df8aa796f9637e; 0x8d77a1e0b50038d; 0x3dc16df4c5985aa7; 0x8719d7df0c30eb6; 0x260a77b6e03eb715; 0x67bc3bc998335afa; 0x6c6c13bc5a331b7; 0x2286d92d8b125bdd; 0x5d2665ea8abfee40; 0x183706ad61d1aada; 0x667f960371e497db; 0x31d2a7ee93933dfe; 0x32331c60304562fb; 0x39cec67f0a73a662; 0x3cdee91558dd2929; 0x534681db2c393da3; 0x390b918527f39efb; 0x187645972d2283d2; 0x9ed07b12d3aee51; 0x4b3c72f7a7cec22b; 0x3d0416d2d33b6f69; 0x2fc3cd2c8b9f420d; 0x286056a7c9266f64; 0x794ef2b5a22db10e; 0x76a138020b4b87c9; 0x20a6a4332cb3397b; 0x46025fd389eb4962; 0x5d74cac9bf4df0f; 0x4922c717339b2460; 0x4f1c59fd918f19c6; 0x191dabc1e99ff3; 0x6144c43861a74e1e; 0x4d2e07d67cacf8e4; 0x3bab8fe0701a771b; 0x33fa9ad044fc0b10; 0x692b734dd47b0666; 0x6560a82b06b5e42c; 0x2516ebd82a9d2cfb; 0x3bd773cdb7d25efc; 0x5f21642cbf7c3c77; 0xa13ac75ca28f219; 0x69563a998e2fdba; 0x1bc3e97aefd0d0cb; 0x59f92a3008ccb74; 0x396fa70536c98fb5; 0x7ab77f86e139a5a; 0x24773985c8579537; 0x6e06669349736a38; 0x68533a02e5d10fb8; 0x4b6a52fcab929a32; 0x6be1b0a3c5cd34a8; 0x6c6a201e9e7a0f72; 0x46fe2c658758f4c0; 0x1cc8a5080a04bd8f; 0x4ef33b59b351df95; 0x1b74a6f5fd1a50a9; 0x556d36e4c4a5300d; 0x794b659357163517; 0x40f35e4e5af4d82c; 0x2593b925809f9226; 0x5766faea80c9692a; 0x3d017071dfb61184; 0x89a00ea1660682; 0x3c44209cdf9f1cd4; 0x3dae15af696b383; 0x7e4d64693f83e46f; 0x711741f1afbd34b7; 0x5630140a8201a70; 0x5656a4cbb68d300b; 0x3fbb2d2ef48ba35c; 0x5d6d1fd0a2fadf74; 0x21a1e7a092444427; 0xc8173addd800f4; 0x33af3d2885fdd051; 0x5cecca2d59f66e4c; 0x2804401a53d88c53; 0x257417d3de39f4f0; 0x197b0bce45cad30f; 0x1c2da59ae9f992f2; 0x3138ae287835891f; 0x1d14a4584cbb6602; 0x2d3b9ff32fb40e8; 0x6e0526bd15a92a69; 0x3476e0b6429e1b8a; 0x7140d53a5577c072; 0x4d1472c9aace9474; 0x7551c6a2b07e8545; 0x1995171b4602bb96; 0x69854d3eefae7fd9; 0x47b1d58ad244b5dd; 0x7cc47ad09056e7e; 0x7a4ff41739189919; 0x7627bda03d3a1b25; 0x8eedbd8c01cb6c; 0x5f31ef210fe90983; 0x4c74afe36a0dd6ff; 0x69241d423be5282e; 0x58ad223d31c4d5b4; 0x59734921ff06520f; 0x7986a9bd8db0e9a; 0x7a45ae387a9538e2; 0x3ffec7ad1e27225a; 0x4b7d1d0313b05eb; 0x4fbd44d7aa7e2316; 0x2b48f22a4c7778ea; 0x46ac2d61e96101d2; 0x6f8a2b19938727ae; 0x573f69f493674da8; 0x162c8ef6fecd2787; 0x30ee9b325d1b949d; 0x7fb4285b5119c298; 0x13d1efe55de31a5f; 0x4c9fb63c0171666d; 0x5b921a90aae5c100; 0x18337797b0c16388; 0x2ed9a453928816ec; 0x57c5764a056ea404; 0x14f502e845b59e48; 0x163a50baf2397397; 0x4628ca9a21186552; 0x21c5589faab486ef; 0x7decc98c40476c8b; 0xfbed2e9d42192c6; 0x1db83c7b4e904c71; 0x360174c4419bc68e; 0x41d075977d5f559b; 0x21c1aa8089f572a; 0x584f337d8c671839; 0x219c11df3d7849ce; 0x55969eaf86486819; 0x7451f511c06e6e41; 0x69fbb8ee57aac850; 0x66598fbf97d0b62; 0x6f72a219c84b5576; 0x5bba463d39a1e8fb; 0x589d41e5e8f6640d; 0x661ed9efb5898db6; 0xe619fa9d72e91e5; 0x57df6f57e349d193; 0xc6a94fab0488db9; 0x39d556bdb4f9528d; 0x16167ceac2f3bae8; 0x2ce19de8b8c87c8b; 0x4b6505f32fa20c2f; 0x628a2c794027a122; 0x35088d9356601156; 0x4192c7662b0bfd9a; 0x21cea4412130b62f; 0x66caad02afbf4b6f; 0x17ad064acfef2136; 0x6933075d5a079ec1; 0x547e3ca2b575b0d2; 0x1c426fda18e279ee; 0x329e737499194ded; 0x3b5639ea53dd8579; 0x759e574d22aab8f8; 0x995fcb806af77a8; 0x5abcad4f8007fca0; 0x2ff0df60b423d923; 0xd743fd564e32813; 0x114c056190f2ecc8; 0x550716d9cb857748; 0x4e7c3e24d87a369; 0x68bd093b2dc37c1c; 0x4fe10ee18542d5; 0x2cdee8];
   [0x3749e93f2b7193ab; 0x16f9824662207383; 0x2488f47f66c55f7; 0x335cb5e089d07e4b; 0x2f7a6e9120d0332d; 0x62ace78e360f89dd; 0x69346c41c752c188; 0x428d171363d05728; 0x246f9ca62af27691; 0x7ab39944d6b3b455; 0x7c8ca3d8cff9f6fd; 0x21919582503572db; 0x49bb09fee0b51a1b; 0x7b0baf7a5cd0a7e2; 0x2c63bf1aca3a0712; 0x7411fba4a6083151; 0x632cccb2c704d73c; 0x30d06e23fe1dcac4; 0x27ca2190bb2897ef; 0x4365f95bfe409108; 0x640281ac37d33523; 0x1efea8db301a6a59; 0x2e6a8014a4d7ffa8; 0x4ce4fac2568423f2; 0x3a833cd7f4dab54b; 0x308771e6d9b86456; 0x1e8fc102ebc0334c; 0x5f3c8d51c2f1b0f1; 0x69de43278eb66638; 0x3563637145d56fe; 0x6f8663ed4742dd4a; 0x6745951c01fb1279; 0x5e01e4c30bc37b44; 0x21d6879fd541397; 0x6ad7e30b71a4d206; 0x6d89db16e717b038; 0x22dcf6a71b36ab19; 0x39096a2c64a6c2b5; 0x13c65915ead0344e; 0xcd6b47db6f96a02; 0x52051e2d773de4ad; 0x3e2cb0ef36312881; 0x5c8f8b726743f9fc; 0x3b97135997eb3a75; 0x3e1f98c1e219b034; 0x78b9fa4e3ede4ec3; 0x2091b253b2e3fa3a; 0x4c942030fbbdb647; 0x4a611dd42d5bd792; 0x76db57e022042eb3; 0x71a13c6c603b5d8; 0x64d8057265c17510; 0x49a96ccecb91a301; 0x6f412816d2358bff; 0x3d5f57565af46b5a; 0x537b55c0c3cab7ec; 0x3edaa53efb644c3e; 0x69b261b3f3eb252f; 0x1869c4acab4a17b6; 0x68ba7d70dfdd6a0c; 0x2b19aac8a3d53e6e; 0x5d16143db2ab1a41; 0x5a5e6aad47ff6b32; 0x71ff7bf4a67c8031; 0x2364871027769f21; 0x2e9ab3334eb3f9ac; 0xe49f58f9cf8166b; 0x247b946516c2ae9e; 0x291f78358ea1e21a; 0x1acd94ecff9004b7; 0x2756f614c6dddb8f; 0xfef851b4e7d926d; 0x12316a27d8be49fe; 0x11e5463856f6c32a; 0x4e05c9e9b4f029fc; 0x1ad00ab6ebdb4f14; 0x315d2ace9f123c08; 0x27d9d51f8d7c7017; 0x76c22bd9f25a8e7e; 0x62c5cc543c9e7da1; 0x4dede68e65198e94; 0x430a593281f2e1be; 0x19dce0bab81f75d8; 0x1c11d95714c19a35; 0x5f7d4574fcf49d51; 0x79c5762d4d13349e; 0x262f771a0077e8af; 0x696f2468d1719827; 0x452c4e44e0fac259; 0x2df443f18e40e5c3; 0x294aeaf26747005c; 0x1bec6d3a39792954; 0x2abd072ff4a78ed4; 0x6272bcf7cf0f29eb; 0x251b2e6542563443; 0x47a47655e14cb8e1; 0x11805a6d012256ca; 0x2d9d5d11b9f3efaa; 0x336cab18717357bd; 0x7c8e010113d120a4; 0x5a0adf507cf355ab; 0x51109389945f2d81; 0x1524f0b8087948ab; 0xe89b794d9e57ef1; 0x34975325331e060f; 0x1ac7604043fdc350; 0x2bc2450697d4066d; 0x2c1fb307b5062114; 0x75c875e60a94f07b; 0x3c36482aac580641; 0x1cf5e1d26a2e0fb6; 0x1965596c091e505c; 0x5be7efb6f8c0eb66; 0x38d803865d1ba7ab; 0x6f24494117b37743; 0x74e23e1b7a3822c0; 0x48f9c2f7dcbd57b6; 0x62765e97fd0600cc; 0x45c7e38ced7858e7; 0x1a46ea91f545b188; 0x7ca46be20f9ad77a; 0x4567357ee32c9b56; 0x190cb7fb60e29444; 0x6a8a8ac0fa646c28; 0x7ace080f2d2b2ba0; 0x2d7d0e5106b586b5; 0x1cfab4202bb3060d; 0x5995a2f36a375354; 0x320823192774cec8; 0x71e7e3a30eafc9d7; 0x53359e4e932c225f; 0x7665b3138ab8b274; 0xa6b8f1e1b4d62c9; 0x496e746ee4834616; 0x23f435a732914a9d; 0x425205610f06a8ec; 0x6a7c1ce636ce5c18; 0x1b27cd708d25a63a; 0x32230b6f349baadf; 0x206d868cc839d32b; 0x10d2feb79df4307d; 0x29a0dd4d629f3c20; 0x152b8520b2ff9ac8; 0x21741cce6ddfe7d; 0x49ad38388b93238f; 0x1d7200daacaf258d; 0x69f11db8472083bc; 0x58243d2b37867b43; 0x3f63153fc6d4b153; 0x7791da8cfc80baa2; 0x7a0ef4ffd5c0161c; 0x718b33b74ba4e472; 0x6f7ead7e07d25b44; 0xf39c347323ba07f; 0x44de85f23c6d8771; 0x22bdce851f57f55d; 0xf64cb5492e77651; 0x505977e61f810b94; 0x59dce15996a43700; 0x416af70ff103a9a6; 0x255016236370a630; 0x254cb0422945ffac; 0x3c80badb7ae2b8f0; 0x237f9ddb0e508c20; 0x54c19fe73761d582; 0x4e66885436dd3c; 0x6ffd806d6bb5355b; 0x2bbcdfdc867df2eb; 0x225ce50261bec6d1; 0x1b7c8ea7d282b962; 0x79cc13e592eb8674; 0x4c1d9700b9674fdc; 0x464fbe19b9e64faa; 0x1b882aa75023eb80; 0x31edbc8236a8f38a; 0x246ed4565451f74e; 0x45a0c0bbab9fe5c; 0x29bfdd65ed078ab6; 0x272daa629edae5f3; 0x4e5afea34f9d2ff3; 0x29f2503cd1d4f842; 0x7ae8790fb3eb2853; 0x53e1a65bea0ae5a3; 0x616347d6493d53ed; 0x7ceeaaf9d53f6b22; 0x350e1e82b55c2ff3; 0x790bb85cc9b1eebb; 0x33e0571d125a743a; 0x27124bc50d7acf5f; 0x5017195d1bd8a8de; 0x2bbf16a3b47030bc; 0x166368b6352feb5f; 0x4fce1f09ac6a385; 0x78be3e3c38ca3a95; 0x17b1e900a568bc43; 0x1a183248365c01b1; 0x728aaa2e56598c0f; 0x4a305261219808d8; 0x2c7f5dc512d6abfd; 0x7fc63db111802c61; 0xb20ea62d2923192; 0x4b1312b719b17508; 0x2e36980ba588876b; 0x3828f8d633108a64; 0x41607ff11800c747; 0x433d3a139c12eadf; 0x60d6f6db58a07531; 0x4f32b9474e71afd8; 0x1e288749a977fa1a; 0x42c360357773faa1; 0x6de2a42d9f72b248; 0x75b8992032f4f135; 0x4246170e842b4e1d; 0x20bdbd68b1b5eb47; 0x56309a155d9630e7; 0x27ccb2a69a23e069; 0x68fa173235ca4659; 0xfda9e0a403655f2; 0x6fbe655b72736351; 0x7a985b8e6f5fb3a5; 0x5940ca3b61642bbb; 0x3b720d6526e3709f; 0x69e9697c7fdf04f9; 0x196ebe0eac5b3448; 0x3578b30125b65c0a; 0x451c8c67bc31369; 0x35a0b0a0d7b93ae1; 0x6a8ac040817a4258; 0x4834a8b56b173391; 0x5af5096f77c738ea; 0x59f2964710774892; 0x63c06364212ad15e; 0x17d704424f0030e5; 0x62b6fe222524a9b; 0x709f2d81ddb9142b; 0x37e199b63e6701a1; 0x6473af4358968bab; 0x397f197a4eb52e0e; 0x5866bbca58519e45; 0x2c8cc4fa439a5f30; 0x9133156c7deedab; 0x21ff15e5fb095d7b; 0x7b089639570c24fd; 0x280cbc6f9286e9f5; 0x6f8e970419950269; 0x5fed3daa94a1b826; 0x39f9d3bf2e2585c5; 0x27b8cd828c8e0c38; 0xcd8c9d021e83e97; 0x4038f06a4c6c6d6; 0x5024df9f474c0345; 0x60fbe2e0e91313a0; 0x23a39875d2c5210f; 0x624d8b74179e719; 0x474c2e78468b1d9a; 0x6a91cd9cbd7fd83c; 0xdefb4e876f0b012; 0x5c9ff635664c4c56; 0x365abafe9323e289; 0x487d64ffc9e148d2; 0x486759d919c5431f; 0x3de9a119bac08511; 0x578d7144bc9cda63; 0x3815d4cfb9f816c5; 0x157e546205b5ca45; 0x4c0f972b249bf105; 0x1e53036071aabc23; 0x48078a0d51941f05; 0x6b824167c26c7a8a; 0x661d77c2bce6c8bc; 0xf7ca2116fbd8234; 0x5060f2d50024cd80; 0x1525064b29cba980; 0x113140746e219abd; 0x66c9803b823ec0f2; 0x2dd2015f072ff1ff; 0x1463bfff356e59a6; 0x710c97c1b6bbe17a; 0x410d1b24b71be4cd; 0x6ac8b74216fbd30c; 0x5d962bebfc997439; 0x1b70fea182fbea62; 0x3a78deb9fabcc139; 0x7b2ae4f8f37eb54a; 0x696fb565fe5b99e5; 0x22fa905dda875b62; 0x140869cef66fc15e; 0x13029f82debc51df; 0x1d640845136b1a8f; 0x781d662a6be0e654; 0x756162be629e2ed2; 0x4c38d77b5cae59c5; 0x53571a5878caccb3; 0xd83f5b6d1569807; 0x47208fbbe1993184; 0x6c497bddc5c52b6; 0x188a6e4797a28e1d; 0x68b20d319ae07439; 0x4e6feef97fd2c267; 0x10f5ef924f0bb73f; 0x2f977df671b952af; 0x503ccba83c6b22e1; 0x2e3eb77f5285c667; 0x10c84001cad05893; 0x58f3d515d101fc0c; 0xa0a1b0714b31cd; 0x1da4e68174c5b4a0; 0x3ee2d60ecce0ac20; 0x421db7475c492beb; 0x1119eac6416433f; 0x156ea5b2140b4226; 0xcd16842adf993b4; 0x8c059a91713eb1f; 0x3090f0e09ab84b50; 0x4329ba942fe50c87; 0x18531c4d650b61bc; 0x482335b71b7faffc; 0x15b181];
   [0x4f37ba53a317cc48; 0x3ec6a4154164266b; 0x16b4929e90b794db; 0x7cb7e2f14281ff88; 0x7d158af289870d0a; 0x1ee46a3f3c5fb348; 0x295e29a3f67888e0; 0x1e997432339fe4fa; 0x45649a68360eee54; 0x6f4e838f0dad2bb5; 0x37e2eb1655f077d; 0x53f33ee60afaf5fb; 0x3c8ca245f08f5a5b; 0x6c9fd50c12a16458; 0x376c830dc23f88c4; 0x1efbb05222f166d5; 0x774b829c22213199; 0x5894c3db594be79b; 0x35901d4028dc0538; 0x6b53e2bff877953b; 0x7af9eba01a22acd4; 0x3e8943662e083f7; 0x59e9c806d3844b87; 0x28a4470722d70cee; 0x4b0346691605dcea; 0x6c4228962f29a6c4; 0x652cc22b304c971a; 0x5b05d7c0a6d96345; 0xa0a9c01247998d6; 0x648c0cb674aeb465; 0x7ade8f8c3884de2e; 0x409f34d8d6c14a8; 0x683f4b31ae343831; 0x2ca6cd78b9424dc0; 0x501ea29868ad5eae; 0x1fc8bf45dce19392; 0x16f1aaa8eade490a; 0x67fd391698b3b72; 0x33aa86209e29fdbb; 0x7958f8770451c1e9; 0x2d33e44acc46c91c; 0xb082f3067e00d43; 0x7ef4adb0b9a89c53; 0x6113ded1b05a43c8; 0x5033ef15ea1a3d42; 0x3a6c412508ac7634; 0x794f19b3c3eb6b70; 0x7c87be8640f8ea5f; 0x4e5f9ad3522b2bc; 0xad0549757ca13a5; 0x865f1f1c84143fd; 0x16c5612f16a5df88; 0x661914cf066cc75e; 0x5f7d6d81a45b2161; 0x185fd211ec91736; 0x4cc8587174e0501; 0x674a32135f6848cd; 0x7c4c42a8b35bf789; 0x10a173cc2b2b6288; 0x725264bd5ce0870d; 0x18d6e1fa04a166b3; 0x3a945c37499bc8e2; 0x161dc3e909245dd5; 0x54109e0fd97aa552; 0x40b894c8bb142041; 0x52e677eb38b9e434; 0x7d80c72c51234397; 0xf42fb9b7a252780; 0x162c67b5a0058630; 0x487eeb4c521bd2f1; 0x32865e5be6345946; 0x5f73d3a5380df2fc; 0xd23744490b89d40; 0x36d16ef043ec6300; 0x92fa1f1dd98c64e; 0x170db4e5876e5629; 0x50496d80680fb6c0; 0x2dc3548099292805; 0x5d044458ee349ae6; 0x73514fd89974db2d; 0x2a501520d74dd1bf; 0x748039cd75a6f0ff; 0x500e3122c1dfadea; 0x691f9f54f89f5dce; 0x322441a8c0249898; 0x268baed0c6526bf2; 0x4f2b64d8366fb4a; 0x474cf335381a049a; 0x3ac47ee546deda0e; 0x2c67fb6def9b31a2; 0x17af4ad2378fbce; 0x7aed8126ad6787bf; 0x2571803516ea8524; 0x24cac6ec62962762; 0x3e8c1906a476b1c3; 0x3b3bd273dfdef5cc; 0x19287b161fe0988b; 0x6523f786d6a72924; 0x66cb95b7b4475221; 0x6fc48d01c26b6748; 0x3b29139ff24cca21; 0x1433210e7a658ec3; 0x7123c4cdab6617ce; 0x3ffb6a73429ca369; 0x136a8a019dece5b6; 0x16f412029cca1cbe; 0x14a7448dd1781ea0; 0x617fcc965042d0f4; 0x471e97a0b43bca25; 0x1a7005fe4d67f0df; 0x6a116c1911a6ab24; 0x44f658b17d7eeb0c; 0xae0e3fce285940b; 0x518c9acca5e4f07a; 0x555cebe176240cf4; 0x1ab20a4c0a2d03de; 0x7079a9f3ce375c0e; 0x7cca6c4f5b54615c; 0x47b5653ddf15b893; 0x28dd9a1290b2eaca; 0x1269452757dc9fef; 0x32629dbf0e6571b0; 0x55afac6b73805616; 0x3648a77bf220149; 0x44af359d4de093dd; 0x237a4d8a3ea0ecc3; 0x7333bfb61c099f5d; 0x201e79411a38482d; 0x5117581cdeecbcb; 0x738a4171475c653c; 0x5d56586dc864e462; 0x180c73dad8818eef; 0x55939854c71aa92c; 0x38ed93a98e6b550; 0x25dfa2e842563280; 0x3928212b78cce8b9; 0x39bbeecddb6db749; 0x7c07af4932f6f47d; 0x3255d2345b02f15d; 0x3ec08f8847c64da9; 0x357544d177ea6894; 0x38f259592dd90732; 0x4654c6c9d27acee6; 0x212b67ce4b70558e; 0x462d31b22c08dc93; 0x2672b8818c9c4604; 0x1c9b996428b81725; 0x38e03e3cdc6a7414; 0x50ae231488711836; 0x2d01133fbf3408b0; 0x5a57413b71221c2c; 0x38c0a32daee646a4; 0x71315a901fdba2c3; 0x174f6d74108ae406; 0x326098b5406bca41; 0x5d4dfada2cfca6f8; 0x17fdebf204cc74a5; 0x639e183b5011fd2d; 0x749bf0ea2b88a626; 0x60d7a99cf6bbce8d; 0x2c6674cfe0003baa; 0x30b36b0b0cf8119d; 0x830826458f629d9; 0x4cc5c90665b4999a; 0x45e427781da45b72; 0x2ea07037c83fe7b2; 0x748c197ff76629ce; 0xfe65961d315128f; 0x555974e83a8fccdf; 0x5e42b431bd8de80e; 0x580cf5b1e86780fe; 0x36d30e3843bc02dc; 0x2eb51c8983b93603; 0x7cc48dbf9f7adb92; 0x72ad8adf06a407fb; 0x7470905311512650; 0x2349b84386c5936; 0x1356adbe55e945ad; 0x51edd12e6a1af88a; 0x36e5add95d004259; 0x5ef824e8d1f380c4; 0x1d6fb2fa258753b3; 0xa59ddc3550b9874; 0x66dc38c071fd85ee; 0x63236391628adc12; 0x1fa03743c0dc5eb4; 0x51b8d5ef4bda6c7d; 0x432b0bb60350308c; 0x5aae6b494189966e; 0x2e3fa0e2c3221d54; 0x2d7237f2a1cd26c3; 0x5f01917aa9da05fe; 0x288ec594a96637cd; 0xe9621e52adde551; 0x2cf7ff3ede135d30; 0x722b2e97096d27a3; 0x60f429af78f2a0b5; 0x35737b9d30befb1d; 0x3a3bae7cf4471754; 0x75f1f76948214476; 0x3b3260024977ae8f; 0x2c20194ac06009f5; 0x5ee21feb21726717; 0x3c28934de7b9250d; 0x59a44c95a0d60152; 0x440465cb8b895b3e; 0x45330506483bb752; 0x6630ab6ce367b05a; 0x6b13614ac309245a; 0x46a2628191d57630; 0x50c5042b129a974c; 0xaa485784092bc65; 0x7bfc04ba671ca6b5; 0x51e8864c4ad7056e; 0x60fd2994b1e436b3; 0x220210084ca5731d; 0x52480ec5d2742d13; 0x4a19dc7f1d96bab3; 0x190cc04f65b742aa; 0x4b9f236744ddcb05; 0xac9d65adb860d31; 0x5e9eb69cd857b352; 0x388f5c54fd5760a8; 0x2c6ef1163b66405d; 0x31e1fdd769f39b81; 0x5598ab8f82d5763d; 0x628190e461dc03e9; 0x21cc970901840be0; 0x391cb1bba2a2848b; 0x2ca7641bc0e962e1; 0x41060ea47cfce47; 0x5e6890ede7cee8df; 0x3bbe6d264a25688c; 0x3c182f6e6025ec22; 0x17c6d88cfff02b55; 0x42088d6a4eac889f; 0x2c3d227f44fbf5ac; 0x36f786936579222f; 0x1302c517cf583e81; 0x7755ceea485c228e; 0x4c6f2add06ed2214; 0x604644d1e0a66bbb; 0x71c236aa79bdfd42; 0x73a33d007a60bfa4; 0x2f451e5be7c06628; 0xd3cff65e81857db; 0x6cf626922387a6d2; 0x6b7f8458142416ed; 0x6d8fe8edacaae1cb; 0xf50f99ae67d6cba; 0x67b037695abc1886; 0x3e784a41e0891cd6; 0x520341677e470407; 0x6f428b3de13a7831; 0x75400b7b8f84bb; 0x6e720001cb801b17; 0x48ac2fd9ff645e6f; 0x16c27df57a09c8a5; 0xd62a4663e660120; 0x2ded890e4e551b7b; 0x5c25ba291368a27; 0x1f2ce0dba6dd0c85; 0x11d9c3f9ef7d0b8; 0x7520337c440aaa26; 0x67da5c9e52fb281a; 0x4a7d078685161215; 0x3753abfa318bcecb; 0x193d0964a906fcb3; 0x19d1fb2af4f81312; 0x272fc9d318e5f2eb; 0x377f60d6bc682667; 0x1c4f150596913b94; 0x5dfab932db4eff40; 0x500c07593125c02; 0x7a0ac2b4d7c22c3f; 0x6972bdebe9e0602c; 0x30c5f656ccfbb685; 0x97b70daf10e6b31; 0x50c6da17f815ad49; 0x7c02f20bd8e62c93; 0x4f0629879030206d; 0x5af44a59c1180e9d; 0x65d4783c8d5d4db; 0x57e3bba6f3244638; 0x6e7172ea691fd91d; 0x4c3c3daabd85a0b3; 0x509ea9f0837c0a19; 0x227906645ae890b2; 0x29611b46ace007a3; 0x471f9e78269c7b79; 0x456bed67664e48e; 0x3bdcc3c9fc9095e1; 0x7251614035fdd5e8; 0x4938440b590a5157; 0x27b607cbbcad7b5c; 0x2f4292f56371a57d; 0x31525e9047ae8d84; 0x371fd60fd0c80947; 0x7798f47295bc7b3; 0x62d872f84b6c10c8; 0xc5ed208a7835927; 0x22182d057a904873; 0x76d7dfed58220348; 0x7b23273eb2d4a7e1; 0x29e0efa6f008eb3b; 0x38bcaf2727fb2290; 0x352a2daec41bf4b7; 0x386672c36ac7340; 0xe22239652de1f43; 0x119af2b6a899c3d3; 0x7a0b673126ebe84; 0x6f95157ba57c6918; 0x5cc7117910d1796b; 0x7c11cb4a85b89c7; 0x7b568ac5bb9dfa6d; 0x650b5c3498a95f08; 0x58aad1a017e369c3; 0x377bb1];
   [0x63164f898f4d693b; 0x139a3cd168bd8439; 0x4928f56cf6efd8a0; 0x253eba42a6c28249; 0x7619a7092395d03b; 0x18d937344b536cb5; 0x44f15bbb1e8bdd30; 0x5c27c57ffc8a1881; 0x518a0b1451630d45; 0xafc9f6ace893172; 0x47562f7506cb6dd1; 0x6da5fdee84d6f058; 0x100d4583ccdcefd9; 0x56a60759b3ca79db; 0x5aa526e379144cab; 0x57e3fc987b7ca89e; 0x3c58979746dc1fc3; 0x79335590c17b723d; 0x77c8442ef6a06e46; 0x3785184ec7605833; 0x6e402fdc49af1c54; 0xd5806cd0db5fb2b; 0x4658753643bb4355; 0x430bdb7bc0029628; 0x1b1ea42620ce437a; 0x393e1f368a004c8c; 0x170bc58ef042ae7; 0x634e4f69f41c7231; 0x250e698008ad7c50; 0xf4ca4fcd035b102; 0xbeb86fb6b9d8c0a; 0x32809d5d65dcb1fc; 0x7f5a96e39f13658e; 0x7ab65f34a60e6b19; 0x6799fc82f343d22b; 0x7e144d0f2461dcfe; 0x3df41107d2d0fa23; 0x52b81593ff976e40; 0x7779190cd40a669e; 0x2285acbf2675521b; 0x77b000486f3b89e; 0x3fc11916fda586bb; 0x606913efc5efb814; 0x18dbd30b6730009f; 0xf1e81cc8401edfd; 0x585b98be9830eabe; 0x20ec0208ed83dff9; 0x25641c561cb535ce; 0x46d0ef890b6585c4; 0x6899f418c8807d75; 0x5cdb0fc982fa18b5; 0x37dbe5eb0d2b0185; 0x6abbc3e1859d9a11; 0x1704b03679c596fe; 0x327465d25a8cf874; 0x349e5d7ee624ac34; 0x7820d57f663ed0cd; 0x5d3c834b8ef47830; 0x42e64ee4027e5b95; 0x119e23da50042034; 0x2d0d2ba176f7ef3f; 0x57b123602d4db90b; 0x75d9cd90e1ae49eb; 0x40231c5918424048; 0x4a9a7c04f48f5cd5; 0x41ba3c05cab9ad53; 0x4d837ab7dc39774a; 0x1c8310acff13e3ce; 0x47466a7680be5e38; 0x21f969578157d10f; 0x3ee06cb87cdfdbf1; 0x327dba2f12020bf2; 0x20711ec578e5a386; 0x10e5d292e1eea014; 0x68b59196ad386c0; 0x6d87c2735b996bba; 0x534887f347cf638b; 0x4811328faa39a2db; 0x43ad22e628c0e135; 0x37914f394848cdd0; 0x22eb5b29d9de9b2a; 0x63bedda393dcd14b; 0x6f324606b4649db5; 0x7fb5bf9af1661fa9; 0x13f5376e514f4051; 0x4bec15a367e5b4b6; 0x754fde7c4254772b; 0x572e8dd192ca5256; 0x1f514ce65e97946d; 0x661186bc052a944a; 0x75eb50f774448f42; 0x1ec909ff633feaa7; 0x6e339b0388bb9aca; 0x41b8a7a535070d20; 0x10b4895581ebaf2a; 0x3d347019c194fc72; 0x392d9e0ea104aad6; 0x32554c1a91416339; 0x119fdf11593055bf; 0x727b72ec3bc8430c; 0x415c49195f582548; 0x7636121b386f76a9; 0x168e7d5ddf1466ac; 0x6b24fee3d6a5cff1; 0x37603525fcbd1b21; 0x5f8087b636ae21ec; 0x563b0f2948db692e; 0x24ba1e99148f83a5; 0x53fbeaf9c3ddd329; 0x68d5c29fddd2e869; 0x732352e4f9085810; 0x4c299da0a3c1478a; 0x4bec248729680b95; 0x3b49ce458a2dfa0b; 0x61860a08c19fff33; 0x4c2f0d879cd544a8; 0x4536283e175413b2; 0x20a2fed12af846a4; 0x39b501a03e87607b; 0x47e724f7d53bc444; 0x6d660f8c028db7b2; 0x64bdc214853cb8dc; 0x2a13e766a172e314; 0x55d78f25b51fa6a8; 0x2209abdae800026c; 0x150e2596af795fe3; 0x43fd7f37eb314375; 0x122539bceb9c0e73; 0x1ebfd625ebe794fc; 0x6ee2212a8101f7b5; 0x6c954cf6738533ea; 0x52a2c3ea98a8e4d6; 0x7645bb0d4f8279d9; 0x5ae7817d4677efe8; 0x5bdbca6d98f67550; 0x741c630332292140; 0x68c5140fe025f999; 0x556bca673f1ee086; 0x7c2d365340b1aa6d; 0x582aad64612184cd; 0x6de3548bb1e7158a; 0xddba36abac9864f; 0xf8cc0cabfb97525; 0x2b3c9bd3bfa68d0a; 0x456cbc3905d4df3a; 0x4fd61c653976a845; 0x2f5c39c0b3ac67b5; 0x296ff4a576787649; 0x707b261dd3e5d56c; 0x5ac7cf55ce353647; 0x2fbd9595dcd97136; 0x668e20e94213e601; 0x291d61decc726b43; 0x6f29c19960e6232; 0x5c431df0398e7c2f; 0x7e2c8b1cd707f2d; 0x1af59d2432cd9162; 0x4dc73e735d5c4fe9; 0x47d8585746063568; 0x3eb85366d18947aa; 0x6adc6aab26138e3; 0x2925a2bf3d9d9200; 0x50fa0775f8109b31; 0x652d4a285877adac; 0x343004312cff7e3e; 0x5d3d3f724b783197; 0x502401c939275ca5; 0x5fba180fbbce17cb; 0x35c3aa49af52b16f; 0x6af8bec6e650c61a; 0x3f29b0277b52aa18; 0xe3e97c8fac827a; 0x2188ea106e1eb0d9; 0x68028a22db9f360d; 0x3cd3b1db0278630b; 0x780dbe8c46264324; 0x37149f4b40782e0a; 0x6165950c38272158; 0x492803c0afa7f35f; 0x2ddf64b596f0eda6; 0x105ffedc0663c41; 0x1deffddd327c71fc; 0x414bdfcaacbf7927; 0x16822b6feb78f535; 0x36c56cdd08ea47bf; 0x3edae523889d88da; 0x2b11a1c6705c6af7; 0x71bcf423295e729c; 0x25fead7e32349177; 0x7665aca69c9a2f49; 0x3ced71e894acfb48; 0x43712d971a7bd60c; 0x43a4477251e120dd; 0x6f2b3b963b2b9491; 0x1525f507e76fe8b0; 0x234fbc13936d44bc; 0x49fff5072b8d0df8; 0x733f53f973fabe66; 0x6c73d128c7383a69; 0x3d3fdcff151784f0; 0x6abef0c01817c388; 0x4e3d0973b9ab02fb; 0x437a978f02388459; 0x31bf8a0db243fc2d; 0x64a8300e0cc5ff64; 0x3d3da4d39d454a14; 0x3c025e2aff7a0838; 0x4dde35b6e753c08d; 0x31470927817ed34; 0x25ac98ad912bed25; 0xadfe9ebbcbf4fc7; 0x45c8dc0efdc8b54b; 0x6a241b9bb1c964e5; 0x4152e929019f67e2; 0x76f4d7350b02d44c; 0x33c67cd78f838a3b; 0x36e385e754dff979; 0x7822ab4c7d9985e9; 0x19abd4427a0b8cc8; 0x36f09bc8a528f8c7; 0x152cba0b82009aa7; 0x39511c88915603fc; 0x79702b7ee6c6a29e; 0x36551a8e02beff24; 0xe7179b4b515f3d2; 0x450d443a73c59460; 0x7da570f7218e90b4; 0x1fba63a4d5a0d082; 0x224b551a622fb7be; 0x1a8c1d822758bc25; 0x3d339754d3a64e93; 0x119b52870eb118a5; 0x79ca8116e3de73ff; 0x40a9391c6177e43e; 0x5da24b9ae3ce7f4e; 0x3d4ce8e5aaf67222; 0x5dc95094ba05bdf; 0x7dd3417d742b4d7b; 0x673486851a7b9271; 0xf6c2c422b6ae31b; 0x102f17ee5dd1f423; 0x4f2a989db1ae0ef3; 0x2a15fac202380c99; 0xa8dd79d81864442; 0xb7788a614c94be; 0x4511f87e0e64237d; 0x56ab159a04eddd1a; 0x2406290cee764541; 0x6585c60ccdcc8b7a; 0xc8e54f7b63710f; 0xb7fdd4e30bcd900; 0x7b7b36e516723bef; 0x1895c46490883242; 0x4fdcb6120df8787; 0x4d7cf9035ca71013; 0x3c39773dc5908845; 0x1e0dfa73465d069a; 0x4d6be351fbbf4fa7; 0x785a9800e77d32a; 0x24c8261f86172694; 0x39f575cfcd7cfc22; 0x3c2081e8cdb070d; 0x4fa0a8e2e99435e2; 0x42038ccdc2c57159; 0x768d91ab5b4cc3d7; 0xc3f31db1ec7af66; 0x487f9c62e1778f9c; 0x6f147356c729c43f; 0x42941ed0ac268fa2; 0x4c299e336e6eae69; 0x3e1c588c02cb8748; 0x20554855554a9fba; 0x46d342fb22311203; 0x4a0f4a988dda9eb8; 0x4920e61d41d16eeb; 0xc5d2d02b48385d9; 0x65fdb90e85cf84bc; 0x5fdb6c29b2df037d; 0x15ecfa186fbc059e; 0xeb9bb8a8a80258a; 0x5215d5c837dd78b2; 0x31133acd1bdb67f7; 0x6a32e3feb208fc4a; 0x54a0962d85758900; 0x7751837a98056ad3; 0x4e5b52b7a693f4dc; 0x50ca95af73e4494d; 0x730445c7f299b486; 0x34abc4a1b65f1664; 0x7e8fe9d676f2b7f3; 0x34c014f0e23eade5; 0x677ca92b2987bcf7; 0x6294ac612927521e; 0x13cda726c8a6bdc2; 0x14583b6d1c3e0d9b; 0x7e657de384eaaac; 0x466c3c81307a71cb; 0x24928f74189c686d; 0x21d16a6197e9cf8b; 0x4319583486110fc8; 0x4028a773632173d7; 0x49f79b73e81ce99b; 0x3ea9aec23ba6a7ab; 0x7673207333033c4f; 0x423204d00407aba8; 0x79cce49300663645; 0x16a044bfece7f459; 0x1f27f0d5f391f509; 0x6a16469620f4e4dc; 0x593ac60bd666e2d0; 0x2c7d17c0c912a731; 0x151234e21cf8efa1; 0x43cf6f652419911c; 0x2a9efbdfdb80d666; 0x7a8ac9acef14877e; 0x597f2dcdab3f2c56; 0x71f66bb563fbed78; 0x263b9];
   [0xe128fc0124ce2e2; 0x56504a3453941247; 0x75fedca420deddf5; 0x6f30c3c2b3696901; 0x6331baf95ff6bd3a; 0x949edee44600a3b; 0x729f8f1db1651d9c; 0x6081ce4a8de830e3; 0x7dbcda423b1be0f3; 0x61f8b87bf70ff6a8; 0x488346abf15302dc; 0x245860177541fca5; 0xd05bcacb5079088; 0x17a3d8f51ff0d13d; 0x37a68792a315f6dd; 0x642544f37894e482; 0x49a2ab099a3f04ed; 0x594c71a2faf30c3f; 0x19f6f0fc21d8e567; 0x61a4e078c1577ce8; 0x2c79f051b148f16c; 0x4620158b6a5195a6; 0x436243ea1bc46c43; 0x64a2be70757029e1; 0x493a9ea387937667; 0x13cd117f47659e55; 0x644e79b37d5d4d43; 0x2b297861f383282d; 0x374e67812de3e091; 0xa416a8bb0a7d55b; 0x20e29712a87b38ba; 0x7aebf5ef03ede32d; 0x191604b8079cd2d8; 0x60913c6d9aba51a0; 0x324515c6e98ba8ab; 0x1b4c265e188e5c97; 0x5734a563d35c24b6; 0x49858b9783876133; 0x177cd53f6a002fc5; 0x6445362c3ab14f4f; 0xd7033a54dd7f43a; 0x66cb5bf9d03e8615; 0x21bb9ee88dae276a; 0x46576bf6e2734d9f; 0x6bc5939c4e275f37; 0x194d59d9526e5cbd; 0x6b02deca2aacef55; 0x2e58424a9ddbecd6; 0x46ad1b87723941a1; 0x5d426a8ee19597c1; 0x5f292c2335bcf4bf; 0x3d70de06cb6affad; 0x21f4ab45387df348; 0x9d73f54022f2c2b; 0x2432a1423beef4e6; 0x3db2cb5840a2d6f4; 0x7db4a3afd2cf538a; 0x22cf13513da89943; 0x63136dea2f76a200; 0x6c29b8a40a77c9ee; 0xb080ffe81c25122; 0x65069ea8151156ae; 0x796cace37ce6d62; 0x131e106872b92c1b; 0x53786c0472568c16; 0x75e5ad665a8af9cd; 0x5e9892defd5ffefc; 0x2df64a5a7d0d3ff8; 0x36aba27860eae8b1; 0x4f096158c4400586; 0x57b525bd5ddedc99; 0x2979a399e2ad4412; 0x151b64d91b9f9; 0x7274d3011f30f17c; 0x33962e591a13808c; 0x1c9c1a4a8690c362; 0x28c2af17852f638a; 0x55f57264907f694f; 0x7bab3658b0650de6; 0x5681741e07afea95; 0x5364bdce64377656; 0x44ca8b68ab2ea48d; 0x6f1e4423a58eed3e; 0x10edeb6fe932c9a5; 0x4916720caa6cebc7; 0x34d4104ef3f984cd; 0x382c29b11b9a4ba; 0x31d4e89dad8ce904; 0x49fce8c36dd73264; 0x7860262d60d3ef66; 0x6f9a5e6d5b231e4d; 0x5c302673a2f736b; 0x88b7a6a478b1f47; 0x3f64547cd30260e9; 0x1b1cb2510cf24ae2; 0x6fedc3ed00200124; 0x4b6f6bb106fb37ed; 0x73b82ca6f82e03d2; 0x2095a0a86fef3ef; 0x2387a2f89cfb386d; 0xd5150c5e08d153d; 0x42efd8b6686d1b41; 0x4728e56db67abc5e; 0x77699806feab6892; 0x35add231e4bcfddf; 0x3a30a3dfd17d7c59; 0x9157af20ca7551c; 0x2ec132f590d9c572; 0x10b7e42eb493680e; 0xed1ac1ce9b45c27; 0x5428b1b362ffec3b; 0x4154bb51ab2afb7a; 0x2ef17b3c4e7d983b; 0x6e7004910bc37; 0x5621e6ed4fd0fe65; 0x57c68586bb6c92c0; 0xa7bd13c4424c03c; 0x221640cc22e9d4ba; 0x4e80a7e75ceaf0e; 0x3ec7cb371544a21b; 0x229671e4929441dc; 0x511b2eb4b547ff24; 0x599b7c2344a11810; 0x5c0b639734a9b313; 0x979f5c2148b1f5c; 0x249ebf2cc67da443; 0x4f860662f5c5442b; 0x4c505a6c2476619c; 0x9cc8d21a25da092; 0x1bc7f2443747c4f9; 0x2353bcff0e192c8d; 0x75500d4dc4ee7c15; 0x20b1fbceda33940b; 0x2ac3652569c9ece6; 0x4c61d766499e2465; 0x49df3aec8a1fbff9; 0xecfd52f8d8dc30; 0x206396ae342f7426; 0x6d932429663bf30d; 0xb5c6fb4f1000cdf; 0x19cc5218177183d6; 0x1685be75697b4e85; 0x3e0df8c2826e591c; 0x23a4f5b345aa31e9; 0x7ef84d0a025c5255; 0x1699ed69d5c77b9f; 0x38af86f4b6aa440f; 0x78c59fbb736e9f27; 0x3167262116452535; 0x17f894cbdc7bbe4a; 0x1860651ac92a7d8b; 0x7f45ff34d9ad8057; 0x69878c7c36edfda; 0x7afb1d59018600a8; 0x691be86ede036ea3; 0x32fded702a698e24; 0x523f4824c0b5166e; 0x652d489debc1e520; 0x183adaf2ce946058; 0x1abef61883b99acb; 0x13d062f057230bd5; 0x690b163d02079dd1; 0x1c40732eafaf50e3; 0x2ee5e5a0adc8cf84; 0x397faf3307a0c8d4; 0x1b2f2737c1e10187; 0x64f6258ac4111cda; 0x26051748e5419472; 0x7553b630471a1746; 0x6aa7532f7353a66a; 0x6aeb462ff553b6d7; 0x818b15da784dca6; 0x76e0a881a73b3d92; 0x3a77ec2087e10fe5; 0x49b17aee40ee567f; 0x6db39055fd8d8658; 0x54e68e355dcbd8bd; 0x4caee0eb1c097fd0; 0x55f13c25063b95f4; 0x5d6f1e88dda35ce0; 0x4d392038a6855ac4; 0x2ac6aad7e36c15dd; 0x567d620dc5928a2a; 0x623e0f2ccc0c159c; 0x6381cfc22a6ce0f2; 0x5c7dd8b09b96f5a1; 0x2624b15271c76d75; 0x79981d1eb6be9cf5; 0x635263872025eda1; 0x15a4ea474ba4335e; 0x2b61769dbbff603f; 0x1d50d831b3e32444; 0x524d37b18c8ae371; 0x2da480122a695511; 0x42263789824e750d; 0x43eec05bf17ada9; 0x6a66741d04f0036e; 0x10f4b188a0d9e3ec; 0x6cf160857b84d3c; 0x3c14c51e3b5241bd; 0x6b67e1af832c67d0; 0xaa7a79f4aee504b; 0x3bd99148b971e79f; 0x63eabbca3e0c9855; 0x4da199cb17197dbe; 0x64fc3cdd2f5a64e2; 0x73808e3f1511c4d2; 0x2957086e352e2972; 0x40d8748595440b7f; 0x7203478f8dfa7acd; 0x63d4ebde58ea3a17; 0x86f5b113221e3df; 0x3c1724936a683491; 0x7309eaf1acf2d6cc; 0x698805e415b6f0ff; 0x6339542491e83b0e; 0x43be6e38a6b6eaa5; 0x7c69ad6eec75508a; 0x3d22ac210e34b6a3; 0x71011fbd965d7f0c; 0x5a0b3638851176f8; 0x7ca48490ad4db0; 0x6677bd8d70a9501; 0x23c258572c252170; 0x3d46df2c18e2f255; 0xc0c96e36b88b448; 0x6f8bc4fe15eb988; 0x43c9c8452bce6c3b; 0x355b01e651ff9938; 0xb89dc715bf7e422; 0x6ee943451eb2237c; 0x10c1a2c654f6aeda; 0x66ee253313ab6c75; 0x7892cdad37e53259; 0x7f99ac9ef13ab350; 0x3c55c1630fa0be9b; 0x6c46aae65b2b0754; 0x3f1c0eda81eba984; 0x217349e2e8b8cb38; 0x2af2a2e5bb23e958; 0x70bd60f4df421be8; 0x36a538a46f43133e; 0x1d05396ba1cf5650; 0xa7fd20d4dff5b0b; 0x3416b125ef877ca8; 0xe0cab31d2fa6c48; 0x39411c3fd4eba269; 0x2bcdc5721662798; 0x7a21d7d6376d3e24; 0x2ee6f40023270b61; 0x3d70e48e5552a51f; 0x2eb32172a764a076; 0x3e64c80cfbd0cde5; 0x32f1f799a1a053ab; 0x776466a3c06ce5b0; 0x705417fb8c3352e9; 0xd3e064a914c6bb3; 0x6fa0d06c1551c17e; 0x184c9051787a73d6; 0x5d49bb4fa4ba917b; 0x1d67b706b86bf78d; 0x13a08e1706f9b6bf; 0x323f5bfdd6122b76; 0x7ba05eaafd0a70dc; 0xbbabafc0d7f056a; 0x4e2878f77404ca4d; 0x599c7e6c9d7a38ce; 0x50adfb5cf49f8c9f; 0x27655aa73b1a0922; 0x38bf6bb50980eda7; 0x70c184ccc190f042; 0x33a4f11dcba08a24; 0x73ac23f536589ba7; 0x6055744b92946e1f; 0x54b1d0cac2876881; 0x19ae93bb1a50517b; 0x28ba45d5d84ad895; 0x6d91ea58662a532d; 0x75daba207342b5af; 0x682d135ddd2589fe; 0xefc3079272fe4a7; 0x21c86f284270c694; 0x7760d65f018dab7e; 0x362d60c168922a69; 0x74cf123098fd775e; 0x7c67d1d68717de2d; 0x369d9a691dd6bcce; 0x45d64cb5a410e989; 0x3c0723474e0a80df; 0xd58de9b9bb4cc56; 0x33e0bff136f27cb9; 0x10dc42899a81641; 0x6b46deb2bb3ec8ce; 0x5f9c5c7062503176; 0x28874e8b9a377745; 0x4fe1fa0f5348d03; 0x16574994b0cb265a; 0x102b93ae09f87ab7; 0x43ee8aa6ad42c42c; 0x2d5853f54c2821ab; 0x34c4df395d55f74c; 0x25ae917a3e57e7c5; 0x537821fe8e091fb7; 0x27a1d5a384e2a33f; 0x7d7b5bca2856dc81; 0x42c523d999908e88; 0x215a583892448537; 0x6d6d9b7d4a7d55d4; 0x2b60ce3302e884fe; 0x31269f216b64f6a6; 0x11c6f67267892742; 0x4f5b757598289a56; 0x4fca04614e877229; 0x70f2e8961317dc9c; 0x3e9e18d4da44ae15; 0x5b46019e063a0df7; 0x4939601f46f167d6; 0x1108d8];
   [0x30721150a3d895fa; 0x41d59588b7dc528d; 0x104d7431801a7c3d; 0x70c3782b5ba8527d; 0x3bb86f537b95303b; 0x48e635e1ecc519ad; 0x6cf911467316e9b; 0x46fc62706c283643; 0x600aa1987218a50d; 0x7ec8db8d0533827; 0x7ba0d4266ed795bd; 0x38140e5b297a4f2a; 0x116e9a89425bb452; 0x1ca3477fc223bfd; 0x24091239dab1e14; 0x65062ca88f646184; 0x2538c5092cd1d130; 0x71ec5914c786daa8; 0x5bb681f124bc4962; 0x23d5052cbba91408; 0xf9dc746a70ba543; 0x8bf2b9655bfb30d; 0x13531cf937b87999; 0x1ac6838e7c024dbd; 0x760152f69a5adb1; 0x4f7063be6cb3672b; 0x313ab1f5e6cb983e; 0x7c2d3fd4151ba7b4; 0x4dafff84663252a5; 0x5b678ee832e19c57; 0x4d7f27854da3966; 0x59263a39be3f7564; 0x7de56e6716c81be3; 0x43a22eb358464fef; 0x7ea6d9b1272d44a7; 0x6d7aedb884d5d3f6; 0x7c664e059e79b9af; 0x3511cb1e439ee5a3; 0x1b76e1bec0a4e775; 0x6641820bba586b17; 0x535163a5220d3355; 0x3da090b2d73bb062; 0x72bfd85aa9445d52; 0x2ec8009ec33a63f5; 0xcff8e0c16123a3a; 0x4521c7105d132ffd; 0x30f067ab52318df6; 0x1c2d6dd0444e49ed; 0x21d8a93d8e009236; 0x2093d4db8bc4897b; 0x7b6424a428aa23a1; 0x26f38084ac16e3ab; 0x3cb6c7fe63c04589; 0x59465f623f1bf7e0; 0x40307a11a18ae75c; 0x4a9cf1f462898c73; 0x2418618f51a5298c; 0x677390532d9de71; 0x548ee268503c857b; 0x36be9317516d9903; 0x4593f82d2362c237; 0x5450e3b156878444; 0x4581e5fd2b6adda3; 0x482cadd5f940b04b; 0x51572eef643ab1e0; 0x6c8e8696c7512a34; 0x2c2e5fedad4c2751; 0x5bd8b1df60759b84; 0x6ccdcd724aff436f; 0xb8122f5e56af10d; 0x32e9d49f608d817c; 0x6d109dd0c6dec8b7; 0x6bcfa12b317c24c2; 0x433e990ac89e6f52; 0x33e5b99e1592104; 0x512626a3715c5a19; 0x117f254f7d96b5c7; 0x13de824976087d11; 0x1dd3cc72db4d7099; 0x50f7f73ff2d03288; 0x5cae0977052379d6; 0x78536527a8ad1b1b; 0x5418412b6259580e; 0x4213ccceae6d5810; 0x108e95ee8dc49017; 0x76df1a2afa386d4a; 0x48b47f77855e5ed9; 0x2334d5399d7d2160; 0x574664af6b4c81c1; 0x1040cd740d6a43f0; 0x2818775b402d5999; 0x4391bcea0c8e5f1e; 0x4f2e4cdcd8ec91e2; 0x195da8b473a77f31; 0x409a69cba4b74f98; 0x443e4dfbb4b9e255; 0x5d160b31c02281f8; 0x2cea4499bf1654d1; 0x587110ffa7602396; 0x632454714bc82d72; 0xe4788bb5c0ee2c6; 0x548653a02e8f5e8b; 0x4b1b23068dd2c0bb; 0xc473317809f8578; 0x2bc458183d820691; 0x56694a79f8748ab5; 0x1b26365dbd5eae38; 0x3873d6023e58d4d7; 0x115862e27626b2b1; 0x498a5c796749e1bc; 0x4dfa723f8ff18c31; 0x540d6ab4a3c773c4; 0x389c5c96d22ae773; 0x196d6355a89bb723; 0x19826a367bd056f8; 0x689845238fb5c02a; 0x48ac07a5a5d757c9; 0xb753ae71285efe; 0x40faabf66bf38263; 0x6151e18b828d3df2; 0x3070506027fecf24; 0x2919077b0ec99f46; 0x3782cc35a633f027; 0x23d73c27968fa637; 0xa5360cd9af77a40; 0x64110807ed8ef428; 0x44774b8fdab56172; 0x1a343f5839ddeaf; 0x7c54de1132da0014; 0x23f58059dfa9b704; 0x2c4ed2e8c2c9aa29; 0x16fe17d978f9cebc; 0x7e50f7d07967a2ff; 0x5406d43e0da9de43; 0x45bd2b6fcfd1e308; 0x7a92d84f6002f86e; 0x656d3152296eec2d; 0x173e3b41363adac; 0x2f7cdfac8a574f6a; 0x7688a0f1ae603ed7; 0x34aa7a2079a16b5c; 0x6fe98ae27d6610a6; 0x5988b00870169d4e; 0x55971b92ab5352b0; 0x402e26a7684cce0c; 0x7b5b1274d29f379; 0x74175ad30d8adbe4; 0x18f8a6b95e821a43; 0x6b7ceacd27751723; 0x3eacd1d74eceadf1; 0x5cd696af45048ff8; 0x7e944cb0f10d5541; 0x25eb7243d4d9d86; 0xe5498b708360942; 0x2186c0d67b0f26da; 0x3d6ad9b160c8519c; 0x477b58e53c03f465; 0xef065b53009bfb1; 0x5452016dce0434f8; 0x77e15f76454d9ee1; 0x1263386ff1e31e63; 0x74b28da38a723dc; 0x1c7d596f84402a66; 0x1c32f622e8181b9c; 0x4bd4e793f774bbb3; 0x3e1127940cb529a4; 0x5924e38cea2a706f; 0x1b82cdd80043d28a; 0x1c2db654031cfeba; 0x81004fe21de2b73; 0x3894b63f808b1843; 0x1228c8aef8088c4f; 0x5f0af9ef971173b9; 0x757bf7ff57a32b83; 0x56078d314cd20143; 0x5d6706a9020ff10e; 0x6669d218a03d9435; 0x13885ec57c919881; 0x747888e9dcbc1661; 0x6392d21a6bf6b9f4; 0x6bb38dddab3e2157; 0x288917ab8e0ef227; 0x3a934b8295962a25; 0x27c341600291097b; 0x3cd4bded61cd9f3d; 0xa898b84382959f6; 0x3e3557d9137d4804; 0x4a408beea8f8ec2a; 0x18a6f5bf5dadb39a; 0x600dce693a531786; 0x407aa5000d26ce96; 0x77fb2a37ffbbe3fd; 0x6ad901999f225051; 0x6775fe3b3be09344; 0x45fc374813975f1c; 0x6acaaec7ea4958e1; 0x137a9faafd41e015; 0x6dae6af909b70da8; 0x4ffd4cf3304bb2f5; 0x4044b6392f1713e7; 0xfb95787bfe1d534; 0x4e8272bfe16918e2; 0x23dbf631d2b1ae26; 0x54902ee0032de4b0; 0x69aeac6359d1cadf; 0x1baba031d0e5fc; 0x665d015a04ad439a; 0x59a1ec415f034760; 0x58bb65bf33da185f; 0x17a3c086574bb8b2; 0x256cec3365bd04c9; 0xe55f9c4c66da899; 0x4fe9c28c7d6ebf1e; 0x345678b93efbf72b; 0x36ab707ba9a40ae6; 0x58c3f6577a7e79a4; 0x2ec7309e40f14796; 0x37e943f9f51273a; 0x7c12bdb0b5f00cdb; 0x72782632116380c5; 0x6dde51355340a642; 0x349c5d9e12661bed; 0xab081fc4e49a7ab; 0x239ea87e3e831f88; 0x51bb72e85f55907f; 0x7f42c2633930210a; 0x7a6ff97f89af0d5; 0x22d6f1388301f4b4; 0x483764cd46955d25; 0x6c838ab46f9e89cd; 0x5e948a3ada922f01; 0x66d7fa48005d9b66; 0x24fbfd366821d414; 0x16d9d938007c9d84; 0x677b2c1a108b9df1; 0x51768219417c6ac5; 0x98dea537a71d079; 0x5f9bbee781979775; 0x24068d3bc4f108f7; 0x604c6a400cd3222b; 0x4580afdcf8bd9791; 0x74b320edb5f6cabb; 0x3dd870ccf998831e; 0x79ead8e743b30d2c; 0x7a32caf20562e9bf; 0x2a2ac0fee8acf862; 0x61ae037aab61b594; 0x972f563e9a59a18; 0x14f4ce943ca6a122; 0x14df192ac2fa152c; 0x5c08de5273a26953; 0x2e55e275883eae9; 0x6012e029937600e1; 0x7f698bb2192fff65; 0x8d7ca87f1532288; 0x37ace0f7dc9430a8; 0x52b7ee7e1ef84eea; 0x15104590928ddf49; 0x22e60d7374869360; 0x6bde162e08d8d132; 0xe1fad81b9ced70c; 0x7fab5a727ec20c46; 0x2239ba843ccf27a0; 0x792a69571ad552b; 0x306fb8bb94f2f321; 0x31a40c27006a1d7c; 0x6dde7ea4b03d0b1e; 0x6747c19f0d8a4509; 0xc1c71e5973a75b0; 0x14afdc3aecaf2e22; 0x74cef852588dafb7; 0x59f29c602a59d40c; 0x54258746d39a99; 0x62f96eb530d940ed; 0x63227fd673989d55; 0x164255f20714bd0a; 0x38b49c84eb97254d; 0x2ee225f20f674e1c; 0x5a88b820b9203b4a; 0x585f924778e27f01; 0x7d8b90679647d02a; 0x5e4ecfc8f8cea5a3; 0x3302508fe1feb9b4; 0x52fad0248ee913aa; 0x20c1a9d277324abe; 0x7b109c4f252e6b81; 0x72f42ba5a16c110b; 0x2a98c7b662fb8bec; 0x7371fd086eb85906; 0x2b33248cff65176; 0x5dbb240c35ae8b4d; 0x5a28f437b1bf3b7; 0x687191a44d25f4e5; 0x33bd8904c6c5b70e; 0x455f4086c8ce0450; 0x49f382ccdca6693d; 0x34e91db8b1546846; 0x8fabc3546ceaacf; 0x60d7f86a0b986761; 0x76aa3ad8a74e2d79; 0x26303e10c5153a3d; 0x7d2ecebf7fb8a6b3; 0x5872d5edd09a3b2d; 0x4b0441d25a6ada42; 0x70cfe5c620188240; 0x211d4b7aed233adc; 0x1510a97f8d980621; 0x156139a54f152395; 0x25026f296697db8e; 0x50be26281eae8828; 0x2f5115e66e312be6; 0x230bb3f8365c663e; 0x457e71900c78c225; 0x73a5df062146ebea; 0x1b5be937490dbfe4; 0x67efb6ec96bfd23; 0x16331f148252f76b; 0xcd968];
   [0x7c397f62ac0214a; 0x291f83d2cfcaf906; 0x2c99ff1a8b283b4f; 0x631e9271b78f9c27; 0x59c2c85d8b94349b; 0x6ea32e010f158434; 0x5cf2b81efa237f76; 0x7d82f07e74aed30c; 0x77baf51a7ce35bc; 0x25746c28a5336c45; 0xd80be8a7f8c34d6; 0x7014bfb278a8a730; 0x5b3217b7f9d7a3ce; 0x1060c54962189e43; 0x60be9ef93d8dc062; 0x1c55745ee1df0d40; 0x6301ef2c1bdd08be; 0x42f145930d3b7875; 0x18b89b2cba5ae9dc; 0x5b270e24a5516ba6; 0x67b83bb0bb87655c; 0x6c4489c40914193e; 0x5b66aa5ab20f0de7; 0x1527bd4aae61a8eb; 0x7c205f5fc8034ca; 0x58d7e7cd210fd10c; 0x506a6bebe2cd1138; 0x2ec16c8130ed2d81; 0x135f967105aa1368; 0x5a328c4198c2c473; 0x42326fca05f5fdb9; 0x265262ba1eeb5c91; 0x6bdd563f9e8df39; 0x249f7af36337fde9; 0x418992661b96bfbe; 0x16621b79f1c47026; 0xcffe2dbcd3d5537; 0x64af62d1ed8a2b3e; 0xa8670c0d16c2e58; 0x6f63e08bf3f4dd26; 0x68d71be60cd00886; 0x7693acb33fd1c98a; 0x28b83ad62d278f21; 0x174ab508fa88ce2f; 0x5c4dc7cb1b3ccf56; 0x23419f5b61dc59d8; 0x6588b25909148792; 0x49b32a10ce62ce94; 0x1d3a5266bf8b251; 0x22110c96006582a5; 0x517fcfcc2f81a98f; 0x725f54a9fe2f50eb; 0x6b60f34136666efb; 0x2c71f470986b1e03; 0x4f21503641d07e7; 0x6656356c4db429f8; 0xd19ac0024f38702; 0x4978a18a68a791d7; 0x3bbdc4ea20e4421f; 0xbe1e99064cf9a48; 0x2368ee1eb38e4b51; 0x51094e735dc52fc0; 0x70abf9ceebbe730f; 0x5a43f0e6115ce8cd; 0x4cb04085e6b9860c; 0x56affc8b8769ab29; 0x409c9fc587aa3aa8; 0x5fb57abe8e5ed7de; 0x628d1a8df49ef9dc; 0x24fd87675eef152d; 0x4c9ca49420dec55e; 0x7260fed4da774e96; 0x795875b6d84f5f7f; 0x73afb31c3fe92897; 0x1b2689b5d70efe87; 0x550dcd4bdc5ffc9; 0x4a579e53dcb0c0e; 0x42a197f94cc289b0; 0x15d73f85c088bb06; 0x5badc619da218ff2; 0x4aa71ef48356c575; 0x7af5b5d3a4c46dd; 0x29c02407347a0d49; 0x7be35a575b02c03e; 0xdab145b65a85511; 0x6a31edd0471f9db4; 0x49e3a7e6390c799; 0x6f42a3f3e0b09a1c; 0x71aa2488fc70cb45; 0x3431e226747c4260; 0x213a5c8537eb4aca; 0x50ebca87e95796c8; 0x755006683f9f7146; 0x45eadc7ba191f0af; 0x4352023029236d97; 0x436adf5e2a0cff17; 0x63f53cdcff1bdc00; 0x25d7cb3552138500; 0x655f347c012e0f67; 0x665c16800874c548; 0x3678772a1626d7e2; 0x7bc22df1d2c72f06; 0x73d406670c91264f; 0x50c5a03b552d7d8a; 0x60691f3769ebc1db; 0x20b144c97a0e9393; 0xac9470d3c97d8d1; 0x7e25f71286b8f199; 0x29f44b5e19bc31bb; 0x2cf074fbf42b89d4; 0x6b32568c9d6ede72; 0x609000db2b46b642; 0x749316ceb9fe9214; 0x4c1886a522f447d7; 0x2bf689c774142b5; 0x4ccace274778c89f; 0xe521823e49338bc; 0x3627527331fd0185; 0x3757381e6758bc55; 0x7d3b341493b60c55; 0x6a53f27d173d22ee; 0x6765272f27dd98fe; 0x59ba91776981445d; 0xaac3a51b1e51cf7; 0x19d41f9787329a8a; 0x63397c46430cf1dd; 0x2375cd294e298729; 0x749319b345f34f6b; 0x37fc3a5eba3241dc; 0x470cfb96b254b0e4; 0x41c3663ea3f1977f; 0x917da2e7aae8b77; 0x3b20661ac4b5827; 0x3accc2b87420c148; 0x5e545819da4de489; 0x5a16b6600a96622f; 0x51404282be98d30c; 0x2f215237e4bf48e5; 0x3229872c1e2036b9; 0x11deeea89d786662; 0x5f60cfed1581b8c8; 0x110a02dc4c4933ec; 0x5a7282262f24d023; 0x5bac93e90713c54b; 0x32a00111c14669d2; 0x1b0d21ebd12f7ec9; 0x3e0e83ed85879c21; 0x19e69784b27b6e4d; 0x36386de9901c1d32; 0x4a1ddfe825ae346; 0x7a6868e4a01392bc; 0x1aa877d90d5b0ac6; 0x29973279ca1cf29a; 0xd47a60b103390d1; 0x18da72dd123830d3; 0xf7316142a640285; 0x74ac7816d01251a0; 0x516af0879520af07; 0x16919dad2b53c3c2; 0x14c1edd3badf2b14; 0x68e878a148acae21; 0x62d4f6604ec0a7bb; 0x5c5e2ed8b80be557; 0xb944d1882f1f542; 0x30643eb70ae7f525; 0x21efb06b7ec5fbc0; 0x3d8d065f2c709d14; 0x32598a3da20253b9; 0x20befa9a23fd5248; 0x7864583f67d4b436; 0x70ac2a7eb017ca91; 0x758280823fe3e080; 0x16954f99e8e9d80f; 0x21b87a11ac7c801f; 0x18a58aa9027b46a0; 0x373758723dfe8f88; 0x91650ccb9e0743b; 0x312e4d15de6f765; 0x2454e2333e14ce74; 0x6679b06b5416ab4c; 0x6d97df81bfbb64e8; 0x1324fb51cd0b1ea6; 0x4b7199373a53799f; 0xeeff9c2673527d4; 0x65eab7c159611674; 0x6ac42f1ec158a9c7; 0x6adc52b9db74fc1a; 0x376ede22f579992d; 0x1795b3704f9eb097; 0x28968aeb9cba87f3; 0x76bc9ff5edb48f94; 0x5f4237a0b3e9146b; 0x7985b24bb57a7856; 0x34c0be54cbbe2e69; 0x28d31c7fe07a462a; 0x616b5166d7cf999f; 0x5b4bdeae24cb641f; 0x19e654b7807c5884; 0x2bfa0c9522fb463b; 0x4aed9fdd6983f78a; 0x7868509d66de8fe1; 0x3257fb0f2236ea1; 0x1ae19b3f566ba603; 0xacb7d76f99c7591; 0x5a6c699dcaa016f3; 0x49154dde0b049472; 0x67d4a5a4d6a372bb; 0x7bce6bd2d3aad06f; 0xb6a6852dcb993d8; 0x490b40caaee47f2f; 0x61fa345da744faf4; 0x2eff107259d35536; 0x36fa5af5e2eb47c7; 0x2a993fcc53ae9d44; 0x44fd3cd63235b343; 0x181f2e0dda6a8e44; 0x706d89ba73e6e844; 0x7de1b5acf83fdce4; 0x613e3abab1a347e0; 0x230a27cc42c593e3; 0xfff39be47729141; 0x5e6d1501a300b4c9; 0x67780cd589d4441c; 0x29dfa9fca1b3eeb1; 0x4bde11ed9029b34; 0x2b5b85a1aa505d0d; 0x5c311e3ec677634f; 0x48edb846d974e48c; 0x4eb5aec5619fd613; 0x3735d9dc5de989cc; 0x5b972361ca0ab4a1; 0x65abb642a000119e; 0x5f12ffe726a1d567; 0x525e2507b649b5ca; 0x1e6addede558198a; 0x7ec45f0602ed3334; 0x4b97228ceb278268; 0x48a9eaf9bf092083; 0x426b14d3eceb58fd; 0xf4b939e4e5f1a44; 0x65cf70f482180b36; 0x7bb435bdbdde7881; 0x7e6c0cdfe8fc0da6; 0x4d8762fd833a099b; 0x373aaa0a645e516; 0x60fdab92c69d104c; 0x52d68f51cb3b8572; 0x2d44f05ac4e91997; 0x3858554a54e743; 0x281522d75fceffd7; 0x5aa89051bba7e718; 0x2e1e760e37a2ca32; 0x3251614913b9eaab; 0x2b82fde048ea9324; 0x2e34b1c0c9cb3fe5; 0x7ca7c3f8827ce1b7; 0x66ee3df2b4c9d3ec; 0x60b77666668b5d53; 0x5f3bbc87835e6ff6; 0x5e8b6918cba13ee3; 0x34548e28329268c0; 0x4e7b42a66c62d5b3; 0x607c3bf8b9b6e04e; 0x524d3611de40d4f6; 0x167ba4997687160f; 0x344e79c9288b152c; 0x2a6464d75e36e391; 0x5e7b8dc0b3ea40fe; 0x2a7cd589320f1e0e; 0x6836bea1948d43a4; 0x212e4406a5766fc8; 0x3c687ef04d99185a; 0x752fa1a2bb6e8dbf; 0xa28befbc100f711; 0x542198405096b7e9; 0x45623c06d270e582; 0x2d37ba2b0beb8413; 0x394727007e46b145; 0x2e0ba9939de402d; 0x2bffe7dff40e7bac; 0x768bfb772e69b867; 0x778ed7a3b6ea1901; 0x187992cc2aee7de5; 0x4746511be4333c51; 0x213fc909d0bd12a7; 0x5f20d991bbf3a919; 0x658b38b18966792b; 0xab214e9962d4942; 0x2c5e1e4d15c1bdc2; 0x10b5f7dc4a516757; 0x19cd570f267d5cde; 0x14fd9f76253cd2c0; 0xa449beda0b13187; 0x7664965689d2ccc3; 0x75e9f0d67298ebb5; 0x42bea4240b20c428; 0x2196bf5163aea196; 0x5ca4d67c76cdfc41; 0x79283413627be037; 0x2d5fc5a570bb1f67; 0x2cb86662a6a74b29; 0x7d6c87b58121a531; 0x715e83de0cbee0b3; 0x7c9106fb0a9f578e; 0x61a6eb04e1253e18; 0x2f35df7432509f69; 0x227d32e3d6e01952; 0x381a5a119a811864; 0x54f6700b3c7bfb21; 0x72544b7c09173c30; 0x3587f9a3558b6952; 0xe72f17558159b66; 0x72f884007b7b4316; 0x36e6bab557658567; 0x7d359044f7582bc6; 0x72ca2b10bdb86e07; 0x11d0bbe1859730f4; 0x3a0f42];
   [0x592e95a131c2c304; 0x1b76959b81b979b; 0x34ba50a05ffb0af6; 0x6775aa04a0976d82; 0x18c80c862aaa5cc5; 0x3d028e83fc735eba; 0x4980ca8a8540de4c; 0x272fdca3db72ea46; 0x2cc44369d7aa2211; 0x913142ad5ddb233; 0x241ec3eaeadc802e; 0x12dffc37bd09ebeb; 0x226af314587cde8a; 0x61433c646a04276c; 0x38064a81f684e853; 0x17867c97694bd88f; 0x7044bc7afd9202e; 0x3feb8f3ae20b98f5; 0x6899b40e97856be7; 0x77044dfb636586a0; 0x40261f6c6f9fe48b; 0x1334371c79fa19c0; 0x435b964341ec9c9b; 0x3a8116668150efa; 0xdc55dd635c728c0; 0x3fb21db2ecff82a2; 0x75c564d8d5dce929; 0x7d2f62a8bc8110ba; 0xf2ad8e7b6d86bfe; 0x578bf75623f5b513; 0xb79c89ae44b3f93; 0x346962192fc7e87f; 0x5a78ed18aac12f9b; 0x55a445b0827f29fc; 0x6abdb861c5efe45b; 0x201e6d6757f6187c; 0x78b79d0819f9d311; 0x75ca63161f7d6117; 0x223113d3c3d2b493; 0xb09fdccc057c149; 0x1dfd9b1111faf075; 0xd2da6e20604cd1f; 0x7933e5a8b1c93fc8; 0x4057b6752724db02; 0x4af2b40354dd0abf; 0x5ebf87d7ccd27c82; 0x5eec0ac6cdc7b2cf; 0x69edd9c855c39080; 0x301bdfed3b02aa46; 0x3355db0ecdf67c3f; 0x357c9ede22171874; 0x37f8ad653008a95d; 0x2147236b6b7f7546; 0x4edf221c79806e92; 0x465ae5015b26917c; 0x5fad9623b689a428; 0x774acb9603c4e5e2; 0x59088c5de4802c20; 0x391b5afa208a4a1e; 0x626dcfdf2e2b0584; 0x5a667f5d24b0a917; 0x71f9e82d82ab7248; 0x246cb2f5be19d95b; 0x5e625af41fce4d38; 0x77fe5906098b2c11; 0x621fff4e1c53e992; 0x4491044fbe24d76a; 0xf56e03add17b267; 0x17e81e1eee4ff832; 0xa472cc43bfe2d8e; 0x3a44e7d550d5b5c2; 0x35c11e6702ccc816; 0x2bd9dd8385b08dad; 0x738479d5fd6c35b2; 0x66a1a7d0474ffa6c; 0x7eb129837e91ad0d; 0x6a65c21c8650b40f; 0x315ee7fcf78cb81c; 0x5561ba814d03090a; 0x7b7e699e460c6f79; 0x978c72ce2bbab93; 0x56594ca5fad48c12; 0x3dfeca503dbd216f; 0x16bbb535ff062468; 0x230f875f5f38751; 0x1e3e6253a52408f8; 0x1551ab2357db1a97; 0xf0982950635cfe; 0x7d97926a20721ad8; 0x1be4bb49fe6e6c27; 0x56abca7877466a64; 0x5892d798a306eb83; 0x2c20af2da565efac; 0x101700bc63aeb8c1; 0x35e9905a80a46183; 0x4d20041ba0d449ef; 0x2dc147b9cc15c2b3; 0x609740a68d1dca0c; 0x6fb8e4c5209cf3b6; 0x74ba2cc3ae00b156; 0x721e537af3c354c5; 0x7ea12359f8b0ef98; 0x2623f7bebcd5e471; 0x43e04c207dda4240; 0x497340aab57d3101; 0x2cf4bfe72796627d; 0x62cc7fc8c7e2cebc; 0x77eed17ec4e87096; 0x36b3703f700cba4f; 0xf13b16ac6a528a7; 0x4badc2cbfff60650; 0x8f1cb830e81f285; 0x62ab63f34b1bded3; 0x4214ebf86a6c68e1; 0x5bf7a314e001c0fc; 0x672d1db74f205ee7; 0x62751a7eb1a1ca05; 0x47a47b0e10351880; 0x768cd6c1ea97be0a; 0x754df278ecebcedb; 0x42dd4d870b10d672; 0x7a295dd66b184222; 0x2d5cbd0781ac92c6; 0x4d5d16ee85305529; 0x289a68f23ca9fec7; 0x51a8c279f13ab038; 0x133fd613480912fd; 0x4828c1ff1203ef9d; 0x7b9ace411f8f270a; 0x152394ca12dd3471; 0x10a5017c5fcf7501; 0x3c77721944bbe324; 0x36d09835c10c5d23; 0x2dc3f1e6ff14b7b1; 0x44fac75746a6aae8; 0x3b32fdaf1be20dc3; 0x1e1f773fbb40c2be; 0x41e09e9ad790607d; 0x4a9a952f74bbb398; 0x3e2f9ece5914e086; 0x50ac89fa59718256; 0x2f80253bce93684; 0x1b3cdc54a72e5517; 0x15cf630eccd97949; 0x49fd32f3e8d69087; 0xf88af7defbf98f1; 0xb350e38c0ad0cba; 0x711b98ede7f49b23; 0x3b59e4b860861560; 0x550d6ec2ac52dd3c; 0x7948efa9fb2b8976; 0x246c176d23198036; 0x467c240588eb108; 0x2e18d1c49c67e9a2; 0x672e8106573be488; 0x224be51234aac246; 0x2b41974b9997b820; 0x16ecc3e7d45ee870; 0x6d4d3854c6e17408; 0x3be74d7c061e6aa4; 0x12f163851e55798a; 0x6cb7784ce7e9dd63; 0x71687e72e20ff7cc; 0x793e96fd79b8ce94; 0x735e35d671d91f2e; 0x4f2ca75adb93c24; 0x66dd96f491706c60; 0x378454aee444152f; 0x7ed6d45d46b28c1; 0x474fd4ec6360489f; 0x4587c2ac180bb75a; 0x75babdee025f4b3f; 0x721bda8ad3efb6a6; 0x654c778d8a867592; 0x17913beeebf5b60a; 0x3c8f08e02410297f; 0x13d89dc46a12998f; 0x3db5b125e83beed0; 0x2eaea1bb1c2b9cd5; 0x6bff5d92d0e08d57; 0x4fa2baaee77ec3ab; 0x487a1c571f7017af; 0x50806db70fe4317d; 0x595c2a9df5e05d8; 0x7292fef0b2578d1a; 0x621c53fb47b12a46; 0x69e9472324ebdefd; 0x4cd5d1b68a046a73; 0xd1b7df9d0f79978; 0x2c4d9846e05e12f7; 0x7fcfdb8e1283f379; 0x9a308da4d9d8536; 0xeef06c9bd2514e4; 0x5ae28e44bf48f287; 0x3f324fde874062f9; 0x20247bebb4f6e9c6; 0x4f52430867f7e51c; 0x32f9555e621d5fd1; 0x638d9d8696252837; 0x3c44ca4c3c48882e; 0x1e71c2a15c38a577; 0x395dfcb5e97e5924; 0xcccc7a8f439c9fe; 0x5156832c914f5f69; 0x51dfaf5cc1ddb2eb; 0x4f3e8119de106883; 0x689e3e4e8b56f657; 0x62176991a31df6e5; 0x6764d1549ba42cc2; 0x2fff7e1d472db5ed; 0x6309347616f7fb34; 0x4c7ecd8b50d48ed3; 0x72101a1498dc5d09; 0x4605a9210db2faa6; 0xcd7d252cef9b98b; 0x2bcacbdf16de5595; 0xf37241b9c6bedd2; 0x7e8772521c63629e; 0x5686cbfe533e5f43; 0x365c99ff78635e7c; 0x243dd9bf7a8f7524; 0x275923e6fa71af95; 0x3c84399215d72cc6; 0x5bc90516da424fae; 0x6886d8d2cb85daca; 0x2ab9d28a875172ba; 0x42e9650f34e32fca; 0x193878bb768feba9; 0x84b11c8a1358702; 0x2b5a9c0d42ffbc01; 0x278002ae81f2ed73; 0x2db940489fb86c43; 0x7e2abffd25ba619e; 0x3879ee8113307ec; 0x5a353600be411a93; 0x46a94b01ae72ec32; 0x2aec0b881fa1d9f4; 0x641484b83c2ffad6; 0x7262a1348de274c1; 0x3789bbbf2b9b6887; 0x1dd6f307b0c0966f; 0x15358f2dd9e0f8a; 0x3b9a87bbb206c723; 0x72c0eb2898207571; 0x5eae6b2d13bdc0f; 0x69e043a003437ac6; 0x32ecdb9a5643453c; 0x6104f896243201b; 0x2fb81499ca6b1b63; 0x5dbf2660d4167aef; 0x93001fcf2e1c2a1; 0x5c7926580b478513; 0x113c096b09f5ffef; 0x192320953a6ee3b0; 0x289e54d20386185b; 0x7ed95086ade2b4ab; 0x12648d110089e6d4; 0x2e1ee7b50d658f4f; 0x6af3149fdc5f9139; 0x46bc7efd144ad6b3; 0x3a0143ebee832814; 0x49dbfc6592c38829; 0xe7bb49e2e1d0ca3; 0x75108d7b16001549; 0x684547d74dc2118f; 0x68e48b19f72bdef3; 0x5c6d24015f48e77f; 0x7387992d823ddd3f; 0x409ac452771247a0; 0x5b9584018775f247; 0x12168c56f27a4179; 0x72d0cf47df42aa6b; 0x74f47fdb92387e3a; 0x5b17d95d3b70870; 0x790d120e3e341f6f; 0x187a8d86d142cf2d; 0x1eb6401e7a4bae98; 0x4ce9965c314b161b; 0x2886c0e67e9a410e; 0xe81ec18bc7f42ed; 0x220f994b01ec1fbb; 0x405a5b85fc850c9e; 0x18dedfe92e7016a4; 0x5ddea756779fd2c7; 0x5647f645b566ae1; 0xb1910ef545dcea4; 0x2a69c973b5449c04; 0x69827bec3d1810dd; 0x2d91b9a6d6c7a538; 0x35f3abe0fcae81; 0x59ec5da71719f368; 0x2c4941930f015dcb; 0x128da404d282666; 0x4b081d794b141cc5; 0x1332ea913ca348e9; 0x4ca135925051696d; 0x4f0e76babf4aaf52; 0x36c5e0dda5503b2f; 0xffb2b8daa0a50a5; 0x3f8deb56529fda12; 0x1e80c5f5998a96b4; 0x3e7a9e68e300eb1a; 0x10669b2a72528f4e; 0x5736e3c16a23ef5d; 0x303aaa82bbac67b4; 0x2e209cf2867b183f; 0x67d73a63da3c19a4; 0x4aaf259adc4c2892; 0x68fb901b8d37ccc; 0x5d7895c464b4aef4; 0x1f164f87fb9be457; 0x626f3cf0325e13c7; 0x5a062053eb46907b; 0x492b4b9b9a72a944; 0x3f4421415db50a89; 0x41286f596342091; 0x655893ee6beda07c; 0xff016];
   [0x19190a9d8bd8527b; 0x3b4267aab2f83851; 0x3adfd850e8f4623; 0x3edea1321035af38; 0x4ad3cce75b0252f1; 0x7502c33262ea1ed2; 0x8e291195bfd176e; 0x589599f87e6a37; 0x68b8af4155c7f8a0; 0xfa3b3060c305d7e; 0x26da7aa90abe328e; 0x661445267824bba0; 0x526c5a67942313e6; 0x4ad9862d814ff11d; 0x449952c9c549d1b7; 0x527338dbbc546ed0; 0x5c1dfd7e210a44f; 0x2147152453f36083; 0xc09809469eb64df; 0x4bed1b9c8d678765; 0x30bf59926f503751; 0x3a5e77092d6995f0; 0x114cabbd5d862130; 0x26ae9d4287ff5f2b; 0x6ba8580d33eeee23; 0x2bf381af18a8185c; 0xa535492a24f408b; 0x31a36f1af7766dd5; 0x54a04977d33994a0; 0x4fa72d1442677332; 0x772cc9e733675260; 0x16398447648442c9; 0x6f46274ad9275484; 0x18b60a12535ff7bb; 0x2eb58e176770da37; 0xdb522c6527c3829; 0x1d722e80c3e92285; 0x60b56d3995be57f; 0x77d635521f94e31b; 0x7fb173a5035671de; 0x1bf989572b06d24d; 0x3e83888d1814c76c; 0x477df1696accd18b; 0x212bf13036d388b4; 0x444f137873aa1c83; 0x6dc698156fc15f4f; 0xcc3bed06de66efa; 0x1a208641c2652547; 0xb26d95bb2bd9131; 0x5822595afa04edc3; 0x2b360c0b43b85ab7; 0x7c9aaca6e7ca157a; 0xd41c682cb5aba4f; 0x208a0d4940ac0c91; 0x510094cadc6cb184; 0x3f16c7aa040f4a1d; 0x3e1a454c588c685e; 0x3e662e66b309984e; 0x56bc1b415f3e1edb; 0x3435046d1fd553f; 0x1ea63879697a51e6; 0x6ebaeaf9bd75da70; 0x322f81f9186569f; 0xb30fbf8eee24a77; 0x7ab9ef4d87b2a4a6; 0x29c6ae58583a7ca5; 0x7c4171e3e0dc612e; 0x3c2309beb72bdf64; 0x60caa5c85da0b886; 0x42fecc76bf1d2b03; 0x7c9fcb0215f51fff; 0x1115cd5bddc9f9c8; 0x5c7c22906457e146; 0x469baca3af73d81f; 0x217144195fdd6a; 0x43311dbafaa07e79; 0x716094f6526dc0dc; 0x1bf5ca7b7d547a2c; 0x14e48524e1db305a; 0x17ce5f1202bd3476; 0x361f31a6ce327b73; 0x4fb7d2f3ba30db3; 0x18e5b66cbe0af42e; 0x187cc23b30e5c9da; 0x8293a678186a138; 0x5e9400ebddedda98; 0x1a9b59b496e3956; 0x204e9902b1d15aeb; 0x541d07db07a26e1c; 0x5cfebad4b23f27fb; 0x1f023a1a66376554; 0x7f7ba671c97bac5a; 0xbca1a4891d4a77d; 0x7b7bf4260eee9fed; 0x7f59b9884a77f1e4; 0x4ede05d67dbea968; 0x5c3ca14d430e2c33; 0x32412f24c3f129d3; 0x72cd0a5feb9d7210; 0x5e334c958d1d780c; 0xe819b894e5691c7; 0x5617c9fb8f6611ff; 0x33793bc16fac370f; 0x258b008357bf4efc; 0x7498ec4648556f36; 0x6d13ff31789bd27; 0x24487596b9c6df58; 0x28d4e0fc25c52bff; 0x141b6da8fc262383; 0x4ebfd056f1274215; 0xfa20b524810b99f; 0x238dfbbb61bab0e4; 0x7e50f4a8b6ba7d3; 0x791ee56b27c819f8; 0x53c29fceb66676c8; 0xc8427a18bfc095a; 0x78d4079c231c8ad; 0x54fd457ce8a4f282; 0x641af7fb301089d2; 0x6a528727e82889c; 0x5f34e84edbf39550; 0x22b9babdeb633e6f; 0x3464b7820264bf51; 0x27b8cfcea851c9c1; 0x75d135ac33b55431; 0x74e4507a57bf767c; 0x4f1b7e71e5f9ef41; 0x64680d43fffd85b3; 0x41d8d09f98303431; 0x1eb912b522879285; 0x26e461bd7aa40d80; 0x788549d7502ce901; 0x3460e5783ce9aaf7; 0x7b078a9ef76b11ab; 0x16619357f5606f7f; 0x6ff9bb9fd1662734; 0x410e61e6e9e8a3c3; 0x18da231960e9416f; 0x748d8283cdf4b677; 0x65567bc84f535582; 0x2cc5bc3847ad6cbe; 0x7fa33d8dcf3d353c; 0x646d218b0b734cda; 0x4ed048db37424bb8; 0x478cc20abc692137; 0x43a1dacb4083bcf5; 0x59bc84c21940617; 0x3c260fbf387e4f80; 0x2ea6f60b0fb03c0b; 0xb54015a643cc696; 0x36f5eee2a21643bd; 0x3b3b13045b1a5617; 0x57295b14bf645733; 0x5387bcd244981dc0; 0x5b33e0555d750ad; 0x3c7a5385a7c5aeee; 0x1435db313660f555; 0x30567794acf08aba; 0x661246f40057e114; 0x5dc91c5c85439110; 0x21e06ff30ab758c4; 0x678b646c5dfa68ae; 0x4b6b719485f2ace7; 0x59c5d4cc7085b939; 0x3968fc1bf6f45751; 0x32efb1c3e349cf91; 0x7e9fd8e33cbeffe9; 0x58330077f2d3f10f; 0x4f810cc4b6a93381; 0x190038c8ffdfee80; 0x1a86cb684c2e184b; 0x5b2e20c304c06522; 0x2cafff81fcc4ee82; 0x27d38e7bbfd92c16; 0x5d1e54d58c5e8cbb; 0x1d8c3bc808baa962; 0x53dd4c105311ef1f; 0x3fc6cafe5823ecbc; 0x23b52fdf4d4105b7; 0x6b8c4baf74eb483d; 0x635dc3721da2c6c9; 0x2c32cbfbd1f209ec; 0x7af4388bfaa4062; 0x73df6acb1a84211c; 0x4d987f5771d33677; 0x7d4edcac935e32d2; 0x52efb76f4d608f7a; 0x4d0535081cea55b6; 0x77f3a9b7a151edd4; 0x2c46539fe4b42939; 0x2725ad5b2abd6927; 0x6173f745fc573b32; 0x6e98bf0cba71779e; 0x54cffa50dde4b563; 0x27870a4c8114d78d; 0x364f1fbaef28e648; 0x2bbea5a0ec005bc6; 0x58dfb1178107c960; 0x5c42c87f110d1b66; 0x7d6b68e2b10e54ac; 0x7e96c51a78f45246; 0x4af402669424c78f; 0xe703a8dbfe6cb; 0x70851ba436af38b3; 0xe7970f2214af662; 0x9684c629f774d4a; 0x981df4bee1e3690; 0x18511036ab649555; 0x665a12236bda6e9e; 0x6289810b808444e3; 0x79be34eb3ae76826; 0x79e8be417fe58843; 0x61908ad3a1e4cd8e; 0x196b4c80c1437eda; 0x1c8a95ca5a2105a8; 0x6c97057a0db59186; 0x6549b2a8e38d3f37; 0x172196e9d7c6cba7; 0x7570553ab9828bc2; 0x6146359228f68d6e; 0x1cdbf43476b1b4f1; 0x231bd3f0327e67e0; 0x4f3712dc0c65fb04; 0x28d0b67f5f52c626; 0x52ec230024faa711; 0x75a5b7d7537c4047; 0x6a4a29ca839e98d1; 0x6bda5304eee45477; 0x56bb59ffb41f9210; 0xab4f5c5e3f8eb34; 0x35536ef549a9af4e; 0x27ff239277e5c210; 0x374b4697dd4810fb; 0x7ef14d27808dfa31; 0x2b23d7e99fc524ad; 0x4bf92baa69979910; 0x4da4e8b363df560a; 0x19a08154a1c55b75; 0x5eeaae0a344385ed; 0x8fbb980f9728a37; 0x631079c00ab99967; 0x538cb6343c40eb73; 0x6ba5acab7627e4e8; 0x503a72e1b139bf63; 0x1f2a9b2094f51ec3; 0x73a34d9373945221; 0x3d70a6c5681ed07b; 0x72181977e43ce0a5; 0x6722e393a0e30b3e; 0x30a454510eb5854c; 0x69ba685adf074536; 0x78e8eca9df975862; 0x1408d1ccd8d22163; 0x609b3bc9001bc3df; 0x4c56721ac9473d43; 0x4002e9e31888880c; 0x29f21a0791b16ad5; 0x4071577d2f3cb57b; 0x6a2c512516f2625; 0x2e7e584502c730af; 0xee635b6d2c37de5; 0x61875166b4694091; 0x3d7b2b2eb5dc55; 0x440291aa2931b46e; 0x366b3e668acaefd0; 0x31064c258aa19d29; 0x3e851172ac2804ed; 0x4e28aed2490bc8be; 0x5bdbd0af43175439; 0x77b8051233a71766; 0x65820ce620dcb227; 0x4b9b2fee34e9b900; 0x187bd9a992eff61a; 0x5fad2928ebca9efe; 0x27d922b0f0236754; 0x2162873b87f1c0c2; 0x17fdd876411dd3ff; 0x1f74413dc478ba7a; 0x2a91c4055dd43b79; 0x43d43aae63125068; 0x48fde68e743c8eda; 0x79533e3497ea279f; 0x4f48c7b75c2c1ca5; 0x107c4f80373cf658; 0x34d9a8db89fc1283; 0x75cf22296b8a1a6c; 0x6f30a5ed7784b4d8; 0x1db8f4210335c890; 0x109c1618836df44; 0x75f90a2e5e235090; 0x4cbfa2236b5dba29; 0x56cbc15539da9412; 0x2d1d89cd190dbd8e; 0x7aab7bc16ce2e659; 0x33614995b080efd4; 0x64c277d6eddc2efa; 0x124471e18e3fef1d; 0x5f5b60490886bfc3; 0x2ffb42e9325a2c88; 0x32feaeb4796a5060; 0x4991844b270f06f8; 0xc7908f1e4cd578c; 0x7eedb6107856e112; 0x42634eedd18ba5e4; 0x5d307bf53ce89e75; 0x782b0ddee088559f; 0x74bcefcbe6999b5c; 0x1be37d67043cb01c; 0xcd627c88c0b137a; 0x20d8531513af876; 0x6c241812ad05f775; 0x41ed88eb0d6d897b; 0x24d9362cfa1c6f1d; 0x4d810ee926ca3ffb; 0x6d7c34fd0fc0c4af; 0x7dc61587ce6bceca; 0x137c9a7e70331096; 0x1622a7];
   [0x7c21ed1686a0ba8a; 0x2846df7867e3f13e; 0x7aef7f542e27753f; 0x746a0f897388755; 0x8a27fc134fd84ae; 0x37926caf28865027; 0x78ea2594bb566fb5; 0x70dba6383b4f57e6; 0x3b81effa330ef174; 0x23ca3e4ce2536c4c; 0x68af4da11a52d2cd; 0x571b2d335277e61d; 0x63ffe535a24864b5; 0x3ba38073c6ebe762; 0xe7320ba280c47bc; 0x4968d1380ef382e9; 0x7d47f8f35d3874aa; 0x7a5e539c635c2f1f; 0x3b45130796273d3f; 0x605e7ac5982187ec; 0x78dc21ba3b4d5eab; 0x554c25b36d8871eb; 0x78ba89eaeefc3070; 0x2859a8a15ab91de8; 0x5577b40c1c69d5b1; 0x6e784fdf96c642f3; 0x141a71df2ea401dd; 0x1cd5883a3c5630d4; 0x6490e2e1bde8330c; 0x7dfdbbc153b8a3c9; 0x2b2952beddba4b3b; 0x1071b06492606fb; 0x3b4289afa8c36145; 0x2885e93ed483b9ed; 0x38c4e465ad38e538; 0x1a1f91144e1f3c02; 0x1b5fb1c09facc18e; 0x3cb65f04ea31494f; 0x45345b47c430d866; 0x572247a2c78b2cc8; 0x475b95aa41ad7e6d; 0x49822301326cb028; 0x72c57e429fbd1eef; 0x6b95bf0e1622f822; 0x45156dfec4e3ebf2; 0x226da09c7393d798; 0x277785d9eac3216c; 0x31bc9ed391597fc3; 0x7af5b913c7dd28f7; 0x48f18b429c127cd2; 0x642a605b54670f0; 0x191b5c5c61cc5dd6; 0x22f70c171ba300e3; 0x2a317406396b41f9; 0xd66321aa56abb1a; 0x7fdff6c265cddfa8; 0x66943d61ee7e2669; 0x692065fbddc3dfbb; 0xe81bc3e1858ecd9; 0x7071132fa9928627; 0x2ae65be54b708735; 0x67d3cc2168db16b0; 0x7af22c2b8d7af9c9; 0x63ef285619e3ebae; 0x64eb547c5049cf03; 0x33b1e2adce3fa899; 0x7c298905f253a55c; 0x4ed4ba68248c202a; 0x47f5e8d815288bef; 0x1e1d6ed76e3a6903; 0x4a5a73d4836242d3; 0x65c3196097c9f9b9; 0x306fcb1fc052cdfc; 0x21641d2820d37fcb; 0x5530728c5288794b; 0x1c3d31aa0441e303; 0x3e0dc1e7f7f61609; 0x6933d405a8a7bbe; 0x3bebc6eb36547c21; 0x6f4c04297f48a3a9; 0x5d46cb87caf71c96; 0x6d9606144fe5536e; 0x70c072788e76d53a; 0x317137ef66bf0601; 0x70d1f16840ffb8a7; 0x7139d6ad5e39bd87; 0x4a1031b2cd327e5e; 0x7ad5c7893b7a4a73; 0x636f28b81fddca09; 0x62720ac02700ce04; 0x373c711ec5c5957a; 0x7b0ff01dd0a69a31; 0x7d518af788b0b2df; 0x35608e27c3703de7; 0xa107c263440b0e; 0x82b2bdcdd5979f0; 0x140b2aa590efb408; 0x5f886a66e0096390; 0x2dade8e03f4f8649; 0x11215e5e4ca951f5; 0x22ce42ff41334d8; 0x191db5343e0018bb; 0x1aa7f6ca4f8095a6; 0x49d3e734f2d1d2bb; 0x4ed2e2596d0be897; 0x56458255f92717bc; 0x41de4e64126fe53f; 0x739aa0336d6c0cb; 0x2a218327397f5dcd; 0x4e2fa52565a5e38a; 0x3ac14606bfb3d4a1; 0x63e90b138309b7e5; 0x61301612c7703465; 0x60942f39d6c98d85; 0x464f927abf23238b; 0x49aab1fe096248c0; 0x612423ae618f6c3; 0x6019d07535be0c3f; 0x53acc271204be492; 0x1571a60b10e1521d; 0x19866051cac23c88; 0x2ca6071bf847897b; 0x2ff118512bfb44fd; 0x60a177b86c21c01f; 0x78d1b525420019c6; 0xab27e22cf65808b; 0x541cbb92fc3084c8; 0x5e0569c3a8dbeac2; 0x4c31cb3a09f12758; 0x50cd008da4aa60ab; 0x1f37c14b6eeb0ded; 0x247f10b6e578f789; 0x23c1d224f48bce5d; 0xa4ecab438fe3956; 0x80d0ebd4c8c51dd; 0x7c0abb94dc700dc3; 0x48c30ce1e901c0b8; 0x1207f4ea9461293d; 0x2fc7775b8271c539; 0xe08ade45ced4336; 0x242abd7925aabdd8; 0x6a67d7f9d2fec2de; 0x556822277a7d2c6; 0xc0efb0f629eada5; 0x50b1c35578788f67; 0x1814b6b3b7960371; 0x73c63bb039cb0dca; 0x5e942a596bb4aa8d; 0x7675dc2df2a2955b; 0x5982e8e6ae589b1a; 0x64acd4246a4aefbc; 0x4359f2e8509cdadf; 0x356864322c4c67e; 0x1a5ddb1915ec7e2e; 0x3163e0d7674d56fe; 0x4ed0c2c30a8b2dc2; 0x3514646fbf893cb5; 0x16a3591f278ca1d9; 0x2e6637360a9d2edb; 0x62a10d72d1759e59; 0x5130da79380b466e; 0x4c4f0a452264749; 0x601568d96891dc91; 0x41077bd3c7fce4cc; 0xaff8b499f74f7c5; 0x54d37bbddf815df0; 0x4da3aadd7b233f9a; 0x3b9dbe866fff9859; 0x5c79155f0b20f4b7; 0x69af14f9837c52e2; 0x6752793781b48f9d; 0x4647446d4ea7f1b8; 0x56f6b2825fa07c0f; 0x761f63e2709cd69b; 0x26966cee3e3168e7; 0x64da64bbbd88f092; 0x130fe8a7a395b742; 0x72dbfb52523e3d8a; 0x4540d3cfc47f9c34; 0x24a66c622168a82f; 0x2dec73937aa562c4; 0x5b05b4f95a6ed9e7; 0x37ae8ee0eca990d3; 0x3ee3791fbca1624a; 0x592d265d9d5c256f; 0x2578799609b02128; 0xb232071ef8ac532; 0x55e243d85013ddd9; 0x4f2981501b7e162d; 0x5eab8f5c6e761168; 0x1e0d4922ff545c74; 0x2d893631408dcf1a; 0x6e5fd3b390a571e7; 0x488b0c880bc5568f; 0x4b189e97bf20e41; 0x4ecabd835af313e8; 0x7692293462fce9ff; 0x276b2f95a71871c5; 0x6a5a51681337e18f; 0x71cd888430bb36ef; 0x7dc3d8dd0711b0b5; 0xb1ed2197efb17c9; 0x21529f309b6eed94; 0x411894a830182794; 0x4deb6244ba586438; 0x14f9acd36b37e672; 0x304448e5f166768d; 0x4fb55874d576ab8e; 0x10476e1984b294f2; 0x130aa5188eddb77f; 0x555056a5fdbc5f56; 0x51ede717647f1fba; 0x2faaf14ddec80111; 0x597f33a705bcbb50; 0x44d51025aa1b2235; 0x76d781db497cba24; 0x5ce7d02dda1286a3; 0x7edd8e6a3a52c6ab; 0x124ea4f173566c1; 0x2cec11f2de51b15e; 0x5bddacd129badfd3; 0x61259caa748ab368; 0x7160cc0b4efe1854; 0x6a46631e71c4a295; 0x203839f05517d7f6; 0x73365451bba4bb1c; 0x2ecf9fe8fc02c1c2; 0x51ed026a25c07bc; 0x5dab7259357f132b; 0x77ffacf2249e9c3f; 0x837fec5f3601a5c; 0x76087e5be67f8aa3; 0x641e8b8bf1d12ef7; 0x7405364975b9f604; 0x1c60ac1752692016; 0x25409a0287e86e58; 0x98df4d700bb3b2e; 0x6dacc3185fcd3151; 0xb1f69e6554e5f22; 0x64807c921cc6e0ae; 0x61a24a9797be26a8; 0x312735301905685f; 0x180b7ecf1a9f8f31; 0x18088a17cc563a1a; 0x3123c7fb18aa3902; 0x5bf88a428fe83530; 0xf34e9a945b54773; 0x616eca89c6bb2823; 0x5a79bc647c0f9f4d; 0x60c84f0a02802c27; 0x4d10f1eed5544cdf; 0x4e7afff292a30d54; 0x3fbfd55351a25311; 0x15d9dd0135736125; 0x302f9323e081d27f; 0x555b1ab2b1f5d2a9; 0x4538086b7b74861c; 0x241af3d84bf95e73; 0x376433ce2954dc23; 0xf42326d7cdf4ea9; 0x28445de8a82a19ee; 0x2bb181b4bdddcd26; 0x50860315e47aef34; 0x11e40a105fd38809; 0x5616efdbf28f49e2; 0x21de2ebeeb346e41; 0x77defdd9c6b792; 0x1ce64cfb8b56417f; 0x5bdeacda4e9394c; 0x2c297f523f95fc42; 0x71060838055772e3; 0x6cd720264e8a3b04; 0x5c79731b508fbd50; 0x7331c5210f00b8a4; 0x19782955c02d9f7d; 0x356599dc75c76eea; 0x6d9427a04ab6a8b0; 0x16f9d53e6c2072e7; 0x2fdfcec962a96601; 0x28201810a243cb4c; 0x3ef35a362b6819f8; 0x67604d319be4e1f9; 0x53ca66ca549ccfea; 0x73d6dde71cdeca94; 0x4c48f0398324ab31; 0x303ca140077b1a8c; 0x65b2735edb0b33a4; 0x3b6631f43f676560; 0x7242b4dbebafaced; 0x45cd4a1a7943cbc0; 0x6723cca7b2a29395; 0x52066c62d114ec1a; 0x436cfc6663ecc673; 0x692f566e3a654f3b; 0x21c2f4ca9573768d; 0xee796005e0d9137; 0x4e7b6fb4dec2c555; 0x41eadd01aeea6c17; 0x7cb3eb52d712b014; 0x5b775381ef7dd5bf; 0x279a4ac15017f943; 0x3f3b86935ba511ad; 0x3b89c60d11dfd3b4; 0x518577f776c6212; 0x16864be586487a44; 0x7ba164c356e2bd33; 0x1b2fe1d25e95261; 0x6d4805749a081074; 0x300dc2d1ffaa92f1; 0x36a7acf17a044b0d; 0x66f09e4c8b3609c; 0x28ee8cae2e8b3b8; 0x43b0c404677a4c55; 0x265fda4289cf7d31; 0x23c7cb7e5bb0e3bc; 0x10ab5c41b136e740; 0x2019b3995e4bebf0; 0x1a1a57];
   [0x24186d14088b638b; 0x5bd2c7acd53f7edf; 0x3ebe822017cbfb4d; 0x309ef97cd37ef638; 0x165530b6db2e0faa; 0x7215966a26a5866d; 0x348e91096f53e871; 0x29d5751ec5e81976; 0x56e8051f0d36b503; 0x62519fec90fb5a4c; 0x94eafaf110158b7; 0xbdd694915bcbdc4; 0x272a4483ab312365; 0x2690c4575f27b1a2; 0x4d33af08e81996e3; 0x1aaa670509ef139e; 0x7f81038f6f4623d6; 0x39eb87229cf4d238; 0x64f2b027ae80a490; 0x3e4cb262d26cee49; 0x21f5ccf2b15c7dbc; 0x521aacfafdbcb358; 0x51767d9ad6dafa45; 0x1a236493760b1976; 0x6279f0e6deb04ef2; 0x3fe3101556fb8527; 0x10476a18359ec40e; 0x7ce3822eb57f08b2; 0x297e15182da3b5f0; 0x1856c3b3ce276edd; 0x25a9a39733921c16; 0x753817c5bda7e603; 0x102858bcb559636e; 0x4c250cb0906dba2; 0x2a21bede24260a74; 0x4188836db0d779c7; 0x741b71b6cbf7f2e2; 0x345124bb33d68584; 0x487db4a993ddae0f; 0x15a48badcd8d6cb9; 0x54fc5aef359a07bb; 0x5cfd0f5b4805f5d7; 0x207e8e178a5a4ff1; 0x9d873ec15fbd0ce; 0x708fc199a60a6e1a; 0x3c17c0d5edfba44a; 0x2d0e91c20dbe9713; 0x56e251afec58bea5; 0x5013f5c10e70c0ed; 0x2d983a2597a61778; 0x5b52e7df013207e9; 0x2d2b2349051ba4b0; 0x3859ab5c927aac6e; 0x4df80162a28472ff; 0x2c0c58cf0c6739ef; 0x2def9b401f1ac26; 0x78ce9276464f4fbd; 0x765a54767f6aa005; 0x4153966935721dcb; 0x578179f5b5152c69; 0x46aec83362725e1a; 0x3b4d0bf14c2e6c5a; 0x75c545ad8813adba; 0x56c80c08f8013621; 0x7964459389f7f644; 0x12bcbc707875e011; 0x37b9ba3be9459808; 0x2b26c3e9d13da3a9; 0x6f22e178a56eeffe; 0x6ab1e85bc92e9feb; 0x4d19e73f280a2140; 0x2eca23744a11da24; 0x50889034baea49b1; 0x53b2468feede489c; 0x6a582422d7be89df; 0x49ed173694b30921; 0x43e86dfc156523eb; 0x6da63df1a51c0c4a; 0x2765f4209218e907; 0x361c9658134b9446; 0x78448d0896a3c677; 0xc7d80dc0d623f45; 0x56ac2ec22fd640e6; 0x56406b4348f0a0a2; 0x57e42338bf8c39ee; 0x4ee741d2f01a78d5; 0x46f8acac9a559c0b; 0x13c177a4b46b6699; 0x63a3bbc19c86462; 0xbdccf6fabd5e267; 0x266a65d2c8eb4934; 0x5070bd6126cecede; 0x4d28e3fde3efd2fe; 0x1357d1388242b8ff; 0x64993358bafa6061; 0x2b6ea14da8a14fc3; 0x7cdc5440827c834a; 0x5b4fec225eff3a92; 0x1588a9f5af3533c; 0x67d8d68a56118f81; 0x498b8782d551399; 0x37cc0c6f7fdd4969; 0xe910c837659494e; 0x4767bcf99ab694b1; 0x1fa4c18ab36c6c25; 0x2ae9ecc385ec7685; 0xad1f4b8976943cc; 0x3c66d719ec25a71e; 0x1351bb460ff7f34b; 0x128cae6c9197aec9; 0x8247ace226be72e; 0x513951fe368bcdaa; 0x74b8f07b58a7f2fd; 0x653e49e85ff4a799; 0x22cbf885bcc453e6; 0x1c3e2c0880574a38; 0x29dbdd7c043d1ffb; 0xf11ffa7eeb700d3; 0x6b3d8ccf4e7a7150; 0x232bc47f23301751; 0x52a22edf5dc17859; 0x623966905e0be66a; 0x437180e4c9b24776; 0x16c1990039908a1e; 0x78268fa4ede33f8e; 0x3c8e0cb351e525f2; 0x63f5e95fbe8fc58c; 0x6eec438ce1aa8097; 0x1b83c4b70060ee12; 0x1599f4b584692c7; 0x744a3b9225b171ba; 0x28d064f7998777cb; 0x1fe7c156421bb9c6; 0x15cede344b352d85; 0x59d92699f9510bfc; 0x28f100146b6cfa31; 0x62437f648cf3cf1a; 0x5511fcf1dd500734; 0x1990d6c5d49457b9; 0x25c8bff7afd00a82; 0x7c306712a65892b9; 0x219b3531babd15b2; 0x380f063cacba2209; 0x64ad100b7e0047b1; 0x6a1e49c091de60b3; 0x465afe614dc6f350; 0x2fe0d37760eda322; 0x365f0615c59c0f94; 0x673fb47bcc5bb8a8; 0x352e381e20c1dfc7; 0x6097fa196fd5f9fc; 0x7b8be0b32a75d76a; 0x396b20903aca0b31; 0x4d3f6cf48ba563bc; 0x1470484b523cc098; 0x674cfb94186183ce; 0xce446474417173d; 0x665b2cb3a3adc822; 0x36bd1ede25a0ee00; 0x39e4e10df02e32d4; 0x3b21446809cafc81; 0xf807829c3e5be9e; 0x4c40055f0418abfd; 0xbc8e276dd27e625; 0x17b7b7be9145864d; 0x158ec0750622ceb0; 0x719056d28988dbf8; 0x523ffd5c5f1e965e; 0x53d02a6e3a115917; 0x46fa0f25330bf8b9; 0x5f70fd54b8e90be3; 0x72523aff73b13b83; 0x366af17d997730f4; 0x21f947526de64d45; 0x4bc5c71818bb3500; 0x4ce47b77a61bb433; 0x7f310d79cbb8af60; 0x5eae83813b6c788c; 0x477e2186322e7021; 0x1105ba2b80a266bc; 0x222a29211e473c7; 0x348dc0ab853649c9; 0x55f5a68df54028b; 0x51a030b23d53589f; 0x397960a3ba21347b; 0x57f51355bb3ff63f; 0x2ff4f0daa09e93b; 0x9170b7772b00ebf; 0x7c4979811298cd44; 0x4090ad43b526a7a1; 0x79905317704de766; 0x42c8520556a9a6ea; 0x60d23abea1ff7f79; 0x136bd264786e4f71; 0x57c017469f8b09fb; 0x3df464c2e6918356; 0x3e7e7c2a42f56830; 0x2992c362dbfe9fe2; 0x791b95d859301102; 0x61ae50eac9ac448b; 0x1eab147718e26b47; 0x7293b50fba3f3a70; 0x26702760b85b97a6; 0x3810a03ca64bc369; 0x6ae348074d2996c1; 0x409e92b400298d6e; 0x194d78b6f4c6cdc4; 0x57f5afd6c60f138d; 0x79514e95e07fa8d2; 0x649438619699ac88; 0xd6392d0c6478a11; 0x2768d690cd638570; 0x44c117e5b4f36e47; 0x7bb911c3819f1098; 0x1c2e4345d137d705; 0x5ad971667352b5bc; 0x27e9164307f9c55d; 0x5adff4a1921511a; 0xd39075453a06867; 0x317085022aef7909; 0x2a30adf2c2fb9b77; 0x66cf2c01ef47274d; 0x1dad4eaff8e8cc45; 0x3bca75e1c8d924e; 0x13a162782ef45051; 0x3aea6295486242d4; 0x182e3161e496cb97; 0x63a233e92cf1b566; 0x1f52dab213e2203e; 0x5470d0e5551e2720; 0x569e77fb9407dafe; 0x12a4caddc0fc6ae5; 0x3d1f1cfe07abe402; 0xc9e7a59c68f9146; 0x4e69a98be79c2c5a; 0x64ff48816f576678; 0x391d1835683ea0f9; 0x38fd9348559b7cf3; 0x7b5523094c7b0b6e; 0x6103e1c72582225f; 0x20ad1255347d8f48; 0x5c2c8042498d68db; 0x29e9d467889849a4; 0x7507a657b7a99530; 0x7bfbd53689a03ca0; 0x5e90a440bae926f9; 0x347c3c5acdcf3609; 0x5dd59b9fb50b8d; 0x2be1695da46319c6; 0x22168c0b447a6740; 0x245c10f97f54cb22; 0x446e3164cb1c051d; 0x78f0ef122e4c14c0; 0x83eead80e5cc605; 0x1fda6291a2a9231a; 0x6ed69ce057f13dba; 0x9d4cce579bc9317; 0x5da8f5b61267583e; 0x3b15f62ca7883df1; 0x2a9984a6c0755b4e; 0x7a5c66ed832bfeec; 0x2c563114ec5665a4; 0x46e71e4cf7a60a1e; 0x36baa21c148a91c5; 0x5fae9c63b20a82cb; 0x508b74c8bb57945e; 0x57e6f61b894a3a36; 0x41ff4445bfd30c68; 0x480c3532e9d4dbac; 0x6e6448f82ae8b2a7; 0x25a7d3b30c928469; 0xb919f5e606a707b; 0x613ca39b6e281ee9; 0x8744beca19098b6; 0x2dcbf572615727ce; 0x5ee70476cd82534e; 0x3e4e394c879eb665; 0x3d96e4bda3d7c46f; 0x2ad67cd1e6ccb926; 0x6b00980405c38ce0; 0x4c076f07f016bb0a; 0x1db742503a033e79; 0x1cc11b31c1e6d9a6; 0x1b0267329c91ef5a; 0x7d15eed76ab1d5ba; 0x45a2303dedf3fa2a; 0x119cef0d934fbdbc; 0x4b1e31b54575931b; 0x2fbc07f20ca82fdc; 0x18da798650b4ebd3; 0x508585e6d6283697; 0x11621c0346a6661e; 0x1d90960239170457; 0x7a77bbcbfda3731a; 0x1a03dc8c4b642541; 0x5a5cac1b5bc27f9d; 0x10f1328001ff0203; 0x4f6bfe728864364e; 0x6219f1255a7cf753; 0x64acdd7abf20a72; 0x28f2b4f9c91fb623; 0x6dc3e2e4cc50903e; 0x2111e6e612978816; 0x29b1079ebae22c6f; 0x5eb79b427f627872; 0x1d466f8d63bf0437; 0x6dac94898c7fd179; 0x5ec0b7802ac68388; 0x4261c4b9387c916f; 0x64986be6177a9de2; 0x10a497edde17196d; 0x198a610e2996437e; 0x6f798002691aaaf2; 0x49e0ec4d1d0c0810; 0xc30b03c3a9bbe54; 0x5af97ae905cc741d; 0x7eea74a72dcae7e3; 0x10beee];
   [0xf19d8a3f2a534de; 0x6ce5580b089335cb; 0x63ee14054fb9c5c2; 0x6faf58cd04ad4c49; 0x296d6e016f4075f6; 0x43dc51244d08a646; 0x15a243d04a4168f9; 0x53149c677f28f54f; 0x5f3f122cd725de09; 0x30198c99bec23804; 0x1bd919f0a27d4982; 0x5f96f5e360b9cd2; 0x161f6a038e9d4db6; 0x5ba56b1fe09b9a60; 0x4b936c741086848e; 0x51b471303be61481; 0x60827a4b06be26e; 0x70136cc1da0c23; 0xc46db74515debb4; 0x4316703e312cf103; 0x71432353749e0086; 0x6006cff2cbe2083f; 0x5b2f969b056254d4; 0x6db955a2140f9e6f; 0x40f413571488dabd; 0x164381156ed8a9ff; 0x16665370baafd069; 0x1dbdea72e60b4da6; 0x2e64d364c6cd6022; 0x5f0a60110adf68a9; 0x22db6a75d5f3ed71; 0x6dc0bdc4114c21ae; 0x466cececfb32f0b7; 0xdc033bafed4f2aa; 0x7fb0b02b9077f187; 0x76b787b864935c7; 0x65a320218ed48566; 0x12466a4b70f33099; 0x3aa1ef9109d30939; 0x452bb9a067853e05; 0x7366c724a3aa4479; 0x6e0de17253a99f5; 0x2300723e1d521b31; 0x54b9187ed8e912e3; 0x5fdbcf61c3061813; 0x1a40b3a0266d3363; 0x77bef64559f4651; 0x516322719ed40d76; 0x5d3f63a9f93d5a90; 0x2da8064b431deb8; 0x17d1e88482e149f8; 0x44b585ed3857d685; 0x9adceb942bba452; 0x258a525871b53fc4; 0x6c5a84b4a50e3da4; 0x57253b249d3260a2; 0x15717f4871bcf0a0; 0x3f1995a09b2a3690; 0x19c7a316798e5e90; 0x7333473a59dffccd; 0x7e759e8d1ba88d7; 0x563c1479a04957ed; 0x50a61469080d26d0; 0x99e5ca516e6cb4e; 0x1ba5e5744a13c685; 0x789df1fd333e2f63; 0x537b13bc6d6ef6df; 0x5497b10a9fd6afd9; 0x501d9c12d33b1b66; 0x1140cb4624943844; 0x7054f159b7769ab1; 0x313641d133d80efe; 0x41dadac119a1dde2; 0x2357e4b830c4d837; 0x62a95d618df31a47; 0x1e50545abc72e6b5; 0x4c6dedc1b2881fb5; 0x31ebf78de2366452; 0x4e0a5f62df1ff7eb; 0x5accce77728be93f; 0x7d631276b14c4d60; 0x40699047601b5c35; 0x257aacf3c2bdd781; 0x317284a71e08dec8; 0x5572ff60a02acf7a; 0x35ed1557f073f2a4; 0x5cd75f9fe23770a5; 0x38d9ede3dea06400; 0x4cc65cedb21256f0; 0x61d9959ca81ab019; 0x7ed3adbe1ad1b0d8; 0x7ff16e6253c8809c; 0x29ab66b0c901bf40; 0x5dee6a12a42351bc; 0x60848adcf31f2bce; 0x24732bc4c4392eb0; 0x4aabf127c7975eca; 0x4a4eab44b207e174; 0xfe354923d9150d9; 0x807c2117a80bc89; 0x38e8932b3b4b14f9; 0xc06350643d3ed55; 0x73cf5cbf7ebdf43a; 0x664e6525f312331e; 0x388c84a0ca109cfb; 0x36f9a7b3ec65a972; 0x4655ba672d663ebc; 0x138cff53b3e9ae3f; 0x4bfaac66717d3187; 0x6bfd9ab075a87a47; 0x45c2d105a635fa44; 0x35569ee33d6f3dab; 0x5f6934c2cb2a522b; 0x1a76723d7624e288; 0x3cc129f92d5a5aee; 0x49e8b32db48a56b0; 0x3bc81973964eca25; 0x6cba0811f95d35c0; 0x6bffdbedafe4affc; 0x606ba8948ebbf3d; 0x1074e6117fdb12a7; 0x2dad9ebde94137fd; 0x7ac6d9f18a884094; 0x52c37ef6431f65db; 0x75808a8092d89de; 0x230c359bc8212500; 0x3dbcb3de41e0a403; 0x4985c3c831f33545; 0x11ed26f0870d82fa; 0x5e580759dacf24fa; 0x41c19b4583c3fdc5; 0x441c67c6bfdbe206; 0x579f6adc9e558128; 0x4b60c00d706a9957; 0x1e863bf7c553db7c; 0x7e880707f116e471; 0x47fda4452ac69175; 0x45d39e7d7b701cc7; 0x4eedcfd7974a8de3; 0x2cd8f432eeb28a76; 0x1e6cec758027d260; 0x1cc779e993ea21fd; 0x5e4f5a2c63ed364a; 0x33434381c7c84cb0; 0x72b387c995c0ddd3; 0x4448b02d757e918e; 0x3fa88f62d40e718c; 0x4e23e0223b5f2d1c; 0x396f6ada3f8e78c7; 0x2680811e3f9c0a66; 0x7c6e995bc7a04108; 0x23cab79830492fa1; 0x3111a4c544bab87f; 0x30fed9bd8d4ed4f1; 0x4589cbb5ec713af4; 0x5a140837ea14557; 0x2935b94839f0bbe3; 0x324e31cc46c78888; 0x5db5d1cd490b7822; 0x48735909a81ec03c; 0x44671da641c0fea7; 0x76733541e71eebb6; 0x761bb8555379067b; 0x2de4a63f76dd6163; 0x77f67ba6c07112a9; 0x58a21cf86f068c7b; 0x26a7927bf7f9c2e2; 0x513ddfb5682c410f; 0x555ba8cb7a4aa0d6; 0x236ea4102a1cfb12; 0xbe023ea42cd3327; 0x249f5ad01a0f90f2; 0x5ad0f6ee5f66fd5; 0x20ee76053d8592b3; 0xf14eca0e75f1759; 0x76a0079d9bc8706; 0x601428e3129338ea; 0x36cf2363a9028b34; 0x690245c404c3d95d; 0x7b225492d5583f5d; 0x74d18dfdfe4e891a; 0x15f94363c8281ee3; 0x6a40a70bae4f2b00; 0x67aff330529604c6; 0x3f550c1096aaca53; 0x4e2f8afc5efb9746; 0x557509f74bcb803a; 0x2e73dbc9445465c8; 0x16a0cc37eb75ccdb; 0x3cace0b6299e6a73; 0x68946b727075fe9c; 0x6e3f16beb5b145e8; 0x37561d09ffb05bd1; 0x2f076658e306674b; 0x31f2168ba062f88; 0x34f9c31450e19103; 0x33f71f540004bac7; 0x21843e0f6eb5f915; 0x50b5ea8c4b799f6a; 0x7895fc63e466b145; 0x6b0aa300e8f9238f; 0x4977e00a9af52aa9; 0x2ed583f9b72fa831; 0x741aced1adb71bfb; 0x538724da65dba97a; 0x6f3b38422445b7e7; 0x797602d9ad9c96da; 0x74119020997d901d; 0x51dec7cce6805e08; 0x2c1c8ba63aee3bee; 0x380270a464fdcd29; 0x7dd28f3d6e10104f; 0x4753b8f5855e27a7; 0x54271c076f0ee163; 0x1a37c4869065e362; 0x4f9896e90d0478a1; 0x5bd046a1f2162226; 0x395770bd9914d474; 0x58b7fc2aeb7d9bb4; 0x226f5b427b1b47d3; 0x7d424c0f51302c18; 0x1ddc627d8ccfe19a; 0x36cd6df2d6d9cd32; 0x58b82c58e7eca44; 0x5a01354ae9c63792; 0x5af5fe81b0bd5ecb; 0x42bf072fdd7d37b5; 0x6b91086c330a3af1; 0x7be39b6b901de68b; 0x43e704dea2ecc463; 0x44922be5235aa408; 0x840117c87e9dc92; 0x23482f4ca20119f5; 0x3d7fedadc9285d4c; 0x45e3e36e34d4b3e8; 0x529579767c71d23; 0x12412f0236121c6b; 0x24f4b2ec8c9d5416; 0x991a92c37621694; 0x51d1bac5a21eab54; 0x6d0d363253156708; 0x4fcbf39bf2ef7a98; 0x2ea731c1b2546996; 0x6698533ead7907b7; 0x4e0ee3564fc43a49; 0x36f35875d43aecee; 0x2707e45be987d793; 0x633d65069682b04b; 0x61d3bfe52e6430fa; 0x195bb0ae135437ee; 0x2f744e391292dd82; 0x3fcf9dedcc33d6f0; 0x7973ac056b74f8d; 0x61ee22a19991bcf4; 0x6f7e0fef62c1ae4; 0x464338fcbd1def76; 0x5cb3d0005fae0df8; 0x6656c08b1c7ccaad; 0x75d92127d58c502e; 0x463807fcb4dc29cd; 0x5792d02d82d0c300; 0xd23e47dd867ef72; 0x57378ef8a784e19a; 0x38cbe99b81a96ed6; 0x298583be0760ab30; 0x53253d4634a539cc; 0x690597539f241611; 0x4c438068109a89a2; 0x1aabea2e8e82c611; 0x1a0c32f44a2e54f6; 0x443c700e6c5afe94; 0x571aad98cb7acb32; 0x760ff52c4cd0259b; 0x5fd2cf032fe91ada; 0x5ef188642aca5dc8; 0x56c952097eb3f9d6; 0x301ad01dc4a06106; 0x6631e108033bfea9; 0x51415fe05173ac71; 0x64365c11a3c392b; 0x4f57c21df6934787; 0x311f9a8082168cbc; 0x59823d990253e1ac; 0x76e34f8b7720aca7; 0x4d97ede2006fb382; 0x6839f28bceba3803; 0x746c1adb9ef654f8; 0x2d04be5070cc8b19; 0x18188dae91be047e; 0x4f07cfb38be2765f; 0x5352e4d9fef21398; 0x13c97aa6e5aaa973; 0x542e2e0aca93e085; 0x37c7817ef26b429d; 0x61797d3b2b9cb5ec; 0x68f237e8ef6b5f0e; 0x52dec1f6b0925d39; 0x721da46cd9a012ce; 0x697fac3474f384a3; 0x5dc3f94ec73b52bb; 0x640d6ae84e5a92bd; 0x441784d394c00244; 0x68fa606cca7268ea; 0x2a409d94abf4802f; 0x3bce42cb7717014d; 0x3ffa8fda4630047b; 0x7d3fd16e8cfa57bf; 0x7ae53fc49e9b0615; 0x60285a4d731db59b; 0xebada68cfb240d2; 0x370ffb74856a7ae; 0x1aeec0c47b8614b5; 0x3df104d779c3a06a; 0x367639b8f325b220; 0x3f97b52aadf47e24; 0x69f994f073485fb1; 0x298e9eaa44639e08; 0xa46a7];
   [0x501e3233ae87b925; 0x1247c770dcb392f8; 0x2f4fab0f461e5441; 0x207b39a8fc395cf; 0x2251deab961d3507; 0x5a7b13412f8e6013; 0x6e53d4301c6936b5; 0x62ff2a028a110f7e; 0x30f86df6466422b5; 0x6aa1cda3aaf6bb86; 0x18a85c191b0488bb; 0x7590ba707c1f2513; 0x248513876139fb25; 0x780c447bc792dc04; 0x693241ae48df811a; 0x18d8ac9e352234ec; 0x46960763250f0436; 0x5ed821781af87061; 0x66d90e83beb6e5b9; 0x617ac34ff01eef5d; 0x456b9abc95125; 0x235b39360c52b61c; 0x495d0d5f04666db0; 0x479e66cd5de21a03; 0x455dcd858bd5ff98; 0x170cc6fa5c73610a; 0x643c78454ed0cf2a; 0x32ee170ac9a3a29c; 0x3c421f482bf43f7d; 0x5c2e750211db8b07; 0x7c0c8c046690d61e; 0x5d04f4945bec5633; 0x5f6badbae743ed1a; 0x24fd4b777ded6f99; 0x62bc155ab8c1de6c; 0x6bfa409b0e4c9cad; 0x72996402cf25dadd; 0x2b7399d04d81b11a; 0x125b91516fca75f0; 0x72eb6386f339b6e; 0x6bd3449b04cd72f7; 0x65a50bb781e58f3b; 0x55d9429662c4011c; 0x66bf578530a67fca; 0x3ab13fa3010a7daa; 0x75f3ae9ca1a7ab64; 0x6029ded7a61f4ff; 0x717d5d1c5e3e220f; 0x37b63c6c5c6194f7; 0x7e6dcf6fedfff627; 0x684272cb4e896d5d; 0x7ee9d80ee4cf80d2; 0x90814b41a357d0d; 0x79b686685b1ecebd; 0x59def076dcf35fb; 0x6900c15edecc0fb5; 0x1442b556bb9f076b; 0x159cf7279e892680; 0x75b3107de9b19596; 0x54ffb0c84850aacf; 0x6b413a140f858e0b; 0x3a62fb6d8bb346ee; 0x6d2d4aac334c3a1c; 0x61014419c1b47868; 0x7e8cc568785dbede; 0x166e780c37aa7b77; 0x90ea26c720cd42c; 0x2f5290df6c2eeea2; 0xb1da2897cf78edf; 0x5c9c856dbb34c130; 0x237f75859a1ca0d6; 0xe6b83d68e897541; 0xc65ff1b275d9365; 0x2aeab31807b28961; 0x2fee72162ce1a4e5; 0x3c8da395bf8ed459; 0x733f7a766a8e3d92; 0x63dbfcdad5de7d7c; 0x73177a2114540e5; 0x3b52a2f988eb6b39; 0x136a43ac679fd0a8; 0x6e1e67a777c02390; 0x38a5c576c9d6c254; 0x1c209d14bbd20881; 0x389c497ac5c2b761; 0x6df96572b5d84af4; 0x8cd21c5b40f9bef; 0x281a8b2cacef738c; 0x7881f995650f4f47; 0x44908be8766b8c83; 0x7a85866f66a7a274; 0x59bf87841fcf3f8c; 0x70cca48d3858da68; 0x42b3d5b0f64c9aca; 0x79c9a2bf64a19323; 0x790293e29678d934; 0x45c63ab86f526492; 0x6f5fa28503182b85; 0xa14cb56db8f5afc; 0x25641b9fa94c090f; 0x3e7d208dae18f940; 0x65f4dcaec8f012a9; 0x23d3a798649ba4b9; 0x4d1a9d2bf617b074; 0x57ad94b490fd2dd0; 0x5b03798561d0ceb2; 0x4b8c958effc15976; 0x798a8970f9bcad16; 0x437b2cb325d37d6c; 0x720ddae4e3c575d7; 0x283613dfaa76eb42; 0x67c3189266ea828e; 0x6f614a33a0111ca9; 0x4cfc120abe9b0309; 0x6b081b927a95faea; 0x300e4d1725f904cf; 0x22b3f8bcb7c16043; 0x3634b54d24c7a8cb; 0x52b2afbe63ecd08; 0x3010a64a7ffb138d; 0x112085faf5519279; 0x44b8c6cdf2eaa5c6; 0x792f1df9a3faf901; 0x4eecbc62205b820e; 0x225ab1183dfbf2bf; 0x7fca5a71624540f8; 0x78b8c85e240bb96d; 0x7fe5120782a05b4d; 0x7006d9a19f6f569d; 0x6ad84a45ca4fdaeb; 0x71b8bb258b8cf52e; 0x1d67ed7070e62650; 0x196e48527d1dd1c8; 0x605f39b51a1da781; 0x1b0ca576656940dc; 0x61d644cd659d14fb; 0x10b66e7ea4c48434; 0x10d5ea1ff029ef41; 0x7d4f0a53f3f8820f; 0x2b4761acfaa4bc85; 0x2a30e44e054e3eb7; 0x4708288d0bb5d0d1; 0x67d6b241e4bd6012; 0x2afb24023ef2b539; 0x4bdc144e4337ae1c; 0x6569192b35facb10; 0x46b203e444324987; 0x15e03af783f1c56a; 0xd945937f7b9797b; 0x4192f3d0759164fc; 0x7b13bcf0aa0a34e6; 0x6e2a0da2732a899c; 0x1d7dc57e57ae3875; 0x6dc1f08580d65609; 0x4b42887f38631880; 0x134f9211011fe18b; 0x1d76e2652c5326f5; 0x4bf35be181d08157; 0x2813a950ab57d852; 0x365bd092dba17f1f; 0x4f0d5419c6683aca; 0x39d30ce0e17dc6c3; 0x389e6d3f56d742b8; 0x2f07690025f6fa86; 0x649c9b12d194f94a; 0x4e2a575d963327b1; 0x7756c611c5b9abc; 0x322547796af3426e; 0x7a0cbdbee26df737; 0x159619f071cd29b0; 0x2b9c23f35670620c; 0x612557734fa1a3a7; 0x57b196860a2a05e0; 0x46e8c9bb5ae9a7ef; 0x7bd50ea325fdf36e; 0x3756181a6d2a9826; 0x2cbd09c15860c79f; 0x461c955e78d15321; 0x2d052f8a24048bc9; 0x5635387b5a30c66d; 0x3c6ead60b5a62796; 0x2879b1be64a81e26; 0x34e64e27aa687726; 0x568cd36ec8f4b5a2; 0x18b6a48ff9555b6; 0x799254982fe6b957; 0x34bab1c048c5d11a; 0x1daa472ee1ca5fdc; 0x397b3eab6405d95a; 0x4dd4f11c2bc62dd1; 0x479ed33ab0f043ec; 0x5da9e6cbc1b90ac4; 0x12a82775185ae1cd; 0x36139d26d7f8a4a2; 0x745dd91c7a7aa562; 0x365d686ee66fcabc; 0xeb9e6684d65d13b; 0x45c7245a293271fb; 0x6f75f9841296f3d5; 0x4bc419ee38af7309; 0x7ea8b1faf61362d9; 0x7fc2804b0dc41d1c; 0x6dfad24f05c9348b; 0x6a9ffd9d33faaf75; 0x3c687e03fde7f1fc; 0x16871e10b3309778; 0x97a388270c8f721; 0x761a529658809619; 0x3bea492fa7554f45; 0x1cb327377edd53f9; 0x674cc0d018a1a690; 0x1c7d7a01d38937fd; 0x3a2ee5b518597e24; 0x5db5385695847efa; 0x12147313162d6f40; 0x104b8b5f78bc40cd; 0x3a77127766914332; 0x3aeb0607e5c9d921; 0x5637aeeba11ba810; 0x16b6b5b785a2d47c; 0x2131c76c73415fe0; 0x55267370e594e340; 0x6bc779096680ca65; 0x776804daa6dca17b; 0x3288c796f352e212; 0x3308475d4a952999; 0x671da2c777b2554b; 0x241b9240ece32866; 0x551b7873ca1572dd; 0x504b4906e2a671b1; 0x4f536b026c9be11a; 0x43221f9128cb3682; 0x72a111fde060b8be; 0x19a2ab30bbd948da; 0x1ddcd810635e389b; 0x6870aa1e73c63c07; 0x657af4b892db8289; 0x5bbf1340b040578c; 0x1d807bd9d208c1c6; 0x2f97bf568135946a; 0x1898dd547c3a9d49; 0x217babae3e02c7d2; 0x6bf441cec426c531; 0x7e6da770366e22c3; 0x28d96e8c91eff361; 0x5d37438d6a8ba970; 0x3e5e51e4a242afb7; 0x3b24e6db950c0449; 0x11c8ab45a815a014; 0x60e53a58ad2163be; 0x139966cc0f63fd91; 0x7c7aafcac82d5690; 0x3b05e7bffac18db5; 0x56f867e7840a494a; 0x50a1c5821f8df871; 0x6e9f0d86c49a4245; 0x5770dc25f03fe972; 0x365b4f8ab8376143; 0x2c781f49765986f7; 0x582aca2a4d1b1723; 0x10436cdc2abed1e6; 0x4937b7e9e47416f0; 0x3b4b9af1daad6e41; 0x277a34409e7b6d0e; 0x6f661d364517c566; 0x3e6b8bf6a4bc55cd; 0x492af3f4911bc32d; 0xdaf99b0344e2107; 0x7a415196d456cda2; 0x500ed4c1390df00; 0x20829019dcdf4211; 0x336fc5b8b8360946; 0x1215f240a59b8dfc; 0x3289459652ec22ed; 0x91a95849c9914f7; 0x58201d39d7381a79; 0x7bfc5948b6e97f17; 0x699deb9f5247f5a; 0x1d7795eefd400b71; 0x1b30d9e99814682b; 0xfde341ecd675980; 0x30dd11aeaf0779bb; 0x4fe6f3eb21858834; 0x32d598787b02bbca; 0x75b673892ece7832; 0x1eadfbff2959f5d9; 0xe254328ab4cb2b7; 0x60f578d06b410a07; 0x6ffc1134a017e295; 0x4f5d424849781880; 0x1bbbe344f7ea1c1a; 0x4306ef43400eb56b; 0x65a1ed95311d124c; 0x1107c45b0c179497; 0x2777cc64d2bd9327; 0x128b23c045cc92a1; 0x2bba3ce1fd289382; 0x18e083737c0e636b; 0xe3e331cc22622c5; 0x1da6f2f157cefa64; 0x5cfe728c25316077; 0x4de7f31733a7d47b; 0x3261b94d4dd2acde; 0x629fc71547fbe619; 0x6a371ef927c57fa3; 0x7eb55f37b338cffe; 0x2c51261e35cd2bd; 0xcc464ed144c7e46; 0x543eacefcfa52cd2; 0x3f3f4b5aaf612c38; 0x6e5a7160ce399ca1; 0x59649a042124a80b; 0x32780a4a2d0035b7; 0x14dbe0d7182c4774; 0x1c60cc15a1fecb84; 0x5752948a0f0987a1; 0x5d5118f318d32a33; 0x980ce];
   [0x7c36ad149da2d918; 0x1a70d5c7f3e76150; 0x1fbe1c1a45861aed; 0xc4a1537cc8b2ebb; 0x1675625d8e5db568; 0x1572b5b6da1bb8c0; 0x64d85426257ab447; 0x2fd497fc254cd1fc; 0x17d7ca7073c7f709; 0xb042ad005d14a7a; 0x38a2bff361b16708; 0x6c3c882a8695e6c2; 0x7001a6313dd8c204; 0x8f0749a831d9a81; 0x29e69e4502257d34; 0x3c363a506d4ccea8; 0x339cc1d8f4dde60b; 0x37b3b38a16b00e0b; 0x2699760484afee74; 0x71f0a9f49f974089; 0x339b64f822f30f46; 0xf1f5615a6d301c8; 0x3215b5d7a68a66ad; 0x506b899a32fd1fb4; 0x5ff235d2cc213d35; 0x2cf509dedc25a8c4; 0x6fe1b860b429a1fb; 0x4484ba96352ffe2b; 0x552eccaf210117eb; 0x4deee76426adbdf2; 0x769026e4ba3db988; 0x130d407309772fcf; 0x190955f03ce92ba7; 0x3fb6916a5aed398c; 0x4f854ec189441379; 0x42f72990986c533b; 0x4182e673f3d3c24e; 0x5b732ecaaa5a711d; 0xe5c998ba8e821e0; 0x13f6fe8d9ce65ec; 0x195887ad5d65f5eb; 0x56e555dcfceda3f2; 0x259c579761a038e; 0x4893f445cf4a21c2; 0x45c9aae2b0ab1f22; 0x26b8dc10f9b9cf88; 0x28fa92223c6d4b82; 0x5427a154932a8136; 0x6827c714e80dd7d3; 0x66e472194775799; 0x443b9e612e63192c; 0x6aaf1611cc840869; 0x1fed0f2ecbb132b6; 0x6b7fa183ceb90ab3; 0x1b41b8507724b316; 0x531fb9f961fa2473; 0xdab3c5fcd873fb4; 0x405470cb57b63099; 0x7069d6d246ee9bf2; 0x34b6e1217a53cfa2; 0x7f7e7c1c19855f7; 0x481b6b2201549e1a; 0x3641ebf7233309c4; 0x3db40bb5c5d7919e; 0x534fb80cac2f1c1d; 0x65d530d3d598c306; 0x63e8984890c94ccb; 0x72d904df5967fe9d; 0x1c47c23335339d05; 0x58935642ccd690e9; 0x1965bb47810b1d1d; 0x4ba343488c4d5ced; 0x14453cb78a47a898; 0x8216cf2a9d77db7; 0x4697902a4c980523; 0x4e1c05225c8bfc9b; 0x5cc91e1d4f665c1e; 0x136d66b54acaa66; 0x2967c2ffdc8e683c; 0x354a40f2bb042f2a; 0x68bc6888a5734adc; 0x7127a2058b75de4b; 0x6bd660cf8feded81; 0x7b5c9c1358685f32; 0x2ddfa10ad4aa0a28; 0x3dd74ddeb8e446cd; 0x1a7263dad63dfc51; 0x3c7bda8a518e4b84; 0x59fc8d227c3248e4; 0x7b760f1fbc6c960; 0x4fdd1e3cb3de1b2d; 0x58e081f08337665d; 0x19f80d7a0fe3d9eb; 0x469fe4554504bca5; 0x4b8de800ea261d21; 0x1302a3c85259b823; 0x5bb1994e4d1590c4; 0x62a8e6eac337c8a1; 0x7a3fa7bdb4116e67; 0x2023feea9f207065; 0x6819bb2ed43ecadd; 0x6ee08204988000ca; 0xb0fcfcf981f6221; 0x149b14f42188a237; 0x3ea9988c0d1101a6; 0x798e57505d909fb2; 0x2d2acc92451925d9; 0x705130df25fae940; 0x5bdf1cc5b43dcb72; 0x25783de19658c799; 0x5cd7711d175cb190; 0x5a6d5afe0852f9cd; 0x54f735465d47076b; 0x4a34242b582327b4; 0x57ec7618e0425261; 0x14e2817d0eeaa371; 0x6c001080f0f316f8; 0x3e21c13907758280; 0x20201ce9088f6788; 0x26375a830fc9b706; 0x7d11ad8ed23b79; 0x192f8104b96f47fd; 0x2804aba8345770ae; 0x5b4d28d14530bc71; 0x3a5ad3eb3111a586; 0x131fbfe011446faa; 0x6d455135ff98a22e; 0x3b343270675117a1; 0x69cc6635c5015f0d; 0x67e5334f24c563aa; 0x699cdaff14c74cf3; 0x294ebadecc185b84; 0x5f594a1de0facb59; 0x3b6286a59c0d3434; 0x307e2f42adc173c2; 0x4c89f3e12860f256; 0x5c18a1732f29d115; 0x80322a38104c506; 0xfeda6e86ff5190d; 0x6ffaa0dd7698cd83; 0x51881be3ea8c74fb; 0x50ef26572f237508; 0x34ef9089f14da56a; 0x2086cc35f3b30884; 0x5e97b6cc493ef3eb; 0x4d069f32349364a0; 0x1401b500ad6fd8bb; 0x5d3c5ef66d01e1b5; 0x383219ffec0c8a8; 0x386772e34c567f8d; 0x2c6565b43e383049; 0x61bf5732d1ed11da; 0xcf5b7289b40a8b9; 0x7e53d5a0da561474; 0x36dbb0505b746eb1; 0x295c57f0d290fa4e; 0x1d11b2e87ac1ee22; 0x1df0a166f29e279d; 0x126e71663d420933; 0xf6acf204a3fbf6a; 0x59098acaefb9347c; 0xf3f0d791cb177d8; 0x1a63f937937278c3; 0xc0e3cb3cd0bc2d8; 0x152ee61055828657; 0x74d71d940d5f2f42; 0x173dfa26d7dc2bbe; 0x67bdefc8e065b3dc; 0x2e80e94a422ca0a6; 0x20f4af5d5e60480; 0x59f9d3c9e9d1128d; 0x50201d28154a39b8; 0x20a13a87e120b01e; 0x6a8053bfa22b4981; 0x5de5fc6e4a91a33; 0x2ef8cc99cc30730; 0x1e81a31d32e29024; 0x2e731c73798a9842; 0x7b8f904dfbff307a; 0x225bf35b1262c2e6; 0x28580ab962de03a4; 0x5a42158c73cfe0b; 0x9208c5146d94105; 0x51e02215e0b1d400; 0x63d4d73372d09668; 0x8b06f2f8e64584f; 0x1b418786253abe54; 0x2728a804ae62ac32; 0x7911b9008bbf8030; 0x2767380f1b058617; 0x110fe7c48d3cf7cf; 0x4b69b8b342cf88d9; 0x731b0aec508011f0; 0x6f5676f213b7bafa; 0x4d9db74760eb5715; 0x73b113e65b27ad67; 0x219af8bec7bda926; 0x226a149929c3d9b2; 0x5a37d6012857b0d0; 0x6487f26038ff6ee4; 0x46243a5ad4737011; 0x3167b541f450195b; 0x107f8f3b2c358732; 0x6463673348efaecc; 0x545619ddfedb6e12; 0x83247a9f430e162; 0x7fd33f26f5421da7; 0x554c28157b8d1560; 0x31973f0d93d88563; 0x559cc53289452e91; 0x7cc2bf9ecac4949d; 0x43bfc2ceefb1e673; 0x3c322b8bdcf07fd; 0x1ed3caaf190bc45a; 0x4b538ca6635761d0; 0x3c2b205df5bb4d9e; 0x55b6a27f87e795f7; 0x1651ac4661d56c6f; 0x51dec2386d22c965; 0x47fba893409f13b8; 0x5b5771068a54ecc; 0x3557be361f4af8b1; 0x32c292cbd601a9f; 0x327fb88070ed1b06; 0x3a5ec492fee8bf65; 0x6dddbad538679a22; 0x48cd346a854f8270; 0x44bcc91b799f474a; 0x5efdbf6846e9c4ad; 0x3e02755e05ebfadf; 0x4410997cb214902b; 0x479a955e0cf50977; 0x49f3b211bcc2d64a; 0x5178cc784ecc6eff; 0x72287bd674d3c04; 0x31824eb8a6c6c3c9; 0xa14d018ea60d164; 0x3e68663eeed9d27b; 0x6ac7505d9ca88971; 0x78af74da6c8fcaaf; 0x49ae9def6ea7b114; 0x71574f1ab6cf00fd; 0x2877b6a4483805a1; 0x363dae4da4ec89f6; 0x7dfc77d441b9c670; 0x1fc6d6d872e4d54d; 0x4c69bbd37ee660a9; 0x965fd1f1f922062; 0x5d7e8786b09a3046; 0x5bcaa8ab73196175; 0x24d1c0f624409a9; 0x48b98f476ca01957; 0x1679d19955b8a08e; 0x74f8a0388d04550f; 0x5495e91b51a293fc; 0x4e119a5fef79917e; 0x3531cdde55760981; 0x43df8a7869b9074a; 0x4aa0be7f0b5adf7a; 0x48f6b98f9a650e3; 0x1bf204f76445d90f; 0x2457acf3468611be; 0x54b06553dbe6c26b; 0x3b125ed1b1e80915; 0x8ca31f48f205d72; 0x72b65f8ddbb6c704; 0x7c7a626926dbc30e; 0x47d9a6bccb16d28a; 0x211062b6874a7ff; 0x21002f9a51e7fd64; 0x304b2c676e39a45; 0x538dc64054960d89; 0xe80267e28673a77; 0x6dc46348d01236d2; 0x6b2f4cd36431cd23; 0x54f90e1060627e25; 0x1c9e2dfd27030b0a; 0x44f97129a2141539; 0x3aa3b47acfbb9793; 0x131a6ab5a6c0095b; 0x51a8106822e486cb; 0x28e9ecd7b1711be5; 0x3b43eac1a63bd482; 0x2b28699c0418b328; 0x184b180bc9fc6f3; 0x5fa1d8671b85b64e; 0x7d2455386f7a18f; 0xc2c7376390ec808; 0x5ba303781cad9ada; 0x1878c9fcefbabd28; 0x2c7948f4eadd0ace; 0x62b2eff3bf2c3274; 0x46789c5771dd22a0; 0x6088d8314c27c3f7; 0x65d302d7d27495d1; 0x3a10554a76621caa; 0x6eff44c43acc8491; 0x32491d64f51462ca; 0x5f07e175af60817a; 0x2e33c114ceeee8e7; 0xda4e283ee87d35d; 0x70f39e58d304a366; 0x49b8d18ae747d2a9; 0x11ffaded3327a5d5; 0x2a4b369440cfa4d7; 0x2904d0991939f2c0; 0x542e0910b865deb3; 0x3017037623e059f5; 0x7c4e1d608e24dbd5; 0x15edc932458199c1; 0x218ca90cb5fe6b2d; 0x6d9cef32d2eb477b; 0x2ea4bac8e175547d; 0x6195e4e03c391550; 0x40af2fa0d04c6fbf; 0x33c6d9ff76442101; 0x48851b70e1f66bcc; 0x3ed3fe];
   [0x6f6f3ce0c9a985a1; 0x79a639b08acd41f9; 0xdbf463a46c21506; 0x7bee95953a65c6fa; 0x21ea18fd139b687f; 0x7be63e0bc60d0111; 0x1cd0755a528d80ba; 0x432dcf03a3018df4; 0x3d036164104d1d75; 0x4e8ec117ae15e4e8; 0x291fef2981156eee; 0x330d63b64300e5da; 0x15637e96d34d4710; 0x193f7a9963fc499d; 0x2bf6df62c291c912; 0x49786def97a2462a; 0x10488a9c83b2eae4; 0x2d97b0a6f16cc67e; 0x33285d2603059c7d; 0x63693b2977e0e5f6; 0x15e761eb892fb2b1; 0x45733b1cc7eb7a45; 0x41004f8d76f7915a; 0x42dc96378b158bbd; 0x2f03ae508e61d84d; 0x11c86c6f1c1bd4e2; 0x35125b936a673599; 0x16c5585614bb557f; 0x351aa9fe2d9e02ef; 0x1656155fe3f56026; 0x43012536663c57b; 0x5d8cbf52c8234ca8; 0x1f9efa66ad335459; 0x1b8f797875414553; 0x50fe7466ec02aa8d; 0x565dbc46fd915c19; 0x4edceba6493fbce1; 0x1fd2096f374428d9; 0x4a5ca10267f147bc; 0x6a45f7ac2cc10540; 0x3156345ba66c67e8; 0x67ead01198b223b6; 0x2cd86a4102d17fd4; 0x753b241e3c3db367; 0x3c2d630e6a38558d; 0x62c4c48cb7afc449; 0x52cdb7b98fc2104f; 0x75a9cdf0599ca7b7; 0x70b29e917bf40118; 0x5dadace611a6a88e; 0xdc1570b47d0a9e9; 0x25789e07250271f5; 0x20f0be5858817b4e; 0x6a5a62e6a5b94feb; 0x126a60e0ecfa0072; 0x1319eb43eccc3f4; 0x1260d25a3314fe0c; 0x468ee41054eeccf2; 0x601f3e0fcd315ac7; 0x2e08ba077a9c15b4; 0x3c4fe88db7519ad5; 0x4cce622358ac8f16; 0x5f758e46f3feb342; 0xd98cef764efd674; 0x128387abd610a1d2; 0x1ec79c4133569332; 0x24edc98c267ee959; 0x51a2bfc4738cfd87; 0x78352d9823a33db6; 0xfc772f4137eb4e3; 0x5998b1ccbf303568; 0x3cdd9db6fde85806; 0x52ef0d63e747b60f; 0x61db57b716eb22ee; 0x464e848de1516e9a; 0x2b983d62de3aaed2; 0x7e7457d1182de956; 0x41651ab584d8a55b; 0x1b8b0d900c4d9234; 0x4f83bba36cdbb5eb; 0x62dd6ba563cde255; 0xe6682688bb00964; 0x638e7e3f4dcf9d00; 0x6ea836b4d8ffed12; 0x4da3dbd479c2ef61; 0x537794601f056b2d; 0x176426c1b7b548f; 0x6a65c543413d0944; 0x65957f767a8fe2fa; 0x2edf11b1ecf34210; 0x4ae1416e0b1f561a; 0x4d100d339fb4fc69; 0x7ec8faeb436459ec; 0x6919ca419627a7d8; 0x6530e8cdd42aee56; 0x2d29ef972f36e289; 0x68d63edb85f07b2e; 0x71fec8f5988f530; 0x5d29abd67c14fb02; 0x5881998da70123f6; 0x38d7d977f9dcc4cb; 0x45480be1b34efa71; 0x234a4f763ccb331b; 0x1eefa7a9e05dc5da; 0x2fdf00561711352d; 0x3b588b4ba1089406; 0x224e40982aa1b194; 0xf3c91beccdf636b; 0x501af7c1b05a8322; 0x656777c80ca56c78; 0x3216572e0150b982; 0xbdc55cf2e698ca9; 0x29210200cf9d3afe; 0xb070d44d4a7e20; 0x52f550de500f2f44; 0x5999d2c5ad01bf86; 0x5a77dc73f278818d; 0x2a3abe648ef2e1f2; 0x54f4f3099bcb5c79; 0x1a658c9dd90608da; 0x4dcb179eb662034e; 0x226276b995d0c099; 0x60645f4db1058acc; 0x1a2ba651371a3229; 0x2927aa0bc418293f; 0x5afbbd4425129978; 0x1fa2f1e251aa3396; 0x139a41cb94a3047d; 0x298dadd93a8fd4ae; 0x5868bc3da21709e9; 0x656e041d311404fe; 0x2d935628120031ed; 0x1f4aaf32c5105f16; 0x5a60ea9f4fe2c695; 0x3775b05e264f8c01; 0x73761cb2bf5a7d76; 0x79f0f81750341c4b; 0x735ad91ce1a25cd7; 0x1e2ceb37fd6df386; 0x3f1708763b099f52; 0x723d5d8803c6eaa1; 0x587f88d68551bec3; 0x3bce9979c02b5f75; 0x25a7b463785b1333; 0x30c0f87c1bc787f; 0xa4c7fe5d550d959; 0x14d3d82391986f14; 0x58c3f3226155e64; 0x6229a90bb5db0463; 0x3f2d2f4e7ca8013c; 0x5c9afca7274e5124; 0xb07ec0722a61e74; 0x45775852f12a9cff; 0x3e015fbb24d0db90; 0x7b2451718bb4c1d3; 0x14edaa06676b44bd; 0x2e4ad0765f2a487; 0x35d98236477f2861; 0x5aaba7a91a4e5093; 0x14488d822b81fa2d; 0x365814e9b3df1f7f; 0x2b7e3c9f6d4a36cf; 0x1fa4a92efb5f1e30; 0x4c36e31a4bcfa27c; 0x38e8a7d032127fcf; 0x7d15428671cdeb8a; 0x1955b728a4812b5c; 0x7d345618884227fa; 0x7341fdf00572676; 0x2bc5d58474fa1c14; 0x77042e7256239aa1; 0x741293830d143638; 0x560ecb3211c89969; 0x4dd860a3504256ef; 0x3d20da87605163f4; 0x7065a0dbf103c10f; 0x3d7cc63d666c740e; 0x794978a33bd7ff3e; 0x7d40972b7632ecca; 0x33cc38fba897003c; 0x1909d5644fa48fad; 0x46ccd5cc62473baf; 0x38753ed60c376d11; 0x450d956f343d321d; 0x22d7c54a9831e0d9; 0x1fad824d88401272; 0x3046a63b3896c72c; 0x37ea6efb86846f85; 0x73aa0750e67f614d; 0x1629095c3fbf4a63; 0x256f9fab493a7f76; 0x6724f2da5265295b; 0x5e638dff9325e0bc; 0x2bd22cb4145ff026; 0x777833facb22fb62; 0x280f713762889533; 0xe9b352387536fcf; 0x79d9404204c6aa7e; 0x4ebf239865e1a71e; 0x2cc7eb828f90f159; 0x6cbccadd63f7d67a; 0x38d55b9cd15bb7ee; 0x5bbf54c20647d69d; 0x33a39fb653d15666; 0x1821ce2ee05df258; 0x22e6d05b557c157e; 0x8c7a51b8df08193; 0x5e9d8a1f0c5948fa; 0x7393bc6744a85188; 0x37958559f06271e2; 0x1d3c4a5ca5fcc121; 0x169d220627b702de; 0x33d0243072762c19; 0x36fe86d55b4e451a; 0xb91e864b764883d; 0x475307a515acc927; 0x48fedb7a2f5c3de9; 0x1d4e77fa7218746f; 0x5f9725e11b00882d; 0x48005d4cca9f88d1; 0x4b861e15c7e26a4a; 0x488a74eb0548429a; 0xd5761c93b6c3d82; 0x1adfe33fde7af024; 0x502c63e43c2ad212; 0x3d277c38cad95af0; 0x2abcfe65c7bbe5ca; 0x1ce0ff5b78b9a863; 0x1797ea5102cc590d; 0x373b94d537bc3571; 0x16f551b1043259c9; 0x7c8526dbde99715b; 0x598c1a1f969fa7a0; 0x28d64791eb83ca87; 0x266afab0a1d2f8d7; 0x46eedf5aa3e84e1f; 0x1897bfb3d77c4219; 0x1caf16223a6e5fb0; 0x61feee77ec76a80e; 0x1f3fb173747bc029; 0x59e41b7805e022ef; 0x5d4b5ac6aa8550b5; 0x6cc25a945734f4ab; 0x31547036ee3aa9f; 0x6ab157cff1077d70; 0x669fb33dc0939e3e; 0x75615f7569b1bcc9; 0x59fae564f32491c0; 0x77c870fdb96bcccc; 0xf77ad6537cb8c3a; 0x638e33bc2f0c50b5; 0x357c1b650a4481fe; 0x147b55d9926edd92; 0x4e41d8ab64b312b5; 0x7cd340b174b2876c; 0x725e6f22f0f6e70c; 0x3725432eafa4050; 0x5c7f1695d3f13f98; 0x5169bc6b71c78e52; 0xad90301eebd0cfc; 0x2b3b13c26988f52e; 0x5318fb65b25537d3; 0x3579ae5da930e6e3; 0x67d2726637ea53a3; 0x4fd10459dbe00b02; 0x330dedc45275152a; 0x5710c62a9f6c8f48; 0x400fdf99c181bccc; 0x17bb2bc3d577a47d; 0x77f4e741529328e7; 0x7004d5a6ede3f398; 0x603f668c5e032b7c; 0x3f745a118ddd6923; 0x23a09e583e49b99b; 0x651871a33ef4efc4; 0x587a8f01a3d09889; 0xff15b9f22a68726; 0x55236017b329596f; 0x7cd32bbdc89a81ac; 0x148ee9309fea76df; 0x5888ae275cac4bc6; 0x2f561a1e6c99b5de; 0x78f118a45956c641; 0x3e17e607678bc0d9; 0x603448df186c9d06; 0x45a7cd883ab02f92; 0x689f7c76385c36cf; 0x737bd5d6e5aa3a17; 0x5ac67c5b344d7f57; 0x488ff6ff86d3028c; 0x628af72167976a13; 0x242f8acd11f20b5c; 0x77ee525af7bffebf; 0x1f9a0555dad589a4; 0x1710525936229f82; 0xd66f4c8c04fd72e; 0x394f7ef745ab24a3; 0x69101794529e27e3; 0x4b597fdcfce3275c; 0x5cbc7f20a07693f2; 0x6c9488a8e6d0461d; 0x26b0cc79f1933877; 0x66521b6499d2df28; 0x669858adb06b7b04; 0x44e30ae4c2a2dd2a; 0x229a7ba239fc17eb; 0x29ab4ec75ed255f0; 0x465148ceefda1ac2; 0x9c3a17c07ca968d; 0xfed3490bf97e83; 0x1035da94e20816c5; 0x7f5bcad3a4dbb4fb; 0x63f9c666d6b1b1f8; 0x56adb847ecd41790; 0x156bccf43d21414f; 0x549c8e8a2bd5ffd7; 0x7fe9a9fe035b832d; 0x268c90];
   [0x63d4adb87b064146; 0x429ba8521575eebb; 0x40499ac37708984c; 0x165532589a511f7a; 0x99b80745484ab22; 0x6312e11a1a8bc4f5; 0x3f956feeac57bf12; 0x4d0365b62160cb3f; 0x2ac04a1f1c696d25; 0x4f744ad0289cbd57; 0x15c32fdffb03cb00; 0x19478d0d6d065a40; 0x4005addb5e3d6d05; 0x56a9d42894137bba; 0x4e451f1b7dc9dc1; 0x52f763f69ce16987; 0x7a3b0d00182aa441; 0x45d7e3a95af45199; 0x4df0fb902be520ac; 0x3af8fa84f087b5f4; 0x393cf69dcea7b359; 0x596173d99111b947; 0x1fb29749a2551340; 0x55fe84b555fb3b2b; 0x4b25e9701e983cf3; 0x46bad3d45705e3ca; 0x7550ebaef67ab435; 0x53d5ce912bd477ef; 0x22dc13a6e4db9711; 0x1ed2d22e358d24b; 0xc9785f2ce6f1967; 0x1eb062ec9eb32715; 0x14cdaf1f7e34ec7b; 0x3a2ec3d5e6c7cdd8; 0x4be0a17eee16d693; 0x40f27f934c64187c; 0x2ce1ad4f6bc923b7; 0x30d935cec746fa89; 0x5e9ab7e2254a7463; 0x709e1411ca7071c1; 0x5c2f1864f8746c16; 0x7b2d151722b47e5e; 0x7d6495c913276cc2; 0x4bf0d4ed0d16076a; 0x71cc55a6c8b6cc6c; 0x108f649d0a60f96; 0x4a0293654bb876ec; 0x12fe38eca809d1c8; 0x2fbbfc008b86ddef; 0x5db89698d32d0d17; 0x4e6763280b0c36d3; 0x71006c094e13cf49; 0x35f5b4982406f7c8; 0x579efe84ac5928cf; 0x3f34ebf236110b1c; 0x4b4b7a988225b741; 0x26914685f1e25f42; 0x15f5e14db665a0ec; 0x288fa3a60a7d0bd5; 0x6a4aa5cef139d7d2; 0x6fbbb8dc7e4a4025; 0x6590004c0d786aa7; 0x60d2bfe4e3d51ef; 0x732c3eb22aea0c50; 0x1253c2556cb89ed4; 0x73a78fa5d89897a6; 0x1653af6510a08a0c; 0x10ae7fbb34b24c41; 0x40e43033f233c734; 0x842bf4b496641c5; 0x44fd54e5654ee72a; 0x6d7e0c414316279c; 0x295edd66f111acd1; 0x5c04f44bbe5f0819; 0x499cb83de098141d; 0x36c91cb03b713e7e; 0x322b7626b15962e; 0x2e09bdb8ea10f144; 0x1f60604fec6af7e; 0x3603736fb1107199; 0x73bcdace72f1950d; 0x67fb6a67e895165b; 0x28844c4bac54201a; 0x4d7c45993cdc3ee1; 0x2a921b0e10c16f6d; 0x79229a863c66491c; 0x2fb030195336c74a; 0x1de539de631290a7; 0x350ef018b4ed7ede; 0x3533c2b4004dca0f; 0x1f44c0b142311de2; 0x68a73ee4d888621b; 0x71a900973444e218; 0x2ccdf5ccb693219a; 0x1c7a7488d1feaa5e; 0x160d9ae6a1d5e623; 0x30d6cd9d7f4766c8; 0x690f8a30ef4e2cf6; 0x7fbe6cf772d704a1; 0x41efbc2c5d826084; 0x5267d2ff94e788df; 0x44f41b8a93cd2137; 0x241677e9fe2e74a4; 0x56d0f71250700681; 0x43669b8f99d41580; 0x1023715d2381fa92; 0x2cc78a36259240b4; 0x1de4f6ca211e21e8; 0x6847a5a47cfd8873; 0x4607b5d15ccc6d06; 0x72ee46c3666f18bd; 0x11916b4a9f38f4ed; 0xd29c2eedcb90bb4; 0x6d840d3d44764d8b; 0x4609cd3a5c9164b0; 0x32c442c9fb4ed85b; 0x6c9a922ba5da2d92; 0x427c91964329a2f4; 0x51e8007ce3264e1a; 0x4d0e40dd3a325abf; 0xd28f4ed65ad7f78; 0x5b08e7a4235b6e8d; 0x618344afdd62c1a3; 0x4c031eed53c7d687; 0x43154970462dda68; 0x75d33c9db0245121; 0x6870d94f7cc1bd4a; 0x2eaea4ae4d98e644; 0x43e9907b26b995dd; 0x24be6be20d5da9a2; 0x4e467834ee8d2c9f; 0x778398b1760077a9; 0x15f1148ca6c45a47; 0x53ba292bb3eebbec; 0x7c8784c75c4d7e57; 0x506274c0fd6e3b4d; 0x45bf07b978926b27; 0x2d44c63a0c3f787; 0x254be90de1aa5557; 0x576f57cb744f483d; 0x270a6e2212d7c794; 0x6e91c47177ea6c3d; 0x46db7ad40cdab986; 0x32ad5248a630063f; 0x5206c0d6469679ff; 0x6ac9c48dd9d8154e; 0x4e972569a8b856f5; 0x37b79ae9950e7a6; 0x5bd19aea68739d6b; 0x13494c125d9fdd82; 0x3c176a67f1b9e0ff; 0x101c4bae9c731d36; 0x3bd303f7937ab3c2; 0x4ff1db27d4393f2f; 0x33648005b3db0928; 0x3ce37d32bbc7a4b1; 0x67370d7b26e49c9b; 0x6e7ce80e85565211; 0x64008548cc7f1d0a; 0xe829838491c1e2a; 0x29d7eb823e501af4; 0x6ba9836cccc20040; 0x28f77d512b3a5b93; 0x40e429f58a69fb05; 0x5eeeab290060a93c; 0x549daab87b577a25; 0x20d15d1050cfcc7c; 0x67cbf781367dbb91; 0xb30d6044130d5f9; 0x49c96fa165d3e1be; 0x43336a587bd66df9; 0x1a8d7e61ee9bfe88; 0x7ed791f9c8dc76b4; 0x7f343e25180bf215; 0x3923cacd4f9d2435; 0x627b9ebe10f7e19b; 0x13699d871fbf12f1; 0x72c02ca92ef80823; 0x324defe6f55cc3ff; 0x6cd679c3af41b8a; 0x61b709c0b61ff40f; 0x26813f9b9e4b0ea5; 0x6f22cfaba988b8ee; 0x7efd3b2fe0189b31; 0x75e3087b39cb2407; 0x691273c96204dc95; 0x15206682c404b12b; 0x746088324df0bbc9; 0x4728aa2157674164; 0x77212ca429483774; 0x394659f46f00a28; 0x59fc8c2ebcbf83; 0x466c63e3613f8b55; 0x652fbfcb473d2c37; 0x69640edea586dcfc; 0x4aa6db0feb119cd0; 0x65fee0d05644e3f4; 0x133b3bc3ef5e90b; 0x1ac93b01cfa5b28d; 0x239a5c2cca561d03; 0x261a2d21f24f91aa; 0x2c20fab60a9690cd; 0x45c63abdf45bde6f; 0x42860465406f6c6c; 0x5ccb15dd4404e17b; 0x12c41b02fdc05c35; 0x2e58aa49bca8e563; 0x151dc97477d99879; 0x52bc44d6bcf4541e; 0x3c08f9edaa99e0b; 0x2bfe98d1e2dde131; 0x5c6753023ab1cb26; 0x7a4ccce3b50936f9; 0x529b1b55b9cc869b; 0x2b0c52b130012e28; 0x45157225259d3b70; 0x6408943394aa9a7c; 0x5188944ff7a1dc04; 0x4f46f2a3a0e898b3; 0x2431a6e8caa3c82d; 0x1a6c765f0979cf6b; 0x7aa6e9806d8a9601; 0x28683da3db28ee0e; 0x38bd0fae5dd20856; 0x334f5c7132ccdb88; 0x2993b5be9bc247d6; 0x73a9354d5d83b1a5; 0x4c350b0733bbeb66; 0x249b17fc292163f2; 0xb6d0ed8613d8ce8; 0x3c85fa1de6872434; 0x2bdb02e44bf25836; 0x3d3029f8d7cb66c3; 0x64cceefdcfd9428c; 0x16f6b1f3a188ebd2; 0x607cbe24b02d9aa5; 0x2fb4485c12c0d5de; 0x60464db4400d65ac; 0x5076449d78c8bd0c; 0x7a0fb06bf313ae97; 0x1b264963b482c72f; 0x59826fa63d6a3b5c; 0x74a53ac21920f299; 0x69e1e4b5c80baa96; 0x2cd46d7cf5a391cf; 0x2f18c82a73ae67c8; 0x891f029bbbe64f1; 0xc155c70348ec39b; 0x643d0a3b33957aea; 0x7542aa3facab8955; 0x43be872ad30256c2; 0x3ee194b4341583d7; 0xd0b2777f491a53e; 0x63b8604bdb2d80f8; 0x6899681ac8f4dc1a; 0x26898212833bc255; 0x5737fdf6a5d054c3; 0x7369221d02c8d9ae; 0x7b526509c2e4ece9; 0x531fc870305f7936; 0x30ba0c0ccc490971; 0x647a3834021912c0; 0x16b7cc93d674452c; 0x6e288c891da5f99f; 0x133f5c20b29406b9; 0x6b46e02dddfd8f85; 0x343aff1c8c5d5bad; 0x621c71d60566061a; 0x24dcbe3722965780; 0x659babbce245b59; 0x2e2cf2eb390b0f29; 0x6be8638667ed401e; 0x23e9bd3046eb7cd1; 0x66e26372568d2e87; 0xb5db08bf5ffd7bb; 0x505d813001a4b2f1; 0x147a09f4d7b465e8; 0x32ec8d97d0cb50d6; 0xa1d14867f790209; 0x65ebadbf04b20cc3; 0x3d31327039b72902; 0x6b714425626d47a6; 0x3561d12a77e1bd45; 0x29f8549f60f72dc5; 0x4ae62c0398d0e88b; 0x31c922fd06d2bdb; 0xa44309fcdd29f7d; 0x1617c1c3d7863fd0; 0x6775942a3a5ec2f5; 0x34159555cafe7816; 0x1ca1a50f7b4ce315; 0xda90c4ae4da09d3; 0xe81a67876ff7344; 0x427c0dd96f4a0f11; 0x4de9eabff4efe654; 0x7afd1d80537c1a2c; 0x1d49a807a09af6bb; 0x6ee861d381f2929d; 0x2670f4e2881cb65a; 0x56a569b156f5c529; 0x46812389ed108d06; 0x20a56af4ef766b29; 0x6677f8777bcf6dc1; 0x220755c214194a34; 0x65ed487c45061c1; 0x59ac674d07ee87b4; 0x3c386fbf3eaf1179; 0x1db68fd66b9d256b; 0x200688b51950ca3f; 0x2c3d08bca626ab48; 0x7f59c6567efda7e4; 0x163cb153c73feb07; 0x2137fc56c022e8cd; 0x72879bab3a4ae2; 0x45102e5f87309ac6; 0x3995893cb4a4d1f2; 0x3c4ab58ccd179f73; 0x1eff17];
   [0x936f0a6c1a28509; 0x692bdc7970c547a0; 0x78143ed996ccbbcf; 0x26054f250a791910; 0x704a34fe3d11165f; 0x2e1dfd99960db2d7; 0x32049bba091b8356; 0x623c3c6c56de36f3; 0x13a76f3a4c30b5ae; 0x7558895698a12274; 0x41f749ea43af3ce5; 0x56bcbab53ee56e86; 0x20aa9198001c3fa1; 0x26e9aac6bfcd224c; 0x6545f144335a89ce; 0x2cd8f22db5ab16bf; 0x2af0a25f796e91b1; 0x21097532a557180; 0x108090cde070dbb4; 0x42c8ad9033e528da; 0xf872f173fef8664; 0x27af251b48be259b; 0x303a98d034ad251f; 0x10041f45ec20d0d4; 0x797fb836a5a08637; 0x7bce18c8afe6efd2; 0x64651e652aae1c84; 0x69e6de3d1019d561; 0x3ccd3b8744a0eea1; 0x4fae254468dbcb0d; 0x60f2ef58da3aa6ef; 0x4a332a2b95186663; 0xed901afacfdf7f5; 0x4e6a07a8809dcbd7; 0x555a22cdd0cb2ab; 0x101968a6b54e74f1; 0x135032940cbf9bd7; 0xe652ca053457633; 0x13cca258f85e0a3b; 0x46690692212da013; 0x181339183d5fe29f; 0x413f853bcdc7befd; 0x1b709a532505f892; 0x7a731778dacbf425; 0x192ea578b9f8c41f; 0x1e6ccbd173ab6c4; 0x2437cbc559b4da58; 0x27bd928ad37b3833; 0x5bd83ab118b95eea; 0x46c76c7cb66aea71; 0x669e24f62969c71e; 0x31bb3ae933c1055b; 0x2b77a41602a946de; 0x17a50e1b00334bf5; 0x721ed1632104151; 0x6baad8a541c10dcb; 0x4c4196bc9ae038fc; 0x30c9638e6e4c32e; 0x7d3a1f0d2f26b24c; 0x791bb2aebd45120; 0xbb8fe9c3db6141; 0x6442e4017f474d3f; 0x4397d9e8355fc879; 0x57c7d7d5f18886c3; 0x7f6553aca4774f9e; 0x7d3cc22620a00d76; 0x35965d8d2e81f5c0; 0x27fcc35a8751d9c7; 0x4f40907a0946d069; 0x53168f9a521d7a19; 0x572c29b286c8692c; 0x3adb96dbf7f95ca5; 0x7c69a6f7ce499f22; 0x5bcb4d597da28bdc; 0x2284cee9019967c4; 0x17f0a394ce5fb934; 0x4ee3090a57df495e; 0x330e2659d9ac6040; 0x3e96ace901103eea; 0xa768f07bc0c5e70; 0x497927c03f8fbf88; 0x10cc6d9e1024828e; 0xf9791e079cc68aa; 0x2cb7f52454e091dd; 0x7f610a53bc34158d; 0x863154e75bd251a; 0x27c7a54fe18d3c69; 0x7e11f4ce71f6a532; 0x76bd844ec3adc83; 0x759bffb0ef0f93e0; 0x129ea7f495af6e86; 0x4e3489ba24d481c6; 0x147491e14f1a4977; 0x23e3e02661678946; 0x7cd2cdd03a7eef7d; 0x2bdceb45a8f1fee1; 0x2b416a0b9ba7b318; 0x40d0ac9eb78b220; 0x6ebb30049e985c2a; 0x38667d8fc60f5b7e; 0x332afbb400688695; 0x3a4e2d01c5aea0d; 0x7935b02978fa4db7; 0x380ab5c99bf9d30f; 0x6485a4972e1e68ef; 0x50dc1d8961481ece; 0x398ca3f95f285f27; 0x275a68dcce972d0c; 0x1073bff32aa1d239; 0x37d12b346c0a7ea7; 0x4372dfc0028b0b2b; 0x70e48bbfcc409295; 0x33245d00f8a0ddfe; 0x61f4aed7e073d379; 0x69b1ec74d7deea31; 0x19e42b593b31d8f7; 0x60c1229d1d5288d5; 0x73a5b746eeacf05; 0x3b24c04ed4e07036; 0x644e32add76002d1; 0x1dbad5706f07834b; 0x40655370a1bed167; 0x4ba23f45c1d56447; 0x17f39d200e3a9e1d; 0x716a110adef00c84; 0x7fbc05e9b2c5a64f; 0x6e2e076a507e6bfb; 0x239d944eb6e70e03; 0x2588fec3c3ff15c5; 0x827928e556b100; 0x2e497ca40db99fda; 0x5330dd828c566912; 0x656f25602195723f; 0x3530ac318c8bbc94; 0x7286aa3e5caec25f; 0x362bba33fe1b4551; 0x5569cbbcdc570b76; 0x570ba6782be2a501; 0x1fd42b12899daf6c; 0x2d0c50df174910a1; 0x427c6de41a8329cd; 0x302a35bb34f16fa7; 0x664514a825df331b; 0x1f1a16091ac70bc0; 0x332057ac29b6f7b6; 0x5b61869c003309f5; 0x4c16d2ab75e8964d; 0x311536f480f49f56; 0x108c75e67e985098; 0x2ebb9f56b00f87b6; 0x2eb375bf47015f6c; 0x5dc0ad4e530fecbc; 0x4f1d9fa9d3cc64de; 0x7226609cc2ff41f7; 0x789e5ac04c8cee45; 0x495135e6c1c2625b; 0xae4d5ccf6a1b1aa; 0x32a64c474857b6e6; 0x4b4942d36eb01cbf; 0x4813288eb4dc8af9; 0x5437f9525373d84e; 0x2e14539f99605630; 0x3fd13ccab16c0c79; 0x754e99edbab62e80; 0x528051f773bd50de; 0x781ae2c3bafac389; 0x50e18eb161ad0235; 0x4253d6a5b5cd8eab; 0x5623955b85a77535; 0x6ef0271eb5cc9f73; 0x7e47e2215dbd76ca; 0x4d93d0c131d063b7; 0x30bdc306aa9bff4a; 0x50550550f35c231c; 0x474e44801661e822; 0xf5d824125384514; 0x3f96cd61eb63ace9; 0x7ce48b3efef36a5f; 0x1ce6e938c8c0b4c9; 0x356519342498cfe4; 0x7a9294c6ff851481; 0x7994beff52f91cd2; 0xe0b2cd63668f7ed; 0x3d229449ebcb7e50; 0x216574c9f9b4a824; 0x43de000c0879ab9; 0x4e6ee6c4b7acb5f9; 0x1b08f260f6651348; 0x37bb38dfa38d6355; 0x600688acf23dcc5e; 0x72ee74cb8eeba2e2; 0x5514820407defcb4; 0x88d8c0d82324c1; 0x20aa2a8f0c34745b; 0x28b3ce6bd47c7d8e; 0x3ca060d6783d4c9e; 0x3ec72c3971e030b1; 0x5e33972cd5270a5a; 0x79f594488e126f6d; 0x4d3b1b25c6d2b73d; 0x3ef3ab3d0ad3b4bc; 0x8e5a09ad5a65bf8; 0x11f3d6c4e83929f4; 0x2aeff108779c4de7; 0x85e591a0d305380; 0x38b078ee47cd819; 0x2e2c08dcb1e34b18; 0x1779df249fedea36; 0x3e16038690be17e5; 0x5887d33c34399813; 0x26c1f75b46318b; 0x51d96a3ec099d26c; 0x5cafef6ced167283; 0x1e07cc7bf2a9425d; 0x1ebb89ccd6f67e5b; 0xab7670e08a7af92; 0x1f6af768b984ab9c; 0x41e12df7eac3915d; 0x7ce00b758f0ff519; 0x219f0d1a18b784c8; 0x74a81a5fe1815dd3; 0x407546647717db9; 0x6a539f8b3d48194d; 0x41029fcd90accf0b; 0x199608e68d9c495e; 0x6e5970fe392d5544; 0x5b685b18ef8e459d; 0x76d3b8fc7c5cc55a; 0x4a52998676d50871; 0x3a80feee1cb56252; 0x7e8654fbe4d4bb9c; 0x8e93e376f9fed70; 0x5bb580095ea12568; 0x7911e75805a16819; 0x2ef87f654c5e09c0; 0x11c9863ec2d5c808; 0x48dbca181ae40d52; 0x4d50f4b4e00c6a25; 0x4e04c6dc4a3169b9; 0x75ac04bd200682fb; 0x9951faaf8349ba7; 0x1aabec378581101f; 0x6f9ea7e616d9fa6b; 0x2e5f5433c0bfa49d; 0x56e3081b8b9d5214; 0x233434036de3df48; 0x76e7d3cc3ea29b96; 0x5b49272285b7a452; 0x3a5de609d6872bc9; 0x525877bb65cd5d9b; 0x2be4e74684d399d8; 0x7a20decc119a5028; 0x2570da2bcbed4c1e; 0x612c0461b1b25603; 0x71a831cce36e8d23; 0x7a2c4c91fe796cee; 0x74d15f4cbd9841cf; 0x6f481b8ea4850bb9; 0x63da70ae7a23e4b8; 0x11287211a0c55831; 0x4324e8f305459164; 0x67679e6981bda6c8; 0xe1b6a8a2924e22e; 0x575c632b18c8c025; 0x17eb6fe7727d4699; 0x7aa21643e5ff442e; 0x3206f263cf4d8a04; 0x607858df49262a3; 0x27ffc4c449ca5ed4; 0x26a5540727ae4753; 0x336321b87d223f56; 0x5ee2ad2309b5d35e; 0x3b20255b41b67d8c; 0x6129a709d019871f; 0x54534147768fbf4; 0x54491853c985896a; 0x64adb1d8d7cdacf6; 0x79e628af5678eea2; 0x2f1c295fe2bdc375; 0x308766e1b450eec7; 0x7f851ffaeb6738cc; 0x6ffc98f3c7b55c1b; 0x5cbfeb816c7f4a29; 0x37f6bc807a40cf18; 0x6a74afadd6a53f31; 0x1d307635b2e3a27c; 0x6710c99abdf5e0b0; 0x18c8f70ee67d8ca8; 0x5cc6aecc80d014f5; 0x992a668290b45bb; 0x1a06858fa1009342; 0x14e8f0344e69b41d; 0x78055eac12913bed; 0x5e9a325240fc135c; 0x49a19e15e195df9b; 0x6d59ad875fc7c045; 0x6656098c1bb0aab1; 0x725ae27026faf3c3; 0x307b0941ce090a45; 0x56f55c57cb43cf7b; 0x5cf5a033b6c81dba; 0x43e344211bd44da1; 0xbc79f454b747298; 0x1ec3e5d80ef65b11; 0x3cef3458f95a2034; 0x23078b90fecb681e; 0x1c4b83b959dd0cb7; 0x7c195901c13b591b; 0x24079f2286738d64; 0x643226eb2dc8a97b; 0x1e99ccfa220e4de3; 0x763fcd703bcede4e; 0x1717b8312c696a70; 0x8d46b22a2299914; 0x2a718323db2d4210; 0x4c6f6f7c4806411b; 0x4ac789a77f52f328; 0x24fa79];
   [0x3052ca416b89c3ff; 0x1f434deea13487c4; 0x2b5afcadcf686b3e; 0x6d2d1aae99010090; 0x1e9adf17f4646660; 0xaa5d1ef5e3bcc44; 0x11c80226a3acab48; 0x3951dce564cc6ec; 0x7e0186b4bff8c705; 0xfa4f37ba273014; 0x52dfe154517dd638; 0x29e4157450eaee7b; 0x3b42ab14a1b8b007; 0x409ceab00dd67586; 0x66d509bf02786141; 0x5a2a20a3f231ac4b; 0x2b27929a6d5a1eca; 0x4035e9fa86f11c97; 0x3748b9153ecb75f5; 0x18c0a41586a84a2; 0x293a6ae738ababb4; 0x1fb0b9562d798f83; 0x4a5904d57bd3be8e; 0x5b98d081bb749ebb; 0x63105569a98e037e; 0x7a08f4f725b76b4d; 0x24d7549f1f3cc3a2; 0x2702588df7b6e11b; 0x778e185ad6846b75; 0xd520e891d97b253; 0x61c56c41fb6a6a21; 0x1c6d081ae286faa4; 0x24a75b436c27b169; 0x7ad0c364d4e2f084; 0x3537bdcf61ce1902; 0x587b6ca6651351a4; 0x66873bdcd1a3599e; 0x1e115955d02322c8; 0x4756f10726da05eb; 0x3b0a73e639913f87; 0x232a7f800488ef8a; 0x1bad9ed60d634958; 0x314af5956d79834c; 0x2398cca392afe77c; 0x6ac960c6134b2461; 0x66c6b3adc6bcd132; 0x188b750f1b2dad8c; 0x62d63abf24f0dfa2; 0x3c6e643f1535c559; 0x470bda52e02a09e9; 0x376efb66501fff3a; 0x6951f9bf560e2be4; 0x35ea62239918170f; 0x6ff3c525d192204f; 0x55a6b0370e280267; 0x4c97d6f2b3d29e88; 0x6e60dc94a9ac9e42; 0x7566a4bea79621b7; 0x6a4634bd5e90d1e3; 0x5c032b000e0de8f5; 0x49b1cd3d67f33d57; 0x173fba488936bb06; 0x508253857bd11933; 0x504feb75b9ef11aa; 0x5c88cdc7b9f10b0d; 0x45352c1118c66807; 0x7225a5c0020b3c91; 0x33372120013fb3c2; 0x73e12e0266987d27; 0x20442f7701dd61ab; 0x355804ce426b09a2; 0x15a595ac72b0b618; 0x11e4c2ae4027550b; 0x1cec2fc1e3380b99; 0x118cd4f3d290fbe; 0x122ae7710f38ece; 0x7dc1413cc9febab7; 0x435e63f10792d15f; 0x18e5ddc7dad62bd7; 0x6c9ad24ab46f4396; 0x1953945c9e743483; 0x6c0c187631c84b3f; 0x7e3f9ef5a275b307; 0x1fe94cb06d1067b7; 0x71aff73ef0709963; 0x311ba0006605757e; 0x76e8b2d7e2a4510c; 0x1cbe9ebfcd9b1c6d; 0x4e16e2ce64330ba2; 0x6e0e9ff7fed7ec04; 0x27245a39469553bc; 0x58d02400271098a9; 0xc38e4e458d4199a; 0x5819b290804f602e; 0x68d68a88fccfd237; 0x3b9991c1ecc9af10; 0x4b2e7f9394264d33; 0x3ca4d1adaeb36a7d; 0x7e7a290b62db9292; 0x3ea4ba55286f1ace; 0x2023f56a818a5f9b; 0x60e5ddfc3a5b5de; 0x4ead8b65b1d3118f; 0x387178638e9c9cb8; 0x76b0c1da1db38eff; 0x4481e664dd8c13ed; 0x38596a2653a984c2; 0x20f291141cb8ff4b; 0x16f454a9e4fd8b69; 0x7963093f9bd7643c; 0x66bc30b58999cae0; 0x52980c33225c2962; 0x5d49286bc3dfa974; 0x3091f439800fc985; 0x630b6fe118d01010; 0x7543de0021a4f1a1; 0x4353ac79ac04abd; 0x20c2ff726650b75b; 0x74842a0719f517cd; 0x2a227a75b3b94cbd; 0x7062403dfa3d64a2; 0x5f276bab5ce511c9; 0x1a6d78eda5199586; 0x7ef85fbf467a36ea; 0xb265bbe21fff1b2; 0x57e6c2c890bb71b1; 0x7b5825dd56b8526d; 0x363d93d0d505d7ec; 0x6305e21da3ec049e; 0x5745d7f3492f7ae2; 0x5c48ac921dfddfc0; 0x4bafecf33b8b56f4; 0xd84542022f3fa37; 0x659b519aba329a35; 0x19ccd29b4087f92d; 0xe1f3858bee8dbff; 0x36a22f7bff5b4616; 0x68ac10698603eb7c; 0x167a8333610f1df6; 0x68999c5fe126936; 0x12a36dd24d17cc66; 0x6037491a8a247d91; 0x149a891c21dbd019; 0x659b6a622aee5fd2; 0x39f9c0c5953ab23b; 0x19e58786104741a; 0x563dcb397d5f7e09; 0x3596f0ad8540ab4c; 0x214f8bedab6d7e32; 0x2d455f07d8afb06e; 0x75b7c1b65edceda; 0x53e8deb430d98b83; 0x22ede6f7df8e6f01; 0x2aa717aa9dccbad7; 0x732cd2e557c89116; 0x3ea60a56021bbd58; 0x64ae69fe64ffe917; 0x4e150d9cca9068e3; 0x9df54eeee9fc86a; 0x5356de0722190a60; 0x4f0037de6949a8c6; 0x5d44ac204ff04212; 0x2fac01d8eae3fb2d; 0x1a2a68dfaea7949; 0x6129f38abeb7362b; 0x34a49598f39d5496; 0x30a31a6751269d60; 0x6feef169f3b5de80; 0x44fe313a6317d755; 0x3bd49d92fe1412de; 0x11fd589eac749932; 0x53435926cc70331e; 0x1295c11bd4a63f11; 0x359f9d626678e1e4; 0x23a79555ec59efd7; 0x70d06c0223ed7eb5; 0x4d2fdfc95cbadb47; 0x4559f69fa917f9d; 0x3e7a620c6df25935; 0x8f25ae39ba93142; 0x67a5afe212294e18; 0x5a14aff10d4cf459; 0x20e9fc04067a969d; 0x10809fdd637be387; 0x36094e47bb3847a; 0x7e28b8a7171ac3b1; 0x3eaa6e081744e530; 0x934e68d2cbb6251; 0x6094c1f61f72504f; 0x69e73531b42054d2; 0xff039893ac4a0f2; 0xa596a78caf4c58; 0x460b10b46a64c5db; 0x15fb16e01420f17a; 0x62340e43f172983d; 0x3c8750ee0a1d4217; 0x5ffd09565302b2c2; 0x4897771bc91449bc; 0x7a5b4c74b9110f14; 0x919f19e2686cc24; 0x3db21ac31ae826ca; 0x53930f52dff944f5; 0x1f1af222c8568868; 0x190eed9b0f95e60; 0x5aa1626191a5ac55; 0x1b6ddafb49ecf1ae; 0x773801e8b01b80df; 0x5f66097de4a2691e; 0x6f8da2f75e0a6297; 0x40fc00c25e37409f; 0x68c243fe591f8b8b; 0x1d2d627f85b0909f; 0xb9462977ceefdc3; 0x600e7922e48558dd; 0x5b66ed6b2b9ffd97; 0x7fcec44d94f648c; 0x65e75fc92b799c47; 0x3c758b6144a271a9; 0x79d2c25f80f5f821; 0x2e408cd098b0006d; 0x50c8ef6712382b5d; 0x4436e3b7f823cee5; 0xf44c5e003329808; 0x713243d3568e14c2; 0x5bab57c6b283f45f; 0x1c524f1e55f0d3dd; 0x439674e0404dc85c; 0x3dd0421d264be199; 0x590afc774f3d262c; 0x31860998636f5458; 0x2586a7500446f19a; 0x777152d74a3c3f5a; 0x103d206ce2810fd1; 0x5409359bd9d37a4; 0x7712bb47f6e83377; 0x2d8eec7ab5e4dd75; 0xdf06f6d3d84e6ac; 0x28f32fed456c0b7c; 0x12c000bd78036869; 0xef5fa621cba770c; 0x7d37c7424a26f8a2; 0x5c3fd86d59b0a1e7; 0x53bacad247cd697a; 0x1ba78f6811b5cdc7; 0x566ba52a0ec901b6; 0x148de50dc77b78b8; 0x353dfe3378d6848d; 0x3410e0592bfdd2c8; 0x3c04ce40ad225cd5; 0x3ba6e1416f9d6cae; 0x65250c7ce8af7885; 0x9d52bde5c919faa; 0x33f43c78f9c8758c; 0x62a7217f3fd92d82; 0x3548be00689eee0e; 0x5243a70d930c7dcf; 0x6765271bcd3cc336; 0x8baa75bfab5b9bf; 0x767b581ad60d3ebc; 0x119f042b91a0de72; 0x2df17f62a15719c0; 0x71328756a438a3b1; 0x3d55c8cc9ed10f2e; 0x651a8242d7f3727b; 0x1f6c1b60f98a14ab; 0x1d82c8a345613ff4; 0x5cca3c18a1598996; 0x211b45fdd82f5e27; 0x3120ae0421a1d966; 0x6289abfcec838c30; 0x5b05696f10426019; 0x7d20fe717481ba8e; 0x74e9c9b35b3e3040; 0x35bc980bd55ec1f4; 0x3b50f00e6c1a7aa9; 0xc1667a23097a19a; 0x7ff8947040a3a73e; 0x6f2c05fb1667e734; 0x714ba599a158d1ff; 0x2c53d108f0912f5a; 0x5ce613044837b0b0; 0x71733c258457880b; 0x3093bf34f0a14e32; 0x1703a585fdc3851a; 0xe0a06f7ccc118a0; 0x122b12cd4b52a56f; 0x66fe99792836dd63; 0x773b5449c7708047; 0x5c9b0ce4901d0435; 0x46ffc0133cb72ff9; 0x539b93173f75e7a9; 0x758f9981c3fa3ab2; 0x36e0b39011c4d375; 0x5b839c633606bd95; 0x1cc9ebc2750f9cb3; 0x27409eca7c047c4c; 0x354aed3a24387790; 0x1ea84fd63a5333dd; 0x533f861df1472d5c; 0x5355dabc8794a870; 0x9e162e9d173c461; 0x663a755c46be5abb; 0x58fa7a9c04a67b80; 0x7fde8698a60fb0c2; 0x4bf5a182474f0f87; 0x4162afc20fc737f5; 0x134ea92657068ada; 0x3bf626c760b8a383; 0x2655bd7beaed9ef4; 0x281bb57f879f5af3; 0x4c82c723389bad10; 0x77a588f202ee2992; 0x797fbe8f98a91847; 0x2d66d6fd9506ba58; 0x1c35fd3d06d99a09; 0x43c98bcc7eaca1d; 0x7ba03a5580813d0f; 0x1d76b9];
   [0x6ac4c7efc5a433b9; 0x392ce10c48db474c; 0x407a3315a6ee5c62; 0x3c7b946893bca916; 0x32f7dd18692bd892; 0x4cfa93b236f19159; 0x7c96e2b3b0087572; 0x2404160726c426a8; 0x4cab5afe51661c1d; 0x7feb2d4f0e5bfabf; 0x2068e4e3c9217c1; 0x9ec4b4c2658191f; 0x3c81f96a41ed5303; 0x7e44bb337325e91b; 0x410f486724a1ecc2; 0x14741dfc43d43dac; 0x545f74d267b6a921; 0x648f548dab5202ca; 0x6cefe4ad0617967e; 0x16ca96cfcf80d383; 0x184f17defdfa59a2; 0x7186b3e924c38048; 0x46e8e4a51c6f97b8; 0x549dc6d38f9ec0fa; 0x253ae4d2f3584911; 0x1c87290ae5416997; 0x6d67a4ef7c7ac041; 0x6d209462ee7ff9b3; 0x493f2cec08f10b26; 0x77b7354d3c92ff41; 0xe0e467594f2491e; 0x3d6444fb7c48b007; 0x77a3d31dec93ee51; 0x2482acdd805f5b4f; 0x4a76c5cad96a63af; 0x5b17352203a42926; 0x5a4cee9b91860db7; 0x7361acbc413a1578; 0x120b6e0add715e7c; 0x580aa5ee85cd1ec7; 0x3824c163fa9db7d8; 0x6a30ffbf87f9bf18; 0x6623568cb811422a; 0x3b09fc56321d8050; 0x61c25331536a23cb; 0x7bb45a2d131fe08a; 0x37268b0ef806b470; 0x55c283b973f8cef; 0x465d1eb56f8fb350; 0x7e4d53aabd704d21; 0x341a13ee6fd50779; 0x7a91c6d29a333b3; 0x14870481bc14a43a; 0xc4ea49240ad08e2; 0x3abb981144d265b4; 0x6da5cda722e4d018; 0x16b8e638204ef700; 0x6ca874edc8b8dc91; 0x57f9cb0703e06e50; 0x3423b5b30a66d885; 0x15206757cf7f40ec; 0x1bc43bdd6fb03c2e; 0x4e1ee6499e422328; 0x3ae2f707126a83f9; 0x5fd7aa0e3cb6526d; 0x4958c01a66ed92e4; 0x72d38a7c06d743d6; 0x271b77c91319165; 0x896bbbd10ae6f66; 0x4e7a636c5a8302aa; 0x6ecbb38180c35356; 0x8550a606e54183e; 0x4385ea4c4ced0f80; 0x1fbf80ea3a379adb; 0x3703c809ead93ec4; 0x2d1f419590c9c72a; 0x42e5db552ee0e0c4; 0x72b2f02a76fc83e4; 0x2d66597630515f1e; 0x5579057c5cdeaa64; 0x555d55d5790ef6fb; 0x1356e4dd81a5ecaa; 0x38e0f538184efc06; 0x7582da128b322c16; 0xc7760b5c5e5d785; 0x62f001d8c414b82f; 0x40ee4347914e320f; 0x2871204d81bcffcc; 0x3488213a825c610a; 0xbba526f51d26f03; 0x138ab9bfc7db6599; 0x4c9ee5ea9e7d475a; 0x700d0124113d6efe; 0x1d7468e370da9949; 0x504c78029ab2b1f3; 0x20054b4a5b3f8148; 0x298f33c3b747b9d0; 0xa5f763db8f49190; 0x3eb32df5f62f5ae; 0x2cfade7d19c6eca7; 0x3824b7ee455b3410; 0x4df4e9a3160d14fb; 0x1c170c5380ce673a; 0x7ca39292406b0f0f; 0x7c4320c9ef1a541c; 0x3e47958aeb8a86b3; 0x3d6026f9f0e78d27; 0xfbef791b91c08f8; 0x4eaf7b1dd08ceefb; 0x6e4d986d3e2d1b6; 0x6fd9db975aada091; 0x54f912d9f994ee65; 0xb04057bcf208ea; 0x1b71c4877cb7c71d; 0x211f12f5ce1703ec; 0x5c65998561f582cf; 0x413d624a7c71d8ba; 0x49cdf5a6b687a4e; 0x4c487b4fdb5130d5; 0x3caae4139eeb53e; 0x557f2ac6219a6bdb; 0x24640a1c8537b2dc; 0x13a1b5de299faaff; 0x7b9ec3f2127026c9; 0x77905fa33e49a8b0; 0x3800a58014d8dcbe; 0x15af47d2ad36d432; 0x47489d77edc6a4d2; 0x332ab538122b5156; 0x73b5715afe762f49; 0x7340b7618b6fa414; 0x2b70d19f1561b0e; 0x660c49256624ba8d; 0x1ce0fa51555998fb; 0x136dff7a11b2ca3c; 0x21dfa0438e1df3eb; 0x6c246e7eecefcef0; 0x4f1f36a06913be56; 0x4283fe8118210e06; 0x685e03e082521ed8; 0x1637d026e0ec77b0; 0x587e24f9c2059562; 0x1b56dcd08b37dbeb; 0x751ea6b0f4e732a7; 0x39448c99e8e1a0b5; 0x673829182e7f7ba0; 0x4f34c402b98e2286; 0x7852835dce9ef660; 0x24b3a26d2fd9c2c3; 0x2e38239268da656; 0xe8616cc1c719015; 0x3edb6f3407e4b529; 0x4c88ac4f090f7b64; 0x593424974544ee07; 0x66024b7bfbb989e0; 0x678f1a48948f347e; 0x3161ba099da657ad; 0x44b0e22bf9449790; 0x12e6f54db6bb78d5; 0x3f0148d4d2464556; 0x2e57777e6be6011b; 0x5eeafa9ca80d25a4; 0x103f9bdd3f6d453; 0x1af093d0e377ace9; 0x37b73fdb6328e9bd; 0x731e892f874bc737; 0x56a10deead9fe19d; 0x606e58ccf84d5255; 0x2fadfc687b89be11; 0x46b1c0e99dea75e3; 0x5c524b5292c76fe7; 0x3a6f6f066359f1fb; 0x60deb8c947beb9ed; 0x2b6d271224e249a5; 0x34895fac44f4dd18; 0x7c8948a7b0354410; 0x4d09d4742f13df03; 0x321ec16d962933c6; 0x422bc3e0d9ec522b; 0x7067dad55cbd6168; 0x759273fcb4e36758; 0x3c159fe0bf276804; 0x4b9ff7d868b935bf; 0x23ea1f922eb11a03; 0x32c8cdb3ed215518; 0x328b452c08f14be1; 0x70bb8c48da095253; 0x5f4cfa3d28eacef8; 0x7971d95b5410865a; 0x4243a1b6da88059f; 0x5a2eda31e0cb7429; 0x6ddb12079e6270ea; 0x61322e25cbec7b7c; 0x69c75bbc4592d14a; 0x26b1ee917a106ce4; 0x2c95def1cb89ed62; 0x7371437944666147; 0x4f38cabe3c5cfbc1; 0x5d79116cf6f42781; 0x3a5ba91c0e04177e; 0x6293b5b412507caa; 0x306301319062607d; 0x30151bbfe8dec4e7; 0x17231e0de4d6cc76; 0x22d53f7cd29b7989; 0xd49f346a4e51de; 0x494f4d1d2454ca6e; 0x43d4849606540ffc; 0x5e2863de020d4c45; 0x5c93081c3acc2e74; 0x7ea72fbcfebc2b9a; 0x2a7f7238d3f0c1e8; 0x1082c8394fbe7b0f; 0x2c482447ca85872b; 0x52fb8fd3f2124292; 0x72a01651b2a85f12; 0x3e856544f67174f; 0x375b079ce2a21c75; 0x33bc36aecd7a871e; 0x38ac2dfba5cf8154; 0x43a15457a5884548; 0x37505e1fae1fee6f; 0x415ed6fcbbb800b0; 0x20ea055c7bed4c28; 0x4adac31cd87a7dd6; 0x9aab9e986cb7cbd; 0x37994d305b7f24b3; 0x1867d155cf31815; 0x4e7ce65b0c48763; 0x76333892c2674118; 0x5cb7d015581bb2d0; 0x452fe1453309779d; 0x33cc6d6841550028; 0x73a089af5a131892; 0x6689e66a1840c2a6; 0x69059aa5a503060e; 0x3812cb0dddb74afc; 0x1a1be9a8e7a4154f; 0x489ac0b525699426; 0x43c2dba3e2108d0f; 0x2d0e496ba7a4e427; 0x1af87ee332733bdb; 0x71a071bacdbe7c35; 0x37a3db5c6da21d83; 0x707e0050581d48e3; 0x41d78757fa935f8b; 0x3ce58aac884b9c81; 0x312204272a2c04d3; 0x4eb0d426d1e45c34; 0x76895938db580acd; 0x55495eebae0ee578; 0x17f2224eaf1c9a28; 0x69fed2fe527d2ba1; 0x5df2d5089835e574; 0x519c03148b69d6fa; 0x7f54eb36ea05a32d; 0x23762b3f5f33af91; 0x726560a736bd75e8; 0x332272aa8a76013b; 0x5ea35839882396bb; 0x61f81b7514a8531f; 0x13d5b683f85a3b2a; 0x22a5aeeee851523a; 0x68d7cda9e05e8a89; 0x21b414b8f28d8441; 0x3b73c0f89ea9eed7; 0x2b0fdf957ba79fca; 0x2d9b941297029219; 0xec7542a697d3673; 0x476ce1ef13738115; 0x39ea01d1fcd3dd3e; 0x39d4433dc15b072f; 0x4110ef46cfee7b2a; 0x7ad342f35a7443f6; 0x42132773c396e728; 0x6aec35f3f7d5886b; 0x1283108307103808; 0x541904f330ec16e0; 0x42b184d8d60a6ca5; 0x5a5ed8302169051e; 0x4c776abeb3585878; 0xc61369b26787bdf; 0x79918f42e66e4005; 0x42c858729fbf824a; 0x3823424d26caff75; 0x26ae4c17cafd2a91; 0x4d408ccc598b28b1; 0xa84951fc685ee85; 0x3c6f63cc895987a1; 0x8a512b9c92abccf; 0x5a304e921624f95; 0x643abf97bdeb3dac; 0x633eebc09599fea; 0x564e24b6898c644f; 0x55c4857812afb2a7; 0x2788b71c5753de45; 0x50dcfd50d021e7f0; 0x6b4c5943724c39d6; 0x5b21a89ebf16a8; 0x46c19d1457ddc2f3; 0x2f4d0c595e5024b1; 0x173a5465f5786cba; 0x54bbce67f5e235b7; 0xac22ee4246fcb60; 0x5b3c57734c0bce5a; 0x5b6611c81c4776e8; 0x7bac5b6d8d4dc7ef; 0x315fcb9633cd67d1; 0x1cbfe74289209d11; 0x54ea4e5e73fc9bd; 0x206327f870be31fa; 0x58988034fe47975; 0x1a9fe19295fe828a; 0x5935e4273eade886; 0x2d25b8f1f2a1bd6; 0x7c63f82c458ccb7d; 0x975077391f25c62; 0x39b0fb];
   [0x412521c777f2c100; 0x3a15412d11254580; 0x62379af82fa64b24; 0x57fdbf1b532b9593; 0x5d009a3da7e41bd5; 0xe22c5f2ce6c1f00; 0x4cc3e4f96e8723c5; 0x2bd859b45db49df9; 0x25c0139c6efe3970; 0x2626f29d1bbf3dbe; 0x36e00a30dcd5f42b; 0xbe8e71c0e95c7d0; 0x6fc4fe8b1040881e; 0x2dc18df35d2af142; 0x72b872770698524; 0x5ada15a5c181652a; 0x5b0f9e2fa3ed1cff; 0x18f104683e750d83; 0x28f658f1c1cff0ea; 0x5214b590aaf9bdd1; 0x3811cb325b0e7096; 0x65824b461178ac32; 0x601a458b0e7e0bc3; 0x53f091c547cbf263; 0x6ff67189a0d41ee1; 0x32e530a0effd9073; 0x741964522c85400c; 0x13276e877f98fa9d; 0x7d0ae2958a635b27; 0x2e971b0f5e1c61d4; 0x338c2841d2647679; 0x30b7e3636ace1f42; 0x698ba82cc6b424aa; 0x567df00b4cc04b8d; 0xaa711cfcec83fab; 0x78a8268d76b02f3f; 0xccdb2dc9726b4f0; 0x379ba13ce86851f; 0x67faafcbee98df2b; 0x2edcf6878e963a68; 0x4b4ac7a2ada281a; 0x4e11b1e3da043ce7; 0x6fa41368d40b8083; 0x4fdd87c996dd92ed; 0x4e24d6a1a6a38755; 0x3af2c725c5946e52; 0x48cef41f4ff722bf; 0x248ba4b738b9479f; 0x30eeb8083d41e3ce; 0x7195ede188b608d3; 0x3176dae533e231e3; 0x3df26cb89af261c6; 0x58c1bdc9a01c6b63; 0x7433b5d9d821abaf; 0x51817a6fa8108b83; 0x667316f8357eb324; 0x1165fff3cbe4689b; 0x4f1d872223b56135; 0x1633876d8f8c3bca; 0x37a4d68e89396193; 0x29e0778d9eba4811; 0x46bb690f505f1bd7; 0x630a0240d6d55c7f; 0x17c0d117459c9fd8; 0x1b7d5163b14a8a46; 0x5415aac65dbd85b1; 0x6b39473b2bd86717; 0x386af9feafd88e77; 0x7d7c8856908b0bc7; 0x7ea4510a86310124; 0x4e49f0d12e29144; 0xd2aad576620025; 0xcca5211c8265759; 0x4df49b4a2b59187; 0x5f862365ad9aadda; 0x79447d253a38440; 0x4468c1bc319824b9; 0x29b2e6daa9e6b47c; 0x58a847affc6b6150; 0x5f62e4dea9ad0e3d; 0x6be285541bab3209; 0x222c2db099e64497; 0x63e0ae73e7eabd4c; 0x5724d17c37def613; 0x7857bffee3835f36; 0x4535aacd27811c18; 0x6dd7f23b1e9fb42c; 0x5d0cddd09167f692; 0x7242ffa5a494e072; 0x727ea228b957886e; 0x61f936a21b649d81; 0x5ae3fd922bb9affd; 0x7f647372634e3b3b; 0x49c73295983bbae4; 0x622b94e113777f36; 0xe70e7b04f8a73e; 0x3bfab570f1440054; 0x79419c6549712d47; 0xa28b8970a956826; 0x30d1700d9f2e5fde; 0x10d11bec22d31500; 0x3340ee62f1d294b2; 0x678d5b868ddee51; 0x2af6095988ff9c42; 0x5aee0671e1cd2f0f; 0xe2accc6f3c44cd0; 0x1193279cd2d92e22; 0x24248c7f60c77071; 0x3f3547646f7c1472; 0x6ff94f62f4ab3c3; 0x54277fd221079b15; 0x25dcdfc2da39a513; 0x9c34a7de850a1d9; 0x3215df1f1741f083; 0x4e89018204d317d; 0x17dd069b72ac3a5e; 0x27bc8933d1a283a; 0x549b06d3add8352d; 0x639853ca8007c7d0; 0x53a47673ee1cb4b4; 0x775038f409de1fc7; 0x13686ecb129153b4; 0x1fe73c63e6a18aa6; 0x591732bb485e4678; 0x7c4df5d2a362615d; 0x7c1403ab3d37ac52; 0x53395b7c2d2ad541; 0x73335eeb28962f29; 0x628f219905e1d72; 0x7a520cfcd21ac265; 0x1aa5d75a2a132439; 0x746f604dd695a6d3; 0xb8ae1b1fce4ce3b; 0x35ae6062be05ae12; 0x7107ceb60309dd32; 0x7dfb0f141dc24e33; 0x73ceae509b24e240; 0x79f1f1f81949117c; 0x7641237d0f3d93bf; 0x6982877304def95; 0x4339a7c598321388; 0x267c78230e44d02f; 0x1e351b9bf91865d6; 0x68abdcb4bfc4b0f7; 0x36020b1126766ba7; 0x6e2a85cccf0ce811; 0x68c1d3f8e6b436a3; 0x56efa7eddc1767e7; 0x597257505c82fc46; 0x8f404f9350e1c04; 0x57fd42e861eb43da; 0x7ec31c3d4da4afcb; 0x78592a15e880a8ec; 0x32ef3466b50b76e8; 0x740437f7d5635413; 0x4ff3055ee9751c04; 0x603c343a3ec3490c; 0x39912cb7dcb23e9f; 0x6a3a40dd565ca76; 0x499e3f79d226e606; 0x4595d070ca6e5aad; 0xea1d976720c6fb1; 0x7b0bf10927946be5; 0x8e6ad3c4cc6e5dd; 0x1f976058a3313bee; 0x7a8f0ec2c92125ba; 0x3dbdfe42ea62ddb4; 0x253c6bb5899a11a4; 0x43b2124ded97b3a3; 0x62572d2eae935c5b; 0x299d69ed77b8ae72; 0x79d62c375c8c738f; 0x35377bf74ab1c60; 0x13309cd6af49416e; 0x3f7d29262d7f2916; 0x49a7a79b9a8340df; 0x17c1cceba7d57b6d; 0x122bc111c3b5d57f; 0x4c520043d05a5b82; 0x7ddeee54211b100e; 0x113e8ef532f82afe; 0x5d88c4370373ada0; 0x7e6b59d6aeddfe09; 0x31dd7676d9152454; 0x198a9a13625b4c34; 0x205206c53ba630c2; 0x331d1538c889cf6e; 0x4c0740aac5362616; 0x2c0d2478a70883d8; 0x3aba0da372fede02; 0x7b56e74abd53ecce; 0x1f2bea667dcf7d3b; 0x1548cc3977948e6d; 0x5987fedb20f888e7; 0x567d0b6c2a126eb6; 0x7dcea75e85a04bd1; 0x60387d45d3827b3e; 0x2ee23c8d3cfab8d5; 0x69803a622104f1e0; 0x465a2716b49195e8; 0x3cb84675f3ccca3; 0x7ef05cc5b053738a; 0x562f4d9b54a6bedc; 0x1f103731d24d3a59; 0x24a5abd78d595861; 0x715739f2376a4ad; 0x3f65567ad7c26ab5; 0x42bf027196e9ce2a; 0x6e6c77faaab65586; 0x651d1f81ecbaaa21; 0x490af01112030eed; 0x4ccef7a3613439a; 0x4487780f2349f595; 0x4b3575581b7de26b; 0x5bd52716ec299862; 0x476965c74d99b1b1; 0x4eda5c6b66f072de; 0x6dcdcf5fb18e355f; 0x118a9f047a8e08e; 0x795bfc05d870eefa; 0x1c8c090a48a031fa; 0x3c101fc334f9abf0; 0x261b7fdd71213dfc; 0x78230f4d1ded9e42; 0x7fa7465319978962; 0x5fb7c2ea2da2241a; 0x7fd52a03171d2cd0; 0x1619df084b062a39; 0x2db23e2a7faa3b9; 0x456f63210a6ebe8; 0x15df842b306b19a7; 0x3d8de924a01b9341; 0x2525fd7150c95c11; 0x66b957ffcce58e9d; 0x7ca821ca06090417; 0x334ac659df744746; 0x24fcfd9ff4e7187b; 0x6239c50f915a8043; 0x7262f99dd17174c7; 0x90f0294ea66f910; 0x3408da343db5512f; 0x58329df7d6799db2; 0x531e1121ef15bad7; 0x10ac810b486742d6; 0x4ec7739af7aa30d2; 0x3d71f2434dd18c30; 0x274a90bd6bb59ed; 0x41d16065be8b0d2f; 0x5454428dd7e19969; 0x6537b7853eeafa4; 0x605321d46836fdf9; 0x261e4ae67bd7f719; 0x37bcedd63f6c1795; 0x1fe81b362363af9f; 0x66e5cc6cb182d752; 0x373407c27d0ed91c; 0x6f69b4d20b29d4bc; 0x37a981aa7dce23cb; 0x151b4b1523b41e74; 0x1656c4facbbd574e; 0x361170793549b12a; 0x3dcdea2a91f21145; 0xa5fdc6dfc2d7fd1; 0xa32dcebfb1480b0; 0x1fdbc1eaf72a4b15; 0x1a6b90bd4433dd37; 0x5f43089f61390217; 0x5824f69a1d639661; 0x22de2df8303877bf; 0x116fa361c980f01b; 0x1c395a25e7d2861a; 0xb4af56d28e59b69; 0x4b3b39a1649e27e2; 0x5a653882b94078e8; 0x36ddeecd5dcb1615; 0x729950186f40fab; 0x6d89740715ec4b8f; 0x50ca04ea01859f7a; 0xaecc711c01d20d8; 0x6942d5b94a964034; 0x3da34b312289e5c1; 0x317a78c5acc8af14; 0x18df2ebf6c48902f; 0xa9bf5a4e4c93e4f; 0x2aa315b03dc9bd8f; 0x477e2e051a7cf0e6; 0x26471d649b2e05; 0x367a2e67c244398f; 0x14f50730ee0f8a76; 0x52ddddc87de8851e; 0x610cf77b129b9ad3; 0x6836739bc099c84a; 0x36c169249f50f270; 0x6f887aec0c3e3dd8; 0x38a7dad6f0cc7b42; 0xf154559ed27a5c2; 0x2694b7fbdf509dbd; 0x515b47f92b1a5f8f; 0x6f042f001ee33b2c; 0x5a17881ffd2e5f0b; 0x2fbff7c1ede4dd26; 0xfc0b4945531da08; 0x1b9929bd9b2a6bb2; 0x5d563ecc988936df; 0xf65d0559008f339; 0x4231b74ee6b2cd19; 0x59c89c6b3d2b78b7; 0x142ae9bb72cf2ea1; 0x7c3dfa2b1618927b; 0x52ab979382108935; 0x1b441021fd9a4c28; 0x610887a9cbfd6abb; 0x4628817f88c1db25; 0x459a69e47a85fdb5; 0xd841c22dd5d52d4; 0x4a5138794f451794; 0x731ba9d7c217d000; 0x1382cc];
   [0x12247b65564baf6e; 0x19e4b018c4afcace; 0x60abb1ecf8c62940; 0x4cd7c016e4df5f63; 0x2de70519994b69aa; 0x6f13caa5f2a34038; 0x3d10edbfc817c938; 0x453171bc541c7498; 0x31728676f5f5601d; 0x308f27c1cc345abc; 0x7c7272ea97c27c85; 0x3bbc2e8b63267cf4; 0x54a9bf5c8e19c374; 0x196d308876c908f6; 0x709fac3f7a10e458; 0x69d12346172051bf; 0x1ef681ce8077c867; 0x14e8564bae4a6e05; 0x35ff34ec1955939f; 0x6e74dfb16b449106; 0x50a40916a4a5af3a; 0x2cb30fc5c2d18f05; 0x256aa138d1ea9c84; 0x1135ec45dc09ced8; 0x467a19f409320ab4; 0x4c15b48671c79411; 0x55535fe73a325475; 0x42d7b36ca86ce3ac; 0x19499dbfac137a80; 0x20bc8853ad80403c; 0x4392f3f6eacb3488; 0x6ae562a9d0955de1; 0x1154c0528ab69edf; 0x499fb477eceee713; 0x57896bf212dd9d9e; 0x103001c9bb4e9e74; 0x2026e9612cff8001; 0x55f502b5e2bfec66; 0x1d51648adbc0772d; 0x419597c299a3386b; 0x41537fc9173435e6; 0x456aa60a12de943c; 0x4e913c3edcfa4673; 0x74e49b0bb4e78386; 0x238033fb9b036ab7; 0x49e5d01f670d7d91; 0x19c184d0bcecf47f; 0x123f3f7cf78cf561; 0x203d94111f2e128; 0x364abee362dc8977; 0x2b23d87c4e09cb15; 0x6b15a7c4e2aa4f48; 0x414e8dc37c50dd97; 0x50811c2681a53a83; 0x20de1e7bd8a873d9; 0x3c2e3efc877efd3f; 0x4e7c3afcfc736c4b; 0x7606eafaa61ad863; 0x1a0cc88e8dca3e1; 0x6dcc884b09ad4fc8; 0x3777d7544b37059b; 0x392758ab38db713b; 0x46c49aaf1b8e423a; 0x542b24cd124b9484; 0x2f753f5858766c8f; 0x3a021b5dc4255bdb; 0xd5ec7aca1dbdb1b; 0x5e83613f7e859db0; 0x43bd33a1d03f7328; 0x6a115df529c86e12; 0x6cb9315191ba866d; 0x8c38b5c34613c5a; 0x7fad1e86404c7b09; 0x5cc2a31c9aa9e45f; 0x63d60cdfcee173c5; 0x22fbb5e2388c0d4b; 0x72900c9d2bccf303; 0x4c881ee2aa312574; 0x2325b1480305ccdd; 0x27dbe818edfc62e; 0x504c4d434268b06e; 0x5f565c6e56feefdb; 0x573b13b2b57f96f9; 0x24ded4703c3ec4c8; 0x7f8175a593ea970; 0x799642020a464439; 0x2c53512e051c50f; 0x19fe18559807416b; 0x46d8fe16c3b56825; 0x608ec703bf15ff76; 0x4483e87eadd0e43f; 0x120e4730b22dc65; 0x1053ac60304aeb7b; 0x6ddcd1e659537d1d; 0x1c4c950d02c3d686; 0x749fe3ab36aaf042; 0x17d55984b80749e; 0x7b5c99f06cc5d3b0; 0x1173e38b19f7c4be; 0x7143b32b00da5493; 0x2d156d0f01f9d09; 0x3b82968fffd4d375; 0x4e111c7575336e52; 0x6f2d3ec1b354ea28; 0x32df31d8d518228b; 0x6e75e4db3e677251; 0x61bb970919014a0a; 0x6a1c7711c86d017f; 0x12d16ce54b30df1c; 0x159ad7c27b2343b; 0x7fe7f128583c1a10; 0x6a7a17f31246760; 0x78c98947bd8df372; 0x18db8bd90dcf15bb; 0x5f65f5874c350cdf; 0x49ecf0416cdf8d7b; 0x1a3cd853b5370ddf; 0x335d6482c3bbacef; 0x610c0432411f0919; 0x782d023aa6ad3db2; 0x429b3403d419c147; 0x17124cd5cd1071e5; 0x1378c31c3a7e42bf; 0xf9c501e7e0535b7; 0x5d1a40164f5d0678; 0x659b7a726efef205; 0x30a87aca93d568e0; 0x5fef524f8b423721; 0x5ce229283e6109ff; 0x75fa688e7e525c5c; 0x60ad210455bba2e5; 0x5f987b8201ac97ee; 0x709ec06995fc63fa; 0x4909813a0392f907; 0x51fd6e6d1a988211; 0x33271afa8115a140; 0x6010fe6c05a68566; 0x2dae7c66a10b12c; 0xa8baae9212d957b; 0x635bb307db598ccd; 0x6f4459244e559259; 0x38bc1e8cde6d7bfe; 0x4297b18abedd57b8; 0x45ea82bab236335b; 0x32b8a5fdb74b00e1; 0x776872342cba210a; 0x5949ad267d80ba24; 0x59ef0ea0ce0abf04; 0x79097be7b4a82a7e; 0xde69c0c904a208f; 0x176bbe459a730e1a; 0x3713a3c40159e8a6; 0x3b2a6ca5ede98b49; 0x38bf1d4eaacc5ea8; 0x2f3a892b42e6b128; 0x77b4c420d2791e28; 0x5be5928d30478f51; 0x9735345ab6c673b; 0x5910c8e56f1c7efe; 0xdc8ec43dea2759b; 0x40a0729dbe2f2577; 0x1c96c0374a107ee3; 0xdc6ad74b30e0d00; 0x4a61f433a8a49502; 0x29a081650fc96fc3; 0x388c28ba1820ca0d; 0x18186d21732272a7; 0x5fa29db463750e86; 0xfdd3d50d368b5c0; 0xe621db90e388504; 0x326936ee5db9b10e; 0x1413f9f5c7ee04ca; 0x1fb22f24bf7e5757; 0xacec0f4274fac7c; 0x145f91835751ba4b; 0x3b7f25e751125620; 0x49b556278691ca02; 0x66925c35ce2ec38c; 0x487d451000c4fe13; 0x4deea956532eb6f2; 0xb387984312841f5; 0xd2090747fdf1b11; 0x3e9eab14de2e95bc; 0x4bd42278d95cd7b6; 0x5ad902e95b1f9e8e; 0x30809e6b16bb195a; 0x43ef276cc40b1883; 0x3a5ac5d268b71a7d; 0x5bcffb76e6c2e3cf; 0x74824c735b903785; 0x32df270b23c9c4bf; 0x4737dded798f83b5; 0x3d86d4b149808ade; 0x6a189fc6aee4d906; 0x479bdb195f7f7f53; 0x28100fd0b37a9582; 0x20d85aeca69d2e3; 0x19e0d63e8cb61be6; 0x77cc8fda251fb53c; 0x4bdca0e5f092897d; 0x2c42a5ef63d3811e; 0x6e2f96164cc88892; 0x4321585f57f72b75; 0x2522b41f65eca58d; 0x7049f9f62c00f8ba; 0x7106c6d7dc5fb7b5; 0x7bfb02e68b9a9c53; 0x4ded637688d155b6; 0x352775f37aa8a364; 0x53bca5f259d6271; 0x4e776497dd6a511e; 0x6e6a22fa1cfd0fc8; 0x1feae8654c9169fd; 0x1f27797d6d250ac5; 0x40ce1f04d2ad80b1; 0x2f943321091a71da; 0x2b184a9142caf5e5; 0x1612633f13e39a8e; 0x14e0e145788dd18; 0x537ad0c8030bf4ab; 0x6f90a5224b262485; 0x63cc3dd1f9796f63; 0x6374761571794d30; 0x6fa8f5aa8cb2667e; 0x6d376f6da200026e; 0x64d8fb12415aa24; 0x4ee3b234f822f526; 0x36f0572091d6656d; 0x6c8a6064052a90e2; 0x33a6a6dbb254c771; 0x70a4c9f1a4b1bd3b; 0x77a67da500976cac; 0x3fbaee5064ca071f; 0x5c22bd550bfae76f; 0x6c3bd451b19160fd; 0x1ceb49efd28a9a3d; 0x2dd6b12b44a78892; 0x2e76ef9d2cb785c1; 0x6e903cd21f8ab752; 0x47a96bf9fdf73b69; 0x5d4ca8eca301fb0c; 0x6b37a7210969345; 0x55bd7fc3c87a2f16; 0x332492351cef2cc7; 0x4cf3cb1dbcecad66; 0xaae71bcc66b02f6; 0x4c4ab1f79bb25fb; 0x4c749965322a2dd7; 0x725d4cc6d063609e; 0x762018f7e03cbe49; 0x5051c143176ff269; 0x6a379d91f7ac5619; 0x6e344b01f20d911f; 0x63aa412e65d976c2; 0xfd37aa4c28a9f29; 0x3951bbe279c3275d; 0x460e0a8c81c87e2; 0x25858f94e0eac673; 0x232b2e6bd33d256e; 0x6b57749661f6a4f5; 0x5d74dac77d7c21; 0x2ca21b9a7a48e9da; 0x5f302d0cf115348e; 0x4c18a4cd1dfdb3ed; 0x3df5409f09126c8a; 0x70b73f4821736ac4; 0x3325c05ce5bba885; 0x44b74b855b65c4b3; 0x99a56815d9fcd1e; 0x3e0f1b07b4645249; 0x3ed082be68a2695f; 0x2c431b4d40199d06; 0x6a81b8af9b603f8a; 0x324d4b3cd7fb15b9; 0xabb06591866d04a; 0x7d4f42cba054ba9e; 0x2a80a80e80ce842a; 0x3756e86f77d2bfda; 0x617a208fe081c6b5; 0x382e103adbaf84e8; 0x63134c5249e6674; 0x144593e60a61f887; 0x3d8fe09a8f096d31; 0x60d0c56779d3dd5f; 0x64ec1f453f17931e; 0x3e50e9ede48214e8; 0x369923176aad4800; 0x7169951bbb8f1066; 0x37c97c0977e38503; 0xa2c6bbe6d18a73; 0xb81d11bf8aee9e8; 0x7bf08e48e1a4f24a; 0x4410e3118dd6fe62; 0x504709135b8582f0; 0x71031b3c3cc1ec41; 0x6068404ff6d8d4f2; 0x56fba95d958b5555; 0x7003a712541e5f24; 0x4088c08942811822; 0x547fb83b0f136b0f; 0x1e14282094ce6cdd; 0x93a712024e84eb5; 0x439daa91e3e10cd4; 0x7604875e2a435ce4; 0x36018c2eafdc2c00; 0x5ce7afb9bbe72c3e; 0x2a05771dcf56fd27; 0x16bb72ff28b0ad11; 0x1f1f928cb449770d; 0x19e58f03202937f; 0x7d73fc5a57262396; 0x1ae892c098ded12e; 0x336d499f6c8a9ef5; 0x1d614be0d052001a; 0x59d84bc627abc8f4; 0x37f715c77ec9ec27; 0x1f515c609c08ca34; 0x33865];
   [0x97db55f012f37df; 0x30b570cdfff30646; 0x7c0807d8ac22caa; 0x708039c0ea6d19b0; 0x56936558d4be80a2; 0x311a798d4e9a9af4; 0x78f7dcdb4ea0e7ce; 0x4c9f5519acc54300; 0x78a2217524fb035f; 0x7b47a586e203d866; 0x199ce78446a2c910; 0x59cb1214d867e205; 0x2ff3b562c556b193; 0x653dc736eb5574b2; 0x2c8cbcea9061cc2e; 0x231e502cab2a650c; 0x511485840c1c9f0b; 0x79515dcb3fd987fc; 0x29d0685bccaec817; 0x73163f4f554cee20; 0x5dee05a2c1fed1; 0x4c5182ab1205ccf6; 0x5410e8d61104a64a; 0x42a819facde3f8ee; 0x7d44247c17acfba4; 0x1c1ca7b69a9c7c27; 0x57c0d06d5fbf5dae; 0x7dc493a42e3dd737; 0x26120ad8173cde2a; 0x38594c1842b40117; 0x5f563e50c6d85015; 0x4effd6a26a69ce31; 0x3988797160421388; 0x5b4a6e74e8ac5f6c; 0x4637f1647dca1fdd; 0x2ba8bb97e982a137; 0x3c60d8a8f0ec3b8c; 0x2ecb40ac56c83da5; 0x6712e826ec4d0f5d; 0x635f82ec5a5217ef; 0x6df6793e273dec83; 0x1010cb2ee4f40e79; 0x2102453d50f56da1; 0x164ab1314538e045; 0x428199510c978b4a; 0x2685c2d06e9e3a6c; 0x64a33eaa03118040; 0x96b4ad828392004; 0x268a44fc72cfa394; 0x65e13a185985965; 0x3f8146d40097d2ae; 0x5421478fb5b7abe1; 0x7f54dbfe8af5b950; 0x39ceeb1292db6569; 0x5838928a42ebf130; 0x506482b5930dae45; 0x73857abbfa4d4a02; 0x22dd249c0319eeeb; 0x16d7021a51158cca; 0x67eefa6acecacd19; 0x6b9614e6c7e0d7a6; 0x41a28e0bda1f671; 0x48b9adf935359395; 0x29356d2a70a00b20; 0x5c000083746850f9; 0x1148c2c0481d87e3; 0x6545a1bbb971aac4; 0x1549643cb3c39c68; 0x3bddbea87d46eb98; 0x766cf2949004f852; 0x4411eb7e7073177a; 0x6b4d06d21944900d; 0x14f43e2471e95c99; 0x37ca28dcbeb45414; 0x59fc4043d09fc823; 0x7e9dcceabdd39bfe; 0x5397f4c23972020f; 0xafac532be039cdd; 0x7a455bd18bd5716; 0x17ffbcd9a30a5792; 0x391ce505573c2cc9; 0x4bf2f85d406221ad; 0x8934fcb77562a0e; 0x59a0355aa0ea3cc1; 0x1c6f99db971454cf; 0x22446144216bc0ab; 0x5dead6ee44dab82d; 0x711c0395187346b9; 0x13dc95c2a52c1258; 0x4483bd56a141684c; 0x3089ee32e0cf0b72; 0x2782581878f6ec20; 0x38680eed0cd4f643; 0x77bcc8dad8e254f2; 0x5ce5903d0369e205; 0x782b506390f10686; 0x322780b8726c3ae1; 0x2c632a4bef850b6e; 0x12a3358ac9823c40; 0x7211fe9c503bdd77; 0x4ac1d645caea540f; 0x5ae8e85d68170a78; 0xe5b915c545cf92; 0x140a705e66671f9e; 0x2611df20d957524; 0x7bdd23e3e055196c; 0x32f84d8c4436fcb3; 0x71f3f937f085f531; 0x7fd569eb532233ab; 0x14706d003d1dcf7; 0x3a81965668ddcbe3; 0x34053a3937eb47ec; 0x47ffc1fe0d0e7970; 0x6397f7d905219cba; 0xf4a644691eaa3f6; 0x2fa4a02a5b3e85ba; 0xf5e8da7d7f6c5c0; 0x40edacadc244c242; 0x3181252131fdc852; 0x2a32242d96076c8b; 0x5744760515eb1248; 0xcf848700c45852e; 0x770712c8973236fd; 0x3510ca2543f56d09; 0x2274b5a818a2625c; 0xe90d1ed3410ac3e; 0x3f66408d8cdd5900; 0x2d4eb284805a2e22; 0x2b9d7f2aca4dc00; 0x20c27ff9b92a14ca; 0x6d0de8ac9c81d397; 0x42c33a41317db8e2; 0x2ca7330a97fb3b07; 0x36f40bb82dc21aa5; 0x2e8ea205a12f139d; 0x32f0a5d21ae6807e; 0x119a52cfc446f0bf; 0xa6bc676af84fdb5; 0x65bb26884f6fe244; 0x77854794fdf2210e; 0x8f4528468ddc2e5; 0x743cf3a1b657cd3f; 0x33409e82f0bc4f36; 0x189e2cb869d9c7ec; 0x64ddaf77fc2d99eb; 0x4f6df7df4ade210b; 0x2037be3fc19c92bf; 0x3cf6d9da00335504; 0x5fdc9b140af05555; 0x203a75218f17eb9a; 0x69881f6f124c8324; 0x4fbc1fd7d78f0a3e; 0x573253dafe0ac40f; 0x2384f9b1a917d075; 0x2cf632f0d88d16b6; 0x4d29f748fc301e0; 0x383f68bee74cd53b; 0x45ce549329817b74; 0x3e39e606a3825d04; 0x5385f4cb9bc433b8; 0x7348bb0abac9f755; 0x4050bc7c407716a4; 0x3ab70e586d43a90a; 0x174836d36116c633; 0x5aebe6ac5d71664f; 0x425bad8dc2221ee; 0x38a2276bb91edfbc; 0x699a918dc4e27f47; 0x54c6bcfcad97f88a; 0x483a18b778a47f8a; 0x416253e3e80240cd; 0x12f2b6093e169d73; 0x5aa7302354a89828; 0x2075ec300cc5bd59; 0x28c5a854085b7e96; 0x2858584433cb93fa; 0x5f0cd42beeac8392; 0x2a3c7c740898f17; 0x707d5fc03199270c; 0x60516d54e49f5a15; 0x2b6fa13ed990262; 0x6234f4eb5eec9fac; 0x321fd11690565219; 0x5c7b5c29969f1efe; 0x4111be7a116e2ef6; 0x2047c5a181b388c9; 0x246f23a7e537eb30; 0x18912cdbac7f2c69; 0x4a96b552fca8a893; 0x22526fb38c8dd07a; 0x3c2059be907b3a9d; 0x35bff439b9e19f8b; 0x356e279ad9fc212d; 0x53557f7939fcb35e; 0x78e22f7915379c86; 0x724863e72563a06a; 0x453eaa595c88fbd9; 0x5c7e6add3b3612c1; 0x24a27a72bb5f0432; 0x441e206786a6ba1b; 0x3d180982890ec6fd; 0x148a23c0451c6aac; 0x702f8e0137d04ddc; 0x7153f83dfd92e0a9; 0x71595010945bd10d; 0x4b497e8cb9c386a3; 0x312693c36b7f8c1e; 0x504bdace4d03139f; 0x6da177236c93b485; 0x7c0d80fc75d4a73b; 0x61a54729972aee08; 0x141e9ef229554ee; 0x2ca10826c1e3dfdc; 0x1d4f93d6ed8cb20d; 0x5c675685e64defe3; 0x14e74badd24448de; 0x4729aeed0ad2b62b; 0x6854c3a36fbf91c6; 0x2d6ad79b58cab62f; 0x265cc508b41cd09e; 0x32189b5fb8c45287; 0x7634864ad75f4eb6; 0x1171739364183284; 0x5e6e26aea9887f64; 0x79cd9f3bbd8b7098; 0x2d0af6cbc5823479; 0x7aaa544d4291f9d8; 0x414c0ffc53285e24; 0x2d90353507af9f69; 0xe2b683d77d6182d; 0x2c457e3734e9f909; 0x27e30c5ec4a8a28a; 0xafc5ff8adfd03c2; 0x33082de3ad44845b; 0x7689e0698ee0bf82; 0x71d6ab342c475fd4; 0x23dbfd2c0a0bf4f; 0x1dcdb0b8aa71928; 0x52f3df465ece4454; 0x20e1884b99955511; 0xa6f7b6d006ac682; 0x21442ab982ad0081; 0x5fb13d4932ca213f; 0x280d1017280210a3; 0x67494e6b64ced5a7; 0x1f19269b9087d45c; 0x157f53e3d4c4490a; 0x307e2e7311468f4c; 0x99904643dee60fb; 0x5d72aa6a9238c79a; 0x641569f3965b1fd1; 0x40b03d8ce6da4d96; 0x5a3c98e6a199b373; 0x69b6f7c07967049e; 0x24434218b6f7703c; 0x58dcce8d9bb3ef11; 0x69be606996848c29; 0x45bd409664b228f6; 0x478bda716ccf180e; 0x28600bf3e65f2468; 0x7c2b96e5089afee3; 0x50378a92ac157663; 0x4c1e38386228fdf; 0x5f527dc8ec1c6d9; 0x65e8042db914245e; 0x44454ca3b1b67baf; 0x4310131714028a9d; 0x79e5c33a40a071ed; 0x6dd054f8ce87e7a6; 0x52d0ac5dc14a505c; 0x42c4fdc4adf3479c; 0x4f3f885c9e428f89; 0x3ac5508ac5081097; 0x495c0598373cf100; 0x6f56de39d055f06; 0x640a81609ea1a436; 0x130805a8f03e7fc7; 0x62f5ae000ce4915f; 0x3b80ae5ec798f86f; 0x583ba61245990fda; 0x7f1761cd38efb10d; 0x73bdd5981ff31454; 0x33eabce870ce3186; 0x52f65a61dea777fe; 0x6153aa1179589e67; 0xf8446b7ad828993; 0x512169d1a853d418; 0x4576487313545d28; 0x5dd21c6d23b15955; 0x598d4aaefea69ba2; 0x4c323431d5d53ae8; 0x62abfb6cff57405d; 0x180ee2a477f5e87d; 0x61916b1d205395a1; 0x6e39e4dc29c2954; 0x4d665e7656a09c7c; 0x13341a2c7f628b33; 0x711fb08b8933b14; 0x7aaaefb80811ffaf; 0x12b220922b9a0519; 0x47d8348ab94e3817; 0x191f1a2655594b6a; 0x457d9374b2dbce3b; 0x6fd2950322fb3704; 0x1b0411e3d6f50ef9; 0x136b4cad4946bed2; 0x18671bc5ed577a5; 0x4e88aa83333e294b; 0x511f07381af810e7; 0x49ec1712c4e68df1; 0x390899896944e3d1; 0x5100a7b267201d55; 0x37b62833751a3e56; 0x6e290c859138ecf8; 0x1e0964ee1ae2ce34; 0x5f8a368411440b9e; 0x2f2aabcd3f6647de; 0x3d3b3a];
   [0x51ed7c1080bea8f1; 0x1b0dcac500a67282; 0x6ff703d7d6f366b8; 0x99eaecdd255657d; 0x7b79ce8ee41f803; 0x11df9859b0b678fc; 0xd57912caf41cc32; 0x5027895b096b9b55; 0x791ec4d93cf2bfd; 0x5dae9a2da2d7ef20; 0x72a39408aead5035; 0x734b68880cb1a1cb; 0x2c772cf4dcd3168b; 0x25774d161f8e8154; 0x5c26d78e125dd257; 0x101edc02336f519d; 0x77fe8db60cbaec64; 0x3bab1e595ef270a; 0x22a273493264d2c2; 0x10f9ce3c5ad408e3; 0x19cf4f4ca9b4f7db; 0x3627ca000ce8d0cb; 0x6afe84b2a882da6f; 0x63c23f601f632ce6; 0x61d274cb4381d9f8; 0x4f03dd91d6b010f8; 0x55b62f6074618a1b; 0x227fec96e502a243; 0x1afbd10ddfd80a74; 0x17dcde5f18ec3090; 0xcbac9b5a009e820; 0x3c20a70e3bc510c4; 0xab94668f956dbb4; 0x5d235f707f4cbacb; 0x2092892ed3ab5f14; 0x54eb05f38d2551dc; 0x3a36fbd5bd4bbfd3; 0x7b8cf0b144c528cb; 0x3e3bf040ecf3be55; 0x30de452061e4f0f4; 0x45f5a8c48910dd17; 0x7ddb6e0a2d4c2f41; 0x1382ef1c8e70ba3a; 0x7b6dd5b617f9d579; 0x1f4bb5fce32390c4; 0x69ef18e44a5ebd37; 0x5e122a4e50b684ce; 0x2052602f5ead9625; 0x3352304280546f49; 0x742d96c4880671f2; 0x1f045dca45395106; 0x22629e530c346fbd; 0x6dade793ca0084b4; 0x6835e06b2f30c714; 0x367ef0f3e129458f; 0x607f426aa93021ec; 0x3cbb2966e31871e3; 0x22f34977fc0357a3; 0x77dc5e2c12de9043; 0x73beed4cf0642ab1; 0x66fd5e43bd0ff980; 0x2962cf97a8700f92; 0x16500370d38b0072; 0x66b2f74d8d67e91e; 0x7397313ecf9fe1c5; 0xaf01e189aceea43; 0x7964e6280df2af66; 0x5ebed5a50fd6ddb9; 0x74545092bd05aa75; 0x6fbe1a3dc6ad3887; 0x6de7ba58c0084173; 0x2593338624b93d92; 0x1e24162792b234de; 0xf03f12cd51c1fae; 0x7505f1842b459482; 0xd6e8d1e5bb1489f; 0x5c1d8522737aaf01; 0x7d83fa075fa8e51d; 0x207a5f12caaa584c; 0x58e326a5473294f5; 0x7e7752217c5eec9b; 0x178644a1d7ad9f8d; 0x50be3bf810517ff0; 0x7024e19e74463b15; 0x4174cad682db1ab7; 0x3c300980417e0d50; 0x2334b615bc057578; 0x126e2796cacc7983; 0x68c33be63afafdda; 0x52f4c0eede2e7530; 0x51efb1c00d07b226; 0x6002de80588d52e8; 0x6e34a056b351c476; 0x3a615e3e156f6bb2; 0x4b8029fd3536b7e6; 0x3e6616637a7f655d; 0x36554ede49a3f07e; 0x2904161b6a03b984; 0x9756368f88c7ae5; 0x1b964fe3ddca601f; 0x3cd5ba85e377af3b; 0x712c9c371bf81ebc; 0x213d11408f0ae271; 0x34e4fca713a681d2; 0x6e801fc8738d679f; 0x79f47e577d081c7e; 0x20839011bcac24c7; 0x33257ca3056db6b3; 0x9e934a68e6ab677; 0x2fb4638aa3ba6e0; 0x71fbf0797d4bc165; 0x3242a74a37995264; 0x1d302808ec8a2a73; 0x1f530494af11da0; 0x1f058e955b5de328; 0xd519620822fdd33; 0x72a5851f66b3bf13; 0x1df0fde6e72e196d; 0x14bc193b50dcbc9a; 0x452ec893abed00fd; 0x1f06d0ff2cf4538f; 0x4aeacc26ec20b32a; 0x49f3898f2f9712d; 0x6943657daa72446b; 0x4c35e262eca386e1; 0x69790cb1cbc9dcab; 0x26e77f9fd1b7a013; 0x594868e7f1377d3; 0x26cf26c2834b44e2; 0x1dfb61bda4f5c80e; 0xcc15d1856b5f87f; 0x23ef979b8a71367d; 0x7015405e84a401e2; 0x69e6ed8dbb6a5817; 0x11a7e5d0a73044fd; 0x6bd1ef870ca55231; 0x4f4230e36ea9a23; 0x96bcc5579e739ad; 0xda32b10536ebf5b; 0x13eecd0341b83de0; 0x14848b6cbaf73118; 0x35242fdcb619ba90; 0x14754c1153ddf6dd; 0x59eaa2888a54daf; 0x667a748b6c9c93b5; 0x9845f227c8725ec; 0x34e4df21d6f8ec28; 0x1ca9fde496003449; 0x34dcd739792aa65f; 0x4946374b70e58368; 0x20646b60320ff1ff; 0x4992f3cdca20c392; 0x187533471996546a; 0x6c7c8d00ee9d0bdf; 0x4037773d48dc80c4; 0x4fcefc7944f81fc3; 0x1f0e9558b9e5e630; 0x58e3c3838d39f0b4; 0x511207f93677e5f7; 0x6d3e81d4b482f52f; 0x6769128730bd797c; 0x423ae5034abdc43d; 0x6be426235c060c00; 0x7682b4540faaccba; 0x417033963ebec100; 0x48f3f98c864ae885; 0x4de2fcb7f4c2fe53; 0x7b7732fc71eefcdf; 0x3bd12a17955958ca; 0x5032b08c057163b4; 0x1a9a9ab3390524f1; 0x2c71f4de7eb19449; 0x74252812a62dfc3a; 0x1ec0b0aa911c3c71; 0x1f8508d4ddb5714e; 0x3f920f52db61bee2; 0x3a15b4c9a3ee5708; 0x5410c9eab42aaa7e; 0x576c1765edeeae4b; 0x2580a8b2df6619a3; 0x2dc1c38e58ec2ebf; 0x80c88fa2eb39f90; 0xd5c98f2f0c6f761; 0x29026540456195ad; 0x132b23277078b52f; 0xeb40f9ed1f083e4; 0x42c0adfeddcf4925; 0x3fdf13735d8636f6; 0x54c5cf6ac599af65; 0xcb0021c63628a9c; 0x23ea881e5e1fcfb6; 0x79c112bc8f6b5c0c; 0x7c861528f98c9c33; 0x64da6b2c5487bc2f; 0x7dbe93cb53c7701b; 0x740c5c2e16ec8711; 0x227ba33c976475d7; 0x44b0989cef173267; 0x38032a9752f3338b; 0x1c6539989495530d; 0x9d1eddb30599b90; 0x61ab59e446dd60a4; 0x135ae1402ce7893a; 0x361eb5a2aefbb2b1; 0x62c3d215755adb01; 0x3319d5958c5d5635; 0x127d136a2e8cb269; 0x6823ea2e9f51fa8a; 0x6eea681f0b5ce1ab; 0x5cfca91f9cba2a2b; 0x3777ee0c2b9deb31; 0x51effe4513ad629e; 0x371915f09a3bab1f; 0x401a2854eb0532de; 0x6a121149cc75de57; 0x4106fb1161983e93; 0x748af694c69f7e91; 0x7ff125eeffce2a67; 0x3a0f397e271e4f0b; 0x10da650db924b6cf; 0x4c61bb7acd872572; 0xbae7d5c14842408; 0xd69d43daf43e159; 0x3b6e389c20ea90b1; 0x5c0b36df92e36ed3; 0x52960c2b0bce4ac3; 0x580f356e78d5e1b0; 0x536d583061d550b2; 0x35751fcd5295fc42; 0x4a024fa29bef769b; 0x4b1077a0df41ea6d; 0x6463747383ce3de2; 0x30709a1ac7d9bbdb; 0x646a6a168a4abc0f; 0x4a7fc7606c099561; 0x4a2763ff22d614f1; 0x47e8512b846d857e; 0x78f534cbdd19fbef; 0x6461ca921efb7102; 0x796bfbf053652b6b; 0x72c9248bcca9446c; 0x31f9fd01ec2fcced; 0x4b122ffc0fa76c25; 0x49961d1a8dd46fa; 0x4d77c373bb112872; 0x32c4b1eaedc9c57b; 0x1e9eab6d2d2ca792; 0x5c624575f2676b22; 0x750b9c701899e61a; 0x251c803a9a7f9f5; 0x74d6ff1fdb1a0970; 0x66cf057286085cad; 0x49aa2cd0a3f0200f; 0x2034c2606a4e4d4d; 0x7b5f16bc76c95626; 0xea92b1dd6351a55; 0xfb0db12fbfe5b41; 0x780ca16960d13c51; 0x6110ddc04b9c599e; 0x3e983809636a2318; 0x259432df130be6e3; 0x2eed41ad99d0c53b; 0x79f8a40c0bad1106; 0x6ef68da0ce84c436; 0x187669669a93c4f4; 0x3a0dff2a80515f88; 0x4c180a6809b36bad; 0x53092696c7aa1171; 0x44d1af99dc28bc79; 0x2c8eb711b3bb800d; 0x3432480109093125; 0x2815739fdfa7280; 0x4071450c55db0b69; 0x2833a385299f0443; 0x2319f239531f737; 0x72b6123896b34166; 0x2c13f19a480b488f; 0xcbf21bb4ab97f54; 0x4268b4d5c4bcfb07; 0x5e03ef41c271b648; 0x37d7d9d9784788e9; 0x65617897cd31d024; 0x6f214835a9ebdafe; 0x75a292c080c7e510; 0x4026c3cde82fb270; 0x68424e75c1e50ea2; 0x671573e321df1973; 0x13a7c0e5d12533ab; 0x66053d6356dcb497; 0x517d613786d87c21; 0x4b9bf23479fb07d3; 0x50175182eb98f18b; 0x59f2f6470c219626; 0x6f80350c68dbf4f9; 0x7c2208ecc87c3494; 0x40cc2358d5f9584b; 0x111c34fd46dc759; 0xe431f28a1c17b20; 0x59f348bbc73d1d5f; 0x51b86ffc3e07d01f; 0x670a18a54b621cf4; 0x782e8f5ee6d7e5f9; 0x1bf4efef82f37d87; 0x2931b1dba739f7da; 0x4d7d4739c71e635c; 0x7e6b81800cf833f; 0x23d8ff235175fca0; 0x3a10d2c11069d77d; 0x3a8d7ca5586e7ed2; 0x77a15863ed05cd1c; 0x3c000301b814b33; 0x6e09ed4016417c5c; 0x104eb596c68611b4; 0x348d273a7093cddb; 0x6791dddfffd9afeb; 0x55120759bcf67e66; 0x1825d950dfa945bc; 0x3b44a];
   [0x71b6c335e903f483; 0x550c54ce6b4ef9a3; 0x1a10b1f5e5baaeea; 0x3da5bcfac29b1973; 0x205d2bb92f114e02; 0x72a87fae58f81b9a; 0x4436ceecb829e3bc; 0x23951411ab5410a1; 0x4431de7ce0fec64d; 0x4c7723554b59cb51; 0x106aa62e6efbab43; 0x457b304dea7cb434; 0x7a20e13dac12a3b3; 0x34578edb7f878efc; 0x75492b735b38526b; 0x18fd0999ae866f6d; 0x7a1be80253787a1f; 0x58cb41716fd3080a; 0x6111ebc0f22f0a1; 0x547a7c5ce879de5f; 0xc67a19a8dad5f3c; 0x50602c1608ac4d7; 0x14b60e61ac7e47d9; 0x4a711b5b3ac5341e; 0xff7c5d347522c2b; 0x32933c760fdde74; 0x183390e53f73a342; 0x208dfbe1f22122a3; 0x1ee4bd3873ffd022; 0x51ce8286b4954a0e; 0x7d9aca6cc69463e2; 0x2621d118f0563661; 0x4a6ea7361a6d00df; 0x4f834dccc804cb41; 0x350a90863964c51b; 0x3ad100364747453c; 0x429e1c4c9d0d0f90; 0x209a82009d412a83; 0x4de6d130aaa403a4; 0x35a96bff4485a729; 0x278e472824124b35; 0x25080cde9a8316a1; 0x3af172d96974f4d2; 0x12f317be1ecd00f7; 0x4b3b5ea7f3fbdc05; 0x269030e1a81e4ce2; 0x383e7927d16a75ee; 0x7aaab8d16cd5b69b; 0xdae0862bf8b6418; 0x7951dbf4f38471ef; 0x1588f36702dca5e5; 0x74485b8ab82001c0; 0x426775e496fd65d2; 0xe8ab86cd8489521; 0x3764a8413dc036fa; 0x50d145ad5dcd9667; 0x6be4d13dd38a342e; 0x769a336066b1f9ce; 0x6eabce984591465d; 0x4df17aa8a25bf4cb; 0x14f98c2958b576e3; 0x16a075dda7f7b859; 0x6cfbfcfd881bf6ce; 0x455d6df37878da83; 0x4087c9049d4a60c1; 0xbfe09764ce11d1a; 0x30b412998caea4ac; 0x28dd3223a652b175; 0x2db63507121c1171; 0x11297556d60545b5; 0x2a83d6c2fcf0fc2c; 0x3b9fd6710dba73c6; 0x1763822ecc191517; 0x2a9eee1c4dad6307; 0x6cf6fb5810fb5c1; 0x5232222412deb943; 0x5cd32bb97128d04b; 0x10b42e7f1a57f930; 0x3ce745267890f847; 0x5e5fcd654d7d6d5d; 0x24526b3f460e18a8; 0x6fb863136bca9eac; 0x63fd0a80ac23f3a2; 0xe3c581af4a68acc; 0x425fbe2fcd005598; 0x30d303b9341009cb; 0x5346fe922f5f8935; 0x2ded77e76f70ddf9; 0x144affde272f5aff; 0x3045dd4db041f050; 0x390273638d52d599; 0x41a82bc2e0d9c4a; 0x2222147eca31e60a; 0x48a3cf4514d50723; 0x5a3bbe3f30500f25; 0x77c1639e973c3510; 0x5c81805a57247a97; 0x6ebc4dd3fb0d791b; 0x5c94401cfb763e7a; 0x407baeba1fe3597a; 0x1c1bfdcf9066540e; 0x1b1e5dfb0ddfb931; 0x329489d0458fa26d; 0x4a90c3c293e55d5f; 0x9637a0e1cb2608f; 0x3500bb3edd81339e; 0x4e7f816d476dc5fa; 0x589059e59345335d; 0x35630717d53ba7a1; 0x6a821bbf1855b383; 0x7eaac669848d6302; 0x2980d83ef61e49; 0x1d0371cdbf2f0d32; 0x1d93b49305e0eda3; 0x3fd8be0ef521166d; 0x7f93fca892d70e4a; 0x7352156128e3f703; 0x65a9b874875c792b; 0x6d54e330afcab1f4; 0x7007a3a20e1c1eb0; 0x6a195dca0b50b446; 0x18a8ad18c36a9d7c; 0x7e4b5708271cd2c0; 0x26ca3939441fb183; 0x4763e1c83c8c90d; 0x1cc91ed4a3800330; 0x2075e76c8b3351b5; 0x43918231d59b32db; 0x5a6edc6f79b0179; 0x3b83c1b44e60946; 0x4d5a851086aef7; 0x32dedf5b6f62c23f; 0x25237c88895ca85; 0x3a07cada1b60d485; 0x7acd16fce371a57; 0x50927a645e8ee139; 0xe023a460dc5523b; 0x28b624385dd8d598; 0x3d376ce7325a792e; 0x67bd7b168219da48; 0x74f3db1c3b3100a3; 0x1bdad1c63ba1c64; 0x36bf34ae9ade80bf; 0x4c2a994d79d79ffd; 0x4c1b2e23cc4c964d; 0x74e61905d5222537; 0x26e6c2cad9f308d; 0x6d5f458198dbb1ca; 0x38dbe7d5cc413379; 0x2adc46a5136d267b; 0x1df0b31a3d33f5f2; 0x33259c48a8db2888; 0x70b088f50bf7a928; 0x3602a12a99dea2db; 0x1e22f2194e67a8ea; 0x279b8bd93222cb28; 0x4a8db5f2d094d3bc; 0x4da7dd74550ed114; 0x20b61b534180f8e3; 0x24ea736b13c56b3f; 0x32d36e2b86c6090f; 0x495b799e438aa0ed; 0x17a7ba0d614bd8a7; 0x611b9c7d671f502d; 0x482f44b7000c8a49; 0x5cdb43dcf40c1993; 0x6f16fa270e605e67; 0x60e1e28ce0f7a0d6; 0x754b4a56fea9617f; 0x38a44011c8c491c5; 0x7d50f1b37a23571b; 0x454a3cbc039ea32b; 0xe70a5882155365d; 0x6d153477ed10c1dd; 0x55a1c15ccabe8b3c; 0x6af06cf4a7626f59; 0x1371996694c757fb; 0x2c087746e5e13534; 0x489d6e4a7984a3e8; 0x6c4e3e0da2d92ae4; 0x70d62752433cbc1b; 0x1e62387de1d32d39; 0x3efdd6d9427624c; 0x18d09230089f8429; 0x3ed9d5b944791ec7; 0x48ce1a44c4a418dc; 0x2bdbd8389bad1c69; 0x49b2ab15bea7621b; 0x115e81aa40a52a11; 0x13fab6062f471ac9; 0x3b5e59c0d7552ffa; 0x58ad4555a693be2a; 0x6c82209a2931cd90; 0x638187a1123f8126; 0x44ba5494e4309c8e; 0x367d08ed8977da49; 0x4d297ac8e6210ce9; 0x5fa6d41cd143644d; 0x463c1c0eb67299bd; 0xba9796bf8b29a0; 0x194eea30a7675ece; 0x1dbbc24328401d38; 0x57071fbc03eefb6d; 0x4bfa4766ff29ec92; 0x773951d39c28d114; 0x682a1b53d5f1af44; 0x46c9344c111b15ce; 0x3b1031c719af332f; 0x5fcf82dd71b1145b; 0x1c22b37dadbd0da4; 0x21c1bc6953951d7c; 0x49acabe5c1a6a8fa; 0xbdc7e91ca443c80; 0x46d03ac94858bcbd; 0x1f45ae8f0ab1babe; 0x55ea2fe96269dd9d; 0x62428e4d63b81e88; 0x37c5dfcef38979e2; 0xbec33137964f6c4; 0x313d9bc56f65c09; 0x2ed3a27467b6bd79; 0x5afec0c62669858a; 0x6c079a787a611a17; 0x2527c0112f636f31; 0x292eae014227bdce; 0x5f3740ee54c6855a; 0x6d03795e0b42ce76; 0x20bd8c83b2292262; 0x27089c80896a91c8; 0x35cf223d15bce056; 0x4546b4f3909f0af0; 0x13cc1680cdd16fb7; 0x6b6b8a0962d51b31; 0x499197de802824e5; 0x25539177e9a66ba0; 0x6de61a1944bfb190; 0x6d3fb1b4dc31387e; 0x11b68994f065511; 0x5b9bce2042abb9f5; 0x4c6c0e528d3d8573; 0x457fbbf133d735aa; 0xd42215fcd511e6c; 0x4f49f3bae23102c4; 0x27db26a902d057dc; 0x6e796142aea77540; 0x7294392663e6cb98; 0x36fc4179acf68649; 0x2495e489cae5d3b3; 0x24ba2ee5bfa3340c; 0x25f464ae45955530; 0x2d4fb0a8585c1d39; 0x20e7caa580692c62; 0x378341aa6115b370; 0x36c76a369e70d795; 0x16ff3482030b8296; 0x56d28a58a021a2be; 0x3fffdf5bfb1f3200; 0x59f7564425014a55; 0x3680a34566dbfb6a; 0x72e82e701584a471; 0x1faac9455329f968; 0x5ef016f24aaf523c; 0x51dfdcce8b6ec36b; 0x7525a02b0cad3d9a; 0x16745f870c57bc72; 0x154379c74b403da7; 0x7bd951b98bbf4fc6; 0x4253e3b66a758baa; 0x58968d0c5ffdb395; 0xbdfea7bd50b4507; 0x2e77c00e76e118df; 0x589d27dcfb9d3a4a; 0xabc6f4c15071f51; 0x15c8c18806c9312b; 0x463496b21c6d95ff; 0x5edc488a3f325c06; 0x2bc0c7fa3ea3ce34; 0x2b8e6651c19bfe10; 0x6a277e18f61059e9; 0x1fe0270c3d5721ab; 0x245e6063186eba4c; 0x44647fa19435b07b; 0x65b9948785f0b745; 0x365f0031bfbbecf7; 0x6ef42cb3b125eafc; 0x205bbbd4bbdb0a26; 0x2a34707d534890b0; 0x70814593862fcbad; 0xba52eb77f361545; 0x5cf47d9f7037bc0a; 0x47402da39d9faf4e; 0x5d29e03465db2edf; 0x354582415dec0504; 0x68dfbca51e71462a; 0x577f024c138866e9; 0x13abccdf63c3c789; 0x1ddfed5c2062598b; 0x16a1d1c757a0c2a3; 0x5d037550af4cb1a7; 0xd8ac0be8ec9cf6d; 0x3b8a15011b1bddd9; 0x7e9c406ec983503f; 0x57bf408662702bf4; 0x4cb80aaad4bf280c; 0x7fe64177442ee2be; 0x7e9e9c3816ffe89d; 0x426b1d65b62372cc; 0x45bfe8b1e1a0245e; 0x10bef39572204506; 0x3c543cc9f6501edb; 0xb3150e1b279e821; 0x12bba4380e8dfadb; 0x7774697f6f49404f; 0x5216d754d3bee120; 0x3ecda975213e7949; 0x7a0b753e830c71ac; 0x4ccb2c82d3ec7889; 0x22358f];
   [0xd1e7de3ac881c9a; 0x33f48a74cfc65ce4; 0x59d29722bf5e5622; 0x4b9fa57c4a15b0a6; 0xcef019ebfa23f43; 0xdf234eb8e55be3b; 0x7a6d12743862958c; 0x274cd5848ca0dc97; 0x7f24fe9ce74be6a7; 0x4637ad5883d237d3; 0x5bc0cd9393e0f4ea; 0x175bca1411ad7bf6; 0xca0b69c5fa0dc96; 0x33c39ed00ce512a0; 0x4d6724989f6b08c8; 0x440fc4788e8d87e0; 0x30b65967cc49763c; 0xa2af218dea9a78a; 0x19192c8926adc340; 0x3e978b37c17f76d4; 0x191bbcce115e0cdd; 0x139e9d880a00d3c3; 0x141daf4bc6a0ee90; 0x38b3c7b183277085; 0x8564b3f3e5a3868; 0x7e23a938852ceac3; 0x79dc7ca1b77e23ba; 0x54d51108ed6c1dd0; 0x6000e80c1ddb013a; 0x241ab02a88d1535f; 0x49bd3a9657ecc7f5; 0x35afe411870f7d96; 0x335cc97d3836acf9; 0x55edd7060c3dd346; 0x7c59f51d41b91ce9; 0x7fac298ec47dfdf2; 0x37714249bf760c81; 0x673f6a560d070b9e; 0x7dd5605ebd25a432; 0x18a99fa2428c8a01; 0x3d66e698c39fbffc; 0x49637811edbb8f7; 0x31bab249c386f665; 0x56664d30bae12f97; 0x384d146d4f56d53a; 0x7bdc3e82ed8b3028; 0x2df83e936bb4f3dc; 0x712798c5c149c369; 0x7f815d00bb295a0a; 0x64f006a5dc3a5f0d; 0x144075ec58de7975; 0x2dbef7a6d78a4fb7; 0x48f45f5420d5ac99; 0x49226dd34bb517bb; 0x445573e1e98cb9ed; 0x5199389f017364c1; 0x1bec7c3a0f91a900; 0x58106203215baa6e; 0x5064e44f431eee3c; 0x749b3caa72950787; 0x70fc452de3ce3280; 0x31051f28f3f7b4ac; 0x30a30fd3ce46513e; 0x57dc14eb0456bb8; 0x77945ad4d0abfb39; 0x25b603cb30fd6c4b; 0x127e58ca0423b617; 0x1b57c83452821812; 0x59c5290f83d98b75; 0x356d000cc061fd60; 0x6e56e9451828a569; 0x4cfeea5245714eee; 0x4bb136a265f8357a; 0x661b3e0060408886; 0x19073b485f4fda7e; 0x8bd6aa202b0586e; 0x3c25a52bd419de1a; 0x347426ff2ecf049a; 0x4edacc530ab74c0f; 0x35f1c0a6e45257de; 0x69e5c91a5536cd3c; 0x29c5e08cbcc011fe; 0x360c234188c192c5; 0x7a10fc7e04ff6fff; 0x10473de65e565efe; 0x6d65df3051ed7ca3; 0x3a413feb20819c0d; 0x6e78e310735b5d85; 0x1a84f626f9c70e91; 0x2314c563b5178983; 0x6f478add73ca4d2c; 0x598343fcc20acb90; 0x2ee17bcac2de0988; 0x3c47a9d604690d62; 0x5cb9446b665e9df5; 0x52b8b13ac3f19136; 0x2b447515122c1582; 0x7b303a6ef9d23cd4; 0x5d99a82bf7f92ae3; 0x251a9cd6db663906; 0x46884e2e54eee12; 0x486e7bb3563c241; 0x34c145dfa53019cc; 0x404e3a0384361396; 0x3598e8902acce895; 0x4d0a38bef91c83a7; 0x3d9a41cac855f84b; 0x58d7f159286cc18; 0x479651bda95f38f4; 0x1e893123203638c5; 0x5e17c8a443252b63; 0x504ec034cb164bdd; 0x2e269917ddf9a9db; 0x3fc3a9f332b49990; 0x55a97efa795572bc; 0x68a3f7f07ec5a5f2; 0x14913116bd931e2f; 0x3991b8e06f31ece4; 0x754402359cf637f; 0x7595287690cd1185; 0x12aa0d3c8eb79449; 0x569e45f6089be88b; 0x53432a86c536842a; 0x1f0555252be29194; 0x5060273b8d47fd17; 0x4520f419048f9c97; 0x612548f300e7b60; 0x5039f95ce644c71; 0x6d380b478aed1fb3; 0x59547113219cf10c; 0x51ab5be96fa6aac0; 0x14076c753c3798d7; 0x1983f3373972b584; 0x6e7dd7c77a5e9a1c; 0x67e772d631fd3b74; 0x2d942bbd3f35cc82; 0x1b5e401422504bb3; 0x6b68a12b072564ce; 0x3e5ea7aedfabdf91; 0x758485735f9d9ce0; 0x51593f40f7a693c; 0x56e0695478f34ab2; 0xf10b270f6f1e3bd; 0x4339b6d1a7fa8f7f; 0x22bb348ea985c573; 0x3b9106f15547af2f; 0x7aafb3ab57dcbcfe; 0x247af41f732dc9c8; 0xacddebdd61391cf; 0x515552a1b70c367e; 0x580795f265909347; 0x505b855984d74ca5; 0x54f3f392bb196176; 0x5c54bc574169f545; 0x3280d8168d62733; 0x5ffeaf4e726dd60e; 0x29e97f98f58e931c; 0x5d7475d4565fb7a6; 0x62c67cf487450fb9; 0x270868e6e1341410; 0x7349a03d59dd4617; 0x51ce25c1fc14ecc5; 0x1b0f6b5a38bb3063; 0x156dc15a313346b9; 0x331529ea7b6f9613; 0x33d64210bafe429e; 0x45a791efc7fbd591; 0x490b027f2c60f808; 0x6fdcc0f7ca77e98; 0x3947a4813e431bf9; 0x43fe0a6896a6618e; 0x350258209931ac7; 0x11a82908a8aa4400; 0x6268328dacbe88e9; 0x3377ad2997ef4acb; 0x606646120946352c; 0x32654fed67342cf5; 0x27aef03e93e1aa93; 0x5cbe0982fb927fd2; 0x7165ff762330f3fe; 0x2daa73cd19907255; 0xda574ee0794c576; 0x7dfab114209c9d56; 0x61a9d80e4e6a4185; 0x5a3907b160c60b0e; 0x5b3a39a3c47dd5e6; 0x6bd29f3368b2d24d; 0x1e9b8a829d943db8; 0x4e610a6b2445b58f; 0x45d46a35169824ea; 0x63fcc8914a99ae56; 0x63aac07e3fd5d166; 0x7750907436fc4c85; 0x125e1476807ad418; 0x3229c2bdf083f6c9; 0x23ac850406a377ab; 0x7da37a27faf02d61; 0x44c475fe2e3a9799; 0x35e95df1d559236f; 0x148273e3248bdd2d; 0x63522f26c365ae8f; 0x2f53682eadf0ad0e; 0x38bb06cf852be16b; 0x1bf3054b713fa213; 0x5e8190dacd5ee03f; 0x63f2d9f3bfe091ee; 0x494dd8dc13731e1a; 0x61865331d81b58e4; 0x30a2c8fd27219f73; 0x77c4e9857fe852d1; 0x1cc2f623c7cf5ca0; 0x5abb5eb70f71c070; 0x2ed7d0ad0571bb54; 0x1019a529709d7fce; 0x3dceb407868c10a; 0x69f4c9ef9b83d5d1; 0x44d7c23e04189d76; 0x314fa326d2a81496; 0x7ee333c37a8ba89d; 0x5c7e29108a335cde; 0x2efab532e1f6b3e0; 0x13acf7382bf96fa7; 0x622be38d72de7da6; 0x6ebe58aeb89815e9; 0x7f51c2eaac23344f; 0x22369ccf09803893; 0x6cb5f307a3b868f1; 0x361bfba15d6fb2b8; 0x440a5d6068aeb305; 0x591b36cdd97e502c; 0x6da93c5c46e5e3c; 0x1a85c4e92de9f4a9; 0x64d41b57cabf386a; 0x267715aec030ad0e; 0x735d57b73923bfc6; 0x79a59829a793fb05; 0x379e7900f67b30e; 0x155374b2a76e29f; 0x20b2e683c622b1eb; 0x2e8b1a6ce4d5076b; 0x455b32bcfa31688b; 0x5307d476625efe99; 0x754cde855bb52bb9; 0x1bebb0bf322e1f8c; 0x15ee2fba65fc68e9; 0x29e294bcd21da8b9; 0x11b3bcbe9c9be928; 0xa3f770ac31f941a; 0x74ce2d4a872f0eca; 0x3d91ec79591895b; 0x1018d24be92b3659; 0x17363243e29ef7c5; 0x6b99cc5177604930; 0x3ab3bbb5f323bf19; 0x30fcf1817f8e59a0; 0x27009f928cf3d222; 0x24f4a10521fdb9d9; 0x5794e8955a3b1b57; 0x6aa25c46dee9a47f; 0x3dae267f127023f2; 0x544c97fd0ba4d441; 0x404f4f4413417403; 0x6e9b4b8d89f56070; 0x2a205278ae2affcd; 0x699bec8eb69a4dc0; 0x272b4e1828b1517b; 0x24dc9dd935e77a97; 0x18f10c68d7d500a2; 0x6742ddb5c5296e3f; 0x5636f8b6eb4b79b7; 0xea0f9edb3ce321a; 0x4d98bf27cf840094; 0x42004ee9b61fd00e; 0xc305dde7d174752; 0x6c17f0f6881c4b21; 0x7be6a41988802f07; 0x1ea1f271ea958d24; 0x46aaa5ba25c429de; 0x1afac38263995bfd; 0x460d91cc0f445985; 0x417994538a19b4dd; 0xc4a53aecb5d5b2e; 0x96394641bdb7f25; 0x5517fe0e8274604f; 0x94c3ca1f8d254b6; 0x593d5753131d9817; 0x21259bc94c91cb0e; 0x4ccaa10fe9d92202; 0x38942f145a95414a; 0x38c31264c30d7a80; 0x3e06999a56aff02b; 0xc681b01e5981eb2; 0x14a1042b9747b0c1; 0x61b7d3a349e06aee; 0x955601367d26d1; 0x50623309e83c9fcd; 0x77f7d774deaf115f; 0xd03e8d14364625; 0x735a98677509b7c1; 0x33554fd6f9c1db1a; 0x2cf2a31406e6af7e; 0x48b92292b0a29289; 0x208781816ebfab67; 0x564ad90e6a39246b; 0x7656eb90bb6cc082; 0x1f11c95374e349c1; 0x71f7c77958735a72; 0x55e3c62b9d95ce0f; 0x136268f820214c6; 0x6f56e10017a1645d; 0x770f5dc30af949e; 0x510d4cf4f5567229; 0x577f540d1ecd6519; 0x36247762b826df6a; 0x470f7a83462c4056; 0x771112ba9bb3672e; 0x5da88fdcf70026d2; 0x2673eb];
   [0x574b827c896860cc; 0x4aa56cd73baa5a13; 0x692c38fd70847de7; 0x550412de42c2147c; 0x104179a10572e76; 0x381d646dec7f91c1; 0x5f32612293e43947; 0x1c0b53e953277c44; 0x1bc0603f4f58c68c; 0x459bfb2d82b73b7d; 0x583ed5e56537970a; 0x3e9369a8b7818272; 0x7c514117dbefce56; 0x58e3607a4bb27a1c; 0x64be7efbf90bcaca; 0x185bfe7141a78e8e; 0x126fddaf88e0855a; 0x2280cc3f5bdf368e; 0x6a3a90ac66e00d9b; 0x61aff16268220390; 0x1f6024b78d654224; 0x5c10c2637180cfdd; 0x3826842240af65ea; 0x200b9e9b285d1d8e; 0x110c1a3f24a903e; 0x194c175b86cc608a; 0x51955a7adc7484c; 0x60d3689655b3989d; 0x233c4da03b180ecd; 0x4d340116e0f2e9d6; 0x100da67eb2036cc; 0x3f601ea37c09b420; 0x11197e44de171e7; 0x7fbe2aa730799a46; 0x3ca584d0b0ed8c49; 0x3ec287e974b51003; 0x52a5eb7f6416ea5d; 0x3905b4dfa5efb80a; 0xd1c64c5bd9a84c6; 0x725e2d6e3290f746; 0x1475b4e1ab798ced; 0x13848877bd54433a; 0x6582dbb5964a4ff6; 0x7ce467563ede1a22; 0x214a5e3005119575; 0x577ec096a86f0c13; 0x60198d5132616484; 0x6a7628b2c78b421a; 0x24b68abd62cf9bab; 0x40d0999436b9acb0; 0x4999a809c19f10a6; 0x5ad820c5cf9e7a66; 0x7ca96535015e8c8a; 0x2782d49cf5ff5293; 0x3b353a657827a738; 0x30e62f9c011b6e8f; 0x1257c13d93fe487d; 0x401fe9df19a858bc; 0x5e4aabfdf9f20dc7; 0x24b1d21e615726eb; 0x7ba33d6a7b8aaa06; 0x5e0dbab39a64465d; 0xbb41e945c723ad7; 0x21042eb333537548; 0x6b784b5074e8ceb5; 0x43c8965fa233c088; 0x2308ae166110a048; 0x34f31fbbee64accc; 0x57ce44830790d05c; 0x13a9cdd2f67d3913; 0x6bbaf19992e6eb06; 0x40e65dcbe78f00cf; 0x7b2ee2e45d12f5dc; 0x58e2ae6fa4bd2475; 0x57910d07620e204a; 0x738f8806d65bbdbe; 0x285706ae31930fdd; 0x7cce99f8f54d3682; 0x3b3d2b02e92469c3; 0x41753e22366557fe; 0x15376580b7f1c05a; 0x44a71588590e506c; 0x18cddafc50e5a9f1; 0x4a5b17a38e353c7f; 0x6bcb658cb11dd219; 0x48f87bba84dc2dae; 0x6ea29fb2b568dde3; 0x774a23c2b4ac0630; 0x2be1b1b42b42f46a; 0x74fa8ca4cac22f55; 0x7339e63ae87c5055; 0x1c33b94abee9e76b; 0x1ac93b92707a8867; 0xe7f1dfb72d13546; 0x4ced457edaeb3120; 0x1683fad3a7ab2470; 0x52bdda3c02305c02; 0x26bc3f9b81df7ffe; 0x6641c40cbc6e43c0; 0x535767278bd77575; 0xa8bff872ba7dd9b; 0x515db2cdae3a2948; 0x78991e47201655e1; 0x2ff72e45e58884a2; 0x3d3d99cfd2b62a6e; 0x7a1258481de2c781; 0x6d4c5e542655e373; 0x26289e2051cb2954; 0x743463f12db6f469; 0x40b6022200007f3; 0x11f5cc2946b22c5; 0x4e6ad387861ddd36; 0x220fabc70070bb6; 0x4c3991df9957a45d; 0x7e5d4df1c9697d9; 0x38725817a1573142; 0x3eac11ab1d950819; 0x6eae18c0530481; 0x4037050ade45d865; 0x2530bdac06b1984c; 0x66758f51e7f09923; 0x3ea501f3808fec77; 0x236f64b0c0269c76; 0xbe35e6656ee1f6a; 0x3e52f9c705afd12d; 0x4edc5d2a1881d3e4; 0x4fce03f182dc0130; 0x784e7ab75850bec; 0x63af608bc668fc58; 0x695e450b8cbfc3a2; 0x3106726ac9f87e9f; 0x77468f149375add5; 0x4f6a039e7ef9bc9e; 0x73c133e726c6ee56; 0x636894de2a2c1f8d; 0x2f071a3a77d34be3; 0x4ac7a29e8436467d; 0x659ff13dc337c722; 0x1ad1dfff2484060; 0x3349e279c89aa3d3; 0x6f73bf6bcf5e5e2d; 0x3e9b25f95038394f; 0x635daf166785b1b7; 0x4ddd2c59f7b01347; 0x6880719238f0f6d7; 0x72e09719831df792; 0x2d12d75fddba6b58; 0x3ffc9d00fefa48ef; 0x28a15b01e598f2c1; 0x19bd836f38d3e5d0; 0x5b790dfb441fc151; 0x5bb86de722b696ff; 0x3547d9dcadb78967; 0x405144b932b24e2f; 0x1a0ee2a022b9b2d8; 0x20153f64748b88a7; 0x4cb808c437d32edc; 0x72639f7913b55b94; 0x580547e9bac0bb05; 0x14cd1a9de3a283b8; 0x322ac856f6e3924e; 0x2e60ee87b42613b9; 0x7a3b0b2a00d4cd89; 0xfdde78213b5acda; 0x37e78048b62af045; 0x11d8cb8a90cb9c28; 0x435788b4055098cb; 0x306ddfb440b72a4f; 0x3c7815a5490dcbe9; 0x7227cd8a9a7a80e8; 0x34fa646b9223251c; 0x2fe90cde9e16295e; 0x7a324a947ce235ef; 0x78c94badc37f14a2; 0x1ae537aec05b477b; 0x7149b5a0411fd678; 0xd2be34e502f5f77; 0x137b8978a4544c6e; 0x2c280bd17d737ea; 0x755b919b681e1ccb; 0x78a5b587b3c6113b; 0x2c00a172ae040dee; 0x6cfb52d690126d8b; 0x1388eed6f876a91d; 0x5a76f6b3c36ef3c1; 0x351b78b3589b4004; 0x2309c9c90475c52b; 0x36197fb1646ef98b; 0x14c7930feb428a0; 0x23093b926c7d6f9c; 0x612c055b3885750e; 0x56baffcd826452a5; 0x4b73baef61cb2fc; 0x27fbf648eeb645dd; 0xe9e2a0a80f8c26d; 0x76f522b0b9d7def6; 0x6c337334e357c8ce; 0x544070f5cb363e0d; 0x25b9d44af06f11f9; 0x7a50389ab7d5d749; 0x35890af3e989253b; 0x457ef3fedc135885; 0x564999b409b5217a; 0x25dd8b7df1ee80e9; 0x1d4c4091f0f630c2; 0x1505d7236282aae7; 0x6b9583cf4525b844; 0x3b74c0e2d7a3069c; 0x367a324f75b0067c; 0x6fb938504a0c1dc0; 0x22f112388d0755b; 0x3ccab46e6403b85b; 0x2f92a2da55245df9; 0x648234630ee7f1d2; 0x396ad1ac363440eb; 0x14e3860fbc5bd648; 0x664faaa355e7759d; 0x4d8c2e83b379aff0; 0x75092d2753a3a093; 0x6840b72b72d8d43e; 0x738a083ce1cd5ed; 0x30efe540687dc3ed; 0x4afc4ee9d8575db5; 0x5e60dcf43093ee9c; 0x530a03fb1aaf87f0; 0xf9ab7847c59eca1; 0x33d3e32899c8fe55; 0x490acd7c12c8e325; 0x7bae895e988a0ae4; 0x1d0ea51e73947e33; 0x67546c7400501ce3; 0x3ed0f995113ec716; 0x6717484e3db8b01b; 0x7734e2e27cbd489f; 0x366efd764a477fbd; 0x2d8602e2697f3722; 0x40fd7d4d7b2e684c; 0x36692305e8d0bcec; 0x1901aa73a61b2bac; 0x1be378a0e2477315; 0x5f86feef1c54d869; 0x11c793d75909f027; 0x2c03531119c48426; 0x2364c2165b1785f7; 0x68096cede0b4faf3; 0x4e7fe7d17dd3767c; 0x6b0916d350683ba2; 0x5f0447f0bc01c2c4; 0x3e8176858d61af13; 0x1970bc8ab9cfbf2d; 0x2ca75ca78cb60140; 0x13388ec6c3128ac3; 0x1a879ae2a19fead7; 0x406bf559c2c2334a; 0x327f23bfca9d5cde; 0x6c65908f409e4fd0; 0xe10951c18bcbb5b; 0x608829a25d675b63; 0x3da67f68c2eab094; 0x2bdaa2f6b9437fa0; 0x279549e2bfd858f5; 0x296015b04da2b356; 0x3f0d2f7b312f1201; 0x26089a987d128743; 0x2f91d64a83669094; 0x5eac29f19d4c6a45; 0x549617548f28dfc1; 0x67c602016cede8e2; 0x6c8ad84fc878f2ad; 0x721a3077d360ffc2; 0x5d2c79f8176ddf72; 0x78afa5d8cb30180d; 0x880b7bc0a20f5a1; 0x4b9b21fdd07b4754; 0x2cec9b74ab77e9e5; 0x989cc7ec24b1d69; 0x4a9e3cd93799e485; 0x6a73c2d125756b52; 0x3dbed712455ce9a6; 0x3cfb5bd8c71c0298; 0x5a07655afe36c50d; 0x58c667a3e966bbfb; 0x37981627ad59edaa; 0x4b9de18f32f8c10b; 0xb642da3de21dfbd; 0x7035fe5c5a3affef; 0x3cb3e97f1d1090dc; 0x330cc041f057c915; 0x6d660a576f9dfc70; 0x4fb83c7ead4d7096; 0x2adccdeeeef0e948; 0x3934fd0af172308b; 0x7ca46d1d886e45bf; 0x528a0f904b92d436; 0x5e148776defe1f8a; 0x6654cbaee982248c; 0x255b1030c87074f; 0x55a78e31fbff965; 0x491941160a82437e; 0x14ddee3f52c0ee4e; 0x15976c1127587dc0; 0x48a63ec6f2ab32b3; 0x2edd78e510f39b9; 0xe8feadaf84d6bf9; 0x2438f30969ddb776; 0x3891941287590fed; 0x5733ff243b16a760; 0x6934ea791e1d6130; 0x2d003a739f43d3f3; 0x372eccf58c3e33a8; 0x6e2ee8a709e35c8e; 0x3fc1f371c3894c55; 0x102f198bce27dc40; 0x2c11b8c1e02f70b3; 0x4815cce2b7b6baf5; 0x3936cad30aa00d7f; 0x475a1b40b8d1ad48; 0x15cd1c];
   [0x5b9c52ffb87e30a7; 0x610659ea37bc46de; 0x14819173e729dfc3; 0x4db2b9882716e54c; 0x39dd7357de3f2326; 0x39765e167c208181; 0x4402d1ff8153e87a; 0x5c455c1ed8b87f6f; 0x698ddfa045694b5d; 0x194ed0f757cc5fab; 0x416dd7899c5f39e7; 0x968643173f7bc14; 0xa7bf3d7696f5450; 0x29bb69317265e021; 0x1a22f937c4e1e45c; 0x4d7ffd3ac78fcf15; 0x94ebe0c2cbf92c3; 0x2f4c802ddf37e6f6; 0x2b1b0bc6cd5c6e81; 0x169b166bba180de1; 0x7b455c0b9732aa2c; 0x37e8e7e2588e58e9; 0x491ff3c9bdadf089; 0x7fe16e5bb129204f; 0x19b57c22af75709d; 0x2e2b399156b66d5d; 0x6ba11dc60fcb6320; 0x601ef0804d57cd26; 0x6c28777e50ba0991; 0x65cbac242f825099; 0x3af5f20409540a7c; 0x5b9596ccf7a1d567; 0x5e60534a6509a106; 0x361cb09ee602adf7; 0x620dc20c36bc334a; 0x659257a473018a7b; 0x33d6b4b44e8906a; 0x50df6f14fcfbc5f2; 0x73d24e6ad3ba8e4c; 0x4e141742c166cda; 0x7fa3183523697e00; 0x6949c89cc6839e9c; 0x24681863489895ab; 0x248b364bcb935a7; 0x279cae201ed6c7d1; 0x56ad660a87774599; 0x67cb7464511cc5a6; 0x691abdf7aad743e6; 0x6d4b7667d2602416; 0x569349517008727; 0x2bfd3e69e67f580; 0x3ce790feac013250; 0x39cf61c3e489e079; 0x340c44649a4ee32f; 0x6bdf14ba95401498; 0x35b115bf57226c59; 0x686c46db70baeeef; 0xe24ffbbc6e82b44; 0x2aff7bf4a2706f97; 0x294652badd5bcb75; 0x431c2f86f814c11f; 0x460e8dfc6a74159b; 0x1fb8c84baf1f6941; 0x50639afbec74cbce; 0x2155cea4e29fce68; 0x7f413fcafe6ccc9a; 0x701e683751bc6ebe; 0x6d785821e65f8c51; 0x328aa33f017e3a5b; 0x1fda83ee76bf650e; 0x21f7b046c1b24b96; 0x4cfb5636f4a526ee; 0xdfa83d2003e80a6; 0x665cffb9deb9bdc1; 0x33c1216eee823217; 0x19a23d2c1c6ea3ca; 0x6d44ce33d33939f9; 0x738a4804ae9423cd; 0x5221ba7cf48d6858; 0x56c4426c8105ec49; 0x2fb28e334369a187; 0x303b04a8f46078ad; 0x12f3594a2d9fcc8b; 0x46c11266ff51c170; 0x25247d85a3adadbd; 0x40a61924db45a3e3; 0x61decf6d27b73ab0; 0x11c7f97d3fe3ba12; 0x525be2b1a71f9706; 0x7cac9ad42ffdea84; 0x70e0c6be529f2f61; 0xe577b9fe26cb49f; 0x3d26304d03e34a93; 0x1d8358eddb0e1f4f; 0x129f22948adcd2c2; 0x259aa6687947c16; 0x732fbec995835191; 0x3a460bb2f2dfa075; 0x63606452b3bee378; 0x31829dd3504c0a52; 0x1fa2ad0bab80ee9; 0x71722f684de7d51d; 0x126887d2ad6f9bb3; 0x18ea2545dfcdfa62; 0x314f2d70b42c15a9; 0x357935897698b010; 0x59b352061b4e1b82; 0x7a216cb1354de77a; 0x2e31a48f207a86ed; 0x2fccb4f07091263c; 0x53abe05170fb4f2d; 0x407b007199b05116; 0x2edf40cfdf93d15; 0x2267a35e295e3379; 0xa1ce4ec42d385f7; 0x1ff50572b6b413b1; 0x774eb0d0584b8642; 0x47c0cd4d31dbe528; 0x689413735e0f326c; 0x3af1df77629ea41d; 0x1abd59f8504630a3; 0xeea92d6f2cefe0d; 0x1d28bdf3ab3dd7b; 0x6c9c104bd2afe118; 0x15eb6733ee4698a0; 0x440e211ddb43131f; 0x1ee0c4adf5a76eb7; 0x1d0f7f697576d4d9; 0x2f79b7ce79c3842f; 0x638753cca0ad8887; 0x78f5f804cb58feac; 0x4b2565a49ec3a538; 0x6513685b4bde9c0c; 0x3cbb33768030f22d; 0x65904bf5a899f7b0; 0x34132a7821c01ecc; 0x76b8641d9b31f34f; 0x49b04313465e823a; 0xd9a721033ab9b2d; 0x770b6321a71ee589; 0x692869856655f737; 0x3219cb990d27a7ea; 0xeafd355e384ec15; 0x35c791b811245a2d; 0x44228683c4a4559; 0x51d64f159b23e3af; 0x6e28919828ec1ea7; 0x18ff3b0172a89809; 0x4093821f52e42296; 0x3a5579f38bf45e25; 0x83dac06d233700e; 0x648439d8846c29d5; 0x40a0f883e2a407ad; 0x783ed91147e5e107; 0x2df8243d5b183ba4; 0x214ed4996bb9a63; 0x4d110ee3eb0eac3b; 0x121469f12208cf50; 0x6cb3d3d9cc10e0b2; 0x40e96fe0e0499ab9; 0x6415c07ac095e35; 0x3607b5700f65225c; 0x26b7144b6607667d; 0x4b849d2d7ed5ca0; 0x32da5888aa27b62f; 0x27aa6b73acf4cc5c; 0x6ef490b04e5ce1fb; 0x13f2a814841eaec1; 0x1dbec2b360d92b2a; 0x72cd5d3dde16f89c; 0x57f40b41d844926e; 0x7f3046ffb903d59; 0x28c4071ef216a82b; 0x19abbf7c07d905fd; 0x1be80c12f7dc1515; 0x4536880c2dfa75a6; 0x4caa7ea6e3c0ee14; 0x7c221ed85dc6ab41; 0x499ba5e603253b11; 0x407544e0e8ff0bfb; 0x5148c76f713eb235; 0x3669e3f535e0ab6e; 0x1b1f2880ef2a5460; 0x62ba47434429e19d; 0x3e73cf74f446e75d; 0x32d8edb6182f4324; 0x701a69b22e9044a4; 0x2fa1e7cd223a9ca1; 0x85dfc525585a828; 0x2ba4891c17c57ad8; 0x7fed37454beef2a7; 0x715ecf78d85587fa; 0xc2a9123755ae16e; 0xfbe4bb22f82704e; 0x57ee0ace01ed5011; 0x5366611d56b59712; 0x33d26a98c6598659; 0x33d40bd41ea28537; 0x5a262d6370029d95; 0x2346839791287d7b; 0x1c299cffa12e022d; 0x65dc2f76fa2432c1; 0x282c36b32b4856f1; 0x155b30e6146b4b50; 0x30ce5ec621d8e2c8; 0x52e2435072fd8d19; 0x350080a6b2681159; 0x4d9edaef0a7742bd; 0x5c618acf733ff96d; 0x25b2cfb1bc568750; 0x6d22ce6ee72c4068; 0xedf666c2235ac97; 0x30ff1540e4fc6d0c; 0x9b66ef696db7605; 0x19667c225444c05d; 0x6705199709743cf5; 0x30401dbf2f145bbf; 0x411932dfdbabe774; 0x32de73e5637a5fa5; 0x78f46df3b2c95662; 0x3df22007d04e22b6; 0x766368c0a235396c; 0x7c927840f8af8f80; 0x3395682356a1e1a1; 0x5cba63df2973e2fe; 0x596b7be0e38518d5; 0x4650272c8788dcc8; 0x41a55d4303782e9a; 0x3c7c1282cfb44b99; 0x41b27427191082e5; 0x173d506c0942d049; 0x26ca1a607a61be4a; 0x9b593ce9f8a2ecd; 0x6e64780c7c0731b7; 0x26087c5b926c4386; 0x1f72439984b3966a; 0x7480635e6b042646; 0x7571079458f0ccc1; 0x529d28214c500f04; 0x3007482b1dc4f82a; 0x4b37c2fc0e23f80e; 0x4d97c2bca2825a3a; 0x7cb08b7426864c2f; 0x75c6160ef84cc4d5; 0x597c1882de49c05; 0xf559c637fac8db8; 0x1122b366da90768a; 0x27b03e3dd18385e7; 0x2eb99fd0c54fab79; 0x2f6f7a51c253ead9; 0x1b59d41c47cdcdb3; 0x51411d00deb4b8e3; 0x2a7d915d6f277dd1; 0x1df55a41c9480dc0; 0x34cec8c3035d13e5; 0x304152d2310f56bc; 0x281dddf1ff25c66e; 0x140c77440cd66177; 0x6df3db5faa5456d6; 0x298fbf94ae1c096c; 0x66fa8a31872aa2a7; 0x7285627bd1ccc791; 0x271230b5ea73de95; 0x3741a49039912cc; 0x4884a6697ad36215; 0x6356cda74b8c4887; 0x31762e03c4197ec0; 0x7cb026855d3ff7f3; 0x3c2f65c451c95e22; 0x2357c2bb7f1402d1; 0x795d21d09b754c7c; 0x5aa89b9800c7d7; 0x249f1909aa1e2005; 0x237e0f0e6631c9ad; 0x7cb301b23dd78ecc; 0x69a6cf084b32b1e3; 0x7167bba9160f1710; 0x1d27749600a55404; 0x502c4a768b3d0985; 0x5f210055367c01eb; 0x41f0d6e4eded962a; 0x73213f831b6e7ebd; 0x6ebdb93c2e2e5c26; 0x11097b690fea77fe; 0x56b7f92f4bd61b81; 0x7d12f4ce39445a4e; 0x48151ee43944f90d; 0x4cb4312ad820b8d4; 0x1abb2d736b8b9b58; 0x54a77cb8581c0db3; 0xc329d76640b949f; 0x30dc27a3205ea71a; 0x69c1ce07ced8805f; 0x223a34550b2ea50f; 0xa4e393a97d4cd4f; 0x20f36161b5fb14bb; 0xd09a75acf9dc929; 0x4da08e7e6ddcb6fb; 0x6fdb32c46dfc3d6d; 0x55efa882e57f7c3d; 0x36a286c28c2c0736; 0x5c88e5814e0a8bbd; 0x7a5f7fe87dc1b4e0; 0x2abe7fdab79bd8c0; 0x34f5a6c574331be7; 0x6ccb80ede7e6cf2; 0x70078865660ceaa1; 0x474b6e67ec32bb0d; 0xae87c39e1de0427; 0x759b4eb4714c2f06; 0x37a0c09ad4a5b558; 0x1b8a672bec667d8e; 0x2324254c124db31; 0x132cbfd2317a816; 0x65fea30343288332; 0x7e0b109f10fecc2d; 0x67859e3a29486dad; 0x4f5e5];
   [0x4039fd0ca2209b2d; 0x5e9947373e562238; 0x5a51a51f41b539b4; 0x62957a261d46f6a3; 0x251be5a947b678c2; 0x32284d03f36b004b; 0x2bc2eec7717cbf2; 0x7d6c1331a943d2c7; 0x12de268bfda80e3c; 0x128fa92d2d800fc5; 0x2d3e8bc33cda2f9a; 0x36ff58a192bf0378; 0x230352b2b76df6c0; 0x2ac30ebc9ce6710c; 0x143311e2dff66db1; 0xad411411d41fa90; 0x5cfaea97f42d6ed6; 0x27ecbe0ad5516d63; 0x24bec167d1d274b6; 0xa612be13fdc10f0; 0x4a42850cf61d1c15; 0x4495c1d84cee41bb; 0x65eaaaf8cec81722; 0x63c039406f011e4d; 0x4263a8ffd0d064ef; 0x17c8e2711259821d; 0x6077c05b23652dc3; 0x6886e61ee3655c7c; 0x76d2cdd3963e4996; 0x32c768b41c72fb97; 0x1405267c887f024; 0x5e883e4a3634f90a; 0x1864af5b6863f253; 0x1b9c335fe0ef1003; 0x23603967ec201b9f; 0x63cf8eec507a5b68; 0x6c035cc9450e18d7; 0x4d1ccd765e31a828; 0x6ba1c84658d53fad; 0x4d651bf9c8d16dcf; 0x40e65cd960c19154; 0x74fa9cb26dffc623; 0x1435ef0ea2e2cac; 0xf4d60ca2b9bbb56; 0x66865d21f9664b14; 0x1f708d6081ff0b92; 0x164dea19e4df12fe; 0x2135c8167e99b3f9; 0x212906cf93af95e6; 0x43b1c462f8c4ece9; 0x7609a63f9e346591; 0x24e818e9ad3167d3; 0x51b10f41aa2cf028; 0x48b3f344389a2e7f; 0x3f0211aa4fd5b83e; 0x65b83ecb7a7f2abf; 0x540804caa1fff205; 0xfd08a7989dab5cf; 0x26d75d8d3198731c; 0x2f8a3fc95f73a652; 0x56cb3191013dd2e5; 0x76c36b5313c97e90; 0x4aa81719477159f9; 0x152d16414561138a; 0x4099e44877fc5ec0; 0x374d3ce02e62f88c; 0x323c41006ebd4a96; 0x2d829ed41dc73674; 0x48d6493723999337; 0x5514a85ba598d02b; 0x6700f6ac35e3800e; 0x7101e7b4e757724a; 0x5cc7fa53e718b15f; 0x100787f93482fd58; 0x5411b2a296e10d7d; 0x6a668797a29b082d; 0x2b134fdcdcd03415; 0x67200bbc3d332f65; 0x752e28159932c8a4; 0x73fec0cf3a83521d; 0x506004f12d72accd; 0x605e530beff39b5c; 0x486cfaa891339152; 0x3124fce43f2a301c; 0x4249a5c1bfd329fc; 0x5325d9567c6e0490; 0x3c5fc9d5e513c62; 0x1754801d2f7fe917; 0xda55ad7c47d7f18; 0x527e64be6252f485; 0x1b52fdd3177d6096; 0x4aa53fce22520fa2; 0x3b35a4c886af8667; 0x719de60a78428bb7; 0x750f3aadcfde08ff; 0x681d9f08197a1882; 0x67cd047633731e; 0x56342f0710839ac6; 0x46bbdbe8a9d6573f; 0x6d980ef71b8eda4; 0x52af818359f5e498; 0x79bf8236cd81b904; 0x4193de8d3115aa38; 0x641be1370dea30d0; 0x54d529012a9d1f69; 0x136aaccdc4d05d5a; 0x437ca6ddee041ff8; 0x518e5e65548122e; 0x602fec648b44f12; 0x350baa6b92ae7afe; 0x4f5231ea89741640; 0x30b8797ce3537a5a; 0x72ce5608c9bad96a; 0x7dd82a5d5b25e592; 0x1391fa2a153e5dbd; 0x53a1684c66c29a9c; 0xbe525d26aabc619; 0x2b12ba29851385ac; 0xfae84e1a236026c; 0x1e00ad5ab0392464; 0x62b1d30391a74ccb; 0x1881f66b3d5e04f9; 0x10bd1cdc5e68c2f2; 0x45f484e86b28f223; 0x789e9d05eeb05ece; 0x36b42a14f584fccd; 0x62d0d460f81dd4; 0x6a6e3eecda75e270; 0xda88fb6a3ae32e5; 0x2bd1eff435c23cae; 0xae4883bf7a6fec5; 0x30b175a0b4b01c8f; 0x2009f13d67e6857c; 0x7e6882e4b6eea19e; 0x5825cb14d3bc32d2; 0x3efe5d58187f2cc9; 0x61c12b48ee6985c1; 0x41e41b5c0f4b091f; 0x4524c328ede313ae; 0x61b56077579149f7; 0x6ed35a90c59dad8; 0x3b946dbeae1a1026; 0x1376d41cd9e8c58e; 0x6d115a239978da88; 0x33c77c6ea96b378f; 0x7a37ee00958afcd6; 0x577519aca66e8390; 0x5706f9665e9ffc24; 0x1f794deb2e310e6; 0x566d9fb05e549617; 0x62ee108fab4382d7; 0x5320bb4013f9368; 0xe17d494596c3a7e; 0x1ef1eece26acc262; 0x62ebe2b2d599bb61; 0x280a43df29acaf67; 0x39274499854c52bb; 0x72c4fdc0c2b48503; 0x183fed2015fee2fb; 0x670701063a117256; 0x60a4b55073701805; 0x2e390ac9220b35f3; 0x2be96f03845e8c35; 0x529c91edf7475f58; 0x5688755ae0d37dc8; 0x4c261c6f65ff4d2e; 0x5293e3110f620f77; 0x482e136263623f81; 0xa248917428f1318; 0x920a373ac97e6f1; 0x57e1a0ae8600f281; 0x72e3f52352809596; 0x2b0a2724735e194e; 0x5d3909b951e11df6; 0x4d11f3837046d9f0; 0x4aeee1287c345739; 0x7db1892251f53c61; 0x5af9f47844d19d88; 0x792a7de10aee9f76; 0x9b6e08214f611ea; 0x595111460d5ca0b8; 0x6042c6c860cceaf6; 0x2d3574ec85664341; 0x8f4b47d85a4ae61; 0x540b96be4f8b2ec1; 0xec78279c7189aa2; 0x5d88de75e1badff2; 0x5545a430dcd63a45; 0x57b394a509ded2da; 0x7a1a6d7c14732c05; 0x19935f267b8f0643; 0x4b31ce35d18c882b; 0x6e91f459ea18380c; 0x17601aef37e872f2; 0x365bca300d91caea; 0x77207194758b2d4b; 0x4cff5a013f84e8bc; 0x50851366c9c12063; 0x5d289eb8e5a1599e; 0x7224b1b240d26a25; 0x3c5061479cb31c7; 0xc99b2c5a33ffe08; 0x220f86cc2567de06; 0x19316dac2032febc; 0x6299cd0a1ed23817; 0x2d662f9cd35127b6; 0x56d9d14af21382da; 0x1c63c8816013cfa9; 0x11b31b81874d944a; 0x15465d99cc974291; 0x27ac235e0b5613e4; 0x3afbdb4a8f01f64d; 0x38af0a05a4a0607a; 0x7581e11428d8b4b; 0x3e053b397213d1ac; 0x417302bde61cb8e6; 0x737a85f1f41cd973; 0xfc6096229c0b4be; 0x71a0fa7dfe933e97; 0x1dcb6c34d9d223cb; 0x5da5f436d3a3a43; 0x44d360a142a44879; 0x3d31d4a3513d2a46; 0x28057b15526ef5d3; 0x46b8d0208a478122; 0x4eb9d7a1975124e3; 0x537e009e74013eef; 0x1a117e094baea262; 0x22396c6448d63668; 0x18b0ae9b88b2e501; 0x1b7c0d4a1380915f; 0x751b6650ffdfecf0; 0x3cece83c884073d9; 0x526e009e5aa5a547; 0x29a0ef092aeecf36; 0x475e77fb1ef83a81; 0x1b88af1253f2e6a4; 0x5067a8a5ff47d16d; 0x5af48de04108012; 0x63a0d18fde31f126; 0x727b4bdb328d1cfe; 0x55e3d8da94119af5; 0x1c068630e4dcb29f; 0x317bbeb12e442c31; 0x7bdbadbc09652cb0; 0x2b4b734244466b2b; 0x7231166cc8d80d7f; 0x2667eb42c2896f6c; 0x8f3169dd94d1bc8; 0xb576435b479b6a2; 0x64150d7ef2a141ef; 0x483900b7ef057245; 0x26eb67c36796a90f; 0x42fc552e0bac47f6; 0x26299a5ba4baddab; 0x11eb5cf94aff2c20; 0x553cb9f1d0854867; 0x4e48e14306d12b19; 0x38f5922c6a2ebb08; 0x163f7a0a2ca89fb9; 0x42cbfbbb5f468fb4; 0x5a7fc35567397a73; 0x7d17d758896f5ed7; 0x4c6c133bbe2d09a8; 0x3e599caa19b16786; 0x6a79570f9994caa4; 0x334376b4aadcfae9; 0x310b9a97e65bb8bd; 0x305fca08ea6915c5; 0x63b705364e04fd70; 0x69ee51d68726b0a4; 0x7b1b8047b37ba1ce; 0x77d7d8a08e340757; 0x436207b0189804a5; 0x2a744ddcfd7ee1ce; 0x6b4f8f8807e9c25a; 0x557cd1447532f7a9; 0x454235ffa5af4270; 0x762866b367fdb734; 0x51fa156a8dde1364; 0x2366f82116b6a875; 0x22be221d9aab96f1; 0x10c674a1a0d5ff6d; 0x42576ab63f13c6d1; 0x4e4bcf9efd1d20ea; 0x12bbbc64f5ebcf7f; 0x22228696e48b38c3; 0x1f4bd114127e1655; 0x7b902a95a6f1deee; 0x74544702f28fa1b9; 0x283b5990ec208518; 0x6a70415aae3d1bd1; 0x6f24fd4bed60c6fd; 0x621c2d1ddfd453c8; 0x1ed5558686e819dc; 0x52a9f2ea68428b83; 0x7e617622d7a2cb63; 0x2b5a5301fc078d6d; 0x1c10c12485b52155; 0x37cc1040e6582e35; 0x66fb656b24f6a71a; 0x30ecb9cd4b7befd7; 0x57fcc3c914bdce55; 0x2a331a123e767c51; 0x2466181be5c32fbb; 0x521c5560195c80a8; 0x5a14a6c59c1859a2; 0xa6b7aff1157d1e7; 0x17e289d521354d37; 0x4505368cebdd524; 0x637b4fedd4789b67; 0x5bff20b9b45b9462; 0x90abb6ab127910e; 0x7c5f8b16d074587; 0x4d7930b44977d69c; 0x474cd9050ea3b87d; 0x585b15455a4b591d; 0x33f08a];
   [0x1165460d8e96f373; 0x1819a2a178832d08; 0x6693fee590eccbd9; 0x7cf8cfb5c6068126; 0x1abe16845cc0629b; 0x4ecbfe71d17dfdfd; 0x5241f96aeba02291; 0x3405bb34f13333d2; 0x17bb7a6606913c7f; 0x43a580994b0914a3; 0x57b1e00d6b629558; 0x658376ace4c9cb2c; 0x4cb58b8a71c96a69; 0x2674d616f2d3b509; 0x3128c8f4c6cf7cd; 0x75cb256a2b443225; 0x6f3f2dee10f19cd2; 0x31652f3b0f6304ba; 0x2552b52f50dcdce; 0x6e472dbecdd819d2; 0x294a323671b283bc; 0x2854b69d7ded987c; 0x1fa48cb44caf67f6; 0x5503ce47115bfe90; 0x761b2fdffb6d6aa9; 0x55586f84cab169c5; 0x680a02e2e693f4d6; 0x12a92ab605ea7a95; 0x6f76d04d1519d32a; 0xaa9d4a5f30f481f; 0x7ca0839cff37d997; 0x1e2b77e439d97762; 0x4380245b320d2c88; 0x2b7f61283e887287; 0x39b3f3f2378bb0c1; 0x126af8d80991abe1; 0x7d89ee58b310556b; 0x65a290997a0893ce; 0x8873ec352329fba; 0x65e305b9df4ad7e1; 0x541464a1bbb13f3; 0x1aef35e2838bd6f5; 0x3b6c29e7acfc2f09; 0x4cbad979e5324e3f; 0x7a9d5f5032f999fa; 0x58202a33ebf3ee13; 0xdf788d079364a02; 0xc6adc3750b9ecb7; 0x4ce1310d29f27010; 0x3899334f90f5b6f3; 0x7087fc1a027d420c; 0x27a94910d24d25b4; 0x496332b22f64fd8c; 0x73ce89625aa8efdb; 0x2e0d0be6a06ebe01; 0x757e7192082b04cb; 0x4e1ed3933c327392; 0x36712cfad5fbc3cb; 0x2b287d4f465e509c; 0x76571cb908c11627; 0x7b63935507bf7d9a; 0x791920407e37540e; 0x58273ee7b59389f4; 0x7076546df1f5ffa3; 0x10fbc522b5b74a94; 0x6079616d78a42d7b; 0x4d5261ed13f0548a; 0x5b47190f40e7739b; 0x3ceb97e60ee9d035; 0x38c80ae63a34d817; 0x5cb0ab91471176d; 0x41c5ac85e5762332; 0x368adfedbf347c13; 0x79b100d3d651d5a4; 0x2ee1ed07b913ffab; 0x50bd6496f6dde8; 0x44ecc6fbecb6b1ae; 0x723011cf5acb3a8f; 0x6a950257e40f7c39; 0x45a0c1b42b11e95c; 0x4e4d05242e7c1009; 0x6bbb36f42d0c6fe1; 0x20a370a0b8418070; 0x12f0b3bf4258741f; 0x2baf274c4186bffc; 0x2bee9e5236d5d7ca; 0x38fafe7c6925ef87; 0x2f58640804580cc9; 0x272acccaf0710845; 0x28a88cc560fd30f9; 0x5c249d337e74713b; 0x47a3779916b38d7f; 0xd5cda16061f4d5e; 0x758b33c4232b5e36; 0x1ca2f69be1491fed; 0x2e42f6578d976490; 0xcc677fb1af4bde0; 0x2262f96f7ebe2998; 0x3778fb463909d644; 0x4c39f8f76bc59dd4; 0x799bd7322cfa8df9; 0x68873c643e884e7; 0x77a3cd54c044026c; 0x1ed19b96243ee51; 0x505d8e313dff98ab; 0x5fd83c4676e1570; 0x21cae3db746b3f6d; 0xd21d74385a50d74; 0x57f2eb7d8a788ab5; 0x4de9f2c6b4905666; 0x39463b910b84bb15; 0x13f7ce23111fe99; 0x6d95c6f0827aceb4; 0x71f2644c77333f62; 0x6dc979d9996e2b1d; 0x554441e74c6a95b0; 0x67d52405018eb70a; 0x8a34c1ce05d5b09; 0x6e9eff81dd3326f8; 0x4480fbb3d9824a20; 0x580c73c69dcb66a3; 0x7577fbb46b1613f6; 0x25f8ee9860de8b90; 0x40901cc5fbed8b0a; 0x47caf99ba7c4a16; 0x3c4cf9cbe9b10604; 0x532e198d2cfb24e2; 0x31698b84479a398f; 0x6db44e5499fd58c9; 0x7eb44c49282df7d; 0x29f8273a285fc60; 0x7a1e22c3bac076cf; 0x69a34c1133ee234d; 0x7a2dbefadb8c40b2; 0x5763f963b60e331; 0x8503620ed8aec96; 0x3a240b69e4a64d; 0x1b9954344b8e39b9; 0x39bacc4b10b17bb; 0x139af0951186bef3; 0x401bf0c17f9dd475; 0x26cb2ad044aec269; 0x2a5b3a5fcb063a55; 0x4fa96c94855dfde7; 0x5a0014ad806e8de6; 0x345453fcee1521d2; 0x6b58ce8fe35a9935; 0x112f9fe51db2ae09; 0x3f92903652d2b5dc; 0x1b9002f892ae00c4; 0x116923af44653c59; 0xef9f7364c809ed6; 0x76689aba6368f904; 0x28f107d187a5306d; 0x3d7b2dd0e196d24f; 0x1e6e8afdc34588d6; 0x5eadbb3531629d09; 0x2f63ea4f37e7fa77; 0x2156bc557d12d3c5; 0x4013db40ee6e9ff4; 0x739c91e77eaf29fd; 0x16e0d3862b51272d; 0x23a78178a28a4f56; 0x160e2d437d42ba39; 0x78c17bbf256b1184; 0x275e7bb91354c9b4; 0x424ae2e1e2df6295; 0x34122ab7bac7c62e; 0x72b16608a6a9dfd8; 0x30672a9b2257d567; 0x73651ac18048faea; 0x24d4545878c41c8f; 0x6ef82de6b71bbeec; 0x28c15abe424c5009; 0x22d047ab948f9aed; 0x44ee792fdb6f0dda; 0x14560af42d35ee7d; 0x32d7e364cfd50f5b; 0xd3ee5b68d58b5b0; 0x2e9295f1e07f88d1; 0xcd4ec14b9759a4f; 0x7865f6540065cbd3; 0x2fd97df822e67562; 0x651e815abd41c981; 0x7d66143ce12737fa; 0x655330903f70b4ab; 0xfaacb6ab482e579; 0x4ec7a21d22ca77b8; 0x7da4b0d37c8f7d5b; 0x1801e447f1b20d15; 0x3bc97b771e84b497; 0x31764221781acf75; 0x2d1cd089dff3f4aa; 0x720663f87d41d493; 0x7dd0683b1ba784db; 0x7dd76637b12c1b57; 0x760add0203596eb; 0x5a3636e77957369f; 0x554f1c135da92807; 0x490db99b1964235f; 0x20ebde8cab4d82a9; 0x468a51958e8f52d5; 0x57d0733cbd8fddf4; 0x37be147a370b6d06; 0x38144f462b6808a1; 0x4e7730880f7aab3c; 0x1925e5bf856213df; 0x1dee53d5782092ed; 0x54440cdb8d287126; 0x69a5b00936b3e126; 0x2d0181444af40e72; 0x501bf62af01bad97; 0x250cf861bd5f325a; 0x11bd30d6de29b19a; 0x7ffddfe750d424bf; 0x1bc67fbf0b61d19f; 0x677e1385861e2563; 0x7e9b5c6ee30adfa2; 0x234940fabf2c8bf9; 0x3c830153386b4946; 0x148f11b7d8125454; 0x7657b9a6fc292dc6; 0x7763987379c905f8; 0x6443876d4f4c4895; 0x97c33fd8aa051fb; 0x2b3296b4c2b6bd98; 0x4f08ec627c99beec; 0x49377e023fd32cf; 0x7a79d329cff632c7; 0x1f8b1bad95ce6592; 0x6c751c27d4a29e34; 0xa085051d666535b; 0x590080ee4059ee59; 0x70005970bb2272d0; 0x44952540837b4618; 0xc04ed7efc530e95; 0x2d8f6506bacae94a; 0x4427118e9b1133d3; 0x3f3183c654e14692; 0x7931a7529aa08bd7; 0x3a8fe08b7480bc84; 0x5a04a163f133f260; 0x1d9b84d8572260c1; 0xf8d6dfb5cefdba6; 0x5b227b67e3325dda; 0x66e980a493520768; 0x2c70dc77857a2966; 0x7866581153559aa7; 0x149f7ccf5a991571; 0x9103f51a9c9296b; 0x11b1d85b3325f7bd; 0x1d8c1918b258850c; 0x7d69a3e6c7000b38; 0x2d815e96a3695720; 0x517b57b207423077; 0x3ab00b5abc974ea0; 0x7c65c1226352c161; 0x4b575e0ae796768d; 0x29793e290e1723d0; 0x1e86578e01622a6c; 0x400fa0463c5e07c1; 0x4d961910e9ef7a35; 0x58e1620a2d345189; 0x3983c649b21392f6; 0x7a80f10b7fd8d171; 0x6ca5ca40b7e3b824; 0x1298ed3c426f4c79; 0x34ef28e05a2f0ac3; 0x1b19159e3cfc2e20; 0x15f4bf0117924ea8; 0x5910eae6b894c72d; 0x5f4dc26a40c6a7e9; 0xaeca6be1c62109f; 0x254c788a5b4c5b8e; 0x5a64981a6b94325c; 0x6b6ab33ae5132bd6; 0x27bdd36585f83066; 0x70cada296b387ca2; 0x3e25d5ff30985910; 0x348ac87ac5568351; 0x20f36310b0831287; 0x4abfd82643c76c57; 0x315723261b8fc5d5; 0xd743c3dea67fcfb; 0x2e002723abfc4383; 0x6567a162f8dfb957; 0x6d552742faf49c98; 0x563bcabffc0b9dfe; 0x6d25c6899f0dee65; 0x1c0a6578b4cc7ba9; 0x213bdf94ccd793c0; 0x44fd6c8a1230f9a2; 0x5b4c92d42bbd45a3; 0x56342a5ccbbf7fdc; 0x4e83043aa30cc8cd; 0x756e07355eff2cab; 0x2981fb4a496e82e6; 0x3223b9810c2699b7; 0x7d7396e4197e76d3; 0x6e5438eb3791dbd6; 0x3edfec758bc78f1c; 0x6dd6b33e3c33cde3; 0x34662eeb6e7ba22b; 0x190ba453a52c9a55; 0x4216f505b8c154d0; 0x3ccc9a31ee1c4e51; 0x3c06360c323b8de8; 0x71a7e232002dcb5a; 0x46cee6dcea5c7525; 0x748968884abbfeda; 0xa449cb13e9d38b0; 0x13471de9f9dcba82; 0x267d5a4224ef482c; 0x75f7aea5cf1732e6; 0x3d2f3be2b9c97a37; 0x2b78d72d2729bd72; 0x5b1fc680a9332d6c; 0xce199];
   [0x4d3ec6b9fde1bfc7; 0x646b49fd66081801; 0x1e91593a6b1b676a; 0xcb5dea224f778d; 0x5ad5475f99a374a3; 0x5613cb464259c97; 0x1f26e736e25d02d2; 0x6c7839c47540d13b; 0x622d3d47d53a9eb9; 0xe01966c1890f17d; 0x22000e0a803e1f5e; 0x7a2d4b1f55f078d8; 0x1a87bd60a1783dea; 0x8f1a76b5d852d82; 0x43387bb0e62b3cac; 0x77067b98942db385; 0x5d626077c407161f; 0x6bdd2daa83eb88c4; 0x98431b09e446847; 0x19e100b72e8ed292; 0x63d83bf74bad9574; 0x7dc5198715c02bef; 0x38be5d2dbbef205e; 0x5d00817a6223dd43; 0x7522b1f448c3cad0; 0x378479b46380e6d1; 0x7b16f339e12d7df5; 0x452b2cc72e3cd439; 0x356e002414034145; 0x7221df1b083a0924; 0x591b153ce976de9c; 0x7dccccc63ec42654; 0x775e016ff0393a86; 0x7fff3e2463c5325e; 0x6cf293f1af72f0b6; 0x6cbc64b960146d8e; 0x74350badedc95452; 0x772b06392262af30; 0x3a47d6b05a39ab17; 0x2e2a921c7d403dca; 0x292d15266d0efa78; 0xeeb35d40e17cd87; 0x74701408e7ebaf49; 0x68021f74b62236ad; 0x26685f020ca5625f; 0x659476cfca2e1671; 0x288e73970c3606a9; 0x74cd04443c01bc46; 0x73cde0aa9908c985; 0x5a81a26d210db97a; 0x4b4145fe6000dca6; 0x498acdabf705e270; 0x12b3dc44b8c84da1; 0x2f89ace4585117e0; 0x57579b9110fe874; 0x135a85117a2950d0; 0x606319576a9dfc79; 0x1e47ee1072691986; 0x3886f1689cc57f48; 0x414bd73e493d82a0; 0x47f74e99cac757cf; 0x1da07209841ec0ea; 0x7918a97b7fc70206; 0x1569dcda2a98ada5; 0x666247530822b74c; 0x2ddba830b6cf021; 0x1b71eec5776e73b; 0x372f26a050afa267; 0xd66147d1ac1979; 0x316ad8887561fe94; 0xc5e92115da41cfc; 0x60f02ccc52f0e9ae; 0x7d7373816b0cdd1b; 0x2d5b5142b6dd4726; 0x516888d698d8388c; 0x48b9f1483248135e; 0x6afe47337813b028; 0x2a4a24007ce2cbb5; 0x3a97814e67ac9696; 0x7c8527e6d6c7e100; 0x32e085a41d368974; 0x389b7765773dcc44; 0x542596f156e6410; 0x7532942331af0218; 0x50788db5991c38e9; 0x7c46f1dc300d68b7; 0xa9183098dde5aa4; 0x4dcf75c2af1b1db5; 0x6f620231cb85b802; 0x5aa5d5612f0e64e7; 0x7cd8925fb35cda3f; 0x48ab2ba7eb740e6e; 0x3249e28a155d8299; 0x7069ab50eeb96cc3; 0x21729324884b7621; 0x357190ede62e4f63; 0x38c3d1bee80af4ff; 0x75c9b41338c3c7ad; 0x2fd294c00deb91d; 0x5b3231a7e438752a; 0x2d8c1a5eb33b1693; 0x18b97b64b078700b; 0x6f9d85f7f473ebd0; 0x30e95a620ab807f5; 0x71141c4f8e4da45c; 0x47fc132bfeed1709; 0x7df1f462477f02ff; 0x1a7dc3fffa2f0ca6; 0x7507d71ad5be087f; 0x1ff7e1eb701bcef1; 0x1f95908b2500157e; 0x20e41027ff78f88b; 0x6a158322871aaddf; 0x6d11816ae41189ad; 0x447be3eba988f6eb; 0x6bef887f97d713e; 0x7a35bb5b687eca5e; 0x6e2128171510ab48; 0x29ddaaf5e37e0e45; 0x31ebb13cad6fd20d; 0x7c8935b8a7bbc62c; 0x648d560fd8d17855; 0x476b83ecb44ff9e4; 0x3b81df78c563c794; 0x70b0d9ed119893d2; 0x71d24ec30ad2d9fc; 0x70a5ab8ef96600e4; 0x759e7275e47fbdea; 0x44423fb8e4d32293; 0x3a20e130115fd512; 0x2a09d00cda988cc7; 0x11257b42b5b754c7; 0x2a5c1dc0f629b4b3; 0x3eee8766c2bdf1b4; 0x17970a0c324f7bcc; 0x5bc10b87609fd4; 0x618ca91d0297d4f; 0x4accd7f0dbffda94; 0xeb4a135797929bc; 0x376850af9321659; 0x5a4ddda13239db27; 0x6b8a1d86595c2db8; 0x7b7716a43dd05cd0; 0x6e095bf573609c10; 0x731810d1b59f80c9; 0x7f5b2b672fb47eef; 0x743e49759332c50b; 0x4c28818eaf4bb9c5; 0x51775f7bc42250f3; 0x1b13a9c027709cac; 0x7edaebffe52865f8; 0x4aff6dfdf30a6d3d; 0x1213d0844e834d92; 0x174e64767e59de4a; 0x4e59cfde8da3d8e8; 0x4e1ee2c40e5ec822; 0x6ac4e15628b4a5c7; 0x68d823ea29e1598c; 0x7a767d3f76341c1f; 0x4398ae87336dee35; 0x372128bb3691c933; 0x6bef87bb287b3b1f; 0x230ae57a8d2f0cba; 0x7a60cf2420281d26; 0x43bf4aea0c90c4a3; 0x2bb1dc2181d708fb; 0x18baea21065c6cca; 0x719ffd5ad8f53316; 0x47e2f84a9ee37222; 0x2ab4f6b386ca317a; 0x6e8bba5c155c4780; 0x64b5c63e82314c49; 0x55e464ef76c6d84; 0x38d2bb1584517f08; 0x77d8f98a689831b0; 0x7ad7d490785e63bf; 0x6b48a19bad59434; 0x6eb7542890f1142b; 0x1268f996e0a65599; 0x1e2b7c95c3d43928; 0x7825fa96e721256f; 0x74e42246be6d00aa; 0x29da4997fd66d5ff; 0x127b5f3b369b132e; 0x705c682f920579ea; 0x6cfda85671b3f8e4; 0x433ba0763b799820; 0xc6050c301e033a5; 0x51d45f38c3fc44dd; 0x282d295d01076204; 0x480f3b872fc73c7f; 0x6b5f70e4e24dd01; 0x4d546cf67639e32f; 0x402b188e1ea77bff; 0x4d8e50b5dff3be04; 0x5b7819a072f7a3f3; 0x3b2d1d9a800d5d03; 0x3ac1807f52754df4; 0x48dca63c8641e512; 0x568c128d759ee214; 0x2996088fc041e403; 0x3ffcf210ee1feac0; 0x624219b1d51d0c09; 0x4160ce21715db549; 0x4eb8dad99e608037; 0x7bb57442d1a368be; 0x5002d41b4531f533; 0x34ab973db1384768; 0x62f0c37aad87b962; 0x6271a0188b36043c; 0x6697b5003d171f22; 0x6d9aad4a75cbd6ae; 0x23ffb6a0f825c850; 0x5097fcfd0bee9886; 0x237b283a12754a58; 0x2e8e0c73b8734a36; 0x4aa9ae55d8830a06; 0x57ac9daa881b56b; 0x2b61aef3808fe2bb; 0x32d1edd561b12a39; 0x767612e23d5fc2cd; 0x180a2996b3269658; 0x3ac68e9e37a5d59; 0x6ec9575569621f45; 0x628753f70fc505; 0xf4b673e804a5853; 0x4be30744b781ac69; 0x5df492e2ef8db3e2; 0x310e73eedd35da98; 0x3824a2c757f938ca; 0x301ecd6c5ed24ad0; 0x1638461c7f78bdaa; 0x335339047ca7fc5b; 0x43fe1d940f68a06e; 0x4ef59049c26dd17b; 0x7a8e5f43951861ee; 0xf4d10a9860181c1; 0x567b211a74f6ea09; 0x5cd1bb651520fcb4; 0x5663b8808a3dbc07; 0x558b1bff9802dcad; 0x61a65fe7302d57e9; 0x52a5c94bf89dbba3; 0x5b56b0f48accfdf; 0x411d867bb4f8c792; 0x53c2d962a17b5fee; 0x243e47c8a411cde9; 0x7a011ec14a45e5c7; 0x51c708149d862e53; 0x764297be7a744838; 0x7a641178332c8da0; 0x1c1c2564f095d120; 0x58b1e4e647db07d9; 0x515775b3ff3ce840; 0x41c8d45afbd0f75d; 0x45342ef78eb379a7; 0x5e1c1bb581bc1413; 0x4ee05709e426cc24; 0x6537372e085d48a4; 0x2b475d49206ff62a; 0x1554b43b26a59b0c; 0x2d80ce66059c255d; 0x318ea125188c02c6; 0x21b9156694dcc643; 0x1d83855990f4a2e3; 0x35c2df801ab4f57f; 0x4946c4aeec22133a; 0xadec88ead56e0c9; 0x561d620024063df3; 0x616a5e26010e294a; 0x4d6359fc13a75a67; 0x4389f0a70bdf2fb7; 0x2144bb97d9a97131; 0x3a55b48dde10a82; 0x62ba8546b2941c22; 0x100e56f80cc0f6cb; 0x1b57cb7eeae04f; 0x41344eb2bf681af; 0x6ee3b1f7931910aa; 0x2be2265c761fd40; 0x45ad9d253b3a59e4; 0x68b5ab28e08c3467; 0x453a7f9d72fb0032; 0x5be6d2901c8ea974; 0x521477d02a42808c; 0x7eea756fd37d55b2; 0x556bfc4c698c6bfb; 0x3e6c89da283139f6; 0x7bc39cd97c0bee7f; 0x2f8261fe12056333; 0x503030718f30e25c; 0x4d732c4f1a283f17; 0x7f95c03669fc6ad7; 0x7bf07fbba394bcde; 0x569588702f749d66; 0x239a116f50e50cbf; 0x4f144bc9ab9255e9; 0x72729735c58e6fbe; 0x1ca077e102c14400; 0x586102be5544e861; 0x443d9daf2ce9a742; 0xda03d815e0e7585; 0x1d09a3120f0c2e3e; 0x1380506478ef66d8; 0x44d9d7db66ba9f7f; 0x64b80061ac35cea7; 0x277210e54e6af0bd; 0x11cbb0fe4f4d6b17; 0x7859729a00438813; 0x92a2a51f497641; 0x604aec01803dc120; 0x98fb64feff3cabd; 0x484407fda3d2be21; 0x5091e8d0a6507bba; 0x2d98ca6835f74e09; 0x777ed11e72aae638; 0xfb392dbb9d9e75b; 0x1e2998];
   [0x452f29e8c7192b74; 0xb218ee13ec46e25; 0x3b5317551364b9b2; 0x2061488647b2fa6b; 0x16e4a3edb86aa8ac; 0x7734d1dcfcbc34c; 0x20fe43fde1425a68; 0x15cf58699dd73a5d; 0xd153edb90a21d89; 0xdc31b0bff7a0650; 0x1069d259c102cf88; 0x2f1eea7602e36564; 0x27e1b6b4cb33f32b; 0x1e42fbf9fcb342d4; 0x17b0bf294bd1aa49; 0x79e3d1ab4394edad; 0x501bbc139acffa17; 0x66f94d6bff89280c; 0x560c2be8e1f5e96f; 0x74b29a2fbc89b7be; 0x4129692e40302585; 0x6f3fd84658ed1767; 0x777785fed26bb28d; 0x5b2b6076eb709cbb; 0x6235ccf1779f079c; 0xe13891aa1fd48f1; 0x69218108cd7b45e0; 0x103f3311e3033353; 0x115dcaee143b2d01; 0x629b3da424c69da9; 0x5e5b64eb8cb75b1; 0x3f5b23712d42d3f; 0x387982c4aea5568; 0x7a231e305aab14a; 0x325b776e18d81d96; 0x369f72610f1d45e8; 0x66c5c486a52ad814; 0xe78b6f8355fe266; 0x9e3d45bec0fec5b; 0x11805ba4e147967a; 0x3d5473e1d037e968; 0x6b5616bc8361aee8; 0x23730ca85e881f84; 0x1e881fb2ab186a0; 0x318655c035587629; 0x3562b9460c0d0d2c; 0xe5c544f2b7e7634; 0xde669dd7d04328c; 0x34c6f63518cdfbb7; 0x3cda0785b122e533; 0x5885668b3ee58695; 0x750439dc3caf15b9; 0x352f8ae1494c6c66; 0x4cd27cc00ccbaf23; 0x6c379df494131d5e; 0x672f80facaad51fa; 0x7bf33f5712adffd8; 0x1b1bdfd8c3f64e5d; 0x4e16e538e0e220d4; 0x15ddb79f77eb87ca; 0x878c9804a791f0c; 0x4d75d6095b45b079; 0x1896948111b0ca4; 0x2a208985ef55f1ca; 0x435718e2e77358f; 0x3886fd42a1b3fd99; 0x7ea101af250b1c83; 0x5c62ad33570b5602; 0x7eeb9fd7d0b273b8; 0x1169de957c774254; 0x7605785992815c9d; 0x3d8d722782313c1; 0x3f37f13e00803c64; 0x60c8f868b6078cb1; 0x2def0507ec127ac7; 0x327b775f40f97e57; 0x658a637e52ca735e; 0xe5160723e701592; 0x4c70fb936c2fab49; 0x368544727918e4f1; 0x134b3d46bc779b9e; 0x416fe6f5b4c414f1; 0x33b3fa62c627d9fe; 0x7f768b3595fb48c2; 0x27812be2edf9f76c; 0x20f16928499b39eb; 0x38631dc9fced0b41; 0x712f6eb699dd11a6; 0x51c89669215ee683; 0x1c1d273b265ba78f; 0x4013e5d1500240e7; 0x1f5c4f6363f0ea37; 0x31ce303c6e2856a7; 0x9a966e6a83d9417; 0x5c8a76d5414c7856; 0x4630786a17457d21; 0x2d3a12515a8e886e; 0x2576aa353b85eb6e; 0x3b4453d77bbb9869; 0x2c1ff990faed562f; 0x6cedbb8114459f95; 0x2872301c1e6a6b44; 0x163af886e7aab076; 0x79c9bae6d5167593; 0x57373d2305df8790; 0x3fc91033604f91b5; 0x5617dc7df55e11b2; 0x349a3f1b01f810f4; 0x5d872e0ecd466cf4; 0xded251600d60f01; 0x30a9500b54d06068; 0x7b57b661929d3a31; 0x492f1a7f85c86b2d; 0x16efe38c991e7369; 0x60e147d3121d730e; 0x3c9425169fe8e8f4; 0x419856767772c220; 0x2b90b65e84fa5eeb; 0x7c0318349aa93537; 0x795772c552fd9bd6; 0x2e39e707abb4657f; 0x4949b715ee6fed2b; 0x37de061427539886; 0x6757456dbe4936c7; 0x4aa810fe1de055e1; 0x691226371ef85fad; 0x3cb473e09d9df50f; 0x342832dc1a650b64; 0x648a8d72baa46aff; 0x233e9ba9dafc5435; 0x5f09d059f1399be0; 0x6d9eacbffa61cf51; 0x517d5bf1c92d71ce; 0x7c0fb9beffe027c4; 0x13a4de941fd2fa72; 0x17c5cf9920063f90; 0x710dca262c0ae63; 0x579bacfc9c9a95b6; 0x38d193953a280c13; 0x784badc7a56aa4cd; 0xfe9838360f706fe; 0x6721762e450a872f; 0x12a41f7df7bfd163; 0x61fdab2a051e238f; 0x172ec96a48936101; 0x742df279d782412b; 0x7da61fb3674d63f8; 0x1a0e3a8f384b9d2c; 0x7f34ef5e221e638d; 0x3466d6307b437f5d; 0x135faf9954eaeeec; 0x5f936095be7f39df; 0x472b9242819b318f; 0x120cfee9746624db; 0x78d7726ba22e9da; 0x5e0ed1497de05f3f; 0x4eab9e4f285c115; 0x21064b959f74570; 0x369ea6b2f8f0c1a1; 0x33a22661e26ced4b; 0x6cb181303992c6a5; 0x49a55a50346fb52; 0x1eb1b045e751cef1; 0x199a1d39de3ec3d; 0x12f8310393d2296c; 0x78d12162278c9763; 0x441690668051ce99; 0x2133292f327056bc; 0x14d9ec363200e27; 0x4084a55d53178b76; 0x574e5ce8a648898b; 0x6bcd4a72464ad6a8; 0x32f3d86f113d34b9; 0xc1d965267505898; 0xe491363eadfa04d; 0x6a11da907eee9f4b; 0x6747b9fbc3482d8a; 0x4c1fa13a75e358ea; 0x671f0c1db489daf7; 0x2a3ea4ef38142c5f; 0x2973b30f9e706cb9; 0x7f3b84ea63d2b0f5; 0x433a50af01f7329f; 0x5b7913092768c1e5; 0x7ed4a7e29320a194; 0x3a787ebb9a9db7e2; 0x714f1e92a74fd1a9; 0x5f45e7ecfad68098; 0x72c4a51c10711fe3; 0x5c15d64e368aef60; 0x4668261c984a371d; 0x8ac524958ea5298; 0x1073f56e85e147c7; 0x463716d8ea28a832; 0x67a5ce1612f3e21c; 0x11e0c774e15e3804; 0x768e7efad8ea3ada; 0x63fae351403325d7; 0x7ff19202da7768b; 0x1e4b56406f5cc4f8; 0x67c8ff0e662b69a0; 0x35b584968e4a3446; 0x7e258aad33e7880e; 0x5458e241e4d9233f; 0x3c9ef077ecd044a9; 0xd972c443c1acba4; 0x7c06aca1e790f68d; 0x2f09ea5607d6aeab; 0x19a6bc0adce5b00b; 0x6e8dea03868c749c; 0x65bef228705cdf1; 0x4bb5264319679fda; 0x767ba04814c02135; 0x552a4e31b0cceb97; 0x208161849d8aef8e; 0x3af4a826f2fccfa7; 0x2a47243396f0af18; 0x49f3a7b9883e3deb; 0x7be525bbf4214207; 0x3da656c3ee52727f; 0x4c9ed043a52d8ef; 0x98851e026eb9eda; 0xe10ca02b0ca4213; 0x36bf4e26df31083e; 0x58b9a9ffcc96ed8a; 0x4e0464506135c8b8; 0x3351bba2a8ff7475; 0x17f559b52c628256; 0x52ead10d703d6cef; 0x5e42e3ba1be7e20a; 0x446fa98c6b97a30a; 0x3bf5935a3dd97a95; 0x3257f107755de959; 0x4064e15b888555a7; 0x2ed4d77e0731cc06; 0x317b09c6cf3b6e55; 0x1bc85887662e5871; 0x2752e86180f7fc55; 0x5735ff9054871e88; 0x28c60f611686aad5; 0x6786fddd56b11fb5; 0x2849511c7ae1cb07; 0x7af3badc565c1a9; 0x44ee6066164895cb; 0x72c8b181ec8912a0; 0x4e38f2e5bb58ab92; 0xa76ebe1c1335f91; 0x186982ac4b9e539c; 0x18a1792f37a70d2c; 0x4144d875fc1af7bb; 0x2b9a70ce1ef55429; 0x1223d5545afa754e; 0x5a5823e3880811a; 0x196224bd84ee26fb; 0x5440db4c39bcf1d6; 0x514508499b7ad322; 0xdadcf3282604d28; 0x4f9e48ebedca62; 0x27d19e0fc802c8f6; 0x3fe0805267b96e26; 0x72cfebe93cba039f; 0x2f18a7d9dabf0157; 0x1db8a1fcc4dcf613; 0x62e45826d185fc7; 0x7c77bdb1256602b9; 0x6141e168c653fa8f; 0x68b3798443245c77; 0x251016e96cc7c889; 0x494226cad9ecfc8e; 0x2a60a4b282b3b9b7; 0x92cf2ba8de4f2bf; 0x7cb7de3c969f0f31; 0x200865d671cd6b51; 0x4d0a78b29187dc9a; 0x4f1117dd34879e59; 0x108be04c2398f46; 0x39ffc70caf54b766; 0x438893ee4f6e5343; 0x1990030db1012d6b; 0x37d0c257d54bc779; 0x64b6a7702c5a9ac5; 0x71f628919d075a06; 0x51208449c2fd9c8b; 0x1e4af4ddb632c5ee; 0x93cd7b5dc5ddad3; 0x49e9e1ac47e8ea77; 0x4bfb117282640679; 0x75638886fa07b626; 0x535b9434104f9ee0; 0x234012f7564fc7f1; 0x465dd529d76c13d4; 0x657359e298857edc; 0x5563c33a2605847b; 0x7871feead1d6a76b; 0x4806ab1628033bf; 0x50c5cebffcade602; 0x4d7988cd31683b1; 0x1816006e0cbf74b; 0x1213cb91f51791d; 0x1b38611ac7710a05; 0x385cd09ff13fd0bc; 0x9f2cf231e36c02b; 0xfb6fa29bcbe2f9b; 0x7fd88145331ed905; 0x56e4564552eaf58; 0x6b0c0c45b708a6e; 0x62e976fb2fff9ad5; 0x55bbd51e5a18f72d; 0x726527788887d87; 0x62aad54338f2cbdf; 0x43243a1eec0f3a3c; 0x73b625418cab9015; 0x2210842e6a6db3f; 0x66389ed03f06ffc9; 0x762f5f2fafe98a75; 0x35cb6ed588a21223; 0x73a5181bb6d278fd; 0x1e715c];
   [0x1866122f7029a906; 0x5af949aa97046498; 0xae615c206d33308; 0x109bf3a777efa636; 0x2ab23d46de6514a9; 0x248facb0812f6bfd; 0x1444efee5807b7c1; 0x7889a4b5dac7a51c; 0x2e1102536ac62937; 0x75ea684c2885d2bd; 0x14d5958e73ed3ba6; 0x670b0132708636be; 0x2aecae19da0bc71; 0xb880c9349151e03; 0x4b6ae8a81b254f30; 0x711866db9146318; 0x6ac8147be99e0190; 0x1dd5724c395fae52; 0x58392ed961f0e706; 0x34ff5bac8ea97a11; 0x3cea93dc85507024; 0x65c70d7a1ddfba57; 0x2b97aff0b94a1658; 0x3fb87ba09e43ac2; 0x6985a80ececbf562; 0xc6ea2f83c0891e8; 0x3c962cf19a5fad28; 0x1a2059ded522a1f; 0x71350b923fd29ae4; 0x18c5e706d94ee9ad; 0x40058aefd92a73ca; 0x11d1f1c790d56286; 0xc69fec9ff42e71; 0x321971154386de73; 0x5113484581802b25; 0x29ee92beb49abbda; 0x75c9aacbcb6c5f92; 0x7cf6cc2085d6a1b6; 0x1dedca9cdc804051; 0x553a2260ea8a4737; 0x605f9aa0ea6d2ef7; 0x594be621742a12e8; 0x28571b40376fee62; 0x4deac1f0c84d77a7; 0x73a7d69355ee927e; 0x18b5dbe0573c7502; 0x1e5410ab227e9dd0; 0x29f504a57b18b891; 0x6e0a41964ff616a0; 0x6a84490e6d6e1f2; 0x78711b7709a6e12b; 0x6aae30a6f3300ffe; 0x10bf7a7f198ff032; 0x13a7b80948823da9; 0x6b060c10a9823745; 0x48f810abb180d33c; 0x4c2a21f142b52eb6; 0x510a60401cc54022; 0x6ed4ef6f5c56207a; 0x3e8d7927cbaa3cf2; 0x53a7b64d0822f9f; 0x4519b1fff08305d2; 0x5172d82d14c769a4; 0x2e0b1b87df0f11f3; 0x1d2c4be996d6dfa; 0xc34f0e260efccaf; 0x3f31d45d3a6b8d81; 0x5d84a1a3763cc520; 0x62be745681c7984f; 0x67e7672e183cca5c; 0x6b34b959a1874784; 0x701c0417c5a86765; 0x5a2d4ca54b45f649; 0x5643d5da0d081209; 0x785c1b2070176fcd; 0x6664a352320b4bcd; 0x4a069a6abc41acda; 0x1ad71cd66dbb5712; 0x64e829b214697563; 0x7db123c069aec3d2; 0x1efc6ca73ae5c0f7; 0x2a3e42e8f3fc72f7; 0x72d5b3bdccc5c3f0; 0x270ff7c7ba68ec5d; 0x5975602d23dfa25a; 0x3fc2752714157c5d; 0x1b01f73e910b0874; 0x663d53a400bef0f3; 0x6568867d5cfdb6c3; 0x4182a9b42a432128; 0x7c415f2e02a13105; 0x1582ff0c83eb69e6; 0x7276838b4c877378; 0x65d540b2975b2495; 0x2f43e06c5ba82af3; 0x78f43f2e36d0e0e0; 0x6736c73ad1de6a2f; 0x4fd79baa57001f0a; 0x251b5b78944a14db; 0x29c49f1437a2200c; 0x18335b4fb477760e; 0xd407fb7b78b7fd0; 0x1f5f3df341261352; 0x14ec920347b49c72; 0x2e93a2ebffe82ed3; 0x12bcda7dfb7d071; 0x25f9c66c1422970f; 0x3a96cc9163550b64; 0x5f1532433c927587; 0x246bda7089517d3; 0x5b2ab4815f9cf4d6; 0x5a17ca75ef246708; 0x38331b7a4c8bfaec; 0x3c43e6b5c96c83e8; 0x428237515f6e1053; 0x5ba2b013edd72995; 0x278271ab19c695fa; 0x78a7e2b16327ca4e; 0x28b5290c23dfa16b; 0x390772acd8db7c58; 0x1334d1b1795ef07a; 0x6ce38132c9d1c78a; 0x5e34dd624f9e8d3f; 0x25b5babca64d0617; 0x41b1121488b9d7f3; 0xca937873f05aa72; 0x600a60a8b2acc077; 0x4b60af3d1a873243; 0x6e22ad9e5c8a37fe; 0x59931d4e039640c8; 0x627997b1d54c7315; 0x18a598d9f8dddf7b; 0x5b9f5fafd59a7bd7; 0x2cc593b96a2cdd71; 0x1e8d7fbea7be22c1; 0x1bcc491ef7454896; 0x482bcb63d3d402e3; 0x33dc46934bde5971; 0x2d809d7e11c11495; 0x447a8760bc1a09b4; 0x49f345ad959794c0; 0x3df74ef13e65b208; 0x7adcf9b4e64346ed; 0x5bd47535b7a1a143; 0x43b7259e1fcfa24e; 0x66fa8a02f2f97a12; 0x1fe08f67893c1ea; 0x4c6f575a3c9c1ef3; 0x1075ee2c5bdcab9f; 0x7eea78a99c5db78e; 0x2f070127dca06a23; 0x1f05f19861aec747; 0x7a36e0eca9ec0584; 0x76255917efe85e76; 0x44ff9e1152d48ad4; 0x694defd49f914f36; 0x30eb972167a223a4; 0x24f0a56a93da3b3e; 0x18dc3cc15e4b2d14; 0x75c4aa917a91e8b5; 0x44454e658ce5c6ad; 0x27956c38ca0cf681; 0x1dd3cdd13ef5a980; 0x721847cc0d96397f; 0x5f8d7e1e38c1931a; 0x4cc028e010ad047c; 0x27d9276986ea9106; 0x71cae7e67e7aab31; 0x1f06e15716814a41; 0x6d43d881c889e750; 0x64b09e40a717e3da; 0x1826c0041fe7129d; 0x3f88c6055b8be083; 0x3deb29d87779a83a; 0x1a0a6d0ea22dd9bd; 0x69e45c8735b4e0c0; 0x508ebab3b5125e99; 0x7411f48912864378; 0x77cdd168e071cba5; 0x2d2436c14aafdd53; 0x4bd9d911680465dd; 0x24fee4cb3c66efb1; 0x23e095f4445449dc; 0x5a36755dcce814b2; 0x341a601cedee8162; 0x60b67780bc3818f3; 0x15a11755ce1a477; 0x2a1456ed1a91f8a2; 0x4480a5bda509d32; 0x718d234a75e249d4; 0x2ff8c5d6adba1818; 0x199956d26bef05b1; 0x5481d0ec67b736fc; 0x43ca54ebb588f6c8; 0x72abe3e62586eef3; 0x679a77b358caf733; 0x6d47f13043fd8a18; 0x3602d6342b7dcb47; 0x23f268bd67d46edf; 0x72281bea77df91cb; 0x31dc98b2cba73781; 0x288ce4069f0218c1; 0x6cab389e86fc5ef4; 0x4e29be153041ec6a; 0x35dcdd5d4b4c3248; 0x5115fa3aa125e188; 0x36607fb6c67e076d; 0x23a7ac0751e1d2a3; 0x1c5be76d79f1229f; 0x2b6b6904ffb35f31; 0x1e3407b6206df927; 0x2fca925be3fd9d44; 0x9b8ac239f6d9554; 0x78617ad2477d234b; 0x1dd708f227e3a1ae; 0x108b5c49b4a12855; 0x154468f74c26bf72; 0x6642e9a1ce5bdf77; 0x359d8365b98ffdca; 0x6da5b3249b05e9ba; 0x434d6959b74ca2b1; 0x6e7214dc8db9ddd7; 0x4ae9e3e831e6fa15; 0x369e594e26ecb52b; 0x75c013161e4628f; 0x2c0f4d99acb4e40a; 0x344780b8b9821872; 0x647597ec167570ab; 0x4dcefc7aeea6dd14; 0x6670732d342fe320; 0x14c34864fdc59e80; 0x2470c9fb94ff5460; 0x3ceb7dc2aeb249de; 0x1efec42a71aae69; 0x7df1388e4878e651; 0x4e977ba2efb31d34; 0x5f44a870b255256b; 0x7d4f6168e41ec68c; 0x33d307ebe328b755; 0x5b583cb79ee66d1f; 0x1fd18a62af148d46; 0x2e855a4160dc3c9f; 0x383797335db7149f; 0x49dd7fad7ddd2078; 0x7931342e729bf288; 0x2e718df79df2c5ac; 0x55f5019cb5c0ad05; 0x3846f850fbe546eb; 0x3a139bc91c3c51cf; 0x5bf0683636ed8f88; 0x3e5f5df9b543ded5; 0x4033ad7bbf168ce; 0xe7682f3824a7d53; 0x7541b9d009c78f9a; 0x5d24cbee9f8673d0; 0x50730230cf7c737d; 0x72b765cb9dcf0387; 0xa815d2ecb29e032; 0x2b881b3dd57f2f30; 0x3e4245b21db1fabd; 0x294518ca8ff11d92; 0x27b7b6f694242169; 0x47e73f8ecc7d2607; 0x267fa40c09ce06ba; 0x6b161e4d996fc40b; 0x27839cd0d8ddd8b1; 0x59de651d26516ccf; 0x65074d3f21da1389; 0x5803df5893cdae1b; 0x3c3e38283b3397c2; 0x489f148998845e48; 0x61004da533aef64c; 0x44c6d44ff2edfab9; 0x3472ba8809a015f5; 0x24da01522f8c963; 0x1813f7346078168; 0xbb213521f3a4f9c; 0x30618225aa3ac125; 0x6954801aa5c247b2; 0x39cc10df9c823a1b; 0x401eafccbe63ff04; 0x148ac1e2cbe2cfe6; 0x6902371a19c8d465; 0x532d0d4d0b22afb2; 0x180141c17ab030b2; 0x34f63647debf5136; 0x5af0f23145217323; 0x754629787b20ef0c; 0x61c6ab6dd14eaba8; 0x1da4ddec9ba231b9; 0x442beca9604e191c; 0x4eaeeeffe0fb82ed; 0x2aad8400c7141aa6; 0x1f7e9d16ba024863; 0x1b70187eae2bc536; 0x32f52f1ff3f58fa3; 0x4672be1d7c4ece3a; 0x36b89715d4ee2e67; 0x3d6ae4ff39545e40; 0x3f837f41f5fe3e0b; 0x7c0d3c8ca08ea270; 0x6fe176bf8602d196; 0x4cc99e28bfb6dab5; 0x50854b9df60a6d0c; 0x62d6d8214db9dfe7; 0x2c6f9e8e44392b7d; 0x76da8babba2d3a0b; 0x72dce85f18ec2686; 0x6918b2e5073a2664; 0x4d02b7c968f2202a; 0x690692cdaa8094f1; 0x232bbec381006c62; 0x27dbea64094f157a; 0x40b7906c669c5cea; 0x715dd79c634abce; 0xd2c44f6d8f2ba7b; 0x39881a24da8fdd0c; 0x2e952c];
   [0x3029ae4ae9884ce1; 0x765b473c7cbccc5c; 0x70ba00ba31ec7b23; 0x42f404f304028551; 0x68611530b44372a8; 0x24afe34a8be42e1; 0x3b0a83a7e2733783; 0x42f2c2c26a0f9c41; 0x7e2f17969cb5ee8a; 0x76ba48fff929055d; 0x4a4442670aac8acc; 0x66167efbf489b91c; 0x3a2780cc317098d; 0x42f2d8b23fbcc75f; 0x12f3aeb321a60d6e; 0x2159e8e2da6d1b59; 0xa257dff6e3aa0da; 0x4d305b1be4231ec7; 0x6c5e1d67489f9e2b; 0xdeedbcf5d98502e; 0x2dcd17045ae80611; 0x26dd169af78086c6; 0x2d285dec3371a284; 0x31bc7382cac89193; 0x7c68b6cc3d8418fe; 0x89d6ecd7a749d04; 0x5469484feee0a0b6; 0x2a6921e86e11238; 0x38ab8db4b01a8744; 0x6da7f76456e688d0; 0x900ff6974ebc2e0; 0x20a75043c1d09a5e; 0x620366f8df872f5d; 0x677613ec86df8528; 0x2e739e9039f159e9; 0x4b661c1f367c3e91; 0x58b633f299ddf14a; 0x7902ee870cfd040; 0x53ed33cd659422f2; 0x12816d4b84ac3151; 0x65865544ae2b0bac; 0x1e98c09e8f049547; 0x3b1f7ff14a52b2de; 0x24cef79719530a65; 0x620ae733112dd7e7; 0x4c99ad0043176412; 0x500aa835e92f946f; 0x4f00cdc1ad190be3; 0x4a00f3c3826ef2e6; 0x88cead45d358865; 0x4f83798755feb775; 0x4bacd8672125b84b; 0x4971d84e4b0a7cee; 0x6e5605058711cf17; 0x4e7204f11fb32848; 0x5108d94bb1c4d2b8; 0x6268d1dcd2bd9252; 0x366ea58f4e311237; 0x2fb73c98319d4455; 0x5a16fc313acf8819; 0x50c88ac71c8979e6; 0x70f2559ee5218f87; 0x21360ebb51c2a5b7; 0x353e1d29fcc335c3; 0x7d93ed812ef70d3c; 0x6d22594eb53b1c95; 0x650d0c2a40b2de14; 0x45764571c9b02bfc; 0x9cab0ef5e55f005; 0xdbac983ab432700; 0x7bfcde802cbda50d; 0x297fef5d81c13033; 0x3d65b15e9c7f709a; 0x1caf34b4f3271423; 0x2b16bdfaaeb3d79d; 0x56a9529e9bd13529; 0x2e6c9fbf626628a6; 0x1d340aae3f402411; 0x422f9c22070c738; 0x3110efc881518fd5; 0x47b2fae35f6fd3c0; 0x61cf81a19b359d1c; 0x5b2c2d6ebb462dfd; 0x3de63fdbd9112250; 0x48030e841a2c9fb6; 0x188c408463267494; 0x340e09e0a0ba0768; 0x6ab477373fe5a89a; 0x477ce8e655f040fb; 0x3888cd1da33f6a85; 0x40cc055d8b3c4e7c; 0x1b394212bc418bc2; 0x7348e3cdec6066d0; 0x206b022e88364e2b; 0x5bb8bcf29490cf62; 0x260e081c9bcb84b9; 0x6592c2942878798a; 0x5ca0c65ccf2e0e75; 0x5d0ce9da8d4af339; 0x6fec5a6c0f7536a7; 0x631e879e3e21aa64; 0x25f9324bcbf6a25d; 0x51858b8cbf2feefd; 0x6c6f220e763c8a76; 0xc33e4098fc7c5c0; 0x187ebfacb97dd655; 0x42b337b1b6a445c6; 0x4dde9d65ec094933; 0x718e8a821b4fa450; 0x65618a42b310d812; 0x733bd4e5cc8b6e49; 0x81ae563306e8ec4; 0x274b0897c17ae596; 0x436bbbd98ab20843; 0x4c91dda584fde877; 0x321e8eecb05ead0d; 0x31f0c5b66bde921d; 0x25d8d8421ee844fe; 0x5c687610b5cafa24; 0x710dc8a4dda5193; 0x39be6a5fc7cd0943; 0x7ec6de163bd36f61; 0x6bb8ae6a4a93d655; 0x6ced195ed5871157; 0x2ca2ff63b8743274; 0x3f2095cf37ae18a7; 0x5f85ce65f7f0d10; 0x63c6ad4f17cbfdf6; 0x274451aec7d09166; 0x49accd498edeab55; 0xa7efa88f351cbed; 0xac0a602d438c8f0; 0x56a0ecd5c1fbce82; 0x1976f621462cacd1; 0x5c36693b088d65c; 0xef55e939c562cd5; 0x161603f8ff5fcc81; 0x460a6673fa8aeaa2; 0x3464716b13af3ad4; 0x63f8ea02eb28175a; 0x6309c12e3a193a30; 0x6d7119e348589ab2; 0x7d222e266884f818; 0x47cc3917cf89a5ff; 0x5b8215fce4c33a89; 0x6db4be18878e99b5; 0x6d94e6914cc86cfe; 0x3c747d1753c60330; 0x1eaaf31fca73e7bd; 0x22dce66b5d9c75e5; 0x67de7e12c428c8a0; 0x27047b1b30a2e61a; 0xb9f363e0888fea4; 0x5d0f7a64ac1c17ef; 0x5096234ce955f0d3; 0x479550bd1b92b492; 0x64e7e66a9a1d3514; 0x5743f5d9f9956a1e; 0x62209d53c8fa2f59; 0x5af1ddc4af17266b; 0xca80b09b9d7397e; 0x63355b7a54ca619b; 0x413c59ee0152ba2f; 0x27391ac027b147e0; 0x6629acc7cc3e1887; 0x29a05d97202449b; 0x2a324f6b8ba62b73; 0x19b03adfe8eb57a8; 0x30b232a12208f37e; 0x5fccf91e7276f384; 0x2bfb1e32e0dcab4e; 0x2b0bb6354c06c742; 0x3b1de1062bdb9da1; 0x48db4e0481343243; 0x69fca61dc6af5977; 0x2a64142ea8bc46d8; 0x69ea3f3f47beaef5; 0x4c4be18e1d447c48; 0x1fc81b2c2857642c; 0x6906ecc160c2e1c1; 0x2487a87ae539d716; 0x3b5e4d8f75d2ff3b; 0x502a0b4c82e6345f; 0x563fe463665d4a8c; 0x5e3b337e735c48cf; 0x5e7bbcda4037bd6; 0x6ecea4b49e3747e7; 0x41fa72001af67240; 0x57e664e2aad71b0b; 0x7a93d1d3ec3f6a24; 0x2e28ca8e4000b758; 0x9b4ce793dc2650d; 0x2e801135d3d1893; 0x1e146057c87e423e; 0x7fccbb4a6e0acd80; 0x204dfbe84a411c78; 0x7827008621551bc1; 0x592231f84284b117; 0x2874945e68d7baad; 0x39ee1fe105d6cfc0; 0x39abd3339d51083f; 0x65ea9151c3a793f6; 0xd359a56c759156c; 0x672de151f64c194; 0x4d7f4fe262f2616a; 0x2929e3ff16afcafc; 0x7084ecd6e3ed5c5e; 0x6077b6fa962a1ac8; 0x6ca9f15d0c3a947b; 0x10654baf323189f9; 0x190fae8532919d8e; 0x68cf6b945ae1b935; 0x307e2079f4f9eb03; 0x5e922d0c3cee48fd; 0x48ef4f20366c9486; 0x6960be9fb87a0997; 0x30cfebf5e0b402; 0x2cfa6c5ef812ddec; 0x105ccef908b107ca; 0x6e6853f8f95a2328; 0x73babb9fa2a2ec9f; 0x7b1217415739b5b1; 0x7bb22d9061257041; 0x619cf0064b8f7a0f; 0x3376ee34f83291dd; 0x17844f81f096b7c9; 0x73e79d16e2eff23b; 0x2733fe6a262547a0; 0x6c54cbf17597e644; 0x13a598924403aa86; 0x359edfb22e2be768; 0x7fb6acb3d676c7ac; 0x15ea47abb6461960; 0x74333290d18b5130; 0x6e193214da34b538; 0x6e4c618db0529cf2; 0xe6b206155186dfa; 0xafa9b4fd649c423; 0x1aa706424be78742; 0x68b74c66801a4bb0; 0x25ddc1a155130e09; 0x3623a7b22b722fe9; 0x4f17b72fe9a0bf0; 0x314992efb3255b86; 0x358b27d819793139; 0x7c3c64a1147eaeab; 0xf04661adcb522ee; 0x318665ba3fd568e9; 0x6f9960d4ea25262a; 0x2ff4ec7ebdac921e; 0x1717061f99ad6e59; 0x7de20167141d81e3; 0x745d3c3108fa2224; 0x215de8291db46fd; 0x69285bc9e39360c; 0x612160f3e49d460a; 0x48965160d396eeed; 0x70bbfeb522a53aef; 0x6bc3d812aede3517; 0x5eac7d23c18b3461; 0x47e79b7204c27217; 0x22f25cfd3167d283; 0x2c9d09e512e5b7d6; 0x56d84ae6775c88fe; 0x581e001d7a96aee0; 0x201e372ff43dbd1c; 0x4ff822d95b786792; 0x61bc661b3a7bb0b0; 0x7d312a597abc621; 0xc929ce013eeb82; 0x1309f7074a807c9a; 0x16834b5d72201556; 0x2a3ff14b10182f7e; 0x50f7742e4600a31c; 0x3df0ee4cf3fa598e; 0x437388d6655e7f4b; 0x45ecc9940770f5f2; 0x547fd9523f7360df; 0x23411dda94b35e9f; 0x5dd7d97ec172f888; 0x10b0ce2b62513847; 0x3c3448e76aa306ac; 0x13ef82ad40f3a8a1; 0x255c86a1dcd5085e; 0x2b873d15a789d014; 0x760925a01ea948da; 0x4eeec8759e24c6ea; 0x7b96fb5fcda32f5e; 0x2eae0c202e8120e4; 0x6cfa49559c7a6fe0; 0x1b5ed2f1bf4d2f9e; 0x306ce0176bf9f57e; 0x5bf98e867b268006; 0x13913f29dc4d4dc4; 0x1ce2f4c41b7c4dd1; 0x174757803d984160; 0x6697a255c401bedf; 0x72b1e3f0ff459d10; 0x42a62fcf7c4c8c9a; 0xd084b6ce6069a46; 0x253470362c7f24d8; 0x31cb02b1f296b61e; 0x738b96c5ed429185; 0x3fa4beada0996238; 0x52283a280a080d7f; 0x1e40d6de4a9ce919; 0x645d06a62fba3190; 0x114d7c5e53950a50; 0xebef12a599ed511; 0x59c7b461e8a2c2ef; 0x2ebc5459cf4e627a; 0xd5d57a0fde8be71; 0xc0eda6adb683060; 0x2215f1c9526e9b46; 0x290fd23a90db45b5; 0x6557c73d7e9869d0; 0x1339e1258b7684b5; 0x1266b4];
   [0x390b89bfd2e47d1e; 0x391783fe16b69c9a; 0x69d1896153e97455; 0xd3b7a001068447b; 0x587313fd0e57d4cb; 0x4e2d8ce2f8a29c4f; 0x105d28408f2058f8; 0x2aff23a02b00137e; 0x44b540746c70fca3; 0x57c855d358c7007e; 0x5ceefca4c1294aec; 0x76929c9f0f2f7a01; 0x30343211cfc71ede; 0x728aa1444debf1a0; 0x7c08581f100137c8; 0x5d51f5d0408d8e22; 0x1c7dc7dd2ba71e43; 0x22f1f0417886d985; 0x3d02ee47ec70a605; 0x448b9cb22ed7507; 0x2abc158beec4af02; 0x6697e22a79c2c006; 0x790202682240d6e0; 0x372a582294afa8d5; 0x5aa4baf4631c761c; 0x5ac2476abdea6540; 0x5026e2d78e93b8eb; 0x68d90f10240f6b72; 0x57092e925afa8273; 0x6746592ab2e160e1; 0x632212d245f289df; 0x18099a128cbe027a; 0x22cd6da7bc30e571; 0x7de9cf523d72697b; 0x27037e39fb851f81; 0x2bebcf031ae32288; 0x19c1865371bec1cc; 0x6b4283015c6740fc; 0x69e0b8a5a2c40aa0; 0x79cf20d82924079d; 0x1cf16816d9c7fc95; 0x703610595fbc1a37; 0x448f83ffb7d4f3a0; 0x432f0ee046aaca1; 0x1ec33992d611ac5c; 0x4110ed44219ead5d; 0x7ba364d99654e323; 0x757fb3db37638ecb; 0x7eca9bcf97457c45; 0x223cb5cbd14b953f; 0x5be5419141e97fbd; 0x1bc021d188df584; 0x72129984d08e270a; 0x3f6fafd57836954; 0x663a7a0605c51432; 0x2172c7720790ee40; 0x1b1478a892e0809d; 0x679845d9d02c9a91; 0x16163c9cedeff607; 0x7b326ab8b75bcaea; 0x3e9873fb730d05c; 0x45021995d13a3fbf; 0x2bc99cf0ad9fdfa5; 0xf2994dce186e16e; 0x52fe708d3d17f279; 0x612a111f440f662b; 0x79d13e29a9d0c7f; 0x7e919dafa84f0c8e; 0x5fb3ad8eb958913f; 0x54d25b99938b626c; 0x3dbd7e574e555eac; 0x453fea844cfd7265; 0x2d8fa3cd0d2fe035; 0x3474914efad89fc2; 0x66ea82d7136ff7dc; 0x1b544184b4414c09; 0x62813ff25994401c; 0x384b577767bab70; 0x3415892bd716ad60; 0x2cd33079e8b55994; 0x4ec7f9c3a61eb568; 0x4b4b19069b2ae28; 0x6930f91472cdd6f4; 0xdb950314f8fd773; 0x23e7c17f04e6a61c; 0x6db4e56f25e514fd; 0x19bd3c6081ee7de6; 0x1d15708331b8035e; 0x31226204443eafb7; 0x23d8117f26a2a097; 0x32a414eaad546fb0; 0x62984638273fe48f; 0x7a0e243157e426a0; 0x70f4b2f299508ee3; 0x58840826450e59c5; 0x4e07eb37e911c7df; 0x5d0f6ebf6a3c2662; 0x20c549d44c371a0c; 0x2bb695fd768b8b17; 0x30482ddb81dc0cfd; 0x297a9f6993c72439; 0x5ba0c58ddc0f2494; 0x7ba88b333c1785e6; 0x31c6adb314775e1; 0x4f53db37ebc0d4cb; 0x6a27fb4a261c795a; 0x3f1369608079ced3; 0x2baee9687410b8a0; 0x707a3141b3f03d79; 0x1527e1ce661bcacc; 0x390151bec7b80312; 0x61cd1ed1766b2ec5; 0x150a5b6cbc93628c; 0x8c92f17a8638599; 0x2d167b7e87a8d43; 0x746d4de45d79a34a; 0x3a86cd5dfe200e6e; 0x641caf8b41168181; 0x7af8209af80cf7f3; 0x2a6e4a276a58996a; 0x3afce349767e03e5; 0x54d0b2be33810410; 0x79c09ff0a7024b65; 0x3f38ace5688ef9c1; 0x6625a9bbdcaa2593; 0x7e8e1ff7bc690986; 0x3130a2b9c9f0b10d; 0x3fd73a07ef83672b; 0x24b396e46c7bc1aa; 0x2ec1f9dc2bd5bfa2; 0x1e990351d48bfbe8; 0x5add0215c95c37a6; 0x398299b8b8b326d8; 0x351ef068b3240168; 0xc83803f80cc719d; 0x57943114f8b29899; 0x64cd9bcee2da2881; 0x2bf8daec011083f6; 0x5990e2dbbd4b27c0; 0x2731482bc56f9b9e; 0x466dea5a953a4b37; 0x79df13becc56c108; 0x7199be9671f167ad; 0x768bf8a6d1968bd8; 0x70dc453301962e28; 0x7b0b4149573094bb; 0x3fd0c2bee0ac1221; 0x723e951338c355; 0x46c408eb97f28a08; 0x289c6ecfcb38bae6; 0x64aabcc66d65569c; 0x22ea2a8d52ee3857; 0x371191e622fc059b; 0x5f23e030f6515045; 0x2303e41004b1a124; 0x423e4f1cf6c00c8c; 0x6604bb0b367b61d6; 0x7697d400a273905c; 0x3d77558eca5fdf08; 0xe6a9e74673d5098; 0x7abb50f988dadb5d; 0x3fcdf78117e4f4c4; 0x510f74bf3e7c86a0; 0x3c64532af2a866f5; 0x397e319a208975c2; 0x2de48c13ccda4c84; 0x6b95c527b65375f9; 0x7b816047a4c66ec8; 0x5326126e49183ca3; 0x1e4dafb0546ab8ff; 0x545f7a1fbe18cc5; 0x382340283715d133; 0x6afbb49969dbaf21; 0x260ba8528eeef79a; 0x564442864c0232c0; 0x340791ccc541f2f5; 0x2c10efae4f75756e; 0x813e7d9878579fc; 0x4b16d308766f2be6; 0x533cafad433c11b9; 0x7039bb3c2acc6b83; 0x567e16ff22a69532; 0x875242895f4c86c; 0x78cf1eefeaab5537; 0x75128328b90e5c2e; 0x732b0d0091a3c5b; 0x5bb983d89f54b7a9; 0x6f0d7456b7623d67; 0x2f53573b3a816464; 0x21241c194a518f21; 0x53501a919b0f4f3a; 0x2da16d7e92e8257b; 0x57e945dc2e1bb100; 0x228199749b573b88; 0x5552abf79a96084d; 0x4dc57ce371e468f1; 0x2258a6865cf7fca5; 0x642e7da8443fa580; 0x340fc4fc7c2b1486; 0xe21f6557d32b8c; 0x5bfd4e7b3a2bc0f9; 0x244836b5212e2c7e; 0x29aa141f2edfa46b; 0x714dbf8fdbba0f7d; 0x4b106c002bc4fc9e; 0x1be128c52d934d8e; 0x40234136a87d06c6; 0x2f6cce00ebf3fc1c; 0x12d26a2dc2b4f17a; 0x21b78b6fb6de8034; 0x21117d9205fef369; 0x5c91eee504b8b4d9; 0x5c915dd1d6d8e618; 0x2953e81cce380514; 0x39ab55e00d151d4a; 0x20005e6ac906eb57; 0x58c76fba1d44b4b3; 0xec87b3e432748c; 0x6674443c6df16093; 0x3294fbe246639053; 0x13df7882264fd2f6; 0x53c4caab72f386fb; 0xde478ede026b05e; 0x6840f14099727398; 0x5b7c9d7cebcc35aa; 0x61f973cb14ca8caf; 0x2c90b9181e9d01a4; 0xc2ca305f5a162c9; 0x1421c2b88796c9bd; 0x1425f809eeab5d07; 0x3065b98e409a924b; 0x27ea911863d23b77; 0x41da06e4dd88abcb; 0x1e315e327234825b; 0x2825f86ef88f0545; 0x27d043f169378d53; 0x2ead6c243d2a6fce; 0x5657e1c8f77cc31b; 0x60dc3eb200058834; 0x7b6dbf5d0adb748; 0x417b4ac0bd4820c2; 0x2c394e6605f5ab39; 0x48b7086cfe79ffb4; 0x305cea5b2f8962d8; 0x7afa4388ea84a3f; 0x5bcbba7ea6daf56a; 0x1a73fdf01ec17614; 0x5810bc9fe0f06825; 0x36a1637347da58f7; 0x2228e3608147699a; 0x5f4bd3ce0e7a58cd; 0x5b10115e168bdeda; 0x462fcf94380afceb; 0x77e91f3f12cdbfa8; 0x3886a73114e78ea0; 0x41f542fe126692b; 0x1611ce8d6f26276; 0x39f806690b77b206; 0xd3dd232391f9899; 0x514a6f4e9edea681; 0x1eac1f50f537d9aa; 0x2c4393260ccdda2e; 0x22a1f7a6576429cd; 0x6c83c5924a7d3e1e; 0x3ecb990b4fcd6c5d; 0x3945e89555915a0c; 0x538d15ac5a427e73; 0x48fcb26ebc0bf7da; 0x8623b58611cd508; 0x56130b467c6ecba8; 0x72dd1babfa71e077; 0x63c0a735e1142439; 0x3168293c23f7af24; 0x3b1a084c2037498a; 0x6ec3bb7c6bdc90f8; 0x6ac0041c05933c85; 0x77aecb1c6a51e000; 0x6adda56d21f3e2ff; 0x659687cf2f628fc3; 0x592bd29af37fa952; 0x7563ee4007f32a48; 0x36c6fe81ad509803; 0x2e16b478f0832b30; 0x55f3ab47ef1f8c50; 0x5efd432555daab1a; 0x176a60d064c3228b; 0x5bd6d9a3e93eb59e; 0x5023f2dd5b6e52fd; 0x68d3f4561c001f68; 0x3d2d3e8b8d5ddffb; 0x71d2330e71e56b81; 0x3d58694c470c3cb9; 0x72ed4d7e73d03510; 0x2a612f91e8d5a21f; 0x6455cccb5e3397d1; 0x6481021376e3280f; 0x2de8a8d4b2163b18; 0x2d50d5a7c01fc0cb; 0x9d6565a5cfca6f6; 0x45f40bd8809b7617; 0x38b834201e47d644; 0x22d07280645e9373; 0x7464fc9c294eead; 0x759f2bcb93c617fb; 0x4b1d8dcafecb0ec5; 0x1a45b87e061bff84; 0x521fcb4d22e5b416; 0xc0e0cfc616bbbe4; 0x2584ef5476499a69; 0x777356eb2a58177e; 0x115baf44d3cf1228; 0x32039c24a5d32f9; 0x65f3f06f178f0e3a; 0x3d88b866e6e03b4a; 0x5a1f5babaad611ae; 0x1f3c517242801538; 0x4653477d84fda30d; 0x376a9e];
   [0x446433be1b5f78fc; 0x67aaa2d758f31f06; 0x3d997d59c90f946b; 0x62cb30923bc825ea; 0x54050f08106d141; 0x61d15cac06278f30; 0x313ca87a02ad40df; 0x16e8570296ce055d; 0x755d91ad1cd8f36e; 0x51e20bfedd9eea17; 0x79c126a7e79a06cd; 0x1d7f6de39fd14d1c; 0x48d5d9f34515ed06; 0x4b3eaf67cc3006b6; 0xfaab14aa2dad4dc; 0x519cd169e4b47870; 0x43c10aed1cb31611; 0x28428a493d2ce660; 0x17d891c71447cca6; 0x7a11dc8ab7fc2e25; 0x57deac3933f98135; 0x5b21f2a935e3ec77; 0x8cae7c97eacc68a; 0x551f755c2d3e7035; 0xd3adaf57517794d; 0x1b5d7cc955586017; 0x43074963dec450c2; 0x59986d1befb03089; 0x6c0321d4f483f494; 0x2b2966fa0dbffd75; 0x76c4995da42a68f3; 0x7379f7b40ddc0a; 0x3bb223a6ee64e728; 0x16099da1c75b66b8; 0x71fe75d2bf19416f; 0x282a00dfcf02570a; 0x4c54067e0e54025e; 0x10e571e193b4b595; 0x5f49ad0aa2b19f48; 0x30181ed066824ec9; 0x666277b40a7fbee; 0x5f63a35dcba35e34; 0x3a12cd4970ac0452; 0x44908cb691749c87; 0x3b51c30b8acea4d9; 0x4184ccf9a79aa9b5; 0x3db76375a05d4050; 0x4c156310b6267d29; 0x765cbd047233d3c7; 0x270e70a0ef18cc2d; 0x6b60280d14f1ef82; 0x62c2a044fa14f818; 0x1805c308408518cc; 0x46b1f23040b5d1b5; 0x15c2403867c8ec81; 0x24b82440813e12cf; 0xda7d2769cc0b5f; 0x7ba564b82796c906; 0x51070f72ae7d3268; 0x75b135c5db4f0906; 0x2f6abe54616ee9dd; 0x78aa1d06cfa38844; 0x29a7ae23cfc1e948; 0x5f460ee00376c851; 0x5e37bc42debf4387; 0x1ac51b3c02f3eaec; 0x4552557fa12c2c92; 0x2fe50a1c70beb60b; 0x401f795d7a7404a2; 0x426ddf81b936fd20; 0x383a3a274448e069; 0x7388af57136c1b9e; 0x497818b94cc60706; 0x27af55eef0df63fb; 0x5d980c51daac8b4b; 0x7788c0ca46bd182c; 0x50f689f080daf418; 0x60fe8cd7217c5865; 0x7178cc0ed5827885; 0x3bd3b8d324304d93; 0x77130d14c583a2af; 0x459585a8074f8bb2; 0x73a34dfa0bfc6db4; 0x64be86fc6bb813ce; 0x340bdc78fa59058e; 0x12623b45e6a47943; 0x6ad516f97058663c; 0x6a3ca8fcf2dd1574; 0x44a331ca56dcd592; 0x75e8648f5bac921c; 0x587306cfc5dad55d; 0x3c6b033cd7bb9a1c; 0x157eebad1e817b2b; 0x42c996adb6753efe; 0x5c23e53d788416f5; 0x6c9892f73b08b712; 0xb6255a37b92d3e1; 0x7b0ebbf9304fdcfa; 0x4f12d5730b607844; 0x7880e563ad15fd51; 0x11d51755cbe016a0; 0x5c9ca3d76914bde2; 0x2daaf5f0f0d6cb5f; 0x17c03ff33144e744; 0x642c468be05aeace; 0x52fce67197e5e7e; 0x6f86af631586dd98; 0x41581ce4bfed36d0; 0x38868dc7cc1a6c8c; 0x640cb8b710282133; 0x2779a5262567991e; 0x29e359df15f8b522; 0x2681dd816cddba5; 0x2d143902122fb4a6; 0x27251cc76fd16e55; 0x661f437666ac0c07; 0x766e530dd24b4fe5; 0x5e71c9442cf5a76a; 0x67adcd51926a78a7; 0x40d8f6a5c007454c; 0x11bcb1b17d6a2374; 0x75c27aa5af3d39fe; 0x2d821e33f1da215c; 0x26f504433c6853a4; 0x34ce060986eb1ed1; 0x45330ce8fc70e2db; 0x4bc59e6770ae0a07; 0x307becf733a8ccad; 0x3a4caff08961c640; 0x2e62bfd745339caa; 0x2b5a0592fa65d61; 0x14813e196131910; 0x3bd8f94b7f283d91; 0x2b054c81667a7642; 0xbabead816f8153c; 0x4ee9002af594a524; 0x2672361e523646c3; 0x730f5a34e79c2c85; 0x77846864ed24d1b4; 0x34ab85481e1a699e; 0x3cfd689aa27d18bf; 0x68644281c3e72b75; 0x45e35041d03c9ffa; 0xb1105049e242cd0; 0x4fb5efc545e187a9; 0x33833138a3fe005d; 0x571964f7b2cc014f; 0x740b6a69e2050c0e; 0x6231bbacdbd8c4a9; 0x4678e26eb8e538dc; 0x62bc14445effc4e5; 0x4da1db6efa025999; 0x1876feb775cb2e08; 0x45daa05dc2e5c38a; 0x5a0ab9dbd0dc29d6; 0x47e068cfafe831d5; 0x402dab766e94c331; 0x17e204dbe71bfbb8; 0x2a299eb39c95c0cc; 0x43189de12f1a2250; 0x4529b3f829cbccd9; 0x5c179a0bc948c31; 0x437d5f3a8055a962; 0x6158189644c0ca84; 0x2752a18aa6fd6c09; 0x4038eedd5a28c7b7; 0x352aa3a7c95ffe22; 0xc0603f0e3b0e16b; 0x324b1fe7592b88be; 0x487845a38a49db9; 0x678b483f481fe21a; 0x2d759ed7eddaeb7f; 0x25cd52601d794fc1; 0x7ee088c41402f051; 0x13e77fa49ce4ec25; 0x5d455c9f4dd56467; 0x4ed46c4dc74de98e; 0xd8245d1ad17057d; 0x1fae05c4644b4af1; 0x64c3b49cc715d4f9; 0x2fdb9cfca83a4cff; 0x7e52262ac6279b29; 0x2a1856147999091d; 0x31c15080b4aa2691; 0x23532d125386886e; 0x662babc581e9143b; 0x6109141e2825b57; 0x15775ce7b6ebe43a; 0x6908b465b058c726; 0x6c0a2a56adbf1aa9; 0x423b890c6ff324d8; 0x2ef7ba05835ade4d; 0x12d3cd4d4f85775; 0x1f512b26538c764d; 0xcb5f9b684898cdb; 0x4fd86e1dfffc0d9d; 0x4e00c9cfdc0a9919; 0x615f70aa96a616ff; 0x4fb1c45f0e01a599; 0x515ee64886c6c16b; 0x7e877711a146ab12; 0x5d47457260ad3228; 0x196ac2aae9b20b0b; 0x418409a6e468d341; 0x3c602231962c979f; 0x35b701df28c7d26c; 0x27ee82377ad310bf; 0x63f8ec8506537fcf; 0x55fca6d4a601a6dc; 0x561b2f0edc5da321; 0x2f89fa382a00ae68; 0x2f5487ce5e9e9e4f; 0x2dea46d252caae21; 0x71435afe36cb4ac0; 0x7f19641c14924568; 0x6f958efff564aa29; 0x6526e419b2bf82bc; 0x500cb36aa8240b34; 0x77238a3e4d3722fa; 0x119a64cfb2e012bf; 0x36b9654b53295109; 0x727360e34118706d; 0x6e22a1f887bdbed5; 0x2db8ce33577df0ad; 0x19de971ad8e7d321; 0x157ccf5601ac5284; 0x174cec1800022915; 0x1043e88b18f9358; 0x2ce0d31b0a243f5d; 0x70201c59ab82576c; 0x6fab2ac0ee6eec01; 0x5027e5943168447; 0x67401215b4882fbb; 0x5642c0e45789cc8e; 0x4bef8c6c761eb9eb; 0x203593d67f0fbff7; 0xca9b7f2c9699e30; 0x52925f434f0a5eaa; 0x168f0948094f6a83; 0x25dcc09ca7605f89; 0x5d15281195998365; 0x1ad313ff3df7fb; 0x3a063ba3c292d922; 0xe88dfe057cd5be5; 0x18ce4942ee00a1a3; 0x520fcb412df281bc; 0x42364d73f2c65061; 0xe0eacab5a04f824; 0x7e8a111b7b721d16; 0x397d468c79a886b4; 0x5e76551c60cce37a; 0x34b8098f2329c9ec; 0x4b8e77a1ed16f3a; 0x1022cac15d841e8c; 0x267afe4d359e799; 0x68f0e097ee0eddf2; 0x244632fed67a12d5; 0xc334cd33b7d5ac9; 0x4a1abf779923afdf; 0x18de77746a12a352; 0x598fa2af95425744; 0x660cf06726f66f4f; 0x5f3d60bab4d4c0b4; 0x4d26516404ea4690; 0x2c5620a3bdb55bf7; 0x7a25f5973f61775e; 0x2cf49d103716d98e; 0x2b0210ec87bdc876; 0x795cf48656d0bec0; 0x5789624d8ee475cc; 0x75eb7e73ae656133; 0x317b1bc29045a02c; 0x2424e1b74da93ebc; 0x363624eca5632876; 0x132435b82e1756bf; 0x6dc20e7db84acab9; 0x589c6753e7abb02e; 0x74eedf751dcbe8c6; 0x64c142df34c97bd3; 0x7a76fdd666df9021; 0x58345f787a1ea087; 0x85a7e46ebc3d369; 0x12bd079d3682db62; 0x27fe38d3195a3dc3; 0x7ae472fd21b96164; 0x544345e9e997dc7e; 0x4f4a52a644d8db57; 0x589f1d83470d9375; 0x6c75bd48075208cc; 0x36458911b974d4de; 0x686e5a4b7b8f8ca9; 0x72a5ce1b327d1c6; 0x4254f6976c166292; 0x7acee377b4bbf593; 0x55dcc030a5f44a5a; 0x3253747ca685805c; 0x689bf23d1fd49075; 0x47c999dcb244ea36; 0x7dc220c8106550bd; 0x75ca3b260b9a9d7b; 0x588c63c731a71e0c; 0x394bf2fc3f6beccb; 0x3733c86746485d3d; 0x11ca20d33dcb6eaa; 0x5fd5fbad44e0e321; 0x7c995dc396c57944; 0x3df0a528ffbfb3b4; 0x18d134c3a9e57d55; 0x3b1794a71c0adb34; 0x56a74aab85f3085e; 0x3f1028eb499cce27; 0x4cf6bb1b6d4307d4; 0x563159dc64af1952; 0x2ee7ffe1337f2940; 0x7c70fb9c796b145d; 0x224a9704306436ed; 0x35f13f839da18f2c; 0x155481];
   [0x4c4ee64eb719886e; 0x16538f44d59a96d9; 0x35058422bbd9cbd6; 0x612f35470625f0fc; 0xa3c973ee324edd6; 0x30548209846ac9b3; 0x7d2253801b629078; 0x2e21b5df35344d66; 0x34a1524eb7d07e60; 0x4d939aafcb52bc68; 0x6a945129fa83b096; 0x4c16064344c86be2; 0x51f20a69debcc469; 0x6a3b51be2e362209; 0x1ef8d429f6994061; 0xa75c1b41e915c14; 0x2c84e221bee93e60; 0x563b3102ecc4b58f; 0x44a4ec8cf27159fa; 0x1fc4381447c23aac; 0x60ba11122973a45b; 0x5727fff43fa88387; 0x148972432d24510e; 0x6e73817fc1acd8a9; 0x70663ec21336fea5; 0x66b8b04db65ccb85; 0x469264136f666e36; 0x485cd4d28dc7696b; 0xba2404e09fd6cc7; 0x4cba1234d517285c; 0x31908cb7b03a17b3; 0x402498787e56463e; 0x75a59df82d49a0ca; 0x2fdf5cceb4933f74; 0x1e8c3d7de31470e7; 0x366987f68b975381; 0x53aeaecc3e049669; 0x2ba88a9e7ffed552; 0x7c99904b79aa49d; 0xa1758f2e59e38fc; 0x6d6d163837168b95; 0x750fed8713fbe8ea; 0x46d50f453b444278; 0x225ae02ed9d87a0; 0x6faaf14ca622ac85; 0x33fff6222ecffbd0; 0x1afc683c7ecc7f8f; 0x56a640b7a0a7d6c6; 0x493f30229c31dd5a; 0x5d3959e032c81d34; 0x5b9c485d9c8373bf; 0x49cfede2dfae8deb; 0x2082bcf067dc6742; 0x575f8def6d65b2f9; 0x27d6a87525a5cb3e; 0x49b0f713a2de5575; 0x4d00fc2450f9fb1; 0x1f5871b50228dd53; 0x9ecc03c8ed7ce91; 0xbbadbacf45b714b; 0x1e894a3667f043f9; 0x47c20168c5ada8ce; 0x6228bc8e3ffb0c50; 0x303baa1f74bde3c6; 0x73415eb87dd47210; 0x3d95fb304edb431c; 0x5466b320eb14689c; 0x753e213f9970c52d; 0x2f90e5e7bc11d3a1; 0x7e0c20e480b0414b; 0x67a703246beb7d23; 0x25d2d8725ba49330; 0xc89b585efcaa5b6; 0x5971252b9028c50c; 0x18caf432e4fb68e1; 0x21a7fd8481c298dd; 0x5af6994b552d2d93; 0x6e49640eb0925025; 0x2397f90b1dd4127d; 0x4cb6c88affa67ea3; 0x32478034ffa58661; 0x63529a24c6fab63b; 0x666fe0201d98f161; 0x4b7873f4420635a; 0x69a13b7aef16df70; 0x7f05eb1f70b06036; 0x7a6de20218066ac0; 0x13e754b9dac1fc5d; 0x2ee3d66974db9bc7; 0x4d7e45f7e5c95b28; 0x317dc8fb7101fc0d; 0x238f272f5fe241db; 0x3030eae3e2b2c9cf; 0x378e9feb02d76d99; 0x730d0962b8979ebc; 0x21d5c73e3bdf9018; 0x6f8076695b88bbc5; 0x56df1cb9d9d6abf0; 0x15913681619ab657; 0x56a910f5ac3f1494; 0x7668bc315f87ba78; 0x1399fab8e044caa1; 0x188084b3abf1071e; 0x73319189b9fcd5d1; 0x25c9e07aa7bae269; 0x504e5e1119d31e5d; 0x613a629c03e7fb22; 0x23475b5c03d63793; 0x6f2cb66c9077d39; 0x18dd96185a2f5416; 0x140a2d15373347ab; 0x2a08fcddcb9b0270; 0x767ae73fd01d9eb4; 0x7a0a038b30a890ce; 0x69b123db9c2e5d97; 0x31f729e917bdd8de; 0x539c84903e085c9a; 0x3d964b4b3d188134; 0x4d39dfa25222fe73; 0x2627dd3af214200e; 0x458e61a17b7bd0e0; 0x365f19f723037533; 0x6044cda1187c1b41; 0x1901588e557f3af5; 0x35e1a4126638d59b; 0x3ae2baafdeef188f; 0x4537d3b470e5c0f9; 0x32c4e51b5ae95b87; 0x7e7ef8d4e442bf70; 0x3027176b7b952fc6; 0x7a2cf8cd2da34773; 0x907d4fcddde660f; 0xa1672a1d0ce6009; 0x7d8f3d9cebf7211a; 0x33e9a4d63960d95d; 0x68681c39fb9d68fb; 0x76d0d627a8dc69a1; 0x60a6b520e173a83a; 0x78c20f6f885ea8b; 0xbdea7ab754349ba; 0x6baeb777041ea460; 0x6e25b8ca725f74d5; 0x1a89520ad4109863; 0x29b6f7df20fa5061; 0x504a8554f6dcf084; 0x4bb69fb0f289e6c; 0x75158607af5198cd; 0x48c98b5a85e9338d; 0x58d1575f724396d7; 0x614e30c43c71badb; 0x47e955c767d15d17; 0xeea3b8775dafa80; 0x3dc466e21ebb1e02; 0x1f880b34444bfc0e; 0x4686e4050a313324; 0x458f78500ff4346c; 0x8be038cf038e8c1; 0x4bf4b65c43b14705; 0x2ad2f4cf63622e4a; 0x173110939d730bbb; 0x11bf9fc177b07c5b; 0xa7437595418490e; 0x6ca0d62da10cf29e; 0x4a50708b45e49142; 0x2142aeb7af4b863a; 0x51473010633d6935; 0x6125abd381ef8327; 0x62a431fc8527fbdb; 0x463e98068b8e3a60; 0x1c0cbb2376386248; 0x53f97662074f43a4; 0x3b1c3c4b3f2d4e1; 0x46d1922a7bc17f53; 0x4e5ccc6d05f83730; 0x5077669ff5d45d77; 0x6ea5134b4424c9f2; 0x7be4b788b481d32c; 0x6d78c54c455c1605; 0x597a3769696cb6b2; 0x14ff9ed5bfc98515; 0x221b4992c7627b6c; 0x49daa31bae9fe540; 0x67a83215cdea08c8; 0x1bdd067a939c9297; 0x3c59084e5757a7be; 0x1bd5fb48162d6cdd; 0x7d11a690730b4f28; 0x327b2f359cde855a; 0x48657f4b1620271c; 0x2b8f45d3180b1f91; 0x53462bfc104421c4; 0x7e7118180e385810; 0x65bba24d36e0edca; 0x4b3c58f47b27e938; 0x103800ebc56e4ab2; 0x1122c1eed11dd9cb; 0x5753b8492c0bb5fe; 0x7ee93fc0e2238bff; 0x5ff88f0e047ae15; 0x4bdb0ff9222db95; 0x196388a7fdc4cbf; 0x77923f495f0b1b4e; 0x11120f4d32dcd044; 0x64da4268d59a77f1; 0x77579b09c392d04f; 0x4752c020ec389918; 0x5edea2aa70d9659a; 0x5b0dc32a4dfa9ae9; 0x551a547c8bc76c43; 0x3dd5f0fe29e18fb5; 0x6d22435678a7338b; 0xe1fa36afe654014; 0x2f70c3caed48f2e1; 0x139e3bd12b65b8a7; 0x2e858cdba03936f; 0x14f8d4b6102c4246; 0x7f569bb760541bfe; 0x228e5886cb5ba667; 0x19618303873d2cdb; 0x5b29d8413ba12529; 0x66cf6696acfacefc; 0x4d4ddf7297c83b13; 0x3d7420793e94769d; 0x708e14dea2573497; 0x6356072f14361710; 0x3c3e8026ca2ea5d; 0xfcdd467bc569e6d; 0x533daae02eaa6d73; 0xda3954850ee47a9; 0x1aa9a0a027106069; 0x338af47727d09e9; 0x2c6901b198db5c13; 0x7a99da93a64904f8; 0x6064b1bfdbb49f38; 0x6fef2ad7bc42e6ed; 0x1fadff7628c3fbdc; 0x4b168329af69c354; 0x783d897180d22217; 0x1c3f8105dae5953; 0x41c1a8d570f4b4b0; 0x62be89e3875367d3; 0x6e658dcd80d9fc3b; 0x4f170296d4f67c65; 0x786444154f4b3e0f; 0x1cca26097e9708; 0x52d4d9dc9846f203; 0x160da7502908ac5; 0x6533219fc9d2a9c1; 0x7dd9d9d0e026bd2e; 0xc9984408d9631b8; 0x6583fbcecfb61bfc; 0x105c0ed28ae4b828; 0x2a09fddb12ad7941; 0x3eb3fa5e162320d8; 0x182092e22abbd7e8; 0x4271ae0259dbde17; 0x76b5b9da42755b46; 0x64d3085d0fee9665; 0x51ea8dba1ef1860a; 0x292d79593ea1b259; 0x2023340bcfc3d5fb; 0x72455eb9cf1e48f9; 0x495de58d1586a9b5; 0x795b9b2c2809c264; 0x35d6443cdf90b396; 0x2e8a1ac1d36a29aa; 0x1244a14e3a12f8a2; 0x52fa7330f1bb24fa; 0x58e837d963e762c6; 0x5a2d30702c7255c8; 0x1618755cfa912140; 0x39cca5ee1495bef7; 0x5eb244b1637aa93b; 0x71e3460765803a91; 0xcaf35d32b7dca33; 0x262fd0f2738cf143; 0x28f7223fc016cd48; 0x42628044bb5b741d; 0x2d0c18f20d1b57a6; 0x2c42835f9285e73b; 0xb4314d4e4dc1a5d; 0x2da710294a6f025; 0x51f03d7eeab9a9ff; 0x586a9040faf3998; 0xbc5f022670fec2c; 0x130d349aa9cee75d; 0x5ca330726b1b9508; 0x499738e7605179e8; 0x3f49748739c07b15; 0x631cb3442edb632f; 0x4eb02df2cdff4295; 0x57c627c63daeb341; 0x5c16fd9ca5ec504d; 0x43c56bbf5ff19ce7; 0x428fa33fef76ecc4; 0x59a3c3804f62acba; 0x7083b7a94408e0b8; 0x6a4e2ca9b49131a7; 0xdd84dccb46c83bb; 0x344c508a86fe93be; 0x5d2cb40869634a16; 0x412161c057005989; 0x5f219c17854adcf6; 0x1bf8bc203e9b97c3; 0x358c8405e2ed726d; 0x73e03bc5462fd256; 0x5b7403a3681e7e5b; 0x5e5e0ab803e5c394; 0x10e858b844e0cfd0; 0x652ea23d7cb9d614; 0x58a80f2c8930d70d; 0x7b06f1dbb9bfb5e; 0x6946a8f6bf3f5d9b; 0x29f1eea89ef4d011; 0x6417cc463abc4605; 0x12645e1d8289cf3a; 0x1b002c012b3ce068; 0x310a08];
   [0x77c7573eb56f61ce; 0x62417cb056c9b27; 0x1a74e59b6dafce58; 0x36bfd9b5fa06204f; 0x6d00588486c033e7; 0x138979d3cdff5726; 0x3bd12ad2116c4697; 0x3c1d3572d6f279a6; 0x591e13954d588831; 0x2b5209546611f344; 0x73cd940860c21318; 0xe9853ea7f596e80; 0x311d3375af801e9; 0x2bfaa2b7d1ec258e; 0x3475fb5d20d13e16; 0xc7091cd09b144d7; 0x754dcf6e48028c4b; 0x38411c5960ea0ce7; 0x782e76ced79bfb78; 0x751d542736969aab; 0x1705fd1ba868ab69; 0x7dac194edd050f32; 0x7455ea67caa4744b; 0x771b596f387a71c5; 0x4ebef050a9acb587; 0x175e026a0ad90410; 0xfddac9f4e499d9f; 0x652d75c10adabf9e; 0x301a4fb361ce5426; 0x13cb40bc7873c96; 0x5e2d14583ebf49af; 0x41b11e4a8a61cec1; 0x7d59769c2a69f10; 0x69444c9385d41a7; 0x23a985177177598d; 0x1877b19ee1b7092f; 0x6da492c4ee12b74f; 0x10ea7bbc874ac32a; 0x64eea6889b67c0ba; 0x332fbfc51c6f858b; 0x551cbeef0c503e28; 0x2f01abed9295c414; 0x3acd5fbbe8f69c37; 0x79211ea6ccd155bf; 0x1299de1a07e502fa; 0x7a057185bfc0d2c; 0x56963947ca720da0; 0x292d6a071e6aac69; 0xfde9fefd8ec931e; 0x19f828b1f7faef02; 0x71e41206dc8b11b3; 0x3af9a7c37b9a0b56; 0x11a37d085e91c380; 0x20967cc5931f713; 0x1c0cd630dcb5510b; 0x362451b292e658f4; 0x62199aef0002d5b5; 0x6b897539d64e3c35; 0x1c9015a8d9264cd9; 0x1ef60b118597342e; 0x39671c95e5b383a1; 0x5e677debc5673ded; 0x417bcdc28cd2ae2; 0x128191ac7130e3f6; 0x8ee1d33b8fed8aa; 0xb0955921d1e4fe; 0x1c45b32061c775cf; 0x4aa3671d3b57b742; 0x1b82d5ac5480febc; 0x5d3dcca5cad901ea; 0x1ebd0ea0097744bc; 0x3e549f1950b5eb25; 0x50211428b17dc48d; 0x47dd962bac24fec5; 0x1a1b4da9ad1298a5; 0x5a8ce1ce07e2b341; 0x50afa62e4224682b; 0x6d1deabe15d5dcc4; 0x44c5a6fbd7df378; 0x580f440ead6e0fab; 0x64e6c3a3228ce713; 0x3750a84da47c198d; 0x69bd6012bf71ae13; 0xdee0ed78e2ee806; 0xc17a560ad4cf3ca; 0x27668151164f0b6b; 0x24aa3794eea4e562; 0xc47e486fa196d8f; 0x60cc9d96af6adf96; 0xda3f0e158b8008f; 0x1b5f5e2b44cf1c0f; 0x5101be9366cde07; 0x70d7055a93b9c1cc; 0x72b0c5fba73d9a3f; 0x116af240e726cdbb; 0x70b995c61b32ea9d; 0x204913fee4d8ae32; 0x3f7e9b9a19b8ec1b; 0x118fd8dcb2a932f3; 0x22c91575c4d71da7; 0x78a0d06c619d30ab; 0x48ad5badec6d78ca; 0x4ee8f80cad2fe965; 0x5ac95e4c9964378a; 0x5bbd1c00405a0aeb; 0x6b850150a6e1306c; 0x64713dea510ec37; 0xd9a44a32f186a60; 0x1d9f93c0c676bc92; 0x42da8fc038582717; 0x2afd88012c0aa9ce; 0x9b003fcd38ffce6; 0x2c310df8733cd0fd; 0x6a4bc03d63c8377b; 0x7f02b49a76703d44; 0x534542d0c503623f; 0x14ab2aee60394be7; 0x13facde3f0cbcf01; 0x6d7433d2d04e023; 0x61b4f43a5e072071; 0x441a1e5edccf9452; 0x79f7149b51715944; 0xc8f6e0802711f8a; 0x780e6f1d4b906aaa; 0x3383157fbf0e0906; 0x718c9bd236a6643b; 0x3bcab53091fb00b6; 0x4fb7c39381c4b8e; 0x141e2f4a5b6a03cb; 0x5f5b3f151c5db9fa; 0x1c3c2ad523b152a3; 0x37b6b0c2a44284e4; 0x2c0834cf35821baa; 0x41dac39a47f420d8; 0x79306dc96678d78a; 0x7298c53bfbbbffb3; 0x33ad7432788d5f8e; 0x7bc0d60bf4d79774; 0x77df3aa52fec2e83; 0x40c002cabc4e3790; 0x5ba329be5f5aad41; 0x71558db3fd9dd2cc; 0x28fd629b2cb0e493; 0x7b3a0ee2a96e98ae; 0x53245ce954c3feb0; 0x6e77233262195d1f; 0x7893c2ea491f175e; 0x7e3e89e1c77b7b03; 0x6ce2e965a4abfada; 0x3ac8df0e11540190; 0x6f0c17d81b415e14; 0x64532693cec72012; 0x286833d5fc527f62; 0x2ef61d468f3d2fdb; 0x2c94598f5c61c7c; 0x62780e68f4a16f07; 0x26fcaf9891b9e277; 0x339a441ee248afe9; 0x3c1143e375e563d8; 0x532ca01bb1cbe7de; 0x40b78931cca0db4; 0x49ef485dcf41593; 0x37f947e895f700d1; 0x277f3b3c27313cb3; 0x680bf14319e0db53; 0x7a4dc428139ed16b; 0x10bb22c0bc6688af; 0x199cc6ce4ec018aa; 0x773023e2ec2b8bc2; 0x786f811cfd0e5164; 0x157ebc195604a6a7; 0x37c2331daa51d271; 0x1a6fcafc199973bf; 0x6c6700599e76084; 0x4144cd0849722fcd; 0x38802074a431cbae; 0x6f4e24e07f328a41; 0x3d7137015dd318cd; 0x1a875f3fc48d57cc; 0x3a3517adb8d46e71; 0x64d168e60c8678a; 0x60e40f6dfcddd4a9; 0x5cdb28e8eb0c55b6; 0x1f50a978b04a37f8; 0x3729e9628b553d26; 0x95b339de350a0ce; 0x2423431e42fb3bec; 0x4a6a3e209a55038b; 0x20ace25dcbe39fd5; 0x18a0d3cea88f330d; 0x7894a48bdb8dd70c; 0xcaf030e667180a8; 0x5a2878b194474b05; 0x4fc0f83a306a54ca; 0x4344030ca83fc5e2; 0x2e07d456f462f9ec; 0x5d89cc5bb8387df4; 0x2cbaa003668bbbab; 0x412917bc45fffb1f; 0xb1167ba32fa402a; 0x13d4cf8ac872147c; 0x431207f5a25ecbd1; 0x45bb16f9fff70480; 0x5be5006918bd604e; 0x2267f285ba129094; 0x5c855ed56f69547a; 0x333b10f264901ae6; 0x7440e63211886eea; 0x3cfd2306fa07d19a; 0x41e953c83d025286; 0x542f79728d61828; 0x75f63b1dde7ae1cc; 0x670c13864c0f1de5; 0x476db9c34ac77f65; 0x2be2fd716271c29e; 0x5697a4cd89b31b1b; 0x5f4ae8e8ae083a5b; 0x409b7f7b55c11ac6; 0x897481cf7a64a1c; 0x4b092a517f830965; 0x34ec727aee942d56; 0x4b85c80b4b3493a4; 0x3e721ecde3c31e58; 0xca9b683704e5158; 0x1ba2b12531c059ef; 0x211f72cb0ff7c6a0; 0x62bb2448e2122a60; 0x7437f282ab2e8f2a; 0x74297fac338337f0; 0x7b1248fc354137b6; 0x5f22658b0d8e7660; 0x25d8718797ce8fce; 0xd83fdf22cdfcf50; 0x64bac277426a394e; 0xf0d53dad263b13f; 0x6012d96f44773e0b; 0x2310d1b3286e22c8; 0x4524864b95ea5112; 0x372a02b1ef9e5e39; 0x130f214bfe317df4; 0x227263bb3502f05d; 0x444795bfa3d10c4b; 0x2094f49186c653ab; 0x336ddcb389d71fe; 0x3444b8c19f437a9a; 0x4a4ce44fcd877aee; 0x114c02712fba306b; 0xed4f414df1d02c; 0x8ac2b8479d4c76f; 0x3100b0db034fb3c1; 0x3455b51104a5ce74; 0x608ddde187b5e989; 0x61b379ae377d3501; 0x5debd0e46296e966; 0x7cf374222677f55a; 0x29ed3ffb7389b5cb; 0x704c31663ef085d6; 0x2571be40c5d40b37; 0x7858ecbbd28d9d8b; 0x5c42342eae88cf48; 0x78c0b3bdd658fbb2; 0x292b4539f12af79b; 0x7c50167ce0fe598c; 0x72a42238a97cb729; 0x76fde2c90ba1b5ba; 0x3940cb3300eb0f7c; 0x4b37d9373e6b62a9; 0x291be78ef8f7234b; 0x68ccdff6b567ef00; 0x3e718580573b9205; 0x505a960f5dbfa1d4; 0x151b76c80171c1ef; 0x76461a4657c2c69d; 0x20c3c114cd369098; 0x40c374338ff114b0; 0x5646d3009e8329be; 0x4017a3a2ae71dc0e; 0x6c065621e6988c94; 0x62c923e66d896b2f; 0xc49d73226f5f4ed; 0x6a979b9409b3b292; 0x34894a65f61c2675; 0x2eac109954ef132e; 0x29a2636bdb0c04c8; 0x4ca69b11a5d4b0ec; 0x161efecaa4acf7ce; 0x71b708524719ff05; 0x6f2836ea429d4f70; 0x15515bd1ca8ce638; 0x405aa5d75acb0386; 0x1702d58668790611; 0x5a0ee0eb3a94f63; 0x3199b73dc8c7ee52; 0x66f1e9b4e4f6d9a2; 0x6b90056b1f561e6d; 0x293e0c0d6f959e75; 0x6e65fdfbb60f7d3b; 0x31aaf46f4b572da; 0x771b0932fe418a2e; 0x138443161022cba2; 0x762abe8d8007de74; 0x5a921c1fed7c3f98; 0x7b7906f4c0265351; 0x1bc0eafc68e2b8ca; 0x3e786a78e1304060; 0x14628b280ccfabb4; 0x7ae2bded690d6627; 0x4b2559628cce112e; 0x205a68d809b7df40; 0x170f6d53a3d8ec95; 0x2ec76d61c238fd47; 0x593a95b5fe8e6261; 0x23135caab6eedcd4; 0x3c9d32672fb1efbf; 0x2560b0141e240a24; 0x26032f5d0fbf00bc; 0x7dfabd586bb2521d; 0x3ed6dd];
   [0x70e080b385476ecf; 0x6fa2a4ab6818a3bb; 0x52967117417628be; 0x688c68f541bd0c44; 0x75dd079c276fe69c; 0x10a577cf5a62336a; 0x275b864e6e5c4735; 0x172dbef438029bf6; 0x9b0db7de97e004b; 0x29d0d41f837ab196; 0x185f6ea6356e1d03; 0x618a5c67d78ed871; 0x7fc08f09dfd5af89; 0x64f938f34142aec0; 0x13d7f159132cd41f; 0x62e0c1d591e91131; 0x4dba921668fed7f6; 0x3c2e4d79c3943ddd; 0x1217ddcd881e1458; 0x1e14d87a8a9010b0; 0x5c7cbfcbfe070a4; 0x44ea95663f5e122e; 0x3092eae80c9bc355; 0x3f3d4a46bb4439ec; 0x648f31d6146127b8; 0x56ee7c901ec47924; 0x21d9ed616bd4217c; 0x4d1bd73f7bac3d6c; 0x10cb84891aacd5b6; 0x44de768c468c0c15; 0x36490e8bb123335; 0x1947dcfb879d9f70; 0x8eaa62e7518c89d; 0x301a7d79fc00063c; 0x3cec813fb9ed878a; 0x35d5990c80296d6e; 0x378c9ae853d469b3; 0x1757a69c89773265; 0x673c37697ca1336b; 0x370f28ddd3bb7921; 0x473671a9467dff94; 0x529587f5b6759ef6; 0x18f72387a8470fc3; 0x61fbee4b67f796f9; 0x249a39e98196a3f1; 0x24c3edde2950e45e; 0x4cab36e6605b8d73; 0x3cdd7bcc76dcfade; 0x1bbf80a17304f77c; 0x13568c622bfc586a; 0x1836e4407049104c; 0x9cbf4f3e32eaa8a; 0x440d649f28b5151e; 0x5e403fe5f6275bf0; 0x2f5ff9d8cc4e05d1; 0x51b23fdc6769961e; 0x42edddee38146fb3; 0x6c28fbe42ddcb7a4; 0x75574f42fc597aa6; 0x2eba21887bff1296; 0x4cbd6b7427365c0; 0x73bc806c64321018; 0x2a1623233aa35444; 0x4f1b0ba999378377; 0x4d15bf2ce3fe5134; 0x5405cf2ac070f137; 0x13e1cdd9acbbd539; 0x41e355b9f81fc51a; 0x502178ba98f11f08; 0x5cb613610eca84e; 0x4a099798a2f50c30; 0x60fc6b3ffe1c1931; 0x5b36fe0776a828f1; 0x3278f8f5e7ae5388; 0x2b0a29ee1286de48; 0x70d1cc89dd2612a6; 0x6e8d8c14db326643; 0x1a8421cd183efe8c; 0x53cd3512e4c4bb1a; 0x5dd6b92722743fb5; 0x5663c56c255550d5; 0x6be3251e684057ec; 0x3d7c10bbfd38701e; 0x4c96a39191202b68; 0x1dad1142138f2a98; 0x5ded94e1816b14a4; 0x410124e209053783; 0x45c6f9c0ac076366; 0x74096e6efb896855; 0x2cd2c68317fdd70; 0x4b0594b2205ee9af; 0x7c3909120158abc0; 0x548bde188fd8022a; 0x2c41c49f2def2087; 0x721881a7079d2652; 0x161e7ed6237dc84b; 0x695c1e69c868e5de; 0x2be9628fdad17d4c; 0x6e023f28ef0229b8; 0x48ce097f39c2038b; 0x558a949325bf2d90; 0x6b370360a1872ec7; 0x9b1784818881745; 0x4882acf7492dad17; 0x297011cda2ff53ce; 0x740a47d6e8bd7335; 0x11e10af21f818428; 0x790e90b7f6f4dfa; 0xc8a78dc85213abf; 0x50c6576deb814784; 0xb0e3cebc329bc5; 0x960a72f324c6e8e; 0x2cf3648e3d07dbe8; 0x6027e3d09456e5f9; 0x2ead183876c95c00; 0x1daffd8a57a69087; 0x15f0f6eaf7712f95; 0x79c48d8e4d4b1772; 0x329f3ac0524d62ff; 0x296149d9e059c836; 0x8bc7d9b789fb250; 0x4dd2d537c1a83ff8; 0x305e47ef35734ecf; 0x7d931ec5cc55e492; 0x5962be1b230f64fb; 0x6542c439a32b94e7; 0x227c874f9b112bb5; 0x56f7a23debfb47e9; 0x67aeb23e323d9168; 0x1c2569e2852dad11; 0x5edc6bc2052e5de8; 0x465050151bc0d5a9; 0x683740b8ae65eac4; 0x2ccf79c41ed36fee; 0x799c9d6b43e08276; 0x649ae46f8cf8c41b; 0x6a9a92fb338c1925; 0x5c84e2df27b219e2; 0x1321fe95d0d61b6; 0x204e10f21cc915c0; 0x5427f6bd2ac3f00e; 0x5ff99c283064b0bb; 0xf30f6619acddf2c; 0x3dee34e87f9e4c50; 0x21ff4399b08e59b0; 0xdfc8e41c8ad96b9; 0x782b99ad323c4a9d; 0x4741bcd4d97b71d6; 0x1d60ad7c61185bc8; 0xca94c6073374724; 0x3fbfacc1e39cc873; 0x63ec364732d70f63; 0x370c393dd77b5abe; 0x204f38b7952cbd0b; 0x1e2edc058ff4cd7; 0x785bacc43df262c8; 0x234810fcb5ba8427; 0x15e46a6d43a6449c; 0x2320b9fd9965cbaa; 0x6280ad2306d7d936; 0x79fb3b6084b61a2c; 0x1989209e5e3ad29b; 0x219ff60ad0e642bd; 0x88b714ec53b13af; 0xf98a0b7702b778a; 0x24201fa4be050017; 0xc9320df5c66cceb; 0x67eae91ee6585f89; 0x38109f585ed9d3ec; 0x2df62c09effcc0e6; 0x87f3ba6bde453ee; 0x23f4c67c4f7ee9db; 0x181d25067d6dfe93; 0x7968276db20985a6; 0x5a86df0371ef1ca4; 0x3e84afee09459ce1; 0x468c4dfb59a8e83c; 0x745a35656022d574; 0xa2ec74e93b7cc8f; 0x181c14a621c593a4; 0x74df7b49076ca7bd; 0x63c447bf08fab67d; 0x2588fc2e1fa08911; 0x6b5a2ba46a8e4550; 0x174bcb83e553f12; 0x155d0f7db0f9d727; 0x6653a748d9eba0fb; 0x3f64ca5eeb2ed72f; 0x58713d09c483f118; 0x1e490510ef2bda34; 0x7722089b3534fa7b; 0x47709cd108b43544; 0x200d92d376309c85; 0x14711619db437de0; 0x842f579bf51ffe6; 0x43f53840af664f41; 0x73eb3f3bbf5975fc; 0x4ae8da863a4f6b00; 0x299c85919465a151; 0x5a45e75e024b296d; 0x6ee177f8b8ae25b3; 0x1b39b8522a84a1c2; 0x40518e142b48b215; 0x6407d5a76e26b52c; 0x6fd4fc27fc3a4bfd; 0x59e630ff0820c636; 0x500d8b20f3463e7f; 0x545a4947c8237307; 0x21bad5a5ca4ffdac; 0x62211d5f4c87a5ba; 0x73fddc8ad6d0cb80; 0x17d4465e442b404; 0x5dc92c2b30b6c652; 0x481d1bb6be853eb1; 0x1239d57aee9d2a27; 0xab0dbad39a00ca5; 0x1fd98423c8c63e45; 0x241e1b0cd77ac56f; 0xa85e559fcbfaab1; 0x30085f9ecebbc2c; 0x4d8937fffbe605cd; 0x53151926d522fc41; 0x6ad1b01467a68bd5; 0x21b4514de68308b8; 0x6ae6087d8383f6ed; 0x64f3fa5f07b433b7; 0x5e5868c65f8a5bf1; 0x74b2556cee077c5b; 0x31edc6fc1314fdc2; 0x74528d64d9566168; 0xd0815c3355c0495; 0x1c839763325b7c6d; 0x76df3ef47b141b7b; 0x6dca59afb04afde1; 0x19b06841d9a89513; 0x4966d72f93f43eb2; 0x258d11f9f1ae7fb5; 0x6e00cd6701dc96d6; 0x3e3c19958a3de2f8; 0x6ca215d2b61fd5d0; 0x7aa7f29bbd26b31a; 0xf7e76575c559a5f; 0x5ec0f905f28778cd; 0x10d914a61b8a4ab4; 0x1f6a07755409ffea; 0x7e3d598658bfb65d; 0x2fc4d6053ec03e2; 0x45aea90c8043fbc1; 0x13523f7f290ef362; 0x760eb38ea76517ba; 0x682a93e8e9076d66; 0x559ba52b480e1b2f; 0xf2ff6c86a262d83; 0x7585b56bbaeec3cd; 0xafef005a22e07f9; 0x32ba80e2df039d7c; 0x3341f13f0694e404; 0x61edcc8699437716; 0x592e2937933276f2; 0x26739b3412c1d95b; 0x7b2ee29d503362fa; 0x3693673562d7c7c9; 0x56422bc49ec822de; 0x6ddc2fe1aede227b; 0x23760111b3f9785; 0x32066265f9769ce1; 0x35443e4dcd13802b; 0xa33d9d859ae05ed; 0x4f28f5f38c31805; 0x5ab4e47c20533ee9; 0x6557010564d59e8b; 0x49aaf0e5505e4ab5; 0x6539856702472bb7; 0x2e62f5535001bc76; 0x2812aa2f098414c9; 0x699350a9a99724d9; 0x69f9ae31df597a4a; 0x6ca8c657484e8f26; 0x49a2a9aa38f61550; 0x19b40b0e79602447; 0x17ded5ce7caa0a74; 0x63f468c880a62914; 0x7c3cb89ddf8d1a53; 0x53315a2a70fe5b54; 0x43d011e55846872d; 0x3746897b5df71439; 0x660b53753b00972f; 0x1d9b45640d5f01cf; 0x2fddb1bea0fa61c5; 0x3194256ccbd044b7; 0x727b451f599298b2; 0x2115ae19b473746e; 0x68e7452ba5b95769; 0x394f6013ac848d0c; 0x91da7b668154b62; 0x40276998afc89cb; 0x2b33cd8d1ba40f33; 0x638ab911b55eed48; 0x573e3b860bc41672; 0x16205a2356bdd616; 0x487e20d9763d7a52; 0x1fb63e87c6f4324a; 0x7a291dfbfc24b7db; 0x5566a9d06279c55f; 0x30d054dec478f36d; 0x2be7d84d7b3a312c; 0x1220fbe35221504f; 0x7382ae7c72f2fd2f; 0x7f8d2c4a7e252b2c; 0x5591f4425b1e0623; 0x28a827401464e34; 0x3b9444acdac05f20; 0x31c982daebd051ab; 0x4ca00745480a5c78; 0xa383c9df0f27369; 0x77fb32cdee14f92e; 0x2ad5f6166ff98934; 0x3649d4];
   [0xfcbb7047c944e9a; 0x64dbb907524b94e2; 0x62541fd96213ec5; 0x8d3f28651834b66; 0x4c0344825e340119; 0x4744735f5334d1bd; 0xb9efd4894eb434b; 0x636604b3dc91802d; 0x148ef9eea646d5a6; 0x60427fc50f2147a6; 0x736b03fc0e1ecb63; 0x14a82b4ad1d02e04; 0x6f8c581a2eba740; 0x77f7257067fd22a8; 0x19c427e513513568; 0xf0d1f5055135660; 0x28edb0541e4d1e84; 0x76dacbb4a37106bc; 0x6931163a65146fb5; 0x2be7976b9f5ad4bc; 0x1195f1a129fd5bdc; 0x6532aa6a5e710f49; 0x49369d98bbfbe861; 0x2973f1a2554d32af; 0x26c3c4e8d9cadad2; 0x2834f2a4d34dce30; 0x1f12a3c5102e3a6b; 0xf742aaa4743d78d; 0x158a27dac615cabc; 0xb3ce936a78dc3c8; 0x52a160c795b7190b; 0x7a6e3b1247703d71; 0x4b46574d5981bb65; 0x26a9a83f3e2a93eb; 0x4a48e679d0f6a1fe; 0x40dc953875bfa5ef; 0x4900e382ed7d88f1; 0x482bd965035722f4; 0x613c1bcace0fef5f; 0x19ae2ed5caebe9e6; 0xf9d3f0ce7005814; 0x3db5067d95792f12; 0x4fb3becdbb85b07f; 0xd7d391324594775; 0x5b7a31f93d69d68; 0x4e3929b91680fba5; 0x75213c0e46e9f7dd; 0x5535c3ac0c17bd53; 0x2615499c8e05de2; 0x4b193cf39bef491d; 0x605f2a37180bd381; 0xb659dcc19d3fda4; 0x2ee4db3ef39f9ee5; 0x745210657f69f2e4; 0x219260bf7611a924; 0x6f4f95a2c17b3080; 0x77e67484453c3a96; 0x5eae297019567b23; 0x63ef5badafae30e6; 0x37b801a1f2a8345e; 0x7516ec64f2a28f63; 0x28242a9b2bfcfa5d; 0x32eb8811a229381; 0x3d35ca339ea58153; 0x1c80f138606ec261; 0x4b71d2f64d5e2a62; 0xf83e47a81425772; 0x1c6f7ca51cc8d6f4; 0x3f61ad1bdb53816f; 0x1ad9b34cff546050; 0x396e499598a54001; 0x4b32f874c288d583; 0x272bdcb014dd45fd; 0x58e7cd0fb457d773; 0x820b0700c53816; 0x4f67462a11020d0e; 0x488f6c680694f6f4; 0xb31bac4fd1edfc4; 0x2c1a6eeb189307d8; 0x21831a65a46836e9; 0x36042e5156dd9ab2; 0x1ce93ec11a9d273f; 0x1658bfac8103c3e5; 0x60cd1b4de180c942; 0x55522f4379fc4fcd; 0x775501f43b186ebe; 0x2764692c5d90c2b4; 0x5bd0b9f36a4f15f2; 0x3a169c9d10abb109; 0x478ff51d6629244f; 0x1cd022de621d635; 0x22bc56a13a829f15; 0x5370a5fc36a8498b; 0x6c00a5581e626872; 0x16eae6eb293e4095; 0x36cb3de431479549; 0x4b9e5aed54f19393; 0xef1dfbaef3dd836; 0x1ea545952a2e6be6; 0x5ba1c49988f0fdca; 0x4856e653ddbe05ff; 0x3251ee5f37fe11f0; 0x373e38eaf58d3a2a; 0x15bb6da37346ad1a; 0x42a21b24ce0d1ebd; 0x48fa987ad04ea1c7; 0x38c7e7dc9a443842; 0x1f1a992e93ea4282; 0x4be91450464b35a5; 0x6011891c849f9aa5; 0x411df0278ff05f15; 0x1fb7a218a972cadf; 0x344b245347649b80; 0x4272fcdabea1768; 0x4245ead2221b78c5; 0x43a7b51a60356211; 0x54611de514391258; 0x13f950e8d29f75c9; 0x47473597e77ee3f5; 0x103d8f2c0d271499; 0x4135fc40c457a317; 0x400745718d173c8d; 0x635a848f246e25b4; 0x2e3ae7df4b41b2de; 0x77cfb829f8a334dc; 0x77e75db1e2e5bb80; 0x4013aeb669be17d; 0x63420dd775dc4c84; 0x7b4a7af7517afae9; 0x7d4bf4591b154919; 0x405f8fdbfa9bd17; 0x15ac27b99410a0da; 0x18e48265e1188de0; 0x5bb165117351d01e; 0x17bdb2a6ce9b2c22; 0xeccfd32c16aa1bc; 0xaeed2924d84969a; 0x484bd2ae8ff9780e; 0x36718ff40ee911cc; 0x5c07b26360207e7a; 0x3317844012fe781b; 0xd11fbfb956deb33; 0x7b991da42e545e8f; 0x1cb40a6dc43e4cc7; 0x721ec2aa7245094d; 0x22d4b953618937c; 0x62789973c1519fda; 0x6dad04d164a0fd50; 0x6c4a35a2c4dc1e65; 0x2041336ca07b0bc7; 0x57bfa8b84e985bbe; 0x5b40ab979ba4be26; 0x6b31bdae4e78d045; 0x50254168eb665329; 0x452c383c8de1b89c; 0x78a0d56a72ce7e1d; 0x23ee5cc5a8db3713; 0x22fe81948da867bc; 0x55d44b90abb5860d; 0x1243019110198b7c; 0x52cb82115a570fc4; 0x60a13a274c9f81a4; 0x4202242ec8991a81; 0x190fb4cbb9212d38; 0x31a4469137a9f82e; 0x56ff8175d755ba83; 0x50ac3492c43a156b; 0x643e453238224d4a; 0x1bb19ce2f7d9d511; 0x279ad0e5eacac603; 0x1ff7490c9f6c916; 0x28c1194da68238; 0x31be1345e192390b; 0x193aa7d65bc58445; 0x6f5537603b63657e; 0x577af78d1140448a; 0x71eab8d0172da096; 0x32d01414ef0a0977; 0x18cd58473091549f; 0x57582037a524cd3f; 0x115b23a0a00f8ed6; 0x5724b453c42e855b; 0x28423919d9693bb; 0x5740d274e5a099c7; 0x320f9c4062ce6aec; 0x78d18d1f0d777c37; 0x4c581e482ef9cd70; 0x29ccb578f65b6eba; 0x7d81c2594c60c227; 0x5229d316b842a17e; 0x7a422f2c865dfb43; 0x3e74099cc62aaa65; 0x22b285544bb284cd; 0x6c0bf17a29c72771; 0x71aa6ad8749293bf; 0x52fad3053beae828; 0x3a601fe0c1f12974; 0x55c7b76345fc984a; 0x5464ce5960ee5101; 0x45fccb9ed792bc7b; 0x6dbfcbc5e24ef7; 0x66c27ae00f159efa; 0x4d253b411763997c; 0x3e5d0d9bccb435f3; 0x56f18c6d7330e525; 0x4cc6767b08b96586; 0x70ef833dcef93f3f; 0x7ff47b43221b77d6; 0xe371f8eb2dc5539; 0x79fd4da61b8fe879; 0x21dde2ef210c5fa3; 0xd2d7e96e9c3abd3; 0x7ff0d9aefa119004; 0xfc8dc3ef6259b81; 0x5eca8210fb73d655; 0x3d516c02461d4053; 0x2a44fdef51d3570d; 0x2178d8f442eeae12; 0x2f6a7986f92c0a73; 0x2fca943ef0f9ad97; 0x693ed9b5411c000d; 0x301dc5d4d4fb48ed; 0x3cf311144d0e2263; 0x5c79e5d117242306; 0x672e9ed8144a8011; 0x3b4f79639186b2c5; 0x71ee262afc967161; 0x3d059a8f4c89887c; 0x6503ff99bd8e6c6d; 0x210c04e50c4ac795; 0x1b0cff7ac6ea07eb; 0x5bab4654b587f458; 0x1a16f376f79a77f2; 0x217d1c2099481704; 0x58dd688dd31c8315; 0x6bde8850a0d6df9a; 0x1dec97955b74a340; 0x34000350449bcef8; 0x381a85ebc74ac8f; 0x78d11dc6475f4f36; 0x49f5f89ca0772ce7; 0x4acf0d71b36d5411; 0x65a639b75e6f9b13; 0x686c640388c0e93f; 0x256aa6954debd0d7; 0x6c79efa651f2f2fc; 0x5db0947dc2520c83; 0x4a5d75e958f2b07a; 0x34b7f3e488efb329; 0x23f52e28f291a602; 0x189fe680e70075fb; 0x3811b5ae388e50f6; 0x2fd1095304796056; 0x513820e973f430a4; 0x45e29eeea50161e3; 0x5983084ae3510470; 0x633824abde450b92; 0x5fc3824452dadde2; 0x3340c8013963522e; 0x4d6ebb5d5ae8aba5; 0x63a11bd35025b465; 0x37f95809954027b0; 0x2bcfd380b57f4671; 0x7569d1423e3199d5; 0x63a77658d1114bc1; 0x2445f3e256fa0429; 0xa70b9954db1e45f; 0x1595f0cfc8c803dd; 0x2366bf216f1cbd92; 0x758d4c63ed3d44a7; 0x164a47001bf423fa; 0x7c84728a96bf6011; 0x52f8db00990b0f28; 0x2cb9f1f799d536b; 0x56df70bafeaa10ce; 0x449e9b4241ab3dd0; 0x7833f85e1cf64080; 0x514c62a51b21abb0; 0x3ea49dbb0277c143; 0x5c46eefb5de2b62; 0x2aca8dd63e9bbf0a; 0x1655ca745de753e4; 0xac3f317e229cceb; 0x214a28c5e6d6a540; 0x5f7dc6a9ccdce98c; 0x5467662bb59b406f; 0x36f186865b7f49d3; 0xea126521c26d5fc; 0x558fb448c6325d70; 0x400b90844248c1ed; 0x235721c4e390f881; 0x1b97af07542253b2; 0x6cdfcdc11a37d55b; 0x576529c594dc7238; 0x2209a0aaf6978b6c; 0x49828ac27a0e1e68; 0x3e74bf41e2ca0699; 0x2d897f5f5fa57c82; 0x580f6c6b0a6078ac; 0x72aeab7f22ddcbfa; 0x425a78694d6af254; 0x49012e9be81246ba; 0x1b9ebf4dbd606a94; 0x38ab34bb34efb453; 0x6b1960d9a63f24c9; 0x3898a4904d825f4a; 0x21331a3c68d61fd8; 0x238532d97d833e0; 0x18511447ec27511c; 0xeb2187d0ab4aa84; 0x84ace74ad25141c; 0x4821258fe332180; 0x259c6a3940e1ab2d; 0x18bd032393dd5583; 0x47ff2f09dd5af598; 0x7ee6747ba9b3526d; 0xa2d306c7b7bd218; 0xfdab5];
   [0x34c1ad73ad612a3d; 0x6368c190e86c47e4; 0x56df70651f9b0546; 0x19da8ec466c88e99; 0x7dfbf9432d4dcc08; 0x2d0b6f26b3eae9cb; 0x3c741e8aec952598; 0x7d9f6f5719598d48; 0x582f4fc2d5939061; 0x1710b4ae35d272ca; 0x6e6d906789df62db; 0x35e4d717f88ec8f3; 0x5e1c6c541a3d59e9; 0x7e15128e222dd9c3; 0x7dd1756e8c6726d9; 0x5a4c5d6f01f55ba2; 0xd4e109bf49aa09e; 0x647870c66a97d570; 0x435d4aaf4fa4789; 0x27f416558d3ad6c3; 0x6b4c2bfb95418283; 0x495836d0fa14d6c1; 0x5b91494ce65dcf9e; 0x2b522c4e44212944; 0x74b10ae0f68ce2f; 0x29e801353f068659; 0x790ff021ee68a732; 0x3182580cefb4c6f6; 0x1a556bcd37f76d3b; 0x5b85e58f7b85eedf; 0x77969e931bfd94a3; 0x23c9dddfc57cc37e; 0x6ba035bdefb19ea9; 0x7ec06544f0b0b6ac; 0x4506010c59a72dde; 0x755857eb01fc4212; 0x3f14fa906b7cec0e; 0x1b105a8dd4bdad02; 0x1fd8c9984a08bad2; 0x3b360f1b54acbb23; 0x4f02039f9644fbb2; 0x3743c98bca237be1; 0x375a956d796e64e5; 0x32c08cc6cacd8215; 0x57530567a530af37; 0x2cf1b6ae8c61b48f; 0x23e6e1ee37a8b9f0; 0x6be0ef89cb3dc98f; 0x52ff8d93a5ef9695; 0x33045d177dfb3109; 0x417ed853120d4254; 0x760ae2f871e6e35f; 0x411d1cb1cd258e78; 0x1abb80c407fb7fba; 0x4ffdbb3f8c2e765e; 0x3236b2ac36e124a9; 0x1ce70c7ae265d481; 0x59047ed5659644e4; 0x293666283e91d8b4; 0x6623ea1e55a68341; 0x34ac8d58d1d08452; 0x1bab493331bd25c1; 0x159ed12f3a76abbe; 0x2e8692c42e25b39f; 0x62aaec385ea7c6a9; 0x4ee918be4d915e7e; 0x4a4cd85075df90e6; 0x7472fea0046a44db; 0x612bc4dd92c685f9; 0x7a50fa3c6b7026ab; 0x3ac8708533339bf8; 0x68f3e901a93917d2; 0x5cbf7656f689e727; 0x6467badec7890b98; 0x7bc204398c35fb04; 0x6def780ab0dcd63d; 0x4835012583c713bf; 0x4280afe6831fab94; 0x1287a974ef6b7fa0; 0x4866b33f4d31489b; 0x72763adb076e26f5; 0x3a6a8f65b9bd5aed; 0xa3d98591d2bac5a; 0x6596f06e01281c81; 0x4c134f8fbd6a8e8d; 0x5c94200d3872a563; 0x7ba892a3e6f4fcf9; 0x290cf4e231eb28eb; 0x67b2b4ee6d9e063e; 0x25ff17d9b150a7d6; 0x4543e591a6871f66; 0x1850d2fc57d957b; 0x56a41e9d6678e654; 0x152eb13b89d1bab; 0x19de324de7c6fad8; 0x3b75be3d0dfd8cc6; 0x2ee4c948f3c699f3; 0x1c479c715febb561; 0x38b2cf4361212d61; 0x689e22e833beff89; 0x314449c58d2dac7e; 0x1ee93f240851387d; 0x312a6bbc5eeffa08; 0x7a92423fea72013b; 0x74fa950337192ae2; 0x5da97b5a8fdb7db6; 0x1f5cd95db733a0ce; 0x61daab31aa3a396f; 0x48a7c12da99d5842; 0x5594e19cb54ca982; 0x1d6535c5a712da15; 0x65e06cf8ab7dd900; 0xdd4ff303ea89ee; 0x2a8a49535186f7af; 0x547f65423a073a18; 0x696a95ef0856ff81; 0x27f2f1956ec2095a; 0x5160ddfb94a721b7; 0x64ae6ae6d6025e02; 0x6d793e3041e34cbb; 0x39d8fc91073a5662; 0x1e79be0ca9a7dac5; 0x10c06b2b6dfad189; 0x66696c204607dfb1; 0x1ce8f9c244415acf; 0x64e92585f4ee0fe; 0x56f3c5f2a4c9b51b; 0x534f68759ecf90c1; 0x49ea80de511ade38; 0x14683739471333fa; 0x3b484c832598068c; 0x4ee8203523edcce9; 0x6cdfff49eafb55bf; 0x4d7eb8608e265ea8; 0x759af415e537d4eb; 0x3a1ab7077e7bdbf1; 0x388a13fc5c7f3343; 0x6793cd3b9eda854f; 0x33655538063bc4d8; 0x1c5a29cd3adaa838; 0x42afc125f2afe40d; 0x1c88d13791ea1528; 0x5440317a18bdd955; 0x6174e7415d74605f; 0x519b1cd33146ab05; 0x3ca069153b4483e0; 0x2b2d9d90709c766c; 0x10472fd0a318b2b0; 0x2840289a94aa9be6; 0x79691647ddf7b2a; 0x2c49eaf3ec87ecb3; 0x455bbb7164d46820; 0x7cc7c6052b77d4c1; 0x61e2ef2441324d09; 0x31fd165f98b361d; 0x2debc64821ffb47e; 0x7dec6b94f8871151; 0x249cb6649dc225c; 0x5271cbf2e93dc626; 0x446048066ae52232; 0x7df4bc9bc4ce9984; 0x572d8022ab704cfe; 0x46acb24982b9146e; 0x33c667c1aa9800eb; 0x17d818a06140eb98; 0x2d35146a3b0fba35; 0x3a28480efb39323e; 0x39cb0f885e0f1a90; 0x755d3580ecd5f5d6; 0x1659a40ccf03a267; 0xb8ee984a581e07f; 0x1c37c23c4b5d75af; 0x61df27f4ed6da6aa; 0x4095466806fbd46; 0x6e0a7876e47bb8c9; 0x51d20c87a6010694; 0x4a5cf0e5c19b16d6; 0x5cf89ef4cf3f7994; 0x4e20dc22e084c008; 0x5d0ff62b34689997; 0x339d20e780051d48; 0x5c591d5678a0375e; 0x13d131842417568; 0x6b3cead10d6db8b4; 0x505700cd65df6d7f; 0x6da732c25dd5b13b; 0x5fb64630dd779cbc; 0x443b8a0b0c266dae; 0x17f1c6440b53942f; 0x5a17e54522f70311; 0x70de27c51e104dee; 0xbbeeea858261465; 0x1816303cce628314; 0x4989be52c1c795aa; 0xc5fe39f8d1ab6f5; 0x74e4ffa482043388; 0x2e7944ffdaff3111; 0xfbab788563ef57c; 0x4db4d3c83ba5438e; 0x2137c556a5873079; 0x780185b3cbf089fe; 0x6b3b522ea8a704d0; 0x66067d316bd4e810; 0x5157d088240d9458; 0x5111fad141f78448; 0x6008a5b7cc4bb28c; 0x420cecbcb8c946d7; 0x1d047b1de1fd701d; 0x7ef72487afbae86; 0x3fa94c0fffd7c231; 0x61354b2b5aba8b55; 0xb10a7b4e1011c15; 0x22d618d80f5781b4; 0x31b2ca32fc4ab06f; 0x45d5fcd27d1f2c7c; 0x6f8f62df0ffc57ad; 0x22aac248953d6869; 0x1f042bc8cb7d1eac; 0x2e9a79b658a933fe; 0x428f18425ca006a8; 0x5abf86701748cecb; 0x16b45fce88a841bc; 0x57f0431be3464f0a; 0x1804d683bb350ae3; 0x5c164e0a5c0b4518; 0x76894f13239fe30b; 0x7ecc733cd27920c8; 0x165007c123496bb7; 0x1172ce01d6d8dc7b; 0x20867ec39cba2506; 0xb7770df106216ab; 0x7a6052a2762510f3; 0x77cad8b72523fd9; 0x1f5b7310ae3190ef; 0x1bab1ce57f01bd0f; 0x249ce9cdb7a57f4b; 0x24fa1797e69efd1; 0x793d2d6af21ac9e0; 0x26e6d5abb6b23e5b; 0xb29e2b7be9b8038; 0x19d5ceb2fd18a3ea; 0x696e7c4673a35a45; 0x1caaea9867e0c765; 0x62f4c6e6c5af04e4; 0x255383f3ae7606c6; 0xe3c621364d2795; 0x2a8720d7ef34b02b; 0x1f3a51d78b62c1fd; 0x750556010073d1b2; 0x307216e06ae77b47; 0x41d7a7aba53e4b8b; 0x701d1cf38407634b; 0x3b3f2db2519d33ab; 0x7d91075db567bbb3; 0x4f1e695891828cd9; 0x58fce58947a4cf36; 0x5187ac3a3a682823; 0x1968940b16309b67; 0x5d6a9ee02e2024bc; 0x4dbad01fcc3c7e82; 0x6b766bc99db7c43c; 0x4316e29c10b3bd77; 0x4cd1a852f9c552bd; 0x3f76691cfe9908cb; 0x7577de24d52539b4; 0x25f12d91403027f6; 0x31a694e7af00ac3b; 0xf907ce179fb75d; 0x3c81880d367a4ddc; 0x559f151f5301f0f7; 0x7d58922489808dc1; 0x1ca37704eed8b2ff; 0x2668243f3c41a49e; 0x7f3f62c3b8ceb63c; 0x686806492c518790; 0x6027ae07369061b; 0x6173fe86fb0e3035; 0x53574bf130fc84fe; 0x2303b71b3193030; 0x46bb340f4cd9170c; 0x304ece159e883569; 0x35c65b60f9ca2fe; 0x7c662ade92ec3b33; 0x1a427e0dbac32a87; 0x697d85a208b88867; 0x644a0ac39d8fdf53; 0xd92b50f823c438c; 0x65b1a4382ae99b8f; 0x6e96e443e6583c6; 0x71bb50e20657c10c; 0x31525b6d1f536662; 0x1bf843f7d0fc1b38; 0x17bc87442dc462a4; 0x2e67626e03ee49c; 0x1d3d08a0f829ff8a; 0x42be94ac4661dd4c; 0x504d4e8ed5175b05; 0x7a973fcefa71e68; 0xc90836c0dd77faa; 0x2ec01912874e4006; 0xc29547703ad33cb; 0x48ef73722aead881; 0x10873aaad54dd9ce; 0x11d79d800f839238; 0x6accf68bf397e16; 0x77780beeed302337; 0xbbb37b03ded70e2; 0x6609219f7bdcfe3; 0x4e0a4ee10d3a9664; 0x1c0da8ce1ab09951; 0x4e32b968824b52be; 0x61819ab4f7edffee; 0x96e8eae691b5c63; 0x3fdde816d1b29be3; 0x42d0ad96f83f0751; 0x3fe32799d7978f2a; 0x75690b9fcdfa470d; 0x1f919];
   [0x7d6ac05676d90cd9; 0x5c5733fc77efb9; 0x27c15a234fa4352a; 0x2ab4ef6446e782ef; 0x706ae57227c0bd63; 0x3e22980239777b43; 0x4e86677f52659d0c; 0x5afcf4c71a78d8cf; 0x6b0829e4a64c587b; 0xb8a1be94e326e44; 0x13901b35bdc1f121; 0x3b58054e8264a709; 0x4a1e51c21ead414e; 0x75f51d2b24e543ec; 0x7cdfe784d5b71bb3; 0x6e78585a80f2b57e; 0x1bfaf68a33f0e665; 0x9c90c6864e61838; 0x61bcd17c10bfab9a; 0x6b3965051647fca1; 0x2552787e69b55657; 0x7d3c0e89e56e0050; 0x6c5f2e0f1fe88ee1; 0xb61126fee8ec917; 0x2f53ee112a06a1da; 0x69caf24ca9072a27; 0xf78baac7ccd4d09; 0x265c07a1eaa35495; 0x46dbc6e0dd5acc8; 0x3e5b3f631b9239d0; 0x13b33b11d37f5a38; 0x63ff299358937676; 0x8c64dbb9ec78790; 0x7acfa4043c8caf80; 0x1b78e17deb8e8d77; 0x4a7257a787fb1772; 0x200424eedbc9c0f5; 0xf1deba0d9a678b4; 0x6def820f1f25900e; 0x431c7760e2ffc5c2; 0x5e5ae9225b4f97cc; 0x1e307e8ae5c9aac1; 0x7c0e3bb369b2b04f; 0x73a7796d21ddbd18; 0x659a7840db7ee4f; 0x60edfdd3b8f0eaab; 0x37c2776e7d807794; 0x3679778a3f6112ed; 0x4e7d0f500a1bb31f; 0x19f496c77dc9e5f2; 0x66c6a8f6d9079214; 0x10c13f750108f5c5; 0x736dba16234c2ed6; 0xc23b8d66ea9655f; 0x1cd55154d8adfcdc; 0x164bf69a9693900c; 0x5c20dcd00344fbca; 0x17c3f7db8d08d4cb; 0x5a85da190afe286b; 0x373e1516318b1bf4; 0x148683b57f0b25a7; 0x462ba6443e4460d6; 0x5ffbdd7e676885e3; 0x6b97d1bedc812829; 0x64aae19704d293ca; 0x61d245c6de79cac3; 0x4d7d0b36258dd6da; 0x1f1984b49cd2577c; 0x27f8a465c6e8bdb0; 0x1661328a32fc177e; 0x5c9e65c792e77dc7; 0x29d719ad186f9b1b; 0x3b334182e6d309ee; 0x209e85dca21961c0; 0x2fe2461c5684d264; 0x19b78c4ba8f6ee9e; 0x40f631da926b9263; 0x147e86f7f0443f6d; 0x77e83cd75ee59ed9; 0x5a909087df8ceaec; 0x524c0fa42457139f; 0x3ebd8289bd240845; 0x8a45f7fe7121c8b; 0x1d7ac97d28e3e333; 0x776f92e480424d35; 0x6295f3dffcf19cc1; 0x24a59e502333321c; 0x773815ef18e3e55; 0x659537d7a6fd90ea; 0x2db310d607d0f02; 0x24a6fa63f2e390da; 0x3ae775d060cb9a57; 0x59616f3f706aec7f; 0x2e87bd523a24003d; 0x550f3c21e6ecc426; 0x38a1f7ff2f66e8a1; 0x7b30079996d37a48; 0xd9563d8e7e4fce5; 0x2ece2e12e598e78; 0x4747a510830a88d9; 0x4f28714b1cb7e1e; 0x69912d5ed7cbae79; 0x5439cef16195db32; 0x3a3aa24b48381d1c; 0x4013712a5733280; 0x26f259644d7d9585; 0x6aeb656ce17b3758; 0x7533080b1cb61048; 0x219fd76e08a4524a; 0x195962f68734c173; 0x8cfde26af57bfdd; 0x353f042ecf9b3df3; 0x5a93d79fbf70c94e; 0x1f072c0c8632173d; 0x20a9a47d8b3d43d5; 0x35e8fae0646ba6d4; 0x708624b283d53581; 0x1ccc5c881f9b72ad; 0x5238fe29f3683fbf; 0x37cd219ab7392711; 0x366648aad663e8c4; 0x3db1f28f2de4bb41; 0x24b311b61625f6b6; 0xfe08144feb457a0; 0x75a24027f1a755e4; 0x52f188a1b19fb0d1; 0xba36dabced0654b; 0x395f44014fd446db; 0x7b8fa8590751c317; 0x66a473fdf86009d0; 0x70be3e3233f24a01; 0x4f4570e21fb76d3a; 0x1f4452a9b77773ab; 0x1d212b68ed87ef19; 0x677f243662245c30; 0x61f9bd2055319f50; 0x4790f629132ff21e; 0x3c79ea09baac5a78; 0x79f1d962ae505446; 0x715596973872adaa; 0x1c1d636b87c15ce6; 0x1c0e1531ef35a5e6; 0x735415091a6dc352; 0x30bfb824fbb9b1c1; 0x41e87f9ff48847bc; 0x13afc36c64b9d646; 0x3c5dce28d27ce2a9; 0x6b4735148773d51c; 0xa5df10519c3d01f; 0xcc15ceadadf54b9; 0x40297382e246d87d; 0xf41cf500a23da4; 0x271c389a1a40db95; 0xfbda03a14325a1d; 0x6e9e6cbbf7416165; 0x614659e2d2aefa0; 0x3d4e9743c4a81ab; 0xb2324aedeea962e; 0x70e45a06a8150541; 0x5b973bd67fbeb95d; 0x68c79e648cfb948c; 0x448c770e8023619d; 0x717b346c49eb4675; 0x5ddc8c34bde946fc; 0x6198a9e1a2c0945a; 0x317105d0897d2820; 0x4a40dbe76a34ff02; 0x45eaa2dd100477c1; 0x779aed379324ed2; 0x3b7a805a100b8330; 0x1b8c855c23fc6f22; 0x41b9ef1cb7ccfd8f; 0x2105ca7c48a3c6d8; 0x53e900f19ccfeaa8; 0x27c3cd9daacbd994; 0x39635300affecdd8; 0x436190ac129aed08; 0x6cde71a662f76b97; 0x4456ed3e0964e37f; 0x429681ac7d7de454; 0x147cf89324cb02cd; 0x79ca1285e5e2b921; 0x3c646e471579cda9; 0x3ba90d15a82bbe30; 0x1b40b628063959e8; 0x5504792f9566ed58; 0x54ac34e06996b074; 0x3f62fa2445906299; 0x50a7a40bc5eed7d5; 0x5a623d5e25a804b0; 0x34b2f007830b6c9d; 0x686a4dafd0765dd8; 0x2252576940e066d5; 0x28fb1d84ef5758b7; 0x9a4dfb62b46dbed; 0x47768c17b44496c5; 0x783b3d3ed74ffd4f; 0x248de61c7ba373e8; 0x4a8730ead8665c9f; 0x3cbc5ff33e78e7dc; 0x71708842f6652e2e; 0x1274515605fa108e; 0x2b5a63e847bc12d; 0x62f7ee1cdb2c7b96; 0x1f06af04e16d02e; 0x46fe5abc130bd402; 0x826f470c7aa11dc; 0x25aed29eb1b11a31; 0x44453c2fcd3e97bf; 0x7d8d6f16ceaf53cc; 0x26912cbd64662fe3; 0xb4517482a444052; 0x181e5394245516c; 0x29f733c6432386ae; 0x210e133ac8e8955; 0x640478bfbbb0eed6; 0x7a045aed0e59b10c; 0x4234a3c2e57ddb6b; 0x673a411a8393031c; 0x67b77a2c2f31c667; 0x6b8d6c6150c0bedc; 0x301cf25ffa45a63b; 0x4df3da9698b688f; 0x9187a6c9939a1ea; 0x18e88dedc7afda98; 0x4bf77ffa8a401483; 0xbc642a57961628a; 0x61d70fe3b4972ec6; 0x7a9a23b5d78e8534; 0xafa59763d624650; 0x3b26117817761ec; 0x1bf7e9a31a31dee1; 0x1c1e2037366e92e; 0x3464e4af249091a9; 0x7f7f6a0dbeec9cb8; 0x1f3c92d8e1fe2149; 0x63352ea5a401d019; 0x5aee1202a7e0b8c4; 0x439f713e51c6bdb9; 0x2ab125da440007f0; 0x45d81f151f911419; 0x594547e43a0bcd82; 0x21d2ba254c5c8c21; 0x1bc39650af307831; 0x542146b94fc60c7f; 0x294e90be6f98487a; 0x58a1c0a038a47ee0; 0xc9bba9e1077babc; 0x790d5298097bfab3; 0x27efa29936928f88; 0x61ea22c28acb09b2; 0x41937065f510d07b; 0x43602ddcb8ecc44e; 0x666b9671ef37d05e; 0x35bee2da2b18ff70; 0x959b5fde8e21a7c; 0x4190b555ee5d37ec; 0x6a1580d02b57b368; 0x64080d5e9d642970; 0x3d741e03c554e03c; 0x672a7749ad815a82; 0x6ff4fac3d2bd90d8; 0x61628ae93c002968; 0x6905f634f594e90d; 0x5f1b243d1a456063; 0x272c0a46ed3f8d64; 0x38c4558fa1da795; 0x38385bc69ba36db7; 0xdf9bb76b84418e6; 0x37d15a0cca6a7486; 0x4fb78a217fad2985; 0x41e7daf44e7998a6; 0x26eaf7fa834b661; 0x2081c42e7e8d8632; 0x59d143fe57199b46; 0x56df64bd68a00c5c; 0x3c6cecc14a39d63f; 0x1c7409a37c8576dc; 0x341a6300d5304fdd; 0x32f51e5bcf9c5d21; 0x6a7bfd2e8c26460d; 0x6c7ac40a0b1f4f80; 0x2d656ee02d8d62bf; 0x4aa7aec45ad85375; 0x3b0991e618841c6f; 0x4b1be813acc22c8e; 0x999e3c826ba2dd7; 0x6456843b717e96ee; 0x5bb0b37729639893; 0x11acb5846cff32d1; 0x33648607bffee033; 0x7fb01762001b3cc9; 0x2811acd0c7efbb2f; 0x440bac95f908d0bf; 0x73ccf13ffcdc7489; 0x47628911f4947964; 0x6ef2af5b961852e7; 0xddeab628aa4a28f; 0x7e48f11701511e6f; 0x371c19e7ea8ab9fa; 0x15e5896bffabf7d; 0x382b3c6e90ce3396; 0x472fe5f9c7445788; 0x27be3d6fd676127d; 0x6f4fe42ceeb9c603; 0x7a7a6ee9ee21d280; 0x46dfd70a4f2681b2; 0x39983aa6722ed068; 0x4cb6a7e9d2ba1b1e; 0x3b9a80c249204696; 0x790feed819a868d1; 0x2b746e3ed9f4be8; 0x7dbaae8bc1b41c4e; 0x2c62b571c75757ff; 0x90707ad85130aa; 0x3df2fc95e8d239e2; 0x2f2eca4fd2650069; 0xe2d84];
   [0xb4fc2b074fd81e; 0x26c80c86e0ecd882; 0xc2ebaa9c6ff7a82; 0x79d2787eebe94a37; 0x1639d8386ecf845b; 0x17728292b9c90b01; 0x5deef015335f1188; 0x39cec9fcefdb49ab; 0x6e52abf1731b6583; 0xa32fe363bf65d90; 0x3c3f3945785d84ec; 0x1ff642ac1791a00a; 0x4a1450e2f0c80812; 0xac31487ff185989; 0x14669201ed565e06; 0x16179d5b85abc401; 0x254eee749a50326f; 0x323084d961663d25; 0x15a1a99e47033c91; 0x5c50800aa9e5c11e; 0x66f41d41761471e; 0x4b897da2f24ba1e9; 0x6e15fb2ff1414f5f; 0x70b290642cbfd79; 0x49d00347acf4694b; 0x3c390f7782932c4; 0x376abe4dfc918c5c; 0xbea3802eb419961; 0x1f626a172d26e141; 0x569fe5b01c568a20; 0x41665a88b05cbdc9; 0x5a51d4e6f66c786; 0x3fbe0d5f6581fd9e; 0x1e21ead909187d2c; 0x1209e4fca0af2b59; 0x8186a003b12413a; 0x534f430396ed118f; 0x46b1239dc4391e63; 0xcd883101fef195e; 0xdd4653d14e5d4df; 0x14ddab52886b21ea; 0xa78b71ad1b35b1b; 0x3d01464815b60419; 0x55ff4a5d91fec13c; 0x2973c640906271ff; 0x73deb1a230e24297; 0xbdc5610ce1a040c; 0x2ef68931d2da8ac2; 0x632dd5d38c94462d; 0x68065390e86f5938; 0x4e361b215318058e; 0x50ad299bf7584e9e; 0x4105c68ec9d63ce4; 0x201740af89e15254; 0x5ed9cfa268acd31a; 0x7cb3b6f5345d795d; 0x90da7806b7423d5; 0x7fd3acdb63a60d44; 0xaaa4f771178708d; 0x2d1d8599decd20; 0x6eb8b41d6ac2d67d; 0x72eff8112b7cc1ac; 0x75038d3c14c9be5a; 0x251fc2af8f0c5e64; 0x10dd3ef0e9c0f584; 0x51dd71cf648e09e1; 0x490411f7eceef464; 0x3417acf41bc54caa; 0x79e06afcdf789c7c; 0x6f877b32e72753b1; 0x262f84e5bd108551; 0x6f17e8654bc01ddb; 0x430d06f10ccd6eb6; 0x252e2935b34d28e1; 0x134b87919c7d0457; 0x7a073f38c5c1d6d7; 0x4136ca50f491e884; 0x7a87df626f5e980d; 0x2f2d77cf51170848; 0x5a3a2852bf4f32ef; 0x15e97117de4ad162; 0x424b4cb156c19164; 0x5bcedc57ac8a8ef6; 0x440f24c6d7a7412b; 0x2d11e2f65b4805ae; 0x441a8858f7c559f8; 0x5e7deeb6117f623d; 0x52d4e9a647ccdf2e; 0x4bea75e4d475e265; 0x58add51382f408f3; 0x5be4c76e47d7fa54; 0x67cd5f2ffd81e95e; 0x7b4d54c5b36dcd00; 0x6a4ec43e356c16bb; 0x508ada9c6d3a762; 0x19a65c5554e592b7; 0x6cf3ad37e14f1231; 0x6ae9632eae7b44a9; 0x7db62889e07fb75a; 0x7470967fcfe6f35c; 0x2200901b2eb2a56f; 0x55a92ec0dffaeafb; 0x5dfd90ef611055ed; 0x56a83cd7dac39dd2; 0x734d1294a05a283f; 0x3ad2e7a623698cc8; 0x5252e006c0a97f2a; 0x1b15eeadb43a9670; 0x10c0fb5f2eedfe5a; 0x37757a56203d91d3; 0x6fd3ac32c9f71c40; 0x402b819d56915f11; 0xa6552dc9689e3c; 0x8bcdcbccc1f2aa1; 0x6accdb5420dc424a; 0x669f02e1c91f3b75; 0x103986e814d6cfc0; 0x4dc07a090d367cf6; 0x3fba5ae1b97a59e4; 0x53cf2f3d835dc228; 0x7fa3c55d3db3a84f; 0x54a0660fedc37db3; 0x178c63f871bc2804; 0x524c9fec4e848f04; 0x2e3a9897eff12fe6; 0x354045f5c59220b3; 0x3b248935226d114a; 0x1323168c3d2b0231; 0x6164c2707bb17dc7; 0x12b37db97d189609; 0x77534a40b86b0746; 0xa1f7dd1d1bd1ef6; 0x64c7170c46739dfe; 0x53d85866d5e5a380; 0x6c1f27c3c2ea8e97; 0x67105897382bf30a; 0x2b1d93476d5dbcf8; 0x3bf6eb9177f90c48; 0x12c09d1d1ffbb2eb; 0x461c81b1515a106; 0x3b44c1bd62718036; 0x770ec2ed1eb551c4; 0x3262d1d1ada2c324; 0x4d567be6db4f7f9e; 0x3ead01ccb03d5899; 0x469b0cb79e8899b2; 0xab8fca81963dc02; 0x80cc64378908264; 0x447992634978aed1; 0x70a6e2edb290efd5; 0x4649bf172b8144fe; 0x5021a15d3171d2a0; 0x29c32acffcf91617; 0x1ea0d7e87fe67b2e; 0x5b59d9bfccda2a72; 0x6d50a60b5c37edcf; 0x3069ac990d2a9e7f; 0x3133506e8efc0e25; 0x19a4e5b5f92fea65; 0x16a9325dead3740b; 0x79a75f726631f39b; 0x1a920370d0b0d22c; 0x494596612b567145; 0x6907bb8b01dc4183; 0x16da5c8589f7bafc; 0x35f66fd7db0d52a2; 0x6d79d589cc625cf5; 0x4a875d9e2647a39c; 0x60788b325ddd42ea; 0x7178203d82f27349; 0x480b5224000e1838; 0xe9fc2f62e13a9d1; 0x2c6a0cfcb1f61408; 0x4834dceb52a04e99; 0x29f90bf42efd3272; 0x36fe056887671e6d; 0x4eaae1da30a67fb7; 0x3d16e42a1b7ef1bd; 0x3a84bfd2b9b458f3; 0x50d9343a1e20e46e; 0x28bd91059ac8862a; 0x20a8dfe03dc2c533; 0x78b54ab1db096e25; 0x20a2f2418c29ee91; 0x44e00c8220f31bfe; 0x142ec0239f9f6af6; 0x1154bc9628020bc2; 0xecd4fcbc31bdc11; 0x110d8bfbad2f30b7; 0x43889e69771d9a6a; 0x74079ccf313133a4; 0x40a005e3b1eaf3e8; 0x69f4caa2d5ee4f2b; 0x149143db02906365; 0x2abf8ceda3d68a6f; 0x41351ab1b1f6d3d; 0x79952f51a46a3394; 0x3d39a695dfc49a9c; 0x5ee5dd00de707370; 0x70d9193c9691a17a; 0x771af3a8b1da8031; 0x57aab2914c1dc305; 0x6ee3be235da0d2de; 0x8eebcdb57761148; 0x1a5e5fb066007aaf; 0x29f0cb94e94e33a1; 0x27b6d651ff8556a2; 0x6967e48732f33528; 0x37c40e6986ae2946; 0x1c0151cc13e2adea; 0x4524b81f3746ad80; 0x7bb2e89484fe6315; 0x7d863c9cbf03aaa9; 0x26cf40661926c989; 0x6e9e8270ebbe59a6; 0x3490ae3c443cfd26; 0x6112eb6c9ec19ddd; 0x29ae0a13d93ce46f; 0x6613257d1c6cac07; 0x3d5bc8947e8e14fe; 0x8542792653c437f; 0x239d0acbe9e02489; 0x78ed1220e48098a2; 0x33c848ab6e87a096; 0xcc9c6e206aafd6c; 0x42f2907ab9bffe1d; 0x50e8c293812a46; 0x1d39e7a9f95fd0e1; 0xe92ed26303b4060; 0x19ee3c58e8094ed7; 0x76bed1765c5e2b44; 0x20998474aa291573; 0x32577f5b155d32ba; 0x5162b5887911fd9f; 0x766ccd426c48d8e5; 0x7e10e73190451c27; 0x714456d69cfb842e; 0x681c312d2dd006dd; 0x40ea0a15ba4a6569; 0x5b9936244085844d; 0x3e23e11a203b29ff; 0x5d8f5e364f21a426; 0x64b829fc6f37abef; 0x6a4f5a2f6b293df6; 0x2235fc86cdfade68; 0x7f187f9ebf659ecc; 0x31aff616d98f0c3d; 0x39406f6f59f81548; 0x7dfc9c0858374d04; 0x5026629b1a13b7b; 0x150b48474acbde88; 0x5003d789ef9a2d14; 0x1d7e4c462f035b3b; 0x635fd0df982c672e; 0x77ad107003015d6c; 0x702fecaf229517ff; 0x69f8ebf079c25213; 0x503f2defdb45f3b1; 0x369e98d41e01f005; 0x4266281c872909c5; 0x7376c4ba3a61202f; 0x3bfcd72295c8bb48; 0x2bde4eb9b649f7be; 0x35287d9b5e26814; 0x55db25ea4048340e; 0x780f1b5de7a5af7e; 0x3aca9eb832f5295a; 0x1b9446e7cd479175; 0x7511d427cad071b1; 0x1ed99436762d6b30; 0x7b9849fa14a6d208; 0x237d5164d6356472; 0x55bb685ee99fb646; 0x7d872a00d2d3a0ff; 0x5e6cc6d3bd0f77d7; 0x3ef48ed78ab4fb89; 0x1c81897f29496aa4; 0x2b98822a0c5e09c5; 0x3df4df8f67db645d; 0xfdca8d8a8101497; 0x55114945474d9a3b; 0x760c177e192667; 0xc710d85956238c2; 0xfb3159fb0fede02; 0x6287486943d0f9c1; 0x7fffd1ef6a919e1b; 0x1fd51ed800b5ff72; 0x65548a46d298a9db; 0x3ece73b4b6cf8be0; 0x70cc94c53365a2e5; 0x4c00674c3be97b26; 0x1f13e40a8eb39774; 0x5dd514b304b4fcc8; 0x1e568c88093d96ef; 0x26cb28609d834bcb; 0x664d782f19bd836a; 0x7a0672557285af91; 0x380bcec8047751d4; 0xcd038a045a890ed; 0x3ad4b25500627635; 0x7dd3b8a3ee3e51e9; 0x39a67fdf4e2788b8; 0xf6a707bc2f79421; 0x346b8fd03626e1bb; 0x165398fdf72cd7b6; 0x12d5746443eeb0bf; 0x1137bfcc582cb854; 0x7437585a66b21496; 0x3b871496f7eef18a; 0x531236ed8ddbca7d; 0x40afcd2dd50a184d; 0x2c93f0bb4c3895a2; 0x34746170af0f3879; 0x668cd081000256e8; 0x3e809fca5898dd74; 0x5f5f2c8e021901ff; 0x6747520324540edf; 0x33b696];
   [0x63db3e9fcc35d1f0; 0x59dee12983af5cce; 0x5c0ae7dfa4f92ae0; 0x4034fab1b6dcfb87; 0x45ba4048347ba101; 0xa5831e892086481; 0x4ee14ddd17cbcb75; 0x6ea0bd996a26da38; 0x4abc54b5b3770ac1; 0x54ea89fdf06a5abb; 0x20d50c42adf337bc; 0x683a6b7f099dedf6; 0x556c5df10df0fe51; 0x391cf3fb9bd2249b; 0xd52fa6e04e08365; 0x12160088e9653413; 0x69b41c70b39a9e2e; 0x4b262494841c53de; 0x4814a180d58f0785; 0x553a6f1b99e8ae37; 0x566ee5c7a69a4e46; 0x6281a5b090d50bde; 0x169ca178af7cf638; 0x6add6021a5746b2a; 0x72cb7959464cc9ab; 0x41e2ff41bc5f22f7; 0x501df83803a8e9a7; 0x4b701198bb859003; 0x657e409edd8898a1; 0x78fba3d9fa7a1b4; 0x6327909173cf1baa; 0x766314b29a021108; 0x4facd755a6ae1f61; 0x4e72387fd8bb7acb; 0x33383942a136de45; 0x65d2589a8234b8e7; 0x3d43db20171bb38d; 0x61bd8db24c665ad3; 0x2a0242074109a88b; 0xd4405fbc95244a2; 0x4447adeb3d9456ce; 0x3d5923df1b6dfc3; 0x284c9b8803204a9f; 0x1cfbdaeb0a069de8; 0x47f9bee046e0f794; 0x11433b10b1846a0d; 0x64568778264a04ca; 0x99fa8d629c491ef; 0xbb7deab99f88418; 0x75417a770c5577de; 0x54fbb3f4da476e95; 0x5a779c913a9270f; 0x6ef18ff7e1dad728; 0x7ec9abed272b1e9a; 0xc818ccff408f57d; 0x56bfb023768952d9; 0x5c86b4f7b4aa0001; 0x4d4183f9761ac77; 0x34aee724f7b2ed4b; 0xa152d87678679b9; 0x69d1d450c8b5fee5; 0x7373af222c2deb70; 0x23df76e3ac209ebc; 0x45f06a99e8e86762; 0x3f4f66b8155cad1; 0xad485ac9d738f82; 0x219c69aa152a7e0b; 0xca196a9f4815c39; 0x6cca065554d1cbe1; 0x6f8babdbdc9bc266; 0x681114da77d1f0cf; 0x1a80082b838fb54e; 0x3721aab234ba6a2; 0x66744241f5927edf; 0x300454b78a956a51; 0xe7402ff58d9cf9b; 0x7d6accdf1ef2025a; 0x6ffe5192d2b2b4b; 0x30c5453930599df2; 0x299f4bd3e8c79843; 0x146c175041e219c8; 0x5ae2698103881430; 0x4697047b4d8a489d; 0x7fedc737141f217f; 0x10a984ec501e0de2; 0x54bab97a413084ee; 0x766e40ce31071660; 0x7cc55181d1401719; 0x316b43389af8d571; 0x198212277c01a901; 0x78149659bdbc1407; 0x5b94f57447d2c83b; 0x226178b08c5ad45a; 0xd509ff3fac592cd; 0xb2e5257819368b; 0x1f8966973c378b9a; 0x4b110d438f0aa40b; 0x56f082fb17107266; 0x6d0dcfc6af38e90c; 0xf463fe08f68f4ee; 0x77ee7878c5157b6a; 0x562c71dc0ab7f43c; 0x28738e97ea42d095; 0x6c354da5246c460d; 0x6b9f48861a4d6df6; 0x7ee2276c46605999; 0x6f8a2417558684fa; 0x8f2e79aad7770f1; 0x35f83a80ab383d3f; 0x7dfaf0c5b53d693b; 0x4437f48f7c466539; 0x42ab50d6b26c2d30; 0xaee7f281f01561f; 0x99281c4eb79f947; 0x41fb98e3a8be2e0a; 0x359c91f9d494865d; 0x573b3de640637d1e; 0x6b8827ccd534284b; 0x75135e60fc021598; 0x12c76dbd3dd0e81; 0x7c4d47bacd9cde5b; 0x516a7f4aab0ef5d0; 0x31b63884bd0d5ba5; 0x740a1ddcbb27ddc1; 0x7fdd5631c407159e; 0x4e00be5213c4d22d; 0x7629d608615a5d7f; 0x6dc857505352b9f; 0x3a891f15d706aa33; 0x7b95126bd4265e97; 0x577fb40cf3d9973c; 0x27717bdcb4b04d3e; 0x47054927e3e24ec0; 0x392d6a17c3a4c8f0; 0x59b5cb7f0d851ff2; 0x7dd145210b8036cb; 0x79e8e93a2d98896; 0x5bdc5bcf5f3cbe8; 0xee0e0205c6d808a; 0x684f30f8d9bb4e2e; 0x69486ed48deb5a56; 0x1c0728fe349fea5f; 0x79f4d1f68bd1d93c; 0x1732c9c27b6bbfaa; 0x4e7726c6f1920ee; 0x161a930e24d3be36; 0x2962e224a4158877; 0x6b46dfca535fa515; 0x38d1cf40d8fd4f05; 0x15652a0e76d62f6; 0x3a38a5855ffa72ee; 0x63f51367606f7c63; 0x735d035ad95e480f; 0x485093d3ee0b798c; 0x5e02aa7ced8c2d21; 0x1ddef10508517b60; 0x4b14bcb4b0a10359; 0x20cbfcd03725f9ab; 0x2a9191d87213f81b; 0x2a48b0a502d921e2; 0x6c0e04f329f18432; 0x1cd8032272f33c67; 0x7774f0537466803f; 0x51beab6837204fb; 0x46991a86c7559a1e; 0x8fd43ba491bab6f; 0x74e0f4ea23e9bd8b; 0x7708967f2b6dacf0; 0xf4291ddf1b58e17; 0x5caff7fbf0a8b7f1; 0x472627ec32227772; 0x56c4f95a9227a275; 0x7194d2f7a555ee7a; 0x23899cbf84e71461; 0x5c2d8661a0a6d2c6; 0x4464390ef4004341; 0x38193808b5a813b7; 0x3be81ec7f0f02851; 0x17547a5143ba1d78; 0x2332872fcbc7e94c; 0x2fc342c0ac290c55; 0x1c38053f4d2181e2; 0x303864467be31d29; 0x5232dd4c13d02472; 0x22674c08d3880304; 0x10cfb2aac5abef13; 0x39956794a13f45cb; 0x7a4c565804f5b5f1; 0x14cd1b72b2e0944d; 0x6f9bb1066e417ae6; 0xaef89ba01674734; 0x50fe6866afa8f39e; 0x69b21bc5ab7a96bc; 0x2842bebe029160a8; 0x489ab0e3246da0fb; 0x2b3e1ef3ad5b39b7; 0x31a939f5bdf9a353; 0x7eec3922cd7ca2b4; 0xc724e66cd8a5e08; 0x7a39660a31093754; 0x7d9a3e68dddbe0ad; 0x7cef17702c3c125a; 0x18682e65c29e03b6; 0x3f3322c876ae694f; 0x904466252a57b65; 0x13cd84c5ef4e2b43; 0x468a676d43cc97cc; 0x6273a897b32c6bc7; 0x376ae36551a7fb3d; 0xc9813fa82ef10dc; 0x5e2e6ad137d24a84; 0x977d29e04575442; 0x103af562842ef6be; 0x5efc66aaa0f0f4bb; 0x6a98a7457d15456; 0x4c9d7318aed1fc45; 0x6d1dac02689bb295; 0x36070e551151793c; 0x12da67cdd1611859; 0x1940874673a9704e; 0x64d32c41b53e4ac1; 0x59f760607f1a7e38; 0x79542ff68acaa442; 0x34213c6bde3fb0f; 0x120546ae02ea417f; 0xeab8724680c0836; 0x43882a5745c404c1; 0x5a64e0574331b94a; 0x24492e81565c34bc; 0x3bd6b31c2a43faae; 0x447b417443aa176a; 0x48ea423793a4265c; 0x134f04e123f4de5f; 0x44a80da8d50c77a7; 0x457e32a760a73a12; 0x4a2f8d0eb1bcbb11; 0x7043442a558d7ffc; 0x212b543216325ece; 0x5889e358d6ec86b9; 0x224ac70f4f06a6de; 0x6c712017b60a28fd; 0x2a3615a061ede68; 0x53e529101384ce96; 0x265af857f068982; 0x4e5dbcafea237d47; 0x59914986d0ae0565; 0x579d1989cc630eb9; 0x51e1c55a547dac9e; 0x73736f9b736b388a; 0x153381a46f7c3986; 0x77bd7cfe0b19054d; 0x14cc96bfe1ed4066; 0x3f244683b57a8433; 0xa05a114c57eba61; 0x2f210f325d006127; 0x646042ec476cd668; 0x19d2560dcca787e9; 0x3486896ff434a7bb; 0x5822c8d455b40244; 0x3258a543fd2a2ebb; 0xc8353a0814e2036; 0x33d63d8b6e11443b; 0x158873a569804cf6; 0x4f578efdff28c2a0; 0x6c60fefdbb3fe7bd; 0x7a77e2cc1b28adbd; 0x7987bf81f2f39410; 0x7195d5b5d2d655b2; 0x164ce1b7f9753514; 0x31ef00ef24d6f546; 0x1fbe428d636f3fc4; 0x17a5ff8fae567dd8; 0x724973c22ae7a01; 0x5c94871badd8746f; 0x1fece81ed404800d; 0x1adb37668fcaeacb; 0x1dd35b4b444705f7; 0x47a49f6e95a2cfd8; 0x79202914d50c5a61; 0x2ca7ba4230ba1853; 0x57df09c984ad5c6b; 0x1a740f62e037789d; 0x146efbf73611eaab; 0x1cb21d1c84580cc; 0x66a7974237fbf3a7; 0x1d1ca32caaf08f1; 0x7a90d69201e875fd; 0x7b741b86406063b6; 0x7e0f30f407adc2a; 0x65e115635f523c4e; 0x7cd6f8b5babc372a; 0x4d3fa7425fabd022; 0x1e3ec02b9a8f2434; 0x24477e7a3db3436c; 0x7519f81a46973043; 0x7d557f81bc07b5b; 0x3df8d9378e431e04; 0x6535ad8074d9fd21; 0x58d54c4df8e1d825; 0x7cccca317bb466c4; 0x6261822f5c8b3892; 0x432034c627ec4437; 0xf12f9832dcd6aa0; 0x1ee9349f6020bed5; 0x7af36beeef42796b; 0x28c2fdef2522bd8b; 0x1c710ecbb4430a38; 0x5237790d617c06b4; 0xf5fcf4c9670d0c5; 0x69eedddf7b0e41; 0x3fbe5c6c752a9486; 0x6ba5d52e0ca0a84a; 0x5dd1bb74036898cc; 0x422b0aa0b87c7d95; 0x34b3c3efd2e9e2d3; 0x5c66a2e90ca90d44; 0x3e582e37dcb4c093; 0x3ec3c6];
   [0x5994fe36d4da3f56; 0x450798f99fde2d06; 0x73ecffec9337aa30; 0x53e8b384f493ce53; 0x331d8871ae801c4a; 0x112afba286629e16; 0x3e8ecca23d70f787; 0x343748b5349b52b0; 0x78181139043c6db6; 0x33dcf7b59ae71500; 0x19aebf71e3eac7df; 0x3cc0de1e1e4af97; 0xcd884a779bd6f97; 0x5625991a849a40bc; 0x6d3e8f340d04b44c; 0x4f7654e6be2d1f2b; 0x3ec354ef8899094c; 0x450523bbf7758398; 0x492855f6281f8011; 0x7fc9c964931273e2; 0x57d651fa30cb1fe7; 0x5c06d58bc21d4a6a; 0x7b99b778e364c116; 0x6f92281b86fdaa26; 0x4b7d444eeb318541; 0x3b8d3a11e88359cb; 0x5c6c7858a9baa8f2; 0x7997138ae4baf855; 0x555219910ede44f3; 0x1821fabe83d3088f; 0x28bb45cbd38477f4; 0x6666481db07c1d5f; 0x5cbddedeea4b9914; 0x21a910a19f44ad66; 0x7f1fc3893c5a121b; 0x5eb7c8c6a5d83cb0; 0x621ac8dd691322c1; 0x2fe7849a1d5d1e9f; 0x123a8dd36f29352d; 0x190847668e90fecf; 0x144bf1f975428e87; 0x1929ede6b208de96; 0x74872f7a04adbeba; 0x2814602662df2b31; 0x453a8e258a3723; 0x340c6aee366848dc; 0x7aaf32b87b11aaf2; 0x287676c166b96411; 0x1715e415158b5525; 0x19ec30abec03437; 0x1e8c0725393c0ce6; 0x2c22d52999fa1650; 0x67982e346e5554f1; 0x4454da555282eba0; 0x58c5db8c9bba4739; 0x6e705cbccfddab6e; 0x5d41034f19ba05df; 0x261e1aed2a78ce38; 0x325a00fa25c1116b; 0x4b2b1b2b9b08a05; 0x2ba05a834a720d82; 0x1800404223ae0aac; 0x7386f28fe847aaa3; 0x6b9d6c2565199e3; 0x42710b9632f8031e; 0x19715679a39951b9; 0x4d25076f124c3f4b; 0x7f6aa47d8ed9091e; 0x2121f28ed36676c2; 0x31cbc11943367d81; 0x58b5d7210a843fa7; 0x22ab32e692cbe594; 0x5b10bf686b5c9e4f; 0x66f22bcf7369bf0d; 0x720bb56f007ed9dc; 0x4c6d4caa131ff466; 0x36d985c6271b0e0b; 0x7659c75588c3e017; 0x2cecb2f57f5bf895; 0x1b806ee182c55632; 0x64992ae2e9e833ec; 0x583a5efe17795262; 0x79a9b1fa9de6e0eb; 0x3dcdfa8dddc62b28; 0x64ee9e25c0cc5c41; 0x3ac6737cfee3911a; 0x19decfcd1f9792da; 0x7970e5694b442d71; 0x1a5472a28982062b; 0x2b8c01b3d107099e; 0x2ee1f464bfd1cba0; 0x76d8a299d74b2c29; 0x5e747b2786108075; 0x567ce6f2b68d21d5; 0x74967300850d4bf7; 0x7a7df6df26685acd; 0x76067df7e0385194; 0x5842b8dfb37e80d3; 0x1d105e390cb2ebc7; 0x170f8b43ba683d3e; 0x1866a28afd44c631; 0x6a125355b72dd516; 0x19b5d1c883d9074a; 0x53a45082fa3e2616; 0x54e61453e0759acd; 0x77d43de050337657; 0x72dc322af70c1c82; 0x5e18d896e2b5a79f; 0x510af5a11252b082; 0x74d4b68641d22762; 0x31703a2dde6c51ae; 0x2f37257a6fe2bcc9; 0x485e20a3fe07da0a; 0x2e000873cdc7d459; 0x6e0d960ac964ac4d; 0x4b705bcace9f7ee6; 0x2afa66b87f55c978; 0x472143fa58752310; 0x34e1bf5e71277dcd; 0x2cd36285137ff93a; 0x656bca270e57bc29; 0x663b2e246302e5d6; 0x60412f361e68a8f8; 0x67768c3e18a40e60; 0x6434e199bf3b192a; 0x697b47ac1eb567f4; 0x1f1b032eeab0ee75; 0x5428805f0a275b0d; 0x6f0a5eb1469ee5a8; 0x79bdfa9ecb9166d3; 0x6f7485c93f8963fc; 0x6e95fc615b5b8b59; 0x54f41a614528e709; 0x46abedfe341791c9; 0x1051699731ef3e8a; 0x6c1c20c792121ece; 0x279aff345a3607e6; 0xf35d346fa9eff06; 0x369401403a958e74; 0x49d5b85957f58007; 0x485fea84d8781ca6; 0x38d9b5f4e081d025; 0x29b6c86d5351dc98; 0x323329f87f5a45ff; 0x1455e67ed9219952; 0x44212b5cf8fd130e; 0x804dd40b3a7f01f; 0x6ba70730ac7b6d8c; 0x1ddd71afc02cd4b0; 0x259a0fc2665973d1; 0x7c69c38b74d195a7; 0x21f650397bd7b60; 0x6d2f4bf44043c49d; 0xe6137cb9cfbe00b; 0x257eaa41d8d0daad; 0x16b2ee53a22174aa; 0x624aff7a409bb68b; 0x7da36c760ff29c2; 0x7e00d224f6770a55; 0x687f34d86e1e1a90; 0x3068c540db20819e; 0x4add1c47db8659d3; 0x6893be2c4c205231; 0x665436184dba8879; 0x69f19e28dbdb9706; 0x4a1db12c00bd64ea; 0x46e7f9418540910d; 0xae7f64882de9a04; 0x320efdf68c01d7e2; 0x131e67ad18dcad11; 0x63254274b9837c89; 0x5e26ff134a50a188; 0x6a966a7b52a1dde9; 0x2c40024086791adc; 0x28a53c8851f56114; 0x5092c95b47e58548; 0x770db77956cda3e5; 0x42c4f42d943c23d1; 0x3d59e6b5dfca284f; 0x9bf1705dcbd688d; 0x904bed3822f3be6; 0x23440cdec9a1c4bb; 0x7ca8e420667d77ba; 0x7d5b6c6241dea6db; 0x20dfb98fae74ba81; 0x445d3eb1958cb841; 0x63940af9f6013118; 0x2ba218f4874383f2; 0x276f0da9344b3ca9; 0x30dd3618b158ecb6; 0x502865791bd6fb71; 0x3a59677671a6b96; 0x452b9bcfe92c8bf1; 0x66a21de22c74fc14; 0x769324bc5bff44bf; 0x57dcee78b046a7d6; 0x47f0e29eacd4815b; 0x1e9bdf85e976e3cc; 0x32d8cb62f04e932a; 0x236fcefcdb0dcef0; 0x5e49c735c3d6904e; 0x7d026ce4ec70b996; 0x4945dc801efddbf6; 0x3b1306dae3e2a699; 0x7256a8b709ac89ee; 0x417e0a75417928e2; 0x385c5f974f7a0ecd; 0x6cc6fd783e16ab28; 0x7aa99c1b62c8020b; 0x62399d054cbcd9c8; 0x19b883380ff8a0c3; 0x10c20c24aa4d1891; 0x4fb9e9f4e6f53011; 0x9d041097ced8785; 0x542b3f0f627e40a7; 0x2b0fe74590e1e82b; 0x14c2ea641de1cf57; 0x5e807a86cf8fe262; 0x42eaa2044b0b1847; 0xdd315d001e220b; 0x5e9502d92f3995c6; 0x33c4334ae53580a4; 0x53a3541ee20465c6; 0x44652608602ce21b; 0x67d1a40796890b5b; 0x643673532b19993e; 0x55a4000d84ecb5d9; 0x4d49ffb51600bd83; 0x52b2812cf9a717f0; 0x36b3923ab13f66a6; 0x633b14c49b69771c; 0x25526f94c405196f; 0x39011c558064c3fd; 0x2eaec424238b764; 0x7a7204088e6e72f6; 0x70ecd0e21b2ec093; 0x63109e05e4748e37; 0xd3523911a2150a5; 0x204d193d0f1a9d49; 0x7f704d5186e4a5ed; 0x105f383143f44425; 0x3bc2c480e06619f6; 0x13e3a713e4dce5b3; 0x62c731f396b9ccb0; 0x281de78d18b404f2; 0x42a6a6842d74ec67; 0x45a349052e8195f5; 0x6078ccae1a1d574c; 0x42d9deeb93562209; 0x1055adfa4b189ebc; 0x6922d4cd2c8fbb60; 0x50871e7960eed527; 0x4d315d084840fffb; 0x203e6ed74a2d6151; 0x59f7a95a505397bb; 0x52cc4fe7512a7d76; 0x6dbe13de7211730; 0x6026d93cb91809e5; 0x1889a904da8148cd; 0x1692bef75f8a4296; 0x54c01e697ccaa8c6; 0x44820bb6f6ca3728; 0x3b6520fedfc40675; 0x407ebd9331ee4823; 0x16b1b49fe58897df; 0x458e69b0a8f48859; 0x727ffd03c159952a; 0x2570283bbbddd1d3; 0x2e6e486fe6e4a55a; 0x2e462fa582351e5d; 0x9fc4e26c61cbf10; 0x1c2a25f738abdcc9; 0x462b73d2228875e9; 0x1ba28127e1098300; 0xda65b51b6179c07; 0x10700cd30e6b089d; 0x21f0f889d1beb4cd; 0x297b69c67a0854f2; 0x45739d479005ffb8; 0x4c72869c6c2e42fe; 0x4f4018aedb6b582; 0x6914f24a02b9c4c0; 0x17509788fab23061; 0x3c7f2756d382a26b; 0x4ad9e1d764f01e7a; 0x2a45f8ee0495005e; 0x51bb716dae24c267; 0x10b418372513e727; 0x13219ac59dad02c5; 0x48fe3e791006dd9e; 0x4dfba8c8cf66f3c8; 0x34e82c172b6dc0fc; 0x646e47a940555d5a; 0x5860e4e013ee5bd4; 0x9740fe3fdbad5fc; 0x4ba157a4b66c38cc; 0x2ab87d0cbaa4189b; 0x7085f889ba4b3ea3; 0x1c7f6f682b981598; 0x444efa96ce162519; 0x1acaed4970158a8b; 0x1276d99e3a42cb6b; 0x311ccd483a9f1c7d; 0x117ebf7c4fbccefc; 0x6b747a5c102585d1; 0x12d19e98d654d529; 0x6c6f3a082a2d3cc; 0x3853e39b0c2f8255; 0x6469d71d7b232fb; 0x1e02e42669c76a24; 0x5be63c18b82c6a10; 0x541e00266b8ea014; 0x67cb0937c6b1bcd5; 0x694129c18c722d53; 0x3dba26f5e57c556d; 0x3e37ced52a7cf3fa; 0x4ac0a0c8d7168cc3; 0xc09f1];
   [0x71d3209d7689fd8a; 0x2498b012a9c53f8a; 0x7435cdeeb33780be; 0x3428443fc1dd51da; 0x2a88409df0e0c995; 0x31e9b481842910e1; 0x1a3f78af0298278a; 0x1006d190c82d369d; 0x71626a0693ce3f6d; 0x40aedff489d7a741; 0x24a033896e93c482; 0x17421b0dd1865108; 0x28a8a1e20d8b4410; 0x72c59990b76cea1; 0x3d7280fd7bf45142; 0x4f8874a65261e07; 0x60d22cb1bdd867d1; 0x41fa41704944c49e; 0x443bde7bdbe7db32; 0x19dcc82c677ce377; 0x7bff2de42fc2c78f; 0x462402f31f7aa20f; 0x653cf09fb7f744b1; 0x32792cb408a54b5b; 0x73ec51fc0e26234e; 0x68ccc8ed3b39d268; 0x79c549de675bd3ac; 0x1ac8bb5ccc85dea7; 0x34b73441742b5341; 0x2b1ed77c85ddfb1e; 0x5024e0ffcfd90497; 0x4a2200dd745a19b7; 0x4db2b07b783733b4; 0x439f23a9fc7aa8a0; 0x639e9dc0f73b6c2a; 0x49795673d8093e31; 0x46104fcddd1ad17d; 0x4b5390b889582d95; 0x5f1a8186ce123c45; 0x4c20e4f8869829da; 0x5e0219f8b4de0f77; 0x158aad44bbc57edc; 0x21875d8ddf2285b7; 0xf8c3f4bb15538ac; 0x569280b821ffa67f; 0x1ec5ddb512e5b32c; 0x5c7951567b30eff9; 0x110ad671dcb68d9a; 0x4605d8780aced986; 0x3baaa977e18b789c; 0x51da456dc140ba3d; 0x40b049c192881901; 0x7aad3c11fb5f5a00; 0xfa32486c1d67956; 0x64de1fd3fd8f23f; 0xcc1be040fb8a760; 0x7baff4da7d15ecaf; 0x324f7c0be2c95e6d; 0x2b7807f6bc2b9606; 0x289a2212961901af; 0x2869b2f8cc7d9edc; 0x458fa06cd0da5320; 0x2f4747903c0d3977; 0x2be871d01b19d4d9; 0x6f9308569359dcee; 0x3bb4a47085c33a0c; 0x6311186efa20bef9; 0x4b089e319b0d3af8; 0x32725090c97f06e2; 0x5778a0d28fa93788; 0x3f7f5c90af811c85; 0x29e7a930afeb7f05; 0x67e16b961f070158; 0x29f483c5b23d63f2; 0x5e6418773798482a; 0x27f323e38ea3d708; 0x20882697ed1743d2; 0x581bfb33366bcd77; 0x719e5dec7cc1ebb2; 0x382fbe4b942f9d1; 0x616977209dd3b1e8; 0x4939c8f248bd8bde; 0x28584f0c50445288; 0x220e263d894138a4; 0x3399c0a717acf511; 0x1a2a5481001aedf2; 0x731da3fa3af8ff53; 0x7e60514e092e4cf5; 0x1759ca4c22931cfe; 0x42f2f1e2dc4cc30a; 0xe295184dd9c6ed7; 0x56e834f18774955f; 0x5e0458f768bc4521; 0x6303fe301eb63564; 0x66e13567f4b3d285; 0x51bbb267cefdf567; 0x277ad54942497f61; 0x1f92c01571e8c06d; 0x3136bcecd56a64f7; 0x37335fc49b49472d; 0x6c7d9570a002b180; 0xb26e67249b53732; 0x32f2388e1d21213e; 0x5fcfee70aa808b62; 0x7e2f4687efea1523; 0x5952d32ce62d5021; 0x7eb443144f6d68be; 0x59cb0be9732ad927; 0x62e4581a1e2197ab; 0x3de49c9214c679d7; 0x3a3ce12cd617f4d3; 0x7ccb7755a01bd28; 0x46cfff80108d135; 0x2cab42748fe75e0f; 0x5226f59b0040a7ea; 0x365d17d2f2ee59fa; 0x76fb7518b6c31227; 0x76de64f70ce511d2; 0x5d37659159e5e05c; 0x5b1e326d49d010e0; 0x3280702c14134d42; 0x6e028636f0ae7b46; 0x657993f56f2dc37f; 0x2ff3058664a3afd2; 0x532abdb156a95acb; 0x685a8cff17ca480a; 0x79fe0c0527d037af; 0x574bab2786e3a6c6; 0x735ee8326ae23a50; 0x6a8ac7f9afd3b453; 0x4a3ddd8adecff70f; 0x2c0f62812b76cdcb; 0x6ad3e58c54c4d52d; 0x3018787c851f763; 0x4aff82a52331cef8; 0xa921d92730d1bc8; 0x4fb9bc7687e40b58; 0x722289ad60ca6ef7; 0x34ec638647513b89; 0x37ae01c02fb650ed; 0x3e6f490fdb71ebe9; 0x59fa3fdcb89b9710; 0x716f4dc997f4f36f; 0x2a4fc6c28d3734a6; 0x1ca8071d9f318665; 0x6a8a6101fadf68fd; 0xcd3f9ea55c01d64; 0x1c410bb3b4bb3283; 0x65deb89d73037fe5; 0x135519ba8796417c; 0x21819462ff8b3dc7; 0x9fbcd494425b6b7; 0x5fed3e2729813533; 0x601f78d763fe09d; 0x3438b695739a18e0; 0x48219aeab0436254; 0x494797dc288fd04c; 0x7cd48e0aaa1a4345; 0x70cbcd6c7419b01a; 0x5a4743e39afcc9cf; 0x48b1ead14412f71; 0x440b72dc723c328a; 0x4bd23da322ca98df; 0x40e50f02840cf53b; 0x730563363fd22cf0; 0xc292445d8263d02; 0x486fcffd4b96680a; 0x259dfdd26072c7cc; 0x285b6c420884ded6; 0x6efe7a60475a63e0; 0x526d3c484c6394c5; 0x51c203a16c44df40; 0x7acfa87472c73632; 0x338273cc69e1d8b3; 0x30c0ec07b9162435; 0x3f359ec9a7c3107a; 0x706f62932922cfc5; 0x4092de6f7254b70d; 0x28f020224df6a16d; 0x4fc68405d7609629; 0x3ab14ab4a5bb489a; 0x29f901c6d80476e2; 0x5a2d49d35d1b8c7a; 0x3229844d07b2f9b1; 0x3a073ab7418a5dcf; 0x91bc18c16724326; 0x6fdb75a643feb281; 0x3fee33dffe9d937f; 0x41f641db7629956e; 0x43e43c261fcb7947; 0x39dfd5a99ef85c54; 0x6ca6174cb1e0f101; 0x63a6211edf78e51e; 0x52f190fec6b6dd0c; 0x6dc599d0dcb7fd2d; 0x39a40e74f3183bfc; 0x915d75272810152; 0xf5b03ba21d9564d; 0xc0ba653db9d7186; 0x1630bea9a84794f; 0x4f367e528972d9f0; 0x43ebba21eda0f2c; 0x42be101c59b8e9e4; 0x667d79acd7f0603b; 0x5ac503c40e0cf857; 0x51a0b7fb82316ff3; 0x7153a87e338ed3e9; 0x358d03d7ad9819ab; 0x5a0441e4a297272f; 0x217b10596af332ea; 0x7aae232e2a3a2e67; 0x268282c7324ba956; 0x4af058a29911f78e; 0x41e2db8c12867bc2; 0x146838ba565b5899; 0x6316b7ac752ebaf8; 0x79b12f1a8a783d35; 0x2acc52ebb49491db; 0xd113b2b47b6ecba; 0x58b14d1911d1955e; 0x7a4aa02775cb8c2b; 0xc4375d63986768; 0x19927a7f4f7f14b6; 0x7db00e9af5909601; 0x3c04dc07a26b4a90; 0x6d83137dc1aa8752; 0xb7d01eeaced9d11; 0x5f85ed2a887dbc9b; 0x2202972cca76bb52; 0x3a48d6bc4458e44f; 0x4f4baf2af9c33722; 0x7536e827357541cf; 0x2166c5e0547c18b2; 0x7403b2c37dbc7a54; 0x1dbeb86eec95acef; 0x6a1c33b47e2dc19a; 0x39af1a013cb24cb3; 0x25939c3dafac04e9; 0x38ce7aef82a8f980; 0x2c6c8bf0b62c775a; 0x4ae8eed31a9c30b5; 0x4a684c6466ce90d; 0x1ba1638e065a6222; 0x372fbf97180bb177; 0x729c3e5127591ffb; 0x24568fb8f99635ab; 0xf252a3d4f00711d; 0xb9444131726a94b; 0x2c829224058cf04; 0x2c2fae09b867b722; 0x462d49fe80ed0d6e; 0x5c18d5407942ba71; 0x12fe116569d325ea; 0x11a8d1ab15ed76d; 0x2a5ca392d2fdcf3; 0x5d378f3c9e848350; 0x703f26131f96154e; 0x565ac116fdffc918; 0x4f5194ffebfcb549; 0x6db372794def7abf; 0x601c331c1fdce50; 0x1f3224b96971c844; 0x116384349dc3350b; 0x72d75c60c1f3e550; 0x30f010603be98e89; 0x1bd9dda025982574; 0x2ac61a2948ad70cf; 0x5a3c3933e3b5a0cb; 0x7b22e84a1217538a; 0x4ae7ead5b8dd6458; 0x38f0f2992f01b9cf; 0x7866be2a2e215921; 0x2657143592265fd; 0x60a8908c6d488219; 0x5210f9db0ca19573; 0x71db7181109a6fa3; 0x2a658dc1cc9625c2; 0x5c7a38feba54d088; 0x1a35a26f5e1ce0cd; 0xbe0c186bbcb860f; 0x2fa7293d0e5add3c; 0x77128d3dc79fe403; 0x2408c2f8a4dd2e6; 0x77bfbe505429d283; 0x3a385b1218f89392; 0x4e38d19121e449ad; 0x3b5f7c2c7fb40ee7; 0x51dbfe578e8493dd; 0x36803911f833ed28; 0x4d6268027bd9697b; 0x9fd67eea93f4322; 0x29a2003636ec0a45; 0x4a1fb93932fd47aa; 0x3beb43d0d87425e1; 0x5a415169dbe113be; 0x2338c29a6d9739d2; 0x36a8226b95b0c5f7; 0xf02248f4c89dfb7; 0x77335ea1e449d9a4; 0x28292f8fe8efbb71; 0x72ae2149a5f0aa82; 0x79bb941cee3236af; 0x15fb1a92c20bd5d7; 0x1b61d184963a92c; 0x3e04d4cc44330254; 0x50b730e0eb740a6; 0x47760f7a8f21dae6; 0x3e6a4c941b110fb5; 0x3d2617db72f32eb7; 0x7fd6b76562615735; 0x27fd5deece16d64c; 0x3b67f9731acabb85; 0x6d3db1f9879b7b4f; 0x6179daa1d8fe9e57; 0x5984d69ff12abd52; 0x53e0953bf2d47fdd; 0x86bd2022ae3442d; 0x90517];
   [0x86bfdd8a9f1322f; 0x758d4211a67a477d; 0x57f136cea52eb041; 0x4ce884258a640543; 0xedf58d02e56747b; 0x25a73544f6715c87; 0x1be5e1dced3277c9; 0x74514aba665a7434; 0x73ba127edde8f1e4; 0xcdc326d53d66822; 0x242764df9d9fd48c; 0x1f02640ba700d3a3; 0x50973db13ae3a2b2; 0x128646d2c25a6bd8; 0x200a997202d26b59; 0x26d9661a53be5a70; 0x4049664d004098ca; 0x425692fdca67d938; 0x3b804f7041c9a74a; 0x3308d34af57fcb03; 0x16ddd808cb0674a7; 0x2b44dc9f45186df5; 0x1adc076d551b6d04; 0x6317a2348eb8baa; 0x322a40df19100ab2; 0x767715a6a798c293; 0x2f5aceb87dc8fd1c; 0x70d61f04d7744a72; 0x59852f60f5428fab; 0xc4be7839140214f; 0x21dc7328fb63d51a; 0x10956c965171c134; 0x5123a8d75b5c05c2; 0x15d89c2e3f7536d0; 0x323a3069f0940f74; 0x1428e57bf59d1c75; 0x1e76fd358092e5ad; 0x74d1d9bcd829d5cc; 0x17d93479149ab6d8; 0x381e7a69fae0b69f; 0x57b94f175dbbab4b; 0x208d71e96b036660; 0x4e7d886c950e2198; 0x5c5f22fe5e0056c4; 0x35c7f24871631c1a; 0x4e3e4207e7396857; 0x40831b30658b3205; 0x4ead6bd9b976b159; 0x4b335698e5499c03; 0x57af19d64c208833; 0x4016eece5ecf86d2; 0x6b77dda9c45951c; 0x152d75874d409e6b; 0x6d3569da2c270705; 0x3a6dbae0297b24c2; 0x9604d4de0ca258; 0x60b4e570f3407bef; 0x21873876d6c80c7d; 0x4d506bb6b9d32bc8; 0x33554cf055977d51; 0x43f9d5ffea72de6; 0x3e269c04e8431df5; 0x73a24a36d3873d46; 0x7addf57bdb2ad347; 0x5863f837e6b62351; 0x363b93e3408ce17c; 0x69b1a36e102a6f50; 0x75e284caa9c3fda7; 0x388f781342180dea; 0x332ac8053153065a; 0x3186214a6fd5ddba; 0x68582d96e4751b5c; 0x3f92771d83c5b4f1; 0x540381d7d00a64d7; 0x7a6c3fb1571ab2c1; 0x64f6fb70b1523892; 0x62b68250d4c53344; 0x1acd5aaad9507584; 0x6fc7360cf557b91b; 0x641d506d86365ae; 0x369b60e452fa0470; 0x73f81ff72b2fc662; 0x53356e995f93eaee; 0x6accd61b62a5555b; 0x159f92a74d090045; 0x33d3ab1db8a74b06; 0xe054308f867f61; 0xcece402c6fa1de5; 0x78d11e51deaaa4cf; 0x1976314290c2e648; 0x1868d880bef6c6c6; 0x26d5239c13df6a37; 0x3fd9764978e55ee7; 0x3b24a7e81ebb0152; 0x58f0828dd35fc9fe; 0x52dca6ab5327113b; 0x4464976acf251447; 0xbb8c065cd427b77; 0x5b9e82d66e7f442a; 0x3dff5d8ee92f6a9d; 0x30d3c2a944436742; 0x1bb5ff5c4574ff55; 0x59103c79719f042f; 0x45557482d8f645af; 0x774f36f4b5ac9502; 0x78f838a8795135a0; 0x4f3d3d7f1376cf83; 0x79dd3a6806003c97; 0x448ad393e34532be; 0x84f0d35fd1951df; 0x57a73395683806f0; 0x3dda3f72c09e7593; 0x6d840654e20d94b1; 0x63f0b048ae0905a9; 0x7dfa23f7cd231b7c; 0x6ea4eb72a9c507eb; 0x4db8b2e495030f8f; 0x1b02fe800125a5db; 0x31b48a549f85580f; 0x3eff00517eea759a; 0x7a646890331f8163; 0xd2b7a4c7c8ce545; 0x7b6770466c4e0527; 0x55a55f733fd60caf; 0x19fb71e077321a38; 0x4559dbd108723950; 0x4b23ac304ee84a1d; 0x1e02a084acb89484; 0xca9ca8085f31593; 0x4dc9fb3f1e0a4611; 0xdd0aebfc9545c00; 0x2a552a61753aadab; 0x62cc98cc268b47f2; 0x76b50ce0d4725a26; 0x35d7a1995b720325; 0x2b5ca8a7bf4e217b; 0xeacd8f87194fb46; 0x2be2960541619c14; 0x6c8fbaba9bf84d58; 0x7ac590284ea09ada; 0x557002a5fe736c9c; 0x2544bd2b60f070bb; 0xafb8b853a7c32b5; 0xa0c738ccccbb3d3; 0x2c2feb4caf5b1d9c; 0x1d930cb265baf992; 0x1f72d7f97719f4f0; 0x7a1a277f1e71e418; 0x388e6ef86900bafd; 0x1c3c9f1b3737f17b; 0x49e0086fc972b970; 0x2fde61f314d40599; 0x23b44fe6f09b046c; 0x270b7ec2b4c77c; 0x17a5fa495845753a; 0x7b1df8c1e02afd39; 0x64ac3067c1b8970d; 0x15f801aa5c24c1bc; 0x42bb26fb313f0dff; 0x6a90bd89f93a25ac; 0x47181618c22120d3; 0x5e3af8b12c2af475; 0x6eb47c32415ca459; 0x68af6d330101e116; 0x20e6b77a3d5ac75a; 0x63052f2c101c834d; 0xa32cc083b0a8140; 0x4843302ab768b4c9; 0x4e7c1f3c76aae2e9; 0x143c966d5594a6f7; 0x2b9204be91cb8d31; 0x54a93070d523c0df; 0x346751d4f9b47bd3; 0x42e2fe9cb87f7835; 0x4c441cc20d8fdb3f; 0x181c5c05907b13f; 0x3dccede6baaeb2b5; 0x64c0fe114ae6f341; 0x7eb4f9f098c8cad2; 0x4e28adf239f49df5; 0x1867692f7f27c38b; 0x106cce5b81625600; 0x49660559e5b0b528; 0x41e45c4c29f5a2ec; 0x6fef7f0d30fb54c6; 0x4c1987b404a11d9a; 0x1fa9fa1d6905a53e; 0x312f5238e523aeb1; 0x2c119ceddb2d0c79; 0x71c5f22a3b235ad8; 0x2d89573d31610720; 0x5441a0f85a6b6ae3; 0x11222149100320af; 0xf186b8978303bf2; 0x635be8ae9a47965f; 0x4e40c654e6bbd791; 0x6e11d67c3bd40fb6; 0x6738efbfe61a1aa0; 0x6074b24e12323b73; 0x79693433369c9b43; 0x28372ab3a2be5632; 0x227c9496e19884f6; 0x1bc55b46e798227c; 0x38068bc9cca0d47a; 0x31ed7c3c80d0aa33; 0x1605f503ff764784; 0x34e99e834c6e248; 0x48bf4535df841be0; 0x78fa61329a12438f; 0x28f14dd0802d6087; 0x7ea4e557e66c5d8b; 0x7ebecf0ac51d9627; 0x295db94116839448; 0x459fe0e67771e03a; 0x1794c555aa5a1249; 0x18ce847a879f16a1; 0x68fe9d6a9e49b6aa; 0x11e0d672956a100b; 0x293232092b78815f; 0x1c498554210f06d1; 0x1a71b4cd65f039a; 0xc9cb96afb692e23; 0x750b4da98d97ec03; 0x5abdbe466799543d; 0x4789bb03cf28833e; 0x7b6f352c6d56f47b; 0x5d91b084d0439ee8; 0x5b3280571849fc0a; 0x1eb3a6a71d45ac75; 0x7ed694add143d6eb; 0x6d77882c914a42f1; 0x58ef8d2bc46c0a1a; 0x5e2850f4bec21b4; 0x3a17c0e194a79574; 0x332b5a587b0a3218; 0x172c883c98ee1716; 0x47b1426fbf0b3a14; 0x2f98ed0df2628318; 0x7249358d14e9d4ac; 0x6e0d84fb23d76dae; 0x3b337913c5703479; 0x38cda19ed5d79acd; 0x1311fcde261fd826; 0x6aeb786971b67b54; 0x72b1924fb1cfe829; 0x3cef2ac69cdb4b8f; 0x28c67fb672d6d081; 0x3981a07faac4e34f; 0x306ebe30a4f686ef; 0x6a420c57e5999fc4; 0x470bef3114c06fc; 0x79cd41db59056ce0; 0x42cecb51a09c72ed; 0x9245e1e6cab1af3; 0x4e7c7e3674aa3119; 0x3bdeb14242de3137; 0x573b4a4db455d4e1; 0xe40665cc2e48672; 0x49b016977d9e837f; 0x53833871a1416538; 0x7d477dc4beed2268; 0x76f5ec99d3781537; 0x18b21498e6d11c7a; 0x17f1ae7b146c5baa; 0x1c49a134a882cab2; 0x4515a21a6aa044cf; 0x5771d7d238c84cea; 0x24f40a4c954bfa6c; 0x624b0048f871153e; 0xa50f099a31fd678; 0x52ca4ce2208a4b98; 0x63c240dd3c63cdca; 0x1469e8a6822aa7a8; 0x297a2cd97b4684e0; 0x74c9afb7d6b5cf0d; 0x6dc2ea95edeaefd1; 0x78d952664079dbcc; 0x6aea7ba31a687991; 0x56c799f546c62607; 0x1b1c682709c53b6f; 0x3a8550eb2f70965c; 0x5ab27f4ca79b1ffd; 0x58cc2e7d633f0dda; 0x3c87072bea1f3559; 0x78c68bfc7378e468; 0x40783040ba4cb74f; 0xfbc96a21616c37; 0x1953a83c6dd9dd14; 0x24a6b0159a51100b; 0x20ac6fb7391dcbd0; 0x2f7ebc5d0448a92f; 0x498dc07448b594ed; 0x4c7a9bdd30b4f56a; 0x154f8ac092a53a22; 0x732086dcfaae0fea; 0x56a36e93a67e1a9d; 0x47cda0316edd4d4e; 0x3d687ca83cddbb7; 0x1a20000604135c50; 0x7d336478d83a1e73; 0x17cac2d50a1d0801; 0x25603fbcb10acee6; 0x17efff23de2c05a6; 0x23a58cdcb99812c5; 0x4adb6fe4b63bfd0d; 0x4f2caa2d160f785; 0x67db620a97fc8a5e; 0x9389d1d74d308aa; 0x1047c95b76a97cd8; 0x55953697c186f6c8; 0x6e93d6b017640b73; 0x22b677f9a49e5811; 0xde5d004a5efb863; 0x1a2f1dfb11a46c77; 0x6d9da1775405f481; 0x481948b05ed313bf; 0x6164034a30247a7b; 0x777e6];
   [0x1722cb56e5788cd5; 0x7e8abede36d493ff; 0x5c55800586d2f28b; 0x717075d2fd9bbacb; 0x617c731f7242d80b; 0x23feac6c3441df1f; 0x372486a969deb013; 0x385db727ee2140ee; 0x3855e56e1fb61026; 0x59b498a220c7e8cf; 0x17f2c632522c45ee; 0x5d7efcedf8cd3918; 0x5bc43c0fa64a9ad3; 0x2f6f10ccd844a4d6; 0x2fbfce51cc606301; 0xd66d8cd67e4dc8c; 0x29d3d3ca9a116f49; 0x4d8a7c3a17bad2a0; 0x1a71123a80eb0e62; 0x697e09f3f0945157; 0x7de076cb3a2eda9d; 0x693bccbdec24b95a; 0xc5e79e37c3c0d9; 0x29ed0f8402d1eecc; 0x7582c69b2f8009d6; 0x362054f3bc4ea693; 0x65b8e68d48f22585; 0x214c85f7af18dc52; 0x7132320893a9c27f; 0x4fac35e8704041ca; 0x14264ebfa932b3f3; 0x29125a8a191a20c9; 0x78ed042fa1896574; 0x181fae2677ab8062; 0x2723eccc487ae669; 0x4efd381bb39d2729; 0x30fa3e1943d987a0; 0x659313b598d88438; 0x55b7c4f3a6e5d1f5; 0x35695419482ed181; 0x67175766f2d77dea; 0x43a9203b834cdf94; 0x6a30a23eb3d7c81e; 0x422037ad501b9083; 0x2eab1c355d8e2826; 0x1c3b3d2a692c019c; 0x9f10b7125aefee0; 0x2680a49a517fbcf2; 0x72d8b6fec2df7256; 0x77a25f4b8e319353; 0x6c8cefd569a6af40; 0x2eac37d3e1d0c382; 0x1404fd3a443ef088; 0x180d77005538acd9; 0x4f3c8120a94060f9; 0x297993c7023887a4; 0x5140b9b3f47dd12f; 0x254f447d0d3ae569; 0x5bf8b89dbf271dee; 0x7c913565d721c693; 0x42f8b45ed2409c19; 0x402e77bdcd4ac516; 0x537a3ddc286bf0df; 0x3c975f847ac6039b; 0x50b569377e1be0c5; 0x48ac546197e55202; 0x5f938a9ccd7963f4; 0x65a2dc97ac69f73f; 0x281c5c5f8cadf89b; 0x242d4d37824df3ad; 0x6e52f100656d6bc1; 0x69e0f4c3bf9e3a2; 0x244f23cc8ec1b3c5; 0x200becc4f18914fb; 0x4cdbe672f29f26e4; 0x5d3f665a973a9188; 0x5c294571396c11a6; 0x6bfdcab53d1819c4; 0xcb0096122d3060d; 0x1ea6ff73e7f60310; 0x136f5839f8722ef5; 0x637f9cef0d28c3e7; 0x26a0fad158d17692; 0x40df0c6ac657b9b7; 0x7a6dbb8de8fb0b56; 0x6368da191abdbf6e; 0xbc6dcbcb718c604; 0x5b81a366da8bd874; 0x753a6c1a07ca9cd4; 0x523c3ef94969c3da; 0x793b5621e8f6ffed; 0xb3bf9237ecb5b49; 0x7d9fbb856eadaf3; 0x5b324430133c0433; 0x6b52d6c52a25fea6; 0xb43207f8b6eb6cc; 0x686db84de8c9adc9; 0x6e86ae169d7ab850; 0x300b19093d364b3a; 0x4865364ed4b816ee; 0x24f291f658c8e792; 0x307f240a30044130; 0x87a871409f16485; 0x6622c66946048002; 0x13b8ee66045cdc4c; 0x145fa2037f867118; 0x47e85be1e9284d56; 0x601339cd1b33b5a2; 0x665651a453330cc6; 0x4770ec255ecd0e4b; 0x5b76d5a6c9e6e6ae; 0x122aab63b69799a5; 0x6df84b3e7db261ba; 0x5e5803bec5fea051; 0x1621732fe54bd2b2; 0x5da8bc66ad8fa1dc; 0x5df320a750898267; 0x19daf9485eaa81b7; 0x36d39beb42321517; 0x54a787de5412d866; 0x2463151700631813; 0x2ba0c1aa2146a3a6; 0x71d8ab42fa689dac; 0x593b0bb1fc7532ba; 0x26a30e53a8843a18; 0x28c2e321dbe707f3; 0x235f555b8af19f7c; 0x242705174a9c3126; 0x281273b7000dda92; 0xe66ac8b33df16c3; 0x40ab22f3027c01a4; 0x5c4807a7e6341ac3; 0x51cc88080f0905c5; 0x5013cfae18fa4262; 0x38bc2c83eb4a5385; 0x5653bbaede7d7696; 0x500cc7a083f928f5; 0x2e12b5a959bb80d1; 0x23ff93d9d007df9c; 0x1245d0309eac1b41; 0x2b91cf941f9640af; 0x2e64b8bb3c2d6567; 0x21d39bc2132621ee; 0x54564e7b96c3c97e; 0x6d350b476d1c3e43; 0x6909e47b1f087591; 0x754758809045366c; 0xb39f994b993f4ee; 0x39cf39bf771518fa; 0xb6d42f5ba8b0f35; 0x7aee7dbadee667ff; 0x1765356abcc57d25; 0x7949032c6d7036ad; 0x7e529bf93d38fdb0; 0x197ae267d4966819; 0x474485a742b6ff31; 0xe2309139ba747dc; 0x7bdae8f9fd60ad71; 0x69e3e1fb98603a94; 0x32e2993170026969; 0x3783e5ab3f36728c; 0x5d29f77c1e9f6d01; 0x5ebf457839442b59; 0x7f14e83c88f015e8; 0x5b3280979c0a03a3; 0x42162590e12b1a42; 0x20c0fa8e77e4482e; 0x1db11113ef834e70; 0x6a6e6719d2f3cddb; 0x71d51aa98b85fd80; 0x6fafb32a0b4b053e; 0x18d035dbe7842dbc; 0x5c0b3910fe46e5b2; 0x1157b6259d5dbc37; 0x399a1c49ad7c8d03; 0x62ccca7537256f61; 0x72b0347222ab12c2; 0x49e6bef20f74dcfc; 0x634f2487599e241f; 0x396228b140695387; 0x4150214a319d9314; 0x31a9cd70d9b6682d; 0x3373fda5e33090bf; 0x1897b230863a3740; 0x1ad884d1962bcc26; 0x502139e2c6da6625; 0x20c9edd29b97b55e; 0x1f26ee35fac0f508; 0x47ea903cc08e0395; 0x28248591b6b8aad; 0x40288556d20906e8; 0x4c71b728bb04efec; 0x40a1727fd3caa1fd; 0x5953e979f7f8d073; 0x75bd6337ce185da2; 0x479697298eb894fb; 0x3dfab6c40031296a; 0x2396bf6e9e66130d; 0x50ca1af3d4e5f10; 0x211b274474f1b434; 0x4dd899b631d68973; 0x113c4bce57351719; 0xa7133247e5b156c; 0x4185863ce638e53e; 0x57193c595a80df0; 0x20d005362287c870; 0x1f2b29d92bb498e6; 0x31bc65928cd24ae3; 0x5fd08e07e820ed33; 0x37cd8fc1d139e11e; 0x5c1a07c97f7b0d72; 0x48b8d532fab8bad8; 0x15ee4bf2dd8bf091; 0x735ccca91e51a4ea; 0x14a1c14ba594782c; 0x375ac537fd7acd15; 0x3138cc42c5c38c48; 0x3d6da9b7cd7aa8ad; 0x62f32ba14bcba528; 0x77ae7fe7e98c4fb7; 0x6b50f92e192e6133; 0x43f9f38b327aad72; 0x572a8fde96688f17; 0xc0a96f2a1958c66; 0x4b94ee9093d3a452; 0x6c8fc347e7cd4114; 0x31d53d8a47265dd3; 0x15650409c2fb9a27; 0xe34aa1eaf223d38; 0x765271b62c7832a1; 0x59f52db882f3e5a; 0x1228f11ab26ff3ff; 0x611324a7f79567f9; 0x14e05a56c04ea54c; 0x58ef5c1561de20a; 0x3bc47e426ad6e08b; 0x69ac3d07b97f2be4; 0x1bf93db5b8022bae; 0x2b9475a54c513389; 0x1dda56b2fe21eb88; 0xb7cc98b644c99eb; 0x567498e6c989dab2; 0x4efa89f80a803b79; 0x49e2f7adde97bdab; 0x7d2f7dbdba2c06b4; 0x399f9d2bbbef5588; 0x68d85dbc23bacffd; 0x3bf138d55f0d3ac9; 0x2904b3b804d55596; 0xc6602c0f16a6b4e; 0x12eb97bd9617cf6d; 0x2116489275f2094c; 0x41845615952c52af; 0x394daf0abd3d9b28; 0x763502c810c06a9; 0x57e3d9e3f4c89e8e; 0x12152568ac1558f6; 0x5ebf8cfcd9a94e14; 0x608dca0f8511e084; 0x7a59b4a1703a1d12; 0x736a1af978cd82bb; 0x37c4f9370d4046fa; 0x58440379df00e3da; 0x52c9bbbb08a5e14e; 0x5d16b4822084890a; 0x79a5f06e71840f07; 0x7114ea1220ca7031; 0x475045e21ec4c4ee; 0x2cc2c4d1759e8112; 0x271bfc11413e88ee; 0x5f17f9b9bc2df610; 0x2057340c5a8e190c; 0x598297a733f08055; 0x639544c88f2332cc; 0x69104c2fc9aff30e; 0x26cbaf0ae827a425; 0x68997c2a4800d51b; 0x493a9e63b4535819; 0x387a40aecf4c103; 0x7f102c0d69689872; 0x7c6e2808cab150b1; 0x3911b363d68a7708; 0x23ec29268a787a55; 0x68d04c0e88e4478c; 0x5fc814acc86703ae; 0x1950cd757ee9b04d; 0x3b55034b19fc3a3a; 0x44f2f76ce39bc2cb; 0x5e82c54776d2ee58; 0x5c95452dfb75b115; 0x52c794769fc6dca3; 0x4aaf0512e73dcf0a; 0x36c7f021d72549c8; 0x574933b2506b4a7; 0x25acd7d932d0e808; 0x4d0f8ee786099d93; 0x3b14c1c8de624f2e; 0x748b4447cb929ac1; 0x5b5d3f94457c6d39; 0x58f3793a1188b88c; 0x118882e08333b43e; 0x1325b7a510e7839f; 0x487377f20383a3cd; 0x62758c2abb2e3481; 0x3c9d154d50fb097e; 0x88810900bdb39; 0x76aa7fdcd4927ea6; 0x5ab4a05abc764f0f; 0x1e91b077f30217a4; 0x523101a11c784e15; 0x750e0ad42535e440; 0x14c8c9c21013e9ca; 0x57bba9d81f4219c6; 0xb59c0880482efb1; 0x492011cf316fdf93; 0x7066c6310e531c2d; 0x281e4c529d8aa294; 0x3df7a1];
   [0x6aeb0437f57de714; 0x1ff0662aec7d8923; 0x6c05567eccc2bca8; 0x1f6ab241f23c839d; 0x68234ff53bcbc1fc; 0x59dfab17a00f3ed1; 0x1fba6257bcde132a; 0x2ab37ccec42cc5b1; 0x6482e456f8ca7194; 0x62961d397cc94f8c; 0xf4c0629763416cf; 0x57d386169407990; 0x6fe99c2be782ecce; 0x57f16f8e9f1091a6; 0x59eea1dd9e8f660f; 0x1eaf3b158be94e2f; 0x2b8b00efae2a332f; 0x4e3529b16139aeb8; 0x5fac30735aa3ccc8; 0xfca10b2efa2f836; 0x5b473880013ca373; 0x7c41ee16668d2e31; 0x4b0c69d1d99f54f6; 0xb71fcec65c8e16c; 0x30abed34e18340b3; 0x34e55d1171e905e; 0x541bb6e106acad81; 0x3f4da2fd19a61ff6; 0x29924fbf48c5b383; 0x2d823489b3a7585a; 0x74076bd195e03798; 0x1af5eec24b3765f9; 0x44ef023cbd681b9d; 0x63009e7b65b03f55; 0x72dc8133750731ac; 0x7a364dbd3cbd2569; 0x51f46db106f7365a; 0x27b366f6c90e94f0; 0x7391fa513888b0b6; 0x773ac8d56465cc; 0x4f38c01cc6baab3b; 0x5b1279afd4f3278f; 0x8f54137fa5af3d3; 0x4421e757cd7bd564; 0x298b505977e54cc8; 0x1d3e4ea68f9d7923; 0x45ef3d7746932c74; 0x3bdaa2f2e7f06f0b; 0x1de57fe40e383d39; 0x7b4b3164450852d1; 0x68326f3139f3d2b9; 0x5d7ff1e4822eb27d; 0x7fbad9d46783e4c6; 0xd4414bbd2e2ef2; 0x6f947ead43a55b25; 0x111db99798480e45; 0x6a0ebb283ad4efd2; 0x55727670545f251d; 0x2cb1620069697edb; 0x25e595a7f58d245a; 0x4f517107449abfb7; 0x44f3eed9794d215d; 0x59021ef5ed74bf2e; 0x7d18cce8bb08463c; 0x1dc67dc58f4799e7; 0x71b093661a77374b; 0x77a96a0158ff5d30; 0x6a6f698c6b281375; 0x5807fe3d84af3891; 0x5e6cdde48e0e4320; 0x5cfe9c1f926b9b39; 0x5530bf5e0e356085; 0x5efe1de7b980292c; 0x6aae7ea7eed8c079; 0x5c7dc5fda2a51ded; 0x7d0a4393b836eb3d; 0x2810526397884ca0; 0x7ce8297ce8abb0b; 0x76b8eeccaab18e7e; 0x7089e967820702a5; 0x5f48ab0796db8d4; 0x6015588de0715e6b; 0x49aaff161d5cf26c; 0x3af5af7e53e1b4d2; 0xfc2c5f70fabe1b5; 0x1425c054f78f34a8; 0x711199c6538b5036; 0xb2ab3736a9b7ce5; 0x244a2c28937b45bf; 0x3be6062af1b0477b; 0x2eb023beb14a239b; 0x4c9541d595201654; 0x6709e24ceb749679; 0x16e3a8273e89be67; 0x5d653d35eeb016a3; 0x28b7930d2b0ae7b1; 0x29d75af92f1327c6; 0x6259ae140cadde7b; 0x69312df29d56f320; 0x6f92b28135fea007; 0x7f4a3eabb448e217; 0x113de0f4ff9e0513; 0x72f08c7a067751c9; 0x4dee41fbcf506046; 0x20be07c5b7f8d462; 0x206a8f42c26a925c; 0x70823aa535359f93; 0x1ae3bf510eecc597; 0x180ccc69e6bb3a49; 0x8307ef04e52e962; 0x464aab4763ac96f9; 0x6d9f33a9ebf83c9e; 0x490df179b181f2f5; 0x6e8cf592368bd665; 0x445debc36d58c229; 0x3c879624e3ad8028; 0x3029e3c6dfb38ad2; 0x4b9b7f6d5f119ad6; 0x2952c1da98648805; 0x1f6a371035a44dfe; 0x1188b3df32a47651; 0x4e46181c5e3e8af5; 0x6f498d862a8fa362; 0x654352a11ad22fa9; 0x73591f98b0360964; 0x5e5a5cc40443dd77; 0x3895abdf62d9b9f6; 0x6eae20876feca214; 0x41892cc175af5a63; 0x5fa2630a153a7670; 0x4dd91fcb39185988; 0xa7ef5fdce904411; 0x1d89aeb7fa36029; 0xa386ac047021650; 0x532699cc7a54d9c5; 0xde6c23c62609f4e; 0x641388029e98a74b; 0x4f7c45c10dd5c112; 0x12b1c22dab33feb4; 0x25aa633de379a378; 0x431fc207cce43893; 0x3906b3a20f542b6a; 0x484b702a592ba23c; 0x2516163587fabd77; 0x6e7b1a68ca1d31ef; 0x56a320bcca4fee08; 0x397f835764811cfc; 0x436b636bacaecf76; 0x2f069d0ba6374cc; 0x4284309cc049ff87; 0x7b2847dfb2a09b33; 0x118ee4aae098bdcb; 0x3b23ee7342f0a641; 0x36fb3c411aeeb13c; 0x577386ed169e9069; 0x187a285fde2adef; 0x613f65e8c545ddda; 0x5fa7d07cab362de9; 0x5070dee222534da2; 0x40fdcf43d4a0e5a3; 0x436a8a129669cda1; 0x4e971cc8a0195b2; 0xbfc6c328f4f21ec; 0x527b54e6ac954f3d; 0x3ab1f829bb4b07a2; 0x328ccf376735d595; 0xd0358c42830b6e8; 0x7f506772d683236d; 0x7267b407aeb59bec; 0x2f9d8277678c40b2; 0x6a7d1b51fcea3d7d; 0x37158a084ff3dae6; 0x60b9587bfd1c46f4; 0x20d4c5f4e04c0ebe; 0x680dfe9d2df84a5b; 0x27b696cece05a996; 0x681c53732c99fe4e; 0x5c25245657f1f36; 0x64bb18da8f1b1d71; 0x482cee4a1307786f; 0xae1a5e03aef1814; 0x731cad75da7dc63b; 0x7c929b45f7f58a9e; 0x20f3093ce30cd997; 0x65073d56d0e5bb9b; 0x55a5219f48e079af; 0x5796b20fa97035d5; 0x7ac4c57dd6699ef3; 0x76e434ea7892be36; 0x76338daaafcaa30f; 0x22b5ca8f5f7d68ad; 0x74287b628c467740; 0x5a01579c696b7ce1; 0x6fa750fa95e81c50; 0x11a84d96735b6c3a; 0x1422a124507854a9; 0x6696e9fd7042e1d8; 0x6b1fc430979d5b6f; 0x626d3c901f0cf4a0; 0x4f9d04f4359ee5af; 0x7a1be6a2da35d741; 0x3df8d581da3b7b15; 0x34cd07a6a5e299e; 0x4088131e77d04f8c; 0x6357c13c9a3f0af9; 0x702d6f067ab97df; 0x4296b5d65e99024c; 0x54cc49980dd36228; 0x71797e9e60438584; 0x313db73b296556b9; 0x7ecd252d311f2fc5; 0x3e4ed133a7f56ee3; 0x2d8f7c8ad8157147; 0x616eb5808ce9b1b1; 0x668a84f1782691f7; 0x2b605591219bd750; 0x1d0f0d450c007a82; 0x5e8ea29f9295ee66; 0x1dd5b06c39eb34f1; 0x223879c862d4b6ff; 0x708f1c6b72daaf68; 0x67a7a9923be1eec6; 0x1ef7e96f25bb7607; 0x62ac57a4f8ff0c19; 0x47b72bbd12479031; 0x1c23facb806ae485; 0x65b9a6b58ba7f319; 0x7a68176687d21be1; 0x14c7a58f64e1665f; 0x18fcf09e5709e120; 0x54ce6374ee08a365; 0xde06276e2c6f6f4; 0x3cc2a15b0eb7a7de; 0x1c6b5eedd4e077ee; 0x7090d0c881c227f5; 0x340b5f934f8af7af; 0x38941a2a16db2cf1; 0x524411bad754642f; 0x701c328b26bfcb20; 0x532ff3616b5b63b0; 0x6a3acd24b004b449; 0x30c39af018d9c2b1; 0x454a5b00fe7491c2; 0x544191eb680607a1; 0x7f0ab02bdf600566; 0x7ebb1ae50a9a67a9; 0x4493a817da196aca; 0x71b8bfb19d30e55c; 0x44866f45e7cfedb0; 0x48d88942b31b1771; 0x3f5e0c3ee2a50fea; 0x34ac9248d7fc74e5; 0x345cd8f1732a185d; 0x24bc0f25a51394e1; 0x4f4f4e25550876f5; 0x4d24631a5c46e33a; 0x346efde9f252d1cf; 0x32dc073e147723e0; 0x572225666e363716; 0x3b847942ea260593; 0x5072a282f4c12f47; 0x67fdddf3be2c67f4; 0x4430e218e8aaa06c; 0x71c8d6256b77ae06; 0x2854751f5a2fd566; 0x1fb6be09bb0948bf; 0x1c96e2b5e357c749; 0x47a340cd4af58b07; 0x27800749b6982b64; 0x73eeb2e6581c70c9; 0x714e22a6537a9030; 0x4590d9a368fd96b7; 0x2c1b60ab7ae7dbcd; 0x179f77509566326f; 0x2e98b79be630f8b; 0x23009a195a26b955; 0x604fce8dfd3e3708; 0x3f9718a5d9a0630a; 0x75d7f6c5e901ceae; 0x55126cffb34626f3; 0x16d1c6dc359244ed; 0x4a9081617b3b4fea; 0x5b8c218e4fbf9e89; 0x6a158b69addd742a; 0xfd04b99bd196b57; 0x70d364b7cda8f16; 0x7343cc2a736bb0de; 0x68f7438db34a8678; 0x29872969f8f461d8; 0x3ae57670c7b690e0; 0x4cb706404a25424c; 0x16acbb75e3dc211; 0x55ef1a57db710c95; 0x3ec28ac51d3618d6; 0x6d68049fe1c1996f; 0x7ca57c5c0597eb12; 0x7f200f1556d49e06; 0x65753b4a44f8cb9a; 0x29c64bd6cd09c075; 0x447b6b63eeaf718b; 0x2b24e30753007d47; 0x20ac87485c9a442c; 0x49b8888ff183022a; 0x15defc7d28e91a35; 0xa1e2bba1c1fcd; 0x5dff210b4458043e; 0x4327c3a670555d98; 0x1b07bdbd881ce2ac; 0x7eb4d3a1825baf85; 0x3a0ab78799c0a037; 0x26eee453a5abf70; 0x2e3069f46308e89d; 0x3ad2a9ee896be9f2; 0x1088637f593a0f35; 0x521f9e55c5249b15; 0x5e7f19868acc1e1b; 0xb43c5bc0649230; 0x4b62];
   [1]]%uint63.
(* the constant bit that the upper bits repeat *)
Definition ds_hc : list int :=
  [0x4411544501155401; 0x77a28a82a8aa8a08; 0x2a20a80a00a82e; 0x1f8d50005410041; 0x1445045100550551; 0x41b8bd022a000888; 0x563f4883f06abac; 0x720a000350554015; 0x7a61b81f00bd3bb; 0x1f438724e232a610; 0x46f04fbdc6a757ce; 0x208802a222889dc2; 0x5005044151415110; 0x7d7dab1d4de60828; 0x6a82a2022808f500; 0x7247fadfe6033fb4; 0x11d4be8d7b753ca7; 0x4e52c41021ee15a4; 0x40eeae7a1638c15e; 0x2228163d26289775; 0x494de0244aebafb4; 0x1ebba9b095c48dc6; 0x4f23d36dab8253a7; 0x2f5ccb083aba534b; 0x1ba8c8a3b07acd0a; 0x495916c162156991; 0x558dd9bcf7c5e1b9; 0x417dea64cf5d05d8; 0x3b0ef8d13c1e8d09; 0x629ca08d1b385ba; 0x2722699b98683865; 0x5eeaa808031af373; 0x5ba699bc8213c3d2; 0x2d1d3c337231c7aa; 0x19e917adfe8ffa62; 0x43444c8cf7d0ed40; 0x6e1bafe906f94d93; 0x23b105a273a6ad65; 0x6ec722015e0f344a; 0x2dc81929255c4d53; 0x62bb5cab2f9cc965; 0x6ffb82621d32ba7f; 0x5897ab5776d0b7cb; 0x6e67fab716f06180; 0xa36bd766f48d312; 0x737acaa3769a9d96; 0x1461ff9ae1e6b70d; 0x6a07907e198ea620; 0x58c5bf4185a109c5; 0x46f5348461a77012; 0x7e39f4af08999f3b; 0x2375d5ee9df0b7aa; 0x3dd6f86c24bd6fe6; 0x721be135a9a4a869; 0x2da79482b7ca9bce; 0x71cff921dc5f37c8; 0xffe4206acc6519e; 0x663e283a8f3bcdb; 0x56427cd70dec1c1e; 0x3b64064ab5a59886; 0x5b494d709e0363f; 0x5ba0caad340b6b5b; 0xb24b133bd4c5061; 0x4c25da33d7438d9b; 0x1b601211eea2f86a; 0x439508d45d7d3306; 0x39ddeb2309975012; 0x4856b819a7b4bdb9; 0x1ccd848794b536b2; 0x47113900d3a921d3; 0x6125f3c16590d5bd; 0x60a83bcb1026e3f5; 0x3d89eaf35c1bfc37; 0x44c87eb6aebc79b; 0xfe6b04fcf12913; 0x4320ab0b239b54a8; 0x634fae8cd19c6009; 0x2fff132befb61378; 0x3c7b767b672d055f; 0x5df184b34ac18c51; 0x55cb4233f83e2f2a; 0x349f28edf67af1c1; 0x42df78b3328fb3f5; 0x588528613692b51f; 0x1470d89f80b94900; 0x39f4b558dcaf49f2; 0x7bfcb0fe01c3975f; 0x1c4115271be73346; 0x60d488139c39eac1; 0xa49b5c7a8c628f0; 0x6c77f58b6f76c3a9; 0x55d5dbc43557e3cb; 0x1aab7fcaf2d11e45; 0x5a8755e8d845da65; 0x30724bb014295080; 0x773793c3e9834e9b; 0x7531257db7b11361; 0xa4562c62e31f00c; 0x48e698a585f303ce; 0x21aa18d68dedec22; 0x4a84f89002e9ab07; 0x14db42405815d8d8; 0x1cd5ada2906b596; 0x57c22061a872001; 0x1636bd5347d860c1; 0x338681d875e790f4; 0x1de033586ebd458a; 0x611fc2a9792bbdfb; 0x5afa666dd35f85b0; 0x1971ec2707d72783; 0x209fa4c30756efab; 0x6f192bc791f8530c; 0x45399c64db1f8a08; 0x1e57c82e61dae57d; 0x7f5bdc4ff520f471; 0x10ce38491401c1e9; 0xebb22d844de49e8; 0x60dc4f0d3aa7d23e; 0x34f6bfe5d6747442; 0x394255664086ffe4; 0x2074de6779d4addc; 0x2d6c31f591233717; 0x5447042f9b5d5737; 0x34730192745fbf67; 0x1ad12d87042cf170; 0x3cf0d86f380461ef; 0x73dd4e44ec3d21c9; 0x6ec69d54f5b34793; 0x7c8e538892d263fa; 0x534b9723cae46b21; 0x6720ab5cbb97ed8a; 0x2940e8ee93fefa3a; 0x2b2733c188c8cc9e; 0x422359b72cd1af67; 0x3ca2f79ab2cbfc8d; 0x76df50260418072d; 0xd9d9c8f527064a5; 0x183b17b36cb088b2; 0x1b624977b1186ba4; 0x295d29011891da9f; 0x76501c1a203e490c; 0x50c15b1e372af708; 0x1e35c7e60717b3c0; 0x6c003166347e643; 0x1df6378112aafef3; 0x5800a662e26e3b43; 0x48815f899849e762; 0x20d584fc14b2ce71; 0x48e56d96047a709c; 0x7baa39ccd13734e4; 0x6addb40594de10be; 0x41364d48264808af; 0x3773ee6f5339bc99; 0x98436d354ef0153; 0xe208fd0b01d9351; 0x638648883f76b7; 0x46852249c92fb24; 0x30d38f19ebb1ae7c; 0x352e0199859234ed; 0x522ecb654b853a84; 0x1e2bc549beebdbb; 0x3f4cf3e5215215eb; 0x30be28210901495f; 0x7687e8f11a730116; 0x49087b2584aa6e83; 0x11b066992ce9d080; 0x27fb32f8e7939c64; 0x493fffa3b9937da1; 0x2bae0d2d6a0e9b1c; 0x64bb5199f4b8a795; 0x4715d86f335d0e5e; 0x6c90d84033580e28; 0x17d24748c6dfc113; 0x5d7cbcbb5088343d; 0x48fc1ba5cd565d87; 0xf7b6bec78ad3500; 0x8743da865148ee4; 0x22f65c6b29ec21cb; 0x62aa80cb47b3f980; 0x22ba253d17e9919b; 0x685e4834805adbda; 0x4f833511a0f34f8c; 0x56e090ddcc503ae1; 0x3c40e2d5d0ef727d; 0x1f5052acef0adb3a; 0x150cea0e6fdfe0fe; 0x7f9d2d65c4972d6b; 0xf527c6d4f875a80; 0x1b19e0dd66a17c13; 0x6b3ed9da20f38e76; 0x3d983f90a83db24; 0x2d112a17dcfcecbf; 0x3f65c6278862915e; 0x286ebdcdb9651287; 0xd1550ab4a947adb; 0x1418b9cdfabdab9; 0x4c849c87e2bcbc6; 0x482010de04c4ff66; 0xd6db3bc2bcb78; 0x2e3b7368e798893d; 0x65460a4058c59cb7; 0x6e69fc839faf4937; 0x5f84c38b393606b6; 0x4d3098e599bcbf7d; 0x9bde961265af3c4; 0x7ad15cfa8a0aef2; 0x36176956fa95c4e2; 0x16e4b7884dca14f; 0x19ab1c83b83411df; 0x58bc461b694dcbf1; 0x53e93486f5e1905; 0x14e9f0b397f4a2a8; 0x3a62d026bd418483; 0x76cea5aa79e83fed; 0x2b4536f86efb379; 0x51f7f39a71bf8617; 0x5ba85c8d4b33cfcd; 0xc04178b6e7e5b8b; 0x43efcfc0b6e169e3; 0x3ea115694a56f44a; 0x2aa07d5015bd5f0b; 0x1ab8994c45a01da8; 0x20134e66ee7939dc; 0x5fb9d1ff85bea6e1; 0x3d9447a96beeb100; 0x671cc890fc5ef443; 0x693b15a4b178af4d; 0x75724690d291ee13; 0x67be631ad31ae6e9; 0xa5867a2a82bd833; 0x1137fd6b2117ff0a; 0x1ff8f5e263940ca0; 0x680d937201904f50; 0x3b9c9c00251c7d34; 0x6e74365c2bec8534; 0xd771fb22b2009f9; 0x5413331001bbfef3; 0x2e481253d110b7ca; 0x67ce95cd131416c2; 0x6c51e22485e24e6f; 0x247e9b4cb53ca8b; 0x621f5838848c4407; 0x765e23cb5310ee7f; 0x76a8828c2b121422; 0x327934df3084e9ae; 0x7df4a96502b630c; 0x79483e3fa7756af2; 0x2ab6b9917fc6c7e7; 0x3eba43cebe23faae; 0x2cd20cfc072ac0d5; 0x662f271ec8d76392; 0x70d349f3a84a22f5; 0x41ac86100fbc3054; 0x7e1678a4813484bb; 0x19b05de9b21501cd; 0x5d6a942dbb5859f9; 0x31c432808dc5411e; 0x21495527ed03f68e; 0x7b62b06442f06927; 0x1a37fe2f82d23c54; 0x59204a887a25a6ea; 0x768ea1175e5dc7d5; 0x5045d274e10dc9bf; 0x5ccf987e2100e267; 0x2dd2970d67221770; 0x396b5e09f564c24a; 0x18b67c3ea6ca391c; 0x7722890666018cc4; 0x652a1083c7cfc941; 0xe6bd8b07af9020c; 0x45d396d641e5d217; 0x390188ebff343ebc; 0x619d64c9f2e04a6; 0x28fee63d96bcac7f; 0x33d7ab8f9b21aef7; 0x446cf8fc5a14a960; 0x20d612b5b3a14490; 0x7b278555600dabd5; 0x24eacd15e2df50bf; 0x601bfcf6ec358f28; 0x66c6ba82dfaf8832; 0x3b26327a62031078; 0x53b151eca05c36d1; 0x55377f58a41f5bd6; 0x45776154c4a90454; 0x2b4c7d59ef2c2a06; 0x7e559e80a9d210b4; 0x21dc891116a0966b; 0x1b000e1a2492d236; 0x33559aa33004196; 0x17a8f3b8a31f28b; 0x1c07665d164cf8e3; 0x46d50d6500254b91; 0xe28597759dd2ea; 0x1eea2505db914fc4; 0x56ffbf7faa0997dd; 0x1e0eb4429ee38b9; 0x7a4cf6142b967e16; 0x45aa0562a1ccb172; 0x7ff7e361df5575d7; 0x1ff136d85ebbc692; 0x2777e81d62bd3844; 0x4b80706a9aaaa451; 0x2022e2f5372a42ff; 0x1113c05784129010; 0x7f50d5fa77725555; 0x6b05ae50fbafaef0; 0x3de83de83de83c1; 0x3878005002f846ed; 0x7052705272fa72d2; 0x1540b5f0a5f1b5a4; 0x55d575757fd57f80; 0x2bebebababababab; 0x88a0a0a0a0a0b5f; 0x4444444444444511; 0x2aaaaaaaaaa2aaaa; 0x555; 0x200000]%uint63.
(* the bits of the lung *)
Definition ds_hu : list (list int) :=
  [[0x761d304d02514189; 0x648f4f40e0253ade; 0x47bad9b64e8b2c48; 0x6d7949870b392906; 0x11a80972e17752ed; 0x9f24c5989cb0b80; 0x7f35354290f621bd; 0x7b57af629567d284; 0xa31970fbfbb7ed4; 0x1fdcc5c6d9419282; 0x42590b68db262d79; 0x7bea0bc84d56e60e; 0x365773ddf86d04b6; 0xbacedc905c7f788; 0x660b38070762194f; 0x48afbc6ef30157ab; 0x4b0c83d13034d930; 0x3626029de885cce2; 0xc2eea0b2298f4ed; 0x7ea69b02482f4590; 0x741c482e98772c15; 0x6abf6916ddcafb70; 0x5fbce694bd1c62b8; 0x3a28aeb34464b814; 0x58805e2ae009677b; 0x750f02bb5b75d4c2; 0x201ff22deca93e21; 0x5b69873b2c0c0ce2; 0x3cc119a9242ce7b2; 0x7acdcb83778ebf18; 0x71c70f9459bd4caf; 0x2862dc90ebfa994a; 0x5c819033c1ee4284; 0x5b47562b698802f; 0x5eb754a8ff7d907e; 0x8d3aa4b78299da1; 0x2b49ebdb212d426; 0x63971dbcfaf44c3a; 0x366c90a572b5df0c; 0x5762f3ae73561ad0; 0x59e20a094a74548f; 0x41a55ed23a1dff33; 0x223e349f5b265ef6; 0x553f00aa33f57ec6; 0x3ef7ba0f1132b273; 0x4636bb7737c507cb; 0x1e0c0a40d3ff924; 0x403b63da99eaf20a; 0xeac0b95162c3da7; 0x49d2d4d1ef7ea401; 0x76ecdb75fd70705d; 0xd1a928c491be1dc; 0x677f8215dc4d36ae; 0x67da26cf3b4e126c; 0x367ceff36016c30; 0x12435e95d6ca22b9; 0x1f80c2ae453742fb; 0x8dc8ce19f1f7c1a; 0x2a8c6ccf2d25480b; 0x4d05f86d62839bd0; 0x4107b74357f2a002; 0x5a0d80efeda2c203; 0x6586e39e6973b56b; 0x41db1f6ee6f3585c; 0x2eee1992cc8e0ee4; 0x503b4cceec60971c; 0x7203d58bd46b4713; 0x3552af9f69a21eab; 0x5cc5b29f968fbf29; 0x4c840418c931c965; 0x59620a20b460e6be; 0x666ea7b7d9a74e99; 0x24a4d22aef38af94; 0x1892dfe6c8e87e79; 0x4658867fb186f730; 0x1cb5ec23bdac46b6; 0x2abbd58165a1b587; 0x6beb13b453487a30; 0x5477a248593194fd; 0x75aaabd1db552cdb; 0x76d24ad7726862d9; 0x65a914c54d93334; 0x6b3297ec5af3ef2d; 0x7eb0480bb1990a78; 0x4504c9e4049fa5a9; 0x76da72f703b2bb8e; 0x5b0cfdf0067aeb7c; 0x6b6a61d2fca39919; 0x5e0fb1a282324616; 0x766f440a54d46d64; 0x5a2a850e2f0d2af2; 0x1273aa055ad6c401; 0x695c72a9c41a9c4f; 0x3250484bbab668a8; 0x1328ab3ad40e4ca5; 0x7062af3b0b60374c; 0x3a2c4426733418; 0x319634ed223e4909; 0x350e4d7b6f6bfbb; 0x21c514953f8404a8; 0x7416135d90f632ce; 0x29d615462ec9b41d; 0x6e937c68176bbad6; 0x6b7ff26f0293240a; 0x1d6b2ca0bbea358d; 0x6dba37c41b35aa7a; 0x183bf7dd45cc8a34; 0x2e2d4d809584a964; 0x3c6fcbff7007bdd8; 0x419e99461fe5a8ee; 0x67163227f6d71790; 0x1a826f11cb6caeb2; 0x2d6bea9070b25bb2; 0x31dd820d1f39f296; 0x1c385e584677e6b9; 0x10030232f96a79fd; 0x19ab9e2b9b1366e7; 0x253320998e1b513b; 0x234fc48c379b1add; 0x2d461d9c069f6193; 0x65b44d42c3a8d11c; 0x3a3f4e2f0b732ca9; 0x429e5db9b7522f78; 0x65e61e6d275c944; 0x71ae7ef556a5bf32; 0x2ab98506ed7d7367; 0x4d5d7135cffbd896; 0x78cbd768960aa01b; 0x7db67cd798462e58; 0x160583f36089f99c; 0x241bdab6b3bccaf1; 0x42ddfd4c5d20d66f; 0x578869276b8dba04; 0x3d1d9c6097d31560; 0x34c8cabdb08a96fb; 0x76278992d6727f92; 0x14fcab4ac7605861; 0x56f7de8a722b7b7e; 0x4d0b41bed883464a; 0x5849cddf921a6fa9; 0x342d6d6e8d7d00a7; 0x1ba3d370f4cfbb65; 0x1be588d1f3d8938d; 0x1eb82df8f4f473e0; 0x771a68336aa1144a; 0x270747da3e6b2085; 0xa97bd58c22bffd3; 0x43acb26bde92b904; 0x5f2f480a62e7d915; 0x566ceac8f1d02edd; 0x3019f24e19b150f3; 0x4a874522449d65c6; 0x19a80233d2d61db9; 0x47c49192c52df4db; 0x3d79bf2ba5a98123; 0x5a2e5c2eb73fb14; 0x2a4850d4ad48b68a; 0x40cf21cfe67767be; 0x12dfb2754301a5a9; 0x75527c41dcdca082; 0x440ffaced63ebf61; 0x3305fc5cb7c93434; 0x22d2d641dd79b792; 0x59d181cee0705aca; 0x57056deef42193a6; 0x31f56e14bffcf735; 0x2645e80d93292db1; 0x41587f1d35bfa992; 0x6c03d03985bb8e6f; 0x6c00f0864c949645; 0x3c41543e0e655630; 0xac6ff4d2aaff5c4; 0x475882d6b3a6fcd1; 0x12f09bc5076ad2a0; 0x475b99661282003e; 0x172121bc8af6af4d; 0x22cdc7498282dda2; 0x1552dbabe0459715; 0x5eafd8b49012fd41; 0x50330ec41bb41b73; 0x6f5bd6c5d436e089; 0x51f3b65ba8b93a17; 0x7070297639f23059; 0x6fb1bdb8ec4e47de; 0x6a7e21bbb531b86a; 0x7aab2307ca2f93d; 0x3dbc05525df28947; 0x471522223ee9e337; 0x33a442123264e808; 0x4c38c42aa0711f36; 0x18a05c17999bbfbf; 0x544db5321d73fe8f; 0x472b75baa8e39123; 0x2eed077708063464; 0x39793e795a36c2b; 0x4561241e732626db; 0x6ed5d56732e97f8b; 0x5a3e177077129594; 0x11514f4837514454; 0x22e0e97715b36825; 0x1d120d822175a54b; 0x1079027a815024d8; 0x1ae55bb10eb4a64b; 0x39ffe516ea421c1d; 0x190e1391fe3f3d8b; 0x4cf1182c1dbe02cf; 0x18ab339352d109eb; 0x11804a9bd80a5996; 0x3e56ba490da8431b; 0x1d5e481201d7a1a9; 0x1cf6c28e7fee5846; 0x2d47bfece54b0828; 0x507f477ccaae3e6a; 0x560a93ba37d96c8c; 0x6a4c73c5b3359c85; 0x282f9a9b2fa4dafa; 0x278c1e6bfab917dc; 0x13e61ef12080ce12; 0xec6e6e4bf3acae8; 0x12c88537b01849ea; 0x45e3ff8303eae0ff; 0x2a60efa56b003ffc; 0x6e672959cb1758ea; 0x5fc6fd599203509; 0x37d36cab9d0ffce5; 0x2bb81ed1ad052f00; 0x26bae82e184a7eda; 0x7b980599a3765e8; 0x2973632526e75c52; 0x1a7714c45115fcc; 0x1bc43185a4a5b94e; 0x542d0420a0fed5e3; 0x59d9efae18262615; 0x2fa6a79598424a6c; 0x19e13228cfb8d4a; 0x70f6f5740fa588dc; 0x6fc2aa960c6b7a87; 0x75336042a6457352; 0x4d1971b44fd45609; 0x5efd68d7b7ec653b; 0x6177d9dbb2ef15b9; 0x4aad993e78ea7b2d; 0x3eea41da1ca4380d; 0x735ea45d36daa3a1; 0x1e637685a6f6ae0d; 0x5fd4ca779e2e0826; 0xb313b994911259c; 0x7f282e0c02a31b5a; 0x664f6dfed223897c; 0x30e89132cc0cfca; 0x53297621d67aaa26; 0x49a221e10ec2da4d; 0x68cabba336d7a025; 0x3dbb82ffad902da2; 0x320291d5a9d2afc3; 0x38465994147a0074; 0x596ad220bd599065; 0x6e4ad891f04b6ade; 0x706d7b0944a49fa9; 0x7d564ebe925b0406; 0x47ba25a5c260a29; 0x886205a87df03c2; 0x547fa1a0c412dbcd; 0x2401075e6d6a6755; 0x4857483fb24c32c5; 0x5a6a9cd43af58386; 0x5d827692800ad641; 0x7aa995d1020b8d54; 0x61390cb54897b2dc; 0x4987f87c25da350; 0x9c39a6e4f25e196; 0x23b7b137bdcc8670; 0x32189abd0864885a; 0x3346d90b92ab1881; 0x41c372583ab2f3ad; 0x2b5e490030dae097; 0x9fdde2ffed7a24c; 0x3929810481326f2a; 0xddd17062b8b2fea; 0x11488df56009c090; 0x2ac4527704de4448; 0x3ace0d51b5ec0db7; 0x17b17586dbd3f057; 0x2a0680c5894f88c2; 0x138408e5761b3a5a; 0x213d05ecb5e16912; 0x3d3388681911cc31; 0x55ea45e81f7f860c; 0x1a91f6f55029b98f; 0x11a5046488756618; 0x4a21f50a39c085c8; 0x7e5751b4ab2ceec8; 0x3e4bd1aa4a85895f; 0x15f22ef411d4fac8; 0x1eec052e2661e0b3; 0x666ec8ffd0c6e6dd; 0x49f5a262897fb640; 0x7f1ecc8fb8907f85; 0x3a448f226233cd11; 0x2c1bb55067b94cae; 0x45e4fe4ed9869d29; 0x56ddcbb678870ed2; 0x170250ae73768c1b; 0x9e9deaa0f9798; 0x447b989a90008a5a; 0x4edf11a47b262c47; 0x508395a1ed089ab9; 0x372739da4ee6f7b4; 0x3088d6897e78b7e6; 0x241e43d7eaf9d854; 0x5268d3013992fb4; 0x53a67f67183d8246; 0x4cc0d445521a4e7f; 0x3b6dd94ce802b3a2; 0x1c7e758e65305b9b; 0x4f2b1fd2cd5ec3a2; 0x770adf22cd93f572; 0x10e8ba];
   [0x284ae872e978803c; 0x56f5894a6792291b; 0x446e1c852c55503; 0x539bf8b9df6bfb8a; 0x7d1718419c6d92ad; 0x58794b5335e5d728; 0x68702a8a3b3d035e; 0x5f13fcde649a0f2c; 0x5769391e64a2a346; 0xc21088c7627fffe; 0x36617133db92d9d0; 0x40a371755de44ab1; 0xcc5f995480df2cf; 0x4b89597df2079359; 0x2bcc7863f155e7fa; 0x40598c99fe17ea40; 0x479f2e0ff2ac5e16; 0x637b95520de6976a; 0x2c73047bbb5cf064; 0xe51d90560fa7d21; 0x6114e66e61895fe0; 0x2e267538ee0a8401; 0x61580c721fab48b9; 0x58db84d1a9347374; 0x48889dad4bf2278; 0x69d4e815072f0cf6; 0x2eb768383acdab86; 0x2f877526e67f85b9; 0x77aef5a061ad65be; 0x197f350a737ef204; 0x2b1751eea89882ca; 0x1e9c7ad7ee0b6894; 0x5b7a1edfa5fbc959; 0x808959c38324dbf; 0x522181f61d8ade44; 0x12176c9272c88891; 0x668943e38a26ffcc; 0x5e0bbb4064e567f9; 0x50d6a8c9c8ad33f7; 0x2e54b06d24a49f3d; 0x7d1aa346d857d031; 0x695a1e8cb2fe8198; 0x386fea4dff328d0f; 0x1c3225117140853b; 0x140bf761997f468a; 0x1a7b26d081213fd; 0x4d0f9f9e2630f3cf; 0x2cd5273c5d7b2177; 0x22772631ca47c8bf; 0x36f015942c3222af; 0x23b68868c7db1ca1; 0x6fc78e82c182793f; 0x38ed8b87afd23deb; 0x122990f73e625a4a; 0x35d5e5cc9c557858; 0x7e645f332fd7bd16; 0x52fadee7fe96051e; 0x3310abbab824b577; 0x7fb9095f92543f73; 0xe10d6bdbfa5a652; 0x5694847ca3c82f88; 0x3a714e3330a53b19; 0x3cda6a6fa4465e8c; 0x1616883d64d7e60b; 0x18972e6674a46205; 0x1812b579373913d4; 0x63ec0152506a967f; 0x3f5812af773640b2; 0xa2594f7b09ae7a6; 0x5d69cf6de2274e26; 0x3cfbf68294cd2f3; 0x4d4f981a550f29c8; 0x436fdd75b5969cfd; 0x5d41e72d5f76d84e; 0x4ea3a56f8972cf3e; 0x29e9e93064d2759f; 0x1a63d8207358eaef; 0x7011af941c92784c; 0x4153de2ebfa3ab60; 0x6d91d1ce296193a8; 0x1de6f9f71d594fff; 0x1fde74ca112b875b; 0x7896fd84bce3cbe2; 0x4b5d2db03b03b3e6; 0x2d7b00b89c159259; 0x71809f15953ec477; 0x111e191ab45901fb; 0x6476fea7a4e7ad37; 0x1dfc0015024ee210; 0x51d148bd9ba0b443; 0x525b8a14a941f51d; 0x1d75da5da2414cdc; 0x65b2437f9d6a83e1; 0x4958890105bb7cdc; 0x6248c0d836271221; 0x45e151af22bdef57; 0x4f0470f0ad34c6b6; 0x2e8131fa699b5ef8; 0x432f5ed51a35638a; 0x42bf9a216f324bbb; 0x405aa703d543a04d; 0x6bbca083e3907919; 0x5e0ae7c36954a399; 0x5d482fde01a0617e; 0x7a9474e512220e3; 0xbeb45ba7d25fd50; 0x3d772be5bfd64111; 0x1c6fc39f841e7df8; 0x616e6367323aaac4; 0x2882000962a5ac60; 0x3cbd781bc7142f46; 0x29879cc67d8151a; 0x2b119190b83f0a7; 0x5768374c98d94eae; 0xaf647228e39ac2d; 0xc1100e12ce3792b; 0x179bcb1aab689a2b; 0x442b3513e107e774; 0xe26a543021ac73c; 0x3617c1373c7a0887; 0x2c0a70752de48c35; 0x3cafb3921c2d1c8f; 0x580cc75f039f8648; 0x705e0c6fd1bf1a79; 0x3494700ba319500d; 0x726e41072ec871d5; 0x6151f578a87ba6c6; 0x7c38dc91a774ea87; 0x5974d1285d62ebca; 0x58ffc5b03e59f07; 0x5ea460078c1455ff; 0x4c8cdfb5d96057be; 0x4608027d630edf10; 0x3f7a2492f62d59a7; 0x40ec04baccee6f14; 0x14cc18bd5d8c5e14; 0x4c7c0f42abfe9b1a; 0x633d2a1509dc363; 0x71c1184b12e417ec; 0x5216e5e1e1e0722; 0x63c56dffcb767a9f; 0x5223790a55912372; 0xe601ccb7fb8afc4; 0x519e8ee7576295bd; 0x175dd42ff49e4816; 0x4d44f600c0d19373; 0x25aaab5375e430ef; 0x68b19ca6d1e89d80; 0x153dae07a6788001; 0x50fe7214cbc5f7a7; 0x6b10e256d8ed0eef; 0x3ec17f66a512a4e6; 0x7b4ea24cc004ac61; 0x46a17a0483933126; 0x22416d6af8102b0e; 0x45d6beb16e3e72f; 0x3b178354b5e0aa5c; 0x7d29b13dd93f4373; 0xdcc997c801754e4; 0x55187c27a37ffce; 0x28b9f18c7201aea1; 0x755b29e7c84f0cac; 0x44473f4e326efdd8; 0xea722cefd6d7fae; 0x69da41119fc973df; 0x6610111a241ea7e1; 0x16b9ce0b4df6eb78; 0xad37d5a32e066bb; 0x38fb60b130f5d22c; 0x1f5fa8bf785645ec; 0x7e9dfabd7e246192; 0x389a29355a924dba; 0x5b25ef3c5edad377; 0x53ca524a2717bc70; 0x67d211a64a5bd68d; 0x3d27e8dd403ec1a3; 0x519ba53ef68a891c; 0x4b5a773e127f6a33; 0x476022c2faeb01aa; 0x27acd25d955413b6; 0x2a9194776de4676a; 0x72fe5107ab19afe8; 0x4908ff5dce5a7df3; 0x70e40bccd9962ea9; 0x452722c62f7de733; 0x6dce7114dc11a2f0; 0x5e818b46fbfd6323; 0x49b77234129fdae; 0x1d37827a4601ba8a; 0x7eb21ec92d779dd0; 0x4d51bbb7625c4333; 0xd667568672c89e7; 0x6475f38beca1597a; 0x2788de027ce54b79; 0x5a097fe931fb63dc; 0x5f4e63361aa12171; 0x1c399c7a6de56087; 0x4411afd096b7d185; 0x7a28ad79773da63; 0x7c15068470159b42; 0x203d07e3a3cef389; 0x21be126327d5e0de; 0x58464c9a1608a63d; 0x54accc352f2a5bd2; 0x72e50f5b7043ea03; 0x1b06c52d5ddabe2d; 0x5ff297dac5ddb8a5; 0x34a9f553209c28ae; 0x659156f33117a7b2; 0x41a075103976c69e; 0x38d2763612db998c; 0x29ee85a927fc9144; 0x77d978b252919b40; 0x669995b3c4797add; 0x774d2a969eb3708f; 0x202af17678524340; 0x409d41272522c58a; 0x117664c44b3c7c37; 0x5d34eb5faa695c6d; 0x56cfe576165a01e3; 0x51881cd68f4fda88; 0x616625e87152afbb; 0x404870d1951b0c64; 0x1bfe4bc494f83bcf; 0x6af3eac8a1474115; 0x11ba6689aa7f4a94; 0x1f3778ebf4cad54f; 0x46d448ad18dec1e6; 0x2ef6b5d0cf2482a9; 0x190a7eb3a4d41408; 0x16f6c7c6cc567621; 0x4ff563b71500e20a; 0x36a867f0de9124a3; 0x29bf9246ecd8fc3c; 0x3ca23d7858f22c79; 0x320c069cba9cff34; 0x13197f5fbb8e12d5; 0x5fde55f6f62f53aa; 0x54f85f392e51e0a7; 0x5f64f43053e41c1a; 0x14b450ddfc26726e; 0x22487a0512542d39; 0x3bd25d2589c147c5; 0x41d4c84e3e2e6d82; 0x2c0219d525d3fffc; 0x7a748352534d1a03; 0x530a5418b695549a; 0x2d86d55d2a7d66f0; 0x153b1b148574750b; 0x2f2a4af0225b6b9d; 0x6c8d2e310f5091fd; 0x6ef5902aec29d2a7; 0x1d9796f0a02e78ad; 0x1af7bfc054cd40ed; 0x5269e5651cdea361; 0x270c84ead56885e5; 0x2d8bda02ba8437a4; 0x3546808f7e28e8a9; 0x1fda2b7b962ad4a3; 0x183b90b6242e1a5a; 0x62516ec0d40a229d; 0x14ac26c773ddcc32; 0x4814425a3a06b05a; 0x6cce8f5993388fce; 0x182abf35703d8276; 0x72d0734052e3fa90; 0x32e930066c521b8; 0x61c73d9def85bc52; 0x65bacbbafb43addc; 0x68f10999593f30e4; 0x59f2da67f0191af6; 0x4948ff8168b85642; 0x4333824cd7b6b940; 0x371141056a7c001; 0x566aa3a39321a610; 0x1cefb1d1285affbc; 0x2917cd3fe57e87bb; 0x435366b763ab2cb0; 0x519a7c0a6ead43ff; 0x6bbdecb0e0a48454; 0x511260120769043c; 0x15ddc17368fa9af1; 0x6ca1c99487e93ca3; 0x5b7e21ab62d3d0ad; 0x26c86df2079efacf; 0x4cb6c18a155c3bfb; 0x24962fc6c59411d7; 0x15e393a9411a0b4e; 0x4aab3cdb2fd44e99; 0x29a1649adbc80a6d; 0x7dc88312da5d4501; 0x726ec7846487344b; 0x61d605098045ac29; 0x698d7b7f3c333f31; 0x7d2ef1a542cf6dca; 0x47c619320d36faa4; 0x6281efeed3a90355; 0x40bcc1fb8daa425c; 0x69e3bc97f1bd6497; 0x1579841a81821cce; 0x26695b439ffca1a6; 0x58a437327f0ee1a3; 0xdfa986aa82d7941; 0x67e760f77682d8a0; 0x7dbf23c702f78d8c; 0x39dd044c9841882d; 0x345eb9c386ed6cf9; 0x58a5d2fca1302a7c; 0x70ec6268f4ccab3; 0x33f7e5a8a9c5eb7a; 0x12e8f5156cd99664; 0x7adfbe8b836c0d; 0x3f6f5096a7b2d6c1; 0x7cf9808de410e23a; 0x67d6712fe4360164; 0x54fb6b19d848a2de; 0x31b78bdceb983844; 0x223edd];
   [0x3961c57b22c8ee75; 0x1e6e274eedce99d0; 0x6b05a81745ef4d6; 0x78302d55e9772245; 0x1ccabf369b90a592; 0x2e6d1356228227e6; 0x18a1cae658ae9f2c; 0x227326ac4cfa8047; 0x24bf51b60e0101a8; 0x71a1018225d2a9d9; 0x6a8c70e2cafca389; 0x6cbcaf28332d1d39; 0xcd167bd9b2aed3b; 0x47332568ff0e96a2; 0x4fef705c2076bb1; 0x1d56c43289f9ba11; 0x6a94c7e2d499903; 0x32d0dc99c5711035; 0x605f72d368e06aea; 0x26c57c7faa963dce; 0x1fad319a2904162e; 0x4c17be0f6ad467af; 0x409305f598e7c8b7; 0x552dc896abe7758c; 0x23556c56c652d25b; 0x50b2aa6da5325ae3; 0x4cca7cec313c7281; 0x6fe5146b9e4de4b1; 0x1ed953895122e0ef; 0x43151c9680899da6; 0x1fb93f5033524799; 0x22a44490c75832f1; 0x558270fe414f99df; 0x22b7f587b9bfef8f; 0x6ffa80289ccd737d; 0x70b1a73d28dcc0dc; 0x1e3d60e671a8016a; 0x6b38551abd5c7181; 0xe818357b4b1fc65; 0x21dc4cd58b5af9d4; 0x4f2eeb66aa272c3f; 0x6670276c0f6ceb8a; 0x1cb237950f6fd62a; 0x5f899d9a1311b39e; 0x41ea5d69735e5627; 0x7b91b5d17c7839de; 0x6b5785dd692bcdbd; 0x7282dff74224213e; 0x52fd9df343fd8674; 0x7a4629529fe7e511; 0x21990a855c65904; 0x17b524dc80001aa0; 0x4629d7a8aa95b9ac; 0x3ac77c8656c31dd5; 0x17a564b0db39c008; 0x8cb36e78c93c474; 0x4a144cf28023104a; 0x436c64aa1081c699; 0x65053630889a99e8; 0x168b5bb55374b82c; 0x7cf1e2ad7bf65491; 0x7def4677aef6ec5e; 0x4ca708129b4ae311; 0x7e46869805d883e6; 0x70c3dd07dd7c238; 0xd6e6f3d391d8de; 0x37af8b2851885d05; 0x4e749609dace79a0; 0x66df9a6822106fbb; 0x61e16ac32d2d6063; 0x24c7551f85735594; 0x1851327139bdfe65; 0x39601f1cadb085c4; 0x5479e8f6ffb4883e; 0x48c9b873e9de0d59; 0x2ae7fea9fdaebf93; 0x4ba55346ae842f44; 0x6267dcccc109d059; 0x67ef7c6dbe90d319; 0xe015d8ddbcae512; 0x419ac4a812b4a718; 0x32a5256ef8ac40e7; 0x793404a7f7887739; 0x13cba8c9f71edce0; 0x39f88649f63b368a; 0x13a1af8dda0ade92; 0x4514d67fc4bbafc9; 0x5dd2afe7d897a5fd; 0x3a860a3543a74410; 0x2cd7c0ca4be275cc; 0x39dd2b45940d2b6b; 0x429f0e1b9e0dbeae; 0x71cc1f696fee56a0; 0x70188d99835c4c86; 0x154c0fd808ac1961; 0x41952e2181e42338; 0x20042e8a4946083e; 0x3cd508dbe99dad36; 0x128e184f43f66b8f; 0x10de9126010b2a61; 0x145c61d56bf7db84; 0x60549eecd2556181; 0x3a1ce0f45e8eeeb8; 0x4f8cf61c2193d177; 0x55354cfd893e5c7f; 0x61c00bcd1f8a8908; 0x14f5133aa542e95d; 0x3eb884dc905fed0f; 0x10c57c191a8cbb76; 0x36e0e00f805c6cb; 0xbb057644522e427; 0x67adec302168674; 0x4b84830156feb9aa; 0x6cf9a4648a9a95b5; 0x3a026fc254b845bf; 0x154f19893afd9b0f; 0x664dd361283aed1; 0x7b5741990991e6e7; 0x20ce548a96aac80e; 0x295783d50ea83bd1; 0x59c9079c8d353c7e; 0x639bc2814cd87451; 0x142ba3b59e53c9bb; 0x13c71f6473174ca6; 0x61d2763503f5c512; 0x713e7b436a63ccf2; 0x7f4a3f56f6954f54; 0x32141fe239d542f6; 0x26cedfceb4bb38c6; 0x212af4c71bd641af; 0x561b52f434f8873e; 0x29b188a74e4896df; 0x6868f4ed22516bd9; 0x5d5dd2e9fbe42dde; 0x104027c9ec5eae6; 0x1ddf59de7c41262d; 0x214c4b9f0de27397; 0x3f17259169787ba8; 0x7c510822088b8e34; 0x57edc1f6c6bcf89d; 0x2e2af52fe69a2069; 0x9489e58b777cc11; 0x4f59c139811bc222; 0xde37fa5c4a87b26; 0xeed72e8e6745da3; 0x34a2f9c4e3ec67b6; 0x4ae7396f3f67a8e9; 0xfd10c338c6c6c3c; 0x6a940c569045b1bf; 0x78af15b42a6c6e06; 0x29263a49fd86bffb; 0x491767c444274313; 0x9fb991b7fa5124a; 0x4a942c0b2e0abf6b; 0x4ab5a27831a6ffee; 0x129c3a316f6bb65; 0x5b8e9c7a6c89e1c2; 0x2a1a5ab47f156d4b; 0xcccb8bd6e1442ba; 0x5c29fdff4b4f6d71; 0x7c215ac57396964f; 0x76480c94ff6afa0e; 0x7267811db1ab54c8; 0x154c0a21a7977804; 0x61b432c548975b0d; 0x10a4cd2b1daa12d3; 0x19e62d82e760073f; 0x4b9c9f2aa9ed80f3; 0x6522160421791ede; 0x5265758d2532dda6; 0x73c9660c093fd798; 0x2321c6ce051d55d6; 0x4aa44be17104125a; 0x7e45e279d066632f; 0x7bb95674de709564; 0x78b57ab88a76ec; 0x7f3bcb6339ce6b4d; 0x4cdc30d85dd1cc46; 0x2374ba44da0e42c1; 0x30c43e9ef5e0ca43; 0x78ed9580f2f9a515; 0x6d8192428ab11f0d; 0x107265c3737b5388; 0x1519c066aa4ad691; 0x556bd6c759188f47; 0x1ec0cf5dd7e486a6; 0x7cfc1ff0ac54d72e; 0x778813a51dde146a; 0x56f4b47dd7ba9110; 0x38ef0097c7ebeeba; 0x791bc1cbaa42b0f0; 0x7d1cedb9143b916f; 0x346ca5ebece42cfc; 0x6e646d61193a192a; 0x1c9c950676762d55; 0x2510883c73ec75ab; 0x7d4418c418479cf6; 0x5433500b24e2e54; 0xb88f2fa3252d93f; 0x6882e1b16c98da7a; 0x4cc60a2c73e0b3b9; 0x4c02f72034f93f54; 0x18607b92b5329b08; 0x4b5b740c5526f70; 0x3787d1d25f7c6483; 0x1451e7711a20986c; 0x3e5634846826239d; 0x5661147b0f8c7fb9; 0xf1db28077fcd56f; 0x7fe7a30f79c60fd8; 0x52c04a59450c6887; 0x46b694dfabc035b0; 0x650ba1df7b3473f8; 0x5f30793ee58d9509; 0x60a67f0d7d58e5d3; 0x6958873b48ab0f6f; 0x3292d02975b4a3a1; 0x6937f121fabef6be; 0x76e394e85bb328fd; 0x5c86065639936ae6; 0x183af8cd8a587e00; 0x5aa499f9a84b300b; 0x6edf2e47692ee26a; 0x3c84863fec655bca; 0x1713b15dce67c177; 0x53d977f7d4146dc4; 0x74e3aa732eefd7d3; 0x4d1a279cdb469b34; 0xdde88133be0d668; 0x4d5f4dccc548baf4; 0x36484f634948af14; 0x6f83f681af6c56be; 0x7c59bcca52366c50; 0x695e691a783ba5a6; 0x5b1fb4f023871e92; 0x41d36ab5819e31ff; 0x266d5955d55124eb; 0x6ddd31301d9e23d6; 0x53468ce13839de31; 0x7e7ea09406c0c4af; 0x628e45e4a76a0fd2; 0x34b7d86c97e7b0d0; 0x20fccdbfccfeb920; 0x3f0442e9b82247bd; 0x3efb8cf62626512b; 0x21b7491a34d037dc; 0x49088f79da811bee; 0x50a42ddd173b481f; 0x7a91408b8423c717; 0x23648195d20c230f; 0x52750c4c1d59edb7; 0x14df5e75bb669d3c; 0x2eee2823dc64c11a; 0x39f32439c438297e; 0x41d3c18b759c7c4f; 0x312fe99c2dd41cbd; 0x565edbaf93b67ea4; 0x647114b782bc026d; 0x4b07005e20e4cab5; 0x6d2de9b32975f9c1; 0x590dbf5bd5be6a3e; 0x76390098e48ec00f; 0x128075b12656422a; 0x49fada164b80558e; 0x4f7288960a09c3d8; 0x23e8f047cb32eec7; 0x76e4f2cc224395e2; 0x6c38fa2d2074ab31; 0x38bcfae4c8c447d1; 0x4dbe0f899b192d2d; 0x69f18a66ad2f1745; 0x18cf3d2b58c5a5e9; 0x79d3befc65a4d31f; 0x757dddfa5d075644; 0x5897307bc8921892; 0x30d7e43ab9aac9ec; 0x501b72c937185ae9; 0x129bd76306ff06fe; 0x7f04b6d811daf56c; 0xeb7a8a221657da3; 0x148878245bc9dd99; 0x78a83f2ac080f9cb; 0x6eccc14ecec52223; 0x6551d074507b81bb; 0x1b4470ee8fdb2d86; 0x214f92e7888cd87e; 0x3d2b211485ecf51e; 0x792ff19197deefc6; 0x6d5bc41835d0fc; 0x44cbd77c70eee735; 0x68bbb3e20cb97451; 0x196198df02eb8472; 0x4338df885a20ff1b; 0x4e048914ee2f7cd7; 0x7ddc48bb0246dfeb; 0x7c594e88ea6c0fc5; 0x3a7e68b881dc7784; 0x2574c9c1252c4bfc; 0x6257ca874b78fb17; 0x13fade3a84c59b80; 0x7ad4ef868994b7a0; 0x67b827479e74861f; 0x49dff0a3dd9eb861; 0x122107faba4d93d7; 0x6c84a03ca902f2b5; 0x279448b1564e775f; 0x1ad59bebf3b77f02; 0x5f54f599c7675dad; 0x777b385e9c2a338c; 0x7ef0a731385b2390; 0x1f79541ba254c025; 0x675b2d067ae29b74; 0x183f6b5d9cda0222; 0x53ca80e1cb93c181; 0x2ff640389ecb0aa0; 0x426c098dfc025c69; 0x1f96d7e9412c2390; 0xba4e2];
   [0x77d5ccf7951f30f2; 0x9a41c0d34726ef7; 0x5b4ca018cf1c4805; 0x50428a2b231013ef; 0x29a0cf285088baf9; 0x791875cd4cf78045; 0x5819833380f15ccf; 0x36c0efbd4427ec54; 0x15f1b1ff3d6b6ca6; 0x776067c6ea2296d2; 0x5b9fcfcc30db48e0; 0x70e57d7ed54c869f; 0x228f86f6cf4c2caf; 0x2c37ccd618e401a; 0x2e6dd1cc4aa250b8; 0x57fc51850ac7943f; 0x5e7ecddad0793f4e; 0x4b7df77e172fd1c5; 0x71d48ee0b6df3e0; 0x2ffcd21fbabaebcf; 0x653ca733ae90a20a; 0x5b83e598d1fce5c2; 0x272972a90706d9c4; 0x17cbafbcb74263d8; 0xdf9eabeba4b8920; 0x44f4d20ba292d24f; 0x1338d7faea68420; 0x1186fe03282a57ae; 0x755d6a09becbff57; 0x79ed10cb79d7250; 0x45d4e4eb5f5decd8; 0x75ab3e755fe03389; 0x4d13bbc95c7d6c26; 0x7a3f2f267cdf9ad6; 0xbc7c62286352c0c; 0x3b6b3c8fd3583dee; 0x550a7c23f1464f42; 0x16bc996cfd5932c7; 0x77479a6d97dd1082; 0x15e52fdfa71fd9ac; 0x25559474e5464e2d; 0x6aeba584e6e25a01; 0x3924bd8e99689f66; 0x37fc92ccf7473c20; 0x324c436d4aa5ca2a; 0x554072a4eefdeee9; 0x5cec3eae9800bf66; 0x6efef2f1cc75d204; 0x2a2422b5a55e49e7; 0x3a89840266fab0dc; 0x636b8816ac4f198b; 0x56be044ca14551dc; 0x529bf6909f6718e9; 0x53871b7238369663; 0x387db9842476b65a; 0x73a36b9d7349475; 0x6f82bbb72b2c06ff; 0x49dc7f00875ae103; 0x6f7fcda481ba65a5; 0x28fd32d7270331e3; 0x7b01809fb7b829fa; 0x6bc9a807b3cf6021; 0x7ef0bec25fd720fd; 0x14b3837e97e454cf; 0x1f502679bbf95c59; 0xf52297ddd089203; 0x3df105f68397ad09; 0x6cc94dffa914ce6b; 0x4fd56ac87b740c83; 0x34294184b0c3d495; 0x3d168d2d61e1cb36; 0x38bf354c70080a65; 0x6e4db9b0939e8490; 0x6f2f58112bea65c8; 0x501c207d63ff8fa; 0x48720f06c9f5a6af; 0x202544116e72441e; 0x1aa61847ef6c167e; 0x67537096292f11b9; 0x7d78dabd8548c5a5; 0xe69d5c3462ffc9d; 0x1fcddd57f52e5560; 0x3503cd769235693f; 0x4bbf2f20f74fb4c5; 0x4aae3fc69ea6ae35; 0x7a27b9acb12fbc8f; 0x43becb6cb0f0fadf; 0x7159d9e772c8ff4c; 0x64a37f3f0a158560; 0x11b76bec0aeff807; 0x128c323194f0b705; 0x59667106c8f555af; 0x12b64d81ad1133b; 0x3b040c3172892027; 0x7f61ced144d8c16a; 0x38b80a2876907348; 0x799c2aad1ac93deb; 0x53ccd22dfb3e9fe0; 0x72495b87473b0d7a; 0x4b87b15d31e3a961; 0x7e9e3022f57c0232; 0x7ca645b89c72703b; 0x223bc3e24021061e; 0x1ecd10182a4472c4; 0x13f474a79854d963; 0x579912735e83f55f; 0x54d136248dd7aa95; 0x22fe4c2927f2033b; 0x59ccf48ff62d7d6f; 0x704578344829f224; 0x7ed8e099f1952f2c; 0x65d509adb0b3e013; 0x1df22ffb68287b89; 0x254e4b8c314a51c7; 0x50c5aa8ea10056a8; 0x72872e9919d607e9; 0x59dec706da0f635f; 0x20a289662a88262d; 0x1cb6fa5ae41ecee9; 0x5fda8d864ba3b2fb; 0x3d9d7f82673a5bcc; 0x28c4a2797eb5569b; 0x573cf6db426b0a66; 0x4b537b83452e5de8; 0x1a723241ca5396ce; 0x17d4c43bd79eb6f9; 0x5f81d01731fb14cb; 0x546dc9a63f4c184c; 0x49472ba16bd814b2; 0x103691c368ad70a; 0x16ad33177d5fa653; 0x4defd24e8afdce79; 0x5cc6275c35db23cf; 0x3207d266ec11f79d; 0xfce48529ed3f6f5; 0x58b54bd66952e3d2; 0x74aaa90934dcc34e; 0x7c3b625ef09185e8; 0x6161ab31cec2bfb8; 0x149c7c298feb15f3; 0x6be444c6c6449d7f; 0x5aaf530e2b973dc8; 0x3199234f0f1e39fd; 0x4c04dbd88362144c; 0x1bb88279c6446c2b; 0x2c64e3366860c89f; 0x1c5079f7ac7a2bad; 0x3e028022de959bad; 0x1b2b1c61cb19bb22; 0xaec311187f9b9a; 0x72ed0d5dbf5b10fe; 0x7efd0709d803b1a5; 0x7b72860ea7cf5e6e; 0xebf8959bb47500d; 0x797361e8ef24ef2f; 0x4853653eede8cf9b; 0x2e98adb83c08036e; 0x2ab332eed4937304; 0x52ce2d47f3651956; 0x4abcb8423ea241ba; 0x629c3ece5007e9b2; 0x76e355bbdf4e36db; 0x14784bbcbac9df60; 0xeba38f5bf4a0b12; 0x39ee5f7c09f6710d; 0x509cb436bbfb999c; 0x18a31ac84badb4a1; 0x29eee0e32f796408; 0x3db85f2bf6edd97a; 0x43d71b36d59310ea; 0x1c115199e6d1c8dd; 0x5f4199d5fd046044; 0x529eb27dc3705311; 0x100ea40382d3f88a; 0xa8a4d2e6c0d84f9; 0x79bb6985659f920b; 0x1c0f5f6db0927480; 0x3bf4373e4d144fcc; 0x28cce15782fc049f; 0x6abd8be23a774da8; 0x2abc4bff10e21eee; 0x72d2fd685a1fa386; 0x1c03cd603279b356; 0x767583b36b0ffc41; 0x2133f40c4544a461; 0x43780f9d0f2c5712; 0x1a84d83052f4db66; 0x137277634b37d635; 0x3c344d46037d4c1f; 0x2556d653838ab96a; 0x643d646fd5f12fc3; 0x2a2c3d9f820829e5; 0x7141e76ac0e031b3; 0x3c70a0f39b81fdb7; 0x24b81df241f82f33; 0x330e3eb4167dd495; 0x66d1bb7814f6af08; 0x53fa11161e51c16c; 0x1a5ccf0bb336cabd; 0x626b5ae9afbe08c3; 0x39a5f7885965d0f3; 0x570a9514b27825b9; 0x60ec24cd22909f11; 0x3f8f78732cc67263; 0x1651c895758d69b1; 0x348a5d86a07a9a5; 0x7e467f674a058969; 0x1a79785f8672f90c; 0x47c353bb4de4b4c2; 0x5faeb20accb00ee3; 0x7c88a86d007805fb; 0x302593eaf43ae462; 0x7d9a32f1ab20b542; 0x391d9397b2d9651d; 0x45eb160f31df8eda; 0x4493ba03ef5dc4a6; 0x13ec84939780136f; 0x329d5e64e41c12b7; 0x799d7fb944d6d89a; 0x3009e8fc00012be4; 0x594a25d81bdbd224; 0x3787ae81468f77ca; 0x284806a2fc617c80; 0x1787b52e4300864a; 0x1894ca4b9f6c4cc5; 0x5a0ec7ab938df1d8; 0x35e954eeb2c1b0cc; 0x2f1621e69409dc82; 0xd4de4fc0b385eae; 0x7b0ac9f941deb8fe; 0x336b38cfa9163ad7; 0x11a54bd6f18c211c; 0x559442b8978eab1d; 0x19a6a835c88a0f41; 0x270d453b74c8558a; 0x76fe9861f0252e65; 0x169691634cb3e1; 0x1bc23e91d1099531; 0x6c70399903e4b048; 0x5a31bf0cc15b67db; 0x59b44435d66e413b; 0x2e1fc003158eeed3; 0x9df3bc80ca488a4; 0x5a71ac293a4e14b4; 0xb85092b4a467ecd; 0x42a001a04cc1f0b9; 0xded873112cedc66; 0x48554fa727a9529d; 0x6d133919f6978616; 0x15dfb346e7025a6a; 0x6028934fdfdafeb2; 0x54a75f0c96687021; 0x7ee590917c3a25b2; 0x830b3129b8eccec; 0x72b8c013fe7160d2; 0x396282aaf1a8a39e; 0x3a91ae498ec85ffe; 0x7db901ea6d1620d4; 0x362b144cd19b2cc3; 0x5183540bd06abdc3; 0x79a97a4f4c0f544e; 0x7cb3ab211a43fa9d; 0x5d76aa25f5e16bce; 0x1f1df4dd76cb6537; 0x48d788ddc160ac6; 0x7a76e02a67f58ebf; 0x495bfed71e3c2eaa; 0x1af15c0901728331; 0x605cc73310b33eeb; 0x5095d5aaf303c9fb; 0x49694e37b1adf7c0; 0x3a75be97775c9839; 0x2ffc851f016f389b; 0x719ee62864b8698b; 0x1531c701cc5268b5; 0x239c3c6e596f2f54; 0xf40719b98042846; 0x13508c7f4f42514b; 0x7da0424f110c791a; 0x6e4284ae94c2a9cb; 0x436c2efab65aef8; 0x6cfa9ee81ff904d0; 0x2fbe3647571b9cf2; 0x5978ef9795fd5b2; 0x2fe8c244eece2433; 0x3a4eec6629889170; 0x3f00689a5bbb4e19; 0x25932299ad1304be; 0x5f4c69ec780f6bbf; 0x1e3f5be74fd05441; 0x1df0cc9c14ab38a9; 0x18b33336509d3bda; 0xbe8911f81b16af1; 0x6d33d73702e85608; 0x15c538dede27ea5; 0x55a2d86f1001d003; 0x4db743cfc414a8d9; 0x6864690866619824; 0x56cc1146cf6f5c8b; 0x7e3c968d4536ba56; 0x7040f203f528eb09; 0x55b7505c9bd6c808; 0x71824f97de163ef8; 0x7fcf4ce76a767dab; 0x3d8fb05cf8de84f3; 0x10bba83f97f64339; 0x5683f229f1c5a03c; 0x2a2bbd513614b953; 0x5cb7fb704f0c3b0b; 0x594e55248fd4aa89; 0x5e10066eeaaabe5d; 0xe9f9927e4bcc0ff; 0x55108155e71e891a; 0x474300b469abd9c1; 0x72b01d128945ac9a; 0x2d7d3f81afcb00f1; 0x77ddc62c71527221; 0x15faa6];
   [0x623a0e1602a4723c; 0x78c2088f9a88d953; 0x14a494f7131033cc; 0x5a1d8e165c253b46; 0x43a5af6d03a6d364; 0x7bfe58427904658c; 0xf22153e54dc3e28; 0x7cdbbb94f16d10c6; 0x8098234da2557fd; 0x1349fdc5463b1ba7; 0x7c048917d54eaf01; 0x222bd272be27702d; 0x2d90483f9554b14c; 0x2d30a5223942ffcc; 0x216b2eee593536ed; 0x1d92f8cfb888ca21; 0x7686f11ba27556ec; 0x3edec1c679761e64; 0x7d61299661d4143; 0x25bb752ec9abdb84; 0x2244a8e596126901; 0x3ded19bf2c8a6f32; 0x8a37b515f5928f5; 0x538cf97ec5a9be1f; 0x48455d539457fb2c; 0xdad8e00c144b749; 0x53cf7507b50e4db8; 0xb71129ee10a7b25; 0x585721f3dada0c12; 0x7a8aa5409656443f; 0x314490ba8edbccae; 0x58ac7db37ac5dd9a; 0x105a65c79fd59b90; 0x1459550b4610849e; 0x2bc9075cf9b7f404; 0x2da300648dce970b; 0x796be8375b207df4; 0x366a87204a25392c; 0x19c6a977422ae2a5; 0x71fc6e3ebf9ba111; 0x1b234f1a26e10ccd; 0x7d7a41ba8f6ad3b; 0x498589517d1d7f9b; 0x5a37071ad35000ef; 0x47aa8fb7e591cec3; 0x167301d2cc3f42e9; 0x29eb33e8f6e76ca6; 0x591fc893b274c986; 0x295e607eadaaa786; 0x422f03e08e915179; 0x7b32866dcc9e91f9; 0x54c1b3ddca6c3b46; 0x1e4065025cdac3e6; 0xde1949b9cc35432; 0x46ff5a7f19d0174a; 0x24e73d128bf9ff9c; 0x648c63083979a1b5; 0x3cdafdee1e51eeef; 0x269f4e9ce9ed42c2; 0x48bf19fb70928f1; 0x6253ba30740d87dc; 0x366456ee55f9b573; 0x33d22062bac70b30; 0x2f9911cb7ae0c0de; 0x3311326f2737e753; 0x11a3634443cc01b9; 0x1f9fe9b1ab9c297d; 0x212d0d1b9101fb22; 0x199211ed2840bb58; 0x36b4bea801f78a5d; 0x5e840cd8979ac6c; 0xc54b7ea61e0b4c2; 0x21232959784e9859; 0xdc206d8dd5548f5; 0x2767d6435320216; 0x311fcc0d5afe0abc; 0x6f566c9a440c8a7a; 0x2ff85ca70e9581f2; 0x51d52c81cecce28; 0x842c37ef73bb38; 0x129ff082d89c4c0d; 0x2aa493e4d655c18c; 0x4a2932c43052b6ae; 0x1ff04066ecf9a465; 0x7f5e989018cad09f; 0x947f506862d3b7; 0x6564f71469315abe; 0x65fda5af5e7588a0; 0xc66908846355081; 0x60980764b2df5e2; 0x3cfa5f7aa09a297e; 0x10983f6c93eb6553; 0x5d79d3dfe96fd0d0; 0x66bf75fb6703958f; 0x4d198dd1ca9ca59f; 0x741af5b99b5d7d02; 0x52589b34f2a59032; 0x64a9aed81cdf0774; 0x73f2e30bd27000bb; 0x7e5d91bcb2f2f148; 0x8cd4fe56d466ed5; 0xcfffc2938b3891c; 0xdb90482e6f2b31e; 0x4684074a1edf06ac; 0x687fcbba694f59f5; 0x6f2fd14872875ebb; 0x3802385f6c16b294; 0x3e831c21daeefdef; 0x50b5b8b08e6ae9f4; 0xf947971c96983b8; 0x7fd17bea63f0e675; 0x1ae836a1e5e2e687; 0x75c487002450f43d; 0x949819a430cb48a; 0x5630296766028d07; 0x6d0b2dc64ddde25d; 0x2933dee109f81490; 0x185530ee58f83843; 0x340ab3e4588a62f9; 0x55ee236272144d4b; 0x26c43e5bea346c43; 0x3ceddc16cd1e747e; 0x482191b4a0073802; 0x70400c6771e09a92; 0x4c57ad4eabe2ecd0; 0x280c66c72fed620b; 0x4ce7ada92952aba9; 0x2c8e2fb7a0902b02; 0x1dc6d66b4787feb0; 0x1d7f12b46fc6aae5; 0x7d8e5d4c7e0c328f; 0x1042997cc19b147b; 0x1df362ae55448e0e; 0x2b6fa60674a6c4eb; 0x54e1f2bd152a7137; 0x255ff24928e74958; 0x3937528ee8367017; 0x5eb9325d59a207ae; 0x44d697ff13fbe4e6; 0x640efef06d1e3e64; 0x6577a6bfb519292f; 0x556280cfac219268; 0x31892fc869ccb77; 0x469095392f4783da; 0x31cd11567e24cddf; 0x8e486e4f0140294; 0x333972d69410486c; 0x336880a558995f59; 0x7da13a5a34ac5be4; 0x2bb04ecc606a35bf; 0x1257d5b1b7006781; 0xe368e8c9da8fb3e; 0x34b04b4b9a0ba3ff; 0x617807b73dd584c3; 0xbf2cdbe4fe0b639; 0x50a048247650c35e; 0x27cc80d9d3212404; 0x25c55c5e672bae22; 0x15388991f853cbf3; 0x16d6e3c4f8d3ca23; 0xf375ac1d895cdee; 0x266df760d2faa54; 0x2bbd7b80e505332d; 0x284392db2d238307; 0x7d7f3dd134cca334; 0xf6e81b00fa72ac7; 0x21f0cc4b029f58ff; 0x2f40b75eb28e9502; 0x75afaf9d4d9ad25f; 0x538721a4f57074a0; 0x3b5ecef04c2383d5; 0x436b643616f41b25; 0x3bc4002940ee8cde; 0x9cf3260a9913d6a; 0x3b5f68b7f3a32a9b; 0x31e6caab9edce34; 0x8318aeb77efbc2d; 0x40a1ee2aac72de25; 0x3f071667ee43fd85; 0x40f4b5128cb8f136; 0x554b0cbb0d589458; 0x2d98251d1e68d082; 0x234fee694400c7cf; 0x7dd1782e61e8e056; 0x2bc4f88981b4ead9; 0x608c075fc023bece; 0x87fc43412121738; 0x23e18e8ddc8c26c3; 0x950f8c9f7c26bc8; 0x332155fdf9ffc303; 0x52be32958f38d4b6; 0x54c6151c055f1d63; 0xc179a94d24c05c; 0x4520f0996763c90a; 0x591666251e06b1b6; 0x6949f1b277454ec2; 0x1deddcc12a84c8ab; 0x23664a0d52d544d2; 0x6a77ef859b970af7; 0x50bd9e54f21d741a; 0x7f442f3f28c09856; 0x506e0e1a53276003; 0x3b0abafc674c5d0c; 0x7d59173fe444f6bc; 0x7d3f309c76a73245; 0x33cfc57367665ad1; 0x25c62346ad93f7af; 0x7dad1d815ab14f6a; 0x13ffdb5a82600ff9; 0x6e693dd19c4cd8bf; 0x5701e6cbd4700a65; 0x102ea254f1971da; 0x574d32dd65af1997; 0x27b8c6f49aea2098; 0xe68464acde6d333; 0x44400ea5322ca1ab; 0x523eb18152ff7107; 0x259a0f01cfff1e66; 0x5d1a0ed0e32af82b; 0x3159449d0c7d4d31; 0x41b31473a039f1a; 0x57cdb14e1ebff5df; 0x21bb61acd44dcde4; 0x5188e98b462c567c; 0x5a776ce7e009fb5; 0x22b2c2b434e2372f; 0x150afe5b40ea4f9a; 0x2684c5c8414c19ad; 0x5f9c32c3498d73bf; 0x6254da463aa52189; 0x75870b6c34d77b46; 0x511e88dffa2c8fa9; 0x6a53fa798d075b95; 0xf17b2ffd120a690; 0x2feab95393083a12; 0x45e627c5c95f188d; 0x3f8d28d47750ed2c; 0x1a393e858233c3e; 0xcf04eb8fbd2577f; 0x2f3a6b65718aad08; 0x571355ede1e494f; 0x74428711e43221a1; 0x61f27aad91f81146; 0x709ae8224a5f1ae2; 0x77782fa50b81112d; 0x6190521129fe7516; 0x7a9dc9c05408266b; 0x3c7e254b0fc90227; 0x3588f02cb521a7f9; 0x3b79aa33601a4b2e; 0x5804d1ed225c409f; 0xe21ef426cba1486; 0x3d2034ec750cd3cc; 0x5bf172a783e4e997; 0x1bb9358fbdba9d1b; 0x673c581fc78173e; 0xe63683356346042; 0xf46ae8c70bb4d85; 0x5b8aaaed58116476; 0x1fcf3def648552f5; 0x5639a5dc8f2a4f6b; 0x732b090c88683004; 0x6f327c98f9c1f7de; 0x70043eb1bf720631; 0x782fc94ba97f628f; 0x25b4fd8413b28b15; 0x3904274e1094d5a1; 0x1302e8c5284d1c92; 0x3cca0e8214f5350; 0xa01c9172ac78969; 0x3d50fe69e47c31b; 0x320e1e8d10e388e2; 0x1f9ffb2c0331b63d; 0x2ee451451d33954b; 0x141d947024fb8d32; 0x65186ce49fda1145; 0x2f71364fdb1667b8; 0x62e2ebb0088f42ab; 0x42bc4a0b706737d6; 0x6fba2be37821586c; 0x3c426bfd779cb690; 0x1f083303d17e3209; 0x56ff223e7e8c5e49; 0x64a9f28f9ea9cedb; 0x298810b4ca5c1b88; 0x311058fcf104503; 0xdcaf768e30bd6ee; 0x7443b30870748142; 0x533385169ff0bcd0; 0x403adeb8ce3e199b; 0x198d49b5765eba3e; 0x21a86edbfe818a76; 0x4eab322d9d4f764d; 0x1941dd3cb2038161; 0x5f6a5743aa72fd53; 0x2e6e87b1394217c8; 0x77f098cbe04e1faa; 0x54c5c3464af6b49e; 0x4925de24089342f8; 0x600bddd210af5918; 0x73ca79d449f1947a; 0x4fcb9e5e647a71e4; 0x7c094c74eb5524c2; 0x117b3c481643c46; 0x60ea09a06b84ce10; 0x6bba7369b1a2b7f1; 0x5ba300bba1704e12; 0x770e587683eed3e; 0x15626bcc32399031; 0x4dc52c6f3c261a47; 0x7af5a087bc58813; 0x7cb11eb3620d5507; 0x1c6a6c5703f6b9f4; 0x3759d510be5ef54b; 0x1b8fbbc0e92ccb76; 0x6885f152729ce753; 0x5975f953278deb9d; 0x3e565c];
   [0xe9fc07b869e1de5; 0x56b62b0f8341c021; 0x4abf6acf73103cfe; 0x5b76fb799da1d94; 0x1c11c8f893e28c21; 0x3297f35e81bb0729; 0x67fe6c9a75091b74; 0x1d867555c18fb0dc; 0x4c1feed1a546426e; 0x3a528f5430a85296; 0x697b126445af0ddd; 0x1430707e9f116767; 0x6b626bbf69e51177; 0x784f55103957fc56; 0x2d82bbf2c8369e07; 0xf727667fe8e52a4; 0x66c3aa3f508cc9e3; 0x28041be19e43c0bd; 0x1306e7c0e64bbb74; 0x50bf897cfbf3aae6; 0x6810ff2288ab82b; 0xe1d1a042842b367; 0x69b79753eb60972f; 0x6a4b337fedba1a44; 0x4bc4361905b9b40f; 0x657590bcbcc9aff8; 0x739ffae0fc677872; 0x175a50350fa9cb85; 0x211f746fcff4fdd3; 0x11a6c9b3e14f38bf; 0x57046f54959afbc6; 0x59a93788f8d8e27b; 0x12abad65619d99d1; 0x6ed4df21f0940d73; 0x4175c490fc393aa6; 0x60882dd11a87fa3c; 0x46616fa4a9a6b056; 0x6c75edf27ee112fd; 0x5eb3742a43808593; 0x67a38b78d68ec82f; 0x69d1add175c76cd2; 0x34ea1a941e9d783e; 0x18ca491306bcdd96; 0x137e121bf92ad799; 0x1461a43b80731d1b; 0x6a6890546818c53a; 0x600d36ae6a5dc694; 0x422c705eea53887b; 0x4b7b843421733e88; 0x64a62ca4b328d066; 0x628094b1176bddf; 0x58c307c1e929e4f4; 0x3d13a82aec717c67; 0x40e741efba1b0047; 0x64fa86828ad188e2; 0x6a75977953de0670; 0x743e64cebee17ecf; 0x68e6947f9ec45885; 0x6a75da52e1ee74c7; 0x6f8e848da0639eb; 0x2b7f6ff5a70ab987; 0x5729a08130863b2e; 0x467c3a26ac37fdae; 0x5dd10177db6c7151; 0x35f9b403a14d9f9a; 0x73f4f1b79ce75693; 0x600c7e502520797; 0x2b4ec9bdd46fcc9d; 0xdcee8ffe4f6c8e3; 0x1c9b5c3ef25fc758; 0x502c5f3801594cc5; 0x4024cea89f8302df; 0x26f41b7305f82d23; 0x769c86481a7f79e0; 0x9122c14842b2e6d; 0x7526b67bd7ceff4b; 0x2dfca100a4ef347; 0x11402964dec9e1a0; 0xbcbef4f07519571; 0x1a82c88d4430643e; 0x50e8c55845d67a9b; 0x10b52d724803024; 0x4e7f2f11dcbc1041; 0x5b830eec9af76a37; 0x150f8be65e8212c; 0x6cf9454dd1fde207; 0x195f97e7cf0ec4a4; 0x55f1eccd312adf22; 0x2c8142f8f56e83ea; 0x226b4a06ca8381a4; 0x78843681e309750b; 0x6915c6384287b4a7; 0x484ced64a9c7a869; 0x1c5e742a23aa36fc; 0x6f3a7511c8b0dabd; 0x3e57baf4cadb0b44; 0x7e17339e587dc73a; 0x4c5c3d55528e4933; 0x3246b7b3424d98da; 0x2f1f6af32372d6; 0x1a196d274f4d36da; 0x5e1c03c67c792fa; 0x626f543582f7a46d; 0x551b72b2ee67aa3; 0x42c43bfa8416a9ed; 0x748f0a894fade066; 0xbf686e30273a8de; 0x5774f3654f26ca19; 0x748c4c4977a4b49e; 0x7a06a4bc8d03e55d; 0x240789564dee0f65; 0x53e00d4d2ececc38; 0x40576f952446a2ea; 0x6274dce5647942f; 0x7f0c3415ff0db0f0; 0x7f84604211cd7991; 0x226e71c7584b9689; 0x624c511b3dd84c93; 0x588919523ea4f36d; 0x7773e0a03d2c708f; 0x1a15fa974b1609e3; 0x37acd5aea5db8026; 0x170f4795961804f2; 0x5af8c43ed7705824; 0x5d5d35d42d39597f; 0x27d560b0fc0f2b6e; 0x3fe1804400b32f56; 0xd2f62e7b72ec886; 0x1633f30434713636; 0x5da89c29a93cff54; 0x6a36684bdbfc944e; 0x76541a79f6a238a2; 0x16cfbad4dd57418e; 0x6829c53dfaa2fd7d; 0x2f1c7efe03d530a0; 0x655e060c25576e3d; 0x544409b75356e439; 0x1b1fdfc9f76ee0da; 0x7f735b79cb898a3a; 0x283bbec7e2ec87bd; 0xe56151c55c57d6a; 0x7ee2a68ea1394fd7; 0x78db6dfdd8bb1c24; 0xf007abe72deafb8; 0x28836385d94d334f; 0x4f7d490d2189ce5e; 0x3db06d197b51c932; 0x6f56a60c2fdd2a6e; 0x4a0fecc1baeeaede; 0x5db792fef6386f82; 0x68ea561f23f71a92; 0x5abdd763defe4a5f; 0xe14015740379c07; 0x57d18f27a5c7d116; 0x3483dc0a3e9fa6b6; 0x1480848a45fc68ec; 0x69e7deadfb6988c2; 0x5c4f498afed9a5b6; 0x522c6eb51edb5207; 0x78e942beac3a19a8; 0xe29a902f9ce9365; 0x3d54c82e338376d4; 0x51628f3ba7b4220a; 0x6a02a0a25043609e; 0x3140acfc725d6ef8; 0x312af08f22dfd3c4; 0x4c46b8c4f2eab5f0; 0x429eeed7c1db5ea5; 0x3bac5ba0404269d2; 0xc0f88d9225b920f; 0xd3c73781370770b; 0x178e7cd86ca23757; 0x6d1e9eef86a499a7; 0x2066f4a63135ccff; 0x4e1006f73141c7c; 0x721b670f5ef25524; 0x3d30405b8bbdf5f; 0x50192fba5539bdd9; 0x1a8269b6d18d8d49; 0x5eebecefaf83669e; 0x5f334710fbd48012; 0x2df0232804bfcb52; 0x766f1ec92dbc68e8; 0x291c72c9213d679d; 0x4c405362a3021072; 0x6c5eea63d0144fe6; 0x6a193ec898c784da; 0x5d094c4588465f12; 0x324e5344ec8f1dc3; 0x67c63497958b83a; 0x1e9ed93b1b09cfb9; 0x5157425104c4fd; 0x218d7ced193e5e1d; 0x6930f0c598c3ef3e; 0x4b2178089313a8ad; 0x383b590c9a412dd2; 0x575498cbf322770e; 0x1819cbe6667af03c; 0x67dfb02fa7c14e55; 0x7a8edddd4d37cab1; 0x2eb6f0964fc4f1ee; 0x584a5880233ce5c9; 0x1412349091a9305a; 0x1722ed85718c8e92; 0x1bbd6190599db27a; 0x66634824621016ae; 0x5da44ef4aa52e460; 0x49cb23334389e9b1; 0x70ea2e195778d961; 0x2343aa31c0346cee; 0x485ecce7e3298b8a; 0x132100fdce7a4007; 0x4ab742e2ea539540; 0x63aaf9cb9a1c671d; 0xd91dd4c4b48bbd2; 0x1dd29acc3060f535; 0xc8466368f2ef986; 0x238496075f2c47a4; 0x3c88f4556efd849f; 0x3723de189e70c7aa; 0x6c7934baa1171a2c; 0x5f4f26104fd58c58; 0x497e6a357e892b50; 0x5ef76242a09f4c15; 0x23154c766c6b4083; 0xadb0c5c25669695; 0x7f2c299bfd4203ad; 0xc8d81936b08e1d8; 0x37f9a874c5e475b3; 0x4cfcf68daf425d81; 0x8e471c287fc1ee3; 0x38bf307efb23776; 0x7c92fa95dbdda494; 0x2b8ca57c2f36389c; 0x10dde5b0b58bcd0f; 0x3703979006fc51c0; 0x6735a58869c7286f; 0x62021fb38752ab2c; 0x6ceae1a611d3277a; 0x94ff962fac7de42; 0x1c48e4eff5815d84; 0x3b52e9a14deb0bb5; 0x14a4c3fd33b2a9bc; 0x7781ddac23b6f760; 0x7652c409183504b0; 0x22e68176b03cecf9; 0x6c95de9757440494; 0x1d38a49b854480be; 0x7946bfc657260064; 0x3a77465480a7a851; 0x29583c38fc1c0ec8; 0x4f43b2bc2c9a7ef4; 0x64bff57156579d75; 0xac4317cd5d81352; 0x71eaa876ffc5adbb; 0x2241a2f2bd5f1a96; 0x5c2fde4b1a41e75d; 0x47fe4dd6b861d93f; 0x27fc4d68ed4a4014; 0x1cfc76a721978097; 0x6e187aedab0916b8; 0x22d15fde20fc41ae; 0x324a72424d31476f; 0x6a23b6e7bdc4b854; 0x1181ce0ae295264d; 0x3d1a53dccdcb25f5; 0x607414747b8486f1; 0x14884029880ee674; 0x42e5676afaca6669; 0x5eddf07d81503b7a; 0x5ade30aa0b0e4bfb; 0x45d23819983c69b3; 0x32348b7e26c00cd8; 0x1f33e59423479d48; 0x5e7b57ce0c7395b2; 0x53eb2ef0c2d28279; 0x7bffa15daed8082d; 0x22f5733d97b11b64; 0x281be9f2d7b00637; 0x19244f60ffc37668; 0x2c490e77a66adf04; 0x7bcfc9b9be3fc8b6; 0x2a59855e55943141; 0x5622146e4926b50c; 0x445991081050ddbb; 0x309f2fbc916c86b2; 0x32a4d7a061f9ba29; 0x1e1c12dc6e6e3a70; 0x6c4d7e45bd4332bd; 0x376e1e3082b0556c; 0x6aec73a1046867cc; 0x3038673ccd0132f3; 0x3fba12529538f98c; 0x1ccf5d3e20294997; 0x71b8d57d5a45b120; 0x3219e69ee42c283b; 0x599839f44c6d7aef; 0x7b328137fd1e8c47; 0x12ba7082afbf590; 0x30248166643f2f49; 0x29f217e12adf2217; 0x7830f3f0ea9d049c; 0x107b4fb64ac2b17; 0x55bd702bd9a4355a; 0xe6c36e2195da1ea; 0xcb23765b1c9b55e; 0x2efe94d209c756a5; 0x21f1682118f47daf; 0x461fae3e71117f91; 0x4eff60f60fa4ebd4; 0xf655e6c576976e2; 0x2f62c42419ce3de; 0x2631ba795187cd80; 0x221b9d511ec65334; 0x559a136b36e548da; 0x44a2c7393b75110c; 0x339c4ecac5bfe59a; 0x1c7276];
   [0x1febc7870fc4eb18; 0x7d892e2a2a273366; 0x4dea7f9e100334d5; 0x25e8dbad38743018; 0x5b1ee1431b99bdd1; 0x3f58ada19616a2e3; 0x33a70566d3ca8334; 0x42b6026484381d5d; 0x45cad66acd473119; 0x48acb552abd1c7f3; 0x7aba6b7b59b48d8d; 0x1c3a36009e915836; 0x69deb31dfab7671b; 0x3deb97edfb66946b; 0x23b69da60c937031; 0x80581f909c7347b; 0x4af001440bf6b4ef; 0x6bbc66e0de6af455; 0x34846ed01a14a94c; 0x6f40c045edcdafc9; 0x4ace4c6fc0cc4f59; 0x7f70b7cd2d78ad91; 0x4c236e48bf91ef; 0x710ccd633e538e81; 0x542bac0ae1610b15; 0x71a9d8ab25158d87; 0x3a42d761f4a05c10; 0x1539f2862993d9fa; 0xa8a3ec6582694c0; 0x1b32b431731fb67b; 0x1e9669161230970a; 0x60778e6a9d80c845; 0xe205004bd4fcc61; 0x3dca132c2fa2f60f; 0x48d919113f4dec15; 0xa4bb3b3b29542; 0x3032cb420c2e6dbc; 0x64dc93c2633ce377; 0x2f0719df11dacc04; 0xb11725ab525539c; 0x3b26051c5b903b6a; 0x40eaa3babae0e3a1; 0x2e534ae37d5e6938; 0x5005220479b643ed; 0x58f4a3ef9046e76d; 0x7fa793a512cfdd0b; 0x6ae3665c0d1615a6; 0x1af21041561e9c3a; 0x195b8389bc37b542; 0x323291e63941f5d4; 0x7c07408274a6091e; 0x48d7f724b3a90016; 0x7de2e7834acbb94e; 0x444b4a8f90a52640; 0x248acd4e69f031b1; 0x4b5bc18c1db5e1d4; 0x53223303000e061e; 0x7e3a92508fbc18d2; 0x76d11ce0a40575ac; 0x5eee41beb72f26d; 0x7585a96b19c44370; 0x236a26d7ca114e89; 0x43f623c56dc94fb8; 0x17deacc93236e56; 0x7426f46deb9eaac4; 0x7d498ea31b891235; 0x3821c838fd11d457; 0x58f19844ba47d6e4; 0x4c67f000175172c; 0x5b7fed04ef35dc39; 0x264e660c9fe679b9; 0x59628db8298baaf2; 0xef485112f120c; 0x2008f93208d9c9e4; 0x1da90455c9b888c; 0x6423a6762b22c324; 0x3fbdc3a413b38fd0; 0x5f055fcecda81621; 0x4d2d14a61f75732a; 0x2510366b966b871c; 0x5192232d6d81791a; 0x32dd56c0b3a34bd9; 0x15785b74f4d9a75f; 0x551345490d3d0cc2; 0x14e1382e81c1fbb; 0x517d246b2d59f464; 0x24aac19a9e2281f2; 0x54d1f621efcd2afa; 0x1c92ad68d7d44c8e; 0x2d048de5a93d6ded; 0x91cbf4605c9d99c; 0x29b0d5c7dbb13e5d; 0x2c9fb319fe388994; 0x376fa3f91f7474a0; 0xe4669b5d780662d; 0x70f23ddc8c6e4997; 0x2c073a47f95a0180; 0x88ee3a6955411f1; 0x35cb593c94fb7680; 0x506bbcb76bdeeb1; 0x16fe58c82174af58; 0x69bbf80062a3a5c1; 0x6afaa59e60351680; 0x38376a24ee0d7827; 0x5199a67e7256c371; 0x60a6f9ee482150b1; 0x5b96a3ad483f52c8; 0x54ff08f0298f1135; 0x1edd3bd16ecccee3; 0x21baae178e80c949; 0x76aad16ab63d2fac; 0x4d80d26e582f72a7; 0x4c5e7267b89fe536; 0x619e5f9b19126020; 0x2ccb750bea18b7b9; 0x300b36f0eb32c92a; 0x65ee7ffa174cc303; 0x2a47441b0a352a5d; 0x56140e4b458fc82a; 0x1d4b1e4ef6702397; 0x1418381e0079ae8c; 0x5e30b9f723d9f3c8; 0x4ec10218644039e5; 0x2c5d5450105d5c85; 0xbc699674ae8a451; 0x781a88e9ef117e3d; 0x5998488967eb29db; 0x5173dc92c7f2f68f; 0x4e1e082c360a32ce; 0x43e4996a27d55a4b; 0x5855309d9340b631; 0x4698c44eb5b5a827; 0x11f0d537bc028def; 0x5317e29cbed5a961; 0x68f9f416620b874c; 0x402d1a999e7189d9; 0x6a162d734870fe4c; 0x5b80763ad1e733c2; 0xa0b5784f981d9fc; 0x35248bb83a95739c; 0x194199f99e46f870; 0x4743d5f6f573770d; 0x7267e19e2aac9bd4; 0x55f0941d9dd3c66a; 0x11231110575c05f9; 0x10d5044cf57d7c26; 0x4f7e97000b4b9916; 0x2f8fe3700b21cfb6; 0x25c13392fa50b57f; 0x7ba915d536ece42d; 0x71c5e6e90d28608b; 0x539075f986495e3; 0x510bc045d0f39301; 0x6daa7d8a89da773f; 0x3023ae712b7ed1cf; 0x74e9306a7012aa02; 0x989f68af27f81ce; 0x2c7438cb34ca6078; 0x1b4315bedee4e69b; 0x4e846eeb51193718; 0x5a340385ca82358; 0x354e45c8735a7cd3; 0x247e04897706d7ea; 0x4e410dd0b8c31aec; 0x24418cdc16b2f77; 0xf2d19964d4a4c7c; 0x54911aaa4fcde5bc; 0x5d935e418f9a9155; 0x4730a2512b9e537f; 0x7f03eed8ed80221f; 0x3c27ddf247910928; 0x2c6d4264931f47f9; 0x16e5cd39ad03b3a7; 0x15f2ff264a32ffdf; 0x460cd3b0839e686d; 0x437052b9dbb5feba; 0x6b33f29efb802b3e; 0x1c67e4b4e813f363; 0x5332523c85834f8f; 0x14cd48f960606493; 0x512a7f29b0e22aaa; 0x480d1e619602245e; 0x66eb16871a3ae8fa; 0x199123abeedbfde7; 0x19952513b08e1e19; 0x18adc9bdf2793bf9; 0x115e049f677fa72e; 0x266901556ca48739; 0x574ed065b68897eb; 0x1aed82c2cbb0acd2; 0x47f69e14bc2fdca2; 0x7ad863a265faa94; 0x2babaf9e2f87ff2; 0x5fb1243b39e87194; 0x7896fc8d6a9a87b9; 0x285efdd68f92adc2; 0x55150ac93e43a96e; 0x5eebcfb7b473aaaa; 0x63db1dbbedc052d4; 0x447ea81622a54ccd; 0x570558fda69347f7; 0x4edb355722f5c9a5; 0x7e40c41d5f239c4d; 0x611a1b00b630debe; 0x626f7f74a09bb051; 0x6ef64c0590099d73; 0x8931ff1e0203dbb; 0x58fb02d14d3a9442; 0x3dcaa87b62a5a0ad; 0x6bd15949152774db; 0x63518bfd51117e69; 0x4a00cfa8b57bf0ad; 0x65d0c71c457c35d4; 0x40801565ccbe87b4; 0x4a32ad88dcddfec9; 0x42fc293b190ffae8; 0xe857d38c2ef42f5; 0xd58975479d7be6b; 0x8d9b680ba42b156; 0x20594ddc3ddb2294; 0x7154db012415adfb; 0x7cc8856aad3e1133; 0x2de83bbe10a4b38; 0x4855e3304bb38e30; 0x192f790f79b09b5c; 0x456dc7a95b64e87e; 0x68c8066c6e1bc6e7; 0x3ae9414267c94293; 0x5b065cb24f33979e; 0x285e16600e090f1e; 0x762659420296949f; 0x20fae720e008d711; 0x77d49cf5a2abf096; 0x351df5f5fa5228c; 0x2be2d40f48651698; 0x7947a8a59b4ce186; 0x211b4fd6529609b2; 0x23b554f71f6a57b1; 0x2e3a287095ff2d09; 0x72637a38bbbefb99; 0x19735ec2f3402973; 0x7d4463bf2dd1d3d5; 0x66665e2199e940e9; 0x728f47c24b5d55ea; 0x1a65768df9a8f3fe; 0x23173fad77d02d91; 0x9a2ddeee94a523a; 0xf91bb97a697109; 0x61060e83df7cac5a; 0x5e72993828e665cd; 0x4be00754c405fe40; 0x7c046101f8463081; 0x66069e29b52df432; 0x382375b40d2fa73b; 0x73829628e40c68d3; 0xbe477589a6760bd; 0x4a58c6096f2ed576; 0xa96735c671edd9; 0x221719aa4d8f2387; 0x44a1b041aec46947; 0x24691063b66365e9; 0x682a0a7305cbd5fc; 0x24278d97b2b8fd03; 0x604b24386b2d8678; 0x7324bd7cb2a0935e; 0x1899f96eb77b5c32; 0x1d65a4839821501a; 0x2a5556bf6926e523; 0x76d2d5b40e179ad7; 0x6024e6d94bdbd65f; 0x397d3dfd546df36a; 0x4ae8b7e06f5e41e4; 0x10263a848f400221; 0x6c30b6a79b7ab5b8; 0xefcbc86ecbfb101; 0x1fa17083575197f; 0x4aa297bd0e86937e; 0x3b05b68d481f2200; 0x6eb01445a9d090fe; 0x4abca9336f316087; 0x7ca630097a13056f; 0x3be0afcb8edd584e; 0x2eb50bfe22a62d94; 0x3abaaae5932ddb14; 0x14b205b78e262a00; 0x7a0a86e52f3d7f9b; 0x2f8f9c907b68a7d6; 0x4fbd1dbf0779521; 0x30c997f6d33d5c2; 0x630a5bd3d797eb37; 0xb9495202a15a90e; 0x125f73c82d23d51a; 0x43388c12280b2992; 0x29feb85c44eb7c9d; 0x6a160f432745dce7; 0x49fc39aa74f4ea6; 0x1caca69f0bb69cb; 0x45dde52f8d79b1f2; 0x5d9a072e02d1b643; 0x717a597164d71a67; 0x24a6e2a984b5e20e; 0x28e96c35ede42381; 0x6c9303ceaac35dfa; 0x5c4f6f87f681ffc3; 0x136fac32138985d7; 0x77552dd9fea7b874; 0x75f3dab4574f9200; 0x4ba349ceb5c3c4f; 0x19a7cddd21472360; 0x2583af6b0bc7e06e; 0x17153fbe6819361f; 0x3d22f82255cc5894; 0x28c72373aea8dbd9; 0x1bae981c4a7b34b2; 0x302b8fdfecb42cf5; 0x6caafa4120f28161; 0x50a967b2be502ee6; 0x656fb];
   [0x6aba0a2d334f25ce; 0x3146abbce645ad1b; 0xaa9ff0f007f25e4; 0x26fbee79a1d07bb5; 0x14ea250c4cac78a2; 0x35522a633bd9c386; 0x7bcd5d309f1187e0; 0x319dbac17f3c1a53; 0x3f8a3b3d57cdcf65; 0x887cc613d19580f; 0x48c089f17d42f84f; 0x7c345276d6bcd480; 0x52735e007b24179; 0x27e6e9ecc54ed37b; 0x40bb4cbf55df7e63; 0x5fffe5cd140b04b8; 0x50b7934a8822c1b6; 0x573e7f29c2577222; 0x7d270f7d8648f3fe; 0x2973154b48399db1; 0x12fcc4d1a2fd5b02; 0x61414a77f2bf51f8; 0x18285762cb414df0; 0x56119f8a5b1af142; 0x7018ac419dab9717; 0x3f66561cfad3f38; 0x7e88d92baa83e40e; 0x70c2ae53dc7dfcc; 0x4993ced7d720f1f8; 0x66063aab8633302a; 0x67a08f3df59561ba; 0x3e36e211395d850e; 0x4e75dd09e00847c3; 0x74a28dcd05420fd5; 0x122602e583873f84; 0x6871d9fe9db9d3ce; 0x65e185bef640a435; 0x2f2b28012c308465; 0x7e59621222c3be94; 0x526ed55c24857acd; 0x346eba228af5879a; 0x7a15ae895f0af5f5; 0x34caae364bc5ae65; 0x18e566ddb90dcd67; 0x161693274864c9b; 0x77361398eae52580; 0x7e01340ebf511e0; 0x116e1c0702eb68b3; 0x352deb1b54666cda; 0x1567d70803c99683; 0x5559c7268ab99d6e; 0x4f2e59ebcf42604f; 0x172c75d4b133e1eb; 0x6f286712b362e73c; 0x47d93231adae2fdf; 0xe092917dd410108; 0x3ee79d38ae4ea306; 0x17c81c310ebbf3c5; 0x25e2fab80ca2dd7d; 0x1a966c3bed7e31e; 0x5e1e1a17ed7ffbdf; 0x1780dd7bfb6acfdd; 0x2c078a9955c44fb8; 0x7ace858ed6a71e22; 0x3c1e025725defa1e; 0x2639e0a02c10cd0a; 0x4a390403a321d07; 0x4ad3bdcedac77731; 0x28d0c318ec32638a; 0x5c4ca040126092f2; 0x6ac99263f71ce6d5; 0x4186dcd7de6b268a; 0x1cf5134e96e6629; 0x47cbfaafd29409f2; 0x1a12c05e9fc99b85; 0x28619b02166a0edc; 0x72ac86f70e30f746; 0x37c0d377353151b7; 0x470c022073d9dea9; 0x1b95fb08925bee13; 0x2dc57fd03b583bdf; 0x4d38b341ed76961d; 0x3eae56adf73924d0; 0x7b60b8b52860852a; 0x873115388014823; 0x247a282baf90b121; 0x3e392219e305aff2; 0x4d98b43e0726b093; 0x62a5d2a048c3161; 0x6543d67f3f33d878; 0x43340c0d532fa479; 0x329f4be57b94edce; 0x3049e4c51100595d; 0x458c5ed6b3a4bb79; 0x301c658208e0f641; 0x4d84ec1378f5ba4f; 0x4cf032c0364a90a9; 0x5a6ee23dc63c81bb; 0x720d5f4dd2c26bde; 0x4af76200288ec7ce; 0x2e2118342479fd8; 0x62de63f28f39cd16; 0x357ef8a0f81c697; 0x1de4e58e943e0ed9; 0x6d1f85bcc014089; 0x57390a3ea94b42a3; 0x3e3ca117c48b6c96; 0x37aa22b2c91f218f; 0x2ba26623c44dcfbf; 0x51628da4e5c97011; 0x36e91fa692d1c06e; 0x10a6377afbba045f; 0x6ac6004f487fb0bc; 0x5c1017006d8f84dc; 0x343ddb0dbe570cc8; 0x3b8c0eb3abc8c065; 0x50332287ce5002e8; 0x7aefdebe14e74bf9; 0x7159dc5b49d34501; 0x158824870592c60e; 0x1ed89aa9a969013e; 0x68bc559717f72d45; 0x2e87982e45106d7b; 0x3dd7d59f0694434b; 0x334b84e7a4198a87; 0x73e496e69a6ade3; 0x5c37659faa528dfe; 0x3dc42790a620341; 0x42f0a1be725353a9; 0x17c6090e592f5577; 0x661dab97fac7c36f; 0x56bce5f540097b84; 0x3d4c42501de84cec; 0x6c2511b72de8000a; 0x23caf36c5f58800c; 0x4b81d83b29b04c40; 0x1b408f5ee24bfc59; 0x686fe227a2796973; 0x3bf9ea364e00307; 0x5caa31063323009b; 0x23cad8e853d414a4; 0x4205e43c48ba9fdb; 0x2d280ea096a9b562; 0x50a5eac050ad3ba1; 0x4ae4924b76fea983; 0x6ca8f2f5e21d34f7; 0x5a301a885e0fd359; 0x1651e89aa7722307; 0x971596a3f6c4e9c; 0x163ae04abfb1af4f; 0x4b9b030f60c22bc5; 0x2755aa126d416e3f; 0x134f438df8f6a88b; 0x5ba33e78ddd54431; 0x5eaf2ecde5058712; 0x584d458b8588c464; 0x6c1d28a23e9a536b; 0x5809099bd2e55145; 0x63fe127bc631bcc0; 0x7ecb43c2326543fb; 0x26e18b182ca49146; 0x107a2322af862ed1; 0x143641b8e6f6928c; 0x5c19bfab834b4c9c; 0x535a5b214ea84e79; 0x71d92d8aa3e11a2e; 0x127d92fc852747ff; 0x4af34499994536a1; 0x320f851872b7e7fc; 0x40cccd35eb0b1fdf; 0x6beb241d93f60174; 0x7403735fb151440d; 0x14b35618c9924a4; 0x390ae9e948ed7719; 0xb6f526e431fa385; 0x5413966a86b6f692; 0x789283b6c01e6475; 0x378ddb6b4f2a0e64; 0x31b02b680232e2; 0x754e2d7be29ac4f1; 0x5e1f0446e1955121; 0x5a5ec143f26effbf; 0x30ccb9b2b18f93e0; 0x63c9b9a7f8aef157; 0x375d2e7c60343974; 0x3f70dc0e6d4a474e; 0xe56bdd735581bf0; 0x7d3f5f45ff855105; 0x5f24d94d9f178a70; 0x3330581f06c90e4d; 0x73f1706b53e18f40; 0x3e001b0b70160e47; 0x5ae8d24cbabfb508; 0xc87235a893ae700; 0x565263e8bab4ec86; 0x734b14f9d53549f1; 0x69b2b516e741e17a; 0x13fb99aca85fc567; 0x2f4e0ac82b9fc38a; 0x585a0c728e64234b; 0x2779b2c8032acd14; 0x60b78e83940429b9; 0x2abe8c2292d8ce2c; 0x578e595c45e9099d; 0x12034c2955f1c7df; 0x1a56aea0506ed1f9; 0x4f0d4fc38f6d6f8d; 0x32e8dcccb34761a6; 0x104107a82465beff; 0x39cf1caa7548fcea; 0x6b6ebd760f0956fa; 0x634b0bcd2174d802; 0x3a1197f52f17022b; 0x5ba621fa71368634; 0x4d9243ab2691838e; 0x7de758bc0528f287; 0x349f031bc927895a; 0x365e01b8dae07423; 0x4abb27850a5cd909; 0x3de1e82c5a20c866; 0x6a8969f1d0f83fcf; 0x399ca401875d79d5; 0x7195d894f0266db1; 0x46ff25b5755379db; 0x2372266b444827d7; 0x574aed5112786a2; 0x3738f6e8304dce5b; 0x11023bdd9f6faf8; 0x1c5b479299beb4f3; 0x207fd9965b211262; 0x36c0afbed4898d0f; 0x4fd758761980b116; 0x437f2377248be0b1; 0x17f7f501f5bb4caa; 0x2fda6c1b779a74e6; 0x233f9c2519e5e12f; 0x5b3e592b15be382a; 0xd12be1c4e30a6bf; 0x458a080bcd497262; 0x236f3c769a7f18f; 0x3bc13ba3d6556482; 0x13f935bb0b5b732c; 0x223b7ecf81985ede; 0x6ed7c329e6570122; 0xf7ac74b09180072; 0x10ef24d131683d5f; 0x2bad540b4a7f643f; 0x3dfcf397e86e3eaf; 0x328c2783f7b6bd4d; 0xf526134748c6985; 0x7270083fdb04da98; 0x72bff6d3bb07d7e3; 0x149b22c0b97658b5; 0x40e6e12dbde53ade; 0xe7fe00baeb06048; 0x5bcfde9f8a8bb108; 0x7e39800b0a12b02; 0xb64e22fc348db89; 0x6a749eff1d0cd7b0; 0x2460256ed243341a; 0x2a07e65b1bf2ae60; 0x290452ada28361ef; 0x1e5d825c16d02e0f; 0x1dddcf2f6b3e153; 0x3c58de584eaf980; 0x61cfbaabe479d13a; 0x4565dbd9d45a20d3; 0x79d76a485a42e73e; 0x186b9c5826bbce2f; 0x50d01afc9ac36699; 0x5a0bb50c49cd2cc6; 0x32bee9e79afb677; 0x5273615e34d96399; 0x6d54102d3871c84a; 0x161fb1266173d2c9; 0x34ddea13bcc6a7cc; 0x12df5c627948b770; 0x6e2283abea887fe5; 0x1a0972d868b2e87; 0x1bbc09239e89deda; 0x7de4b5c103d7850c; 0x5d886e00a1b56817; 0x5b57dff5a2b7c9ef; 0x46f0454e7c633302; 0x38a1507f885ceed9; 0x60c80b01b2452b45; 0x4d0c96b4137ea235; 0x969eeb953aa175d; 0x7bdd7c80ef2b486d; 0x1f97ce5de25fcf6a; 0x3384312b12fed2ea; 0x27c697c6aa8fff2f; 0x26b7e586ab64d3b6; 0x1b02cfb4829fd3e; 0x74722bd714fca7c0; 0x2c07c2b5ce10fbdc; 0x55b82ef5766ec978; 0x7f25015af0e333cb; 0x5f0a760395558a05; 0xbdabfdb4a97eb94; 0xa7da3d71081de5b; 0x6b06c4cfd557b969; 0x1b62f6594d2653d0; 0x3bc68a7e9d8b74de; 0x51cb417fdd918b45; 0x61387180d612eacc; 0x5ac0b7d25e033ef6; 0x7aa9fb6d9c7a3c24; 0x692f319d07433d24; 0x1ff2e3d02468b25b; 0x4318b533680dd568; 0x1b9168fec9e0d512; 0x7029943cb9a2209e; 0x7fc3290d1cf909bb; 0xe34b6d28d35b9df; 0x71b72e65a2500b08; 0x4fb8f873ed129a7b; 0x320aba];
   [0x7c6b1314b2fd179a; 0x2fdebb2911a768c4; 0x53eca2d43ca3f8f0; 0x5aa3d34aefbfa35f; 0x5d93aa19d1b238d9; 0x510146e7cc61dc14; 0x3c4ff767b080d78f; 0x75454447f83b400; 0x534f17b7961ac011; 0x5060dee84707c6e7; 0x2573c977dc72f69c; 0x21347d7bfea6bc10; 0x4ad7dbe1eb4c2718; 0x6635bd954455bb1e; 0x54799ef9e373c12d; 0x78c267c27ac1163d; 0x717df1bf907f6cb6; 0x6b275efe9c160286; 0x2ddd791e65408ba1; 0x213d9f025dd84c7f; 0x68644cc81a9b6f5b; 0x6c8cd9472f5bc45c; 0x6b288cedb3b935df; 0xb527acc9097a0f3; 0x7fa689eba95567d4; 0x2a2fecc61664edf1; 0x6e576b44e640cadf; 0x1bb2cc836fcf39cb; 0x2b7a646a17396b50; 0x7239116766535ead; 0xca90587ff005c9d; 0x742e11c2b837d6ec; 0x581b73c8714d6e25; 0x37f4d84d5a89f372; 0xe070bcc9722179; 0x714227c4d0817398; 0x6373ddc79a1e3090; 0x364f2c4cc4f29a08; 0x4d911c5ceb546da4; 0x69ff5df018492c48; 0x6e6023177bbe97ce; 0x3a5a03f12852a836; 0x63726d8ba2572380; 0x2d30336e23d24cc0; 0x5155b7698461e569; 0x2c1efc1fe3064e33; 0x6cc25629ac76acf4; 0x5f6ec19eb4c4b032; 0x129be4752ae33839; 0x18775a528b4d077; 0x556b27092704d4c5; 0x1a6d6cdf1da607ea; 0x5a208e0debaae011; 0x169e45b2dabb780b; 0x45ec18a1011a5ad7; 0x66793dffd8b2af85; 0x25745959233c20e1; 0x326c514609c2f43c; 0x58982537b79c328e; 0x69531f555b03fcee; 0x188aa1054db57963; 0x1520c4efd14490f1; 0x2666a17c2f234b57; 0x31fff2fcb4856864; 0x6b9ced923ee64cd3; 0x2c9d37beb639d160; 0x159a9b1260508cdb; 0x3762dff8e01a226d; 0x23ef6acdd7ff9944; 0x37dac1a75ccea627; 0x3573f09482d272cc; 0x55b1b443834c94fe; 0x8ce71cf43a2d418; 0x5ffb1fefc17407e1; 0x4a5e692358f2537c; 0x661b383e302d9722; 0x35366cf82d1983c9; 0x1d1ab2699debfadb; 0x60fe376b4ea68d56; 0x4f75e00c825b36c5; 0x64ed4249d466ea4b; 0x787a943889728adb; 0x710b2392d848b649; 0x349e9d9db634825d; 0x2e669229c01f875e; 0x7741c6c68576da07; 0x6f4ebec0ca116526; 0x8b7e709bef0af7b; 0x2ae3e9b2c6273160; 0x4bdcc3bc519477cc; 0x2a9e67337662f83e; 0x19442f06b3f962ee; 0x2ebf9592c6acb668; 0x399e91777c1bc01d; 0x15652c70f630bb43; 0x6e897048c1d2baa7; 0x736bf9dbe990864; 0x23764e3b898b3103; 0x538b235225bf9af6; 0x784f9b593c9f9a81; 0x41715508b911ad47; 0x1291c0ac518c690d; 0x1b7b95ce86bab3d; 0x100c5729aac46152; 0x55674a6b22e6db1a; 0x1b61121cf6dd4adc; 0x66d24a3865218bbc; 0x5738cb56241b69e8; 0x5960898adda82ca4; 0x3594c3a08b6f6541; 0x3d0a9a49445636aa; 0x1d917762ebf3745c; 0x7dee805504f5434a; 0x26550108cc7f6892; 0x1267a8c9e6576eab; 0x70c18775629ed294; 0x435fab2d5118f9bb; 0x7346797b82827c2e; 0x3bbcc0d261fd0ee7; 0x684855a90b9dd855; 0x5d55f4ac06e7856c; 0x7da62617838ae250; 0x303303c01b3c34cf; 0x4db1a9248f17b5d5; 0x9a10b931056a5a8; 0x7709fd0df841bcde; 0x2baa63ae5d3a9f80; 0xd696eedded0cc3c; 0x1f17ee38beabdc93; 0x472061793a9f6638; 0x4387e145083a5b7a; 0x41c43849cf9beca5; 0x148fab318e888b10; 0x566f93a39469c19b; 0x4a6865e9136c0247; 0x73f13fc80b4173c1; 0x77b1c4edc4891597; 0x4a47bb6d6ef392a9; 0x47f27641907a7007; 0xb379f56c1b00a02; 0x5096d89793d5d3c7; 0x613c18af8f4313f8; 0x7bbc171d14e06b7f; 0x62d28a104fec631; 0x33bb2ceb86532cf4; 0x73ebb67de0a8ec65; 0x6eb916b512243b99; 0x1015b9b68a119ba3; 0x76cdbf76017fb63f; 0x2badf81062ad513d; 0x78b9c955533d1146; 0x52e1326c70d0cb32; 0x5bd3c170cbbdaf63; 0x1893df21ac6a804d; 0x632b120847c4e847; 0x65107428daae1ebe; 0x3292d044fb140023; 0x47ffc129b52f1e9d; 0x68c2f00a725cc92a; 0x79e9b5d5f9255698; 0x59c81be6e2598b68; 0x6d679f1d99f8c4e6; 0x3a4c34c148940477; 0x438e9c291bf42ee5; 0x17fcc7ce0b36915d; 0x55bf99708c100ec7; 0x26d44b6419c72941; 0x508dc57668941af4; 0x59aa8cddaa78acb3; 0x751583a0e9e895f2; 0x7310f0564b897d93; 0x4362f47c9e32c405; 0x1084f245be100ab4; 0x52c8a1426c5c85de; 0x6ed4bc2c74fee6ff; 0x1e86de8648933e82; 0x9cead0d4c66eac4; 0x5b8417acce6c95ea; 0x4168096a816b078b; 0x245c0debd8db0582; 0x517bfc5d06307a0d; 0x69617ac10b8d3947; 0x32288b68bbf2545b; 0x3233b06d6901eb68; 0x446e52bc539c023; 0x3d0f93bcfd569819; 0x7375fa19121bbb7c; 0x4e2b2a4235b233c0; 0x38fa7630508cc820; 0x45d27e3999945f81; 0x4343f8fa985ce30f; 0x3db465e635c35f09; 0xa95959905409bc3; 0x5a6665c286e179fe; 0x7fb92c9fe9dfce70; 0x7eb1f01c1b3a8929; 0x6d5f0a42fd60fa63; 0x5744cd8c00040e24; 0x47ea8246766a8efb; 0x7ed0e7d99559356a; 0x15b560a6c5908cb0; 0x50065b3a822058e6; 0x47a5c3a3f1f23f14; 0x2c4a43a50f55551c; 0x5b7fce1f3779418a; 0x74922e70f4444d9d; 0x3a11810435b40acf; 0x65551f8b1eb43ea8; 0x68f341badfa17fb7; 0x3f93e68e77cd6475; 0x5e9ea095bb6995d8; 0x49d0a542df8d5188; 0x7646f5a9b0d56824; 0x175afad9f92b2bc0; 0x6994bf01dc30a11b; 0x2bd1cdbd764015b; 0x4620b40d5aa29196; 0x4effea8e0a50c549; 0x34ea7fa9982aa6b0; 0x356b96004d7e1c0f; 0x67c52858a3a1fdab; 0x50d995c4dcb38290; 0x109b8d48b8d960a0; 0x6f5c49ca155fb9db; 0xdc1a0ec82920772; 0x4bec3add04f99307; 0xaed9784129aa104; 0x25f80df2a44738da; 0x2325bc13c1c9517d; 0x20679cc37cfd0ae6; 0x12821b18d9e7083b; 0x46b3977a367fc6e4; 0x70912b93fccc8612; 0x5c3ac92d5a280640; 0x56c6e46b28134108; 0x164887a839ebd66a; 0x680c42a16e311656; 0x5464f2d15b14cc3d; 0x68b93124253a5cda; 0x6948438ffbb669a3; 0x7b016c1ce598f721; 0x3af6f19f456e8bb4; 0x705ee50b0162d7c3; 0x6b30b199cb0f187d; 0x5b1e3c2501a1897c; 0x38127bdd1fd6399c; 0xccc1f9611a053; 0x2165bbe45b0e192b; 0x1f225e15187a6862; 0x404ed3919da43633; 0x7ed19d4c3db6f554; 0x7bfe97aad068b594; 0x318a45df19732b5a; 0x2dd4623528bad5af; 0xd82f9a0bbb2f25b; 0x3898c0757281cc54; 0x3408c26c676d60e7; 0x1158f310c21f7c4b; 0x73f0c61e774d36bd; 0x5063fe85dd93cc12; 0x14328a6ed012e97; 0x1ceabdafcf74ffd9; 0x46324651a96d7fa9; 0x8370b2617d77957; 0x6ee394bf4e0c25e3; 0x7e36f6d4ba51af59; 0x26771d14cc655208; 0x7c10aa2711b51c1a; 0x18f306e9a17c6fb6; 0x405a383f2e0a38dd; 0x269504c95790f2c0; 0x1efd195a59db8fa3; 0x15921fb8aa696dbd; 0x1b1e98114e74ff8b; 0x23596f31dd47ac15; 0x106e002f0f977d3a; 0x5835a9e8c1a3a429; 0x3e81b0dc55ba11fb; 0x609c4e76f1f388ca; 0x48817b9cff06a86e; 0x3d8f59fd4fc79815; 0x7d429c8764c24974; 0x90bd6cf44edd608; 0x7af5884418d97013; 0x33b4dd97912150f0; 0x2a6ecd6ce52d6238; 0x26426e23237399b4; 0x2a8494e408b766c1; 0x6a78cd4a2512d1e9; 0x73b2e6d173640df5; 0x484131f3c470dc42; 0x5c4a5a290501de1f; 0x3877eb08519079bf; 0x78ec0d1b955e062e; 0x6c1a002b67fb0752; 0x77d09fab471b174a; 0x6ff5211235c83762; 0x1f8bd3444d79dcb7; 0x697ffb228d998dc3; 0x110ffbe6156ee261; 0x6fb257478797bec6; 0x2ca670b6479b5d1a; 0x71dbff28d54d25a0; 0x7efc391f871a3959; 0x7f9362c0dddc8d84; 0x6cac8f8d7abe0a9b; 0x672a6e39df9c1970; 0x5efe3a474aab5e41; 0x626f828a331977e0; 0x38837ef213afd1a7; 0x251a10176a13f050; 0x1002130a871b4f1c; 0x6c66eec7225c969c; 0x7367e5b92cbb1b8d; 0x1482281df88c5f6d; 0x3e500f1378535c7a; 0x3ad07b86a9570359; 0x2c7448];
   [0x4938f9856d14153f; 0x247f56aa577a13f3; 0x3766f581676e3fd4; 0x71e6401c356d6976; 0x29f3f0f8a80a1628; 0x28a11312db8b3f81; 0x37f246e96b2a142e; 0x7fd47fe8aa56fd02; 0x5423466afbc680ba; 0x7da24edde7c136ca; 0x5e2fc2cd274631ad; 0x75518e7e3e2f7647; 0x71c467057dbace34; 0x26e8ff9cb5114312; 0x16f37396906f9f5; 0x191693e052990348; 0x718d2d8cf912c3c6; 0x30b778b9b1f56b25; 0x7a0e6f5c71ceac11; 0x2a641f1b93a2e55d; 0x6059b955f034d2f4; 0x54645ac070fbcf20; 0xa032e81e8945a89; 0x5e75bc2a3b000c4c; 0xea25651ee72da3e; 0x4d0b6fa6eec8089; 0x57a9edd68026af1a; 0x6a96974aacf0032d; 0x67ba59ea396060c4; 0x5ae7f39b6dbf4759; 0x6e9f7d89f30ff650; 0x297428f4a9ac46c3; 0x308d9ce0dfddd87; 0x30eb11b81719a647; 0x2f1d6c9c189b445c; 0x28f249ee95c89d4f; 0x20e0a5d20a7df840; 0x56d1edecb0340f8e; 0x1c851df2a904ffbc; 0x3c509382f7a8d0a1; 0x19ee9eeacd774600; 0x383a3bae68a247b5; 0x1fabf959c3bae5d1; 0x72eb8f4ad2473d55; 0x78a5be97546979b8; 0x61df5986e75cd2a8; 0x4ad02f9ca4d43af; 0x64689ed58a58064a; 0x645fb4239905818a; 0x3c40a4c039291e71; 0x689610b4688e4e07; 0x3aea573415438d0c; 0x6fa3bff8ca145d34; 0x4a9b75a5beea3599; 0x653384f7be826f0b; 0x684ef7613bc1f92a; 0x36e93217d73784e5; 0x2dff8dbee1445f3b; 0x1919482c0a0a599; 0x4a8585ce825cbe2f; 0x37d75d1bfd605814; 0x235062ebbc0857de; 0x21f1130498282ca6; 0x277b968fcedb22f6; 0x20994094253eba09; 0x38dba7e1a6b1dddc; 0x62b27fa773af7bb4; 0x6a6dca92b2f50870; 0x31dac233cb9c4396; 0x21aa67bca3f2b4e5; 0x51647934ca28203; 0x798f86599a0b9ed8; 0x7d142cd553f4ad83; 0xabced70e2a1465e; 0x7d51a629a6831f15; 0x265b9d2546123e29; 0x2709805424d306f8; 0x11cd31d28526a697; 0x53ef2f61e0fc100; 0x17231761fd4d03f2; 0x7ddbd52b1b1fe788; 0x481b753ba93d93e8; 0x1b484e9d352c4e1d; 0x3f0a19571b89ad60; 0x6348328c76af0aaf; 0x1bbf0175f06e51e8; 0x41749e554a55f9db; 0x54e04a5c1388bd93; 0x78eb856d01c87bf3; 0x2db514c8a88e3013; 0x34855c29f2db01f7; 0x1b1f898a063926e8; 0x76ceac3f709b013b; 0xf2107261ce8d07; 0x4c4510a1e69c72bd; 0x73222f1a935bb2bb; 0x8c2a1784f736be5; 0x3a4b9babd9f64f8c; 0x1203bbaad8298de1; 0x543f3d53afdf0d68; 0x719cd9604131e02b; 0x2e4afbfb6800db45; 0x4980d937a9105c83; 0x523fa6bb08b25d4f; 0x56f9c32a95b88f2f; 0x855120f089f256c; 0x22f967c9d70d96b; 0x518106e99559f2de; 0x22f30f2bca91ffa0; 0x58f1d4029384b648; 0x6021aaba53aba2cf; 0x60528413e069aace; 0x1f2be09f74ec379d; 0x7cca3a7448d261cc; 0x32d0107dc4a9a334; 0x9be4355e5428de9; 0x2ebc2ebbf8ebb29b; 0x68a7bf7a7e28aee4; 0x5015be589960ef3; 0x43ae0fe23df7e950; 0x3b21d4a510b571f8; 0x56cb6757cfe4921; 0x29d677b07abe404; 0x23b87ba45226d200; 0x71cf579422a09d26; 0x13aed80c9e3d331d; 0x2270e5261efa9e9d; 0x3f059f6b71b62f51; 0x3b8acb52200874ee; 0x11c06adf4b3ad025; 0x2194b8ed8208e7bd; 0x5e2ab44411fd4fcc; 0x52092910aac2069f; 0xc75bd0e2062a085; 0x16e2995d2b5878f3; 0x372895dad89ca2cf; 0x1f64ac521d9b11c7; 0x2bd4f42e0dab6835; 0x730baf5df6c762bc; 0x5bfbcd938f8dd3f5; 0x44ea3b9fb34b822e; 0x57d37ff91821ffa4; 0x20e3c84910007abd; 0x6e9b9f31b4b0ae53; 0x2f80e22baae4979c; 0x57a2ceaae31a1300; 0x68b7e912820ee14a; 0x1631889602f224c4; 0x2bb54eedca531e9b; 0x5c18a13f1fbc7b66; 0x25dd69474b7f47d; 0x721299e2bb6aa0a8; 0x4b76d34a09bccfb6; 0x206b46751c26e1fc; 0x237ac1502c80afa9; 0x6a5e8d767be59a59; 0x55647497c1efffb0; 0x6af90cc4f497cf5d; 0x4156152314715a26; 0x5414520313aa3814; 0x2ea28cc7d081935c; 0x96d7f2b8faed051; 0x1e8c8689747b16e; 0x3510bcfa6955ca42; 0x1772b2dfe0c61965; 0x6696e5ace917513c; 0x4fb97000fc522ea0; 0x1ff1b0f29328c697; 0x21c36269415f2a99; 0x1dbad8b7a7ee0c32; 0x759eee753f83ccc2; 0x3ec205ba2ce06262; 0x483ec9a11ec72585; 0x2528ad8168e9b0dc; 0x40d6886ed707e896; 0x3697abb81951920f; 0x746a7ed29cf1caff; 0x4068c245408efc85; 0x7201790dd051cb06; 0x792328b5dcf827d4; 0x4936a1dc476c6e94; 0x1faf00c30503fe38; 0x6602afd60d937e95; 0x1332180508535b11; 0x5ff92d38d340bd87; 0x4f149e94d579342a; 0x7936aae34b269530; 0x2e6842232ea8e646; 0x71291e609bdc5610; 0x19819e81ec13cd11; 0x408e259efb7de71a; 0xe41494f2cb083c0; 0x10a13e322c51761; 0x58ebc7de60f84ba5; 0x66d65e47a1349da2; 0xfa21242e6756fa3; 0x1bc5d04cc4e918c4; 0x6ef056f2d89e39c6; 0x2510139edbee504d; 0xbfd7a7b7c87931c; 0x10c993bfb4faa2fb; 0x5037effcaa7fc7a3; 0x298777efaf520c29; 0x3d2a55c5409a1453; 0x7c9ffa35ee66c0f5; 0x4ece47afd4fd09a5; 0x48a3747602d05758; 0x53571ed43678e0bc; 0x73ff9ec60b0c7486; 0x745e55c2c1c8815f; 0x6a9113d3fb930863; 0x16f1feb7c6900abf; 0x1d6c34df3290ce47; 0x7a1aa019f0a0d10f; 0x5c3798c94a75cf49; 0xebbc96ecf5d3add; 0x528d4a5d6160a5df; 0x4e5a0e103b590a7a; 0x4a85930fac993f4c; 0x45ae04eee7170134; 0x2a59ca0955c59599; 0x23c74e21fc2b4945; 0x439573b5034a0cb6; 0x1a2c986caad9bd1; 0x1989ac292848f53b; 0x17bc13e988cad648; 0x7bdb579b7759b184; 0x14cbf27b08e7476e; 0x3c9a2da4b6332d02; 0x25b4eb20a76a48d3; 0x3b04ac51c2a1aefa; 0x741a1788760be528; 0x2dc69deed36457fd; 0x5ec8b06ebe3dabdc; 0x32951536c745d309; 0x1b041c67cb00ff45; 0x3b17b62a9fa4b52f; 0x12e5753bbb6f6566; 0x3164fdc8b571e804; 0xb572828a6389b3e; 0xb85f8f1046e64e; 0x5d9761ee4d3682be; 0x2ef6bc9190ec912a; 0x8216a4eadeb4638; 0x5219121cda332742; 0x1931eced4dd73ef; 0x366546deb3fa8f39; 0x268c12e14e407304; 0x14afc76c9b6e34a0; 0x49587080ca0ace01; 0x1e135ae049054bb0; 0x61f58262431409e2; 0x10f24f2271d34cda; 0x39c2e343b4c1ee28; 0x78a75023b614d590; 0x2be964e8df085ee5; 0x388889604abffec9; 0x7786c196ed3bd56e; 0x3b9541a48b239aec; 0x4ebc1a1b784b3302; 0x8b2c18a57c9d554; 0x310b792b67a03f34; 0x16e16fbac812056f; 0x1de26bf6f90f9309; 0x65de5e13e73f3dca; 0x271df9ac3633aae6; 0x7547b9a62c3cbb2a; 0x28533af142d7ed41; 0x57c55677bcdc67aa; 0x7b83bfb49391746a; 0x3180362bde7f3f09; 0x4a6c4ba6dfd97125; 0xb58fd1b12e57908; 0x6c563867b80f3d96; 0x3c23198c1069f354; 0x58628a32a70a6dfe; 0x8933fe67a2bff40; 0x5378f4a790106b7d; 0x2a70700b1e57c2b6; 0x8ce033b28073c46; 0x6da1c2b56a6ab371; 0x6f6e4b6414ff9283; 0x69bcf9265e7316c; 0x345560772823fae4; 0xaf93a014c2a9cbe; 0x3ca23650ef13fee1; 0x23b3ac359867b252; 0x3db412fb4c2d4447; 0x22afa7d8e06c146f; 0x43b758cd63d7cef1; 0x292d71a664722e93; 0x4f309724e0d84600; 0x1926344c8d4f5cf4; 0x18a2401547077a1a; 0x389ea96954d09a31; 0x4b15e7d38c2d1a; 0x5e7ae526ec1547da; 0x31949528132b5b74; 0x71c26ada90f3d445; 0x3a3485dac281ebdb; 0x18b96769ea1d2efe; 0x5a0fdd9656ae459f; 0x79616e6493f1a3; 0x51b27ecff8f1aa0c; 0x5ba6b5f8aee93b55; 0x1ebae8a8051d82e1; 0x6e8172c846cf8a92; 0x18d135adfed9d735; 0x62bcf35f66eafc2d; 0x7db5f2479cdef583; 0x42db5e5286bc6f56; 0x27890ddd2d02451a; 0x9a0b011d1ec5849; 0x25806c8dbc926b3d; 0x484601eb8facf938; 0x3918f87c1c4bfa2d; 0xf8f40163bcfcd90; 0x222b9d];
   [0xc4af6fc2e8e7578; 0x5282232c22063d1b; 0x3edca2280fde0577; 0x2d59e4d5e0ab2; 0x5a08bc77b8b556ca; 0x6e8c9de90fb6ad26; 0x1e4617f41df4a0d; 0x15886614e7060082; 0x6c111f9d03a7e789; 0x447b34eaab32bf5f; 0x63b6af529661c67d; 0x6411e67d7260ba3; 0x395445b721256302; 0x764f2280c4fb1659; 0x4dda725792301ab8; 0x1acd106323138c41; 0x51bb5596f582b00d; 0x4afba4ef023f204e; 0x13c18a00afb0cf36; 0x6fb0759670922ef8; 0x37cf89b55575f756; 0x22e84a40fccaca0c; 0x515597c92858d5f9; 0x7f72024a5b1b28a2; 0x470235144e0e01ac; 0x61c525fb077ca99c; 0xfd964ccefa3a8cd; 0x7bfc28a4d89a6378; 0x98c6045c84aa6fe; 0x54f0293d1481898a; 0x618ca8c40a14315e; 0x64a1b9d70fd5e016; 0x7075527c7a46ca8f; 0x68bf0bcc823b2663; 0x1f782c5830047861; 0x6ab310f7b69478f1; 0x7803dab800edc628; 0x7e951352f9686fe3; 0x70e0ebf60f90cf36; 0x75b18bb37354c4d6; 0x6405685d39e9a895; 0x782eba42616005eb; 0x2ab5a87774e278c9; 0x5a0b94812dbf6f73; 0x7fd9701c0858ec15; 0xe55e871845624ba; 0x6b42b735d8c4fe69; 0x67a017a90651f4e6; 0x2b04af1d22f96bb7; 0x57fc04aa0e99ed62; 0x39c965faacf03bb9; 0x2d89eed4ba9c55fa; 0x35812fe4c3ee830c; 0x4e647bc2abe8d109; 0x7806a646baf8c49b; 0x1adbe8cb2dee14e9; 0x584548e638a2a1dd; 0x67d9f04405edbd2; 0x2aff7c0508c49026; 0x73a20720cb22641c; 0x61f4f3d15e034f15; 0x38daf6a7fb28662e; 0x1d824af682065c41; 0x732933be58e86f6d; 0x74f22bc9afdd820f; 0x5fee188ac46a706d; 0x1f9f2ecc1f6906d8; 0x32da944c1e99f8d9; 0x71da035adf2cb590; 0x3bc026bad9e52350; 0x4c580e234e1fc549; 0x1ceec775f677f9b4; 0x6ebbe31373cfd1a1; 0x4657eebed06cbd93; 0xeb0cd2887dca8e7; 0x17d8da80b7ac7fd1; 0x2b61bb6d70c46d9e; 0x639ecaac0e242a02; 0x69a892a677fedf8e; 0x659288777caddf9c; 0x374590f5c03036a8; 0x798a34d9c249fcd7; 0x5d6cab55cae01e02; 0x651d6bef214f7828; 0x4db286a2b54d7e04; 0x68c024573cec3382; 0x33aaf0ac1e0f6c8; 0x6c549678757f0357; 0x7365b03111f70ed8; 0x3fea7a326e963295; 0x19ccb00c22d843f6; 0x19e0a9147cbaef26; 0x2e11e6956f65844a; 0xf1c4315a7a3edc2; 0x3fb2649becb81e9c; 0x658761ab65de1d25; 0x1c38e25a64fdaa15; 0x8b459a7f59f0e1d; 0x38f0b591fc391e3f; 0x7f75ae28655031c7; 0xbb6aa4d214aa6a6; 0x123de3ff01800e8e; 0x6b1c186e4a1173fe; 0x26de0550b1e4501b; 0x677a76c3004ada1c; 0x5f961ace5481a451; 0x7dc6ad68bd74675b; 0x1056fcba7052b8c0; 0x78d490a823a485ad; 0x3fc6fc6567463d4b; 0x619d0adeabd842de; 0x1a15ff7c5268644f; 0x412d41780ff78471; 0x6bd42a40151ee554; 0x1523c33e19ea937c; 0x2c4381237f6e4213; 0x10a6a280effe46f8; 0x756e59cb5d1df7a3; 0x981c7535b9d253b; 0x155e711c7e66d98d; 0x7ed9f120bb44922b; 0x205db9b6af4c4cc7; 0x71627724230229d6; 0x515821a81ed48e95; 0x111d3b0f5b6692dd; 0x184338676aa20f60; 0x2e0d1e33bf48f81; 0x3f194c49ad15fc4e; 0x55629eec2347e37c; 0x6e94e3f707b4e006; 0x2b97de227cf15ce3; 0x4b8796cbe95aec0a; 0x7dcba7e9e16207da; 0x14b459e405a2e4ac; 0x6e4c835ed1fd6bac; 0x756d475d694ed370; 0x21a9713bf89c9218; 0x6968519f0ca9aebf; 0x93accb3cfe33f0e; 0x5d5d69e324c45fee; 0x504ca03c456262b8; 0x15a91fa80cc0e888; 0x482ed9d6d81cc962; 0x2c2aed2d3bbfa42; 0x118155f09d0fb474; 0x493a11cbc0f8483d; 0x702471e5ec2f144d; 0x342585250f7dbd56; 0x5cd0920705a10cc6; 0x1caaa213a7fe813d; 0x3c896b325ab41545; 0x132b6c11d940e29d; 0x1ca8b98ed3bf431c; 0x3747847c085883df; 0x8449afddd7a4c3c; 0xe4a7032ff5a5990; 0x52b9e460df50fd56; 0x1688ad39cd80a5b6; 0x14ddc18137cd3858; 0x314df560d2dcd4cc; 0x752b804ebe7b66d1; 0x5c01dee471e5a6b; 0x511f232a2d5c75bc; 0x75028489d24c2bd8; 0x1f7bde942ae4d373; 0x61fbc51a88c4d46c; 0x7fbf29a12087e901; 0x36469c7992cd81f2; 0xb7b278bf79655cb; 0x3f7719c22c6a32c; 0x7e0f19f460381ba1; 0xe733cab1e758312; 0x657b792bfe12a963; 0x77f2c2bb2543664d; 0x2dc74fdd8cb2c543; 0x59cf523dfdc17b0d; 0x4ce544b2fb9b46d6; 0x2d9e551df52680cd; 0x36a1b337b3ab1651; 0x5836f1c9f6a46903; 0x1a135a162b62187f; 0x339a8dda527eae75; 0x7dc9046de98fc036; 0x75f4619a3f8c223e; 0x31d043c6063cc541; 0xeaa31114bae6ae; 0x46c42afded2ad32c; 0x7496d99619ca0343; 0x2b55776c012b4de1; 0x142a2e7bb26e447b; 0x37be2b3ff4d2dcb1; 0x687bda17fba148df; 0x2a67ee63848b487; 0x62db8fe544b8f798; 0x7987aea5986efc28; 0x14c22e31e14da193; 0x54a40d2ba50c10c6; 0xe98bd1d8d35c3f2; 0x47001299b8dc72e8; 0x6e67931f60b050bf; 0x5fbfccece4088f5e; 0x1d9d6892c4fe1e7; 0x6ae7a0bc0c66cc2a; 0x2360f3d5342e20da; 0x3f3884c734951c9b; 0x5c3906cf34c66f53; 0x2dc5cc4f509062d6; 0xf16ad82a4ef894e; 0x139d72ad94c431f3; 0x4b581fd03e572e9b; 0x6da9f2f9323957f; 0x60cc0df8faa2e24e; 0x4cbc37dbde027a2b; 0x69f64488ffddfa1; 0xaf73a2ed904d1ae; 0x10eb9ce3d820c22e; 0x3ddeb8d56f0dcb06; 0x1163e74d57be6bac; 0x341d47d05a053c59; 0x7da4ea85ed934b33; 0x5aeae91172261304; 0x69a71e8341640eb6; 0x5026279c76225986; 0x10e5a13f92fa5b82; 0x2baaf5fcea09f68d; 0x25d91d7d621a1c28; 0x133f0f07aaf15d59; 0x356e924fc539af65; 0x237f1ac82a864d46; 0x6eff01acc86ed53d; 0x19e2d51f6115c82a; 0x523c6e999db539e6; 0x10f8d3ac5ac1eac1; 0x4884051c4b93fa7; 0x709d34e16829b0e2; 0x1aaa8c4b6fae0017; 0x25b3b7671fc2a635; 0x6f6b510f5fa12ddc; 0x3c0f814e42be0bb8; 0x7278582bca006b3d; 0x39236656668c08bb; 0x329d7af57a6698f8; 0x660741756737005c; 0x422edf3e6afd2fe2; 0x77cbada252b2365e; 0x5fbef39d940cab9d; 0x5548aa6b1bd29b34; 0x332b2238a4ebbeb5; 0x4932ac4e1c66a62f; 0x912069e22dd0936; 0x57e97512a24f5209; 0x39909de309e66623; 0x39ce875db07cd074; 0x7ea90d1f531dd351; 0x735806fad04efcd0; 0x7b5ed2cd0d1b1707; 0x3962cc2a2bb758a0; 0x56cf575ac9fe3223; 0x7c58c70b9fc8489a; 0x96098885af6bec5; 0x70170d24fb14bbe5; 0x49e60139d1b41ce1; 0x2f3614640bf08954; 0x48902aa4a98c41eb; 0x60d0008921275ea2; 0x67211c477de292f2; 0xbdddc145610facf; 0x5af75a237144bd92; 0x6f53db4c2da302ab; 0x61ba6ce6f6973998; 0x6ddc1a92ee62897f; 0x247465c0193c06ef; 0x643d1272153a7288; 0x573d500536c8e8ce; 0x6cdff688cac9752c; 0x1e98d361325a270a; 0x6d28a1e98483c64a; 0x461a36b425f45932; 0x691ee49720313d61; 0x5f7c4c72289e45da; 0x7be834a1bfe4cae7; 0x680b2e0cabf6b90e; 0x166db1a0010f03ce; 0x7187648c341b1300; 0x2a44739598facb3c; 0x18dfaa8f8571604d; 0x59f3fd0c7a3be3cc; 0x27fbdb11c7c6abf; 0x2cfd225487429d37; 0x428bbbe3877a33fc; 0x54f54d9ca86c305b; 0x6063164591a96fb3; 0x51da442d949af421; 0x6f3825367db4a1d7; 0x3ba58918123ebb6f; 0x68739382bd438203; 0x28db5d7f0a1f2102; 0x77484e885eead2f9; 0x466230f7967c2cd8; 0x4f0f74ab2b1a45ac; 0x34630ffd5b7c4a8c; 0x51f6a30f070d9ac2; 0x37ee9b6362a0a3ca; 0x1d1da1bcbd98b818; 0x5cea54cbd477b8d2; 0x6225d6086b0b9141; 0x60a31ce5177bd4a4; 0x138f9815aeb01b50; 0x64046a3d480b80a8; 0x5734c0003051b4a3; 0x47f40b9b615b95f8; 0x37e317548e5f3f84; 0x3c7b1e23cc65b9af; 0x6adb7679770092b0; 0x520c00aa38aa70e6; 0x2da65994e87cf49c; 0x4d168c19efc6a473; 0x4779f];
   [0x55b7bfec1f0d07b0; 0x2111ae6ec35f6817; 0x168215809e09b6ab; 0x6ab34a407f60fbd0; 0x6b8168ffc64dba57; 0x4192cf21e97700e8; 0x7737317a8b441822; 0x1e4821b6013137fb; 0x473b81d0b9951603; 0x27fecb7be48946c3; 0x2c2b9e3eebb16c52; 0x6f4da88e0a8e0ada; 0x3272e6191d7a77c3; 0x40993d31a3b42c0; 0xfa0e8f9f8819185; 0x353245fcb6c8e467; 0x3bf38d9cbc61d93d; 0x718087285470d7f0; 0x6e8a7b2d409862ee; 0x5f226990bc4d5a0b; 0x62205c89c320765a; 0x5079b60cf63cf7f4; 0x40f0f08d583c3704; 0x6e92f99846475e75; 0x99090a1f0a091cc; 0x799d8ef239ace6e4; 0x389e00c2f2325ca5; 0x58305b30424769bf; 0x76932aeed1afaa53; 0x66cfd224eac86af7; 0xd57a71968227b24; 0x4a54c4bc4473451f; 0x626af90cc9637128; 0x12f8601146185a25; 0x4e9fa8b03f4960c3; 0x72d9af70f0694aeb; 0x42e70be714d4b476; 0x565020baa59b3a6e; 0x5392cfa80f8f2f5b; 0x781c521a53c43e7a; 0x639fceea4e6b1e71; 0x7abf71fb69cb5f16; 0x124b0c8bc93fa140; 0x34ea442ab86b7593; 0x28514a2080807019; 0x5408e7c1b1b7a9e5; 0x7a087f3eb9feccd9; 0xc1748c4379a457b; 0x6fe4437fe669a808; 0x3900496b18f1aebd; 0x59072cde17d05d39; 0xda24d18dd5587b6; 0x28c74dbec50a3c59; 0x23c8851cfe7b9fd9; 0xe81a944ed9d0e9e; 0x2c4a366534bcf4d8; 0x4bfa5422f0bdd324; 0x5e383ae000ce46e2; 0x5803fc35d0e407e1; 0x745e70b93d3cf35b; 0x7e282e98714dba95; 0x448038fc0ac31342; 0x5fd0299fe9050dc0; 0x434cccb91bf992a1; 0x435c147bfe801345; 0x57d0ef140b94f502; 0x7a380f01d97fa9eb; 0x1235e520f492d78c; 0x27de0ccb2ebedd7; 0x2d0868922c6fcd10; 0x4bfd03a02fb86a15; 0x67559c7c79b7cdb7; 0x5c1c2083ab34ae52; 0x41a2205b497d8a5b; 0x5c5b187222a14079; 0x1c5d599a3c2ce14; 0x6f77e8d679c88077; 0x7f05c9976bcd76c2; 0x58fe40e183ab2b08; 0x2adefd80d946875a; 0x1d6535ba0623386; 0x20313df581220bf9; 0x7943024adb4f29ec; 0x1b9e95617cd4c8c6; 0x3f75f7fa98abbb68; 0x7c69ca80545ac39b; 0x41f78022fbecd596; 0xf087f7ac36f24d8; 0x1ac1dc4cf8020e54; 0xc00c645a434cd2; 0x552ec54d9b86f92b; 0x44ece8dfad6a4875; 0x22c5b061280aae50; 0x4a74852453bed7e3; 0x1d379ca77068daeb; 0x474848fbab1a7212; 0xa022e6c828a3601; 0x6e00baf87614f3ce; 0x7dbfac572c9db215; 0x3bbd1ac97875b20c; 0xd7c21e7c8649e9d; 0x48d62ec2e4c925d5; 0x2e1143165139dc9e; 0x3f06f7d6c27e0bc7; 0x1fd6890f7edc9c0f; 0x6bf38dd910f7c920; 0x6e673722704a3593; 0x214ab9b6e91b3a61; 0x3d09f5a9e4ecc63b; 0x2f274d0544f0d77f; 0x56e67605af477ba4; 0x5b386506532ec9fd; 0x463f7e56bf7adefa; 0x13f1c3b60d5ecc85; 0x21aead046e3b9636; 0x1d23aea98ff7f148; 0x35496f54bfcb2f91; 0x7e1ed021f232e7fa; 0x38e7b8a7ea211c45; 0x284dfa8fd9499a63; 0x453465e12e19dd48; 0x2e98cb910b30203a; 0x58b1f88ab074b9a8; 0x5942cb52ebbfcb25; 0x4d636a379707a93f; 0x495b987b15cad6ba; 0x47d7f442062f530b; 0x60708ab51741dd01; 0x337086a633b11e66; 0x73ea940d55f52c19; 0x2277c864da60b331; 0x5551ada5821104ba; 0x4f102f74b7f21387; 0x107f60a2d07bdb11; 0x5ea8123b4182cd8c; 0x4a0398028d3b632; 0x5a8b71013b9752f9; 0x11d342a7133e33d4; 0x14daec621c6817f1; 0x2bd2aa704744cd35; 0x1574b26a62d58893; 0xf899de084fb8c29; 0x540ada39e73dd87b; 0x3d36292098148d82; 0x4a514c4075aef4d7; 0x4c24f7b07adc5e05; 0x2280c3c31979fd47; 0x707756ee6943470c; 0x11575527142a89ee; 0x32cf5f801f33e4c0; 0x560df11b899d7104; 0x29729b4f8a505a21; 0x153e3226daac887f; 0x5debcd0ff575bb90; 0x79f770738dec764c; 0x1aadad16e4fb3ac9; 0x432a772df065bc3f; 0x6e1e7d09b4452958; 0x6fa5691dc76ca314; 0x6b4efc6eb35a03d5; 0x4855fcfa4d2c1693; 0x52973c10005b60b3; 0x60942fa35d241864; 0x73629deeb1edb1a1; 0x4443cbcbda6702d1; 0x7b47ef8a6ca03deb; 0x249dc91f0ac466a4; 0x77022a6d9179c320; 0x479857187f3af6a; 0x73c82230bff975f4; 0xeaf81e74b24034b; 0x256c7bcd8d23f6b3; 0x6df4fe76e725ea6a; 0x140efda47a2ffff8; 0x67e05840d9af01ed; 0x22342eab00250f1; 0x2ce5f0c99cc6cf3b; 0x5376431a27f31636; 0x5482fa31620c158f; 0x263c5e76f3a4784a; 0x372cac7437aa137f; 0x48463d9b427ca543; 0x33c66cfb8f14f799; 0x3c73b11069c31d73; 0x24d729b744f11ac0; 0x1c8a42c90b2bc67a; 0x23cf87e0f5786342; 0x45f99db3dc69db41; 0x253a7449802013be; 0x2e37c2e237d703ac; 0x5f99db0b4ad86f33; 0xdc3683918943328; 0x17544404f6731863; 0x2d3daa5af30aedbe; 0x608e091708b3486b; 0x2985a22892100984; 0x5949fee05e671803; 0x11f071e9f13687c6; 0x85550bb68bb55f8; 0x60eccfd9e1382a06; 0x23e5668aad13e44b; 0x73517cf01b611ead; 0x62dcb4f4a02d66ae; 0x82fe99a2d2fd616; 0x4bb003c7f729df; 0x20975ac7e3591f73; 0x60b265a73998281c; 0x4928a28850106b52; 0x906a95c24d654d0; 0x7c82d9c3ccdadbc0; 0x7027924e3b1a95c1; 0x530a13df0658607b; 0x191f5c3440dd500; 0x74976309e6400c4b; 0x1954613d35019438; 0x1e6bf330bd46ce5b; 0x11b15ddd59405b26; 0x7c6dbeb6f017a112; 0x6829005251bdb4ee; 0x628542572fab75ad; 0x3ff96d48f89938d0; 0x643ca17afd9290cf; 0x3c97a7ae96701224; 0x1d491bdd3d428575; 0x7f83cda1d2721bf8; 0x3c5e81b5404b27b3; 0x34dd4f9379756105; 0x1990415a89a0ad43; 0x5edbfb0874c94670; 0x1867d7660fb3a3bb; 0x775ed2d6ecc29f4a; 0x2c1f652857ea9eea; 0x16d5f0870c720f1a; 0x37c08ceee9d60103; 0x3a1d25a59b854ff1; 0x7b6cb1fa286c9900; 0x5d51eb1a4c9879f0; 0x67a52bb55bbbc32e; 0x7e66774086fe51cd; 0x4fc1a856ceebaf65; 0x27364a3066924b2f; 0x68fe99af677df618; 0xe39fcafa53570d3; 0x159e7aba90fa25dc; 0x3e20585e205fbb18; 0x6992be005c78d88e; 0x6abb05a051519287; 0x3640fdff8b8e7fb0; 0x227d7d29463cd91e; 0x48547ba267294cf; 0xee20c09368e1643; 0x438a8e582d179f4d; 0x349d69cc40069b3f; 0x52bfbca96bd801ee; 0x41c3f587d7b9a39c; 0x1039eac1b2083c8d; 0x4f7f4026b324c565; 0x6bea9aab917c41ac; 0x5a3b9c7319455a9a; 0x1610af5e73192cf0; 0x5821695868a62172; 0x4b9a3186b2c20e9f; 0x6fd7391ffc88301a; 0x19f3d291813bbd69; 0x300e2f0b5a7394cf; 0x501b5e268cef2c41; 0x56b314ff9de9b0fd; 0x5b5a232907604362; 0x718fbf933c3896c1; 0x7d92f02653ce9136; 0x39d4445c46278b6d; 0x431dbeed6784dbbb; 0x13b5af5565289607; 0x1b50d1b5b212cb63; 0x1fee8e4c5efe47f7; 0x19e867cfedf21f0b; 0x6c935bbe397db9c2; 0x5d3f7beab168c57d; 0xde8bd3572799bc2; 0x36cf764d831fe44e; 0x7738f583ebacdbad; 0x69088632cf832121; 0x14a2d04fcfb8c50b; 0x3abde345c94cf6e3; 0x60c18d958b416f35; 0x8c35c39de9a8c9d; 0x4f1a37df988679b0; 0x7c580cc525d86194; 0x544829e30a851661; 0x5a2395e683236675; 0x7dd9e07b5373ae61; 0x7f9a044fc9c4247b; 0x2b9614767702766e; 0x129769a1f3861c37; 0x245fbbe7b0a4374; 0x56fb618b289a1035; 0x691aa0d62fd91970; 0x44bf97d134e03c80; 0x7dce86edf79a26a9; 0x65786fbbcade97e6; 0x7e344636e8260d6d; 0x1c49d078c3a07d4f; 0x562296552208a017; 0x1fbe2cff98c5efc3; 0x3d1df2c167cf4c57; 0x5d63778a36ecc98b; 0x295ea79b537759e9; 0x5aa33838f2e290bb; 0xdcc8662b1f88db7; 0x2cd4869cfee3d1d0; 0x3194747126ed2c68; 0x22aa000516b9f22d; 0x122e7ca730fcc296; 0xc27bccd2e58c939; 0x41f1701e8978edcb; 0x7f2225e64cbc0ad9; 0x2517129ad14207d0; 0x3134e9];
   [0x7903cb50f0b4f11; 0x60aea9dbb80ebd35; 0x6fa6626fb6ef3be8; 0x33c682910df2977e; 0x1a84a07dc1ecadc2; 0x657d2199d1df2368; 0x3b994193252b6141; 0x3768e39a1591a071; 0x12885000cdcee1b4; 0x4b54b50665a20234; 0xf48a7071fb910ed; 0x6c895e6c286f68b2; 0x4ec3f0587445d9fd; 0x4510e8bb92c7f11b; 0x134c5547975cd433; 0x6d093a9f6e437261; 0x76315c6d5b7aa66c; 0x64280ea3cab79d07; 0x51043007b1398a06; 0x54622f39d79ce990; 0x4353bb0791af322f; 0x5db2e57f0ddc00af; 0x32264f5c28fa5328; 0x346e3c87a2f37979; 0x102609a3063e7157; 0x3cb4dba66fd48b12; 0x4c7410c750288975; 0x486ed0cb4833644d; 0x27a88e5ccc287d9; 0x6833b225f2ff18dc; 0x758ed6b8b2047be5; 0x1efb3d30f260d83; 0x22e21eb85f7961b; 0x5173426d683fb594; 0x4a3684dde071fe57; 0x55b79a1d2d87435a; 0x60d658a791103200; 0x6415f9dffea80a0; 0x551cdce545e3b9ce; 0x1ac08d4a16187653; 0x25ed03ec67fb296f; 0x67539c9c03570eef; 0x7f1eeb4dc92939ef; 0x7ff143222049bd07; 0x9f10d3784aa7d1c; 0x1f090c43160f08fe; 0x5b56213144c71ddc; 0x1d8a274ef601afe2; 0x2eb9da5c8596ef6a; 0x2376891c5e11c9a; 0x5a3e98d4feee187a; 0x389e93695bfdbfa4; 0x6a7f7a29ca3d5e66; 0x61188862d5c016bd; 0x6a8d6740612fffd; 0x5cca5d1fc5186570; 0x2cc65460357bf201; 0x33babbcc19571e91; 0x1d62745d305d965c; 0x2f1dd655043874c3; 0x47410d44253bfc1e; 0x5b342ccd06d8f4b; 0x6435937136efd79f; 0x180ab4017f6d75c5; 0x5e5e8257cdc9957e; 0x2e0367b8cd43928e; 0x17e880158b1472b; 0x5985c73ea1c33b83; 0x5792a2d124f67e6; 0x27da6d0b517dc648; 0x7e68241e2685ff99; 0x2e9eab15e071610a; 0xfb67562b354653f; 0x3666a5ad21cbf66d; 0x6442c056a15b2c6a; 0x534ecf890783235b; 0x43cf8ebaa8691046; 0x117d9e34d6ab5c06; 0x7e62caab8bb716de; 0xb4fc4edc25d52d1; 0x12477ebd435c5717; 0x34bc77237da5dd9; 0x3d1a039fae6d7af7; 0x6c0894a26c7a68a; 0x7e0039969e888cf8; 0x69d917b94afb4733; 0x1554706d7fc6aaf8; 0x1bb78cbb8d847a3a; 0x5945732c63bf40f6; 0x2e3ae8e390beb058; 0x1d3797dea0a2cec1; 0x2d3c983ff27ed2c3; 0x606e1a2cd6aecef5; 0x4f50f4652b3c90a0; 0x7652d93274317ebc; 0x45b81479688f906b; 0x209e39e371ca4673; 0x6a3e52e5819c6aaa; 0x25c5b73795d0cb7e; 0x5f14b5331ac3756c; 0x4dfc48c7b77f6778; 0xd610b9cee705faf; 0x4c1cee2b7b8274cc; 0x1651684ed48e0d70; 0x698536f943d8dc2b; 0x4761f07ac49860d8; 0x5f6fe9c37df9a198; 0x3af77ad4a9b8dc04; 0x13981219e4ebcaf5; 0x23b579ab5077a888; 0x747c9823808d7f7d; 0x1055e6ed170e78a7; 0x6443d3f07b6b17aa; 0x162d490e2f320a37; 0x38c5674f6cfa527e; 0x6d4267b7c547f02a; 0x27db1f89f208ba0f; 0x3d06ba82b4479b74; 0x2c9636dbc065e37; 0x74e25054a88439de; 0x1c889d83b16df3fb; 0x66261e7de343e7cc; 0x42f05887ea8988b4; 0x584b7ef12f5e485e; 0x1697781350bec0bd; 0x210b77ffd6159489; 0x5e9e9340dbb168fe; 0x2174b5965cd0d37b; 0x12cf7b2e1afb114e; 0x22ebc601757f89ce; 0x465837dd9e082fb8; 0x742cf8011fe991b8; 0x7f21ce2251067318; 0x2ec8a27e472d0b8c; 0x65f338d4a00f2ed8; 0x156c063cd07d7ea9; 0x784338b2a4402213; 0x6ae475cb19e680a7; 0x60c0a74011cb22c1; 0x1063635c50e4a3c1; 0x45148fa405bda3cd; 0x7187eeba6e45bec4; 0x3436a21dc3d517f; 0x61a071dcd294bb2; 0x27551a1327dc63ef; 0x1c7bba1c9997afe2; 0x7f2863cc2ed9b2cb; 0x180070841eb80a38; 0x4ae46656d8954908; 0x7611688fa1155e9a; 0x21491cf238b4298b; 0x7e99b2f17e81c2bd; 0x643f81ad367fb50e; 0x6c0a1c2caae1fe84; 0x2d61474a58c6fc56; 0x60bf21b61872c83f; 0x4bf68141e963f56e; 0x29f4f55deefcdf7a; 0x1653b0eb350b6eab; 0x7ee95099d7857c1; 0x567f87f67bcad83c; 0x43e2e9db49a026a7; 0x14e3623d33da6199; 0x6a7b061593e5187c; 0x386f7d34388bfa78; 0x4d99d35e3e18b3f0; 0x594083fc1a5ae2f; 0x371ba3c5120ef23f; 0x5454996477325608; 0x1b57093a9a5fe763; 0x6b89e8be025fc67e; 0x621652fe438c80d3; 0x7634019c0ff7da1c; 0x3a9abc82cef9d631; 0x141561ec3a275f4f; 0x6aa9f2891be60bb5; 0x26e3863a26a00859; 0x4b6eec190be4f434; 0x485069c5b60395a; 0x67dd629d9ed60ff8; 0x6298108946ee1867; 0x1ff45816aa077b37; 0x3d85a39485fa25d1; 0x3fc1129d59864a28; 0x59d9c1ef902f9e7a; 0x591e1db62563b6fb; 0x1719f5c8a77fe54b; 0x3897a58b16ba93ea; 0x6c43b3d4459424ac; 0x70ab38480e74eace; 0x591fd6fe9727bbce; 0x2499699807cf5768; 0x4ce88f42e1372b5b; 0x4045cd78b7b59a0d; 0x31c2e919b86be2c6; 0x25d8707cbd92e015; 0x424b656990515a97; 0x3cec58f9549dbeb1; 0x761b2beeb4c5315c; 0x550cc9274708740c; 0x364f641b8e64c36d; 0x27c494c246027cdb; 0x2edf59f14f26ad91; 0x2340e5b5454caca3; 0x5fa2ecc8735acd0; 0x587a981cec64b5d9; 0x26eed6a227e918f7; 0x491f0198672987b3; 0x6325f0eb8038721; 0x3151e06a1a42ebe8; 0x79f638c3c2bc4e58; 0x7dca6a5e359a5c39; 0x3df9dfaf041f805d; 0x6e78c7008afffc5f; 0x6b4c97c23cfff651; 0x7add1c63ed0d4d12; 0x327be4e3b524ad11; 0x305f1e3602190fd6; 0x1113f07b2744960e; 0x61c82c27014b93d6; 0x3ca5aee29beb1746; 0x17107075fa992c50; 0x366b911840e8940; 0x5bcf899b6f8abb5b; 0x5bb01fb21a3fc9f3; 0x6061936efe8447bc; 0xff1df231e53a89c; 0x3e80b3c65a1211b8; 0x42fd26365d4bd7e8; 0x6b3e3d2d69f3bf7a; 0x6b4c506dd6e60fd3; 0x136f34d9c0d86e25; 0x2aa67828be077658; 0x36fba51399a4875; 0x54873b4839cbeb11; 0x1b03dc50295ac831; 0x359b38962d286b68; 0x3c3a20a55b91d140; 0xa667cb90064097a; 0x4bc74133eb37075e; 0x50a5306a2d177b8; 0x45f3090482d1f10c; 0x7c3e090ae52d62d9; 0x3fcca01224b2b274; 0x7df2c31f89d8b910; 0x34ba8fe049632a11; 0x62713c1996c36abb; 0x6b513c74555213d2; 0x6394b116043352da; 0x6cf2bf687ea37a7b; 0x18e411dfe4c3162a; 0x463377fa8c3c79f9; 0x3ce3658290f917bf; 0x72a9b05c29fc4a00; 0x708e6f13d9cc9285; 0x19fdf158ff5acfcf; 0x5256761611998e0d; 0x5c8f263ce36499d9; 0xef6a9f0b19ba08d; 0x17f7ec7719a7d9b4; 0xedb5f43b002c44; 0x3a27d5e149bae51a; 0x279f94310296a13d; 0x4a4e2ed314d6c706; 0x3246059373359973; 0x36999f5a236d81a3; 0x2aed7e2ea6c62b3a; 0x665910a0a1de14ce; 0x62870f1441b75c76; 0x111a96fca419e088; 0x71891a92bf590df; 0xcd6944a26e737c7; 0x332bfef6d35f4f1c; 0x74dde9c73472cb1; 0x30a8ec02a2c4ffbb; 0x1c8f65fa82d887b4; 0x7bdaea7469fedb62; 0x1e40fb6f85df30c9; 0x1ed5b3dd8e3c40a8; 0x1603f7d1b7073da1; 0x16966fd9cf5de100; 0x1a086d7275f7aa2a; 0x61f3b35cc49cffab; 0x323b83f792c0661f; 0x5249c4754526a1b; 0x76d3164ac24c88a4; 0x477356101ec73351; 0x521c7a3f4b6f7ce1; 0x711425b088d13188; 0x652f1ef9c452258b; 0x7bf34c92b0323db2; 0x5fddce4934c4fa28; 0x19e4effac61856ed; 0x67633801f3e8d6dc; 0x5343ee41811d9fe4; 0x7541ba22b7b10fc5; 0x1726d196d8454007; 0x71d1b3e5fa4d2d85; 0x537f2783fa7ad3fd; 0x3a5eb56f1234204; 0x5abfb5367f78e333; 0x47d035c3fbb43890; 0x27027045139b8a78; 0x5f8914cb00743192; 0x5aaaabd10e762e0a; 0x4cfc36e9e4728ea1; 0x4ade75f830d9a3ba; 0x42f359480688a4a1; 0xc2a4344416713db; 0x65c500b13f1a173b; 0x200e4def4e3cd444; 0x5907083c118bf81b; 0x52e567333b36d9fd; 0x5c5e20a023e73728; 0xf9003c568af8620; 0x4602a7f0b9c252fc; 0x397b61ba4935c069; 0x3532d2];
   [0x28957ab5baa1dc06; 0x3f53645a96e2fd47; 0xdbd5b0162a77025; 0x153129ad0e1607a4; 0x79b7bb359a91fd85; 0x6ffc6b64b701ee7a; 0x5a8737324188a27e; 0x48bd89902fb162c6; 0x7c0d7e9eed28e5ac; 0x329717feb73819d3; 0xc22e0431c8dbe15; 0x69d0eebbdeed167e; 0x19b83870ea8d1e52; 0x320363a41269e344; 0x38867fe4c014ab85; 0x671febc5adef5e65; 0x7f31244536a0cb66; 0x30091c660c3f0f98; 0xbd92dc4bf3b1ead; 0x248ebfce40c76b6e; 0x2a181f0550a26fd2; 0x8c6fd428537efbb; 0x5c5181bdeacfdb7a; 0x15eac559e3eb38b2; 0x23b932e186a5f31b; 0x6858381de2edb943; 0x7478710d1d2a5da1; 0x29021be318019578; 0x6ed956373625da43; 0x790cb4ceae7b9ff1; 0x49579279260f5374; 0x5152fdecc51cbca6; 0x30f66ec1c0a00e2c; 0x5687cf4531bb23a8; 0x20ffefc77614d5d3; 0x7204a5ea5f3c6a4d; 0x6c654ee151883392; 0x664ae3c6caffcecd; 0x13a24da56f978494; 0x6645871deca4914a; 0x10c40b11e7383acc; 0x132cc2edea718a0; 0x37309f85c3f3fca; 0x143f611fbcd68d53; 0x1c0b7d2d4c217f9c; 0x2ae6536c10046ed; 0x35664cfb034f586e; 0x3b5fbce5e94cfd39; 0x7b24461f0879a5d9; 0x3a17ab7e4a350de9; 0x6aaedacd93faa3c7; 0x31de20c52ac6f12b; 0xe51954a84b47fed; 0x47a9f958858ecec1; 0x4d2bb9a4132fc68c; 0x32589f6da019b112; 0x28123302d4d5a047; 0x2e9561a3b081e417; 0x7182d44bbf1d49fe; 0x5d822b5ead7e6920; 0x6ae24c820b781aa8; 0x371225e32a0dcac3; 0x4e111a4a9df8afbb; 0x63f61665a2ad4b7b; 0x371e60779f3243a0; 0x6740232e000f1a29; 0x3db6595e0aa97422; 0x650572eae5acd547; 0x341306829afc99a5; 0x760c4f216d2081bc; 0x55f60d2329c0fb6a; 0x445bb92e9cffbeee; 0x271589ec7e9f8144; 0x21e0edb87c148536; 0x71831e9b47a026b5; 0x7591a05a625e41c0; 0x1ce742c0092ba2e; 0x333662f776da901c; 0x7a311c09b08482d3; 0x13f49ba053b8e6dc; 0x39afb76475a44f49; 0x1027fb73342ca02d; 0x2b5b6e965795e47c; 0x1a35385f11bdafb6; 0x49d7cd47248aa8bd; 0x1bac52b27e37e1ff; 0x69c79d6a47cbd9e1; 0x35b09be03621ac6f; 0x5d8e3ff3c8076383; 0x5a361fc61a42e808; 0x51a573b4b454864a; 0x25965b0cd9894c0f; 0x28f4a32cbc3eb8da; 0x75c7412611d4b9b9; 0xdaf8cb034b247a6; 0x2d8911cfbde730f3; 0x69ceac6dd6556645; 0x19e00eaea28207c2; 0x5dfbd3b85892a20; 0x3340c226f0f7c69f; 0xfe3416f78c6cf28; 0x138a7d4c8177bb90; 0x4bd15b880d6c03f5; 0xd3caa503536791d; 0x5744634591f94f5b; 0x48eae23c0f71f6d5; 0x6cc76396cf463b8e; 0x1bf1cd2af64a134; 0x4035ac5f98cef5c2; 0x2c63b597cadb1556; 0x4732af93ca7612fd; 0xa134cd1169ab100; 0x450471d0d47b06e6; 0x5d1eb9082322f556; 0x4eec51353c2598fc; 0x3e628e76ba2de079; 0x34ddc9b11cc50bf1; 0x1af99860249343ca; 0x78b5ecf1334ff69d; 0x490550f164e5eff1; 0x3461c3b635decd57; 0x6b03c23ffb23d04; 0x38b8db9e794d9dab; 0x7ca6dae793cd0608; 0x75b097dcc4725931; 0x7abdd3e0eee19e8b; 0x595f8b80080d4305; 0x46391b01511d34b7; 0x1b4ed85f7dcf2e8a; 0xf06f433b1d46393; 0x39d95328f9b8b3d3; 0x20b5bae76835669b; 0x1bf3adbd7b0505d9; 0x38dba1f69549e836; 0xc4a53b09927a5f4; 0x60eb676ec9266558; 0x19a597da08a1ab9e; 0x46ad4fb5b28f6a6; 0x317a0661fb5206fe; 0x214f1a5f9c2c9181; 0x73a6612a15a299a8; 0x289b714ef5905c9f; 0x26b570578935d02; 0x2bbb8db38122157a; 0x8c11fcbdac3ea81; 0x10eec44aeba348a9; 0x6fb79fe8c3686c4a; 0x1f9a84c897cc414b; 0x2c8e0565543f08b9; 0x487a4423b21c87c9; 0x36a332126d2abc00; 0x18dc6def4b530af3; 0xf981a0e04759911; 0x54e05c6c10ee423a; 0x26c051465fd4e351; 0x3d357aef8c15876a; 0x4d27928816d637cf; 0x4757d0ef25680413; 0x2917e4c52e907fe4; 0x1cd396013c52d528; 0x27d3b5301a4105e2; 0x46c32a0bbec8b9f3; 0x6d7069aad63fa1eb; 0x64c90a64a32f3121; 0x18649f958c1f3add; 0x1db30ad2a0bff4c9; 0x23113beda53f641d; 0x4684904487ab935f; 0x3c4922e0e39a40fe; 0x430c0f26bd6fc7e9; 0x2163b0a018cd643e; 0x15f4199726ea7af; 0x4948e9301ad1dcd4; 0x62e118e58cd1d7f9; 0x2a86dbbab26cf8b6; 0x7b28d82be6c6c918; 0x562a92ba31563d96; 0x8925f8cd54863c; 0x773fc44e10b2b322; 0x4f43d3e46432b679; 0x45bec1851ae913db; 0x2506a340f99f3f96; 0x483a0c34dc83b7ad; 0x36e0b0e1fcac424c; 0x3140ec5503ce8754; 0x577c4a009e693662; 0x21596189f62b65e; 0x61ba4c3260ee4bdc; 0x2843f7e71a737788; 0x2431441a28d5af8d; 0x713df19636849a4c; 0x1ca047bb95039e2a; 0x4ee4390cae20dc04; 0xf3e81e265ec92e2; 0x1ff9fa7b94e080e8; 0x5071da53155f267f; 0x4a73c4628aff0471; 0x6a655cbf87358e5a; 0x57137cc385dc9717; 0x50035864278581c0; 0x2e615c3a5dcfd7f0; 0x3bbf92d7b6315bc3; 0x217fd1ec32e23f7c; 0x1795910458744530; 0x7726c72a28bf1bf4; 0x35c25203bc48d64d; 0x3d2bd16abe1fc471; 0x58bdda77874d392f; 0x4b82d8f908d40dd8; 0x47302955a51f8ec; 0x3b6a528ddf3d7fbb; 0xb185947d829da75; 0x2bb2ddd87661ec30; 0x9f4a672a91ba826; 0x4989f7c7883b9217; 0x3818fa7173cfaf18; 0x43ef42f2c4d57ab3; 0x4fe6086366d872ae; 0x344cafef7086e21c; 0x47118bd4b099daca; 0xf03b615c9749c53; 0x7279438683280554; 0xad12801793aa26d; 0x6eb5be2402fde85c; 0x6b20eeed0ddb4575; 0x62cdd33a97ca43d4; 0x18ea89aefaf0ac35; 0x51a83b2ec265befa; 0x55aa22fa86e2bad2; 0x343d9ccacdef12d6; 0x38e9ffa72efacdbe; 0x256a816d55c21c3; 0x7efabc03e44a68ec; 0x219b4d831507a26e; 0x1557bb025bf33cc; 0x351ab6055933ccb5; 0x50964079fd316b05; 0x25dce9ecc03917dc; 0x5ff02357aacd339a; 0x7bf09aae9fa940bd; 0x4efcf47ed792147a; 0x34b231abe3403560; 0x4e923ada5524bf56; 0x64f03bd82edcd860; 0x78bc6c5d0ae93cf; 0x62f593a8966a93cb; 0x7440a28dadf83b8c; 0x4e005b26d0f173a6; 0x3b547ca91e9408c2; 0x30333adde7f4abcf; 0x1ca507af548608b3; 0x54196698af0a9d7a; 0x404cd5a1033f4fb8; 0x95b5a6ecafc66c3; 0x43853dd39b56c722; 0x1551789ca95527bf; 0x3944ef216894a0f9; 0x30c4485b39b789ad; 0xafb5b3e422480a7; 0x510cfb6292a6fcdb; 0x6f9b65af4cf20805; 0x11b2d79e3cb84816; 0x3e7139758b44c01d; 0xf7c41ff2d65a695; 0x506553aba71ee4ba; 0x7e98f93032c01a7c; 0x275041e5a709b08d; 0x6982d74a79722a74; 0x122bd7bbf242ff3b; 0x8a3e55bf53f802a; 0x5d5a5d00b49a0a8d; 0x7a86eb7d2abd618d; 0x55c3ae7bc088ec53; 0x376b5989c4c28548; 0x2e3436a0e5508bc9; 0x65bda4b31b19b1af; 0xe380cc5e24f6edc; 0x1b30a9092d35e64a; 0x6e8b79a5dd390374; 0x679ba1be3c7ff5db; 0x6801821274a76435; 0x4bb69f4c97f14963; 0x7bf5be184d508070; 0x737c034ed6336a9f; 0x5cc3a0bee99d4271; 0x45bde5217cc878c; 0x3a6737e07e956bba; 0x6560a49a903cc28f; 0x2d9d93775f071b3e; 0x19f5bee3c292222; 0x318d066fa0f940e; 0x40b4ee67bac39cea; 0x2895692f0624b300; 0x176f35ab6bd79aa2; 0x53b92b618ea7ba95; 0x2b2725041393de8a; 0x3daef224d42ae1bc; 0x35dc911f9e195e1c; 0x7d157f6f8686bffa; 0x75712342c9875cda; 0x2b7d592e3fe06252; 0xaad609155e317de; 0x1e3e066f31ec81df; 0x370f3894a19e44bb; 0x19950e33b6b559ff; 0x65371fe60745e9b5; 0x67a04a4ad0eb6479; 0x5468b6ade91d38e6; 0x5d401dea799193e7; 0x1d7796db1e89096b; 0x381423accf0ccf46; 0x31138aa942172a0e; 0x8c53f2ad756f0b5; 0x1613256e8459172c; 0x6eace6ef027b8036; 0x56e55f1d415ffbc; 0x4c97bc12898ee56c; 0x3b1fea];
   [0x36cb3cc7957f170c; 0x1040fd579ad84dd7; 0x480f144d5bbae330; 0x2b8c3459396e2906; 0x754b795a3a591b7f; 0x1a3d3f4cb8e7969d; 0x256b6f548db9cb9f; 0xca477adf1dee32b; 0x21475cdbe5a9c3dd; 0x7bbf1467dedc6ab4; 0x59a26b53f8372130; 0xb4ac14f77f09363; 0x78cf0abb7518a8b3; 0x3de27fb758ed45eb; 0x18002467a8c4021f; 0x29a12f733081ee12; 0x14b107052a1d8bc; 0x6c74f2b271b686d6; 0x38151f6e4a9326fa; 0x6b2a966fed4bd0da; 0x3ad1bcd769145f56; 0x42f0bbc83e654c2a; 0x3d0f757c492f065e; 0x27164f41392d8f46; 0x2ddb5d37bd1591b3; 0x2ee39b091d21af30; 0x614cd6c588e68b80; 0x4bb0835411c54c46; 0x5612a704d29e27e7; 0x72fe745f9eefc501; 0x32f5225dcaa0590a; 0x1622760d5d8a9aa1; 0x425d66870ea0d126; 0x35c2e7152587e164; 0x5692fb576182d3d1; 0x251f79f2038dbae9; 0x7f95e186232aad23; 0x103fd0ab6380bfb5; 0x2bfc719c0e152b0f; 0x21f3fbd5842bd614; 0x131e364aedeb09f4; 0x2c535d197ce239e4; 0x70c644d87935cbe8; 0x26bdcfd4c5f5ea66; 0x4e13287b90eb38d8; 0x5ececcbe29f5535d; 0x1c53d932ce06e81a; 0x4bbf7a2082fec320; 0x47713de0b6d5ef06; 0x3748f07700bd4c4b; 0x884d96024844c67; 0x32fe84ff9a8ff536; 0x5530b4a64a729f11; 0x54a8562f7e4af4c2; 0x14c7983a8c7b0209; 0x62456dc2fd33a88b; 0x3dc97d29e6c0c348; 0x6371d84834e59f57; 0x571f5180d07d9a23; 0x1782b754a38546e5; 0xf2cf55225820bbf; 0x23645289f0206411; 0x59382c19f118c838; 0x19364f6c4ca56b04; 0x2eb7a68a69e612fa; 0x18d7412fdaaff91f; 0x4cfcc66ff000d970; 0x4335a313fd2ce03; 0x27c14686a5f125b6; 0x5f80c891a84da351; 0x764251fadac08c3f; 0x61ce0e42adc98bba; 0x3bc5abf4fcdbee38; 0x20706017ebdea010; 0x4f5ac0aa77f10c85; 0x30cf2c38386dae77; 0x49899fd3d08c6191; 0x6597bb31bd4d7d12; 0x48647b56b183cbf2; 0x2a8b07443c91458c; 0x3e42a3c959526efd; 0x6026867e4dff6d6b; 0x666d65bf37a32f55; 0x6be2c4c24d4355e4; 0x39c176051d1acbb9; 0x2a02f4efa891c2fa; 0x74afd84ac7139145; 0x1afc41214759a5ff; 0x34f04f8df7046525; 0x640421b0afaeb2b3; 0x733f4bd9a6b47d3d; 0x6f5e83aabc8c53a4; 0x4b5dcc959c873910; 0x13299184fcd122a0; 0x42fd6f1990216e50; 0x478a2b236e666a1b; 0x1350403283bfa552; 0x21aed23056d37dfe; 0x49c14509bd6e77ce; 0x5a75b89671d92d9f; 0x46f6b2019fd0d9ef; 0x1caf16e1886c3128; 0x69ad4fc99bf99ce1; 0x5a0200f8ac82bb5f; 0x7c8b63c66f2a9157; 0x6ea96ccecb1360; 0x3aef75cf2bbea5e6; 0x38b71cc83dcaa716; 0x3c41ff9562f5af45; 0x7b2fcf6edf7a7124; 0x6147a4ab391c669b; 0x7ea93ded4861417; 0x4bd1fd70fbdeda4a; 0x2861a952337c5faa; 0x4a143bca33a80272; 0x16d7c059f0bc3c43; 0x5f6e0c0dda3cd0ce; 0x4811105c5c903400; 0x14e3ae0414e3c9ca; 0x591f86cfd1c1bc4e; 0x279e8dbdb8cb861e; 0x61a74bfca9016f2e; 0x77f916f64b7735ec; 0x4fe1a1c347751635; 0x6dccf9f177439dfd; 0x3995b539d58469bc; 0x55308e9f84bd3756; 0x6a877875b1a732fb; 0x6fde6dd96067081e; 0x20d944ec54c41237; 0x549a8040e9e2b646; 0x72010f9b45e37f1e; 0x75dd91ec98446aa6; 0x1ae7bcc7cb4c2df5; 0x6ae95e2a7c8d720a; 0xb7f8a1c15a56e3c; 0x2699f1a07f503a0a; 0x387a1a7c2a607272; 0x158d19323a58555b; 0x4dacba1b02ba1791; 0x5a14d95deef156e8; 0x45e976bd3b2cb94d; 0x2b5009bf4eb53125; 0x47aea66011f5fc9a; 0x3bad3ec8f27746fc; 0x5961974c892b435d; 0x1170e643a16c54fd; 0x1bf6095349e897d9; 0x54b2971803d917e2; 0x1133ac0647f00a0f; 0x20c92f46987ffae7; 0x6aafad4f0e60041d; 0x30fb3ae3d428b150; 0x9c184185f5b095; 0x52999df8003ccb7f; 0x297ff3597ac17f87; 0x1eb935f8f74d8dee; 0x5b9a827f80ecbfc7; 0x73ed26f980b89db9; 0x2abacb425089a9f7; 0x7f0bbf99c2928126; 0x54836f35ba93e22b; 0x6340f74d8e9eb108; 0x44df54b89bc39361; 0x14c119b4b8cf303a; 0x7045d3d69701de42; 0x574306562719d2f9; 0x1cdde8937a65a6e4; 0x149d0730235b6b40; 0x1a7d777ade332648; 0x4189849c47c1ebd; 0x61e817fda19264e7; 0x18a91aba8b159633; 0x2a2d77c5a1d38ba7; 0x3446225c7c060184; 0x637e8085265390a6; 0x7a4edd2139b3893; 0x7557664f128474c1; 0x70f870f3fa85760; 0x5be76e24bf88f85d; 0x235b9a279dce0179; 0x7dad1b45561ff700; 0x7956538393ab96c4; 0x7989a251c0ef30d6; 0x28913db49c3c2f1c; 0x19a3b3a61cff3aec; 0x3bcbc37f629a8025; 0x2560d0f23c9d9461; 0x54bb54fb6b354a81; 0x2346341687caa28e; 0x1ef7a86a871c9891; 0x36de84f881f0cb07; 0x1c748f07c55c7d62; 0x604252e57cd6b8ba; 0x2092c16c97812501; 0x5a1c64e2a4efeb61; 0x58c176cc24170ad8; 0x2fb294dd1eed66f8; 0xeac0f6651c408b7; 0xa1c1c3686652c79; 0xde909f75fb55182; 0x16ebaad0d04cb117; 0x1b92eba5d8f1db70; 0xfdf549ea37a1012; 0x32f8a75e36831bee; 0x782425365b8e3424; 0x497f263ce92c52c9; 0x5896e3b3f0ab7152; 0x6c133cdf6c5424f9; 0x356ec08f4251b9b2; 0x206aa9e708faa4a9; 0x10f172792cd2602a; 0x26c47e5071b07b1f; 0x761abd33288a6e34; 0x298eea60f67d7bc6; 0x659998a09bade8c1; 0x16bbef4303fd9c47; 0x7065edd5bce0efee; 0x750ed9c2491b26cb; 0x3c446d63dd242a0; 0x5cbd7662cc8fe9d4; 0x49ca1a7633d67e73; 0x63e58eaf7517e66a; 0x47ba2c5846ef6eff; 0x1933628a139e4eaa; 0x774643142deaba3c; 0x7a9bab034e0a642; 0x45e2289f8de2cc47; 0x238640bb9dd208a9; 0x19434bcefc5f4fab; 0x31e320d2a216080b; 0x412dfdecb4e2c447; 0x580d5f5b322d17db; 0x66245f5b7202ff1f; 0xb8dac6d0db1d55c; 0x5c51f855def34d85; 0xda23b99fb586126; 0xf543786371a4ac2; 0x24887d4b4c03e227; 0xea2f2e685521f; 0xf68c4536df66d60; 0x7f320a27333883b; 0x4c991b372ced813d; 0x6305300fb42d449f; 0x11043da14d1933ee; 0x2923c5ad0bac4c99; 0x512d73cafcc6583; 0x14a68b9357fcbd0; 0x35460b01ea2bde7; 0x43a36be999257590; 0x1d3c1da292584f52; 0x15cedc0e19685c6f; 0x227b69d5f5cad229; 0x12c2db2f33af6dad; 0x2a1d249c4bd333c2; 0x69c8b29d07242b8f; 0x39dacc787f759a34; 0x7f8b1fbcf8d5b8ae; 0x1e12a2ec0383d415; 0x3efea099a305523b; 0x3b65d6eb1475bb31; 0x4f91215aa3ae234f; 0x623cb58d0eac375d; 0x102316c6d3fef6b5; 0x5603081ae41d63ee; 0x30bb6725ea29c4b6; 0xf5dbb0c2a59764f; 0x4faf82c573cef458; 0x45ee4146ed06be5a; 0x7e90f14ccb081634; 0x57cee25ba70b8c09; 0x1afc1606c4868585; 0x2ab1efd84613c5aa; 0x6a450ba7ceea1748; 0x3c63419bd443f6e4; 0x265991ec9eb5e8dc; 0x6975f1965e4df296; 0x7f723cd7d9f0f8e1; 0x5218cd92bd2d427f; 0x5a41ae9829d3dcb6; 0x7fc447146c9e9833; 0x3d1f62db94e0d980; 0x19e57bf5f171656a; 0x3c77300d91119414; 0x3afac44df6ffb4f0; 0x447957043671f61c; 0x49bf25b0836eef17; 0x3dfa9362a76a772b; 0x5345c8455a42aa00; 0x4d6369150f5e3f44; 0x6c32f0e0b31540f6; 0x694e442a52347b19; 0x646ada2a7a4627b1; 0xbb0d72cf25bf3dd; 0x1c0a241d2741fa95; 0x4ae7bbbb85ffaf9; 0x75bf11852efa5f1a; 0x721f709e11661ef3; 0x4bdab2ec22c89d2b; 0x6cf54e213e147c86; 0x265e02f8d929b1e8; 0x5586508f8d1aff9c; 0x4cd4035cd5fab11; 0x58c6d30d30ef1299; 0x5a8b6d536c089a8f; 0x48c08996a7ee0dfd; 0x3c46dae9fa3dd131; 0x40aece23f15085fc; 0x904fe2b7ce95c90; 0x21d5e19f76b4cca3; 0x393141eaa1e5de1a; 0x385f4266e2c7610d; 0x54c25ceae7382ca4; 0x6d1d6f157562098c; 0x5f7598279a84bffc; 0x17bf8309b17406fa; 0x64ef54dd4a8374d4; 0x2e3232];
   [0x5091b4e94b3ec2d3; 0x468b3c3d8e8f2de; 0x74908f58281f76d; 0x603cdd4667fae875; 0x37cea003cf7057dc; 0x1f2281d232893fb; 0x98095086af54f; 0xbf778ac99c8cdba; 0x7b9de5635083399a; 0x24c3e62f930c1e15; 0x11bafeff51656d7; 0x5c66308d9c1118bb; 0x6ee7fa6caf32faf8; 0x3de9962b3d005b27; 0x28032c09adbf8138; 0x18f9ce6f8efb2c28; 0x3897515dca97de4e; 0x6345a7b070cb9a21; 0x1563e9e04d370bf6; 0x3f4ab71def67c5f5; 0xf878aa97d6c96a; 0x693d2c9c6c99e534; 0x2f5d58655cbb7250; 0x7f11a1d4cc7bcb21; 0x68cfc404cff75640; 0x50008223ac2bca7f; 0x774b4590d53b6913; 0xc55c7941979df8c; 0x3ed31d8e189b5c8c; 0x4a0481ee402b9fc8; 0x7856ecd4c0dfcf6a; 0x338e076df2257290; 0x1901c081741c2db2; 0x2799322eabf07b44; 0x524bf48031ed801b; 0x1b33c9f63d5c77f5; 0x7f2db83fb3953ba6; 0x1e7093dd0dfd4b33; 0x3b4551d04ed08a09; 0x4251cd9551142b4d; 0x5e12fbb617c8cd4; 0x3a2353becff6935b; 0x60e986441294cfec; 0x2a9b5bcd8634772d; 0x63fbc70081cafab0; 0x30c2d26268e70686; 0x643ab9dc79911d81; 0x4dddfc8b6c15d3e8; 0xa90c6b4a56ee330; 0x64d7eb1f03587076; 0x4986c7b0f7aad63b; 0x34a23ccbef06e6a8; 0x4a355c5d668f47fc; 0x3e163149aba8a1ff; 0x1bdd0f7344022458; 0x6a9b43c2705e02ad; 0x22bfac3ae82246a; 0x6a2819405d273bfd; 0x4d81177db1b43e92; 0x6fcc4e319143928e; 0x6ba7ebaf435b1809; 0x75bebefe1487edab; 0xb0532586ba2fbd7; 0x75ef8232f6d61c46; 0x1b313ccaac19d85f; 0x301cb70b9e0083ef; 0x1e5b804df42fb5d7; 0x405593f2c0405328; 0x25a0cac713d7ca98; 0x58e2400362b6286; 0x24b60258c6994a43; 0x5015955c8ce9c057; 0x5bb96df083b97a76; 0x74a18fe16bddd1d6; 0x650b194ae2db1034; 0x37eb965aadea0e46; 0x1d54d97ca602d8e; 0x24ef447862ce31b4; 0x2947e833bcb8873e; 0x3adb1c91c4d0814d; 0x269ee1ecfa2f178d; 0x60041b6f84cc0d02; 0x363898140745e3d4; 0x5e6ea0cd28181d85; 0x448260935a66ebee; 0x43e5243091e5aca0; 0x31d1cd4b6aff0a15; 0x2bc5eacc74bf9cb6; 0x39def603082078a0; 0x3dd5bf79058d2ce9; 0x6418c0b191637991; 0x83ffe1162f2b86b; 0x3a9b8b1485d5852f; 0x760d507a3f3c883e; 0x6c34087fa803d92a; 0x3607574faed092ca; 0x6d67dc92e7f6dc2d; 0x25bb0314b9c3e98b; 0xdeed2bf4e1991d6; 0x4fe507b69b5cab31; 0x527e52dc47b7c445; 0x730a29d420998cc; 0x78eb2b3aa2f48fb4; 0x619d64abdc9e7950; 0x7ff68ad64db3d9ae; 0x5bba7c8fe62b8a9b; 0x7db2b4072775073d; 0x529e6584f402c02e; 0x50961575bcac9038; 0x99ac3281459330a; 0x2cf24f82ec3f5699; 0x725aeeaf718528cb; 0xa7920b011907a84; 0x381d0c5a91c780cc; 0x2be1586e05d303a0; 0x32d672e37b2b55d9; 0x38b704ab11303aac; 0x8399b778291e28d; 0x1023a048332f59aa; 0x513c439b96e26991; 0x1e895b4f475b8e3e; 0x727cc2d6bd0d349c; 0x298a70619798555b; 0x523be1ad3d120f43; 0x7ec6572b2e7a93fe; 0x5017280edea2d88; 0x74f944572d46fc86; 0x4c52d26b061040b2; 0x5137f878e6ff25a5; 0x7ac2bc8a257b1693; 0x657edb1ab158ace; 0x4b89c5846a443b7b; 0x27e84c6ab8d5b3c; 0x7381438b6f104c7e; 0x610238777e43e8c4; 0x7371ffcbe82a899b; 0x220e59ada3906793; 0x78f63a3c46f6c5ec; 0x17b74a73cd66318a; 0x10b72fc5115d2a5e; 0x7b34bee48058ccb6; 0x71ebd592d7b73ce4; 0x4a27d4e34199d121; 0x732d8193a9770ec7; 0x6bfc3507ff63dc01; 0x3de46672c6ebcda2; 0xa83d368baaa404a; 0x43e4b4b2c53f765c; 0x200a0cc57c2d43aa; 0x206a82847ddbf4d3; 0x53d2bd7428dc6ba7; 0x45c1e99cc5e44e09; 0x2e069c17f9621b0f; 0x694178e289ebcc9c; 0x1aac40ad723c02e4; 0x7050c0f8a3f54254; 0x745ab1d6be0a6776; 0x16040cb98e63884c; 0x692a88132b5095ef; 0x6daafcdbfe8d9ded; 0x4ac10000bdad435d; 0x44119d4243f9b7be; 0x1a55dd1aa0090dcb; 0x125f3fc92aedd923; 0x229c43432bf699d0; 0x229db40e53896703; 0x4a994912264ee7af; 0x31fdcd1825f870d8; 0x3d258224183126df; 0x522ce95fe191d879; 0x2ba76094362ddf23; 0x5ea4583c182c6ece; 0x6e0515f895477061; 0x5a290e9a83cb5438; 0xeaaf5bcf546cac6; 0x190586813657f92a; 0x481c9a8d5c67ce4d; 0x3266ce4df9587ba3; 0x3a4b189b0fe87396; 0x641835b990f6eb14; 0x77dd4800535416cf; 0x7fbd3c86d7a6c563; 0x4c9ebc4a5df51ce1; 0x72b52ca3f5b71b12; 0x3902a1cb1d54352a; 0x41ccb9b77673c05b; 0x4ed51526ae74a5a8; 0x2fb894c032630fce; 0x434b600ac5db1d81; 0x7594ef66693c8f1a; 0x2dfea9bac7be559f; 0x53530318fe858a76; 0x74a9f40ae03edf05; 0x37f7b339fdb52530; 0x75779f0f2e9586f2; 0x59260964c7c46a9a; 0x755e22d68e95d09a; 0x3c6ef3a7884613a6; 0x7338acaddf10611c; 0x26ad363cb9d1153b; 0x59a274580f628f41; 0x1431d8a0c27c8644; 0x2b18e608d5ba886a; 0x411897ba2cd26ab7; 0x4a5b04a2ebf2e017; 0x54b894a56767235e; 0x2d3d579b027bd028; 0xab7f2f60bdade40; 0x3eefd4157bd20f9d; 0x7aa4fc3e52f21fc9; 0x59133e7db0709a9; 0x450b6293f0118189; 0x5d377e41324eb134; 0x4968c59ff01adcdb; 0x4094f902c61be1a1; 0x2f003ba85ece7324; 0x4a61a619ecc35959; 0xde783bc8f92f275; 0x46c9dd775552acca; 0x60e99156c6347946; 0x4b340c26840195a; 0x5e7957d368d9244d; 0x70f3a4ed7558e1e8; 0x5b135f59d4ff4c2; 0x4c3279eb2fa9ea4a; 0x242681a2d1d49a84; 0x37037b0a0c52ab26; 0x3028c823ee3cf072; 0x577aba36819ff607; 0x7892986c369c0704; 0x4fc88aefc24f6e02; 0x342c259eba1fd230; 0x376602d246715829; 0x5512591d4314d600; 0x60d42932730013f9; 0x8a2afd5b969bbff; 0x2d22f80401dffcb1; 0x3b1fd7be54505746; 0x56ecd09790a9954c; 0x6158474630b351d4; 0x401ad44005ce5ba2; 0x3c5e37ef515097ac; 0x46442cbedc4948e2; 0x4167fbdaf922eb99; 0x146e75f9669522b6; 0x12adb02a47c8d4b5; 0x717c9bce05e7f703; 0x670409105388d05a; 0x1ff5c30a5d00f8a7; 0x533e6a757f89c3d8; 0x1abd65c2ce96031c; 0x6fbfd8ced4b9ea64; 0x5aebd7f411d9586; 0x7e66aadac5bb34bd; 0x51e35d07835f9cdb; 0x42604df5f4047c0b; 0x1bc93a075ab9ff30; 0x1d44aeb9e7713464; 0x29187e721e5a5e51; 0x4319820d9c049f0f; 0x224d4d280b893da6; 0x459d134e23a11fc6; 0x5c8086d0675d61f1; 0x1c9f9386932bdd6d; 0x62939a99dc056d40; 0x46711cfd3945e5b3; 0x4e974fd8eb4f0bf4; 0x131c4ba70a45d10d; 0xe86fabfe521f553; 0x347ff8646858b208; 0x4d073aeee2ec6dda; 0x63bb76c14a2038e3; 0x34dad27729957318; 0x25ff2a3633c02679; 0x7304f73b1b49425f; 0x4bf14972600ce2c5; 0x4a68e6b8cd3abf21; 0x446444b0837249e4; 0x7d3adf1b4c0dfc3; 0x6ee995c4ae1d3871; 0x35111619354c4422; 0x426ee2401e811250; 0x5597147d1b25faa9; 0x479dfc7e1825238a; 0xa4fa0fa601698b7; 0x4163fb69343aad3e; 0x4d4c5f214c69cf6d; 0x2dd38b76b47e131d; 0x4c9c1f5d703d851e; 0x1fef06552a46ae32; 0x59c74fe6d9f1a8c; 0x5b8cecd6568ffcca; 0x8e62b706f7da7ea; 0x515f3ff929aa08d5; 0x2615bfe3da555727; 0x45cf58d411748663; 0x4055f684dff22a0; 0x116e5ed561c0be85; 0x65953d9b36265ecb; 0x64d4ebbee13f383a; 0xa1d2f48a426ba8b; 0x45943bfb18870fee; 0xf2e461d8a353bf6; 0x634164e0bb7b4dae; 0x5043ccc7cf0eb578; 0x1be88e464b135bc; 0x4d726bf0bbb854dd; 0x4cbcddb8e36380fd; 0x4be4dccbfd879b7c; 0x1eeeea8d625e0991; 0x4f5023c296f25956; 0x61cf69e8770afde; 0x1feff8ca8a1379e5; 0x57666bb1b2399241; 0x3c68bd825b4ad360; 0x54eae68a10fdd50f; 0x44ec7cc94d6f2962; 0x17efb0];
   [0x40c10cd9ace47ca5; 0x39e0d56c09eab4e8; 0x703f08ef737060f5; 0x57a1c2222b50e0b3; 0x6d4b048f0d7f2be1; 0x8fe51a3c703e722; 0x2075dfd92b97b99c; 0x7ad68bd1a83a0925; 0x5aeeb9e909034569; 0x8a8fc163803108b; 0x2750a5296859bddd; 0x2f4ee530a1d911a5; 0x49d3b129d31ceddf; 0x2c01ac2d386e3a64; 0x7a0b5021e6007fb1; 0x74a5f6e9d597d932; 0x63491ffc86dddb1b; 0x6d3182aa67bf36c8; 0x771d8fe3a8e325af; 0x17e8a84a4a8598cf; 0x24feeae2519de0dd; 0x7d7d628485732195; 0xcef82cedea2a9dc; 0x1a1737fb56cbebc3; 0x57136a6111a60370; 0x22ab9f87d278d116; 0x55ce15ff0089876e; 0x29d53c940bc16699; 0x4462563fc7a340ce; 0x4f7aea360b036a0b; 0x6eb36e1c6a91e8cb; 0x359d6e355eb8e13c; 0x14b144944c30d694; 0x51920af1f256ca98; 0x308bfe4224b238bf; 0x6ecb321ecb207f81; 0x5685687b296fe316; 0x2414f6061ba6376b; 0x7963a6d61d0d4cc7; 0x660a677e9b9e7799; 0x554bd43fb203ac32; 0x2a0691f570849a8b; 0x3c8509f1417123e4; 0x585cffa7f4bdb00f; 0x3426be7e42c6ab35; 0x2882e397011bea75; 0x3f33b303495dd29c; 0x451ce9aabc4c3509; 0x5921d5389cef5cfe; 0x559a15b416e08335; 0x14d2733d753566dc; 0x46ac002161f1f1f3; 0x2cd7cd4705b766e2; 0x3efcb7ad73184b33; 0x740ea3be0ff5c48f; 0x4ad399a75c6e7b2c; 0x4aaba37ee63a7b6; 0x35711928e3b8bd2b; 0x2b5368075e97097b; 0x55af1bc0b20ab036; 0x6facba125072a032; 0x7ca5d39a0e10950c; 0x44f3435e25d5a741; 0x4c3e34ab23274d5b; 0x2133664b90860f67; 0x1169d0ebc8559c3c; 0x159cddac3a39de8; 0x150c63913b9c7cb7; 0x33da39e6e9974fd2; 0x5f31bc92ff6cdfa; 0x34cb8a53a552f9fa; 0x463b74dd91622403; 0x5b5a3ad0774ccd4; 0x15c7d08339fb649e; 0x29defae8c7684207; 0x6834de82d4d2efb0; 0x4d8d8abd4d023581; 0x1b64e139340e6cc4; 0x5c364dc0f18872b2; 0x4f29bdb92d55df56; 0x460787e8c59d52d7; 0x40b35617366e7f59; 0x763c1fba42e3cff4; 0x709f499689d91fa; 0x19466a564125ef8d; 0xb70a4792ecfcc6e; 0x6606320ff70d1888; 0x77506259a848b513; 0x680cf1a13c1db72f; 0xf3f9cd3f7ff84c3; 0x54f0e24a671f4307; 0x6bfeab848e5c52b3; 0x774ee6be167a5a7b; 0x4a88954f11f71d26; 0x14758267388dc010; 0xfea62f53f3a069a; 0xfba7ee914875625; 0x5ec2632d6a0ac748; 0x67f17bcfe7c7debd; 0x3462b57923098bf; 0x316a0e8657bf80ec; 0x46ef3a43e088d85b; 0x3e65b42415589f7c; 0x1446ed3b7d5341ea; 0x3d9b710b19dd9219; 0xcb33bd3cf16112a; 0x6e630fac77e93774; 0x6a77482282ba4a46; 0x6e14f6ea8ad6a608; 0x55952bb5cc01d3aa; 0x1b9025a76e43f472; 0x7d12db792801e9fb; 0x4f4cb352f8a05998; 0x4860bc40acd7b0e5; 0x64c8cbdfe5cee9a7; 0x2ae4493fc5d08953; 0x3a0fe24c3dd8839c; 0x60801ba2a2a9dcd5; 0x7a5ea5971803f651; 0x3541e479bb282eda; 0x236974f836d14e8e; 0x69a52c1cbae89356; 0x28965171cb88da0e; 0x7757d9d02a4ed2c1; 0x1b236f6ca00a539f; 0x3ef2b1d4b5480394; 0x7b7d736857dc7a81; 0x364cf51c79238632; 0xfac1ba3aa965dcd; 0x2726cc2bf093f0d7; 0x1ecb604aeef9a1f4; 0x59e380b5ba6bafd9; 0x26aa7790beca86c3; 0x535a938184a142fc; 0x472951f0e4f2db88; 0x2a8ab83bd1e5f864; 0xf57b1025f831b8d; 0x32519dee5b49ce8b; 0xf2c9b5abaa961af; 0x7282821bf2e738ba; 0x1a2188325d3c859d; 0x24dcf4f65f405126; 0x7e5ffeab2a1a828c; 0x56308dc5a8d56eb3; 0x6c7244bbbca82575; 0x5038da831a77662; 0x2f1259230f9787b2; 0x3478138b8d742252; 0x2af2c86cc3ed99a2; 0x7cc9b7d2270cc828; 0x18282865d41884c5; 0x5985178eb2fabb9a; 0x67cf4fcb08c20630; 0x6d2bd20dded2ae5f; 0x2db7bdbea120d700; 0x5548f6bdd7bee187; 0x1e2e00484b2f3c02; 0x40691f2cc259e318; 0x78c8df2f5b90d4df; 0x323d166bb0340793; 0x51a3620532c442; 0x3b1d0933733140be; 0x6befee00d252c725; 0xa65b214a00ee39; 0x427a958768082de2; 0x682f6b2153239128; 0x7a16a988b04bebfa; 0x1cd2f0ac980aea7f; 0x7d16a9a806ff1d7a; 0x616aa20f4394a982; 0x1163df8cecad004f; 0x2326a7520eaa5cab; 0x51436350f0912605; 0x23aff54d8526cc33; 0x19d99e6d7115481b; 0x9c3f9a1e307b4; 0x6ce9aaca117e29db; 0x5e0338f7c78ea02e; 0x18f4c8b403e27f96; 0x26c63bba87bcc17; 0x77df5bf3393b1c93; 0x38e5111d7f1d1916; 0x4481489fd1643663; 0x160679da6cbb1da9; 0x64da5a64722c2493; 0x2b83e548478cad3c; 0x25e4af6c48ea790e; 0xfa6f1b437ddca6; 0x66179e26abce7848; 0x6365202a7f24ae90; 0x34038417cb0a210; 0x4119dfc4d90edbd8; 0x5edeae308ba026a6; 0x5b82b8d3ee5d4e99; 0x5231b2ddc5f2c358; 0x1bb10f32d3ed1495; 0x5040d066b8a35c8; 0x315787ca1d89cdec; 0x132a7815172b56b8; 0x5e5f24b641ae0450; 0x684b0dfecff1a602; 0x4321706f627d346d; 0x460c830549b76f9c; 0x7f76fd9950b6368b; 0xcbe17274f976f3e; 0x5765f9eafbbc8d4b; 0x4ad7b9afe4686f90; 0x594ec2ebb063248b; 0x2758a6124fdfac87; 0x1e4b7117fdb438d8; 0x4646bfd4f6ea9883; 0x3b23c285092ed1cd; 0x2947ff7b460c6184; 0x3151622e74b24b38; 0x4b4a6ea7e5a2b411; 0x8d19303e9a3e8e; 0x711773a31c2565d4; 0x3e11a64ec406cbb; 0x7397bbbe2be76900; 0x46c15ba0b11adc71; 0x4ebc33c17d7b82bc; 0x7b27c25b22292e50; 0x995ed26c57ff696; 0x37454fee6590b881; 0x7023414589e2559e; 0x5b41b410c2f37bbf; 0x2e07204715afe7d3; 0x5427fe78f54bd73c; 0x5da83c0721f1b411; 0x5a3e4573d00162a7; 0x741a38da0b23ba06; 0x22d885caca219438; 0x2cf5619973b8c730; 0x7f33e17438dd673d; 0x70e6550de0e605ce; 0x30912a7a9dbca6d6; 0x554e3fc0521ce63b; 0x7462f5eca2a17983; 0x53020cd357b99577; 0x476f7cb628021cdf; 0x74ea6916c4034ded; 0x4415291665ac28ae; 0x34ade1e00e520915; 0x66b151efe80a2d83; 0x62be33261dd35b4; 0x4ce9f33db31b132e; 0x487ed71e1261a1cc; 0x7d9e7877d6f5e8bf; 0x3335c9eb004ccfd4; 0xeb19463cb5cc662; 0x7f6548d65285db2b; 0xbf14e956f7e93c8; 0x7bf604901b07bfd0; 0x4e7d63f726fed04d; 0x7653ee1280e12064; 0x6b522f142da0c6b; 0x479278158c40130e; 0x44f7bd04f3e09583; 0x7a1041fd3391880c; 0x161ee7263a5e8a2; 0x7457fc235533bb97; 0x57d7282585193cf6; 0x1eb4203182290837; 0x44a77ec2df608fa; 0x3df5f02baf74d30a; 0x778864359f2c8dff; 0xf69ebd0c0ff93d; 0x3674a73569ad2da1; 0x36c55b3502ec5313; 0x5e958afac38f023f; 0x158019c6e771a139; 0xb9130be93b0b632; 0x707f0eb52506b0c6; 0x2466d749b82b7d4f; 0x3cdd18e29c15d669; 0x879d4893419161f; 0x9d260eb22854b89; 0x422b9a255421ed1d; 0x513ee94bd59139c6; 0x2f9a6aad10e3db59; 0x228afcebaba47a41; 0x603a207e07c88113; 0x7b74fdf55429ac69; 0x32a8bfd14f0105b0; 0x533299f2edf9ce27; 0x69aba5bd287de65e; 0x5b6afb27315500b9; 0x2e104f841461cce0; 0x4c778760a3aeb522; 0x6c038c35d142f5d7; 0x51d5055e6d736592; 0x376640a0515517ab; 0x4a81443a179424c7; 0x30fc434f38e029da; 0x459745205c7248ea; 0x331119249c39f9da; 0x57c20aa9073f0812; 0x298ae45d40435f73; 0x6cc5f326527770b5; 0x18f264ca4f280cf0; 0x1ae7a6c0b1a17084; 0x49ec1b3d01cf9871; 0x6a83d4da2bff0471; 0x18eec64462880bab; 0x2300932244b417eb; 0x157ca8ede7a0b348; 0x16ff53a176e037e0; 0x383af26a73f44e8d; 0x5153d3fe9e8bf961; 0x25d4f443a3b9f52d; 0x52d98060089474af; 0x1ee8de3042ad31cd; 0x7bcf7684dc01661d; 0x4719fc4ba32fa213; 0x5cb211f76b790e37; 0x7650cb597876559e; 0x37ed9946e9f0e62e; 0x1ba1f8];
   [0x6be42dcabe9586f4; 0x7db290d199d8a3d4; 0x7cb92490377ce787; 0xaab9bdd9ac30703; 0x19625abd6b52f476; 0x53dbcd634718e099; 0x241683759f38d619; 0x5768c2f8adf04b6b; 0x3ce08f0e0ff7b952; 0x36a9d0ebb241284c; 0x1d446844a9464ef9; 0x28fe8c67d1246391; 0x56e2e667ca050633; 0x6d5b4bae03a40a42; 0x40b083d12fe49dfc; 0x67de2796a8429d83; 0xd2abcc25934d60c; 0x7d712fa761f0f5dc; 0x54f4e4588b655f89; 0x108d454357cbde4a; 0x2518c780566fee74; 0x5a1a9f560cfba0c8; 0x4b1dc37fbeacedfa; 0x52359ebf67c21bb3; 0x7ff3fe996702b9b4; 0x315830f01a83dcc8; 0x4cec59b72de11c5f; 0x4684056df02b8a90; 0x48b2f7e1ef434773; 0x251b2b10f250b473; 0x4d9d26cfb330f5e4; 0x619da73b6f3e4a1c; 0x760ebe534e9f6dc5; 0x147c969f3d79761; 0x3f43f0f0d79a3c42; 0x2cf126292381199; 0x9bf9db1c77a670e; 0xa392c11bfd6c42c; 0x7140f5d2ba6361d4; 0x611a2ca3d9631680; 0x6f2a2b609c0dee87; 0x21413242f0e3ab5a; 0x108836f2a9a061cb; 0x2a4fe5769338f99; 0x1e0ac8a387b5b740; 0x4fe644b234832407; 0x19905f6ce9524c29; 0x3bebe347fd5ae015; 0x3d629f146a86491b; 0x6da8eed9da37ad86; 0x53aaddd6a7defb63; 0x484e608811ed1b99; 0x1374396d3f876ddc; 0x300d7437dbe7f09; 0x1b95c86ed8b71bf6; 0x6e6821bff6308ecf; 0x33b7abf8a43dd6fc; 0x722ebd890a1f995c; 0x1e6b53c3a4b8ca38; 0x49f6260d1ecdbccb; 0x6896cf6b5774bb7; 0x4f3b4cb5b56e2f1b; 0x4d6568ceb773e4a; 0x48ccaed1054666f4; 0x106112382d15e0ad; 0x6fca359dd4d92aa0; 0x7d7e018a25aec51a; 0x20ee5ab2fa35a1fd; 0x72b0f0878614c08b; 0x770fd1f881d3d164; 0x3f9890f8e6566710; 0x267452245a792dc7; 0x5c65262b1124d58c; 0x7966617ac5cefe45; 0x5167ec69c2e252e; 0x4260b24ab198ad5; 0x3c3f3619438756d4; 0x4e379c100a2adafa; 0x491f9831831bc87c; 0x53c4d1f145a3a985; 0x515b94e6cb4b1639; 0x45f0c4fe1c17cbb; 0x36c08ed1a305171; 0x755f6b0ede3c7cda; 0x423fbd3320048523; 0x4db1b6a51403db93; 0x2047e5d7914309f0; 0x6a83d87350249527; 0x6385e4ad0c416550; 0x54133da13f72211; 0x3e2fffb83031c5e7; 0x7f2dead74ee82ab; 0x166b2d7236b63760; 0x21ebba79a89b210d; 0x13af7dc8867a89e9; 0x3e11fe0ea8023f82; 0x45ffd4b8004eb3c1; 0x1d5b588004e2278d; 0xb69186cb4568b7; 0x5a7ff73177d4732b; 0x6c4cce4348c57d03; 0xb87d85603ae76ef; 0x7b49a51d6849a9d2; 0x7ec22db20be7405d; 0x5d64f4b0e004f524; 0xabae49d32bad58a; 0x5b62f6af50ce2953; 0x17a6245cc7284d17; 0x3d2cd78651109033; 0x576e9643f31db7bc; 0x26908223114c464c; 0x2864d1882cb7c62e; 0x235df1321d8d269b; 0x15ed77b0175b55a8; 0x1b2c0ba282d7e2d7; 0x73c161baf3c0e873; 0x1484846c78813568; 0x30fe9c9017b090b6; 0x533a9b1005dfe22e; 0x7c21c567964b5829; 0x77c1bf8a338f4e9a; 0x1ddce4114f5bf8bf; 0x59ba5ff861ef252a; 0x3f1751f1d2d07c59; 0x47d1645f7b93af6; 0x414b9e760ba01221; 0x2584cf630ba09333; 0x3a67c65daef654f2; 0xd4dceef3ae989b8; 0x5d2c10bb9834bcd4; 0x2d342416d96a3423; 0xa31602de9e6bdac; 0x79c0b1c08f974985; 0x49f7b54faf228893; 0x2363d3035abb9a0a; 0x526ea13e66570b34; 0x444798283d7e20c6; 0x7284b6ef1322213a; 0x418479d518be79aa; 0x2f639f22a739d8d7; 0x2a27baffe7d5038f; 0x410ec88e97b421d4; 0x5ee493f191cf7729; 0x58603a312e78da5; 0x4f262092f9fceda8; 0x18539009af261b33; 0x62ed6b237d8fceea; 0x68263eae4a4e4161; 0x58a23c8228746d38; 0x92b0d649892551; 0x3f258b60f53f5343; 0x3af8dfd835dab75; 0x5699f0a420f76c7a; 0x5421dac033c92a9; 0x750d6f931dedcdc4; 0x33ce68d1945a90cd; 0x7c939b92bc281216; 0x6f6a9c691cbebb4c; 0x277443f7812316db; 0x24553d19234fb832; 0x3494ce0a5f63e82d; 0x69234793314c82; 0x700de4b374b70ff1; 0x5002adf318510c4a; 0x185c825bd17c80f9; 0x15cf774beb714fae; 0x5994c91b6bd2c93c; 0x583c0425ff733782; 0x6f1febb8447994eb; 0x2f01e3e1879372cb; 0x202dcdf4198146bd; 0x63ca6d6dbce68f23; 0x394ff85cd917703b; 0x7ace09daf438625d; 0x4a2561172be99d11; 0x7eda8d45eb7be9f1; 0x239f25a392c784d9; 0x1311d22d63082337; 0x77b7a632d0382289; 0x1cabb1e18c22eb6e; 0x30fdb602bfe01444; 0x4809d43eb789d1fb; 0x7c8c84c2a9272b7e; 0x2bf10183f8aebf30; 0x47d97bc7c739b3e6; 0x6fa101f047aea638; 0x64d7c4a245e40a87; 0x5c6b44293cc45f91; 0x24140cf71ed6f9b8; 0x1f1d987eed86e3ab; 0x41e6dd9e64d8969f; 0x1e2d58cd0183a3be; 0x4821e303635e6a44; 0x31fbd09872e3eae; 0x34e83ae3bad73cb3; 0x39655f39f160c179; 0x273cbe883cc8854d; 0x4722f8f94438ccfb; 0x26fe4a2126e5269d; 0x4450347b8a7d0b18; 0x5c3d19500809fab7; 0xed027f5d58dd7d7; 0x259384af04d31e1b; 0x7039a78d0e1b4394; 0x6c4adbdd5c81288b; 0x6989af159d4fb1db; 0x1c9a0b4da076aff0; 0x70fdccf66703c106; 0x1e4f34841720928f; 0x1062e6d3dc7cec90; 0x61749e21e72ba8d9; 0x4364eeb2b1110b4e; 0x6e0c2a9a116fe030; 0xbb960bd7ed04835; 0x39a7a54d2513c60f; 0x5fb675517da8539e; 0x31d48e1d6388d594; 0x4e3460b8bf7196eb; 0x623d23d41a5d0eb0; 0x5b16853e6ed79046; 0x6d8611ecc0b3add1; 0x5133c807080c718c; 0x22c179e65197c234; 0x6264cb61214c768d; 0x3c9e4d65d022d576; 0x600738c37ef072fe; 0x12e143e02d700fba; 0x7ec7a9819c03d050; 0x62cfddc42bc976c4; 0x1abf0901e96b3a29; 0xc22bb8dc238994f; 0x508606f8b3fd49df; 0xf37a37bbf847886; 0x662992ff70608c81; 0xb315b3977b9b851; 0x26a45049f2e0b4ff; 0x8f41a307fd4c0a; 0x7d7a4d9d43cbac59; 0x56e8ab299c7b2252; 0x2c4de48b7da07f37; 0x329f81c9cf5b052f; 0x1640ee8928ea897e; 0x38a26380fe6dc485; 0x1f07b1b5ff8adc18; 0xb531e955cb8c6d0; 0xb6c137214d6f653; 0x36315fe2d6a7eb83; 0x777bd35f160fa109; 0x183f32b18ef35463; 0x299811307dd327de; 0xa9e8256ed4c1974; 0x3eb0c2966fbb74a; 0x5fbea09ba1b0850f; 0xe31ac4568eba871; 0x52245be96c4692c7; 0x588d42862aca4fc5; 0x7009b86915d4d22e; 0x9eafdb0d6eba69e; 0x1a9da16d9017ab92; 0x70aad7a9011645b; 0x2fcbbb880bc011d0; 0x294133f4723cf1d2; 0x52c49fe4daba82d; 0x5969a7d33e2e1383; 0x35281cbeb9fcde8f; 0x3e18ee9f2691075; 0x7d3ef3cbd62c3e10; 0x13b452b9735b543d; 0x2350dac7f95eb7bf; 0x497f82facf4346e2; 0x25a98e012f745595; 0x7197b15665b6de55; 0x60a6809c521297c4; 0x3fd52264ef50cb8c; 0x3a72f12326982f3; 0x4486fae9ed7fbdc8; 0x7aee7f3fb21119a0; 0x98ffb3aee3ba318; 0x42651a367d62af4d; 0x642da0ffed84d517; 0x76de46dde0a0eb32; 0x5dfa80f7048ceab0; 0x5ebccba52ca91a24; 0x4d98a2893a698d3d; 0x963917718b4dfb1; 0x7d2d39ec5cdd6ba9; 0x54a3cc8704b128e2; 0x571c3dbe984f1891; 0x7bcf635cee333c8c; 0x775cfa53148cac7b; 0x1c869a9d3c08880b; 0x3c404e392b341666; 0x3a77b6bbd0ec6dd6; 0xa93f05605c7a407; 0x47694afb1bb6d098; 0x7267b885b68739f2; 0x1a57b2b2b4e02e35; 0x2b0ebbcf289bede; 0xc73182a153a85ee; 0x383a5f030bdcee94; 0x39c2bf641b3f09bd; 0x4ccf696a6bb7548c; 0x7c3aa6b1fdfcd4a5; 0x54e2475719afa565; 0x2cfbd9853439a9b2; 0xa458eb5da318fec; 0x73ccbbfa18725ead; 0x19bc6dbd7526899d; 0x4733962ca0313f4b; 0xcf9a5d348693d5b; 0xba67049b16415d2; 0x4a695396da8efe8c; 0x67f25618bbfd65b5; 0x211f0168b43baa7c; 0x19f493eec14ca1b; 0x1b111dd43c5a33a4; 0x54b41122e131f1f0; 0x385dc6];
   [0x74dc682c838523b1; 0x2c96eadd99b6701b; 0x397e172ccd5a5e8; 0x73c207a88f665e52; 0x3a741e35d807046c; 0x5d54f1630e3230e1; 0x3245476f19e727f9; 0x2ff37eb2ebfcf5e3; 0x607162211a8ccd6f; 0x7e5fa051a900978; 0x6cfe0fadc4ee3aa7; 0x2ea973659cad2426; 0x5ec2108f1f7cd4ce; 0x289ac65e2ee12954; 0x194b1c57f11ab593; 0x749c8724df27051c; 0x42da6b369f8570be; 0x71e58b7e7757ad81; 0x66eff957721a223f; 0x625b53a9675fa358; 0x2993efeafd45f05f; 0xbae6b2ba5e31d4a; 0x4a31307fb4718032; 0x69111f181776d392; 0x1b654cdb87d90804; 0x1ed59664c00769fe; 0x34ea80ec1874d640; 0x4c1bc4ebd618d8bc; 0x7e2dbace2e337def; 0x7bd008b169040a5; 0x76d5d2202e7e4565; 0xe2a131e075936c0; 0x6b521ebdfa1b4903; 0x68b2fcc40370e211; 0x196a42a76c4f0937; 0x57e3d267e3f59e0f; 0x33e8e733945917db; 0x539b72b2914557e8; 0x58011d33ab79170f; 0x58c172083dd2adb4; 0x6c8d42b2425757e9; 0x2f7bc48d92b13d5b; 0x3ec811c280a852f0; 0x68b361b8ddb6a2fc; 0x5f94962fafb33455; 0x3a37d77d0b5de319; 0x21b075189df8f64f; 0x397a715af8537f23; 0x4a40e651404d9a52; 0x77781a9daaa85e5b; 0x468641dc604e98eb; 0x7bc1c291679f07f6; 0x42d93029d36fc677; 0x4c764746bead0ddc; 0x6ce128ac2ead1dec; 0x2a12f42d30bae5e2; 0x1447dd14a8617d3b; 0x6ec5992e72142d1e; 0x59f953e95b30e5bd; 0x375259bcf27cb673; 0x1ebba23477c6bd34; 0x4d8c6e5808b60a67; 0x147d7b7ba9293614; 0x775299160bc2a573; 0x491f9b64beb39801; 0x354b5293bdd40e04; 0x7bc93e42609fd563; 0x4c45b1f88e1861d9; 0x6b8cf231d1c5dfd4; 0x2fefe687e271985e; 0x23be7345043ffd6b; 0x2c79db1738d45bef; 0x578c3f966fdf1f26; 0x9c7180ac54168ab; 0x6538a329fc2f3bbd; 0x2af3d79aa4a43ed3; 0x6f92807a42f30ed3; 0x40ceb26bef9a8bca; 0x905a09c07f0e36d; 0x22aaac9418927096; 0x64a65e75a9f4d081; 0x5ad2ab6640b4975d; 0x4db95046583b1a90; 0x3d385039049341f1; 0x8c2c0bef7590eeb; 0x9c8c6b7baefddf7; 0x560317f206a053f7; 0x4a58faf1792e4975; 0x575bb5329e45f744; 0x7b40f8fe7555eef5; 0xa8aa624a5b4eac3; 0x79916b467f00127c; 0x359550be65671f1; 0x1cd62300be44ebd0; 0x344d6dbe51e6545b; 0x6225fde2f70514a3; 0x51243c3f36edef0d; 0x19946d330f7b522a; 0x3ccae8aae7c95838; 0x4498f1dee6ffab10; 0xed8b8204bd040f3; 0x569cc076ad9ef8e8; 0x3fd33ec02120bb4d; 0x20711e2e32cc395d; 0x7842cfc72892258f; 0x13bbbf220d42debd; 0x3aefc1e9f05b746b; 0x1357d93ccc8f6de1; 0x5575474795a92ed0; 0x45cde7d188501e76; 0x5d06c893f855f0f9; 0x324bb61fbb912276; 0x7f3fecd22ebb46c1; 0x312eacf251d3a67f; 0x550065ae2c245e29; 0x748c46eee189832; 0x798e74d5fcd3e645; 0x83364d583a6c0bf; 0x4c7fe0a84c0c8f76; 0x198a72d685f35cce; 0x7c573f0e40c3a6ab; 0x2e184cf4ee74ddf1; 0x63cf5e7d650541cc; 0x78c147693d48c99a; 0x7e57bb983b7a897a; 0x4c063a819ed9a45; 0x6a70e250d4423b67; 0x4776ca162e9d748d; 0x4837cf4c92e6362d; 0x116ef4d4d0078220; 0x7e8ed2db59e7e66d; 0x4e11f168e30f9b58; 0x593a60d9b006c1db; 0x3931e363f11581f4; 0x39384ea7910467ef; 0x1cf37d774e26016; 0x70ca51401e046e9; 0x6f5d75d92477ea24; 0x4d566ec76da96745; 0xb5885827170bec8; 0x229d88170f649b26; 0x6226125694a99070; 0x4c52ccab7fd3983a; 0x5c1cb556842bec63; 0x2ff1b49a737701f0; 0x1a9b63afd1fe7547; 0x36711613103fb316; 0x188ba73d571b8849; 0x1239626c0f0adc5e; 0x12d36b2ba1a53c85; 0x511ceaa75ce17867; 0x63042011ab3dc749; 0x2fcd22d9ceae7500; 0x18957189939abbd8; 0x79530d3c5f720aa3; 0x5b576f3eede1ac68; 0xf1a87cbe9a6174f; 0x6327f879a426cdb2; 0x510a2fefb9674443; 0x1f0d63dfcee55075; 0x3658d49fa8e651a8; 0xe060c7c9c3aa82a; 0x43a82a4690804ac2; 0x1ded1098d034cdb3; 0x1d61e19f489c56bb; 0x5b0e62a721be1962; 0x7c61dbbec07bff0; 0x2d767cec72f28bc5; 0xfda05cd7a3a9c67; 0x4b33c486c813c31e; 0x3a7e57b40bd74328; 0x4d00512b549b9bc7; 0x5146ffb62ebdd72b; 0x4a8d850b12fa6e9f; 0x1057e7d7f8bc1138; 0x547cf335219548de; 0x6a016c9f6627be2e; 0x1123eeb56f4b2ec6; 0xdf074df38313f72; 0x47e19f0011a9d9ef; 0x393ec89972f75ea7; 0x46e8aa1096158563; 0x183fd01fbcca04f8; 0x62e38d79b0d68084; 0x1f13eb525b74e0d4; 0x2469fd310dbd960b; 0x2f67c74289d9b79e; 0x3d417dfbf32182a9; 0x4a457cef2b6fcedd; 0x56d74dfd32fa97c7; 0x6c670a737510cabd; 0x6b8639123a5d3b8; 0x4d6ba0df8232f010; 0x53dbf78ef05bc74d; 0x71abdaaf27f485d8; 0x3e75f55cc55549e3; 0x4e2195dc08da160c; 0x20bdb7203024b572; 0x4f051c34420ad4e9; 0x44befee685eb98e8; 0x302cc6cb65139aed; 0x20ca2f741b7ded78; 0x7d23b5f693015024; 0x7a6802cdfcb63a33; 0x13a229fe65f58359; 0x5ef3a3ccf598023d; 0x1b0adc92414bba35; 0x68a1115eb68b1884; 0x254d4ec0750d0189; 0x1464167cad16840b; 0x6bcef3cd6a252e8d; 0x758d457b5991ac8c; 0x3da85b6804591544; 0x1a1fafec578c7e24; 0x2f8b00f1d9329160; 0x697874a973887c73; 0x6a05cb9e4fc5040; 0x67b572db5c6d17d2; 0x13a8c3dc42e84afd; 0x23c031cb654dceb4; 0x55bc70a72f73d565; 0x27ef130f277f2a5a; 0x57d448a50a2a1ea8; 0x7c282cafe26ccf7e; 0x3d34b9d172f7e06c; 0x53a9e3e638c30f45; 0x29baf97aa9e13929; 0x584430a60acc3f4a; 0x1af88e969fcbde26; 0x669afb874ad060d3; 0x74a55e3be4689dee; 0xd90ce635e48fe81; 0x1d992a22fa1ef8e2; 0x67117fc3eef3378; 0x6f3554014c0898a8; 0x5bfeae6478e07b5; 0x4f4aa80f6e0e3a7c; 0x25d8ddbbf299cf6; 0x2f1370897329bfb4; 0x6db39a0206ca2523; 0x99b08bb443dd521; 0xca69452b40ede7e; 0x6046922d3931c4c0; 0xcfed17bdba2780b; 0x79a6c766b6d4f0f5; 0x5530f6ad65b636c8; 0x332d1191d586af76; 0x550c888d0536ab3e; 0x1840ddce6a06c70e; 0x1c0e347d3757b504; 0x32e0a0cf0f6d1a68; 0x4a1c2ed5f358eb53; 0x3b27560e4e73d8be; 0x37265aacc02d896f; 0x4fbd8295a17690c0; 0x16ca8567e2d86164; 0x2b13a0538c3ea853; 0x173e8ca0eba11d4; 0x1ce0af0ad7c9b9f1; 0xc499299e82caae0; 0x73d02612f2ba4182; 0x31dab3bacbbac52d; 0x334e6da5703de18c; 0x3d9f37d2d780b4f3; 0x64ea1a95afb78b81; 0x71afbf13115b7fb2; 0x46118d05261a06c0; 0x30118275533a89ad; 0x65e58f16dca285d3; 0x3634b39c0f3e4014; 0x7e3588c125b1943b; 0x6906db9913f578e2; 0x5c16be014ee4916; 0x45ee11c3ba2c1243; 0x36b78dc441a969e; 0x4b82c37183e70534; 0x79924624371d14b6; 0x2884bd4e0b4be819; 0x3057ed87a8428acd; 0x6d4c50255c84e85c; 0x4c6b0506e9adbb40; 0x4e5a9dcf17df9712; 0xf4e8ae06f5ba1cf; 0x63eee769305840cf; 0x2219c802cff2ac05; 0x22f11aaeacc5733c; 0x2fd98c89bb3c0745; 0x3fdef60e839329cc; 0x2d6925bdb9c2eb09; 0x28be7f349b385091; 0x5704ff47f7cabd7b; 0x3081ab561080988b; 0x5871a76ada83a275; 0x25ce9c57a2158218; 0x56b9428a1b2ee412; 0x7df0e4eeb958acfb; 0x132d9d1e290a68b1; 0x6b9c8aa3d50d7ab9; 0x6daee22407c5de60; 0x2a3a131843ddeb81; 0x1f1a9d0e8d08a937; 0x59376a988c68b2cc; 0x3351d09e2deed5e5; 0xbffc6f6f5249896; 0x3309f1a1dff0b12b; 0x7a9bba157dda3d49; 0x56aca49df22f5bf3; 0x2dabcfed9650896b; 0x2727eb9f64f138a7; 0x44258ad3b03dd532; 0x4e732c929dbabcad; 0x3e7f43055f630fc1; 0x757f94e2d1de34c3; 0x3996770c6ef3443d; 0x6d9ce84396d4f9be; 0x7abc4399bb40364f; 0x6cf3c98da3f3e34a; 0xcfcae];
   [0x3303fdcbbf9709ba; 0x3477a2e6d69afd47; 0x4bcfcee8d7cdbde0; 0x205943f8296f0075; 0x301c7a9d4e267353; 0x7dde09a431895183; 0x4f8fe6a592fb68da; 0x1681b77f67241388; 0x69ebddb36d0d3f32; 0x6c24da9e063982dc; 0x18485b67e8a58bb0; 0x1cc6633c5be8f666; 0x3b62fb33d8a26b2a; 0x483f518b8fa50487; 0x6db2a8be75205df9; 0x135533bd2080421a; 0x4f017c1720989218; 0x3a586deff89ccd69; 0x636b39a1a48ac816; 0x14d76abf6b75166f; 0x2b085d8b01bce327; 0x4abe793bd860e44; 0x4072aba220c1132; 0x4772c67b502586ad; 0x4424044fef50f2b8; 0x72a411acc7cc19a1; 0x6eba8ac468cf1b79; 0x13c7882a29df41d6; 0xbe7040582abe86b; 0x4f9eaadb06bf17a3; 0x53231bec01593293; 0x5ed2f37f80f65d94; 0x3fc0cb77d695786; 0x7cd51f2e8b2c46f0; 0x65be73b3cbf6b9d2; 0x72b4e194883d728e; 0x1dd720ffcd42d290; 0x12d439825c44911c; 0x1237379ccf346b2c; 0x34aab4d0e8b3aa9a; 0x21d2dbaf13e7f11c; 0x293aac701c627a16; 0xad78ba522d5e546; 0x4ffb26f9289732c0; 0x430bfb9e63764b44; 0x2457b876538ce00a; 0x1e6d75fae8835370; 0x6b44700ca5521eb0; 0x59df6f90730eb3f7; 0x48e2f746b29a0666; 0x3874723d91d98c40; 0x28c14bc0e13dca0b; 0x78e649ab3647532e; 0x3f0763b2f6b483d1; 0x1d48ad70c7c13df3; 0xbabf043e643cd2a; 0x1a00dacd0eb7c4c7; 0x57e7672e92c4569; 0x6d80a1c8d5e350f7; 0x4f4106e666377c3; 0x12d478ab2109bd0c; 0x3b01ad5cd1065118; 0x4bee553db776bef1; 0x10bdc17980b39e96; 0x19e0bd67f3cbdd3a; 0x550954fbf67592d8; 0x1f939e340143c8c1; 0x10b2f32b4a535549; 0x498b4bf3b85c081b; 0x11c630a4736f2a8b; 0x415a380a637488ea; 0x2fb031983238ec99; 0x54ca73521af3c54c; 0x18bd0d15abd0ef; 0x99652cc9399ee31; 0x42fb241a7fc10c1a; 0x789c9815f153b6f; 0x7d12031bc543f644; 0x657bb1ead2410aa3; 0x6bd9ce85c7dd022c; 0x487d1371f5b3f9dc; 0x99df71d565cbcf2; 0x6343718800a7a738; 0x739446998f1d93a9; 0x54d661696beee918; 0x3da0e5fe8156f834; 0x3f41929ce3d3b2be; 0x19d21ba6d2c6b7b1; 0x7bc77260344217e2; 0x6280b6737bb33274; 0x709889f574daaa23; 0x42711f9326c84d2c; 0x573e4d327df05df3; 0x1a381003a044320e; 0x53955db37242ed14; 0x364ca885a4bf6fd8; 0x154e9a8dd4821de4; 0x2072e7544818476a; 0x4e5dba26d0f75826; 0x45d69676fcc28dc8; 0x1264aa72c2a8140e; 0x76c0a5ca250ebb2; 0x5e123d6f026a9bd1; 0x2cbe579a4d676e3a; 0x76709d9cf6341cbd; 0xa802f2341bfc6ed; 0x52d75b6ba27c79f3; 0x140b596a5810e679; 0x7379978774edd60a; 0x6518bd2d520a79be; 0x2f9191bd67a04f50; 0x2d1afe77464ba9b6; 0x641c3f992942b874; 0x1d4abab0a0a55880; 0x4b1ef6639c8dddc0; 0x64041cac1ffe02c1; 0x6651144bc6d31974; 0x37b9cfefb512de95; 0x36b11154cbab9fdb; 0x57ceb2779eb5247c; 0x7e893333a15274a8; 0x3a85da685856b232; 0x63e6b156de061030; 0xe6d7055ceb474a1; 0x6d84a4cd889097ce; 0x29e5c96f36c0330; 0x4d9e86588131db50; 0x791ba81e7a2f6e2; 0x47c0bfad283b1979; 0x49f0ea470f90d075; 0x7ac9d12318550d60; 0x36c5ebf8b82c5c98; 0x454e5ec476716b4a; 0x61c5d5492684fdf2; 0x54c242340e37ba05; 0x4d5387566dc8b8a4; 0xd52719978af40a3; 0x2c4a326f9b6dfbfc; 0x1b6390534d75467a; 0x5fc7eab2d0db6b4c; 0x23f4c5d4db464193; 0x3878269fbe2e99ca; 0x1646c3d29022c14c; 0x63fa81aed12ba460; 0x45485581ebd36a82; 0x63d5c8498dd75f44; 0x31130bfbbc34be6a; 0x344e081ea3f698ca; 0x73e86170080d096c; 0x57ac9f577d559681; 0x1e4152c30324a1e9; 0x5ff1147f5d483174; 0xf4222da03d2b129; 0x7af52f0baccbaef7; 0x7f7509d4e96320ed; 0x149b0ddbfd355aee; 0x1e3b6a348f9e494a; 0x130beb5a528464e1; 0x4a23fff7195a3960; 0x8215c880d9df99f; 0x355dafc812565d; 0x6e3f71d722781853; 0x5a3333960a6d977d; 0x684d2b2d8720d8ae; 0x3779bde7a92104d1; 0x541018bc49b36785; 0x6ba6796e3799ce07; 0xe4b0789967d35f0; 0x2f2a20e895324b81; 0x3388bf1ef32c2cb5; 0x21b6cea26b61accc; 0x1e770b81f16459a6; 0x15614d4a939cf7b; 0x11e4b1cf1159a2d; 0x2fe9729bbf28ee9e; 0x21b3018cf9d93884; 0x42be46738c16b29a; 0x137877a466b13607; 0x4ce5cf66b5666fd6; 0x1a724110a1841999; 0x76bf0a39bdba9591; 0x78aad135adaf1124; 0x27bb7195ad47ddda; 0x3b9af0aea0d7bb75; 0x22cddaf3c821e4d4; 0x7728c2f08e2c5ec9; 0x26382e06ed8aac1e; 0x662d8037b1644967; 0x333758b4ceb3c0ad; 0x7c4fd9800359f22f; 0xedfe2a1d28a3453; 0x77c90be09bae8bcb; 0x58e4ed44e5487b30; 0x52de2d11137990e7; 0x5abfd7c852f2c73b; 0x69c1cde51d2ca737; 0x20279655b1b7bcf8; 0x5f4b6078eb189545; 0x1d87b892bb484a0e; 0x20cf319eeea99b02; 0x5dab8421b0c20193; 0x26e42a5a7cd3da14; 0x48ac60eb264e47df; 0x5748e256972494b5; 0x2345d028f63e5ef4; 0x56f8cc874ad6eb63; 0x67cd4a49c9f7ba3a; 0x219803b5abfafd4b; 0x9a6ab4850f4a7f3; 0x42001b55c7c2a44f; 0x27b03872505c6975; 0x26902492c8b1b5da; 0x4f40dc2004a77a15; 0x280198198b8c81bd; 0x68ed10a8b937546; 0xebf6ec4fed5b6e3; 0x4c72e8d40d7d4a5f; 0x33485d3ebebf283e; 0x3504f2326d5c9d10; 0x1d41b50967c1da36; 0x46e61e2d67256e43; 0x6e9a1c720539654b; 0x6a9adbfea722995f; 0x95495ef15463cc8; 0x162c963ebd098a8c; 0xfaa26f72a171d02; 0x4d4fddee5680b158; 0x2840d7f5140ada2d; 0x49985eb5e6ea92f9; 0x46e215a97e9f9343; 0x324bb48fb1f358b6; 0x6bc6c83840a433c5; 0x4cc93533f6a319fa; 0x6e82a6f0e785a810; 0x28033e653f927a5f; 0x9646568cbf77204; 0x2c2cdbdbab9e8cf5; 0x3229e89b55e7ee58; 0x67af795a3f0f67fe; 0x6f752d2d49f4a837; 0x7db1e9ddc20feaae; 0x363fbc56601d99db; 0x22b355d3adff483d; 0x1efd1b074616460b; 0x4d70924b99c5eb39; 0x46eb6736cc059857; 0x33fa082f8bcaec82; 0x2dfef3fdee78fdfe; 0x2347b7a6a4195f6f; 0x199600b8018bef57; 0x62b0be22a9dee5b9; 0x695fede12d58899c; 0x521a82ae31d15e19; 0x413783e0586859a5; 0x44c07eeaec13c1d5; 0xe99655097648875; 0x2de77c4b31580332; 0x393e20645eed0f80; 0x2f4b7c05488938a; 0x777108b8ef251971; 0x567ce908de326a48; 0x1779d0cff755148f; 0x3cb6fde63419f618; 0x216b3795edf3dcd1; 0x79fadd3ec52bc3a7; 0x641c3402c909bbfe; 0x392094c5dbccdb39; 0x4430d85feb4d09e1; 0x4e0c4112bd949746; 0x407c895114699e60; 0x3c4195c4b85cdff5; 0x384ea3b9187bdc65; 0x3008703d26cb6cbe; 0x1f1be8c24b2b2950; 0x2cb4400c3efe20d3; 0x6a3329bae49dc17b; 0x4b92e40fc39e0dd3; 0x63bdf4fbf5f086b1; 0x729f0a53362c797b; 0x5ac68e98c87226c6; 0xf2e3c8fc6a1da13; 0x766f9da3962e6981; 0xc2cfe24d9cdae22; 0x5b764916d6bdfd20; 0x1a292fc73d0b6a05; 0x4da095ceb853dcb1; 0x6c6a1d9d14f801d9; 0x177b82a33ee1d2b2; 0x631ebeff644e0c59; 0x2a09dd85665b58c5; 0x7625a7ca8b82215d; 0x3b476b756deaf713; 0x2e75e206aedc53dc; 0x27727967c0b02c81; 0x82692992c621072; 0x15c19d315f26bbaa; 0x3f76f32b16954ab9; 0x6a7fbe509794ad9e; 0x500dd0669d592a62; 0x49c2938ca3e7198e; 0x764f4c0abb0fbb3b; 0x11d85f700735e411; 0x70b6d40ac30e0c92; 0x451f2056de612b5e; 0x74ce759c0bed4ff; 0x305aa71effd4c38c; 0x648161283c7a7687; 0x10da451614b42640; 0x6c4f5d9f0521ac32; 0x1aa6cceaa7fc8f1; 0x3dfa891eb1325c28; 0xeedc35fe35a6b77; 0x4f0eaa1c2b96b866; 0x200954f77442d361; 0x26626c5e93f155a2; 0x179e6481b708b343; 0x2d4049ca8a6cc0e3; 0x13948d];
   [0x3878188b5c831009; 0x60551b2cb43cd0df; 0x4cb3aac5e7f0087e; 0x35dec9254237d96c; 0x11dacf1be8259cc1; 0x62b2b6df9ca9dd68; 0x16d2cb037e86927b; 0x664902b8d0db5aae; 0x78ab4bf8eef2b18e; 0x19757e6555aebf2b; 0x58bb567955667e06; 0x62595cdeb1530a94; 0x4e5985c65cea6ce1; 0x75e37507c04eeb5d; 0x7f9cce5b958894cf; 0x3e7c35d48761d0e0; 0x2be12ba9744bf4ab; 0x5e6332953a991db7; 0x3a536c01f03650; 0x5e4bf06175bbfa89; 0x4778b86a5907decb; 0x562885b6190199c3; 0x64df44ef7afe0b6a; 0x2d4496cb6b57399f; 0x324ded0a66d7dd58; 0x582d4c445a9e92a9; 0x7e8228bb2fe80097; 0x4eb2e741a0422c3; 0x494c0b0d3e17fc8c; 0x53eb3ab893259cc1; 0x2877203270771cb7; 0xce2029e0504d726; 0xd1727900c93f693; 0x13a9ed9e254e61f7; 0x5541ca04352b203b; 0x33ee609b5a5c40a5; 0x21b67e732dc47116; 0x6ad74c3fd442ee35; 0x479d64c16343bd60; 0x1ba00997e1c99a88; 0x7de7969dc2e29104; 0x39d3d6ee863e282c; 0x28f24db4878e27d6; 0x389a9b5d9a0693a4; 0x7daa26420f5b9436; 0xed50d795c47a572; 0x4dc3638d2b6512; 0x6434a23177312dc; 0x2c948ec2b26d1e59; 0x666deec11fca899d; 0x3df6e29f3fc54fce; 0x7e5514cb3658521f; 0x4b2c285e4ce2b360; 0x338349e2a8f0b89c; 0x1b69a0e3236508eb; 0xc12853163b1cb68; 0x5c3a75c989dec269; 0x44db2486d4baa983; 0x52b7be5a98a88fdb; 0x65c38de12eec90f2; 0x228feb8495a532ea; 0x57b7a5be22839234; 0x41497068419ac25e; 0x3fa2224578697638; 0x2dda4bebd845ed6; 0x2a8e5b80ba00ffe5; 0x4dbe24898bcce0f4; 0x40c211d2d63751bb; 0x67ded451c0fd0131; 0x1bc82335dedd53e6; 0x202eb49b5dcb405; 0x67188e30a8b2ef92; 0x27f5d056787304a7; 0x5709e4db45eaef7; 0x56666aa0fa470900; 0x216b04ebffb7e85b; 0x4788f3794bac228c; 0x5c4db65640ec7ee6; 0x3e9b0eeaf3b0d56b; 0x4504a7fd8a09db97; 0x5275597c869fc5b6; 0x46bc66c5709a5083; 0x3e3822732dcd09ea; 0x73831063f578716f; 0x2e3374a8e302e42d; 0x2dea82abe31fa070; 0x7864955699de05f; 0x595ff64aabb6e090; 0x357143fc9aee53c6; 0x1c60286e1d57d96e; 0x109f286c7e75518d; 0x7e67bb9868de6e48; 0x5ab9d9e7656dcdc5; 0x3b152dcedc01095; 0x6b1ed02c0c24e0f3; 0x202b5951700be425; 0x343f78fbffcd4376; 0x49bee96ad0766d3b; 0x1a6bbb3e844031a1; 0x604260aa603af897; 0x755801d97b3a7626; 0x40056f395103afa2; 0x9fa977cd0c823fe; 0x51e659ef69964340; 0x2883b11a9edcdf07; 0x57923da49e8e8ae8; 0x7569e90771a62fb; 0x4843d580306ad3b0; 0x33d024abc7ec9274; 0x6ddd0a339979fcc; 0x1d0e68172d237046; 0x227175e7ac9480ae; 0x3c742842e4eef933; 0x20f579601284f2e7; 0x7e98bf69482653f; 0x50f7bb2285168fcf; 0x11e7a80fe31f5432; 0x8d42db1cfc6530e; 0x6cd64066bbb49cef; 0x4acdff829c35251d; 0x3875bb2a5dda7605; 0x1cdbebaea3a6bb26; 0x6dc6c97ec963f2d4; 0x1ae6a2e5397510c8; 0x13d2fb5455cf346b; 0x66b0a516e078f459; 0x4280cfc6d859e519; 0x7141252e7e1dd36; 0x1a42b3a2018a731b; 0x1982e9f7d39f02b3; 0xe91446da0db6948; 0x79096249e639c8c3; 0x73caa69995210b5; 0x145143fd947b046e; 0x1be589c6fc303bb9; 0x6e6849869c6151fa; 0x750819e5c41a7cd6; 0x984a71a3258273a; 0x27c5c48511123e95; 0x50c99b1c7cd27ec1; 0x26df22b11a778862; 0x5a0d78d91baa98e7; 0x55008d4bf7bf507e; 0x7c02daacd35d0ace; 0x1a64d3fabaee6c5; 0x52fc4a24f44d82e6; 0x4c3799a51ddd649d; 0x3076100ce06c4fdd; 0x7cb7872596ce6f0d; 0x1be233eb502180eb; 0x3405521253718453; 0x40597e2c4ba876a6; 0x40de94d468fad076; 0x577b323e4e8bc0fb; 0x6c6c0f1ae8bacd58; 0x433d6431e83db31b; 0x5fd996e49f82e228; 0x10958a1f57687214; 0x6ab1b650122d5e04; 0x36b053e4bcf7f480; 0x11cc13e1f17a554e; 0x6fd8fb25214370c; 0x349c149f55d8b746; 0x33f85b810a4eb640; 0x4df709ab6651f6a7; 0x590b99d458f8d81d; 0x540009a44f26893b; 0x168bf9f122f94c2e; 0x71d44625f72b52fa; 0x5ded475d56a3dd8f; 0x4e0c38641108661d; 0x37496702194737e7; 0x348d7c202c153a77; 0x63a858de987d60d3; 0x6ece51bf3e72f6aa; 0x6b70d10b63391ecf; 0x1d1c175a36540948; 0x6efc5616088cc772; 0x36d61d64ce9b4e4d; 0x1952dfeefd74d25d; 0x54955b7a66909376; 0x23389b04404f6877; 0x2466a94ceec5ae5d; 0x2f5617468d4bcec7; 0x36a181850239bfc9; 0x27f680e776e7536a; 0xa947182716c4907; 0x389881dab9e5b6fc; 0x12bfc7f794dcd90; 0x62cc2829cd077ef7; 0x222da8da1a43878; 0x7515926e85960edc; 0x36d30a6d7a5bd404; 0x4b05ef70fcf461ec; 0x3653c0fa1844f460; 0x4106877605471e04; 0x538ed7cf221d97cd; 0x113aeb2efb4f51eb; 0x563e9a88fc0bd71; 0x7bc5fe3511973a35; 0x5c3bec399d9cc266; 0x7a07d267ff641800; 0x2a941c287f26e31; 0xb3b151ced5e2fd; 0x29784186693d923b; 0x4d9be3d68507a7ad; 0x36251fc5bfa5f951; 0x288c503b41b3c16c; 0x1a5d13188015f559; 0xecbfb3a4b90c347; 0x9dc131864d8135e; 0x405fa3a26cb4c4c6; 0x4acb09a84c268513; 0x28c8e25ae9ce6cb; 0x2d08ddc918f4e68e; 0x1385ada151029ff2; 0x4346ff1ee51f3602; 0x7003fdb592d4e50e; 0x157bc68589231784; 0x6ca323ae4de556b; 0x68d151208569085e; 0x2803759609ef0a2e; 0x3577ac9ac532a7e5; 0x23ee42a035efea0; 0x131ddd722e7c56bb; 0x5be4c2d650986cad; 0x1a7497672013061; 0x67399a8171c271b1; 0x3f08cd8792aa8b8f; 0x3ba613a27e7cd377; 0x1e13b9a860de9d71; 0x48f5d47beeab753e; 0x36dafe56cb7b1207; 0x21e8e1b84c132d7f; 0x2ee2d099af3151e1; 0x51bcac171e138e53; 0x282760ed2a9a3d53; 0xc374b35f76cc3e0; 0x12802ed3690e5646; 0xcf7c448bfb4a0b4; 0x34602b79ee9ad9a3; 0x48f9c46b2c5e67b6; 0x71a2fcf22ee9e5d8; 0x637aab190b13a006; 0x2a1c024d067376d9; 0x172e399c926faa6f; 0x1f03fdc5ce436054; 0x16941dbae9ca4b74; 0x23633ed648635dc9; 0x6cae1375cc38c92; 0x322e54a9fee56380; 0x6a2355db0331cef9; 0x7bb131b1214630de; 0x75f13af0b20e6706; 0x12cc6f1fcdee50dc; 0x7e6ba695b675d340; 0x47a3373d312dbfd3; 0x6f90101c2e91da5c; 0xe6e7d577817cc88; 0x6686b6f425c95b48; 0x56748cc0c3784cd9; 0x568e665e4aa74b83; 0x7c3d8a51debb82ad; 0x2dfe0e653faff270; 0x4ad6e7e39bdfc0d1; 0x66ecb6355451c561; 0x46ed9db793697c7c; 0x3a71fbbc50a5dbb1; 0x77d150ea155f4b7e; 0x66369d790db8c3c7; 0x354c417c9d27bd55; 0x38cd45cab70a320f; 0x723d24d30d2dbfa7; 0x7b4debaef9b58; 0x420e99974d21f59a; 0x7e881f8aef365d1; 0x50beba03acdd3f9e; 0x7c1d65aeb9915e56; 0x178ca816deca329a; 0x6aec47af72e4fd0b; 0x2300765502836e46; 0x5d2903cd063835d4; 0x226cabc0c371e116; 0x63918d1cdfe2b43; 0x25e687d82d1e5e4d; 0x50debfa61985c75e; 0x599a4b9db5b3a95a; 0x57b6562d864e1c1d; 0x7e73d5e973bed130; 0x44b8bf670f2166eb; 0x29ac5c4b78fcc382; 0x23f1efe0fc595584; 0x2f1ceaffadbb765a; 0x605e940bc1f62753; 0x779769189e614123; 0x796d1d922ccbde4f; 0x1b9558eb0b18ee69; 0x3cbfa351c7f1354a; 0x5f0703b758da1af4; 0x21f75ae3e172d456; 0x5684feed3d07e644; 0x1652a09eff12cce4; 0x1b357fba4f73259b; 0xc6c8225ac6bcc1e; 0x600c8eb7c2975d9c; 0x574a15ca54ec5178; 0x4a3bd9afcccca524; 0x26da52518c6aaf07; 0x710272a86d8dd6a; 0x2ca8f08b1912bccf; 0x34dbe4fbce1e2cc7; 0x1c0b38a76633bc25; 0x7c13b7c6a0990cff; 0x6d9a659632526b1d; 0x24e8da44663a861d; 0x504dea4b7a309db; 0x3e63efbefc23a5f3; 0x1c11d8];
   [0x5f72ee53dc51b2d5; 0x61a0893a9b0af45a; 0x13f1b90d988db43d; 0x589e6ccdb392c6d1; 0xc556b50503c004d; 0x6e9e4a880a6edce; 0x637210d8e6330e91; 0x4b8a90b15a5fcea6; 0x5b61e0ac7784bd9a; 0xf81a991dab12771; 0x38f6f105a5002519; 0x3f1a8e49277778b4; 0x27357785b157d8ce; 0xc9734b6c0852c81; 0x20b42911cf6cc11e; 0x51a26df26ae32941; 0xc2dcf6e6590806f; 0xa909583df2078b3; 0x47551710b1aeb61; 0x11b320fedc8a76a; 0x7c1ed250cb76c2f7; 0x30c1334334803724; 0x30021814e2f18f13; 0x695636ee9fb4bf23; 0x63bdf45f664d8006; 0x79216e262af29bf0; 0x590444e0cc7ad249; 0x95c063b1fac57a4; 0x20058331299edbe3; 0x283de47edf7e8a56; 0x735ff58027c28c64; 0x1b0f7873ce796676; 0x61b74f98bad11116; 0x15c9d4b6c87f3049; 0x2ef8867b8ae616a4; 0x52376e21ecee4f15; 0x75dbac18238a2a7a; 0x71b0f6a5539cf1e; 0x45d28d60ac4a87f2; 0x76e7ecc9b0180407; 0x21c948e10f274015; 0x4fcac136efd953fa; 0x48cf6565161d2e40; 0x3fe98980d5d4ab99; 0x47c955fcc0ea3847; 0x4942707edbdaf213; 0x33a3c3c320f08622; 0x189d8e3d27a22a3f; 0x61bdbc820d5636a9; 0x328aed0852040a78; 0x166900ff50b81b03; 0x5ed3e281f083b92; 0x76b6024286ce7272; 0x7c98c3cb7ed9e9a5; 0x4dce49972a76f9e6; 0x47ea716ffb7e7e4a; 0x2d9e61a425016dc0; 0x70550222e6410e5f; 0x7ee9104d3de61cb; 0x49fec5e8f5773af1; 0x19c55b1856517f23; 0x26f148d7bf9f5f48; 0x1419d959e522f1c; 0x5de2c248d7a5f1d2; 0x67eba49f2240a0c7; 0x633da932442e2f99; 0x4e4eddb0196fdd9e; 0x4097217b8f7e4e2c; 0x1a556fb52cd6a48; 0x5f2629fe3a01bbd7; 0x2e66ffb6cf8986dd; 0x2cc2c84a36fa35ec; 0xa6238747c59cddf; 0x3db89566dd29ff04; 0x2d0b9420e832b42f; 0x238ff75a8e72548a; 0xb73a06eeaded128; 0x727794d84bce43d7; 0x7d9b579aa67157aa; 0x80180141609acfb; 0x53c43f9a70c2495a; 0x3b049c2dec5d4d74; 0x4e391bdf9ae3e6d3; 0x1d248f2f571b87cf; 0x3c3cb6fcd0df21d7; 0x4b7c9e8aad1080c4; 0x2798aced9f7e4208; 0xd00b8304c22a81c; 0x468b3f21f808cee0; 0x67cdb976c404668c; 0x3480c67a5054b52d; 0x6d94baebc49240a; 0x7af2af708ffee283; 0x18978d08f4fb0636; 0x5e2e8c6116bac3a5; 0x54468f6059aeaab9; 0x8598b73d00cb6d7; 0x2aa3ffa651a09dfb; 0x57a39678fa375df9; 0x170d235902895d87; 0x2b706684d68c2327; 0x788da65def6ffe7a; 0x2bcdfc597d704fd0; 0x4d50a1f16a1ce4c3; 0x770f2dba492c9ecb; 0xd59dff133ff87e5; 0x41ff0142c859a0f9; 0x449f3876e96e2ba; 0x57255792515f207d; 0x36c3b877c081449c; 0x34389176f140c670; 0x3065a30ea4417271; 0x63ce514c1e5d7269; 0x68e116252e0670dc; 0xb26294a6d32b3cd; 0x78dcb0a94990d5cc; 0x37ddd184c7ad6ffa; 0x5282a5fb5f9717e3; 0x23f1143c7102331e; 0x4e3e5924f6664891; 0x1dfacecaa59cc44b; 0x5b766f445a42cb74; 0x180b0df1947f6085; 0x71428a94e4ab9852; 0x78a749c2c3784c4f; 0x2e47509bd5021a7b; 0x454a23c79d287fff; 0x7c842ce75c358901; 0x36c5b5c3e07139f5; 0x12481e380c84441f; 0x4d99853e23759c48; 0x32803fd8cbf44bbd; 0x2bb013b901844a65; 0x317157238dd8072e; 0x5215588b42647d67; 0x300dab6003cc76b0; 0x7da55ff17c1ad0d8; 0x186ada806869ae37; 0x49f3e9c30810d7b7; 0x5d8efec6c9114ce2; 0x6253c695a4763732; 0x7938393edb36ffce; 0x372d24ae113b9995; 0x6aedf9a9abd160ec; 0x535195f8393a989d; 0x3e3f9a8123ce8e32; 0x721adb2d1f08bd7e; 0x87531274e4fcf14; 0x4d4ce87df42f68f8; 0x4819ffeefbb3540d; 0x1221a1c15be876d6; 0x12e0db1726d123b4; 0x268e7e131a9abd2e; 0x6bdaad3ff7531b0b; 0xe588850709137dc; 0x51e1a374b8466820; 0x54794173ab2325a1; 0x121f7230b3b60b57; 0x7059d71b768530e1; 0x4e9f6cf11959d6b2; 0x1d46e316e76122c1; 0x60dd3dfb1d9745a2; 0x15080a2a784bac23; 0x47be57d63437a81e; 0x19c864f1f422754c; 0x53c6c3d81b3d362b; 0x131a7461ff34a650; 0x3803224356ac47bd; 0x6b9ebc50edea5492; 0x115066e73612ebf1; 0x3efa26f0551d79f0; 0x75b4829db93be103; 0x4f1f5d2d5a4bb716; 0x12f57cd06fa9fa05; 0x3174241100f4844c; 0x3bbd739bfdc0a145; 0x6b377e2c93df5d20; 0x265b26e14296e3ac; 0x5bb80d4108fc9578; 0x624ca4e0c5b0a355; 0x7e97c44a489720f2; 0x6888f54c4d07e551; 0x1f50c56bd0a1cb75; 0x671e02b6162809cd; 0x7dd4cddd314df975; 0x76e0535198fa2074; 0x28a90f6f0af7a850; 0x1ba7ba5de6de692c; 0x3dec15369df2fb1e; 0x661517c97d812040; 0x231ac06f1234dff3; 0x75ff7d850d79f54a; 0x4098f0d2fe0ba825; 0x5b1994226a1c875c; 0x4d5e67d790e69dcc; 0x64c660641cfdde9d; 0x4c032ba2fcc43981; 0x6ee8b2a73a2e653c; 0x7ef738719c161b97; 0x2c6a66a113dee24e; 0x2a219e19fc67c90e; 0x66b044e66b6ddb59; 0x51471477daeb042a; 0x5ae011fc7d7076e5; 0x72744b1423a602ac; 0x65064326831c8ecc; 0x3c178cff97fceaf8; 0x7ba60ac380001f73; 0x532cb462a392d9b3; 0x293bdf74f879323b; 0x663c17d41313a5a4; 0x2268d35802c1cd17; 0x2e91bdc4e91c6fef; 0x31783ecf2e19b24d; 0x1726f2807a58fc60; 0xd136cec3dc98dde; 0x7110bd4f48dd0605; 0x361d09178f36750a; 0x4c009369e4aac59b; 0x52fe1be9f1515e93; 0x29020e7a1e47d404; 0x77ee7dff052f9a6e; 0x2f0270f9ada945c8; 0x553403d0976deb3; 0x72259e54bf4ddfad; 0xec85881e91a5cb8; 0x5f5f233732aae3fe; 0x2eab75212aeec1b1; 0x38cd4e5eac67750d; 0x44c5887365a38b51; 0x4b56d9fe8e59b637; 0x6e3d05838df1b8af; 0x17e9f2eb238ca53; 0x2e780dd7b17fdefe; 0x25cc9e9d99b5c4ef; 0x2097aa51e3ce6df2; 0x40b4e19aee8aff4f; 0x60adc024739475e0; 0x23b0a28f82cbd57; 0x7d30133e891ebfde; 0x245932f0f2397923; 0x43b2dd9722d4e638; 0x411a4f59e31a7c19; 0x2284fc66e64d06d4; 0x25ba3a9720e22be2; 0x62cde8b5e5182b37; 0x275f4bbf89f83056; 0x6c713bf37f5b2d0a; 0x62d2b7344ed2647e; 0x2303b67d3c5d1c6c; 0x211da3ec8703100a; 0x1feeb949dcb78f85; 0x3d9de7fc146eef66; 0x53ce0fbfc3c4676a; 0xbd5953d3e58ca8a; 0x1329953c368c36bb; 0x2abd819e25d06bfd; 0x42a1258213219b4b; 0x71e79b4c360d3ded; 0x4e370eb074fd654f; 0x6a70ce5fab2c7e02; 0x1699146b9159ff61; 0x31877fe583a383b3; 0x1cb9a757c4fa16df; 0x52d088f069669096; 0x521c39afc75861fa; 0x39b54c5649f8232b; 0x6617005d0df4ac1; 0x39a8148b81aed9d2; 0x64995860d63285f3; 0x708a7fbdaee6150b; 0x14883451c7c54238; 0xe38a4301ebeab4; 0x52503009d3504326; 0x2f96c8648db47a4d; 0xbfe936fb6c5ef80; 0x6cb2b5cc359ba65c; 0x73aa9ccdfbb72220; 0x43d4d3237ca57c11; 0x18b7e46bde850c13; 0xabb31ef89050e1a; 0x3a439bad369594ab; 0x75d4173499205cd8; 0x1c5a13aa1161de56; 0x33da1045fb81bc7a; 0x4dce1ce638e175e1; 0x5aa4e780f069ec67; 0x4970699f1c7ff15f; 0x233753e6a3adefaf; 0x7901ba50fbdecf8c; 0x738fcd17721363b; 0x45bbd3039e6ef7c1; 0x2bc875be8ef2483f; 0x6f55037aea4f304b; 0x2566d322fa1f9f44; 0x281e5e5307f78cb1; 0x4553531e9a6df909; 0x4a795baab7aa0511; 0x2f3f7a07b41ad36b; 0x6de9c969e70d728a; 0x2d1cc5697620adfb; 0x785b870ec5f95299; 0x4acca7474245a9f5; 0x272bb865118ce1ec; 0x36bc80bda42c552b; 0x3cc1ae7dae9f3243; 0x7b5dacf030ea84c7; 0x155336d4f0f0ebea; 0x6cc5ea2b4e8d5682; 0x77124a7906b611b3; 0x66e9fd5583871b64; 0x4d1f31139d445231; 0x5005f163d1825d85; 0x63c297a1443f23f2; 0x3f51a45f6b71e3c9; 0x5dd2ba5504ab2690; 0x226fe192b9253316; 0x6ad9a];
   [0x1225b0ffd71e1043; 0x22970ca69c54e592; 0x2b11cc9bdbd1e951; 0x24ec7dca6a4c00a2; 0x3f823c9f9669ce80; 0x3bf1de1b1cfeb8e1; 0x493b134d7b3c1632; 0x51cb863a0f07a429; 0x1d221e020d9ab6b7; 0x5369bb21acb445c7; 0x547659cb45450b52; 0x3919d193eae9fd46; 0x48b24ee3c3278ff5; 0x7f5edb478143ed54; 0x69175604a352085c; 0x20666c083dc88061; 0x470537af1614c21a; 0x7d8ca23bff73b055; 0x56bbbf12cfeab4a0; 0x6d7450725ebf6f26; 0xf0cd32d46e63efb; 0x13dd85d5278e5a19; 0x7737af60c8635041; 0x61bacbd1c95876a7; 0x2e39b823fb899608; 0x70a36ffe86d7c1be; 0x1c14402d046cfc92; 0x56410d85742ccf24; 0x346b4ee56076e0dd; 0x6e5f0b8afcec218b; 0x52a8d3ac1f4b3eb2; 0x9db311555f4fc5a; 0x6b95f71b0c9f5d5c; 0x38a7d644ba504edf; 0x3eb9beb50753e509; 0x527ed9abda706298; 0x61af3118eb482757; 0x659ab58be7adf855; 0x7568abe17acbb41e; 0x6d1070a2382df352; 0x17a8da16e072eea9; 0x63da9378f9fc0058; 0x48bb355c4cc80932; 0x114d5f2b1919a6e0; 0x425f1959efcc3fb2; 0x79c98a5cc2fae425; 0x60055f81eca85ec8; 0x6d5c3b3e2369fc23; 0x5a461d3814427dd7; 0x3248148783f3903e; 0x69d2731be4934234; 0x38dd15b933d9c1f8; 0x5ed74e486544df54; 0x52cc9b4ed4cc6e8d; 0x6b4ceebb73cfd5be; 0x3b72143c1060e9c5; 0x734c117e7b1b5818; 0x43d80f83a215bdeb; 0xb14e4fcd8638134; 0x77cb868e32a2bafc; 0x619a64d62e16088; 0x67e2b99716a68693; 0x7e6cd76d160f12bf; 0x30b5539c78f715b; 0x5f9fa2874ca50b7c; 0x360d5f681ba8f621; 0x1694d4cedd37bb1a; 0x590a3b8e0204d8e9; 0x11680fcc21c71cbe; 0x194c4bad56e2ef41; 0x4e8522e9ac086fe2; 0x705533f28e41f81e; 0x7840f745e8fad48c; 0x3782d822a813830; 0x23319a4d60d34a61; 0x1bbfb8bff07a2b60; 0x62220f3cee879cc3; 0x3c1f622ecb09d62; 0x40b4486b6d904a58; 0x7cbc6a9dee7a4d89; 0x49141e84ef06fd60; 0x41ccf1cb05c98210; 0x61eaccac1d5d30d3; 0x3f2ca3781defbd59; 0x61312590a6a8311b; 0x44ea90f24fb9e66e; 0x730a4d80b290291e; 0x40f20a14368ba5c9; 0x28e60d017ffd145e; 0x61e5373f1870f201; 0x7b40cdb0dce974d6; 0x53fb2d646370eb2d; 0xbf7a07fb83e95b4; 0x725393813f36a480; 0x2c2688dacda999a7; 0x6f22a1c152139a73; 0x5742648fcaa4279a; 0x513420dcbc03c4b9; 0x6f784e5e946e0af7; 0x43ed14fc0f62dcdf; 0x20a6c658e77aa178; 0x745f9e2f2cf63b3b; 0x13479c1ed72836a3; 0x6d3ad2d7dd9c16b9; 0x4ab16fa287b795d9; 0x1eb618cd89c9da0d; 0x6567172953a2d871; 0x160352f4c410c138; 0xd882816318c9d61; 0x5270e0739e257419; 0x4560d11a6013148c; 0x4de96e894897f65; 0x4c030a903f604452; 0xc624462a1380683; 0x18e9b216d55a4ec3; 0x5b3ceea31d7468a1; 0x1325c3ee288c34bd; 0x2ddba35fc0fc2c9b; 0x2cf6ba31dea6169f; 0x220a0eb88fb30266; 0x6a3ce4dc0c340d84; 0x463ca7091cc6aa0b; 0x4f9e2b2d93e8d81a; 0x77ed57e61946f216; 0x3075c8c56052c175; 0x79686ea042bf6779; 0x2ff025d8427906c3; 0x167bb86daa55f1fe; 0x451c88211400a15e; 0x3604cb145267b45f; 0x294a3ad397ff6365; 0x446ad1b90f36b22; 0x77fb26fa35ca3c6b; 0x12fdd55fe7506313; 0x2ad468130a5a67b3; 0xc7e77e9fe91e4d5; 0x1446e535ef6bb684; 0x31f6d6b70f70c1f4; 0x413cb72e4efd74ed; 0x665c7893d128d8de; 0x45add81fee17c6fa; 0x11df9d4168a915fd; 0x3d4f9a6ae66d0c65; 0x3533cac65e201137; 0x6fbd5a279785039; 0x522097b70d7e59a9; 0x6d7bc6c92da18403; 0x381646c21d3b1d70; 0x1e3c938fde7546a2; 0x4e21f1d0fbf11676; 0x444818cd970b1b4f; 0x3c1d8ff96ca59995; 0x5a3da9a67749273c; 0x685f87f29a4231e0; 0x3155b8cc1f723afd; 0x6f29ce135747038e; 0xc28e91fe54c1a17; 0xb466b4952c3c1cc; 0x551c9aa4e2644f80; 0x5815e43b8034e763; 0x1fa7f7211db25eac; 0x60da7f1bb267a0b9; 0x77ed97dbc1f489a9; 0x28f5adba94f20ecf; 0x2307d25e017f045a; 0x206f2fec55c7f229; 0xb3343187f128322; 0x6b555c33a44da9f0; 0x6ddc8a66fb6e0be; 0x3a2d63483d13abb; 0x4c5c6542400b7ee9; 0x6dcb2b390f424b6f; 0x5463460b1bc97f3f; 0x16df3489b2801d71; 0x317658fc1b6de2ba; 0x7a541d59ef0df9a1; 0x4bfc15567b1b58d6; 0x1b61b569e510876; 0x1718bfa5ad3fc4e8; 0x126d15a6c417f096; 0x118b0a6184498bf6; 0x779eb516ac9e09ec; 0x62e68ccd874243f2; 0xb4116b747e182be; 0x639bf1e35dbbec7; 0x29e54641000a36f5; 0xaf669d520f811df; 0x453a42e644e544f; 0x56d25e006b13aa5a; 0x46ecf756ac387321; 0x7b18fdf5f82991bf; 0x32343635a1476906; 0x768dbb6da1eeef85; 0x1dbdd0ea1d73039d; 0x2bf6d032484a0501; 0x3ce317c869b7b5b5; 0x3eb11bb6c59849c0; 0x5ccb416c732fd91f; 0x70aa32e8c7301d39; 0x7ff1d32f0e61ca99; 0x16156736c675faeb; 0x2ca21a70e6ccf63b; 0x15dca27dd365c9f8; 0x3b203764d5ab464; 0x29be1a54ed189760; 0x593dea54235ec994; 0x21e13d4fb33de5b3; 0x3e8de00f3cc8dbb1; 0x629d946847f012d3; 0x47551bc22dac2c7a; 0x70151ab7afb4945f; 0x1a8e847250b63b5d; 0x19848aede43b8235; 0x604062f2a5b42651; 0x1244ec1063e335c8; 0x38b4345611d7aee1; 0x32717e027358bc95; 0x79dcab5558d678a9; 0x4bbeb30d27db238; 0x1251246e4c1d727b; 0x2a51ba80b4671faa; 0x7ee7b4a08e60be35; 0xb6baa0cbd3d363; 0x3587643d5c36f41b; 0x67bff2c5378f001f; 0x1e6864e9833a6ee9; 0x1720c9c1594a30f3; 0x261bc6f633466a88; 0x749b5850a443684; 0x1dcf22886c1f6078; 0x7863e40e43613058; 0x5bcf8e22f879185e; 0xcf3abb0e20be212; 0x6e9984f705c13099; 0x31f5e187052c25a2; 0x74607cf21ed62afe; 0x25b640861ada18a8; 0x1408da31251657c7; 0x3d6ee5fea446d5c9; 0x60f86645e61698ab; 0x31c2c78c841501bc; 0x784621005c9d7dc; 0x28ddfe118fca64e1; 0x7aeb4b8e0d322f21; 0x3c5da74c31197cb9; 0x3fd6f5795fd4035b; 0x51166c9011c03337; 0x4188b3d291963aeb; 0x70f99fc7283f463d; 0x3eb02c6a317dbc72; 0x6fb3c65f946ca990; 0x5819c48e2a10b4df; 0x620e320b7cfa73c8; 0x75c1cf356ad34196; 0x73f1c9b137fed0f1; 0x76436c9e00ff681d; 0x76b516865c8546f0; 0x686ce6d89d223c9c; 0x707f905755f29e5a; 0x5ca1516e316e9fc0; 0x3ece661e970e2493; 0x3488083b6278b9a1; 0x32596906df04ddb3; 0x23208818b049e62f; 0x64ea17283253ff25; 0xd5a9b68cf4056d4; 0x1da491ef5c445735; 0x3c06ba68d23f81a5; 0x3e39e9da0cf72f54; 0xd8af312fa94622f; 0x70d80f8eeebd58db; 0x1a2cd696225281d2; 0x2d3f0943b02d01e3; 0x4a2dd78500316af0; 0x2f6c889eb7211813; 0x169c4ff0a6390f69; 0x18961607c43a05fc; 0x150ec802f56696d4; 0x33cbe40a8225d305; 0x21d0d7f9bb1eccf1; 0x25040500cb5dafa8; 0x1a5c48198931cabe; 0x35b16a401670afbe; 0x51950337240eeb0d; 0x11f1dc3742c99fa6; 0x205ef47ed0ceb0f0; 0x387700089e6b5547; 0x70506bd0be7e3620; 0x281bd245914a616c; 0x5835272d509e58d7; 0x7419fa4ff0588798; 0x2aeecd81dae48a8c; 0x4422e1cb10fde81d; 0x5b0eb2c1124eaf87; 0x41eb702f1e67f625; 0x5a524a2bda3e2c00; 0x72da30e66646d328; 0x24fc9c4e2c2284ae; 0x216c9a51af305864; 0x39fff4577435d014; 0x2b24c634326c6f7c; 0x4c1fc717a2cccd6e; 0x799b359d3d176de4; 0x447f03125b19b99d; 0x7d63928ec9553d70; 0x15ac44877daa0ad; 0x502a4234c8f63e90; 0x21895d356096c99d; 0xeae367b9f0bd9eb; 0x3ca93e9d7bb5b5aa; 0x69279ac4e899a418; 0x3b3c08ae17975cf8; 0x6794b16de4fc0999; 0x5087c04ef09f6890; 0x150be8fc8786240e; 0x7b6b473edd766129; 0x66da509410470519; 0x5b787];
   [0xcbc1e79cfa60a21; 0x352979f8f6fa826d; 0x75a7d7618a2ffac; 0x781fb646d9b6e934; 0x7344fb4b5e18171f; 0x1d3a08260a98780d; 0x6ad528d83b50a3f; 0x61f458cc76be8c5f; 0x5c89ecbf2e86d2c6; 0x12c5cb1b920fc728; 0x3466c93fe3f2d580; 0x7856b4f8925d2ba2; 0x79a000261d5c004d; 0x291f8259ebad8411; 0x629fabba063d9bd4; 0x59350d38b2e3bd93; 0x473650df24ace55e; 0x5dc7ded693276661; 0x17b29c684f90c251; 0x38bdecf39e08097f; 0x54ec49113261c7bc; 0x23bbdcf15b4f8ed6; 0x7481ae6212432afc; 0x4101c68f4282b2ba; 0x72f93499fef2c9da; 0x197adcb0d8bc6a9c; 0xb375e2571f2b77f; 0x4f10125fcde811c1; 0x4e7ae3c755955823; 0x6082ac07cf1ea786; 0x7c03b12beac2ab86; 0x68fa6c744b05ec2f; 0x671d046495f9c3e0; 0x581bc0bd7784c1ff; 0x65b3a6917ef178c8; 0x17128816b6d89cf1; 0x61161c8ad08d8103; 0x44c219bcec915fdc; 0x674a6d3a28695964; 0x681c7d4cbc5ee320; 0x50b036d0461b7891; 0x6726a7fa3f6c3bb7; 0x246574d1afd0a677; 0x76d09bc7a931e572; 0x6dbe8db73bc4812a; 0x11ae9594b2165713; 0x905a6512b907a73; 0x3549896092720c25; 0x30ad62a69cbf0949; 0x7bc7adb1baeeaa95; 0x41855c9c388a2837; 0x4a341447942e3701; 0x78b12071ed1820e; 0x15915a2be6f438d6; 0x731687457c4f76d3; 0x1052f67ce39b06e5; 0x2fe8eb6adc12c598; 0x454800be745499b2; 0x67a0bb629705800a; 0x60e6e2d2cf31e8ba; 0x3fb00d4be2a8dfd0; 0x4aa06138fe124f7f; 0x384e33c764296787; 0x437ddfaa383ddb40; 0x735bd6e8bcc65b3f; 0x7ca11ed0c90c117e; 0x7569c57df17f5187; 0x431e7848e5c12cec; 0x21e77029c26e0735; 0x2346f26c1200fd49; 0x12cd1be0ce9ebf07; 0x34860f2b7b1fa342; 0x6ef0708328e2ae63; 0x13c4ad013327fd19; 0x7b56a0922f2c1a59; 0x72dfbe811ec6e66c; 0x7489a82d6bcca64d; 0x4f337fc2b901c3d4; 0x27d19b836a430999; 0x67997f171962a54c; 0x2f6689493df8ce0f; 0x44eba4f6769cab2f; 0x6643a9e02f559cc5; 0x4b6449796cbf5946; 0x1d66af34087c9b70; 0x4b30c3762345d; 0x7201c7b98611b9f; 0x2eaafa2fa04fc21e; 0xbdef807d4e2eec3; 0x55ce669b4a0137ae; 0x60655bf1cb2293c0; 0x7f84476df22a01f8; 0x4da2d7e6b690d160; 0x62ca0f83a7e21987; 0x33b365d432537e98; 0x781ad538b5a837c2; 0x26a60390350eab26; 0x7368edba186ff445; 0x4d9f9ac90914c21b; 0x5713727d1c441584; 0x261d643c484215e4; 0x3bc314eb30ea8a50; 0x50f4079bfecd8f06; 0x1340434101883800; 0x1139a3cede86876; 0x153b77a0ef30385f; 0x4ed74e73034b5b0f; 0x7feb575f62062b2e; 0x3a5045f88dc6e6bd; 0xcf1bde244369446; 0x698c44a2920d48d1; 0x58391427d79711d9; 0x432e380cca24ec3; 0x56626df784764d73; 0x26f9f1e3a01e82cd; 0x67b46a37568338a4; 0x69d93ccdc35338d; 0x1ced5d0cda97d09; 0x5b51fc755b7d15d0; 0x7a9c0e2323b86cec; 0x6b70f842999b7a10; 0x75dbe0e70d33dcd3; 0x6f0d3d63d41c3e87; 0x413229f9bf61132e; 0x5bb056ce92ed9d03; 0x23e367e2f5e89a97; 0x40dcca9d469347ae; 0x63ca2c89d5ef9199; 0x22d28299e949a6d7; 0x22a7d90b3051dd15; 0x2e075115b4e6269a; 0x64bb34357eb9a9fe; 0x448f1c942abc8cfa; 0x6fa7f73587db6c4a; 0x1054a54b32033c3f; 0x2b3b9acad58f7f09; 0x4ec6b78b9a57f7cf; 0x5ff65fe0375fb89e; 0x4d22b48334b28532; 0x7f94bfe417676f6e; 0x2886a2f4d0f49d2f; 0x74e87432550d8517; 0x3d5d33f9a59c8bba; 0x3a49c617e9f8052c; 0x3948261aaf874ea0; 0x7fb0c27bfcda4b87; 0x7fb3258d7bf71bc2; 0x293b9dee464ca7f8; 0x3ce5a982abb38f40; 0x6278f4787fc0419f; 0x1bf97ab65f1a264e; 0x58143603469e4144; 0x35dd9ebe567106d3; 0x67ec0a46135ad1c2; 0x3afe1101ca228d76; 0x20378e72eaceb0db; 0x753d12379431ef2e; 0x4c44086fe26c834; 0x7c7cff17db94c978; 0x15e4d4dcbe11771; 0x7087283fc8ffdce3; 0x54f34047f5c998bc; 0x430ba8e297b7ac47; 0x2901eedadac552be; 0x6ecbb3eb1e6707e; 0x2082a752371092b2; 0xf8765bf74dd2e8e; 0x737dec52369cc4ad; 0x5b3af2e0a0e85e2a; 0x728ff47f059efa4c; 0x1496800f04a4b4f7; 0x189756986d412362; 0x3152045091e993de; 0x661722f4b613b172; 0x2889ff4b956aaefa; 0x2720e71eac797bba; 0x6a46f00935da6b83; 0x3a8671b5da35984; 0x1be17ba76ff6b88b; 0x79465fde92361161; 0x73b4bb1f10766916; 0x2b449a73365d9ee4; 0x30e3f30c191855bb; 0x7869d2cb7e77c2fa; 0x72de3c7c72c5a10a; 0x770f5883b36c08b7; 0x309f12ddddfff6fd; 0x395918fd4103d3c5; 0x79aa08c85458f193; 0x4eb69d732f2d6a60; 0xc5a9b1a8a01b82b; 0x27bfcaac43193946; 0x38bf15d29a7f8e7b; 0x21d7752113794980; 0x57c118eb183be4b9; 0x18280e99f95b69c5; 0x473735d14db5824e; 0x611635321d0e53c1; 0x7a5d6bb2c99f7b23; 0x305d05608d20a923; 0x3ba0f6b519e0d982; 0x4d7d4f69c8852efe; 0x4667162ffd4629c0; 0x4cb3766419bc7814; 0xbd52c592fad9384; 0x405b4188ef551219; 0x74976e438ba3dd1a; 0x110909d169192df3; 0x6c879e7fcae908af; 0x1ce858346bb776a8; 0x4d2ff2ad70699400; 0x6013e5c9c47f3e72; 0x341e68fca097296c; 0x72125af461f0c6d7; 0x2b1d1bf37c9ea48a; 0x14f3d72d3f165fe1; 0x4f0bdbba83cbb7fd; 0x684fa12cb3a3df5; 0x62b888ca03af424f; 0x662a3444ea5d6aa9; 0x78f98b0760094d15; 0x6d4ecbf3643b7e60; 0x30ce162f61cf75a; 0x4abae2d6b9b78b2b; 0x29efdbd474deebd9; 0x51b698052babf2b7; 0x35f67f54f7cb1695; 0x6f6d5cd038d61dd; 0x7185dae3b8ac7046; 0x12688435813e5768; 0x3c2207d133292e84; 0x730f10f7fcea729f; 0x34c35d0b10f4f4be; 0x4f5ac5809410e665; 0x7303821b5706b125; 0x41f05aec9a639466; 0x5c7ed814f84d224a; 0x14a19f077a13cfe9; 0xa3b26abc7535eea; 0x65be285506b3b8ec; 0x26ed71d9d682d2e3; 0x16d0f93715b8d433; 0x58305e5f534ecb14; 0x48815f344f10eff4; 0x72233909745d2f18; 0x3d25c2be54f626f; 0x7e5df4330638873; 0xc2c831010294e0c; 0x57cca81a5026c0d8; 0x552db58fc335fbbf; 0x398ec738ffdcab4a; 0x4cd9b972661d5095; 0x4ae2f83b7e6bb2a1; 0x57e3c5f49ee30aab; 0x363efae3760d53f1; 0x3f595123276d07f0; 0x6e08987ab953e191; 0x36b0cd69b5e5ed18; 0x7a7424211ecd8280; 0x28d46997d6792a05; 0x31801637d967c6e1; 0x398790f85db97752; 0x17c83d39e20c0dec; 0x27402f68f082497b; 0x2036ab8f280d82e7; 0x18f9116ef92025a2; 0x4bfcebb8f7cb04cc; 0xd3fbea928230c15; 0x559a0d63136feb66; 0x27cf574e6d4b677f; 0x593a562f57e931a2; 0x2cc0a55a9caab441; 0x55fbd82a4a41b92; 0x529cb501f614f45a; 0x3f4648d40024b46f; 0x168912ad45966d23; 0x6d7f2b3517fecd49; 0x4bcdf2d7ac78876f; 0x601fa760884954a4; 0x31a965dd3de91bc3; 0xc687d9da37e7e0f; 0xba8aa5a21b125e7; 0x3022beb5b179deec; 0x10a34bd4c1017c8b; 0x277cadbdd6a9bdeb; 0x5303c475471fffe4; 0x67afddeac6b94cc8; 0x5f8f22b303ab1657; 0x23778bc09ea653c1; 0x1dc06b205058945b; 0x1d01fcf125ed7edf; 0x36438fc19fac0c18; 0xc97a2f3c2f3083e; 0x46a49669e0feb721; 0x635e5e4e67ff3c21; 0x5f80f3d15d8568e9; 0x60d0f2b7c4abc40e; 0x57a0575dbb8b9c00; 0x2388d491784d790c; 0x7d1ed03fe2aca3db; 0x398b49d4af5ff8c4; 0x5e3ebb35e8e1a87; 0x4ff3c0fcca98cd8c; 0x73196a2f708f4026; 0x6618014196e73021; 0x7135b7c7f0c677f2; 0x16bd93f15c601f2; 0x3b3ead5baa3f32b7; 0x60d80e9c2b691666; 0x706f6b4202ec06f1; 0x11706f1c2f08e735; 0x58d0a338a6d02c99; 0x5d21d2196e681ba4; 0x489f8be67219c6d7; 0x13d7ee14c40065fc; 0x2512da89a74b3fc7; 0x4f057130623b20b7; 0x5c231];
   [0x467b252f7edfff3e; 0x3556e7d05d2bb9f0; 0x1c3c3ba8516bd4b1; 0x6e789b62be5c8cd8; 0x6e293d06adf4c728; 0x5c33a71636d0e4bc; 0x7a2ccafb83f907d9; 0x69e588a3ee8c515; 0x3ff469a8cb1f8a10; 0x4cd26ad4ff37e26f; 0x60aa161631344096; 0x212de023e0606172; 0xe91059e4f5ec051; 0x1f0894699c1dfad2; 0x1d394ae5faac1923; 0x3f02c66358c0359c; 0x1556b3e8f18b0dd4; 0x5c6149a257214970; 0x8e7a07da506043b; 0xeaf08e8940d5911; 0x5bc5c11ab4ae7e84; 0x3a837a6bd88fa1a9; 0x2d5ed97fb67fe156; 0x750e85d6059c6bca; 0x73de807077e6ae55; 0x253a10f0d85ffdee; 0x64d7293b598770df; 0x587d59a85449af7b; 0x246a2db995d9b0fb; 0x659849b8f8c0385c; 0x1682b7480a7eab9e; 0x15972116daea065; 0x2effb4aac8a3ad96; 0x128ade22b80bf515; 0x2056236e9efda88; 0x37154e98c977d4e3; 0x69473a9f3a219f6; 0x3d32e86847c467fe; 0x764b11681dadcf45; 0x5ce659a9f4005bf2; 0x6235c64a41db9645; 0x57875d6fcaf14c70; 0x498ec3206b4709e7; 0x1d897544cd4066c2; 0x128475433f5ac0a3; 0x19c9a5415ccdd55d; 0x137b4023f239ee61; 0xa93c9ec66b15049; 0x49e4892ffcc4758f; 0x47c5c18dd104554a; 0x6050a2832556d68; 0x43b8d3553012fbaa; 0x63245815cc3d044a; 0x7e39408e2c4d1dc7; 0x3c810f9d04bf3c80; 0x7ddc840e058999af; 0xefe5232a7dcad50; 0x3ef1644248bac666; 0x48271b981a15af50; 0x112676ee931ff9b0; 0x4c8e7527c203e30f; 0x6a66fdf3b355d3b6; 0x2b0c561f113cd2cf; 0x26c2702df17aff64; 0x40c05cee26a58504; 0xa11278caab7c46f; 0x3014db89f0f40284; 0x35674ad7cb865ca6; 0x3506717788d14649; 0x4556053f300d2ffa; 0x2a4df5e1af4253d4; 0x135db443822b372; 0x6a944ac6eb7973f4; 0x5dcee60cb4f2d263; 0x67b4088fbf94d281; 0x363835072482a1f6; 0x33847a5faca7583c; 0x784f3415021f4605; 0x1f3a4b4ca97ad23b; 0x5bbf3825dac637c9; 0x70f7cad39d620802; 0x6ed082a027ad546c; 0x680930d53355e82c; 0x34e0186f52832bbe; 0x14beb74e4588d23f; 0xdc1778f5e1e2a3e; 0x5f7db6613c8197ad; 0x6c49c6160a3b13a8; 0xc6d0921d3bf7487; 0x43338c94a076f285; 0x24832499f7f80a28; 0x349768f481e5649f; 0x76d6cac14b80fce6; 0x7a49063dad9c5654; 0x32fe00d51d14e16c; 0x11eb1cf6f82baed6; 0x6dc244230937b15b; 0x5b8b43827b821f61; 0x4083267aa2cb4685; 0x14dcb9f248ae6e2d; 0x610ab8a28956ce33; 0x30efca93f9728005; 0x13018a5de7b7b70f; 0x6ef400ee9883a5d1; 0x36b8ac2181e40063; 0x5460b15c7ccc2028; 0x27b54d5296e5a965; 0x4a2b7a2e0c2f171; 0x142b08e3ef112496; 0x61643e7ffacb29d8; 0x38625dd333a0895f; 0x27c23be589995ad0; 0x45b64c6ad51cd185; 0x550aa5b0640bf3ac; 0x6646ae12512789e3; 0x2ee0147ffc78afca; 0xec7f0b08d41a8e4; 0x33b344193ae65022; 0x65d435a03d74ad9f; 0x50f902698bc8bcfe; 0x727807fcaa57874b; 0x40d1b1ef4933093e; 0x63344cb255b367b6; 0x412e9863fce3ba08; 0x65fd5a5fa5e4af78; 0x718d61032e9fe8b3; 0x6f9271231a958065; 0x90fb6acfdc61ad1; 0x76301d85320cbec; 0x21d478d3288de347; 0x10285732d4625f09; 0x2ed7dd35d5e6a088; 0x1fe07f823db13882; 0x4eb896d02e403013; 0xd9954a7c2696b6d; 0x28cb93dcdd7dd8d9; 0x1755d3d41ae711; 0x73f2bd03fd4596f0; 0x7486503853c9518a; 0x56b4d0e2ebb19d7; 0x6fcb152296f1e906; 0x17d9ccf21fd0968f; 0x74e9bfc24f60bbaa; 0x62313e338665b748; 0x56adfe95567c774f; 0x70c4f7bf0192bd68; 0x44ab10dc3fe5a21a; 0x14b6504f8bcdd824; 0x47025859c353dc5e; 0x4ee9546ef77d0664; 0x39e922d34511fb40; 0x557be371e263ecdf; 0x265892cdeaabb9d2; 0x2f8e1de7b05da4ba; 0x11404ad31c1fd118; 0x4e53f3d2b568737d; 0x707f43859dd7a561; 0x5e4104f0337651f4; 0x51f7d14067947457; 0x3d575ae0fbcd512c; 0x5858f8a7f0cf3526; 0x6c14099baacab56d; 0x63778d86599675d1; 0xcfbfd431ca20250; 0x149aef3dc7938c01; 0x425509b3668dcf7b; 0x714a6cd5db706781; 0x1276559a000622db; 0x1014f113bab1284d; 0x33e6cb67c3835d59; 0x5ea3b97eccbfc234; 0x4207d485dffd9ac1; 0x35c9beda2601bda6; 0x2d4a36f04155e50; 0x282ffac1cb80935c; 0x6d67e650904760e9; 0x5f1565f8bd53ae2c; 0x51408311990c0ff9; 0x26dd0f86b49b7dd2; 0x2995ccf4145646b1; 0x1695c93f09cbe8d1; 0x3019af82d1b4a490; 0x30733331247244ac; 0x63cc5bc13c35049e; 0xc876712b9493908; 0x45f871a908ee848a; 0x14e6b6337f6e8de2; 0x2ad45f300b6e4e52; 0x2c05b148dbf5d0e1; 0x6737c86be1c5464e; 0x3e14f04743c7bfed; 0x2c0a2bff634b1783; 0x553dfeb6a4b316bc; 0x6bfbbdf5fa35a5b2; 0x5d156ef6a4453117; 0x6d4b821aac940d38; 0x59fd96af8f0746c3; 0x1d0e967810725cb7; 0x991f179278a3d3; 0x34f7bddb54619430; 0x29ad13f60ea21a45; 0x2ec124b9c2e740ac; 0x721e047eace85b53; 0x28cb009a98f0123c; 0x7920171df1b8ca4c; 0xe1373e1cf869137; 0x4b52a868ca405e4; 0x40dd1fa316305e8e; 0x718cd8a130cec868; 0xeb16e015504018e; 0x7e5901f9df12e443; 0x35f10bd634a3e6d2; 0x5f8d57fa0effb1a3; 0x2296c72b14fb0a48; 0x4896d06688d07ffd; 0x25e63d0c0de1b782; 0x5ead0850fec87d70; 0x642e82c81f564a89; 0x25b389269fb99d4a; 0x49151f7e0485421e; 0x4c36a58afa6058da; 0x19f68aa1c29f546f; 0x63f30294459b72a7; 0x5aaaf24c51571ac8; 0x4733dc80f7a9fc21; 0x478eeb52e255ef8f; 0x2d3be428672d3355; 0xeadf4d5206d8021; 0x9fa64d016bb85f1; 0x70383bda12ffab94; 0x16d21b0af61fe8e3; 0xc9300918823edbb; 0x254374402b9baf2; 0xf7bfe01ef22158e; 0x158fc0c4d5538012; 0xaa1ad6b717bf2b0; 0x36dc73855a398460; 0x481f233764cdf04; 0x4918289505b77bb7; 0x378733ced30e184e; 0x4f0d4ebc9ceac8da; 0x4db4905ce2a654a4; 0x73a08cdfaaf09fa6; 0x92267c2142341b3; 0x281901c12cba777f; 0x1f1447734deb4cc5; 0x56e699349fa3c9a8; 0x4bea86439a7b9592; 0x103ea59af4b77f74; 0x3652569f946facd1; 0xee36a45d86f46ef; 0x3278a4b0f5bbd7ef; 0x42c359fa58b8a2d2; 0x5e9b62bbfc80956; 0x4ad3eec8c2b3d7a8; 0x77c4b17b25b8cd9; 0x6a76d4c64a15ee41; 0x3c41a3c2c72f1ae3; 0x32071143160337e; 0xb2731a9061b825d; 0x780500bbda8b06bb; 0x5f010729c5edd528; 0x2101289b5c4ff1bd; 0x747df9b6f8882abc; 0x4c1957fee5ec2324; 0x16ba78c094e73181; 0x7d8efd5b46c791d9; 0x7b692e5791735ae5; 0x2df03c9b84c6da0c; 0x6d578f175234f5de; 0x6f8b6379dd06dd9; 0x1e18db022260900f; 0x451a9051e88496fd; 0x665dd99da74eaae1; 0x4548fde362a9de0; 0x2e92843811c7329e; 0x74daa6db19dfbaa5; 0x411d7caa8d68816d; 0x51eaf4b19b65b762; 0x7efdc8dbcc54610d; 0x299c21638275e889; 0x60aaae8b955c5744; 0x59e3ef59bfea46f9; 0xf5750e0b1047590; 0x6a4818c7ec725224; 0x50665677ca42abc8; 0x2d70afdbe93bb8a; 0x6209f331ffda3015; 0x4af85309e94e57ae; 0x41b1f2637ec6879f; 0x39a9196031b36904; 0x7586c294f6ad78f7; 0x5580a546c94672f3; 0x4f0517eddec511f5; 0x46b26521a17395a7; 0x273ed2ddd83843b2; 0x5b9e2cc1e4094d67; 0x1d8d94d6aeda5c31; 0x30c56124a4219513; 0x3c7df6c16364eaca; 0x26bf44e6e113ff14; 0x2d7378a81e43c676; 0x77b477bb7b98bd99; 0x3e534c5cd7be0a6f; 0x58515e63e1d6919f; 0x25605d14b9676e1b; 0x25ccbe094901ab66; 0x5bf6467a31c5d5f0; 0x6daf5ffd2ab2dfa4; 0x605de97bac106bd9; 0x1a5aa17357853220; 0x588a19a6b80f6f14; 0x610012e1eba1668e; 0x73ccea6adce52010; 0x6af447e5fe9ace71; 0x747b1a049f643c7; 0x3207b63b1ee96e65; 0xde24d];
   [0xc5953aef3460283; 0x433516e409671ffb; 0x61ee32f04eb18371; 0x51ef932b7a0b81f3; 0x1428b4691d28e9e3; 0x27d5cebdf22dd231; 0x5d3f582b38ce81c1; 0x114132063e7ede4c; 0x14aa2f3d19690784; 0x747d173dd66bbe69; 0x42f48b5f414db239; 0x5ca035940638c8eb; 0x1d20a0f78ded350c; 0x72847561b752702d; 0x2b837c0b93070e89; 0x51d87ad67ac6599e; 0x66057ca5da33c282; 0x75dccfdb4ccbb571; 0x4f282ccd8416ee5; 0x32ff9d84cd8b058c; 0x317b56dfdeab6605; 0x7327463370b1dd98; 0x3e5502658fad4f0; 0x953470449eed8cc; 0x63b1133ef9b681f5; 0x1d872435d2a19683; 0x5d4db57278a23929; 0x59c0f032d288e1bc; 0x11d29faba170cda; 0x63f6b0e747ebde67; 0x34c559fe34e2bb1b; 0x45263e8749396a4b; 0x6a5d531b74db2552; 0x4a57c113d922395c; 0x73a64a4a560afbf8; 0x7252d88259ded009; 0x748b26711f51b702; 0x5bb7fb1ea34a0e23; 0x25cb23192774560f; 0x5a967e777aa2d451; 0x8f2220df9f98650; 0x4dad2db1f6d9b406; 0x42acc94f92808249; 0x7318be573f627ab8; 0x3813ffa363b486e2; 0x5469635ed9964f05; 0x168d17a60b5c8fd; 0x6cc26f324f1bae2c; 0x69bc0a3cdba5ba35; 0x329464ee86ffb3b4; 0xafe9d056f898da7; 0x31a0dcf215a6b1ee; 0xbe721ec10a697c4; 0x91ef7482e6c0d7c; 0x1408f65f9a3dc60e; 0xe425b7eddfe4af3; 0x3a85a928f9d0ddc3; 0x459ec39646683026; 0x679bf46b161b678f; 0x678840402fde96d3; 0x69a743e7ce9b6610; 0x42c7e26e89422bfb; 0x7edbf5cad5108a1b; 0xabd9f0108975ad2; 0x363ad0e7dfa7eb6d; 0x4c2991ee8b821ab0; 0x1bb0ca800eb12f4; 0x12b2d821602bd30b; 0x22afd4d4fe4ae577; 0x10c97aeac9e07377; 0x1a1d6e6662803f48; 0x50d21da26ee72c2c; 0x6a180c44f1785c9b; 0x336c45beb22779e5; 0x2210845eca0ed20b; 0x7f18614c27749f36; 0x4ab021e6fd55c97e; 0x7798cc92ca816b4a; 0x2261a5ab06f387bf; 0x1796d8685ec849c7; 0x72630353ce66363e; 0x79ffcf1475a0f46f; 0x6015b28c5853507a; 0x47dc3aeb9bf0aa7b; 0x3942d5b54f6cd3c4; 0x5e4d97fe69d0dd9d; 0x7fb4a8371a2bd59e; 0x4f8fe7c58692e75; 0x575afe0877c2b037; 0x6435ca6c9d38eeda; 0x4e28fbcaedff5f62; 0x51c34cafb8ffccf7; 0x4547618e94106146; 0x4d560d6599bbb0cf; 0x671847c31cc0242e; 0x3665a49f1e0ebe2d; 0x5911e6b811c9eb5; 0x238a34cbc1525c8b; 0x72c8f054ecbd78b4; 0x2456581cde96872; 0x5d6b1d88a7057304; 0x77beb75d8cd17e38; 0xb1b3030b9c57313; 0x1f4b7edf8f4d8a3d; 0x49617321693ccdf5; 0x750367ad319d9904; 0x7e838c83f9f43d8c; 0x36a61ba16c8c1267; 0x6c9eed955e0aeca1; 0x4f06e6c4317aed27; 0x34f9a34455826f01; 0x1ad1d4efc84cf7ac; 0x77e370a3d179032b; 0x4474c56df81a54b9; 0x16d0bf52a4b77884; 0x1f9ecee87c37423e; 0x3e240f4442a07c06; 0x6cc3a4168d4801b8; 0x706a9af52ce04d0d; 0x47a0ffc92157e674; 0x28dcfc861b945b13; 0x6fbd61b83db8ef28; 0x560c32f1e3e97eb1; 0x16e94f41d8727fbf; 0x48d1564ef5845081; 0x5200b03a792d0101; 0x583ebac304e854ed; 0x3f6dbf80e939fbc1; 0x2136f04f1dd63009; 0x5a0d8e72157aa199; 0xfc4686bb7f3288b; 0x322f549178f9fdb2; 0x644c717ffae324c5; 0x382d0c9aab0828ae; 0x7549200dbcaba6e1; 0x4d6cc9b731d983c2; 0x7a391c487385c578; 0x2cbd5c98b51b6c64; 0x279bd68be9b0f41; 0x78aab4e1196283f8; 0x16b29d34fc47ca87; 0x34e83e48abb3b30b; 0x4b18db33fd71303; 0x36354b45c8427670; 0x276a482aacc9d34d; 0x263e6dee7b7af26a; 0x674b0c190d05017e; 0x51fb6badee871acf; 0x78689330b9eac27e; 0x50af4c70d575efca; 0x3051dbded0fc4ec5; 0x2d79f9408c694b16; 0x65f4f8fd599222da; 0x1e35c5a2729cc634; 0x5b10b1c7d299d0b5; 0x3c95056c27081e88; 0x23e3f9c69a1f49f6; 0x517f2604d1d5474d; 0x50d54bf5d7ba80bb; 0x252929844a552c7e; 0x2a27f38dcaa65d4e; 0x1d6e7594e8b38388; 0x5be7f4bc592c404a; 0x388bfabb231b7503; 0x5235a96af57e7046; 0xfd599035e06b19; 0x2efac226f595b2a0; 0x6ac2ca1eee834b4a; 0x79b513b1972b48e9; 0x23d97f976a036306; 0x2ebcd41bd007bbf9; 0x2303ee5ad363780; 0x2ff11022cf83d621; 0x468ce74da80388f3; 0x7757826e533ee9a; 0x53a4e4ff83bc1673; 0x460b0d30a7aeab65; 0x6798c74c4395daf0; 0x72ab0c8456bb849d; 0x282a25ae9819ac44; 0x77fb5daec52650ed; 0x91c0d8fcfe6fa72; 0x6380f5b6394d3092; 0x2a5903e7461e37b3; 0x6e8d06bf0e355720; 0x33206c5acfabf92d; 0x55b83a27517cf87; 0x12ba19ca73fc2310; 0x37e7813e206d5bd4; 0x1387a8b287a96547; 0x78383ed7c417d4a1; 0x7f53aaf5ad09b61c; 0x2b758b2e90f65659; 0x70012036d9c352f4; 0x1cde752bd20097f1; 0x22bc87a066874fab; 0x488fff447c6e63c9; 0xad103f7fa2e9939; 0x7ddf1f1380ff73f5; 0x4fa89594e4cf74c4; 0x736d1b2c661aaa3; 0x2211e0dc1bbe2dd8; 0x40acc4d67a6ff8f0; 0x3f9d49784f5ed39b; 0x983fe3fade8f98; 0x4baf9362313fa1d9; 0x4dc0bafc0da44968; 0x5d0246635b31f52f; 0x13a5e1d720e8c488; 0x3f9fb4670127b5a; 0x452ca9dee11c67ca; 0x1a44deb3be4734f; 0x17eb8617e45f9c4d; 0x78cd66efec26aec7; 0xae7e1c30ad3078e; 0x15ef348cf0ca8f0d; 0x1f4311915b182dd7; 0x3c3289cbeb7183f7; 0x22efda8db23aa183; 0x1e6e49345aaea587; 0x1255d9fbf4af9354; 0x5f81f855c5c7879a; 0x511ee4d23466341c; 0x4b764f43debc74a3; 0x1c900e1ce134be0d; 0x3a17ebe4b162742a; 0x51cb3a779836f168; 0x6f79b690ce2d6689; 0x501bdd24df175c7e; 0x533b36010d5db8f0; 0x5e12f08a27a63bf3; 0x746362025ae40edb; 0x4d960d297f1da634; 0x65ede21f4ec63f32; 0x2b1300c2fab6ecc8; 0x3376252d464b2865; 0x173b0a292d3d8c87; 0x696dda323a16d2f3; 0x577a68d454899724; 0x50429ba70c4cc9f4; 0x1cb0321791ef0ce4; 0x7e056cbaaad35bac; 0xf210a20155f20f0; 0x2201804465483161; 0x2a7f9dc179696c42; 0x3f2d4e92404c9f72; 0x358b01f83175b1e9; 0x3512a744fd010516; 0x5e3cce277f150b24; 0x71c819d39a5aa25a; 0x63bb5b89dd2cc59e; 0x134102dff0cf6a86; 0x3dd99eef838f457f; 0x30ec1f120e1d146b; 0xf1ba3259e69ccb9; 0x714ace0ca5183fb1; 0x75f099d300c3124; 0x944ada7c2b5ea39; 0x5aa7ce0e43fe34d0; 0x1d1ea134faf47c45; 0x525ba7e10d7f290e; 0x23e8ac2977976e7c; 0x722602573c22faa5; 0x62faaca1589e1cd3; 0x61bd93cf0e08244f; 0x5147c45cc9bcbd94; 0x2b14caad72ac89f5; 0x1b08f1a26efb528b; 0x1a2655073c3bc2d; 0x25dd55291c05c609; 0x681d6f76c3ed14f4; 0x5a94d74509311011; 0x64233471a9fd97cf; 0x30040d77cb681c68; 0x61940b81aedbea02; 0x98da38d62379749; 0x7b734cb407318a1b; 0x17b517dbda905352; 0x4b89a0b7889c3d44; 0xe2cc5e3668f0de0; 0x48ad5ff3c250faba; 0x399ad9f841a05007; 0x21ac049aa17b4f28; 0x4927cd751cff095c; 0x5915e5deb9354ac6; 0x2d0bfa008cd338dc; 0x366874dadee4c3d5; 0x78f050338b976588; 0x6e3589b171d4738c; 0x5839761f7c587118; 0x1248c5f66ea6554b; 0x67568594b96ff7be; 0x60011682de48ea14; 0x2fb0f43d25861b86; 0x2a940d8fecd0b66e; 0x4ba01ca0aff74228; 0x187679ea1c320472; 0x1f465079d921ffb0; 0x4be7b4bc39c6e4d7; 0x2f0124a5f0a887fb; 0x2100eb4018ebcb8b; 0x8afec3fe831a821; 0x149b34be9b4c78a8; 0x5de2e0b9ff24325d; 0x2bc9fd90375f8a47; 0x476e80fd12b3987; 0x1d2bb8ae59968ba1; 0x3e492741f8aadeca; 0x3853f5d656f8af3f; 0x50de758822cc6128; 0x19713666dd0d639b; 0x48227c72fbc7a4db; 0xafb93acd6b530d1; 0x50c0e181808ac497; 0xccfb7c732192e33; 0x7e1a415ee13c8894; 0x1272dbbc8c0f5d0a; 0x2eedcf];
   [0x33811acb8de97f6; 0x7fd73c314cb4943e; 0x982186731f13da4; 0x6a2cf653d0ab6862; 0x47cb61b350c1fd67; 0x68b01c3c76bf6e2a; 0x45f99ade841bddcf; 0x56bcef9b8e8fa284; 0x240c04dbd831fc4c; 0x49210347206ebcda; 0x213ae69d7c92e85b; 0x3a8a0ab8436256e6; 0x2891c7d36b50d1f2; 0x66ef4a6e9971174f; 0x321e3988f77d5ccc; 0x72559d2bea5b1aa0; 0x48b09676e5e632ef; 0xc4e3e8ee85f46c1; 0x1a6d561e764f9af; 0x3c641f3b6f5c4f74; 0x4d28429aa123c13e; 0x7002adb35fd048b; 0x73121ee103ef4c84; 0x384c993ee6ea23a2; 0x45b7dcf94a1a2564; 0x252e5eed6c53655b; 0x7c0455a7e101d68; 0x18c3d4c8384cf4ea; 0x12b4ecdb47491398; 0x54eefc4c9eb83d6e; 0x45fef418c3a9840a; 0x50d79569e15ed8f6; 0x478c9b459ea9be76; 0x475431061e8fe73c; 0x64163a3a4d2c2dbc; 0x4561efc9f75ae08d; 0xdcbd512368c976b; 0x734f6fab587aaf91; 0x5364b18bcbd7f70c; 0x71d61082d8802d85; 0x3b41ee5a54c3d054; 0x257125e4d6567e6d; 0x1c760e72feee5dea; 0x4fe1bd8c86d402be; 0xf8801e41417a083; 0x5cc300e1f4cf0a8b; 0x3f8c2a6989f67dec; 0x58897a5b6770aed3; 0x444ce47e4b44eb22; 0x70c49dfedef2b357; 0x2ac58b1d002c861c; 0xe1a1e9ecabcae5; 0x3bbcd0d0a41a1c9e; 0x197e94543d105127; 0x7605ab9c6b22e0b3; 0x50d5a8634f65fef; 0x36e25423d6ba9c; 0x678555b1ed8cbcf2; 0x2176fd8850f0f218; 0x594d71757a0044c3; 0x766a4b056353d3d1; 0x5d31b5b361e9294a; 0x6918b07c35c04953; 0x7c51b0d58453efa8; 0x7e8217bdd09e36ac; 0x3d2e7e7db4e573ad; 0x59a1e785f6f2e4f9; 0x7ad87b35407ab5ba; 0x165a2b2a290c28bc; 0x6ae934a5a8254365; 0x5ab6ebed8729765c; 0x66802de0cead7065; 0x7aecd79cbc86c589; 0x2e13ecac4bb52945; 0x470ee122bc4940a9; 0x7fd4e219cee30b10; 0xe343e8a26586788; 0x417b12fe50692e10; 0x59e4234f6b66675c; 0x72d17f95ef5c00b1; 0x5f1699c1b2379f1e; 0x5771bbf6d41eb7; 0x7d78f9b9d172ea6f; 0xf7f7963042f7366; 0x6e7046f2756b6f94; 0x1b22b805b739f6a6; 0x2bfa9bc7f47a3a9; 0x561aa1fb42adbcbc; 0x4d05fb5b17950bcd; 0x12d0ded3b41782de; 0xd8f7104a5bdfcd5; 0xb213cc6e48f9d2d; 0x2e41e5cb2e8f5b3d; 0x4874cb65615dc43b; 0x78eca55ad7a519c6; 0x40400c35d404577a; 0x183447f56f48abfa; 0xbfcc88166552618; 0x75e70c6cef60dab5; 0x35acd648504286b4; 0x338f06294d6d7735; 0x680014669709d816; 0x27645dbedd5d8df1; 0x646fae114e878f94; 0x25d669e04c095d50; 0x7f13d5fd49c3e625; 0x700c3a1db3a974df; 0x3d3795e8609eeaf; 0x494d0ecd98a63cdc; 0x464a3e24b21a7c4a; 0x466471e2a3899b; 0x143c6ce4aad940a7; 0x7305b694b5e3b4f0; 0x4e7ec35a4b3b97bb; 0x1c9104f03d6eb2cd; 0x6fb64d65c26888a4; 0x38ba1600d9984dcc; 0x6813e04232dd972d; 0x18bc090d4098fc12; 0x3cffe213acfcd7dc; 0x39ea3eaace0af6c9; 0x39a98de796228fb3; 0x6cbc4bde354e4666; 0x355df609b6b37001; 0xe3d86aadcf58ad0; 0x4b8a608340273368; 0xfcef98ed9b79821; 0x3c658371ca997c5b; 0x1722e1631c70b43b; 0x8408e0c0a448e09; 0x470082edaed98806; 0x70011a8a2ece947c; 0x2b8ef588da36cda5; 0x5e6fbefe5df3ab2f; 0x7b16b958ee4025aa; 0x4986d72e8baaacad; 0x203765cf862028ac; 0x1898762660dfdffb; 0x112e13a1dcd7a197; 0x58285084e7a49353; 0x11536cebb2101026; 0x170ee4a1e2e6ce14; 0x1787766b848f97f5; 0x2b594d14079ac286; 0x1a7f250537f929f0; 0x6ada9f0a7e3a00cc; 0x1df36ba3d9b4140e; 0x7057311d37b1db82; 0x7d41236a74e49093; 0x2ce021e0fabc0c2d; 0x6424a0fa4cd962e7; 0x5bbb3e72e59fabf8; 0x3723c6250db2d57c; 0x112afc6a7391be59; 0x56657baffa5d8e50; 0x591dc02834152a27; 0x488b862d5c73ac68; 0x58dfd7608bfd552f; 0x4e27a47663de2a4d; 0x74d2c2037daa77eb; 0x685bb4170b55c96d; 0x65beede5063a47f5; 0xb466f363c2f4355; 0x77dbb6a4ba180836; 0x74848781f23fcfee; 0x15088b7cffee071f; 0x3fcd848a2235f9b8; 0x3508b0154b1d473e; 0x10da847baf5b1230; 0x142d27092c3bde5b; 0x1132e362b497da3e; 0x6d89a05dc57398a1; 0x4c778ba37b1a03dd; 0x5d3b3ba65ae16493; 0x5005a111fd404dc2; 0x2b2f88a750a3824e; 0x471d405d62db4267; 0x68da6b9ab36ee93; 0x1129170ceb5543dd; 0x3c20dace02c14656; 0x66f78f322a942cb8; 0x50cda6157a2f6073; 0x6e58851ac336c5e5; 0x4bb8c2379f84d74b; 0x708fc3d88a5efa96; 0x6942f8c0fa7ee50; 0x4e06b7ea377bb807; 0x7160cb7dced08718; 0x4a399405f92a075a; 0x40442dcb44774107; 0x3ef0507ba2b64b53; 0x5ce46189a0d552ed; 0x118aeaf3562fae8; 0x115a602e27c88466; 0x3fb70363a6417af9; 0x5d187ec9e4dc7068; 0x59c7ae0a4cfd5dad; 0x6b16263262ef3309; 0x635f651d4436a57f; 0x2acc8736f3e22615; 0x2ba154957ac407a6; 0x268537a57f938da3; 0x778fad4f6678965; 0x4d429a66b021c2e7; 0x7504334df9faff98; 0x14ea9c2226a94c0a; 0x6a3b25a180b85035; 0x3664ef5430d64b10; 0x6043fc297675e675; 0x472b4338ffa486bf; 0x2fc223503b0ad434; 0x62731ec705c15d51; 0x1782c88892684c91; 0x5c56a1302edd0ea9; 0x19fa8d56d69edc3b; 0x3e8afe19adbfb05e; 0x59c7f26f20c6d055; 0x689b87401857da24; 0x346ce8cddcd3c952; 0x4002685e6865b4cd; 0x5211a2e97ad0d782; 0x616b93552ac63adc; 0x30b10661d67db59c; 0xfad9ba529816cd0; 0x11cc808b926a198c; 0x90e4f3a4722430; 0x205c10bd635aa1fd; 0x64f4d72663fb36a3; 0x5bef40e8e0c30674; 0x5b42cb0d38254302; 0x4b5bf2f5ce0e9941; 0x175b47f95b49d133; 0xf701f1af3200793; 0x12f84c966e115e92; 0x7a211c795f0d4469; 0xdcc7e8b0a43536c; 0x2ed829c7cef06580; 0x3ee7acc88a71b5a2; 0x28f87daa36d7c897; 0x5c742e8faeec3762; 0x4b84d51eef8cb7; 0x8ced92579d5435d; 0x74540f379dc69f85; 0x4dccd48ed1a8882b; 0x17a60dc40c7598d8; 0x61c3e84dcbb01e97; 0x74d154b2dfb7edc5; 0x5ede76eb7ecbd34f; 0x12e5cd40b3bc3a25; 0x53957660dd66fceb; 0x7d5882bc6ca61a94; 0x6e8beda354fb1976; 0x5a165676dbc59b5; 0x44d6459dd2642758; 0x1f2a48793621bd1a; 0x162ee9c90c95b46e; 0x5e01f501c28338ab; 0x7b49c6d53ada4c5f; 0x25f2a4aeee955336; 0x68c68d68326762bc; 0x6a427113b833e590; 0x37591dec324635fe; 0x50eba637c08b6bc2; 0x7ea960a6fb981f74; 0x16be3853c9f7bc8d; 0x5215606aab952797; 0x316a1a380bcd698d; 0x6ecc3b0a1643d7c4; 0x1a47bb45ec926042; 0x4d686879d6f29e05; 0x752f4037c0a815b5; 0x662d730794cec31d; 0x391a4c7193e12a6c; 0x1474f9d7246befe5; 0x3a3bcfc64a3b227b; 0x44b44764d3352c1f; 0x2a7e4773bb7bc7ca; 0x39099d35e36fef6d; 0x6487f569fb567f79; 0x49c2a12418ac9acb; 0x28c43ffafe041508; 0x5479e27425ebd4a0; 0x311e562efe9604be; 0xa5ddf71be049ed7; 0x54fbcb8b53e6a55a; 0x2879b921a10bda99; 0x57c3f3a2f18f5fe; 0x755b80cfd10af034; 0x7435c94c9ca088da; 0xfc8741e714bd372; 0xb148b6a79cf5bdb; 0x2bca66dc1e76e5f1; 0x786b347cce2f1575; 0x3d56cc3776926214; 0x4fcc607005b81a39; 0x183a4d1737789f6e; 0x51c7117fe3817304; 0x5e3e248efa1b6c9d; 0x20e0815eecc6378f; 0x58bdbc8a8a1951db; 0x2edb512c8029730e; 0x6aff1a11d835e6f0; 0x5e87dbda2e292c0; 0x7027f43bde834073; 0x7134ece4421ef3c2; 0x28e63194c235ff1a; 0x228036c86b80287b; 0x7e78b2af409068e5; 0x7d6cca11e94f9dcc; 0x21cd4f8d5791155; 0x7f8b92b5132e39df; 0x626cc8b8ab17eedb; 0x1b5b66d3aba123bf; 0x69b6bf98899be61b; 0x6f5b5ffc68e251b; 0x1b4db5b36816b892; 0x2066b583cc588808; 0xc4b4c];
   [0x72ec90d5066d9e1f; 0x1020f49816eb9342; 0x4199b1af7ffde5ca; 0x657c6ab6a1d9e41; 0x631a6f00761d5a8b; 0x754c89776ad9be31; 0x30fab46a3132aea8; 0x4f2af3b33cd2740e; 0x60d1dc5a652ca6ea; 0xcba91bfd23a925f; 0x658ba125b1d6805c; 0x1a7cd4ff4c551537; 0x71b9339b86f582fe; 0xf98d7d64aec3494; 0x15ccbf05cee50700; 0x38a4b292e24968b9; 0x7e18a5daa9aaff3b; 0x15df0e0e854e260a; 0x73f08a2b4a92aa98; 0x6a77df1930dff755; 0x462ab4c1274a9f4a; 0x2c74890473818d53; 0x57e8f7376e55987a; 0x2cde6dc4d3e46244; 0x66060a0b592a7a4; 0x69e6eb879397c356; 0x648e38476a2d2b5; 0x151b45d259878624; 0x619b26e75445c997; 0x1562f929f7d4ab99; 0x778b02418936c0de; 0x237cde6f12deefab; 0x3641d6d4fd475850; 0x2843b307e13c6ac7; 0x229c5e958915681c; 0x5874968273b8da00; 0x725dd887888cb60d; 0x479b417502368cb4; 0x287fd0ba70ec075a; 0x3692c480f3670c3f; 0x3cc3cf6f692d0aaa; 0x7ed1903373e44423; 0x7664347c0dd673b6; 0x64c91bd19c9395c6; 0x35e65f6379e59040; 0x59d2b9f56a5a4c1e; 0x70149f9b5049f6dc; 0x6779b0a6e517aab9; 0xa2bc2caafe7b42d; 0x327eed1e829c9aaa; 0x82ec0f86b5f3688; 0x72f6dbdec1029133; 0x4e6a9b887b330cff; 0x9ca9e14759cbf36; 0x6aa54c3a636172e9; 0x2dfbafa0b522c0db; 0x3c6c32d587c23fd9; 0x7c7711e692d0af23; 0x3831390c97fc08d3; 0x6a48ab0fbf576e6b; 0x311fe14cb3e28750; 0x597e2c76e8b4b395; 0x1bea6ee67625413b; 0x63fdbccd80ce844a; 0x64f3a52fe6d514df; 0x2503cfe6e95ad57f; 0x4b356690d8f693da; 0x3818103caa68e25f; 0x1bad98c575d701df; 0x744169b456cb4fc5; 0x2035f69749af83be; 0x4357b2c7d2a6fb3; 0x7914baac40127c4e; 0x1d8e30777b108ec0; 0x7d0de3fe58a4e7d3; 0x6881b3854b05ecd5; 0x6c7a6cb0caa4203e; 0x17f00ea169840126; 0x16f55254199c3c88; 0x6da80a5f47e2d43e; 0x7e9b957ea4951b2b; 0x7b2ef4eec4a8973b; 0x41c5e658399014ea; 0xa15c781459fba0; 0x23231d7e0fa17e0b; 0x253a4b171b5df718; 0x10c0075712eedba8; 0x56e15d645b99b089; 0x640018830f34da62; 0x3f56fc9bb2f0a910; 0x1ebd5db760468cfa; 0x4477cd115e851404; 0x30ab5375263d7a28; 0x5321478efb2b76f4; 0x70660619155fb424; 0x2533364c57d6be1a; 0x36e5c724c82d0b69; 0x5dc15aab803148e5; 0x670c0fd1020613c5; 0xabc266b3765aa52; 0x56832b6ff68aef54; 0x7d12d804b19ed827; 0x713978e028b53e17; 0x45ba81b660da87c6; 0x29688ca3d45e38f2; 0x1d9abf5d6e10f8c2; 0x16066509e053b4e8; 0x2a72c488ad51da09; 0x6b3cee3519b004d3; 0x2719e93dd6966586; 0x13b87a4ba5a23588; 0x209df540d24bd8b; 0x503a834d315ccef0; 0x5e9ee71ca3967bca; 0x23eccd2b04bcfe84; 0x5632db90b5edb946; 0x38a4a33795573c12; 0x4d0bf29b70df7cb2; 0x4dbfb5c7bc401928; 0x6dbd1c5eb78005cd; 0x6a63fc89fd98ecd8; 0x14bbc390e78bf1ca; 0x184af1f4603fd0de; 0x44325a140012603d; 0x28483432c729a2a; 0x77b2e840aeff3e26; 0x75cc942256bf35ac; 0x3519e0ccca501d0; 0x1204ebddcfccad37; 0x445188a713253b49; 0x7c9feb7999f71df9; 0x52246d3a4f020588; 0x3581021bccab8f59; 0x5df1618ed183965e; 0x55b9da89d6d5b83c; 0x7d48c47a1157dc4a; 0x3f64fafd2bcb8c37; 0x164c13677846b97b; 0x34f369fe606269e9; 0x7b89e07a74db1cc7; 0x7acccb983395ea3; 0x12c42cb4c32456f7; 0x6a4ddd97e39110e2; 0x3345152699a3bd75; 0x246bd7538beeeead; 0x2195d07784723083; 0x4f840ad160cd103f; 0x4ee5c323f0e997a4; 0x40ca4fdb4b99681f; 0x41744a3c2afe85ad; 0x23c8fbd7580d35c4; 0x70b68780bb6e1b3e; 0x2a357b3589c0a8fd; 0x36de5b5495300e42; 0x4bc264d47c709c0; 0x472c9a5dea8f52ec; 0x7e0bd29ac9525cb2; 0x139ae779b00374ac; 0x3743294f5ad3c5a7; 0x5a4b3d2995349401; 0x29aae16bf70a4ff2; 0x9b3b8cbbce523af; 0x1720deff4e2caccf; 0x5ee556ef3ac02a5c; 0x687968311ec1a003; 0xf2867ae31bc6132; 0x7d4044b4d9519bc7; 0x11e92f30c686dcb5; 0x67372eb81c79cc50; 0x685a916d19cc81cf; 0x1686012b723005b8; 0x94338e5435655ae; 0x6ae483b9f65cd0ec; 0x3c8aff0d2873ff37; 0x565440324209c316; 0x26ddde639f926d46; 0x2680e6c610c6a0c6; 0x52247e240b7a7e7c; 0x52f473c3bd09342c; 0x473eccd3b270a5f8; 0x12318c286a449468; 0x228cc66e24738a11; 0x6de69fe189c43be8; 0x22408258c4426d27; 0x19a4b03272daf712; 0x385fb6fd2cbb3ccd; 0xc700a7407bf2fe6; 0x3e3c24302728e25c; 0x15a3163289633bb4; 0x65910b33078dd537; 0x504b4219c0463e8b; 0x6d5e645fabca0dfd; 0x796915edc41f5e9a; 0x63f92908ed1d2220; 0x3264f05702ff8cab; 0x67113354f97d8912; 0x315ca1220b81a60e; 0x7ad7a2f44f08d09d; 0x186f37b483b0722d; 0x7802e3ae6bdd9a16; 0x5375c406e3a1d5e6; 0x6eba0b2183be4b27; 0x2bebe625af721ea4; 0x741be3397f18384c; 0x38479d93646fee87; 0x20702f969b6c0fd9; 0x1af6fafdb89bef6; 0x5afd0e6e40ae19e9; 0x62b3c07d07543c89; 0x60d180e2945670e0; 0x3e34fd64805bdfc8; 0xda8a71f07d4f580; 0x1a2febd40d9cbf50; 0xd7a84e5cbeb0a5e; 0x1daefe2dcf6d64a3; 0x706bfc27ea90617f; 0x79f9b4824c5073e9; 0x45be41fea3f134cf; 0x2e9eac526e440087; 0x132b7347d5cd3f1; 0x71fb43dd356c70a2; 0x5c565437b3f5bc16; 0x79178b95fdb8d64f; 0x7a0ae3e250760701; 0x295d3fc4c7d06759; 0xd015d830a1fb582; 0x6828b93b0aa5f4b2; 0x2b4fe86f05a1c80b; 0x2b76524c2ba9abbe; 0x1fdba412483188c5; 0x6213ec04e74491bb; 0x54c678cdb813b1f6; 0x35025df7ab475540; 0x6b98dc2d307132c3; 0x6667287f8e8b3e1b; 0x40282616504c64e5; 0x222a7a57c16cead9; 0x2a168d33296cf92d; 0x1dfceadd1c3e77c4; 0x2d15b8fe1898cc94; 0x566456ce3611c033; 0x1798901bdfacba38; 0x7fd5bcdb36bd2af3; 0x7effd449f8806426; 0x309dd7d59804507a; 0xf07c640fceda131; 0x2285f977f867a87a; 0x6588d52d564e2563; 0x6b580a933aab7114; 0x7b415a79d4b4aafe; 0x2e0173f69d2b4e86; 0x25a50a4dcfca1905; 0x3e66d39854d9063d; 0x346ff94ee73a740b; 0x703d7b3be107d536; 0x7b208dc8e10ecd9e; 0x66a91b7b2c7f8ceb; 0x364ef6dd1edf183d; 0x72408a617ceb86e4; 0x44a8762f7bb73d2f; 0xcc031d210ee2aee; 0x378c2e3c69993279; 0x38962f24ca9662c7; 0xdf39ccdb82c480d; 0x6a0de89078e61ada; 0x3021ee7dd62ec01d; 0x276289c2660a8517; 0x1065dcc87f9944ee; 0x4d257f4d02727ea9; 0x625acba6800e1592; 0x25cfbc133b359bab; 0x6a91d6156aa44b24; 0x5cf4acce199ce0f3; 0x652f3cba2518c6ba; 0x7658e69938e9d6fe; 0x78104d8f17054427; 0x39958c4b479031d7; 0x12c38e5a8080848a; 0x12852f2a01868cf0; 0x48879be42106caf9; 0x71c0901f915d1ad1; 0x19c0bb6230e6c26e; 0x4f1bc6b4606dedd3; 0x48b6e0c542eeec7; 0x5e3a51d6d08109a3; 0x3e1a0a451f7aeaf7; 0x2571e787740acb0e; 0x92c2c08e721c992; 0x1753e15751646f42; 0x7653905afff33f9a; 0x3c2f446c2fbc53c0; 0x7dc0d5baf5c26dbe; 0x39acfd48b64c0ba9; 0x382fd3ffe8457afe; 0x1a3ed064dff3f6ac; 0x58d794b1772d4239; 0x31956851d498d701; 0x3e767e3672508054; 0x6c5316ab7bca06c9; 0x5608a54f8771cfc6; 0x76ef75f7624b7b38; 0x546f20bfaaf5137f; 0x572ae4c970190944; 0x56ba6cdb3ad84dc4; 0x1c5b3e246a31eb5; 0x7e02bd56407cf9f1; 0x255889875b09479b; 0x3f8ee13ec72a80a9; 0x567422ed6c4b2211; 0x25f320896a28ef5d; 0x66d8a87a6c0f2153; 0x7f4bed4366b0ac72; 0x2874c58357b77b22; 0x775bcc2aa74b371f; 0x143642c21733736d; 0x246729498b4e3e61; 0x3a1b2b826dc0dc0; 0x19c2a5];
   [0x7188f10733672a76; 0x696fa045f64bb6a8; 0x30c317deef87aab0; 0x66ace430c76578c6; 0x38e841278e141df1; 0x62e092fab60d9a4d; 0x50946a46de47dcd0; 0xd2c5ea36835d2cb; 0x6c42e9cb3e2a6121; 0x4240b796f6fb1b6d; 0x1ba0170f47020bb1; 0x1304285b696bed8f; 0x3c147f583a5507d5; 0x21226ea05f0d39bc; 0x1ae812001e99f90e; 0x40647cb1bf265897; 0x5f4c6b181f3c8119; 0x519d47c79c0dfcff; 0x4536441c477d521d; 0x143e1b89db4857a4; 0x19a4bbba5f635fb8; 0x178a2c980b860dce; 0x69344497efe954d8; 0x621f5cf7c84c5cb0; 0x3bef74e944390311; 0x7ba77e53b55e8f00; 0x4776c012e386c069; 0x671edc482c21ab6a; 0x1bbaf54ab5012369; 0x1872bdbdb3989c62; 0x2f0e3cafd1171e7e; 0x541dcad44e572b9a; 0x13917e101f3b916b; 0x4efba11cca93a6dd; 0x1aa7fc941ac5c38c; 0x27527d6be9ed55b9; 0x7f83d4fe7c0e2ed5; 0x6dd02ed57e777f7; 0x1ec3723a08b5c335; 0x5acb499d86e0761f; 0x672bd9c995dd0751; 0x5e69be093adaec2; 0x3d661a431cdc3bc5; 0x7a71f5d07f8dfcb5; 0x5907963afe577c18; 0x6ba31a7216cad130; 0x7b3a1f4c26eb9b66; 0x2635b336c35c8bde; 0x6eab8ddc66680e08; 0x49939c3b08f89b43; 0x562f0442113c779; 0x37b9ae4e456cee7; 0x507059c6d7425625; 0x4cdd88c9d86dc956; 0x5b1646b5ef8eaf9; 0x610368515f9e64df; 0x6da1cbfa6f050485; 0x583f7c6adbdcc2f7; 0x18c2dea3d6b950b2; 0x69fbe67c665fbab2; 0x53e71ba24329bcb5; 0x58f9b274f7b3a3e8; 0x46be4d812533d296; 0x28f424693fd96675; 0xb47ae0ad4c0878; 0x4f4f6b8a5b51ba73; 0x5d15cac6c6426ce8; 0x57b3dd67cb34f2d5; 0x7416a3dedd209b8c; 0x41303680a82708e9; 0x3720d0f5b035ee00; 0x71ecaf191b924b67; 0x29383a7c05966e76; 0x2a0308ac505fea2; 0x63d5dff4140379d7; 0x43a19f70c0fe0897; 0x3153bb380f6413e7; 0x6cdf80dfe5bfe041; 0x44da7000a805259d; 0x19819fb44bbdaf2; 0x215d816af6ed0971; 0x717b6304baccc8b5; 0x5aca8ff72582c6d4; 0x30e0273a238353f1; 0x7bffc10ab2db84f3; 0x4f08fe0a077bd1fa; 0x6dd7c8432442ccc1; 0x201cd13289a60704; 0x14e5a26a3004996; 0x1ded79d6e0dc32c9; 0x6d83a7acd35b00ce; 0x7403715b059e52c7; 0x125e9bdcbb9148cc; 0x3c4063d3055b1cc5; 0x13467770dae7d252; 0x52a21bc464f1f101; 0x552fa2dbb8b99325; 0x421e79219876488; 0x351ca1aae6f9284f; 0x5fa300f58d666d5b; 0x21e919284b3cf9ad; 0x2f1022d0685f9140; 0x7ad4c1cf5819013e; 0x4c69582bf55050fb; 0x6725c5b043e4eff; 0x60452be1b438667c; 0x2097d025e03dc3a8; 0x740c1fa3ceceee22; 0x1fadd8b633cd45a5; 0x111784ed04538056; 0x72b11696475ed4cc; 0x46684cbf4955667a; 0x40e1316e2633a219; 0x438ec19d92db646f; 0x5b3b681c74e51011; 0x7dd00d9cc70974c8; 0x7089049f7e67c4fc; 0x78d3348ce625e7e8; 0x5f1cb6997d086a42; 0x6379a77f7798a8ea; 0x71b9ac8e7c041094; 0x52c2909d8a709530; 0x4bbcfad60bd69853; 0x44a646739582c94f; 0x29d1389487b2bcec; 0x56b83fbeb65c8fac; 0x42504551e93cc9db; 0x1696f9cca0e8fde6; 0x1159b820e0f6e2cd; 0x5d1f117dea1b3086; 0x370787508ba73163; 0x60bbe9a2bcc8f5dc; 0x2d401ddaf1d5088c; 0x2547eca7fe59fd56; 0x1bffbcc11013445c; 0x248435e36b16d4d4; 0x41bd7673ccf049cb; 0x3292002418d7d359; 0x6e624b982a24542d; 0x54d547ced0018b2b; 0x51e351e4b6a8d2f8; 0x6576d09a2d1d4c22; 0x1a4faa72d202df88; 0x19e47f94f30e348d; 0x31bc983a471af5a4; 0x7ed028e6d0cf1d76; 0x4120e63329136996; 0x2c728e7cf71e78d7; 0x2515aec61fc24dd8; 0x2c1aa2f0a6a98e17; 0x1afd6074f7a489aa; 0x272ff485c90c4d3f; 0x2c5e4281324945b6; 0x4ec724b1c4151157; 0x6dcf01b0b4c41fa8; 0x64dc5674df6bf07b; 0x32b1581fde1eae8d; 0x7410e5da29e30873; 0x570b67a29a029030; 0x5f95a4e317173205; 0x7da1ab36b1857fff; 0x2ad2a8bba6a01e1f; 0x18c808a060bf0492; 0x1c3b54a5c3278dde; 0x2daeaa32147152a3; 0x68e0fd97be0e8f3; 0x46618ff9476d40fd; 0x62ca2ebda62c97b4; 0x55ba48140387a326; 0x123b0d50c7fa1cee; 0x5831e28848e80ba9; 0x3f431eeffb008ed4; 0x7731c952c2cab06e; 0x1e7f3e1458c7bd75; 0x541cba0e43dae958; 0x73cfdcf931926851; 0x116dd66b8a78a3d2; 0x24098c30e91a1895; 0x1115d50e7317c73; 0x652bc1595f0ecbbb; 0x2e5fbe7f78444c13; 0x61f66b2c6497d7f2; 0x391000b8862d3df8; 0x2383a1aa54a7d54d; 0x59efadd65c7134b8; 0x5723020f91cad6e7; 0x1605ed0083e29f79; 0x589b8dd89e68009f; 0x1c6fdef7970a66eb; 0xd741a2004b39aab; 0x27944ee40b7fa243; 0x2dccbf02b51bd0de; 0x3a74610b6768880c; 0x7cf8ba377d692028; 0x40a1812735b83618; 0x3eccccaec7aaaa83; 0x4f7ad945b4ae164; 0x3a68374fc8c56b77; 0x32283700ee6369f6; 0x406717554878f831; 0x76d4c2649abf8634; 0x37a201d3d66106c4; 0x108b07ba7f7b9870; 0x23bca4ddc9937546; 0xed53d8d1d5b56b4; 0x65411a5834c6b1ab; 0x7258815fb12fd23d; 0x337bf2b5f4b74e8e; 0x549c3e655e564b43; 0x2b1f8c202f86218; 0x618e675ff8cde020; 0x6d57808603bf51ac; 0x43fe4f35e9dc5367; 0x2c87a15323f7a667; 0x367fb378888ad052; 0x60d8afe1af47fabf; 0x21c53411851cfd98; 0x253b8803163a97c6; 0x30e7337f0a78c482; 0x20ba7e959e1d8116; 0x416c35be8e88edb; 0x77654e4325a26a04; 0x73f6318bc2ee11e1; 0x1ff63f3b616e8002; 0x1f12985f2bd57d12; 0x593ba45769eb34b0; 0x4847d1cb008ce1b3; 0xa0ff6703dbe2dbd; 0xa6f1841c309924a; 0x5463421acc6970aa; 0x4c954c70d3cd2297; 0x76898d7351d51a63; 0x6c7e57d4c3980bf2; 0x27e3e868f2bf3584; 0x1c71047fce8afd10; 0x36554e6ff4cba148; 0x316c9f8810c750d3; 0x436ddb1fa32e3bdd; 0x3008c932ae806f88; 0x651fd9efcff5786d; 0x61aea482b44ead31; 0x3841dc4a80897b32; 0x70364f309f67c212; 0x2f2f59feeee12a86; 0x32a993a896087f7e; 0x5aeae8aa334b8c3b; 0x2b0400735f74a238; 0x5c7d96ba18de398e; 0x3b5ad615fde07b83; 0x1732c3ca43d0f9f2; 0x216fb353227a08; 0x6d5e01fcaa248d47; 0x2d5befb990c351f4; 0xa9dfa6dc7edd848; 0x538b9fa83beea9e0; 0x623a3d16ab706086; 0xd1414eff56cd0e4; 0x2a5f0819a9e12a2a; 0x7c9b41934f432e24; 0x2f697c6259c74607; 0x142a3f6e976e7722; 0x450fea407c2cb4ca; 0x3e5170b27e828202; 0xde34849541f4716; 0x589b0474205f9caa; 0x49bae777828c9008; 0x1a0019ebe4b9063; 0x2383d86fb01a4b95; 0x2f8237edd3988ce1; 0x3668ecbc97376ce; 0x6bb8ef4fe4da5104; 0x3970eda176bdf93; 0x17533ca5a7f1174c; 0x4ff27207f4a283b2; 0x35d70a3c66d0ae6; 0x3972ede7d5115c54; 0x2cd499f6a75661fe; 0x6edd016da63dd72a; 0x3e270310245c4308; 0x7b8a7aa1c0e79b0f; 0x62dbb245af2f975; 0x5d1d984feec1b14d; 0x2c289cd44037bd11; 0x69187bcb241dc8c9; 0x32a0a44d37c498b3; 0x34cabfb18d598c83; 0x219e9f804d4bf4d6; 0x56ba7b7563e7d8fd; 0x706f7ddbdb2b65e9; 0x316dd3924f3fd1d4; 0xe985335ac3e3082; 0x56e2b09eeecd256c; 0x5c620b7925cd5ec1; 0x177977528ef7c9e7; 0x6f9dc027b893611; 0x5db5dd39664b2e3a; 0x568e07e04b8b11df; 0x674c16a4a0cbd83c; 0x141bd6b42dfb0520; 0x3c28e342a1bcf888; 0x730259bbf38308dd; 0x458d6fc4686a2fc6; 0xd5bd61e0c0d04dd; 0x52253067e17d60cc; 0x340196919783b851; 0x79aa55de1b424c00; 0x57359c33259a917e; 0x2391c9836164762f; 0x2bd0525dbaac0437; 0x774d1ed98ee8a11d; 0x60464b3d0d85004d; 0x1de94fa2d977e6b9; 0x4dc64e2d7e6f4a62; 0x210c7baf19481cd1; 0x1b289a4895973fb0; 0x4498179af12a5748; 0x6157ff0e9a185f51; 0xde685];
   [0x103692b5c0a19a30; 0x68ad205e6780c562; 0x332615e45b0c2b0a; 0x2fd1ceb098b14381; 0x3ae9343c0d8718a0; 0x944c4b1654f92cf; 0x6993c507fa4af536; 0x7e0dbb391affa3ba; 0x3ed286e1602c2db8; 0x37660b6b8e52d4c8; 0x4a348200a6e5a84d; 0x435cff4863ecc599; 0x74812367af221e96; 0x17b96f18897daef6; 0x2c0c8bf662044a4f; 0x749f9f76dc1f2891; 0x5c68c016cced182b; 0x973ae39d4309cbd; 0x5da8708f65313387; 0x552cc0a18dd2763e; 0x200d8daa3b2db5a; 0x2a7521b737f77919; 0x6149b30885c05bcd; 0x7224fe4e10abe985; 0x7e975de6a77194a1; 0x19c439eeb51d5538; 0x749435e00d39f1de; 0x468f404b44c2e1dd; 0x6bc8674964e45dec; 0x6bb8ff343f8b18cb; 0x7ffef861ffd1f5e5; 0x4dc4559d268540ec; 0x1f99dabf795bcd95; 0x1f3046cc1a361a66; 0x32ec7e7cce61da60; 0x5fb42f685f56a698; 0x1fc87cb447a838a1; 0x2ac45141da838e4e; 0x12b54407471487b9; 0x5a5a5cdfcbae78d4; 0x72dbf58f14fb1dcd; 0x4e34c8fa10e0d8bc; 0x37f8c911ded86257; 0xe03fd4fd42920b0; 0x59a209e5a7314d0b; 0x906b833361ec35d; 0x18801be7d5f79418; 0x4c89429412f72242; 0x1769725252baeac1; 0x7ea20e7791caba25; 0x7e1a3012515f4eb7; 0xa0728b4c7f4f101; 0x3381454a9544a692; 0x6f904faeb86e1070; 0x657795b501be8847; 0x27ba72658e32e6ee; 0x7d48e387a4623b71; 0x3b24f51d123c77ec; 0x560f24c00ea109b6; 0x344ab95c78fa21c3; 0x2383da1a99668a0c; 0x6de0f143ef7c3000; 0x2aa1ebb565911bed; 0x59e7b7d622302c4e; 0x40f45888473da96; 0x10a699b5343172e6; 0x5e512dab42be9df2; 0x56ec315598e8da4f; 0x1a17f68db15f9c73; 0x5722045f486cf06b; 0x2ce9b8dcd30a3122; 0x397a1a4ce7ed0284; 0x6cf537b0dc280fca; 0x547c30b7daad12ec; 0x6a6a71c9e0000df8; 0x5a6c01b6e8676974; 0x684cb9428bc47f65; 0x25257547aeef0e44; 0x25b878687024d757; 0x2aa00246aca2739c; 0x556799ee42c2b024; 0x69ce58e5231486c7; 0x610b0e61c752452b; 0x746b6f9d6f2edc83; 0xd8cbac7334b70cf; 0x24417b4fb09c3964; 0x2c0da7e82b0b8867; 0x495f997e240afc9e; 0x5858eee5dc421f0c; 0x2e52434fd07e85f8; 0x598544da9dc6b34e; 0x3684af7b4b9463be; 0x267965adcd47ba76; 0x2ea6488e5498982c; 0x6e47cfb8aa696dd0; 0x4c94c3bb582ed7a; 0x6fb785b916395806; 0x299a7f3ab5d77d27; 0x708706208b91230b; 0x65a21fe50f3ac4a; 0x4aacbb67ac298527; 0x5dcc308adca2a85d; 0x4c920489fa9ade21; 0x3292f1c672eb7e8c; 0x23fd649513a90006; 0x15fd30c024e04dc5; 0x11a7cc7e2dd95165; 0x37af3e41605b6998; 0x18cb0f2030ea1876; 0x4dae675080a17fcd; 0x174fad86b31ff8c6; 0x67bedb55d4ec684; 0x20be19aa026dc219; 0x700c89b446ea57aa; 0x69b8334e06655675; 0x4147a9c981b7dceb; 0x6e64526bfb252ff7; 0x3ecc5dc958bc2063; 0x1d5ef4c1a00c6d0d; 0x19462234c3df3d3d; 0x107b7a215f42bc6c; 0x20baec68baa9dc8f; 0x5cc0983b34a431aa; 0x781b7c152a0c7091; 0x75d6904b1ff9449d; 0x1c4dc234a693019e; 0x7f9876dc826e67ec; 0x49d7ce52c5324642; 0x423a45076eabd548; 0x5d99692bc4c29a8f; 0x1935442f3154a130; 0x5e11f73172435349; 0x7cc20f1dea230b9c; 0x1679bc1371f32f25; 0x994e59dd904113; 0x17d993d4043d7d16; 0x11b4cbd6f80927ea; 0x7c3a361da1acc575; 0x47fd62d81d4a5475; 0x263138c94d6d1f07; 0xfdb91d3425c347b; 0x56ad70e8dc731638; 0xdcc571ae4c6ca83; 0x79993312093e7319; 0x2a335c4a9a9e64d1; 0x7071e34e1ba52eac; 0x618f8b6641d63375; 0x66b1acfe859441a1; 0x17b7274075aefbd7; 0x3170ebc2bb20430e; 0x178ddaada2fd6fd1; 0x6acca8ece725922; 0x472a991d47603a8f; 0x48b69833904c5974; 0x754924c7525f6c40; 0x370451810582e37e; 0x28db97ca42fcdd33; 0x1e4856a22db9b810; 0x382757aaa37901dc; 0x546ac1332d75eb28; 0x64104bb8a2698442; 0x6ca209375474be32; 0x61474c684b83ece6; 0x3937606e40ecd1f7; 0x7aa5f7e08405ab6c; 0x5670405f345cca61; 0x2d1e95b0e59f4183; 0x109508e51422c96e; 0x7f2321acf8c7e15d; 0x799e8e46c48cdad2; 0x8754194fb702470; 0x33bebc64ecf7fa5a; 0x77f60b772bff31a4; 0x76ea379b53a76858; 0x587d8e28e83effb5; 0xc80ceacdbf44c27; 0x55217a2a8e2dc7e1; 0x3a128038e3b0d2ca; 0x5c02c4d0a16f0d56; 0x1104f4917b71d9b5; 0x2b81c95bd2e39d07; 0xea280a03297c4b4; 0x70c38c8a4965a5d; 0x650ab9e993e51fc; 0x68c8175899b5dcc0; 0x1925dc7c2787e692; 0x247d7832a8e36f15; 0x51690d455dbf9888; 0x5fc6d003633b2364; 0x1fc1faa35e4febf9; 0x37b0b32223b94f8a; 0xdc864cf6e9ca514; 0x4b06944aab134c92; 0x1fbc9ff33b255e24; 0x74a6e8fbf2a5141c; 0x507c5b6dedf3fd9a; 0x25d0008c7b206719; 0x34e47135c33db54f; 0xc24947080ebfc; 0x3ec0cd0f920f9512; 0x349f091aea733330; 0x7cd1c77c0c3e8463; 0x23330fe5919598ac; 0x64700ebcaebc5cfb; 0x3c271c2927022b09; 0x87ff563600b11e; 0x277051d5eab89513; 0x394f53c68cdfc8ce; 0x4b4314743251e273; 0x4ec64e0b8c990861; 0x2c4551ad1a1489f8; 0x1c1743c0880e8539; 0x42e26c8164831467; 0x165f5244798bd57b; 0x7ce162c9290110fd; 0x1ebf34dd299e8ab2; 0x425b0f8441e2e8a2; 0x5d37ae1f6bf89d38; 0x5dac191ddf6d0df3; 0x66e90e14bac55c25; 0x1970b836fc6cffcf; 0x4a1439a17765c4e2; 0x1810ef878cc7c8e7; 0x44c04fc61549bbc4; 0x7416a9cf1d3997b4; 0x1e0628c087b8127c; 0x46b8521f76c97b71; 0x73567b8b1a3826df; 0x42b011e9bd6f57b; 0x4ca3ad73c8b3338f; 0x39be479a0cb2c111; 0x759c5beaed6e9920; 0x7f7fdfda5be78bcb; 0x213d59f032037183; 0x21bd2f38f1613650; 0x53d1e75a3708a9cc; 0x6d945a5265b16b8b; 0x301512fbe7153909; 0x4a9f1046b8e0a42e; 0x628e5b63a2e7fad2; 0x2bd0706aabe6aa6c; 0x57baa8425808fbf; 0x5b23722b5ec4b6d3; 0x63cba577d77f1f4d; 0x62198b15a8837c46; 0x6cae29e8991c6426; 0x1ddb22b05e05fa50; 0x397914243fe63a1a; 0x3ce78dc20568cb2d; 0x76ac6a0205acf548; 0x3e8873f1c19ac65b; 0x7a1643b0903c1beb; 0x7c5369b7515a33f8; 0x4ce1c98f464fdb47; 0x71102c8adca5e2f8; 0x399772bccb3af2c1; 0x60e1798a814fa5e6; 0x38d2e0a77791aea2; 0x69ea4b2c852b60c0; 0x53a5a0cf856824b8; 0x1948294b55133ace; 0x7c20b6a6bc61ed8f; 0x6459584aeab792bf; 0x6a1f19f8d8bdee8c; 0x1016ddfbcf52f538; 0x76a1542312f3dad2; 0x5603bb47bf3b0e81; 0x1b5ffa5a767a5038; 0x63e045cf9438ae24; 0x793f07e2aa3b5370; 0xe626cea4383be06; 0x23f3e6d4734bffc; 0x23f7100452aa74f1; 0x5a8b342838c527e8; 0x27de693620915158; 0x5d52abffaec8523f; 0x1f5a9f852c381ec8; 0x36033e9ad88d2a39; 0x682acc14c5fbdbe0; 0x69e9146de93993b7; 0x4bb49b5bd0260109; 0x13574464681a8003; 0x16839f8129c99ef4; 0x848146f62ca5d1; 0x4c60b3e509307d9b; 0x1494521cc1698ff2; 0x55cca3a9e3278670; 0x5f33cfb44febb154; 0x32bbafe15db1ae6c; 0x866a557d0226415; 0x137315743456a1e6; 0x1be4a0e541855cce; 0x49e06873849b5add; 0x4c44de7443135847; 0x3a62a499206aca9e; 0x2a8109e1830a5357; 0x1de93adc47bd1e01; 0xd20c6879ed714dd; 0x50dd83cec9955273; 0x6eeea2a3dfe7f590; 0x54eb55929cf98f93; 0x79b3219333ac8616; 0x7401090481cc1f85; 0x49b8256498d469fe; 0x52a23abc01ef2a4d; 0x3644dae6ae62680f; 0x782a0745c2ce68e7; 0x30b1942bd76d38ef; 0x6dd9e3e09d497889; 0x59915fefd70fce9a; 0x68ceb214a3b52f1e; 0x2a137691235e1e90; 0x2c4065dccfbdc1bd; 0x7abf4c5d64cf55f9; 0x6c4d3705315060c9; 0x2c571ac78749ee40; 0x16732d3723b23f32; 0x976dc];
   [0x5009714117d5a451; 0x78ab5f05e7dbcdaa; 0x4fde9fb0020223b6; 0x101b54685d1d602e; 0x1ca43d186e5022b3; 0x16dcb73b0e7c8728; 0x29a059a40719defc; 0x7b6cfea6c7a71726; 0x593b19e347d89bf2; 0x730378981a9c51a1; 0x1aa47d2958ce6d9c; 0x686a47c9f6f54ac1; 0x1f975f8f295495a0; 0x2289a39d27c005a9; 0x45cdc7070d4c8690; 0x24ecc0972abdd9fa; 0x7b05c708b14303d5; 0x358abb559cf251fc; 0x3ab34087be890ec; 0x15bc228a00dd0dab; 0x165461680aea1da4; 0x2ba7a2dde1a06d14; 0x613dd1c9c0ac341a; 0x4de4f05a6bddcc54; 0x24c7e05a94edc1ec; 0x7239f3855ee7115c; 0x3bb2a13b986fce61; 0x272417959631739e; 0x11a5b20818857f36; 0xf7025be1b13065; 0x2eecf2db8fa0d43; 0x3385a9dec2bedd16; 0x662fe147811647f4; 0x2dc5d3244be8495f; 0x3164927125a3ad3c; 0x41456a29a7b2b74e; 0x484fc19105672b59; 0x2e9cb0f90cc61686; 0x72ff826604910664; 0x2f341e7971699659; 0x7faaf7cc9fad200e; 0x1bb98c26bdb3e305; 0x67d2e308cd6f3b23; 0x4b112b6f02b592c5; 0xc0e4966000d05a7; 0x28e6b7804169f88b; 0x303d22c66a861eb1; 0x19dfa24a6d68654a; 0x2c6da0867a3b33fb; 0xe6648b38fce3b93; 0x4663a5258ed85380; 0x8192b151e6083d3; 0x21518b5e944b6a05; 0x65d940c39b9fed17; 0x6fc6b92453255a3d; 0x7df7faa3ecad64ec; 0x74975879649fb908; 0x72db89e4fced5fad; 0x1fa91c8a7c57472a; 0x1377485d837ad47b; 0x6b8b5202ab5b599d; 0x578b84a64a7180dd; 0x16a0d14884720362; 0x6c908cb2ceb4e05a; 0x6cd5ea8e0f9357d7; 0x6c63546694eb4509; 0x3f80a3bca551507f; 0x3393d48e80466884; 0x7d18fd8dbffe5474; 0x8c9d6f15a2e6be2; 0x3c121f8320585a37; 0xd633cc234ffcf78; 0x3e536259770827ce; 0x75fec4fb0d6f35ae; 0x4c474cf3e17e70e4; 0x6188575f20e30529; 0x1cd9134bb07e2884; 0xffa798e5649685; 0x5249c2162c6f34e7; 0x3523c7030c2ce7a6; 0x5eccffa9d7847aa8; 0xb67d91d35584d7b; 0x4c37fd356db42f3a; 0x5d2c7e1dc86a7057; 0x5a8d27e218304b79; 0x20dd0ce34e193d99; 0x1a6401e97f4af965; 0x32d39d5054213915; 0x305a1392ee9efb76; 0x79c4255bcfa1b5ff; 0x52ded7d7afef4ed2; 0x9f69d57fbe41e41; 0x77d2a84d4a14cd47; 0x23984e84fdb1d613; 0x56702e43d17ade6c; 0x13020d976184667a; 0x334ca96284d0aadb; 0x59b19e12c9da62ac; 0x625a3ec7348b9a3; 0x10d0f599c6068fa; 0x382780c4f9880c; 0x549a860ac9f3a60d; 0x6b3fc88caae043a4; 0x1c8fc3a19ccb0bd7; 0x732257d1366b4832; 0x560cb63b0e096fbf; 0x7c0d9a11d84ddf23; 0x48707330936b5f96; 0x44c5bd1ca626f5a5; 0x5853944ca7ab8ae6; 0x7444135c37851be4; 0x40c29be6500d6a12; 0xfa6132612437c5; 0x7869eacf3e3c6d9; 0x511f94b7069e8058; 0x4bf4d99f180c2981; 0x39ab9c14a21e332e; 0x71ff867c1ea5efe; 0x4330fd41d0a70278; 0x4255f4246e9939b5; 0x769526896ba7a5cc; 0x7e44ebb960c3719f; 0x4785a0a4f84c0f41; 0x19d50d14e8795f28; 0x4d8bd3842fc9ee69; 0x6e3937ededc02e51; 0x19e0228443384fa1; 0x472ea08173b6af05; 0x7c63f8f5be8c61a9; 0x9933b91d42ec0dd; 0x410d2779370b1b20; 0x7352e875a550a890; 0x573bb87143f6265c; 0xc1f406f1b9b27b; 0x104e3ef3e36d64c0; 0x20c0c1cf6b6d76f5; 0x11defb68fdb79aba; 0x53eb6270ad5d4ff2; 0x15816a06934d29d8; 0x316818570c196142; 0x1b497ff17addf99d; 0x5e126167ecc2cd85; 0x7f71a0f6bd5d0c5f; 0x1a9922bbd0f2ef61; 0x1c7a18d757d1cdc4; 0x7ebd934c15078ac4; 0xcdeff6358e89560; 0x7e8b7d5ef39fb3c9; 0x34d52d24fce29ff1; 0x65e1dd8325911efe; 0x5c27884c1e599286; 0x18dabd653373fd58; 0x735072d8ab472ca6; 0x58f1c31ad375a38d; 0x15a4633fccda3bcd; 0x1d0758f83cb3d4ae; 0x141279b9775c9fda; 0x1b4d34baaea0f6a3; 0x26c752d48f2edc6; 0x4cc0eec690a6b13f; 0x665405781eba9904; 0x2fbfc5a836329cc0; 0x28c1ce1a9c059115; 0x233198416075566a; 0x733d924bb4b0f3c2; 0x6203e8a4e0bbdd10; 0x1152d70bd51d74b5; 0xbb7e7a5a065b46; 0x3430a0e62158722c; 0x2800b01fad3351be; 0x53e37b54997da7e0; 0x5128774135b33fd; 0xf46452a1016471b; 0x166534afca185596; 0x6ba1cbc3189223b5; 0x46bb78646f13ee06; 0x11336807630791b8; 0x30a42ffb33d276d1; 0x7816ecb91bb9ee3e; 0x7822c769e659b1c8; 0x7fc170a4e72b8d3; 0x674a35dac04d2d34; 0x3361ceb75658c5dd; 0x617a2660774336aa; 0x317eee508129f491; 0x1a42fbe9ddd1a205; 0x33f2456845abdb; 0x78a27c722e20c3f8; 0x6ec4c4b86ac0d3cf; 0x1c312e1111c3cad5; 0x3eb6bbc78c461c5d; 0x28e02ece0b56cca4; 0x173a483398537990; 0x4d4f6cf4f05fa889; 0x74132897c589eb66; 0x3e3ae75e97ac90b6; 0x49d17b3e6b8d82c4; 0x6a70daa796b8d73b; 0x70c9084de1733d59; 0x782b10ee40983720; 0x2d6d6351a9811cf7; 0x3ac93a9300ae33ed; 0x1978584b1ef5d842; 0x7bb6a7d53b4b00bd; 0x247b77a03b1562a5; 0x5603a4575c821cf0; 0x50ddb51cd3803140; 0x3d2fce4ae210e1d1; 0x4d479943eecede8c; 0x2e17aa029b1439f4; 0x11b30a7e611da1b3; 0x4277d60f786cef28; 0x7437053e6e3480b5; 0x61fcd8753a80921b; 0x2708ba9407230f3f; 0x2b14c3015deb61e0; 0x16299732520a6869; 0x6ab22864c858bdc0; 0x3ec214936f134620; 0xaeb1d93abc870b2; 0x402d46446de0d61f; 0x13e1c967ed8b849b; 0x3cd4eebeeb91c4b2; 0x3032828f52992b80; 0x7715ddb6ede2ccd7; 0x559ba275198b99df; 0x3ed5a30f2afd7f2d; 0x3df0645950edd8b0; 0x3a7ba2e7b82eddff; 0x7d075f5020d6d21a; 0x65479b43ca484f97; 0x185bad5a8641b991; 0x2226c36ef682c8c; 0x5cb26dbe3f8593e1; 0x1922f36a354757f3; 0x72c214f0aac8cb83; 0x18916203e069d4e8; 0x1d0f54638bfb0b6; 0x51b0bf1cb7ef414b; 0x781ac7e4af2b0e63; 0x5378d6f4b91efdfb; 0x5b6d85063b860ece; 0x2a933bd101f76e1d; 0x4d6cd31700d396aa; 0x4bd1f6445719944d; 0x68b94c431c413ae5; 0x580841324aed6b3c; 0xe5a909f95686fb3; 0xe1d5d221bb70dbb; 0x3162385a12b5ef21; 0x276aacff7748d820; 0x32de2880a73386d8; 0x3063726fc8cd961f; 0x125bc0dd9507da6; 0x53391d1a6959d89d; 0x736d71e66b5aedbe; 0x4f2f20a952cbf438; 0x60fe31271c6289a8; 0x10dd6f213540e557; 0x441569c3b95effbe; 0x2aff6134be611b5a; 0x2deefc0ec3eb4fad; 0x5ade87bc6d89d5a6; 0x1ad9091dab83f73b; 0x7a595a7ebf1df02f; 0x627cbbf53d5aeef; 0x68907cf34f7cf7d1; 0x462590bf246a1412; 0x7c0c3b681a42fab7; 0x6b370157bab58eda; 0x2d0e7adb3b54e4fa; 0x3351e4c59f0cf583; 0x6f0a1bf2fa3e47cc; 0x20319c85a455b11d; 0x5eb5c189fa6ea9a7; 0x4b0efef93aa081ff; 0xf55cb86c14b0afb; 0x24faeaf25e90d161; 0x5d81f932d2cfc51e; 0x77d6db0c4089e917; 0x6e4dc4fc803c27f8; 0xc0209c6202791fe; 0x1570aecc3247c8fa; 0x24e26cc5312a7c80; 0x24bd5dd9eb2d4caf; 0x6c2fd4110708e79d; 0x82168f2aef53a17; 0x4c2e7715c129c907; 0x795c96a7442de77d; 0x27a0ed86bb128905; 0x7c78903f5a922e4c; 0x50eb91c425dba777; 0x197448a9507c9bfd; 0x4fbb2eec334d2dfa; 0x50654a714532cb55; 0x11f5a35c5d353214; 0x248cd9112fe0f4b6; 0x13ce32d6ecaf1228; 0x42d2ee71d7845eb4; 0x4afc195898707593; 0x1d166fe6c9dbd0dc; 0x2b58d6d85a2ade8; 0x3747f1356de64eb; 0x215b2dd571aab7c2; 0x22deefd53bb5fc10; 0x5c9a5bcbc9b83f6e; 0x66ed4b3868913963; 0x6b6fd8241980d1ac; 0x2ec689c194ef5ff; 0xd52a50c2058dddb; 0x4e0004d9fdeafe27; 0x40604b360daeb0ae; 0x76a182e8854dfaec; 0x615c60ac67c0c9e1; 0x5e60086c16bbbcd8; 0x511c9826a29695de; 0x5ebfd393c7d31e77; 0x2ccee1];
   [0x7e89c75945396e62; 0x7694e79d507e3dc4; 0x59702d7b7a29a008; 0x5940666ce0c93dcb; 0x7cf0e5fab94a83ab; 0x6fcdb782ec65c615; 0xd47f18643f97b80; 0x43374747fdbf8b18; 0x65944b05cb2cc408; 0x6817b2c4255f2e31; 0x6776c2810c61002; 0x791d6a8f19892eb4; 0x6bf116b189125ed2; 0x4a0de2672d38708c; 0x3aec410f7e5d3f53; 0x7244d57e3106359e; 0x372df2147ecfb668; 0x63b5c49c1a117888; 0x7f4ea18f7dcd9cc0; 0x5166ea02ec1e05e3; 0x4ebf27a85d70314d; 0x32e783b65a0d8442; 0x52ac8cb868a27e33; 0x1d796e0770cda697; 0x78d6b6fc0b675123; 0x46e3f8efdc65cdb4; 0x22c6c7b07573ead0; 0x5d069cefeca20c8e; 0x21eb6e36bb8e486f; 0x6b20907012d394a7; 0x4b5e5458587351c6; 0x26bb22f7d154bc46; 0x4b1c0087e8d1909e; 0x1d0bcbd3e1f10982; 0x1b4504bec42b623d; 0x1610ef2dd33b5e3a; 0x3aad6851b666974d; 0x234e1c26ba1f204f; 0x24a8623c8ae2d965; 0x175443f18116438f; 0x1c2265dbf6822a8e; 0x2da92ebec3c6ec8a; 0x43a6d9e5d0884e16; 0x720673d00f4bc551; 0x4c1062dcffb158e4; 0x321d7f1ba940b4ec; 0x3d3f507d2aaf51d5; 0x317ffd794b892834; 0x493f5ae966923c5f; 0x7a6506bb7bf8e624; 0x3d032ce2a2c15568; 0x31e6aff0e16066e5; 0x2b5053614759226b; 0x30998ff92704c665; 0x46e41b6bbe62069d; 0x6442c3a7a837e4a7; 0x736e641a0f5e1b6b; 0x64ea34b9f8e351ab; 0x5fac1fd7585e5f32; 0x4592dad5b6803843; 0x3b9b822f810c3cbe; 0x544e27447e64505e; 0x47f5717adc7802ad; 0x20cbdf0c25276d57; 0x6f5fc4c412299ff2; 0x6099fb799976b18; 0x5720912fbadbdb9e; 0x138a797f0139bb84; 0x30bd4048b6888d1e; 0x4f2b931ee12987ae; 0x6b2b2efe83c01147; 0x2057f5312b0818ec; 0x6ab406227d3276e1; 0x86dc57a103bbf28; 0x4bb55d8b973cd2ea; 0x7045ea6a8848c993; 0x2c4144e2d39763c3; 0x2ddff879d6ffa5fc; 0x70c1476be4fa947d; 0x4d66c131ae55d1c3; 0x6f74e7c236cfa1ca; 0x734dccc977a0e1d2; 0x3dcff4b0b9434dde; 0x42a9f67c6915d09a; 0x29bf0e2aa9bad45f; 0x5fc9c7a469ec97b; 0x6badff237f728a27; 0x6c987c23a11752a; 0x5f4f05b52bb24d85; 0x6088b601d6495e60; 0x57a4dcc480518a48; 0x6d176b1b303daa1c; 0x1e3afb7ddbc0126a; 0x1f7f6d7b914876; 0x77ef633e3cda3c57; 0x1a9b643d1674b20c; 0x417ee604ddc7fb2a; 0x3f523069dea0c46e; 0x3116bbe330565661; 0x6a9431aed71c0bbe; 0x1de820375f21a7f2; 0x4a7c5ff8cdd27142; 0x6c722877970925ec; 0x4aff312f9d1cf41d; 0x74299347d82390de; 0x77aedbae9c3b5d2c; 0x7d744f0f25aa0426; 0x1563743816057caf; 0x16bebbc28fbe202f; 0x4d9a2690022c269c; 0x5fd7ad048b57466e; 0x4dd56fcdefa20e2c; 0xeafe99667308b97; 0x78e7e76688abfb8c; 0x65a9cedc15d96961; 0x425e6ca2f9c488a; 0xc5d29f8ba7b1cea; 0x14589df1ad34092b; 0x20d6e14091afc87a; 0x35ea2c76b0873459; 0x7da3c3d63b5a1acb; 0xaa8ea686d44b7d4; 0x330151421bf5c1d0; 0x67a030c145533c31; 0x330ee5b776f92bfa; 0x460c57a03c2cfa7f; 0x61fa4e35a3acafe; 0x612cde783ef64939; 0x62e64265b759462d; 0x616376ce63d7936e; 0x27934b6f7aa686e1; 0x2dffed6bdc2616a9; 0xbd55408c62b4207; 0xcf30a4931dcafc6; 0x2f4a6ffbfe924f5e; 0x2a181ecad283d47a; 0x2057284fc5db8114; 0x5d700e0e376b2d20; 0x717ac7b2bf7dd2d; 0x58d0a7a33cfcdc13; 0x42fdd9c88b0e1a82; 0x24fcf9f4f9c7e5b6; 0x5f5304a700505eb8; 0x40a5a1bd790447ee; 0x8fd449cee71b2d2; 0x5a15ef993cebb819; 0x4f95be263665a763; 0x706a4fd3742da36b; 0x66e6ac688557f74e; 0x3c19d47ae8b5e5f8; 0x26d2062bcd8d80ef; 0x452fd8df9f338ee9; 0x3492d891b1a8eaac; 0x731b9c95ad740b93; 0x6a751fb5a81ad277; 0x37d54914af5c7f03; 0x449627fbaa0072f2; 0x4ae098def5993348; 0x29f1677d9641cf1a; 0x5d10c052d42363a1; 0x4eb32a6698b26cf5; 0x1f42f51cdab3f160; 0x307c408dac14ea82; 0x7b2a5f82a6d4840b; 0x621cab882c467a8e; 0x4a57ab4a13693ddc; 0x1e6546c6fda7fe38; 0x3553a74d68cfa57a; 0x8b05390560c7b49; 0x68446990f7146e86; 0x73626da7e33f374; 0x745d0f495d46bc3e; 0x28625e66efa3b6f7; 0x71f82ce227e4abbc; 0x71c880e5f94ded5c; 0x6d9ad07406e04556; 0xaa02db006655919; 0x40d9c7a6ed3ed391; 0x64098922ec7462bc; 0x548009bf7c70c4df; 0x262761aac05336d4; 0x2ce62c932e00d4bd; 0x76d472b38b286600; 0x9435dd41a6546ca; 0x1671be5e7ad786c0; 0xffbaa856000ccdb; 0x745732e6fef13ffc; 0x64809f3f739fa6d3; 0x73ee8c77a060b4c7; 0x17ea6eb475430a41; 0x32d745e9cc7c3b88; 0x31dcf90d6460a522; 0x7c444b10469fd734; 0x66476440f4e887d; 0x3d8e0b902ed7f350; 0x36aa85ee74c469f9; 0x629fa49e95d0d26f; 0x58b3469266a9422d; 0xbbec3aee379dc6c; 0x69a3a2f0da6d86c; 0x3277f06c15965a1; 0x4eb26adbded1f3d1; 0x440dc779aef39908; 0x1ec690acb10f30b4; 0x77a355410e5ea46c; 0x4bd7351723bb07c; 0x10794803734319ab; 0x7c54700f28318f0b; 0x5c92665b7bdd37d7; 0x3c70ea815f160d99; 0x403356d5a0ddbd7; 0x30b8614c39840061; 0x1139561c438118ec; 0x5e5924829944d0b2; 0x4b6b7b40725866b8; 0x14a1cc8b029a01f3; 0x67c9aded4b3fdd84; 0x1f9c9ef7cf02793a; 0x787679bcf1bfd3ac; 0x12cb904878fee4f1; 0x38c42b5d3f46eff1; 0x550d3f2f5fffd79a; 0x11dba137a0d85ca4; 0x54558a1112a3831b; 0x1a87d78f4cacb2e5; 0x4213d1b313e2bb4c; 0x6fc326872803777; 0x688da2be02d8b92e; 0x7604c07d0be40801; 0x67288b36c16fe55e; 0x74eba895b37f3922; 0x5d670a5095f59b1c; 0x4dcd736c9f59d71b; 0x7c1e0eec91fcf5e1; 0x109a636e91b773c1; 0xdfadd1aceaa0fcd; 0x52259da4b164891a; 0xc4ef8ac0cc1028c; 0x7b94c82a9065fe23; 0x628fa389834c907d; 0x161913387a361ffc; 0xa16bd871f116a14; 0x14aeb5643a555871; 0x71072a276593b422; 0x2e58e8b6e0c7f2c3; 0x6a31c1cad21b5975; 0x266bb9f1f6542d56; 0x6ebf8253fdc50d71; 0xf7c23ba61a83c38; 0x6ad6f12fca5e9c14; 0xddfe71dd039b691; 0x25401f0c325775a8; 0x17d52a0e590902fb; 0x733f268c3f78d6cb; 0x72a5bac014c26be4; 0x3b82a7083b42e62d; 0x1a038c0ec9264532; 0x27e15a82618e3015; 0x515d183a42d42b2b; 0x1e507ded4863e69e; 0x305e9989c2f6d16b; 0x105c98b67018a9a; 0x26e6127a9adc0360; 0x380a52acccd7286; 0x31a27d8d1597554a; 0x29d1f0df3418e1ff; 0x4aacced3051be159; 0x557a56368b5c785d; 0x6d00f7355342db04; 0x3fcf4341634adc1a; 0xaba85c2bf5d579a; 0x58ba027ac59197a0; 0x44f7a3f416fdabc9; 0x6139998a4419832d; 0x1062039931654b26; 0x44c9f19562e9cc39; 0x57083abb943d8738; 0x4c36323ad2580edb; 0x2188642bc2ee0d8c; 0x57a40425a703cf11; 0x1f92e8efbad619cc; 0x1eac3a9c08bb7b81; 0x45678c3c3e5496d2; 0xf238e197acd8a56; 0x2aba107e54991348; 0x4cb5314e01bf1718; 0x26d4ff097dc19550; 0x4c43813fc448429f; 0x26135192ae8a69c6; 0x754728be473b9913; 0x6a15f0f73f5bb827; 0x6927a330f9715f70; 0xc353683c394c5c3; 0x42d48a546a1906b0; 0x787832899e95c6df; 0x5016f471167e347f; 0xa64cab7cf82b0c1; 0x2006e7ad566d93f4; 0x407d9f27da30fe8f; 0x2b772367f6c187da; 0x4fa1690679d84d90; 0x25de1d2e171c192c; 0x62d507630ef5b68d; 0x62f4ffe290a8ac3d; 0x55c6a87f51289c36; 0x4637d31b100fbd94; 0x52c4ce012a3c3e6e; 0x7526adb23d4b59c1; 0x2f913b93f28cd5ab; 0x522af88638ed74cd; 0x1d1fa832e4058545; 0x2bf185ab40913468; 0x333ecc91274b3e3e; 0x16146ca6d210fe33; 0x357a39fcfe9ec6df; 0x3fbf9911c7bb5484; 0x45b4891217e12967; 0x3e0b83];
   [0xbee1e973149264b; 0x266df88560eca954; 0x15e3f12b6222c060; 0xf849411334e08f2; 0x4dcc90a2c7ed8b9e; 0x53b959895cfb3e9d; 0x18a1c5bc4086c3b1; 0x12691e6aaf5ff61; 0x4ea4d9d428c82805; 0x41cd64bc1c0dfdc7; 0x2e674c759d93af60; 0xc1c16b4107f6e6e; 0x7e754f962fcc2849; 0x69621012411ad58; 0x4074b8a478e3c83c; 0x328308715bb49510; 0x26dd493ecab1b569; 0x32acdf6dc9b37efe; 0x46644b6c0f183bb8; 0x62ed414b3dbdacbf; 0x10337207a8ac2f38; 0x68460f66760ae300; 0x633f7427da4b053d; 0x10297aba8690b119; 0x1605167b9a8efa7c; 0x4e1dfc65791f5fa6; 0x508331ceab79f483; 0x762cd97ea380e707; 0x6ca75850e786d3b4; 0x639d87874c326c; 0x2eaa0f44eff1162d; 0x1762268ede8183d1; 0x4d7f05af94541087; 0x27d8cc90f51315d9; 0x4ea97fcce38a87d7; 0x5ffe94a84bd768f0; 0x20d0f1ac9de58bbe; 0x2738b6e752af6e8c; 0x3c5022a0314106d5; 0x2a701813b4a4f7d4; 0x1ba2314c25aea98b; 0x3a1fd263f15e8a6; 0xe6c361ac91a89c2; 0x782021aa0eb88e21; 0xb2e7b0e17fc601b; 0x7e1d713ab4977141; 0x17fde0957b9de110; 0x182c73638b7276c; 0x793795154cd96002; 0x25041fb3a079d549; 0x6f0cdf08f66af5fb; 0x464adde1e433a58c; 0xa1e2038c8fbcf3e; 0x56d95ac58f4be183; 0x1ce1094bf6895702; 0x572927d2d3bff7f; 0x7acf1d8e149a59bb; 0x7b435c7c7133a33f; 0x63c739a918deea30; 0x2ee52aabc39cc17f; 0x51598a13add383d1; 0x5116a5445737e2aa; 0x37e6df9821f3d88f; 0x7920381caa26ec3b; 0x4027e08efbb62671; 0x445e73315fd09f5d; 0x5156aa223d885157; 0x4ba3fb2e6c7ff15c; 0x5a23d4ca86ac4ad3; 0x19deb436149f641; 0x5490304438f1c5a4; 0x3bb5ea859654420b; 0x673db66bac516660; 0x101d563fa2ccd55c; 0x1479f6eb869b01db; 0x6b5f9917646207b1; 0x5e8175cd698ecf94; 0x6e1764028adbdf5b; 0x2c42385a51abfad3; 0x3c21df5938f4f76b; 0x2133105edb4868ae; 0x17677dec4a9519a4; 0x127092963ed200d2; 0x4bf22cb8ead708a0; 0x21906b91343afdb0; 0x546e9bf4618c473a; 0x1a7803f375050c52; 0x68046736564be006; 0x642e57ecc36c1bfc; 0x78b52d5c1e04a779; 0x2457e8c53b145223; 0x10f3cfb19af721ec; 0x3ed11264f495667; 0x715454d263ac94f1; 0x46c49e3ca4f51ad6; 0x2c6514c34ec6e587; 0x6e529151db76b530; 0x38df15a13f858216; 0x3aeabf39ab3e429d; 0x5aa13e910a858327; 0x747195b28edb530e; 0x5463d1705808ee98; 0x31e6771de1f07a91; 0x797610db642268c3; 0x3f918a328c2d6a1b; 0x3b0220864f654241; 0x34841c058653d31c; 0x61c7a6d1cbcbd4e7; 0x623fb36adce90513; 0x25c99e202790eb3f; 0x480f6b458e66c1ec; 0x8d901eaa55b25be; 0x4395a81e174f1206; 0x523e68021d30bdc5; 0xb8d6150c31ec014; 0x4cc5748ab7a390e8; 0x4ff3958ac4662dda; 0x3950b97b7a7d46de; 0x625554712bde18b3; 0x3932e3e5efe5d0b7; 0x3ccce92fb9472333; 0x71784cb89a64fcf2; 0x2729ee243af2118; 0x205e82729257d4c8; 0x709b8c35c7ca6c89; 0x2357761de60c9d15; 0x3bf3ff9fbf4ec39b; 0x756bb7da4c78d7f7; 0x6718eee304c3f4ab; 0x2ab5abb8fc58c110; 0x337aae8c14a48f56; 0x5d218cc630221ee; 0x522925f8cf0e7b50; 0x87e37ff86916c64; 0x3b7e08f5eb4ce420; 0x6981a8ae3205828f; 0x46622b81f5cc0402; 0x1ba24dcab4dbf5c7; 0x35d215b897301956; 0x7654b6d9517550ec; 0x74569b8d04742ab4; 0x6af768236bed922e; 0x581cc4d7f1e57a2d; 0x7645c69e3b03c587; 0x5645b8e3e165b654; 0x5cd92a2f041be902; 0x4fd86d97bed7a945; 0x700c6a300eace15; 0x1732168c067176f8; 0x41e7dd4fd3976ac1; 0x7fd37edbcbc9ba69; 0x4ca7d14c24a468a8; 0x15605f3062ce984f; 0x123e4ed94eeb693a; 0xe949fe1eca92468; 0x493dece25c56ffab; 0x4010dceba935f221; 0x18bd2af8fd5391a5; 0xd789e9e0632edd6; 0x4eb483fd788cd123; 0x297297b06a2ec235; 0x3b6d5f55d73ec486; 0x1304f0ab1549d787; 0x2492ccb18c16df70; 0x7b6e35648074c05c; 0x292a9bd5512e9b7; 0x734eb99d7c89bb88; 0x912138e64d1b89f; 0x6db3f7dddcfc183d; 0x761c99a2c438f335; 0x63524ba806da50db; 0x4bf910f13d1bf3f1; 0x384d5cf73e5b0ceb; 0x535e18296f3da78f; 0x1acf4debb662da7b; 0x26a059c00429bc79; 0x29d28f176a5e30d3; 0x10c8fdfeb5a53387; 0x2a443bb2592dbf7d; 0x68132d3119be1dd8; 0x78e88a493c71befc; 0x169ab2dbed7821d4; 0x4e4beba62326b544; 0x1e0852eb7100e45e; 0x3db6b5f5daea0e84; 0x26daafe54794853e; 0x33bb91d2ad8a1ddc; 0x3fd6500f8e04e4a9; 0x5b0503c3d57ce513; 0x69d152dffa0552e1; 0x5bd5233416475373; 0x35ea6358a426a951; 0x43e2eb4bf468ac90; 0x3236bca72eb78a2a; 0x26481798298c4f7f; 0x4d5771b38bce2a1c; 0x57d45b630bbd8c; 0x1890970b9d266239; 0x7f98466de0ef05e0; 0x69c66f6e428bc20f; 0x69181f32c0c30532; 0x6313611a24c27c8d; 0x2ad496c618cea56e; 0x553f38cfcf45cb8a; 0x1f23aeec7a4defc9; 0x21bb03657a376f2d; 0x525c742d15110396; 0x208b60be75c8c801; 0x9289babc53fa31c; 0x4a43aa6d7812709a; 0x692d8812bae2f6ab; 0x49f1e530d7868647; 0x8b260a5095bb02; 0x3c12886cf1bcc77f; 0x3fc72f7ff2851c5a; 0x414c17bf0c0d2e94; 0x721e912167811d0d; 0x15128f52f1ed837d; 0x77174830f6205909; 0x4bbdc527e6bfa0c8; 0x7631cd76245f805e; 0x1a3ea3348691ae7d; 0x26a48373dd8aac64; 0x2de3e068b6c74882; 0x31d5266e3ff3c4f5; 0x718108c0d8184e71; 0x27c0bce10939bb7d; 0x5e8c25423ae9d7d8; 0xb610dd114dc625a; 0x49c179d2f3d8339e; 0x1699f65a63583d5c; 0x1d55d6731420707e; 0x697f633b1297e36e; 0x741bc3c1e060e641; 0x13f03faae9253e8; 0x4b614720dc40a41f; 0x6ff48f5c5a875881; 0x2326208337610a95; 0xaf4388ab2bb1cb4; 0x684aafee946654ff; 0x12575fe2065e58e6; 0x59de6a9be25c6dc3; 0x171582cdd4fef6d4; 0x69401212988517a1; 0x36f1faa60c015ef0; 0x638789ad962dc062; 0x7a33636841def335; 0x64e4338495437185; 0x2dc19a291bd9986d; 0x51ed9a3d145bf440; 0x308b25f7d6546a7a; 0x7e5898aa307c53f3; 0x34f2cc24d4dd59a5; 0x2f1a50b60b31a26; 0x6881532f40957099; 0x7bf7d99228c83d5d; 0x687c8c20b08ea113; 0x59552bcc3ddfac89; 0xad3463a61e72d92; 0xa65f8c1b946479e; 0x230ed12ff5acad81; 0x1b169cb0e9b196e3; 0x155bbd53d7c0e245; 0x5619007d55026467; 0x506d1349f2b8f023; 0x2b2651565485f3ac; 0x28f0a3477e28c1f0; 0x163916fac3214312; 0x6fa13cd33cb93e2d; 0x4e73051d8cbd87d2; 0x56dc9f30957ea0c6; 0x45675999308bc4b3; 0xe06542ae0ce3811; 0x1e6932ae42629d64; 0xe4af67f62c4f610; 0x2722100e310ca6c2; 0x66bd19fdc97fd312; 0x549076dd14286798; 0xc592ee936f569e8; 0x6cd55b512ebaa11f; 0x213970a05ff52a55; 0x4c59fb1b2fff5068; 0x5521bf7ca86d593a; 0x6b751227117fd0cb; 0x7c72df20aa09f5ba; 0x4d9c040065efae17; 0x63e77b3b1ea678d4; 0x55291313e98cd4c0; 0x6309e5e04912ec0d; 0x65ee92108a818aba; 0x206122194417b427; 0x51d6504221ada799; 0x2a000956ae4f9b03; 0xa963789df350b56; 0x7c8b18b7ff50ed22; 0xc71859171ae60bc; 0x67ba558dc4366300; 0x7b3088fd9396869a; 0x7efa432bc1f36a25; 0x7d6f98aca47ec0af; 0x133af43f55797438; 0x26a46e9aef41e764; 0x6a9b0e1d6778d0dd; 0x3d6a43497fe61e2d; 0x7aa420af33e63665; 0xe827f2a4ce45b42; 0x6c31266403624b31; 0x46b9627e23d56b9c; 0x7daa55e732e52e60; 0x3b1f9f6821140b23; 0x2bcab1d557d1efcf; 0x62d94b0330ce775c; 0x4e0cefe49ba84031; 0x21c13c77a2b6b48e; 0x709c37a4f424b70a; 0x70a66aad800c5f1c; 0x20780be34b2de833; 0x36240a];
   [0x499824c1f22a3260; 0xd9bc7ab68e2754e; 0x893b207ce17fd3; 0x31ceb7f13da589a; 0x5e47e033047d8a2a; 0x430571d3419396ae; 0x6bf5475fa4a80f7b; 0x6be0ab7a4eefcf23; 0x3c0b5753ccdb9a7b; 0x32772a76697947dc; 0x5ba3d78a5fcad1d8; 0x59bb3a05dd33cfcc; 0x27ee4d35dc4e09b1; 0x743c0d872a3d6712; 0x1c0c8a389270b8af; 0xaed2baafe40ac2; 0x19d75a10dce7f7e8; 0x7b599818bd4ac245; 0x5203d9a1f45de67a; 0x3bf0c4cb289b0e2e; 0x4274820553c71626; 0x2471cf04d5adf913; 0x4cb492005f7ac2e9; 0x4dc93f0e1563a20c; 0x3130f7c9fb519b26; 0x1c0fbf9a1dfbbaf9; 0x4de9b4baf5976b5; 0x3cb39cd8df24c972; 0x48bef21cff1bbec8; 0xe73cdc809ea503d; 0x6842f8b76382314c; 0x5df216692530731f; 0xa2fa8096f30305f; 0x69d54286ba613cd1; 0x2bd59cc8c0fde25e; 0x2f3efd63cee0ae1; 0x686659ec21046332; 0x145bffb357f3ddf1; 0x5eb218e71d670b9a; 0x373eab835fce8d59; 0x40e4deeffdc3cc0c; 0x4d72e66520fb1e40; 0x622c96bb774607cf; 0x2cf16cefc52500d; 0x426dfa4e5155f1c3; 0x1811c028d8bb91c6; 0x35334f64ec7ae827; 0x187f274cd09b915c; 0x6a2cb618636feaef; 0x4dbc19c92bc39a39; 0x72cf9e72b6c10edc; 0x393002df53e7a5e2; 0x28dc45ac27a0fdd7; 0x487db835769ad0c1; 0x127a7ee90a47cc80; 0x309ac9883eda957e; 0x385a48a3dde5dafe; 0x214dff8193cf1664; 0x639606c840ef3432; 0x2aefd46a0884ead2; 0x5c15c6261c1ed885; 0x313eff66af5d2178; 0x27196e54658338bb; 0x1f55170c1bd445e4; 0x1bd367dd6762e797; 0x2aff78502c7655b8; 0x1276fa00039b9839; 0x6a7a1eb5e1192bd2; 0x3fd01b4359b685d8; 0xded64b3e6b00e38; 0x4b21f56a6851d2b3; 0x49b2f8f424dd2b38; 0x2931b7f8ece27e7b; 0x24d4617f31fdd68f; 0x35cfeeb1daf2279c; 0x43b49d1a1521f4dc; 0x2fc9a797f2a57170; 0x129390e23109099a; 0x79c2941fe97366e5; 0xf1c2504e0b484e1; 0x20908342f0b2ab07; 0x1e803d82ef75cba5; 0x64b318ac180593ba; 0x622e09751d49713; 0x135553d205b2c0f7; 0x669a60f3b67f893c; 0x2de2e306d30f69f; 0x55f2ae30c894d189; 0xaa98a3321c12afe; 0x20bc8ac2ce46fdde; 0x18c7659e304cfe1d; 0x22da728d37978dd1; 0x358336ec39ceba32; 0x352342e7def61a12; 0x30b5cbfffe3c63cb; 0x337f891babe0c4bf; 0x30a0e8f1b901645b; 0x9c5ff294b0e13ef; 0x3a913ed62bbefde3; 0x48dac4acb5f25cfd; 0x6bf33ea307da72a0; 0x4c82c3c3fbb3c7b8; 0x5bf110ce7003099f; 0x214f93ceb57014b3; 0x3c3403ddd920f4d9; 0x142b78e028907a72; 0x6887dca0945c74cb; 0x5afd08495debbfbd; 0x271e2709dca63e75; 0x5f293e7b98ba1168; 0x4449d64df0a43146; 0x3af7ae6221d57c39; 0x6ba5c03a624a2309; 0x49e70a95e5760ba4; 0x569805d8f87ad757; 0x7a314f87452a06a6; 0x3a7911ad319c2052; 0x4b29e2ba86517bdc; 0x386cbfd3661be9ba; 0x20c82e8d3ce1cc47; 0x36004f9361321db9; 0x73449c0aa726de7d; 0x2fea1fbb462cb256; 0x2135e5f023981383; 0x779481870b884299; 0x5c35d50874e21223; 0x31d6092f82ac72a4; 0x2851cab85c1f64f3; 0x651b61b617b630cb; 0x19d8b2ef9e3df6c; 0x408e41074cb83bde; 0x4611014932f3257f; 0x52e10f24e7620f4; 0x310bfe04b75e8b37; 0x1b030b9424a2f8dc; 0x2867173a693b5288; 0x4617677828426c2e; 0x48d8add047dd86dc; 0x7f50a4d547674b74; 0x500ba8168be4d86f; 0x28d7724c7db05195; 0xda7d3f86038a6ae; 0x1fb85874b81762c7; 0x60d791bd050d6ace; 0x256c236e62464337; 0x2617dea50e8df28f; 0x4d277a709df0d8a4; 0x3aae4a744c695393; 0x3585631163c4eaa3; 0x933139776e0ce8; 0x673b1dc301f05615; 0x43f86accebce8926; 0x260c86890e589678; 0x551c136f6157758c; 0x50248f3b0fb9cd85; 0x410eb79bc6fdefac; 0x3f107eca5cd357c3; 0x2cfbb054220c9463; 0x9fa768018cb0778; 0x23320f4e67998862; 0x2220748a27305b31; 0x55dfaa123eff4809; 0x59c6379df98beffe; 0x417352a46d33462; 0x58c769e593c08ce; 0x596b8a83fc6fec8; 0x277d48b90033a9be; 0x476e0b545c3579e3; 0x28f0ba2d75f640a8; 0x646996c2145a3717; 0x236da72fd1732ab8; 0x50695517ba097767; 0x188a4f91660b2182; 0x75396b0f46935b52; 0x74fadedf04b122b; 0x45f9323bd89e2883; 0x26a83f61e7556129; 0x182d2d90b354e0c3; 0x30839bd948aef9ca; 0x5a822bd8cd188e8e; 0x5ee655b297f11874; 0x274a31af2c08c7d3; 0x3d8a22396ccde830; 0x5723285247cfd226; 0x7abb83cae1e718c5; 0x5cf2f407f7903ee6; 0x4ad4eeeb65069f20; 0xd256f158c084279; 0x1fd4caa168dc92f1; 0x25364c0aa21d3877; 0x4b76a0790608eef9; 0x557ac230e1e09b71; 0x511f6cef81ef2486; 0x35b4a5fbba745649; 0x57c99ede54ccde82; 0x584ded696be3b38c; 0x645e894abb6ad381; 0x4179aaef856d4e61; 0x10695de67dc981fb; 0x33d48c47e55a62c2; 0x3ff3d50d51334fc5; 0x1eb41487943fb922; 0x25c7d6ae48166e7f; 0x31b3f98f9502b305; 0x3e48201f7315a001; 0x3bb311e783c3c76d; 0x5cfb5e11cb756c02; 0x1f400991b3a6a943; 0x1ef025ec3fcc5f3d; 0x1f5bfe7091d1d028; 0x4e0dddc6920b540e; 0x79a0243cbd1e9f15; 0xe210e9a149c98da; 0x20487153d4b58799; 0xd64c95647358699; 0x380710d600e91580; 0x389f618d0f35124d; 0x73be18413ec91570; 0x36cfb360df275ddb; 0x2dc5652e71bcb7c0; 0x5806e8204642fd0f; 0x475b3cac592c8155; 0x7592487b7d358974; 0x379fe6535aac0c30; 0x1b7f90186411d916; 0x2144a3b38952ca7d; 0x51c725251555297b; 0x195326ab661a25ca; 0x26ae729a87b1a126; 0x3d1ebf4f10af3e1a; 0x58b0b632458526bd; 0x2e270e37a28b6ee6; 0x180058dd7160f7dc; 0x3fe617db374ada25; 0x5d6312c0718b79ae; 0x1afa87cbfdc141b3; 0xbc7bc2b69aa7cf9; 0x69cca8c5daafa86; 0x74efb9ed7e82995d; 0x72d1683954bf4c25; 0x211d5027b5fe2d7d; 0x4eff034fa06af4a1; 0x4bf5ba26cabc120b; 0x939070cbb0af6f; 0x121204445868c0ff; 0x7fe2fe727073ba65; 0x552715a0c70847f1; 0x273d0007fa2b7113; 0x26f161b22542a432; 0x4555e30ab0141b34; 0x30cbb2dbc89b911; 0x7f0b112a31dcab38; 0x1019d1dbea9e663f; 0x7faa6a4fef71b21f; 0x387f23411b6231cf; 0x533373ca8b0c561a; 0x7de5b3f8f1dc956f; 0x596cdf1fc249ec23; 0x693e5fc8c7437132; 0x7570e43af8352da9; 0x12bcea29e965c53e; 0x1e6329569a3e0e4b; 0x2705705fc552436c; 0x755ea520fbcc96d2; 0x2ccbde85c8a72596; 0x48558d7875660b9a; 0x464d27e1e14fcde8; 0x7c552cc9de1d95ce; 0x1e30d6586df72a88; 0xd918eaf29fec3f4; 0x73f2a9d43619bf90; 0x6bc457368d361c6f; 0x4bb875f93a6cd620; 0x13292872a0267ace; 0xe16460c7cea062c; 0x174bdc91104be7ed; 0x1edfea737955b1ad; 0x52ad1e50a6652cf1; 0x53de193e79abbb; 0x3fc9e6c9b69ec266; 0x320721c0b73e56e9; 0x19079e8413699331; 0x5b6cf837dd0909da; 0x65366359ee255e6a; 0x6e161adce2e26c6; 0x241dfe50f78f1ac5; 0x2c3bcd55448e2f2f; 0x128f10e5f6076645; 0x2907b769608c0fb9; 0x66d49988efda698b; 0x69ba54ede56cb03d; 0x7c53cde1fab54efa; 0x4e1336e5c5a0d6dc; 0x3ddd2cdf8b5bad; 0x282040916078632b; 0x709e261ea9c7043c; 0x52ce2185089e782d; 0x208468ecc77086e4; 0x6000900004308f03; 0x241821301f93c057; 0x7150695ff17d6443; 0x6c0185daa2f80a49; 0x66520639f26e1568; 0x4bb503da2343ac46; 0x753dc7a39de97aab; 0xae1b6ac27386c09; 0x7e64388ce831ba87; 0x5888d636cc13cdd6; 0x6c5ad68f3910cd6f; 0x1165702757fe3703; 0x66e173ee71dba5a8; 0x15a341121226cf4c; 0x75b9166ad8f4e986; 0x76ef812fd30bb850; 0x54f5c678d72aa958; 0x17e88b8c85cf1c40; 0x75e4604ff127491b; 0x1b54fa];
   [0x4eeb4455d895d610; 0x77a199254cf96abb; 0x1285ffc00f9c63e2; 0x758c6d94f61ebf07; 0x485775b8aa61dd36; 0x665fec64f6581f2; 0xe7ac12e92b5297; 0x1eb0ad54a925666; 0x444897e5c3fc0562; 0x201347a9d5c345b1; 0x2e1420ad4306fdd6; 0x29cb9ced82cacd0f; 0x1b29817d8d07428b; 0x18a57dc008994c3c; 0x36316538c460637c; 0x280806a96bc44853; 0x1c57b928a9081a86; 0x18472b51e3dbb0c7; 0x46a2b1b5cd09d353; 0xf359c8996019d21; 0x1b8e6351753492cd; 0xe98c8b6db23fc44; 0x6314bb885ef59b46; 0x61532ce8a38eff1e; 0x5ab478b7bbcd3f2b; 0x46278bf12df2e023; 0x52def167462f5027; 0x4992cb20627e96fd; 0x571b06d940517806; 0x36b76eb4cb1d3d44; 0x1eddc3b7cb833f42; 0x68cd164f528abe51; 0x26f0558c35c28978; 0xad67498c88afa20; 0x69edbea09a303053; 0x2f9effa8e5d257c; 0x4adb74a9b4b94758; 0x7b6dd27f2072a821; 0x1e055bb2c92faa22; 0x74f90da4e5173cca; 0x7810094845b2e398; 0x4710dc135d2e6b40; 0x2ac0ac880e0ff0ca; 0x1a48367ef447a039; 0x9408ca333946f4c; 0x786e00a06b0d331c; 0x741be99b84fd7cde; 0x474e9bda64e707a; 0x7a838c0863b5ce8; 0x3f384b2a8c37f176; 0x5798d333d57fe1fd; 0xf160a203ecdb121; 0x1dd62a1f05d9fded; 0x6ca6f5105f1e1a7f; 0x4f07fc1059264916; 0x6d8c785a813c5503; 0x26081c962700ee50; 0x30549660b032ef26; 0x6050278e1b953e4f; 0x57705710e7a923ff; 0x7087f818cc57fd33; 0x3d5b8128101132fb; 0x3becf261e085f1c9; 0x53f0ea1d4ad04925; 0x7ca9c2914fbe2674; 0x66ee268381043d5d; 0x7cbd9a2808264ca0; 0x5838878dd8036900; 0x3b959bba00e4d6ce; 0x778c3e98e3656734; 0x452c091613ce4b0; 0x321e291a77349628; 0x5fc20141deb69248; 0x550df562acc30a5e; 0x1dcae963e66ee21e; 0xacc82b4e28b8e5e; 0x98e17ea40eddf3c; 0x3db41f229ef2add6; 0x22019689f650a1a1; 0x2d8a74a48fa06e7a; 0x5dac9a7fa73ddf04; 0x4681a25ad0976b42; 0x39abd17f836a89b5; 0x605a6bc5dba4227d; 0x4488e8604dceaf9b; 0x1c7d2fc5a41b96d7; 0x670c6f10c06b49ba; 0x360bdef34fe18eee; 0x506b46c54032ed69; 0x2c36922b169b6900; 0x67d8475b658125c0; 0x776a105890907a43; 0x16a0872fda518325; 0x231465aebbeddd3b; 0xce9c304926d250b; 0x4fd6cbb1e7dd8c47; 0x32ffb9dd75628037; 0x4127cefac450bf4e; 0x5315ee81c2b5f362; 0x4cd8f1588657ab75; 0x35a328528f0b48e9; 0x453642d997566aff; 0x26519efb511a97f7; 0x30ad888d8ee8d6b0; 0x3b288e65860e5368; 0x2a3a2c5005648204; 0x53f1a17e5efe300e; 0x5a43a9a5e8153b64; 0xeaab1dba2f48a66; 0x22d578a7275a6161; 0x4510b6fcb9e41357; 0x5972d1825eba3262; 0x29a8431c847ff7f2; 0x7280ce8c233d5240; 0x2608a9a5dee0e3ec; 0x5d4e6d496abb2205; 0x748a71605c9a04d4; 0x516b329ba7351c90; 0x5b730ca14b88e10d; 0x4cb459968974e253; 0x52112de7a8db7e3d; 0x8c0c61c589278b7; 0x175ac68b13557b70; 0x373bac25ab6b9979; 0x4b21b4200b658523; 0x1862784575cb12d3; 0x551c16ce937c40e; 0x59be79a0d423c88c; 0x5b47beeae1b6331b; 0xab4b86a46726a68; 0x445f386445fae558; 0x63de7212359ed1a7; 0x7b1ae23697219510; 0x3e162c681fdbf7f9; 0x44c19c2f83e7a953; 0x41b45f8ea6b6f355; 0x4c436acbf490fb4d; 0x342239d7ccb0aa69; 0x426177e13cddfcf6; 0x67612ad82b5366d; 0x20a8c9100b19405; 0x1aa1e236cba1d6e8; 0x26a7271375c4ead1; 0x15d26881df67521f; 0x10adf57918f2f2e1; 0x28af322c29266d71; 0x3c075694468edfde; 0x4e7141a292740a5f; 0x75bcf5727694f0f; 0x5100b01b6ae41d1e; 0x3663f03a06ce3ad0; 0x317d2ae07608cc1; 0x69990aaf003fb705; 0xb785ffd0ad65e2f; 0x7ac235ac5698b76e; 0x4617eccd612d0b82; 0x71ca38508e69ab2b; 0x3d7279cec8bdfc26; 0x75916a133023f3da; 0x27362b790f64474a; 0x668d7122666fcfbc; 0x69fc017833ef3ff8; 0x326f58f56c683819; 0x76e07b4087bc9b0; 0x1230c6aff8a4f409; 0x5418956dff0fa1a7; 0x10faa81445ae4e32; 0x657b3a3b9f41db33; 0x72480994f615b5fd; 0x2082703cde94a82a; 0x7867af1546c21944; 0x2542b985b4d77535; 0x48a08a1d583eaa04; 0x4533ab2f3267e2e1; 0x703793a5bc7b0614; 0x2725b217d6c8a426; 0x2e904a95bd76bf5e; 0x4e02000162946ac0; 0xf684b13350170ec; 0x36b6affff216b2b3; 0x6bf15881daf0737; 0x6195c61b0284bc52; 0x4d0f951cbaeff3f7; 0x648c62c142c2e7d; 0x2a6cb2f1a80c9828; 0x66aad9ad7771e2ad; 0x18e02df5dee976d8; 0x389d3b647b884cda; 0x227162caf4339a2; 0x30249662f224860d; 0xcd7076623b1f337; 0x10d30c12449320b; 0x7142ae26a08d79ff; 0x7a8c2d552d48cb5d; 0x5a63b0c0be8c12d1; 0x29f3f17f1f6cafa1; 0xa753de0acf74984; 0x50f68f654aa39bdb; 0x398571dcc452bf24; 0x1eae495d4ff0075b; 0x77eeec6253885cfe; 0x95c29616cbb0378; 0x182fe751350cf9a9; 0x3efb42803dc3f0a9; 0x53559be58b4d8d1; 0x49befc0bc1980d1a; 0x402b406d71fd2833; 0x2347d9950fe2122c; 0x5052598371d7f84c; 0x7d0e5a0355e0eb60; 0x1b7a7ce7a0180010; 0x63e6256918a55d4e; 0x36b8136c26abb6ac; 0x49bdf0e74a536bdc; 0x3c271bd69dbb5ada; 0x2991a6fb36c26074; 0xbcb41e14afe7edc; 0x1bde5609519b0647; 0x637e721a01bfdca8; 0x7a47a32be069f2fa; 0x7b919972a7beca32; 0x596c6b1c578078c9; 0x7e1e8087c069a67b; 0x5811962bb4f206ac; 0x2298b33895dde608; 0x67154fb4cd8f01f8; 0x38f63325563c5283; 0x7139e5a9a3f4d68; 0x70b7f9365405a831; 0x5165e528bc6da903; 0xd114e991b1dc023; 0x4b6520ccdf614a81; 0x2b273a1d9261fe42; 0x10846b6e0b7eecd8; 0x55a8e369a089a01a; 0x72aadc525bc7efab; 0x75b584fd767c5e8d; 0x3bba32a91f96a3d4; 0x633b522d86e85431; 0x6c32311ce93a5ad8; 0x3306635ad22a9312; 0x32e0d4547fbfa0b6; 0x56b097c4b245a8c9; 0x162785f3034a532b; 0x7ec7801325685a58; 0x4f40dbf955786d31; 0x38a57edecc1eb32b; 0x15b709e66fb764c7; 0xb221b9ff5fd0f1b; 0x79e854d8dc96001d; 0x2d1b54edcf6b2b6a; 0x26923262d50518e1; 0x50fc5a4e81de3dfd; 0xef4b475631d50ad; 0x112af9d5584b75f0; 0x2cf0443c65b4a1bb; 0x426a5a306cd77127; 0x5fa83f2ad9e4da6e; 0x19442bb6a48da757; 0x46ddf2ec84a378e5; 0x3845e7abe0db8587; 0xb0cd548e0d13c88; 0x64de285aa0118d18; 0x2c3751a6a4022da0; 0x755b562067d43e7a; 0x2e8e1db227a3a8f0; 0x393e40f95b6cbdc; 0x30d4ea67dea665b9; 0x4b2ce2d3a05cfac3; 0x652b5c5a75199960; 0x1eac1ab8aa7b2c3a; 0x7fa76126503c1707; 0x475e953a42165e9b; 0x56d85f1591f644e1; 0x4cea204a8346656e; 0x26629b6590b4d075; 0x129f5cf3b9d794d8; 0x6c1f61b34b861890; 0x2e7c499367b8cdcf; 0x7ee0aecf45f18e64; 0x579b1b992beeefeb; 0x33ba5ff03cbd6365; 0x7491d7c62bfde728; 0x5a930dd1e0586164; 0x75de7dd4e859bef7; 0x7a37c0415e936390; 0x7c68fbcf30ced172; 0x37bae2c6a8102535; 0x69e867608f0324b; 0x1e6b95682a533297; 0x546cb0dcdd05bfbf; 0x68c6602818f30670; 0x5db29fe543028371; 0x87caf7f09f33fd1; 0x4bf048f11f749da5; 0x686f86e7ceb5ef8a; 0x778cd0300480a94a; 0x4f1ce6f6e1e83263; 0x33d9914b672671ef; 0x20639db58664f08c; 0xaf3fc96ad71e1ea; 0x1d66f16f3bc88148; 0x47431be26e1248e4; 0x35c3d56a55a17b62; 0x240d8ee86c7baafb; 0x44d5b376115e9eb4; 0x729cf4c261c40f74; 0xeb444eeacef54e7; 0x762e15ab7ffdf808; 0x7f44ebddee31e44a; 0x574e1b4c1103100a; 0x47171849b1e913cc; 0x7c09d71a1a7af0c6; 0x12300dda63bc0d61; 0x79b62b142d02b886; 0x3b182d602a2428a1; 0x2f74642b0a6abf3d; 0x95720];
   [0x7571f546f33de8fa; 0x997257f51203de; 0x677d11592505c1c3; 0x7076b2ea4ae1ef75; 0x7126f880ca54b127; 0x597f88630be34f94; 0x465d481888888afa; 0x283f3c6322502acc; 0x2c570585eecd946f; 0x52a3bd565f0381ca; 0x620a6c71a53499ce; 0x18472e16fb3b985f; 0x29f6fbd606841670; 0x124961b36ddb063d; 0x3daf3ca195480ef3; 0x372f13c1660cefd1; 0x4be1155baa4c0b96; 0x5c18f7358ed2a7ea; 0x2cb8983464ef3027; 0x1604f589ee089425; 0x5ee962bb69c04b0b; 0x2798ffa5329f6072; 0x5ac1c7d9413ccc52; 0x5467a4b9bb01cf83; 0x31536f4b3cd7a163; 0x5aeb8aa2684ae6df; 0x2422348bd2fdf8d3; 0x354a935fd53895d0; 0x6a388f4de2d2e284; 0x7ceca3bf6c69a34b; 0x163e9f7e1b736660; 0x6b18de25a16c3228; 0x2daf5f5c760ed661; 0x3ce897ff5c4bc88b; 0x5ff778b4541f959b; 0x584ba00023cad00d; 0x66c10bf8faf05fd9; 0x601bf2dc0c43509c; 0x7c7e3508fe3f44ec; 0x3f0c94f6c7cb550b; 0x502d67ce6e8dc26a; 0x46a711ad77ae2831; 0x327836eafec18b09; 0x3a37e1013882aaf4; 0x6533795059502ba0; 0x689069614a04fe7; 0x2feb753e8d6dd990; 0xcd4319b10d1a2a; 0x43c536af9674c9f0; 0xafb90364177cc5a; 0x53fce941c759f104; 0x15214f95226151bd; 0x2c755afbfd66238b; 0x3edd993f501aa50c; 0x6822dd77bf2db4cf; 0x63530644a4f490d0; 0x4c5e64a8ae93c7ed; 0x56806c72bbd790bf; 0x22bc345f42ec6e8f; 0x57e48ac17897b586; 0x76dd7dd3fd8c45b9; 0x6e6a40dcfe2b66ae; 0x46385fa18b148e90; 0x4d75aa4d19114bf7; 0x488cfbf84e87a3d9; 0xa97c86c57dae75d; 0x721746e00f0777b6; 0x6ef83d4b0ea1cd0; 0x307f6fa3d47c823b; 0x20fa0277f96d34af; 0x663ec993ddf50ba9; 0x33b561edea1e3c62; 0x4d4911991114dd0c; 0x433b7e07b82f43a1; 0x123f19ab8c10b16; 0x7213c05b69675fb5; 0x336abfb551478c4f; 0x4651e2aecef87bb6; 0x1c69b9e87ec286; 0x1868309b2620f6f0; 0x729fc226556a69e; 0x3cfeb637cbed6062; 0x5bc021d4b6f9426b; 0x245a319fd5daf39e; 0x2584e5f27e9819c5; 0x449007983ef53c98; 0x2543048c68c2c66b; 0x4ca10117ee3ad394; 0x32807238bfba24d; 0xa11fa4a70038cc; 0x28b6a57e910c5048; 0x74892eca4d883cd6; 0x2e393ce12c5ab737; 0x5ced84f3806437dd; 0x2081b85ae6b0df0d; 0x603f861262b96eb; 0x7ed36da800611b8e; 0x60d5776d2bf981ac; 0x15f42f23af809d39; 0x7d83c48231c81e83; 0x771b2fefc50cdd5a; 0x53b75e6f252b654a; 0x799449821435a0a0; 0x74c7c6c9360998fa; 0x1bb90b35d32a8a38; 0x395fece09957c1bd; 0x1d9a07305bb80ecf; 0x773a21bc3362f36a; 0x2f944b452e8ce888; 0x34ad503ba2c55d69; 0x76a025d1750d8be; 0x394746508127713a; 0x2dc2641b627ef8cd; 0x342bffc13384368a; 0x66ca9a2f40c1aefa; 0x73eb8edaaa51930e; 0x4915c2c8c2b33328; 0x3a1654991f9e76e5; 0x6237fee358035bd6; 0x221f491d3fe6b78d; 0x75805e76f4442593; 0x4e25e9fb500afbe2; 0x293312efe569f9ac; 0x726a10a612ebab8d; 0x1e475b7d2205626b; 0x339ba050fd1e544b; 0x24fa1603b7948fb2; 0x3f7238089fe01c50; 0x18c38108b213e69c; 0x198bbdf8deb5c09a; 0x25c8d7bc53be5283; 0x4d7c979da93f9032; 0x4af6b2d182a3cb73; 0x688c613d38ec0e61; 0x4907273dc0a28dcf; 0x70fab19f5c21f5af; 0x10f7d99eef020e26; 0x732da80511098477; 0x4ac7776c7cf3e808; 0x64613d3fa63a22c6; 0x583d0296a6e2b53e; 0x4c8b154d7668431; 0x1adf73006cf47d08; 0x5fe8ca7a99f21674; 0x1c46d5b3392a7366; 0x424775214f0589f7; 0x3bacf05f6773cafc; 0x657cb735900cd688; 0x67464a2696e7fc0b; 0x598c4884c1a1b808; 0x27b293d73856671d; 0x6422bf8e035c4d9c; 0x3021cb61b3275184; 0x63f737d8b6657955; 0x6b64b77bf43c4689; 0x799ce342bd79a2bb; 0x245cc291c958abed; 0x56865eaf858c4a00; 0x38d74439124d74da; 0x181d4392a65fd4d2; 0x517dbf45206e3fde; 0x6a20c3b0dc82aa81; 0x413561acb7a66a22; 0x2a3e10c401f1fe6a; 0x7145f595f019c381; 0x5544d1a8e668ba5; 0x30ad55d3bd25b6da; 0x2116215b73702680; 0x7c5cc1d7ebe07307; 0x16fccce2528fdff5; 0x43ddf4bcd85a5170; 0x2673bd7ac76d7b7f; 0x460f079c379ffd62; 0x149155d93ca5921a; 0x24479c094392e0ca; 0x5eea9a14950d1dd8; 0x37e8675a26757d03; 0x45f900ebe6806944; 0x16c7deb84d148fe2; 0x52cb7711195a7934; 0x7ea69a0d6f1578c; 0x2cf8339ec4b401d5; 0x7f0badc683fc7040; 0x47dd9d6de69d0035; 0x1569fc371f016a17; 0x90ca87f6a027023; 0x4d8f4fbbf0cc239e; 0x68dd2103da617d4e; 0x4356c2f40ffcf0ae; 0x1f1d9c87e4afd4c4; 0x36d2b72f16cd99fc; 0x643d7cc0a3326904; 0x2cdedbf6e2186a9d; 0x41b9da4e54633648; 0x1f39dba7b0fd6fa9; 0x157ce8ab313c63ae; 0x298b00b125bad8b2; 0x5aaff84a54a6c3e6; 0x4eea90991bdaf1cc; 0x2684a97b263fe16b; 0x77b111a5ab5bb724; 0x13f470bed20807ef; 0x49c2ebf2448b6db6; 0x5a881abbe7b1865b; 0x5c307c5dd0697666; 0x1b52915a5d33e807; 0x6f520893644264d8; 0x7f55113a05ac5517; 0x459980566255d01c; 0x6e47b8634641a033; 0x6217d6c1f257326a; 0x7903c2696198aa1e; 0x4a0049ca107098dd; 0xe1c386c18658ae0; 0x7c102e18eb2354ef; 0x1e57e8782c9f3913; 0x5d483daceb498f10; 0x2268b44b758f3a05; 0x177cd2272327e930; 0x3bed1f477276777c; 0x5d880b2ce26d53ad; 0x478be2bcc94d9be0; 0x5cfb3acd30f28a; 0xf8ee3749ea1a71f; 0x6c9c7d626cf6f7f8; 0x6d411f721be3eb38; 0x59d0f7bf74cb930d; 0x54473dc3ceae59c5; 0x54b22d954c62767e; 0x73a10269ba9dba56; 0x3f1ee4e2e4acc6c1; 0x31c42f4275cffc3b; 0x37ff311ea895d15; 0x761b1d43d90b71a8; 0x652bca3a4e5ab560; 0x226162e7e8084df8; 0x2b5b2e3ebcc96f02; 0x7d0bd772cf99570; 0x39846ff951ecb0b9; 0x113d789e1c166ba0; 0x51b5656ca109dcb6; 0x41d01b2ec20c579b; 0x2043ec4d1f552ba0; 0x9b6621944a0361c; 0x2f50a7206ce56894; 0x1eef7634b734c61c; 0x6535e408ac38c231; 0x6d20dcfa4bc75e29; 0x4b2478acb9107be1; 0x38280f3c314e1ab8; 0x3554d3d1d404ba4; 0x6f038eb6b26cc332; 0x6fc943e886b7d92a; 0x22447ee05a519a7a; 0x183c433f535f0f8e; 0x2d688dcccca4e9cc; 0x607190fd61ac098a; 0x7719a16a0278fb2a; 0x97135fbd8eb1295; 0x25525cd910881ebd; 0x18b0cbd405a20251; 0x1abdd8821625f272; 0xed7579b9e45dad3; 0x609d40f44c2242b8; 0x3fa8b0f8d7f5c07c; 0x4b48e011b4b488f1; 0x772a669938801197; 0xb0c1e63d4eb2acc; 0x8eabe9d3ebf56c6; 0x1fb4f7288e0dd0a9; 0x4c1b55a285c8ed82; 0x4705b8c94b25fe67; 0x42d04b295d2dd339; 0x418208e8fc60ef6d; 0x67ccf0a78a6b97a3; 0x41b6a04605bc50c; 0x54f2f51b35c8d687; 0x5464436e4cb5dc38; 0x341c2fbfc0ee70ca; 0x3bc8ccca31a6bf04; 0xa36864f0b956922; 0x10f81fb3a57e37e2; 0x210dcc04ec65c37b; 0x61de4bcbdb9609a0; 0x3b5302212c5409b; 0x4e211a0d6e4d1d75; 0x6146cab14e293d02; 0x6ee5f0f8f1da7317; 0x6d12c0ef4a01834c; 0x6e06c95a0f6bce84; 0x5396a4c2f3c8f835; 0x4b65961f703ff7b3; 0x6f252e23d5d3196; 0xa07f4f59d7ca969; 0x304f15ab7ec86c30; 0x647677d4fad4f82f; 0x7c1b88fb31d4d8e0; 0x702ce4d033a3efc9; 0x1dbafb3715c92904; 0x37befe7aa1990fdc; 0x71e282d8ff99dcdb; 0x2269a1898d7734dc; 0x6c25e30622f760ef; 0x4cc3f281600cf777; 0x3ed924bad2554bb5; 0x10b81b030bca1ad8; 0x1100e3ad055518d; 0x75722613e91cec36; 0x74f3fb1befb8356d; 0x5ca1718cdf17b6d3; 0x318c83237c83c37e; 0x40f2acc08e51191b; 0x3eccdf16aee4fac1; 0x47acbb9faf78b8a0; 0x593186cb66f4102e; 0x299f4f4febfcc851; 0x35499f267fd71656; 0x1c84e4];
   [0x7c451d04d6fbaf8; 0x5877429224e9697a; 0x163f0edc914a545f; 0x8d829ab57cd23ae; 0x1117447a112bf51d; 0x4b8256b5feb2c98d; 0x18bbd7b2833f4d10; 0x79c295b88773858f; 0x47901a4a65feb7f4; 0x34e3b167758abc9a; 0x27af0da7e564c108; 0x21cd945e27b5739f; 0x52401ffcb5edea25; 0x7b8c9fd0a0f63f57; 0x14bf248b6b94be05; 0x1ec7058f3f6a3734; 0x5d507cc78d459342; 0xd54f9e0567f8824; 0x7dcf6522e1c25981; 0x5e24d1f7031d5686; 0x11e86d5b75d83b37; 0x4ed5a2144c7936c2; 0x6fe481ac0bd446b; 0x5a9c7b82d41356b; 0x1194db67b5ca153b; 0x2b6637395aa52bce; 0x699d3ef719c1d20e; 0x7354faee2cc87afb; 0x7f159dbde1b15750; 0x57581a6e9a65f082; 0x2db20dcef370662e; 0x701fc5a4cc299e0b; 0x352a9b958bb4ded; 0x1658925d339a28d5; 0x7c4042ca21a00d4b; 0x503606565735afd6; 0x738b32a5aa08471; 0x7510b5e483c6d548; 0xd834537f6a47d7e; 0x6d718223f7bdd25a; 0x3ebc184292ea2c3b; 0x7b7ae2c20046fd24; 0x423bad0629391f58; 0x7c769ee0f8a453a5; 0x2bd384ce9c1f6671; 0x7172f1286e197ca; 0x1627db5b90bb7c38; 0x2242029dc60dbfa7; 0x78ea81a313a7dbb6; 0x50c397813b27ffdf; 0x2ddae2a3b08a9843; 0x30558335d6fd5459; 0x58a2766c5c92adf9; 0x4f104754749de63c; 0x5cfca57c89049097; 0x41eee6d530587b6f; 0x73462457bddefe1e; 0x4205bb9acf145cb8; 0x158567b02bf8f6eb; 0x386ad82d9cf12fd4; 0x4fe1af7588c9c5b8; 0x5775765e2ffb8cf4; 0x4a00bf82e99b412f; 0x7e75f0cec71141ef; 0x25c03bad1fceb11e; 0x37fd1d3cb6f2cbb8; 0x6da21f8ec42d1d0e; 0x4131d2aa11b73d32; 0x74e02312cfa0b6e; 0x7fd050d75491b024; 0x170b1d709f9b1cfa; 0xce2b7218117c0e8; 0x24d31788f25d2df3; 0x4a3607b90d888fd8; 0x359e0f1eee6932a1; 0x3f8213eec280b986; 0x10563ac179467c00; 0x7de4f9067ab4d329; 0x659475f80848d775; 0xe8e69cb4d7bdcae; 0x2dd3c6df9083d0e5; 0xe684ce649196279; 0x6df7c8976eead0e2; 0x2fafca955f4b3c56; 0x4ce4577252bd2819; 0x3ef67e7352ca1495; 0x555bbd4a1d54d009; 0x7135242d1a68a028; 0x46bfe101c1ac966d; 0x76e37eb8bf92b671; 0x2d66c2d5a1c26ef4; 0x4831fa5a50b92b2b; 0x72d0d9eca86f7e30; 0x2432afc87af71d4; 0x37e6b700b043ad7b; 0x574b8215dc6fea69; 0x40e13d4c04db4e84; 0x35bbe740607a8241; 0x11155fed90a92c4f; 0x774ee7ee3ff8d284; 0x47cf1649017c3d21; 0x5d6743878337d499; 0x6c7540556244242; 0x492c0a16a7fd213f; 0x65cdbadc36332399; 0x34de843ea2a1d9e7; 0x5ad539ea0d6b485d; 0x3b03c8a45e65d73e; 0x1a46b2cbde18f494; 0x2575e353633f0eda; 0x6095c4f2edb1bf7a; 0x214705cc9ca78ef8; 0x1295eea4b20682ea; 0xf74f94dd3017637; 0x353ad0c00bb3ea4d; 0x54c25131383c84ea; 0x49f0d79aaeef663c; 0x46a14efc25d8fca6; 0x3820717251547f45; 0x5aee570f62f3623c; 0x796175330080e0a1; 0x13c58242b8335ae2; 0x6a43fb1534a1c07a; 0x41f1fadafe639cb5; 0x2643ef3f65a71edf; 0x1816ca0d3676c89a; 0x1e6387ed08d70e29; 0x16d78cff23140287; 0x28eb290b5df9e8df; 0x5264c65c5f83c448; 0x4b1d43346aec9d91; 0x644ce0bc9607632c; 0x41c80dc29e41d535; 0x2a6dca7380e6b8d8; 0x6a54be6aafc36f6b; 0x1ea8c7599f26ef16; 0x6518877156339795; 0x6ae739c4a5a12f70; 0x76c16fee3167ad24; 0x208f2540508191a5; 0x10cb123259910d59; 0x3d9f9dabc30ee80d; 0x1d23370dd6f1c55d; 0x4ad70e7fa62e55c6; 0x4598f6869b6d0a35; 0x6dc0da277f2fffc1; 0x467524fd9efb97c0; 0xb56f7b0ca303ff7; 0x52919816365bd522; 0x39f5f3f4faadf359; 0x4f33781f737e0caf; 0x987abaa32f9c592; 0x48e038d4ff4a26cf; 0x79c87056ee341d93; 0x4a8b81bb9e1b49ed; 0x1155827413ed9413; 0x4eae3beb9be2a198; 0x65f6cdef886cb1ab; 0x526fef7aeec38dda; 0x6f0284c14e245b7d; 0x17cfac046fa53d31; 0x2eca7b214ee7d173; 0x55a78bda95c5bddc; 0x2e876b4f5b5efa06; 0x35947c6bd27481f; 0x439c72e67e13e330; 0x34c9adef93b0cedf; 0x7e978dcbce8319ce; 0x779ef22581f883bc; 0x6d5eeb101b96b70b; 0x308f605f8868bb23; 0x737f80af7ffd00cc; 0x258668db4e5ff5c7; 0x4694f3391f40ef1e; 0x601a21ce1b5f8da; 0x3f12af2bc751b901; 0x5d5a14942844115d; 0x6adf799ae051ae4f; 0x52745b154901f7f0; 0x2487a8a089825870; 0x65d5577abe843110; 0x455256c8f707b5a; 0x256750ea036304a5; 0x51afe3a2449c085d; 0x2a9d9d75e0b8bbc2; 0x6d13ac0e1b7a468d; 0x71118600246b716f; 0x38f152c8fbecbf2e; 0x194210a6f7e10219; 0x393609903b87ced; 0x3942515728cda290; 0x4f321d114b24b740; 0x5892067dfbd65654; 0x40697d34f60491d8; 0x67a9a561b7f43e34; 0x3d721e002d229753; 0x7278fdb978f23360; 0x6f95235fdedad68c; 0x2413360f4a6fec02; 0x5200c17fb805515b; 0x764d05709c20b80c; 0x4eb533da36ae0dcd; 0x44894460d59895e6; 0x563856616e83be8d; 0x4dc197a4d235dc10; 0x65a8e76a1455658c; 0x1fbb52bc80fb84a7; 0x32f5e7987577e399; 0x22c02681f154cd27; 0x3f96c81c1aa90bb5; 0x6305f6114f58a128; 0x72c139c8485262ef; 0x5c69a369ec03df9a; 0x63c5ec9ee585fb6f; 0x1048fb8abbb662d9; 0x7432e9f9265b25eb; 0x942d21d1571f0b2; 0x45e9ac0565298688; 0x5c965282256a1d6; 0x53a4b9711f3fb1f9; 0x708ab75de733d577; 0x36916fbf1518ce61; 0x20445fddfb9eb7c8; 0x62080df9b92f7bb5; 0x39fa1f6d5e1eac13; 0x19f3ca15c587f9a5; 0x61cc5e4463376987; 0x47da6ff4a8f934f7; 0x6a779f9192e5d24b; 0x47e9d035cf444589; 0x753f24925bf896b7; 0x50f64963e93ca724; 0x284fd5cd3d6f2161; 0x5c68342eb622c85d; 0x561cd1ac09c400b6; 0x302a160f70767707; 0x473acf05f3c50627; 0xc28029f4a16c8d3; 0x5e422ab3d81547aa; 0x1f59e4dbe4a46a7a; 0x1476af26c03188b0; 0x50f61442ea21a3cb; 0x68f5928042604bc3; 0x300d00a3cae1a060; 0x2b20482805896f36; 0x479621f27f1c77d0; 0xfa9b727fd4a4084; 0xf21f79832f78621; 0x4d46c78f669782e0; 0x25fea3a04f09d33d; 0x33a338b3aaafeecf; 0x32b2fd233037b7af; 0x3491eb8aaebc79cb; 0x39477f27bf672321; 0xcb1bd183a88250; 0x5103fcffc753131c; 0x18b19a25f0141573; 0x1047906ecb9a0311; 0x1b93b6a6c9a72048; 0x5520dca5eb8d2e52; 0x5faa2c3054f79832; 0x45d7712e0237c942; 0x85b002c2ec4a20a; 0x10ae8afedfce7422; 0xfa993ce06f468a1; 0x3893ea9ae379761c; 0x77b61841fc8addd4; 0x195db8ef71aebeac; 0x1c732b99d3074aad; 0x6c2322dca714d71e; 0x18d2448dc2352759; 0x3d4a8be78dcfe8c1; 0x7e72dd7647713a55; 0x2f9bfc575e8fcc38; 0x65bac6891f8beebf; 0x2b97db7af97ce223; 0x33e70f826bb4fef1; 0x7914383f69197642; 0x1bd4f2c82dca2bfa; 0x2ceda95112f0334a; 0x6d232a5807e3a86f; 0x587bf17fde6c5371; 0x33004abb624d0740; 0x49159f620704e8b9; 0x7981e4b951175a26; 0x7f7724cbe2b44ce8; 0x6b54c32dd3ddb57; 0xa3355ca33d83f6; 0x652f9e592fa9d037; 0x77e53deddf57902e; 0x7182fc93c3c18398; 0x2c859b12d44220ee; 0x1de4b299c4b60897; 0x2b673eeb0e41220a; 0xe33ab0e0cb39bce; 0x4f2eff1b46a6fb06; 0x29a25b3b9332a39d; 0x5999a2907598f48d; 0x78a6aaa2984fb154; 0x7980f9ec2ae9d890; 0x64dd70fa9b9c5fec; 0x4716d67b855032d9; 0x1d7d4e6b0681c87e; 0x81e8607dc62b17a; 0x5a9c397f73820067; 0x410d334cf93b4932; 0x36a1f2d976ec586a; 0x3cac292cdc01cf9; 0x170dfcbfcad5a805; 0xcab718e74329bd3; 0x313395510c319a10; 0x336f648662dd8d8f; 0x3841b2261676c290; 0x7bacc457b4f94179; 0x651908dd8e24a866; 0x3ba292e73b709fbe; 0x252e3bbf811b6fec; 0x5bbf0];
   [0x171fc964dd4c5d79; 0x3315003dc808b8ce; 0x6e79728352a688df; 0x4153c47580dd3685; 0x1c797ba880d77c87; 0x70a660b9379386e3; 0x5d6b43a7032d1645; 0x3343ee5303b02262; 0x13833d8f30dd6200; 0x77b64a6a7bdfe160; 0x7276257cff198906; 0xf4eac480ec2ed9f; 0x72566ca4d3567567; 0x1bcb60661aff419a; 0x20398bf86347de32; 0x3e2934d3c5b02c22; 0xb63c072449cd391; 0x1f5051b584433da9; 0x17ae356fd1c92bd4; 0x70dafa4d4a1a78b3; 0x76789796cb8ab405; 0x2675457f2836b5e9; 0xff5f7b61b8dd4fd; 0xd10657972d263db; 0x4de58d73b8ba5d88; 0x25dbb7c0214c8ecb; 0x5f70ef8c548f7be8; 0x2123409f4cfdc19e; 0x7c9b974c02465557; 0x468e9a48224a01da; 0x7f8b43599de39732; 0x23592971b2050ab; 0x74a1f87d32230317; 0x7bae378ae83e763d; 0x1f188116cde7a7fa; 0xbc2893e290edfc5; 0x497fabb4aae2d2f7; 0x7ffdb3bbec52dee0; 0x4374594990c61b41; 0x2cc9852cf380e9fa; 0x35d15c66a673b067; 0x1f56ed0ed680f5db; 0x20017ec3d86c0a65; 0x5153d3ac9cb764c6; 0x462cc325d075e6d9; 0x666f198e004b35da; 0xc8f881afd6d903; 0x2ce0d8e1d4c007ab; 0x2ba89c22a1b48d5e; 0x353dd8a3862bc7be; 0x4d4bf37998471747; 0x39c0858291e9fbc7; 0xf36275b5b163703; 0x7ee2b409222647b3; 0x111b97d759e83db4; 0x79f7ee8d73049758; 0x1699a4251ae73196; 0x5e8bbb2118b46f9f; 0x247f50b0c4e057fb; 0x724cc2bdb94ca5ea; 0x7d02d9d0d74237dd; 0x68565ba96db2b82; 0x7b82f0dac2f6f7a5; 0x38abd68c71e52a54; 0x36d0ecd998f2edee; 0x4c0de240ca6d1f77; 0x273e960517743b5e; 0x543dc71083205860; 0x6acbc0545afb48fd; 0x77a8dc1ff83e4248; 0x5d3ef2a958bb0479; 0x4b5c90b45176db41; 0x35d9991589e7e545; 0x43b61daa832ac05b; 0x311ee7b9e19f9f71; 0x1bc8c3f0ee6c2625; 0x24df0d61f334f109; 0x3eb45a1d78beb6c0; 0x5de42888bad29690; 0x792eacf45cf35789; 0x337e75f902ee768c; 0x294c855cf43c277; 0x6c8f207241c77c3a; 0x74d0ad379f9adf85; 0xbe72c10aa6f50a3; 0x74e5e66ca9aa57be; 0x3a72401a93b2f4bc; 0x6d588179a1e326af; 0x9eabcde433f5f36; 0x4622099e450bfd3e; 0x69ccdde8bbd912ec; 0x6026e7918c7e3f97; 0x600e7feb113cca7a; 0x354bbee9dc93c2b0; 0x314c16c106fd7b21; 0x2d739150a52cd264; 0x5a7b4c98166dd7d9; 0x400ca3270e1c094c; 0x3f8145c945cb2b30; 0x17804728a04063f4; 0x27743bc3de0030d8; 0x2587fe7b0bfe0f64; 0x5b1ff3403908d6e1; 0x5d4a4a26233a133; 0xed6c1bb966b5424; 0x65482eac72b0d9da; 0x654cf783deac419; 0x4e4e01210165e986; 0x537c68c16df8753a; 0x593040a7e2a6482e; 0x28994d35d81ac3f8; 0x27d5bb7372360d3b; 0x73cd984865d83c11; 0x493aa1f7ea9f8789; 0x32f80174c45fcaaf; 0x75dbcb52ffaa0bf0; 0x228a28f6067ea058; 0x5f1bcbc5144c804f; 0xe98756ab0025a9b; 0x765d49810af98b2e; 0x721c75c50643a82e; 0x5c359f2e5b20b451; 0x5bb78c5020c33387; 0x61c9746c4c70a8a8; 0x6b1fb26a87d03bf2; 0x4fea8642276f83a5; 0x750c52968d1afa9d; 0x5dade13156957f31; 0x1228b94dea777dc8; 0xbf9501a3e7b7c98; 0x5586c19ffbb01467; 0x14c68e7932d0cda6; 0x2b1d033d60c10a87; 0x3115b5a4df6763d2; 0x2f59980482ae8667; 0x1d00626144d17a8b; 0x217888c4473283e2; 0x4ec2932e0ab3e066; 0x3837e0d6637ad0ce; 0x62286a5c308120d4; 0x754f2976fdd335b4; 0x2a7b4aad68b403d3; 0x6a0d91ee0fb570e3; 0x4965c5516ed541fe; 0x5fbf7eea5ec7d1a4; 0x73569cb479d126f4; 0x4bf610eee6cd06bf; 0x63779fa5fd7ae58b; 0x4e3084d9fab2e7f4; 0x23bb499250a931fb; 0x7326d6ddd0ed6a9d; 0x7e6d950ded126c58; 0x24e01712eb7a59d3; 0x9d9cb6278498a12; 0x963db9225734709; 0x7802e4fe458fd56a; 0x42afdfea5bbd7273; 0x60771139795a5371; 0x685d35c2c6a66e; 0x72ed5ef215677b67; 0x39fc07e540d18244; 0x6d974610389cb1df; 0x61239aa5f8584746; 0x5198811016fcf9e2; 0x6e13cc789fc057ef; 0x45a9dcd73c8c0c64; 0x59cf915ace2e29a9; 0x5ac906eddd9d2b5f; 0x7ea2f040f5f0d185; 0x939d821bcadf056; 0x6d026b4a4294fb70; 0x38774d6f1f47924e; 0xfccf231602937e1; 0x162b5e21a8b9df45; 0x491795798e840423; 0x4312680cf910a0be; 0x40499c983feaed75; 0x40e4c77789c6a768; 0x23961f27986c71e5; 0x2c48f20c866b8a40; 0xc04063a76889225; 0xb5901f5d6055eab; 0x4ee65e3cad42c206; 0x6ae6a479a3da190f; 0x1b47236135e2be3; 0x63cc9e0c2e8f072; 0x11366b2a44432ecf; 0x497258ecc62c3b3e; 0x4c7f7c1435245898; 0x4283f54300578c3c; 0x653c9556098b36ed; 0x1a7d49a55bb787db; 0x4977a045abf7f136; 0x3e95743f0ffd111c; 0x2aa4ea497c47c399; 0x79a9b9ae29624115; 0x65fc5c69613155ae; 0x6e258e46a3d90f2a; 0x78a45e53803adfe3; 0x7cde9dbf55b22b36; 0x34e32a38dcb13cfa; 0x3410f99b62718456; 0xb30a7d85cf20436; 0x438e0ae8f264bfc7; 0x74ed9b700546a7b5; 0x3549f0e2658e7f9; 0x21626356bea1c5ba; 0x4ce266aabb7833a6; 0x4cdc883c439ea928; 0x40fe2c8d30c4b80b; 0x5110424122369145; 0x675d0b486ccdab74; 0x41c60b9981e91c05; 0x1bfc1728c82e8084; 0xb6d88be7c0084df; 0x66bf667d8bbb7a89; 0x10a7aae055d396ea; 0x4faf4e737404b106; 0x500aa7f2e5975249; 0x57b48041d2efdab6; 0x48ec3c4010d880c8; 0x5ed9a861c937b298; 0x6e739a5989353cec; 0x49956900874ccfc; 0x26db24d34b8074f6; 0x32f2306d4e21393; 0x3c408b8e23b95af2; 0x70f66eeb3a2afdf; 0x219edcf547b7f0b7; 0x3d15bf5904c2d751; 0x6cb9c205cc370243; 0x473b1bcb213ae618; 0x14e4e7cd2a251666; 0x4c986c8abc7242a8; 0x269dd6eccee75100; 0x3a1b340d4f8ecd71; 0x7dda3fcd5db97089; 0x3d31731f379c2c64; 0x6d3d15049d8497c; 0xe713f991a831cbc; 0x3474a527e1e352d4; 0x2ed751ee679c19e0; 0x6d4fb9bf0b3c4853; 0x275e8aace7bc30f7; 0xa56c535c3cf0f9a; 0x69d18e6cd0dc7ba0; 0x5656d4cd84afe007; 0x36cb5e0fbe1b3b1a; 0x1001c6132686b26b; 0x6d21f2fb02b25be2; 0x5120691d604f05ca; 0x5a48d34ceb319d44; 0x1a83dfd3e6d73c1c; 0x2fa4a93c6ba14d5a; 0x1685f6829ee45b75; 0x5a33d31d98d70711; 0x54f264e270e4d425; 0x38ea0630cad116bb; 0x799b4f5dc6c69f7d; 0x7fd825db9050a5f1; 0xee9d03624b5ccc1; 0x66e447c24d49225b; 0x49ffca7370e044ab; 0x109284b67240aac2; 0x2225ba722beee8f8; 0x23c4b7b8c82add4; 0x3c0a1b2b24b7b007; 0x3192db55b2fde398; 0x63dc1ff8bce65df2; 0x104e31728e99976f; 0x6383bc3812e8c82a; 0x409c29067c4a70b4; 0x3e60b9be538addca; 0x5a2be4d4a197123e; 0x26945a0b582f6791; 0x380f205f21f16cfb; 0x28ace0641ec1f707; 0x3ebc43b58a1104da; 0x500986e0bce0651e; 0x2d8cccd40dc42522; 0x94ef4b930e90223; 0xccc22343bf7780f; 0x1f6e90856bf3c0c0; 0x81024f2fd8bb835; 0x7a018136a31383f4; 0x88d5c902cec6101; 0x6f85cbe6e346eba2; 0x330f9dbc172f5df9; 0x464acd20f70266c6; 0x69824edc20760871; 0x26b05a78c2e725bb; 0x56b6427464f1eaab; 0x6f7c2e8f61a48fb; 0x71fa01b583c7474a; 0x75b6a209748af919; 0x50c25b2ff611fa23; 0x4c479e87a17f8282; 0x41be3503ca557dcd; 0x4e6e5a118f49c67a; 0x161d322242dcaed8; 0x315ef3c47687309f; 0x7e3fcb630f8ebca9; 0x5e3b64bd429b1eee; 0x701d0d0ee70255a9; 0x2171c467fcd56ebc; 0x197b6b78a10e187e; 0x45ede389b79422d7; 0x12d2ca3c85c87f0e; 0x41c693708ff5ab7b; 0x2fe5072836bafadd; 0x2c09c26a7e0641c4; 0x702d46b0ffdb57ff; 0x32ca780026f57006; 0x6044c989f9fcc99b; 0xd79cb37d9ab7839; 0x1d4e5e8dce0b0cc6; 0x6d8763c0b0be522f; 0x9d95e];
   [0x6ae2c3871f3ef0f1; 0x333e229eca892579; 0x4de8fcd5c3bfc395; 0x49f843f43e19e4ca; 0x393cc7034bf9bddc; 0x2d4986bf01411fc7; 0x2bb91f25f68527ec; 0x14387d11f504c01f; 0x49fb5f8451187228; 0x46eca32164f279ea; 0x3a00bd8c8b3e8583; 0x6e72f2634c06261; 0x60bbfd65602c8cdb; 0x6c749764ef8bb14b; 0xf90e377a122d188; 0x50f6b91aded865dd; 0x59cac67100d3bc24; 0x4ca981e7f0956445; 0x359f8f3e290ff756; 0x650082c4236a9c4d; 0x357a5ccc8a932128; 0x23edd0d0e4a8b9e9; 0x1e7e6ce30b47d57f; 0x6a814c31fd19ec8a; 0x30d2ed325ac10bde; 0x77339e4e032c6ad6; 0x339afafb05c98698; 0x2572a188f010d1fc; 0x468322dad6f00604; 0x25a8e4a8895bdfb5; 0x34efebc4b352e3d8; 0x4c20fa9ebe933a84; 0x934fd4102f0d3a2; 0x1694f024ca85de61; 0x4bd50af75dac621e; 0x6b06d00d3b44e429; 0x712ba94233322d3a; 0x248cbdb3fbfe8a53; 0x77431649cb51869; 0x6475520ab2f147a2; 0x15225a219936aeac; 0x1bbe35ca01e94f34; 0x634078be55b4ecf6; 0x62a4784f52bc5731; 0x4075e568beec6f38; 0x1a96da5e56ca75a9; 0x620f76208f7f511a; 0x9569a65c220c1c2; 0x2b518ce030ba70f6; 0x2818c67f24363080; 0x401a031c883e0afe; 0x5046630d5f193288; 0x24c5ecf1c7654373; 0x3e8de3af33aa877e; 0x2de24929d196d14a; 0x59b603a09a1ac7e2; 0x4188d9495f4a0ddc; 0x7238966251559571; 0x3e3aa051717abfad; 0x798fc78949fff592; 0x6d5e6abf4c7c24; 0x2767c2067ea324b8; 0x2b2a085ddaa42641; 0x2e9a463fbdb0601b; 0x6123db924d59b199; 0x2a0a4789879d182c; 0x1abba8d982cb83b1; 0x3cc67f53f59adf29; 0x39587c95a6d1bf32; 0x25be9778a6a180a4; 0x5130584110b5af8a; 0x7b6f85cd4c27fa74; 0x1c04ad37caa16417; 0x21a45368a1ffc9da; 0x5db495ddf7efdd05; 0xf679b6c52062afd; 0x48493c800edeae9b; 0x296f145786d6ec22; 0x1fce52fa3a23f3fb; 0x3fc4c92b2d19d74d; 0x62d5166d719a870; 0x6703b42357eda992; 0x513eb18cda9dfe80; 0x56618efb30d2734b; 0x4e61415b68db707d; 0x16ba6f6adef32498; 0x63eaf59c7c0c9b49; 0x51ab6a04ffe118d1; 0x6b13581fec96b843; 0x2950f147836ee1e8; 0x67687c713e9b329a; 0x155a2832a08cff7b; 0x72a0e55f654bdd00; 0x7dd230427283ab6d; 0x3590a691ece9e88c; 0x32fcf8d99f817bb8; 0x2ffb430f9da8236f; 0x5922f37737e4b842; 0x1ec8e8e231e671b; 0x22ddddfec225132e; 0x5e3e194b1771a803; 0x6a08baaf5c2b0092; 0x1585a1d4591e74bf; 0x5f52f32149a7d225; 0x2a2d9a2a741ba0e1; 0x60d0d5fd7c10dc24; 0x2d6ef68c4463f2c1; 0x21cc25a4cd84a53c; 0x8d7ac786ba101aa; 0x4945e36c143a1e89; 0x78358bea8df69b80; 0x5b5a2f54c92705ff; 0x32769235707f38ee; 0x6723935c38cbd1e6; 0x5a026097936405c3; 0x28b71b6f8d919cd1; 0x46448a97681ba72b; 0x5e4b828e8b122624; 0x76f52049ee2f7285; 0x18d4b9b7f50d430d; 0x79cbc4cd79d0c1aa; 0x601250975ca50d6d; 0x4cc230bdf8587dad; 0x631f05ca6c861d47; 0x464a27a92ca319b4; 0x25d9354a803db0f7; 0x6705ad769553e979; 0x692c0102a5826872; 0x42ebffd3661beefb; 0x160d74a6887e6885; 0x4ac02c2e0480acc6; 0x3da6fef84f8d57a; 0x380e6c7ccbd62bca; 0x68e7b44a2b13e24f; 0x2ada1136d828a361; 0x55dfbc80fc58bbaa; 0x57e47495cde24ee7; 0x5feb5fb6638bcafc; 0x4592440bf94b3248; 0x6d9864b93408aef1; 0x4d6b35b7a7697f76; 0x738022339598f2a0; 0x69c66d69c77cde1f; 0x59b2e71f8644aeb1; 0xdce9d4c8a2b093; 0x31fdd3642836a5db; 0x766d63c8bf04db8; 0x56abfd45d5fe7dfd; 0x11245ef8702863c8; 0x6195bf3c616e3aef; 0x4c1899d8ce75caca; 0x26bc2adff88425b7; 0x1694d41f9bcd2ad4; 0x284d137c4dd8d8be; 0x7f1c53905d0e009c; 0x76abeef9aa15f8ea; 0x78fe22aec18ac1df; 0x41a902dd53316dc7; 0x791ce96f461a4f14; 0x235097b427f3954c; 0x5fe27c84d746e40a; 0x3cb79aca09649dd4; 0x13a7416abb55b2e0; 0x73ab975e8f3c3969; 0x470e4253ac9cb4e1; 0x5be9f32d68dbe871; 0x35aa6f35b283c929; 0x3fef7b37986b800b; 0x1e657abef6c6e5c9; 0x2c117ef843cac8d; 0x36885f786d69ce78; 0x3ea71a33ececafae; 0x55a7d834105c9ab8; 0x5b28b388c19b97; 0x1cfb9ddf41c9e058; 0x7066e7ad21ac8ec3; 0x58494490a170e37e; 0x10cbe8bd582a400f; 0x555aecc4464a4aa6; 0x3b4fa54f4d7a9e8; 0x4e8d745d559f967f; 0x775335d79956595f; 0x4f1afc3f53d4e57a; 0x6d370deca2ac83f2; 0x3773392ce5fdd372; 0x3bc6bf6099e6ee59; 0xe785f4332f35efb; 0x49bb7955c3f3e5fd; 0x4993b72852675fc3; 0x63d43ca9dabe47e0; 0x241c9e0ee1e6550f; 0x55e5c43429151ce7; 0x6c60789178cbc7e5; 0x621ccdbb0ecc6d1e; 0x4b08a9cf099bcd90; 0xc0288afb5c9ce1a; 0x372286c0b92988a3; 0x3b9aecf3a9e2b8f9; 0x51a0e3fe58e31af0; 0x4667d2ecb4d7e399; 0x7e5182040c5535a6; 0xc0b14b4ff0fe7d6; 0x2152356b081abcb8; 0x53e73a5b647bc0f0; 0x76590282aa5183b5; 0x53b8cb0d9d882e39; 0x60a98b59e7a89; 0x10c2831df66d3371; 0x58c7c825b8031dfd; 0x6b2a5b1d6b0ec31f; 0x68204a4d0b108807; 0xeedda38c97b9291; 0x20244298f89550ee; 0x2cd1510497982670; 0x550ef26fc745ddb7; 0x7825988638c9e33e; 0x2d600cd86fb3a4ac; 0x37da1003686f242; 0x4bb81bba1a4e030a; 0x2747cf5652f7e521; 0x3a75435cdd7da2e; 0x344c5bbd724866d5; 0x68a2a990eb5f98c9; 0xaafcb45b43e5134; 0x793796e65cbfd32d; 0xad81e71103cc0e3; 0x3472acbdf684ab98; 0x1732a19b00e2cc36; 0x539909b32acc5d3f; 0x769619a769f1caf2; 0xded261c644b36c6; 0x3eff7affeeb49dec; 0x37c794e6d5ad44e2; 0x2ca3388c5008b405; 0x67f6369f82ba7f75; 0x2b90e466ba25c9f2; 0x5204744cee9b014f; 0x7a4c4f52ea24a19; 0xec4633f48a6a10f; 0x42695d469d0e1caa; 0x3d41c7dffba6c6e2; 0x4bc85487d9fcbfcb; 0x4cd849a3b993f5e1; 0x22193851aecdd6ae; 0xbc461efc5ef4c02; 0x1d135221a594301e; 0x6a02555018dd9640; 0x7d385a23da1b51aa; 0x6697477916dfc5fa; 0x565dcf52e0761f42; 0x22fd7afd73324c51; 0x6ea524f21dc41c3f; 0x65432f1a9a35a139; 0x125234758696158; 0x6a8c9809d00ad893; 0x77aefb676e01e635; 0x1b2ca9cec100ea11; 0x188c030b2deabf13; 0x2772766e2888eec; 0x28169c2c14bdddb2; 0x22a19a98c242ecd5; 0x106886be1bcb170d; 0x3d88f88a0ddb0531; 0x411d114ed901326a; 0x5ab2f2016ed92c74; 0x1ce29a64d9add44d; 0x774b468e73203ebe; 0x276cc65fb4786b08; 0x12e9cd8c68c6bb78; 0x25151ceb6518679a; 0xd5a66d4d2056e91; 0x7b2aa88097e6ca61; 0x2de4fa7b66dc8a9e; 0x374ea271a6089976; 0x7540f5fa504becdb; 0x6db7b6ea76b7f349; 0x7d89a58115dc6b71; 0x5047e300f2c2029f; 0x6bcbf0cda196f32c; 0x5ae2d0ec2dc32002; 0x66b5321a1eb121f9; 0x6cc4652f6cd46fc; 0x3d33d0ebca8fce2a; 0x43df667343e6c271; 0x2844594f57a4ebbb; 0x189da58fcd31ee1b; 0x2222f14abdabe82e; 0x82feef71893df63; 0x4319f58d7fcad386; 0x3a1d23e943f84d4d; 0x40d126eb0372e608; 0x60553b8876ad394e; 0x206e176bfe8a034e; 0x6288eec5fd660a7a; 0x57073eccd62e5209; 0x282df7f98c8e5d4f; 0x402eebcb7e52f75e; 0x2577c0fa492e1a94; 0x3b35d01c0e404a62; 0x7e198f90f7063fc9; 0x29d0e608f733bb76; 0x110c367a6fd07076; 0x3c213cdae33a4245; 0x6a5e2bfc76a588e7; 0x3bd77e97b260583b; 0x89a7474253e7997; 0x64427f8677634812; 0x35748f3771f06ccb; 0x7346c66743f346b6; 0x7c0b4a2364be36dc; 0x2772311394cfe0fa; 0x207853f13f84f551; 0x70d44b73a26acc5c; 0x5e421154a36b7f91; 0x2fb55c2bf37142f1; 0x7f12db8a0425d19f; 0x407977b09c4d0268; 0x21a6b1];
   [0x55825ff7002d7d6f; 0x6df650f13b1dca90; 0x49c9846e7f4a4ae4; 0x764b00e867ed66c7; 0x37e5cfc2a4a1f92c; 0x5b258d0753985019; 0x7a480d4d4604338e; 0x1b477979d9df095c; 0x630977fe25993015; 0x73c726ea784c745f; 0x70a5dcfd99451c6e; 0x32db629b311428c2; 0x3b06520ea84bf153; 0x2d19db4db0a49533; 0x759ad098ed1e91ab; 0x2842ced041f468e5; 0x2cea4eb40d2e2ebf; 0x72761000b9668160; 0x10d34349130e5f52; 0x6675aa50d6363fa0; 0x1e0eb37113b7d207; 0x7cff7e2175dfd439; 0x2adff51826e9f86f; 0x486c6d115644efa7; 0x3866670e842997fb; 0x191db15bd1957d70; 0x12bd457ff0342a90; 0x159fba307b8a3d; 0x378345e16deac931; 0x5abe07cd3a73c7e2; 0x45e8ca62fe78fe27; 0x727f2568c3834738; 0x4ede7874b7ac6264; 0x65784d17b8bfb05f; 0x16747c8088db44c5; 0x172c80354fc08402; 0x536b3bc6614a1c9c; 0x56dad3f17bdf42a4; 0x6068798b17b4db45; 0x37a51f948cdc42e3; 0x385ba079e5244129; 0x289d2fc2bc691d07; 0x67031b6829665840; 0x4afa9232b6eb828b; 0x63fa5a90535a70d0; 0x1a86181c425e0946; 0x39ae05d0220227de; 0x5a0426f1e2abf48b; 0x8661356f4db0e99; 0xaceebe291cdefa4; 0x41f8f5b739fc0b55; 0x7d720951f552f76a; 0x3b0d57b432cf413c; 0x68360b5427e4903; 0xf9eb531e7d44fbf; 0x239990902f73319; 0x2f66ceffbc261043; 0x454f10c7a68db509; 0x336ae51eff632416; 0x225b4daceb35273c; 0x427e76ab14aecf6c; 0x655d5ed71364b419; 0x1f4d0396b8241d8c; 0x4b5d45e589fe079b; 0x7dbcea4755e860a9; 0x53139572ad178e67; 0x1f85bf21399e4b13; 0x663f866718e102e7; 0xc1806b374f5fcc1; 0x42203752e0f0a543; 0x1c20137585405953; 0x7d88390f8c0ddcb5; 0xb40261f3c2fe525; 0x57c474e4d8cd5c84; 0x4b67fa337a541fd6; 0x365d8d3602e1b939; 0x6cfe775b4f1c5a20; 0x7e4ec3f3a93b8a5e; 0x19f7ea01cc89beba; 0x2a2677d6cc77af07; 0x4ad8c6260f52066a; 0x13fcdf284d74c906; 0x51a4d2e2ba763944; 0x7bf51e4a722ec1d5; 0x5efcf9c0026a2ac1; 0x76f647a3bcb417a9; 0x20bb8341b91e45b6; 0x377c1ba5e1edeb79; 0xf25dee25f601262; 0x64f482f098b27e66; 0x4d14a6b19f9c50c3; 0x772acd3c230b743a; 0x49c410b29834dd06; 0x5876617e367100b8; 0x6d3c1f850c1af627; 0xb4ca059edd8990a; 0x4c6534b291850d25; 0x4d4ba56b92bce2e7; 0x134bbe1142d1020e; 0x6a0dbff522614d52; 0x442408d59f3f5718; 0x7b1197115eb2d58c; 0x7765739f699756c6; 0x2b6598b31798b84d; 0xb17fff0672fea73; 0x6dc69d34bcdbbffe; 0x10d5f14f6da89b58; 0x65b05cee49f10dff; 0x2589b972b133d7e9; 0x23f8e7c3eb6801fe; 0x746fe5300b28ad72; 0x504d4cd6aa054c9a; 0x4e18000e1d661a43; 0x104436527ad2406e; 0x23f7a83ac1e993a0; 0x3842cfb20210c4e8; 0x7305cc539e001caa; 0x5da79b13d6bd5c2; 0x320c3bce58d52373; 0x5752f7e7d80a746d; 0x647e9af3f35fcbf2; 0x30dd60ddc69fedb2; 0x11a9a91d2d4dc443; 0x1aaace26818eca33; 0x2c55d047f2ac7bb7; 0x2df3e549b02edb1c; 0x127cd6bc46513449; 0x406e028c8d89ea26; 0x198e2cc90282ee9c; 0x358a008cab18a003; 0x2176be26a685776; 0x62d22e158b497318; 0x13af9b5b686efb6f; 0x637944bfeac96ff3; 0x424a7ef9bf4ab0ef; 0x3709fdab1bd06b33; 0x3bc73c4548424463; 0x14ae49f757218cc; 0x6830f6d90a2b2a3d; 0x521a49144866a14d; 0x74fd888333788e06; 0x74643e976fc54a39; 0x3d2ab263d3271ade; 0x4ccb4549e1f1f1ba; 0x151e870ba5ca3af8; 0x2e566581be86d514; 0x4ebda5f26a9f740e; 0x6eecf1859b5addbf; 0x375c45f19733a2d1; 0x647dc84fb02892ba; 0x1a79478e84299cc6; 0x1506f0eb8c805245; 0x7e56ecfe3e80e95c; 0x79ca213380164a1b; 0x5bf247ee99fc3195; 0x1b8780c18df28f76; 0x2ec43f4fc291a455; 0x21493543ca838057; 0x6e03c551a09a4a06; 0x3342d9f9a5fb0963; 0x4500385e2149c954; 0x56ca835fe48975a2; 0x119b990352aea585; 0x145ef00286ca3cc8; 0x766967828ad6fa4d; 0x764b9c76228c9a70; 0x77cdea116b0881be; 0x1d8f634d5bd3c6bb; 0x73c7aa9a781f44aa; 0x35ee2c310071eb48; 0x3ba285a89b6eed17; 0x7f895312762d7e18; 0x364672c37af70c41; 0x721e68f9f3b07e53; 0x3323a9c815aec7c8; 0x53466c1f3e906733; 0x5f493535ae24c927; 0x350d3329875dbe85; 0x183d12a76cdfe447; 0xacc141048723c63; 0x720eae3596d56be0; 0xb28c999e7fa32cf; 0x5f577e60e9ffafb7; 0x78a1ba890b6674e2; 0x4d4cc71e9c4f05f2; 0x40779467e1db9b26; 0x760089801a5b7a8; 0x650a2c938578a6f1; 0x3590242bcf89144e; 0x9efb5164478763f; 0x56e080a588ba0684; 0x5736d83f784590e; 0x3844bc05163e8a49; 0x1dde07eb54014e7b; 0x7079d560204abcec; 0x41b54554356f9454; 0x12bcca8fd9e55b11; 0x5a0db03ceb4376da; 0x594ca11f2368046d; 0x23465246d89bb50c; 0x4769e167b5593089; 0x1be840863b4a9f20; 0x69ebb4062600dd09; 0x43ecc5a6e6246611; 0x76fd92242cc47a7; 0x206009860a6418eb; 0x56949dfdb931e7f4; 0x7c06ccaf1b93c9cb; 0x2854aabbe1de875; 0x2dd73824d622515c; 0x4c458a724da45664; 0x5db3e3e1135a587f; 0x58c5f58a68d8ede9; 0x45cd47b196bb7d12; 0x17cd903d7aeca3b2; 0x2cbe3dd4b8ae0a17; 0x8667992df18b09f; 0x768b659b7193f579; 0x628fa3416ac8277c; 0x5aa39dd9a55e76b2; 0x573083380a32e7ed; 0x1d219a1991668b31; 0xb3755311f01cd0a; 0x7299347ab65af37e; 0x45fd55e37991b0b3; 0xc9fb23823a3097a; 0x59326d9c48f2b81b; 0x17cbbdbdffd28e96; 0x50604ad11d2d6520; 0x4bc75a7465fb6ede; 0x2417002aea95f239; 0x5c950e0add37c42c; 0x7df7ac0123280f8d; 0x50608511ca4b5e96; 0x76d255891ba37768; 0x7cb05303ce3a2231; 0x91b85a9f99dba49; 0x241b23c3bcdf3971; 0x4cfd6f5d3251618e; 0x37c55714de0bf9de; 0x4ee19c9fe93ea4e9; 0x4b36c462d8391e6f; 0x689c14cb62e667fb; 0x4741d948e5b10eb3; 0x61a86b5e8bf8e155; 0x649924e37c407c27; 0x1fbb1dc43b912a0e; 0x4b1c4fb914216aad; 0x705eabdedafdc410; 0xfe390c45c2b0a7c; 0x6712f0e457e90953; 0x3404f3bf9cac1c9c; 0x2316405429b9b12c; 0xcdddaf9d7b775ee; 0x3a35e49b8f77f1cf; 0x54841b549c83c12d; 0x1f95e4840bb926b8; 0x4d021e65e1e78e91; 0x648fb6c2079f559c; 0x271573048fda03c; 0x3c47c68b1204a5e1; 0x70616049a8a67f20; 0x8b6eb36c7f18d; 0x7cd2b9caf1f356e3; 0x400c7dff4eec00f; 0x69d05e0610ed9fbc; 0x49a927d18a033e8f; 0x518e760fc34ed1ff; 0x50a7787eac923a2b; 0x7d55c9836b64011d; 0xdbe95f021ee79e8; 0x5619dba8843e9c03; 0x3f52b1a6e7a0e611; 0x6ebc535136a9b8f6; 0x64edf17b37a602e5; 0x56762a08b54d8578; 0x70935c2980a3bb9a; 0x3192f1a1a8183eb8; 0xe23bed6e4d63149; 0x18b40bf3001b850; 0x99be2a21d4d16dd; 0xb0c6a2379bb5317; 0x14f5ff9bccb9f62f; 0x607ab2476d0543c7; 0x5f018eb16f356a69; 0x59abe79b0ba1bf4b; 0x12d37053fe7a1e44; 0x415279b97569da52; 0x2f68193c3ac57531; 0x7e20cb6e61346911; 0x3161922fb0d7fc8c; 0x74f208a3f4d4dc18; 0x6b2dbe95cb215a97; 0x64fcd66d0b4fe2aa; 0x205d7d7dbb5052f5; 0x713ee3f93f31b86a; 0x2f7e41a8fb993776; 0x7843c2b880d18bc4; 0x4037d4b5244d8f34; 0x2a2748ef6e095927; 0x7605e249112093a4; 0x1ba9696900f7d94; 0x601feca21c0ab27c; 0xbe0731a6c37a319; 0x29cd22f1666d4423; 0x54c0afcd4e7db484; 0x6652701e738f11e8; 0x21e564e8059ab019; 0x4ee2de00f6c38525; 0x7a471b1dcf4e73d4; 0x31bc597887987199; 0x378a9b35a0fc26be; 0x15155ca53d914340; 0x163894323ce1fdae; 0x54c727f95767e2a2; 0x1ac9ee7b17d69914; 0x626ecd371df99ef9; 0x329834];
   [0x404eef7361d04f66; 0x45bdf8b8444e035f; 0x45fb8554e28c33d; 0x1518ba7ebf8ed0f3; 0x6a80bbb7db74ab; 0x6026a8f766e8218f; 0x787a791ec8897a33; 0x6a7aa4828daafb70; 0x38f78dcc4320a695; 0x3e6966693a679e14; 0x7a20e642883045a0; 0x59ad9c77127c8e02; 0x204dfa6e99326f1e; 0x375c7f373577ca22; 0x14f75ecc802beb15; 0x7e48c426a545b69c; 0x881544f395cf07e; 0x626c01bb0e18ed16; 0x2adee3f798477427; 0x3385ea4d91dbc263; 0x1a50b43aaa48d3a9; 0x32875dc89568372e; 0x324129be2afbe4c1; 0x1c11106b335edc36; 0x5d5da35470a7047c; 0x46b7a98aab7c8cb1; 0x1f7a32ee35a51ac3; 0x4d489f45a22d1230; 0x283b34be844a9970; 0x71034ac34e430a0a; 0x321aa3d6dce16ca0; 0x59d61096bef22b0b; 0x64ae8b7acde85fd2; 0x795df53e2443363f; 0x7c769d4abbf64f05; 0x6a409ae45d1c7362; 0x6a319311fa44b9ba; 0x4c9bf7ae727d85dc; 0x33782f238f7e6dbc; 0x58a928889523c2b3; 0x6235af202d14bfc9; 0x665161442de35305; 0x5550004360232cac; 0x3964a46f9ca47297; 0x78dba8e103e44013; 0x3eccae49ea857b27; 0x6e324672d9b5109f; 0x1bf47d1c6059c9be; 0x11b1f01683753a6e; 0x7fe58f8fdc8e6e35; 0x361a72d8b1317b9d; 0x4aa10f2c262a5b46; 0x1ebf8a40467c2851; 0x13ee61ff317c9140; 0x4ac8f12b7d627538; 0x7815c5e12f89f2ac; 0x70d532593d43bbd7; 0x5f34b4e2609920c6; 0x627c10214f266df9; 0x5ea0e7d1e0315117; 0xac6e542fe1b13b8; 0x140033b6fce8c3b4; 0x2307e720009a890d; 0x3fff2e7860a3d8f6; 0x1a5b6591901acd96; 0x33a4738ac2d3d551; 0xde3b954b7ff45ba; 0x490671c836e38c81; 0x3217624407c1b174; 0x13cea8410bb275fb; 0x5a66897087c77086; 0x56a4aa703cad6882; 0x68dc3774f5f8293b; 0x68f6d19f9646b44d; 0x3ce157c8289b5dae; 0x7c265c94370f4e5; 0x39294eff9ff09cc2; 0x524444ac6fdcdbb9; 0x7cf9b5011ccae9cf; 0x7d09f29dde2125e3; 0x61ff0dc653fc0a67; 0x5bf954b7c06422bc; 0x7002c714f7b039b2; 0x2019128320c91b12; 0xf378ef529590c0d; 0x7fc797704e7f027a; 0x25127a42910b50ec; 0x12d9dcc50d18b96a; 0xf440496f348c224; 0x77bb58abaffa4ea4; 0x150dc670c5c4be4a; 0x568cff09453884fd; 0x4e3c937b53af7fa6; 0x1d679872b95ffd8f; 0xce6c1d1c33d5168; 0x156ec538403cf93c; 0x370bb73756ebcf02; 0x7f51b019de997c6a; 0x51043cd64980df9; 0xbe8d8e16ac41026; 0x1a80f204d3c20e3a; 0x1773479ebb0a1a75; 0x179adf02b3809004; 0x9dd285a37e4eb8d; 0x7858dcc5b56d3718; 0x72b5c8147e6b3492; 0x73842b8ea32859af; 0x40e9008dda9b24ed; 0x55d5d204693cf9e6; 0x2f4970ab23c90ebb; 0x2ee4f87b37c72a00; 0x587db55a6d065997; 0x57bb7fe39dd5ceff; 0xd92dad3c91ecbbd; 0x42d7a0c36b26fc35; 0x486360eab6b17b8b; 0x52073668b5a7ccf8; 0x282b05bfdcd8b512; 0x242040b1e0b0b359; 0x5eb4568d71563dee; 0x67d1108d6695b139; 0x629441963a6df6af; 0x29d8e84562eefe6c; 0x54d9e6db3a2061b6; 0x112326c26af6497d; 0x64ad45873b9d6c75; 0x5de5e4ad5849689; 0x74ede6fb14c4bf80; 0x28eedfed46c82b1b; 0x57ff6bc7b6088a44; 0x5651828649e04d90; 0x51fb926857f0337e; 0x41982220c96efacf; 0x358971a26ad1c90; 0x2dd9b446f211f4ff; 0x37f4e933b5da202f; 0x22c33712fa7046d2; 0x6dbf8a70be5e5f6f; 0xf90aa43f8279e06; 0x381d17bb5f38c9f1; 0x4fb0ce559a8b5af3; 0x7493290b8be76205; 0x5f0a0997eea61ca6; 0x4ab4312c522ac92; 0x52189e6abe1f63e1; 0x52b358fbbef4ec26; 0x676bce46f89bc6f8; 0x506ce6d70e1173db; 0x407e20af41ad8084; 0x6ccb1272912a3b16; 0x1a9f58d86b45b838; 0x66c06135d00dd745; 0x20603c9927741faf; 0x1ec6401c822785bc; 0x3ab8a365901f21bd; 0x52bb43ec18031f1b; 0x74a5904c42030a19; 0x5fafdc2b8be0b977; 0x5c13f0ae964e6811; 0x2d6c3ea6aa678c7b; 0x3c46a1b5de8952a5; 0x571e25451d2936a5; 0x4bcf44658888f681; 0x8b134cadd6ab3d2; 0x48ccaeb088b8c7b6; 0x13af6d917c5f6ac9; 0x1d18ef3515497d59; 0x3232b0546adec44b; 0x13c44b037949a56e; 0x1dcbfe18666eae61; 0x3b0fb7b3e15504a7; 0x5d1edd9c5dc122; 0x50ce07db26b2160f; 0x6d7119438302c872; 0x2594fbed49ed1a3; 0x51f69dfd6d9ff27b; 0x3bdc7818008d5031; 0x7c1ec0afaff7668c; 0x1ab54a58952a4f5c; 0x476f82d729308cbb; 0xe982a4b3753f91c; 0x1df9cf47576677f3; 0x5dece6a78057971e; 0x6cda76dc8365edce; 0x37f57654e8682443; 0x597e1d2f6ee15534; 0xda3f1255f4f8f24; 0x74c58eb74fff419d; 0x33eb4e0d0e104a6c; 0x397f22f35ec82f5a; 0x2fb5e974494c5b02; 0x4eb0d7e5a4af22d7; 0x2b282b6ac3ae1aa7; 0x4af972a321ee129c; 0x3c03eeb352a20bfe; 0x12cad833121832f2; 0x74e3c0d070a47ba5; 0x7642a516cb3d21cd; 0x45d6f0307b39fb9c; 0x6f96baf6f3eeffc0; 0x71d638caccf93346; 0x1fd8c2f6824a8a0b; 0x7c7726289187e8dc; 0x1d1887c139b682a6; 0xcc6ab983887e4b7; 0x35562b8e29755d75; 0x3f9bf9ad22795241; 0x734e1b62bee16fea; 0x7a21522b35967ec0; 0x4381cb35494e0811; 0x60f3541dba665c6e; 0x5739f8cfd5b1a9d0; 0x447f2eca06945435; 0x4e857a6fbc42bbf; 0x5ff206f34480e778; 0x585ee6f950574b16; 0x3c66067cfef475c2; 0x569dd0f4339e83b9; 0x65a27bca1ac292cf; 0x5344f0267432fd95; 0x43e15c0345d4578d; 0x2d657bbd7822c752; 0x2f7a59cb2c343b61; 0x6de4bc11b993b730; 0x4bfc2645e20c2145; 0x2a7c72a8e8c2d5ab; 0x6c9582245388aebe; 0x5d4f3d036037f150; 0x3906da15e7c06729; 0x3bf392f813438f9d; 0x1ac67a2b4d3d4ee7; 0x45d39e032623a6b0; 0x373d1a7dcca69160; 0x54ba0f90295b0d9d; 0x54dcd9c1b7dcbeda; 0x53aa297ee85b06f2; 0x151af01349411bc9; 0x77e5d308c13bbef9; 0x3a9c6f7900faab7f; 0x4fbd409634e9e33d; 0x60fb0d1ba4d7b1c8; 0x75dcaad35da94441; 0x4803d111a174f74d; 0x580b5847d7b7fd4d; 0x42684a2834be987c; 0x4a89e08347d013e8; 0xa99c12faa2c790e; 0x7ea5cb91d41072a8; 0x21ce7c8d98c6ce56; 0x2a63facf2194752b; 0x7a6de911187f3e09; 0x523eb891fa7aa13a; 0x705c93398d3ed555; 0xe370cc060f8261d; 0xf6469a3042382c6; 0x6388563944fcb5b1; 0x2a82a5f6d2bbccd5; 0x193009f9a251e183; 0x16fcce8ea054e7cc; 0x7ffe9518ab49073d; 0x466cf9444465b963; 0x1a369633154975e3; 0x6ab39b5eb48d4c12; 0x319cad48a66fff84; 0x40c3fb1daeda2c42; 0x7d0a0141129dde01; 0x4820cc0e8a2fea0f; 0x32a8da9f9b449c80; 0x26e5655f1dc043d; 0x6741e5a92c381cf6; 0x4be06d3976f514dc; 0x49f0515c1c9d5f15; 0x49c2e428ba95c218; 0x105220358a41cecd; 0x345627e1d7b907b0; 0x6d335687e1b4d0eb; 0x77b93f43a65d621a; 0x74b9d4cf7efe5ecb; 0x5a2c99b626bdfe92; 0x1bc47327777d6031; 0x65b17164534a3533; 0x380e5ec27bdf4e64; 0x71d7f43e1d6898e3; 0xfe862aa3c1765ee; 0x1f9126cc47f87364; 0x3219f12dd6476aef; 0x5a97fc68980c5942; 0x289139e5c80caf2a; 0x1f6612a0beaf06f5; 0x703ac17c20679e8d; 0x7f3552539db622cd; 0x6fa73d20f6d57788; 0x272d3c618222e3e6; 0x5f2b70b7e2406b39; 0x1cf4bdd91a5e7cdc; 0x71dc042844c3a52d; 0x78d9ff8f1fb04008; 0x1bc09fa78791f334; 0x69d20ec07ec458c0; 0x4d272618e292b636; 0x439a9e65d7cf6113; 0x44694de457b1823; 0x991a33070364893; 0xed6a3fa6498acca; 0x106a816457f3d05c; 0x22b6b6c9e6df92b0; 0x364cb3d7f1f8085; 0x6fc6cbbc64619b9d; 0x7fdf18b93d699bcb; 0x7c4096eddcac7413; 0x13961c44229679db; 0x314c74de4c2a9ae5; 0x40bb36709db1f9ab; 0x367f7b6d3cad8ee5; 0x5806b8cae5c9d50; 0x70f0f9387dcc9f44; 0x3b47d679f969c716; 0x1c3818];
   [0x7e9c7318297d6a0; 0x7cfc605c7053fb71; 0x1c61de95fe3621be; 0x2e29596ed2fcfe32; 0x5a13044f540167f8; 0x14a29eca5d068634; 0x5c5af91eb623fc91; 0x5bbe496f55e0fd89; 0x7b23f2c039795ea; 0x2252edcdc5998055; 0x61cbc0a6e76adae7; 0x58021f18130236db; 0x38fc3e41f3c809cf; 0x5282810ae5327d5d; 0x56b1b4101623b212; 0x950c9ce3cbb32ca; 0xf1d6ae706a02deb; 0x3fd220d05434a5ce; 0x57f6652eb1e5b478; 0x431a013e3bfec75f; 0x5589cb958ce78d0e; 0x677329c2ed76b2b0; 0x2443ea2a94d2c927; 0x73713ed52ee979cb; 0x392b23eaab7667a9; 0x54491ac6d47b612f; 0x1d5422e3f6ca45a3; 0xb0d8666542171fa; 0x27ac9a61c81a392d; 0x3f03f765b0bf7435; 0x797757f48de2958c; 0x236223859f941560; 0x7221e51212447272; 0x3490d83676ca3e5e; 0x679d93e536d80285; 0x13bd12b99997bed8; 0x17b11fbe3145f36c; 0x638d64d0e79366b7; 0x4e6ebbdcf5e786b; 0x7ed6d0bfcec08835; 0x1a7ceeea74eddd83; 0x7d41fd1f0402e4b1; 0xfbb16bf48c4a896; 0x16d16565e844dcad; 0x4711fb2c708f900; 0x5fe6e2785ec33f2a; 0x6eb5a99f9fcea8ad; 0x5e5547f387212071; 0x51a09e88dec6556c; 0x5e55fe21b8db1cd1; 0x59dc42f65d233b97; 0x123e9bfce15972d7; 0x86d0dba7dabae5a; 0xb29e452223032b6; 0x8cbb3292abb6d49; 0x39e7330da1951c3d; 0xd25b6b8c13aeed3; 0x196c1f04aec943cc; 0x766dff086eaa81d9; 0x2f05422e2b9bf3fe; 0x2cb6dd8469f03090; 0x11682ce7cc57a26; 0x571efb890c67109c; 0x55e70dd5e2fd31f4; 0xa0b4447df13de59; 0x7c9d09c37a2f1a6e; 0x37cc293c385c0181; 0x5860cb4826f7e59f; 0xc44afddec480a46; 0x660fa08c13d0b4ef; 0x5dce270ac3fa8f9d; 0x2a3bc3dd9bf0e247; 0x6b58b7903d0b4e45; 0x6142ba250d50af69; 0x18524b9b9d2d5938; 0x52ed2233914e4381; 0x7e53d740379f4c91; 0x5d6a4753b709b617; 0x4abae6a0c8738f06; 0x70717fe456b599c0; 0x2968a690f93d938e; 0x4be93f5f36aa036b; 0x288d0447059a5368; 0x46b74bcc8026742; 0x6e3d3f945a55af9e; 0x37e15ac161465c73; 0x7d4dfe12403f937e; 0x6fab574e356351c8; 0x1392882451265fed; 0x245dbef97f6946a6; 0x58e92ae8ad384b4f; 0x746541226ab8d33a; 0x52c39b6d54a5e452; 0xae126f8ee010765; 0x2a1e4e16cd4c8ef1; 0x5a7bd1d251788ba4; 0x37df112f252f07be; 0x18efcc9e4349f360; 0x46b95c85f13f281; 0x5293d35d33f4a8be; 0x4a830d494051f864; 0x604ea91b5822e391; 0x183383bfd5ef33d; 0x47a8f4a0fce6e5f3; 0x4c8427415d7b2ed9; 0x689baae20b585b38; 0x64bbd3fb0720b0a2; 0x60104036b5387fe4; 0x148f0396986d13c8; 0x7efd3f3c814b29c6; 0xafb85b19f0a85b8; 0x6038a457b5b57c38; 0x7ea48b6000e9c703; 0x5accc84c9ad61522; 0x61cd527b3a255445; 0x6f1c87ff46a1f00e; 0xed8ad550087a242; 0x7ea3229667fc4ba6; 0x28188dfe62f6273c; 0x75f8075871faa576; 0x6914850af8a58a25; 0x50e705889bccf5b8; 0x70cccbe49719f245; 0xdadb9a18862dbc8; 0x46e3036e1cdda745; 0x531c4562f064201e; 0x1099904ac6300335; 0x7a0dd64f3573b63e; 0x785e82651fe7aacf; 0x52bd85e8d8f0d829; 0x11f8335d9747dbc7; 0xf6e7ce18fd26309; 0x6605804bfbd0fb47; 0x5c235cd8c9a31f8a; 0x515a173d5212de51; 0x27b7bb4ca9ae87a3; 0x302687b666111d90; 0x2573e2661e2133af; 0x11b45a080395b237; 0x35d96e356cc73cf5; 0x4226eaec2016825c; 0x78aaad607e98a38c; 0x1ffc6bfd0852c5e; 0x16f7e71b7fd62149; 0x6a984697da77fe0d; 0x6fdbe144b501ef24; 0x2a146ae30b116f52; 0x71ad69facc3c3afa; 0x1d0df6e9b5a79d9d; 0x2f279e3628c73932; 0x2695ddf92d33a91b; 0x385c26933bf00d72; 0x29241fd91fb7e61c; 0x127168df1a06f630; 0x2364b3e9686c9df8; 0x7237dcfa9486b2e0; 0x614cecd4494146f7; 0x7bb4b32ed24db95f; 0x517a8873208c6e69; 0x1275c600c30c2440; 0x6ef3ea229f7ac9ee; 0x72ad066ab9072daf; 0x7f7a2792e2ec6ad6; 0x1053b8601c82dd15; 0x7835611a9977a694; 0x5a1f199457360f56; 0x5c8f56f2a3bc0ff8; 0x5b33aedce5b449a0; 0x3000cfe019c30b46; 0x261bad128d0f1ec2; 0x8c9ae369c23f2d4; 0x74e44eff3a274f3c; 0x47e50a08adf7abeb; 0x326183c55b09ded8; 0x56ae720358430124; 0x118783920a311ec9; 0x5a3ea2c6b639c514; 0x3188b1ad12baecba; 0x22571253f4f99550; 0x7dd5a648df6e63b2; 0x2332aaabe6cb8e16; 0x2c9448475ac7b226; 0x7b2a1e1816e43ac6; 0x8de2b0058e8bfa8; 0x51f420a97feadb4a; 0x43c413926fac7ef6; 0x47ac7de737a43576; 0x2dcc641c46ba1a91; 0x53322e979fe79d5a; 0x193bc7364122a86e; 0x4cd57d6cd82d5b8f; 0x489620d62327ea8e; 0x1d144a938830e413; 0x71bba1978f4b6ef1; 0x433a67138c6b2155; 0x3f444c976d7fa608; 0x556645aaae3bc8e0; 0x4e9ccba3a8e0256d; 0x68fcf1650b7a75ea; 0x817c2d3186b7080; 0x7b81edf54f8b6ea2; 0x46bb4e00088fe6f8; 0x702aefc126ade435; 0x369d6b769f5a307d; 0x7cc8bf666ebd0878; 0x504dc7cecfb27c66; 0x4ddd66f5e780eaf4; 0x47ab425294cafe0; 0x2f697274f8d5aa4; 0x725a800c53873c53; 0x6d0674be638f2cea; 0x2d78e84f3905e469; 0x589cdd151526d2c5; 0x561ae3b0f178fb52; 0x55c2360e22f9ba96; 0x99ed4b387b6991; 0x111ca622a8471415; 0x198bf1338dde5497; 0x6347d6c9b5ae517e; 0x656c8e5a26dceb0c; 0x319c1c5c6697858d; 0x2c434872095a1ea9; 0x1e86ece66199f60d; 0x31ba088c62a2de9c; 0x70cf133d163c3db1; 0x61dfb6745c8a3b55; 0x521e177f5c5e9e07; 0x1d1b3ba54cb50e77; 0x3c4075c24aad90f4; 0x35dff0bad781de76; 0x660afc15479c1e77; 0x5af3c8377e3b8f18; 0x5b7f5d3edfbeb019; 0x6b8e260726505acf; 0x574e89b14d5cb138; 0x6f335bc6062ffaba; 0xb1a17d91de44a2c; 0x972a991a2c18705; 0x50fd0f9ee453cbd7; 0x19fec7fd29274a46; 0x36935a4f4027b18; 0xb1f97ece0de9294; 0x61e10a97f0d8be37; 0x2becf9c0bd6e877d; 0x3006405bbdba9565; 0x5fa9deca7f18f29e; 0x6997aecb554011d9; 0x1e8eded90212cd1c; 0x32dc5e73e822a8d1; 0x3441c643e3e3e0f4; 0xecf5d8ec6990267; 0x67ea1bf4198ee9b5; 0x540517eae6098f52; 0x2a4c9adcd1aea264; 0x1831b00bdd170eca; 0x20e165447a432514; 0x15918128beb4a0e1; 0x6c2869142ed25724; 0x63aa2efeb036e0e4; 0x7234e99c8dd2daf8; 0x7245b7395435270c; 0x10e9c62803158080; 0x702a5be7bee6a677; 0x28ed60142a78170a; 0x327187a0e8d4948f; 0x458ee7c57b9d54c6; 0x352b8cbbe4f0085d; 0x3d83c673ebe3bef7; 0x6276e4e1f4b068a0; 0x772882a30a74e0a3; 0x3f184f5101382ad8; 0x15fd1ea8f6b21406; 0x3bb109e62ae34762; 0x73ebf8de7713d2cf; 0x3d28471e8d5fd75e; 0x4b22e6bbe8ce8e54; 0x185da85876316bd6; 0x4c62bf44ce2076c; 0x3d798f512380eaa1; 0x598c0600987de447; 0x5caba0740af8b124; 0x108d8ef38fe208d6; 0x295a9f6f788c15b6; 0x2fada40dfc7042ee; 0x24deb8cf720a4f51; 0x73f3160f317d05ab; 0x21d7bc05aa295fe3; 0x7e86ed3b60c8278c; 0x71383c2accd84d0f; 0x5bdbfb84a0aa8107; 0x34d5a5bd99e55081; 0x3ffbb9621a621bfd; 0x335bab83029414da; 0x7ccff6e9a6a3cd45; 0x5a3f359b0e865afd; 0x39657205e4860580; 0x539d65ba13171c05; 0x3a0f872bf75cc8f9; 0x3e080ca7d2c81b23; 0x6007784906af2e12; 0x6683e8da47a1908a; 0x2fc8ddfdb0f47e77; 0xdde07c0681df48a; 0x2af772fdb1df83c5; 0x169484758fb73488; 0x778d278bc587904c; 0x69771bda045127a9; 0x7a9ab7f76a28daa8; 0x35501be502953a7d; 0x603a13d92d86bc3a; 0x6488e31223428a40; 0x23dd0ce6c87f823d; 0x3fc8ce0978cae88; 0x41cb687c8142e133; 0x5c93fc9e64c75781; 0x2583a9231bec8021; 0x7b24ac4f4ae105af; 0x71d59];
   [0x6e24087e99221e49; 0x727ed38672b94bc5; 0x3d056a1abd905ab4; 0x4ea2f118d81dc6d9; 0x13ba787c172c8ac8; 0x236a76d908b3ba24; 0x1ab909c50ac0468e; 0xcbc03b3cfd1864; 0x7edaf0e5a0a5cbe6; 0x5702c72fcf8d1976; 0x12a70926f2ce6595; 0xc40c5e0cab207ef; 0x623cc3ebfa69bd1b; 0x50588124a80aa795; 0x9efae7de39ea3f1; 0x3fb2ad63e2c7f17d; 0x1cab10a07f85774c; 0x2eedfc6182dfcf9a; 0x6b4ab333a5cbeaec; 0x7f6f69753bb301d7; 0x29b421d7d414cf82; 0x493d826b174542cd; 0x4b86b27b54d73679; 0x1b70d17d1d7f365c; 0x51d2911aa8d72d2f; 0x47ad37d226a2e796; 0x12cf71ce12b72518; 0x26f24bfef1fd2ef6; 0x392103627206b5b1; 0x7f5c588db0bbbfad; 0x1c1c84d8fe0e524; 0x1647eb1086e3a76d; 0x3f848f6186a79853; 0x1b58037aa31e953f; 0x565e667851d492f0; 0x4a3b6769aed9bfee; 0x1408d48c9b9e0f40; 0x27ae840cfad7e153; 0x1e7072a7f57b0db5; 0x6e3b8c666542acc3; 0x20cbc8b2fc6a75ce; 0xafdc5521c6624b4; 0xebfe9554ee33594; 0x651ac13c9ea64437; 0x36bf4ea19cf6c369; 0x2e3cbed857a260a2; 0x1d519effb016769e; 0x1f5c85c1460be799; 0x6d8b42db887ed66e; 0x56b7323715328b9e; 0x3a9a8fe62692eb1c; 0x5080dfaddcbd06f5; 0x5c472d43196c7ec4; 0x2ace65b3f5c7e9f; 0x331f8cd1e34a7896; 0x5bb54a70943264e9; 0x76b57c09f8914624; 0xef85d1d1bfb496a; 0x6740918a503a42bb; 0xc6ed8c8dfc8d317; 0x136b2a40fd3e4860; 0x6d2051bd9a308cbc; 0x1621d3064488eea4; 0x484a5e3be53e68bb; 0x60e1e8b425c497a7; 0x2413298c1206b07c; 0x757097a963076a8b; 0x13abdec27154003b; 0xcfef76ca213313a; 0x629ef219d06d895e; 0x66297716fa7ba720; 0x5df8fb944078de71; 0x35e219f1c9135b30; 0x7e34aa19f9ac97e1; 0x1f80b732478f7abc; 0x922fde234bfa4d4; 0x460b4d52962dae80; 0x3821341c33d5599c; 0x77e356c7de37a7c5; 0x153825e9b2f78fb8; 0x324ed377a1858dc6; 0x21d858de0d096b8e; 0x790cbbd007cbd035; 0x313dba4d0f098814; 0x15dfcbdbe6903fdd; 0x8f49a225e613f0e; 0x25b5df28642b5069; 0x71d0c1a10d95c1cf; 0x496ad180658fb7d8; 0x73e2074eb303d331; 0x5e81bf0171c25b60; 0x4047820fb9d8e96b; 0x5ae18341adc8fa11; 0x3f3e5337859d8fd4; 0x1f814e489be4379; 0x307018fce4ad7a68; 0x7a4d035676c68f27; 0x204548f7687ff5e4; 0x380c9a148f0e37ac; 0x16f44856f825941c; 0x3185701331e09c; 0x6e76e93a1f225360; 0xa00815738076cb4; 0x60898f62ce072c0a; 0x13493b042c5db439; 0x7ad0fa904aaf6b8; 0x2cdc783a7892deeb; 0x1dcc21eb820148e0; 0x4c4b3384bfb34dda; 0x3a7fc3558fec1734; 0x14cbbf97b62fab93; 0x63b7514967870b45; 0x48e90a29c068d4b8; 0x5258ba31656d9bc8; 0x632fd2059d38bf0e; 0x3470c67d9047dca5; 0x72575c3b062458d2; 0x2422feb3760080f9; 0x68e2ec6971392996; 0x5adab541584ffa5e; 0x1c514a1de12a6262; 0x2d71c03b1fdd99ce; 0x336d80cc2ce9b5fe; 0x78b116c609a77b5a; 0x6e87c5f43f7b2a62; 0x74d626c28d03aef2; 0x112c365dc4fac57b; 0x10ee5eeffe0bb232; 0x418fa7db7cf27c59; 0x5577b41188d4dd50; 0x688c97446607aaf7; 0x6f2a6178c1bb1f7; 0x1895345c4d4fb8e4; 0x5a972045ceaacb25; 0x4d894b549da6fd67; 0x2a7407f4aaecc7cc; 0x60d81eb3ab2593f5; 0x1b5faa99628b81e5; 0x3190c2bd736f6743; 0x42c48535527a39ab; 0x7003f9abec08e9f4; 0x62ebf3535bb1984e; 0x3b0748582901028f; 0x71ff9c717a483cad; 0x6d8720705be0af9b; 0x42ed96e97d520700; 0x2ce8c26b9a43185e; 0x609d6f25dc11ecc0; 0x252ffb14d0ab95fb; 0x2b187ba24e1c0234; 0x4a758157884ca5d; 0x7bd320ff2bdfd749; 0x6c5bad76f5ab22ae; 0x3b82239f168d129b; 0x1675aca7ad65ce74; 0x38b642bd8e7886e8; 0x698fd8601ecb509b; 0x2aeff64c432fc6b1; 0x4dc4cae7be33cd32; 0x50d2ff975ea871c3; 0x28949028c9cad1f8; 0x611562655f5a14df; 0x3bb9c9c9b3ee33a3; 0x3bfc879e771ec092; 0x1ee701d7e79fced2; 0x3747c13ddb3df1c5; 0x1bf11247ce8d0ae6; 0x1e726fd2bfc1d665; 0x1f77c12baeff11e0; 0x1f837a14c5d9698a; 0x4d827b41027a214e; 0x6e7c1198eb1e8027; 0xb82895be44a28ac; 0x362d609755ef11f4; 0x113bbf8d9f800ef5; 0x70878d0b9fea6021; 0x4c52ddd53f425bd8; 0x629d3b6a356998f5; 0x707a2b06836fcd21; 0x7f09bf60662375ce; 0x49047616d42243f0; 0x7bf46a7ccba51f43; 0x1d2814cb6e2588e9; 0x3fe02c0758b4fff5; 0x4088a3aa67bf74b4; 0x4bc124822a440d76; 0x4faf5ff3e93154d6; 0x2949924997d49055; 0x76c100a234ac784a; 0x379806653bf60cdb; 0x65cf9497065849ee; 0x5172baa30a391990; 0x749a54a067c1f094; 0xab9a8bdcb440c78; 0x7c7517964537bf1f; 0x295a4897b4fecef; 0x7e84f0600dfaea4b; 0x31b192216096cf54; 0x10fdc1f006e73e2; 0xd7f54cc3176fd11; 0x2d7a9082e03bb4af; 0x1988a38a2796b196; 0x5331919f951fb776; 0x438592ebfb36d3d5; 0x8a70c29a520426b; 0x33ccf16163d5bd1d; 0x34cc63dcd549ef17; 0x5a638407c9e814c0; 0x6a7716dbc85673d; 0x5757ab165818a101; 0x517b84be79b29ddb; 0x81fa59f9d38b18a; 0x5d402855b60cda29; 0x10e6782f68dbbffa; 0x1bf279be6395873d; 0x5d9df7be071ec4a0; 0x5358cfaa75b8751f; 0x51e7d8ad4d2ae45f; 0x3ef2f81ba516d454; 0x5db5b12cb87d4a93; 0x48680f824bfeecde; 0x7f500a8e8f2f13d0; 0x5874107551fb666; 0x6869fe183a62daf7; 0x55b2ec91e981bc6b; 0xc35838e20b01a0a; 0x763a90fa19d76912; 0x18da5040207078b3; 0x6c04457e91742008; 0xb2239d6d3322460; 0xc8365f738dbd9ef; 0x790285f7280b9389; 0x48c8c25903b350ff; 0x616f4aa6db7c6f67; 0x45fe5f7478d33a43; 0x7757cce51a8c437b; 0x794d43a9b419b720; 0x4f919f25ee6dba89; 0x80378906028c00b; 0x79acdcd186ba7a4c; 0x5e433a19ebece3ed; 0x111cc193a7105872; 0x64f7bdc8c9eb68be; 0x6980f144be9e3124; 0x53325bb1841ee468; 0x79215ec034c63b1; 0x1c7db998466849d1; 0x6a858434429665c9; 0x26aa8faee0294e6b; 0x2a59934645c6e307; 0x544684e41e35693b; 0x3f770fe3361de426; 0x2378624a257b7bba; 0x6fab39197220ba8e; 0x3a8fdb79be5473ef; 0x7dfae179ca98df05; 0x751a27042d9d3c5; 0x180aa0b7577633d7; 0x64408f61dfc6e3ab; 0x30be92deb252c888; 0x4f8163fc8bbfb273; 0x53863962ff29acd4; 0x2ec5ceea17cd3302; 0x4650f0fc2a3e19f7; 0x7102f77a227953a6; 0x6d44fbc33bb02b06; 0xec90460c2f2e499; 0x4cfaa64579b4b6c0; 0x10d11c57a23d5bd7; 0x3e8035720aaa0bd1; 0xe5620e048a89f59; 0x22ff3aeefe38637e; 0x51d3f597e8923d03; 0x2156b8049b6cb406; 0x19afe02a821c0c14; 0x401674c39199316d; 0x44266e180666eab0; 0x73c3785c31e2797f; 0x57f58d3f2bf36500; 0x174df4cae38fff53; 0x36951d0e862b514c; 0x3ba36bbb88fb8302; 0x1342565f21ab5b97; 0x35064a28c9c1e559; 0x61c883069be96409; 0x63d4479687dd442b; 0x5b5c19ab7e62a51c; 0x48e0f3c5ba7bb55d; 0x6d6771d4b46ddb96; 0x479bafa4578b83b3; 0x27f7c79c6e4f1724; 0x3fadae8858bb5446; 0x1ab5682090da4525; 0x2ea029ea2bd00bc9; 0x12909035002d82e; 0x188fe5977966c1d; 0x637d449df1eecee0; 0x2131e590b85fe385; 0x32f5b52baf035ef2; 0x1bba15a10b47d05c; 0x210cbe1ef2ceafc8; 0x50997612abcc60d4; 0x2ca662b37c3691e2; 0x740781fe4a5d7bc6; 0x1b5705f28841a91; 0x1ea76a43fdfa5d81; 0x7bafca9520712f9b; 0x58e3a92d17c8be9d; 0x55ff9e20fe929251; 0x7f04db3ff84ff77c; 0x53e1c5586c1168c3; 0x229fe168b85bb9e1; 0x613ba7072d633211; 0x2e9238ea80263e25; 0x3e21305b2eea1cb0; 0x72d2eb24a6aeadfd; 0x6c3c04d10aceec66; 0x32c764];
   [0x1914a4ecd8ff9bc8; 0xeb8b1ab5f562cd7; 0x45954139641d8f80; 0x77c44e55f1e3f365; 0xb244e72f3c72727; 0x3d3e379c82577751; 0x37f6d8417df50325; 0x70cdbceb7929f5da; 0x1178b6133aea3d30; 0x467db6fd3ac1f9cb; 0x1a6078ede355a3b6; 0x178f72d56806a3cd; 0x13bbf45dd4d10ffb; 0x41d6c68bac0dc2d2; 0xe0da99fd6b43782; 0x32ad038cbffd745f; 0x6b351c707d9a8aee; 0x51502a0543cd1c1f; 0x485c9cb2672e4c51; 0x53ed42db2c1042dc; 0x729e71e6bb055e9f; 0x75d496370266dc77; 0x78b88d518453c253; 0x6a7a6e9b254895ef; 0x3c06d36a620be09e; 0x44d20f7d7692f854; 0x4d5af8836ad782fb; 0x1afd425173afcdfc; 0x73f33436fbd3069d; 0x17a20cd4f5710127; 0x433e31ec4925e404; 0x323dafa4eaccbf81; 0x5a4d8bd9e101e105; 0x40e5e5267f08f36; 0x4ac4342465002b2b; 0x4d635f411c6c56c9; 0x76ae4aca80c4994d; 0x4fd6f1f1c77d097b; 0x13e5d0d04a0a567e; 0x5104a08b984abf1c; 0x1f37e86f7a19123c; 0x73d47f5544265083; 0x320ecce14720d358; 0x6a61dce1fc6a4ae5; 0x2e00228d891d3b10; 0x33479705a1c1437a; 0x3a15b3f02da7c5fa; 0x6bbee14181f4c320; 0x296fba5f40847a4d; 0x3240472b5d859f08; 0x5ffd1c8ea9415db2; 0x1946587d59acbca9; 0x3fe7d7eaf7ce80f9; 0x71aa91b77132e09e; 0x31a95bbf4f6f5187; 0x5cb833f9b89b54fd; 0x211be086c654b5a3; 0x2a81fceb80d36dd3; 0x6f8451011dbecf7; 0x5a3136ad83c2b421; 0x649a774f9167d395; 0x677982651e43f830; 0x57b4eabff6422d8d; 0x3b3359f1634e10b5; 0x91010ce3aa0bd3a; 0x7a9583fe07a89f50; 0x52294f9e5ed6b12d; 0x676689681c0f1d4b; 0x679cd6a5820554dd; 0x32c840dd461616e6; 0x3559ccad886fe419; 0x71b9415f202d7c6f; 0x250ee59317a2ad37; 0x2ecb06924bc5d0cb; 0x4896eee242e9f8bd; 0x3abadf6f171d7362; 0x4ecb4c554e8efd80; 0x660f890ecdaeebfd; 0x742afe1a532e2276; 0x6fea1fc74a839e2a; 0x3e89294a5ee66f99; 0x14db000bd4c91c14; 0x7fea91c2ed15bd35; 0x6d97da3a73c787db; 0x5e0987ee7c0c9be3; 0xf3c85e797b9e15c; 0x3a5a2d5093e6fc37; 0x30df43fdee3857b4; 0x7274501455911e0a; 0x7dac8fc3b4dcb3ab; 0x36a1af7a24427a11; 0x6d26eec66070eab6; 0x147ccc97b3c4e7d0; 0x6d767dbd33024b7f; 0x73c583c3fc8bea67; 0x4e2cde7c5385c530; 0x7e2fb00b0ce16b6e; 0x51b24408f75047f7; 0x1e62fc3fdf3a0e17; 0x62186347c2a95110; 0x5eb0cc11ea3a7c81; 0x215b462971937336; 0x7ef8498188914131; 0x6b3482fa0d47ad3f; 0x4ac74dd3af513345; 0x3095c4f8473d1972; 0x5d87d82126ce4a40; 0x44dca63db8ec83f4; 0x6a936f2da00c415e; 0x434bb927637fb933; 0x5dda76077a4c045d; 0xf427f91727be996; 0x6b2b0b5d7bf91be7; 0x7eebd7aaf2fb6846; 0x1881c49ef1f5d59d; 0x5c87b8efc6065134; 0x71355e5a017aaed7; 0x56c3981e87416ff3; 0x7a0a6306f5de86de; 0x71892e2a40094314; 0x6b6f28d19097cbc3; 0xf94ce82beb040d8; 0x4b84a56110bf51d8; 0x44478b27d9da2641; 0x5cfd9e493930fdc; 0x5c6afb44a39a8e7c; 0x4dd4573c7c13ddbd; 0x2444686bb38faaa2; 0x64c95271982bf71e; 0x6791cc1ca69f1603; 0x344dd5f84976c248; 0x7ecc2173bfb771d3; 0x7c6ca3173d92f5ac; 0x2cfb943af2070d99; 0x480a55ff8e128dc3; 0x6d8f31fc0c624625; 0x5cf15aadfa782b42; 0x4a5bcfac6dcc673a; 0xf29e7a30a8cdfa3; 0x423ef5939a767a13; 0x6ddae0ff4e304054; 0x22a543b3c8379fa5; 0x6c4f2c7aec11e617; 0x76f2d4f0a2fe7535; 0xe509067585273e4; 0x778e1caf07d81120; 0x4ec19fe375d24e76; 0x14f204a5339a529f; 0x24760042450e1c38; 0x1761b6391ab00a6; 0x18d449be74835679; 0x2e0a3a10c1e75a2e; 0xbdf3dc9c835494f; 0x7fa98ab9e5cdee11; 0x43f5bc32554b13a7; 0x61134785bcc7491b; 0x552e0549ed9cba1b; 0x65c87ea4ac1eb2cd; 0x1f6a18c75f8b7f1e; 0x6fc08d0ae0650307; 0x710f68285dca8e7e; 0x3700c8deafe99760; 0x68f1bc341514b2a2; 0x2c506939c2cd9752; 0x35f09e17499af47e; 0x76b1c0bd65579fa9; 0x7ede3622cd01ab3c; 0x237dfc8a9bd7d2bf; 0x3f409242988f659e; 0x3187c435efd8450a; 0x415cc842b8e2ee9f; 0x458074adfd0969ce; 0x4108ed8f8cc3d427; 0x5fc96b8737ff5c7d; 0x22f56e358790dd83; 0x3567e235ab1315ff; 0x314ccd8cdf82d6a3; 0x728e87ed8da3974f; 0x2142a341a5d7893b; 0x7d31cbe5ab5a93b6; 0x1e2c36509d7a2c4; 0x448021c0662b5e3a; 0x31b723629cfbf208; 0x2e8b7e82c677d9e2; 0x5d769c1022bb0251; 0x19914c076d0c6fec; 0x5d40b9dd79de8687; 0x6c077c693fcece65; 0x1760bdd54689e590; 0x65743012007aa1fa; 0x99108f11be98cdd; 0x10443f7eaf9ca925; 0x482cf3c4bd703a1a; 0x7e98cac8dec12d96; 0x5a42bafcce71e0b7; 0x101ff517523ff494; 0xa31eb5519b5975f; 0x7516c28f731e446f; 0x5905e5cac747897f; 0x6ee029b684b26e94; 0x6c4381d4a0a034a6; 0x4f6e8d9d60f65230; 0x4dcf6301ce424b3d; 0x4002e8234210a4dc; 0x14c705b315565cf8; 0xb50982f35d38cf3; 0x240d4a00bd67a899; 0x508975e9e41bd076; 0x2c68b6f551299462; 0x6231260af2eda99a; 0xd39b9e38ed200d8; 0x10bde442fd2fb7b0; 0x3107a98504d0102a; 0xd18c14514d9885e; 0x5e9de1b4253de6c4; 0x7eee2c189757ea5; 0x6fbeb5ececfff29d; 0x4fc65a7ffc1d6d5c; 0x570a0aef410ba7cc; 0x467476f327221340; 0x6164aaf64fcdf8a7; 0xb4ced6afd1aecb8; 0x63d773959f40c6f3; 0x4ff9ec0c60536e99; 0x53867e163a24420a; 0x1036eefbc588e2c9; 0x160b67304f35e0ab; 0x3fa21151fac1ace8; 0x79abe54113c972cc; 0x79aa462b32d1e7c; 0x1490226332291a4f; 0x4d83ce9058cafc8d; 0x2ee0fb9d5a8771ad; 0x62b68f081ac44522; 0x4cf98fc6f06511f3; 0x6b9d34fa11797ca6; 0xf7a2cfe10bffe5; 0xa043bf0f814facc; 0x4d986a9410013bf0; 0x3092f3c11c818a4c; 0x63a560504791463e; 0x156045ef3203a51d; 0x61860be458b85372; 0x582e0a56a48a1bfc; 0xdcb232f6bae8e96; 0x52faa72adbc50674; 0x8ed53912d3694e2; 0x66a66bc9e7073d1c; 0x1ee38971bd03378; 0x6bd51886f598ee71; 0x4ea6f3933a1573fa; 0x6e2f4865d78459c7; 0x388dcca6ebc89fb5; 0x4965feb44fe72bae; 0x7e34c4941e553b8e; 0x5c5fd1b9c107f5fa; 0x4e0dc07bee0e1838; 0x6f5309a3f8c98814; 0xe337f934fa27ced; 0x4841cbcf31b22045; 0x1741525e9d68df41; 0x17ffa843fdc9be3; 0x2f8159c3d4b9271a; 0x513400354bae0cca; 0x910de3da833f1b0; 0x1bdb00487c4c32dd; 0x41dfc59c76c4d315; 0x3cf669b28371d5e5; 0x6e04c6145945512b; 0x48339be4e810e005; 0x7d1a329ba28ac8ec; 0x3e27b8db0fda04e2; 0x501bd07757d26061; 0x5cf7848ff2673e12; 0x7260e21b88b4b25d; 0x9d27ba34c32eb1; 0x782ed831e77c1f6a; 0xa3a874e3f440fec; 0x58c950d28f41c38c; 0x6b9242d0fff01ee8; 0x2e5fc87ac8c5ad56; 0x7950d385d1572606; 0x986d20d8094f239; 0xb509204c64b8e29; 0x2b9a4dd5e9c53a99; 0x52ff37160f57893d; 0x1137fc86c2059bf2; 0x191273cf851433e5; 0x577063c073096a9; 0x206144c87415a7c3; 0x232765ab28e4ec57; 0x2fc0d745eea939f6; 0x3cb00644bd723368; 0x5c4a5408a5c49bca; 0x32f7b1f7ebece0b4; 0x68f090d59fe6ad0; 0x6103247cc2ec9dd9; 0x1da7c0386405726e; 0x4cc17337036cf502; 0x52d70634bbfd8ea6; 0x3ac291736d3a3eba; 0x40122ee4898b1048; 0x749a150d5df73f53; 0x21449b4adc644fe1; 0x3f2d91e89968a738; 0x6559f49ab9bf82ec; 0x7c6d73a76ed55a58; 0x59d5b171be8af4f; 0xb0c14a8a8695456; 0x6e8c55ba008472c7; 0x47b8ca695a6c8688; 0x7b5b5659d5f82909; 0xae4d0996e6d311b; 0x664a150321a7bbf4; 0x4fe3cb022513d05c; 0x32f87f9a9c75eb01; 0x13e02c85004e88d3; 0x1e5ca3];
   [0x3955744b3b90f8b3; 0x19a3fea4292762d3; 0x4edac67df47d7a44; 0x71b593a058aadc4f; 0x1340af43662b98ee; 0x41c9047fd105f1b2; 0x5fb844db01b27bdf; 0xb7e518a5c9f04cd; 0x6c57db3aebc6c9d3; 0x6975bc0469d5733b; 0x78f39a66da8b5c46; 0x6180985a66bbe33f; 0x9ed9caa439dfe24; 0x1e1502cd2236c716; 0x434f30a29d3b3e2c; 0x154898e7c21517c7; 0x7e721adebef5d53e; 0x500b31c10ed8281b; 0x1b83be8c1da759ba; 0x17cadca9bd4c98ed; 0x5a9797912075e0d8; 0x702b15e3b4b3400; 0x5f877c6268411b6; 0x74798e7c00b1744b; 0x39546f564fc347ec; 0x5cc52d0775789ab; 0x10edace5eb0e5c6d; 0x7d97c5a5e617489c; 0x53eda0e883d28bb6; 0x5475e2c7ed898d8e; 0x207a30e6a0ebf24d; 0x31cbd96dfc1207eb; 0xb013bfbaeafd18d; 0x2aaf4e9a1a04618d; 0x44c8446123f54516; 0x596fee157166846a; 0x73db2b9e57e039c1; 0x67beb1626794aa9b; 0x39ac0c4bb0b1e9bb; 0x2c5b0ecfc41d5a01; 0x132212a2f75b1afc; 0x321c2203dbc7340b; 0x610ed0ad2a684874; 0x30391f4c22ea8eff; 0x37393a9d962eee15; 0x4f91b9ee3bc8fca7; 0x6c7ab37b6d0cfee5; 0x74a2f0936924a901; 0x54d24f357042e812; 0x5454dafee10b7fa3; 0x6bf2e58bf0365315; 0x6d3836b15b3bbe80; 0x5552944b21f75568; 0x597a8a884b987db2; 0x3f393a07dbbaeb61; 0x3ce60cf564357582; 0x5afe2c2df8bf4d48; 0x683113cf145d321e; 0x30c76d5783ba1f; 0x17c57b40c215002b; 0x7c688e022f823f28; 0x69881d597e59240b; 0x7d15c6102fca3901; 0x614a238fdbf0ede4; 0x2beae56b5b378570; 0x20b014df123f68e7; 0x3fa37910a70dbe4e; 0x561ddb319189117f; 0x63060d790fa35970; 0x3e1ad3e136327546; 0x6135a185dec13495; 0x1d930bb4e6394042; 0x9377dee720cda06; 0x286cdb34bb9a06c4; 0x1da3e0f8ebccf55b; 0x3d4985c7b81e4403; 0x6e4f6135740ab658; 0x114f08fe16414c2d; 0x7f5bc5246f41f655; 0x73df68279e05bdba; 0x3c8c7c352bf094c2; 0x3eaa452386e3b6f8; 0x6d248f428cdb0ff1; 0x7e22291f1c9a069e; 0x145a58bdf69d8b87; 0x17184772631de39d; 0x65f5edbdb624e954; 0x1ce068c7d1acd9e4; 0x112d70fa0647b403; 0x34ddaff0260985a5; 0x64721639b74cb50f; 0x1f8721bf1349db11; 0x3052e9035a510ed1; 0x5ab02dcd5710fb2b; 0x4ecaecfd43df9c13; 0x2f970a164ea94d7a; 0x305a59be9c7d6495; 0x265951fcd81de933; 0x370531688981a8f3; 0x683f485a7d31bc4; 0x4743ad87fbb99913; 0x609525bd053f4c1b; 0x6dd9593d7f851695; 0x623ee0d654d84e65; 0x21e4cfd2a4d53157; 0x6c78b6c8e0e1a152; 0x2e507ad440652d8d; 0x652270271270b227; 0x66e0501b46625f5; 0x2d6f61c94adccc26; 0x1e86c92f3f0a3870; 0x69a1e2b01b352453; 0x362d1d5420425; 0x4b1ca430db899b20; 0x4af9d54eae3a649a; 0x6baea0fc5c5235b3; 0xa03c72399e70534; 0x3c60b3a9b5e3ded9; 0x309647743152643; 0x35137dff4bf58e2e; 0x433687b50a728d19; 0x504555c5830e7b43; 0x2549a53ec46008c2; 0x60ae62011a6f8f58; 0x146fb51c4e014ce4; 0x4d054d565e8ed625; 0x50ddbc0f6ff96f4; 0x2f6285a1e605ae0f; 0x788fccddd00ec7; 0x74b4873c7b5e4c2; 0x27f619ad62fc28a1; 0x54e268010538e57; 0x1fa23257cfa6f7b; 0x6c52df16720e8a4a; 0x3d7bb5260ae2043f; 0x5e3e89a9e67b6cad; 0x4dea873d22a7f3da; 0x77f34180848648d0; 0x36c234ab5fcb3ff2; 0x767a590630c7e202; 0x83b93b9edef7cc2; 0x7aad04efcfa5c75d; 0x27fe0fa45364927f; 0x1c89d53b17c045a5; 0x3187db1e4184a9ae; 0x3f1916da68e9a619; 0x11043835787d0ccb; 0x1176e26110d223a4; 0x272d607850cdd3fd; 0x48a84bd8ae41bf27; 0x382d4a2ca437c87f; 0x4e5af22d119a81d3; 0x4667ae5dd4e6ac89; 0x269155d8e8929651; 0x6bbc586c7e0deae2; 0x72b98b033e625783; 0x43a6cfd3dcd069be; 0x3e714308904bf12e; 0x61ef17d6d86c2a7e; 0x68aab461911e0b50; 0x3993d1a24408cacd; 0x1f872c3aee923b98; 0x7dc8f86217d08139; 0x60bad9fa9e18cd9f; 0x4aa76bb62537d17f; 0x72234cddc420f0ef; 0x3af2beeedff103bb; 0x60a4743c9e38db40; 0x67c7c6e95f064de7; 0x38650715ad1f2a3b; 0x5fa54fa0f9dfcc9c; 0x1a1820272d428300; 0x7f188d19f1b7cc81; 0x1e9560be6be9270c; 0x4b4cbda4ad63709e; 0x2731a0bcb183e8a1; 0x27ed51d78834133; 0x2e044ecfe0fc7393; 0xfd308329cc8daea; 0x6ae7990ffa2e434b; 0x15b5b80521685c83; 0xb3b7873af804fe8; 0x333613aa20c7fe17; 0x6057fbdd420654d6; 0x5728d849213cd1f0; 0x70bcebe1808e1b51; 0x2a5674dacd25a901; 0x1d2074d717637e58; 0x565500cd4db27e47; 0x2da081790f9309df; 0x2687a358f45b2a67; 0x5d8102589341ca5b; 0x562100a97afdc084; 0x4ece884e86294154; 0x1e4aa92ac9a4a168; 0x16800680452d6c8c; 0x4cd7a2bec08f8a65; 0xd4757aff0f0c440; 0x5a71ad393280d3a2; 0x2cfc30675adcab7f; 0x67cd588126f03b73; 0x1996d347f277ed31; 0x12da5a5f0f942ec0; 0x34d229c573689230; 0x57b1de06494c7395; 0x54d72dedbf899aed; 0x23da771caea16289; 0x4c98a08047931f9; 0x44ad78cc484c478a; 0x11a098ae82f36843; 0x57b3c2f47c05e2e3; 0x44ec9386f2d3dd48; 0x74570f2fae3749b3; 0x120334bc24c3cda0; 0x682fc2a260f65d93; 0xed1d58b13926473; 0x77b9c973701084b0; 0x61f30739122d9d7d; 0x6e3a7d62ca348b69; 0x5099ff1523ab3b50; 0x35c08ebedc4e1ff0; 0x3348a6aa83cde39e; 0x163b1b2f1ef9d527; 0x3cab3d4516541c0a; 0x2d18b2dda3ff2cb5; 0x7b429f775f67904b; 0x3296ac2088c6b25b; 0x5b3f6c64d846bba4; 0x7a340f4d24b09d33; 0x6b58fe1c28023883; 0x2940818a544d1082; 0x6b484c23bbe1ad63; 0x61899086fe789e3e; 0x436ce6e5c260f28a; 0x53cd5de72e1097; 0xed61d3c4085de7; 0x7ba5b1b31a45b0ef; 0x1a46f41fce3a01f3; 0x288e1ff2ba86d79c; 0x464e75c979887018; 0x8835282a5429da; 0x1e691cf1d7132377; 0x4b26a391c3670c95; 0x5622625feac6fd; 0x4377f145eef07646; 0x3a4aac8e0f26a74a; 0xe6816d0be1510cb; 0x75a272d69a47f980; 0x44da2725aa1fd0cf; 0x377b08c85078af9f; 0x189aef51641f94df; 0x1849c31ada617007; 0x843cac43fc31ca0; 0x6b0af081ee2382ad; 0x1f01068447b82305; 0x513318e59204a6b7; 0x4d97ec03c9b40211; 0x5aaf1b7dcf3898; 0x472a80aa159b1c80; 0x68462d43ffa268f6; 0x50308629947537aa; 0x6e88d6c3c198a43; 0x337a80717dff88c0; 0x507cb8c4ccc58453; 0x5ba0cac910fe72ae; 0x46524331c1be43; 0x2ac1d210fdaf8de5; 0x3027c72c10720801; 0xe9078cf7a83d4f8; 0x5c2faefd5401ff0f; 0xa26c4a32520d8c5; 0x6b1aac044b67653; 0x6efa9d159a11408c; 0x2a114ff4ec4a0d3f; 0x74baeb01a00ec9b2; 0xdff4745df5a6a2d; 0x70696cb99fc65451; 0x2b135d3ab8803390; 0x49908199f4f884c2; 0x1ffcab59e67b1482; 0x336049236fe2bfa8; 0x245b596db460c213; 0x266542eff517c090; 0x1f40db8ea901b87; 0xd7b6e8892591b49; 0xd6b0056d78c581a; 0x4ace30f27cde13f2; 0x191f1a8b8fe81218; 0x35cad1bdc603dae5; 0x1ef94ae3e192a9e9; 0x47a9971fa72fe70a; 0x79cc84d36b034522; 0x13a6a7eeb093af36; 0x3b0dbf616049b900; 0x7044e97f83f01e9c; 0xd18178a1ae7919a; 0x60bf1e065c409a78; 0x2329c9ab39baf883; 0x5111999178cabdbf; 0x7eea15831fbe41e2; 0xae2e1240b297570; 0x4ae58913d533f6e9; 0x59f04e73c8135560; 0x7e7eb106f2e92c8a; 0x24cd95db63050446; 0x7b5c8d49bcd785e3; 0x6c525363547e1c0a; 0x7595c6d2c9759ae6; 0x4bbc3500099384c7; 0x5ad3893120e9dc3d; 0x711005f57ea25f95; 0x3803082b496e35bd; 0x45c6f06c219c47d2; 0x6a4737b87c0bad74; 0x975027caf7f4ad2; 0x1b5d6b5871c18eaf; 0x15736edd47bf7f6e; 0x2c4a15];
   [0x20903dcc1cb72153; 0x12c43374062fd679; 0x44d1752d9f305976; 0x3741a706ddc8a429; 0x4b0669d627a162fb; 0x7a9dba81e1fc412b; 0x68d30c9b3b27e4d3; 0x7f8c84d4763084dd; 0x62c5b4f4c613f540; 0x4e34350f7a23654b; 0x6f7908b43a591da0; 0xa06a89012b63457; 0x188f81b78dbbded1; 0x41bc06113fd1fc52; 0x7c90be5c1a6da723; 0x1959c2c17c27a8c7; 0x15d5536a55c1510; 0x238ca12ca3d31404; 0x28a586fd3ca5f69a; 0x6c32a6ade5862e5b; 0x373175518bffca94; 0x1b8ec50334c437b4; 0x448dbfd7e611200; 0x54dc323eb2a6efeb; 0x284ee4889a922bd4; 0x5397cd5ec3e9df0; 0x48312d34ac0e5af6; 0x747538daf9d63dd4; 0x6e2c88f9cb6819d4; 0x1f568153221a28e4; 0x53cfd3a675f15784; 0x3b3f2ae50b9fa34f; 0x19471ac25b1bbf72; 0x7202e5aa397c21c6; 0x44f16c6b3c1a9c79; 0x73462203d1544fe2; 0x7d89680d5f53f307; 0x1abf62fe30a2081d; 0x1949d10a6664f323; 0x7d9e0086f7a43716; 0x537767763c46e0ef; 0x61e3611247066724; 0x1de0a5d85cafa5aa; 0x7a399ada63b0d1d7; 0x2b98b60c49f869e9; 0x1dff7018dcfe1938; 0x7510359fcabe0873; 0x2c2a2c253c241331; 0x175bda445982a78a; 0x41eeed90407b0a2; 0x4540671300e314ac; 0x16e3f82616bbaa69; 0x61948387e918515e; 0x58636f3405cd3452; 0x36ba651dafb67686; 0x7e9a4259dfbf772c; 0x2c115312c316570d; 0x158dc3735f331406; 0x2efd6adec20e9e51; 0x617bf2e15943e3d1; 0x6c82e950fc8c8cd1; 0x19b3a337e6b47501; 0x26679d36ab08cb6b; 0x4a2faacfd77f0d6f; 0x49f190e301d22a6f; 0x11e54922cbc505a3; 0x494a310da6dbb88f; 0x5659b49fcaedf136; 0x1f6405389fd02ada; 0xf3d2b39e5458d99; 0x1636bbf50b6e5f0b; 0x5ce2434266b2fe5a; 0x383845910560f77b; 0x132a0a7556595039; 0x7f23d9ca886a9efc; 0x5425a515e9a73b33; 0x202bb6763e7a1ddd; 0x7a31e85b7995f809; 0x2b7ca150a7fd04bb; 0x2938ef37cf51d434; 0x2b2361f7fbc06920; 0x5fc714ae8a59b32f; 0x55e778bbec30c549; 0x19db065a3b966360; 0x5d003fc59a09f063; 0x4564ea380479a946; 0x17b4d9b99ee7e5db; 0x467ab559dcbfd1a7; 0x56d7a443de5d6f7; 0x32839267cc41ab6e; 0x6861d5b81bfeef49; 0x1453dc24041126e5; 0x4092dbaa7bbd14d9; 0xa2a955d5a1f8303; 0x109bd7ac4464db98; 0x5e0e2e9a78fc66c5; 0x44f43e0a8103373e; 0xd792e25c57fa2e7; 0x728d32b378a2dd2d; 0x721139910c817643; 0x3a9f26b72656827; 0xf0504d1185e6e22; 0x72b02008f1949ef8; 0x283b2b864116302e; 0x7f839edd047efbbb; 0x224769d3aca2b888; 0x11d08d56580e78e8; 0x3343a85bac81523b; 0x7ce2c60d0eda530e; 0x352150a460e380ad; 0x7c8c5168faddb54; 0x37e22ed2a8d0ea33; 0x163ab7449aaabd7d; 0x358f914c88417686; 0x76f0897acf083fef; 0x456049b267b535d2; 0x36e39a68d12961d5; 0x2ca2efb675d5dd56; 0x26f9edf38b6cbb1d; 0x44d3f6ced28044bf; 0x5d1c3e531cf885de; 0x475e95ce6d85bd9d; 0x6f3540b7624aaf81; 0x71e32e83706cdb27; 0x7232e37481713448; 0x633177fef3c71407; 0x2f69f0ecca2bc426; 0x64cff2ed8f7b936c; 0x4502e81dfe5bfd2e; 0x735af94407fb8bf2; 0x2a176086aea5a92f; 0x3eda7ca9245954b5; 0x31f242e6b5551813; 0x46984a9d24fb5359; 0xc8cc8c2c868af9e; 0x1977077e590ce15b; 0x3a78c794eec46d67; 0x30ab6b95bd616a6a; 0x22732e2d40b6932e; 0x7aa05c534741f3a2; 0x4d1c6f3fe26927c3; 0x3e7c918419293e15; 0x13f5c8d15abb183f; 0x857db0798b7e18e; 0x1cb09c1a9371e93a; 0x5d4ee8658b3b24f7; 0x5c05a54f145ffd1; 0x147f5771257e31a9; 0x49faf1fe481dd50d; 0x174349d42122f727; 0x26532073364f73a1; 0x45a4cdd6a7ce613c; 0x3eefc45473ae9088; 0x66dbee107a9a241d; 0x1d6379181cbccb1c; 0xd6350e8171be7f8; 0x45de83332aaab84b; 0x55be825ccada7dba; 0x40871a82f2fddf27; 0x5855f53162c0bac0; 0x1e529e5393c7fdf4; 0x4f1bc5044ee88c0c; 0x61ade583058108c7; 0x7dd0d40b8f89a102; 0x7f432f333d1cfbd6; 0x1c7e8015c2a9b9f7; 0x17201d77d85a960e; 0x29d236e2c045f3c2; 0x438fc3873bd345c9; 0x6d8dc1643554f9fb; 0x1831fc833cff8cba; 0x43fd3e5393e4b231; 0x17d65cd8f05a9120; 0x3b51a01f452e7346; 0x6327bcf9ff6630e5; 0x5e9dc035f74f3346; 0x3cea57752d741093; 0x74cec8e63b6199a7; 0x16b9b2b3ee7badf1; 0x1522c97ca3f0df11; 0x70b8a429dfacc7d1; 0x721724321742195b; 0x1de4be99b13ae70f; 0x3a99f37df8806219; 0x77d8e903d3b2f1e9; 0x6f78a170cb9ff38e; 0x6fceb35121ab2306; 0x1ed3859ebe79a988; 0x3e08e405fa7706d1; 0x7ed48223df7d8fb3; 0x39fac5e73eac1823; 0x7a80aaae59092c70; 0x99810dfc10a512b; 0x6a4e152384bc3df6; 0x5d161c3aa430dcf4; 0x66845199af68c2e3; 0x473900af9c16edab; 0x27a5e8261ff5dcd3; 0x6f762435dd9e7d56; 0x45ad467a5467f48; 0x2c44dd81be1c2471; 0x4d771a8f803f97a7; 0x1bfb78e6a1d3192c; 0x48b62da3b597ffa4; 0x32784a9f3f4a2c3c; 0x6b4bf8bbc1ed4e06; 0x12b0f99f19de879b; 0x2b019512cdeb6fa8; 0x417324966d4edf12; 0xf1f5f04090726c0; 0x1135917913f447db; 0x310341e186f6b574; 0x3c991dc8a51707b3; 0x2df4e09fa74f6826; 0x5cadfa73dcebc613; 0x21685b902fe09079; 0x5223f98e64a50084; 0x3ecaf102db9fe435; 0x7cfd578d1bc89216; 0x39693b57c706dbac; 0x22fcdf3c53ab12ef; 0x3998786854e74eb7; 0x95e99a87bf05e92; 0x5db17ce1866be00e; 0x4feb522b5d658920; 0x2e343f11344c8861; 0x2b6ce7bb714bab4e; 0x473146e2ea01b523; 0x4e927f17a1fbcff3; 0x6bfdadd6024b2a9a; 0x2b21a21a274ed81b; 0x76183a2b3e8bf404; 0x36420896bf68a004; 0x7e7972afa95b5a4e; 0x1628316dba64e451; 0x51a98d37836c3321; 0x7f36289c97a43a36; 0x62396cf183df6861; 0x628f42093ddc4934; 0x30a81bedeade48b8; 0xcc7caf8193bcc10; 0x74d096b1e97525bd; 0x6e78a215769d1752; 0xd5baff46858f507; 0x141e5ae64ed93f74; 0x3626f69e2d053d76; 0x50cb4b9243ba9364; 0x35ddad875f7d6631; 0x131893d90550b66f; 0x5d3ba9ea25e78a9a; 0x4296c9f4517021fe; 0x5067a1fc422bb546; 0x5fc0a7e1a8d1af85; 0x25f14ea1d0c6216a; 0x1a86b0eb8f62d8d3; 0xb0e86ade36a314f; 0x58e1c0032b843faa; 0x16bd7231dba652b4; 0x3fd042ba9b8dc8dc; 0x193bc2f61757d639; 0x229ef880fba0c277; 0x7900de61947013ca; 0x7da7826bd7999059; 0x7e28be895eab28ca; 0x25212f0ef3765615; 0x397de641ee431316; 0x162473b412758d2e; 0xd8b8c199e61ad1f; 0x151c6ddba100f290; 0x50db9636803131ec; 0xe346c5d9c0bb576; 0x294f6f2fc10ffd08; 0xedf9e3235b4fa0f; 0x17f9dd4c118a6693; 0x60060935cc980e70; 0x4622f1bec651e6d3; 0x6f1378489c37bbac; 0x434f773f3c183c41; 0x3d5c6f8308fa2a08; 0x50d8a2ded933e0c9; 0x7784e9b24fb5d656; 0x3281a24c9352272c; 0x2ec1ec84b00167b; 0x440a14ca754704c6; 0x34c5650740d766cd; 0x1b03adc8e9249033; 0x71a56d3f926e5da2; 0x4a011ef156ffbf00; 0x784bab63d89e7286; 0x6b5d0156ab2b88f0; 0x46532af719d6b28e; 0x82fa26491371cc4; 0x23d6d535f249923d; 0x3f45b1d09fe9f3be; 0x433f2a2a8baea5a2; 0x7f174602b1f067f; 0x45c0da0e0b3c5aa1; 0x3424c478a8d81de6; 0x7510b5c09061978f; 0x6403fa7d2a3ba484; 0x38fc7ad2fe422a20; 0x2d92cbaaeffba051; 0x763552e89a7fc257; 0x555a82f992269083; 0x6c31b025d20d2f40; 0x44483c1319b70dea; 0x349e6be39477f59a; 0x23aa158008293a52; 0xc570567f7519c4e; 0x1826d21b0233c8a6; 0x298a21e7d4a1b931; 0x355444cb3cd6d3e2; 0x35d5f078e4e32de1; 0x6d12a8779681f25c; 0x3d90b9565fc79cee; 0x65024ad70e998e84; 0x4f7d29c595a64c28; 0x312be8];
   [0x182fbc21363762e8; 0x87f5c7e1f82830e; 0x622677dff78e03d5; 0x9d212674da35a87; 0x327f4554fee4572; 0x1e6de9e068cf1d4f; 0x69be3c8557c1b2aa; 0x8780c4781e43fae; 0x1e475a3169aeb6b4; 0x343493f740cbb625; 0x14182f4db2eeb2a1; 0x6cf41641539b2e5a; 0x334191a92cc34803; 0x22e65243876b5a5d; 0x2ed8e0c91f14a579; 0x53cfedfb7eb40a06; 0x277f5dc83fab1354; 0x2d502905a57cc47a; 0x4eed0fdd77539e41; 0x15f6e3c01213e7d0; 0x361e82584ad87372; 0x7876093ada7936a7; 0x6a0ba58345361efb; 0x10a886db04ca73a9; 0x2bb8abe66987802f; 0x316a45e58e9c7cb1; 0x75c866a846260c50; 0x4f06aa7d58e896d6; 0x7abbb2d0c8d8e64a; 0x35f11a612378bf1f; 0x27823b4af4b0087c; 0x67e54f0d3250e6c2; 0x78cd1ced4817eb90; 0x7236c568370b6108; 0x34f56d1be94886d3; 0x5dd5837fede136ac; 0x5bc601216ca8d7ed; 0x2eeff76685f6d1aa; 0x3b61f4d41a649d55; 0x1019ab60ea340b6e; 0x4dfa00471c482a64; 0x4ec2577141c32be0; 0x5dce831f770bf487; 0x53e43c7c72015b6d; 0x41b8294bfa0de174; 0x75bdc91c8654ef80; 0x2ae3546d43231f39; 0x1cc7e779a702b8e8; 0x397a7a077aae944f; 0x47b7111288218cd3; 0x564b6a781fc918cc; 0x339ba8febe64a882; 0x56fd833a2ce1e662; 0x3f82779c6fe23647; 0x61d9d64b60ecb3d; 0x1eee8ec50c8a5893; 0x285d0c88a3b992d3; 0x4437d039d8053a5d; 0x61c26e58c2cacf7e; 0x1c76fb978850423a; 0x6cbbd6bc501805c6; 0x4b0c83f330994480; 0x36ee7da4739d86d; 0x26518fb972db465e; 0x4abddb91c7bbb783; 0xbd405be97b3e8a0; 0x15c5cffa76d47443; 0x52490b2c57aee2d2; 0x269f5ceb7277110f; 0x677beb2fcc8dbf0b; 0x10622ac6c1c4b473; 0x753bf75a149e4c34; 0x7476a0150b1dae03; 0x22c703780bb91cc1; 0xb426d502284b328; 0x6b5878f5241655e5; 0x52401e4d56d88872; 0x47b7952a03e6a105; 0x39c55d63c281cf00; 0x6e8c96a6b24f2adc; 0x29314de321c09ffa; 0x35cb7ee2ba907354; 0x1fd2a4c7d04c6376; 0x39c607ab1541f2b4; 0x321acc1a12141623; 0x2be1937e4685b636; 0x4cbc149318c49e76; 0x3bb3e7dfc5032b39; 0x1e11d846a74125c6; 0x2c928fcab047dc29; 0x51e893e43567dbca; 0x262f82782df63cec; 0x8ab5f575d9aa927; 0x2f4a2d09e816f1d5; 0x51b7f16f82ca6be5; 0x409bdb38f2b1f8e8; 0x6269d0221b61b5f5; 0x44467364882d7322; 0xae7b716acfde31d; 0x4313417ef9242fd1; 0x2fa2766bf6223407; 0x3ec915e59109f375; 0x7dc2f787c1350ba5; 0x6f7efe359e1300ca; 0x451479a0e7c7a934; 0x5d729079cbf5b3e1; 0x44277c394687e531; 0x4b34a0f8763405d6; 0x54c7da20f24f404d; 0x7e5a7685555e50f9; 0x6f1d500c06f6842c; 0x66cccabaf93745c6; 0x38ef6be0af0882cf; 0x7a85acc12f09ee0b; 0x53ae42575f09c1; 0x47427e60868d11bb; 0xa0ea1be216d5fbc; 0x4fe325d01850132c; 0x32f281ce38fcd322; 0x6f669d81334ae002; 0x31da12cb7389cee6; 0x22ec386a4d199b1c; 0x38b14a122214af19; 0x129e439aaf927156; 0x6c426df9e29ccca0; 0x2a4c3b707d92a9a5; 0x66abe83e325d76d8; 0x6ef6b13468dbc082; 0x6df91dfd21603999; 0x3f13c29b160667c6; 0x7c15e57207a677e0; 0x4816ed888fa5dd6d; 0x65d1c0da92b8726e; 0x7d664f0fab0ec142; 0x1cf7c4e29fb91567; 0x5b263ad453289549; 0x4ebfbb59fca511f0; 0x1d8cd7eeab9dffce; 0x21442d89a8b219a0; 0x527809e0861414bc; 0x76e306fcd1380ea9; 0x3bdb2d99e07d9881; 0x5803d03e9501752c; 0x7a18f803dd279807; 0xc21ff92641f922f; 0x6684c6cdff9f47f; 0x5ffdb70bed44ef3e; 0x28689b70daee4d4d; 0x55e27d76a64516da; 0x2eb10cc89d996ecd; 0xa4e27d72b63f973; 0x705d0d230a00d902; 0x3ca23f33b2246547; 0x4529e06f655604a7; 0xb83cb7a7c0452ea; 0x3e8059202e5cea1b; 0x2440deb961fe5f87; 0x7e31ba2b31949bd6; 0x3279b0cd1a8b03da; 0x385d6d7e03d48421; 0xc2532e9f6f80590; 0x3746db0c9bf7094f; 0x438ba6687cf8351b; 0x1bae498576406810; 0x7587007d3bb3126a; 0x283a182be1b20b60; 0x61bdab0d72f6878a; 0x66d2f6430c95b8a8; 0x62cc304bd396d14f; 0x15eb31b0d48a2b75; 0xac49ba5fd54feba; 0x18941712ca2092a8; 0x47ba5838b97c40b; 0x38ade671c003089f; 0xdc34c843f144cd6; 0x1d2c085dba3bf422; 0x131223789fd0169c; 0x337a52c0615d18ce; 0x5e4f8e0b3e9c5761; 0x4395f912cbba36e8; 0x29a871c40adb036e; 0x256a26ed113247ea; 0x40ecc290a2cdfcf; 0x4636ac45dd2eef2b; 0x163b2e48e4e6abe9; 0x28f720954913e913; 0x522ad736650e34e5; 0x19ab0526fb90f4ab; 0x19f63b7cfda6bab6; 0x32527234a778268; 0x7c7912483d3c6def; 0x17deed6741d52ddd; 0x3c1cd7b96bdc5a51; 0x4e63bf7460b946b; 0x634f713554d14852; 0x541a31a7c277ed5b; 0x5f71578f4b74109; 0x5bda049291646463; 0x16ad2ce8dfd40427; 0x35691e1bb074e88b; 0x70642ca18813ba2e; 0x92c01b4ee5d34d3; 0x4d2ee77dad4c1429; 0x387e3139c4881ee5; 0x1ae3ef1742f1fec1; 0x6f67a6e8b01be0ab; 0x304d841a4f40e1e3; 0x1185a3d23d091491; 0x57d3a907cf94fd23; 0x19c33926b5441a25; 0x2715ac93a9abed77; 0x451ee727fa15aa6a; 0x6512811aadf3ecf5; 0x45cd8acc6d2cfb2d; 0x1548aab6a7153cbc; 0x89b6cdbdc5985d3; 0x41c10a7bf03b3c59; 0x4b81c700131e75d; 0xda6c0b66dd77389; 0x1354f9a93c41375d; 0x422aea0fa977206b; 0x389efc6b555cdc47; 0x7d8632111110bea7; 0x15172f6719a2dfa5; 0x77e695c8622ac130; 0x783f5930ad35c083; 0x36456ac1035ac762; 0x73ca7c0946144182; 0x23b3691978b928bc; 0x2d211b6a846ae346; 0x676330a5ce9a4a64; 0x73f89e40dcdf1a1f; 0x64a2b6116857bd6d; 0x6920b799cd272330; 0x731241647465c79; 0x662a690ff04eb86; 0x7874e9ee5ca94b7a; 0x7ba0b00418375fc5; 0x7f3b7be176c7abb6; 0x4d7bb4d3d758f190; 0x6738484dc25819d9; 0x443875f7c5ce6a0a; 0x1654b931f143ae37; 0x357d207a84c5c3d2; 0x11b844362276e070; 0x3ed847ffc4b50b29; 0x451e129c50b8c5c3; 0x2851a011b167339a; 0x4cf8b3165ae4c470; 0x6568826340c65827; 0x2a88188c5de2bca4; 0x374eaa8ba037c393; 0x3d2cdb304be4b759; 0x5d676384d3ff8e6d; 0x155a993c046e137e; 0x4607423f980e961; 0x7444b9f6ca18df11; 0x5d2d39616cae3ce7; 0x4b44023de19086cd; 0x2d87f48cf3f30e29; 0x97ecec7758e9623; 0x3baf8d8cc1a49838; 0x22f37c1a8a7cda4b; 0x1a3376ebd8af1b75; 0x507255607c7f0590; 0x50cf669e92e7b7ba; 0x707106f5f4ae7906; 0x53899e15db00e1b8; 0x4591fa39a793a45a; 0x5ca938fa8e5e6384; 0xd12fb446847c2a6; 0x180ae6d81798787; 0x75279f82c3b77959; 0x6487f68eb89b4d8f; 0x1d2076fc4b108486; 0x6090b951ae295258; 0x675cfe36cf77d144; 0x15b0b3a01b4b9082; 0x6b6cb155b77987a6; 0x2d1ba3db0443bd58; 0x40782ed773b4f4e6; 0x13aaf6383a4f077f; 0x9080809023f3ed9; 0xde94c81b281723f; 0x4d0ba9fc8619d55c; 0x54ced884cd255103; 0x117015d4a8f12491; 0x618d771f24fc18e; 0x6a935cd584025f5c; 0x5e507e8090d7e023; 0x111acb2f8f0a3e2e; 0x7042a141b8898e5d; 0x3a4bcb43096e735e; 0x556e888c6252f074; 0x19dea2a2cf04fcc6; 0xf3cc23134906b5a; 0x7ca0438227ac279c; 0x3ba761d4da8504b6; 0x70f128bf32ced68e; 0x4a99ebd8e4f55fd; 0x3c2b98ca8a34ba2f; 0x567042200a727f52; 0x63dd1bd94e45a3f9; 0x6bf126a22e047d0b; 0x4ee8efecd1ce03ae; 0x431a1f1cb1ccd952; 0x210874a825297ece; 0x3b0cd2a20bde3ef8; 0x3a5884eebe413299; 0x203605b52192fff3; 0x3e6c74985730986e; 0x16cc070c04972f90; 0x22652dff0d994270; 0x78738836d0f98175; 0x147443b40c1c14d0; 0x5ddf9909e46e52b9; 0x154e5d3214a7fe8; 0x15dc78];
   [0xdb8862206b711e; 0x7b9f3734cfb0925d; 0x34a354b72fe0387d; 0x183c60984e65b5e4; 0x24f99dd0135040b8; 0x1d2b46f6b1d229d7; 0x643d4bdb8e5c1bd0; 0x4ff92a874e6194c2; 0x2c6018ef00b5b60d; 0x3d2b6d1f3d99eca3; 0x5e9b52f8ca5404a4; 0x39448db8eca3daab; 0x3d15d9bdcf82a01a; 0x19dcc65c66a6fe40; 0x75d258d52e9eb60e; 0x2eaa409519ae4d97; 0x637f53da9cf99617; 0x2a11351b959b6c63; 0x2020ee8fda51b393; 0xeb6bb94b545e1fd; 0x331a9dbff00ae40f; 0x454dfad422fecaf2; 0x2856a38565d1a902; 0x32e1fe9902dd8e91; 0x205ccb294719c188; 0x21543fdd091d2435; 0x6c5e15e60c331abd; 0x25a709cfd2976846; 0x4858145d6fff323e; 0x4a3270423bdf80dd; 0x30a16461fd876c19; 0x2ef22057c22cd2d; 0x7bf2cfed8373985d; 0x1c408fcbe8d158d; 0x6bd7f5c83fe4078b; 0x7c5e56a1da954237; 0x68918cae2322ccfb; 0x145d513fc2e46b97; 0x2eb05e41344063e5; 0x7d1fbf69d6d7ce4d; 0x76008f1a9b0e7d6d; 0x4bdaf86ff5c05532; 0x382abb3af88f15d8; 0x255a4f40e68f33d0; 0x2e5355d3fa9ff6ed; 0x607375f26cf4737e; 0x428c79398b006d15; 0x67dbc8324add8990; 0x65da4701237a5931; 0x415e112cb56bd4f9; 0x46d6255ca4d5ee1b; 0x706315eaa68c5ee6; 0x178b8bbda494a6b0; 0x6030567f691e4459; 0x4813765f98fda00c; 0x46881a1c2568aae4; 0x5a0860cfd2667128; 0x6683f96f8194a342; 0x6e87b7498852336; 0x3281c4bed63107a1; 0x2d528d2520923d00; 0x55d171ae085fa1be; 0x52531b0866521d0b; 0x7f86c38574ef950f; 0x56e69e76c88eb34e; 0x41e5b15a84ff0740; 0x274d814e59218f17; 0x1c54b4fa22bbff50; 0x3761f5542d958642; 0xdc0ccc8c7fa8659; 0x5582e1ccdf83d34b; 0x42e37fb21526995b; 0x4e77d74d823fb59f; 0xa6a4c1ef7b4d9f6; 0x1b3192a9fb1a99de; 0x4cd6dc4034a0962e; 0x24e1f76c63bf3d8c; 0x5c64957aa6e558f8; 0x33205f73efe3a1a7; 0x3533e0325f10a0a; 0x5bf990d7194a329e; 0x53c90a897b37cb7d; 0x1298c42a8e0bcafe; 0x7b8f5e6610001cfb; 0xe21c030ba795455; 0x7f3b4f41d3e08d50; 0x39918bfd79f3047d; 0x4952d0983dab9e82; 0x117022d764decd5a; 0x37522d7f6a1dea93; 0x1925983f71c4eb96; 0x76a6d054db9c1091; 0x64336107343280bf; 0x1bfef1c144701eb2; 0x1b470b8a84b2c107; 0x659bd53bf28d6e0d; 0xbbfa0cdf95fe0d7; 0x599e4154a16f0591; 0x7e2c8240ddcc09d7; 0x3f65a8a9bd2c0c2c; 0x23383d308c827e2c; 0x1417a38da4f518ef; 0x746864ef55fdda09; 0x592665c8e7c9d9f5; 0x31b5a67868c89916; 0x2798dbe57a892dbe; 0x642e1b8111aff7eb; 0xe6ce80cbd4499df; 0x377945377596c0ca; 0x463efbdd3e5accfc; 0x74fcd53d448cb310; 0x39b59f68fe2f2c0a; 0x6cd41cfe0326e53e; 0x771f66aacb26d265; 0x4a0eb911b63655b6; 0x4d1474534208490e; 0x6275772fd6275aec; 0x4d7f9ac9fbd903bb; 0x301fd0969acfae4f; 0x418431ac52e7a749; 0x43af4cb1cd497e42; 0xd8686a1561b9fd4; 0x3d7b72cfa10fa22; 0x610556bca34409f7; 0x7bc478371de585da; 0x3d2d7f5ed6027980; 0x70dc5a045e237b51; 0x2bdfb71bae81f733; 0x7b0ee4900e0fa1a2; 0x133a93b45c120481; 0x72adda364cbaa2e; 0x5ff9bad31f36366c; 0x3682c16f74b8967; 0x73f58455bf977b8d; 0x4d9b8e6d46468073; 0x19da3f5ed4d6408d; 0x376283986ec18c18; 0x34fcc85ad846629a; 0x31b6a6cfe7f58968; 0x77154fa4ae2206ee; 0x64572d94f76d6405; 0x15cd4a7902c997be; 0x54a1ee9963187de0; 0x76f56ce99380fa5b; 0x7243860f030581c4; 0x1dc027d7bd7caefc; 0x2bc1bd58087cb619; 0x3b35dd2a2aa805be; 0xa05618954f062f9; 0x207d6a3b8ac829ae; 0x737d07def8d9697; 0x7c6f8d1401e086d4; 0x6d3270e406def5; 0x388d9eabd83855dc; 0x7322664b528d097e; 0x392af95ec81d864b; 0x10593ddc61de5158; 0x4dea2badf550baf7; 0x2b90dbfed798a640; 0x38b3f277be7d623e; 0x7196f44aff1255ed; 0x3a9b6c2597771195; 0xbb73f2a242a6c18; 0x18de6981eafc5b61; 0x112576dd25d04c2c; 0x1c6311fbdab0c2f5; 0x491d313e887ec510; 0x38c6c9ab95350faa; 0x3b4613bfdbea79be; 0x7fe41453a8373020; 0x66eb8a5dba3d9ae2; 0x3376b2e206627211; 0x64c675467a06323e; 0x7b75100e6ffee5d0; 0x84ee81b6e5cba7d; 0x3145b752791b5045; 0x1c59580982f0defd; 0x645c94411ce387e5; 0x36e5b87f32b2706f; 0x49b23085b9c4432b; 0x3c83e8b1b5b1867a; 0x3d318dad834729f9; 0x60ef228ef7be04a6; 0x755ff8b91ae51ea7; 0x127b3da948a8746d; 0x7211a30e7b989830; 0x163d70bf9020acb6; 0x2739e498eff57d9f; 0x5d1ee950362e67c8; 0x9d7856eeab5424d; 0x475c910ea4bc653e; 0x1e9705b555afbe54; 0xa2f9f7c3fef06dd; 0x42f78ee006acf458; 0x388fea296e2505; 0x6102cf4083f1b80a; 0x5fa0b6af61be75ff; 0x124915bb248f5ec; 0x28d9388ffaeb6c5c; 0x3a9ec2961f5fee5; 0x2659751dd89e2ff8; 0x6402892f90dd3c5a; 0x69ee640ba5f8299c; 0x59db42910f325e49; 0x286723785adb7316; 0x3c8c336e7b633998; 0x4ed49ef2986e8697; 0x746c19031f67d5c7; 0x4ec56072416b8381; 0x7c5f923ff1e65005; 0x1623a1be29472050; 0x46c89019d4236162; 0x5a33751f1dde28e7; 0x34edbd9a10b87e4b; 0x4e537b2d06201398; 0x10b5aaefd1bffcbb; 0x1c96e39f99c2d6b6; 0x2f1590c77a1d5358; 0x1f2863ebf1f2bfda; 0x497eecec49e4fc01; 0x4bd9b271acf19e58; 0x5d79174b110b479e; 0x363fa920d112fc66; 0x7588e7649f697157; 0x4d5c999c394f4385; 0x5cb70442a98686a9; 0x7f1eb59bb7182156; 0x3afa359a3fe46e06; 0x46b8be205a6f4c35; 0x1c46314800b5fb28; 0x5f7f004bf82fb9f0; 0x2948088f53e77b1a; 0x1038491d86ec2ead; 0x4b2f7b546e00767c; 0x21678a7045271150; 0x679bf76eacdbb465; 0x58b28af321223804; 0x508058f0336c0dce; 0x7fe1f88b2c9c1e04; 0x34e7834bd77e97f1; 0x1e200b1e55d2a2ab; 0x5bf7c5db11465235; 0x63d226b896e9f73c; 0x11cc3f33a80eb0bb; 0x359950a00a0e38d6; 0x7fdd4e17083c1854; 0x42d180544a8bc254; 0x2810c73590e49966; 0x1d6ab6c8ee930dd2; 0x6ddc886ab4c06259; 0x274c5c219acbb275; 0x1aff33b98e486f7c; 0x4d78b35a2e275c30; 0x19e6c77c2ce31e84; 0x63b9e088484b0ad7; 0x45770975e6055872; 0x58454a9f959e1df7; 0x7dedad463aabf551; 0xe9fbaba1d51465c; 0x2269c48959660d24; 0x7a1bcec2da0d584a; 0x2ff04f21b2ce664b; 0x1764f20864b14872; 0xc31026a60bf4a7b; 0x65a755842cfe26cf; 0x324d0e15848b3db1; 0x5ee185ff15938c6e; 0x6fd59f9aeceee042; 0x50ca1d559e9a5c20; 0x3b64a3a9e07c3b17; 0x62ec960ddbcc0f6e; 0x26e5bcdc5ee1dbca; 0x6e5049ba0e6b03a4; 0x444b6d1f08f6812f; 0x6d9ea96878b1367; 0x5438c97d613e7e78; 0x60175966bc44ddda; 0x5f07e919b9ec1fe0; 0x2063e4dbb35eedc2; 0x1d0071c73ef49a03; 0x7343126d04c937c5; 0x5dccc927be8c49e5; 0x1f95173cb592bee1; 0x4102d2c31107481c; 0x1a88ed5fa0815988; 0x59f96844bd4f1d0f; 0x53609de5bec6be95; 0x15415cb1b9ca79aa; 0x17fd0f10dc097470; 0x23d6e649e26f9070; 0x1ed2c28a0ea28801; 0x6b00d21be25ceb8c; 0x1c237edc0de046a3; 0x2f24242e55a144af; 0x6b0ef454082abda5; 0x5985509905e40b4; 0x10cae7acab4bc948; 0x7bad718e5a83e8c3; 0x469bb46895e525fe; 0x7742afa1de041216; 0x4fbe111011ae71e2; 0xb61c7e07b5273f8; 0x13dfb2472bd5fb76; 0x6f30a52026686af5; 0x42375247afc2328b; 0x686bdb145b18bd90; 0x69abcd3f7106e50a; 0x5bdf9ec7a8d8f18f; 0x117b4575edcbf2a8; 0x1fa2c5f226bea379; 0x8cb214baf962047; 0x44aed6d506e3e5da; 0x67a1fe21d05c21fb; 0x29e2089b8cb68034; 0x34aacf25afb1ace8; 0xd85ee02a2756aeb; 0x113cc54fb4e743b4; 0x31e576];
   [0x4a4fd484e8d0fe23; 0x480bc5fe1b9bca04; 0x1067e3a25b5827b3; 0x4c81e68b7c2a7559; 0x2625b79093b9951a; 0x3f9a66f7af85571f; 0x26a1102e627eb004; 0x1ebfccce10375cb2; 0x4a007dfe742912c1; 0x231d2df367c2c0cf; 0x6df88a4f68c5b9a4; 0x1b28936712e4b10b; 0x3043e1ed5e719cde; 0x51348b3851e21ea3; 0x34bb60238cff975c; 0x7e468f4257b06599; 0x369b7b635a2c4dd8; 0x65f3abf3d843ef09; 0x258d2703213624c2; 0x5870c7b5cce2ea9; 0xce8c9132a7cfdfd; 0x1bb820b8a1ca2df7; 0x6ca3a60a10aaa62f; 0x6c23ef45809e7474; 0x2dae03958b162b9b; 0x2362bbdd25af4f58; 0x4f94bdf2cc75b605; 0x21e9b265e4f654db; 0x17c52beb89498ec5; 0x5522449fe11c2729; 0x351092de3b156c84; 0x50cc3205d3c7f789; 0x312d5c1631cd95eb; 0x5ae2f9da54cf85cc; 0x74431f813fd883ef; 0x43a8db1bc1a4868e; 0x22f917a8889f1dad; 0x6041fbec670b82a3; 0x173745f6b8756cbf; 0x239ccbcfb7e9630f; 0x75c1a50925f8cd56; 0x4582a3474fa4fbd2; 0x377f5803a76a537; 0x185157ee6b57ce01; 0x6f83d0b49076215f; 0x5cb5eb2c5793e927; 0x4a6cc59cf682f28; 0x7371c277ef80257b; 0x364a6fd9a2c3d84f; 0x35421f73cecbd173; 0x7600e4816b6e08ce; 0x6c37629f42622bf7; 0x27c4929949d91a9d; 0x4254b1cea7317c9a; 0x23cdc68a294f5a75; 0x318d1859c1431a83; 0x2afe36f12eb3b57f; 0x39b7b95f6e34c1b1; 0x5c6ff79b7612dd7d; 0x2807c593c002f2fc; 0x42f869a0352d0759; 0x1934419f7d234f15; 0x755a7335bc9bc1f4; 0x2e72d722a1c48de3; 0x77f672421a2cd7bc; 0x558455e79e459de9; 0x7fce37d813e9af25; 0x66cae1d64f818ed6; 0x6fbfacfdfb01f2a8; 0x31cc7745f5a0e930; 0x683467418f701068; 0x72df6cf5cd62f367; 0x35ba9584ffe4f1dc; 0x475011e5e3485e2b; 0x4862ce2479fbe52f; 0x579d31d8b11dfa79; 0x5c020a27be4b4f99; 0x29f83deb81ad4aa; 0x66856cab9fa9d525; 0x588545c555ddb9d7; 0x455c62def6c1249e; 0x7e98770c4feb5399; 0x16362790ab815d74; 0x6e8d75d61cd4d956; 0x22bb3ae6526e39b3; 0x24fb7a4bdd3ac7a7; 0x139da39e0cd739e6; 0xa72fe4a3f36ac9f; 0x6b9236bc5ef9e1dc; 0x31cff928bc709f1c; 0x6c4ac572388b24f1; 0x3041945a33a6e420; 0xd2ac384dcccac40; 0x6d6d1d6834e751dc; 0x508e0443c8ad0295; 0x607a591341bfcc04; 0x4c03cd80678796b3; 0x38172d5aa586ec02; 0x64284e9732a34c80; 0x496db7020f158b09; 0x46bd1c5d17af214d; 0x2cc91674b6ea97f0; 0x1efe851608a5a3bb; 0xa51d7d8cc1e0233; 0x2bae4e09de370588; 0xa140572f79f5ea4; 0x58caa00abf284cfe; 0x70f60f132ee718c; 0x694a9a76bdd05817; 0x261136ba8dda6330; 0x1d5dbb88dd08abeb; 0x274d03ab524a6529; 0xe3c636362beb605; 0x4b25c722d1920ea0; 0x42bf1b2ebb78ddc6; 0x7c1d4e4fd50db22c; 0xe6a6a98d40f970c; 0x60e563e94454829b; 0x4cdb6a5292200f35; 0x15dca6d30f899fb8; 0x71bbc18ed7abc065; 0x455f2226846e2862; 0x68f904a1df19a3ce; 0x316b7e714d8bd8b; 0xcce4916f68bf081; 0x5eaac07b1a887f92; 0x3086cbb406c76215; 0x2d154d7da00e5f7f; 0x22a2cb962f8525d5; 0x2a84ebe1052a5d6d; 0x46401f53d52cd9ab; 0x6ce1d32f061602d5; 0x6751b4b4905fc945; 0x39d9aa091c126fc; 0x404a199413904756; 0x3080c58dbbecbb48; 0x7d57cf99f37a7593; 0x516b06b5b6d16580; 0x5869e74278359cee; 0x4be770e601dfaa4a; 0xcfc8521ee72aced; 0x3df5a0d55bca2bff; 0x12d6b3383edec744; 0x76e62929f2a014c3; 0x276190ffb73e04ad; 0x2ac917a877cea90; 0x5e1d13cdbe6a6c03; 0x79e26211453e670a; 0x71674b52c7a3bf7; 0x7b77ec2f1464c29c; 0x5cbf96e83761cf94; 0x1efde041a87dc80d; 0x6b1ff0be7a5b987a; 0x70df3f6da14594cf; 0x15b60b2623b18cbb; 0x561c55c7c7ac703d; 0x78af9518014508e3; 0x1040cd9139c6f6da; 0x1250d6f1b0911a10; 0x6bf5fdccfbde0241; 0x2bbc7a25db2f941a; 0x6c4ac39e02aaa5c4; 0x7ae7e21158edff35; 0x4787de285bbc5dc; 0x45ce7960e654f5c; 0x467e300e24551772; 0x588f16520c3f2ce; 0x2a2d65b0fe5d52b8; 0x11e5f72b78de64b7; 0x66427780cece184e; 0x51a22369ec1904b3; 0x783d4e0def7e1ca4; 0x29f8db1f3f33ba06; 0x2f141319fb288e17; 0x3b1291e773e78fe1; 0x149c90883aec3d62; 0xf7e18f913238a09; 0x51d1db065869160e; 0x9b8e6092bbd73d8; 0x1096a1b16bb0c3ac; 0x27f1d625c0068e8b; 0x33edb981d4ee9569; 0x2b7a59d2aeed758c; 0xe6966e4ce56a21f; 0x692e64a5c0610e38; 0x6735ffd7d0fdd8fa; 0x1aaf007265887970; 0x1c0208e9ba2dd08f; 0x45bc60aaf89e160a; 0x7c135a746315c7bd; 0x59baa1576d89d15a; 0x35d083802d6a0272; 0x4cb508970ce3b5ec; 0x63c9a14fcdc91d52; 0x3d37549580690846; 0x70bf11c9ecc8685f; 0x693e845ecb48f36c; 0xb6bc915edc53a4a; 0x64314821ef30196c; 0x609fecdb290f386a; 0x7bbfa24d35d1b81c; 0x345b6e556ed8d779; 0x544773e54868c116; 0x268c39eaee7466df; 0x52bbc94bfb9292a5; 0x475cca58e90d965d; 0x596a7b3aac4a84ed; 0x2b0d78d0f4ede71c; 0x26c9629433d344d6; 0x3d98578ce02bb95; 0x6997dd39285086a7; 0x64d88a60bf896538; 0xaa72180964a94ea; 0x5f99fd3c470a0fc4; 0x3b16e0a21c728dd7; 0x2082b3371095fcd; 0x301475090ccedf93; 0xbb6776f1642da5a; 0x36fc03e10be970b9; 0x2b3040e08721f5c; 0x4adea395a1ae4ad2; 0xbd77191318507c0; 0x324d015b879cc4a0; 0x451ab0781f0794fb; 0x3c934ec2d75193a7; 0x6b6963f0536bcd2c; 0xd41456f0aa8872d; 0xd0979f5f768b3f7; 0x326ec62327bf70f8; 0x1314ac51218f02f8; 0xf1ac9834ca8ce; 0x5f9608e962d869ca; 0x24e8136b2bbf673d; 0x2dac04fabcf8e1f; 0x3172afc32d4e2877; 0x8449a771b2700ff; 0x4a33079dbcf525b2; 0x3ed94acc9f562687; 0x1b4d0ff3719e1d0; 0x7bade7f29bc0c61d; 0x5fa76297f05a9a08; 0xbe3651c91d53417; 0x6d6a78c0787f2f38; 0x1fd591488f1cb12c; 0x33658fb744e1e62b; 0x7d817b451ab8525a; 0x14ca5d3d8c3e0e0f; 0x6782a528db361d78; 0x71e03938ba110894; 0x68ec4987fa9405b9; 0x25c9265a16e3f367; 0x2bef2c20319ed346; 0x73d562716e49b37c; 0x367ac3db3ab36dcc; 0x5dd83828239dc318; 0x6172913e6dd96e7d; 0x556c48f9c6450148; 0x749878777e096e63; 0x3b87547933a2a3f9; 0x62e479fdbba3790b; 0x1545f2916fd4d13d; 0x664be9290ac0e902; 0x301fb6f51e99be99; 0x62b4c0ce68883c6; 0x2bbd002985cc159b; 0xb8c57f40eb98707; 0x72e4c70b8a508e05; 0x55047084018a7ef2; 0x428a7b3ae2061e77; 0x61d4dbf8f5fa348f; 0x55e3a192971078c0; 0x61ac028c3264da3a; 0xb5a3f8f55a349ed; 0x46b8679436b66ecf; 0x55d813c96f7ade9c; 0x268efb92de562c2d; 0x2eeef18dc35930b7; 0x1a01a5a105547caf; 0x1670f4f43423432b; 0xbcdfc25e903473a; 0x5bcb8aaa76c4309a; 0x9e40a17b69578a; 0x60ff18e6f4a7afe; 0x71033648e1b6f5dc; 0x319c40edb9ee674e; 0x74c3e251ed40ab2c; 0x317f80e1d0aefa6a; 0x19ce8b91bda43384; 0x37e4add5928d096c; 0x6e704496c668338d; 0x629826cd7076ffc; 0xf45aea436fe13aa; 0x1ad0921db6356ee1; 0x6ebd8cb4a530ceb; 0x408bb25f791a0ed9; 0x3d98cd70f9b74e57; 0x1048a1fb2ca212d1; 0x1ca9447a056c1704; 0x3fe85f8cf138a8cc; 0x5892c9cd90b37d91; 0x6ae5d19b33f1ee37; 0x2f119394791dad3a; 0x298872bccc769ba5; 0x56b8618e8e4418d3; 0x4fe7400ec2ce5bb1; 0x6f9c77b42b9e12dd; 0x70db9ec97498d973; 0x686ad192b20faf48; 0x2cc63cd7b2e7690e; 0x603035323e33a25; 0x692083b279a3b561; 0x207d05c07e9a159c; 0x38dc0cd03b8c6e7e; 0x637b7249c0bffab7; 0x19e94a430c064304; 0x1e720444c0715531; 0x6fe3b9b0798bfc7e; 0x96be8];
   [0x2953ff12c3aa8aaa; 0x3346df2756f0c041; 0x1acc3a1335b43bc6; 0x12889b4c93bc03de; 0x9f46a02e3d50c69; 0x5df54a46f5c2e58b; 0x12ca5a91301a76ab; 0x2b6e9ae2529bde86; 0x26480f7c0e85951; 0x3c9c4380c30ba58f; 0x2f31fa9f0a59f3c; 0x3ca0461fce23ff7e; 0x418df9c2c514f9f; 0x3bef9be66f573fdf; 0x36f8693d568944cf; 0x2dd925bcf6a3a003; 0xfe43cdfce7a9590; 0x20526d21be9ab26; 0x3758705c35f416a2; 0x3712902a15ef7ad5; 0x752028db63581f85; 0x7c3ab1b9f82da8af; 0x25b070e4f4bff6ce; 0x10035ee5ae85b866; 0x1d1c41a13b62d843; 0x78b52af3879f2ac1; 0x3b38f8a7b429f5f; 0x198de98bdc68d4c3; 0x2136aa6cdebaa506; 0x1781cd485e97becf; 0x289a3433b29d62b; 0x222df823d4e42dae; 0x3485d29dc87c3c3c; 0x3bc7522f2917b8c; 0x36a71bcb5f9fb46b; 0x524f46e222944faa; 0x3a9d7bab438ce9af; 0x56a543e36c30020; 0x475ee2b96e413447; 0x4218d77c7b6bb3ca; 0x1579d191a67d7bd; 0x1b7ced7fb7a15d00; 0x3bff49412aa33ad2; 0x5932f4a24454458e; 0xb8199c6e10e3bc4; 0x32b2521b9d2aa671; 0x24d414a5f689a54; 0x2190352ab1f26642; 0x1d4a5dde95453d90; 0x3762d661bb053087; 0xa0e7e875216d4ac; 0x18389bf1ad873bdf; 0x34abdd9adce4c4f; 0x1d3b23d56c356a5f; 0x5601fe5b1850db0f; 0x5c40df94c285e8d1; 0x300fbb52787fe931; 0x3faf8c51a501ecae; 0x7b801004968c4907; 0x49305e8d73907c7c; 0x513210580d3dc830; 0x45a2543239728671; 0x1bf9492a6e51ac20; 0x7a05720836d58481; 0x2ffcd3c452730ba7; 0x70de2def4d81087e; 0x71a18c8a4e5b1229; 0x7238615e968618b8; 0x33b7db23a6a4ef85; 0x3876296280fe48a5; 0x2c30c8ac6761b64e; 0x3247f24f1da630e4; 0x7a1aa9e3592cbaf8; 0xf010907876d3ea; 0x601d9bdfd4b90abe; 0x5c7cd7557609036a; 0x64ffcf6774d8f356; 0x3f4996f7130fe314; 0x9ad0a23a94ccdac; 0x753374f3db2023bb; 0x43f9a6f23133c55b; 0x75b46182e557fd3; 0x138f14a237202a70; 0x13eadf45102a3bcf; 0x1c815415aa5f634a; 0x642c8820316af186; 0x3c7e8cf8a49697d0; 0x1ba406ea76043369; 0x204b054552bbbeb0; 0x3b087780efd922b7; 0x27260ec07a0f5c34; 0x25648ca58b506af1; 0x18aef108f9dc98d1; 0x2a2cbb18fd6ac5ad; 0xc40cc0c64bd968f; 0x78f79eb713107760; 0x5b76cf7505fddd32; 0x716707996d647477; 0x565b90116f4ad7cd; 0x169440aacdae4aee; 0x3eb0f089332365da; 0x4e6efdc5878ac068; 0x176dca56a76a2bad; 0x75f238d626b5659e; 0x6795888430d1aee9; 0x1e441fd968e8b4f9; 0x74fef07783fcec53; 0x568873e5fdd72657; 0x3a4832c50bee2a83; 0x6974c1dd0538926c; 0x55f480e702cd44d6; 0x63fe176795a4ee72; 0x57670a1091ad276; 0x7b4a0bc2e6adfb18; 0x663ed0022b65bbb9; 0x59578e6ce3c04f6e; 0x54e27df950659f9f; 0x56393a6c9a21cd89; 0xba136dff56aca77; 0x60d5914724da1c0d; 0x477e1b195b9e2dc9; 0x33ee5afbca9f2273; 0x7cdccefa7d7a91e9; 0x595ace7bc1fd84cf; 0x5edbe6ebae5f3d3e; 0x5b75ac46d3617c75; 0x3cf2235ba840d13; 0x29e006a5dd2f4c4f; 0x7d43ef86922d3fe9; 0x55a3694da20a6836; 0x80f5d8bf609a6fa; 0x24ffad25e7498f9e; 0xcefc75b8d90861b; 0x4f644519aed6ca8e; 0x2a5e61274b861e70; 0x3be5f781cb1c5fde; 0x234e39e85b77ea54; 0x75d38173759c0af4; 0x5167bbb147cb1933; 0xb359f782f7bd8e; 0x765b11c87fb2e321; 0x47eb2e324728571b; 0x4086aec6433ab49e; 0x497c26fba6d6abde; 0x7bce6bc8beac01fd; 0xa4845791f500e86; 0x2d3b9143455b1f89; 0x47af5739346bfb3c; 0x6414ddc62afee4f6; 0x1a71474fda2cc7c6; 0x253cdb9f756defb1; 0x3dea2291dfbdd50d; 0x1b260aed3ded1fd7; 0x24e38ec2c0839071; 0x1ea919a88902ce7d; 0x1ca832d4f2153f57; 0xf5159361bbdffba; 0x5223e2941605a827; 0x2ea80ebc14ce7afb; 0x16d02becdc330f21; 0x6518389fdd0432ac; 0x61d34047b64069f4; 0x1a118339e1f4451d; 0x92593ffef46572d; 0x4fd0d9b2c91da4ac; 0x31a6a3546ff64a7b; 0x1ea4981ed9758149; 0x60d7379afa5df3c2; 0x250994ddf0ed7451; 0x3275cf82920abc90; 0x524a2dbdb1e68cf9; 0x5e3b4f36ef7a727; 0x5fadb63cbf54d59; 0x2f74ad4f836cbff3; 0x467c05fdfde744cd; 0x5244456ad927a234; 0x289e800f3f65fc2a; 0x44553e7f9e115f75; 0xacdf50bfd686bea; 0x742415171ee4a370; 0x3444e63d6f9a762b; 0x72bc220c5a85cbdd; 0x44ece3dbe0f32d92; 0x43549652e3310482; 0x5d1f95ae338f6e6b; 0x6384ecbc3c0f9629; 0x1a15ca3663a48b49; 0x7a2f82ca0fd7943c; 0x245db17ffefba1d9; 0x4e50da9712d7afa0; 0x31cd3f1d50b733c; 0x44d52760ef3a666a; 0xc92883a9fc463e5; 0x34397dc99beca92f; 0x2058e40484820828; 0x6628049305d9d33d; 0x445e77bc090f61a1; 0x4bf7ecc02be3b5; 0x42a66e1682e5e029; 0xb690b0beb35fa6a; 0x4ca87e9b1f93e0b5; 0x62946209ffb5e655; 0x7f33ebd36d9c9914; 0x79e801c33cdb934; 0x2265d1047d5f46f2; 0x4237a6a5dced9871; 0x1b0b3dc95faa5975; 0x1a2183a674039c8d; 0x3390e3c185858a45; 0x3f1e3ab60be50992; 0x332d3af716d44bb3; 0x796c9436bf35c6ba; 0x96db27182360a88; 0x516f590866a6e2e5; 0x512060f22437e025; 0x68e63a3ef3dc5b62; 0x18f8bd5a3bdfe7ec; 0x68834695070efd98; 0x4b65799ad6bc5b47; 0x271ebf31b7584449; 0x41f2553dd832eeae; 0x17df8393a5f4ce4b; 0x54e1ce3c93fa2528; 0x3f6c1a7f4b147ef3; 0x74c96b8abde02d33; 0xb6f1cf0debdf3f3; 0x37e976bccfab2180; 0x3c70dba5f8fb796b; 0x449c68a5addc29a2; 0x5ec0609345be6e9e; 0x2297b2cadc9aa693; 0x3aee7ddb0ac3ab9b; 0x564ddf7deeea39d9; 0xc4474bee6e412f9; 0x2541340a9521a352; 0x3ed04b910edf2f77; 0x6fca506208c7b4e2; 0x1b9ac28c85d427db; 0x37011978c1bc3366; 0x58ae320d4555d3a6; 0x1971b8ef9b9c3cbf; 0x3512226805f7f058; 0x2a9250b9a5bb3f51; 0x1c48c63aec0b9d09; 0x7cbc00a5ada2d334; 0x24e2cc93043eef9; 0x5187150292442f76; 0xb57a8eea1efd61a; 0x64c8ba82ba17f0a1; 0x7e2a6a5a70c7059; 0x1042cf39ce0be82f; 0x2c1ae3d52ee1c819; 0x729dfc99d740fb88; 0x1d8ddb75631b83ac; 0x74332357d3f7d0f8; 0x4e3694002cb46b96; 0x39e85f363b696ebc; 0x137e5e2eaebcfe04; 0x7753f5f81a140e18; 0x75b51ce020694c16; 0x314791c12eaf8bae; 0x2a7224ba64f21c3; 0xd2126abc0b8a444; 0x19d46426a870ad3b; 0xfa6dc3826d91eb; 0xb9e32c6cce9ec43; 0xe2dde19c734e194; 0x2045c3002996ff66; 0x28d221b5c1f9c8f5; 0x1328305d75a41956; 0x2903164f6403c407; 0x32a47d4965885462; 0x3854867bc7701800; 0x168dac73b4977d43; 0x67acbeb14afd0fe3; 0x2084edc2aa844e47; 0x11bb9eeb2992455; 0x2bc9b61c0ab01ea5; 0x6b10f02dd097f00c; 0x657bbf2fb3a18600; 0x577fe786285e99b; 0x3d2b9e6bc076fce7; 0x5eec3c99d044c59b; 0x46e97c2a440b5a11; 0x1b5ac014783c2e0d; 0x2b1c83310d6fbeda; 0x7bdc9f58a15b7d55; 0x8f25c8e8d50da4c; 0x5c124899a839c7f2; 0x24f74e92327a90b6; 0x7359ee851bf3a5b5; 0x45e987a0d050cc73; 0x7482fa9defb1bfa9; 0x55b250b787ed762d; 0x27d2ab041d21793d; 0x7570be76eea151de; 0x38a85299fee623d1; 0x42f97f5ede773a3e; 0x6c1680b8003a11a9; 0x7d2fd76d30f04147; 0x488b4ad2b415ad2; 0x7cc9e5463084f8a9; 0x4868964597a07e59; 0x3c933a7d2fc72d82; 0x1a5346dd89fb1de0; 0xb3828db56320386; 0x2791517cff61ed5b; 0x417ab91307c9452e; 0x5aa4ac4f836539c5; 0x48250c61378e6189; 0x6f4598c4bd5b5730; 0x5793559da24d3b3d; 0x19c0e047e562e963; 0x587efce4ccdd1097; 0x5a554b64205a6b14; 0x74d066aca71efd78; 0xed28214ff70a55f; 0x2f0967];
   [0x2d5bd24b13d331d6; 0x544a80a6ae2b7acd; 0x57ba8163a20d8757; 0x16c316feda9e4ba; 0x38527fca9280eca3; 0x3325e2700724ba85; 0x6efcd6d0e71ed2c3; 0x57cd2d3753a95618; 0x22c21f560c916d03; 0xdfccaa6c50f715f; 0x5639341b6b3113c1; 0x4bcf1b278b458f91; 0x41c3fdf3df31f915; 0x397059dbe2c6e299; 0x65cd16687171e9c0; 0x25d4a7fb298eb2ab; 0x7695748a87d3b7e0; 0x65b85b415a1e700c; 0x3660dae74acd2cc5; 0x740b4a8c6ad1d05c; 0x68d2fa67172e9a3; 0x474d6c10c3db510d; 0x1bbb1b250e8254ca; 0x24468d912c60215b; 0x2dda9bea8c62714e; 0x5ace1305d68ee48; 0x5d5fd5d9150eb972; 0x4db53e4a253f801e; 0x50736da2f91fc4ba; 0x48383b95b8f38794; 0x41f93fcd9a84305f; 0x150bd1eb9217dc08; 0x3fb53631919f112b; 0x75f17432d60bdaf6; 0x2738d7cb321b3971; 0x55c5a937351559e2; 0x43fae519c3764dca; 0x5b105715e7b3de8d; 0x4fc245e34bd76861; 0x51eca9acaa021813; 0x5fd5bf9865e410b1; 0x5e14e3ca89002b0e; 0x5b7d0ac6a3e45b17; 0x7800a84fb6b53516; 0x1f8c5b847da86e2; 0x667798035e6fea1; 0x75682a52acbe3b88; 0x41034b3f4810a566; 0x2c59678eb3e375c4; 0x2a56b137e292c75d; 0x6ea5227b706cc0e7; 0x2478ccd779607ccc; 0x3f6486f88c345a48; 0x7a913c158364ca86; 0x449dfda53b20d712; 0x252d50f4a36a6f85; 0x1fa3852c635585db; 0x6b87bdef36f6fd47; 0x7541ef6f67bc66bd; 0x382340737958c96d; 0x5b5a62ed9f721ceb; 0x4ded511f982b74b5; 0x64df488ca02bbf0f; 0x3b9dbef2dd9b6916; 0x69c42de3d4661b71; 0x30a3fdd9208565ea; 0x4913348f626e8368; 0x6651b83d1843d19e; 0x1914337929417dd4; 0x27e1e035e81f16c5; 0x5234bbf9bee6c3f3; 0x152d98b19ec905b5; 0x7896c6024a76918a; 0x76a5195335b0de60; 0x12c65099e4f6789f; 0x5b6394a5232236db; 0x37e255ca4b8b39a6; 0x6f60e0c09086f498; 0x117fbdbca43ea9c9; 0x4a0df8f8de917f0b; 0x2656202bcbe07c3d; 0x1ff8d6e93ea57da1; 0x1a877307fa38248f; 0x1814db7feb112d77; 0x308195a69e5034e; 0x25b808528853f77b; 0x1289ec54e935b8a8; 0x6a6939b4049a0763; 0x3a7abab00e598593; 0x4ef41c00805f3ff5; 0x2e5f7b9ccd4277e2; 0x2f54076031014c9c; 0x58012775042e3e10; 0x66d84b4fea9494e; 0x71eff045d088550f; 0x4bf4902998ab2ebd; 0x516e7705108b0f81; 0x1168807be21a55c2; 0xe84b7d6bb70f8ea; 0x3dd59903c601f2e3; 0x62e09fb6144b6566; 0x500f924b2f47960; 0x40f9a0607bf61212; 0x60476c7cf76474d1; 0x791fc0a72939bae; 0x58b24cf400ac081e; 0x51c982ee4f3bec2; 0x1a81b58c054b4e8a; 0x5aabb01047916fd5; 0x42cff9590a755e2; 0x4e6b82b03bfab661; 0x782944d5c49d4e42; 0x5dd21dbabc514f04; 0x2fa1cb21209f4957; 0x34e9e1d456774b54; 0x4387897b68274544; 0x14e77f0402e73969; 0x5b2b03c3d588868b; 0x4315b0b482a7ed16; 0x5311dffefaea4756; 0x14adba36db16577f; 0xda417ce3bfc53ec; 0x1a73492de8378f25; 0x6aea9c17547207c4; 0x3f172b236d0d218f; 0x694b8c61438b87cf; 0x7ee64912d83938a7; 0x3a5845b6a6f4a922; 0x4b7fb4c9d274d893; 0xcec385543f9c2; 0x5ed752fd910c15a; 0x38c9725e0c209180; 0x723906a6a56105f3; 0x2a3f0dfeb0442755; 0x2e1fe9c9e1af4b27; 0x9f5f7ec9621b453; 0x4ad47bd1f16d4570; 0x7d7fc27e9d74df00; 0x6e8db19d2511cd5d; 0x7f20d201cfa0b171; 0x34d95a92e54c7434; 0x2cb8865cba1e3b7; 0x2cb71c3aa6803594; 0x7c9d9fb464aa6103; 0x3cd87bb7d947a333; 0x9c8905ef720f531; 0x159e509a34c1ace3; 0x672b24ee9541d954; 0x3448efccf53e215f; 0x90f36f1df48e03b; 0x45c766d3e2fbcb28; 0x2a12601c3a3a2297; 0x2ba0af4c771698cf; 0xcddf314365408ee; 0x1ff5825c75dee5f5; 0x26e4a1086600c1b; 0x1d92330a425c8128; 0x950449a883bceb2; 0xbd0a47e732e635d; 0x72f44ec77bdda165; 0x4f21692bad0b83bb; 0x4f2c3247062cef41; 0x1f621f74ab827307; 0x7ad64c885b615069; 0x73b6033ef469b7b7; 0x10a3eb0c328f45d4; 0x4d789cd51f5ed401; 0x1ee9c831db20ca3d; 0x674e5a6891316b69; 0x434cd037dba022c1; 0x6359f632b5a2705d; 0x3540945c020fefc4; 0x6f7ce9c850e8ab52; 0x1d8b7fb04e49b5fb; 0x46e20ade9e3a805c; 0x283dc7596d804b05; 0x69868ac7f1331c; 0x548ac9aada81b2cb; 0x1368693f45b7631c; 0x769515130c89a61f; 0x4ea1dc8901c14df6; 0x20b17b9ba6eb7f89; 0x14cae6ad4fb65ece; 0x551d336c49a83a8e; 0x610700b50a4f51fb; 0x23fa65634a5ea30e; 0x528d7722c46f953f; 0x3f587c3f2f03e529; 0x1a2abd07a6c99ab8; 0x15cf76fcd8ae05ac; 0x3ee02f9571ef930b; 0x37ab2da3ae0992d9; 0x71bd641c202137a0; 0x54514f822ed0ada; 0x525400c09e94ce6; 0x6b5ee3dafb38bba; 0x62ce4f3a47a978ee; 0x2033a2cf442e5d87; 0x2fab283ea1fc659b; 0x3874e8f5a9779609; 0x72aa8f4645fa3e87; 0x53107c51eec41b59; 0x4b2a689725ef292c; 0xd56cfabb4b482b9; 0x39d48cf73d0013e4; 0x13e6eaa023434a90; 0x1e3e7dbe4d68dcd6; 0x17cc9892abaf05e7; 0x49cb25cedc87168d; 0x7384df3f7671d2f7; 0x5716de9727ce0db6; 0x7c3c79023b979989; 0x5a7e24aa8f96afe4; 0x4ffe9db6fca0ab28; 0x19aeb2271ae21484; 0x518dadf48d2413b4; 0x4330e62c2ceb8ac; 0x4e297c1403a66685; 0x1ae13f2c6ab3859d; 0x7d9960ab8b0d07c2; 0x5c709e3c235b7a9b; 0x3273e27d52a2da87; 0x42b94b6c2da3345f; 0xb07e8b7e5350d94; 0x1f7ee67af769caca; 0x6152e43798e202cf; 0x26a0cadd5ec10766; 0x43724d56de5d569e; 0x2ce221e5116f946e; 0x4573e8c64117a536; 0xe22f9ce6aa2fee5; 0x79390ded6a331279; 0x28ba9cd50eeb26cc; 0x76e6ac45e4f95913; 0x69b31e01611eab7d; 0x497ae9fa749a5eea; 0x19624b36efc9460c; 0x682dfe48a686a39f; 0x12606a186c362049; 0x18bfc391faba26a1; 0x525d9cc3fb85deff; 0x3438d2c3d4bfd27f; 0x7707d8bd3f498702; 0x510f280132957945; 0x6bea469849e32a73; 0x69368051efaf1c92; 0x44f18991cff506f7; 0x7d0a189e93567e81; 0x5f84c50f9e1d6bab; 0x2ff0fa2cabfbe16d; 0x7fe22d7f24535173; 0x274c8d73bea5ff12; 0x2f2ce7cdf19843b7; 0x3d8ec0469673f08; 0x22deffd88937fc0f; 0xdf615f54e39aad2; 0x6877ea33a19c61c4; 0x4dfb589e9503b50; 0x60c7d39bd41b64d; 0x45e9339b5323949b; 0x1188177bee129c07; 0x72d66d5485c41f3f; 0x46747de4086dc675; 0x17835ed240e26124; 0x289e29cb3dbd9189; 0x11d648216996ca2; 0x4bb0da0414639666; 0x7b26ffa1482c1603; 0x1700269cca7ed523; 0x14d214f8080b8628; 0x160a615d636b354a; 0x1a59ea13d691cc42; 0x66507976b3d722c4; 0x4340f9380e9d7881; 0x9e2ab0e9f0263e3; 0x67eb853658b7a498; 0x572e654c264e92c0; 0x246bd9fc14a38e9b; 0x5ff9976bca825fb; 0x25d23194c5ecef4; 0xce89171ddde0454; 0x7038f0f2dd8750a2; 0x78190eaeeb672bda; 0x3dbccf8908287db7; 0x2188fe8f62f85a07; 0x61b286917923ee34; 0x31046f8fb4fb232e; 0x712f1cfd17df7ab6; 0x36ac6da6738240ea; 0x5f415d2a05b49c43; 0x97934ee70ea7915; 0x109870fdd0dd6fd1; 0x4d8e632ba8ece87b; 0x4ca28f9a5aea96d9; 0x4617c872ef9df665; 0x28601229ebbf3eed; 0x3c7528f6ce3129d8; 0x71e522a5f26f91db; 0x52498e46c57e3d8f; 0x73a8f67bb23cbede; 0x4dbd668d9d7a060d; 0x41a45d7cf8ce9ef5; 0x535960cebc7522fd; 0x7d67461a7dbe0f02; 0x47f43408e58cf207; 0x54193ca4829cd062; 0x329aac62b76d6b6c; 0x770bf2a0e197212d; 0x587efc33788dd3e5; 0x36e41abe2259138e; 0x6c79f8758bcba444; 0x5cc84c9b40ca21d2; 0x5241a3310ec26211; 0x491456dda1c1e682; 0x14b0e8301ebae16e; 0x64fae653336a0c08; 0x232f867d3fa0408e; 0x21b812];
   [0x59962bcfb6f12dd7; 0x32f6705b32387ab3; 0x32d092b98636d305; 0x4810375b57949bcb; 0x2040f31ab8c66fb; 0x3b697309858701fd; 0x402999b364edc910; 0x246fb5af2b07a6d; 0x3de04f4ab43c08c7; 0x4c001fc99ada4cd1; 0x43cc89b94d894e6d; 0x594f1c73051f0ba3; 0x29b6c6a6fe1dcd54; 0x295846a53691b607; 0xa3bd23866607fc8; 0x5784c444c2e3c673; 0x7080dd4bbdb35695; 0x37ef4af90670095d; 0x1c47589bced3d530; 0x2a820de85e1a182d; 0x5bc011c1e5ef1803; 0x739bd2f97e61064; 0x2d307cf9d825c655; 0x429dcde628842437; 0x471ad8184eeea199; 0x6742586528c9039f; 0x6592b70ef198ee85; 0x64c0f8cd89ddd5df; 0x2718b3cd831cc1e0; 0x1ec6993044392da7; 0x1a0663f4cd30b5e8; 0x9775eee06208e8; 0x81913454a223b4d; 0x51686b9ff54d0339; 0x3c4b1ba030a5c53f; 0x99bbbefcfbea3ee; 0x51af68dc1cc771ce; 0x1866c42ffb1874a2; 0x18ba05097a6f4831; 0x24b408f3e928be68; 0x52689b1c97f64a52; 0x6f12b57325bbefb9; 0x41c1ede625ac5d2; 0x6cce4ecb21a58fd3; 0x26e3700a9378468b; 0x2c62cf94805179a0; 0x1b65c58babdd95f0; 0x7eaea045e2e2a93c; 0x2d28c43258390b31; 0x16af59c1d6a3e908; 0x5e840e30d067dccf; 0x18867b44fe7fba97; 0x6cf6d0083d75ad3; 0x3fea6d3d608cc549; 0x34940fa7f0b63af7; 0x77cb49c949d3ae6f; 0x18b8ec1bb9dd581a; 0x136c884330298a0a; 0x7a27b5e46a44edcb; 0x5a817287a8ff320d; 0x35a3029c04751fec; 0x3bab9375dd7b7b7c; 0x4f6927ff1b6f5295; 0x547b0fd4e5cfedd0; 0x4a7e0d0dbce97ea9; 0x24a23ad1397360cf; 0x2119ca2c54ccb201; 0x5b13bb7bf024ebdf; 0x69340430b3180ebb; 0x197cf0eeeb3bfcd9; 0x4114b149710737c4; 0x135e2e8fbcdc77d2; 0x378a9c8e9b5ed054; 0xb34fabc8fd1999d; 0x348d67ee38fab84b; 0x1f1cf78b9cb19c3a; 0x25b10876dab09993; 0x1be386a615817674; 0x765315b2f28591e0; 0x42a89262acb42c4f; 0x15bb0d8d8a537fd7; 0x1ecb2179a1fd3a1a; 0x56cfe8da1c4facfe; 0x74a12016d11876e2; 0x448b768e8320940f; 0x3c881426cd6456f8; 0x2004bca3dc09da51; 0x3ad3b0f8e5ad1905; 0x70cae409858500dd; 0x2e91e51cd506002; 0x37a5fa5162f6d2f; 0x43d91f036f7eaaa9; 0xcad2c0f1e2cfc64; 0xd8b013e5d186c17; 0x253763ebb409bd47; 0x49aacc829995155; 0x739fbb7d9583764a; 0x2c71401b998869d8; 0x6d29f4127110f8eb; 0x120ee4983adb43e6; 0x4c24512b6b908196; 0x12f56b385c0e3143; 0x5dc83e87873af859; 0xf1b9a6d8b9534f6; 0x73a4697706506418; 0x55b3bea550061682; 0x6f50a49faf8779b9; 0x1471806f3d73071a; 0x42aec56b6cbc09f8; 0x3cd15c35a1f0b413; 0x26281884a2248b59; 0x2b633ae789d25251; 0x361c43f3ba882e2e; 0x2b015e5fac56c8c0; 0x2822d89de6c6aa6b; 0xda77e30ccd3d51d; 0x3d75858b0aa932a6; 0x41d858d205948e91; 0x643679567ede2520; 0x62d22037fc1ef5ed; 0x57d93343df900316; 0x4fd4c83a11cf229d; 0x6cd81fbf86ebcfcf; 0x6ca53f096ec9db31; 0x4b55d9880f936e7b; 0x93f0f3d6de39fcb; 0x61b492622079cead; 0x23a90c0618f1d456; 0x29ae904ebb1f6d71; 0x74fd4adce93ce07; 0x25c77244fbae7aa6; 0x6d134809907c0077; 0x5592db56b0f53d4b; 0x792c1a4dbcda6e0b; 0x14a6078b7f2c4676; 0x375b63cd2ae2b105; 0x7cb570668c31895f; 0x41705f13c20d384b; 0x54f65f95a93a0ca3; 0x76d234b8138fd54f; 0x5d27e33862205376; 0x3024e1ce93cdcbf1; 0x533ef9e9af046fb4; 0x4a249a542f44a73d; 0x4ff712a8172203f1; 0x3b260a33e12addd8; 0x536162f62e88b45c; 0x610b90cf3bd341ad; 0x3b0baa6ac2ba463c; 0x5a8663551440a9db; 0x3907ef0e79dd787d; 0x5f4338c8a5550791; 0x652578141b1e1b26; 0x1a94c904d3bcd7b2; 0x9c7da58d37d7da7; 0x3077d2ce5150dfef; 0x22cb5bbc9b02a525; 0x2cf342acc6fac571; 0x7831a1ff80b7b817; 0x26e82073dcc8a86e; 0x6d07141c606b7eec; 0xbde645c259094d8; 0x208247fe00524b89; 0x3d850524a507c51b; 0x193eb964e062e1d8; 0x1a1ed39bc42ead48; 0x3a1e1b6fce0dde30; 0x765c246dbe1cac5; 0x6b516ba856c651a2; 0x6d74ab100c968ccb; 0x331732d3e861f67d; 0x1ccc9d91bc0ba673; 0x141b9ac92e605517; 0x5ff8675a25a45a57; 0x6e25cc093c8225a6; 0x438cb0c999c1a453; 0x68f1ecda783ca16e; 0x7e576cd95db51750; 0x29999e6dc8f51860; 0x6c64fa2c6da492e7; 0x64ed696012cc102e; 0x25f5e9c54ab06d8b; 0x744f336b9ff6650e; 0x1a4bceb6b0c1eff4; 0x1425f518f6bf7767; 0x3b3a5339418fd2e4; 0x789fec727a8e8cbe; 0x48b0c179d260a133; 0x11fcb7a673086238; 0x5a5ee71454388007; 0x3146f906d1311343; 0x26baf6400d96c741; 0x24371f9dd37f63ec; 0x28e53ffd87d30131; 0x3804f1150afb585; 0x72d4f1fea1a7af0b; 0x566ff4d711fa9ffa; 0x426da95ab1e7517d; 0x7413f0442671c963; 0x4d3a2b7c7ab29492; 0x77d5e083da4c5801; 0x4aa81517183237c0; 0x700341c67bdb7303; 0x7bdaedd87d1d8b03; 0x36ae5e1bdba6ade0; 0x4a95bf38709b5049; 0x28122cef38eafc71; 0x209a6b1acfbeaf6e; 0xed9b493e5b70afe; 0x689a4a87ff834cae; 0x74b27fdf90ed403f; 0x6db8bae8b5f2f759; 0x47f1e01ca35c0f9e; 0x158a00f2fe0392c1; 0x2ddb23fe77bec2c9; 0x349479a886173333; 0x2e4156adf4a82ea8; 0x30c94524c7b0b8a4; 0x159c719c4d3e9511; 0x556b734ca6c6f2a4; 0x51b95b31cfb8fa88; 0x38fb629e8662d260; 0x6ae825de3a031b50; 0x32017b4d4ecb9c2; 0x6837a020c73eaa17; 0x2f4e7337e6355331; 0x6ee6f33517ca60b0; 0x183ec21416a675a4; 0x5ee9b3e486ca3426; 0x1f225b3f6557507a; 0x65f0974d78c42f4f; 0x4fecdf00b82bb1be; 0x17e6f2e0c5939f73; 0x62ae025f3a5b8d79; 0x2b0ca10eb87d0b87; 0xc93912ffc54122b; 0x17e96a9332bd8863; 0x1affa202c6513cf1; 0x4992a77cfc6f8f64; 0x5abce76ddd765bfc; 0x75935c784b2cc44c; 0x27eca95b91786eb6; 0x56a4eb76c1b8e212; 0x790f8e07a539759b; 0x131da64d4bea6897; 0x7eae54b5ba0e329a; 0x61c4a92f83dd1d3b; 0x149631a7e0ae0186; 0x308891f5abe8706a; 0x56d14f264a3698db; 0x6b6e559521e9401f; 0x3ae35c629db018e5; 0x60b03b2957317637; 0x6a219c17e560fb11; 0x4c475599df2a2940; 0x5f9440bea21eef9f; 0x3421cb58fccaf2e3; 0x6f919ff3f31b17d2; 0x6bf3a7f65622e095; 0x6de5c880e723374e; 0x18eabca1e603e029; 0x1bc6bcad42c4bb03; 0x5b34929430130185; 0x1100ccf578229362; 0x6d801c2f99ed2a57; 0x4e4a6d81eaac2b86; 0x4dd52dc81a9a3c9f; 0x1dc2e9378d347052; 0xde95ed274f8601a; 0x6ce8ca3aec816111; 0x5dd49b75cc04258e; 0x5742b8086f3db5a7; 0x220c955d9b495f0d; 0x31598c76de331824; 0x37f5cd620b0d844c; 0x63b51614d0b547b1; 0x1d603ac8a23ec54e; 0x66ced0f57ce70bc1; 0x5e313e27dc65f02d; 0x5ef4d021c5292b64; 0x687ff4601624e231; 0x64659aa31b66ed7e; 0xac39f0bf981b45b; 0x239f47895c221ac5; 0x231692065bbeebc4; 0x54110ced801fbb65; 0x40465daa3a81d424; 0x597b46caa5d28847; 0x38520a88a08b32de; 0x672c924c718bc2d0; 0x24b0a32b20401ea; 0x6628fd356e97ea55; 0x62f1cb38a7bc6e68; 0x609f7f3b2ba1defc; 0x24856c755fb342a0; 0x2d98182c4368c7a2; 0x2e692f905bf86902; 0x270327a0f0d1619b; 0x57892c80becf217c; 0x1860aa8df962c651; 0x613d8f6274b1600b; 0x6f5c07a8d617219e; 0x2d9029264b42f2b5; 0x26c64482dad73c60; 0x2d626ec2e4d79804; 0x14bee67d2fb5d186; 0x37888e0aed91587; 0x3fea24af763fe5bd; 0x2563a9903a63c570; 0x49355a5adb7860a5; 0x5aef5289d4038235; 0x76839502b9a2f831; 0x5b218faa91e28dbf; 0x70c2fe1f6410603d; 0x70fb477eb5472ba5; 0x335a71fb3c0a7545; 0x34d2ad4c5880b83a; 0x3ed05];
   [0x75f9b1a5968edb7c; 0x311977f322fabc3d; 0x61783df01dc3d17; 0xecb70089b5b2849; 0x3b09976725343cf9; 0xcde5a318378b429; 0x3564357564b51a60; 0x2978a441f63e883c; 0x3d400e69e170d315; 0x7570a7a3c7ab5cff; 0xf8167d0fe17271a; 0x2f09c15d09a29139; 0x108a25dd939cb197; 0x5b07f503b3fe4467; 0x1a0ceca585c3045a; 0x7634fad70e92c456; 0x69fc521cbce85065; 0x56a435fd49d8de8c; 0x6204d897b469fd85; 0x60de062681451cd3; 0x63bbd66599eeec6b; 0x7e0e900a1033d824; 0x60208344dc99a587; 0x4b5c49b6adb0990; 0x60bb2e0e2ced7d5f; 0x4235df357bf5aa97; 0x4e82ae2bb3a4b1c4; 0x46ce517aa1246750; 0x3b9efc68877877e6; 0xef697dc7000856b; 0x6e33017ed9b8ade; 0x520f59b9ea35a7da; 0x1a1d0e0e13619697; 0x38e182d4b95972c9; 0x5dd85e4e67603fab; 0x1ea7a89cd8aa968e; 0x5736682bbdaf8e49; 0x5ef0350a09ddaa7b; 0xd950c4980094876; 0x4ffc7462e819501b; 0x76aeb70963bae533; 0x634167682f491700; 0x4477ca211b5190a9; 0x9be3a33282fc4; 0x724e83b5aa831832; 0xd7a4a42383cf9c9; 0x1cd540b43f632f80; 0x7de1d6c862825a99; 0x6a04039eb1d66ad8; 0x39d77841e4b59139; 0x795dc51c3bae8e32; 0x47af6aeb438a1481; 0x7cffe30187081134; 0x14340c03d7d7f723; 0x4b3116a7fc8026ac; 0x469ab8c0ef1e2404; 0x53d0a53844cee0d3; 0x3a343ff5ef924c20; 0x2d1b4575aded6600; 0x5937505d9404cdc; 0x5f3cc2700f236586; 0x7a0f1ecc635daf04; 0x4269fbbb2be4f8ab; 0x63a451a54b581207; 0x471b30763383c854; 0x1db4f84c3bccef28; 0x75e0ee0b855c6fc; 0x7766ca5aacdea446; 0x7cba7805df48ebc8; 0x3ba7fb68ec3f3dd1; 0x5fbdc2f2a0bca64c; 0x2d63825ebd873203; 0x6f14ca2e7bd53513; 0x8b8dd4f809d1066; 0x1fa1f90e25a9d2b3; 0x1d09e4e45462262a; 0x229a3067d3aae3b6; 0x698e2351198e05e0; 0x2aa6d1d3734695f1; 0x38330b5e73997e60; 0x1ed7b85c7b538c01; 0x7e6780b8d6627e5f; 0x143a0b3ca8d55fc8; 0x3ad112ab2a593837; 0x43a5a07db3f74484; 0x289b93e41531f193; 0x5a46749c2adb3e1; 0x1d877ad2af3564c0; 0x1557c301e224358c; 0x74e7273c8e383d3b; 0x66e95e7e82913e6d; 0x3f061cd2ec213d12; 0x26cb669bd42b9fc3; 0x34e4e24d56477de3; 0x3a4b185a6aaf0587; 0x1025a1aea829b4a1; 0x664d5f9bb0d23477; 0x51019a92efe7c55a; 0x4ae38c25cce3fc6d; 0x3f99314ce2593923; 0x257c256e400837e5; 0x23a23eb11b1b8ae4; 0x25e067e49fd85d7e; 0x66b39bfb0e4aaba; 0x69003cb31608e5d; 0x2dcdc5503f543c63; 0x68f4e2f3bf4ba4fe; 0x48691777641523b0; 0x75cb483961bd109b; 0x2497cca46fb7586d; 0x7e8755c0aefa5a18; 0x35dcd427b9a9c0a9; 0xa76f40f72bce59; 0x5d294ad1325ee834; 0x3712342f6f9b428b; 0x2799bbf4cfa7284a; 0x272ca4ce2ff60c7b; 0x856ff221127c807; 0x67e2939c51dd600f; 0x1c464fa8523f0420; 0x307be8a3f7350231; 0x59a0a4ac2c70b0e0; 0x259cfe9ea27221eb; 0x7df10c83446f3688; 0x116b4f091f7f65d3; 0x5e4cf5e30beb729; 0x7a8e5186c546160d; 0x733a0f6a29824611; 0x44eeb9bab169b3b7; 0x10a38f130787dc6c; 0x5b6f84217280b52b; 0x73095b5768ab1b6d; 0x520124c572fe7bfc; 0x24e9f40582c73c76; 0x4c7eb797db004d71; 0x6cdcb81380c6cbb6; 0x2c3cd5e4beb063ff; 0x555040c76d0184f; 0x220d92474872ef0a; 0xdb53344490e0db; 0x580de3bc7f696bcc; 0x5e6f3f45a35b14b3; 0x12dffdbc73f3e010; 0x55df927d83e73202; 0x32f7d84947a3b6d7; 0x4468367b70b6c220; 0x569dc207c9adf747; 0x5679f2fc30981f80; 0x238f80062f0731a7; 0x5dc502e7b915297a; 0x10b79cd6f3471776; 0x15c5c1ab571a6357; 0x5dd2e1f5ebbc583; 0x32a5907dfb1a87cc; 0x69489a4d1e3be927; 0x297a93f36a695d94; 0x6bff9b117fcf1ae1; 0x6327fd7d17abc504; 0x76a6d10c156eab67; 0xddfb915283ceada; 0x998bd8a65917a05; 0x3cfe860f6588f3ce; 0xc9c222871addbfe; 0x514f93a1fa594d41; 0x32d2519d9c0e84a4; 0xc653618c5af98bc; 0x649cc3e98d34a607; 0x5970c3581b8d93b8; 0x3f945c220e844a5c; 0x3557da530087031c; 0x7f9f13eaf7daeeb2; 0x3e3fe1c27f694c66; 0x7dfa50c897be2b64; 0x662d2920772fe14e; 0x3e39d3c95636c1f0; 0x490cee581c2117f; 0x3e48b4ee2bbd2862; 0x66fec5b7f9b6195; 0x7321719bcbcdcade; 0x4be72455c07b384b; 0x7c37aa13e30e6801; 0x4eb90b7fb4b7943c; 0x59346147854db644; 0x3f1e40cfc3868972; 0x391c44ef12339e25; 0x1e87e677ae375114; 0x5f4b1ff68dcf66cf; 0x67f28571c6255b70; 0x3ba946c8af3c8dba; 0x308e79ec930c4d4a; 0x7aba1ca50f6a0bb8; 0x78263f8b7a10c805; 0x2728aa9936681ce; 0x621b5b8565f8c35a; 0x4f030222f545ac23; 0x8c1ffe469660b16; 0x5705a4ed711ecfec; 0x7697ed38d666f7fd; 0x4c2f095d0899d082; 0x456c331c04495c7; 0x688b02e0ee21855f; 0x5f656d7cded85e4a; 0x4d67c7e63f26ef9a; 0x3e6323a7b6cde4f8; 0x2f6c10e66032f474; 0x71f1cea5b288bac2; 0x16ec529509b40efd; 0x2670e6c4b56cabf2; 0xc10371a414c45b9; 0x4137606ce14dafa; 0x7adef8b577c1cb2c; 0x7ca87611d93d265d; 0x333f2d2bb885cbf3; 0x1e24f3484b045c83; 0x47d9bba100150e25; 0x2c76a765fa42b4; 0x20c0c2fcfa1c380f; 0x6ff14aaf5a5520ac; 0x2f8076161794ef; 0xf4353d7e32e6fe7; 0x3152586cbf532b51; 0x5dfa844eab54748a; 0x358d012dd0943238; 0xfd0609a4711c508; 0x6129be7a2791ac1b; 0x31af5b06ebcf2a99; 0x7fb9963807d26440; 0x53403bab7076b5d8; 0x7aa420afd66f15f; 0x3192c7e48e1ecfe4; 0x404d7da731cacacf; 0x4247fed14644bc5a; 0x71530f311d6dd4d3; 0x40e7d71dc1d0b637; 0x228691907cc3d52c; 0x7e7d18538e6c6d1c; 0x244ccbd67746c519; 0x8ed7cdbbdb408bd; 0x4e09be10f043238b; 0xfa62dcf310a7db3; 0x607677c4de2fe789; 0x2d89d4eae7b54c73; 0x59e1692959f55a68; 0x6227637391edc9d1; 0x1eceff8ebcbd5b8c; 0x484166a8b3b78b5f; 0x6301ed81e287e0fb; 0x1779d1d4cc3f9d17; 0x39f287de3632e0e7; 0x29d05a06ecbaa3d8; 0x6d552f10f0ef1f7b; 0x32512ca60fac14c4; 0x3a8a408bdfc3cdb; 0x10f31e29320e087e; 0x5aa11934e7839bcc; 0x5a5dbe3fe19b1a3b; 0x7bfb47bb9b7346a9; 0x5a5eac9c2a762fe9; 0x69c3064e7247da49; 0x572a2e67f259ecb9; 0x338d6f931d50c2b1; 0x18e43243a2ddced1; 0x29323a97c8063159; 0x723756edbb4dd764; 0x347742ac24ebcb9c; 0xc2bca1d9f0f1b2e; 0xa17e5b0c6782475; 0x27a4c245512dc14d; 0x22cd50edb309cfaa; 0x87656c74893f9ac; 0x6dd10af778aacea6; 0x7ad624d99cd5a935; 0x33f8a8625d5a0b92; 0x609714a6e600b70d; 0x104f2810df6560fe; 0x6b766e11c719878e; 0x41d451fb202bf3e6; 0x7abd6e9910476e82; 0x5e81266153b424a3; 0x597f1d7342c1634d; 0x6dea2dc9e68747c5; 0x62ec40c89cc6bc9a; 0x7e569b01e60231cd; 0x4ae77cb4ef1adb29; 0x7aa12ffea2bcab0e; 0x1a8f4661ff96e2ae; 0x39516204bc9f4af6; 0x316fa1d382b6e855; 0x7f3dc75284d548a7; 0x72bd7662b56f0819; 0x2d97e0f0e8369294; 0x7f5daaa1aa8ac454; 0x6dd4b745de4abe90; 0xe65c6423ddac277; 0x17328456e0242eaa; 0x2e47118f5355812a; 0x4d7d98175e321267; 0x1b36943f84349c2c; 0x20c715ef98052d8c; 0x198977573e04deb0; 0x6e0af919e0931ebc; 0x69964be3ba6a3401; 0x1fbf4d19748157f; 0x4a12269fd19feff0; 0x1b13a5136cbbb317; 0x343ceecd4b3ac044; 0x781d8006e6158591; 0x6b8c922b6a78bc15; 0x6f0acc361d51482; 0x1f199b85dd7dccf2; 0x6496aaefb7d2d463; 0x6e4f834c0c957098; 0x70a29c5fc0ffeb7f; 0x3a67e6f464e9711d; 0x6d1f6b0eae0e18ca; 0xa2803401a58875f; 0x2a51872d1826452c; 0x272e7a];
   [0x4c2a34ba23602f42; 0x328e8e980c50e70d; 0x7d64c642b7717b36; 0x70fe04a9f2af7cec; 0x4f409677f3c1735a; 0x78b015b0c29ed443; 0x64d4899e9b910509; 0x1e993eb8727163e8; 0x4c76e4648fd95ade; 0x6e08a3ae149a521e; 0x50472a8112f110b8; 0x744617d5170ee223; 0x5efb51ff452c8242; 0x2b0682b7fb7791ca; 0xdb997a1e20aef32; 0xa0b34d3a3f81fe0; 0x3c6d2bcecb9acc5c; 0x304b204fa0792ff1; 0x72c39141c000b46; 0x5535c9f30b997207; 0x1c90f714cc3203e6; 0x6037f183aefd84d6; 0x32d43e08b974c70c; 0x23eb1279096cbeb6; 0x5caf6c736b396405; 0x1b48023a5a38ffc7; 0x2a2353929d3b3084; 0x693e9a5807be921d; 0x7360bc5225aa6397; 0x922358422c14a4; 0x1178d2011cf93af1; 0x1adfcb2b5a43acdf; 0x420ff5bc13942d08; 0x3ba162ed65156f5f; 0x126ddb7c50eff104; 0x6bee3beaba1198ef; 0x7c05a7bb31e4849a; 0x4a48b1011590491; 0x5354693c47b8646f; 0x23939df54fb0ac39; 0x6312d741627d9edd; 0x5d7695a9bc74d6ea; 0x2a66f6f398e7d5a; 0x7c99990e8677be0d; 0x3b87f336a29904f5; 0x791d08b8fce366a3; 0x581ff69a34008ef2; 0x1cc51e99e0385a32; 0x128ac23bc503a447; 0x9ed9e4d001cf4b7; 0x2e710ef8e86bee62; 0x7540ee54461d7348; 0x5dfed590dcdd0b67; 0x6f28f3b5f1bd9e27; 0x5a9e4c5099976ef2; 0x344594a3b2e6ea94; 0x754e1324497d4c2d; 0x16d51a5495cd16a4; 0x616ff6a2eb5cc777; 0x1968a1811342fb3a; 0x4f3d427f7e7cf567; 0x210c78a181976e6c; 0x202b5d257900e957; 0x4dd5956228d7715c; 0x69a80a090ea4a097; 0x9ffb70ca9c3ac28; 0x2e29abcca7ab15d2; 0x43f2024d228d800f; 0x3ac6e2dd3e2189c8; 0x7924bdf8d7c5467; 0x6a776683bd688f69; 0x45407148da226794; 0x70df2c00771c7be8; 0x5563b62a7832386b; 0x4bee3daaefe30d9c; 0x6148e9359816b155; 0x76837b62e4139280; 0x3367a762e0d928ab; 0x1a16238748812a3c; 0x17cf0e4904a0fb1b; 0x300568e245203d20; 0x311140aec354e328; 0x71467603771d1b22; 0x3e75e514bba79a9e; 0x71d8274eeebe018e; 0x50db4306ed4bf7fc; 0x46143157f1934ccf; 0x4345c74388ac9266; 0x382adf04be65542d; 0x2533ed769d9e42d8; 0x1ba07dc4e3669713; 0x3072e54b74f84066; 0x20a8da4d8df602ec; 0xf3f1a0112cdb026; 0x6f579d9efd04f234; 0x258752775b1294f7; 0x169ae9462a4bcc99; 0x6e2199f22089ff00; 0x6a0ecaa8a54714ff; 0x464b5c32de772cf5; 0x4c5b25e912c9bb00; 0x5951647e064815f2; 0x21240286acb1211e; 0x7971c177fb8b9682; 0x6794c767e82b4328; 0x7003f95fdbb17e2f; 0x3434bc68396ba785; 0x61c2323b9eec1a3b; 0xd4576852adc28b2; 0x5bd1c1fa97673265; 0x5559010add536d0e; 0x3e7adc0d2b3d6440; 0x109bc4ce6e5c62fb; 0x5461e46fbce87ad2; 0x2a9f10b5dbe30d3d; 0x2728046cf3efa3ff; 0x3e7eb73ef5ea8b7e; 0x64339465985b57f9; 0x550612b18f3a208c; 0x15d2232c38b0538a; 0x123d482e1f95b8b5; 0x2c66872df4322e2b; 0x3bc8c3d681f841c3; 0x7ab6a691576d78e8; 0x2262b255dab5e2cc; 0x2e9e1fd9cb6768b9; 0x3899fad9ee1d22f; 0x233d69c6b65d62d1; 0x14dde385fde58bf4; 0x9ef9719fde1a6db; 0x634bf703dc42a53e; 0x797111dbde270073; 0x6c4158b21e1b6c2f; 0x47d7c8543df828ca; 0x769428939f1b046d; 0x125fe9789dd49f03; 0x9612d7250e007a7; 0x751b5c8296efd2ef; 0x3a5aa3d0033545be; 0x3c6e791a9275d7f1; 0x70c4a0b47aeff7b5; 0x384dbfbc19adda72; 0x43eb2640a0d3863f; 0x10068b28f75a7f9e; 0x43825464a03fea8b; 0x4848e6ccb054461d; 0x5359864ee3f38f57; 0x36b4c221697b6d7; 0x1fe807b7cb5b6865; 0x4ba5ca857e91cea7; 0x547e89931d172079; 0x50dc4b63d7d61d61; 0x65be7bcc8098ff87; 0x5654b257899e28e4; 0x566b009e13ad9818; 0xa8b9e895079d95; 0x4f3300d47a684eaa; 0x5defe6611cc1520c; 0x483a021f8657c535; 0xbc07eabc00d7b45; 0x3bd7096f7d1f462d; 0x5c1748011d18090c; 0x322bcfe0ef99c8c8; 0x29bcf7c9e443ebb9; 0x7059a5fe383e100e; 0x329a14cfe65bb36b; 0x2d7e63b7507adbd1; 0x7913f567e702ec82; 0x551207206031bb7f; 0x7cc188aba233b3c3; 0x459e4d63af6f3ce3; 0x356d7c867aeb1496; 0x2b3652665b893f52; 0x20f7d5af11be05ef; 0x41962b179fc23898; 0x4fdfe44bced2796b; 0x4fc1774c9b2db6e6; 0x29ba3f84a441269; 0x6dbe051c5020a3f1; 0x29c6b0d9c2546d61; 0x11d63d67c04ad2cc; 0x9e871da64cb1c57; 0x38a5d3073e45fa44; 0x4a2fcb608d1a8657; 0x5135c594f2be7d76; 0x92df7a20cf97fd5; 0x58c564a874bf8053; 0x53d67d05a59eca48; 0xec022b69faf917a; 0x75096d8ca4db9853; 0x132e5d206e94694a; 0x2df7c8a329c36eea; 0x3f333dd76daaf19a; 0x2661c695d00545aa; 0x210fa1b06467d92; 0x366a88abfa871e63; 0x51f88eadc38d40b8; 0x177fd3a1c372a836; 0x1501ff750d6ae9dd; 0x3286b7bf130ef6ee; 0x49b53451c8b3dd1c; 0x5d363a5b05d7eb66; 0x29adfc69f549ddb8; 0x56f388499379d3ca; 0x3ae63d9746b1eed3; 0x43fc2547f5728bfa; 0xe2c7950c0531ae6; 0x469faee7ad10d5bf; 0x6ddd06c880972d3d; 0x65e31eb993c9257c; 0x63c08df76b00990a; 0xf33cee2b7b9c69e; 0x2493c13033a62b65; 0x33f761a07323911d; 0x31c82becff2c89c7; 0x7a34b43cba102078; 0x66675437145b5cf8; 0x3a607b3a6171f99a; 0x308bc3e6c146845; 0x6b63380f0cded54b; 0x9177deab1f4ab6; 0x18c55f32d18b7588; 0x61dd7d338532e6e5; 0x21cce466851a7d97; 0xa9b7242feeddb16; 0x2c739e50d3c3ed93; 0x70c57e5078fdca16; 0x7fa75cb6405c6282; 0x77486a28c2961cc; 0x2c2ee6190eff9cf4; 0x5acc63a6c3f4a822; 0x3d23c59edf3cc870; 0x4451d1e5e7c1ed9; 0x1347deef1f4e85; 0x4519bb4f3990481a; 0x1999ac5bc1e2b9dd; 0x6e9ae10ca8c787de; 0x330c35d6c2b57756; 0x45851b6f4d8dd5b8; 0x49e091d9da51b194; 0x10a2f757f259a6fd; 0x7f217262bd8e92cb; 0x196370ff452e4875; 0x2c4845f1c7117d3; 0x637c49305c6af4dd; 0x21c0be44b29c1580; 0x6c283cbb293a77d2; 0x22ef8d5220c9a74d; 0x7830e04c4820eb7d; 0x5b499bcf16437b0d; 0x6269ca3ef3057eed; 0x3c27c776a071cb73; 0x61dd593ccfc76001; 0x3eb5595cdc2a06f5; 0x200e13175492304a; 0x1be903430f15190b; 0x1c007891b165010; 0x61fc0f0bdebeebee; 0xe876cfbbc858bd9; 0x156795628ace6d9e; 0x2df3ca9d62ac55d3; 0x3ca9973fef1bc130; 0x722cb4cdfd19df00; 0x5f0f061f3e87c2af; 0x753d652d6156048c; 0x7996c443e5cc4f54; 0xa491dd91f54b467; 0x5569fbf1a3ff4509; 0x4a0476965f78101d; 0x6292cc060b93d613; 0x672854aa1b44ab3f; 0x64dfe9ef481b7bdb; 0x46302932e13b2b01; 0x15166941bd8ee3a3; 0x2e1ff607e4a66cc2; 0x5bc412f1f6e29e75; 0x5f3a4411987e68ab; 0x53090c9a72037196; 0x11a84808079eaf81; 0x34ce32185ef32461; 0x6985b3e524c3c852; 0x64097c1c1ebb58bc; 0x2c1ce74b861dc2c0; 0x67c17066710c1b01; 0x3c2fc5c6b7691fd1; 0x3f6261788a01db3a; 0x4517b808e0f103da; 0x63026ea371eb02ea; 0x2a353839bec306b7; 0x27040bf4e57bd748; 0x33152e2a4df944f9; 0x364853a5e9dd0297; 0x7c0958f28b58aeec; 0xd7d278725c876d6; 0x66c2dd19729fad7b; 0x2c7bf95c4116b982; 0x10bb136af0e6d1a4; 0x3bca060c954d363; 0x54261fbfff83482c; 0x7679fe8c9612b5d4; 0x609d6c4cabdf9b3d; 0x68283e89116da405; 0x2e7c091e7be9388; 0x78d5be0a10f67fa4; 0x2896150dcf8f27c; 0x22164e873b727752; 0x5658616061695e60; 0x7be7f4224a2545f3; 0x77e887ea4a794053; 0x1e928318393c053d; 0xfdf51defc0ceb9c; 0x2643899d95848423; 0x17e46d0243a5ea99; 0x1e6867d9e2a365b9; 0x4ecade0db926f02e; 0x78f859b0db8eca83; 0x6e5126d5555a988b; 0x1c8aeb];
   [0x2c0ef62f01559989; 0x41e3ea0c3901f1ec; 0x2ae3ae617f9ce13c; 0x1baa8101ce22e7cd; 0x7c807bc262b75fa2; 0x689c45de59f52fd3; 0x53e75f8498531a13; 0x3b94d1ff1322e813; 0x7afe3bf424d88ce1; 0x12dab32118751daa; 0x50ba8a4c0746698e; 0x72470a1df183bf79; 0x40cdfe59fb0836ff; 0xe8bde24edbfafb7; 0x5454e29233420609; 0x551c841a14598077; 0x583e5f2ad4e0e9ea; 0x2589b4822b06774b; 0x239ae7ea9539e27b; 0x62aa35ba9205ea08; 0x7f4766fd91441c2e; 0x34b2ebf02a70cb54; 0x6cb76d2ece0bf6b6; 0x4abb05c9f0d231da; 0x4b37b4aa0f8fead2; 0x3b61ee9eaadf28d8; 0x31f3abecbf19af5d; 0xcafb2b48965ab97; 0x3d7c8bc37bc52be9; 0x223438ad8cba2919; 0x7813ce4ad7925246; 0x47b1937cd98518d5; 0xe507cccbcfdd8b5; 0x6dc6482bc5e8b4f4; 0x46e24bc74f0d5c33; 0x7707b59f13adc938; 0x1a958893376c47fa; 0x52e1253a96e11cb4; 0xe5bbee8500d8c78; 0x6155dba87cbfe73a; 0x33b1ba964093d895; 0x386bce30ead8b0fe; 0x4d5b35852d686814; 0x1246bf9f3f97ca8e; 0x64e63ed3b477c4c0; 0x3a7f08d16b757dc; 0x71e1af879fe60b97; 0x76c414403885fa04; 0x7154a90b245499ee; 0x1799f8951a97ac02; 0x76f5e7180ab42c1b; 0x2641bcb875e75077; 0x5b47fc0bf5d60a43; 0x6d9f171b2473b1dd; 0x7d2600997583ce6e; 0x712abfb541068bad; 0x6914317846b8783a; 0x1843a8994c4058ba; 0x535930dd5cef803c; 0x473edb00c42bd044; 0x6599141b995a7def; 0x233718e45dbcaf70; 0x5a0f9e8f62f5e532; 0x2258d3b98736da5a; 0x28917dd8e923542f; 0x17ed75ac21ef2113; 0x5cd928ab07a871ec; 0x235d798fa1857dfc; 0x570756428fd3cfbf; 0x76c04330f699f3ab; 0x1e15ed96e5de1850; 0x2968b22b8aeea376; 0x60572abe08bd010f; 0xe0f0553730958e7; 0x79d18023fd7311e8; 0x30c45fd85c88fc94; 0x790916be33322dc0; 0x2ddba857162192c7; 0x741017311a1067f7; 0x6dbe9a7c25ac6866; 0x39c2b3e007a1ef8d; 0x680c62f00f13bf51; 0x4e3c6440ded89420; 0x6799ef50c3a8854e; 0x2fb02b7ee3cee78e; 0x431ecdcd7b4229d7; 0x33665115e28459cb; 0x6941a1bf8a515565; 0x155ea3ffb06a9bd5; 0x441624751fc05864; 0x6ccb5f4ecd72e538; 0x35a4f9b700eda87e; 0x6dc97638dd67d460; 0x3474638fb3fd52fc; 0x74a7649be4a82caa; 0x31202f4241274a19; 0x20a903816a4a5bf4; 0x14140950235ce8a; 0x36dc003629ef48ae; 0x3c80177e0d6d5235; 0x16e95660eb3c3e72; 0xb2ef035f709c734; 0xf38297df2f9c2fc; 0x5c329a1224df73d3; 0x1a11995c5f51bfdf; 0x63630de1f3ffb060; 0x5972197c49d3496c; 0x80018eec0404167; 0x3d7dff333255d417; 0x2dc1d8940c3488f4; 0x33c76743be4e44a8; 0x353e12ea547b8900; 0xf288efbbf24b580; 0x2dea7e1fb89d5e8a; 0x3b3be13683b6e229; 0x20e08f9d5d3dbf15; 0x3f54a3cdbd813e55; 0x68c0b078f61ec576; 0x5023eb6ae722cef1; 0x6184fd8220c4e187; 0x1a9641f0c23b9f7b; 0xc394e196db74bfa; 0x318aa2f11146ba8; 0x6c8c17de9b654062; 0x2cc06a2ec4733f1e; 0x2a9ab90f0012c054; 0x6b1a3b90c8c7fc61; 0x6e1696ba5abaccc1; 0x40e2c2ebcb0c9ec9; 0x22ca8b3f81986418; 0x1d412ff1db6a5804; 0x2d84a3db773c8cd2; 0x76d7ea25559cfed4; 0x443bfafe94097c50; 0x6027988d1fd56b14; 0x5a1ae8c7aaabf794; 0x25de6303753fe15e; 0x47a30c63ade7ac0a; 0x38e7c4b72330d50d; 0x73a51588d0ab65f9; 0x1b9145359e26ed78; 0x47d92b6142de3810; 0x2c247214de7e7579; 0x455368930fbf7666; 0x3b3cf7c2a1bd50d5; 0x5025107160515c2d; 0x54c3519b0fe6dd84; 0x5f10acd10a08c65c; 0x53d1286c9b8d49a0; 0x1521246bbbc59e70; 0x5979c1a34d700fba; 0x723ab738f72f9d43; 0x137344aadd3e76a1; 0x241e1519a6cf53ab; 0x37870d9cf181e18; 0x563812c03f087c59; 0x2280922cbfcd0991; 0x208bb7dc6fbb0f9b; 0x2859f66d93fcf73; 0x244b65cc3064f1ac; 0x6ccd1166daf26235; 0x6c434bdbd7c12b32; 0x51560458dfcc0ba; 0x7b7e9ca72e1155a7; 0x36d6b2788de554a0; 0xe131ac20e16bbd2; 0x265efde546d68f5c; 0x6cc450bdd5c7a3f1; 0x6a69e91d5cca82e2; 0x549ce3a2e4d7e0ee; 0x6db82587eda29cc3; 0x1ba9b549f009f0a5; 0x3ba04b130c53f0dc; 0x19f7a3dd8f8b20b8; 0x348ef2430dcf6587; 0x69c35d9ddbca9bad; 0x59fc75e226b819f3; 0x5fdd46f26dc196bc; 0x5159171e97c59ae9; 0x331c3457efe801d8; 0x58c7363e5e362a43; 0x2398d12cbee6878a; 0x56a8b8e77aab173b; 0x3196d0f889f1f0f5; 0x6a30ae4cec459968; 0x442065ed96a53289; 0x3fe1d7c6001590c5; 0x167bedcb30f5364e; 0x36d045bc19c4ac9; 0x45f6ef7a05894151; 0x60566634e584305f; 0x15be4828cd3a5d4b; 0x72a95b841f77e991; 0x56c71bd30ce7e010; 0x2c81b1386515cef4; 0x37eb81efbcd439e; 0x20d8bbf9465e3937; 0x5f7fef6ffd155e18; 0x470ffb06b716c01b; 0x66c21dd68379569f; 0x671f9443400ffbdf; 0x3e67fda86b51c9e7; 0x5fe500bdb6a141b6; 0x4b87335810c031dc; 0x62c3abba51c0341a; 0x2c2a06843cfd77db; 0x2e985258444ff433; 0x73d19571006b3a67; 0x43772dbdabafdfc7; 0x7e0b6505c4e779fe; 0x7c77e33f2d38f4aa; 0x560e6f4cdccd95a; 0x1c5f6c4eece351c7; 0x1be2defbfbed8c06; 0x1b5c9465df1e723c; 0x71bfaf2098117d63; 0x51428b22b76b5996; 0x2dd4d14dd5dcff44; 0x2b2182ae0b7654a; 0x2f18e3b811649194; 0x59a85651bf5e0e89; 0x157e2cba9c5c3512; 0x70c7d905547a4285; 0x2fef209905bf096e; 0x1fe17d89ad6c9160; 0x2302f838b6d1d657; 0x3c2c20ddc2df4419; 0x4146bedb1619bb4f; 0x539e68275b32b428; 0x3ae8caf5094ea540; 0xe9a3e331ca6b93b; 0x2ff99079e31d7fb1; 0x127db21741032a5b; 0x2ecb67cf658e3cb1; 0x72112a9721072626; 0x3ba55cc51292d0ff; 0x78f695e0cb971919; 0x307e4dfb940fadf4; 0x3be05577f3dbd557; 0x25f9c427c8929492; 0x40ae74cf9803462e; 0x18812526b76f1710; 0x51ac2a30c745e050; 0x7449adf1c7ecb88b; 0x307bc1a6709529d8; 0x46ba6b0ce4a7672d; 0x46354c8675f42ad3; 0x482cabec54e865ab; 0x2363fd087582ae74; 0x57b39def7e9aeac9; 0x4caeb680559d1d9d; 0x3afd4b61be0fd391; 0x3a6a37bf98619810; 0x14fdacd488dcc5b7; 0xdaf754e5885d866; 0x60464cffc5c83c06; 0x4071c2885c5b1ec5; 0x73b656ae91b58885; 0x332afb22cddacb5d; 0x709f502780f5fb5f; 0x6fcd212af98d4ce8; 0x2add75550e7fb3fa; 0x2c925a52ef1bdbe4; 0x4a062f1d0934eef2; 0x21e5cc40c88ed948; 0x3225cd502316b254; 0x7e29a1d600bd8747; 0x7eeb76dbf3cf6618; 0x4916f71b3b772b0a; 0x9bb536dd138e409; 0x7a5610d288f8731; 0x1e2f1b46032341b3; 0x590d94e56d77faa8; 0x6ac852f998315150; 0x4c51c3fd20a745d8; 0x1a16a815114585d0; 0x223599c822e5a755; 0x2b41eaa998592e8e; 0x23a42cf4641578fc; 0x25acddc9f3813bf7; 0x6af1a8ae0111b4b4; 0x72e25a2d191917b1; 0x7c34d9d0f8ab55d9; 0x566a516ca5733870; 0x18fc9805ab02a5e1; 0x5cd0456700464069; 0x3345d2780a43b062; 0x18b97f20400f47bd; 0x55a9fd17f6086ed8; 0x18eaea0b191b762a; 0x687c92669ef8b2cc; 0x25019a6f9ee7f95e; 0x5807ae0d5817e9d5; 0x2ba3716663d364fb; 0x3c1ee4eef139ef17; 0x3c72244d2d693e50; 0xf54db6beb9f35e3; 0x71553fec34ba7ab2; 0x322200802c537f07; 0x1ce8c3c2fa44fc06; 0x43550cfea70eb009; 0x3b5cb1cc13271e6a; 0x7e063affe701e207; 0x3ef46d0a12d4112; 0x619139929d813689; 0x2da27b0275290e7e; 0x2a570b0d08ee07fe; 0x1fec4f32479b849f; 0x6e03b726b2cedeb8; 0x6b2e598d59d1688b; 0x733d322454fc4dcb; 0x2fedf6890baf432; 0x77a13e47125de2d3; 0x6aeafea3a04cc43d; 0x2e65df5aade3317c; 0x6aad12ef7a4e1199; 0x59ec100a452df02e; 0x160bd9];
   [0x56329e2509ae1df7; 0x6fdb275910c0104b; 0x383aa5401668fec1; 0x1d6591d0273f4547; 0x4d97fc6c715798fe; 0x6d9a3933647efe85; 0x757ddbe9cb36f602; 0x589c95b0d5664808; 0x2705fa851a74c460; 0x73e6e7b2eda22189; 0x14d55ee5b136765b; 0x4a5b0a628b1fec05; 0x6c125f226fdbb2ef; 0x3e311cba86121f4c; 0x12ce915788100ded; 0x660c28bbb4fc24a7; 0x6cf40b8a63b17205; 0x51aae09ae4d20b82; 0x7fd3445da5e1558e; 0x7a28ba5e095e5255; 0x2bf0d8b581f5a928; 0x4588bcb4de0e3311; 0x77cd30f23846458a; 0x49968d699978e03b; 0x3acb7e347cf3492c; 0x772e31427c05fff8; 0x24d37b2a20ad0898; 0x5dcddaa6232b7c48; 0x765bdbbd7d10b2b3; 0x1b6f74b899bd1473; 0x755a4bcc2e868c19; 0x7fecbcca75d4d9af; 0x14d73e4a18298fb1; 0x72b4151c9f5d0bc4; 0x20727650cb1afcb; 0x360f566b1dbf08a7; 0x7094f1138cc81ef7; 0x16875c84a18bb272; 0x193e2dbee938c216; 0x18243b300e67dff2; 0x17a410a998cfc588; 0x3638afa0cd6c2814; 0x1061cae58685bb90; 0x52fffb104a7fcb3; 0x14eb8844c198a32b; 0x65fb41445c7ea3df; 0x383b45e48457a8ee; 0x5b917ef4e7c6d31f; 0x11090d4606e3b500; 0x3c11d2b972125907; 0x52d69f2240833b0e; 0x2d95bdfbebe878c8; 0x322692fe6608fcfd; 0x2aaa55325b6ebdac; 0x40bac2c2fb0db5b7; 0x7ebddc235cb18d4d; 0x1a51995fcafc3a7e; 0x16a18a5b142b36fb; 0x2cf403c51ed1c38d; 0x3276e4a3d0c877de; 0x4594e3f93d010f68; 0x598fda24b4e7e015; 0x1a141fed942697dc; 0x4f575a696a0dbd38; 0x76e18416ed5af088; 0x296bd0f7f693f23c; 0x3e99b0a70695e820; 0x158347775dcc2346; 0x6ee59bce30926961; 0x242aad391ddfa9aa; 0x2032b2504da2c37c; 0x63cb1bc2f968dfd; 0x4d5cc0d15afcf7e0; 0x364eef3669bcf543; 0x67fa265aff93fff1; 0x5e5c7fbcf3391518; 0x65a25d82d6c5cea2; 0x1df4485daafaf97a; 0x62a779ae5b90c2fc; 0x71776a1812bc7bdf; 0x3f00241175ff42e9; 0x2efb6cf32c70a09; 0x7fb8dd0b6ffc18f5; 0x7f6a9b6992b09b51; 0x794d2e8a6b44c7b7; 0x2138281b3a58dc27; 0x3edc63794412b131; 0x393601db76dbfd1b; 0x50b7178b1589f12c; 0xd002aa392013365; 0x57fc39e135377d25; 0x77c5bf00daa93fc; 0x7381adb986a10e97; 0x6d2480a11aef9a1b; 0x71c5d79be7fe5f89; 0x3440a8550ad953a3; 0xd0fd1767ae608b4; 0x29243e451b845bf7; 0x576aa512299bb309; 0x106eb3a2a16035a; 0x624c6cade6df9ac; 0x10e7aee8ce86b7ed; 0x6ecb26ce5e02a7b9; 0x4ec1a4eedc34f366; 0x31e58f533d54e6a3; 0x1db951d7a002cd7e; 0x2c37b98dc7fad286; 0x1c526035f7b1fb4f; 0x85e9b72ce15430; 0x45d52ac08dd756eb; 0x5a641c5f5c034c61; 0x42b6deb45e70a333; 0x5506affdcede9879; 0x2911e309bbc535de; 0x356502d11042a125; 0x6fd5372c15ba0914; 0xa4c718250b49213; 0x1bd690f38bdbbfec; 0xf83d3c57a82983b; 0x7f1acc15e829a137; 0x5faef681ab61be0b; 0x597373f01048d7; 0x33490eebcdeb83a; 0x399f9346a3d6d56d; 0x6afef7115c80652a; 0x54deb89f868cbb42; 0x6cb4af76e96c19f2; 0x94cd958efe62d0f; 0x3d184a23d4fa00ee; 0x5ffd39301acc0804; 0x37d4c1ce4868b590; 0x65ae1305800aed3d; 0x5c1cc605d7f8feaa; 0x68f5c4a2fd1340b6; 0x2622d176c93a0975; 0x631a56e630bb0a34; 0x7344bdb1f1dd6e9e; 0x61104d7ab5867005; 0x143544a1d03e2d4e; 0x7765fb5cd4fd4437; 0x4ae9122b873a850e; 0x545cdeb58f83bfca; 0x4007b0b1162670a6; 0x7664748d72f19463; 0x30cb3e239f1ed809; 0x5e4fa104c2a77c8f; 0x6b2cd00ca64deb64; 0x973178b0e52db39; 0x740926255c12938; 0x1c0c365db1a2d2d3; 0x4d083ab03574fc85; 0x3f7c62f4a5ce8642; 0x11f656d0629945c8; 0x501cebfa807ee5d7; 0x261cc3ff8b201f66; 0x53320825b026390a; 0x4f6cb4f82ec72c68; 0x2899d051b136ecc0; 0x4eb62f93fe453b5f; 0x2313cc6dfd8a6e8b; 0x604affa05c1f1a25; 0x3ab11364460f49fd; 0x6953b5b708e0bc07; 0x41ea517f7b206e98; 0x63b9193075d59624; 0x7056316092256e36; 0x18e6dd26950e6847; 0x7ea5d70058c35181; 0x483eaec3e55ad889; 0x4aa578a69dc7a2e3; 0x468a5f95b3e49174; 0x65cee78b8b6b4ea5; 0x3d3ea568582a69dd; 0x4f29c2721441dfda; 0xab335208b86c51a; 0x770d228f6737a2bd; 0x1c4f7b311677662e; 0x296fda9ec70f387a; 0x6e9b3aaaf9b2470a; 0x3388428bc5b7205a; 0x6bd865f0238cc3f4; 0x15d888c42665820b; 0x49d357f488c37698; 0x71882e613a3c2a94; 0x17bc84a40355a2cb; 0xb1019af13bb97c4; 0x47e61dee289d6fe7; 0x105f987319401c5f; 0x487a8ab3cbc7bec8; 0x20f8a519c592bd84; 0x63001e66e2ebeeaa; 0x79e2de3c18406e23; 0x3e785b5ac22f2688; 0x67ae8c821b9bb0ef; 0x7970319d33dc04c2; 0x2efba39c2c1117dd; 0x281ebc74205cf5a0; 0x23406b9f210263c0; 0x3f96747b47b50408; 0x105aae486eb3ca54; 0x1ff91657a3ed21d4; 0x7a7f8d882ca6dc3c; 0x5b7c00e7c9b31fc2; 0x76b61736bcb84033; 0x88fc75db51c17c4; 0x20fd08c95f6c7d37; 0x2a8a86b930552065; 0x205ca2e4ca814669; 0x4e75b64abfe4fd85; 0x26ff88fc898416df; 0x20a951f9282d88f2; 0x6c4d2a948ff81ca0; 0x6274b6e2b9a8d719; 0xd9a7431e749425c; 0x1243477e5b013478; 0x3b390627bef5a41d; 0x4f9500fa1972f4ce; 0x254e264cc28538df; 0x902b40a04f9336; 0x4be32e8a436164c2; 0x6a457a2b2ac35e16; 0x398c6c5eb0c861b1; 0x5944a9bdbb0ef339; 0x7d4ad88eba9d8724; 0x6429b4ffa6c6c71f; 0x6358d6a425c60285; 0x60f48a84b3f5731d; 0x5528fab9f35572dc; 0x1a07de2866384a93; 0x35021b17c37860ad; 0x1aedf2baaf1cd516; 0x772968d55c36d147; 0x15e159fc95ba2db9; 0x18804c63f053c948; 0x140cd286acea9f5e; 0x320569c4075119b3; 0x2e51c26c811aa7c; 0x468b90f33468eca6; 0x37f8d7bbe9bdfc8a; 0x6fffab024c39c115; 0x51e8c10e4b4988d4; 0x7f42270967628108; 0x462af0a53476bfca; 0x20bc80bf6da19fa4; 0x53d98f7613f51066; 0x1359d51cc3189883; 0x1e5e567e26fa216b; 0x2294b98f26ca3da; 0x55a1e17f1804fc79; 0x2574658c345a11f5; 0x2d454e5d15bdfe21; 0x6a1e7afb231c199a; 0x1af85cab809e9ee4; 0x1867a65bf942b6f0; 0x6e4ec0355429d5c4; 0xff2744be7a5a688; 0x67410e1b375a4842; 0x343508f0d624d29; 0x7d051e158e77673; 0x66ec7809d81cdee; 0x73c20dfd265763ca; 0x2f50994b76d67c68; 0x57de28202dc12351; 0x142cdca46fb495e2; 0x51bbc32d842407b2; 0x378cd829baaeeae5; 0x6c233931e68e4488; 0x26d6fdcfd72a1ea8; 0x342805a27b86825; 0x238c72c83dc60eb8; 0x2af4f0e790f963c9; 0x141208f9e0e67515; 0x12cda708f5added0; 0x2f62f57f223a247d; 0x2a8088710564174e; 0x437f6b5f3419522d; 0x5b19755e24e9e3b9; 0x6c20576502ea488e; 0x4a468c35085b82bd; 0x795ca737d295f164; 0x1717c1f74a0ffef5; 0x699fd5c7cab521f1; 0x2c8b5439be60b889; 0x3fb40c8edf6a1853; 0x3fb057459abe5f23; 0x1f56a3fde3560ddf; 0x444013d75cff240b; 0x682b662751844b00; 0x2154c8bebd783e7f; 0x28587bb7ba870d07; 0x6c28ff9c1b6b1908; 0x557f6c71cc85a62b; 0x4d9bc30a5e54b5e1; 0x5d9f42c1307f9750; 0x3458306869e8ead9; 0x7e6d40b02064e8c3; 0x1ff5a49f6cd794d7; 0x46339d6934f25e2d; 0x2d1850fde953e556; 0x558e5a514fa499ca; 0x7a2edb28d3f4d8e8; 0x23badd6996663e73; 0x32a4c9bc716c690e; 0x4a81f79c357903d1; 0x46154744c32837e7; 0x1ae0c2aa97290179; 0x7f49624987732a41; 0x5b48da7c6bae307c; 0x1f2ec06938588af6; 0x656a9100ac4caf66; 0x58086d79ed5fb8ca; 0x6dd5de7c5323cc06; 0x12dc38d5e1a2cb89; 0x7f265ab3619086d3; 0x1826321f2da5c63d; 0x3232dbf9c40e9bd5; 0x73440d080e4d9bfa; 0x14f936];
   [0x5a860e1f741dd35f; 0x71dbfc0b85b46d52; 0x3baab2e00eee64e1; 0x42f5fa636c42574a; 0x236a2c047b78482; 0x59088f6f66231ea0; 0x3e997355c2a32632; 0x1f941a7e5e5fb15e; 0x32a9f22546c4c2a1; 0x3b74872723103f6b; 0x6acf91c242ce0c82; 0x10da31a728f4b7ea; 0x73ca1e842554240f; 0x236fd0a496dc7ead; 0x36f320b112110263; 0x14f22cda5e2a2759; 0x3c34995e9f9a5a4f; 0x751fa4cb621ea7cd; 0x156da5969d5c3c11; 0x5fc40c4ceceeef58; 0x44e59e08554db978; 0x789ec95d19b2e023; 0x51612e033701f9c1; 0x29f2cc5600e919ce; 0x54718d19f1d6bf64; 0x5ae0cfbe4d853af9; 0x312ed35c6cf95363; 0x219abbdee4a82b44; 0x2c667fababdea72a; 0x2b29646e54a27ee2; 0x5d40f97164e793b4; 0x71cb445397ee0631; 0x46a7ce614881535c; 0x44999fb3678a0ece; 0x4d7d167f89090416; 0x9bf01f07cacdab7; 0x7c9a42c180b5ada9; 0x653221a3b28a123d; 0x1e38d79b5193803d; 0x4132d62bb5f04fe0; 0x6c9cc49b82d3c691; 0x3debdcceedad8f2a; 0x5d6d1c770ae5848e; 0xa5a4bf35b18f22a; 0x679fa7de73a6fff0; 0x7da1f435fe705be3; 0x378dffe6c99077b0; 0x49b7e46d54fd821b; 0x5fbfa60987eeffdb; 0x790132a832b682a0; 0x4f6e8c36ad641b66; 0x23f8237df0f0f712; 0x5368bb4f543b41d8; 0x4e9aaae63644e1d1; 0x239c92946d0073d7; 0x3f1acc2ed626e196; 0x539c54731cd7c92a; 0x7f71211c5832fa8a; 0x68c63ac2c4fd523a; 0x3495f3e7125e339d; 0x5a861b414d56e44a; 0x3aa03280e19dbe7f; 0x153f7c7bfe621353; 0x173c703cb8560d50; 0x61ed2ff16edd25b2; 0x5701b6959f958d08; 0x3802c5da3d6c9ad6; 0x61fa34d88771d5e3; 0x7ead0810e2f121f9; 0x269cdd6fc71cc1f4; 0x3d42a81d523febc4; 0x16196c96021da859; 0x443b129661792aad; 0x4a708be77c505702; 0x295dd67538b4faf4; 0x60c034314e3b0b45; 0x27bad6ba75f1a295; 0x459761f7f7175a2f; 0x693e5f9e980a5fe0; 0x78df1907527a7abf; 0xe127e19136069c9; 0x4989441292b0e4a0; 0x77e033822297c25b; 0x9b07eda901c8016; 0xa43a67b3c6968d6; 0x68a43085febcf290; 0x742b3ea34bd13af3; 0x5d5fdcab1fceae6a; 0x21ad4df4e257f611; 0x2253f5e009c80c49; 0x4bbeb3a6ce6644d2; 0x2acc72a1324b18bf; 0x4fc5409759304f7a; 0x557ad736e308c7f0; 0x290dbc88a079cfef; 0x41be485c9f866d0b; 0x7bc46b228dfc16e8; 0x54e6fa1c197c54be; 0x3bb09e9f61f613c9; 0x673f6631f68feda5; 0x7643eba6fe7c9993; 0x6acc7553e96ada0c; 0x7bcda75094f6cd89; 0x53e9ed9c63c4b67c; 0x252dc1414466f929; 0x133f17e50e8d5a11; 0x1cf65b0595952ae0; 0x331ac01849937b48; 0x79c6b180135c6c23; 0x369062e40798e8b0; 0x462b98bdcbed6a8d; 0x6fbf5909ffb4ecae; 0x4bc8d88da5922e6a; 0x29402163c3a0e519; 0x100153ae2c502ed3; 0x62e4675c17f927bb; 0x3039af37251749ff; 0x51a98dfe1107cb57; 0x545ffdd921f024e5; 0x22738e4820f00104; 0xf4b93e32884c3c0; 0x3c5b5ac103e66c37; 0x6869471d4b995fb8; 0x7f3818cbe029de6; 0x335eeb2109803f51; 0x10cad15268f82a61; 0x7719c821da698ac; 0x4de2871421446f7f; 0x5d3801d3763c3ef; 0x6364f625a335fb8a; 0x4d5de4b3c35bf157; 0x1739c09a394d39c6; 0x707ed8980921bf42; 0x699cac34f393a2af; 0x3fbb1d9d11e396c7; 0x21ce5aafaf150237; 0x4d9b4fa0df6b23a9; 0x3ab8a50e9ce72e1e; 0x33adec0ccad16404; 0x7272e4c65183e116; 0x1fc7ea6b8b342173; 0x70c785697d2718e0; 0x6e113de6c17dfdd0; 0x5c74291eef1eb426; 0x6eabe4aa11964765; 0x411adee7ab84ab0f; 0x5d900629048093e6; 0x5b3d8d3fd80199bc; 0x11b2581f4f856745; 0x35ed3dbcf2017a7f; 0xddf1310593f7109; 0x40059f10f968833a; 0x1275cf2002099445; 0x53f0d8591af715fa; 0x22a4a1d3d59327fc; 0x6f971ccf09f9cff0; 0x79b8dda0cef71372; 0x5a08162f09169ae6; 0x7cef4d20fca3882b; 0x32e0d602847b188d; 0x6ac86be654f237a; 0x768ab895b3a9d48c; 0x7b2992adf111b23e; 0x4e6501cc4b427e77; 0x1024d836992123f5; 0x467e91be476c9627; 0x4104370123534614; 0x2b1aa37733324aa; 0x64b91447580d10fc; 0x3f7a86a2d14ba5a; 0x1ffae13097c47b56; 0x60e7d35f8b0c73a7; 0x50af8922cee0f1bb; 0x68f459aeae8cb260; 0x6213fa0224aa0c13; 0x1d2b9506aa20cde5; 0x4b0c6d0a29505ce4; 0x5c28b8a58f66fea1; 0x69c048db3b687804; 0x3226904bd3d5a706; 0x2d16aeb03e958637; 0x74656d49583fb330; 0x43a6df824fdb88a6; 0x16375133d88386c; 0x6b1c56410d150abb; 0x6df251d09ea18644; 0x798fe9dbcb4c2b91; 0x1ba8b8468bd3347e; 0x3d86aa12922f0d37; 0x794f917088c08e32; 0x7168e615c67a5098; 0x78a7d8b23feb9220; 0x5537b7ac79e8ba71; 0x3b10c6779fafcd24; 0x7e749152250b2506; 0x4be27d07775a95b7; 0x1bd656581aa8ea9a; 0x195a18e942f395a4; 0x12ab555ee7abf412; 0x3d257d130d99fd32; 0x2d0f1a02dc38d07f; 0x7dce49872b216ca9; 0x3affe3a1e72342b3; 0x70921c9733a97cfe; 0x1a0d6de5f5c525e3; 0x69faa4dd10ce10ea; 0x7c220394399a2729; 0x21134681d6b2a1a6; 0x7a168ca5a6893cc8; 0x12e64d17a2a905f9; 0x31d4b6cd4ce1a789; 0x79925e2618f04b39; 0x6546e58488f612f3; 0x559ca268fc5ce1f7; 0x62c8c887a0fdde2e; 0x1baea055a2c176e6; 0x7755336063fa8eec; 0x7dc824d865bd470c; 0x6a6ea302e39ae1b1; 0x467a0f61cf407194; 0x1e22c69425cee23; 0x1d2f9d99c2e269f8; 0x43598b0f0aaa56dd; 0x198113c9d64673e3; 0x741429fa580f691c; 0x41dcd9dd266dcafe; 0xa36ab0d6e758b26; 0x423ba202f90074a8; 0x6a454d648cd8fa75; 0x1a67567bae93f654; 0xc27bc3b2809b168; 0x37eb7924cf1cf035; 0x277c3c07a322801e; 0x82ace97f0743c8a; 0x76b23ec6fe5c2724; 0x523644d21d7cec2c; 0x72836e75c8b7622f; 0x14dad3e366394595; 0xcf59551d1575e9; 0x5c83e1c3ea9e4734; 0x640b9baf309a5e6e; 0x4962058eea7f3160; 0x4092503842d0c9cb; 0x5129a7db2b3716d7; 0x4ff5453415778959; 0x2c77f8e4cc6f5584; 0x3cae96c93637403b; 0x1b54598d0d77cc5e; 0x63cc3b4d1501f6a7; 0x220f0a91c775b9a1; 0x31cfc38b4f670512; 0x45a219fae4441cfb; 0x5a9de8c39ad2059b; 0x5f3616fa8f4c994f; 0x53c0e90f4ff32915; 0x6a18627addb3a773; 0x4c0816ea6ff547fc; 0x717d03b82f160ddd; 0x28453cc6562ac69f; 0x66fc7c374a62ccc; 0x7a2e7d076152738b; 0x1cbfa673aa2bc5c8; 0x276384994f07782; 0x44a681bd66aa8aba; 0x12ac116752f67bef; 0x33daf7edee117d3d; 0x59cf297834d820e5; 0x5402b9c7b4d89b13; 0x511079a479c83b1d; 0x7e3d85983f40051a; 0x259706403a2fb4bd; 0x636644c9a90ad569; 0x4bc05b31f27a0cc2; 0x23f8989b5bc3465; 0x707dc3e9fb2a0c1; 0x614493175c9122aa; 0x59f73aae3f7243dd; 0x2cdd49d0d09aa385; 0x3c293a56f9f26d2b; 0x3a1007f1fa2b9007; 0x11644dc5e20a5315; 0x31b49f8f31280ef7; 0x476fff72682b1ea6; 0x5e33ee9213ca4dde; 0x4d1bc4d3aeac686d; 0x51bd495f03646f3d; 0xabbee4dd0d550e6; 0x4dfc0835c51670f0; 0x5b51d03747586184; 0x79f9ee751e82c88c; 0x3cf0302252baee1; 0xe49252defc63489; 0x42d284e377dd2a21; 0x57391e84026f6619; 0x2502e2aaa604b12d; 0x9e45697b32a8278; 0x70f313a606e3acd0; 0x49ecbf54aa3aad16; 0x316d9872ce91d77c; 0x1c0abfecc914d178; 0x62700bc2f6da1355; 0x36d460bb61b0f4c6; 0x4e5546be0f689fb1; 0xfab03fd4290c88f; 0x38a71e48dda00ef; 0x6dd766af2afd3e6e; 0x7b09e84719cf4620; 0x473b7d9bcb6e3b32; 0x922030b4afcc1e6; 0x2e505257c3bbaf89; 0x2db5660d7a78216e; 0xf1ceaf223d44951; 0x4e0c00cd3c95fb01; 0x1c3b1bf56549e171; 0x342e064fe0b2b863; 0x755bb5c105d581c; 0x3c70a2315715c94a; 0x1c7acd];
   [0x1353960b8623b0bd; 0xeb04c6efca6e5b8; 0x6bf1a14cb0b491b8; 0xd95cf3895025ca3; 0x59b0aa1e885e302e; 0x25f08ecdbc31fd04; 0x19e83982438b1351; 0x246c24f5cc201187; 0x731e91489c0a4c99; 0x6a27b1f31b4bcb0c; 0x45de92bc8d92c6a8; 0x48dad7493096cce6; 0x2fdee8f064862779; 0x5207c9bc342090f9; 0x24619588b6da83eb; 0x6e00acc63fcc44d8; 0x688b436d887c305c; 0x23beeef520c5da93; 0x8bb485992b32489; 0x1792996292f44c00; 0x54f270a5a0a5690a; 0x23a288951492f9ce; 0x3d8e0c9cdbb0758f; 0x170de291984b78e3; 0x2303f723bbf896eb; 0x301516c95fd82c85; 0x233a3dfae9017249; 0xe345abeca272086; 0x35481785cae90efb; 0x776d9d841d41d787; 0x545caae840217bd2; 0x2162a9f375c19232; 0xedf7579b2e1282a; 0x139ee1ddd41ccd0a; 0x7fe59cd55997171b; 0x2a4cd93d98e0da13; 0x430e9c7706863206; 0x3a8544c6d8b79d2; 0x1f4c25fc577d2f8d; 0x566b9cc1874601bd; 0x12176a7e9be9cf69; 0x1023eec77367ec61; 0x271cd9c545e99338; 0x5b4f30c3281c6c5b; 0x63ad3cbbc2f2603b; 0x6fd1cdfaac5d50dd; 0xe09ee0300789508; 0x26282a8235cc489; 0x6a89b101b35e3021; 0x514d624ca7bfdeba; 0x3a535a0b183be41c; 0x2641206878032488; 0xfdcb5dc9a0b01be; 0x3ca9ddf16868f11a; 0x7b8204870d59db63; 0x1088b0b9343acaf8; 0x72e6e3e47e5e1fc4; 0x66a8137eb510e1cd; 0x5703776bdeac4912; 0x6f29368d65a459e7; 0x530e9a0351f6076a; 0x3445ec3812d50179; 0x6a53fd0de2d3b032; 0x4188774a2c49f11a; 0x50c348c8d221bf5b; 0x73db651700408f0a; 0x5dc24d5a5f266afe; 0x4756ff3dc1fe8d37; 0x41a9ded630804ff0; 0x19dc1891464c46b4; 0x162252ddbb506bf4; 0x6f3a71f28e2ee978; 0x2cce81a41c35fc02; 0x62f4a44d3a08e7c0; 0xc596e3f0425db97; 0x79843ffd75e14584; 0x532d9584fe3b61b6; 0x3ba7caf7b0ec7e22; 0x466bd9c62edaca9d; 0x5f2a1ec7dd3fb6f2; 0x2fecb725e16fdfae; 0x103ed1e4f55e7ef4; 0x1ffb019ca33b6ce; 0x48984f14937f69ea; 0x83b04138a5bca57; 0x76468db45eff35a5; 0x2aa2c912abae05a3; 0x40879798635e7db2; 0x22fac7e7ceaaba43; 0x7e7dd5e7cf7e8347; 0x8ad0452521aa5a2; 0x6a374b725c6247bb; 0x3051cbacae3b3c65; 0x74c9621ef5d2498a; 0x5098c8925381ff80; 0x73fb9a4ab6ad18f; 0x48a59fc9b7a3ced7; 0x16092447ffe0f27b; 0x605e16df66196125; 0x2beb4672db372bf9; 0x51f45616e20ecd47; 0x1e9c04277e38be0b; 0x2079912916511f4d; 0x43172c8029056b50; 0x644c6c260f4f024d; 0x30dabfbb8edf3d9e; 0x54c043d9f0a5a01d; 0x7a321d94a7d27711; 0x274f1272e992eeb1; 0x3e26746c9e24ea97; 0x49e5cae47f3952bd; 0x1056fd336d065be0; 0x1011c6c887d1d8d7; 0x3c0023efa757515a; 0x2436e83b332013c9; 0x28e15ca2ca9be079; 0x55622eaf04dadbf; 0x1b6b94f077f550ca; 0x54c3cac5b65644be; 0x104d8dc727934b8a; 0x1268ece9fe4a2d30; 0x30caafdc2c9458e1; 0x2190873b34310160; 0x1818103d8667ce82; 0x1632f5590eb21c3e; 0x5f39cac1c4a36571; 0x20d1b6f11e9e3f2f; 0x131f0292e274fb05; 0x23b56bf0182ce901; 0xe9e26254c046805; 0x7e896610425e044d; 0x4726bd5995f7df88; 0x134d3d1a8364bb4; 0xc1966e65a4647a8; 0x76c48b07602035d8; 0x4a9584731a96c3f2; 0xa4f85d5c0177057; 0x6c21847de45c4394; 0x4402cea9407457e1; 0x38fec61d4f05cc6a; 0x6ca3137ad6236fb2; 0x51a50fc123a27564; 0x1ce4ccc48e77f9a8; 0x620983945541a4cc; 0x46d3634f656b5bb7; 0x70177d96cccdfac3; 0x4f4c3e19713aa91d; 0x6996348868795db6; 0x10351a7a3f54f38f; 0x89dd78f6127e5d8; 0x76a1f9055c48eccc; 0x58388f7eeb08a64c; 0x5312cae43e9fa424; 0x485c24bef29658ed; 0x911930f4bc4c9f9; 0x6f73277ed2895c54; 0x3d8099d3852ba363; 0x7cebcf0482dbd56c; 0x408b12ac940a3369; 0x7cad2da408bd95fa; 0x7be60f7b83618d6d; 0x2639f14a9e1ec05a; 0x2d04103fbe692110; 0x5ea7910336458786; 0x75db2a4a36dc7d4b; 0x79e31c7c0f988032; 0x23a72aa95d9bbf0c; 0x23def702c4e73ba4; 0x1398e947d51e5dd6; 0x7ad6bad1629c7669; 0x57a73ab81780ed34; 0x4da6774a13c4e72e; 0x7a2f18a70bb8a22c; 0x7ec73f5c268d1523; 0x373ca7d3b056fe1e; 0x549ccba44d86bc1d; 0xdd453eb143ba96d; 0x5291ec7400f15d6f; 0x76ebc61a05b301eb; 0x6eac9648bed42e04; 0x7a2369ec35ca339a; 0x737fd74fa8e1b889; 0x2eb53b13d94eacec; 0x1ffa5900987244de; 0x54f3e3b1db0f1684; 0x363d0631ee7ed768; 0x507c5e31f7983764; 0x3ca73dcc24c75b84; 0x133dc3de2f1a2988; 0x6c976c575993ef6f; 0x4b2703b859271164; 0x531224d229b1cdf5; 0x19d371ddfbec70ca; 0x6c546c9c2b905f12; 0x480ae302dc64ab47; 0x399c7a3329c6d6a5; 0x1dcfafeeaaa58f82; 0x677b9921ed18747e; 0x5b7626a600ac8d16; 0x67dcce65399278a6; 0x3807e57bf9e5aa69; 0x446594b80f567a98; 0x3fb548551241f254; 0x5c1583789905133d; 0x4c87707919a5168c; 0x43c073b0c9e80548; 0x5cd6046ea7b8fc6; 0x4098b3974a40ddfa; 0x60e948e6f026066c; 0x47e23b690573c079; 0x33185f5c2dd78438; 0x8531ab6b27f0573; 0x6124bc277959cd22; 0x19b80703e52de96e; 0x3dbecd58c5850d1c; 0x5b54e2df7095e5dd; 0x2bcb7ab2837c8dd4; 0x773bccad313e965c; 0xc195d8c72baa063; 0x3b956986c333850d; 0x6774d42dcad9afe6; 0x2f60f9de00bcfe85; 0x7ce5e4e9fbd28342; 0x774f05a22e2f3631; 0x71523cb75849dbe3; 0x37b002497128d584; 0x47e35d6300101c37; 0x52340d54c890527e; 0x38ca1710bd299579; 0x249d488074a9ddd5; 0x4894d3d4147e683b; 0x5c50281a27a3c6b6; 0x2206ca8e7b746247; 0x5e8323dfc07dc9b2; 0x159fc86f8b6cef56; 0x7030320be3526d2a; 0x72f0ba0131798315; 0x409a41e2c4c0909c; 0x3d53082fff6dd08; 0x75e0e8d27a20c050; 0x11903b4147e33d9d; 0x513d6d35e2418fe1; 0x3965956663ce02b6; 0x59606e535eb527ab; 0x22b6a6df9ba87aa2; 0x1dbbe6689d1e2758; 0x375e07afd7afd4fc; 0x7c8a8297ee9438c9; 0x62fd0fca2df722df; 0x36bfd055a13d3d47; 0x4baa8ceca5b592a5; 0x4c98d9081f40d3d0; 0x760b297625f64682; 0x23e7081418dc2ae8; 0x46da7118b5ff9a9d; 0x4f39b1ed82e23e75; 0x7729a65eadf95c51; 0x3be042193fb921c1; 0x406ded02f7a13f1c; 0x697674fd2a5575a2; 0x3a7288735843902e; 0x6fa5863168598960; 0x4fc853ccaf13b7bf; 0x5c3d621415a7ab26; 0x39c6f592c9f41bb3; 0x4c6996283b1ecf99; 0x2f16a48040313f8e; 0x4a9a45f234d85cc7; 0x6039d9ce0ef24fa4; 0x6ff4c1c22f4a9eb5; 0x7c9eacbce3e64c8a; 0x32f1e284ce2278f5; 0x3a7385292d9b43c6; 0x5efa13d60347fee6; 0x593b70666569131d; 0x6e65cbffc3accc07; 0x5f7394cef9de1d8f; 0xe723e0970b52ed; 0x35d50bef2b5ff871; 0xce3427ace9e8770; 0x50cd9a58d87c4f1f; 0x3dcf1697ad2f05e2; 0xc5980397224456f; 0x2ca6948669cc9485; 0x6c352a12e4328a9b; 0x4f777577a51b2c07; 0x76f15ae6b4713919; 0x452278866c42d4ac; 0x1cbfdee5800df5c7; 0x18143175b5c7952c; 0x99d98d3bfc7f5b3; 0x6127ace849948852; 0x28c52357b7e07cef; 0x76bab326366a14db; 0x220561217c246dad; 0x4dcc323a6fa44ea4; 0x7d3eda1712bee965; 0x7b8b20a7b2267026; 0x2d7737143a02a1d8; 0x4978fb9b158ddc0d; 0x3a03c233de04e6a5; 0x59de07aa7bace970; 0x70b058efc6eed183; 0x39e971fa89befa50; 0x4125bc4bcadaab02; 0x50b0fb40b6accffe; 0x4f10e93003326dd2; 0x618da4d56ef7245c; 0x3ba37c301695d743; 0x8e84bd18111f127; 0x75c6f5aff699c818; 0x73bd43011395029; 0x2551fe189d665564; 0x5c18125519a58590; 0x1c190ae39e34d522; 0x529b30b236529298; 0xaf5d83b8024f417; 0x856d3];
   [0x3941cdbf4434c960; 0xc382af456ecece2; 0x4458df0898b02d70; 0x5290795bc80915e8; 0x477796cf1957d329; 0x48f749740c363975; 0x28f4296bbe2c0296; 0x5a07b6ae4e6d4575; 0xe8bd81b935b8b21; 0x467b364c15793e9c; 0x5d0cb9668720f29f; 0x6729efdf6fdb53ef; 0x8d4850760c671c0; 0x996f7d5ceb03b59; 0x684b9cfd7f7a8568; 0x61b90c831c9771e6; 0x6a9c01ae68f07773; 0x3cf2b7bc4aa3f490; 0x23a0a4acadda5aed; 0x6cd18992cfeee8da; 0x5672ebdbb0f020f3; 0x434048de170f87ee; 0x77c75757ba00548f; 0x2a347f68c70f77ff; 0x126ead9cf7c3a88e; 0x4648aee36f34866f; 0x4a52a481e564ea12; 0x263867b188bf2730; 0x8e32155bd829962; 0x51a129e962954cf; 0x77e636db84585437; 0x529df750e6d296f5; 0x4120e4fc4a27db8; 0x419852def8d68e94; 0x242e95b8546c4020; 0x5e6c969e347dfb09; 0x57eeb1643b748125; 0x3599647ba715c338; 0x4106b3f7254e4d3; 0x726291a4cec6d255; 0xa5b444de873e3ee; 0x4c5fea360bf0ac21; 0x6bfc3d4a1979dba4; 0x4e249f171ac833ae; 0x5fc2077c13c9d3e1; 0x12af2ae6863aaf4; 0x62bbc35d800121ca; 0x32255747877a9209; 0x5f6b61eb102de2dd; 0xaf887e1baf08788; 0x4fd66faf79394e63; 0x21753ec6d92c0491; 0x2a34a5402712e198; 0x73b26c26e93555c7; 0x72369c2b6fb7d312; 0x2724ee5c950ae01d; 0x27bb828124fa2b3; 0x1c997b1a89abf24c; 0x363d0c7c2a66a1ed; 0x676912996f4605b2; 0x681dcb886bd44ca4; 0x1ed75666ef726fe6; 0x192757c742ee34; 0x296ae8b0dcc5e858; 0x11979163d7b6ddec; 0x24c68f6c4b3d3bf3; 0x378a96185b2f1e1c; 0x5cd6183c7ec9ce74; 0xc0e8fbb953c520a; 0x9ee2f3240ebca67; 0x1525f47fec85edfb; 0x90e5783e8f31a67; 0x75df9c6965ddf276; 0x305c6a304910ce58; 0x15c3ca156ec1e312; 0xf354806d8359230; 0x31d2819d66367238; 0x5a7ee0adee575e5b; 0x7f82967b41becd16; 0x481d5442d3810f38; 0x24d22b7aef7f5cca; 0x823fadbe4117591; 0xb265267bbb75ea6; 0x474faec4d338a0a3; 0x5858711fa28bd2a1; 0xc89d901d715891c; 0x332e3ad350b53505; 0x3364d9f0d08571df; 0x10e9942b4d304f05; 0x2e32a48fe1b2ebba; 0x24b09e4386516776; 0x2df5dd027f8f09f6; 0x6b7a71ccf2f88262; 0x4f6425e4d144d74a; 0x7aba019d75f45b6; 0x6f445456febe012c; 0x345a1ec13be58832; 0x26cfe943802964a3; 0x4054835dc36c2b85; 0x7f8d30ce26ba7c08; 0x7af2c98df544e398; 0x50ac51c2515bc82e; 0x12d6f92b6a9bcb04; 0x33f9d65a75b7dcd3; 0x328738ac270068f3; 0x6c07f9252887233a; 0x6734c6afee9a609a; 0x4c749a113ab517f1; 0x103fb902ea1bfbd2; 0x2b75a1606c1d006; 0xa82b19b14e21dc4; 0x1707fce6ff4d85a3; 0x252bfbf1e6a7b8a8; 0x2f8ad6214eaea085; 0x4b9e9a96815e83f6; 0x148e41b13a86ca06; 0x458e0615271710e6; 0x20f05504db8d103d; 0x5037fb2a67e10514; 0x4842e0bb35857ba0; 0xb1f69113c42e2da; 0x35d1fd3f6e0ebd02; 0x21ab73fe7177876a; 0x5085ff53d8064482; 0x758967234029cb9; 0x79f517b1c2177db1; 0x452ff3c976cebdeb; 0x7a11812539dd3cf0; 0x38fcd72ce7a395f2; 0x210ea90f0a905e1b; 0x2f378a5095f90295; 0x140b740456934719; 0x5bdb1a131421c03e; 0x46a83176c787250c; 0x60014aa13c6d5cec; 0x364a4977a8ba5d4a; 0x4f8112bf5f0bfb93; 0x7306a24220e0ce00; 0x58a0bb21a418235a; 0xa7c6da0d45839eb; 0x7da6166812f4ab61; 0xb8b13d3713388c6; 0x3ef27bbd43ebaaf8; 0xace26d668d0d666; 0x5360cc4a7504bd3c; 0x65e280471514e595; 0x6d79b0aaad516ecf; 0x399f0f86173a7083; 0x33d48f4da7dccec0; 0x751407c54e633564; 0x545e469dc8e5ca55; 0x191306ac87eefee3; 0x6947b96e50d3f7e2; 0x30b5692e10b25123; 0x48174711e12ef8b2; 0x1d8de5ba5b009645; 0x2beb2d23ba166f53; 0x14df734bb8db1d9f; 0x30d89f01c1fd2a9c; 0x1227f26301a9e1e8; 0x58c2d925f69ac863; 0x3fbcb33d6b0161c1; 0x3cf1a7ee8dc737a4; 0x6fbd6d169f58c83f; 0x5c4192daab895ca6; 0xdf8a42d022ac896; 0x58a78804411a3a6c; 0x61dd4507550e477f; 0x1253488ada09647f; 0x4759f1d8cfcdbbf2; 0x71e50fc3ca60cd22; 0x4c0a4a9296f754df; 0x226d1b9b1c094677; 0x1644fba1e49cb4c7; 0x65b44ccc86064ec9; 0x15faeb19e5133cc9; 0x5a0c11bef0a2e6c4; 0x297aadfdd485ceec; 0x3ee556a580e21aa1; 0x254f7f7c030cb1bc; 0x5684cdd08d702576; 0x50da8d9ce27da882; 0x11473e2b43659ca3; 0x50a6ec3eaa82e188; 0x1158f999b1919e1d; 0x5b703c84b8aa70ad; 0x32596c7322d421d; 0xc7d57783d3d4e22; 0x5aec46577c96dcca; 0x4ba544e13023d235; 0x469e3e8975ea9356; 0x2055ed13e228a612; 0x2269c760946744db; 0x455d1b72c0b3a321; 0x44d2a45568af6891; 0x6748b8b016b956e3; 0x13f505b464b130a5; 0x9fbfa0cbcecdfb2; 0x1e8ebc5dee9d1412; 0x3d6b4343d2fde140; 0x640f4c448cadc6c1; 0x1e91aad6906bcee1; 0x2fab66267605b92a; 0x7399fcf0c1589af; 0x3b997a99685a6d42; 0x794b3080c92344f6; 0x43e1223299eb3dab; 0x64cf89310d966113; 0x66b6a44b0b7687c9; 0x1929194348fcc471; 0x4628a560f1b68452; 0x4fcc0f3b66ebf9c; 0x1b0241155600ca37; 0x45daccf03381950f; 0x133ac1aee3174bbc; 0x17693e9add272abe; 0x693aa244cc3f493f; 0x3c97c6927645757f; 0x7e3e05e8e5ce378f; 0x2d884121112a51cc; 0x665a039eb2a105e8; 0x5bc54cec692a4216; 0x5d77dbdb8eda0978; 0xe8ef727192ebf1e; 0x18806910cc6cc56c; 0x66b63c50e285d73d; 0x11812c8441aa8640; 0x4f4128c9bc08fa36; 0x44e0b047c0580c48; 0x5b13463e7c36b3e8; 0xf0be385a1000c7e; 0x40dbab58391f5a23; 0x2ebc155213635cf3; 0x310598a598f9a25e; 0x2d042db57ed1918a; 0x680c48c54b5cdd69; 0x70b84c575004fe6e; 0x23d28ad5d0905b0d; 0x69edead138f62eaf; 0x1f4fa33c55699de4; 0x4a3b0a67e0f26904; 0x39a1e4701847fbdc; 0x24d4a0ce68fc407b; 0x67fa91674aa210d9; 0x4e868fbcccc4f898; 0x4ed0789d86c210f8; 0x35ed71b9ee9b1e76; 0x5627aaa788351cfc; 0x2b66ad8661f61427; 0x3029d9691ad23392; 0x35e113f497918e06; 0x7e20b48bcac0c2a6; 0x3415fedb46dfac20; 0x4d05d67f564ef820; 0x4c0895d7efa32854; 0x5c5eb0f5d33e63cd; 0x2b79081ada0541ee; 0x2f6e16b356504604; 0x3a59ec5f996e983c; 0x5e6454af06a8d656; 0x3b7c06000d21dbae; 0x3fcafa9b8b59302a; 0x4ed3419eede27d83; 0x2526975af17f8d40; 0x2958d6a56cb0f7dd; 0x5e7342c077ddd101; 0x3c47f8e9cd3ef83e; 0x52de68ea84c7e9b5; 0x2d055c4b7befb241; 0xe91c04f127c57b5; 0x14a8eabfcd5b2b98; 0x70f5882e88a6b4ff; 0xcb31b527d4670ea; 0x288bc4effae72502; 0x4b5011a4684b59e1; 0x6babd0ff3dc21b70; 0x4f1eaf02ede606fb; 0x28af8a0dfffb36f7; 0x1d10b22a04865717; 0x37dec3b45f2f6288; 0x79ced784d2807fd0; 0x6292b3db1db13980; 0x3bb4d2e2a3582eff; 0x74f73e26425ebf6e; 0x1ffa3a202d5fa5c5; 0xbcdb8294ad6ab13; 0x60fc5bf06a1aa3d4; 0x176124c120a41008; 0x599207362986c04b; 0x6885ee1e55ef186c; 0x19176729c802ed60; 0x7b6bd0adbb2b76c8; 0x1bd015bfaab9d70b; 0x5bfa25e9d2569608; 0x3fa289ec6b5e1608; 0x3c699222feb2ebdd; 0x9bab8b65451e0db; 0x93927d02ff9b6a; 0x3a69b6ff0d2f7d53; 0x1164929f98ced41; 0x52069880f6fbc301; 0x6bc02c2e424f898; 0x205434dac49e0827; 0x6dded3f665b7d1e0; 0x37f6f21dc51d7ebf; 0x610a4a5203bb8d85; 0x441a9a7d0c6926c9; 0x7846dd1d428783b0; 0x7a6f1fa22a3de5da; 0x3863cc3bf3d64224; 0x42f3d67d9677cdd; 0x359b53e75e07cc7; 0x3d2d35f917698353; 0x4220b2a03fb6f145; 0x4fcf8373c9575c31; 0x151ec7de399c691; 0x1f0383bcc4524c17; 0x2f8c33];
   [0x411ae62204f53189; 0x3291d4d5ff52dfe8; 0x56990c428285db93; 0x7d3986def2664fc6; 0x3323239a9cdbc12; 0x1f80619ea4d14c9; 0x14aca10cc61e959c; 0x7ff176c628368b95; 0x7ad2dd6bb380cb74; 0x58e8205f7efb18ec; 0x60d8347400f1c038; 0x709f6f5989c3f592; 0x33e2f38f371c915b; 0x729bc02a7fd06828; 0x39d704657ce32dba; 0x1a6bdf8c5b6c2c61; 0x2b2d782c22c3447d; 0x6742bd1befda057e; 0x4f66d20bd2d42daf; 0x6216706c851c689c; 0x625c1d571bd98452; 0x57c572e201b15690; 0x8c9f455f3eda0c4; 0x1310bb3c5fe51aa4; 0x1e86ed0be11e1ab1; 0x7321f29f4f3428fb; 0x6612840b8075160c; 0x3ec1ca0bed0e843d; 0x71929b9df4663e1c; 0x7250640150e15191; 0x4095a0c2030d300c; 0x33332a7ac6202e10; 0x6b6125e5d3c6910f; 0xb7c3c6b74b1d48f; 0x70d78d04098b964; 0x211bdb21d8c93035; 0x86d9fd2286c0a25; 0x3b401f25f79b9eb5; 0x63dc9b005db40254; 0x2280a9231aeb7dbf; 0x6299e3b73a3f2c; 0x1218af9ee54483e6; 0x7d3fda9c320aff6e; 0x4e6dfb8830a0e9c7; 0x652111b14040683f; 0x1563344bb1f6e41c; 0x25b397d5c1af9657; 0x4a46365f96bb49af; 0x6627b75686580632; 0x424d9fba658d0d36; 0x6b0e5d03259d04fe; 0x2f38ca4ba99af301; 0x4cfde48aa640d129; 0xc91cb834b0bb748; 0x4f165fb3a19d485d; 0xbfa0cafe9b1d651; 0x51ec115046c94b22; 0x478af45e3326565; 0x78d47e85377068ae; 0x12413c7ed1eef151; 0x1a85cc5a3391c413; 0x3fd7bfa660a72447; 0x85773380c1f7b34; 0x47039c5090d5726f; 0x60e70548082253df; 0x6ad18fd775e73238; 0x217986c246b1137; 0x709ce8b1679bce2e; 0x45b4225f16cea0a6; 0x27c5d2630db84a95; 0x77ee5b8a80414a2d; 0x60bf9d49e03f013d; 0x242802a807c4094c; 0x24227a60b85b95d2; 0x7d202d28a2d572fe; 0x39999e244a520302; 0x6a8e0d1980a258e7; 0x11113e2749a41d24; 0x54b2aff1b9646b0f; 0xca8dac0f2d786bf; 0x770ff4d21cc92f26; 0x6b69e68312d2c5b; 0x5fac49f4f8f351c9; 0x5c6d77e47434a3b2; 0x61c714640f83e7ff; 0x3a5d5cc2522b7a72; 0x5e3ed8bef0d27eee; 0x5d205b7e4f26126d; 0x58fb8497fe7efbc9; 0x5a249b9e58daf58b; 0x296f32874a2182a3; 0x7fdedd4c30513151; 0x1c0dd30b904d38e; 0x1e6d1e3ff0895ced; 0x6ed0c024f291cf89; 0xbe3137a4c557f63; 0x6fe1bf107d70e459; 0x65fe2b2331dc3af; 0x7eefd0a50d97c71e; 0x1a9d743e8497ceab; 0x43708811ba14c8a0; 0x14fcf9e04a835c21; 0x7328d459da7c37ef; 0x3e0b0ca223a46c76; 0x158ec32a90953380; 0xca47ead273678ff; 0x70cbd83256673491; 0x6e6c3200becf9cc0; 0x12e4a783620b9b1d; 0x1e10e6cc95a068f1; 0x4863c91caa2f3b24; 0x7a7af7a72e27b105; 0x67f1791df149ab0e; 0x65bcdfb51a86c3ec; 0x42c7781e82a45ebf; 0x5478ea2977a8037d; 0x1146006c049aec73; 0x2047ebaf51e7e400; 0x2a598cd64a1343d8; 0x265b7a5039802691; 0x2076ab6270a46f0f; 0x39256b5ac90ff36a; 0x2c36e8aabb867cfb; 0xcb14a3c3cf05deb; 0x52505014207596b0; 0x5a081f41d9beb6f2; 0x447f191705af814c; 0x7899fdbee965b43c; 0x4134354b3afa58b7; 0x37046c49c954ee8; 0x42c473bc74fe5eb8; 0x6117fd61b3d9dad4; 0x72af468f8e126c6; 0x1bdf1bc08fe86850; 0x2fc0f4ada0d47cda; 0x39561085624fa5ed; 0x28d9d2e0bfc9ee8c; 0x5f1d93a430ada4a5; 0x7dac5602a39a3ec7; 0x2e9a3f79fa252667; 0x10f4246bb40c6a90; 0xa23ef7e4e034c19; 0xbf78bb8199ec0b1; 0x54089e1fffda3f1b; 0x1158e508ec4db682; 0x169a25b91078efdc; 0x3909c44ca838f4ae; 0x15a069e0c350de3b; 0x25672c30299f8131; 0x232b3aec9628b79d; 0x162df51d94ce04f1; 0x205d95946e1ff06c; 0x182859106bff90df; 0x7c03226098e1ae6f; 0x788f66124afd6386; 0x5d42e1bd1a868b8b; 0x1c5a558e05261ddb; 0x71c1bfa9449e05ad; 0x4112f0d09e656455; 0x2c69f923430e40f7; 0xdd7a88db38efc2f; 0x44ca43bec6725fb7; 0x781af94c71ccf2c2; 0x5fd9d37dc4ac1595; 0x6663fd55ed435557; 0x3d6906b5fbab55e8; 0x141ce008234ccf34; 0x4d63506e141a12f3; 0x19766894e2e3f599; 0x656a365ab7e9ab2a; 0x55298b1d99fff26; 0x64c02a84f040b4c8; 0x221544bf47e5a179; 0x3b4e396da4dfb5c5; 0x45c9b6c4ecdf3f9d; 0x70da6ce7d564408; 0x28454b00e27c00e3; 0x4cf7a1ebff0a95b4; 0x3175aaa9bfba2a9e; 0x71c5b84a284ca020; 0x5930c03ad9f8988d; 0x6520f771702a9dc8; 0x74a4e92d8097cc3c; 0x2e8301204b0fa96c; 0xa789a6550d426c2; 0x55e8ab5b0106ed1f; 0x307b5a00091adc53; 0xa3c73eb2b10d2aa; 0x16dcba197d5ff7d7; 0x4b3efb87215ab7c6; 0x54d3669a477e164e; 0x2940b10c36b144cb; 0x4e5569239ffa8c68; 0x47bfad3e23ec7717; 0x4529eff187047b5e; 0x575b27b8f428646f; 0xa55742e749860af; 0x64c266c78460ab6f; 0x6f80a1e69fc74522; 0x1be53be9eed74df; 0x4631124dddba7c66; 0x267bf5a5701698ba; 0x4f890c4042c619f6; 0xfde82d2ca974f18; 0x31dee6c4128b91f1; 0x4508e97ea61964f2; 0x6f860f137bfe7e11; 0x33d35e06526d9abe; 0x41bb7d94349c4c33; 0x2f378b3055c47ff2; 0x60d9f8bd1b767357; 0x44353ffd2250284e; 0x68b24acc888b44b9; 0x12069ca4c14ea9bf; 0x69e56b9c6f5076e9; 0x3deda9af8eb8f30a; 0x3bf16e537a586265; 0x1c2f737adbe5a2dc; 0x4d23f4b69a21fe7d; 0x17955986934083e6; 0x1e6366dc99c99179; 0x510352aa1c038d8c; 0x11979390754a151e; 0x31412bbaef436e07; 0x4516b69aca433421; 0x101b9a6ff1b3b91d; 0x71a1de4f445648b8; 0x117022f71e1a563a; 0x13c7f7e59f268d0c; 0x479aeebada5abcc3; 0x18d7d9ca8d0a6e58; 0x4ac3ddd7fdb9e0ef; 0x4c35e2cf2a121777; 0x31d1f47decbe7020; 0x76c09fc2ee447eeb; 0x20eff04096f66123; 0x2ea0e3de2a64ffb7; 0x2d779bd72a659466; 0x181bb74ab9260509; 0x2d8a87c25f2cc49d; 0x5257f7376e782bd5; 0x3803b5fd34553c5e; 0x233e828abc031629; 0x7e6c419151a730ad; 0x6eb182c1213af799; 0x3ac586d79319d25c; 0x579090f3a4b83104; 0x17011d6fd682b405; 0x6d1d5694ad8b296f; 0x12b1b07aa16d4c9f; 0x2adc0cd4df6fefcc; 0x16206335b65c5897; 0x780b44bd2b2c389b; 0x3cdb2834175c3342; 0x4dcfab9ab79c5a4c; 0x72d5f1da4d54de51; 0x3fdbdb8f8afc45c5; 0x66a40ec49c582f52; 0x13cd45ecb323b27d; 0x4d9109307ff80ae4; 0x1dc3d53f784e18d7; 0x71edc6cd890ac508; 0x18fd7a9a98586b1d; 0x53c23e4759dda253; 0x28c022c358f025c; 0x69e9949024661b5e; 0x34af6c3a6a4cfd9e; 0x3e6d6ac6aca25b78; 0x4d7283e69694eeca; 0x284d0ad8995ad73e; 0x11810939664b45e1; 0x65b0ae13bae1a617; 0x1e89d4e915661c9c; 0x2f160f2b8364da20; 0x46f03de5027bcc62; 0x726712711245cf7b; 0x4f559ab7229b17dd; 0x5fe8778d60417702; 0x2be34f16150df474; 0xfbf811ff4262ae8; 0x36eeda16f705cbc4; 0x4699febf197fb824; 0x61a6c06720ec9d40; 0x113af05be1178b55; 0x313a7ba8818caf7a; 0x30a944768b90801b; 0x68b69e4264a26b98; 0x23e723d92f623c63; 0x549fe91e90c1f068; 0x7403099551debeed; 0x6e60849db135004; 0x7b610c5132f6265b; 0x46e95eee36b9ea37; 0xf341d66279f8d33; 0x16585351d8d2301; 0x4c831b383d4fed62; 0x36d09fa8f791cd4e; 0x2b7905eacad4fa8e; 0x5ab4c47be38e950a; 0x7aa05a7201c3628c; 0x5e6edfb866a92ec; 0x1607cbfd765dc5d9; 0x278d5a8f0f7718cd; 0x7294fbe14a31ff5c; 0x7caf7f9b7ea26df7; 0x43b046d522e9ee2a; 0x16bbd0068bb04ed0; 0x1d6f79b889cda2df; 0x62cd90042e76fb16; 0x591ed26247e96f34; 0x3f94400cc5fe444e; 0x54e3421bdb49de5; 0x7ec362665d2b2977; 0x49a99534f5480fd7; 0x3d0cbe1bafe43d0; 0x236bca481607578e; 0x61e7a1053dae39bf; 0x34172b];
   [0x18fcfdada55640d7; 0xbf805aa574d6b3c; 0x54b5b6544b45ffb; 0x4e67575ca38af09b; 0x2417752103cd73da; 0x472fe35c40745c25; 0x578cbf4ee7fe812a; 0x2a36eb4e4e8435bb; 0x2c388147268bb4dc; 0x51d5b852c49e223e; 0x53176d04fac76a15; 0x631c5d8ca9f4f94a; 0x4b69b97bc2d4fb63; 0x556d792365623d0; 0x398598283bdb636c; 0x50b02755a534665a; 0x34a1b2f03a1105d7; 0xccc4b74f8ac2bc6; 0x5b6fdd0656a7e4a9; 0x505e29a1f17a4af8; 0x22ca8529456303a5; 0x524f3cb8c139f713; 0x3decd80892d3f94d; 0x33023cdd3ae2590f; 0x4c8245ebb7de874; 0x5a08df30b05c2925; 0x2d90fc34a9e1f128; 0x1ec2cc25df3392a; 0x2993abc28cae6223; 0x316b1e7777256c58; 0x6aeee92ac82f0805; 0x5673c261d12db09f; 0x23c9508b8b813b52; 0x2777371702d80f8c; 0x78745b7b793f45b; 0x2ced0447f7b937fc; 0x776f0c0476f937c4; 0x26ae55192f2775a6; 0xd3747e0cd6f8360; 0x7b6dfae67a6f6f1e; 0x2d9d367739f2848a; 0x1fe7584f7e25a77f; 0xe48d41e64cfbcbf; 0x7cc5f46eefb67e95; 0x776fb02ff2e15825; 0x5759fcdffb39abca; 0x7f89a11c66a6ab40; 0x176433e5cf602b28; 0x59554c1900599b29; 0x3aa7f2e0d77beb0b; 0x474fe4446e90ad33; 0xdda3fabb6451593; 0x6c3a6fe5af4c0142; 0x36efff3309fb5861; 0x731577e0eca66f96; 0x2385726df2547337; 0x61bab7c51ec41c18; 0x5b2bc92ed9332a7c; 0x39e89a3d6e7bb9bb; 0x1266b8592e7c52d6; 0x4ea3641e1d9cea2c; 0x306eb6759e925031; 0x51bac5fd88ceafd3; 0x340ce64ed869ebd1; 0x367e9dbb181baea3; 0x5d1e63593939c112; 0x51c0c812f165533e; 0x8a7c2137df90d69; 0x6e774fc5fe58437b; 0x5af519eb94739d5b; 0x46a182a99426028b; 0x24ec321fbf5cd715; 0x31a24beec820fec7; 0x68d0311ba10abd2f; 0x7b929da82917bb31; 0x6f3f7514ab4bf3ee; 0x1276316eb0e71e7e; 0x4b65c174728d55c6; 0x1fc4cb12e16cc933; 0x424c853fcad77664; 0x62c20640fef5801e; 0x604fa162ffb6507d; 0x79522d979610658e; 0x19b00eaac68c20f2; 0x2a2e954e32a1c673; 0x42e60437ccba68d7; 0x7a9fedacc00c6fa9; 0x660fd51e5ec86519; 0x63841f898fb7e874; 0x6e1b673526d69e25; 0x7e2406cf04267ef5; 0x26aa5cef08628f3d; 0x366299ee0cd2a741; 0x595d6590c7f831a0; 0x4e8219f45236296; 0x18ef007ce772e299; 0x7c7f594fca8c29e8; 0x5a1a9e0209003636; 0x3a9d0c3cba5774a; 0x3237815eb1233239; 0x7a828256efbfcda0; 0x38cdbfbe7601167c; 0x46096127dee29859; 0x728c09c57308afc5; 0x2605461cf4c34938; 0x761afe7eaddf8b96; 0x6da84800a6ed9750; 0x723892ca488627dd; 0x920b5cd79e38bab; 0x4c97cf370585cbac; 0x757bef505bbfb005; 0x575c60071a7218fb; 0x3dd3fc3f6de062f5; 0x1610b3b948841ef9; 0x6999ef50dfa7ddae; 0x262bd67e73d2cb5b; 0x13218a866030e01; 0x4829901f85643b80; 0x3b881e7a372a018d; 0x2be943c7e70c1d4a; 0x3565230fbb57332e; 0x3e4e0fa26b21016d; 0xf73e8b1be2f8432; 0x51ce48c9879e78fa; 0x39522b19162cc19f; 0x24121b62f93de05a; 0x1cf48a435ebd318a; 0x5c61f8c7515cf2e9; 0x7e30f18adf662f35; 0x4956e8c1e78c38c; 0x180d3e7195115ab4; 0x3fe6c9f8b429e556; 0x50480f5068821822; 0x547c875935902c24; 0x79f70ff91a3819ca; 0x75d15413c6319484; 0x79a9688f51ff6c4; 0x2f5d34431a8c5776; 0x7e72930c434bfb37; 0x5cede90572356940; 0x1ace879602a31ca5; 0x29c97963f3da6929; 0x2edcfe10fabb3410; 0x350f7366e522780; 0x1ce634fb7657ac71; 0x1fd78ff49ccb4f14; 0x3b5b6084c45bbcae; 0x156f97876d80075c; 0x3e6f40b70017b000; 0x1a51a788618829c; 0x2df9c5638edf9431; 0x22649ef987cc1a68; 0x28bc59fd3f30b1c4; 0x5e6ed4c4ad1f8b96; 0x2759d07e9ddaaeb7; 0x63e8d31fc8c8e42; 0x2ad5ef3267fa2d8a; 0x50b1818b217fd1c6; 0x750808115364121d; 0x79d6ed3a83d506d3; 0x120536d6a6bf3149; 0x50816df40a1361ab; 0x22cb76fe9798d658; 0x3acf8cda9f92a3e0; 0x424a9b9587af72cc; 0x4d398465975765a4; 0x5e6911c043a1202f; 0x786a7e6377192eb8; 0x55bc6bbd58821a76; 0x328ac14dc25af872; 0x7072591e14bdc7f8; 0x66da7236e8f6cb74; 0x2e5a31cee21b60b9; 0x2bb2ca1fa8d15242; 0x23df6e08b0ed25a5; 0x1ee9e4dda779bdf0; 0x1e257c021d2e842d; 0x4d926f7c5853822; 0x4f71ab61abac4496; 0x25148f9cf8aef54b; 0x262fd37e9e9f0887; 0x153fe5bfb6ffd30f; 0x205b7291cedef527; 0x6c4977b6227f3df4; 0x26def189007cf4f8; 0xe87713708bd6125; 0x473f939ecc32f0ef; 0x7e9990baee3b70f9; 0x6d67d75974723fe; 0x6c7075a25fa451c6; 0x432d7e229d2ef454; 0x1705c09bfe49835a; 0x51a82143a293fb3e; 0x21c2a83ed5615d9a; 0x5a2eeda5a923190b; 0x339e609476822a9c; 0x40b4f839bd3766eb; 0x6ef8518c5fdc5da2; 0x1bac20c2664f74ef; 0x1688e373a8db8c24; 0x26fda0f12986041c; 0x3237a3b37d560ae0; 0x147779211658d0a; 0x462bdc5e822dc9ce; 0x4b81b84f6bb010c6; 0x7cd6d96180c9a2e5; 0xefb3503acc883de; 0x66b809ac571d36fe; 0x2c749365c6130510; 0x1adb44bef7b9f8d3; 0x14c37faf5f4dc308; 0x49aef7190fc53d12; 0x38dd1345302fb31b; 0x2c139c0a3524f0a6; 0x2ead92783856449c; 0x4a4391ee57340075; 0x15124a6d1e17b875; 0x719f99a0a970fc39; 0xef5f49675bf1891; 0x3077b459c05dd26c; 0x1bcc2fd5c0b0405f; 0x4def81606adca7a4; 0x7735242463556445; 0x5d63b7753e18b5f3; 0x67a6e5bf157c8e11; 0x61b7c07852504998; 0x5192c0db57b0a2c4; 0x41a5eb852d35462d; 0x5ce562760d9137b7; 0xe3cb2efc0521372; 0x24e4ee4be9f0d41b; 0x73232cd9c2c85734; 0x7adf875da3c191f1; 0x138a0f87dbffd5c3; 0x44329855c1ad8be0; 0x62b867a1a46f9db6; 0x3c3072984f66b22; 0x581b0ad9d8c1936f; 0x4934b343510b0816; 0x7ba715ad0ce21e2f; 0x28f5524f72b1801a; 0x672dbb5d9c8f07e2; 0x2d6c63d99353f96a; 0x413c2a38a488a8be; 0x4a0b9d3f77bb0889; 0x5766e803ebdd4dc8; 0x74c33a9ae8d0e4c5; 0xf2021ec1c2f04d; 0x627e49c25d1e762c; 0x5d8fc090b48678e3; 0x540615120245f593; 0x203876a91cbf9f08; 0x1928eb2e36e529c1; 0x1257765f64607ef4; 0x59556999669ada19; 0x2f7ed54e05b4ea00; 0x81944ff193cfa1c; 0x257ef153e384a855; 0x7a5b88dde6080ed8; 0x56d3c33346ed1a9a; 0x60df42500f528ad9; 0x706c2328e2dde86a; 0x14ed517b48072eb1; 0x155abd8e48da7636; 0x42e84a8027868ee6; 0xc20510a66690d97; 0x9721386bebdeae3; 0x6ac35d437700d439; 0x2ee36b1ca1aeb11f; 0x214f83e317462e8a; 0x685fe7f7c20101bb; 0x5018236b08f09717; 0x478a584294b200d2; 0x2e7c9bb65faaa513; 0x1d50fb3809ab4ca9; 0x304fb19f30c37fdc; 0x6d6ef8126dcadd2e; 0x683b8380bd964d4d; 0x1fc88c436f8c3545; 0x4737972c662f9e54; 0x737bb937b2415817; 0x499d02e55dbcf375; 0x634350ca97b30149; 0x1490332428a56aa3; 0x7132b2775746019c; 0x3d6ff145c00d9557; 0x78cc8ebb61135662; 0x3e3d503cfdb633ca; 0x19f07aec2e0fe9dc; 0x33dd02beda0ce7; 0x7d6fa44449fa219a; 0x15cef771925867f2; 0x246ef5d80d689645; 0x1b86b3d97c353e4b; 0x87cb954d4a2a873; 0x715bd0f74c5158ab; 0x225b49c086440ae6; 0x11ef6ab800318732; 0x3fe9c15fb6e1d967; 0x6bc5f878f28aa36d; 0x47cfa23cb31a0b47; 0x4d297269af972085; 0x37820d615d69f44; 0x785593c206bcf6e; 0x16d2fbdde48bfae0; 0x8e03cdb6d79c2f5; 0x70cd6d4f3b70251b; 0x5af314510d19bf9d; 0x41839a3fd8be50f4; 0x3f3ea1cf90b44bf5; 0xec3a7dec5b2bd7e; 0x73910af292e1d916; 0x1981054eff77f52e; 0x39d5e28f482d38d7; 0x5dcf92ce504c35a7; 0x7e23b278c079047f; 0x630a7fda80b54cd9; 0x2cdb7a];
   [0x2f355b2f68710a0e; 0x69eb33559158fe4c; 0x4d4943d00100dc8; 0x51dddc312062aa1a; 0x3094a115522bbfe6; 0x755563761e6520e6; 0x5fd3cd57bafb66b3; 0x17c8f2859676f8a1; 0x739942a6060a70ce; 0x1be33332e6583265; 0x3c46d7f0f067b50e; 0x2a850c454579ab2e; 0xe4ea7e6b0c4c60e; 0x63ac4a79a1cc648e; 0x637aa3cc829ae16c; 0x5f01b45f17697251; 0x5d49a825e7cacd18; 0x3c92c144a83d94f3; 0x42db3769a95cdec5; 0x1a062255fae9615f; 0x16b33a5e6cd67646; 0x7561e4f5cfb8d2dc; 0xc0f46d86b48286; 0x71e16c9231e11e45; 0x46d82f76ec644a8c; 0x58c0676cde9d1a4b; 0x63ac555eee3c21aa; 0xa1fcd374983af02; 0x50e3832968d0e7c2; 0x26eb2b00549a6f61; 0x7297ece976cb32d6; 0x106eae4a2ab198b3; 0x5fe47a619308f6ae; 0x6f5e4a2ba1f3224b; 0x4d1d794af31b24ec; 0xff47d1f1b74c015; 0x19bb06923ae897; 0x66805beb6f2f12af; 0x4a036155d4410c9c; 0x12c95d8fe41e6a73; 0x4d88c5716161050b; 0x63dd35f5c71fa586; 0x3cee934e9ac72785; 0x1682456f4d30feab; 0xa96a4221386b045; 0x6abb5d73dce890a3; 0x2c347cd2b9d4a07a; 0x298b62238a3f3f6f; 0x1576208bcdd9b64; 0x5c073c08364cd271; 0x26492241b2c687be; 0x6374dac4134aa807; 0x12df979781d49e0; 0x25679f640fb8fcc3; 0x630196b633704003; 0x7fc75768c7e5d1b5; 0x1fcd12ea5c4e42cc; 0x25ae853c4d5e7011; 0x183e172a2d2a89cb; 0x21251a0f13edc8c1; 0x61424ed5e548b241; 0x9f08e03b0ef79d4; 0x7fc84813c1f8e5fe; 0x655027c25ebec9ab; 0x72ee0599ae6138af; 0x6f885e99612ba0d5; 0xf7f89fe9d13c426; 0x59df414f089fbe6e; 0x554f07c610ee0704; 0x5fb26066ab5ff02d; 0x7e26936a5757feea; 0xcfccad4a5df57fb; 0x5b7adc6cdd8114c2; 0x36bb30c9194283f7; 0x21a7697b89b8594; 0x28ea218653cf1c9d; 0x5e7a2e01d3fd1720; 0x335ccc8be4fdef3a; 0x1861e031774fa768; 0xdd5d841c77c3a50; 0x57df39eb85d68ed0; 0x746e5165eb59fa5c; 0x57d304fbbb1b0200; 0x6f8dee40ce6be51f; 0x3fb9f79392e38e35; 0x72e92566ab0ed19a; 0x4bbe77c35992c917; 0x41c4c8f5f2b91849; 0x13acd34c3471fa08; 0xf4d24bb5bbe972c; 0x41fd27417d457d5; 0xe91920c59959f7e; 0x4f2862047fc5b556; 0x28390832ce400e4f; 0x56b9025ea7430b99; 0x31d13283cf9c0cf4; 0x2ea62b6299bff3ec; 0x4338a10b57bd5219; 0x4cb93b154c87ca77; 0x3704c240132b33f; 0x63f48a92cf639c82; 0x5a26eb3b3ad2bec1; 0x352ec6c00088a6a8; 0x624347a0adda2e56; 0x2d0ee689d2fb02d4; 0x9ad6a68866467d6; 0x6edb529f93cb59c0; 0x328b4f4e2ad0c11c; 0x2e6a2be548decb08; 0x6ed8ce304aa2e8cc; 0x4aee1f3f17048f6; 0x5ca41fd98861befc; 0x657040c38d1828cb; 0xb9adaf528f1596d; 0x394e858d70794e97; 0x570a9245e8f61ac2; 0x509fde22149bad88; 0x599870104ba37db3; 0x3341198f3354d724; 0x7572bdd21825d0b2; 0x19ee2f74bb6aaee9; 0x1c8ae8f69b339fba; 0x6a05eef991854ab1; 0x398e1f7603ac2d34; 0x3c15e7c5c42adf94; 0x6f099572f06c2794; 0x6b2d58507f2f170d; 0x6b7ce6dc12135b68; 0x3b65bcc8386348e5; 0xffd976c870599aa; 0xbe33301aa4f9233; 0x52943a7baaab7b2; 0x71b13e6e28540efd; 0x510674ba05f13fe2; 0x5012ca3986207f67; 0x4812026289e685be; 0x1585654f1ec10cc3; 0xc2269155f8e62eb; 0x1bebcd167a69d4a5; 0x5962d305a46ef549; 0x39140f76286fab31; 0x409283b58e3a9747; 0x350b7c1fa9842ec0; 0x278b9b3d488db3c4; 0x6569cfa1b1fb96fd; 0x208e7a8f7208019b; 0x236f95178650929b; 0x2bc9b979bb9b8c22; 0x2471ff514c677946; 0x2458838430060c88; 0x76a8637cba204b6f; 0x5196c34bea9304a4; 0x667e01206e41d3b3; 0xdd34bdaf44a25a; 0xaf15d07772eb727; 0x21b41780a9a02f81; 0x246ba855daf9e494; 0x3d9ca9b44396d50b; 0x54bead21846e4dfb; 0x7fae6627d4029ae1; 0xbc6c3e7d011117e; 0x3ef80aef0b933c99; 0x2e6c7f7e17a1f781; 0x52442a2ebc8f998d; 0xae61be4f2912a78; 0x2d48a5d65bc91ac0; 0x2fd2b01da0bf65a; 0x2b1a024fda36dd2f; 0x600f9ae52684e544; 0x59274a72ba8333e5; 0x1d62f5c0c8a875a9; 0x38711ad4b70396e2; 0x1501be96489735d2; 0x3c28ddddf50fd527; 0x5d544c829ff72a5d; 0x1086b018d3a80693; 0x640dc7c3a2f8b31; 0x58b9fa29acd9af0b; 0x67274527a4756513; 0x43bc4e773208100b; 0x4c4e854b228a2690; 0x1ca3b10aa0f61761; 0x7bd848df1e6296c7; 0x55f4370538be29db; 0x538c0567a3d45fce; 0x158add43fc11380e; 0x2c0a1f64363576c3; 0x56e48c43faaad61a; 0x24512b507ee2efe4; 0x4440a47d1a493b6c; 0x181694b7852843f5; 0x53a7ab4585683341; 0x71e0720302a25b5a; 0x655fbb028e7bf98a; 0x6ac4e9bbdcc4e83a; 0x605646fa88fd8680; 0x5c63330f13b9196d; 0x36a1eab64b638a13; 0x479015f91f1d2db4; 0x7d54c812c2c3b074; 0x324dd10cabaf0998; 0x269183264f62599e; 0xb427783a16c29fb; 0x69c58acb3385e117; 0x5683ca4bf47f5ded; 0x766c45795202e1b3; 0x21b4ffae9aba4d35; 0x713ee7992e4448fe; 0x7efe96ea715f9978; 0x5f0fb7f68f10c29c; 0x632c8cb7d59b86d1; 0x1ad85c55dcec8c7e; 0x5f74a750402d25c6; 0x3a93af623de53e96; 0x6a6a61d9c5b1faec; 0x429a6dc066cb3f01; 0x66415fd10eb4498b; 0x66dc5305e6b23940; 0x58d3db99b67ff71; 0x1f7e9b1d380f06a9; 0x5c841df6973f48a0; 0x43444bda35d6ac08; 0x291de78bdb4a14db; 0x2bc750bbf17a90e; 0x2d4d1ee6946b2dc7; 0x3876b0cf67bad965; 0x6ce2dd46223eb625; 0x363714c82a4ff7f3; 0x9834a08b3d8d0c4; 0x28b969accc708ecc; 0x37fe1b6c414f2ac1; 0xf83a0d0d389358a; 0xd81a304b2f37038; 0x176f668d979ab3a6; 0x6d2b1858cd4f1656; 0x1280fe17f429f2d0; 0x1275de07f54e9979; 0x7ca25338e7e11662; 0x324ec883be9883f9; 0x2eb16425d2a827e6; 0x31dcb83b169f8635; 0x543a7983ea15a59b; 0x55f2b5f6e7ede9ad; 0x3632e77faf7f5226; 0x1a05c81cefd4547f; 0xc599898424503f1; 0x4368076696bb460f; 0x51cd4c91e2bac497; 0x58a6657d99d57bc5; 0x73b222898e43b347; 0x36c936eaf3b7092e; 0x2fc8ee8d9405b2f; 0x36107e997720ab11; 0x25b7beb68d224111; 0x55fe4725db93ab3a; 0x36d399c977e1e97d; 0x42df23797f52935d; 0x6dfcc904a8986fb; 0x7cfd0842bfdec75e; 0x724c806ea110b707; 0x2cbae01bf1d1ab03; 0x254acad0c50c72d; 0x73584223ffdac38c; 0x73cdde5b7adda615; 0xa115f6a0192696f; 0x58a628409ca4f86f; 0x60aa36b2b384e585; 0x3cce9e47a6b8516e; 0x56ca0b354df600ef; 0x716e932b84c816d2; 0x2fd7915ec844e494; 0x5f649cbd595df998; 0xb34f019a24ea742; 0x79429aa0d2eb9900; 0x11f775cda02e1a23; 0x59ee6186e695bfd7; 0x4854fbddb26ba154; 0x5dda96bfecbaf39e; 0x3dbeb9804bc549ef; 0x7fb2b81a04a167eb; 0x4ddd6b82c1393b3f; 0x7815ec9834380ac0; 0x5e06d006afb96888; 0x28e6d5845e569bdc; 0x622462593677b10b; 0x4a65ce718bca133b; 0x69684e68a747da0c; 0x2c4173bc1a2d699e; 0x4a1168b829697f62; 0x7c6453f5a94cd30a; 0x2da78267cd61d396; 0x374cb61cbbfda5fb; 0x10d1f07c3923303c; 0x5af217145e761d76; 0x16b974d348fc481f; 0x44a8ba7881f4e13; 0x56dac004e885acb; 0x4da15d2084522111; 0x40065012bc7e3cee; 0x100f8bccefb26b93; 0x3a60d5b097f5477e; 0x1c4d53d8da25fd18; 0x1af590ee8870c0a7; 0x6fbd520a1bc843db; 0x329ffc4934679e9f; 0x747780197bfc604e; 0x39837c5ec2bc6db; 0x2b5c5ccc9681862; 0x78a595288492349b; 0x6d9dbddc1be810af; 0x2888e91e5b5e72f3; 0x26e224e0efedd320; 0x3de095a1bbc759c6; 0x648519fed1afc904; 0x7c984f2f7e05b7da; 0x65f96a2dd5f3779; 0x68550318b6f6ffcc; 0x3e5f61];
   [0x1253b3956c89e8da; 0x47681b4988952481; 0x26e4d11feed36d02; 0x5492546bfe85bd97; 0x573cd42f9aa8ad06; 0x314cf23878c8bb4b; 0x446d2af033038ef8; 0x4d1a9415b423aeaf; 0x388bf38c19e3b19c; 0x26e01d8bffe3139; 0x74ca0028e9cfed0f; 0x772a5617ee448f0e; 0x1f753753f74ddcf; 0x7d0b4c3b71808528; 0x3481cc0b6f8e7a4d; 0x458eda62a3d420bc; 0x234c7dd5e614d463; 0x26dfb47d7183ed5a; 0x53bb967634220420; 0x6a30dd430c88e03b; 0x182780221ddb8dc3; 0x33ab31b5e07dd22e; 0x5bd471b91a3a9370; 0x99b8ec45eb986f2; 0x77359195ed5666a8; 0x5eaa0633e9fccee8; 0x66989150727aa585; 0x33b3148cdc101cf1; 0x65c706e16c2598dd; 0x57a1acdaa4ca3c7e; 0x758dacc5ab648ebc; 0x599ee0aac96c20f9; 0x73990d2f431a987e; 0x5654cd8babcda638; 0x2f18b682feb2aba4; 0x4deec85fcc4864bf; 0xa9eac51a1543f10; 0x6b7473add6e044f; 0x5edcb308d67cd576; 0x755df13010e313ff; 0x7bf97aec7b710117; 0x57e4e217defeb465; 0x2d6b3c229d9e8e; 0x45e4ab0035f6f08c; 0x432fc89d642e9b06; 0x3b443d6ad6e938b2; 0x6a33de4bfa1da3a7; 0x470d06d43a02587; 0x22c261b27c24b940; 0x77e4ade30b1d073c; 0x2bd43508c128257d; 0x160959f6122faa30; 0x2939cfe9f4ff77a2; 0x5441b0371288ef6f; 0xded2fdacd988a6f; 0x3bac9a5f6584696a; 0x33dc3741873bfee9; 0x1f6a2c0eb32cef49; 0x31d149b9e3fbc93b; 0x302abf4dc2695bb8; 0x75e9dcf3a2cfc3b7; 0x147f5be4465b597c; 0x25356d534da3e215; 0x376a5210e7547c38; 0x3e925bdf7b60c183; 0x15ceb250c06684ff; 0x1e1cb6d227ec6d3d; 0x346b3cea65a85cf4; 0x42129c0bb4079250; 0x13decc7c4f2d6362; 0x512e38746123a469; 0x58adf13bab57070d; 0xf45cc3312dcc4ee; 0x1a463b3768d1b6b7; 0x25c370dfa9d4d5c7; 0x8a3edba0e8c1b64; 0x2b6109838d6dc57c; 0x3d1cb3b08f56cc92; 0x19417a3afa63ce9d; 0x39bd90bbe232dc56; 0x4da2ffd9f0a5dcde; 0x79da03d86f9b9057; 0x4d2f415392dc6837; 0x1804775c09a3036e; 0x67bd4007195c2223; 0x47edfe534b718a9c; 0x6911c3f9b5f00101; 0x5e5fbd4e10752281; 0x47d1a2a2e4a5b037; 0x3ded1498d38551f4; 0x3b9b0cbba783a433; 0x515f0a219283b63e; 0x595c21c1daacfdbc; 0x69c99b4f8d4c99d1; 0x35549a2a10c6b60b; 0x7bd11ee925bfc83b; 0x5830503f817f04f9; 0x36e437566ab3bfa7; 0x2d08c1528abc6b54; 0x110e09c27e74eb9b; 0x75d54b20daae4967; 0x750d9db50f61d3b1; 0x777b0f694fdd6934; 0x76fdf0d0f154b525; 0x57de6e81042cc76c; 0x1877332029d8e571; 0x5cb1bc7421a94cd8; 0x51ef77559e4f1377; 0x2b8aa8115c659d12; 0x2e8d7627098f2c9; 0x346469be600ae35b; 0x2f92909345de6f6; 0x1b45b0100a9e8a62; 0x47f9ac51714b5b26; 0x74731f38d30d0b01; 0x254e87cbf9be20f0; 0x79ae5f2ffca94119; 0x467387f0066c6375; 0x24275a3d01904c71; 0x3dfc6e56a84ed439; 0x4043ce380dfe4eb9; 0x14799d177348d149; 0x43a76139553d729f; 0x44e90042bba3adf; 0x43985dc86e074c47; 0x7a9716951b9f82f2; 0x7271ab6cf39ab242; 0x1ec3f6086e6dbac8; 0x18ca176bab75ce3f; 0x4bbeaa9a8526328a; 0x66fd3dbea2595ecc; 0x250b93b14b9f0458; 0x6ce072b1c1a7961c; 0x21724542a4a60589; 0x474159e98566d270; 0x2a950bef2d73e9a9; 0x23580773c940b46e; 0x5e05d991e9d0efc2; 0x1aa746b3d373b1be; 0x5d5e37d2c7f9aa0a; 0x6125a665b09abe8d; 0x74eccba63f9a25c6; 0x67701004d42a9ca7; 0x1a6af0d928a267ed; 0x32520c005d51b2bf; 0x67f35fad55fec8d9; 0x38265ae51a4ef084; 0x1830dd73f0efcd16; 0x5c80e7250656691f; 0x2ee81c7572866cc7; 0x5f942a4152370c45; 0x3c9cc973ea086407; 0x5e0c6fd1d1896d6e; 0x41824dfee9c1f78b; 0x169c7fa25ad99ba1; 0x1479497cd3ed8d64; 0x4c0ae7487ead11d3; 0x4a8fdc37ffde334c; 0x508cc6b16e3e50d0; 0xfe520fa4023df59; 0x74e4b6d2726d6a74; 0x3815f531cdda78ca; 0x54058a963870a423; 0x38737b7ca0879b50; 0x666b879f7bfb91ac; 0x31b56fdf838c54bc; 0x23592819d968ea25; 0x433a3796df8a26ac; 0x42c945e1930cda9; 0x15023e010325767c; 0x6a25c5d4cfad3e49; 0x54fd67f4fb309a45; 0xd83182dab27daeb; 0x2afd2dc91c9e7462; 0x38fc6b8531bf86ad; 0x4abfe7f0585b3a6f; 0x77742e9a8e138d37; 0x747c69b594131ad5; 0x11cec404db5759f6; 0x7372c958fd83753b; 0x48e587435817b51e; 0x64103989cccbbed4; 0x6df24ef0954aabee; 0x72747e57e27a3b0f; 0x22a56faee6b8e7a; 0x70f3b911eac14fc4; 0x62e0fe3c44b21b9c; 0x70cb37b54e568c53; 0x64c72fd03460ac17; 0x76a4d34acc72b9d5; 0x52ce9bb2a9371947; 0x5453d7200a2860d3; 0x4d46217b124529ab; 0x5a7dd10fa0eb5e32; 0xed18f1fbb1b7c99; 0x2b671abe83e78c25; 0x3b243f24104c076a; 0x3ecc62e1dec7b31a; 0x4bf4c5eeaa6bcb6d; 0x1d66c35ab7cb39c6; 0x4f530570b98914df; 0x687198b8905f1e59; 0x6b0eeb91382cb9ee; 0x55be4d0188725356; 0x647c1f967a88edc4; 0x7866e18687a0e049; 0x51fe575aef85ac2; 0x33444a7afecb62b1; 0x1373112e4b73fb1c; 0x78dba765eecc5b58; 0x12d066010b9f30b7; 0x39beca2283fe3849; 0x2470c530902a344; 0x41d1d5c74318d3a1; 0x65162191da54c635; 0x14738612c7932fa3; 0x20c6ef714537462c; 0x50d1b86df450e075; 0x8eebf7ad6e591a9; 0x23b04c5eb4d5e39; 0x1faee251c842fa8d; 0x644b55dc83336382; 0x7bc4e5dd3da02e15; 0x42ecde1dbbcca99d; 0x6488de5815b58bdf; 0x2c9f30ce06d32378; 0x8de410f46a397b4; 0x2bf1b4e0181da6dd; 0x3cd010fe49abc639; 0x1e9eb9f514a71dfa; 0x76565d65f8435732; 0x431ee722dd183d66; 0x4caa3e1cef8e8713; 0x36315f4996a32549; 0x68ceec716475065f; 0x1d02e9bfb2030caa; 0x76250aad22e3ed95; 0x46b37affcc47579; 0x73fd6fd4fec5cd9; 0x7f271c1b4a8109bc; 0x570e82e7d7ce373d; 0x7a35eba635f0d1a9; 0x2376d69d050a3a21; 0xf4d735fbfa00c1b; 0x237987628f95d3d1; 0x76b13648f7523f49; 0x56643d8f542d376e; 0x1c284e88df4eb3bc; 0x47c8319c428c02c7; 0x6d259d37a55aa14; 0x3822e8354123f23c; 0x4d457e2aa7a4116a; 0x46765820fcc77fdc; 0x4e81be31b8ed49f8; 0x4c6643188a19e544; 0x3168240c8df93e72; 0x18fe00eb9ac15e75; 0x7b26a850a24196f8; 0x6e2ca48ee710c113; 0x319e4d86dcc10152; 0x3fd843faebf00e71; 0xe82c2163720334f; 0x694efa47278a6206; 0x2f1c831ee0c5cba2; 0x24f20b65aeafa89a; 0x4af182f7f1b730f2; 0x79181f426de392bb; 0x3a4a3a1582518472; 0x7faca298c5c74f54; 0x928137ee7698ec0; 0x3a5a7828343c2348; 0x659de595f76c402b; 0x3b9e94a99df483f4; 0x7f181af5b0bbe20f; 0x5f4234f67484dd45; 0xf23ef2dd46cdece; 0x68fee80e875dcb59; 0x1dc94cae8429fcac; 0x462b837a53a8dee3; 0x17713bb85cc1ebba; 0x4ba0e30b3e8f3f88; 0x40afb690828d5a7d; 0x584ccc91b5344ff5; 0x7917f1affbd25544; 0x6fcc8f8cce2e31fd; 0x3e9781c3a65e485c; 0x25f4582a31deba6; 0x7379d6c70cbe650; 0x11245e506ce4bae5; 0x7679b86c734e49f5; 0x6039bf5175a31bc8; 0x196dd620ed6446d7; 0x386b1f78890e1f61; 0x4c7958ef3daddc23; 0x7335cb2a2b23844e; 0x57e460badcf10d0c; 0x229e24dd3111e47e; 0x794b5163e5263d8d; 0x10c9c325e96d489a; 0x1f3a534754b8511c; 0x18721521f8b1f57; 0x5b51b1b0874b8981; 0x2c25f89bf94fc0b2; 0x407442963870ec1f; 0x3b7fa9a815b60e28; 0x35a186e9a6ba1dc1; 0x4f04170cf2a25c25; 0x18264a8126d935cc; 0x3a326e7169856316; 0x1ddf6642e1c2a2ab; 0x36bae9a0995d1b3e; 0x239a28bd5ec60355; 0x1751ee35801247c1; 0xd5c69e19a3af495; 0xb05a874ffedf716; 0x378ca2e45c4b5943; 0x76ffadcb2dc20bb5; 0x28bd1];
   [0x6f78431b6d79cf45; 0x6da6341b6d23c721; 0x3878f4f305ea38e; 0x5f73b33a460d4dc; 0x4140a7bbb0226968; 0x1a695c40525c9ac0; 0x36e8ad8a1c576998; 0x54873e11cf31b94b; 0x708250a49b97d2f6; 0x4c7a93aa2747cfc0; 0x210180fc512a2849; 0x1507ed48dd4b0f41; 0x129c12ee42c09bcc; 0x7ba20d8d16863b87; 0x70e8557d23410cc9; 0x50d99558be9baf01; 0x2741a223924dd5b0; 0x57c22f8847a4d0b1; 0x71232e9173993016; 0x20b52577a4d6084c; 0x5d1156a8346e1da1; 0x62ad49e1054e5640; 0xcb80187795da3ac; 0x6d6e979496d0e049; 0x1e3f1864ac298061; 0x642ebfa6d5e5ccf0; 0x56c6611572ca1f80; 0x7213e50e2d619652; 0x7d59035ef0738600; 0x399463957190ff7b; 0x11a1e36286e47b49; 0x372262f105cff89; 0x14682c44b1072ba1; 0x51b173f255620570; 0x4ed210ae4f476f1; 0x26f06549b6cf3df9; 0x50231a6cb25f62c8; 0x3efcd022e07b478; 0x510134d92cfb768; 0x372d434c3b7a9bee; 0x2c0afa68c28e1654; 0x2a06c4b13fe0739b; 0x4ee4f268a413980a; 0xb0de739cebaa366; 0x121998c401c4c489; 0x471cfb3033d8647a; 0x7fec1240f7e3db22; 0x7b096db08996a235; 0x3d9428eca94b429b; 0x614b5b9ba7fee0d8; 0x1c60a3670d78117e; 0x104ee883ee954bf5; 0x2c72dc3d69522f9d; 0x5fba5e870bd25058; 0x20dd70170c772f9; 0x18c16b446249c8ba; 0x7a47d09d90ffc171; 0xb885e494397ca27; 0x7f9293351bc74f51; 0x36c0251fc267db5; 0x217fb9dc2d1ad6d1; 0xd15795faff45a23; 0x5fbfab42cf584607; 0x3ee1ff6ebf38cf86; 0x43fb5594c448f35a; 0x517ce56f0a84d3ce; 0x57e540434c7bd4d9; 0x2180d2d050547456; 0x321b691692f8d63b; 0x6ad520dcb404b0dc; 0x237c608589339862; 0x1282e554d16c2300; 0x5a5d66bc9b84f0e8; 0x1d2f94e7fccff771; 0x7652fce261fede4; 0x7cdb4b39b1016faa; 0x1ed000bc6963a977; 0x3a95afb13df3638c; 0x2c7c147b8db88b29; 0x3e20c851d67ecd32; 0x3784a48c3810326f; 0x693b67ff40329d0a; 0x4d588a0cc9f6c232; 0x38c74d23a7ee1b4e; 0x1793c58f755758e3; 0x3fe4ccfd71facc69; 0x5ea9076b08965f56; 0x43a3a97992f38efb; 0x5715eb239d234f5f; 0x1d7bb3d87f4fec87; 0x6a7b656df588f84f; 0xcff5640a5ba96c6; 0x58bb4a59199d5cb6; 0x7c9664b6a0fee88f; 0x6059fa2ec1907fc8; 0x1000abbd5d8fff76; 0x5e957f1d33b45782; 0x6d7f482990eab6ac; 0x66c6a2d36cdccd9c; 0x2486b037455fc27b; 0x423b3aef8b00eebb; 0x41eda6ed4cee5cd2; 0x4870b316ece6671a; 0x18f6e0faf057d3a; 0x7fc713be121e7ce3; 0x287cebe8188f0d04; 0x31352851273883de; 0x54829f382ddd2a1c; 0x661744eb5fa297ab; 0xf589240777e4806; 0x505e132f59514b40; 0x19f1597c6d43f182; 0x26d5d11f45f69cf4; 0x4a7c68d7c617d9d; 0x10bc1bcaf9d3232f; 0x7b285f3e1a5ab35d; 0x1bd17881cd4ec2e8; 0x2e48d7df87bd84ee; 0x599133f99967b669; 0x12d0a63411a5c3b7; 0x5d8dbb6b2f803eda; 0x75969772ad8a56db; 0x6caecef3734d26; 0x2563252ac4ae43c2; 0x347276614d3f95df; 0x61adb63e92866a9f; 0x6cfe6853ef25bac7; 0x4b40d738823d38c7; 0x5adae67dc790cb99; 0x73a1f15652017305; 0xca823812e2e49d1; 0x45edd1a5d67daa53; 0x316d6779802144f3; 0xb1b82d7ace8b403; 0x3a021a189c28374f; 0x31cd921ddec691dc; 0x1c582f0ef70ecb6b; 0x6f7cb22938f8083c; 0x134593fd1eee75ce; 0x3aaf826932278458; 0x23374eefbc7b748a; 0x4aed65b546e2e37e; 0x4c5295944bc2168d; 0x6872186e1980c827; 0x7131b06b7787fb7; 0x246ed5f5fb39c0b2; 0x87348652eef5780; 0x35ab09ee84dbf0d0; 0x6dc90508c191c026; 0x326629e423de1752; 0x16b49ade9dcea2f3; 0x2738c21c9c9d3e9f; 0x69ad18307f023c22; 0x386263bf8452141; 0x20bdbee3f0a1aa92; 0x619a8c72b21e806b; 0x399fac8c8e28f9c4; 0x435d0b790a05f553; 0x730eafda03a220da; 0x56aa5ddf97fce475; 0x5bbb6028367f0e0a; 0x71f04ecb2e8dca7; 0x1ed342dcd7129ded; 0x18e5f110a7f39253; 0x2727ece52682deee; 0x75db5e8156389b98; 0x628bcae04098a782; 0x66ad48d14a352bfe; 0x51f1930ecfadb197; 0x4107b66142bdddd5; 0x7fe7b519c11539dc; 0x5c3513e2e78c3e06; 0x234c46793bf02cf7; 0x4ae9164fc76910b9; 0x3bb215903a1a1cc8; 0x55d63624d1cf787c; 0x7a708fd1323569c5; 0x7ec5bf30ab20bb5e; 0x37feecb5dcfde397; 0x765db2015fa6195c; 0x441049900ce9a694; 0x45966058fd4e29ac; 0x5903658746f64b9d; 0x5222d5340a21ed60; 0x5fe4552334ceeb96; 0x27365193cebeb911; 0x5cf6e17dd227fc14; 0x5a189d078e039577; 0x6523214e51ba8b27; 0x350d023d95b384df; 0x3d2b6979f0163793; 0x7bef64b2cf5df220; 0x77943a0c55e5041a; 0x80e8f165cb8575a; 0x11fc23a1f20980bc; 0x7d7fb6fcf2f33e97; 0x5b5a32f42c238ca6; 0x63d089249447a37; 0x463912ed62482a17; 0x1c9dd49e53dbdbce; 0x4354d4441fcd0f5a; 0x2193672e89e36a81; 0x30c57d609ae39d14; 0x1863cecce503c95f; 0x5bae20c4afbaea1c; 0x53c91ba3c3e0522b; 0x29f694bb93776ae0; 0x70c07a604bd5ef83; 0x72ed1450a617ba26; 0x54df8bd114c3117c; 0x25600009922d7d4e; 0x55d4781807518c18; 0x69d3d7d29631f6b6; 0x42687a32741ffa69; 0x60ed6f214df3267e; 0x40e751699db44b6e; 0x612bc34efbdb415e; 0x62c18192e092488c; 0x21663ae110b7d650; 0x69b1e20f54625bf; 0x6299569c67403849; 0x4b215abaddc07572; 0x6a66c568aff1e941; 0x63b379e5cf90fb50; 0x17e977df87808921; 0x71983f0102d5afc4; 0x6f359edeb69cdc4d; 0x65de4ca2a62cc134; 0x43ea277a4c70d90a; 0xaf668c1966762bc; 0x2dc86bf26e37374b; 0x46ff55900b5ba6b8; 0x628cf73349cb7c50; 0x7cab834fb218376b; 0x43a4ca4057887ee5; 0x309ed05e1ad4583a; 0x792f3ef42d2e8b7f; 0x5271abcf82a978b5; 0x15606ac8b71143b1; 0x5ce5013bd7bd4013; 0x21900bde3b517905; 0x75745258e82d659a; 0x54d65200a526de54; 0x4ade0209584bb57d; 0x6a2d55186ded2ded; 0x569b1382f202a6c4; 0x3eb3777212bf9959; 0x15aac11ff297fa9d; 0x3bb7007a1abb50c5; 0x621e66f524f54ac1; 0x494466e6cc7cc616; 0x5268e5f6ac71ca73; 0x277077b65551bbdb; 0x3b13b3a3ae6a87a7; 0x4b7b877ea44a759c; 0x163418ac41eb7809; 0xcea93649b61453f; 0x145677769a27264; 0x1037aae87c9f6c0; 0x6a87a196b935870d; 0x44c857c537105269; 0x2fbcf37bffd090f; 0x5eda3209e27b8939; 0x37fdca997d983b63; 0x7d9992b0fbb9c6d9; 0x3f59a0082ed9b17; 0x3e6e91fb72fb7c6f; 0x158c553a7565bd4b; 0x19ed5a32618e1c0b; 0x12348128388e1ffe; 0x554bf34d85b8e1e3; 0x3a87189c1fec4de3; 0x3a1d627f38579692; 0x12a2417af55a14b9; 0x538ace0cc51590ba; 0x8a7a3008b5351b5; 0xe680b8cecdcd165; 0x6899c3cdf3ef78; 0x2075b3076e8cf6e1; 0x33d55b0896c325e4; 0x1258119e1a0c9ddc; 0x13273e858fcf87d8; 0x685fe0dd6cefaa73; 0x1559a363af462776; 0x61d4c18004b4ac21; 0x108ff7ff1d7e52b3; 0x5061b6e330afd597; 0x144f9435d8e49ee5; 0x6a07bbc2344755a2; 0x57e88d23c19737a1; 0x1d085646660d172e; 0x54705880cc82812e; 0x4f711ca54c80a223; 0x7c493f44c98cd2af; 0x6d2365e4655f3526; 0x5729750f3416643f; 0x432d68d74a0fc2e8; 0x1b11d10de3c09418; 0x70b0ea24fa64fdea; 0x5638e4ecf8dc81; 0x371e327e4d082610; 0x304867e13ed2d69f; 0x4d28cf02dfdc974d; 0x7381f8251c6a12a2; 0x6c472bc719acec83; 0x30897fd5abdab801; 0x735f202f362c17db; 0x137e4565c11f47dc; 0x4600f6ba15115141; 0x3983e6cf25827be9; 0x50d59990226afbea; 0x27cb093f785386a8; 0x6b080faed430779d; 0x48c283957e109c4b; 0x7cec3c47d1716b50; 0x72b4f5c9508b3a2b; 0x4c54e755a1f09dcc; 0x32ec4f];
   [0x3eba5e6975842709; 0x9e053674af1451d; 0x12704f18c9b62678; 0x373c513bdff11970; 0x78ef3fc11a82e0fb; 0xf1399b5382f4162; 0x31b974b33ab280c4; 0x705eff99d81ab2f5; 0x246d6c70a0fb391e; 0x59ac1453854979f; 0x76d88938d60ecd70; 0x7bffd7d3c84149ee; 0x5d17cd986a9b0a19; 0x7e5a5c291f29b29c; 0x461b0af7cfd10776; 0x4a2b3f4d774ea0c7; 0x7c15676f678868c2; 0xf8510e79071ff3b; 0x55a81c379d3c78bd; 0x4048b7bb7f9589bb; 0x4a2b507042873c8; 0xde57d2d8c2e8cf2; 0x5fb9f7072d211d2c; 0x349f3f17dae8172c; 0x668e1b4eff1b6fa6; 0x581e46d30d7ffef0; 0xcc5942ffb3f00ed; 0x45049deb8cbf7338; 0x10cd40056357df6a; 0x6e138afa146b2636; 0x1fed8cca365e5f; 0x2cf9e3886032e3af; 0x21bcdb8db850bf54; 0x56e2ed0306ba183c; 0x7c0c51a20d69a0a3; 0x181bcfd7a03fa76f; 0xd5905a26ece6405; 0x41def7f8132661a4; 0x1377f80e712d5ae1; 0x2fd55a099f5b8a46; 0x21f700393c6ccd0b; 0x1b1f0ad38754b201; 0x5ce1ee8d094ec5af; 0xaa8f8fac25add0c; 0x7f2c35664213100f; 0x2e219bf1f16819fa; 0x5914bd9651b0c787; 0x2e45d3dbdffccf07; 0x5848f346c0e49303; 0xc4a5bfb7eeec48f; 0x1ddd356d6b011828; 0x4f8dd7c0958defc0; 0x35cd9598b84689f9; 0x161e8879bfd273bd; 0x7286bd51a2730998; 0x746b3b084dd86378; 0x67aa7e728b9c0313; 0xf79731be5672abb; 0x680f8a2ee2f7c990; 0x69e5726f61acb09e; 0x688f36613cdfc43d; 0x1e7cf5f5a838317d; 0x233491cc2de43e8f; 0x3a3c9e070ba37c7a; 0x60b37cfd370b7396; 0x18386fb1b4384778; 0x3f473d25726d11c3; 0x1cdddd56955262cf; 0x23f1d1558f4822e0; 0x4b3dc1921336258d; 0x1dc96c1f67a3b2fa; 0x5f6c27ba1cbd54a1; 0x7c528153f3ad3f6f; 0xa526a12bb254aa8; 0x36f40a5f4085537b; 0x167fd640321ac0e; 0x51f05f6ba0f2c25b; 0x4cd52ff4a5a4892a; 0x50cb2cafccca537; 0x1cb9cab0cac0ed7; 0x5730a3e80213a0d3; 0x5af5f808b73d4aa7; 0x79cff3f92f36f281; 0x5c156e4fb299f3e5; 0x7fb5a5f3464e6943; 0x5904e550b7d7aefe; 0x7db48b8568b0267e; 0x7a3155b7da86775b; 0x78115edf094490fe; 0x3a3a5cb018574483; 0x62ec82592df8df13; 0x495700e561ea249b; 0x10a6b0714f6519c3; 0x25ae09bbfae288de; 0x14683b4e526d23a; 0x3b46f4e1f56a5b2a; 0x3543b120fdcfe58c; 0x616d89e8021e43be; 0x12367452946db949; 0x1e25a9288a107a76; 0x768f5f9cebc04a29; 0x1c7b26076e99bd0f; 0x5d349796c3c16d4e; 0x7e0641bef06a5c34; 0xcff315e4fad6af8; 0x63cb01274802d9fa; 0x4749ffdc4dca3c11; 0x4484d280cf6885f0; 0x527fa3e3e5a33e5b; 0x2a9e02817395c512; 0x3e66bb6a315888da; 0x60279d9664f89f04; 0x155ec65d0f2747; 0x39be7de4a123c7f9; 0x753378908716f445; 0x4118fb1232e4d6b6; 0x4918c6b2b8bc2f84; 0x4cf6b6ab6c3e128d; 0x2e7f410875aee413; 0x31b8eb400793e460; 0x676891d02c254fbe; 0x3b8200e1a0f7ccfd; 0x4b800dd0ef5ce53c; 0x3993832d5b15fad1; 0x2d021fdd5558cfe9; 0x5d34352f5131d64d; 0x698598cf379941ee; 0x2fc2ac34c3ecf768; 0x6cdc28a11dfb2671; 0x3a57b8bb84bdf65b; 0x3f8bc90fc7fc4942; 0x73398f9395cd1dd5; 0x352d30808a894be1; 0x5eda62408f573d25; 0x773442f9e261f8; 0x4c9bf9a8de712836; 0x24b942fb150d938a; 0x2d8126218ac33393; 0x5b2645e189525489; 0x7e8b3ad6a0864bdb; 0x350e29c60bf0e121; 0x817bb777f5cfc54; 0x47096a7593be4c11; 0x3eab81314e85fdee; 0x2195c5fc2c088b6f; 0x1f1f9c2550865963; 0x6d81bd900da4d0dd; 0x1fd424ac66eb9e05; 0x20afa7a424952185; 0x1326d6a248493e34; 0x6082fc807ffa907d; 0x4ee66074b5b3f92b; 0x64c8c4d7927cb0c3; 0x64734e6015af0f2b; 0x21694aab2ce17377; 0x76b86189bbef01e7; 0x75fb7d9dfc03878c; 0x47a96df88d2195b8; 0x47ad4ab46bab8745; 0x6af0c7f9df2c58a3; 0x3658608d4274ec76; 0x7d2a7fdd37ddcb3f; 0x5ffd0849586626de; 0x49ad429eb0511cb8; 0x42aff6a710ae2d3d; 0x7735db22eb592dc1; 0x5d1941ece5222f8b; 0x5949d9200bdde38a; 0x3cc7568697865b3a; 0x1ca6ebb8b5fe333f; 0x1d4597d12632bba6; 0x50b25753e053e8d4; 0x56d7037b605bd771; 0x7ba16f475b990df3; 0x4d99a3bbf1b24cef; 0x1b0b0452d0ab99f2; 0x7eec6e36986176b8; 0x5da05bd1122dd5f5; 0x1e1954180716e49f; 0x70644c3dcac50d4a; 0x2fbe8b07fbe51ac4; 0x37b12eed509cd4e; 0x172cdc5afa10661b; 0x265cc6a78790a86; 0x2a078b37a0e155d0; 0x58ab0f17ab0f26f5; 0x1e0f88e691208eb4; 0xb62ab4b0447a942; 0x1c92950ec34023; 0x3a3e4e3554fcebb2; 0x8dc2044424e50c; 0x1247b09ecc847219; 0x7fafcff5c9dd4d52; 0x2d1de798c62e3d90; 0x451cbcc01067c7c3; 0x2352e391b7d133ba; 0x4795d23dab1bddb1; 0x2b0a89ec05b94cc4; 0x4b9bbe22020b3b4e; 0x660763eecc3d60ab; 0x164c7d40a1a60a22; 0x40f4ca7b04617d1; 0x28eb273e416cf71c; 0x515f3fa556370cd9; 0x3696e60d977e31ff; 0x57c7437a69bac767; 0x3f738b06f2c01f4; 0x4e44976621951906; 0x6b15724ffdd48516; 0x764ab65a691f632d; 0x296b3b382118a478; 0x7b6954b8c10315b6; 0x69fea874f1739441; 0x426db730428cea6; 0x3a52a6f770fb1cff; 0xb0567bb199d84b9; 0x6f83638b2e85104; 0x371c842f420af32e; 0x1a4203064d47b0a1; 0x1f89ce3dc6c07e7d; 0x1ca00041b153f96c; 0x1f9c3f0987b77121; 0x18aff973c5332c41; 0x4107bc57e6b34c9b; 0x21b1f6b498a8ebd3; 0x492dc6b088fb5e30; 0x6546e644cca80013; 0x1000bc6096693e0; 0x53ed5b608a7ce405; 0x5d875e70c5768b15; 0x2b75a9198f07cb07; 0x4bb01a00ea7dca11; 0x474ca7ae58c4c4fd; 0xf9e8f059347589f; 0x536df02b81dfce45; 0x45b01282301e0872; 0x2154fec0feee6228; 0x6fecfa11ebd0239e; 0x3a42951c72b0c919; 0x1a49a0927b4f13d6; 0x7501df467013242; 0x133cce3bd5a6448; 0x7bc3185c8288a2c8; 0x5001797f6f014098; 0x6b1a6fcfcd85e4ac; 0x21b11e94e196f313; 0x5b60658050ed1513; 0x5b72cb5cdf9892c; 0x19a11f58c479a807; 0x31c940a02ce52e3c; 0x6edf2cce0257d20f; 0x167cbecd0423279b; 0x714b042ef7511e8f; 0x72fe6a6b589f68ee; 0x227185d23b796b23; 0x162b77e1b5b53119; 0x4ece3bfd1cfd5ee0; 0x77b5a6b29fbc07dd; 0x72d7c41d92958e3a; 0x2a5f64fb63d84ba1; 0x5e4c40c28abb14e7; 0x670ab422d8456a44; 0x27aed00c183f3f9a; 0x70bb2c4b6dbcccaa; 0x724b93f7f7e4f068; 0x2b38be6785efc9d7; 0x134caed195735ba3; 0x6effbba60b9b139c; 0x512fae20f1be3ed3; 0xb21b64e9e3b5e43; 0x67d7e6164a9662a; 0xcfe7447eea4e669; 0x7c40eeecf0734c67; 0x589b57478da4da59; 0x7cfda24c7da5c848; 0x36a68b5521fca6c3; 0xa31838657d4d621; 0x74289fc98b06b1fd; 0x458d27b9856ab1fc; 0x64e45a9d8cc94615; 0x1c39dc74991902d3; 0x1e9070acbd1ad374; 0x1bcb1a588bd2c104; 0x307c2056379d18fc; 0xc8c8a6342ae773c; 0x4f4f695d8eccd9b7; 0x7d5f4775dd137182; 0x222264300ca97f0; 0x4eb2eff39d278bc; 0x43fce92dabd01088; 0x1f0dc399cf95447d; 0x1a0099991fc7687a; 0x75a688bc3ec0ed7d; 0x77f9df285e893d58; 0x71fed73d19429c2f; 0x72077e1afe8f23b7; 0x3c4a5ea9a74ac591; 0x36f2db036417b7b3; 0x117b337d7a59ddff; 0x4a9605d1ba8a1f62; 0x58093efd0348584a; 0x48da24468bbcbd9a; 0x470d0102ab97057; 0x6da45d68f507cc87; 0x7a1e2ef179ebe75b; 0x148b28f39cf8d88f; 0x520c175c04b62b6f; 0x3e676d84fe6025f9; 0x131dfe0d139ff06e; 0x63a599d0a2af9f95; 0x392555f1eaa4c393; 0x542be43c6cbea55f; 0x3297f852e7aad65d; 0x271838da97543641; 0x7bf484b96084595; 0x566fc71c9bd7c5; 0x272a65b799b2bd9f; 0x9be38];
   [0x1d96408215c7459a; 0x22fb8d87a862a3c7; 0x4a9983fc7825ebc5; 0x7a99c1b5c8d19237; 0x2317b15e4218c468; 0x158fe5b9a7acb1cc; 0x78d6625e37ffe063; 0x535678871bc5ab82; 0x4f0da3bfe867f884; 0x6e3f7ff230b2f94a; 0x5fc5ab6b769b2cbd; 0x58bd5946e3df56ee; 0x4c717744e6ef7b8c; 0x3df505eea2c0ee0d; 0x3b6dc9340945ed5f; 0x2cdf6e782d3180ae; 0x1d4de5afbd4c5fb6; 0x8ab3992c2cc5f8d; 0x7477a4fc4e756e8; 0x61ec94e83a845377; 0x2bc0a424c4fce524; 0x70a16aa6101cbc5d; 0x4655d9bad567339d; 0x1b00a1ada77264fd; 0xbb47cc1f4f6c7a1; 0x22cec25dabffba93; 0x7a9047e6f58b44f0; 0x28889dfa2fe922a3; 0x17e36c7e60583d19; 0x66dff7ab088b99a3; 0x3b2ed09e07a6a72e; 0x1e21a13e0ae93a8e; 0x32c679b012f8f9d; 0x542a0ce6136c20f3; 0x287d8a43916f2b27; 0x77e3c36178d0d9a2; 0x10759b447c353182; 0x2fb2d9a6caaeffce; 0x4daec74b87880082; 0x60b8dcc03eeffc73; 0x35aefc472e93fef3; 0x23fc4d559411bd02; 0x43404fe54bfa7bad; 0x1257254b852d29b1; 0x1ced1b006be634c3; 0x487125f487a68ed9; 0x3598c2cfddca7911; 0x3c6d72a494e284b0; 0x10f1161c8d88671; 0x1cb15898c6b877e1; 0x4b8749e29d6276c; 0x1b0c0b84ad3ffefd; 0x67663cafa45c28b; 0x6e78617a7d95e2c6; 0x729e5044de3f94bb; 0x4284f2f5320371a7; 0x28c53496fe472129; 0x5b4e244a57bac0aa; 0x4b76fe660b810912; 0x1c74877f5309edda; 0x508840c225fd947; 0x33621447688e86b5; 0x2a1f2c2c548eee7b; 0x2c02fcd428ccb6f2; 0x3f1d1918e505e996; 0x1e557e512dcb882e; 0x2a6c74c076967099; 0x29f69e1248b736bf; 0x66526bcbac4a6acf; 0xa372dd610e30c50; 0xd0768ce8ddefbd9; 0x22882c9a55959668; 0x219c70ab4e721c40; 0x7b41bd755295b604; 0x6eae65dd541e1dbc; 0x19c80ba8fa19bb05; 0x740a573de3017e26; 0x4d3b3b6e22442f91; 0x364c1f4a4c54141e; 0x4761f1c2d20ffc99; 0x55132102efa55da9; 0x5d79a69ac7038812; 0x16311c2008c23774; 0x1c4b9a51a2851b20; 0x6e0fbeef96b54cff; 0x5f89bb359c039ae8; 0x2c65f69366436226; 0x24ef984da415faf3; 0x40a3f8ed50ccf3ca; 0x9cbb7e4c1765cb1; 0x6467d927280de2f9; 0x3faaad4f78d5e037; 0x61a333066860a175; 0x45e872f5961f83cf; 0x6e9397a6f15bb052; 0x6a0dfe7413981fb6; 0xa26577a91a4bd2b; 0x2f95a627f8ab33c8; 0x703ed29c3f6dcee1; 0xe5058e687bd2a76; 0x77140a73fb530ffc; 0x388da999dfee4806; 0xfd1415c8626088e; 0x6a5337446dc4bc00; 0x3094eb40e566aa2a; 0x38fc147ba11b3f3d; 0x468f3c1b378620cc; 0x54fe1bea29258ba2; 0xcab0b9ea3f9bf69; 0x751e017e560fbc63; 0x6c51b0e11dc32b45; 0x69c871f1af6c2218; 0x4432307c176e889b; 0x7505d0a15fac9b13; 0x4e13b59534c34d42; 0x18033b471d3b7461; 0x68b995a43046b3a6; 0x1a5ea322ebe09807; 0x6db90903299ff630; 0x3708d06f40b97bc2; 0x10795b67b7ae3400; 0x6552b0a3da8a7ded; 0x35b892100d4f58b1; 0x640cefbfbfa9f706; 0x28f8adc25b3008f7; 0x57b285ffdf36b927; 0x45f898c59464abf5; 0x7c6305ac52730397; 0x4580c781100caad7; 0x33db5b74ef6dcd59; 0x317848f0aac1a863; 0x76ad1806b40e31ac; 0x31e66d3a887d251e; 0x70552f6d1fbc0184; 0x178172e95ec2238c; 0x3f00a9acf362b386; 0x3cee3056e82c33fb; 0x53a78e8460145044; 0x1ea64da33b94e6df; 0x29735e008bd2aa41; 0x5f129201723a2662; 0x7cbacfcf072b1444; 0x7b1667bfc10297da; 0x437b267ef4dd0a8b; 0x7e0a1d74efa161cd; 0x476ddf1231f91848; 0x6953a4f4e2248e8f; 0x504cbcf3a67f4a88; 0xd0b76bfd222841; 0x6e0c08eca67c326c; 0x535d85ae0fc7a819; 0x3581a4dc9ecc8f45; 0x64b3d23a48279c71; 0x345be7914828614a; 0x23d47e7b169b2122; 0x50fb45cbbda01f33; 0x48cd82dcd0e44b; 0x238a3387f7100cfc; 0x2e0e239dcbdedb7b; 0x24edb580f838dced; 0x6be7b4f12da224c1; 0x5ef05fee1d5639a7; 0x44f42395f6bb7d25; 0x636565c78faac69c; 0xb0597c5a4c3200b; 0x45980f6612d3a46f; 0x6d8ac5d2e7203188; 0x333f9f89bb7c39de; 0x3b0cce9df033140c; 0x2c649d32c612f402; 0x33ff4d2f4500a51d; 0x3522da09273ab158; 0x6bfffa06361170c7; 0x463b0bb1c0533a9a; 0x72757e82c095daf5; 0x78ed1cd35e3dcfff; 0x17e099176374f198; 0x4840678d049ff2a1; 0xdd78e3100fdab61; 0x3b09bba0dc173cf7; 0x7cff9f234ecf6ee9; 0x36c43e313f66c2a4; 0x1a6da9a59984e4b9; 0x56ced427f22abcf; 0x4ae652d148a7f7a9; 0x14c6528e59fc1966; 0x3d454724b94c3596; 0x24519784a41b8edd; 0x946d6cb3a9bea31; 0x7913387e51e5e915; 0x6d9560de5684dbb9; 0x26e97c4982ce0f37; 0x597c9cd6a70fcb55; 0x615ee27225127459; 0x70526a86d260c869; 0x34d5ef45830f0b7a; 0x498e0e72a6875a8e; 0x50c8681c2fad7938; 0x67e55d84b4708ccc; 0x6b6c406a2de764c0; 0x5475adde9176063d; 0x52f36cfa6bbcdf7f; 0x68a8ece5b1cdf8ea; 0x22a36e248aa3b01b; 0x7e1c0ae235b66044; 0x304c73aab4aae53f; 0x37606ed9bba7ea89; 0xa564834c7f3583f; 0x5061661a92ae3a36; 0x4e410e049059c51a; 0x3d3667cb1f9543a7; 0x744168aae2a8745b; 0x3120b619eea611f8; 0x7a7fe599e2e09ed9; 0x2ec108eb0d551de2; 0x1573381849806199; 0x16c93afc73a349a4; 0x726b4d1919d68291; 0x2d3672ba9e46c48d; 0x7445b7d840ec7790; 0x619a87d689d616dc; 0x7b36af6087d9454c; 0x1dc4a6e15c50ba0e; 0x47582d7e3ccc57d1; 0x645f9c577ba67732; 0x7a8848322e93819f; 0x2da01f2f5d3d06ed; 0x1fb1c12a04637509; 0x26b60cd89619e6c1; 0x5964a2b657ebe2ea; 0x4c86fb7747dbafbc; 0x18cbadb157b48d39; 0x7f1c0612c0b4f55f; 0x6f3a771fbd1101fe; 0x66fa52c5e12bec96; 0x668f35fb4f20888d; 0x783ff476c7cfafc7; 0x1f2347fbc5d7c1cc; 0xf67d103b9f1209d; 0xa4ddac1f0d70c50; 0x51213c2c821a7b62; 0x52833cfe7f21933; 0x1033807488e5bcba; 0x954e392c021bbab; 0x5f4d6e57b785a595; 0x3139b5a321200ebe; 0x5b841e00fde150a4; 0x6adc5bd92777841b; 0x6ae8b0dd7d1cbe44; 0x49043f828caee203; 0x5bf90e8ae1308acd; 0x151707a14cd9d245; 0x1be8c2bd85cabf75; 0x1e6804263e725071; 0x64d290cfcf505aa6; 0x206dc7c12baf9b9e; 0x57d767319198ffd1; 0x6c764ab91e810175; 0x343708ade2bc2a55; 0x9080e8d2742cbdd; 0xe20c3751afbae10; 0x2b5edaf9c02e29e1; 0x2e4acb63bca8e607; 0x415b29d4ca8b057e; 0x390ccb5fe5b41491; 0x653f72cc8c9bc891; 0x394dddda9b6fda2c; 0x23d901eb633ee5cb; 0x392b19b23a14ea7; 0x33d3b234a531bac0; 0x61d87d6d08a6054e; 0x7cf20001c80e9618; 0x833d02f354ca6ae; 0x14fc0af6a0d28e9; 0x2e809bf73e16e1e8; 0x4fcf5f7d9f647f49; 0x6386fde9ea920d85; 0x4b659c577207bb01; 0x28a554d6b0b4ed1; 0x25398abd5d9dc562; 0x152595d63fa2376c; 0x47952e572e10fb93; 0x320430818cf77d6; 0x1944d83f528fb172; 0x1f2ce26b4f76cb38; 0x4a951ae8bc9f9fb5; 0x193d9f24d5ddcff6; 0x7567938c8b6e738b; 0x7cc6742b5cab161d; 0x31552b00bfd61c05; 0x3e6b06fd4471e9ae; 0x7fc8fe63bfd702a7; 0x1907928c54ea693d; 0x416285e66556d905; 0x4ee77d8272a4f917; 0x206a5b36619a06a9; 0x58bcc81ab3123515; 0x7c45054f249dd566; 0x52370b7f76af187b; 0x62a2941b3d03d8e; 0x7c5e32f48a233cab; 0x17a7934944acded8; 0x724065c348476529; 0x1c2d7c05d8ac3301; 0x5873b10b8f932c9c; 0x3b8f0a7623ebeee9; 0xd277b4d28c12cac; 0x2590aadbf3c941c2; 0x5d1426f5fdda731a; 0x2a88033b2efbaa5d; 0x73bac2d1bd22908d; 0x75cf9b89ff62c4a8; 0x4cfddf5213a9f925; 0x6556646a71af0c32; 0x646ed263a11b3a2b; 0x6cb1e81f75b9243c; 0x2a3f9f6a88ed4fd1; 0x3773d3];
   [0x3a1b60a8b1f4ff1b; 0x1b448986894ded50; 0x378a62fc1d593ec6; 0x7da957ec35d63814; 0x2b0e4863f1a19d3e; 0xe00eba6ba1a1e28; 0x4ada72086dc2da54; 0x9d0f63d00c5cf52; 0x7831014bc18de3d5; 0x78d19df00e3f3cad; 0x53b71db387661420; 0x4ed140fbbac8d1b2; 0x6333484294b8c3f4; 0x684816523ebda6d9; 0x5eba0e757e8062af; 0x54d8197217eb67f6; 0x67d8568b3d397767; 0x607e735b505998db; 0x619b7afba6d0c730; 0x1382dbe92888d20; 0x2c564e006bdc4404; 0x2ef1e260603fc75; 0x4b4872406203b015; 0x7e695612b0a00ae5; 0x2b8a6cb3f22d143d; 0x2c2cc02b58de794d; 0x4324cf5916b1544c; 0x4edfcf3264aaa5ae; 0x10deff8e0d357ed3; 0x4ac584e8eef5637e; 0x2a1bf0c3c37d548d; 0x76e459dcb77a5db5; 0x458c92e205fa4c2c; 0x3376d298a3b5709f; 0x780d56995a57d59; 0x671fa8f574f0214d; 0x6762afa49b44100a; 0x7d6e4cfd06ba1821; 0x44db886f23b3e111; 0x7b2077b5c9f92ca7; 0x606c029c8b90c854; 0x3610d78fcc550801; 0x73d6506c8cb2b47a; 0x63483d583560e83f; 0x24e2209bb960b41f; 0x2493165c100585e2; 0x23346b63431f897e; 0x779c442238bafe4c; 0x475d78ae68a4804; 0x708a887932f7d9c; 0x5337e7968ae080e3; 0x13851fbc6b834372; 0x948e63004469ea9; 0x2245dd1417fcb024; 0x644484b94167f8d8; 0x582a33f698162723; 0x1c6c7eda20548678; 0x4c3338f1ca919b60; 0x6f978cd2dcdf5af4; 0x3be69f02661e615e; 0x41d3cdb88f4c7b21; 0x55d57b3f3db7b0d1; 0x18fc94459c37a501; 0x1823ef3a13e784c5; 0x10f5435d9e0024e; 0x4b242d8548cfd77c; 0x7567c5d84da6962b; 0x1bc92d5405b802e4; 0x7b27b57fc6c3c943; 0x82d2c56f960d565; 0x7450871df49b12fb; 0x5cae0252325d937f; 0x32b4991316a7ce60; 0x618f1e8b1d2185d0; 0x19c7724abfaf9d14; 0x6b92bc9a4064ecdc; 0xac98dc56a8369e0; 0x40737d44865fac4d; 0x107500fe5b0db418; 0x233687413472f47f; 0x3d1489975cb659e7; 0x7ded9c4b46e97c06; 0x1a9beb738b5f48ec; 0x54e2a26f6070bd16; 0x1745aff78ecf0255; 0x35e865905eeff3f5; 0x3df25bc56b548a10; 0x22a909dd5d95182; 0x1b1d88e39487811f; 0x4ce8c2afedb0225; 0x103180e3169c51fb; 0x65bce38db2c56aed; 0x329fecda07e502c4; 0x37786befaa617b70; 0x2cbb438e225116a6; 0x40b1d485c905b8a3; 0x7847c36ec300614e; 0x1b87b527faa5e3ff; 0x5c58a71e304d8df0; 0x60e474bd1f36009d; 0x297532fc3ea48434; 0x4643d24e0e9351ed; 0x34860b28a0bbbb5c; 0x1856bdf938240ab7; 0x70721a607236b806; 0x711c8dc9cfed9f86; 0x7f3cc6dc48ebab7c; 0x788c8dd9d8ff8f5a; 0x1428abfa626be789; 0x6afb1520ced194b4; 0x54a204e6decfacbb; 0x75308612a7f2d0a; 0x3873fb116aac3545; 0x664c8966304f0d2b; 0x2c1244073617ae7a; 0x4a4372e998468d4e; 0x2cc12904bfcb5220; 0x1abecab0670e8cb8; 0x19d54d0dd78d6dbb; 0x34549c12686097f4; 0x38590566353904f7; 0x14f0e1f7062d12b2; 0x714032e0d55121bd; 0x1a46d73fad5ec96e; 0x6b6b9622d573e4fa; 0x191366f0f915435d; 0x43ff6651be9b74b8; 0x6c3852a7b8c64f52; 0x3dc7c7ad81199fef; 0x3f52645c1c2436d3; 0x19b43731645b8548; 0x635c874aa92a7218; 0x122eafffb2db6581; 0x3b884ede9ad303aa; 0x8182df8b4a4e213; 0xa3c18a703ce9922; 0xb5601d5fa5339d; 0x39608c636193ed09; 0xe04c1b43a6fcb25; 0x4ab751d1b3a12a79; 0xf9fec1bccfad7df; 0x22073ccccae6395e; 0x21759c14e7d60367; 0x6e4bce00848dfa0; 0x56a30dc17b5d5838; 0x2ec2df2c2d913d27; 0x1a36676ea19eb7c2; 0x6343ae12cba395c4; 0x23a3f267f8d8f065; 0x3d9eaecab5bcb3c; 0x3dcafe4a6e465c7a; 0x51b2afd1dd14c32a; 0x64d1903a18bf52f; 0x3121fd637bdd1a8c; 0xe5f5d03fc263b59; 0x2b7ff1e078ac4cfa; 0x63d1460b931380e5; 0x7d34017bad53fdb1; 0x47ed049cadcb439f; 0x6a4d6649ae7c3515; 0x6debd5734399fc6b; 0x3619ad727a1db94a; 0x6e8b19177fa720d1; 0x31d488ba8f3ae58f; 0x749d4906b7e889f; 0x2751d7463ced26d8; 0x3098680e167a51a2; 0x133bfc3e99241caa; 0x558337b309218865; 0xa514799a6f648e9; 0x29e235dd35dcff32; 0x49aa5e6d35c3177b; 0x4191707e63d04e7d; 0x54f550082b8055b3; 0x3c3a1ef198f0f3e5; 0x48726825da1bfd44; 0x374e3ae7e38b11a5; 0x1aa12121acca42cf; 0xb38f3c3d58886a; 0x54eba71cc71b6d1c; 0x1d113976330b852a; 0x4c8e496bbefe13a6; 0xa67bfeb64bcad3d; 0x3c06b6c10f1f1e9d; 0x21d3a0d6ddc0c2d1; 0x6f9a60eaed783955; 0x643ccc67a89a4bab; 0x46603cb8f62a016c; 0xb90cc0beb16bb35; 0x96541303912b19d; 0x5bafd01e74e58ff8; 0x2d1f932aef3bec4; 0xd7415f5b7d1bde3; 0x6abef4f771ffe05c; 0x128642505d3eb1ac; 0x47acaf4517ba7e0c; 0x4190d7cc14b728ed; 0x1ba46f0693d5c11d; 0x7e65e1bd5a9a9772; 0x3ea2d7cc2e8f5770; 0x30669d5a1fcc9a08; 0x4853c5be098a2917; 0x3bd94e28d3eeded; 0x3c7f1240aa9915a4; 0x7fee36d877d0e344; 0x165e7d29b26d2364; 0x157c9b625cf84981; 0x6bb45fb57eb2e4c8; 0x6224c5fb60828fab; 0x7e2012012fc52d8d; 0x5e26042b43e55bcd; 0x7a153a0639737d73; 0x2a72d46b21766038; 0x6c86403671ebe750; 0x2f8e795722e856c8; 0x53d2ae4174f3a12; 0x4ae2edaaaa26095a; 0x4c5698a496192c33; 0x764586d8240ce4e2; 0x4d6743879b69ee16; 0xe185c6105a84688; 0x3eea667c0de60b25; 0x32628c84a824a627; 0x4e5eec18f9018e05; 0x55f36deb017f7c33; 0x7925674277513a53; 0x3cc64efd4db9500e; 0x7d353b9796a5c063; 0x72a2bec5f3ed11f7; 0x3b0b91b2eb64c1ea; 0x784cd184a8aec9d7; 0x7f3ffce346bff61e; 0x7c0b4f454f9d6d80; 0x4a4529ac284949b2; 0x12ae35792abd9ad4; 0x4debafc724e4c3a4; 0xd6bb577160887ed; 0x25473c868a0057bf; 0x4e5d9b52381d622; 0x3a66cbf31227d38b; 0x3507a30b6b4563ba; 0x7c5c1e8ce52b0898; 0x35d8f07b79602b89; 0x77a9dc7c4cd91088; 0x7b93e6883b8a0b80; 0x20cdbebe12ab21a0; 0x7a69dc3cb398fd0c; 0x457632d4959be9d0; 0x1f062789200dbc22; 0x7e0f98b449306361; 0x2b9b9b15c0a41453; 0x235274a9c088488e; 0x573f0af83d7016ec; 0x4ddf9ffd092b24eb; 0x79888661cd34acdc; 0x300f5f195d41b467; 0x5ce983b772fe45a8; 0x40890ba4a40bb5ec; 0x4723381935584e83; 0x1b8edc85a1d84f13; 0x4eecf00204893a78; 0x319c6a41adedd0bb; 0x103dc69d1607cda5; 0x7219f0d4999d9fd6; 0x7125c3919944538b; 0x142d2bb614064097; 0x514c821bb06ba12b; 0x945da09b80c7588; 0x2ad592c6d93117a6; 0x65dfc3d6450dc569; 0x2c7ff7c8951610bc; 0x4f12845ba6ecb05b; 0x12a497a574c54b4b; 0x738ebdb5bc2a36ee; 0x6eeae5362ad7217e; 0x7e810a1cd330d072; 0x4082b5951bf95dc1; 0x1e865392cd289f4; 0x39600b4b6084c2e7; 0x1cbb042bfd33dab7; 0xc5496490f2d6b7b; 0x3b52cc2b54abf959; 0x1908cca43c39bec0; 0xfc8769c4b44bfa8; 0x2c31f6450eb0c80e; 0x4c2541afc1c563a4; 0x6679fd0198932959; 0x7d86d51ef63d6306; 0x3422e9ee00507802; 0x9ccb8d7d65705bd; 0x80629cc72a43b73; 0x5b1b4b0cbdc41f46; 0xa91b808ba0695a5; 0x9f70798ad6cf3d3; 0x3e57dc8757df0fb3; 0x508c6900b8aa845a; 0x77c8f356de5d247d; 0x22b2ec3e8afdb893; 0x52316143e35e65ac; 0x6e90e80aeac917b0; 0x2b903671f3383ea5; 0x59c4db708f3786cc; 0x2727ec8a176c4ba4; 0x65c8e5b61634c149; 0x1a0954ef2099825e; 0x6353034af1b800ae; 0x19a4acf076c7e46; 0x44080d0791a68a8e; 0x58db814ae824957f; 0x3ea25d8ea8f256c8; 0x7bb4f7e22c7f5e86; 0x30f7883e125590f4; 0x53c60c1d79dc8b03; 0x3918aa04ef1102ae; 0x59adc5a80f268d68; 0x7ba71f20e9842d77; 0x48e83236dbaa41ce; 0x353aa];
   [0x53aaaaccc63c6ac1; 0x67a197a28cc9398f; 0x5fa67a458cd246ba; 0x7d02c51cf6410852; 0x1acf23c36cc92f9c; 0x402042d5b2e6abbb; 0x22d2c8cca0e27bc7; 0x1d80dc5c937fe6dc; 0x574cb469a2bef9ad; 0x4340aea936b24feb; 0x7ec49b5bb30b2b2d; 0x146611196c3031a; 0x310bf9c4362607e9; 0xcaa2ccc534a459d; 0x6a4213b644faaf34; 0x7e48354d39d8be5c; 0x4c7cd2a204fac5d6; 0x371e1cbcf419d19a; 0x4ffbea29ae9e5de4; 0x7ce85b1c6d46f0ba; 0x6fdbf107f6ea0bb5; 0x646375e8017a6d02; 0x69cdd4c1f8edaba; 0x1728e823eb1b82f6; 0x45b55de85c7e0b34; 0x68456e3b1153feaf; 0x158231ccb8d17d1a; 0x7078a71ff77ec0ce; 0x738a9fde20a0746c; 0x3bac71138b5a74ad; 0x1d40a9da3822586e; 0x4384e3946ca4ad61; 0x240c3731b9a7713; 0x64aa1c4594aa6ae3; 0x7c9241083f1c5ccb; 0x5b8b6e76c7b0f673; 0x3001f6dd7c9fc0d; 0x27e06057d8e14ebc; 0x466d98b5fe67cc4; 0x4dbbefbd1ac5022b; 0x38be8e071b999581; 0x5170909ca6287791; 0x2bc60a05a385c9fd; 0xdb0b69a032e42c1; 0x1abcdaf614bf489e; 0x2184b25f5232b62e; 0x6ee4729374144501; 0x29485084fbbdfeb3; 0xbad4e0416668f4; 0x2e372f02d15b5ede; 0x54124af1fa7757e9; 0x7b166c9dd8133ff5; 0x2831f3af91ffcad0; 0x41cbec002f91dbdc; 0x2329b70052c2b094; 0x3de9d89df7d0b0d7; 0x1092f8ed2a0480bb; 0x2cabba87e079273b; 0x4f2a767155107ffa; 0x58ab248894b0c085; 0x76a6f2fc433b06c; 0x63aacc8e14d9cc3a; 0x67dc0bc6abf10c29; 0x35112586b3449223; 0x3d8535578cad166c; 0x334d25c383494dfd; 0x54499a7e9f23a7d3; 0xef4d6ef16fde56a; 0x52382a252eea1740; 0x76711e2211024420; 0x73b15195eaa81a8f; 0x265331093304a3c; 0x1fb22edc17fca976; 0x140637aa8f495b31; 0x5bd15dda3794e798; 0x4a5ff1e7afe7dd39; 0x25aa6457452056e8; 0x3e7651cf224925d9; 0x108e9b69e7d30349; 0x41f91ba93719fb2c; 0x4959028e536863e5; 0x43a6c667997cc007; 0x24ad2594391aa7f3; 0x70dac36953a25648; 0x499d9fbed834c7ac; 0x551144bc26d2a134; 0xefc712d92f05631; 0x6c24b115d476163f; 0x4ae7ed4cef15393c; 0x7b30ceacaf94af11; 0x13f7f31bf343239c; 0x4a22e9f100fe97f1; 0x43d6f146ca1a6310; 0x2ef21654dd0ee440; 0x6d7aaa422b2b38f8; 0x1ee256c62a7d2c25; 0x4afb9d7c4c179183; 0x4b881cf08ec5d369; 0xd99e261f7bf70f8; 0x3d81007e9a19e94c; 0x196ee6d55434de9f; 0x46a9161ffa0299a9; 0x15db041c6ea17e34; 0x3c325e30a883fa5f; 0x4b1eab5b5db856fe; 0xe5a95738a1f8fe4; 0x10a326a7d741bcf; 0x28201d9dfa14f3d9; 0x6be1f2201876c6cf; 0x3f7ab42ca00ab8d7; 0x76419ff04f6ea963; 0x736677c60859e1bd; 0x73d3b04e87e29935; 0x8994c4690f83e26; 0x17909ce2ad901a42; 0x7df7e71b29b37049; 0x57767d749d46e94b; 0x3e76f2e70caa7042; 0x10c3fd5cd4614b9f; 0x5f05586c3b487059; 0x302c8f0d8fd601ff; 0x5c60571f0ab09f42; 0x6961b62ca7240ace; 0x48666db754c286a0; 0x5583bdb34f449c8; 0x25348b6fb6ce0862; 0x36acfa8761149f28; 0x49ff6912e6a41530; 0x7b1035d9d534c7bd; 0x16f48743dfae97a1; 0x30354f113c1e44a2; 0x274b46afd88cae84; 0x2a03787ad2d27fca; 0x1225bc9c3f1a8c68; 0xc02c5868393a033; 0x35f5375270c71468; 0x6246ce957544159f; 0x216eeb8c8fb3a650; 0x7a93fb5aebc24d14; 0x32f8f34a694e6dcf; 0x35524278feeacf48; 0x5538a40386521d2c; 0x15556a58114ee9c1; 0x45cb9732b42f0d6f; 0x535cc56a789a4af1; 0x2bd192d5317d4f57; 0x61a1f335464a6a2; 0x54f6e392c1124af; 0x4db2e4ac0889dcb8; 0x4671b343fc6179a6; 0x7cad015acf131d69; 0x789428d6269a6c36; 0x532b984179ce1f02; 0x39bcefdae2cde9e5; 0x7cf4da4de346fd85; 0x5a10d3c059d70a7e; 0x18ef194687c38b6f; 0x911e7441db8639; 0x15ca1828c88570fd; 0x17b416c2a525e99c; 0x66f8fad98aaf4bce; 0x17fefed3f12b3a3c; 0x6a4d5e345069fe45; 0x59ff091425a3e258; 0x329d3545239d2904; 0x22f62a0a5628cd89; 0x7da76419345e6a41; 0x2c2ba48d3558a434; 0x23bbe6bff5ad8163; 0x14c0d8edc02ed3e8; 0x171a1dbca4390900; 0x1bee86f1bb4beac; 0x1d18c0e7d2b09505; 0x7b59b650c8dfffe3; 0x57b5e9ab1557ee20; 0x3d6657bd2b2e24ff; 0x475183218f858dd8; 0x3bc00c5c99d1b4e0; 0x5304b6cc1f77c1d7; 0x64bfb34e969a2c96; 0x7d1804bf52bf1275; 0x5c68d865b208fa7d; 0x150105c86798d642; 0x2fc7469c9ca709d8; 0x7aaf9ba7d2d7d7e7; 0x37b9d811871b709; 0x68fbc112ae6fb537; 0x6d33b1b4119070c5; 0x5c1170f81fe43969; 0x7bac41584e5369b5; 0x2f3a7694b9710b62; 0x356436b5f592da4c; 0x689bf3e22c2c239c; 0x356e7588086c10e2; 0x1f279acc30e9322b; 0x30ab2e21d094945d; 0x167bfa3675fd128f; 0x11326b89658ebe9a; 0x6922d8bbef09b4a7; 0x7f709cf12e5634d0; 0x4690b8263911be17; 0x749b31ba73325235; 0x11646646522eed11; 0x4b82905cc487dabd; 0x5669e51e6097e2a4; 0x36912cc98ccf9324; 0x363620e486a4ac50; 0x75ae327010bdedee; 0x50a8e53c8882a08; 0x2b71106b9290644; 0x2a01a50206cbd1ec; 0x11e5279ec9a8a908; 0x7f1fc85f3641b3cd; 0x502da307f0b3ed9e; 0x2862fd68bc422994; 0x59dd832afa11bbbd; 0x6cf26999ee7c731a; 0x6cb3e8fc65bb388b; 0x845e9dcce47e5de; 0x8fa7e281f33c66a; 0x3316fe84776c3ee1; 0x15b62adc6b045a1b; 0x74d8d21590ce8ee2; 0x159bc17104ce2439; 0x1d062b7f6e985207; 0x1b01423551189eeb; 0x19429cb79e358072; 0x6b8945c1980e80a4; 0x70ed067d6bb4bf23; 0x1cc7db3998011b2b; 0x53795e7747c765d9; 0x57673d88e8f97320; 0x67d6ac3f8f74d678; 0x559b65182bd9a90; 0x313a0255c564af41; 0x73a6d67dab62e7ec; 0x1ee3534964245c9f; 0x72ee9392905acb46; 0x45b2400956b51a1c; 0x49a48fe613862c62; 0x122532fc00c6de70; 0x1b6170a93173d29; 0x3d71a84696672726; 0x3072bab122530665; 0x37f77cd0f5ac4647; 0x15f076f4ce49c646; 0x2efe4f45e4f127b2; 0x5ee49d60d4c49344; 0x3a767a5cc24b94b4; 0x48ad886809830931; 0x46f9624a03411c15; 0x56f90c3c4ab5517a; 0x23206577cefa1312; 0x441662dd51ffe0fa; 0x1d4d40760f27f059; 0x55f5cbf153825ede; 0x1e4aa68c51e84cb; 0x35ee1d374186f1bf; 0x7357abd91b883de3; 0x22f9867b2598fa60; 0x1befa2045c9323b5; 0x2d70175c04b09bc7; 0xe928f9540620090; 0x6ab0b05a280a3f8b; 0x317c2b42c3cc833b; 0x534def58dbde097a; 0x3a0c73e6c0b2c8fe; 0x3bb877e09131aa97; 0x76fdbbf8761f9606; 0x627998973bc694cc; 0x51205bc05e255536; 0x5c6df174dfd3ee63; 0x752d05cd3e8c95a3; 0x6db162b1ca9af974; 0x5cb23c7e2575b80c; 0x1c712dc1cbb27122; 0x841766c67657f9a; 0x707d3e170ebfc4da; 0x3934d7a5ee835e0; 0x196a6c5332fe1bd6; 0x18796d53f6a2c178; 0x5a5a448cad630d77; 0xf875d3c9f2d5098; 0x6f26dbace963c033; 0x43440e3523b8363b; 0x124946971f3c2d71; 0x4f6692073a983ff5; 0x64e9e872f325e55e; 0x6cac525361f537d8; 0x4516950bfa0a5874; 0x777d96b57610284b; 0x1d77315fc05a77e2; 0xaf943ce1e3c0726; 0x15e243bdb10127c6; 0x6700dd1b7a1d6145; 0x15a7376a81f5d339; 0x19f19564b5a6123; 0x58992271a5887c2; 0x2da2af14865ad89f; 0x700415166f9093ad; 0x4f25c6559e4aacdb; 0x66337e5f297040ea; 0x1c3b7a6060367683; 0x2263c37e844b7426; 0x2cd67a19da106550; 0x60604802184aa2c1; 0x65e48daed33b0183; 0x136b627b68aa7d01; 0x7069f7bad82f34b4; 0x46b9ce7320aa3c61; 0x2cf22f9c8caaa0ee; 0x3f4a5499b7482302; 0x3f8328b3709e38f0; 0x6bf8c60e4c8440fc; 0x23cf9784636c9241; 0x1c54cfcfbcda36b4; 0x7f2b6d5c5d3b90f2; 0x1aa390];
   [0x11ea491ec0599917; 0x19464b70985d520a; 0x3aebefa2ef9b0e42; 0x2508b16cdbbb8bc6; 0x4ec0c134791ca0ee; 0x6eb38dc2cb370fbd; 0x119b493f563067cb; 0x652b24b4a8ace0f0; 0x1e1f9f8bba6e9e45; 0x3684c9df27cd15; 0x62dfec59e5a6cb0; 0x560555a8d810b940; 0x4feb3545a86b17f6; 0x34825556ddc593fc; 0x18ea04790ba19393; 0x798f9129b519fe88; 0x11c0d5545c9f8b58; 0x195ca3e3168040bc; 0x63d035911dc6e4d9; 0x175c90231a3ac569; 0x6daa2a138027b0b; 0x6dfea538af504fc0; 0x5302b146fba8e5d4; 0x63368252f49a68f0; 0x4e6adbf8d99461e8; 0x5208ca46c69e2c2; 0x6a90d3e3ac7b7fc; 0x6868cdbefa533915; 0x54d1babac10066d7; 0x6057210320cc6c1d; 0x5d05ff873b437b26; 0x69090af015e60647; 0xae5364059d2eae5; 0x39c8165b87e07e72; 0x27b835b28b57095c; 0x79c40ec8c365144a; 0x96ea23f6362e7bc; 0x329a590e51356575; 0x4ef8d0636452f96e; 0x2f268b69a4d6e9cc; 0x2caa5cef93ea26ba; 0x1dfae5a0949d00dd; 0x5f864718c04cd2f7; 0x7ec36d123c8f2117; 0x40afd3db05ca9950; 0x31855882b02a59cd; 0x12368387edf134b; 0x368fd3fa07c253d9; 0x1641103bbebf0a4e; 0x7130132b2db052c2; 0x6e362ef68493d6be; 0x3dc42bd2ad79f765; 0xebb0e220f249f60; 0x439f5ea6d7d87b7f; 0x7164cc7a92b62ad3; 0x6f79566803d22e64; 0x542d544dd2b15ce; 0x2bae3432ae8d5cd4; 0x42ffda23dab8a88e; 0x2f3ec22f533b065; 0x463a94fe3a450923; 0x3bd51e7bad76c042; 0x5c54939e9d4e2c92; 0x2864cf15c2a0d74; 0x1a472d914a5acab6; 0x517f6b2f6c5f55c8; 0x5fc13bbc08fd6301; 0x48c622a9a3ef46a3; 0x6d807c64f2a6f85; 0x3c427b79e4e6fc9e; 0x6c81c2205dafa878; 0x620fc9b514678d04; 0x30665973425df95b; 0x32ff703ad95b7b5a; 0x314a1dad824851f1; 0x20916e434dc8e0ff; 0x74b2319a3cb14855; 0x413207c38a37218; 0x6fdba55d0ca9f00e; 0x50e7f63b00bae698; 0x79168397d6eb9547; 0x411be962dcbdf56c; 0x601b7066bb0b2f98; 0x67149a5d32ebe0f7; 0x69ab549c913dc4bf; 0x3d05ac4907da05f0; 0xc3021b40012942f; 0x6cf06e9b9b163adf; 0x7ec675d2e728bb4c; 0x3a85f5ecc6915a40; 0x76d395c883d7f651; 0x7aa29995bba6deec; 0x37b6ac2ae54632b; 0x4096b8d45c08e8d0; 0x2a16bae95c1cc026; 0x3eeea0c1b1a33ec5; 0x73b0958e16057f59; 0x60336b469ce8516b; 0x2a178ee4543ba902; 0x19acfae2d6391004; 0x6de789a2663ddd6a; 0x1987638bf0f7ef67; 0x477b2a66e6f67e4c; 0x768286dca95bd540; 0x29589118b3f60f8d; 0x28f14ecb620b1e06; 0x467ef2d35cbab091; 0x29a9873d9674a3dd; 0x17947618c0cf5790; 0x6701768b7c6eff48; 0x3cf7b4cfd249a3e8; 0x4b1bfdd957c54533; 0x66cd78ddf90c9d52; 0x3daa445742c67991; 0x18b6c3473929dc08; 0xcffc0ba44f7260e; 0x6213c9eea271ba24; 0x18a80980e0b72843; 0x701ee5ab55b1316e; 0x41c490fbcc59a15c; 0x44336d95938d150d; 0x4496c3d2e4e5a292; 0x2923e5dd02b38631; 0x169a8175fbb82f8b; 0x426c3deca986e4a6; 0x4465bb6a142da1be; 0x7d76d0bd1e295172; 0x38f77ca085b80214; 0x3135b208f00293de; 0x6c5cb4df40d6f4f3; 0x48a048f8d2af0b74; 0x35237404c54da2d7; 0x740cda588a1e1767; 0x4ba5ef5a926fe4; 0x5896a0e38bdb8180; 0x6fdb55542507fee0; 0x475e35994d2dd773; 0x1fd6ce56edb74aa9; 0x64234235f7e6bd4b; 0x7325915b809d542b; 0x10958e9c3940d43e; 0x751f513e556a3f10; 0x292433b8b82c6c25; 0x14b0d3775e1ca37b; 0x2eab63cd901d9ede; 0x456c49fca0ccd67c; 0x64d519450236df6b; 0x1b6deced3bfce040; 0x55308dbc067f1817; 0x2453e0e44584337f; 0x52a90e75a4cb7940; 0x7329767ecd4465eb; 0x1478a8414ec2803b; 0xfb9d2e9e014c50; 0x61045a57c1b3cfd9; 0x60be3e2185e8a2d5; 0x253501501385bf04; 0x14f62eee0346234d; 0x5252b9f1c8b82011; 0xd2f7dd64584f78a; 0x5fad4af9723e85f6; 0x4e35b423db5cdbf; 0x4f6dc4359833fcc7; 0x7b9f717427a92d3; 0x1a93012f8ee54844; 0x42b9043acbabf1fe; 0x1f33d5743519a2d9; 0x5215a4dd7fe09eb3; 0x78b7a736b4d6dc11; 0x793528870bbc02db; 0x21b9fcece02111d6; 0x1110c4927573276b; 0x2984e282e4dbcf98; 0x3566690b58a63363; 0x3d116be4474dd74d; 0x531b8c9a7693a2e4; 0x5b68b823d59310c1; 0x837734c6e6dc180; 0x4da7e2cc186f7f8c; 0x7c071bae6ae7150d; 0x1bd6a83ceeb0700d; 0x5302adc148ef8738; 0x3ed4475bd526adfa; 0x49d96664648e5f78; 0x1f9132e903783209; 0xea66194a54afd63; 0x79e2e3afcfaf9d7a; 0x3745facffb58dbca; 0x6c68eadc1c6512db; 0x13b5e60117a6c10f; 0x150ff124bc80fdb6; 0x7072604f43c3c4c6; 0x79a4e14187dc6b2d; 0x8e7d16295df67db; 0x7e9c6ac02e1fb6bd; 0x6e3805534af89729; 0x1d58464fd73bb354; 0x114640db4e9a716c; 0x3ec66ccfdcbecd99; 0x5ce0167f4c463a48; 0x2eaf9138f14a4900; 0x55fc5b0b95be5e0; 0x2251cbcb13e73a5c; 0x2ebc39784ae6aa42; 0x1287c7fe895188c3; 0x1f6d9010a8f3af9a; 0x3a5c6f041d72e1af; 0x668037243e3d7f05; 0x1cea7cfd1ac98fef; 0x570b49353781290e; 0x79b32d344d73f79d; 0x5b271b43f28d7740; 0x2ea29ac904531e25; 0x4f270d94b5afa8c4; 0x596a1d8752f04fdd; 0x6abe82766e005c27; 0x3d465ad965c3c4e4; 0x3ec061678dd7a2fb; 0x5760b71430feec9; 0x1b7877504809d9af; 0x56e67d15fa14a90c; 0x732c0d23fdb2d553; 0x66406b741b754b5c; 0x28280a78a9c4bd1; 0x1b2bc3df5fba34a; 0x29f595144ebead4e; 0x755635ab045a5e69; 0x331873e0c5f491b4; 0x43470a1d349ffc79; 0x4743afefc81d389f; 0x4a61a6fdddb5f386; 0x961335b105c7627; 0x3e1a5585e673f589; 0x2f9bce019a9548ee; 0x3cb8ebc732b6102d; 0x34719cee56b0baab; 0x236939bd225b8ea3; 0x2adfb28eb8b3fcc0; 0x1b20435dca7cdbf5; 0x650367b671eee603; 0x64bbb6373664c256; 0x2ae1fa0a610f2113; 0x6ee9c5d519faa1b9; 0x65cc0fc7f24aa639; 0x37e0239a20f47a7a; 0x1af8c8bd57e0d084; 0x19d33aa3f6b57cfd; 0x3af8296ed5a6bc01; 0x5f7f65d94a3caf5; 0x4ea889ce8b2b7da6; 0x63294e4b9979005a; 0x134e1da8ed588b3d; 0x1126f73e3ed90f69; 0x62fa3c84d759db3a; 0x12cba92a7a0a763d; 0x5d437eac04de5566; 0x3f89c365ca2ad2ac; 0x70687f5dd8fdb2f8; 0x746153845338fe3e; 0x23bc9195b4441406; 0x2f6cad89e95b9cf0; 0x2c26460b0d446198; 0x623b92a8b67a552d; 0x16df983d68c70dd8; 0x77cb0c4aa6b61114; 0x3a103ebdddd96bf3; 0xe5e57bec51eacd4; 0x21578ea1280ec022; 0x74f9892d36cddf9f; 0x50840a8e492a1442; 0x4a871651e3f20687; 0x44d8c70cdd2c19e5; 0x31e345e9b6ccea01; 0x568241c3a3ee15e7; 0x6f401716a4d810f5; 0x40102c384b6ce3de; 0x6db6c28abb4e1b5; 0x758440a675d58760; 0x259515d28dac751f; 0x1bf1d9af489ff289; 0x523c9f1aff3724ca; 0x14db8b5bb74f998e; 0x3647c8144cfd0c18; 0xea9a999ead6070d; 0x1c400fd91cdc9259; 0x43bfb8f1e68f7f7; 0x587da4990191cff9; 0x496ef0e4cd69b744; 0x3a152335be6b4ec3; 0x13a127cb923417e0; 0x4a439e6cf4c40b56; 0x3ad702fd852f6652; 0x5f89306aec1cf2ec; 0x277d239ad1322c65; 0x416a71dab967ae7; 0x62acf310ce6368db; 0xdbbd42ffd22d2f6; 0x49ec40ef55470695; 0x584026f325fd8ec3; 0xad6653d133976af; 0x7beb0f05b57f55e7; 0x4bf799750b15c784; 0x1931629968389394; 0xf5cf86f74640e96; 0x6fc9c196f49f25c5; 0x1488872339d9b09; 0x4ec7503fbfd2cc23; 0xa51cfabb0f667dc; 0x33b813b762215b9b; 0x79cda93bdb8de821; 0x36e38bf078c2b79c; 0x593d1b1d12fcd945; 0x325d8e75cb6a494b; 0x149236680537342e; 0x2d0208a6cb9c81b4; 0x681f2117762d2f81; 0x4e65df2a7e091d60; 0x1f0167];
   [0xfb32d55ed93c511; 0x34663d5008f7c9b9; 0x7a8e4f3386910f39; 0x431b6dc74ac97229; 0x2eec27bfa3a8c9b1; 0x67f054042a284e8a; 0x54138350e124a453; 0x279dcdcbdba3e152; 0x737160cae6b1661b; 0x2c6c20e6e44db751; 0x8706d676ac0824a; 0x721d18cb1768cd7e; 0xb045fd187e04d16; 0x661b4056a8ac532c; 0x38df69edbbe09cf4; 0xe9b6133fee9e002; 0xe5acf1f9270977e; 0x653aa201b7cf4691; 0x2a85377041d4cd7c; 0x21f5c51610690671; 0x5ae9d3ff5b8d11a9; 0x630c503a4165a431; 0xb0dcfee48cfd1e1; 0x7b842a876390369f; 0x1bff91c1e82a5af8; 0x2905502d5415767b; 0x49b9a5f2907729df; 0x6289a778c9633090; 0x140359200d99d907; 0x3efddef243584e0f; 0x1426f4f7886e2b7e; 0x1b293f0b8d24f0dd; 0x3c8d5f942ca9989c; 0x41b81bae5e15fdfc; 0x547e29498cd1a9b2; 0x26bcd3eceb3fe07b; 0x6d67de6eb5f16603; 0x86e9f9404a5da17; 0x2ba421a0aea847e6; 0x2830ba57160518d4; 0x3e6767db20547ad7; 0x37fc987585e6272f; 0x6c1c4017c04b6c5c; 0x19a364eae352f3e9; 0x31b4c4347fa2f0f3; 0x2680384649a83cb4; 0x6265ed5595b6b0d7; 0x55fd35a8f2eff45e; 0x7115b7e5a7b08adc; 0x595fff15af97e803; 0x13b7b19d9d9bf6e8; 0x7c51a2dffb8b5724; 0x4b720e81b817cc78; 0x37b2131ff8e12b47; 0x5b884878d75f0623; 0x1e25fd5d23816280; 0x77dae8334ab23ee9; 0x686f4a1897730823; 0xbcdd6c36c528e0f; 0x54f12481227d2922; 0x5aa4b2c9574d0dc0; 0x3921f40e538b8c2f; 0x72e07c818ccef573; 0x413c8c66b1e824c7; 0x3bc3bdd42abfba27; 0x40d4adc93a855fe9; 0x657472a226fede21; 0x669facf26b9084c2; 0x32082f755d3f2fe2; 0x2be190e0386c19f; 0x352a1b195aa44be2; 0x783ae08d33e5e907; 0x73d00a4a0ffcd435; 0x23d9e1cd43d18253; 0x76647e538fd6626; 0x7a82785c37cac4ef; 0x8009f2cb932431; 0x3ec356f72d085e2b; 0x1e6a19901047bd56; 0x6aa081147cb1f6bd; 0x78cacdc57d7696f2; 0x4638fb32d4c5b2a3; 0x13d4f0b2604bfe7e; 0xe2d05aeb341af55; 0x263a483f85a4b959; 0x7acdd94117d64bee; 0x2647624961c5fddc; 0x58a2cac771e46f78; 0x7a1306f94e322ebc; 0x199d21e3efcdd7ec; 0x27c9ba9ab8ce9faf; 0x7414f6e75c45619d; 0x58608023eaf8f515; 0x4adbfe7e4c695c3e; 0x1f2b24b7f9c9df1c; 0x5b8fdf56735ad318; 0x14dd3dcbe4ce9cac; 0x1f22b9f611013b2b; 0x79934ff41963f71c; 0x562d4940fc8600e1; 0x6ace157a62112253; 0x4fc6d332c2d0f852; 0x5e4cf9c7b7a9fc50; 0x792b15b933ec8c7e; 0x435258fa86d9697; 0xee21710db407b54; 0x583bf1ba46bbad21; 0x4bb3ea75f780acb8; 0x618733802c947b60; 0x5cfb13da85f1d736; 0x2a35bbd21c0c19c4; 0x2ceac168bd28a88c; 0x2abc52c91d22e320; 0x7e859d1255207195; 0x3b158249e9ab3545; 0x5e189169decb8466; 0x573b2c6827e0efd1; 0x69b6a2f21d02b786; 0x4a310f7dcd0f52d7; 0x481ffa4f456cacae; 0x2584a703122efa8d; 0x3816fd14e8ba5f42; 0x415a4c1c9f135809; 0x3138262f3261dd67; 0x390b36ba4d0f19df; 0x546b97fcfa931f20; 0x2af3951b88bb7036; 0x34a488c78d755b0d; 0x4f53767526b2adc4; 0x7ed1663b2255e1fb; 0x500521dce2dd2754; 0x6ebc53e0812e84a7; 0x156648c00ecb780b; 0x40655e9834098d46; 0x35a43f8a4bda5dbb; 0x2acee038f32555c5; 0x65c907d36853bf30; 0x2238c10e6e0c7193; 0x6c9487b4986dac73; 0x183d59db61909d92; 0x153b82e0a4176fad; 0x4b764a9ef4786c1d; 0x44810541991969f; 0x291fdc53970d9cc1; 0x555443ac0f7eb51b; 0x95b3a1e19b2ceea; 0x3aac5b7428b8bd08; 0x4a3d715de273c8b; 0xd49aaa69a39801; 0x17934beafb4f089d; 0x21c71bd6e662c8c5; 0x2241bbf2b955426f; 0x24efcc419dd0d2e7; 0x6169202d8cef914d; 0x3978fc9ce64c571; 0x7bbaf3b64d5fcbba; 0x78b6d362a9209daf; 0x7ed2eb61fc247a66; 0xaa11382705e7e5b; 0x775263accff36497; 0x38c7e3785ac83931; 0x631e0efac128ca39; 0x4eb9d701dfe1929a; 0x773a5699cb3c85cf; 0x53fc6e1f338627bf; 0x5fabc16b0494a3a0; 0x47bd8551b42c5008; 0x1aa1f2013cce579b; 0x1f19989bea806e87; 0x54f294bf2eaccb87; 0x4c4e72b48bc9a4f5; 0x71a2b6959154bf3c; 0x6f2519924a4e4265; 0x16b3fce4bab7db39; 0x7e7f52c3c829a1d2; 0x4b8644dc96077a84; 0x39045e41b95d475a; 0x3527d522b2792e3f; 0x3024bc13c2bae51f; 0x1780a5b2500707a7; 0x56e218dfcdd0312e; 0x414eeafb2c13acc4; 0x516aa7531eb0ed56; 0x71845db96ec100f8; 0x283afc33fcc1f06c; 0x92d0f549c8a20be; 0x2f4fd1ab99254f96; 0x5af085995b424558; 0x2e2a02b554656a01; 0x32d7cfccfb5e749d; 0x590be247945cd049; 0x5719373e494a6028; 0x21ae00f46c3143e0; 0x451f2f358d61bbe3; 0x1643757701e010ca; 0x1725b115472f8565; 0x304725f0aa823388; 0xf8c0919f5282289; 0x5afd8d44d092e1ea; 0x6647318057ae92f2; 0x65e8eb28039f6657; 0x508087dfb4979990; 0xaac5b326f5cbe8; 0x34ca44a2e0f62143; 0x3eb62e2e84a6d046; 0x602642d87d5187d4; 0x5c7d8b748d319745; 0x6e294f61b0ab445; 0x67893d1d0e00a0a1; 0x3f0dd257b271c61c; 0x7c788522206433f2; 0x71b6dda5a26792d3; 0x156752110d74de49; 0x5e9a4540bc0de4d6; 0x3d6d879ae39e9057; 0x1ee18644302627c6; 0x3a1727c8d6519d69; 0x6c38c23ad97f7357; 0x279775c9761b87f8; 0x1ad39ce0ed6def4d; 0x79f452acd952e479; 0x4e0130df472fe242; 0x3989f8361d6b3358; 0x262680ba158226cc; 0x47aa0bc5029c298a; 0x1456f28f8d519cd7; 0x6786d5f25cfabba4; 0x3a595b48b75f6068; 0xd6286f61ee1648c; 0x7c8af60304394118; 0x10ccdb85e3ec49b; 0x5b9da324902da832; 0x53ca651db88d8367; 0x39db67c9875d559a; 0x6eccbc9e9e4163e0; 0x7ac51ce6fa0f2848; 0x7a86e14b516bbb4f; 0x5c592b0ea506e273; 0x6dcad4de6350ff05; 0x6336814d9064fc25; 0x500fac841c50fd; 0x40eaf02fd03a758e; 0x2b6d37975b5099e8; 0xab76c05d6472b68; 0x34b226619add5ecb; 0x690e8da1971ee2d8; 0x55e2d205ddbfd432; 0x7186f0c93eccecd0; 0x698473a12a132030; 0x4cfca1d094d0aa3a; 0x587ca7e406409815; 0x72796ca3b74846cd; 0x4e1d58acc19ec537; 0x34961be7fa19f2de; 0xab88f7888713ea6; 0x3139446698525364; 0x6cfab03d78c166c1; 0x5ecebf63f71e2394; 0x3c734120f6c51a2e; 0x70b7f6863334e4f7; 0x4afafc12717754d5; 0x3e29e7403240f521; 0x4f9c952793eb7c8f; 0x509cc8bb0d4bc232; 0x41f733355decb867; 0x53fe5c1121084a; 0x62fae144b0cf12c1; 0x4e498c7cba24700b; 0x37cbd8a8fac4fe5; 0x915e53b45d7a299; 0x13f99f925b7a7a0d; 0x53a02c97978081b0; 0x2418aaed49733456; 0x632de5584c029977; 0x63afd11c1606a497; 0x21a6d1453f4a0bc8; 0x5394948482d17557; 0x4d40bbc5e7f07ed4; 0x1bd5611c4cdc0832; 0x16e04afd41a1a048; 0x1557a6c813d78e14; 0x27aea1a315aeaad0; 0x4a47ca6c6aae860d; 0x5b78799b4572e836; 0x33a2cc32029bfc01; 0x46733d2c13e26472; 0x76fad0ff7b762061; 0x3fe78bd7899d7a89; 0x11fec8f1ba0f2664; 0x7496961e4119e14c; 0x2e6d39d5159d9a5; 0x58ff242e28f2b471; 0x7cbfd331010eace6; 0x332c33935ae43896; 0x28d78ee352a65ee5; 0x162715671b989110; 0x6399751bb556712; 0x7eebd8ae63a1397; 0x177eab4c779837c; 0x7d997d9065d398c1; 0x6f5d4255140a354a; 0x1378e96d16efe395; 0x370158709ff8acc; 0x1ab5c10da9f8f424; 0x6e41130c713ace06; 0x2ca9fbcc6c0ed6ea; 0x1e2b724b4e509f11; 0x27451aaa51c24fe0; 0x549bdff00cd9ddb4; 0x217099b30b0cc7e; 0x345590da21a5a668; 0x752bae08819a5620; 0x32e99363e23e1e51; 0x73a883f89a413820; 0x792c5a55bca97693; 0x1a9ca070338686cc; 0x2ecad37a0e398c75; 0x36c516];
   [0x200ec87998e0bffe; 0x4d2326ab292339b4; 0x65e2ededfbe76467; 0x77ab7ff68698b95f; 0x332b0328cb40a026; 0x4e3b724a4b194833; 0x68f62b54673b0527; 0xf1feec0c6b7d783; 0x631a79ac021f2641; 0x724ecd827374d94c; 0xf33a04d3858e336; 0x683d707868e6f3ed; 0x70e8ff43e924e6d1; 0x518b0ab3638a03ad; 0x7177b03d416623e4; 0x5d647d9fa0e54c22; 0x762dbf32d5c67298; 0x138b8851a367944d; 0x64c68a001e076f5f; 0x44eb26cd0f457002; 0x1af601bd08f1f428; 0x2c79445246fb3bdf; 0x1061df8b63a8dc46; 0x14a4fe15df7f6b29; 0x12890b3948e19fe9; 0x7f446f798f2ddccc; 0x568624789f8c07e9; 0x748de4923d3d5ee; 0x7faa6f0b8e8902; 0x349247c2fa1e2234; 0x46470b33e7bc97f7; 0x5db964fce35f8a81; 0x6e22afd4a605bc63; 0x34a43bad6b2b1107; 0x3e970a001310561d; 0x12ef4f222d902969; 0x401998ff5a2a67aa; 0x4a0f619ed01c685b; 0x23ba0b20545983bd; 0x31c9bb8108c7dbc9; 0x7fc83eb1bfe798d; 0x56dc732cc23f88f1; 0x106a6c3120d0a3af; 0x27b9dc8080b02b3; 0x66915d6a379073bb; 0x4db9b1210f5966f8; 0x20e8259f7b566bc8; 0x76c5b457716580ca; 0x43a2486692bfb601; 0x62df11fe8d00b0b5; 0x6bcf3d53aaaa1093; 0x465685705a074024; 0xedd70ee9eb17dc4; 0x1b596bf251b61e87; 0x2bb3b2edf8a1b38a; 0x2b957de03108af0; 0x444274d66e5020e5; 0x6bb186d4bf099d5; 0x7d9ff6b23da4c06c; 0x72d387236a8b3758; 0x589b38408286e79; 0x30770aa53879b77e; 0x1f5c0b9cbedc83f6; 0x3115d52a4367cded; 0x25691412eeebf110; 0x46f51e6e8bf393ef; 0x447e5525c8daa337; 0x5fbad14dd3d6b74f; 0x1e9def7fb85c36bd; 0x222b4c6f494f7f43; 0x467192639673aaf8; 0x5a334d4d93043323; 0x741aaf270bdc31c3; 0x299816b875d6da7; 0x5e34b13bb360ffa7; 0x24201165618592fc; 0x48cacd8bd982446a; 0x4091fadbdc2f7ff4; 0x38f1f0aa3b138b1e; 0x44c303b9c1b27390; 0x3323743706f7aa77; 0x71789b7b0ddf6d1c; 0x1742770efd90a499; 0x70db9b7d9a548a8b; 0x1c9a36ca65bd7d48; 0x4be1edb7714b68f2; 0x7b3e33a2742d5b57; 0x785eab288c9d2f09; 0x5aae8a865f43388f; 0x345bbc48d99d8495; 0x1d53f5c8095aa5d8; 0xc69340561ae918b; 0x3337340f41ea82cd; 0x3f76901acecbc0c6; 0x2670fba081fb215; 0x50b3f68ac0906941; 0x5f11f710f4d2bdb7; 0x7fd4185af059d6df; 0x1a1d717fa2f5eabd; 0x49e523da89d3d8a1; 0x6d1766f41a1346eb; 0x34b0c6e74d55350; 0x2012bbb3adedad99; 0x41a00f08e59e366a; 0x2c2f79016a7b731; 0x16cec20191ab9941; 0x789d564bb70ba20e; 0x45c013937c56cee1; 0x4067c609b5d9caaa; 0x2692385d5e9650e1; 0x609b1d26c0a510e2; 0x608113e982815b87; 0x6b75b44a5519023a; 0x23cd3bd487e68c59; 0x7e7ea27d441456c5; 0x5d635edaafe98b4; 0x10a75db864f5139c; 0x6bd187f1058f7aec; 0x3f52ddaee5c6b8ef; 0x5a16baf2bc1f09c0; 0x4a84ed386bc0dff2; 0x4f2b7ee2afefbedf; 0x7ee1e6145d20731d; 0x5cf7676896d2cba8; 0x10765daa06b402a4; 0x5ce8ea85d934b537; 0x59fb67ba6767d223; 0x73866e3ad6fb212f; 0x5d3c4c05e4476169; 0x1829c1d2201a9ae4; 0x7ab8c87af759bbcf; 0x364032d9c74945ca; 0x49ec6d2dffcb47a9; 0x4dc6201ed1017b07; 0x31c7c194e31c898a; 0x2649a32077e56061; 0x4f7c048f63e76ce8; 0x6a64c4e560869707; 0x50c4184245ddf0e5; 0x62574c240c96c996; 0x4dcd42f34006695f; 0x699d5625f113d110; 0x5e331928d0bb3fb1; 0x362d65a32b27ceb1; 0xfd2c83d709f1689; 0x49c6890ed0f6afdc; 0x29e4486d8b22d80f; 0x3686a837bd994957; 0x56b4ac93d088675f; 0x11a6fa99f4ef3c2c; 0x533f7d8ca0458fda; 0x134f4d50f6e79e9c; 0x6b27c4d26a198ed4; 0x2c3c238ba54761af; 0x4e20678efe53f596; 0x4d794c4ae2320aa4; 0x65f7a574450d5634; 0x4186fd4f5bfa96a8; 0x152198f6aadfe5bb; 0x12b971bae1bd58d8; 0x5c9e54be3cfeadc7; 0x42c2d940d17c3298; 0x623dde923d2b3c75; 0x2efda383ad478596; 0x1870ad59f4d9c590; 0x798768af6ff7db6b; 0x5dbace0ae2422acb; 0xf67f9b2e8065e8e; 0x16142b0c37913f63; 0x63cbdf6700071489; 0x43a3d6e74a3be255; 0x5487d71ad6f62daf; 0x6cc6b193a5666f25; 0x2520127354c01f9f; 0x4d137e25be352102; 0x16602ad97068d1d8; 0x193ea0c86e17f09b; 0x32d7af016fee08b; 0x6abb9c1f7a7352a0; 0x160b6319c7b55508; 0x2d57c9ff27c272c9; 0x73b5975b6393ec15; 0x561fc2ab5f2bf06b; 0x3a0f1287e14a416; 0x3c87019835ef11fb; 0x2ba8210e36d62eb3; 0x5cb8e2db25626c5d; 0x3e7affec3696ce59; 0x44698ccf62345f93; 0x538c6ae2ec00d538; 0x6bdeb37467a3640a; 0x1b70062b5e33f32b; 0x5d66970ed4f3307; 0x34e544192e617521; 0x7b6a12dec39a4fd9; 0x403e8a3a891f2068; 0x9fd9440a31a5e79; 0x47dc5bd1e197c751; 0x61fba1abce1567d9; 0x30ba55881d44891d; 0x708fb63b9d4c162; 0x5578e81787b1299d; 0x19bee26ffc2226b9; 0x39cbb45d44722805; 0xc98dcb0d9361883; 0x32437c87479480a; 0xb92832fb829b258; 0x4668f134618fad3a; 0x3f3df40b2b1b71b0; 0x66668ea6e042149f; 0x6d6becffc9abc06f; 0x4b833d6e824b5b3b; 0x2426c523b546238c; 0x32c054b222d5280d; 0x25f4271e932238fe; 0xd6d01b9987b68a3; 0x4cdbaa341263807a; 0x17a22995782a2340; 0x6b8b4c86f4536aa2; 0x760cc377bf17703e; 0xd2cf76248e737; 0x4d2ec56d6062ac8; 0x425cf393e3e0715a; 0x31cff4211193ef4e; 0x66c0a0603bcc4886; 0x41d746684177968f; 0x779213ff942291f5; 0x59f6298fed264e30; 0x7d6caebe2c61a4d1; 0x19c84597060ab744; 0x16a57df4d1dfdfed; 0x249135ba3a9e5130; 0x2ab88df59908c2e2; 0x14a5f589df4971c8; 0x83a43591a7267bd; 0x1348018a381a73b5; 0x2ffc17f9afda5793; 0x119fa7665664ef60; 0x437f0751899a682d; 0x1d8f17df71030fc1; 0x5a39374a380d99c1; 0x3ce0671c03ef1ba8; 0x581a3debe48c9773; 0x617248b9b5081dc1; 0x693e63fed17c4ad5; 0x31999784796028b; 0x4935fb77ffb68103; 0x2ceeb049c5bc0b66; 0x72731d7cb45780a; 0x18282a69d7c4e452; 0x50cdf4ef03048a18; 0xce4ed0e631925e9; 0x336f0bb0ba54da3d; 0x77fbeca616eaa691; 0x36701631bca516c6; 0x59cad4f8d3cef922; 0x46de5e4fced7b8cc; 0x217c89fc923ee8f0; 0x47b986b440b0f5ab; 0x6bca37211a64ab47; 0x59a249a6ceaedc69; 0x7446eedab3770b96; 0x12cf95a1ff369ec6; 0x469b6f1c1acce0fc; 0x2f9736cfd4101343; 0x434439d8453f0449; 0x24a762bca89cda25; 0x764431daf975e751; 0x5fbd0b443bf56aa0; 0x4566033dabb54359; 0x4bf6b55283160c28; 0x2139aac6b7927811; 0x13325bc2347fde0; 0x4555184c36dfb743; 0x37dda2b404dfec99; 0x166967bf24432f21; 0x4dfbd0b0180622e4; 0x13cc57013803897c; 0x7ed9c497a239149e; 0x5e15b0223ece5476; 0x79f358aee5d0ef0; 0x582c503a307c1c44; 0x6fd20459b6f56fbb; 0x40c42d9d4faa6d09; 0x7d47f65ee974d0b4; 0x59b3eefad0c5efad; 0x1acb38fa8c6437f4; 0x33b3db237246e466; 0xc34f05f4398b393; 0x32d5f2b2abc313a9; 0x4710bdb8a047cb12; 0x85366bd870f9528; 0x3648e324b4b69127; 0x5bf5ab81afca33fe; 0x7e2d711fe2ace1a9; 0x6b3f55918a0b7eb6; 0x4bcd08d0f8f6daac; 0x5fbaa3d891930fb1; 0x6514576b86555dd0; 0x4b5a7badc19344f4; 0xaad0c85eb5e1d24; 0xbac9d2e8ac2af07; 0x33260d12bf9fc522; 0x5645fe37102f4b02; 0x367d98501cccfec3; 0x82b5d6c1bdd9b2c; 0x33f257e1575892e5; 0x491131f84aac9a78; 0x46ff5a7eea00bd0; 0x674592feb1b23919; 0x7620f28e3a4df4bb; 0x432e58c648246df2; 0x485ec07a5b98f9c5; 0x7d87dbdbfbf39810; 0x50b2f5fb12408dc2; 0x7bfeaf0e49661255; 0x2ee8ba1f6bab7da6; 0x1bc0ac];
   [0x31ddfc396093556b; 0x69b06e09b2917ca0; 0x5ab170c0e7acc2c4; 0x54c844140b2e6593; 0x74dfb06c02c461c0; 0x50acb705af461c1b; 0x292eb000dde27992; 0x32297e7cd4b7e174; 0x28d6f974c2b51dd5; 0x3cbb06d87d7cb97d; 0x6bd05356f9e40e58; 0x52d1303f21a5d8a; 0x23d5f98f896046a8; 0x7a4e38330c9f913a; 0x63d7cc8c132d9f73; 0x60e5abd499fa9d42; 0x51cc69ffd19f63b7; 0x41a1a24f7cc311f7; 0x52791375289370e; 0x73fb63f36b15617b; 0x47e0a24ef007203c; 0x57ee8d6d86a4fc12; 0x400a25e4534a25c5; 0x32a7a2bb48cae13b; 0x714e3cc9ee528c5a; 0x48bb8b1947e7cbb; 0x6a78b8fde3f83b1; 0x60971f58a3a61ebc; 0x5fb3973baf440e46; 0x76ba6261409ab0b7; 0x38ba2ae48a6d3906; 0x48e1d71052bac4ae; 0x4008d97e2bcea2a1; 0x17da494b5c1342ef; 0x28472a40d9333cde; 0x648d970a4975bb4a; 0x4153f60045b5b226; 0x7ee0e9215f1767df; 0x110f0f4d743f038b; 0x7fd68c6a49e77b7c; 0x4437db3a226021af; 0x133b8bb0c77bf135; 0x5ac08ec0098c33b2; 0x55af5fc27c6bfdf0; 0x56e13e758ea2c3ad; 0x7282b7bbdf1a2dec; 0xa7db4c2b7a70b1; 0x452a02a0ee858afd; 0x27912a3810d7b6da; 0xab548e610627d4e; 0x53dcf65e5d02fa35; 0x59819f4088287782; 0x6afbb995dc6b465e; 0x1416da5f81cf15d0; 0x66c71f27feca3006; 0x3538d181b5d91a71; 0x6100d0e844963fb3; 0x19557cc9d0d2c498; 0x94cb3488f903998; 0x70c7d1b85a8de0d4; 0x52361bca5b700f8d; 0x10f5bd7bb0289a29; 0x6f829f9571f911e5; 0x50adad4c634ce064; 0x5a809ffe45bf1e5c; 0x2f0668954392151f; 0x511fe9a77dfb9b1d; 0x486326651ffa8645; 0x6adcc56c9fc43938; 0x65a272bfba568d5e; 0x4e6e651a8b66a5ad; 0x258b4c71f647520b; 0xe23ce01e4c5c1dc; 0x3b08577c7cc85d81; 0x735bf73dd4917fc7; 0x3712db61e58006e5; 0x7d9eea4b8fa2b3f8; 0x267d78af7d9449c1; 0x1777d5cc4c595bd8; 0x2505d8dca1d903be; 0x5c444ce87a7dff17; 0x7b6be0c5a5249759; 0xb9e0500ef49ef30; 0x293f0f6dab5898e3; 0x6c1ded2ecb05b4f; 0x24345a3d8d8f6c00; 0x5fe877746e20b840; 0x3e3717b0ca5407fe; 0xfc6604c4b72865f; 0x49ea20a099d5a1e4; 0x126576b3ebe7d8f1; 0x5e46903614b30b56; 0x5dc781e3525e30d5; 0x3704aef6a6258eaf; 0xebc1c39e0dd822b; 0x2f2c12fb7aeeae93; 0x34783db84b0cd67d; 0x330409970abe667a; 0xf0d29821eaca172; 0x3fe8ac619777ce62; 0x113d1ee293c26ded; 0x23a5f948d717d4bf; 0x1e63de616a6df9c6; 0x1f6bca60ea638e3b; 0x694ff8f117c6e83d; 0x5366fefa9e1bd41; 0x5def11323af75757; 0x16c4c661060abec2; 0x3efb69ebc9f2ab38; 0x3438541fe023a057; 0x2e7e2e56c8a572f; 0x2fa5343f312fc7ed; 0x6ddde3f6b5623b36; 0x15071d9f029464a7; 0x38fc79f90d023ac7; 0x3da4264483afd7b; 0x36c0df18162d9f4; 0x74e94b5a7db44efc; 0x65b7fea647dd3c8a; 0x2ab746c6af74a629; 0x2d8847c1af59cccd; 0x2f9831a806cd76b; 0x569d873ddb35a4e4; 0x51e246e7787ec1ea; 0x61ff76830a68f7f6; 0x76aaae55dcf40ec5; 0x24911be3f47d3c11; 0xa43d10a646a8dec; 0x78f62dcb9b26ac8a; 0xfc8a0babdb0beee; 0x46f4b001bdaf4903; 0x7c748c3e7b135700; 0x2a3746bfb5420299; 0x30eadabb637d6618; 0x1dbcac8b29b50dfd; 0x380675a03cc049d2; 0x3cc90b99da0f1a9a; 0x440f5c492dc9e783; 0x7fd90ac1f03c3c7d; 0xf0bd391595c0d62; 0x358b67b684b1a91d; 0x337298733e9ef8bc; 0x2c27e6c4c38bf2bf; 0x5b0c2986ba74857c; 0x41f2ff1f9d8ddef0; 0x6ab7023e6f1eaf0b; 0x38cfd5cfd787f762; 0x39ed6973dec594e0; 0x9d08f317f12313e; 0x377a65c58ae676; 0x28e7e5369fa4599f; 0x3bf348a1b4a39602; 0x2b06b1ac1d3fbfc7; 0x72e2fb76abfc41d8; 0x6caf120576d463db; 0x2a6ed85d60edef1e; 0x43bf295df8df5d2e; 0x6c958b10e930cc5; 0x26ed3f2e5569c031; 0x450f23a413201abe; 0x25f885613f88754; 0x2d65af673846cb; 0x6f7bc76e6823afc7; 0x47214ee86d19328; 0x712583e97c521935; 0x14fdec662a7f9fac; 0x74c3c7b6413e72d; 0x5fe307e55701ca5b; 0x17d70dfc2f9413fe; 0x4f99151beebb3a10; 0x37fcd06e78da9c63; 0x4ae53df7de6149a6; 0x6e1f2dadac16833d; 0x2f96fcdd7825e88f; 0x4ef141118530aa6a; 0x79b94f4f5050b1f1; 0x488d168c60bc3b08; 0xbccda4fc530d010; 0x3d1e0bbb3b7a92ff; 0x4668d3381abadad1; 0x5c570ae5f1a0fb6b; 0x37b1f507d364752; 0x49c04fe194d6b708; 0x4a8b93831444e692; 0x7fd5d45feec1fba7; 0x1b7accbd8ff8b717; 0x6505129dbb1c369d; 0x61b553c0f31f367c; 0x71b7cec9d561c65b; 0x5905d298d34bbe5e; 0x563cef67653b84e6; 0x6970e1bbefa8ff9; 0x69dce1a0650c0d57; 0x1582264d3b39a390; 0x5946fb9e70ac377c; 0x686910f4d132f84a; 0x28bc5c2c21ac5179; 0x5eec59d018089e4a; 0x47225f3452ef073a; 0x2c5cb6d6c746eb76; 0x7ad3eb5767b7a354; 0x138da91abba9e3f2; 0x536777a04d3e0c1f; 0x6e6a6b4c485ed2fc; 0x56a31054e1f0c6c4; 0x7fe1b1fd496c0a57; 0xf618074eddc2343; 0x6c6a58e298279ae9; 0x5a85dcd75df292a5; 0x2170f42b8933397f; 0x32d6f2928b8845a9; 0x68be5739ac5893ac; 0x7cfacf90aec09245; 0x7f6662eaead95e17; 0x6a4f95e9b561233d; 0x5895d0f4f518da22; 0x182d177f42d7dd23; 0x4572f68cffcda373; 0x45685083aa6ad603; 0x2cce4de6ce35ebde; 0x3edc5c7ff5643c54; 0x947cc27d783a3fe; 0x227b5d5fc0a93e25; 0x35c41e79ba87ad8f; 0x7cbd167961c63eba; 0x64ae59e456396f25; 0x28b88a1a1f35cf50; 0x7f3e89b2310a9ec8; 0x3eada2fed9ed93be; 0x6a18b7ca313b963d; 0x66f482d8d2e26a70; 0x79c4ed7fa2b3fb63; 0x3ebe0f41a0bc49f; 0x39f6abc04de071b8; 0x70d28620362cf40b; 0x63023ce977df3d8d; 0x2e4501e9f4c5b1b; 0x43fef11f9e67ae09; 0x626938c8e93d2ea3; 0x2f36fc1f9ba17c78; 0x14555363f7766a45; 0x716a9fed0e97c0d3; 0x329bdfef47aa311c; 0x7dd01447618c7dc0; 0x2ead5e04fefaf1e3; 0x3804b69694d63e69; 0x207b04e299c62d45; 0x66f4c2ea0a3ba7bd; 0x4ed0ad29ccff1cc8; 0x7247a29cfe4edcdb; 0x690a26ed0257dde0; 0x5cf91fa9abf9c60b; 0x9f4f6a9a5aa1177; 0x4624cafbd7f047a2; 0x2e135a5b8d23b43a; 0x2f354f778c11e825; 0x16248bd22e1fb147; 0x175d50851ed6f8b4; 0x1392d23daef13ab0; 0x7d116be4dc060cd; 0x243ff935cc09dade; 0x538c84bca4b5f3a6; 0x4da88cece67dab05; 0x442e7fbcdbbdd727; 0x63b57f98b952f398; 0x7a1f75d65347485f; 0x77215d17c70e0c5; 0x546301921a0faefb; 0x7d3caa2ed3445d33; 0x7cf456b6a54682b4; 0x7582904d38727217; 0x356a8d73770af910; 0x2cf0bbd9a672690c; 0x3b745b626c885f30; 0x338c21b1246d4f0f; 0x577c3ae567518de3; 0x27a8c52bacdf1d6f; 0x7e120d1b72b0fd8d; 0x64ff0c10ae6ec9f7; 0x78c2fd49898fcc01; 0xfa71f78fc2a580; 0x106f68871e59e691; 0x41b9d46201d971e9; 0x6abd8c6e43ed0c18; 0x29611314d7db1255; 0x7b59ac96bcc6af35; 0x172f7814884b1a43; 0x5bb9bad149e7c072; 0x3a445b270bce0219; 0x35625da1a83cd768; 0x7b57d449d299fa4c; 0x50723aee8dfb6de0; 0xd736675d58447ca; 0x3e94bc45b0c00132; 0x599ecbd74b4c615b; 0x3cbaf21a7b80c77e; 0x1433c7719bfdfb3d; 0x6f454276018d24ea; 0x26e125b8e49418b9; 0x58a7414c326c14b5; 0x7ec1455a3b245fd0; 0x7e7b751a0d42f009; 0x413f15809199d27c; 0x72b4c4032f0e3b87; 0x77f0f1741c062efe; 0x7b4b73193ef80e8c; 0x6e6cbbd0b8bca697; 0x10b00c8b63056441; 0x19a44d3b455a1f4e; 0x150791ed41668a01; 0x19c721fe3fd6faa3; 0x3e9c1fa8d07ca04e; 0x69d881dfb67ee035; 0x7f02cf990696c894; 0x461cd245656e5e78; 0x64eb379ab1319930; 0x325a1f4c24afd946; 0x80bb0];
   [0x7e05d675e5f4873c; 0xf16190bced93612; 0x2a933b92e8e0b107; 0x2bd3d199f92e66bb; 0x6a2935d5e3e5f46a; 0x12acb7469f835909; 0xddaa240ffa0c2b4; 0x17764c53a7da7ab2; 0x7bdb54bc4258b438; 0xbb846a51ef1ff88; 0x3e26b82bedc26c6f; 0x270556c983151843; 0x6fb9319b7acc8315; 0xcb2217c2f1e2aa0; 0x6f2eb300a4ed219c; 0x195d66e03aee6d1c; 0x27544be628284f08; 0x107fab63f78b6617; 0x36b65da146038ab4; 0x18ac5035652d9513; 0x1e4e97e5096deb26; 0x7d496b75e44b8ce7; 0x36dc8753b1b95bea; 0x2957a3ec9fd1e0e5; 0x732adadb8a52ee20; 0x18e8265ce1ca54fd; 0x215fa2636bebb29e; 0xab782131f3c278c; 0x434e8b6a302ed381; 0xf84ab82edd7807a; 0x4873d69c4d4b6b21; 0x59056c5a08b5c407; 0x190741c51e9178f4; 0x55612592f4dcca69; 0x47a0238ca15f4ee4; 0x230ee663e4866f0f; 0x7a11d46d3d373d2c; 0x4dad29f53e7169d; 0x2366d3e1242edfe9; 0x29163fac3ee13294; 0x228bcc0ec7654622; 0x26609be819b1768; 0x694bccaa3f71111b; 0x5c02d00b4284f1a4; 0x10a4986428a25b2b; 0x4cfc9cd9ffbe610f; 0x2fafc9412eb81dad; 0x541e71696aa5f3ef; 0x77f7b8c816f3a87e; 0x21e3d7570caff8ba; 0x42665373ecacf04b; 0x7319226cc0406670; 0x7817cf60db727ea8; 0x6dfa476be28ab4ed; 0x4675cfd4d060a39f; 0x6a3391b8f0ea695e; 0x5f93a4d0947d5bb1; 0x670b1fb33a0e354; 0x27894a2344f87f1b; 0x36aa1c33d3d298b4; 0x60ac079f2484e746; 0x372326349368e0f1; 0x3732078bcf96263; 0x23077cd726139946; 0x14f402b5c73cda60; 0x20561faace257ccf; 0x1d2934214c98df57; 0x5b8b3dc457a3872c; 0x43dc23e33c059794; 0x36dc183fdc655b8a; 0x783082b2ab210a82; 0x113d6b1849de94f3; 0x776aa014c2473ec8; 0x55b3a7e9c011681a; 0x1a8740fe55501736; 0x1fe4e2a02e81c0a0; 0x5901f71b9f920f57; 0x28868d083f496812; 0x4d157fc80ddf7405; 0x4ee9867dfb580af0; 0x4a9119fab4f16ca0; 0x2f5271c32f90bfcb; 0x22a2acbbd1850b3a; 0x278dacb98e6af898; 0x3553206a30d5873d; 0xebd49c09c1f2f82; 0x3acb65d459891c35; 0x2b8c7d5fc407acc6; 0x7817abbcc78efeba; 0x7f49b39ac8a3ae86; 0x2b917320afa6ce05; 0x32a0ab85f1da528d; 0x1107a3bb6f8f2f13; 0xe2846c9e6733e05; 0x33988ce44786b0dd; 0x73a93add82ebbfca; 0xc40c0ddc0fad539; 0x217ff1c00ec9b721; 0x454f8770b894472a; 0x667c021dda922ed; 0x2644f92537e89590; 0x49e044cd50ec7f82; 0x10795d04c7f8ef76; 0x1b874c4de61ddc3c; 0x6b00413c2af9f123; 0x3e1034ddca5fb835; 0x78b0a9851b76090f; 0x7b526c1bb335001f; 0xe6cd107b2cde701; 0x18f7fb965f8d27a6; 0xd62b8afb73e6765; 0x6efcff2e4fdbd344; 0x31cd48b96ed5f69d; 0x2cb2190e603da749; 0x6831fe8255330640; 0x7512d7b8a7100cd5; 0x3c3dee837b9cc712; 0x4e789031d905420b; 0xc879a9bae7e9f65; 0x506fc68fbf51822; 0x2dafb1dcd0089282; 0x19eebd0e166c1402; 0x6f07c37d67f1c3; 0x2544b1575f0a2208; 0x2d15dde48af9e104; 0xad9637e86494396; 0x3768e96c825da416; 0x72a7b5c101623abd; 0x106082a98d2416a9; 0x79d3dd758f2439b1; 0x8464aa0c61a152a; 0x5c1b0b6282cd8083; 0x699d3d1c0a9d95fb; 0x2771978a7226c42a; 0x6f43c96bfdbab5f2; 0x2db3f36fbbef9847; 0x7e6725e337a3199e; 0x1e41586f88fc8774; 0x5013e83694a8b106; 0x7e6df1b915e18abd; 0x300560dfdf08517e; 0x76b46d4582c6c0f1; 0x12b3cedf2e17a04d; 0x1dd31a86804f0cf1; 0x452b4cfd59c65f7b; 0xadd86d8914cc476; 0x2548c66d783dfea4; 0x4c10b8080666edf1; 0x731d48cf2b94845f; 0x1cb6295a290f4c72; 0x136eaa4edea4f111; 0x497d0021ecd0da39; 0x58cb3d8de9761b73; 0x52af1e094b0a75da; 0x276c3a114c813340; 0xb297fd38db03681; 0x5d6aec13ce6189e9; 0x773ba49333e7fdd9; 0x7fce92ea7249deed; 0xf65778bc07cb08d; 0x34967140c636966f; 0x33ae04ef71ebb206; 0x4b1e47dde4bee4; 0xd1a14c28465201c; 0x2282d56487213360; 0x207c31e22401de27; 0x5d238186cb33cc49; 0x229beada7cd2bee0; 0x3ce047904a9e878a; 0x37a3bc6177ec276f; 0x13d4b907ce266b8; 0x117f716d2cf7cd5d; 0x3f015f335766a578; 0x4822320d60642591; 0x74e8de8ea790099d; 0x314457d354f867cf; 0x6f035ca17573e01b; 0xd614f0d14e1e6b9; 0x344b5eee6250cadb; 0x5e837af24536df2e; 0x490c3966cb8e89e5; 0x25d5faa361af6451; 0x1a99dc22b17603c6; 0x4c37c9c83b055a12; 0x7ef22c723b652a09; 0x6742154ee51d124; 0x4fd0ca151fb0ac7c; 0x479cb520e2ad6bf3; 0x6187f710f9c8d401; 0x1a5d5fab004f0767; 0x1a2367ce37d351ae; 0x23c01c59a05bbec0; 0x219d0203dc351d42; 0x6517756c5c788837; 0x3dfeb4add96a0540; 0x2f03543484970564; 0x280bd10c922a3b8d; 0x1466d747d2e3b175; 0x546d3a310c65c1b4; 0x582654cd41a8104c; 0x40c4a8f59c963321; 0x333757cfc408dc4c; 0x3d16deeb70de8d04; 0x5b4868b7c358f5db; 0x507b3859a3657ebb; 0x114939028ed9b04; 0x2fbee8b5c9ab65c9; 0x1d7420e72976a2ad; 0x60b07a0f908aedf2; 0x5e458b3cd57eea55; 0x78bb6b670d319cb4; 0x50e2b0b30d3390c8; 0x7f0bb15fc1890373; 0x45b8273228635e6; 0x72467c8a9ee210bd; 0x25ba0d4a3b65fd8a; 0x1dbf5817e030df66; 0x2d8e90c4d5c3754f; 0x7cbff6203463cd15; 0x30a59414df95bfe5; 0x102fba23504cde68; 0x5aebd7bfb764ed9c; 0x520f2616d0d4e29f; 0x1b093a84c92ddd8e; 0x254e1a8f82e2cb05; 0x11f5a60f03f1aa66; 0xf8d5709a5d6bfcf; 0x4169cd2da2e4e6e9; 0x156b92e2aaa3ebdf; 0x2c4d014a3b18c53b; 0x5ef237663cc40100; 0x77831bfa8a981938; 0x6b71381cbcb8621; 0x74408a0109c37da1; 0x2976c1477a8b58cf; 0x75b4803e2436d91e; 0xbd7077fad4586f4; 0x160dabb71f281761; 0x433207243a1caa6c; 0x3660ae346a5e3736; 0x28738bdab2fc9157; 0x504235f192247290; 0x7178ace486b0b5d3; 0x3b8fa2af694ad2f1; 0x28518ac2a9c7e94a; 0x67d0240328c2ae30; 0x380c70407a083edd; 0x4b2ade637a5e18bb; 0x4581d09480637138; 0x79371ad7111e2898; 0x59316d487aaa678e; 0x23d369950ff95f46; 0x974f19f66e657f5; 0x5e4b80a1c6eb81eb; 0xd2054be6ed8ec32; 0x339be3f714516c8; 0x1b1c195701cb367b; 0x4355e9f7d2228ebb; 0x31d0fc3e3b42e194; 0x2ceaf53d663d3dcb; 0x79e11903b3456998; 0x733c07c1beb76a7d; 0xa7b9b2f5d06d379; 0x43b692c92b504a75; 0xf386683cf7c9153; 0x4db430722afca002; 0xa2d736320740b47; 0x525ca22f3d2eef7; 0x40e2e666d6ce3009; 0x68f86fb631bcffa; 0x1a1c2481b9675910; 0x57b6b4d3a40e0047; 0x7f799924d5a5e669; 0x4af014ab0f9dae7f; 0x67ad48dfb761036f; 0x5b4eef8a8dc78c03; 0x1e4c9fb48726fb9c; 0x1432591429d4a33c; 0x149050fab11d4d14; 0x734dd1899508fc37; 0x1c8819c670629ef5; 0x7d518f9fff1ec538; 0x760d3d5302b91f17; 0x6ca0a1f808d78818; 0xbc78173f05d22d; 0x2a970e4974e2558a; 0x41fd8a43dda759d6; 0x960ff775df0e3f1; 0x5a70122c331ef7d; 0x68ae43720915ffe1; 0xb3dc609f5475b3; 0x5aa957c3afdcdc1e; 0x4b056f696ca460f9; 0xb10ab3d79619ffd; 0x16becb41af9773af; 0xda0ba4c12abfa7; 0x3057d6f78a63db28; 0x2e697d86f23d20c6; 0x6a571547b0c74489; 0x7eb85da848c3341; 0x2b751d21ef089a5a; 0x15a7404e75fa6def; 0x1c53a7e97beaf7f5; 0x52cd7167de3e3a5; 0x4844af375ed9378e; 0x47c215d4acca1126; 0x7d2ab8dc8333bc58; 0x1e503424190d322e; 0x1ac40a7a30e62168; 0xb9e2b7a8a237357; 0x44708b33b0bad2ff; 0x12c3cbfbe266d366; 0x128b378c2b4a19d0; 0x7e1cd83025f30af6; 0x5c4a03c491002f7e; 0x6ee356a35918ecad; 0x7b320b0ec1a45c9b; 0x3cc37c];
   [0x48f03d4fe155f7fc; 0x92b77245e050bb8; 0x7046df3fe55e2139; 0x75790e3a1cece237; 0xc64eb73f14fcdab; 0x7ed00b36ee41e10a; 0x1d3f7737845320d2; 0x41fa92577e0d21cb; 0x47724d6771562ec9; 0x368f332f7f7040fd; 0x6c3084fa82c4da67; 0x75482b905b549aaa; 0x24af43909eb1a284; 0x63cc4b7646936a4b; 0x1c9dd4b9a909ee9f; 0xe140ea920d5b9e4; 0x7ee267f17d6fcb79; 0x3ffed87310ddd6bc; 0x6133966c12154b13; 0x787487c0e9dc8ebc; 0x1242f820c26aa3db; 0x54ff7202c3cec044; 0x648670304778e3cf; 0x3fa1cb3788be34e; 0x772656058153923d; 0x1a33b44ff1326170; 0x206e236aae486a30; 0x34b4c40639c21768; 0x2904339fd4f5c398; 0x1a1d03a94e2dc76; 0x1d3e864b5769abc5; 0x5abdae3431ba9503; 0x2015811bef25ada0; 0x788dc3da92b9614f; 0x4d4c242250b4fe9c; 0x1974aee79bb553c0; 0x284d496cfa5ab7b6; 0x7852397cb489b1ec; 0x69aa9c41ea050698; 0x602a13c3ac5b2e15; 0x95d7c58ad7482fe; 0x59a907b6ad9c89f8; 0x1c6157f2fb26490; 0x666b0e9bc347270; 0x14bcd9e53e3b0e1b; 0x221dbd2ba6989bb0; 0x47c59328518c4cb9; 0x7450acc80b333595; 0x45d9cebaa41a34c; 0x663c28b854f60319; 0x4f25f8cd05e840cb; 0x7678e801e830ab4b; 0x4b94f5d42b3b2d5e; 0x7bb580f518dd3b39; 0x334d4d8e25b1bc89; 0x553f58393a9d0da5; 0x69284b67552632e0; 0x5c5209c810423c93; 0x14458e6806b30fae; 0x2ef1f02110ad4b8c; 0x296b9de37c976d6a; 0x3d42c5bb18d114e2; 0x4f00b61841bd7b48; 0x7b1dbbd4cf2e41ae; 0x16928737e0f64acf; 0x135183209219efd1; 0x5f947a2bbf71d9f6; 0x658e04161e3c3195; 0x62c118cd1fad169e; 0x6c0f9ce702b0158d; 0x4ef40422fb9c459e; 0x2b1253889ea99d70; 0x269571da270cd1cf; 0x4816264f71b8b8b4; 0x7bca81482cee7ab8; 0x19d3f71cb3c1356b; 0x1582c6e6401e7540; 0x3362da88f06ea2d6; 0x694cf89fda5eede2; 0x3f5baf41394a2fa1; 0x13eeff38aedba21b; 0x640df0ee9e2da34; 0x4674d9cb237a60c; 0x97236be88aee3d6; 0x15b00335389a5832; 0x2a49703409bccbcf; 0xc5a48381d3f730d; 0x3709d3e2450c920d; 0x11d820fb783313c9; 0x4f5eb342486a4a57; 0x40e2cafd7cfa1aab; 0x7e7e2173ba5918bd; 0x789e8bf835f40b17; 0x456308ee4ba75ecf; 0x58978872901def1f; 0x6ce330efd3ebc380; 0x6e31bb4eeb282280; 0x52aafb1325b21916; 0x78e62ae88e75ab0c; 0x132b8c22d9f7ba97; 0x60f6080bd2c45e36; 0x3aa129fb2e9f835e; 0x4d25156f7df3de1; 0x749cb16737660049; 0x7a3d28b88635f53; 0x3da161626fab2e62; 0x5990945bc5f49c91; 0x6c7126f6d31aa4f3; 0x43b9b63ab740b9b0; 0x164409939578bf1e; 0x3b8fb8f561726ca4; 0x3b578560e3596705; 0x2530401157d40bd; 0x36dc69702390b72; 0x4caecd9b9a30e047; 0x41d584837b161ef8; 0x503a7c1225c6b0f9; 0x177006acac9324a8; 0x46435e763ee1494e; 0x76a36ce0dea469aa; 0x75ca89dd577b5136; 0x3fd4b0faf4aa830e; 0x35d0e8cb0a0260fb; 0x731f57db11483bba; 0x3ede3d29871d8329; 0x25d8a6090f26f2ea; 0x757796bb77765383; 0x48c68f84da238f44; 0x9f4a14dc19568f7; 0x7d6684087437c46a; 0x34a2d0b02941e571; 0x75e412bf95aaf53c; 0xc08b1ceb66ea1; 0x1c70fce6161b44b0; 0x481b1ce2b064c097; 0x4341cb103555bbfc; 0x6d1af77bae8cb773; 0x3017bbc32fa2d598; 0x603a8b72985998da; 0xa00b532ac6c8238; 0xfbe163671f18b43; 0x33581bc2662bcd5b; 0x2537181b10e0e7c; 0x6569efe8e13d8c7e; 0x313f29e7693b129d; 0xf90d845230e6f3c; 0x6886c660d7dad5e0; 0x62f7dcaca48bb472; 0xb9e96d59c13ee17; 0x471055b0bea9b590; 0x754067b8112d4d47; 0x6f832f93e0fa8eb6; 0x1af3610b90bd2687; 0x53534fb7067aa4fb; 0x7a0606b99ee456df; 0x15997d10437ee02f; 0x310d2ab31565b542; 0x6d641f03adff7dd1; 0xf403af348e765cc; 0x9fd91f0db67b5de; 0x1b0e4aab356d87cd; 0x31a0b28baa6ca475; 0x7fd7726002bf079f; 0x445bc7136f7b8343; 0xf523eb338aa7f6; 0x7fb0bb2618f4d985; 0xcebc2af00815e9d; 0x70ff3c27a86f6905; 0x192ec44ca05c96ad; 0x71f65c9e889ea8ea; 0x607ed8aa5b86e865; 0x119ae9eb755f51ae; 0x487f91a462d1ec83; 0x491e74be14053e22; 0x2c453457f757586e; 0x44e5880572cdb951; 0x7edcfc9c8f81dbc2; 0x5d180338207a5173; 0x3f1b785f8eeadfc5; 0x55130c434a844e13; 0x588273118bf88f7e; 0x69d7eef394b3d0c6; 0x7fc654fbe3bd4eac; 0x55f5c9325e1e98fa; 0x37989710288ad854; 0x67fceee9a32fd3bf; 0x161ecacbf8ff0f4a; 0x3d3b4f5c7d904627; 0xd632014ef68066b; 0x2a6aed14dc1af29c; 0x6513965d4b8c4a17; 0x6fb5375b02a69f5c; 0xaa689712ea92b33; 0x2ce73d8d4aab5e99; 0x597c1a511b150f26; 0x3f156d3333238a38; 0x128292c64f133d74; 0x6d66760ae30842f2; 0x7b66182649d89b83; 0x56594a0305f9b2fd; 0x1b2b3f101e50128e; 0x546566642baf3ba1; 0x7ba06bf4c52e5cf6; 0x5137db2891d530c3; 0x49311e7c34e3f873; 0x24fb1ce50deffd7a; 0x5c0da8fce367e19; 0x10745e49e50ac69f; 0x286310ba52b32dbe; 0x6b5e2709993277dc; 0x6fb564f27b041a06; 0x5a3cc3d8bf3eaa97; 0x5347d538ba368021; 0x40df58254eafd715; 0x18f2fb109683e365; 0x408e5efb464b46c; 0x502849a9cff4081c; 0x8f42dd9be555bcd; 0x32c4766ddbb15998; 0x124978a643994e72; 0x5a185bcd7664c9e8; 0x10855fb06153bb81; 0x379ebe4b1df07f02; 0x292d689d5ef9e53b; 0x167da6f519f054ed; 0x710756d36cb17c91; 0x68cd8a75ecd7b9a7; 0x3b423e9fd0d88eea; 0x6cd3ecbc5e6d5636; 0x13c70f2496550e62; 0x5b8db3d680fae685; 0x26adb31694b515ab; 0x30a7efaaffdf0ea0; 0x297585859a4bbf6b; 0x7ac368a7fb10222c; 0x33ab93af269c6df1; 0x6ab1ca285b6e8d2b; 0x7a25ddabbc20bc05; 0x6aacd727f162afc0; 0x2c516efb38f668cf; 0x668e9750561e51c6; 0x8158318a813ef08; 0x75c339711ab454f9; 0x7baf27b55b4bf293; 0x6037703a813ec3b5; 0x6f9169fb8437e9ec; 0x1a1c08f127d8e551; 0x19215eb5d6312f0a; 0x7470213cd8e1351c; 0x5ef4463adb0ee3a; 0xb6aa3372b5f9d90; 0x2674beb05e9d3411; 0x4f0a7eda8068266b; 0x52dc72fb63a0a5da; 0x36c60547bbe851f3; 0x616a6ab8c20a809e; 0x19825331888ff6d7; 0x2389237e33b558fb; 0x70b76527616fc415; 0x43b2d882a78f3da0; 0x605232769e15c738; 0x3b5a3dd8ef86aff4; 0x628d6025058ce493; 0x3830d4ba4ed674ea; 0x6bba381f726b09a; 0x54115eeee2f8e02d; 0x1a61d3e5229c66c3; 0x1afb6d0fc4043f5e; 0x3673a8893195b91e; 0x633cdee1af239774; 0x36c665d549a66103; 0x449a9b08eeea2fa2; 0x325cb63616d7b07d; 0x450431c544a7fdbc; 0x711e630f11e5993a; 0x6788366aa3495d5b; 0x4d2679eed92b735c; 0x7253814fa3d4b2d5; 0x722a5666168b3788; 0x537a9a7244651182; 0x72ce62f42dde5052; 0x39b4ebe6fa0781ec; 0x350607ea5a596a61; 0x27c2dc96fc412d70; 0x2777d8d7ce0afe8e; 0x21d150ef6a59af82; 0x888ea72c5842691; 0x2fce4e45308f5d7e; 0x3ab53c49e94644cd; 0x2b2e5e0fe77e63ac; 0x5bd3ef945df25b9d; 0x701ebe95e3025320; 0x6326c6244e91091a; 0x1175060898922e19; 0x13fdb81f3377b94b; 0xff1fb3ea1ccb1db; 0x52f1343e94fb7022; 0x1c83d964ab87d151; 0x2c0b4cd57ac72624; 0x3bc3233a4af91c63; 0x4b2d0dce1d1bb16f; 0x122fe32d8fb50ab1; 0x21fb045cff7ca1db; 0x3d3369929d33a388; 0x670dcd85537b3851; 0x2102bef0e1dfbd77; 0x2936b3b15ec5ec89; 0x57edc21f01482765; 0x6ceb636e3f588eb9; 0x326ef538dccdafb2; 0x49b9b4cbd6172def; 0x23133271c7426bcb; 0x7390fe16541af971; 0x7cb10dcdbaf29d8f; 0x4544842a368e4161; 0x7b89a3940076f1a; 0x22ce43245fa0691d; 0x1f1332];
   [0x5b2e75b3c01b40e0; 0x55e1772d92e8080c; 0x34a449513b31ed52; 0x468dc7da66316813; 0x32859510d421ed89; 0x45fd76302df4bf54; 0x5b44f246019d721f; 0x702cf0625b6eea01; 0x14b82777f4e506cf; 0xcf3c3845f52dc68; 0x6eb7d2083f617df9; 0x917db0bf5999841; 0x32220c3cbee8f2ee; 0x4f43646e506aa970; 0x6f4d08a7aef08793; 0x3ec78f76905f7c5e; 0x3ad9a8cc9339db4e; 0x6a73828a3b283784; 0x5aefa4128d9988fc; 0x6656050312fa9a79; 0x6f67ec42856755f; 0x488d91edbced2f9b; 0xfc2212c2bb8d06; 0x67df535a66e4e292; 0x1313b91a01c890f3; 0x3156613272023758; 0x4feafc6b881b7174; 0x4524da7646aff5bb; 0x7bd8cb8a1465c5ac; 0x1740660c2ccef563; 0x5b1b1b78bfa6bd30; 0x60bcf0c42864cb35; 0x1de26fade6fa6fd; 0x2ce70e51b05cbd52; 0x76514d7e32b84413; 0x88e864deb678427; 0x3bed45c67388c88d; 0x130db1f29ed1676f; 0x42b5f737e5dfb99b; 0x710fa6a5b3d56c1c; 0x7cf60e416115c591; 0x420cf3a498f9caee; 0x6621704087de21ce; 0x72bcefaeffcb02c5; 0x634037223a68d936; 0x48e01e1927a6195; 0x1f29056185b8b932; 0x52e93e8a6b1cc0f8; 0x3bb135acba9bae45; 0x704d12f9747fe728; 0x284ac6c503573308; 0x3090f20d6e7d776; 0x72b66e6fc8cc6b30; 0x66d6e8a8438f8c83; 0x5a036d531b1bfc0f; 0x51b59d0acc11bfb0; 0x68bb42a2e225ae52; 0x1906c7ee741fc891; 0x10eeb831a91a6e4c; 0x3a647f7f689cc8c0; 0x61f9bacc456e8905; 0x7c3930229fd633bf; 0x724f27978b8b2934; 0x51c7c5c98925ba2e; 0x3f56b75a8498baef; 0x7fabdce07d6d0525; 0x148e19bfe871db7e; 0x219b03f082a1729d; 0x3c34c0fe91485a3a; 0x6a9a8f4324ab10c2; 0x4f7dd3689b878f8; 0x50a641b046b28cce; 0x702fda5d9724404a; 0x41ba1f7efcca7e03; 0x49a070ea1b9720a0; 0x3726eeb9e87bf2bc; 0x5bb7a47354013a5a; 0x5524e207456d855c; 0x7d8b39185885a132; 0x59181b14ae63e3c2; 0x5714853bd0efe12; 0x1e1b537b309f74b5; 0x3333ccf8581f2fa6; 0x65938cd050c7917e; 0x724aee539a2f23e7; 0x45ce04d0ae1687ac; 0x7b4e5ee0bd87d6f6; 0x2a32aeabf31db23b; 0x298055ac054fd08; 0x23baea042176779; 0x244f53fb93281645; 0x3d1c9bf25d0394b2; 0xf04ff46ecead877; 0x1db1b40a4ba2c29c; 0x9b6d9227de2122e; 0x5d5637782237dff9; 0x18f265535ccf4546; 0x6f5de2d6575a0a37; 0x4ee9d90883bb740e; 0x4b902816d591b504; 0x111d8a550ae5d1a; 0x2dee6a533befe5b3; 0x833ce2affc70c8a; 0x29b171dbed0c1f8f; 0x6504e62e21b2d9ff; 0x40c84943b8060d2f; 0x178d9f1aade979d1; 0x25460f1402717cf2; 0x990f8c1b3660939; 0x2dcf990a25535719; 0x1db55077de9780f9; 0x7f22c5a0105697ad; 0x7f898ee3a43af68c; 0x6d253c34e6b4f603; 0x4b016ce79f960ef5; 0x74c8351524815777; 0x4a8de5f00134976f; 0x3be518a18c93cd63; 0x398c5746df07cfaf; 0x3f545e5dfc7cc3a2; 0x5b0f9a67e3903b1a; 0x78b3ece681813d59; 0x5ad6f91da364d59a; 0x327c61c94992e040; 0x54afc262d6c25f78; 0x7eadb9bdf58931d0; 0x2471740f4b87b8e8; 0xf4bab7a2b2c4651; 0x32159d6c01772413; 0x2456160de1c046d8; 0x6a8fe9f10a872d59; 0x3b4741e4fbd2ed91; 0x36c402ac3d135712; 0x3980944a2560ff89; 0x63a7a2a23ff3f583; 0x63ea9f905b399e1a; 0x52e9471d37a8adad; 0x5826845fe638734a; 0x7c3a5a4a342622bd; 0xdfebd5f35277053; 0x158d0e3ec0debf11; 0x59e685ed98125e0d; 0x4701953cd9e878e4; 0x7c681f1ff199f990; 0x410730da23e3f5b6; 0x693637a6e183738e; 0x29c542f80f8361fd; 0x2a8f117ff108d87d; 0x15b8755daaebc5b6; 0x77b24c4d483880e1; 0x4374904e911f2f85; 0x390a4da4831a0041; 0x263ec56373b8ac7c; 0x7eaf14386f37c0c; 0x3b034053807749e9; 0x7fac3ac1ddfe1698; 0x402aec2da6ee354c; 0x773cf3192431cf36; 0x4559a73fe76c8489; 0x746e15c9ca7b904e; 0x3f783b242c4faea0; 0x6e4f39e860c3e9fb; 0x700cb2f33fdf95e8; 0x3028a3b8fe761ac8; 0x21b0ef9ee7136c20; 0x339a645a59572b69; 0x1330d13fc979432c; 0x708a31b83b7ff16e; 0x454164068e836d2e; 0x739d85f79e0016e; 0x5593f4b386aad850; 0x6a4bdd7b684eb72e; 0x1a882abbddd31098; 0x1d3db0b81438c424; 0x59c73a4b1052a723; 0x781aadd96b4a02c2; 0x3fb78209b9e17294; 0x11e59972bec94ee6; 0x593c38c5598d608f; 0x6841af5eaf9a666d; 0xf8f0ef3b0eae110; 0xdc032cf9241de1d; 0x10cddd1844e6d8e1; 0x7f0e32b0a6304d71; 0x2be72b1a3950c6e5; 0x112555dcd4ac5612; 0x47835c40484ba22; 0x14fca8a2ffa9a1bb; 0x7099097c04e4cbac; 0x6c71fa17f7c4b4ff; 0x1b23b648cffdcbeb; 0x2cef8be6d8b331; 0x274d73d1cd5268a0; 0x1839a8b0356e4032; 0x14a1bc7ce5f233be; 0x6d09df495be48d3e; 0x3de33b4866628355; 0x6f5131ced27977da; 0x42209f246edbd85d; 0x6730da3bc4abe21a; 0x7bb0aeffed970019; 0x615d3bff83377cf9; 0x6d6e038719921032; 0x7569ffe50751b16d; 0x2f2c2ef8c3e17c49; 0x5596ac7805116b93; 0x18566aefdc42cec1; 0x149290d2da31351; 0xb827c9444d0443f; 0x4d873114de61e73f; 0x5b726e17f6296f3b; 0x4608f4d745ec13c0; 0x35cbeb34657b8a3; 0xd8f7a9c6e65a8f0; 0x2e6e47e80c0b0cd1; 0x5778569234dc4fd7; 0x7c38b57683836fa1; 0x6b45de28e6f75cee; 0x6b232fb054da9ae6; 0x2f69cfac01865e3; 0xecadf914c56f686; 0x3b249ef938e1e87; 0x7eae1c5370f931be; 0x2a2dbd1589b8f8e4; 0x7125bc2c4b6dc08e; 0x5a6310b67573ae58; 0xe2e6427ad8f12cd; 0x61b35f083a31cc87; 0x6b95d69955b9eb5b; 0x469f624f667d8b74; 0x6d187c31a4f7a5f6; 0xc8739346d1cfaa7; 0x743c9ac55be51ada; 0x1eb9c6cecda3f6ce; 0x169b85ec9879f7dc; 0x77efcc85029fb7c; 0x7d105a5c543fa8a; 0x3bcb44fc6dee2f43; 0x785042edb84c5ba5; 0x3319580d26498cc1; 0x46614bff7e625d9a; 0x33bebde220c33783; 0x7dcc34dac52eb592; 0x1d4050c1872f531d; 0x442f46a48040c897; 0x2c95db4f5b94b9c4; 0xcd12c6291bfc965; 0x2176f6a691fc5903; 0x4e5becceda68498a; 0x4d272057376126e4; 0x2bd97642f1703ba8; 0x371b4aef2243e6ea; 0x2dcd37c31e79705d; 0x704e6b9aae18aff6; 0x1570475bf8c3266b; 0x7f39ec3a2c4fbf4d; 0x7c8d03bc3334944d; 0x848f0e43b689ce8; 0x43aaf101f0f0a5d4; 0x74a137917799cac0; 0x138455f332c87bf1; 0x2b617f39c933a681; 0xed63a7f3492a8ef; 0x1cfc4d2a7c15f048; 0x1b221cd780c29546; 0x4b6da8489685a9d1; 0x42cc5f700f66abb0; 0x713424985a900f1a; 0x41305ef3a91b28a3; 0x5e5b8557f9788f4c; 0x46c27c23c798a3f7; 0x9e7b408b015f15f; 0x5f2b0abc7543fb2e; 0x42172da28778c03d; 0xbd66530d1f1a77f; 0x225eaaabc60b930; 0x74d68ad346b1783f; 0x35f7437511c027fa; 0x37a81fd39fa8d5fb; 0xaadec5d8b3d7b17; 0x12aaee92b845715e; 0x110bf922e777202; 0x5ebcc8904faf2b5d; 0x25faa7ee58b3e5fe; 0x231c9c4bd5d4f6ae; 0x39608cd92db226a9; 0x6327d8d0c6f1b4d6; 0x7fe41a7c93f766fa; 0x7c60aab120e36817; 0x30389a2f13429912; 0x6db1a589c759a330; 0x7c4e0635b2e7e73a; 0x4aeac3e004930577; 0x6358e3ea78116c19; 0x5d10d1a592033d96; 0x36e617dcfb2256fa; 0x81c1cd1f29e36e1; 0x515cd8f8ee1276d8; 0x60d9f7150c4082da; 0x39b6ded417e08672; 0x1aa460219f94376f; 0x302faa1c47cb914f; 0x2ca1f85473535aa7; 0x28418120887973bb; 0x6e1657ceb45e2953; 0x249769f501cb4ea0; 0x3b600ac811827be2; 0x138867ddc8e56c34; 0x458755d80e2b88e2; 0x3622c51ffa35dc23; 0x7e64f2315b70f203; 0x61d1cefcbcf0955e; 0x3205d6b477761ba0; 0x84cd2d145fa575e; 0x9c6333b672678e1; 0x661cb6ef24067b1f; 0x63d526cad50fc193; 0xa2df6];
   [0xafb19eda0d6b139; 0x19845a4ed2036202; 0x7f95d3e9821ad7e6; 0x62e9bb48cbb3f60; 0x52d02b714f0219d5; 0x222474bd684ad61c; 0x23699024361f8910; 0x60c09a5744babb5f; 0x2982898a257a2523; 0x23724ce2332789ce; 0x39a88611f01b9a1d; 0x57457f84da1db23a; 0x5f84d701b562b765; 0x7463a06deff0e8c1; 0x23ba9434133cb140; 0x35595863711e78b9; 0x66cdbacc92428fa1; 0x4d7f78b1bde02025; 0x47659700ab7fd596; 0x344873a5dd3648e3; 0x4222b670cf7999bc; 0x4160117dad389034; 0x3599ee4a4b376d44; 0x61ac87c8a3900dfa; 0x4ad3781b22b8058d; 0x1cf2e77c7e9be3d6; 0x5a2d90638204f4c6; 0x75733f01c375ef11; 0x561a50df26e58742; 0x474cf8ca1244816d; 0x18732417b8619c54; 0x7beb7ca8383319f9; 0xf67af792de6289f; 0x581c679a088c2204; 0x57dd5fd382d4a6e2; 0x10afa8198b9ea00c; 0x6f129625955a4d13; 0xb01cd553ea29d37; 0x30be597f26aaf53d; 0x36a2c28be72b905e; 0x692c96e6f6e19241; 0x76de00889b96dbd5; 0x543e222321fc4201; 0x45c7689749c38f6d; 0x33b737b8255b90ad; 0x2de0fd60f53f7983; 0x43b9eb503b604d8d; 0x3d945e0e72bbb7dd; 0x7ca2408e61532075; 0x7a20df783722fff5; 0x4e125203ec0c2b58; 0x1c4ceaec8ef74f83; 0xeba871815d216a6; 0x3e6db069ad38d252; 0x2946f3fb0b07db89; 0x2ae3c5090c5387eb; 0x4d0d4630e0420e38; 0x196d2ed0baffe2cc; 0xeba17e4d1dbae69; 0x6269f72e850989d1; 0x151d14508ed23008; 0x722d7f5a529cf864; 0x3ce04b9df3985e0a; 0x2b0a70de1221250f; 0x1ce66aeefc832a06; 0x3f27bdafdf7cfd26; 0x10f9ad0a0312b648; 0x26a744b28db0a64c; 0x2ea8d87ac88b806a; 0x53b82deef58ce692; 0x1c61d56aaef9048b; 0x649f858aba43c57f; 0x388206866e2a7ba4; 0x3f2f46a20a974b2c; 0x7120187ff1b9c3a7; 0x51cbe532fce5ed6a; 0x3bacde68be3906b2; 0x37b9df3e2b3745da; 0x4a373af9327d8068; 0x16624643ac279c8b; 0x1022ad1148534c1; 0x463f227ba6f71f07; 0x645acdd18d8a4c88; 0x29fcb00ce561ebdc; 0x435b3746dd56d642; 0x539d071590f9f68; 0x7daba0e5c5c31481; 0x2bc629f2b1ccf16e; 0x6c01619bf5f7d43; 0x75d886833d66373c; 0x1afd95422d667d5d; 0x33a5ceb3a617af0e; 0x18c097f2ddcdbf0d; 0x199cd62594e80844; 0x70c0ff7e9c22c002; 0x69572681cf0d72be; 0x5f022f2573df39e1; 0x66f176a8fa7dc431; 0x438278a462dbd829; 0xf3dd213903bfb97; 0x36fa8559a7f2bcaa; 0x4d15393b97471a9b; 0x6ba9aeb0a14722e9; 0x4ac8940a8dbdb7d4; 0x39becc59db69ab0a; 0x3434fad4e83d417; 0x9832b9581f0a312; 0x59fee792e71ad693; 0x236c5aa285477ab4; 0x28cca718ae324977; 0x244d6e4e106388a8; 0xd57cc0e2ea4012d; 0x61822fbf6978f27c; 0x473f4d358f854fc3; 0x3dd977109a2fa0d9; 0x5cf884b5ccad8bde; 0x14f0911c3d5d8a03; 0x79b7992743770a3d; 0x36c5aec651f17ba1; 0xf10dacccda62586; 0x27b07834eccf770e; 0x17f76bf1e03709e9; 0x2e7d1675cb8225ba; 0x66600f1ba0a0f7d3; 0x4e498570d9c137d4; 0x44c58618afbbfbdf; 0x3b4c534c45b4172b; 0x6ec2945dfc933fe7; 0x1beeb1c1cddbcd27; 0x266dd28b4dce08f6; 0x174455b32d7b5f2e; 0x48672cadb600a171; 0x2fba87777e08dfd0; 0x4b9963f849bba64d; 0x31f51fea055ba1a6; 0x7ff41b180c8c253c; 0x3c285e7038f54b14; 0xa9d3a93fca412dc; 0x6c49b47898669c35; 0x4a1178fced848fb2; 0x1349b221f098c27c; 0x7e73ecd6a63cbd69; 0x2f4d7142ad5f3f21; 0x78f5e3ea74c37c33; 0x47d830d50f8a5ba5; 0x38c01a8522380dda; 0x6238c7be1dece890; 0x3992dd02e87ad1da; 0xc32c6ea464f2ef6; 0x27827df2c4f3cbf1; 0x54d9bcfeb5e839e; 0x205c1dce0a1ffc47; 0x132fe66c6ddac6f9; 0x595d47a568490107; 0x1c0fb3255d5ead50; 0x52fa4436dafdaf8a; 0x1e808a65be5d0a4b; 0x18b194a596c60518; 0xdf65de7f6e4f284; 0x143f4e20d38811ef; 0x3c152e597b0f4efd; 0x6228339d0c9d04db; 0x934470cf3e74ec8; 0x4d47fc762d753465; 0x5d574b0cca4049ce; 0x7b4e70f270cc8702; 0x1310ab40519d6b5a; 0x48abc0a929d55c05; 0x601dc4d4218224e8; 0x2d75b9dc3799ceb; 0x692dbab855c8e41d; 0xd96a0373e2eae02; 0x48d6c0eafb086d1d; 0x31623cabd905f186; 0x7b6ec5f73b0aa6d7; 0x35ae0a1399ddc911; 0x219dffd31613ee06; 0x1f4f1f135ae6893e; 0x42afa2a0c196f4de; 0x31937e090762c608; 0x10cc44d202fc203b; 0x6691a424c5813ea2; 0x1fb261ca8d628725; 0x5f85e37aac581e68; 0x8380b6044ed1124; 0x275c0c62bcaab27d; 0x34704c79f5d8b142; 0x760ace6e782727a6; 0x1fbf8563e0de3ba5; 0x573138824287da38; 0x577a2c6e6b00056d; 0x4cf129f9b87ab172; 0x5ec5fa9858071717; 0x6ee1a4c359754dfe; 0x3dad6d5277e2e9f6; 0x279850318b6260d3; 0x2084e78c9ee72a4b; 0x1f51dddd7f35b36c; 0x4917047303e14264; 0x32825a1ba6c55c13; 0x6420a32b4f4a9dce; 0x6549aa6dffcb4fad; 0x28fb65ead69de89a; 0x6b6725e3be221da6; 0x322624265e535e91; 0x1a24eed6d77df142; 0x2cfdad9620a59aee; 0x7da7f4da09cdd0d7; 0x2bb900eb1a241535; 0x79d36925fd5b048; 0x448c43acdd9aa552; 0x7c1e2431374c0212; 0x6313a3b8266b4038; 0x17c1ab2cbd0be785; 0x61b75238f2ad7538; 0x7fe7a62642945c63; 0x2a2554bdb17e50f4; 0x69c23fd2eade210d; 0x32f0fde19697c32d; 0x58267ade68fb672; 0x592cacd9a7a43178; 0x39a1ee273bdd57a; 0x29d28dbc64a22b3d; 0x33abed582357935; 0x70d1663f9d693cf0; 0x5b75d0d095b8b82d; 0x33dbeaed01e5163c; 0x3e14b78e23fdbd85; 0x29452d0581a4193d; 0x402df976fe7aef21; 0x52fdffeb4e1349b6; 0x4a58c2386967266b; 0x229e707ace5306a4; 0x6409f207609c1518; 0x35f2a9eb35cc7268; 0x337f11a5125289e7; 0x19d48f674c554f2b; 0x162880c80804316c; 0x59249ea3bc8cdc4c; 0x38b8b864782d0591; 0x540fd8bbfb2a04a6; 0x3773d547309427d; 0x4d5d99313bc3b75f; 0x4c95e4b3636f1e25; 0x2c9da45f476c7d5a; 0x3ce309f109e24ee3; 0x687ac483a132c83a; 0x14050ee1a0ecc992; 0x1ef84324c3c4a386; 0x53a90357ada592c6; 0x59fc37c8cdfafe2e; 0x3c8cf6c14fd769f1; 0x795ff3c096e60425; 0x7cbe1830a7360144; 0x3ab920e17bd1211e; 0xdc81f1ff1347d18; 0x2f9ee55aaa6d7ba8; 0x3c2a2029a9640775; 0x73f1157c000cfc4c; 0x330fa12972873ee3; 0x1ce50b27fab8213d; 0x648ec0250e9bd8c5; 0x64ddedb5f22c59e5; 0x28a9095f84b477a2; 0x770cb59153000683; 0x3d16b0fb3837a9a2; 0x5395e77ec5d17724; 0x4b69f7bd8f1a660; 0x24df05e0f18d8bc5; 0x5a8313727442ba71; 0x762932f5df8873cf; 0x2636400a26458b91; 0x6a9b8a2ad522f48d; 0x6f0cd565c42ea2c5; 0x402d9f1d4f140391; 0x2d358e0bf60ada7f; 0xbf1b2989a5e2ff0; 0x4f083452ddf74b59; 0x58e5e70bb9f087bc; 0x2fa4d419f2990ac4; 0x5314e8385558f3dc; 0x3478e8c1cb5dcddb; 0x80d7b7a35bc0672; 0x92d632b2eba588e; 0x449dfd566f3d9921; 0x191e55bcb89a4118; 0xe919aeabc17c0ff; 0x6e155cbc040e1768; 0x5c1bcbab7f2970b0; 0xd4177cf308be228; 0x3817ca3452921a86; 0x585a4499ad1d8566; 0x5f24cff5d896e394; 0x50610e11e1b7fa41; 0x4b8d25a7dfe871e5; 0x2a84fadf5d525574; 0x18815fb78859cca8; 0x1b3254c0473905cb; 0x3390a0b6f7c2d7f1; 0x262bf71d9ecf5432; 0x501ea7a2110bd6ef; 0x65a0a30ea5830730; 0x428689992cffe8ee; 0x39b0cd2cf5726339; 0x6738ebf08bd1c2e9; 0x69ad9ea739cf7def; 0x55476c48a2e9c344; 0x4cdff90dd014193f; 0x343df4026bc47349; 0x3e90fab0081a6cc8; 0x85866d8a62ac751; 0x7880485bb7b3b600; 0xf234f0e9c9a7784; 0x79b77dbb845628e2; 0x7b47b83d70785b81; 0xa1ca3fc4d6c72e8; 0x2099dcb7cec33088; 0x1f896b];
   [0x5543cdc06be1feab; 0x38c876f267ef0a6; 0x6e63ecd0690c1c61; 0x5368bdd7886d4820; 0x7449b8a1c23672c9; 0x553c82bb852369d0; 0x79a216936747dcec; 0x76ef48cbf12a9632; 0x1cf1614fa02fee95; 0x47030d31a7c8b050; 0x30314e59fd1a0545; 0x78c783a1cef71a12; 0x42840ba13eb08c1d; 0x2253b639ce9a7903; 0x56588176af62a167; 0x3281be012d94edb5; 0x76d9f169b62f115a; 0x1870493f3a745ad5; 0x6431d07caba11a16; 0x6e387067bfea2fb2; 0x566ebe46436f23a2; 0xd0808685873e7e3; 0x2dcc5fb3e39dac93; 0x28e71145de4b61ed; 0x48f1c03bc92962d3; 0x3f6569c103b2561d; 0x10aa159b055988ac; 0x58833c7b7ee74717; 0x6357eaf3f1118f19; 0x56e5601420262b7d; 0x12aed12347b34a78; 0x1f30ddffd48db549; 0x644726fd88edb200; 0xda05baaedd8a0a6; 0x2432b258fab5f589; 0x13fd714113a77982; 0x1f3a81d2bb2c927e; 0x4445453685cb18f0; 0x2c09f011f39f3134; 0x46269969cbf53bf0; 0x49ab968e5bb13b73; 0x7d5e7857b4b03a03; 0x3a3825e688b42908; 0x4bf08cc2a6d5174; 0x78dd7caa32e42512; 0x29dbf7da9f759433; 0x3a671e615eeb6412; 0x7cea56eaa0bcd7e5; 0x55f6c46b572f55b7; 0x3792dc17ead89521; 0x1e90480abdaa385e; 0x2b6793889cf7a39; 0xb0688b221552fdf; 0x3b04af532c52388f; 0x217d9b78de1f5b2f; 0x2464e0d889e97a40; 0x16379ac8c33e10e8; 0x103a702334f776bb; 0x3263bdec83b436a4; 0x8b97fd599f66477; 0x3f27560d15de2fcd; 0x38c7b0be84f132c3; 0x62e3efe37860ffe7; 0x11e078df9a1b4b58; 0x3b382edea41048fa; 0x2dfa81f0f7aebe44; 0x59cc4ee7c313c62; 0x8ce40f12f5ef65e; 0x3cf474ced0471501; 0x493c9fed9b52c02a; 0x762a33d9931693cc; 0xf35d279facdfa3d; 0x1f9a28ef771933b9; 0x21498d20128bc800; 0x21d0bd674ff0ad67; 0x418056e85f741305; 0x4aa30aafa0c93753; 0x339667ca9c0fbe46; 0x5bc1946b9703e643; 0x58ae877b77136c28; 0x7cdcdb05037e1782; 0x43c273e175461d67; 0x4a06366e331083b2; 0x4056d17a51fb3ed9; 0x520a21dc0b845097; 0x139482abe046f39; 0x12589d6281859c88; 0x6c3ead88deef796d; 0x75324685f9359279; 0xa49665f30c28fa9; 0x58425ed2b960bc64; 0x538fe775c0437c84; 0x4dc7312525c9fad6; 0x515c11f00f4b3cbb; 0x1d434ac34836699b; 0x1f2ca51b6240733; 0x47589860838b1c2a; 0x301ee34242cfe5c1; 0x4517de7e2a014bac; 0x5aa23b2e484766a3; 0x745ff6c93300dc8f; 0x7f9b3b25183f7386; 0x20e57646aedc87ae; 0x4d92c863ade9aa4c; 0x3e448bdc2c73bdba; 0x19946b24ab7a0cad; 0x252480580e1ea74f; 0x6cc42b090ee369ff; 0x6dcfbe2140b2dc95; 0x48a435dc03af5124; 0x36c64cec87d61f0d; 0x47c2c6d94f0d1507; 0x1e36a094f65b1eb; 0x46e73ac5f45789d; 0x15fed15b45b611f1; 0x4eed8910996f4932; 0x73391ed05588980a; 0x766f0f885f00d776; 0x5bb2514a9eed5903; 0x2766a28ca1d4d190; 0xf34be4565c16cb; 0x34f508dfb4909237; 0x36bdc2d7e9d3a159; 0x256f5f7a5346c089; 0x1e2f6b28ec5f5ac6; 0x543eceba5040cd93; 0x32be270a37b16f7a; 0x4e6ac1ab1ce4b941; 0xb1a11a2f9fec83b; 0x4115bb8ad59220d7; 0x3b06c7ef0afba7de; 0x82961336153ca13; 0x748973a20f16b6fa; 0x3ebb633ba421d015; 0x14c8abfb7aa356a0; 0x4d794f59242b5c4c; 0x4ec35dea930e671a; 0x180f5856c1d36aa2; 0x5ccc6b7a2c32fabe; 0x494429f9e3171079; 0x76208d95c991c397; 0x775fe48746d13ba5; 0x44bac56b0c03ec7c; 0x2806e52941255be4; 0x7bcb79d39dcc2cb9; 0x39a19e6772a8f7a5; 0x3d4e61a69ebdf7d5; 0xcee8d4d79c72fd4; 0x3b444536328d82df; 0x3e3e7fe723c62cbd; 0x2f01cdc836ba9402; 0x4f456307eb212266; 0x385d95d1057e665; 0xb438a6135dc9613; 0x2c9e5f32596eac8b; 0x617d4a91362c6050; 0x5ae94380811efe5b; 0x11911591bc4214fa; 0x35c8f78a9c113c11; 0x4d4eddab98cc4034; 0x6051f8970719e9e5; 0x5e4e45ae83ad3410; 0x3ac62ea1d20e7f8a; 0x6f3a1296299fc025; 0x6e7420a78dd53fb6; 0x4738171e79e381ef; 0x28583e01f284f866; 0xeff8627ebc6f317; 0x5889a594c9afb173; 0x48dee632008fc311; 0x4782d6f5485193f9; 0x7286d3fe6a96e3f4; 0x17ed3b0e6386cff6; 0x463829fb29584254; 0x46983908248c0f7d; 0x5bef1f5ca3e28fc4; 0x26d2cf3ff8ba280b; 0x2296f421039f440a; 0x1bbc20bf815ec4a0; 0x5297a6e757ce2f42; 0x3a00ff679628de40; 0x3ebb53ac12b52a1a; 0x41a5a32ad8e64a11; 0x4a53248508765b1a; 0x2e1dc546ae08fa46; 0x1658575d46550d81; 0x631456d307739e92; 0x60f3fec6d6fb87e0; 0x244dc5de14259fb9; 0x4a0e8f7e5c167e57; 0x2c3aa3c5d26b7742; 0x2de8642ee49f47da; 0x284de12c7d006f98; 0x3538d1adf8ebfdd5; 0x4cc6c185604c5629; 0x3ceb4af41d2ea7a4; 0x7fa25e64b97f3b67; 0xe19b4d3847e78f7; 0x6a9785bbbe978d75; 0x263d8c25578f8554; 0x799d1e82186cec5a; 0x6a05d252a9db50ab; 0x468551b5e23dcaee; 0x4b3ff2a18a83eb00; 0x3ea3add1f50872ce; 0x6932449be7ac850; 0x4dfd005c66129ad; 0x3c7ed6989a906d82; 0x10945f032a0e6665; 0x6fe55114020df3e8; 0x789701ff26ecef44; 0x582477361c1d50d4; 0x6ec0c4bff6290e23; 0x51191aa5f7c5cfce; 0x1a4d8b85810f0f3c; 0x64176f9fc1f95d90; 0x14fb1dbe2a25ba7; 0x6d5d5e9bfd25db73; 0x2f183736589dcf92; 0x2aec93651c8f1e9c; 0xa8198c22dbe5a24; 0x3a8bf468d3e5de51; 0x12248ebf31ee901e; 0x4e6bba17d177ceb2; 0x33601d8a6855a2fa; 0x78e1f2134a0ce080; 0x396197e014da6551; 0x5f1c009ce790fc29; 0x684162a7c4c59c6a; 0x1e324064f6ad7b24; 0x22f88aef7b44f10a; 0x7d13a25a4cfc4383; 0x34092fd99c264900; 0x7d5812a2991eeff8; 0x35d37d97846899c1; 0x506ac647bd0d67fb; 0x5c4a9cda0b1e36c0; 0x8b89fe8295c00cf; 0x6de43e092b592de5; 0x2322ce9f0e3b3823; 0x644a89b759e5de5; 0x7e3bb821b9c4271a; 0x696dd2a4bbf34fe5; 0x26c4bcb20f26f7a0; 0x2318d6040e5dc1f9; 0x7b7df221201f48db; 0x6a74d46d56821c44; 0x7f148718db236096; 0x18365e0131e61431; 0x264432356e35da60; 0x260f1efaf6f2375; 0x333987c6ed212eb5; 0x5958de30a5eaaf4c; 0x35b1e9bd078050c7; 0x7d961bd79cd07e7f; 0x7fd4395bd6a03c89; 0x6695ad4b5bb45c36; 0x6dca2a866164c37a; 0x6f907607dc22bc55; 0x6a4f79b1df754c91; 0x8c47949df936676; 0x64d14dd876f0c61c; 0x19bfddbea1cc8fc7; 0x6c894350f50393b5; 0x94e2193f3ea2da1; 0x788a09f2ed576539; 0x397a5f4b9e8cba58; 0x46810bea475ade9c; 0x66459e008cf5a767; 0x59ad7158ab8721bc; 0xba868fed94bf048; 0x123e5ae9c90504e4; 0x464db11d99fdd72e; 0x403c4ece66b22519; 0x6e0337c5a73f139; 0x3aa072b30f8ae1c6; 0x6788432c73ba165b; 0x5426f951fcf5dd31; 0x5592d7c47d620fb3; 0x58d9d0be2edba2f8; 0x21c447c8edb2a37a; 0xa1d1d414f60a5f8; 0x7fd9d2d80fec9953; 0x2bedd60a7145c7f1; 0x3d67e85728377d35; 0x62e5633ca06dca26; 0x2f5b45ff0405a599; 0x79b88c1295bf656c; 0x7d415d274eaf9402; 0x5bca5ee3dc7e04ae; 0x7a2c93ee3b5f6aed; 0xa807bedd526c8a2; 0x1bfee1cd1d2120c2; 0x4f4fb2e59b863afa; 0x7846101ca46f7ffc; 0x23797265b04e8a4; 0xc62c3a482c52a90; 0x97966d14884ee7c; 0x326a4a88f2c8f784; 0x66782b6827ae6c8; 0x583d3fea94dd36ed; 0x94756e813dd5127; 0x5b796b550a9291cf; 0x690c03a4edec54c6; 0x7985884679ba7c07; 0x63594661f7803c7a; 0xfc2aae48f5b686e; 0x1186d315e46654e7; 0x74797c053ddd7380; 0x4d43663020909cf9; 0x3d0e5f26aeebf494; 0xddd1edbb4374246; 0x79ea81698de88199; 0x2e89af61827d8838; 0x37750df89d183007; 0x3741254b2c7871de; 0x29dc492072ea8026; 0x303485];
   [0x283192fa8c290d61; 0x66ceb868abfee257; 0x660afb9b28ec490d; 0x4ec03215eb338b7e; 0x6b6e3e5a7979f8bd; 0x6660a7e72e3f26dc; 0x67aa3c1a081405e3; 0x2b3162f75e7b439e; 0x2ab2a9c1d7a63dfb; 0x768dddd0a787dbf6; 0x79e7e42f24d5f1e6; 0x21efdae540883dd4; 0x261288c957a6e214; 0x593a33dda29b0081; 0x2603f8ce97f45d98; 0x2747925a37ff54b6; 0x11f494a04f2f9baf; 0x27d619bce9219df7; 0x47aeabc0ec2f782a; 0x50ffc2950e4c8d08; 0x45341c9d19d9b0d9; 0x1ff9f5d8b4288b72; 0x1a60f0f2a1b41d3f; 0x4ebee625dce01b6e; 0x6dda67baa6250406; 0x56fb8b6441841a0d; 0x2f6dafd7ea933528; 0xefe5b86a73be932; 0x3f36f22c8a1bb7a2; 0x6f638465393693a5; 0xe0030e249312d7e; 0xd5b20cbc117deff; 0x506dcf4e55726584; 0x6c4bf54eb839b0f0; 0x23cc662fc96967f3; 0x2240ed3e1fc2fe83; 0x22637a215d2302c6; 0x4e16e8beb7aa4928; 0x13ef2df19b6ac60a; 0x77f34131eaf3d83d; 0x543fa12fbea8cd32; 0xd984a3312e439bb; 0x78dd982ed7c06a3; 0x51910c1bd6974fbb; 0x436fdd01d568dabe; 0x701e3f20bd99d0ea; 0x2a136bc9f024daa7; 0x765fa9ebc4ee7104; 0x2c50ebdaec33ce11; 0x59d1de0e7c520c1e; 0x1a9637cec992e084; 0x5daf4d681f4b9b92; 0x40e4c9e16d356626; 0x5e8a7c3c7e06a453; 0x4b4c1a7dad262b3f; 0x4bf8271dc1756ce; 0x13f80941c8be01e4; 0x719ec33068a210f4; 0x2cdf8ce46ea302b6; 0x48c6434ea1856327; 0x68dd688f1bf4c5d0; 0x698f17b6ee90ed71; 0x45383d4295ffea18; 0x236764b90a577d5f; 0x7fa56a5e7a6a1155; 0x7f6b2ff4b7079fd3; 0x2ca00edb9cabcbc2; 0x15b5dbaae22edd50; 0x69054f6fb88260f0; 0x3e1439894f7967ae; 0x239d5c46be534f5a; 0x60d4aaa0003382a4; 0x62e077b87ff88eed; 0x5b6f1d75a8b26519; 0x1e7217d7e68934d3; 0x541e989eb22848d9; 0x5645df230c6a5ce5; 0x6b94105f8d30624d; 0xce29406ab2ac421; 0x2ef8e2751944f1ad; 0x22b738185d2b0e92; 0x41a8df1b3cc9e038; 0x12dbc347a49c3d79; 0x7df19fe443ad6628; 0x7d6b5ffeb2a5db69; 0x62b07872931f6a21; 0x2cdef4afff015d97; 0x657c0eb61da5b094; 0x22e8188b90548541; 0x26561d290cec0b58; 0x4895f3740d45e125; 0x1c1818d3b9f7a712; 0x5ad54373c4f3c5d4; 0x6146d09f638b972e; 0x2ce484d6ee103af1; 0x478e220bc0889795; 0x5cfe438b447ec31e; 0x7d434f440e38f828; 0x20d19ef110b13816; 0x32f66ef9622d006d; 0x774a8015bbb440ce; 0x9923fc68a512fd6; 0x246f5bac0bbbb432; 0x219c049f90a85af; 0x1b567f67a6dd1059; 0x496a668bb65b71f0; 0x4aba5d6797d686ed; 0x201a5d5a9e50c068; 0x1102c9bb33b304e; 0x4623871dda50a29d; 0x6e810b554733dd01; 0x3c7ab7720b7862be; 0x77647e0edde41d29; 0x3b905b9cb136ca7b; 0x9bae7ab6f34672a; 0x476012e34d274801; 0x47863b36e33fc440; 0x605085874f0d2b8d; 0x4a11dabb0cf028dd; 0x6d2ca8d9f0bbce46; 0x6403ea4795c53e7e; 0x26c1199544ea249e; 0x77141e5388a93542; 0x2ab21e92804c196c; 0x411e44464651f80b; 0x4fe3af193fa171ed; 0x2572a52f89585e82; 0x6014c643863a030c; 0xd1466f4e62ea26f; 0x60dc9fc5f7dad37; 0x24f2103d4d3ca72e; 0xc94d52e8a870c1c; 0x50f738259f0259e3; 0x4332dafc4d5e8e78; 0x5dc0dfa8ed0f5c27; 0x688118c160517538; 0x510c51499c4be91a; 0x23a89ffcf1b7da1e; 0x27f4e4c0c9cecd23; 0x319123d398f2ae71; 0x34728a958eb3d9ba; 0x6dae16fa4eb4ba87; 0x2810d0a9ad77138b; 0x7bf049e284aec61c; 0x7db06164adf85756; 0x5a1aa4ead3921c56; 0xb367c8e8375722c; 0x7fde027b90ec771a; 0x62c4c163a3c45d96; 0x252f693a60182330; 0x2fd8c6ed208dfc3f; 0x4ada623cb1b49398; 0x7da8188f309273b4; 0x3527f70ebb7a8648; 0x5eb63017effd275d; 0x2113211fe37ce728; 0x47cb095ac044b73a; 0x5e3239f831730d8b; 0x2c4d76784ec22089; 0x6d0d4b12e9fc5842; 0x767d96cceca54c5f; 0x248894afb283403b; 0x260e4a4ec9edbefc; 0x341e5abe0cf1b485; 0x6d2bef1ccf589928; 0x41fb572ada5662ca; 0x2b46d76dd46af834; 0x2ca126e21098e906; 0x2324de8d4c1fcf1d; 0x69440f1457fa73ab; 0x7a978e6cc6d308b6; 0x34e4cd0a3df28188; 0x66fa7084588afeaa; 0x4dc338bcea0e0d61; 0x11af14cf271905f1; 0x2ac920e27083bdfc; 0x46d083c58af5712f; 0x6b8ae20fea0bec89; 0x4606c2321f59e22d; 0x2a2ce8af6443830b; 0x6344894cfd1c3ab2; 0x5b25b77c9849d43a; 0x72fba9cce227cadb; 0x59b8aac4f7b5671d; 0x5cd063b1943e4816; 0x152edf510b458c71; 0x252fed04129bbe91; 0x5c379022c661af2b; 0x492863870961a43e; 0x7fcabdcbc58a6f63; 0x60162268b027b230; 0x65df6e808cfcb206; 0x2ae3d4cf2fb5f803; 0x70541addf3ca6260; 0x2678fcb24185b3d5; 0x5d1df624b41df864; 0x2d5a637ce67128bc; 0x6585a5d272051ca0; 0x7c9b666b53f8459a; 0x3b6cd3effbfc8180; 0xf2420dc75f2793f; 0x29956d2935d5db43; 0x30bfe8808b493f58; 0x1bab30f0a151d9c; 0x75e06ee055227c59; 0x13f75c1667c84fcb; 0x6e7617b829b6c6cb; 0x3d2175972a3dbba0; 0x4a7f298a678bf731; 0x37de5632651eb61a; 0x686da730635e5d8b; 0x60040945d45e05a2; 0xcb81c9ef918babe; 0x93f0834d8fda571; 0x758fca315838749d; 0x4d4cfc43573a5c14; 0x7323b0e9272c691d; 0x74692465b218e80a; 0x33925278041e6315; 0x48c8152e49c88098; 0x29011b1a551e7b6f; 0x7a2f615c90e2ff7; 0x29cd3bead5f84308; 0x43b8f6876b800f38; 0x7b76b44dd73e82f6; 0xbe7b2019466a569; 0x63e3b0d2c23c009; 0x273a0caa27022688; 0x380cfbc45bf43e39; 0x492bcb0e45d32167; 0x726afafa0d1d8816; 0x1ce357c73e0d433; 0x507a99af328af2ff; 0x40b8ed3ae321c7cb; 0x46454120d34d380a; 0x40ad8d1b7cefd39f; 0x137761181c2ae24f; 0x3074e30f55db95a9; 0x6271f68db0c83c56; 0x7672a76ca5fded22; 0x7a4f5fad13c6f0b; 0x661888f3f5856143; 0x1da67d56a9507aef; 0x3ca2926da0114c4f; 0x25b13645f5196ed1; 0x5ada0eaed47aa5f3; 0x2c5967446e527cda; 0x5d3a068657ec440e; 0x25b7b87e7122d950; 0x75098af0c608333d; 0x392e5b091fd1bd0b; 0x1e3a589e05dd676f; 0x95ebb59c018dbb2; 0x4b366af5e42fff0; 0x70f8472cb5d55528; 0x5ac39e20ceb8c328; 0x794faa9ccf51d5a5; 0x20e9adb9d16dc16e; 0x35d500845a8f40df; 0x2e2d55d18ce6fc39; 0x37fe7e7c9942fbfc; 0x75ea2615b23f67ef; 0x25a70cb6f5a257ba; 0x1a974a5afc30bb72; 0x1f522ddf08bd3732; 0x147f48fb3910f98e; 0xe014a898a3cc179; 0x37bbcecf699feadb; 0x68763661ddfeded6; 0x21b3b88123c6f79b; 0x23f46a69630f460b; 0x7de7461a71bbb99a; 0x1c218c0fd4b17626; 0xb301bc1159c4bd7; 0x74d178df29dc6d50; 0x5a02a93c50a36fc1; 0x26c9effe605389f0; 0x62648becb7196cf; 0x7c73a126c0e3751; 0x50721acc05bbff9b; 0x5778fdfbc7970b68; 0x9d82f9bd2d7278d; 0x742ba4f7d5ac0b49; 0x158c397af2378aa4; 0xf410f949e245603; 0x434bffbada57d86e; 0x5cd0deec511d6355; 0x4250dbefb8e7d157; 0x717042312094e2a1; 0x8df3c85e440e963; 0x2e94f34ec8f36859; 0x1b7a2de89d63fe3c; 0x23292543d5794943; 0x4a5443afd8d52d71; 0x6a329256dd31b73; 0x3075dd09c7a310fb; 0x2c618ed0c8404271; 0x569b667719c8eb56; 0xf253a2be9b687df; 0x507c1e8921dbbc50; 0x72881c7da82cdb05; 0x241f2b6f9576e509; 0x74314ca35908284c; 0x7271d3b8c6e938d8; 0x3bfad10e92634385; 0x54bd67291bfe1ed5; 0x6e98dd3654fc517b; 0x396e8d698ecf96f6; 0x2a8d6c4ef4d404ea; 0x534da9eb5b753712; 0x565361fd3ee30556; 0x440e1e095f8c1dcd; 0x1c225fe983ab089e; 0x4a039795b31acaec; 0x1560aaf1e26a81c8; 0x60cbfef8b4ca9612; 0x5a869d16e134974d; 0x322c6f];
   [0xa8161ffb1b1c813; 0x203f2f7235c5a07c; 0x21f3b448b77b5014; 0x13414fcbaa5281f3; 0x5982298e4417f84b; 0x44ad19cf2ff26a33; 0x291d2536ac28534d; 0x9350a9b1ddae250; 0xfcf702402990ffc; 0x488432477231c4d9; 0x3bf5dec1cc377c0b; 0x14aae0ac68cda005; 0x2f9ca6e5c282bf15; 0xdbc185bace89542; 0x117e58cfd45b2d9b; 0x1a894432be047b68; 0x5632157a8622566d; 0x1543b0ec58eb930f; 0x69fc3528ae22fc8e; 0x1009a91021e3cc8; 0x62377eaf6c59fa3a; 0x40b74eb0c44b3ee6; 0x44387a0be175e3b; 0x46f2a020bd4ae293; 0x6198d8af88ea1257; 0x2df5eb32c8379b9; 0x1ca1f894c2232b4f; 0x17c8562e078a9d07; 0x4c012a750ee96f5c; 0x5974a838fb73766d; 0x30b8b459294529cf; 0x73e54fd2bcdfd53e; 0x3de655d1ffdb83ba; 0x6b8d4659485c1ef1; 0x7adaf5b6f3c976bc; 0x623b89325c8bbc9f; 0x2c4d5f3e7bf5848; 0x67318698a6092724; 0x4697d7eaf666222e; 0x5de23c3e5cc43231; 0x66f82a35ec553b48; 0x7134adac8862cfb2; 0x6c918dcda70fbbee; 0x5dbde2915a4e6771; 0x5e1630dc58f3cf0e; 0x3b3eef6c453d7b4b; 0x2211f04143a60b8a; 0x5d64a98473336688; 0x1bbfada6ab06140; 0x3f2530042257cbbf; 0x2b1a1684e88b8602; 0x2e397d055d23a7d7; 0x7fa5806ac3dcbd27; 0x2a6b21b29f62585b; 0x5cf1cfe3fde03f7f; 0x5dfc96967bb809a; 0x16b1f83d292812c6; 0x22a2cfa67f7e27dd; 0x36d7a952bb556cda; 0x189359d2cdf0a566; 0x27cffae868e3149d; 0x14c07f808cecc3c1; 0x5ee78a5654c2cd58; 0x6803d9647be6e871; 0x5aefc0f9364957f5; 0x6c4f9fcfa224600b; 0x3b4bb6a056861995; 0x92e2f79716f9ada; 0x44ee716d4686a483; 0x79777dd87ec2a077; 0x3978f14ca530a13c; 0x49ff0b89947c28ae; 0x7cccdc283847aba8; 0x461a7d9ec44fbf84; 0x7da1636a58165f55; 0x4d01bb9655049371; 0x48d11cc3b2dc58c8; 0x2a598071eabb0d76; 0x154afc4657342e5d; 0x4a2cf5a9ffeb3bea; 0x4ee4e640b1e2fa23; 0x1afe1a88611898e7; 0xa84570cfcaba8fe; 0x38ef361e6a9ea715; 0x3109623dc203bbf6; 0xcb73b0edbdb6cb2; 0x943ab60a1e26bea; 0x6dd72d0aca912633; 0x52740ec3cee41990; 0x6af30baf8a858176; 0x7ac5d84cfe84b588; 0x55d73039a1b08c67; 0x1af0bdae4ab3bd83; 0x1f5019f3cfbda324; 0x7639972ed59f69a7; 0x2cdce02990d92e69; 0xd16e87846797242; 0x2e035e015994e855; 0x12cee343feb4e892; 0x12437c5a6c934dc6; 0x3f23b34f26f1f12a; 0x4591f90166c4259; 0x6471d72f5945ff3a; 0x25d48f7fe55bd03d; 0x4b6a2b48fe7a9605; 0x7d68f695818bbe6b; 0x7a26527f1a7ab74e; 0x13e1a2afa080c002; 0x1c1b05cfb25e105f; 0x2dd6c64bf015ccfc; 0x5e7309b87ebc7d4d; 0x3e41a271c7e24b0a; 0x428b94efe054c036; 0x3f9011809135c03f; 0x449f3c1622650559; 0x67c2dbaf7419265c; 0x263d65a523a7e4d3; 0xce25b9105c4dd93; 0x336e9a95779187ac; 0x415c41ccb2b125a0; 0x55799769d9a986ce; 0x20c306633b10f58c; 0x76ed8555d11a40fb; 0x32324f6bebed676f; 0x5d9da7e373aa0e3c; 0x576ad9411e9bcb13; 0x72751757f7bcbb62; 0x4fdfb6a218d0b4d9; 0x48fcc00695fad748; 0x395cb566c9cdbd59; 0x2d47bd6c2cf3b31f; 0x29bc1c19c01e34c4; 0x4a744af174165eb4; 0x1976ce4f2a7aaedd; 0x733bb47fe496bd2; 0xbb04eeb4afd362e; 0x5975d2e8cbc60a5c; 0x68f9fbc41cb6f557; 0x3b1e9b0362e5eaf0; 0x5fb70bacef36a750; 0x36de3c42da811d44; 0xdf74723b688f649; 0x4a3e94a17fd500b2; 0x43c3be52bff2755f; 0x19221b11fae6f59a; 0x3e3aa84a795f2b59; 0x21866a9e3c068ea6; 0x38ac832dc49d0d41; 0x5f25cc7a769648b7; 0x332e687c5adfcf6c; 0x689bb0837b63f042; 0x110412339b31321b; 0x18232d2e45de5a3b; 0x26919e928c2e62f9; 0x3cb839b5e1f5d69b; 0x38a6a6c526c64c0b; 0x34bb03217179f579; 0x78ca59970afc8634; 0x4663069addcdf2e0; 0x5066458a5ca0f6d4; 0x2d1565369ed3f8f2; 0x74226faf963b8c32; 0x2f2b65f306a96b54; 0x79aeab8634dde3c8; 0x3d1a9981d106755a; 0x67600467a0fc95d5; 0x2796c801e1227923; 0x7a73f1cf1e721f89; 0x508aa3a59245edf5; 0x7db3d78cdb14726f; 0x217cecfe5e4d7d09; 0x466149bf49202647; 0x5b78254ee3b4b643; 0xdfbc0978b8203d1; 0x62dcbb1d44a38668; 0x789f76b7604b6fd4; 0x2cd089ef04d82d79; 0x79d328f00ab1a03d; 0x410171a1d7adcf19; 0x1ed2e06a7ac37dc2; 0x20c80de548151617; 0x36acbb28e1f4989f; 0x2b6b1d0c997d067d; 0x48f7a78039c1f443; 0x7dd5f958381145ef; 0xa95c40f30adc329; 0x65ebdb988af475d0; 0x649dfb02156157b4; 0x78f0c84c604bb490; 0x3631e016b3261ed7; 0x3d398044ff762759; 0x64b19fda1f6e1e6e; 0x15d81d78c2c3e6aa; 0x5cafd8fa29257b6d; 0x6df823d112ed7258; 0x11e6768d65d8716f; 0x6b765a4d8392da3a; 0x64a7d2b789976f50; 0x5876ecfd116fd7b4; 0x27cd9d55806d5734; 0x4e7e872ddfcd55eb; 0x6a52e521c5d2b1bc; 0x483ec2d9818a972; 0xae11f335ab8e3b7; 0x6daf34a038663737; 0x10331929d25be4b8; 0x365a03e0cb4ef932; 0x34ea5f06d70ce507; 0x20239d4fe8585326; 0x3e7c1531a1d41b55; 0x31e05a486b669f66; 0x7f2a6b0dfbb119db; 0x643306abdbeb8655; 0x63a3cda9972e9db9; 0x570e755404ef0067; 0xd8b7bab6cf437a4; 0x454aa9b0fe6bafb9; 0x5bc9930954683fc9; 0x7db82dc85c8f36c9; 0x3b368a4e82a1f412; 0x6e2595065109fd17; 0x21ebfc9732e2af73; 0x2441adcc8516cbee; 0x3ca6e0e25c8aab2b; 0x61f9e70b695fd330; 0x5ad9a31da164327c; 0x65951c8bdd5f684b; 0x64373f7dfb15e234; 0x14de97872c79a53b; 0x35d40b9229c1a4f6; 0xf206a8fd9967d51; 0x6a6d45bbebcedf67; 0x5d0c885b832f63e; 0x5547e99517ba54cd; 0x748fa1d91115b8bb; 0x4a93131d3f57de91; 0x20c8202bd15d89f0; 0x1b4cb840f8fd0414; 0x126a331404af0d94; 0x52228e8e5265680; 0xb6cdb5f002b5bfd; 0x60b5af128b12366c; 0x4dbeb9709034ab00; 0x5cd6499511816f04; 0x780b963844981d2d; 0x5b1ae3432f2f9ae7; 0x7fb36f49b1772c6c; 0x112d1b421168afbf; 0x6b12f03319260c3a; 0x5c25ef6ee8f00fc9; 0x4d5f460f887b88db; 0x7d31ae6d44492cfe; 0x681e9106f413a6db; 0x2d79b5cb347a0b66; 0x640d701e006c2b59; 0x45ef30550aa892a6; 0x478f2d988ccb56a1; 0x595e862ff39bcafb; 0x4affc3ecb84bc70d; 0x56e5299121b9f54f; 0x192a6f7116e2a133; 0x3efa473a163d4110; 0x719b624f63f5b4d8; 0x5030696419258122; 0x79b130eca74e3949; 0x401cc751bf245a18; 0x6cb34389e13b9f47; 0x2258cde92da61ca5; 0x2efb095b113af529; 0x76972f17d76747f6; 0x1bac79e51274c132; 0x70aea38589ce5392; 0x63e5a4822fce6779; 0x52f65a76b78dd104; 0x3ae73f3cf23ee45f; 0x78f4812acb9a8f2f; 0x62711688a247cd30; 0x80986fa80e68a6b; 0x658aebefaa70af9f; 0x313d2a3aca74b84e; 0x76964822134835e2; 0xc6118479990c44a; 0x123d8514e643cf4e; 0x7d0953f7b9aa4102; 0x670d0eee741aeaaf; 0x6ab54dd3880b57c6; 0x2514d79b98cd4218; 0x4bc272ee660f59b1; 0x3c9af3b9d04f02ed; 0x30227eb534c5b5c7; 0x403c93f0213ef8cc; 0x7ec6c73d3b74ef0f; 0x5159f8239b8c563b; 0x67ba9a31e7414370; 0x1908a9d0b02fba51; 0x1eb0ee5fde9c4f74; 0x30aaa04fb986df71; 0x18f9c7d69a4b0702; 0x22200fc3081aa1f7; 0x3950664db204688f; 0x67e05ac049610aa2; 0x663759c2dee182c8; 0x24b6d10428f79540; 0x2352753580da2d80; 0x4b113aecf0b46b9b; 0x53aecfdb4042c051; 0x11877ab3ed3b02a0; 0x154b64999044f694; 0x5e032d49f1f1c38e; 0x1652768d64245a33; 0x597994e8ee89f1e4; 0x433dad459875bc73; 0x7b32d8f29b98d167; 0x537815802d8c242; 0x4be6bcfea5511c31; 0x6dd78929626a1b14; 0x3171a55d4b74b305; 0x327e0c];
   [0x2ea7a63eec66689c; 0x26d2faf38d025c77; 0x37bc3fe95e21cff4; 0x51099ebcb9e201cf; 0x47177fb4bcc392b; 0x73878f93736a2614; 0x6ccc472bc869e781; 0xab72c2011abacb2; 0x136761cef864726c; 0xdbeec6c2bdf3c07; 0x141eb3c7bf37eccd; 0x202db5ab169b09ff; 0x706c619268cd6220; 0x1c5836555b1d5ba2; 0x41f6544aa27a9a02; 0x28a75f774821191c; 0x744e5951093755f2; 0x1375613ae4ffb982; 0x3e5c4fff3a874d54; 0x2bbe985c1056b5e7; 0x3efb0e0ff0858ab; 0x5ea29e9e5ba28f75; 0x6127a084e834142e; 0x10bfd821551e91ab; 0xba17e4475647798; 0x25f8a3082e8c3528; 0x11c96a440990fce6; 0x2c0a31e3aeb768b4; 0x35a199ca47cf0733; 0x43566e810e0b2cba; 0x564059fa79601a26; 0x2bb9341a474d3820; 0x6a7409b3cca84d9f; 0x882aeb68971eeb6; 0x53972a593ff8fce1; 0x32a12b6303597c95; 0x5121b87b942ca327; 0x3f2289bf93efde9d; 0x6ab1511d60c06b8d; 0x5ea8159c09440783; 0x912315f02108e6c; 0x352e33dc9aa4c15b; 0x22961e8e210f953a; 0x415e0e2d1df4c1e9; 0x784e942f3aa716a0; 0x4e66ccfe415c5a52; 0x1adc46fd1f58229b; 0xb70539e9015159; 0x78e141d30f847184; 0x39bbf618195ce7fc; 0x4d0175f8ed29b75d; 0x65c6b473750f0aaa; 0x700b300ace393347; 0x2dcd3c04e45ac330; 0x1638aba4ac8ab42; 0xcbb44ae67f55351; 0x3da452116c0feeaf; 0x78d10b030532471d; 0x13d897162bfdbe93; 0x79cc68d533e55fcb; 0x1c85c42a580448f9; 0x26fb27123a42f69e; 0x76447ecf7df034f7; 0x12efd620446ec0b0; 0x700a7c22ac112762; 0x68eb7477b4d47b0b; 0x3d55bb2c1b3c1c0f; 0x453d561990675f65; 0x1f1d6ce7ed2efbb0; 0x4018b5503e0e86c2; 0x3b680d43ea218edc; 0x68483d9e496ca7f4; 0x1eb940ee0a78b942; 0x74386abb9848b90d; 0x1296d4921470ee71; 0x2df1bf59f6931f5c; 0x12fdcd35b65924f2; 0xd15ef9a1b5493d9; 0x370c07d5714a4ac5; 0x32dbce1d2515c382; 0x63c686a87c487ce6; 0x546cb194f6877c19; 0x626642b72c572686; 0x3b0a20283767aa45; 0x7bae5814cebc5b0c; 0x722e6bc70c4899fe; 0x5f3e68eaed5791e1; 0x976138d52ed9f2a; 0x56bf4e8f71fbbab; 0x523c75dac863d1ec; 0x3c9d185cc2bcca11; 0x3c410c1e1f2b640f; 0x6f1640afb933c630; 0x209d04cd1a2dced0; 0x17853b269b18be41; 0x3a77ecef8711a92a; 0x2738e8b032ad00c4; 0x724b553b75a7c288; 0x5284416dff15da43; 0x469605178fdbd6aa; 0x3cfa0ba7b3fa15df; 0x3d47ff700c6f398e; 0x50edbfacefbd07b6; 0x4a79af8caa066140; 0x4534c66ac3a237fc; 0x219a58eb892e7daa; 0x542c2fd04e32449d; 0x7406a1ddf5aafb36; 0x3fd369cfeb67da60; 0x149a70e22cbe6c8; 0x24bcaef698b5255b; 0x4787a92fce8c92bd; 0x78f76ca3dfbcea83; 0x7af15a7b4dea5ae6; 0x5df9ae2e6b785614; 0x46236f7f7baada7d; 0x389ddb491c986f3c; 0xd30264139183a65; 0x50e7523cb963ca52; 0x4eafcb7ebef21ca; 0x62ab9a61fc0adc02; 0x16f6a31c94559047; 0x40ac3a81baf19587; 0x255b8ea1be78b412; 0x2b02971000ddeff1; 0x4be38afd710cbab2; 0x755c563de78aa44; 0x1b6577926dffdfd9; 0x18fb4eab943ce179; 0x103952ea77b0c2e5; 0x90ed699f59cd5d6; 0x722f08b81213e7c6; 0x29e28df910ef8be7; 0xe11fe8f0507a589; 0x2d4ef19f63dc7d1d; 0x24f027ef1a7f8301; 0x54ef47abd75d87aa; 0x15d66c3605b1124; 0x4542f4cf474f846e; 0x789bdec949537b27; 0x8d4b7d7b54ddca6; 0x5f700e9fb388e3db; 0xf2b0c40143efff7; 0x308e104ed87c1a9c; 0x75aae5217af7a9a0; 0x7f79b17532f8739b; 0x1fb89f3aa44c1aea; 0x6066d9145deb3d58; 0x67d427950f45101a; 0x487c45f1805e1060; 0x2ea29dd4e88bdec5; 0xb13b7190c9fae81; 0xfbe422f639cda52; 0x6559a83001484389; 0x1778e4dda01b0f6b; 0x680fd17fb5d0e72b; 0x31324b9362221cae; 0x63eeeee363d7fd9b; 0x1e0ff56d8b0a19e3; 0x4280f0566ea57dbb; 0x5db70b219555d4db; 0x25bbf2bb1cf527e; 0x5f0da152bd6ccb7e; 0xef841e212562f4f; 0xfb46a68931fe52d; 0x51933a77c2c73970; 0x64598d784a76d78f; 0x5975a145a9eee22e; 0x35b869d49ffd884e; 0x4cc2a1795378c476; 0x293317c7dead3f0b; 0x5bc0e2820280e42e; 0x20a824d20928a1aa; 0x3f469e36e7660fde; 0x559dbcfe0d0de0c4; 0x60ac1b494030db8; 0x35c54dcfe197978c; 0x2afc3bb3172cd66a; 0x562df7af4eadc0f5; 0x4690f74bbc0617e6; 0xa51224fb246035e; 0x7b5ca47647de0b9b; 0x2e78d71863dc27e0; 0x5a7474d9bb98f9e9; 0xbbb509e8db57e52; 0x234a1f96c9517cbb; 0x34e352bdb6c6efd7; 0x74b5c0a4880ce8da; 0x7fe8f54ab3c17771; 0x5700b699fdb6e134; 0x430eed63d1d45adb; 0x60a19626ae28fdf0; 0x43bdffc1e6d0ce23; 0x5db9bbdf3415eafa; 0x585e85db4ff21162; 0x1dad24068d3aa044; 0x6489e788cebe64e8; 0x31feb77b9ecdd416; 0x45daa9f96c5a786c; 0x306c4f35478d19aa; 0x51487d59486725e7; 0xc24dfcf04822714; 0x7e5ce50214e838e; 0x2bf0d6f3e375a78c; 0xa9ec301a6c809e2; 0x2b6d42131d8c808c; 0x1a36f76241b4aef3; 0x7ff4244f459e0b57; 0x3aac5c2213333ab4; 0x18a9e6a89dc3f9e3; 0xaa1a88879b9d131; 0x525c35ac028eb0f5; 0x7a649e8bef404dbb; 0x4d049c65ba9f4ca9; 0x66f0b56d2f5ff0c; 0x122f27d90bb2efad; 0x79884734b0eee6fb; 0x79665c2b1e6036ed; 0x8338b05d6916dba; 0x28b00ea7f58a3459; 0x488be4a84cef4180; 0x4326c6ab0365eab; 0x65a646d26072a809; 0x3eed4f2b22dafb37; 0x3d4776c1de1c9d01; 0x7361f324db4aa430; 0x643a6b940056e67f; 0x76137c258d85bfd7; 0x49b73d520f6c31c5; 0x39137085ac53b82d; 0x3eda09a9bdf4975e; 0x1414bad1e10390b6; 0x16a4caf1f17a5b8e; 0x613c48bf064eaf85; 0x4e769b87323ef86b; 0x3fe5ee0332fe0941; 0x182c14743ed93895; 0x2b73bd1aa9138a02; 0x28501ddfc0423a48; 0x9eb264d08c55496; 0x749154b2e831e3f6; 0x74ecb40de53e6e72; 0x3b05d6109f02944e; 0x3046e4cd60cb558c; 0xe78ba7650995af7; 0x730a82aa1e557116; 0x1b30ba3d5915b284; 0x2211ca75099b81c1; 0x4bba2f2b51a68c91; 0x1bc0fa0ffad66b79; 0x4b414fec76f92730; 0x57fbebec732929b1; 0x61f24122c1a00a46; 0x230137c5dd534ccd; 0x3e33a43dfc95364d; 0x447d09e07d773e16; 0x7ce1903efc10dcd7; 0x27ee0fe1e4925919; 0x188fd8d85c4b2620; 0x1776a01205ca161a; 0x25c85526357b1f08; 0x21e2bf26fd8b6212; 0x29e528137afa9b72; 0x7af1890c8409316a; 0x19e72d3eef97b21d; 0x2a3bc08b5ff92224; 0x1f28b8f045fca4ce; 0x1e100521e43725fe; 0x1e9a70d2b5c39f4a; 0x5c51ec3f0ca83928; 0x307e75a2b85e1920; 0x2047f8df0da4481d; 0xd9e190639026699; 0x118c9bff596ab974; 0x5be405c5e165e2f1; 0x335699879d748267; 0xa5cc2c81b878184; 0x7d13f818e4e8a94; 0xf908c35627f33b8; 0x17090e564c094f3a; 0x586c066cc7ac595b; 0x4b4dcdfa8ef595a1; 0x5b2a23f5e6069813; 0xddd3bd7628c7e54; 0x70c1c38f64c8931f; 0x5854137e544c3876; 0x387573ade347c1; 0x2a4093946301152e; 0x75b0a2b28b88c645; 0x196f1ca4d9b2f87a; 0xe0d8fdde05463cd; 0x34473ec3f3743c8a; 0x6eae180b92133c0; 0x266df076d7e96687; 0x625b7108b739e32f; 0x7167348d58890542; 0x6ca6cdffd35b2ca3; 0x3be7319e87b78b22; 0x29c88f590e95dd2a; 0x6735ae6ce6685034; 0x148782ac8fb63d90; 0x1a262fffc6bdac88; 0x6c24d4c615070ffb; 0x7e664b8e9f9ce7d5; 0x6fd32ade027a96d0; 0x16cbb327d8b0f04d; 0x2b5fd87936c372a9; 0x6db2e65265c95987; 0x333a4fab087e48e7; 0x449890f23b2f3d8a; 0x24d914fb40c1ada3; 0x2e193754d20ca3ce; 0x57dc39b21d86adbd; 0x6132f621f6510f81; 0x7063154950a110a3; 0x5b0da0d638c7b458; 0x20e9f761a4ee0fa9; 0x2d0ba];
   [0x4e1e8fa6d8ef87e9; 0xa7572a4f9f7cbcf; 0x50d43103684eba08; 0x118db37e5de815d4; 0x29465bc3866ea8f6; 0x2b1924e83dc2ab15; 0x488f0a09971f3f3; 0x308328362e544309; 0x6526bca8e91c0e15; 0xcda814cfc418fcf; 0x3dcc6bad0f8f79ba; 0x16351166ed5604f2; 0x46913c3c7f3ab89b; 0x241bc93805c97044; 0x11459aa46f14da64; 0x5b808f63c8a028ac; 0x61a6766be59f4391; 0x3a97bea4174e7f76; 0x3d866f48050c18b6; 0x67da1224f92ebe71; 0x402d718299fadb64; 0x43f5f75beef3dfc2; 0x254da057bbbdf6f9; 0x1e5a714053f30a1f; 0x7ba53b74a6ef44a6; 0x26c803ac04e52917; 0x117a439123459208; 0x622765884a898ce5; 0x3989490d0feae453; 0x5ef74f2d8d20437e; 0x2a05f466ffed61f8; 0x51f5b0441e3bb953; 0x5f58943c7ad5deb8; 0x79482e0e2e153f2d; 0x379f642a533685f9; 0x4f1338c17ffbc08c; 0x2ad7fa2121cc73e; 0x7496118b1badd507; 0x948fcd726907ce1; 0x64482b3247b87baa; 0x71f51fd036275f48; 0x706334b080ef4653; 0x6d8ba89b9fc2de84; 0x14e1dc962dbc1df5; 0x3e21ba44a065ce9a; 0x4a584fc7baf14a9b; 0x4cf70f31a1fea912; 0x6374d79f57a86823; 0x175179c1587ffd5b; 0x41d05af01151ffbf; 0x104d379d33c5eadc; 0x7d5df81ea0f20a87; 0x7a0b53785043a442; 0x39da3ad081cc1839; 0xa53d5812726ba6; 0x60c91722e21918cc; 0x10f27a293c3f4141; 0x70f931444f1cdbb0; 0x7b48461dbc40c653; 0x19a43d032a5f4efe; 0x14675677ff5626f3; 0x6406b75dadb6a6b5; 0x6e782a682dd2f0e0; 0x2154c17cdc588d6a; 0x3d0a01fe3c65bd49; 0x3e05ac9c03f96750; 0x11d7803b4bc88c08; 0x33639e218ea8145b; 0x1bfcdd76a536063d; 0x26bd5eb41c81b2db; 0x1435ddccdb6211c4; 0x23e95140a181456c; 0x4e2d7f1a3ad379ed; 0x3a4417e370fff0e0; 0xf4e03bd2581d177; 0x60b7b04c3261e3ad; 0x21d28f6873c4360c; 0x5f861430fff0dd85; 0x2b9410b18ac80a81; 0x6d41b9d90b5dbbae; 0x2eee29c343ff6e15; 0x7ecbccc8088c6eb9; 0x4030d7b34157b6a0; 0x6cbf946b4f8b6602; 0x113b1b11ba850f8f; 0x58823923938859b7; 0x5de51f08b52b8ffb; 0x1575af2606f6f527; 0x1d78b6ae2f849cf; 0x10949bd30d0c3295; 0x24fd124fb106b7b3; 0x35c526cc551875d1; 0xbe0a9e8f9f3d3ab; 0x15dc4ebfd47fc1ff; 0x1c1eab5fd3ddaecb; 0x51082b093fd3fe8f; 0x3b916762b2f9abbd; 0x5d48e36a2e3c175a; 0x7b459f8a9d070cdc; 0x5ea5094263cfa324; 0x739884f5a883135; 0xf9ed4769237be01; 0x868727da335b69; 0x2100c5bddf8d243a; 0xdf83c7f5adf95b1; 0x265cca6ac07c8696; 0x136a9040a482a4be; 0x1c62674ed5d0f7d0; 0x2786c10a6982f2a6; 0x52dde2db28062123; 0x20c2661e2208fdc3; 0x36f31d152a0b7cdb; 0x630ab32e32758c96; 0x3ece42a8d89dc144; 0x34dabd91dcccad1; 0x23a8b241fd3d044e; 0x40da829b2be7723a; 0x3c21c37ecdabe229; 0x6715ff17da644e7f; 0x60629eb9b32d3256; 0x774d9354cdc1e95f; 0x510ee6811b539f2c; 0x39b21892b1206e20; 0x5b4b119d79201f11; 0x24bab25c763ac7f8; 0x65489b0863c6b9af; 0x692fd83a0a3a417a; 0x2c847b94291b162b; 0x5f94d7b993252345; 0x17ccee0f36e3902b; 0x1184fa7103c87257; 0x4df15db3841b2bc7; 0x5c8aef4a738b2b53; 0x7da4b02aa35d7607; 0x4d77f461584242af; 0x153c23065ba6c750; 0x35573532ce95c5fe; 0x3b690323f023a2bd; 0x743d6ee12a2d9b90; 0xe3edc7d5f59bd4b; 0x2be5a451dcc01589; 0x77739616995fa0c4; 0x711d796bd5538cb0; 0x30cc0ec6290ec142; 0x44b889ed2b0e85f0; 0x1c23086e66419908; 0x4aeb1891265be253; 0x79cfb133fe060c55; 0x4fe40eb12444064d; 0x7c4436bbc60f551f; 0x52fabb6a7eb3eb23; 0x2c26b28f3f217dee; 0x6e030ac8440f8502; 0x7da987f5ba0fb310; 0x4878085831f9b903; 0x2a60c893c35007a4; 0x4d079361bab9d858; 0x696693d6e73148bf; 0x53d61a44052cfc8d; 0x84d48b8c51804b4; 0x1f85e71ae4a6b0c9; 0x4c12417b3f0e61bc; 0x63c1e9fc49d56862; 0x79b07260975be785; 0x50fb8b29fe30c53e; 0xb7ca1bc1092fb00; 0x5da9081972a484c0; 0x7bba1fdc2605f837; 0x7457e1ec4320fe2a; 0x5cfe8fc4100879fa; 0x5850297946b34ae; 0x42ff4b143237fc4b; 0x15b3c951e3a3dee0; 0x300b6b9545dccac0; 0x751458f61e5abc5e; 0x1e3461801f55c52c; 0x23c6993e74cc6881; 0x79e849d361a7a888; 0x5fc3b41ad1c4ed1b; 0x7074bb62d52daa5a; 0x12575f5d02e8b946; 0x81ddf939cfa35b1; 0x408a52ab29eab6a9; 0x5574309cbef05e76; 0x9b07e1d80f79e38; 0x31d97666d0c32abe; 0x644a3e9a643d22d7; 0x13d82d608938ddc7; 0x67d5995a5522c3ff; 0x661311246105a3ab; 0x2e064cc26f4f951b; 0x5cb54cffec9721d6; 0x5be398558b6ec1d6; 0x35051f17020aa8ed; 0x5560cba87ac6b7c6; 0x7b440b9a45cc4887; 0x3b3700cec3a16263; 0x7e9ef4039e49fc1e; 0x26749928c0b9c036; 0x6e8d3cda1bce688e; 0x1f750b7f7e7a0150; 0x731a69280d16804e; 0x3f96cd81089597f8; 0x11fea27055b65345; 0x5c9951779c58a35; 0x498e301799d01fee; 0x7af6c0ac8409d846; 0xff15c0a56353192; 0x45092a8dc18c8d3b; 0x49abb0616658a01a; 0x1837f699af0767e7; 0x1f01781ba6b27d9b; 0xd9392fc77efd248; 0x7e2bf776981514b7; 0x6f7634604a84014b; 0x6c7b04374f139a0d; 0x5ccb76baf27f5b98; 0x201800cd39c1c91a; 0x1580e2e1af60b6b7; 0x4acd0b519e86351b; 0x14d4651e1eec5d17; 0x5d146271c0fbe2b3; 0x5ffca1fafc6929db; 0x5fba99113cbbcaf9; 0x5140724b8d515b45; 0x802f416f0bb907b; 0x547d9ab8e371eb96; 0x365541c5686e92ce; 0x7abb17d129707d5f; 0x53c0be07262e9a2b; 0x425a4d7c941db960; 0x60536303d411a2e4; 0x1fc424c4cfd6d259; 0x4221f99d4f9985b6; 0x18350e76c39abbd2; 0x48bb56997475eb3e; 0x30f32646a69c8bc4; 0x4486f8540ba7a9b1; 0x4683f4c8f0ce61e2; 0x186eedbd204a5798; 0x379338af2d6d02d2; 0x6733e8e25a367cb4; 0x479e608137409ea3; 0xf20556d3ed9f75c; 0x71f824717aa4110e; 0x536180de0d56847d; 0x77f87bd30c055035; 0x63a91026ec24fe4c; 0x70e4c61e6a7cc65; 0x49e61d280c19db01; 0x6f8ce1e573532585; 0x392c9d6efa277364; 0x714e2db44bd0e538; 0x20e2cf3cca3c0f53; 0x5ccc06ea5b97344b; 0x1473d6dfd683dd4f; 0x3c85b4e7dfe5e320; 0x6f6e8eda8c00057; 0x3dd01ed576e4a3c5; 0x7a4d89993a230e97; 0x5e87c03206a49d98; 0x7eecc3e8963de3c0; 0x1889c6311c0a329b; 0xb05a77de18ee568; 0x7d5fdef01fae28; 0x75b5bea160833d1; 0x5abd56d580621f4a; 0x516c2c759b593148; 0x36894410e04f5ded; 0x344be33e6a940b6d; 0x672951b44b48aff5; 0x1b9dea05f122f7a1; 0x24d70f7e3c02cb3b; 0x6ae9923ec47b7d95; 0x15bc9154994a33dd; 0x172566c50f55f66c; 0x7cf369b5a52391fb; 0x4df7e6ae03fef7b3; 0x1c1d6f2de94272d3; 0x26f3d54c25a361db; 0x5ed4d20fb9e96ee5; 0x3fd47cd333743f30; 0x635fc65f6ce48a29; 0x6ba54bd8e30e6c84; 0x2ead03226fdd1e05; 0xef542571941b8b3; 0x225b898113f7cc43; 0x7c599ab2df473b5d; 0x71fecdbf8ef31f44; 0x16065f80d8c05f3f; 0x3f850b3681611f76; 0x53e66c3b349e7eb0; 0x19ec7635a2944876; 0x1503d65959a73719; 0x2d19f9216a9ca2a5; 0xbc35df737c8579f; 0xc22fac5d7a38fa7; 0x5b0b93db91625ea5; 0x3572d7dc2e26e40e; 0x3274f853709ce8d7; 0x30596d617ab82e44; 0x2c9a5a33b94e6fc0; 0x59b6bb2eaf31911f; 0x76410e598cd84bca; 0x415744718a77b4be; 0xc7e197db7177e0b; 0x4bf0b12784490e6d; 0x306e87dece5e6ba3; 0x52cdffe400c39a44; 0x31d90db1a4f97453; 0x2c830eac17de2bba; 0x68d41e993bc63ec3; 0x4a031a2882e3e213; 0x55db38b35995d6a4; 0x1a098f226d5e7a24; 0xf921e20735236a; 0x3ca060c35108dcf5; 0x2a74e2];
   [0x2b946793e939a9d; 0x99f107934ee4b3a; 0x2605b1e3996f14d5; 0x139f4b59e6225776; 0x5262b31c711ea610; 0x1f2f71157be833e8; 0x747205664ab9c7f3; 0x5fe3d42a28ada2f6; 0x3c7ffb7dde67d7a6; 0x72983c59f710b325; 0x3a95449441c007ac; 0x7c3ebe3d762fb055; 0x5ad15e69abdbb74b; 0x5c77c8e5203e9514; 0x81f3b358c63a74; 0x64d5613f10478469; 0x22474cd49371a6ad; 0x17df2196b7d889d8; 0xf7862e298a67067; 0x26f115224fb824dc; 0x4d468b9740ef5341; 0x1ce64aa621c9511d; 0x3cdb229eb196c932; 0x7af77f9a01f82eb5; 0x544189014277df42; 0x280e0243e3cc7f9e; 0x7639bd304c8f768d; 0x582ffe976f12f2a4; 0x4b6b835c621a9b4a; 0x1c09213e86b6ffce; 0x778dc0b337eab44b; 0x6dc482c38669960; 0x5b15b9d5f959724a; 0x2ae18ca29945902c; 0x618cff34e2dc1930; 0x21d43a1a9004699a; 0x64973887298d5f20; 0x3cdb75831d9505f3; 0x41666e99f7b42b6b; 0x6cc13c03e8324936; 0x22b9ef1fa6a45961; 0x32c25da4091bea2f; 0x17c04e0b6e9ffd40; 0x11a934a0d5c73577; 0x6f0f953ff8073960; 0x467730e71981d66a; 0x3d0fd7b5d4e71056; 0x3213181cbdb7c4cf; 0x22a22a444cc711aa; 0x60bc0c13a7108114; 0x31da0b968f1d3bf8; 0x63465b84af48d213; 0xbeffd74c593c066; 0xb0dae0ce0c7afef; 0x79915490c31fee00; 0x6a2946cfc1b9833f; 0x5e5fbfe91cf746f2; 0x76826e9f05117cf5; 0x4bbae5deb50a7af; 0x4cf37262755e1f35; 0x5835bd334ee9f94e; 0xc2c3b8861d5ad91; 0xfbce8810f34509d; 0x21190c3ea159d440; 0x31749c5896efa65d; 0x130933c04f8ae03f; 0x545798930124718d; 0x4cb276eba9ea2d56; 0x5de22be89cda154a; 0x5e5f974b2087b89a; 0x45f198eea68162e0; 0x2f93e0c9b46111ff; 0x7163de2856de79bf; 0x155f50e34843a233; 0x33fe066b864acea4; 0x625d544f606ce532; 0x66624f2c5f335e75; 0x1b0e889c912bf569; 0x400a6f9fc389ae8b; 0x4a6233b1ba155311; 0x47816c77d12d46fd; 0x2e1d8044de1c4390; 0x1f03702447cee0b2; 0x7440ba4e1b84b848; 0x4af3a7c4e1567050; 0x4d646ab75287c381; 0x7885eb69150d472; 0x18b40302ca6c3c51; 0x11fbaeeeb8f7d895; 0x2c61ad762956b615; 0x67436e1cff09c2a4; 0xd25aa955cd9556c; 0x5ac706992e36d9ce; 0x6db4e9b017e09439; 0x59df633b814f3110; 0x4dfe2a2cf434f629; 0x59d3d1f542294ae2; 0x7f2f0d28eb7ff68; 0x375bb85cd258be7d; 0x19087dfea6ff35e0; 0x11e9adddb8800bb4; 0x49f724a9a3d8b349; 0x76424aa7e0cdd4de; 0x49cb9e95eb190cf9; 0x6ec970d0ace81b83; 0x9353b10cbf349d5; 0x1a635636c5440067; 0x5894c8e4356f4b4b; 0x527677cd0f4697e9; 0x35c9ae306c2f0c1a; 0x497f4316914f66ae; 0x43e54bc3140f0686; 0x6d0a31e5695a26a3; 0x28d37d3f2e7707d1; 0x759dcbd04aab29ae; 0x3f52fb7261da0261; 0x17f6d68c092b2e85; 0x732d01af9a1a86c9; 0x55f1a7f5ec44ad35; 0x41a8204a072dfb91; 0x15a46b3178a97ced; 0x36640a0c18b64c75; 0xa0f709a1669e197; 0x69d1841a10ddc31f; 0x33183a1f7371cf11; 0x4be4daa4df5591d2; 0x65828f9a558f7b2b; 0x76ead8106415a8eb; 0x3d3213367826052b; 0x7315e930b09d48b5; 0x284d73c95b35fef3; 0x29a275d1ffa2f0ef; 0x545679ba3501d1c8; 0x7cdc44fc93423667; 0x4945a3a69e68523e; 0x1763a6b546f4df34; 0x177a7860fc6faaf0; 0x760e0e9aa4b6e937; 0x53208263e346fee6; 0x3c8799e45ff9c428; 0x441c2dd7ace3db40; 0x3233a01736c8aa65; 0x55fdb5f49fce4448; 0x2316e66bcc96dafb; 0x3db446a10ed822e7; 0x484683c8bfe35a50; 0x1a46d4ffb257fef9; 0x381436ea9c696c67; 0x60b3052f8b057ff8; 0x43a96935994f88f3; 0x71cbb9856d6ab185; 0x4c9e6521884428df; 0x585cdf7a716ff2b6; 0x2b6a077bd9119ac9; 0x669500f88627ea20; 0x1bee92b20b591cac; 0x1178c71fed8ac48e; 0x5b7df7e6e9f7c47c; 0x5d7f12d499d3713d; 0x478f2dca01fd7a16; 0x71c3d49f7b8e0272; 0x4b43863e37560bec; 0x1ed4e52bd22769da; 0x61d267c657cb09c2; 0x11ab3fb5247b02a4; 0x2a5a791d4570ba04; 0x2bb59aff9f75e77e; 0x3b2d8c911a8683c1; 0x4c57b528b3d8b25f; 0x6f1cc8990693bd5c; 0x5b78eff4ba163778; 0x34718ba881cf4eaa; 0x63be04afb5decd37; 0x62b59d177d7f6581; 0x44ccd3792fdd45b0; 0x90bce28ec362cc3; 0x9bd3b4bf9c33306; 0x65d483a82634ba9a; 0x4bfee60d59491a36; 0x2c911e68cfa70bf9; 0x57fb5f683c5a1dc3; 0x4dc81be21926f167; 0x321dce5aa4d7eb05; 0x1afb88668157c0c; 0x10dd981596c07574; 0x427cb06677745915; 0x25ba649179c9ec87; 0x7b38d2463f7aca0; 0x1264327f28497a9e; 0x73a971ca2ea4fb5f; 0x17bb98211e0c6520; 0x655bde69d733a18f; 0x459f8d37a57b84f9; 0x7e34ea9760bd1582; 0x15f677961c0f01eb; 0x309d7431f9cb24ad; 0x73589c316965ea6c; 0x10054566e0bab998; 0x729495299ed118d8; 0x1dde9add46bee5bf; 0x798eb55f00be3c6c; 0x79af820165db5e07; 0x6759566cafa000dd; 0x39fb0dd059e96be8; 0x33146b327e64ed72; 0x7a93d92772cff8c; 0x2d1d02aa8adff196; 0x7d90641083538e57; 0x6b7c3c4170776d31; 0x4fcd7e7cd68ed030; 0x62828f43999de058; 0x6b2ae6fcd9134957; 0x79354ef1fac6e7; 0x5bf2f2dd233930e5; 0x5b5af5706d3e1fc; 0x6fd3107860ab9777; 0x3d41f7734faea9de; 0xa647d2a38177ebd; 0x77c9f1d9652edc3c; 0x28840aadc2d9163f; 0x1813cfe538e68103; 0x7a40641ec833225a; 0x592b2c481e7ac310; 0xa56d395f3ff0d3d; 0x7af9ad3fbdc4726e; 0x6f9bfa498db39036; 0x787356d8f35ebb88; 0x7b7ba6925a6580cf; 0x5b8ccd6f7bf04c88; 0x730ca963c0400124; 0x17e6a53c0f956ee6; 0x1f9dc24c75c35a09; 0x71f1105c7f2d002b; 0x38bd780c07046542; 0x25bab689d49ae9c2; 0x7e6bc25eff13747e; 0x37a2e42fb9c53a75; 0x11ff2fb12c9474b; 0xd50a9501e7bf6e0; 0x148d9f732d559286; 0x8215601336bd2d5; 0x7be3a27c0605b554; 0x5fb76e7a2c433963; 0x3932f6e3c12002b1; 0x77aac56ccda17f96; 0x13e28a4cedf7b41c; 0x626a7934f163478c; 0x52c7e2f02967789; 0x296a989aa4271fc5; 0x6b7768821b1a2932; 0x1710e97a478f2691; 0x3667db6dc8e12292; 0x6c514f2da200a2ae; 0x7e8184d58f3a0c25; 0x7b09e6a0c14159a; 0x71092879895a9667; 0x31dc87e51423a8ea; 0x4f61b7332da3992f; 0x4d4ae40ab8a185b6; 0x223ac454b172df43; 0x71b4f2f9510fd322; 0x5680b6185ec35cc1; 0x1905d82aaa6eeb63; 0x278240377c2fe8fd; 0x65c607d157f82ddb; 0x325931f7eac5bd69; 0x7dd10dddef7f2cf1; 0x4291a0c71543d92b; 0x505e1041b384dec; 0x5e9d02a8b83c0b04; 0x58d9b288b482fe82; 0x1d739348e988bc7; 0x6646ef4e30559bcd; 0x39eadc4a1ce511f8; 0x579082385c10cbdb; 0x43920dc07f2d59a9; 0x24e255288e4c9396; 0x15dbb144e63f8116; 0x4b82a0a9627c3157; 0x79509bca06b8fba1; 0x1867606825b6769b; 0x1e7885ece9aefafd; 0x36a9c75e3c7673ab; 0x62320fe928582f17; 0x22abf2e57078c678; 0x6c64005f4a033120; 0x4d216624cba38d04; 0x384b68e7d45cca4d; 0x7415084aae608589; 0x2ca4af0267cc4992; 0x2dfa875f6781a058; 0x5a6526ca29ef2bcd; 0x1ffb0b4c2627e7e3; 0x3d8120d66260b69e; 0x14d1ae255fa4b30; 0x36bc8ed29df6e2b4; 0x7e94593fe4001cbb; 0x51559898796f95de; 0x2ec9b33e841b691b; 0x1d8ef24a7dd03527; 0x13594fa92366af88; 0x354ac171532abdc8; 0x5bcab80da8c10e2; 0x33b7f294b09c756a; 0x6d652d0863274827; 0x70bb9c610bb34210; 0x2337f5f8facefe07; 0x479d1c1cf3db02e1; 0x43331abdb95c3466; 0x4984609376fc638a; 0x56f697466d2a5137; 0xb68201da068d20f; 0x35533f1a88158037; 0x7dc48653290ac8c2; 0x74f2b99ecf112427; 0x1740a6e450520f52; 0x544725b9c1e6b484; 0x3b1913];
   [0x27e22029e2065a1d; 0x60169e3c8d8e5723; 0x711a3ae40a25f08e; 0x7a01880c721dfaf4; 0xfa82747a5902f7; 0x4da095f755a696e1; 0x65d946712da5096b; 0xce3005200ff3b27; 0x36910e6ad406307b; 0x51ead76a1c247a41; 0x5e698195c41512ec; 0x4cf29662cc54275c; 0x662daeca848e2af8; 0x23855c1f1d28e342; 0x7c1ae2d2ad4457f4; 0x7fd88bbd09e7d5ce; 0x574efe0e0add2639; 0x45b28c62557b6d76; 0x5ef50658655f44d7; 0x5abe1a550dce4b11; 0x1e15ce876f65121b; 0x4662dc4293d21d45; 0x15604088a1e4f32c; 0x735a96fc46fb488; 0x1ec31d3e2bec7462; 0x7c3797736c55e3e5; 0x7aa4fa91818fa704; 0x199e64ca498ce64d; 0x1f771841746cd964; 0x7fd37f4b30300062; 0x2187086fe6533952; 0x2e66ea87bd27e66b; 0x49d4a025a3c70ce7; 0x2e76029ed9ed5020; 0x7ca6c561576286c6; 0x189c96b99b1db0c; 0x67f8cee5a1c8b516; 0x30059a8e4874b5c6; 0x7716792d8699bd4; 0x2b575ccc14b9783c; 0x687738812c8083e7; 0x1af1a1e681a9802e; 0x4c41f532a0dce492; 0x7aa0a54b8de9b3b3; 0x44f4e4552c872996; 0x570e19a91c10ca8c; 0x8f37d5664c5e681; 0x60a3bebcff7f9dcd; 0x105dd43a156857ce; 0x4eb714b4a1a38a17; 0x2a410372b25c8c6d; 0x618743209c313ede; 0x755beb0e12913e43; 0x43f16b542642b83f; 0x2da934fcf552cb3d; 0x4394786eff432fc; 0x1eaf698f324562ac; 0x40e3863a74ff352f; 0x7aa4d31d8ad98cf3; 0x28992ddcfa96bdc2; 0x2abaaac45d17d9c8; 0x65a4524230a33fbc; 0x5288fc3fd51c184c; 0x6f72d3afa6d25c5c; 0x60b1cf4d446a04ee; 0x30b9e17a5a836747; 0x621e919593fb9d00; 0x77c8ed3cb36ae651; 0x2a9ff5dfc1d4f334; 0x43fece2e9da74cb4; 0x6e32cdbd91523ef; 0x5f765933a2f071c1; 0x6b58b880dabedc29; 0x954d63ca0003a7b; 0x4d42677e80dfd1f8; 0x59a58939f4691e7c; 0x59a85b73bd027bc7; 0x6d052259a0872c6a; 0x47cea0fd90493fc6; 0x2d26d120fe330682; 0x603f626d44039945; 0x26dde86f031a1911; 0x65e8a82c15b752fb; 0x1917fd2b264be5f5; 0x475824df10baa3ab; 0x485c2c9e4373a00a; 0x2e97b0c8b41a7d0a; 0x4e341c3652131cce; 0x23c03a46397467e7; 0x5753e72710861e3b; 0x29ff7cbedf09d01a; 0x16bdbe0377094f24; 0x71ec850358771eee; 0x7fb7405dbd01c22a; 0x5252c87180895c70; 0x35d7a22ec175e052; 0x5dfaa05921a176a8; 0x5b4c172a404cda09; 0x447d9c3b50e9e767; 0xb90898db5e48652; 0x5b24430365974940; 0x9f48cbfee339323; 0x26f7de67039b1243; 0x77d8b08992bf4937; 0x5cb2af30b953f4e3; 0x3744ecd59a5d199c; 0x5968729f0220e0e3; 0x1679eb1e3a856b11; 0x7befef2b3873473b; 0x4536d6a8a04d425b; 0x7fd9cd050990e56; 0x44900a90a668169e; 0x49838c87a3265cfc; 0x19c21c037ae85086; 0x293f663c7f8f60c6; 0x42e69cf1c57d16e4; 0x7835e80c7b0a3390; 0xf498c76ffe1af29; 0x24f7e6a75ada81c6; 0x4cc2bc1a451568cb; 0x2f9542f4f018e4cd; 0x72779f3a7b45be03; 0x2be6dc59f517c2ab; 0x451d3434ee758f9c; 0x3b02b099b3cd5c1; 0x1e5d6335b3ee0c46; 0x225c73ef81d68ab3; 0x4328417417ca862b; 0x2355756b5307088d; 0x169faf600c810e41; 0x4f1173fd0524c78b; 0x5b05b3b1a8284639; 0x14e4296412d94e67; 0x7993329ca8a62cf7; 0x1442c554e7b46814; 0x19aebedb3575e512; 0x4231db2333e63a1c; 0x38fff9e06a5501f8; 0x43dc94b7ced714fb; 0xc3fbe744ba4e122; 0x65a9145dc7c1a879; 0x3cb842308025686e; 0x7713a6040144770b; 0x3e04f1d5f52755af; 0x40e87e71ae560db5; 0x7c744671a0f16dff; 0x126171afde8e6256; 0x5a3a1bc9d278d466; 0x1b1a4bd2d09e4038; 0x9e2da6501295a4d; 0x48e5ed00bdf2a10d; 0x7479b7181d8bec60; 0x66a81011d4e5d396; 0x26dcdac8a2ada011; 0x63ffa3fa79e2ab59; 0x1dedc3f8162d07bd; 0x2d872dd141a6c020; 0x6fbd6b2e613f0d3; 0xe4c78ec8b457863; 0x14d201cb4eb05fd; 0x4d86cf1c0c9f45ff; 0x51368721522f83f6; 0x332eda2ff2c10e90; 0x23853d358c8fd45e; 0x29a763cc924bbc23; 0x6061ba5cd1f583ea; 0x54536a7664efccae; 0x3815070855c27956; 0x546a34ae21bcfa08; 0x607c3be9b63c4a1b; 0xcab8a3357502815; 0x7d19ff2e7822ca31; 0x7022c9c411e08f3; 0x3ad61763dfb0cf1d; 0x5f8257af7fdde747; 0x246fb8a65dfc7334; 0x39619c6a312952c5; 0xdd4f46b00487b59; 0x41b110debf7ee468; 0x62ac0391c278b47d; 0x39669c58f9e97783; 0x6c02c55567c7d0a4; 0x608e3dc038a0e309; 0x3762810e1b2f3865; 0x10f2ee0a258f8cee; 0x60f3a9726e6868f9; 0x415cfcdf09591a53; 0xb03668b30266da5; 0x75988a7977aa6ef5; 0x34978b1714615a58; 0x7acab64e1ead3e92; 0x12e9abad7df7393d; 0x5693d8218c6d87d2; 0x60f740c0b6190303; 0x74496b91442ab604; 0x1cf5f0fe497c22bd; 0x520de28715e4de66; 0x7a2ba80a0ea9f6e4; 0x3ad75868b22e774f; 0x5aa443df504215d3; 0x732d8571c31a013f; 0x64a408a92e6ebb11; 0x572fb5f7cd6761a3; 0x2dee0351cd1416e6; 0x2476b3cf118b5d5f; 0x59eb7ced3867014a; 0x147598743be70565; 0xaf6853dc18d4a2b; 0x739758c935db8ddf; 0xfdd912b81f0387e; 0x4226a2442b4f0d86; 0x562ce032c1698fb8; 0x94ba0cac7bc193; 0x334304c98735f6a9; 0x38f7d9ca0f5df369; 0x440a39242b88f226; 0x4232358435950438; 0x64c5ae1b187a0bfe; 0x66f97c43c888afee; 0x2b282dd9d595873a; 0x7d03a4c355381964; 0x4dd1acb38060f1c2; 0x3dfc8b30a69e0293; 0x2cddd02c0b78ca3a; 0x41c4c7d8da7d0414; 0x55654ae8567011ff; 0x578d1fae795755f7; 0x3998e4fdb2b9a876; 0x23b1d907f8172dff; 0x208a876a17b3b1e7; 0x73d93388e6b6af9c; 0x6a28a1bade934f58; 0x4a9c0237647a9a36; 0x6db80eb51a855c29; 0x59550f2ed3e7abc0; 0x751cf24cd4ef4e3c; 0x564226f09e401063; 0x333c6c6cd4ac8952; 0x67259522569981e; 0x4a0f47f7f8a6c23f; 0x15cf2a19f58ce2d3; 0x58c580063ff3a0fd; 0x4612856c7f4fca4e; 0x136a17b1e5606387; 0x9e43090bd229ef0; 0x66ef9b9205a4c5ad; 0x5a74ebf45d58e442; 0x24eb96b032b23156; 0x235e36cedebf3e99; 0x1bee605b90af8478; 0x338db32b54c87eb9; 0x7641f430c17c9c82; 0x6dfa61d179d7badb; 0x75d56c49122b20a4; 0x19bdbffdd7c0ee58; 0x172752e1e2a294dd; 0x7d45974a7a4d938; 0x52fcd4f53687a2a6; 0x625f79022a5cae14; 0x36e8270ab30e105b; 0x34998ebe53f4cf7d; 0xa1c0faab04ccc55; 0xf3ab0c8c1320159; 0x529f054b28748e7a; 0x609366fa0ba5ba9c; 0x77f2e26b3300613a; 0x2e1c8f31e239893; 0x21d9b33e482172; 0x420e2f3b23bcdff8; 0x4a0b5def718b7bb3; 0x3a44cef9ccc8ef71; 0x6a2dfa88bd5dd812; 0x570bd3998a9e08af; 0x35c338a3120356b3; 0x6fa55e4c9e0f5372; 0x474dd80ba73289d9; 0x2b73ca78549cb058; 0x19bf9cf15af0f6cc; 0x753b4de1259f9722; 0x5cb141608faf2722; 0x7efd9df5ddbc1d93; 0x2fca50074889b887; 0x4f0cbb03ddf0b354; 0x6f70d5a5335253f0; 0x3ba85f42a802ec50; 0x343099806de1591f; 0x6cf956b9098f62f6; 0x1d718c2f05d9193; 0x7f96df92c4e4529b; 0x71c0b3796ff8cc21; 0x32fce608c9286a98; 0x13ff525e4468c3b2; 0x2004b8fed3edfe29; 0x17cec17d75d7dd9e; 0x52bc4f594cdea5f1; 0x44d91c4bfb255670; 0x71aa65b844a4ed8e; 0x2e2265ed6063196c; 0x52b61141e3aff203; 0x6f7178c1438a20a3; 0x497359e03ed11d1a; 0x1e69100578f0470b; 0x52c271d53e8a66bd; 0x3eea9baf790b4fb9; 0x5ef33dc2268bf339; 0x589d8e0e755b7970; 0x44a7f7b548281c68; 0x527b35c622065cdf; 0x2c97699a160a92ae; 0xb3e4fd6889caa23; 0x286de548a9611089; 0x1c01aece2eb8ee04; 0x626ae596c6252720; 0x6b66db2697c5938f; 0x631222f7ddf6f0d4; 0x18171bed59af7e48; 0x65bf7e98ef017a0a; 0x27260d];
   [0x14708798f4f0b4df; 0x1b43d1bf2940d7a3; 0x1ec87d9bfde520e1; 0x289f57b355868f3; 0x4775c3f5a8e4c488; 0x30d831487b087ec9; 0x328b70bb877fb7f6; 0x57b4aae7056c56fe; 0x4e97daa1bf9e1f11; 0x17a657f0d33ad13d; 0x6965a2f900c54ed5; 0x44cdc290613fd46f; 0x228eb627bfa4a36e; 0x1e1c659c106498c8; 0x655e211cf4d5246; 0x53586d342945400a; 0x13b6c6d410933304; 0x6aea87e034e53a4b; 0x2645976c9881f7d; 0x7fd894be00e00a4d; 0xdabbd0176b8192c; 0x7cc9849c983725c1; 0x776cf8521cc07537; 0x3fe22d7f2fe3a740; 0x51f9a9b1859732b8; 0xd30d11313df9bab; 0x301509a55392a1; 0x334210438ffd8b36; 0x61738f6474859411; 0x416bb865c545fddb; 0x11ba01b862e4f610; 0x9ddee2164747121; 0x61a7cf4aafbbd90d; 0x287eadc8a70a11e7; 0x3cccfaf4885f1307; 0x67a3f53ceef08898; 0x327531419d0cc849; 0x6014f8af98fd7e02; 0x10556503da5ae312; 0x11dff27a58ac6e91; 0x1a422be1b2e58173; 0xbe90bb4aa8d68a0; 0x26c5cfde750d9d10; 0x3561660f4a288930; 0xcbc36a993de835c; 0x6260d00260cdcc1c; 0x6eaa53a1a2d3e3eb; 0x299d1531645e76f3; 0x37a55e12dc4825aa; 0xfcabd3f95d68768; 0x20c7d92adf9a4bb5; 0x2fb44bf5bd4c890e; 0x4bbe5fdf0628de67; 0x7d9f100837a6b08e; 0x198e08b50ab7aab1; 0xd4072db939611; 0x140e6d3a581621eb; 0x4c7059165102c645; 0x4d7a52300a799a84; 0x67aa0f086983158; 0x62c1cc185b10eb2; 0x13fe5fd1f3ded43c; 0x5737c28de711fb2e; 0xc8448fb77d400d4; 0x129ecd5dea0744ed; 0x85832d51c3c56cd; 0x57a7666201738aae; 0x73dd5fef722a5bc; 0x6a724113f9308350; 0x5a2eccbc6ad2ec74; 0x7edccaacc69c00fc; 0x60f95e3f41674461; 0x289c3b77c867fdd7; 0x47809be8dbb9affd; 0x242a8d7f5a83b607; 0x7ec058bb444a3728; 0x60966267c49a6672; 0x796befef9355a6f2; 0x22864be3f92715c5; 0xa4c13328d9dac2b; 0x1bbfc850b565d1d4; 0x642efa20cdebc445; 0xf25d68ede300ddf; 0x79cd87c4dab49a8d; 0x5ce898c37971cb2f; 0x336f82f9cef4785c; 0x5ee8f9eca55dbe05; 0x648b785f3f011a56; 0x1d233816742e8299; 0x1f50282e1948c0f0; 0x198de73e38364fbb; 0x6bcc0dc362738a0f; 0x1708e5af06765aa; 0xf032fdc6c732a94; 0x80a6008a52c76ad; 0x50d677abb8cffd0e; 0x3b676704c4026afa; 0x116892cc6f688107; 0x1a0f1b2511cdcfaa; 0x675a14bcf361df87; 0x2dfb55bdae5074b7; 0x8006b48bdcf363f; 0x7f195ab12ac2677e; 0x27b4cfe52343aedc; 0x43568b634a79b781; 0x56b0720844792b8f; 0x52deb77255386029; 0x54d04964be20fa65; 0x6e75515b0afe82f0; 0x55ac4edc827ceba1; 0x6b03a7c2968c0107; 0x4a50bdcbbd795b82; 0x3c5076a3d6ebf3f8; 0x34e3effebc63b473; 0x55c71ce08b286ed0; 0x3f0bee079ab123a; 0xe2366227b5bca47; 0x4f5dbca3691954a0; 0x9a3a20fbc86d270; 0x694d4ea49b3452ef; 0x974280b22ed9baf; 0x730732e95b6e1819; 0x2d91e48b12a614c5; 0x7143eb41d85f9a7b; 0x280e37e3751f5ad7; 0x5d2f3528e33fee32; 0x5d4c176b674a8f1; 0x6251319c36c4d74c; 0x70361b1881d3c5db; 0x4990488dcf3f92a1; 0x255de4d8ccf6b429; 0x5e4b5bbbbe90913c; 0x7907c62dbe8e88f2; 0x660ee2b5971fcd15; 0x6557f50271431b70; 0x10d9dd3e91cbedd0; 0x23df3dc39958a9d4; 0x77311edadcc38d93; 0x41338feb115a230e; 0x2de26ba81028ea88; 0x4b9ade334e8d1033; 0x1470b444a1e971f3; 0x4f9de4da642ea576; 0x487e5069ec4ba2a2; 0x393adfb30ce01a2d; 0x24bbeaa2816688b1; 0x78f6fd18f78dbad9; 0x462fd2d5b72f295c; 0x3da6fb93a5da9b2e; 0x21cdd47fc9da6743; 0x2d94570f92756015; 0x5ea18d622bb2a6cf; 0x3632fb21759f8f2; 0x257bb56d6bc24baa; 0x6e41c09e5817a28e; 0x6cabc14c6a9ac3a5; 0x363b1fd5c1d8981b; 0x99f949744cde721; 0x58339c66e40a7c95; 0x2437517a372300e6; 0x5e3e43eb1da1199a; 0x7e14fe5b6fd637ab; 0x2be13a3fe6845513; 0x69e25e39bce56328; 0x1141b3842b6c180b; 0x6dd0fb0ee7b5ae1c; 0x1a19cd5493dce2bc; 0x2cb1c0a16f842c77; 0xba400b8412048ef; 0x37bf9ebf92d1d9e1; 0x49547adcf6500d17; 0x513f4bbc120c6d68; 0x5b3368c281c0566; 0x3414c7d904296124; 0x5fa894b9b1c06431; 0x5f6e82d54ccc60ff; 0x21294a9cd53b5897; 0x2e59bc4486a48fc3; 0x6a3affa09980a62f; 0x62f509e1465d323c; 0x72e9f15acc874136; 0x59b4118f14634ad3; 0x74bdc2d6205718b2; 0x7817b339e7bdbf51; 0x5f70b98f29b353d7; 0x322cbb45962f7214; 0x7e0b7e8dfff10335; 0x7afcfa3f8df69be; 0x6fda96bb8d8dfce5; 0x73f6aa175eaf8ab5; 0x5eb517232d280ff9; 0x65192ded96d109a5; 0x6b83e67987726f3b; 0x2f8ebee2894b4cdf; 0x5062aaa4d2dc30a4; 0x691f23d5c56b09f1; 0x144b3a5cfba33df4; 0x269db6cdf222e332; 0x7a237f8d56c86dcc; 0x1bddd0559de893c4; 0x7087cfc61fbcff66; 0x13ddd4a8f96f0a2e; 0x73ed2e4781f85a31; 0x4b189b39ab539e35; 0x19ae7b0742141ede; 0x707f1b7cf8717f31; 0x17a51184cf12b9e; 0xf53c0075c963f48; 0x3c7f24759da22906; 0x41392316f6a06ab2; 0x458cf4e8bcff11ae; 0x14cf7df5c32e6dfb; 0x1ab61b58ab55b08f; 0x78a6fa3f697d795d; 0x62d4792130007b45; 0x7fe13685b1cefe73; 0x4c66f0f42b942018; 0x416149629d589bf9; 0x27fee81eecaa2c59; 0x38ca54725ee5918; 0x369af60598222a; 0x72f841b8d58796d6; 0x14355c9f1ae1484c; 0x63a7d0fe9a35b921; 0x73d0a69fc21e64b; 0x4c192d0f85d9eafe; 0x228b930e3b150180; 0x458b0b5d425c283d; 0x5e854fb3598a2339; 0x7ce0d63c2f7b1fee; 0x6222f53b2fa6436c; 0x13afdad6dad44da6; 0x401f7a372fcb2c95; 0xf60eaeaf54ecbc4; 0x7e21b9521b94326e; 0x9ecfe557735fcd; 0x166f80c389963405; 0x1fbba2fc17df2ef6; 0x549b87a82c8a711a; 0x54bc43769f38cf9c; 0x3053d08295035df9; 0x31e40fc350bba9b6; 0x1529d3b1492eaa4f; 0x718c42553265a4ab; 0x373e39b903c7840c; 0x43c66426eb347ed9; 0xc2afdc8469d6d45; 0x9990ef982bca7cc; 0x4c250ff4925a005; 0x5d6082a82868c4ad; 0xfa55f41e6efa4ed; 0x765acb7807f864de; 0x28cb94c8096eeae6; 0x6c025aec4c619ef6; 0x6786ab67cf91b52; 0x1e45aaaee0eedfe2; 0x1838e4712ebe34a1; 0x78c790a1cafa9042; 0x1ae96915560bafa3; 0x62dec36178d3f729; 0x15feb174f18cbb7f; 0x2128b8d72f51a056; 0x580a5b19daf35944; 0x109ae60568715fbe; 0x50d89cf247337250; 0x42edca3538f7a66c; 0x27193eb357f2ff77; 0x34c2c8783398aafd; 0x213a40d0bebff122; 0x4b3f3734f8ac3fd0; 0xd7e3c5232c926e7; 0x6935efd48f4e9a0c; 0x2d92992752a55f12; 0x1ed9e0e355040edf; 0x15cf7328898cf735; 0x30f4f4020fd0dc6; 0x7bbf8f70bf30b9db; 0x798ec01a65a1c663; 0x60e9cadcae973a7; 0x3222fec08d2a1710; 0x208dddcbd4dedb1e; 0x37e4ebfb64be530f; 0x8dda2e325f7d483; 0x765f380817f1fe5f; 0x49b3d111c4a5b66e; 0x2900b080309e4547; 0x6f255ca7144ba982; 0x6204e50f36343ef1; 0xd8afaef51e04de6; 0x6ef2420b610d9ea; 0x45cc7c53b794f35b; 0x278ee94410ce8efe; 0x717e77d408a80dc9; 0x2e4ab3c80fcaddae; 0x32a3a7b6b438f97a; 0x2c66a4b7117e626b; 0x2a8176f29bb786b9; 0x13dac9cfb1662cf; 0x23f298af69ce9ea9; 0x1725cffccf1d2412; 0xa0f729a098321bc; 0x4faf092a18f918ee; 0x72597271a4146903; 0x51c18f3d757143d7; 0x406906fc208a6a34; 0x709332098fffca43; 0x3ec6ab9c8c43d0c3; 0x215d1829d6f07100; 0x320a3b72eb649506; 0x29834eeac06ebf59; 0x562f2112f2bf8891; 0x50e367f7d756d873; 0x3956109434f2db1c; 0x4d06b04e81e79f4e; 0x7e84545729fe4fb2; 0x18057f837fa893b1; 0x14b2a279fbb6071a; 0x50e33];
   [0x6c0de76898b851ef; 0x3d12ca689268afea; 0x3b81d105ddf6fe6f; 0x74dbf2460d54bebf; 0x7086bce9c98f79fc; 0x14559d6a0e831fd3; 0x46e5f8c7022f14a2; 0x7b2f23c92e923d00; 0x9cfaced305b9819; 0x3b519ed9131ef1ce; 0x183944fff39a9db8; 0x7631c7bfeeebabf; 0x1222097f33791fdd; 0x5b16b304fa214062; 0x335537145b91c725; 0x15080d298e182a12; 0x7ea62d91db1df95f; 0x2212d2b81403d86a; 0x4bad73194884a927; 0x793efcecb27eab87; 0x73fd65eba2cf77b3; 0x48731a5ce30e8e2f; 0x18197819955c160; 0x1538c12645e68a7; 0x3b6a17a0bb807311; 0x6e1e8fa25f002d4e; 0x240342a970f1c4f4; 0x68a6f20c31c236d3; 0x18da6fd834370e93; 0x2d4e62bb3120a7d9; 0x197534b39ea52ff1; 0x2d94670fe2887e64; 0x73cf312e80cc8e39; 0x3422921e9489e39d; 0x68519c61d7e1673f; 0x2f8e47ff1764a36c; 0x41d824b54c606c09; 0x547f26712b47cdb6; 0x7f991181df2dd522; 0x41303ef2aa499b4a; 0x58bb643b73cf8b05; 0x5dc0fd7281575fec; 0x76c79c1925804aa1; 0x576ca2ed216f7566; 0x3daff827840c5e0a; 0x1649de8677d09ee6; 0x46a41fd0739a993e; 0x211f60ad2c63b64e; 0x670298327ffe491a; 0x16441e97821e715; 0x2015b22464a34ea4; 0x76ff5459a72dcf65; 0x40762764165daabd; 0xe4af30d72b3b533; 0x26be15a4ba5cdf32; 0x514bd2955194046f; 0x435ffed1db747118; 0x1ddad0a9ebc33b0d; 0x5f27628383db714; 0x6eecb8dfe0af87e6; 0x788471309e17cf89; 0x268066d9c3e5c5dd; 0x1d05f41e2868003c; 0x228d76210343ac02; 0x1c1893268395a757; 0x57fd37977be4ec1e; 0x7a037f751df0230c; 0x2dd0447a0c6c326e; 0x66b4eea854c5bd84; 0x5032d6db07dbff87; 0x53eb3c49f6a671ce; 0x328b21a50dbda9ee; 0x402ae00aa860c584; 0x370633bd0282e620; 0x65ba2fc4f9165392; 0x1f885da327a406ff; 0x30a56479d840d9a0; 0x4bd894aee983e2cb; 0x7057446417b8b2e7; 0x6c39ea77b4e539c; 0x1a6433e72f7848d7; 0x4c4f3e7c621da656; 0xc1e155c4d153fdc; 0x78dc584ae52cc0dd; 0x9dc47221d3526f1; 0x52df6d48f7bcd143; 0x50fa98f61625e3df; 0x6dd01f0d3a6c2277; 0x1dc40833802fdded; 0x7fb2df3fb7e8c5f3; 0x1bca60c8ab15fe55; 0x70cb1cb5f607ec6; 0x7201af3531426514; 0x7d410fde229f9ea2; 0x7c4d95e8ea6857a4; 0x171e5bee0aa5bffc; 0x71a670ec865f0151; 0x2d88fd055deada84; 0x9ca3590ef4fcd4b; 0xcfee1400b7ce108; 0x61b14d6292d77bc8; 0xd83dc728f56b72b; 0x2b1af0348c66d7ec; 0x78b75859d3e495a3; 0x79b581a4c2ed61b4; 0x62573bb079523b96; 0x50b985681c5cdd5d; 0x249480aa80c50aac; 0x43d4ef49094789fe; 0x291afcdc83de13ac; 0x3873b1f21e3b5611; 0x17580f04d12a03a1; 0x4736b42ca48a52ee; 0x3a94303fc4660ec7; 0x3c8b50a3bc3a033c; 0x5219efdfee96cf19; 0x28f72f826b688350; 0x2de5a65b6202c20c; 0x7035d9bece291a51; 0x2691596d885b13d6; 0x5265298fd4ce179; 0x55c846d5cb0fc143; 0x4934efa49127ffd1; 0x264a778bb5b7e142; 0x3591075deb7ebe49; 0x1ef1e78bdecd373d; 0x4129d07739c093ad; 0x69ea8de41aea6d20; 0x40119046a775254; 0x572b41bd277732e; 0x3362f517217b0a2f; 0x4c05cd239a813df1; 0x2b31bd94798b8e7e; 0x1deaf688c864fbc6; 0x76b93f262af1ae8d; 0x4a1598eba5ad9774; 0x69aad902a08c5c14; 0x6262ccdf08999c15; 0x56f107dc60199f28; 0x46de3a6ec0a46fc3; 0x32eaf04c6a918fc1; 0x5b5a4b0f37c90490; 0x4aecf67805a5a85d; 0x1979ea4699d21a21; 0x579b0ecc6689e76c; 0x2b93614de33c087b; 0x37ff446083c710c0; 0x7f222afb6e22256d; 0x19f26508b06ed61e; 0x3726ebc884f6bd07; 0x64801d3548de178a; 0x397f8f9de16e65fa; 0x3cf2c3ed65215e54; 0x6f3692c9f4324cee; 0x4336044013492115; 0x2a2c428fe57f763c; 0x237d6edc5bfb551e; 0x5bf99462eea1515e; 0x378bf9e72cc15956; 0x4b23729e5ad56dbe; 0x3ad1ad21f8a6ee8f; 0x4386721267a4ff47; 0x3d57b3e188ed99ba; 0x207786a0e7d79e0a; 0x192e8e3b28f973d8; 0x7b2786525d06329; 0x61bf36dbb6e6e1aa; 0x14e1b1b88bc6cb1f; 0x269a139c3d5b5180; 0x54c44f2a312365e4; 0x3494390950204d3f; 0x577c3bc7f7d3cec2; 0x3e33f5ca08a6d4f5; 0x60182c8a3d749b0d; 0x1999e9bad2fffd8; 0x1533f67b497c64d8; 0x628a25906c259bee; 0x6faab34b964b1af7; 0x4678fd6babd2641a; 0x7416992b28002cbb; 0x43597ebb8153f5ab; 0x4f2c7b4d93a85726; 0x384a50fffaca673f; 0x4a92d9facac78e37; 0x5e028d8c948aed63; 0x3393658e85230fdd; 0x3bc0421a1e8c1bb6; 0x1bc001902e80c193; 0x482873c2b8cbd903; 0x17a9d8fe0dc5ffa3; 0x624a3c73075b9f53; 0x50e3b49be51fddae; 0x27d41bea32a29b7f; 0x5a2f010d5f19fac2; 0xd818acc44b34d5d; 0x4f83c91fb7edc504; 0x12e7e0c7e51e8e5; 0x789b19c8d2c15594; 0x30b1a298b765be69; 0x517604b294b05635; 0x648a54ccc398852a; 0x18133fbb3fe8cc6e; 0x1fe3a41eed845854; 0x45e3b93474cc66b7; 0x3a9ee469a03530e8; 0x20320aae9164cf18; 0x1513c8798c237505; 0x3e8b1436ed0e1ec4; 0x38dcf6c364a736c6; 0x481f145017db7703; 0x1ec29f63064d0f57; 0x397bf5a1d43488a; 0x1d0e384bec2d5106; 0x9037382c373c10b; 0x3a0518f74ae9f044; 0x53ff95e345bb9b85; 0x4312697001c3dd39; 0x5bdd94149bd51aff; 0x69459313568eeba0; 0x63d0676b14504f43; 0x4a0cafd7d02cdf9a; 0x4970dc94e9f909cc; 0x56cdc4c40ca7c94c; 0x61dc60f8ce27b048; 0x372ed069728c4472; 0x2013d678084a215e; 0x1916cd48839ed56e; 0x6582029ed4abc7b0; 0x22565665152eea05; 0x398a97cdc94257c4; 0x4da6239cf5c63fc2; 0x6d180e87c738c917; 0x21fe9a816d10f766; 0x48a8be793dc17c02; 0x7c70ee8edf6cb34f; 0x6ec88c80e4c2f23c; 0x581b9b4f9491856; 0x660b82dd6f2c50a2; 0x6412f148220ee4da; 0x4dffe479367054a; 0x34989c2f370df83; 0x57735c8f92a61871; 0x38aed7fae6ef73f4; 0x1a51478b84f85dfb; 0x1dc1fae7f29cadeb; 0x2a2d85bc7784bc26; 0x594fc9f65df3be0; 0x7322c47b60c521e4; 0x2c8edc27be1ec246; 0xd894a34b0f039d8; 0x3a2201cbc87acf2d; 0x4270577e49bfa21b; 0x19ace5a4b364e5c3; 0x2a69ebccdb118163; 0x3a025deba23dd838; 0x5ff986d65f5cb003; 0x8ffba07f89aa3fc; 0x1e44acb8c7efaeb2; 0x7ae9a31c098968b; 0x6d078930bb84367c; 0x7253d13959a2f591; 0x77fef5c709bddac4; 0xd6867fba1715a70; 0x548e507928d00d47; 0x7c1ee4f01e8a7e4; 0x2192bca995db8e8d; 0x7b34610653f5621f; 0x548e7266f9da6728; 0x7e8a945bb2323a90; 0x5c28db0cf554ddcb; 0x7775df69c494559d; 0x29effba405d59513; 0x4a94e0788f0bb7ca; 0x41595e9a18ae6af3; 0x7613698524f23247; 0xa8ab655d456394a; 0x4e9a95c0af77929a; 0x78d24cdfc00daedc; 0x413f2d836f3e120a; 0x3a0ed750edbe43ef; 0x2b871630325e1eac; 0x5b462715a688efab; 0x1bc599c63d8b1981; 0x34d7eecb6fd50562; 0x6fdf2e18717052ef; 0x7b21db80f4c9e648; 0x3da2f88fdbb57563; 0x2588ad6d3b66ecc6; 0x5744b716473debae; 0x78e35cdd6754f780; 0x6ab725ce6280d3d6; 0x2e2b3ae025a05135; 0xda048b00b499fa3; 0x60b6f465da2f000f; 0x4bd5b2296c27d17b; 0x6455b466637f1351; 0x75bf1fd184a546a0; 0x51a7e4c3ad86a13f; 0x4bec7f47a107cb0a; 0x1384fd5501f9009b; 0x7dcf7a18c905bd02; 0x6fb3424c871a4975; 0x4fc6a18b7b2e99dd; 0x7dd5412eef64125a; 0x3185357bef3af1a; 0x665114165f9821c3; 0x4f4144dec698c13a; 0x4969d5ef2f88277b; 0x3dd23e8744cc67d; 0x3c08292d7fc21bb0; 0x45398f4e997984bf; 0x57a544ab3d3a1e2c; 0x2299963c4039f824; 0xdaac9ab30065bf0; 0x38fc1343b9839462; 0x2d41b372b3886a24; 0x7b6eaad3216b252d; 0x3f9934];
   [0x4a9074ce1431cf62; 0x16505b53c19c06fe; 0x7d0eb789b58aa0c5; 0x734300c38d3ff9c9; 0x68b173ff82ade6e9; 0x4c4cb0ecafa6ab65; 0x1b01ea11ff9e233e; 0x17ad0e4c5826c0c6; 0x2d3250bd461bed9; 0x7b2c5d87acd4b266; 0xa2840057798b5a7; 0x20ee458c6674bf2a; 0x220c62f414c4c080; 0x150d10913f9c07bf; 0x582bb037be6a553e; 0x19a0a4351cc59436; 0x252f405d0f7cdd22; 0x540af6144dd08910; 0x1b7ffafdd33b60bb; 0x47a59d872d67126d; 0x3e5654faae070433; 0x10c108ecd8576376; 0x74fcef32a290c1a3; 0x78cbb5e3fe130486; 0x28c3a2519da7e98c; 0x5d0730e34aeb8aaa; 0x5e53d2bd81471e29; 0x2d255ae0d59e80e5; 0x142f950aa96573a5; 0x12cc52bcc90a42c7; 0x1370e6fae2f41b0e; 0x2cdd551bffb3a736; 0x5cfe47bf81c3353a; 0x600fa3030242622b; 0x5f520ab368cb7c15; 0x27a00c6eb367a358; 0x3d622e23aa86f498; 0x3a6ea6c7ba7e74b4; 0x21a717e2161e9412; 0x5da7b29ad2abf48c; 0x2fff433444c5a58c; 0x1a2a530c7472ea07; 0x72573c5b94004b0b; 0x11f493e10791cb7e; 0x3405c81f61a600ec; 0x6aa48f1c4f0bf8c7; 0x37f49d65e9411dd1; 0x1889dd8fc969824e; 0x74d7102fc57426f; 0x4ffff696808965db; 0x6f188ed390966ee1; 0x2fe8e0d5c6da23af; 0x2a24f69169af49e5; 0x5ddfb6aadf69cacd; 0x50e2f5a203d87ac7; 0x3269672749319c97; 0x57be529785b4ff0; 0x4c404472ae3db57; 0x287bbb6e63671255; 0x2695dac874a4a1d1; 0x7a434c1ff46bdea9; 0x3532c79c0ad242cb; 0xeb4737ce656ee65; 0x14a7253d09d16552; 0x61194aa7d322873; 0xdd37e2b6d49e54c; 0x48eaf0c7cc4c2301; 0x675aaee20695548f; 0x23a34b8528267eff; 0x1369c66f88f53216; 0x7c3b821509f5fa88; 0xc843a9e9c98d84c; 0x1d51599944e8636d; 0x7a214c0294f72651; 0x72edaaeafd660189; 0x1a66b0af5cc24cd2; 0x35eb4da027d0e728; 0x2ed5b50438feb75; 0x46af015442718a38; 0xbd5c78b55ec10bc; 0x5cb308c9a181522d; 0x2e4f47e8aa16a588; 0x20bbb6c836430e64; 0x19890058cdd25c10; 0x3885e7b405215c33; 0x3b9a685b9fa5dde4; 0x47643092a78fbd4a; 0x72510df831c15c6; 0x7912523d4e488312; 0x68d4ce00ddd0548; 0x468f50679a4e8211; 0x356152112f886f13; 0x39378bc65afbb3f2; 0x826b77cbe87fa9c; 0x13c71913482cd35c; 0x233ecae8f92a19f4; 0x2a9158b77282e9da; 0xb56016481ec65bc; 0x1dc88c04cd45e4d5; 0x3ba164d3405be293; 0x5ce540477ab9628; 0x717fac11fe63201f; 0x79d87a116bcfa246; 0x35e24b60b55778f; 0x23b03fc5495c10fc; 0x2ff47c697ba8be74; 0x297d56eb99068512; 0x2864f4b8d278f9b; 0x41b96d2550d75366; 0x619087ebb589a657; 0x71be44fae2e9b513; 0x2cc037f42b82bb20; 0x43536cb4421c0a3a; 0x68f2121b90896289; 0x693e848f929529c6; 0x3dda26b1a3d917d1; 0x11e4748aeda58515; 0x628f16c2d97fe020; 0x56e09040da240d8; 0x5475a9387c5f2452; 0x3447c0593d94ec8c; 0x4e475ac32314b224; 0x1b7a461dd3afdcfa; 0x7d045eb38dbfaa42; 0x629b1ffe8b9fa233; 0x949fae075a9a11c; 0x13464de67f6829c1; 0x147e80107dd5282a; 0x2e5599a16f52a13f; 0x6a5a73ab70b1efd5; 0xcd15ed92e037a6c; 0x365885194b22b74f; 0xd4d33d7359be076; 0x1a3186b8d3bdb2e2; 0x20a71196f0ef7e48; 0x5797f427c2ab1fc2; 0x32ed5041d102db06; 0x4d8af7798ab58b26; 0x69c94ccdecdd5a28; 0x6d7eae16881c4054; 0x3c7c62a37f910c46; 0x664a5497796f0e1f; 0x3291a54b446e40fa; 0x1c55ba5fbf0666fc; 0x2a066dabe00c1887; 0x283521bc2ad8c397; 0x512a8da46b93b00e; 0x7293835b127efb36; 0x70ba035748761bfe; 0x3322788b8c1d7e2; 0x3f92195a854c236b; 0x78fb7e44b3eb2382; 0xf7db3e923e50b54; 0x5af36a9da3e618f5; 0x2c5e11b68ed59687; 0x3dabea96bf2c48dd; 0x6650d015e00fd0ac; 0x5184f6a87006f510; 0x2c8927b8d1a8d30f; 0x735510ce5a841a53; 0x60cefa99966c4c36; 0x3eb0a0107f66e8b; 0x1ea849b17da524a3; 0x275fb4e054023a58; 0x1bf8a3f47431dd9e; 0x24562f001efc56d4; 0x7c2c1b233002164f; 0x5d4da410f5e9e4b3; 0x3150f602f3bf174f; 0x52d6d6aaefa43790; 0x13bec375ffba93b4; 0x31ba6356eedf3f43; 0x113247485b169126; 0x527e1ea3a60a8fda; 0x456de3ba0cc4f3a4; 0x448b27c701e30ed3; 0xac975aafe1b69f9; 0x56c145c47eb6c246; 0x51c395c9c7100a1b; 0x6d050a66980f1b9; 0x2faa038f0b7e372e; 0x1caeaedf4126da5b; 0x43f92d7343ed32c0; 0x24405ef67188f2cc; 0x5ac7c05b9caff672; 0x12529f33f6e4bccc; 0x725039afde1679ee; 0x7cfad6ce31c98da0; 0x27e79e77d4d2916f; 0xe37701ea38a0dc4; 0x73b94d55fd79f0dd; 0x7e7e9f34eff42a11; 0x4c74fd4fbcaae3d9; 0x738f4af02a96b6ca; 0x14a5b6a9f119c1f8; 0x32fc70bc7a5f5034; 0x68ff37330ca2333; 0x40b573e186248e32; 0x7fc0f6d591cb6843; 0x5364aa025a48626d; 0x1f6e0400755f466; 0x615c33a45cf306f5; 0x70bfb83454a2a11a; 0xac3cb240b3f9e5b; 0x771561448b3fec97; 0x664ebc6621093fe2; 0x68fb25339f835f80; 0x7d5866a8e5610a08; 0x5d74f71099be768f; 0x5475a0039502d3f2; 0x2a833d0e9c45a250; 0x526cd869fbc9b4bf; 0x4150417f691d5b74; 0x78ddb8a70527b1fb; 0x1ca4cec272326935; 0x7565f794e3d04a50; 0x50e30ffab0d430b7; 0x4242390366d5a07e; 0x18d94de7ccca1452; 0x121f246ff12e62fc; 0x5d81f6e94af406d8; 0x63c192c81ede067e; 0x120876def27f6da9; 0x29ed308e9cded071; 0x23d095cb766004c9; 0x7cfdeaef08e79926; 0x4fa322aa1209669b; 0x336e73303bb3ce50; 0x3f599de561d545d1; 0x54e043fcbf55038b; 0x58007c1cc202f553; 0x4458e496dc297a98; 0x179c5a844fc61ff; 0x59bee650c74738e6; 0x3959a8e338319782; 0x3a83d23c06de25e; 0x6be9ac0fddb319ba; 0x26e55bb1f37fb3f3; 0x6256020d589edcf1; 0x2bc9bc183708a0ea; 0x480cb3553c2898af; 0xb76fda59064e5e0; 0x1797e963343a98c8; 0x41f66c368096da0f; 0x4a5a834c0862af23; 0x40046fc876f59a8a; 0xb0a08474b58628; 0x46f7c2912f6c8efe; 0x3ed90316069d9fe0; 0x3a38bd4d6bd26061; 0x834b63750939cb0; 0x19ae576beeb036d8; 0x3c27ba6a7162644c; 0x7bd5f7e5832333d3; 0x594febc894c8bab8; 0xd4febe1dcd9b6db; 0x6779ead6e20de339; 0x4c7e166a5183f174; 0x64cd0ccd464ee7fc; 0x2c7db318a607f107; 0x2f671494b2b442c4; 0x290afa5f657719bb; 0x68e2edb55978fb4f; 0xa73ac4e47fc461d; 0x5dafcbaf967026aa; 0x353e0b6c2f3da9d3; 0x67f65d5f6b88033c; 0x2835dfd83f17aa48; 0x40f96c9b9d86dd63; 0x339939acdec12d39; 0x620504cc7ef2e4e9; 0x7c50289ad512bfb2; 0xebf8bf356a04ef8; 0x62483a65544e8cbb; 0x1d725fba5341fc3f; 0x5a64be7cbd9d54aa; 0x370f5dc9d0a9307c; 0x5d7316dcf751648f; 0x5226105cc23e8934; 0x2b49935d104ee7d5; 0x65cfe94cbf8efc7; 0x7bfeff8d3d334273; 0x5fd3bd75306af2ed; 0x2aeb0c24e28442ad; 0x1737dc2fa1091f15; 0x1157ab5a535e5153; 0x4c8178ff1e349ee0; 0x55757a68dbd81007; 0x5c2b4b95cc170725; 0x27d830acc650fb33; 0x47b05b3e8e21e27c; 0x46565c582cdefad9; 0x38623268f1ef7727; 0x374adf6efb9820da; 0x2aad2e4e06f35bb5; 0xee84da205544eca; 0x157a901a8e31b634; 0x31a699e7f3481a67; 0xd24b9ad21ae03a7; 0x28e6dce7fe604b52; 0x2b2e48f14ad2af68; 0x31af65b70eb57593; 0x7e4fae7091933903; 0x6cc44b4165fceb5b; 0x440a1a3942e3413; 0x354b3db1a58bc269; 0x639d0092608c15b2; 0x62fe45e802cc46cd; 0x1a53468ac9054740; 0x393d107bc748b037; 0x470d1d1a74eddfc4; 0x322e7263b3d281b; 0x2f1eaad8456e47b0; 0x1fa134e6f5741f3f; 0x33e1b76729af67d3; 0x36e233beafb11d2a; 0x6b61cb81a3d11bf; 0x265a89];
   [0x950fbe29a661f4f; 0x145facbae9afff93; 0xee03bfd8301f0f0; 0x7f5158e6f4cc9b97; 0x6d06402297f3f71c; 0x26696b53251251c9; 0x6cea3cadb65fbca1; 0x6b90916dcaa820a8; 0x77e871c4f0e61a37; 0x66bbf24e0865d8b9; 0x7c95025640837d8f; 0x5cc59734603c9f0b; 0x5a7d72d3107e0c66; 0x7f265920ca72adef; 0x15aef32d2cd23f36; 0x22ccc7db7fd15253; 0x2245f673119149ec; 0x4d8006b0337a78; 0x235c1451c13bf2f2; 0x59fb06708765b921; 0x6d57f0e90d803214; 0x4cce9ecc10fcd6e; 0x5a229f9150c23dfc; 0x145c0ef1872354c; 0x3cb5206de98ac17f; 0x8ade445a9c87323; 0xd6f83cf511083f8; 0x6e6d223070b3067; 0x60bba20468be6f26; 0x7b94d0cf04121a14; 0x5e0384418d4f9caa; 0x3e9532c087d7be82; 0x494ace6426fd9d2c; 0x118677f67e148e05; 0x2a11eb818867e354; 0x5f9d4e6f70727e8a; 0x5c28aac2214e8366; 0x42e476b6c5241bfa; 0x77491dbceb777a3e; 0x258f3d9ce05fb146; 0x4fa163d8027d70a6; 0x156625a0759ffe81; 0x5fe6136460695403; 0x10df5b90f8dc198b; 0x1d008721143f546a; 0xafb5d7012039915; 0x525bcc983d967989; 0x53b4759bac0e14e3; 0x7d502e83d01dca7a; 0x6236b57b77d29188; 0x5ef3115a7b3e7dbf; 0x23fad4afebfdf17a; 0x40b02f333f2ac7d6; 0x57888b587710caaa; 0x48d2adafb4a3ca37; 0x1ab232815f2d60d1; 0x3fe083041b95083f; 0x3f387a1ae868b9b0; 0x7ba3aefc67f55cd3; 0x43e492a7d57a347b; 0x46d63695dd056c2b; 0x5bfa3cfc4ab8a4b7; 0x7a56fbc8a861e8a0; 0x323ae4deb1607ea0; 0x6ba4a95be78afc79; 0x77e2b4b3fab8f531; 0x16388ba77ca5bded; 0x79b84f68a1d2ec9; 0x6bfb367f740b4f99; 0x30b00b4de14c875d; 0x2ee464267bb9e5c8; 0x3b7f42d0c0526af4; 0x3c3cc6534614f259; 0x402983dc03202f32; 0x2c156c1a2187fc27; 0x5634dc5fc1865e5c; 0x45ece17f4b1c3388; 0x65041c9371054a2a; 0x677859c29269a505; 0x426103723e0bd610; 0x13100bf7603a7553; 0x414ff221dcc5a775; 0x1be86919f0685aff; 0x528417ee1876d61e; 0x1b8541481355209c; 0x20c64940a72bb30f; 0x33794eb449889a3d; 0x27adf4781481f49c; 0xc9215780780d3b7; 0x4f189105974abf28; 0x67b999d2b799afd9; 0x16d3ff9b4a21286c; 0x649193da31dd66c2; 0x7f0dbfd73cd2529; 0x1eba35f58073c976; 0x27ce4c77f07ea4d5; 0x6aed01ed679704fb; 0x445b75495498ea87; 0x628347706add0655; 0x3c7faa8a8a29c0b; 0x320d76d118f86e5e; 0x2cf3b86cc6cd47ab; 0x2a8d5438f1291c99; 0x698285dbd9c31cc9; 0x106269815c0ac5c6; 0x470e0af64c263a69; 0x5c2e46ef44a2e8fe; 0x34d940db8f5615fe; 0x331c78faa00483e1; 0x1fac2c3cf1c989da; 0x22a6e41bdefbdf28; 0x7242136fa3b26b12; 0x24f1e32a24d2ea6; 0x29cf054760367bcb; 0x6ad257dceded2b51; 0x4512eeda46f9c080; 0x574ba8287f5eba0b; 0x51ba082abd9ff339; 0x77933ad0c4849205; 0x344d2ab71c5fbc21; 0x60fedc05bcd2d42a; 0x1378e09e105b0512; 0x2c858ab90dcc7df2; 0x2cc070155a7d54fb; 0x2abd0e77c3360ea0; 0x6554e85cf8f0cbd3; 0x5edb552450993b5c; 0x446279d940fce641; 0x68a8ef5e94e1cd70; 0x702e0a7edb6bd2c7; 0x1cd62bf9e7bf489a; 0x5c033e4330a7c8e; 0x201d2219c4c121af; 0x17a351ad02290c2d; 0x542c1753e0555751; 0x1eb37718b1edcb6f; 0x61cee42fb3342925; 0x20b9d3836b6b8def; 0x64cefd246313fc70; 0x2a60a98775339b8c; 0x19cc09873f9429e0; 0x62fbb06a3a5f4656; 0x211f5090197a769d; 0xf8220828c74fc21; 0x4f5ba9dd98dcdbf5; 0x20770e8864b4214b; 0x3fec29ed93e2ccc0; 0x288d9903bad47c47; 0x310478d8b5e56248; 0x318c75af04fbfd0a; 0x5dba5305788a90ee; 0x329106e125b5ec7f; 0x2b3b989d3e76dbe9; 0x53e5b795cba070cc; 0x130d5f9bc0dc5dd5; 0x2941a1e348ba9424; 0x466812b51cce1303; 0x79338419575b6f1; 0x4e3777c94dde084f; 0x7ae2c6704120377b; 0x26af0d2efe1c1493; 0x5f51ba7fd6373ece; 0x1d497bf9030da5d6; 0xb0d35b48114a6d3; 0x427cbb844ac1c86d; 0x234817cb74564cc8; 0x1b92741c8867df04; 0x7386d225302e0c0e; 0x195521394ae45f3e; 0x1d8cd97ff8d2d9b6; 0x7bd28408071c7ee0; 0x6086fb59b3a899ad; 0x5c723badf6bd52e; 0x2bbdc21054e5276b; 0x3dae14d152c71f60; 0x13268c4014c6d876; 0x139926e02788fcae; 0xbb1c21548b6c03d; 0x1ae275b8d4e88e3c; 0x24c86238aad2924c; 0x58b4ea008d544ec3; 0xeec5641512a9028; 0x6c89ef44a14c356d; 0x3fdda4b22317b8ff; 0x1811dc1626d712b4; 0x7a924170bade0766; 0x1b6f07b3aa73b7d2; 0x2de5481755df20d4; 0x3966c6255bc9f784; 0x2262afb562e0e924; 0x491d31483e712395; 0x57b45cb75c0562b5; 0x594b3cac9cd0d66e; 0x1c7f29babe3b02e9; 0x10ee84312243a5d5; 0x5e30da02b128bc49; 0x35f4f8c2a28deadb; 0x15fb11452e864f62; 0x29e93f36f57a22cd; 0x6ff46f3c897c2720; 0x32a594478c2198be; 0x1b16072f1111b31f; 0x78cc1503160633a7; 0x3fc7878c5e0b5222; 0xa4e05ec6a3c9420; 0x296889b52f03cb14; 0x19f58378f56c744e; 0x43a87fcaf6b702ef; 0xb3a0a79fb5b092f; 0x3f36faf95fc2d249; 0x18314a448b414e6d; 0xf8b0aab03c68ff1; 0x39e0aa48b47b0638; 0x19faaf4475848d9e; 0x1576fd97579c296a; 0xb49de1bd8155c9b; 0x360f6571eb91d343; 0x1a682b198cc67a3b; 0x6000a381a07af0d5; 0x5ea5ba70cb5b0efe; 0x2c7199ff03e05b1b; 0x1e8b42da791189ab; 0x7c1e39a630e161c0; 0x608ae7ff5b13c528; 0x7775e6a9a8d89178; 0x122263483134b6a2; 0x5237ed9e09741ab8; 0x369749939b080e39; 0x72d83cc6be1bba61; 0x5289410c7361218f; 0x47b9c353a93a6f03; 0x1433a28bbc5953e9; 0x4c24096be8662ccd; 0x31c88518829cab9c; 0x4fe28d3fd0604ff0; 0x6c3883d599d34206; 0x2542dddbd8e46c53; 0x5e59c21799be22b7; 0x6aa98f9b37e43bab; 0x244bceb8c14be61a; 0x258da1bdcb11086f; 0x37d8d75abe34574e; 0x459b884b6220bb3b; 0x728d9b0293588213; 0x72b92cd7d7c83d0c; 0x78f46ca507ecf8cb; 0x37862eb7d33e0eb2; 0x7a93ff42b09f8b37; 0x77e718c612a3799a; 0x51b1b6e17ff3046b; 0x2a53b7281b262ab9; 0x6860c68edfec6ada; 0x663f88a35e37ee2a; 0x527f2ac6f24b6d4e; 0x34c73c7ec4acc175; 0x4a0c11659483a82f; 0x2e9bc7476d06b0ee; 0x36f2fb8cfb3ab97c; 0x3c6f024bfa4b2457; 0x2fbb68a42f0d6326; 0x63d441f6966c1b0a; 0x79fac2e315cf6908; 0x742248deabbcadca; 0x5fff837187c44ad7; 0x3de4d48cd87dac5d; 0x2061ef605762c1e4; 0x55049ad33bdb186d; 0x67e1eaafc7734f47; 0x4ef28eed9641b72f; 0x6a2ca23ac3d77573; 0x16979124a295a849; 0x24db6ef47960ecdc; 0x3f8f307850bd1f1e; 0x1cb93c4c80001d2d; 0x5e1d00bafddd506; 0x334a139b31495fa5; 0x73ca283d01ca7045; 0x4aab59a6cac2ca24; 0x6c411758bd055968; 0x7b98e6d8919e3d50; 0x2ede627274d59a17; 0x68acf0017511c822; 0x27cff1eca054239f; 0x476e1a15646bdbcc; 0x71c6e2e4726372b2; 0x477c1d9e52b51ee5; 0x407f2f569e3a056f; 0x2c2ca9e9fa647db; 0x187539f5bb9a2ec4; 0x701ad177e92c79c9; 0x74832a31ce38f278; 0x28e2b3a4809df0bc; 0x21ce0768bd7dca42; 0x754a4c8906292b44; 0xdc97efc9205a4f9; 0x65ff67c566b8b509; 0x352cc0e2604a4af; 0x388baaa1bd1d269c; 0x14e7c1bb0fb98f3b; 0x33ea636bf65fd1ac; 0x290bb49d13fc5c6e; 0x1f296f9f3d5ef1c0; 0x50894b451b6b5ae4; 0x21671ccfc96ee5c5; 0x555ec0a0391516e4; 0xd1081f4c9b16aa7; 0x1160fce5f4a0edde; 0x6b9a8271d24268cd; 0xf3cf1c769a53efe; 0x5deab4987ced7f32; 0x20dc87e38f8e8ed7; 0x7448b4e2ab12b532; 0x183773b48cf202ba; 0x70ed1cd98284f029; 0x2e2541e2f62e5685; 0x1bdb5d50f5d7a6d0; 0x6ec15405a5d5fafb; 0x622f0];
   [0x60444674137d3b18; 0x6538024f4da77753; 0x2f34efb882fa2186; 0x3a7921257fc2d6c8; 0x6dee3e649f6f99dc; 0x6d9eadb95cffb93b; 0x363eee35723866f8; 0x109df58273b67e74; 0x497a7897038c7f15; 0x18bf21b484dd8a12; 0x60294fba38456352; 0x722200377697fea1; 0x12e2c8470e0966a0; 0x33ed082be36dc975; 0x3bff6cc8a6b0049a; 0x581992af44aa5b53; 0x7d0bb87d32c4c9d1; 0x504e4e1d1f760a26; 0x1585975f1ebe7aa0; 0x496d780de1018378; 0x669dff92c9ba1f2c; 0x56207246b98b9498; 0x460bf8117dfec4f5; 0x3e74feac2d329dc7; 0x7bc0bbbde8bcbd38; 0x1c8ed37dfcd59b7b; 0x28e6a27558f539ee; 0x24abbecaa5ff8765; 0x1b1b7380d309d0b9; 0x219af3949e80e06a; 0x11430c5a04c1e124; 0x3f10f8d73fdc27b5; 0x25b3b772368ba418; 0x7db149ec4e2b316f; 0x45117fb4d7769220; 0x11dcfdfa14d74966; 0x6eb224c3c37d2f2b; 0x256d5ab8dbaef71; 0x51697d10eb6825f2; 0x1e5a56e22d83ddad; 0x37d73b0e2fa702c3; 0x8ad45c030389503; 0x66b6e96e6d1a11c0; 0x20263db7df469ecd; 0x747b783181c2517c; 0x1be9217463c15b2c; 0x636a9a937cc15f7a; 0x5a5c5cb98911711c; 0x2dae13e4ee9c2ac7; 0x79fb1b245d0ebd24; 0x3bddc810abd1a19b; 0x500eb3689d818905; 0x17db235e9010fc80; 0x119b6edb87b5ef68; 0x16cc3588bc900332; 0x7e88ff76593ded86; 0x15ad527b2dbf22ad; 0x2e610192568d99b; 0x7cf8ca79b95abbd3; 0x44cfdfbc1b79d714; 0x751e0109d3e304b8; 0x7c3b416f3ea7b290; 0x446ee40a4703c221; 0x6de057a4ff473541; 0x7f3a310fd714a2db; 0x17f3554d217979dc; 0x148f6b7dfa12ae72; 0x5218d08e944315d4; 0x484aadf045ea6da5; 0x43da4b25bbde2b3e; 0x72aeb30eaeba356e; 0x2d48fea695eb6696; 0x675d81a0b5a2723b; 0xc2a5c85c5f1a428; 0x2e4bae9ff5033d0; 0x6294203cbd8429b; 0x69394bd5c268d31e; 0x19cdd3cccf4485dd; 0x5e4cac214bf3eb81; 0x33e9a79ccaefe44f; 0x13ac223b2ee15eb1; 0xceda388b904edfe; 0x1afa2715216e730e; 0x1dd2b6aa83281bba; 0x3a0914881d586a40; 0x2a4fa0fb92079923; 0xa81e7b002e44009; 0x189f11a7acfe0bd7; 0x44e0e8ee012333e2; 0x7f78e5644b475f6f; 0x5e8c50f10def8efe; 0x72f2d970c3baf734; 0x67fa8e3fb69fb3d4; 0x51ac5ffb63b9650b; 0x7df3529bff84ac75; 0x6123e7991c9a7714; 0x736b500813c0185a; 0x6ca56e1fab333018; 0xbab37513464ff30; 0x8ff5ca7fb14069c; 0x378cf17c9df2e913; 0x59ac6a74f52401c6; 0x3c7b7ad543ff6f0e; 0x16227aa650c1a987; 0x349ed3d88cfa8123; 0x196bb666c1d34f2; 0x729666440e35edb0; 0x44f0312529fee5b9; 0x640f9ffe750a8fd5; 0x41bef54b9fa506d6; 0x258d5a45f1736ee9; 0x5e284e3025d156f0; 0x43775e31163eed14; 0x4108f2e429db3f76; 0x50b59de7cc240a33; 0x6f6b24aeb837df10; 0x2938aed633235ef5; 0x48e062078ab58a6f; 0x1fbcbbe67463259f; 0x2351239f5675b74a; 0x2acea9fff3223421; 0x5689f14f84d055cf; 0x67f0c639b2023875; 0x39b0d4f7d84fde98; 0x8afade99132847f; 0x4a0fc0ca2dcc0ade; 0x6106418416157780; 0x5331a135fc010dc6; 0x122f5044f93d1786; 0x3d1fcd5ee7fadee1; 0x34a1d88e74e8d545; 0xdd524fa69bf1ba8; 0x422dda0568f11a88; 0x602df1cf8df4fa1e; 0x12935f24556062c3; 0x71ad1d0af612b4cd; 0x5bd8bfc51abd2438; 0x182b8f0986903284; 0x10a42bbd62605752; 0x471e49a903c184e9; 0x174e356571e05414; 0x798e3a2989ae978f; 0x5030e2ca65416420; 0x7449bd767a91d0d4; 0x6fa30fda3afcae59; 0x3f67b726c1108bba; 0x354c1b51f7d82962; 0xfcdacecf9984daa; 0x70bdd972a13dbe30; 0x1d5fd983d789b044; 0x7544d048703bf7eb; 0x596cb86f0109f2de; 0x1cd1dc10b5911871; 0x30f75b6ed2329f02; 0x69df5e38135c85a2; 0x6a8a256fbd7bf79c; 0x66f159e9fd954cc6; 0x6e23fab63e4ab7c0; 0x4c094ac344af3f0d; 0x293fa78a8326a6f8; 0x348ae7f8b99733c1; 0x571c22efbe672a10; 0x697d86e791a1b0e1; 0x3378ce6d3d7513c; 0x3dd276940d5187d8; 0x439796d31208083; 0x5b65f373ccca231c; 0x5424eae9c04a2f4d; 0x9189159324edeae; 0x508dc2e32b0cfeda; 0x2ff0230af0d78907; 0x21974ecdb6cd4329; 0x36bf19f643487468; 0x17b64901c230fcf3; 0x4bbdd1d06d93bb7e; 0x7c653602a820e84d; 0x2416af37ad16ef7c; 0x67e5fc158fd31da; 0x1587b3b83ac76ef3; 0x55ec4b6d7b1f6e2; 0x12e8acbd3ef64190; 0x20f633a2b75e4b10; 0x67189e6abeff264e; 0x41428c2f4b243926; 0x6b78ac26257d2fe0; 0xf3d413006198ccc; 0x3ecf71dfa63acf6f; 0x2de5651f55e89efd; 0x3ec4c5e025d4c98f; 0x1d2f312f1286b43e; 0x5cb5d2b400735457; 0x7541370c5873eaa1; 0x6b1fcb911c08e40c; 0x5b02dcf765cebd0a; 0x55ace73932e47b7d; 0x3037f094bcc9b545; 0x5c5907504a41eafd; 0x33c98dec27e27ea5; 0x2cc3cd1e2d1adb30; 0x5662234fd9d8ebbd; 0x73b54ee98d7b86a1; 0x3e2334303705fb60; 0x674a780c05a63257; 0x5590c63c6f0899f0; 0x118a6b1ce33704a3; 0x745af6e121946edf; 0x1ce8e5a7d16ef75d; 0x4f689f411d5417f6; 0x4cc5d9c8dedeb62e; 0x5e7f59fd8459553c; 0x2a206599d1299b73; 0x1bc91cd6339484db; 0x25de2c134d7ddbca; 0x2127f49ed98aa3c; 0x567f53d2121f5154; 0x47beb41b674d5c34; 0x20a3db45a30291e6; 0x673758ee01498860; 0x497c985ed9c9d8df; 0x7de84f6da6196094; 0xa4cca23bf9e8845; 0xa8a2240ed4a12d1; 0x52319c1bb6738d56; 0xa526ebe776f7323; 0x4df704801b681c2c; 0x7cdcc604e6983f2d; 0x6ed0daf55dcc5de0; 0x4c3b59043656ecfc; 0x337313a2c3deeb3e; 0x32c53326bbe58ce3; 0x2d58324c5dfbae83; 0x38a37f8cc5f98b72; 0x4b3efb2787d08ba5; 0x2ea06c856b1d7822; 0x2dfa494ec0b29c8f; 0x439fc279cf55c28d; 0x4664846dcd4e7e77; 0x86b8a300fbd4d2d; 0x60f3d2bf8a90f3d0; 0x2c0a974fc44db28a; 0x3bc826fab34e1b8d; 0x39e16faacd2a5a38; 0x2a386e9e93cf679; 0x37391acf8d814041; 0x8a53697d3d4cec5; 0x366267c3b4e0e28e; 0x2b0f3a0b4017b55a; 0x5759f42b287f61b5; 0x66f36b6ae933bbd9; 0xc38b2e39627a503; 0x3359bc9488aa8360; 0x35fc0b5dd1205f14; 0x1f120bda3082bb5; 0x2d51b84f0cd0826c; 0x670290e18c2c1cb4; 0x8d4e69468e5ce6c; 0x51afda953ed77921; 0x1dfb68ff407b0b5e; 0x2b01ff9b3e6eef18; 0x508719a275351910; 0x1defef8ac80eb951; 0x2480bba39705a89e; 0x1822255405ffd59a; 0x1e8c2edfae31777f; 0x698c82fb216f1912; 0x7ea99d022801b0cb; 0x4919de52b7ceaf20; 0x75368c9f323abf5d; 0x2daf24042b6ac3aa; 0x1d2cc13ffba3c805; 0x13c8d3f7393c443f; 0x1f456b1bc93e050e; 0x4f84224ad3d3fe3f; 0x289ac8b2043bb643; 0x1d2684706b51206c; 0x21a854e7eefd745; 0x12b4054da77e227c; 0xcc1451345bcbc6; 0x19849ca8530cb05e; 0x23f33b7d644e8833; 0x3daea1f8921b1d8e; 0x32e8140d0f73ca8a; 0x736c4ac23050db8e; 0x65b43b0160be27eb; 0x74a7b7d068e71dc5; 0x22c2d20ac46ff03d; 0x75968d6933546468; 0xb7a177024e6b4eb; 0x28e8f2d3e41f8314; 0x73a71a8a28cf61b1; 0x40456d74f24bf6af; 0x610f4667388f3578; 0x77ff16d46a47ac; 0x8b6e648e23dad3a; 0xeb71b1a46d8f590; 0x715029eea1fc53c4; 0x4b5429608b320121; 0x3dd745562ba86c49; 0x21505849805811a1; 0x7c056e6ee69a0c23; 0x91450d74429bdc0; 0x66aff4a87d13e493; 0x3b290a229e3875f6; 0x7e299a04ac6411df; 0x1fea82754d64c21e; 0x5172c191bdf15994; 0x789c3942cde410ce; 0x3b7fb7beef928c45; 0x4473ae7fd31f1834; 0x3324176f82b3c71e; 0x3dcebea5d2b2bc35; 0x170d826b0d01b767; 0x2e17b4afaac8b1d0; 0x1236858246c6d1b3; 0x7a234b1e35429cb4; 0x59ae7699716b0319; 0x19b2eea9c4801bdf; 0x3646c6];
   [0x41872036df21b6a0; 0x3330fb355e64aac8; 0x15c93aeeaffe5275; 0x3b2686916c2b7868; 0x3e4c829efa83f9d7; 0x69c9ece0bdf1d515; 0x627e64ed0dc22346; 0x284b4428b89574c3; 0x66d0084562b9da90; 0x25d2def37be3f852; 0x19b44264046fc6b; 0x15af55bd464bff23; 0x40dbe997f0f24823; 0x1f2c768c48e7f8dc; 0x70c6629f44eb1223; 0x457ffb4d44ec90d3; 0x5b8e61798b3a4c8b; 0x628b033b9594fe44; 0x4cdda4ea3bb65e66; 0x32c82d40a3495e03; 0x970a271dbdd1b24; 0x68911bc0b79b01f9; 0x22ac91fbaac423d7; 0x46ac79b86e0efbbc; 0x45acc2e3201a0833; 0x20ebe43ccc50f75; 0x5c174c7d023e0941; 0x14f861b44972b72b; 0x694091a624b05986; 0x7205407485e69ffb; 0x1c60e4c33492f178; 0x5e861def32c71b4a; 0x94976ffb82d3283; 0x3f744fbb105919dc; 0x3e11591a0c62eb14; 0xdaae2ba2a526c9f; 0x749bbbd46f425baf; 0x59298a25b5ab16fd; 0xf618047de450280; 0x5df6cad8e7e80c5f; 0x58c1c21410256035; 0x745614c3b68368cc; 0x595a3e7e6eae7813; 0xf0cb03afb26067f; 0x7b4ecdf2dbab453e; 0xb8eeea8f5d2cd06; 0xce33db2ae69600a; 0x5d4ffb2dc6a32e9; 0x5b74dfdb48abc154; 0x6e329539e34d2437; 0x464a7a624022270a; 0x4aa50d450bcad747; 0x364f18893c9fe0d1; 0x6b5d438224c04c65; 0x3df181a037cdd55d; 0x108ec6e36054720c; 0x193d09a5c821ea57; 0x36daa05cd509c2c8; 0x61d53ae13f07b8ff; 0x2b2ef5bb0765450f; 0x48297313196e8703; 0x5aad112e91b5b1c2; 0x5a04f6abe5303c18; 0x5e372e8656583b99; 0x4a13181eacae165a; 0x14c3bf2659235731; 0x33b767220b5d7; 0x70bfe7e7e66eb622; 0x7f509e53ea4f9e6f; 0x5fad471bb042346d; 0xbc9d21a62b36ec; 0x26a351db64ca3ca1; 0x6449d405b333d945; 0x2a9260a5b4d9ade; 0x1baaec4c3f25c8a; 0x19b7e50c9101d639; 0x1a12ec89468e6978; 0x1db066233786e3ba; 0x55bd4fae2bbdaa3; 0x59f0edc7b192d023; 0x727f310eb5ebe584; 0x69e5126890e86f95; 0x3a82a994a1737d53; 0x7b609586424b6a50; 0x72bb5c57632aa5ee; 0x34014920be5bf91f; 0x2cda47e4a9e0b17a; 0x1117145807e6dbf; 0x2f6c5fe1da1b78d9; 0x45e49b34426ca055; 0x14465a748108532e; 0x437692129591057a; 0x6c07a34c6ad06a50; 0x484c74b1ab5e374c; 0x27d413f6c65c98ee; 0x1a477ea70d3b5fca; 0x24ffdba0e56a013f; 0x14ed899ac48fcd7b; 0xffea9c52e61d005; 0x26a12676246df142; 0x4403dbb42ffa8c96; 0x48d490576af4a210; 0x5b826975c61ee1f1; 0x4f729b44476e4abf; 0x23e8c3c537f2ff60; 0x503e937a57c8785f; 0x763e05263d91faf3; 0x3e96a103d0ee6a57; 0x5171c144a0781527; 0x6e9e36b4639e9b26; 0x59e0c9d0acc1113; 0x9cc3daae32deda5; 0x50d7a6af6c9e49a2; 0x58e6f120410b3131; 0x48a05c729512e6e6; 0x5cc6b7edf85e5dfb; 0x731380c6e37c8dce; 0x7eae666b91c49d34; 0x60a6a497ec74d967; 0x7b360cd092184f67; 0x78509dc95741efeb; 0x76fa573914b2547; 0x62b213acf48894bd; 0x4212b4ae62b17007; 0x33881273ab743bfd; 0x64840e3c1e53acc7; 0x28f2319eed661307; 0x777aed4318abc8ec; 0x2bca65d906988892; 0x5b79fae8fe08946d; 0x56930ab04e4021d7; 0x4dd22c0c1c1e8c2e; 0x6ed4a1ede8ec16ba; 0x6925538d9c0e552c; 0x3b10eb2da339b0d6; 0x2c6e3fc261a353ba; 0x2d0659f20511a460; 0x568f80501c485b5f; 0x1d31b4d098c187d6; 0x680904d44bd2660; 0x3f0c2981d7b4a741; 0x2f6a1ff1c2a17392; 0xce9f67603b201c3; 0x5b834f1b6d606d88; 0x7739cfcb401a3449; 0x3d56ec6143ddebf6; 0x6a6a0fee43c140c0; 0x677145d9728fefce; 0x587edc8120e43138; 0x5017f9a2b0522c68; 0x782f173860d8d41b; 0x778302ea2d17576b; 0x1cf1d3f318d38c17; 0x772aabfb95adb075; 0x4d61b553d0cd938e; 0x7a27bb2f65268a25; 0x3f7e7432aae02849; 0x2623cd00cee028d5; 0x42ef7639a5e40706; 0xd8be00572e3b803; 0x7dc1639775f94aaa; 0x528fdec35d220049; 0x44b9743d8f7a0047; 0x46e92d13c26fb1c8; 0x34d380fade9c7872; 0x1f244994239fa115; 0x54393395b27b86b9; 0x1c61e3d3a2d56605; 0x536a5b7ccd642e29; 0x494c792ce30b953a; 0x6fa8bc32a647d4e7; 0xf3c5f79fa44c941; 0x7fd0edf4279ac43d; 0x337a3426e7c883cd; 0x22d290f17df182d5; 0x46b002b1976dc0fc; 0x44dee46612d5559b; 0x7b3a52fa6102ad8d; 0x5e6a243e9bb0a49; 0x32a39f0969de4a56; 0x2eb0f1c5707691ca; 0x7b098a71b0177483; 0x6ff8b4d911a0074a; 0x262d3416574640eb; 0x17fd43a28d35cf06; 0x6f969e3b108613db; 0x559206bdc41d8ee8; 0x734f7f0734e1506c; 0x1d709dbb1d8427c8; 0x640f794cda55a8f4; 0x55ef5526cd28ead2; 0x19feba1e7ee62bff; 0x2eb3046b586e25df; 0x7a967f8383f88ccc; 0x352d28ad63f2f4d0; 0x1ad9121e816e733c; 0x1108f1baadf271b9; 0x7633dd77e43cd36c; 0x2386e436066e79be; 0x5d117f09c4039cde; 0xdf6fe59bef86ac7; 0x1172711aa74aa848; 0x6145f334f4c439e2; 0x664d57944cc3ad3c; 0x3b49c86c145707f0; 0xd566e87e304932d; 0x2845d2f4d135a04; 0x5c2b52ca9b163856; 0x38bb85e0fb29eab; 0x220a64aa547a02b5; 0xf7f53f060e4326; 0x471831fb4dece00e; 0x34618caceee7343a; 0x3dabc6520705b341; 0x3d7fa33f9426a050; 0x1627120c01184732; 0x27b93b635c373286; 0x47098e3955de453f; 0x1ea4aebcf8a3d4be; 0x639970633a63f381; 0xa37f66b7ea7551; 0x4d6844314aab5c80; 0x4b895775d655117c; 0x5a1c0185d74822c5; 0x7c597bc400b10dd4; 0x5ced58bfdce48f0; 0x662437db1e23f0f1; 0x2d24d62254e2e2bd; 0x1c88672cd4cd415e; 0x5195b2b6eee03a2d; 0x2ea8bd628585d771; 0x4eeb768676bdd37b; 0x355aa6eaf081b842; 0x173fb81498ae5474; 0x18f8a5adfacefa81; 0x4442b329fcdcfd7c; 0x79187cbdc3fa597c; 0x114de170f0d4fe3a; 0x32115587e955eba0; 0x7df045cfc83586a6; 0x68ecd75585539de1; 0x32dec830184ad7e4; 0x3c9663ad041b8ca2; 0x2aff8962a504eec4; 0x3357785fcef859f8; 0x2d6b9e4b66f3018c; 0x222b35c9ca96cf02; 0x4470a45c5aef81d6; 0x1f63416e79fbb933; 0x3af89c36a660a5c5; 0x7dfb872c3abe07e1; 0x37bc500c89a8c22c; 0x3c4b20e77c6b2542; 0x424d43e3bd3c3193; 0x9b213126cbcab13; 0x254b9566c3b7bf3f; 0x49c2461aae131d19; 0x3cb43ae15b19ecf; 0x78dec7fddb94a8d; 0x7997774c5b4cfea4; 0x23e2c6302bb60128; 0x636c54cdcb669318; 0x656a38e9153b9829; 0x4f6b8651bdc022ac; 0x7e92951daf71cd06; 0x1c6470c878e3c072; 0x750b1f0e88a73b41; 0x46600e7f33bb0c02; 0x311d51e7e0bd973; 0x44945f93ea844c66; 0x2620aaf3a0572714; 0x44488dce92a24ca8; 0x18859b2c27812382; 0x68b0632ffe6212e; 0x55579e77ad3e273; 0x436f7d26212111f; 0x4ee720667daea308; 0x49aa02e0d70eb7a7; 0x637ee55fe6f2cf1a; 0x57a4db48af9d1789; 0x16199108d31b252a; 0x6126341b5cf58d77; 0x13fcaca462fdcc7e; 0x53d96a3de84e71d2; 0x61817fd689a23e62; 0x28213a550b28d8a4; 0x725c42571465c8b7; 0x12cdfe0591b6cd24; 0x4d50fc8534d87785; 0x73619b0dd91e2a72; 0x3daea0cafe686d0b; 0x24296ff71ae7b02b; 0x45be96802ebb1322; 0x1a88fd8c002fe483; 0x49d8ef3c409b3203; 0x54385fffffcced8d; 0x6cf8f87e35ebc4b0; 0x19993a06520ecabb; 0x316b9e6cd1190674; 0x773b198acffcaba3; 0x179a293e88cc5d11; 0x7c0d8d46ac3b8f6d; 0x6d404d57f2a7b42d; 0x4b123b2fdb8c8c23; 0x58c93fe87edb639a; 0x583fe0575b538c93; 0x5299ca55d07f53fd; 0x6b826d56006d3a30; 0x49bda9eb79d04985; 0xdb57c37d9595d34; 0x3fd1aa2b15a6aa10; 0x17dac80f3da99861; 0x344dd4f4cb227f76; 0xa3b60b871f8fd2a; 0x555a4882c4c3d9bd; 0x5b81c5e4d717e64e; 0x6d36545eac9444d; 0x2cf3f3];
   [0x47e3e3582267cb49; 0x43374ffec95dfe56; 0x5828fc3d9b224fc3; 0x79a46ceef0ec6376; 0x58f1e4b20a6aa67f; 0x32261743962d513e; 0x1f350a46002fa5; 0xe0098f65d0cf03b; 0x144e14fce519fe68; 0x62f798dd995ff0a; 0x4bc1bb34848ea575; 0x17d6b4c979c77f23; 0x36dcdb3afd222c23; 0x7f168acf74c90f6c; 0x3afdf7a64b56fefd; 0x32a05a4f3700cab6; 0x24c9daf18ec1ada6; 0x2746074a4e683a8a; 0x220cdd6539b49461; 0x4edce3925919a74b; 0x7bdd60f79113c447; 0x33f928162dd8e526; 0x4cd719ff5584dc60; 0x7d4e262762c947fd; 0xdb1632a095ad74c; 0x9eb3f920e41e7d5; 0x4c50a066f828137; 0x4d3b8648eb898eec; 0xa834c34aa584cc1; 0x2735d04b4bd47555; 0x599fe479dd080b2b; 0x54aa1148995c0196; 0x6e3b28122744750e; 0x50427c7e8a6b2e79; 0x223a6428432d9461; 0x25c80c3bda97a4fb; 0x7243f33432994403; 0x3417c71fdae44f85; 0x19bb7cd8451a29f4; 0x51e6d92939c1bc5a; 0x6518e30bc58bd526; 0x7486493e91939a90; 0x518ce1dc1b8914f8; 0x55123df39e415c4; 0x30c7e8c340926701; 0x1ff8bfd7cc131bbf; 0x4fc6e5c53fe874c4; 0x66e911540ba5d442; 0x2d06d97b22f111cc; 0x2707f956979d6cf; 0x29479472bbbd564b; 0x3ffa9dddbc585ae7; 0x5f5579cf0db5ea4f; 0x3f6c5ae39181f279; 0x60799a21ed424b1e; 0x538e7fcec754d83e; 0x2fccbe2f6ce50b7f; 0x424d331fe4092f48; 0x61089aa95a844898; 0x279903dd9cb95c00; 0x498a74417bf16a08; 0xc7f48be810b0145; 0x6010e3ce4dcf68e2; 0x2f2e539473a13826; 0x7c488c306636a39; 0x279a8bfcec8f4ee6; 0x79b0fb84193fb120; 0x73128201f1eb51e2; 0x6186e9fe925008c8; 0x100906a2e4eb4d61; 0x503790cfe3588f72; 0x126030adcd36e343; 0x1af6006458cf0bb8; 0x1e5b78e46354c1a9; 0x49bb880ec3e89bc2; 0x7123fa7df7711ff3; 0x7cc1eac3b7016cd0; 0x5e7242af46a89a3; 0x5c2f474a9373fc93; 0x2e50d7b6a8fce0bd; 0x8f5812caed3202a; 0x393923c427984d0b; 0x4646c2c661c4ad3c; 0x5bef59d3b53a875a; 0x39a7bb28a5287588; 0x2b3e44583e9f0a63; 0x1877ab199a55e73a; 0x6f3281cd145b15e8; 0x69fb38e4e246756a; 0x35e7d597840f1473; 0x79a7f5138e8256c4; 0x7b0f9eada637c14; 0x3d676a09d299e014; 0x486fa845f146405f; 0x3b506e6638f3fb0d; 0x3a9b150c67f80677; 0x793b040ec054db84; 0x4df9d10ad90bca26; 0x2f6372abf03e55d0; 0x79c9cd518324ccf4; 0x425879382d5c4da0; 0x7608a6a76889b9af; 0x619055b52cf97f49; 0x50f78b4cde8328b5; 0x4e8c5beb0053e8e4; 0x6281bb07889d7f70; 0x44b72913520f2cd7; 0x13ab4c380911b156; 0x1a85447256143a14; 0x253e9168725ef45b; 0x6c30f7775ab6ebeb; 0x2725f5afa9396218; 0x4ecbce3666f1e569; 0xad4925dad4bb468; 0x9083494544c5ef2; 0x69654f39820a8a41; 0x26d00f40ea308116; 0x385f912de671d951; 0x330cc16e4548ead3; 0x556e3d5594db3062; 0x7f03829306ac0450; 0x667ca8d39e5a0604; 0x34043ce1bdfd6649; 0x350f5b554e862145; 0x33975a52a1c21c51; 0x684a80c06e94b381; 0x393cf94aba1a24a9; 0x4d5eb5d8744a7fe3; 0x1e3fa42ac8014694; 0x4b12a7e9e0228950; 0x55ed5c3a414da7c9; 0x3813d89d821c5a4e; 0x54df9d91c5fd88cd; 0x8f56c856e3b8b18; 0x5b233856f4c09e9; 0x7d0034d4f591a85d; 0x1c00f453bcd59edd; 0x2c0600e5f0455925; 0x2e5540aedf792ec7; 0x68932f38a21757ff; 0x4c171e58d3610c62; 0x6938b45bb287f640; 0x195504de76eae7fc; 0x39842bf42e5a943b; 0x56b323174e26e8c3; 0x45ea9d010baaaf51; 0x580ee2a0882b7869; 0x9e38d4b5d4cb9b7; 0x183b3bccb68df449; 0x2d1ae2d1adbf6d46; 0x555fa0606d7425d4; 0x63c4ca4b9434ca19; 0x1f75061c21acdaa5; 0x6623094978965fc0; 0x683b79a259852d2b; 0x297a9ffdbd62083f; 0x11a20e96a43558d8; 0x46189e1318d9d45a; 0x6746ea147a0c41a9; 0x77896505fbfa9081; 0x47b33a9efd400678; 0xbcf27737bef404; 0x7be7b676dd92ebaf; 0x438d114f93d77606; 0x56842eeddf6a0303; 0x600a71431460ce03; 0xba0e4430372d4ce; 0xfaf8fa164cb1ed4; 0xedd1ee73dc2ad3; 0x4e00bb31bdd74959; 0x53e2cff689a5503; 0xd282aa85d35349; 0x6cf35d4f61904ad0; 0x7b325a9129f28b5c; 0x5a5d77bc50e20c15; 0x629ce3c02796a3d7; 0x2481b8ef810197f2; 0x7aadd68a5483f024; 0x7f629566eda1ef12; 0x2d399752bb714c7e; 0x3adeb10aecf91fa3; 0x7ac790837af1e5a7; 0x57f7496a0a9d095d; 0x18c617aa154588c2; 0x4288f06c9324506c; 0x33e650953e046939; 0x2abf45bde57cd878; 0x61c48a65b26c9dec; 0x52e6586c39b0d825; 0x22fd3e9b4fac2f99; 0x13614bd8ffc167ad; 0x7509fe86be44c944; 0x1d2d25dc009160c1; 0xdcfc52ddfe19634; 0x1591086204f434e9; 0x10877a22f1e72758; 0x3114d5239e7619c9; 0x7f9047c23ab25c69; 0x4de793fa0c5c01ab; 0x1ce014910510bca2; 0x3252a7ea84e0c031; 0x51476848eb556773; 0x70adc25978f124e9; 0x52dcce9081646d16; 0x1ac6c8fcbab4926d; 0x55e584d938c93312; 0x349ff45ce8c809c3; 0x58a9d59d6bdd89ea; 0x7c261a41c4204d5; 0x16e46dfad6a27413; 0xa5187fc16a0dc87; 0x124e7c0e6f1f3b31; 0x74b320a4e66e1a46; 0x58759bbef45dff50; 0x37aa3a6fe5b4015e; 0x4cbc86ce7b07a9da; 0x67302281e88e8051; 0x1466283a9b6f59d4; 0x64036b540cfdb413; 0x4b66cafd9e49070a; 0x2eaafa97d0f60deb; 0x5a2810ad24ff1dc7; 0x497be41e6dbaa68d; 0x2607a8c396a808bb; 0x797d813295ab1327; 0x4a2081344c59625a; 0x74329eea2da72cb0; 0x2f40e93ff2accbb2; 0x5282f93628c97a96; 0x735d03146c62d44c; 0x2f063b88e4b62b0c; 0x5f307adb8eb5884f; 0x675fea2d7269c8c9; 0x5e9b5876a87a3943; 0x62aa1b2be5ea6146; 0xba91035ea5b8b58; 0x591230492a56bb49; 0x2886f546449e7597; 0x63cd6cdc6cdddcf9; 0x395722959f2ad2e; 0x3a600b0573a0365a; 0x544f38af19748f62; 0x438257a69fa8a347; 0x5c858a14e4ae2e98; 0x5bf2fb7a7789778; 0x1869bdae59709ac0; 0x495ef23f237a24e; 0x44d1e7886e1fe9e1; 0x718a58cbe44b6c47; 0x4fb7b3bf5ca4c4a1; 0x5f39dbd6c7a0dfe9; 0xd8dcfae111177c2; 0x306c80b70c1605f7; 0x65a67de59ca72a1c; 0x74ce7d0df0ffe1d3; 0x48c41499e247f94b; 0xecfb9676593b4ec; 0x14e848441242d8ec; 0xaa9c05a5d6576d6; 0x3730afd20765c844; 0x362c44aee5dbe362; 0x7da6297dec86ab71; 0x2657017f91b23788; 0xe33858088b41407; 0x69a7c09f653a09ce; 0x52605a26ff01021e; 0x51af20e996e3ea5a; 0x3a6af607769e5aa0; 0x4ef165849aed5b99; 0x1aeca282c462260b; 0xa47eaf8ed200807; 0x2270da3d2a4d9c79; 0x4c0e1f0aa8c145bf; 0x2992d90280be1f; 0x15e89d5dacaec021; 0x620c1ac989b9eca5; 0x9b403a9808673ee; 0x714ce49fff23e989; 0x7f7b9d7ca46702b2; 0x3c0164a0edbe4ca8; 0x47e59cab5a3eb64f; 0x5514dcdff9a27b15; 0x1d974a79cbeffa84; 0xee1755c703a4de; 0x5515a1a62688b93b; 0x2ac6467b1acfc7f7; 0x11df2614b7b706ff; 0x5ae469cd63332c36; 0x7520e74afdb52c34; 0x5ffe1cb33a92b6a7; 0x4db4fdfd0fbc05e5; 0x2f15b67500b267c3; 0x613449bd60369fb8; 0xce7583bd577bba; 0x606504d56162e6ba; 0x3b22b245936317ae; 0x6f0ec620d7311fb6; 0x4f8c9cad7c882e0d; 0x12818ffae9b5f5bd; 0x625f632e8757f9; 0x5c0d27b92cbdba44; 0x4df05165835bb2aa; 0xe9c37891c4c09c8; 0x6152e3bc67874d29; 0x57434911fdf10689; 0x6ef0dc321a167156; 0x1a92d7771a1b7777; 0x4d8aa1cdff13529d; 0x722a8cc610bfabf3; 0x49d96cb54faa0395; 0x5f6788e10e53c3e9; 0x55744fc5a8a31148; 0x7ad1d14bd4330bdc; 0x5e81768792a64af8; 0x738ccc2e376074eb; 0x52f78b1d528f2ec7; 0x24f35e399ae6ab3; 0x228a8a];
   [0x3004a06dad908e1e; 0x4f419614f8423885; 0x1db6fba2ee26f2ca; 0x3bcc84af9df8edc; 0x7987fca8ec13ebf3; 0x1939200c196aa7be; 0x7b6e9f16a58125de; 0x7e658816514b5033; 0x7a9c9e1068d891ff; 0x31b4597f4cd313b8; 0x35d4005f41940e95; 0x550639fac3e3a079; 0x125e1806f723d0dc; 0x1851b34d415fcf7a; 0x1c807cf5af621480; 0x54f3082ed97d9c31; 0x172f3b9f1b73c179; 0xb849a0a167da2dd; 0x62a74048abe5fe5c; 0x40c492005a48a654; 0x1885b9c4b8494949; 0x6c382f321b6745b0; 0x1223729261d2323a; 0x5eee0f2d0e5fa3d3; 0x3885adc551e8a2c1; 0x2829d96a1d1eae21; 0x48077357d1edbef2; 0x70d631cb4fe51f5a; 0x4aafb8decc756f0f; 0x4b5216501eb8c46; 0x7cf83fd6d565b075; 0x7f2c027341a58e65; 0x29797b9823ada129; 0x78e0cc67e92e4378; 0x6d142b39c59c5123; 0x5edd9db86c53602; 0x1df8460194796c7; 0x2d76674dff5b74c3; 0x5f65ef546ccd06ff; 0x3be2f815602d4b23; 0x3de752e9e80335c3; 0x7cf93dc37a6fd5d; 0x2d65706974023997; 0x37d85c4f993d6f19; 0x5a942cdf89f235e; 0x38e48fd517590989; 0x285d144d95c12249; 0x30cad0b44e1d2efe; 0x40d40310de32e005; 0x60eb983a5ea8d4cc; 0x45857e5f04c09b36; 0x4b3f09b26ccb4756; 0x2baf45de06062f2e; 0x7dbd3cc3aa5b315e; 0x1a21f2e70c5b3296; 0x16e10dc2787fc211; 0x5492a1aa77f9d99e; 0x1b2f6d8d4c0129fc; 0x62b140c666a3863a; 0x31c7c29bd7bc9f73; 0x75450e34e7bac8c5; 0xeba953577117fc6; 0x193e84e9ce323ce3; 0x19331204ee96a99c; 0x2c779821bff4d22e; 0x5d030855cc65321f; 0x71a6326a26167dca; 0x64c754c603fa56bd; 0x2f495e9833c31412; 0x7da329a9adb8e931; 0x7e98f5880036f855; 0x74def911056c658e; 0x14a816f30d83c6db; 0x483f4bb8ee6ffc99; 0x4bcfca00cd2a5c88; 0x506c4b3b09448061; 0x2645e7e7cd400e37; 0x153fdeaf9fec581c; 0x25025526ab9cc45b; 0x2d7ce5aa4c145f10; 0xcbf3aee3608309e; 0x28a08380990a6544; 0x400c676271e15f0d; 0x420d4612486f3a5e; 0x751a7ba6ea74ce3a; 0x5e71896b08c22368; 0x4785584c41204684; 0x6f726ede3a540ce5; 0x124834dcbe55cffa; 0x4db36874d5ca010f; 0x4f0a707828466184; 0x2250fb30093e09e9; 0x567f237f952f8b0b; 0x22773e0aed80d60; 0x513cd9256f9f022d; 0x3aaf5f5ee228f11b; 0x6c8e7e77d5200a0c; 0x75be56424139281b; 0x45cc9a78a52b1d2b; 0x48a1795f36cf0c11; 0x7587be01054ad363; 0x2877e6bf172d8894; 0x67e389fe0d3bbe8d; 0x172c73feda5df3f9; 0x411a3c88a3e40fdc; 0x376dc7e6686d6b94; 0x743e8c6e3c0bd834; 0x64e9d7dbfcecb1fa; 0x26909432bdb90687; 0x43558e550f1a0df; 0x7a7ebb667f507ed8; 0x574db8e42887485e; 0x4aaf939fd1e86cc7; 0x5c135debd93e63d2; 0x52e56758beef9fc; 0x5d3e481737b63749; 0x6f36e8d918df8539; 0x1d1d06b2d2361dea; 0x5c43c8a0d6f4aa6a; 0x68fd0c1c58e75d06; 0x23cad1434f4c2a95; 0x27f2680cb4378b16; 0x444a64832b3c8320; 0x4eefe4861809236a; 0xe868d0eb42d5f1f; 0x5770882aae86001e; 0x3acce1d528fb5486; 0x5e8962ae9bb5eff2; 0x144a40b3d99016f9; 0x6fd5ed6438dd36dd; 0x312f0773e7faa5a0; 0x665842b7ebfe825f; 0x6aae76e7062ee7d3; 0x293494f62805a369; 0x59cd8e069bc8843f; 0x7a0d82dd919b47e6; 0x21f6a5fe95fb4913; 0xb13f3f2e9031225; 0x2bf5a313ce449a74; 0x6726fb22294b4a38; 0x4fc829090507c821; 0x4cdea30b0f743c84; 0x29db678f76ee71dd; 0x63c20cf7a18f3056; 0x1a3ba5e9b3369e22; 0x5a53d9a5ef3fbcce; 0x380d5039fb6e93d3; 0x147159e42ba6d831; 0x58ea994a31b43e8d; 0x27307d09679e3504; 0x33288b0e0c38b671; 0x283a5ee8e42142f9; 0x10d96f3ccfcb5057; 0x74f7de5f5b58b094; 0x2f270cd89f91f3f5; 0x386c79528b410c89; 0x37f8ce4269dc1f9e; 0x5530b83409f8f133; 0x9de8410930e606c; 0x748496ab77178520; 0x4406b9df3180c428; 0x12cc6f1390d2d81b; 0x38423f7958053356; 0x3e35ee229adaa771; 0x698521d0956afe5f; 0x2da04cac8b1dbecd; 0x69c9f55e959073b1; 0x274e82a5d69bcf48; 0xc9e6f18b5d6b151; 0xe765503368a1ed0; 0x3b0304e184fae2dc; 0x100e303a2c516664; 0x3bf3b6842818f92e; 0x5a14955bbafb0b99; 0x29b879856cd97c8a; 0x48d6569fc4d56ca6; 0x14c1fdefd535dfc5; 0x22bf22d1019756c8; 0x72ec7e3c575bcd28; 0x41b66c30b4e56319; 0x6549d1accedeb771; 0x602177a74ccf59f7; 0x3315b810654c6f8b; 0x2e579552f8d79d78; 0x6012604368e1f74a; 0x31b944fff32b0f77; 0x3bf1ce5f3bd23ace; 0x5da136b6484db38e; 0x364a346f1e820ebc; 0x4c4496b536461be4; 0x594d18578fc3b493; 0x4450e4c525de12ff; 0x1a62688d9742b431; 0x797999efd19d062e; 0x5c2c401d639b7585; 0x4f6aace4965595de; 0x75da8477d2de3341; 0x267f9575992b412c; 0x3b31f9388119ca32; 0x215f8c49f943785e; 0x2adc403247005bb2; 0x44f31ca44d2235ef; 0x3a169bcfed171d52; 0x735c8dc149dca2f1; 0x3c20ed138793fd40; 0x1fce36004dda29c5; 0x59cb83085f40e206; 0x2a87da06d6d9366f; 0x50cb1f1a7b88eb43; 0x3cbdfa59b6f71bd8; 0x9a81894af6bcfe2; 0x766bb60f858c72d0; 0x27492303a34b1d01; 0x36a0627d09cfef96; 0x5012b4fdeaa3aa2b; 0x37859acb3a6fa6cb; 0x1d6de27537ce9c72; 0x17f74de936404eca; 0xa206b580e5b3e4e; 0x3d6ce7de6b685d21; 0x3cc954fd862cc1b4; 0x2eef0de93cc469a3; 0x57477070a4273eee; 0x7c0e777c561c6bee; 0x1e8235a3e7685034; 0xcea5bc85703de92; 0x2ce41d494814761e; 0x4fdfbef51a5f3230; 0x63bd1c64aee19efd; 0x22c4dca1f130697e; 0x57a07cc0088dcb0d; 0x20eb74ddac6a9db9; 0x6bea1480030b1d5a; 0x20ffa9fb8fec3c15; 0x5afa966a5d13111; 0x7bc3a08e6b5f3745; 0x78cd62f07ca71e09; 0x12a8e0325cbea05b; 0x20ac15a94fd3c19a; 0x2559c838f992de25; 0x57a0b3f4c158408c; 0x726dd0828f4b1b8c; 0x7562b9399f9773c1; 0x7b404624116efe3a; 0x61669c091a6f1460; 0x73122975b3faea2e; 0x2267c65856dc42fa; 0x1f30c9a50abb75f5; 0x5e60a713ba84d8b; 0x1b9275f14e3c99de; 0x40edd18eed2429b3; 0x28f43d6ab25ea8d8; 0x37f0753fc8a62654; 0x6ae5459957513ad4; 0x77cb9ab0d0342dc; 0x2f76f806fb4d075e; 0x582e1f26b9e82370; 0x73a00237b946a462; 0x57a48eae520e8fa8; 0x32b3d688398c1dbd; 0x259bdcdce86b6555; 0x53725623566ac19c; 0x2a5d035295cda667; 0x68cef4cab7ada9ae; 0x73ef30a1217fcbbc; 0x5c0de6790ac7f6a; 0xf0ce6cb62fac0c9; 0x2f025c10fbba2916; 0x3427d5467d7bfcc5; 0x26f7d7be30587836; 0x16e2adbc0a70889d; 0x3aacec5c5540d0c; 0x4335dbf8c8fef522; 0x182d1a2d9912f25f; 0x51c3616cbc0d423c; 0xfbf925acd1277fd; 0x7ec433d9206af11d; 0x7ecc27e1c9adbb63; 0xe79871d100039f8; 0x6ce7e59a2531a4f; 0xfae48765f5327e8; 0x72b58a4c6e079380; 0x7662b4f6da22e21; 0x4530b1e6890e8c34; 0x68bebf01f276a424; 0x7dd06d916a0a4368; 0x25f14e9dc89ad783; 0x4ac43091584fe43c; 0x3b1008b560a6c935; 0xb0e7494e1a8d255; 0x273640c2ae774b43; 0x26b7a743deb778d5; 0x484965bb5d145d76; 0x2d7889afc982ea05; 0x3ca33d6fd173dfad; 0x4dd4dd4717e43cc9; 0x1903293eed26db67; 0x7735f4baa748d9cb; 0x6f5bffd565d139b8; 0x7f232611622d7166; 0x2a9f58cc8dd44a02; 0x37940c8ebb5a172f; 0x768c0557442586ea; 0x6c68b477c8951a54; 0x607c8330f4e96d2e; 0x4954a8758b21bccf; 0x3f965a645276f5bc; 0x11a4089364f7b452; 0x2a9012142b78a12a; 0x316ce4de15571c8d; 0x4ab5b2e351998fee; 0x2779ce34cf7211ab; 0x35dabfd5f56607ec; 0x437be2e990d94d7a; 0x6b4dd5b4e855cbc5; 0x7dd723e34954031b; 0x337895e5ed1c02fd; 0x253bf9];
   [0x3bee9be380766565; 0x6c1ec6244123c4de; 0x37594f76b686945e; 0xf84a6e3fd9f289d; 0x9a91e2b62e89633; 0x50ce2a89347c7926; 0x2c2a2ec2f358e9da; 0x67c463f198efd19b; 0x1709857ea8230d7c; 0x2d4ad48027b71a24; 0x6cb9a21dcad0a218; 0x4aa5b58537fadba5; 0x73368ca24982d5c7; 0x217dafc2b182bbb3; 0x398854085bbbd41d; 0x3b47c9d356acc362; 0x4441c7209d626dfb; 0x72a4c23b8ec823f0; 0x6caca5aec40c2ec4; 0x40f177f9b9f36611; 0x64e34a65084cc5a9; 0x1d73866505940238; 0x2e06a4e497b559d9; 0x43c65031941e392d; 0x5fbebf9283efc38f; 0x2fcb5519b3b185; 0x7342cf4f839c58ae; 0x766ff04cbed60fda; 0x519f1fa213b0cb6b; 0x2633690dc8a5f14c; 0x2541ab5b7aea08a9; 0x5518d91ebf8caa7e; 0x15b31ec4d692d90c; 0x7071496028c47c48; 0x2e96615bdcad0217; 0x342a5ddd9dfe40cd; 0x6d4c0e68aece5372; 0x114bf3cfc0889f90; 0x248e41176eb4e493; 0x31c090b6f61ef6d0; 0x504002dadd1cac50; 0x645002d5ab7fea67; 0x16645b39b6c4259f; 0x11244fced64ea168; 0x10edc04c3f0473b0; 0x6b36c048544e4aba; 0x2481b6c26ff7bf31; 0x68fc630d98d7f8e0; 0x43883e4b8ff46df; 0x317ffb5b55646d07; 0x70534e5c3dc6b43c; 0x5dc7f82266bf2e17; 0x7be1d769038bb8ae; 0x6e8a0b4418b15b26; 0x128eb62f8985265b; 0x19867c4508bc074b; 0x288c64e117845883; 0x42702d467a2663b5; 0x3d671d1347bf62f8; 0x37b2e99825982958; 0x44631f40b0eef099; 0x86dcdc1e1b29ace; 0x63e64d4e92a1ea6; 0x7ba99520743884f9; 0x5f8d843d0fa9931a; 0x712dc901c8df082c; 0x7f0a8aa41101ee58; 0x5898a44075d9db7e; 0x469ec5e3448fff7e; 0x3a69840c48ee3a36; 0x2fd184d0fccb1b2f; 0xe3199baf34c8455; 0x5720f3e6ef858c8c; 0x4875af0fb547b07c; 0x34e3cfba4184773f; 0x503abe0b0288eaed; 0x5626304baf4ad088; 0x5e39bbc501594e1b; 0x7a8fa28c63ace4b9; 0x486c9ffeb2a27db2; 0x5cf95758de0a95da; 0x7b10fe520cd93ef6; 0x3522ab7907d8b2de; 0x4977fff63365c0f; 0x7c4fd260a83c2cb6; 0x42e36f41a7e3b66c; 0x43d7b481ef93fca1; 0x57cf1b569b17a641; 0x29268416fbde8582; 0x742991bd901119f5; 0x6d5f03921cff04af; 0x28abf7225e489dc4; 0x74d88dbc49d474b3; 0x575249d8090e85c6; 0x7881f6c2c0f13240; 0x37799b1a68422399; 0x6979720766a99998; 0x5ad514b923e2e834; 0x4b88839f08bc9583; 0x43cba87b09733a; 0x1214bca24cfd758; 0x4a1bdda0c72de8ed; 0x25343ec4be093292; 0x7d3ffd535a838c3a; 0x466afbd94ae5417f; 0xd3921d8fdb12196; 0x2c4c5ac8c206906f; 0x7fce6f7496fb9b01; 0x158bef4ac3bf4787; 0x21c28474614a443d; 0xe5d99546eb1fc2c; 0xcc9df1eaae13b1b; 0x772164aadb772607; 0x7f91f602137b3bbe; 0x2f49902b550dde6; 0x28cec17603f63313; 0x18f162a3b0da5fed; 0x3bdebc548410bec4; 0x28f928ecfad12894; 0x15e60d77107a8f43; 0xd4a191676ebc884; 0x7c1ededbe49dc36f; 0x3b984324492a9e7; 0x2cbd2fe6b94cf88b; 0x1a7fda49e704692f; 0x4b90b7335b39a274; 0x6de9a2d5505e9958; 0x649c0daf0d13b9b9; 0x5f9c0bbac74cb94b; 0x2c4027432aee234c; 0x2ba7ebb59bec152a; 0x726771f8e410195; 0x29fb8240f8b8ad34; 0x68405338bf2e7e00; 0x620de55fe9fb6a66; 0x1d1b85a44595764a; 0x540144b05c19d8db; 0x3e0dc5d9d68397d2; 0x75735018e73545ac; 0x70aacf6aa55b9348; 0x9541261f5069237; 0x3da30b7f4d54d446; 0x1e8f1551a74b5262; 0x613a55d1b58a962c; 0x10ff27adabb38334; 0x4f1fa2ef5a6bd513; 0x2ea365f2ff44d7b2; 0x7858fe5d056cb158; 0x5eb3fa87e9e9ba40; 0x4c6b74ff34007923; 0x24a23d7bceb301cc; 0xcee2042a49264f5; 0x5f7ffc4a07f7f7b5; 0x623b413be1d08b11; 0x510b6cf7ef2e6aff; 0x697f86cca7b41e3e; 0x2cca776f3201b8e8; 0x16199732f2ec6f09; 0x79a9f92a2c4f39c2; 0x58304f8ee5283a59; 0x28163df1a9271d0b; 0x617ad12429c3a727; 0x383437fd5f244a4c; 0x5db4e640841f36ea; 0x4200b7437e92ffd5; 0x7b7895be8c535a6f; 0x170ea2bd870a6656; 0x6bcb827f6b5ce62c; 0xa14f7cecc429aa1; 0x383a3cbf8244680e; 0x76536742842bf7a5; 0x3d53b824f095d35c; 0x3e53d61179492a9c; 0x2c94748a69005aed; 0xf1e8d307785ba37; 0x775f922e9c16f96c; 0x4837d97a917d7440; 0x611145464d513433; 0x40a67c4aff480763; 0x19b5f4b277be0219; 0x3f2d525fe90164d9; 0xc43f4624a8a014d; 0x604977ef0666111; 0x74bfdff550bce25c; 0x668eff6125042b5; 0x707c5e61084881ac; 0x4abb9d5ae6e71094; 0x6859ada04574f8b5; 0x4434e19fc9129aa; 0x713029eb738a70fd; 0xd06cc26610410a9; 0x73c199b18f48003a; 0x3cac42b70d90e3fd; 0x7ccfd0db1e04c67d; 0x499d60432c822060; 0x155034d4e37c6fb5; 0x271cace4f371f2e6; 0x57eed0e0bd751f05; 0x76534e00fb563f7d; 0xfcedc1eee16a774; 0x36e52db9df08b5c7; 0x3afe0491f1a716db; 0x1b9be592190e18b8; 0x17905820a3ed8221; 0x129c3a04c26207f5; 0x3b43f03f3ca59f64; 0x545c9501ac0e6f56; 0x7f355666015d6a5e; 0x665f946bfc1208ff; 0x5326106f67e8b01f; 0x5e6dc30f13761feb; 0x24649c7a239f40cd; 0x2803caa7ce91d0e9; 0x74cbcc75a76480f4; 0x3bb3e4ea153b06e3; 0x582f476570654efb; 0x55ca0d1953ac526d; 0x108529f7973e726b; 0x4bb97a82fadc184d; 0x494ee83fae10b526; 0x2a145dcd078e6c24; 0x46c689401eaca24b; 0x288cfe74437ee42a; 0xae9bb79abea8900; 0x6aaec09c7d495288; 0xf84d4aa4e325806; 0x149f7fba404e6c24; 0x4777e0f3ca83fd40; 0x619cc5647b1f2519; 0x29ce83bdf10113bb; 0x46aed0568f164f9a; 0x497ba8a26c755992; 0x1e6f8d1164d018d3; 0x7a9d2ff0ef8060b7; 0x47445bd0dd1c7066; 0x21009e482d1c973a; 0x731534c7b39f93f5; 0x747a60c0c93dec9a; 0x464e48aa736a5067; 0x1882f07a7db63f09; 0x2946ddaea1420fa0; 0x50007e7b7e59670a; 0x3e0c7043ba1f2458; 0x530f33e855159fee; 0x32525d04635dcf27; 0x4484749295b0a66d; 0xf0d3f85784cb272; 0x76a87083376dd78f; 0x4d199b3450640a02; 0x225e22284958cc56; 0x3574e60735efd35e; 0x79ad3cc9049a8161; 0x2e8d968d4daa1722; 0x5d3e7d946afc9c03; 0x36a007155f0577b3; 0x659c04129a2d4e16; 0x2ff271129d49b5e9; 0x357196a426515d76; 0x7b78630dd5678069; 0x123a114adcf3b043; 0x5ae20426d1a370f5; 0x3a38ba52ae4c71d7; 0x97392e68890d3ce; 0x674d78cb312e80f6; 0x6f6ad42acd5aef78; 0x6ecb057a52435204; 0x7b39f72eddb5fcfe; 0x685ec5c3ef28c81c; 0x1122745dded06421; 0x452f7b82e8083b05; 0x77871114c240db41; 0x43ccd9700ebdfe70; 0x1aebcce2a1c84f64; 0x3d4cb2026b8114a3; 0x7b06cb3a6b36cafd; 0x20067bc15680e289; 0x55a0c7c577c3dc11; 0x55e4d5b4c5fba832; 0x4e20457facde09ff; 0x7bfba81907da75ad; 0x5ea41db9726869ba; 0x38d926c8817c9a58; 0x7849428a9be7bf30; 0x68067b8415fdad31; 0x40a7a8a7b1827a9; 0x172c06d9a34f8c43; 0x466b9b7db6da0008; 0x27f7034d6688e38e; 0x3d220941159d8f3b; 0x499be7fb862a9899; 0x4b21a4b64b92cda8; 0x74298d56e6fda2ed; 0x5d174cec11ec5732; 0x527768dff3fcf1f0; 0x6767ffc592fc7fed; 0x784c6cc3d93fdca2; 0x4db860afa4e8b818; 0x23562b4699b6f1d0; 0x744355edb5ed38eb; 0x5dcf459f306f1874; 0x450a589f2f803c74; 0x4534c7b392d9b72a; 0x305a99b464341ff5; 0x59ab08ebad98cc6d; 0x1d0ce07824593b44; 0x19ef25e6c10224f1; 0x2812b3c8719af784; 0x6057bde2b5618786; 0x3ba10ae0cbba90da; 0x1973f3dd62972226; 0x1731d51de39ba072; 0x5a93e030a9863cc2; 0x7bda9fb72a7129a1; 0x695f36eeddbfa051; 0x2780279bc78ab696; 0x2f2462ed5e19326; 0x54937b506c7b2a6e; 0x18f055];
   [0x6979683f8cc9bfc4; 0x4687a6db332bfc55; 0x84c8abbb74f358; 0x164355628bcb1138; 0x2141e33caac475ca; 0x6e2f4688127bb7bf; 0x6ad3ffebfdedee20; 0x5b1c3acf6b1b5b2b; 0x726e356b3278e8cb; 0x3cb642e1975c7dd8; 0x5863efc7a90419ca; 0x69c9a1d53a6bdff0; 0x7bb06289fa9971e4; 0x7c78522d627b5913; 0xf9b6ea1f66a1a33; 0x7b919feb899992ba; 0x71786628d67af363; 0x6399de41bee29ab1; 0x34a63110be9a78ff; 0x544788a89eaedb23; 0x4eafd8ec27edb289; 0x43713adb32096588; 0x23009c95262bf559; 0x574de3c3fe4b6187; 0x1c8a912731ee1d87; 0x3bde05bccf09066d; 0x43add9c9f9e771c8; 0x3cdd96cd2eba8c9b; 0x7e4f4c2550de398a; 0x72ed4496799eb073; 0x28a12d7fb2032bbd; 0x46b85b2d0c3a2d6f; 0x6a75a2611a90261e; 0x78ad2db1c0f8a731; 0x2731a2b1ed5ff407; 0x46c6048471536b8a; 0x1efcd44406cb3b2a; 0x344c8def5d1cb450; 0x4c1228f6d96e116f; 0x726f4c3855932322; 0x40b780395f50f631; 0x51a76ce1305a2a34; 0x2faa54fbd37f6302; 0x54daee670b73de82; 0x70ffc9e412c30225; 0x4f153194a6868ade; 0x6f672a0c2e2c75f8; 0x519fa98c67f93646; 0x48e81c994be6ca3e; 0x36b8c49e1e6ef382; 0x660a81ddc907ed01; 0x55b80b23826f41aa; 0x346c58820b9a5dab; 0x7a83ee7a7af4729; 0x57c19f382a752b43; 0x11fc20fac2ef0d71; 0x29bdac7cf68900be; 0xe089f0136b3678a; 0x2389bfde6e8d130d; 0x52cf72495b3d7f85; 0xf4ea057a28f9f81; 0x50baa5c57e8f89f0; 0x288c67421b905377; 0x1c42ad893e2a8dee; 0x240d517346006e52; 0x255d219f606da385; 0x736595ad2840932d; 0x798b41424482780b; 0x4ed4d38f78e1ae6; 0x501970fcd6cd7dbf; 0x274a5ee5c79a9a4d; 0x323fc1cffb6ef0ad; 0x32b275660309b9ce; 0x453c5b1b30ab19ad; 0x3d5fc3d9a09d0418; 0x6cd8de4291ae1d98; 0xee7911c70b91322; 0x55e2c64a165d747c; 0x7c2db4c706c485a5; 0x21878ca0ff2f6548; 0xb3f3b6a0c5414ec; 0x752816ff332357f4; 0x75bba855a2705a56; 0x5c4a60dbaab9b02a; 0x1dfd528f88cc19f0; 0x1fc732b462e239d7; 0x79af673f297305c; 0x7190bf4724529e88; 0xffb0963cd62e871; 0x5bf45e4fbe7f69eb; 0x25c9c4668aed7885; 0x1a073f0c8abd0db; 0x187e855795821d7e; 0x74657406e5bbfaaf; 0x3b048cddcd36048d; 0x5dd6b8af7db5a0cb; 0x108740efd37bec4d; 0x7b9a4b5136ee133a; 0x418f94fc1063cb70; 0x2f8e01e374cf3b7f; 0x2d4847eed6a7f9ec; 0x78d4880de77b8220; 0x569b95e9c421f7b9; 0x70dcaebf5e27b8e1; 0x7e466eca949845d9; 0x315a6d63a422a5a; 0x59c8ce4bebf0faf3; 0x1ba0c2ea416eb215; 0x773ba386f3e93a2e; 0x11f2612d379966aa; 0x593635238f54766e; 0x64f12de46f75366b; 0x2e0aa349c61957b9; 0x2cadbb2181bfbfa5; 0x275616a64c75e033; 0x7fdcf44f66856e41; 0x3e15ffdd90b7cccf; 0x5756699b935bf595; 0x768ed738f9aed05; 0x7d47a3d7e76541f1; 0x7e7d0a99de9b5c8c; 0x2f1be65bf81bf6ae; 0x7b875bd0f8927699; 0x426d32e8f897163c; 0x1db1c508f66d6c9e; 0x68da751db1c72440; 0x11f9c25584d145e1; 0x5c1af81c16ec40c7; 0x69b506c0b8cd8aaf; 0x35e1a36f08db10c4; 0x450c2da280161783; 0x4020c1d8a1511532; 0x11321ca01fd61f78; 0x2b8fb6d29353dc08; 0x4b9efd38e016aec3; 0x6587df7dfc9da0a2; 0x36d0604c6dc7745d; 0xf8f8f05878cf7b0; 0x35db442bf594a58d; 0x3ba53d9b5c6cc93f; 0x5b62615ff2491a42; 0x60a2d4975b89e100; 0x754cd9afa1ed93bf; 0x32949795c17242e; 0x358b52c96f2d3250; 0x7ffe87bb22971aba; 0xa54e9a2283b9d46; 0x113151fb1ecfb182; 0x4f02a95ca179a8f9; 0x117a0934f8a5fbfe; 0x7b52e0951dd16786; 0x33aaf3f22737fa94; 0x74a534e10318c485; 0x7b9007992e154da9; 0x6eb5144ab4f25fca; 0x1bdfa018f5f82404; 0x621b363a003d9bb2; 0x128ca0fcd33aec81; 0x3cb753182094d2bd; 0x44552bc23e11911c; 0x31f29ed3c2aa5acc; 0x6f730d09c46f7909; 0x565e8cba347ca9c9; 0x75423e72a0f46e5; 0x2087d23dff3d41d7; 0x611aca9e166a2ee7; 0x47b78d17352bb452; 0x3ac4fd6677158b7f; 0x7628060afde0a3fb; 0x6f156f2e57232a3; 0x699abd8e66303d2f; 0x57f2d26dfe8269d8; 0x7328a4b509aca930; 0x55e7b9ac22c31db8; 0x28c1caa280449d10; 0x6a995789efd932b1; 0xd62b25a5d34e3d8; 0x560d4f7547ddfb2d; 0x3dbea9e352f5087a; 0x35107bbd3a11b86e; 0x7876ba024af28401; 0x73eb0f88f8bca554; 0x336aeae8aff81be5; 0x65608bab1de8294c; 0x105484f4638c0d15; 0x4dd9b30ea7ee4a5d; 0x50e6d01b1453fe98; 0x63f17d627c714b31; 0xf07578194303eed; 0x1b4fecea72a52f4a; 0x1f4d53ea73a7ea97; 0x742d5fc22631a834; 0x57f9903953c7c925; 0x1dc71ea40fbfd49e; 0x402a1bf6fceb9901; 0x2447934adfefdf7e; 0x6bc01644f2e74300; 0x6433410c1e86d005; 0x6224348509f418cb; 0x71279d34519cc9cf; 0x58983001655cc113; 0x76dc0d72c4016aa0; 0x2f5955e30d0f3452; 0x5ae8d5f823dd8ea; 0x11d7d436714b87e5; 0x3a050323b9abb81d; 0x41c90143086d31aa; 0x5393f04e0dbc9273; 0x1f4deded4a4e2d65; 0x6422a5020c4eed54; 0x52b0138115f6fe2d; 0x34fa76bb01f6d43a; 0x3dc0c0d637972b74; 0x2f0ce3261a62a8ab; 0x78ed553b7db9db07; 0x54f2057c2b7006a1; 0x7a494f627db20623; 0x55674d8f5212fac5; 0x6d098e396202279f; 0x2e80f6249286c430; 0x8c4782c56dfda12; 0x1736b2f8ca4f0ad7; 0xec0e95ce11af39b; 0x2cf97010e5086c4c; 0x248dd64546c749f; 0x8c004f33db48035; 0x4d6953450dff7ece; 0x3533535f01f927cf; 0x79868cb725ec5db2; 0x5d37985345c7da85; 0x577c4f6aff02b393; 0x1accdac14556b6c2; 0x75eff1c26aa27784; 0x4dfa394e8e000cb4; 0xc66a18580fe0f32; 0x6a12c681f9b187ec; 0xb5d86cced7cce23; 0x597b19c98f18cc8f; 0x2bafdac0aa92cffe; 0x4320ba241020e13a; 0x346c0392f67fe0c; 0x3a0ec560489bff6d; 0x4e32ede67e5a476a; 0x1bbbd235065d2d40; 0x748084d86cca2a22; 0xb10917e52e7e87d; 0x72bae83125c58f19; 0x12f8c2d14f9e9e4c; 0x73e83fec2242371c; 0x5f0c2f798cfd2fbf; 0x7605ca6c0ab8358f; 0x7248a874ac387fac; 0x59c4d8a9237a17d4; 0x846bb61a4c76ea8; 0xdb1890165c39b7a; 0x439e71a878713915; 0xe14e0cad66a2edd; 0x15a39be678371271; 0x17fb96a1bd59da28; 0x6f15a9f872f364f6; 0x7fbd9acf091458d4; 0x6bb9419df40178ec; 0x3b46a63b322b7d52; 0x5c61a31fbc961903; 0x9af6d72587d055c; 0x59ec2003f329fce5; 0x31bdf0f31f10c740; 0x51ed14d0339131c1; 0x41fe802868faf57f; 0xe71c75e83bca599; 0x4550add6978fbc90; 0x25f86a049403abe8; 0x3a10cfd45c5a5d6b; 0x7619ced188294946; 0x230c60d837d8fc9f; 0x2c06a069ac410a9d; 0x70fd31dd6a08a612; 0x2ede4d07d0136c84; 0x3e2c8e4e7e5ac217; 0x3b0ceb6a1efa3dc5; 0x1a5f323eb0a54f48; 0x5f6ab58d1f8bed8e; 0x729ee18b21604f91; 0x7e0069db67c27f2c; 0x7bef2a84ecbd3eb; 0x37cd08daeecc4bac; 0x2ee39cdc51198bf1; 0x1ae87dd8ba47edfc; 0x1c18e8c0754a6e56; 0x36de4f4295678521; 0xa60e4811f15ccce; 0x6b9391cb108b8d7b; 0x628f6fa982ca6de6; 0x55e9dae526d24244; 0x6efc82b6c77a8670; 0x2d5d14d8e67b287d; 0x6387978dd0055e0c; 0x56e03b8ec42a1b3; 0x73837dcd97dddd01; 0x27077c7b91a704af; 0x1a389e44f075db73; 0x62db281a12b22f9; 0x72275e83c4d3f035; 0x72add9cf2ac99b58; 0x6e1b5a78d351b00e; 0x4b6548a45db58641; 0x3db7d41a632a065b; 0x6c784cf90333af83; 0x67245548873f092; 0x1702e1256c54ca; 0x2e569ef5e52bbe73; 0x7980eb825ebb6c6a; 0x56568a6369a314cc; 0x1355735fd3fc468d; 0x22d2691fa64949e1; 0x282d7c62e942ca34; 0x53b7ebc965c7f23b; 0x2e3844];
   [0x43cebbea60a29f68; 0x70a54cd64a12ddb0; 0x571a5942db7c06be; 0x522f110776b85c09; 0xfc7fe3614746ae7; 0x67760ee2f000a6ee; 0x58706e6e74d73713; 0x4f0d7fc1d3c2fc7c; 0x275d21bbe7e88a5e; 0x18a6b5ebfb4a4345; 0x3797377684073952; 0x11ba8fdc27159b94; 0x619f5c88e7d8586; 0x4d62e265a6cb96d; 0x5c77ccf7961be9e4; 0x20d80b9c459b2d13; 0x7ad32a01f51f2855; 0x7739da739d9d1c51; 0x6fd178455721a666; 0x608c2570a9c56f6; 0x1d8e27cc6205d15f; 0x37bb78b5a3942627; 0x2d50414d4d1fd3f7; 0x1179d1538816f373; 0x7c46562247ea9bf7; 0x1c97ae09d97c42c5; 0x9e3ae45546f8f8b; 0x59f48b706fa98362; 0x60368a094d544184; 0x71f99caad8bbd446; 0x304feaba8a1eb847; 0xf6b0603c05328c5; 0x353b60770a735c5c; 0x639272be7ded8d3d; 0x199c08bec0e3231b; 0x430a90ee60b7ced6; 0x1bf0db82817efe64; 0x6bc0cb87fcc115b0; 0x8bb051a9e17f09b; 0x5e499cf27165b187; 0x5b690e7a303f8016; 0x1eb2f17cc1c10bdf; 0x1d4956901491cc9; 0x738164fea237bf4b; 0x52f9d9d761ab6c8f; 0x33ea125b067af3f3; 0x395d45577c3931c8; 0x43d1074503d5fc93; 0x7e26a39b1db30c06; 0x3850a9042fa9b708; 0x1142b901b75c0d5a; 0x4c25ae591d9e9720; 0x3839fbd915d5154a; 0x5bb45e603522f8e1; 0x453a72db08fe0b; 0x372f9c325ebc1543; 0x3256f19676e1890c; 0x4d2fcb7d72af6e95; 0x54d69298d09ade35; 0x6cfb3635b67c9351; 0x7a121f42f059ce4a; 0x2a99391c35b3e566; 0x6e40a1ea76082f46; 0x2012df4b30790abe; 0x16eceb3d9d850c7e; 0x43aa07fafc1b06cc; 0x36ad3cddb00959af; 0x3f944ffbe6f6f62b; 0x202cc5a1f1e7e700; 0x4949d13e140c61ca; 0x71db5cb25a1e2e87; 0x773291d09090aa2; 0x223a0c4c57fde705; 0xb995e6fb2dbf58a; 0x6c0ac385cc92054c; 0x72b3aab476ed6d3d; 0x1030211915532f82; 0x4b00af1bd4c75d7f; 0x24c1a6c2e8286e0f; 0x2af69eb29de9f42d; 0x3eef0d6a62be6a5b; 0x6b75a61a795f6f09; 0x43b721061f1104be; 0x727021ea7b40e0fa; 0x4677ebf4604123c0; 0xd7a708bfc1f17c5; 0x3d42a43abed79907; 0x3d9c29b71b7e161d; 0x19294d5d3bfa6f34; 0x2f8f85e29ef7ada1; 0x51905f5161e3479a; 0x1176c415893db4f7; 0x7641cca532cae98d; 0xc3768fb9555152e; 0x68e1a7cdfe12f38c; 0x742ec8bcd325196d; 0x51c2d88a2158d752; 0x5462b8963eb12b5b; 0x17cfd3a36094e509; 0x524117900163a17a; 0x6cecfb125039e5e1; 0x4fadfa988ad840f3; 0x7a9d3fd794b9dbc0; 0x4dc65b6780026cfd; 0xe1bc8dca8590252; 0x601e294b4385cfe6; 0x2d92390eb5677425; 0x378e990d897b111e; 0x1eb1dd4f062f3803; 0x4b3534136cda849b; 0x4c5cf3238bed4dd9; 0x150383bcfddcca6b; 0x7629b506832c7a83; 0x34b85db40a299fcd; 0x41468a9f0fb42835; 0x47f1c7b25f430923; 0xa3505923e8d4a68; 0x3ccca3932498cf2a; 0x41a6536dc7813bdc; 0x43e96b706bd76a8f; 0x2a61200b40f037d; 0x76597ade4dd05239; 0x703f134a28c2cac9; 0x4f19cafe439330a4; 0x18ec5306ff211df0; 0x5e17479a4f069077; 0x5957177cefeebbc7; 0x1f0b3a37843b4b66; 0x55bb5096977884db; 0x1d871a8f5310c7a4; 0x54cff69f83c0ca4f; 0x129718761aaabfa0; 0x1a2ad22a825d4eef; 0x205f3f31f0a5f4d2; 0x191e452a8a3ed5ba; 0x3edf64edfa815669; 0x14e6144c4cf9973b; 0x4691cc9ab53b5a1c; 0x4aa5db6f76943be6; 0x27162a4528211f0e; 0x621fd786bacd0c69; 0x6add4057def06ac1; 0x6896d972277e2023; 0x60f35d0af4f98c14; 0x3ddd25aa2ccced26; 0xc6e5de5c5b04db6; 0x344cf0294b66ec4a; 0x3676ede16c11f47e; 0x5d75232d3c73d5d0; 0x58a584c671b9d9f9; 0x130bce9426809c28; 0x4ba74c68b1291b5a; 0x798a0f29b0467dfb; 0x3a077a3788f4a8db; 0x2ae98800e9685f4b; 0x1061c7fe3b18fc9c; 0x39eae91512d7decb; 0x14fb88061c21b02; 0xa5fc0d3d2a8e663; 0x65c9a44a468347a5; 0x33df879c1d643889; 0x5180250a61d08040; 0x6ded679bb8bf21c8; 0x1ca7ac51c8ea5726; 0x21c30d98dc53802c; 0x3dcf186239aca28; 0x6d3205445a8f5aae; 0x2be3fc8c26e937b5; 0x7d99481a55abfcd4; 0x73ee384259f6838f; 0x297cda84f810d352; 0x4b1137ab5545673c; 0x15dc2b3ff2bca717; 0xb1b8f6a4f16f766; 0x547ab64f957466f3; 0x11cd0292795655b3; 0x5ba27ca627090dc4; 0x5e4f6722962c62ab; 0x8807b44b2b09cc6; 0x76009783937f924c; 0x11017828a6d440db; 0x187a67565e1884c8; 0x62bcb9d73d87e84b; 0x6671905ffd453c24; 0x4ee97170ade7fd70; 0x1e18ea62e0a098e9; 0x18e0e56a9ef1de55; 0x48a88d7db6bb84b9; 0xa56d5079e9d9cb4; 0x22b9b8dacd9e34cd; 0x43ba9c0e63477a90; 0x14b81ad13348bdc3; 0x2bc9a33758056a0a; 0x287cc8959583dd49; 0x31bd99c602fda5b2; 0x2d195d63829aa284; 0x4b4e0c4ed78f5367; 0x1b6e7105c8fd2c52; 0x5aee442289711ca3; 0x1a65ed053f5ea4f0; 0x52027dee68596301; 0x8489fddc84fa035; 0x2c66e3299d1e08dd; 0x5873fd2b26dea2c5; 0x6de86ab21c12c8; 0x5b4855facdc24e56; 0xdb162bac7f37b07; 0x6ee4ed17a0ba27a2; 0x5fa19202d8f6e870; 0xd2caab80921c128; 0x248eda4db802d891; 0x29b15950ac6d671; 0x16a7e059e70a2c1c; 0x5cdbbe997ca1928f; 0xb9561c6a48d1264; 0xed7cb8bdf4e7654; 0x61b82ff42aed312d; 0x485b2146a0d130cc; 0x1ff55110cb5f0fc2; 0x642c4ad4b030c74f; 0x227731c98c1976c2; 0x57be95b86d8fc592; 0x5e6610ed724a8948; 0x71359bf0bb13f8b6; 0x2cf9299a7da8f451; 0x7a1125fe6d5c6617; 0x8bd6435c057086a; 0x3730382787aa0d11; 0x60450a9975b235ab; 0x359098e9d018444b; 0x188308a72cfca5cd; 0x5423badeb3588bda; 0x45b6c074dd59c0da; 0x682d7d01e6c6c00b; 0x6f225328ac58032f; 0x32a3ddd1c744da87; 0x7efd454201198b12; 0x176df15e1cb3db80; 0x10ddd4f9bdfa329c; 0x4e28ef6234f561ae; 0x4997ccbf5a9c0f7; 0x671b4f0973497bd; 0x381185c7618998f2; 0x2c3470e00e0ae6e2; 0x2c7a286ed03366b6; 0x1c715a5ec5840682; 0x4938028a007ec41b; 0x42b8c835e0231454; 0x1a0d9115125b13cf; 0x140ebd96ba147aef; 0x3c95f352f6bf8b83; 0x4a71441dedad8b54; 0x6b2e5f41cb289c57; 0x6d25837563336844; 0x643fa79349dd8993; 0x43b86d7a6cb8e005; 0x347625e2db547106; 0x8ddce459a332b06; 0x45322c912f1ef3a9; 0x3398f4f813f72554; 0x3c6f2b5b001a04f4; 0x6d85701cc29cbfd2; 0x7a6640285f6510ec; 0x6601848e2b4910ba; 0x23ef54d28cc3c1f9; 0x5e9dc863b27e5f12; 0x2ac61af3a416af42; 0x271f39604a0efdf1; 0x31511e4c1cd62895; 0x775737a9c3b48379; 0x76b3acb893675431; 0x757bd1dc14eae1d9; 0x18459d6b61a1cfeb; 0x32899ac9334b69e7; 0x2103b9e7658f6a8f; 0x75f94fdf6459d547; 0x35e53da1d892adbf; 0x5a775ac21517d645; 0x56d28faa0e090dd9; 0x17f8bf04dc12c2f; 0x1f41877bc29ddc98; 0x4f5127f06c314c27; 0x76a4591e9381ac37; 0x107e2c9883456585; 0x24a5c14b434277ea; 0x7da947560e56031; 0x3433e199623ffe1a; 0x7d668b0c73314228; 0x4c856a247f982dbd; 0x6663dbb5e096055f; 0x3aa0df1a1e457c77; 0x4bfecf4b045c856c; 0x84daaa02fff23b7; 0x15a4b887d76e1f7; 0x589b4a00d0f12d32; 0x64c6e737e242a3; 0x6c106a66dfd58e40; 0x39546878e9594034; 0x20bdecf369ff12ee; 0x41ae97b6f0ad02f; 0x6d61e80183c54662; 0x6cf4ffb1b7fca339; 0x254e48246357f16e; 0x33644ae776b7aac5; 0x13bc9cfc1190076a; 0x2d0cd05f520f6ad1; 0x256a60a9b8d68618; 0x3395b1cbfc9228ef; 0x361e4bceae55ffaf; 0x4cd33d2ff8a5e17c; 0x72c56bc77a2ddac3; 0x37b893c46bf68162; 0x557015ba2a6a7d30; 0x133e43d059e7a075; 0x657f6b007118ffb2; 0x6199294bd4f29e79; 0x6dd46b887e0122cb; 0x17fc1a];
   [0x472d4f3e1cf0acf5; 0x27153f9b61ee813a; 0x87a7140ff2dcb3e; 0x337269a58b513a3c; 0x2f1e78902c71afdc; 0xf93888136d9216; 0x28b8cce3ac52cf4a; 0x5b840a14c688e72a; 0x683ca37e0895b010; 0x1f9ce9c3a4578d4c; 0x39eeed8ba7e44fac; 0x36b1e37a4628c820; 0x378dab7c6466b837; 0x122b53b7add2775d; 0x7c520b6f8f1455d9; 0xdd6711aa2e76bcd; 0x53ea3aa8a47a1c5; 0x6b82ed2c27161980; 0x26b4c40eda32627c; 0x28e43851e9f2fb21; 0x6c2db4d9a5d7c13d; 0x3f608298b242a7d; 0xe87eedbda221cf3; 0x3663cbe085208a5e; 0x6f90d18c136f4cb3; 0x37015c01cb2d0704; 0x54c983b89f6814d7; 0x2dc199138ccaff09; 0x2f3f5cad07ebd268; 0x33e22065c3279786; 0x7c65e7fc5bd2be03; 0xceb9af208475c20; 0x2a06fd2657cfc30c; 0x7f3e32c664ce4f3f; 0x7a9f3bae94ac9ace; 0x4b0f49bc33781c06; 0x493fdcd65611f23a; 0x72adfd5f761f320e; 0x57a9007568bbe102; 0x507c0d1d157a5e08; 0x196e7585d9000367; 0x72cf616547848355; 0x1df5391ca7147fcf; 0x5fcf2e902f5de661; 0x3b89f57066e7c3c7; 0x7be97b13e082e62; 0x292d8168479fc772; 0x747fd6948981d736; 0x566beff4b4484b4e; 0x1ef581e015a018c8; 0x6fee804114042f57; 0x789c1630fd4e3426; 0x53860e796d1f2740; 0x4d1c4ec58ef45919; 0x7f33e5382e765862; 0x11778bc238c5c0ff; 0x8b9bdf580b6768a; 0x72df9713f6ce0b5d; 0x543857d9f8847e06; 0x547ea78302b8385a; 0x5ad9bc1b7aac06c0; 0x71ff254b155dc124; 0x7e6155f2543931df; 0x26018c9fe1fd083d; 0x4b7f14f3a881d1cf; 0x71b976d9cc1f19c4; 0x58804e4d9825638c; 0x7f1721cf42603324; 0x30d0d14a2f606e19; 0x895ed700ab2175e; 0x6a8ae6e057677030; 0x51e5310be625a590; 0x2833d4ed2a6d1f89; 0x2f8bc3ba13d3859f; 0x11c5d4cc908d11e0; 0x36592432d522e5d8; 0x756bb670f9660d98; 0x1c30379eeb8d0a1; 0x31d7b7c719a423a; 0x3338d2ba75b55bce; 0x28473cad3dc76e09; 0x5cbbf7cf31efbd62; 0x2da1f74e1f8c65d7; 0x3ec6acf0b84c19d9; 0x79ff6be2ad014398; 0x1c552e1f7614a280; 0x7b2ef969b0b2a5b3; 0xc89f7c7280726c6; 0x5d46606143f3a000; 0x4e903980fe7e5193; 0x43d609c3fb6f5936; 0x63476fe5874af04c; 0x4d7cd3704ebf2503; 0x7bda500d4e055bde; 0x694e378800dadba4; 0xbd1dd4c5754bdf5; 0x3ad36aece97de72a; 0x43180b989e1f4bcb; 0xe649fe714d355aa; 0x5a4ad16d718a065b; 0x578937236109d9ae; 0x44f6b65c73a6c241; 0x990036b2a628118; 0x249e36c026d2f1bc; 0x7ca040b91684f6aa; 0x549f9a6de913445a; 0x631874d1a2513605; 0xe6c0036f2d41e48; 0x2b702af7ef2f74d7; 0x1b293685309c06fe; 0x6a10ac92fbcaaab4; 0x707e5eae763d151f; 0x4b88c792b54630d4; 0x50eb795d3e541566; 0x18cdb5ae07266b62; 0xad7edaff350dfb2; 0x5721413458a51dc8; 0x1ec1aeb3f6bdfc3b; 0x2da1bc65076b7327; 0x7a2e1a2197e29f0a; 0x7f5257c0d96e8975; 0x55bd46df58f1e8ca; 0x5c425a00806772c3; 0x5da9d92e5c6822bb; 0x14812c1d718be42a; 0x569aa19a9afaa3a4; 0x619127ebfadc1e29; 0x2e6c9c92a7ef9a4e; 0x3f5bcec5c00ccc53; 0x1eedcd5797e2d5aa; 0x4d404ee3cda93ec3; 0x4abdaf5f6188dfc3; 0x160c19b3d8a2900b; 0x526755be9924c367; 0x23ffbc7418a9b4da; 0x28fe2745ba149098; 0x1a05ca3172343c74; 0xcb643c8226962c8; 0x2bed387d8e77a50e; 0x6aacc7f42f3927e9; 0x5c4d910f8905ef7; 0x52fa8d0b694cd7df; 0x90cc6b04f397f75; 0x6b3c9293dbbcab17; 0x4222af1fd93784da; 0x277e42283a349053; 0x4aee783d126ee148; 0x782573e5ecd8f214; 0x41a23af9315a937a; 0xaf50908b3036e00; 0x41eb2a8f8e0b0afa; 0x638cdc7f8e986725; 0x7a612b7bdb759b45; 0x6f9ebf5907160206; 0x381c6f1485952a75; 0x2091c48ee8974e56; 0x3f7176039e517a1f; 0x4e7aa8826171f285; 0x35883b65f118e3fe; 0x78498a8046cb1f12; 0x64109482aeaf6493; 0x15b9ea5936c5ef06; 0x24c8bb392dfb0ebf; 0x65e883a273ea6221; 0x3b56ba3a8a7d35a9; 0x1d9eab92be73ae6d; 0x1d86ebb85a40d4f7; 0x62b5ab819155028a; 0x6d7734e660d91454; 0x113153b95bfafdcb; 0x10ca7b68dbb3be03; 0x380fb3077afea83e; 0xc166ffc88f4f8a7; 0x53ae79a01cfca10f; 0x33b9e3f04a834efe; 0xc6482c70a86b1cc; 0x1c056577c90b868d; 0x5e6dd4e00bf447ae; 0x4006dcfdefabaa6b; 0x26207ae4494ad214; 0x3d168f00723e5c49; 0x7599c50e15dd8429; 0x334d6f4b1ff59ca3; 0xc6e2e20ef1ae20e; 0x2264e8495360b233; 0x1e4f939d270ba208; 0x4f286857c85c530; 0x6f8b1e4c6b269d1f; 0x5df049aa9312ec24; 0x3e422b56b510a369; 0xbf9fc753f74f0a6; 0x4d2b76539894e20a; 0x3d5002bd7a636f2c; 0x6f1cf26504fec180; 0x471443000df5c156; 0x1f4a9a739f213475; 0x60935171e9126fa7; 0x4385327b9198f956; 0x781e622310e8a2fc; 0x1649deb23a5509ec; 0x714ab8a8febebd2b; 0x233b6372c8fc83ac; 0x6861271b60be7b17; 0xa18e331f32f1677; 0x7f4254e946029be6; 0x7837c12476f9a9bf; 0x158f4bd6a4d8b4e6; 0x10683d0aa6bb1542; 0x1f1b36657237c756; 0x41148ebc42c81bda; 0x3de16aa0b7d745e3; 0x2d85b0eda6b4713d; 0x405f1595bdfbd57e; 0x13d1b2aeda778f9a; 0x18a9e100874ade0a; 0x7c0332272e410b0f; 0x67f540e7c61ff5db; 0x484bb9aa7c4f1d8a; 0xe91b4768b5b8821; 0x6f0999a50fb55c4e; 0x22ea509ad8877331; 0x7860eacde25af4d5; 0x535b6e7bc8b945fa; 0x771571573e4d3cbb; 0x1571c44d6ff6e140; 0x73fbe2de4c00f7d3; 0x739503a8c51fce8f; 0x51b4e31b80b9b5e7; 0x2b02d2474302ddbf; 0x4743bf45effc15dd; 0x165f76b153659eeb; 0x813ff923bb7b454; 0x4864139338203984; 0x5ee3daec113a584d; 0x53e93a0d135a348; 0x364b658cfb424aef; 0x3e95add3978d6824; 0xf76a8bb21f07ae; 0x2c445b34470836f1; 0x2ef90f6f2f3f19ca; 0x86b2a2868dadb41; 0x19adfff2e64e15c5; 0x4d7721291abca1d8; 0x3416837b415a8cce; 0x341786591036eac3; 0x20d48cda49b278a; 0x763b522397f0f0c6; 0x29b92dc3cff1b45; 0x4a5725d6153e5ae3; 0x116f17700de9f530; 0x3707222c70048ee0; 0x755f8ae7b57d73c5; 0x4538b578b619d73c; 0x4f4ac01b72191fa6; 0x7b374207d3cb8607; 0x244a48578a5c6571; 0x5bc6b3b8c3dc6350; 0x2988ebbe9a61ca82; 0x1c9a1c99391ba20c; 0x37abd084d1949321; 0x15c30a686e81a313; 0x198d29f5be350f33; 0x3fa67e918e88306d; 0x47c288936f9591a6; 0x45c09200a9a8369d; 0x4f0e881e722093fc; 0x5f667360f874ae21; 0xf48efb510a7c4a6; 0x314354a71541919d; 0x1546e2854783dba; 0x5e72ec14718c02ec; 0x7cd3daf0e92623be; 0x21b6ed8c3d14542b; 0x53d5b971896abf81; 0x2939a32ace98638; 0x42f15d4545a012f8; 0x29826e619c887b50; 0x7a8b7b5104b8e9d4; 0x4e1b984426f5f3fc; 0x1542539250254236; 0x762e3712822ebe63; 0xffa0b3bedd2fc17; 0x4837dc6b71758b0f; 0x7312dab45480c8fc; 0xbf097575be03588; 0x32030661266b07c9; 0x7034cf816927bee; 0x432686257ab0fb8d; 0x58afa06bf01b983f; 0x323d53189f6a203e; 0x5a3d6965332a88f6; 0x2fcb0cac16f89fe1; 0x8a41db35a3005be; 0x597ecfd7a7673606; 0x38e49b638f91ccb1; 0x2ba292777fac2d00; 0x131e83225a5c999d; 0x7b660fec201cf86b; 0x2ecb730b064ed891; 0x36a2041854d7a307; 0x1939aae6b0e29faf; 0x3fee5af5b25c84c3; 0x5516a1e55b42871a; 0x51f5c872b1edaaa3; 0x3db9448de278bdf; 0x5bd98f842b45513f; 0x79abd5122c75f2f2; 0x11b9025f6514061f; 0x2da09ad8d6679d97; 0x5e8b382c824e669c; 0xf52b5456ea5c3e9; 0x2d2e9f08a7e05aa9; 0x359b23d5751a7723; 0x65e1bec4103e9f1e; 0x3c1d2e7c6404d232; 0x1b503b768b2062c0; 0x62bc18414f034158; 0x24887d];
   [0x398cbf5440380e7c; 0x655ec8d0e805303; 0x49e376f598a28b38; 0x714dca2cb75dfd5d; 0x2ad3ba068bc4d5d4; 0x336527e691639d77; 0x227412d3ada7f848; 0x4c276b9815890bb6; 0x3f51440afee36528; 0xc3d59e91062f4f2; 0x1ee4ad181b8d860f; 0x2bc3c9cf4d98f80; 0x48bd00871ac9fe3b; 0x15447ad1e90780d; 0x423c660a43200b1b; 0x7b4594b8fdcf2f59; 0x3091ef5c982b2855; 0x64356a8b267c0ce7; 0x244a6f5f3f8b145; 0x6a46ba69b1f05908; 0x54354b7eb3e9a529; 0x218c23132201ac1e; 0xeab3c9dd363bbd6; 0x3bb65cdeeecdd0a; 0x3c9f47e4060c7cf5; 0x112fa775c2b91fed; 0x50526189d87470ed; 0x3e26f34f6dda413e; 0x57456be83f64df53; 0x59dacbf4a2d56ba3; 0x1b76b75f9e73c55e; 0x5a389722162dbb72; 0x68a310961021f3; 0x57a7be6bb99d522; 0x7b75ff8f7bf4120f; 0x463aa32da0e875a1; 0x1898df3a894cc242; 0x7e2721847568149d; 0x66308aee63c069aa; 0x5ec235eec344ebba; 0x282246a968ed4c5f; 0x27645512f958ec7c; 0x2a96d328e3dad1c8; 0x7b1b9779bd4ed61f; 0x366a102430366a2b; 0x7a69793b691b044b; 0x119984d65982a494; 0x163f6a4173239b0e; 0xec3d2ee128571e6; 0xa6984c99bbbb51d; 0x2bcace7fbb4a42ad; 0x2d94165c7619a8d1; 0x7af32f7efa01f5f7; 0x5dbff1ba235a971; 0x5564a7fe94d561fe; 0x74a33c59cc3c2d2d; 0x288be2085c702b9; 0x378f685bff57b7c; 0x3c6e72fd0e934bbe; 0x20813fbe6e0244a6; 0x4013a12cf304704a; 0x62be854c6d24f3c9; 0x159e8f5b403097b9; 0x26cb4b2efb312b39; 0x2b82cb4f4305f634; 0x75043b82e79c36cd; 0x238ce76e2bdd7cdd; 0x112ae5fa357f9da4; 0x16a68a3d78067957; 0x51ce05acf26bc9b5; 0x614bea795b1b6e17; 0x178bdf07305e8388; 0x1eb8a7ce10b3d077; 0x18c5d1613340b3bd; 0x77c5af6a34a1e8b2; 0x271f0d2892534591; 0x27763e9d1088da97; 0x32d66cac0e33652; 0xeeb717fa59f2644; 0x34b9117b74ea561b; 0xedcd5f9f3d5ea81; 0x3f390c2d8282d2e1; 0x8fbdb5846c178a2; 0x5f74765e8e9e0662; 0x3702ce637dcc89f0; 0x5d88b27f7a6c8d0; 0x30e9d51375d253ef; 0x508bd6fe4907ae59; 0x26e809a805659584; 0x6c2dec649ab6fbf2; 0x457d0d038a22644c; 0x6514de02474b7f05; 0x413300536367829f; 0x6ab8f77fadaa2f35; 0x64d8159a6fb93e78; 0x449e71b8bf9cf8d5; 0x6c6374bd50542268; 0x48dc3fe518de4f58; 0x405693b1a902752b; 0x5a05a5e6f5ecb223; 0x6dea367e985a312e; 0x6c488b75b3f41f8e; 0x11468f3f68c582ac; 0x3acfcddd228c9769; 0x7e35119331ab4ff5; 0x4cd05691a4293a52; 0x6e75e93b13779a26; 0x56ce7ab0753eb659; 0x586e66e169ce0eea; 0x54ff1e8c1719f41b; 0x709a634252724f1f; 0x3438fc05ae190e63; 0x6850512d6d6ed02; 0x6041ecc5147eed28; 0x3059b9350c4a719c; 0x76bb25323d98441; 0x6e27a5118bbb1d7d; 0x55587613bc3393c8; 0x1a8caea24a6ef266; 0xc2bd167a9e01a87; 0x290253d009786185; 0x43e40ef8567be2c1; 0x3942e5b1ce5f4c92; 0x146f61258054fc2e; 0x69f22843eb938280; 0x461d98a8851491ee; 0x7dc72137e7378468; 0x17b0c31acbfe8f0e; 0x1b5913821c68e0ce; 0x2de27a4a349e0060; 0x3064b5592576802d; 0x2bcacd3f2d683f31; 0x48d3cee72266a353; 0x743e1076e59249a; 0x63236b69b57107ff; 0x1b411eb236c494e3; 0x1a73786a9c120f81; 0x452af28a92cbc318; 0x380d067c15d7ef7f; 0x389aaced76f0db0e; 0xcaf9a44153a6296; 0x2c811ffb889ef2ee; 0x7587b98c335246be; 0xf952beb3dbd7deb; 0x2857e01eec2ab9a5; 0x21b86f15bdeb17ce; 0x6e1ff0924d6c192c; 0x103e89d2e8a43927; 0x5ab2ab192b839147; 0x7fbf9e679b87e71e; 0x40ea57a542832575; 0x7adc5b78ecb849cf; 0x6b4f6ca28a4c291f; 0x688a35261a621878; 0x182cc486be2f73d7; 0x21b44c702d341a86; 0x4bd3c6ed4499b5a9; 0x2b8c6f5d0d8b2b07; 0x2d87c66fd69699ff; 0x99ed92cf3b2c8ff; 0x22ee18d52de6b60b; 0x77cf36c22483b326; 0xa93f391a5865d82; 0xabe43b37877e70c; 0x1a6ed4316b48c83b; 0x21349200162ae3ef; 0x5d69cb07d02444cb; 0xdefa88ea031b788; 0x46d6947167b93645; 0x4937d0bd6a59e441; 0x48532a4667ccb948; 0x5125f835884a3fe2; 0x43acc2d2548dce4b; 0x9c448ab5f1fa1b1; 0x409411a9a03bbcf8; 0x2b3ee9f794453784; 0x22620b34d277eba4; 0xef2aa11e933dd45; 0x272d1406c6b64547; 0x18915faf26349111; 0x62f7263878e59d87; 0x4e4461f8e69fa835; 0x5fc39bd88a24032f; 0x4671ccfe132cb0; 0x7925fdd841691be; 0x5a3d99975ab06e06; 0x434f9c55e5e7cbdf; 0x4b252ef470181a53; 0x4ca1383308f71cf3; 0x9194dde299183f0; 0x5f0e8aba683dc558; 0x226d4dd916265dff; 0x67222e7d713bb2a0; 0x40b6401757749aee; 0x16e05a3c1bcca991; 0x3ed08d7ccb766969; 0x53e84dd5fe5456bc; 0x7f2d27c512f53408; 0x554a89b014ed0400; 0x2cfdf67b9e12c290; 0x5cb5c1f486e7dacc; 0x6d561c87d21f487e; 0x6b420a905f5ddad4; 0x338ecec6414f9e03; 0x711409ef0c7b8018; 0x3ca25c239bf1779f; 0x37c0abe714e312d5; 0x37599b997d05e4f8; 0x1daed7cdd6294efd; 0x611134076c785da1; 0x29150dd1a0df5582; 0x17a26c370e9e2b6f; 0x28484b49523e5f74; 0x39fe90e796a055cc; 0x26b1970b2e4a7af7; 0x5259ab86f5a9245b; 0x2db2367f0aab17f; 0x56b90346ace0be5b; 0x527f9f588b6166ac; 0x1f306218e79b2926; 0x1b318056cab750d0; 0x591d921ade33c4f; 0x59bfa3668021f952; 0x9eeb4f8122799d7; 0x28872ccef97af48a; 0x57cc26a5dbd0611; 0x39790e14d7f34b81; 0x469817532b0f83c2; 0x327b48679a9d64dc; 0x8a3d400fcf6ecb; 0x545313d939af7b5a; 0x2ec307fd78152be8; 0x78f8f8e20e4d2b03; 0x494644dc0de20eb7; 0x21691e403ca808d6; 0x469d73d364f04e56; 0x352d2fc84d5036a2; 0x2843f59298dce715; 0x11560368581a46dc; 0x4c2572664f74146b; 0x44afe2cc3986b71f; 0x2b6695cc217c302b; 0x7091c05dc03f9eeb; 0x3ff0587ccd3cdf98; 0x2b7f106d5fe7410; 0xff72791f6acad; 0x6601eb09370de047; 0x17b296aa4e6433e3; 0x45dcea62d4a85e4; 0x44cb3592ae4cd051; 0x22ef9827aedee52b; 0x6ba9eea8cedcdbe6; 0x1d704d628716cfb1; 0x10b45a2f6d9ad2cb; 0x6db1aca48d51c6d3; 0xbcb3c32f6ab18e5; 0x1d2c7506fdd9f7df; 0x579e2f954131a8e4; 0x616853f2ccedbcd3; 0x209128a453f6b071; 0x3516e1cf4e5bd319; 0x21d78fa086d631d4; 0x65e7e5e8220257a; 0x31ce60e14c809396; 0x79c2d7e17b276fea; 0x65697d3ba4edeb3e; 0x192ac429f88e8055; 0x67022a9fb8ab53f5; 0x2f65e635f99c9af0; 0xc5a174fd7b2ed4c; 0x273d9deddcace551; 0x222c98e48ac0b9bf; 0x34150e1c4ac2310f; 0x44c86c04274d3979; 0x519406819de87952; 0x461f8b2bb7afe5f3; 0x3dc651820be4cadb; 0x1c477080eba17356; 0x758fc716b4c2f746; 0x238fe85b07fd4670; 0x3ba9397f4da31f3f; 0x5066d46a98639549; 0x7a711522fe5f2572; 0x77754992476bdf3f; 0x774640e920463437; 0xb92481c0138bbed; 0x515983953cfe4333; 0x7d378ad40995f90c; 0x6540b65a56151d17; 0x3589ae440426a607; 0x9116a438c525e25; 0x7edc3d928f2bc23e; 0x713b43eeaea74c78; 0x1fa9cbcdf01839bf; 0x3694856aae80b6ab; 0x246974a1866c6da3; 0x7acd1f0c692ba9e0; 0x2720b414e7cb079; 0x3aab669385309683; 0x37dbc254546f1550; 0x19ea4fa3506aeca0; 0x35b4da8d0e2eee7d; 0x431ef42ee1be916e; 0x4f1f61b13414366f; 0x5fcc0497dba46436; 0x78a1e9bc7b6cffe0; 0x47e5fc303e6d2bf3; 0x43957e6f092f37a9; 0x43c3c598c47ff3fa; 0xd7555a6c069ba7a; 0x77eb544b2f2c9b6f; 0x194701093223e531; 0x4df512f89ffb7237; 0x6f8a6c53cf672c00; 0x6bbb5e92e3327113; 0x78f5bee5426bb8; 0x4e98ae470bfe2963; 0x171f59];
   [0x7210375ebfd5a2b8; 0x527233f0d581263d; 0x457ed817a3783b30; 0x689fb16de2a3fbe5; 0x618c0b7c76d1172d; 0xd9e78e152f7eca2; 0x1ca1490e25925f7f; 0x57740742d06c9673; 0x1acdfbad2fde7a79; 0x1a1e4ba7fe91238e; 0xa1046733607b2e8; 0x16b9bbcf52e31ab2; 0x26ca8ffc047b4e91; 0x537d7aa8675bcdd6; 0x34a03a503cea8e19; 0x361eb97cc87be5d8; 0x435c54d35ad7a741; 0x38051de198af6769; 0x41d3d97653338943; 0x1b3f2d1340ff2d3a; 0x31c39a44362e4975; 0x7daa835408fb7925; 0x2225896d2a741911; 0x30dc5eba7596f1f7; 0x18b99cd14be02f6; 0x582585a11483ab7b; 0x48952e375ddacab1; 0x7f9acf1c173d2fda; 0x2b6812c9ce67519f; 0x4a0afed3b6412b92; 0x700b3bd840c90f66; 0x1c93a7085e4bd8cf; 0x5c0f28b074bf10f7; 0xda585e5b6b12d8; 0x233b460caf47d875; 0x49474faf2c2cd955; 0x605b8e1e3af6ca2a; 0x228dc9bdaafc23a; 0x1f22b4da0bbf535; 0xc08d996563d7d5a; 0x766bc1538f9ae138; 0x3fd1e45db4f9e34d; 0x2472f077f801643e; 0x1797a8908295fb81; 0x2dbe9aa438310300; 0x70ff45098dc68679; 0x6255b7dfa055e; 0x25c62f41632a034f; 0x2ae4d93b7939e682; 0x650d60c5ee965fdb; 0x47b1f023b73c1c1; 0x59fcf9f9e68691be; 0x744213b6e894880b; 0x22d93250f28cc15f; 0x38787df58abe37ed; 0x5aa55a09b9204fd1; 0xadd2382a47d11ab; 0x67b199e56a3d0981; 0x69ba94b60e1adbd6; 0x3bced8d8bd7093a4; 0x5223b775261af19b; 0x1b157db1aa6b8c31; 0x3ad8f0b8724fa20f; 0x30278c887e8521cd; 0x14159d21f81ee6f1; 0x804c579369a7099; 0x42eaff84de2a6832; 0x1d0cb0383f32af33; 0x3b533a5b5932638b; 0x6637f194c272bfaa; 0x569285e830df239e; 0x5d2d51eb4fe73ece; 0x49cdd9a659d6d240; 0x12695d9fd6cd587a; 0x788a2032fdfca5e6; 0x670ce45df7f6397b; 0x7dc8827709275b7f; 0x4ecf68a3db857ff5; 0x698d2dc1a70a69fb; 0x5bbceea36ccab33d; 0x7293521c5cb49c21; 0x94bca85188231f; 0x7623f835f31ab795; 0x795121d3dc6129aa; 0x37b2cedc567a248c; 0x133df740ef6fab9e; 0x3ce853e91543b0b1; 0x1c52ff35a910f481; 0x39e6f9dcea11e02f; 0x5ae6a27be3d19d44; 0x6150f86fdcb81004; 0x701adcb374c5d9fe; 0x45dd2407ff3ffe69; 0x20063c0e82c8dd29; 0x5605743ed1b2196b; 0x13e7902779aab2f9; 0x5723561985f27a9e; 0x7bcfea888a878fa; 0x5fe8a9812a338bb9; 0x20ef2facce01bfa5; 0x2d18e560f557375d; 0x59aa37689bd393fe; 0x4456180c04aae02e; 0x6759aef1b9a317e7; 0x6ffe447630db63f; 0x7a07552ba3e0e438; 0x149db4055d0af278; 0x34ce7c5662ba7f54; 0x258cf7b1fb095e57; 0x1422ad7dc7a9a706; 0x6ab1874036b30633; 0x489f4042d7ce19c3; 0x307fe70d38b2f603; 0x4c1f4c3c25f25a27; 0x54249ac84625e909; 0x799d5f9c8fe5bc4a; 0x3c7076db4f3e74a6; 0xd7c11907897415; 0x3c7f6b7382bf29bc; 0xc6fe7a607a470b7; 0x6e59780bef562493; 0x2e87e18d0fd978a3; 0x39070349caca05ad; 0x6c206353120572d3; 0x766713c90533a76d; 0x688dcdc3be047bdc; 0x37f056b5b6e6a655; 0x4a08dd2b50010c8f; 0x61eead166634a5cb; 0x544fbd3257d276f4; 0x36307220aa589960; 0x65f4332d82e0bd53; 0x4c03efcf255b1d77; 0x49abd6faee834bf7; 0x1e0194e681cbffb1; 0x6babbe2899db0ec1; 0x543c65f84bd9935a; 0x5548cba2371b403e; 0x64ecb56642a3d8c5; 0x4a30cc808762c974; 0x4308407b7fb0c60c; 0x36f96f789c61ee0a; 0x487d837fd36af87d; 0x4f6a60b03b6a0c5; 0x55d4deddeb1b5ec1; 0x5c58383f5fdfad24; 0x466078d20c39c781; 0x1d63406c32e0122c; 0x324ebdb1296cdcd9; 0x49e3452bc1c8bfcc; 0x4a4e31346cc1a466; 0x2b605b9e32797447; 0x61f8d3b81de02ad8; 0x21ff3bbce7a4d5dd; 0x32c530e2f07b5d12; 0x627ead78fe4264d; 0x5617c97e1b31fe65; 0x6061141518b102cc; 0x3aa83cc4278f4cdc; 0x32c4037194ec634; 0x5f8d2098f0831b75; 0x67364d3c28da884c; 0x1b5afe10f4445e41; 0xc4185caccdd6d36; 0x2464bf15688c251b; 0x6d167586ba33e080; 0x628ba01b7d4e5f5; 0x7d9b60732c77d1f4; 0x2a3283d52c2e83ee; 0x577fae9590ccb7f3; 0xc15d0ae78c10b95; 0x485ef114bb204e10; 0x70dbf744e7b7f1a7; 0x31affd377338e775; 0x324874e82b50139; 0x1e855b2fb5d77de5; 0x7e62baa887080b30; 0xd539af2555c3123; 0x580eaccc510459dc; 0x21a7be5c23e4021f; 0x28971bfb87e5b1bb; 0xb80cb2329f71af3; 0x2434e8d8ebcb1ad3; 0x42997975e8bfbe4; 0x282b14c81cdfdb89; 0x6ca66db1ba1a5dd; 0x57cbce4fa51e1169; 0x75e9eafc814aa4f8; 0x19d5928f9797bd63; 0x15b0cfaf5055910d; 0x2dd30740a9e3bab8; 0x6c10d476198ac51d; 0x10838a5e99b561a; 0x795f0527e691e79b; 0x14510759f13169ed; 0x41121a0c4bbe0058; 0x633c048f81183dd7; 0x6992ac2cf52a3552; 0x70e681f05a54f931; 0x52f533982bc91f57; 0x7dfba8981a7e7d4f; 0x4d288be1d7b170fb; 0x6b5eeaf28a3647fb; 0x3a637c0c9368c18f; 0x79a50c40b585fe92; 0x7b0830c0782c7653; 0xd60edb591d7a170; 0x4667063a5a99bf5e; 0x70afdb6582a935d7; 0x32f117d07ba98d73; 0x760e399064553db9; 0x5b5d19f40da99723; 0x6e7d2d4954378122; 0x30b018ea72998264; 0x26fef65c30224b0c; 0x16822602d62da3; 0x1fd44ef934b96cf6; 0x30f54ac0a3c84525; 0x6c9b7c1c2dad236d; 0x5d5ed308bedf1502; 0x8a4ede29e9191fb; 0x47f168ed43473621; 0x40e32d8add282fa4; 0x371a9f77ddde6fd4; 0xfe1c45b4af09636; 0x1d07de94f1d010f; 0x41b0b142a8296faa; 0x70c168284d2d820c; 0x3109620901b01845; 0x4c060dced69918d9; 0x5c54f6e905cd908e; 0x3ad04b29f601f1e2; 0x46b83e3de12ca9c4; 0x61434af249f40e4; 0x479ede557600d02d; 0x105def4a0afe801a; 0xccd7c7c6b355c20; 0x459bb8b1329ecbfc; 0x7d09776f87158cce; 0x124f1f99c091b6d4; 0x15f8022cd44c2631; 0x87b214f401a4de8; 0x23610924cc06164d; 0x139df05f77a6bf57; 0x67e3a303ed654b36; 0x7d132beb31b598b5; 0x5ce0303bb8d8e78f; 0x150ffb929cf545d8; 0x6b017c9e223ece0b; 0x1cbf8f071b1ea20; 0x69c4c371001a8f6d; 0x6bbde31951d628e2; 0x2daff23adfb2b8a4; 0x7faa1c0ccb49f480; 0xbf76461f892d21f; 0x7f74e844fb569eae; 0xbaa11f1fff9a4e7; 0x44debdb00c33ba29; 0x1bef553e5a4a831d; 0x186a0f1a348ffbfa; 0xbe15daada502efe; 0x6854ecb5f596fb2; 0x2c507743f715d97c; 0x1c06ac78ae109ed3; 0x92e5ce038b84ec5; 0xb4a3fa012deaab2; 0x31f0b2ebe61e01f8; 0x284206112559084e; 0x79019d7ddb8ec9d0; 0x344c61553be1bd70; 0x70ed0acee93761ec; 0x78087f1f55dfdc79; 0x519de4e81071b118; 0x250d17ff8be81d8e; 0xca3f7629fb9b54c; 0x1e58212e9ca319f8; 0x48009174215d21c6; 0x1a9eeb54a24274ff; 0x448d8bb05442a127; 0x31821a7e996b7805; 0x773f31b66abcd3c6; 0x2a84a1cf466d092; 0x6c64d6b332a32438; 0x33c59caa277395b1; 0x4b7576a9780b0a6d; 0x1fa7a95af29ac78; 0xfd5d1a1ff3da0e0; 0x34e81b4b784242c3; 0x18ca0047498218c1; 0x4c283d4a07e5cfb7; 0x64be11f61b1a0099; 0x5321d69fba115b53; 0x2887e65465f58aef; 0x17e2a4c44a9f0076; 0x400e69dfdcc44510; 0x1505c9f5f13fdda; 0x337a656c567700b8; 0x190bdf726401ad4c; 0x73c3b2f3e66992ed; 0x71cf91f893f934de; 0x6034f28b5dc6c9e6; 0x551bb528b5f7b279; 0x6441df9a4177145c; 0x7ac8be4c83ae0f59; 0x22d86db112179b7; 0x562b0dfc1099cc03; 0x675f631472235ca9; 0x1deae8596f9bbc31; 0x53e8daf1aa24c6c2; 0x716bdde895e57464; 0x15a12f90691c3b5f; 0x431b06d5b70c8de3; 0x2d4430e955ff58ea; 0x6028e7c27d2ffe77; 0x24867d6d0398d912; 0x275cb0feffba858d; 0x2386fe0f26f9e8a9; 0x46483];
   [0x2510a902bbc1389; 0x6441679e1cdaf2df; 0x5cc81a0e89495aa9; 0x4d62ba70c34d06f6; 0x3e1105f55172df5c; 0x5ff8b5cf4bf1292b; 0x436e83d5b51d8b78; 0x56724e7d3151cefe; 0x12c441aa5dfaafd5; 0x237721cbf992087f; 0x7605940884f69404; 0x409339b2e7d7c88b; 0x770c89f9614a88f4; 0x4727651e29322bce; 0x239ab2b64b59c62c; 0x6e4e7001727021ba; 0x2765382aa28066e8; 0x65589972f0a9fe4b; 0x1487439d93c7d9fe; 0x23eb1ecf969b4db0; 0x7189b543fcf7e48c; 0x11d38f63c36595b8; 0x38973948454a40; 0x79795f531412ae3f; 0x4a85194a4e29fc5; 0x3fbfe113804cedde; 0x4ffa2dbfbebda43c; 0x1983a5eecce302e4; 0x5372c88394fa737c; 0x4456f86b2d9ed3b7; 0x7b929bbab8d58ef1; 0x3a509c11246f7d0d; 0x52b1c92dd4fce6aa; 0xb2a6785e978687e; 0x598d291ae469c747; 0x7b5fef7c136d783a; 0xbb3996dc0dc0c73; 0x7f640ce6d41c6b1d; 0x3c1f62ad82038eb; 0x40f4ceece7191dc9; 0x4956e842dd02096d; 0x1b46cc37379beb18; 0x301cda09c0317a0; 0x2652c18b7983a04f; 0x1aff909559e1a056; 0x7098ef2dbe42aed4; 0x385fe10fa5af1b1c; 0x3d9d0d1288f19add; 0x4ff0c1d59e233acc; 0x786e5657981770b3; 0x1d72e7964603add5; 0x2d231fc8dbb3dc1e; 0x75c906d68ff46e64; 0x40775bb077672ba1; 0x1bc32379572a2f4c; 0x510fb98a2d67fd9d; 0x4ddd7ffe096b9233; 0x1aaa29fad549bf1f; 0xc3cf833a1085cbb; 0x400e69267c3f952a; 0x9cecf17e218fd24; 0x2881e94ecfca8698; 0x42882867c24cf52b; 0x50daaaa63451fc2a; 0x287972df4104594c; 0x3f17e2fad6218ff3; 0x2810ea0b38f1c474; 0x7db9f840efe54fbe; 0x458f9c2ecadc5864; 0x289cbf168af86425; 0xb7f0562789499e9; 0xb9aa435e2e8690a; 0x2e2b76638bcf8938; 0x4e95abfccebd0564; 0x5ef872bc6fced2eb; 0xff742d78e5b6a35; 0x1bdf70c1e4508d32; 0x14cae4496b85aa3a; 0x321b060e59a5c6a1; 0x743dab8e537a43bf; 0x37eb74ed25e2fe41; 0x7304894933337bc; 0x1a51ee1e080ba6d3; 0x70f15477f2133628; 0x650fbd5be129b747; 0x49a94128e028552d; 0x78da1166098ffd1b; 0xa6fcd42a6c9dc3b; 0x6fd3f9ff8f0ec2c; 0x7172154a440f8431; 0x141fd646dc0641d1; 0x346f81b4fc86cf1e; 0x11d21ccf3b44eca6; 0x31645562f7572c2c; 0x624f08c6f32c64bd; 0x71f64cce051eaf45; 0x180b1a38e0d987d6; 0x6df8dfc8f5081a67; 0x580500d13212e1a0; 0x30607076988d2a9c; 0x51cbcf4c8b22193b; 0x36d2af63b74ebb78; 0x497f168ecdd8783d; 0x4adcf20fd1922907; 0x29303583d5d4fdf3; 0x50bf1c1f04950718; 0x55ffd5e7a4758f76; 0x25b7efd44b0d0733; 0x74bc830c992c6874; 0x4d2893d4649b8ecd; 0xa082f6e7b2f6278; 0x61ec167385910d66; 0x38b1beed5839229e; 0x75757df157c3417d; 0x54574866744db86d; 0x41b4e270ef058d83; 0x7ec268d61597143a; 0x7767f6dc327dc06; 0x580563a1dafe7635; 0x5496503064b09d98; 0x22aa1a5d8eb0d490; 0x7750d5dd5519422d; 0xdeb8cad9b25434e; 0x429dfa2e353c3da2; 0x3940c852f830ef57; 0x5590790c33fe6f63; 0x74399752961d6806; 0x2c4af05c460a6bac; 0x43c8bb41f9356cbd; 0x39f79a4e21d704f3; 0x6fe30e24014d4cb; 0x538b5cbff9ec2357; 0x7802f991993e7477; 0x61432d504234a82; 0x64735dd7760f9532; 0x74b1a06a873194c4; 0x7587dc854621386f; 0x2df2fc3ea0bd3efd; 0x10ff622c4fcd2f10; 0x6d0efb29a5fe01df; 0x7641993a0145019f; 0x25bea6b5e029920b; 0x661ee007b5e4f8b5; 0x60a1bcfa35d90140; 0x502cbac38bdca201; 0x4fe9beca31535cd; 0x6f450871a05fe6f1; 0x50532b880a2099eb; 0x50e307dcf3a5fd63; 0x17fed0963f45302; 0x4f840ce78979bd8a; 0x5a525f7ec97ff4db; 0x4bb18c98ee02c48e; 0x19c1cf0900914c25; 0x61e620ce8326b743; 0x45609ee7b36716bb; 0x326e4541cf3e7487; 0x502e1cf4c283f3a3; 0x32c27ed44d3cd440; 0x9474aa69b1f5fbf; 0x2244e187661a1636; 0x417d83f90b67cf96; 0x7b1754c3209c2599; 0x78a782938460b047; 0x5ec905ca9f7f3e3b; 0x382a6602e92a2025; 0x4148144a876f72a4; 0x39d94bcfa5004d95; 0xf98fb741f8b1626; 0x69ce184e830f95fc; 0x30d6115a2546abad; 0x56b7916052fc32db; 0x4136307832d34cc7; 0xb46eae7fe659503; 0x6aedf8cc289f36bb; 0x2e99020a72edc25; 0xf0b967b7ae2c145; 0x5e69bf58f7bee079; 0x7321841a50085fc1; 0x30a903422b24dd6c; 0x7af801292a4bf8f7; 0x21a438605fef74d7; 0x599a65c3bf73c8a1; 0x21e4ce26c2a6e402; 0x6a1bc263753feb41; 0x385b3ece93d4d6dc; 0xa5f1bcc2cf59f37; 0xe5f2c6237aaea19; 0x43c57108c6645ee; 0x1743a12ed656f3af; 0x2d899fa4c6e815c9; 0x1bdf1417d34f9a; 0x7a147530679f5635; 0x53b68e40f70c96f9; 0x6e592a3381aef922; 0x2161e7ab06f634c0; 0x168c606b40fd43c8; 0x4db1e8cd5d678c68; 0x2e3cce4c8920923d; 0x74d8ddc062bcae61; 0x5e597e7c6d2ca000; 0xfe2af33de99c8f1; 0x2f52cf465c128abf; 0x7771cba667980ede; 0x8f337090ef3e0a5; 0x45af6f009d6ced2a; 0x7a857d46c42b88c2; 0x28fd4f32246f6cfa; 0xa10560b462105b5; 0x6434034da70b9fb6; 0x195269c13df0c0a6; 0x13829278704f0458; 0x71e86b972f9de1a9; 0x68a581c0aabfacfd; 0x1e567d8365f92c17; 0x4f4297dd05049dd; 0x4cfc64d91dd41640; 0x2505f7df2bb16ae2; 0x4c602e2223191fbf; 0x7d5026f940ac07ff; 0x2c94b2f6857fc327; 0x50b8e6aaec572619; 0x7ce83e595891a448; 0x2afe20c9ed121126; 0x1bafab86fe3028a0; 0x209e87f1f0d95be; 0x7aac7ba6f87c8ad7; 0x5b0b946a9dee52ae; 0xa95f7672d12e434; 0x40633c83f1e83c5e; 0x706dcfa23902f711; 0x7a667daca11d717f; 0x1fbec1c53a87cd72; 0x855491384dd74f5; 0xf3e9ba3435c83cf; 0x6aa7e01fd376b70f; 0x2adcc49f9871591b; 0x7fb339e5b58f7596; 0x12587927d71c3a2d; 0x3ad818fc15e433f5; 0x7654113fd35f8e63; 0x4e72bdbc23910ea3; 0x16417908b2ce9697; 0x1768972e9ff9491d; 0x32ef78d50776120d; 0xf0273683f9cd192; 0x2e5de668d3e40523; 0x5665b1a05ce98bb7; 0x5519a3995acc64f6; 0x330bdffbf0c43076; 0x4d88bf038366b010; 0xc30f78a7ebc76e; 0x3d851e04a8c446ec; 0x2a9b6b4d6f639ae; 0x6833190d2d52945; 0x1348f68e853b1e1b; 0x5583a5d0f6e66e17; 0x315033d8d31d75e7; 0x18f7fa8dff688863; 0x251ab9976d2523c6; 0x455f62af7b99f4f6; 0x61dd626ae93d00b2; 0x7246d18290520820; 0xc2ea5af32e177be; 0x1cf25549006e29a2; 0x2d04457ced89065c; 0xd10def06fc83e8f; 0x747807b60b1b42a3; 0x68041a909e4b602e; 0x1c251d54bd2f0cf8; 0x2f40d4b6257eef54; 0x68140d9a101ca731; 0x7a3d047932f6c1d5; 0x484a5daa7eb99174; 0x6ebe8d143cd198a1; 0xc8b9cc0f07e2f1e; 0x2f138587d9291cb9; 0x1d9da3b641964908; 0x6416960509bccb35; 0x25865587dee8892d; 0x54b4b9f9dcb402c4; 0x6d3298d18183034a; 0x40134345ddaabb8e; 0x575e4646f8a281ad; 0x3bb7501a36000bd3; 0x42f90ba50950b416; 0x3cc82a9e3a62d0b5; 0x40f803f5149c1db3; 0x375d05e53eeca2c1; 0x7e0081b20da491cc; 0x4268efde48b3fda8; 0x456463e53e920314; 0x7a5c8701be965446; 0xc3ca095b5ef63a9; 0x18afce4a60537f33; 0x19f11c5a9933bd39; 0x3873605630e5ec0b; 0x480d07be19e0d091; 0x645bd031c76af915; 0x268166cc45b369b7; 0x780c1ff43bf0641d; 0x57a61a0a7a29c2aa; 0xf6b2426b1ef20b9; 0x4db39964f3ed51c6; 0xac639a19d25aec7; 0x4cb5abcf0f767dd; 0x4a7668d527ef34d0; 0x257e9ceffb2e5a8; 0x6da4d9e746461bd5; 0x47dc823b1f1a4a31; 0x1b6ea72d037139e8; 0xaf43d4a1dd9ea0c; 0x28e239f80aeb47c4; 0x1d0223fa8f03c5f8; 0x3a225ee5f312aa03; 0x1162f7d16f9c63c7; 0x6309359797ee2ced; 0x23a499];
   [0x35d9ddd3c4d1a0e8; 0x6d846d9596a27d26; 0x617f8288aaedef76; 0x55f1676ef89fd426; 0x797c65eee309fbb0; 0x1345a9a643743b6; 0x175fe86e452a3727; 0x59dcdd0273f512e5; 0x7f98a1fdd4bfd3e7; 0x7950264d75259b32; 0x10f1af0ad1bce400; 0x27da5f07e989a794; 0x14c7d9eb6e165aa0; 0x41483e17042361ab; 0x261e1b3877b6eebc; 0x4a74aa97d01f1801; 0x4066b834385cf1c; 0x70222e8a718ed1c7; 0x6ee1f5ff0f807ca0; 0x6ae11d90f883ed17; 0x3df5c096ac21aec6; 0x1e8b2b8c7b20b6c4; 0x1d7c6e7746744e6c; 0x1d134b15b10987ed; 0x7b678271b12e721d; 0x2959ec4e0394b668; 0x7477045d017a0b3b; 0xa2104d1c08c944f; 0x7642856ce843b4a5; 0x698ed17a315c3472; 0x135cda86acfcf113; 0x519cfdcc1c07f7b6; 0x260428f4d51f8c1c; 0x72636ea2cd826c0c; 0x369115a2da9938a4; 0x7c625e0fcb69fc29; 0x21077e52e337aced; 0x742b0046d8bb2243; 0x26b9bf65fdeae952; 0x11b977ca4ac0e9fb; 0x8b541a338cab18c; 0x534712855e79e7f; 0x451b2813249f9020; 0x60e30f3125e48af3; 0x359a7adc09d069d4; 0x2baa654d2efcf32b; 0x5a87c1a88456183e; 0x8c4cf4955c02862; 0x4a56acc672f18525; 0x7e3be979c4019f2e; 0x42d40e836cdc923e; 0x7762df5441bb01c6; 0x3c5d1fb82e455854; 0x783524bc8b71c056; 0x3a951fb08369b76f; 0x282584f058d4d060; 0x2c3d73f701f2afdb; 0x5d55db2c4f91fcdb; 0x47458d3ce35dd657; 0x63ea3b3cb805b8e6; 0x76b3779443115362; 0x126b918dd0c5c845; 0x43ccef5d8e4863b2; 0x50862cf9d3ed8cde; 0x39d39b56c9514566; 0x14bbaaadad8b02ca; 0x5d0b2899f9e6a482; 0x1058ee541b57ab9d; 0x1bf904e6ecae171c; 0x5489ebaece0dc86b; 0x6297ffde4b8546ce; 0x37133b8238da002; 0x5ed2813637757698; 0x1f61272749422821; 0x5c6b1ad0e9fec0d5; 0xfa222519e0ec558; 0x635d0e9d7e7edfe3; 0x7c79c014c5175392; 0x75945e8394102cc5; 0x33017d8e5f91a089; 0x131017ece190a0ec; 0x79f095f0d546955; 0x35683a0a7bc4da64; 0x1d73dee03fc7e44c; 0x79a230c7801cde9e; 0x25d0a07f14476524; 0x46789484b304a7be; 0xa1ddf43b4ace9f4; 0x23ab4c8c3b560a21; 0x35fd9686ebe390a4; 0x3ed70cceb056a175; 0x4e1d0cda43434e25; 0x365e0cdb6daa63cd; 0x3bef74a411ae9bef; 0x34ecba7e9865c55f; 0x6f19488f11fb0ac2; 0x316aae900625fdb; 0x515fa4e909c71a75; 0x549bcd7136a38875; 0xff185c9dbb50c28; 0x5f8b1c97b7f26b7e; 0x7d92ca6049ece06; 0x58354b0b7d60b168; 0x689b3997b4fd3099; 0x19793885f02c16b6; 0x4954db0cb3b1d012; 0x62ef21531f763641; 0x6269f39fc822e19b; 0x50c33ed6cc1d92f1; 0x120d700074cef39; 0x4dd0554a95dcba12; 0x235c47fe540ccb7f; 0xcafe67cc055d3df; 0x32d82770f9f45029; 0x266b83e496f9e3a6; 0x2552efbc8cc2b422; 0x2649787d21158277; 0x3f18bb2f56f7236f; 0x4e45a955170c213f; 0x19116b50a13e83d3; 0x5a745206650b955e; 0x4cf79b0038d4398e; 0x1b925ec2a72d505d; 0x3af31af94456fdff; 0x64d811e8c17cecf7; 0x70be20399d0b6a98; 0x794b105747b36238; 0x6d007f27f268009f; 0x1adb118fc66ec0d8; 0x63f40341ac7f7d64; 0x4e44aecaf881e67f; 0x5c646f29db11819; 0x71b8735c330fbe4e; 0x5f0450a63ed4d039; 0x5bbd1079e3632f97; 0x331cbbc00592a660; 0x42961c4b27684e84; 0x4e5ddb99beeaf098; 0x3a51a93b74f8b17e; 0x4ef682dd82a30f7; 0x1beca5a1f01991ca; 0x6dedeade8e339187; 0x404f036b56d4f4db; 0x7ca510ecd3fbe6c7; 0x6da7c1e51c5658d7; 0x14e8f39833a4cd7c; 0x70fe43e14eb8ff73; 0x17ac273c0d5886c8; 0x344fb5b989650083; 0xa307172acd9c108; 0x99d990b56e06823; 0x3992892685c7e1dd; 0x2f5065f99e19938e; 0x19dcd175c9ad24a6; 0x28ae392c0050b9a7; 0x6d8aa0349fb1b0e6; 0xe4f0ed317ee364b; 0x4668b69b8c2d7407; 0x48b2fe88c56c45f1; 0xcf8a771e7ef24de; 0x29d7c72b299ea3bd; 0x672633b23162b598; 0x4e538e43889d280b; 0x44fad42b6065d06b; 0x40043dc54fd8d313; 0x28cbf0afd2514008; 0x25bc4ae9f194898; 0x404c27f2882331d9; 0x2294f376cb1d00e4; 0x66a2329998907868; 0x1c28ac937a8b962a; 0x2f26beaa292318ff; 0x15778236a82acc88; 0x557987488ad682ab; 0xd4cc40d0cac0168; 0x769da64434835ee7; 0x29b4039531466da3; 0x80abc81c388c805; 0x536d4d113a527ae7; 0x5741d0fa1ed6b3; 0x37aca1cc13d5ea2c; 0x3329f819a4cca5e7; 0x5a0cec9fa21f066f; 0x47dc26fdb820f9e2; 0x4db0c377182e1c7; 0x53e4d9461eeb7910; 0x314355c4b814d7d6; 0x5c3f2a9879e21278; 0x2110175a98be2dde; 0x490616eec6857b59; 0x38619a7e5da5d47a; 0x537c6fcb432601cb; 0x141deb6864cde1fa; 0x6ccb31343af6ebe0; 0x738a3e3bd548eccc; 0x7ea319456a2954cc; 0x65a7521a448bbfc9; 0x19a60a5e93289976; 0x28a40e6b5e7aa74a; 0x547e858355f906e8; 0x4874b57f19c8f867; 0x73ba1454e7c2344; 0x5ec8b1c4570684cd; 0x1165b82b53186f53; 0x211918da23862a1f; 0x4eb32d1a72ef1513; 0xbf23e20d70d23ec; 0x27b4496ecb5f0f9b; 0x4ea6b3ef2daff043; 0x668c6f142ee91390; 0x6f16d590b71c6e2f; 0x42d25366c239aeb0; 0xd8c0359b8d1096; 0x5f6c3ee93d831ddb; 0x6767ca7b3f475981; 0x65581b2b388e745b; 0x33994aeb1a0c940b; 0x1c19a668e3cb30a9; 0x2a879a8aed8e3197; 0x706107351eeaf90d; 0x529b09878ca66275; 0x52339dfe367c9370; 0x3d2de9795841b633; 0x66975e0fef033c57; 0x1afe08c749c9d819; 0x6dbe20ef68ab9f39; 0x3565f9f359bb189e; 0x2a6dc7c0d680b2ce; 0x3cd0c154111b3358; 0x1be89ba5eda142cf; 0x6aa2582310077d94; 0x4b90a3ca83fcbbdc; 0x46a3cf5eb1223648; 0x1f360337b7e22811; 0x7e130e7e1e92561a; 0x4d056850baa64e21; 0x33b461c647f7d74c; 0x51518e31b92467f7; 0x5633396a6086c293; 0x28a9278aff92c84b; 0x21db878b023eb3e; 0x2504ad50f023983f; 0x35b26b6fc7d4e000; 0x293f9dca0011630e; 0x5d4568bf271feba0; 0x76f48c1afee5c9b6; 0x19f8701da9de941; 0x7b23818d67aa00b2; 0x65e3616c2e2fe712; 0x103cc5715a4a3bc5; 0x5d8cba60fcdfd2a9; 0x5b23a1a9d4625ff8; 0x70a982cf8463a2fa; 0x6302aef7d18fc959; 0x360ff07de271ecc5; 0x1c66c2ac35adcac4; 0x52e174194713ee57; 0x605b0828d1c62767; 0x6ab393b1b4b1560c; 0x5dd8f5dec1961fd8; 0x4b308e9e821378a0; 0x6450c50d303392ff; 0x2e12972e49aa53db; 0x539a26335ebca9b; 0x362d470b1acd20db; 0x440004c7ec7717e0; 0x32a918fb8e4864f9; 0x4aa1021e4ffa0baa; 0x5ea73371b7cbb089; 0x3ece63ef5723ecbc; 0x73cbde6ab64d2bc1; 0x7c52b99f9a6b217; 0x6624404325cc6fee; 0x64419ddbfab15cb; 0x5a8b9e0e232458fe; 0x4e85309b46ec33c5; 0x3b3f92f26c9519c6; 0x40de02e03a8d95e9; 0x5ed3c3c05ee6feb1; 0xc023ec1e6cfb4a6; 0x6bd43613e96eb22; 0x64e26e7a183e08b1; 0x3135575d30b4b0b1; 0x1a8cfe32e51a5e7e; 0x7888ec56c07a5e0c; 0x54a7626485a1df7b; 0x772a4aa19a8497d1; 0x5320855d9754caaa; 0x68ae82e7b6b2e0d5; 0x4426098f1647226e; 0x5632468a7265e91c; 0x705b37bbd29dc9d9; 0x18721de327dd6235; 0x55a7d8e99b929e96; 0x1cc0783768a4a058; 0x896a526daab4701; 0x22898dacfc67b499; 0x2b203865bb245838; 0x2d55dafae3a05de4; 0x7d9704d4eca69062; 0x1e8f594099869b2; 0x77b0d760c63453fd; 0x2fbd1e75bbc4af62; 0xd75c95fa6beb8d1; 0x391966212f6e0ab; 0x30475ef55c321f6b; 0x3d4384b60655f352; 0x2313295df6855a1; 0x9619d5738d4b091; 0x3e9e9794fb5996cd; 0x6ad47cdad7c02e29; 0x2659c2909180a5b3; 0x7007c02c368cbe29; 0x279267e0b8aa7195; 0x57e90d79328e181b; 0x3e2e545dc8e951a3; 0x74e227e2cc4f2f69; 0x9ab41];
   [0x682cb7b728733eee; 0x5dacba1b730beead; 0x18b8af0202cec4e9; 0x1dad17abc2dd0d23; 0x6f2ce9a6ee68c5d5; 0x28937a9385ffa91e; 0x727eb763689d9d19; 0x29b149f39e319ddf; 0x4666a2362b000429; 0x3198116a60d9f29; 0x294a3fc1661e1941; 0x4c565b1d9c0457a7; 0xaf1d92ebb37f337; 0x69d3be9fccc0fa25; 0x660957478967f9c1; 0x7bea4971160a353e; 0xa359fcb0e5d97c2; 0x323441bb34487909; 0x5c4fb9b04917a468; 0x77819999929687dc; 0x6a8b369384769a84; 0x19a877dc9c89dfc6; 0x7d50c1abee4fc649; 0x66b9f86149aaa969; 0x7b4814f0c7f306ce; 0x3f02f314ed1d4f08; 0x6d59c47fb58999f1; 0x18ce93202c077fa2; 0x5399b91c26db68a5; 0x39b267a1f3767721; 0x554759d84e6a6701; 0x7c0b5b105e3e320f; 0x3c7af983a7984acb; 0x6447746716680945; 0x44b1442ebd6101e5; 0x1efea8214ce2ded1; 0x45330b8301098c75; 0x49ee393025166b26; 0x3da19d3d0c834322; 0x61f185de248eb9fd; 0x6461afa9be845f09; 0x435f6726840dd920; 0x6c5d600c4243fd96; 0x4a7cbb87bdcc0817; 0x5a59908af3218f8d; 0x6522a8a915e20ed4; 0xc899255191480db; 0x5791dd34c1a1f385; 0x3224e8656f3df891; 0x4a9bbcbe8150fde7; 0x4379fd29010db8; 0x3379e9ae42d4d82f; 0x4154396f8a798426; 0x392fb31fb0e795eb; 0x66042e038cf6a20e; 0x692831168411d6a1; 0x747df77abeac492d; 0x63582300317f9cf1; 0x47e3a0a3791e9ef6; 0x453442542726a913; 0x4998ecef68e1e869; 0x60f1c0b9ecef4df8; 0x706b96f6bfd87f2e; 0x983d95dbad69519; 0x40870ac8fc646b66; 0x2996fbf7fd842ca2; 0x407596f43f41109e; 0x40ce7c5e5c51f51e; 0x28c88cd3343220b8; 0x776818ae9c7b3d14; 0x6ae426ab50776008; 0x4b347953345a5288; 0x1626ebad47ace1a8; 0x3bfe23ca016d2034; 0x71930245fc9b13fe; 0x17af9e2154adcbf8; 0x1c3f9c7526ff7bf8; 0x1443acf5d532c72f; 0x13760fa0df23da5; 0x6cf088bc3dbf62e1; 0x55c03c2566561034; 0x585fd1094673eb24; 0x559d2e0ed5c60b04; 0x35cae56fd6d087ee; 0x666015346a5b85ce; 0x672155bcabcec16a; 0x7d372e9f31ee7327; 0x5df1de8e1ce0d034; 0x3bd3127b23225d92; 0x219e4a59155ed357; 0x2121b7394568925d; 0xf2b89e376b0d0d8; 0xfeda6c7ac881919; 0x7cb7cc9112e2f42; 0x7230e531f1269c42; 0x7d4d91d041d7e9f; 0xcd009ce233beb0c; 0x3fc51fee6c367c2f; 0x48f4a352d8853a6f; 0x409030b4cbbdeeaa; 0x43e7930f028d61e7; 0x7d9d155ec7bb6993; 0x606d42ad18c76490; 0x1953cfb9e88726c1; 0x43f356a8b0f44557; 0x13025de6df6163fe; 0x5b0f1a09e03ba62; 0x51c009ca0e3ee329; 0x52a7dcdc43bc80a1; 0x664d65456f45352b; 0x7308d835fff04bbf; 0x3f16c45a9aa0701d; 0x5b208001370090d; 0x3169ffceab42c9f0; 0x5ed43bd0c585b56e; 0x1262bae004e37c58; 0x293dc6c742555140; 0xe59e41e7902a72e; 0x31c5f989d101c2f0; 0x7b60f688e39ff218; 0x5d17dfbdf8f3aeaf; 0x4b8e456267405854; 0x53e5dad02887531b; 0x32071e5033c02acf; 0x46ed9fd23c0c7c33; 0x3d8aa553e155b667; 0x70b4475b75e992df; 0x2d4978a82890a8d0; 0x759f982dbb2c868e; 0x3d391ff9508cab5f; 0x6c199f0d3a166466; 0x6f73eb232cf9941f; 0x79b526765ca361fd; 0x5eee3ecae03f01ac; 0x6ab55b3634cb8b99; 0x1550ce9e74313b50; 0x6a274cd4bf527cad; 0x2923709b235fa377; 0x5364f01a4bcb6287; 0xaf5be67096ea8; 0x6ec841e7bd244eec; 0x7d559a3b774a3619; 0xce669fedda3f867; 0x6ca3b5d28ca3e495; 0x424766d15dd81c46; 0x7fd956a20d62b784; 0x550414f3262f5f82; 0x355b5ca6772005b2; 0x368223e201a748ec; 0x27cffeaf2d2a6c7a; 0x64d8467c94572800; 0x56c8f08e44f6485c; 0x5a84fe5fd3cc64de; 0x72be51c36567e2d3; 0x1281b9c4fa468296; 0x3a8e07a3fd97cc9a; 0x426d113f8d148865; 0x6db57be99860720c; 0x7f980e9986dca554; 0x5bc31d0eb1792644; 0x5f0ae26263fae591; 0x1d266914d4345b0a; 0x71e255631453143d; 0x344d53ca7fe36501; 0x7415b5674a907847; 0x4e6b061554c2bdb5; 0x29ad532e35e2b883; 0x77d590120172d553; 0x88a9580d2d9617d; 0x468ac3afa851bb3a; 0x7d66950dbb9d7d20; 0x325da56c4d505601; 0x71a064df34547063; 0x1401508a6eead624; 0x2f47212fbdb42053; 0x1ec0d854fe0b5913; 0x3082311abf893f80; 0x6ad3dabfe73749f8; 0x6f6739f10474fde3; 0x6515cd9b7968a9ef; 0x62f8baae70408594; 0x3b9cd330a3d30b99; 0x3fa695e641142b6d; 0x60bdf723bd135b5; 0x726fe6c050dc7d0b; 0x6607de05dbb625bc; 0x3fab84448b60a5ca; 0x198c24f4cb46006a; 0x6a9dfe1223bf56ce; 0x4be9893a634d07e1; 0x582052e2d33888ea; 0x686976240194c286; 0x72dbe9c782beb07d; 0x74cf3e036b6f5b2f; 0x76add9d70e85a481; 0x406183ad16f948b4; 0xafd2de2b951ce32; 0x62dfea119b887895; 0x22ef4cdb5746be86; 0x2cab1ecaf4c303db; 0x64d9877df3606547; 0x5a5e6b6e7775cc0b; 0x18f742767aef9157; 0xfe3b31dac081a36; 0x38e86dde9f8847c; 0x31729e55ebe97363; 0x35fb2f63045e7840; 0x763b8ce799c62b5b; 0x45608394432b7bb3; 0x41ff4a71d2533723; 0x6cf490df7ab69954; 0x231f883859649ae1; 0x7d2573860f765; 0x6fd133fdcf9e0758; 0x73a9a678d604702c; 0x3d5487dcd85a764a; 0x1950b6e2cfcfe91c; 0x669494dbccad6c04; 0x57e0380197ca4ad6; 0x5420eaef9318a629; 0xbbdf41d8727b79f; 0x56c7368c278e58a6; 0x29ca985362c25053; 0x2c9a5f31b9b35c12; 0x788df604ae198a66; 0x71fe90f839babbca; 0x1b33dff42b9bc6a2; 0x6219e62709da78c1; 0x154e5dd2fb209766; 0x399fd67a373e914c; 0x2d45ab1d7c9c91de; 0x32c511a6ff859c3f; 0x79a9f4e52bdefdaa; 0x4a256865568c88d2; 0x21138c3b5219d9f3; 0x798d95eb3ef372b0; 0x723460bd81966116; 0x4ef02cc2a90e1fd7; 0x4b11997e5ecf06c4; 0x34c2c73284d934f6; 0x1a15690715281703; 0x755a597d73ca57e5; 0x64f40c265958166b; 0x67ffd1ee88abbb5e; 0x6622cd38e0c78741; 0x72f88e6bdb7dcca4; 0x26f20c96308d1dfb; 0x527b78bd9e9c0b05; 0x5e886085239b610a; 0x33018ae95ddab4dd; 0x63236936d73b801d; 0x14dbd3896f4f442; 0x42d2fad1e2c77a83; 0x1f8744e4f58b23a5; 0xcbc5eaae129a7cc; 0x58544f53f985922d; 0x42e5110c095280c2; 0x7cff58648e9f608e; 0x2738d09f9fb1382; 0x15e02c9bb82db480; 0x6876ee16014a18f1; 0x14099b6b0d6679ff; 0x40336cdd4c3c5bcd; 0x3a0d9f6b80999b64; 0x1ead2cec135c4274; 0x55088bb709b3251; 0x3b8ab44bf3aac51e; 0x7e4ce17a578964fa; 0x50db5d9b90cbc2c4; 0x7ffa079fa5f85038; 0x1c7c8c04e59174d9; 0x79a89dbc67122024; 0x5a63f0e30cd22e5; 0x6c93cb0ea13c022c; 0x2274d769cc9fed2c; 0x172f1262e8a720d0; 0x198111193c6c4376; 0x1aec1e27c8f769cb; 0x41d1b0ff6b53d625; 0x700f7e70ecbfd0a2; 0x63622f19eb067fec; 0x4002f648d91c536c; 0x1c79c6db20bbdb14; 0x4953d93c4927f6da; 0x3185a2b938118789; 0x4712d01722143772; 0x320edcb1a2b57e53; 0x5930cf77115bcf3f; 0x2417b502025d8905; 0x79360e9a50166776; 0x7c712a171ffd0fdb; 0x2c24bcb3ba3adfea; 0x39556b1946255c60; 0x710dea03c4406cd4; 0x6140e9a990c6ec83; 0x3f04ef68d9e52ee9; 0x4f93bc4aa0c419f8; 0x3e5bba7c3509c242; 0x44a4fbed3d29a895; 0x725226bf2d3f4476; 0x16f37561a117ace1; 0x50667188be35861d; 0x2934f533c952baab; 0x3d518c43d574c952; 0x4041173ed2ef6898; 0x4471858f9d19f454; 0x6034fb6db6d73f64; 0x48b0873a5e9dded2; 0x1be9927aeb73d602; 0x752a610e5f2adfda; 0x745e604b06453259; 0x68dadfb120c15da0; 0x325b55791cf8b6fb; 0x7d0af323b9d6e9df; 0x71fad19bd6786673; 0xffba39b95d478f; 0x27e431510f517d02; 0x21e973];
   [0x1c1e4b39bbd5996a; 0x650580320e6fe23d; 0x5a4e9808ca080766; 0x7b5887e3e5e60575; 0x5f0d4fee968be567; 0x16952eff62821928; 0x3f800ed3dc134583; 0x5e115e2382732d16; 0x30f333efa4c26009; 0x6b549d65a6b8f113; 0x92872e143dc3031; 0xa883efe183ced4b; 0x5d33e2c65873a968; 0x7b9b33272dfa750e; 0x7adf25a17c30d411; 0x493436b6c0cda994; 0x6caa49c93cce865d; 0x5e806e6e05e7984a; 0x2e5c7568747403c3; 0x1aa3edcb6e52069; 0x11d64b3dcf9b924c; 0xc66ee151c30cec8; 0x57c8630c757ed8b0; 0x51cb1971c3e616ab; 0x2adecfa4f2a1ca7f; 0x2846d3e1800cb9bb; 0x6b739884e8294945; 0x3f43e4c7f42009ee; 0x11fdf1a06ab70505; 0x5added63302b78ec; 0x6cd8d6ee440c763d; 0xadff088d92055da; 0x791d7d32298fc046; 0x68cfacad2013be85; 0xc96335680917490; 0x150bcbebcadfbe; 0x1f143bbba82e178d; 0x5dfe103b5950c952; 0x5a5f51724b5a6ff4; 0x5258ea0e7c357e52; 0x439845f12f09dc0e; 0x1964cd0bd8d9654b; 0x629659bcaefaf7ce; 0x4e987b2e91c59d59; 0x3b22912eda24d852; 0x5e2dfa661dbc904c; 0x2964ad8378c504c2; 0x4a15924248537b48; 0xd8d7ea955ecb1ce; 0x6bb865918e731da6; 0x6ea4f63744032d09; 0x769cb462dff38c30; 0x124e33297ddf525b; 0x6c043c2a2578f804; 0x3196a5def150820b; 0x3e5745ebfd3db66f; 0x16afe26b436da7b7; 0x7fdd56ebdbdeb0c3; 0x5d024526eacae733; 0x38907c8e5ff6b946; 0x55ae4327d9e2087f; 0x59b415812e6f76bc; 0x7b6972568f362d29; 0xc914a7adb46c27; 0x7debf3715e59d8b7; 0x409b85299dec6853; 0xaac1f5dd88d35b5; 0x37e6cee44469ee90; 0x3968a3751ff7086d; 0x1083c5173bb32fc9; 0x4122877a8d6f7dd0; 0x27b3e3ae42828bb; 0x2f6f8738abc15a77; 0x50bf99a2a00ee32f; 0xecc76001454c1a4; 0x61f8b7a611cd601a; 0x6162ea97c72131ce; 0x27f68bfa96617fe2; 0x2e9ff4e06873605d; 0x77586b05e1b31180; 0x25daa8dce0c5d44b; 0xfd2b97d6c640020; 0x40f2f4bfb3c72b8; 0x6530a9a30f83fe7b; 0x64bc39e36980ca44; 0x5e12f05b2bd668ec; 0x6d035fc6f057d07e; 0x5778d63519b88d90; 0x15ab38576f23f24a; 0x5f2a718e49109bf7; 0x15ef8af6a54b9d03; 0xc105a543ee357e8; 0x5f3b2d008e460f45; 0x441b1b7db2284ea5; 0x5a13a6d53d7d46a4; 0x28494fc1b159c48b; 0x415c203a93f6bf28; 0xb0445378530cdab; 0x61eaf8119ca5ce16; 0x54e4e50715626266; 0x232efa0632900b82; 0x295c7bb68a8aa68f; 0x4ab52adb399e3ac4; 0x68c992be0603d3a6; 0x6961984f4f1090f1; 0x43792351df9b2ad4; 0x48bff3c40330d243; 0x5cbb63549fa559a5; 0x1d97535c0e64071b; 0x14faca6b39f8f6d4; 0x3fb6f618da610fa7; 0x619bddeaf988dc11; 0x1a6285b712561824; 0x5f9c785a3c53d8ee; 0x50a53b0dc86792f8; 0x946383295e7405f; 0x45a156b6eeb05ce2; 0x5e52b681c8f41ddb; 0x311fb979260c1c28; 0x2b1b148dc53e22c; 0x11739495c24a84c3; 0x1a0915b3ca8357e7; 0x53e7585159d4cb5; 0x79c050b02b71e216; 0x58eabdcb7f772a92; 0x6dcef888f40af2b9; 0x1c3773e08572c192; 0x2ded0a059798f670; 0x1617135f4f3a81b0; 0x4c1a9e21d125ae66; 0x5afb1f24b7fc5611; 0x2a44d07db5cdae7f; 0x7f3a72a212c6f5f3; 0x62a22ebb286ae4d; 0x6caab5ac04dc759c; 0x22e6bcdcca43b4a3; 0x34d342744808154c; 0x11a9307a5ca4e380; 0x2a9d887170a4e04e; 0x567554814b7e9d08; 0x699019a2da4c2646; 0x3d97f6e8697248f1; 0x58d483b262246fbe; 0x275c2e46abfbd4d2; 0x1b3210e6bee8a9cb; 0x24004eb2e2abe2d2; 0x1f82439d8d54dfc2; 0x3a59f5cdcef9a706; 0x2a236abf0fc5400e; 0x1aa307a6b1aea3a; 0x1cb693b4600c44f9; 0x7a6a3105fde3a243; 0x2ba44cfdee4a8f07; 0x28c52327d9d37a12; 0x7f2ad7833b929434; 0x2aa2381ba5389139; 0x4eb0f9dfafc46f6c; 0x57b276aeb4565849; 0x2a705cb172ad755a; 0x619420464a14c768; 0x2a288d5d57f4febe; 0x17eecaa1f043f0f0; 0x607ffabddeb7a73a; 0x3030541f205faad7; 0x4382b73ac5c45e45; 0x462ee437c020329d; 0x4c4e35159468c0fa; 0x34bc60a7166230db; 0x56bb63d97017b1a7; 0x7a95bace1486d3ca; 0x599ccfe73ee75d53; 0x667ec16811038bf6; 0x1df08531dbb24ae7; 0x1156f4e502cc28af; 0x33db42ab4217afbf; 0x6ac9c0abea5df828; 0x3af29325af080ddf; 0x102d96b1985d6b8d; 0x4422ee4996004e32; 0x593baf12e8e1bbf7; 0x2c1f00a6c5ca8b64; 0xcf32a4c0e827cfb; 0x14af5f78889d349b; 0x2cc3cb6b3f4c40ee; 0x32f15a7fc1e3b084; 0x182a9ee4884f2626; 0x24ce6641b94050d; 0x34d37b5fd78428f1; 0x6b28dfa4177ab173; 0x155f3964eb47b8bc; 0xd8c7381a7e85b75; 0x7f11d0a52acd4e87; 0x2d0aa5277d36a7a4; 0x7e0ac7cfd17f1f84; 0x7d887aa0b5cac563; 0x10400e57f7481737; 0x3610b2d915889df3; 0x529e51177de1d868; 0x7d58932479341e4b; 0x3683c6d37a072000; 0x51eb32f1612f3747; 0x7a1fc45bbb449658; 0x2546246073e1eb3f; 0x2e79db920dd8004a; 0x79278cc78cd49936; 0x3965d5a2e1e1dc4b; 0x4705903f4b25990c; 0x1160fafb159a150; 0x3e6c8dd97654bcad; 0x23dfc57b49e63e1c; 0xdbf6cf2fba92089; 0x577b78af1126b5a7; 0x18e40bcb4e0cd66b; 0x5f06577ac1e05e49; 0x426829135a1201fb; 0x13fda67d062bab57; 0x6067f289d4194ae1; 0x1c6e0b7e47889c34; 0x390f76a968753ed6; 0x1b9f3c0a55973d69; 0x7b433fdc0583b44f; 0x62207831479996ca; 0x34040a8c8666c63e; 0x613bc521ac9119ba; 0x31076e01d7688148; 0x62466147351ded8a; 0x37f613f762290cc4; 0x222863057f689495; 0x485bd0c71cabdd34; 0x22541a6ff48c5799; 0x317b6c35d2a9b641; 0x47c6053a875f5338; 0x390cce3b188223e9; 0x2b2ffc575d485c78; 0x2fa48d84bdaee6e3; 0x7ab18b174132aabf; 0x457b24642479b042; 0x4cd2f50076b9f45c; 0x7700b6259ec7c94d; 0x6281d6c5f5f553e2; 0x1fa03a769e69a74b; 0x2212bbce3ea4e5b0; 0x62697c85340aa05e; 0x7d5a3c3a471b77e; 0x45b09347ca941e6; 0x35ed0c175605aea3; 0x1542e373d8868ec6; 0x2f7ac1d851d9802d; 0xbd4e07edc880c7f; 0x7fe9f0ded791b625; 0xbaea37733732ee7; 0x619d628828d7b90f; 0x5bbce3d219dff51d; 0x1d485a90be41b952; 0x3da4a83090b2bdbb; 0x311f3448e7f472a3; 0x1369759eec42be12; 0x3904a97bd9122022; 0x32592c986e902c64; 0x49f41afa7b51bd27; 0x571832d0e8fb8cda; 0x266919ed054407f4; 0x7f7fd6acdc365393; 0x43255a6bc058e2ee; 0x60b1a11a4a4524f; 0x46bdc1ff30df628e; 0x475e54e7d68213b4; 0x79752f9498e4c09d; 0x5fed05dbffaefa0b; 0x6eee8f6f2ef579e5; 0x636cd38a0e56fe56; 0x13dda16888164a39; 0x4cbf38af2f9b712f; 0x19d25eba957a38c5; 0x2aec4c8cee153e96; 0x5fe068a15324fd49; 0xfeb0b4281832865; 0x5907f1db12d58850; 0x16aed8049a5d9427; 0x6fe682d34cc7fb80; 0x314c95cff99436aa; 0x574a1a6b7fc92be5; 0x3f19c74000fb755f; 0x535e9d52ab175c35; 0x2a8da683ffad0ed0; 0x7b4c20731d531f7f; 0x1ce1b0b8edded778; 0x6c9b4329566a3bba; 0x31e13a0526c14a78; 0x7308ebf4dfff00e; 0x21d0265bb4155894; 0x18f7c7be3b5286d0; 0x6734adccae6dfae1; 0x46df81625d0dea40; 0x604ab3a1f83ebed3; 0x19753951492d2737; 0x6387088a22d39e7; 0x445b360ed22ffd12; 0x74c0ca6e15a5dabb; 0x3324a9fde231e43e; 0x339bd54916ef34f1; 0x15ca8510ba37ca84; 0x622236e9ddc4cc8e; 0x6c7953cf8daf9f7e; 0x147adb50185ab612; 0x18e6652c8c71545a; 0x22ee4bcbb2f1917e; 0x3e78f15ee50a4410; 0x666426147356aa9; 0x5c67b7eb56f3823c; 0x23109535db4476c0; 0x322f1dc42c35afde; 0x6b4ab6ddd326cbb2; 0xe3fe7a75e82a9cd; 0x291c8cea0a12a31d; 0x19965d53cb6e17e1; 0xd4061d9dfb927c5; 0x3abe39];
   [0x5512d2932aaf8e00; 0x6bf6798fc11320bd; 0x1a41979313b7aa8f; 0x5fa15a0d2577b365; 0x2aa834163b0eb0f8; 0x4807e2312ea98cf2; 0x66ef8d1ad196dc34; 0x696507eee2d6488f; 0x7b13a61873c70729; 0x4dd4fffd04d4ce46; 0x70a3b5c5db82afa3; 0x28f8d6497db71fd4; 0x73ecfc7681533f61; 0xb4254c5b4d5785a; 0x31ee7049cb87726f; 0x53dabe60f70a7cf6; 0x7263cd2a370f809e; 0x3a3e1f6ec3f6b6a9; 0x6dcd4a3b63900d98; 0x507055d324a50b4f; 0x6fe5e33050066bc9; 0x644187288f549f90; 0x547975d5e895ccdf; 0x3be6b7bf46511412; 0x12aee76e048faaf5; 0x2ce6a6184955b8bf; 0x46c03568cd260027; 0x1d70e085ba801369; 0x26b138fab34d4d31; 0x3293add50f622bc9; 0x64e3c2dc1783e7da; 0x469fd09dd6281008; 0x6df41e5f852c9524; 0x54375aefceef6daa; 0x3bf4c2b072362532; 0x56a6b122bf276ee4; 0x4ed1d3d63ca8aec4; 0x10463a6bb3032653; 0x5d5b6fe51060803f; 0x7796699db962d90a; 0x287e05bdcd01236f; 0x58224e5e64c74ac2; 0x4bba490ab6b9ba21; 0x2fb8a1b619a4e25a; 0x7b87fae5f9b5557e; 0x5670df359f08e105; 0x6a0226f387f9e8f9; 0x535fc7640be3236c; 0x53b130baa00e0364; 0x746eff5bda5e8e31; 0x6e428950c97fe0f1; 0x7621df1da189ce9b; 0x1ff895251d6aa73; 0x45a20835a9542cc6; 0x1f749208fca26595; 0x116f6b7f7e6908e7; 0x4e251eadf13271c8; 0x45f8e2ea12247de9; 0x136922159e559155; 0x5cff6e211861d4bf; 0x74c1e9271e386bb0; 0x653e6a6d1d6d67c7; 0x7d1811d9417d27fd; 0x7547663bd10bd101; 0x7fa43f94bc7e0af2; 0x65f8fedba8b0fcc7; 0x121083b36b5fddf9; 0x6efa96956838b22d; 0x7e8e63303d43b72a; 0x6107f4cdb3eff3a2; 0x4ad8fe462d0d8fb; 0x5b24549503aff240; 0x887595927991236; 0x6d23b9be63c89a4b; 0x624f1fc1a2d6c48d; 0x297610a979440964; 0x978e90726bb0b1b; 0x5630478c95f41efa; 0x5486a11b2f4f4bdd; 0x7890078f4d3d71c2; 0x6f99f8ae61e1bd1d; 0x178ec7d6b465dff3; 0x4e9b310c835c1325; 0x11b42d5e08ea5bb1; 0x3d2b2fad8e31f300; 0x773280fb830e9c58; 0x5182bcadea1de9bd; 0x606608eb7b584198; 0x72b3feffae807954; 0x6ee611b735d69c17; 0x60d092f85d1ffe32; 0x7e1beca92dc129a6; 0x3e59c0a1826858b2; 0x3c5a695860b31cd6; 0x551c42ec0a0faa2e; 0x3336080451dfade6; 0x6516b5ab02e4745d; 0x25460c9764961771; 0x2a7263fa2a50b8e3; 0x6cbc174ee3e97f1f; 0x3dc7d490dc88f15a; 0x43ceefddd8fc412; 0x27ab304847f79067; 0x65d4db9b0a12597f; 0x20146c329af59b54; 0x1fb8787cb0a78d69; 0x23b6abe73e1f7e0c; 0x71d487d4cc4574a6; 0x56a370836822b78; 0x44f2535d8b677ac; 0xb92f2d961d494da; 0x1b5e0cba66963906; 0x5ff1afd698b8469b; 0x5338f427f0106b2e; 0xbc7141a00d35b51; 0x57e1676811e68f60; 0x49c1161c0c23202; 0x35ee64b8ff6f96c8; 0x2d7b2a5f9700c757; 0x85f8f149436ee59; 0x45d60e8a57d99527; 0x7c56397e2c10a816; 0x138b3eecf2c66f4d; 0x41999bac05275cc4; 0x43859084a0688e3f; 0x53ef910fb540cea1; 0x7863a68ce5e3326f; 0xf514fff1603900c; 0x50f744f5509953b1; 0xaf47b64da04c72e; 0x3bd87620caa5a4ee; 0xe6eeb3fc4b964a7; 0x49040763ef36b9d6; 0x7f93ea822a57170a; 0xbad384f39728fe9; 0x25af30ecdf4b1d20; 0x5fe361300fbf0005; 0xd3dff7e68ad8299; 0x7eb2f924f623de1; 0x44f51d3e29eb70f8; 0x36edc1e8b0a8ce90; 0x1ada84139cc7f6f2; 0x1c5f08a5171739ba; 0x502303db32bdef6e; 0x13288ca3ca119ec5; 0x6afcb5719eaca710; 0x7a04f8e7ba58146f; 0x62fcf9c948e8a97a; 0x5bfc218e61605a35; 0x656155879bcd66ae; 0x2e0723a3dba0ba4e; 0x1680a506cd110c35; 0x5f43496218bb2cbe; 0x4165d398d98f90ed; 0xe3e003289902ff8; 0x6df8487193ba9f9c; 0x4d5c4b63fb20820d; 0x40f1ce45dfc55682; 0x74e238e840235197; 0x62db6adc4c290d1c; 0x7dd309bab33e4917; 0x8ec0ec559c62ba; 0x4b8d42c1bded746b; 0x6acfa70023656afc; 0x47ac34adbf5a51c8; 0x400a6f48f7f3d2a7; 0xa2e0cdde7f99176; 0x338efe919f9fbf18; 0x41197a2d57338b6c; 0x39a6313d1813bf79; 0x46e99126fabe88cb; 0x31aa6bbfbea214d; 0x2c6ab337a93e32d7; 0x10e8339fb0ea7e18; 0x776657dfe12cc97e; 0x7197c993c2bedd93; 0x6667cf6f4f6098d0; 0xac5c2fc774ae092; 0x1f58cee19b8cf6ef; 0x4f131eba5c46c602; 0x463bcf5a833e9986; 0x2a530e3e168e88ea; 0x670b425ee64e7180; 0x42472b549a3db7b5; 0x4d68e78d96cbff7e; 0x28d1234ed628d9f2; 0x5b5999610c950f7b; 0x2cd24bd104895a01; 0x1af53112c86b367a; 0x65fe5e932c3c1bf8; 0x4c03dbc71b3653a1; 0x3e42b4abc121235d; 0x2066767ae60016c7; 0x1c3e1e1b34a15bdf; 0x3e1dbdf6cc9e3e09; 0x119f02226d390a51; 0x7be4407fceaa1520; 0x551a61e04d360227; 0x24b415ae774a0746; 0x4259a7ac925dcba8; 0x7b7f3552a8c64acc; 0x16cd802c3c4ecb24; 0xa6108a039b4f25b; 0x12ac994a7324479e; 0x23345171f1f9a532; 0x732a0557a07eedac; 0x1d50d57be27b4089; 0x64c2e225360e5a00; 0x559a8670765813f5; 0x59ed4193a7be6641; 0x7aed0f24795796d; 0x53d3f388902f5f62; 0x3f0d098b68deb1eb; 0x5e0e7ef6233d7f0e; 0x381acadee8aea887; 0x155114c6c7a1cd46; 0x40dbe1305c4c2b37; 0x5f70adb572ba441; 0x52135de90df68ed6; 0x2353a328422977fb; 0x452fd8733ffc26bd; 0x67728c1e659d7694; 0x68b2b6278468aaa2; 0x13c723962573eea5; 0x124619afdab86eb; 0x12e9322f72913557; 0x7370cd65bd59a207; 0x510f24a8863104dc; 0x3d221544e83baa95; 0x4b13ab417e01937b; 0x6b4f074675f364d8; 0x3bb8258c9fa40858; 0x369ca0d10e687db8; 0x56bcb5cca77a7778; 0x331a247959eebc63; 0x3586e2f513455d37; 0x16e948a199a25704; 0x3f1afd64f486be46; 0x2d5e94eaa8496094; 0x402ea902d6f20899; 0x3a9f1aed83cac1ad; 0x616abd1f45ee80d1; 0x4a252299684b7a5a; 0x5b5ad50c82fa31f8; 0x3e6655957a2879d4; 0x48511ab6dd7a3194; 0x7eee7cec6f0779a8; 0xe499623d80fac81; 0x44e5258380e5e687; 0x453fa869f7a55675; 0x424ecbcda697d00f; 0x5d59d316e98208a0; 0x45b817b181ff998; 0x1202fda4fc946c0b; 0x4d924c1b43c3ee8; 0x121657e5e0216624; 0x20340e922dac48bd; 0x12c8a66bbb894b8c; 0x55a28b89ef9b76a0; 0x5d7996cf042180eb; 0x60f74164417792d3; 0x1fd170e3455c7140; 0x50f1e608a0f29bf5; 0x73b8a6b6ada164e8; 0x5fd34899348f464a; 0x309b1a46621cf171; 0x5dee345584ddf4b9; 0x3b4db072196c37f4; 0x3d8b839c1b44ec4; 0x4efacd8978cf682a; 0x445f8422d6d4b9a5; 0x65cd7d5f5e456e65; 0x255adfbd5f6b548; 0x456752ce5d2e279; 0x33bf2cba47096cc6; 0xf6d531d07ad73cd; 0x6270ee5fb09f1b4c; 0x3e9462043c3922fd; 0x71a1c8a9d8e5d741; 0x3b4c4f29e2f1e68; 0x7d0342f6e4050812; 0x2b746b011243861e; 0x51970fe9e221f516; 0xcaf68c4cf738a02; 0x70d3e438cf570e91; 0x1449e81311735dc4; 0xc5d3ac388e8e407; 0x8ed864dc9524b5f; 0x2fa5000c9d52e586; 0x5b3732173620fb3a; 0x43775d1380df3698; 0x773683a318f878a1; 0x152285d2a8c09110; 0x330f098b89d9f751; 0x343f6e76735cb05b; 0x241e15d0924ba57c; 0x566695915ced3cbc; 0xcb631989433966d; 0x4f1a67cb67d62ade; 0x5b5978bfe50de461; 0xa32004101351c1e; 0xecf75171cfacc34; 0x417290e377cfd616; 0x5a523ea7174e3abf; 0x14b2d3e18bbe13f1; 0x15c2b50866a35efb; 0x57700d14c5d6ae78; 0x2c67a457cbd68ed7; 0x6dcdb6f7f743c382; 0x186bb550c46bb121; 0x6414e0330758430a; 0x6d4cdb925d4b9dfa; 0x5fa2df3480059368; 0x148f2c3e89396c61; 0x6d61fab6624f5971; 0x2dfce673b8085ad7; 0x1332779930d2f103; 0xd4499];
   [0x6188f07b81861d3b; 0x76a8fe8cd9b1325b; 0x73575149a33e7976; 0x5267dc316e6cedc4; 0x6981c42e5a3a2402; 0x6f6310041b486786; 0x75dad4bf05c63ab5; 0x25e57b741e1bf0e5; 0x47ac3570fb9b588b; 0x237d09d6fcfb70b9; 0x2202dc6c2524d4a6; 0x4fc83ac76962cd72; 0x7f62ff7db2e30157; 0x7d36ea9a643c8223; 0x28755ca25a5c7e4d; 0x33f4bebc258f273c; 0x1a281661782d8413; 0x1f0d87468bfa766a; 0x64c88d9d239a9e4b; 0x1fd38ddb2cdb24a1; 0x519e1a3eb6cebffb; 0x30b9a29c8475f963; 0x3753a497740a3f85; 0x236dee8e1f4d95d; 0x25aa5afbb59f3346; 0x721a2b524991de3b; 0x743bd2b1881c5f66; 0x27873625f032afc5; 0x4a9eb5e146ead91b; 0x137add1631965424; 0x242826e517c313d; 0x39a2844c44e9de4d; 0x531cb1719ae42041; 0x78b7add850bffcb2; 0x45ad76885770e790; 0x51a7e00c4d0a7196; 0x58a944964ef735ad; 0x302351b7811031b0; 0x71ce085578a7c027; 0x76df7ef11d62c3d; 0x9c8b023d15bd0df; 0x42fb887ec96bd249; 0x12d9c4796776c672; 0xe3e232105d8fc43; 0x879be7530a1f612; 0x626fb944d153d5e1; 0x328f50e0c80e976b; 0x419325712ab28956; 0x7a7a732e12b3469b; 0x70460b4153aef65f; 0x31785b92d59f283f; 0x3e285125731293be; 0x3b426137f3975be5; 0x2df9261bf94a09f0; 0x7475671a77bc303f; 0x691dc88d1a31149d; 0x7f1d1ff3dfd3f2c0; 0x22eee359e2fc2af0; 0x4c09aa13895feb9; 0x72534445128216db; 0x1c770c211ebbd348; 0x4f79ac4c2214bbc; 0x7916b804a2be731; 0x4fa771ac22505879; 0x3fc2027544eabb3; 0x5e506e89090d090f; 0x402cb6419eeafb7e; 0x594f4fedfda8753c; 0xac69fb6e1e92c57; 0x3d13739814e6edf8; 0x4fc6617b6dd14074; 0x77365267b12d00e0; 0xde83aeddc20bd19; 0x4591a2dcab93139a; 0x64dd2ccb9a77e48f; 0x4887c35cd3bd0712; 0x67a49194d64e746; 0x5ab09a99232d7df2; 0x1d7cfa94ce7e21a7; 0x1be8b7ff9efb42d3; 0x4347ff3612435b5b; 0x151fcefa6903f0ac; 0x5e411b4a6a0acdd0; 0x17e8c86f54691dba; 0x136088b824104b87; 0x6145bbce0a5ef406; 0x1bd4b88845ae907a; 0x31c467c8cc5ca7f6; 0x22bd54982c41c105; 0x209e8155d5eeaac1; 0x68a5d995f1b5457c; 0x8334f013fadef27; 0x70ef69942583eda0; 0x70d9668319eafb5f; 0x7f668f498c5c2dbe; 0xefd865af93682b4; 0x3b0f9f9a893649f3; 0xb4b4038f4eb2628; 0x5ab0d0bd1db07e8e; 0x5533ec09098d206f; 0x203b763ec378c45f; 0x58184e24b13750e1; 0x71c169152d3a7e3d; 0x30ebf5605437507a; 0x1843c46e74452180; 0x7cc671af04bef1d6; 0x4dd15a254be8f8fc; 0x2e3b76e39c138a9c; 0x49843331682f3450; 0x71ca7d853b30ca99; 0x49f9c2380610e54; 0x46216f2cfa04496; 0xd38783b78f5d082; 0xb015dbac2a2dadb; 0x29d4c2c7a32b636c; 0x353af8188b89b10c; 0x57d81e05cff43ace; 0x3e31223900587f56; 0x44fcec2e8456ef70; 0x6116529b29d05579; 0x4b69b59d1bb53b15; 0x2640933d35beb83b; 0x2c2ff99dcfe5a9fc; 0x5aa1f38fb0654490; 0x112b6834adba5870; 0x57654cedaa275def; 0x6adc6128a2c6a7eb; 0x21dbb8ef80319b55; 0xf27457e2498fb8d; 0xc6b4d3ed77c4407; 0x616d5e20e4682bc9; 0x78617491ddbac913; 0x30b9a04b89af9bef; 0x74b583bce37727ba; 0x1d74da238ebf5d77; 0x6ca72a63f3483979; 0x72561ae9c6f2de1a; 0x6627344ae293b84a; 0x19d87879c33e269; 0x3b1431e3da402d36; 0x286192f91ec704ef; 0x252d0eafe7961de3; 0x6d9c779aedd99e59; 0x1a2ef5342e2e9a8b; 0x332cac86608f7ca7; 0x19bd54e3a25cb809; 0x15cdce79537dc80b; 0x56c992f95d16d6a6; 0x225e7b7095f05f76; 0x3d0cbb7989722232; 0x624dafc48136c02c; 0x6ca9bd43f7fae1a; 0x163aa96216c892cd; 0x70ae8b5591f84be4; 0x1743eaa12b72f1d4; 0xdadea4f8839b099; 0x6e15fc25cedbfeb2; 0x4ede34a38ac52e79; 0x3da6d6e0a1cc22e4; 0x4a9520e760f5e638; 0x7cdaf65a0112acde; 0x297dc16c7efe3ea7; 0x1a90c52dc6e2b049; 0x3dedcb7315f6ae2c; 0x750c8083f6cfcce8; 0x4bf18f464a1c9c5e; 0x797e2cd4517e2702; 0x74fd522c4aa4fe3c; 0x7ca767ec0b06b86f; 0xdf0dd503ff6d98f; 0x1fcf99557d1a60c5; 0x2fa7c82dbc23f0c8; 0x5d589a877c486d3a; 0x6131d43d82f85ad8; 0x560f412e150a555c; 0x35570f2c75bc40; 0xf3cd29c27345e47; 0xc0778438a0bdfa4; 0x5539882b8da4588f; 0x61c30ee59043efda; 0x1f71e53328e75ff8; 0x39b0b7ece726e506; 0x5d8592eb8d8e82eb; 0x21fbf2c453b5c0b6; 0x1a22a99f472cd195; 0x7eb96a408cf85699; 0x4c81e71548ba6480; 0x2b1b8d7f974d828c; 0x7456f64ef3486685; 0x67d9eeea39d77560; 0x49cf80ba277ec17f; 0x4f4b6bea72ec961a; 0x3f7988d8c1a5dc6c; 0x15d16543633cca45; 0x383f024313e9d127; 0x2e8c7a4558ee688a; 0x1ddacbc3cb67ba6f; 0x5585b405a1a43318; 0x48e093f072fcfaee; 0x217463478bc3898a; 0x4d286b95fc070a64; 0x4b3f0cf4ff02233d; 0xe4df8293c92eff; 0x5d604ff3b29fa8a2; 0x1caf87e617d9a5ac; 0x3d26d7a2073199da; 0x609f8950c1fb96ad; 0x266b0f4155178f61; 0xce9c5189241c4cd; 0x4c177d855fb6f1f5; 0x1934325c185eb3bf; 0x5278e37c5c3d72fe; 0x579689e0ae2e6079; 0x31ecb03936ada9e5; 0x49864aae399dd0a0; 0x6d8ee8e6d1309da9; 0x701b50931280f5bc; 0x4bcd246ee0822261; 0x6e842d17b28b898b; 0x7273f133bcade9c0; 0x6b72366ca0201181; 0x54fba00d68640307; 0x5e0ae4c00964b111; 0x2ee6115841bf1ff2; 0x691e0c2be651d9d6; 0x2cd13b758e622e50; 0x2c327315bada9e1a; 0x6e8f5a3b1002bf9b; 0x1a71006ef9fcefd8; 0x27bf54ab4cbab884; 0x69e685dd4cd48bce; 0x4756349feb7e153; 0x670b83d98abd8e30; 0x1a503c1e8f7600a; 0x6b35c3dc0a2e4118; 0xeaae93848bc1b49; 0x144b27dbb18bc951; 0x71aa556c5419cb7; 0x75784d51118962fb; 0x555cb1d61efa5427; 0x27be0346c0fb488b; 0x3d554b3fe17a1d55; 0x1fd8089f4c3114a4; 0x5fe40e4c8936db68; 0x37d6ae4aa5d79392; 0x579fa26aa797f0ba; 0x43eb4a4f6cd7031d; 0x20273b9e1e1d10c3; 0x48c7c69869390cc7; 0x5790a50ff53d910b; 0x3a5af7eedb31401a; 0x7cb548b95b1bef49; 0x5afd2519baddd0ce; 0x682f854bd7f3bb3d; 0x7a6b96e43d267af9; 0x76cb6b5f5f31c6bc; 0x5d6d1cde718629e5; 0x4524348ad1d89215; 0x7a53d416ad81bbbe; 0x24c181c788a2e16a; 0xc90e346aebf130f; 0x2607a4915298902c; 0x68762ec31672003c; 0x5e5299435390dfad; 0x2e65d51ff9151a21; 0x1c0c737266d263cd; 0x49ffba4cc19a4940; 0x5a0d4a4d4e14b014; 0x254b96ebe342c762; 0x6fe00f655d89d76; 0x60300f2f390a68ce; 0x3411a69c25444cd2; 0x20c595c1b7a8009b; 0x93c1389a57eba51; 0x122e0066a195db07; 0x429364145e172a3b; 0x6af42bf01abbf0f9; 0x3d22253223bb688; 0x67053368af389911; 0x38131ad6144b076c; 0x4ee4315fd9ffbfb2; 0x7b57323933acb8ef; 0x564e6333bf151dbc; 0xd70cf6fb60a0479; 0x1f9314300d4bd3a2; 0x3465d877d2db3535; 0x13d159666f6720fd; 0x3ba6fc00d550b9e8; 0x4c7e91095c369c6b; 0x22986265633e831; 0x14a9035ee4a73de6; 0x3153838fead4dbff; 0x51cc99c1e9f49a99; 0x1f7a64b128b3cc50; 0x294bb4b7cd6024b; 0x6f1a74f3538cc73b; 0x6c365453d6574b0a; 0x2a51f4234cc3c894; 0x735a621172220ca6; 0x8d0ae9b4243aab5; 0x73424ed02618e622; 0x182748090015e982; 0x5085ba2f112f1f9b; 0x4d0db449e1b252d7; 0x15048881f463ea9; 0x5aec2996abc9f420; 0x456705f7571921db; 0x7dc4cb13cb68e182; 0x18a7f6153c364b6e; 0x31a943b007534783; 0x147061f9c0531f88; 0x42f2064e8b204f44; 0x51f2c4dc2836bca5; 0x5dbcfa57b89e70d6; 0x7310f3a8758fcf6d; 0x3e814e962c6be7a; 0x69bece8fa2274d6; 0x2b563c];
   [0x440f078527f5367b; 0x5ddbaaa14d611c2a; 0x6e46164f73059c54; 0x3111d828f93501ee; 0x110dedb9000c80cd; 0x5f256d7202031d28; 0x26ce5417f3593925; 0x3fa6b2d8795d3ab1; 0x60272b2b69a317cb; 0xcde5c78739c1826; 0x79724eab634aa264; 0x38f56cea19154b70; 0x174658ebc7bf7e27; 0x420de0831fb33715; 0x456c9032e324bb5a; 0x2570cf4477e7135e; 0x5eae735414c43c5e; 0x2651145fd232462c; 0x191d0767f0d906ae; 0x27612d960dc5b731; 0x444944bb8f91eeba; 0x769561176957d6ca; 0x532f18fc72a6f60d; 0x7fd5749ff914f7ad; 0x5bcc64298fed4800; 0x51e84b75b59fd9fa; 0x78a34f12b2d1c6f2; 0x3da5b5c034aeb30; 0x2b3ef235185cbcd3; 0x5fa90589a124bada; 0x503031c5bf4629e1; 0x532e5e2def15e781; 0xf637ee29175bd06; 0x4fefe067abfa3f1a; 0x4f6275e65bdf32f0; 0x6b82ce2144e1d10a; 0x3aaad9af02e1eb84; 0x54f34be1e0a5514; 0x490b49ab709d92d5; 0x3522ab3d2bab6b8b; 0xccb2634681fbda9; 0x426b299d5d666f29; 0x7dbcd017dbf202c5; 0x18b99db93689eed0; 0x1583669aff3d6e4c; 0x620104c160424883; 0x5026f17f54634e65; 0x65b66c6091587d1c; 0x471b5a1dd91cb68d; 0x5ef10f0e302f5c24; 0x5e6934802e46c8b; 0x78fbaa653eeb49e6; 0x6a1073b16e862abc; 0x19faac11515cb312; 0x1262f7c6d954a8ee; 0x105be959072b1ac1; 0x1eed96317460c3c1; 0x77c5039b6b8b0220; 0x11fe3ba3966421a1; 0x690341d73db4d1a3; 0x2203e98365ea1cf; 0x42985f85fbd679c1; 0x3385b81cdf199540; 0x20f6d018a50696da; 0x62a5c8ad7c9ba7d8; 0x74d92490d1218fde; 0x790cfc40ba7ff6a0; 0x439d164d29ffe0c0; 0x353f5fc3a2b984b0; 0x5f661713a9de0ae6; 0x14ce797e2d6541c6; 0x652c6e70da31213d; 0x1dcb66cbeb227955; 0x63068b1e60b9b69f; 0x751fec0a51a6f73e; 0x174252aeac2d9fd6; 0x26990489fb152c5d; 0x17dc79bbf42e1354; 0x57afb1a693465ba0; 0x518e446fecbdd063; 0x2c12132ad90bb760; 0x1d3895dac8d3a6a4; 0x76b4ad831688683d; 0x60ef54616c4b1928; 0x3b8e34932b5d0d2c; 0x76706d499cfda267; 0x2e232d51e343ee2d; 0x58d11799262bb2e2; 0x3426823c828a2cb2; 0xda403220d95c1e8; 0x220001cca21f8186; 0x72ca0f3726152ac5; 0x74a3fe0ecc0470c7; 0x5b417849dc2decac; 0x612f9e7f7fcca29e; 0x2c0f385024779d46; 0x313c0aec433da8e9; 0x3a1a0a429e8a01f; 0x496c6efa0f1107bc; 0x4d1c14e83e4a6edc; 0x5f28e13e6328e072; 0x12c23f9d9e894771; 0x499c469a1b9d2a3a; 0x2a3454c34956d4e9; 0x27e25c051036f6d6; 0x370040b0508eb8bb; 0x3641df5fd4460f48; 0x5d13e71076e0ab5b; 0x18855c0d50ed598b; 0x35fcee8cb9ee0211; 0x2e57842968387d77; 0x77f817c1178d10b2; 0x15038ab8093e8cd5; 0x602ee54feaf30024; 0x1cf83c7db55fbb40; 0x36a5dd66dd3be558; 0x4dce27a8318dd446; 0x3ed255e466b222f0; 0x167839b4dcc6b088; 0x757cba817ab6efb3; 0x22b8eaf3cbd55d45; 0x2c9bd40e47605f3d; 0x6228777646b5851b; 0x5f4d4b77a0be90fe; 0x30a24a357bf7f4ef; 0x1f95921015ea588f; 0xdcc9bda44da2571; 0x4ee3238b98fa80b5; 0x52004673ac96cd6; 0x4a59c673f8298fa9; 0x1aaae701b501dbd2; 0x32dd725bb27b7bff; 0x35b7577842ccda73; 0x73e238f7738ad537; 0x194634d2e69e3400; 0x31e209dfe5ee9e37; 0x7ce47b97e7e7f115; 0x2d5f2f502610c26f; 0x2923cfab9741b657; 0x5eef783ee3d32987; 0x7a0b9e58c19db0f2; 0x642f1d13633ff03a; 0x71e6cca18164f161; 0x13c503a9e639dba8; 0x39a2c2a90e04f54d; 0x51e4e246ee0a073a; 0x3006e2549ff5b5f6; 0x76253efc47f6e41f; 0x38cb20ea56eda703; 0x69794067637959f9; 0x2e402783adf5c9f2; 0x6603a036553443e0; 0x519d7782f6e3b6d; 0x4581746641ba185a; 0x5c84d1e96fd5e5e7; 0x6bdae5ca9fdd3bc9; 0x7d00fb9fd54ede03; 0x5cdf35f3225bb300; 0x5d45f888d586572a; 0x769142bacda5f1d2; 0x13613599c67c813d; 0x28e5d88a2cfa3837; 0x3afae0b5d5c4a9a1; 0x1dc2946bd41389ca; 0x6acfd0f549d7bbb9; 0x1b093bf8c49e5bb7; 0x24752387acc0984a; 0x1f4b4030e5bd8cad; 0x6a8498e6ae1b1f28; 0x8203ef34287e736; 0x5bbd0ecb0502cf79; 0x2b7bf9ba29a79986; 0x51f5e7848e58c2c2; 0x7fc9d68e685bb9aa; 0x569bcf830bf3a77b; 0x72a85383b5525977; 0x49b4a72578fd5506; 0x810eaa1718f7cfc; 0x34bdd6fe6d62137a; 0x11faf407fcff21c8; 0x62abcec9b3d01b74; 0x48ff5ae2098636dc; 0x11da2b1cc75ce48; 0xf020e7012ba97df; 0x65b8552aa8366a52; 0x71ad0607b0312d78; 0x78ad9cdf5f4498bd; 0x2f16a496f09a696b; 0x1d8b525c4f36bdfc; 0x1983be6837839dc5; 0x3ae6bc8229cef9f4; 0x3dfcd80788194746; 0x1b2eecd82732b4ad; 0x6ffe6434f667732c; 0x7eb11b5e69ae3ab8; 0x759c92be807a7690; 0x1c4f9d0603d519d3; 0x60cdbe2e19a63c5f; 0x16744eeaa5aa2fba; 0x425c36a1f4c47c5d; 0x2d94c3246eb2cfa6; 0x4a9282ae32f15f76; 0x2eb957026266a5b4; 0x746300a42a67b3d5; 0x1f542c44dcb75da9; 0x3f312769cc7a0307; 0x6d6943c938f84c5; 0x49ed702d63c2e43d; 0x1e23fc35419921d7; 0x7fd80027cd1b411b; 0x2d1ae039b24fcf52; 0xde768c0315ed044; 0x2706030e0170fae7; 0x50a9d43333854f71; 0x4ac35d27e02fc199; 0x8721fa260e96c6c; 0x252f5d56f2268a86; 0x4bd2e131bbc7bec9; 0x6ef480399b970c0a; 0x2f86823a1454908c; 0x7a9bac292741da68; 0x161358123be73435; 0xeefe8ea10ebee53; 0x6f2c42dae600de8b; 0xddf344847e30081; 0x90ffa6cbd3f576a; 0x2bc180b07d4ad820; 0xd1101f52c37dd2f; 0xc564b8e5ded1ee7; 0x1e68466f71e95e84; 0x7007d737d7ce4506; 0x3ef0d1ac342eaa47; 0xb5b19c2be22f8b5; 0x4f83e45909c7c123; 0x55795cf78a593b70; 0x4594f5999134714c; 0x7de3c0693df3f01c; 0x2b8116a825347128; 0x7ed1b7835b16a245; 0x560a1049d7a9fbc6; 0x504fb4cfee3df57c; 0x3e50a49a1cea59b5; 0x5f8f44e541128cb5; 0x2dbd4bd3cfef24e0; 0xd234a14ea68f462; 0x3d554d039b07b7a8; 0x105a581d999bd69; 0x1849bd31db90f2ee; 0x5324dd20f509c06e; 0x10c316f540abc677; 0x610e9753109014e6; 0x4f8d92ba14ff198c; 0x1955c0d4acfbe882; 0x78646e66ef4027a0; 0x5966cf3dabacb2a9; 0x272f4e5a42e4e13c; 0x7748010e82d367c2; 0x38af034b9fa04014; 0x740ed394f152ecf3; 0x3a22070ad27a446d; 0x145be213d45b315f; 0x596d6cdcdebe9ea1; 0x26d497c8a52bee2c; 0x3b4f13f2c07cff76; 0x46aba1ccac69f4e6; 0x2ff7302fd7cd0267; 0x7affc462fa29aca7; 0x3ccfd39980c77efc; 0x20616412be11e4ce; 0x20d1265baab39bba; 0x59d4dcd506e46ee0; 0x5f879f2265e585d7; 0x2c073905541f5d31; 0x2817fdc715ad164d; 0x49b46f9a30ab55c2; 0x56cfc2d756151df2; 0x7eb2148163062235; 0x4657dc2fc656fed8; 0x5f27094e8accd13d; 0x5c2b6d403186d641; 0x18e7e60c34bb73b7; 0x29eadb07c71b070a; 0x7f2a310bd3db50f1; 0x7e37c3db9a02b568; 0x5208333f344dfc1; 0x7c11f9a3246e2e3c; 0x310a76680b928683; 0x65694fa37633ab73; 0x5c3a00c6de1cfe3; 0x233d76b9b821c8ec; 0x72022fba47451042; 0x3b1b58475e5fc40d; 0x30502234331fcaa2; 0x53ad13599412190e; 0x4260fdda6d06dd51; 0x60fb2d0201bdf5e; 0x61c4398dd64b500; 0x4f3a918c1842375a; 0x12c3ab6161ec196b; 0x2cadd02fc7443908; 0x4b0171ebad27ce74; 0x5d19589e962b2287; 0x19a0a661d963327b; 0x45313a457ee12e8; 0x3a1fbeea77914400; 0x2ea4cb6474e6cbfa; 0x6757729279f09ed7; 0x5b65e65702a0fd7a; 0x353c76669b42635d; 0x5ed3897cb37aa508; 0x5e7a7bdfbe55771d; 0x56a5bc29a2010d48; 0x224ee204103dac7d; 0x677d7bd3691316af; 0x21973a38c7a3e299; 0x721d0f66393d211a; 0x2586fed963b758df; 0x604c8];
   [0x27ff6006d87f3210; 0x3e9d86f419abf437; 0x46c2400e9f38bb97; 0x91dc9754a16f76; 0x2e2116a64d4fd667; 0xcb4e92578d4f012; 0x5ca9769a90cfe27f; 0x255f2a09da2219a6; 0x754d731b29095b4b; 0x6e39cfa6053f3764; 0x4f5b8ddf28385eeb; 0x5a05f26cdfe19a69; 0xdc845920148d369; 0x6067de2d10d4d27; 0x6e21add4e112c68b; 0xbeb8831eafce11; 0x55506cc17734e36f; 0x764de0253dc714f3; 0x2d5da4eec943b48b; 0x6ecf427c243a578c; 0x53e3d7d4786841cb; 0x16a02e14147a6eb9; 0x2bc242b44c7c0891; 0x200bcd180cff6e6a; 0x4e2b57fb801a54b; 0x6cacca6354aebe3; 0x547624495f00ab96; 0x42316efae36762f4; 0x4e6a9aa5447f6d75; 0x23382abf8c36e6e1; 0x1faf79c61bd676fa; 0x736b0892a5d565a0; 0xe38ab0a1df37998; 0x6f77523b3141a71e; 0x244de4143f1d679c; 0x20a3a0aef7fb3ce1; 0x1fb9a4ccd1b5ba09; 0x1603b8e04e67a300; 0x4bd83e0741e85639; 0x3f2c3f20df6e4e11; 0x1f2c96208e6c0e1a; 0x7cbfe41581d7a538; 0x43b1d5bc4ab319ea; 0x1ec7657cdf44ab79; 0x3e64c29390bea253; 0x2d4918e18033915e; 0x1da032dfe5e7e50f; 0x414ab40992742363; 0x29b4a7e411c1aa32; 0x2ee7513a2243d3f9; 0x3fbdcd7b5e15c122; 0x3dd058deaba92a02; 0x43b8bfb82231bb83; 0xe072a59925e4f63; 0x12a15522283741ab; 0x6aa77247c702f6ca; 0x76f980ca955160e9; 0x7b76606ddacd5776; 0x1a656d58447f759c; 0x3ba65da724326d9e; 0x4bb6bc4f5b9afbec; 0x338e0d9825b1dfff; 0x29c6a6c5bda50b3d; 0x5ad08669d31df878; 0x75eba6bd41adf77f; 0x53efc36fae442f4c; 0x37f5a991f038415a; 0x298815924198a408; 0x494d0192000fd061; 0x33f0719573f457b8; 0x30f76f24b30deb9a; 0x269f21c56fc59011; 0x47b1bca12dcafba3; 0x13b89bb26821a144; 0x21098c99304f9e4d; 0x20fdc456f62fcf1f; 0x1fdf13096022eb51; 0x64c11482d8df755e; 0x74dd6e5553173582; 0x568c55cf91887f39; 0x60353dc2dd932078; 0x4635c8d1ae836d6d; 0x6203cb9bad7444ee; 0x317a828dafaf46c; 0x455ebd94121e4ca8; 0x5d1235df6f9837b8; 0xfd1890c2dee7027; 0x29a22a9b38e0aea4; 0x63d104b8d3bf6ffa; 0x644553f764efa2ae; 0x1d5dc11c3a6d21ab; 0x1d8d08fcfae5c1d4; 0x5d9b10c5c8609929; 0x3c77dbdf902fffd6; 0x3ede6b0201db9f5c; 0x3c0efab2c9b4f537; 0x345b4f6a37e20009; 0x18baa478e1391d04; 0x648bbb7a07db9078; 0x6deb98c7e2e5ba39; 0x46561c0f265930ca; 0x1d5cbcc1a9ce034; 0x74a057550125859f; 0x4b6b2dbdf78aa9c4; 0xd86228825627d3e; 0x1ce3e0535c059392; 0x66a71f853db099a0; 0x72310244ea0b4906; 0x2ef986cb20512573; 0x2fa95170ae2fbd5b; 0x751a1ad725e9b122; 0x5272aa23cd315c34; 0x78090bcbbca05812; 0x640224d8afd60266; 0x583e6eb250c78b1; 0x1a7d8b0f7c76461d; 0x65c8d28863fbf000; 0xb8b771b92942232; 0x39d8d3725a70f73; 0x6ff393ce64200dd7; 0x50c27544ffd37f3b; 0x22397f645ec6951; 0x2578d769af26b3ed; 0x6f17bd23662472db; 0x3f5a44cc382ab376; 0x182a4d0c4cbb8c37; 0x601662b1d778ca28; 0x5b215e09d510fa67; 0x629b02b8c2275ea5; 0x2ee902d98b85a9e; 0x61b6977dd83df996; 0x5a744eebe12a5176; 0x649c44b0c650642e; 0x5cb24d308357800a; 0x5a5b210e2f3c8b6c; 0x69518fb946149db3; 0x3d92ee0d248c14ea; 0x27b893b040ebefc; 0x72817136e623f222; 0x79c0d5a5572238c0; 0x374b25a4f4294c69; 0x242ac02fb168d7bd; 0x4a9a030c9c2bf620; 0x7f2c544a12927db1; 0x49b3c11f3cc69f63; 0x21767b270d8dfe24; 0x2b06fb9587a9d488; 0x6af9176cc41e20d2; 0x4431999a2cb2d80a; 0x514bba117ca3282e; 0x474116c6fc6b2bcc; 0x10ade751ba227615; 0x139b35e61508dbaf; 0x470d8882268ead5c; 0x7960e4421e2b3017; 0x639991f95bf84396; 0x57115229ba218c98; 0x65528e449afef916; 0x27fb4de01566b0ff; 0xe344a65bf5c3a1; 0x20d8ef271c14f004; 0x65c2f90dda252064; 0x513b739aec7b7ac3; 0x7a45aae45072533d; 0x730bb4f7cd9e016f; 0x75cae6f1c6d7dc2c; 0xda7e7ad5ae45ced; 0x498dd160e03c0bf; 0x5628adc77a524d85; 0x60486deebbab14ed; 0x6a708fcf1468ffef; 0x4871eae480e7b65a; 0x4a0a9808890b5721; 0x638ffa7f09698f0f; 0x79ce5b5e3c4b2ea2; 0x70ea9dcf3ebe869b; 0x77eeaaa208f0298f; 0x4c7d471c93509d01; 0x3b7d8afb208cd86b; 0x561953f20bcec2f7; 0x1b5adec41391bb53; 0x628faf6e32872f5; 0x1f72cd989cac07f4; 0x636ceac72578560d; 0x6e46ad34b1c1da5f; 0x1fbdbeb5e41637e1; 0x1ef5d0143bc68d2; 0x3eb4559df49f356b; 0x448fa2eb7f1b9b46; 0x5febd31b8ba3ffc6; 0xe1e90d5ae209bac; 0x427d884d47061acd; 0x5a903ae742e48936; 0x7c450525394a3b17; 0x75ea31fcdc724bf9; 0x1076edd4b473b309; 0x3d61e6a8d475d0d2; 0x145796eb231f2890; 0x4c7c5d40cf51752f; 0x7bc6569e7bc40d30; 0xee42ee8cb386247; 0x4cf43a9dca47d641; 0x92b2ad39497236d; 0x7359a7bbf0807a29; 0x3937512967b5e2f4; 0x7b30fb0d178760f7; 0x536b6643dd0bbfcf; 0x5d6bb6c6f84f2f2a; 0x5934c3bad0b7c538; 0x59e16265c6961c69; 0x7a8d8459eae3ebb; 0x720e0eca0df2a98e; 0x5e171a2410d0c525; 0x38ea2bddf5b022e; 0x645b3d69be19dbbc; 0x785cf9cb8db00a36; 0x4885f5f81776cd9; 0x26aa837039afe2a; 0x7c499d08197ee14e; 0x9c68750cc67d9f; 0x1ae2386e10a59b06; 0x49738aae83562e32; 0x825fa0641cf571c; 0x7e6359abf1be9571; 0x33b4db270dc501e3; 0xa271c8f403dc744; 0x71d250f5a7e1db2; 0x6c1841097a6e845f; 0x21085097ecbcd77; 0x10595adad2a6fc50; 0xbe34e4a7b13e5aa; 0x54b276ade2e996cb; 0x4d57b8bc529dffd1; 0x67918eedba2ad0b6; 0x148a039df5a2d97c; 0x1b65ca22e2eff107; 0x2e756a7302957171; 0x3020b0ff3653149b; 0x36289545c7b189a3; 0x35229652e352eefb; 0x4f672ad512b595e4; 0x13d19c68475655b5; 0x6b88c7281cfd9c4c; 0x1bc238b7194f944c; 0x675d29cddeac03c3; 0x7ed5feac51a977e4; 0x20264fc3595fe1; 0x3d40a0dda14dbe67; 0x78196e1d8734f651; 0x6610348755e28e94; 0x620cc842db93483a; 0x7daa38aa11350ca9; 0x557db9f0af1a6515; 0x6c7f62660d4236ec; 0x6fc1ceef4ec6850c; 0x2bc8bcad994081f5; 0x3938b9bba7a9d28f; 0x6980cd74288a4c8; 0x7ebd7c8db799ecd6; 0x69791fd6e386b0c; 0x7c616113cbfddcc; 0x2dd75c0a9ae7fb9d; 0x29f5ca200bdc0de0; 0x5dcd820e0c868ac6; 0x5aa863883643b53a; 0x634d996d01cb4ff6; 0x4b93b64ffba1715f; 0x33afc16fb1f26090; 0x3407a0600ad0241a; 0x49d0c36b536a2b6e; 0x567106b249efd787; 0x36bf969fc0202c12; 0x393f4618f701a073; 0x63587093552d1dc5; 0x58b02b19f0068ae5; 0x47fa36498adbfaba; 0x3fd28053dbc54bba; 0x8dca46f66fd082a; 0x1de8ecff22a5e5e9; 0x7a6b7939b4fbd279; 0x607717fd7a9c5a07; 0x21bd5c2df10e7374; 0x292b3cb36792945e; 0xdd23fc9f11540eb; 0x5890d047185467f; 0x9b1c93c035bdb88; 0x6ca8902e2b3d3878; 0x74f8ee1533224b1b; 0x2e388bef40a132d4; 0x1e21527707ad7b16; 0x74ca4f7ecb00b12a; 0x418c840ccb55f495; 0xeb06f37d9136b90; 0x1d7042a8d2fb47c9; 0x3a37a2f6efac4b28; 0x2709e01e1f7fefe; 0x473213f828d3b628; 0x44ef5f19ca164be7; 0x77b4366075d8dfaf; 0x5e8fc95faaaddd89; 0x5162fd2f54b795f8; 0x57bb52edeb6a1ce2; 0xc678a3e7a6910cc; 0x2e24c1e5b2b03873; 0x25366517d8e82120; 0x2ed09a7b64ab5a6f; 0x5e8a22fe5db2956c; 0x47dd99aa9a98f9de; 0xb6c360127325985; 0x7e4aecd08636b83c; 0x5ce4588addf1c28b; 0x4686734b6fe959a4; 0x35a5e89aad6f51d4; 0x4541731246c8f73b; 0x4d96f0d3fe69400f; 0x46c8f3a80a9a497; 0x1fd4f16e19e188d8; 0x2b5865];
   [0x56d1e3cb243a7218; 0x45974aba17b69e38; 0x2e6443eec18ef6bc; 0xcfe3bcd8470a6b6; 0x169c16f34149ec25; 0x60098ead08cdc0d7; 0x7b8b9ed723615a20; 0x71b9316c0bb09f97; 0x6e734b249f453b14; 0x19aea60c7e3f3b99; 0x36fc603caec682d; 0x31327a2f077fa367; 0x66d601e23124a99f; 0x2bf2317d7f06422d; 0x6a8568a6f2268de9; 0x1c7598261b3baa4a; 0x28cdfd5cc20f00fc; 0x6d017dc0d49be234; 0x31c6201d77532f52; 0x45f0568dfb077fae; 0x7daf8e65f5acb1e6; 0x13c591b6a58bf97c; 0x20c0518760ca59f8; 0x4e14f1c6c95035e7; 0x631be7641f663d4; 0x4ec5014ed3f510a0; 0x28889c208aa81bca; 0x3419dff611c09642; 0x521e9fc76693c05f; 0x5f224aa2d00a4152; 0x33af147a73bc764; 0x36122273ac78208a; 0x11355c0faa140d9a; 0x1cfce29188911a0e; 0x2db7f969b0d32768; 0x7b44db512b632003; 0x74ebbeafadbddc3; 0x530fa3a648fe0784; 0x6b84f60930eff5bd; 0xe4b9d1537e236c0; 0x65fcbac3b1657378; 0x2862708cc1912426; 0x744add1e13c89f29; 0x49983eadb3f00247; 0x4dffd0fe35e235bf; 0x7a7fbdbd5ce7db28; 0x7038bd5447ab42f1; 0x69a28d185bbe9ee6; 0x478b6554fe2b34ac; 0x643a91dfc301fbd5; 0x27942b119e1737b8; 0x299379e2c2d63015; 0x41b34c905033de9d; 0x408b1db3ca4d62bb; 0x65671901e661cce7; 0x751cebca62b0ab85; 0x4df84ae889f1aef6; 0x4def6503550aef71; 0x53692c0b300656d; 0x3e1b3505ff32a6fa; 0x35f05e60e01b6ac6; 0x6889b6f2473d6c65; 0x2b118531aa1a2e2; 0x6f3d1a568c61de71; 0x462dd07f3e781d14; 0x282ec39da20fd201; 0x1b9ac4a6a7261d63; 0xf1fc2a2e8e2e2fb; 0x6b45c629644ddf07; 0x24b42727ff34d795; 0x1e6e539ccef00cbf; 0x6bc91641d493680e; 0x53c0505837794176; 0xada83e24ed3aee3; 0x7d953fc03f486959; 0x5aeca15b775dc11d; 0x2834c00859d420f8; 0x130cd2166376148f; 0x39c472a9e2eeb42b; 0x30418a491e20b3f0; 0x43dd546722be6aad; 0x4d3dfa9265232d84; 0xe5b7ef0fea9e879; 0x628863c0ad57bd38; 0x476b94da66fbe9b0; 0x31a5b42e0332ecc9; 0x5a9e7ea5e42c4132; 0x2a69f44c554a39ea; 0x7bea52a64f5f9320; 0xc5d6612fe23134c; 0x369d1edbd566cb0d; 0x49a3ea00f924b869; 0x5e22e15f5cda8c59; 0x72ea5d1e346a2cb7; 0x1c43ba435edd2b7a; 0x22b3a6a6997bb888; 0x6fd05a92d172ba1; 0x359f0fe71a152816; 0x6c5470f5fb521a91; 0x59d759e60ca9bef4; 0x778a0743e147a7cf; 0x1bf2d4da51812197; 0x20e77ef68dfd26df; 0x3f86c3358bd16903; 0x28b9da31c40fc707; 0x7ac5cd962ba512f8; 0x67677cfbf35003f3; 0x53e9196c68a7d05a; 0x4d26e919117596c7; 0x149e3dbaf6dbf398; 0x7ce9cc75ef698f1f; 0x67b4df7389cc14a7; 0x383b922077cb80d3; 0x486f541b8f89bcb7; 0x5b996a83be6de182; 0x1b31308e3fa734ed; 0x11f028ad619f889d; 0x2c2789235c2a939a; 0x398120a65b6e1e; 0x2cf0687b088a7372; 0x10641333f60959b2; 0x6a311e6ed046409; 0x20ab0c0579387e7e; 0x3647d121674ac06f; 0x3bc9572084b13aad; 0x45f51112748612a8; 0x2be9de0edd159835; 0x749a0a90fee37448; 0x1d462b1531d91a99; 0xe19317bffa0e7db; 0x6b7a965ea218c7d3; 0x75d361cbee7361a4; 0x755d7e6994b237a7; 0x2ad722ee7d4ffffa; 0x511f9ea598f4f67b; 0x59d3527c6da135ee; 0x4e60eb2bf49917f9; 0x6c1771ef37edc536; 0x1411e91feeec3470; 0x4a37c958cb2e0181; 0x53072c5905928acf; 0x3da84c9f77afc4c1; 0x7dde75b1e50715b0; 0x366f5878977978ac; 0xee862ece43fa9a; 0x234e8c6824ecdec4; 0x725d951b22947477; 0x5b5950783c45ad24; 0x341c062c34db799d; 0x5c61c2bcc4fa0ed9; 0x28bb7f1e92e46afc; 0x4fd2acbd1984d4f; 0x74aaf84ddaccf8fb; 0x2eaf612b0acecaf0; 0x2606c0ae79128d9a; 0x2a0c40bc894e085d; 0x4f53fefd576a3f4; 0x6eddf243dda3a1f0; 0x3e89ad6b8d505fab; 0x10f3516e2fcc9fb7; 0x19ac731d8e39495e; 0xb557209081294d0; 0x3a822590d4820277; 0x3f521d98163736f0; 0x5b99fdf45d61e6a5; 0x6b2213d2b0e951c5; 0x54f4cf1902527e4c; 0x66d242abc9cc52bb; 0x3c67d55c98886405; 0xdeb1a6668700bc; 0x6016365f0c5767b2; 0xf615e3c065367c9; 0x3fa9ddc321529fc4; 0x772cc696bb64072a; 0x2eb283af79e56188; 0xad38f97a0d4ea3b; 0x27d6460fbd301234; 0x406bdd53455b83e3; 0x7aba42b9106a131f; 0x4e36b01f1540d5b4; 0x36efcfea9a567a5e; 0x3e8251f514906ec9; 0x74c7f15eefeb1df5; 0x30dccb57f5784f7b; 0x25af58770e124818; 0x2b5b804f43ef63ad; 0x527bfe63712f472a; 0x161a4c2ed99093a0; 0x603699805f92780d; 0x4982ba18ca731ac4; 0x3cdea98719ba9090; 0x9ecd18bbab70c88; 0x2af821442a31676c; 0x1ba6253cc8a09ee0; 0x65e7515b90e9eb76; 0x47332bd8ab782eff; 0x3a8795a2a76f0638; 0x6e7ba23e003c4b72; 0x53bdb3576c346dd6; 0x3400a47ce5bfa979; 0x5409660dac3636a3; 0x5a9eae185ac8b7e8; 0x3c5e95e7b53f8ed9; 0x71092d6dd3b7688; 0x39853f8d225abd19; 0x31e183182a620972; 0x7930d16ded505186; 0x4b8c98902edbc4a8; 0x6ef0bda6064b95ba; 0x3a0ab6598b3203ad; 0x104a6002322c510a; 0x4794ff7583c395a3; 0x1fb11ef5a4ef5e28; 0x624197a4f72d2a25; 0x511d8006f27f38d6; 0x790d907fb6165639; 0x1bdab4a4e6898ee0; 0x4880ac3eb87fd7c9; 0x88353ab2e47b820; 0x1ed7e5c3833ab0f9; 0x40cc7c9550958cb1; 0x2060f3eaf3a348cd; 0x4f3437404d4f8083; 0x1610d8826ce64e2; 0xe9a7bbbe37b8dff; 0x366adfb637dba999; 0x51cc4a037863514f; 0x323bc48056466c2f; 0x62ea89ba601b8fb3; 0x62d395194ca88d0; 0x7fbf86265f896df6; 0x55b680b718acd614; 0x47d769bb6e138d71; 0x29f3c064756a5a42; 0x663a83cb5cb78d6f; 0x52277fa047a1337b; 0x4eb01318a813ebe6; 0x523263cda27a15d8; 0x12e3d0c728a596be; 0x37302808505865ee; 0x5f4e39507461cbd2; 0x4f71b1c50318111a; 0xa83dc643f08834d; 0x1fb3ee0f638a27ed; 0x25913ffafc31e999; 0x52b385c601354829; 0xf038a0d69f9e574; 0x5664170ab8b3ad6c; 0x66d691d2b09160a2; 0x7cae7449ec43c115; 0x7a4bd6e079383d8e; 0x664832b213cda906; 0x2c140b0d20d6236f; 0x4a53d2ea0737665e; 0x39814cf2c66f310a; 0x61ecdc8a1a3dfe80; 0x254b0acb9d25e3db; 0x581dd8fa00dc52dd; 0x4347fbd425ee229c; 0x1062dda792e4c1e7; 0x391ea4283dd284ce; 0x4f0d9e65cae35219; 0x910fb39baea5b17; 0x4d81eaa9830f3927; 0x2dcac140f101b54e; 0x339ad244cf1c3a41; 0x5ecdda48af1d4746; 0x64da5720b01ca524; 0x610e8ad41249d5d8; 0xf9abfe593e6e7c6; 0x683e9a62b94896c8; 0x28ea8ce3d19be3b3; 0x6bc97d91f2dd17da; 0x49a24b3d0c952c59; 0x35e46da520e4aaaf; 0x7e35fc0439d4840f; 0x3719fadc2f505ffa; 0xbdb9b83595fd83; 0x5fdd0052ff33b4af; 0x4982d5df995fccd6; 0x2a05d9ed1a9ba1e2; 0x512e9b748a897491; 0x22c15229a2d1419d; 0x46ac5dc80a4335d0; 0x397512e978338261; 0x79f680721a5434cc; 0x5de4ffa61f4b0a58; 0x7f1d45017c82d4c3; 0x6c40708127b0975f; 0xcc3cd717e4bb0c3; 0x3daa734672fc9c2b; 0x454303334f8e97f; 0x56c8781e61c92348; 0x71a7f66fc8461b11; 0x1dc21b9a1676301d; 0x28226ffdc76dc4f4; 0x16af1c1a2e3ee1e; 0x74d70df67baa8527; 0x7e5bc98688b77e42; 0x312c3d7ea66369e4; 0x57e0a79abf591912; 0x793d6aca59b31fa; 0x48e87c2a7611ff42; 0x463c63e4aa660ff1; 0x293526b64f55ffa; 0x2da54c0d96ca30ec; 0x70851906befd4821; 0x7c9606b123654850; 0x3926841f2e40decc; 0xec0360bb222381c; 0x7e3db63ae9d6f517; 0x43d9f5df6383755e; 0x64a381b41ba51515; 0x1b656df6992dcd4d; 0x617db99b2ec9861f; 0x15f33ad9f44ff515; 0x15f5242359ae9d78; 0x13b9d];
   [0x5cc90beaca205d91; 0x38f7317713fea456; 0x6d822d26e9d07f67; 0x4e9703dbd218899e; 0x2ecd20ea7b60db7b; 0x2a8a9a429923aa5f; 0x467c10ce2279a350; 0x210f3e3a3978351e; 0x7b6d81171786c4f9; 0x2991601ffa38ff8f; 0x24379a9eec5e4d0a; 0x4e30a665c3db0bd2; 0xa668c7db83032a3; 0x6f402e098e2260fd; 0x16560f4a43fd5fb0; 0x22a59e430ca0d7c5; 0x3c200171d8b68cc1; 0x55f083fa2cbc1b15; 0x130bf3deee1c776; 0x6d00ac7e6b8ccde2; 0x20f4384ccffb4435; 0x7ba9005be77a1af6; 0x58fe211394b2288; 0x475efda7147236e0; 0x51e72fbac0be7f51; 0x7876f5e76737a043; 0x1fd276af749b322; 0x49938ada808300eb; 0x3bc43e08d287042d; 0x68a6ed27712f51c5; 0x2bba61d70f40a03a; 0x1be1078424c03d0; 0x263ec41c65e50b19; 0x2b59afdcf1696984; 0x6a03caa6fb2a5a9e; 0x3f9b5931795feaee; 0x41e7eaf48e819e66; 0x68ac91f20820b24a; 0x3533572ff00035a1; 0x695ff2351212bb95; 0x4903a224f41e8e55; 0x168fff73de280991; 0x1cf41010de777eb1; 0x51fd884849a709fd; 0x1b5e5b22dca497b2; 0x4532de6ab248d434; 0x490d619c730331ef; 0x11a6f6b307ccd123; 0x695a65898a9292bc; 0x2f5d1f165f1785ee; 0x2b6df1a968c4de3b; 0x59683aa81a34ba62; 0x4b6a01c4a6016f5; 0x4e07073d449d22a; 0x5b9d042cdeba0435; 0x104f7f1eb2fed970; 0x1277265947d29d65; 0x7ddb52783b7789e7; 0x389d5f625f365fc1; 0x1d8a03a77791305d; 0x2ec09e4a5dc331f2; 0x7ccf9bcc5079ea22; 0x599be9aa125fcaf5; 0x5262d8513e32691e; 0x450d2a1cca19cab; 0x1dfc3655463fdcf; 0x6b7fddf179c626d1; 0x4f0141215bafa040; 0xef3d3a5ab51ce5; 0x77ff6903cbc41391; 0x1ef3ec9e77e7ee66; 0x696cfee4ffb77165; 0x4de27412aa2b7faf; 0x2e8ce5f0c396c7a7; 0x3309aa0ea080d283; 0x36424a473e3906f2; 0x1de167f4db6c1156; 0x31d6139301eeffeb; 0x438c0ace57c4a57a; 0x64ba5083c4d250ac; 0x3ba1be7b3adc6d50; 0x3785f47859a8d68f; 0x41ebe83cdb208451; 0xa3f9baece3a6ffe; 0x279eb9f79439338a; 0x3f70b0d44d9a4a80; 0x4650b431615d79a4; 0x802f4773b2581bd; 0x3a5a07a3ee2f82e3; 0x1a983c9abcd3080f; 0x78acfc510689a5c0; 0x275423b5cd84765b; 0x42fcd9c99b37068f; 0x497f984cf01a6e61; 0x326ef154fdd83010; 0x78a9d9b13a8f647f; 0x2fba82dc4701561e; 0x7a28ff3b223526e5; 0x1d986a530231354a; 0x49c98142619b81c7; 0x7b6b2bf77bc72775; 0x3e23c83d32b405a9; 0x29ea9c3278e577d7; 0x4a3e3503e024afbb; 0x5f4f56df5e21c1ce; 0x4c874975d860289c; 0x7927d5fa210bc7c9; 0x3cf2993068bdeffa; 0x1f6629dd7a7c0d24; 0xe8ab78da05901f5; 0x2e8845a1968b2d67; 0x7bd3e6e9ddc29b96; 0x5be183a2fdcd87b9; 0x7868b1b51d7c6109; 0x719c2f279df79dfd; 0x507318a57981a2ee; 0x69277c6650b5164e; 0x4f5dd23f40ba4ab8; 0x5f933e1cc2890bc4; 0x20cdabb6a44ce28; 0x4ad651b74165d896; 0x2c33b7bb23b9e5e8; 0x79787fd5d86fc1d; 0x415275cefcfc8381; 0xbf4df03f6537ca2; 0x233913a1d0d29aa6; 0x4d5e62df88bac6cf; 0x7b7241c868131159; 0x1756dd2e3048e9dd; 0x2a03af3911f1cf0; 0x2d499eb0e5e3fe88; 0x464872d858802bf3; 0x2edc413cec1cf4d7; 0x37d9dc1a540b272f; 0x38dc502d3a633a4; 0x4355632a58fd4f9b; 0x608f39713f3104f5; 0xc8bf4ed8a5ba9d6; 0x6babf12959a45986; 0x3a4b9375dcb4d9b1; 0x7ae21aa1e4a345bd; 0x332f66331ad7198; 0x685f645fc2c13bea; 0x6c9145cdbad2e07f; 0x399653c31219d763; 0x1e86ece74d8ce332; 0x48de7d3ba4a33151; 0x7db42466a3e19e34; 0x1c3cc6d980fed804; 0x614c48062e4c249; 0x352b417ca6118706; 0x7ba630fe5afd1d8b; 0x150db1f3c90a83f0; 0x7efc75dde6c0ae90; 0x508ef78f803a187e; 0x57cf04f945b9de47; 0x7ee2b7119f25e171; 0x74089ebd308e71a3; 0x5cfb77fb526c6e90; 0x27ca6d462d2659dc; 0x3bb82a0be4318fd5; 0x33dce30474186140; 0x3e4f1d1179f88dcd; 0x3a0817d60a2306d9; 0x339de634f7e6cb45; 0x5531b20b0756f042; 0x2a33d1d3df7ae54d; 0x28d08cc6165ef5eb; 0x2cf6099ecafbacca; 0x7d2cd9bdf0d8e44; 0x7f890b8da135253d; 0x4e30f8995a1d408e; 0x55301df841e9b4ae; 0x77d351b9211b321d; 0x7938ed8c55b86c05; 0x2646926cf1cad3ad; 0x4fa737eedaa48fbc; 0x55c146edf5db7f15; 0x6d1ec03c3d003257; 0x189f395eae9e6139; 0x2425d2bafa202796; 0x40c1f0aa4c6a8d5a; 0x426e1b005dad8a50; 0x1f6054283a798a5b; 0x58dc2f180df3fd5a; 0x22bdf1963d78f5b9; 0x674d805cbfb6df5; 0x7d7a2e7a411d0845; 0x18a096cd1943089b; 0x7b8360fcff491a9f; 0x635356f0c8bfcae9; 0x3c4f202f3d76d129; 0x54191b7d99a5c33f; 0x6502c891fd1907bc; 0x2e781726f55c91f; 0x6ca33cf3eb911959; 0xecbdb5be83e4ce7; 0x22805f7e80390c8e; 0xfe55d0f5210982f; 0xafb7ab5074ec4; 0x66506accd9e62b85; 0x278b39765839fa5; 0x6e3732555f25f30d; 0x72b02f917d0e1ded; 0x42ee63c0b1f1e419; 0x45c9a45a8b2f13eb; 0x104b53092912ad31; 0x7464d4ce8277effe; 0x6c7dd08f7c7c578b; 0x452c74df76e24f18; 0x7a126f2dbc965531; 0x785a1c5271c90d27; 0x7181ec3da47055f9; 0x924fe1d1953399c; 0x621328c2d198b0a1; 0x7c930fa55f7695f8; 0x47ff847411783aec; 0x5b7069502ebe2203; 0x6fb514bd7e45ef82; 0x541c33401d23b6a9; 0x1e9cd2f9c9c4443; 0x614a66c989f3cf80; 0x50fd746f537be89d; 0x35c0c60acdc4375f; 0x33dab878e2aa262c; 0x306d0c764eee6ac6; 0xa8daff0fab90208; 0x6b4dfcc338aad7a6; 0x12eddb34f9fb9b60; 0x25d46cec1be81aa1; 0xbded3d40adbc7c5; 0x1c42d29a1aa25b8d; 0x11231ac13a58237b; 0x5d1812f02ab0858a; 0x72d3813e37a1c2fd; 0x7ab4bc52cc28f1fa; 0x25d4fb181558c4dd; 0x71ea0b00a063c8f5; 0x6534c8b4a0fe73da; 0x1e49f9714b986078; 0x1b7ea3a634ebf81f; 0x544e506124bd0e14; 0xa000a4db6250144; 0x70c24df68abb53c4; 0x210417196c354981; 0x66842e0f3195d3dd; 0x49b907f823c09a82; 0x67f4c1ad021eeb9d; 0x7331f83e4948fe2d; 0x9ed95771b1847d4; 0x7b48f07c52fcc055; 0x2b0a73dbd2ca9349; 0x3e0ee1378114ef86; 0x2e617f26b07c8dc0; 0x4db32750c6062d61; 0x49c56d141f051ef0; 0x168d0d39184f1ada; 0x56f5c6981556cb08; 0x138db668dca5ec7b; 0x2d26fa6aa030f5bc; 0x458214f2302a77c5; 0x306645d2a0b165f4; 0x3f11590146c208b0; 0x5eede51883165f71; 0x1af50b072902dd01; 0x72b8d15b07783136; 0x66ad211bdd0d8d5e; 0x79f9ce6291f3a1e0; 0x66ad9bb2f09d8239; 0x39d9b684629d46f8; 0x2542ccd9d0c20ad4; 0x1337619cd92759b; 0x199c745d0710022e; 0xc0d18e7f51b2b4f; 0x6b85a1e1801a870f; 0x2cd561dc6e2e7e77; 0x3b6d3afdaec517f6; 0x672ee3699001c931; 0x58509755080e0752; 0x4f266d51d858383b; 0x4dc418372d30b332; 0x47478f784a0a4196; 0x56ece78926dd7e30; 0x1fee736d47eae3; 0x4978f14b0897b3e6; 0x73db4a94383f6a51; 0x23c32720d0b72c42; 0x224fc0fe27499445; 0x299f7f81612c0617; 0x1c3a3636e1788b5c; 0xe2e9b8af19f1d45; 0x31c663ad3208a14d; 0x14163bbc6f8bc822; 0x630ed0f04c2c32c5; 0x3e530202930d8b47; 0xfc1086e553902c9; 0x53d65a7c0b831c1c; 0x6b530ccbbb0497e9; 0x2d6f79e98414d9a1; 0x35479cbbf26fe313; 0xf579d4a1cd2e025; 0x5c767781e629096f; 0x51a792f021964379; 0x354fe3f28f3c6087; 0x2e520ce370f368c4; 0x756feabb52396ddd; 0x5ac001a86e6128c9; 0x3580830f4fde6999; 0x4750e4de07a712c7; 0x76dbb8dbc7e0dc5d; 0x7ca2d1a84899af63; 0x6c1b2fb3c62a6bdd; 0x32dea962ac1009d; 0x1864c1fb05a30534; 0x752097a152a25348; 0x78afd07112da9e87; 0x70a6544440b44d05; 0x2c258d];
   [0x2ee8fcc7a8040521; 0x44380f70870c11f7; 0x1ddcc558d263d6a; 0x4128b7641206076e; 0x3b6c71c0d45b6090; 0x1581ee10c7905197; 0x42f3d48a213a189c; 0x499b7a77e3f97ac3; 0x4ad2f80855b7439c; 0x521ea917c0bf7a7b; 0x5b4f6abbb91e3c0a; 0x23066fb941e669a2; 0x3c284e316891a86f; 0x46dd04b03b52e740; 0x18b4bb734730ae45; 0x1bf75569136ed5c9; 0x50cb4bf8d67cdafd; 0x53209413c2ce8482; 0x1c15004f003a1d13; 0xecc65e8ac2799ab; 0x294e9f33a483dd7c; 0x5481d020baabeb16; 0x480262898587e4af; 0x6f6e15eed9fe5bf0; 0x35288d8123225317; 0x206ca21028e5d36c; 0x51ba2c7cb8d4ddc7; 0x6be4c59687ffa8fe; 0x5fe426df142c7922; 0x47a4d1ec17cb4ace; 0x241f203cb704c2f6; 0x1c6a5315dcff0ba; 0x7cf1b936c8489933; 0x5ebd7442d585f7eb; 0x34bd5216327d2468; 0x6d65cc73300103c2; 0x4134c17f072b917; 0x5e7b71ca54d04546; 0x7d1552e92f17fcc0; 0x6b718407c01fbf93; 0x658da9a3dbfb9faa; 0xfbd678d0ca6c76f; 0x3bc489374c5fbf30; 0x2fa511a277f5ae6c; 0x311523123c8e721; 0x7d6f6b22b5daa9c3; 0x910fd83d2ce0987; 0x3681e3a78aa10d95; 0x670d14e7ee9f440a; 0x695248bacf9da3e; 0x446548505ce32c08; 0x2877a5ef92464dcd; 0x2d37b952e9149da; 0x3b13c63cab1d17ab; 0x5a486ec116ab6c14; 0x58e77b3d9d54e28; 0x68736ee1bce3c6f5; 0x4c7ee78f68367f9d; 0x701d070a272e6d09; 0x78da8de976de7e78; 0x80f6743e217d639; 0x7f070f9618e6b398; 0x5e8a302f4b79964b; 0x4b730c73a1c494b6; 0x4c7dbe98426141f; 0x23ed9e7ac7a5524f; 0x3e4cc36a7a2baeda; 0x24ba32c10172830b; 0x58bf1ab9eea67c00; 0x759a83b54e68451d; 0x784e4d98bb9524e; 0x644e36831c8e6d44; 0x76b8fa303496913e; 0x1ae70d03cc854b8c; 0x1422d25c5edf1792; 0x6cd72bf0ce83276b; 0x3afaed579830ff34; 0x6c4f9cc8216c1710; 0x59eba87cd54acdcd; 0x1e9192b400183aeb; 0x29fe776664725b92; 0xf5079789bed9752; 0x7abd2ee37ff8c1ae; 0x6a7786f8171f3f3d; 0x2ff1bb8cef6a45fe; 0x30b055d5ce0e4f6d; 0x366501f670d84bba; 0x5564e935f57d4b1; 0x3353eb12daeebe42; 0x73746e4106f1f568; 0x79a55537eedf73d4; 0x29ce2f22ea3284f5; 0x72cc2ff61a6dd20c; 0x3aa26a9d224400da; 0x780c5a937422759d; 0x418e5fe57dc085dd; 0x33315adb490431bf; 0x4087c4d6c5181c8; 0x793f2668349c54fc; 0x742cb99803a32707; 0x15b26740c147d89d; 0x2d9b885100cd1b2e; 0x12332c9816c5561d; 0x1d53b06c36653919; 0x1ae9b3bb01d1350e; 0xbe39bf167d59bbf; 0x7e48c4a07478757f; 0x44845fd88005eda8; 0x46067586f100b836; 0x739df44eacc35233; 0x6783cfd82c8f0dd2; 0xccc4471a114f36c; 0x5bb762415124d86c; 0x439ba14b686cae8c; 0x443b506a4bcc907a; 0x70648b12dde1db37; 0x15e5d0ff43659b7d; 0x11afe1c5746adce8; 0x43366231299ec8dd; 0x5dd7bbaf975ae034; 0x5a0729f3c4798458; 0x225eda444ee84d00; 0x7b92f807b586e6e0; 0x249c30b04597e271; 0x50b30facfeea239a; 0x24fcc22e2abd07ba; 0x60ffeb9c11ec8ca6; 0x323f36437aa8249d; 0x1dfd68d6f0777168; 0xc0fa0a2d371407c; 0x2eec32d9a7057005; 0x703618e504c166ae; 0x6703b9b1e6fef90b; 0x521c57298517333d; 0x49fb54ef292c7001; 0x7adc43afe872ae61; 0x44317307959bb660; 0x4206486cd1ee2118; 0x6055cadea262148; 0x7373b4c5b5cd4e4a; 0x28588aae6714891e; 0x1eec32ae9e638e8f; 0x274291e85da08a91; 0x3fd8fbcd308555b0; 0x7ad01b9b60a15788; 0x2f6c5c0ef4f030d; 0x3fc1c11dcdcfb747; 0x3ae2531d21cc3acb; 0x1381ebcf6dc3f6eb; 0xfe8d86d41c4dff6; 0x6027a93ae6fc1640; 0x51ec58798540ba2e; 0x5512edcdf23e1dfd; 0x6ff80fefbef37578; 0x3fa38ac1fc237c5f; 0x5fe7bfeb283a43ce; 0x7b1e207ea8ec7847; 0x76d2731a631d2d20; 0x52f5207545026b04; 0x57fb94efdf89f93e; 0x7d0dcd3dd0990e59; 0x6dd9d7d94b3903; 0xb20507081e47215; 0x7824fded8d2fccbc; 0x41038e87825e6fce; 0x388df27da7602820; 0x1aa11f5877fb09f9; 0xd028945d199db93; 0x4272b6c0e2714202; 0x7c9fdf5d03822f9a; 0x2c86caacdc582c96; 0x3bc86311ac9d5f18; 0x23bd61f47e50d15d; 0x60c72109049b0b1; 0x42a5a344c656aefd; 0x28941fccbf54849c; 0x3a76c264f86601fb; 0x1071ec243d2f8177; 0x6310a77fa91c51d5; 0x1910ea1674743996; 0x16facb39b1431336; 0x73ca83942f5b3da2; 0x7907cb78832963b4; 0x7604bb5e155cfd0; 0x55d606798a847f1c; 0x17ee3cfc6d8f8071; 0x6b00ad70b53959aa; 0xf39642139be4fcb; 0x567655e8255bbd86; 0x3bb95d4869d0553c; 0x7794840789c6294b; 0x44f772cac52b1bb2; 0x49931c6b34c9a4f1; 0x5619888bfaa2a4cc; 0x2b741cc399ca63a7; 0x7372244176959fba; 0x5c945c2b73ef6042; 0x62c83c74ecc9910a; 0x4285d237735821d1; 0x899ff907defb31e; 0x46c5018cef5f6c81; 0x7ef010a4d729a711; 0x6aac6310eb24355e; 0x56642a1257046c30; 0x65d3466515e2fd82; 0x25dbe2792c830e41; 0x565925c0dacaacec; 0x46cb5a5ee958cf1a; 0x31e08c9baced9fa7; 0x6f34e32402ca7679; 0x5232ebd9a0fe73f3; 0x2c03146d8175227; 0x48116c58813e91ee; 0x7c5e1d78299bdf42; 0x4883825af08d26b6; 0x3aa01da363573875; 0x5cfde5ba34b0a046; 0x73efe06f98666690; 0x25f215b90d80dec; 0x2e9b877b9275e7ed; 0x3f82dfa4e1dbeda4; 0x668eb46a96d4e174; 0x380cd37a78e9f2bf; 0x44c5914e82bc1f29; 0x62824e877f6d9a7d; 0x6592f6918e11e7f4; 0x370e93e175236e2; 0x4bcf0c3f0663c97b; 0x5588293378026ce; 0x238936b15da9da38; 0x11cfe50e369794b; 0x470d0ab768799b76; 0x331c2119c35ec094; 0x77fc66f57760750; 0x499ee73bac644beb; 0x1dfa73c9108fb98b; 0x40820664f55e3782; 0x30ebfddf4815f7f4; 0x200427739dd87826; 0x6c869af9f5406af3; 0x6f5d62169d1b4c7c; 0x4e09e62aabf6a7a0; 0x29b5d5aff1011288; 0x71bcb9caea1adb86; 0x2ade247451716a6a; 0x410fc5067e0a4e6c; 0x3852b6231aea30e7; 0x68eea13bb250169c; 0x3b5c38b02cb166a3; 0xd3a3ef968d714da; 0x489c840032e0d34d; 0x62df929b3cce1d5c; 0x4956b9b6dd1c67b2; 0x574033ff0395080; 0x4f45ab0c345a0843; 0x5734f314590caef7; 0x704044a954768e35; 0x331fc93647b47b08; 0x37eeb93cda0db4d5; 0x2454ca1ed9618064; 0x14402744c280b522; 0x4a6d3c349296cd6a; 0x42a80eab37929fae; 0x7932b07c9df243cf; 0xce4583aaf758f0c; 0x77742ac53e58f833; 0x4dd3454f45e572b3; 0x6bbe3c78d2027295; 0x37f21211bffab475; 0x769aeb11ce759e9e; 0x5b06dfcb6ac77f25; 0x6cadf199df5d0fa8; 0x78057d9ad57837c3; 0x575587ffba90241b; 0x7857cb6d91c079f9; 0x16afb6dd95709e8e; 0x392688d7d34319dd; 0x4ed62921df81c46; 0x15008c83252a463e; 0x4f11be574cdc0fca; 0x73ac0fa0d62c83b4; 0x72b46e9614b98826; 0x3ed2f5955928d32e; 0x51ac0c4ac2c89d79; 0x77372d5e56922dd5; 0x62ee0a12f90ff12d; 0x4d86219da070e4c9; 0x494411760fb2ec74; 0x13de2f3573d11346; 0x504c024209394799; 0x3495b4eb7307d515; 0x51a49336b76fe51a; 0x1cd0053d4342c290; 0x21b4190b918022ff; 0x41d9d770fd0ff94a; 0x538aaa497fd26a85; 0x367a1e3799d0241a; 0x58316d6f5d5f01ac; 0x42e633a7d5a441d1; 0x1f54473472c7414b; 0x407af1b4a5b90007; 0x12124cc43ec5bf18; 0x30d23094aeabcbca; 0x1aac426dac097092; 0x7460e46c0d50918c; 0x115111c4afd4427; 0x6a8fccbc4fd2211a; 0x788588d9e2c85ff5; 0x230b5ee2e1d9c119; 0x4b42d74ec5f09e17; 0x1a7858cb57f742af; 0x2d94b564e063b1ef; 0x3a1aefdb2964544c; 0x27a446d04137fe23; 0x2cb61ac786278dce; 0x261cec1c698fb409; 0x502e367fd2516b90; 0x110193];
   [0x56f531d8bfb48203; 0x53522e529c714e80; 0x7f3435e7b4fc0395; 0x17b60112fe2133ac; 0x61b8fa42c00526c8; 0x5b8d7fde2b8cba20; 0x3b1eb6367a02047; 0x6cf1cae85b8577ba; 0x52face22ba5f6964; 0x5412710821e6c920; 0x4d8e600923e5a27f; 0x60ad40e9016bf3b3; 0x68f7a3a905f39169; 0x30aa80de58004e19; 0x795174db80a7e158; 0x1f6dcd7ccdd2861; 0x3eb2d1bcddf8826c; 0x4c08e1f6d34c9daa; 0x4c426a1c5f2b0c19; 0x1309a42e78b91b58; 0x2d07f539068ecc01; 0x398a6457c3842eb3; 0x7136c540f997d2c6; 0x682b427539e99bf5; 0x2464d35e632fdddf; 0x435bdaa85538e327; 0x3612fd5d2c7e9f8d; 0x3255f692000f595a; 0x2d0ff328b3566b17; 0x38d85bd38111f18d; 0x2b89bc28bb13be00; 0x7538756197eec99; 0x3e97eeec49e5d3b; 0x1434d36722edd12d; 0x17b3946eb9fc40a5; 0x77882a27dc47be1e; 0x5dd3588159ebdbe8; 0x3bfa1e9006af99ca; 0x46704c987a354553; 0x4b7167a793eda5c9; 0xe9e4e694fd662f1; 0x4398250981c7c6cb; 0x7fd4f5003eaaebe0; 0x35488952365e5144; 0x4d4279b33e1d4221; 0x72246b7c807d7156; 0x1dfaadb7fdf9c85c; 0x58dd8518ed38c7d5; 0x2994325303599cf0; 0x48e516999c334f95; 0x142410a60304d99c; 0x19704ec081ecd138; 0x50e7ae87528000ba; 0x39ed624d7c8d7af4; 0x2c070363c304e1de; 0x1e424b59f659ce1d; 0x65eec0ad1123656; 0x45c6d80a460f83d0; 0x2d310dd1182b5a75; 0xf8b771a8c48ecc4; 0xd8381eec4303d38; 0xa9b1c8ce13499b6; 0x69329f9790215614; 0x39428a76d30e500b; 0x29378eb7cd9d0bd; 0x3be5731480be39c8; 0x30e3873ee471b4cb; 0x7364be4b85d2a981; 0x3ed59f86e6a0da40; 0x2e3816393282a835; 0x173a0ef2f7aa4116; 0x8f7343d8495c49c; 0x69baf2130c65524; 0x106434a4f5d9d550; 0x7f9f4e4c32af4050; 0x6387bdb66b74cbcc; 0x1b63e65764c65622; 0x2b645a58eb69a106; 0x768f22f29d8b5261; 0x10c8e225bc49b32; 0x598352d71e2a70d1; 0x73a8c390232b373f; 0x65c61e93ddd9f3cb; 0x5e3c7faa78c3e3d7; 0x6fa1f7b216b61bfb; 0x16054986753a6e81; 0x27d4cd6fef20b09d; 0x3f11d8bfc97a4bed; 0x202663a339eef0b2; 0x1143657f30185f; 0x4fdbafd938158022; 0x3f1b36bf276678ec; 0x2216876d416b09af; 0x12ac45de679801c7; 0x34ab99cf9cb5147; 0x10d74cf6ae656da2; 0x4a70fb8138852b7f; 0x11fc7cc472446722; 0x16719b94c5656dc6; 0x6f53bc37abcff9; 0x299999871d598fc4; 0x56a66422b0d41bf4; 0x98e9f5276cce55d; 0x68ce796c1e3fbf26; 0x2e1e6807d1a16493; 0x648233542e7ac5ba; 0x5bc138cc4cd124ac; 0x4a2532b056d80bf0; 0x7adf27a5f29f44c9; 0x44e2061bc49fa988; 0x22c78564d7203ab4; 0x14a9b23815dda39f; 0x28bccb08aca8fa78; 0x6585544c114029e2; 0xfaa221e3a0ec44; 0x4fef5af5bc529c59; 0x5458476b107792b9; 0xa4df354853daf29; 0x1f20ef5495662209; 0x40d15c06c39af4ec; 0x2c8826833d8becb5; 0x79a525e6590c2522; 0x479202c885cea872; 0x7993bd791d280950; 0x19fc0fc27b1356e1; 0x778864d052f52029; 0x15668bdf4a8a5b4d; 0x1c8a9c6aad4a1f8e; 0x4f450d5d037460e7; 0x7385acde5c86b3f; 0x2891be73c8ca7886; 0x371564ffaf5feff2; 0x1d9b609efd64ecd6; 0xc7d3986263136ec; 0x2804796b8d9af9f1; 0x6122975f41ffffbb; 0x24dd11aa348ef9ab; 0x15d139099d870f6d; 0x77256f7a6a190ec4; 0x3e4da5c2ebb102c3; 0x3a465da300e9804c; 0x591fbbfeddb9e2fe; 0x3b5fd15ed78755c8; 0x45d01438fc438cef; 0x765f0fee94b894e8; 0xee5017e950fa58a; 0x4d7d616daabcc889; 0x1db9dbef8d9bac83; 0x5e5111a7731784fb; 0x3a677c59b125ad60; 0x79c5b925709ff22a; 0x4f3160e41c2ffe30; 0x49cabdd5430b7640; 0x7d38f4a0f55c15bd; 0x61b65270a6887e7b; 0x82267202abfc39f; 0x2e04c66086064fa2; 0x8a94a11cb6d13b0; 0x317d823be04742ab; 0x6538775f7d7b1ad2; 0x32fda05d9fbaab26; 0x13755554c6dd6ab0; 0x52b6c3c5612f1d17; 0x7d1ace53084b541e; 0x1fc14898249e60a5; 0x610620a52555f18f; 0x4e48f998fb348ee8; 0x7068b091f0352c94; 0x491e4ed58e467f8; 0x1e3d29777f420292; 0x7694e3586b3fc5fa; 0x516c37feecd14d43; 0x223589dcb07998a5; 0x15d9960ecd1fa1f8; 0x5af725e3a13612aa; 0x58a0c3759645e26d; 0x7b66b4d936c2f833; 0x5274ae65c78e0a95; 0x531f6f117340b9f0; 0x6c1ad4e11e00ad7e; 0x4f37457b059fa701; 0x25196527aaecddf1; 0x79066b76f70364a4; 0x120ba62e7d3060bc; 0x1cc535975c10f1f0; 0x65d4ad3a2ed421fe; 0x573ad385bf7d15c3; 0x3a3b02f12485204a; 0xadb95e0f24d6f26; 0x42819c760b5502e; 0x453c584e49f0bdf; 0x10e92ee9b1cf3a37; 0x71e65483a3e2ec20; 0x2eb54939cf74045e; 0x4de46384d885062c; 0xfb856de63e76d0; 0x1947e0cdbd8cba9; 0x5b085c77dd00d92f; 0x6f9bc0017588936e; 0xa1961b8c7907653; 0x12d918d09dcdb887; 0x1da8177a2c66de52; 0x2fd43fad1fd47387; 0xad91b233137c159; 0x66c1a93ac0ca2750; 0x6f8cd65a5323c53; 0x2c436cd2934d86e7; 0x36da27c3ec10c4a6; 0x60879eb6e9ed1f96; 0x5a0ece17434faec8; 0x2bba13ba9cd82c87; 0x5abae84993037bc2; 0x526e3fb102168cb; 0x242c79526582a51e; 0x66e688fa9283e763; 0x581185c4ab6d4b8a; 0x40d5b098e0346093; 0xede192e27fa65c5; 0xbc5292601d10a6f; 0x2119071b9b5d82e; 0x20e2abef485b1a5c; 0x40c3bdbe6ac99e6c; 0x99801e7553e2bbd; 0x1c658b79c68d57c3; 0x19b0885c8b830336; 0x4f5325da96b8e7d4; 0x7a7aba9fe3c3a98; 0x5ea8ef9a64fe45d5; 0x77feabd302b0208; 0x447ee93ba7b214c1; 0x53ec0de59e3303cd; 0x65414a3ab7853f4b; 0x4cd06d3355d7387f; 0x4d2a124abbda1d76; 0xc149bf736b3c09c; 0x307c0a6b6bfadecb; 0x1d56e84c747cbe22; 0x447c5ea4420dbc75; 0x66572a1745c133b7; 0x1cd733fec2a967da; 0x39c8e8dbda62dcdb; 0x5d39e996282b0aae; 0x64a67a1e573dc9cd; 0x64613327e0e6a3bf; 0x39a5556b02ee36fc; 0x1e1ca02e47ced392; 0x1e36e97cddb6785a; 0x75942f1667a96f21; 0x1d69eb32a429b888; 0x6e23379c01256d75; 0x34e003be825e17c4; 0x6eee0b003e4003a0; 0x60b5735417cac16c; 0x28446b7f85b7b027; 0x7b49efaa50721c60; 0x3f5382ec6e67aa96; 0x58f7a88036208b4a; 0x53957e500240e9f8; 0x40f396c2a9f33ba4; 0x7cd2f9a281abde83; 0x135184481cf654b; 0x2eccd35cb22ba610; 0x507b8e9e942890ce; 0x45071d12e53f65a7; 0x48f76d5d81bae5c0; 0x79bbac9e6d099db0; 0x4c9c5bafdbdea0ee; 0x30076a2b548407aa; 0x7c13a1d1bd20aeed; 0x13f0e23db0c37cd2; 0x4b60734ac61f1cad; 0x74d45bc677736a81; 0x3fc72ca86e51fe1e; 0x4803b5799f0242c; 0x24bbf6b9bd74793d; 0x7855eda300f2aced; 0x229ac80550ca09b; 0x454777b76dbd1d40; 0x208dfbf7783ba5ab; 0x508d1cba723ea200; 0x7a3ef5093db3ec33; 0x2100f958a106b68d; 0x384a3a47a9b2c14a; 0x7b98ad211676667; 0x1567fe0386f4af6f; 0x72a50e18e465b6bf; 0x1d070257acd38606; 0x5746253b3a778ec7; 0x6ac55a70ecd3413a; 0x718040242744df10; 0x2d74ee4f71417869; 0x42f18c10a97468a8; 0x740e991252111f22; 0x4e2084c21c5eb0e7; 0x5e89f82d0e0ef0d7; 0x57dc573da28d1c5; 0x77208c50bd79ad81; 0x57123a6e0b6cba6e; 0xa82317bb94edf36; 0x7ed708d97c52ede7; 0x382a0cb84abf9654; 0x72bb114daf17d699; 0x6bc4dbf739c26b30; 0x3994c9f12a64b244; 0x168d761d0d42b8e9; 0x4506adb4b9c02e85; 0x6da7667a445284d3; 0x7047f84a22e3418e; 0x2cc752b46d027d8c; 0x17f7529541853c92; 0xbfb083d79cc914d; 0x726bd51d8282991a; 0x133df0ea7f9a48c2; 0x3793d2ccb66ad5fd; 0x62bd5cf13047c694; 0x43bf8aa1ae2d62e; 0x5bde0cb32b69f773; 0x11721f];
   [0x662e3e2ae4851acd; 0x4e65767c69927c61; 0x3b72fc710b77820e; 0x318e89278515008d; 0x292f6c7961d71; 0x79d133ad25845768; 0x557f0d2a96dbec4d; 0xaf10363cf642040; 0x7695c4005f23593e; 0x45a806d3c5329eee; 0x56b2481224b1a7de; 0x7363989da7900103; 0x1c2f108dfa5d8c16; 0x690e3c04b3a21470; 0x938fa81b6792077; 0x6aaa32a1d0527e37; 0x7dcb36fba82b4a27; 0x5928ee7b9c19d5f2; 0x612198a509b3e399; 0x3b9b0b0d887ac88d; 0x71544e4bea90c3e0; 0x75d681ec9676463; 0x6dd74b748386bdc1; 0x7b52f341111e6c4a; 0x28efa3fa7929ab36; 0x383685cb2d919624; 0x556be27ad390ea81; 0x573e4588d0ee6c81; 0x54f35d074653584f; 0x7950ba2c34af33d0; 0x352af222ae497a8c; 0xe0242e834d7fdf7; 0x19855e72afe82888; 0x5fd9ae08e83a0cef; 0x1b633bbb2766fe1a; 0x6e79f6f023f9d51d; 0x4269949e7b7ab0b9; 0x77bbe6ff8d91cea9; 0x43e1f1db1e875eff; 0x1c6470628ccf4754; 0x12f11e1e98a59274; 0x7500b895356b21ec; 0x4c909f1ac71ca942; 0x5901a87c6ff8ce0; 0xc1da1a4feacef18; 0x1df4ac714a97069a; 0x1a1b61041648287d; 0x7657865b5e40f4bb; 0x6027d324db5ca71f; 0x694e87c574879895; 0x67b221784ba6aaba; 0x5f8e30e3ce71f58c; 0x4dcb44ea8094bbb5; 0x406bb22fe1618a9e; 0x64077c6d3df9e37e; 0x31378adb46c12b2; 0x1c1157ccdfac0ff1; 0x609a6cf24d7263a4; 0x12cfb18959bf2e74; 0x5f57cdc505f3361; 0x4d2b1fd157f00328; 0x6bca206f3d80e5ed; 0x42b78ef8ef0ebadb; 0x6c80f7fffb871cae; 0x4726e6e95e5dc2f8; 0x59b3b0a893d33206; 0x5c20daf3ed99e02e; 0x25e38553edd1bedf; 0x173ade13ac8b4d76; 0x3cb691e43525581f; 0x35d9b95aed5d28df; 0x4d79fecfe13ba030; 0x36d9f1017436be1c; 0x594d20732b3e498b; 0x5acb8f391615b030; 0x8357e41807a09fe; 0x76e8f7519be121f; 0x10f0220f5c82a8aa; 0x59d864016d948272; 0x3d55baad8b7094b3; 0x1ef060c35912f1da; 0x102d8bf20449b46c; 0x396a6daeb59be907; 0x687766f5f76c3eee; 0x17a26139fdbe95d1; 0x3328268f3c0f0655; 0x53b4ca1bbf19a49c; 0x2e5bc3e414f88d1a; 0x137b5e681f84c0c9; 0x544406614a99aeec; 0x64467f0ea34503f3; 0x1ffc4aa70503c6e1; 0x1e625e80ba41b693; 0x563788c54936c5e0; 0x6b04fddd725d017e; 0x1d51c774efe12bdb; 0x5d8afd927b3a4c90; 0x37e0080836184c8b; 0x1aa1831003ea8763; 0x655f862c496f8913; 0x22500357118d6ef7; 0x1255c92c18b29824; 0x343b8535b118b87f; 0x7971ab51455c2f14; 0x640245627af7eb4d; 0x6c138b675c0e761c; 0x417201effc07cd45; 0x1dd70cd7c6ee45a1; 0x54247368f6d4c101; 0x2191e96a19f4c04; 0x61724c85d9c8dcbc; 0xc817b6395954e01; 0x6accc7d11d5a9017; 0x63fdd100b01b0183; 0x5ac4b399dc1768b3; 0x485166f90b2419eb; 0x7166326a95192606; 0x2f61bed8deff12b8; 0x2fa5821df3479a54; 0x59ec6e36c7c809eb; 0x7a0e9466fe30497c; 0x54e1f76ae45bbae0; 0x63d78058c0cb425d; 0xfa45815d4d2522c; 0x164288887241c259; 0x272b1d09dde1d673; 0x48a69706cac266f9; 0xf773426e182d3d1; 0xd12ce0770b21dba; 0x7d09162a6a05250a; 0x27d8dc5276060e53; 0x5d01a165b2de156; 0x7e5f22625ef2cd4b; 0x49da776c85277b3c; 0x2453d6e3ed3429; 0x6cd68f295e49f13b; 0x36d505e11069ec; 0x219a0fec3e07be93; 0x758955e9d9e9a5a7; 0x6781887054d8ed70; 0x5db8bb8503f9ae22; 0x31ea6f884d1e7acc; 0xc4b94cf8628b93c; 0xfba9221699780bf; 0x250f8c84fcf548fa; 0x5ae62ccc2f8098e1; 0x3c96daf2e9d962a2; 0x6d81462a702739f6; 0x73f284f398179159; 0x5466163652af85ee; 0x4b2387b069cdf2f; 0x2a23ff0c5420cdf6; 0x254a18b4939a3267; 0x4c2abb3a10d6d201; 0x1a935a0cf32879c7; 0x78f1f386dafae31c; 0x120d4e14c498e1ea; 0x7484a8c5d485e6f4; 0x62377ba88a09bf0; 0x495407d629e97405; 0x623501d303dbac7e; 0xcfd99ccdcb05545; 0x229c9e1071fff135; 0x534b5d5aa2573bf7; 0x6d8792e00730cc46; 0x506502a74c995d7f; 0x10794382fd0eb3f2; 0x6ac882183f677730; 0x40c4beff24e866c2; 0x7b4fc8cb73f16c78; 0x45c25d8b5a66e0c9; 0x282ac51d1de34f96; 0x67b2e8edffc8adde; 0x468bf6544721c17; 0x1a3347f607586ac1; 0x49a592a7bd750cb4; 0x29a0c50145e04968; 0x19cde23698800bc8; 0x57771b5ff8cc0c51; 0x7c084311e8324808; 0xf1eec712a228e81; 0x643e06822f48af49; 0x12b628a062a39910; 0x41a464ed298fa8c4; 0x6b0ae43b6ff5409e; 0x504809c4ed275ab6; 0x569f04e4b4000035; 0x3de34d67df149536; 0x3bd2d93bb9fb8b45; 0x15e98a9ea71775b; 0x3219f841dfa047f4; 0x5f7835ccfd3d07e6; 0x2a82dc8638ab6ef1; 0x49aa1dbf1a9e353a; 0x37a1d934d72ffaa5; 0x5dce7f9f433c4678; 0x5a5ea26929ff2438; 0x32c9e138b66dcdcd; 0x73803c4f44cb46db; 0x4ff4092032151473; 0x5e2819882e66af2; 0x57739932cba166ac; 0x66aeef43faad7ed5; 0x403a3e890f26aff6; 0x55ce004fa1344e7a; 0x5f30edf38ceadd95; 0xeb1da8b64c0946a; 0x87d514bdf0cef57; 0x71baee545268c2f7; 0x4f422ff0e18c6234; 0xaf1ff5b5651ec32; 0x48d425ce49ae6ebb; 0x33a995b43a44b5a0; 0x7ea4141fd9e1d5ba; 0x4fc3624775907de9; 0x3621ed8b9fd0f75b; 0xf5133dbf497c90b; 0x3b131e9d12a8e686; 0x2a68b9ee5e798563; 0x59209327fba6f644; 0x5deec9027b1623d3; 0x5655cedef191bb0b; 0x6af0e2a7ce24555f; 0x75b348d13f287daf; 0x9fc56bd68aac176; 0x2dfa5403c93123c; 0x3d4cb9648427a7b2; 0x121ebd08f0b781b6; 0x68093cb8e0853a06; 0x26d7c5be43cd9a42; 0x590cb6af485579c6; 0x330039a55a9d3eaf; 0x1277e34496c7dde6; 0x30bfbf3b907e6f1b; 0x89cba757385303a; 0x543a7a5c39c73165; 0x1bb26160812d5656; 0x6d627b744fb509ee; 0xb1583abcd11f0f6; 0x5a4a53189d51697c; 0x62b8a2e4b9e65c80; 0x2a5dd83f77b772e1; 0x59abe6013926701; 0x1901f080f821b982; 0x351dc13b0ef9d2cf; 0x1be6b5f236f048a0; 0x7ca80af7579c0e26; 0x7762d03bf8edcb87; 0x485a348b37d00d45; 0x167d889d238e06fa; 0x41a630bc9e2ce0bc; 0x2e31570f7d619f6d; 0x22578900d9af6f0e; 0x6c6a43423b7dacfe; 0x4b938397dd81431; 0x7e91176a8b017123; 0x4444cd78768e90e9; 0x673d9a4fec59caab; 0x57698272071a467; 0x2b772eeecd56c66e; 0x7235472d026aa13f; 0x79edc1331e3c2e9; 0x4891df2bb7aa7c65; 0x2170347d903abcff; 0x3d174493be8265dc; 0x9c1002e94e369d7; 0x1c0a2ccb8b0cc028; 0x2023dd27d96083de; 0x332aff68f5ecef98; 0xa37f34173da3bbf; 0x229b9b2bc69f532d; 0x2aef1f25a6330c50; 0x313f0744de6e3ee0; 0x1854d585e2809b95; 0x63def38cb8f51cd8; 0x764a376f36586436; 0x35aa6e129a025806; 0x2ccf7a41227c0907; 0x676eea7a3149a0bd; 0x2d4d00c5a58314da; 0xe6a846318d2e4a8; 0x2f70a60e9763bc6; 0x62cf9e52fe028184; 0x2da3c7e7afc813c3; 0x34ce21cdca4db092; 0x6d89b8ae90c35e43; 0x5df09626d6294c31; 0x63e461c4f427c4e9; 0x716e45ec2fd99ae7; 0x552f366166fdcc80; 0x3c8d47f10763646b; 0x358930c274e43052; 0xa5431f956538cd7; 0x6a43ec5ac84c9296; 0x59ac0f9547b22f92; 0x75ec1057c2560efd; 0xdcd895780fe420a; 0x686036897a444d14; 0x71b6676902543dcf; 0x17bef6b42183960d; 0x1b996d1b08f155d4; 0x2e19d8b546b0f476; 0x1b1ea8002cc8770d; 0x2112bbde76577276; 0x2db034da3e1680ae; 0x5f1e7bd5dad154e5; 0x115ea89ca18464df; 0x3bc3699ee3110b90; 0x1ee10a57eaf36932; 0xe48b0fb72f21e0b; 0x53e0264272e3bc0d; 0x7c514f3131af8b85; 0xfbc318e2fbada68; 0x4b04b29cc8385851; 0x768e80a9a3de9ea0; 0x5d0c7efe4c32c529; 0x1fde0d3a3cb44216; 0x2b244c];
   [0x7bce5e2e7a67d041; 0x3230b34aa651bdfa; 0x399bb8f4c2b477a; 0x110f0db653ac05f; 0x7a0867e0281250e9; 0x3b907a3fa5cbc62; 0x7f90f79dc16ed027; 0x66ed5b052e53ae84; 0x277ccd96290cfe6f; 0x1480f99c91f78971; 0x4ffa9af91693962f; 0x15e610da168e8ba1; 0x1d1d8070113fc3f3; 0x623d8d278166062c; 0x7971cb5d6313522c; 0x2b9cd384b807f7ec; 0x2bafcf2c8c26cb45; 0x50864c3c483b812b; 0x149cb2d84b55b4f8; 0x704baf75ae7a16e6; 0x60b803be8b3aa875; 0x39aaa4f75390e778; 0x3a0f8c715fe00db6; 0x69c0d0b7395dc2ae; 0x6d65f759d00fc726; 0x341b37b753f208c2; 0x54f986627efa3999; 0x602795042574d045; 0x1ce8f86e5ee93483; 0x1a0c0d3a601e1547; 0x78dc2641201058a8; 0x21ba99f7cb09110b; 0x7e3ac0a011b9b6b2; 0x6c427a796c7ac5c6; 0x20e6d6831996f635; 0x231220d79c3e5f22; 0x6d8a103beeb55adb; 0x2705e708740de3f8; 0x19e943d0d4ac1029; 0x7cf65358822ae413; 0x2b12639f6c22dc2e; 0x76c19ea6357ef36b; 0x3efab9c6e20a1ed1; 0xe6a1b6013ac60fc; 0x527cc66ca5cf3a4c; 0x2a5fc8f9381f63bd; 0x8f6c4fcd947f487; 0x3c9fd076eb2b7422; 0x64475e471401c6d; 0x45cd6fe0e1bcfc40; 0x2ee85c22c4ecebf5; 0x7045d554d0940254; 0x417e1f2f42f77e0a; 0x70bdb822fedf1395; 0x4e3740d002d4306e; 0x50d2b92a2750d442; 0x476cf7eb31835b51; 0x5239fc51baf78676; 0x5b2e4185fe1468dd; 0x44663fa93310c63; 0x1845704875078566; 0x7a318f1de86329f; 0x1ac2eadeb270ace0; 0x46ea6ce7bc1c11f8; 0x168ce998601efd5f; 0x1b9b35ff6ad8dc78; 0x73e54ee983c6f1b; 0x768f9924e05984d0; 0x429c2b8345ae3673; 0x87ca8e857c16cfe; 0x6073231d54b138b9; 0x37825f3836a770b5; 0x4b8fbead94cf840e; 0x86207e09b7e2b07; 0x119bf83e0e1c2183; 0x68df3e41ed68b20e; 0xcbd21e7baf8ff27; 0x4e65290ba9552374; 0x7707ff49a6582d07; 0x3c193026b676bcb7; 0x195bb008c098d311; 0x619862644f893411; 0xe4ee6fe06dc178f; 0x5ceef4b8c969caee; 0x254727a4eaf556d1; 0x578c86e1d386aebd; 0x36eab0ce552c176c; 0x67583917d1e503bd; 0x5fc00377c2c171df; 0x291daf0da6221e38; 0x558b7310f48a3b0e; 0xd12aca9b60ab8fa; 0x4d7ef14dff2f9aad; 0x197f3738fbfd1409; 0x61d93839a2c77fee; 0x713563bec8a412f8; 0x32f8ce55d931d6cc; 0x51671642e7f4c554; 0x7f19d16e3c4b34a9; 0x3cbdb3eab64fb264; 0x7a17529114e47ae1; 0x77d37cf213aa908e; 0x3cb54dc049334c56; 0x51be356691f94940; 0x15687f82e7bee063; 0x621628d9cf99fc16; 0x134addfaee7364db; 0x580231b1e0bd9923; 0x3cb598606bff0f07; 0x5f9eaae49202556e; 0x738989a0fa6fb3d0; 0xfd4fec224e29593; 0x80677b29ee634e0; 0x3c87e280e928df25; 0x359d0dfe209d14f6; 0x53c398c51cfce289; 0x5041cfddf5b324c9; 0x185df351c1f6adf3; 0xbb4732a8842419; 0x635d06d1409e8374; 0x5c0f41bf65b7f8ef; 0xdac2f8d3ef840cd; 0x7de6c20226424349; 0x38fe9c239f27d8bd; 0x5f6b6c5a11721f87; 0x397bda2c79d3a570; 0x35248b5069f2952; 0x5e7267ff0a9f4cda; 0x455c687a78a6b02b; 0x16a0974fabcde6d7; 0x442bc1f38ca50047; 0x7385f29136f7016b; 0x12f0d9a607af1039; 0x71dec1cdc9c401ca; 0x56a8c27191c4d94c; 0x4b259a2f47865e8f; 0x4290dc6e9789533e; 0x6c9805a0ad5e0aae; 0xce9d8e34c68dae5; 0x23bfce4d563f8fee; 0x580d6dc003fd7bbf; 0x3333258f6f963cda; 0x5d7ddfd8b19df932; 0x170e2e27603b4e32; 0x6da53576633fb848; 0x5a6af53b7c90db1c; 0x61dca62120bca0ff; 0xabab7b62133cbec; 0x61cbea2b40740cfb; 0x19c188cd36a6c107; 0x6f28633c062de0c1; 0x1f38f7562d62e8e5; 0x1960c6421b5d8c60; 0x39c1e73624920a63; 0x782d37789267691f; 0x1f71bacc00f64dd7; 0x5c46d2a6969d1a6c; 0x57456482b7addaf3; 0x40e0d306a80dc82e; 0x1f97dcaff7d5cd6; 0x53696f2297f19a78; 0x413a18ed907411c8; 0x4490f8471d7f786e; 0x79945d50a72c65bb; 0x5bb530564916c438; 0x5a65cef8b3d9049c; 0x29a2f2cdd0dcf408; 0x597612cb3090d99; 0x470a46c7bc7bb426; 0x68c29b8054a431d0; 0x3cd061eba845a79d; 0x5c71ff90666c9851; 0x5ba29528dd6768b3; 0x51ea600568169356; 0x36050ef0527e3dec; 0xe4c03ff1b674eb2; 0x1e6f6a5090b72930; 0x4c463059714d3ca2; 0x3573f4cc1e04568e; 0x40e4731b2c93418a; 0x5e438038738ad7f4; 0x319b361b95b3c0c4; 0x4565ad45dff72288; 0x73c9f1f96bb13651; 0x43c723a556bdb5e5; 0x5e496741366d8b86; 0x6b91d778a98c25ec; 0xfa0a5a221f22da8; 0x379292eb7a50e467; 0x514c143ac860a457; 0x657a22042a7624d9; 0x7a5b83a40d253023; 0x35de661db71af811; 0x4a35b5b15a951575; 0x6811da98f0612d0b; 0x320c3c24e98b5e06; 0x4f11221d1606d016; 0x5d623eb7a2aff03c; 0x645ebc98f7a6299d; 0x2ba5c0f401f42d0d; 0x382a26c1c8d6f7df; 0x6dfa7ec0968ace0e; 0x493095ca00149e2f; 0x79d67d31eae4828c; 0x5d23e9e57b41760b; 0xab62f2cb9ce37a3; 0x627af209b9ae401d; 0x5c2623c9912ebc0; 0x512022f6ddef8e4c; 0x4a94b5a84270ec63; 0x4e7d32af70c69d6b; 0x1dcb2034c53ef323; 0x46554422a58abad4; 0x1982e9146fd9effb; 0x69a80a6a2db195fb; 0x3e67c4802d6f1b2; 0x783945a92a5b0dbb; 0x765f4b6f18c38714; 0x131d81fd5fe9defe; 0x21c27382d24c9335; 0x749dfe533f56c2df; 0x3dc0dcb977526b3c; 0x7ff07018012e6bd5; 0x34b9f0082b41c1c; 0x90a88a9b43fbdba; 0x1e149fd5406d2a01; 0x15486158b7412948; 0x26141bb53d51c084; 0x6aa05eea77901503; 0x77d00359543bea2; 0x7ee503ad46b2d29a; 0x221487f29b4d7a8b; 0x310cade01365b17b; 0x2c7d6e3f917d58b1; 0x79d7fcb2d6e40dd; 0x6062f1d3d1421b12; 0x1cbf5fadd1d77909; 0x1f1ff9c018257040; 0x5b8185f4c7c823a; 0x4cec851131c1898b; 0x2d7f30be3eed2d49; 0x17995b2507ce0e1a; 0x2deaa86d0c985998; 0x4cbc3de7c5e1909f; 0x79d7c9bab3a0cf95; 0x3f4f85e97e6f401b; 0x2217db66a86d1831; 0x2cd1a49503da40de; 0xe9e44c5c3dcf6f; 0x2ef3c63a7a864f5e; 0x32d1c8eaca8d409b; 0x1815149ed123dd79; 0xdb72d224911c932; 0x3f747753ac5afd13; 0x6f9e360b0315db71; 0x72ddde6778d02ed3; 0x6c890670437ccd45; 0x253abb01b95cdb2c; 0x3f278fc802f11e95; 0x6f19dd8453a8710a; 0x1259295acc544544; 0x632a127026bf649e; 0x494df1b20712cc36; 0x79c394c41ccddcce; 0x3fe94f0fcc26a2b8; 0x309aa01037934690; 0x6758337b3c22e8a9; 0x5877ffbfd0457094; 0x4672cb1e4510a710; 0x1fb724decca7b71a; 0x487e81131eaa00f5; 0x79db319a9fe487be; 0x73d2d541013f82d5; 0x2279af264da10ae6; 0x53e18a0901d1b48b; 0x579944311c760458; 0x2c0eaaeefd8ca795; 0x52c64ea1254c1918; 0x9811f60fd2cbc99; 0x32af2cd84fd6fd1a; 0x10653b43b3cfd1e3; 0x3cbf3469944afbf5; 0x28531929b94c1e1a; 0x1ca3135b0ded83ff; 0x2ddd34c427cc146c; 0x435eaad3a0cfbb40; 0x7a7f2a180a2057ac; 0x657771529eccc90b; 0x5bdf95f237e68015; 0x7456890e210a664a; 0x3dd7f77aea584577; 0x1a86cb14f10034c0; 0x44be034cf169853d; 0x9e281abd7da3e6; 0x684b3b9a060d413f; 0x2623e7e36e845b6c; 0x11bc20649e5585f; 0x749a842b7e91c077; 0x5fd1f09144daee78; 0x4063cb4f17f84c53; 0x456b89e726b0d3e1; 0x6b0c0df2f03503d1; 0x2465faac241f144f; 0x2d15769c1b4d6aa9; 0x4dffd7b49d32fa91; 0x75bf8b7b956b1c88; 0x51461ab1b903c1c1; 0x14e55667e60e50c; 0x1d8a35ec31c79968; 0x17822ca3ce231920; 0x7740000d894a013a; 0x72756a7c76cf5cb9; 0x6fc7b72eaca8cf32; 0x2523ef1c6ac70b6; 0x7c129817129a0782; 0x428372e7e9c5ff25; 0x710e8e5daaf2721a; 0x912da];
   [0x7e283bf21bac9643; 0x3f88b42d48bff91f; 0x6710fd794207b3a8; 0x3261d61e09157965; 0x2462bbf0a1bb865f; 0x7bacb1066146b590; 0x2bd5785909ce9666; 0xbcb1941bc735674; 0x25af3dd7723d515e; 0x4ee559834b7d9ba3; 0xcdef1a5f2604f1d; 0x54f200b4353acbff; 0x15cb84a575176656; 0x1b61beaaeab3417b; 0x4ec82d51976201a; 0x2c623a3b0c12d9eb; 0x425b797c3624cf87; 0x684143f6fd8930e6; 0x2679896bc9a24630; 0x6f1f560df82c2304; 0x3b9307e91402729b; 0x3c5a5db051a2d845; 0xe8d1a1b8a3ad558; 0x5235a904acaf41e4; 0x4f3f9d69b1d0bff8; 0x3086b4026e3280ce; 0x5acebd8fc0ef5eaa; 0x6c3857511cb18ce7; 0x24ddd4fccbe595c5; 0x6ba393b17b0dd06e; 0x6d755a728071f6ce; 0x3d6e063577151dbd; 0x779b1f1a8e55812e; 0xe5851b672836868; 0x951e5318e7917d9; 0x5ef6252d32d40261; 0x2786ce620ecedaa6; 0x1a82f46f17333a55; 0x37717670695c4b3; 0x59b46f8e01922ca6; 0x6df721dc148fe52f; 0x229ce48d99446a8d; 0x1edb522adad17944; 0x6d46199de15ff45; 0x4d7b865a04265bdb; 0x6fcd8d958a4d52a9; 0xe57d2cca77083ba; 0x72e420694727e2e; 0x7feeca8aef61620e; 0x5a1148b16cc33169; 0x75f49d97125162aa; 0xcde716c3dcecd98; 0x337b281ae474a166; 0x30945ef18cbae974; 0x21ccf99de9566036; 0x67b73e35d3f8342d; 0x2df77ff8327508d3; 0x4d85f62a7db3366b; 0x36e15c412f822fe9; 0x54ebfa97c2e3acf8; 0x16cd0c05098cbf16; 0x56bda7b057e8fad0; 0x711712c2072d606d; 0x1a97f8fe351d7d7c; 0x14660efd6bd3b9e8; 0x743b88f49cfbcd08; 0x34e9e4a36360a0c1; 0x4075f8f41a95972d; 0x4025efd68a5e96f6; 0x93c7db9ea3d95a6; 0x346c22d08ce1cc38; 0x6ee98e8fa78dbd29; 0x5432f9e8928b88a1; 0x609d43910d77b7b8; 0x3ca215bf51d66368; 0x47a97c38512444f5; 0x71e15dbf5897989a; 0x34c4431a8cd88cd0; 0x4cd141cf4736d891; 0x3ea2df8594922fd1; 0x6e57c30216265803; 0x14f3de6333418ae; 0x286f8fe6741d201f; 0x59e5729898b33202; 0x6b87597d76c020df; 0x7d8eaa1c92a23783; 0x47be04d398cdded1; 0x1e7aad94ade3104a; 0x248cc4da07f3ba8e; 0x352949072200764e; 0x4df578b9edf42c2d; 0x4b8c90791688506b; 0x1bd6c4729b1ed81b; 0x781a6e38b6de81c4; 0x72c3afadea92debf; 0x28e973dbd67a3576; 0x272f201b2dd9f79a; 0x34f7bf4f99d3cd26; 0x1e4231afd3b8570a; 0x43ef85c6111d9406; 0x33bd7366592c2099; 0x5b6f390851f7f4f; 0x62e27cf9385ae8f5; 0x278c955c5734a175; 0x4bbecb6f0a484c0b; 0x1cf65d43744c0bad; 0x6854f23e037e2d55; 0x1cf2d5fdb822460a; 0x39800aadd771342e; 0x29ec2a5755558f0c; 0x6c2553ebb181496e; 0x728e1ac24596a4bd; 0x72805d25d67f8b89; 0x7f892c0568da4a5; 0x7d88320aab2be54; 0x5c19a327866bee2f; 0x172e5b006e8f92a3; 0x15c31d4c6b0f4a70; 0x10d7df8ab4a4ec57; 0x72e82b6f91e86728; 0x807f860b2070ea7; 0x46d2ea8958d3c869; 0x17a3ea7f4fff3d91; 0x22dcfc4c74faafac; 0x46a239bf38b3d05e; 0x689b1a052b1b134f; 0x768e9c8633195c66; 0x27ea1a850b58a3ef; 0x6601c053182704a2; 0x4b7db3154c6a9f64; 0x602b1bab2d78f2f1; 0x6253c67e0f3e59de; 0x42c3b311842d8f64; 0x67ff0bb95367e51f; 0x29486912eaf14567; 0x5bbbf4d5e23f3b3; 0x172186cc6654fe94; 0x79a0d8ba0f77b772; 0x169d86c8afed5ca9; 0x1dd92aca07c007ee; 0x432e25f6cff52ccf; 0x717ac7a0b9a45b97; 0x30c90ca1893241f8; 0x633b1a3626c670de; 0x31c9ae2f07f0378e; 0x115eed220073cdbb; 0x26f7309d65e54b38; 0x47693b5469987aa2; 0xb629d7cc4726d6e; 0x1752e61da1fb06cc; 0x447f9d8e72d944c; 0x874112031dd3b60; 0x4f7c0442084ffe38; 0x63cc5486c88968e1; 0x5787ac0c3e7f7a25; 0x50ad776865d6dc35; 0x4f2a4956b9d8336c; 0x77a7b972c8f500b5; 0x7b9c07ade2402850; 0x2946f708b094d86a; 0x15812a82311fc18b; 0x7f8af99ac4b85a09; 0xc29c62f199f8a0a; 0x243b9a8c733794cf; 0x230cdf89ccb72c16; 0x7cc95d8a7a700889; 0x1a84155bed3884e9; 0x7988431d5e528b18; 0x2b48e01444f9493a; 0x4aaf796f6a9176b9; 0x635898fa81049aa9; 0x3863404caba33e75; 0x1b79775dc7fc33cd; 0x69ab11f0041ba50f; 0x6b32851683a52456; 0x1d6245762b89611f; 0x428df0e72b97245a; 0x7e59bd141f3d1168; 0x3f140d18f4e5dd49; 0x19b839fe8e979623; 0x62769dcfe1e56bd; 0x8d3288d1597d0d4; 0x5c89ea85aa55fa2d; 0x6aea118b0216c896; 0x1d2289dd9683b695; 0x11001eae9249ec5d; 0x5ca3f8eba6472be5; 0x5b03cc7ce697d5b3; 0x7af9599ffb32445d; 0x712bd851aa9a1388; 0x718e11fc8ffbd9d3; 0x772fc8579820a0a4; 0x698381892b50aa67; 0x105fa4f9347eec; 0x753f80e951447ac8; 0x60d882653b332f7c; 0x3e12e7ba0a432d73; 0x5391ef3681dead1d; 0x6591dbe84f1bc826; 0x5e9bfcc9bd999756; 0x40f997995ce03128; 0x10b7021586b4c1e4; 0x25e4489a7040bddc; 0x1535bd8f4c180b03; 0x52680beef88d416e; 0x2412c9694246cd67; 0x3489d43bd16b7799; 0x61936068a871d21c; 0x85f18cd68b532e6; 0x7edb3624b195821d; 0x7625ff0b3ff4f9d1; 0x3ad94719769b168d; 0x7c2c316a75a63f65; 0x101d3b761146718d; 0x5156000f1e342b4f; 0x362e678771b0ac64; 0x18c86e60100cb2d3; 0x5a27f49b7ae6ee3b; 0x7996f25efe70b212; 0x2e181084ddf736ab; 0x721b62ad2a9206ea; 0x77c14deae2e4872d; 0x4f83cf6fbd398c9a; 0x4858a868157b34be; 0x297a55e394aa9aa2; 0xe52b3d5dd404e86; 0x34c862cd65714e4a; 0x27041e683a1fd752; 0x1b90b049b6cbb75d; 0x6694e421a6a6ec34; 0x14ffd8e9baabb7d2; 0x3d871a7121f29e62; 0x5fcfa214750ac9f0; 0x6d8f3719dde0514a; 0x473bd6171897e011; 0x3a5b58a7fa2f781f; 0x6c99d6d7e07b391b; 0x2a3c8607d38a5c51; 0x1235fc531b5f91ca; 0x3d267d7a5b32be68; 0x36990379dbc98c7e; 0x65fe245791afd6fe; 0x57835364d47f0f80; 0x5914f382a50da39d; 0x5f309c75d3e02b44; 0x219a2831d768f32b; 0x3ac63f97ec3c1240; 0x38c5cae1ca8e6498; 0x12bd646027c40649; 0x6aa060c465673ae8; 0x33a17756e676fd74; 0x9097578e9f69f42; 0x7209968ad7620327; 0x48e3b97c611b9a47; 0x14312b03c93b8f0c; 0x643f9f9218997b88; 0x24ab016f776307ce; 0x31b91765c156a05b; 0x667e7c6a68afd081; 0x4bc22d3058cf3f0a; 0x45e6152114b516d2; 0x15539480040d8959; 0x15e56d5c19b462a0; 0x5e28e7f563834d87; 0xe4c775cd5a044b6; 0x63df053eb94c069e; 0x2cfeb2631e760279; 0x3d3086c4e7d0c356; 0x777a9d9df10ab559; 0x19d43709e56382dc; 0x40761593d13cbff7; 0x39391b8ae9806c5a; 0x54411af0f186fc47; 0x10d927702e32f93f; 0x5414c41bafba4ec4; 0x5a5fdc022a8eb622; 0x14d0e671da888a9d; 0x1994adc69b616ac2; 0x45be9db20ab813e1; 0x187b668b19ca085c; 0x1f3f2f2da2e42e93; 0x34960f941fc40ba2; 0xe02ea1a45aa3330; 0x58b6022148c45a06; 0x1f89b4d289019921; 0x4c26da0888adf7b6; 0x652c290aba761852; 0x51b867405f72dae9; 0x7b5e0a3034b239ac; 0x3202359964f8b841; 0x27247ebc92e38597; 0x6fc8964f8c2ec8f4; 0x66ec1769e60f3771; 0xcec9e7879ab31e1; 0x14849c164e64f336; 0x63c94f4717381fe4; 0x2a6fa304db7731ff; 0x5e12088cb06fe7c2; 0x47995f6ae6c89dc9; 0x768d1f1d0fff4984; 0x740debc267b5e702; 0x9b9b614405d60b8; 0x6f68b586bb4ed2a7; 0x658711335f391cb8; 0x295fc50d381b4854; 0x4c4354c9ef4c8082; 0x1c205ea834dcb3a; 0x2416ce760315a545; 0x30931ced0cc0ad86; 0x6b45547bf3e68fa7; 0x1700d36dec687fbf; 0x37b4222e4407526e; 0x3a906e18a43749c7; 0x344c45af88327d26; 0x4ba9071b1abcf44b; 0x36c6f478da03d7f; 0x93a11098dfcf971; 0x2db09f];
   [0x1c1c7a3efd0ed760; 0x365a6aec66c0b31d; 0x50be3db54eee619e; 0x1dde5598eda0be06; 0x1c67e9724f3cef56; 0x1c4236ddbdb6fa7d; 0x4f17733d24ab3ad7; 0x4b97d2d969ad43a5; 0x6508fffa94d1c50d; 0x46adb044653badce; 0x7661c3b2451c2f5c; 0x61c0732402c7cdb1; 0x55fa44225cc91531; 0x4c413a99eee63f54; 0x1f43f3f48069939e; 0x5d54e62b90a526cd; 0xcfed6c04d9f47cd; 0x1447bd0349547a2e; 0xf3348add96cd77c; 0x223f9af40ddfaffa; 0x4be5cc4fd37bf6d9; 0x74f8f62f4a9eae6a; 0x6380182299098aa8; 0x48f293e58287addd; 0xd913ffaad8228aa; 0x453f1c019bf57c1b; 0x5acfc95253ed3cde; 0x2588e08f42b5ed31; 0x6521929535973419; 0x18d671b49eba36d8; 0x5406af7e61c8f9f; 0x32cf91d9ba58b695; 0x266f3e901d33f05c; 0x1a4a0f2a079502fe; 0x375fbf995c654d16; 0x4d3629a33cac4a4a; 0x7be60fe401bf099a; 0x49be1f0a7bb74cd0; 0x21f65198a1d87edb; 0x39cd959bd4d5e2c7; 0x8f07d710fc0e31d; 0x54e6ff6b981d6580; 0x4bf0b02c9c63d4d3; 0x76f982b17762c085; 0x4fd69b6a91706d1f; 0x66ceb4b607d34f7a; 0x7cd25cd51a1c3b27; 0x41d642a7684896b4; 0x2d7acb25f038e074; 0x70720d212b3348c2; 0x50c7d7657e88c449; 0x275ab261a84ccb0a; 0x329630464ab2e314; 0x43a533df3e063919; 0x1b919326013994ba; 0x393168f7862e03a6; 0x2101429a2d86477f; 0x1022d3e2e6b48240; 0x461981ade23d7e0b; 0x6a2812bb20947923; 0x408d0e9019de504d; 0x1d038f52e8dc4bf1; 0x29ceb58dde4bd1cb; 0x10e8debfb68f091c; 0x25edc60d72c5004a; 0xf709b7f1ef8b014; 0x53124edc62175e2d; 0x1ef5fd93538688fc; 0x472cd17e22cb01f8; 0x484d9e7267c0d4c8; 0x318620b4a0489baa; 0xb85d867d0e47248; 0x6577152249b9720c; 0x2f9e933a27d8af8b; 0x24341aa9ca4670cf; 0x6fa792e4cd115104; 0x714dcde13f622824; 0x1b13283e5deb9e04; 0xdef772feadfa82; 0x4938ede5342bc4f0; 0x74643d00ff801dab; 0x52d8929739849ded; 0x4772724b8fe10433; 0xeac3a88a7454e4d; 0x6fe4ed1b55f6c150; 0x25183962f5c04e50; 0x5d0628fabda8b404; 0x60b8acd4d58cbb03; 0x4979dd4ff9a05e80; 0x7dc6448de9992d62; 0x35ccd17c6707ae06; 0x5aea2d20131c8d9; 0x6fbc6f527103aeb8; 0x1a5ff319f5ea1208; 0x2ea4b2a228c2a304; 0xfd8f044e34abea0; 0x6993393d230aac81; 0x22f70d1d4c0f103f; 0x10b54b8df388682c; 0x1eea744c25231353; 0x588b9650b47e89a; 0x45880ce7c3be9121; 0xae0ea5f8100998c; 0x4c127a5caa52aca9; 0x29162c580ca21bb2; 0x7a654f96313f1fbc; 0x27ef0ac99a8d582; 0x1c1b46300e9792d7; 0x13605d576e5ba97c; 0x164e9a186b06ec7a; 0x5222f8fb6a643b4a; 0x6941cf8f79510927; 0x960b613cb20cd97; 0x115f4f870e27d0a7; 0xedcf5c2bd1d33d2; 0x20d10fa5919d6b8; 0x781b64bb0e3419a7; 0x494b4a40e9467c73; 0x834a7ef98b3470b; 0x2293054aa7c7f570; 0x4845448ac43e161d; 0x7b160615c242bdc7; 0x3c9daae030e4006a; 0x412b453d6c1942e5; 0xdaaf34b7fb4f796; 0x58a79194dcb92549; 0x1d330d3b2245fe83; 0x63cf7d5098479073; 0x73c0d2a4577920d5; 0x70808deb5d3eb96a; 0x8127a7f4a2d9fab; 0x33010e240a31d3e; 0x1364dd275c60d2e3; 0x52e307f72ce64672; 0x6c7f21baeda00909; 0x174093ea3b237b53; 0x2842f77cd5d54953; 0x1bb0583312c5fc4d; 0x57970abff083aa26; 0x3b8e182fe3d6bb1a; 0x753409e0b8e7f3ae; 0x50325daa567d8ca2; 0x255d6de809cb5faf; 0x5669024f709d96b7; 0x4301a8598055ef04; 0x6226b7e5b84a5caf; 0x71a5525ac8ae9e22; 0x22bb06bf90c64399; 0x202e3b970af61900; 0x1fef2f5d2deac6e; 0x50a80840605166f8; 0x447bbbc33b0ea253; 0x25e84c306445f626; 0x5b0f0182e86f659e; 0xcd4fbfb16ffc6d8; 0x58cc6d62bbbefa3b; 0x7cf1de7393e57e87; 0x64c3bb91e49163b3; 0xd1bdaabf18c0ab5; 0xe36dc79e3b1410b; 0x67bc7ed528441e7a; 0x1cf0db56af163e1d; 0x7bff07517d6e4a45; 0x4c9a8b96df56aca; 0x710fae1bad9f9aed; 0x51ae6ae95ac28e38; 0x70cc693b4558f834; 0xa4fb0a421df6579; 0x5eb996b6f65fb2fc; 0x100a6614968a8a66; 0x56bc1576a29efa9a; 0x53fad86883336ad4; 0x636dad57d460ecb5; 0x39b7acb3acbf530d; 0x5ce0bac565be86f5; 0x241f3041c471a50c; 0x43c56936da02958c; 0x78ad4bfefb862c95; 0x600fa0aaf5efdba6; 0x328281b1396d3ae6; 0x2e94483be7ba698d; 0x6b1d641fe9c39d3a; 0x20e5427c9f218ab4; 0xb1a179bbfd77b9f; 0x3f5828143f0f3a86; 0x1c9132a773a3556e; 0x3ce30b99b5068fc; 0x2f2f493944ff7801; 0x72940ba7b976b221; 0x195e11719e0673a; 0x38bbc5b2908725e7; 0x54792ffa589fe1d0; 0xbec789d1b8f3059; 0x5244b863bb970339; 0x23672acf2521afd9; 0xb87d50207adf7d; 0xb1158472cd53729; 0x39014f55a0e74ef4; 0x48dc42e8b40bca3c; 0x665858be2a6dce26; 0xf8de5a986e017ca; 0x34b9ae0ea8dee452; 0x2d8b8b42e3c9b0e9; 0x10951f29cd95b377; 0x3dc7b46bcb1b41ca; 0x58f5222fd3d03fc3; 0x5dc6892254e322f9; 0x64cef93add8f9; 0x39da27e2d34f4eb6; 0x3db8eb2baae55db7; 0x3375312f64d20209; 0x45952d81a0eed0f8; 0x655d496fdaaec733; 0x4f0fc289b9667127; 0x8f6e8a5c0d40b8; 0x61bbe797c08bede5; 0x71e301b6ade9edf1; 0x5dd18d28f81ab4db; 0x4d1fa1acb330eb13; 0x6be1dbb89ccc91bb; 0x2ebd8abd2304939; 0x648408de44314169; 0x52e0c5d54d8fc87a; 0x143324f8c5427ef5; 0x537f9ac07dcc2b02; 0x299f6a057bd3c600; 0x1a83511a199d3f1a; 0x12dc6222a291afbf; 0x49a3c5dda656d1d5; 0x621a3166d2b69db6; 0x69df9bdd1dc00ba1; 0x7b38a44ab262ad76; 0x58cd54d6a5546827; 0x2875d3adb0fb5e8f; 0x151d4aa972ac6d36; 0x6a0c29166cb5a67; 0x249ee8e740362dca; 0x555e097e4ab1766; 0x4c26c40f512c3e8f; 0x633bd793556eb6b7; 0x10e5d0c71ae4d251; 0x6eaabb47ae637f0f; 0x3940a31b6fd57886; 0x5dddfca982208eef; 0x167f42c1ea139306; 0x11d6504a6bbfd72; 0x3cb11991ba66cf17; 0x206b40603c5967a3; 0x4e6fbc61d463e692; 0x6e2c815c6b05273; 0x7531fc72529c99e3; 0x727b549f52757851; 0x6e75068b15674175; 0x1c832abf2e1d0ec; 0x4417e248f38bcc2d; 0x49b0d15f7c40f25a; 0x5b7a539fefa31ca3; 0x7d9f299ba40765f8; 0x44d85ad7d10bbe93; 0x5af41c5da0e20fb5; 0x75cd77fee7eb7d23; 0x6d96d02ec9cdc3a2; 0x105ea3a78081ebaf; 0x4efc379a35db9f1c; 0x2cb4e676bdf4c1a4; 0x3e84048ce1a394ef; 0x231b3d93fcbfece8; 0x1b549895ea64cdd5; 0x5226446c9b4f8459; 0x63c94e2647eec858; 0x9bd2b80a431cb21; 0x36296cca916b604e; 0x1fd08e418e927d9b; 0x223798caa78fae8a; 0x47430e2538f234a8; 0x72e20eff2fca1638; 0x1bd76a8b09ba6660; 0x777dfd95685fdb00; 0xbd4ff04342de97f; 0x4942056b4140273f; 0x57da617e2fa982c4; 0xaedc820bdcda7b1; 0x3c4e46f63101380f; 0x2e24bd3cea1e8439; 0x6a74c74ab15727f2; 0x6b375ee3d86549f9; 0x4a0604385ac9c243; 0x406cc75aff322aaa; 0x5c6113a21f03c279; 0x46349ac07d92eb62; 0x6c04328262c8ec0d; 0x7fb5a276b3d7e293; 0x3c1231d26c9d5659; 0x1a298b3e3bc0be49; 0x4f78c6356f9dc028; 0x5cf0e01e37fa0555; 0x568e4b64a214acc2; 0x2e2ab8c40c479d5c; 0x2a8c068c68ef2b30; 0x4e6ee9ee8fd39fd3; 0x30508e4e149ef3f2; 0x36d92762ab44f17; 0x5d45e782e3581da5; 0x6b4676eb099a1e05; 0x3351fb1eee0efcc8; 0x36fdd4e92f870cff; 0x12ef990a30e22613; 0x4f72ad06c003eb74; 0x6cb9bf890ce08f3e; 0x1b0a94c7ebe14448; 0x605620a8c8139a18; 0x4233e94ad9800cd6; 0x71063665ea1bf13b; 0x642e3a8cef5a472e; 0x1b9cc4ee96cd3d98; 0x10a453bf4b23fb7d; 0x4bdb9caa80544371; 0x250a16];
   [0x3e555a8a08332fcd; 0x69ee64565b11dce5; 0x7536d16e853736ba; 0x7461b483b7659a44; 0x4509368a95d8325a; 0x6efa2dba5fe4d35b; 0x4e1eb626a983805e; 0x603b681f58578695; 0x689ad2abc1df205a; 0x682848df80415cb2; 0x4e34a42070c34b; 0x545849f8b28a37f3; 0x1e434e7482e97600; 0x180481039faf433e; 0x47cb59edc01b28c6; 0x5d302a7c6d66c57d; 0x5933ea62bd0676a0; 0x120c5ff4bc4f46f3; 0x33fca62ab5c0926a; 0x38edaa5de1f49579; 0xee7e4efae73e8ba; 0x23295dc02db93e4; 0x3a06cc54891bda16; 0x51213858e1b8a225; 0xff149e262f00bde; 0x5125858c1153672; 0x91279002931ab29; 0x35aa895c0c42a34e; 0x67d9b31d4dfc229f; 0x6cb70a3e442df1a9; 0x2eef21c069b350c2; 0x3395d25c45253ea5; 0x28a016be6b3b71c; 0x53245f77e66a754f; 0x641bb1bbddd14cb1; 0x14f26c38298f9a95; 0x589fcd194df680bb; 0x502150350bf67ab9; 0x6e564f1940f9d73b; 0x1e82d4609fb1cfeb; 0x1d60a6a13237134d; 0x623b1c9fcb62d5b8; 0x127ea0b3863dff14; 0x6b9a77013018b34d; 0x53a50bfe17e829ca; 0x5c225525a192c6e2; 0x4a3637a1e82a7d0; 0x7edf09fbdb05d9e4; 0x10578a12bcdb4f0d; 0x5f0575427743103f; 0x37c731ffb8765acb; 0x4b62aa1bb32f9153; 0x4aee494a854643fa; 0x3bf093f2723d5197; 0x569a710e874e442c; 0x5c5c7cef06355927; 0x58b85697cdafd594; 0x7c93a6d0a00e1e27; 0x20e48b207702989a; 0x59a21ad14fdd97ac; 0x5d5e0fd78d5e3abf; 0x4a499a836dcb4788; 0x6751b544455d70da; 0x17bca75cb4458e65; 0x35384b8092717ec2; 0x6168817d387bc2ed; 0xe3809d8e5700d31; 0x166c737171eef380; 0x4cf10f17b040e46d; 0x4f0371308ee09a67; 0xef06bbf77c8acee; 0x562158166089c9d4; 0x5f6a6b44cffd673; 0x6119c17e4998dc68; 0x112d25c2ab853cd1; 0x3881abeb38794825; 0x1587cea9b893611; 0x5ca81291739cc2f3; 0x7f2cc87cf06b518f; 0x1b612401cb2e3570; 0x62e9a4959187f18d; 0x251a3f1bef538132; 0xf04952012ffed5e; 0x3c360ff02b3d22c; 0x28b88af3b445761e; 0x4180c99588d523cc; 0x3e0fd0ef646497c7; 0x7ad83503ebfa93e; 0xc964199bcb75749; 0x7d1ee52f2cddc438; 0x5d91bdbda271b3f5; 0x7f006ee279468713; 0x63d0edc23112bbbf; 0x7f73085cc8cb0857; 0x312aded26b9a1ae1; 0x262756f0f50f7f9c; 0x16d9064c45024fc6; 0xfb956e01836e447; 0x187995943362f280; 0x50066c04c4c59406; 0x584a8546a10bb776; 0x5df44ab262a2b03f; 0x2d1358c5c913e5c2; 0x505469ca26aeaa25; 0x5be665e64217029a; 0xfdc5cff6ce5e671; 0x5310c7826966d0ba; 0xe115ebed255109f; 0x5d357a7924f4ce92; 0x28f7f504144267fd; 0x420b1d79e0d9cef7; 0x30ae2a34c841a640; 0x26dc405cc875657f; 0x508c804ef1d4dfa3; 0x522481b02c4f261c; 0x3a716fab21f22b57; 0x721c4f9c5b713b00; 0x4b234acb1d215f66; 0x19bf74380eedc96e; 0x42d200b5001fe84; 0x61803df108926f83; 0x242687676a49889; 0x2535d077369b4f52; 0x7232ceaffd50dcd6; 0x692454ab51d2ffc7; 0x7b161992873c0c19; 0x535ac884bc24529e; 0x5151003d699fe0a0; 0x338b5f0843a3c19c; 0xf5a96237d1be1b4; 0x5fdb08f0b5783273; 0x4d0df7e7823f20ed; 0x5991c95f956ae760; 0x14579743056f0b6e; 0x24d36ac6c220ea54; 0x244a705279b20964; 0x36d7bfc7b37d8013; 0x229300eae3d091cc; 0x58c2e486ce8ca386; 0x644773427745d61d; 0x348679b64f8c334f; 0x6150e92995fb4c80; 0x62d263a69a6cfa0f; 0x11a60a056231c49b; 0x4f6a5688cee0a683; 0x66cdfb24f16cc23; 0x701de176a75b1f09; 0x2782dc4358a131d1; 0x38c2ebfec9a66e72; 0x37fe7f00d13fe532; 0x6eab7cbea9edbc70; 0x62689acb2b1ef8c6; 0x49360082d6bdda8; 0x74ce5ec2efa5478c; 0x5c57da74d22f24dc; 0x28208b3d6ad59f20; 0x4b46f2beaf7f0601; 0x76db7cb2b3ea1898; 0x4a964cfa13882e99; 0x46c89427f7e0a792; 0x67a0879770399996; 0x65e7fe313adc4ab0; 0x1462ee3c36651e9; 0x1b071b5fc531ea61; 0x53e0d06ff59a5b24; 0x4bbdbfb8ec00b35b; 0x61a2ff5a7367b608; 0x34edfa79205832ea; 0x22ff16eec97878f0; 0x562483f22b785e73; 0x63d48951763de79e; 0x2c6437b52284bc85; 0x2bd83166f234e735; 0x29f8f2e8ce93dd7b; 0x37320cce32a34e49; 0x6d12d1e52deb920e; 0x4221f6b0a7a10040; 0x3e3f9d14611acf2f; 0x7944a4bbbe65ae40; 0x1af90afc3dbd3935; 0x51a71c52bf72c88c; 0x5407ae3b650e35e; 0x144ed774e7d109a6; 0x1e44e5ec07fb3967; 0x76f68c81a1d84e7b; 0x5c22b3df76ce787d; 0x7c7b5f7bf9efce2c; 0x6f4f48faeb09aabb; 0x2a6ddffcdf41c33a; 0x78e26b738e56b937; 0x2b7c1ddb9482a69; 0x2970522c5993b443; 0x62a6220ebb2780a1; 0xace513bd939ace5; 0x55aba16a728a5f3e; 0x167af99a078aae50; 0x119a8a18dbcdc9bb; 0x5d76ef0fb5bc34; 0x34f696ad18329e60; 0x3d82f850f3b0ed85; 0x6698a5f428cbc6d8; 0x1ab0f94d5a675686; 0x3773c238b087da97; 0x78aaaac206d5cbf6; 0x65e3fef12a695b15; 0x76e8ddadcd374ff3; 0x491173f4cb7bb5cb; 0x3eb927e62141392e; 0x4f08409737a3eb42; 0x5e4aa3400e786110; 0x252616e54683bea; 0x7c561e4484384f1; 0xa47a11ff5c205c9; 0x762c06e281ddb011; 0x4bf8553c5c9bc6a1; 0x17301e27cb0cf713; 0x14b26e87f1080a2e; 0x5238e934dbe01058; 0x14e4a40b46da384b; 0x7f2cb716c51a2d36; 0x9fb0101fad3c59d; 0x314579b36c61934d; 0x6d57c3af7a79ee15; 0x303cb84d54b59b75; 0xbb62ae70465f2d2; 0x34d28f5bafb3143; 0x51d4244382624b99; 0x1debeaa08138a362; 0x202d457686fde4a; 0x2e9d9d1228ca777e; 0x5cdcc1eafe93c880; 0x251eb663dcf34766; 0x37cc265d0dc74f2d; 0x3e5feaba7bae8479; 0x8a578cf579f34ec; 0x51eff11a64d5918f; 0x7699ac7a85a06b61; 0x5e55bb030f604d04; 0x16a242dcc46d2387; 0x1c2ce9415c2a2f3; 0x243007fdf626aab3; 0x253a11efbdf502f9; 0x2256567efbd3fe6e; 0x132e021222700e53; 0xaa55893e8dd925a; 0x54cba58a7c339785; 0x4b67f5c5fa0f486a; 0x70577b1f7f3a45d5; 0x2281360bbc667b91; 0xb04c0791051f7b; 0x1e5d09c483eaee89; 0x26496123b23a2593; 0xf232e3a9c58ba2e; 0x32958854f98b3af7; 0x24e1a95740e31628; 0x3f2a4e339e7e3cb6; 0x50d7c07b43c6f48a; 0xa53af6d9285841c; 0x7905ee19fc042eb4; 0x7fdde5a86b0ba52d; 0x423a3cf9c35165f9; 0x33b8b0ecb6cdc1ad; 0x45d313306f699b3; 0x2bd7197b4f538349; 0x6c1a4911a5926d38; 0x629a87117158fc9a; 0x202de5b903cfdba2; 0x736fcc51e5324311; 0x16c105ce5bf9ec33; 0x564acf5a824717f6; 0x27eb7cfa48594ed4; 0x6f9b8e9e81c6fdb9; 0x56ee1cfc0be8f157; 0x20c36ee194621ed4; 0x167da269b382141f; 0x5e8503522cae404e; 0x1572568ee46efff9; 0x564a07f050968581; 0x7324a435919ef2a8; 0x45c569e97174d105; 0x23a3f54a581d3d93; 0x30cbe00cb1bc98cd; 0x297a78d678238668; 0x81b450e9a12fa1c; 0x79300c627b0a9bb2; 0x71082602ee8475f; 0xa82b62e74bf47ee; 0x5dc64a7014cce8f6; 0x634efc171d3d6470; 0x88cc4e25e38b919; 0x3f4cbcfe4fcc267c; 0x570ab6e7b0f722c1; 0x67a17ea76526c019; 0x73857d5324f362c5; 0x2ab5b98e84f93613; 0xfb4482d4eea2a7b; 0x25896db0434b686f; 0x7757eb7c09612ce4; 0x2f392c74b847f30d; 0x73ed23b176e53ed5; 0x79a4de436f57df74; 0x51511dba1387cffa; 0x77d88039d3fa5019; 0x2efcdca8ed9365e4; 0x2aee44994e8a0f4e; 0x5d51f025c2a5a0ae; 0x445afaa242f368bd; 0x6dce7b912b968842; 0x2f922cf9eac29e01; 0x63f13babf83b5bd6; 0x10176332cadc2089; 0x439420172f871e6f; 0x94bc6ec25e2166f; 0x24bd753043440ad5; 0xdedd98818473510; 0x12fb63322b459f0b; 0x36756b90262bd3f2; 0xbae9b];
   [0x5d6fa074b839ddcb; 0x6b04f0d3acca4662; 0xabee554a4ece9ea; 0x2e0d52bd607fd463; 0x19e6ea9f5b87f867; 0x2488daa76b83324e; 0x2f5bc4eb27d57690; 0x501e9e730017beb4; 0x23ba735c41f05475; 0x4b80fdb47ab4d3d9; 0x6a2a776fe025f09f; 0x26b3cfdf12a490d5; 0x1aa026775e81aa46; 0x2155e7dd6260ab65; 0x3e8f8098eeda37e1; 0x180a2d312dbfc9cc; 0x65a3fcba1b05d7be; 0x51063bbcd90e5645; 0x4bdad84f38f43a97; 0x3ab533f38e9a8083; 0xd407cfffd3a9ccb; 0x5cef621f20366d07; 0x2891955a0f080e5c; 0x5573a1894454fc37; 0x2b16d15faf2d4ad3; 0x6cd9d56a3e4867c; 0x71cf76a4508c61bc; 0x5888849a0a599bbc; 0x576c63adc57cd6e9; 0x3ca8123525016601; 0x3f5f54a709447d5b; 0x1f9d6b8902b67b56; 0x444cf67636a8a880; 0x400ab67b1c27766e; 0x65c756a53f21e2dd; 0x4dc38c9cd3ebbe2c; 0x19096e7c04e1119a; 0x324f861d0709f64b; 0x53dd4cd3d4fbf7e7; 0x58a07e446d373d2c; 0x2a59f156a83dad0a; 0x58b51de849ed504a; 0x4bfc42a7a93cf54f; 0x1eec85335b7f81d6; 0x2340473e93cde79d; 0x294537b64258346a; 0x18b155b1bf8dcad2; 0x780af902390c18b6; 0x74c6340f5e796c17; 0x14a6144939afdc0; 0x11848e88612fb70c; 0x6d0ec2175380c1e5; 0x6237188e32056e00; 0x121990410043d9de; 0x4b0acc2dcc410105; 0x1d066525cfa5dfb9; 0x6fd2113994028b48; 0x3cb8a34b647abe6b; 0x2504113ecaacf2ef; 0x33a7ae33167cdce7; 0x594a184371540815; 0x7492addff7167317; 0x709b7a5c52d8137e; 0x5995b343f602d774; 0x39aa7d70139a1555; 0x61ef20e6e278bf0b; 0x47e01be238527499; 0x255f8d844246817c; 0x262deb575cd17204; 0x59c6e157c0ce42d6; 0x209e9bdb158b020b; 0xba4a37e4e235047; 0x90e32d5f1966f51; 0x5e8d25aa83351f15; 0x28085af78a07f1ba; 0x5471af4c4385b59b; 0xa4b1d102762623; 0x2718b038068c13de; 0x3841d291cd564302; 0x2b32a342e0e48c30; 0x22dcdb45415a2f08; 0x5af99d488118cfa0; 0x1e43e03c69dc8496; 0x2cb17adc069d6f5c; 0x87387088b879b07; 0x72fdb49f34f2ca72; 0x262a58142c5bb00f; 0x7cf20a8a056d5dab; 0x29a83b0a5a0f7ca9; 0x26fb76f46288f33f; 0x71cd5ff44faeb645; 0x1d7be87ae99ce2e9; 0x6bb709783aaca812; 0x175dcac26baf3ecb; 0x1cdd83ab0107f2c8; 0x2e9a8fbbc4f86143; 0x19e3acd15f29074e; 0x4499abfc176e2620; 0x631b7425b0ecd836; 0x70fa74b73f0bafcd; 0x33500167e40bac5; 0x702a2b6c4dba90c9; 0xed6d97e5672888; 0x4802d2221db63ca2; 0x7dbacdb713082089; 0x58673f8d98ef4769; 0x7c19d33c44ebd2e4; 0x3b3a29b984042708; 0x17da0aefcf21f43b; 0x173e750c3c68bd54; 0x527b8fb9a0debd22; 0x609e3b7ab3517d16; 0x52fc33bf4c9df568; 0x1f3bd719c95a666e; 0x27fa407d3debdf47; 0x3e1500fcefecaa0; 0x63ebc3b153d0e6f9; 0x1278d41b04763a83; 0x3cff119e379af754; 0x3f51e25d6d08ccdf; 0x74e612684b5d65cc; 0x2fa54e4812b296fe; 0x2396f0738087f8b2; 0x6f353868624e8db6; 0x60d7715f9df33edd; 0x58a16c29d522f72a; 0x6a86db00caea1931; 0x601388f28f28cb95; 0x4a347d43763cca5d; 0x272c2d96ccc57f08; 0x79a9cd3337c0113a; 0x3507a281f921a5f4; 0x29c5c0c27ee6ccd0; 0x3ea7c8e9cfc2bfc9; 0xddd8c252c779a; 0x2e31f9002f066231; 0x7e1e8cdba1a655ee; 0x56cac43b5eb535dc; 0x7517100db3e93cf6; 0x68db6886c593f1ce; 0x3458a53a28076695; 0x947efb056979463; 0x44124ce5c5710cf3; 0x4935b9ae4c37dfc0; 0xcfa927d56ff2fda; 0x37f9b10936e86518; 0x5d2de1a01ae76779; 0x8c25fc980dcf5f8; 0x4c915cab0d7f5a02; 0x48b25ca78fc4c2ab; 0x130704077ab6edb1; 0x3dbcb352dfd0641; 0x32e262bb65a442b8; 0x17161bf1db23e9ff; 0x62c0a50826105dba; 0x5d6fe7be18021fd; 0x43583f014b551067; 0x3f6ef798e9f5f675; 0x178ee7ee9eae7830; 0x1e5d015e3b9e3341; 0xa37c0f54916bf36; 0x7abe61aeb7e36c00; 0x2cd86448c8302c91; 0x237455b3cd77159c; 0x24e9a25ce35a59ed; 0x375959ff0b72e44f; 0x7584b53822630df4; 0x5fbec5c2d5962861; 0x43d65c2e8a38f9bb; 0x5a6576631aedade2; 0x233a91ebe75abbcf; 0xfe46d46dd7ee9bf; 0x55dd055bd18f9ef8; 0x553ec74cc97c5934; 0x63e90e81bb5cbdc0; 0x3eeca0f9ceeba619; 0x3053c2394b316f8e; 0xca70ab1ba3d9cf3; 0x27f3de1d08cb5f78; 0x22f3ea315fd97f4b; 0x686d798c79bf67a8; 0x48d3bfdbaf3538fc; 0xc16f0b4501df01e; 0x1f777406a4818199; 0x428a09e45b1713c3; 0x182b5810ac425244; 0x996f0382b12e3e; 0x2a4b39641002de19; 0x74cb64a8fac43213; 0x88ce60c27edbb83; 0x77bb591e0e9f048; 0x49c4108cce178062; 0x1c90450c0919e964; 0x6f586957f6cfa5b9; 0x772dc13ec9be3abc; 0x2bb7f5a8e7319c1f; 0x39d3a785555d2995; 0x393992058f3eb82; 0x1c60f2eeb90a6fa2; 0x202e201bf2f2d93; 0x4a2caee827a101b5; 0x4694728484bedefb; 0x1a650c063fa634bb; 0xca1414f284da39c; 0x7fb283153045e9d6; 0x794e9e8a4269c2ff; 0x461e5d9e36cc5c12; 0x7275b4edd6151497; 0x4ce798d8bde4dfa5; 0x1a7ceedef82ce358; 0x2810ac265cdf830; 0x283b7c270c0014f8; 0x7dfd0975a9131580; 0x752647ea42ba1551; 0x242ebc3f796549fb; 0x250188c7914cc665; 0x611a960aea3dad26; 0x9671ce0826e190f; 0x30588fb7d72041e6; 0x1c8d771d52d207be; 0x31b707deb64fe40c; 0xb73c3190f157cc; 0x406ff227841d24c0; 0xedaab3dcd850d1b; 0x1ada3b9f04a56872; 0x3e7c724886620adb; 0x7e797898e3f7809f; 0x4ca1da2a2e86fb6e; 0x291065dce2cb4119; 0x61b1745b3e8c4792; 0x50e6a709c17154a; 0x4ec4bc107b288677; 0x6a1be70c56c4134b; 0x72eedb4e662345e3; 0x189643022b42e223; 0xd9c79027bb687e7; 0xf3f264a8ce60eb1; 0x2e85cc2708620304; 0x30fcffa3bad2d822; 0x7c4548bf8f37cdb3; 0x74046ff82dc7650e; 0x2699152418e27d49; 0x1254a3f111879452; 0x35d281cc0f487d23; 0x15975f240f290948; 0x3ca8596d48b23731; 0x406ef90a9d48b6b5; 0x1d051df659c7e3d7; 0x78d91d5670ef2dd7; 0xebc4fe14c866a72; 0x25d66ef6b9b836e9; 0x29bca8d5b8002fce; 0x10e1f89b34c95e66; 0x602878fc192f015c; 0x439309abaf94024a; 0xa5c30bd69cbdd1e; 0x4752dfd57ea3399a; 0x6ab70bf493bc9778; 0x7a4dda445d4d058e; 0x2d935ebb342b3af6; 0x3eba8d1245394aeb; 0x4ff49f6b84ea0a23; 0x4cbdf28c74e94666; 0x1598e902f4293447; 0x3bacc7754e890600; 0x62c66eb75ea8641e; 0x3deda891203b6201; 0x55ff49caf220d04c; 0xef02360bd3c880c; 0x742a4dba47f97b5b; 0x3355147a4fc6e43e; 0x6ba809216d533d62; 0x93da88478b5a923; 0x772e48ee6e23596a; 0x7b07010242523987; 0x6ec1d13318cf7594; 0x1ef2f97ce755e4c0; 0x5e565c18ae0e00b8; 0x591b82f8c1b31820; 0x1a5f14355195223f; 0x27b1c3134599c50f; 0x4336f31d4c106c42; 0x2b1fbb2d1b9cc6c5; 0x1941a7c945cd3805; 0x148fbd72158beb6c; 0x2d5698931ab8c98; 0x47bb151ffeae241e; 0x77fd2eb2fc7d883a; 0xcac67610999df20; 0x240ab38c01b205df; 0x7d0604431f72e341; 0x4e203cca2a4fbcaa; 0x1f00bed9a00be697; 0x6268cdc1f2fe27a7; 0x6168d49eca181446; 0x1309c2ebff1a6f5f; 0x1aaaa1b3db3bb4c6; 0x36ffdc469b813cac; 0x54b35b02fd16aa47; 0x28e5d1ef964f07a3; 0x4747e644ef0039e; 0x76fa7a42c2484f44; 0x76a89a474416564c; 0x656bcea59f2e7d4f; 0x53688147144ac5b0; 0x333cdad5ff525af5; 0xdb3d5b8dd92ef44; 0x471ab59dc6b507f; 0x6841d55d530d9444; 0x725ee575ddb2e8a4; 0x3c8e0585490c57a7; 0x7d85dd3d23459fa; 0x6ae7c1cf583445cb; 0x93bc5f3467a13ea; 0x7f83153386746470; 0x5bcfd8864a22d285; 0x2bcda775e09870e3; 0x35a59b];
   [0x590763dea0a4a53f; 0x645dba4e24b6bdaf; 0x6a907b15516b917c; 0x514db0890271bb9d; 0x2b031898ebbd0401; 0x5d3b790b15d66a46; 0x2f868e0598d6cb7e; 0x7673c75f714d8146; 0x4196663b5415eaa3; 0x21f0e2cf9c7f4cc8; 0x78ac42d591b9365e; 0x3b997e2b4c0947c; 0x28f52548450cd2f8; 0x23a405e3820518be; 0x8869a8475893f2a; 0x794da3a2cf5458a1; 0x500f6ffbb48060f7; 0x1b9063a8ca2bda0; 0x55ee7d4f8043f1d9; 0x75a7282797c13eb1; 0x98323084a96c347; 0x6d5102628b05d9f0; 0x36ee8110b2b2e2c2; 0x35cb8d0cbee45719; 0x4efff62fbb8e37bb; 0xf65a9ad8139a2e1; 0x359d099c48d62223; 0xab54d202b024dc3; 0x79cd06a969459f1a; 0x1be295ecbe28c824; 0x71af5a3e204bd250; 0x6010e3d0dd8eb72a; 0x4c24d38e85b214bb; 0x3a06b2afbf5d9e28; 0x11bbec5a338a23e1; 0x2de2285c782c1460; 0x2de76db495c0283b; 0x409618aef566e4c1; 0xd9cc397bb8e4e72; 0x766c06dbfd0ba052; 0x579915ba07262865; 0x4bee8f811a913c88; 0xb8fb12a2f27c929; 0xaa89b2a52d2d376; 0x7d9c31836f052e16; 0x6a2648ae0106a860; 0x5208361634f4667; 0x10c0e26559e0244b; 0x61ae277c3272b01e; 0x2cbe045398bf1795; 0x38bf95197439f8d5; 0x426afc2c5814f842; 0x16174eadf1a45752; 0x35176042a043645; 0x376ab4a70748bcea; 0x4550bf187c45e2d1; 0x353082c8c8b0650e; 0x48cedff33128ccc1; 0x17e06aecaf8905ce; 0x409e6c7f8d82e74; 0x6dff45a5f8f75841; 0x652040510482960f; 0x17cd978907b2a62a; 0x68dd39fbe9f7d2cf; 0x6911660364073164; 0x49b5fb820d4f1bf9; 0x6a215edea6466fe6; 0x7fb30ed0f91098f2; 0x3605d39e6a17a55a; 0x34cfd196b97adb35; 0x77355f2c4830f568; 0x775c2884a8519094; 0x37919fe34ae98e07; 0x10cb32390e256fb2; 0x2cfe338b872956c4; 0x679194279492715e; 0x2453be93aad115ae; 0x13ac8933c4bd843c; 0x4db0d5148e4d49ea; 0x78a7325b672c3bef; 0x2602840f06380eb; 0x7653fca71df7317a; 0x50b05099212c8b9b; 0x3794d50cf282a748; 0x5c1fc2be399c8578; 0x45fde5e5ea55254a; 0x5ceae04bb624a8fd; 0x786f2886a8fa7fe7; 0x1aec7432adc6c851; 0x537fdead56fb97c1; 0x1c6c029bbb0e9a73; 0x3a522c3c4922338f; 0x254517f3bfef7ed2; 0x2ec22b513199831; 0x11388923e339355a; 0x4d32c6163c0a798b; 0x196f125af22dee5c; 0x65ba7a068144c869; 0x4ac59d422f1e72b4; 0x3e0d475547666642; 0x3032dcce3b54ffca; 0x515c5bfc7d0b7968; 0x19ec2bfb4689575d; 0x9e9b5f9342b04e6; 0x1e9fa31358088cd1; 0xcfbdf3010bd307c; 0x4837d70ab625ac9; 0x16ab6eb714a19669; 0x74b87515ea59a852; 0x68beb45795346fe5; 0x68d27639a5adb569; 0x1e6ac90c059dd214; 0x60a18c0b61bc45d9; 0x2951b1d4736dff55; 0x4744b8ac15321bdc; 0x29f456786d4098e2; 0x47d4e43c31e78489; 0x7c7e1b77f7f501cf; 0x613bbdc7a92486ac; 0x16f1fe70f928fb2e; 0x314eb211464a2270; 0x54de6f3c99f149af; 0x6c221f6563d70846; 0x34bcd6cdcb9bb94e; 0x592385d4cabe8bc6; 0x5b2ebd7258d93c7e; 0x14ae7f8da6085cf7; 0x60a237848e8441de; 0x43083a463dcf4ff2; 0x3065909a0f1dc02; 0x3cd0fe65073adb9c; 0x6e10d4c4dccc0308; 0x493d8ba30c80c52d; 0x4ca75c7b48a5fef7; 0x4359284bf592622f; 0x2b34db1bf3401703; 0xef60f4caf0b4801; 0x2765eea57aa1dc5f; 0x1c38f57f73926995; 0x13ab0a5d802d895a; 0x71a49e2dc49ea0d0; 0x5158eb1ddf06d6b5; 0x67b7ceae526524ee; 0x359efb083c1895a; 0x8250ee9b4d9f4af; 0x3a4784c4c268b637; 0x4e57510a43ee2963; 0x4c8c024a18b539ce; 0x3dd84458e050e41d; 0x2020be6114be2b80; 0x6ffeb2992db77ae9; 0x6b2a572d624d22dc; 0x2262e077dc0d9c88; 0x3b9b880417d1b9a4; 0x51a6ab3dda7326fb; 0x6d10b2e33595048a; 0x7c23be87814ef0f0; 0x1553accd23dbe7f4; 0x3793c03170ec3c24; 0x1ee557d0713fac13; 0x5a99d8f4a9582cd1; 0x2202f121b4fa8eb8; 0x147dd747ce20a013; 0x4d2ee8d44cee359; 0x57ef3d319427b9fb; 0x66b8b79b5eaf0f7f; 0x4d88e2230cb88330; 0x124a7d1bc21ec002; 0xa1d67eadae14a43; 0x5a78dd83b417fab8; 0x3018e2795ed7cd7; 0x67b9d2bf935e83cb; 0x1e3f4da18a9af0e5; 0x2f249ae2426e5cb1; 0x9ad3ffc0251cd3; 0x2574b4940438021d; 0x6e4b45494cff5ac1; 0x4d6ae398c63a2038; 0x7cb95bd6ce8a1867; 0x31cba9612d35490e; 0x5b3c14796d3a6e48; 0x6e65d620f96be08d; 0x7aa044b20268a383; 0x36904475f3be9f6e; 0x79b0a294b59df838; 0x52602a5a27ffc397; 0x72d27cef4da521c1; 0x7dddaa21b006caa1; 0x67e49375d3560022; 0x7490cd59b1a50158; 0x615d2e96f164b2a0; 0x4327c16b5847b185; 0x6a0f65ed05eb15fe; 0x352379e4e338ee48; 0x40073b40295efb29; 0x58bda4700793b587; 0x4b2928cbd9e35ed8; 0x5ef568b2da106c8d; 0x6aa6543d7cbaf94a; 0x42075b5559cf7128; 0x2dfbc9374ce6a024; 0x55d16ee7191ef5c6; 0x25319ee3dc04a006; 0x20bcc2aca65e703d; 0x7b9d98a90158e547; 0x52dd434ab14a3865; 0x36fb12d4c1bc0117; 0xb40a480cbd3acf9; 0x20d5a6db1a979678; 0x64dab8b07b917e30; 0x27321c556e54aeac; 0x3b184c0602b3c246; 0x110c0d759da01fe0; 0x31e2c50d052d2c86; 0x11148640096b754a; 0x6914bb0cea333b76; 0x7511d18b04550807; 0x111f563cd25e38e4; 0x2d2a86401b7862c7; 0x7639b3b3ec45f668; 0x67b8459fb25ea6c9; 0x2caccf183c7feaf5; 0x481b0de3b69c731; 0x3abd85d7973e457; 0x28796ccb7b1ace44; 0x54e20c3c575f2cca; 0x5ef0f22399447673; 0x75114753461aadfd; 0x682a443a277831ad; 0x30170fc4e88d61ee; 0x5886bf2f460c89bc; 0x6efbc8014db04dc7; 0x63c65cd0c45a1a28; 0x30ec8fb243e4c791; 0x2a357a6440e5123c; 0x72398d7e91c784f0; 0x2faa4f2117a98710; 0xb457fbaa9106e07; 0x996be340f89d006; 0x46f259e026f7e340; 0x5779647f83fcb4cf; 0x38dc05fc6ed2011d; 0x757a7c62d029e08f; 0x58fbce39c65ad9; 0x6d7324a8be580b2c; 0x4ea430f74e81b156; 0x4e0e06d3e3224f3e; 0x141213c7923b2808; 0x18a73df0fdfdbf67; 0x4d51410139407308; 0x1952e33ce1c5e657; 0x721b094892899fd1; 0x642f763c3367049e; 0x92d3fdf12049e14; 0x57ec264560fe1a6f; 0x16097be8ea1f8dec; 0x10db983f9355ea01; 0x4a02c402c6e7ec1b; 0x353228214de2b023; 0x39372bc0a41e55d3; 0x14244155bb7c8d3d; 0x10b57ec80817bcd6; 0x3efb152f07c1d70f; 0x72c145388d171e1d; 0x490770b87e5cac6a; 0x4d3184cc6608042f; 0x2cde6a146e584193; 0x6bc4c5edf60cbe32; 0x5bb7894b68e178bb; 0x59d55f53cd36589f; 0x5fab3ba134eaf9d5; 0x5862e511097c580b; 0x4db358bfaf080832; 0x32decce61687eba9; 0xd3b1ced108467f4; 0x5b443b2303306608; 0x5579c20d34cb9016; 0x75631ff7bf087db0; 0x38a1f64d412a4c08; 0x3c2a54f31da6a57f; 0x70e43716ceb58dd0; 0x69d83002e853b6b7; 0x5ee2b9c625e97ab1; 0x3fe48d3793095c17; 0x3d27df52d59733a; 0x274f33a5ad2d7b84; 0x1dffa12843812dff; 0x25b948251698a8fc; 0x1aee98043af94a3e; 0x6a2b4290af7ca6; 0x52cd037bcd706a4e; 0x291ef6eea68be090; 0xd4f9acfe3a7f2dc; 0x2ed2c432fec173b0; 0x3ec6baf3b7d2aeac; 0x26ada6ef78ec87b9; 0x3921c297639aab4d; 0x4b6c19ac9750200d; 0x4129d4103ee6defa; 0x8ddda484bae37cb; 0x930c566ba152be7; 0x7af02d6b7f7e6cac; 0x189ff3d3b1fee72f; 0x1b7c2b96fff84543; 0x3850b83d1519fdd8; 0x6a89ecb8e53bf96a; 0x7f7ec19e3f703a95; 0x2b938c5efcd648a; 0x2e4f17fa8135778b; 0x48e72f4e911c14e3; 0x3138dd876f8ea1f2; 0x7c8ef547c66b10a5; 0x3dbb488eba5c7d5d; 0x3483511ce6065a9d; 0x239b357d35656a4c; 0x4f8fa5301d22d542; 0x5179ed8899da9423; 0x36de8a];
   [0x1ca332934d47b7be; 0xe6b0fa791291a79; 0x3be54e9c7f4a0cf1; 0xa23aa51806211a3; 0x9bdb453a80d189e; 0x523ca3603cb10b56; 0x19a7be3b506131df; 0xc62d690eac9073; 0x790c3751472dbfde; 0x5faf12524730fb5; 0x71165cea961f320; 0x36e7da05489c7919; 0x5cde9b99e34c676d; 0xb6e12f1b88dd0d0; 0x415769b87b28e5c3; 0x5aec0f50117b017c; 0x7517149bcaf8990d; 0x7b645df7727f100f; 0xb6c6b7f7b1e8f30; 0x468be39f78d6d21; 0x278e18b029ee2a7d; 0x13d67a206a1401b1; 0x6e45893e018bf520; 0x2c999edadd4efb37; 0x65e874ac50990be7; 0xfb3e9cfccbb59e4; 0x211738078aab5267; 0x2ad4fb809b2d0a24; 0x318f9c990b192e42; 0x5bace68a33284269; 0x5587ff3a86a28b1; 0x68fe8c508a6504b5; 0x6a9b130062353014; 0x5c8b7027296a8b8b; 0x7f79d563e9be63e7; 0x631aaf3b5148f406; 0x14b40a8e470bf248; 0x638f7fb2c95dd09b; 0x505cc94de8a1b2b8; 0x53f4258d12e920d0; 0x51045ceb9ea4d884; 0x5ebf21180c369e5d; 0x298b7525d7eb47cc; 0x6b8af008d323ba42; 0x230d677a2aa59886; 0x6466bf4e13681ae4; 0xd38345b23d9d215; 0x70d159c039fcc338; 0x204be3db1780f615; 0xe216ee067a78e5e; 0xda5385d84dcab30; 0x14127c7ccb83f806; 0x21eaad699089d870; 0x46a56a0b86cfdfeb; 0x2d7cd4ca805e473d; 0x4d797e753aa1d6ad; 0x541b844c1bdab617; 0x6cd18ceedfdfad82; 0x257193dabad35988; 0x65bd1e1a765147df; 0x17a1db69eb1e0dec; 0x60b15c8d26e6a48b; 0x65f25409f6e6cf4d; 0x6cd3b8f9a03f8534; 0xec46390bea8c999; 0x68ced70b236718bd; 0x5616702d3a85632; 0x6a7b027c13445d00; 0x42fc6780c27d221d; 0x66d8625038819830; 0xa913068a1669e92; 0x234316ce05b8fd3; 0x52a5e5cd9274627a; 0x30fa70e7345972ee; 0x3dbb8251f5522d6a; 0x68186c5fce6ae152; 0x20a69f45e47d18ed; 0x7ef1e287c8953c06; 0x674841817c593dbe; 0x1738339e5ce8599b; 0x4a7a9304e16b3881; 0x59a6546e99125ad9; 0x27aa50516cb2b1f0; 0x6a38599bab08c659; 0x4ee143eac7212d20; 0x5a77af6dbb15e834; 0x220cf2314a59be20; 0x1a18c6ed94c66138; 0x4236aec313c4afc2; 0x451a5d4949e52b08; 0x1e7d9c1b2080e961; 0x5a77179f9f3cb3da; 0x78ee4b08fcca4293; 0x684fb0e94edc2f73; 0x43f376a4aca0e412; 0x4896597c4766ebcf; 0x761a27eb89796c3c; 0x334690cce2e13b2c; 0x34e4b8263d045503; 0x36fbc0f60b9d214d; 0x2998a16436cb215a; 0x3e560eb28bbe0e1f; 0xf069a900f32130f; 0x16a9e087d3038b69; 0x74c118b56e6d9c2b; 0x6deed627c59345d4; 0x6650b8daf67c9b61; 0xee31419245cbf5f; 0x1a56b6646cfabd98; 0x49208cc91f4b5ba7; 0x469c4e6fbf52ffc2; 0x1b1ff420d7f8f4c9; 0x5831572cdd1c8c0b; 0x1426a96175203279; 0xc29883539dff120; 0x3e56d33e877fd369; 0x6f626e50e859effd; 0x21cc6a7138cdefed; 0x5211f3dbfbb4eecd; 0x56c6c10c7272097; 0x1b1c412547dd5f53; 0x7c7f36a76e75308d; 0x72fe5a2bab69eb2; 0x24e1730d79b1ccb4; 0x61d5e316a601c87d; 0x59a92da76342650d; 0x46f4f93154fc98ef; 0x2efd5eed041bc8e0; 0x412336ac14fe3d0f; 0x34fbf2bee1c39ed3; 0x1b5c1fb4753a8f91; 0x5eeb930c47d37ed4; 0x7eb3612cec5bd6f2; 0x153ed1fa23a54666; 0x5a71d06428949ea3; 0x7b96b1cdc3fb4a3; 0x3fc2ace47a555b08; 0x23120e2ae1391d1f; 0x423b0f33cd112c91; 0xef8fed60948049; 0x2fb35e942d5f63c8; 0x76f6aaf4b4c57460; 0x2cc8aae8038b996e; 0x4d9fb9485a826781; 0x5bf59ea78cbbc9b; 0x7f688f1fe0d0fc47; 0x3c886ccff16cf003; 0x556d73fe64a8e40; 0x25b302f6d8553e0e; 0x6a176e0bfd2ae5a9; 0x26c3a4c749a2bd00; 0x2f7e29f8e9cfa3eb; 0x5843747cdd2c2eb0; 0x6679fd02370172b9; 0x72e0fbf67142dbe9; 0x4ea819980ef14d49; 0x2fadbe9278caec0c; 0x112b30dff2974c8c; 0x748088bdb7a7d5a4; 0x2b9e5f700a8f11a7; 0x7e4f9742a9831728; 0x1e9594f938006cda; 0x4d49c67dddc41874; 0x22730951c6ef2db5; 0xb03a1c6b894d8a4; 0x18356f17a9cecfff; 0x5bf6d59d14726de3; 0x7f4397bed48d3399; 0x2d9beae5ff02e3e0; 0x3ce959ccf88678b6; 0x6f2bde71c20ef0e4; 0x580a7a98362af7b3; 0x8d67183fdfbe7ee; 0x1964b91bd7d2863b; 0x143dacbc8cfd85b0; 0x70d303bb2bd5a42; 0x7917c984c8045513; 0xad5a3aa41df29; 0x59b1c8d91ed0b69d; 0x48eb2f1e6944b7cc; 0xadc5020bc5d120a; 0x49c0157fc1b74b87; 0x58de349f11b15311; 0x6437f34d3d663eaf; 0x2b92ba65bf09e2b3; 0x44410a2941d2823b; 0x223213a895a5ae2; 0x34478d2d865a3672; 0x747b5cdf07ced730; 0x6af393deedbf0ff0; 0x63c9bfb419b6ea20; 0x6854751800c0587d; 0x4ce29c923bec014e; 0x52ae2232d7dcedac; 0x6e71af23a011b653; 0x68d3e5cf1dd97e5c; 0x10e4707ec26e3368; 0x1d700c50dfdc45ad; 0x148ce9d8f260041; 0x65daed8ecca9bbf8; 0x6f5a8cbbd1b91bb8; 0x50edd5397740b2b8; 0x518404724691f044; 0xcede5fad9d83f5f; 0x4e2dac4851db92ab; 0x23d0ed2e88dee17d; 0x3e1a6d195150659f; 0x4375f88ae15ce744; 0xd2859c8f2622a46; 0x1c7d2b915228be15; 0x55cb7b94641e3d5; 0x4f81baa97113fcda; 0x43693ce372d39052; 0x50b432df33dc1958; 0x79ef79101c8dd3c; 0x7c437b0ee920eb21; 0x1954c3d01c6e2b6b; 0x1afa26c3ba4a41b7; 0x16b8967f65f19e30; 0x2e6b8c8206d69af; 0x235c60ba554347dd; 0x1d99de9d355244ae; 0x4dba147f4dc0ee15; 0x759c3df9ace8a83f; 0x3b18199244820518; 0x797e370b66f9a82b; 0x2de6f3b835c375ac; 0x42df42d247988efa; 0x52e3fc818c680c4; 0x77de4bdd66d874a7; 0x65a5f6a7952f60b8; 0x367c5961d8730185; 0x36404e11dfdb5a07; 0x6d084e71f0c502f6; 0x772118ddc1f60c69; 0x76d85d31fd0474ff; 0x73fe05bd2687cde8; 0x296d883d345c43f; 0x113da247174eaf06; 0x6430148696682207; 0x28d09f8839bc064e; 0x157e6a7e919f45b; 0x4029f24a5c4e6507; 0x689e24f99b2490f7; 0x7556c389ed3f46eb; 0x6f64c0f7bc8e3178; 0x761e940dd402aa9b; 0x52259343eec96f87; 0x2bc021be0f3d525; 0x75ae1adf53f9ddfe; 0x3fcd81bc9463aa1d; 0x469e4be78c0cca1; 0x1fdc1acf8b3d40c8; 0x4942b374dbea62a3; 0x6f9e74dd2323d063; 0x79221d78cb2baccd; 0x3de565479f4459f2; 0x674b6db9943ff358; 0x296ea99e7972b6ac; 0x21a8e444e051049d; 0x7ecd96d0c2f3f4d6; 0x478c30486722c680; 0x18e07cecfdb55e80; 0x3b8fe9ccb9dba7e8; 0xdb9e6afeccdea8c; 0x5f6304aa33b37ed2; 0x1b744c06bb438c8b; 0x7421b229ad31cffe; 0x2ddcb35185be3f58; 0x611ef0bdfaf93c3e; 0x3cd9928828934efe; 0x3ebd898eef5081c1; 0x6a164ba4f1e76828; 0x32f99528deea75de; 0x5f6412e2f143e29a; 0x214663801b6f21fb; 0x24cbb7dd58146634; 0x2259398acb795360; 0x157b3307468a27a7; 0x5e93bc8725cd5aad; 0x10b835d3f8bb3e58; 0xbfc8c937c9e3fd5; 0x507ebf32d0e825a6; 0x26a249aa6fe9dabd; 0x74d6989c9af54065; 0x593d91a9d8a08397; 0x361a6237cf02dfcb; 0x184abdd35749e28; 0x1b1427e3a3b1cef3; 0x7266fa1d35377046; 0x7745832c92d0916e; 0x2d42e82fb94869dd; 0x1e55125045cddcd8; 0xc66f7bb32dea969; 0x36fe935613b81eac; 0x7fabb6293d37d7c8; 0x4f511591f8f02ab0; 0x63b91aa186565e0b; 0xdc61d367323e94d; 0x229c6c4c7cab55c2; 0x78948c554941f835; 0x5c6bc3d041cc9a45; 0x2f81fafcb4b3d728; 0x29cb70cad42fabf2; 0x7a3885c209d5b16a; 0x5755007a3c774721; 0x61eb80820c4e4880; 0x385f8248aad66df5; 0x1c273a8686547300; 0x5f282acd298d02e1; 0x315fb58ac3f051af; 0x5d343449caa6a9d8; 0x6aecaa17f6ca3e35; 0x419478a603af4fc5; 0xb41e097c6cba4bc; 0x4d328d6dcad1d8a9; 0x26e37bd2a578ec2d; 0x113042];
   [0x182d41cd6b6a7e9; 0x667da50952520d65; 0xc9ec633ca2f178d; 0x64fea535609e3053; 0x59512923c70608da; 0x31ef7a8d15c4c75d; 0x792a85df4099097e; 0x20849a03e86695d7; 0x396b7cbf76a4a38b; 0x7294237c880329ee; 0x3569959b082524b8; 0x7c4cc6ecbabce9e4; 0x3acf5c92bedb1ad7; 0x3d31499c623b1d55; 0x40ae31ddfe20bd97; 0x127a08a01afa3af6; 0x7b98b2cc7bbddeac; 0x6c8b91efe3c8e1a2; 0xe5168e93e69669c; 0x4be63fcf22a4a507; 0x44dcd0d402668eb3; 0x25decbc4de4d805a; 0x2a5b3244f81ce576; 0x22f8bd2e56756b55; 0x48c84a790c7e5c37; 0x1e0b6d0fba77b1c4; 0x580fd8d6d0f04f6c; 0x24c1f4e11ed1bc31; 0x751f383915296607; 0x5b68e4b86bc1f320; 0x4a3c0b7a334063e5; 0x6a1a10de2edb7bc1; 0x1d6ba4e4539b7e5a; 0x4566ccc87ce414c8; 0x73016cc9faf4e3f1; 0x5c4ed809d7d20cc7; 0x7704d49d770f9c3d; 0x6c2e637451a4e1e6; 0x5b7c32fe9762f9f4; 0x470aebc03fe70731; 0x5196c775656b53c3; 0x7cbd52bac360fdb6; 0x1c07eab92bd13bf4; 0x4e32596385b4dedf; 0x5f2c1f0cfd263c95; 0x5146b09efd3e0d43; 0x1ccb167971b4567f; 0x2db78d73229a1a47; 0x2bb9212ae38094e6; 0x796bce8e6abacdcc; 0x810f793a8c3b289; 0x261b6db038e441e3; 0x6defc028ddfe76d3; 0x4e924d7bcfffbe32; 0x5b7e8829a1f2ab6; 0x3f6ecc72cb50cd5f; 0x37250129e5b90974; 0x539e4070a93bf953; 0x5fbc015e41322ed7; 0x660bdd42c5bc4f42; 0x4ca5da55c799b341; 0x5c2419c2bd8b98e0; 0x2d8bfa459bec8b6c; 0x5fe601fe6ff4b6dd; 0x3eacb9182ac79aab; 0x564e28823cde6818; 0x6451716715498006; 0x6aa29c60af7b1b5a; 0x3feb531523dfe25a; 0x3fe83be878ca282c; 0x123bda9705cf0a72; 0x5e3b7bcb71ba58be; 0x36e34f113583e3d0; 0x77dbe3abdd65154b; 0x6ad4f202326a7978; 0x4365ff81cff125f7; 0x511d4a4443818efd; 0x23afcd92e4e183de; 0x12840429ea9a93cb; 0x542093b39ab371bc; 0xc798887590cd343; 0x12d2fb1474ede721; 0x7f19e868b254cb6b; 0x71572844edf0ef46; 0x789c872739dce546; 0x66a52f7ab2d55ab5; 0x63b2f59687db6e91; 0x3bbe7f59abbdb5d4; 0x219b98a79c664971; 0x56035282a340b7aa; 0x525b366f9ec1a3c0; 0x234737b3057ad713; 0x917a99898d447df; 0x13e2cc295df2fc63; 0x208f93deac9ddceb; 0x6dc291c6c37e8261; 0x4d2f349a5b31e7cc; 0x379883651448b97e; 0x5d2f2ad2f5c72576; 0xfb1d24ddc6348d4; 0x3ce3e2adb0097f17; 0x308b4dd50078acb9; 0x1aafcdb80aa8748a; 0x6e6008fa1b97ac58; 0x27d51901788e686c; 0x1ffa49c74cd7e3b0; 0x7cf37a3b5963393e; 0x2fe07edfba742a12; 0x296501de5f496825; 0x56fa74fbe7e1ba66; 0x67c6c09a54c56e86; 0x42b5a15e6d4ea33a; 0x4f626b2944e48146; 0x657a9c5f43580b24; 0x1b7fe12a63be2bf7; 0x19d81c79d8231ed8; 0x4f72417bcd5ad9f4; 0x657c8423830b87c9; 0x5fd9416ac254f31b; 0x673dbf77371de596; 0x575d608e528b4cf6; 0x4d7cefc181581df4; 0x93c6a5e205e5d46; 0x304218dd1b5c9091; 0x11e3bb28a7f6b566; 0x4f0f5fb9e901e8f3; 0x6b4e8695e1dccf20; 0x6c910f475980fe68; 0x1234a5ea9714b6f8; 0x4c484a2ae2fb37fb; 0x24605ce9a6d7016b; 0x1b2a7f7d06bb77e; 0x2d843febae6b7e96; 0x6fcbce96e592ba9c; 0x781d6857ab88d195; 0x2e8f592c78489c85; 0x1c09840efedf5b4f; 0x19c6c5d02783bffa; 0x7f889ee55464d443; 0x1854a853b6cd4fe4; 0x2ef84f9108eff57f; 0xa071668e93cdd67; 0x29e20d7e7837b65c; 0x1bfcc7c53f9b93f6; 0x468843f39a2fe210; 0x62db7099ace7b1; 0x1db2c6297fe94dfb; 0x7267f140b3308fcb; 0x4aee35e3d5c4d9fd; 0x66acdf45db6cebb3; 0x2bfd8a7189cb0625; 0x6669b3e3b09bf62e; 0x35e5b84870278219; 0x4a3de17da62a2217; 0x6243ccc8c92c172c; 0x5c67e57457f428d0; 0x707d423b2809fe90; 0x31e2c21e5eecf0a; 0x6ed5f521d6ae148c; 0x74ba868294268241; 0x2c708893f8352ceb; 0x3c0251137b64d364; 0x5c32f7ed27dfa67e; 0x6190fc7591e9483b; 0x47a6b0e52424c46a; 0x75b46d093bcf16b; 0x499c30f84f26d599; 0x407b1d0348a2c896; 0x2f9b281548b2c2e7; 0xc5477ff8511d59a; 0xeafb06fe0abca3a; 0x814d6ccac27edb; 0x33a2ee30638fcb43; 0x393174d9a42c3301; 0x71c1295d37c7803b; 0x6e912278586cba42; 0x59e6fc9ba1ecc6ae; 0x785e4701bcfe408f; 0x676fae71579f53ae; 0x76e95b8e4c7b77ce; 0x2e882ab7d064cf7a; 0x1fa924b68c922b6; 0x352860212c52dc24; 0x40b44a9f0517b781; 0x6b4f7fb699d4d196; 0x1ad676fa58eec3c; 0x2b3719bfc94090a6; 0x5f70c86ed9e46587; 0x115effd810818d1f; 0x7e5376ac944873f1; 0x79dc3205a868e67; 0x60bb80a05d350e22; 0x55be730c88ef07c3; 0x185ebe823378b189; 0x59706a4d7ffa04f2; 0x410ece25cdce798b; 0x52c649ad60893c2f; 0x8653a268acba88e; 0x2e841ebfa3f4df18; 0x383c8711c1ccfd5c; 0x7f5d8675b782b11c; 0x102aae31b5e04557; 0x313477b13290ae34; 0x2cfc9b866a4692f9; 0x270abf9427586190; 0x59df5669c54ce0db; 0x5e304d0fd58b94bb; 0x6cb7f6de2a9eb64f; 0x6b6e27c6312bf579; 0x2d767835b743d37d; 0x7e9b41952e1022c3; 0xca5d8d83b64797d; 0x4ea5e0e0e5983f1c; 0x5febf0db88465775; 0x422d48eedaa775b; 0x2637e19ffc6b91ce; 0x1ffe449aa7e43b5d; 0x2e2dfb9e9789f8fb; 0x5d396fe675e228d9; 0xfd5ed2100121b1; 0x60778d39de5b14df; 0x41927837e69b2d08; 0x62fc6ebbb91b4300; 0x363a6446551266bc; 0x6476ec665aa38611; 0x62edeec45cf82678; 0x4111db159d282a60; 0x1fd6522ef7052f84; 0x95ee89f48eda778; 0x5476ce7e7cd3d821; 0x67513678a945ebde; 0x6ada9ccd3d4d7037; 0x6acc38cf0e8d666e; 0xa05beca99bc86d1; 0x5b24c827fd10d3c5; 0x71bbe72093aebc9f; 0x25f1bd7d2eb2126b; 0x19d5598fa34d0253; 0x2b134c0704080e60; 0x251ce6d6c90d4e57; 0x1ce7a8934b3f1f77; 0x47946ff763424f50; 0x7b9fdd0f6dec37c; 0xef880a3d8411947; 0x77791d33317e9862; 0x65b197ea1460c6cb; 0x5f13a0e4da6fbd0; 0x7f40bd197dbc5603; 0x733db799f666e78f; 0x6a10e95b86cd2998; 0x3cb6ec85fd4bd6a6; 0x759f6536e78662df; 0x7923f18fcccc5130; 0x6c4ce765a59bb625; 0x67a0819d09e5dc4b; 0xf180190a1540e1f; 0x74e76b6a9aed14b2; 0x34b496c59a85c6fb; 0x1086980ad0c13dfd; 0x35215a96f5cf51d3; 0x4d0ace0eaf7c62bd; 0x63d001c52d900cee; 0x1312c90fd769b605; 0x7304cd92f61a7901; 0x4a0a00d84b95a1f6; 0x267a7dbb7570bd80; 0x3c6eaabae4b1bb7c; 0xa225a1e4b826ac6; 0x4240eda86ad65f44; 0x2b665c7c4bfc081e; 0x3ee37ef13bc3ccaa; 0x6644f88f85afc564; 0x211e442036140a55; 0x676e365e26267d56; 0xf0661ff1a368eec; 0x2709aa70556b63c4; 0x23eb5a15cc8056a8; 0x1c764dde98c02468; 0x7354f161ddc358e; 0x20b0042157195c90; 0x56319250f464bc96; 0xaf7b41acfba259a; 0x27b3b8e1105a5f36; 0xd2030dfdf2e1519; 0x7756186822cc444e; 0x293a2bfc04b90768; 0x3f00c5988e4d47f8; 0x4ef564fb38ffc41c; 0x6cf8fb48ab38cb18; 0x33c81f0b29be5fd1; 0x6134cfa1ceaf6ed6; 0xb892dd0b46cc6e7; 0x23d87e6da4e18c84; 0x38648dfd92e85561; 0x507e772cc7d28adb; 0x260a6719af05ca67; 0x1608323e7e687c5; 0x43469d55a4692ab0; 0x2bffcdcd16411e2c; 0x56ceaaa4e6d31cab; 0x6770679ec40ae48c; 0x58668cd610a35da5; 0x66c2a482b3aceb88; 0x2bc60886e856670f; 0x62bccc65b6c38d6e; 0x37ff7284ceea2635; 0x73414485b8b4081e; 0x7228aeaab5e12756; 0x5ed2ac4f25a79b05; 0x652146f10e5f21a5; 0x4d57ed34467b1d18; 0x1df0fd52b1c8a0e9; 0x6e1af85639b371aa; 0x15ff86e39454ba23; 0x7e001eb17480868b; 0x7d2a2a04bb7d9b20; 0xdf3fddb31d575a7; 0x41c5b];
   [0x55175b1f9e5e7a50; 0x5dc4af4fd8de9eef; 0x6dffc6b8ff1e6117; 0x32f4e99cb26642b8; 0x3fb4908691405b45; 0x1d652d15f0207588; 0x3c7b3cfd73a13b74; 0x3b96a27f62d15c21; 0x36209f4bb89c7fa5; 0xdaa7ecbc8fc065d; 0x49e9426be1539701; 0xf0fd5162db8bfef; 0x358d1f36d159122c; 0x63abaae792999d2d; 0x5770de59e972f799; 0x72d838aa95d1f228; 0x37449ba547620dc7; 0x160cb8802c4642ed; 0x5d9c7f40d582541b; 0x126553e3a7bb08f1; 0x182d0230c4ecb3c1; 0x443be0177dc3e3a9; 0x622c2a2bd60b2ac5; 0x75f9721bb7220d1; 0x32804fd4537c0a71; 0x754616589c44c7cc; 0x71b35d8d8283cfab; 0x2b0e25a9363beb56; 0x7d6e9979d428bec5; 0x7d5b47f84b6d117; 0xaf67ff92db8464c; 0xa5498a34908c071; 0x1f6dd14d6b9ffad2; 0x2f5dee76c762251; 0x518c07bf61dea412; 0xfc82e5681d6c344; 0x32972e9c3fb3a69d; 0x12b44813b817b96f; 0x3d85ee1751a0ff3c; 0x520097ddfb1cac52; 0x1bac1b0208b03be7; 0x515aab91264ef0f0; 0x21458e01f59dea3d; 0x34a62ee916d537c2; 0x5a1c424310382738; 0x29d2d90d366c5d8d; 0xc660440e325525e; 0x3b29eb01deb6ddc0; 0x10e6c83c4eb74e5d; 0x1b974bad8ec47c3f; 0x2d1171e1502f659b; 0x1acd3301948e8b73; 0x3605b36f339a3e3b; 0x6c56ae10004a78a4; 0x7f38e1a781f4e535; 0x44f29f9a0c8d2a76; 0x76c2257f81534bb; 0x7cb8b785dee1eb35; 0x41390e579137eae; 0x2d8abb15319301f4; 0x2edc029236d43a88; 0x5028bca9cdc8efd1; 0x2489ddd89eaa8be5; 0x573f7e3bcae5afd7; 0xa663592df8bfb4a; 0x6e028bc70a34c65c; 0x401107514755e295; 0x6688766426ec433; 0x509cdb162b7c40ef; 0xd6a7817ad79c5f3; 0x3b990df5a5ca30ca; 0x4c3d559c97e687e3; 0x5f1b49fee6592e3c; 0xba70b700638d192; 0x44edf8df1bc167ed; 0x25abde1b964edb8c; 0x568e6cd17ecba3b; 0x2085ed6d864e4fc1; 0x1e302eafc1dd43ef; 0x7b27c619fd546d7f; 0x52983000200ab87a; 0x249e90d8b904fe47; 0x1fbc085261823d62; 0x19e06630d4edfa9b; 0xe9cd15defb1e56; 0x17c7dd63cae0808f; 0x187e92ce08d68064; 0x49622bb69f5035ef; 0x5719fae0093f4093; 0x26ff48d6f561e4b2; 0x31b191fdc49c5efc; 0x71b4ec7f5acf53bc; 0x66f4de13d8fe67f7; 0x339b1d3f03c5af30; 0xbbd51a438b5fbe2; 0x53a1c72d0d6f41fe; 0x6c59767046df3c69; 0xc8f118617a7156a; 0x51dccb6789617f29; 0x37aabf9e8de6191e; 0x6b58d8736e442e89; 0x3c0814722b95946b; 0x60ac51131d0559b9; 0x45d6da6acf576e66; 0x3577f886c3e048cd; 0x70e2d268edbd96d8; 0x4e0a23141c3e0b51; 0xcf12561ed2779fe; 0x24f93727c63e1928; 0x42f9593f914df186; 0x7bb2263cd11ad2c9; 0x697b1202438babdc; 0x709d9d672412daea; 0x39d337f3f41fe21d; 0x5567eb965df3272b; 0x245f086ec294a33f; 0x5fd1a1f465771ab8; 0x24ddf283d5ade60c; 0x4cb9d9f563c2021f; 0x6bcf3c7f21b2561e; 0x9b599269c282fbf; 0x71110d7a02a9d5a2; 0x654468c77e0d010; 0x79f326ce123f4ec7; 0x14bab654683f88f0; 0x5fd4a5d8828cde00; 0x66d972dbe2be2420; 0x541817c5ab7c4197; 0x4da23f4f7b3a7be6; 0x6c9f940d24b8e4a4; 0x76bacb7109c0b9ce; 0x6e03ed62319b2bd3; 0x3b8ad6d672d035ea; 0x7e6c8087c6fc886; 0x2b2970daefa2a47a; 0x379ac49b357be32d; 0xcb5efe9da6a59a7; 0x63c54fd1164d9d19; 0x21ce2a551fb14cb8; 0x2b8f60498591bd5d; 0x25021082ca393769; 0x2e96194f275230af; 0x3e031dc0406349fe; 0x3fbffafeab933c27; 0x334ad7ae5c774bab; 0x7cab2b527165b4d; 0x48f6cfa5a8fd131c; 0x62e49916b3cc4151; 0x8ae5dde0e792013; 0xdd4b2110201852d; 0x3b16876a3d4ff949; 0x4cbab739084bb768; 0x5fa2a1a36cd95055; 0x132c48184fc01254; 0x3ec14210cb0e7646; 0x543dc91fae55ad39; 0x300fd59e233a6ca5; 0x5ed14051be1afb95; 0x2eb0026210dd0481; 0x535cd79adc14da00; 0x8654240c9dc0e52; 0x3ebb61d5d204f57a; 0x6bd6cf3be952509c; 0x3161b34c43d2a581; 0x6b9f4469620ae0ed; 0x40caf383bf0b0bd9; 0x377bb4c11dc9c84c; 0x704d4cd59fc0028d; 0x7099f02eccd192fc; 0xa8c460c8c6b430a; 0x34c665d76336e48d; 0x4ff096c612fa483e; 0x206d14ce5ed6b05c; 0x327e81fdc95223a4; 0x24b964d523b70061; 0x67636f57db75eabc; 0x197f289cfb4675f5; 0x408a10768669bd4; 0x26c2d28f8507a9e2; 0x1f0fd98ec5831930; 0x32d8193930e2f5aa; 0x29e3495d4c5534e7; 0x4f86d31d4e820137; 0x12ff9bbfc0311664; 0x7351149ccc49203e; 0x30d94c83ddb466f; 0xd814bd51bf08677; 0x6d86977a70db4987; 0x5b83fdac064324bb; 0x35014a9880f002f4; 0x69419844d6974857; 0x30d1563192be6aba; 0x45571b18f60b6ad5; 0x69ba659353e3b256; 0x6708651759b41e9b; 0x4f16fd8cce508e5f; 0x278344500c4d62c6; 0x4ad4a8941c114b62; 0x6c623ee8ebd818b2; 0xd34950fe2430b91; 0x32995042f557e5dd; 0x4acdb9130d1afbd1; 0x53f05f9eb32868fc; 0x4fd0f65430a38585; 0x3bdd43ba61af88c1; 0x7fa7111a32582f46; 0x5ea5819a52fd9814; 0x2e13600251adc1f3; 0x5eb12e191dd1528b; 0x33246e2de6831930; 0x31b3c95121cc9ded; 0x2dc9074092df639c; 0x2e9f856cb520b018; 0x69a78255354508bb; 0x2fe182f7ac2863de; 0x391db6fea56955ac; 0x2888479886fcb86; 0x2697740ebe1c0929; 0x99c5d245b87331a; 0x40bdaea210f55ce3; 0x655fddf9edfa691; 0x184248bca90c986a; 0x1d9105febb02684d; 0x75b41be20e6261eb; 0x17f0c9d18c3079e1; 0x63eadd24c58898d3; 0x5b58bfcf6caa4e29; 0x75e65aded8207887; 0x5230dc20ecf30e89; 0xd6d3aafbc25bd4c; 0x37c960b517b29492; 0xdc464aaf493e359; 0x2481657fabb6b2e9; 0x36c9c733cf394de0; 0x41825f95c460cd79; 0x61110dfc6252ff; 0x41fd8363a65ac45a; 0x613132eca8bf7e38; 0x342a641364c4bf87; 0x2876773536e427e2; 0x48486aa223d0cd51; 0x3accbae993d1b81d; 0x2048617aebb8d9f7; 0x5379ee3cf419ae71; 0x3692749524b4cf6e; 0x662a027a75fe35f4; 0x56413b7ac1cfe21e; 0x52b1d2a528e76ee6; 0x310a3c475f2ecaa5; 0x64706cf6414257e3; 0x5a7d473ece378076; 0x622eab07374cb86b; 0xa85010d35bc18a2; 0x5fc707f7cb0870e; 0x6301fbef66f6f2b3; 0x16db921b49694ef2; 0x6ed59173ca4c9510; 0x6d22d91132c075b7; 0x36bc9446bf663c81; 0x1b3168097aa0e984; 0x65b4b43e33c38da8; 0x3db38b7477d27244; 0x1f27e20507fd7c8d; 0x2633f901428a550f; 0x33a89c97c340bf92; 0x6fc9082a68da37ae; 0x719825a5a554214f; 0x19ffe73f9223944e; 0x39df6d3c0a61bdfb; 0x48ca35de072c46da; 0x743b6a9293fb4037; 0x7f56460e570d74fe; 0x599aa48cf3493e8; 0x6593b7e835a44889; 0x3a9998e6b94c0e39; 0x6e9b1b6f3ba71171; 0x4e6b7d7c52043c97; 0x5b9f0dfd050750d0; 0x6cafb1fde9941672; 0x1e187bb551039514; 0x7c1cdf170b29c3c5; 0x6812320513ca7671; 0x9e259a0b1db55e; 0x6f53bd93d872aa7f; 0x584c11c5b609238d; 0x406795b6881fd613; 0x45197abe29f5d962; 0x243fc156af4e1ad4; 0x585ae128fb7772f2; 0x1952ee9655725a0d; 0x36d91b64adbb2688; 0x514670964ec2471a; 0x938bac3b5c8ff9c; 0x24ad4363129c23cb; 0x306ee770591c923e; 0x307531aa59daa16d; 0xbc6221df8cd8e42; 0x516a49cb4225f2c9; 0x744f5fadc872db0d; 0x658c3cfc164cd0fe; 0x18f96dd951b26340; 0x599d8ace4a9005fc; 0xe8821c6f2805a61; 0x5dcf3c2acaea2f2d; 0x6b61404e5bc0817; 0x70dddcb169d1718f; 0x313e0c198809a970; 0x1bbc936b1a5f6227; 0x787063f8e1b2c090; 0x42e5352c3b71c970; 0x768d52be361a5695; 0xee5daf20aea8ec4; 0x1e26de283461b757; 0x71c312c9db72f2b4; 0x1a4659274feaf5cc; 0x25b4eaab7b55aed6; 0x7af1d8d8cd98c583; 0x2be899];
   [0x78d361c18e2b919f; 0x7dce384224734a7f; 0x3750ea5fa0a591eb; 0x7a6e0ca3664fd687; 0x1fb97673a80d6342; 0x49579ce36c1d7665; 0x9c9c72299c9fcb5; 0x1c80bdb786f5ef9a; 0xfcd5ba5597efeef; 0x2d270cf6147d30a3; 0x573c3d13723e6451; 0x57261562dffd6630; 0x4cc89b3b41ed27c1; 0x1374440075d03ecc; 0x7a0aa8d39f1a2c8e; 0x3b11811b8a368602; 0x254f94c7ba3f63dd; 0x18b27543e527d520; 0x752f6e2adaec5285; 0xf6ea182cd66f586; 0x1b8ede5f4b276385; 0x6dcbcbb5dba4e18b; 0x21503fb3cdc0d7dd; 0x2cbbaad2f64ba492; 0x59faa36716ca3966; 0x4570c68d83a1b326; 0x474e32a704527716; 0x735a7b95935d3fb5; 0x513e9ac219b8abac; 0xf69f92d626216e; 0x1c01e5311bac0d1e; 0x570caf3762508e93; 0xf3b783fd5ed72a1; 0x447799ee1c63b797; 0x6dace782bdfdce95; 0x3fde85ccadf5a99c; 0x4b661a9853e506ae; 0x618cf8fe1a85922; 0x3036fbcf6a5133c7; 0x5e0da25ed81354f7; 0x577d0136d82026b0; 0x3c759ae0bef14dff; 0x5c3eae3cb76a710e; 0xe42c8cf5dd59429; 0x3ca584a9c14eff32; 0x51e25939f28933ec; 0x33639e892e11172e; 0x5518d562de4f9267; 0xb512314472dbe64; 0x4f87167f050127dc; 0x722cf4d138fd6458; 0x347ee1da08a9ba97; 0x6427b9f7f5716571; 0x723e20f18c69fcf5; 0x5c45b4e0e7207c97; 0x6077e4179c2a6fb6; 0x1d8168e2711a0a4d; 0x5259d3f20645dffc; 0x13fa7d94bb833509; 0x5058471066e7dd6b; 0x5cf68f51ae3c1cd9; 0x6a0159000d918dcd; 0x4c518f023a7d7421; 0x38c8a2877c5bda; 0x5d62da3a37b9a896; 0x2f0f038de83f2229; 0x65949ede313a86f5; 0x3aecaeff751d4eed; 0x314cac9077c1d05c; 0x1842c87aa9115f7b; 0x272acb3b72ad9a0b; 0x4888ef3213e21969; 0x3f7b1cdebceb5930; 0x11fe5dd2518a52a0; 0x4ea124a0e059624b; 0x1555aa07448e7f66; 0x3aa39ca9f1e2432c; 0x31a46ccf10663dee; 0x57dfb269ed3c50d3; 0x4b5de5eedd8b3844; 0x1a35195cb1ec2a26; 0x3a601ec5f4aa7a63; 0x26d61423b78bfce2; 0xf2c18948ad11d95; 0x1578db6a4611ba36; 0x2a22719de71434a9; 0x32b0c8728c267893; 0x57ff4fc5c5087903; 0x6d1409080672d5da; 0x7e2fe111e232dfe4; 0x1f5b5d4804801fec; 0x6464ed48f021035e; 0x5683c60e89d2f4c2; 0x645cf44cf37ba680; 0x2da2932131ba3bee; 0x609556e65a9d5f43; 0x474c24297441cf12; 0x2cf463543d348f22; 0x5767cbc8fd362561; 0x2378a3b8083afaad; 0x22f181e2ecb64d6d; 0x3a5c49935a783b0e; 0x1548eb3975ee5fbb; 0xa9005ce152436f0; 0x6c3b7e2c20f86e3e; 0x264d06995e65e8f8; 0x76120a25f6c7e82b; 0x1aad3e4f379e973a; 0x4868096a76b4af3a; 0x53d80592fd3c84; 0x380958efa971d234; 0x6b76909898023608; 0x6a00924455975323; 0x607e456726e796cb; 0x6db9a50ddea27dff; 0x418b8fcd0ffdad03; 0x19503e24b365ba05; 0x42871aab5b0c175b; 0xaafb1853a82cb30; 0x74d808b104b30531; 0x38fc62b64b18ea14; 0x4633b1d657c8f7ea; 0x2145535e7421916a; 0x253cc24751d82ac4; 0x13a269792535a4f0; 0x30ced03d38c2f97f; 0x4118933031af6bb5; 0x596dc5ed67efd890; 0x3d77a3fa8bf00243; 0x2f96dbfa68b004cb; 0x2bdf7c8c6dfd187c; 0xb936f67120db231; 0x6b155b768d63b35e; 0x4c4d2f750c176122; 0x503ae97700025897; 0x45387dfc1492f05e; 0x13cb5865157eddf5; 0x361ac95fad7fd9ed; 0x47e80f979c70e4ab; 0x38fc6f67654c9737; 0x4c5daa5a32f84f8a; 0x6efb1e495738d98b; 0x6978a544e9bd2feb; 0x65011ed3ad94b45b; 0x6a312a545e5dcf3d; 0x6e5d92a824c2723f; 0x4715c5d01897740; 0x4ce13c3a0e3556e; 0x5962667f9c1dbaea; 0x18a751bdb2e7e7ce; 0xac7393ad350b036; 0x5de428e3191c38de; 0x1adff09b93da5fe8; 0x58a5ee52d8f2406a; 0xbeebd60bf475f81; 0x313523934a18e570; 0xba8fd8c1f6c3aee; 0x61400dcfdbf27b0a; 0x7a12d5804a2c914e; 0x6e8d0c2e73acbeb6; 0x45ef62496de5dd02; 0x2a392211e1bfbcc9; 0x515d7a3e506531dc; 0x71f12a80990f1aae; 0x3b4d78c08ae2b59f; 0x4e6b26ec6b91875b; 0x21f4c930128ee389; 0x60e1b9db15e4ebe2; 0x11d976d1c1ff7cca; 0x43c852b52a67293; 0x6b6357e0e60c1b36; 0x2612677834867e3c; 0x663dfbc09f76fef6; 0x4eb01b0eb43ab96a; 0x5b18d3340a1f60de; 0x4e2e0e9f08cade27; 0x671111078fddc804; 0x54a6ee54f9e500d9; 0x592e94322f153576; 0x44606aa76371c8a1; 0x35e9a40bdd706ca7; 0x195cdcceda04222d; 0x373b23fca05e539b; 0x1e731778a219f2d8; 0xc4e76fc1260930f; 0x7298812eead4ea09; 0xa5dde30431e361f; 0x2c8308635cf35a11; 0x66f05f97043c74f2; 0x42562c5822c7b59b; 0x2e6981390dc6961a; 0x5387c6e28686f841; 0x6819cb149e035712; 0x559c28cc18a5b047; 0x47c371dbe41ccb17; 0x6a567cf32b8a6dc6; 0x70d3ed4fb7b4da96; 0x668c2c222efa8493; 0x272fe17e84cfd26e; 0xf4234b69eb585c9; 0x428dd9473d8742e6; 0x43ae42afbb0225db; 0x1824e0ddf557c58e; 0x386728872ddd640a; 0x64bc549c1119ce6f; 0x2e0bbe41353378b2; 0x151a311eca58f9f; 0x1f85c654831b3850; 0x73ff7468d834f405; 0x32f1caa05a121eb6; 0x74800e3b8d64bf36; 0x5435fdcfab999401; 0x2976f285e58725fb; 0x56c78ba16b107e17; 0x48010ebe7bb2055c; 0x72823d6ec3d79950; 0x26327446eade6641; 0x4536351520bb0979; 0x2391819b6c5fa59f; 0x350fed67f3340758; 0x60c3476aa9fde074; 0x12194c0a29b47299; 0x177debf4fc21bf6c; 0x7ea1e134d2bdaf29; 0x67838080fa7e37b9; 0x2ba991af619fc52d; 0x782ee9f42c175c3e; 0x3fd4182c125ef683; 0x10d3da0f6102f89; 0x460a8dcf63df692e; 0xeb8219a295221e2; 0x658eba06fe5622a4; 0xe8a644ee6760812; 0x357b83d9619c0c85; 0x1aa92614c23298aa; 0x75ab8357ec3a0866; 0x13604390626e59bb; 0x365f364e2e3fdd9c; 0x4694c6ea6a21600e; 0x72c88c229fe20e5; 0x72e8e956d04c9c55; 0x6c7b77b4ca609d86; 0x336cbafc7f13ed6f; 0x473a9bf1a5c5cc87; 0x63fad4f76538c644; 0x6fe3566189df7a04; 0x326f0e4644ebca4a; 0x7f45430f478ff0e7; 0x2febc453d4efb140; 0x6debad09a2ac2978; 0x7519f41cb8c80a; 0x338d70efec6e565d; 0x26b0d8dfa4eebf0f; 0x2f0e5137868d18dc; 0xb84001de87fee4e; 0x73164890be899b91; 0x2f56db097132617c; 0x1700cf13a9c8d4c8; 0x615a33bb291399f; 0x71d4fc7b653ad868; 0x7b0621f7ab3adcd0; 0x31a551648794b554; 0x32960c75aa32f6cf; 0xb8639424dffca81; 0x1997d2c480717ce5; 0x4c6bd3f92ceadef2; 0x4063c11505a1a1d1; 0x5970c2e0f914bb85; 0x5c69135c5ade7b97; 0x3fdbc25c35ee576d; 0x371a6da9763e81e1; 0x3b00c54241455762; 0x591721790c3ed808; 0x20bc2db8204f88d7; 0x31292c13f86cc530; 0x5c12f7268d08fc63; 0x5d03f94e670734ec; 0x2d1be977f6c36722; 0x50b1f6dd22fa45ec; 0x444ca5d891519edc; 0xfe694afbd916e3a; 0x43243350f77156ce; 0x66c2ad90f0d36186; 0x4833cfe5c500d586; 0x5e7b47e623ed0952; 0x3792ecfe66787bb4; 0x61164d64c32af4f1; 0x57382cbfa732e960; 0x285238c6531a4f4f; 0x51ec0600f702851b; 0x36d4a0626f1cf3ea; 0x4b8e406867766421; 0x1c57f17458833b5f; 0x36139e37bedb63ea; 0x4cf0dbc0712ef21a; 0x76ff275ec0b7eb9d; 0x666c5893afa9e3d7; 0x5e3a772801116e; 0x77fa43d4c2beb744; 0x238e9c435eb1500d; 0xf61259677d1f409; 0x2238972c36d8d8; 0x19affafc95343b8; 0x13525188ea318a91; 0x5e0b266e761f577a; 0xa106d21c0d7ee91; 0x1c38de1166460d8a; 0x1a77113ca4450549; 0x7e9270cc2fec6571; 0x7ba726fdad2731ae; 0xab5bad42c9b205c; 0x4712f7c7c9ac30f0; 0x99ce4eee9265f1a; 0x7ece9cc54f79fb61; 0x46c678fd954918a1; 0x484210a8a7b4c02a; 0x44ab1b26f3634377; 0x95457];
   [0x451edf0db3d517e0; 0x5edca8012a46d973; 0x10f883d0c6328843; 0x47a100f8478b54d8; 0x21f1b2aa162c0e65; 0x5f49c0df327bbd4e; 0x20ebc5c8ffac882f; 0x7a3107c704462031; 0x22f2e7831be86f04; 0x51dbb7b1f366222c; 0x4a45d7e52df074e3; 0x7ea144421d500bf5; 0x73276a77d464c7bb; 0x1766b69a65f0f61a; 0x63cb5fd5843393ff; 0x508f15ab8391942; 0x3a9f620f8de93145; 0x344325e594e8c22c; 0x4f7136a74e982510; 0x58777c0c37d02cef; 0x4f4056b58940506c; 0x2e6aedd1e372ab29; 0x1de9cc36cfebc049; 0x3f54334d2eeb5eb4; 0x64dae5e131022686; 0x166aa0dda496a76d; 0x4665e990b46471b7; 0x18f703d12a1ca21; 0x5f3a7ee78cb3af3e; 0x61715da9ab0c672e; 0x57017e914f4259d3; 0x5e7fadfb6fcb4d44; 0x1100523a9170668d; 0x6f5c9df2cd998e7c; 0x60149c5fd5f4b791; 0x4cdbebaf74ea2cb4; 0xb7b9502f8024047; 0x755ac966999ec450; 0x3a467c3001811c4c; 0x5bb73a95ec1d47ce; 0x5092ac33af22ffb0; 0x2b89fd7b1d9bb35d; 0x2159ac63fb253111; 0x42eb064e38ea1ca2; 0x1edc66523582e12f; 0x1f5c7e7f0b3123e2; 0x307ee31c8d4e015; 0x4944c50071c53090; 0x719a55442dadae1; 0x7690ec12fea93ca1; 0x488b65bd9bcbde4e; 0x33c8ec6678f3b673; 0x4635e2e2e161a5; 0x2e5fb86a9fd8ce50; 0x39063350067173ce; 0x1d7da9069e04f278; 0x8ec558c4bce0299; 0x24c9e2fe9f65bb6b; 0x5ad276a257d85282; 0x92fa7df118de0dd; 0x3446f16ed856b356; 0x12c6bad78a7046a2; 0x4a714d2dd232cda2; 0x30e7e5552e459601; 0x541be24792af9b2b; 0x4bff168c095f2447; 0x437eac58217b4719; 0x517987c7a28c8ef; 0x26410092ede797c7; 0x48cd45f9734c8be; 0x681e142210158c63; 0x59f681c28581b783; 0x2c7fc3cc8fc4464e; 0x397c5e1a48fd1f57; 0x1de8696bce6d05f6; 0x63f8d1ed92848845; 0x52f6d75b47a2b61b; 0x23a7cf4afe079c48; 0xb5a35da59515000; 0x2dc7c4c835bab17c; 0x563921d0544efa7c; 0x213dab69e60b9e2e; 0x4f0a4624aedb7139; 0x30aa6728aa0f2927; 0x442a6d04df51a2d8; 0x7625133d80f2604c; 0x6128e0b227af6f97; 0x5f7ba25267943028; 0x4b394665e883a4b; 0x512441ca552b18bc; 0x120fe4a07667ac13; 0x11abee201e789c8a; 0x2b7f6f7cd851dda3; 0x6c71da0d5b16e30; 0x71cb94426e12b4c; 0x498e54c30812c279; 0x6612dbd8ee3a23c; 0x5a079efb8bd711c1; 0x4f2e612151269cae; 0x5784369e7f30259c; 0x32eb2f6ba3b2c74e; 0x22e2f6e21026c62b; 0x5e98e50ca2b60bbe; 0x79e63d88ce64814b; 0x3f7cc80677071597; 0x5b213e45c73eafdf; 0x79f9c240af0cfff4; 0x43e2970a56bc5e2b; 0xcaca4ffc2da21bd; 0x5bc5af4372a6a3f6; 0x2f1258b98c35678b; 0x68099adadfc8a4f5; 0x66d6b4bdbaf70f18; 0x225886775ac8c6f8; 0x1fea05256a5b87aa; 0x74b193cdd96b900f; 0x32eff306eb5b3a68; 0x563d09a3b1ae299a; 0x35ca439d01fb1ede; 0x7152af006561033d; 0x11968541924a7fc3; 0x37e5d450e2242f77; 0x731c2d6f4969f442; 0x479ecf82141a4bb1; 0x324883ac15ab29a4; 0x26afee9ad173e4db; 0x61f6b9e6d920e4f8; 0x727cb07912842cad; 0x2219849cfff2e52c; 0x5490f4a1fc3b54d7; 0x6e6e50e94675ecbe; 0x7e8f0f84b20426f6; 0x793b70a529844e17; 0x30fdb49f88cc8c4f; 0x7fbba8a5588343a5; 0x45ce19dd106cb9d3; 0x5eaf2d699166344c; 0x1845e428e1dc5588; 0x5ae35559ee6eabbb; 0x71bd4d2200c162bb; 0x5fcb22c63a7831d0; 0x6f1f9c27d93129f5; 0x6b0b027c8b9a1e8; 0x32501e8def672b8f; 0x517a3f291b640680; 0x39a34521335865d9; 0x4158659c5edd36c8; 0x508b19ef2056a464; 0x5a7c9c6c883ffce7; 0x3fe2e2ccf6fb2bb8; 0x47772f4e19290f6c; 0x4d5b5147aa78d20c; 0x2864d8521c89f774; 0x3cae680e6db332cb; 0x2b85f654d67c6f36; 0x4ba4bc6057f57e3; 0x1c41265d6533480c; 0x54020f0c01877b5a; 0x8c126607812eea0; 0x2d0928e5a1ee833a; 0xf5a19fb776cc144; 0x4ba64bf8aa7d0945; 0x20bb417f65e0a706; 0x40561a1bb642657c; 0x50ec5c7e341d1e87; 0x5086952e32bb54e6; 0x5cb5541ee8450b5; 0x607d496c8481c79; 0x3a81fa571bc3cb65; 0x7f0bf607092b47e5; 0x5b81a0cff10d1e49; 0x1b29fd692a4bb6f7; 0x5fd03115db63b820; 0x2366a96ed883e33d; 0x5518591766e4623b; 0x176a368b96643747; 0x94b972d81bad35; 0x4c973f0b33e1a489; 0x7e1305ea2fdbe211; 0x41119097e4858bf; 0x34f962d550a209cd; 0x28a6f1c5ab3ad050; 0x1bd5224f62a59c39; 0x1546677514a0e37a; 0x48ba77ac9a6d0389; 0x44e507382b5c28a6; 0x76e63edc8a614631; 0x5083fd8691458fb4; 0x799f624bd377f7f0; 0x2ea028c486cea005; 0x3dce3f5c9c9996be; 0x6c6fe2eaacf40858; 0x556da716b04731ba; 0x123bf6a46db9fb78; 0x65c51b0b5af2243d; 0x10087d9f761fdaeb; 0xf36e67857ad242b; 0x7608e3b747aeda42; 0x67990017f217485d; 0x5cefdea10ecb2390; 0x4ed338338f37c41c; 0x57aacc664e8a7075; 0x2a3ea0e11b9b2e9a; 0x39971c7ba7f0dfc3; 0x6b1df3f71590dd2d; 0x5a7f2cd0db000f5f; 0x67babd0e01ae4e4f; 0x10fcb2eb8ced31ef; 0x4b9323b97353a685; 0x34e9669cade11aa6; 0x6dd6eea895d73c10; 0x19bb36bfa2ea1ee6; 0x35158b2935b0b42; 0x1f246b40e8f01fa9; 0x59738952c8ceae33; 0x74ce2a638dfd08c2; 0x66daaa9ed08302b; 0x16150f5a35c77b55; 0x2aa7ce4cdfa6363b; 0x52e6a8b191645c1a; 0x17e79d30c119dbe2; 0x2f7a6c6d04638fa9; 0x66fb9fd08f6a5fe5; 0x6430cfc006abd3d3; 0x52e2e2647c49a680; 0x4e65da928da22ac6; 0x340091bc82ef226d; 0x72a6a3be1a60e7af; 0x753338ff5d553bbf; 0xa5474637495264f; 0x2d8b658e2d2f7d7b; 0x5b304a86060eb85e; 0x5a8781dada8885f4; 0x57000372f94991b4; 0x14410087a4a19c8; 0x183d00ecac1a2f5a; 0x4929d12bc813f3db; 0x541c4ebcdb3f71d; 0x805052395681e58; 0x257c1b8dbfd56d8c; 0x4b4bdae24fea6f54; 0x44c8799f0a4195a8; 0x528d78756721cd3d; 0x757dde9d0ae51909; 0x6a12909ed1d982c0; 0x61528c8f602785b0; 0x7320541c11c7a616; 0x844ace51ff9713c; 0x49e0198e79c14b9f; 0x6b4584f5f1c955e7; 0xe65b8b21486b158; 0x73b31f6c43032df4; 0x629159502c88d6a0; 0x34f3c6d1f0128f56; 0x7dea7d7fbae019d5; 0x6aacc1ed9572f16c; 0x16dc419cc3f2bf54; 0x797022af132ad69b; 0x1fffd75596d1a777; 0x53cb5d4134d6acd3; 0x9e51b825dc10e15; 0x2a085ab02fd01ae6; 0x6f5bf6641540513b; 0x624c175f31d471; 0x5df52ca3cb0eab19; 0x4f2498a220a7e125; 0x700b4c1b1e229d37; 0x5f17165bed66c58d; 0x4f7c748d2ec4fb27; 0x1304ae1d14914205; 0x3c5a72f4583f5462; 0x6eb0688ba626a6ad; 0x7686eebfcdb8d086; 0x40cb188517aa6d34; 0x786ff6bc973f4b58; 0x25c4bdde8ed25573; 0x76f57271cc9b41d5; 0x21de54baa85c1f00; 0x3e7f1622b50936e7; 0x625e6670397077be; 0x1e12858f239a2c35; 0x4f5e5a1cdd4cd26e; 0x361e258ee4e8781c; 0x4163cb4170307fff; 0x4d215449a24c9df4; 0x695ef496fec691dd; 0x589b32ad54f7a0da; 0x3c97fe484acb47db; 0x4846f93ad39cfd87; 0x78cf641350d96836; 0x69992eae2f2f805d; 0x65512967b489ac7b; 0x4d3f248dd28d43a1; 0x5a077fda40a2a0d9; 0x175d778d59d2a03a; 0x5c496c2f1557762a; 0x5862043a5400d630; 0x576ef09125d92515; 0x2329a594fbeed3a5; 0x5b2c05926b2a4e0f; 0x60e8a548b6e1b61e; 0x2d6bad3772292d1a; 0x2bc3af848442d403; 0x37ee54b2c210f09d; 0x52d192b0d689a94f; 0x53ac5591e0a35efa; 0x271ba3c020f0a299; 0x224d3a824fced793; 0x532465fd19a444a5; 0x2b2f21ba660bc311; 0x7e5f13caafd4ba7; 0x5feb242b95734be0; 0x30734e356c2c9445; 0x261f80cffdc70ff7; 0x4f061a7887bca807; 0x782c39f8966b903f; 0x3fb44dc41a475f1; 0x2c5b66];
   [0x20370d2a2a56f76; 0x516209913a2b8195; 0x2a60cb3d7fb47044; 0x189c39b63cb7b8a7; 0x52893837f2c80b2; 0x6b1cf8db2e238985; 0x52bf7f918e555d0a; 0x66b543ed2d8fe99f; 0x53d6b3792f59552f; 0x5356855b7f85d208; 0x77484ae5beb4aab0; 0x581f18bab03c1f65; 0xe6bd76f8108503a; 0x32e147e16a412d06; 0x2ffc851026cb5df4; 0x54f520dec12a1d1f; 0x2daa90048fd7e022; 0x76da9d64c0f08aad; 0x405c601d1e047b20; 0x789d9d6d630d42a; 0x4c4653f4de99b6f5; 0x5d5d883bed6ee9ec; 0x2c27f8846f2e6b2c; 0x243e06b9d97c2997; 0x443ff2afad7d592d; 0x1933415c83741a4b; 0x6729046ef000db53; 0x2870e74248094687; 0x58d8c8b2c7fa768a; 0x54b2b46da1a7b9c0; 0x113bde690e584a66; 0x2df4077b9a3aef83; 0x222f2bafedc0a325; 0x644ad0f70fc060c1; 0x3a61b04d25c8b8be; 0x3bf89fc12ccb764; 0x249f13aa13d6367c; 0x29d73a1157893b0a; 0x2662cc0e6770e36c; 0x3ea49fd65d3050ff; 0x4392344f70b9e250; 0x2baca12a7c087349; 0x2e7736aeef8a3bfd; 0x4fad75716207ce4c; 0x6ec7d9ccd56f7cba; 0x4a762fefc0e194a1; 0x7faa36e7fcf803f; 0x2831dffdfb196f65; 0x3c2342afe11ab755; 0x54ac04c56ac86f49; 0x57ad90fbfdc9b091; 0x2d8d727f2bfc45d7; 0xb59b2b829e3cfb0; 0x162d4dc975568bf6; 0xf3ce55404294b7f; 0x1b1eaaa651bf9427; 0x18d5f276080c89f6; 0x2e52a8507659a8d7; 0x1c1aa4404a905a80; 0x2bab4ed337103f8f; 0x394d4e83504589eb; 0x2f5294d5bc727437; 0x4bebfc3babd3eb15; 0x7b51f796d5b49a47; 0x2f0dce272668b08b; 0x1914b1054c123555; 0x76002a55f134153d; 0x17ed2083af77d5cf; 0x48f95ada6b770032; 0x14ea31874d7c89f7; 0x4e4fcf41b67dcbeb; 0xad47f0d92b2ae74; 0x2d8c29992154828d; 0x7728f3bf24723db9; 0x5d120db4690249fc; 0xecf9be1c296a9a1; 0x79848b10bcf24272; 0x5b175ddbcad2940b; 0x5ec6956dbe05484e; 0x4368ca28f5d7dd9a; 0x4af7e0aa64fecfba; 0x17193eeea29059ca; 0x2252950fbba20977; 0xdf74adaf4a13e1f; 0x62499b281061a2da; 0x4c5e64dce2e7fa2c; 0x3f12fd6581f71400; 0x45af5ff14ca7f0b7; 0xcb6d0394f906098; 0x11811d2e681bce81; 0x4991635d79c43063; 0x13ccd82269253773; 0x77ee7a53c239db66; 0x102fe3b321948399; 0x12338288d83f7509; 0x7043f83166293057; 0x4f9026bfb6929b08; 0x7f88255a1b5a83bb; 0x17dfaf38046a6696; 0x7aa336d1761dc862; 0x70c3ac94fd35b13d; 0x787e07d29a403620; 0x492b772c9d9960cd; 0x748366a8161b3ff6; 0x7d4f170444af27ae; 0xb65dc322ed48bd6; 0x412ceea3ca574192; 0x3a7f412a0b38cc07; 0x184b204f22290a14; 0x67554e7db6414f59; 0x36154932f3e380; 0x6fe001fac917d368; 0x225005fc6d3d8bcb; 0x1014876454b41085; 0x401d206366dce8b1; 0x1f53efa43fc5ad84; 0x3181d4861c3b34ba; 0x18c4d028457ba959; 0x4d2fd59545b639e; 0x6c62bbcac9e29ccf; 0x269321a00c9d9317; 0x7a4724dd47cc5686; 0x7107fdbfb0641963; 0x1dcd8b2efca97d16; 0x73f0efedcbc83a35; 0x6a09697d4fe33c30; 0x776a1399cc185aee; 0x71b7e3e7a331f3ea; 0x11e32d89b5a37641; 0x1cb0871d5205f2bf; 0x49641dfd10e3c139; 0x93434419b6cb0c3; 0x62be980fd172c429; 0x43c0b458b6175369; 0x3d0139a09b804198; 0x29edc2d4672e760a; 0xba2b704494e43e; 0x2a107f059c6c2676; 0x4f4bea74fb834737; 0x6d149d25ba58086e; 0x5a61b2cec3393f5; 0x5066ece7763186b; 0x68c2ff6681c50; 0xca1dfc645ffe029; 0x756b7d7fa45fee9d; 0x7d42d13bcb1e2ba2; 0x6d6feacb9d0ebf68; 0x5cf3b205bfee7399; 0x742e54fce7e9921a; 0x2525a2bc1c19b0fa; 0x4eb29d0e11f981b6; 0x7152c7c7effddc9c; 0x77a1b8380a084020; 0x41cfc22b11c1db4; 0x49db6d09345ab860; 0x7cbcfdba5061ae29; 0x179ad4377b5aad09; 0x152c0fa0bcead71a; 0x6794df5198a54d0e; 0x301b79394e518ea0; 0x5d3d680c137c4e57; 0x542b58944efcefb6; 0x43fc85587890fdc5; 0x422e3160be4672ab; 0x1d3fbe7c6f4fcc7f; 0x6005078cbd1a6956; 0x34122d86c9f4d6f1; 0x60ac8220e91be698; 0x4a12c34d3b55f4ca; 0x6db74a96f441d36d; 0x5d283d0b720afb01; 0x768892b096ce76a4; 0x3f7962a0394eb430; 0x2ad64bcdfeb9c5ff; 0x4fff028e6ed8f735; 0x593d4e2c5f9af540; 0x1acdc3883b1dfb56; 0x540b2f359792f69f; 0x24bddd933c3265d7; 0x4f37cf23181cdc65; 0x1edf2e04410f782d; 0x47a2cdc2e0c5285f; 0x69642bbf1c7b815d; 0x6e273a402b6ebac; 0x26c22e2edb3415d2; 0x1efcbe8e5b2cba87; 0x3eb842be145d6e2; 0x57c9a5495052fe65; 0x324d8f542876006d; 0x699b1a5ddfa8fa50; 0x5453cb696f681720; 0x5619cc7d3fe68159; 0x78d5f7a2173a1566; 0x9a9e2878dc0d4a5; 0x40f992b5aefd53cc; 0x596fe6e93418a66c; 0xd8a076297270ef8; 0x1e0c16748e64f6d0; 0x3c16fd286e498b4c; 0x72972b01c8ba9336; 0x71f371bc70bc3d55; 0x1df5118b6d8d3fd0; 0x471d040838c29701; 0x4b3bc9fa81bc0d8b; 0x7f3926c58f8b5609; 0x5a82346bad3cb19; 0x5284b88043f47408; 0x3b0e718c90be744; 0x2f8a5494098ddc8a; 0x334826d1985f1f8f; 0x56983ce07b72a6a2; 0x4da90f19293ac8f9; 0x417ccafdda2b7517; 0xecefc4a5f5594c6; 0x55df5309b1f93cc; 0x287009d048aca5ae; 0x5ddeeb55b83ffcf2; 0x495c6363272a3f0d; 0x3c30cb2741f3725d; 0x7df3420e15acba72; 0x6f1d611ea6f40151; 0x443a5f358bd7d090; 0x663cc566f245bdae; 0x7220c5317caaf36a; 0x2129274d4f760c0e; 0x2f6465bb10cf351a; 0x5b9efdda4a8c6024; 0x249b2d70190b72f4; 0x1d0315bb2e71fe9f; 0x21e57881c1330055; 0x260ed1533a666688; 0x23f94b28d0d5af34; 0x2f8122646c6276ce; 0x5f0ae7d058376e9f; 0x15440e24b68c4788; 0x10d662f4a2d46d20; 0x41f5d0841f7d890; 0x5f8c208835ea2397; 0x58bb82848d19ec5a; 0x3ee968ab7cad1995; 0x3e24a9206ef7d0de; 0x393fdca7d74371c8; 0x1b3415bec95cd975; 0x1666a36e80888da6; 0x4c0d319c20498972; 0x35136eec4410873e; 0x26d1f2d94a4828ef; 0x3d4b9fa5258ab598; 0x4eafaa1c90882652; 0x28c1c8b78873299b; 0x700bc3aced26def8; 0x39e722ff6930f82d; 0x2b3e72924f4f0635; 0x3824cef44c855804; 0x4745b61703638d4e; 0x3728fa11a3cddc2f; 0x20174163ffde15be; 0x666f786e902c4569; 0x3817f9e80fffedfe; 0x570213212343f924; 0x15ac6cb15c4cad0f; 0x5391a9c3f36a70a8; 0x359f1ad76454cd57; 0x63b757f9a8cb9e68; 0x3cdca07f5b5d4054; 0x6353404a77d92b3a; 0x50f30beef73a2425; 0x1f6805ca7ca0fd5a; 0x5e3021056bf58bd5; 0x78cddef4a54748e6; 0x1deb467e3c4cf3d1; 0x2d2cfd207148482d; 0x1e4453462ad49d29; 0x348cd6a69c2a4543; 0x2f764aee8f43c763; 0x75e745c1a5d7e7b5; 0x39a93e1f3a4301e1; 0x5778096500e3464d; 0x6137baa833ac1d2e; 0x613add250c1fb2f9; 0x129478d2fc91b46a; 0x334d405b82d82d; 0x11f6b40475cf6803; 0xccb0d94dba7b589; 0x4bd3ba540d49d15f; 0x4aa559e1e518fac3; 0x4a4f6d140e16a334; 0x485df0e2feb34505; 0x653e799636436d57; 0x5c084e78b0c1a9d0; 0x2ec1339f94b472aa; 0x164be207c946de0e; 0x7d61733dbdc0f8e4; 0x364b8d0a87f52ac5; 0x7b78c5daec1b8ab7; 0x627e302fa54e3ca7; 0x748a9283b8ea6e39; 0x7a2456223135800; 0x1cafe0916336b0f; 0x725d4ba75481b0c9; 0x31eeb4c81799a387; 0x777cb2f16ec664f6; 0x401d6c61c2560007; 0x331c5f367b4af3b0; 0x7ab5ce128d0341d; 0x4630318703b5f42; 0x56ad0aaee513ad85; 0x31e4d713bc48cf4f; 0x861d69f08701301; 0x22d153f39647e2f7; 0x6a4cc65d78e60099; 0x4d23b30d1fc49002; 0x642b6878e110e370; 0x78dd82918a3a0fec; 0x164e1fe2a6709693; 0x636a5af4e48bf682; 0x44b97bded399dc1b; 0x1ff3e3];
   [0x3e6ef70c07cdaf1d; 0x4b5b1f7f8c468d84; 0x49d15e56242fd1d0; 0x2fb142f31017a457; 0x12098caeb55e211; 0x7c240ff5f7a0140e; 0x3a77ac8e75bd6600; 0x75aed77fc6bad84; 0x392f1026babf6985; 0x6e7a022d410d01df; 0x6f8bf6f7488f2a6f; 0x7a812e0b3c9501f1; 0x5c50e334995391d; 0x5bf75f71e9a89148; 0x29b74368c3dec46d; 0x4d557cac97f6108f; 0xf2a12012d8763f5; 0x1455557be5b4b0b7; 0x3c2affad8e474035; 0x4694b3b30acdfd9a; 0x245b3fe4ce4e1a9f; 0x63edb07a61b8881a; 0xc80292ecf27cfc0; 0x48f72b20d5f27a78; 0x5e2c5ef741a1857b; 0x10613882d1505934; 0x51832d5e6fe921c2; 0x7f8abae056162062; 0x2a59a9652f5d2ed6; 0x6cc0ee2b7d2c0546; 0x6acb99bbe6e35eb7; 0x5659ed99b6857868; 0x3b8a1faaac145361; 0x4dfd06d4e15894e7; 0x3a36c83b60a2407a; 0x6dcf63a77ca61991; 0x1e2c0c026ab65d81; 0x12638fa99c3e9b38; 0x75022980f6572f91; 0xcb4ce8ac72b9954; 0x1595f4f183d53e5b; 0x2ac3c566bf536743; 0xbca03b3fddcd725; 0x3507ab2233f2ca00; 0x44be528966b1822e; 0x5ecb615fa1031e45; 0x20ecf60dc0248f2b; 0x52d598502503a77d; 0x3d0c82894c7535db; 0x326b6e23f5235e38; 0x13a93822e6ca54ec; 0x3e79d6fbd6685773; 0x28d92e8059f88069; 0x7fa018f99bb47b73; 0x58a32a54ec014312; 0x285b7cbb8f573445; 0x7ee9fe5b3d2c660a; 0x4065f2c7b512fcb8; 0x8b108c74907437e; 0x18b9bb78ca6e20f0; 0x62323f1f4a901e07; 0x1a0bae81664c6108; 0x3da33763b3cae1b9; 0x7b4dca8f2df20bb4; 0x60561756da928f69; 0x5d5a7d4617e778af; 0x1b2fc171c20d9889; 0x506b360d9a223cc5; 0x5a21fbc4aa735db2; 0x5cfb4500e2d70094; 0x43200167a2bfcccd; 0x4cc262b7df2aae55; 0x28ef0b295ae67cb5; 0x30abbaa899232c5b; 0x6e74bd41745cc515; 0x118caae0c71b8880; 0x4c0262dee3a267d8; 0x39cc6f0bcd686a12; 0x12af4aeb0c20cf4d; 0x89e997eebd88bdc; 0x48336f02b063932c; 0x2f1cc416df2ef25c; 0x48bdb466858e11cb; 0x59cd93bb739278af; 0x65432956ecaa872f; 0x67d6a9f28c143714; 0x28f67fea4932343a; 0x716fb799c7bd5bdf; 0x36303b75404600ec; 0x5f022dede91e9d8; 0x671fe21c9fcfb3c4; 0x12cd4853dc26425e; 0x35e00f822c4a533d; 0x7e552a7bb75f567; 0x44b1603d0c68babe; 0x6f4b5f3a0e181068; 0x290f8f7872791185; 0x10044b4b91c7150d; 0x3ad2f2fdab17f7ed; 0x2a18f94847a721ab; 0x6f1313b2949188c8; 0x48de5a5e5a788b6; 0x350b0803113f87dc; 0x5a2f5a28f176fc0e; 0x690307a341f1cb1c; 0x39cdeb8e8276fbd0; 0x66c5a7b9e5e189fe; 0x663b5c57ada37f9c; 0x309328eb7c37c597; 0x5b39b4d542f60a2d; 0x75c252fb60027f81; 0x21df1c4bad530d2c; 0x6aa3c1d2b870380e; 0x4c4d499df5a3351d; 0xe92047ad0afb3b5; 0x4eb7bf9397b434a4; 0x18b3bcaf180ecafd; 0x1d28d9dddbacfe28; 0x7bc31afde0ba7a5a; 0x57e7de72b9fb0432; 0x5e8cce1d70b61c91; 0xd437d4bf28adc6c; 0x245e96c480c2fbc1; 0x12dacd180ace3232; 0x440e646db5d1309b; 0x61f3a5c78344ca46; 0x29df681bc81b6d82; 0x7289e2f08cf1dc79; 0x3d10349c315f3802; 0x38c64faf41e8f0d8; 0x4abeff40fd2380d8; 0x4a9b3dcad6b8f276; 0x68e453627f12a799; 0x4df9e70521d26a9c; 0x3db19dd276d7859d; 0x6b50592cbc10aea2; 0x44509471ad26df34; 0x299747a5a6b4acf5; 0x681addf5c885ac2e; 0x65290026356488fe; 0x53283eb0d69b17bf; 0x63ecef9738977964; 0x188cd9e53080a73; 0x2ef1a2ed343dcb57; 0x795b8b7723379553; 0x5a56787eec7f95aa; 0x3a310b2d501c66ca; 0x67e158826cd79e31; 0x348891ec5dc5b8; 0x30be46bba4c3323a; 0x6f49ef94bf120ec7; 0x5ec24138b3e44d5a; 0x38d614972bc9e996; 0x166a46452ab94992; 0x247690cb37d05a47; 0x5dd16168e8655427; 0x3353c6fe7a77dc2b; 0x457146a6df6b531f; 0x4c3572530e8f9027; 0x1d1fa692db5f29e; 0x37cada1690215fd7; 0xfdcff554c353cd8; 0x6ee1bc4e5ded689d; 0x1ed5ae3d54e79b54; 0x474fc044f145e4dd; 0x6612c1335ad1bbba; 0x304061dda8ba24ef; 0x5f75c4ce3b7dd26b; 0x585b5ee1cbb6d7e5; 0x129a02931c22600a; 0x4533f7d2c214b012; 0x41b511e004c92b40; 0x7cde67e7779e7922; 0x3082196ab10b3636; 0x405cada9174f6c80; 0x6acbf8582e411f0; 0x1c5d8ff6ebe06af7; 0x7f0814b7529edae4; 0x277da4d2d05ff388; 0x21b0c38ccae30588; 0x580304eaa574fe43; 0x1797e1ade38a15e1; 0xfa14624d84d72c8; 0x1634d77247080224; 0x3c8347f1ef8f38e2; 0x52eb640699a447b1; 0xa8fd71ffe576c9e; 0x52d706c3e5c598c9; 0x2e535bf17fc5b054; 0x74ca6d8d68fb773; 0x60ebf981361e150b; 0x45349b543fae859d; 0x12fdad28d8f049a8; 0x4723f1c7b2b47ad1; 0x336cd09ccdab2556; 0x78ce5ed357f49e7b; 0x6ef78e084495bea; 0x6bf653c686f6bb37; 0x513654e33ccf6448; 0x3ed5832e8714ba22; 0x797cc7cf819e955a; 0x1ca264abf149ea0e; 0x3ee5359dbdfe4044; 0x466355e24df2ee29; 0x220c098507aec442; 0x639af4b40c40a2ca; 0x1a9773ff0881e18b; 0x607c4fcb9473b3b2; 0x77f473147e0d0a28; 0x5bdd4e63081ea1ed; 0x507ef92be6b07f0b; 0x1f2b625efa297ce6; 0x225bda1d2722c39; 0x3b5329d3cbe5070b; 0x5bb86b7c5c983c2b; 0x65f95ef063b9d3b5; 0x58eed1ce8c54baca; 0x18046b96c8b53bfa; 0x5d921fa8235ba844; 0x3b24b46ec1a5aa9e; 0x19de9519df9f2261; 0xfcfb4e375594914; 0x2772c230f4a66c3e; 0x1e3bc76ca9593825; 0x38a35f7e3a3b9131; 0x37db038ca99c050b; 0x8488fde71dcea83; 0x7d13d442b6fb32d7; 0x705d7cb8babafe2b; 0x5a70265a2e99e269; 0x5b0b36d440d7889a; 0x46b96edd05d7a3de; 0x697462066e6fab31; 0xbddb70b321ceda; 0x14e2118ded5bff9f; 0x3b984c400c3a3f4a; 0x52f74f2a72f4dd57; 0x13a987125edd4592; 0x6827aa40ffb0dd95; 0x4bec65c6ad8ceb24; 0x135b1a03dea574fe; 0x445bfe75e98e638c; 0x1c3e5e185e908868; 0x51d5862edf88e8c8; 0x63886e5df91f988f; 0x1218cc975330d130; 0xb86955e5f738425; 0x5af2544665bc656; 0x339eb0acdb17840b; 0x1d98efa1e83e6740; 0x2a9bcc87cd689e2; 0x77d051d2c1ed5a8a; 0x73a58874a2dc860e; 0x7288b218594de3a4; 0x685cc3c43a3e25ed; 0x28b7f3484d6592b; 0x26e2d0b373fc9fa0; 0x4e55696d1284d53a; 0x55b7946edcfc0e79; 0x75a28ccca5eaae; 0x10612bdf4d1029fb; 0x79b78d7dbfeba6e7; 0x6180a5171375098; 0x1ac939310872b649; 0x5df37a40060913eb; 0xcc18ba520dbd63f; 0x65989db93c193c8e; 0x54c96744115bf683; 0x5c6fa2da6b350ee0; 0x77e72e4cba1d840c; 0x57697dca0f6e0827; 0x409a8a0c35ebbfc5; 0x61b7fd577d3ff2de; 0x72a57a5c621213c1; 0x4eabf67579c4b592; 0x4d15b2ce7ccfabb0; 0x55e2e0dd39244972; 0x51a060df62f61a29; 0x27cda65229b0da94; 0x42de47fdf319383b; 0x7ef68b5a4745bff; 0xb5e66728bf8e912; 0x1c6872b77560bd19; 0x44c8a155969b16d9; 0x959c919bfb00e8f; 0x747fdeac6dffbcad; 0x443005349dd295c9; 0x2ce55203df6b49c9; 0x2bb247548f84e547; 0x24fc314ea6c029ec; 0xf71a04d82eadc6e; 0x4b32223440a32daa; 0x622c4cc583513602; 0x2d311756bcaf8f31; 0x4cc4178856e64dee; 0xe7d9ff2867f1750; 0x5e319d0603293fa6; 0x14deb3f02cc17135; 0x2e57c154a88f6fa2; 0x5a6b1caf9248b8eb; 0x3389c108deac902f; 0x7f416b1a7819d4f0; 0x34c8cdce2bc8c499; 0x15d16d96ec1abea3; 0x36b58319d585c9c1; 0x611288a4100f7f02; 0x734ebc27ae909de; 0x1970763865f1bf24; 0x16e35134f28467ab; 0x7adbac87c9aa8c32; 0x3de6ca1acd7ad7e8; 0x87e5bf3d519b9dd; 0x37cff697250c541e; 0x621fccf5d91f0f8d; 0x558ec6b1a811528e; 0x740de7dd997676bd; 0x6ece046dd3f5685f; 0x394ec8];
   [0x5175c7640802c69; 0x4863a29b17d31274; 0x49adc0f415454e94; 0x7695022f10914943; 0x5f26b01f28ec5b5a; 0x334c425e325dce25; 0xeb36d9a10b1df62; 0x1e09a6a0d23d37e9; 0x73169812362280eb; 0x4df6a5f4ca92b7f4; 0x781a287c04fb1961; 0x5d7346ee6f657b61; 0x5739da087dd147ab; 0x8cd5c8fc8314502; 0x698f052c46ec1c8f; 0x1f65c37c5fd30370; 0x4805a56b1bdf28c1; 0x5aaa65ab8283184f; 0x301d0589777e9e3e; 0x1819958cfb0f6487; 0x28bb5fba86bed843; 0x6af4a781b3ab4278; 0x7c9edd821ae57e30; 0x26ad58c90eea7e9f; 0x2adf6018e0830d04; 0x16dd5d4aa4bcb4a8; 0x46455ece797e985d; 0x2d7da3125e48d87c; 0x3a6a9e61b6a0319; 0x6ef78dda091fd67c; 0x5d55a0cf017a4190; 0x3f7294249bb4b1e; 0x4f321c1c63c0bb4; 0x2131db0c7caff1d7; 0x16d17878e6f38da9; 0x7594cb4b8e1836f7; 0xcf30edeeb55224c; 0x4bd77656b606720d; 0x4966d1e8d829ae52; 0x2d06ef07b53277dc; 0x1f4183c83834b3fa; 0x39d989817ffa5715; 0x2fde20aaa41809f1; 0x2cfe807a6b42601f; 0x2888e3313714aca; 0xdf260b6d71fc9b6; 0x4a3e2b2479ef8ada; 0x7d5f5cb506b0e13; 0x500f9e746bd0a86d; 0x5661043a35171172; 0x3635e6f305128c59; 0x5eeb42780ce6aa76; 0x38e507e78d7e6316; 0x59deb1cd68795a0a; 0x4f5ace73e05d2052; 0x4feb311fb57a9caa; 0x70beb59b732d79ab; 0x4e4c1782f775b098; 0x30f147f0383ea524; 0x191d430957f1a6f8; 0x5f5e8f2af128c777; 0xec19ca072483a9d; 0x53da97d11b0f5ade; 0x1a568181dbbf0e05; 0xf931f106c375a9f; 0x3b1608b249e82122; 0x55b7be87b3b1f363; 0x34ab1adb0e8f2e1b; 0x790bf4b8622639d9; 0x7fd43d41f0bad216; 0x543bc346903d927a; 0x12ccb3c2d1bdd8b4; 0x2c98c8a6c746d668; 0x53b7e3aa24b4a93f; 0x6bfd8e0cd9e035de; 0xf08948d688aab91; 0x62345eded9574337; 0x2945049dd76b6cad; 0x5ee745d819814696; 0x45cedd0f780af994; 0x1b76a3ab8de0ad5; 0x3cf9c015a00e91aa; 0x7c8383c2d0db818f; 0x3e9ed795f42e5d7b; 0xb37de818eae6349; 0x459f5aa391b4382c; 0x131c21248c36614a; 0x55d2c77560285ab1; 0x68d03365666733da; 0x54845dbe690192c0; 0x46ab9109cf7af103; 0x49f2b9c59ab93c29; 0x68bb397c2623a244; 0x653714603327f15c; 0x714d086f1d4819bb; 0x2ea1378ed3d6f5b3; 0x1aedc9db3793e43a; 0x71517ed40341ead8; 0xc6180d973711ef0; 0x930f5c8abe38ce; 0x4b00276e6b734a65; 0x1fc9aff2501923a8; 0x7d895a8e3118213f; 0x3e034a68e7cb569; 0x563af3e47c88d55f; 0x74efd9db6b1550f; 0x5e1384a591545dea; 0x77eed4689034f602; 0x69212d191d171a86; 0x629e330f195cb682; 0x691be8018b9eb88d; 0x6aad97fa0e4c3a8e; 0x3b5d6f855d320084; 0x10b4a487a3aaa64; 0x39fb36c64c1a2533; 0x7500ab4465245509; 0x18110836f5cd402b; 0x3abbf087a46de7de; 0x4b66f8662172c9a9; 0x1b2c7fa5eb6a1919; 0x111b1eee3b570298; 0x41d8baa60232d00e; 0x4d5f2231fb183f; 0x68a3a3fa927c7d30; 0x7722332b03920e18; 0x7588ce53beee348f; 0x180547f20aea2ec5; 0x415834c661c648f; 0x465b7f796c2afdd5; 0x3f71e78101e0200d; 0x36016b0175fb4d82; 0x637af679399f922a; 0x5fc129039affe50; 0x7abc55924b79d3bf; 0x6ab0546bf85161a8; 0x7a36402ccacf8b05; 0x6762a88c5e53ae2c; 0x7d5f6f6f434ad8fe; 0x4182f27c2fafef8b; 0x44bed1452c98de1c; 0x5f95811874c31e5a; 0x765f83504e8a842e; 0x6c8b521d3bb9d427; 0x419593f110591ed1; 0x1f3c7de40f1aa57d; 0x4e340979c401e85e; 0x53569637b1314a33; 0x6407bb07807bbd48; 0x26301cc5913ae977; 0x1d44bae2fdd3d5a0; 0x24e61f8ec916ee65; 0x89b15abe2948281; 0x79ef4f6b7c6445b8; 0x42cc8722d4e158f7; 0xc8fea163f81b1da; 0x5fd81d046381eea5; 0x2ac9b317a2e6976e; 0x73ecc99392633664; 0x7f1fc9c0e44933eb; 0x4e4b036002749c1f; 0x29ca515122309754; 0x3751bfcfd03ded71; 0x6be1bc5bc6643e66; 0x1db0fb21e58e9def; 0x3af89f66b3df0547; 0x4345a9c6b356012; 0x1f1280cd250837f2; 0x723e1cb4a9fc3c3f; 0x443dd5dd4b5e94c2; 0x466d0f2b8fa08701; 0x8694529d4b72575; 0x39cb270cb54c5012; 0x6eae94170347562c; 0x7f8dd08b1db50975; 0xe95543d54a5325e; 0x357d32ab3c6cdd3; 0x38726836c1a3aa99; 0x71c979cb9c40744f; 0x4ec7da8dd0ec85d1; 0x4d2b4907de330ab5; 0x5b29338436cec230; 0x2f2775f936b7d1ba; 0x32d7a13a0762639d; 0x18cdb62b87896646; 0x133854e9c94d3f3a; 0x438db6ce21fe950b; 0xa8cfbfbabbd6ae5; 0xffe0b5a29844039; 0x7df0f540c0511945; 0x56d2decbd4a089f7; 0x506d26b8703ab95c; 0x780656508d43f0e3; 0x13d785b8d1757051; 0x53aaa245224a3d67; 0x5006523c1443437d; 0x13338e16f4a63990; 0x659386c4a447a23f; 0x503face73e6722a8; 0x58f4b4a137c122c6; 0x7f18f110d353d080; 0x3b8c53bf7542649d; 0x14a8253a4b323c45; 0x6a59f793fb2b50ee; 0x453e83aa9123f9cd; 0x627459bb6a702179; 0x7b661a7b6106ca05; 0x1ec61b116ef204a6; 0x463de8ec409a1438; 0x382f966fdeb9f14d; 0x59c408c58525215c; 0x23da03bf441b9321; 0x1283010ee63f826a; 0x5991b3d923d4b802; 0x547d6a03c35f259a; 0x57fc6c41617943b; 0x6c9a605f1827b0fa; 0x68b844dd8978e91b; 0x3cd43af2543ba35b; 0x11e26b457f9cbcf8; 0x7fb80c0f828d43a4; 0x7499474172f865bc; 0x1d193fc4f6cbbd83; 0x69f053a623761711; 0x726688a85ec4213d; 0x5c49dc75c9c779da; 0x13e59b7efa8b3759; 0x72037d5a1bef78ec; 0x5a8c98112742b43b; 0x2af3a942cf444dd7; 0x3f9cf319e0982ce5; 0x66ba0188c81bb59d; 0x7bda023526b06a6d; 0x49e322f3e9b9e84d; 0x38b5dec165019aa5; 0x119f9643007d50b0; 0x9d0672ecafc24d2; 0x17c086c719dab445; 0xc433279c5488037; 0x762eec695815dc5c; 0xc8a34b2d2a1c2cd; 0x54263b9e0ec8731f; 0x6e6c2b1ec570d434; 0x66d48124310dc760; 0x41bbe2fbda97036b; 0x2582dc8f56823e66; 0x3f420575020268ba; 0x6974e43472b0bf3e; 0x3aa5878194c028b6; 0x2bf5938b7f13b95; 0x2a75f807bec21e77; 0x453ad711f2c17262; 0x48cc1e40eba823e0; 0x590814b810c3a58b; 0x1ee35eb62fdedf58; 0x24d198769381e8aa; 0x39a792b8a45ef188; 0x5b3047a298b0f569; 0xa98c80a2ecdc11b; 0x6ed5e1cf351c912c; 0x2b5a08a236694e6e; 0x62d7232fda4b02e0; 0x36010593dbfabd0d; 0x672fd004cb22e9b3; 0x2cd841e82a79d75c; 0x19cfd34dd6ced1df; 0x38789805e2c8ec34; 0x51a527f97346bb82; 0x7a098b8e751a2c45; 0x1c1e88ada977a17; 0x121ccf5d2ad797b1; 0x259fc85d6e15d087; 0x289c1b93e2493e74; 0x1aff429812c3e104; 0x4d5802c92c301119; 0x1cf28dd483974fec; 0xcad766f055d991f; 0x8e00388ffc5e15e; 0x44122153846aae03; 0x9790e55fe671c6f; 0x8823483c006f877; 0x55c9986a29540060; 0x63c5baf3a2365c5; 0xa22eef87fac4d11; 0x7eea654bb677011f; 0x4b82414d00cac313; 0x6fe23cc6ce6ad561; 0x1fe8c4f98e573ea4; 0x6b873da7639ff245; 0x4747266edc5dd575; 0x20d683312911fc00; 0x26508f8231269732; 0x326ddb8cb694740b; 0x6e70d15489dfe5f1; 0x52dc6157fd2913; 0x177b9eec80621123; 0x78954e6bd4e17224; 0xcb3b9aa4e7054a0; 0x14b29587c8114898; 0x581c93f419cbb92f; 0x5fe39cd7b7b3793f; 0x40b99c4f5480c627; 0x429b670154bda8de; 0x1d018cf3dcb47b1e; 0x21cc80709b7a86b2; 0x499933c9c57f66fc; 0x55a26777ead1313b; 0x70b99762ff3ba51a; 0x65d8a47fd932bd02; 0x2c8487038bcf4273; 0x8631a37ea61066d; 0x2769a0f793550217; 0x37baa182a1ed0629; 0x6735480775983eef; 0x1577efbdfdaabeec; 0xb437b6bb7a4c513; 0x364a768980fc90d; 0x54ba22572492c72f; 0x37c5b8];
   [0x7b30f744a6ece677; 0x31788623faaa9b2d; 0x1b590bb9b6d3e214; 0x36c75e5b4e321991; 0x2e308683e8450b25; 0x136acdd0d89cad70; 0x28e6bf0f1a50e461; 0x52f2d0b0a076966; 0x7bc013933c3d89f8; 0xe42e30d1edf8875; 0x3295c5c4622937a7; 0x635e032afed57c07; 0x4d73592d9d1e015a; 0x56170ef5519e05a2; 0x2b14b8f0aeec9333; 0x15f34b2f1319b8cf; 0x6a04532b7bcdf369; 0x5df10229be506885; 0x56ed0769070c5f8a; 0x3dc4d04c0421d6f9; 0xd554529f1a4ad86; 0x67e7eac9bf3f0c85; 0x1f22bfea018b0dfb; 0x4aea9da2f43ae444; 0x153e90a37e8321eb; 0x6090d0bad11cc909; 0x39bfe8570e119cb8; 0x35489115faec3bab; 0x3c1691990594f9e3; 0x4f8ee04d5bb92a6f; 0x59f5c7afba383bdf; 0x49d350eb07897806; 0x77cd0d12214ed6d5; 0x193438a2886d5d31; 0x319e9adb1b964b5b; 0x708338a539f9956b; 0x355a34574e409e81; 0x4ca686659fe87e4; 0x113896f93d52227f; 0x4c7aaa8d035982af; 0x56e02fc996f266c7; 0x73d24cac9e58fa97; 0x61fd7910257c7216; 0x55e19cd6bb1a3c60; 0x646ea7e4d98823aa; 0x21b7d346f6bf88dc; 0x536c6e3bd1e78150; 0x5387a8337e2b3d66; 0x6ea0d3e352e52030; 0x47b064e0282c993d; 0xca7199694159547; 0x277ad67ae3322e0b; 0x29cb91036d38b86; 0x2e5c2d63fa26b5b0; 0x7fb616e8a3be3a20; 0x36e987d8132d9de7; 0x2dd9db9b9dace97; 0x52b480ec9b6e031; 0x6bd4be503167ac34; 0x1445f5a47fde5ff0; 0x56cc6f345125afd4; 0x23ce06dada2cc781; 0x29eccbb3a2c4f0ea; 0x6c52d1e87fdfe08; 0x557a57fd88339d66; 0x418a546a567afb0e; 0x5096fc7d2a174ddf; 0x2db8e8f8cc4aafa9; 0x797603e5178cbbc3; 0x2ae5fbe6f810958f; 0x6602bf7171d882bd; 0x3dc7107dfcabac87; 0x7a80199554be69f2; 0x696f7929d242d373; 0x7155817d769209f3; 0x543c7a64b655664; 0x1fa1c524d5641280; 0x5c080e2663e68cba; 0x481b790ebf66147d; 0xdfc057c3aa87a5c; 0x5e6795ae282666cb; 0x4256060f26520604; 0x2496609ee0cf316d; 0x7093b65ad7937846; 0x3262fbb652aac9f; 0x65da4aa7c29e9650; 0x5ea56049bd2a9065; 0x61a72147ea13ba3d; 0x7d78eb4e45ec168e; 0x6778f3a26bbca3b3; 0x5a50a74bf5cba8d4; 0x3e8a48392ad98522; 0x7a3c60dab44d9ee6; 0x32a736ad55d9603e; 0x32a4037dedc599e3; 0x450300d3c3587cbf; 0x7a69d966c195133a; 0x4f2d7ed2556cae53; 0x1d3a6aba6398a21a; 0x23ab7ae08f26a46a; 0x7e5b072dc9a8d52e; 0x1a7ba407f7c51880; 0x67382648ffcca81c; 0x299538c2598c5ef1; 0x745e9eeca2c1c8e0; 0x27d95815c7dcf329; 0x11c828a4d381b87f; 0x549481efd7b9ebab; 0x30d8001ee99cbdb0; 0x61f2eadfc7b12afa; 0x7949d79be301aa47; 0x3f6dc9461eb855e; 0x3f6c96fa6bb416c4; 0x3d833f067d425cfe; 0x33e49d28de5fc01b; 0xff5e40a479fca85; 0x5ccf2e6571f122ba; 0x15497d3f20fa9b2e; 0x78db7e629b4f3099; 0x40e0414ffdd921dd; 0x7832f60025fd741d; 0x640edb039290e3c9; 0x343b030c8109c4; 0x13d51441b3e02af; 0x35de6dd9bba43568; 0x2c5f69689258fbf9; 0x50f5f199abeeb59a; 0x542ce7591f291f22; 0x987b2e34a146fe8; 0x4361e5b1b26357ee; 0x7ea1948a2190abb0; 0x13cb0fe30792d0b9; 0x31f57c1e00ae0e28; 0x7d581d6c6a55b9c3; 0x3a83f0a95d8fc8b2; 0x23fb344ed1263d99; 0x68344eff92ca0b0d; 0x6557fef62727dd19; 0x776bab41a37ec954; 0x6d3453d7c0812037; 0x72a76c872151c7d; 0x24f2ceaeeb12a480; 0x2ede9c0d793cf343; 0x446839eaf8dfda66; 0x3c271ac908050087; 0x667e17db1105fc46; 0x192d6029ec689c44; 0x403a41aadd6d8cb2; 0x6c4aa02469f55942; 0x7d87f102d25e760c; 0xc7cd063c84079b4; 0x3f01e2c10f1c7123; 0x14c411f8ed217660; 0x6f5043fc356a06c; 0x1a511316ac8f40cb; 0xe5dc7c7deedb184; 0x4cc7d049a7f037eb; 0x5ba4bd3eb994199b; 0x744197809d49bff3; 0x34c599dc48026638; 0x5657a8c76e0785a6; 0x5a753aab544dda36; 0x1ddb3e665d124656; 0x341d98c627705165; 0x470d0d7415463bc5; 0x3988a1cf7ab379b8; 0x2c9def4d263836af; 0xa45ca64769410de; 0x4cabe7561021a007; 0x3e6bbf436220cae3; 0x6bf2936373d26f01; 0x332537bb680b085e; 0x3495aa43577385a1; 0x5ede705a510928a5; 0x1558dd12f10a9b94; 0x1d21fe5668c4236d; 0x38378af5abbe0f46; 0x299a90792ae4293a; 0x6e448240ac63edf6; 0x7b83d58a6afc92d9; 0x37dc06db6c7f3ab8; 0x14ea5aae70afe6d8; 0x4b2a8149418dedc0; 0x6215b3a886cd438; 0x2aa04a67f0557410; 0x42f5ad8621813596; 0x12b3d4c1921a846f; 0x37f9e03d7b9eed92; 0x6beeee8a0b142e75; 0x44903d417e8b139c; 0x6d32b31d4c12f7a4; 0x64cd7158e56451e2; 0x7306b4081e0f973e; 0x6017186b1332112b; 0x5590a554ea012808; 0x375a8449218bfbec; 0x5b8390f233762fce; 0x3ff7d0c8425806f8; 0x332b111f7b6d5703; 0x6cf69d0d286dab18; 0x5e1ab497f76b78d6; 0x46d9c11a73150528; 0x3153ddf68d3a0630; 0x3c04c469b2f1f27; 0x65afb191116f2a0c; 0x136ea3de369f44e4; 0x374ce867c57eb263; 0x27298f83ef8abde3; 0x74fe8c764e711ee2; 0x251a1ca965f60ec1; 0x6517519003bec6c4; 0x64d48fbbe2cadf97; 0x24659b6b34a76532; 0x27691b1c9301211e; 0x36eecbdbbf13307a; 0x3f33126b8512db61; 0x5e68b87221541a87; 0x4e25bff0c4144761; 0xc296abc4f4b0e9b; 0x3919603cfd24e20a; 0x5c34702741471860; 0x3904dc87bd0c8cdc; 0x791de292989201d; 0x3e7e3c8abe9bf763; 0x418a44eaf4214f81; 0x5626a60a80683779; 0x35efee544f75e724; 0x2ef770ef6a0a3cf3; 0x100810f6ec5919fa; 0x30efc4dd483a03ac; 0x7afb24ee2b846db4; 0x969907191bd7bbd; 0x5339c1231b917150; 0x78d3e62410e7ec74; 0x4c2200252527ba36; 0x63b2fcad812eb690; 0x253371ea462073a; 0x55fefe7422ca4d58; 0x3e0a257b1a6e7741; 0x62b6803041b755c2; 0x566a47bbc14f0a60; 0x1b5830a51d7e5396; 0x3c961888b394c2ff; 0x15091c729802f5fe; 0x7998ae41dd753e7a; 0x5c96c9106177dc6f; 0x42127438e9e63daf; 0x21a6c838dfd0831d; 0x394cd13604a41efb; 0x76b1fa0d5f8a6f2d; 0x2a70638712c6646b; 0x5a7493dae11f4c2d; 0x40e9f56545e12885; 0x13c495e6db3870cd; 0x1284dd4afd62e5cc; 0x40b60e839f48eb82; 0x6d22aa29851aca5; 0x1b871009109e0d6a; 0x5c8f74ad79e05722; 0x6b341db00345ca85; 0x62e5d8d699804749; 0xff5f833aaeb8e68; 0x1a8a83ed84f32b86; 0x208ad4fb94178d06; 0x704cae1b1f857cc5; 0xf94d4431f5f885a; 0x1d5e203b5f370302; 0x2c299d565a68a8e0; 0x235854e5998dd1f8; 0x351e39e468de1b38; 0x7b2ac2f1be72eb68; 0x68836c3bfde617d; 0x64cc259e00530894; 0xe6210b1d0234413; 0x1916ab83074223e3; 0x7a9ac3ae904999a2; 0xaa5a261ee71542f; 0x24ef34b13e839598; 0x64ab024071ca919a; 0x1f3cf6d1d6a9571e; 0x30b521fbed9b2b0d; 0x1e821b67bb90612c; 0xc4e60d71530e2c; 0x311e56dfc57aed12; 0x7399d026b9253ccb; 0x5b1a9194f34d4c70; 0x35e21203a2c84e36; 0x4dd12782a94010eb; 0x49f06ad3aa1e4e7a; 0x7b86782135bbc98a; 0x179d36432de6968a; 0x3abde991cb3b438c; 0x1e8bee391fd80e5c; 0x60ecaadcf8880f05; 0xc921b519d1e117a; 0x5ce41482242b0ff4; 0x359db714fd4eb31a; 0x5f2e42e9d4212c49; 0x63a0580d32010fb4; 0x18b4c77f1ee5ec6e; 0x75d263101cf3bd6; 0x6131c8b2a2810cfa; 0xe2c4c3421c1375; 0x1565e09b5de328b0; 0x3e9fbb739cccde5c; 0x5fc9ad5d5c125cf0; 0x1006ed575d09e9a3; 0x530a4e89f880a126; 0x61b8a35d29bdec78; 0xcadf30030d4771e; 0x6146f75475a1bf8c; 0x1960db886c771c1c; 0x1fc6f9a1b4ecdb0c; 0x1452b64c4f40aff6; 0x2a2f9ee4e022a005; 0x77959b5a06ee2838; 0x35bd67b170b1c3f1; 0x211e18];
   [0x307335c1b66af206; 0x3e33b5a613a30447; 0x72e9a294a74bc331; 0x5bf9caba7d9c66ac; 0x29abe497104fe8fc; 0x32fb8b4afe52b9c6; 0x6842178294ecbd81; 0x38cc6a36a9f9b773; 0x30ade95122da3731; 0x1f9a9c70acd90009; 0x3154aeed74ceceac; 0x6b18157edcf54854; 0x7d4c25b9722f0b37; 0xa68eb45f35b3f8e; 0x5dafae4d6335cccb; 0x2e4a1c631df4a643; 0x6079370021814209; 0x11ac8d77cfa4ae34; 0xcb9852fc3f9daa8; 0x6878606493601bc4; 0x10008982be0c7b36; 0x3ecb5f6bac13910f; 0x3afd9494e40fe3fa; 0x3b150c84371849c5; 0x313a42f58c31cbc2; 0x7cba970d74075d78; 0x6c0b0e3e8a4a5baa; 0x1b387911b2159179; 0x2549fa2ab786deef; 0x5b0a6859cadeb9d7; 0x57a507b4be222c91; 0x187390257071b870; 0x17cfbb5f0a7cc877; 0x26768fddcc5bb5b0; 0x3701b46eb4a486ee; 0x34d41a07d4bd04e5; 0x676394e69516cc9e; 0x493287373ecc4714; 0x31d557cf29898490; 0x26522576dd2f4752; 0x2fb1555dd691978d; 0x4b464189e3f88c91; 0x6c1afb95e8b358bc; 0x2952459f040a6192; 0x263d8fa36a49897; 0x6b46e21f6672f522; 0x578382c981dccd72; 0x66b71eb1e02226f6; 0xea9a040397a3ac8; 0x5a9b3f246cb7d9f; 0x20ae8e7725e5c9ec; 0x2fbc0fd115f152fa; 0x67a550cbbe6e2386; 0x4398172f8b18e3d1; 0x4396dd041d2d32eb; 0x32219cf432467ac7; 0x7728d6fdf560df37; 0x3221b4a5efacc7e9; 0x14bd9f1f9eee668e; 0x7486aa844c7c9d02; 0x94de1caa0ab1c30; 0x16f5b96ef5653f4d; 0x1a0dc5d4f155f019; 0x5da27f90edab0925; 0x3ee2ddd09a3b722a; 0xeed44ef926e8fcf; 0x56e00f6c1f7b2e83; 0x35643bf61d9b1196; 0x73f8db6bdb96179c; 0x7531e3b1f85afb89; 0x7b821dcc42d4bfb3; 0x1890e4432f797b51; 0x46e1d58abb5d0a6d; 0x5a2b86c13be7ef77; 0x48ab0f7a48626ff7; 0x7a51e95bbd9075f0; 0x219b0b75eccf8669; 0x242d64c561235b54; 0x5a253b3fc3156d4; 0x5f9b9ae555a95bab; 0x796d70835ec95cfd; 0x339dffb6b66996f5; 0x54f4f745f47b2d42; 0x24bc5bc92c4a3a8e; 0x6af796eb874c5ba1; 0x6090f70d2a20eafa; 0x562cc2dae61e71e0; 0x7e093c5d87037399; 0x2f9f690c16f2f9f9; 0x40f270a8e4f4056f; 0x3858aa602a1bb7c0; 0x716a3cc85ddf0a87; 0x353b027d2cf72133; 0x3ab9fb3a9a202cf1; 0x63f5db22acc363c4; 0x2445b0e2a8fe1793; 0x1a3134c62927694a; 0x1fcc40c6e2069c25; 0x4069a8e337a186d2; 0x27b70de077505ff0; 0x18b6051911f6c12f; 0x6bff26f74673247c; 0x3e3a9af7c6b9c8df; 0x66be48ffc10f2fdb; 0x6098a662b1b42512; 0x7de965216f6e5043; 0x98d933dfa2bda10; 0x1bb52becd9a57686; 0x54b5430251462c2; 0xa5b575991d78e6; 0x155a9e4009ade6bc; 0x4641554533e5a644; 0x32ad651eed4c60ff; 0x22688464bb5b22bc; 0x614e4521e4a14c0e; 0x5c718237cef07141; 0x2396c093689cb7a2; 0x47b8679ffb5e69f5; 0x268310e1503d23a6; 0x26bea4b1615d4731; 0x44ebac6b90d623e9; 0x9d7b1c8c11698ae; 0x4c23fb9fe101db8a; 0x150088d38c2a0823; 0x79f7a2072fca7791; 0x1379c401e0ecc047; 0x2d5b7eb5654d799f; 0x3a2f1db9d7274888; 0x3baf4b28d6b1b445; 0xd5d6498a49ae12a; 0x22aed1f857ada51b; 0x5cdc9ff5612832cd; 0x1d9d61cac408495e; 0x4c922ee269826f75; 0x24d0a6eb453634ba; 0x2d8e3a7abf2f50e5; 0x1251a252fb033806; 0x41c9764aa9e36444; 0x37fd3f4bd534fd84; 0x99b1c02b79336d0; 0x1d9226764866ccbd; 0xd727d60bd59fa0c; 0x63dcd0c37db6500b; 0x4f16eba29b86fa82; 0x732f3b8c5cb91893; 0x4a68961ce147cb07; 0x111a4bfd481d13d; 0x6b1183e9191f1eb0; 0x3b89312672bf0856; 0x26a621b50be40660; 0x688cc22ded5249ee; 0x41609e5bc6771cd6; 0x64f58bb9f97296b; 0x106820e242c88a97; 0x7c3b3d390de4e486; 0xd4608c0d62110db; 0x28afd73d13749ba3; 0x5669096ec7ea1a18; 0x2fbc4ee0e7eb798b; 0x61122128060af9cf; 0x4c0325bbfea4d03e; 0x4261bd786f2b7393; 0xbaaeb00601dd8eb; 0x7e3b77af7803e805; 0x123aca32b0f7973b; 0x757a995611dd506a; 0x5866f7a37c9af7ec; 0x7030fc6779df572f; 0x10e80c80bf0e47cb; 0x45be3de9ff9bef90; 0x6277383fb6d66528; 0x618cd30c4a7940ee; 0x40fdb5e58026ab0e; 0x57cfefa341a07091; 0x7f45f6fde0898d7d; 0x6914d4e382ac3fd9; 0x4b84dbb395512fe9; 0x220e215382b1c54a; 0x78444c1c832c1a6f; 0x775893c3ac7868dc; 0x382150c4695e2dca; 0xebc5473f5625e33; 0x6868dd8695438aea; 0x689651cd225e4d9a; 0x53e7a29c89b03542; 0x30c702580ac6dbab; 0x22b09b3d881ef61; 0xd007d918f0f57d3; 0x29977b4d0764e5ac; 0x1774631e2e25b34f; 0x225b8b8f1b956ca0; 0x15b3d03875232ee7; 0x763ab128f689af6c; 0x3f2dce3621c3ec84; 0x7af62de79a95ec19; 0x12ec97aad82e0a55; 0x47b086ddeffa4ee7; 0x39bf6b31c8e3dfaa; 0x26dacd77fb873185; 0x58e63d98e808162b; 0x14ec4374bca3133c; 0x3cc1b4e89d9b64c2; 0xd58d8afe1bbbb05; 0x7c0ba3688986bbef; 0x324587cca057ae42; 0x339127972975d6b0; 0x29b5ea1fd4720b93; 0x1292b1d1f4ff0cce; 0x6a83bd5ff84f2e95; 0x14e9a20f8d0180d0; 0x242744e717f80dd4; 0x1f70a63ff7d9dc2; 0x6d2b523feb4a88a8; 0x28919eee7e14ad7c; 0x1dc066ba6978c7fc; 0x1063d2cc2beead84; 0x5dacc8a0cff62783; 0x271bc92e677dec0f; 0x586cd7b59892abf7; 0x4d63819fd619d763; 0x34b7a18b7f4cb707; 0x630c7f91dd36cc7b; 0x37f9f17d40fc5f18; 0x1bea45d15e10be3; 0xaca5036156e31d6; 0x7c9d7a1ac3c829a; 0x68a79a438ae47a7a; 0x483a1d6d75f051bd; 0x3973d602cf0a67f4; 0x333eda097e11675d; 0x51ff65171ee39458; 0x8027e557c6fc2b9; 0x80770919412fda1; 0x42fd5b705c974e2c; 0x2a3102c0d2c60735; 0x7d1d0892d5c6efbf; 0x5de4641d8d31bd54; 0x73b016e1620fa391; 0x45dba8100ea3465b; 0x42fb2df84ccf1a42; 0x58212bb64ed6e186; 0x4705477d6957c8fe; 0x58ebddbc351a4fe4; 0x3bcbf08e9ce107c5; 0x7a999e1c9b38c997; 0x75c952afffbd105f; 0x270a1e2c0b221044; 0x467afe3165a11e00; 0x3bac4c06dd9c7018; 0x3506380f3430a76d; 0x4cb879a25639f721; 0x7d6c0b585e38ad2a; 0x4360610a87bd9803; 0x27b35b3b390e7227; 0x13df0c1dff9937f6; 0x5e00818c1be33207; 0x405173981b71666d; 0x407990c5c65161a5; 0x27f132d474fd96ad; 0x214477fe5c33337; 0x558f04055940ac0c; 0x64dc7a96f947cb96; 0x3c669136793f84de; 0x4d3744d03920210; 0x2459ca693eaaedfe; 0x351d93ddd3d39fb7; 0x7f89a9cf5b78cdd3; 0x76423a4903f235d0; 0x5d25eea0b2c6955c; 0x1165e526c1e1d0c5; 0x5b74b40c45f370e8; 0x53cee0c12b6c19df; 0x41c3713bf8e2ea64; 0x46a5586b0b5b9ed5; 0x3e30e2784bf0bc1f; 0x4f9e14f1c3dafea2; 0x2f7fb9db324bb536; 0x4f39f81f443e0289; 0x67781d384a1eddb7; 0x27a4ee4a24ea85c9; 0x4e9e77e64880de29; 0x159689d402c29942; 0x1caa72598dbcc98b; 0x27f8c009f4786a40; 0x70352b89e290f8d4; 0x2dc912c359e53d53; 0x1305c4136464eaa4; 0xdaf714eb9d15e58; 0x57a967dfa3a37fce; 0x7d74560ff2baf247; 0x51ade091509a1a87; 0xe0dc2a7c39adf8a; 0x4c44f12954bd39f4; 0x272016e2eb583718; 0x1cdac49e01e93d68; 0x5f60111937b10ce3; 0x66224f8b5da23ede; 0x7862a1b7ad733a51; 0x4cf382e032c74e55; 0x1fecac6843fe6020; 0x63999b9ee0f7bd65; 0xb15dd7e3dfdb369; 0x578321e26715b10d; 0x7c26ad08d03edc9c; 0x628e9ac19d626225; 0x5f3602791a100f36; 0x4c4a4f5282465b7a; 0x1a87c2f651873a66; 0x4dd5d6a8c945d400; 0x1ae743b9dfa2928c; 0x19de5f464207e402; 0x4f23cca855b34f7f; 0x4762806c86869b3a; 0x66f45720dfbbe2a2; 0x356cef6bc6959144; 0x1c8f4bfa7d3e65e0; 0x718d135477243eb5; 0x1447e2];
   [0x56b1d88bb0865444; 0x3c7b841b0dd61109; 0x740fe2c9a6d30b4e; 0x1d57dd860dfd7160; 0x76676c3524c84fe8; 0x147f179c9b85fe35; 0x73931f6daabe21f8; 0x50c80530eeefe7f4; 0x59199803f0ca61c4; 0x7c44b1b8aa571ff2; 0x49a330e7287ce5e; 0x29992143ba48f6e4; 0x6ac487269bfcea77; 0x6bbe5f5b0192a322; 0x1c891041ec7dce91; 0x254a4c66d527b642; 0x307f98c14159f2d8; 0x1e21db9efc0a24e2; 0x310bf2ba35ab9dbb; 0x7f42a3c78b4d7885; 0x19830c8b31afa5f9; 0x6b4dd62a026736a2; 0x46b17fe36fa25d7d; 0x2342f11ac2a982a1; 0x45ca0725df75b01b; 0xdf980e4fbf01dbd; 0x5a650dcbf25141b4; 0xbc081a3e491385; 0x4ae407330aa869ff; 0x5f561e9c7d1184da; 0x8aefa1e35c2abbd; 0x283d4026cd16d5b0; 0x7774d67e0fe8e032; 0x6b853b903bb2736f; 0x150e398667169025; 0x59b9ec71024d01e; 0x3425f2bfef5775d6; 0x10c0adaceab03719; 0x4f8800348dda4b35; 0x3614348cc9cb29cd; 0x10f80f7762715be1; 0x2c4f9562c3d24e2; 0x4dee6c5dd26ec5b6; 0x1c5b290111b417ee; 0x52bf77106dd75f4; 0x6405a529fccc8910; 0x43ffaad40b833492; 0x17d36ae02904bbd3; 0x710857eb38104072; 0xbc96f3a7903ef30; 0x105286e9abefe0ca; 0x4c6c0a300fb43b0b; 0x291e18a45b83a269; 0x74fd7c0afa9b4424; 0x3989f43845c45370; 0x35de061cbd1f7a70; 0x145bc254b3eda161; 0x728c3f1fb8f2c5b3; 0x62966349bb54b7a0; 0x1224aea5d978e7c7; 0x7f86e8dbea283e1d; 0x48d011713a1af005; 0x64ad861b718d4340; 0x4383ae86091ae439; 0x43f858c85a0e20e; 0x46d888d0254947e5; 0x397ed445406e4352; 0x1645281d0e4a1ffc; 0x2d702cf43c8b74e2; 0xf54723db4693e4e; 0x70463d22595f93f8; 0x125a12b796482a31; 0x2b011edc8ed9710; 0x2ab02093d7bb2a37; 0x71d28577dbfd5140; 0x7c1fed8a440af5db; 0x2e179148910add73; 0xa4090b78a9054f4; 0x12d0ff60b945551f; 0x77d9abc269d006a5; 0x6407806f9e9b49b; 0x5aed2dca443e229f; 0x2249d125455319d8; 0x202b5bb07044c9b2; 0x16f15a834c390326; 0x61247f9e597450ac; 0x1f60cfdcae3ce5bc; 0x1ad00e0752d783a0; 0x6ae79222a431b5ce; 0x3d8f8a2b57ee5d7e; 0x3b3c16da2e866f04; 0x1988f443cd97c20b; 0x1759e3b91d3f109c; 0x68ff9eb63caeb17; 0x41bf89311bcb0d25; 0x55d1fd342771476d; 0x643e577d8901e849; 0x6a127ee5171f4f24; 0x4264a086ae889bed; 0x232555248fb57011; 0x265504a3a997b09; 0x1e85d5aa0f1c043a; 0x5f83033ee5bacc4b; 0x135ab0f56a798b65; 0x3b91b061c98c3d59; 0x787f77afa1ba7d1d; 0xb737fbe9c9b743d; 0x5ea1bd9dc7eea7ef; 0x72ad3539574153f7; 0x60857b5d104fa5ca; 0x7e45e6bd4c69521c; 0x7afecfe44fcb2bf0; 0x2d34db56ef2a7f45; 0x4c40d9503ae8e8f2; 0x78db186546d1e1c6; 0x7f0e11bfbe33c7aa; 0x6496dc5310e58357; 0x4de9d277ef389629; 0x88401b411e79ee3; 0x3acc6adf6cd00f52; 0x2079b711dee22684; 0x61fa8c9b2693e56f; 0x319b58897734fcfb; 0x4b1ac6280b668444; 0x1c14c9d1ef375dc6; 0x1e645fa62e2fcf40; 0x921a797c6f41575; 0x3f38f2401e3174ef; 0x43f628565ceed15f; 0x779ba43616276486; 0x18d98ca5827ca890; 0x5e0bcc4bdd73e2d5; 0x243ff56c7a40aafb; 0xef06fb70e1f2eb1; 0x7b988d62c0a49c78; 0x209cbe779f2e74d2; 0x2b2706a0f74c3452; 0x37c9443c8bf88ac5; 0x363859b21e8ebecf; 0x601ec7601a35e674; 0x43aa0e4d7e8e52bd; 0x610e3a2b01fbb431; 0x612daffd3986786; 0x15134d4f95a5af50; 0x2ec933a451acc53c; 0x7689281038df2e41; 0x584198a5c54a3be4; 0xae624253a76336a; 0x5f446e10f290a7f7; 0x749040b4ffa72523; 0xe077de77e0fa57d; 0x4c1750c819e8e07e; 0x2a2625215883fb99; 0x2ba6319063a3fcc8; 0x3d9d07c21dcdad54; 0x4d899eb308cc9d87; 0x4be34866a58b0f38; 0x4837080a38253046; 0x39441795f073f443; 0xbabea88778c0431; 0x4749cd8e492086c4; 0x3599d9535b08feae; 0x2cdd7d3b6af76bb0; 0x3f768a3aeece084b; 0x9529dd50b3833cc; 0x69b976ba34e37a98; 0x6d8906765f94c5db; 0x22a8ee53a5011643; 0x19a4871aac351e7f; 0x9bd1822de9c6947; 0x2437ff045d40e461; 0x6255b434524be739; 0x1721c7ab2c5ac0e1; 0x62c61a2f2b6bdf9f; 0x2631032f592cfd10; 0x3fec15b2607691ef; 0x29297c55b8cebe58; 0x6e3d2f2ea8928ea3; 0x1e2000c3896e86a0; 0x1d5a2362cd922ace; 0x49c077ccb55cdd0f; 0xf4013af92d7ca0a; 0x782d0782190843a; 0x6d6995baefb4444d; 0x551f2c3c438856bc; 0x67a34163245ba7ae; 0x6a4fe35280e98dd7; 0x23e0432b35d850b0; 0x5f31b059d797020d; 0x232989a79a35e732; 0x50225e007a6b860; 0x604531b0ed9048be; 0x1ab40fad6c598fa2; 0x72da38b80f84781f; 0x7edbfb90f7679845; 0x7ca635a491f40339; 0x58f523005e613fc5; 0x277e9e5df68dd269; 0x1d271c539c8ab0e3; 0x624ba78ebf70687e; 0x6e0ef589aff2196c; 0x545eb5e282aa11b1; 0x4de6ff3acd470cb7; 0x4ca0a4e4f033bd95; 0x12c58ea83a81d945; 0x87eff75a7c4e479; 0x2c7da0b60a15104e; 0x4c408e6a29d0fdf0; 0x48152b611f82499; 0x29cd628a2addb51c; 0x1b91136182bdc728; 0x649960a3a91457bd; 0x7adb70039638e8ec; 0x2405f5d9bcd18a5a; 0x128c2dd3d5d6c335; 0x67885ddf732dc79b; 0x7616e6efae29ecb2; 0x144345d31692b355; 0x6cfc2ac4f640229e; 0x76ae33dfc27cdb6a; 0x15d015129e903461; 0x51fe9d9c0be71150; 0x1c05e98bc10d561e; 0x5c957c71e5d04535; 0x37fea82d95268b27; 0x4f366ec7c9e5c6ae; 0x1a89f0d529ce0ed3; 0x6e13b5dd723d7b3b; 0x2070c0a937d02c65; 0x7bfe83130eda4a25; 0x337afd2a259f973d; 0x1d6227cce3833b8; 0x1f1c71ace0762d1; 0x746b44888d8a8124; 0x332eccb3c5d5e5a5; 0x76ff4314259b7565; 0x3dd2265322340278; 0x2d9f73a24faf8439; 0x4917e7117314fe79; 0x2955f11f759584c9; 0xb5064f0d347f4f1; 0x114617100c6e1a6; 0x45a0c0fa26d5f11e; 0x2b57a2a3d7f1f74d; 0x4ff8587e8c6fcc19; 0x20fbee7eb9ecb94f; 0x4054c0c939248aee; 0x1609500c28fea87; 0x7b8807dd09667b84; 0xb46cd619213b054; 0x6340471efec1e8c9; 0x79a6ac72a911ab51; 0x3981afd9b810a928; 0x73a7153e1b33d6fc; 0x3343ffe0212093f6; 0x3d1a620dc1dc7be1; 0x75fcafe5e4b61ea; 0x4575d8fb9b9a9d60; 0x3a6ab13fd4126613; 0x3cb0bbe03e050fc1; 0x66ea8b3e89f020ec; 0x210d036688ab6fba; 0x1dde06aaa8c4fe67; 0x39ee7f94af0b8f1b; 0x52a13f21d2ac4826; 0x1085e0fcdf7511c5; 0x758e1cd5dab0a822; 0x7f0ee5bcdfe4bcd2; 0x38fac00f51037128; 0x6e732dadb86ffd2e; 0x715cf87d227ce6bf; 0x795b1f18e8bab692; 0x76b25a46a90578d6; 0x40582c55ed6c1b97; 0x43b2413bd6bb9970; 0xee8cd22290046d1; 0x599c93a3c5b96e62; 0x5c4771a8910ad3de; 0x34cdcd1903ffc561; 0x6291e2abc78ada1b; 0x21b1ce9060d30fa; 0x703c66e6159c6f3f; 0x5c0ae0160fe55522; 0x3722e100b5f917fa; 0x4fda661ff9d4a860; 0x139a1e0155e56589; 0x40dc459d44278be0; 0x143c7997582baff4; 0x117612e836a73ff7; 0x5b062c016bf6ddea; 0x278e0b1c72b6673f; 0x17adc35312e04ddf; 0x58b2f23ccbc99069; 0x5d8413ce522fea2; 0x11d4dda75cf75fee; 0x6b4b9526d4d0a5b8; 0x653f3b255cfc5328; 0x4f084cda3305d853; 0x5e4d0fb36b6aa06d; 0x7ef0005fb97d6634; 0xe241bb83b10b7d0; 0x5d4f58818ab64f3f; 0x622dcd7548cd19b1; 0x4372885d53ee52df; 0x26c885fcea861d09; 0x53701a9113ccf6f7; 0x10194e1913dbdc68; 0x697bf14135d700e2; 0x672d67bae5fa7770; 0x1b6412e734bc4da6; 0x1b87f500f2214b7b; 0x216b86eaf018fda3; 0x58d9631a27cf351; 0x269f6aeed04bcf0f; 0x2f783c0b67754639; 0x36773259a522561e; 0x78c88cee0adb0f0f; 0x1171b2];
   [0x3f1e9db9213b5b3e; 0x282e758dd84972a3; 0x2aaf4be95e6b6d45; 0x10490f0905903bfe; 0x35649ee16bc283f8; 0x3c5f9a882ad6668a; 0x685480c9b8533504; 0x7d7cc75d89326159; 0x45e3707a5c1bd0c5; 0x3112a6790f54b9d0; 0x1d242ab6b44dca77; 0x33759411870c475f; 0x50f2a329bced2b60; 0x60677b7069101482; 0x574569874985b0aa; 0x7229a412da56f8cf; 0x49318e30724fc203; 0x68c2a022bdbba2d6; 0x757784089d675028; 0x469b350422fde27e; 0x6468333e2508bb29; 0x3cb77f0a542312d5; 0x1e5cbbcbccf198b6; 0xd39238099032df7; 0x18835addd3c99c34; 0x2290340c52267fb8; 0x4ad63cfec4f13346; 0x2b76527683f1caf7; 0x5f448210cb545497; 0x5edfbae007428f43; 0x51c07687417f607; 0x118f1fdcdf193de0; 0x3a5106ec46a83680; 0x19510857474ba57; 0x4a67021324224b2; 0xf044296f4148f80; 0x34f115a91045c361; 0x72ff9fddbf131f16; 0x143870964a86e01d; 0xd4013664af9cba8; 0x447fe744bf7485b2; 0x53e8ccd2093adbc8; 0x7f53cfd6e29f2507; 0x53fc9cc6cf5a8236; 0x72b1d24e37e9948d; 0x60e1e75cccd17b3d; 0x1b718336f25aaaec; 0xfc4ba244ca9d17b; 0x1509479d75033d39; 0x931aa95c9cbdf8e; 0x799a9be1f8eca873; 0x70a5c3358b1c143d; 0x752acaf7c7478f47; 0x484767ab5772ca18; 0xc1eea64eb676ac3; 0xc78baa94e354efd; 0x7d31e1cd32151c5f; 0x4d9ccc314da2ae77; 0x6a832850249317df; 0x62dfe3a817af7ab1; 0x2a919b1975e77561; 0x5350efaaaa8c48f9; 0x597b7e236458de7b; 0x2ea0ed1d5159999; 0x7fc17d1a7df4b53b; 0x2bea773c7e8cb17c; 0xf12406c2b1a97fd; 0x13ceeac58d7e7b97; 0x64ae955a34f808b1; 0x1056741603076a0f; 0x6682550d9f684a0b; 0x67a00eaa3064029b; 0x54dc8069b8ff8c2b; 0x56a1f627d1bb4be4; 0x2c7f6d0d05a0eb5e; 0x45216aa926c48fa2; 0x76bbc759138345a3; 0x6bac138ddcd09ef8; 0x2ff618525af6ce1a; 0xbae74b1888d7196; 0x3d4ecb6af442b854; 0x1883403c10b0b85b; 0x730094738ae4e194; 0x4353695d5f5948d8; 0x4257766e797968f8; 0x20f30a1158adc841; 0x1ae808cab706f40d; 0x2a0eb7323eeed502; 0x4a52b828ffe3d7f0; 0x1c12b1892a5eab49; 0x6200dd563c3380e; 0x56d1a1a66de21a1; 0x72bbd7dc3456efb5; 0x7528dda9a77eaf66; 0x7973e74bfd04cd9a; 0x419e9c342148905d; 0x56c6a5999e44748d; 0x6adda9a3b86dc063; 0x265049b56814f09d; 0x4f7253e88c7d7c71; 0x5ff4581638c9814e; 0x4feab89c09144ddc; 0x58c7dc4c7b0cb800; 0x4e2b86fc23efb4e7; 0x3b240e9bc3cdc70; 0x26be1e045fa968f2; 0x57935784f281bd86; 0x473b4d4ad11ff56f; 0x433f204ed0a9ef3a; 0x3d77ae631108dba7; 0x5802009b21502d17; 0x46ff77285c99a89e; 0x4704de5dd72c0ad5; 0x782d9ded225a6896; 0x47b28ac41a829595; 0x315d7215f341b9ff; 0x4e3257885756e995; 0x2ccc73fc50013aee; 0x4fb65dd0946ac8cf; 0x331281a599ed7b38; 0x410003458374d942; 0x2f044633c043e533; 0x5246995d3524f4ea; 0x1af6579685ebd99a; 0xe9a3e904c84020e; 0x39a6092afcdf6d66; 0x1e9d96eb3c2bedda; 0x3907e47a01eea584; 0x41c1400ae6741df5; 0x79e805bb8f6782b3; 0x68600097e166c0d3; 0x53f0485d06cd842f; 0x37892182402c6ffc; 0x6f95a917f21c8623; 0x21aaa41c1e3c60e4; 0x2684232ef55413b8; 0x5a55d8454431ef6; 0x334372cfa04910b4; 0x4aeb98b31a0637e3; 0x2e58b7dc14f4be8a; 0x3cdc8c3af4bfcd5a; 0x29f91d8cf3b95a39; 0x3698eabb56f94ece; 0x46f9ed2dd1259c38; 0x5b2822a82f267525; 0x4e477197513190d5; 0x6296a14717833db0; 0x7c3344c8065e9087; 0x514f9f05e617accf; 0x665f9b4bad128516; 0x704ddc9e73066208; 0x4a873cc157212e24; 0x4ea8f92f26a8fe5d; 0x76dda5bee949385e; 0x1896630532607c02; 0x6d42f78ff9b5c966; 0x7a7fc5b153957646; 0x7de9e4583db29eb6; 0x182ac16437b712bf; 0x25dcf9079f780bd5; 0x1b8a3a8a7f41cfb7; 0x42e87b36050191a6; 0x3c9ceb7643a14de3; 0x916f204d38462c4; 0x3a637b86d2d8e039; 0x7fd0e24ee43237bf; 0x398e49a798e2d166; 0x7fea7d69a7440373; 0x74646c5105e89cd1; 0xc9e24d6baf30ee7; 0x679eba7f3f1ef5a6; 0x7d6166dfb9aa8af7; 0x4204294d2f2ad17f; 0x1ce67804baa27292; 0x6c18c588ebd86f97; 0x2db26a8e40c3ad9d; 0x220566351b619357; 0x7ee791c67b201116; 0x6f469b782ae01d27; 0x22c9ec2b1281058; 0x74d7857ad4dd87f; 0x462779b989e108c7; 0x47309c0128108412; 0x14f0d7cacb26542d; 0x6948d96e2d124e9f; 0xdeab5537fcfd316; 0x3281c7386b799a1f; 0x3526e87a58423d61; 0x717183c606a7c238; 0x2a31786e812f4815; 0x23686c937ea68416; 0x78be7e776ac52b65; 0xad840d949b8cc0f; 0x497a9acf86ef758c; 0xb98c3bec680bc9f; 0x595cea22b7ed8262; 0x4d8545e798dd70fd; 0x32c57003dcb6ec58; 0x2aad8f571e84d78e; 0x3b219189cd9bbc8b; 0x3a1ec6573841f2c8; 0xc8c6c254966186a; 0x15773cad79a9a5eb; 0x4b14163bf33c90fe; 0x76fe8578b42f6f61; 0x56a6dc62cdbac1ee; 0x5be7cf2946632784; 0x4a99ca440d615d11; 0x75ab34197eb98f48; 0x5038dda6a67a5039; 0x2093c6b936a5bb2b; 0x658544ec5ebd31ba; 0x765fb5407e415922; 0x3c4b327240310c9d; 0x52fafc984cf31f8f; 0x5018b15ba3537e6a; 0x436da340eaff202c; 0x5b194a720b1f4eaa; 0x4f32ae60f6e9bfd5; 0x17c82c6e03387807; 0x58480667ad3d5647; 0x3b481af25b0ff989; 0x749b598ba22c6203; 0x73cee15d3e1211c6; 0x4b2708b6a50327c4; 0x4070a0e4d52ea2a8; 0x43566d5570808e98; 0x7ada228bfdc3b4e7; 0x7c4b16ad9defa430; 0x3f635bb714b355c4; 0x412abcf1f7908933; 0x7eff47121fee4737; 0x3fcd061bc50272d0; 0x16be5db27476843f; 0x337b57167effd592; 0x39f51d15af7789f5; 0x51b0e5b916cf869a; 0x322964c090888228; 0x1dbf611f9517cda5; 0x5c8b4ad6e1e48a18; 0x141d79112d069b01; 0x2bccf1d8a8186719; 0x380b4e4c2ab179cf; 0x4da43804075d44ea; 0x46368a18169e9655; 0x4a94df2a36bf63dc; 0x4be227f397ed90b5; 0x2bfff69e521e8c1c; 0x79405fd91ccfb89e; 0x77ea4b833dffd3b7; 0xc6a57ad4d79340c; 0x3aa1e442eee6ac5e; 0x4555b3243b052ce0; 0x8307b29d3aa58f2; 0x28455580be19b44; 0x65d6a5d38cebf8e9; 0x39fdb3ff58720b90; 0x3bef3bb6dd65e1d2; 0x73e1c0772e6aed97; 0x2e1b2af8e7a577ad; 0x21942e99fc4bf8a2; 0x1d7c8f54f96498e9; 0x69c2e61964afa6f; 0x691179bc978d49; 0x723cac33aaefb0a2; 0x68ef75c169dea740; 0x383328359bf76401; 0x67770868a30df494; 0xc0891894cc9555a; 0x108b6bbb8ab3db95; 0x3891661c55fdc2c9; 0x7de3a98f09d279e9; 0x8a665d57fb10ec7; 0x4e5f59c54b6511e9; 0x270762a546351e78; 0x3d1ebfa1742e9bd8; 0x25c4d9e25eba76ce; 0x73d758086f03038f; 0xe3e5dd2529ab4e8; 0x6c3c567e8789edc3; 0x2541d0d57ecdc1fb; 0xf6d1b45bb512ef3; 0x248b40dcd59b5708; 0x40484dc36519aa2a; 0x641eac0b8ba4f544; 0x19a57050b5974481; 0x1c80f0e8beba3511; 0x148b85bc8b6875a2; 0xc6e91130c22f113; 0x42c5de3dba2f1dfb; 0x130acbdd82596180; 0x7b1a239d3be16402; 0x68f0111863901c85; 0x2e41036e3192482f; 0x6f598d74818b468a; 0x1b2dc62f07e1db8a; 0x38315c715e838fa8; 0xc0694b2a90d6110; 0x6656d3c3cfcc3731; 0x48d1c8997b51f8f7; 0x193968d2cbf30e3c; 0xe3c3178ac9dc8ca; 0x36dfbb8c66011156; 0x2b4fb819534726c3; 0x61ca9841530225c0; 0x2a7153bfa9f08695; 0x61f9b8e6b908431d; 0x4088faf42dfca6ab; 0xa0b178282b11210; 0x9c6735da9b5f58; 0x2ed8328f9887ce84; 0x43b13a880654d0e5; 0x43a556f0c4220323; 0x784c5e13e909546d; 0x45fd531b53030dd5; 0x30705acfe2d12abd; 0x5179ed8899da93dc; 0x6de8a]]%uint63.
(* the multiples of the characteristic polynomial in the recurrence of the lung *)
Definition ds_relu : list (list int) :=
  [[0x149bd6e9c9816766; 0x1ab7ae3ad81168];
   [0x438d1d47cc5382af; 0x309975422d5a9c];
   [0x25b1f9456c29b3fe; 0x212e6a463ef9f2];
   [0x1cd9ea1a6de0cd06; 0x3bd9e7caa2f6b4];
   [0x4b1a71622662730e; 0x2b3bd550f63f66];
   [0x634d6e4dab786b46; 0x31cd2ff13a260];
   [0x633c716917d272f9; 0x29499972942fef];
   [0x6f3363546a3fcf5d; 0x2dce8278bd4c28];
   [0x1b76da758db5bb1c; 0x1397b0275510ba];
   [0x7c49d6fdb4f1e022; 0x334ac1a6444ae2];
   [0x182fdfdd6899dedf; 0x3256c4d7ed07fe];
   [0x297e8962553dca3f; 0x1804010ebfb41];
   [0xd95f5f16e94b81f; 0xa763ef848c7d8];
   [0x1485d055eff3adbf; 0x3dc5cf63e243bf];
   [0x52a4165bffe5c637; 0x160eb4d41a4d1e];
   [0x5baa4144b01872a3; 0x23e10fb287c49];
   [0x4aad4252a1739de6; 0x38f28c4d06fb5];
   [0x4137fa5e3799de3; 0x3e337f37f0d726];
   [0x57d2848585cc5a67; 0x1b77c57bc72156];
   [0x2bff03a6f6be3fa8; 0x82a4e969465cb];
   [0x6b739efeab2557c4; 0x27992e97aedc88];
   [0x16f94e9427a8e0d8; 0x3dd80dfc58fd87];
   [0x4427609d17e7b151; 0x1b50dd960d5439];
   [0x351d056dc87debce; 0xb17e9dce69e63];
   [0x3f336b11e0d56451; 0xd6102b6f508d2];
   [0x26b08c185be8dc88; 0x3a32c88f1f86e3];
   [0x2952749d452510b; 0x673186ea7d8a6];
   [0x5cde13edf072378e; 0x8ddffaae766cb];
   [0x56cce2fa4a212b05; 0x1c3a113d319692];
   [0x8188ebe78b5679f; 0x1723efb1a2e0fa];
   [0x6c9d7918189f218b; 0x233709d3a0c0f4];
   [0x5fcb060b13ed2d17; 0x23cc5e43a98352];
   [0x1bbc249d4fc32853; 0x3d6c8cf3b9c0b5];
   [0x61c53c1949660378; 0x21797f951271e3];
   [0x20f03d0e0516ca07; 0x2a7594d830c3c6];
   [0x4af414a729b4c2af; 0xc267d2c234fc3];
   [0x101235e2800bc6de; 0x2ad8cd54594e5d];
   [0x78bc989192224ebb; 0x27fbb157b87c74];
   [0x6ebaf9dd7efa0c5c; 0x1c3a37ca71f231];
   [0x46d0e4fd1a4c79ea; 0x2c3d15ecaa39d0];
   [0x65c5986e3cdf24f5; 0x209403cb2fa327];
   [0x38c9bbe879352da5; 0x250b21cd8430af];
   [0x1d489d08488078cd; 0x327c91aca8925c];
   [0x18fa626da7b41a28; 0x3eea9414fb0534];
   [0xfea1546aaee44d1; 0x1c857b37bc816f];
   [0x28615ba992fd7a20; 0x361c75b84bb26d];
   [0x12efdc741277c5a9; 0x28f56505ee8e79];
   [0x1577796b50ca970; 0xa47ac3654ad6a];
   [0x65993f4602175071; 0x1ea467768df7d5];
   [0x1864d59107bc5fbc; 0x7c60df5aaabbd];
   [0x65ba43be03e502f2; 0x87dd6a74fc5b9];
   [0x3b51f99db06e3b0d; 0x935945d8b131e];
   [0x7ffffffffffffffe; 0x3fffffffffffff];
   [0x7fffffffffffffff; 0x3fffffffffffff];
   [0x7fffffffffffffff; 0x3fffffffffffff];
   [0x7fffffffffffffff; 0x3fffffffffffff];
   [0x7fffffffffffffff; 0x3fffffffffffff];
   [0x7fffffffffffffff; 0x3fffffffffffff];
   [0x7ffffffffffffffe; 0x3fffffffffffff];
   [0x7ffffffffffffffe; 0x3fffffffffffff];
   [0x7ffffffffffffffe; 0x3fffffffffffff];
   [0x7ffffffffffffffe; 0x3fffffffffffff];
   [];
   [1];
   [0x3d6da3de79c5b437; 0x3913ef6a2bc3c8];
   [0x642675a1ee7c98cc; 0x153fafa488e83f];
   [0x7bfc1fc85958cfe2; 0x32eabb8ec1e576];
   [0x41067bbd1560cb28; 0x376b4fff157c16];
   [0x12553687f5b8efb2; 0x1921011f844db4];
   [0x1abdb4b9f69e46c9; 0x25ad2121993d80];
   [0x42ad49c3a7b8e6fb; 0x3bd2ebd489a4c];
   [0x4a1b99aaa8b5e97; 0x1e0f6f1c5c802b];
   [0x7c635b0f65fb370a; 0x891b037bbd431];
   [0x6e5dbf31f1e48c8; 0x2c0a7c3d3e5a82];
   [0x4d493eb80c4b2687; 0xaa01b7321c568];
   [0x5fdde37b2bf11096; 0x1bc33a3b51d8a8];
   [0x6b8d4f91cef180a3; 0x13ec65802245dc];
   [0x4973466c07811a8f; 0x1f2b4b5698b18b];
   [0x7842ea031bad99ba; 0xc7b3a62162998];
   [0x109dcd91ec71b7e2; 0xeff74d33c2144];
   [0x415bb6f80175dcaf; 0x2b62ab1e0c24be];
   [0x7d92fb1d2b6a5570; 0x3b08e0aa9d9d57];
   [0x761ae84ca190aca4; 0x14aa1a50e64dee];
   [0x2a635b744de8bf06; 0x38ac51190a1d8b];
   [0x7f01d45674beb4f3; 0x165b2ea58058cd];
   [0x1ea3935f8d861809; 0x2edf521cb3f4ba];
   [0x3e5637f6ab65a9f; 0x1d037744259d35];
   [0x17f08c7626837824; 0x22fb9d4c32f7e];
   [0x2a447ea37be975cd; 0x29d22c6b999aec];
   [0x6ace7961945b350c; 0x2d873df8d233e];
   [0x1d4856f4ea33656a; 0x3c26f5111b91f9];
   [0x25ffc259a6dec997; 0x3ba2b2d261ead1];
   [0x509eca575e37c9f3; 0x1976170b27db01];
   [0x4e7049ea88f06ab6; 0x759468a0dd7a7];
   [0x138d94f9136b9539; 0x22a0f320dbccf3];
   [0x31ddc8f1d517fced; 0x8beeedbd509fe];
   [0x516eb86a9cab052e; 0x14311015ba3925];
   [0x249c52a016f73150; 0x145e68ba73dfda];
   [0x130a914714aa0d80; 0x34e637a21fd871];
   [0x725b0479c5996412; 0x1c44d83ba2838d];
   [0x756c7ce564810c7; 0x25b314f73b0b52];
   [0x693ef60b9eb81461; 0x1998fe4d43aa05];
   [0x3228bad7a08ad7dd; 0x21f3f024006ffc];
   [0x32dc679935bf1dbd; 0x2b6496ad59acdf];
   [0x4aaef42a3a679401; 0x2471679932b7c8];
   [0x52529d072cde1405; 0xa9326186c4090];
   [0x95385d4ce6950ec; 0x151eeb363e5d5];
   [0x63b9fe85872e0a1b; 0xbc907946918ea];
   [0x47980e76a8a676a2; 0x22db1b74f4c7fb];
   [0x17277b6e5ce730f5; 0x2b7d7ba8df97b5];
   [0x65e4f629479c690c; 0x80ea11901811e];
   [0x4cbd86636c7d1677; 0xe061a1f653807];
   [0x5fc7acc26a3639be; 0x5a544837004e7];
   [0x16f338c4f5e095c1; 0x295ac19fd710c6];
   [0x471c2ddd98d6cc; 0x7243fe4faf25];
   [1];
   [0x7fffffffffffffff; 0x3fffffffffffff];
   [0x7fffffffffffffff; 0x3fffffffffffff];
   [0x7ffffffffffffffe; 0x3fffffffffffff];
   [0x7fffffffffffffff; 0x3fffffffffffff];
   [0x7ffffffffffffffe; 0x3fffffffffffff];
   [0x7fffffffffffffff; 0x3fffffffffffff];
   [0x7ffffffffffffffe; 0x3fffffffffffff];
   [0x7ffffffffffffffe; 0x3fffffffffffff];
   [0x7ffffffffffffffe; 0x3fffffffffffff];
   [0x7fffffffffffffff; 0x3fffffffffffff];
   [];
   []]%uint63.
(* the same for the words *)
Definition ds_relx : list (list int) :=
  [[0x6a4edc4ff19ad281; 0x5eb74e4c0b3b3724; 0x55bd71d6c08b4149; 1];
   [0x63dff7787970128c; 0x68ea3e629c1570ad; 0x4cbaa116ad4e438; 3];
   [0x4f91aea1fbf17cb7; 0xfca2b614d9ff297; 0x9735231f7cf925b; 2];
   [0x7d4e0d5ac1d6d4dd; 0x4f50d36f06683182; 0x5ecf3e5517b5a1cd; 3];
   [0x300559a3b55c186b; 0x538b113313987f7c; 0x59deaa87b1fb34b1; 2];
   [0x594fe69811a593b; 0x6b726d5bc35a34d8; 0x18e697f89d130634];
   [0x572751c7a1209f86; 0x638b48be9397cf55; 0x4a4ccb94a17f7e33; 2];
   [0x129a6b417a9a2388; 0x1b1aa351fe7ae07c; 0x6e7413c5ea6146f3; 2];
   [0xa698b00884e4ea1; 0x36d3ac6dadd8eba4; 0x1cbd813aa885d1b7; 1];
   [0x73a19658feb97bc0; 0x4eb7eda78f011f36; 0x1a560d32225717c4; 3];
   [0x4dc99e4ef4a2ba3f; 0x7efeeb44cef6ff11; 0x12b626bf683ff182; 3];
   [0x7e27ffc4e741337; 0x744b12a9ee51f3b6; 0xc0200875fda0a97];
   [0x2d2639eeaf5a3f8b; 0x2faf8b74a5c0f243; 0x53b1f7c2463ec0d9];
   [0x511f6bcb3d46a620; 0x2e82af7f9d6df53d; 0x6e2e7b1f121df948; 3];
   [0x32a5ec07574554e2; 0x20b2dfff2e31b4cb; 0x3075a6a0d268f52a; 1];
   [0x554017961dbcb866; 0x520a2580c3951876; 0x11f087d943e24dba];
   [0x1447001978b3a4de; 0x6a12950b9cef338e; 0x1c794626837dacaa];
   [0x1e42bd31d328f1fb; 0x1bfd2f1bccef1243; 0x719bf9bf86b93041; 3];
   [0x77b47984f698b55a; 0x14242c2e62d33ef2; 0x5bbe2bde390ab57d; 1];
   [0x2b1df84b945c5338; 0x781d37b5f1fd4082; 0x415274b4a32e5abf];
   [0x3d665a32b0854b05; 0x1cf7f5592abe202f; 0x3cc974bd76e446b7; 2];
   [0x420a5aeaf5ab1483; 0x4a74a13d4706c5ea; 0x6ec06fe2c7ec396f; 3];
   [0x4fc7e51abf555853; 0x3b04e8bf3d8a889b; 0x5a86ecb06aa1cc42; 1];
   [0x3f2768b639122071; 0x682b6e43ef5e750b; 0x58bf4ee734f31b51];
   [0x1858a5c3c07962cb; 0x1b588f06ab228cc1; 0x6b0815b7a84693f3];
   [0x1cff2453e65238c6; 0x460c2df46e44aaf; 0x51964478fc371a6b; 3];
   [0x6e210b9d8b03a967; 0x293a4ea292885a6b; 0x3398c3753ec53029];
   [0x7131df61b3155748; 0x709f6f8391bc7282; 0x46effd573b365dcd];
   [0x723127d9772096f0; 0x6717d25109582bfa; 0x61d089e98cb4956c; 1];
   [0x2a80489e4598f5f4; 0x4475f3c5ab3cfed3; 0x391f7d8d1707d081; 1];
   [0x7e11d5f9e5ca1aeb; 0x6bc8c0c4f90c5626; 0x19b84e9d0607a6c9; 2];
   [0x737df899249acf51; 0x5830589f6968b320; 0x1e62f21d4c1a95fc; 2];
   [0x1f816c504fcc3972; 0x6124ea7e1942976c; 0x6b64679dce05a9bb; 3];
   [0x28fd6ae98523ccd1; 0x29e0ca4b301bc2ec; 0xbcbfca8938f1e1c; 2];
   [0x75cccd6db375c00d; 0x1e87028b6503b92; 0x53aca6c1861e320f; 2];
   [0x4b8f68f54741368c; 0x20a5394da6157fd7; 0x6133e9611a7e1caf];
   [0x7ac7ad48155873f; 0x11af14005e36f4cd; 0x56c66aa2ca72e901; 2];
   [0x2f7c937100dc4a97; 0x64c48c911275dc5a; 0x3fdd8abdc3e3a78b; 2];
   [0x33b014ca96393bd4; 0x57ceebf7d062ece4; 0x61d1be538f918eeb; 1];
   [0x3bfde5b2f0f02364; 0x727e8d263cf5dc9; 0x61e8af6551ce846d; 2];
   [0x27a11f5772b6947b; 0x2cc371e6f927af5f; 0x4a01e597d193e5c; 2];
   [0x1dca7f9719f6f364; 0x4ddf43c9a96d28ac; 0x28590e6c21857b8c; 2];
   [0x5c3868af5026bfdc; 0x44e8424403c6603a; 0x13e48d654492e1d4; 3];
   [0x6cb4228fa8096b15; 0x53136d3da0d14617; 0x7754a0a7d829a18f; 3];
   [0x5fd74b9b73a1f51b; 0x50aa3557722686a1; 0x642bd9bde40b78fe; 1];
   [0x1cc9e093174e275a; 0xadd4c97ebd10cc4; 0x30e3adc25d936a86; 3];
   [0x6a810380f905b3cd; 0x7ee3a093be2d4b34; 0x47ab282f7473c92e; 2];
   [0x6753b0ec43bbe183; 0x3bbcb5a8654b8bba; 0x523d61b2a56b5015];
   [0x632cad6da80681a8; 0x49fa3010ba838f03; 0x75233bb46fbeae59; 1];
   [0x260ced8bd348d304; 0x26ac883de2fdeca7; 0x3e306fad555de986];
   [0x79039293bd48094a; 0x521df01f28179c8a; 0x43eeb53a7e2dce5b];
   [0x35da07361c9d1331; 0xfcced8371d86fc1; 0x49aca2ec5898f3b5];
   [0x7fffffffffffffff; 0x7fffffffffffffff; 0x7fffffffffffffff; 3];
   [0x7fffffffffffffff; 0x7fffffffffffffff; 0x7fffffffffffffff; 3];
   [0x7fffffffffffffff; 0x7fffffffffffffff; 0x7fffffffffffffff; 3];
   [0x7fffffffffffffff; 0x7fffffffffffffff; 0x7fffffffffffffff; 3];
   [0x7fffffffffffffff; 0x7fffffffffffffff; 0x7fffffffffffffff; 3];
   [0x7fffffffffffffff; 0x7fffffffffffffff; 0x7fffffffffffffff; 3];
   [0x7fffffffffffffff; 0x7fffffffffffffff; 0x7fffffffffffffff; 3];
   [0x7fffffffffffffff; 0x7fffffffffffffff; 0x7fffffffffffffff; 3];
   [0x7fffffffffffffff; 0x7fffffffffffffff; 0x7fffffffffffffff; 3];
   [0x7fffffffffffffff; 0x7fffffffffffffff; 0x7fffffffffffffff; 3];
   [];
   [];
   [0x53686efe10a0e1d; 0x6d1ef3ce2da1bf32; 0x489f7b515e1e43d6; 3];
   [0x2687ddb29d97ead3; 0x33ad0f73e4c66b24; 0x29fd7d244741fe42; 1];
   [0x59a98fff09ac57b; 0x60fe42cac67f1154; 0x1755dc760f2bb7bf; 3];
   [0x5791bd4f2290d804; 0x33dde8ab0659462f; 0x3b5a7ff8abe0b410; 3];
   [0x62a5d720d64ac1cd; 0x29b43fadc77d95a5; 0x490808fc226da125; 1];
   [0x5a3bfc6f3b191130; 0x6da5cfb4f23640f3; 0x2d69090cc9ec01ab; 2];
   [0x54e2d9ffa171bdab; 0x6a4e1d3dc737db78; 0x1de975ea44d2642a];
   [0x5980926ba6b31886; 0xdccd5545af4bf9e; 0x707b78e2e401584a; 1];
   [0x4beec7aff70a7834; 0x1ad87b2fd9b858da; 0x448d81bddea18fc6];
   [0x5d6565f980ab27d2; 0x2edf98f8f24645c5; 0x6053e1e9f2d4106e; 2];
   [0x70e65c8e30e7ec36; 0x49f5c06259343f62; 0x5500db990e2b44d4];
   [0x459393a3299d2e17; 0x6f1bd95f8884b7ce; 0x5e19d1da8ec545fd; 1];
   [0x215091aae2d87674; 0x6a7c8e778c0516f8; 0x1f632c01122ee6b8; 1];
   [0x5daa7403a9f35149; 0x1a33603c08d474cb; 0x795a5ab4c58c5c97; 1];
   [0x7bf7a4a6b624a7bc; 0x175018dd6ccddbc7; 0x63d9d310b14cc784];
   [0x7fcc16b9a1153a4d; 0x6e6c8f638dbf14f0; 0x77fba699e10a2109];
   [0x3c8367b5fb6da270; 0x5db7c00baee57520; 0x5b1558f06125f415; 2];
   [0x580772ee374ae52f; 0x17d8e95b52ab8dc5; 0x58470554eceabfd9; 3];
   [0x7f160c35b117d864; 0x5742650c85652954; 0x2550d287326f7761; 1];
   [0x252b8615e62104af; 0x1adba26f45f836f6; 0x456288c850ec5aa6; 3];
   [0x7b28a99d1db110cf; 0xea2b3a5f5a7975a; 0x32d9752c02c66ff0; 1];
   [0x150a9230fa74799; 0x1c9afc6c30c04258; 0x76fa90e59fa5d1ea; 2];
   [0x9ff07cdc156bfb0; 0x2b1bfb55b2d4fc9c; 0x681bba212ce9a83e; 1];
   [0x1d21ff97291d047e; 0x463b1341bc1292f; 0x117dcea6197bf17f];
   [0x3136351a3d9cc8f9; 0x23f51bdf4bae6397; 0x4e91635cccd762a4; 2];
   [0x54aa2d20e2c1faf; 0x73cb0ca2d9a86eb8; 0x16c39efc6919f6ac];
   [0x211bee51f60de247; 0x42b7a7519b2b5b14; 0x6137a888dc8fc9d4; 3];
   [0x4b0d6b8e1bc8be62; 0x7e12cd36f64cb9c6; 0x5d1596930f568a5f; 3];
   [0xdecdb3c59d166dc; 0x7652baf1be4f9667; 0x4bb0b8593ed80d09; 1];
   [0x58336730a887c23d; 0x24f54478355b28c; 0x3aca34506ebd3ce7];
   [0x6f67ea40bb5054a3; 0x6ca7c89b5ca9c525; 0x15079906de679938; 2];
   [0x732bcafe0f960f47; 0x6e478ea8bfe76891; 0x45f776dea84ff31d];
   [0x59ce96cca259266f; 0x75c354e5582971e2; 0x218880add1c92d16; 1];
   [0x18ed79b572200754; 0x629500b7b98a8944; 0x22f345d39efed249; 1];
   [0x4ca6405fed5037cc; 0x548a38a5506c03cb; 0x2731bd10fec38930; 3];
   [0x2d4be3e555617f69; 0x5823ce2ccb2099ea; 0x6226c1dd141c6f25; 1];
   [0x32bafd1c429da706; 0x363e72b240863127; 0x2d98a7b9d85a9075; 2];
   [0x79d9db830b09c122; 0x77b05cf5c0a30a00; 0x4cc7f26a1d502e93; 1];
   [0xac34dc4af04cf7a; 0x45d6bd0456bee300; 0xf9f8120037fe322; 2];
   [0x6e2abcc55ce66ac2; 0x633cc9adf8edefb4; 0x5b24b56acd66fb2d; 2];
   [0x7ae1011d79c1b771; 0x77a151d33ca007b4; 0x238b3cc995be44aa; 2];
   [0x44d34a9820b19f38; 0x14e83966f0a02c52; 0x549930c362048525];
   [0x741bbe4a142b9895; 0x1c2ea6734a876d40; 0xa8f759b1f2ea895];
   [0xa79882cd9f19f63; 0x4ff42c397050de81; 0x5e483ca348c7563b];
   [0x33a36867deeff148; 0x4073b54533b51308; 0x16d8dba7a63fdc79; 2];
   [0x4a9aa81e68f84182; 0x3bdb72e73987a6b7; 0x5bebdd46fcbda972; 2];
   [0x48db26f5a69f75a; 0x27b14a3ce3486277; 0x407508c80c08f65e];
   [0x51c3d070dd968f4a; 0x6c331b63e8b3b5cf; 0x7030d0fb29c03ccb];
   [0x7df0ad4579d003ff; 0x3d661351b1cdfccf; 0x2d2a241b80273dfc];
   [0x7ac800d3b0ab46c1; 0x19c627af04ae0aeb; 0x4ad60cfeb886316f; 2];
   [0x3fe80b4fd76e5406; 0x38e16eecc6b669b3; 0x3921ff27d792804];
   [1];
   [0x7fffffffffffffff; 0x7fffffffffffffff; 0x7fffffffffffffff; 3];
   [0x7fffffffffffffff; 0x7fffffffffffffff; 0x7fffffffffffffff; 3];
   [0x7fffffffffffffff; 0x7fffffffffffffff; 0x7fffffffffffffff; 3];
   [0x7fffffffffffffff; 0x7fffffffffffffff; 0x7fffffffffffffff; 3];
   [0x7fffffffffffffff; 0x7fffffffffffffff; 0x7fffffffffffffff; 3];
   [0x7fffffffffffffff; 0x7fffffffffffffff; 0x7fffffffffffffff; 3];
   [0x7fffffffffffffff; 0x7fffffffffffffff; 0x7fffffffffffffff; 3];
   [0x7fffffffffffffff; 0x7fffffffffffffff; 0x7fffffffffffffff; 3];
   [0x7fffffffffffffff; 0x7fffffffffffffff; 0x7fffffffffffffff; 3];
   [0x7fffffffffffffff; 0x7fffffffffffffff; 0x7fffffffffffffff; 3];
   [];
   []]%uint63.
(* and for the constant bit *)
Definition ds_relc : list int :=
  [1]%uint63.
(* the quotients in the squarings from x^(2^14) to x^(2^144) *)
Definition ds_quo : list (list int) :=
  [[0x12fe40b2ccd5842d; 0x143e1f73b2dec006; 0x407d9f44bca59195; 0x66830d81e45fb943; 0x26ac228545957122; 0x7dcbfe88decb239c; 0x275745da771e9228; 0x210d7a5a8b99a1c7; 0x21497cae6ea30a09; 0x6803ce05d0e59cb1; 0x7d4e92747a19ff57; 0xc281ac94c22fbee; 0x45b6e18b86102c47; 0x1cd4c5d2f6cc5d29; 0x68db037a5e384090; 0xcca7386967088a; 0x30a966dac6724c05; 0x56c3a7de52693430; 0x55342f703f9e0020; 0x6fb0e338e11e6c24; 0x5547b60a42d6a6f4; 0x6fcc22be85abcfc2; 0x5716f8083d853ed5; 0x41161f19ca34904; 0x3e333417d59b3b5b; 0x40ff404bf493d166; 0x8b28551ced28e85; 0x617ea577a32738fe; 0x5915d84ee771dc36; 0x78e726e26a4f022f; 0x4033b4bf4b5e317a; 0x2cd83742a77b2ec3; 0x1b37ffa47bf0205c; 0x13722032d3279f96; 0x49359bcaaf41ad3d; 0x7a71aec919042b5f; 0x326623f49615ee6d; 0x71ed9ef10392aaf3; 0x6346a4f0304048dd; 0x2bc1a7d6ec755c93; 0x44532d5bd506eb24; 0x7b6ed911ab85cbea; 0x2dc25196cff0e27a; 0x4eedf63c087c40f4; 0x7bbbb568f8181ecc; 0x36d4cc8c5c6a0d6b; 0x58223e631e36c765; 0x4e04ba90733b70ad; 0x7b573575f01715b2; 0x51d037950193951a; 0x1e68d39c5b081859; 0x2e53e85ee5dda268; 0x3f13de4b88c6cdf; 0x44244786064a817; 0x2694575c9881d524; 0x7cf9db92df527552; 0x6924ef7ba5630910; 0x3059d391119cf9ad; 0x2d125a8db340681b; 0x6ab8eda189160b48; 0xb5a4f9a993f0b0d; 0x3b91bbb39c36cad; 0x6d404dbbced1c07c; 0x6c3e60a801006294; 0x6f62ef692af09291; 0x5295e4e1ce39bcbb; 0x1cda29a3cfb68eff; 0x36de8e2218e204d; 0x7430533d9787a556; 0x1ffa9342f8fe5667; 0x5985108b32ce7f7; 0x620d1790c3837ac6; 0x2ddd58034ada3274; 0x852b652ea04333; 0x1f56ed0bf7d85ee8; 0x7414a5a2a8d77302; 0x5d8ac2a02bfd3f5f; 0x3bcfcfa606674557; 0x339002f5369e65a1; 0x1befdc5e4c679fa9; 0x98d2f3558eb35ac; 0x422219cd82744b2; 0x4c93d647f4555f03; 0x736f20c3921f7b0b; 0xab050ff0e6c5053; 0x2e54386c16aea576; 0x4d4eeba94b5f8957; 0x3224469762963417; 0x31ff733fd1f00c24; 0x72574358df6756fe; 0x390cad5748c59ce9; 0x38da24b78df68f38; 0x2f70cfe046bc5ec9; 0x3ff0bc94776b24a9; 0x5d774d8edba75cb9; 0x6cf832a094b9d4c4; 0x9fababb4beefbc4; 0x41a837f5ac3317f2; 0x7c48de69afceaa0b; 0x6c7d5e2ff1390821; 0x44e0cb1fd8af9cb6; 0x67bd0ce34d4ee194; 0x6a41308bac1921ae; 0x3a6577202894e348; 0x43ff1d1899f29be6; 0x5c7a5af13e5b1a; 0x3b18b5b5767c6424; 0x7463298109ac10ce; 0x695c4df7b9d962db; 0x63ba389370c381b3; 0x4f9bffe9bcd8e272; 0x55ad1d264f2cc33a; 0x2ac4831cb401974f; 0xeca51a0b12b4b72; 0x71b0d26f5c4f4d8d; 0x6985d49ebb5befb3; 0x6c671bb5f33fd0c2; 0x34e8f865a6e732b6; 0x318184a0d2f42050; 0x75aa1bc4b6788284; 0x7123246ad0b225b1; 0x49f00d7c581a50fe; 0x29fbac4cdcb43abd; 0x77fb466e53ddfe6a; 0x8f9eae28a0bba98; 0x6658fb1879c09e17; 0x714210d8137cb6d5; 0x6277d734170a114; 0x4f5657b977a88724; 0x3eb736a1766db900; 0x522d7cd65617b5d3; 0x3d8bbf75a069e9c1; 0x6f06851f0eeac1df; 0x7331af69749efaa8; 0x35c6ea00e75facfd; 0x70b2e238b87d75fb; 0x90ca6d93684911e; 0x737488eb4f2c235f; 0x6691a36e23fdf725; 0x543977ea13c7f81c; 0xaa6a9b4a0f7288; 0x5291e13f72eb639e; 0x60cd40c22177554d; 0x4dc2ad378273b81c; 0x3aab09c47b5538f0; 0x4c9717ea2bf52e38; 0x4add3054b5dd9fac; 0x8cfb2166c76dd22; 0x31108221c2b67b56; 0x59763d00ebc87d4; 0x14f1e0d47fab54f2; 0x316b91d6a3205cae; 0x4a35bf418102bf07; 0x15c8455b469a19b0; 0x18c7b64a30c80326; 0x337f00988d6aea3; 0x742fae970de82f53; 0x7b312560d036775e; 0x380caf45601abfd5; 0xe6165382c8a9927; 0xd9b01321a47fc95; 0x5180ff725c29d7d0; 0x5d4ed3e41c4b0089; 0x229566d949ba1826; 0x33e9b4c37f297c10; 0x12ccb80c6c15c01; 0x69a741fef267b641; 0x36b3ad9d78b5041b; 0x4163f33702037167; 0x14b3b4fe73893eb7; 0x1675c6dbd54581eb; 0x7fdac7960cb273b3; 0x7a3af6c6f90829fa; 0x273125749515f5ff; 0x65b1bd42954af18d; 0x1e69a0872e829ad2; 0x63636fa0a08e5c9f; 0x6b6a378956c6dede; 0x5414d6555ba01954; 0x1040f8ae9a9aad4; 0x36f5c6fa37d9c50c; 0x494f136b6bf59412; 0x270f270f25d94eb1; 0x3c8c346256662986; 0x205f50afab35c966; 0x728ed136a15f3f3f; 0x619ea25d4c34c4e5; 0xbfc851d44bb3d3a; 0x13639c6c43ac60e8; 0x33bfb838bea15ed9; 0x645ba7ac54abb5b; 0x58e8eeed6d12ecf3; 0x753ac5c73906c141; 0x4a75926c6d926a15; 0x612122d0b7b756aa; 0x42422225ddddc3c3; 0x26a6a95f3ff38b84; 0x5555555333334b4b; 0x43c3fc25a69696aa; 0x7fffffe666678787; 0x4ccc33333fffffff; 0x7fffff9999999999; 0x3ffffffffffff];
   [0x5e31d9b3200113a1; 0x3c503a96f427b94a; 0x5fc8cb7c5cfab673; 0x5ed4e0ed0c8af683; 0x1ee3060b886f697a; 0x7bcbbb66a8cc3594; 0x73879a3f94797c43; 0x102cd8c7c7ca4339; 0x5f95382c29d5c01b; 0x51b670153feda981; 0x310aa5c2f86d9cbf; 0x6ca6be86e82a63c; 0x29e899577684cb3a; 0x96fca84e0a55633; 0x58f3b28d39ad5211; 0x56683d92a7f41bc3; 0x4adbf9e81dcb7a3a; 0x81148d11a8afd86; 0x45ad6ecf0209f668; 0x26dea45a1797ab3d; 0x135250eeb0f5a16d; 0x40a4f71cdf952c47; 0x371e273291c41610; 0x1963b6c84fdb5a15; 0x2e51bc6cf53094f2; 0x54aa79fa404caaf4; 0x71cb458f9eef7972; 0x4f87a593a150736c; 0x1eac35b165957543; 0x285e2a8ae9978a5b; 0x49ea556e05b09e13; 0x2837db0c955ef409; 0x5acaf23d38a84f6f; 0x29a496dd8dd903ae; 0x32358dd76f69107e; 0x26ec90cc6f6ee8f9; 0x1037f31509556100; 0x1f1463196a288d5e; 0xcc6ca8de255aaea; 0x5f72b4cecebeadce; 0x11667206006e95e8; 0x3c7a986a1eca9cd9; 0x4279b666b082e752; 0x61c86e5605035098; 0x68274041e70293d; 0x1c4a3c6ebed9b7f9; 0x450a8c109ad52eb3; 0x6805f9795f66780b; 0x21d1f3f9c0c101ba; 0xbc228afa538f25e; 0x8774b3316004c2e; 0x75c5331142706b8b; 0x1e7993c195a8958e; 0x1e58de433a5c6cd0; 0xe5f3161b7913c62; 0x45d8f9da3fee621c; 0x737249925456e1f9; 0x326d185f21d92ecc; 0x1003ca98bc4e9e05; 0xa7f7765dff647b8; 0x63a92605393698ca; 0xc83204ce21c2f90; 0x6a75de51fadce873; 0x71f576a1c0fb1dc1; 0x355f1da8a683cd87; 0x7e30547824d2622; 0x2d20490d5c5eef70; 0x53d538321e5b6ef3; 0x470fede39b582764; 0x419b27695763ccdc; 0x5eb567817798e3fc; 0x575cd25fbbdb718b; 0x17e522921b578fa; 0x7fd0d6bcfdf0ecf6; 0x47f89e6fc89cc21c; 0x2ec55d33419f2580; 0xf9bfa9fd0673162; 0x4afdda72258a694c; 0x4653c6cbe1d186cf; 0x7c48b540892bbb00; 0x5a5a65cb81bcf596; 0x16b2620feb9282bb; 0x2e914914b919c969; 0x528a275526cb4f72; 0x34be380c5dad211a; 0x3ee233f8cc6d9252; 0x45a8ad4cfcb419b1; 0x47ce4ba65acad6bb; 0x7f32f9394d1edfe4; 0x3984b8d0cce431b3; 0x56cf012d4bb1b75f; 0x50bf9dd3fa502e2f; 0x5cb2c65df7f3fc0d; 0x3ee7943ffde82e4f; 0x11ae4fa26d87ef1b; 0x841854708838f77; 0x308adbed39a37c88; 0x1ef78e8d1d6772bc; 0x74ccd4837671b341; 0xaef094541f4fef6; 0x62940fb8b70a5a37; 0x56be15f9b2229a30; 0x309aee4b34aa71fb; 0xfbaea529dd2de5c; 0x4a4b7138465d54f8; 0x66d1c1e4de4ce910; 0x5e74c41c5b4c9f50; 0x352b9b3a2dd38665; 0x1521da1bebf0f97e; 0x704810044dca3985; 0x3166d3b57c725b1; 0x170475d71a9c76ed; 0x4c5cf2884fe278eb; 0x76274a3075af913f; 0x60d0678c4f2191c4; 0x1343b8fc85262ee8; 0x54a16f216e089b76; 0x2bb86d20e5a47dac; 0x61dbdf277d6eb25d; 0x56afc2d3dc12fe10; 0x775bfb9cebcaa11; 0x30bd46a73d99d7c8; 0x3102ed4faf727aee; 0x2a7a3abc461a2afb; 0x57bc8568a81a0701; 0x190fe8f1c8f0e8e5; 0xac6e0575c8ae652; 0x23c1a7bedccb6436; 0x378256e9c900c0ef; 0x34e273b6564aea5a; 0x25e67eb3635491e6; 0xe21e101322fc2fc; 0x61b53c0cdd7d00cf; 0x72221ff73761f71d; 0x591e01f8a4014658; 0x67851f3c10bf228e; 0x6700c2261d0a7e8f; 0x39d552f0096c1473; 0x411ad9e455702959; 0x3682dec9aa616d79; 0x49629bf4615aaf20; 0x2b5199745addd64f; 0x10da982f4031b4dd; 0x54de8ccb1cd29d73; 0x3bdd3358a6ccc1e9; 0x288a037f0546fd23; 0x2aca20e5b918200; 0x2d4ead5aa8b283cd; 0x2296fba9b5af7547; 0x6bb5ef1fb9e28399; 0x1d91d4dd035e6026; 0x50394761c299dab1; 0x2c41531928a6f95d; 0x4b82afa37d0d9fcf; 0x25889f55975cf0a6; 0x4cbced06b41e1cb; 0x4b4978882808a18; 0x6fbc9c783ffb86aa; 0x468edc73aa95fde5; 0x225a781136d45a61; 0x6777c86e793d921d; 0x2102adeb6c8bcded; 0x1d43cdac7bc9da20; 0x5b3cd52a71676d47; 0xc188bb2c50fc305; 0x458410e99a8f6fe0; 0x4599c2ae6fc6b27f; 0x49bebfa1c083216e; 0xdee1d9e510fcb4; 0x34c6b7a0aee06bd3; 0x50db8f2165531ce; 0x2b91d3e31721a373; 0x198dee095430c65f; 0x7137d14ff3c4784d; 0x2c9e814f65984b87; 0x6db4b3a1f3680478; 0x41baf090e9700970; 0x1c935c55a3866aee; 0xb5725816ec9b5d7; 0x4c4f700d7212e34; 0x35e4cae4e109b76b; 0x50bc5770dd28a91f; 0x71b863d36513791a; 0x338b244deecfabb7; 0x280967b6e4a07a05; 0x3c60580a0e286975; 0x740e6f04d62584ca; 0x4428284273b45b8e; 0x609935b44c31c5f6; 0x22c0ae9bdcef3a53; 0x59289c2c5166e702; 0x5dab1aff4dbbb413; 0x49185d7f6546b1e2; 0x2f06bfa039abb198; 0x49516b9c8a4a3301; 0x116b22f98a51434e; 0x45abd2c239228cbb; 0x4ba90d314947617c; 0x47d18933af003712; 0x3046cba9bde0f38; 0x656c03d3e65eae1f; 0x6535fcf72f41bad1; 0x26b9b0db12440956; 0x5c0c7290915d0af9; 0x79c03aaed6a2c5fc; 0x382a9dc65278fe73; 0x60a1ff9e718ecc2; 0x1a449ba69ca182c1; 0x4fd0b5ad3b7c5d49; 0x30c69080c77e103b; 0x312de4b2e89434b7; 0x638707d240ee4f00; 0x7dc2ed109de14425; 0x63562750a9c20c7d; 0x434ef697e7fa22fc; 0x7da58f5e46b9f8d6; 0x6f44818b2749c834; 0x7b3c5d374d2d3a35; 0x5bf423a6d0a72c84; 0x42fd75f2c2f81e20; 0x64bef0653771af9f; 0x2a2b92c075f3c479; 0x213ecaa884655f0; 0x13949c2745359d76; 0x229c9b9e97052dce; 0x5326b5fe8f552f1c; 0x25cfd28efaecc8d3; 0x5756ee31f527877; 0x2fdc1d5bccd8c599; 0x66bfdf6e8507a17d; 0x7e9ab470a4afd00a; 0x650102d4881b97a1; 0x6a05d67e04ec2a0c; 0x42bc30e337f8350e; 0x4a079716cce1df8f; 0x6d6edd0af4c153fd; 0x4062b37ad8a0ab5f; 0x7b9a60a745b93b45; 0x13f15661cf51c4c2; 0x7d9dbfbb558b090e; 0x409731c7b97b88c6; 0x45703e16d76e2c37; 0x7cac8ef9d5717c85; 0x6d0b289f911b76d8; 0x3b480a0bfdf4f23f; 0xa5130b1e6b49fbd; 0x3f5758eb30e4787f; 0x2a016e6b9488d914; 0x31d8e7a42b64b137; 0x29892f7e827626b6; 0x3e25444ea11dbf48; 0x12f03118360263cc; 0x7243b1ae9361d2e0; 0x66bba25583ab4731; 0x5f748c7329a16b83; 0x699f035f8a340d0a; 0x5ea8e961553d69b; 0x36f709cbecd5b9f8; 0x6d03f45e3ba06de3; 0x266bec74a0054420; 0x1c7bedb1b8539aec; 0x5b4d5faf69bb9f9d; 0xd383195405be7a4; 0x3864bf0abea0b266; 0x7d75114ad5f02e40; 0x684d9c17e3e72c01; 0x61d2ff04063a4362; 0x480e7f0931b89201; 0x12ee2921af279e74; 0x2e773481d0c556a0; 0x7307148435d311e5; 0x25a32617f3c24e12; 0x6621e0005fa88b03; 0x7772c2257d37261d; 0x1bba6ca2111d46f6; 0x4895be8566eaed3e; 0x3799d50d7cc39a3b; 0x3e30c278bf9aa67d; 0x303d378229ecaf5e; 0x648b03166bf6872c; 0x50e6379eb3a908c9; 0x568950df55512f50; 0x176fd074c3bc70d1; 0x6b8bd0d6f727c93d; 0x640566d7379ec05e; 0x598f5a9ac3d69810; 0x193079a1a87fa564; 0x7d256712341147dc; 0xc603c59840a9aa3; 0x4bf67243cb83cd3d; 0x6ba3f033fd86b511; 0x31b875f41e0eb78d; 0x290089363b445f8; 0x31c32c8d53cdd31c; 0x66e31ef8e9d6c3f1; 0x7635abd87837502b; 0x6fb8c006f9b022dc; 0x55bb3fe00fc040d; 0x516c238adcf60786; 0x1a520a6f7477b623; 0x3b60f647c5dc2c6e; 0x23e5ce5172063a26; 0x4767f32074ed9efd; 0x263fe9bf6a2c17f1; 0x72b778699e32e824; 0x48dc41716728ba1f; 0x68c1b1f0e512eb7a; 0x33e14f898d66af81; 0xcef24a7e0fb9dfa; 0x64d7d702b7880c81; 0x105b894f2179a8bf; 0x1f3ed05793ac47a1; 0x7168f9120e8f4a5c; 0x606667e07e186c9; 0x4fff3c0330fcfffc; 0x661866601ff8079f; 0x40f3303c0cff0303; 0x1f807f];
   [0x5aa832786347a8b7; 0x78547e13ec6a8414; 0x2ebc11262a78b0c9; 0x1b2b4fda61537456; 0x14f076bebbdd8948; 0x53cc39aa4c8e9325; 0x73fcf9046e903001; 0x3c609ce2264c4433; 0x2a0655c98e860465; 0x3ce4764d13c6b390; 0x36ed37611211dfae; 0x17eeb7abc57d0f0a; 0x4d76d54c2dc42a9e; 0xdc4b69c99149a3b; 0x2334b4d27d8e7cce; 0x6fb7e103f8262e90; 0x4f30b826a9910243; 0x5fdc5e26e09d978f; 0x7514bbe9ae7c9734; 0x7955650ccbe98ca8; 0x4270cd14aa9fdf73; 0x5c514fc7a936b95b; 0x1f64fb63586bae6c; 0x2a3ad3b0d4dcc511; 0x3b5e9bafe64a2685; 0x72100fb264861868; 0x27d84eadf7d5eb56; 0x7d51f3454ced0eaf; 0x40b62f5345cb3f55; 0x6d533278d368a292; 0x5b13648074fa0b0e; 0x679b2f652966aa0b; 0x3e6694fcfb09ca6; 0x682b182fa685a8ff; 0x71462f129093591; 0x62ef996240add675; 0x640959494f488fd5; 0x5bf9eb2715a334b4; 0x140254e77cdc9251; 0x2f4c787a72b5ecab; 0x5b18f2898b8b90d7; 0x7746a54e93e7f592; 0x1fac9d120f3d4f5b; 0x48a2b540f725c51e; 0x2d299256c01f76d6; 0x2bf15a3fef1f9549; 0x530edb9ef49949de; 0xb68f93db7221f65; 0x60afba084db193f2; 0x1304647c58e3dc5e; 0x7550c616465cc704; 0x510515e284fc6e34; 0x41fe5409239685f1; 0x46c933771dc7c7c1; 0x45bf59c1ea5f19d4; 0x55aa350d84a52d49; 0x70d99904f190621d; 0x593fbd09b411cc7; 0x63e08456affc2a33; 0x65f66caf894b4537; 0x248d9a7cb4e9eb80; 0x19e4f92b09baeb5d; 0x13f4af7d47fc9276; 0x6ff4e15a4c3a6bcf; 0x6cf9af5c132d6e46; 0x615c4b4692786186; 0x6ea970ef772dcde0; 0x395a1f2c5ac0ca5b; 0x3cf59826f3d1d526; 0x236c4dc5e09e3fbf; 0x27534f0ed3a4675; 0x62dbfb890251647b; 0x63c0a20bd0f1aca2; 0x3a1ffa45d8373b3d; 0x32dc9172f346dc80; 0x37f6f1b8f7eb7745; 0x35ca4ea91b48bc4d; 0x10f0294859985bb4; 0x1a822375d3fb127; 0x14e1dc78eafb2258; 0x59fd1a8eacbe72cb; 0x171a2211d001729d; 0x1ca9df4b313447b5; 0x416409010ac885b1; 0x20137411dbd23399; 0x490f0229f1022a1a; 0x5f421489aa6d1949; 0x634cddc6fba647db; 0x3b6844fb340a61a9; 0x414464856eca73b8; 0x4f12ec6b93f64699; 0x2885e1ecec33bc4d; 0x493f7080ace33a38; 0x4604d3947049daa5; 0x54cb4134be583565; 0x5eb7d8b7a6f43c97; 0x2c5ddb31892e6851; 0x7d0489b1e6990be8; 0x22723593c0d4eab8; 0x3048595dfe78b540; 0x6cdd4de24ca4277; 0x1195bb7771ee9738; 0x7fa67cca9b4baa9c; 0x7e85fc60cb7480e3; 0x76a36360abf17a45; 0x711e1ae393572edb; 0xa9b2020d62b68b8; 0x5355d3516264c77c; 0x3f4411c9c175675a; 0x7623abbdef369ea; 0x4efa1e8738d74b00; 0x1a71a43d0ad63790; 0x1b8b1f3b86ced0d2; 0x5edab9e53c57e44d; 0x2a50d29cc2b456a1; 0x4691ef462fade558; 0x15046ca6cf3a3687; 0x4c8c32ec6b9ae77e; 0x478bd3234ad9118; 0x185ceacef390e1be; 0x6684157bd724185a; 0x3b91b5b43e008c5a; 0x330d0adb612515a; 0xe67f7f4735b6db5; 0x6cbeaa2948a89f54; 0x35b36424e0813d; 0xe1bc45bfd801288; 0x1f0247beab89502; 0x2996c286d45b39fd; 0x7aa57c1f9f3e7b61; 0x747dc64675848ca6; 0x45f52f9839639056; 0x4c1f1c2301de3041; 0x3bc8cb05135c752c; 0x1d20ff307dc792cc; 0x122d8e04da935e2d; 0x47bb304ad813afd1; 0x512155f141607df7; 0xe1fae658df736db; 0xfe87657ccc4afb1; 0x3ddf0afcf839578f; 0x53a49a4030e77bd6; 0x1dcfc65aa7d2223; 0x1ec5a7c73576ad07; 0x56944fbdcdb853d5; 0x1a48429deb29ff81; 0x67fea12464a4cceb; 0x107696f2af511ce1; 0x56317d26e3cbb6fd; 0x4d8f6da69d06ba06; 0x547726c6dd8e5672; 0x493d479a60b9b64f; 0xbee7f88e1c87dd5; 0x40059ed0df14956c; 0x67c7e08ee2c3d780; 0x4d941821e35cc8e8; 0x3dd76438ad26d0cb; 0x6ba254634298531c; 0x48d7a2ce699c07de; 0x708905c407193467; 0x633c98eb599187d0; 0x5b710d19a8005d55; 0x19edcd9092335d01; 0x4414a8de6d647c37; 0x5a2d8653b29b2a4a; 0x40363bdb3d950877; 0xfd8fa7af6f81ea9; 0x6c5047bc503c9c7; 0x1d8774ffb7e6bb08; 0x3724c86a3893b47a; 0x3414cd98ca6d663d; 0x6512e902afe1e971; 0xfef555cadf0be7c; 0x6087802157aef78d; 0x2b9eccc8aeee0eda; 0x443bd3c106d0d581; 0x4d204c38634b4078; 0x48f878277d079308; 0x63226d55b99ac60c; 0xfa04488f602111d; 0x1699766c953e9197; 0x395e97bed33b06da; 0x6fc328fd8723d67a; 0x239fdbd56e25c4f5; 0x7c8051ca8284111; 0x2ada4527132a8139; 0x16eeda29198291d0; 0x57f12c38b82c0bab; 0x28969314a802e293; 0x293f7a71d75bf40c; 0x8e146ef83db7abb; 0x2e30562f9af8c853; 0x49854c339a983095; 0x7cf20cf950f00710; 0x585ad06335c51ecf; 0x354bce6c51e3bbcc; 0x7e6ef059878d1f9c; 0x705e8b0979d17895; 0x31c78d3dae6be373; 0x5b61574442fce05d; 0x34f83de90993c835; 0x2b4645f0ed39ab35; 0x73efd1b00ac6f6cd; 0x7b4951e1f72d83cb; 0x3e956a55c06bb5f2; 0x6bc5e2ffe5618c5e; 0x7633589b8557dd79; 0x7a8694f72bc5ff; 0x7debb1491699b1b0; 0x566d3498440295c5; 0x47dc908981bc1df3; 0x820d14a4bffb034; 0x75311bbf7f8bdcfe; 0x6328cdf940147717; 0x5db7f44b14d50a18; 0x48637dbf7f3a8b12; 0x4fee32c641995201; 0x4932bda5e5fdec2c; 0x72ad3e6424f51993; 0x2a9e110aff7498ef; 0x7c9fcf133ef9072e; 0x78675929ba741c86; 0xc520c82ce22e0ad; 0x15451f8e9c7cc19d; 0x27c06dbd6820fa08; 0x56e21b9a58b0726e; 0xcade0da63f32b13; 0x42bf04e1f072d61; 0x1bf3387e763a326a; 0x4a7af6866d7734a; 0x7679c6b276d0b26b; 0x307d0c2ddbe006a2; 0x460cb1d1842375bd; 0x2212e53f772cd4d4; 0x279acc4923906012; 0x5d93ecff77f49229; 0x41c47d203b69fdc4; 0x5b52c641ca4b5169; 0xd91d907e39d6181; 0x38fc3f86df7ec9c9; 0x110ce4718e8867a7; 0x1f89d158a3c20f4b; 0x1e25a1e8ab309c7f; 0x4272c78c1e57c5f7; 0x7fa7fc650a8ecc98; 0x1a53048cf8352803; 0x5074043c1876f1a9; 0x2608271fb01ea410; 0x24c997b0c955b6a7; 0x68de74ad468b5fa1; 0x6974bfddbf9f2377; 0x1936a18ee30923ca; 0x5cb1255f8526a61d; 0x75d6c73fac03044e; 0x3422dd9ebedcab8c; 0x7932e57b8080793; 0x1c667fb86e834f66; 0xd92667aa50d3b5c; 0x5c2438cda45e673d; 0x28610e1b305d595d; 0x3fa31e84930c62b9; 0x76b78a7d135aff2f; 0x4bcf46271a40cc72; 0x5e5d1e5375c35374; 0x7898d8b4fd43b775; 0x6926bd0322f9bb0e; 0x5fa79c062e73a371; 0x2b4c549e8e85c93e; 0x542eb11a186d0025; 0x5e7dec4c8f538262; 0x12978a72aabaa980; 0x34e1f8814b6a272b; 0x24db4337dc38ac93; 0x2ae56895f6d78523; 0xe1fc85e79a24e6a; 0x41f13335958dc169; 0x27411a269b919e1f; 0x1681067f7b0db20f; 0x2cad33f470fb067c; 0x759c39a4ec9ad1b4; 0x2f6c5c18ade65b38; 0x1343a4449b1294fa; 0x2f31c6d03cd5c994; 0x37173fd06a063f51; 0x5bc71efc9097a2c9; 0x1babb46764733888; 0x4b5d44c4c4cb902e; 0x70e9792de31705f; 0x665859f63a101b3f; 0x2b4350fdfba4f347; 0x5ac0ca6d3e91d3eb; 0x11241aa7a60aaaf2; 0x104ab73c08be7ac0; 0x5f1b9aa8b7615ead; 0x5784e7b6cd61f03; 0x289bacea7e3b524; 0x525bfaa80deb05da; 0x72719bb95a1f2f7a; 0x5071a57957006212; 0x722f1e4c3a792b0e; 0x4a61d4023484191; 0x268ef78b2780d1aa; 0x596a83de12e9a890; 0x75ffcdf97be20d61; 0x5aecda7d5dd305c4; 0x58cd137425f74910; 0x25219df3b239a0a3; 0x1d22c39407d27137; 0x2da071991b24cc66; 0x7f1918873415a5bf; 0x7bddcaa79791acbb; 0x47df169c71c1dbd1; 0x1023f046e9c68601; 0x79ff980781f9f62; 0x4ffc0c3f000c30f0; 0x661860619e7e667f; 0xcf3f0fcf03ffc; 0x186606];
   [0x7b076b28982509a9; 0x31748d46afe739ce; 0x618dc36b1c34fd50; 0x750340f548cb5d61; 0x73f219ad995c9480; 0x69f3711fbf5298fc; 0x3c560af8eb1200fc; 0x47ae9c7225813fe5; 0x6fbe8c798ae1eecc; 0x1dbf8014dcaa8515; 0x71acc09e2989da11; 0x7048c3fef6e33bce; 0xfa6f12fd69a1e56; 0x5e78e564d1e99581; 0x4a1a2aa55ce0be0f; 0x55b0215f071d0bbc; 0x7615bbdfddfaebf1; 0x66a20c5383f0fd50; 0x7e9aaebc46de6b3f; 0x3ebc254cc280afa2; 0x2df4e309a110ca45; 0x261018486666ea1f; 0x6937178624477251; 0x306e6169ba2e316a; 0x2bd46b181e974320; 0x41331f7150611eb5; 0x4381fcfb43e104f1; 0x14fc54ea0b53b498; 0x7d23c43feba26204; 0x50cb1fb8085aebec; 0xfe8f354a825ec26; 0x72ea701e429f1951; 0x3912a961f93c4bdc; 0x15982f304b53ce17; 0x11d390bdc9116093; 0x4b93f689d6c7dd04; 0x6ca2811d0a68a4d0; 0x7a1fcbf26ecd1290; 0x5ff2eead7183ecae; 0x7e89bc745b05ab8d; 0x50b48f6cf097b6c; 0x691257d964b46709; 0x4ef88f0b04a3dfc5; 0x2976e4f6cd52af72; 0x2c75035cca48553a; 0x67e2a6e3fc3e1fe7; 0x41d2b43e53fec128; 0x5ff9d3009aa9475f; 0x312c4ca01d2940ae; 0x7d11cc9131a708a1; 0x14e1e2e7fc4bc54d; 0x72ce9d08b87bf047; 0x340633c36ad6e51b; 0xa0bd5cf9187c1f9; 0x668ab0e0ea2edd6e; 0x642ffe8366ab6551; 0x36d426d006d02ea0; 0x773a7224ce3d3354; 0x2661429d2a9088ca; 0x7ee2ba010e8b96db; 0x796c06ab947f02d; 0x34a87a94ce0a5833; 0x6c33d5aef0e919a9; 0x2958b2d8363ccbb2; 0x61d5cb873c1bfe2f; 0x68a539e0f55e72bc; 0x66e0bc15c4a1bead; 0x16d5971e7657b1ce; 0x36923c8ff32a527c; 0x7af1fbdcc15b8f9e; 0x5d7e068fb03a8e09; 0x3ba0f324935aacc0; 0x77ae7e902d037124; 0xd4f8034ae579815; 0x39759019e4d12059; 0x5829e1d335d1d113; 0x3699ea15c26a0102; 0x5736b0c23455a5ee; 0x7f3dca7f8c26fe81; 0x6c881ad53e31202c; 0x93a431f25fc4220; 0x311461ee9e5cb846; 0x40577b4e4367547f; 0x17bb49059db7b4a0; 0x5b15383700f43001; 0x5bf9a6d6c013ac85; 0x345a535b9885d686; 0x70404b1c89cc735; 0x64cc31b3c9dd5836; 0x55b75978eadbef44; 0x6598aa76e7428a1a; 0x46463d2b6e89c707; 0x299901b62350b433; 0x2ff8b4157f3f53d6; 0x6f1945347d7a44c1; 0x87e61e457cc4e9; 0x4d89015a705b68ba; 0x57ad84ed6c11bde9; 0x5061a69112251bd5; 0x3f2acfa02ea6d914; 0x96544bc5564dbd2; 0x6d207ca413810f5; 0xe0b5dc30aa623f8; 0x5724912379ecf57; 0x5ce3846236e83a65; 0x2c1473d3b41715c6; 0x293bff719761d6fa; 0x4daca37744c05f26; 0x6a04d4827b8a3551; 0x60bf6b7d9cde8b8e; 0x3b4667f9ec310de8; 0x5039674006ff0dcc; 0x66b4fa5fad953f15; 0xebd2a99a6baa313; 0x1b3b416d2f45d934; 0x4726f6cedcd67b01; 0xf2ddab17a65a9fd; 0xa7c7897cb8aa3c5; 0x7c7826255261ebbb; 0x26dfc15548bdfc5b; 0x5269a2377f35dd4d; 0x2b7b3957f6794874; 0x127e9e97977caa3f; 0x36debfdb70ee6530; 0x550c9052cf38cc16; 0x69ffd803b2ad71d8; 0x77dbd00bec4f57b4; 0x23af0f9b7f21ece7; 0x13e37acef9326a75; 0x58d3e0653e3978b9; 0xfbebdd8449740dc; 0x2247c33923e99798; 0x8096c72d61fedbc; 0x405464f4974f3c30; 0x4fc8a210d1917a2a; 0x621fdc1aaeaa332b; 0x438f85d332bc364a; 0x20238ac34f3028cb; 0x552c8b7972cbc207; 0xbea84822bcbba7a; 0x17daa2e2897924aa; 0x50f7ac5017ed5cda; 0x430ffd7a8173a4d7; 0x527ad1e68390b77b; 0x3b505c5e268f0f4d; 0x7a86e4b47fb15661; 0xf05141e6bb3192f; 0x166ff5667989dc35; 0x711a5beb6e184bbf; 0x601098e09995d7b6; 0x6fed926b132a66f6; 0xa5057d87b60f18b; 0xacc5dc5d7488f33; 0x6316cd7cba02cc7; 0x538569d10a38fa76; 0xf6b05ce21f40f3c; 0x726489963e8aa79a; 0x3b432230fbe9f98c; 0xb06c621db480dfb; 0x79ba5c3d34799b89; 0xf2d165d99c59f77; 0x3d2c4f2f60649b5c; 0x2d48048fe20b6c3c; 0x172a0dd3226edbea; 0x47f08a9bc39c544; 0x45997b893ef6b463; 0x10ed4062579c4b2a; 0x3fb38acb3b928774; 0x26d1e08f47f59b5d; 0x7b41db21f7362a12; 0x79718e1beac5cc3; 0x26fd89868f08b5d2; 0x2ce7cdbd7277f9ff; 0x2556d6957215cc7c; 0x17f09a74b3458d6d; 0x30292efc29571205; 0x1cc62a1c4f84a757; 0x15d4d5e50fdb5a00; 0x118c8d7adcf66608; 0x4c6b2a57e409a6a2; 0x13bf36a3906fb87b; 0x774579c710f2be44; 0xdfd62c584290b77; 0x3afa1806912440bd; 0x675a3b7df603f71d; 0x139faa8bcb56597d; 0x21f13edcb1d2628e; 0x78acd92084eb5ab6; 0x37c76fb72cfb6aee; 0x43ee9bf3eab7a192; 0x26f3bc2c347b0cfe; 0x39adef1425580072; 0x4cf48a4a46284421; 0x794122cbf16d79c2; 0x33c35daf28f4d40f; 0x316eebdb1ea17efd; 0x31365d9a610cc4f0; 0x47dfad02b295917c; 0x47c4c07e7c5bf99; 0x52d2ff6bd413f507; 0x71325543e389c705; 0x3af6c5932bfce9d9; 0x4446ac7cf53675c4; 0x7659f78529a9196c; 0xef2446dcedffbeb; 0x4875a519d99543a0; 0x2ed07fb67d4f69cc; 0x59305e4ddadcb994; 0x5690115ce7a441a4; 0x35216ccfe33377a1; 0x667654ff18ba1963; 0x1d761bf0887e7600; 0x7c18cca76ad90778; 0x2bab34c84d7e824e; 0x2b230e891fc4fb66; 0x347b90918e2d95bd; 0x2149aed08d8c331d; 0x3a0e8e1fc2979dec; 0x727f9b3cbaca98b4; 0x4cb8d894a364a6ce; 0x3f985e656ef15025; 0x57a55264f55de9ff; 0x4992d5c96ec17c9a; 0x184dec166d07855f; 0x706937f1f6254abb; 0x50770456eb6794db; 0x419a566c44ec8764; 0x73169dcafd1d0c58; 0x720b284f12a547f4; 0x1af08be74bbc2ac5; 0x25c354b13f596da7; 0x7c32bca9000c7787; 0x27ef5dd42d6553d4; 0x29837a9f110ab31b; 0x63539f8fc333536a; 0xa65ccf231acb91b; 0x50ac7c822997e80b; 0x32935b3f94c3569a; 0x5c0fd9b4dc6a0cf3; 0x40064f9dc020285b; 0x352d26e59112528d; 0x53c1686735554b3b; 0x5b8be76edb80be3; 0x1ee7012d405fdd02; 0x6a6ae8c97edee28a; 0x511f6b067e8c0e69; 0x47b191b3a5875c4e; 0x788bfeb5119c0809; 0x5f5ebeb6ae4105ae; 0x58a31208b70c5f72; 0x53b6ded97b7bf816; 0x2715037ee891853; 0x6130398de5ffca52; 0x3387940aca8af765; 0xb603f1ef54c5a3e; 0x529b4dcaecb5457a; 0x358927f1b734efb3; 0x10c4e369f289c8ca; 0x757e6dcdafda521c; 0x28cba7b430d4e3dd; 0x75df559b3e546837; 0x1029454903704610; 0x56213c034a7873a1; 0x7c6cb612365f908a; 0x56bc34f7343f0cd3; 0x501e51af652a39b7; 0x73eb5242ab540a77; 0x37126a174ce968c1; 0x58ec72edff14b58f; 0x11d22bfb23baeb2b; 0x537faea6facfe361; 0x17888c5e3c14aeef; 0x5e3096d2c5386384; 0x4a4e74585ce252b0; 0x3fad65434817cbef; 0x7a4fc00cd5b979dc; 0x3b72593c1188a3f6; 0x1a18c25de5c3f380; 0x1675ed39ac7aa3ee; 0x474d463addcbad85; 0x3509d5bb0de3e4f5; 0x761a28c66e949475; 0x4d1e80ac6f0052cf; 0x4181144d7ff5a0ad; 0x354cbf5da3b53552; 0x60c1058b69cbd3af; 0x5bfd31c226ce50f1; 0x5d54075d4e718c5f; 0x31208bf38e4c7562; 0x49cb6c26b674187e; 0xa5eda4c61683d75; 0x7b0680db5720112d; 0x777d181cb9ce747f; 0xe296e2c978762fd; 0x127d9a9db32d5f4d; 0x3c60217ee8899eb6; 0x7e6250534254ccfa; 0x5bc736eb6d23c8d6; 0xc69ebb69406d551; 0xffba7e13532f583; 0x740dcf52e3fb4325; 0x59f8bc363fed0eeb; 0x1ccc38454bb4281c; 0x4fe0d14e2818d4c2; 0x71df598750b1d6ef; 0x41c8dab4af126e92; 0x46b012027c6859a9; 0xa8cece0f5657012; 0x469aa9b43aa686a5; 0x1d75bf55b3bd7578; 0x64e314ae6e1d01b4; 0x505d83e4af151c0f; 0xa4bc3a8b26da071; 0x660799ffe7fe0d3; 0x3cc0cf3ff3f0cf33; 0x67f81f801e7f980; 0x400fcc3f3f0c3c3f; 0x1ff9f9];
   [0x1a970662c300b324; 0x15ad56a5f51616b3; 0xcc6214c79d82993; 0x5c6fef7531bb689d; 0x49c4a99fbd2f748d; 0x585e09c855b266de; 0x3f1d97c3d774d81d; 0x43c47d7b4512ecaf; 0x5e31bf0f5ffb0369; 0xbc3e11ef452cc46; 0x727d15cf3cbf1d41; 0x5fc6e082742a8f2; 0x1285105f397e6301; 0x6fcc3ea7147dfc75; 0x77e8bbae2adaffbf; 0x162da90ede0dccb6; 0x5c97637582a6a521; 0x22b3be13ba72748e; 0x27b2dc0e1e3bd1ab; 0x5b81c5b3bf3a6e81; 0x48416006e2d44141; 0x662729251190fc42; 0x1179daa4d2d500cb; 0x6ffc5c5db8073e92; 0x3627ddb7a8cda98c; 0x7b9e35daf421afd1; 0x27e323aaf812e19e; 0x1436e223b1a523d; 0x439ed169d91aa6d6; 0x88e824dfee39563; 0x7daeabdd8142ec96; 0x2663edc94c847fd; 0x5589c9f17477e50f; 0x2482acc978442c21; 0x1df9b5a8fdf47f45; 0x70d98559d3fdcc22; 0x7559ec05fb2c5a02; 0x5e3adc34b9b7ebea; 0x2c5bc05eef20d203; 0x464e35762c3b0931; 0x7efa9400426bcb68; 0x61022c52d7e761ec; 0x1f7d8a27bd087733; 0x32566df6ba8d9fc2; 0xc77d5cc95359046; 0x6abb500ba65e18b1; 0x44d5e40d522eb14c; 0x380c9fb090d6d95c; 0x5502a4d3e9b4119a; 0x8f8229580c93d7b; 0x52dc36abf47b794c; 0x3734f3cc20856a4d; 0x4dc926b06f882cad; 0x522a4fb2104c41be; 0x5d43a3078e24c05f; 0x69718b01fbb55d71; 0x74abfc26239a61e1; 0x6676c116ef4ea4c4; 0x76c9b8da68d7423c; 0x591dcdfdd0cb0d86; 0x2306d1699d1cb09c; 0x3ebc277076bd2083; 0x780da2195b3c19e2; 0x34ae30149326ecbd; 0x6d044b182110b0e0; 0x6aa1d18ee41ff66b; 0x2c4202b00d90d67; 0x67deb84a06f3ec64; 0x79a561e10640c54a; 0x2d44570f8efe197e; 0x3b32e985c044cdd5; 0x1bf2c4426b77ac1d; 0x4750d4009dbada98; 0x6c2c7841ba1dc91e; 0x7eaf7fc186ee0b63; 0x54d496a76d952f4; 0x3a48b0b62a496eab; 0x7dba25e3949324f; 0x57adedb374fadece; 0x2f10ee0bd7e45da9; 0x3dd7125c0fe40e06; 0x2bb3c59bec0d5082; 0x3437bef5470bfb71; 0x74a6f9591a4561d9; 0x5136c5c00a70bc9e; 0x715d7ae4db2c444a; 0x33badcaca75458c6; 0x73e05092122df46a; 0x5548ada6b5fd4141; 0x132570558384fa62; 0xc1b04f04becd95f; 0x72f9c662e2029ae4; 0x219307d4916cc3bd; 0x3187bcbf5e0404c4; 0x6f1008547e0be6d4; 0x369c5084a1519c2e; 0x5b9087be573903ce; 0x598f427c73bec5f0; 0x4ffa26f92847ec40; 0x5fda0e585a47610d; 0x57224fb2c28003d6; 0x1c7d021657f354c1; 0x63ed4b53b635febf; 0x29ecf98a698a0c40; 0x5bac6a5ff4282122; 0x54f2b6262a55875e; 0x7ab2019183bbf0e1; 0x60467fff961dff7f; 0x95d73832a414c93; 0x77d7713ca365cdc7; 0x12db31186abf0533; 0x62d240f062267e95; 0x675d5c2af6d32291; 0x7514ab39b60e427e; 0x57e18945a4944eda; 0x52decb625deb30e8; 0x10e02ac75e693bfd; 0x5a0f0abc9cfcb62b; 0x49b17e9a380361c1; 0x6d007b24e01e0de3; 0x7c11f35b1a2257c; 0x5c881f82d3c0e5f9; 0x4a4924ee94be4d79; 0x3e9cdeddaaf9c211; 0x107ba02c18d46dbc; 0x77f5de6413664480; 0x5b725bd188f49d2d; 0x76ca9159c6043db; 0xe8a57f4335f0e2a; 0x2520d075e9e97bf9; 0x53b0664b1876e062; 0x4e5e341f52e4086e; 0x557a0cc06dcf7170; 0x7add00d2a55e143f; 0x6fa8f162d79feab5; 0x4a9d2ccac62d3c25; 0x790abfd3d9fa5da3; 0x7f50a5837eefcad3; 0x56421d045a1ee970; 0x4f708506414d4873; 0x3a6a6c819721ef3; 0x5c698aa828f9642f; 0x7b53b5636c9ce86; 0x4d3e63a63401913c; 0xf0912e721c8a1a4; 0x480ad9cdbe50b2ab; 0x18000409ea6e87cd; 0x5c7da2862d4cb72e; 0x689a3d4e3cb30e1b; 0x5ea1a30a815d4ce8; 0x2c8d4addd54d7b16; 0x53032d0802968d2d; 0x50f47cbcbf602f12; 0x578d529345260ac6; 0x6b338a78e421a3f0; 0x60679f7b2f07d48c; 0x467a7d2031e403e0; 0x3bd6f9316e35533e; 0x6a5ed1252acaac4; 0x532c7d35dd15eca0; 0x7f0150c0c91819c; 0x2df2cdfdb3d9e01; 0x3841ffc5b6a78188; 0x4640b047332af2b0; 0x8471d563d4d0785; 0x649723a51bc49b2f; 0x1d5d40aebd7678dd; 0x346c65a880b8eea7; 0x298753486c43a0c0; 0x74b421071b3ea40c; 0x1fd690a8d3989350; 0x612418377e6b3613; 0x6460940db4beeb32; 0x67847129cfe64f33; 0x29400e622861c81c; 0x584a9cb0c16dbe22; 0x3c21e6bcb0da4ec3; 0x605c8570e17766e4; 0x7dd242d56c7987ad; 0x35292085c227c3ca; 0x4630a5658ab43290; 0x4f2c4399026448; 0x2c447422f61cd7f0; 0x6167ea3f186dba37; 0x4b936ee75eba1a21; 0xd62712cf0bb67ec; 0x2fd4f5ff7aa7bb4e; 0x12c44b69e52f1515; 0x2ae80967512ee366; 0x1144798445a49e9a; 0x6cefd5819f684c3c; 0x26dda405499bbade; 0x2e9d0c00192cedb3; 0x207b4264221c774; 0x13a821618aa3bf12; 0x62871e375cdd9ae0; 0x6e312fa90ddb5cb3; 0x135911200872fb52; 0x108de0ee3e57438; 0x4648afbaf7ceaf0b; 0x53e72cf5a868153f; 0x3cd96326b8b2e7e3; 0x66bb1fff3711eaa5; 0x627c510bd0d3cc32; 0x25c16072876805b5; 0x365a92071371c9fe; 0x1831af53232c5535; 0x6d7360976a72e1db; 0x73d27e9c2f2386ec; 0x185f578db49ddbaa; 0x28b27cd3b8cbc9ae; 0x38fce66bb0ef9e35; 0x7ed8cd15e80f493b; 0x210f82894a11567f; 0x27a4201fe4e16bfa; 0x293094c6360291a1; 0x4b542c7cd74f4ef3; 0x3f6ac55b77e08842; 0x67788918d7446182; 0x686ac78b87df83f9; 0x3df01f39f2b857c0; 0x79854aad7e8824cb; 0x58a0e4a810490010; 0x342a36fbfbf807e4; 0x766bb9536b631d50; 0x2e637402462bcfbf; 0x5f8830ead7bdf436; 0x198967ab4ad3fd05; 0x22ff9886298b4513; 0x74325a524bdb8398; 0x4a5b3bcfacc7527; 0x2d45513741e097b3; 0x77aee1b5ed563afc; 0x1651e7e6a6bdaae0; 0x2913870267ec3f7a; 0x6f4b3b83852b84c1; 0x23e42427beaccf1f; 0x2921d0c9f9b1d940; 0x65c879c9611fc003; 0x163dc8258666b104; 0x383def0940b1b1cf; 0x4bea68c5ee244c08; 0x44a2081e9876249; 0x36e19f3fc181515b; 0x8af1a54447f0c35; 0x5d60b69603e56a4; 0x57e0558c967144e6; 0x61fc950a55d74dc9; 0x32e6aad9c405239d; 0x76d42b3eecca716f; 0x112e5e09ae66f703; 0x19819f8a070e45e6; 0x281b36df068af8ab; 0x53e6a6bfc0445f63; 0x389e875ab45a27b8; 0x7ff4c413493c71c; 0x13e11260ed236987; 0x3c3c49282ca9a7d6; 0x22eed8c140801988; 0x21dd9d3b6c205def; 0x6f10a8c365c1fd06; 0x2436ca1b3ec35d3c; 0x4733c807c1d9d6c; 0x5afedf9431121121; 0x75a4b305aaf6f552; 0x1c12ae5edb18616c; 0x308ec596bec94b3; 0x180f40a509b1ae3c; 0x383b0139c15383d6; 0x234c501ab2eee343; 0x432735361a4b921d; 0x132776a8ce15e7eb; 0x137192d2c0e538c1; 0x5dce0f91422e643d; 0x7efbe9a2b7d366d9; 0x4a1a807e8aa924ee; 0x15b70a1032b5d3e9; 0x2b666d0ccbb6aa5a; 0x1dd50c29e682b0ec; 0x5f8f3e757ad8f2d8; 0x5743f138a85d0300; 0x4f6b23df8e2165da; 0x400987062c4091d0; 0x56cca18da1f08fc7; 0x2c0a60bf96072e43; 0xa4572f7500b5837; 0xf6b56829c9ae86d; 0x34d21fd90579c18c; 0x6ff08026f5d3cbb7; 0x45e0776bc489c22d; 0x2f27b391425ff7ca; 0x60ba52d652e949d8; 0x539ed7d1ae9be3b7; 0x3d96e6668d636142; 0x7cbecd494ad32c9c; 0x5baad90912d2dd08; 0x6ee3147c4dedfc16; 0x5e93803cfc7c23ce; 0x76d9ec2afd8d6fd8; 0x3922d388b7c87386; 0x45356f7b36bad37d; 0x5e51c0274ffb83aa; 0x19f8049dd9f2a316; 0x179d3e224e601d0; 0x735cc4bd87134d67; 0x366f1f322f67f225; 0x5caecacd242e9c66; 0x3d2283f5fc0ffa37; 0x18a6a920b4f6d1fc; 0xbe498afc98d7bd6; 0x207c1f6cb85b79d5; 0x563887dcac8f8dba; 0x3798f01855639dc5; 0x79e0060019f99fcb; 0x3c0cf3c300cc3ccf; 0x6667f981867e1fe; 0x4003cfff0f30ffc0; 0x7f99f];
   [0x41eb4340eaf054bd; 0x52b011b5f13bf25f; 0x3ff730cf02761f2; 0x32743f15bc442ed4; 0xe49aef172470b70; 0x696a42a7621bddea; 0x6bbce11db169e5bc; 0x2951094be3e3aa43; 0x3dc27a63b38d65c5; 0x6ad79f808ed31489; 0x68c8b1233cc65c8d; 0x2b69a24f632e5fa4; 0x551a79c4e6a8c51c; 0x7ab9fe47c710adbf; 0xb705e24fe66873d; 0x7879cd4a420675b0; 0x22c325877d0dfb31; 0x3cb1b077acace2c0; 0x3060445153a5787d; 0x764a47e6415ea2eb; 0x7941577ee771f4a6; 0x2539201778470c2; 0x5fbd694198c0154; 0x490d79b3a420c464; 0x4c09c2bbdadab753; 0x1fc4ea75f0e4b2af; 0x3278c8cc32e46cc6; 0x159087fd58cc12f9; 0x5f23fbabc6cded9e; 0x1e3befc22f99e32e; 0x7a3d3ffe86dc9359; 0x46b049aafd0e2631; 0x7c89cd934547839d; 0x7d3a9a06d548448b; 0x699b3c7f369f148d; 0x5260a65f14b8e5d6; 0x227af5d94919f3c5; 0x37f11d91ec4851d2; 0x450958d1387c58cd; 0x483f25aba71d0501; 0x41027cd845fe655b; 0x35ca2e72693512b2; 0x75d7ae6f2eb30d34; 0x3f607c9c2a1697d4; 0x4a56500a215c931f; 0x59442c0bd2860db9; 0x5975833686f7e52e; 0x46ceb72fddb5aec7; 0x102ebaba3b6206b8; 0xdd83cbcc23cdeb3; 0x4bca56b3e6640fcd; 0x2b5c5a34f152a9e4; 0x4aba3ce47f4f94c3; 0x71b0179f7c755aaf; 0x669b6bce44a1725f; 0xdcbbc614f23d4a6; 0x55ca0493063c727c; 0x7f10741762868ec; 0x3c3ed89052fb717a; 0x5bdec2429447d393; 0x2dbe7793d76e0d98; 0x4720f4f6d44bec32; 0x3225e93b581e4b71; 0x3be711850ad79800; 0x44843018eff8ca65; 0xe3aa565bdb12a94; 0x5c80232a343335c1; 0x1a8ae41f89cdeb76; 0x3274f81fa759df66; 0x7300110f5dd54043; 0x763f2430c62d965b; 0x22acac28d1a85971; 0x7d17b6404fcad34b; 0x7d377f7850b70a00; 0x48c92f435f1247ca; 0x3df47cf4ad4acb4b; 0x69a8f889dffdf457; 0x1c89463f49e706b1; 0x4274ad070b52094; 0x5b668d82114928c8; 0x1c299f48c3afb0b8; 0x6d095d53d88b3f5a; 0x580cede8125a5ea; 0x57a26e3ff700400c; 0x717c5215b9734f66; 0x3a25bcb4851426b9; 0x10356f5f3e7ce6ea; 0x254f381e215ed216; 0x5e1b40196932c7d9; 0x768132f235ebdbae; 0x3bbac9422d8be26c; 0x55e9afb3bb68055b; 0x61aac7eb39ab5635; 0x17c69422f428715b; 0x69f52d7a923f65a; 0x82e60e2e887aa82; 0x67a8aadc268868f3; 0x3c699c7f5f4ece09; 0x43e8557a76bf3616; 0x793912e71efe76d3; 0x1c013544443d30fb; 0x6a52d53f152275d6; 0x1814625b326cfdf9; 0x199076681868c08a; 0x7756f3a4f184fc17; 0x355c3886df0d6eda; 0x2a07a90497dc8ff8; 0x7c4ae7bafad10174; 0x2b46009acecce488; 0x79fc950be20b4360; 0x49038322a72a0a92; 0x378efbaa5869c7be; 0x687b9ede665fcdd0; 0x58e7d97ea8bb86ba; 0x25cfbecfefa8baf7; 0x42dc3b46d1d69bb9; 0x786ed5bb843ab562; 0x3baf240e8ae3c2ac; 0x7a8b2b9519d483e1; 0x49b97164b91f2a39; 0x80413fcac1cc16a; 0x4b7c59b7b0463d8; 0x60292891d86470ed; 0x3b4db2fa30b45f96; 0x5a9365831818d46c; 0x248f6e3f977467d9; 0x22ca5c369068820f; 0x5172e32f39706638; 0x7c2823a919dae923; 0x7dcfc66d481cfe2; 0x1fb21e968501ad12; 0x2afdc6775763a3af; 0x506f8cbb9c0d2112; 0x6e96299528270bf5; 0x1d72f5b260a73eb3; 0x2ec3df5e1fc40109; 0x39947879b3c6d171; 0x2cc19c9d5d871e3f; 0x78a8d27fdd4b4382; 0x330be7448b55c3b3; 0x77d25bc55394857; 0x3702cb8791a0ca00; 0xab9e4ee951f91e5; 0x46e7cb1580228f31; 0x2892b9525e8f4291; 0xc98c78e6c5f5c09; 0x7d13d55727558d5e; 0x4a2dc1a7aad4cd63; 0xa4f7ebd3c8f7738; 0x77bef00e37566158; 0x198851bae82d0a55; 0x374d413b41956446; 0x7d5113f589b3a7f3; 0xad809d5615a40b2; 0x2202741e7b96d59a; 0x642d4f0534453eaf; 0x5d80573e10f2cf2; 0x6d2384590144c74a; 0x2ea29421a7c45b1b; 0xdb35e3d41483ab8; 0x7b907104d7425fbd; 0x1169de0c3f89bd0a; 0x66be17744bfaae29; 0x72c4db7a0c15f957; 0x4f4d8ea3246d37d6; 0x404c0f2d6a01f1df; 0x372a49ff23084a7f; 0x545d13ddfaf3e0e3; 0x105fb98b6b1f2bf2; 0x64834d4a394a69d9; 0x63cb379e763052da; 0x60f127051421432; 0x26f5a1fcebd78d87; 0x1f39b431a01c7ad3; 0x12794205e454727d; 0x7d09f56bc026ae9; 0x1d86cdacff35f104; 0x793e49afe9c9a45c; 0x510eb0bd6d40b945; 0x472200cd6c46b1d8; 0x297482de64402499; 0x397d343ebcb6d3e6; 0x60191fded2231641; 0x2b222cc2b1fafe09; 0x1184f8db355d22b; 0x1c965fc378d36a0b; 0xfc584873b485e87; 0x599f8a35a96e4d2b; 0x2071157a6aa308d8; 0x345774a92895a6b; 0x594817dd463b70b5; 0x3ab5941c651854e9; 0x414975bdea956f4a; 0xdb0da1a49b8e25e; 0x5df36f86703c3df8; 0x1bc3ef3d22aabd43; 0x33b17323125cbc47; 0x4d449efdc37feca; 0x278e7db358360bcb; 0x7b15471e2c7789b2; 0x1694af6067eb767f; 0x5955c973898d35bd; 0x853c9dcee484e18; 0x1dd1e19a5fe36e0f; 0x31d16608bf02a551; 0x28e1f26827aba8b5; 0x2138df4121bd634f; 0x34c597cc1d129272; 0x4e0b93e92dea642b; 0x7eab671133434208; 0x7c357b7ac70dd104; 0x40a78a38d7fbd316; 0x1dbfe8c0175806d6; 0x3e8ab14a499953f8; 0x6108ad1f8f78122f; 0x348b6cfb0b585baa; 0x3c6a0626a8e134c8; 0x9973f8cccb3dfb3; 0x46d17176819daa57; 0x501e77ff9961d29; 0x4399ab0449ea23f5; 0x92ae09ca10c3add; 0x3ab578aa20b9dd0b; 0x31bbff129346826d; 0x6d5e5971d9d158d9; 0x4e3ce1e6240d2b86; 0x4356708331f7835c; 0x21f337d01c958417; 0x18b229d0a924640e; 0x1223b4098590c1f9; 0x6f53da4dc261e85b; 0x1bc79d701ca050cf; 0x4d277ec14f35e995; 0x328b2622d91c7c66; 0x45ff0d227a48d2f1; 0x192e83804042ec08; 0x387a0a0cdbb90499; 0x21e9c28ad2259f15; 0x14ac358c4edca8fc; 0x328a799aeb8e28c2; 0x72dbe9e4fe314a33; 0x77fbebed42363eb0; 0x7b4be849a79acbb2; 0x61edbc23f92f9367; 0x5a541486e381e0df; 0x668e94a27bae6a52; 0x61ddad2ec32aa3cf; 0x7fd3c3034763bb6; 0x642abb189f6d8f3e; 0x25d59d74f0e6b67a; 0x2b8aa6bda2798bb3; 0x5e824cedaac5333f; 0x28c68fada9a9c463; 0xa58770b14755444; 0x739fd4b3abdceb05; 0x52053020223783bf; 0x7395d014b84073ad; 0x681e8f52ad38c978; 0x7e654500e15ea58b; 0x7412de5a951650aa; 0x7293fc2ed5884611; 0xfad91086adcfcd9; 0x79055ff113e18ac3; 0x659ca603235521d1; 0x2b35ebe4bdb81f6c; 0x6b56b115b9a688c0; 0x3b26b22288ecb8ed; 0x5e7b78e689591e5a; 0x14fee3116154e59d; 0x1da3d91cfa96cc93; 0x5960cba5ce238e20; 0x45961c4722d58427; 0x2e04ba3cf55e9b3c; 0x3be772b59737ac79; 0x22856e73e4334611; 0x68c6775954f57aee; 0x58af55707c91470b; 0x69c8d7746440afae; 0x10d2f68bad5e1b4; 0x6734946f16a022e0; 0x744f71cc53adc0d0; 0xf3176df5b3d336f; 0x64cd237e9bdfedce; 0x7d083989c0429ab9; 0x2aba3f9ad5c2a8d7; 0x5b3ec1d61be3803e; 0x5076ddd613f2aef0; 0x28de7f3cdf170a0d; 0xa3037b06952262f; 0x2720c6b5b765f4b3; 0x57fdfbd61f8325e7; 0x3a4afc036c7d42bc; 0x3979cec258223ee1; 0x628378fb9b62d7ae; 0x31b83ede2c769da8; 0x52b2556a6284dad; 0x6ab118f99c7decb7; 0x4fd00df880a5d1d5; 0x7f6ca6c34caac1bf; 0x343f8cb7a9c214f9; 0x2e88b8b62e2854d7; 0x6d1cddfa5068aa9b; 0x27599bd6c6fddc04; 0x1be95b65c1cc5f16; 0x62cce9370b29b19b; 0xc7329f931ee221f; 0x7d0eadfbc4311f84; 0x45eb620bf283f412; 0x2c6eca7acefa9515; 0x5b5fb83e1351802f; 0x5597787b1913dbd; 0x45eac4136afa7bfd; 0x241d8eb0acd39d86; 0x60601fe1867f98db; 0xcffc3f303cc330f; 0x1e1800061fe1ffe6; 0x3c3c0f030f3cffcf; 0x1e7f86];
   [0x3b404df3679aef61; 0x722c52da7e1c08e; 0x52122b59d33ff07d; 0x436f7c2673f462e0; 0x7a7c7b168d33a868; 0x63ac32d5709f7550; 0x2f38cbf97f9ccf6c; 0x13188ab21c994cd0; 0x371fdaa9ea146997; 0x1a8b8c101cdf4de9; 0x236d81a5e1e6c95a; 0x84a9045fee25968; 0x538420bd94dd827b; 0x19febab019628c22; 0x26ca7b0a6b6358e4; 0x7ca7c05158142d80; 0x4e6d9334dfe25896; 0x24573327f4340549; 0x436e102fe1d68529; 0x2deeab3dd27ce25f; 0x6071452d8affb050; 0x4bf91e6efc1d3047; 0x6a5aeccfaca1a828; 0x137e3096407e586d; 0x18bbeb4a4cfa3098; 0x34590850954b7f66; 0x247f1800621846ef; 0x1a3a878c04aeaae2; 0x51a40895aeaa53ed; 0x38be46861dc776d1; 0x656c381fac5b6a3e; 0x60619f00b8486867; 0x7350f68e67dd62e2; 0xcee70f8281f6c0c; 0x3d348c893318669c; 0x133a12cd2d29feb5; 0x68db293a81d64986; 0x51317fd8f350bd31; 0x234f826c44e0517f; 0x492b86143be0213d; 0x78fef3e3fa13bb8; 0x757765c46bce104e; 0x4012a04ca4f1838d; 0x471e6c0876c2cc24; 0x4a46882b27dfda61; 0x6c418c0a7f889791; 0x39f0569ea5ecad3d; 0x760c7f865f71212c; 0x1e664842a462472; 0x3e7a6c02addf52d8; 0xb257276ca982561; 0x6eeb328611bac5e1; 0x435a11899d2da2de; 0x4c6f040bbfe34337; 0x5840b64a75a2d4da; 0x267ffed4e5d6dbb2; 0x3204ffad89d32b94; 0x12fe07ccb448bb80; 0x285cde93e9481438; 0x694c694e685f0dd7; 0x494d5bb6c96892b0; 0x71b63dd58c28bdee; 0x77bf7a90a7a3433; 0x9d17b896f339e34; 0x2f98b2546ddd462f; 0x6f17b511aa310c09; 0x2f5404006bdc2158; 0xd4dbf6b4c7aca51; 0x47a976c0c32945d1; 0x6ab90b596b498a3b; 0x73ac917a89f7db78; 0x4ea3c6a88406dccf; 0x1fe6043ab79b3efd; 0x429e24f9624f300c; 0x3431c156daf04597; 0x5e31c6f9a62b75b8; 0x4ff51853e0dee9a2; 0x2fb53521fa68f9aa; 0x52b2cfafca2df83e; 0x39309c5c9d6777a9; 0x57a464472d2f21ad; 0x2a2ad4f33604c299; 0x20a8a3766550124f; 0x13b44811f15d6d51; 0x162bba7fa073564c; 0x4a5d26684c74a606; 0x412e27b83b026cb9; 0x71336c3c943970ce; 0x2868c9e1312f0077; 0x21b5a4de4c3deb9f; 0xd30c45fca62a594; 0x4d3b35e0a5e1cf5e; 0x3a520f60a553681d; 0x5c612a8c04f1c847; 0x1c0d1ee7c18ed5ff; 0x3cf935dd4f7542ba; 0x45700ab94ccd6b5e; 0x6842ecd62417df5c; 0x40931edcb234b716; 0xe8cde5a663073ff; 0x5a2b8cf6d7052e9f; 0xdc84ae513d8307b; 0x3e3b0d1ac62898c; 0x158d9a24b35265eb; 0x5158d67b714dedd0; 0x3f69a683fcc5d964; 0x3c6aa2c54f8e53f4; 0x6dc883db8d3568d8; 0xe7a28a70985d2f5; 0x6464ea939d32920a; 0x1964485fffd9ed5d; 0x53bf15b8f07f6a1; 0x2d84eb344228819b; 0x4f4ecaab087d6e81; 0xeefae5e454c89f8; 0x7d58ef920da55d76; 0x6a09ef2c78f3389b; 0x8aee6c33127c2c8; 0x3a05694b90fc4e2a; 0x5bdbd3ee53640324; 0x280db8498592f578; 0x5056a092fad44be1; 0x6f3bb779fd0d08ae; 0x427a41a6b649b7f0; 0x15feec7276db64a5; 0x3b90d7925b21e15b; 0x312fbd445fcce00b; 0x711dd3c68dd71e80; 0x42792e67b221c198; 0x7eb224bd80bbfbf0; 0x20ec99c755022c9c; 0xead488a09c57032; 0x5a0be44cfaf881bf; 0x6a221d0fc6a91f2b; 0x1dcc232c45379a60; 0x7497aa1044305403; 0x7bb2b5132a216290; 0x7c679caae93539dc; 0x2d8ae522797599b5; 0x534523f38da26917; 0x2e5e3201460807f1; 0x116bb0a475241495; 0x6f29527eedaaef60; 0x3869f05b762cb06; 0x3d71dee2b5ae5cc7; 0x46379218c59cd1da; 0x3ed006097def57b0; 0x45321ae66be7ac11; 0x59a50956836393ce; 0x7c9cafa844d1bd1a; 0x4b44c90d4f5c73e3; 0x6d1154fae13bfd0c; 0x6c31930a20290fa5; 0x727ed6e66e75bda8; 0x5a63baa7ee0bef24; 0x29f100723b4eb871; 0x157339c450e8b94d; 0x47e003d075ba9bfc; 0x536f7530075809aa; 0x3d816f6653b31b1b; 0x1dfb8fb2dbe172f3; 0x7e730b08e1a60dec; 0x4c6b05fd4fc9d573; 0x1b42dc4f89e0982d; 0x50676714b371f8b; 0x6023862bd32589ed; 0x70c7f37705ea9dba; 0x1e3699eec36fa60c; 0x42ed6025b2e23078; 0xc98b8e6bf61f696; 0x3d2b51cb486e91df; 0x731bdec56626a4a8; 0x75499320bb8bc425; 0x642726a113d108b; 0x59d3ae671397300e; 0x5bf6de52c2a792f; 0x7930e43a2a2ad25; 0x4aca7165b0ad14dc; 0x3ff68f6a2f401528; 0x5ec544deefdd898f; 0x37e2964811e637c9; 0x43cea6a5c5fe543f; 0x55beb34183c39366; 0x7f2f409e53272f57; 0x64b742fd0c50a5bf; 0x7eda3a2805f9d242; 0x5e0aa75e3543a4b8; 0x146aad8327c5f1d6; 0x51fcf3fd0a978f87; 0x7728bf0f7c407e2; 0x4fa414dc13893dff; 0x447582dd04f07e26; 0x3d90c704b4be0566; 0x149c2d4727d314bf; 0x6791a0a5dfd1ee22; 0x1bcdd1033b6b2b22; 0x3681d0a63ce26487; 0x625eac18f05e950a; 0xa966879a8336bbf; 0x6b8ba9c747da4d83; 0x2f33164bc3b5959a; 0x47aac21935ba064a; 0x1743aa26b692178e; 0x125eaff2bc0b22b9; 0x5f95f73cb19aba83; 0x5e0f5bfab0db392e; 0x38c5c4ebcd9c335c; 0x3042f5c06953f57e; 0x4fb3ec003f8ff38; 0x21f11c99e7b69be1; 0x511ad28fbf71748; 0x5789da1881bba48a; 0x2793d0899950ad92; 0x7bf03eb39d9354a9; 0xae73e19dc26fca1; 0x35376754e548cec8; 0x5c2fb7c8d07c7c13; 0x455de0fc01fde974; 0x5cf28d4190e6f14; 0x48b0b6e6c370f1f2; 0x4c3b26df3e62481a; 0x56a29b2234ebaf3d; 0x2b532346d75e4f16; 0x4a33e751f6439b02; 0x4c407d22a7c86a5e; 0x25caaf67ffc1e59a; 0x592e4d3ed45061f2; 0x2379ddb7f2cc33dd; 0x7603a6b6dc83fbe4; 0x4dd88cf95d1ee25c; 0x4dce469dbca6a173; 0x5873d933f86658c8; 0x4444166fa364ea60; 0xeeb5b6521f90b2b; 0x55bb8d14dbbf7055; 0x34ace4886ed0f297; 0x26baab2d621a5eec; 0x37fda5912cf51598; 0x67ce122c8c1cbad5; 0x1032de4d46c5610f; 0xbb376d5b720e2fb; 0x4b94f58b8ec50018; 0x71c94cc72b50d5d4; 0x72baa2a17a76affc; 0x4ff85f5697186c93; 0x5f40c08fea2453c7; 0x2304d1472dee5262; 0x7306bc5d7792bc6c; 0x3f6e5702f9f37f59; 0x26c582134bfde413; 0x542eef46d3e028ed; 0x690aa0a4abf7ca05; 0x68a656d7bfcdeed; 0x7773456eabb7242a; 0x422b16c77a79e12c; 0x41d8dfd82485b76b; 0x562227b3bee9177a; 0x3c912ac373b074b7; 0x514a4d7eeec55e7d; 0x19b07e46ce9b3ee8; 0x56d0e2fea76a982b; 0xd5c54713c9dcddf; 0x242ae65abeac4fb6; 0x549fbdc5946231d1; 0x345996151a15fbd1; 0x57b0c7c22ceb6a3c; 0x5d7c9dd1442ffcf6; 0x230435b0fd3eb760; 0x339672e81db3467e; 0x2fe9928c6909f499; 0xa81c3a5acf67331; 0x719a85273593757; 0x61824f1aefecff58; 0x28548966e85c02f1; 0x6f83ad65ef4f9fc0; 0x45084234fb25091d; 0x596efb84334b063e; 0x4fd025557a38789d; 0x76bc45963d411364; 0x6e5eb73906417e04; 0x25d7a3ab32041031; 0x18b2d1c9396d23da; 0x39c0d260a490a185; 0xed3547522dff25e; 0x5d19d8afe168363f; 0x7c58ddfeea1aa953; 0x52f45db52c09fe68; 0x18de913b3d4222ef; 0x6cc86bc2eacd995c; 0x7c8b5c566c141aa1; 0x5c14180508f4f230; 0x65ba9621a44254ed; 0x32b19a0dc80c4ba6; 0x569ab4bbca964bbf; 0x1b120c3ae9de79d7; 0x4e1f00d75926daca; 0x30e075761d982376; 0x124afe8c64f65440; 0x2228d6e2aec2fe46; 0x5fd901ae86771f17; 0x4316e5f502b4d3f; 0x562e8a928ca7f0f9; 0xb49e8271603f460; 0xb9608ffd773c6d7; 0x4c4ab9c147e50dee; 0x2b34e9f76660656a; 0xbee769460bc8481; 0x23eac5cc8f4d49df; 0x1a13f736f1e82b5c; 0x45a7dcda584eb6c5; 0x7b4b2cc823568108; 0x1a27d9b8fb247c41; 0x6846655d3a922fcf; 0x1861e6181e078737; 0x33ffc3f3f0c0c3cc; 0x181f81f9861e7e66; 0x7fff30ff330003f3; 0x1f8799];
   [0x1a1eb92e4a0b5c74; 0x6ee407fc4eec49f1; 0x3df012d596f13455; 0x6ef9ba57583aabe4; 0x5f944bcac421b3fd; 0x3a3df12159ee1656; 0xc7a92132b55f901; 0x7855acbd4e2e9163; 0x7477ed25de0dbffa; 0x688dd5bc19fd4df7; 0x5f18d35c09179259; 0x68db6d7af53477a8; 0x111b9c7bbfd6eaab; 0x6cac388fa1d7c01b; 0x1a36ccb0d0ae0be0; 0x5f5853159e7dc44d; 0x3a680d1ec77e09b3; 0x6da91207d98afef; 0x1931996556380a68; 0x138dc58e362e56ed; 0x10020c064721e657; 0xf623ec9b7f36798; 0x6ae7d352eab902f8; 0x591d572024023cb0; 0x1a42b3e34dda961e; 0x2b233a42a33fbda5; 0x7539901dd225a8fd; 0x623803238b3eb69c; 0x41916fcdacd949f4; 0x6a0ffa70db20b9e5; 0x50d0f2dd87be3e9d; 0xf715c3769405723; 0x54f6f358b5c38980; 0x32ee98a3d8835176; 0x1f5232a3788d039c; 0x201d9030d693ce86; 0x2b42c1ebbc73237; 0x6eda22bbae581299; 0x323d5dc9c05ec80b; 0x75033615b816666d; 0x162f81a743dca5dd; 0x25c42599d2ffc90b; 0x13aaf7846b5f950b; 0x758db0e6772a78cb; 0x29aba01bd80b1a93; 0x57b30f353d410055; 0x7300bf7a4bd88a63; 0x4aeafbcda8ba8a43; 0xf3ca062a59a798a; 0x14816d4b24d80df6; 0x3f540899812db7be; 0xe119180e5b9db0; 0x62f5d6b4b8f6d2ad; 0x5d7c65d1ead1ca66; 0xd6656665e450fcc; 0x5c6c2f4e95ce1762; 0x2456adc0016b36bf; 0x4f1511bbd4d99500; 0x22f569514d50982b; 0x5825f31127dc872f; 0x7a9725d4c2790c41; 0x5abd0e756a8c1018; 0x2a89ac9e39511f24; 0x59e55ce44cadd91e; 0x4a59964fd9208800; 0x371f27c0499eb518; 0x2fcb57ac5fac4d4c; 0x94ff4f29383159d; 0x606e310386cfe8d6; 0x64606a7b329deffa; 0x7e6f81dc6f4f3918; 0x1db2732e6b7dbc05; 0x62203de1e99adae0; 0x1b8edcd7ca415b78; 0xb88839839cf2405; 0x53cc98bb5e999bd6; 0xb147d3dc5052dfa; 0xfddee51c03a4c94; 0x712d58c5ac3b0a2f; 0x7a9c1be9c85bc04e; 0x18e5ea20c39afb63; 0x63255def67f16fff; 0x7958abbbd75959a5; 0x6948a34c0d5bb13a; 0x714fd283d32b624c; 0xa41fcbf6b22dbf5; 0x1d26038f65b4b199; 0x2a6e7dd275691956; 0x8e4405c3591e29d; 0x1ef304d900e8ba4a; 0x3aca60b17c6d56df; 0x6ca683ffe6984adb; 0x3c94c3ed6062c0f5; 0x50ec376f9af7c4b1; 0x9d4c55398b5d7ba; 0x1038074c18ee8f2c; 0x183c180d81b7c8d7; 0xd0bee23a58db572; 0x669fd0393faff3ac; 0x499fa04270d67fc7; 0x35c36003b7085dbc; 0x2b985fdd5f6e1a09; 0x7d5f759015c3d4b8; 0x694038cb96091cf0; 0x5d45a673e81c823a; 0x1d817fd13d0548fb; 0x736ebdaf07fb3f8f; 0x30f4e34f8e048458; 0x2127579d8dab7af5; 0x33ea2cf713468be; 0x253cb43cba11e421; 0x261dd82a62309510; 0x5cf16abe3916f80d; 0x1fe848b7a557ae6d; 0x14b63af1fd058795; 0x29aa1c410929353; 0x4faad633eb087d8; 0x1d2afc69056e0592; 0x404654d8454d6fbe; 0x37591cdd43d3204c; 0x1e03229cbf8d6511; 0x740756ccfcbd8464; 0x3b141482ea315bad; 0x77193a6fe06fddcd; 0x6a0261b14ae56325; 0x38ab056db37609a4; 0x346c3fe1d685dd2d; 0x35260fb1416d6448; 0x4199aee6c72f79c2; 0x6a314d015339a248; 0x11bdfb7f63dc6312; 0x869906f777c41e6; 0x5af9c573e1f717eb; 0x44cc20c9851d0822; 0x10f94e2c4d7daa1d; 0x18b2dba054f0a477; 0x246766fd95b0b557; 0x186259486da0fac2; 0x653e29c1f0e259; 0x42eb37ba7605076; 0x3278a8c75b280c69; 0x61154b8e4f18aaf7; 0x5591bf21e635b7dd; 0x50018bb924717cc2; 0x6fad6cf0d4f49c2a; 0x5a086ebcd9616a2f; 0x300bf047b985f455; 0x3438f7499852fe3b; 0x6c0216d4fc09a41e; 0x6df4679f12a4d6c2; 0x371a72e32d937aee; 0x4628136a6d1d7ffb; 0x79e523ea2aea2841; 0x7e92ca63a16af1ec; 0x75e5e1f1b1634088; 0x6a1072bd04489f60; 0x5f99a6ec40f4e9f9; 0x4e0384a33908317f; 0x18d36e38cded19be; 0x585e22cfbf6d7a92; 0x2ba1c3d5d440183b; 0x47be351df43f2b61; 0x627f2fd3b7d78bd7; 0x7491c6ce57a2133a; 0xb1afd274a1e02ab; 0x6d7bf2b1b95ee227; 0x692a94717fbb4250; 0x5bedcac494b6d664; 0x272b3453706d7b45; 0x21416e5ddebe31ce; 0x61f8b13d55353f4c; 0x1ddb8a80ef270551; 0x2782dd2b6fc5ef92; 0x74da6b2461058ec6; 0x4c9e958ebc5d15b7; 0x3dbab6cbcce39979; 0x25ba3bd22df366e8; 0x75c3f5b7429d65b5; 0x14c6ff0cb1c33e77; 0x55e095482ea9402; 0x2c41365c20782b52; 0x20806e0542e977db; 0x2bc6f9d677a44cde; 0x315a73ea759d1e66; 0x58f115ab511b5230; 0x18f6d63dd78db06; 0xded6a11ea860c1f; 0x3549fb6b2794dd50; 0x752d90e74f03ce9d; 0x589e091d4c813195; 0x3990f48d23ae5b77; 0x376cd6b1cf5cac5b; 0x73c8d1aec8c4690e; 0x3a53a895e310d758; 0x5b8a2745bdcbb147; 0x34d7b3adea7b8b82; 0x49d36698da6f087d; 0x13daec7ec9b72290; 0x73d4182f216f4fc0; 0x70abbfc7e58696aa; 0x3f9c321b502d975f; 0x5b6eb3dd2ac95c2f; 0x1457c73ab5965672; 0x5455cc5715fcf1c6; 0x1410f789b532c23d; 0x797486a5e7409497; 0x4e5dd0bac4c7c31c; 0x36ef6c9b8bd2bf8d; 0xaa53b90da1c072e; 0x6b3a38eb6ae494e0; 0x17c5748a79f8d83c; 0x75e7508d51f826da; 0x76ee6da1bafae6e; 0x388b0f7403c05da7; 0x6335dbee310454bc; 0x5e2cb5b8a29ee834; 0x5670de01cef54159; 0x251daf8e9db58285; 0x3672861d19bb9e3a; 0x4db15b963ecb1f56; 0x713e7518bc8344c0; 0x7795f37d2c4aae8b; 0x3d6d6d1d6f91073b; 0x1152ab38a721e3c0; 0x3013eb270e57f55f; 0x1525a292b65c7bbf; 0x37b2db587bf590b6; 0x244f8d4cc5b8bf37; 0xcf77e58e5e8e37f; 0x22326ce1383a6ca9; 0x2805b4db3699eda8; 0x5a6f9df4cc4ea14; 0x11c87b1a38640390; 0x6069d7603667e784; 0x2bde3939d37d2ad8; 0x4d6b2efb6a35ffbb; 0x1d56efad1f139a7c; 0x1fb4f1f269010add; 0x5f192607bfa6817e; 0x4946029c6ba69036; 0x74e1e9008c3eca1e; 0x759220f1e1aebbf7; 0x23ef69f1152470b9; 0x6725089553ff0719; 0x25eda29bb6a3db69; 0x528d407da01c4e49; 0x3d7011da030c6dbe; 0x40f3c0c1785aebea; 0x75627650ff50b181; 0x4c0a7e494fe1e22f; 0x45b1512ffd9f6334; 0x1426f4758f8cb145; 0x179345c404c080e6; 0x7fa3482e7f8e22a; 0x5fa38e46f9cef89a; 0x3880ec59fbeef304; 0x67b7c2bee44b3d95; 0x1745a1dd8c447d3e; 0x42232607c466ec7a; 0x8eda164c6304af9; 0x12a355bd681e339c; 0x3a05ebe746add9eb; 0x49964cda82c8310d; 0x6d507694b1ee723b; 0x3a1ea31b341a23fe; 0x4fb79f231b9e052d; 0x7501df5bd6302229; 0x196421a9663ce051; 0x29650fdb7cf9b7f5; 0x633d7ba8c56a3392; 0x6e819c48b60e81f6; 0x5dec7f32351278e8; 0x318666827740f37f; 0x2867ef3525c80888; 0x65444728f4652199; 0x447b91cc9c083f5f; 0x10018676907b549e; 0x7e7122a88ae42089; 0x28a53f7fc128c34e; 0x3b75d119107d7c7b; 0x3ee24a55a31fc65a; 0x4a7e677d1a412937; 0x781136beebf92118; 0xe235033f00d60db; 0x28d0435e1c74dd4; 0x57a5dd34156a03de; 0x7baace23c2e4860c; 0x14d546fdd52d539; 0x17e7aaa5d7f154c5; 0x5fd47da13bb862bc; 0x562dfb8a62b23b51; 0x68992297f107786d; 0x3f6c5a44688e69e0; 0x89099ac9975c828; 0x68ba1179fb07152; 0x30860602ca833bc6; 0x79014c254a305572; 0x7cc522b63fb226dd; 0x1f28a208a46e93e0; 0x4a57c5578deac2a5; 0x651d938a4ecb2729; 0x5532e2e911806083; 0x713ee1acc973defb; 0x78ba1be10b175301; 0x130ad99d56d75049; 0x7d5bb4c4bc60e3aa; 0x1c69128a90113874; 0x5686dc5cb6245618; 0x76b7e99734405772; 0x574a27ec9efeba; 0x6d5cea98af0779ec; 0x4ba191975b04c1b; 0x2524f1cdc5d6245a; 0x6666679998006145; 0xf0fccfcfc33cfff; 0x787e1e0607807e6; 0x403030f3f3cff3f0; 0x1e7fe7];
   [0x4e4f42edcdd8289c; 0x4cd76733ea5e777c; 0x15a802568c3849fb; 0x3d56f4a427c3164c; 0x694b16653982d9da; 0x596e3f55821c6565; 0x7a3fb3029e9ce2d4; 0x3f77ff8e3f62dc87; 0x386fc30377610126; 0x493247fe3d858551; 0x6b4413fcf2b3a315; 0x300d787da7be4ba3; 0x183e22f9b9c2de1; 0x6b2ae585645035d6; 0x4ad84dfa4f10bf96; 0x16f25cbb5cd6e051; 0x268ab07119f48ff1; 0x6c06ae0cbec04b1b; 0x5ec3aede363ab731; 0xf068b35f0811af6; 0x299e09a8203d9a7f; 0x1ed2712e6fb96447; 0x5b4cbaeb7e021a52; 0x97e17d4f456d205; 0x6c754a63d8c3d367; 0x1fabf4813faba447; 0x2cd1143eeecd9d2d; 0x22b2065318d9a5dd; 0x6864c69b105f2142; 0x2ddc11151d96375a; 0x776d74d1f4c3e592; 0x3ebce422cdd644ed; 0x13e8f3318e64b234; 0x71e64f0e587ee40b; 0x41b34b66afee1ba2; 0x382394d470cf8c64; 0x7890dfa792048330; 0x1ce824895b75e89f; 0x347b81c634ff8e88; 0x2526ad9e7969188d; 0x51c124cd028746ce; 0x5f4db9f48c6af284; 0x42f76fcabf1a86a7; 0x15251d5f8277fc69; 0x5742e5c9b88ddc86; 0x6bd696837186ad96; 0x3121b7268b325aba; 0x78f657e68b9a507e; 0x25c677f47f29424b; 0x139f942b2edf5eb5; 0x20e020fea9ed2081; 0x5b54727e276accb2; 0x50b5ec6de31e4650; 0x1aeb5bace24e5d69; 0x610a4e561d058e76; 0x51d8c8e5ad7fb60e; 0x31f0acc439b968e2; 0x8668c922949dc44; 0x3bba44caa562e469; 0x2cb8e2bde60cec5d; 0x5a1f5468fad3511a; 0x2423b6c263221a4a; 0x58300afb526613a1; 0x59fa66f429e2ed4b; 0x3a5c983148382e2c; 0x10185196685aa5f7; 0x46d604697cb8bc; 0x1c5e3da9442634b1; 0x2be7491285dd2afd; 0x65a2a5bcb2461935; 0x321f558e3ad9fd68; 0x6add7018115d1c4b; 0x33dc0ed0d9b8f644; 0x16610303ec6659b5; 0x51d223d0effbbac7; 0x5ed4fe5bc9d1f73b; 0x7fcff999048b7249; 0x72c8658460592b57; 0x321d35cab4e6eb85; 0x12e7f26b20fefe1d; 0xee32a4a81c654b4; 0x53e6d8859116103e; 0x6403e68acdd1c69; 0x2ea84af61ebf0cab; 0x2980ed8b18a83d3f; 0x47f83d823ce30c37; 0x6c9225e3dc7eb14e; 0x7029d44fd5721dc8; 0x2f2a7153a2b22e9e; 0x757f4adf29eac6a1; 0x3043d7168cdd584c; 0x40b0cff8ded9ad7e; 0x227da17e74931838; 0x7d783b0f35f51315; 0x78720fa355be18e4; 0x17d83365618979c7; 0x7ab53a0c8b359969; 0x110f57ec8712a9ef; 0x7cefc66fb30bbf34; 0x5f565444a9831f85; 0x49763ab4ddb552a2; 0x759d8f7ec3f9d604; 0x6e17e1db6f5d1735; 0x3eb6acf6f78c70a7; 0x42bc69133c73163e; 0x958f5d5ed241e6d; 0x775156e0997964ad; 0x3404c54e0aef546a; 0x7b91caec536501dc; 0x595a8c8989961fe6; 0x5be290102e672a85; 0x768386e44d5eb3ec; 0x3e0569daedea2089; 0x6d830adbd3e3f019; 0x3b9f8ed2d5fff597; 0x6fce4ce2b471d728; 0x7ec8ff05bf4e990a; 0x263f1d2950db2df1; 0x5dd115abbe61f412; 0x61efc5db86e5d1aa; 0x29501c0f8fa75e67; 0x7e64748ab4d4f33f; 0xb721d91638df050; 0x6ccd603ad5a1a3ee; 0x4efdede735404521; 0x4958ad4f1eee69e5; 0x59fbe293b7e58a92; 0xbd4957dee382dcd; 0x6e36262a845264f3; 0x71b7e9a1712954f0; 0x76c00c483b0e4828; 0x5994117583143cbb; 0x5116520786404000; 0x4b46b382d4a324e8; 0x358971073420a4cf; 0x20f999de20694057; 0x6cdca08331360fff; 0x672b999dbd9b1a58; 0x2213b730e36e2125; 0x1e7ffb5a8cfbcfba; 0x4cec7e27d1b6fe10; 0x663b81e7e9608888; 0x268a7acf87ae246; 0xa787effc6277577; 0x1126746783b68d97; 0x6dcbc831fb9ca3ba; 0x2c54cc37a97fd271; 0x63cbd91859e77b9e; 0x40af41dde00fb6e; 0x67ebe30f419dfff2; 0x492a5f48d6968e0a; 0x5694d520f210b679; 0x3220cffbe5a998b3; 0x5662a44a78e18cd0; 0x6c5b8e1babd1c5e; 0x7ed70a71494100ae; 0x760b1dbbff65a4f; 0x138a106c3af6666; 0x4fc7eb93311948be; 0x734ef2aeda7a8b1c; 0x6190376e0876d775; 0x7cd317f2ec8ec1f1; 0x363f781439108485; 0x6cf18ca97a5356cf; 0x503a1620da2bf215; 0x17adc8e2499d402; 0x6e737bb739281ca3; 0x60e9d953aa2644db; 0x4c879c26e2f9062; 0x4a017a366a17e3db; 0x5943cd87000a5704; 0x1e43a75632613ea8; 0x375048631e819a27; 0x57b0b06a78f9ae23; 0x51b8bf180a322845; 0x74c4e4e4da990746; 0x72f12951df02dec0; 0x733f430cef88353a; 0x20b00408b3252137; 0x77fbbe914546673c; 0x7415be951fa888cb; 0x7fe1f20406e84f21; 0x17a07b90d6437a22; 0x3042bd27c1cae51a; 0xe70e6e6a5f4015f; 0x6e64168faf960fd3; 0x484acf8d5f908a71; 0x705d7b21dcae0e96; 0x77c4cda2659752d8; 0x289483221e9b2fd8; 0x283fd05f9bb211ba; 0x40d9f855dbe03de4; 0x5d4a39764038a8a9; 0x769b982fc3b8998d; 0x5525841a31bad84c; 0x488339f0f911d55e; 0x6109fab8136f7bb4; 0x14cbc5bc727d3906; 0x364c21aef6f3a80f; 0x75dba6142e0a8bd1; 0x4f65d3dfac6db2e6; 0x53abb4526f524edb; 0x4752486ed557c796; 0x79d5947ce705fcba; 0x1cec9a16bded7051; 0x54e654e9a0982029; 0x1fdee5fd11f37c94; 0x6bd4e6bfe50ea08b; 0x4e7528f26d5f9129; 0x6bb69dd82d53d69d; 0x5211fc635bfdf559; 0x128be1f9a59e04ee; 0x45b6beb4771657e1; 0x617133c028f22429; 0x6ead9881b4438e8a; 0x687fb2900a5d8585; 0x2cb4c875ab245cb6; 0x36c5a1e5d6511638; 0x4f0bc2bb97d8e42a; 0x55e8c56844b0f5af; 0x3578fcba25f9513c; 0x63dc079a68be010; 0x10bb02952316e89d; 0x182fa7c705819a4c; 0x35f357f0227ba8d2; 0x76dad46c6a0a64d; 0x728788708e7d58bf; 0x6c44bc0d5beda25e; 0x6a9d99cabc171be7; 0x66307589c4e1abf8; 0x68aa2cc1f2f9741c; 0x2cce11340c976010; 0x2b4d494cb30da5e1; 0x7e8e6453708970f6; 0x2e1b8aee16cafa40; 0x589c45f6c6a490b2; 0x6e4c84b653c16f; 0x44bb7cb1381a92d3; 0x3cfb8728543cce8; 0x31f5f68aa54d9163; 0x6fad986643ee6892; 0x650473cc85b1c6f2; 0x31839e47aa8448; 0x37020d2dc6e2839c; 0x3b753025e20e332c; 0x7bdcced774f1da0b; 0x760af4364a87555d; 0x386d786ae2e9be74; 0x503ff627b2b491dd; 0x480e42a172f75912; 0x9cba04d67a8b4bd; 0xdc84f3180e65905; 0x459ecd35c4f20878; 0x1b1e820ad3c33e2a; 0x11b411d3e238d50f; 0x3dc7c4e17a6ba2e5; 0x26544d0fad42349; 0x51b549bad21cf6b3; 0x7baa8a895d815bb; 0x37e6abf19cc5628a; 0x4d8d4275fc9371c3; 0x7fa6d71121306431; 0x16a277ed3c13368f; 0x20b293f74e89f1a4; 0xa764cf6673c9b75; 0x293e46e7a5a1a9d2; 0x32c30701a86dd652; 0x6aa40b4c3681ac84; 0x2441e6ae217194ce; 0x1e92b876a21835ca; 0x11eb77382a12d1f1; 0x152386dea7126891; 0x7c47f7aaa22ac964; 0x35a09723309d96f2; 0x421d627521fd408e; 0x24af99528d8a35bf; 0x4fc3c253721b3dd; 0x7e38a4b5614262de; 0x5c28a9cb6e7d84b6; 0x13e1be26d4d98ba7; 0x64205078a2babf39; 0x2d10b75155816ff6; 0x3ac6fb9d4bb040b3; 0x2652e4aae0ba3c7f; 0x77d0cd25842cb7ed; 0x1b87e2f10f6f1efd; 0x55d41ca36ac2d581; 0x128e65f3f44aec65; 0x3e9c751ea7ac459; 0xd03f699cbb47174; 0x470255701ae0d107; 0x5357894402511c62; 0x22a3a27594292de2; 0x242d4acf52792b8f; 0x1c248e9f46658cd9; 0x591174baf0afc624; 0x506c3ca80369cb3f; 0xa56b664cb25e24d; 0x1d3a4a6304790831; 0x5d95fc5e2db1e367; 0x65b7c24300c2c808; 0x58699fcef2eb0307; 0x7b38a4792772570; 0x1109c1cbf595b465; 0x74ae3a7ed0cdac5f; 0x66c379e1f2fdf77d; 0x1747472bbdd28c52; 0xc02d750a8803bdc; 0x27ff1f615ec3023; 0x79e9ac12fc19bb9e; 0x32759027ac00a236; 0x69357b3ae2402a5; 0x10423f767bf5c1; 0x1f878018661876f; 0x7ccf0fcf303f030f; 0x61f8786619f81; 0xc300cfcc0f033f0; 0x199806];
   [0x4551045b68d47402; 0x64db030e5ad5a2d; 0x6e3be9ed9e0bb54b; 0x2dca4dd81cfffbae; 0x7ffc842b26fed500; 0x35edcaed4e208390; 0x7f6ee18a2ec60058; 0x3e599767601841d6; 0x591e0938fae4e5d6; 0x2be7bcd65fd899ea; 0xc51f8f18f0022db; 0x5950c44b6b841714; 0x45146d57e5a5ceba; 0x7e994e7cd51ded58; 0x3bf38a66b7c8ff50; 0x31575778804257f4; 0xf0edc391986940; 0x6bd092f1401b0d73; 0x67b8daee10e6a753; 0x51cf12e1443b5e1; 0x52377c3c0648d492; 0x6738aafb1decd051; 0x4dfdfe36a81e3894; 0x7a2acde715d38f2c; 0x4a7ec8d7297eab78; 0x2677c1926e9315a3; 0x12fa1e904a278095; 0x6a5040327ca7c7c; 0x12c89090b8174fc8; 0x1570c5e99bf541c1; 0x209769a60530e4cd; 0x4823ce62b55d1978; 0x59d70f3f799168a; 0x29c05907d5af78a9; 0x7f648012fc7cd8c; 0xf85e200080b6e78; 0x7a967a6568351693; 0x58a96772bfcd4e23; 0x79b6454c3535818e; 0x2f7efa5254ab2117; 0x7cd6df3f69e20c25; 0x13cc5840fa16c2b5; 0x2f5240a3b9f36215; 0x28017a74c411b4a6; 0x5d99411c52b4eef6; 0x3fdd056b85b4d0a5; 0x5cb5df785ae11bf6; 0x92ea1af95ad58ed; 0x27d6ecd9979582cd; 0x7678a3d9d571324b; 0x4955bc7cdca3ffcf; 0x799fbb039c887548; 0x4865ce17fac1e81a; 0x43d26393242339b1; 0x39644afc8e666eae; 0x1cbc1ed70a8e8373; 0x7ca8d0cccd0d2a53; 0x4371472c61753e23; 0x76755582bb6dbc45; 0x70b2bace53626949; 0x5a74d391858ad1bb; 0xe7e80b58606e669; 0x6e5fca232384a9fe; 0x6a3501dff475c03d; 0x12d318632a1b5bf1; 0x65d5c2c075906a07; 0x64cf41958bbfd9c4; 0x556a19e0cef1a62a; 0x699e2b5550b140b5; 0x11c0bf13ee1742c4; 0x5b484bb271c4cded; 0xcdfb850a55d889a; 0x655a4b4e87a4b38f; 0xe4e31f874c6f2d; 0x796163333b0c56b7; 0x58d1e0f451bd7e0; 0xc1ba457fb70a06e; 0x39f0525cd9871a53; 0x5dd4347403a00763; 0x29d375ca30e70f00; 0x151174e080b69ab2; 0x5d725fe91c39a2cc; 0x276da4fad1c696bb; 0x622761f9b68c4918; 0x444b23f467c8b0d7; 0x73495e16bc583ef8; 0x6675ea7f13f2ee2e; 0x5eb96d6e3a1251c9; 0x27abb31d26a9f86d; 0x1c79e7c9cb888dd9; 0x2c0d0d8b1defc7f0; 0x797ccf357e4e5372; 0x5eeb2bbc44190e2; 0x1c7e70a2ccf2ab1e; 0x2042a63ef7697833; 0x301de72bcda0b670; 0x6789307fda6c5e5b; 0x1c1a09374e19848f; 0x6ca06b45fa2559d8; 0xc2c23b81b66196c; 0xf1e874bd131e797; 0x49511eb149e40139; 0x6aa5812bbd9d1f6b; 0x721d590bf67bc36; 0x6fe0a23a97915cb3; 0x36b927e69f1fd60d; 0x2a161a9604a7d3fd; 0x73ba2a97baf5f16d; 0x26b56473a829259; 0x682e0ed8725c1a0d; 0xe410f71d843bcc; 0x53810541886829bf; 0x606fe10ae4bb095e; 0x13969f34bc05425d; 0x4e8c9cd85f87ea01; 0x18b2f986e71696; 0x60cd30ccb7074097; 0x7aeb790620c5d11d; 0x7529c60915978bc7; 0x3f774c80e8c904f2; 0x254525a08fa95392; 0x7d7966b1dc9e3e58; 0x3d5957fd86435c33; 0x7444ba9147c35731; 0x7a996852729eb072; 0x4e5c3b56645f8909; 0x5c6c018ac11ed5c7; 0x597b2627864aca74; 0x24bc4257fe0d78f1; 0x1a4e1304d4bbdb7; 0x2f2f85de367025b2; 0x41df010007acfb5b; 0x7bee52824e74bb2; 0x5dc54d8347ebb57b; 0x7e536c524b6b587; 0xe506d7e29ceedec; 0x229b455b740bad91; 0x68d0760ba1624b0b; 0x7160800a1688b16a; 0x1ace62b03bdda181; 0x5785bc62dcc89cfa; 0x2b806dd7c4d89f82; 0x33bc75e215ff8066; 0x4f6206f4f0f618d; 0x26dda4d10e7b8185; 0x877b67df8970df3; 0x5bb826c034d48501; 0x23d7d7298f49c810; 0x4b128d2779634e7e; 0x6b06c1eb016835a1; 0x45a75d0d6443d739; 0x2c34f3d039368443; 0x2fe9e5361ccdceb8; 0x56725d059f947105; 0x7bc183096252f437; 0xf88b66f7da64cc6; 0x1ec0b5a1fd265be9; 0x70587b8b56fe6777; 0x686b03ca7cb23e6e; 0x239a4338f9768ab1; 0x2440bb3540306a83; 0x4b358e14df0d8be9; 0x6c2c1d47bdb91adc; 0x1f700b03c3a01633; 0x1fb83e0623d6c057; 0x7d89f93906d7644e; 0x1484cdd942c9723f; 0x5c4c23ed2f3bc78a; 0x5182c47cb5d0d8a9; 0x70d01370a438a5d9; 0x163df8a8bff6ba29; 0x5a6ee97d0423028; 0x2160e144e8569d0c; 0x783fb1bd4bebc3bd; 0x786c51ad4ed3b2a1; 0x381c38f002449a2c; 0x223d2fca039dbd0d; 0x205ebed094b330d4; 0x3fcb6577d6e778ad; 0x53b2876c3c7a57dc; 0x40d4220c5009609e; 0x74afaf8fb2b976a4; 0x10a3b7ac890f5400; 0x5929b0c48ea954fe; 0x709c09d84d19bd31; 0x20dcbc47749b64a5; 0x6a85082a7bcf8791; 0x5f486d526cf1c111; 0x69e5682be5169fcc; 0x1ac49b6a1ee6df0b; 0x1d627421ca3f38b2; 0x36b0c6e76e1ef3dc; 0x33f54a51cac620f5; 0x762e662b329a6a9; 0x6fc98a48ebd91783; 0x7b152a774e96a1e5; 0x2434831d5092b69f; 0x4d5270c316cc6ad; 0x6efec9033b80dbd4; 0x6107b2a8ff32972; 0x7ec11da891ad72eb; 0x4332202349957740; 0x55c4602816e026ed; 0x4ab8bd0a82976534; 0x32dd2d4644759460; 0x26e9606e8654c5ad; 0x30dff62f937616d8; 0x3f896209c596618b; 0x3630c708c0b07836; 0x5e8a5f90cf17fde0; 0x38c6ae6c9e681df8; 0x57cec1fdc17a67a9; 0x41b4c21e9a5850ef; 0x80798d21e925323; 0x462ba8e751e8a3fe; 0x3397430fb14e33af; 0x13062aa0ab04c58; 0x498b909113aacf3b; 0x79dd0edd751795e7; 0x6e60076159203822; 0x560e7355a5986aed; 0x1e0650d92f0afb0b; 0x29068ba350ce9da6; 0x73ff063689063825; 0x50dd4c9c7ea2fcb4; 0x56e33402abea4516; 0x5be218217f54144b; 0x7491a40a610ffbbb; 0x289699a6aabb0c78; 0x2974738b7c2bc188; 0x344d663524cc1e40; 0x7b5d09be8cb424b2; 0x202958629a260aed; 0x1b3d83693720bff4; 0x340296e07fe5bbcb; 0x5e40fe25c7663f22; 0x5e50dbb0e0984be3; 0x34432a7bc76d6217; 0x2ece00b18f4fe6c7; 0x5823a5fd66af9df1; 0x760890f36dc54698; 0x7ce856b50ddc04cb; 0x61aa0cce572af23; 0x66e58d6718610f26; 0x14317105ff1393bc; 0x17cf34cf2d1b264; 0x55ac9add23a67c91; 0x5673f3e0e451e15c; 0x13bcb537214b8b50; 0x4572be28edb33160; 0x1e029813b278dd5a; 0x4d92e42351c8f00a; 0x279e32db02296aa0; 0x4a452773f54aab02; 0x1baaae0326d0a4d4; 0x308d131949f638b8; 0x3bf8df54a66f8010; 0x62e6eb5e5e945304; 0x416ebc42c627382e; 0x7be55c19f048dccc; 0x758255c61b5bef91; 0x7d49854d07b26963; 0x5b89dafd8cbe18b3; 0x5e951d18a490007e; 0x3d43d00af1d80929; 0x53b5e85b4b2ec4c0; 0x38dbf80f17b35374; 0x5e209c3b3d049215; 0xeda77dc68e88124; 0x11e22f0ab30f89d4; 0x196970ff1f0f1af3; 0x3be3e62ef3c50062; 0x6f5972c1feb2dcea; 0x15afef66b585b411; 0x9d0774b89a0be; 0x4d4746ed6fc84cb2; 0x1976c3ab2c17c314; 0x7c76cdf403ed5582; 0x6a8954bf5f33e5a; 0x5f3a9b772eed940f; 0x51d74525899eb852; 0x316344fb47a19ab9; 0x4bc1e9615fe0a62c; 0x59182c1c6ea2afd9; 0x3a5f0b813c251e26; 0x50705c6c6a03f6a2; 0x4311f527cb079423; 0x3c9a6b63e22ef6ba; 0x710bcab4bb6ab37a; 0x71bc94e039de9e58; 0x1f58b32991a8c790; 0x2e8232aa2f565b23; 0x3236bc8db23cd6c; 0x495b819d3d11665f; 0x7571c7cb4a9dd2c5; 0x19ae45330627f56b; 0x228df3eb177d4b59; 0x771ff083c2681814; 0x3d77135a75162de6; 0x4396769836242be6; 0x508aa0eb61607f5b; 0x67697ab3514fbab1; 0x731a84f93475338e; 0x162f7fa660fd6180; 0x3b29751f142e2b5a; 0x5ff172036106f2f5; 0x627f0a2c9ddba638; 0x1cb78fc09ab693b6; 0x37800264f0398e93; 0x106e17a5102c60c4; 0x2c78b61fde83f72f; 0x2fb51ee355011acc; 0x41801e954568e391; 0x7f9861f8661e7e2b; 0x73c0ff30ccc0f033; 0x1e7f99e01e0679f; 0x33ffcffc30f3fc0; 0x7e078];
   [0x65d03dafa0e97e9c; 0x42f5beb6a49107a; 0x50f9d92bb325a1e5; 0x7c930feb2254c11d; 0xb2a2391961e6b99; 0x97c9d42b10922e0; 0x36a31c878403c6df; 0x6ba6fd22d45871f; 0x69b55566c9154af1; 0x4d2f6cfcba883a2f; 0x6500f1ed7713d14d; 0x786c828abf38439a; 0xecbee8a05f2b044; 0x47d0e595ec46d414; 0x5bdeb9514bb2506f; 0x32cf1a7bbb1bf795; 0xb11d2b192a5e136; 0x44ff974626c75732; 0x486ee2d2710e6357; 0x229910591a9dabe4; 0x3c6101aaba8f107; 0x7b049d2862a4aa4f; 0x4b006cfca8a8470; 0x743515e96bf6c6ef; 0x72f55a6d3e6694d7; 0xdd4c8daea44f685; 0x6e12ce76470dd161; 0x75bc2f31fdd1386a; 0x698b64148eb40170; 0x30082466a308b70f; 0x51ccf1a94145ee0e; 0x4ddfca2ae338644a; 0x59ad09c75c83c820; 0x1c9fa142b867fcc8; 0x69bf9ca57986b38e; 0x563724a8e66fd17d; 0x893afe210987d17; 0x6db4ed9fbd95b8b9; 0x6d9156be146f323; 0x7119751e78bad264; 0x373b5afd427388bd; 0x7dd1fb06439f4ff; 0x59101a5171c44360; 0x2745330bfcf1d875; 0x2a5f6845eaf2e6d4; 0x595223f943c3118d; 0x278da3a5219c92bb; 0x2ab27e625bb339cb; 0x359725e253457b33; 0x5f62be27a9070884; 0x5a82c68013a8610f; 0x53d0149081bf2d4f; 0xfd4ecb57de5d4aa; 0x5892a6a486526691; 0x9f7af07d4c86fbc; 0x3e27f478bf6a790d; 0x6a1026ec44dccc66; 0x3d267e86f6aba482; 0x3216c5a1f26889c4; 0x103a2fafeb236ec2; 0x5d1a796c68e490b4; 0x68ef977de03381da; 0x2bfbd5c2d94745fb; 0x656957125c756253; 0x49d37254be4cf832; 0x714fa730b33651ec; 0x2186e733851bd554; 0x1b64073f2b4b8e80; 0x4f89628840cdce0c; 0x6cfa3a6abc763a68; 0xdcb148d0dd62c4f; 0x17f5ceecb3b9a40e; 0x2bee0c754a2cd7b5; 0x63f5986c5ee80792; 0xc9e784024e66755; 0x2f736867a58fefb9; 0x66a1bda05727e846; 0x2f9b447d8f41a85a; 0x239fcc41193bc283; 0x35176fda1433c45e; 0x4833557899e6aa43; 0x79f069559a1a1dca; 0x55b526f935299ec2; 0x4601bec4fd2dc927; 0x1220ca86f1aa4c5c; 0x558969044b6a13fa; 0x69e21f0f68ab2604; 0x5cce17807347715d; 0x4fb325e6339b5cf8; 0x6a09523501254fab; 0x3820c156a743a3e3; 0x6b12ef92974bdf2; 0x46ffceb56bac6fab; 0x24a2b012d95c81bf; 0x25bf1098ff90d7b9; 0x428a544cb720f08; 0x4f760109d429557c; 0x37ff14d7b66ce086; 0x762e75b5e1368b4c; 0x7be82830f698b615; 0x599eddfba6f38ee6; 0xf16432a8ff50158; 0x548c855d11fd716b; 0x2285899affce9cbc; 0x1138133cc926cd56; 0x217e7e48a4c51b1b; 0x3cd27f9235ecdbbc; 0x75aea93bb7c7bfaf; 0x5f2e46ab94b1f4c7; 0x71c698bb78f9e0cf; 0x2f63a44d5e1aa148; 0x5bebe6f2890e237b; 0x6103f26b46902bd; 0x317ad40f56ba5b12; 0x5ca6afa457113d76; 0x35e98540e488a65d; 0x7a8ecba7c2ccd760; 0x617a6add7243a44; 0x28af8958501c31d3; 0x204d9553e0661f52; 0x6d997beef660ce35; 0x4895b567954526ce; 0xd5a2ba1c7426a8; 0x41ab7a9b37cca663; 0x545a351c4cdff1ff; 0x6f241e9adc87359d; 0x3d2f89a9ba5b600f; 0x58d19f6db396f36; 0x315009ace7502956; 0x251f2d9cab5e9371; 0x1cfbb18627f096d0; 0x420984738cab2bf2; 0x7bb7099961cf783d; 0x5cc44a32fbf70108; 0x30d798d370acae3e; 0x2498588478accca2; 0x1b70349d9028780f; 0x7077a568908109c5; 0x1f267e5b5c24d7b0; 0x2a9687b10a20d874; 0x3f89592ca3015f37; 0x26da2e688c56f4c8; 0x6ac957a42bb869b6; 0xcde8cc75155d84b; 0x46b806c613ddcbb0; 0x5606719bfb9b444b; 0x22b39c72b2192977; 0x1b5dedc1d0a54d08; 0x530af0e3c529c82a; 0xeeec4fc0bde515; 0x1d6cfe207ab9a790; 0x2ffe1899175d1f2b; 0x26865af1a4ed4588; 0x5d2d28c4aa16b80a; 0x5a02d235b478a21c; 0x1df972585627c5f6; 0x7b0bc0654096466f; 0x196cc641d3da2117; 0x65932f498f0741b; 0x17b93dfefc83c0f7; 0x1822189d50de047c; 0x51e55f377b34b584; 0x3c03a367b5d5c7be; 0x2c27e7039014926a; 0x20859f886fb1a158; 0x5612c7dbc618ce73; 0x3323830a2af7d45d; 0x542858abb476d8f7; 0x5fa6d6a2b6021e4b; 0x1c08d4ba73292259; 0x3ab4047c32275f30; 0xfc7972fefc96b62; 0x12cdee822c6dbc65; 0x276191b51b8ded04; 0x1c21ebab7a383e4a; 0x53ba405922150367; 0x2070eb56714f66a1; 0x1225602473a7cc10; 0x260dd5b0276e8bbf; 0x1d79c4429da46d56; 0x5c423e49732fb851; 0x2d3f89dbe86e548b; 0x24271e16d34de20; 0x1c882701fc8e4397; 0xc00f72e5df52397; 0x1c73fe63e674f0d7; 0x34d0c41e4d67f09e; 0x461eef22f660dc56; 0xe8efd0b1c0aca4e; 0x9b9324c1159f275; 0x7eb95719d98c90f; 0x35da4509e73505f3; 0x6655817ab9d8c0ad; 0x5b2fbf993e5c6991; 0x7085ce2333474638; 0x357b170a0487f6bf; 0x4d2d13bd1957cfe6; 0xa1a138ee3fe4e68; 0x499ab2aa0082eac6; 0x157a1baae76424ca; 0x57f2a9a63c6976e9; 0x417371388da36664; 0x2a15ed07ce60a0f0; 0x35b1c191814a0817; 0x64bb96ae9ebb71f6; 0x156ef245968bd35; 0x2b0093fe9c69741; 0x6f12c2a633582f08; 0x2e76b32c66222256; 0x221e72315951687a; 0x337709742ca51710; 0x5c56aeb089e35267; 0x33f5fab22ea1dbf9; 0x6f593305899fa7f2; 0x13cb8e3b0ba8059f; 0x2503993ba6ccda04; 0x7e49416a1cfd66e1; 0x4e581737bd00b6b; 0x3962db5612269dea; 0xe17a675c5229c2c; 0x4f1460bde02e573d; 0x844df0d180885af; 0x1b3e277a17913150; 0x59f0375e514fdb46; 0x7a263d5086e555e; 0x1394470119ad4e59; 0x655952fb552fa6b8; 0x3e7eaaef0d475f49; 0x6c219ad5d32b770c; 0x23eae1cbaf21c167; 0x4195d9b6a1309c1f; 0x7efa4a4937356144; 0x7738505a0594bb2d; 0x794b3ba43940dcdd; 0x2493961bd0389327; 0x67fd87ee30445199; 0x15a80eba08bba509; 0x5062e7a103bd6d8; 0x5ee89e53bd705b4; 0x64fd777373235b0a; 0x72411277549446eb; 0x403d0f4715617d18; 0x77c03794f61d0452; 0x2f6ac159d119abf9; 0x1efb4e1d5474dec4; 0x7467cf1d2c4e0221; 0x51ea8fe95f8ebab7; 0x22cada4cb5a6d42; 0x34ecbc3ea683470b; 0x77e19920b7624a49; 0x2178ec09dabe5f50; 0x217da6b47a928869; 0x53c4ca48fef2a461; 0x1976fea7c3720e3b; 0x329e65eff4235c4a; 0x164516e75b63baf2; 0x65f004d6c4df730a; 0x92d83c7486518bb; 0x1355ac6ad5f878e; 0x1147e00149e129d0; 0x62aa75e54c50405f; 0x4281068640f7374f; 0x42f095f419e80750; 0x3c8195f826e54f9d; 0x3805b908e040c601; 0x630ed98d3e35442d; 0x5d51f49790603b74; 0x1dd8f4236f0bfb29; 0x540abf0c0587b234; 0x1bf256764554970d; 0x65c11fd7ce3cc750; 0x2996a8e75a8c72d3; 0x6db7d580600bee17; 0x7b867bbe6e6fd444; 0x7edf03ddfd1affba; 0x766e2e144e94c7fc; 0x62fdf14f6d64e171; 0xea6cb464cd3d5a1; 0x5b77a28984687ee2; 0x12051934a56d285c; 0x7bf34f8aad890dd2; 0x4d4f35a4ad3f549; 0x404f270301fcf508; 0x48653d94f1d2b40; 0x3778f23591e6f1a5; 0x36b19dc8aa91aff4; 0x666a2bb8d6372b04; 0x2096379e0cc40d3e; 0x31bdcd58a5d3ffa0; 0x4f7238e7fa3d79d9; 0x677c400ca7420a85; 0x37aab526c4c35c5d; 0x22f0af45b8a4d541; 0x36da64994a69bc1a; 0x3f61773db7f6be65; 0x15c8801a11ff2fda; 0x30aa58d641c4f55e; 0x35056f933f2e739b; 0x6bda61a04f0f73b4; 0x31e9f24676675586; 0x20f39c43cb812a04; 0x33f74e24dca0b482; 0x46780f425532e3c0; 0x28a4f375e74ddb5f; 0x2cf59d76a36abaf; 0x3ee9065528bbc426; 0x771bfff3f54b4ee3; 0x72d1cd040dd9b00d; 0x276d6bf7117d0187; 0x75d35c29625480c6; 0x37e227be2ee27100; 0x2a7efd0a82b9264e; 0x6eebb207b888df18; 0x1e1ff99f8067ff9e; 0x3cfc0ff30ccfcf0; 0x1fe7ff9fffe7fe18; 0x4c30ccccc303cfc3; 0x1e67];
   [0x2894697670ebd4ed; 0x73db79ee69a4fc14; 0x60b2888067504149; 0x3d59cbab8af4cd47; 0x1c9ad5c57106807c; 0x23ad7ffbad4653be; 0x4219d84a371e62a5; 0x65b38d53fb82c566; 0x4ef6c097f5c4bfc2; 0x2aa9c3f86d3e0cd3; 0x19df57c437e78c15; 0x520274f78705485; 0x3965b34f86b894f; 0x7aabd7846ca9c54b; 0x558ed281df277a6e; 0x137208b1d2a65cdb; 0x31c4500b415ec86b; 0x356e5af88283cfa3; 0x5dcb6a7e4b3c34b5; 0x32eb5e1639a43759; 0x6aff8e51c86e5332; 0x4ed09a41ca690c2; 0x38b9e1e6ca2937b9; 0x15bd93136e2d0a6f; 0x14c0bf6f1c1ee221; 0x191ea285df54720a; 0x41d352f270b0c2d; 0x433a631be562ca2f; 0x65df8ef0e43d39a5; 0x300a24c7ce06f380; 0x2df0fce0c5a504b; 0x3142421e845900bb; 0x57dc9e7d3f62cac3; 0x78f312284d423540; 0x6f8748c7e3815c35; 0x33db842db6c95333; 0x10a7e7aae88a28d6; 0x76213353313120e8; 0x55a07d3d8a797a1d; 0x6a780b537d0d405d; 0x5f152d0796603669; 0x122c76014bc326c8; 0x745d8f36e2c0d321; 0x25c9bf95ebb7803c; 0x243728e5d2dd9661; 0x63e8b871612c9aa6; 0x6f10150b36f9fdc4; 0x9c06285733ffab; 0x557323b42ab43755; 0x2436b2e90429a795; 0x61c2cf69a69b44; 0x375541fc0570c8d6; 0x5ac67e579e3b1acd; 0x1a9e794c948e07b8; 0x112d270f2bece4bd; 0x25443b91bc95e68a; 0x63bf30a802779bf1; 0x7121dd3bdeede8d1; 0x67dd0bb3e7b18d56; 0x3d8870c4f38a0dcd; 0x278fda5f7da44a34; 0x260a69daafc4d00a; 0x7532b82c65e87203; 0xffa3381c4e01759; 0x48a840d1c36d8136; 0x21dde3adeeace1aa; 0x4429cdbb19982e95; 0x6c06842e537034a1; 0x6bfc391174cfc6b1; 0xcf6efa9ad89d534; 0xb21b91771ba5244; 0x2d753bcd80c0b79f; 0x263f87b9ac67671a; 0x5890a3c418cd4613; 0x1a0f1808e97dcb07; 0x116fa1e7b342b5e6; 0x792d7791adbb25f1; 0x3be4c2da2237d7d4; 0x1baf593a831ba85f; 0x6dece9ab07466d31; 0x2517cb7dd1082434; 0x73ebc269e517d59b; 0x2b4c8b1dca33df12; 0x46d364fcfc6def6d; 0x1d35face2bce219f; 0x6e34f4908afbeae3; 0x1f45b99362d803d3; 0x424d369a383c0188; 0x5618b1eef4a06ad7; 0x213d96f5789cea15; 0x2d357bec694a3efb; 0x3649013cea56de37; 0x49465d083832864c; 0x17fe73dc3ed471d6; 0x571fa9a99fe86d44; 0x634f8b4b5498dbd2; 0x145f73bc6d7a30e; 0x109165df40fae98f; 0x3075841d53f03246; 0x3720642725468911; 0x4e1fa9ee3378daaa; 0x26f543e52363e54e; 0x7cf918b5b319372; 0xceb30f649384271; 0x73097efcca8e17e4; 0x4100ce48ac225a5e; 0x69d987dd6b0bcab3; 0x26c3586da6942363; 0x31066b39b59f4f78; 0x6175b16d49f2d605; 0x5c8b5a9471288745; 0x786537ee51f6db37; 0xd9e2b5c04cb4c43; 0xfa34829b639ae89; 0x1316f5c4cd33b35e; 0x7f487230f922d2be; 0x7858724c216b22ce; 0x50129f5d47e192f5; 0x747a327c14cac93e; 0x33be282a84d1b2dd; 0x1267e02b6e6a9f0e; 0x1bdec248fa04b44f; 0xadaaa39aea2f656; 0x164c063fc6cf1213; 0x7639ae7800811393; 0x2feeb6591041cede; 0x16ca21fd6c7f29cb; 0x2caf5ae2b142a2ce; 0x726b83f81649830b; 0x783ceba0b7c54ea8; 0x7d94fbbe4e068a15; 0x43f32aeefcbfc812; 0x619f7054d0b1f19e; 0x6133f4760367b4f3; 0x3c1594456e54c1d0; 0x96544f28f10bb48; 0x626f3077d6eaf9f2; 0x4c7998414405b420; 0x39b5ddad0853fbf9; 0x48e1032046d5d1e9; 0x22bcae9afe35e42d; 0x652ae8b4d9c710a3; 0x7e22ca8dd2af1582; 0x4f97f9761d6b5ef3; 0x3581fcb1c6415b48; 0x609b8bfaa6c0e15a; 0x57a6a355ecb17b71; 0x17da1010ec6d9183; 0x42224aedbcca2298; 0x623781148f572ecf; 0x260377b81da49317; 0x7ded283c42470ef4; 0x6c38e6b3bac5fb97; 0x47b6b752a8ee3fec; 0x2f30dda26023637a; 0x3a7adc22769db8a9; 0x2145fc79381d0969; 0x1783cf0ec2d563ba; 0x606bd90cfcc954f5; 0x33d066824fdceb86; 0x6e839e0a0ba0e574; 0x5b035b2419f12cc5; 0x25252819aeb34984; 0x8a296661b999d6e; 0x34b6030f5b17c262; 0xf1c15993fd5e13f; 0x7c7b4fcaed874728; 0x648f0d69ba770b47; 0x38e9eeb3f876291c; 0x5b71436266df6d22; 0x5784f88464336f1a; 0x3be5bb296d070ad2; 0x27bf6dad96109b7; 0x7506680238761f8c; 0x3bf63f1f4665e051; 0x51b8299397f0a5a8; 0x7b5adf6b37666498; 0x7c1eae70a66beefe; 0x18654e0154d897e4; 0x696672438fd96918; 0x525fe17a1ff33736; 0x37aaf6a2cd66e5e0; 0x42a9a5669d256fee; 0x63085fe8bceba5c9; 0x7971d5e3b442db20; 0x7c126a10fffc6af4; 0x1c0f2834b588b4b6; 0x52a9e0ad28c0b1f9; 0x12f6f5977c138b4b; 0x511ef9b7413bd479; 0xb64e957e7f62f1e; 0x51575a98af8f5fc1; 0x76f119292b731f8a; 0x49034f66233a79d4; 0xb47e5ed74c67e88; 0x2309dcf32b445c4b; 0xd873c1cd1620d72; 0x5bc3bce44c2a69b6; 0x4c7ae2a39bf4f337; 0x712e65dac7f59012; 0x4663dff748a458e8; 0x523bfa217db58cb8; 0x2982c30dcdc73f0f; 0x4b1cea57c89ebe89; 0x734012febce60d3f; 0x2ffe645dbc9b1484; 0x48b3440893c845e2; 0x664900765ba1eafb; 0x300aff70398adcbe; 0x7e6269ae549930f0; 0x1a25e587c64b8882; 0x766985a31c673960; 0x422efd8ecae076a1; 0x156e0f545febf8da; 0x6b1bfb64441fd389; 0x7565472a660659f4; 0x59c93a3767220a26; 0x1e5f4377dd4b6947; 0x13fcd72fcd3f04a7; 0x930bb0c428ffce2; 0x3dff565f399e9a95; 0x20b7f7908046ac13; 0x661b1617e3eda690; 0x3b90639d2548aa95; 0x6e14b91fea7e973b; 0x6ad86cee8a916328; 0x1a4a5fd555e917b6; 0x7841611c329f3f05; 0x2a0d18b91560a1a7; 0x79166eae92e08417; 0x4c9f8bb002012c8b; 0x5fd6901fa0181aa7; 0x77259aef5e94d125; 0x1b3cb8b90672da34; 0x657b683013c926a3; 0x1b0bfc3390e65c2f; 0x202b2da2bb5c9b02; 0x3113feedadeb4293; 0x36b75529d9ed1ef6; 0x6fc67ec7804a20cc; 0xbd00b7edaf1c73c; 0x12dbd60bfaba7c29; 0x2928779192e404a5; 0x29e301d8da518833; 0x4471b2a3f4846c06; 0x5d8902101b9e0105; 0x4d875451c8b6ed35; 0x1d68b0b6c9db724f; 0x62bc3c69e6d25d1; 0x7f72db2534472279; 0x7a53d7918eb33b60; 0xe2fa978f82103f9; 0x84162331fd3d84a; 0x68766b83a1912435; 0x3638017fc591bf9f; 0x3590b20c6305d304; 0x3d23ddea57fb86b2; 0x22e6695c3dfbac75; 0x6f763febc67a0844; 0x25613fdd3192af53; 0x2a932a18f5af79f1; 0x1a7c46242745290a; 0x16c44d57c6130243; 0x3d842c2f2119cf76; 0xcc3fa9c00ba17e; 0x77dafb1727b68f96; 0x367f9168b7bdbe80; 0x4f2306351f2c9196; 0x3513a234cd77afe7; 0x1715048c02a5349c; 0x7700ddeb449e0a6c; 0x14e117ae451196d; 0x14949cd8c4fea4ba; 0x51a76b73af2633b1; 0x61a0666b8614a7d9; 0x161091c0065d3b5c; 0x1046bd8ec46e1118; 0x11488469e49fafaa; 0x725dfa23e92875d8; 0x17771b92c9c0560f; 0x6bda0d03d3b4e0e2; 0x2a5feb6c1966d530; 0x34680b2b5bb13ef5; 0x4f205664922ac1e1; 0xffe2a82febe34ea; 0x164a15377595741c; 0x7f3781d8559a353f; 0x4e14197e6ec97d98; 0x8dbd6f2ce89a04b; 0x66d0f4bcf59201d6; 0x44a3216c3f167498; 0x61bb8c8c01510d5a; 0x1bd61753a74326b4; 0x15a436ece6a70e2; 0x545028a2a81c84e1; 0x7e4de1c4cd4214f7; 0x75ffe8d923d4031; 0x52a5aa44f64108df; 0x639694c0c9c4f9f6; 0x2bd51a2957ce707e; 0x3f2e72a0d4c2be8c; 0x34109ad0880c6132; 0x2c216a9a450bde01; 0xedd2382de27c72f; 0x30a8b4c3e550c886; 0x1e7be7b0fa1e5946; 0x57811dbe733c7d24; 0x27316122effea12b; 0x421efb392810adea; 0x24f079f9f7b49475; 0x236109a6829248e; 0x5f96aa97be617040; 0x4378ec23367e5596; 0x78187fe199867e6c; 0x733333fcf3cffc0c; 0x61e6067fff806607; 0x430300fc3ffffc30; 0x1f819];
   [0x5762caaa4c7b3e80; 0x4ac4efd40ba5cef7; 0x6661473c2b2e8968; 0x71a5d0e276909385; 0x44a8b732169a0b3d; 0x4f7ab3d521d9f73e; 0x1ccfa1bd2d9fc302; 0x34fd90cedd51a0e2; 0x2c11b19f6cf766a5; 0x17c8bdaf6df5d3ad; 0x67f7e11a19b1b62a; 0x426237c2515a438d; 0x315522af2bc76888; 0x2f27cb87941553e8; 0x6905c37dbd35af93; 0x7b7bbafee9e5f767; 0x51fc52a6d8d6f50f; 0x3f7b7b6c5eddffc7; 0x687caeb9d7a67444; 0x96e0874a59907f0; 0x69077129c908efac; 0x73c0e7ee86ce941f; 0x6835a716ab3db9df; 0x6312e005ef9f8171; 0x67c9d3a3ccab1bb5; 0x6501284e3c88cea4; 0x1785330dd98a78b5; 0x7ed79d26eca0c3c9; 0x52ab2c3a1ebcc92f; 0x735e425b515b3592; 0x7eb53e76a45b3096; 0x173db15807cdba22; 0x348779c3b69c3d37; 0x3a34d64769e78727; 0x51f02383354ab592; 0x3cbddeb1b492c37a; 0x65ad754bff6c0792; 0x2d06816f7599b5b7; 0x2273a8630a78821d; 0x5982e2746a85b7d5; 0x5edb7f583f2a860c; 0x150085779920177f; 0x23d718f7343069e0; 0x672854034650ccbf; 0x71d81fc9f2519141; 0x29bf1d003efca22c; 0x2958e6dbda0240c7; 0x2c9dcaa4c046a152; 0x1668ec7ee22bafa9; 0x4292967d35b8508a; 0x3f96e5f50ffdde6d; 0x7f91e057893e8f84; 0x7123848eef0a6a88; 0x74655cc703cc47b3; 0xa57441cdabe922c; 0x3a9260b8a9a7c4ba; 0x2450b195b68c837b; 0x1b48defce3c59b07; 0x1025f8bf0b69496b; 0x10498ed99bd32a16; 0x3d1b82f6e4a2c0ae; 0x70d6ba56eda185d5; 0x22376d15a207c445; 0xd922dcd0fcfcbf7; 0x616ad17a729c19e3; 0x1af1aa819e88b22b; 0x27a88525c3b931c4; 0x24368c32357988db; 0x2ac89f231012dd06; 0x793cc0e73490cfdd; 0xeffc67c5e1284da; 0x4fcf56b7238c4c74; 0x61b433fe3679a3e5; 0x4f91357ff4014613; 0x21ac6f67c8753d3; 0x28efeb5b52436e4e; 0x651146e7f7d0ad2a; 0x7bda479936f3b1dc; 0x1c6932696f2ae551; 0x3a311f403269f2db; 0x18b016923521d776; 0x45b575c9bbcf90ed; 0x5e92a65bcfe069a5; 0x76f65ff706f061d; 0x26e3b0f9b2b6d1a3; 0xfed1f9fdb2d5764; 0x6c98cf3f6d46e18d; 0x5fc95bbedd4a08d6; 0x1a8626294b4183fb; 0x56a7cd8c908e317; 0x54b25ffb48538017; 0x6a3ecd380039dbd; 0x6e8e98f51d51d424; 0x70218a6804382301; 0x6879593b1309d61f; 0x1350787c2af9313a; 0x4c222d5ff2c8fbc2; 0x473b1f6589b5b0fa; 0x21be3eefef918ce6; 0x6d063a0d5e4732ac; 0x12425150d151e24d; 0x22171dea6f32de98; 0x639f757fd4b2f72f; 0x35af724799528f45; 0x4a8f8b595fc244b4; 0x2e3f93738b42c389; 0x15af970f5e52e8e1; 0x60038bceb8245bbc; 0x759729096de55a9; 0x2fee65d7710171e1; 0x50d6605a6ff83441; 0x60e84b776676d0d7; 0x13b29d5ac0694d1b; 0x6bcc9a27a4c53935; 0x32dc3f0cd0929e98; 0x61ab0d95875d44e9; 0x6aaf56ad510f4cc8; 0x55e4c4b3444826d5; 0x7538eeb7fce5df46; 0x571d25fb0500d8a4; 0x6b9fc62cce5608ed; 0x6c19af4eb172727b; 0x6c185885144dae35; 0x5102ef16da24e211; 0x20898dadc6ec8397; 0x3251376f54367995; 0x27caea7c71970025; 0x236d6d4e719dc04b; 0x79e7cb0ab13fac9d; 0x4365dfeee726cdd1; 0x186e74bd1ac9551e; 0x3bc66116368db15f; 0x7e5b1d573ad92d14; 0x4b0be647f9bfbe01; 0x3fcc5ade3bad13c1; 0x7b9d02ec012b51d1; 0x70e3da5218159526; 0x4ccf66a7860941d0; 0x7885a49ff6bbab1c; 0x61601c4824e8f085; 0x16abec953dcb8c4d; 0x40eb605ec5066991; 0x1bf8c85201d23b85; 0x5304bd7b397f4fc8; 0x51dd120001a8a90a; 0x5b03d7934519288a; 0x7e56a02bf73f1e9e; 0x48d3202b7f2a3161; 0x16937345dc69e163; 0x17a18792f6fa4088; 0x682797dcbb2ba69e; 0x33b97089b6a0fb8b; 0x6b491d8e129d0fc4; 0x627e9b4b6a9f11c1; 0x799cc5ee2dbec023; 0x2d6cc683f5f52bce; 0x6f5fc2c5e86ef7a1; 0x3494f1c4b2cc3970; 0x1b799df2789417f7; 0x2a87783a7a345492; 0x1a867b47f47425bf; 0x2787247c888bf805; 0xe897076a8ec8b95; 0x2b26de44c63d706c; 0x78a03f267e20db2d; 0x5721bd15bb825867; 0x2a0339b0c7b28a16; 0x166768e3cc0dc3fa; 0x591524aa900edb22; 0x4b6f46802443eff3; 0x32fda1697fb8cac5; 0x626cfd90a23bf926; 0x3f9b7bdf3e1c7936; 0x71d0059a67463881; 0x6992cbf9760999e5; 0x6ccef830b5e5c53; 0x625214784e3b85a6; 0x7f282b5bce40cf5d; 0x3845cef903c4b972; 0x27b11ea98957b660; 0x7b3a0bc8c555dd73; 0x50ac21683d8f76c; 0x65471d89ea704834; 0x1f1d9ad98d4494c2; 0x3fdd1da8b50233e5; 0x767cd35dada70d7a; 0x32a14361755fb8cb; 0x5d24912d909e0ae; 0x32762de94f198aa0; 0x3a40540643c721ea; 0x38a700b5eb4f3e3f; 0x25c78e3ec357f2f; 0x5b7e893e4f5d0c34; 0x2876205cccc4bc5e; 0x7d8caf1ea1c436b0; 0xadd0b3f5eb212cc; 0x34826be4d4fc7b3b; 0x711e3d4fd55e42e0; 0x5145347f0b242422; 0x244e76b8582b52; 0x20fcf211f2e94ff2; 0x416c1128eed01319; 0x4576a6dbf2ed9a19; 0x6d72eac40ca90336; 0x2fc4e9b0e2465ea; 0x56c54c04d1cf6e94; 0x3354bbf9f8b9e2d2; 0x479d20bcac1cbe17; 0x462f6719e86e74e4; 0x4c0d9944ed83427; 0x39ad15d5420d9b04; 0x547f7d254aa939bf; 0x1880241559546f08; 0x6c1352ac62db706; 0x5f059a13bf4b94c9; 0x3509a6a4f5b154fd; 0x64b601bf45e7baa1; 0x7c720db70a2af31f; 0x1360c1faf7c4c297; 0x17d916c68e55375d; 0x6004fe70df0c6dee; 0x4a97ea6a734b7b16; 0x62582bd9d984ce07; 0x7d2af319f5489e55; 0x5e4ae2d455586202; 0x44b53e23f3f78d64; 0x548b54fb2f2bc6e2; 0x636da49764bdd0a6; 0x38e1d704d8d252a9; 0x31b87e4fd4a84ecb; 0xda85fca5889f207; 0x64c74cb1823eba58; 0x17291f0d4d869920; 0x18b8fc0500a9f5f; 0x7191982e3ce03d56; 0x44b70cb881a7c72b; 0x441c47628263e535; 0x4e591bf6e32cc9ef; 0x20b097692a5732fe; 0x3e99804b92b6a89b; 0x7fe4890e2a8c01e9; 0x75ee3886c5cc0ec5; 0x1a796b96cc204df2; 0x25b51297f3152c79; 0x7c7022e4c9aff373; 0x6839f2b6eb3e575f; 0x5be17bc5f4969ff2; 0x11bf94a2577100d7; 0xa9c30ae6beb50e7; 0x38296e33fa5de67f; 0x7271dc402a9dd647; 0x4925e8e8b6bd5926; 0x3f5f8e45474b9616; 0x6ae7ff7103fff9a2; 0x26371d4eaf42d045; 0x9ff93ccf5d7da2b; 0x4a0fbbe7b38ca34b; 0x75a196dd0b74a62b; 0x860bae22ec4b9f; 0x4ee115aa575e7344; 0x65f407d68288b42d; 0x6ee298ecdb4ab6d3; 0x20cd6687803701d5; 0x6ab63a37235134b8; 0x78308fd5808d2ee6; 0x2c80b2c93fe93a53; 0x457bf07a83c2e02; 0x76c5ed58c89376b; 0x511c9918a861e13c; 0x5368a0fbbdd97ebb; 0x46eeb06e4142e806; 0x73a3d3487140b45c; 0x35ccd410e3f9bb02; 0x4f00f02c3468431c; 0x2c0cac6232ef37ac; 0x6e4d52e27e040111; 0x6a2007ce694a89b7; 0x75ff738ad86b3eb9; 0x32fee2b394e30df5; 0x116b6fb70fa405e3; 0x72f5cd46b716c484; 0x64a58b65cf61750b; 0xabf48c307dc8885; 0x7d27722cb1e119dc; 0x67be7aab06fb48d1; 0x42fbf3619ec14d3b; 0x20608e18aa4033f; 0x46e83bc40a88fe9d; 0xf53b4fa87b2f134; 0x408a2a776119cf55; 0xdbe3ae011eb6d11; 0x3d351698a9973c49; 0x509d226015765e32; 0x7ced5544e2087463; 0x2095a1003dc330e1; 0x77ab6a187feb41a0; 0x6c11415fd562cb17; 0x335170495359a341; 0x6aab4a8bee9c027e; 0x1f080dee715462fb; 0x5bbffac9c6a7d85e; 0x6e43e6e47130a306; 0x19b55669a0203c06; 0x7c2d34c988f3e43a; 0x33b9fdec2827d6d7; 0x34c06620ff7ec341; 0x6eb063a410740b; 0x63792bdedbea4f5e; 0x180924fdbf5a8cac; 0x64695beb63b3853; 0x372882b318ff74d5; 0x70318254dac99d55; 0x6b3c72eb3b64063c; 0x7987e679e1f9e0ea; 0x7303f30cfffc033f; 0x6066061f9e1fe187; 0xc33c0cfc0f000c3; 0x19ff80];
   [0x26784acf913a17d2; 0x5baae0afb0a5cbb0; 0x6fc532667601d94; 0x2413a8fac8c317a3; 0x56e7c442d5e936e0; 0x40a420276d0caae7; 0x42687256c4ecf993; 0x1a8dad06ed8695fa; 0x648f9cc673d2c0e9; 0x53f474687d763d11; 0x38a40f6e87f0442b; 0x3e7deb0f566c518f; 0x6f499c41eb4d3df5; 0x18b5c05b616dc70f; 0x1bbdf5227d810f0d; 0x750e8f44785ff5bb; 0x196a09a1431aa329; 0x1afcf705a1b5c28; 0x10adde3d1476b584; 0x1369d60bf6c45df0; 0x1472301239892d9d; 0x7745e4ffd1f90bb9; 0x28f7b97e50dea11b; 0x6095fd7bb5d44b7d; 0x4f172159531e9ea; 0x3b66ad2db743a019; 0x43f6cf99d817e51b; 0x70d7ea214e729f7c; 0x7a79d5e137a9898f; 0xe0a6dde42a41dc8; 0x44e73baea4d29a91; 0x37e92c86caf9e6d; 0x28c4b6258e88778d; 0x1e333a6a1583a7b8; 0x6d9e88459cf75941; 0x3dfb25e6b94fb8fb; 0x2a3cfbe5e6bf2627; 0xe77bed5796faae6; 0x4e79ecdd8e6d114; 0x552a4ad44dc8be1f; 0x2cfc689abc4ac9d1; 0x6f3939e44c53510; 0x6a207ce991be779b; 0x1e2d8d10e923254c; 0x88cc92ccda1acf; 0x1fec2852d3b51fab; 0x2e1c869cb29a749b; 0xf18d0c75feb617a; 0x273d10823139f91c; 0x592afe8db13e8e98; 0x7ff184db0d5e7c1; 0x568367ce7796a4f2; 0x7cd77337c272e166; 0x76a6a4253fc8596a; 0x2723b9933bb63aa6; 0x7668170f3e6d0fb3; 0x570dfe94cb2119ca; 0x12ef76981e039ebb; 0x2c7edd79c76b6fe1; 0x1c55cbfd7e4bdd22; 0x69d9e34315cf7faf; 0x2bfb680030aea318; 0x96840eaa185923c; 0x53742e069d5a35df; 0x72d7bc36580a489a; 0x2fdbb58f30dd676d; 0x16c9a232a7c1743; 0x3fb27cede67f0b84; 0x213d1a46f4c18d16; 0xb3015981c5a1f8c; 0x47fffa0c48ae25ed; 0x407b58f08a57cfc0; 0x6a9c0a11f8e7eddc; 0x6f89d6e5f2061912; 0xdf3e4ae997cafdd; 0x65d5792ef4276da3; 0x32e974209a5c1e7e; 0x2d06646d0cf5d8bf; 0x2838572fa146c09a; 0x49a6b9d7284aeaf3; 0x52e50c6f303171b1; 0x6ed7f10414143593; 0x71911874f503b313; 0x455ed636d5b2ef64; 0x6385cc5d4d2cddec; 0x643fcb4924011705; 0x6aad69d0c832643c; 0x51e91391f3a4ee89; 0x7621aaeceb385659; 0x3b2a449cea3ecb60; 0x5273813dc3c0c072; 0x6e15c53a987968ae; 0x4ea26f2df2127b2f; 0x104fa5a851fb7213; 0x821d6ee058e4b78; 0x4d6056ffc03b1fda; 0x1918ab3e42050ff; 0x3612a5f34b74e975; 0x6328384fe7929561; 0x6fe4f5ba2f538a24; 0x6ee56f12412fdada; 0x65de993ac4643b03; 0x71952476f18e4881; 0x2fe96768b19a8fa1; 0x3350ff6f8cb8bccf; 0x59d0d6e7a928a9bd; 0x756d8fe952786a93; 0x54515321af42c1b6; 0x5e1a95bda6a6188b; 0x362fc94128ef969b; 0x11ba9d2368f00b8c; 0x2ac41e9a2fedbe56; 0x6b8ec4b564cae5cc; 0x1146b7326f1078ad; 0x53e5dc314ad38d50; 0x3152120709b2764a; 0x20031f40cc914e6e; 0x2a3573916a6ec882; 0x3b0b2bb763085d61; 0x249c520b7ef48366; 0x537e4f8bf13412ec; 0xff1f99b924c8adc; 0x246da13dcbd305dc; 0x293abf3d827d8c70; 0x75157e638045a9ea; 0x33366b80064f5940; 0x6d685b38f3b310; 0xf0024cbf7c34f98; 0x2d67fe7b7a2d1146; 0x3accb59039f1c597; 0x3d3d75b462330b4b; 0x1fe451aee56c338a; 0x71a0f1be73d4c8c2; 0x19221cecd48ad4d3; 0x12267ba6f6faada3; 0xc049440126bf2b1; 0x33de88e1642a41e1; 0x1719c06e8e02212a; 0x1ea35751cc98dcf7; 0x4b4dda0172c5580b; 0x77059b8ccfa80073; 0x468a799630283b90; 0x6af22da2ff3e71b6; 0x63acdc8fd8a62ab1; 0x4aa416157e29a685; 0x5c6a209cbf443a69; 0x31a9ab5c0b9c28a1; 0x259e567e1053cd92; 0x6e35f4b4bbff8db4; 0x3136ea619fbd3a95; 0x19bed02886c704f3; 0x75971238ddb9d9df; 0x14973841403daec7; 0x1231ab5e49848051; 0x53c0c41dbfdd250b; 0x10ef2b1799eafaeb; 0x2611dbc2917d6a2a; 0x2d111a96bcf33573; 0x488574d54245cca0; 0x17a929d08b6e7e91; 0x4b1d591d469f2b6f; 0x423268ddb44678ad; 0x2c6d2551ac889707; 0x1c33bf7d47c1924e; 0x7a8c383fee611855; 0x553cc4be3d5a0fbb; 0x1916aa40f62fabe4; 0x652e411862cd1ee0; 0xbb384af957846a5; 0x3f3b946ba67c5f46; 0x6bccd2e004356463; 0x617722482f8ff142; 0x3b78f069d9252e05; 0x3bf7d5da7c62ed35; 0x23d4c0b78e7e743e; 0x180b6ec44d73ae2c; 0x2e033aa1496fbfaa; 0x52b6b2d3cfa84760; 0x26177a01f805ff57; 0x1ae34916e8c4094; 0x347171c0d7906672; 0x356e7701cc417f20; 0xdd434f064d5b70f; 0x124ba800b256868e; 0x335a5338826ca965; 0x19b96cfe04fc5151; 0x192b67bc84889a5c; 0x50722ae6a0502f7a; 0x6a7e4ad22b011440; 0x1fa9271ff0aca5f9; 0x2673b427c296973; 0x3531f21555f78e84; 0x6ada2ec1f75a8a99; 0x5093fda3af1e922b; 0x2003931e5eb3d79c; 0x59e50f067c2f0bc7; 0x1d9215f9b25d8d04; 0x7c39bb51bc213c79; 0x55743181540b0fa3; 0x7f6abdcfc46068e2; 0x313c2aef20b59971; 0x53b607a4939a4af9; 0x7547baf9f2528731; 0xcf61126df1ab119; 0x47e0f91e3d8663b6; 0x2fae809620923287; 0x2226b1936a6c0d0a; 0x45eeb556fec11380; 0xdf0f57cde37e7ac; 0x626004a421343a9d; 0x641651a186ab4d98; 0x6a4f04afdcaa26d; 0x439e860f8201383b; 0x635389fd80030009; 0x54e4bdb87c8a2980; 0x4a048712e25da03f; 0x7a299b491e1a95ec; 0xd163a979610c1ac; 0x4469d0f602eb78d0; 0x56c44fa6b40fcb70; 0x3e316f0b638059bd; 0x6910a2b5c5ba0427; 0x6755b2088867bbb3; 0x41fb4ba2a8528f5a; 0x6e1dbbc5ebf46dd8; 0x6ff4a1924c851a36; 0x2052a5c89adb9905; 0x48b61064171b432c; 0x1ce8f69b5c591395; 0x1d1fd6e218b7a11f; 0x107b245968061636; 0x4606f087bad132ab; 0x78c44dd58d7060ec; 0x5b5ec6fba1afd343; 0x66309340314b620a; 0x668399ab262856dc; 0x41942128118bea84; 0x3806492aa9420d59; 0x5840b26b850fceda; 0x2521a2e488f36c9; 0x7aa671b379d343b; 0x7211686252edff20; 0x695f945c70b1289; 0x73cfc9a4ec9f441d; 0x3db7a552aaefe482; 0xd4cad035a843737; 0x40186149443f5a9b; 0x421b0d0758dfdf0c; 0x295fd5a061fdeaf9; 0x10e9fc752b2bf758; 0x3adf48f8470c631e; 0x4ff6abdac1a22f33; 0x7955804caa1fe667; 0x3cb811aeda7963e2; 0x2508760c46a4d330; 0x5fe9bd6605d4e01d; 0x45c04b64f704dd61; 0x29d064a8dc57a40e; 0x2981a84883b46efc; 0x14258fad4471d1db; 0xd3bb36205b48c3e; 0x12526d99a44f66b; 0x2c6d1923e8d06ff1; 0x4ff65e09ad43efc4; 0x5e62de50444868c5; 0x1d5092d50fbce2bb; 0x626b0038170d022f; 0x145b2b68844de598; 0x9c3bf3b5c62fada; 0x2fd1cf7ffc74f456; 0x3edd494d095663ce; 0x76e6adb7b237414a; 0x7c8565da5e0211a2; 0x35c5c69f523ebab8; 0x35e33edccde60207; 0x4e0360bf5aa83394; 0x2b51e157948418ea; 0x46a3ba18f5a61ee5; 0x6bc25afc74861ec3; 0x5fe8ea4ede806c15; 0x1d7183196bb8b1d9; 0x17c30322454e338d; 0x7acc4c565b356855; 0x51d76dfd68252147; 0x101c5d0ac7bc8537; 0x2a3cd16d8ec5ef06; 0x6f2612d16961fb; 0x6a2f8e48413bb539; 0x2a50597b5789cfc8; 0x13fb9720401e26d2; 0x4309bfa292d40793; 0x74f6fcae62c0829b; 0xc85cc621ddd7933; 0x3505841af8cc61eb; 0x26486fd0c5d50946; 0x10995e4028afe1e; 0x3e23bb2568cd2f12; 0x1adccff5db96af72; 0x4f545a25c1351d61; 0x5700acd896d796b3; 0x435f5933f7754c06; 0x1734b63a00a59616; 0x1c2b9f713d3c7693; 0x24671b3a898ae224; 0x45064822d2c267cc; 0x407bf1a5ba6f5355; 0x3d5c276c30d27b7c; 0x5a602792fe6b59ea; 0x5f0188f146a7f393; 0x193b9b617635e48c; 0x13d4e201df361bb8; 0x49cbe70b186f01f0; 0x3fcfcefd86c1790a; 0x6018618060619f20; 0x7c0030ccf3f0c003; 0x6019fff87ff861e1; 0x303cf03cf0fc0f; 0x1e0000];
   [0xa9fd9fc4bbd6cf4; 0x1ac6c54d3153eddc; 0x2246f30d6290662c; 0x2b58a0336b4ad804; 0x7a28e83bc5fc416a; 0x17b216746aec0bbb; 0x46cf7b77a1a2e06d; 0x621b3a595d778ec6; 0x494754857a467a6c; 0x27d198a0e22a4228; 0xda33f4b2c8639b8; 0x27fc04b4df8f7978; 0x773b727f8af3d199; 0x511852c4368bc929; 0x719386f3e812ceb1; 0x7195404b9dc7a5fd; 0x57e3909d9e82ba90; 0x245f73d68d170c44; 0x421ce13a48525cb0; 0xbd55310b9babe1d; 0x4f68fd74d1a134b; 0x7120dc7e550ed20a; 0x105375d5e575eb6e; 0x3c11a358af7ce123; 0x4beaa6596f6771fc; 0x12d4d260573ff374; 0x574acfeeba41f479; 0x868eac8ccf7e81; 0x7f3685ecc29d5420; 0x12dff9573e5890a6; 0x1b99981b45965f7; 0x3f6a0b86c1234c33; 0x39b9127d9a7e436f; 0x3caa605810b857f1; 0x6cc83abe78ebce65; 0x7931ea6dd8e27345; 0x44d7d7b305dd8959; 0x70a2718db215b1f1; 0x19f5dc1152a8c9b9; 0x9be5903844672c5; 0x4005f065670eabdf; 0x1b7674e595b70d9e; 0x28bd5d80707be729; 0x526858c67139e1a3; 0x7456c2162c9bbd91; 0x638211e1884ff52; 0x61fadddbc6164ac8; 0x5123e862ee4bbc04; 0x47e10c1db37450f4; 0x10b528c4485ec641; 0x3757c01f06ff6366; 0x48f576224f720724; 0x1f7bb83c017ed283; 0x478f68ab28f059a; 0x7be3077266f84ced; 0x710434459c789e68; 0x634dece913cc1fe8; 0x6dbd0e996fd8590f; 0x247a03cf2a05171b; 0x4f3534516bb85848; 0x6908d4462180542f; 0x2e34c716fcf2613e; 0x2619ed51608ccb1a; 0x6b42fbc940551f84; 0x6001935ada01a253; 0x76980074408496f8; 0x358b2372c902d820; 0x53932af77a7b4159; 0x14710b5638f3538d; 0x1a3ec69fd0d9b02a; 0x50e586d1f52cd460; 0x45402d1c64ee1786; 0x93d12d5e90600e5; 0x6e63c9d18543cbc2; 0x55fc0907773c3c1a; 0x5d9bcc5921518e0a; 0xfa35872ead432a4; 0x5d0785b354fa9ad3; 0x31e92a52ed3ba800; 0x5ddde3c18ba07e65; 0x4252e63351b8f86; 0x50509c8bc2ca8050; 0x11a94927eb6734e6; 0x56c095b7e9abed8; 0x4a127411697fb4bb; 0x3e45dfe8455f2e17; 0x63aa5311ba023b1d; 0x555e803da0cc920e; 0x4574c8e20c0cbcbc; 0x46f6e9113cd2ab8a; 0x403ffccf68c25b23; 0x36e6a224f9a2e4e0; 0x221228ec92e30d24; 0x98885ae2bd1bb85; 0x2af4bfd05a18cb20; 0x4dccf73ae6b0d30; 0x25a136f051800b67; 0x446770fcfec947fc; 0x7675ba5b83372505; 0x41307f7c64f28dbf; 0x1563aa9a21c145d6; 0xf1206cc65a5cdbc; 0x511d142f191dd708; 0x687364fec34e083; 0x6b3f7db04a78822e; 0x2bfadbeef4cf6d6d; 0x33facfa72c3febe5; 0x1f9484c084940dd3; 0x12ff2869c63435af; 0x4f20e5d2bac7137a; 0x11f3010ff53eae35; 0x62c16b1c6ddc7582; 0x2cf03cdc18cfae7; 0x23c97c8803201129; 0x69605dacace6e1b; 0x7337981b939f0fdd; 0x4b05474bf0060ff4; 0x47f3e60de188c81a; 0x2bb926c0ad9903e; 0x15f58e7bfa64b02e; 0x31ae9fd07c1ca7ac; 0x6945935d2a7617b8; 0x63788028f28169aa; 0x94ffa2a12368399; 0x2b2aa0d60e39c62c; 0x3d4a801efb4bf888; 0x27577e545094d50; 0x45791d7f9e43df40; 0x38f936635bbd0285; 0x463876ed9f8f151a; 0x1c27d68f635a0574; 0x4026b5d050d2ebae; 0x3bd20e2533c405a1; 0x4d138836ecf5dd76; 0x105296190a8e3e52; 0xe12844d8e86d88f; 0x37904c660ab6e45a; 0x2249bd1cb07b29e1; 0x497334c781604553; 0x794906d2e5ca9087; 0x4398be72daf8139; 0xb99dcf4e01f0e0c; 0x501d1dc68861bfb2; 0x119d1ea9ae847769; 0x18c48ad2d5efc9ef; 0x7d4c1fde419a1de6; 0x3d729fbb0678c838; 0x3959460c1f52f6cf; 0x6637ca283b3a4159; 0x6df26e050df70261; 0x730f8ce89154a7e5; 0x648a324e04f16f3f; 0x16e522638d775a4e; 0x27ee94c3181aeb5e; 0x6c77e502219fbc4b; 0x518441d9988b9a4b; 0x7709e56d0e2cf038; 0x4de6ae555bdff724; 0x881c68b920836a5; 0x18c6c1db7a45c80f; 0x17511805e5f35dc4; 0x62f77ac061d74ae5; 0xfb60f1d15021b56; 0x544efad6af9b1eef; 0x13efd68cc9f77516; 0x4f8db21ea7416f3c; 0x693b75554c81163d; 0x7e0f3a5dbd68f32e; 0x75f966e159100a53; 0x374124e1f2882be1; 0x4b990196581bff5a; 0x1d5b086bbb4382a1; 0x440ac8ff0ccd36f; 0x39167d692137186; 0x78f7eccef08adaa3; 0x6277ef5ab6a5bb93; 0x3310ea3a00d28f6; 0x579dc1ccc0474a99; 0x13444226113e5ba7; 0x10f2cf6ce5539cce; 0x3ac650ac63876252; 0x4bd413a3e50b337c; 0x72293a2b2dbd8700; 0x6747e929b86460eb; 0x5b11255719a85f9f; 0x6eefeb4cbf34042a; 0xb64eb2d41f65f40; 0x6bb41787d9fbda00; 0x1e80ffe6747c8ea6; 0x33cd102f36caccaa; 0x14e131bff6269e17; 0x4f5a7dde6a13db3; 0x770c57962bb3572c; 0x32760bdbe42705b2; 0x4ee91e7604b610d9; 0x79f953c814f6a546; 0x3e7baed493ae77d4; 0x6e2b8f9cc0d9c6f4; 0x7351b8c15b7f8052; 0xe500b48fa969182; 0x25b255b946286b67; 0x16148d1a35cb8844; 0x4333f2b2de880710; 0xdedfd966700c5f6; 0x52ce70d947e118e3; 0x48af3d7a0d743b4b; 0xeeb25115ea2fe1e; 0x48bf09977d4ff5ca; 0x7ac5fbbee4955b63; 0x6ba4078e00dcac04; 0x5635f730fe72b55a; 0x749b26321287cf2d; 0xb1aad0a117e54b0; 0x66d1655b78e6c00b; 0x171e77d242838f16; 0x73220a918e7e2c87; 0x749f596783005200; 0x121ba09034c74ebf; 0x5679378a3147da8b; 0x1461a246cd863351; 0x63b21c2001c40087; 0x3b9dfed9d258419f; 0x37d8faec50f1115a; 0x362aa533acc30958; 0x75a314f6d179b483; 0x73b5c90e474360d; 0x7b3cafc234c77970; 0x640e9b9a060ffeb9; 0x7e5e6612147aad6a; 0x27a27041e588416c; 0x2c0477aad77a26fd; 0x754565d166c2a668; 0xa79183a9458c8af; 0x5bd62f39926b9ae4; 0x411ffc654d7be2; 0x2be141763bd22dde; 0x111428b70799fc94; 0x481b56a492d94d1f; 0x5941d44bd7d924f3; 0xc625c039ee0c6cb; 0x750979f2e1d3dc50; 0x7b3a4622f608b7b8; 0x5f1c577ff7c9b07a; 0x5ce0aa1466bf1601; 0x23137706bc454e09; 0x17701ee91e9c22e5; 0x39bf3ad6c09b76eb; 0x3393e21828c75644; 0x37e3ff6857db8100; 0x736a009487870ab2; 0x7ef73dfcc8176fb9; 0x7c1cb71b14cd1a3f; 0x4356cdc9a1fc02bf; 0x3db38bd233890d5f; 0x1cd9a52a7b1c9883; 0x3aaebcb913a673bf; 0x4ec2acdedb4ef814; 0x4c009ceaf2b3e0a6; 0x26b64c2314c9f513; 0x2f030b25de73330f; 0x5d262a423d0b5f81; 0x630db9a80f93a9f; 0x301cbf56ae27d277; 0x2d1cd33d072df46e; 0x5ee14ed87300df6a; 0x8c5be69168c5e5d; 0x77f4f0f0f30ee8f; 0x6c60119e5b920c56; 0x665e36b1a01463ba; 0x15811da76f6e9b07; 0x398d2e5d9231c84a; 0x42658ef300b856d5; 0x4c5aef5d735393e3; 0x45abe9bb440e0005; 0x4cd6c53f1b9f6ca6; 0x36d579624cef5440; 0x12b72b680302750f; 0x7ae8e44ee449f096; 0x6660818c0a61a7ff; 0x54daccfde648c114; 0x111a215a5fa9b7c2; 0x20e91db6d8ca53f9; 0x327aff0826cf6dc6; 0x1705fa225acb03ab; 0x19f0a1c8997531bf; 0x9a087091fa8da3b; 0x7fd4af5a15555231; 0x26c43eae025cc4e2; 0x70e83f26616be77f; 0x1d17d0d6303022f0; 0x7a852d97c12d749d; 0xd279d4674ddcec; 0x5ebe42cbded27172; 0x219a16353a2d7c9b; 0x16063d9b2c3346b4; 0x3925da5519e1392b; 0x51a1b1f4ce24175d; 0x61e86d2d0988c3d8; 0x319a4438e87d06a1; 0x46eaf295adbf929; 0x46bf7b6e880694f2; 0x199c5a1af0ebfb39; 0x5d3b10de7a25db6c; 0x599e93bcd4322ac; 0x482ceb91f3226712; 0x6e2cb1a380522f45; 0x1ad7a2152b7612bd; 0x1ab4f49b002fd635; 0x1ce0d1d40a5db7f0; 0x461c8eb215cbf0fd; 0x2a6880b3b4ba8e; 0x458bfc975ef29f3d; 0x1d27e249158fdcec; 0x79f98019e0799833; 0x7003ffcfcf303f0c; 0x1819e7fe61e1f879; 0x433cf3fc03030c0f; 0x7fe67];
   [0x2ef5e82a415d2711; 0x584da0e03daa6cd5; 0x79288625c057b54b; 0x2f435729786dbee7; 0x3412c27b2209f47b; 0x37344c6ac1743717; 0x4dd9fff2e4b3d08c; 0x2c08f8dac89ba9d8; 0x7e929d48b0de3849; 0x7c76b7d6029d27a4; 0x49d61f20cc3080b7; 0x6d96dff536ee6235; 0xa9d6a38e8fd92ba; 0x766a073de75c6756; 0x420310daf99b7261; 0x790e22b96449d4fa; 0x77e7b07f2d657269; 0x666a4658cd0ab138; 0x5a1aaddea898220c; 0x32405427d71f204a; 0x325f2f799adb78d9; 0x45c6f791175b4d92; 0x6c75363c87629f75; 0x5adb24dca352f489; 0x53da43204c36e5db; 0x20dda2d0cb9b0c60; 0x4327607f4e640cf2; 0x69269137b5d1ffb0; 0x206aede8bdbb182d; 0x4d0c936cc5ded720; 0x4cc05ea184481e06; 0x6ed7f28ef18b47e9; 0x6c4d7d0a31a49f57; 0x5122aeb152f3feae; 0x33ccb9ba7782cf80; 0x4ce9f10b20a79297; 0x28f6fa57c69f6956; 0x17776f6083e0d210; 0x5eefe5d5345d7d9c; 0x18a2957ae45faf46; 0x41b3bde8d3790d55; 0x6bc97ecad6473092; 0x69fe5a5e37d19900; 0x74f4968de6dde21d; 0xaf24f15dae8c1b; 0x8335a9893487b78; 0x4394a5943a75b626; 0x616d31c9c1f7fc29; 0x4ef79fdd977da35e; 0x6e18491504a77dc0; 0x154ab50f568667b0; 0x7b218b37bb05bcc5; 0x683711c1eca42db1; 0x7ae24accf707db40; 0x55a1365f8d78fe8b; 0x6235d59a315e12f2; 0x2d42c2d5cec3608; 0x5c42f4d956050fc8; 0x452d082dd9c98563; 0x2e3c13c122031937; 0x4ebc31cb155fb4bc; 0x447c58842ca313a4; 0x50c2bc59cf8ffaf3; 0x7305bea5f903d3b8; 0x67da82e3d088c28a; 0x70c29b3e8c45fc1a; 0xdde95d9f4c87d8e; 0x26c5c6f465e3e2e9; 0x18c7e1020833070a; 0xa426d1c4f9b0203; 0x3fc0872d961030fe; 0x55ec2a73988fccfe; 0x57225beadbb701d2; 0x5ec8422af5505ea3; 0x31514e84c05f79b7; 0x6a63eca5fc6764d0; 0x6fec97f91c4ab7b5; 0x75b91d5d3a1292a8; 0x4cf8ef9b07090b67; 0x18a12fbdd32b52a6; 0x5bfa45ddab79ce6f; 0x5954eeebb93258c1; 0x2a6a1d5ace253fc9; 0x19e172e825c7c048; 0x7bef15e939e29b18; 0x214d3e8aaee4ac47; 0x3d8c2a7cb46a7dac; 0x74dcf9bb47f39ef4; 0x690ed7fbf9108dec; 0x58ee003a7c064689; 0x3349cc7ae53e04bf; 0x717428da0c17766f; 0x6dd80ec10b4b07fa; 0x3f8465a3a3e7af25; 0xccdb012114838b6; 0x639828197950d980; 0x350e211b61876e52; 0x39430868294752f2; 0x6597e1441214b641; 0xb081ef496fa8976; 0x218b80a7c492d04a; 0xa44351055b577f; 0x2765c0b043db7991; 0x7274889682a6ac06; 0x13ac2b0a08a457f8; 0x33ce66f1d41e590a; 0x1938bfd6eb8f610a; 0x4802e97d08afe4ca; 0x6852b4298e4b2aa9; 0x4549820af3eae209; 0x5c6336b176277904; 0x7271759d16a97f16; 0x6f83d07e298fe828; 0x77eedaadb24ab262; 0x5c7d3b2c18e96575; 0x3eb20bae7208064a; 0x3c03c7a1bed3d650; 0x50896bc0a59098d5; 0x5781cd04be2ab375; 0x7f292c1e635393f9; 0x31589626ae64e13d; 0x30cecb2f103512f7; 0x5730c1a29752e136; 0xc87931fe873fd5d; 0x7c5a8d55bbab210f; 0x28ab414bfdceb52; 0x1f05aac93da1cec9; 0x254d8d36987112b7; 0x13abbf7923d57434; 0x2c010d91b7d4436; 0x7ffef7773b0a5ec6; 0x7e51ea83b97393c9; 0x135933afdc0f99d7; 0x73294735c53dea1c; 0x7a2a06f109d6bcea; 0x129b73ac32f39dc8; 0x7ccc9da4b1531a7b; 0x300b070e9dcae850; 0x4a95b66bb1895aca; 0xc1c8d454d9808b8; 0x498d10dcf545f8; 0x7acec92570c9134; 0x9654e74c0f7cea0; 0x1c2f7f0ccb6ae28f; 0xf97ef1636e55dfc; 0x65d0ef21aada528; 0x1142d74c5046c20c; 0x3b0c3afe32ffb658; 0x61c3178103c372e2; 0x53087ee8e25fb073; 0x596511e3880b64de; 0x43b70a1fcab32d6d; 0x3b14eb992d931283; 0x23266ee686b1fede; 0x30f5a203dec51f7d; 0x147ad67c173035ff; 0x4e1f6b0a771a45db; 0x41389f1671b782be; 0x710425ca01f59e05; 0x2621412fdc448d21; 0x2262a436d614332a; 0x1e67eb073453c768; 0x3fedc57ba024a440; 0x6e93dd419bac52f; 0x65a1dcbf29c04c86; 0x38353891b3cc297; 0x727e5cb22153ff90; 0x214ea3d8bb1ce223; 0x5a6f480e50be3ae3; 0x5f18167f59bb19a9; 0x19fb286f290975df; 0x7718a48ef6c604cd; 0x7d18b4ece89bcbbc; 0x47bb241242d55fc0; 0x328633ac5be22a2e; 0x249abb8567b60d7a; 0x6bb20d979cd6cd11; 0x76b19d9d2c2f2595; 0x6528d94a868972c2; 0x3ebc59e71a9fcc2c; 0x551d7320d5568c8e; 0x33d9117fa133b020; 0x2a44f1306834a006; 0x44809450114537e2; 0x22b3dc1aaf81fcbe; 0x18343f1ddf0ab550; 0x336b7031db988079; 0x5b0d9a75fb5db91e; 0x514985923ac2f34c; 0x7cad33785a901dce; 0x6a13cd9725cd78c3; 0xde83d43e4dfa59e; 0x255a158e292eba85; 0x2555f849a860751a; 0x1a27e2a92fe73158; 0x454c1b1caf608fec; 0x5247e3433658fa03; 0x66abaff6f737b7c4; 0x41c0f6dbfab54483; 0x53a62b26b1c41f47; 0x7e30e05f4e61d7fa; 0x6a9bef76f4941fb8; 0x10695872e8502d11; 0x22ec03a5175bf4ef; 0x67dbba9b89b97cc9; 0x37b113cf5fd277c3; 0x16e4d6a097cd9c06; 0x1b028d09eb1a74ef; 0x584a2e56960c4521; 0x1d0fa6f62e423a58; 0x3ca99654b36c5885; 0x7b489d73fa943212; 0x5c3ac07412ce73e6; 0x255606d5e33095b3; 0x1a5d54101eacc176; 0x7cec3b92604d52c7; 0x56ce61b87d76cd03; 0x41bdc444953adf97; 0x6c281d4a4e8a2e45; 0x546c7d633b2487e7; 0x42a07cdc0c20cc1c; 0x6d12a77695134184; 0x6d6fa02741438bb7; 0x3a33ec12b2f813f6; 0x6e496e6a85ab11bb; 0x78f2f49c259de28d; 0x42f0197e3c80681e; 0x45c0f85d5511efb4; 0x3046199ccf0e5af; 0x63cc38c09ea19cf1; 0x4ac20f84e2348fbf; 0x663fd8a7f1fc090; 0x420469471dcf0d4e; 0x4af704e0d436eec5; 0x67a1e086c9fcc9b2; 0x24e4237fdcb1f7eb; 0x2dbae5ba96d7844b; 0x7cf37d064991343f; 0x18cb192630d3d7b9; 0x7cbcb3b63d03bfbc; 0x711714e74a5efee4; 0xec89dae7b92e96f; 0x731d2327d9906159; 0x77cc5754a04c9e0; 0x37432c8bd520d096; 0x3eedf6109e04f036; 0x3aa1f3c2cdc27aae; 0xf9fd7ca47c1823c; 0x3893c3c01cc084d4; 0x77b4bc2125fb9887; 0x5e496c8d868fe526; 0x293772115dffae85; 0x6d364f9a33680d3f; 0x3e8f2c9ebdd7db24; 0x16cba469e5dc0515; 0x53d02181e3fe8b3d; 0x32c838d32d08e365; 0x18881acc90b43d11; 0x2d5dd4db58cb3bd1; 0x578ef0e9c5869af0; 0x77c6f102fbe5eacd; 0xa454f70c9033591; 0x42b7cc37f5ff76e8; 0x3de8ab79875ec7be; 0x3a68afd822e2257e; 0x16bb903104e9646e; 0x1d343b3b1566656f; 0x559bd06de05b12f2; 0x14387c356771d72b; 0x71f1743a67bf82e8; 0xd65277fc9bff959; 0x5b7810cb9388440c; 0x170b36076a87cd9f; 0xbf0c662ee703d4f; 0x7130d31226aee6d9; 0x583f176fdd599c15; 0x3e15c63c578f2392; 0x2c89498707ca2fe0; 0x2f8a9644713257b8; 0x7636a4853b0072ef; 0x3ef5a7b4e1224742; 0x3d6de4f8b2d8e78e; 0x6d2bec03376cb823; 0x1e22107097428692; 0x48ea10eaea7bda99; 0x7a9853d07adc2bd; 0x1620e14f6f4ccb9b; 0x59c10e5104e6a567; 0x7e68474346de184b; 0x4356300e985fbbc8; 0x42842caf3efe7033; 0x6d057bbdc1161045; 0x7813f10afdb233ad; 0x49b8ce7ecc08cc5e; 0x6ae0d3ab57cbb7e; 0x72dd199100f2af46; 0x2575a245a4ad670b; 0x3b4f5429322eb8c7; 0x74d7730724663ddd; 0x3c57332ecf651b9a; 0x3f22aad19119cb54; 0x5502663dc6030583; 0x2e047cdacbdd975; 0x38b1c91d464dccf6; 0x6cd68d931fc2d929; 0x1c17fcaa0636fa22; 0x4365ee882c05c364; 0x23c841a9152d7211; 0x3aedf1cb050fba60; 0x773cb12f2760de42; 0x1d2fa2c3cd2fe689; 0x624f5d232e1f9247; 0x6d3c7bcc96fa6da0; 0x781e19e7e679f802; 0x7ff30cc03c033c3f; 0x667f9f8199ff9819; 0xcc00ff0ff3f00c3; 0x7e60];
   [0xc78755b864ee76e; 0x66cbf73102ab29ef; 0x5ff7d666e9e92c0d; 0xacec07436ebd599; 0x16decb8b2610d2d9; 0x1f214f63f6c84f48; 0x7ff059371e784d9e; 0x5df9a9590299698b; 0x11447686244b68fa; 0x27e089d98b2e4a65; 0x34bc6e015baf070a; 0x180d32c6c30ee72b; 0x255da7caf4ec90f5; 0x3b91125552b98552; 0xfda3e74fcd779b; 0x2509ac216513d97; 0x6f210d3c8e8c8093; 0x2f41b1407fad4574; 0x666be7ed3b2fb435; 0x7cb86b57fa8aa72a; 0x1622b5103d2135fb; 0x555f1e9f2b933781; 0x41570bfb11838eb8; 0x5cd99e50c6c47c0f; 0x5bd97f9bd3d28ae0; 0x286d4a67e6d91cfe; 0x7443daf1cbc7e662; 0x1f3006a35fb872eb; 0x1e7da6073d20be76; 0x3c085b4d9e1f8041; 0x114a2d0fe2768519; 0x4960c9d81e9f4394; 0x21a8983bde8c7340; 0x698dba0bf7d3c66b; 0x69402e6e9a23236e; 0x149c1d0c98c460c; 0x925b9b3b9e88dec; 0x570df13338441916; 0x1d6e2e7123069d1a; 0x4e06032463838c25; 0x3caca399606a5706; 0x2408039931ba2027; 0x3a251f86efd6a6e1; 0x57e9a220b704eb1e; 0x7da41052b09e290; 0x25a98ddf365d6f9d; 0x2341a481c877d3d0; 0x136e48ea2d0598d6; 0x1fcb29f33525f0ed; 0x71022e79ec1d0044; 0x5a3769778e8e2589; 0x413f623b88840915; 0x79f01a1b6f17b9b0; 0x752c30df9acea21; 0x2d1424ab65f9d594; 0x3ff6a52d442924f2; 0x4a80b7176d519287; 0x48855cf8696110d9; 0x265e4444695a1d5c; 0x328726634cf5fccf; 0x3c5654512bd3862d; 0x7a4d5bcb1c214d6b; 0x59fa66c17ac2c1f0; 0x24e3f937db94013b; 0x278c9db05f14ff75; 0x47961950b0a97f16; 0x47d916f44ec3bbb2; 0x4265a0fd7b8b67b5; 0x79037288a019db2b; 0x75debb81ad9df1ea; 0x66b14b1da2ea3284; 0x70fbafb378435ae2; 0x49bcd3c748b0039a; 0x105716df8964ec70; 0x26529fc91acf0105; 0x5c8fc20586808cd1; 0x4aa35e5e5acb945b; 0x1b58470a6038fc48; 0x47ad3c0fe6591b48; 0x89bb6d6afa7b05c; 0x6e05ffc9c778ed07; 0x5ffdbccd5cf49694; 0x597b8ee281246b1a; 0x10774a36b12f9a06; 0x101e9b0e50a4fdf0; 0x25dfb5083fc667b2; 0x6e795c4a629fe5c9; 0x786418cd965b75a8; 0xc750984d9045c26; 0x3295caf42bcab516; 0x7b14dbcab6c3b87e; 0x70a79d32738251; 0x2c8009410d3b34ad; 0x6d2c6807c884f326; 0x2dde6789b408db4d; 0x7926f292ab41cc76; 0x7970cf583de99397; 0xc36d57a1eeb333b; 0x45e514c94c9d0fc6; 0x4961b83be159545d; 0xd966ef2a5fcf97c; 0x26c086e9fa3a190; 0xf31c68b3f7b9be3; 0x323df8ea83d2ef31; 0x5e0faddd444a2fe2; 0x2883530cb9fbcb54; 0x786a96c37fd1b1af; 0x6bb3776c69cf3212; 0x114c0e2f81d59ca6; 0x7cb1fd3a4e5bea0; 0x28261e4f8cfaa677; 0x4ec144eb68d33cfd; 0x3cd83a5b76e3c175; 0x2a9fb8a6fc47988a; 0x1b2fbf769b4538c7; 0x2e6631de1bf27f0c; 0x2331dc9818e4e7c3; 0xe370e0d487fdcc7; 0x3881c082d3626379; 0x694c5b4b2cddfb6b; 0x5d43b6370f8a963c; 0x3cf5eea91d459876; 0x67257daa49cc2bb1; 0x4fe04448d324d139; 0x13669a547bc7bf7b; 0x40c8dca65b0e6cf4; 0xf56628afaadf749; 0x4075057bdc3b185b; 0x4d0d96155921f555; 0x1f679cf7cc4c2b91; 0x740a76227ccf37ad; 0x39fe6dadf17ba51f; 0x24d403f63dbc9da; 0x35fd9b9d1c83be3a; 0x5dfa7e6a96410810; 0x3390a3d3cb5621b4; 0x6f6ab2f90f444428; 0x2e3af71ff192c315; 0x44db29ed9af89a13; 0x427ed59500fde2a8; 0x617b6393102875bf; 0x57668a2a113960f7; 0x80d18ef099088a6; 0x6e9bb9e97952958c; 0x3baa7cfa1bdc39b; 0x25cb1bada4d848dc; 0x77413c4c856a01; 0x3cb1a5f6721f38e; 0x4a4cf8b637a51777; 0x2f0766746d2f02bb; 0x3bd5b23ff1b98cd6; 0x68fa52dbf4793dfe; 0x116d8b0b1007deb5; 0x161131b50facdd67; 0x165f8d8561224b45; 0x599bd36ef70e3e69; 0x2be1909e817ad3b4; 0x1ba3eca12d2398c3; 0x435f19a089c97168; 0x6a5a49d2b76c555a; 0xb11039de46b828f; 0x283c5ed6b43c021; 0x398e2f2ddf5107cb; 0x320c9ad4f9e4c5d8; 0x49c5dd3e18788c09; 0x7aa781faf2d31e6e; 0x63f0c337912f806a; 0x231b4b955448e8d6; 0x3fc6a2693023aa41; 0x189445336e2536e7; 0x775be132d36824f4; 0x7acb17254bcfae55; 0x6e25e1be0cb5c009; 0x762b1894105284c9; 0x3acbeed8f55119f3; 0x684fe745d8429a6c; 0x6b66e09a89f15c5d; 0x20bdfaf3f08df522; 0x65a84c01583e1db3; 0x5f331db2fe42904b; 0x5ef80710f38fd8d8; 0x3f6a70c2ac5ceb17; 0x1beb22a8c74cb57c; 0x2e5c71f57d47a8dd; 0x45fb5941f3936759; 0x45f878d1d0085c53; 0x4f3098d99d156e03; 0x9eddc71c394dff3; 0x506a7c63555f96b5; 0x42f6211f73b5ef50; 0x1b9d27eb19778758; 0x3c2ebbddf8975a6d; 0x6020ee92bb71027b; 0x33cce1e863cf8262; 0xf08d203edee163f; 0x79df6b340f4b942a; 0x6e203175ff9954d1; 0x562158d8906a23a3; 0x5f25912f9be9ffbd; 0x65ffa8c18f6cd86d; 0x3168e475a1ae34a6; 0x62ad89f1ff4b6f78; 0x75a72cbca0e12252; 0x11ff6745aee24bbb; 0x2900041a5baa42ad; 0x509e7d14e21c478a; 0x6fff69c9817e42a; 0x1062f90c505154c3; 0x5fc4eb0638d05cdf; 0xc3d0bebefe21339; 0x69d2b5661651e927; 0x5f944f920d8b1479; 0x427bef90b7597298; 0x45bd14e7ff1f67; 0x24fdb3949f8211b; 0x3f0c3b8ffb727738; 0x694ece02dde05560; 0xc40b3ab879742b4; 0x30b7313dbc2b3ebc; 0x5313a89aad9e6990; 0x4f815609876fbb7b; 0x17c23a64ba76cf83; 0x1d80cc7f368a1b9a; 0xa0f26ab0cfa94c0; 0x68fa11ff58e7fdeb; 0x6151bd72ccc2674d; 0x58d613aa48886199; 0x1c7ea2408ca55451; 0x43c5f08b9385aed3; 0x256cddd31be09064; 0x580b6b649ad772f9; 0x5ac0b1a52d87a4e5; 0x40f75d3924e50b26; 0x76a17d331c6281b1; 0xddbb0d3c7d9f0d; 0x2245d7290a0befe9; 0x1b7ea5bbdc46fc4b; 0x45a75dc12544bce; 0xd69693e374f7b57; 0x4405da9fea556e49; 0x799c44cb01a945bc; 0x1802f8acd0e30897; 0x33e2dde9335f5c38; 0x2e0fde2d8b10d997; 0x45807ff39b77491c; 0x38f556d31aac8837; 0x21b1497352ec1b6e; 0x122a31af07c9db56; 0x22f936cc12a53886; 0x300adefc7b1e4c81; 0x637c0ac76af90be3; 0x1a4dcdebd7085e0a; 0x7b9530b28c1ce245; 0x331d2254a10edf3d; 0x294da4f2586436cb; 0x637041bdb1d8f04b; 0x20aaff6f34f0e7d3; 0x64eb2cd9231d208; 0x20487f207475ed4f; 0x7c32157cc0d771b5; 0x5cb29f18dacdadb5; 0x5aa33018865081b0; 0x7256cc983fca0147; 0x5b224b9e69132b81; 0x168bbf71b0ab382; 0x5f18106381f5f4bf; 0x4b78bb20a9ac540f; 0x2d8b609089b03c81; 0xcef6e8d85b8a658; 0x6fa36438d8802bca; 0x4695b91e0295cb1; 0x234c76f5e2782ba4; 0x5e5ed4e336a7b071; 0x1366a1a604b5798e; 0x2bd19a67d34c8a35; 0x6f40eb2eba680dc3; 0x20aff66a1c216948; 0x6f18b2c414e3ff5b; 0x422da2f0894c6b60; 0xd6e1c331f2c97be; 0x4210d3ed26dca548; 0x4cd17e6bde45802f; 0x3cb6cc5666519a51; 0x2f9ec71d1e3fb5f4; 0x522f94603b325435; 0x76384029907c3043; 0x13db1b5384ef1ee9; 0x57269abb46af4e7b; 0x1455ba6d08e3d66b; 0x3f3984aceeed33f6; 0x72ea2c4915331c3; 0x3e1c6d93a87f859b; 0xf6c88b99aa4ca48; 0x40be4dbffa198b57; 0x699f24675f65b867; 0x236fae973641fcfd; 0x383ef1f2e4b0a887; 0x49751f10790c3a1a; 0x2537df99e9023deb; 0x2537ae952109f6ab; 0x663d69eca99079ae; 0x3a3066733041a0c8; 0x8415f29b3291ca3; 0x2b9d2c7c6584c880; 0x618c0224398753d5; 0x1ae52baf3a98f6c0; 0x1fb9d9cbfa9e5ac7; 0x519b3ef7d34cd868; 0x623ae0a2b0ccfd6e; 0x6916503c651b9c43; 0x2e93cd609b61747c; 0x76f1f6890e3c1869; 0x3131fa9015c94e11; 0x1f999f9fe1f876e; 0x43ff33f303c3fcf0; 0x661800607e799f9; 0x30ff03f0fc3330f3; 0x198060];
   [0x3455742291aa6084; 0xf6a77ebaf3b25d1; 0x4dadaabc4b858a19; 0x4fc55c8e75bf8169; 0x7a6886aa1ba01549; 0x763f900ac2686f87; 0xc547c3af18c3a6c; 0x15b62a7e33c651e; 0x1a49b4ff80146f5e; 0x37b9a551292cfd30; 0x4a4933e60153d5d2; 0x4c7663894066143e; 0x4e9fd9df5253088; 0x71cb6355d67c8f14; 0x5c7f7aeeda71935b; 0x5ab74754a95e9693; 0x61ee0ee1f04fff8a; 0x657cabb89b027f85; 0x797060013a4b8fec; 0x1c73bba98511c2fe; 0x7b54ae98bf2b2826; 0x40831e581620e5c8; 0x2c274530865b3101; 0x62ad282e5c78d60; 0x2cde7a023d93adf9; 0x33924ae85e45eff1; 0x73743fad38a3759d; 0x2661beb864c041b3; 0x7a608d69df1e28e5; 0x46830fa0a81f9168; 0x552e25065eb52cea; 0x74c9bc9d3d0d4c7a; 0x53cde479f549ee92; 0x1829bb09fae814ed; 0x25e3a2b22d44f9eb; 0x70da59444957e785; 0x60cd21f956b3da63; 0x1e9c93bcf050ad69; 0x398ebcb657893cac; 0x7d6e6fe42424a64; 0x79e2a817cdb6fdfc; 0x1fe608c1f0729e82; 0x6998a8ac065ec4be; 0x1807ccf6a5e84ae1; 0x1f5abc32c7bcb0e2; 0x57d56ab88168de06; 0x62a45202cb438c04; 0x744ec387ddeed1da; 0x5f343481b15ce4c1; 0x6a195f4b5f354523; 0x5049c3f1919f5fff; 0x213450544af76d8f; 0x2408f50cdd571ba3; 0x10c2292fae5633bd; 0x9ec8c49c93d5693; 0x6d23ab2051785f44; 0x171b8786bd4bce8; 0x79f17d6d110759e4; 0x12a583096e776eb4; 0x4a0741551087aebc; 0x6f6381a6750590df; 0x6df5b639ffd8a1e2; 0x79bd9c4c8b7654c5; 0x5eb0b3b263aefcce; 0xb11e087720d5d75; 0x78b8078c4a6e3cb1; 0x7c82a6c1c753d030; 0x378df67905fe52cb; 0x183a1bb096d6964c; 0x7b53350b435795d8; 0xacbef41286c590a; 0x43f7cb7a05cbf657; 0x52b798410f645c68; 0x1bf0bbe0a7d6cebb; 0x3376d12570401fe5; 0x5d83b3bdfc45e4b9; 0x71b5f7166756123f; 0x43cb96bc01874afe; 0x582ee8595b10f59e; 0x6a2d76ddef455c2e; 0x260f1acf1844e015; 0x70ca921d709355cd; 0x6414b746f2c016ff; 0x3f6ed76aff47a0ee; 0x752eec807b36021d; 0x321feb1f4eb6e64; 0x77c70a844385d301; 0x2bd8760609f34578; 0x5b1f3f21003b4224; 0x6d4f2f1daf0913bf; 0x1aea4f9c824c9985; 0x3ccb0a9c88e3c256; 0x41f3cb3ca48f2051; 0x6ae3134d74acfd6c; 0x23ac29f1dd21eb3f; 0x3b4fbb57718ec6e2; 0x3b62d2ddc85f0b41; 0x7e0b9c89c2a8eb10; 0x7acee0f65f877665; 0x7052a7b4f280552f; 0x415e1b56b1268e21; 0x38e9b2d4f853306e; 0x108cf0d80e45a36a; 0x647422bebce3e814; 0x2a34c67ddb576cb0; 0xd3ca37be909dd7f; 0x3eb0773a309a2c6e; 0x71ab0eab33ec08d8; 0x4b03de1701b1aa18; 0x30d0e92d7d714492; 0x57877fe9d6f330a6; 0x2af5ee31213295ee; 0x1a347248b356e45d; 0x4b784c903349b0be; 0x65f536d74627ae31; 0x596910e4490388b0; 0x1b8f637a30648b73; 0x217266b4c5b96c79; 0x5a21877953320d7b; 0x9b32360f1ffa9cf; 0x756f6efb49cf0096; 0x14b3c3c2c3dd2614; 0x3c4a84598b477ae4; 0x51c1db7ac8e9a175; 0x11e5bfbe1c8d4278; 0x186d748289b67bb2; 0x848fcbc2e3a1c94; 0x38d4f64ead09e829; 0x6bc977e79bb53c11; 0x12cb02d1e3b2cc9f; 0x24c7c823727bee28; 0x6628cb61b5df4e76; 0x222bc1d1bbbcfbc; 0x37b685a4da003cc3; 0x3d01cb5a5a5c5cfd; 0x7f30914d2beaa8f1; 0x403bac1a89c4d6fe; 0x85d415b81f9aab9; 0x65da8dadfe99c68c; 0x7b257b3898a372c8; 0x6f892f0a16da674d; 0x101ad7c10a400f48; 0x56b88465c4059009; 0x2bac49729e944188; 0x3407a9afbd91cbb8; 0x3aad304bf15a12f9; 0xda361809e1da67b; 0x79585e0fa082ab55; 0x5330a585d8a18377; 0x7f6a04bde5d57ee6; 0x7d872229ac4286cc; 0x15e86cc401eef172; 0x1b31b575e4186143; 0x1ddb32aad5079f41; 0x14c5027f972d77a5; 0x4a5882692aa690dc; 0x167898735dbb33ef; 0xcdb5c5d2b1fb68; 0x64a37a49d912a13a; 0x266fa62e70f29fd6; 0x479cde58ece1f3ed; 0x45a3fd445ea29560; 0x6cc7168a071d2086; 0x3380290b08bd405c; 0x64ebc55f592910c6; 0x39a88dbc58be9909; 0x692c31c212059368; 0x5c5a680381ed00d0; 0x4530f0b1d8497c62; 0x3a1299b2b18f9d56; 0x29d1eb3c98046fab; 0x3fa50d6e63262bc0; 0x58124a6a461ac896; 0x7944f9e7c26cbefb; 0x33c75071d3a7a69e; 0x25c465d3788904e0; 0x605b59f9f3f509d1; 0x3920bd9728d2d103; 0x106a2f6feed975f5; 0x52e0ba5a912aee27; 0x713949e64c92318b; 0x4febc4b5a9535ab1; 0x9c0dc9e6273da0f; 0x4ac5b7b0f25d68f1; 0x1f115fb4c1025c9f; 0x5eb72902cc0d6f69; 0x9ac4e8817b5729a; 0x4b71f7054ec1a4dc; 0x375943a9eec30283; 0xf1df7df62ce3583; 0xd6981748be7bedc; 0x37f426f54125776a; 0x20632d3ba31ba97b; 0x1a7b0292f846daa1; 0x2c04f3dee1327139; 0x4b037d254fb7f204; 0x482b0d6b196548f1; 0x6314775dc47f99df; 0x5347516afab868c0; 0x50d853e7837ef531; 0x762178c8ac470c20; 0x1406174c172207d6; 0x418c2100f00e2789; 0x563a0d12fbd270f0; 0xe8de7ac8c8fa9f6; 0x14dea8c2aa86a2a5; 0xa539e0113c07432; 0x7dd190a1fcf91f1f; 0x6973d821dcddb18a; 0x52805a758d789d1e; 0x590d905fe8496c4a; 0x1a532ddd694d6f5b; 0x1ef4cb1a231d8ee; 0x3e1275c5063ef72; 0x2dfc28ace4f2b1ec; 0x146f8d051fb239ff; 0x21f99b0e2526d3e1; 0x15a320f14a81dd70; 0x1f92f7f181dab1a0; 0x13d96aff2253cc9d; 0x60c290429bfcf908; 0x590934e5972e2fde; 0x43d8456359187c94; 0x7dc2804e63f6b875; 0x7ca92a583ee34f7a; 0x2f5e2b0655c52b53; 0x157cacb2e3c86020; 0x57e7df724f24536f; 0x70223adb90b4c6cf; 0x6d7c9124b4eca68b; 0x522be0a4303be97f; 0xf6bd43224a1c17a; 0x6f971d62178313b1; 0x741583c964fe099b; 0x4f3625d9ac99a94a; 0x9a9250f1dc2e7a5; 0x53bc5abf3602f7c6; 0x7170572d96799c49; 0x6a6f31e68aafff15; 0x3fe1a663c5cc1bf2; 0x688b8833561494d6; 0x1114754c78ee8936; 0x789fded28e9adb02; 0x3094dc48cd27d46d; 0x14358c40d70cb061; 0x4ca1c1523117f536; 0x26e7908908eb907a; 0x6763be54c260a195; 0x25d7dd627343e942; 0x351cf2d6a8c3b93b; 0xfbc3c5a7a23ba08; 0x539702a3c0a29959; 0x210c946877969b59; 0x679770ddf856dda; 0x35bd7eb27efd5a0f; 0x3843c44e9415a3bb; 0x6200ab3842e5d018; 0x756a6c322deb3487; 0x120a8d8472ffb0ec; 0x5f4867018e64de0d; 0x1aa889fe40e82479; 0x2ecb56e5100f315a; 0x4d66cdf9111ab942; 0x799d4e812997070c; 0x250dc466b1243a4e; 0x68d47a7bce225b41; 0x7c5296f46a97dec7; 0x1c64c26b8656890a; 0x24e1ece67e02976; 0xf3fe0fc53949b7e; 0x2db52f5d09040edd; 0x6d7149b3791534c; 0x38ce96f8bae2b96c; 0x27df197828c7abed; 0x16607afaa44149f9; 0xbbf588f3512b556; 0x6239e83d02f85ed4; 0x6da3b445cde6cdb9; 0x4f7421303cfe4dbd; 0x1831af2c3adc7570; 0xf315584e82c67ce; 0x2dc5a3a47006a327; 0x18607fcc9ad3b0f0; 0x67f95b1911eafa5a; 0x225bfff267762024; 0x32756bafc646650b; 0x71abd36098b23470; 0x67c9ac729d5faceb; 0x6d773096ab3b641a; 0x1e6bb99eb39a9f4f; 0xdb3cc3173b686f3; 0x75314e9c07768fd2; 0x21cab84c7ea90c65; 0x43df46e87cc15bd8; 0x485482b9adc12e42; 0x5fbc1b83b04a3c6; 0x2ff92a24b7b56e27; 0x5ae5b3f4559a2f9e; 0x61a3f47795f25513; 0x6cd6caf392c5a0f4; 0x3c00b851330ee8f4; 0x63e1a978f4bf5820; 0x66ea9ae061746089; 0x525b250a2d0713c0; 0x6fb45fea235a906c; 0x7a1912a44c9d3dd3; 0x7d6e02bbca7d65d1; 0x5bb903f9009ce99; 0x15bb3aa64a763724; 0x14b741e4f2ce508b; 0x511dd798806a381f; 0xb652beb528e8ab8; 0xba31c895b9a831e; 0x667818618601e089; 0x3cfc3cc300cf03; 0x1e6181e007981e1e; 0x30cffcffc033033; 0x19999e];
   [0x62df0fd5ef943a40; 0x199517cfe4466f5a; 0x2a7b8a86e92dd020; 0x545ab93cc8f2eb9b; 0x52a1f831974b4304; 0x7bab26d2225abebe; 0x3400ac513919a2b8; 0x5240bbf0e87e479f; 0x5a46f4fa37f8b0fb; 0xed65f9070349bd7; 0x7c5ebe206719662e; 0x34002e74b0de3070; 0xddcf99c90c8ab8e; 0x41419134a7cdd893; 0x5594591b92e35905; 0x7ae4851d89b7b3f; 0x24083995ef011054; 0x72a7acd14baa43d; 0x4a69ec8852567cdc; 0x36c0eb398494f41f; 0x728d0c2d24254bcc; 0x13021fb7cc1b8a11; 0x2e30a22dc0cb08ed; 0x485e4f058eb85125; 0x66720ae7b379bfa3; 0x3cc56e8a03189b05; 0x4e3ae003ee0206cf; 0x16bda5b02845a99a; 0x78f970355e6b70a4; 0x479f08adf8432ae6; 0x1d42d7f017ae693a; 0x64ee2b779c2b5304; 0x2e920bcb50b57f33; 0x69f1fbd72dcd1e6a; 0x7944b73da36767b0; 0x353a3fa4645e26eb; 0x6c9c29c85219b211; 0x5898932a2960c2c2; 0x751367fb17f6d8d4; 0x385d6f97525ca8a7; 0x29bb9f42e3fc0999; 0x681d77ef632880dc; 0x132398ee62fd92c0; 0x1a6034a501a1cb18; 0x358027f332349d89; 0x59acf21a2139a473; 0x7eb012dd85f40a6f; 0x147d236fb1a62c2c; 0x4f4e651ac5fed089; 0x2e70e9dc42370793; 0x6d1b00ed58795b8a; 0x64b70d7070f6e523; 0x7d38bd6ad26d83d3; 0x634869c4621ce69f; 0xb2836bac220db5e; 0x71c1e9034260c7e3; 0x8bce75250c0f0f; 0x5abecc9e3f674857; 0x6d485b095fcef9b0; 0xaa3f8ef3c48cdc1; 0x2e6c2087b4eb6a67; 0x50094f10d3dc3956; 0x2507de2196a9c76b; 0x4749739e173869d8; 0x2093fd3276cba317; 0x71a059dff579df2c; 0x1afa09880390a709; 0x15813981c85f374c; 0x44399640d48fccae; 0x55f29990cbe4141f; 0x691f7f2195a00d44; 0x16cfa219e546bc43; 0x763b642be15404f5; 0x582f00a0f65ead36; 0x1d895d3e03fcf0a4; 0x5951688484da8537; 0x3478789144d0daa8; 0x6aa444e8b47b8f8b; 0x455b14f5fe32957e; 0x15ed9d2da3d381b3; 0x783f6eb915c6ee00; 0x4dfabe0ade25723f; 0xd365247d60a28ba; 0x27fca6c1d6cce906; 0x4df2aa8b1e4b87e4; 0x2a9bfbaf79733046; 0x318c59e23ef702e5; 0x4553e3367cb8fda2; 0x5034aeecedb19060; 0x4ed239f953df71cb; 0x59c6191bbfe0bcb3; 0x2dd701da6dcd49af; 0x4cd12a595e6e9e91; 0x7b0cc7ac21468682; 0x6ce055cd6b341238; 0x6fa5ff9b16bf629b; 0xbf5beeb47810c74; 0x5caf4b4cde47ea8b; 0x626439eab7e76160; 0x219ab5e56fad9c8f; 0x2fe6092950c0dab2; 0x643960f4eb1bf5f7; 0x59fa1df1b251bcd1; 0x62b16a5d1b428f6d; 0x2ae13e484dbe3775; 0x312c7af44b352217; 0x7923986d03fa8cc4; 0x7be7977ddbd8c4a3; 0x7c796bd92ccebe78; 0x7e612d895563bc87; 0x218aa964073119bc; 0x597e9393eb7dcbef; 0x1a60b1b02cc3d9c4; 0x7428a30b9ba5bcf9; 0x285ff8f4b4c6c5d3; 0x314873900001d6fe; 0x22022b29d6ad69cd; 0x31cc55b2ee04fb01; 0x7dce7bc2df999125; 0x4a78f2e4fa18b247; 0x7bf44a46be8ba2ff; 0x46b9ccc04b6d1a82; 0x5a5bd3758bee5452; 0x3881c60e206d0d32; 0x2d9595792e391306; 0x1b481bb645ac21b8; 0x1410e0b7aa95af78; 0x61b0fe744123a236; 0x65d161d0fd929f0f; 0x673519e4000400ee; 0x756d9aeacee9df20; 0xd1ce797adabf064; 0x658cd2cd66e62fe8; 0x3416091c0e5e4075; 0x54f08c501b0578c4; 0x478e085a4e5b7e5; 0x72fd96158f732181; 0x7f228831e90785de; 0x6b51a46279d0cddd; 0x55aba352b0be09bf; 0x2928f8814d27c2fd; 0x290e8b4356e3d4ec; 0x2d3f00f12067b807; 0x391e458c7b329d73; 0x48469da1417e2286; 0x568a73b891cc48f; 0x72576a3faa401735; 0x172185f572f51461; 0x15d4ff17dd9f61b1; 0x3de975224334f11c; 0x689141851b3a3ce7; 0x7c203c938740586c; 0x287361ad5a7ae4ee; 0x695202ecb9cff0d1; 0x2439c129381da4fe; 0x27fa6ef8ea2879f4; 0x59b470ab529dd2a6; 0x3beb0055c49dd991; 0xf1a39660d848f37; 0x41f8769d8bf8b7a8; 0x73163f122c1be26; 0x65d38f25b6106662; 0xe1b2159120fb90e; 0x54d28f7dd5d7447f; 0x5c50520443f88213; 0x2b4bf03c49c2104e; 0x44643f0b235fddf; 0x5a6b079b84fa7a9d; 0x7e72e9536ef307f9; 0x743d7a693f8c140f; 0x5e36cedbba6219c3; 0x7410996b0f5c2add; 0x320fea78c1ba186a; 0x2ab3ae2ea67487c3; 0x4d4d6fbb0cfafd9f; 0x2926efb46cdb641d; 0x6e0630c9f8f21d21; 0x4dbe27bf2abdce1; 0x686853807088c851; 0x32449287c70736fa; 0x5fe6783b134b2190; 0x35cec477868dcdd; 0x6dba90323170801a; 0x3d1931d525d52c9d; 0x4df7456785d66bf0; 0x5c323d64274c32e5; 0x190f31ec08826a2c; 0x3add1fde39e2f76; 0x56cc21d9e7f15b8a; 0x2787cc00ab803984; 0x2edb7cba34af40ee; 0x4538b80a6c71001a; 0x2e90d77c8d9b59c3; 0x3cc99572cab9a56f; 0x6adc78ff87342d3b; 0x3fd23f5759c04cd1; 0x3e8ee0444833452e; 0x58a869cde38a1807; 0x6111d89133667eff; 0x2a0ea5080e22908a; 0x72d6c41e690302ea; 0x5a52820779685797; 0x4638e8d33fc912c0; 0x476c059947743b25; 0x281f6b7b2ca49411; 0x5c8cd90d4d91fa1d; 0x3814367217f2e55c; 0x74632c712a46e6ca; 0x297e83003bbe73cb; 0x4d0c1a47c9c41bf3; 0x2dfb6f8eaa5d0dd6; 0x4f2ab69c8f509897; 0x584e1dce18e6f67f; 0x35b0d779c081ebc9; 0x4de5c5647a4f9c3b; 0x535e71d95aacfc85; 0x1100a0eeffba437d; 0x9808908e9fecaf; 0x61a2de365bb6d5d9; 0x273415d18e60638d; 0x16a669f4531d5fd; 0x1ccbd8ccf256239c; 0x274fc5ad8fa0632e; 0x231863d4c2123f75; 0x7bd137dab0e6b138; 0x78bb4686a4e0d037; 0x35bfe5e740f34606; 0x3e43701bc45aaa91; 0x764825376effe8bb; 0x7864bebb9f1f8669; 0x4e1e304fa69551ca; 0x14633ff7e0436ab6; 0x5750bc8a2e7d7777; 0x445f59fefb6a6e1; 0x76355cc7ba02fb73; 0x5ebded2760b2922a; 0x544a3b226a0f87e5; 0x16b13172c0b921a; 0x728c8974f991dce9; 0xaeb2d37d0faae34; 0x187468ddfefb1889; 0x49347fe28ee4c817; 0x4221238825820f22; 0x7aecce41620d58e0; 0x2ffec92281af9248; 0x7fe6bc38362aa527; 0x39987ff1c3e7b12b; 0x6776155a89935ed7; 0x320b6f94a171043; 0x26b75ce6d618b7e8; 0x53712b510a1f444; 0x4fd0f9546bc52f73; 0x10e9579e89d96fd6; 0x246ce8f81d1b26ae; 0xdb12f404dddffba; 0xd5b4f5f123514b3; 0x4087b2a7e0a7a1f8; 0xa0bffef502ffad2; 0x5c4ae96a60cc4588; 0x7182ec6ba03b7028; 0x11981322985f7a0e; 0x2fc627fc5e07fe16; 0x213fcf8a7359de50; 0x5409777b80e1de86; 0x1bf5199c05f3f7e7; 0x72f0ed96351c902f; 0x5be723f61e78e24c; 0x2a09bb8f3f12340a; 0x3244e4e1b9734460; 0x7d7abdbbfc81f827; 0xdded5ffd2eae78d; 0xda4f2aba141d75f; 0x449608989ba44a64; 0x1a1702b6b0b3351e; 0x192d42b40e3912b0; 0x4c074b1384fabc96; 0x59920c7f010882a2; 0x15b6bf24602d9499; 0x9277019813def20; 0x567256b6a923a3ae; 0x7df5cb79e7df1f9a; 0x309326bb7325c1; 0x31a0abfea1eae895; 0x7264d441f66bf53a; 0x3b01bc2caf18e0a7; 0x57e51e56bdba17a1; 0x51bc4f090220b109; 0x15be8f537ffbd3e7; 0x5b5ba0d83d68ca6d; 0x3ceb18d02d15edc0; 0x31526600b64b10f1; 0x2568ea4c284a2dc0; 0xb6d180c1f891b63; 0x279fcb419989c502; 0x7490d98329f579c6; 0x7933323a7a62881a; 0x42322f0deac8dd66; 0x395fd4a212764a5f; 0x373580d6c232d35a; 0x611545bd6ec29d40; 0xf0b97f276351f3e; 0x7eda7f538f56db7f; 0x7957ad259f17dd6b; 0x7f58577702a1576c; 0x5ecf9c849e5304ca; 0x55ca0cff47beae76; 0x5251667ed71cca43; 0x110b1b712ef696b4; 0x1f30c1822500b3ec; 0x7c47734c75d60d78; 0x3480524ed6b1eb67; 0x776659d0150c31c; 0x920795e453b36b3; 0x7801981fe7ff98ac; 0xcfc3c0fcf0cccc3; 0x181e619986678798; 0xcff3cf0c0fc0303; 0x1fe1e6];
   [0x13b5afbd95da0217; 0x49165ca4187220bf; 0x11a41851ad06ea05; 0x3cca02894a4b6f61; 0x5b7dd4f28c68b604; 0xa27ec4a5dfe1da5; 0x7267cbabf92afa08; 0x6e1ccd0b51d895f1; 0x1ee802a8b7f639d9; 0xa1ba20c0d651bf0; 0x529509e3ba160331; 0x2c2f7a5d902290d; 0x316b70adeb6708fa; 0x78195537151323e1; 0x1664d537a3858d2e; 0x2403daaff988f9d9; 0x293d8a199ec165a; 0x11b94d60bed1cd0; 0x7852dad9fc0178ff; 0x53323a907655b2ca; 0x1163ed982dbf4340; 0x5c0d08b333ddb069; 0x250c865f53220bf9; 0x7275209afb760804; 0x60db0fe64b831472; 0x29bd9c7146a428f2; 0x69ede6e2a1e90c87; 0x33faae7cac74c81f; 0x40b1a35389d0fca3; 0x615d6e32e3a38d40; 0x3847973ec3e3252b; 0x78ef96f2af3344e2; 0x7baf834f8ce25eab; 0x39ae015ed06bab90; 0x1ffc79a83b3e6523; 0x3c0802960fe00128; 0x79e93c7468b58c85; 0x4a940105191bad1c; 0x1269c6f7b8fca0be; 0x626bb4af1d90cda; 0x62882d5f7e2bbc11; 0x4089bfc7f465d0cd; 0xef42e7407f841d8; 0x6e0e599c7a324111; 0x3e495151418fdf2b; 0x65735bf89d80fc6b; 0x752b867a3bd2648c; 0x2bd4436dbb6117e2; 0x7cd8a77c29994610; 0x40dabf89cd640555; 0x7b43cd7af6194bb4; 0x4835a2e56931a150; 0x6829b459858bcc54; 0x15df3c5a077c60db; 0x5a7381943e81ce15; 0x43cf243849851df5; 0x1717f6862fee7ad4; 0x43e67864c317447f; 0x7f49cb1b8118097a; 0x24c7324ab1bb82bb; 0x778b134228f77b82; 0x48acb3e720953e31; 0x170a26e3e9370966; 0x72e77b11d1e6a709; 0x5f0b4871800f9082; 0x439ce246e7211e91; 0x9dfadd1882d313d; 0x1eba1f7ff4174f48; 0x1783eeeeae50ca83; 0xbae759d81e2d235; 0x5d33ac758a9988b2; 0x5afec0efe1179016; 0x1ab9d5b0f9721e89; 0x1caf0c4297dd91fa; 0x1d68747c56a70d48; 0x4a9712ae8d659c27; 0x5946d1c592d59e42; 0x71014c716bf22610; 0x47a6779fb9d2744c; 0x8d3adc13d3033c8; 0x71a17136dd57415c; 0x359009ab111bc5c9; 0x47e582db90b45200; 0x5ccabf216c1b5e00; 0x1fd192f0a0e36112; 0x615f7a623e55ccf6; 0x1286b1b0889b1095; 0x1e50977691211e84; 0x55102950978d0d9c; 0x79e1dea4e074b6d5; 0x8904baf91baa5ea; 0x3f3aa7a550cd4926; 0x78ee96c53b2c93bf; 0x45d48e595c684227; 0x300381587c5d2a86; 0x463bb0e8d3d87b44; 0x2d2f16c7f546e64b; 0x4418f01fe4624424; 0x4ca8d594a3e8e78e; 0x12828b76635129b4; 0x20fc20dba4b3878a; 0x825e1087213d12; 0x4cb02187e3642a58; 0x7a2d63ec9e821884; 0x71872126ab14d9ab; 0x608c07aad0ca89bb; 0x5ab0fe3bc5b56703; 0x16ba2e4f658a2495; 0x363f3828510b7a6b; 0x2381c2f672f08595; 0x163f032ddd5f3942; 0x446e97679b702d3b; 0x2dd30c6699d6098; 0x79f03cf0bfb7de18; 0x658de85d4eee9c28; 0x40af34227f2762e2; 0x31c7dda03d40343a; 0x635c070c01638d96; 0x2adc09048894bc56; 0x12ccb55c5d04077e; 0x358de73e004dc92b; 0x36f58d47c2db3bc0; 0x3f5e2f75137269c4; 0xe8a66111fcc651d; 0x2f4eadd3e440dc8a; 0x138b566030830e3a; 0x25df82a940607c15; 0x109c139c4202ad1d; 0x3b708542d8cc1976; 0x1b7aadd1120ebdea; 0x2117a6357f5beca; 0x5710be86f81adbdd; 0x143096bfbeaa1168; 0x5124226ed3e100b1; 0x4dd76a26c17b84c2; 0x3aa8a8ac549c707b; 0x813e56a9d5f217a; 0x7fc0dbd2614789cf; 0x4c23998b23fd2bdf; 0x41e8d7312b424253; 0x3bc42ce121ad035e; 0x46be4288bef5f32d; 0x14180e42a70f1ab; 0x4171c1887149bcc6; 0x4a4ecea61ec14a89; 0x2f94f5a08b2a5a06; 0xd6cddeba6e18f1b; 0x17c4c38810fbcaf8; 0xf8b2224553577a; 0x6688b99db3aacefd; 0x5b44c5446aaf4eaf; 0x356311d2e47d6c2e; 0x72401dcf77982583; 0x6ca7b745456b68ef; 0x2537ce8ce2fca3bb; 0x591c650cc1a0b86e; 0x1f445ad87912d83b; 0x5e923b09eccf8b11; 0x7d65f785e1bcb086; 0x6aa45c4951ea05c4; 0x6f3bd8ebad43afdd; 0x5c12824c834b17f4; 0x31576bde90879a33; 0x2e939a34a3dbf4ab; 0x67c0fd91fc91d6c1; 0x6d660d28a3a1298b; 0x7bd55b6556acb709; 0x47db656458890b9d; 0x7e8a00d9c21856d5; 0x5ba5405526180aac; 0x45788bf88a64195b; 0x619920ec3d43d2d3; 0x2f7c991ef3289c69; 0x56c05e8b3b28d1ef; 0x5414ac5390c1482c; 0xb51f101ace8f35a; 0x4ee1627d2e9032d9; 0x2bca3e4de29eaa23; 0x5bfd35a004274914; 0x12f92ca12e9c48c6; 0x3bdbe9f9d9e76f9; 0x3e6eb2a3d0a2c42a; 0x5e62527177c65506; 0x5532a96e82cdd10e; 0x6807688111996e4f; 0x45f2aa0375e8688f; 0x5c7d879373d71974; 0x25db128a3a12aa64; 0x5a630034d9e8576e; 0x245d5b2ff7f36296; 0x4177482cfd457147; 0x128d2afcb9eb2c65; 0x502d1da7513417d4; 0x2b28b7072880e887; 0x1ffeffd783439aea; 0x1a5b9a968701b2d5; 0x2d95061684548cbb; 0x44b41dfad22d6d71; 0x2dd6ea14d0a85d53; 0x6ff93926339727a; 0x4138f9a9919fca8e; 0x1aef846261d5c738; 0x44d1b9e555ca998d; 0x451cb0d625f9c54; 0x4af2a2c83a931f30; 0x3939ae2337b6dc91; 0x5f89a39cea063aee; 0x13e4988ad500ab6a; 0xc75de2f98913696; 0x12c992c0b61195b7; 0x179acd2d9908f3c2; 0x765955407f7bdebd; 0x3f54ef244d48aba3; 0x165bc75ea0f398eb; 0x72d81f4265a64992; 0x60312c9b6cd98384; 0x164dc04d70b68a00; 0x653a533d1f646f1; 0x49dd5610eabae963; 0x74a35280445de518; 0x5fdcac2cf2eff738; 0x45a5c8909545a322; 0x2f6339272ea461a3; 0x6e837e879558b60; 0x47990fba5fe6a32c; 0x2a0688c568584944; 0x60ece3a1399d0245; 0x22e6a83442e47de0; 0x7d5c7cd8e6203cca; 0x4c91a816580c328d; 0x77da540ba2b9676c; 0x2110b6f34a2fbbec; 0x4ac24f90b3a4df42; 0x36b21f4d4f7600c8; 0xed89d8ab7a4cd33; 0x550a7858f3014cf0; 0x164042ae2d3b6a4c; 0x5443760ce6f4cba4; 0x1080672e70b22ba8; 0x459bd85732313e23; 0x72505eea8b82285c; 0x5c65a55d18073b7e; 0x656e0238b17f0f4d; 0x369fbd687ef07067; 0x448206a7d2683e4; 0x7a57bc1721625c72; 0x4df93524b4780cec; 0x6febb33f45a21bc8; 0x41f7969315827dac; 0x18abbac85102043b; 0x26cb810540a2e8c1; 0x5c8160a8520d959; 0x64b97a2611475d4c; 0x3288a8e20f76af0b; 0x5339a4aab0dd6cc3; 0x315b20cf4160384f; 0x7fbfe8b43e827792; 0x4556aecd4ec4d27f; 0x7b024a13de0ab83a; 0x4185552005e973e5; 0x174a0c6fd60d205c; 0x553fb10514006987; 0x707f183922f2481c; 0x41c13df89e236334; 0x2ad3d690e5ce6ce9; 0x70a01ebad4b1c5d4; 0x5d6e79599ed48de; 0x4a8fd8496167b481; 0x22a7e489f67c74ef; 0x793d3f652bf55409; 0x6c4afaeb3066a81b; 0x569bd52132c89146; 0x4b7e8adeb72861e5; 0x5a6dbba83e7a65c0; 0x76ec66051106993e; 0x60f0f62e9f14687d; 0x696fc2eb0d339b6a; 0x23babb79bc9ceef; 0x40c8ead1b9dc32e; 0x36e20842cae95c50; 0x48e6314a01711c23; 0x43a5156add5222f8; 0x727a079610435d5; 0x1787d9e57965ef41; 0x41af4f1aecd01b8b; 0x11986bd7410c7579; 0x6e73d76548776c4e; 0xb9ffafe1d24aedb; 0x54e1c8e53c366195; 0x2e435748cecaa5e; 0x1a31ca6233642f0c; 0x44c3819cd86a106c; 0x2b2b9381844d3350; 0x3fd06ae9e0a77f0c; 0x52f0ae99151c0be4; 0x7ef7e159e53c0412; 0x5e4050fcc830b206; 0x5a48ba1061aef5d8; 0x2e27215b1099224e; 0x331b3f161a5a0b2d; 0x47f7c82fb9be5a52; 0x39dd18308c4ddd98; 0x577048a841d24357; 0x4a1c6344245e0823; 0x66d581549f069e86; 0x28db5a67d9b9bc8c; 0x1c250d04620586d3; 0x6fca726c0b9d14ee; 0x49bca47b1645cb07; 0x1d960d93bb7c00d0; 0x2c5066b94af00e5; 0x4b1373ffd01d8b5b; 0x198b14339d29464d; 0x6060019fe60666c; 0x3ccc00303ff3c3cf; 0x1fff987e19986198; 0x43c00f33fcfc3fc3; 0x1e7f9];
   [0x1270bfc4d8d8afef; 0x2cfc49aad2932f70; 0x5620b102814904; 0xd157762a814a76; 0x1cb1cf66098fcda1; 0x1064742a1f652606; 0x44b225e6cc886480; 0x1bf49793e6cd9ad6; 0x1717263f188bd860; 0x654026fee90a2699; 0x7a8f819e540025f; 0x3efb78f881217239; 0x61c6eb5e9746b473; 0x65d86ac68ba277f9; 0x6aec38d2f28b4bee; 0x6d8f7d11156a2dea; 0x7cdc4457351e1c43; 0x48875f18b045399b; 0x5ae6459a9ac19207; 0x67319445dbb9790b; 0x524654a5c0327e60; 0x6d63c51c737df3fc; 0x78d516320c2477c6; 0x3f9296a9e8cca179; 0x4dc1e828bd2a98f8; 0x6e66942e56c25b86; 0x7e5ba08af1a9cb37; 0x27f5364cb01c46dc; 0x171d07218a636943; 0x1b52d627bd94353f; 0x5c2d881fe30f835; 0x632579c4d2c6103e; 0x50714acea2056628; 0x682fd49610217d6c; 0x34e39bfe5cd6a950; 0xc9142fb908b4cc6; 0x6da59a6413f12ea1; 0xf86edd4b37dd3ee; 0x50fe388a9a1777c0; 0x5e8e747d115911fd; 0x96200295a85244; 0x66716c210e1d2edf; 0x15d2d72deb1a6938; 0x28c79835977bcf89; 0x28e4819bf9b43d75; 0x1974d0d9b5486107; 0x4cdc2b0c16025b2; 0x220e630275b368de; 0x7664a7491c0a5ee8; 0x157fe4ff03d85c1a; 0x2aafca746306993f; 0x2b461cf06335f2f1; 0x3cf754564e52f570; 0x79c9a1f745596a8d; 0x42eded3952de632c; 0x57af055456f31bee; 0x3ad063806fdc5e32; 0x6e194cc46e357b5d; 0x12bb7485eda1f91b; 0xf0e59c467ad0b4b; 0x5d53765de9f05483; 0x2651839baa32c3b6; 0x31ea4073b02f73dc; 0x577fa9ca76e3aafb; 0xe71fef21d50c8c3; 0x3daa487669f84721; 0x30d2bb995ad09be4; 0x384b2186d33f9adc; 0x2bb9cb2b6d8d11fc; 0x5b9962c54f3a5346; 0xb97ba3f62edf1c6; 0x23a0f8c21dcded88; 0x111e7f365708e554; 0x40b3ec993dc4b440; 0x3be9a9e0f9259cd3; 0x62d85f030964cdbe; 0x20bdd3490fdb3078; 0x32e6b1803ea70e2d; 0x17eca8d7a5a850ba; 0x4e9268ac782fa3ec; 0x436802b54f2a9730; 0x3ce0fe2b9f3dd5ef; 0x577270698fe06f21; 0x5f003135658515e6; 0x5f09feec9dd7b6f7; 0x7d8c1a78edc88089; 0x5d59ae0929265f45; 0x3799d182bd3631c7; 0x3d53e897dd5bab32; 0x18014a64d85546b2; 0x977309fc8ea0db3; 0x4036a0e60688a0ea; 0x67b14c89b7f7e6bb; 0x5316e6fb5ca92574; 0x11a69e2d9f6691c1; 0x1cd0a2f73ffb7e49; 0x12bc5dc3591a4003; 0x40248d4431fb3c34; 0x1a7c18058e0d6a87; 0x5a504c0fc483f5ba; 0x1d0b893f2cbfc52; 0x583a9f75a22ff397; 0x5c0feefef1260d45; 0x4bf78e7f4d821176; 0x58bb249e2f0acf2f; 0x4a3bf385d6455a02; 0x4afa50d0d8c73d92; 0x740bc2067e1dc6cd; 0x181b65f729cc7118; 0x665bdc3f6c7a0aae; 0x7dabfde833f89e8e; 0x524f263016cafc99; 0x14e9e4acec6d985d; 0x605c1abee2c66e8a; 0x5d438f89cf7ecda; 0x24c1536db5c42c5d; 0x5bd24eae8c7b593c; 0x7fc95bd9bdf1c668; 0x9a3989d697f0cf6; 0x10ba91db480fc368; 0x2d6545821338674d; 0x51741fe7773d38a1; 0x71b581f64ea072a5; 0x2e84d4fff6d8c0ef; 0x41cfc9591b4452f7; 0x7df42f3be10883ee; 0x12d17c046d067de6; 0x3d789894bc95fe9f; 0x1dc9d1e0fd1126d0; 0x4ce146722aa258f; 0x6f7d09b00b197105; 0x46955ceb037b8e89; 0x68758eba0137f8ab; 0x7403f70c0c90a2b3; 0x658d6818f6045ae1; 0x598a91a1c8a41256; 0x36f6c4b5cae857b8; 0x7f8d3ec56209b06e; 0x7da86fa0daa5430f; 0x4e822631fe88d0c0; 0x3252da2cdabd66a9; 0x204fc39cd7a38968; 0x3e81016c4a377cc0; 0x73db67a1efdf09d4; 0x479a6393c0cc2d12; 0x3f5fa16688af1c7c; 0x36b950330749fd31; 0x458c4cc84e6adcc9; 0x59128773eae0625; 0x3ec97af4eda8d4c4; 0x5f1ec6700b1db39c; 0x63e13feef2e3a3; 0xa2897ec93dafcb9; 0xa81ddeef4c1e9d6; 0x614f70699ac630a4; 0x44fdf223b351894a; 0x6233b70cb0150542; 0x785d0c6bf88b9702; 0x51a15c4a0500c3b1; 0x519583106123b250; 0x26196bb38981a1b9; 0x61e564c9f224905b; 0x691d73dcdc2495e5; 0x5cc0daa1e9b6bd1d; 0x1e9479542139c7a4; 0x3a9a9dd2e86e0764; 0x5996e84cd1f367ad; 0x5abcc624b1f26fe; 0x14ba14b06a0e0ca9; 0x11f13dcd5fa54be1; 0x2ada52f8784d81d6; 0x243cec349f12aa85; 0x44ebf2cde70c702a; 0x39777e5c5d8b92a6; 0xb870baf2fd55102; 0x339b75d95ac386d6; 0x61167618405199ed; 0x4b02174e4902f9f5; 0x19ab328ed1834e75; 0x4959f55fcb13b54b; 0x5058a87b858f18fe; 0x2e5c16c74b404fa5; 0x5726b9189e2ac16e; 0x368e5f0fc99ae8f8; 0x4b4e7076554f6156; 0x6c0a5f59fe4e2d24; 0x5cfe73ea39d82f90; 0x2b28c063d3e68f96; 0x1b3c49cde6fb5380; 0x1e9a551f172416cc; 0x443ce2e59898078c; 0x3988b472339144ec; 0x6793138263bde45b; 0x5a614b59bfdf92b1; 0x3d3211c6041d919f; 0x1e4aef8b508657d5; 0x619b190d7d9a9b8; 0x79cb44cd849de246; 0x5ef14341cfd27041; 0x4952ee3ac0378e86; 0x7741f7573d144c26; 0x25dbbdfa556798ec; 0x1f699a603766a0c0; 0x5b7d5b3828bf2826; 0x17c03d0056cb9dfe; 0x4a40dc9400abda9; 0x4c3418fa67800df2; 0x74e280877c3154c6; 0x4811027d9159bccb; 0x507a844544c8b428; 0x1b377bdff5ddc633; 0x1ec01637cfd43442; 0x6f1de7697c5d3142; 0x701ca90161fbc60a; 0x657942bf194da8e3; 0x1b77431917f70cf; 0x3cf795b292b0f105; 0x123febfe475b9b2; 0x9278e36775ab5d7; 0x2588459e05299bf6; 0x1877cf5656f882bc; 0x300beb07fa1787e7; 0x329632c56c7e75b6; 0x2eec72d44e50a31d; 0x60673e58087929d6; 0x693d9f795af020b0; 0x2078389dd63d3058; 0x7c00bb5d0fb50d0b; 0x35e540ce803e5e53; 0x3232603f25b8feb1; 0x56e32a85abfe6fa8; 0x233f747b00d03be1; 0x299bbf9be8ff79f6; 0x4cab6118ec99eab5; 0x4e20fce224053575; 0x368e4506c2b6cc47; 0x478842f691858abe; 0x48e814fa8a29989c; 0x18b292ffa3b6088; 0x4d6e4e07506651df; 0x6c4e5b5a2c70a06d; 0x237ffd916abd3362; 0x7dbc9354ba123ce1; 0x2a3f7e9db547653; 0x698974efddea5ef7; 0x3d18e04f1c00d9dd; 0x728d2384305deef7; 0x77c28b871e43bfd1; 0x4975525f4503f6c2; 0x8ce007947c95da; 0x7701add3fcdd6b01; 0x5d4403f0d76ab37d; 0x1e286aa14e4f7031; 0xd214ec53e42bfbc; 0x7c07ca2e843cfb2a; 0x3333ad395438635; 0x58709c90553b9047; 0x47c3b08b6764ecc7; 0x61a453b3c44b7db; 0x3f85c921df043be6; 0x60e3758c502bfad4; 0x3900a687e3427225; 0x6b54bb16052b7557; 0x1d552b31cff952; 0x3d4363d3b0b867d8; 0x55a126fef1ded82c; 0x360a048d214d7035; 0x670fae74b1c8d457; 0xb27df9b4b665245; 0x1d5036c514c51228; 0x5859d5233fd6ad28; 0x3446e070bb081f28; 0xfcb5551a9dd2b; 0x65d8e863c2551832; 0x6b15db2fbc5a97ee; 0xd998722bb43924a; 0x5fda27034f2d9863; 0x7769caec58f57bec; 0x2aea0f3d0281bd9c; 0x419dfdb04df3985b; 0x4a665220e1951d44; 0x7c66f0f710373af0; 0x36d944942d062436; 0x6fc4de1fbb9aaf59; 0x5fb804d1090d4436; 0x1769caa74481a57c; 0x3c5e6c3fb4dc5806; 0x267affe0f5c82685; 0x67ad6f04df1aac13; 0x3091fd884926c21e; 0x78a1d075fcbfb1a3; 0x2eb52184828a7906; 0x31b8a12a034c00c0; 0x4855fb571c37f512; 0x2ad7813a737ec01b; 0x3d99562092de7b46; 0x2d0b7eb22ee60db0; 0xa663e49ab97e652; 0x52e8394db098096c; 0x7f392df2ebbb3ecc; 0x154eafd114f0395; 0x2314a57924a6ca43; 0x180a31d406353c4a; 0x1ce375afdcfa9790; 0x764e92cd047896e0; 0x699a40c2ff255a44; 0x75d69d84c439c41c; 0xe1caf08d80522d9; 0x5d5cf90b22ea7056; 0x23c0b5bee29e4478; 0x7cd7ce4847096256; 0x9d97ae3062b386b; 0x118d95b78810e504; 0x6079e199e679981b; 0xc0c0ccfff30303; 0x6181e1e61e7e7818; 0x3ffcccc303f0c300; 0x7e78];
   [0x412827b31dd6da6e; 0x792f31ab06c7dd04; 0x7a14b9f6b8f6ec7e; 0x42a2e4f4549b8292; 0x11e63549ae16393c; 0x21b4f1cafa6ed6aa; 0x56d0a542293108d9; 0x553e5f6d1e02c9fd; 0x4d4feb514e83539c; 0x2cf34eabb83f6f57; 0x39c9d0aa544ccb6e; 0x127f6c7fb876ac1e; 0x281f3095574da98d; 0x383c281935d88a1f; 0x37fd055ac1c692cc; 0x6b498c21a78a7e29; 0x14c0017b7f93e12; 0x3a7021de841387c2; 0x164aa756bb95f9a5; 0x78bf301b26349cc5; 0x3b074af963bbdd76; 0x30d281ab7dffc909; 0x407f491ad529b830; 0x5ad28e55569139b6; 0x776dd12b22e61af1; 0x727dde5eaa2a3f20; 0x76e17925dbc14e37; 0x2384ac9f68884aa6; 0x1956171d2b5e4f17; 0xe7f4af7862c8518; 0x5138a0b00022d13f; 0x767ba479cf6cb239; 0x6fdb5d41a36e77a0; 0x2a8ab832b20b6a23; 0x13a788830ea826; 0x1fcd82ec179862a7; 0x769752997bf2ed0; 0x13c4f7a5798d6515; 0xac8ad6cc258164c; 0x6ee3d97bf8f0362b; 0x38f9a228a0f89b56; 0x3b4695aeabd5a99c; 0x24dfdf0f3755a9c7; 0x3230301b88389c4f; 0x9da1d8b1afb8903; 0x24ac0d8025984c90; 0x4d3204ac732cab3c; 0x719f6c42395fe667; 0x571b4837c8b08f48; 0x65d2ab8425197979; 0x2229cf011715a6df; 0x2b1e5a32d7e71df5; 0x667597d3d6390b8c; 0x214f4b5b6877e45a; 0x46396e0867bdff0e; 0x5c8d3ffc9a7e5bfa; 0x637ac2d9b36492ec; 0x6788467c5547958e; 0x70beffd5fd53c75; 0x305bbf16f7554ee; 0x311d840946bc0e0d; 0x54e1348bab27d817; 0x4dc1f240069b4af2; 0x5b701e84b44037ff; 0x56a992c3d81a65de; 0x58fa24f621ea6447; 0x4a9c626d21d077fe; 0x219fe5ca01f649c2; 0x4343c43447b70fc; 0x61e98c221de41316; 0x653f80bee9aa85b8; 0x6fa8bfcc7b07f538; 0xdb111f5a0512af2; 0x3672356434c67f09; 0x4b55139f0fd3e7ec; 0x7ec75737e89f645b; 0x5465cc02a9c1b72a; 0x74f447726200c34c; 0x44735e400fa989c1; 0x72ad764aeb43e536; 0x1fd33795e6a5383a; 0x561db05c88fa1ff1; 0xc2c296d4d914d44; 0x62474127e01ba60d; 0x4abbcc283fcc253c; 0x61ff0cc7e2792a5c; 0x1da858ad80e949c3; 0x13c85e7e4b6c186c; 0x1e46f5ca7ed7b9cf; 0x682b5d76a960e4e9; 0x8fb29d4dc7f33a8; 0x7528625c0d3d98a8; 0x5c343d6cefd2449; 0x4254ddf576298138; 0x1169b22c58574256; 0x25d6dafbdc953dee; 0x1d570192fb535201; 0x21062db193e6c192; 0x197558d8794b565; 0x3c63c0cac04a7101; 0x2c86f0904df26d54; 0x3aae91d29d7ea1d5; 0x5302112a6161ec02; 0x2714a166ed802240; 0x6a95c3bf22c2e7df; 0x409cc2e3e2ab0d3f; 0x7f9218cbe301e542; 0x2845321a15160d57; 0x294516c5f4640560; 0x72c9218d147a66fb; 0x21ef6f3b2ffee242; 0x7e302e34b4fd9d04; 0xc20721691819bbc; 0x5bf77ab721e791c9; 0x5dd6dad32a078ae; 0x15d2264c4588cf7b; 0x7c75ca30ba9e299e; 0x64ddf5dacde9f502; 0x50e47f01bf28eb0a; 0x1875b5fd34ecca4c; 0x2a577a634329ed89; 0x396b3dc1062960e7; 0x36947df4e3653424; 0x14525329b4e0c408; 0x283bfb13bd1874c; 0x140be25001887ade; 0x3bc389ef6130c579; 0x3f7c28db5cf8e0d0; 0x2a2851e788fd5d17; 0x305435ebc188c93; 0x644826de696ddba5; 0x206eedc5e74fa79e; 0x5097989137ac46ba; 0x3907eb6cab5b9f6d; 0x43d9667e898c6db5; 0x403651e0c595fe1c; 0x65ec8d50988998d7; 0x4ee45081accda3b0; 0x721f74176307fce1; 0x4c2acea81022e83a; 0x35e45ca3961bd85e; 0x304f3deb9078bf70; 0x6e9d93a638dd57ad; 0xa2a45725a26916a; 0x2eaa8f22bc276724; 0xa0f8e8b0ff4ac33; 0x2f96ade3e9fd23d5; 0x195b1cf63b49c1f2; 0x395043565f470ff7; 0x5f47d3adefb49bb3; 0x3004a6f27154d1a7; 0x1134634e1ebdf369; 0xb6a26c6142872b1; 0x6253e0a724e9c0bf; 0x2e6a65379d227ebc; 0x772e3d9d8dd30bee; 0x28e403366920971; 0xf496f89a2c02b66; 0x2883961ab230c007; 0x3c0cc01f2b8a5d04; 0x355e5e30010bbaae; 0x728e2be37ebbf041; 0x103661f49027beb3; 0x1fa1de5ab268402d; 0x60a9bbec1c213a50; 0x6bae9c8cf0da843; 0x52ddc0e93b3e0ad8; 0x85a9a507d1ac486; 0x29be623f1885e14; 0x7c945598bb9c23b4; 0x705a7c07131fb6a8; 0x603acd31bd1a8ea1; 0x2de799fce03a2cfe; 0x44d8961a77b4f335; 0x7a880effc4e12b49; 0x6587e93265a6e571; 0x39938f83122f9fbb; 0x51d77d4bc3e7821f; 0x54ad31997dea0a3b; 0x616527a914d628ba; 0x4d603afb79f19f54; 0x37bd3223412212fa; 0x91f06a11da06406; 0x63c6fd63017625ea; 0x483f817a2e29a349; 0x5d9bd45b4f0d4c02; 0x772f84be7323ca6f; 0x53421bd520e0b616; 0xf6be4eb7eadb06e; 0x7eb06477cbfcdea2; 0x4f74066ca35e7b82; 0xf09c2f8c7ede6cd; 0x131ee097936b4fe2; 0x1522dc3127316acd; 0x7ed28bfeeea32346; 0x42b148de89da8143; 0x7bfad97175ff7f46; 0x113a73e937e00b54; 0x31021c5efe975dfb; 0x463fc847ae4da548; 0x4ff1d49ec09a9384; 0x70953f17e89bbc6f; 0x3ed01b46b08eb09e; 0x1c15bd63dc961724; 0x78401599afeac2d3; 0x7ed009b7f55dcdfe; 0x64bed6b6287063cc; 0x4929e0b31677f6b1; 0x66fc8918a834fdae; 0x24f2a3b42894c935; 0x3576c81d32a1ac44; 0x1cfaf84a731abdba; 0xb04fb58c99c57a2; 0x25cd033be58d228b; 0x6dd4df16ad1aa38f; 0x390e6e3f4c2f60b5; 0x6626d78aa856921b; 0x57785198af2c9b4c; 0x5df44920ccc0bf79; 0x4a78a29e0edce306; 0x693a5ebf5054cc39; 0x73a732a700fe2e7; 0x690044c556d9be21; 0x5ec0edc9c8eb439c; 0x3c569c5bcbc38f34; 0x2e7aa57a67d075d3; 0x599e051bc944515c; 0xfa67e1d6dcc6d5b; 0x35f0f5f727a9ce0b; 0x40de4db4edaf72cc; 0x66027a5f1dd17e05; 0x2828596e46d601ea; 0x7a3a9c4e36643768; 0x542372418f57621f; 0x4e83f41d87ed6bb7; 0xe8c8a521cd39fdb; 0x26f3dad97116b4e6; 0x6b3ab2922efc341d; 0x672b75547aeb6bc9; 0x7e3cf3791b49a723; 0xc77dd798fa49b23; 0x3cc9ff3bb174ab24; 0x7d8621bcc2bd109e; 0x403e31497de55f29; 0xdd0cf2d53d10039; 0x24b9dc8f7e481ea9; 0x5d487730b9eeff92; 0x64ddc1e5bc183f3e; 0x60385614e7ef28de; 0x38873e1cc69dc0f8; 0x12bd45c771b69735; 0x70e33529f9f148ab; 0x5f3844bad2bc1018; 0x66379e6b802d0010; 0x2005b7fd8ef497dc; 0x465be66ece0159e3; 0x4b5e84feb4a9aea5; 0x1a368fc68b4e8cc4; 0x3e8cd4356e9a67a3; 0x7840db630687018; 0x1fa6e225b4bd71c; 0x1c22eb00561c3577; 0x47f08d552f7c8e8b; 0x79c24c2ee71e32f7; 0x36b8136eb83c461e; 0x4846878119c1faa2; 0x7a62bf42bcd2a710; 0x4e2b2b8848b7e645; 0x6b3ae9c4fe213bc9; 0x16a4fbca1dd1354e; 0x3ff0953ba5239cea; 0x141ca97f1f480c3f; 0x411d257d1324e7c3; 0x72db4224de692268; 0x75508d4038e058cd; 0x36f12c4a26765bc; 0x69848fcbc9fb9f73; 0x3786d3ba908f1fd0; 0x1a1f62b3a09e7fe9; 0x207f4fd1fba4dcce; 0x2ce45c85532d45b; 0x3a9d5946e191e142; 0x36a435484bf6ee2e; 0x3c4dc7a0d886c3ce; 0x1b9f1e7880c65b7d; 0x4eb17d06c08259e6; 0x5f35d2403f2b39eb; 0x622c0c308e4b6fc4; 0x452afddfe7ae48b; 0x39f3be89f88e2c96; 0x64aa57f87f08d2c3; 0x714b0b3a7341e689; 0x79bf90f869e4bd1a; 0x6aa5c588104efe85; 0x3ef51065cdfa5cb; 0x70e34ebe478f3cad; 0x70c23db90fe0a41b; 0x5f2e102f84c5f651; 0x7ffe98d9d4b27a0d; 0x5768016b2b6df66; 0x75c3911149b04796; 0x50042851682ee9e; 0x1c88563d6a6adf56; 0x3dad2f71c1f3c2fa; 0x462c658123943fb0; 0x151f139aae28a39c; 0x61720f12c604b95e; 0x47d97c7eae33ee02; 0x474fdf9edd877e72; 0xfa1868ce4a8dce3; 0xf54b6820ebee3c2; 0x39a05130985f45ad; 0x458f2e90c698affa; 0x187e187987fe153; 0x33fcf30033fcc3c0; 0x1e601e79f8067806; 0x33f00ffcf00ff3c; 0x1fe1f8];
   [0x6130b5477e5d6a97; 0x4d4e9135973bdab6; 0x33689004448e5cf7; 0x4518c3d8ec386ae3; 0x10c176ab75c5241a; 0x286db4191e533fa5; 0x4f72e45cdd427173; 0x5b2aad64d1028962; 0x3c4f8630deec7f4b; 0x51944b14a31f43e; 0x3d68b8a95d97d9be; 0x2527799fb5e82366; 0x4ab8b31a537965d2; 0xe9ce9eeaaa0fe62; 0x69c411984856a907; 0xb4b8cd62671d313; 0x418b7b10d694d3f8; 0x3a4cc35ad9bb4753; 0x33e9607343684902; 0x7b4ce73112939f1c; 0x3a09d949e4490785; 0x49ec605eb1e9f17e; 0x45f9a9b7f86cbbe0; 0x36a94bfc4e06f4be; 0x61c0f74a0ea5ba53; 0x7d92e869aed56d52; 0x9621e8a9f565d21; 0x3d199458d46236b9; 0x22d6955d61ab3687; 0x64eafc6787eee67d; 0x1a2d7cf6666c7e34; 0x3e5cbc192cde01bb; 0x12a65c94fe1d82b; 0x322efc6d25968dcc; 0x6b1f54fc10dd94da; 0x55731fa26c30771f; 0x2b076822bea73491; 0x6cc3db9b92220e9c; 0x5efaab45c2bee39f; 0x545f69eb3d3f2060; 0xb4867b9c6361e10; 0x3404fa217c1ad76c; 0x1ced7d34eb3840cd; 0x2f16bf94ac73102e; 0x41741c24a4217157; 0x172b04ce1fce14de; 0x606f2eb0230ac820; 0x77e51e2757d2f0ef; 0x379a941f1bf507f1; 0x39fe0b56f8a4c6d1; 0x57a30b9d9c8c775e; 0x32e59824c5909735; 0x53b353240f8cff88; 0x7b043d1b3048f018; 0x10c3267fc60eff8d; 0x605339cd4e8916e6; 0x62babfe0ff88b9b5; 0x6be7d90152e26c35; 0x452d4aee1edc4fbc; 0x55150329bc652915; 0x779d5fa6ea9686a8; 0x3d7b922137bde30d; 0x2fb0961a40e0818a; 0xe912937fb2edc68; 0x498b02d004b78985; 0x5038a636e0da7b4; 0x1a0d48032b11d366; 0x6007cb1700e92f89; 0x3086a69218860d0f; 0xda2182b302c4d39; 0x7d9688dad6f1d916; 0x18e2c0270e72bc6c; 0x2138b8d7247de386; 0x3530916c03ff8b93; 0x1b80c1ada6e7427d; 0x468e611f4c67f998; 0x207a527ee6ef2dd9; 0x3110f3ea59b8952e; 0x466751b8fb9c48a4; 0x77259df5ce0a64cb; 0x360ef39c21df0c65; 0x23e32769706899b3; 0x6bf90f59eea9ee65; 0x6c05f2430b8ec2c9; 0x266c1775fc5afa41; 0x51990e7b8a85e447; 0xf1fd645f2a6d6f3; 0x167e7b75ba4942fd; 0x40973e94211a5613; 0x6dbbddd2affc689f; 0x16270ba946182475; 0x456ca051cfece695; 0x73f0cc38585741e1; 0x44299eb01edb93b5; 0x39a07244a63a5f06; 0xb51ccb9bb687c18; 0x13f08eca735f195d; 0x777124ebebb71046; 0x76b1f7e168daac52; 0x1582036db1de5a73; 0x72cf5d6876977783; 0x5553ff1cdc816d7c; 0x110600f2b240a4c; 0x64fd2df482c82c81; 0x41934bc928e5093a; 0x2ec668b51d5d7d7b; 0x1ac44a986cc3aec3; 0x4d1ec3675895c046; 0x5adcd3c82cec3a6c; 0x1fb81371af97e1c4; 0x674fefd166c0c6b5; 0x611f16339f04ef23; 0x7dc3513a86e364ee; 0x4c4050ce844b12d4; 0x4c5c8c75d5d7215e; 0x54939618ba56d03d; 0x18b12d74723a42cd; 0xa415327264065f2; 0x7771949ac3dd07d8; 0x65feedbf5e1e402c; 0xd76bf38c05ec5bc; 0xe60c373efb9ed40; 0x668d27a52d29b28d; 0x5af84115c9b21b9a; 0x73e990eb2ecbed19; 0x222b68ec9285f348; 0xd28b18de5db679e; 0x1e2ca057273c15ff; 0x523e5c65cedb068d; 0x2ba6518f438fe53d; 0x6fd8b0ed204cf28f; 0x3f8c0f8b53b0a171; 0x1f1359d205113876; 0x7e26270d63f1436d; 0x57c00dc3b9cd6052; 0x30872c023ff6e07c; 0x2b5f5eb272dc1c51; 0x343690f92b965037; 0x51a954d16a9d1886; 0x26c078dd2c8a7609; 0x4739373f472fe0d7; 0x258ad067f92de44d; 0x5c3386e224418d86; 0x61bb81987fa6befe; 0x7c49608a37f647b9; 0x4bfbbbe117c08b8d; 0x2c310578305f4843; 0x743407ada49124ba; 0x78919fe9f07c359b; 0x6c2aaeb3dc7492f0; 0x758009d89a022777; 0x373da68756eae1f5; 0x16a9ac5a36924503; 0x5633748d7f653650; 0x5d45194b579531ea; 0x54727a5fea9863d8; 0x5e479858c221fd48; 0x4382835b1bc6d480; 0x354c49a6370c130a; 0x10f8b0f7e3123e74; 0x102ce2a33e8debee; 0x11b3f2578b282bea; 0x329a9fb60e10fced; 0x27e1341570772fea; 0x6274ebae476181e2; 0x2fac4abf2e76412; 0x859cf6abf0e45a2; 0x67750f4bff056fac; 0x3b2d8723d83d6293; 0x38978f16d76b63e4; 0xb44ae7346663d90; 0x6deee23df4418678; 0x4fb4951d60fd6a49; 0x26bdedb547353863; 0x5141359c8c5036bb; 0x546ab4acc3562f6e; 0x4d660012b1f1489f; 0xf7043eb8559830b; 0x294933eadd0dba5f; 0x29688a80343f05bc; 0x7679321061e0c6b2; 0x11e46c17477f82e5; 0x217c9a0e8d00db59; 0xc204bb8093e3423; 0x459c7d1a5f363367; 0x2c3092cf34e47a0c; 0x6ce132a157407e8e; 0x1964f919804465aa; 0x4b4e7449b36dcd7b; 0x792bbee59d806e56; 0x3ce7fad93beba0de; 0x19f20da48c872092; 0x17e4bbd49904fd37; 0x2e201d50ac8c974a; 0x360bc55b5e5f69ac; 0x433300a2085ffcd; 0x7fee134e273ee1aa; 0x1214c6cc33682613; 0x5079aa06d55ed498; 0x4cd0376ad47779b7; 0x1a40215e8cb0a810; 0x3232ccbab4ba9013; 0x3901ad248037f381; 0x5167396886bf04ce; 0x2a86cab4cc2d1c74; 0x5d19ee0a8c1a23d8; 0x410e59bcb5edce2b; 0x12cb06cf3e813f57; 0x6f9f65bd67e3a041; 0x7e3090ff737b0e03; 0x38452600cc90f3b0; 0x55709ddf9eaabcbb; 0x4e6ae2b786a49b3; 0x226e74e843c3260e; 0x35fe1c907162c73e; 0x1d663ba5a514241a; 0x344251f3f949203d; 0x2b0e67d03382f794; 0x3d5cce0c03acef3b; 0x4f3bca098b7661af; 0x7ce7e300a3c7e325; 0x2884a367885beb10; 0x5244af6a3d46d507; 0x465de10d6c5a530e; 0x7b678098e3f57888; 0x7a4af17af253a9ae; 0x71d7ce4621faf198; 0x541d9dc92abef3a1; 0x1129b2dc0641b067; 0x163dd5712d92787; 0x2645188ffcabc28f; 0x2d4e1541584d2ddd; 0x9205d4fea101fd1; 0x7c168bf8e6f9a7a1; 0x48eda294fd5ca768; 0x4e81df902441a7dd; 0x58793fbe93849056; 0x778dbf631a484606; 0x3a0f9aa3d3b58261; 0x7d1e362d0ece0db4; 0x31a19c9b6e9af4f4; 0x246b4622cca37d90; 0x5bf387961aa60d2f; 0x1a5f7e599bc1c6e3; 0x4ba9e4b9113de697; 0x7f97f91a0073fdf0; 0x31e8c5f2f03af411; 0x2391ad5451bcc8ee; 0x7927b4e0458c23f8; 0x4c3b9738699b064a; 0x6e0445b2ce29a1f7; 0x76629c0a28fabfad; 0x6f012ddbbe4835ce; 0x4ddea6184ad52f0d; 0x2edaf9e0675e222a; 0x152303ebe279fabd; 0x347b179270ec1373; 0x63a4e531a8f64ab2; 0x7ebcb34e1548bd4e; 0xeedab8cd1f4cb90; 0x6206283c6fb35741; 0x64113ac9d7b2b62d; 0x270e480d5655b98d; 0x5dea396380f24915; 0x524c627f0d610e0b; 0x47fb366f3369df81; 0x749c47f03955130a; 0x70b9a078a6b37bdb; 0x479bc98d222b3594; 0x4832794fd37c1b3c; 0x73e64c4b2b1bacb; 0x542c2e1f381341f3; 0x71c86791d39b3a1c; 0x2b90bae1b6098e2a; 0x46d27f99081c5b7e; 0x31bb0ba462051f62; 0x3504483e1df99f6c; 0x6932d2c2803b0022; 0x6d0ecc27a210dd6f; 0x1573842ac9bee981; 0x130365e37e1d6dc5; 0x606486566459546d; 0x7e9c74e7be73b8d3; 0x2f883386a7d72c6d; 0x54e1454256ccec51; 0x65778596e82d53ab; 0x37ddd8b4eb5656e0; 0x195398b8f6074adc; 0x5ce803d95bfac674; 0x5cbf59208aae62d2; 0x250fc425490cae3e; 0x3c754cd0a70008c1; 0x390a7e72d25b7e5e; 0xb798f5d324460bb; 0x168ca76e0302fc80; 0x16361807fbd0278f; 0x4be90c90f841a2e6; 0x5db15ad936dbca44; 0x1cc7fbbb1d0ed990; 0x359e1ba5ee3cd55e; 0x365a0d883d2c321; 0x4ced8d3bd872a6a1; 0x5afabb10db587007; 0x2760ba801a5afdce; 0x32e14a7c98902fac; 0x3617730e44f6c663; 0x3acfd2e2fa138c38; 0x3032ccaefff7a947; 0x782b097ddd15c044; 0xeaca41d90b851; 0x62c2378bae871977; 0x635382f5c3c52132; 0x3f26e7dd81d7b051; 0x67f9818018181864; 0x3c033cf3ccf03ccf; 0x1fe1861f867e0018; 0x73c33c33cc0f30f0; 0x6007];
   [0x5482788caf9cf289; 0x515ff6af6a6bbb5f; 0x1c7d10c0015e4167; 0x35e9049f5dc62528; 0x2460d4bbfbf9ba11; 0x33ac06023e24dbec; 0x75aa1619ea9b36f8; 0x6c53bc765415ae4e; 0x3387f130da58f532; 0x33c90157377ab567; 0x3390d13dc745d6e9; 0x466fdc8ebcf5bc69; 0x110e3f0dd6c94d46; 0x4b1bc416cc12afe2; 0x581ba8917412ddc1; 0x2ec36a0d70994aed; 0x4cc7042cbab6f446; 0x3c9d575e37eb5cf4; 0x4ed45cdc2c961289; 0x7afb1ad1a205e53b; 0x9cbe2232d0a8818; 0x47dc70bae9a647a7; 0x2f0e2f0e50711450; 0x7c22cc9bbccf6cea; 0xe281c5416c77370; 0x758d1fd45d237c09; 0x2f39be4c7702846f; 0x5f500638685ed06c; 0x1ba182cee13479db; 0x42a033cda8228de2; 0x68129711c0873796; 0x31f1c693d8cda832; 0xe522ef50cb72e4f; 0xfd493a18bef0d7c; 0x1a2af00c9cc6c461; 0x182dadbaa85e10b0; 0x4166403e644d26c3; 0x7d8f124af6cceaaa; 0x3fab3101d7d553e9; 0x460b73fb54530a61; 0x6844fcff85247904; 0x15ab8597443f3670; 0x51cc936077c6c45c; 0x6847d60d5a6f9d9; 0x12e6cd285da00881; 0x1c6b03f1163d9ee6; 0x706bcbec1c081619; 0x1c3ef38dc8b44565; 0x1075e469137ffa57; 0x60e91e79ff661856; 0x1f1ce6b0546cb529; 0x2f8aba20fa76a0d3; 0x7a7f1d6275c669e3; 0x4ef9330df8dffd50; 0x7b171426a72b8493; 0x1c3dfdf6d2c8ca65; 0x7ac207f75f94783b; 0x1f06a50d849bfac5; 0x3f3c667f3f14f925; 0x44f2c96a743c0ecc; 0x1a596bff7adf1d32; 0x48a42778a686f769; 0x3b68784e9d31c483; 0x6e989780bd48fe72; 0x2665a0dcc09c75ff; 0x1119f58567c7afbe; 0x4a1a5b7a66360635; 0x4a513182a3f99735; 0x195a54dc938b0f85; 0x48d853df05eb6aeb; 0x415f33b9700834e4; 0x72e92e5d4dc8d52c; 0x281e6f3176bf1d8d; 0x54e50d1c69244cce; 0x2cc7140e5a7fc7e4; 0x733f8c0d172be098; 0x3ea5ce47512c0b43; 0x748ecca17a871d22; 0x21f4294dfd529fb2; 0x4744194607fb4e66; 0x2a2a2e366dc8be89; 0x605a9a6e35f77efb; 0x139cfbb8b9dbd925; 0x84041dafb9b3434; 0x652ec85a55a586f7; 0x17ff016586723e5f; 0x7f9a7ba2cb9678c7; 0x24bcb516cf0a3021; 0x13b196e47e081887; 0x4fe7827320b09f4e; 0x2524a08038809e2d; 0x2f5419e84b779a2c; 0x371678463d7f79f0; 0x6285629432b1ce; 0x7b91d0da07eb9832; 0x709c5bb7973d74ff; 0x3cbd42ac7236c88e; 0x511a042f6a660aaa; 0x7345cee962e801f9; 0x60a2052da0c4c2a6; 0x22e8a0933608ab; 0x49970bcf22f18779; 0x711cd1450b62d8e6; 0x5f25566284ef5d96; 0x11c3a06868469edc; 0x43a62a26f5709ca2; 0x4595ea71b3bc082a; 0x11fd5dc0388398a9; 0x5fc2ce406a989663; 0x7a0574f60402a222; 0x3eba87870f4a772a; 0x4ef40302b64e5d2; 0xa4dffe28b59725b; 0x5436aa68680e2602; 0x3c79596c3398373c; 0x556c12a9ee2f6bf3; 0x3ca5d60ae9234b0f; 0x491229b6104c2548; 0x377a7094934d560f; 0x6ae22daa1fb4ddc3; 0x5eafeff252525052; 0x346adcdf88530524; 0x594612c592a229a0; 0x7b20ff64788b6b20; 0x259d08d2dc378a60; 0x5b4f4008f465226e; 0x43f55653d34ce16b; 0x599fbcd1f0aa0f32; 0x264fb69f221c24c6; 0x5d97d4850b99b84; 0x43b6277578ea649e; 0x3f1b6ad77922e48; 0x5c26224fcb5d61ed; 0x267ff614ed66883; 0x18eba44da6b749bb; 0x353ba22c01d7d08a; 0x64b352620ca0b2fb; 0x65144323fec480fc; 0x38d5067a240d530d; 0x22a8754dbb8e57e8; 0x3cb586fef2c41c1f; 0x1d5496a2ba5f4bb8; 0x10f95da932c66d6c; 0x2e0c2fca7b13ed59; 0x73e3616c6ec3dd8f; 0x5fc00db9e19d6e2e; 0x6d6185925811ffe5; 0x379d34ebdaf83346; 0x6320d000c704802a; 0x2bb5bf8cea39e7a2; 0x3545122355d53977; 0x687d4ff9d62d4f23; 0x19bea3d51f3e9330; 0x6c3219dcd27fc931; 0x672d92d427675f50; 0x7a0eed589f365f57; 0x62ebd3887495732f; 0x43d5d23acdf3101a; 0x7c73382671e25f61; 0xe29136417cd99b4; 0xdfdd682dccf95b7; 0x4f9e880723fb53ff; 0x1e02c19f48840cd7; 0x48f4ee05ec2ebd94; 0x4ef114ed27ab9783; 0x7d7002dd0864c3ed; 0x53b670e0b36cf2b3; 0x48abd83588be56a8; 0x6b9980f2427e05; 0x1a09f01579fc80e3; 0x6fddc46579fe770a; 0x2c467ae38fdc11d; 0x7118b29811403cc8; 0x5fb555821eb6f3c4; 0x35ce9d2f590f4b11; 0x189d3fb14a57ad41; 0x1f7f1ecee10bd4af; 0x1c3e114cd4f3d600; 0x26eb392a4073388e; 0xdb5f888cdcae537; 0x58a95e6cd040bf68; 0x167058250b837c29; 0x76ac7732080da17f; 0x6c8a17cc85d67812; 0x724cd377a9507a3e; 0x3ba808b58c776a68; 0x5cc1b93962fe615b; 0x1f467affc7e072a2; 0x5ac95d2621ee7a20; 0x42eae3377b3b23cc; 0x260e934562b41daa; 0x72cd5d6cd2da027d; 0x7536b7f08fed2f8b; 0x70576e65dc9b30f8; 0x1a14b84a2fed0a1a; 0x7900481f00c22c55; 0x1f0e5be934159228; 0x12ebfe4a09e3936c; 0x67e2076690e7931c; 0x1967ed2d4575a5a2; 0x407488bc37a24afe; 0x26a29b4d970a4d53; 0x780a1ca9a81a4b74; 0x79544f44726e5f05; 0x2cfcead4a5c8eabe; 0x425d2aa5f1d46a86; 0x956e1261906cc46; 0xc75cd898ca0ad0f; 0x15cb8767f0fee775; 0x3cce61c2a1aafd2f; 0xe115dd3956c4b6e; 0x15b91301c9b7dd55; 0x7585f0c7b5213e5d; 0x1f5915ed511d40de; 0x619a5dc22f50b011; 0x52b22dff904e2c54; 0x1b6dda7dd0a842b2; 0x123190b356a42123; 0x2c3bfe2871f86096; 0x67aa3c4c8bb8ee7c; 0x7ad19d20488ecf77; 0x66a7b3c163b80cc2; 0x16e86c34caa077c; 0x2a8d5fc08f9f5757; 0xa661388405067ec; 0x5d76acab6774991c; 0x4cabfc13e7fbffa8; 0x36786f45f6b968c9; 0x95d0560f8334d78; 0x35902287a0961fde; 0x626424e60bd89f19; 0x12675f7e4307f060; 0x3206945086d700bf; 0x24a89933032d7371; 0x41abfe897c8253e1; 0x54ea97fec46250cd; 0x101f54253efd76e5; 0x366719d3c32e917d; 0x835fde424fb45bb; 0x3ed37b0fba69c43d; 0x1c5cb6ccf3ec5d52; 0x558ea2852c307dcb; 0x6a400b3be5bd2c6f; 0x3c9b8c82fa023f33; 0x53c5c8d544d4c7b8; 0x299dfa4e3ab3b02e; 0x105ab272aed89134; 0x62fd2603f82cd9a3; 0x3dcf86ba0c3bbb23; 0x199b91b64f1e08d2; 0x1ea1b7bcbe3d7e8a; 0x6a4857dee2f1095; 0x42a49afc5843685; 0x7891b588714b68ef; 0x6e3c1f07a6b67f15; 0x58c980650378616f; 0x60e50fa7478dde87; 0x1f450ecc7825132; 0x75835fd3ac11feae; 0x65c1b0b6e426c724; 0x5dd92de3e52969d5; 0x349d1406973b5523; 0x6d08989854ef05d8; 0x41efa659bdbdadb9; 0xdfbb47e7e0e8dc5; 0x7a97035929099c61; 0x3d3bb4000ecb9c08; 0xcc4d9626c09558c; 0x459ee4f26c36c00b; 0x777e839fd73f849c; 0x34efc7a515a317a7; 0x512a2d77026c74fb; 0x4dfb67d0b377fa6b; 0x3f200fc8fff3310; 0x13c6c206c192bded; 0x7f790207779cdd09; 0x5eb393b50e59cdcf; 0x7517f88715e6e453; 0x1e4a0cdeba14a59d; 0x6190ea3f2179523c; 0x492e6244783e63f2; 0x1dccca3cc7a90b75; 0x75910f6cf0d5497; 0x5e44e1de7cfc89d4; 0x66ce842b7411d1f2; 0x343596389f58f6c3; 0x7a9d70024b17d33e; 0x75b98b3dd4e93e57; 0x5ef04cdfa972f322; 0x2663250262ed6f8c; 0x297b6728c1cb8979; 0x211f7d6f44e1eab1; 0x714392a0246f26f0; 0x5aa09138fe23c4c0; 0x781af4ce8cf122fd; 0x5362a386575ec97e; 0x5cfa5f1df3ea242e; 0xc427c96144a821a; 0x4f26c5285c260c98; 0x63cafe8e37baa983; 0x33fc26edc4d6f1d3; 0x1c9e3dce1b3d15ba; 0xd29309535a1b9a3; 0x41a780137037e853; 0x219ecdd2d4d396a8; 0x657a4c46126b39ad; 0x5fb962c71f75aee5; 0x152365876a9f31b4; 0x1aef863707ce2e35; 0x658ce97631a8245e; 0x67da22a8ad4ccece; 0x1c2d01d8304dce95; 0x7b229af973f0029a; 0x19fe01e6006600e2; 0x7c0c303cc0ff0cf3; 0x187f9f9e18661e1f; 0x3ff0fc00003ff33c; 0x187986];
   [0x68f0fb3874a96f7d; 0x18c6c94881fe833b; 0x24ed0b7f616f0d75; 0x4ee1074c45e4d12a; 0x5c41db170dbdabe8; 0x7afccc0a5423ee07; 0x1a11109f921090e1; 0x2fa8f3d1ee7352e7; 0x290cf0b00d82c45d; 0x185859a66b97cbd0; 0x1c69679d901155f; 0xbafe6cfa6f56a7c; 0x79dcb115c7799657; 0x52279ce9327f36df; 0x315294375a8acd2; 0x269bad0d8bfbeb48; 0x18ce5b343a45b6f5; 0x1add68943997b30c; 0x365635ea9064387d; 0x4fab867179d12d32; 0x4d79d18cf5b89e0d; 0x1bf766b159410ab9; 0x4a413da1c11f79ff; 0x7d4e35c45e18b12f; 0x3c28a84b7c12f825; 0x6c4e655e7c4acac2; 0x18a90ac2a3fc8ed5; 0x4629f2f087693fb8; 0x5c83e05608413c97; 0xc33a6cc199b1f8f; 0x5178fc6b35edc943; 0x2feb546004c38aa2; 0x7b8ae3678715376a; 0x596319c343c947b9; 0x2523603022535e39; 0x2cd509c1049e3e0f; 0x1993e98708b112f7; 0x59c303f7e6ecf3ba; 0x753ee9b0243ee1; 0x109c6ce73a7ea96e; 0x406e4e4ebdd9358b; 0xf00aa568b201bc8; 0x5ae94b72df2c719b; 0xdcde5ecce85bc42; 0xa016085216a2468; 0x43922420b5bb5715; 0x70d61f49d82b48af; 0x27f7823de6dd32de; 0x7486b4ab25ba8b32; 0x85feaa561b8abf3; 0x7ce5d5838197b939; 0x2d6f9b191b8f7d39; 0x6d698586d3a107e0; 0x2c1f3071570bc85f; 0x593122917d2e0c82; 0x6189ccbc93206bf6; 0x605e7f44754b2f98; 0x6c9328dc9931522f; 0x19193ab1edb99eef; 0x6be7044341bb3a65; 0x363eb2a5214724d4; 0x27a9771a7ddae712; 0x3c9b38a2adb36b30; 0x39cf174d171bf0e4; 0x7e415f6c385f4ee6; 0x69f4d9a1b3a17d22; 0x2719156e88827e19; 0x17c7b78b8282cb50; 0x14bf9f730795e2ee; 0x36713908e12c383f; 0x242fd1ff29295e1b; 0x500f15dc93ab314; 0x42ff520315263242; 0x3485e619efbfa1d2; 0x317a1181cb59250a; 0x61552ccbbce3af88; 0x7032ea10a702b15c; 0x5957c4dc87febf60; 0x15af7a44afeb6bd7; 0x20a70ae4bc5d8cf2; 0x75c515713d37971e; 0x506cd410251ab67e; 0x29da91452eae71c9; 0xb317f811e5b563d; 0x7b8adb9c6bacf372; 0x1249e7ecc1a09273; 0x1f69213c5e728410; 0x5e0e8ab056a34550; 0x3e52fabdad552453; 0x736590b3e343e6f4; 0x744672055995cd24; 0x4ccb1195d7f1180; 0x4c068d51340ccd96; 0x3ff77c85044bf4ae; 0x646c68852cdada3f; 0xed68695fc6736d1; 0x1507834d01e07bac; 0xc7593273a5f8b6e; 0x5a90b7afc339f083; 0x694106bd81e3eaae; 0x3d6c2769ebfea1ca; 0x14013a1fe09a7715; 0x2dd2cfe874724dd6; 0x209c9a49a5d7aa13; 0x438c0dbf1833895e; 0x5fb219bc80dfb811; 0x56f99050fd7a97ed; 0x4bb44ed67590bc72; 0x744bda4a68d584c2; 0x1fb753e02279ee7b; 0x218fdf2640be13b3; 0x4b4a8fef329facfd; 0x6934c9dd64d1b950; 0x34875ce9fbbcb722; 0x4c87781989d46c23; 0x414def9a5046e10b; 0x5a186734755582b; 0x212f1189baf8e5a7; 0xa6b6e24e0a86ef2; 0x3b1ae7b5d956fbad; 0x7ad6c7b651ecc412; 0x4e2ddc63cacf2adf; 0x6aaaa4487c93e5b2; 0x51e67833e610049d; 0x6a18cf2814c97d51; 0x1424d070670bf3b9; 0x2f38ce8eadf21491; 0x355a4ee7b23ca641; 0x309d54d76321312f; 0x44559c9406d08e1c; 0x55868da000abd78b; 0x7da5010c05e49dc2; 0x287ef51aba6a042e; 0x199d6baa27cf62b1; 0x75ed966d4eb4c4dc; 0x23e2ad460bcdf09d; 0x69de86b4ae2e62cc; 0xfce1b658bbcf7ca; 0x63d029b2855655c5; 0x1375bd98b350e10d; 0x2589115f566ac4ed; 0xdbaa9d57f9a893b; 0x6627b8e114d37ccc; 0x356bcd771e6ae5db; 0x1b3f03611329841e; 0x662543012de7b4eb; 0x103e29f0e1c8978b; 0x9e9fada863720f1; 0x71a5bb273aae674b; 0x761fe720cc05aefa; 0x33fea64665762903; 0x51f82351d4e0e5ae; 0x7fcfaea961bf6393; 0x34de471b8c8cd394; 0x76420f074f75fe27; 0x1cee1bfed5b068a2; 0x57874c45b02221ad; 0x6cdf9a126454ac6; 0x1ac373865e02d613; 0x209b66791413e78; 0x1798dd66851d0ba4; 0x560219f887ce398d; 0x295d83144ddee677; 0x76bfeec40864377; 0x840c106103a39e9; 0x6992f75b9cbd2101; 0xf4e541c658fc97; 0x23fdfb5eee187a83; 0x6972148a7f7054c5; 0x43020fc82455355d; 0x59d464807103a191; 0x3d0c40930f846953; 0x7dd417a6fdca493; 0x1aef6f2b54060e9b; 0x6d04591223a675b9; 0x51a5889dee7ebbc6; 0x2fcacf750b4000b7; 0x129f304b28fa3d48; 0x60720fc2de26f751; 0x3622f4f7ac4dff52; 0x51c05d1bf3407361; 0x54a29b5ad2c9667f; 0x6500581eb86eab44; 0x7450e1663e98e90b; 0x74d8d54f18dc3788; 0x3f1153cc86f3b833; 0x4ea34303b7f418b6; 0x44929250491b2df7; 0x416415acd51de920; 0x50d1138461394b67; 0x387c1b8dee436edd; 0x52952d189d118e2; 0xdeb94af60f03ea0; 0x334caaf4eed7511; 0x4f00dbd80b5a968f; 0x4b8edd856ef472cf; 0xb29d3f89bda5133; 0x2e254b26ce7ba8d2; 0x3ca96e9ddd483c10; 0x5efe62350f60cb45; 0x7641d4f2bd3f66d7; 0x4a4a9bb187e8fbea; 0x7cc3f4de98e2d918; 0x3a76be8af0a1659d; 0x2cee6811810e0917; 0x6144d757a73df183; 0x1cd920a9981e6fb; 0x2138eddd1e2c95f8; 0x7160d8a36290278f; 0x6f0c28c26144324; 0x63df7b092965e722; 0x1c2e3144a5a42df8; 0x3e87fe43132e260e; 0x46f3e5d5db43e1f3; 0x569850862d9b9a74; 0x54ea4ef3bafaa051; 0x106ad8f6632f27be; 0x7cb65718dc0d1a8d; 0xf6a9493a6fb0b64; 0x79605e60eeb7c245; 0x74a1615838e2b769; 0x1572e506c184ae66; 0x52152908c53e952c; 0x59d61f2c10ff1cdb; 0x50a14a9fc39a83f4; 0x1defab81eac49aba; 0x221f102ff9969285; 0x8d126dfae87d9c8; 0x68ecd4287075addf; 0x1ad531dc56693bd1; 0xd198e2ef7a5727c; 0x7dd4b6f6ed3a485; 0x62eec64daae501e0; 0x608cc72a6be08e2b; 0x520382b629305a52; 0x54642aace7b393df; 0x3b40d18cc4becfe3; 0x932b98140e05999; 0x63d21f4e3751a1f3; 0x65a4d305c907d1bb; 0x21dcae0505a7189a; 0x7a7cc92a3eae1913; 0x5fe4b67447e740a0; 0x647c19325d9199a8; 0x5183ef0685696042; 0x21ddd5631bcc7e8b; 0x46858b0d03f0071a; 0x9c3abf51a182f75; 0x394f393faa54e659; 0x3870aa37227b45aa; 0x6dba285abb94129c; 0x2574cb625f162870; 0xe3ea3f097e935cf; 0x681cd53ad28ad676; 0xdd6638c78af4d70; 0x2b860ef4ee5a222; 0x42c48f0af484281; 0x46d918800558712; 0x50bfb8619101d270; 0xd2d1fa8d61b394e; 0x68708df822b55bfb; 0x67846f7aa9807831; 0x715195fc59214ddf; 0x7d4a895098d8078f; 0x51ac296d7a5a9dc1; 0x67af089d9a354ee; 0x7c215c7b9ab167ac; 0x6a1bcdf386d668ee; 0x128c4e8246046aa2; 0x3dbc9ea7290b4c86; 0x3311833f7009d048; 0x442bf84710ae200f; 0x74f1a8fdf343b0cc; 0x74336df9d9b17fcd; 0x7d59549c67062e33; 0x32357ebeb3389ef4; 0x1dcdcc86f4195946; 0x1b02eed2bd2273e2; 0x2776e59db0f518fd; 0x7e334066a740d57a; 0xd24fd84bebcf33c; 0x1909b4f5260129df; 0x551b2087c04ae2bd; 0x105d8e1873ee6f6e; 0x6da65f5b48b964ad; 0x66004f076edcecb0; 0x5cd659bfa7084701; 0xf55217d8b35f256; 0x58879b5c6a9d1a0; 0x4aebda5af3ddc7a2; 0x1851a75e370bc845; 0x5aa35328e42a5862; 0x35b2393b1e6a6914; 0x45431b578a73241a; 0x24b2fbd777a2b60c; 0x616e0e6fef864c57; 0x3d641cda328e0aeb; 0x62c8deb65672eb93; 0x329bbc24225c7fc8; 0x36f907b986573f25; 0x4cd1edd07c2a2076; 0x1521b05eb66bc67d; 0x50449406310035b5; 0x468e5da90c5c42fb; 0x361948932f901bdb; 0x18d8cac593758963; 0x16e3e1f1a2a84801; 0x2ede81d6ec80fd86; 0x66d864f36b3b4149; 0x7cad2783d531c984; 0x3bf09d489db1d0b6; 0x7c6539f9784c04f5; 0x2494e84e1efdc736; 0x61fe1e1e0187fecf; 0x7f3030c033c30333; 0x1f9f86006781e667; 0x43cc333030c0f3fc; 0x1f9f9f];
   [0x1064236bf8d3593; 0x2d823d462ed49009; 0x5d9e2229983b9c1a; 0x7be6184f94bf9d62; 0x77b55e75bcc5bb7e; 0x65d4d804df18b52f; 0x4370d150697a1ac8; 0x61a315ce0ad1d4a0; 0x1c4c850953d526cb; 0x34d3685d1538450c; 0x4d8322e1f064500d; 0x248f25b302a06829; 0x484a2d196796099d; 0x61fafefcb96b557d; 0x3510d2d407a391fb; 0x50d8a9948587866; 0x563af314cecb2e9a; 0x19b715812ad51418; 0x5cd87b1811472656; 0x7539f05b3a4c8398; 0x72be80b6ffa76449; 0x4aacd0ebe3f3603b; 0x61d15f07b9a69a1e; 0x5fc6c4ecbf29cdae; 0x64396fb3044aa4f2; 0x40262aae0772ef64; 0x1b498cc31578b995; 0x4b1c2529ab6614e8; 0x5bbb7c7ac72fa21c; 0x4afc0b1891402306; 0x1f6e532914a00781; 0x5f68b9dd77036852; 0x432b72ff0df4f941; 0x1e5ede3a6262482; 0x4530988fc388b0c2; 0x2d9a08ebceff9169; 0x1b447c9212c2c3b1; 0x4a1cf92d5a8e5b33; 0x19f0bcf4c60e0a49; 0x4e9b4e2af8eefc75; 0x70d5bd9242c1da6d; 0x5d70e75e1794748b; 0x422e1bac72ce521a; 0x40f95c23d6cf34b4; 0x9d33e7ecf0729cd; 0xae5b285303cc228; 0x20c10aa7b37cb802; 0x5a825a3786d384d5; 0x1fa47c3527528955; 0x5fdf55e24cbe66b7; 0x34be15114b178573; 0xa9f1f53cf186fc6; 0x27aaf32f3c1ed8c; 0x7986c76346301cc2; 0x71a85e54bf64b91; 0x2a6dd831a56c3b94; 0x33db4ccd3d038894; 0x44ae5cb6eca86609; 0x1fbd1a550fe4fee5; 0xf22a2704ca43a5; 0x5212901e7173bb; 0x62c204aba5e2029; 0x70c94b232cb2f512; 0x700a1a7f9785909c; 0x1349b29df01de481; 0x77468826f09811b; 0x444f56248c38a1b2; 0x7aa2c842012c8094; 0x56dbd4cac2403089; 0x59dc744800484012; 0x629f2784aaaa2d49; 0x303a13ca3f659cab; 0x5d38209ebe159479; 0x12a5b4f1691b1bcf; 0x636ccbd86cf9e7b; 0x649c6bbf32463b06; 0x170f8a62bbfa0bd5; 0x4ff115f2bc7239a9; 0x2992c385c83539e6; 0x629e8992c22da3; 0x4c5a72057bd66cf1; 0x168d042723f9ed31; 0xfd15e0df4ce7af3; 0x7ccb5f63af709fb3; 0xa454c18a0828863; 0x466e88b0c514b184; 0x387132ca67c136bf; 0x7c47aecbf6321eeb; 0x3082805b3638fb41; 0x3d91ab561e5fafa0; 0x7babe546369663c7; 0x643ec0215de997b4; 0x3b21b07573821f8; 0x1560c7b84ead5866; 0x4fcf8e5395de2014; 0x2ef93aadb6867ba2; 0x5d7bfc4a8782bfba; 0x5b25cfe60ffcbb2e; 0x729fd8a4203de7e1; 0x76a793011e433d61; 0x4ffe53a533d26689; 0x496f39842009250; 0x27216bfad44444fc; 0x20c77d152176b62a; 0xde452b07074d45a; 0x38e674cb18e5441f; 0x30d997230934c08a; 0x5bd3eff2f1644231; 0x78e4373b20fee7d9; 0x69ba80acc598b87b; 0x724958f0c965f3a0; 0x668ab4b8f8a0c827; 0x2fd2ae357159fc1b; 0xb9605b8a3c60016; 0x43564939a3f60bf4; 0x20e2223d0f32bdf4; 0x2e00c08c2898a44c; 0x2b802f51d48c5068; 0x3503946fb8884b70; 0xc0efc7b0061a1a7; 0x57bd07d4ff1dcc6d; 0x604f49a95ed735fb; 0x798a07185fb3e99c; 0x134b714a1a05245c; 0x4dbf86db93ae57de; 0x288e8d936b492b5c; 0x3ec744b8f433d9f4; 0x74d73ef0c0f6fd2f; 0x69d8b999e733160f; 0x354a4844ee5c25f4; 0x602454364855614c; 0x4b45a4da576cb401; 0x58e28a2760c64472; 0x37df2903820c572b; 0x5687e8e07dc2125e; 0x641595a50831b622; 0x715c144867f578d0; 0x3158e4fb0f7152df; 0x5220c32df786c833; 0x374c63cd9749c440; 0x2a85fb83c1f365d6; 0x1d5339beaac0d63d; 0x44436687b36b4afc; 0x1a371e4f7744d32a; 0x58ec3a35427685f1; 0x1cee9d3fff3cb100; 0x65c4b9a73bb4d457; 0x28f25e536a55bee9; 0x3eae65f9c36bc34a; 0x4e889ecdc010fb16; 0x8daf163499f09b; 0x59f41ec5e0a4bcc0; 0x3cd2825c4b5f072; 0x35d599ce0fc6b176; 0x323c7dafc92ace6; 0x11cd152ac74fbdc; 0x2bd39cd832a07ec2; 0x1f025bdd759ff953; 0x442cf01ac309dbea; 0x71aa3b2e61bfbc03; 0x2125443079e948df; 0x45f05507b1fbc67d; 0x62b10b93abf43bbc; 0x61293fd0612112b8; 0x5f3120b3a7507418; 0x18609707c3ba3958; 0x2de60854c03c6241; 0x10f5607c328d04af; 0x28339ad9c46d98f9; 0x465db73010461438; 0x5e8b69063f01e88e; 0x396b54479e4b3d41; 0x10bb6dfd72143bde; 0x5d9b9b0c9dc707a6; 0x43e3b9147345855a; 0x61986189f24ed1fd; 0x4658bdb316c7a819; 0x130cb58e1b79cb9b; 0x6e6236f52bf00580; 0x585246d1a151419e; 0x69939c5268971b11; 0x20c0390a6070d9a3; 0x40479bb527dca2ba; 0x4a3efed261cb4b72; 0x7cf2971c1e88810f; 0xf01f87439ec2a5c; 0x27b3a1cea4f131b5; 0x4ac9fed9dcd607a5; 0x2f5d5e7c4a18d95d; 0x54a38aa9b9dd040e; 0x56c0a77fc4bd5397; 0x1d0d03f0db270eb4; 0x3e81d6c1b4f6a7b5; 0x75bdcc8be431f4ea; 0xc7b62e3af46d7b5; 0x32c67004415b830d; 0x462667939a2ab6d; 0x6e8adc648798a304; 0x3e397f64a146bcf3; 0x44b9e049a8578478; 0x38f84b8e5684b33c; 0x2ce5a4164db4ab88; 0x439bc5e1eedd2b5c; 0x67d0fd750eb8956c; 0x3a5beb695bf7938e; 0x754deccd7c0c2617; 0x1182f3a0e5230408; 0x3abd071415e625fb; 0x5ec28bc1f460d7c8; 0x160f55d58ab88948; 0x6edebf50379e1b86; 0x8c2387e081fc1a; 0x259fd03857c18f74; 0x596c9703c362a9d2; 0x7f03e4fa51e00be1; 0x4b5d8d674dd671a6; 0x20718dce3ada51e8; 0x6f495a9ba7ba49d2; 0x2bf63beb48fb257d; 0x65d10f6f5e3807bf; 0x2319bc504e78c781; 0x66612a13f3ad8530; 0x7b3033f4e79029e8; 0x38436325db4cfd45; 0x4a6cd490d9746a4f; 0x273252a64c808386; 0x4ec84b3fa8154041; 0x49f2d34f21ab1b22; 0x3d03138e1df13be; 0x3d85d38a522d00d0; 0x7c078a040dceed0a; 0x457240bb4b7090c6; 0x54c3a8b67e3fea7; 0xc6004928306ba7b; 0x653cdda8bd1b498e; 0x2407989c820bd552; 0x4eccd55a03af7fc9; 0x1234d7be3b5c6bbe; 0x71e2f7e56bfa6fdb; 0xb79554de44932ab; 0x6d1b08012a77fbad; 0xf24e03f1dc9484; 0x1aefbce3c154c575; 0x421ec6ad21cd16d7; 0x3275b7533f073072; 0x2307a2109b2178b8; 0x51abc096652209d8; 0x72f067b0da5dba36; 0x25401a78f699b349; 0x6093055d17b136f1; 0x79ffb10a80b7e1ff; 0x564eda5150294608; 0x6004ebc404731c77; 0x1b2dc0a7ee956634; 0x44f39878117f7753; 0x34a008764b98e2a4; 0xf456a815421f94e; 0x14c54d5c7b36db99; 0x5624de071964a59a; 0x776196592c9ec802; 0x1643aa11e3dacce4; 0x46f67509d509ce53; 0x5e2a46e198a17ae; 0x17b68d9854705c56; 0x1adb71b473a046a6; 0x521bea98faeef2a6; 0x4da3b78fe834a761; 0x70ce0813cd8d6867; 0x705e26ea11080c0; 0x3f34560c9b4827cd; 0x26533bdb5529974a; 0x2637864a256c5df0; 0x66debb90cf275f07; 0x801fc0810a01b4a; 0x545b4c31ed141379; 0x7666a2cd7b032add; 0x1f434f0d8a4cf623; 0x37fc17b6afa7935f; 0x70f5bd88267a5872; 0x6893976db29b15a0; 0x503a1eb35763caa; 0x22ec071eb809d6ad; 0x6bc6916ed8f8008c; 0x4784d7ac5679f7b2; 0x423cb7c2d1e533fe; 0x5b4a0617b62e84f0; 0x1f7c6a369ca3cbe; 0x3e53f3673fa53c99; 0x2bee0cb9b72c64ac; 0x183c1275a2661e47; 0xa618881da2c91d2; 0x33f63b60e65fdff5; 0x6b43017131ba6580; 0x7e9ca4e0d18d8bbc; 0x359098b73bc4799e; 0x358a9f4a416b9964; 0x33d98de21e5e7c20; 0x12f90dfaa6626d3; 0x3d0780b3e9850f; 0x6f80d3c118d0a729; 0x57f7f8844f5ffecf; 0x43cc7fc1d10c13a5; 0x1abe86e2d6d2f845; 0x42ade04bf55f0518; 0x7808f2033f72693d; 0x177f7676e2447843; 0x7bdfc8e638a45e4e; 0x61a6e1c43c918ecb; 0x7122a454ebbef885; 0x36a100d79def398d; 0x7eaec9c1a47ed9db; 0x5f7fc7d610a65675; 0x62aa3915a6f06845; 0x1e679867fff98708; 0x4cf0c0f3f0f30f0c; 0x6066079f807e67; 0x70f3fff00fccfff3; 0x199e7f];
   [0x849fcf4c0e54b69; 0x5ab549c125e8d23e; 0x4c6bf20695b2aecb; 0x228e1c0aabc0d525; 0x2391226841fe14f3; 0x540cd94e8a21cee0; 0xbffc2d15b7e1090; 0x1892016530442a6; 0x5f2977ecffda1f5a; 0x3de1d109814cc915; 0x11930d8a99d9b632; 0x45aa30711e157e0; 0x779f410f4eba9337; 0x49394e053b173f75; 0x8e3f22360ce570c; 0x55e44ea6015ec4da; 0x2bb7db37e161f008; 0x4a2188b20c92f039; 0x4b23b5aaa41075bc; 0x2d9bbf6aba33f5dc; 0x20be95b326a087a4; 0x1e1c9456e1576a38; 0x6ee33c677c87b259; 0x5226cad10d5694e5; 0x7ec1302e2652a8b2; 0x1b4ddd49af5536f7; 0x3915d558d8644def; 0x578538e1e2f57cdd; 0x1ad1cfcad3e1d459; 0x444d3866cc930ec8; 0x4c59d840bc18a49e; 0x1205456dedc87d2d; 0xaf88b50e9ca56e3; 0x70c87d6643cbcc29; 0x7bb4dc92301a357e; 0xbdaf82caaf01006; 0x5ca6c78a2ada1b5f; 0xf736a9b92beecc7; 0x499e01f077e698f3; 0x519b2ed328ba25d0; 0x5040cbeebe1a12d8; 0x429159592c3ad5a3; 0x5ae8e30e716314c7; 0x7212f0f92a6bb116; 0x38153bcbfe8daa58; 0x3c49ab967f80cfd; 0x2c760e2f9ddbad12; 0x6c9e5e8c5084d086; 0x50e7435142b1070d; 0x2278890a8ae7f5d1; 0x39c7d8708d8611b; 0x5882720851b2315c; 0x6df10f89edecc40b; 0x632e2b3e39cc8f6e; 0x7b849d9f7a5a74ce; 0x62d805208a0ab24c; 0x471f4131aa7eaf9d; 0x767d96a0b8b8df2e; 0x3939d938d36c5ce5; 0x43034e620ec693ea; 0x1af12ba597740cdc; 0x4d56f71ea17665; 0x13ed89a6158c6e46; 0x1b46923485a7382a; 0x4a9f7ee311bef232; 0x5ba0c01c7594adff; 0x3a0012fb4f40ddc3; 0x57e754202fd99d4; 0x5e9e6ad2df450f48; 0x6cb4d1d3eebc7edf; 0x30d596fb6cea827f; 0x787c0e5755352722; 0x5e9c4839165a5c46; 0x5d5f1ab44800dbb4; 0x218ec2e2dcdeba19; 0x56986da40f4d63db; 0x586cc781532cb038; 0x23bd3a2951827428; 0x6dd935b20d2774fb; 0xc8651cda01d9929; 0x5b3d494b82aa5be2; 0x4f67fa82456d36d3; 0x9afdd9f7d9c6025; 0x634966eb8a3ed8e0; 0x7eb16c1c29e860ae; 0x6d4efad15a7eb9b7; 0x7e78a858a2cee5c6; 0x24a419746ad5fb23; 0x4cac71392d792e07; 0x7d6f32e845756d4e; 0x6f0df9ff3aa2a025; 0x484a47d719ec6e1c; 0x4ade7a1e29dbb638; 0x32114851d590fbc1; 0x20c905f17a5988d9; 0x321debc4575340c8; 0x7ddfa0599f894306; 0x55180c3d096b6c5d; 0x6c1500a983b238b7; 0x3b402d74f8c090bc; 0xb29bbdfe27fc042; 0x46e23b131d23cb2a; 0x13e09fe8ba3447a3; 0x2d706f3ac1785cb1; 0x728d429b9dbd6cf0; 0x59dff8b554c2dee9; 0x6d8749f73169ffd6; 0x6dea5ab2aadba074; 0x7441a1c68c3538f; 0x400b40f02f0446b0; 0x59e90f975795f9cd; 0x5a50e654f0002c79; 0x697f9a75d649f979; 0x5476a814da1b4d2a; 0x560b614f8a851d13; 0x5f0d0bf7517fb778; 0x50b8680276f17620; 0x566bd76972f1b968; 0x780fd9b368acad11; 0x29f1cea49cbf1455; 0x4177d0da9ead13f1; 0x4ae5912c1baae566; 0x5c4337e9b2b985fb; 0x261b8ff8ddde5d47; 0x25a68c09092263d4; 0x308859db98ff961b; 0x7d3697fb90d4c725; 0x89a2155d2088b2; 0x1f4c94ec0b2f1138; 0x60da17b2689eb5c; 0xbde2a0e7fa7cd73; 0x3f2b8f6199de568d; 0xab48d7550cff6ba; 0x35fc613784f120c2; 0x424d5d7c028d0a12; 0x5e593237f354348a; 0x970be3b9eeabec; 0x320c8bd8de4052f; 0x248c5e8ae2676b5; 0x703ebe004c58d19a; 0x3847d1e14d5c5847; 0x5024a77a68ef8286; 0x52d8f80ea87eb155; 0x72018f2d989f6b00; 0x341b26dbac8aea88; 0x22fede2aef296801; 0x3454d59c8085e0b5; 0x5d2d231d64a5bd89; 0x406187b20b6083e4; 0x46bf14fa2266a178; 0x35b0227c651f6a28; 0x37e6f2262883d1d3; 0x3c0030741866695d; 0x4833653bb96cbf2d; 0x1da1a57583b99f40; 0x202a6f3d5d70207c; 0x2cfedae59050ec54; 0x64f30370401204ee; 0x4cbec1aa9d04b745; 0x3850530ac69f62f0; 0x2dc2171fbb6b1c29; 0x1146e7b71849a9d5; 0x78898f0a678676b1; 0x2631b58ce601ded5; 0x3a546300a7ff27eb; 0x178ea5a926b8193; 0x31b64f2880374184; 0x9cce7f8d64b9f6b; 0x4843b28d05c049ca; 0x5bae7b848b4ba637; 0x6b37ef6071743fe; 0x38a529050dab1e47; 0x5346b0ee6f9a23d7; 0x2052f059890d0c94; 0x145a3955a6106c47; 0x94ef6c659fcbbc4; 0x23c7078811db120f; 0x770011ddab2b4677; 0x54d60f45d66d577a; 0x2852756ba30d50ef; 0x6baea59fa2525d6b; 0x344bcd80103e3ca1; 0x5037302922044882; 0xf60153adda9f811; 0x6fb2ea96ad1f6c91; 0x3a9290e7ed329af3; 0x29c27c97861bed10; 0x1d9c2c4ff906b915; 0x32d97ada6d4f786c; 0x5c440f52d30d7fc8; 0x7f6a7764b29d98b0; 0x4a294657a0177d1a; 0x34f78071e33ffa21; 0x61494a5159a0555d; 0x2e633f3c58ca8673; 0x16b9c4f4e9d3b9f1; 0x168b5df87088e475; 0x34f87776d8260a49; 0x52fe7e16c1fbfdbe; 0x3feff0b300c5558a; 0x18930ff564f818d8; 0x41b8919d2978cc59; 0x2ceccbc0b6dbe303; 0x6efb9b97de1ff27f; 0x12c104ee8a8539d4; 0x16c5b28629bd156f; 0x6c47ba2a668b1eab; 0x24c951157e7fb506; 0x563450779584fe05; 0x63ab68f1954abdc7; 0x75a6f09309b90bf8; 0xa68fbf04f559ff6; 0x35feac3b8fc42cdb; 0x6efbc2d2f3f3147b; 0x4002b614f00e9c7a; 0x362de5e60acef77b; 0x5d8efdc49e15a2ec; 0x6d7225c8cd3cfb89; 0x6c1d1752842a2fa2; 0x1fa7c33937f2aef8; 0x33dfaa5e27657a8; 0x3d614eb0c4021349; 0x5ca57d83005bae76; 0x752572d25a4168f6; 0x64c00492465e293d; 0x32a1f3273fd9e2f5; 0x73621f1370dc0731; 0x31bf9c214b5f7062; 0x1c186d40f59e84e; 0x2a873af3455f2c1c; 0x3379d1544c264f5c; 0x4ed44ed4f13a9083; 0x583e25456b89fc08; 0x7d6d982912c3fd54; 0x4ac8304e5f00f0ae; 0x2c060e61bdc8c77b; 0x2761e6fb0d2f9089; 0x5b0bfa7ab1887926; 0x2cc86d3f89531430; 0x530bf3aa762a06d2; 0x1c263908da6761d5; 0x4dea1bce85b7e32c; 0x40b78913fdf9f5b7; 0x28c8c9423027794; 0x238d3c1df718f3de; 0xcc7e772b59b6178; 0x532761964e16a0e3; 0x2273f4fdd3d8a9df; 0xecce8259eb8b13e; 0x41f71a3e6258fe84; 0x228538b9f056a24d; 0x2948f3a3868566f9; 0x10f3ba497f53a03c; 0x3f2c41220e641372; 0x62ca5aaa441b15d8; 0x5745bb9b51a499c6; 0xd89eb9a5115fccf; 0x1d6b85f5b447db48; 0x4fbda630aa742a7f; 0x4517263d9111fef4; 0x762156de715815a5; 0x6c9e53c2bb7711de; 0x4bc9d364063481fb; 0x28c2f318ba1d8747; 0x4d7a9011bec63c27; 0x534ab1cfc5d3dba7; 0x2c1b402faa5926e; 0x279227b7240e2d71; 0x13125fe8f1e69221; 0x6e4d2ffc54c089b6; 0x41d3732f6468919a; 0x441b026da9f4465c; 0x1ae251966e556948; 0x7d1d84f8d1a10a8f; 0x3c0bcfdc0d46a938; 0x74073117f96d99b6; 0x1febb6477809f383; 0x7d297f5160209b8d; 0x54fc414c1362cbe1; 0x48948cca88fd400c; 0x7bc4fb05d8a00d27; 0x65df1be5d84e5604; 0x5811852ee3591feb; 0xcc12c9fdb1ec52d; 0x29c340113a9537cf; 0x1a69ea9ff9638b64; 0x637ab58a31605887; 0x318fc675cc4dba5e; 0x3c4203014cf53809; 0x27d7d67c276eead3; 0x62e5fdab05680f24; 0x658602f94e57c2ee; 0x23f37a454426deb8; 0x252c5da7dacb9a46; 0x7b783c4d24be76e7; 0x739834edd355af6e; 0x1d3b8c860ae99053; 0x3637f061d13a6500; 0x10ec1985b4da735c; 0x791fd6bbbe4a8a1d; 0x2ac446ede65d0d1f; 0x16c6f9d0e6534bef; 0x5b19859feae2089a; 0x7f9fdecf65173e6; 0x5cdb6054d46e3594; 0x3290571847a5e585; 0x2978bbed06a85331; 0x6530cc168cc661dd; 0x1b873fd02d607253; 0x6c45e056197af225; 0x215520e95964afe8; 0x7d01554eba8ae323; 0x8951de6884d31f5; 0x6660007e1f87ff09; 0x7f00ccc33ccfcf3f; 0x7e67e61fe6798667; 0x7333fccc3030f333; 0x19999f];
   [0x1c2302aa3f9e8978; 0x65713f5089eda199; 0x1f440451cf5c1ba6; 0x6b0a6e5f998da7db; 0xd043d003b073f5; 0x2ad4be58245c4122; 0x1d85c907f7065d2d; 0x597661c194054c8d; 0x78df271f7e966f35; 0x26b638a79cc7e5e; 0x113fd312c1c18977; 0x2a468475ba03ce8e; 0x3080d5c2d6c17b57; 0x24eeda07c90e4d2d; 0x51f9bb638ab99d62; 0x4602fe02a591164f; 0x7e16a2c38edb7e6a; 0x3c3baba41edd9e9f; 0x4a23135c7da81a48; 0x6440388fabc2da89; 0x13ffe4e246c2f89e; 0x1263f904cd104131; 0x7baa6e3be048f5bb; 0x7c7cae67d92714a6; 0x33a5119346d51bef; 0x51b9982d48455b60; 0x17c9c5aef0c49fe4; 0x655cc6c587a82e65; 0x1b4b90268d3bde8; 0x401155a1aa1ec0e6; 0x6ba713af53d231df; 0xc98edec69ab5dd5; 0x212fa90cab6976a5; 0x5cdf157a1c2cea0; 0x4ce6e572ee1dbc08; 0x65e878255efdcb68; 0x3e6414921a299fb; 0x24770e3c87c05333; 0x73cc4ec56313e330; 0x38e56f337dd8f6a; 0x31054d6eed571739; 0x176120dcd8c5417d; 0x42cbf0a10e5fdc11; 0x439fd5d9a2fd9ca4; 0x6db6029244fc91e9; 0x113f4e714b320839; 0x5e654cb22c1e792a; 0x49da222bd6420fc; 0x3990984712bc5391; 0x2748b7dbf7bdd17d; 0x7de24d81dc18318a; 0x5b57ef56688896cc; 0x77deb5568705ff18; 0x30080679ded5b464; 0x1169ae9697423e0e; 0x3359d63886c0564; 0x22d3d3bf592cbb8e; 0x64737c6aeb7a611; 0x2d01bd1589298e2d; 0x49a960822018a5a7; 0x4f3e63d29c2dc4f6; 0x50d4f010a57e2933; 0x7d5e9d6f78df1e9e; 0x709528539d2c6368; 0x364f25b4e355b0c4; 0x6c92110c8d71baf7; 0x21617e0f55d75983; 0x6d3ba235a6f8692e; 0x7ab25cdfc346a9c2; 0x304c54440aad159a; 0x2e9d993a00be5dfa; 0x276271aa54c406c2; 0x57ee0e8192debeef; 0x542d140d8156ca60; 0x60db3a1ea72ec410; 0x5cc63ec362cc352b; 0x389e4337fe793dd7; 0x78576756818958e4; 0x12eaee7669b13726; 0x75d176abadd61ca5; 0x7931d88980eafdc2; 0x74fd03a7dcddbe58; 0xfca327fb90647d; 0x5e019271b2299d6a; 0x4cd3b5a90f8013b7; 0x416447791ef0d73b; 0x39d772025a0983a3; 0x7ec98d2d26c3d846; 0x5eeb6f0d9237d34a; 0x4b6b43066d8f8086; 0x4458db2e2a19915f; 0x3495faf2870dc77b; 0xce0224d3280a831; 0x1852aeac5e8b1022; 0x5d596c1858fc143; 0x4fe06bcd52a71d91; 0x1f4e42d324e1022d; 0x57ea21e2a798b2c7; 0x8e2625cf1765b4f; 0x477b381b7fd30031; 0x2de6d3600c846e70; 0x4acb9d756057108e; 0x3ddff210475cb0fc; 0x3aaa69a557ee8b01; 0x404a159f5eccf2d3; 0x791f62a7a2523c66; 0x34bbb5ea8e6a4920; 0x11d3f20b02c1f6ed; 0x2b9c38310dc18599; 0x67abbd8ce6bf4a78; 0x76d22b7616139f52; 0x370b19850f8f1bf7; 0x160974ecffb71911; 0x1b6718acc249c019; 0x4e965ab2e8cc597a; 0x3584cc5b3c101263; 0x13f75ac4fae18b6c; 0x5ae5ac763ac7d63; 0x41087c03844ea179; 0x1cc93999571a91f; 0x4a302d7b0e62cc51; 0xa07288aba3b3416; 0xda57b88625b47d9; 0x11fc38470e30cd8; 0x62d0bd6920f75f8d; 0x475f057f47bb009; 0x3c67ab81eeae17d5; 0x5965dae9af93dfb6; 0x1403aa422e2d9bd6; 0x2656caa1ef01926e; 0x242ccc2930880e9b; 0xf7c311360f69e0f; 0x79b5cec4f84be76c; 0x7f3233f6e2df4312; 0x7601b6c725d8b1b4; 0x468da5832ac25b7d; 0x3ce1aff8991f17d3; 0x5d2e6fc4542759a9; 0x1d09675a555ad698; 0x5d9184262b85be6c; 0x7534d4710f74b194; 0x2ad26e16c1d1ae0a; 0x74e844bc65f8795e; 0x33a5296fdf674954; 0x3fab92cc06d4295c; 0x6d41dabeac74d66e; 0xdd389183422fab; 0x15b52cde82686ee8; 0x5e854cf5556054f4; 0x7a4d662d789ed897; 0x531c677d6dfcf22; 0x499db32157de8744; 0x4873f05dfab647d0; 0x6f486667c880eb9a; 0x5afe225ebbddaef9; 0x425ac89497e07100; 0xe806bda59c73144; 0x52d2447f8987f711; 0x37ef83c7a95a5f1c; 0x5b9f8effbc0a17ea; 0x3808970e85a4a079; 0xda0c3e153f8f919; 0x672b674d491086c5; 0x2309899538babaec; 0x36a1bb17f7032111; 0x757b40644826f7d0; 0x34e53fc065363c4f; 0x328a8c601d92bd30; 0x50d0c0993c30076d; 0x6d99dc97e4992d56; 0x422e7ea468d5c597; 0x7c85659cfdd48aab; 0x1ad1c3021a2dff19; 0x879d6548afb0639; 0x790e683f8fd8600d; 0x91631afddd64d4a; 0x2a027369128aaaf8; 0x306bb83209652f1f; 0x177b080e14496a23; 0x35ff348bfa1b5394; 0x54de85e8831cb7ff; 0x194e18d9376a0db; 0x578c37f65aaa8eb9; 0x2a5f9c94b24b85b2; 0x23327006027a33fc; 0x2aaea0463d01cfff; 0x455cb7ba62557878; 0x45ae608d27cd6938; 0x69310710640e293b; 0x211a03c305da03a8; 0x6bec0dc3a0d5dbf1; 0x5b34a62c779e029; 0x7290903dbfd2a881; 0x5c27293851303767; 0x32c08dbbfccdb2dd; 0x2093859d3deffe44; 0x4c721c5e06a36994; 0x495d97b40d8d3f4b; 0x87340ca8ff175e8; 0x77102ea2f517c8c3; 0x15f789b9b556c38f; 0x27b0247e31acc645; 0x7e77d3d7c8e27df6; 0x46748a6011dbd225; 0x747e3213e023e711; 0x52313b907cc250a7; 0x19d56715418a1ecf; 0x140ed38cd8f85cdc; 0x3fd737d14974c29e; 0x32cd0c222a4ed358; 0x3dd90634a11d765e; 0x7a9cbcec7493faf2; 0x3f3244a26b0185f9; 0x3dc4edb47448cd4; 0x31012fbf3d286132; 0x6861d95079069afa; 0x40e3c9823a370f41; 0x9e550f1bd7be0ff; 0x518ef32f1854558; 0x101607a01f038d8b; 0xff4f3b00e1e7b5e; 0x7fb5bedf27221c85; 0x42020c523144daab; 0x6e996c6cda1ac232; 0x7dadb7cfa2286752; 0xdc797e41ec3a903; 0x3ba09a3990e0abd; 0x603b2b1210404499; 0xcab9b1f18d4dcdd; 0x64dadc31b6228a0; 0x760d19fc921a2551; 0x285a9e21b38c772b; 0x4593fe209732d5b4; 0x5fe17680fc7d997b; 0x798d61e60a7616bd; 0x64b8ab0f8f069ea1; 0x596be335289f3adc; 0x4de9cbf8aefaf636; 0x2b5ba5f1d23ffb92; 0x6e6b63f04abceb3c; 0xaa1bfdfb39d559e; 0x6cacea1d4cc1df9a; 0x46c1d9040df5b3c; 0x2ba1325a713ec8d9; 0x3bdb769cab05376d; 0x5d7e560de7528e52; 0x49bfedda5615f46; 0x7edad74f280f4165; 0xd1eff7164bd7743; 0x75294fe12dc9ad95; 0xa3bcb91df3d2865; 0x3bc6272068d9a717; 0xc84f865da5e33de; 0x53594713914928ef; 0x3d5e9bce8894a761; 0x3ac973719eaf43e8; 0x39ba1ebfb91ed544; 0x2f3e8e7fd0d112d2; 0x62c6d735c7cc621b; 0x27881270447fdb3d; 0x304dc8567f8ef5e8; 0x39fa6fa4bf23c15b; 0x4d3ecb68f1eb7f83; 0xf9aa9d6eda37d84; 0x51fae57bcf9ba289; 0x2fc4b706cc1537b; 0x31d3009c48e3884b; 0x61365f7dc6229683; 0x583ac50d50a1d9c0; 0x3beaf2994b0fc7f7; 0x4584bd0f90969eeb; 0x32668f9658b7d1c; 0x1803c9ada86380b8; 0x3b4aa9f04a22a695; 0x528e56a38d94bd3; 0x3a9495689363d49a; 0x1dd460642b906e02; 0x162ad10bcefcd77f; 0x6790d25f766e5d29; 0x55ef96b05ed0fb94; 0x7491eed4ec0a21f3; 0x617a93acac6573db; 0x75416f25dae804d; 0x2b86ff3569768c6b; 0x66921f8073867b4f; 0x79a414ca4a235abb; 0x690615fe8a663021; 0xb7807c488ff4c61; 0x69ae0dc565dcb5f5; 0x61d052549238a954; 0x714ad28dc0981cbd; 0x3d34b4997e6b0ad0; 0x3999d7b50c95e6fa; 0x2981be435c6a9c8e; 0x1e00959d10356ee6; 0x38381c2d0ecc769e; 0x471986c6f4e8d022; 0x2e6b57f4cf96113f; 0x4d24f07154851606; 0x5b5a98209284bc04; 0x2a8a5e6e07680d13; 0xf9b709d4fb1043e; 0x288ff9e98bc4b910; 0x2db3093b53fb4132; 0x61a8c6e306661ac8; 0xf4a8d688332b07e; 0x4e839bddb30f5c5a; 0x5ee74769c62e5d9; 0x5fcf8d8eacd009db; 0x1b30df92a41cbddb; 0x6641a0707848f4f0; 0x3d2351963b163920; 0x7e99412e7700b7ac; 0x780780619f8679f3; 0x33ff330c3300fc03; 0x79e781ff99e00186; 0x7c333cc00ccf0ccc; 0x1e07f];
   [0x7b4953f9a34fb803; 0x11694961db0f7bd2; 0x7a3110d683e9b851; 0x42269e3a805ef849; 0x32a8d670f1258e16; 0x7dfe7c766ee5a651; 0x6a1312bea15db023; 0x443ab2de6f35fa4; 0x2da8712070d623fc; 0x3dd3adbb90ff8f37; 0x18a10333a93ce1af; 0x768120d1c4e24303; 0x10fc922181c4b30e; 0x58bc37096b217e58; 0x14ae7432d60c44bf; 0x59f64f981f04b3e2; 0x7d0619501aea152c; 0x4865dfc0064cfde2; 0x3f7f92016268ffb4; 0x706f037186b1fa60; 0x60eea0689b96ad6f; 0x4420139964418aa0; 0xa2449f4306f3a2b; 0x3f96e56e9a9e7e27; 0x6664b5cb23a5ed9e; 0x68d89ec1a3567bd; 0x31f6f84a261152ba; 0x7cd37391789f1921; 0x5c04062eca6e420b; 0x31d2347ddf55117d; 0x377af936abbbc937; 0x6e5641f563a286cc; 0x3a9bbb7ff25dbd29; 0x787bd6bb12ba0b1; 0x7bbcb0df8e8c2810; 0x688581ca11376a06; 0x3df1aff9b5456e8f; 0x3f7cf9d9ba2d627e; 0x65c1f407cfaf4a23; 0x514ea31174fe76ae; 0x2144f182afcc9af4; 0x7a6c54207e77b556; 0x79b83ca27ec61e16; 0x5fbc9f31c532afe9; 0x776acc01b643035f; 0x534eabaa4761d337; 0x70c945336fd68aa; 0xfda14f0afe799e2; 0x92b799aaef7f35e; 0x4ec14c13d2bb9c48; 0x28e2a3c8e878c770; 0x578833162c52dbbe; 0x27604b1d2490a403; 0x3a4e90b0bbd92a19; 0x6a6b82e25b37d1e2; 0x473e53e3a527c4a7; 0x27fdbc868b2e6945; 0x4e5dd69493b67474; 0x65991052c19f2e37; 0x33ed6d38fccb780f; 0x7108c5a6ba9b4c34; 0x2cdd371addc184fd; 0x4b2d67a0758cbb52; 0x6a53486f2e4647cf; 0x5a891943236d4cd4; 0x580cb24b43a56444; 0x3898cda48a0abae1; 0x17b339e8f57df77f; 0x5996f41213da9465; 0x240995793110a78b; 0x9e382641353d43f; 0x747bb030c17661c1; 0x340e70d1ddc938f0; 0x5541d3d1e349e795; 0x47574622d7e1c94d; 0x1cc0bf45d2d6542a; 0x4d67ca9c0ae4761d; 0x4b616c1cc6a531a7; 0x60563a73f150526a; 0x3fef97e188f3ef73; 0x2d5572b211b6fc34; 0x7fa7860724ea3be6; 0x1bc454430a6ec25d; 0x3fc670b5d813d221; 0x575dc97bf9ba5670; 0x611f451b1b7c5f8b; 0x2a3c624fd997ea42; 0x4e53218c14e202e3; 0x51fa98e00b7bc344; 0x1f4b60c21ab2f369; 0x1835e164ea89692a; 0x233267e3435cfb04; 0x2200d63d11961efd; 0x5a67da884996bcbb; 0x4f96c4de9d5327d5; 0x6002de0768e7711c; 0x8a0df7e6ead92d2; 0x1c748829b6994795; 0x7a653a6dbd8a39d6; 0x4b3d90a28695a6f8; 0x7bb6254ad7f9c43c; 0x22efd37d39c56d46; 0x6da6e5190a031906; 0x7310cd89283dd14; 0x14499658e9ab753f; 0xb2a28ca605efaa8; 0x4cf24bbba74df1f7; 0x6d9609f431b7083c; 0x2491eae387061d9e; 0x7ac6db9190ededcc; 0x1d58ff164355f56c; 0x61dfbc6a6f1e3099; 0x72369b7937f4da38; 0x495c1c7a109b3ef7; 0x4620129c18e67b2; 0x404da86b4ea74e80; 0x667b263722a282b0; 0x94ff5113aae07f1; 0x6b5f1621ef5a8cfd; 0xf44a3082c25e44; 0x49f72f14005b57e3; 0x7048473c898a02fd; 0xc94bff6bd5e7004; 0x42df3877cabf866; 0xd462dd8beb5be6c; 0x7e2f3a5887832d09; 0x658ae8c9b718a676; 0x288953dc10a6584; 0x2eac043ffc03db52; 0x2061b2f58864e501; 0x332cfbd0d80a3d2e; 0x455804032fa631f3; 0x206e262364b51ec0; 0xbf5ef134a9c203c; 0x21d42727d894c926; 0x7c3f01f2ae1c14c8; 0x4c1067582322ba9e; 0x2237f770855b3725; 0x5747f849a491c29c; 0xe72069d854f8c1b; 0x755d2981aba6298f; 0x1ef82bd2aae27299; 0xb5a92abaf0e6554; 0x76f27da9d7e5a429; 0x6d96431245351f04; 0x1ac0be24d079008d; 0x28902fad2115f3a; 0x73442340af2aad86; 0x171f18bb10cf9a37; 0x7a2e93fd7744bd76; 0x6766511bafffe30a; 0x31a2b8f8fdf7ea2a; 0x5df7a9ae639bcf26; 0x415ab25a56169d8b; 0x53112943c30f932; 0x56289d776a8a5865; 0x5b1f2e3603d7f514; 0x2f0dc0eda940b152; 0x2af81cb6ba71d38e; 0x798dd20bd321dea7; 0x2ed8a1e56166e6f3; 0x5772a67b0e5c083; 0x7fe2c22d7af58a72; 0x5c111c5815f8f1cd; 0x132de0e2efe80b1b; 0x69c1a29227087cb3; 0xe55f96fc88f503d; 0x38eb7492e06bef8e; 0x2dd4eff36905c441; 0x3e95a5c9dff42803; 0x3bdba01d1a691f3; 0x9c9b5d0f6363f3f; 0x2666eb186346c84c; 0x1337f7f56ba5c808; 0x44384c3919e6bed0; 0x37bc166a0b6ec673; 0x698e4042a1606edf; 0x6d887438ffcb4e08; 0x382b9a73a8e00ad2; 0x14cd52c9b587b8b1; 0x40e56828b1d2e08e; 0x7a317576b415ae0c; 0x35fa5ef26c1220ff; 0x48ff821d3b0c9d60; 0x35267973d113ce59; 0x1ba35ce07da31d0d; 0x43a00acead6f5121; 0x529c979ad03f6554; 0x7fad70f9534837fc; 0x525d4b3d83934efa; 0x7e9f805b5bf2c90e; 0x26eba1c6571a4fce; 0x5ffdf9e6613b4757; 0x6eb528395c808ce4; 0x2635fbe8fcfd6c69; 0x4b350bf02f58b672; 0x745cbcc7f2dffd81; 0x662a06ba62715244; 0x4dcfa2962a5e460d; 0x53231195cd253d40; 0x73fcbd71936f1ab5; 0x706d742ed05a4a78; 0x4d724c470aad1923; 0x2cc69290525c10be; 0x1fdf4911615d3bc4; 0x57cf72b00f8eb10a; 0x7a306bbc9d301dc4; 0x409d39b4e4ce36ca; 0x40ceebac8eafea4b; 0x608b62d59dc1a227; 0x1b6a9ebcb399f6fa; 0x7b8f744c4771a786; 0x4280d75c273f062d; 0xcee348e07d58198; 0xb966960080bdb03; 0x4f1aa4a774e6e142; 0x42464e380bbd0352; 0x29ec754f684ab8b1; 0x2514c50b3ed8350f; 0x33701d16a02bd6a7; 0x2e979af25a85ec90; 0x1231f29c108be6c5; 0x4e1d789568acbd39; 0x32fd9b488abd7d69; 0x6f622200b19712c3; 0x3fedf6d4b7d48c3c; 0x679f96c574e97e20; 0x4bc5b4dc4ad7810; 0x33397c3ef3b2185; 0x1e9c501952134fa; 0x47c9b2569f1a4923; 0x70f3906d94e10b26; 0x11397f1e1d036576; 0x620ea5331f52ae19; 0x3fe91b50ad17ab88; 0x715e51c741db1dab; 0x7a296b3d602cb52f; 0x15ece0e3507483f; 0x5443cfab09ab7c3a; 0x2d0db258a1af99f5; 0x8e7584f9decc925; 0x64e4b9b1eabba2f2; 0x551a0f59f54ff75d; 0x663b0dc877c59cbc; 0x302f145d3e2dbc04; 0x4a86c5f7e5bc8a20; 0x6439866ff2d87262; 0x65ba3461ac89639c; 0x2c6f6d0f02c72402; 0x1f75141dace2af8a; 0x6a7d59d68c443da; 0x73110784032ea844; 0x103a2e01cbd65cd9; 0x10330472916572d; 0x15cfc7c7b9d24762; 0xb78a789ef9893e3; 0x4e15369fa751d51c; 0x56c6eb87c3e653e1; 0x2cc01db8b59cfc29; 0x1b0ec7ddf2858d70; 0x46a1b28058ad61f4; 0x205c38d1eb501f38; 0xd386682d804ab98; 0x47dd63305efa38f9; 0x17e8f55f7f3ed6b5; 0x470f01000d329a30; 0x6c4f7ce86247c346; 0x11a654938fcc4380; 0x24fa42c181720c33; 0x7f3f5e3de93fb50f; 0x3d3f7137482b3c54; 0x1601803b355c01e1; 0x297b9db3a0ee4d6c; 0x73eac8f2b4fae991; 0x50f927be419491de; 0x1b143c8cce21a810; 0xf827486b63e1ecc; 0x4213f3bad01a5265; 0x44028fdb0d146f87; 0x2de18ecba7e3f253; 0x5aef7e7fb1fd5eb6; 0x69c55da3caa86088; 0x51a4e578d712cc3c; 0x4bbc75c180060f2c; 0x11bcdc88aa3d5a7d; 0x581bbabba12dee20; 0x6a073b08c57ae222; 0x2f40ad1fdc2e6cb3; 0x25debabc338a3319; 0xc3fad6524cef0fe; 0x1c0fee9687914673; 0x46ff51885e753353; 0x63ab379c3ae88416; 0x11f1eb1386847fba; 0x5a89a7e7d5345938; 0x70e9b85e596f792d; 0x925d0800886470f; 0x6d6e5f524317c659; 0x1cbe04209de5f711; 0xd93d2de0729e089; 0x4d5a5643e02cc5f9; 0x4dd96a70a2cbe20d; 0x49ab216540a3a659; 0x1689b46efcb04ad6; 0x34b5ec5fa933f2d2; 0x407b3eb8f932bc00; 0x3b5b118c9a7e0bac; 0x3f67fa1773f7ec64; 0x4642be4db303b38c; 0x39c5bea06972b1cd; 0x788b70487f1302a0; 0x69a45014812c6f15; 0x42b3209fc9a6ab19; 0x780000780007e74a; 0x7303f3cf030f303c; 0x1e7e799ff8007e01; 0x30f00ffffc3f03f; 0x1ff878];
   [0x1307b6ec23c0698a; 0x7e068d23e7806836; 0x1972eb9c026b8dd5; 0x1ac4466ecab0b4aa; 0x2ef1f1ecb58a2bf5; 0x2168fe40599116d4; 0x67af74ddddf91750; 0x5a85168d0a655ac6; 0x3a87f424b5e9f301; 0x24e08b750e541d6a; 0x16747587f8639ade; 0x1929981c815a3272; 0x7367c3d80dd6bcf9; 0x3de32377ab7818a3; 0x1601d65fa0a8871d; 0x4bc609b7e687bf49; 0x581a1745bd6db00a; 0x28538e20359cf676; 0x3366f27aa788277a; 0x34c3bbdf30819c0d; 0x6075812cc143b412; 0xdf765c3b0d1d2c; 0xbae4f2f7a24463b; 0x3767f01afb5e9e22; 0x54dbd9d4e44e2a18; 0x41fce9b1593dbd33; 0x2126977046e93773; 0x10831832828aa3f2; 0x3b8835d72652bf20; 0x74e2917a4c995268; 0x7b734f47919a631; 0x2b4b85b4a44bcb47; 0x4374147440b1af7e; 0x41120ec8aaad74bb; 0xfe1f7bfff231eda; 0x40cf258f88ceede6; 0x1db0b32dca4df2cf; 0x93b2d6a4a7b1358; 0x3e9e248c7c46f7b7; 0x1e8c02f947049fb7; 0x24f2b0eef8d5ddf8; 0x56e1640acec221f3; 0x380aa4cf1c224bc0; 0x776c7341173fe1a3; 0x7ff6af54bd126af6; 0x50655216a8db6294; 0x3db9ce3b0a9a3a1f; 0x4cbf8ec6cfc985f4; 0x4c885559195cf16f; 0x662f6c9b017e985; 0x6cc47b0b11acf579; 0x65ccacb5e7853529; 0x61d0c8cd93db9e3c; 0x11b86ae5cd094c51; 0x1c97d99af0b61653; 0x4a8ebee07c8ebdb5; 0x68541f7e7aca607e; 0x289c762fcc2ae8db; 0x3321dff51d040643; 0x3b43d8026a7ac494; 0x31a316ca687b02d5; 0x2abbf522a1f31f27; 0x7e3b118713002688; 0x60f191475ffd58af; 0x5cb175b58f4cf57b; 0x3e283277e8df1e1a; 0x249fbd785ec565f4; 0x369c90db0a0b625; 0x3be1ea59aef3c5f0; 0x27b93e9ee4ba7409; 0x3dfb25103f703459; 0x3caff07d03a34c3c; 0x76d2c38584d0084b; 0x7bcc21d587152f85; 0x3356861db0c81f03; 0x46e7f681e46f096b; 0x2a7fc9d7564b59fd; 0x18381830f5a476fc; 0x48607641cd27fd0b; 0x2cdb6991827ddc80; 0x2b7d14c1f3b9d231; 0x10c5e8be9f1a37ac; 0x4699b32dc64f9f6b; 0x2fd18bab1d232f93; 0xe34ceecc74235f7; 0x3a92ee0d951bfcb3; 0x3aa97c3858122bec; 0x4853dd49cb9b341f; 0x7dcf8d64bd415f71; 0x6d550100c39ded56; 0x6c09dc19027e565b; 0x4366d7b52652e296; 0x614db141b5b0cf07; 0x1f09c7e4fea116bb; 0x4968d3a6b0e540d3; 0x7841a1d38f97d3ef; 0x4342d0a2891577b4; 0x4d54ca30794b99f1; 0x2e0d896caf8e6b07; 0x488570e8e546bb8f; 0x47e4c19e513d4c47; 0x44539fe22e7dfee2; 0x2b75a94e63d4e84d; 0x2a449817a4ad937f; 0x3c37dfcaa12cc4fa; 0x45fa9c56f6b07ba0; 0x686ef5fb23fd7512; 0x3e16b92f937f272f; 0x76ccc6a75c60fc86; 0x3d2db6eed6459214; 0x184a6c37d5b72b89; 0x31f76b845209acfa; 0xe8c4fa3b610d586; 0x6254d07ce5fd1edf; 0x49c87c5d223518f8; 0xaff7d830dc7a7f6; 0x30f1dbb4a090c56c; 0x322ba07e9dd83638; 0x704b55053661b265; 0x4a18abd72878f71d; 0x32b3dd8f9f7a251a; 0x53645235c4bd4da7; 0x64fe554761b913b7; 0x7864e9754e76350a; 0x61864c21f7aeabda; 0x3b8d29c78ee8fd0d; 0x669b23686b2a0765; 0xff2d774f029975e; 0x16730be8ee3fa128; 0x2a4b0b79d2046ae1; 0x21b9717a2dc9a349; 0x2dae8ed119d8b15c; 0x307c293b15005ec0; 0x2e1d5223517a9a74; 0x1f65693991a06162; 0x2c445547dae19cc2; 0x576201f105ba157d; 0x602e02f4f2dd1725; 0x2ab324b652cf1ee8; 0xfb36254ddd9d84f; 0x6fc5c99c10f1f3a; 0x3e9d45982d80d22e; 0x3f02526a646bf68c; 0x47d99a2a327652d8; 0x8979cdd299867f4; 0x3db0361a388c3404; 0x78203abe6bf5f30a; 0x5260896dcb642f56; 0x4096735aa436e788; 0xf16fb6148ebcc45; 0x7bf2399583d12d57; 0x2b08e5f87d5e0d70; 0x1fde9c789faa5ca2; 0x588bfd4992f414e1; 0xa7188de3c53120d; 0x6aee5903cf1afcb5; 0x17f7504cf43fd134; 0x46f543635ee99509; 0x102467b959500f80; 0xe943864a9b2f155; 0xad5eb89a51a45eb; 0x759c65cd0833a0e; 0x46a90c6c137d0b29; 0x32c64d3c5a53b9f8; 0x5bad69231649ef38; 0x78d8ea277dbc4646; 0x324efc9e608e86f0; 0x740e4a358ce083db; 0x1c0ce9649f806c36; 0x1988753766323f6b; 0x586540da1743e754; 0x5950fec017ebd349; 0x237855518f6d01e4; 0x16e70ea3cb265acf; 0x3562f4402c8a16ec; 0x57f5f165a46b507a; 0x7c1541d6358a192; 0x790181d09ed332af; 0x260c05eb7bbed053; 0x3d83b50747505fd; 0x3bf00c6c779357ea; 0x6db4637c2fe812f1; 0x7f4fd231225eb011; 0x797837bde1690efd; 0x5008bdfac0e00cba; 0x104cab3e7029b82a; 0x50955d48d69e8413; 0x27bf2fe13d814799; 0x411b6786107a2c70; 0x30d1eba4916f930a; 0x608794750e2a276c; 0x2030139f36823ab6; 0x4995ac0b3601670a; 0x66b1b68113aba0ee; 0xcbd6f36ce82237d; 0x4279c631fa3153fc; 0x59d83aaeecc15efa; 0x137701385aa79551; 0x197e74c8f2a85858; 0x2b7c367f63065ede; 0x60b88a2ad791e006; 0x2418b724ab9f990f; 0x5a43bf0e4e5e307d; 0x40a766da2b5bd0b4; 0x19342db2df750c81; 0x36c0adcb94a044df; 0x4d3fe3b1bad0983e; 0x25e86fe734330612; 0x6335bb2644110d7c; 0x111a9288d8d7b878; 0x690e018942fa188f; 0x721b0ae023ef469d; 0x33c04eaa6f9d002f; 0x2d1fde4b9e9e36dd; 0x5ce7d56f1f917ff0; 0x6bc7097865e07d03; 0x703a180ed283cf12; 0x31d8dcef124c1f6b; 0x11d8988fe6038a81; 0x59ccc33bba46d401; 0x4c17ed04aa295d1; 0x5f4c7b4d31da2176; 0x5f83d4fe5e33277b; 0x320f9503f3a354c7; 0xb7d6b3717f6241; 0xde2b42ee9945674; 0x60a5fbbcc3c4f4eb; 0x7c6a3fa6c057fa68; 0x55feea37c151e649; 0x62efc6a726dfe1a8; 0x5bd87cd4cea629a7; 0x4f6a7b1b3e641672; 0x6d13836d81a420be; 0x37e12d21b8a1e972; 0x3332309549de4857; 0x1f61a0f624be049f; 0x7d8244fadf897ff7; 0x18dfde60207ac7a9; 0x41726bc397431f68; 0x7b8b8c534dfdbcb0; 0x410ef9069fce7fa1; 0x589bc6ce335d82f4; 0xeb4c45e5de9309f; 0x4b4d3ee222236aad; 0x4d14bab32a6f437b; 0x425d6d19d1be4f1a; 0x396e5b51e4e018cf; 0x61723d58d7b1507d; 0x211755e19c0fe97b; 0xdc9a0560d720ae2; 0x5762e734fcb215a; 0xb7211e3af66cf65; 0x50fb02d7d5333be4; 0x9109251738aed61; 0x512c26528a7692e; 0x47331a36707e6ce7; 0x2dd97659ddde2b60; 0x100b10aca970f8fc; 0x649bd22e0ef11f66; 0x52c5e881970cc6c; 0x20fa5dfe2433e0af; 0x4922c2e3071855a7; 0x75c710075cb0b566; 0x68d8c03c69baf31; 0x74f5ffe4e916cc01; 0x40abcee168d139dd; 0x7aab3c9c6f6705bf; 0x3891a522fa6eca35; 0x794c4bb4593ba43f; 0x3cbfe6c42761d5d6; 0x4c19835d68d91567; 0x5fa4e7e42b189d6e; 0x691417f90173473; 0x19d294d62e20da1e; 0x57d31d9ec917c83d; 0x44e9c11f6bf91c3e; 0x1ce0eab4cc914578; 0x177dbe9383901a48; 0x1fac6a345953a4dc; 0x283cfd10ed990614; 0x26792751e5cfcd30; 0x40e5dba5fef2e211; 0x2218cc467d59f6b; 0x250248aea716e9d2; 0x1b7f971c92415424; 0x4963f8c55181c681; 0x67cc65b9efe12a4e; 0x2bd73a7b0d59a26; 0x16051f2587667356; 0x6bd49113d411cdd8; 0x73a2303dbbd87c5; 0x77d79a1bb12e9813; 0x4ae1507ffcad858; 0x74af17f654ebc7ea; 0x45d0e3008052be2f; 0x297b716f4a525796; 0x419fb08391f60575; 0xfdddb0396e866ea; 0x6c3cf224526fbf1f; 0x79ae4ef671ae257d; 0x6a2e5e48be34e297; 0x30eada2624fb942a; 0x51394de8a4193aed; 0x266b6a8ac3fb0f4c; 0x6023eea6108fabdb; 0x35044858a1b3dff2; 0x1c574bee5c1a7f18; 0x4ae1c9aeff6b34ce; 0x153f2c46a92b9b68; 0x6b35082bbc632f69; 0xfb2933c1c19808a; 0x6c4bea03a46ed072; 0x29a0a0a2c1a4ec54; 0x787e6660000061fb; 0xfcfccf30c3033cf; 0x79e181999e19e78; 0xf0f303fc30fc3c3; 0x7ffe];
   [0xaf2f762e70a78ed; 0x23e007adfb48f2cf; 0x6cb9577c7359b3e5; 0x3559f9647fae8514; 0x54bf1083babd6e41; 0x41c1fb47b3921a2a; 0x6f130828f41b8c6c; 0x5fc810ada578f936; 0x16bf9f7b0acbb42b; 0x78936b16ef297b3f; 0x562b8ed2f48ea9fb; 0x1878712051f37418; 0x26dbd660255c192c; 0x4a3128849dd97320; 0x42e94849a262799e; 0x601dc29cbb394089; 0x619f8eee1c946517; 0x43ab17187b151f6e; 0x8193537f66348b6; 0x4afb926fa0354318; 0x782d084e4999e0ce; 0x1b222da68e68e58d; 0x5b61932c5f90bd77; 0x3ea116a083156aeb; 0x38410e47b5938c20; 0x481eaccaa0ce5361; 0x6d42609b632b3345; 0x155d9cfeabaf796e; 0x2bb8b76a2ebb6df6; 0x7bf3b9038e9823d2; 0x1c53ea0269d0f3a3; 0x4db783cb0feb2651; 0x434bfe2c18a97df4; 0x2efd332568e0f05d; 0x203e3ccf85deb752; 0x498e2ab2ea87697c; 0x25a582df8e6ab3d3; 0x7ccb91753a21bfe5; 0x4e23e47275b5eb29; 0x57f4c5ffd56b1e01; 0x799ed6d483b74899; 0x7a6cfb10e94e8e; 0x20a388abd69cd8fc; 0x158bee21373e6dda; 0x2b2091f03dda2025; 0x3d0a3d5e36c8ec1a; 0x1e7254bf9eb4d9bf; 0x7fce38e67b1302af; 0x31a03f1c039f9688; 0x2903900d0194cc17; 0x5fa5b52b28e4ce88; 0x1757467b3de6fde3; 0x486e0ce2fa2567ee; 0x3d83773e36ea004b; 0x6f3448de48a22ece; 0x6879be17d08163dc; 0x994a9596638a6da; 0x6da5141aeb73e732; 0x771c8d8a08f2ec47; 0x169ab4d3c79a9e08; 0x6fd0be2a86e4970a; 0x2d38cd739ab9dd6e; 0x47b04b466fb69e80; 0x1fdfca3be78777db; 0x3c7a446bd90b61ad; 0x593698f68046433f; 0x6f69cbb1ec637a63; 0x54fc5518b66ffac6; 0x66a78b8f46858ea3; 0x1e74def1ba6fca54; 0x471b3710ef2ce612; 0x27c68a1cf9fe5f15; 0x40a0a8510afa6264; 0x75d3d1f8fe6dbd8a; 0x3e2c3700d8cf5d42; 0x3708ba3f5c0db6e6; 0x355ce212f9a3e60e; 0x59ffb40702e1c6fe; 0x719b30a505c7f87b; 0x7c495e491020e726; 0x6b254321bb5db205; 0x2b38ab003d224b2f; 0x1e525070803dc13b; 0x2bf2f1c84638b440; 0x2915ddf2b7cd50e3; 0x3cbd5880a6f07147; 0x7569e3caa0f4af84; 0x592d5aa2c71537dc; 0x39989e2df5d307e2; 0x3261ec35ec5f8d1e; 0x39e2fab34b85fb31; 0x6af037e374f86889; 0x6fe1cf4fbfbdc3d0; 0x5950497023e106bc; 0x5b28ced762a2d73; 0xa5c154e3d498f59; 0x585cb69a923f314d; 0x500bcbc6213654bc; 0x356cadc45318076b; 0x282aec2279adaa1d; 0x67285e9faeb428f7; 0x56a87de976909d89; 0x11b6401a0a5db565; 0xbe1f201f96cc540; 0x6f3a0257f03dbcfd; 0x155423b82a7b06a0; 0x750583acd7de99e2; 0xd57a64303501cd6; 0x4b9af9e4a67b108a; 0x6f81b2d0bb456791; 0x2920e39ee63e8a65; 0x66a6503480d031bc; 0x6088b7ad6b39cc8b; 0x16e5af9311e75b2a; 0x6691e8c8fe227775; 0x2e0a194bae43fce8; 0x6d7d3f8693a3d7c6; 0x2accec095976d19d; 0x271f6dcd9076e3a0; 0x5d74f16f3b431fa2; 0x34f6340ca46c641d; 0x1735cb70b578cce6; 0x6747f3aafe6df98b; 0x5c72777a8ac90f8a; 0x10d2dec286212619; 0x43bee2155f9513d9; 0x45fa69f4b6697331; 0x4f54797e09ae36b9; 0x1ff126a8463a85f1; 0x39550273aa719c02; 0x41fc590ec367183f; 0x63fc0881e5e99dd4; 0x2fae2eb3b1c2832c; 0x444285dd9cd4c79f; 0x5fb657d0cc27e126; 0x78a9f94742af6a93; 0x49871608fe9d8a92; 0x642981996a9915d3; 0x5dd24daac19f21ce; 0x6ae113bb2ea3eaf; 0x4d3b44909c133f; 0x46230fd0a42aaf31; 0xbf03de37c20bd62; 0x3c254c4b685af1d2; 0x2a4b33fe5f9660b4; 0x52abd7f085b055b1; 0x92391e72676e99d; 0x26072a182cc0e290; 0x48c775530d934f6a; 0x75ec00a23e6aeb18; 0x3403cb8d0bb91af4; 0x19d5e7bae17b51be; 0x2db8cde09de38dfd; 0x6f1066193082f392; 0x14a2a73959a70c4a; 0x12941f05ffacfd6a; 0x5adfe9ea8689a000; 0x5bd23577041e8acd; 0x2cf94b221f92e15e; 0x45c95364d0d6227e; 0x8c1cfca541696a5; 0x5b4902bda97789ab; 0x71835f48949d669d; 0x774c02bf44c84073; 0x593ac7a478057169; 0x2559474fc61ac496; 0x59d4d7cfe6d26a64; 0x2c13fcaf57618e68; 0x7bf9fb6dd3d59e0f; 0x7d13f456fd7c3439; 0xdf607e67460afd9; 0x2d4517c4e0266452; 0x41d7125707fb7975; 0x767e99a9d02e8ad0; 0x2c46d1fce78cd61c; 0x4d97341dc54e9c2b; 0x59b31dca65127c4f; 0x3a62991118681591; 0x7b3926740aab9336; 0x383b58f0493904ee; 0x3c980280bdfd1a10; 0x1254adb40eabfecd; 0x70a1c463253c0fcf; 0x6caac0afbe2d672f; 0x55fc8ba462c5b173; 0x6019b426a8c53d9; 0x3df90880c1c98285; 0xf17c11fb7eeb90b; 0x6daf438b88818aac; 0x7eb36deed0de847d; 0xf762acb5d51e9ae; 0x6f24314ffd0e4b1; 0x50716cb34bcb3594; 0x3ec8ff18f45ad931; 0x2395f3c8041a11e0; 0x1389742313fb69fe; 0x4490fa90cfbb9ccf; 0x45957808a2a94a2f; 0x563526ad0e36f582; 0xbbb81c47f864aba; 0x6015030d66a66f5c; 0x3517ea837a015414; 0x162632f5480fbca0; 0x140746041ad4413; 0x60cd940239bfbd5c; 0x46dbdf460c9b8643; 0x4f7139074f4859e0; 0x975a351bcd493; 0x7a45e8a8da19e9aa; 0x6c9690edc303ce6f; 0x3a1be5876bb93629; 0x5c90925e129b9516; 0xb7f890c171a72be; 0x186ba1773963606a; 0x63692a144f9e3228; 0x7bf63b3c48d8582d; 0xb3f1824229b00a3; 0x7f04085ae6167c82; 0x331e5119552159e1; 0x18b59ad1cf46924d; 0x3c642d44af6ec465; 0x4806f8495cbe3f2e; 0x380cc2a133020435; 0x7b9397b6c325c307; 0x39db35890edadfa8; 0x4bd9e2114cd17767; 0x51b3aa45ac2d1741; 0x6c4cef2d20e02f82; 0x1457751c9bfe588; 0x652919119d9879b9; 0x346b864d1efa16e3; 0x9b01518ece08240; 0x4e63aaba97bcb4a3; 0x2bface138ecedfca; 0x5225b3cc2dd4deed; 0x14cb3e518b66b1a; 0x2d7ad6e459e1ad2b; 0x5dcd8b98491c7852; 0x785a451c02cd143f; 0x6294097fa30c0e80; 0x3a0412eaf7138788; 0x4965797f40f7eff4; 0x4b6d498ba821c44f; 0x5a9c435eeefe1d37; 0x4a805ba186744608; 0x7c27c32888834d56; 0x307c6d5c3e427c4d; 0x4facb21e23dc8b1b; 0x1025a1448ca78243; 0x763d8c96ec617fc; 0x7d8d0a2a73911bcc; 0x578b0815e64e600; 0x38cdc5cedd37847; 0x80a4b87123afbc8; 0x50239546162fa5f7; 0x1e4726701f41d953; 0x93feed57d639ae8; 0x37de7f2a3a194da6; 0x648eb4777aac8841; 0x5037b4e3397c9553; 0x5b2f825566f05ad8; 0x116aabc15680bdf8; 0x157d3de5d46c27d6; 0x358e476058668338; 0x716482b5ac8fc2b6; 0x3be7e4ec3dc58c34; 0x43f762412e263543; 0x6b30c213f4e36663; 0x3d741287c53e48c0; 0x31524a7204f35afe; 0x799e4244d439184c; 0x18f8d24fa839e8dd; 0x2d22586f9b33be8d; 0x7548c0cb22fdab3b; 0x4fdb71fa16b9eef5; 0x35b1c9f4b61c14e9; 0x45329948f36bb65d; 0xfc0261a91594469; 0x167c25ed7abb8a22; 0x6b4a03358ed30476; 0x4c81e9d4545dedc5; 0x345cbcd407e05cdb; 0x288933053aa0ff7f; 0x4f50fb8329354c8e; 0x2548df99650cf91c; 0x485a9dc9da5d8b6d; 0x3af3e4018894c2f6; 0x5a8f53a7da07cb96; 0xf02aeb5f197ae94; 0x1f41b4b1e3ff4b7f; 0x1743addea8fe968e; 0x30f26a2f398580c8; 0x386d298a97a7a2e; 0x72c6d567e2982c15; 0x5af53e9eb7e6682; 0x4a4d6d804fa8c0d9; 0x79b28930f19c5d74; 0x4f9b0585a19e8fe9; 0x67a0c4aa77698ffb; 0x33c552ced4c5e525; 0x5e7cb8f5aa6aced; 0x6aedb7d08461d381; 0x5ad1a4e8472a0082; 0x5516b852f41195b0; 0x34c89833c9e66f62; 0x6933d0cf6a675179; 0x12158813af15f1a9; 0x1e3c673aca320ce4; 0x57f0c8b19435169d; 0x640abd99430a800b; 0x9eb55a2f3174c9d; 0x70e2ad2e7d21e3a0; 0x69614fda782d563b; 0x660187fe079fe6c7; 0xc0c033c3f0f3fc3; 0x19867fe7e01f99f8; 0x3c03fcc33ff0c030; 0x1e07fe];
   [0x24d8836b8a93aa27; 0x76407b123738e336; 0x533af1a3a711ca42; 0x467b8cc8ffa4d727; 0x10c1513fdb982668; 0x34b36f0b306c6f3e; 0x574efded9b471c62; 0x6ff10650693bb7cc; 0x4e39d332d0ef95c9; 0x7456d6301c24ae70; 0x6b53c05fa2621564; 0x4ebe04e6baf38c81; 0x20cd52707a1804fb; 0xcc03b650181f884; 0x65ed1d76ad108944; 0x57f8ad164033aec3; 0x6189264c43c91e7f; 0xac60b03eab27b76; 0x16935f6035232668; 0x33a65fd357029957; 0x411a36b2fd130279; 0x5efcda37f870a6af; 0x7d79bc0cacc119dc; 0x66428b2645e6938a; 0x4750b5b2c99ec165; 0x2dd24812a3e706a4; 0x3080564647b5bba0; 0x4387e4c012fd4ba0; 0x4408c050ea6ff4c3; 0x5bc5bf10e6745f89; 0x5ab92db6f388e607; 0x3db3f0ec64493747; 0x7d148ec1e6ce3c7a; 0xb54c45f7374ca90; 0x18d389d168078c03; 0x8852358f5dcdd6b; 0x2e050f1408554455; 0x25786eabea3c5515; 0x50f15f74555b32cd; 0xe0ede7c0397df3e; 0x785179d688ad8589; 0x775d1c1c3e5da63a; 0x4ba9f09e3372c09f; 0x6418f0a011e56d13; 0x1916f52dc570575e; 0x46ca04e3fc03ecba; 0x3ffc5c6f2e02eec2; 0xd95d9da4ed0e99; 0x589a7ec1ebad5831; 0x4aa6d6cb9a191f5a; 0x1e32836ba40ee7ba; 0x1fd2434cd6d3dd3f; 0x2d3ac141fbc2b035; 0x7c6a2cb1b99a87d0; 0x4e235b5d3ee0e2ff; 0x4cadb5111f3c4077; 0x3f774272a5b03e5a; 0x7ca25885b8e7a06d; 0x522fd3bea7acc46a; 0x7246697b578395a2; 0x4f14ced41e794f5f; 0x12ceb80ef50c4c7e; 0x5f11284012241ed5; 0x60890fda414fd8c6; 0x31236f744563b48a; 0x70849d48fc9b79f6; 0x762330c9e0a41962; 0x488b2d7c33d37f88; 0x3ab7d81d90dc90e2; 0x19f405f15003960e; 0x752af294ddfbac08; 0x7d309e78a73100f4; 0x3154d69e2d50cdc4; 0xa00ae6306f4226c; 0x6bcb83156c48b5d2; 0x6384e6b533a8ebad; 0x72c1aaf9792c801c; 0xdc362a1907f0d1b; 0xbcc80174fd20dce; 0x6fda1d5e4ab80692; 0x37eb1101813a7df1; 0x710f72b3517de2f8; 0x2ba024b622d30fb2; 0x49b62c8e1face93d; 0x5ca9a24eb9ba51ea; 0x227a6a8f94d48cdc; 0xf85da53e62f2204; 0x3dc51f90e3943a4d; 0x1bc2f17238729bc4; 0x31806a4ca10a05d7; 0x44ece5947d5b97b2; 0x63eb4ae5fc1e18b9; 0x116014a199696da4; 0x38c63d6e9a9b8f04; 0x583913636d9d8f0f; 0x49c18bb7bfad65de; 0x19d808a40ebb4a57; 0x6e87a431030bce32; 0x5d8bca21e8813f4; 0x1367b689f99c32ff; 0x67208a42037a005e; 0x2309c40b9d783e04; 0x7164bd73f5e974b8; 0x7958fe45a3a799c1; 0xb807f5ec7179c90; 0x14744c9d01a7398c; 0x39e5dbe09f820259; 0x5c85b8399711d5e4; 0x3a9b34ec3711d659; 0x6471ae6346b1e7cb; 0x4f0a753094783f66; 0x35f8f16a99820454; 0x79413fa9f1454c00; 0x5a8605b47a3989e9; 0x5590ee9079a63318; 0x1194bef2b6456b3; 0x68366abca1686df3; 0x77bc32455918abeb; 0x2b322b19c785877; 0x6ace164c9ae5b5ba; 0x480a4230e7ffe999; 0x40509750d6352bbf; 0xf13d72434b364ca; 0x213b8d165cef0ce; 0x59a3fa44c39b16cf; 0x6783231716d7c633; 0x9867dde15fa4588; 0x32dab1bca963bd31; 0x3c8c50318a3d2108; 0x4b2d6aad9e5a669f; 0x6d9414337a61e2a7; 0xef625b5960fcfe8; 0x2e3f12eda589a8e9; 0x4daff457ed88d221; 0x4ed81762096892bf; 0x6f36f7333cefbc03; 0x2efff256ce60aa72; 0x421a6773702190d9; 0x9ef08055b214d75; 0x18dcaf79abaf0287; 0x2ceffa2a19a4fa78; 0xf141eedaff8e8e7; 0x94356255a4287c0; 0x17b939a3dcccd8e6; 0x458655a024dd722d; 0x724d433b2dce036f; 0x733b9d0cee7d8300; 0x1045592aafeea27d; 0x65ef4e8603dc2223; 0x7d14d7b211111197; 0x4dba50966b59847f; 0x6fdc7df943d05670; 0x2ca35f1f9e728e4b; 0x6fcdf8e0bafe614b; 0x4666b3300b48930a; 0x5b4371d24ac73058; 0x174b986cf8b25a6b; 0x83ed6d9493d24fc; 0x636b7f808924b748; 0x7d61e108df3d6e13; 0x753dd802c0f7aa8f; 0x1205313f3ad5ae1f; 0x19ab5b7bd4ac29b7; 0x41bd42bb832a5028; 0x4b2482e52a96f04; 0x61d4fe1cf9ec6ee6; 0x4610d2c136d9771f; 0x20e206f323ffec7c; 0x3a18b11f028977f5; 0x2deb5edfb51f05d9; 0x4c9033d28d6adf5e; 0x1dc874ec58e28ef1; 0x1df3b1a3e55ae5e6; 0x62aa37764075d43c; 0x87c5aa07efec294; 0x1a0d51312d93e6f0; 0x7516ec501e98c656; 0x7e616480e46dd43a; 0x2765084743dfbd71; 0x26662162f5f109ed; 0x400dd0f58663c3df; 0x5677e792baf043be; 0x680d853cc7e9a539; 0x2116c18b4f58763f; 0x60cc07b98e1182eb; 0x65c5c4ab574a3581; 0x707d9791637169e0; 0x6a60864505457238; 0x41bbdbf4d4bd5f44; 0x38c9fb37794bce50; 0x2067a707fa8d54c7; 0x7074104389947159; 0x7b57765be43b56a2; 0x395ce9069eacb3f2; 0x1ea91f9593ed91c3; 0x229b0d7b58074794; 0x3671d990a57ee530; 0x7fd841b0db967cff; 0x6268ae6ada975746; 0x50a722edc6b9f2e0; 0x66a7548837fbaae; 0x78cdef306016aa0f; 0x1b7f83d3395bcec7; 0xe5f31f53170364e; 0x17d4d3cc17b39af2; 0x41c3cf922ab1f862; 0x28b83cb40039bb3; 0x410bfa38e685f753; 0x3efd4cd426dd7ab9; 0x2e70d4ef8523bb64; 0x7a4cf501c8334ff2; 0x6a4d9ac8dde3c71b; 0x5ff01cd245d0d4d9; 0x20bf160a02a8a52; 0x188c27fe55a6de61; 0x5098cf39d2a28295; 0x64cc2ea78c773d81; 0x4dc3e6b21067f96f; 0x50f52e7ab9689efe; 0x25f5587feae5612e; 0x1d86a04e2851a524; 0x72b47e1e5591fccf; 0x3cba83a456f19c7c; 0x28cca83e1d60f0da; 0x439fafd8842a7feb; 0x4c0b77e67e99fb1d; 0x23353cbf5260cb16; 0x4e085238e2668af6; 0x3cff64f278057273; 0x766c416406193bb1; 0x74fec24740467c29; 0x638a311e743944a8; 0x30c9f2ba75aa8610; 0x5ebd69c64f5496f0; 0x351afedb8bd99d41; 0x399fdb64c91eca1f; 0x3f4064a1615d9eba; 0x54ed074bdbcd4d01; 0x767031be30f3dbc6; 0x5a261af8ce448cdb; 0x30e0fe9037daedfd; 0x25a21292f8b366b9; 0x29a7cc357bac6e75; 0xb8b55ad86129391; 0x14bd1167933a9237; 0x213fc9ab15e73c00; 0x7731998528d2baeb; 0x4a7e831ef627ca4e; 0x50e79aeb6c587407; 0x51f604eddb8f4a7c; 0x14378d47e2c3b132; 0x7db9b3c5f927d17a; 0x741d4384e49b7b82; 0x7c7fc0e624183467; 0x4a2b6d1982fff9a8; 0x108f63cbe222bfd3; 0x6a9bcef7633843b6; 0x3e4dcd30f16f7fa1; 0x481392d32130b514; 0x1a62d019ced0a991; 0x3eeed8d06464f32f; 0x28ba7ee0e7f19256; 0x49cd30c02e3b6a0f; 0x4c9e1b2762c07572; 0xbd0931379f42e56; 0x7141c66a319ee931; 0xdd67140b2b92a9e; 0x56e4ee7030de2579; 0x39b0642e985444ef; 0x2d20d85d43b92948; 0x5595ddbf450a5b66; 0x1dd55d997ebd50ee; 0xb3eca33bb43c39e; 0xa8367e1acfba589; 0x7b839d8c3e6c6d75; 0x6d38d108e2155644; 0x36b81c09150fc839; 0x3acf7981584eef45; 0x5c39a360ad7f04fa; 0x1a57c714e94f7dcc; 0x13fea386120b2246; 0x2ef71e09c17983cd; 0x1ab5c628f4d8ed38; 0x1613fec040289d18; 0x502578f579e0ec28; 0x7ff46c983292891a; 0x90d36a18438cdc2; 0x44a0fc69a44f1e22; 0x7a39f0d06fd50503; 0x2f1116b717d29b40; 0x5ebf736fd7e57dc3; 0x15e026404008e25d; 0x2f0840a27a46ebc3; 0x2261d711ad90d1da; 0x66719869546fbdd4; 0x735b07081c3981f1; 0x3c1b0867d35243c8; 0x11663a5ebd083fb; 0x27e0bfda8c948582; 0x7ea992e88ab90ab; 0x4f81d8c3facb16a3; 0x6e38cee600d50cf9; 0x5f8776039af7d3b5; 0x2b103f90b0c0826e; 0x4bde74d8cf885fdc; 0x27ea65512b623342; 0x59d632201f352492; 0xc288ce17830e5d5; 0x3f8066d7383381b3; 0x3a76f52d21a6fe65; 0x61fe0b215ae873e8; 0x6bca40944465b4db; 0x29f5eb14dffdda; 0x61f81e7f806187ba; 0xc3c3cc3f30033; 0x667e01fff87e61f8; 0x70f3c3c30033f33f; 0x66007];
   [0x308c4067198f8c53; 0x6596e3b034342489; 0x5eef7b06fb35aa03; 0x62e0da5f65299864; 0x2d22dd09f07772ed; 0x19bb4498d485640a; 0x3e9ff0be8b144ff1; 0x38500c8cd81b2c30; 0x727646c8c5a39205; 0x6070e6487baa2bb3; 0x47ea0b6fc4072a38; 0x6d25ebc5d0026135; 0x4f0f27f0cd6b1e00; 0x435a376f419ee0ab; 0xd820802a93c2617; 0x627bd3e1de2702c; 0x3889c5c76cd25053; 0x307abc0aadc93111; 0x48002ec03f77f764; 0x359fbfe4aa02cd54; 0x7090a029e7b4aa0a; 0x306f84f5b6ce60a4; 0x4dd2cdefc619523e; 0x619f893a5d744f03; 0x5797f0005136b744; 0x522dd5d0750c4e25; 0x2500c2960caa8f78; 0x2e04394f60e0b5da; 0x285fa39319946255; 0x2f3fe84feecbfb8b; 0x598ad1b99f451315; 0x5ad5b87fd4785cc; 0x6ccd6030e0f787fc; 0x6e4c1d7ba5445f6d; 0xd49ee18ee47e2ba; 0x74b0c8300dfe5683; 0x44253cee1241dbff; 0x7a4c87819baeeae2; 0x1f08623d3f95bdf0; 0x21630e70c204b6c8; 0x1b9cfa63ad6daf0c; 0x286ff91e921d081c; 0x66fa502b733232f9; 0x1f21ff37cdda0c9a; 0x1f17a6ccd795d830; 0x5b243553f4077d3c; 0x6946b6f45effe1ae; 0x52b36b0c5b1fa0f1; 0x2d6e76bba63af0b3; 0x4367cea4b3f6482a; 0x3fc4189d62010789; 0x6ea5876307fb08cf; 0x1806d80df3c431b8; 0x26d20b01c853a8cd; 0x2cb55b1d0148468f; 0x503ca7d0cf9e76f9; 0x449c65e8670f0ab9; 0x659133e5e20eaf88; 0x24f875ce553f1041; 0x6871add2444801f2; 0x35ae0e587e415d91; 0x31bf1131db032f8f; 0x281315bab42a2da4; 0x4010b0812b824e1f; 0x45b7fc7c918a32f5; 0x79c39ae090dcdfb0; 0x17d3e94b0e1cd29f; 0x1436174b52ede11; 0x1e922f3ae1695cb1; 0x29e4f6e63d4f7d0f; 0xc11c6ddfe6acf8d; 0x2231c09a3c12cda7; 0x1289ed40f6b361c5; 0x47c27ab071469c15; 0x5c18ad106e5420fe; 0x28a361e19150c73b; 0x6bf41263b413710e; 0x7f1c106839165a2d; 0x7ed797cefe6031d1; 0x4ea5e2c797920d10; 0x7590167e529d8a6; 0x27a081ba69ba8bc1; 0x6cf89731e9517d01; 0x7f72e4b75b733367; 0x661fd71d39476711; 0x2fea4fd25b96be07; 0x5b7aec2809b02303; 0x775cbf038f50d796; 0x1d832ef3eb660716; 0x232506474ddb8301; 0x53e08588ff3d7721; 0x4da54a34771fc31f; 0x3fb9caf92b1c0ba3; 0x60801698b68ee3ec; 0x630731cc5971d44f; 0x609ce588f5ac8294; 0x41719ba0ff136f13; 0x1f355a86d3e07e28; 0x7b067a6f3bb275e7; 0x470f7aa9f1b61d61; 0x7f35429abce8746b; 0x1e26845fc63a4e36; 0x4dbf43ab89ca844e; 0x30394112e6a1c47f; 0x1fe26c7562dff521; 0x3b82b9a4c1e5358e; 0x72ac34a2dd89ca5e; 0xd75a219e31efab8; 0x5b6843ad50c898dc; 0x46781d1ef3ae2065; 0x6bc3eed1e202b247; 0x48ae086cbb0e8897; 0x2c1a7293c66c6e8d; 0x4d0dc6b82ce17940; 0x4b97016a1dc4413; 0x7296aa98f6f66740; 0x3381d54d8359de0f; 0x7181b9885ac92c3f; 0x22490f81d1d17b64; 0x1cbe8f0d9b54d3b6; 0x326312b4ed62f923; 0x4a2368106de8b83d; 0x192a7136941800d4; 0x31e06b7f2a4ea224; 0x71d0d2356d6c7c9f; 0x517461e11c64eb93; 0x538acb32599018ef; 0x548eaf9256003b4d; 0x4222c8f3104e4f9; 0x1183c639502a9c35; 0x32a5cbbc436d1b3a; 0x10ab5ca8f1b8bb06; 0x5f86b45ea90af713; 0x72c4f8ac03945a11; 0x66c3f0871df22741; 0x67f1e3ba2f85a3df; 0x31c544377881531d; 0x6d74332276a0ea21; 0x3d7f299598885b2e; 0x4d9a6d9155cd1d2e; 0x3cfa09ebf9a86c5c; 0x761858753c21fe10; 0x5cf27f629669987f; 0x1b2793d16f7512f1; 0x3a7bee7a40c24bad; 0x58c507713ffc8cd9; 0x6f4a0b7ddeb6af51; 0x12bd2cad566ed91c; 0x7b50c033d2b157b3; 0x4077fa96f057488b; 0x442684470f156b; 0x169f2071764b76a4; 0x4023301da37fe6e6; 0x67771b78db6825f1; 0x57bb2fa9f4af842b; 0x4d385855688c307b; 0x5c6e2a26faae35eb; 0x346ad01ccff2b7f4; 0x4a6b4971e407c7a0; 0x1849ef63cdf93d0a; 0x604c18a1e04f728; 0x7b0976e8ec914ab1; 0x59ecd3384993d18d; 0x414d558a82b409e8; 0x2a8a87d93192c63; 0x262b1e5101eab421; 0x4438152481113a15; 0x5eee05855a4af53; 0x64204f5ce070f28a; 0x250f6acb2c480626; 0x2eb92577705ec650; 0xeb242d9b268ee23; 0x1dc947dd5dd8bfca; 0x38a55787d4766ee6; 0x63789f2431d49a7; 0x6b317cbfc29345c; 0x2a01897f24e67911; 0x5ac58342710652c3; 0x49ced9b7b6eebb44; 0x6afd34e1dd45734f; 0x3d7a99a3be54197f; 0x449d85073d7411d7; 0x4b039619aa012536; 0x3d5e2fcb87bf5492; 0x22ea8db94a48c3f8; 0x7ff7a8ae282b2ef0; 0x291130462e219fdd; 0x63823d3724f16657; 0x73eae62d7ce5f885; 0x629ad7128c24c3b9; 0x457c756b5f1cb51d; 0xe6ac49644337088; 0xc7baa0d0c7ec3c4; 0x3ae476b9f3983e6d; 0x7a5b47173b6d3711; 0x4fb0ce82d466a4ac; 0x6b5efead8c3003b1; 0x1c0e05d1018d3d64; 0x4c2721c2c76ce015; 0x3a539fe7ba90aec0; 0x43ce0b2bd1e77fb5; 0x69a3755d51df9; 0x125f63cb7404d56a; 0x271c6bcbbc6f1d07; 0x41cf15d5dcb94836; 0x676b0f78f79d8bd8; 0x875d7029e516af8; 0x5d93b28f28373a85; 0x3bb7cfb030a0dfb0; 0x3ec46b08473a576a; 0x46f88e201708a041; 0x52afe7c7e29775b1; 0x13ef4374f357d2de; 0x51c638b2f8f5cb79; 0x1ecd6ad897c4060e; 0x576e6f7359289c84; 0x5dd505b362199001; 0x4b414e950630ac84; 0xec29dbbcc521452; 0x25e83b87b1d0a559; 0x7c00f17fb06926a3; 0x4addd3bb56282186; 0x13cef3ddcbab1b54; 0x300eeb52c6197641; 0x3622824a65b42d22; 0x5afd36e221b90ea6; 0x5964cd3b93ca5fe6; 0x49478221ce9cb719; 0x799235da4308e775; 0x3d9981fe09a795e2; 0x1ba5a609ea218873; 0x5ba2afc5aad0f80d; 0x5057994edd2c69b3; 0x6f21bd142622e47c; 0x2642f4fb40134dfd; 0x49035c1d4990211c; 0x12a2779530840c1d; 0x6407e872d4a2bd5f; 0x3633805f5cf845d7; 0x5c5f615bc533115d; 0x3fd2331c8ad055e3; 0x3984dcb2f9f4d65a; 0x4cea72453f57e17b; 0xc1d8fbea363ae7e; 0x1cbfd412c6bba35f; 0x194622196b6770f2; 0x73d115aeb55f40c6; 0x68a790c37ad4bc0f; 0x2cfdefd6ed8c2d1d; 0x18f11fb031926557; 0x1c8acc7f1e4259fe; 0x6f72aad2bf2d28d7; 0x54a9caa8bf90a4d6; 0x1e7052e7f90032ef; 0x76928492ee2dd016; 0x3578a664ea8a8d14; 0x2e3c30b3109b3faa; 0x2b4f3a33a34d87d3; 0x45bf6dc0f4ba09f6; 0x770ce42e1bedb286; 0x510397e01e758992; 0x3b646047aba2ffe7; 0x2389c6fd561f91f7; 0x2322892b8b5426eb; 0x16cf671e6c0890ec; 0x5ccee960e799e620; 0x632369ec68a2597a; 0x5002421df324141c; 0xdc7a46f843433f0; 0x5dc6c417174f641a; 0x505e2a7dfb63f0ad; 0x1a50b8ea28d7aeca; 0x2044086bcc8440e0; 0x3bd0766c71ff7846; 0x73076046ade6c6e5; 0x27df3623f9793bf6; 0x734482fe819d540b; 0x719ec0a7c4148219; 0x1d676cab2529188b; 0x2e0b7377aa566ecc; 0x545fdcd64a8fe66; 0x45aaf6b5883c420d; 0x1fcced2a2ac0d03b; 0x2d92458e1cee4ff; 0x3fa90ebc6031f95a; 0x19af3c4a69a41987; 0x360c5bce75f2a031; 0x15f17db037360b93; 0x46fe17cccc4bf617; 0x17fec1ae5c6fea07; 0x76b20b43b8708e2f; 0x52e2cd2c52972dea; 0x27217c6cfbd7a6d2; 0x67c058e23b3aade1; 0x6fb1dd1a603de966; 0x216fe0d6ceecda2a; 0x7b23d25b9a77691; 0x5e67df440912f044; 0x625a04371afdd922; 0x576acee30b7501ab; 0x5742ea13e07d1500; 0x222c9e74d5945444; 0x1b912e6797c09c8a; 0x1b8fa1281f4086fd; 0xd0913ab08ff47d; 0x6be40b01df76f805; 0x1bdbca9e94eedfb8; 0x34010bd2345b0b9c; 0x4d191456990f5683; 0x773438786f3effbb; 0x2051401727cea9cc; 0x1e83b98fee23047a; 0x29791e7632e7ef28; 0x678601fe78000757; 0x400cc3ffff03f330; 0x19f86180001981; 0x733cf033c303c30c; 0x1f9ff9];
   [0x51f98e98c760dfae; 0x3db1beade6b912d7; 0x14bb96e56f56ac58; 0x7c014ff4eb40c7c6; 0x53baf31659648022; 0xc3d12362b185536; 0xc564cbcb6285afe; 0x67db33be6b633093; 0x39585052c1e82cab; 0x791ab32613d926f8; 0x5af85ed60d1f3074; 0x49bbbfd7d535bb62; 0xce5d43ad856c217; 0x7d24cce1b2a63d98; 0x1e7d03ae65d6ac2e; 0x4bcbc9b0aa97c1c1; 0x67d608daf10c621f; 0x6258bb508ed10eb5; 0xafcc697fb70aa6c; 0x54bba462791c3b43; 0x6504b77984b838d6; 0x1107565ed6566277; 0x73a6931579bc4d03; 0x70acbb4323cc520b; 0x7cbfd9cf91250e0c; 0xc0f67f7b7748df9; 0x708437c9b4607ceb; 0xda91d47846bf0a7; 0x15472185e78d65f0; 0x29dcc35333b47654; 0x6569ae94ae0775b; 0x2f0d971a60a3f5bf; 0x3945fa821c58c602; 0x72f62d7ce879aaca; 0x3470c88f5b2825bf; 0x5e1e77d81c5a7fc4; 0x505fd43b853ffc73; 0x110ee0d8a03bf1fe; 0x4ab118e92ab9d59c; 0x2c62c790ba4bac6e; 0x5903963e45d3e4a7; 0x2a161f9dec5fe20e; 0x24a8f658360160d8; 0x1a628900e79131e4; 0x2a49f64f2ff0499e; 0x159c76a238c8f710; 0x42962ce5e27dc879; 0x1f35a5c1ba8dc688; 0x7c2cccd4eca79be2; 0x424401e6fbaf975c; 0x109b9e9ff6f82354; 0x55835bf12dd0dac3; 0x2e250363b0d1b732; 0x216218269bb76905; 0x5d222e297cd3c80c; 0x4496bc9a80ea4588; 0xab289fd609bf7a3; 0xc04f7adf1546ba8; 0x3eb132064823fefc; 0x4935fe31b0c591cc; 0x46628e0ec3001b14; 0x61422f5b55d12a16; 0x189c794fe7c412db; 0x762a074faf33137c; 0x4300a28daad1822b; 0x7ed87db50827e829; 0x7c5d519754b0da72; 0x7607f6ac50c3cd63; 0x22134c17b86c7964; 0x37ba696e1249b0bd; 0x8029862cfd1b71a; 0x3ef63537e40cf928; 0x44198ccb25be34f2; 0x2b886b9a03a22a26; 0x703d879dcacb2ca2; 0x303adfd4f7e9880f; 0x735f656cc8220b67; 0x56507f73d5b0d444; 0xb973a1c19f31a6c; 0x9082008bd7ce879; 0xfe3cec51b54670a; 0x25c7f50cf6f0048c; 0xf8f2856455b110b; 0x4f6913901c9cceef; 0x750a761600cceed6; 0x3c23baa297004a84; 0x380d12cc1bbca1b0; 0x6b339639900ef1cf; 0x1e3622829a18b008; 0x3b4bf35dd2662562; 0x4d70e10f287204c6; 0x280a9f3d2a93bed9; 0x61393bce2ff9d1c8; 0x43f8bf7901934f7b; 0x551223839189cb16; 0x25be2ec547d543ca; 0x2ab87decf4f369bb; 0x7d3f3830a1e10709; 0x383acb36ee771783; 0x59145f18e56a20df; 0x50d8e93017f40e2f; 0x47a97ed08db8c5e8; 0x5a1df4d817df669e; 0x5195fc9e0a8380a6; 0x538a57a1a1c1916f; 0x3bdd6be73e3266ff; 0x28a6bfe13e88a590; 0x2d7f3b4c86c03697; 0x6a077586dc529acc; 0x2ecc17639671088a; 0x3167dcd75c2e6eb5; 0x2491c12cfc536d30; 0x4bc8bb1b12276133; 0x34b89f4538627a8d; 0x4fd77e4d2aaf68d6; 0x640d2a57b1f6797a; 0x16079bf41433b077; 0x4be301d89e4531dc; 0x6fbcf46db0e7c733; 0x2a2d359ca9884b13; 0x13903c460014c596; 0x6555b6ea9154e7f5; 0x38b78e22e2a78001; 0x55832253b6876a93; 0x6bbb0dcae8f287e8; 0x1620a262a8a8089e; 0x736d96104ecb59e5; 0x36d3d8b2222c8c92; 0x6d66a2eb05216428; 0x18bc9e1d0f19ee9e; 0x75d14ebb8c593265; 0xe0157b271e00caf; 0x4715307d8628c3db; 0x3a4958e663c4a26e; 0x609dd064dc968880; 0x17383faf864af7e9; 0x2c84c4130e209d2f; 0x363974fd06026d52; 0x535e5a4acfd0c7ef; 0x2357daef570fd303; 0x75762be8b5b44969; 0x4bb374bbfef25b55; 0x462d2b5ee93c55b0; 0x7f6176b6de61711c; 0x1901a040e34b6949; 0x708167d0b2581650; 0x7059e4068956810b; 0x4a755624f18211ae; 0x129c4e02ddc49f39; 0x4222b021d0dd1d15; 0x5af0f75d1c7ee079; 0x604a9d605bce199a; 0x57a0215f7ac05076; 0x2ceb93c5be7a5a40; 0x3222214418c8d79e; 0x6d61dfa7d498477c; 0x6fc9a195986a9b77; 0x5e76040c30803848; 0x60c14c9aa146a419; 0x4e84ce22139a1da9; 0x7ebde981c7cf7749; 0x636bf444d1f8648; 0x3ad1398ec5016526; 0x1cff4691f6b96074; 0x798dcfcad3ba993; 0x7100b287f4078d6d; 0x3dc062e63054d5c2; 0x3b1f869f580904b9; 0x7851e6e0985571d1; 0x24fc0e4490e50dbe; 0x517d918b5148a44f; 0x1b2498eb85359f84; 0x4d1d98b308d61a4d; 0x259aced760f9e4ce; 0x11432fbf29daf06d; 0x5417549e62b8d4e5; 0x10285cfdcb59254d; 0x2094802fd80dd6c1; 0x66bbeb1f277d197a; 0x5d01e8e74894a4a8; 0xec6348ffd7477e3; 0xa30a54bfb323410; 0x5c615b6f0b77606; 0x6b9edb23932c3b68; 0x5086f049562bd6c2; 0xa13b84cef8e343e; 0x7d4ab8c11bc1dbe8; 0x49b7e54bdfc7d2cf; 0x5e34b6685def7f1d; 0x1ca6c8fadb10c892; 0x4385b0bd0aa2d0af; 0x7cb0d522d2312bb5; 0x200a27bc98704841; 0x5b0447c07cdb125b; 0x7a1b7cd0c5759c6a; 0x5a75bfa7bfe04f23; 0x2d18f47cd0323f58; 0xf1ee4e3281fa805; 0x2e103275e9d1e924; 0x574f57099e111c17; 0x30b8ecf77de6db75; 0x815750cc9eb777f; 0xa98704b1e3ab33e; 0x1c96ab582c591a37; 0x65f3b6ef050eeacb; 0x212c691bed3904ff; 0x7762aec1bb993f3b; 0x517af70dbf5883bf; 0x579b6d7d024dea65; 0x3b4ec064a22e54ae; 0x413c4b3d172e8f40; 0x2355ebc046446566; 0x435f467860502ad8; 0x1eec21d67e24a29e; 0x256b086c19d2b73b; 0x26140fb75b7acdd4; 0xdf1233db1b4dad4; 0x60117b38e2515c8f; 0x66c3d1899485bd3f; 0x58e0da2913ca6d7b; 0x433c1f1b2fe7e3f2; 0x51fa2ac8e5e7ed71; 0x7901eced8fffa7d8; 0x4245ee8039bab12; 0x7dda9ea0a50667ee; 0x64f676ed2666527b; 0x5b309316b8edac8a; 0x48f2f70dc2391961; 0x4d10bea12f23dac3; 0x5fe82534c3fdd0b0; 0x4dc6ab320d58a37c; 0x4dae0d88641a8853; 0x2b4e941889cd8be2; 0x33881f09e26bb902; 0x5d5e1f9bae7c4b58; 0x23f3b6e787bac64b; 0x52b59411274fe425; 0x3d86f0eff3387062; 0x258b35f086c5f120; 0x64c33bff99a2c812; 0x3c50168b89d3c875; 0x5188a34ed3599a4d; 0x1bb2575c216d8d78; 0x24eda1e176e19a88; 0x280470f701206c39; 0x45181e5b19f66a0f; 0xfd1f77d52c25161; 0x3ad9aee246c23ee0; 0x628150409ba0c810; 0x1c114ff708caedf5; 0x4f9e920ee76a8360; 0x7f2dae47ad53b4e8; 0x507d9d850ae8230a; 0x7778b7f34aea3a95; 0x4d557cfca130d6c0; 0x5bbd0706cd75690a; 0x4e483a9d971a6836; 0x12b9d671ae093a8c; 0x54e3a41944f78cb7; 0x7a296eda1d54df2c; 0x3f7001aced6c9962; 0x409a6e4a88f87137; 0x2f19381f5cb6f89a; 0x55229e884aef9ba3; 0x660c913bddd614ce; 0x24eda28190a920a6; 0x10772e2f51871e3b; 0x4b42067428a7932f; 0x72e2a4519ffc5f67; 0x7cc8c9f5af934daa; 0x34e4e1a07c258e0d; 0x38c004e0b3dfd8ec; 0x52f28f1f7d185b3; 0x5a0a6ce4b2fb9ad0; 0x1825bf9bd6e7477; 0x68ccaec0560c6207; 0xf80e9c78adbf750; 0x32570f99e54b969b; 0x7406062f41fbb68d; 0x3461c6e1f2a56b5c; 0x45647daedd6caf6d; 0x1d52b0d2a4ad5fa7; 0x4515604620d2cfb7; 0x7ed051eb2d8a4b20; 0x3e7063ecc71f55e6; 0x6eeb41f4b72ed7b6; 0x6583ef64884c43eb; 0x5b0d68dc0aea3529; 0x2634e0233cf5d401; 0xd659d5313eb1712; 0x4eb856dd550fb49; 0x37097e88a7ba5dce; 0x37a653e485808ad8; 0x5ff0005f3164cc11; 0x2edbec4282ded4ab; 0x54d4938f2aeb6ff8; 0x3c3c1f4bc7e38012; 0x2121c971d07ef4d4; 0x4baacf7ce34b288; 0x8c52ae6e51f9f38; 0x14ed8fdcea3d83a0; 0x7a13552ee2fe4b24; 0x789362b1f80886bd; 0x3555082aff9dfad8; 0x3c7d0dd53356683e; 0x63e95d27ea3d627a; 0xd502d185901297c; 0x3960e82d7606a0c0; 0x6eb6e9bdfb525134; 0x6b80a009d6dac15b; 0x43108f07481d9966; 0x5f5360bbcc64321a; 0x3de7290fe4425758; 0x6180787f9e67ffd1; 0xf333033f00f3c33; 0x7e001ff9e61998; 0x43f003cc3fcfccfc; 0x79867];
   [0x6caaa5dc722c273c; 0x6d55b85fab29b419; 0x47e9b16b23eb477a; 0x44313f07e0170ac9; 0x519afa99d7bd6189; 0x21e173b0728e4ebe; 0x356e1c9e5385be8a; 0x3e3047088316a394; 0x1a600da324d2e1e7; 0x4f03ea242049948a; 0x1687d5cf96587abd; 0x52eea5d23435a6b4; 0x10394d4a4db070b9; 0x8e46dbda420083f; 0x7f81cd55e2cf7050; 0x4fcdf1f0bc80253d; 0x2fdc9cd6b27f0104; 0x759f10048411cebb; 0x491f7270d03be88c; 0x57fc48d4c89cbd18; 0x6e55a92fbf775aff; 0x38388d60bbc2a4b3; 0x1e5c669f70bae17; 0x7f15bf8be876d795; 0x371a40429e6370d7; 0x241c388291cc2a47; 0x610178aa18fc9ff2; 0xb7c77275d6100f2; 0x1d448b17e10ff151; 0x61919d3bcea292a0; 0x2a46124503bfdba9; 0x5e7c9a8186ddb1ae; 0x64349c31e0fa1a90; 0x2d4c0ec2a6bb5dc1; 0x6c918b7d0757788e; 0x5e21ba3ecbb2e3c3; 0x248a4e7c94b44ff6; 0x6a37badf2991297d; 0x71160a3e265096ef; 0x3769674133ee5255; 0x514f677a6dc78364; 0x4388feb7e50d9cc3; 0x1726bf992c742186; 0x50e468e3fe32e8ee; 0x798d0bc9dd2bf60c; 0x797f35b6871b13e6; 0x6afcaa1acfb1f168; 0x379822672c748a5e; 0x507b60b19df64269; 0x58dbb7e8d957ff25; 0x550fe9e9b9ba3e22; 0x74abf5dc88c32dbf; 0x5d31161fd69747dd; 0x66fd390a66f1ae35; 0x1cb33837c9b34be5; 0x27a26768011fbe8e; 0x49a7dbb35bd134bb; 0x454ee1c31778d201; 0x7777ccacb4ad0516; 0x6bad563e847e2ae0; 0x17c74e48f8383edc; 0x2674d23a0042ac67; 0x26afd6a53475a289; 0x7503394c2c19de1a; 0x1f014667cb970200; 0x573fa5ef0b7ca00a; 0x19ae16847450caa1; 0x1e998a345c5a4b6e; 0x5baf23344907b3aa; 0x685c12e4e67806d0; 0x66975bbdeaeea16e; 0x32eff69e04b57679; 0x3ccfcf4a68b56adb; 0x70d6c3d5b28ede90; 0x6111a6969b74db00; 0x16a3db147105ec65; 0x412957b9735aa572; 0x3d3b9de133830e99; 0x36be3da75739eaf5; 0x31c7d57250e62082; 0x535e0b8e9944d1fe; 0x7e756bf62b031d8a; 0x2489a84c23e121a; 0x236e3f34298ed8c3; 0x3defef39cbb818b3; 0x5998cc4b98fdd254; 0x935477ff0b4f380; 0x13e10734f4e37cde; 0x7e59d2ef2bed49da; 0x1bf70232acdf105b; 0x6c2d27883c0eda78; 0x194f647d41965c23; 0x3aba73f6da26939e; 0x61fd102203001010; 0x6bf7691d1aaa309a; 0x3c2d41635e7b212c; 0x5aa74e7837cf793d; 0x2482e3a2c9941bec; 0x64f522073412fb40; 0x63e7b8ed73d70a37; 0x492b6f79eca6d2cd; 0x4b63cb89f5ce2d49; 0x7b2109a5618132d6; 0x6ddd08c5537b76ec; 0x2f9b0706bb2cb782; 0x232d6d1ff6d33f51; 0x7ca2fe6107538ef; 0x60f400cfcf550775; 0x38458c4df144071a; 0x2c4345bd18acb98; 0x79e28407142af791; 0x5d092a14e40f4ae; 0x5164d5c80644b1a0; 0x79fb086123c5f174; 0x1dd7eb2a9061c81c; 0x22e6e855f647116c; 0x7bc89f6f41937a42; 0x60f6358e460cf099; 0x63298b1020a0a234; 0x228534ccbc6c7d8d; 0x3865b1624688ee68; 0x6a843a92f5e10830; 0x31964a3e1e6279b0; 0x75d43c8099f48922; 0x7a14b7fc9e8ceafd; 0x3276686ba524ffe9; 0x304430fec7488aa1; 0x135743a148e1d10f; 0x65a68d8ea2d512fb; 0x8e810a4bec80b6c; 0x6999e47313c4c710; 0x6364a88820ac2d39; 0xfe35a8a7995b25c; 0x368f47dac4f4da27; 0xc0bad54955d4392; 0x4a32f4e192651f93; 0x4baa0d016623ea00; 0x262381f314e28871; 0x661b0553b2b7a08e; 0x4519ca2a5ebbb2ca; 0x36535ec928354097; 0x63b28318499de04f; 0xdb25480eb5eec89; 0x74c96bdbca33e6d1; 0x67cbfe61601ec696; 0x558078b409a9e4c1; 0xea14dce4ba7a8f1; 0x7be83413e2991586; 0x4efc35eb03a8684c; 0x622ae1c4a8a1f916; 0x4ef784050c131bfa; 0x42277ee4d7452474; 0x159f0399226c6528; 0x247988ddcc960a23; 0x4a6e89e01653813a; 0xc6f029de1393769; 0x7473ccbc46d32de4; 0x64e0f531cc4cd155; 0x7481ae4b62c47d86; 0x2041fc1ea8f75735; 0x2add2ae5737e2c9b; 0x2ee32596080c14b6; 0x6825662cbaec63bd; 0x43e3f6348627888f; 0x1d05fb62d031f381; 0x5697b435de5cadbd; 0x62b5d12b1513807e; 0xd5870825b04e402; 0x7e9215f0ced2df3e; 0x46d59d4ee401e846; 0x4e394f3202f56c8a; 0x1a4d2381289b6b6b; 0x6f1c5047ba8f49c0; 0x4e43097d6876aaf2; 0x5a36b7428752f0e5; 0x316137eec72b4499; 0x2b5a1c11dd3aa9c3; 0x722e9d9d85587421; 0x10fb84322d4b5f20; 0x153f2cd78ba943eb; 0x7f922d68f7c72ed3; 0x63adefb3f95c26af; 0x154982e9d0839d61; 0x3c226b732ee3f47; 0x388593151a691d36; 0x109dfb7c272ca2ab; 0x3fbafd2e8bc83004; 0x75b71994023e84ac; 0x3f351e0dfe814b30; 0x39e3a029ea681531; 0x72af3a85a4a04060; 0x44fd438e9147381f; 0x41e2189ec42c0ad9; 0x6051cfa5a43e75ca; 0x301ea316b4fa1059; 0x235d82e6b6547730; 0x70233ab0a2b7d98d; 0x27e0137deb3e0625; 0x296f60a856159cf3; 0x288c83befde9c5e1; 0x2b5cb1329ca22d27; 0x54ccc37bd7c0f69f; 0x6a435021c3201aa4; 0x56ac6b19e68f70c8; 0x3fe181da5839d9ce; 0x62e2cc25804ec3d6; 0x732308c3f9da90e4; 0x3639e44b34e3a8a2; 0x116cbd7666197928; 0x26cad9a8ca97b5a2; 0x15206fd86187d0ac; 0x14143158a5929369; 0x13b412a712a52251; 0x20078e69fd38c477; 0x7052042fe2e21d22; 0x101bea45e1ebd74; 0x6702683989051dc6; 0x7d1eb62c34a895f1; 0x19f46dd20cea65d5; 0x5ec927920646af16; 0x377d89d29311a250; 0x48fda090d060603d; 0x28e12143bd61e2d6; 0x1085d6077d3c8930; 0x56a4292b34ee55fe; 0x7a72712d3ab1346e; 0x1635b9880d239a04; 0x64ebd06ca4a2634c; 0x46469fcea2d4363f; 0x7ffd75f66e25623; 0x3bd1ff991cd6a8d5; 0x50d733d71d787e93; 0x65c69eb0f010904d; 0x506f0783490b62ba; 0x27c48a81aa322237; 0x32123e05087f1875; 0x99afd712881e4a1; 0xab781fa84b7ad53; 0x6fbf0c7b6ac1424; 0x52cffe1607806349; 0x4d8ab1a76c1f3149; 0x74b039525013cf3e; 0x58efc22765fbb121; 0x1e89aafca911a2cc; 0x41b0f3f8f5d2912; 0x60e34d1ff2075b91; 0x30b68014401cbc52; 0x7cdac6584902a688; 0x3f84f76cf3957737; 0x3004a702802975d3; 0xce3193587928c74; 0x5c72d1f67d7bfdf0; 0x33e64e4bca7fc04f; 0x163de214d2a4b3c9; 0x3fd94c24e84ce45d; 0x78289659b33785de; 0x3879e1ad04ab1f87; 0x2e5bc4221bdc74b7; 0x21839d82ba1daa85; 0x70fae64546fbc861; 0x15439ab7651aba86; 0x1517705222c815fe; 0x28b0ee74c1d0ccdb; 0x16c00fe753fd6fa5; 0x4929746e15a2e453; 0x64d7a3830dfd9a79; 0x13adef246ef79d54; 0x91473140b1d95a5; 0x1cdf154de541e2a7; 0xe7155959788cf17; 0x284dcf2f2ef1d87c; 0xe22fde5e73e33fa; 0x3e367f3565d963d5; 0x40e2704856ab36b9; 0x1b3e485094d48ddc; 0x59dd58a370d4aec2; 0x2c0010949294421a; 0x40dfd2b35102e9bd; 0x27cb3a36cf857629; 0x4a8c33f858848e7d; 0x3bd3a64d48abfec7; 0x62a50e2a47f1976d; 0x51d2424b156c4711; 0x43e2a7c1ee92878c; 0x32c64d6c255425de; 0x6b692c28af83f8d; 0x34a69fd0d7418658; 0x68aa5b7080487c83; 0x48af7bfa07d83e7c; 0x5af0c8ce87e16f25; 0x22ba9bd38a08bb6b; 0x56402aded9b8ebda; 0x240f32594f09ea3f; 0x6ac2455c0aeabc96; 0x5b29d5a21f3614d2; 0x59d4987da79aac8f; 0xfbafa8eaaedf3df; 0x1b14c91721f8baaf; 0x2b7286add981620c; 0x6f6784111c2936bc; 0x3100a930c56f0bbb; 0x73a89012f769d7a6; 0x3be4b3d641dd7435; 0x383a4fcfb2df3131; 0x7edb91517ff6e991; 0x3e530e87a2b66082; 0x5440f946a71ba891; 0x339d19e37d3963ac; 0x5c95e182b84a2959; 0x732051e84315ca47; 0xb9e0c9564bc5135; 0x7a97ce4bca41a78b; 0x5842faf47e2950a7; 0x6606781f86187ecb; 0x43cf3f033fcff3cf; 0x667ffff801987801; 0x30f0cc33ff0fc3c3; 0x1fe798];
   [0x59f8a4289ea97f2a; 0x48635b9732354659; 0x630c1fa0d7c94e17; 0x44bfb9800f0ce0a8; 0x76a0413344b1d51a; 0x27dda583582ba838; 0x7d38fea8a6ace62c; 0x511fe7d6969127a; 0x40c2640a7329e9c3; 0x3317a0456ffec8ad; 0x28a82249d98302d4; 0x6e2280255ba6bc79; 0x3ee68e838c86aee7; 0xc332dcd808f2975; 0x70f633b6eaaf7c57; 0x6fdcd92510d0e60d; 0x4f9f5608bce91a0f; 0x5795023106b77e6; 0x23bc939864cbd7e9; 0x7da27e6bddb6b085; 0xaddc1edb45da749; 0x100abab300dd4a62; 0x3a5333a67562c585; 0x3bc62e657667bd63; 0x2a7189967114da6d; 0x6a6833be0c60f646; 0x7638585a8d74307e; 0x22317a1bf28920e1; 0x7441286e2fae53bb; 0x7ec66c85bef108ad; 0x49af6e1c512f2bde; 0x7bc6eb9c15e2c441; 0x11ea5af14a848abc; 0x3e0fbb36a7e35fe4; 0xfc777c48c7192; 0x40945daa024b924e; 0x394ffce8909a59be; 0x73bd9ee289f70a23; 0x1f536e1b5a781977; 0x1e48128e5de831fe; 0x206d38309d49d07d; 0x2f79e8001fba5219; 0x5128ba70197659b0; 0x64f2b8f48326eecb; 0x67efd427d825c0b3; 0x6012d1ec32fa8362; 0x633a965adb3b02fb; 0x25d512aa6948d039; 0x56bc71d68b5ad8f; 0xb45c89ba02442cf; 0xbe32f2dd09e6d60; 0x206225044aa9859b; 0x711a147a990d91b2; 0x772b7443338f8ac5; 0x25201540d64fa739; 0x2c59bc49283d8082; 0x79a7b04717e40600; 0x282338a08a44ac4b; 0x62e852f59aa383cd; 0x16957bc4bbe6361b; 0x7c69425e635825f8; 0x3c41e5a3c3725ef7; 0x657a208530998422; 0x647955f9938ae964; 0x70a86c05466297d7; 0x768c94cea178ee72; 0x5f1f41e804172c29; 0x3ab57812a321d230; 0x5d7513a23a0c619e; 0x267b4d9268ddafa4; 0x475ad008c2068c8c; 0x67928e1ce7eb3b2f; 0x489d0adcdbec09db; 0x73205ed73880c6bc; 0x2ccde86cf099959b; 0x3306d5cd61dbc953; 0x1b5bd6cd91a3b8ac; 0x34d2bef95e7f9c5; 0x5b92133caeecd0b3; 0x4f630e974833fda4; 0x10023ba09c31fe8f; 0x3c8d21dce2686eee; 0x35860503da5c1842; 0x56cd4391b098958; 0x2b2f2faab6b44089; 0x63227be4dd96c11b; 0x773bdbdba27a6098; 0x662fa9e0f5ccd72e; 0x31d31ae77fe78af4; 0x2844fa87c2085605; 0x23501c6132060e5c; 0x18c8e62ab7fa9722; 0x691935c292c691da; 0x4a451c78440ece03; 0x7233ea4a736dcdee; 0x50cb088f64e89ba0; 0x33bd4baeae4e8eea; 0x411480074a80484e; 0x592ca0ffba234a9b; 0x42aba72fcc88e7ef; 0x600b14c97e4db359; 0x540421a1ddbf3eab; 0x7281bcba4a199220; 0x7acbf85287e27aa5; 0x138786af439a6706; 0xcd655247829baad; 0x6718e4d31cd60c59; 0x24862efd834828fb; 0x142ffd0051087757; 0x24e8e356c80975dc; 0x33919daf9888537d; 0x1a3f33f8156158fa; 0x427f4e4cc8dbb1b9; 0x5cb18c6df84fb794; 0x2d5efa719a10e028; 0x5f6e16c3d04d9481; 0x503d205860db4c73; 0x35e6bbb17cd13016; 0x4c0a964b1584c10d; 0xf47ab86c939c923; 0x3f951b418ff4a52c; 0x387a9efd10c30823; 0x4ec34a4d806d2e55; 0x226bdc9484f4c032; 0x7cd55c6a54cb23e; 0x299931765e04b8a2; 0x7592c0c30c6b7234; 0xa05753c3da8a19b; 0x2a97e74c44dba67b; 0x1a80620a075350b4; 0x563b6243fbf3e8e6; 0x3be320a1f4464888; 0x622c352daddcee55; 0x2287524cb56f82ea; 0xf9ff5c62b3b1ad9; 0x2412c6127f9ee735; 0x14c6b59cf9924a74; 0x328fd6558cb87ad; 0x167a1f2efea0b107; 0x4f9ef9019f9ad0a3; 0x3c72727c348b8989; 0x1a471f5669408d3d; 0x35acc50fc265237a; 0x760c10570adb9b58; 0x442480fafc2b6fe4; 0x4db3b5702b94ce70; 0x381230c5f4c94732; 0x209e41eb8942f2e9; 0x25fb32164f56542c; 0x30c0079b473e0156; 0x1258236cbe56d163; 0x582cdfff0d78ba41; 0x6727c39bcaa862cf; 0xd187c59b5c7554; 0x503113b9e972708d; 0x4f9ffa9bf50bf7ce; 0x621b66757c488226; 0x1eb3ee7f7454b8b7; 0x3cb56e2cf7d33f23; 0x64c5f8a30e5073c4; 0x73cb6ee24ac4e405; 0x745086bbb2fcc438; 0x3a3bbf966145395a; 0x77297cfccb2ba2bb; 0x7cc15156c05566aa; 0x123b5de724c923ed; 0x6d6fe426ff96c897; 0x5ed8773cbb2c3c2b; 0x469bdb2f7ed9235c; 0xe406c34954f8936; 0x4bbd50d7f76c572f; 0x1b2dcbe25cf6504c; 0x28df04f3593f5f40; 0x695f0f266b94e3e3; 0x4a9a3c7dd1804ce0; 0x51289d1be9ef2cbf; 0x780258ad8fa93c78; 0x159465e87d37a8d5; 0x559b4d298c85edee; 0x4c82fbd348a6c058; 0x58fb5875c3617a90; 0x100baefa9c4b0274; 0x58f1a4f06eb802d; 0xb60504d7242f6b; 0x4ea89c7d07aa4d15; 0x3c9e69c7bcba16e3; 0x15539a8819f50731; 0x7e55df739fd7c222; 0x6dfdfa70f90b45db; 0x3fca41cefd41e3cf; 0x530de99a6100aa32; 0x1b1525aa0e27e8a6; 0x521dd18f5932862e; 0x1fbb773c53adde56; 0x3777e8ae6063a68e; 0x7b8519a1e6c24148; 0x4bc7b5928169283c; 0x14aff7becdee4812; 0x494aa9d1761f3e83; 0x5ed88484467bda59; 0x364caf31dae7eb2f; 0x12f40dcb8a24a117; 0xb3f8ef81aa4f187; 0x4ccf52c24250c49d; 0x5aa33461fefb0982; 0x799e839a9a1ee22e; 0x27af03702c3447c5; 0x7e24fb88ea001f3b; 0x24ce02653fd8e8b; 0x418c520ffc929dfc; 0x3462519a2aaa860; 0x119c7d1e3c56024e; 0x22434b617b39eaed; 0x878f0180adf942c; 0x743805a229678fd3; 0x1c665d13dc62d268; 0x2d43b87bc83438a4; 0x77fec3951a56a530; 0x2e0b3b9a5ffb5507; 0xb90c50ba9249692; 0x49984bf0f7037988; 0x576289fa9539e0db; 0x729fe8abec2c9b84; 0x7327717998999398; 0x1df6b426ff73b920; 0x40f22c5ce54d45de; 0x4f97d7fb66a6c728; 0xc4686632370ee6e; 0x30d3d41776e7c7f; 0x22c7293913809b28; 0x147707d9a889eccf; 0x285dda7d87082db5; 0x1680cd7c871a332a; 0x3c568ae889d44052; 0x83c551b90d3fe7f; 0x3eea7f7c40e4a2f0; 0x3a9827559d63a22d; 0x975f30b6b2794a5; 0x4ba1d7defa18def5; 0x49d5598bc94b0660; 0x5d98fe5413cadb6d; 0x73dfec01188235ff; 0x72c3bf17467cedb3; 0x11aae3c4dd6705fb; 0x7d433a79da82453; 0x7f6ea879a6b000d4; 0x4eeb677ac40243f5; 0x7451384a98763bc8; 0x3566dc9ba681d7b9; 0x31375db9c0b39c41; 0x7706641d8f3838b5; 0x202bef8c1d052cc2; 0x70649a0717c52fab; 0x46eb08ab11fc0d3d; 0x7e604345034e94e0; 0x476e6d2ce36ea9b3; 0x3ee3e6f18683f97f; 0x6799d3bbfcc8c8f5; 0x72956d3c46bd5905; 0x76253c978a409f3e; 0x52f21b471b3a5927; 0x7ac7520257249792; 0xeb09fa42b94331e; 0x3fbf8f6c4e33aaa6; 0x2a6f573312bf3eba; 0x70b41cdb846f50c9; 0x52a436868153eae5; 0x2260fff5d2a548b3; 0x4e38ff4ea151c4d0; 0x50985f0346728e51; 0x5957d143d5a07ea6; 0x621e67761101bf54; 0x2bda0c99ecb99ae5; 0x488e34f4c3120755; 0x334afd349dfd1d60; 0x672163045d07abb0; 0x69bb3bbcb100c39c; 0x6e72f1ee857bc5d8; 0x3785c00bc5e862a; 0x29265b837818bb8d; 0x67d3dfc8eb7fec60; 0x6be4c4d53b5e3b78; 0x269e85b0f44cfcf4; 0x60eeb2131c5f6062; 0x74735dcf9833b799; 0x255c677ac0285293; 0x5c492951cfff8247; 0x4602c3fa26d4c612; 0x792c3631ce00aa4e; 0x569f371222e7e981; 0x332f3d8921f23c96; 0x499ea2e26b7eebd5; 0x59c1412c4ed57ee5; 0x26fc3cf15ad1fdaa; 0x182f6c7454ea474; 0x794a6ac4b318b186; 0x2436ec2f43611337; 0x100030d02b876511; 0x6ead6044bb302c83; 0x6bf184b09cd3a1dc; 0x17ff30a38069ce6; 0x78791b3ab42435b5; 0x3f7e663a98891c75; 0x56dacfef95b66a48; 0x7a1fd2f32c0dddf0; 0x61956f77d7c7dc3c; 0x4598fe1c8f580395; 0x714fec31afedfa88; 0x49daf116532d377e; 0x22ddcdf15a58d260; 0xaddead02340a81c; 0x26b38fd463c173c2; 0x1b5cd0b9a6289add; 0x7f99f9e661e18665; 0x4f3cc3c3ff3f3c0c; 0x79e7f8187f99f; 0x30cfff3cff33c33; 0x7f9e];
   [0x2349cd9ec2061812; 0x16fd2515a927265a; 0x6ca9e16ddc3bb4ae; 0x6eab9465281a4910; 0x58a99f5080d9bff7; 0x2c12050a996e9453; 0x7b5e88b28a7fdcbb; 0x698e0f2ade2fb59d; 0x10ce4059867dc96; 0x431b068e52a5d92b; 0x382a73e098563ab7; 0x6ad280e108a40363; 0x2cb811a201f127b2; 0x34f4501c5c8b2185; 0x73561674d38f448; 0x4c5d26232ff7f16b; 0x7816429c4024df53; 0x79600316aed11c83; 0x14e9e810a1f825a3; 0x4b7deda8810d29f4; 0x4c6f0a95d12af30c; 0x124c05b503abbf61; 0x218d8969ff112e70; 0x45964334b123f76d; 0x8fd5efd84c0077e; 0x330618dd46ab5eaf; 0x57be3a0412942d38; 0x1fa7f6f58bf7b6d; 0x3bf8c9e33906d9f4; 0x65d0e67df208e363; 0x4b63c12cfff1bb48; 0x78948b1af50dc45; 0x454a036fdd261023; 0x2b28464ac8d62f85; 0x6d173c7f4d3fc383; 0x6050f1afde9e96f2; 0x69ace580aedaaa93; 0x1a6d91bd78561ec5; 0x3853145dddd0902b; 0x7965114e6e60d101; 0x5884981b591e7372; 0x2a05faa722e47e43; 0x737c1fbd75dcedec; 0x1f7aed1a8669d32f; 0x536bfefa4aac6dfb; 0x3a5fdd27b22b151f; 0x7315aa17d340295e; 0x50ca2caa8f690374; 0x244dc784e982884c; 0x2ff3277cd2c9fea8; 0x321187759c23f4d2; 0x7a6ade484b488e57; 0x349ca94b2de7a656; 0x2b699299f3572ed5; 0x27c97d5f5df98bfc; 0x39bc079e00b1ac4e; 0x20bbd1353d900981; 0x4deb4274bc8ca393; 0x4327433aff6a06a2; 0x4c2bdf4008bb669e; 0x240d07d01a7a03b1; 0x4f427928b34c9f24; 0x3307848d39c1389d; 0x392a045b126924a1; 0x5b66c9629545e97b; 0x4e071ab0a69d53; 0x4508fa3c6c231673; 0x51a18568ed83d453; 0x60be5f8ac938aeec; 0x252b66c621c8c951; 0x4c6be82a6e40bd22; 0x71a5a1678651f79f; 0x2b343e858d38d8f3; 0x57eace760f5ee755; 0xacd6f830e4ea5d; 0x4b2eae6e1ef2de3a; 0x120252a6a1a71c73; 0x164f07180b088bd8; 0x42097356065946c; 0x31399493336daca7; 0x27b2e256e473d6b1; 0x6f53fe685d0b37; 0x2955949232eda4a8; 0x1440b2f49a7f0a87; 0x43b92c92cd167bb8; 0x6f8e480ac75961e4; 0x3f78c944d9420dc9; 0xa5ce734486cfd3f; 0x528704b383c5c34c; 0x5c676d4335213260; 0x550f11ab0e44e35e; 0x29db073233fe32f8; 0x460a70498ba72585; 0x77d0760a05fa520e; 0x6285df52e9c48ddb; 0xbbb2900521ee10; 0x3debbcd36ee5d78c; 0x6fb0c7111cc2f88b; 0xae40b02b39c076e; 0x496f7454018c4b2d; 0x55d687c81362113f; 0x1ee8f5525628f811; 0x3e5e2f9e1315718b; 0x1e5265a2c4b1624f; 0x2ce6ba1456468f17; 0x2e4ae47bcdb1beb7; 0x44e8eebee201e4f9; 0x1da27706d509b6f4; 0x4840c24d385ca83f; 0x2831719dac68e21f; 0xec229563ffccb61; 0x3a23752863579387; 0x64a9cd364758b31; 0x69c0f219e0727be8; 0x1bdc0108241ab5f8; 0x60eee9f4f88cff61; 0xc2c2d753aa14d5d; 0x72bf6578fbabe04f; 0x6604d62996237622; 0x395e3f9d49f9c9f9; 0xa57cf42d907068c; 0x14af1dfe5a9dd056; 0x5f5b8f923b3f2440; 0x506d43a8299ffb4; 0x2dec0a00c5afa2d7; 0x301087a26749614c; 0x20e1041defafefc1; 0x4325a21c6f0ff6b7; 0xbc9978cd88d2289; 0x7a565b497d735e9; 0x298ad17297626f94; 0x137e83c1496379ef; 0x6b25fc0e9a2053eb; 0x66e755e04b6ee34e; 0x593664ed7cf1f753; 0x4491f920f0d9698c; 0x3738932c26e2aca5; 0x6f0532fb705347ba; 0x588568d1a2b72aad; 0x5fbf44f51297e71e; 0x3a492699a6e04d40; 0x37b15e83405b9bf6; 0x46811c8832b2f975; 0x3a30aca4d5866dc2; 0x6cde68eb0121e5f1; 0x12a5c977a208f771; 0x2ec3b4e0bba0af41; 0x5c61d29da3ddd6d7; 0x1a3f5d7f7e097e1e; 0x7b3768956f17f6dc; 0x2d652e440ab65b6c; 0x6b558082aa3507fc; 0x4274072b7ce111; 0x71cf014802ae1dc; 0x50b30dbe311f5220; 0xdd5684a2cc12272; 0x5b522813b640a80a; 0x72f7570771393b7b; 0x1c37a31c02a6c0f4; 0x124208235c553b53; 0x76214e2327eee86b; 0xc37ab92faa18769; 0x3d4eca7768f58ec1; 0x22ada08d3a11908f; 0x11ed24092bb3f107; 0x48ac5b32e4aecf71; 0x2d6585432c3dcbf6; 0xe5be51952af3781; 0x3304f9bca6af565; 0x4b74e0ff9311dba5; 0x2d9f7b0cee12ccc5; 0x5ee83e18a436337c; 0x2149e8dc843dc2d8; 0x738775ae1dde2a57; 0x3f965512e7afb9b7; 0x7a8c2b697f372a12; 0x489a93203df307ab; 0x4c17a67e1c73a457; 0x5f0d78d425f8e6dc; 0x59c243ae980e622c; 0x5544e7e0dad36994; 0x2a8d9e81ad300bb4; 0x6d94ff486ee4cab8; 0x25bef22acb85f1ba; 0x393b675978847e90; 0x608c201acc8a4fe2; 0x494c3197758216b1; 0x23e90c198287cc7b; 0x224457e172530325; 0x5e3f5ec793df5ee7; 0x4f374119fec6a223; 0x4f5cdae2eaf3427f; 0x72748e85293a8c0e; 0x5706690a9697acdb; 0x643c73554fd09379; 0x34d03a4628e1ebcb; 0x5774c9327ae3240a; 0xb456213aa47ec4d; 0x51506529183b1045; 0x7da4e1bb19042208; 0x4d7d10b5f235d55; 0x1380818b7fcdfa4d; 0x5327e237eb061899; 0x737e4d52c9f65d1a; 0x4b9d9ddf6fca1fc8; 0x44cd4b5f349a7737; 0x3dc3a5a275982dd7; 0x71bf8be78e5fce13; 0x5faab2555a3824e; 0x5ff219b035bfa933; 0x44f4b61e84506b04; 0x3970e22c5f37aa52; 0x4623bc94996113a9; 0x1da602c746ad2f3e; 0x3e94fe28fac0c484; 0x344f5cf29a26fd54; 0x6df0c8c4af3aedf2; 0x11c76d5711da31c8; 0x781a35df3a7da52a; 0x42fab59cb96e2f01; 0x2637e0670e9e94a4; 0x588943a7392ff85d; 0x3c2f9ec9b14d221c; 0x88117725d8fc25d; 0x68096d5283c861db; 0x1e8849cc1168ca96; 0x2350e073f8760b72; 0x6223df2afedfee7c; 0x61f2b1525710c3a2; 0x304576da7ca1a428; 0x87818090930139e; 0x16d528eef9b9af87; 0x362d625c0d04c37d; 0x7830f0c680445268; 0x51ba4c72c5669e4a; 0x7ee3f00b8c2ac9f6; 0x2e7e2f521d8ca9f9; 0x2eb95bb66c147421; 0x7850f28024c299b1; 0x5a30709d34dd0bb9; 0x7a11e6acd12e6cbb; 0x4c9677bbb6e4f694; 0x6736616df20f8262; 0x66b1fde49916b23; 0x365dfd841d1310ce; 0x815bd9006899d95; 0x44e4f37ee3c98021; 0x6ab3daaf7a3a7a45; 0x93ce8d0dd2a19a3; 0x293a2347b5ed0133; 0x3b59dd2c97e1ed8b; 0x44354fd54e1b381d; 0x5dc71daa9a61cad2; 0x3f0f561461bc1b35; 0x4ef6865ba63864b3; 0x17443ac1c0a5ff1b; 0x401382cca138cfd2; 0x1d2bf4e41113aa99; 0x5c6993a33f7b0caa; 0x139e22943edc3bc5; 0x2e35ad05cf9c40a8; 0x33642d4ac1c1159e; 0x17c4f73dfd59c6bd; 0x1329f4edd2a0c8a2; 0x72338e3478e8700c; 0x58c163c80c8ad397; 0x6e29c152bf7bdad7; 0x1a12d18fa9c4815e; 0x5aaa40f0e5547336; 0x321e82312e730182; 0xdb73e40466673b8; 0x3e407a0e56f4b51; 0x69eafc47a0d585c0; 0x73db11305d438fe9; 0x76597d3b63e44cbd; 0x4901474694b35312; 0x71518a43524f3bf3; 0x623e306afccd1fb9; 0x5775f02d2d6878bb; 0x3f79cace1fa585e0; 0x126308b94ad711c0; 0x4ec23c9668b0920a; 0x7bc60254fef3c08b; 0x3b59bd6b7b615367; 0xfc70de6233beb51; 0x5b6ed56e7fdf48ab; 0x2b5264370b02f81a; 0x756f18ac4a775785; 0x45e5001696fea442; 0x29cda66a402a27de; 0x42173d85f397d209; 0xa38d1cbe1a78064; 0x40fae5886cb3b066; 0x7b481cff10906585; 0x572f1e28035fb7b2; 0x7ee56c82006f79be; 0x6ba52b0cef2caff; 0x368e4aff9e494a1f; 0x7f47a1256861a53c; 0x1175958652ea5f0b; 0x604db21c761a12a0; 0x55b3cdbc8a491783; 0x5832444d2f7b7ca; 0x357f1cc39775577; 0x363a3fd9f5f2f2b5; 0x7b464b80e32e0206; 0x7e8e25abe685afdf; 0x5d9bd9dfae1e8037; 0x2e63cdd67713300e; 0x7b379cd29468a66b; 0x578856f77e74368a; 0x10493fea0778a6c4; 0x72f40f9151dac48a; 0x1e619e0067e1e796; 0xf33cc0cc3000c0c; 0x19e1e19e66799e7e; 0x400f3f33f0ccf333; 0x19861];
   [0x5b3cadfe5f6cb05a; 0x4a9110fd90c4df0a; 0x4972f369a791948a; 0x28f3db5e79c70947; 0x2f0cd23f71571511; 0x25c93dbdd1a581cf; 0x7971236ba9ed91ee; 0x53280e55f625e6e0; 0x5a0b6b3902b5fa2; 0x5d219fb2fb81606; 0x39706339a681286e; 0x1adb41ba4ce1d749; 0x6b3a22cd680f11ae; 0x4f35f6bf8205571c; 0x275edea0f3667a2f; 0x1344dbbc27ade6bc; 0x5022bd9c1416934b; 0x5a0794edddfd85a6; 0x10d710b11c23721e; 0x7f60da5250fb64b9; 0x58546a9d40b9bf3d; 0x7e74c2ddb7c863ac; 0x3724df896645c9ef; 0x5bf83d1bd21e860c; 0x324cfdfb098c5a21; 0x706c00e1243a9457; 0x2adce1df2bb0870f; 0x20746857855fb0a0; 0x549d27886fc68335; 0x76b9568d8ac50b43; 0x24bdbf6c2a8ae795; 0x2a78ca1e14a6ee92; 0xbe90ce2ce9e9426; 0x4467feeb51e1996f; 0x4a5dd70a4352f2a8; 0x7016e29df4be5c5c; 0x24109908acccc59a; 0x5c664a9092c0171; 0x4cd3db211b2ec32e; 0x73f497c20342c0c2; 0x5d1f3ecd0b2b927a; 0x7f08a1d29e3f3f3e; 0x17cd096adb3941ac; 0x2e901f66753ce09c; 0x533a0439e062cc4f; 0xa1cee53d8a44434; 0x18c3b53ce99be840; 0x19d5d5175fc86d56; 0x2a9f1c49bd850639; 0x72210a45374459; 0x5ff9282f7792917f; 0x4843f95f416d1b32; 0x5cf1b50239a5b47a; 0x416b531d05e632a3; 0x409741f5cdd148e8; 0x6ada2cd254df570c; 0x2a2a4a4c83f06046; 0x6283022a10c6f5b; 0x441b6014a311294c; 0x19e1f5f0d1fd4750; 0x26a68eccdc463d0e; 0x39463a527da74f15; 0x1deea3ba2b6b651b; 0xfe2ebaea72938bb; 0x19d5134e3d3a2b58; 0x4b4b632d9240be9b; 0x378eea51ca7c3263; 0x786c29471d3e72d; 0x409f69e7d81db47a; 0x1b3ad62c9a0bc726; 0x55b764d699cdb83c; 0x188bb7de82c9e08; 0x9ae80b20a79fbcb; 0x69e8a30533499d02; 0x2975399d5b5ade03; 0xf49184e866b2ad4; 0x2268e6165c6bdd97; 0xbd4b934a2411fa1; 0x1509348b8677c200; 0x4f5bd4807cc01cad; 0x1fcd1193a64f8128; 0x430f1762f38eabb2; 0x5c21e3410a596834; 0x7fab3ac324dbafb1; 0x7350e2ce0d8dfbd9; 0x4059317aa0319f3; 0x68c49d76e7ca640c; 0x44ced3ef7385e57b; 0x3c8fb7fe3e183bf6; 0x3b1597c0d16fbb92; 0x5d2235b96b7e44ec; 0x28f3624c040e7b83; 0x5873c494205049b; 0x7e379ae7e91df3ad; 0x76756717957434bc; 0x3021ae43313aba5c; 0x58436c9e07597751; 0x1748d02c516d95bd; 0x328c755eeb4e8a59; 0x1809a297358021d2; 0x4b27719a8f00f211; 0x4dd3aa0458ced2b8; 0x17e7bab05481a640; 0x1e5864dba0d6e8d0; 0x78b5da67b2c5f1cd; 0x312beb7f7f609d8c; 0x5d0b1ae290f4289c; 0x3d4b47c075ada106; 0x421789bd28664cf3; 0x1302339890c96156; 0x4229744578105d2d; 0x5d9a9fd81042d0b3; 0x25e5c9ea8aee7da9; 0x3b21e7ac6061d0f0; 0x127b4e511bd4b637; 0x14f5289752a5b960; 0x714a8c0d2e65af6e; 0x5d62066ae22d0ac6; 0x51e86633f952ef9a; 0x5d885963eb909fe4; 0x725c61ba70e1afbe; 0xce8b9925f89eeb5; 0x7e1a1f5d3fdb6fc2; 0x2c9e2786a8a16fa5; 0x4f419fe7564614db; 0xa2f3024f1b6a2a1; 0x4dd4e7dee49e00ee; 0x581b3773d9e972da; 0x77a1957be0c670f7; 0x403139a746f71fad; 0x6279b36e08357b4a; 0x7cf38593465bea8e; 0x49cc4868d224a1cd; 0x25a556ee631f5e61; 0x6855f60f248a6177; 0x382cd74440306bed; 0x474f777118773af8; 0x5647d11096c1aebd; 0x3b2280ff6d53d4fa; 0x5ffa913f736c82f7; 0x112204d51f76a6c5; 0x1eb99f0976b7dbfb; 0x2469f5231afc8aeb; 0x5ec2cd85a6288d50; 0x7230fbcea4df4d78; 0x6a7cc9c4561d5791; 0x745155e95b205190; 0x3b65ce4ae5af52d2; 0x7e6edecd82fc41f; 0x5d40508b871887a0; 0x4fa0d0f64b6f3afa; 0xc2eac49dbe0da68; 0x30987285877a565c; 0x1ae4ed26e20b5eaf; 0x744ae4a847c97be0; 0x664d54ba8e6fc4c9; 0x65435a204157a6ae; 0x500666ffa2588b83; 0x38fdd4ea014c3690; 0x785e3cbd0ef697b1; 0x43868102f8bf932e; 0x22f92457ec9ad526; 0x1d0f12948c4378dd; 0x1acc1aef2759f23b; 0x5f51f4ca61d8f6a2; 0x47132777de603f92; 0x5dc35bcc7c3c4c95; 0x697c69f865ea1816; 0x18167b1a402f6209; 0x2c38a77daacf90b3; 0x54654db6293c6f19; 0x1d1fb78962f0ce4c; 0x3d81c6d61e21a770; 0x13c9d297bfea291d; 0x5a61c81048cfe47d; 0x368ed7e76b650bbc; 0x6033088c2cdb2794; 0x7aa475e739163b3c; 0x208f693a7801fe53; 0x307e49ab5aac0828; 0x2c5d2acbc961b206; 0x31ffffef24c7fc6f; 0x45818266aee788e7; 0x7a02f797ea2ace5d; 0x7b20ff23ecaa674a; 0xf6b77b328a3d9ae; 0x205e38e6af8534b; 0x1bd3ff9b9fb14c09; 0x14ddda485579b95a; 0xad42dc0a57854a; 0x33744b0e5d9057b2; 0x51d7fc5965a6a60f; 0x6769a02b74ffc704; 0x45353237055fe316; 0x60a0c79841431eed; 0x438b025a97807351; 0x64d64968e2c1b48d; 0x8c7c23cc9304a73; 0x533dc87ea42c4447; 0x12fd86583f0821cf; 0x437759031d4ee1fe; 0xd260a18c096144c; 0x591835113967b291; 0x73f6f9db55a9d5b3; 0xb4b50ba9a456780; 0x7bef679093d7e7a5; 0x3f420898002d1ccd; 0x4daa304a1fa296a6; 0x406d02773a6da234; 0x5bffc040ea59bf19; 0x4b896100a84acd47; 0x1742b56801606eb0; 0x467ef8bae173a5c1; 0x5644d52f69e11601; 0x2770df4fe90f3748; 0x292e8c4455bc5be8; 0x4bde1307aa2a5b49; 0x123021293a9f8cd2; 0x33a3fa4ca6491d42; 0x499911baa5d068f3; 0x5ef9908af04bcb4b; 0x6b671ee8faaae050; 0x116d67014e6602cc; 0x1b5d48a0eb05c7b2; 0x13b8ab2aeaaff314; 0x420dd8b4042dffa6; 0x73dc3fb61d4a76; 0x3e8d2ec5d4af8acf; 0x4382fc9fcd3276a3; 0x288bbfbf620f1e7b; 0x7a44e7b2bf1a46ad; 0x77fb70f520921de9; 0x3163870a5c317980; 0x2654409b4ed34871; 0x533ca924114e5ce5; 0x1dc9c91c40f235f0; 0x73501368373f306b; 0x5858518f496b4f3; 0x414cae4f1d48a7aa; 0x3ac94a71c95e6397; 0x296d469620a39f3e; 0x4f230e7904055066; 0x4ed54a66160765b9; 0x55159975219b5d85; 0x3f9a64d548ca6e37; 0x7978ee2636fb7805; 0x475b10cfdcfe356; 0x2b9da9a162a530a7; 0x498583f152e604a3; 0x639f6619eb52909a; 0x5f43663d88dd5552; 0x6107aa7c571e063; 0x4954f82b81bbfefe; 0x1f6d9e39eb8291f7; 0x62357f13886593e5; 0x71c9a49ba443f981; 0x4e5d1544fa43eda3; 0x351bd930a85a1939; 0x69b2b13b52640b98; 0x63652de701aabcb1; 0x5826369551406c3c; 0x8863303cdfa80f0; 0x29c04a9bdb8a3762; 0x2bfdb1f22d46b26b; 0x60c481977ebd6e59; 0x348d62c22f8f3dca; 0x5b7c12f384a670b1; 0xf16e5a0b18d1441; 0x76e528ba6b078a69; 0x4d4c6f796754070; 0xf2ead0fa58dba89; 0x64fd1a224b57fa06; 0x71496fe2b5ac2601; 0x5bc5616ed38d9b75; 0x1e04b65c426caa06; 0x1e4ea3f01eb45a1; 0x2199c87759edeacb; 0x393bbe6a0fb7bbe5; 0x73c2644c92801c66; 0x7cd42d720614f867; 0x2730dd008ee328be; 0x5c306f6f5bec0abe; 0x45c5735ec5af11e3; 0x74d195c60482885; 0x2816425398948955; 0x6fc48842ef740dcb; 0x276279f42cce779e; 0x4af545f3d6fb56f0; 0x7b711b83dc5f627e; 0x49f6f86470992790; 0x654bd56bc35ce73e; 0x41de1944e6ea1ddf; 0x77d1a4d72db939f7; 0x1eced479b8b704db; 0x159486b198ec7063; 0x2f2055f1e6fee856; 0x34b64a3690625d82; 0x18ca654a41e0a429; 0xb3522e641683903; 0x64c71b707727045d; 0x7a596547307e8b54; 0x6c02c2247ced5748; 0x2d37a975af855514; 0x78dfe05904e2d425; 0x271e3697ae719114; 0x5dd134c9ee6c2db5; 0x763a303c4fc51fb; 0x3d3a972dddd87740; 0x4f88f381c87afd24; 0x3c217b16a988637e; 0x22f57bcaabec5aae; 0x4b7f149ddc8bc0bb; 0x4e8fa5164e742778; 0x60607f981ff98150; 0x4f3ccc33fc303fc0; 0x1ff9fe1fe001e07f; 0xff3fc3cc3cccccc; 0x1f9878];
   [0x4c77bd3e14dc6ffd; 0x564fb607b7cd84b4; 0x5fe8d3b55db46087; 0x528155648136e9f3; 0x4d66e0dc50e940fe; 0x535dc9e21836847f; 0x20d301751f23c394; 0x5e0947511a905010; 0x449d545e884cc761; 0x2356f0467490721c; 0x9674fb342e0a530; 0xc132ee8182cf008; 0x620e5b7d0380d112; 0x3dd870a3c741519; 0xcb72d7beb40d5ca; 0x4e1f1952c786f18c; 0x325c8e3281b267d8; 0x54659069a9d85b27; 0x6da524ac488da8b6; 0x3220eb1d65f11ebd; 0x350f16c252a093e1; 0x6061fe48a15c7c88; 0x556401823608d6aa; 0x5e83e56ca7daa536; 0x3482e62b917502bd; 0xa74e700d1a2fdd1; 0x53e2bef88c9d3e84; 0x2dec7d51d8f0c752; 0x172717395fdc6b18; 0x2a8112a91f86bb5f; 0x30391b03caf560dd; 0x1419ec9264450ed6; 0x5810a0d415b51ab; 0x7c3ee67f262fe827; 0x1729d790c928b87f; 0x340ae7a88c1ee6e6; 0xed3dca97b860dd9; 0x5959982902aa6386; 0x40f9193b7f5f443f; 0x1a5494a5dc9d3d48; 0x774ebc8cb549fe68; 0x30351d183bf3c1a8; 0x1ef05a672e5633e1; 0x2877c36f0f812bf5; 0x56247b9f3c9e99f2; 0x1400d3f6313b74d0; 0x7d4607098a471421; 0x877cfeba96a2544; 0x1a34edf78e25101f; 0x209d7b28ea3f5cbf; 0x2dc35d4716840a4a; 0x3887b9aa5c7e3e78; 0x321cf427484f6e18; 0x4e94a14424519eb6; 0x14ae7b84a3851500; 0x52ed0d7691eabf9b; 0x265faaa90a281d7c; 0x40c84ebd33d53af1; 0x7c4e949649c95155; 0x34a3b4fd3531ed12; 0x3f36212a3a1affdc; 0x88038d3cdb75d58; 0x66625cfa34681903; 0x1ce218b6b6b419bc; 0x44e4b77ac32932f9; 0x99cedeebfca04b4; 0x5807552d0d4aab7c; 0x4aa1ba60fe277069; 0x70b2ff7a56d84668; 0x5447bae169730c6c; 0x1ba7ceda7f66df75; 0x3e0f6624ce93da44; 0x6b8833191faf3b; 0x532a7b988517d881; 0x92926de256e48be; 0x901c3fcfff059c; 0x4d7ac0cdc5b3db45; 0x470364f26c71750a; 0x4a242c92c7957ae8; 0x211db6351be47344; 0x1e043745a6ff647b; 0x2a3558d84fcc9d05; 0x56f9e0a9c1af232e; 0x5833b04de9bbce47; 0xcafdeb39cda03f0; 0x8784c6d7510f26d; 0x6f7595bc25ada1e8; 0x1ddf2fdd450f747e; 0x55677eb8653f0eb7; 0x314b2512d894cf9f; 0x38d885208cacdafc; 0x56e370363f7deca7; 0x68d979113f45b36a; 0x5988f14f4feb4fc; 0x705f2b5f9d236dbf; 0x661d7598aec222aa; 0x3f0091c2120d0fe8; 0x5510e8b7619360df; 0x15bbcc92bf9f8115; 0x36f8da5b5f3d0358; 0x16277d7c4a32cd6a; 0xc85e97bee0bf992; 0x1bdc289dc2ed77b1; 0x691a174875b9d14; 0x494f7caf936a81ae; 0x3195863d8599db95; 0x38393cd0738db9a3; 0x65d810ac5d20a377; 0x546cd5fb9b1e306c; 0x772e964a4651d0e; 0x1494b781dc0ebad4; 0x3d2b1070d255e7bb; 0x3d90747e9d5a9207; 0x2a6e0e9ede6bbcc1; 0x6e54251c13da0335; 0x53c3fe1cf531eda6; 0xe5c886d4d9b787; 0x5c877f481661f6e4; 0x2d6c62d182c0c2b0; 0x3f46a1c320865cec; 0x5ef0fe805aba3a7; 0x76d83d6a8db7eec; 0x268a150df526f3b3; 0x17261ceb85d52839; 0x35123eec97de220c; 0x2b40cafb2cdacd35; 0x265dc0c6ef41da96; 0x63609586ab73e4c6; 0x71d7bf7240dc4c0d; 0x35dbef0d52dd2fd3; 0x70fd0836712efb15; 0x240b3b1919b0c599; 0x7de59812c6a59466; 0x238b961ab34055fe; 0x8bef4453aeb65a5; 0x1f1f3b55c1151eba; 0x22b3907975025b58; 0x67d7a14addf2bde6; 0x15af6c14c4248345; 0x73d442737143cc13; 0x5dca7f794223c50d; 0x36b5eaf4245727d5; 0x74d78611a026c25c; 0x7a450bf6a768f884; 0x39f2c43b5f7f513c; 0x52dac577951dc3bc; 0x5f8e78ac3beb03; 0x33be5d447012f08c; 0x73370d7a2fba30c4; 0x35bfbf8149f9e0d6; 0xaf61f754439074a; 0xc89fe7935ba1ba2; 0x7a58d15eac60514f; 0x683a9484200e2ee5; 0x5050686487acef18; 0x506a889d61c35225; 0x546eb71a0942a51d; 0x4fb136b43b320a8b; 0x251a1724abe00865; 0x2e462408589e79d6; 0x19596999348b210; 0xa6664bd330f211a; 0x4278afca8b19d450; 0x74922beecaab980f; 0x5a19459c0ccd5ae6; 0x5367377ef1acd416; 0xfe46f12ada79885; 0x747f01c5d3e1cfaa; 0x24ce92c7c9023b65; 0x6bde6f5082054a51; 0x801805cc4cb27b7; 0xbc9e6cc1d80d39b; 0x4d754d47372e9a83; 0xe69c3a1e2396768; 0x712d2cd36c1621c7; 0x790a8fb47159ebb1; 0x3a6f8478106df194; 0x592c2fc1f7fd167f; 0x1ad5426fa485697c; 0x76f4f91d1a27f97a; 0x3bd0492b43fefeb2; 0x1835a6569d1676e8; 0x364efbb29cb093c8; 0x3f05ad5a28442638; 0x65731d51440fa419; 0x69cc99ad41a477a9; 0x4649da7ac5e23549; 0x3bcc6ad1a5d316f2; 0x6cb6ea91ca22de1d; 0x73d9ebeb0521a28e; 0x228addfc5a978650; 0x4ada3cd289171f75; 0x1a64cd53936cb315; 0x413d54f1a6dbda6b; 0x2324f2d61339d398; 0x133734690a91f38f; 0x12b1444fd7987f8f; 0x1094b1007c4f1d66; 0x43ff315a87129e1c; 0xd21f1b318c1c8f5; 0x8091508f7ec34fa; 0x1649ef85e07a567; 0x3a7ca8f8950ac11e; 0x3e34f79defab2fdb; 0x7065d97ba20038e7; 0x39465ab212589329; 0x63f9220833cd416; 0x5c91a2ccc5e85529; 0x3455cf711842355a; 0x775a77ed393e14b4; 0x727a8b356175e14a; 0x612499957700d2d4; 0x7943bbf3e0239c8e; 0x67bd4f25d366d8d6; 0x25782563c9f68fb4; 0x46ea327563cee224; 0x4fbfa4973da0d836; 0x1ef8975ed9d870aa; 0x6807ad102b84ea90; 0x5c9ffdad8b4edfc0; 0x4139a2b552f023eb; 0x562ee79366418ea9; 0xb1246e85c4162f7; 0x37165748c8975fab; 0x4460400cabb05723; 0x2697dfebbd294cdd; 0x462cd6c7416174cf; 0x45db3acf2a769aa; 0x90d3f0e52429386; 0x1448aee2e5720e22; 0x2a8d79ee57af7a44; 0x176467c1299682b2; 0x23a4a6f555fb9414; 0x1300799f28530bea; 0x56cede793c2d2d05; 0x6261e465e683dd96; 0x20b3d61c103622b4; 0x2b1f003c1d2c8b65; 0x47b1c29853653d3a; 0x1237e5e252e7b1eb; 0x4ae56ffc580ac5d2; 0x36b3ae1c50ec6e6b; 0x2d0ecd492ca5febb; 0x5c2ec8cc580f62ba; 0x1a180f37e109dbb3; 0x1868ece14bad3ee8; 0x579fcee136f21034; 0x2f4980f444fb5404; 0x783700555dcfa325; 0x74a592406b062660; 0x42dcba70d2e13b81; 0xe1854acf2c5082; 0x3d6ccb588b7b8c36; 0x1ec26ebd70230aee; 0x1693890a5c9d1db6; 0x3125a4e028786b8e; 0xeb984ebac75be84; 0x7e65b742eb01d1be; 0x667bad7197f9c456; 0x236956cdedd508ca; 0x7307903c9657c73b; 0x2eb0b46607c2b507; 0x1c0a1a9a1096d3f1; 0x33d8cf2333187d00; 0x2c2d14a9854c12ee; 0x7a9a93695493e1fa; 0x24a4fb1afc44aff2; 0x4ab922a5af5b5ed5; 0x4b42ddcc2e6b9020; 0x496ad93ea251ebb; 0x16e5e4117968b205; 0x3c441e01f45a31ae; 0xb412c8c5a60e322; 0xdc283a4d26855bf; 0x3770d23050e3c2df; 0x56104a57f74cfe41; 0x27dde48eaa5c597e; 0x8c297af329c763f; 0x17df167dfc8076d; 0x24ce218a95f44d64; 0x5a4dd3495c0fcaf9; 0x54ff5f2dadd8b72c; 0x36c5d427d8aff27f; 0xf8361893d9e5a03; 0x75b974a6bdb00804; 0x11662ec64de93272; 0xf1e2dd59f9676c4; 0x111925714ad62ea2; 0x656da1fd78635856; 0x6efbb587b658d2cf; 0x62cf6960fbc056d0; 0x317f26e22d232223; 0x35318c9d1cd8418d; 0x6b40758f9034396b; 0x319abef29a8fd0e6; 0x70458e6b351a28a7; 0x7179e5f63145030; 0x6253fc35183bc449; 0x31ac20ed81323bc; 0x5e7b049ee0ab913f; 0x4b53e0c03ad486fc; 0x7b4d4420213cc091; 0x9a73935f8023741; 0x5638691f988a9922; 0x44f3cc567e99e272; 0x712ab52d80271bc3; 0x221e29dbd876f20b; 0x1ebbf28877f3e5d0; 0x4b29c5b9b07a073; 0x4e355e19fb05ced2; 0x55e55c21eea34005; 0x4c30ff23b3797b0f; 0x785b562144834292; 0x66667fffe1e1e1b2; 0x303f30303ffcf330; 0x67fff81f987819e; 0x4ff33ccc0c3f3f03; 0x7f99f];
   [0x23246d4520426634; 0x41fbbfb8bfc77e8a; 0x700d7c3137806767; 0x67484f8c10b0ccf4; 0x7ce31c53f371c977; 0x1b6df7b66b3dde5d; 0x4671b98bbcbb7b2d; 0x35fc8bf779b1b724; 0x1b71edf2685cca42; 0x1278f20742d958b; 0x301070d24eccc162; 0x12f8d54ecf4726ef; 0x296f2bd06e120e94; 0x25af47af78f7d52; 0x79623d41fd4c0878; 0x4d13a59294fee4a9; 0x2fc3e2cc7afb7d42; 0x2094da751076afd8; 0xd30ec86ac93a318; 0x2ee74aeed5df9853; 0x62447e44e745e040; 0x6bcefd676b675244; 0x3eea2dc6f6b82ae4; 0x6f58c48a68d6a14a; 0x1fdc8ce8b1767ffb; 0x2dc6cb701702fbfd; 0x463d2c5bd4710f54; 0x65e0fcefbf9596df; 0x2dceb0711cfd57e7; 0x37f7eaf53f6f17d7; 0x2856c5deac3feea5; 0x777c1b381789bd9a; 0x252f9985bafb2baa; 0x52df17e443026316; 0x4962527729348d92; 0x5fa05c0137c4606e; 0x1258dc5174121b51; 0x3e531ebe4e9dc7ca; 0xd91496cd52bba28; 0x43198712fb92442; 0x95c439db50aa0d3; 0x48a7332896dc18d4; 0xb37c45e67c008c4; 0x1cc61997199271b8; 0x25cd7a76bf8d3c80; 0x241585b30a008c09; 0x454f8c1f4c638a6a; 0x2b21e07d43510468; 0x2f5226a91047b7b7; 0x4abc91dab5eef2f0; 0x5038a980e8267d35; 0xe1bd0ed0e1a429f; 0x158f54c7811d226a; 0x34473e21ccd5852a; 0x2988488ae1766093; 0x40aa6a7b6032e78d; 0x7ebeed0214903698; 0x1087af7d946d00a6; 0x702276620d1a11be; 0x276fece4f5db89c1; 0x5dd907b4f97ed491; 0x4135e1afdb4abe47; 0x53a372042b6ce372; 0x5542643eb29e9bf1; 0x2a0677dc6561087e; 0x74d93e75c4156f79; 0x4bd531d819702ff0; 0x28e2349069851771; 0x5febfdd6521379f7; 0x4dce43f72f3c383a; 0x77c5bda8e691a15a; 0x5ebc22e81c47d2f2; 0x5ff0d83879c1ca3a; 0x3472d197de9d05a5; 0x440e9e6fb9ebdf60; 0x14513ea959cc76c2; 0x53fb2fb58c92218c; 0x194a879ccdaa2791; 0x356fd7eb68abbfda; 0x6d5bc545f1088035; 0x782a4579cdb19c2e; 0x67ab511acdddfd7f; 0x7b38aef8742a8cc4; 0x6f0ede33dc3b851c; 0x75998a012532d01e; 0x4d3a734f87f065b3; 0x2f6a98cfe11d9361; 0x55aa290883846eaa; 0x7b0680a9d4729706; 0x167bce67ab4c1b43; 0x63875b22e50517e1; 0x4ae2e57b4aeefd2c; 0x145d6f546adf3b13; 0x6ee366f24350bf7e; 0x10f35af9a2c47337; 0x1ffbe84e54d5c3a3; 0x7cb96ff7608b0f3a; 0x8f43cf66e5e52dc; 0x578ada3b836164d1; 0x1205cc8e2b0b4b2f; 0x1a9fb9affed67d6a; 0x114462bdee1f05cb; 0x5c2526b10dd4577b; 0x4d890fe57344ca92; 0x2e69e39d000d191d; 0x54111f93df588301; 0x186604c51086dab8; 0x1d9d944905fd2ef1; 0x22f4b84f03ffe718; 0x8a180bc8271b694; 0x1a60064823769672; 0x5190a57d9f2c1b5d; 0x2cd74314e5256566; 0x1935f5a7c7d1963; 0x3cc0ecf2c8c9cec2; 0xd8bc8e4f1acf3f3; 0x53919b49a5fed56d; 0x689ad8e3f3c86b3b; 0x1a427f6f9b9cb99; 0x1bea6e4d8f997403; 0xadb1ec2b7b37bcc; 0x2c5e4fbbbd8150d6; 0x23fb53043cf08ccf; 0x78dc59124092e22a; 0x55bb53ec34d40904; 0x2c91bdf1b4156d86; 0x4070eb1301d465e8; 0x5949f19dbda51ba; 0x4372ea262935994b; 0x4ecf2d831f623a95; 0x4fe60f5921c5598f; 0x4c82eb0e1ff03b5e; 0x54b6d45cc7b8a7da; 0x7d96d4a44a70ddba; 0x72fc032a819a315f; 0x4ad0e1080637f92b; 0x686028138b3f7ac9; 0x177a5260bb2a1190; 0x554741acdc21a30a; 0x9dae3d5192cb05d; 0x7469678da6d3b1d0; 0x7658665a2030b6aa; 0x16da1557f5f11b45; 0x258ed63d9513ccbf; 0x5ade74ab6afaa2ff; 0x189fefaa1c709d9f; 0x69b75310325942e9; 0x7156ffc3b81eb25a; 0x1c040ea910fe0da1; 0x799b3ab032463368; 0x6fd1ed0febb07b; 0x11b57594f1e019a2; 0x7a8065a0407922c3; 0x19394c1160be661c; 0x226b174b8c4ad0e5; 0x12b2a7c9a88d0922; 0x169132135c608777; 0x37bf416141047885; 0x4d77b5462663f6a2; 0x608d743a30014a89; 0x2e038edd71ab2640; 0x1305353605a80abe; 0x3c542b81bb676133; 0xdc23818f2409b05; 0x4188df9a6a78224d; 0x6d7de9c3c6c3e1df; 0xd023b10edb57a93; 0x538a5371a289b777; 0x52c247393c820341; 0x5dcfb156340923a2; 0x4398b79387616acf; 0x5d91ab48300624b0; 0x679f7b5846ea7e32; 0x4b7a4f7b4dafa190; 0x4e69d0ced834b393; 0x202ea949442953a7; 0x55da7415cbc2df1; 0x24ffbc0b14ee3819; 0x5d24c6231159f920; 0x9e650305bfc4ba4; 0x7219361a1398d61c; 0x53e24596ba8d2eb3; 0x7d335d95936e0200; 0x5504e03bb25313ad; 0x67fc7be3c08b6fc0; 0x1d2319e9690f2450; 0x4818567ae1e47a34; 0x46b8d0e95fc7df88; 0x788c2e8dfa348ca0; 0x204c5b9b26ed0472; 0x4c6aa7cc09116602; 0x746888729bb5bec5; 0x732d2a764ac1f978; 0x28f5249dbe7d17b8; 0x376f981fcaa92c24; 0x7885a2222fe1ba20; 0x4a41617d7d166997; 0x29a9099f87d8bbd6; 0x3630e467de23d6b5; 0x6a50bd4f44481a4d; 0x590d78a4696dffd6; 0x223524343b67ac58; 0x7e5ba90fe847b516; 0x5989172f6804f8ea; 0x3d5b174a4482257a; 0x73f26c9437b798a4; 0x1a7b7fd7db592493; 0x35a70cb80f6ca180; 0x4a56b3d3f962c069; 0x1a0826ac83360519; 0x6af33a63f55242c3; 0x48fccd79336e138c; 0x610f24e470f7b681; 0x596666e222b0327c; 0x504b3d4dc59bd22c; 0x390935001168dd83; 0x3088afd78a4b1ea8; 0x2f7bb9e10a3ca64c; 0x701c6fe16742ed1a; 0x736bae7d45fa1458; 0x4057a975349d8953; 0x64a217d0d04b07f0; 0x503970e80f7a2362; 0x7c1710f57412e817; 0xd7d13119b642398; 0x4a96c7e602302fa5; 0x3281e255b6bf16f7; 0x7dae6b3d7ff87576; 0x1319e5d17efafd06; 0x2e6d87d7880b3ecd; 0xe2d119da79f0c7d; 0x75cc944036dac45b; 0x1f6806b5f81e66a1; 0x58dd04dc65670c08; 0x6b32181014b4851d; 0x2f08ad173463717a; 0x2808bf94011a457c; 0x7343f6c3f0c87b71; 0x440ff12697afc873; 0x3617b1bcec05b693; 0x2d654d732e82a00d; 0x5bcaf1a4b5d086a7; 0x3d80cd238ed472df; 0x47ed80cb44a599e2; 0x39c1d80595dcbb47; 0x6350e9f2a2637323; 0x7d7fe22b45634377; 0x7aa763621b646fd0; 0x195ed7d60a0cdb11; 0xebd0e901621166; 0x240b3cf0b7e8e988; 0x6127f74936caa92e; 0x7f99be28c7ffa644; 0x47961ed408fe68b6; 0x690cbc84133a4f25; 0x500ade3823f68145; 0x3a12b905d4ac4744; 0x2634a1ac09f81f32; 0x6ba0b06e13e031de; 0x5b6360f9c161c736; 0x77b07d1bd527cb5d; 0x2cf23fbaf2fc7637; 0x560565a53979daac; 0x6d455c9646ff6fdc; 0x70930182f102a4de; 0x5b7607831f9657bf; 0x20b754ab5b134603; 0x75aac6f6ee57995a; 0xb655dcfeb998106; 0x2da340c3ed0cce40; 0x7bc569586f75d96a; 0x59d0d8d354fe4987; 0x3d4aff5b985f98a7; 0x72b5697ebc1cf403; 0x4a45453c35cd4fe1; 0x49b23acfab9c520d; 0x681a847eccae0655; 0x764767c05a481206; 0x572cd7b5e4c6bc00; 0x612a162533ec2114; 0x6ac43735fff8a0e; 0x361c2f6dd85f5981; 0x7a642c78134984f3; 0x74af8464b67d8b42; 0x19b0115e3584937b; 0x5575a45b2b27efe4; 0x3e285b73855fe821; 0x68fedb6b847b1ddb; 0x1761ff68662d83e2; 0x1134aec80bae9927; 0x1eb9fef063a15b97; 0x19fd88d4a76e995a; 0x6d98e8922585e74a; 0x11ece295572c64cf; 0x758a5d602dbd2bba; 0x224a65012e9e9f58; 0x1f532495411a3c63; 0x63697795998d7a2a; 0x10c5668e3450a8da; 0x142f7b7734810159; 0x500486f7623f0bb5; 0x310685f8b1f744ea; 0x4428cd29f736c586; 0x386973a6d99b0079; 0x6034a9af080c8a39; 0x3eed4b9d61ae821f; 0x67f61a509b23a79e; 0x17e5edc1d6154b70; 0x6e9aa72ae04eeda; 0x5818c77160e0a574; 0x55b7815b4cbdba58; 0x9835e774824ca00; 0x1e00daeaa6cee6b7; 0x78079e79e07ff8b9; 0xc3333cf03f303fc; 0x79fe07e0181879e6; 0x3f3fff033fcc003; 0x1e1e60];
   [0xd9975986560fa44; 0x13a0b793da70576c; 0x796ce98fb620a80c; 0x4166b17d9a980ec5; 0x63b15e9b42b18b30; 0x27e07cec922d2953; 0x7864d873cd830c3c; 0x996c4c8da96817b; 0x77c08b02f5bea402; 0xee6ee057da4f376; 0x39190f111a2f457; 0x5c70d2bbe6488076; 0x3504127ef915d7ad; 0xb1bc011f54422d7; 0x1380b8916624e3e6; 0x663164e7e3b00580; 0x3d9092a0f2c19866; 0x3125a21c3f38b121; 0x56459194be23b330; 0x313e78ecd497852c; 0x3c13c3abf75f9997; 0x6793f20dce196d49; 0xcdc4b6fb11f3299; 0x745780ef772502e5; 0x44791fef884048d3; 0x63ba23986c737f86; 0x70b1c211ff4723f4; 0x4492ac91ffc72af6; 0x1d0fceb04225c9ab; 0x1c9cffe64d7991f7; 0x2ec9318847e072c; 0x2f359fbf80ffa380; 0x72a88cf46c5d9b88; 0x6153fed306ea78f6; 0x6470301a90e7d819; 0x179b28765ae6dad9; 0x1c949b0cab143d22; 0x30a20fd1191b3a; 0x488b8bf25a4ac263; 0x53b3aa9390e54b55; 0x7201e6ed963dfaf6; 0x5ca38b9a08ab8b23; 0x679209ccb68e8300; 0x428aec8796986d6c; 0x26c4d76ba5473ef7; 0x15e89a2d3fbf55c6; 0x5d38112cfeba79b0; 0x7042705bbd087ab; 0x41b9df9e05404e96; 0x39c00b1ad6fab332; 0x53a917de14c997c0; 0x556a45c77a921440; 0x22a57342eabffe4; 0x48a6f4f04e6cda31; 0x692853cae717b08f; 0x6ca3ae1a5266d61d; 0xf070564f9561d1; 0x3e5e8272aa87df18; 0x7c619dd3b3da7ade; 0x5353d9af4c3ebca9; 0x5965413c5e468456; 0x37506d408ba10e05; 0x347d27c7409ab631; 0x3bc30ac80440019d; 0x2233ab3a8e868417; 0x77ff5c359931466e; 0x1d41067678b8741d; 0x387cce2265ea74a4; 0x3d2a12752abac143; 0x3e8b37341ea3650a; 0x67eb6d002a72fbc5; 0x3139be003a1436ff; 0x69b41761627746ad; 0x7d1d74a0ca0ad73f; 0x78aeff06bbd4f935; 0x83beb6d92c81b14; 0x33d904fda6d31c3e; 0x75c2f8278aefb050; 0x5dca02ff7bf7420a; 0x173b58b75abbcbfa; 0x2cfe54753d3cc8bf; 0x6ffac2da7500fd51; 0x3f53f3278a01890b; 0x41c1838c17046fd1; 0x19cb5c9c8dbdccdb; 0x714bedc1789fc6ff; 0xf162f3f3d3efff1; 0x2f82aad97b29747a; 0x3e7b07eaf7d479c6; 0x14d637c3311cf6e1; 0x4a78b67fa37d4b99; 0x97560b7980528cb; 0x5bce126425b6f32f; 0x6b9e131ca37421b9; 0x24035b519c02e655; 0x3d31ae7722e59fb6; 0x184cdbbcab01952b; 0x10b8e46abc2baae1; 0x2a342de11d8e975e; 0x3b39d92fe5b1796; 0x44c9235623c3adcc; 0x1747a2fcbbf2feae; 0x454081d3f046bfc; 0x6b64b44a80d10d5a; 0x2c9f7c95ac4aa3df; 0x21177faad84aa1cb; 0x3d86d393bed7af4c; 0x7f7bb64fc494ae4; 0x3a846b0c820410c7; 0x356adae5e572d4a5; 0x588dd37e02df2f59; 0x7da949a8b935b114; 0x4eee1bde00361dd5; 0xb7946769626920a; 0x4d7cd1137a79f177; 0x37479506cd6ae227; 0x754cfc620319776d; 0x6951ab3075739bfc; 0x59ec313eea19dedb; 0x7e56c5ad776eb7d8; 0x1bc0f1be7e76e8e9; 0x7b996692f9d6c22f; 0x6c143188b334078a; 0x28a0f4b419ce81f1; 0x690189ff8eda7c03; 0x23afa831afca8958; 0x271609c16484cde1; 0x23985c9659d6370c; 0x1773c5ac186687f9; 0xd133cd735a5f99b; 0x2e5c6091f4e6710a; 0x5b6f514b1cb0019; 0x156bfe184e331329; 0x423ac718387b70c0; 0x7e31348d9ab50ddc; 0x12200d57fc889f00; 0x24401e4bd8cf273; 0x53e2968a41b82edb; 0x36bb70c24eec867; 0x7217f16edb7d154c; 0x3758d1cb3730e53a; 0x3205174245aa6c25; 0x42fa06f2c7bca5f3; 0x6fc894111eaa9c40; 0x68b55aa3148af4ae; 0xebbbc5b14486901; 0x26d90bbe6d06323c; 0x2885219de812a28; 0x79f901a559ef36a2; 0x55f0c3c99fed73b3; 0xc6264681fdda6bc; 0x1077e7ed7db587f4; 0x2ed407d993d2d47d; 0x785d105ecbdbfef4; 0x5ad34d9f55ced34c; 0xb70e20f9c5541f4; 0x712ffb58cde1d86; 0x34756b7b781d19f5; 0x4b2438d9255671f4; 0x1849d13912003e71; 0x42c0d05ade3f942f; 0x55198bdffba1a4c3; 0x5661ddbd8fb23c64; 0x3586e37d806bcbbc; 0xb6ee1dfb1adadeb; 0x2811f0bd5fae0774; 0x602c8104f54b07f1; 0x469d7baed19deca9; 0x209400c728f562a3; 0x69b55aaa97953373; 0x6b7c8ef95c848fcc; 0x59889f73b1c85efd; 0x396ade9625ebe6af; 0x578a517cc642cb01; 0x350fdf67b388df59; 0x7be3f0065ea285d; 0x2a80c8a6272cca54; 0x3fa25e0bf3a411e2; 0x5af79577953b602e; 0x1f363e1cb7669f88; 0x9988724f0bd509b; 0x591005ebf695a37; 0x533dba873caec36; 0x5283f5c64357a74f; 0x501ecda8de756e04; 0x4cb85a1c097fd808; 0x5cb41e94f7e2f780; 0x3598dd326b72dcc0; 0x9859c9cdd39da08; 0x37bfbee2cc9d9265; 0x554bfc3e006666c; 0x40dc708c4e52dab6; 0x603630800485e326; 0x2b1be535d311e5a5; 0x7c531250d2be33b1; 0xac92dd7328cbe0a; 0x75f3af5b203735e2; 0x267d1156bdea6e4; 0x67861c8db799bbef; 0x777aecb21e3edf09; 0x31ccae59d6f1c421; 0x7a8428a7a050e556; 0x21940226849c69c5; 0x4841b07cbd3c1c0c; 0x6736fb7123385288; 0x7a63a836fb3baa06; 0x3824c603a1f8f3e7; 0x1b150854f5b165e4; 0x37930d3e1ace1834; 0x723711f2603bd06a; 0x65a417a34d8a9878; 0x3ebbccb1da4bc373; 0x36f8d29ef550b7b; 0x22b992f5e6c74a6c; 0x9e846a49c105ccf; 0x79271f5c66b82b54; 0x14e66abbf1138901; 0x482a896b7a51162d; 0x334d71cb81478b22; 0x21bdaf0bc49b9339; 0x259cb8967a73dbdd; 0x19a0ee4b778e8c08; 0x79bd911f94f2de09; 0x551535e92edd5483; 0x6c42637336540a54; 0x70a5eca1a613d320; 0x47e85044cfccf8cf; 0x40ebdbdb3b278082; 0x115d5f4d64d40714; 0x6705becc4957329e; 0x1ae9b230e1c8b926; 0x2edc3dc9e8d0f26c; 0x27627215bfb3b529; 0x26ff896313d59c7; 0x24f86b0dcb557d60; 0x77578c165c92bd31; 0x78ae277769a1ab6d; 0x5b251227b1753a2; 0x7db2b4fb3e1ab608; 0xba2bd86454b60fb; 0x3f8c85283423e229; 0x745855c98c4b7d83; 0x729019f39e7adfe0; 0x1e1863474df1912b; 0x78de4b9445b6df36; 0x73a5b8703247c084; 0x71a6d88d6f5decd; 0x6d713ee266eb179e; 0x32ca85a728e0c9d9; 0x1e1a53a86be26537; 0x1093a4b0f01fc462; 0x1cb87fa98bdb1b36; 0x5903fd0c298911bf; 0x51bf39a88581d7ed; 0x2c713a5c0872a0c9; 0x74cc07fac951e084; 0x61721468a2cc9765; 0x47cd1b097184977; 0x6f53292664c34dfb; 0x6016c1aa73d066d2; 0x2ab2bf61fbabbb3d; 0x33c94b303775e501; 0x11c858f11abb8bd0; 0x2355e47f03fa491c; 0x53a818ac6cbdffd5; 0x609425be84e70156; 0x15e6fae96d217414; 0x28fdeaff5b9f18ac; 0x56ba42f7ab038d60; 0x43b70ae1b49d5c4b; 0x5053a788e68e351b; 0x4a2e1e4c9987dc7c; 0x165c181c576f8dc8; 0x6c475cd3414cf720; 0x112c8fb9ddf1660f; 0xb15bc669e6df019; 0x2543285e7e361b9b; 0x197af3da5f459310; 0x67cec26db4278dc1; 0x154c5f50ff2647fa; 0x69b49c2140a4a9b0; 0x645ac33b12ccc85c; 0x706a6bb9bbdf521a; 0x39c708d2dd1654b5; 0x782ff2913f13713c; 0x330db1bf8f89fac7; 0x4f53e6e75dca8530; 0x7348c534a4f5586d; 0x18095ee5679ed436; 0x108fdb95edef034d; 0x5623df590edaec29; 0x201f761d56be48b3; 0x3825b160081fc667; 0x9ff351ab7c5e505; 0x603640a904c0b473; 0x2ae55f54f20058b9; 0x3562b66940f55e8d; 0x50b623445a5699ca; 0x5ae5c586de4c3489; 0x1b3ecfb899d3d847; 0x5fcbe024b9991572; 0xdc90284362522dd; 0x6299925605c852b3; 0x427dddc6da49baf; 0x2a59c3bdeff67174; 0x1c566fa51120464; 0x347cf0f12228aaee; 0x335817b077fd7945; 0x512724c5f97e5519; 0x40b9dbb1d919d2ae; 0x7bfd5041e70613e; 0x39e8edab5e2bf18a; 0x3eb87fdac5933521; 0x1867e1f87e01e66d; 0x7c330c0f0ffffc0c; 0x6006019ff801f9e1; 0x4c03f0ff00f33c30; 0x1f879];
   [0x103c37ed53477b54; 0x360eb6ff4230dea1; 0x357a2a1fcee5333d; 0x52c41d6df25b6ea0; 0x7acfda68ccd2dd74; 0x240d51f8d5c1f28b; 0x265ce4d39de09c8c; 0x2aca904ad80ccd19; 0x59b3150534cdc57e; 0x6197699ad42b8665; 0x12490187a7a0aa55; 0x62624fe1d29bdcaa; 0x52ab46a27cef1593; 0x4b82150c7fd8ecc2; 0x689f5da51a2ffce1; 0x25e3cf08b28876b2; 0x1ff02b9d6cb53710; 0x6e578ee9f26cb0a7; 0x1b7d3a2ac801a1bf; 0x7dfe75ad9d67e2c4; 0x49cfc264d706231a; 0x4bd4a0053d3e070f; 0x2a534fc47c9403eb; 0x21a49108c62a6d21; 0x397f68374ef6d4e; 0x632c47245c4331e3; 0x65e7681c18fef012; 0x66b427300414cb92; 0x4c52d4021b76ccea; 0x41ef6098d2bcd517; 0x33f0e2ca0516c334; 0x611746ce77a84cb8; 0x227413286ea44831; 0x23ff0b0366a5b7be; 0x62c726f51ee6f2f7; 0x8c2d1b7fe507b65; 0x22a167649ca40d06; 0x7492a9ce2618204b; 0x16c0ea3a562d798c; 0x3526203e4f09342e; 0x7ac9013788cf1cd4; 0x28b285cbd046f7d6; 0x2d7e4119ae99ca9c; 0x7328f2212a331d59; 0x31f4ffe33d645fa7; 0x7a0a2f1a3d33820d; 0x680b40ce5321d677; 0x7db5e681834963f7; 0x7134a0d502e761be; 0x646c7c6a29ca793c; 0x188a16594cc44e23; 0x7ab7d742587b13ff; 0x774e27c4ea463c83; 0x624086d5720e8946; 0x31306a0f94433ab5; 0x1022a89f81fda715; 0x435dd806c51252f1; 0x5c0204fb69fa7538; 0x63d8d4fbffa0faff; 0x1f878e6a9e1d703b; 0x89d76b1ea3e18e7; 0x441adf584aa91cb5; 0x20ae5f9856a17f0b; 0x73aae191b62e7e1e; 0x3b06cb4a9f56175d; 0x6b48b18cf33bb654; 0x2ad06d9b51c9cce; 0xedf2e1e8d2e3579; 0x49e2ead2d3d79671; 0x480e4700a25a764; 0x343187b87fc436e3; 0x17463aa1fd4cfb94; 0x6562563c71ec2cbf; 0x1181dfbe5f2a91ab; 0x204a2cabf2f0eb22; 0x3e8384c0cf048bdb; 0x494ef268ee9cde4b; 0xd1dc5d6c683caed; 0x15d31904eb67216b; 0xe0f5f7f7593fcb4; 0x743e83ef2f9253a5; 0xc46a2dec5a02f97; 0x4fcf4158b3382ce6; 0x27fb5c24e2de1182; 0x48d7e8421bf25012; 0x2f7121cac226649d; 0x74ea922e6b84d1c5; 0x6e700f080fa64f6b; 0x41096d8b58bb2a61; 0xb0c245be07896e8; 0x454e5deb7f47db59; 0xa4d5a163437bfc4; 0x2e9395513361b009; 0x363d5953d8a40db7; 0xc5f2508bd48c7cb; 0x22ea06ca93c75425; 0x926acc200cb8a0e; 0x5c0e5f350bf6a9c7; 0x6092082cc19ce75c; 0x264fa65cc8e246ea; 0x2f74a851a1834af5; 0x71a549d21053956b; 0x6e850ca1364c9a53; 0x4811ff86b9cc4700; 0x4f933bc0f75d495b; 0x29a75c4e40f905a8; 0x2335514cad377c4; 0x1be7601d5cd438e4; 0x13cb65e9eaabf79f; 0x3ba01178c15c9a8d; 0x5a1e125801a74b7a; 0xada4b8455883ddb; 0xbebc624a2003c18; 0x68ee6bbb6e10d276; 0x7984b52202c68ffb; 0x17c6ff679bc1b3fe; 0xfead8d4840a7c5c; 0x51b0568d910f1c30; 0x68444455fc8f40c2; 0x15275a44e8007679; 0x6ebe69a6eff97f22; 0x3973ed990a0cc633; 0x3cb76dde39ce9ec9; 0x2a3b413c79f393f2; 0x58e72a4963e6e7ec; 0x557928747b72b184; 0x1ccae1dea917c405; 0x70d89cf7fde0f9ca; 0xfda56046e610cd; 0x4fb6da5efddc3361; 0x1db3d6d7191d99ae; 0x297c42be7eb2fe22; 0xbda344f11f5b681; 0x2bc913b6a59a7cb3; 0x5930de28c6205a82; 0x5c0ce5a8d627edf2; 0x2767d995a7191bcb; 0x582c3893236c5e6c; 0x747e34ba0f81f9c9; 0x6fb246558c493099; 0x3123b760877de0ca; 0x2aa7caa76d28ba2d; 0x52372e4db7d07838; 0x756a7ecd9f06606; 0x4d5d827562ef7876; 0x68a44b584b18e9d9; 0x2b2e92e49a6dcd0c; 0x336d896a7ddbe6b1; 0x60460608f0da3eb3; 0x67e57202e4fd6acf; 0x7ae289a69d15404; 0xba46beb2d75b9c7; 0x157d49c7e5aa936e; 0x550605dfeb46b750; 0x658fe25d1ae5807b; 0x4d4489e2a3324228; 0x4718b0c7d76700f5; 0x2f39e0d71a9d897d; 0x59f108c22471d0ec; 0x3f9d5d6808517ab0; 0xb26e7e92f27d163; 0x15df97027507728c; 0x471fe38e6ccd7f22; 0x71f576ce9bd8f8ff; 0x2c206a3d85721ee6; 0x4171bcb508a0325a; 0x2ce89e662a3ccce7; 0x2be032d558adbdb9; 0x4e8173b648a9ff70; 0x469681dd7ef9907b; 0x1cf4dfb0c491b2d1; 0x3ec6fee9ab2fbe3a; 0x1c241ae6dbb4ea94; 0x7979460552192859; 0x912c04ecf035fa4; 0x42d2782f59304053; 0xc204e8c2f3967d5; 0x6ebc736b297f7c9b; 0x73f21e0c2612a1b5; 0x342f62c82136e15a; 0x3b51f878bb57d73f; 0x1bcbfb81292d67ad; 0x111f16e75981ee51; 0x3410cf10e3a7ff0d; 0x47d4e94d9db8f77a; 0x66929fcb30955502; 0x7b0b716b9eafcea9; 0x12fe72e0758f6a88; 0x24417ed4befcd8ce; 0x7c5d24724516c75a; 0x4a4559e7b29a9330; 0x7a80bdf1110c7be1; 0x2b3d9c7c4078058e; 0x31be56d99d666a43; 0x5fe2e15223b3cb25; 0x3da9e275435a7ee9; 0x45cb5d3eba95185c; 0x4f053f7013b14364; 0x73fda55fae2b5ba6; 0x19b0a71745a143f5; 0x40589d7a77f960e5; 0x39a62d5f8c6bec88; 0x603698d2a1ef046d; 0x283121b3db1a70b9; 0xb4137e9390599f8; 0x5f6922e2f7b256b6; 0x26a41191626ffc07; 0x26f1985b465aa70f; 0x1245683e7a3d27e9; 0x3dbc32762a63c716; 0x5775b2c6ce77188c; 0x665ea1a52163b866; 0x7c8be37b36a2d5cd; 0x323c3acf63b53e27; 0x35082b6d30a756ae; 0x78b4d9cc964b8fb9; 0x5c087ecc96222b2; 0x39ff66dbde4e2ad1; 0x36937f6749cba6bf; 0x68b255efd6260f1; 0x5c0e1587246a6915; 0x416844ce2f5f03a9; 0x5e8c1f11f13e853d; 0x2ec24f305b0289b4; 0x6daf976e7dcbbc1e; 0x7956ffed1f5700b; 0xd528071baa1a026; 0x1df2b1279b541d13; 0x1cd411e92396128e; 0xa8bc2d55da2895e; 0x267b1db429aec6c2; 0x500d442ebb309a8d; 0x3ffd21ee6c0ca40c; 0x2203e80fc44d5262; 0x3967ba3c16b86f2f; 0x49693e77c61544e3; 0x682a4b843af593f8; 0x68d1715ac30f0ab0; 0x50d28c786a892b50; 0xad00a3872b51da8; 0x743f22a1e3c0fb85; 0x6ba52c8cb0c1aad7; 0x6705bbc44c4ced0f; 0x5b50d46d108ecc6b; 0x2a66a79951aa0340; 0x46eeb656ced03c1c; 0x39b8348fad235b43; 0x5238929bbfa7f4c6; 0x6257fa16ef0c3af0; 0x309fdfd658a1d924; 0x747c1389250a2fbc; 0x22dcc469f5ce0de5; 0x42e1b7d70f00db49; 0x231d1edc31c4f00; 0x435a7f5b2af79af7; 0x21707dfcf55e1d19; 0x289c17b929f07c27; 0x501bb94b3b9633e7; 0x1b07392a5297095d; 0x2258eb83ed6f4720; 0x236fa8bd9c537bb6; 0x584db23b8bce7235; 0x7b3e5b63d74eb7f; 0x2200674973bfcfcd; 0x33d0ad2562bd6af4; 0x7820cb32f52c9434; 0x6ea799cd431cea19; 0xd7b1ab9fbb18bb7; 0x58b51a187e441b8e; 0x28740321c7ad3b1d; 0x66a2fdcc3de57265; 0x33bab4248250b88f; 0x6dee1c135ed0b70d; 0x7303859fe12342de; 0x439ca919935f1406; 0x52bb283fe829e294; 0x6c6264edf427673a; 0x4d3f28bc12835c8e; 0x7763d47f8394386a; 0x26ab649b990588da; 0x1e6e8df1ceb5bb59; 0x776e28a7bed94ef0; 0x2ecab15ab04a38b; 0x103ccdea30edaa03; 0x51ca4b69cec8947a; 0x442560e4c5549ed2; 0x3bace849d2e2bd2e; 0x613485d6a1ac7523; 0x288e1459580c184; 0x383b4cefa852a0c6; 0x5458865193070fed; 0x1b55c2f159b2f855; 0x47066b7576581e34; 0x632186df41a796db; 0x1949674532b20a44; 0x536e8aeabd17baf9; 0x213d8c5d3a2036c3; 0x384002b32eb49108; 0x78a95ddbc3cd2154; 0x77f4d27885b1b003; 0x74ed41d68ee9b308; 0x490d764850f8cd5e; 0x50c5e6e9107e34af; 0x7d90245ca68d9cf1; 0xf9023b012fc00eb; 0x1a747a02ea109781; 0x1f6acc0b2220cf5; 0x78cc2f6b5ce10ed; 0x43cd4e7916592bac; 0x62536955f52764f6; 0x1676362bb2d69611; 0x18396f31bc321b3; 0x4af6d749beb4f5be; 0x607806601fe00084; 0x70fc0ffff0ffcffc; 0x67e667f87e7e601; 0x73ccfc3cc0fc33f3; 0x1879e1];
   [0x19d27bde35ef655e; 0x21b04098aa5df47; 0x355489b984c4f844; 0x6a8c3d3c5d3c7bdd; 0x63390f81759b7084; 0x34c48602e27c6cd2; 0x409c5e4b3bc37cd3; 0x2c6f6944a1c0e6c9; 0x531d289fc06a69c1; 0x5cd71674b0b13422; 0x11159edd102ced07; 0x6a33a7f077bac1e0; 0x6e6caa3b8e034405; 0x7f5cb633b02c923f; 0x45b2e3a581ee55b8; 0x1d72c883155653f; 0x4fdc1b9efcaa519a; 0x35145aabcb756eb; 0xc33b8fcfb2e5d1; 0x68e9ace3c9cbad9e; 0x565ee1aa78bbaa37; 0x5be002d48e149b14; 0x44f409816081a186; 0x69a16dec4f016b35; 0x12b85f18512fb854; 0x2b8126f87f58f529; 0x1543d6879f87ede4; 0x612b7841f2f3db18; 0x5a25348a06642409; 0xdb6d64e13f5a2c9; 0x5a38419fbbcf4655; 0x6b17f023585a665d; 0x407570234b093bf; 0x2b67d6d09326cb79; 0x4018a574fd62b79b; 0x66729ccaa866df47; 0xde8dcdc9d810e7b; 0xc5a41f6ec6a3d5e; 0x67ed8a22dceb6ffe; 0x3905fd6fa5b31f55; 0x15dd548ff45407b0; 0x71e33e20e8e1db4d; 0x14cdb6b4c7a3c5c9; 0x4c3ec150b8d8d3c; 0x4f7d0ab2983a71ae; 0x19e8a8d998b700f6; 0x619af91e605f3b78; 0x7559cc261b4c7ffc; 0x4c492913915c5bae; 0x50992f4e3639eb6; 0x2467cf0f51e9b9de; 0x7c508b1f9593be06; 0x3b8d42a7fd50d6b; 0x225300698e470585; 0x564163ae8059035b; 0x4e7eea6b523ca65a; 0x7bae84db3eb37e7c; 0x7f01c6db277527a0; 0x741869db7af34c98; 0x2b5ea003e9bdb67d; 0x7ba129797f60ae27; 0x1e9f80b00b364060; 0x2c1e06e4bf8d835d; 0xdbccf751686c11d; 0x4fb56736a11ef23b; 0x80098f876261915; 0x1a17156f266cf0b3; 0x33a7b4c0e64e1d0e; 0x92554b0ec434521; 0x64fbfd453d8e19d7; 0x4ae9f3103b67feec; 0x5f13206a6290bd9f; 0x2254e422e98a3b67; 0x490a0363df263e23; 0xdfbe8a055aa0ca6; 0x6d4144f5d802a3a8; 0x5ab5991c9d25a36d; 0x7583540149730b2a; 0x4082758e39ef7446; 0x8abbe762121953b; 0x5821d22c473153cd; 0x719bde8202a4792c; 0x44ac952adc630d7c; 0x652efa0ebfd0f01; 0x5d12cca3dc9d515; 0x2f96103219f75359; 0x4734e82de022a4b4; 0x3322d24401d33f22; 0x438ae8ede051e4bc; 0x3ccfc8eace2c2abd; 0x15b5b6d3ca0914b9; 0x3237791c658bc239; 0x3fd6743b32fe48f3; 0x423e398cfed8f554; 0x461e249cd7f547b6; 0x71a73a72207d85dc; 0x4fce07c7e383cf87; 0x6d9ad981ccc1d122; 0x1d0fece3dbdc5c20; 0x633c2ccfb71e4545; 0x55c1fe28499f700b; 0x328a0b9acbc8f0a2; 0x6c6ef2bfcbee7ec5; 0x5b2fbc9ff95020fa; 0x29b458708ce35542; 0x6bccfed9df24fa69; 0x6c519e779d614eed; 0x4a6e778eded0c768; 0x3170541ee1111fe9; 0x4c0db863254a2d3e; 0x69464e8d0897c68e; 0x329298e1a207263f; 0x21197e8a2e032771; 0x5e5f9898c54b958a; 0x4cd2a0640e8b5f31; 0x8e3d3409c999ccc; 0x18030504fcdde3bc; 0x1b5720d8a9703e3d; 0x2d8aa5d5a322df7b; 0x4b336d727b927a09; 0x186d580c94fbbec5; 0x17198ac4d2ec91d5; 0x27bc4953307da0a7; 0x380605093fbe1791; 0x1cd8e18da34bc297; 0x61640304502bbf2a; 0x24d89b90b35a4b93; 0x71e27f869b31a336; 0x7697e2e78643e6c7; 0x3dc6f028be347d6a; 0x148862e9f53cceab; 0x243388fb0f1cc325; 0x435bc9eaac50c33f; 0x7530817133c11d4a; 0x21a1fcf2edd0c571; 0xb8985ac90801fed; 0x86259a155b1c772; 0x4c27d262926efe32; 0x1c6f2c874904a295; 0x10f2c3d4f288c2; 0xae295d24524dcec; 0x7afd0ec18405724e; 0x16834fac880c4ccc; 0x750cd2f3493494dd; 0x226b74f8021f35eb; 0x3887eb2a752cecd6; 0x261bc4cd7a8c2ff4; 0x26498e8927894af2; 0x3d2b56065f1906a3; 0x1364dc13abc9b815; 0x5c8bb7c2c215b265; 0x51fa7a78112ab887; 0x10441744fd223f86; 0x401287005f216704; 0x79c41b44b4079ceb; 0x50746612c4a387aa; 0x4a3e021a06f8ddff; 0x51bce586fe6a6ff0; 0x79d7c74be5cb6320; 0x27567140406a98b6; 0x6d068323d85d3519; 0x22fa4b596fdba45f; 0x4eb72a2d6125dd67; 0x540551fab6382b4c; 0x12d7fd6980e74360; 0x63b5b952055fa16d; 0x1d94e86a9ef73518; 0x7c8a726e5bf1defd; 0x5efd5f7d0c14fc94; 0x27779def28c7b694; 0x2d30d86c5b82fc61; 0x60b36457d3289c76; 0x78a7e316ef43567a; 0x7b3928b04e49bee8; 0xde3d86fe5af4a17; 0x5cbe3188e668e3b9; 0x2de25fcdacf56fb0; 0x4f68a7cd6b522842; 0x47065e9b7eff006d; 0x73d24356fb1cf6fb; 0x4431869cad5a36e9; 0x52986e030962351f; 0xbddd587f52a4d74; 0x646d76cf425bba51; 0x8e193ceeb5b7271; 0x5f4c04188ee01e36; 0x6be3ecd8b5113e15; 0xe7da5cc3cc901af; 0x43d3c2a273a223a0; 0x43eed00bd2eec21; 0x22c9275111a534f; 0x3f8809044f8fcb3b; 0x3f92da75c7cc4cb; 0x20e0ecd3680b419c; 0x39b6f47145d349d5; 0xbb112d96a67d526; 0x26e639dc559e19bc; 0x35822ba5f03ab095; 0x7a364dad7f3d5040; 0x1e232a1bd473568b; 0x58f0d98f408aceee; 0x1149217587814dfb; 0x2f5a937fababbe67; 0x1e59d39a5a1a4b79; 0x5456b286a252e9d7; 0x328f453b810ec685; 0x3b003245ffbffed6; 0x539d84123f922a0d; 0x6f1b160d65220438; 0x315456cc5fcaaa1b; 0x1c0d0b366e381910; 0x4ee374888fc03f83; 0x5919f6d037f1165d; 0x8c786ce65636a5; 0x1fe52e25ce363207; 0x6a7295c169109037; 0x734b4da9aec9d25b; 0x65fc07f04dcbb67; 0x43dbfabaaa798fb0; 0x4ecde807f64fa8c6; 0x69d74dd5b58ac83d; 0x70f7209ca38463d8; 0x1bc9db81a1835625; 0x17a93edd27486d19; 0x12d1887eae081acc; 0x2ac0578aba40c1d3; 0x59f3e290ae65fc61; 0x5b8f5e9f0b39d8b9; 0x5eb533f905ab8d7d; 0x745383366dc7d6e0; 0x7ee045f8ddf14f5b; 0x59e82050b0f1a997; 0x7c7d78be8776da4c; 0x79f5354eb01b5d60; 0xc6c467ac4c12400; 0x2d518db1e4ee3d69; 0x28ef9a89b046a4d3; 0x423aeeccfae6caa; 0x297818a38f15a59a; 0x441b1d97f8baf717; 0x504a5ab20ebf16b2; 0xae4f5b6a9de495b; 0xae7488c76b733b4; 0x48c6422573a99455; 0x768bc76ebd200481; 0x542c7629f51ee546; 0x18dbf7bdcb89e1ac; 0x63564d378fd55b8b; 0x5618104668caf527; 0x44edbcfd162d0c0f; 0x73df00db09e34d5f; 0x4fcc72cae7e73085; 0x35cabe6c44b5d4a0; 0x25069ae72838b31e; 0xba5e2ae5f9f3a68; 0x3e9684a06ca17dc1; 0x258cc65089472161; 0x6b4e592e97957495; 0x5c94627eed9db154; 0x11ab9c00ceb78428; 0x5587fc6ff3d4d4b1; 0x6787410f7dd088d7; 0xbbc797d68e307b0; 0x1b8c41772eac207f; 0x6468e791743b72d8; 0x27e7717ce7b70d2e; 0x5549313765967bb7; 0x150314034df35a95; 0x17d7604b5ad83446; 0x5a8d3aa08df33b19; 0x769b9a1be5afa9; 0x17d852ebe305b7ee; 0x2d9b30d38d00174e; 0x295ac4290448972a; 0x61dcb40c7639a643; 0x41472cfa81aea577; 0x7da83074dc818153; 0x6ed869125cf04706; 0x302ea33b60f50c8b; 0x41c6519bb2d0e3e0; 0x5fa66a5ddee8d1ad; 0x6641327446915b6b; 0x797f8f5bfe139cb0; 0x3500b3d0a6b85fb3; 0x6d2d962b5e7a8f4f; 0x6ea0e57ba9a4dbc2; 0x6d071a9ec1b0a0f0; 0x1a14977a43140860; 0x21397611acd7c5f1; 0x39ea36446862aea6; 0x4d51302c408b5c80; 0x41ab54f72ac363bf; 0x620ec52e9b31b83f; 0x509a030b7efcb2ac; 0x4600f46b77518126; 0x1ab6844b5a95420c; 0x62d393ae2a62c6fb; 0x3484a043582d592e; 0x54f37825e2b49f1d; 0x75012e7fbba4cb85; 0x5f49269e10a081ad; 0x3355bf2ffa4e2550; 0x347e0a2513ae66d3; 0x2d3124c77867bcbb; 0x265ee437e11f1b03; 0x6fffdc378f7c7d92; 0x1866c5ed95f26514; 0x6435b62d7b650e5; 0x15ab2327c08b0333; 0x60e6fa6d61171d7c; 0x636652c6d10f4e32; 0x581b3c27b57719a0; 0x40f856592423ebe3; 0x19f87ffe1f86603b; 0x7f3c03cf3ff3cf33; 0x7e78619e07867e61; 0x4ffff3c303c30cf0; 0x66001];
   [0x5e9c7b7e714048e1; 0x6ae5ed4e54b62428; 0xa68a9460be0e326; 0x6944cd5629eca7f1; 0x195be420b764f3b; 0x1c092fa4ba0756; 0x1e001aefef51e8e; 0xa454c2c001c4bcb; 0x5e4dc6d04eb4dbf1; 0x23a0b8b8e0dae431; 0x6ec909902dbcb46; 0x236cd4d6bcf31bdb; 0x19aff89b83d44889; 0x5da96a08d50ed11f; 0x78e6ad0e0a2cb370; 0xf4a4ca2bb29c382; 0x331e60ea90c1bf48; 0x1d37d9605dcebc4e; 0x6666f1cb9ecbfcec; 0x56cb9689184d244f; 0x62450b1b164fccbf; 0x17b06b4ae19d50ae; 0x68141827d542029e; 0x6ad45d40e3ea5dbf; 0x6bb3289ab0dab17f; 0x4b767f75aae11123; 0x5bdd16e8a82f56fd; 0x792d7fd9aa93f549; 0x3367a2eace2d8f69; 0x1b62f47fdf95f524; 0x53c1dc3304cf7482; 0x5bf2e638cab37485; 0x7bc67d2e7ae074b1; 0x70c37f794a9ff417; 0x567b0258edcd8c3b; 0x7071d065317df86; 0x3fae72365681577a; 0x32c97860afbf9b46; 0x11e80e0d20725d18; 0x17bcaf2831bf1b16; 0x171dacc7b162822; 0x11295456c808da2b; 0x1173faf81876ab89; 0x1b7f934d49a4e601; 0x25eb2f594b6b32ca; 0x7921871c75312d2a; 0x540d28f7051e432b; 0x98a456ef3bcfa3a; 0x6135d148a6c9a31e; 0x19671cfa67569860; 0x5f7ca91af7be6861; 0x7aa73197a6577e43; 0x4529b02c256ad165; 0x738a0f3bafc7d9ff; 0x14d12ea390cdc1a5; 0x47b16d1614ea49e7; 0x44c5f35ac420f711; 0x4557350a086ea659; 0x1b03b2f3b4cf3500; 0x36f06f9ed1801a67; 0x58a40e6594ff578d; 0x181929143827985c; 0x6b81e77597b32a28; 0x52b1746bc72b2597; 0x18d395202cee2878; 0x785d3c983ab07e61; 0x30f51108fd032575; 0x192cce0e1b7691e; 0x669b5bff4bfe38a9; 0x357ca77101e0419; 0x316721643e647eda; 0x571762777701cf7a; 0x5b832572b85845ee; 0x77b0cd18222302f0; 0x6c586a99d050fb25; 0x5363fb1f1c127fde; 0x3559a2dff04370f8; 0x6be25a899495d481; 0x83a6597d7d2dd5f; 0x5adec830d1bbe3d8; 0x1703b8a88197bf61; 0x656b2b8b5567a10a; 0x57d9bfca55b2bc4b; 0x20097a96d6750363; 0x10cd02839df8c992; 0x3a4bf3c09f12d25f; 0x84b6f6a51176e77; 0x301a34de30b3cd5e; 0x19da8157ca877e12; 0x7eb340bf1c13a408; 0x58135159e4a16d34; 0x78a6080875c60886; 0x7181bc7719b1e7a; 0x14e0a0f859716756; 0x33fd9453b33c44d6; 0x59542c6b5736e377; 0xec6dc2db821b082; 0x28b7f8aab7f79224; 0x6793398c238ec22c; 0x16a0fbb583d840af; 0x1a14c4d3ad31916c; 0x55d0ae9f008f2ca6; 0x338ccf82f75bdbde; 0x131087dd2bb819db; 0x79945ba225dd20c5; 0x6c20a6be16c2124c; 0x1c60804351dac305; 0x6ada058d55e05605; 0x26874bc7cd96083a; 0x7ce7a7d8434d0525; 0x1776c35cb7fcb755; 0x330713bee599f909; 0x65c9882d96ae179d; 0x11b39872ca4fedea; 0x4d5e252acbab9b4; 0x618280004fdb9640; 0x442eec6faa8b1d58; 0x6f554afd46d36c7; 0x374faa882af01649; 0x1051f6136fadef48; 0x1bc561f747c8c334; 0x1c9900a6e2ab7892; 0x74501b919597e22e; 0x4dbe9f142c97cb27; 0x9870d56f10db7fb; 0x6bf1b0f2b530cc4; 0x7549dd871571a4d1; 0x426eb887fe3e231c; 0x3f6e9792a4cecc1b; 0x44a849a67a780cd0; 0x5673f6009ed4d7b3; 0x1edb29ad1cd2ba19; 0x1f01504fa0a1ea7c; 0x143c99b463d8963a; 0x37f636492df9ccaa; 0x251e238a722e5960; 0x30eeebc470d09103; 0xb356da23627575f; 0x4dbeb7ea20bc490b; 0x22130f8e3e589c06; 0x29cf44b68f75c64b; 0x288042e51e9afd29; 0x47847e00814497ea; 0x1a48401e2674550f; 0x4bde2fffd11410ee; 0x4cbd455f9f6c9df0; 0x4e88cde18a4e3641; 0x21714a3b2a4cdda7; 0x4d2471db274d159f; 0x1f191a6eb6fb446b; 0x2f081ec22184a3bc; 0x1f9811d6d8dc02bc; 0x1a9c223952a73aa0; 0x42fae6dc098d4761; 0x585c742eb1dcd59a; 0x583d6ca624e231a8; 0x5d3deaba0112479e; 0x533f2832a83e9a07; 0x18a3a92a9cc91bd2; 0x4f502674369f43fb; 0x6591e76427509b9c; 0x3ae377070e949450; 0x2de31d6fd7205cff; 0xbb8420f11151b07; 0x687ce462077131ca; 0x1fe30d22cc4a651a; 0x69c6b36d88b6f487; 0x663fd3b8ab75f9f1; 0x72225075b02bcc51; 0x2c5eec7b808044f3; 0x27ada409a8c8ad0; 0x61ec04707e61a516; 0xdf6d48a4469a8c9; 0x5dcd570e06b83399; 0x6450cf383324e1bc; 0x794ae635460eb9d4; 0x16588b057d504105; 0x3e1e35e3dd5ed16d; 0x3b0ae4f78dbbbda1; 0x2e7beca9cf1cd811; 0x1707d917aa68a585; 0x1e5321b016423ece; 0x1d6a49c343e8efe2; 0x6b78c3f0dd060333; 0x3d837833abaf4c3b; 0x291c59d42d88a37f; 0x22572bf008f5e41b; 0x1e9b31e1e647e715; 0x3436268f95717b35; 0x10015f095b47b35b; 0x7df04ff50522b485; 0x2beb83ef6f436f8e; 0x4a59c7c4948cca30; 0x26b89ee49d1d344e; 0x2611c50f8307f294; 0x1508c272efe477f0; 0x84287f2c41e2f7; 0xe70b93b26a95e89; 0x433193123d212f0; 0x420de849e1eab50a; 0x153dce06c88a8007; 0x7a51765193f04de1; 0x366c257d54cbb027; 0x764b2900891e3766; 0x4142d5b20ecddd69; 0x1a91ff48755e5ed2; 0x4aa287901a4114b1; 0x202ffcc4df9994ee; 0x2e2eba52e01a200e; 0x669a45a30c2e6a55; 0x392d20c6452d2df8; 0x6afb4fe301ce698e; 0x69515b4b6a774057; 0x594aed8c81dc5296; 0x6655ffb0cfad46e6; 0x7ca43a03373f174f; 0x5727feb7179b51dd; 0xfa75a6491a02c03; 0x47e03e97c1688079; 0x3b01af93ce40ad0e; 0x6aa568e700b68f81; 0x1aba685d61b73a09; 0x7581d546a48b5da; 0x10eab2c9f2e7e664; 0x55585b44a3d1af02; 0x3b770497e157efba; 0x188825e3e424259f; 0x4a0d5cb9090b9299; 0x1ab10b2a26cb3885; 0x43a169f8d8f6c3f; 0x3be59083b6ac848a; 0x59a20928892e12cc; 0x2c770ef1e3472a05; 0x487ce6f89d8d2119; 0x30b47cfeda5d2755; 0x504770ed622491f1; 0x52a21d8fab6c6007; 0x808fcfc7dcf92c5; 0x14f84f6e127cc05b; 0x5ae4feace6fefb9a; 0x406055a29a7dc872; 0x45f60ee3049c5498; 0x5ee6c5d360375823; 0x5c87e61abb88d1e8; 0x4d8206de2e164b8a; 0x17f5fd994cd79a4e; 0x2b49688b609abebf; 0xf96dcdb0f2dc388; 0x3485bbdd0c2b10e9; 0x7c5c1e7a871e984c; 0x41ef7a5993559122; 0x4ec72b08bfa9543e; 0x3e9ccff1a32d5c67; 0x3680edf384df5618; 0x5e6e6f6919528a5d; 0x3c6f72c66e212070; 0x79e800e7bf8f494d; 0x44b8cf382ef61071; 0x6572adbf8dad434a; 0x5906b6802be418bf; 0xd450ba038d47c7d; 0x57f19dc7a788381b; 0x601cb8795cadaa95; 0x340f33681dda9f79; 0x2af2f62218b0cb6e; 0x69464427195f4cae; 0x6e9b0bb93b372b44; 0x74e7e0b446789c44; 0x5dd30ab0811c8f4d; 0x7d3948289d631240; 0x24e83c7f0b8d23c2; 0x6fa162d62a80f95c; 0x3396547bcea1b36b; 0x5c7231af9d4c02bd; 0x5e959cdc280974fb; 0x30ac0af02c86ebc4; 0x216ac256e4053fc1; 0x40662cb5a34c475f; 0x523793364d09607; 0x16abbb3a5c68416d; 0x3720e0725aa54ed8; 0x7452da821eaac19; 0x2da87be9408194d5; 0x48c68d273f06a495; 0x39306f303065fe04; 0x2e315358c52d069f; 0x6d316d9eec30ce4e; 0x77300c79f7e5e7e; 0x7f569e66876e8855; 0x17df995592a5cf28; 0x71a5cfe6d94c30fd; 0x5b8021e8ea4c2b93; 0x5cb55e7e9c4da4cf; 0x326b94e64656ff94; 0x1dea83ce8fd5b28; 0x1597c078bcc7f7f6; 0x5a0b224d05b84218; 0x411265a734c85ba2; 0x23b69b7dd5b248c5; 0x555686cbcbee6c59; 0x36d87338734f063c; 0x2c01898be1efae8d; 0x5c13fd2c83ea85a6; 0x5db4908d79cae4f0; 0x2d5390f77801ef3e; 0x2138437cbe46cc7; 0x2d087a44759d081; 0x6ad38f49d0797b5; 0x3e0423d334e85e8e; 0x5f02308192377a29; 0x4580486a8b10c01c; 0x490544f72d270bf0; 0x208bc2c39f9e5885; 0x199e07e7818671c; 0x30c30f003300c3f3; 0x6667ff9867f81e; 0x40300f0f3fccfcc0; 0x186619];
   [0xbe45a8c816fc373; 0x465e16e51a724b51; 0x6a030e710692804d; 0x2bd386cfb8d65bf6; 0x12ade8ca15977f9c; 0x38e27ec192d011d1; 0x2753f5362296fbc2; 0x4a041761bbb06d42; 0x45dc64286b434a7; 0x599d34546f11a8bd; 0x11dd4f2b032f50b8; 0x73158a7d0c9d1829; 0x5c0923ac51245252; 0x1d417cf8469f7b17; 0x29b27e928ffad633; 0x2cf7e780ec2bf63a; 0x31b6edcb4a66656c; 0x61726bef55b21b82; 0x67e87b862580575e; 0x5a22bd099c21996d; 0x725d295a151c4f0; 0x3930340fdac78b33; 0x553f5b9e778ae362; 0x4f9e398cb2d39768; 0x7eb3abbbd39a1b81; 0xf5b1a6f14657e20; 0x38d591bc0389ac7a; 0x55a3716b6c379f74; 0x194afe2bd0423a1f; 0xc95a0a4e53be6e8; 0x2c46f26eca046d52; 0x5ed872fe78e771db; 0x1402a982fb0c5f59; 0x525d6095aa10e81; 0x6ac63335fa4f2170; 0x3fe6684e63f85766; 0x58ceb2fb2a2df19a; 0x7f22d7d7c4b3c8cf; 0x71e7e0117c1f1a13; 0x5dafe17928eba7aa; 0x4dcbf9f7e32a43c3; 0x24ea1f648c6b7ae9; 0x491ee71c10f8f778; 0x35019a4b728b8d39; 0x7cd160ccb62fa455; 0x1b1325bf8e90d317; 0x96b6058383a99e5; 0x551d28b2b5da50e6; 0x30ddcbde2afa83db; 0x3c52e5b7a0706d37; 0x6cfa452415fa3b69; 0x1704112e4059de6b; 0x485aaebf0adaf282; 0x56e0cc3680bb73df; 0xc6c07e77829f5c7; 0x6b0459dc61c5fedb; 0x49958bda1e24f550; 0xb39db7c0c4d4d5c; 0x6d27f1a0a42a8eee; 0x6ce6a4dd4953d09f; 0x7402beac754f6197; 0x35ddb9c0d86c6e30; 0x2a051181f7d7f04c; 0x4056db67b8c8b446; 0x1262c33b123e91f5; 0x547c0918164e67f3; 0x5898abb843bd5187; 0x5271a3eabf76b69c; 0x299bf7c6ac5d5aeb; 0x548c2e67a69fe53; 0x7b2de2d921ceb2eb; 0xcbfab1f22df3c0e; 0x6f74db42eaad45b9; 0x1cf093d1d0f0f9; 0x3e982290b5e90898; 0xd0a8388114774ea; 0x800285e04554230; 0xd3b99a68a3dc29c; 0x1daff738ae2fdbc9; 0x3840aa7782d4814b; 0x7e342a9bd250c994; 0x7530eaef2798b14a; 0x35fab7169185744d; 0x13d2dcc7f3481f64; 0x150bd2fc41702905; 0x1ab2317b7066bf8e; 0x55c84848caba3060; 0x74cd4337871cccdd; 0x3745fa8531a24b7d; 0x440641c8fcf84faa; 0x3296a2c9fb3af35b; 0x1615d261bfe263eb; 0x4432c825abc2ff07; 0xc44747e533aea16; 0x5c7b9370443e5826; 0x4b3582c317d84c9b; 0x644dca003e91a71d; 0x19dfbe418c3fa4b1; 0x3828e3536a461e44; 0x20c4d8b388541a18; 0xc68389f9580de65; 0x73d2653bde914fbd; 0x529b57a0041428e5; 0x4c5da00f084fb856; 0x6da863a5014bfaea; 0x6123ed2714d3b805; 0x76cc78232e7be471; 0x6b97a86ad54e23fa; 0x30175ddb1f13516c; 0x3bf8b13e00a5c52c; 0x2ad22b8466b26995; 0x5483b02594b1f493; 0x52b65a7333176c50; 0x7141f6b0478a835d; 0x4c2eb90aa3eb9b0d; 0x4939cf1928fdfb5; 0x7dd549dec26817ad; 0x40653b3c5d2a32fa; 0x7cad2461c3be6397; 0xdee66b22c132b8f; 0xd9c9a7acb03e96f; 0x15645c17adedcc03; 0x2b25527367148b67; 0x40b6135c8d6f9e97; 0x6ac07ad25fd22491; 0x711483c56d77e563; 0x59e9e5bd05c02fb7; 0x7672cfc61e74e7bf; 0x710316941211e518; 0x1af320bdfe8f7349; 0x2edd28481bdd6e2d; 0x54aa46f37c7a3ffb; 0x7150885a55beae5e; 0x538488da8772408e; 0x6a9a91fd15ef3167; 0xebf16db978157e2; 0x498c51df23cca8ac; 0x455a7c0b46709436; 0x3b02a8a8ac6fe9fa; 0x5d888a3bdd60e016; 0x78782edbd8416338; 0x236bbbdc1b6b7ec7; 0x66636e2e271b260e; 0x5d31ead9dd238f8d; 0x3165639fef4ef381; 0xc91d83edf52accd; 0x6d3e7e8bcd72b186; 0x74f41a203c6f41f6; 0x4106cffbbec31f72; 0x6d308c0e6415a5c9; 0x706b3be3e45af1e7; 0x7ce744bf52c9ff4b; 0x10bcb62117a5280b; 0x7c46d38607eda779; 0x487e501291df863c; 0x3527e993e7514afe; 0x110238e29678a27d; 0x49eec928464c2952; 0x5dfb4c4616383563; 0x538352e27aa02651; 0x1633b521a3588f6b; 0x67610ce287b0ed66; 0x68fe6cf25d50a7d8; 0x2e6536bf57747aa0; 0x15c3f7255d3e0c02; 0x2cd3b3fa84303802; 0x3034cde9ea8e7da3; 0x2d4be16e12ebd6b7; 0x1fac491082316104; 0x5571213ce4ce1a1e; 0x7c42aa89aae973b6; 0x738e0547da1b2f14; 0x3ea885b2b0438829; 0xfaa5c2dc6c891ad; 0x4e3bf75eda0c2ec5; 0x53df499535631fd8; 0x1cdbc5b0edc17dc0; 0x36f1b3f54b5b2df2; 0x1e94160e83364; 0x650d24d366a788c4; 0x46e3171ea9fc1781; 0x223f8b56524abd3b; 0x1f8cc91ed90fe9f9; 0x60dedf4e998665f1; 0x5a697805db700250; 0x76e35312981e7a09; 0x512bd0a78d850b07; 0x573a8cee8818a6e4; 0x217286255c1c3757; 0x28327e3178d0b5f8; 0x25906c3e07809d48; 0x3066f250da8ff560; 0x17441df11ea2e548; 0x520c88c8effed28a; 0x380d5c3457d935fc; 0x95c7d02ac007d78; 0x414fcef028d53f63; 0x5dff6728c2bdecf0; 0x95876e41bc15303; 0x2a71261ef8e6ceed; 0x23adb773fbd8340b; 0x62ed062c9422735d; 0x2151cc7be35d89bd; 0x51519c960df82bea; 0x5265385ec01e5a27; 0x41e82bae7938b974; 0x2bba6e5e4eb42c08; 0x49d6165dd0b4fa96; 0x795058ffa3f2f6e5; 0x63bb5dd6eec211f3; 0x5f49506a23f1b6e9; 0x656a7692737de7ea; 0x54213d72f7922ee0; 0x6f9c4b3a1f6e49ab; 0x2f9c62e1e2092efc; 0x2dcbb42575c3b4c0; 0x368c961d5bbb5a4e; 0x44cee0e2c311d6e7; 0x2c8cd9add0b96e17; 0x2745059978dbff93; 0x4cc3cb7798429118; 0x519dac05697f26a5; 0x7a00a174374a4a0c; 0x63df970cdaf63cb5; 0x244092302c38c36f; 0x1a237e8782ddbdb5; 0x2a51e8ad05934802; 0x430908f5aebf5b37; 0x77c9118eaabed8ed; 0x116fd691ea5b2f3b; 0x3bee68fe064151b3; 0x59502926c4a67983; 0x4c00bf63ec00198f; 0x7b4526dd0469df5a; 0x25bac088f08edf2c; 0x2288c71841bcb4fc; 0x10d4ff831d74b483; 0x1cb43f46b274a5d4; 0xc24912a0a80d64d; 0x3755920056d2dcfc; 0x203f4e4b2cc358f; 0x2effeb072c3bb363; 0x6bf2de80dd07f8ec; 0x56bac98b4feba0e8; 0x20aa1553b761dd91; 0x23d1ca8099e16c76; 0x60ebd6bf7ecc4d8e; 0x3c44a77c1968e1ce; 0x705f65b052121646; 0x46bfcbffd7291674; 0x3e395e3e37c96b19; 0x2564e3589cc7e5d7; 0x48dc83a10a3e9783; 0x1076fcaf7161ff37; 0x4b956b932dab1ba6; 0x4f7f4b797337d6e4; 0xc08be1a9526b46a; 0x26c539edc0296337; 0x3cadff42c01c08d8; 0x4e74065e61f9f95a; 0x12dac945eafc2e6d; 0x78d3036626efe6d8; 0x1a352226284bfc33; 0x1c2b2a60c0822783; 0x218f59f96e849143; 0x6d657fd2bdae476f; 0x5e791a2161bc212b; 0xfe81cc1fa45c0a5; 0xcc8bdaa4f7463ff; 0x10ce1d42f57148db; 0x9527632d39ff788; 0x2fc6b1f87413376b; 0x25b467f53c343928; 0x68af152a38ce6e86; 0x37acd4300417e051; 0x2c03e33f794eb4dd; 0x181b2defea797fa9; 0x5ee15ebbac444985; 0x3b8f869d3e2fc55d; 0x315ac2ca39158a76; 0x1587a340377b8695; 0x2d0ac3f44f01eab9; 0x311b5d7ad16af5e1; 0x45dabb43f1cf2141; 0x708e7508fe141f52; 0x3880bdc515c4a834; 0x4c34a58987679a42; 0x4cc5a5510e0b889c; 0x7be491d6290332c7; 0x29f747776778464a; 0x2db0c44a990e74b; 0x2b784596a16048a4; 0x51d61ca937898218; 0x629b6af8c65936b; 0x35894a967a3564a1; 0x393da281888d2da1; 0x74e1a4fbfc641fe4; 0x3fd37e54e73207a0; 0x6c6a184005b16ae7; 0x1356734e9630d438; 0x44992ec552173c11; 0x7bcac0183a8be699; 0xf42178ab393773b; 0x4a912f4536173f67; 0x10d298e4ce0c2b; 0x5a24647f44bf0c6c; 0x50c29d1e7b1c678e; 0x1243f4b2c7c210b8; 0xf462e143e79998d; 0x71fe920692b140d0; 0x7a5450c186cd03ff; 0x5cd8899aabbb3f4d; 0x2b519040b55f36f2; 0x7f8199f986187fd6; 0x3c03fcfcff0cffcf; 0x780601e798600606; 0x3f0c0cff00f03c3c; 0x7879e];
   [0x64766657045af2a9; 0x732a3c0ca7a839da; 0x6a69a264e5bcb0fd; 0x19b241c45ed9468e; 0x3367e489b0fe0bbe; 0x57578abf0dce2886; 0x77e5f31a1e7e3406; 0x39d128e606ce38f9; 0x219396a921984283; 0x1baf401ab5119d0d; 0x1b1abff2543071b2; 0x695ce5ce0645521c; 0x766a48dce76c38a5; 0x87ec13de2c60ff6; 0x40e4f7280990889a; 0x4af7dd4ad9d36417; 0x209b0903c5535822; 0x9f003e9ed767601; 0xb0600f4f4abfeb; 0x6bf2b3c91fd99369; 0x539a2d96e12e37da; 0x7f748f7a3609fb21; 0x3106f1a849f7881f; 0x2d4e113e3949afb8; 0x619a158da573471; 0x3002cfb39921a9b4; 0x67c31f43a530251d; 0x5bf970659c7b1317; 0x4cc957efaf7e9685; 0x5d25fa2bdbbebedf; 0x293262235f08c953; 0x620489156adf8ff6; 0x388b602e156a5238; 0x579ff6cf0ff3569c; 0x66bb442170f6aa3d; 0x18947eec3da6992c; 0x56dfa83425f84047; 0x33aeb09057a23fe7; 0x13ebe723426dc616; 0x26610d71b69d1590; 0x509cc94735d2cac7; 0x770b8351de081bb2; 0x717876504d014fcc; 0x524b4120e12afe84; 0x2e3008ab5f3da2e0; 0x4e5d636bf49d4555; 0x768e9045d5c69948; 0x5906bd147eaca5b9; 0x7022807527fa2dab; 0x1054d33ffe403ae0; 0x65359cdf130a66d5; 0x681e652b2e5e0452; 0x56e82e0b42109f0c; 0x2daf632e6943b0d1; 0x11bc0ff1641c4a77; 0x308305cb93ae98e3; 0x348aa64c96a088bf; 0x4c3e7a38c2088dcb; 0x32731afa0c440f46; 0x789507ba1a1eed4b; 0x5d55ee3b31fc7509; 0x3be94e2719120d0; 0x242ae6a95749d691; 0x125ff1dac2ca1371; 0x37a83a57e094b168; 0x5678097e7bcdbf1d; 0x1b55087ba7584df6; 0x7c524f2444f949c6; 0x47e813f11a9a57b5; 0x15abc3c54e32cc49; 0x42c0d05b4bfd6ee; 0xbf3c13622b148a8; 0x78f6da7d8c1984c5; 0x47225704ca9515c3; 0x7fa8f92917f45787; 0x46e60d276c70a749; 0x401ae255cb02465a; 0xa8c869004310dc5; 0x2bf21a62c0131ab6; 0x67524b61265cb92e; 0x284fdc852cd931b5; 0x274a2a62a4ad7273; 0x6c5677457e48676f; 0x7cce006fdbcfaa82; 0x3f329e4f2189ae15; 0x41c3b1640ec91d44; 0x29da95acffb76f7a; 0x26442cdf3741059a; 0x50e867731ddb4823; 0x73014e5831c9a21d; 0x4e3ea8f5ac1a0010; 0x17bbdb637bef3602; 0x659f56169c7a756; 0x5f1cd0419dd5c1cf; 0x2a8bcd880e5d140a; 0x6d80fa8ef230186c; 0x2261d055c4661b68; 0x2607a5637bc17744; 0x5d38d4b0d91b9b7b; 0x238a6563c43ecf40; 0x42375aabdbdcddf0; 0x4bd790743b035a4b; 0x4f43bc937b0cbb92; 0x4d43fbd8b333962b; 0x121a07de27ab8038; 0x91b81cde6149338; 0x4d0548334fde1e72; 0x59e2b4c61956ee0e; 0x3ec55d2bb7ae924f; 0x5420bb4aa9b899a1; 0x4bd0057a8b0d8c3f; 0x7319379eee8fdf9d; 0x4728d21c1e7f53fd; 0x6e504777e945c7cf; 0x28d38e7a806158b1; 0x1049ad664dafed54; 0x36eab022ab120baf; 0x417c3f91fc83de6d; 0x2e294e7e0318f6f; 0x632dfb84bfd1480f; 0x2e30a53f165dd298; 0x25c545d43ca76737; 0x7a0d8c4a08fe9486; 0x2c9f4f9b95cbe4a8; 0x6d510354011662ae; 0x69cd34a14ba63e60; 0x6b5e37cb9db54fd; 0x7c2912c22bbc8463; 0xff9e4ad30654688; 0xbef31019bf35d91; 0x3421af2c6570c2da; 0x5d3c3aa025f6c645; 0x5cf37a0e201ac9d8; 0x2d85e2b7999e4bfa; 0x7c926082c43962a0; 0x50fa678a114f060c; 0x99ea2918472cfc; 0x39ce7246ca3cff57; 0x5a7d9e89128e34f5; 0x11f365a54c67d079; 0x48c4d9a0bba9e5a; 0x24db8aa22f506d28; 0x6ffd1aa40ec23471; 0x64bed913e421fc4d; 0x6d23699a7b5ee607; 0x1ef82c37c24ee058; 0x4d84ba0386c591b8; 0x7f5b0924a0f25fdb; 0x631741a0073a22bd; 0x6d83dece39b5bffa; 0xfcf04bc69246b47; 0x30f37ac9ead42ee9; 0x65b39ca186d98854; 0x71ceb25fdc81176b; 0x79ba63efe32faa9a; 0x777c3175235a0dfe; 0x9fca75c37bac2b8; 0x37d61557a990e20e; 0x2a14e76396d54867; 0x764984bf95ebb468; 0x7a7ea33a160fa63a; 0x7a80c6d8652af2b4; 0x54ae5d0ab16d6c58; 0x3b96c9ca129328c4; 0x598771be8401dc7e; 0x48c4330f1c89507e; 0x5539adf90bb06e76; 0x16eaf7eacab6bd3a; 0x2a5830da24b9f648; 0x22ca992834e67065; 0x613707c02b5ae0b5; 0x23b4d45d46893698; 0x58366cba15045f2c; 0x7305f9367f41b589; 0x1689920bad6182ae; 0x30e2b5932f7b64d; 0x1e1f78691ab7fe1c; 0xd36c6244a2b9878; 0x16aa5996e80e6482; 0x36cf1053fde8a4f5; 0x4a1aa75c6afcf2fe; 0xae56bb3f6ed87cc; 0x4ac2bcda5f25a68c; 0x4d5eb607db609f99; 0x40e0c6ab71d88d2a; 0x2dfa792c8d69068d; 0x3afa9090c99a103a; 0x7a2d4ca4fd36a6a9; 0x5a6d88d1dd396309; 0x7c3c86bed2f7d801; 0x4d14efce1344e384; 0x638100a2dfea061; 0xe9c785681ea8327; 0x17ca2e1c153a410e; 0x5f33ac9cbe5095dd; 0x5e57f550460fce8c; 0x102c04ad14ba0ca3; 0x212a2d49e2da558a; 0x550e68e0879e09e8; 0x32b7491e9d70d8cc; 0x27e1a963ac31c3ff; 0x4417f944eee57722; 0x45f0e84ef9dbba72; 0x17e4da26961305c4; 0x675317cdec24e47c; 0x2dfb74473e35be31; 0x1eebbd755ef6f3fb; 0xd94a5c902234c03; 0x3f0fef54f40f22ae; 0x4badafce05e9bf2a; 0x67a2f308acc89811; 0x3bf58ffbb7f4c669; 0x74930e7574fac166; 0xc9ec4fad08c204b; 0x51d3a3ecd8904e42; 0x78bcf1eb8c1d34ad; 0x6e2b3bd800eb0a3d; 0x632eb369a0cd64e8; 0x6008fa4188a43cab; 0x653e0f52cdf55df; 0x5166b5dd53cde363; 0x43d739eafc581fe; 0x7d9cc1f463997f1c; 0x48adcf2550da0bf8; 0x42d2b1e33adab7f0; 0x60bd3fb08978f1d3; 0x5457f07dd1e22ce0; 0x38ec6081f0340b82; 0x7c01dfd22517d2f7; 0x74d2b296d050e531; 0x666d0c7894caf9e3; 0x255952a205c0a78c; 0x44e6786583e9d012; 0x30a3a0281bebf646; 0x6f2fe33fd19648d6; 0x5007c7248959e5ea; 0x445aaf458cf9d31; 0x1ad2695a8700da5b; 0x4e14048b30c22722; 0x3fdf65e3996a7118; 0x5a3640f202087063; 0x6a5bae63d14582f8; 0x3b17a1751319ded; 0x7ed0d4070dcbf80b; 0x696046a839092f3c; 0x5d39f48687a7ad24; 0x14db225af229c55e; 0x4fc2455354757423; 0x7cb8be146522f6cc; 0xf7c8adcd721997d; 0x15b39e23e4d0772a; 0x6b4971693f9b414d; 0x1c00ce84df708471; 0x184c68a0383a7e6f; 0x7ef30404d1e02b67; 0x2b6a43062123b6a1; 0x7f2c8c62c4aa2c87; 0xc8b5642ae8a4dca; 0x1da6b690b7c12081; 0x5ba5e90acc9ad603; 0x6919f0ff3d9027f9; 0x3c9d42ff5b6c9b30; 0x3203ea0831bc9f3c; 0x565df4533a938f12; 0x177e88b81484cdcf; 0x3a26d529c7a0d59e; 0xe5d901ef840d2b3; 0x65b3147b98b0639f; 0x355195c61b07e1b0; 0x755bad6ea48a4c22; 0x7a99953251bbc49d; 0x21a52b5756b57eee; 0x562f66526c590b65; 0x4e31712b5b31d479; 0x7497ef337c24f499; 0x679e1f89e67e48da; 0x21dd4d3a524ec155; 0x62bf2ddaa1dc3f84; 0x3972adf871cb5d7c; 0x668b71d202c2b69e; 0xb6e5f9d285d6ef8; 0x1db79c8544d74cad; 0x4aa9e361411a68a5; 0x29f21daa3268b990; 0x4e7d24f8630e0aad; 0x4fdf4cfa374cacfc; 0x1f4b9a411ef1c195; 0x76e198253bf95115; 0x2103940d1971cb0; 0xec3005b307068c2; 0x8dd7e36c4377caa; 0x1fad2d49b6a594dd; 0x7f8e37e807a288f2; 0x7640504f571c9590; 0x247c533eda5e7757; 0x3a77e7b975adc7d5; 0x4ea0c7292e708216; 0x6f92e96cd260fa1b; 0x1bfd7476e4c91d84; 0x794126d1a7357f3f; 0x3b65265240d484e2; 0x3cc8994bc4f2dc73; 0x43fa1bf494138f2b; 0x245be35f16c91202; 0x7efdb0eadd837009; 0x4d0f8b52d0c6fa13; 0x35f01ac540f10475; 0x4d6ed79eaf192466; 0x3c8619eaab068acc; 0x100945e110e184ed; 0x7eddbd96b3268c3; 0x22a8b73e8eb7ae2f; 0x2a2f165abe96643f; 0x7e1879fe607f98e5; 0x3f00c33c0300c3c0; 0x7e180067e1e0678; 0x3fffc3fffc00f0c; 0x187fe6];
   [0xc5393a9d7ef5489; 0x69904d70bfd3c11d; 0x393f2d19a25627cb; 0x3557cb5a02efa453; 0x2cb586d9c3bdf4a0; 0x29834a82da473809; 0x69b4d98461aa62e5; 0x49021af0a88957bc; 0x15bfc6e2667be73b; 0x7a955b510e81bf70; 0x1f6609a6867479b7; 0x6790ba68511a3bf6; 0x66c9f2b7246c733d; 0x2b5d8d9721fefcb9; 0xcc10d665987227c; 0x130e76d8dd500372; 0x558eec67f1e5d3ec; 0x7f734bca59ac46f7; 0x16ce97d2baeee609; 0x2ba41cf14f3aad4f; 0xa50899b35bf05b9; 0x33a6d47216650a91; 0x173308eb963bc039; 0x10d858680bd588e1; 0xb9074b5bf61ba6; 0x76e728deba328a4f; 0x1781668f742832db; 0x656126c945e601df; 0x483d22b12002abd8; 0x5fd0de9c2b64cb71; 0x12067791c8a65bcd; 0x19c66c25b901ee48; 0x1ecfffb8dca870ff; 0x14972cfb4517e41b; 0x24d36511fef665f1; 0x73467c639c08df01; 0x252d7ff6ea985792; 0xcff55c908b5d7e8; 0x744584c186d928f1; 0x2a62924a6b999b3a; 0x24ba54cd623e096b; 0x49e3212f768f5c9f; 0x4a64daacec35a9c2; 0x150db45c8f181100; 0x776e0cfa4c5a883b; 0x72383f45deb55865; 0x1f44d079aee681ee; 0x7edc48046b735211; 0xcd26fd0bb427b34; 0x507d76dac4611882; 0x20eb6ea8c53116a3; 0x241800beac2eda59; 0x10527e99463dd9c7; 0x58e57dd4895d7af8; 0x5c45febe217470d1; 0x716bfd83a957c311; 0x1506a88e7c7ee6f4; 0xa2c48fea4ec3091; 0x34421e4afb43a5ac; 0xa30f0ed8d1048d; 0x475f9c27d0bac0e2; 0x484896581e97ce6e; 0xb75deb3133aa27b; 0x5956ab134794b67f; 0x59fb13fb4cc40663; 0x6d992d1f1df2c568; 0x7a433793ad5c8a34; 0x4e58b4a299adea32; 0x46a71b52c647b536; 0x78d20094b1166ff8; 0x37ba4188f874b486; 0x63ce721e30875df3; 0x3bc6065f957c15b6; 0x2a2b8683f44baf27; 0x58d853011155a761; 0x3bc022455c344774; 0x56477140c8cc1761; 0x6319001b56170047; 0x682c3a0b65e69554; 0x14e45dcb1355dd82; 0x56bfa83d0c6e25a3; 0x1e82b9ee98b9c608; 0xb86758cf79a9247; 0x704548d1433c6b0f; 0x673829f03edd3b61; 0x6895c02bf01fe9df; 0x4c52eab219eb9bc4; 0x686671d3507c881b; 0x2701652081bc880c; 0x5c759111781b6d90; 0x7e7403d722652cb7; 0x65afa1c1fa54a21e; 0x267da7a5ac5b3cac; 0xc075ae5d3a558b9; 0x22acdf45f777b2ae; 0x8eaaaecc83760b5; 0x324ce5057e464e3f; 0x1e38f486acbb79da; 0x452a8822d55fd0a7; 0x220c774a3b87e500; 0x7982d9167b2ea16f; 0x7b4074f227587903; 0x14ddc4076f1224f6; 0x5a1a34358b32f2d3; 0x6391c2db0b06bdac; 0x1c966c40839e7dff; 0x5a855c10f417ab10; 0x1dae984b1622d849; 0x6d071697cb155ea2; 0x4a5cc51eeb5ca69; 0x59644c5a3bbd9c37; 0x648ebf0c1d4d365e; 0x3b74e8a48add7dee; 0x6c4be643fb3916b2; 0xcc92b75587ce60c; 0x50ff403b400e11f4; 0x6b051b103fafa5b2; 0x777690bc10953107; 0x4c00a5105de5a71b; 0x17f5b1109acceb06; 0xdbedbf16c9f5a15; 0x750d46678e719225; 0x6500544c5e9498aa; 0x1505c06254de5be5; 0x6b3e2c19d8bfe920; 0x1b31567b9a5ad9d9; 0x26de49e1f200e19b; 0x2287c97389a52010; 0x5a6817cc288250a7; 0x2924c4e378a9757; 0xd54045e0b1ceab3; 0x16b4900243156579; 0x16083c0ef7e29985; 0x16e9d87c95933047; 0x65715402b26d4c32; 0x7ecdf161cb73cd99; 0x11aa76c58f25461f; 0x52b246c2b78a9c0f; 0x6b305ff7d3f67307; 0x5fb7be28bfa10370; 0x1adba63efb28603a; 0x36a71ed4db43965a; 0x25e89c1b85f01c9a; 0x7821d1b3c893f2d7; 0x6ea9855a067d1632; 0x5bc27e8437989df1; 0x64bc28c097f2c6c3; 0x4bf401a8625680ed; 0x1413e92b8866c726; 0x124d125d8a0b66c7; 0x33b98678a4a3f6cb; 0x596dc90d6f046c4a; 0x34b44814944f71a1; 0x6d1400c67cc794d2; 0x55aa92167784c4af; 0x30537e48a501aec; 0x688f1ec98ae2df80; 0x3761b445d883be07; 0x24585ceeadffcff8; 0x7d677c534ecc3b0; 0x40c37f739c2b9164; 0x6f3eac03f6a86592; 0x608edcf74c1d627e; 0x6eba6c5d783d322; 0x6ab3e4cbabf65527; 0x17fbc4c5b5a5b571; 0x6a6cd841492247ff; 0x5a802169efca021; 0x2f9fa91fea449cf4; 0x5c8f73ca3274b731; 0x5b9689db73ffc745; 0x38ad0d7f8a770eb8; 0x4f104d45666a25b5; 0x14272de17ed193db; 0x6e9ee01c7c51efc3; 0x6679f4035cf4ff62; 0xdcef35cb2dc59d1; 0x6147ddf8a03da4eb; 0x73e1da8888278f43; 0x32bb0cbcbccedb64; 0x1aeffeaac1185a03; 0x50d5680fcc6ca638; 0x6b9b928d5bf54b60; 0x162649fcf98f15d9; 0x3a1bc271244fff1b; 0x6503be649eec6bd7; 0x7a4f4f78e5271bce; 0x50e12c7de6814e5f; 0x21792e31ebaf8f68; 0x6e346327105433f7; 0x4aa60a29e790185d; 0x1064787ca2102b88; 0xbb24e5ac855efeb; 0x676cb9849c1c0be4; 0x5d0cf6c542e24863; 0x55f54abdde67de1b; 0x5c0af35b68f2ba7e; 0x5d5c7b097fd90eaf; 0x1d73286de9dacd9; 0x6731b1f1b0d3a135; 0x26b4b6c4ddd708f4; 0x222d0a26241059c0; 0x53e71df601cf6a09; 0x43135bb5d255f1eb; 0x62b965eb1bba5e7b; 0x25d0719ee54a8e22; 0x45f3fb9631c7fe5a; 0x5b1a32d741c258cd; 0x779100bc77a4cae4; 0x39e850568552a263; 0x859a7f6c26f87da; 0xad7a31de47db77d; 0x384406e0be604868; 0x45234c5a073e17e9; 0x15d7a1d86508a741; 0x32f29e659591055; 0x555fd15745145c51; 0x437b13de02ba398; 0x5e3cbfc6fadcbbe6; 0x2115675ad38f6be1; 0x42626a101ee9a232; 0x3239962d855ed62f; 0x7524aef8c1ea3a86; 0x15cdf83cf3e26ab4; 0x7b36f09ee336568c; 0x30bb7ee4cd706afb; 0x19741a7a6e7ddef5; 0x624943ed72ca8b7f; 0x5aa401ed314518ab; 0x42576b9a81d6447f; 0x2205baaac312ec8b; 0x2c544ecc88e1f23b; 0x5d50585d1815a1d4; 0xaf641a16b5a9f84; 0x29ce1fdc6787b0b7; 0x718b9d581f8ee7c2; 0x6024b98a27d47e2a; 0x7dc04f6e63acab98; 0x7784a4ee128a2ba7; 0x4ecd9198693ac899; 0x470be5701b995f07; 0x5780c33aa840b2e5; 0x4d6b54a8954df7ea; 0x1f78c4ed42099974; 0x392b20b52993f1b1; 0x3780cf82362d2845; 0x5c70c76356263afb; 0x1c6083b3c69a9e15; 0x4bceff08f69924e5; 0xffc3ed9d49ceeb7; 0x48ff27340f7de8d5; 0x4e25c55b6af4c0b0; 0x25c4199335bff265; 0x7f51f72ad6ef85b; 0x5472c7ab68b511e3; 0x3989077ac897b6a8; 0x33352abad3caa9e0; 0x55126a3ad84f255d; 0x7d5155d13c567e5c; 0x1c2e27a6ddfcbc23; 0x59596f9521929646; 0x39f277678cee798e; 0xa33a8753b353ae2; 0x134c5801b2a6a506; 0x7375643ee358873c; 0xd25d48bb8dd4ef0; 0xa1f3db596b68c25; 0x457486bea8678b6d; 0x2b0ce056fe01f27f; 0x43ca134146fb4968; 0x48161d001b6e1d66; 0x213572ca5e269bdc; 0x1a0f9a9b1509363e; 0x54dd0c9f3fbfe836; 0x3cf60e1cc2a31028; 0x3b2c17ac319c4613; 0x63b99a448cd399f3; 0x258b12ad582157a2; 0x77add5bf5bc6cf86; 0x7a1c865b9f20730d; 0x2824a3ce4a902086; 0x624501948c700ffc; 0x5c049dd27834ed67; 0x69d939420e4427fa; 0xe650a7a5f95782a; 0x1521ae20d3fdf379; 0xc3d2f9a86fa484; 0x653b812eb73d7aac; 0x2a42dae198447104; 0xcf77b14a2bad016; 0x2fbf12d6b64af208; 0x41f6db87fedcbcfb; 0x5e5cdabe215f0b97; 0x6524674caf107539; 0x7ec93dd853ee4d74; 0x948d467c977186e; 0x608846ca723831ae; 0x661ecce0a3c3afca; 0x54cf47d937822e32; 0x7257cbef30505d2d; 0x569faf412e8a176f; 0x42686199658e1dfd; 0xdce47992ddca6f4; 0x4a958bb1b59b4b0e; 0x29ecdef12db3807c; 0x59087ddc017b807f; 0x3576dac8ef1c28ad; 0x3af3f89adbfa43ad; 0x7fe7c6f3bd2c9545; 0x459fa4d64deb994b; 0x1d9605978c1ddf98; 0x6074a692a115a35b; 0x570e86eba6557e5d; 0x1861801f986199; 0xf33303030c0c033; 0x1e1fe6787fe787f8; 0x3cf3cffffc3f3003; 0x780];
   [0x79dffd52564fc040; 0x297a427c4d3e9ac; 0x1a1034bf0ada6724; 0x388eac69d44bd45; 0x3380a7a1357e51f2; 0x55a912dfb0b4c0a6; 0x2aca083809918637; 0x52f9ece243ea076a; 0x5b93f1b37375a9db; 0x7209cdd756f8dbb7; 0x7d09db0723066f7; 0x4c2c1fa852003d93; 0x1a14fa8af992786a; 0x428237a413bcc11b; 0xe1e028b7a14495c; 0x7a6069265d91d28c; 0x91a75a298d3c9a2; 0x30d4a35d3a4c4229; 0xa3a8b6d7b6f17fb; 0x1d0d64ceef488587; 0x16fedbd44097c32; 0x7e76d594f7d210; 0x6c3254b6dc8392f8; 0x3a5a7968bdac319e; 0x775f40f61abdbee8; 0x1771e59d03930d; 0x618cdbe90ddf9abd; 0x24cf3eed56855117; 0x3699268d7610ae63; 0x630c322f31557690; 0x48c55ad9f022e0ed; 0x63d41b499b395e14; 0x5ea462ce34dbba69; 0x4f9f1543fdc92ce; 0x43da5a6646264747; 0x100348682bbeeb89; 0x2c405eb532f28dac; 0x30c724fc7ead290; 0x2b6de1807d815288; 0x5acfc092ca09c826; 0xea23e87e3ccb5c0; 0x6d992d1f5a5a98a0; 0x53721397a74702b5; 0x4d94a49706835099; 0x2da6482169b61157; 0x4c341d179dd11725; 0x2b2ef7b377989340; 0x77234137a329e75; 0x2b079d90aa36ac22; 0x734c6cf410c26eec; 0x5716c3251ca29c34; 0x1a6f22d0a14fb999; 0x54d106f5ab9734e2; 0xa28f2d51b437299; 0x6ced5c0c0e71d194; 0x3d728c77555788e3; 0xbf0c94d66fc1080; 0x16a30e3f6241106c; 0x21ef24a7021d47b1; 0x61fa769558639535; 0x95c487136c58a8f; 0x70374a992d79882f; 0x61f9f5ce63815b82; 0x59ed8527bdf8e91; 0x270aadd191c4c790; 0x60c236a2786e1203; 0x364db4911920a0ea; 0x6ede1498f1cd8632; 0x7cbbe627a2bbf922; 0x1d13fcdf70a5d96b; 0x9f368c13303927a; 0x6e7038c22d56bf7c; 0x121ef3fcb528b152; 0x3602f7e3484888db; 0x4ae461ef7eea335c; 0x7ecbd5832ff78560; 0x1a29144b0ad363b3; 0x1bae5007f1c76a0e; 0x2b7187db5a72d971; 0x5e5eafe86aa25b08; 0x512aea2b13d4944d; 0x299e22ad5ef2b918; 0x27317f86c654b38b; 0x3a6d6441d0220ac1; 0x2e25c9bd74d5e7d9; 0x748a2561f7ea6659; 0x104c16efe1e52bda; 0xf48cfa953533ee9; 0x304c37734a8d46e7; 0xa8923c50519d0fb; 0x21d63b24758b8c07; 0x594e4fbe7ff84314; 0x48dc0535c4ba9458; 0x239938dcc8cbce54; 0x7b64a9845460ef5c; 0x46fc2a1f0bdfe929; 0x46d9011de3c05380; 0x12c377abdbf80dbe; 0x221de28ea6684f2d; 0xd67d8f9e05b89e; 0x15a1afa32da8073f; 0x4b76a5ff2b93325d; 0x5dff31bf3277e81f; 0x60d31f730ef8418c; 0x44aafe4259bd1368; 0x5983fae339a928a4; 0x77df57b556d938aa; 0x1e135d6a38ff6797; 0x3a7229c65719a7f5; 0x1cc2581f0adfccf9; 0x85c15d65888824e; 0x60e4a53e240706b7; 0x1ce882f28bf77ec4; 0x6877453a373822b8; 0x5491c174a8d58689; 0x5aaabd1ee59a29fb; 0x37896944d959b853; 0x7a130777d17e1fa7; 0x5411f230cc36cd77; 0x214414ad4432c73a; 0x6c9aec5a02a13fbb; 0x44f967f06ff42add; 0x83b11d54aff0bcb; 0x7844fdf87684bca5; 0x5e7a2273075a73d2; 0x6f271367ef458b73; 0x60a4b70ed2439fd3; 0x7fb69860e7ac637a; 0x22edc30f4ba69e07; 0x7fd5635844d2a58f; 0x55cbaa31bc09007c; 0x72e9f639ef9b2335; 0x47fbf959f991893e; 0x69a209cf53ba27f; 0x1254b6a6821b2f14; 0x1cb6ec136be6c45c; 0x19db9a9f1304bdf; 0x2d5e005d76235a7a; 0x28c6fa9dee089900; 0x62baf7ada90b2254; 0x3650fdee1a632737; 0x5c7bab582a51c701; 0x10ba7553a051f827; 0x36dcf726ab853e95; 0x3c0da01081de0fcb; 0x6c50dcb33438dd2a; 0x764c904b6f98ace0; 0x7ab13c047b7934f4; 0x4968a2066cb98ee; 0xb486c3c8dc0e322; 0x457d2ad0db22783f; 0x74c1585e177589e9; 0x5b47b562fdaf44e2; 0x262bc96a7f31f156; 0x40505b638c4366ed; 0x73c0c4c7b32fc99; 0x1c868ec06bdc8876; 0x40ad477099ffbbfe; 0x189f3cab051ffc26; 0x25b63f33b1ddc8f; 0x37178e942780c49a; 0x7df96dd3d9b07bb3; 0x450b938943fba428; 0x4d674a10c21bc183; 0x2e390e72a53eb80d; 0x7aa35efe4d5aa320; 0x8412e1ad890e43; 0x2bfa3d649fc82c86; 0x1bf297012432f407; 0x47abb3ca451f4fe; 0x78bb7f2407041614; 0x3a27cbb51a9a97bf; 0x3642712763db49d3; 0x69fae18e688fcca8; 0x50e87a34922d52ec; 0x49a3b15abf42cf0d; 0x51e366324d30317d; 0x50cb21c4392d71f9; 0x5742be95ad376868; 0x4e8cfb48980d29a4; 0x67aa54d6eafd0cc0; 0x78ede30cd2301e6f; 0x12f4710a71b3deae; 0x3445864b28bc6eda; 0x3f9488df3c0d45e2; 0x8fcf1a8700f6a7; 0xff476bbc66af66; 0x5add940eba8e6fa; 0xdee687a2c0b417f; 0x21f99ca2ef6ed3e4; 0x3d79f8507583895b; 0x1751a48e019d709b; 0x699edd63f38f79d1; 0x2fa1022d3148f2ca; 0x2bc661d2778f4a7e; 0x161a17a33752dbac; 0x61c490a12354fa4d; 0x236ea4b48a6138f5; 0x6abb614851db245; 0x332b90f1c4b00be3; 0x519eecc525a7e691; 0x3e352a2f16c7de4d; 0x61e9da05e895981f; 0x73dafbd92b9f99bb; 0x81b94f1ba91795; 0x4f7384ec137cb60d; 0x6b7606adca149d5a; 0x2790c3f95445fc66; 0xd21ae191bc24bf7; 0x5361769173b124bc; 0x184dd0dcae47087; 0x397024d9c2296428; 0x386dd2b251238993; 0x4495a69404ca7e9e; 0x62faf2b8280bfe95; 0x6ca85c1325d7a517; 0x61c2cf603b09a20; 0xb5b38dbe3d1186b; 0x138e44466192edb4; 0x634a198d9164d916; 0x135ef223445c1c9a; 0x4e4411dae586f255; 0x71c42320c98f7507; 0x6063d5fc13461b3e; 0x21cc43ac65fd59a0; 0x758aef00e5f1d41d; 0x581d3aadfa34e28f; 0x3f80b4f9acd04f28; 0x69c3305079fd2770; 0x6dffebc0690efe18; 0x71013054b8d0e77f; 0x22493773742d2c4b; 0x47f6781ca6c69bce; 0x1d76ff65ff8cec14; 0x3345fb70d6ce327; 0x2fbf886dba45e39f; 0x6bc0be42af10fdd8; 0xccbdc1465a8dfbc; 0x14f05d168d8cc908; 0x83fee915d212224; 0x73768e574a2885b4; 0x2cae0361b29e55b3; 0x709f62758eb0c514; 0x65449f1a5af51174; 0x55f609e162987976; 0x73a875822732d401; 0x60b75c73b309d209; 0x3e4aba5d6bc6105a; 0x4d689b4649c32dbd; 0xebfb92421e38041; 0x3e7430539906f22a; 0x22ab1759fc1961b5; 0x729009d82ba0b574; 0x59dbcfaa1472d930; 0x73feeb7ffc65db71; 0x65eff35a8af63f5f; 0x5806015202f4aa09; 0x442afa897252a115; 0x10d1be7d9bc9597a; 0x4ceb631afff8d666; 0x3df261665180dc9d; 0x5a459c716dbf1423; 0x47b35b0c4568218; 0x7a9e9674d9a2cbfd; 0x764fe73560ea283a; 0x66dc494323c21496; 0x2cc391a762b13d30; 0x47d3702a8c908771; 0x7a1679f35068a58c; 0x716feaaee6d5bac7; 0x370729d417f0a180; 0x21f195c3610112aa; 0x48283cbb7b642cca; 0x12a1369a254b12f6; 0x791a8935e1b911c6; 0x573bb965dd447a65; 0x4a78f2da726e11cd; 0x4a3a6828343ee0c5; 0x62113aa1cb587f5d; 0x607dde8ee3050884; 0x396d62956d304328; 0x4f832deea331e955; 0x773a3af482590982; 0x10f6e4cae8ad437; 0x75f77e4a0e40c7c9; 0x372634aef861923; 0xa54a66b194e0f4b; 0x47775d6b99c8e434; 0xafdc02b97b0594; 0x4469ab9052f9d380; 0x498acbc8726f1722; 0x67792ae1add36261; 0x238fa6fe68277040; 0x1964612209f60033; 0x79112612e4d5504f; 0x54ae69e49105ac82; 0x6f4b4fe6b3c577ef; 0x69ab8895e30928fb; 0x1b186b8210691060; 0x2995705d9b53d4a6; 0x6bcca80c74e29775; 0x56ced29088a8041f; 0x7314b4f358d26477; 0x39eb9ca2a27ea039; 0x1da8901be000cde0; 0x7ef48cf2c1dd85e4; 0x3e1374e397a89e7e; 0xb46eb29753ed613; 0x4b5d02f97bd59aef; 0x3475ddf75deffb3e; 0x3e03c451b8f1f930; 0x44b752183314c0dd; 0x1998d008e4d109f; 0x619e7fe79f8601a0; 0xc0c0cc0fcc30ccf; 0x6679fff807e6061e; 0x7c300c3c330f0c00; 0x6007f];
   [0x6d4d688c35818034; 0x7051a1995ff86cb; 0x697bceacb0a85595; 0x3eee99afe7980376; 0x477b011a116160a5; 0x5047edb4b10ffd38; 0x30583d45bed9ef54; 0x2d9c3520667528f4; 0x6d0d5f12bcaf8434; 0x2d5b8216d0d1c023; 0x776fa6cabff15f14; 0x156d23ff434488b1; 0x10b0f5e9f46a2b1c; 0x79dd9e7c99f6a044; 0x6738196ee4dc16b2; 0x7f0e698da7f242bf; 0x7cd2d8c8685d31c6; 0xa6fa19dc537fbdd; 0x6583988f64b7f617; 0x26c6a8f17ebdddc6; 0x57c99bbd2ed8dfe2; 0x31e354c014f5a142; 0x71d88f1b770fd819; 0x5e38018c769612e8; 0xebde09412c9afa0; 0x7676c376c2fb1b80; 0x587d1b0416e894da; 0x22dbba94ef6db4bf; 0x4cbc862ad49064d0; 0x57b3c40cc7db308b; 0x288091cccd6ad7b2; 0x66142732eba48670; 0x66e07d1ac0d167dc; 0x320bb697b27b94be; 0x74536aa12616b644; 0x6cd313ca354ccc64; 0x7c7955abefe52f54; 0x1b5f5351746f87d2; 0x45f899148a7f04dd; 0x47d79209fb909029; 0x33ab2f0654d0de0; 0x730485c76a8b166d; 0x78a8ce76f3fe46c; 0x5fc2c46830e8fa25; 0x38eadb75ead7572c; 0x7d0cab3ffcece544; 0x5dab11344e0f52e0; 0x59bf51260e37f2f1; 0x5eb949e509cfe4; 0x7258071f6bc0b31; 0x7f3d1de8608ff0fe; 0x3a5d9e1356200c27; 0xe42b6df8911597; 0x6cb154c2f8a78b3a; 0x7089a5df0047d28c; 0x200b202c3d41f55d; 0x598488beabc22a12; 0x5e82cdb5b7e9b52c; 0x6bd8a1cf6b13aa86; 0x503464cb48cd23ce; 0x6b16bd76dd0c960c; 0x7a024dd0a49bdd7b; 0x201a5b09eb83d21; 0x61378ad5e6e8f946; 0x713092989f2687a0; 0x575dfdf87bff76a5; 0x60fb1c88d2847c1d; 0x44dbedd6d8df4cac; 0x3f9b627f12be712f; 0x4328b0bdf661c431; 0x3a5a63ecda2039cb; 0x39d9f9906af22241; 0x3db4c1ca4d0bb084; 0x51a01e5bfd194e6e; 0x2dbde18cde0e9347; 0x72482439baccdf75; 0x431e93e51d33f58e; 0x4cbdab69e2c27898; 0x10bc9a75364f869b; 0x7b0d95be51051182; 0x11267eb9bb535787; 0x48ae2a79b89e6aaa; 0x4589edb893fc0d5b; 0x52d1a7528a23f6d4; 0xf9db9e9fdf919f7; 0x33ea176567da8f2c; 0x16070111531db3a6; 0x1ca22c03d1db2bc8; 0x40c7cdac2bae9ab; 0x75942046ab91cf40; 0x5f0a23a26980a8f0; 0x6f66f6c743ba324f; 0x1571076006269864; 0xdcbca82a38e594f; 0x70fa8b55b1df840a; 0x7cc7b78f425ae19b; 0x1bf04c593f436ed5; 0x2951c8b0d99d194b; 0x6b903d5e47bec5f5; 0xf53f8834ceafcd1; 0x2178176a9bed2282; 0x4cd18a3d330114a; 0x1d6c3936e7114144; 0x525d8bda49819c87; 0x3c68d991a26d6559; 0x74ac0dba36a3833f; 0x42c27e3ddd36c7d4; 0x6b2db19553e7fa3a; 0xa90bf1e0ecbf89d; 0x3e3bc9c247a6bc68; 0x56c36908c0528c95; 0x1a07a761d75afcac; 0xd0d81445565a6da; 0x2a6f141c9cd9e692; 0x1baf4abe6da95f1b; 0x3caf7a8c5964f2aa; 0x6bb4cb9477633758; 0x7c925e3dfd85dfe; 0x4268bc0f0098960e; 0x5cfc8191299fb155; 0x66c302d72b1670bc; 0xc83d91bfc35c872; 0x2b5a90cb2667e2fd; 0x61095b1f83d5c41c; 0x32efa7b9dd367c7c; 0xfe1a7a368abecd; 0x228eba787f8a83d3; 0x122dcfc1ff73399b; 0x181c9a7a207edc30; 0x575e176b46fe5fb; 0x1f167d673bf49042; 0x742e068518270782; 0x6544d70d8edd0862; 0x7efaf54d8cc41eba; 0x3647965e39a13a31; 0x380f7c16ddba259d; 0x100aa89130220382; 0x57d97fa2f4230d75; 0x5cac6da7a5cf2c3f; 0x26e43870c5a1afc; 0x599c970ba429ad32; 0x213db6b650e4908; 0x35cfde4ab114c796; 0x44690b3f63dd3c3f; 0x59e96f9fe2734b4b; 0x23f80afedf302965; 0x47d871e793575524; 0x6caaee9608f89db0; 0x3b2808c1ed1263a7; 0x5292aaf451cf379d; 0x6e117a634f5ecb0c; 0x42e9db20dfb1034c; 0x2df02064d3c9339c; 0x18849f2c900b52a5; 0x79cd036d30b7a351; 0x5db3afbb376ee2d; 0x7b3d26c6db11f19c; 0x363b89a4ff4e9f7f; 0x7fcdc6bde03c816a; 0x5dd6b66432df5696; 0x6669045cbe80c6d6; 0xca20d5310b87db3; 0x72cd6820af9412df; 0x6089d3f01c804a84; 0x1fd3a2da2f249071; 0x4009dc9796587ce2; 0x675ddf2ccf7d24a6; 0x58d67495934c010e; 0x3582e897e92cf67f; 0x3b2baf1c89ce6bad; 0x1a135f1e6801761d; 0x58300e8dd03651bf; 0x64106ba6375552d0; 0x32a5f2714a0a5aa; 0x36be86ae42fdfcb5; 0x22874c5e87e9e40a; 0x7727377b8084a2e6; 0x7abe1dd420997632; 0x448c865c7288c51f; 0xb4a217967e33ffc; 0x6242c5c9f972dab; 0x3d87fadd36e68418; 0x7c4b236cf6536983; 0x95e12993a79cd91; 0x475a7d38618a4c9a; 0x32e5e72cf4b1e01d; 0x456aeb77cf0e0969; 0x7b4ef43a23a9cf51; 0xdf068f954076cb9; 0x5d15a6e0b48089f5; 0x1a0cc027118553f1; 0x561cd53dede23e55; 0x4e7d37c4114b91c3; 0x448fcfa6e4672218; 0x5f007eab0236d0bd; 0x1355b75ce721381b; 0x34bc4d4aa8a003b4; 0x105e347045408d35; 0x4108d9ca11ba1cd9; 0x355c0386db6a4b8a; 0x3ef857373c5083ac; 0x428fd9ba79b80dd4; 0x6b49ae78ed3e82b8; 0x40c13243a8353a51; 0x32a906964376b88c; 0x4a1242145641e73b; 0xa6170c3fda2bc66; 0x5fc91ce8ee0e0d1f; 0x616093ba0307741e; 0xdd7212c21f45449; 0x3ab2e8f732991252; 0x63b7be952e9e1ffb; 0x3ecc5789dc1b83a9; 0xaac234a6e2ef2fe; 0x439f993d480ae30a; 0x791a4e158f36b6a0; 0x496fc394235622db; 0x3f31b652ba4693fa; 0xa75011ae2de10bb; 0x12b85f3ea986a81b; 0x17abc073b8929bed; 0x120a273a17703d15; 0x5f8c30fba9224c7e; 0x232464ee8a0b5599; 0x3410497f55016ece; 0x496e7cc5d6507382; 0x53b832f76fd8475; 0x71b14aa8a20f1d69; 0x1db37c440c95e92a; 0x4617434b9e31ccb1; 0x646d666b147f2216; 0x6900f6e6a1820bd0; 0x4b9868255e4e741c; 0x6d24c337b1ed4eb8; 0x620523e53255ffdf; 0x315e06f865cd15fd; 0x3aa7fa03b3da7d3f; 0x34404e2196182830; 0x5e6bcb12b5dd460c; 0x5ee77d9b46d76741; 0x4e225d052fa4435f; 0x4feccdd6721fa2d1; 0x36bd627efd17bf38; 0x69abd1e54dba75a; 0x4736c1b089b13e4f; 0x22bf370fccd8025f; 0x68e566ba1d782684; 0x2495f554effecf73; 0x441568791b58ae4; 0x24a438fa86b9f079; 0x189188aef2b36b70; 0x5955e3f0b67a808c; 0x650c9530bf6c0c08; 0x1b63be19c8be4e69; 0x3e3509f14aed6aec; 0x20a33bacf5cd8155; 0x2d774ade05d900e4; 0x90b83cfe100e5ad; 0x3ce3967d24941653; 0x1bcb1bf24bafd648; 0x31583a7c8c922022; 0x7688bb0d4ba464e1; 0x2dbe4e8a69a3c220; 0x61aae78fe192486f; 0x6d84e86f80633642; 0x30883872f56e033; 0x5521afc5d8abd9e6; 0x3f02d7fe05c34696; 0x638574b46ea77b2; 0x2cb713dcd4238231; 0x3d08770506b7b08c; 0x14e84555461eee41; 0x45a470fbfcf92338; 0x7e6d25e3cdf352d9; 0x7fe4a8bdf8066a96; 0x61eb2a406f296b67; 0x1377a666e8dbb542; 0x3cd3410e0016acdd; 0x52e73ccd2d2f0bd; 0x44c58cc2c6352626; 0x618e593ee149dc57; 0x63b1d35a241b015b; 0x2d827e50a5a8f368; 0x22182c50683bc1f6; 0x4f5298f80ca18660; 0x8ef18e0b31e5a6b; 0x5961e09f25e106c6; 0x5a027479fd46e667; 0x2071573d9c22d673; 0x47c3cb3339b03ed0; 0x44bb3c2a60ccdce0; 0x5f2d681dbe50f551; 0x2eea25b12918ed4d; 0x1c61b94ee93704c7; 0x3c7a70fb4d940ca9; 0x107d71d5c5be1446; 0x7b5ba6be5132d546; 0x4d43ab153755fc3f; 0x7972cea195a81a49; 0x9c74aa8685cdf43; 0x223af61a2e286e23; 0x58a90fe8dc38e6d3; 0x26854f8f953027db; 0x45911ef7e16c19ff; 0x5b2fe931ffb3c20e; 0x3d40e451915b21f9; 0x1b85cc2815269b82; 0x1533964e658bd7ab; 0x34f6881a559d1de3; 0x59c0e91f72e5632b; 0x52bd5489d0362abc; 0x315e5308723c801b; 0x1a39a3857ebf112c; 0x1f9e781ff8679f83; 0x7ccc3f3f3cf00c03; 0x601fffff81ffe1f9; 0x7f0cfc3c03330f30; 0x7fe1];
   [0x5d86dbc9db5b37aa; 0x41f627ddf7dacf5f; 0x7a505dc536ff24dd; 0x7c6060dcf367e2f1; 0xdc1e5c42275fa0d; 0x5fd97d26ff3ae3cd; 0x21a32ad27102d51f; 0x247a496962a7c4dc; 0x586550d6c8381650; 0x75bb5a551328c81; 0x1e824067a163a7e4; 0x56de9f1a1919dad6; 0x5d23157a63146efa; 0xf901d1ff0514a05; 0x4dbf7c0c2907705b; 0x6d68dd95f3327500; 0x6f9b7bdfb821c02e; 0x310e526e153c3b60; 0x6522d0b57836bf84; 0x6abd1b6c434b66de; 0xe36f37c6a47624; 0x1b5fca16500b4c0a; 0x78ff7b7711c13754; 0x452d844a10a0609d; 0x35c3a1e61073525f; 0x6bf08a14f1dd8278; 0x7546a5f0d36f909; 0x19701826b62b4a1d; 0x25441d0f28ae8487; 0x7c180a0bbf3c0724; 0x4251b442125a7cb; 0x54b62e218b98c9fd; 0x5206f29eda7ddc18; 0x2d597f3d57fdfae0; 0x2ca799327abd9d6d; 0x3eb00c35ff31648a; 0x35a63bc0b3be1fcf; 0x4aead5c89db315d9; 0x715f144e07ab9ada; 0x651fb41509b8e4c; 0x56782c9a6eefdf85; 0x50da4dc5fd155316; 0x294737a68ffbe530; 0x3d665cba3a3fbe93; 0x6d28397f26eac016; 0x4f199d94e7043402; 0x4ec446330fe5dad0; 0x43fe64a3c002e285; 0x649213dc52106a5d; 0x1f6e7a3671fc5634; 0x11ac51eca1058d31; 0x35f40362d16ec23e; 0x35252a72f496c366; 0x644c955658d25b25; 0x19262ec656763ecd; 0xf9a3dfdfdbc2bfc; 0x7b9c6571c58e0d58; 0x17cd9d3010ea3e63; 0xd97958145303dad; 0x6e30711a3625b952; 0x17ace3673d4f119d; 0x38f7168aa1939ecd; 0x24a3a41bd0ee2cc6; 0x6a0bb3e816bdfb82; 0x35a3f868ce0409a; 0x7366f5571ebf0f6e; 0x20f1a41f589ec91e; 0x2bb3de35487d4f76; 0x6c724567312524bc; 0x9971807e5947a46; 0x63472604f00f0d53; 0x43d4a4abda1a6587; 0x5ad0db392edaf54b; 0x688515536fe55d4; 0x55376a23648155d4; 0x2b00708314ce0288; 0x3f5dedca54d55a66; 0x7d9f544d084bfe4c; 0x54a5e54260899817; 0x749a1be2c69e0b15; 0x3d82c8dd37c1bde7; 0x7c06ae8f56f32440; 0x4bcce4c6be303965; 0x47c8a001ce4ebd2a; 0x5c5a625c23cae6a0; 0x6b94110c22bd3fa5; 0x75d92665dc08d2fa; 0x1c7cdc64abc63ae5; 0x16c10c0375277b6e; 0x20758bcbb367c295; 0x5600e406b04f2126; 0x5186d196653bf303; 0x69b78036ce11c701; 0x6218602546780f03; 0x4e130fdf96c18776; 0x62f947fe59a1e3e1; 0x64d35e10c6626002; 0x56f06c31b70ff6f1; 0x7147cd794825e821; 0x7349456662c4dc81; 0x52231b1baaa73eaf; 0x7f30aaac886f1c5c; 0x7dcf63a324f3a9ce; 0x5ea8022a5b45bc73; 0x36dc207e350d74c4; 0x3e7800d533bd94f9; 0x17068a1e8ce46e28; 0x13ea62df80a4279d; 0x603d72f561b53ff8; 0x7de9252d51fedd6a; 0x75384a4c082a242; 0x676e927751f67913; 0x1b68560ee132ec57; 0x6470623f8b16ecb6; 0x3c580b1d126d7f8d; 0x4e9fb129c6afb3c; 0x7f0bd7a4ec990153; 0x6c3b81c9b9478398; 0x63007be3e5e4308a; 0x21daf530bec310b0; 0x61b9772456cf0178; 0x40f7b74dea870df3; 0x30336e3dda92bcb7; 0x2879a9f6f15abefc; 0x3c25104d034fdc7c; 0x2578618448ea15c5; 0x2702f7d1a74e8e8c; 0x3beaff037e3fa7c2; 0x1c222d4cacc3702; 0x6b6af28757210152; 0x3fa6c1d63cd497f3; 0x12934541e4cb0b5a; 0x1d33df6413bb7336; 0x1aca548633d2b017; 0x612993ad5729af03; 0xbfc48d0f6184b01; 0x1d0e230b0bb773db; 0x7af2e37052cd6a61; 0x52515e97a179ee52; 0x1fffc08cc17d8359; 0x6b962caa70c44ca7; 0x7a6e723bdcf5aeeb; 0x188d69a4b432cf01; 0xa8eb7e7cc47483a; 0x793fa7f3989393cf; 0x722494a2b67b3c5d; 0x33e87e1121bc17f8; 0x1bd34fc3c7e088c5; 0x2fbebea3e92a3791; 0x57e03286e82edfe; 0x5947aa375d3a401; 0x7a26236d0e2cce4f; 0x505bd147e650ba17; 0x23669a5a7e8ce32; 0x6f0ff0e87ce776d3; 0x2fff11d74ffa6dea; 0x4d53a75961f5a8ab; 0x1fbc716cdbe2cf38; 0x75092c7af833616e; 0x39c01a412ee3af44; 0x818ab5751980162; 0x5b174d31f12f8239; 0x43d2a7d01d81fb45; 0x1eea393eb1f7f49; 0x1e981dea84c59176; 0x7b03dcd3773c2da8; 0x6b3c06ef4af01518; 0x3afa324604075ac5; 0x41c80b05cbbe399d; 0x68a9b31ab1c26168; 0x28da2d8de115322f; 0x56e05a8efcc50648; 0x5daf89dbf141d12b; 0x6cd2f4c7d575bcfc; 0x22ce3ea83da888dc; 0x664e890a06d094d1; 0x3e120b3b27d45c62; 0xc05c0ea37be8c8b; 0xdd6515038ff4bf0; 0x513ed7bbdd151d3b; 0x203e4094e46859a9; 0x33adb8c5de8d8e6b; 0x77631ef9f2dfaee0; 0xd23a2bb77ab2c1a; 0x5498bc009e64caf8; 0x3b67f6a28b6442df; 0x98c3983dc41c223; 0x514e4be949ca0fe3; 0x40c1d47761af9733; 0x370510ca9580cdc9; 0x4c10c13e2105b740; 0xcfb9dd33fc31176; 0x57f9e85b5003eb90; 0x682fed5646b25fd1; 0x16c418aea0e0e7ca; 0x1d0950251bc359ae; 0x567b88291f2ef1ef; 0x6cf48ca05d33ee54; 0x7b1e227834d2b05a; 0x3557e1e4e21746eb; 0x5038b5503c85c328; 0x3d7f1322cb1d937d; 0x3a5da65d592b1832; 0x56549ebfc524560f; 0x5c4833dafc27e666; 0x41d04d5ca0e6faa; 0x1a2f521c878b736c; 0x2b1b4e686a06c347; 0x191824135bcac3c5; 0x6da89d100e1223d6; 0x1dded27268586336; 0x525052f930de999b; 0x6e7926e29812ea93; 0x74858179daf42cc8; 0x21bdb932874a8b15; 0x51acecf0814f90b0; 0x3c9e726e5e6880f9; 0x1354ef2196b1a995; 0x69cdfe4f501c205f; 0xc520f97bbbde264; 0x4da8fa98decae103; 0x3955e8a8da8518ac; 0x60f6039ee0281ee7; 0x6dc8a4549b5c6207; 0x2765a767c40b9317; 0x1c4db97acd64829f; 0x1a28c9bd5dea3ae3; 0x604df1653f9197ec; 0x71a9ede4c5b98ac3; 0x210bcb70548f716b; 0xa6dd2f35b7c74b5; 0x2fe5e338f6fca8a9; 0x7f8978dd62a433fc; 0x6ba1729e3c544d1e; 0x5c7f7a0eae8ab900; 0x18a2366749910064; 0x5e16562856a3b69a; 0x5e12abd417797e6e; 0x72afb26debb92ddc; 0x164ef17e0368fa30; 0xc6ba8c982d8f529; 0x1979c0f304a8e481; 0x5faee1c7d6a2ef97; 0x3329da049014cce3; 0x5b9aad84ac5f9444; 0x5da9bb5c16f2e1bd; 0x7842d813c0dbdc95; 0x25cea8754464b93e; 0x790fb72004d2319c; 0x4c21c6f68b72c714; 0x51eef6a5b73b7d6; 0x788b56955d3056d7; 0x50f7fdba73cc8a7d; 0x2fd8727c4123bc2b; 0x72015d85cb84cf49; 0x67957277bb0ccd4b; 0x1f2234d3b7b4b4be; 0xb9dd59396896cdb; 0x4a542a4f24e5e060; 0x29e3ae13a29d669d; 0x55a7348f78df8c18; 0x2899645e79d99d95; 0x3f5d4936be58613; 0x413c6f411b5f0070; 0x2a7117d570cdfcd8; 0x2b48d22d6da94737; 0xe877b2a89313db9; 0x742a2fa36171dd8e; 0x338e226559b535f8; 0xb81b8ab2b2362ab; 0x3e94e581625c401; 0xb85c7fc18dd7087; 0x6264afd00cb8fbfa; 0x65d9321999eb6de2; 0x260babe2e57b37d9; 0x5141ea6cc98224be; 0x194ba8159b962bfe; 0x1684ca8009495f25; 0x438d4656d97abd73; 0x5a084360ac7cb2c0; 0xb16802ebcbfdb10; 0x88434b4464ab474; 0x5eb174859beeb09d; 0x1ea5146371dd85c3; 0x41593f446dee3be0; 0x36712ce0c4cc696c; 0x43303132194000f9; 0x6a64ca6e2ac68b0f; 0x4e753f4928eb2042; 0x1614166439a3e007; 0x5a75d9eeff1b628e; 0x6ecd098abbca13b5; 0x3eac2c4061c53f8f; 0x51eb4c423adab7be; 0x3986b89d0eed5e97; 0x244c670bb1dec8ee; 0x7992e5c2c1141a1e; 0x342e8be08c91580e; 0x7f7946c5acb01539; 0x974581d0e1dc2af; 0x64dbea23f133a929; 0x40571dc8518420c5; 0x4fa89bf8e8e418f7; 0x6d48ae707d7a87ac; 0x7609c13ffa76cf92; 0x7790162d79f34fbf; 0x788b8f45b5dd5d80; 0x13f3bd9f016053c9; 0x353d6fc48c319309; 0x2e09c39bf1a1aa97; 0x3d0de2d33b025e66; 0xdaa5805cb23bf5f; 0x60bfba6fe7ffd9f8; 0x19819f9e7ffe086; 0x7c03ff30f3cf03ff; 0x18018181f9e1807f; 0xcff03c003f0c033; 0x181e18];
   [0x6d0b559737d279fe; 0x5144f95b26c54f65; 0xf03eeaee0893b8; 0x72564cc3908c5ea1; 0x936f3416cbf6463; 0x3bf8fa3432718d89; 0x65dfc90d7e4edb0f; 0x26ab84920f41246b; 0x1c75c79cedb60925; 0x32a188ff1fe51994; 0x75e231332fefb26a; 0x7d7c6634d67479d; 0x7a1ca945e93e513c; 0x6cadc0a7eccaf189; 0x34a919607ab15d53; 0x6d0403df0ce183ec; 0x62160e222508b67a; 0x53ecf64463ded1b0; 0x53d702fbb794efd4; 0xd2d336717ef983b; 0x559bba83cabe1a71; 0x56e5aee818f5fd2b; 0x544ed20d9d7bbe39; 0x173c329c5c89b27e; 0xf1abef08eb313e9; 0x6f29c3c58a97d25d; 0x38f51b513f8308d7; 0x4d6d55e85fad87aa; 0x442bc6d82b7773c7; 0xd5734f214a3fbba; 0x42b11a9a692251ed; 0x3d818568daa0a90d; 0x6f10ba2c80f98ed3; 0x32e55760d691636e; 0x78a60ba601810d0a; 0x282f4e221a661cf2; 0x64a3a08f0108124f; 0x6a84c8632bed1eca; 0x7d574c99faa966a3; 0xf09708ee8ad3eff; 0x3529518dbaa70b66; 0x73346fa707c0273; 0x794d27067a0e18a0; 0x56ee90175b4debe2; 0x3961ff8559f50b56; 0x459e76f8154d8893; 0x1c3e936f78963832; 0x5730c8a74ea8cd2; 0x69a8bb971cf76ce0; 0x780e062a6fe58350; 0x35cf4a7c687aab98; 0x5b7cb18978dab557; 0x73eaee5cb77d6e56; 0x75437943771ff662; 0x1685a71e20c5ee2a; 0x6e7150a618d61762; 0xa9df6529e9c6d67; 0x6d99479a97fbf3ef; 0x2cad22094f07a536; 0x362213dfb582ab0d; 0x52b35d9e30f2ff79; 0xf10234260450e90; 0x5bdd9923a9ebfc5a; 0x7e1e824b74ea0589; 0x10d5edf6ed140a87; 0x2312867628df39c; 0x2ae760d17ea4f38b; 0x53e908ca7ddf5373; 0x1f43f36066e0073; 0x491fd073c3a0ae85; 0x3866995360175c3f; 0x562047e38afa3f52; 0x7d081ef2de0dc7e0; 0x4bd7b29ec436040d; 0x5e7e9ac3f6d78cf2; 0x169ee684b5b37a89; 0x6cf0e2935292d2bf; 0x58e171d1402374b1; 0x579db6c0b58e338a; 0x1b09b9281551f207; 0x44fbed2c85927c47; 0x37859529986ea5ca; 0x4424565ce6e18eec; 0x581660cba2d2c0a6; 0xdc5e49fdca2593a; 0x623413eee562bbcc; 0x7211b8c740d790db; 0x775e9a4a0f81a4b4; 0x744f69b5fefd7476; 0x4d657b941e98e05c; 0x263bd8cb6fb79052; 0x2f2fbf62dbcbf5cf; 0x7b4e106be37f9119; 0x1c35de168ce38566; 0x107c0febd287aa0a; 0x4afad8c7c5c88471; 0x34bf773d71cd90ac; 0x61a773e8a969e325; 0x68db342060d99942; 0x50c5deb149484b49; 0x55136b1ba9e98c07; 0x4074e08f4e572cc4; 0xac4e9256ecf2d01; 0xc4e01e653a5eaa6; 0x68f5eebb3fe834e8; 0xb612732c8b2cfbb; 0x6cb4f4785e5658dd; 0x41cd0825b74d675a; 0x58bcb21fcc327af1; 0x237703885bdeefa3; 0xe309047000e3e5f; 0x358773ba74571be1; 0x433439f190481081; 0x2e8fa6a22fdc9c02; 0xd3d3949e8300f8c; 0x72855c1449699a23; 0x66be9c6d40201519; 0x28d5b6859dc46bb2; 0x4242486339e091f8; 0x446acc97bd4ff867; 0x5e6069ecea940bdf; 0x78d7323843462b69; 0x73d3d8327ba5c89; 0x303aadef0fd256ce; 0x510cbe266916cd11; 0x1f615c156e15b3a4; 0x181dfba7bb3cf8f4; 0x2f3cffddcfbaf4c; 0x5bf8c8b20911fd53; 0x27b25f879f88a609; 0xeceb09a2aacc0d7; 0x74c92d35aad6bc54; 0x7975250403c46c9; 0x6e9406940831a324; 0x582ead6054aefc88; 0x62442d102baadd0; 0xca2b6b39f9a741c; 0xd7b97d3ce6b809a; 0x605ca5b0e44575ce; 0x644132708dde5257; 0x7b96b1961820d60e; 0x75cd1d905d84d325; 0x5160aef55249f743; 0x5c84c14271cb0bce; 0x200263efbfeb1ef3; 0x4e610c9efa6132eb; 0x4cb0ccc264ff0df7; 0x34186768b4068776; 0x6437f70d19e0d84e; 0x765b82e5f42ba30a; 0x6e0578ed477aef40; 0x466ed0d89793517b; 0x6458175ed2a0aaf7; 0x62994c578db31bbc; 0x31e1105d6a8f569d; 0x6a5daea9beed0e6e; 0x774a7115911f41aa; 0x77d1d22c7776f5c6; 0x7ddb9931e339643c; 0x10ef9ded4235c90e; 0x67c7fe1ea5aa9b6d; 0x4f9544f4128a3bd0; 0x1adcb0d54ed5f4a8; 0x210280cc7f19c8ef; 0x6fa790974afaab78; 0x6094c80f341ce55f; 0x48b1b3c67127c114; 0x698b62411beffc90; 0x59d314ca141c87ef; 0x2ff75d160b585573; 0x631d92ae38342f00; 0x23eef4e4f2adc2c; 0x711cdc8d6dce9e26; 0x10bccabb8325fab7; 0x63b7791080cfbe02; 0x4df9c690bac47c0c; 0x1fb5bcd22061e1a2; 0x43f23eb709ab373e; 0x5e2cab5203728ee4; 0x3a5f4c6b00906e4c; 0x5d116117e49ff541; 0x70e0daaa31c105fc; 0x457dc5b1da94e729; 0x1841c95231a0873; 0x11e668077046cd42; 0x29b52d8f43b73262; 0x56e1d5f8dc7ff749; 0x522306bb7953f8a5; 0x6a75971e7e2345ce; 0x7a909b4752c8dc2f; 0x504fa56b3bd76c3c; 0x6d4c164edf0016e0; 0x247ee7ebe3dc04a6; 0x1fdce19dbfeffe41; 0x2d4bfe5d273f407c; 0x326cb8094dbfb4ca; 0x2ca82e84f3db8d17; 0x47fe1adc7ce0e875; 0x729288e8e027fb15; 0x34d5c4b31a5d7d7d; 0x68ea2b34bdd47aa3; 0x686c6b24ac0f5f71; 0x4d1f873f7384c642; 0x29c7e9ed9b7b33aa; 0x5dd6afb9c56906ff; 0x478d3edba597ae19; 0x5d43bd2b56783e3f; 0x3c49265df0ff4e8f; 0x2ab647d41ba1ade; 0x4551744be6ce2b96; 0x41547b229c77b1f1; 0x759e8e232dc3318c; 0x7499628544f0b5ab; 0x4557f36eb18d1b6c; 0x472de02090d29f71; 0x73a47cbcaa7b8bb9; 0x1be5aa7a4bf9aa41; 0x1cb3983dcf7982ad; 0x632d929ffe1fde84; 0x6c07ebbfa246acfc; 0x3db7eeefeb3ec2c8; 0x37edadc0575f39c6; 0x1371efa7520041d9; 0x3114dffcef5fefc2; 0x24c5c911f261da07; 0x4940a50e3cbcefac; 0x24e4d60a2487e06d; 0x1c22e2d498040c88; 0x10753b858cecf47a; 0x735b75cbce04d793; 0x2d9d9e06a26c7d0c; 0x5edf94e1436b4495; 0x8fcd571a11d4b97; 0x4a2edd10c726be13; 0x57cb7ccafdf2bab8; 0x728e83cb8ac05d0d; 0x252b6014e0c5df41; 0x218329b86a236eca; 0x7b5b3ae9e58f64d9; 0x5588e9b1e7a46fd4; 0x58b95c52427f05b1; 0x60a462cd0857c738; 0x36ecc32917547669; 0x737198666f39029e; 0xe87688fa5dfbf4b; 0x77660a4d4b094926; 0x4ebd8011670dbc97; 0x714125e67ddc39bb; 0x4c8a80df177e7ae0; 0x1806ed3310238f9a; 0x345af5f24f726c73; 0xa864f97f5b51aa6; 0x3ae971d13f6cc1d; 0x257a77e45bb454bf; 0x68987c4e278c6de6; 0x6bf8093fef4957f0; 0xd3175e8a7ae48d9; 0x25033677cdc4344e; 0x7457fb3fcb0c6e23; 0x7578aecdc9118f81; 0x16b06cbcfffbaaff; 0x7888543f8da24840; 0x424cdcd36e426344; 0x261eb3e2164f246e; 0x51ac408a9a2a2694; 0x18b55ec52eaeb766; 0x7bcd03609aa2583a; 0x534bd8b15fa278e5; 0x2289405c782223d8; 0x20fc078e1dd4e881; 0x4835061be3e7258a; 0xddd089c2d96580b; 0x33859f44495a2797; 0x7e59e744824af316; 0x6f5801ab3bf8120e; 0x36d1b9b5409920f9; 0x42dc90bf6ad1facd; 0x577eec30bb4df5d0; 0x33bd2fe0c49ab895; 0x36c5708cf6ef3a41; 0x40190f3b21a4607a; 0x769166f404f42ae5; 0x63276410c14cfd0d; 0x1a974a74602bf3d2; 0x53ab8a33ed932b73; 0x6bc3641cb9979b08; 0x2501198d6a64463b; 0x7180c0d93e35e448; 0x73b218c357ee138b; 0x2738f58a439b9de1; 0x21d6e94dabfd28df; 0x244a432a18c580a8; 0x3fc97a3c27820154; 0x3684c5e7732ee210; 0x6a440f551e4b5528; 0x70796629ae530b66; 0x29ec7190fdf9e911; 0x4dce6cef028e7cb; 0x7a5256e29a42a525; 0x6c7642e044938fb9; 0x171f9199ad03e58a; 0x577df1f2fd6d72f1; 0x5448a5073a9c5cb7; 0x2ce363465be90d77; 0x1fb16b9d5de8fcca; 0x10cebc0aeeb5b824; 0x5a4b9ade30b425b2; 0x38c1bed859e0b243; 0x25b01f79197957b3; 0x5c4dc93c6028294f; 0x94c8146a90d4a20; 0x5022b424bafcca69; 0x13bdb08b1ef4ae86; 0x7e60661e1f998786; 0x333030fccf003cf3; 0x1e07f9807ffe01e; 0x3c0cc330cf3cff0c; 0x618];
   [0x1acc175ba4e1d95e; 0x7e767f8278e40315; 0x290f94cc24857e6a; 0x6f22ff250b01785e; 0x190da9663f933cd8; 0x770b6e0613490f60; 0x374af6e8d38a9940; 0x230c4d0cccaa0078; 0x55136e48f8a0e4d0; 0x33b5c96a640bf4e8; 0x411bcd6ab2b2b91d; 0x78b2ae058f3122b6; 0x43dd3085b8116c7d; 0x3de85f06b932abde; 0x3fc6c3b1a18cfd01; 0x2aa714978528298a; 0xdb97e9707837cde; 0x1d5f43cbb4057b70; 0x37d194ed48bcb23f; 0x6777a80fb9cb677b; 0x70fb8fad58fce8fc; 0x1b3a1d5d74b91808; 0x5d22b9cc66cddfe0; 0x3fbaf794894a5f9; 0x33f3fc72d7314de9; 0x79360e91c5aebe54; 0x711c6a65d3ce21ae; 0x377622fa63cd3c45; 0x31c9b73a40ba18b9; 0x1a0c8e508f433e92; 0x4c7ebd73b234e271; 0x5165cfbe5316b405; 0x768e49db45213e79; 0x461b373e396b08a0; 0x43aa2e736485f45d; 0x21e4120a926bd2cc; 0x4a749e582e5b143d; 0x6944426c49920291; 0x498d590c6dff6f5c; 0x78d226ab3cd2a001; 0x40e8b3aa453d820; 0x14d6b84c930ac520; 0x5190617bdd72a2c1; 0x77650d4bdaf303ad; 0x2921f9f50a718044; 0x181a9ce87ded0b3a; 0x435597238bc08a9c; 0x28de18a13385eb4c; 0x5e7f6c9faff43236; 0x7eb304b7e884efce; 0x123ec56f71498d50; 0xdc8950cbc80a369; 0x29c03a8ee750522f; 0x2dedd4430da82719; 0x3570ea294c1e8c71; 0x60341a4878677a79; 0x4fc4099b3dfb0780; 0x54e703e0f5bcf58f; 0x26f2607b6dcbc363; 0x8af0a404d04a8ba; 0x1a7c900eeaa5135e; 0x5af8f97643a3cda5; 0x3ebec6e986a49cb0; 0x13449265ee6c8ac; 0x671e421db1c14ddc; 0x4452f23a0a28f19b; 0x3ae504964f362cd4; 0x7071304dc1bc17fa; 0x2f06d702c484fd21; 0x35ee73b575fb58c; 0x5a4a5cd4aa5cd225; 0x9d87d5a74b522d4; 0x2ebc17952078795c; 0x4c2d91fe0cdce4d3; 0x71e561ba9d95db87; 0x70510dd2184b6bc4; 0x40ac5b9aacbc87e0; 0x7dd817ab40be1b68; 0x6f201e4915a27b55; 0x304475d547ba1bcb; 0x36099b6673b96e33; 0x497e8484b754e1a5; 0x21c884373f67e2fd; 0x146e2b9e18cebfe1; 0x7a3ded10f4da0d70; 0x200fc78428ccf2a4; 0x17f413cb7b09906; 0x317673b9d54355e3; 0x570e4820d2adc82a; 0x4ceea2c2cd68b36a; 0x1ad05329239580d0; 0x5337e1eac73c9e72; 0x736f1d731f7db220; 0x6b4ffb24ff728fa; 0x3af5ce396c75c376; 0x52af4eaf733f195b; 0x5eb8295f271328b2; 0x74577645138a5d8; 0x6ec8071624b5ae6d; 0x3d73ca8947dd0b86; 0x3056a6d8dff51f4c; 0x17a9fa30abb4b6e6; 0x7a43be11a7204f74; 0x2d8240364dd9af3a; 0x2ae488205ecddb7; 0x34a6fb4cde53b318; 0x3bea97c4de0a61c4; 0xa614d410a26c7b5; 0x5e94eba98f2c2e46; 0x71058b66a6f1e2b8; 0x380641d3fee9d2f4; 0x63913f134e5b1fb7; 0x479eb5b46f3bd427; 0x2b2ac39155120332; 0x36011f1911fd0493; 0x84537e91860c227; 0x6374323d4dc44473; 0x7dbc937b9ebcf9e7; 0x5a397b9b6b40c192; 0x51aba2843db83993; 0x4ffb83a4563c8e72; 0x53cf355dac617bae; 0x150a3164b0e1aa4f; 0x1214e196168c6ecc; 0xadc22fdd3731257; 0x400d81c0758500d7; 0x7bf10df42d625b00; 0x6df5f6c4a0aaecf4; 0x3f3ae4fd81248f4a; 0x775c6ff32913ea6d; 0x414a6d5a620e36a0; 0x6344cbc971380444; 0x9a7a5994fa89a58; 0x1d708f6e58696b1f; 0x294233c3c08e58f3; 0x738615bddef861db; 0x4630659344555e08; 0x4a08e61bed47ef4f; 0x5843983cc0b8ce18; 0x72c7199fbf4ab402; 0x2e9caf82b2611aa6; 0x250e295dd195b1ab; 0x5746a23a0e9d258e; 0xd75a921fe08ba91; 0x217ac4bf84ff10e7; 0x741bd2914914611; 0x1d9630926b4d20fc; 0x6450cc76048ffd27; 0x5f69cf43b0af40d5; 0x755f9f7707477e06; 0x6e52875ce2b5170a; 0x20653d51e3e4c4ac; 0x2827676d56652eb0; 0x12edd9813bd49de1; 0x708d2fa977ea93; 0xfeb3199b9d892bb; 0x693fd7515df02fc3; 0x5ff30b08cbcc4c4d; 0xf9c481592789d23; 0x20c3333da88cd7a6; 0x6863d1d872a23414; 0x3e3a98371ae5cd6a; 0x2a13c34d134daac5; 0x6c8b48dc7d043765; 0x405656d7da0208e2; 0x7f609a9fc886a608; 0xdfe617c72667549; 0x433f246fdef39972; 0xe30994db5ed21b4; 0x6203499f963fe1f2; 0x5f4a489cd72970a6; 0xf021ac046a39cd4; 0x5d7893bfef164c65; 0x7f48514b5466b989; 0x756e52f98519a3b4; 0x684f5d93157189ff; 0x20bddf6847dfa994; 0x5cde695baca8dc64; 0x1732f4302c3523bc; 0xfa59f56689ff6f9; 0x2a9e0c66e096d0d1; 0x7fe4ae086d851bfa; 0x587bde940394e525; 0xb6333e5e8a88556; 0x655a1b69b5afe44b; 0x7916d4800da53507; 0x3906de8e123c327c; 0x6c7ea58e3d8c6c1f; 0x23b579c5aab6fcf0; 0x2c18afeb05f3077d; 0x39d99c172cd4964; 0x43e71f73af1b5fef; 0x6250153f33ccd51e; 0x2fcdb9c4944ec6b5; 0x2c23f3df5cdb837f; 0x5a991dd10bb8e85; 0x22848c9a619d115f; 0x3a79cbded3e021a7; 0x75fd69c5308329e4; 0x7eb2e09d82771ad4; 0x175bf18c08f0bf68; 0x58d9647ae196a50b; 0x71a2d632e365364e; 0x7717c65dcb57874d; 0x5122eab2cf1e699a; 0x37662d4ee0d2c4ee; 0x45851a9f2f6ddf70; 0x5c0238372a6a6ab9; 0x499f03991fae694f; 0x780496d0a2fbbd63; 0x24cffd03417134e8; 0x7fb52c5a5d28368; 0x1c57b53230b25a11; 0x7dc5a922af705fd4; 0x39ff3096d3b78160; 0x672c681b02a256e7; 0x6c9baf1d2a198a9; 0x2ce9faad2fd1e100; 0x30759d8c68338c2b; 0x5f4806e10ae3471d; 0x296952cfe7102684; 0x5a3b8f992e258dfa; 0x48c9d7dc3789172d; 0x71041f16ea3fbad9; 0x70f59d5a207d64b4; 0xbbdbdde84ce9bea; 0x4d5be986efa7e699; 0x55c48841ea1f177a; 0x36f0097da7c1480; 0x2a6f3f294332a79c; 0x2c35dbc4079ff6ab; 0x11b9d22cd3ba8b0; 0x284673f3660cdc07; 0x58e315ed3e512b6a; 0x2e3fd77001c6e2fb; 0xc25b7b3d0bb4559; 0x1bda7ad91234eebd; 0x36d5a5047d6b4413; 0x6e97cb50deac6270; 0x1bdafbe2c933b4b9; 0x5652a41a8ff38ca4; 0x4ac53ae334bce7f4; 0x353f9cf4711e0d3d; 0x6351e297bde26ba5; 0x64a439d3f8a44130; 0x40c508dafc416e84; 0x2905a5833da704c2; 0x7cd25d833aa0205a; 0x10e26a3a3fd3a755; 0x73c66cdbaa0fbab6; 0x37457be032587d1; 0x6b7bbd28bc1df7af; 0x167e68aa5e280cc7; 0x2fe12e1d7a42e30b; 0x152107a042465dc5; 0xab97c59eec5bb3d; 0x13510c7a31552bb7; 0x1865ec6c0d2f350a; 0x39b013d6978a6bae; 0x10b01d6a7ce9603e; 0x7172a2d545d3b830; 0x54854973ae5f3f16; 0x67b79388ed92c10e; 0x7c2dbbb70d0d670b; 0xda1acc22b04a5e8; 0xe2f1503aba9ce9a; 0x3f5fa27adccefc9c; 0x2b88907883ffdb7c; 0x5a8aec5aa4b39e7c; 0x5f21eb17d54caeb0; 0x19b3e32a5cee8125; 0x14a5ffafb52dd7a0; 0x65ad406c42965b94; 0x4d0cb40bc70e5175; 0x728d15a5d837ed8d; 0x2c103f0352082a99; 0x355d4ae47d7d4c09; 0x21f1518a87cc917; 0x6e0c53b91abcb81c; 0x20efcd47b850f7ad; 0x440344669afe0c08; 0x43af6175ee162495; 0x75b4f15e7a0c2d6d; 0x7974157f44cc4be4; 0x271c7e1d6c90560d; 0x6ba1ffebcf9dd790; 0x6dfc971e230baf0e; 0x75032b64aae4f11b; 0x6558d89b7a3502c0; 0x3c2e08968a31eb25; 0x5207e69ca9f16b22; 0x654cb59a2e6ad556; 0x5b1ffae29aaf1312; 0x43ad0f739628465c; 0x2c84dcb08db9841f; 0x2dd9f83d2b30865d; 0x207f76b663c0eff7; 0x6afbc4e47e7f56a4; 0x29f9dae8b2b2c06b; 0xb7e45ce8dc5fd5; 0x52834930f2773899; 0x4484e50816119d18; 0x695bac5d8e9a55f4; 0x42f2e41019355fb8; 0x4f5995c632826489; 0x7131ddd0e0e46dd5; 0x6975bdaa7221ae59; 0x43eca46d89a21b91; 0xe8b2f6fdda064fd; 0x75372281ddb3bf71; 0x711171ef0a996875; 0x7b8e9c352ae2c6dd; 0x6fab973e616edf61; 0x6601fe18007ff95e; 0x4c0f0fcccc3ff0f0; 0x19f99ffe0799e1e1; 0x4fc03f3f330f33c0; 0x1e1e1f];
   [0x2574fbe79eabd58b; 0x1e727688bae2e7bf; 0x4e3ed202c97d2b79; 0x5f5a96c4d00bb10d; 0x4a92075e08b74768; 0x55bd7253f197ed5b; 0x1a002f358407b4c2; 0x4afeff435835cd14; 0x7ebeb90d2628ab23; 0x39420820cb883043; 0x1cc5c24fab6d3eda; 0x379c5ceb3efd71c; 0x48ce8b1e17144357; 0x53b3a63d426a08d3; 0x7d755026be28da46; 0x6e757b474006a5f5; 0x146af49f839b17c2; 0x42c091ef5712a41d; 0x57e5980048437b9b; 0x162d8c44979c30b7; 0x119b9ee98860f692; 0x311335624d6edd3d; 0x1138a7aa8c4459c9; 0x2219aea14060fffb; 0xe00de00da733777; 0x5c8c7c1fed1f8b43; 0x5f8243a2a6fbeea2; 0x4fe219fe65596ce5; 0x361c4a748569b7b2; 0x6c737e077c2cd790; 0x6b1d933085cef588; 0x3c6daba09d19bce5; 0x7dcf01c0914a2d9e; 0xf7f3d5cdef2919d; 0x72660587197509f; 0x7977cf274b82471e; 0x3fd8d23e477d3061; 0x526329d764d79e1; 0x57f4ee56ce98d2a9; 0x4bd5948817472c49; 0x52c8504d9fd10d49; 0x42bafacba22c0f13; 0x43e66eb45f1fc612; 0x1826373623e93dbb; 0xaa137cad240e503; 0x16de1e2e859d4989; 0x2fd0e6184fb2e971; 0x2c282ddf63af14dc; 0x7884fe0f988daa36; 0x6c6bc8e8d20d6823; 0x5d45df2a322d6473; 0x55227399770e2c7e; 0x7a5efbaac3297f24; 0x3dd5d0b1ac84f6d4; 0x594d8d4a147da43b; 0x224e3fc49cdac6ad; 0x763904c6ada05b3d; 0xc5a048e4f5d705d; 0x33f0d3c69935ce30; 0x266adc85a6a442e4; 0x6c32330ad61eb427; 0x2e4e0c1165d9bcc6; 0x3e04c0af9d3ada6a; 0x6a265d1a48542d02; 0x4e854e0b0e5649f2; 0x6279892074372d3f; 0x2e8f9b99661b6ae3; 0x20f39beb35515492; 0x3bd6fadd4a838883; 0x70d39aec2c829e5; 0x7fe6fcb0d830e773; 0x4175c1c0c53cb09d; 0x754af07b6836527e; 0x6031cdae1f4b4328; 0x2e49810d9a28ded2; 0x4a74e1e734522b1c; 0x736d0ce776bdd1de; 0x471a88480e29b11f; 0x764e6714f3437e16; 0x6df04a5a67a0d77c; 0x5c91b9eb93d744cd; 0x3f2ae0f479fc5077; 0x72f29bddbce2dff1; 0x7aff31353792134; 0x32ec7a50e523fdc7; 0x362874c207842956; 0x5bf85dac97b0fb0b; 0x642d230854d8bd22; 0xc222976757237d5; 0x7e373e1ea9c2a8b3; 0x17444d80ef5e1eba; 0x574acb3e000db8e3; 0x6ed2b32675e34ed1; 0x68f94c4be108ded9; 0x1bb1861e670a9515; 0x288702d445f8d89; 0x529ae0217e97d968; 0x441affd37515568b; 0x68a0fb43d40f4439; 0x5128384911792af7; 0x1b24ac094f3f0960; 0x2395b0eea30573b7; 0x3c128bf58b23dc00; 0x37c8737af7b47b6c; 0x4dbfbcef33d402eb; 0x5a84c1d97bfa4698; 0x57c27ff5f8055f20; 0x1558945a8bc3b5d8; 0x1ee0cacfd70fc15; 0x112944b37bf1eddb; 0x354e7456b7268234; 0x149017b6f6909304; 0x3530cda324bf9c49; 0x3af7c05cc00b836a; 0x76b04551eb39a738; 0x6342cf0860711dd6; 0x7979a9832b58f071; 0x9d3fa1fa488773f; 0x6ee6e9206c14cb7b; 0x2a1eb3f14b4bf38b; 0x165354e4a343a827; 0x2547e1007d3b09d8; 0x5bd986af30dfc21; 0x7c44a593120dbb7f; 0x2184f17a55f5d281; 0x626aacfe6647f25a; 0x222e24aa814d1099; 0x786dcca755fe5dc6; 0x4dbe8e061d998a3a; 0x60cfe868ef220671; 0x4bad0767a8cf3649; 0x2a32e061952f70da; 0x51988376d01c4c29; 0xab47c3c649119ec; 0x35a015a13b7dfff2; 0x6f1cbea020c6d23f; 0x3f3b4af8b6d03fc6; 0x17e00fecc39d59e2; 0x72fbe37d25bde96c; 0x327c88b1763763c3; 0x1b7461dc8c2a2ff0; 0x7b6982b89a3938f3; 0x1b6db7ab24926303; 0x6defe82deccaac98; 0x506504bdb8ccce94; 0x625b80c6d5235dfa; 0x392714dcceb30b45; 0x1e89713c9340290d; 0x3612014564150d06; 0x509d963caf76f7; 0x2894846f633ca74b; 0x3e2e469890eab3da; 0x481721f66cc0f492; 0x2ef1d3462dd9c20; 0x191852dc5adf695b; 0x72cd15dc6c75116f; 0x4fc587d754039843; 0x57f8652a401d4108; 0x4de1a1bb2f1add2c; 0x53bc5f7584daeed9; 0x6957061dffaf8f74; 0x5537e2bc48c17bc0; 0x2047513fa6d0c3f9; 0x542562839a22afa; 0x798e254f4182a66a; 0x6cd3cff3eeda66e7; 0x6f7d242a8bc9d3e2; 0x14fd1ec0a03dde07; 0x124f005d955c04f6; 0xbbb35c4509ebf55; 0x5dbf6744169f382f; 0x3c5c9000c06bad39; 0x23c2b4b61c897c98; 0x62973c5dff99cdf2; 0x204a346719613b2b; 0x5ba8c6027416bc0e; 0x3445a959cb5b81fe; 0x5393d6be35226282; 0x7f44de899c68bae2; 0x3ddb35a38a6c5fc6; 0x12f169c4de362469; 0x251d72e1766d4775; 0x60f94f74ed622cee; 0x38451aefa25264af; 0x5f8796d88f528587; 0x743d874d8dde9007; 0x699759f43cd3a80f; 0x341c476fa69a69c4; 0x5bd434811832e76e; 0x758fcdc1b62cdf69; 0x38236489d28ad697; 0x39a4aaa981cd4e1a; 0x38cbb62ed249e43e; 0x255b5ca6463c25; 0x556d149902a0d061; 0x43f5932246caa848; 0x595701b21a50885c; 0x8deadc90567eefc; 0x30cdeffd232ef6af; 0x95c31e58f4426d2; 0x3c6cb71af86aede7; 0x1161d6fe69a3e0df; 0x2261a0d06080c4e; 0x249d88bcf153d11d; 0x7d7daf5635d7feb4; 0x6c6f7348a72d223a; 0xb3195f1c07ad911; 0x7c3aca05315f606a; 0x1c11e17ff30b8e24; 0x2f2e92c1618e06b1; 0x60c0910e5785dab9; 0x773c06e5f8b12409; 0x46fa016cdcbecc99; 0x4c1a112253388721; 0x15be219eec9e0ad9; 0x6c4a2e3a5de0c17a; 0x6f34d1336ae8198a; 0x71b82029f4f06eb0; 0x57865f24ad9dce5c; 0x7de9ed560569dc4; 0x30a99e7cfd061acc; 0x1c439c16b4233bc4; 0x7f113134f260242b; 0x4f7daa1085d74a0b; 0x40f9bd63a7067e2; 0x297612e8272f7ef3; 0x68c87203c8f91e5a; 0x786afeea748822f3; 0x7a463e3f2ab7fcbe; 0x13e460b7f8af9784; 0x267a81e00fce3710; 0x1cc280093d2363af; 0x5ac79b7fe7fa1e0a; 0x57f2ecebe0d43b85; 0x67707ddb73d3755d; 0x7ded6fa134ce3e86; 0x45cc65decfd37297; 0x1fa1b4016373442a; 0x3a5247ff3be60f5a; 0x7e1f2bdb6ef213a0; 0x7b168925f8c1a321; 0x726713f33fd3d3e; 0x15d2c90edf5c0c3c; 0x6fe5813317d844ec; 0x1cea67f9ea887c74; 0x7aef7fb729c38f0b; 0x5a539175805e491a; 0x4a89de512b71b301; 0x7f644cd056a51d5f; 0x5f42fa832ce37e85; 0x4a27788fa3b7621d; 0x234d80cb9b8cb3d8; 0x24f8945806d3198b; 0x5406381801e74c2e; 0xe472d100f666ec9; 0x4ec7cc5a6f273d6; 0x502e9906f076eb01; 0x750f85bd68f94fc1; 0xd57ba36a05bfaec; 0x4ecefe0d4a0b788; 0x76617c48a8aa106b; 0x35eca3b702d5622a; 0x428dd22c1385dd3; 0x7106b0562a6360c6; 0x39459001842b07dd; 0x6fbca533626229ba; 0x2715d76bbc70ed7b; 0x5194ea44bcbe624c; 0x77e2bc8b743c566e; 0x45f3883832f6babe; 0x4e0ad1bef17bab5; 0xef9d0d98d5e48c3; 0x20fc9f32d369396b; 0x2b28e1e94b1d239b; 0x51aad5efbfc84b66; 0x61fa52f8d5bbce47; 0x3741d9d26ec9dd4; 0x63345f8f6c8734eb; 0x1386ee9aac4bd67; 0x6ba9f4fa3c899f0d; 0x6eddee8e4aa327cc; 0x533c862f0e31c88b; 0x62797b66f05d1588; 0xdeab77bd0d55437; 0x66203aae86e862ce; 0x18de250afc21aba6; 0x42399fee38e59ec5; 0x5340e87d1c2fa5d9; 0x21bbde9f14becbd4; 0x19001ee42b291a45; 0x2f7b7f98d8aa70bb; 0x5df8fa039811bced; 0x26701a3a90abe6b7; 0x378be0db63d381a9; 0x51d6c3b704edc699; 0x2a6c089ffb2085d6; 0x7402e5c2e67fe094; 0x41ee792f26b4e192; 0x6504897cd2f582be; 0x383ece2af666fe82; 0xbd0056ad830e40f; 0x13219bd9dda44c61; 0x1b382beb479598e3; 0x2933f0c8d122953e; 0x1cb5dc705c3fd83c; 0x3c76ce0b39da7ba9; 0x202f4726e0b9f63e; 0x5ef4aa887e2af32c; 0x63e5e4861d4d6c73; 0x37aa4a9d22fd4371; 0x60a9e22e876a6b91; 0x33a2eeef8007ac1d; 0x4b63d928ab06e00d; 0x666006019fe018b1; 0x3c3f00f000300f00; 0x1819e79e67f819e6; 0x3f3cfc0f3003cf3; 0x1f819e];
   [0x12359ca520db06f7; 0x550a51a730f87de6; 0x37dfa91c1e3500f9; 0x7c4ea62681e89caf; 0x2358c127bd1f95c7; 0x4a9f3471f75f5957; 0x176cee9f5e7574d3; 0x244163ec03588979; 0x5fac5789719663b8; 0x1430f78e94e84d1; 0x6e2ff6a40a1c7d7b; 0x477e65882309ee9f; 0x494d891a506fef52; 0x35cdc8e3d7ed2a81; 0x22a743c672fbc948; 0x3fae892c199f3dc3; 0x7ae28c16e968e42; 0x631a6886a078b3b8; 0x6b9456d8e16ede18; 0x54d99f2f3f45ef9; 0x2a0761136d1a4337; 0x7d54058352c8b6b2; 0x1aabf7d716215cae; 0x240b3b3cc79b9a2d; 0x6b8fa915a53e2e7a; 0x60dbdb237407169d; 0x631b1d90066fa5f4; 0x446282b8eb5843c9; 0x15eb7bd2d3dbf4a1; 0x4ee83c30978f75ae; 0x89378d0588a4925; 0x59ed6f9a882d63f3; 0x3f8f4b766b419700; 0x437d6f29ab22c490; 0x54bf33ca66fb063a; 0x61c19669f7c7fbf7; 0x10dec79e06edc73d; 0x4f34760850a684d7; 0x71bb4e1ec0f1bd19; 0x13900dd62f3b9307; 0x56b1e4e02e1c99e6; 0x1b7980c01e7db533; 0x1caa332a807b5315; 0x15dd0d9297891fa0; 0x6d83cbdeb62ea034; 0x567e21e951fd4566; 0x643096782de4a38f; 0x1ad2cb30c8246705; 0x23f0c695ca870c7c; 0xf104a39fc28a22b; 0x3173ad9d2e15b928; 0x4f8850cee99ea223; 0x1145c8789e3dff4f; 0x67684ff4abc4f87c; 0x5de53c7b2c698907; 0x38761ad2b0bc8279; 0x3c2f83fbb04b7ab7; 0x3ba1fcb047523777; 0x2df6f39bd0895b99; 0x17b5a3dcdef56a77; 0x7d39d9b445b4e16f; 0x52b5e5c9edc29ef3; 0x2ff9de40e48a770b; 0x2e57ce4e73d6ad46; 0x274a203e82941b63; 0x3bbfa821d123cf1e; 0x27f1c3bfa7be1cf8; 0x3999e625217df75f; 0x246cbae8d43c683e; 0x4d1968f69ccf9613; 0x6c4d7b19d70d3f6e; 0x716398ec946e82c0; 0x74c633e36dc77a68; 0x509a586d17721d48; 0x3ac952191b8caf00; 0x35e32aca290d5542; 0x5b9f374f853239eb; 0x6254aa5b34e56915; 0x77eccef7e08abcc; 0x7b910a04905d548c; 0x1aaba95f5ef4ad1f; 0x78c5352936b3a7b4; 0x6776f119e6711a8b; 0x770b01e6f97613e1; 0xaa07d303ba7e998; 0x446ed9b300afaad7; 0x5068735e5eec2ee6; 0x6f0801cd50f2c5dc; 0x1e96e1fcb032c8c5; 0x5054ce960f219aa4; 0x3731bcf0d66e415d; 0x2c964cb7b128663d; 0x67a839a81283c56f; 0x4ddcf2a927d167fe; 0x630d714edaf8b00a; 0x39e59b364ae4800c; 0x1a0ce62ae7dfe67a; 0x6cf30cbbee187bc5; 0x12e383f78626074d; 0x4b13e02a6478afa6; 0x12c2b223eef353a0; 0x4ba227c0d5d0e970; 0x2a5c6ea13c9f60d2; 0x4532b9fc29f393fc; 0x5a5aea3752ccf7a4; 0x108b9266cacfe458; 0xf10d851ec7c32d5; 0x206480b0c064803a; 0x35037316adbf26e2; 0x3ed1d472fad8420f; 0x2e3b546a4bacc155; 0x4c6872f39c3511e7; 0x47b713964a36aaa7; 0x396d2dbbd0a6fc0e; 0x585ff2a680d04600; 0x1de4e0a0678a77df; 0x38db104165500c75; 0x49dae5de735cfc09; 0x64a5cc67ed35a59d; 0x20e06891ad7c1b13; 0x36972b60011fc482; 0x5c57962ea3d91df3; 0x6f3049acb56b6ad6; 0x91cf8f02fb80096; 0x6155c76796509e30; 0x6811e8d43dd0b2d7; 0x1933a101441d5496; 0x5ae8a3e20281cc7b; 0x145a121c9b342327; 0x5bdab39c52275d4e; 0x3aaf1e6ccaa602fc; 0x14011a6e2905a3d5; 0x73c7e4f348a16c96; 0x5a032107ccde0e4f; 0x71de92a41f056362; 0x30eedf23b981186d; 0x7061e9e4c266bd01; 0x317a5f4658cac583; 0x4a07575f8309528; 0x242484859e234f0d; 0x63a2df5bb383bc8f; 0x79ef9f769967e775; 0x28c9a78712d0b8ce; 0x3138e56d96214ce4; 0x5f825d2575e32128; 0x7b4f40f7e5f42f93; 0x4cf86b6bae2a011; 0x5d767b89d33aec3c; 0x2a4b715ef1572825; 0x5b767e27d1dd2b02; 0x13fa99319edf7f69; 0x122a26dfe8bfb832; 0x5f5c3eae709b06d5; 0x4e3c340185d8bb5b; 0xce0bd759dbe2059; 0x7f4e1ffb0724771; 0x4af36bd2e8c2a9dd; 0x775f5a432322b06b; 0x2fa5b577488723b5; 0x3d137edcca5aacba; 0x4d165f9136aaf0b5; 0x5b18361b6dafa010; 0x9a8997e4cb34754; 0x498c293d8e7bb198; 0x7d63211c5824ee47; 0x5d4f82ef690c3460; 0x32ac1223f601aa86; 0x3444bd0c0bf5817d; 0x6efb6c0790e764aa; 0x61db357463956bf9; 0x3da10c3f881ee451; 0x393d28be4ff9a07a; 0x573d7cf3fa752fc8; 0x53b68505a347bf56; 0xd68166704b40098; 0x7255cb83e40b924d; 0x4858ca18cbebc75; 0x59ca8130cb6631fd; 0x5406ccb290215e6a; 0x78a81762d9b20768; 0x5497e31614c57161; 0x35e8a6f3334d9eb1; 0x2d3e1ad90f2b82bb; 0x77d3baf98c61c152; 0x51ccc23b953a57cf; 0x68fdb322a003ebf7; 0x25f21c0598b97db1; 0x6fccdcd87ad006a; 0x7c646864b75d96d9; 0x1de7f1682a8f12c3; 0x3c8941ce3055d1ce; 0x33fe3c4c223ac2e6; 0x51e851250bed262c; 0x2da0dc1c2b5a324b; 0x3ddd309937971816; 0x76354fd995c5b782; 0x22337519ad5b04d4; 0x11a117bdbdaa58ca; 0x74fb0713617e7b5d; 0x621cfcd85e73167c; 0x4acd762122c448a0; 0x7a615799b1ab968b; 0x6f77921de38a173; 0x1f6d3a02ba7be6db; 0x677c622deedf762c; 0x152e494d6881caea; 0x7f8b30b61c02a0e1; 0x388a59a507926e1; 0x60ee1b237c0544c1; 0x24198454c39529f1; 0x31ef076e685976fa; 0x6461a93d636dd4e4; 0x2025ca0f38651a05; 0xf31e33bb426e099; 0x455f2190398542ac; 0x77de67c480fea98d; 0x5d71840ad01b2707; 0x395c30ddf70b689e; 0x128651a0fd5d2cd7; 0x5f5a7722196a3bee; 0x1a00ace4f66e5f9e; 0x35f905beea1844b4; 0xce18e9274c16311; 0x7429ebe05bf93c83; 0x18b2a8d0f873ce74; 0x3ed248603b46b4a1; 0x7d58d287cc3b7d7; 0x26c363b2d5f8044f; 0x37727276a4253e31; 0x1acc0f608f641329; 0x2f9d8245a649b6b1; 0x1037cfb4b0ba157d; 0x533cd2588ae7f636; 0x55ec556991c404e0; 0x4e4b77fc5decc7b; 0x1996ce3feb37319; 0x17f4ffb3c1b5d1c7; 0x17402215b88034ae; 0x232b7823440d80b3; 0x5a4995fb6ee18b98; 0x620e282525384f78; 0x610514a6c9a3d54f; 0x75e4e57bee2416bf; 0x261fbd97b3b7509a; 0x4aa34b5b93e3ac25; 0x1f89f3eea718b30d; 0x544c351f48671273; 0x5271553922d24e9e; 0x66f562a04db3f784; 0x30bd51e9ebf5f2bc; 0x4935a33c864cbd49; 0x7613ac24b660c9d2; 0x10470b7ebc1c5e7b; 0x552be20b3a17a251; 0x451edfc8e21b3b38; 0x3b431bf630837f56; 0x10b37d01ff8e45fb; 0x380659c7de70af2a; 0x531b4147e3501b3c; 0x18026ce4659c962b; 0x45d297895a871c4a; 0x1902e12744dd5e18; 0x36f17e4491f69bf2; 0x1131f28f7a1901f9; 0x414df697f60b7b97; 0x1cc89fabe9af918b; 0x6f1a10a77424d1b5; 0x6ab16a6e78b36dde; 0x186cdcd2696652fe; 0x26661fa57d017190; 0x38142cdd74260006; 0x4d3b45e37fafbee5; 0x4c665ce3dbd28214; 0x5276de728d278dbf; 0x1bc5f8fe1339feea; 0x26e490723bbc4de7; 0x2d95fb24b4b739c6; 0x3459154ab7f5fa7a; 0x4e6036af12c7880f; 0x5d8bc43ea5c6e11e; 0x31a88359b574ae12; 0x6fe50566f6fa87d6; 0x4ec596cdd497bcdf; 0x548679a2e79099a5; 0x68c7441028adcfe5; 0x770a6855ee7708a1; 0x4cbc58f44f2c4a8c; 0x105270766808b966; 0x33204a3752dd208; 0x67e2cdd9364d478a; 0x5b09ed285ab45311; 0x6bac73975a8fbb40; 0x686ec93d490ba8ad; 0x6e5e9d14bf3b11b1; 0x5cf9ea142822cf2c; 0x3bdd3d4b2fe2ac15; 0x5d343d7293a8f3a0; 0x42fc2221cd21d49f; 0x5a0409ae36658e6b; 0x5ecd854dbc697232; 0x459d90fdab85c221; 0x715d8639a098dc3c; 0x134cfeec40900d61; 0xf5dfeefe93133cb; 0x5ba3c7fa290cd6c; 0x14b10e3a833ed5fd; 0x415a48fe12852a00; 0x7acf7d550b6b248e; 0x1dfd9a192cb99520; 0x7d34adfeb1eb998d; 0x2726ee87d27cf28f; 0x23b95d517ca35fd6; 0x34b92489c63b1954; 0x6078666199fe07a0; 0x7c3fcffff330ffc0; 0x7f98066666181e19; 0x73ccf0f0c3ffcc33; 0x60199];
   [0x166b110a0569336b; 0x14fb3df6e89ba893; 0x76c27e667f1fcad0; 0x4f728471884fe888; 0x5d9b1eac7113d5f4; 0x768267f05aa6369f; 0x4a8597b43d42ceb3; 0x3e5f14758a23e577; 0x1b9802ef41f5eafc; 0x72f5c77f08f8cca4; 0x15a1972358105b11; 0x77b7b7826c70aa4f; 0x173f142de0b3181f; 0x286b789ee4cc00ed; 0x2de01c351b63d83a; 0x5f0bf17c6bd7801c; 0x6d281663dfd917cc; 0x1430153c6a8b3666; 0x1d64a47fb52b69d1; 0x63a9ca219cc02e04; 0x5e828bafc48d4be0; 0x27d2ab5961f108ca; 0x5762e6bdc214c0da; 0x766ecc0dd1f207ca; 0x540414b86e8d4104; 0x4185f7fb3e59c86f; 0x3574107fb717ef7a; 0x4a565dbf037c17df; 0x365296cbf19c6fff; 0x6e4caff9ced69da3; 0x397dfb1be18a3afc; 0x24c9922d6fd0e4f9; 0x5ca9f6cf1df58f31; 0x4cbe48b0f90de0ee; 0x4e171def4255c5a3; 0x3801dcf324a41fe6; 0x6ea320e500f35c84; 0x52aaee233efb63c9; 0x761228066a712c6e; 0x2af2fa9f8778d270; 0x49ce4fe5970a32e5; 0x6f0d3910c3cc358c; 0x3a22d04ad0e05c1d; 0x31ece3b83c92f70d; 0x444f3df9124d2276; 0x6e3901bb1421416e; 0x31011148db37a976; 0x55bf6b6c9b914b1e; 0x28deeb94a02a2ddc; 0x630bb88b93863bc9; 0x47af779c2faa17a1; 0x4d0c148668b6c5b7; 0x28c4186bfb618c43; 0x76bf5bf48979b1ed; 0x53eac29aa2d6ffc5; 0x403db868b81d8800; 0x44e01aee6cd075fd; 0x15bdfa200f4071b2; 0x59404e96944c8bb3; 0x5e64a9b832515a0d; 0x7246d264833997; 0x5fbd6d691ae7f07; 0x46af65939a8142b2; 0x5ef9ab4e4e4a8b6f; 0x630826286e1055f8; 0x67d651e393a939b8; 0x6b86e60e01149492; 0x7b92400d1744cbba; 0x19f22799e4e81de7; 0x1c3945b09bde484f; 0x4e70802f0cec24f2; 0x7094b883a9b998b0; 0x62231d5f03ae6d3; 0x413af6d6a2e5b71c; 0x51f6496bbd062ece; 0x7827aae4f0eaf6d4; 0x6fb558f1e79d83bd; 0x6b0dc73297f1d7f3; 0x363af944abb42800; 0x71d7f78c5b0b17b1; 0x2941ae8454dfd32f; 0x244ca17f86481b7a; 0x4a66f5922ea93a92; 0x74879b9bccb596fa; 0x4043bd2085c6ea85; 0x318b69e05c4ab3f5; 0x6475be08843fa67a; 0x7dd9162fc4e2af37; 0x73b1007397a487f5; 0x1f318bcdcf992df1; 0x5365faf656cbc9dc; 0x6c6e6a794e958c81; 0x6929950babdd6e04; 0x31de61a2c1cec292; 0x2d9b9939ee3e5982; 0x72a4a950bd3d9934; 0x15cea5c66817fed7; 0x397ec3861da3a8ac; 0xd68d70ece7d59fb; 0x475956e2cda8be88; 0x21ef1a32c234a982; 0xa879a25d0792e58; 0x7dbcb5118d4fce93; 0x5a680aee8a8c270b; 0x746f72af8e9d729c; 0x342b8cb37791c09a; 0x13f415fb1f40e971; 0x3a2045f31cb7a7ca; 0x291fde8173e0f9a3; 0x204a1c33554957d7; 0x2d9abce492f4bef3; 0x579e22ce8b4859f7; 0x5e9a2e44890b100a; 0x166782b17f50ef75; 0x4810365502aa21c8; 0x280df8de8d13cb31; 0x6ba3d8048fb08e63; 0x2c7c2c9a919787e3; 0x2fe86d7f61015a9e; 0x7e3149b95b6a20f9; 0x7e1251b68dff3912; 0xf36ad7d1fe9e0df; 0x3b9253d6cbe0d157; 0x5c45c295729e3e97; 0x38303829426faf4d; 0x7a43bd0bda9bf91c; 0x31a48100915a3b22; 0xa977ba83e536524; 0x74bff15f15c9b431; 0x51fd7c19d3b494d3; 0x7a4266b7205fc52e; 0x1be3fec8c184dd5; 0x1dd715043ac54499; 0x57ac9d2339fca44f; 0x199b6956ce620c68; 0x30afec4a2aa15cd6; 0x30b7f4ec56245b2d; 0x25d1725d7c8abb96; 0x24fb197b85c9e313; 0x6f0954af6757f619; 0x2d028b663c940494; 0x62ff1055c7fdaecf; 0x615221921cbdb913; 0x47c175d0b2ee9ad1; 0x62cd419b28529184; 0x337afc1d3d5e75f8; 0x6b4ffd2642f6f9bf; 0x712d7895ea8428c4; 0x32b2f812f4ad71f5; 0x52a07cbfb8140e4b; 0x4c1d5cb8f1af5114; 0x623c8a1916eea620; 0x2be46872d1fac91b; 0x6e66008b91ef15eb; 0x688d517c896f2f96; 0x4ac3d76e7198853f; 0x4461f401d0bd046d; 0x7c71261487385926; 0x6011df7bad9b7262; 0x1f90dc2f1e615a08; 0x3508b132a883345e; 0x72d7c169ea5b2d97; 0x7c359b3b9ce4821b; 0x74996f267179f57a; 0x37d77638a464bf0d; 0x7f48bdc51b25a297; 0x693e55487c8b1f29; 0xe99cde1cf186706; 0x5215ed5f722a6f4; 0x20e6d3fba7a7cf03; 0x21fb8fe23f54e6d9; 0x329221d456d13d60; 0x3a90553f73971a7f; 0x58f7ce451bf0d42; 0x18f787a38f93e6d1; 0x7577bec073324ece; 0x525ff1801c6599b3; 0x3a8562ea6aee7ab8; 0x600fae97e2e79dfd; 0xc31ac1f4b8d0377; 0x48fe8e0a24dc4872; 0x22517060e937f31a; 0x5050b4421e965fee; 0x33e6ac4658de9bbc; 0x47f9ec2360d39684; 0x767df7904d22dcea; 0x41f079301e4a5822; 0x1397b31e88f91e5; 0x211d555f21d3dcae; 0x4a9d577cc18787aa; 0x142580b3b6a1e97a; 0xbe0c8cd14467850; 0x7234e1bd8779a95c; 0x488156dc07f47858; 0x68938130fd1ab342; 0x4227f58482cd0b41; 0x4df4f86ef6437578; 0x573012ee76a375d2; 0x6ed2b1a083601ff4; 0x6da33c56ea751c40; 0x7c13d3b0f35cb0b4; 0x2894ffd354810548; 0x4afc5a6a537c4c19; 0x2249ae3332124eec; 0x5b248ef885c93ad8; 0x7bfcfdbed5276a61; 0x3c620b2821a54603; 0x4ffbd04adb1e0dd; 0x49ab901a9992da20; 0x6d222bf66633b1ae; 0x3236091d76d0a4f4; 0x4b136b18bb70c9ed; 0x35b5d5fbb19bbc17; 0x26a5f5f9b47a6304; 0xdb928e5e6caf5fa; 0x1544c4c96246d7c5; 0x1cee7f30e3c98324; 0x6469ef83ca73250f; 0x564dc18260c6115d; 0x21d35555dd80db7a; 0x4f9142587d8f64bc; 0x42034868286b2850; 0x90cc53f63fb048c; 0xee1d35c48f42f43; 0x7bf10c1b57e0438a; 0x60a8b821750cc8ca; 0x3243143236dbd812; 0x21dc3c24f7c4767b; 0x2c31532bde1379b7; 0x514554e68503651c; 0x37fc5d7d4dd37f58; 0x785776372a022f9c; 0xcd8991eb81b7ad8; 0x2d4980b863e45f3d; 0x65d91941ae2830f8; 0xdee137fb505c05b; 0x692e803fee4695a2; 0x55efba24e7a3d29f; 0x8070001a1c12ac3; 0x1144fd8f1a971b71; 0x7e7676de2b975beb; 0x10d00daadf753d0e; 0x6969ee1fbfb42fa2; 0x1958625986883996; 0x6734324a4a3ffce9; 0x7bc0f02fd6d51ab0; 0x5cfa41f3b694fdf7; 0x79aa8e034b8c913d; 0x5a8c500d170b4724; 0x1685249661a50d37; 0x927ca9b331fd0cf; 0x6480652c4b81b183; 0x401aa50d1725dfd0; 0x31fc7a6c84bc558b; 0x9888cfae1c5a6e5; 0x56e957f1fbaebb7b; 0x4363e4b2fe55ffac; 0x5547371af5346d2e; 0x5b6004c9a31c6191; 0x366f5cd4d9033579; 0x7d4bea6909e3d58f; 0x4f8278ec8715e587; 0x1ee23c6d7f337bd0; 0x77289471a9d05716; 0x1879079e93a75435; 0x1f5724b5fa03a152; 0x6078553e3b8ed305; 0x32d9046ea09bcd6f; 0x1d32637908d99211; 0x2f456590ef856238; 0xb4a230988f5e14f; 0x669d27b984c17796; 0x22a83053a3f340b5; 0x76a429e2e9d5b437; 0x295b3bae336eccda; 0x5743bca6ccbc09d3; 0x7eb9aaa9eeb41726; 0x41886edc1e429e3; 0x7fdada88b7f86765; 0x304fe9e0fabac7ff; 0x4764fa17da653932; 0x6f304bdd86406d60; 0x1d0169436f677128; 0x496ac66b9ab53b92; 0xfbb635f057290ae; 0x22990395d4fa5a45; 0x20706816791edbfd; 0x8db9e557e0d720f; 0x468086a63b653be3; 0x7701716114f95cc6; 0x7bcf2a73a0156c30; 0x4b3185319acaf59a; 0x36e701e2f0ad22f5; 0x4c230ebc9a0fe664; 0x5a985e12ba57822; 0x35d35554a6733a58; 0x6d01f85fcc150744; 0x7c1d6cef010fcf69; 0x12ac3610ae8c25e2; 0x1eb44179befe8bda; 0x3c5ad893f0074157; 0x4318126678b1ac06; 0x7686eb30d1152118; 0x436dfe8b44775a1c; 0x290b46e3dab1acd5; 0x7a706a4474f25529; 0x1d49db393e081cb1; 0x5a0bd663c37a8392; 0x650ee94db3e86529; 0x5374199e527d27c8; 0x4619be8e4329eb48; 0x73bb038e4b010a63; 0x2bc59c86617a78; 0x799fe19819ffefd; 0x4ccfcc3cc030fffc; 0x7fe618600667807; 0x40ff0cff3cfcc03f; 0x187807];
   [0x3bc023059883e188; 0x429c6f0d7642238f; 0x189636d75e935fae; 0x5cbb4bdee306c0a7; 0x5d08dc42fb43f654; 0x611e7d84e63d9476; 0x7f162d332069faff; 0x7867a35bae771a37; 0x686723bf9129a8e; 0x4c2b725b2f562431; 0x6c30c3307b1761e3; 0x65e8a7b426b7bbd3; 0x8cbed5ee9af1e69; 0x3f029cf0e19f10; 0x1b24b7b5c2017706; 0x3f79d302ae24b89c; 0x3623bebc6fef1dd6; 0x12e66e40374d96c3; 0x75ecfb7c66a5a7cb; 0x6cd422d946a775df; 0x3fe062a2bd34ab70; 0x39c9879cbb63900a; 0x2378109d761211b3; 0x5dc91f03dcdebae2; 0x856fee4ce5e73dc; 0x6ba17ebfe1fa7826; 0x727718d28f8bad6d; 0x25957b3e52fc7ade; 0x40e43985004c566f; 0x6ff2462864b3ea56; 0xd741c7cc51826c1; 0x19dd8eadf04436c7; 0x28ae7e860ac36b82; 0x47e5a3c6c1539c; 0x162123df013f098f; 0x702e37b75ce8a152; 0x7bccc57ab1077562; 0x35355c4e1067eea3; 0x668503f31661e260; 0x1d330ddc4229b89; 0x18357f98549a0bcd; 0x5e13e36b063d5410; 0x6f8b79cd2281be8; 0x43f133b242e2befd; 0x53a49bbf9e308172; 0x356986aa3e788006; 0x53dff7202c98d8cd; 0x5ebf3dfbdc6697af; 0x2134902152e176f6; 0x2d6d53c12a264244; 0x78941b50a69968f4; 0x5f0d6d97aa5b6ee5; 0x400bea473b05714a; 0x3c8ab6c25bed1109; 0x178d2d1fbe6c47cc; 0x71846b40cbcd7055; 0x4f6cd54241b4fe6c; 0x797332b42e253012; 0x58e632d1f7006260; 0x4fe2ed77c1f96588; 0x6ba3be1e795c7b7e; 0x1e0cab314617cd4e; 0x25c6c21bc9926e4f; 0x2e96357664f9c862; 0x68028cc4678dc2d2; 0x638d33e3de373e6b; 0x3ef1e3172e20ecab; 0x62c02a31654123e1; 0x77910f35be95eafc; 0x575d9ece9272f29a; 0x3fb300f6fbd6d425; 0x114ead74ba40631f; 0x53c4c6d646d1220c; 0x5fdbd0aa3c1a830b; 0x343ac1a763f14763; 0x69d2a9fbeea5a6b1; 0x24e00b32a4d65488; 0x43e2a2163e0d9e0c; 0x4d3e79f9304e5948; 0x23ab6ecad224dc72; 0x421a3c27b68617d8; 0x187d85bb42906e31; 0xf67d60b7e768d1c; 0x108a495c43d6228; 0x64d25bd6b64042a4; 0x2614c750f00359a4; 0x1955e9b42be0d666; 0x12b0c7c8758dd8dc; 0x6d5d27456468e0e8; 0x58386213c83472ba; 0x1094ef8c1270c1b9; 0x5cb11c2fe4280574; 0x9cde6882431fdf1; 0x2db4e2f067a512d1; 0x2fa5ce710c30ee95; 0x126a6e382f022d41; 0x546ce88ff02798d5; 0x60f39d019c08909e; 0x61d2b9e1ed2a8e7e; 0x6a00123be704cfc6; 0x43131d5d4878bdd4; 0x2abc8764ca0b8ebb; 0x416d3474e87ccdd5; 0xd16582f6757527d; 0x4a78a91dfa4236c4; 0x74f4e7931f3f9412; 0x1567bd5397155fa8; 0x4519431bac194171; 0x46d44ebd0c47cc03; 0x7816c2bd2663942e; 0x8bf0c00c0733b82; 0x67b329f08f196419; 0x20e777651569c97b; 0x390d866d12aeda4c; 0x1b35ee0bc1f50119; 0x4c08871781d268e8; 0x69058b531063fd64; 0x6cbeda2508ed9d0a; 0x7575aa33629a82b3; 0x386f8a72b0656115; 0x7984f0c093a4d9a5; 0x1c4b1bd0e7818d26; 0x243836e692efe86; 0x1a70ab1a9ad0e147; 0xeea3f9994f53112; 0x4204a52de7f7358e; 0x97201d5c0f02746; 0xdf6e5d79eba1079; 0x7656e1d6649c9554; 0x42cb825de410c2c1; 0x101c2c7c8c9e3211; 0x446cef51ccc778b8; 0x4d1208c1984c1eb8; 0x7b4998f31ebb4644; 0x62dfd6b6781d5444; 0x5d834d9599429434; 0x15598a62158ec3c0; 0x696bf3285e8cca53; 0x13d47615d81b5f57; 0x5ea09f2a6b293726; 0x60ea6e0c4e803185; 0x1949ef52d93a3e3; 0x5f9fcb8a62669193; 0x1b2be435eb7fbfaa; 0x45c4238c9afddc0e; 0x31a202e3823c4b68; 0x60c15fd9ada29ea6; 0x7abda5f3223e2b81; 0x19d4b1efc38bb7ad; 0x379cb83b9bd5b839; 0x5a0116b9c12d04cf; 0x4554e7bc42b31afa; 0x17a7c4e9877187ab; 0x18310d14936cab16; 0x7d4157b00bcc199a; 0x20ff9bdcce7c388a; 0x1007c005de3d56a9; 0x2b08e0cb967c86ac; 0x5eb9d3112ca76cd9; 0x1aee3a5a61a4bbd; 0x50c6d52e6cc85338; 0x7430117171beeded; 0x227a0e7b089d589d; 0x28f8a6973ddf9261; 0xded5f8dbaf99f94; 0x4ea3f0b27c79be82; 0x256200aaa3131bdb; 0x4903bc9731517b7c; 0x5ce24ae47980296f; 0x4441c0e5621f0360; 0x1bac99a0d3e56889; 0x78afc211065a900c; 0x1bb9a9af5a64a7c9; 0xc5e63e46a1bf938; 0x58a0b4d756def4c1; 0x4e5c70264b24334f; 0x417835049f14f22f; 0x7f0e17ddb6ce117d; 0x140e4dbb88e68001; 0x1c53cabdf08df3ed; 0x6c0f70bb73d75ac0; 0x25ae8a2957cb604c; 0x2edbc80c7e709dd4; 0x2ec9b87ec4de176c; 0x443f884780e6ade3; 0x65c0d11064c2adcd; 0x5d6a02c5aa98511; 0x3600bcbac94acdb; 0x10faca27510d16b5; 0x1793270f8b0f64bb; 0x6122912a301de773; 0x38dce38988a0e32e; 0x48ad5d7fef9abd21; 0x4630ea137eac64f9; 0x3426b86a8e13aabf; 0xca9761cb5bf269; 0x1db168a7d821f6a2; 0x3a24b0d764430b67; 0x6eea24882200d810; 0x7b944712a2ca8667; 0x75f738c9f2f91752; 0x3befc909b397ec5a; 0x7b19f798714bf504; 0x181a4fa5d672eebc; 0x7a11680d66b5b80e; 0x70029c1955fc8e5f; 0x24a92cdfe0a9bd32; 0x4324ae02b627b68e; 0x5c8838d0a393fc6f; 0x5b2da8f88988272a; 0x476423e8c5a53da; 0x52f590b4b037e9b3; 0x303a2616de5fc1e9; 0x22c05710924ae2b9; 0x643f244af07b371e; 0x75e5a7ec9b372a3b; 0x3b0b9b1ede902501; 0x453ad0f347ac76bc; 0x594d69737e3fd0eb; 0x23aadd3616e8644e; 0x1bdd48df36fcaf45; 0x4a180ebed69a74ff; 0x34253fa5b1295bad; 0x7dd0f22bf1442a8b; 0x9fdb1d25f45c25d; 0x4400a89630ae5e82; 0x10378f775c0a68ad; 0x23ce07b89efb04ce; 0x4486644617cf0bf2; 0x30f7fdedf776899e; 0x61e5d8095d4845e0; 0xa0e2ac6ec2de1f9; 0x2803849789ad627e; 0x3081359053d62eee; 0x7849e5d736e60a7e; 0x474e819f07932242; 0x7c7c2fe7e8fbebed; 0x2864e5ca1bdefed5; 0x1adcf0558156b7c8; 0x7aabed9fef6ea413; 0x28af9ca34373395; 0x2488378db08260; 0x31996a4818302df9; 0x6a7e450dac9c885; 0x28823ad7eb6ff03f; 0x44b8d5ac8aaae497; 0x79ce09536ed64bc9; 0x5b39befbd2927a1; 0x7f2ea74c23f6d4ce; 0x779c0fd1a13c8000; 0x2be871512c2e27a5; 0x118b98ba29e17405; 0x5c94ccb61b2479d9; 0x48d21842a567cbda; 0x466be078688a759d; 0x885df9a8e282768; 0x3e30c38b424849e7; 0x703d324603234352; 0x9351fae3877dd7c; 0x14bea74dd2595630; 0x3b51dac3b7022373; 0x496df44ecb4a1ff4; 0x152323e36076185c; 0x78730eecccd2aa92; 0x5c256a7e4a9206cc; 0x95d70122754e104; 0x4e1f3deb693fe722; 0x6f3755637ae4232b; 0x4abea809bb09e7d7; 0x703d9093befc29f0; 0x73fe48bf0784e8ee; 0xa93194242eb4ef2; 0x3e2dd4aeeb56114e; 0xef9d0f9a2221a12; 0x5e610c1e09ee560e; 0x60643303308248d0; 0x5f49185b49b4bd4e; 0x6ece64276d1d32b1; 0x1a3bde65076f0b02; 0x51f0fec9d61da281; 0x209f32583d26f4be; 0x53e813e3cea9bce; 0x51ef4de6972b317c; 0x57bd8e9545ed5b35; 0x5fc4e4c4b943f99d; 0x19a9f37d1e9a9933; 0x476b0b6dba362452; 0x198a8721bccad068; 0x1df58bb51f98a48d; 0x2685047e993bf0e7; 0x6afb915ad6fdd43d; 0x5d4d4aecab2c1c58; 0x5ee93f279aa4c18d; 0x69929909576e8dbd; 0x753b5310bca13c1c; 0xb23c2c39ebd6d7f; 0x2ec67a0ab55ef5f1; 0x1215ecde8c247a93; 0x62c5ba7a4b3082ae; 0x7b2df0baacaeb1e0; 0x5b4fc758cc04d020; 0x4585959e28a9f78a; 0x1841dfa2ae34041e; 0x36bdb33bd3e88dae; 0xcfaaa8eb83b273f; 0x48d13ff43c9fa993; 0x33572441c629556a; 0x1c379c493eb0b451; 0x18ed04aa57920d9; 0x167d58390bd6363e; 0x2ee4b662d75e25af; 0x950dff505f18168; 0x6cfe609f2244ce37; 0x667ff9fe6019908; 0xfc3cc033c3f00c0; 0x1e07861e06067e78; 0x3f0f033cc030c0fc; 0x199e00];
   [0x271b5995d8573805; 0x56416d50dfe685b4; 0x3359fba93594ee96; 0x3959f08e2413bbb6; 0x77449118d3eac39f; 0x349347d3d3b9dda1; 0x54bd7e1476e0d416; 0x37b2979075c3036a; 0x705e133c45afb639; 0x4488d139c18b4a1b; 0x23a1225b8ab6da8b; 0x714d59a155470e03; 0x72ad1b93d1acaf4c; 0x3bc867da223135d2; 0x1644b9f6c6d6103d; 0x129bba3c3a7e9580; 0x2ee0b5e2cf95ab7c; 0x7112e527b2ed8f; 0x57032ca5066fc93e; 0x4dc24ccb782f0e7c; 0x4b8ef8cd10e29bf9; 0x1c2206c9872e1146; 0x2b8d3960a7769fe7; 0x598bddb74348539d; 0xfcb97ba51030c6a; 0x6d3412777283eac2; 0x2c206cbb482fd51b; 0x230316e667e495b5; 0xfdabd7951938ab4; 0x5044c33908fffad0; 0x262d3247993993d; 0x4ab3a00333c1a738; 0x10c1ef4fc5bd87fa; 0x6bdd6334b597f16b; 0x3e3c56f90af9dfd9; 0x1c9cae01a8e4610d; 0x7b21e418ebd86a3b; 0x2a9122e1c939b9f0; 0xa164edbcca58fba; 0x76c15c48d9b16585; 0x625b4249b88d1e1b; 0x235cda638bbb573e; 0x3535a4ebe6785265; 0x1007442c0001f1fd; 0x39343bb098f80424; 0x75dcd02cdb4f8439; 0x4a36acd073c4b6bc; 0x612c233a03da91f8; 0x26c7e4783c5fa106; 0x6ce06a3464b95fac; 0x2dc40032a5644ba7; 0x5188b6746019dd57; 0x2001f7862cd581f3; 0x721bd2cf551110e3; 0x427905ae3588cda1; 0x49e231ce4c47b3ed; 0x5412b8d91992e95e; 0x25dde1d655631ed4; 0x265606dacd50732d; 0x7cb01be012099245; 0x1f663ebcea91d331; 0x5ee31464bdf2ffe5; 0x1300ce0be3a7bf6e; 0x376ebad2ceb8ea2f; 0x7c2481d6a1bb10c1; 0x48661a5066c26ad1; 0x3480a84ecc2fd109; 0xcb3e55f72db6675; 0x77b7d27da114574c; 0x601d6b72962900a5; 0x725996f332e3df7f; 0x3c81b62c2592517c; 0x5e83853a6f2fe345; 0x6b82295044664d06; 0x5bd05d64357c1e71; 0x70f6b99ac38f2cb; 0x57994f4070e05c51; 0x5a91fb1969a19f87; 0x240478b8f4be7f64; 0x2a73486c68fe6471; 0x62440a0261bac0e0; 0x5cca1038d3a9fc72; 0x1d432b502f08a29f; 0x4587a523d1d47788; 0x7df9d285f2d76f6a; 0x62f007dd01b49a6; 0x45fac2c512f86f67; 0x73aa4a943889943a; 0x45876c35537852f5; 0x73050c99790ab54e; 0x658321a0b05b5df3; 0x1ef12f64b4f1cbe5; 0x3ae99f8db2e38c80; 0x3798dea26f4a5882; 0x57cb2d85db01086e; 0x6c78bf60f7a5394a; 0xbc74760ab236389; 0x510fb97c8ba9b510; 0x7f385ae3d2344e3d; 0x62b71b26102dd63e; 0x74ca51304cc07cb8; 0x649ecffa7b4dff6; 0x1659ab8e29c793; 0x19b6a8354659ac42; 0x3d41624eef75fc35; 0x3ae56dfa7bbf5c4b; 0x74ce9ecb17595f2c; 0x166cc55a75f8e9c3; 0x177b5a23e2fbeb98; 0xd7b180e1b72f9f; 0x59a6cab9e27518a0; 0x690f81c07de4c1a5; 0x53a1cd3ad9a0079a; 0x720625477459edb5; 0x47a1d7446ad5b4c9; 0x793ea276a1009b40; 0x5fba5f9a9e82ad78; 0x5051f85d32471a77; 0x7d977894be83093; 0x51a9383acbac26b8; 0x3496183022ed165d; 0x32a12ed55be40204; 0x2e2d2057436574; 0x31ca64a305c7e2b6; 0x5a8d4914ac2a45e9; 0x2d1307731b9f81a8; 0x6a04d4689fdc398a; 0x50cf97448db5523f; 0x72d81124b86c0bed; 0x370f11e84232e3dd; 0x671e93e5b086896c; 0x5d78938ab4b5ee07; 0x1ac8b2b06e32754d; 0x19746bbbc29abf4c; 0x285fa7ab322ea111; 0x320cac25713518c7; 0x3f4860fac39df1ea; 0x1bac47cda4af0742; 0x327cc9e33c14d9be; 0x491c3903cee1fac3; 0x18e5363f53dbb3bc; 0x71a37d19417a1180; 0x75faaf3721c91b81; 0x5ccc0fa412a49476; 0x3be64891074aed33; 0x39e57c422fb3aaf0; 0x6deab5480d6154cc; 0x25d8d1621999ecd8; 0x1ed33a760c1a609f; 0x51a57a721bdd1036; 0x59edc7482d675f04; 0x591e1486eab3e0; 0x7eb6b6c9677eb612; 0x54e9d522e15b10b; 0x6fb368aeb117a21f; 0x749663eb9950da6d; 0x7221f5feac071cf8; 0x33bc82f292a6e911; 0x1aec6e4a555b2cfb; 0x601446f054c666e9; 0x200b1a5a0124331e; 0x63d7deadbb4b6ec9; 0x48468eaf196808df; 0x47a69c86ac1cac8f; 0x213b5f6a06c0d453; 0x4d74b72d06d2dbec; 0x39a3656d828f5f53; 0x58637f54a2a00ce3; 0x72012b088e68891d; 0x2ad56d12d36ed348; 0xd4d2eba27446b9d; 0x7aa62b8c5ec134c5; 0x1f4648972b21375a; 0x2423620b0282e04f; 0x2a1941b2b95f9af7; 0x1bfe9f875b6c259f; 0x754a729ee69af85c; 0x5ec3415fdb176954; 0x78c12d3166388ef0; 0x1d2ce3a5c51c765f; 0x1654209426a80647; 0x43e8586ff94a8147; 0x209d5d7ee87eee97; 0x27ae3c9496b1b031; 0x5b697c95fd9acd10; 0x54ce3f506daf832d; 0x1fd151af02c8f62; 0x133d878f586a17d0; 0x3972ea0e0eb85b8b; 0x7c5f6b531bd2a3d8; 0x3c5d218f31a12921; 0x7984172df3d3a3aa; 0x2860282432f4627f; 0x4cc941ff4fbe4ab2; 0x3d87d81fda1bee42; 0x5f8a396f0f7acacb; 0x19ed8f94871d728c; 0x3afacc0b24ffee99; 0x2a22cd611c80b220; 0x68a88be8f22136d3; 0x1d70d2d5eac6c5d4; 0x2248be0648d3cf74; 0x5121481f6ae7be2b; 0x5671985af79086d8; 0x2c72259da3bb8790; 0x6a842b6ff660c2d8; 0x20f9db0f871556ec; 0x1cf0d5bd2ae13e5b; 0x138e39f7fd52ea6b; 0x3f7e9767f7833ecb; 0x1eca6248d4eb7975; 0x7a5aaa9975024232; 0x2161522267e22b23; 0x4a2e167074e4fece; 0x1fa7b37ed9590c9b; 0x7e3898806a74c62c; 0xa07e2f7f17114c6; 0x7684cca93d85e68e; 0x2831e707e35aeffd; 0x3bb42e5ea284e799; 0x22f70f5493c8bf3d; 0x45e63cee6ff7ea35; 0x1937ba6d86dfe10; 0x4f2893d08cced2fc; 0x36d8b4960450e423; 0x188929af4686ec0d; 0x3f04977510b8fa8a; 0x3986051442e0e6b; 0x5dd9a81d5850a86; 0x5e4bb3a24012874d; 0x5cb9b0f83d12117a; 0x37f3f9614d6b756; 0x6cc19e5a6e9c1a00; 0x7cee1e85e7598562; 0x20bc3599a1b61afa; 0x43848b8c69779c3e; 0x3e9ef3decf266a6c; 0x7795d893ff935bd7; 0x6fa7ecfe8a4228f8; 0xe699a042d437287; 0x20a477642929efa3; 0x7a28c8588bab66fb; 0x593fff5b0a6b30dc; 0x2467a22ed4695bc9; 0x53b1030bcc6bd28; 0x148ee87aced1de1a; 0x6c58993095ba48f4; 0x42ba73a9e51e27a5; 0x15c893491505bda; 0x67d02bec513702c2; 0x7d6de4ce9db8f4a9; 0x45970a4aa4a5916c; 0x179abe4992059778; 0x21cac53325bd67ce; 0xbd100f4708c1893; 0x6ec5e0dd12fdb936; 0x111be8bb096f6eb7; 0x90baa92c9c63e41; 0x7de2bf3ddf95c612; 0x60cdb29c7cc1e42d; 0x51bb8d0b9571a54c; 0x2af3e15de6999ea9; 0x31c3630f9f5ea5e4; 0x413798e13ce9d239; 0x5fc37d01e4c9d109; 0x7871198503ad6640; 0x261b8b86b108788c; 0x202978b4eeceb803; 0x72b4564444ba806c; 0x2b045f7e79ccef6c; 0x1b9ca0f460adbbc0; 0x60d8fce9e435fba; 0x2ff1ce760e0bf07f; 0x17b3eaa9352bf9dc; 0x4ab9216b7ecbbbb5; 0x593f6086f67cab8; 0x20d6d0c900bab160; 0x56bf48d4fa3eaec0; 0x1de60fd85ca3e371; 0x3d0fd562cb4fba51; 0x63cef0f7924e4f63; 0x35f090532b351ef2; 0x35e39547ae9f1572; 0x16f70dc7d3881618; 0x245ce9392d9785f4; 0x1199dba1575f187d; 0x684c8454a4be047d; 0x2309be5f93749a61; 0x23b827a8e3a0ca6e; 0x1b053d66e5616fbe; 0x3317970d52bda815; 0x2a50450a635f77e0; 0x3470f6d1ae2fbefc; 0x2fba7100ab2ddf4b; 0x6f96e94a14e6b073; 0x6a0f9afaf6090e27; 0x102f2f912a816453; 0x590c5a11d52e5cb2; 0x46eea5cb5f8c6a27; 0x4ab0dc4a2ee5ebf9; 0xf97b604808ddf0a; 0x5c9e30091417a9cc; 0xafe1e9958b42168; 0x2377488e2e0d0eb0; 0x4f0cdcc04b016f60; 0x5b79d5ae7d613c54; 0x120667ba35b94f8a; 0x5f7cb2a943dcd169; 0x188988289491de5; 0x46fe109a6e90fbec; 0x2353a8df2d727a9; 0x6e20060a9715eb2; 0x54559ef348f01399; 0x798078619ffe7e2f; 0x730c3030fff300ff; 0x199986781e061f9; 0x7f300cc0030ff0f0; 0x7879f];
   [0x2c4771946adbe7; 0x6cbc89ab2da2451b; 0x5708312eb619065e; 0x48ddd5ede0531915; 0x3c2a6af18a448129; 0x7948314e219c7913; 0x1bafd51acc7b42af; 0x2f6eab1eb69197df; 0x4acf2fde1dfc87a7; 0x6a149b7d97862df8; 0x24610c44b29b9151; 0x1aac4f009325d37f; 0x7baba113dcdff266; 0x6af10d53dd10f0fe; 0x13d019fa9071747a; 0x4a0cd9720db9440f; 0x6ccf9c41616c3ee6; 0x1a710873f3553850; 0x753dc45e271b272; 0x6319c31fd5cd5def; 0x503c459b568bc0d2; 0xfbea01a1ae738aa; 0x111f5a297b107b1b; 0x483a46ff1c8d6773; 0xc14909f1c8fd3c7; 0x77e250aa189a2155; 0x68530506e232b4e0; 0x657f1ff6a7ea9a1a; 0xa9710b6f5d33937; 0x41c0b645191adbd3; 0x4559eeb306978f30; 0x376f867b8e29878e; 0x6bffa6ed5d91187b; 0x7dd2177c45b327dc; 0x342b89d4db2739fb; 0x31446bc3510607e6; 0x4bfc59c3c70584e; 0x30fb63cb84de42df; 0x72038db03ea28537; 0x46c0acba4146dbf9; 0xaa8e3ce3a0d09f7; 0x5971bfea2ea85c91; 0x27a7467498fb7194; 0x60c7142694cd944f; 0x45d469895715a48b; 0x7ccf9eb9e50335fd; 0x2cd805fb6bd9a715; 0x3ede93adbf586c2e; 0x5c32737727473246; 0x6f0766dc06712ada; 0x113ca77c47d5b06f; 0x2c90bb6ad35b26ef; 0x18795478a5bcb68c; 0x385391990ea022a8; 0x6704847297e17ef9; 0xe798c5089842ba0; 0x49ba7f8da548ad7; 0x145afe627642c112; 0x40e70b69fbf1fca9; 0xfac970aed37f4fe; 0x6d26495b8742c177; 0x1a392a25a9ea68b0; 0x41bc165b96d82f5b; 0x3e81450fd4c8c1b3; 0x296ec30c484993fe; 0x58f4b3f8d1d78fa5; 0x2999a637690c42b7; 0x3e1054e28c88e27e; 0x3b8111fc8e865a83; 0x3a8668e6ca402ae2; 0x15739cc9d7e9b35d; 0x61831ae2aa6925e5; 0x6fd2fa5996c0db6b; 0x559660ec5c568deb; 0x4e5d5a5a2b9f1a84; 0x8c720a6b28b5afa; 0x2d585c6c63d93b56; 0x7be98520a400d521; 0x13116f671a415ecc; 0x3e3545bab12276be; 0x376a77db77c1dab; 0x371c662361cabff8; 0x1486d99b75c62ca8; 0x5cf43e09adb4fbda; 0x5119b3b460ff9d88; 0x78b43dcef6379412; 0x1058053a315784b5; 0x2e5fa819302eb56e; 0x5d8ce281ba631186; 0x2d735a7b2ab6ebdf; 0x34f778aa2130857e; 0x2d1b0ee5959562c0; 0x6b7b3fc086dd93d2; 0x375f9243fdae37d6; 0x6c2d38a3e6a332b4; 0x8e9af993169e603; 0x6a20aa06b65d3f77; 0x68b2c647a7b6817f; 0x5b573727fae1cf6e; 0x78278b9bb8840813; 0x4021f1a4bf0efd4a; 0x24242351954f84f8; 0x2af36f959ddd2d6b; 0x386465ba4fc6abde; 0x1844b96aba45d369; 0x70005428cd0c9d5d; 0x71fa3684e3b1c167; 0x3f7e4fb63d4a857; 0x6fc6a67ca1266ba1; 0x4096ed94c0e90b5a; 0x1c0e94d2847b448; 0x26552b35b924de6c; 0x59cd7fb7ccb1edda; 0x2389a058dc0916b4; 0xd014a213aac12c7; 0x25334f3c8ce9eb41; 0x1a6b30ce4fdd341d; 0x7a6a72cab6dfbb30; 0x475f6bf8077cd312; 0x7b7df30b49b483f0; 0x1d0831ab24a7c66b; 0x66ae3378fb31828b; 0x5dfe0b9f7d4317c9; 0x5cbf80f1c59d30b5; 0x267758b35da892f0; 0x6fe357e40051ac0f; 0x1d66e53cb40b5a18; 0xbb1c43fc215d9fd; 0x48fd98f4da3fe29f; 0x22a401cff02e7001; 0x62fa04d890f7fc71; 0x799300b4f29fc4b4; 0x5bbdb3c498723408; 0x2d651b0ccd4e432f; 0x4cab9e82b19f9ed0; 0x72f8a220f7ef1147; 0x292e9d72af089d3d; 0x3f1a5d866309ca7a; 0x40ce34e9f50cd696; 0x71ac16b8e59483ef; 0xcde977d75cc9e6f; 0x2cca761586465d21; 0x287ae3529c309e27; 0x6895af8971e427b2; 0x675973c2fb07861c; 0x7e57a7fa2df0653c; 0x267dde95108d1fd6; 0x21f074841696eeb1; 0x345bf957dedf7600; 0x5244a6340b2656a5; 0x1c34eae9749d9f40; 0x6d87e3750ec765f6; 0x5fbb772eea55600a; 0x375f0a7adbe41a32; 0x1b79e5f1ccf67a03; 0xdfb04179868ab3d; 0x4479ee7f7a5ea53c; 0x65b17c34de41a766; 0x6a48f36d1a1ad71e; 0x5552f552fb67ffb1; 0x7997e39d9ee4b7aa; 0x598fba98005f1dd6; 0x2adc44fd6cc4ddd; 0x7e051a419d68e647; 0x68784d40112f9b41; 0x39050a13e0bb526; 0x3cde0dca4870799a; 0x31727f194a031f7; 0x6ce359ede2b2b66f; 0x36327853673872e9; 0x1920c2a4c6fb8a58; 0x660c8703db43427; 0x5296ee9116718d28; 0x6f0fb58403dc3e76; 0x5afcdef498bd7d1b; 0x4ea7369fa8b161e0; 0x459a0ad838911adf; 0x686e8dd23c911409; 0x7d2709bf16b37150; 0x6da52dd3d5cac773; 0x4084988bde84f5dc; 0x7a3482b9931541e2; 0x50141a7ac5ddd9fc; 0xbd0ba1566e1642f; 0x63ea1e821b423c9e; 0x73107243c71a0b1d; 0x2be522b5ffe1874d; 0x32446f4b1e173205; 0xaf8d942682b5823; 0x21a41d7a92958fa9; 0x5e44707fcc4fb06c; 0x1d18af2b6c1302a7; 0x417cccfb3d277e05; 0x185bf1dd3040ae6b; 0x16065885d3e4cc05; 0x2b376439583684c3; 0x441a062c7dc3eb15; 0x1c059c8d725bb129; 0x7ef664382fad7787; 0x580a1fc2583c62a7; 0x527fb64a08922f65; 0x2cc4fdcc9119159; 0x7690abd789c3e3f0; 0x35d2b78676dae63d; 0x6f1128c6d8e7ae2d; 0x5c9c3d1087053f14; 0x3ab863072cccafd9; 0x66d5e881484f5396; 0x46ab1d3fd4d85c77; 0x2e61312b8e9d85d5; 0x52b38ab23a738f71; 0x709fbd48d4575b60; 0xd79957dd0ae4dc8; 0x6e12eabc6a305801; 0x20f793f3163a163b; 0x4e045236a4eead73; 0x1a897a0f90dfe91a; 0x67cf53caffa2864d; 0x9889946e7ce64be; 0x372971ea07ef2416; 0x15a90113726fdf7a; 0x73524d99292d9d9d; 0x3b9e547e00c06daa; 0x339f87b7729bff0c; 0x668cff725ee863fc; 0x6da85e37ea0af40c; 0x5d3b50353c516382; 0x38c858b67f8078c1; 0x2aa6e4434e2de7a4; 0x51fb0a32020a4211; 0x41c25257f4b85ff1; 0x66928c500595a889; 0x3142cd586cf8db81; 0x4bcec4245a6731cd; 0x5987f9e373001846; 0x3f9c41090c582602; 0x2c8b9a8953d6e2d3; 0x17127b3a85368c4d; 0x50451e46d4806b8c; 0x6e90765bf561dcf2; 0x1c8d80711dd54a2e; 0x334da91f0204de50; 0x788b7759e6ab9350; 0x2a83d5d2ccc6b329; 0x53b01cbfc2fae89e; 0x68d6f3b213693cfd; 0x6ce36245382e9574; 0xe8969094df7a427; 0x4cbca343b3dc62da; 0x432b1fe549de26f1; 0x224b31f89e660c14; 0x628d794a9b784542; 0x370a87a5cbabb0fb; 0x4b2acbacbc297963; 0x7dda045abefa7a72; 0x465b320083f3aad2; 0x4d8631a85b28c649; 0x79d9c844b3f93ea8; 0x3392a8532d532251; 0x6036d713af4ab46d; 0x670f6bddb97dd1ae; 0x131d6af58e95e90f; 0x3fd3eb1f0ed181f9; 0x52c06241ce158cf9; 0x4474dd3dca79d847; 0x222a3d5030c95143; 0x3267fdfe849437bf; 0x69ea58c3daf78b59; 0x69a1a7695bbcfd36; 0x4ae301c55afd8006; 0x6ecd1939ab983b86; 0x54fd4153fcb51564; 0x4676470b3c914e2e; 0x45dd412e84569036; 0xa5e7097c710c015; 0x2055dd1109dc2fae; 0x33c0da4d5600370f; 0x2fc5a0e3d7eb4c84; 0x31e807aa1924d0e9; 0x64dfdee5ac98b279; 0x145c98cdbeffd76; 0x6f3a67d26c3df02d; 0x7163b00f144fa345; 0x717785c790ffbd98; 0xc55cbf895f633a8; 0x736cdf5f29ded20a; 0x683966726ad4c03e; 0x206a54bc9f52a804; 0x29e63ef07b1e447d; 0x5a7ba03ed6f95075; 0x54a81f9da447a118; 0x63f7f1525aaa7aae; 0x7fbd14ae7fec3b7e; 0x5e28fe733dbb2581; 0x5170bf2fa20ead66; 0x7e489f5812ae9076; 0x7de267e7ba404949; 0x263a7be5b85d2922; 0x15ea57bc6b2a5f6f; 0x16053480d051d509; 0xbca3dd01fdd6206; 0x17858ec9bcaae53d; 0x3afb2eb91c9ab21f; 0x72f31f97a7c748c0; 0x43cd159468e8e5f9; 0x50ec0ad05859b039; 0x725263dd45b2fb32; 0x3a76eb297aa160cd; 0x316772c5c8d5cde7; 0x624c533055e3bf82; 0x717046c9735db1a5; 0x6caeaf6907b7a692; 0x2519ba1ca0453334; 0x1e019ff9987999d4; 0x4033c0333cff0cfc; 0x7ff8079f801f867; 0x7cf30f0cf000c330; 0x7e7e7];
   [0x8f5925a8815de14; 0x9ff708e8ca0ea3d; 0x63320589fa53c09c; 0x1b0f1d1b9100ed34; 0x71a5a16ac303e7e3; 0x35952afc9a516375; 0x323a248f30a4c135; 0x5654cbffae1636a4; 0x6ea5898126847dd6; 0x3654d6c5d9f684d2; 0x422f9f45b95e48d2; 0x518b16a33c1e1a39; 0x581978d3dbf77252; 0x1bb53b724f7bc3b7; 0x435a317c30cbafdb; 0x66d5b814d6689b65; 0x2fbae5e21de38776; 0x3dd0c5f046879fb3; 0x93a0cc4db7c7f4; 0xab50598e892f1c7; 0x4660b6af33a8e527; 0x5b7ae563bb9da050; 0x7ef36dfb8081cf9b; 0x5d79f2e77f9d1228; 0x3d7bd09ca6d7ec9; 0x1b46be6cc6a6b8ea; 0x3a814cb2d33bc205; 0x770d5001cb8d5033; 0x13154bd75bc45999; 0x4090973e85b88678; 0x2b7866420eb980d1; 0x60a30a41f2255d72; 0x44339a2759b17900; 0x4cf22801ce2ab98b; 0x14a7745a9ca6f14f; 0x71ce90fcd8f12874; 0x5eba021c0bfcf4ee; 0x1b2938bb2cb3dd8e; 0x771fa9e678c16b1b; 0x2809366e135268b; 0x10f77a5da1da01bc; 0x17e002c22cae8c47; 0x44fc1d353a74d00; 0x33a259f6537f2d51; 0x411d8b8e50be5b9b; 0x21322184c8c1c023; 0x5bd61fbc1e7e7bf3; 0x5631677925ae439; 0x5fcc90b0e75fd825; 0x6b0c41b2289b82d9; 0x5de2b0ac2eba2633; 0x3febd7cc3592746d; 0x6885726357fa74eb; 0x6e07413c2dfcdf9f; 0x136354a2dd2874c4; 0x6b89a2dbb4afe5d5; 0x65137ecb019fa5ee; 0x39a937778eeb838e; 0x423c6906ab25ade9; 0x1db81d15e15a7052; 0x6a4ca340a1df3a9c; 0x45bfefb9fbc31c3b; 0x559223c1989429ca; 0x6fd0e391067c6a5a; 0x239bf02be5f30caa; 0x2b45669d2219620e; 0x412f7596c7f00add; 0x191d38a91a50cac7; 0x2a9e5e257a0f1129; 0x171a650e6b24df58; 0x12bf9b7ac14e6d97; 0x1482d98048a55602; 0x3ffbc5d5ef568092; 0x54f3aacf443b2d86; 0xbbd3edba1e1e5a8; 0x6179e528931a5921; 0x2831ac245c88f496; 0x57d3b3318792c8b0; 0x2f5923ab8c5fb143; 0x700fd139b5dfb5f; 0x2f7d5e6b82b39011; 0x152325999d835fc3; 0x23bca5615db7371a; 0x4c58d62ac997c820; 0x65fff26fbf6a4ccf; 0x24250addd6e51bc4; 0x13f51a977096331f; 0x29e4e5e1fc47e6eb; 0x5b8418952b05e2b0; 0x3c39a5867875aa5b; 0xd3168d4e0d7cec2; 0x3a90520f7c4d7bea; 0x51ebe6e004f335c6; 0x64c538baf5e29598; 0x2a99feb73eb6d0de; 0x718519f3b826cc78; 0xa5399f0bcb9963; 0x778f48bc9800132d; 0x130a6f680195fc3; 0x26640a272f4e8cb0; 0x67fb8eec893fbbc8; 0x18684eb90dc4aedd; 0x75e69512f4a7e362; 0x3b6336b9b29a7d23; 0x76455ecef8d100b4; 0x7dc36ecb06eaddb7; 0x7bc225698c309a95; 0x4cfa12c67e26fd41; 0x23397c62d4c22616; 0x11dc594dc69a0602; 0x68da6b2833c23b2b; 0x11e20ce56759878e; 0x1df4fc72f71e41d9; 0x9197d514be2df30; 0x20670f4c65f714ba; 0x6986c9f2f3b46c2c; 0x664ab52a8a3a4e25; 0x5e7f927d340d46b; 0x20f34a0c54ccbaf8; 0x5521f002fd1b00d2; 0x25b02d1a5b5fc8a1; 0x429f22dcae7b5723; 0x7f7dd528acbed7f5; 0x597941f29c36a814; 0x12a32ec58681dd1a; 0x2828abd7607a0bfe; 0x5480f9fb261b56e4; 0x633876617dcf2bc; 0x130981ac23e22ba9; 0x7e60d80085b625b8; 0x3de4c257001d05cf; 0x15e234652648a72a; 0x1fe3ccbc8d359f67; 0x1af42f8facb70ac1; 0x3103bc8bd7e581ad; 0x66a9e7327c77fca4; 0x693a79cfc6ed2e76; 0x76923d198523f6e0; 0x5e2948ab8b6d9539; 0x7016c2e4f8fdbb97; 0x34499372f4e019cb; 0x3e9869137b34b74; 0x5b7c8c8690f6167e; 0x1fa8236d2898e2a9; 0x59347c9f04745466; 0xa59a7441661cd51; 0x783c885b59f68fd7; 0x5ca023e957b91ace; 0x261372b55e6c94c0; 0x8c9b77635c0ff15; 0x3eb907dc56b4989d; 0x2209077364eab9f1; 0x5e69d3305b0ed0a9; 0x108e4057e51a671e; 0x65eb6ae991cac889; 0x126d45dc22578b92; 0x13a366aa0b1ff51e; 0x5e40572cc21c7f16; 0x7f6cf44d8b917f23; 0x42bcd05fca1007a9; 0x6fe1fe2c92677fb5; 0x3c9729dbab0043f4; 0x5182ba5cbbc87f1d; 0x3e0e3ed9de04c5c5; 0x678d4e5baba7e9fe; 0x29e3d270266bd384; 0x6507f803488c98b5; 0x334491ea2319abbe; 0x2d1a9dee316b93f9; 0x5daa0a8fcbf7ab2c; 0x17a0f657c458443b; 0x34cc2e8a49c7f4b6; 0x12e27d5da0bab9a6; 0x79a223fb91de47e; 0x3af794e288d4e727; 0x499ba85c75996535; 0x2b197da72ffe8740; 0x6df3eb30749f6a8f; 0x468d5cded45a2c63; 0x3505f7528468c541; 0x6094208e8219d11a; 0xefbbc1ee3e03fd8; 0x1ac52e15afec9399; 0x289f983ed043a7a6; 0x780b00b571f3b17; 0x61c056ce72c93d0; 0x4a82fdde1d3fb015; 0x6ac962c4f0ecec54; 0xb0f6e15f6b59952; 0x33ba108a166a2297; 0x4f147f48221cc0f6; 0x15c60d7dd238c08; 0x31ee9a5c85d337ca; 0xa244ea0fa08448a; 0x260cccada8bd1fba; 0x1318a22d6ccd7345; 0x4fb3a23dd790eee4; 0x4b2e7fe4806ee1d2; 0x47eaa59dd385eea7; 0x7018a436327953ae; 0x16b0bf851e2489df; 0x2eb60e1db093e40d; 0x256b7f26f3ca6dc5; 0x4565790a919d652a; 0x27e9e652d9c58cf2; 0x710b77b5a2e08479; 0x3c3843d1cd429d42; 0xfadaa5554cce9af; 0x22c5a8d448466907; 0x2f56309c39fa9fa1; 0x227d5fdf9cdec51b; 0xdd83fb0c1cd184e; 0x74cdc64b65441696; 0x228b773f6d7c1d37; 0x39fe08a30d2d058f; 0x6216d7b3ec7667b3; 0x48ca062d65a5815; 0x33cfef177c1f7bd3; 0x393a20444c5f1200; 0x45c04634acbf50dd; 0x82e066b2b9f5ecd; 0x4841f5f77b06645e; 0x6960a56f91905dc7; 0x5ec93daf3023264c; 0x387a39c9cee9cd03; 0xe15568ad4837b5a; 0x257cf09250c605d8; 0x5508d9f48800b187; 0x4b5d562d58c1e10; 0x8aada7cb4b7dfc7; 0x11014624e8d21902; 0x138375e773958ec; 0x5e4b81bf7e080eb9; 0x4b0586edf338ca4; 0x60eabc3bdb1fc484; 0x1d00ecfe20d441c5; 0x3e5d99900ba8b214; 0x2578b4d9383050d4; 0x4adbae7560068946; 0x2442319b27495998; 0x3d2e8c59b3d53f13; 0x1105603088802dde; 0x3559c416929261d9; 0x8ad668e89814bc0; 0x15265b1994d45a09; 0x65b8924432200add; 0x6e69c3c67f4064d2; 0x1349d2fd8df5d3f7; 0x49f6e24a39ec24f1; 0x2ebd3ee6c7fbc21c; 0x675e4680556fbaaa; 0x74ba8695243d5f6d; 0x62e3f66e27a53dbf; 0x6478b443d25c12b4; 0x3351e1dccaadf780; 0x5abbbc9c3174cf8d; 0x4bb87f61704e39a2; 0x75e87901963a379d; 0x6d64d4d61c7987da; 0x1bfe97a6f0e266a7; 0x497ec0420d062c09; 0x4975cec2e9fa14e0; 0x13ac0c4c74961088; 0xc169b59e44773c3; 0x7120bf697716d138; 0x1c78267440baca93; 0x5a3372aa9d70dc16; 0x382a0b2cf798a7b1; 0x44bbdbcaddcb887e; 0x360edbadaeec74c3; 0x315ec0964498142e; 0x3a6e55b0ded08914; 0x4d7b0e63f90f7f9c; 0x67ff1cbadd3e4cfc; 0x2b4467306790ff70; 0x5e4ab9ca6da6c3f2; 0x18f0721a60aa2e89; 0x55b13fe837203817; 0xd890064ed4a1058; 0x36d8d59d770eb04a; 0x4c2dcfd145f2cf03; 0x3b18a801cc5876c5; 0x5321f9d3532076c4; 0x6c34d532ef72e01; 0x7458b33edb532c6b; 0x33deaaf9dbdcd9c7; 0x4844afec7f86331d; 0x4482292a8486923; 0x4565bc43dd08791a; 0xd30bee49d5f63f6; 0x1925a176d117522a; 0x38cb3647739e5c43; 0x171cca9e3e4c2eb2; 0x22f082fdd0e73e13; 0x41ed6449aabf5130; 0x3ae29a62d734d782; 0x2bdea91861673236; 0x5158aeae66f106e6; 0x5f43ba528aa49660; 0x57c77c09def2c9a6; 0x15b3b6f96464206; 0x63ae2d794f31e318; 0x1b373ac0506f08fd; 0x1dde33d7f29a930; 0x3cb515be4c72cbad; 0x27de12faf73c2886; 0x16f84ed3296d027c; 0x2ecab15dc4d6d01b; 0x6346f0ded0120b0a; 0x530639a029aa544e; 0x2ef6b130bc42b8ff; 0x7e4959c82c09d70a; 0x25e5ac63e9f04e62; 0x7e1fff8619e1811b; 0x30cf3330cff33c0; 0x661f99e1f981fe6; 0x7f0f03f00c3f33fc; 0x187fe7];
   [0x110048e9af63f737; 0x6e31ce967f8c3273; 0xa64c375dcdc4a7d; 0x7434ac238a3be896; 0xaff026ee21f0b98; 0x157595ec65ebaebf; 0x93da015949bfcca; 0x82ccb994e56b14c; 0x610498ad085e96ab; 0xed30a47c928d8a1; 0x10c2d6fa4ac8945a; 0x22c842af55cf761; 0x1e817280a522ce8; 0x6675c21931a045fe; 0x28c1eed1b179cf05; 0x3ac016a4e357e5fe; 0x31e5e9e156b8b944; 0x314df249f437b2d2; 0x905bbafc60b7604; 0x557f1f6708b7dd13; 0x183e0cf08ea3ac0b; 0x7e942a41290ffda7; 0x8ed0a7ee413a8d9; 0x219115e6226b9334; 0x7dd81c79dab36744; 0xbd471f821bcc3b0; 0x16840d27ff8b15d; 0x5813d575b38273c0; 0x22709326d547293d; 0x52337604b768354f; 0x6fce27965a30c9f2; 0x5298808ccbde85fb; 0xe9c6a5bdea642a; 0x60dc307d68632b97; 0x226a8112d4c3de56; 0x1e272cabf02ea60f; 0x17c406227917368f; 0x1456ba9cb312b29c; 0x74c0f613572150cc; 0x6e1079ab3292d05c; 0xb72935ec3de9fe3; 0xdc354b966c3ba80; 0x61d0f94ccfb56be2; 0x743a4b1c7af71793; 0xa1e6057361caf93; 0x649216f96770593b; 0x5d311f478d72a24; 0x61bb50bc7de24b92; 0x723b388dcb16cc86; 0x68f55fcd06c87056; 0x51f968bbcc0eab12; 0x3540d4a4bc4bebbb; 0x879ab39a608e8ea; 0xe19914b6da30b51; 0x77daee38c28d294e; 0x1f1fb1bf1c2688b5; 0x5f94de953fed87b; 0x180e71073fdaa564; 0x66e2445f88e9e4fe; 0x5e791be4659946e6; 0x23d08b0b3f2c8163; 0x1479ecfe95a53e87; 0x5754715aa64e9db2; 0x1d31df6d2fd212a1; 0x3cdb808c5eb00da2; 0x678a2ba7357ab1ad; 0x7954f1e14be38eaa; 0x65907c06238d5513; 0x1ed8c8a7f5665bca; 0x2dc5dcc0d4010c93; 0x99a1e242dfab54d; 0x1576305af9f91464; 0x5e036f3db9e9d44e; 0x72bdd4c802825963; 0x1c6daf0770b73a90; 0x2fb3d30dcfae289a; 0x6c344766a3112b2e; 0x2a306edd501e61f4; 0xb97deaf117e22d5; 0x658577a90cb2f5a7; 0x2864392238b1d71c; 0x6c3507f73f30fc5; 0x3453e7df31156f73; 0x603379b890ec9e90; 0x34e3e6cc53520883; 0x29be68df37e2ca01; 0x4cc293b20ad1204b; 0x4c7516fcc6f11ed7; 0x3fc3482860ca622d; 0x1cde00989ef9535; 0x18ae6c89e8a899ee; 0xd2cb2809b8443be; 0x1e591cca401f4bcf; 0x64f7f33b8e204833; 0x3a092e0c8e0b794d; 0x497800e5336d4eee; 0x6fca4436a80e7a3; 0x7f7fba6c5bc8e627; 0x7d0ee1dc3cbe37a3; 0x6ad88ee0e2c6aea1; 0x5468bb57cda8a122; 0xbfb183b8ea8ae47; 0x5c007cf7d6775f84; 0x5ec971a9d46ddb9; 0x3fa6c512f5215cf; 0x6a3ed85e06184824; 0x131c76766240f548; 0x36f8f3d8fe8e9989; 0xe2594571a654b25; 0x6415478f4a5470c0; 0x45aee30d2cb51117; 0xc1c63c9ef6705; 0x2b281765adbaff1f; 0x11f7d355f86251ea; 0x20e1d83a1b72e6e1; 0x537e49ac9a7771ae; 0x62da018251eedd1a; 0x28db7e70a160868c; 0x5d1fc5a9bfa33544; 0x28c1da6166c48f63; 0x279286ebe4b00255; 0xb6425db60549ab0; 0x5f0414c55135fd65; 0x7e88b28e85de8ee3; 0x62db85eba18a7386; 0x419087fece016a98; 0x6eaaec11c02f9c90; 0x553ee9bef7337242; 0x14d7d9d1ce74266; 0x6ef68e99a38495c7; 0x65b0154131968d9b; 0x1467a339e341e0e4; 0x406b19793756a42e; 0x7374351d3815df02; 0x4adc32fde014bb93; 0x281d4c7d6ab53731; 0x170316eb893caab7; 0x44077022efc58cef; 0x21b303bc70aa7948; 0x67828acf3ce87e73; 0x5e7bd43f08831596; 0x75484f8542c9dc3b; 0x6713b7a3137030c0; 0x47c6de1e46a33800; 0x4dbb117e21313521; 0x5f289c885bcad390; 0xd13bfe75a1c4f9b; 0x5a42aff18d9b7b72; 0x6d76f0a91f04f508; 0x2c34f0dcedd0728; 0xabb99411c57f11b; 0x2c9b881496c60e45; 0x230c8f06c4b5534c; 0x2f3c2aac3e91f842; 0x8146a183a903435; 0x3b0fe6f7e3d7806a; 0x2a0954c6c4f6066d; 0x7590775f5e0dec69; 0x59aed47eb6a376a4; 0x1cdebbbd3808fc21; 0x194b16958e8a9091; 0x7161af39fa5c2353; 0x5e183bd37da5f57a; 0x480c729e83039994; 0x251664cd151a6be7; 0x64b6167b9e04f691; 0x51ce5ccf16c92ff4; 0x27ce82edd14afa2e; 0x7880eb1805a586ea; 0x201c6ebd20a05af1; 0x3a287b004e46d1c; 0x26a8ddbfb21aaaa1; 0x18bf4e1263227122; 0x44a695acaa813141; 0x10870a851d74d79d; 0x43e7fe5937b4ad7; 0x5362d48a49f92ab7; 0x3646435b498d6bb; 0x7ba0add2e254f6a2; 0x33dd42e314cc15d1; 0x7fb6fb4c0d2d0d8b; 0x257f5933d3471764; 0xc06bc90e0bbbe6f; 0x3c2ee583e790c550; 0x3cefdcd99e19c251; 0x48a78682c822667f; 0x7aad95304334dea6; 0x60070764488de43b; 0x3c6bda80e325b6a0; 0x2c46699606464331; 0x55a6d0716efc1ae0; 0x7f67562df55edcb4; 0x4cec89fe624757e0; 0x171d0373fefda6e4; 0x21e9c80db4a05aa8; 0x33068b1d88fb2c4; 0x48e1faffd08f7cc8; 0x191f5549ba84d0a2; 0x5ee1b03266fc585; 0x2208827d5bc825ce; 0x244abf09a8c65b11; 0x792e01f20437b8c8; 0x36fee03c96ffa5ad; 0x5787502b5ae053a6; 0x3adbda98f709c5c0; 0x1f7089020c8e091a; 0x7d5942bcc01a2e68; 0x6d1ea72d80ffe9bd; 0x3bf4994ffff4bf88; 0x632746fc095e3b37; 0x6731c2b5852e4bad; 0x142d2e47d3ca5979; 0x1b3d1156c2095ece; 0x6821afa760730f9e; 0x29160f48c58cb912; 0x6ef8ef5195592a85; 0x591d49511d5b9526; 0x1468b4362be2f315; 0x29237524d9582906; 0x310446b3494a6ae8; 0x6b70f37321c58768; 0xa2e01bf397d59e6; 0x4738ccb9396d67fe; 0x496747ebec994261; 0x381748cff856d16e; 0x482c50325ca1c2d; 0x338ffc13e2e3fb9a; 0x475b7507987f539c; 0x1cdbc44c72cbd30a; 0x6e81fe443f150d53; 0x4b7142bf243e0df1; 0x51405253869b7732; 0x5fb8089619e5e42c; 0x172914e305a4d7a8; 0x5311d090d6f45fb5; 0x21a6af7599eb2843; 0x49adcb7bc00d1525; 0x7360f164a2a48ce3; 0x43f6db73610db3a; 0x44192895ad5d4f28; 0x16b632ed43fbff8a; 0x347aeb853d14f6dc; 0x4a109d3e92f67e24; 0x1ed7b06681e9a40b; 0x64f53bc3c3e17722; 0x6776eb7f86c25f5; 0x1364e137c6963287; 0xddbcf385bcfb306; 0x1a257cd2e33daeee; 0x4496f2a4d4ff16d5; 0x2c6ac5c1e1795ccb; 0x7f31ac17b0742905; 0x7cfadd28ebda53e9; 0x59396394e115fc4d; 0x528c7bc1881d022e; 0x7ba3c228c7eb013e; 0x66d6ab7553d41db3; 0x78588889da2294b3; 0x347a2ba00c2a72bc; 0x19f5dbdb7e019943; 0x52e62a5b758d7bb4; 0x5c3c77cbd17900cd; 0x7c1fd39c8e45c654; 0x2e36deb47f6388a5; 0x3a46b553d40d90a1; 0x6a2c636400c50e96; 0x3d4958cd02e4baf3; 0x15ba3d996eb8b019; 0x2f7342657c64a948; 0x129b5c92e3d0f1de; 0x15352fa04465501c; 0x3d8addd5e08969fd; 0x7898a7da135e3a0; 0x2b7e185d3425b121; 0x49797220db574001; 0x5841ed4c371f0758; 0x4efe1205d8079cf9; 0x301aae696e1769ce; 0x2abc06b91c0e15d0; 0x41bbd66027448964; 0x591abbe6ce56a132; 0x5757d431ccbbdf3d; 0x2139bd753a79e2df; 0x20350251f4878e2; 0x4f5804cd186f0b71; 0x18360f0bc402b6cf; 0x3d890f5842c592f6; 0x3bc6bb65bed8e7c; 0x1441dd2186164e5b; 0x4b489cb79dd8220b; 0x7ed91c6fadb8e585; 0x6e7a0a75b6e896a8; 0x7432965a2c13bc1e; 0x24161cb9f79b482d; 0x3a14093b9c8b75dd; 0x6c97d19650879baf; 0x1ed1f734dbf6994a; 0x58f4d9393f56f473; 0x6d5d3bf6b39342bf; 0x262fa8f3d49fd369; 0x7814c7e8b8381d32; 0x398460b7e45b9a1c; 0x795bc97ef7dde5ab; 0x1bb113b3cd0f8721; 0x4746d1e0c814ee31; 0x76b51add258eddb0; 0x1dcf3b6aa6941117; 0x504aaf19cd0eef4c; 0x67e26072c08347e9; 0x2ddc8479a7a0e7a5; 0x63ef3d37d4c8f595; 0x53edb93d676ceffb; 0xf81a19513be7f9e; 0x781ffe1987e67edc; 0x30003f333ccc3fc3; 0x1818018187866780; 0x3f3ff30c3c0f3ccc; 0x1e6018];
   [0x2380488e5c6e2a28; 0x593a841d0bb373e8; 0x6ee3830b5ee50bec; 0x6ff5bdf6b330f698; 0x4482bac7559aa13a; 0x383f5f1a2b3b651; 0x2bed5692d674c24; 0x226b470f28e4fbf2; 0x6b379f5c9518dc23; 0x6fb3315c88ad60d7; 0x2db429bf667936f; 0x69efd2f571922ef1; 0x455eec863e1491f5; 0x4368d6178e9145b1; 0x51b3f5d34aaed870; 0x532ed6f412816349; 0x4219784c6dfb10c5; 0x573999e8c55a1fd4; 0x76f99ab4c14e2859; 0x3f7df2c6a8f317d1; 0xde50c3fe36d93b7; 0x6e77fd68e9993cbf; 0x47ac958d03761939; 0x56d7a6c1e27d9f00; 0x9a8f1e8848b16f6; 0x72b3493daeeb999c; 0x27f7748ceb60d24c; 0x3445a3a689014a5a; 0x27070e706d513699; 0x79cb4e1b1a1117e3; 0x462f7647042222c7; 0x4f969b56503824a; 0x326720e30decf6f8; 0x748fa6a4469e45ff; 0x5a9cf351c09a18e5; 0x255f1d1ae211d4e6; 0x2da0da14d40e4835; 0x8a993b17b65274f; 0x6bf84c1b7ffbfe7e; 0x652f97c21708371f; 0x47ca882b21eda21b; 0x2c249dcce36d0; 0x214fdcae3f09fb41; 0x184ac527b61f8384; 0x466c92cfbebd780c; 0x95a512c3a55b429; 0x3c6705e2bc0bd1d2; 0x322cdf31a0a16922; 0x2e6e193eb25468b7; 0x7669770b49195f9b; 0x74cf180d58314b88; 0x23fec95b24e8ae77; 0x64562e7e644e1bcf; 0x106a0d88e5a74920; 0x4d55326915c30d1b; 0x53fcce2fd01cd8b7; 0x7d4c28c1efb3e2d7; 0x4b4ea01a1f5188cd; 0x33c6ababc4ac5bfd; 0x25e227bc22f11a00; 0x1b3f216a9f5ea071; 0x91c7140cb9ae1ab; 0x323dac8ad2630aa; 0x670400e8346d807b; 0x7ebe57a4170f2272; 0x7f8962c616ed73c8; 0x2393a1d157e74630; 0x51d8b9f4b34f67e1; 0x5fcf05d587ea8848; 0x1042d2564b07c2e1; 0xecdcaa0a0c5c609; 0x7f925483bc677334; 0x7213a9db357f3110; 0x7dfa982b354e2984; 0x46e2d39aae964a7e; 0x31beab74fba4118d; 0x6461c2c76377c8e4; 0x6500bc3c68b48d8; 0x41f8db068f0cae; 0x501873724fb8d6bf; 0x774249d361b239cb; 0x6a92c07eab9c7bc4; 0x6790948bf64934f8; 0x67171541ed6bcb6d; 0x5fd15de6faa59f75; 0x12df472c80d02f88; 0x204970d38154c6e8; 0x7b3564481062c52f; 0x35669f0a290f2139; 0x2825670b2651a025; 0x22414709e78717c; 0x40d9620870b5c2e1; 0x12844e39828aaf44; 0x14316b034356c52f; 0x222fe4127f3b29c4; 0xf52c8255c522378; 0x28d57e8c7b47c26b; 0x2a9023b8a30cb579; 0x14714bba1633e4a7; 0x7685599c3aa41d3a; 0x60c0b75ca4780c48; 0x1da383173cf2c687; 0x6f26e55a8393e3f; 0x11dcb6bbdddcb178; 0x1ca5ccb02374afba; 0x6e2a2288c52bb099; 0x50e88b7511568ec9; 0x20b3728a68e4721a; 0x7b868c7044813984; 0x7521d3a57656a9b5; 0x1f34f4718a5b50dc; 0x1bd2625d160fae84; 0x58fd95df4836a94a; 0x3034b5bd6818bf44; 0x5ce06602b1e04ed3; 0x24fa8d942bfcf300; 0x11a86084349381ec; 0x50a27a30eea4b0b4; 0x7bfd88fa271e834d; 0x7581a4406b0bec74; 0x7d7dc0893611dc12; 0x79c588fa9a5acaa1; 0x1b575f0924a7b0c7; 0x519c56e1b5d15c0a; 0x71990d85fca69752; 0x4269202b9b0de73c; 0x6b0721d8a9280245; 0xb1c756f62098829; 0x35c1c2d0f985a85; 0x451ed282e092dc7a; 0x373567b847a66fc4; 0x7b474be6dc24966d; 0x4fa0287f03fc4cf7; 0x2bd7c5b3929b0df9; 0xd1deb23f5caa0ed; 0x61f28d3256cfcf87; 0x148fc47e791392c9; 0x5145ee778d8a41c4; 0x4f755bb5f08f5753; 0x14655a68c07eebcf; 0x79c48e31f730e721; 0x41d62ab6167e4263; 0x626b1338cebbe0f7; 0x4573ef3eae56b072; 0x20ed06b6bbdf78e1; 0x7eb84c2099f10cfe; 0x1e2dd880920a54f8; 0x113d7883e2b16179; 0x5b8ec048a9233adf; 0x917192be206103a; 0x324567cd91f7761c; 0x2721fbef632fa7d9; 0x4d4748c59d288621; 0x336995db22127910; 0x29eaf756bd4221b5; 0x2cc88684de54c752; 0x735f990960f4cd15; 0x1fa480182d2c8b2b; 0x5b01c17417863258; 0x797f91dfbbc67b1d; 0x575a95544f2dc117; 0x4a0ef7be5fc51366; 0x74bef015c5b12ce7; 0xe362f27fe3b4cb6; 0x3c0f12efcf5e7b4a; 0x2b6b790e0059755; 0x107f7ef58973e898; 0x7009acf2bca2c956; 0x2cd92461605b645e; 0x6d81c8edbe8a08bb; 0x45e2f22875adbb68; 0x33825a7113c6b31e; 0x5824f7a7333ddc3d; 0x2480693cea5450ea; 0x56f5262623b8f1c9; 0x5d4a924bd879439; 0x6649f9c812c20002; 0x79e90e801f1516ad; 0x598c178dded5656c; 0x32b9f5ec49c4e3f; 0x17f9859cd722895e; 0x1034060c27da018b; 0x37a67828636a2795; 0x608b8523d0079518; 0x7bcc9aa468e8e54c; 0x337b8831f7eb03e1; 0x28e6b38d126f7047; 0x52817c5f29b21be4; 0x618c1311af21a569; 0x32251f09422417be; 0x77df32d436241596; 0x4d5fec1f884b1717; 0x1e6ddd4f493443fe; 0x2e05bcf1b411debe; 0x6a9bb213f8b1a0fb; 0x73c61aa81bbac07e; 0x23619b736e0402d8; 0x21f03965ab391a41; 0x608a860dc45ec0e6; 0xdf5d988bfd67bee; 0x64ece0688198a3f5; 0x7817c911a22d14f7; 0x2c61477aa83e15df; 0x5d76280baafa3583; 0x34725e21a9a69314; 0x585021eec13cff59; 0x6c01cbd19d8c6d0f; 0x77a557c165e40ce; 0x3cce2b0bbe172650; 0x68de7d56a735c4ec; 0x64ff69b0ba6c0e7d; 0x2ee0d75af320fa25; 0x8427d70f97322db; 0x7fbac15112863a26; 0x5431452c1a2840f; 0x6a5058c32bb1849f; 0x716b53c686e26516; 0x3317c18d30428bc; 0x64051d2d410c5978; 0x3bf3c47d74c28b64; 0x670dac724f9367c3; 0xda530391ed5fcce; 0x33a11d6805c5386e; 0x330d26c9d31e5c37; 0x668b2d02571e68eb; 0x1237126743d79554; 0x1700193d35f8c85e; 0x446a14326e58eb49; 0x71fa3492bc7b7bf3; 0x696d59f01082ee82; 0x792cf7965759fa7c; 0x5e7a3b97d49a32c9; 0x66261fff95f2beea; 0x18b5e873fa72397e; 0x26d6f0451f893276; 0x28d49dd0f8932b47; 0x7058d400cb4ee0fc; 0x544998acf3d4f351; 0x5b0c41a685833c2f; 0x7e38c75c8b739215; 0x2a72665db716d8a3; 0x3ae14d2f12d2ffe6; 0x7b5ce7963132a76c; 0x3100d71fd0701683; 0x6f95807b6bf53551; 0x4bd4e6c6a46a560d; 0x4faefea94ec88b16; 0x61d4643e5c94eea5; 0x6732c15766f4938; 0x1de934e168d74682; 0x3d670c4e200096c2; 0x4d94b6a705886710; 0x1bd48b7cb9c85aa1; 0x7bf199d7217f3e80; 0x5b0ce40d918f5570; 0x1efd9e3b82944d9f; 0x7c83914c6569818a; 0x202f70210b4ba396; 0x7bb802d0ec39e21; 0x3afca3dd868f9c4e; 0x460784919d467d2f; 0x11b30f146aadb03a; 0x10c0c4ccb4988f79; 0x4e9a6e283bcbb4a; 0x3b5a722f9e7f1f5e; 0x427ab70869713a25; 0x6f8744ea7678489c; 0x40a8bde470332417; 0x422d66342c1e05aa; 0x31af9041b7140e04; 0x2c6f776d221442e5; 0x6a4f222244ba5f26; 0x638e0dd81bb7ff78; 0x194cbeb3c2e8f3b0; 0x28385bde9e57c810; 0x6833073fad4f29bc; 0x3f9e8101006e18d2; 0x766e684eee9c5c11; 0x3fc9fb7c02a754b7; 0x50191198e47ea572; 0x43e8a3b3cf916169; 0x76d21e2fe22943ca; 0x387beb4c63d08c1; 0x1f4a8f951c7ad42c; 0x45ff149c518b0742; 0x4e3d5f6b11f21e0f; 0x467f61a9823f9219; 0x1add114597490508; 0x7625c9c1dd33cbc9; 0x52ff38487906dce1; 0x7619e15346a2d7ec; 0x675ef62aae3b742d; 0x61fde8cd25d61f8c; 0x1d354a29fd03c972; 0x5305b47d3806ab67; 0x5e542fe5fef84e70; 0x7a77f9c5046c66d9; 0x6f344aa4eddb6776; 0x15138c4c6c5301f4; 0x59ca5f2f27cd5e10; 0x52ecc9815f3b369f; 0x6f64416166380de8; 0x483192ecbf2c67ce; 0x47b12a06c8371ca2; 0x188d38739ecbcbc2; 0x2e0ea77264e5f081; 0x1cd4fc0236162239; 0x78a3598548ef647f; 0x7dd4bd195703a258; 0x3bc91a9199c2f8d5; 0x7b0bb14a555b12b1; 0x765db4cf38a19f6a; 0x25166a0011cdba94; 0x79879e01e7f999d; 0xccc333cc03c3f03; 0x66061e781fe01e; 0x7ff003303cffc300; 0x7fe7];
   [0x53b1351144b5b3a; 0x21151e29c27227fc; 0x28e396e8bb187091; 0x3cd4ac1fe7dd6a23; 0x7eda08bf09067a0c; 0x4afe8b2d411a5a45; 0x4ee6afb758ffdbc2; 0x104df4ef74cbf468; 0x5351bbd48a5ba182; 0x705b65b3c0b2afcd; 0x4b65fe1a03a5167d; 0x39daf2b4c0693a2c; 0x5680820e8f900678; 0x44b3b69dacde12b6; 0x59c151e7c2f625a1; 0x4d91019943345a6c; 0x6d5fa78f81328012; 0xccd4dd90d106824; 0x60dfe3eb85cc2053; 0x5a8795a5476b3a3a; 0x2c3118efaabc2d23; 0x781971178e1217c2; 0x4526e02f963e2a2a; 0x4d4d87ea56febf9f; 0x3227043512f9edb5; 0x38b84fd9bbcbf69; 0x58803cab202f68ce; 0x2f90fc86091b4109; 0x13c584501658258a; 0x37d88e8db00b57f0; 0x636bb731dc4deb37; 0x3b335c0e07cf67f; 0x736640ea33e7f4e; 0x33b67ac023061682; 0x7972aed7fafa031a; 0x11becec4d91e30e3; 0x1ac6d229cd0a2d5a; 0x5302aa1b5873c504; 0x69dd8471d3a15314; 0x65ae56dee603ad29; 0x4bd67accb709cab; 0x1d1333e151e46e11; 0x34d3e9fbeed8ce06; 0x495d93a3462c3416; 0x4b7c0c14561c2fdf; 0x5a607261e80e0c1d; 0x36b58df342f4e60f; 0x4048ebb97e5508b5; 0x62acac99c46a2396; 0x5e5e0e25f00c2d65; 0x27a0ca258dbd3cfc; 0x66495e652becbd37; 0x2267632625a2c7ad; 0x17c91a38b2883fe8; 0x4ec0ef3ac1810994; 0x390f724b44882af1; 0xe45375525cb009f; 0xdb8f0d069320a25; 0x48798c52a4126302; 0x8a04eaaac276c6b; 0x72f15a7faadca59a; 0x1ea6b133f417307e; 0x5b4fbf7ab10349ca; 0x37cae52350039609; 0x344aa865058cd763; 0x2e0d6770e8a847a4; 0x513213a36917f1fe; 0x142c981c6b5e3108; 0x75e28d95ac844fde; 0x39e86fe39e3497a0; 0x3f20b1c879bf7cef; 0xe209d659e206457; 0x5e60504a0a381cca; 0x3cbaa9e06f2ee131; 0x42dc62a871336e8b; 0x59ce0aff897a2930; 0x1bf3cb3ddd9ce497; 0x36402cc0f0aa5570; 0x5ee67c5ae33c351c; 0x3893f368a977e232; 0x56702e349006a6cb; 0x56947efbe6f0ee28; 0x77355ab0dff1bad4; 0x2778c42dafa8c523; 0x4b064ae8a77eaef2; 0xd93a910a91591df; 0x1c8c443d2aa1dc6e; 0x789317d5d7218785; 0x2a6619beaeb43472; 0x6b82d6e0debca8a0; 0x675880db83843732; 0x605bc5b2196d25e7; 0xa1618db8d4ddd46; 0x4b740a0f5c985898; 0x680d1bc6a35cc56f; 0x76e01a90d2035f22; 0x7c1661f0115b8849; 0x5ed4a7b5855f372; 0x39cf2f949f239db8; 0xbc425efa9b758b7; 0x1a7db7a5e27228c1; 0x58efc0a2b1ce69a5; 0x71c1c9360b79ab4a; 0x42024228efbf0cb5; 0x1e1debfacea79cfc; 0x13e4bda2b10e759b; 0x5d4e4e425dee6ff6; 0x2e71af051f3c73aa; 0x140ba2c70f82929f; 0x350d1a25daab351f; 0x278a64ca42a651ce; 0x4123ae42df382432; 0xdd30230947206d3; 0x65ceb8997b07f494; 0x58a0ff4d57719074; 0x6a8e8ebc09303cc9; 0x4415de8a96fa4569; 0x8903c70b674eeee; 0x516b609083da1418; 0x4fd811fbe111dec; 0x4ba97da48904d08f; 0x8bd0d4976866f76; 0x4225804de4a4f024; 0x62187264287caf15; 0x3f54f5c159864c66; 0x2ebdc385ac883901; 0x1bf30bcaf4e78829; 0x408d006dd61432a3; 0x796c3c3415573617; 0x7f960b247130138; 0x36cc5dc3355b3abf; 0x3434b284b4d4ce64; 0x149bd9d866071766; 0x18f20879ce0cde66; 0x73b154fccffa8108; 0x6b49e348d7672ef6; 0x7658aff33ed0abde; 0x196e61966c7e1dbf; 0x161e7bd24f0f7f19; 0x787f396d8c1eff83; 0x3202e8f8e036040c; 0x14e019bcf71c21e0; 0x2c6e49d0d8d44876; 0x2e9e1913000da5df; 0x588e9f938a1d66da; 0x52151ad9cd8a058b; 0x4508654f88f72f25; 0x392edfc6617a755b; 0x36381f103f4b4f47; 0x49ccf3b537f46d0; 0x5518db9865e286c8; 0x4ff73ccc361f802c; 0x6ffc00cf466e8392; 0x13a01446ff8a5969; 0x366042a8241fdc1c; 0x5015f4cbac57fcca; 0x709bfafc68dbf9c2; 0x660ffa503c7f7515; 0x4547c03f7f9f06ca; 0x2e3109b10feaeffb; 0x2684a07dd791bcfa; 0x6ca2b26ebc36b228; 0x69bf5c87d44714aa; 0x40fd90d4dccf040b; 0x1ec99db4d8d50ef7; 0x58d5bda3b436b368; 0x56371497863eb30e; 0x3e29d14cd7277e79; 0x76e0fe24bf529105; 0x1978dba19c28c4fb; 0x58756b185627d1a3; 0x68849c2e2f2bd5cd; 0x4041fce723e2e9d9; 0x6fc5ff9b377ea0de; 0x7158bcab5b123c78; 0x2c119fdc7eb41d59; 0x1f7921b9adbd387e; 0x56e575924f9f0d55; 0x47e300a121c15f29; 0x44528f82b0dc4043; 0x7e9b4cb8ef357969; 0x70852b903af56489; 0x3eb4af9e051dc82f; 0x56b8764d3230b24f; 0x2b6b60e37a8cfb28; 0x1db2986b0b82fd9b; 0x3c2d58ed15a2df82; 0x7b31227ed3c85c9b; 0x1786e50dd99ef2bd; 0x5f35149cd14a5981; 0x7ef1b58033d12b19; 0x6d6bd1e6883184fc; 0x42173819a6395a3f; 0x39e6df4b8d5f8b75; 0x4414b0159fce263a; 0x550c874237d7b70c; 0x5c149cd1582b2348; 0x7fdedc9c76152287; 0x5e7445c7a63a2e35; 0x6c33a1d3d0c53deb; 0x1136d157423ddd06; 0x3ec54e19eea70117; 0x5814896257b41d21; 0x2cbdde365d09688d; 0x7ee6a63385cd40db; 0x6dedf112af2bf19b; 0xea18735b72af62; 0x1cdaf5f91e0ea78a; 0x4b38bb9defdbf06a; 0x4797a9ce37ac84d8; 0x5dc890523b2bb05c; 0x56b8a172ff3f2093; 0x5c8dec21deefbfb6; 0x43ba87c84ec056a7; 0x498153fa0a6ade56; 0x7238f6b26579817c; 0x4b8fed5b57588e84; 0x3fe117c9117f2119; 0xcac68a674ff2d9; 0x141c6c477a9d0605; 0x7cb998562068c397; 0x32d997c85f1fd292; 0x1c8f7cc84464b527; 0x466ef11c00b901b9; 0x9d403dbba0c1876; 0x4c5ee9014276b75b; 0x4ebfb4e8f47a8dff; 0x576e36b66fa884f2; 0x2c2545e480f1637b; 0x4b0590137fa28e22; 0x2534f135e8be71f0; 0x4d78b1e627df1e6d; 0x5fb1900d11c8973a; 0x6f29f5daaea3ae95; 0xe560c8029432f86; 0x22e2c8e1c444d49b; 0x372164a5283fdb7a; 0x2cf6b1d9e5ec1b45; 0x4f566f432ab28dbc; 0x6d3dd5bd501b7b69; 0x4b1e5a568c3aca0c; 0x75d358d0518856c2; 0x1695aa49187b3d5; 0x3bfc6a61c019b7ae; 0x10b9df4bd13017da; 0x70f4a5fb4db87cdb; 0x626f82822aade4c3; 0x1ef9fec92cbac469; 0x6b91938c2b07cbc4; 0x7e36337401c1d8e; 0xc01ff1e416b997f; 0x930a3b501b59d66; 0x20eef4736f277eb0; 0x2bded8cc28a42f5f; 0x6f5dd4e4a64a3282; 0x7a996fcdd9ea2320; 0x68e21d5db6f4dc87; 0x67448c8aa85e2d3e; 0x58ba0c31aa494a1f; 0x9384a6372d6f1e7; 0xa400fdf2fda1e75; 0x4459d32c6f920904; 0x1332d1ba5e4e6766; 0x2ea8e89eea3577c9; 0x1c828ab118397d3; 0x7c36eb4393276eed; 0x67379059b19601b; 0x192b4d3828601387; 0x7e6c0460b0d63d4e; 0x389a4ca68c7094b4; 0x61170f614fc0983e; 0x78c8bac21aa91885; 0x892eb06623a5bf7; 0x240c0216a78b3a9a; 0x1ac240189dcda89; 0x6307b7c3135bb11b; 0x5e347bbf06705710; 0x7d4a5f4bee996199; 0x100d33765b7c7a37; 0x55d882d5de4797a3; 0x6c13fa8cd76ac59e; 0x335da043a9a75da0; 0x563e1221852be532; 0x79745110abb0021c; 0x64fc33c7aeb73547; 0x127d76201b33ce35; 0x68517a25877dd8ad; 0x4ec625528cd467b; 0x7f4cf19e0065b533; 0x712d0f771fe30189; 0x4d1da83dd73e6df3; 0x58f860a5cfa60d0; 0x21ecc10087228da8; 0x1c92fed33b981e36; 0x6eab6ba4778abcca; 0xa7909bb4460814d; 0x666badb499680b3b; 0x3f41e08bfdd600bd; 0x28853512a16f0ffa; 0x4fb234f00a958c33; 0xa5bcf0916b5ac4c; 0x60fe536016e7d131; 0x6a776e3e2dbb8b25; 0x171d3371d31e512; 0x4e28d0dd323d6338; 0x461f1c15a5a01a4; 0x5692863615907685; 0x32c5d1c9a0c2a502; 0x402a7f32c8bc7fb; 0x26d5a3fde6a480c2; 0x33863fd04fc2c100; 0x88125ddcca7f541; 0x23716a9d3a4cd2eb; 0x67879f9f87e66642; 0x33fffcf0fccfc0c3; 0x6060018618019f86; 0x3fff30fc0333c3c0; 0x66618];
   [0xbf74184119285e6; 0x7e584ea3d9d17c68; 0x2972a1356cc378d2; 0x7287f98b6623e027; 0x5a8d4d908bac9e8e; 0x115524bb40741001; 0x25f2869e8fa8e0a; 0x2decc5d354b40d64; 0x4e8116e3476c7e9c; 0x370279395e236e46; 0x6e5087494ab60d7; 0x4868fa738e21621c; 0x60f4f2a7e242b8a9; 0x2c6e150b2622a310; 0x214b95ea9aa50a8a; 0x2d4020ee64a201d6; 0x7d3800968b43c4fc; 0x4dc2631da4aa60db; 0x2b413ee918d22cec; 0x22f4d5dda18e688a; 0x553da877e61697d; 0x6fabcd7443df129b; 0x2166e42bbf3186c1; 0x3f9174258462c060; 0x441a08c83865528b; 0x5e8b885965683cdc; 0x565c3ab560b4cf2; 0x45010ac231be9b44; 0x1c9f5411c799c822; 0x4664f4833a0d6f9f; 0x65355ea7e42e5e2c; 0x336d114c94619016; 0x51c542a962312e15; 0x3f8cd9be8c594d27; 0x7211fe3a2f905fc7; 0x7a75886e7f0c8786; 0x2ccc722291adf6cc; 0x118214c9e378eb22; 0x7c33b2fa2681aad2; 0x4a8fdf916f9e8d2d; 0x403ff7c861306a47; 0x8ec8116bb11e491; 0xc8917b532955573; 0x47de0919418133ac; 0x78a12b4598184807; 0x6ffa34202898c2d7; 0x1bb2a6002da4a528; 0x6fe54d345ddbf81d; 0x71f63babf2b56373; 0x792014c27ccc9270; 0x4ac13e105e0ee646; 0x5a936adce58b9298; 0x310a36d8139812c1; 0xf0147583d978314; 0x208f1cfa65b8b033; 0x64ebbdfe24f30c70; 0x101bc7049b1a5b54; 0x778786ef398fdb7c; 0x5f315dea77ccb14b; 0x52e2d0fdebe1b2cf; 0x3cc7b488e642591c; 0x1433515a02ebccb8; 0x5a08bec68915fcb; 0x35b382cfb0fee184; 0x470a23de91bd5bbc; 0x58ac149addd142e5; 0x47c82d3d45053ad4; 0x1fa4c96a218bbae0; 0x283a2bc790b7c30a; 0x1cdf7acf88ffa050; 0xb3e3ffe3d32b53f; 0x22bd043b2f1695; 0x644e45bd5261ca46; 0x73b13410578c62d7; 0xe6ded42381a9cf; 0x6bba65a293d5a740; 0x5baefc51eaf0001; 0x4cea59adaf1735ea; 0x1552948ce131ec1d; 0x13cc17828abfbd9a; 0x5553bf2a1c6db801; 0x37ac7ac0bc414bcb; 0x57580bdd74e09a4b; 0x5d941565ed89021a; 0xa237ffa85c86c93; 0x893548458aeac56; 0x2d1e4f329860dec9; 0x16df33f615d17e80; 0x42572631fb8579c9; 0x7647ed493307aaf9; 0x475cd65e68c48356; 0x7e910eaaca7bf65d; 0x53db90dad916b6ea; 0x4e519e48a8655d6b; 0x76173d18065d9ba7; 0x23711e02d17fcce5; 0x1b3877723b296fc2; 0x5154d10a5ed0052e; 0x3ce3d605b56ccbfc; 0x19626209571f5521; 0x321a37e661b5cc67; 0x30849a1c22489721; 0x38f101ab0c0ccc3b; 0x766b43f63e98f3c7; 0xb5902737dc81711; 0x11c9efbb675ac0db; 0x5d7888e88b76169f; 0x5c409069bbb94443; 0x2cfbd67dd86f6a06; 0x4f4e8e84e226c26b; 0x295840e2ca50cb4; 0x5d75a362169e7754; 0x76f9bddc7a140995; 0x1ffd2cb48962dd0d; 0x513af1362b96fd10; 0x6cb1eb9fed097469; 0x7c4b1bbebcc7b423; 0x6c6a309629380852; 0x67c2a46d18e9c4c9; 0x681fb477eaf47e36; 0x146c0e78988040f; 0x679ceb90dee34a2d; 0x1cf1ddeab12a3b69; 0x5a7c548c693cbc6e; 0x364c21ad4f535e29; 0x436f7b05801c4754; 0x1ef4d5f466694614; 0x3ee3e47146187ac8; 0x69726cae75637219; 0x7e1c7e063057434f; 0x5bce7d2dcdc88c49; 0x296cec33238a7ddc; 0x7110d1fe55e0be19; 0x5031a5dfb4c1e5; 0x26b250e149c6792b; 0x732b3b78477a2f51; 0xf6c8e7e7b2d575e; 0x46b456306894b9f5; 0x1c92fa7ef3da41f7; 0x6d37121de5ced989; 0x6cb705c1285698c2; 0xeec819c956d24ae; 0x61ada18d86b42324; 0x7b4643c947c50983; 0x56068a4c3232bae2; 0x300b5ec6697d11af; 0xa32d9c8566c4144; 0x4138be770c46d9cb; 0x345e899ea93e8c9e; 0x40cb3f877792e543; 0x1182e3e90a7a51cf; 0x5077d0165eafa878; 0x359d3980c62431d7; 0x5d23133c29343d4c; 0x4dff25ed9beecd65; 0x5470e6a2c493acbf; 0x8b801ebe4b01f2f; 0x61ee0c2bb2e2273a; 0x176e9d49636aedf; 0x59a9a0dbbce24fb2; 0x4162319d5a36ec2b; 0x7d9838f73206fc4a; 0x5efcc390fcc87156; 0x238ee590d0fe27dc; 0x42c0a3a26195e453; 0x4cc314ca643c24e8; 0x7fadd99baf34cbd5; 0x6abb1212d28b80bd; 0x48fb1f31bbc9ae16; 0x33409dfab0b2bd71; 0x5f2a1a9f0fb537f0; 0x689f1a86012bd859; 0x59bbb7f641d72fb; 0x5529b0074ff6ba13; 0x5f54392d35870bfb; 0x5796c1a63e915149; 0x931282400177d8d; 0x46edf6addb216072; 0x278f909bf3e9df30; 0x5d8b1eda7674375d; 0x55d2c48642b23bf2; 0x29ad6c4a8479135b; 0x281b8ca25f43b8cd; 0x5d77cd7cc285dd28; 0x2fe8d608ece27fc3; 0x4e071a1a00104f33; 0x32251a5d8c0b0881; 0x3e1e45f9b4fa934b; 0x70a4a6b02f2e38ed; 0x4283590853770040; 0x773d01c5a51575d1; 0x402c48e07324c66f; 0x13cd30b7f8bdfa89; 0x59bcba35cb93970; 0x772a0a776bc8c178; 0x5fc39f946ee3ae43; 0x586b3fd769c6aa2; 0x39a07b02dd7d1c9d; 0x48251b93508b94be; 0x66bead965f3fc7aa; 0x41bc5278f56bfbf1; 0x2271e876a69fff88; 0x5e7854d4c7b31fc7; 0x4ddf2f812baeda2d; 0x49868d4a7f00d978; 0x73b7b5bb7ad1cd68; 0x5c573d3f58e4a7f8; 0x50255f0b004ece74; 0x2c69b926faf7c551; 0x6e3e6abfc144ab55; 0x72da39d9889f7ede; 0x1ee1c610cafe0841; 0x54fcb16dc326a6c0; 0x4dd878799733626; 0x2950be864735424d; 0xc0b9d1a4a5de82e; 0x794c8144b7d34794; 0x19d0ae06420a978c; 0xc837446612a8f7; 0x2e306e2c4868a6f8; 0x1b284ec77c250f40; 0x327ef81bf6a244d0; 0x7474a84b3dd8a2ee; 0x2178a9d0ecdf1656; 0x421025c1f0fa506d; 0x293158cfec53736b; 0x35007b4cc75d9d49; 0x6caaa6768cdbb732; 0x6fe714cebe1e90c6; 0x1d66084f290ceb82; 0x1711b2f1e5b39026; 0x2d3aec8fde2d8c3; 0x560387d30048b451; 0x6beb23b5c24f1de2; 0x7980005d8bc21656; 0x3b80cf6f146fc158; 0x5393cd6827a63750; 0x204f930cd7422034; 0x32def25b26b78944; 0x511ba0c43cfb671d; 0x1d5ff499ffa245a3; 0x1dd9e0b52bb56ac2; 0x36170db27e28ee02; 0x77a5a5a246d52597; 0x4ee67235b6d5ad87; 0x53fa9aa89b2ddf79; 0x644b1090167b33a9; 0xd0bd3e783c8aea7; 0x43afce15cd856344; 0x478ab1bc428e99d9; 0xa80bfd758ac9c9b; 0x735f178bec335cea; 0x7499198cc9f57923; 0x49a2fbc97551507b; 0x4319b0de6d48bc35; 0x643afd74ec3404c; 0x327c03ccebf5af6f; 0x3954bd1c32a43e31; 0x27739c7bfda0316b; 0x262626c9c7de5057; 0x4f22a9f5206f885c; 0x59321846f9e194a2; 0x6315e69ddab51f56; 0x1b6d8147d2e2a543; 0x330df7e5561b280e; 0x5fdc7876a4cd03de; 0x411e7ad831470c25; 0x355418947836df26; 0xf6a26ff04a247aa; 0x1fa0c93fa70266b0; 0x53f6537b69d5b6ed; 0x3e42a5702fa478d8; 0x15c886ff21267cec; 0x215f496df1ef495d; 0x7fb724c4955e05d1; 0x665b5302f991f1dc; 0x506b1a14c9a91563; 0x3623fda09ab0e5a9; 0x433267f69519e3a1; 0x67c4c5848a0a339c; 0x4472033ba7440e5c; 0x1544fa414f3d02df; 0x59704064a7c1e432; 0x527188739f57e0fe; 0x2a26e4fdeb1f0e93; 0x53b504173fb6430e; 0x1c736003cc8cacde; 0x104299c580ad6d8b; 0x5ea185519730c8d1; 0x2000e3c4b20244a2; 0xfc44ff6ff6720be; 0x1f839568ab72fe2; 0x4f5a102fe4bc4954; 0x6b2a1433129fb7e6; 0x41a4d44bba48d23c; 0x6c440b2ab244fee2; 0x66acb408cee3eef7; 0x24f6da9853a6e905; 0x4caf2d3918e51dd3; 0x6e43c10aef735010; 0x83c39711f924093; 0x13be053a2e8bb53f; 0x41398e53bd5389b9; 0x1b6aa40586ad09b; 0x3e323d52c747c576; 0x7e51d9a94143a6e4; 0x4cc6865b47736991; 0x16b72e8379134c8e; 0x7d8ab128587414b0; 0x17d2226a1c5a961b; 0x66b4adc043f25665; 0x698d80446ee9b4ea; 0x3b1ac67d33202548; 0x7f98678679f9d2; 0xf000cf003c0c0c3; 0x61879e787999e6; 0x70fc300303fcc3cc; 0x7e187];
   [0x15f70823c47d802; 0x3084666255cdebe8; 0x61b3702d2809747c; 0x75b3707db03760d8; 0x62acc56b64e8c253; 0x1eb60c18e1f703ef; 0xd30be71bc697d12; 0x63fe20987fd05e1d; 0x52a0582665ae9d50; 0x3606700aa7ca57f; 0x6e7fd87e6321ff86; 0x228c9a0b3d0de6ed; 0x50d5fcc11a69c0de; 0x5bf2958a272f4cc8; 0x7e0ab231429a646; 0x2e0277a9d96e7d58; 0x27c7bea2ebbaef39; 0xef6470c96ec47d1; 0x444a4d4c284afa10; 0x7b9799b4241010fe; 0x332e0a222d9ea4bc; 0x4e5a7934b8eeaabb; 0x4a5ffeb8cbeb7de5; 0x62133eab61bd96a; 0x63e3011b8ad8b904; 0x70b04f053adfd0f6; 0x60469ed3a722fe16; 0x56245dec25c03858; 0x66c95cf71f0f0f6b; 0x6a66ef374dd6092a; 0x14e67716b4141fbd; 0x2b3b9f10d70852f8; 0x56fb12f845097b05; 0x59be94249890eedf; 0x6e10ec3c27ed3b0f; 0x35e36593804504b6; 0x41661fcd61a5aefe; 0x59b71a1148ba3cfa; 0x4f735bae5b5f567; 0x4221a0dbf8c89592; 0x4b482245fe3e716; 0x622a879294a61c1; 0x3861c363f8d20a6a; 0x569cdad5e0553f7e; 0x3f8364f5c8836460; 0x5b7f461baa3e3714; 0x68282e55a8118d1b; 0x76974e2d15398de3; 0x5b3fead599b399d5; 0x1b09bd2b2730452a; 0x7aa8460edc56f41; 0x1e36be1d237c3cbd; 0x1220478d26db6c87; 0x974b42946fab1ec; 0x5f2bde9daadfca73; 0x3744e7b144cf38fb; 0x6adb2608000051ce; 0x9a0da25fc463a42; 0x50beeee923394290; 0x1fac691e55d92d1e; 0x2f7f8ebe61463dd3; 0x34a28bb26fcded54; 0x6e4afc69ac63ad4d; 0x157468d143fd5765; 0x34f2930ba0d8164d; 0x7fa72559b13b1a38; 0x44dc55d3e0c9493c; 0x53f39b0a40e768cd; 0x57c54e241b4ed8e0; 0x179ae5a38f8a7f02; 0x241754aa2dc32002; 0x78c4f541e19a0bb1; 0x6ce7e21eaae720ae; 0x1aa8e32ee41b5767; 0x456b5e7975c3a0d4; 0x6ec5a88c3e45e10e; 0xe6ffe6971d72c1c; 0x9182156e9e9d14b; 0x3d0f552c6d684ba9; 0x79562e0c0021e6d5; 0x42c18790d6ec09b6; 0x37d4ae68a05859a0; 0x708fa778ecbeaf10; 0x915670a34488222; 0xed9ccc1e442359; 0x22a47be83616c67d; 0x5f8b271b3776c88c; 0x5cc6f1a48dcfed3e; 0x68a1a3c292bc7a18; 0x706e6d22cc9386be; 0xe893bed9ae9de86; 0x4239d5e1ae0be8bf; 0xac2f973959373a4; 0x2834328dac14991c; 0x1d9a9c6c3fe77174; 0x574fc0204da16d6f; 0x27631162a3136564; 0x6230cd66a080758; 0x18b8981334f8f17b; 0x492bf46d24807887; 0x4e9f569c46ec868d; 0xb41407891575618; 0x66a0b9271feb0fbb; 0x6d2c3be9b04c4a6b; 0x65cfea3076423eb5; 0x7268508069e4ad; 0x6cef2be3a96505ad; 0x22035f18e4caeb06; 0x32a9fadb3bc4b0cc; 0x4e7f0858c3384110; 0x2fe3b0b3cfc50610; 0x7e27fdfb5a009580; 0x5ed91bcb69eb0fd3; 0x25e19080539b13e0; 0x6d26a9ae594b3b96; 0x5a0361ee7a3adcf5; 0x3ca2ec7077d8e9f8; 0x6af7f826d550c6b4; 0x6ffae4f848fd766c; 0xbef8e065ede17ba; 0x7db22336c7b2036b; 0x4f377dee20276592; 0x743672a305b11bfb; 0xcd0425c0e4d84b6; 0x788b00027c25f79f; 0x745be0ad9d8ab88e; 0xf7c708c066af399; 0x26a0540e17d7e4c4; 0x402fa8c673cb469c; 0x70b3d625ec985e63; 0x4d9e55d667f6ed3e; 0xef1027f66fe8f80; 0x71c7f7a938f1d040; 0x308d1f4c14438093; 0x249520a0de0cd210; 0x21c8a95ddd878526; 0xb27b5257e2b7bb1; 0x5c94f1294e17dcff; 0x2babb50683ca873e; 0x1554dd04e4d84646; 0x15f32c00120ec6a4; 0x1ac8528d38b3e92d; 0x3f49b19543968983; 0x1e428fb9b2374928; 0x5b692b8d043dc0f1; 0x1622f1cf88080b70; 0x7042272e4a239dd; 0x44c3996d3a166247; 0x4a0ba26a6312ad5f; 0x5600c55b5f485a93; 0x43b93cfacffdfe2d; 0x69da9048cdf0e3c6; 0x11ebb5eca915266b; 0x29588a6e24728d9b; 0x20d9c7aa5e154d8; 0x41a7f854620cd497; 0x771843444bbc5c3e; 0x7cc8faebb459494c; 0x2cae2410c613c795; 0x1913fa3d0ba3fcb6; 0x623df6aeb2a4141; 0x44a1416f3fa55cd2; 0x5b3fb570729d8074; 0x2653d474a0560f7b; 0x65e204a50a166203; 0x4d485d41c415157f; 0x6a7fe0312e4b85bb; 0x73218e9b8ca616f7; 0x1ced8d95e7f5a644; 0x39e52aaafdf73702; 0x4961dc8f706911aa; 0x368db3c6d2bcb6a5; 0x69114e960ed8d712; 0x2a9591559166640b; 0x388515da6a0796d4; 0x3b14be5b88376287; 0x3c007e780aa7a187; 0x71c93b11a1df9057; 0xf28f4d9c1014df7; 0x7a187c965773090f; 0x510a36cb166d8db5; 0x28162b44c85a6e98; 0x1e35b36b12b061b3; 0x5cc1dd548325ea4c; 0x2b7b08ee496ab612; 0x4f93dc362bf205e2; 0x3208c5900670be4c; 0x1645ab36d623ff00; 0x5f766f4133823fb5; 0x4fa258206abb309f; 0x197f8a3bd5e525a6; 0x650c843e577b64d6; 0x547ce281ee74e6ca; 0x3b80e79e97da21e9; 0x300fc43d7b85e45b; 0x437750358e81f399; 0x5c24d0e76d056b4a; 0x791bde8b60254816; 0x2c8befef94cdffa1; 0x1f67478783dca89; 0x73543b5f8537b9f9; 0x6f3fe327f356386a; 0x4ed51d997b9d614d; 0x7cac14536422f40; 0x76a9ce323344840f; 0x2857ed472a85beaa; 0x5b4e42f408875188; 0x7f88d2eab76af8a0; 0xc8c8c82ff8c316d; 0x128146b8fe484f65; 0xc24577ac14f0dac; 0x3a664bd3b2a8457; 0x196d21511c730c1a; 0x2aa4d724dccd4fdb; 0xb3a5150cdbb8640; 0x3e5204f98f087183; 0x5756ea527073cf92; 0x310161ee83e1f53c; 0x5ab47a22fa214f88; 0x4c572d141293ea8c; 0x375be580370da53b; 0xe9cd8c7d234799; 0x138bc7a717aad98a; 0xed8152b11c9d963; 0x4835069532ff8fa3; 0xf7f9637a1000d6f; 0x48c36528bc5d3e91; 0x58dba8f0ce5be284; 0x4f1765d9ba7bb624; 0x5cb20599da8fec0b; 0x22ba154c90407342; 0x1378273f23f50617; 0x2cd8e197ddeac9fb; 0x37f796de59c8ad4a; 0x7e541e5f6b40ba71; 0x2d9fa891ce81a2b9; 0x5a9ff091bb2a3b6b; 0x2e728a9f3f088fa3; 0x2b578daabf56fc9; 0x92fc1c23b084bab; 0x7a75fbd93d388136; 0x39b9db00e3e4ff16; 0x35cd07e1b2636d6d; 0x75f4d631d3356db8; 0x604a086960c86838; 0x6078b32c0ad97847; 0x1eb19c93eeda36ff; 0xfeabd676ab67329; 0x410983c077712cc5; 0x771d0e2cf74ba8bf; 0x814db67240af639; 0x71c68d823b05cada; 0x49fe78d24828b7f7; 0x370eb96ab3ffc2f2; 0x68031a46478b0905; 0x9b5bf167f805dc0; 0x3043c4672ba6fa2b; 0x3ee2714532315036; 0x63ebe7a8b9a656a2; 0x3eefb88387ddc17c; 0x2ba9e5e2aa152cc2; 0x5d5690483a7cd9bf; 0x1d77295259a5c532; 0x19537bf0c470d015; 0x5d48dff72d5171bc; 0x6e81ad9e63e39d88; 0x5ad53536bef0dd80; 0x1039228415e15683; 0x4499638ee9a8fc34; 0x67c0b3ff33dc0a51; 0x2716012ea24eef81; 0x7d9a41b00693467f; 0x3e8cff798983868b; 0x50e5dabd35976a27; 0x295f15cdc3f5dd5; 0x68ee75eff67e1361; 0x4efc4e0da0457817; 0x74bc3bf26ddc00fe; 0x1b0295ed9c06690; 0x505c4ae64fd54842; 0xd2e7023325d398a; 0x55c93b1dfb785fef; 0x531d6f91b9bcd726; 0x67dcd51269a0557a; 0x23c0d4870dac9c3e; 0xb298c3b8ddd999; 0x6921136ada226e6d; 0x23f8b5be1e8584c7; 0x7616818f5ab6ac94; 0x156f779a07f025b; 0x60c232686b18b729; 0x243b868f238cf08d; 0x4fbef066f5af0632; 0x4516a835499971e0; 0x4123c12a169eec90; 0x7f158573bf3a796c; 0x17b9f2fcd8ab3853; 0x47138ba6f7c4a062; 0x552b29df010b3273; 0x67fdba0a8d67cb33; 0x128d0e3264f446ec; 0x1a9a9147e1b57c8b; 0x3c1f0268f11e69e2; 0x5e82fe3b55a9e84f; 0x62669c953b2bf19b; 0x3cd397fe7b98e53c; 0x30d5be3fee5f5e31; 0x2be2617225b7c560; 0x4d78659a000c9e8a; 0x5b23d5c01ee4f371; 0x1b07fdee6b9b5e6; 0x66374f3f757809fc; 0x45115f007530b5fe; 0x1e1800601fe0671f; 0xcc00f00cf0c3cf3; 0x7818660619818780; 0x3f000cf00cf033f0; 0x1801e6];
   [0xc100c349e08b8a8; 0x2b5f47f070eeec1b; 0x27bb41146d7eaca1; 0x5fe9d7b5814af5c3; 0x1fbfab7129236fe7; 0x21e1d87b7d1d6b1b; 0x6c11fd9cebcb8d5e; 0x5b90279177f5d60; 0x4d981c69315e6bfe; 0x840087b9b35704f; 0x4aeeeda0efda25f7; 0x4ea8dada876a43d8; 0x6684dcb47c238030; 0x70c841e1b58b4f6e; 0x53a33fafff541afb; 0x7701511f2089113; 0x5509e747a54bff8a; 0x318fea875525265; 0x817cc268f95e81f; 0x1a3c09a6ae7e376a; 0x3c09034da6e2d452; 0x7fdb045cca53cdc1; 0x7cf2de3d04be3c2a; 0x9ff8b467d908bca; 0x4c141882fac44953; 0x75f679286ececc36; 0x1baab59edac67abd; 0x4626a5a37b15e538; 0x6d87b4ac0e0ed69e; 0x1d4569b7f167fbf5; 0xd57cd9339e1876b; 0x3b6caf277d6e4dd3; 0x605e510937cbeb6; 0x7b3432493fd78090; 0x565583ced4dd1d80; 0x3e47104354956faa; 0x78fc8b9cd199bc31; 0x167703bc297b7d96; 0x12ae925c49e6cbdb; 0x1c24ad8ac5d77e06; 0x2c38a1a0886b02c6; 0x11c5cd1d2e6f0201; 0x7b13cd7bee818da6; 0x1aea243e50288de8; 0x4198abeabbcd36fb; 0x15b4114562d60e06; 0x4a6de828de34a5b0; 0x7f0bde02743c0c88; 0x334cb8dbc5f8fab2; 0x1feab4962c538b8e; 0x7be2b0d621eadedc; 0x2d21ba8c76a46b0d; 0x3d4c4492a387b81; 0x69c43c98b91ea946; 0x4729be5959e3cb72; 0x5c561a322b8c269f; 0x18db068b8988e011; 0x75e10f620e3690b2; 0x6f3a9a5142160031; 0x20a29961e4d25c88; 0x33f88ed993c1c86e; 0x2af8551188cfe7a9; 0x58f6caee43b3d4fc; 0x20d30af50217a17e; 0x25deb8fd431e79d; 0x1429f9b659d2cabb; 0x116d19d285caed4a; 0x7fd813b89aa20291; 0x77732931866244c7; 0x6c55189f7a6f7c09; 0x5807cdcbaa55d1a9; 0x52391245611383fc; 0x35b10ffbb50ab08e; 0x797ee82b61ea468d; 0x5d7b89e1be03aaf9; 0x2e4750469b32c6de; 0x380c364c1f665fbc; 0x4db552002cf848d6; 0x1b948af0093eaf94; 0x57eec15b8fec7cd8; 0x26cee4b88cebc8e1; 0x1d769a0360c48976; 0x2380f586f0cd354a; 0x39667e1751b7cc80; 0x2e8493df47f3249c; 0x239cc6aa436882ca; 0x6e90493ac1c0cafd; 0x4026276ee9ee3de0; 0x2515213027f43a8b; 0x29f6cc4d810c0dbd; 0x46c7bf426d422417; 0x308c4643551c70fc; 0x9ba8adcc88d1e61; 0x283f28d94bb8fed7; 0x6cbe0a0e4adf1e93; 0x6b503f0c7b9a8d19; 0x3c618f9ddf67cba9; 0x1101791d4034ef5c; 0x12853dc5b259a74; 0x47af4e2447f776d2; 0x63852a0f155b7655; 0x1635da4be410035e; 0x49b32cacd5051832; 0x633d3c6175450487; 0x3c532f375aa3a566; 0x1118af72bc59288e; 0xf01dfdaa9088510; 0xee7346249df813f; 0x7fec98ca2167aec; 0x3f8161710f728593; 0x7c7fefa420cfa687; 0x534aef67287db8fe; 0x51479946186f02ac; 0x60ecddd0e2aceffb; 0x6082da1291d6d051; 0x53f6f353a0dab816; 0x185976a3e8107c67; 0x56849d905f011666; 0x1b11a5c540864f53; 0x170bab592cf1120f; 0x2f54a16089be6414; 0x53545a739a168cbb; 0x3101fc202cd6f65c; 0x56aab79863ec7e8e; 0x75916b648a594169; 0x1608fe7e32b0e423; 0x4a7d0d4e3c904a7e; 0x538c5a586eebbd2e; 0x18e4e5f11df34d53; 0x3a00b5fc2b745a6d; 0x438b4a771c234851; 0x788a889ca2228427; 0x63346bb2ed4a9041; 0xa023f6af480da27; 0x816ac6905fc2e6d; 0x4b4d4a365c23e7c1; 0x4d275f53d4956efc; 0x17df21e56adfd035; 0x42422d36daca3d21; 0x5b817d6c8ed66426; 0xdf86bf91bb194bd; 0x440c92456d263a6c; 0x7c57df8d8aa33aca; 0x67ea9f80b1004c03; 0x4b5b656eef252a89; 0x648617029845d5b6; 0x27c111e1913ed901; 0x4f60a62089c76a50; 0x44cd1d12367db135; 0x69274a165b11a1d2; 0x967746e92bc5a6f; 0xe852c8c216370f8; 0x34549bed748937bf; 0x55f368c6bf54ab4; 0x5ce2e032ae6b5023; 0x432c2ce09684b3e5; 0x13fdb63bef310aab; 0x1d05a6fe16fcd82e; 0x361e6659ee1d5674; 0x1e53e4c1c0a1710c; 0x192f7166017a35da; 0x14b51186fcf23e93; 0x1aae561b89fa9b6f; 0x5efe09471a2c98a0; 0x7ca7d25792ac4a0d; 0x41862dce0f853f46; 0x4bde5da540552703; 0x56e3360f6357b551; 0x6572cfbc637d0da0; 0x1821562e038bbf95; 0x515bcbad0a3d9489; 0x764b6a3675056449; 0x6f5b6960a81dfdfa; 0x38e3441140a1f58d; 0x48dbf550fa4d2e9e; 0x25c1258e7a4507a7; 0x46456d486a209832; 0x39b3687a9fa9181; 0x24bfaa40192377eb; 0x5375009a2d9879fd; 0x54ee8c869787cead; 0x1dc3cceeaea4b116; 0x7e4555df56ead4c6; 0x552eee901666df05; 0x1bb916df7bda001c; 0x202406df0ffdd041; 0x1c185befabac9133; 0x184749b17079514d; 0x67813fd265abdae3; 0x65fbf934c36f1f66; 0x4ea1b76b4485548f; 0x35e0a1335f09f2a6; 0x29bba71e85ce4271; 0x4466e4f93e311cc1; 0x5a96726daab2a9dc; 0x4f12f775fcf99699; 0x4879ceee9afbc7f; 0xb75c4a8d80d041; 0x2900826a7676ffb9; 0x110093cd4eb6fa42; 0x26127274e14fe797; 0x40bfb91d01b91b02; 0x60573a9da080b1da; 0x3b94990fffa33d85; 0x2908264b52ab5313; 0x1315b41d7c9d2fcd; 0x5c2b5702709fd7b8; 0x419d0270248bc2b5; 0x7653aad6b04618a5; 0x68e779a99d6ff8fa; 0x57fc7191d5cbe0f1; 0x6ab0a1ac74667055; 0x432a76224030875a; 0x148992301ac4fbb4; 0x50beb18ed750f07f; 0x5fedcab49249fadb; 0x11e40a69e07618cf; 0x6d4ad7d7168b5c54; 0x567b0130116594ed; 0x7c426bb27928671c; 0x160984ec4503761e; 0xf7d00e5e88efa12; 0x6213e3ec53521e32; 0x66b73dfe12c2c94d; 0x357ca72bab7a9d4f; 0x42862f42ec470548; 0x5632068cadd5b1e; 0x591c9f726ec78c0e; 0x4c90c1ef13cbc322; 0x5bb8597f012d6ed1; 0x4c1e5c8e877d543f; 0x4766c0168dd9de06; 0xc6254cf5fa9f00e; 0x79f1c7999a74b11e; 0x4994c47208d18c49; 0x1f77d9daf3d8283a; 0x24c2d37e9511d5be; 0x327e95c21b029a68; 0x6998ca0ec132b5d; 0x7d9fd6539c597d2a; 0x7257bb2df1273806; 0x14205aef5caa3ac5; 0x48e17226cc7e8f23; 0x266604a90468d2a0; 0x355246d22877afff; 0x58658acf41ba6b51; 0x46cda5f84463adc9; 0x3a20cbbf4d483101; 0x770829772d8f201f; 0x5a36f8d80cb4387c; 0x5f9fab0a3f9b3bec; 0x1bc97c36d29a89af; 0xe95f7e8912bb6cd; 0x558cc7777195ce38; 0x4ed8ec38eaef1b89; 0x327df4fe74fd1c99; 0x49d964320c02ac4; 0x5e3d6cc42a8b4cf9; 0x304d857eaf05d9bc; 0x4813a43a689b3975; 0x6858c1d007110780; 0x131c91c426ba905b; 0x6d90f0420e8d5505; 0x1b78c2bd05364c61; 0x75cf5a1c80323cd1; 0x51378e87ab58fd9; 0x11419c5b8300fc9d; 0x29853fe1f7bd35cb; 0x2e3eae7a82aea46a; 0x24f985787be5e3ce; 0x25b5b128773e0bf6; 0x76f31b410a9106e; 0x6a8a9ee58970aedc; 0x33831c73f337d9b; 0x73cf8d0cbf95ea0a; 0x2470777d122a7916; 0x6deb636b522379d3; 0x883aab9a3490ac0; 0x62f99b99a107bfc6; 0x162a61e93ef5325d; 0x5c974367571787a4; 0x2b21791fe8afdde7; 0x62b092e97fe40f47; 0x21c28917dc286de9; 0x3be9cbededd4b1d0; 0x2ef99e5b05c92bca; 0x1a07170c9562237b; 0x8efc92799e14d05; 0x1454d6bcc1f42f22; 0x1c7ad1366160073; 0x6a30da1abb447c2e; 0x37fd67938acb6805; 0x4e6c5306750a7a56; 0x551e8188ebcd47b7; 0x14ce4e6976201ba6; 0x524e003737fa2c7; 0x55d992f766507425; 0x46789a3d195bd1c9; 0x4d29390b7dd21897; 0x58fb924c21b3c7f4; 0x44a6f11404a57c49; 0x27ccc051a9b720d0; 0x32692f72da19cb2f; 0x6d5555d55f3127d; 0x668365b487944fbe; 0x23b16efd516ba53a; 0x51acc2bebe7edbdf; 0x6c24b8efca23466a; 0x4ad5ae41833063c3; 0x57b744edeac6ea7f; 0x1bb407bf545ec440; 0x597cf2d3b2024ca9; 0x381ece29bd85ca2c; 0x7f99ffff87981f2a; 0x433fc30000c33c33; 0x66781f8661e787e7; 0x3033fc3cf0f30f00; 0x1fe186];
   [0x445882c7dc7f991d; 0x714b3841ecf3ddf0; 0x2c72e630dc4b1f40; 0x16abec22ad201eb8; 0x3e4fe8de2ddba6a7; 0x729286cd8fe83518; 0x3579b914a92f2ac; 0x263209ebb8be402b; 0x4c15aacf57767a33; 0x357846d40d53ddeb; 0x17cdc9fe7ffb3acf; 0x1f272dc6caecef7; 0x478e0afe8da65bab; 0x68fb9333ec9ea081; 0x44b49b481877a453; 0x3eeb26e6dae09b70; 0x425f4ee673a62938; 0x663a86d698cf483a; 0x6fb6932201ccdf7a; 0x4ec0363792a73415; 0x2711a9b59e32af3b; 0x5b09230512c1ecdc; 0x7852df23859490e6; 0x106500833ae425b; 0x2b521654acd8a212; 0x3dcb8899a270464f; 0x6b46bc24f98a2332; 0x6c27563f8ca7310d; 0x68058eed534f609; 0x687a9defff56946e; 0x9d5f580852e4cc; 0x6b47564b04cc3eb2; 0x4d45379effbdbd2; 0x1b69e75107fec84; 0x599b7008ebddb8a5; 0x188007b05f56ed4b; 0x4ba701679987d55f; 0x1e38e1d7533ce331; 0x1feeb3ef234dbddf; 0x524ace2bdb6457f9; 0x4810a690fb50033f; 0x4afb06cbb9138570; 0x754247ee94d14878; 0x3183cc7d074ef66e; 0x62f12654c1c2a6a5; 0x34b0403e4ebc14b1; 0x4019bd72e8ae6d6e; 0x19d229af302f50d0; 0x2e44aeca7c6d5781; 0x32c2185c7aa687c8; 0x92474cdab5e3af5; 0x6a868eac1d71e0e5; 0x2627d16f57349a8c; 0x445726c3b5f6d6cf; 0x52de7062ec999072; 0x5a854c3a38912293; 0x5b400a11868c1f05; 0x6a56b08bad5e8a4a; 0x54c48ab329c181b3; 0x75d2e9ce77f7410c; 0x3eb6856583177673; 0x2e4dbecb850d5af7; 0x3a615c12c7f3f841; 0x5ce784c3c6add585; 0x397c85c2a543a207; 0x18964d29f958fa49; 0x4f8376246f668fee; 0xb6070c5cd24b9b1; 0x786d14faedd2453b; 0x40d830684a29f613; 0x18ed4362dadfeedd; 0x7b97343a313f2860; 0x56da4285539f8f67; 0x440e6cdf145b09a4; 0x6b05a16bbb97e30; 0x6f41f05010808a7; 0x31ff9c44eb6d5355; 0x11b066876e3ad98d; 0x436122c7aea1741a; 0x621db0b0e15f07db; 0x3f5a73841a6637d8; 0x467afae7ff802d27; 0x3712f886d035e501; 0x27a1ea2f6ffca35a; 0x1d73acd0ae57d77d; 0x7745072fe5a77994; 0x766dd81019dbcefc; 0x418a5a685310d603; 0x63054e02b7b627f; 0x2bf48c24800e1241; 0x56c0d071ae92c46e; 0x656581285c959284; 0x529d09d2533b3485; 0x1e6dba0f4d04dcc; 0x52d93d4fa19a1442; 0x7c8fded0d54bf9df; 0x1e7fffc3b787400d; 0x2c7208a83d1e1c6; 0x7d714deb045befff; 0x68c2ed458d8ef3e8; 0x3f01cdd8879670d6; 0x47050a5ae989e4a5; 0x435c8b3a216399ed; 0x37934e760d74fdfc; 0x10321e29448cf85e; 0x55e09ed69201d418; 0x66ed2045f5340a0a; 0x505c3a23cc23e14b; 0x74f9cf90a7d04759; 0x66187f1c167fd9bc; 0x41bc4b33b2e919a6; 0x20bf2912abe69782; 0x6ce9eec7aef01f52; 0x6d0c9e84916fc14b; 0x774950097f03710b; 0x26aa7dd806b6258e; 0x78e146bfbc2ed122; 0x1efe8daed18d6309; 0x639f0679aa8c3da7; 0x68c8f701cc8ed175; 0x7c1025333b0158f5; 0x719235229e824f4a; 0x75ff2c79b18aef10; 0x694f561245706628; 0x3a4bdf5aab630341; 0x4be04634b2df3d78; 0x41574f5b2490bf4f; 0x53be8a32d7ba9e19; 0x3d94c8e82fd4ca3; 0x536697511b98bbb; 0x4a19191cf7442fe8; 0x6a701d2bd9c6e357; 0x63b56b8f5fdba3f6; 0x32a08e901752b5ef; 0x1185a77016f6d6ef; 0x6bdc321caf3f8665; 0x2f4b35b958776f5d; 0x34841669e47fc934; 0x1407cf61da914211; 0x131f8467ae821578; 0x2ae7d0419b1e0664; 0x7d0ae63abb4769e6; 0x4fcb96efcbaa0a7e; 0x3bcc850ab10be4e4; 0x6ee409ef371fd811; 0x6aa95b30e1370d07; 0x662b17d471d73f2; 0x1736c574d2657536; 0x62ea6bb5f2f90745; 0x3c1fde5d113a9f33; 0x6767898861dcbb28; 0x5fb8fe4bb17057e6; 0x2be0e8fe0c514988; 0xeb1071dc46732b9; 0x5506a933979ea09d; 0x22fc0a61d9bc572c; 0x79ce4c081747bc5e; 0x352d051e59b0925c; 0x2098375f3a24c2a8; 0x14d68b095f621cbb; 0x3f2a2b5e1965ba6d; 0x27d4868112d6a283; 0x2061dab1c41a9e0e; 0x3075c9db60ac1a58; 0xbe6ce9fc58d8d95; 0x7100b9924264a27b; 0x253fc6e875051790; 0x63d44749255c1abe; 0x3b1ca33b571b6030; 0x7caf3c2668b7e84; 0x60475043625e9842; 0x54b69d65b1f8dd56; 0x37815663e1cdc219; 0x332657d6b4aecad8; 0x16c9485af99b0645; 0x14c25cf9a9cd2792; 0x75cbf26c45f4260c; 0x1c542cad081a79e0; 0xf4ece19b2fd1407; 0xece55ce8d163db8; 0xd6b17e31018d247; 0x116edbbbce44b32b; 0x4ea8622a89489d1d; 0x11e6ffc969656c85; 0x28f27bd202d133d; 0x381563e5ea98e972; 0x75487104ed7e6a3f; 0x1f194e60aa24a1dd; 0x30e1c28d37713f69; 0x2dc972c7d7e8500b; 0x252d7504c7988838; 0x5908df1aba984ef2; 0xe026dbdbcfd3df3; 0x7c9bec8bf4a6ba68; 0x3926d46bce9a511; 0x24a3eb641f71d05f; 0x6893924a5e81aa88; 0x5f39aff400ac01e2; 0x16cd66b42c2ce716; 0xfb2c49765848463; 0x50848c8566c62b49; 0x1b8b919e1fbddaef; 0x1518fc251c4cda78; 0x65b575aad069ab08; 0xa5f099ec8b68948; 0x6b1d51e4bd965f30; 0x38341d850978fefb; 0x36e1bb1acc835696; 0x2b753754f4674a9c; 0x5d29e4c086ad7d96; 0x77a1966ffc4f9bcf; 0x3b046f27fb4e2299; 0x7d72d65a05d23474; 0x4b396a5362235b79; 0x424a84249b9931de; 0x4aef24a51e92fb48; 0x3e169005bb6a261d; 0x197f9b9cbf3a021f; 0x67dc019da9a33ae6; 0x57226d5faa522336; 0x1243c38397703889; 0x1888de0f6cd905bf; 0x24123b9994092782; 0x337269a3694ee96f; 0xa30faae564ec70a; 0x70cdcd9b0049b80; 0x5bfeee1ee26e8ce0; 0xa74664c62f64daa; 0x64b937259a35089c; 0x7a05cbec7ed10863; 0x73f1aec8257cb06d; 0x30c0eadcde4fba1e; 0x60924af0bb1998d1; 0x59b12ec773819658; 0x293a9742dc08adbe; 0x6cdf91bb730134e; 0x16bbddac96f73057; 0x7075dedc9274990d; 0x10894119f74be476; 0x36c94c56868d219b; 0x395ffac3486e7c5b; 0x56d3764993ccff1a; 0x5b6d02e67251d47b; 0x22449ddca0d3dd15; 0x6aa7a931d5d548d7; 0x4294ee863dcad704; 0x10ba12c05ee1038b; 0x783fda594a9f346f; 0x59b45af110a73189; 0x5e28af80d213cb9a; 0x26a5b9fb5914b6d3; 0x2da7f8d85457d12d; 0x126daed1b0588a55; 0x394b16e3ca86e9d0; 0x234e1c6d09c927d6; 0x66180846998fee59; 0x3283b15c1d9620e6; 0x542ebb1aac484832; 0x42e943920b388c77; 0x33309d41a302a599; 0x6698df2596a51dc5; 0xf092a009a9db2da; 0x6e7f18cdf57e24a6; 0x6841a003501bebf3; 0x130dc6cf4621e76a; 0x5678100e891fcf80; 0x6203f14127990d3b; 0x5d245bf38aa8dcc3; 0x33fe6718a6b0246a; 0x24628b3eb0657d89; 0x21624ecdd02d5f74; 0x6c1069c5d1a82c1d; 0x7c9d2c247ad6aa10; 0x569026b2b0237783; 0x722cb5714c99b7d3; 0x3105cdf13848584a; 0x5c20d3e961823eaf; 0x3b06df58b876520f; 0x1877b8eb60d8bf08; 0x22f9d1a46a9646e1; 0x2de64dff476691c; 0x15f583d03d1b2187; 0x6f3abeae4e57dacb; 0x1af5d30684970024; 0x463a21c8f009e70e; 0x22506d38465e5765; 0x691c16c3792752b6; 0x5ed3f46e9134662b; 0x216d048c94f7cd45; 0x71775ae1fecaf765; 0x608dcfc18497424a; 0xcf6d34f10ccbcb6; 0x6932f361bb4e1425; 0x5e53f9c3f817575; 0x189b495d1d61d2ee; 0x1a89722d3ad23944; 0x7b8904520493bf1a; 0x7753d7a32b8ca0b7; 0x1590da8e3c95c54a; 0x58f594a6e78662af; 0x7b810e541dbbec19; 0x61098d70866a8e1c; 0x447d8f9275d6d3b6; 0x4c596dd35408a562; 0x2b8eb441884668d7; 0x1ab28cf8555f6e37; 0x2bc00a278cb75c2d; 0x7c7bd38f6057afc4; 0x7c8c8b9a59d0c34c; 0x26b1ba19766ca965; 0x311d37a4b561f921; 0x252c85a22f0a03cf; 0x698f0feea1a742af; 0x7e1807e019e0785d; 0x43fc3c0ff33cccfc; 0x1e6667e0660661e7; 0x33f3fcc3f0c0f; 0x667f8];
   [0x10b35a786e8236fc; 0x2d36e69adb48c5d7; 0x26743d683b11ee32; 0x6f9054c58d902a1d; 0x6ea9421b30887e72; 0x77365bdbb796d70; 0x514cc43f75f6763c; 0x59bef32ab1dc88e6; 0x3f6e86184b56d740; 0x41307b0df77b70d2; 0x4740949e3cb13c4d; 0x6ca3e712fe0a4371; 0x6be3a601534635fa; 0x41dcf2b6a60a83bb; 0x2cb0567e4eae9251; 0x1d6e2f830ad73e79; 0x69a03256ba7754ff; 0x6d1f9724c7716bbc; 0x68d4a2b107a9ab68; 0x50803aaaa677c38c; 0x6ce2807601a940e8; 0x2ee84311d9b5428e; 0x6bd610f5691e01a1; 0x51ee1bd8aebac938; 0x18ce332237aebe04; 0x221c4a59348a5f31; 0x5288cc748e063576; 0x3fd9286b4924a64c; 0x6934a213f55126ea; 0x1c6e22b4b4b718f2; 0x5bc218869f828208; 0x23f62db14f953431; 0x69ac7afbd339c991; 0x40f8e661dcb110c5; 0x2ee70f713560e9cf; 0x48c9c08e4d8e7ace; 0x6d4e8455e4c8c976; 0x382a4d5b9835f111; 0x797b687a738a17e1; 0xbee8c8abda3381c; 0x7e549ac4217fca93; 0x46e9f43ce76c9a95; 0x7bd384eceb1afa27; 0x6572ad405c13d561; 0x480a3072bbc0e4ef; 0x2af2bb4c0b67fb40; 0x175be507fd4446fa; 0x332f6dfd84f284cf; 0x29e40415f3360802; 0x7d616962805b2bc; 0x1fbe102ed55cc370; 0x6fc3d2932c958289; 0x411c3942e6eb0042; 0x6d37c4ca9b4f8f14; 0x7159a31d1d924bbd; 0x255e5f7f6e83601a; 0x37e577b4e6b91e2a; 0x56fe656471f45f88; 0x66f65d4ef4b186a0; 0x582ca1271494ca9e; 0x1faa09dd9035d412; 0x729a32661f368900; 0x4fec216c1a994f59; 0x1c3df2f98ee74efc; 0xdfbef8dfe8e6dbd; 0xfc05f39ba91cb03; 0x3ac9aaa55d8234f; 0x5dbffbd8f7fedd8f; 0x3d79ea2930403b9a; 0x14878d2935bde50; 0x1eedb74994e55c47; 0x370905280c7f9ba8; 0x4498085d4158038c; 0x43c13bfe1a42897; 0x3ba8c35e9de81129; 0x2f27ebb0f64a8922; 0x7c9e454c7c4758bd; 0x7615d6462957dbc2; 0x37cb1369bdde4b; 0x182de37a30558d98; 0x69a428cccab80cdf; 0x6d09ffe2cb263fd2; 0xc87f0b6ef5d3c3f; 0x6d053801b3c30871; 0x6c84349a5dc50bb1; 0x3fa672e3a5e8584; 0x48f057f8492ff52a; 0x3c28383e4b158213; 0x2ed3161e1e66b103; 0x51cd15832b8fdb2d; 0x6ef4367339c120de; 0xa63464f03dffd2d; 0x16b48f0f1f5e5b0a; 0x69fc318341daeb65; 0x6c653db63103fa4d; 0x740f78f380ad069a; 0x49590e2fba612552; 0x2ec9a4e68789627f; 0x2a819c9587f249bc; 0x2e3ba98fa43af9e1; 0x622cfc2d9b5d918f; 0x23139d8a98326b7e; 0x1227ae46ff1bb837; 0x42d97dca15a1b70c; 0xdb26dc6bb5a76c; 0x1b0452208e179b5b; 0x777a5a186c71df4f; 0xd01beafb7c23a90; 0x783fecfe2ec1e3c7; 0x712ebb088b68e84b; 0x48b65aa4c617915c; 0x2e38103dcb73e255; 0x1a843ec976e73963; 0x919297565d644b3; 0x7948fd7e71979598; 0x43c6c4ba36528237; 0x333953f4698eb964; 0x3609e0cebe1e1a68; 0x1c8e45ff3fbeafff; 0x2dbeae4d1f52a8c8; 0x2f9b8a5d6fa4f101; 0x2ea4168bdf1cac58; 0x2059dfc72e8b64b8; 0x5e79282f3f1c50f8; 0x5e0d613021ce7f96; 0x3bd0bdc238dbe844; 0x95890db98bade51; 0xc1b99f1eef9c6d3; 0x74c170c3ac8b70ea; 0x6f3c18c344581204; 0x19a260b9d2e36a31; 0x794b37cf29826421; 0x39f9688e8de7bf6b; 0x30668df92209da76; 0x72608bf9da8221bb; 0x603a17c9e061193; 0x289f1acee6daa26b; 0x60953bf249c108c4; 0x35462a289db4d965; 0x3db6df5ba8895e3; 0x5757542994d2d7b3; 0x1555198e1d96fef; 0x6ca0f4ce571791cf; 0x642f4a93d84f183d; 0x39a552d61b07c815; 0x315d4397ade1bfcd; 0x2eeb05dcf42c49ad; 0x42172171351d8de8; 0x3d55fdcdee833a17; 0x49f8a533ce79836c; 0x654c05b38dbec2a; 0x6fd788fa1e6d6e6a; 0x19cccbda6b92e25a; 0xcd18d51c834c744; 0x3d26e4025c3acb98; 0xd4c0205dc4acc7a; 0x2e2c7a27bc39bbf6; 0x394e53ceba4c0ce2; 0x2d7cfb0bb5ae90e0; 0x1ed16e049ef8943e; 0xbae2415c3a6092d; 0x5f215815b08600bf; 0x2f44cbb748362601; 0x7c591eb3611e0777; 0x53bd4046d308aa46; 0x7d00829937538d45; 0x36453f04f02dde4c; 0x63a8ac75c5e77cc9; 0x11c05685a6d69cf8; 0x3802c1d65b7035a6; 0x5eda64180271d180; 0x7c1fb7a78aa1a60f; 0x599252b55d969a0e; 0x4d879b403fe403c5; 0x77d64aff124fdd52; 0x5a10251b89ba1727; 0x641f3b8da6f9d0fa; 0x7d409e038bfb7c16; 0xe57709159da8d4c; 0x7c0849c175347544; 0x50b96b1dd43fd9ba; 0x19a50b525e3a4761; 0x1bbafeb9f9d39c99; 0x56c28a207ca59d1a; 0x683b8d1436b112e7; 0xd51db171e2cb851; 0x6abfa5a87f1789b6; 0x22d08bfa1ef82d1; 0x49cbd70813b1604d; 0x6e5f059796211a5; 0x62672d0983bcc337; 0x7daf9b5e7e9ff1b8; 0x4cdf43b6dd3c0508; 0x304d4d1303d6e173; 0x7cba5841deaa3ac3; 0x768d96833c43b7ae; 0x50bbdbdca167f90e; 0x49f55f875e5e6ba6; 0x694cadb2627e331c; 0x3f6181fa13267065; 0x306a7ae8f11e15f8; 0x1ac369d848ea68d9; 0x49b41812f5645c5a; 0x6c40ed236ab7ebca; 0x17e1151326c9cfa6; 0x7c44ed1b027b68c8; 0x255e5d3df5fc7d37; 0xea8516a727864d8; 0x4c46af935884cc56; 0xa914ce71e18230c; 0xd3f49c00d100117; 0x367b460e7a28c90e; 0x20b4ff378bd0ea3a; 0x115048bd4ab347bf; 0x1fd6539e106be69e; 0x1a40a967c2c20cc; 0x471a2f1a67d84616; 0x4a1822a1dafde4fc; 0x520c199c1f56bff8; 0x2c82378ebc7960fa; 0x43436c6713da826b; 0xc52d8a2b91ebc81; 0x2d64265f39d3f01b; 0xa68d4ff8dcc7bf9; 0x62f54275cff3fb9e; 0x706404d885c1b911; 0x69e847618ac96835; 0x5187a984e3378258; 0x28f3693de39804a0; 0x3e3405119c0317e5; 0x4843649888e4c5c3; 0x79bc9794079e114a; 0x15d4ba2c08de49ab; 0x4a055c76d6830093; 0x4a3937de0e921ed9; 0x2548c1324a6e4abe; 0x5a793b3a2dda6f74; 0x255dc370a43570af; 0x5678ce8f495d1c71; 0x1309f88bb872a920; 0x7565fcec630e0bc; 0xf775af2eb8b9d4; 0x62d1cd5ed3b946b0; 0x526255f72e94dfde; 0x4fc611761cf86939; 0x723ba821a4004923; 0xd80a61d4730902a; 0x29105d861d17c7d; 0x3908c9d287781201; 0x1a070f7b3d3016ed; 0x33538e2cb05b03b5; 0x110ee48400240e9d; 0x7da60ff883d91dcc; 0x6374947691757bc8; 0x5cc991ec0950365e; 0x7f3502cd81182931; 0x22569172c1290d1b; 0x465f78c5fc293265; 0x45bab88ce1a6edeb; 0x25f2d9c6f0f44e64; 0x749a75dc9a620071; 0x7aa5279e062c7c72; 0x2c1f1f21a92429d0; 0x21bcee4eecf5f2a9; 0x34cb16b3f6612d59; 0x4009f60925a9e3c1; 0x3bf992d984da27f; 0x69af783c232e6a16; 0x32b5945e13c93b35; 0x1f4c6b8bb3d193ad; 0x6af80e0e3c6826f1; 0xe184374c724f226; 0x534e67e2b59c0520; 0x41d157fbabdf9df; 0x797ab2a61ad40bd5; 0x128b3160e5080f5; 0x1833250cdd294f84; 0x4dfa1df315271a47; 0x6bb13fdcbacf668f; 0x494741199c38bab5; 0x7246fed95333068f; 0x7018eade14c6de4b; 0x4ff2063f14b21c6a; 0x3a660f5d07e481f5; 0x2e9c6c3aacbc4941; 0x447857018b453b3b; 0x1dd41878ae2c1368; 0x4abba1df7a87b450; 0x3c849e3802925a80; 0x233a14917a79b886; 0x3e7ad5f960b82a8d; 0x2261722998d4525d; 0x603ad0f8f4a8e03; 0x1326baa9effcd2e6; 0x13ad55b4f3e36a03; 0x227f88d229d218f0; 0x34deddcfdb31795f; 0x54f6ee287f47a341; 0x5b250bde98161c92; 0x6f69953e453f9187; 0x59787724e6980a48; 0x6cfedd6bef1ddcc8; 0x8a9df7cbb4aada0; 0x3369af7fc7ce63c3; 0x218e4d97aa5ddd3c; 0x6edd042f6a5f8a54; 0x2070b5fd80e07a6e; 0x426cd77b6c736ed; 0x55a927f1ec0f66c6; 0x60b6833413a676cf; 0x6a889b9a22f6bc43; 0x76a214aa6f9581ce; 0x6905c1ae40f75212; 0x7e61807e7986793c; 0x733fc000c3c3ff03; 0x6181807e019e781; 0x703f3c00cf333030; 0x1e7fe1];
   [0x39a4c85aac158775; 0x5afba79cd1de4a45; 0x7de9074154967612; 0x4fda3ced3847b79d; 0x7d920a2803983771; 0x2a89198fedcd3c9; 0x68ec888a4cc6ddda; 0x22a2abf4598f89df; 0x3b57d286d72f9411; 0x67b94d42a298bbaa; 0x1cf199c1fa0c6330; 0x31c4e0bedd23c919; 0x31962649e41ea303; 0x7b6a005261fb59c0; 0x599b5111b9f7b08f; 0x469a6edbac38be5b; 0x6c015e7d892faac0; 0x19abc19d88dc59b0; 0x2fedd20e4452d244; 0x6c3d765a75e18926; 0x382eefac561f9e78; 0xdaa9b56fe3def77; 0x2244c2bf427a1615; 0x3e16e72d4e4c985e; 0x44eee286081bb2e3; 0x1caa41c73c29aecb; 0x29abe0fced113731; 0x17cf35cca9180caa; 0x25ea707d094bd33b; 0x957ee0a90d86ac6; 0x1dfc9aeb5df3499c; 0x212cbfa175994244; 0x7986d7b6103b1bd1; 0x6a676942779005bc; 0xe449be54b1fe43b; 0x1566f20a547048d9; 0x108b847496306d32; 0x1afb6f3083db0c69; 0x5a81b4c5ad166f7e; 0x660ef3cce6a877f6; 0x6fee076d339f1dae; 0x75d1d10ce152cccf; 0x727b6ca6238b13b5; 0x7768bca29167dab9; 0x47c00353493af8c8; 0x455b416733f5d7fb; 0x64d397111a671956; 0x137ca5f7c5e5417a; 0x2dd4cf52e53cf8a6; 0x4b674dd5623c07a; 0x35e5778bb9420738; 0x5d9d3dfbec96d927; 0x378d66138281bd3e; 0x1e3f89001b00c3e6; 0x112dd1f5b6b92b98; 0x35e4845918bc4550; 0x20bd5fdb8080529e; 0xd3e41cfc7110123; 0x4f9c82b27eff463a; 0x5fdf21763aa30251; 0x638d6499960ca99; 0x7b71ed5597385673; 0xc5a09da9930a245; 0x37e8971aefe801f2; 0x2f6aabac6662be50; 0x65eef151e3cd6fbb; 0x79a324e242d63c5d; 0x2883cdf6e8cf41eb; 0x5cd5096b7180fb33; 0x6484a1cf5e2cfe9d; 0x7fab92c860024510; 0x1cf8f640e09cccd5; 0x76de006ac6362d24; 0x571186386dfeec64; 0x328b27fcd82a787; 0x213a04e186a1aa58; 0x1f00b2e9bbc12e97; 0x305140c6c0202153; 0x1d6d5971937f3c18; 0x4b46f1835caa5449; 0x79f1e282a4eb3e2f; 0xb3b03ac8ae28268; 0x1b645e1c4e3545ac; 0x527fcf644fa60bd3; 0x1c75d6016ea35b67; 0x43ad55fd5b3ea30d; 0x6c4d9152ab124d60; 0x757cbad6b557dba5; 0x3916e6b00dd9319d; 0x7d421bd5d128ea04; 0x6412b532dab55568; 0x45a43fed27884655; 0x6f9114be22132ef0; 0x586187933978b8c7; 0x5a09930f8cf47648; 0x7ae33b9e1ed4685a; 0x47805b6dd6a688bf; 0x7f2b1b9d14b4a61c; 0x36157e959553102; 0x1dabdb92776b3272; 0x72ef1112c6758bda; 0x6ccb43a5c604f095; 0x44b39ca6f314ab79; 0x5112115e28801e5b; 0x79d9ea35576e5e38; 0x38d3284314b9dabb; 0x47b7ae5fe729262e; 0x2da7748a7c4e6250; 0x5f49715f0eed4012; 0x1e99f7230bbd95de; 0x640b7532685e8aaa; 0x4cdda33020665454; 0x28f03defe711ac04; 0x28a2835fd9624cf5; 0x426e4fab57ec4eb8; 0x44ea451b8ee0ef37; 0x51e6f974770a270c; 0x506e5f882938bab1; 0x24f8fd5b9e5ae8e9; 0x2803996cafe53ce0; 0x7249f2c6f79c40c3; 0x397772c734f5d5e; 0x447d53441610c529; 0x521fe799b5b7e150; 0x59259e845c90b16b; 0x5328594ded3b66c3; 0x1c5cdffcbeafbacf; 0x2e89b0e87e067477; 0x119104bc0f0112f5; 0x7e56b138b11f0ca; 0x7e344fb07ca505d; 0xed5b730c2ccb740; 0x3f2a280a90bb5519; 0x6844b2bb75b1aaec; 0x3ba3502ebed7909e; 0x615466edca00e3f0; 0x1f898a4c6587f18f; 0x3a54e5d977e3929e; 0x3faae09fdcb6293e; 0x5458975b77c203b8; 0x6d37907709e5a12a; 0x3951836cff875c52; 0x11f97d473460ea5e; 0x6431417c700b1b53; 0x42b5a32012e66820; 0x39faff6e1c9c1ac2; 0x31dc7a6f74af6b94; 0x4687ace439dbc7d1; 0x57b114d3dac1522a; 0x4bfd001373755fdf; 0x110283044fe298d8; 0x365059f77baf9e83; 0x1d791b20ba4b139a; 0xf1a83555cff8947; 0x204a54ab62101aa5; 0x71db4a0d2a5dde0f; 0x6c5e2cd99a3c8213; 0x1e73ba3211e51b2c; 0x454f8beaea9a7425; 0x785b1a2e0acbdd63; 0x4d54273b7fff810e; 0x6ad5742c1bf7add0; 0x8f5cf8cfa93af96; 0x14956912f8dfed2a; 0x6201fba1e923594; 0x444e683af77648e; 0x48a5f9671d2528c3; 0x60ab0db511331f80; 0x56429b26abac3f17; 0xec347124865f6a3; 0x4fa4476f7bf869dc; 0xa1f2131537b659a; 0x404623f86c84a1e2; 0x591d0da78ebffd49; 0x2bee49ef5e700bfe; 0x63244559cb019530; 0x412630a85d440b3c; 0x7dcdee35f2f2480c; 0x62fbe1d10df07db6; 0x51b44c756544a032; 0x46a4d031d4a8ab8d; 0x4f96d8b081be0480; 0x4737de23baefb0ca; 0x59fb7823188a8c72; 0x21dc334aea08cb4d; 0x1fbaf0cd5116af80; 0x595ed5998b1f3cc2; 0x3a66d12f218b19f7; 0x560586727bcba36; 0x2488cb92cf1abf78; 0x6b1930161bf84a4e; 0xe93239c13f34e6; 0x62e1b8d22fdf4f9e; 0x6d219d66979876b1; 0x29450f9ff88c74d7; 0x62617b5b9cadde48; 0x702ded7f1abc3eb2; 0x368fea7cbe685dd6; 0x440fdfcc15343229; 0x5471d0d0d9d462e4; 0x1bd3f834c49d8ae3; 0x12176101bd8bb24d; 0x48c60ea046ad446; 0x7ff35ca9a477c320; 0x6d4a77c944781f92; 0x3e8d0ee82d6ebfc7; 0x51823068439c2089; 0x74c526341c475a68; 0x74db99ab50ae7c56; 0x129fe9e861515bff; 0x69feb32e090bb8a8; 0x2439bc250a2492d3; 0x2e96888273b84fec; 0x1fd614bc3351af83; 0x76042a51aabdf4cf; 0x1ba7417abba4d127; 0x3e43147580f2834d; 0x6edb1337adf1c112; 0x65b8f543b69b85b4; 0x13ad146625efe3fa; 0x739c75b3fdb3d0e1; 0x7f88a929d315c500; 0x67b8215db026db92; 0x38e5cfc439934ad9; 0x2dea34b22b2e2394; 0x29d2dd2cbf756a0f; 0x1b09d279ddeb1e1b; 0x4b3c5cd7c4330c96; 0x991cbddc80cf2ba; 0x797a866206195c0d; 0x630746fe6204e937; 0x468878232331a70d; 0x1227d71de91ad7e7; 0x29ce1f0b852f6bda; 0x5616bd6b66c0d00a; 0x75637aaec0c6cc6e; 0x1f3e98f9844ebd5b; 0x4a1b8a693b3627a8; 0x797ad008fdda11f; 0x3755d837127f5eb; 0x5b89d42dc29f006b; 0x6d0dbb205810a667; 0x1964f4a6f068499c; 0x4da98649b5a93acb; 0x6b9c8c02cb690a0a; 0x3edba225189c8669; 0x78128a3d9e138704; 0x7490e00394487df9; 0x3a1f9e972787578c; 0x140240954b6c97b3; 0x3b399937bb1e7e5d; 0x5d4388334815ea21; 0x31ecdca2f166a9fa; 0x731a945f2dcde7d6; 0x18c288545fb4be87; 0x663950237d1fdafb; 0x2a159387870c2f1f; 0x7e70520bcb832c6e; 0x265458cdcfd2b3e9; 0x3c5403d7d080b2c9; 0x61d015657b27c3f2; 0x10f5d5c5309e03ca; 0x6e5a46253014e4b9; 0x3046c36300dc37f8; 0x2e9b31d31243932c; 0x6792dcab3441d68f; 0x57bb2f418855791d; 0x679ccd5041d140ea; 0x57c43bcd8d892b1b; 0x356604e1723619a6; 0x7f3943a91c83f848; 0x4fe7e88a5b259273; 0x1097aa4442338317; 0x18d21eff6f812d92; 0x172ceb6b551a73ad; 0x32561ec752be9d5d; 0x4bdb6297dacd124b; 0xe140d65d6370294; 0x2117b820c5f7f1b; 0x144ed5d4cd385015; 0xe061d28958fbb6f; 0x1d04bf485f31d3ec; 0x7fdf09b00becb0a7; 0x145801ad59fb285a; 0xfdd8ef52b9193f7; 0x24db11ad71343322; 0x35a4a67c4f315930; 0x726fda4fc3a7ab36; 0x3e9f1b8a8da11ba9; 0x2682c4612201e553; 0x33ffea3b965cf42e; 0x3fa2327d22ba6129; 0xcea83e092ae270d; 0x138e02f755ea97d0; 0x446f644e7f8292a2; 0x4c987401673a930a; 0xe80f72b080a0a4d; 0x2b47b8b17a43a96a; 0x1acb2b3d62015e14; 0x2fe63030e062a3a; 0x76f6ad29c5e7371d; 0x1d8ebe0548101557; 0x3083287a1e081dd8; 0x2c3f862e1009af40; 0x7766d5b810376e0f; 0x39b05f1d494b0011; 0x133f094dea0a2d5e; 0x78eee7ca57b5761c; 0xed5925b8106ffb5; 0xac3cc19bb74b132; 0xb026fe2ecf8ab90; 0x506191da32683e9c; 0x5436824e1bbfad7a; 0x7e679fe7f8181db; 0xfcf3f0000ffff3; 0x619f9e19e7e61866; 0x7c3c33cc0f3cfff0; 0x66781];
   [0x6ddcf7e0913f7e46; 0x6f5d26eb2a761829; 0x5505fc59a24f33cd; 0x46b407ad1c74223c; 0x1663973cf3153ea8; 0x72a6b09c4f4a644f; 0x7613600e572461cd; 0x40d19678eca58ff4; 0x7f3756f25c7f2de4; 0x4ee0afb6de57e919; 0x2058c906f83418bf; 0x5cc322663cd3bb1; 0x24ffaf316d4f5cac; 0x3f3190e1f332aab2; 0x1ceb3175929522cf; 0x42385dfa57156633; 0x7c7f64d1eb834aa9; 0x29dd8b502f497051; 0xb3128fd166d2934; 0x10c53759d4c604d3; 0x746cf7909cecd9e5; 0x4265f6b731b547af; 0x18591585d0cabf1b; 0x5f1133f3c86c5225; 0xaf49d14513a1314; 0x6e4d351bb6712508; 0x77490841405f9c08; 0x73804ffe21da8e1b; 0x72b7b8cf7e397c0d; 0x1d496bd77d5c757f; 0x596c18a2f1815055; 0x6d96ef56b8b8a6c8; 0x39cf1029afb6c691; 0x24bd745e30cbc6a3; 0x2eb2a792e2f85396; 0x3152ef27a14e7e93; 0x2e3c2a07cf49c5c9; 0x22ce7b424362fafc; 0x178c3f47ed73eb07; 0x60945dac1b5c5183; 0x12a69ab72368645c; 0x5cecf5d89365fd89; 0x62f197da1114380; 0x30cb44e303e059f8; 0x61203ce329606b4a; 0x628407ddc35eae02; 0x610e7e0720077e54; 0x7984d6b47e40b5f2; 0x15db305f2c5bb46c; 0x585ce529488eeaf8; 0x7aa2b43fd4ea4867; 0x3c0715114791c98a; 0x73cfa9e62f917df6; 0x659e3c666265e69d; 0x3f13606da115f7c2; 0x53f282860dacebe; 0x10ee00a8c7c38832; 0x44cabc7fc707498b; 0x6ee2a22e80950d0f; 0x2051737143f0a670; 0x22ae3f0960e9d92f; 0x7ee6be9bee14b670; 0x31a0613886d28149; 0x779b064fd235c41c; 0x2334617d728c8970; 0x45b60c7fc3233c70; 0x5f5063e9de416b10; 0xc2c898af6368174; 0x54aacf2463ad5346; 0x74c88a9dcaa4b7eb; 0x11f753386cad722b; 0x299ca9c1eb9a346e; 0x7668bfd3bb1d8b03; 0x49bcdb953295d553; 0x15bd7d7441920101; 0x2142987aa7738520; 0x7dbef7608d77a291; 0x64ea3bc36bd9d3c1; 0x6f70c957357cb4d1; 0x227a9b26c398975; 0x168850658740e51c; 0x191d1bfecf7b9a32; 0xc92dbe99464794c; 0xe251319f732acfe; 0x26248a88acf982c8; 0x54d7e81c1b507a41; 0x4839e3c06cc248f9; 0x198f67013dcd0c1d; 0x2f1e709620054b10; 0x23fb68fe992e5480; 0x2fe691a4419a9d0e; 0xe403f07a4b96693; 0x3cf98a7a7b8e4952; 0x33d2612dd65567be; 0xadc01106852fb86; 0x2dcb602da568612f; 0x333eb9afd9de100e; 0x4adfb7ef3bafdf41; 0x627867c3b267dc7f; 0x743b5f3f3279799c; 0x7e9b12df6e59205b; 0x17a41de21799204e; 0x2634d57ef58d8dee; 0x1d4f220b3961ff0a; 0x1ebf7d2d1e60c34c; 0x28a70312e90adec7; 0x61ad053928e6a299; 0x2a555c1bb78b02da; 0x3388c1e82cb718e2; 0x4e01fcdd3ff04ee9; 0x529e66c2f582d100; 0x548f1d2b974e804f; 0x4c12ed6a4642c994; 0x50edbd310f213890; 0x33d5515a68b14b5e; 0x11f4f2adc53a9455; 0x9e0b17a33b2c56e; 0x72e4efc4895847bd; 0x3729b865fade4fd9; 0x3f94a08256b8f9c8; 0x7993c07f44d91611; 0x6837c5ac245fee88; 0x40a1dee61c52f607; 0x1fb206d9a937a417; 0x53d8df616bdbc947; 0x59f9dff87ed34920; 0x474c10627c03a08f; 0x6b2b38e32271cd2b; 0x4e6965c6e519b584; 0x2a90aa758107f4b3; 0x7d3276e0408c3810; 0x422ca5a1340111e; 0x55bd6258532344e7; 0x3bfbfde80084d754; 0x544ae623f1cc7efb; 0x6c6bc24402c17cb3; 0x6d3b49936b66e45e; 0x6a8cba8f8d98521; 0x254d8818eba9d0a3; 0x37d11540b9cf37f0; 0x7ec57134107b4cc5; 0x40d69b4aa025d208; 0x705521ba3b8c4c3f; 0x2ae90baf3edbad4e; 0x6a76caa3229ac696; 0x119f5f1a32627489; 0x6bda37e9af44310e; 0x901a708607fcdda; 0xae9b4f0427ee705; 0x385d8668113aadcc; 0x679e9e84ba62658f; 0x391294fd0b11d300; 0x1002f96a9af057cd; 0x3cb0671115957ead; 0x7d75e422160c7beb; 0x1e029689e2a242aa; 0x2c79edb61e210e1b; 0x251585d9614f5f50; 0x4e2cd587297abfa4; 0x4ec6ff5040e16fe9; 0x233d85c7ce8345ff; 0x7ff67337072a9022; 0x1f5ba045e18ed723; 0x47be90707fa40be; 0x772e39fea2737f5c; 0x1752d4ae7e7c39f7; 0x3b13e92dc4309bb5; 0x22f6115ff41ca954; 0x4764aa5d72789a3a; 0x4ba3ef700dc08fef; 0x72c5b8e16dbb4b16; 0x7e8b42c0870d64fa; 0x6f1d515105df94e7; 0x7cf315b4957d3769; 0x4494cf574a5db1aa; 0x6045b142285e49c9; 0x40db72e379e528bd; 0x5ca100d55cc5f705; 0x3a738e9ce8530564; 0x656ff3f5258dd6cd; 0x1335bc3606f18eab; 0x6327ab8cfdadf5a; 0x4dd8a37843667b3e; 0x215bb2592786c141; 0x1ca9c24c17dc22af; 0x1b53baa0e791a84d; 0x429ff3b24dbea7e1; 0x6e74512520cbff54; 0x5bfb0a9bf8c7626e; 0x1ff6f677a9ecf30f; 0x1b567c51cb6721d1; 0x431c0be21387b21d; 0x7475f4ed6b759ca4; 0x1d068e472dc4f587; 0x2c32d4faf0049d1b; 0x189ed703cae73663; 0x12c6f1ec0f0a54d0; 0x335fe62b651bc024; 0x311a40a7c9a79aa0; 0x5cae492f4bd4876; 0x2490845974736997; 0x701f20935faa5904; 0x23acac271f8dd4ff; 0x67aa3b1c544abfe2; 0x7e1055a31b3afc4c; 0xfd9039edb34abe2; 0x322781e8de2ceff0; 0x6b0cb0e16ba55e97; 0x1f1feddd737df359; 0x3c52c44d37c09acc; 0x172acc8527cdca79; 0x2e5338d2bcb8d3fc; 0x5d50a8c89ae8c4f1; 0x44369426a031080b; 0x7df9b98563f1950d; 0x478c8116891beb3a; 0x67675c693ba4982a; 0x21c6d470ddffcdcc; 0x19b18e2b1803bf2; 0x340f95db7f294c06; 0x41058eb02e3cd13b; 0x6f3525c79b7fce1e; 0x465bf88d6884b996; 0x590c5bde3e9e2661; 0x3a859fecef8426d8; 0x3f25ab1d688205fc; 0x277d5e34dae239a1; 0x3546a0349520b854; 0x1edf0ff4386225d0; 0x4f66704aecc2edaa; 0x20de2dd9f9dfbfc3; 0x6719ccff2a68b2fd; 0x3021ab2b8579ad57; 0x7e65bf36a004ac70; 0x3bccab1eb2158fa; 0x495cf8667d9c9a90; 0x13433c7765eeeb45; 0xc9d507441675311; 0x93375f0e989b6b6; 0x709e5052dd52228c; 0x64d1fb43d31b7204; 0x78a693be0b2b3a16; 0x5d6c8f2db5193ad9; 0x336d8443354772df; 0x761f5c1ab7c2e101; 0x27b557d0c3721b70; 0x409d769462f23e4e; 0x49cbc7c56869e7af; 0x45c2e7e491167138; 0x6c0a860668fff007; 0x4233b2c9cfb9eb74; 0x2e26cfcee7c68d21; 0x15b9292f06430e4; 0x2829a883d2a93474; 0x1a8cc490adadf71b; 0x26c0d40a16908125; 0x6dd3e9bbf16f434b; 0x306c16eb4a358889; 0x32d66269e564452d; 0x19edaf680c8ba1e6; 0x716de52467f804; 0x50f0a975ed4e16bf; 0xa3afe8ed5ca65f0; 0x4813f65723bcf3fa; 0x325a6b3b2f90789e; 0x2c35416948ce2cf9; 0x7c2f54f130229fd9; 0x3f6b834494d5aa00; 0xd3133751f690d82; 0x109ef50a57dc44c0; 0x7529bc9e2e9d66cf; 0x1b0a75f8de7ba878; 0x768611948ee1bd20; 0xd3af444615c1ada; 0x2dc2aebafe70ec43; 0x4520f6a5015de472; 0x723015ff7fefbaa3; 0x59d0b3100961cef7; 0x35aeccd152ba3aca; 0x6d90bb09450204cb; 0x7777d2e17e74674d; 0xf1a0062396536d6; 0x707854316fd02b9b; 0x13af8221345f701b; 0x267051d05e4e6c59; 0x53ce09309e710ee2; 0x4c27299956da0d39; 0x744f8d1ce61a3ff5; 0x3b6d8748cbf48837; 0x74227b9fb0ad962a; 0x6048f8e4b4b52006; 0x6cb3c243a3751854; 0x127ce06065e89e72; 0x53747c6e00c5906b; 0x538b8fbdae767a97; 0xbe1588656cc0105; 0xd3bc60805e9ffb5; 0x785769e35cb83254; 0x2a133ff36a243244; 0x249169ba2106d91; 0x694d8e4b33e3820c; 0x211d11f56df5860c; 0x195565327e5e02ff; 0x1d152985b51f9b21; 0x15f36e728141e70; 0x646c284ed7857800; 0x2b83931f496dad65; 0x3d51d7d70933e7d5; 0x221a43638a2d2412; 0x32c9a08e5370a779; 0x7a4b807c0e353e1b; 0x3e2982d0780aebe; 0x36a990d27f9e411c; 0x60078606660019f9; 0x43ffff030fcf0cfc; 0x1e6187861e181e79; 0x7f033c0f3c3300c3; 0x19ff];
   [0x134164a90f9f8f30; 0x5a735e81ade165e1; 0x340e471ea6b70e0f; 0x4f166ebea005ec2e; 0x450e9400d11ff4db; 0x7fba33a660461ed4; 0x6e88ca8db7ae5924; 0x44531bd3760de44a; 0x600b2c05c2678d48; 0x6e2a18543c61afdb; 0x4fef2e039e5b2c17; 0x1527fe6130d7b6af; 0x7ff083970d5dce41; 0x40b036f986c9d64d; 0xa03e4c9da233b7b; 0x6627b3466dad13c; 0x4a0d7523234ddcbc; 0x7710b6eae0f71fb5; 0x5e3919d5f9dd80d3; 0x3abbacc79521a5c4; 0x6871c76c40e47f3f; 0x5fb238d378219a8f; 0x4ebfa4e24bf108d7; 0x5e736c990afa2e9e; 0x191cbe1d798701d7; 0x3e25332d1cae09eb; 0x5a1545449293b609; 0x30a1c4fde2a8c323; 0x1053cb940e301c48; 0x3541f2add6ae8d9; 0x2df04cb524fe5fba; 0x27bb6c03a1c0ddf5; 0x699bc4d195b034dc; 0x12912cc8e5e17831; 0x4d518c2071ea7688; 0x35c18c840d32ac29; 0x4648c55e273c4fa0; 0x175a79897342f40b; 0x5ae89b49e35e2676; 0x1f7c510e82776a3; 0x25f95b4d23c99d28; 0x228640ba5d6c8ae3; 0x8f660946c43a357; 0x36bba99a1182b1c; 0x1e0b605bde0e026e; 0xcda092a8d5749e1; 0x5f47439a6bf2ad4f; 0x458deb532cd8d6e4; 0x5bec08cb369d23d6; 0x7c93c9330994bc8d; 0x7f29183a0d1d70c8; 0xb138eae26ffd867; 0x20588b118d77f109; 0xf373ebc8b0071c3; 0x14db2ee227f9b7e5; 0x1f242f972d51f72c; 0x7a759243771a30d8; 0x64bdb99cb56aac8a; 0xd8673ce306f9755; 0x6f3973af185eb2b0; 0x48f7007540b818d3; 0x48aff287733a1aa1; 0x8fab89c39fd24; 0x24706c1037e17f62; 0x52276a2499965faa; 0x319d0d5efb8b3d9a; 0x4888d0b550be0399; 0x60b1e703bb64fad2; 0x4b7b49baaff12717; 0x968cd054e5c4073; 0x673b735391af5834; 0x739daffa13807c73; 0x12d88c06288de3c8; 0x23047163a66b310; 0xd70c00a34a84986; 0x364ad807da9ab2e1; 0xe7eb42faac46a6; 0x1b00faa6ed6731b3; 0x48276695113932e9; 0x337db81efdfa5e64; 0x269d3a2d7dc834db; 0x35ba61c245649ecc; 0x398cb81aa360ca66; 0x333ba5abb5183f2b; 0x38e767439e7ef796; 0x542fd11171de18fa; 0x6752a2e1fe525a7e; 0x52dd96d9fff28f3e; 0x498e7d733f312d62; 0x7c2ade101b042f2e; 0x4ee71b00dfcee145; 0x4cb80fb705686d7b; 0x137c9c582709c023; 0x46b5821f8b3f9eab; 0x662d52ce35079043; 0x7fc81e3246b7a07f; 0x3b7a0e24bee389d6; 0x54926c0b66e6be66; 0x6b4c18b04ef53455; 0x3d7aa3a4232d4ef4; 0x4c2453e984217ba5; 0x5444c6eee45d6b93; 0x2740111d38717411; 0x1f8bf2324a811e3; 0x4dfc7f5d40680c0b; 0x79b7970837691609; 0x3a48ad396504a1da; 0x249da4402cffeccd; 0x7f1c7f866dc9d6d6; 0x121c7bdfd5feb163; 0x6154494df94403d9; 0x15a4a8abb4aa29cf; 0x5264f71955dcc401; 0x142ea5128b0fcceb; 0x73c29edc9c0fbfdd; 0x8a2507f72701e3f; 0x523ba43765695c9b; 0x3defc719c1834b30; 0x3ae9ca024ebd41a3; 0x1233b5d71e6151f7; 0xea09e32c0e55d7b; 0x358cd1d43cc1018; 0x25af5da044b5f6ed; 0x51448686f3b27416; 0x74d6d8e1ae0fc3e9; 0x5852e7287664491f; 0x740bd2b455d985af; 0x5fbb7ee42f6e3fde; 0x5557cf5c566ae55; 0x75e0e613189fdcc9; 0x1f88dbb2027512aa; 0x496dfbc147c6cd79; 0x3d3d9e2d8279f97; 0x22883e1b49b74f0d; 0x72d35ea976f0452c; 0x4df77fc57d67f7fe; 0xf2668a9fd7aab5f; 0x27eeadcfe4be6bd5; 0x5e9e4f414a7a3fcd; 0x55278dd95337e165; 0x5f78957af444648b; 0x6c02780da4fb056f; 0x4427abdfc141aa46; 0x2182384bd7a0a30b; 0x1f197721256c1dce; 0x355e0bfdc46686a6; 0x63bdd009323f787; 0x1e70d13fe969f4cd; 0x430a6484daf995e9; 0x35d5b3e92242eb46; 0x241211e3a903e217; 0x3189cd6609c80e55; 0x6162eb6d028be618; 0x3a26808d9acdff45; 0xf04d21ad4ffcec7; 0x103a5d22e114b767; 0x6209705b318941ab; 0x45a27f21ac2817e5; 0x407d0ba4c1be1589; 0x16fd0ed69a00b7fc; 0x13cb7664d0dad62f; 0x2a55385ef57997bb; 0x236065be344c24aa; 0x3ef6d0aaf5c1a822; 0x501084bbc24cacd8; 0x57635e559737b061; 0x6ab2dc4af69c3a45; 0x26f1f963e60bd935; 0x266bf9550bcfbfe0; 0x2bc8e69364ebb836; 0x59d8a4f243d237ef; 0x29b12d76964d5d2d; 0x51f9e3e6bd21437b; 0x30b35fb934555175; 0x1ef7737e9cebf216; 0x713a4f6d3a5bd66d; 0x157be0284d3c99e; 0x4b806d1c2f289502; 0x5631d1bdd69183d9; 0x32c010a848736ecc; 0x58cf56553a79e33b; 0x7453b44c81f6ebab; 0x701e5c0c782539d0; 0x1c0b33d6f528321e; 0x7524d28a35831a91; 0x6ddb45fc8b07e509; 0x29872469ac5c6596; 0x1a42f964fd6ada3e; 0x518d37caf0c6e9ae; 0x9a2dd90200d0f60; 0x729ea5d2fe8f6dfa; 0x75bbaaaf3a2b282c; 0x71b4aa50a71075f9; 0x649f90efba633c37; 0x3b30cfc3d6d65580; 0x263e36cbbcce63f7; 0x71211bfad60ad116; 0x7e41c275a3608bf7; 0x29d6d348265839f1; 0x7e62ffbe45eafc9f; 0x24ab9bcf98ea3381; 0x6a7a6dd638df80f5; 0x2588562fcf4f8b63; 0x2f9f379b3b19a4aa; 0x12f47c43e4c83120; 0x303aa5e77e673e12; 0x2c8f311c13ca7c12; 0x25bbcab3b0e0a3fa; 0x44605af7c613acfb; 0x66800b5be2b42867; 0x4ba4fce94aefbfbd; 0xd7baab86399a485; 0x1af2d7aba6a18cfc; 0x78cdca9d2f5ea6af; 0x697b42da401b9f6e; 0x20113dde87317415; 0x129b1b83d07c0f5e; 0x5f87d40e33cc2d6f; 0x4fa4e2dd3dfc38ff; 0x6ca9196de8f4e97d; 0xc64a64f48b5e414; 0x5183f019d38234dd; 0x17bf41d78f112434; 0x2e17bfa0b8b102b; 0x1b7b874fa9dd79a; 0xc25ffe174f11981; 0x5bdfe2737339fa09; 0x595e18bfb179a7ad; 0x5bad0f715b33aed3; 0x7a8252d5dfa3a72f; 0xf75a88ef13e84f1; 0x6d9abad2dbef4731; 0x3e32878eb62c48ea; 0x117dd413a7cdce78; 0x5db912e3b2dbbd6f; 0x5771264c4ccfb15e; 0x38a12ad1c45fb304; 0x6bd160352187b200; 0x1da1911c3ba5aba5; 0x4d06977ee60a66ef; 0x4bd06d9855aee979; 0x4e24710ea1f769bd; 0x6bf32bb6edf03658; 0x5e2b0ffbd3c72ab6; 0x94bb2b9c9cd330f; 0xfb045109a8175b6; 0x290a5250343558e9; 0x4c08de56d1be0ad; 0x54aca2aa563374e2; 0x4e6a55e1ca9fc7c; 0x335140dfb8543926; 0x5a556f8af020593e; 0x27ccfab6564ae13c; 0x5cc623b18f03a72c; 0x712e3a09186b959d; 0xd524f9b14c67617; 0x46bb17d64a6b3c24; 0x3dd255c5392551fb; 0x515da1d1855352f6; 0x7fb874c1593fa235; 0x553d007703185907; 0x5a4d7fd10ad14128; 0x60f6c07b450af8bb; 0x57cb2192c2971495; 0x5b3f24ac3cf223fd; 0x1f666916916be485; 0x6bee3ae1f5d25e80; 0x62969e9ce8ffb528; 0x69215f9b2f35df34; 0x3c820aae3b855e3; 0x6a86230bd1bc2dd9; 0x52511c06c1dde37d; 0x37ca3057edce2810; 0x37ff8a96b175f9e8; 0x796a4be5b4772a8f; 0x4c0ace64140808bc; 0x77a5267ff94dca43; 0x74cc5ba3b9ace0a2; 0x3cb9c708149f222a; 0x54582508407d8518; 0x4bb910cb098d607f; 0x72e712ef680e441e; 0x7429a0a676ea58d3; 0x28ae8899b662544b; 0x285bcf0b402f7fb0; 0x57c922813d99c8b7; 0x42699cd4fb5e2a82; 0x7774dc5bcdc4c7b1; 0x302d09805ec32151; 0x3286251ec08ce0d1; 0x7ee7073dbf7d4fa1; 0x4d77583beb664f89; 0x52f69cb55e60b5b; 0x1f99d14db68c7019; 0xf32d4c4ac2817d3; 0x222814e8649b00f4; 0x563701884b317eb9; 0x10cad0f10e30622a; 0x2753532adfcf8595; 0x7d46c49ad542dc4d; 0x113a1861ef2a7b23; 0x11717b4d9d5d156a; 0x3cbed9a28bca9ce4; 0x50638f992e0a8292; 0x59bc48a02195488d; 0x5fd6ac8a1347fb6d; 0x13fa45f6c82027cd; 0x16517590e0fc3b74; 0x5d0f3b8f7763a0f6; 0x4193eb02ebc1261b; 0x112f5462c08fb59e; 0x5e2179ea77face5f; 0x677ba73b581a1501; 0x19861861e00180e9; 0x70cccfc3ccf3fcff; 0x79e07e61e01e799f; 0x4fc0cfc3f3f03fcc; 0x198799];
   [0x7553ed24dd9f8bca; 0x35ee4decc42af6ae; 0x4087cd3de5a4c701; 0x2577c310d08a5a77; 0x6d4c3ba1aaa311e6; 0x6aca7b3570432265; 0x1e3670819505318c; 0x58f07d56edd69c95; 0x34c5b7279ff34fbc; 0x5d234a52d6c04b02; 0x13988eb588299938; 0x73f08e52b360bf19; 0x14bd717844270b5c; 0x3f497b0c072b8d71; 0x27995aa1359ee80b; 0xb5f06d8f533265f; 0x7d97c3430d2f0f03; 0x75882c2df5938c54; 0x5750977afe959096; 0x2473606c97a0d777; 0x6ac11d24865b71d9; 0x78c5744a3ea2ab60; 0x91fa8bb9f0c73cc; 0x278873ab88dd6d36; 0x2674c3c3ede3d47b; 0x47f23bc648a24b53; 0x4369cd3525e7986d; 0x2cf7ef944ee7abf9; 0x7ad97d0b2afd19b6; 0x4964bf1869a2ba36; 0x5e8e326f5ccb8ffe; 0x98cf05a3aa50bb5; 0x40c8344c04ada330; 0x571f823d3321989a; 0x81fa7e86a2524ea; 0x6b07144591be88e6; 0x149dceace662d4b7; 0x4c1deae8ea21e5c2; 0x5c6872335ba3bd3e; 0x22b53f9f038c4335; 0x73769aad486ce3fa; 0x5b6a10fd12a21499; 0x2bc03c19d4f6f6ec; 0x30a2ab87e98edc31; 0x51b653bdc9582c28; 0xdb9972d28092961; 0x138f3091a9e59be7; 0x35778718421031a5; 0x4da3f4310fcf5b00; 0x299451ff7f8a333b; 0x64695100a4b085da; 0xbfa0928056ddbb5; 0x59b8355f62f2dcc0; 0x1414a936af86584b; 0x23c6858c922a7670; 0x785bf6a0bf6482e0; 0x472826be90d04f3f; 0x5b07a1788bef9a7; 0x2dd254b5d5e12473; 0x347a54d41a747674; 0x6cb3a89493c00c24; 0x8166f3c4cfe89b; 0x55e2f70d4713bc3; 0x3d297a8bfb42216b; 0x5c9ee246ac00af88; 0x764b3e0125632f82; 0x33ccca86ff65bb8a; 0x78ddc77ec3eec73f; 0x59851e61b83b343e; 0x64d3c1e6e336bf20; 0x3abac0aae34f0fa0; 0x682c89da5e2120a4; 0x46f5ccc71846be24; 0x75e87fed11f3933e; 0x3ade19a52a38da; 0x442a457dc6f73b29; 0x45ae3aee310a41af; 0x5f52154bf270be8f; 0x4a1fbf4aa00c5422; 0x71758439a07c73b9; 0xba9af4699666943; 0xb5bc72bdbdc3748; 0x1961d798bec048f3; 0x49db3d44de174737; 0x9d2524befda45d4; 0x623fccfe2c087924; 0x3538e8ab94915a17; 0x45301fdf57b7dbbe; 0x269c9aa703525309; 0xf4d214779518cd1; 0x690295bdb04c2813; 0x7ad54f6e6d52f4a9; 0x43bf79e9ae9cdcd8; 0x346fd3498949a804; 0x66984085a7ad42f; 0x3a71550dec112807; 0x33f5b29543e2a62d; 0x7e452f43b0606444; 0x3bda51a40637617b; 0x5b9b9ae5aa26ad1f; 0x73e73983d556dccb; 0x4a4339ab6574b769; 0x49a9baad0e23b35a; 0x6431cb2268a16952; 0x3e5d2cc49757ca09; 0x68ae4c571ef4063f; 0x2839cd2f2b1ef2ec; 0x7d4639910ab2582e; 0x3b7e0608f984180; 0x4896676f437ae5b5; 0x75263b959b33a9bc; 0x43e6eb1036c190b3; 0x4e70b7e13dd28d36; 0x793bdaca1c4ab349; 0x7cf8aaecdb82c7b1; 0x55bbb11108f0541a; 0x5623eb112b719a1c; 0x6f6974e474d77e78; 0x33143cb32a38a9b; 0x7147f95cdef527f4; 0x430cf0e5316fb401; 0x1bc4ed5bbf824a72; 0x5db46bb311a91859; 0x4890f48b40e9d9; 0x5e865adc359bbe8b; 0x2dbd1fa51ba8ffe8; 0x3f77b3506946ddb2; 0x6a8e3743a3f8df06; 0x2e08f0d0f8dde145; 0x4a403c4cb353ac67; 0x66ec688fa882d3fd; 0xacf9dc82a358ae4; 0x2c423ecae7bdc59c; 0x6adcf076c5d560b5; 0xe5876aac195c393; 0x41f1daefcc53dfe; 0x762181b6cc9647ff; 0x1694f7456db90cbb; 0x69f1822243c0402f; 0x6d393b812d507610; 0x42aae8af074ca8a; 0x5c31b58dca2635d0; 0x4cc97ae29528704; 0x7d19268ed7bf7dcd; 0x316efd0230d3baeb; 0x1b50daa07ae70357; 0x6d4a309ec50f5c1d; 0x540f819b3e077e07; 0xecbcd654d64354b; 0x290194e389958314; 0x45fd3b57616fdb61; 0xeab2acc7b9f19e2; 0xc9c008dfa10c6a9; 0x562ff376029da939; 0x756eaa379fc2babf; 0x6e39c0c7067ee564; 0x6d5a16da1e611ccd; 0x7d935c0ec303c187; 0x4bc396b76a562eda; 0x1241372c848a9e0b; 0x1e0a5466d01837ee; 0x6fb873f819359dac; 0x99cddd552ce91eb; 0x34a581e2e4cd21bf; 0x475f1f83ab55961f; 0x7a17c4eac3ff64bc; 0x66c1f48181e7ea6; 0x4af3ae121f4934aa; 0x84e74ecaab19b0b; 0x382ad728ee5e4590; 0x644aadb61fb090db; 0x262f39c9cd072556; 0x752e95af6308ed37; 0x9aa73f8f9c02c91; 0x3a02b259ea8f8ed; 0x79d61d9083723c97; 0xa79fc7629b18fc1; 0x1cc06ab2f8fd4863; 0x1b569a52b9806cd1; 0x792ca5b0a392b4a5; 0x1b6e6017cd13cf8; 0x61ad571fbec31f63; 0x69c6575ba43d0cda; 0x69ccad6c3ff8bf4e; 0x36841f95411769db; 0x28cee99c60e9302a; 0x46d2b1b3f54ba1e7; 0x4552523db81e1bb; 0x5d13e8f831f3dd1; 0x4b1fdbb65a799932; 0x17ddea70f64147; 0x4a5b96afc6be2f80; 0x45e9f2985cee72c9; 0x486cd760b4c47c53; 0x43cfeb189fd1fb3e; 0x66f66f2b48dd8b26; 0x2ec5c13730c1446; 0x3fc2f4cd9bd90472; 0x2f5e334739e381e1; 0x1f790c050d9e98de; 0x2312f0805626257f; 0x42c9e2c0a1ce2fea; 0x64701b9d3ac9162f; 0x2ca16565fb8657fe; 0x3ba6fc96606494bb; 0x3d2cf028a41491ad; 0x2c5e98dc472d6353; 0x105d1b80ce8e3de; 0x6738ea885e0b9862; 0xd8fac209e82ae97; 0x7595fade90698799; 0x69538c9369fd5a52; 0x5b7db55f1d0183cb; 0x6e12aed4d7a4268a; 0x4019a9f2c0211e29; 0xbd4ae9ecf7d2187; 0x37bf6197d15dc72c; 0x4441a757b1b83608; 0x2bafa6870365c3e7; 0x50fc8db8a7d2ae53; 0x1ec28e577f9794fa; 0x3197267d852b156c; 0x42fd54649d701a43; 0x2e4496af3bf13eb6; 0x2d596100138843ff; 0x4005db10f650f16a; 0x362a2abfd7f5196d; 0x76da9fd66188616; 0x69cded57a9898783; 0x7444997b94ee3923; 0x38b6d0b28bc7459d; 0x34cbdab592a6b5e1; 0x3bdf451804c62a1b; 0xac32172f841076c; 0x2ff83f90c2bbebb2; 0x2f9dac2b17938550; 0x4aa1e102d595f127; 0x5ed2a9eb942d2c45; 0x1f8480e880892dfc; 0x302b705a76e4014d; 0x4161799915ac70b3; 0x4c556a509817b701; 0x552dfbf9f3c62275; 0x47aa143f83fe4b35; 0xae1a9db1186ac3b; 0x116fee14673fba36; 0x26767bfca53aca8; 0x6b99e206c6c218cb; 0x7fedaf967a9d4630; 0x440e43e7e864ed60; 0x74467c981c45243c; 0xe21f56d175e4db2; 0x2fc4123648e19ba6; 0x25d0d9f7619b0425; 0x421c04c283b97f24; 0x2404ffa5f57d7ba7; 0x672b547f8350702e; 0x1cddaa88c586da7a; 0x17c5059c28aeb546; 0x7856f9b5f05ee377; 0x5b448b62936821c2; 0xc6f99a17ff1c1b; 0x515ec0c8a0b086eb; 0x761f907d2b077bc; 0x34cd3b1844e03329; 0x62a506bf84e66a89; 0x5a6cf99c74ebdcd4; 0x7b450632fe89648c; 0x7f57208e357a1dc2; 0x7ac85b3e082ceff0; 0x7d6bddb4f8783102; 0x6c655d9055b3d79d; 0x310be60d176b8b0a; 0x140b6ea6393bdda1; 0x3bd0efe917e88d8; 0x77e16e59c67407d6; 0x4ea01a2c0251cab7; 0x26afba4404bde8a9; 0x7f9b02fabfcc1189; 0x22741e5cb6897bd0; 0x41414982d67bf585; 0x6d6e9caf7c7a0b62; 0x71aff8b61b6c5718; 0x5e0cf6456dd2d882; 0x60ea34f9d784315a; 0x10a3db872bf9dada; 0x8192964aa1d7f57; 0x14be2589ed6eed08; 0x7efba3106fa4ef4c; 0x341f261981df7a1f; 0x1031461725ae47be; 0x2266a9e08b94e615; 0x7663f438b268c19a; 0x26eb97c916bbaeae; 0x1a3c58d3e76c7762; 0x1c17b668541e28f0; 0xe6c7a2b61829570; 0x2c8d3e81753a47c4; 0x3ad44bd856b07cd9; 0x14479072fdbeb476; 0x6ee6197d04e2c934; 0xe245cefe2b5adeb; 0x2566531ba91e6fcd; 0x69f106a8174c872a; 0x4adaeaa0b86a3f39; 0xbc00fbab13cdded; 0x293323d0e7317b1d; 0x27a992b2900689d6; 0x6a39ad390154a77b; 0x6e0813d6ec9bd5a6; 0x311f8c6a018b252b; 0x6ae57ea7e32a6008; 0x5888bee465a47b13; 0x666679f9e06784e; 0x4003f33ccf3c3cc3; 0x660007e186606019; 0x4c33cfffccc30333; 0x79f99];
   [0x1fc9013415234fa8; 0x2ff1bf41adfc4613; 0x609a803b3b8d85de; 0x7e19c5082bab2356; 0x79b2dea7deb1ba5f; 0x5c0d03548ddfdb21; 0x71349dff9599a8be; 0x6c5cd1375aac3e4a; 0x587b52ab040bd8f9; 0x7a0487526c2e3d4b; 0x7bb676b30180c17f; 0x1c6b10d6af34d50d; 0x11bfe75d39ae10e0; 0x16796d9b6b2be244; 0x105f78a028d0baf8; 0x446fe96d917f35d; 0x6c22153f156bc317; 0x3344c6f34db07d24; 0x33ab858a4735aee5; 0x4efe135dd5893d55; 0x63fd735ae3485ed6; 0x471e25b796de418b; 0x52b458b73b16e782; 0x50c3f1590987b81f; 0x496b3c5e67af0830; 0xce5eb3cb9fd4f30; 0x438824073d83269a; 0x32f01e9fe046c484; 0x52f045e602bf884b; 0x637c8bb85494ab3c; 0xcc9e18980491a07; 0x582bd8c0486a1944; 0x79e7329c3266e5e3; 0x41f59f4ebc91930b; 0x122abb0f613e9823; 0x140b9434ef64a9ed; 0x18281a48317414a1; 0x30d9c6dfcb265657; 0x21c581630aa6f273; 0x5b31a6ab9b467b46; 0x5eb4e994e39c422d; 0x115d5a82b5cde9af; 0x1bd302a56547516e; 0x6480609afcd16291; 0xd36b7ee6a1350a0; 0x4e793815ca3d5ec9; 0x297e67f0316d9940; 0x16b7302fb92166d3; 0x38446c1183e3a0ba; 0x13250a4735b16c8e; 0x16dc1bd899c35ca5; 0x4d1b358f47f74b4d; 0x63d45245eb50ec04; 0x7b5a531cbcc7e0ac; 0x5d7a93e9bf39f45d; 0x7c1576e65ab77f9d; 0x385ca6d5a50d3cab; 0x4e3eb820884f7f37; 0x3727c53fc7ab1fbd; 0x9594027a514415a; 0x25f981237658de34; 0x25400607a55389ac; 0x7c948056feb2f198; 0x37c1142cba7487db; 0x10fc58414508e8a3; 0x67ce5fe602d33853; 0x577b3c2ef9d754d6; 0x442649b0ea3b6b47; 0x848457a318a25e1; 0x5fa71b208f3ddfb6; 0x2e6833757e8f9e1c; 0x507da69aa78604c; 0x668d4da7d026a6b3; 0x5ae9d44ad1849ef3; 0x751279ffbfd57814; 0x6132118055de91cb; 0x18a84a9a51565d70; 0x67ddda181f16aac4; 0x575c1e40e62882e6; 0x53a6e30c6b19a80a; 0x2eb3acac848a7160; 0x17410bf9e33ff970; 0x5efdd80c53bfdd69; 0x416448cfa242663a; 0x4bc705405a83a799; 0xc19bee1adcdd1ef; 0x73b786e60fd113d0; 0x1a5f2320daf1a671; 0x2918a66fbf3f8df0; 0x94f6c182d6920dd; 0x993f747ca56766e; 0x3da78315118c6b42; 0x16edac9469101248; 0x138d9d0a6c663ee7; 0x77c723f8f3fdba99; 0x64b076a4947e1413; 0x4977f81759f91107; 0x5d8db1760fd99cf0; 0x1ab3845b8bb94ebd; 0xf70b618234cfc4d; 0x330fdf549541ae1a; 0x26085279f713fb09; 0x34ebb556f1ff6807; 0x79ffd7f58e982d38; 0x1b59b6eb07aa5e3c; 0x962600f641d2a66; 0xa0d3c6846983022; 0x684e453e7cd7f04c; 0x28e06d667285948f; 0x347994d0cd3f0d47; 0x1aa6f4acb6302ba9; 0x686f9f08d13301e6; 0x4ee9bf39912a0eb9; 0x3502aad3c7ea7761; 0x42aee37c005953b2; 0x3c8d199086e2d729; 0x5bcea0dd46f4e5ce; 0x1027df73db28ff49; 0x54a5e9456cddc38b; 0x73a0420bb501c52a; 0x34891b12a2bbaa55; 0x7149e04c40dd2f14; 0x47545af8b1ce3b5c; 0x63bc7ce9c4bbc7b3; 0x5f56fb88c35645e0; 0x77ffe2cb8c5b9dbd; 0x28a22f283bac09bf; 0x6daac8f8f7e21a07; 0x55f998aa0ec9f09a; 0x462e2096a84b3f39; 0x4e4b3396ce73f06a; 0x6def29e11579dc4b; 0x35715373611022d9; 0x1da1f426d15b6039; 0x7b036e579752759d; 0xd5f7d005f29c0a3; 0x100c20a9426c3ba4; 0x2041bab10c777c55; 0x205f46dbd0e9a67a; 0x4d31cf73b5bb770a; 0x6fede98e45a3033a; 0x6ca86d39cf6d9a94; 0x68f763a0dc99a800; 0x65a362daa9ba8709; 0x6af98cdabdedf435; 0x34ac96b6c7b246a5; 0x20173d8cdead5ed2; 0x715f45e6bc08aa6c; 0x98b17fd93ca86b4; 0x12f21dfdffa1cd81; 0x64bd9eb8ded8a40a; 0x77cd6668af73b6fa; 0x2f144f7732097d89; 0x3cb401104a1134c0; 0x28ef47388d312916; 0x5cef67512aad442c; 0x109ebea3b096a407; 0x6497c869c3f96822; 0x34d5b1a8e75475c1; 0x733fbaf0769acd44; 0x46fee8238d8a6c49; 0x4f43cce8a787859b; 0x689a21a128af2c3f; 0x438d18199aadd63a; 0x2c5f1adbdebf0fe; 0x16cf9d309cbfb969; 0x131d7d88279e4713; 0x2c278e64b5b1e23e; 0x14075b5509fd9a90; 0x4c3822d4c7666f4f; 0x5f4906ac1f4ef782; 0x512cf8a4cd6cc876; 0x7b63843ac738d31c; 0x55c150fbe51be7da; 0x77f730cd07aa0eca; 0x5af0341e1fb6a1e0; 0x40b755967b3e9033; 0xaaa69f41e8a3672; 0x5f4aed558d764da4; 0x7fc8035000b5ab22; 0x4451c57819b76602; 0x7025545b0a5c02e0; 0xdee324fe79b32a2; 0x492e2b66aad2fcc2; 0x2177e7f851447e59; 0x3664bb59985d1fe2; 0x7661cd7044406a05; 0x6f2719ce3dd5683; 0x35c563d700c82b69; 0x6666ba671bc0b036; 0x46f217af3da30098; 0x7bf02e1a549e9559; 0x53df809c70043a60; 0x2a3b9b74b7430d2c; 0x58ca40a12440db86; 0x684ea1dcc5be5a0; 0x3bc4c48a3567e926; 0x4cca077b514d56a8; 0x1fb8b3f21ac1f2b9; 0x7a674a6d86c600f6; 0x34ada11f1d97b6ae; 0x9d50cd5122df585; 0x2dee58e8407ffb32; 0x4d0415601906f0cc; 0x57ee39e17cda8809; 0x363ea52f0c7f5982; 0x670539118b41beef; 0x3d8fee0ca66b1e9c; 0x76099bc7c4072af3; 0x6e3ba740eac7e2a9; 0x66b544504e194a94; 0x22521f6cb4bc1170; 0x17e48d62c1574b0; 0x582900055daff523; 0x543da25953a65778; 0xb5246818d923e78; 0x59757fd9ea5e1d22; 0x140687f2e055f198; 0x7cb60e3d01c02f4d; 0x3a79042bbdca94b; 0x69ee1c64ba036251; 0x1470a9200c896be1; 0x964dfafbc59b024; 0x27690d54e2b4c8bb; 0x1f8eb575d892e86; 0x584591ea5198c746; 0x2456d4f68e73a08; 0x73d6484006fea31f; 0x1d45b5f195453a41; 0xcb523af3423a56d; 0x3900657192e179f5; 0x2f8e16f505fcbe6d; 0x76f2c76612db584a; 0x6e354edbf2b4022d; 0x7e9f657cdb5347f2; 0x86d031f66725640; 0x24ffe35aade52532; 0x20b68984956cd53a; 0x6f228eb869d5cfee; 0x1df7003c0743de1a; 0x2d291d2c613cffa0; 0x20c46edbb9eb9dec; 0x414f5be47bff884d; 0x33f808f446b5adb1; 0x623b8c0480d3720f; 0x3a7773dc81ae7877; 0x1f6be08513f17a67; 0x6f425665d8539f94; 0x2c44ac45713bdf6a; 0x1948702e3f892fd0; 0x391ca2eac07eef32; 0x6eca7bf9b1da49b0; 0x44965db13d7dde42; 0x10c50a86a105fbc8; 0x6008a621121bcbfe; 0x6249148feb382973; 0x3173aeeb80aa5a07; 0x23c77b7be00f10b8; 0x233559f5c16f7fc6; 0x30d7cf39124d1e7b; 0x33b6e8724cd2d179; 0x7be614d0b32b155e; 0x2d852e58ebaac88f; 0x3e580d28a77c7db4; 0x4f127d445c8c1e61; 0xf6184ad56609ef5; 0x193ad0ce7e91cd67; 0x60bf7ab170b78b18; 0x525ad0b883a64d5e; 0x5edf93e82a305b6d; 0x3fecd0b149645e0b; 0x2f360239fb313968; 0x35916751f6800c0f; 0x2ad1402d08e3522e; 0x2b0d6f83795329ef; 0xb434e6a751d30a3; 0x6ed1dd2070b86981; 0x1efcdd77e8449bfb; 0x47dc6cc12e3e6144; 0x11e85562ea76c899; 0x2595c52e5dac7a6b; 0x24f8e80a6c7ed70a; 0xcd093a8000e6a0c; 0x44987c84c0b832ce; 0x271c330314a90264; 0x5a423640aaa1b70c; 0x35cb89363fc6fb54; 0x33852bfa3193df6f; 0x107eea9a7c4daee; 0x24ed79ece6a5f4d2; 0x706034125dac2e66; 0x4e47f3f0e90ef6a9; 0x1b3da7ac5ab3ea0a; 0x76536a2ed5e9c2ac; 0x447f7cc4a40a3ce3; 0x2fc10317f40190f3; 0x2cdddb6c864eaa66; 0x5a20ab6b78c31d87; 0x3e2ad168ac297ca3; 0x1566a3b4362860f2; 0x23256a408f6d0e00; 0x37faf02a649f8133; 0x45f2b0f529a7114b; 0x10573a4ab67ed99e; 0x6898759bc1583bc0; 0x2c2a5bb18002c07e; 0xbef9fd61b9bafeb; 0x301ee9a9f26e8103; 0x53c522646ba9db3f; 0x76e78e004ebbfe9c; 0x5c4962ae0274a44f; 0x56accbb3c573e8ed; 0x375e10494f31ed0a; 0x667e1999f9e001; 0x43f3ff0c3c03c0ff; 0x1e60679fe19e61ff; 0x330cfc003330ff3c; 0x199e];
   [0x28600658decfae15; 0x251e6e99ed09b05e; 0x3e6bc8a41190827c; 0x218080e6a7e0ee92; 0x5259af5179c79ecc; 0x3f4cba117c007035; 0x4cdadb7dd9d382f3; 0x35220dcc0ec204f7; 0x446438ea002a7e6b; 0x3333718c49aef77c; 0x2e4e305dbfef4571; 0x6c5f82499c490095; 0x1d184e1287f82fef; 0x6a574025160c29c3; 0x720edab2881ef832; 0x37bf18bd89eae4f3; 0x5efd3bbc6bcb9718; 0x1c30144ee04fd9ed; 0x6e8143d1c37cec45; 0x6d636a0b6a843d00; 0x5bddf459d03110; 0x7b3b9591f99f9782; 0x3a241b0c9bf9acb7; 0x22e00bf559c00da2; 0x4d2402ae7833f137; 0xd443ee5b027e6c8; 0x56412bda13c51116; 0xbc4e9ae7e3e08e5; 0x38148f5fb8b37a46; 0x213467cb0ead7210; 0x508c2532a92e385b; 0x4be1718a5e9466f0; 0x5f97564bafd7ce2c; 0x3e8ee3f69e6cc49f; 0x6fa090582f52aff7; 0x6d339079bbd052de; 0x544a49c36015199a; 0x3abe4f75159daabe; 0x763717043a08b14a; 0x29867eaac013d157; 0x1e80c9f381bcc4a6; 0x515fbbd6be07cd4c; 0x5f51769c5bf8e277; 0x7dd7fad35a025860; 0x4003b6e943705020; 0x33c355692c61dc51; 0x29b48cebf36d2e60; 0x87258353fa744e; 0x6a32d905c2f004f2; 0x362e8bdb093dc7fc; 0x88e83747a6c8259; 0x4c54fd7c585ec2d7; 0x5820ec32fb8bb654; 0x10933f221e8f4c88; 0x978821ea00717bd; 0x2a4a8c352724b2ea; 0x168ebe126e2e5c6d; 0x1e30eed76f6ba44c; 0x54c478fd0925ba6f; 0x132805bab718bfc7; 0x474896ce8e3904a7; 0x30eef062bbcbecb3; 0x39df5e7a70cc3edb; 0x12f50cc4b87b20cd; 0x43fd3e0293a67efe; 0x2fa6ee5199981079; 0xe6d5d6cbaa14e95; 0x4b2a5b1f25a9e498; 0x611eadca3030bead; 0x547bb11be8de4d8b; 0x6341de62327c33f5; 0x7c60a6f1dd4317df; 0x65552c50353d0990; 0x18e53ab70d8f9747; 0x46498751caabd53a; 0x6458339f606407ea; 0x557ac6b6746eba94; 0x785834d156934c43; 0x68c8617a05febc8c; 0x467321ab6ae7c824; 0x6c6a1493e878015c; 0x27802a0da506179c; 0x2d350061fef5cd2a; 0x7fb466c4eb302622; 0x77756776aa33fab7; 0x58ba45db22612e26; 0x7160627c62af1049; 0x2e25078798a20ccc; 0x5ecbdefcba8c4d10; 0xc24259691094490; 0x758c792ff30f2623; 0x24efb44367fe0732; 0x102d77d574c17af0; 0x4a31742e35745617; 0x4c3e98b019051e9e; 0xe6576cde69f43be; 0x42aae3f17bccd28a; 0x943f26e340a4bd5; 0x2208bbf6eecc1f7c; 0x1908fc6d2a43f8e6; 0x1162fc41bb608454; 0x3ea5b7c2944cb67f; 0x3de3046367a8eb6b; 0x7ea33c499bdb42bf; 0x1ea3e6dccacfaad8; 0x53a8a8e4b8280458; 0x76c44c7b365e2538; 0x7bed7c15d79d8a73; 0x754bb5411ea27068; 0x152b478155bf2b70; 0x771032509dae8936; 0x1d787d71467ccc14; 0x5c13a0e6ecdbe419; 0x417f3d1e33cdc10; 0x6e0a1bf9f6ab8938; 0x334445efd7ac373a; 0x6b959b70d0b6c123; 0x6650d98899c6e6ad; 0x4aaa53de76932ba2; 0x7b0021f3fe88842b; 0x2edbac79f8c4bd1b; 0xac6660eb2b014d1; 0x4aae4bebef6ad474; 0x6b0fde0b8f09de4; 0x179b8d5796efdbb3; 0x754348b290bd7de9; 0x172ca0159b2dfc12; 0x1a17ac7c6a22373b; 0x1182ac07f74b2502; 0x5fd3e613a3337a14; 0x56955d8e09ca4b50; 0x3e177131a726e98; 0x2207fa2135b9393f; 0x4454ef24e77536e6; 0x56dfe08985616725; 0x12dc58324c3de80a; 0x6c5e65fe7969ec57; 0x75ee5292feca3b36; 0x732e9cbb63295fe6; 0x44073a862af5c131; 0x17126501eec87fae; 0x702254544d3efe24; 0x3aadd224ba9a07fd; 0x3109bfd8f1aaa1b0; 0x2b7d7c21be81127b; 0x35076b5c71966d7f; 0x55854ed7ea9180ce; 0x34bfea4a0017145f; 0x5156ef83743b56b1; 0x3e46c9815b0e1426; 0x790436947f3bbb39; 0x2432f20f5a66dd92; 0x6c2e63815bc39c75; 0x4ccd63aafcf83b; 0x43abbec4b8fc2af6; 0x6274be51b249f49c; 0x18aa502fa5e7e974; 0x6efdb0afa065749d; 0x4cfedcaf6459a42f; 0x3973453de479ae3d; 0x2f761141c2997d2c; 0x53b58ad0eab23fb2; 0x240fe2a9c1db5bc5; 0x6f1865064f037bd6; 0x6c4c29455bfb0e7b; 0x58ba76f4a96c1f08; 0x454eb1b17213afbb; 0x6f603a6b3ef16d43; 0x6fb5e66816717876; 0x8403656a45bda33; 0x184774320fd970fa; 0x3d7fa3afb71b7d1a; 0x2a415ba0db0ad072; 0x608345742c4eca2; 0x6b66de010050e049; 0x5dd886d1e80edfab; 0x7763bbba21579611; 0x59e0b5966e458b3b; 0x64acb49290640ba7; 0x68d6b5141212714a; 0x3cc4fd62d7ad3ea0; 0x6cc5e71a13fe3388; 0x6432baa0735f1035; 0x172b09af9d90ca18; 0x3aee6b9133167165; 0xefef5097b767ef7; 0x8ae8340b93d17e6; 0x12f5486b54bdcc20; 0x53a617f4bb179d6a; 0x71c5a975739e5518; 0x658fe2839f9aeee9; 0x6b4137960a5be52a; 0x54d9e1c61872e65a; 0x3ff048b219171f61; 0x7fba5530fc8b8072; 0x5484ee353876e814; 0x714755c6b594094; 0x5ae32ade0d1c7de7; 0x44b2bfb35295cc17; 0x54cb445a9fdb1fde; 0x68c5c5edc2913800; 0x17c38e50a344a52b; 0x13b9ba2fa8ec19ba; 0x22d8d04735d938c8; 0x72199bb74a7303e8; 0x15292810492a0314; 0x5bd0e72d769487f8; 0x35cf7e0766f9717b; 0x575c7dab6c8eb355; 0x16daf9e6260436df; 0x6c49acfad95e7b74; 0x4b2f56f5f647aa3f; 0x6bafd2de3617b096; 0x517aaf949559b621; 0x77100ce28fdcfcba; 0x1476f249487ab6f5; 0x5801b14321cee4cb; 0x47c47028a5ac1a15; 0x15b2301bbf70c9cb; 0x2961fd28f035393b; 0x22963785a9bcda31; 0xcc989bde6768a45; 0x452be7c3fc1dac59; 0x5b08516147323cfe; 0x515a11ca652d2910; 0x3d7bcff8bd5e1479; 0x7be61963c5f38b66; 0x546d25e9ecf1040e; 0x6c48a261040f5c5a; 0x2c2a7dcc95dd9237; 0x3806413e0f4c0b9e; 0x6b14ddb6cb27ab9d; 0x3171a54d6a2b580a; 0x7d20697d80b41a42; 0x165278c9957e0f87; 0x77d6a91977a63072; 0x3ad7d925603e8744; 0x46f128ed6852df87; 0x5e8037924f9efb64; 0x7ed8ee46bdc2034f; 0x17570768b9204e82; 0x5c09dfad7ec33d; 0x1a1cc94514e22610; 0x19ad8cbe1d1fde1d; 0x1ba8e22928630dc8; 0x525c557b324950f2; 0xbb32389f74f8f07; 0x51f1b2354f51bd59; 0x2f14072eef9a2750; 0x22421c5b15df3e41; 0x725e17a937c4ae83; 0x5dad1acd94389106; 0x2ab2494c1aaecf12; 0x7c63c9c0d09a3f02; 0x37c77a0c1a347e4c; 0x7a7f7e34b65628e9; 0x48a0f5c42e8c0d3c; 0x5d40316e95406a6; 0x6c21b451f65502dc; 0x47877b7c8b547940; 0x2946b7644a4f4eda; 0x6fcc6a6f5bdea2fa; 0x3264344245235ab9; 0x4db95aefa71ff088; 0x6ec615bb9913b537; 0x3e22db540d817e7e; 0x1defe7419d32555f; 0x69eb9a0370b4328; 0x5b2c3caa73fdbe45; 0x2639c4f2c4266d88; 0x71269a671a6c2851; 0x766ccf7e898912c2; 0x15789ee8592d8eaa; 0x7068fc315cb5e07a; 0x2b32afbcd34dfbd9; 0x34b2f7190eb92b66; 0x475dbba08e03cab5; 0x3962b711d5ad56f6; 0x57d49380f44b339b; 0x69dc8eb3aa41dd29; 0x4cc1202f0ca95f7d; 0x2617bc2a3c6b9a8b; 0x79cad261389ebf25; 0x5613203d099c1d21; 0x6194fcbb6a53cb4a; 0x16f73b7b00a9f1de; 0x6cb864184af5d1fa; 0x5df2884914b1526a; 0x4fccd8c65f113ba9; 0x3799a0d043380024; 0x4061375fb63fef37; 0x3642d012882b2772; 0x35605b786e512e3d; 0x715f693c573aed76; 0x708a6c4e64e51a2e; 0x74ec3791697034e3; 0x3198f3f198c412fb; 0x2ccfe1752192fe55; 0x1fa19e152941e7b1; 0x324c1a8cba22a890; 0x7123e3233f6e069f; 0x27e83059e388ab50; 0x3a50efdce684b057; 0x3c4d33fafa1099ab; 0x64d28611abae07b4; 0xcbc84e6dfaf9f56; 0x5f69acbf69045eb1; 0x7fea494e1d5bd5fd; 0x752115951c222fc8; 0xbf498696edadd2d; 0x533d29b315217af3; 0x7fd416d627a8a2c9; 0x7dd26aa76813ad55; 0x78060061e6060629; 0x4ccc3f33c3ccf0fc; 0x6619e06601fe0067; 0x3fffcfc30f3ff0cf; 0x78066];
   [0x65eff1163b8cd3e7; 0x1404d179fbfda56; 0x1f716e98df084acb; 0x34db7c1479c297ef; 0x51fcfabcb046c9a7; 0x1c6de4885aff26fb; 0x273a9311aeca6529; 0x3b8e30edc9792678; 0x4fceaf86f5b2baed; 0x5e7499edf315c9c0; 0x5d129e2d3fab9c8d; 0x36678e83dbf13aa1; 0x4be66054a4baff66; 0x1f8556eebe2a06a9; 0x167ba16be5abd9cc; 0xda4c2c9b730589e; 0x3f933f343659fb43; 0x466dbe41dde1dd1; 0x7748beeb9668f51d; 0x64902bb8d202b345; 0x5615febf3fe05024; 0x143c8907a33bbb95; 0x215a6da943c6fdef; 0x9714cf2345b4991; 0x77d6e601ec7b2354; 0xf0331494a8669dd; 0x790226f1b09aa673; 0x7d6e6d9bd449b72b; 0x327abf29f11d6dc; 0x791789fe56d16a33; 0xdb2a97f2e56eec0; 0xd335af2589f2d41; 0x5b82a8057e1fc932; 0x2eef11d306b8fe45; 0x1bba48fb427b6b78; 0x336c99ea550a95c9; 0x38bfef2b11db4a44; 0x4e3a02b06a0ac4e4; 0x58db95124a80b597; 0x66ccd1d9a959ff6c; 0x6b27c58ff1c30bf6; 0x6ca4beafeb2eabd6; 0x186c71388ec3ff0e; 0x3ec4ad056d7fc85d; 0x59deafce8ae770e0; 0x7348c66df40b70ad; 0x3c606e3634063e8d; 0x2fb95e329eab43ef; 0x7ee1ec95aab627ef; 0x7efaa970e6fa2433; 0x72e13e8773bd97c2; 0x5dd8d292f510c846; 0x2eb69c398e743ea; 0x49ffd9c51e8193af; 0x4e0d2ae49f3fd96c; 0x32eebc26cf33877; 0x24ff6e49f49adf74; 0x4f673626a457190b; 0xab24d94b818bd11; 0x2e45d93412f05ec8; 0x70a28a0443ba59aa; 0x477b6fcf90e0e0ab; 0x3ce3110eeb76b4f3; 0x47243d260c0e1865; 0x5a6a428a9770b53c; 0x271bf30a7721db4a; 0xa50f676e998665c; 0x12339636a2b7e5ac; 0x3c86dfbab87a7f2a; 0x502d56f20e8b837e; 0x715460a0b46e2657; 0x26fe1687315a7d0c; 0x2f70ec99cff4f2a9; 0x10ba19afcc87f1b9; 0x4f74d1566b30f615; 0x5b4ee76a0491b72b; 0x46d1048cea726f04; 0xea312c80f6b853e; 0x114e9528cd2bc0fc; 0x50c3586cbc8bcd32; 0x7cdbbe0dfdca91f4; 0x16d12b14ffe552f6; 0x601e21482fa5b317; 0x636c3936e7cad4d4; 0x5ca68678832c1931; 0x7665d0e0e5154ac6; 0x3ade4ac4a9f2f521; 0xb238ab6073aed0d; 0x2632eaa1c2977a1d; 0x73b2c46fe5894f1d; 0x24d8d87ae2aa935e; 0x25d946ff7263c94e; 0x675a89b7860334d7; 0x134c1c954abbaf9a; 0x6d72a2a2eff0fb44; 0x2261b8dcbf2a2fc7; 0x4d8bf72efe6f84b0; 0x5d51f44c982cedf3; 0x68fe36dfd8a3e1f6; 0x4c3b79b388005480; 0x1d3c43f4609a03e3; 0x233732f4a2bbeae2; 0x1bbfeb90ddeb8240; 0x3105e7e5b6be09c4; 0x4831a7a21018bf63; 0x4257457edb20d699; 0x772e0a388a6cb861; 0x5e1de2fdac47e1a0; 0xdc1d1f59d5a2d2f; 0x17168a5a4c4ef57e; 0x51844dd1e98404e5; 0xe341cff392ef669; 0x3f393e70cb332550; 0x477909e3ef766996; 0x472f67b3674fd388; 0x1724942026515928; 0x5d750bf7be31e8b0; 0x6b433e542374bbe6; 0x227d390a679a6076; 0x4661e4780c7b2403; 0x4fc7500c450213; 0x108c6b75586ad513; 0x5d75c9adb55e17c5; 0x225a6d145deababb; 0x7971494077d54f02; 0x11690d62d37a1f88; 0x5cb737674aab7106; 0x33eedeec33dad9ca; 0x4ba9273fc3f951da; 0x272b1fee21981007; 0x25e434d65304766f; 0x4dcb3315646bed76; 0xb09bfe9123a4170; 0x3de604ff25db700a; 0x13bebbba129e6d01; 0x21be03931309eb69; 0x31706dba97f928b5; 0x38e66754ba6d602d; 0x1124b840c3e78dca; 0x44eab9a7ef87e2dc; 0x12b1b83056c624ee; 0x6a3fd334bf8a2b7e; 0x405bb390a95d3865; 0x3b83c62b28938765; 0x4454ae8c4a11ec5f; 0x4b016163d4108786; 0xfa75839b9872a5c; 0x564df8088f1e13e4; 0x5944292bb2cb802; 0x73fa5193d6ba378b; 0x3e9b8e915a61f251; 0x2c1e77d4b75ac678; 0x29b09c4f230f6eb0; 0x633024e4edb9e161; 0x69bd8c734e283929; 0x3a218ba6e33fa1a0; 0x712efc01d7d78e37; 0x6e646808ca464c6a; 0x2c5995182c3e6f35; 0x142b26576fb4c83f; 0x249c88b172f24c9e; 0x220244a889699d00; 0x360cd387d2039414; 0x78dec3b96735e660; 0x2f5784376e932152; 0x565ceb158b5b8c94; 0x128a74eab3c8376d; 0xbc6fca8be12c3ce; 0x466fd0483acecd02; 0x5318e51a83601a89; 0x6784e1e511df7970; 0x3c661c5439fc0d50; 0x40eea849143923d8; 0x1241b6b6061362e2; 0x19cc65773001d3ee; 0x3066fb3fc9a69ee4; 0x2ebb4d6bf4c2d936; 0x250115da5a5a37c1; 0x6066f003ca259152; 0xd5ca6333279bf74; 0x6d44f02c4b56986e; 0x3afff5453ed8dadb; 0x36a9f645edf4ce5c; 0x5c09e8ea90496c73; 0x794d12c6d32213f7; 0x380a096b223d853b; 0x4f4b2a690d30bf07; 0x2d2ee02905d71b87; 0x1b402c9da87c9490; 0xc04ec555e738333; 0x7ec288f1201d8155; 0x55b02f5c305abb83; 0x4b05c20a4f801ba6; 0x6a788798896239c; 0x36bb04f952944255; 0x10c991f1e4ec95f1; 0x6855cb480c24b535; 0x5b9b26a2eb129b53; 0x2a5b20fbfc56901e; 0x2336970ac337050d; 0x363ad08f36e21dff; 0x388cbf54b2cea2ca; 0x41c91e69970b6783; 0x56f7ab00ea57ec8b; 0x56afcb1b36634dd4; 0x7c2a6c1b9e263087; 0x1a83686b20ef8d57; 0x3a477fe4e6619648; 0x443534f9ad9747b7; 0x68d67a7f6ab1b640; 0x71da55bba6df1059; 0x34bb5b3d1cbfd0d6; 0x166f8815e1c7394c; 0x61fbceacb29a8a13; 0x3f68de80bc5ecef8; 0x39819e5b0a282198; 0x3bb765270a8783d2; 0x69495ed89ca5e601; 0x287b1643272ec08d; 0x7f9d6d18f6909d9b; 0x28ff9604fe2e5aeb; 0x63bbd8a97bca5820; 0x37d0a19f93fe2343; 0x373cac7b4fd4e094; 0x772bc1331a22362a; 0x5040a59228c46450; 0x3ef7f0e50b66c68a; 0x1a48264e3a2532aa; 0x5db7fb7b58825abb; 0x6d4c2fb1f306357c; 0x5c911cb6284eb542; 0x29c55bbb8ca39284; 0x412b70e32441189c; 0x708a020e1c8d1466; 0x3d0d17be82c8567b; 0x646b836dc2422246; 0x7c9370efac54da6; 0x54753814e025276; 0x4e48a4c643095b36; 0x50f159fe8b0b1cd; 0x3598107bd2457925; 0x1e624f7929538e17; 0x2d4877a7f81cbb4d; 0x1ecb295cfe88d70; 0x284d2d221589db0e; 0xe83048566255fe3; 0x32941a2d51718561; 0xf0fad79862a9e63; 0x17a5c202e0b7b4d1; 0x6bd95adc50c8bcb8; 0x2ae9494076f03210; 0x72f32739bb458944; 0x58b64d33538b149b; 0x6a630bff7ee34dcb; 0x20e601574cb2499e; 0x2ebb5184a3a5f622; 0x309c407738d5a6c0; 0x51c8c0b7778352d6; 0x6c645d79beadc586; 0x630c1328b06c7fd; 0x4808d014d89bdf08; 0xafa2d20bcd71e0f; 0x79afaf6fe786a119; 0x30fbb7759d3777de; 0xc7ddf2dc3e04050; 0x1ad699c2a508aef8; 0x5fdf9195464cbbdc; 0x492fec602a3a460b; 0xbc1131178348c39; 0x559a0461dd28a35e; 0x28a45260362e50d6; 0x4ca7d14767353e7; 0x131d69936828025b; 0x6b140fd89468db22; 0x76fe3d4b83baf545; 0x42157bee5e222425; 0x2be039f0552f0cb8; 0x6a82a6e490cf6379; 0x6ad7dcdc4e126595; 0x4afb006769b657a4; 0x281950689cdb9a7e; 0x69b0f749a1a3dfe3; 0x2fb77b53b6197436; 0x1114f7c71b353a2f; 0x4fa90c2350aa3042; 0x24ac96c8af2bc67f; 0x68f38b7f62cb59a8; 0x3dd3008a5232e6ef; 0x47b36c3a2c9b0c8f; 0x30216cb65274b5c6; 0x7cd38c5d973e525e; 0x1fe6bcae1a6704e4; 0x1018161edbf22209; 0x4c07db22ee66f4bc; 0x6b389ecf56e50e53; 0x1b801e1b982d5590; 0x35005d7b2890c5c4; 0x7ea0d1b7668b758c; 0x26fe11842a7d1c54; 0x117d3b50fdf389b5; 0x75253e657aa64f4; 0x2dfc5b17d37728ee; 0x637db8a64402875e; 0x393ff05e571735a7; 0x7bf8dfd31d8c51f2; 0x6e9313d10c4a888; 0x5c37918b181ff546; 0x1e0c244315a63ac9; 0x2167c3217bcf5d9b; 0x3454970c96cb7e9b; 0x16332997a079ad42; 0x6ff6765ce682741f; 0x6929190dd5f5a410; 0x1e6660018601f849; 0x43c00fff0333f033; 0x661e1fe006067f9f; 0x73f033f0ffc303c3; 0x787e7];
   [0x671085a0c94bf7c0; 0x6917f65f55b765af; 0x6bffbc7bb7017655; 0x1c879b7f8f8ce6d9; 0x2de82f4a49ce17b; 0x37aa7d77b9bbcb27; 0x1fd89903f72e10f2; 0x46e399475c3adaa0; 0x6d1a6be0d2ccf7f0; 0x16b654c3f077df8d; 0x2a07231be5435ed6; 0xcb1a6e965688930; 0xad249281f3ba71c; 0x44e38a79ada838f0; 0x199a7e7392dfa93c; 0x1813d8f4359f635; 0x58e99712d3eb4254; 0x1aac17eb70bc160e; 0x7e9a4829e34bf407; 0x307bf2eb417e206e; 0x1ebcb2e0e6023fad; 0x14ae8be03ec5338d; 0x4c5784b007b48ff8; 0x7546f086e414f414; 0x7eb1522dc8a302dc; 0x1a18adf4a2ee3098; 0xb8139efe0695f49; 0x49728b006850589d; 0x66ab8bd63ad69738; 0x67576995dee89563; 0x6dbe2a85c84fcd01; 0x4fd33263f9fb471e; 0x1db8b379416c1583; 0x5448d6b07529d67a; 0x12deac6f0f8bc99c; 0x5b51812a0bd5a55e; 0x5b64ba6e36ff4cc0; 0x3a22231caad17548; 0x30d4ee7a636ff32a; 0x117981369dcce4ba; 0x3d650fbe26e99c30; 0x343471eeb9658bd5; 0x13f2e342b0550a17; 0x2d0bbebdf9876ddd; 0x63a0c631f1f7afbe; 0x180d4309504963ea; 0x4688b4c629b0c144; 0x3e25a3a6c74f976f; 0x1b4892207e6fb1e3; 0x4b55bc4fd3583500; 0x2b89f0b6b4d4603f; 0x6adcaf335acf8ec5; 0x74724e672a104423; 0xdcbe19370803aa2; 0x7e79e6f4f2333054; 0x4bd012348a22112a; 0x72f09345872efe9f; 0x175f2adb32a21670; 0x356c9b403abf74b8; 0x41a62487a14a7c35; 0x669c38868870a99b; 0x25ca13f2f429ef56; 0x1557d16141f291be; 0x2d5467655695e367; 0x4df4c599d4e3488d; 0x5d0b941c7bd72c7f; 0x75311056a9af76be; 0x4d1e4570c194168f; 0x538cd1435721d3a5; 0x167b252b2415d86d; 0x5557bb71c9bc5f91; 0x4e0bc785b5dacfe5; 0x62543ec3320e0796; 0x67567f71a497275e; 0x69ee431eb4566876; 0x479f88e44e93d083; 0x54b67d4c3331029e; 0x3c5015b692472766; 0x484cbef3d9f50499; 0x77e5ad156a297645; 0x379584e33f6e46fa; 0x62efa5bba2b6043d; 0xe6253244841d5bb; 0x2d32eb854a1fe5ea; 0x1d88d754bcef40ce; 0x25f173798a87e665; 0x5d2ca7ff5008de26; 0x43d8a4bdece27e12; 0x189acb8e40152e16; 0x1a05ccf3c960cf9c; 0x4c27b58ef5b4358c; 0x59bffc67fc5102f2; 0x2d6051022c7fbe99; 0x7428e2eec5dbb72; 0xf1671790735440c; 0x6eb668989dc8141d; 0x7d7b419a55406091; 0x7848df4e4b3305f6; 0x15a961763c2bfb32; 0x38c257d2b8638fd6; 0x3ab4027c26aab4a1; 0x34e042598788daa2; 0x159424564c0a3e9a; 0x3b7feb2bd78a39d3; 0x58bf500b76e42735; 0x4fe8524661ca8052; 0x73bc4ed08d0b4514; 0x9e104988ea5eb69; 0x10fe481bd4b5d655; 0xcb5f98eb98e12cd; 0x6aae955238216f67; 0x622b575e021165af; 0x35ac2d7f4ddc9990; 0xb113c24e20662a1; 0xbd91edfef07b04c; 0x366ba2ee2b8d9d7f; 0x40a1ddc4a2ab6409; 0x59bd411b8c3ffa67; 0x4a5a80b659aa0c49; 0x3f6fdd5b8ef11be3; 0x2d592dc53f2bd5b5; 0x1cc2c7296f357d57; 0x5c2652d865adfbee; 0x6d894a85dd58a6fe; 0x4f3da46bc300a014; 0x677747a8d8114fbd; 0x60c6efcae6a9bd96; 0x62482e077875a1a3; 0x5c4a95e53c93ff2b; 0x7d5ef50702be80e4; 0x543f85792289f86; 0x2fad7595baab4d81; 0x467ed006a5dea2ae; 0x7ff72339c23c4bea; 0x540180d2e66684ee; 0x1c8caa8e522d9ab9; 0x2fbb8c0b5c292379; 0x5365a76ba747156d; 0x119ae8fb6ab294c6; 0x2d066a357b6f2dc7; 0x7b47f3c35b7dd626; 0xfc308dd35e508; 0x18d0072b26b382f5; 0x1587d3c648e9d884; 0x51f576b9db9e6071; 0x1c9e805086b08f66; 0x6563f8cf83534a4f; 0x62de9642f908ed2e; 0x74c23192bdbfaff3; 0x544a624c84c5b9f2; 0x382204da94bf4858; 0x32ddc9f172adf1f9; 0x182f3efc28f0d8de; 0x3c58e0d0e391d996; 0x16b79266781f9588; 0x1db1b3a058caa80f; 0x4e24fd48746dbb5b; 0x7f9709ac3ee99da7; 0x778863e2155d2148; 0x6ca248e7b4f38385; 0x5e1b60200c44fd60; 0x9826db4b3bcb9ff; 0x7c5b5897f039e543; 0x1d830f76f8bf723; 0x4cbc72bc08b1b871; 0x77f74baf58e53926; 0x39a30d3cd8577b35; 0x58936a853b55d001; 0x60f26c0e974728de; 0x33c17f1235a8826a; 0x6d11348b1a982053; 0x308c5d2342fb45a5; 0x20dc1c8e3ea57edc; 0x782df2b7390adfe5; 0x2744a88de08688e4; 0x3041ae03d85c42a0; 0x54d6ba3c1b06c9d1; 0x77147e197834a436; 0x2ef6065d21655255; 0x2fb29b7bf5b0df6a; 0x2625618f2f7a37c4; 0x414c690e1446afd2; 0x1f360533a42ae6fc; 0x15380f4243478038; 0x19674299b86cc962; 0x428b4a5a5197a201; 0x60f99b4e3d387f19; 0x346b4e48ef0d3fda; 0x586e128666ce3862; 0x6e89f7500b27d491; 0x7c840966eb8d5a70; 0xc581091ad5ba716; 0x3c561928a8e32378; 0x5aff7866500ae9cc; 0x21cad7c836d64f99; 0x73a56d01316e11b2; 0x5e5888cf039ab232; 0x2da6c48dc65958b6; 0x2e1dccf2444428e4; 0x1f23fcf4140fc6fa; 0x75c95fdf51aa91b; 0x5068b5cd4876e5ac; 0x407d552c53c53776; 0x265a66f26c422c46; 0x1563dfad70ca1b5; 0x8b66c466badcd6; 0x6ef7d0e9bee76b4f; 0x33eff1fd12f47a33; 0x19bd806eba464849; 0x5ed80e7ce8ee95e7; 0x45a79c89e49c95e2; 0x15f9942481eaf8d7; 0x436ec466df6fb22a; 0x7348d6ab39735255; 0x5a8332a733d51b02; 0x1c304b8c574f60e3; 0x17c5c52e5792e2f6; 0x2ee14c79fb8adfa9; 0x3a7c5c8d3278420a; 0x1004849f69b8b148; 0x407cf4a059669ba6; 0x5bfeaeff3384e497; 0x23a6bfe15d97ba08; 0x34f813711b0259c1; 0x1591905b343d3b5b; 0x725057bd01ecf66e; 0x430c304a6f2aa63a; 0x38b2e75cf0fe53d3; 0x4586922ba21dbaac; 0xcb02bae60bced48; 0x6d29dcc801de468c; 0x4301f2cb5710a135; 0x76d58fb01d48b359; 0x5ae585ad95ca735c; 0x3cdb5ec0eda7d362; 0x6b8da3378c615b69; 0x453f506baf767ea3; 0x7c2129730a70000c; 0x4d621430d0ec8ccd; 0x4f1bdad9773efcf8; 0x7ac3568a4362b18b; 0x4885598ff9f1d6ab; 0x34a0972eb0d48e97; 0x7538bc2b24b2c90d; 0x7713d5532d48f9; 0x533c7268be0e2bc5; 0x72d30c1c76700a30; 0x3fcdd05df8f977c4; 0x7f6fe3b1c7ed41cc; 0x310713f58bde251c; 0x110e614b0e901b7f; 0x799d796bd0252094; 0x3e3e528488322a3d; 0x2d5130535b6474d8; 0x193adec8e9e9751; 0x6492ab8b4545329b; 0x35c7a167e467d1d; 0x19de785aea637a40; 0x72f487a1db22b422; 0x6bb2895367cae65c; 0x3ee16f0d2e2b1be; 0xe9e54209c889d7; 0x5725b35938b6bc74; 0x429620eb79b35477; 0x7de327c7bd31c559; 0x43c825a8d781bda5; 0x7939c83ca56a6df1; 0x15da0a3434686ab3; 0x50dd908e1a02c413; 0x1145196ec1c1efa2; 0x6f2b46aab87cdc98; 0x4a04ee25feb4a42; 0x621fe761756280fd; 0x3951dc9d646e1c3e; 0xc5e67ce8e0be401; 0x5c92899ca9c3f391; 0x4663bcf4d5fefb3a; 0x1707094d45130b77; 0x3777a6a8d3f5ca00; 0x626879cb94223e0c; 0x60245ae2d1abed43; 0x7b7c5005eaf9d18; 0x71e1595061a14bb3; 0x328fb80f7fd971f0; 0x663e431c1b698f1f; 0x562d63d33aad4e5f; 0x35198829ef92a62; 0x7755f9cadf5a366; 0x2a85001baebaab26; 0x64d96ed87a356a47; 0x1040d3aa22e2bd64; 0x135c10fcd4a54b45; 0x29995e89aa90453d; 0x18489ba5e14b313a; 0x192753575dcc7ccf; 0x324a6cbfd7f0277a; 0x2e18c50b42ac755d; 0x6124623558ad588c; 0x53e86574541cc7eb; 0x487f583baa285968; 0x768b7d4ec5fb610e; 0x2d095f0689212311; 0x1a82e493338f9fa6; 0x4bb3b348b7639d3d; 0x403b6d324f08f643; 0x4c79a2a10ff09049; 0x38bf17da7f8ed4d8; 0x72fb6f4252a051a0; 0x38827081f7b75c8f; 0x52bc6efad818cc7d; 0x20bf1119649c9f61; 0x6b5755f615aa886d; 0x7105f5203168d59c; 0x1f9806667e61f8d1; 0x300f300f3fc30030; 0x67f99998001e6798; 0x70f3003fc3ff00c0; 0x1f8061];
   [0x472cb8e6315a4fdd; 0x4ed48c9016f1b1f9; 0x7a69fa8551468920; 0x7caec684e708d6b1; 0x6b801747196c8d2c; 0x1b42c42a0b781035; 0x76ba76008d1e6228; 0x295136fdd485d1a5; 0x3ca491154f6d471; 0xebc0e01345bc531; 0x3de45cfb352cc1ef; 0x733c312e14372331; 0x2ac4ba5aca304c3d; 0xb23ad8ec34e7c79; 0x3f2e7f0ef41f8964; 0x3c53fc936a0e0ab6; 0x44bb91efaabf7303; 0x70efe11e73cf5fac; 0x3b9af04796e9fcd2; 0x585d55c9404800f1; 0x629cf5d0beb9051a; 0x3f5d36af3eaae725; 0x5d99baae1e01e93d; 0x327ea0992c3cdd80; 0x4094e81967fa07b4; 0x4276e178e060012b; 0x7afbd537b1303b87; 0x13150081358a341; 0x5be427a358cc102f; 0x6c324c63ff017b; 0xa0bf4d390592bd9; 0x62c08fb447325633; 0x3436422e7ce1ab6e; 0x77a6e7b97d245383; 0x548a6d8fa136d0f; 0x58927b31f4b0e176; 0x52a6ae9bcee27c4c; 0x60eb57477469bfbc; 0x4df814d4fb7ec939; 0x1651ec8f9d2250de; 0x544b686c02974795; 0x6a05822a34324cbf; 0x77e47824d3cae94b; 0x40e4bb82bc6872a3; 0x5824ece25470cbe5; 0x6de597d33749b9cc; 0x662530db476d6377; 0x3496261bb230e4de; 0xb96ac4fc57cf55; 0xfbb1456db8b5aca; 0xc0383ebf7396438; 0x2bed43592aa878e1; 0x1f8429b2f7f044cf; 0xa7311ccff47d2ec; 0x58bbc72943c30912; 0x2125fe9956ddd039; 0x74ad81ea4ab18eaa; 0x770f95241fff6f08; 0x56e6a910dcdd5bab; 0x3014bb3ef5b586c6; 0x1ebc227809721127; 0x4c2e0897228e5818; 0x64b619dd0b00da9b; 0x45d6349c6a473ff3; 0x54f7d695bde9ef4f; 0x103d726abb6459d8; 0x52881881c4cb7703; 0x79cdc3031fb83bb3; 0x3bf935b19985e7e4; 0x4dd11e62f38505b4; 0x6493de078d41d2da; 0x57ab8d8bd267ef9d; 0x54adbe0c4f40c563; 0x70580e086794fc34; 0xaaa1cd00f27f21e; 0x2a0263800357bda0; 0x29f9ee8ca243c218; 0x5174a8cdee9e6ae8; 0x3ac7737e9ad80729; 0x478f7b4e6af90af5; 0x2d351d20a709bdea; 0x2ad9113760cf0d39; 0x1337aabcba2a47b2; 0x14e30572cce663e6; 0x35e5344c730b65e2; 0x45cec93b01af10ac; 0x20140983d5ab8249; 0x1376057f83be52d7; 0x52f04ea7cb0f65e8; 0x29e87f168eb715a4; 0x1b2911e3f3e4ce9b; 0x4df87f391ec4b42a; 0x190098dd5b126579; 0x3ffe580c56932a4a; 0x4c5bfb2c6787988c; 0x74db732439160a59; 0x4fddd2ee179361a9; 0x48fa347e598c222c; 0x6aed4b75ddaade0d; 0x36dfab50c0336d72; 0xbfb1018c0054da4; 0x764c81f1e6ab7817; 0x7f6e103a67d0d4b5; 0x1fe061b0682765e5; 0x37dd2b7eac9ce44a; 0x52561a38578ce4ce; 0x574f1359f604aaf9; 0x49c5d4e260e43b24; 0x3a036a67ff783e89; 0x230aaa71d67d0ce9; 0x38e303113d6ecead; 0x3b78bb2ddf726fb7; 0x6986584fed027c84; 0x61072c8e3a793114; 0x18718b30d7bfaf95; 0xe9d6b4924ebb922; 0x36c77ec054b4f8b; 0x5da4e448156db4fa; 0xa186d39792a4da9; 0x43c885693b2c013b; 0x7bb7e960b6c0a73b; 0x3bc7223fd431375a; 0x4f83ea05f44b3d09; 0x43947bdddb90d7d4; 0x697b09c0189cc7d8; 0x178731534855f17b; 0x688becd58eccba88; 0x2155bbc781b180ea; 0x1f04719e351e4846; 0x49415e9d74c0cecd; 0x1a963791d8e17c88; 0x63ef00ca7c948b81; 0x6c3546969ebda89a; 0x4cc44a0918f59f59; 0x7fdff5da8aecc800; 0x6246c19a4c1407c8; 0xdd544b17b32d794; 0x396304b8ac30849e; 0x771b9bc4d041ba77; 0x4b25b42b18def0a8; 0x1b7197287597d70d; 0x182465a9d91200e7; 0x790764bad3ddb295; 0x7ff805bade9663cb; 0x50890c82bc057c74; 0x7758eb5f11376d3b; 0x2e771becd969b0c3; 0x6f434ea0cbf207be; 0xc804c898f159dde; 0x157ad279363acbb0; 0x2a937e9dd6b07e8c; 0x7fe83aa86e5938d; 0x664c1553503b2ac4; 0x3d09bd20f6e4303c; 0x26069730cd1893ba; 0x4f5f8bf02fc277ec; 0x628aae2e89cd4039; 0x6975f29dbec395a0; 0x20ad3209d41e508d; 0x2e467904138d5e48; 0x31efc56e1df3b504; 0x6182e4388bcf61dd; 0x31bb069e50ab47bf; 0x5f01947f0e0779b3; 0x1a9cb60a657e4b89; 0x2a2a21e28c652815; 0x308933186b156f98; 0xf4913892b60a703; 0x970ddcb7ea53b9a; 0x2248cfd4da36437d; 0x42532a6a78fd89b8; 0xebc2a171d71f874; 0x39363cdbf615e65e; 0x140caea62e78ae10; 0x7a4f9d177b6f7578; 0x18c59c5bc67ee7a0; 0x66261a6103d190f7; 0x6538c367d9aec01d; 0x7ab918b3b4fe8d85; 0x4f0e79a2d8415bbe; 0x38be744e353c1625; 0x65d08ca5d15a8bc; 0x17741d74f5015c7f; 0x248fa2ce047538e5; 0x5a77629348d75a87; 0x22e416337d4b0a01; 0x571d46f503667ff7; 0x50d09dadd9b7fe72; 0x4bb284c2be448932; 0x375b0cc3880fd842; 0x6ca7301bc260d88; 0x113a3076bbe3b7bb; 0x68ee15a5029af9eb; 0x552b9bfa873077a5; 0x506d0db4379dead7; 0x60d2747b84a56028; 0x4c58f49689eccad9; 0x1359efe61788d3ee; 0x5f5923c483e132aa; 0x23a76ab113223f8e; 0x2fb05e690d1d86a3; 0x50d4506d0073cbf5; 0x23a4921e06d38229; 0x7c61c47e06caa2cb; 0x7c1cc594b26a2c80; 0x12482cebe1d72abf; 0x4d469a534b0d65e3; 0x2d20e904e8c700c9; 0x169c5217e2ea1c71; 0x21d32d757ef5ca01; 0x6df1d6915d43f1f5; 0x4d7830bf3d629b9b; 0x3ff0d7ef36f8bd3c; 0x240bd09704f92c91; 0x1e02e7b3fefc21b8; 0x1cb1133dc37c0315; 0x106d7b4b2953e872; 0x80e96dc13899a79; 0x358a879c68077e8a; 0x6db829d1c93e3c5c; 0x33918186c0f14d1e; 0xb2f9386ed38c0c2; 0x364645bd07c26c8; 0x469a0e73f8876b92; 0x42062b82f4d021f; 0x5706619e0599ec94; 0x2e9109f68ff6b1a3; 0x2efa1ef540aacd60; 0x387573e5f852b6d3; 0x531031a7f443481a; 0x6ef4993c4199f389; 0x162508b79f8c0fa4; 0x74b45a23f094b6c0; 0x7a5224bf01dd3570; 0x161268ecf3dc0f22; 0x218d5c896524bc9e; 0x2120c0162a984eeb; 0x1d4182fed2176d9a; 0x3b0c901d003d60a4; 0x496f8f7a632d4b48; 0x557e0bf33e3ed0fd; 0x12f83a3e07b83c4d; 0x459512759d30bfa2; 0x1afb5f2525c06249; 0x7d5efc0755a0d5e3; 0x3d87063b2b6925c9; 0x46e5912525cc819f; 0x3aa88c6f41c12621; 0x3c55acb858de0ee9; 0x5c0c57791ba9a656; 0x2a96cb70e134f92a; 0x5c9ae9698a6d934; 0x6e1c52f31317a4b3; 0x7b7ba99c82222874; 0x57207e4ac32b4e1a; 0x57d44d37b79f3a83; 0x50ec759d9a500fbc; 0x4d004e6b562a1ba9; 0x2acfb90a32ffa120; 0x373ce739cfca6cca; 0x48ff27f0dd54287e; 0x6118f106bb98f190; 0x3ffc72dafdda6fae; 0x677cb6cd217a5bf0; 0x4536dd0fa35f8369; 0x69f156ba05e38b03; 0x321ac072fd1fceac; 0x215796424ec1df17; 0x23d21e8172aa10d5; 0x1a0840fe5051bbc7; 0x46aae4ed75b9bde4; 0x694c773ebac9748e; 0x507fe55132d06c82; 0x2fb9e45da773e14b; 0x615005c6736d954c; 0x7062fde13ddb6184; 0x1d6bbd06d3883ac3; 0x341d1bcb90f735b1; 0x6e9ae35b4b6ecf98; 0x5b4e4a37fadc2fc1; 0x311b6110c9b79e83; 0x48c4c3570d9538f8; 0x44c6b0b706ea375; 0x4c07bc548dcaad95; 0x6b4269fdaa2ba0a3; 0x14976559e28a9a06; 0x5c470feac5b7298f; 0x31d3b51d48c8b7f3; 0x33e37e6f63b4fd5f; 0x6ba6989114319ae; 0x37c17834f0a14649; 0x3a61419c4322dddf; 0x5960552bfa7d180a; 0x5cbb0330344bcce0; 0x258e3d053316ec5b; 0x1ff29165d70a1824; 0x2d29592fedc0353a; 0x6c2b64ce71d5ad13; 0x12ef7d19fd608c5d; 0x431c565b73b0aa32; 0x5a60abdf6e22f9bd; 0x3b7beed458715605; 0x6aaaa51c960f8073; 0x619d40cfab667dc2; 0x136e07eaacc1f3e4; 0x18f4ef71109ffbcc; 0x3c05d77b36f156c9; 0x3c3866939ec55f0a; 0x44258181d5cabbb; 0x25294aa6758f78d; 0x5bd384f2ebc91501; 0x611cbfbe0bab371d; 0x56e9f070ed2f7499; 0x1981ffe679999e50; 0x70ccccc0c33cf33f; 0x6661ffe787e679e1; 0x700c03330ccff0f3; 0x79fe7];
   [0x3e2828a15b5a2682; 0x20076045e4ca31f7; 0x50b82c97bfac6353; 0x22c86dbb639adcce; 0x65bfa1e4cc2febdc; 0x6fb5d1591dbb08d4; 0x2b53bb33164bdb68; 0x2a27138b13771ee0; 0x39bfc9b8928a819d; 0x3a3798cb08b3197a; 0x393dc4520fb54afd; 0x2a249c7b28be3a1; 0x6fc013fa56460d8f; 0x400cf9d486080b1e; 0x6ef4c89843cad7d; 0x760145c15652c64e; 0x2d3b884d204a72a6; 0x6971bee476d43918; 0x70277dbcd4c5330c; 0x781708df5ff05e62; 0x4b267c2175416aab; 0x11ab0bb1eabf7304; 0x2726c14a79f7c92b; 0x1fda41fd63808c86; 0x4204a2d99e034e85; 0x6d59e4535e64ad6b; 0x7390ac03a929e931; 0x4097cfee67d8e044; 0x208fd1da881b98b0; 0x6b7806efd9dbb0a9; 0x57de235765764e88; 0x75b5ab9e2ff5073b; 0x2c0ab61eeecf1781; 0x7630d872a8e8f44f; 0x10eb4e27aa8865da; 0x57c2d68761138565; 0x5e310af44c1f3cb8; 0x628f02700851d7c; 0x75764ca50789ac14; 0x3c16c5e401d7beba; 0x1d4ca247685c745a; 0x3808372a5d5952fc; 0x14d761d3ee3825da; 0x495226791787142; 0x60277537b3ed227d; 0x4a7bf371f4e35a07; 0x59001e04d4eeccdc; 0x31a3d7934ac61a33; 0x2979701c7a249874; 0x45c0acf031e3f64c; 0x53cf68fbce9c36f6; 0xfc7b32492fd8ac1; 0x3ae0586a7c7cc12; 0x299ad92b46144226; 0x6134289ffaf6fe9f; 0x605f0f14de9af1d0; 0x2843486d70ce2e68; 0x3183e048dd5ee2e6; 0xf3ba494ab99fa30; 0x345ac0aa22050596; 0x48a538fc7cd5a5c7; 0x415f7dab1469306f; 0x30d08c3b03446e8a; 0x58d3e9e342a45ab4; 0x2867a542fa8b5c68; 0x793f9cf2baa0b375; 0x5a2b1ff4c0056c2f; 0x3a0b0a9b29f74e24; 0x7e17cb3d92b1afcd; 0x77b00ff6df58686b; 0x5546c253cb929fb5; 0x380704cc4c826b97; 0x2acb76271483cd8a; 0x63b40165585413b0; 0x7dcedb8af79f715f; 0x4b21b1dc8b7abd65; 0x3d3b76203aa62e31; 0x7faab269e2e829fb; 0x551016b8fb7fea23; 0x77775ac3c26f7699; 0x4f472bd61fbec345; 0x705db5300fd5768f; 0x7209f08dcddef0b0; 0x507dd288d27a29b5; 0x1ffe4dbb9b155694; 0x6b99c3df3aefa8e1; 0x10e59f8c363742de; 0x30d4cb27015ec713; 0x625959a071dd9e96; 0x2c68e799b89a221a; 0x55ccdf4d8d8673e8; 0x437a25a87f64853b; 0x353d163b045d9a37; 0x173911c0cd8d450c; 0x2e57c53c3fca2ead; 0x5d0aa22ee3d3b308; 0x1ae2853b2cccfac4; 0x39f962d93d411e42; 0x18edd4afadcf20f3; 0x15a99ea1db13a661; 0x5e4b0429b22234e6; 0x1919d44777330fd2; 0x20c14738b46648ee; 0x631a5074b9651f36; 0x40e7a1ae1af26052; 0x5ff237d2ab9c902a; 0x37e9b2dfcba02ddf; 0xba0d4045a72a6ef; 0x1243b2090ef6fd0b; 0x15fe28e405acf331; 0x464f11f3135f4cef; 0x2011db7f1afe48f7; 0x1038afcaa148ab7c; 0x5693602aff7746e0; 0x5e5d187d0f4a05f5; 0x5cfb201eec5a95e3; 0x1d3b5ef5c2efcad3; 0x57a4312caaaa0e14; 0x32bb1bf34f3c864d; 0x7a5b49f161aec50a; 0x2fb41975eff92db; 0x3f0ef614355284f0; 0x1fe4f40346f35fb0; 0x23dacbb0afbf8d5a; 0x304bf3c99ea22e18; 0x1f82419643fae7e8; 0x92a6b518dbe95d9; 0x292e8754fbcc651b; 0x7c5f077e38d588b6; 0x54bf80653a329965; 0x456f7f3a0baef043; 0x66dd096df2d92609; 0x18656c2430e684b2; 0x210aafe87e5139a5; 0x1e7dd3bbe8bc6ff; 0x517d159f1d274e12; 0x5a509a0ff6e28aab; 0x9a49d3e5a8b6d7f; 0x1acec7d663799583; 0x4b93ea0900a2556b; 0x31a5a09fb4945848; 0x1fb7553638c93937; 0x3c103a0861e3d555; 0xf6223a7e6d0a9aa; 0x127383b1f7b8bea9; 0x7cf0ad859ff69ad8; 0x6ccb37aa2c5e5508; 0x7e075691d4094d40; 0x7a42ca23da6fa26; 0x52ea72f7ef70790b; 0x66986fa5708d8172; 0x23c66a131a9741da; 0x7b0ab0589cebc5a; 0x3ebc9a13703fe936; 0x65564380f5c60ad6; 0x20b1c363e429d08e; 0x59db748eb94370fc; 0x14035cd3612cefdf; 0x51db29929680d978; 0x7f8da8c90069e615; 0x58c22e21a7a05702; 0x512e7ceaa428fe74; 0x4defca0ee8c75df5; 0x2cd92fa2c51be902; 0x7a93df60e1b3ef0f; 0x231b4b8ef66419f5; 0x1042b5e3965d44dc; 0x3eb55442e3f80ca7; 0x37a6dd8f04b43907; 0x1cf7e0c45c606560; 0x6f40343c60109f54; 0x13ebe28c80c80ce3; 0x6f2fd2f72f84fefc; 0x2ef7faa19eaa8bc9; 0x7772ce22cb743d30; 0x7f0743517db5e377; 0x78e22d75f5559616; 0x2c6cec72f2bdcdc5; 0x38a81d525e7e8dcb; 0x269b6d0437439876; 0x5f21e6c37041bf30; 0x6689c47d43791ee7; 0x1d90fc970e931253; 0x69cac9848f9feb3b; 0x2ae9234962da3e39; 0x391a8f5d55e15028; 0x1fb5f995135552e2; 0x68029a261565fe98; 0x282cd6bcb510630e; 0x5d91dc8177a25f83; 0x5ca301dad87eef73; 0x3e4fcf482c9d06cc; 0x339faecbcd0d45f8; 0x3169e64a743d9435; 0x63ed8795a6dba336; 0x3b2474854127a29f; 0x52e621af78abd613; 0x14fa272ff263fb8c; 0x3f5af9dc84506526; 0x538236f9b332235b; 0x6dedd2ce2f620953; 0x2dfd8c6861c636ff; 0x2e1095bee02a0a40; 0x77e7a1bdc35f8602; 0x4880c81d8a2d7bcd; 0x5e680954f74e544b; 0x6cd7ac9899ed0018; 0x57346aebd8e1212a; 0x5a0d5d028065cdea; 0x43f46ba399fba98a; 0x7ff21a726ceea9ee; 0x4a94ff4a8cbe7500; 0x73091438fd86dad0; 0x68af774cd3bf464e; 0x7603debbb04c8ccc; 0xbc2f4d0b3ee04ce; 0x527259389a571481; 0x55cde0514e5f183d; 0x7bdcecb3fcc570eb; 0x4deb211c25bc3880; 0x502c19cdd7df2fd0; 0x49f032ff7737a60f; 0x2caac251035f684d; 0x3ce4afc57eb9d841; 0x6ef20a7857910555; 0x3ee5265bea1fc95; 0x63a6faa99fac0add; 0x1c1e88d8623bfb3d; 0x3ddeabd026c118f4; 0x3c06adef19bbc0a5; 0x744119e54a43d262; 0x1d522532ed7a961; 0x6b40be109685902; 0x79429407cba0a357; 0x7c0a9b3a272059e0; 0x686505bfa10788b0; 0x5a14c1da6ddf5fbd; 0xcfbcfaaea17172e; 0x4b9094786233c4a7; 0x2d0a206794a85a50; 0x456017ee2b3af7b6; 0x402e68379a346ea0; 0x37bcf1978e5262f3; 0x54269f725574532e; 0x7dc2fbd472c9b88f; 0x6bf78364e11049d0; 0x5f5ba6ce739aadb4; 0x7d3d1b21600331f8; 0x723208b9ef524682; 0xe5744b14df0a3b0; 0x4068c48a31e772ee; 0x299d5ecca451c8b1; 0x534aad28cd52271c; 0x73362bf0d78b1176; 0x20d7e0d67ff35038; 0x6a578b310f4a401e; 0x67de1f660465c979; 0x341c36c0c493aa92; 0x30e4e65a6f509230; 0x60e21d8651257d2b; 0x54e5a6ed6c723390; 0xedfe8db7d911958; 0x6b160fd6266724f8; 0x2efbd607170eee98; 0x64f26988c22a23f1; 0x3993e788972750ef; 0x17168f40670cf8fe; 0x32390697380b3a91; 0x595ff79f699f5991; 0x72e54e053b2c4bc9; 0x535615513439ebb6; 0x6eb032f3140f47e3; 0x4ac9b30104acc91c; 0x57d7022f2d03bb06; 0x6f2f9900845442bb; 0x6718c3fed30e3e0c; 0x2c2f84242d4e6469; 0x514c75fdc9db17ed; 0x5ecafea209923f5d; 0x6371e90ded17d6b8; 0xfe65acdea9f2857; 0x7f33dbd7f6d113d6; 0x201ed1794f63dd42; 0x6886a07620d68c56; 0x72fbc6a3719dd70e; 0x15c29a1ff3f0374; 0x10dd8bf24c0a21a8; 0x448dda15b23fdf39; 0x4247e0dbf4e36fd7; 0x584996e0aad981ff; 0x61164c8be6798790; 0x627587f03f26ed6a; 0x5dcb1625c65af247; 0x7e7eb5de4ed15336; 0x64607b2e41ffe83; 0x35cf239a9c52cc4c; 0x301ae2099209b74b; 0x7abf7c25f332d0d0; 0x7f6fd73ae6a72e9a; 0x3240958e5e195eff; 0x1e9e0c83836fa213; 0x7ff8326612c3b154; 0x446bd6416b8cebda; 0x4aef91db24dde312; 0x7faf8a45a2de7cf1; 0x423a8c590afc83c; 0x7845be23ee00abe0; 0x92112b4adda67ad; 0x68f959b3a755212f; 0x5acec428a636ddde; 0x4fc861316c8c0bda; 0x752656ebfd6f7eb0; 0x12c6ff751277ea38; 0x618619fe1f99ffe8; 0x7c30fcc3f300003c; 0x7e1e61e1ffffe1; 0x700cf33cc3f0c3c3; 0x18661];
   [0x348b5c7b9d656dd7; 0x6a1486a0bd46026c; 0x15d7b58ddc5ae45b; 0x68ddbf0aff6f90cc; 0x3963634ea7c7c6c0; 0x44cac2af8fca7001; 0x12a9a8981cb8c11f; 0x1311cef121be18c7; 0x71e47d62af2e644a; 0x596c59479aeee25d; 0x36ec444b013c92c6; 0x3e17b2d20bdd5fd5; 0x7d35ee588e03dbf7; 0x7e39fa64e6bfd919; 0x5f48b6816d491e7; 0x5a9a6352b32b32d6; 0x1e8ae0ad9d3f3100; 0x4307644033678594; 0x15e3d94f98113f19; 0x556de116a7a8fcdc; 0x353dfb81b51ebac8; 0x60b9fb2ae55cd29f; 0x38944503dd2caa8e; 0x73c164e665ad500f; 0x74f65911bf34848a; 0x3d4e13fb00ae9290; 0x2bcfa1421ae85079; 0x4919caf4d6f3a162; 0x3bdfde1f475e3e71; 0x507d1eac22c90cc3; 0x26a84dec071b600c; 0x6d24138b2905f03; 0x52cb057a44e7e336; 0x7b7225f07c3ecd1a; 0x32a35727f77ab7c; 0x3273ec7f64d5c44; 0x4142e0f7191a0d82; 0x632cd670742e1262; 0x471d8fc6e70a67ad; 0x260e5b34a4c5cc5d; 0x678d851391545381; 0x1b2c9e8cb129b0ef; 0x317d532919357734; 0x270b43cb74b20c94; 0x3d28b209d01be709; 0x4742afb775ec48e1; 0x1b5fba03073b92c5; 0x331713ec8a8bdde7; 0x18ac22fdfde091f6; 0x3fb308bec2035a69; 0x7c4fdf0547ae2c6f; 0x44096a37756f2eb6; 0x2fcce31a10fe7709; 0x289148359a035aa3; 0x7ac31365bde167ed; 0x78d5643bc2eb0ee0; 0x5aff908c1a7165fd; 0x412d5f38d9963be9; 0x3eef1c976ac6d49a; 0x6997525c3067fd48; 0x5b267190f3263460; 0x997bd96f1708998; 0x50d3ab29a6632dad; 0x17d0e4a3a94050cb; 0x7a8ca9ff917c62aa; 0x768475a7a5a77e82; 0x5bc80a90f47a0c5; 0x1cee24f9c63434c9; 0xdfedc19bdae2a90; 0x3eb3b83d680cf71e; 0x9306c5dbcaac4de; 0x471625da5464ccaa; 0x361a4bfa7de71763; 0x3daec2863d5eb381; 0x4e9779d2a5609982; 0x62c47cf19673901a; 0x71b52493204a63c; 0x25dc907a4408f53c; 0x5240c657e4aa9dda; 0x2b8d01480934a785; 0x6b5090f6a4366111; 0x129d2cc73ec17e12; 0x13047206b4ae33a6; 0x4406e356861a3720; 0x66a977c63c31f8c; 0x5c3096947077ded1; 0x25d24c67138c386; 0x238cf3e4e0a2cd04; 0x3781573ae552eff9; 0x624866179465a69; 0x617fb1fcca309d1d; 0x649adf41acde61eb; 0x5f1976084706a4dc; 0x582d2e61f2d2479d; 0x20ddb541207abc8a; 0x23627066bfa6bf67; 0x773ac4cf6b7d7ddf; 0x768c8ced5d799ae1; 0x8d2cbc0ab8377dc; 0x807e8b5b485f4e4; 0xc75c1a5bbdef41b; 0x17f9b5d948bc76d7; 0x25fcd509df6d99; 0x3a3f58dced62283b; 0x2502369a5e0339c3; 0x3ef920ee726907df; 0x640749550c3ffdb9; 0x693eb1a64a112441; 0x1218b5a9758b80ac; 0x31498ad2f636489a; 0x283bc28b0a2c9e22; 0x5352836171b580b0; 0x112725d21dadf600; 0x723d93e7519a0822; 0x518d08e92a74e303; 0x31d8b8739f3fd310; 0x3e3ed9a8b50c8da7; 0x51ab8e3232b5b022; 0x5711e65603070ffd; 0x5697156f184ef2a6; 0x16ae564e18fff4cc; 0x74203a2791af681f; 0x2e2a353a5ec4040e; 0x4dc71e3314ccbc4d; 0x129ee00f9abf8cd9; 0x54870d071266655b; 0x1ec576b5650bba47; 0xde71829465dcac; 0x652d6561d55fc0a6; 0x1d13816ad729aae1; 0x6894ac5a75a6b208; 0x7065cb122d1c7447; 0x6c2b4183a87a8759; 0x7f9748def4c334dd; 0x52231e160de0e541; 0x5805beb8a88f52db; 0x1867eb89e5424cf6; 0x338c3487a4d5abc8; 0x4a20cf13210075c1; 0x3807a381d15ef11f; 0x45891b827732b6a7; 0x1733006a073dedc6; 0x691c43db233e41b1; 0x64f697d749d8a96a; 0x857e281cad28756; 0x24dd258f264f7e64; 0x2debc55f3d5c1539; 0x77266fd890da5cb3; 0x5ed691d81bb70c58; 0x1d01902b481ae1cf; 0x50d2dc701c407201; 0x3a11a121e0e5063b; 0x419007bf930daead; 0x77a872a4f679ced8; 0x23c9a2b0aecb9dac; 0x4e978a42caf02254; 0x47dab6716282232c; 0x6e0c0c52750d1d9a; 0x7560976910dae6f3; 0x4c5373a71032a29b; 0x3e4762dbba599c5f; 0x695df44c741967cf; 0x40f32c9105169045; 0x20696f582e08a519; 0x16049a896f298bb6; 0x51ce61adb2d26ea7; 0x1701ed051e2a4fc6; 0x4e39347401b428a0; 0x6b28b0327d08082e; 0x4e3ace3d536cdd3c; 0x513f2894d1317654; 0x4ef1114371f1c7c3; 0x54f36f5233f67f7e; 0x383c581a3079e70b; 0x6ad4c06acc35d06; 0x172bc4239364542a; 0x1bc6da700eeecb46; 0xd8ddc8ae715a21; 0x35cfeb5a4f17483c; 0x3bc07ad2f1192ae; 0x7127f264fedb8e08; 0x5311f5b95abbff26; 0x3a184325eef1c700; 0x2106a04e4835e66f; 0x73cf424bb7b25a41; 0x66da70074fc5129f; 0x7347287d28c65a39; 0x54ac7dede384c6a8; 0x1a87e0d20d9a2d58; 0x7b0ddcedebb7e4e8; 0x6a76f9d189249910; 0x3385524099baec70; 0x109b8f4e5247005c; 0x107eac80c1c3a0ee; 0x493a565fdb94e19b; 0x22a047ad84e13cb0; 0x524fa51b5286bd04; 0x7d8dcea0d6c0de0e; 0x3edee0b9511b102c; 0x76c1b64e605ccc9f; 0x4cb1e91022f76f27; 0x2703a7a2f2458d09; 0x705a77b1331b6348; 0x468d2842e2a37458; 0x6cd282b8a509fc26; 0x25461bc04a536c3b; 0x2748d97746db49be; 0x2ad7870ad9cd1fd8; 0x7f6edd3bcc6b0fa4; 0x4489a7c62c9fa660; 0x335cd114ec9f66d5; 0x4bea21fd3f99cf8b; 0x194f7763fa094b; 0x2b0e3970baa93d9f; 0x1fbe73418aa81ec2; 0x681b12aadf3793ff; 0x6df17526d129e7ff; 0x13f6cd269fd95fce; 0x71158060da34dc6a; 0x4ac31c6d3fea0c6f; 0x1ed3939f50414925; 0x5eb5b32d4d8f0d9e; 0x567aa49f566592c3; 0x1797814e7144a627; 0x7872e600e977c1a5; 0x6618a14d73d68c88; 0x49a99f4f9bc291fe; 0x29c8ec1536ce490f; 0x2fdf12c106e297ab; 0x7462f6ecf29dd814; 0x32cce5e37616c1dd; 0x30585f2225d6cf01; 0x22cf4cbe668f64b2; 0x548378b3cb4c0635; 0x45760e4fb31d3042; 0x29d5b83be419af70; 0x7825819394fe9d25; 0x7ceccf3bf9b65930; 0x482737c8561cabdf; 0x5c1cfda2d975169c; 0x62b8258abba2cfb9; 0xac61153d384b8a6; 0x5cd526889c83873; 0x2a29a80eef248328; 0x711c27dce9e99ac4; 0x27c9b94d7704eef1; 0x37e301e32912036; 0x664e1415b825cf00; 0x22a888aaec2dab55; 0x566be9c32696142f; 0x317f3de4c9b75dc2; 0x6e47cb702d451a6b; 0x51683bdcdbe1a925; 0x2bdf528abe37b198; 0x17d0d621310d5045; 0x1472195f269a0c62; 0x1fa8e327bbd4ab94; 0x6a757eb33dfa8f5; 0x298a2cb70c2584ab; 0x1a12192bd63f8260; 0x1e34c2a2eb9a113e; 0x3d4db4474abdac29; 0x25905777748bb236; 0x2a5881d9aafd3f1d; 0x4b608a1bed24f7a1; 0x61f1b8ba9e0f5d9e; 0x3d6b929f5aee3c2c; 0x30d7d2e4f3cfc342; 0x67310754a1ff5549; 0x6c27ac915915fd8d; 0x56528f68f50018b8; 0x27ec9403fc8ffbcc; 0xba151f7495c2e25; 0x6a515fc18004e66e; 0x7e9234bf68142ded; 0x24b785032e972bc2; 0x69fbc69305f555ae; 0x504500040025f512; 0x3a43a07e1c568013; 0x1b85fb8dbf80e768; 0x3ee88a385c9cad8b; 0x692b1e30f808caa2; 0x12cbde4cb6cd02b; 0x6f974eb50d3cf6c0; 0x4737fdeab518926a; 0x31aaf8f9472e7317; 0xb681a399aaf1869; 0x7b34437629ef878f; 0xb8f3131449ba323; 0x7757d390dcf54df1; 0x236bedc27105d43; 0x7dc094dab36f4a26; 0xb2a4713c7b8debe; 0x78da5fd00f3fa33b; 0x502c751309f5a5a9; 0x5e59a94c379b9c73; 0x7cd507dfbebdb5d1; 0x1caa3c9f271ac10e; 0x74b47b744c41b038; 0x7949742909be3d65; 0x45438d3aa88635bb; 0x6b430d6ccac1e3c6; 0x7b016fed8a5397f; 0x48a0ce4ca609812e; 0x2d45858283e2b281; 0x397ce5c18b53da7a; 0x1634fc46688300ce; 0x3c71db47cbba0ba; 0x6e852a5cbecf263f; 0x2ec225e234cd595a; 0x389ffb96d5754d5f; 0x61b3b60f51d31406; 0x2e9005c751256438; 0x781f86679807873b; 0x7fff33c03cf33f3c; 0x1e01879981866181; 0xf0cf33ffc0c303; 0x1e7e7e];
   [0x4c5635b0b99090f7; 0x22ed4d052ec927fb; 0x72d8800b4b094d35; 0x65ed01a330261721; 0x33164127b41ae6fa; 0x4096ce3e91a89109; 0x127f7ff5ab4210b6; 0x4d20c9208968a4bb; 0x71e424ee35dea450; 0x131bf6198afbf509; 0x56ebcce7448f2200; 0x3c1ed4a5f25d0937; 0x68bebb3b2eb4b209; 0x60e7c4c487914721; 0x69567320db1e394b; 0x22de0602cad60348; 0x168df55094abf1fc; 0x38c3849ebf2e9660; 0xd8805650d6a80ba; 0x4b23a6c491e99fc5; 0x38a151972f643e45; 0x129fc51649e654e2; 0x67e1c5da025867ab; 0x5ffb9385ae7ddb0f; 0x5894091de8e97b81; 0x2f80257a4f4e88d7; 0x639d278f45f0e1a3; 0x3afe7cdfcba727dd; 0xb096803b0386d96; 0x5ad6df9f1cf5bc3; 0x19a2a1a1e30d2718; 0x4b9d1f9fdcfb5c2c; 0x57dbd5ef0799e550; 0x35d701bf7c102286; 0x1b8ba7cbb70e68d9; 0x382dde7d90a8122; 0x7cc03fd985620ab0; 0x709326302beef967; 0x3a3eb90ec1ac4bbb; 0x1910bc8fda1d9121; 0x38c71be977497c20; 0x113671e88025fb85; 0x4416cfb201a013ec; 0x52ce6024898cf623; 0x8d533fba0ac587f; 0x6646ad67c777330a; 0xe667387f8aa23b5; 0x6e6e5c5f6466cff6; 0x3b73061342d7dc75; 0x1c1d66b1eb76b978; 0x584518c651f64568; 0x6a08b6c42d018cf0; 0xef8c22869d8f455; 0x7cd35005e5cca757; 0x6b6b550e53d515e8; 0x407837d825c3dcae; 0x40955cbac5c07915; 0x67c3f2c869ef7a83; 0x2e323134184c7cc7; 0x42332ace2c510604; 0x71ab393ad2a112b5; 0x39eac0256207e66a; 0x102a10faf856416b; 0x7f5e65d86f347558; 0x701d8285cc3a60a; 0x5219b092f11fc3ec; 0x7738351bdb421ee3; 0x3f8240f420942261; 0x48544097423c0d64; 0x68f8658f4695953; 0x1433aeed84052759; 0x39ceb9a80997c083; 0x7291a5ba57479402; 0x6aa149c69cb03ba3; 0x620ba5bfd1b547a7; 0x7c8ffd1417461787; 0x1534dec73fa705cd; 0x76a89fec26e88d9e; 0x6fb1d28f7819a20e; 0x3bfa31454c8adf01; 0x968c9a45f8afe91; 0x5bb27010646688b8; 0xafa1099379c6f05; 0x5fa4cb557ff673f2; 0x3897e604a8da5e39; 0xfab86fe26e163eb; 0x17ef8754999d7b96; 0x38bf1853be45eba7; 0x1f7c0b5dd48e45ca; 0x672996a8e1a10f65; 0x60d47b0a0beea9cc; 0x3e2c9c97c61dbe21; 0x5b367fdcbdd64750; 0x4ba26109dbf29222; 0x134512086a4fa0f7; 0xf0fa1005350aaf6; 0x6a85232efe69bf4d; 0x2f929e9d598a6017; 0x3c57235e2fdffee4; 0x5c8adb1b944a00c3; 0x4046332105c5171e; 0x5e9f5e90348e9723; 0x5524419e7d9cb398; 0x7a23ab33f64e990f; 0x47a77b8998f3c556; 0x714ecdaab2e08973; 0x443368be70bc39d7; 0x5a3b0093dd17680e; 0xf6c63dd6a9f9a8c; 0x1eb3c81f25335c68; 0x33deaf659c5f39d8; 0x15d6e1357e8a1229; 0x464f3e6eff13c4ea; 0x7fce07495b7c380d; 0x18c633a457be9074; 0x2b32ba3eee80aac7; 0x3dc3a29946d1c821; 0x7759984d23a09e1d; 0x6bdc8187147b7227; 0x528b87d865f2782f; 0x16b54df0271ad6ce; 0x2eaf56411dbd2fa8; 0x25c7ffd762352b83; 0x633b2bc463d7d631; 0x7f4adab278233d2a; 0x7edfbb61eb273755; 0x61ff2fd25c395cfd; 0x727ce12bdd184430; 0x4f05eb37dc0ad134; 0x2c23f63311d96aa5; 0x48f9a789febb3126; 0x3199f2b92a75791; 0x15340e588e72b2d0; 0xc89e1b15bbc0ef9; 0x3ec7976b3b5aa1ea; 0x57192dcdf1bdb35c; 0x65e896c1eb22933c; 0x1d273a8926c30720; 0x2a72aa9c265e80ba; 0x65ead3b80779d1ee; 0x40895cc2f5052444; 0x740ac396e9d5812d; 0x1bc767fa26737647; 0x6608dd7080276a4d; 0x74ef297067e94adf; 0x3b7e6680910b4e16; 0x105b042113ff30fc; 0x2da3e5fdc1fedeb1; 0x10254077074df334; 0x762833b1d4b722d4; 0x1c4813fe0da89fed; 0x35c4caef2b9a5637; 0x4f9ae8daa7572864; 0x53cc263955e4e835; 0x59128475583a98fc; 0x2e33b55f83488358; 0x72f6d0c00eb62793; 0x792567c2c39629b0; 0x365b97d5da848581; 0x5d9a1048eb20565; 0x2f7c1631324fe263; 0x4134d93621000cd5; 0x2054a9a48d118765; 0x7966cf0df9e01ed7; 0x23374f6795d0554f; 0x3ecbbb98c1594872; 0x12d9a0b9428af757; 0x520f9fd5cc1431c2; 0x5008c43e7b8cd192; 0x7ff51536a8c42254; 0x6b620891775b9d0e; 0x337b97f6ea037dc0; 0x46422b9a5edc9c78; 0x7284730cf49ec894; 0x611d8ae799c0036f; 0x3f53d96d21fd9771; 0x6fe76b6441a4ae7f; 0x1cbfe872e8d8f78f; 0x4866eff0ca340649; 0xd5453bf1d4c0de1; 0x48bfc24fdfa9d569; 0x534d301438c6dbdd; 0x446a279349ab4840; 0x3f265a20d21d3d43; 0x5657e27b3e2d111f; 0x7ab5d75a148616e3; 0x1f3b65e3ac5a8d96; 0x7514bae1471f148f; 0x345c9e3f99336627; 0x1cabc23005f8fb4b; 0x2e9d7267b5381d56; 0x200a58656d3c8ec5; 0x3193bdbec906e204; 0x72bc7855fc22acad; 0x23ca952d2d6bedda; 0x6a31fddf02453451; 0x16f8ec70a2a534cd; 0x116ce24098dbf6c; 0x63c592d20bbaea27; 0x523e4fd83974e4ec; 0x4d9c75bb6cc31822; 0x342fb45c8fa857c1; 0x791de9ac74d9dc31; 0xc737efb9bcbc275; 0x52ab3122e47e8532; 0x412bc0689be7b0fe; 0x428856498a5a9d38; 0x5db5598a93a77c5e; 0x16099552c8972b57; 0x1a4c58afc68e2dfe; 0x7c0885392ba08bbd; 0x584da41008e49205; 0x3ad2256d42b70ae9; 0x772f33fee382d497; 0x434b488e32d201c5; 0x6ec719508eeefd07; 0x13672a9e433478e; 0x451775a43d5b1dcc; 0x6b0de1fb01e0f16c; 0x2008e890fc39b819; 0x2d4fb83bcacfe6bb; 0xbd388607c134b1a; 0x1604deef75a2afa; 0x63bf8cd5a38ecc54; 0x4c85b66e0ca450f7; 0x4365c283211d0b39; 0x54630de0e6595ccd; 0x774be74313af97ba; 0x7dec6135d7c6911c; 0x66d3a016966a3320; 0x1734f8995d212aaa; 0x2693c41378164c05; 0x368dc07cf505572c; 0x68166c884899484d; 0x7d35ef28c391e373; 0x4d779bafd5fdd9d5; 0xd737aad3f34f5d9; 0xf8bd3c0e03618a7; 0x30ea0475b9fb9bac; 0x46f1651469706e11; 0xd0ac1bb60496c68; 0x657b3e92ba038c0c; 0x19aa8cc6c24aa4a1; 0x133b9cbc66faafed; 0x2e85d958fea8b035; 0x5ae6d9b94da093bf; 0x5528700178564763; 0x445ee85b20a960a0; 0x7adaa39a0cfcf447; 0x637d2038ce9dd78b; 0x37a78978d929f261; 0x2004706932e2752a; 0x6cb3747905940b1a; 0x6aced6e034359377; 0x364b82995a3d45f6; 0x2bd29edb0ee764f7; 0x29b829c5c9c8fe39; 0x5ca619839901807c; 0x45695531d1154a7; 0x402e24e3d6cd9e73; 0x4abfb393470a5921; 0x5504f13d31822d99; 0x51025dda8f1169b0; 0x130d53d2d5ce78a6; 0x2f535a362cca275; 0x1f6cbb7179b95d1f; 0x715511cf7ee21c4e; 0x7f81b97a3b7eb842; 0x130e079fa0088a5a; 0x299e4e146ca48aa6; 0x1e40d31da8e9f272; 0x1d3712827dd6a23e; 0x7cebe26df2835416; 0x52b2f46e0f46a627; 0x3055fb2215f7e58d; 0x4764fec875ed1f6f; 0x5b8480f9aea27fa7; 0x34a6bc86c9aad2a3; 0x15e7a9e3a369334d; 0x1667e1ba4b9050c4; 0x31d253cd5ce239dd; 0x1391451425b21878; 0x59b3bc69d6a98cfe; 0x170dde96fc54b554; 0x4e299ffab7c5b9a1; 0x1f16730de910dfe9; 0x1b407f616db5fd30; 0x1bb199e6e3637d2; 0x3ddd190739467efe; 0x7e7fe998e4caea04; 0x20b84167cf03e97d; 0x4275d3afd275f465; 0x6d1ea7c64ca45139; 0x1028921458f1a324; 0x6a4433c4477a6b8d; 0x2772fa1772a6aec2; 0x265aca10b3fb5cc4; 0x52bf7b782cfa9ff3; 0x735516bbf409cb6b; 0x7315028cbd3cef74; 0x36fc752cd04fcf42; 0x74d9e22e661b4c88; 0x781d9eec7481f290; 0xfe2adb8ee51fc7; 0x53e6888a32a118db; 0x4e402eb2a3d0fe0e; 0x49f4383dd9477003; 0x53590b88b4b41236; 0x6337bfffff1108cb; 0xaef9963361b85b2; 0x243a7f79142a3b9; 0x1af093032d507aa3; 0x60399a718950c757; 0x619e061e6618019; 0x3fcfccf0c3300ff; 0x661e19f999fe6618; 0x7ffc3cff00cfc0f3; 0x601];
   [0x67f10a7979cddba9; 0x363fc88bc447efaf; 0x4ac1b640c49ed050; 0x67604ec117dcf882; 0x390dfd7b653a5af2; 0x3c0e6b992409e250; 0x1ff9840ba024bf; 0x6546e93560ff3f1e; 0x5ea73c45f39c63c; 0x1f644863d470f927; 0x6980525a840f570c; 0xf5cf46cb015a9c; 0x109c403c80008f71; 0x7c7106e37fae769a; 0x3b39b3da98dbae4; 0x375799e2e8cf3b74; 0x71d745794612dd66; 0x716625b6b98ab4bf; 0xaa4887a28c08bbf; 0x6c0c66d0f293c9a3; 0x44d270e3bac35020; 0xc640918762f289e; 0x277229ec6002f15c; 0x69d2d297d79cb764; 0x3be64bdcc75b01ef; 0x180319fdcf6b2906; 0x432096d52ec56ad5; 0x639d2b8c8beaf2aa; 0x4ab09b9f21b7154a; 0x80e8735cbe716d0; 0x62c0d8583e75a178; 0x33294de623c9ade9; 0x150a3f4cf7dbcad5; 0x5de99574bfa8851b; 0x504be584eabb4288; 0x6f5502b15001a630; 0x6fb7a679db862933; 0x49b27e12b6891b7a; 0x56b41a1aa2f89a28; 0x1ff18090af297564; 0x35551587851b008d; 0x7a7cd4c09a58ec11; 0x6c38fced8b8f669d; 0x34d0aa61580f9a29; 0x405ba226364bc8b; 0x557c8216872d6de1; 0x4d6773e587a116d4; 0x264520cf748a0d87; 0x415ceec6e6bb1de2; 0x3f0d475a2ec90d28; 0x189f4595f34e3982; 0x70584e2c504288c3; 0x2db9fe6b682f48a5; 0x572f47acae9bc7fe; 0x30a7ce8cac774679; 0x6b76fdcdc0fb5287; 0x3b829fc2401b24db; 0x4308a64354d3a80c; 0x153916ea044255ad; 0x221ccad06b08c481; 0x6369bfd424cdf519; 0x7a96f139e809a7f4; 0x1e6363cdb594bca3; 0x3a1f3820cf3cf652; 0x3873070b67eb6b0; 0x2235889f491a05d9; 0xc4d789ea09906fb; 0x4d25ae4a3de9feaa; 0x546ab216bcc43ac8; 0x45ec36adc2031c38; 0x1b029f943f4da81f; 0x328df0c2dc9ca9fc; 0x44f8b8fee3692f2; 0x3330ea9571626804; 0x1c0abf466533817f; 0x3685e9f48a4605d7; 0x4caa35561bce9449; 0x1cd4008bcb881a75; 0x2c33063b5baff1bc; 0x6e71246e5fa5b3df; 0x3fff8baad8132b90; 0x2e5918ecc3f6bb3b; 0x7cd64001d56c4002; 0x23234f39de2940ce; 0x79414e1bad924560; 0x76d95500ef709612; 0x60ae30bc19d99f87; 0x46dd91dfb6e85fe4; 0x767536ed969e7ecf; 0x323629fa8250e9ee; 0x7e66558c2eddfe4c; 0x1938068c2ffac1fb; 0x30bebde4a7016308; 0x2b7a365718bab2ac; 0xcffd3658920dd26; 0x623b627b7c52fc3b; 0x73d906dcadadb546; 0x5e5ccb19e6c22bf0; 0x3a57c017d41d3852; 0x6dfa87628dff666; 0x231b34be80ae4889; 0x3bdf78f2755a8b8d; 0x7dd0820661bd0f17; 0x1d7f19eb6edea288; 0x62860ae59714013b; 0xc85f4944928ddf5; 0x3cea8ea38c595ebc; 0x10b62b94b101307c; 0x292e33aba172bc9c; 0x71ca8b1d4b927138; 0x1c8216d2a3817bf4; 0x581c326c3a44f332; 0x6d21dc6df22d6277; 0x73e3abe341562658; 0x18b0ac7cac5a12; 0x1dc96596dd2a0411; 0x5db4b72da50292fe; 0x4516cc29afcf9e41; 0x62984261f25ed4cd; 0x4d20cb38f16bb09f; 0x551970b1f09d3c0f; 0x3816b50b789f083c; 0x10972be1df2daaea; 0x18174eede112c552; 0x25c9d53f8277689f; 0x2bb5a35fd8aae28d; 0x379b1e9409e88d62; 0x5797db57305cc837; 0x544a7c30f5c3883c; 0x449fcd21d33afdd; 0x188c51c314b5a514; 0x52817aeda4abef4f; 0x58f1f9f29dd51277; 0x4e5c405870c48b81; 0x63104f262bb37f53; 0x824ff50b36661cc; 0x5109ea3a5a6d73b3; 0x150b99f637597c55; 0x6d5351432828dbd9; 0x57966f7e8c3602b0; 0x6e3b9f378855d6a5; 0x3d6f0ed91d4a6917; 0x3dfce443511bdf9e; 0x2075d2fb2a247407; 0x63b592c48c881601; 0x480cd3a62d5d6f07; 0x2eb0072a2fdcffd8; 0x5e531d30999646ed; 0x39b8ec3cf42954b4; 0x26dbc3462620fa46; 0x3ef1a973ad085316; 0x4bd5fb020271d63e; 0x6d3c8deff6e9dcba; 0x26737aa5af56e2a6; 0xba1903d6272cd03; 0x3867edd388ea3c9e; 0x12e193862a41099c; 0x1c1621109e879f20; 0x1e62cc3c8f39464d; 0x129877897c9f10cd; 0x30c57eb07a9f7c87; 0x3c3d98833692d9be; 0x7b9580e690115773; 0x59bd4aaa34204c3d; 0x1bdfed0e46f585e; 0x268f833e1e279110; 0x69b1abba652b6d76; 0x78850f58fb428e64; 0x2e09485f4ee36665; 0x5e6fa5d3822437a8; 0x31c1a86f14e1bfb0; 0x70c6a86f31f6ee9d; 0x601d93bee94f62a8; 0x562482000f796339; 0x51232028c30957d9; 0xd84fcda8ba343cc; 0x6097d56b702f11a2; 0x462e2974266544e9; 0x3a065f7722bdbc35; 0x35bb2458b1646c70; 0x681b9e4e2e561b6f; 0x74c257d9176498cd; 0x253b8ebcde101766; 0xdb308a4b02863ff; 0x5c77caeabddc11fe; 0x8337f749b46d4c; 0x45b5ddbf2682fef1; 0x7c27a7bd3c701cba; 0x5885ddcf3e866c2c; 0x6fb33acd12fea6cb; 0x9aeedd624438fa4; 0x5c9ad6adebef3f82; 0x71a3c59ee364dad1; 0x65e2228584fa0f6; 0x3a71ab1f2b9c0a0c; 0x692ad4053da10e3b; 0x88bd15026bb161a; 0x695a2e248e04c515; 0x3c0235874e84fef2; 0x5ca92c5aa6f419c0; 0x6c485e7e59d8700c; 0x12cd1675a411b04e; 0x34809d8d3000394e; 0x49079d74f6188ed5; 0x202eab3775afa362; 0x75ec0cbe3c790359; 0x2042e5f0f783ba3; 0x3b4732cd68be6c79; 0x73b9b608aa074d3f; 0x204558062bcb7461; 0x389ef67ebc5a62e4; 0x4028199f37e5474; 0x3c0c44c57e12fbd; 0x436e6d776b629265; 0x37c10a96406cef5d; 0x6a7bc8d06e6ec294; 0x4c8d8cdfdf68f619; 0x8fe38e01310eb06; 0x79857a01eae0019b; 0x485cf4be19feacd6; 0xe144d269e39b6bf; 0x78f1ce9e2bb93a41; 0x79bf9d2839750ffb; 0x3dfd753950dac0; 0x116bc7c1d6c866e9; 0x7a815c92f9250547; 0x6657882799710878; 0x18fc105a2214fb91; 0x1ab90a7931c4828f; 0x3ff687559997e6aa; 0x229e33224f6df165; 0x5f572281a6335cc8; 0x8efcd6b7652d7e2; 0x73b9f5f1c328a943; 0x1f0128103a6bba05; 0x4e4f3ebe3d1e4721; 0x4f627e9e89fee9d0; 0x1561d4333845ba17; 0x645ee84163ec7586; 0x158fe11510ebd671; 0x2680f0f52b6a183c; 0x7d0683a88791969a; 0x796609196880813b; 0x2b1f72288463f8cb; 0x6d390ea75c5d9ab7; 0x3545b8ebb11cafcd; 0x1365191ec9abc749; 0x7612c1fdd6605ebb; 0x773f931dc2c7a9cd; 0x6e6d8d0129733fe0; 0x5115d7d49e14257d; 0x6e3ac9118b8107f5; 0x30bf6af746eece02; 0x676b53beea5b2a56; 0x45880bddcaffaed5; 0x1291b0c92329bb78; 0x21060977e97d39a; 0x2936b4064ef7c838; 0x78aa5fa9f40540a8; 0x7c7c918bfbf43c96; 0x61d553accf469c8a; 0x286abe5d9150cf40; 0x672a8951a8cbf701; 0x712b442c5c2c899; 0x71a8636d037005ab; 0x27bb8135e429617d; 0x60773fe19fc0a865; 0x1df5461c9d2dee89; 0x3586d126537dece4; 0x1fff55ce694b162c; 0x2c5da4049b3f0bef; 0x47c58d92316308b0; 0xfcc9c0d5e55b67f; 0x45ebd6655bff7cab; 0x1486bcddd343d0dd; 0x6b0794a034c64bb4; 0x565fe3be1129843b; 0x56e1e3dae5bdd373; 0x7bf59b988d623386; 0x18fa4757efc2160f; 0x82d8092207ae13; 0x4b3f41de60be8257; 0x7506f583ce9f18d5; 0x66a2c61c05ece1a3; 0x32fb8481904b3528; 0x69f644fce115af45; 0x75af9033cfb952c7; 0x20104eab5a3dc420; 0x76bdbdbd3474e3eb; 0x2706648dada5aeb7; 0x7dd7b28cf53fe18d; 0xb7469f3297e1c94; 0x3f22e184ffe7d386; 0x55b458a558b6f847; 0x3c42a589eeffe610; 0x108317b34c01da72; 0x7792f2b566ff6ea0; 0x590f88a688fcf74; 0x35463a8f174e71ef; 0x6f526262d1bbf9f3; 0x464e11434af0beed; 0x57a94ec77330ff58; 0x12fcd8eab15f96a7; 0x2e96350b0447c70; 0x2516283899215bd3; 0x2fa9b45b88628487; 0x23b5c6c022e64562; 0x227caffeb40f541d; 0xc442eb5b1a263fe; 0x2f94228c911f91ac; 0x33b34eb94920049f; 0x325c5a3b556b988e; 0x512100b0567fd91; 0x6787ff81e607fe97; 0x4333f3ffccff0cc3; 0x1e1ffe606798661; 0x3300c0ffc03f3c0f; 0x1999e6];
   [0x7540bbd542a611c3; 0x20cc8805dbcf4bee; 0x7c5b4f0d4aceadb4; 0x448bed5c7f997be9; 0x137d578de0d9b454; 0x2a9686fc734bc7ad; 0x431cc33bd06f89a1; 0x1fd7287ca88d13e; 0x2d3af90cfe1e403e; 0x386137656f358e53; 0x4b31548edb3e3939; 0x197078722b929232; 0x5f357a01ccf1072b; 0x7145c571d0e01d24; 0x6fd1e3d4023e5eac; 0x696d52f68d18d385; 0x7de6f8623dd89b98; 0x648e46c8f911c2b7; 0x5d286901041cecfb; 0x76de71746322ca64; 0x2fa753c34e6f4226; 0xc3ad3056b4c7a2f; 0x265859ad267c915c; 0x9d00ab78de63be4; 0x8ff1ca8c8af11e2; 0x603ea8bbc24804ab; 0x2d28d36c4ff08c4a; 0x2dce94e5ee4e2dac; 0xf96c8f618ad8b07; 0x5fd5842d4fefd1ee; 0xdc3698a1ecc5345; 0x12180c41109507bf; 0x1981c347f5500db2; 0x73ec91da3356d4a3; 0x7e501de18eb82fa2; 0x7cf47017bf3cb687; 0x61e390e84ac6813c; 0x345c08018c107538; 0x3a02e33f037b697e; 0x12e8ec3800a2f667; 0x656ee0e1fdd9a07c; 0x157c2474898b8f54; 0x105bb4daf9dc728f; 0x14f00f92dee3f350; 0x758bf25c275d710c; 0x7305d72035f771bd; 0xcfe68c682c12e9c; 0x2357535a70b5be0c; 0x846d52fd2880422; 0x4b4c116da749c2ae; 0x3ab8497eedf8c7b5; 0x5c07966928a8866f; 0x15fcbda3c6de8a12; 0x48568a5a6cd3560b; 0x23682c95320c7cea; 0x7afdc50c09f0c191; 0x469e4727d1403dea; 0x19a5dddd3e17bba3; 0x6264c342c68bf072; 0x58b9ee152917fd11; 0x668306cf828a40a2; 0x664f8c10cfc49820; 0x74b361035d9cf94; 0x7135d791dcfd20eb; 0x6f17b41111744bde; 0x4e52425db5fa87ee; 0x60389f505ccb1568; 0x5d49296c1b307616; 0x1eddfdd8b980ec23; 0x725094043a722f99; 0x10f57a091626c8cf; 0x6b7b1a9e5c6ea144; 0x3db931dfd7a21239; 0x65c9b823a5ba0ad; 0x7fafd22692a5bdcb; 0x1c325b9cba64cefc; 0x1e802ad0b2cc7e11; 0x1e1dfb22f3cb5c4e; 0x480cc33ae3af6ba8; 0x5c4e946b819d8ab3; 0x56c1a6c95be354ff; 0x3c36548f6503e529; 0x4a48dec39ae9b7c1; 0x2871a0830e2612db; 0x223f3ee1a551c753; 0x2f0233bfb95d354a; 0x5ade520893d589ce; 0x68cd61ef0101e215; 0x42d32a9133b0768e; 0x6f8d8fe6d7231cde; 0x4b3ee3d8b0e6a88e; 0x3ca718bc4f1ad957; 0x1d2d5826fd81139b; 0x63e41cff67e5ad6a; 0x322582a98fde71da; 0x39dfaebda691b9b8; 0x5ee5162c578d52; 0x59bb88566d362845; 0x7a38173c64a4b62e; 0x3357a50d460c1afe; 0x2bdf6542aa7443ca; 0x1b2af017404e717; 0x94898e10df70468; 0x19a9bedcf353a380; 0x33218f42381c1f29; 0x3b089390659ce3fe; 0x54f829ef046d1007; 0x479fd45fd8a0b506; 0x70d43016dd267c5c; 0x7e081c951da99e02; 0x17c3383157c179c2; 0x1ab4208e5b3877aa; 0x57b892fec5447cee; 0x17ebb5dd775a7498; 0x3b37d1ade5141e7c; 0x35a0b53ea73385d4; 0x2b123ab30e2b4f8a; 0x150a09d557d3b133; 0x5bb4709fce3c4b3; 0x2ec0d607718fe1e9; 0x1cfcd21d902db028; 0x3693292817a03a74; 0x2bb7c4b5c35df6b0; 0x5953f6c7a0bc1b06; 0x75949b793f084a8b; 0x32d858d9d0b1b3a4; 0xda2f02255892376; 0x100dbc9d67976fba; 0x6eb3efdc0c791b80; 0x5e6385a33341eda1; 0x759adf447126e379; 0x3ec4616de8465007; 0x212492f9d083397d; 0x6af0fdc1bc385145; 0x311111bbace7dcd9; 0x5f7d313f36f8474e; 0x79960a842642075d; 0xd1802ad62d93185; 0x78b37746d5ef0933; 0x68d596097a6ffe31; 0x4445f885564ee8b; 0x44bb68342bb666e8; 0x6759d9f558c66e10; 0x17cdcac7d6a08310; 0x799bc4de08d841f7; 0x6a638dfa78bb46d3; 0x6614f48073eb5098; 0x6590b21db730e2b2; 0x72e367c6d89d024b; 0x61a60d199393d96d; 0x6c3605c3e6bf572a; 0x43eef2359fa256ce; 0x19b34d71d09f2a27; 0x252b872e71e2ac1; 0x5ef71439b6933d3b; 0x409f9b9aeaa42b16; 0x7f76874058fcfd4d; 0x365b89773290bfaf; 0x5a404aae7006d69c; 0x770ce902152201e6; 0x3ddd2f5f3970d96b; 0x1f415530041c178a; 0x6777f16b5716653b; 0x224ccd35091fa4df; 0x2df5cd5857869a1e; 0x3c2208e0cf35f080; 0x729d1dbdc24a96cc; 0x2c40d0415d30b98e; 0x5f903cac740381d4; 0x182a4928ec16e8e9; 0x506535659e5b95e5; 0x6aaef8a4ddc6f106; 0x7196cb439c110071; 0x47814cf008f7c810; 0x1b20341e90745966; 0xb25d469bae76b1d; 0x4da5b379b06a9270; 0x30527d5e46c37517; 0x2813c9172e454d9a; 0x5fdde98fa568f7e1; 0x68b13042b752e8db; 0x4470abff6e830f25; 0x36b46d943e67f365; 0x53156d92911f39e6; 0x13424328ff5f538e; 0x41a0ea2e738eb4f5; 0x57deea2dad4a2728; 0x4b9b9fda78e7748c; 0x2e508164f1fbd07a; 0x219a880f43012b47; 0x70654f9dfc054c91; 0x7ffb203df1fc9111; 0x7522b746d79e4c8e; 0x4d9dc778bca6b57b; 0x4ad1ccee7b2a841c; 0x12081f00e0a114a4; 0x632327a1be7a6435; 0x49f17fcb1c50cdba; 0x320edca7f8d0ec23; 0x30d70d5bb3b058f2; 0x383217c23a735278; 0x2ecf3f378f138c99; 0x336a518f6bcac5b5; 0x26fab9377281769f; 0x60f963863da37dd7; 0x739332818f1d4b73; 0x33a2aa6fdc142827; 0x780d2045d05c73b6; 0x6b69628495a48719; 0x70967fae1668723; 0x77659e34ba61f0e5; 0x544f5a20877c801c; 0x199bca7824788495; 0x27e75c86524313c5; 0x632f5ebb58f2eb88; 0x2699b9216f4830c4; 0x6eb1fe9a3ff128ce; 0x52edb3df7eade12d; 0x1551064a9a04a520; 0x67ecc7f85da167c3; 0xf38a27b011a09da; 0x60f3c7dbba7d17c0; 0x3d44c7b08efce21d; 0x4fd504dd354d5af0; 0xe39ae3809ae7e29; 0x32959ba29324591a; 0x96761a0e6ae8e4e; 0x20d89ad16151ad6a; 0x27bbdae3789c8bef; 0x2bcbfc9b5da3e9c7; 0x675b313d2f9f62e6; 0x1934b0ca003358b5; 0x5ee6d447bc243085; 0x562154d0910834ed; 0x957fc16a7791c9b; 0x3274e34a2b90f953; 0x15d2639d0f8edbf0; 0x44767487fb8169f7; 0xf9f00dbc6983bc1; 0x256fd566690b7409; 0x4b9d64163b1d6d53; 0x1ffa6bbfeba10cc; 0x47e597a12b1a907f; 0x73db3209ae1ceb49; 0x5087a2dffa52a1b4; 0x2cf2e478b11fd9f4; 0x7aa749c68232d751; 0x4ab44c18619ad1c7; 0x592eeff49340145a; 0x26d8c1bc1672255e; 0x7288ad21b99e6581; 0x35e386ec7ea06e59; 0x2d031da1f893e1c0; 0x22f9622779788b77; 0x63d298b38e1eeec; 0x451587f9133c5e04; 0x2ee9f359f12db269; 0x311eeab96bbbc956; 0x5ba64d74197e032d; 0xb2fe6f4ed90abbe; 0x49c2ee3768c6bf61; 0x69468226b4a4e49f; 0x14ebc0551fa57614; 0x4e14ea4246b7bc0d; 0x6f5ae121862f06aa; 0x50b20f1ef69b7b1f; 0x3f72abf4501f5f51; 0x6fcbc94c2739a23; 0x55344c9361b78faa; 0x192efa113d7a7477; 0x2306b1ec07062d88; 0x6bd766e8a2fbb5c2; 0x3c2f7f9854618cdc; 0x7dc0f2887316dfa1; 0x6a0494f39a1389bd; 0x3f806ada63376b0d; 0x50e43d67bdbb0997; 0x1ffa8a538f76c918; 0x61caa17c5eefa4bb; 0x626184a53cf4252d; 0x3b9f5d02a210b4e4; 0x7e43f85fc31392a1; 0x27960880622e130; 0x4a719cde5200e664; 0x3951368f4d27f35d; 0x3b01c2be547de270; 0x563efb1433aa7006; 0x4b9f8aeb2b2a161a; 0x76f5321a750ba439; 0x7884ca5e658b770d; 0x154df65019e91a0d; 0x321d378e8be3a2f4; 0x5c2dcf8e9494b90c; 0x49e9a5ca0248e473; 0x399f0096cab67cf3; 0x7cf285a5780895f8; 0x516fc99219a6ef4c; 0xde28092a8e6f074; 0x36f6fe82e9af4879; 0x4f37b39e1649d4e1; 0x6c1b657b9afc30d6; 0x7145aa17a4b797e0; 0x41480d0724198318; 0x70fee5278083bb9; 0x9e70193e375456; 0x2f551f7b9b179fea; 0x553b07f686476dc4; 0x7834457417b0d3d5; 0x24fae2a7a757fdbc; 0x74b663c5f3dc1d79; 0x71e8d2053ca8b03b; 0x45a298d9c2458648; 0x21e03f41ef2deb8a; 0x780619fe61e61f6e; 0x4c3cf30f3cf0c33c; 0x61f861e07ff981; 0xc330333ccff0c; 0x198666];
   [0x42985505b91ccc5e; 0x52b07f959a6a842a; 0x766a34d3bd588c12; 0x3b3f10f89d4102d7; 0x7b43ca3c3707daeb; 0x69160069169386ea; 0x129f1fc9aadc7cf2; 0x375dd39c2906986a; 0x3b089bfeac92c4cc; 0x7c5d3bbbf4455518; 0x679a46c13f86d86d; 0x5b92de042a5ac2b5; 0x7fdb84fe33ca44a3; 0x206f0a58015c73fb; 0x5c2028a70c42f42b; 0x69e5c497ee4951a1; 0x48af47f7b00fba5c; 0x24f78e91f98411c0; 0x41642bb20c48908b; 0x4f013a2ee0c3da32; 0x67a47bac42ce82c8; 0x7230b1112d474b2b; 0x6376db51f93cc8d1; 0x2a8c6788bdbc792b; 0x3f4345ca20eedfde; 0x61552f1f70b18267; 0xe7d054e0be1e94; 0x27467d9f17bacfda; 0x3bb3017082396568; 0x245c09a389c1db6f; 0x3804eb444f4915d2; 0x6ef8a0fee7bafad2; 0x6045633768144962; 0x426672fbe6ca6f7f; 0x5a43b2e4db90b60b; 0x1698f38530b3851d; 0x41ab402c6f1142ff; 0x337b937cb88712e3; 0x13bd6dce43b39e55; 0x326ba970d3ca7f7c; 0x144c55d1f79f98bf; 0x66f6b8bcc45d76ac; 0x245932325f497439; 0x796f5a9f61b5f94c; 0x623e9e2d7007f49; 0x632df84726776295; 0x1d2d203d805adc84; 0xf4e8df153a2a484; 0x123646ca483369a4; 0x587d2f9566640992; 0x37d57ba45da8b5f3; 0x16d11df9db87b7dc; 0x34e894e871c53a9; 0x46d3d233b3df4b57; 0x1d73f0a61f5288e6; 0xc3059e4f3e034f7; 0x2b28298babb392ec; 0x9faa6b169e0e3d; 0x775640d52aa52882; 0x6533cf38f55025b4; 0x6708780926caf963; 0x8e9b03916185f5c; 0x78540b9a6a77fa45; 0x4365b16afd9b6934; 0x739c29529ad45b38; 0x1b390159d80811e4; 0x13285876ae5a7e8f; 0x1941611c82c1f2ac; 0x226d9f5091af426f; 0x546993c065a18261; 0x7d37f29aab78ba70; 0x4fe212e3c69e9394; 0x4cf14e307983a67d; 0x54a58be420839263; 0x32eb4848308b02b5; 0x30f3f4066290b421; 0x4018ccb437b227a1; 0x1d229a67a4a7beb8; 0x7369a7fad2bbfe6e; 0x776d00bd32a591ec; 0x624b112519d5a5c3; 0xb9009254cee277e; 0x712217e836c9563; 0x5ec11b66a7e3dd3b; 0x5157fcf01b9addbb; 0x748a2f9dc42daa9f; 0x26ab94730d55ad24; 0x32bdb7b581223c67; 0x3ec8f3c33f128c13; 0x3de62c414772417a; 0x7e4c7f0a80496e63; 0x7a30f19d569eb277; 0x7830fe9232ae4e04; 0x2dcfabca34f0803; 0x1d375fe50946f42b; 0x45fec6f05dd5f451; 0x4fadb63baf0dfec1; 0xaa3a897aaea9135; 0x76524fdb4f2ba77f; 0x41ae76488353ffd6; 0x531925d7ab2aee97; 0x29431418d4efbd2; 0x42b0e6beb1a416cc; 0x3c0e05004b71d4c5; 0x2fa258581653f498; 0x791cb02928963118; 0x5ef1a448184a261f; 0x1f473c5c4822a909; 0x5ed39824151940f7; 0x32a5c9b70f509a01; 0x4d156501b79949a8; 0x55d09f29ea178d18; 0x2173e86c82ff55d6; 0xcc71d7845bcec97; 0x2cfe500f617ec2bf; 0x63059b88faa315f; 0x697e9e95082b7a75; 0x228235ae52b672d0; 0x451b32c5408861b9; 0x73dfdf84ee013ddc; 0x44b6d6167d79de23; 0x7a7f648cf6aeea62; 0xc31c40cfb07c021; 0x15d9c0b56c6ee0f2; 0x74c886d5036b435d; 0x237622619c35c2d; 0x1c85e122b831f299; 0x5ec19128ed3a1936; 0x198e9c0505a6c312; 0x7019624d01ad5278; 0x2c90bb1601d35730; 0x44b7407b6b4366ae; 0x4f1ebec96b9fed59; 0x33195ec4b78fed75; 0x4ad10a6057a6991d; 0x5b8c494967462c8f; 0x60e78affb389eaa2; 0x71f7873a40929ed4; 0x7f80a924fadc1128; 0x7c5bd69256ffcb21; 0x4a456b1db961accc; 0x4839f8e067514b6f; 0x1ce9bf42a72330b0; 0x6ac0a398c816cd11; 0x792bd7115adfd313; 0x5dc30b3fd61b1458; 0x49090a38dd1d4245; 0x34a983730e1ed200; 0x1a2596259c236f40; 0x2a668a2ba83eb8be; 0x1a7d1e799ece73c7; 0x17ba7e21daf726e1; 0x4cec8968ed4a9e47; 0x432ca111be9f7dec; 0x465a5206ad79e4e2; 0x73c3ad3c08f0abe9; 0x58a44f94f00770eb; 0x65f3b26abdfe8d47; 0x31b89013affaf54e; 0xcdd5098254a3c4; 0x5e1d617f7d36513f; 0x37651ea149021df5; 0x3eacc287a0922bda; 0x1cbc21116752f4e2; 0xa8927bbd9234663; 0x4620dd514e6e5984; 0x55a4e16674003db2; 0x5a40ef5b89073d31; 0x157d0ad4087564ca; 0x5fcf1cdbcc8e1e44; 0xd2bc62ffe351f30; 0x36078508de41db5c; 0x4a61e4c9e13953d3; 0x641d91274617e7f2; 0x58950ffa8aa76806; 0x133cac234528f47d; 0x75949e0a0cead221; 0x4ceac645d278f72c; 0xbb882b19846ffb2; 0x66375f53acad6e44; 0x46d99c3591433351; 0x23a6ffb33595f866; 0x7cfdd42f7d88a17e; 0x70d0f92783126527; 0x5bd5c21e23a659f3; 0x37ab6ce214fff727; 0x7c3a724db574f17f; 0x501ef685ed80d058; 0x3bda16066de62baf; 0x172ce40b6d9eb4f5; 0x16bc1b1a52178630; 0x367d768cea48f112; 0x1d3995248e8f39b2; 0x379a6842d74d1317; 0x49cb1551ff35f776; 0x6f58459b03c0bafa; 0x2a418e8e524e4f27; 0x5fc70fa5f21e17b; 0x56967937aa6356bb; 0xc380907e7fe4641; 0x58afba1e086da48a; 0x53aeb248cb7cbe65; 0xcd6633e8e86fa88; 0x42f6b9d733cf51b1; 0x52df6aaa5c633e05; 0x5105730229c292ef; 0x31602b643911da73; 0x4f0fae6c4e5e59b9; 0x5c5305d32f3292d1; 0x1b06ce7e62a15709; 0x8c181727e07eb70; 0x96d8f74e0a4d347; 0x6fa7e96cfee8804d; 0x37331a0386277f22; 0x25f0cdcceff204c3; 0x7be6c7fb8cd909f3; 0x73ec7826cbc7bf18; 0x725217179f7926f1; 0x2d6a2a02c6782cfd; 0x16b7e94e7560644c; 0x48233c0dcd9c9764; 0x4e07b3bca15bbd87; 0x26424a86fa86acd0; 0x7cf9d830cb3fdd91; 0x1fe38e5678a197f7; 0x3e4965e8bfe47a48; 0x7a2524c9ff4e8cb9; 0x39673f69a9a0c8f5; 0x4caf9735168fd72e; 0x6f725a5981bc5bbd; 0x1d0c81be308c3806; 0x6ef62cca9751403d; 0x3e61976add19cb4a; 0x4b3129dfb4c09c1e; 0x5a857eb14a2517b6; 0x2ca47045ab5f0c3d; 0x3661be862db83c6b; 0x5f48475040612828; 0x385c01bf87bd0fc6; 0xfd6e12aa66ad329; 0x1b97a7f8d7fe5038; 0x6a97fbdf6f3cbf96; 0x732ef24e41d0d769; 0x793e9461825a53eb; 0xf166dcacca8cd1; 0x364278c63d8033ee; 0x5707da106c24b734; 0x3c08c4f21f263806; 0x1eb8b7f4a0607ad3; 0x13dcf63c589f355c; 0x6aff2605bb5b8a71; 0x36ef15854a6efce1; 0x712dd49bae656bb1; 0x5f69b7dfab76d8cf; 0x78722b8116fcda74; 0x3b694d72f67b3c8b; 0x3a36558089780bd9; 0x645c96f0eaa4b45; 0x2385625f9d2e10ab; 0x52daa0fa5995260b; 0x26690712b24d0e28; 0x178e993019e0f988; 0x2ebfd1d64cf06f63; 0x59ea11b1b3b89c68; 0xffa2f122b70abd3; 0x1f84e018ef38d621; 0x56f518935f8f6ea3; 0x527b62123c24ddf0; 0x4873cbd9741ce25d; 0x5de1d109e520916e; 0x69a73bb63aed801b; 0x4cc7e4c04ae4d831; 0x264ff87a2fa8bcf4; 0x3d3c644e665176bb; 0x7b2d3c9ec72aa0b2; 0x69823bb14bd074c4; 0x16d098427c39af5a; 0x700b34f5f10b0b6; 0x51243be329ec3f7c; 0x7b7cccdbf457d12c; 0x407cc72f7aa90900; 0x19fb12ab12f3f31b; 0x15a846bfe4de9ede; 0x8f960b4cf89ca72; 0x175a68d9e0c63f62; 0x47051c3d49bd8fb8; 0x67e4dad7a957ea15; 0x19a2196954ed1933; 0x71d8df1f05e24899; 0x1a0d6ad130e662bb; 0x782fb883181b2af1; 0x28afdec3f658f348; 0x70198e1e4111865f; 0x570ac941d194d455; 0x4c8e287f5f10187c; 0x780895e50ab0570f; 0x461a283988e69bb6; 0x630925f280b4540d; 0x1f55c32d2a05c2b8; 0x16f4f0770a67aedc; 0x1183dec3dab9f928; 0x5fd52cfb8ad29e3c; 0x17bfdcf5363aa401; 0x56d89dfd0c5edb52; 0x637e9bec727a408a; 0x69e911078a5ea2e8; 0x22fc68e2a5d3d431; 0x2fb615f98a9166e8; 0x1d0130ac0f07a3a7; 0xb30d9e02715fc80; 0x755b6a95352b3986; 0xa170f7a9839599e; 0x632be667aaa7baf6; 0x79e607e07e7e08b; 0x7fc3ccffc0000c03; 0x19f81e67879e01e7; 0x43ffcfffccf0f00c; 0x19e607];
   [0x7c4a7088ab9f7aaa; 0x2b4ae6f605331d97; 0x2a86746da948dc2e; 0x3f005d6ea681a648; 0x5662a643dc3aedab; 0x4359532c345ca807; 0x1b335e41b96747d4; 0x683e3cf3c4958b2f; 0x7195be79055a0fdb; 0x493666886550b580; 0x26463fd57b9ab96; 0x71ebc76ad4062e4a; 0x35ce3debeb550751; 0xfffb562668b5db0; 0x84ffd498a8f8a36; 0x62a145671ebda793; 0x150c4e8e7aa152fc; 0x4a2e8fff71a33c98; 0x3062cf29400572c1; 0x637e4bf367acaa14; 0x138247f17c2afbb4; 0x470c305e177be964; 0x692dd13e0ff22187; 0x2534d3e081ef7858; 0x328ef56978b0e8f8; 0x7f069eb01002c16; 0x61c5a2f7ac90dceb; 0x4da8ea84047beb28; 0x190b19ef8f3f5631; 0x24cf553231a4c02f; 0x942a66c82767c92; 0x4a3c69d90c077a67; 0x52c0cdead1a29a63; 0x543b104f9686e1ce; 0x1b0b8f1df8044b28; 0x4d4a26fa1e80223b; 0x15907b736795b0bd; 0x4e5509de65df0f97; 0x6a5359d3d8ea9efe; 0x1c68847761404d04; 0xd36d6900df4b27d; 0x2b95321d1ed2ed56; 0x1e76be2fcae47a21; 0x14e8fc356fe1e6c; 0x528b6ec9ac52dc20; 0x79676b0404fac3fb; 0x559f1ef0439788af; 0x1060677f7e46339a; 0x216006c3fc98aea4; 0x46a3591f66368b2d; 0x23b9d2342eee5e54; 0x713b5b6d4af97139; 0xf8e65b24ed98bef; 0x252e4aae78d71183; 0x7b1ea25938731c9f; 0x5f80bfe3f28d94a3; 0x1fe5c8afc6820083; 0x4f7c41e374f2cbb0; 0x4d5f14eaae4005a8; 0x6277c04915c44ca; 0x45fb917a4e5d94c4; 0x6d7fee38dde63ae5; 0x7cce432ea2d49a8a; 0x18fbcc2f03bd70aa; 0x1e354d4df202de90; 0x6b064f2583a62064; 0x14ff02cc5f95a962; 0x1cb812ba1c066234; 0x50ac6d2cebf49938; 0x1cb04942273ae7d9; 0x1b9ce5d1b1b0544e; 0x51f34e4c3029900; 0xd864abafa06dbd7; 0x23cc5cc6320450d1; 0x3f1699a0af2c742; 0x375d711b443c86a; 0x595fed53faff947c; 0x67fa0adaeb6dd420; 0x2acefaec0582d5cd; 0x4a62d58f4648ea59; 0x7d6d4ef344838363; 0x3543e2c454b769b; 0x3b38cb39819e7f4a; 0x52b6e36448722a; 0x3808ed0309a039ed; 0x4f455688fa22ac65; 0x656566b0a35aeb0f; 0x290cd251611ce9fd; 0x37a58a01c2a8c8e8; 0x5f3714cbf3005107; 0x2300604e8056e014; 0x16882e4ea3a02734; 0x78634bcee593c833; 0x10309d35527300b3; 0x4b329ecb27d54755; 0x5bc1182a2fdfb346; 0x3b6f47c2726533e2; 0x719463c887d85d1f; 0x5b8252560c37eeaa; 0x33aedb3a857b0c2f; 0x5ceb51fefae255f9; 0x5400acfbb8b282e9; 0x4bc78bd7c39bebe6; 0x1b70a82678829811; 0x2b7cc083f6eb064f; 0x4e66606797ec8280; 0x30fb5bfec594987; 0xb15fe43babf7244; 0x9167f947ed473cf; 0x1dd3271b3a4d6551; 0x28289a153362d1fb; 0xd5f3ac2fda4984b; 0x6ebc04a0dee63185; 0x772342f073d5daad; 0x20bd7652f8f3698a; 0x512c0efab3d89bd3; 0x402d7b5f08fc40b; 0x12516d14c0c696b9; 0x4936f14b232e3c44; 0x6eb65213ca6f61df; 0x359d42c788038213; 0xbc1d4cec53c653; 0x26d68ccbb1f59c11; 0x7fb39aaa785b12c; 0x707d0a22de87e58; 0x5ba222e1c4b3343f; 0x49c09f94e3b3cdc2; 0x594d21d49f434d03; 0x2103a952bbe2cba3; 0x5bb7b9b8a1e56ca6; 0x1beb5b88afa4e39c; 0x1394f930fe9b3549; 0x32e6eacceb653ca1; 0x14862db3c976448c; 0x45d7c1c5602f7e0b; 0x30841a5525971216; 0x3811904a322745e1; 0x448c5806da516b8f; 0x53f8a64a0fc02367; 0x1eb49636400c3734; 0xd7f0bc7fcd1f869; 0x140821c62a4e221a; 0x1bbf03eabe798639; 0x3f360d27519fca00; 0x7af72cd2c9516e21; 0x4fa283b8717230a4; 0x40615f2a82ea6a05; 0x70af820aa10a309a; 0x20a6302f0ad2a648; 0x3b3f482fef73b9e0; 0x3ef2be8ea9ae4636; 0x379b76b2b877f938; 0x1ddf1393714c3525; 0x755fa40769f3904f; 0xebc1ab2652f5a3e; 0x7a674a4af25e42c; 0x6faf7f101e2c50df; 0x77948f30988e81e4; 0x2979be19e92efca4; 0x45ba497917e9a6c6; 0x23c5d5793a913ac1; 0x2258cf1a746eccf3; 0x1dc775c04fede1a7; 0x6272549707d240d7; 0x441f330f3db0e2f0; 0x28d37f995ec2f3fd; 0x68f30ede43c66a2d; 0x5d72abe9571abd8f; 0x38b7dade8a8443aa; 0x8276ff8be3d842d; 0x36663187a0fb918d; 0x16b2fb5613be4bc6; 0x6d8a9f2784569557; 0x11b8eba92ff49797; 0x2e95e94f8d5f7d01; 0x528a227752c2bec4; 0x6407e7e57504c2d9; 0x1faf00b3679ccb8; 0x5ec56196a2e5d5af; 0x501bf64509bbb79c; 0x19847087fd14b25f; 0x6eaa02c7e4f8d0e5; 0x25911a20d6979179; 0x5715cc1a8c1f59da; 0x3029b2c81eaa2d95; 0x51032106054238e4; 0x46f29cf4b2ce505e; 0x439dac1417bc0079; 0x7056f20b99b6d415; 0x150625201dabceb8; 0x25dc332d58939174; 0x6fd43146977b831d; 0x7f1e596c5763f11c; 0x51d3fd7264f61af0; 0x2ee3217a8b4b8122; 0x4ab6e46d2f8dbfbe; 0x41ce1be99d00c585; 0x1030da6c3077ec0f; 0x77ed101aef8b0df5; 0x2ebd0528167683fe; 0x27569e74336bddbd; 0x343dbb118c203e5a; 0x6d3098bd8f5862a3; 0x31b23e6411593875; 0x3e318cdd4f43321e; 0x14f84b93384efedb; 0x3590592923ef469e; 0x723b876fa724d78d; 0x77e37df3e6161eec; 0xad19e4389db82e8; 0x7b3739541941472d; 0x4da4499df6d6e9dd; 0x688e44fbfeee0436; 0x5d543e6e0e320bd7; 0x1784262f4937b346; 0x22b3cbddfc63e036; 0x45c5ca148b645d59; 0x4a1f8b5e32a89f52; 0x3ce203748c7a092f; 0x6e7a7f9bdff1865c; 0x430bac160c08cd25; 0xa685c4e1b9cf002; 0x2488a9f79de397d5; 0x5a6840e9193ded1f; 0x8c9b23a50524ee3; 0x9baf4639aa1b129; 0x767e39a4c841360e; 0x5eba6468a4c08a2a; 0x5323d0e06fc72b1a; 0x7501984ac8d2d9d; 0x7283cdd651202677; 0x506cd264e83a59a1; 0x57d3270e3df98c89; 0x15d75388dce1e3ee; 0x4b87cfcda46d070d; 0x98771170aaeafd7; 0x4b0e8d2072ca72a4; 0x6cbb61422d8189f5; 0x3f8bbbc288271033; 0x2c1fe856a5d9463d; 0x27addb3e4fcd9e39; 0x4b68ad469f9f1667; 0x7ebda2e13d33af7e; 0x550a78cb5ca76c70; 0x3aecc305c734c0f6; 0xd4cd7c24e0d699; 0x58beb5bfdf787a77; 0x7907ffee4ca3dda5; 0x6deacd62928d1128; 0x4e086f17724e1d88; 0x2569d80a296c49c8; 0x1e727bca9b4c3d2; 0x5ab73317b1c57a25; 0x4108bc5d74a8823a; 0x6f380984cf3e99e9; 0x638bc5a94a9fe400; 0x6e1bd4bec2d5c15b; 0x4ef32478ed6eba90; 0x63559995190e998a; 0x4b73d55ac6d1ef40; 0x60578df2b8510bea; 0x41db94f47bf25358; 0x407767b71b60750e; 0x6384bd42f616ed1a; 0x2c0295aa6ff9d562; 0x3b32b6960ae02307; 0x3b906fe43e432fda; 0x364e6e637b5285be; 0x5f49d5587cb37b0d; 0xa4584e6036d6699; 0x33ce60366155804f; 0x7b7fa2a598ef0649; 0x257c8cf65010f1ac; 0x1a89629c5eb6dda0; 0x48e9366de21cff48; 0x51d265cca5cf57c7; 0x716c738ca44a2bd9; 0x4ab06db522a999c5; 0x40d465d2747637a1; 0x7fb7ac3c916ad681; 0x71e4f58fcbde7613; 0x121b7b7c3d1d7147; 0x4ef7a16c2fbcde1c; 0x200f7cf7ebbb30e7; 0x5bde25c56fd17af0; 0x77e968a1595e76d7; 0x13e49792e0372f19; 0x7644d89454a61f0; 0x2101c393e0f7d486; 0x621d3f141f6300b4; 0x1ff10b4a622c8eaa; 0x723f34b54da476e3; 0x5ef5b24352ef0c0d; 0x6a86034d79131cea; 0x4ab2190cf5b4c74f; 0x796b2acdd15bfdfe; 0x588e8506eafacc42; 0x31f0a5b84c27bad1; 0x5a83eccf79cbb7d9; 0x5b235995436c495c; 0x246aa22f041d23f6; 0x2aad9dc1fd0ee194; 0x79436743688970af; 0x4c4dd3df62c16b2e; 0x256f4c827b252390; 0x1459ee9723bbf03d; 0x496fa2721ad83c19; 0x6a594c4b3f8972db; 0x50aa20228a14b99; 0x4117ff69554ec711; 0x727cc3b13e12e698; 0x470eb53ac8465b7a; 0x6311b18c6ff311e9; 0x6199e07999e00bc; 0x3cf033ff300c03f; 0x607879878678001e; 0x3c3c0f000333ff3f; 0x1e7e06];
   [0x4e275aff24c045da; 0x529c5bd25363c3f4; 0x68d86753488ba61f; 0x23d2aec150f20ee2; 0x32e1ff0c440c6890; 0x770a04e0a34d5323; 0x2db299bf5a3f1c28; 0x778ca247dbaf5c58; 0x4109bbe1fe05e1d8; 0x3c45efb75f851ca3; 0x5735f16d7a36e5b8; 0xad20ce9289ab6bc; 0x2b12bf117c8ff5b8; 0x619828e88b1d963f; 0x2287dce1b0784289; 0x1fd923b426260303; 0x1403c98c971f25d6; 0x1ab326c2290a9651; 0x527d936f3da5e2e9; 0x5e40efcc3c1e332c; 0x13a7c431def261f; 0x4ff092f031f8e050; 0x4ccbafcbc25bbc77; 0x63151e3a96427da; 0x68b3003232fc29b0; 0x155eec8145d3dc86; 0x53327f28e9e50279; 0x565eb22ffaa82ab4; 0x5105e1fc7f70933; 0x63e98d034e1206c2; 0x4303996b0493b4af; 0x68cfa59026d14a59; 0x4fab566cdef7682b; 0x77b2ee4d0866a9e9; 0x583d29e78f9b2e04; 0x6d10468cc4b7296b; 0x138cb7d99316cc49; 0x105517fa908455aa; 0x32c258109da584b3; 0x341bb5e78deabebf; 0x6ca1fd4f28a88b43; 0x2be63bdf6764dcd1; 0x775cc92b260e1499; 0x729c904fc299a093; 0x69f0cdfd16f93532; 0x746f917cc31364a8; 0x69b8f7b37039ce10; 0x8cd4f12c79f667; 0x298be0b4fd8fd941; 0x641366cd70f6ce7f; 0x478a9eaebf15061f; 0x660671eaa37e234; 0x13182e7dc420be83; 0x6fbd449476e90f8d; 0x609cc9a74eefc5bd; 0x26e474978b050f1; 0x22cae4d8244eb150; 0x4d1b9efdbeb4f3fc; 0x2e20dc5a1c7cffb5; 0x4e1c612f1c1b61fa; 0x1241554fd27254c0; 0x5bf64908de148929; 0x2555a8462f786d06; 0x602f0dd703f555d7; 0xd4d1186afc37cbb; 0x398483766febb33c; 0x9575676c0bfee85; 0x53cc48f1f46ae9dc; 0x3d69eca91690485e; 0x4d76ed9d72644b43; 0x2aa68657e9f51b94; 0x2651cbb444eacfd0; 0x538a80abbc8996a0; 0x5d7deec51f31b10; 0x274eeb2862219b62; 0x15793d58bd6aa1cf; 0x3ff1c2cecf74a6fc; 0x3e45be59d6ef024; 0x2873941d41ed342; 0xdf9089f006737c0; 0x41d95c758293982b; 0x5e85a48742a3218e; 0x6630e0264e9162ac; 0x3c6170ee429e59fd; 0x74440c56d816ffc7; 0x29b91d9475f5039d; 0x140bd06faaca62ac; 0x1aed0e195791a4f3; 0x4a42c37413d88e5a; 0x531d6f09d36d3784; 0xd9ae8fae259dbd; 0x158184dd901b2287; 0x463a4c060d0430ea; 0x6ca785783290b1b7; 0x7028eca93acdfbb1; 0x46e1545777f5ef28; 0x594e88c6d095c84c; 0x59db5ee59974a2f5; 0x71dab33b2113cd65; 0x16939e272064ee6; 0x4967db3dec1ce244; 0x24b5d08c30aa6a7; 0x208c36f65b25e509; 0x78a2d1ba8ff466b1; 0x552271a244250349; 0x493ff31973c4b84a; 0x7bd6ddecb8536d83; 0x3ddf7dffe0aba86b; 0x40e5c5abc7c2310f; 0x1e84f33510d8fa66; 0x228adae419b2a0bd; 0x4005bed80ea6f2c4; 0x335f6d844ded05e6; 0x1e513f63b42db2c4; 0x36dc7a4c246e886a; 0x26462035834fde57; 0x41b824db87e9388b; 0x27638c153da056d6; 0x6e2db7ca29e9c827; 0xc98f52a8c52fa4a; 0x2b7c291caba1141f; 0x4cefd635e5a24499; 0x2240363b96515781; 0x5ea0b04e11fc94b8; 0x1a80c493584170ad; 0x43e221736a3821c2; 0x4d6384c74d964a89; 0xf95813cfd9ec922; 0x658ec9465c7e402d; 0x2c1b33fad81a74c0; 0x5b24885516519f1f; 0x4e2e9ed39e8cd6e9; 0x28a9bc5ad6ba37c5; 0x47d41426a989eb1c; 0x2ff15cbed0b502fa; 0x19247848495c619d; 0x3f20f2dcf711b6eb; 0x2b77c3cf6b23a2e1; 0x3d54c25201e78bb2; 0x3bf6f9c15cec92e0; 0x5978f244d2d7715a; 0x5a3de8a2f08b8ca2; 0x315ed99accddb35f; 0x2541e0ee63c7ab10; 0x19f2b91d2c6a087f; 0x37d8e0695c8b4440; 0xddedad6e15d2cc9; 0x4074158561c02730; 0x361a785ffd37274; 0x719b3e5c20b9ec27; 0x6e462146f14f94c7; 0x31cfde032528876e; 0x184fa0dcce41a2a1; 0x36791c273b4a15bb; 0x4ddd97d348a239f4; 0x150df536cd742fb; 0x4430ac4381a159af; 0x24bc7ffac49d0cae; 0x681e8cadc413bfe2; 0x712adb6f8e815d15; 0x6edbba895cb6e0f6; 0x6d44270f09751fde; 0x41ea3814b7ec567d; 0x35670d65235d48f9; 0x7a46116591fd27a8; 0x78d91954ba38a8fa; 0x5425e42ce39fcc; 0x693edfaa48890348; 0x11f942c9968270b5; 0x7b0d772cd1b5231e; 0x133440437071812b; 0x29294060169c0f7; 0x60c9c249f74518ad; 0x7b4ca8db5c57b049; 0x62e0e1fbb91d95d; 0x6eff3d58d3de2ddf; 0x445c8399d75a7aa2; 0x7f06b204825db43c; 0x5301ba8fd93b320b; 0x7ba5c92904e12afc; 0x6f432db221c48e14; 0x25da8315910726f3; 0x54e89fcb51023420; 0x2bf0fcbdde2d1cdc; 0x4118696eaced987; 0x5ee90b613c5a0cd1; 0x1f75998e85ee3897; 0x336e0a1f8d746fa9; 0x38068c6a36862ccb; 0x6c8d4006d569835e; 0x52bf218d3b02efe1; 0x707c6b119aa8f891; 0x7bdb5a5a28536b15; 0x7aade5d0d4216820; 0x1d9dfb57e742e9f1; 0x37bd30e0724965e6; 0x167904d5cadee3c8; 0x377099e02d6d8e8f; 0x74a066b3ab383591; 0x787f39671c2c8a9e; 0x5a0e22944facad7e; 0xa22d00277a6419a; 0x7dfbceeb3643b3c8; 0x42ead3735f915616; 0x454e0763d469e2d2; 0x57e2e50d95d3d8b0; 0x5ac87a340a2fd124; 0x5fd67798ecea4987; 0x746e6a4493d8df6e; 0x27c1476c094659eb; 0x67b67f40f55715eb; 0x6529e278a309b9d5; 0x33d7058f65744a2a; 0x3f9dc06f9a5d4bd9; 0x6ef665044f9f18c3; 0x28f10afd73dfb169; 0x21a892494f89499d; 0x5ea6752239aed2be; 0x3b235eafe508525a; 0x641d61e1c9be9ba1; 0x3a0be50955aa037b; 0x69aa5461eacb59e2; 0x5ba4452d086b65bf; 0x1e22f48b7a4f5db2; 0x41887d48f5ad06f0; 0x85681e46c130b94; 0x25157b9a7bcadeba; 0x53f037c784cd87b3; 0x691125c507089b34; 0x61612d4375559e89; 0x748c8da1dbec5a9c; 0x68f77b0c91c3642b; 0x7a04595d6eaabda0; 0x202a8ad1adc21bd9; 0x36f04b5993de05e5; 0x14879591ab16ee47; 0x2e2ecc394d40a1a; 0x3ca83a0e56df968b; 0x6b50b307a5e9d3f6; 0x7ed31e53abaf2385; 0x4f84d91ae1ca4e99; 0x30cacd2a6945f1fb; 0x6e0200254149ea47; 0x2282cc50e56ca4ce; 0x6b57dc75aab84122; 0x304e9c0b3a8a3292; 0x14bbc1eac7f884f3; 0x63e40be37e8fd479; 0x59815d112bc164eb; 0x2cec8593ba538da9; 0x7f023a4224e0f988; 0x16c4663e0171473b; 0x44bf25c9d95a9e63; 0x5c1aa92a04ffce37; 0x58cbc738274726d4; 0x497c6536a2d08c64; 0x21bf26a0cc7e0cad; 0x776191d652cba294; 0x721880fac2abe50a; 0x6cffccba2e8954f4; 0x18ad98e18ba2902e; 0x3b60c1be744e7cfc; 0x7dc24528a39c4ccc; 0x24f066bf4c6b6e; 0x651c71edff8df3d6; 0x7dad6f7782355f92; 0x9505b4519bf14a1; 0x283d96c59cba5787; 0x4297fce833fc118e; 0x7cd3a507225b4e0c; 0x31cead99967a367b; 0x8ee30f42a4bc984; 0x4854c884890493f5; 0x73756db2c4d4822; 0x6328d9bd738f895; 0x236d790b24fcd23d; 0x6c6925f756bad549; 0x483d89e1ae7279ae; 0x5849f31c5b78ef33; 0x306b8779a1f4568d; 0x652a508c8eafffb0; 0x5beccd991f03d240; 0x112509aacc8e637c; 0xfe1b7e826d98eac; 0x480ad16880ed699e; 0x44e0358f0776998; 0x490d92576568aace; 0x430181d212e6ab76; 0x2be8e36afef220ec; 0xfbe814d6f55fae4; 0x57ceb871cd9e782; 0x396c8c38a158b2e7; 0x2b17759cccc436c5; 0x15aa2a9bc1305d34; 0x7ecf2ba86569a486; 0x69ead55ed873a0; 0x6ca767c34408a540; 0x654c39ccd554e028; 0x30918b387e80eb37; 0x4b62069b1652a89f; 0x511b546a5a4fc45e; 0x645109bd2b61c193; 0x171c0f2f1b79f75f; 0x164d29989572e715; 0x663320b15370e670; 0x432b9aac3752c3f3; 0x6240b05abc3cd625; 0x6cb740c217a0367a; 0x5a4105f738f0801e; 0x5e1b318980944f0c; 0x17b7c113d259bcf7; 0x71a895ae7b2021e; 0x2f7a011997ca11cc; 0x619e786661ffffd5; 0x3c3f3fcc0330c3ff; 0x7867f9e7f878066; 0x7033ffc0f33000fc; 0x7fe19];
   [0x5b11625cdada86e3; 0x737955ea1807ba64; 0x6bb48fee45ded644; 0x6b84f6a442b660e4; 0x3cb6837a219a8b5c; 0x4a825671495a086a; 0x225888aab9cd1ef7; 0x648ebae225f11ff4; 0x2a68582d194568de; 0x40246b22a093cd3a; 0x38c4673c6c26bd58; 0x4a2a8689001aa517; 0x416ecf4fbb87043a; 0x7cc7aad4f4adb74a; 0x52102d8e0497db6e; 0x56c4862b42124d5e; 0x4721ce5e93c22388; 0x1ea57e74492d39b5; 0x4f57f8cba811df5b; 0x3c2ad0198fa4c766; 0x60b457bef89035dd; 0x561ba81ed4d4c62f; 0x70f2d860c458c843; 0x606f0f03ca402059; 0x356544125f18fabf; 0x38007636aad4d4bd; 0x34f487006881d64d; 0x6ec862c9b485495c; 0x755b46918eeae009; 0x2ae23385eb253161; 0x1b860486ff8bdec7; 0x4d6bf51b61e44b44; 0x3693da1552fa2c33; 0x1862383c9a6db5f2; 0x43838e549964502b; 0x60c972d351d21a58; 0x5d06959beef005a3; 0x7aa7881e18793b94; 0x642b7b21b313c10d; 0x5bca2f98595a0dd2; 0x43984ddaa6fb555e; 0x1f712d1eb081010a; 0x650106fccb52b9af; 0x572245771670e935; 0x4f97e635163fb1f8; 0xb063c87d6d68176; 0x746812468f050531; 0x1a21c515d9e27483; 0x7c2bee5ea38ad36b; 0x2e17a54fb2636ad4; 0x45daaace54e4e9d; 0x787249ac87a53c04; 0x448275d2e92abd49; 0x7ff5b4673699f65a; 0x48c5da6247b340f3; 0x581682a53cd01a2b; 0x240eec03824c38db; 0x457cf12d032dc896; 0x7e2c0accda4548ff; 0x1fc02a4dd5efeff2; 0x191933759512d4d2; 0x51da5a2c04b67319; 0x6ed49579bc0ba793; 0x7e64541ffdb198c8; 0x66399ab8bcf93b6b; 0x35f1b2d22c08a6e1; 0x3483a55fc67a8f62; 0x609d2131562b1ecd; 0x225e0eb8f91e3508; 0x7f325cfa153e17e4; 0x61395c270d1f9c87; 0x7a008d12abcb98f; 0x9bec9d7a7e3f498; 0x387b43ca140027e6; 0x158c1accb7ffd8a9; 0x75f878dfdf52fcf8; 0x268db13077377ca5; 0x5a02ac0791c94f57; 0x13ff79d89eb434c2; 0x63f8101e6d1d9734; 0x1d2e593bd3867e82; 0x4305a683c4820468; 0x694ec84921cf28c; 0x15ded696d1b6eb91; 0x33f1cf3bb359acbf; 0x23fd3d00c08d6011; 0x49f76af0fb68f3e1; 0x5866222c5898d209; 0x371c8fccd3e2b8e8; 0x418b9089998d28e6; 0x6429d7bb08a8b120; 0x3ae934a52b57583c; 0x59eff927f645378f; 0x28c818a2c1f8a9b2; 0x30d5bbea45d16974; 0x4256ae64d84bd4fe; 0x63490eb70a589b4d; 0x7e71f61db08c308f; 0x791d1d7c0b7c1135; 0x651019ffeff1d9eb; 0x5eeba2515b78e6c0; 0x116e509257fd3a15; 0x7ea67ff89664b061; 0x1abb6817e8a04b1; 0xc036eabb4ba933e; 0x35408d8f41fcaaa7; 0x700269576ee87b26; 0x415b31628799c4b4; 0x51497ac199cfef33; 0x7e5e0aacec80d16d; 0x70f4d75909919d64; 0x4c8acd54fc7f5f1e; 0x3a622bdc121beec4; 0x1e3722d09ec16f44; 0x5934a1b401c60e37; 0x18ea9625e8e76024; 0x7e71c7ef3178d7d9; 0x4976ebd88a241d38; 0x3851530be9e5ec47; 0x12992ad432eb7692; 0x270e84ef6bb893ec; 0x242ae45aedde04a4; 0x579018bc37a34359; 0x1c3fc9ae0df31a0f; 0x57d26b0845ebaee7; 0x6d6afed87a92f36b; 0x46939f280031f67b; 0x36b6c64f260ee8a0; 0x3912dda16f7377eb; 0x504c2b4bfc10f512; 0x60d4c088a4a89e64; 0x67bce32550ba33fa; 0x46f195fe5eae8132; 0x131eefb27cd29ff3; 0x3caa8b7914014c6b; 0x397bc0f60332313c; 0x7a653e1216c3c9c7; 0x7f4a1d7ba4855c8; 0x6a2037fc5437d57f; 0x3d216aaabd745fad; 0x757ebfd8db6af26; 0x7c8610fb191f78b7; 0x158fc69cfa436c86; 0x7950a6ca104737db; 0x7d999ec15ccccbcc; 0x6c7959cbc12db3d7; 0x5e0113698e3ce3d7; 0x64af7103c32f4d92; 0x72ed7d302536c912; 0x646e0025e4cb5ce6; 0x3b12cb087aa528d7; 0x7f2db3457d85d80e; 0x60b2a45973ecb5b2; 0x6b022e1c7f9e174d; 0x4ff5205a1ccc22ce; 0xaf31f579c36715; 0x6eade06419c275c5; 0x2612c6d25c0e7336; 0x6da3e000a73287ab; 0x339460450f409563; 0x33eaf41e9cf90502; 0x6ec4f993a7f621ac; 0x36cd6331b0759055; 0x6043fcda289194e2; 0x4389892713cf593c; 0x361b1cb220a5c133; 0xe2bbe75557e6850; 0x7217b56fdf2d30d1; 0x59691b3d1b6df36f; 0x12f5357df5a2edf3; 0x3c93a971f05d7444; 0x703ebd114cd8aa65; 0x11f88da2ade0bca9; 0x7e5cc56f21bfaa4c; 0x2ca944685693c1c4; 0x4974a92e6679480b; 0x92218fcc37207fd; 0x1a9b6a39f287c5f9; 0x33d4bf79c16b6553; 0x7f0cfff761cd0005; 0x48f4cc732afc5f6e; 0x771d462e071f94cd; 0x2e0cde3ce866b403; 0x28783d3fc84cc118; 0x7b33d0c514b16265; 0x5d3ff38ad83ad400; 0x1d21db43961f961; 0x53162f6b12137419; 0x182e6aebd60c544c; 0x7a4c492a7cb787e7; 0x5e7c3c8c0b2fbe08; 0x1148199c9500132c; 0x65a8cb687d3089bd; 0x1d24bd5630d6f9b1; 0x129b2ae50aa006e7; 0x6bc19b6f79f7521e; 0x4c70e612f90e1ba5; 0x170a4a2a95f7f6ee; 0x718dd7219ca12977; 0x2c89467f35a11ab4; 0x6a4176f48be33ebb; 0x2a7440e3ddfc0ca9; 0x1f5c0619f571319; 0x61ae02ee3eebe0a2; 0x451e024d8315c27c; 0x7ae5f14771d573d7; 0x74d1e6a07079f5e7; 0x6d64de9bea01da37; 0x741d447685ca7f3a; 0x243e148a600875b5; 0x33db950331d6ec42; 0x7bd3a4805d2ee3c9; 0x8240129562371f7; 0x1a6878199397c80b; 0x29901c352d6b1553; 0x277f4ea6ffae0459; 0x4c36878736a9d5d9; 0x1776162dcfc0de7b; 0x370c9f93568ee63e; 0x28ae156003397e43; 0x10e46db4441f9c3e; 0x73057628844a1049; 0x41df11c722b703eb; 0x1d65a403f5f79814; 0x82dbf23ccd8e52a; 0x3e7654f02b65d97d; 0x417fb2588508a67d; 0x60d8dc8ff9253f97; 0x186cb512f886e568; 0x5f8d19ae8aa63245; 0x5d531daa6f1d404c; 0x6248a2d2706f3be; 0x108b4f0aac3e71d1; 0x33cbd647dfa442c2; 0x1c50db0102f39a8e; 0x49a67945bf214cad; 0x31e736cb42e46fad; 0x27fe27c63330ab37; 0x3e6a2ad439529b4e; 0x4dc23babb01a0502; 0x6b5259c554a67953; 0x17a19393a6e6d020; 0xf20d7aa141d4d91; 0x61b427a9da1722fc; 0xa88682a016b0de2; 0x15761f1176528f24; 0x7777a4252111040c; 0x6d2d9757d1eb816a; 0x6ef4e9b5617a9b04; 0x6dbb834ffba17709; 0x440b27bdaea651dc; 0x7c5b9b9959052c13; 0x3a76369f0c87ba69; 0x261b5ea057bbecdb; 0x30967af567db8ed1; 0x6dd3dedbf912d0b6; 0xf98ad07e3259065; 0x3fd788614c4a0a0d; 0x4150772cd4a52970; 0x3ac5a4eef0253152; 0x703b3f6987225e75; 0x2878e9ff886e7662; 0x49495867d0478da0; 0x5910362d8d3dfb06; 0x8dcf9134ceb9035; 0x12ba18ffaad0e15d; 0x4e91ca0b1e86abd6; 0x7b1bbdde27bcb0bf; 0x1213991719043e0; 0x7ca4107b352df664; 0x180a20dd06e7a79e; 0x5431893a39d74a8b; 0x621c8588b7661bf; 0x7db2fac31d8547f6; 0x7d45fd723f1c88ee; 0x4bd10d97a51bee8f; 0x577891c63f0b02ce; 0x3fe9a6402b35b17d; 0x511cc4829a069496; 0x3c2f81c4f356d05a; 0x25663a3e3a05aa78; 0x630ddab71af056e5; 0x7b3f167f878bb508; 0x53a0e9ecde6a0312; 0x5a45331473d01e48; 0x3c4055e361026d31; 0x47ce1dc4c519cd48; 0xf256c65b95570d6; 0x65d1cad3def617e6; 0x3216d3437d1b0fe8; 0xff3bf11bc02a77e; 0x21217ef2932f1768; 0x4c1a3df42a32c89f; 0x55222aba7028b6e3; 0x67484332058130b3; 0x2d0202ff5d9f5cf4; 0x58b3388b48895231; 0x3d332c9aed58d018; 0x51ee185af6bba9f2; 0x5f354248e0d3ad84; 0x4b080839530d79f6; 0x70e59a3e0c806ad9; 0x431040166ff32cdb; 0x53f5407b4aa49af; 0x4a5d5f3db6fecb39; 0x663d632661462b3f; 0x2f75fb2fb14f0598; 0x319b9093d1f562ef; 0x56103744209a0159; 0x145000a2e8b91b86; 0x74caa8fc47f4717d; 0x3a26c95e79223067; 0x518d599a353c70e4; 0x6007e6600781e622; 0xf3ccfc0cf330c30; 0x19986679807e01e0; 0x3ffff0f00c03cc3f; 0x67e78];
   [0x16808a7ff4e69cac; 0x1417ae731bad6911; 0x1027fdb1d6436c78; 0x337b55d21762544e; 0x6a2aa8a85485ba93; 0x7b78e631fc5966c1; 0x98aedab261a7da8; 0x77dd35fe4c61d1; 0x58cd0d8fbd9d4b49; 0x59c287eb38751f3a; 0x38e4541ef82e977b; 0x4ae003423483a4ae; 0x78ecef526f611929; 0x53ceac90fd39142b; 0x1864829ada38db20; 0x605fcf18c24a1afd; 0x76cc20a064fa7521; 0x2628d3a59f3ff917; 0x1f7c1c6990ccb224; 0x67492abaecfbfab; 0x6ee3779f61efdddc; 0x10e1db340673097c; 0x7d3b339ff664b56c; 0x3a205fb6a87922a7; 0x5f6efa98f859fd53; 0x5b090c30c9d8b3b7; 0x8073b85f6a36446; 0x3e05edfeb36ca77f; 0x6d46963956d25efb; 0x363c250c01ecd11d; 0x1cf1769a56ef4225; 0xa2164190e8384a6; 0x49972de4fb725969; 0x189adbf8d84411f5; 0x1f6f18d3f79a7465; 0x561d031271c0a4ba; 0x6f6a702a610eb9e3; 0x2a295b49064c1a8c; 0x602c10ed970f46f4; 0x5c18c49aad54051a; 0x53c62ce260cf3e59; 0xd833320197fbbd; 0x3bfa8292f5e77d86; 0x5da0c0683d4b6211; 0x5bf5856e91df3816; 0x55c4d2c7f3464817; 0x1d044ecea6c98b8f; 0x664a895b690ffbc7; 0x2cf87f109de9aea6; 0x40ebce3a5984b15a; 0x46528c763c53adf9; 0x2f59592127a6c146; 0x36795a1a3b964f5b; 0x5f3777b4c97be159; 0x4287eb8968d80c50; 0x63dfc2c7a7debce3; 0x8ad474dbad8580; 0x4e35b7f700434a67; 0x12d21a168b2bad54; 0x76f42dfc0ae8c2a0; 0x76bdf86b10801d4; 0x4e9534f88e7da7aa; 0x58bb75f3dcc7e2d0; 0x4415e3e2fe808820; 0x77ed6f1a8b7f5f10; 0x21ae44b71ec742d4; 0x5da1b96c810c0f9a; 0xdc3123ba552b3f8; 0x5dbcced20acfbb0e; 0x6710e773410a916f; 0x2abaa0698ce86f89; 0x37cb91e5f43b01c6; 0x104f902386f1975e; 0xf6fd5be309ecf80; 0x17c573ea1f340984; 0x5990b05c6246a607; 0x7d31c512e25e7047; 0x467c7513e2c62238; 0x3aae578a84b9fd06; 0x5e46172af4ef2bdc; 0x1eaebfcd836932d8; 0x31dfb71ce9cbd78a; 0x71ed43997ef51213; 0x4aa575a8e13e5aba; 0x1be2e4b353cc1c8b; 0x70df26d382aa5eca; 0x8e7c94e408d9b08; 0x4de6dc45ebfc7029; 0x667ef105074d1a0b; 0x401ade25955da5da; 0x6bd53bb5ea77bb56; 0x6420f142f5969105; 0x1580d982a47fea70; 0x40bf55d9e93b44b; 0x9a8e36e450452af; 0x5b55a07d0e5273a1; 0xc75fa8270fb960a; 0x556c65f557d1683e; 0x4405762385ddd316; 0x4308cb3c2f3a4eed; 0x7979ac10394a8d56; 0x3523c14b12ac0c0d; 0x52e78dc92ae95ebb; 0x11cdd110cf52ef95; 0x1d210d129920eef1; 0x660850c6abf64574; 0xac1bf976684581a; 0x1116848fac2bd868; 0x41056102ee921fcc; 0x764014c36466ac3d; 0x5448d7b8b9680853; 0x1e2a06d563ce468d; 0x72a8fee6370c8130; 0x751b19bc5847a789; 0x3bbc13a1937700c; 0x24e19b6db9c9c5fc; 0x18c8637b7575c4c7; 0x7b862d1ce990af89; 0x55918af2efbac6b8; 0x2115f4112a9137f2; 0x5a13b1eb5cd4fb9b; 0x4e76eac7d97ffd01; 0x772d89cf29669239; 0x2c2968b0bb84533a; 0x8619c33013a8a43; 0x2d65a3ee1c935b5b; 0x4b9284c2c9777aa8; 0xf9820eea3ce0a7; 0x48c2bcdbac830a72; 0x52e4c3336ef7a40d; 0xe0d005cb9c580c8; 0x3e41e09f709dc16a; 0x2e99aa8057f83712; 0x1f356bd529c3d6ae; 0x575d818d9e5ce05; 0xb6e602ec687ba3b; 0x56a8f849a22cbf95; 0x297c8f8dcc7989cb; 0x64a2644089bd6c47; 0x25e842aa2a5d12ca; 0x37a1d072d97d783; 0x4730d7ddbcc933f0; 0x3ceab2962c495f0e; 0x6283d9244027b37f; 0x7098a6823b2de54f; 0x19ecd96873c352c5; 0x775f69db3ee320d5; 0x37d01e720f67aa51; 0x7de693e005c87945; 0x556dd7c23e6dc50c; 0x6443dba93e3167d3; 0x1efbb2e9e16fb6c9; 0x346cdc17fd14eaa2; 0x544acd4e8ed11460; 0x7b78960eec6034c8; 0x3ed2de54ff42be90; 0x4bbb5576af451e9f; 0x5f3509ece01c9b0b; 0x4f0c132570e46d05; 0x2e7c4d00eaf409ed; 0x427dc1fc102357bb; 0x9296bf185f63d3a; 0x1450a904baacea54; 0x218861092e000df5; 0x217f94e2c264a39b; 0x52a3ae522fe0298e; 0x3907e28d5680e538; 0x5d407650acaae4b8; 0x3995a0594f1107ee; 0x4b98be48d6de78c7; 0x74217eabe87abedb; 0x2f53ff89863292a7; 0x4d0ca76ee38f5498; 0x4184b957fc55bb25; 0x6f542e35e05989f; 0x505826d3ebb6d448; 0x465cc7ab88d5fbe8; 0x799401ca682581ca; 0x6db922f5e3939bf5; 0x199439d8631a20e; 0x37df4628465c22de; 0x380d3c4ec8afea01; 0x7e349e14b29e67ae; 0x534327f5941655ba; 0x24933662ace566ac; 0x6e11b4375af24aaf; 0x550f73999526d85b; 0x7edf48e717421b35; 0x2c91519db73c9537; 0x29bf7261a99ea250; 0x52e299bbec13cbf5; 0x70d18a5532583bfe; 0x3bdbd396e757ab18; 0x1f412ef0d5c5d6b3; 0x7dca61641fc3f609; 0x4cdd7857a6f7cdac; 0x469647e2d0d342a2; 0x7a7fc56b468cb385; 0xd1e87d190f25de4; 0x55134d52f1de17c9; 0x3faeba08ab2d2506; 0x2153f86f678fc598; 0x2c4c66de5911d927; 0x7c37e4fb4effa43c; 0x59a87a26a76fb6d9; 0x6cf7f871863772bf; 0x5782d990f1046905; 0xe4fa59c028448d6; 0x43497666257d989e; 0x51da6b3739bc1336; 0x564a27446b18739f; 0x2865dd58d434c632; 0x7f9dfdc44a8ed152; 0x66583a984fc0d863; 0x41bbbebe15ba00e6; 0x38d1ce7dea6dce04; 0x12a7429152a730b7; 0x70015738bc651063; 0x21c364649f98a422; 0x5b9736a30fb2675a; 0x37a64ef057d87038; 0x5d418c4aa2db0ee3; 0x4bfe3da82e10efca; 0xd86be2f155d660; 0x5d15232b3088332f; 0x5f248d8e831dad52; 0x17989f4128556398; 0x2139c7a6d9dd07f1; 0x6fcc964abe57d4e4; 0x11d9cfb06aa2577e; 0x145c8c4a4daea512; 0x725eb63bb6386e98; 0xf3baf1352c76707; 0x3cb33f01ff0ce5fb; 0x2e9e1cb03520cd7d; 0x1d0756e1873c99b4; 0x17c4e03497fbfd61; 0x79a3241d8c2ee5c2; 0x79b5e417c0b518c4; 0x29aa4d77f8d7f5fc; 0x79a9d26104300075; 0xed4d35f3f3abef3; 0x3a136c480436053e; 0x51e04a98499ddc9b; 0x54a9386114da6838; 0x22aa0ed4d8b14b68; 0x1e688fde52e52206; 0xb34a45733686d0a; 0x5a0665d2cd5e5be3; 0x4ac42c9522926e4a; 0x2e02c3c7cbb7a13b; 0x6ebc9b306dc0c612; 0x52d820b26c208083; 0x5495ff06567b1085; 0x3ccc3eabb5b8dbd7; 0x6f5939979e23299c; 0x5544e40860e37d29; 0x62c04d736b92964c; 0x1d5c4566ebaec9c7; 0x2646dded28d3aabc; 0x624d3f48fe1fc14e; 0x2cfd5340505c2bc7; 0x10770a2f2f50bd15; 0x31efea1378ced6ad; 0x71d4fa650c9c0244; 0x7938afa3db94a28b; 0x124c16b9e164bb07; 0x4f64755c1673cf1f; 0x5a8387e62040b4f2; 0x7fe0057985e0955; 0x2450895ddd21a8b1; 0x14aa72ddf9a4acae; 0x1564f0c4b34ebad0; 0x17edc7c768f39e7f; 0x589478301a4f385d; 0x494955ce368759d5; 0x78d7fb6d5e5ac1e6; 0x25c0b6ed4aa9d9fe; 0x7e15a79d0a719582; 0x2c42ceeca53f460f; 0x37c212c46911dfb9; 0xe908324d5d53c11; 0x6b12fdfce548e8e6; 0x57dcd5c93ca89a2a; 0x7b9edb49f6e6af92; 0x755a06a8ae867163; 0x5d7a20095df4aa23; 0x35a23ddfedf05c2e; 0x5c6e3f40c032b2cb; 0x56360a81ba0ae7fc; 0x7821746c9e7bf8c1; 0x1749cfcd9ebc2af1; 0x1575c688ae936e6c; 0x420850c00d0b78ee; 0x1ba40469e3a6486f; 0x58d24f2f483caae9; 0x5d134415ccf8fbcd; 0x213046ff14c63697; 0x2e3de577a035315b; 0x10746241dea545fc; 0x24517e745d398587; 0x76eaf607301d5692; 0x144d8804b7074f9; 0x68ded06e80d91224; 0x37c899b502cb97cf; 0x2a5b98d8211db83f; 0x1e019a369d9426c; 0x22c402ddbdb483d5; 0x10f0b6222efffdaa; 0x48a71787e841cb7e; 0x3c6fc27e380e1359; 0x20407dd07396c6c5; 0x31eef34fa7475762; 0x18000781e7ff8756; 0x7f3c3ffffcccfc30; 0x781f801fffffe667; 0x300c0fcccfcf3f33; 0x1f8066];
   [0x54a632122412942b; 0x1b1e96d6d6ea0597; 0x41796e3016097763; 0x638a66038ef24bdf; 0x6ef69cf2ed10f167; 0x1a98509fb28bb172; 0x57bf58fa4e462aa0; 0x42005f317e137142; 0x371ff8bc83ad0d58; 0x29c1ab981dcdaae8; 0x7a46bf064927b4e4; 0x412ad5363978060; 0x7b45addc6c097e29; 0x312e3e015591439; 0xf1e85662ad5d7ab; 0xb7daa09402a97ed; 0x7d8bdaac544b2d5c; 0x20ed72495c85cc06; 0x7d65fc2afdef4e42; 0x708b0dab53c67881; 0x43db37c06983eeff; 0x5a9bea4edf0bef70; 0x7ae1772b22d7303e; 0x27b6ca3099431f3d; 0x2ced8ea8e878fcb2; 0x57df0ed47f669108; 0x3c1dbbdd4f852fb0; 0x2388b3f7235f89a0; 0x55cc624cc1db0a5; 0x2bb693792f83614d; 0x64d6cec6f7c5fda0; 0x53642517e479436d; 0x27f008f09349ad85; 0x6d6a75396a556b0f; 0x2febbc45ae4d15a7; 0x4716ea32e9f376ad; 0x49dfe5f39e1fefc3; 0x1cf43853d2349865; 0x789d001842c1ba5; 0x5632afd919d2d712; 0x355207740a0d70c3; 0x700d7ef11a3f0b6; 0x7c243149be25485e; 0x7942989352909fb; 0x7fad28e22945e02b; 0x7bbaf8ba74ae2104; 0x15be86b391bc176d; 0x11ea4f0e2b185a5; 0x514d6ac08c25dd40; 0x7cf65ea4c57f4f81; 0x2a4150522c104b84; 0x2bec41b4ad697a12; 0x69069384329533c4; 0x5fa8e385d94d14b9; 0x60fc9d83d6a566f6; 0x48dbfb1f21a409c8; 0x6c53483a24469ad3; 0x48afc31d4dd60cec; 0x76c801c95f33f518; 0x29bef5a0327fcf04; 0x53afa40c78995b6a; 0x7c22b58528411ca4; 0x78f7a6f90ffd94f0; 0x2bba85821669f457; 0x49c6f6c5863a8214; 0x2b0a15c3f3211eb5; 0x5bb2e5670fa3cca4; 0x6aa7bc6d8f1c2661; 0x313b0fc3669eef7b; 0x554d99aea4bf9b9a; 0x473f1b6e10ee00b5; 0x70a2dce6b45f9966; 0x56fd707111388462; 0x166ab0ac9a721b79; 0x356a8ab18bdd8131; 0x687b1fa02226883; 0x37accb2d9c451e02; 0x4e6b51f510dbebed; 0x64563d2a8a971e59; 0x1d519abca6a80b79; 0x3e7c0de3745338d6; 0x4dd63f08d619ad76; 0x4dac7377e1e7e7c4; 0x4044b3a9b227f371; 0x4f5ca3cf9cbe00c7; 0x36c14db3b166c556; 0x1d7456960f302c75; 0x3e350b0f7714f16a; 0x130d211c1b34da8a; 0x2af8060a91f30635; 0x32bae2853d895545; 0x7f85ad6f438c203c; 0x7b2c917a81ce923d; 0x3620ab0313f22d3f; 0x3ed1c2c70240feaa; 0x24f99e3b6d3e0d62; 0x1cfae7cc782c989f; 0x755440088d602fde; 0x143f2fbbecdc7ee2; 0x72b8cb6b53fdb630; 0x2f10029f098ef5f1; 0x1c25f6a4b3764dbe; 0x5cfad10fb0f6410f; 0x6d854252c61b4c3f; 0x347bc3245828f24d; 0x400cee9cad47fe9; 0x21d9e88420c3b135; 0x923c556ea4d1d79; 0x533b34b56b64a62e; 0x38782c20f265d6b8; 0x375309ac7f897f27; 0x6dbb632864cf54c4; 0x1e75c2f7870ca43e; 0x3a8df9c0ea5a988c; 0x15c0c4f770fa4f47; 0x241df1cc8ce7e95d; 0x75ddc311ceda8157; 0x5867f2bd01be9a97; 0x1ce231322a9919cf; 0x628e3098e4f99762; 0x645671ef2cffb3c9; 0x4ec3e362175e337a; 0x5d38507ac5d5eee; 0x4b3305c44ef578f4; 0x7f3f3f8e0ce49cf6; 0x4d5d7d3211ad5b33; 0x728b635b722e7f91; 0xa4ebaf5536c1e4c; 0x3115a6c9ef05d23; 0x2672d424421a4c86; 0x79a3a3198f636833; 0x585f790d86211a78; 0x100cd317e793d4d2; 0x2fd9ea3e51c0ea65; 0x360d913e0c41d828; 0x3120f2427e9126ba; 0x607ce6d872c63359; 0x64032d58ab638cf; 0x10cae5742e6a7fa2; 0x24b6778a688a2d9a; 0x409163d8519e3862; 0x759a7893c0e48ffc; 0x27856e8b55165f9; 0x43044ce99e96821b; 0xdfb3643d4a73802; 0x76697435d5fceec7; 0x606c38f7fa4ef2fc; 0x6da008187d7eeab8; 0x65a28e9323b8acd3; 0x6c8830e9c9aa97bf; 0x26973baebec0a685; 0x1f97058773e76bd; 0x621864b618784906; 0x1e7126ebebaa99c8; 0x61d905061804f86d; 0x424ffa43b55728b8; 0x532db19275a542cb; 0x7345ece2236f501e; 0x2198fe9044ac7746; 0xf5a6db36fa7eeed; 0x1e9e598bd30ef2; 0x30464f24a30c3d38; 0x45c1bfdad6cafced; 0x8ffc9a17a217368; 0x7709e8a73b63d27f; 0x429cf4ce80d0a387; 0x1a7ddd74fb0f6ed5; 0x16a434e5e24e053f; 0x648f27750a05c4c; 0x3de6377f532e4f21; 0x88933dbb8692c1b; 0x29ef725418050306; 0x544800c7037e0c9d; 0x32054fe14b9b99c; 0x4e25607df46c5b9d; 0x5577bf57523f7a27; 0x6ffca24d48d9c0b7; 0x341d6df34556268c; 0x4365238409c7be85; 0x747113de39648501; 0x2d922da38c989be7; 0x2c842f936b65db4; 0x4d0435d2f0930c5e; 0x3011517003499540; 0x10c99d7e197257ab; 0x504cdadb375e61e6; 0x3cababe5ab77662c; 0x6f56052ebc453dd6; 0x1d2423997c3d4ff9; 0x72040d237ccaa982; 0xe5f467f398a9878; 0x36c56cabc9afb3f2; 0x2bbbd0ab7c6cebc6; 0x67d24195bc94a8a; 0x70e71d612123e6d2; 0x951eb3891c48ceb; 0x4e2f563d40fa84c9; 0x43b69eee5b2dedfd; 0x7ff7e4c40597de65; 0x78eed5599b66c3df; 0x2a24782d29a9a237; 0x621d3b8da5123473; 0x383182a7ca33d3b1; 0x636ad67ba40c120d; 0x66a9b15dbd9c8e25; 0x1e92b5a82f834b87; 0x295e919bdf44abd8; 0x41bc6898a8c3a9c9; 0x23fa301f8fb505b7; 0x2ae58c0fe95eef33; 0x548a9bf96a7f0300; 0x1b113283eb906c3b; 0x13956a46638a1f62; 0x2b82f8c5c533d7ea; 0xb90eae3178b576d; 0x42dafd71597916a7; 0x532559d348c11b6e; 0x5af27e7341c04d3a; 0x210aa925bd35e36f; 0x7603a43b1c28d9e9; 0x731885258cffb8a9; 0x6cc8a174d112ff09; 0x2fe540d8894d781b; 0x1c870f7617ec8108; 0x34d1b67d1ee40b86; 0x505642636bf2619c; 0x1e28d1095775c272; 0x3a11d32c4283eb14; 0x34403e77b176a241; 0x250e4c51e8f93f05; 0x66483ddbafb44086; 0x758160f400969d72; 0x773e618fb0624fdc; 0x7019d09f4b1be3f; 0x7e34f9bea7731fb4; 0x70f6b551aa85a7b; 0x1562d32c2878c75e; 0x4f9ff0a6355936b5; 0xee91e044cea2b2; 0x77d9c0588fbfc9d7; 0x3a9e76aebe7ba1ce; 0xeb4d8151f8f86a1; 0x3e395b26408cc16; 0x224955e6998461dd; 0x2ef7c153bc717f59; 0x3048a7893653ac1; 0x14fea359c26c475b; 0x2c56fb5b89c51481; 0x55bd99808bf96118; 0x62044f34f7bf7b73; 0x62df1edd4ff24159; 0x532191d79ccce2b8; 0x7be46b56895efcd0; 0x2b8baaa405d314c3; 0x4dab4583c2198ed8; 0x7661360f6d273889; 0x74670562c171c55c; 0x5e5f7473ab9c4230; 0x7f9d0fb6d728aaf; 0x58a2e92395c5a671; 0x566b42ef59fefef9; 0x364344815f51a8a1; 0x5e21b4e39c9b8390; 0x176ca4dbc0c0896a; 0x39c40ee399438f44; 0x63b7de7b658a88f5; 0x460ab08e22c23a5d; 0x102845c220db12ce; 0x586f3d7ea4ed2c6a; 0x2f83fb1aff259ed3; 0x76386210eb457120; 0x1bb995feeaceb93c; 0x34a0be848398064e; 0x4806b588ffd46c2a; 0x37f382da7441f9e4; 0x7b82a2a56b417481; 0x40b2359a3ae299c1; 0x6668a1f7b7af7bb5; 0x12ca19c3bc2a1538; 0x63d4f5b0be2f0d; 0x3e9f9a0d0a0ad7b0; 0x32ab98f8cbec84e3; 0x2e41143811c9d629; 0x78ed896b2f51b155; 0xe1dbf1e7f9e9eb3; 0x1433549a2b18cb21; 0x42311c12945e8a77; 0x70c487beebd6c4f7; 0x3ed00cbff84b2cb8; 0x2ef54791e3279829; 0x21721a490290f28e; 0x6cbf1c278070efac; 0x1033f4256a308b7c; 0x2a606f7bd27b1ffe; 0x2adfeb7af0fa091f; 0x314c8603c6bf9765; 0x4668d1e3bfd30705; 0x6c89ab7e9266a045; 0x49cf167c13219ba0; 0xf27f3e802ba1126; 0x14116a170ade8957; 0x10c6ba0024dccb7a; 0x9e4be6cb6637d57; 0x23a8dc7b5a5df8a4; 0x2279378f5ac8035f; 0x1d86ad51a46b1c03; 0x1d19ca593107becb; 0x4d0851c6ea00df1f; 0x3215542c4448dff0; 0x5a3c4b35a6c155d5; 0x16bb8e509bc7f81b; 0x731f766e003a2aa6; 0x16b43e1a3e655ebe; 0x7e1e1f9f8007e705; 0x7fc33000c0330033; 0x61879e61987e01; 0x4033f03fff3c3003; 0x187ff9];
   [0x1756a42c2a4c3a88; 0x33ddb9fc7f3f3435; 0x13a6a2bcc66b9764; 0x37561c325d866b89; 0x3d0247c2f1be588b; 0x2726152b41fa06ed; 0x562938da569a0284; 0x7d6936dd281f4a59; 0x4d26c244e33ad49b; 0x4346be87051ed1d8; 0x51d89a6958cb128a; 0x23f9ba91b7c9afa5; 0x5d495f7011e54f9e; 0x37f1d13a1086092e; 0x46a4c03efceef06f; 0x670d13d9cbf169c4; 0x7006ed78a684bc35; 0x64994cc0abedfa3; 0xb4fe3a153e4c6a1; 0x4a5f2126568cf954; 0x3ffaa3ca2633d7c8; 0x2b910b472fe1d82e; 0x1286cea90e72e627; 0x3d11bc5af7c4a84; 0x3ecbc2fe2a206a30; 0x2218281f770aefa6; 0x2ba38fdbdfc5e61a; 0x6af577dc43966104; 0x9af47a56e71d298; 0x46f8816eafb714ae; 0x17e00efcb3d533de; 0x5113e1e97bddcc91; 0x76b84d1167c7afce; 0x27151bfd82f5d652; 0x47a4d13790116996; 0x2fa4fcc1d855ff88; 0x3ecc7ca84e7e0d25; 0x4a48488de2d75694; 0x6df323313481a079; 0x698969545223e1bd; 0x4a63f108777501b7; 0x4b3406db30c7d7c5; 0x323298cf38652ebc; 0x4acbb36540d2c2fd; 0x17329b2e1a5d2deb; 0x489b597f731ed542; 0x2fe68e0d61327734; 0x4706f5ccf194bf33; 0x4938ca6e4c040bb7; 0x1ad1b0c675d54261; 0x72649a29da7487f1; 0x5582b30802350f60; 0x943438b2c0231d0; 0x6f65ab9917a08dcf; 0x4bbc364a89778d8c; 0x70ac28ddfcbe868; 0x7595c2f6c83a8cf7; 0x33c392492860117d; 0x7b827d2da04cd26c; 0x3c7c9a9057877280; 0x263d25f774ed9575; 0x17e384adf348eb08; 0x78fadf802298d787; 0x50b6f08c8c9ad322; 0x66769141cdcbc678; 0x64a647ff3dd1a095; 0x789381e33ea9d33f; 0x54eebdc41b4d9aac; 0x6955d667724f9317; 0x47cb0a4dc316c94; 0x1251b11bacd7b99f; 0x67c7e508ec1e6d27; 0x36bb02b9880db37e; 0x348ee47e48a458b1; 0x5cd473006118cef8; 0x55393120b058f120; 0x16abcf86ff8fbf2; 0x136925749caff64f; 0x22592af3bb75b903; 0x27df68f5ea9836ec; 0x6a9d8a6ee077786c; 0x1c9cb1aaac1a9364; 0x776b72bd31afa2a0; 0x297b5e933aaffc12; 0x1a315ead462665e4; 0x2170e1d1d4509067; 0x195949ca0d6f35b8; 0x6416acf21ae39967; 0x6124b11e62e4c72b; 0x3690314cd87c819a; 0x69c34705a9d0f814; 0x60bbb76975651330; 0xaa6881a3e9332a1; 0x4301470d09edf76c; 0x54d2ffa629c094de; 0x3ff01351788a8a0; 0x54262f56a25295b7; 0x7cd2938e73c9097; 0x4e5b683f54c79de2; 0x665d32bddc35d4e6; 0x265255e590d14c9c; 0x3231a5a61456fa90; 0x68766d79cd7bf4e1; 0x7505e0b636343121; 0x2f2564287a58df57; 0x7459e3a167681f41; 0x71a523c2d98f2e58; 0x793c4a225535ff85; 0x5019df6b11bf8f5e; 0x7303c3a9d4057824; 0x485680c9bcfbdd85; 0x43b2c37c7b4d8687; 0x4a47ed3a7eccd8a3; 0x2f01d70b289ac88f; 0x7a3a2ffc86783434; 0x3eb72a93e5362c8d; 0x765a35c342b86f69; 0x46c54e96e066c8b9; 0x41dc81ec7ec04995; 0x6c63b713167f135a; 0x918a4425e9542ee; 0x6ae448df4d35b23d; 0x2ea55171d499708e; 0x54ccc6d1715b619f; 0x161c6b0659a72166; 0x65b56548bf826190; 0x2b0852e490903b69; 0x1a18a22181f2f1b; 0x4aa8a899275e5ef2; 0x3ae9856d57cf8f7d; 0x8b832a2ab57eefd; 0x27dfa45955c9d47a; 0x101c38672ff1180e; 0x610bc5687f37e755; 0x2ab66271df3b026f; 0x59b9c07aab2b5c94; 0x6563af5b396b24f8; 0x6da9af507efa228f; 0x5b7889edc267e420; 0x1b1d16962b0d10; 0x50b1bf31f8fa5dfe; 0x6c3caff2b8f45221; 0x4b6a41a30dbfa61a; 0x560b9d99ca17c6fe; 0x3a620ef0955423f2; 0x5b9acc99d1ef93df; 0x251f75e896357247; 0x65620fad3e3966fc; 0x2c52c0a8709cea2b; 0x63cab753dd639678; 0x5f34d085cac20e5b; 0x19caecbd12c38649; 0x319ddf9c4f956dcc; 0x15e0783eabbfba63; 0x659692f9abbc2c13; 0x60d89ca4431c4865; 0x475e814cf2555363; 0x24c0d10592f08b1c; 0x29c5a70c92c559aa; 0xcd45c9447540350; 0x5ab27a986e9d7c0f; 0x4fccaff67058e945; 0x41d518a94e5ac5a8; 0x53894436c38d70ed; 0xceadf8942c9966d; 0x725d728e6fefbc2d; 0x62dfc1df25354c7; 0x1f35f717560f2e36; 0xd97bb049dfd6bd3; 0x59aabf15ad3f3769; 0x31b27ab1a53d470f; 0x1c2783c7bf52b674; 0x185580a14e29916c; 0x45fd91594d01ad1; 0x37189f85486c85f9; 0x6fcc59c335d7835b; 0x123480573cfc1510; 0x3bc0dfe3d8afc921; 0x1431e932c9e3d2ea; 0xa510b0915b95b43; 0x4873d0275f233439; 0x4326d82e47500f93; 0x19354e9063b0900a; 0x1cc8e385e65e5423; 0x1adbb94432fb4c95; 0x408e1c3e07eef257; 0x508334aa5169045d; 0x675a272815783e1b; 0x467eb1531f013675; 0x405b8a6911e43c75; 0x402c31582c0cc76d; 0x4178644a78893604; 0x22ac0f2023072a76; 0x231a18cf088cead8; 0x218cb6bd7c409eb2; 0x2cf1651237b5809e; 0x6f1ad6b62eb85014; 0x7f3fd5c73208ba65; 0x3e1b4a4646984dce; 0x369c44f99c9d2833; 0x10370644a5fefb41; 0x34ca18d7ab2a3e99; 0x5d4129029ae5ec48; 0x12550314643de5b0; 0x4d1e794d7c09e854; 0x6b1d2902775917e0; 0xdce1dcf7be5f0fd; 0x1f7d084fd384acb4; 0x51453bff294f589c; 0x17b58d205ac6fe3c; 0x6acc3bdcf86137c0; 0x341bc8bad108a660; 0x26afd504ad8012c9; 0x5b6a97940f2d25a9; 0x4952bc70a520975; 0x34aa7b8e568f0882; 0x61ac4bb4066f828; 0xb9a402137200f; 0x4b33316ff15e54d7; 0x334cdabf95961ed; 0x5a9459de32191655; 0x77f6dd49a016be1b; 0x6622bfd63d22f9d5; 0x7b05b2ffcdf9a1c6; 0x2ba4f67f8af096fa; 0xcd05ff1e83d0398; 0x7363c754ac79179c; 0x5c7223306d6f290e; 0x4e2fa4f757340371; 0x7d0f72f142749bc9; 0x4d9a5baea2f43428; 0x61e349b06632a3d3; 0x723b560896ce0dc6; 0x258a7544f894973c; 0x2c901b852fbd745a; 0x60d7b5f096e66227; 0x1d3325481930b418; 0x2d3aa5e2823021c7; 0x2845e19f735bb13b; 0x3daf9c5726b63b8a; 0x825c4932e9f4160; 0x454a2d98ec9d13e0; 0x7d0c7f632dc2379e; 0x2d365c0978827a52; 0xf18342a5f1be57c; 0x35da4bf4964d4b5d; 0x72560d8c2a7cbf5b; 0x6a25f2d33dafe990; 0x65eba8f6c0058116; 0x594558761b89d19a; 0x32ca03da61321fe2; 0x41e7dfdcf367e911; 0xe75d8909d20ad15; 0x4ffc040c405d4fdd; 0x742e916a5cd22e23; 0x4c21106de626fd0d; 0x3f8536fbc65ef70a; 0x2ca98fe32bd59fba; 0x7f42a50fceb3675c; 0x4c52220a22d88740; 0x52ecdae305dea62e; 0x25cd8eb93e7b1b16; 0x5f281c800ba34c0; 0x4a30699700dd7a0d; 0x335a65e43f3a1835; 0xed8e3a8100df288; 0x7ccb8fc43393dacb; 0xbf803c31400fd68; 0xeefe5050249b0ff; 0x4e756dfc43f37fc8; 0x6ea8ac3f369a1887; 0x259261bbe9622f8f; 0x113d05074c900281; 0x29582150351226a0; 0x23fdced5e7b10bd0; 0x7d952a67e1aa2e15; 0x7071b2c2eb41270a; 0x306cbfa4b07b365; 0x4e5ca015e389a1d3; 0x6207b5084d8a798c; 0x6b3d7a44145e4856; 0x37203e818c7bce1b; 0x1f9fa476880f9f42; 0x790f4abdf82f085; 0x5a194cae5dc1e5bc; 0x4758a3abb209c91b; 0xd8c3bc79886fb44; 0x3698c5426f2d5076; 0x733fd104ac9ad54b; 0x7f8d7f49f823f563; 0x36e4b37481fad88a; 0x2c924d50bf5c9eef; 0x6e8a61f461483d83; 0x1f63df5443c13a12; 0x3cbc7065ea7d0ebf; 0x25daf6626aa7380a; 0x442cb72a415cda5d; 0x291697731498e900; 0x72e922b7d886f4b2; 0x521051af741e2a57; 0x689f10f79fafb59c; 0x22eeb968ee509cc1; 0x60e7ea68bdb920c6; 0x62c83538b53ad0f6; 0x767d64b8dcd4a46b; 0x5ca80075494b7505; 0x591910f4c6f58f; 0x72b38a07d991edf9; 0x6d3a9a9b5e22111; 0x7e40299adc7716a7; 0x7621bc9ef380aa77; 0x5ad5c5456a88826; 0x16e0a49e43688efa; 0x1ff9801998607ff6; 0x4cc3c0c3333f00f0; 0x6619861998181e01; 0xfcf3c0fcc30f0f0; 0x187e6];
   [0x638e689ee183397d; 0x7b1bf5fb0107c063; 0x3be543b8d2251906; 0x5a82e2569f7698c; 0x3c1d70c0ebae2c3d; 0x1916572318588ef8; 0x721e28d2568bd098; 0x493ee796cbe01446; 0x5a3aeb21fd920577; 0x7bd056c5434b3c1d; 0x5170de7316a2b460; 0x15790333e3c31605; 0xb8c6cd1c6cf1cb9; 0x694100caf8d6c8b6; 0x5a1de6fc5f3d6fcf; 0x47f9660480f98f86; 0x14af0bbe5127f669; 0x654a8ad3b06a8693; 0x31cae4d7b3ee0e3d; 0x531b9b04026f8723; 0x1d4e45620383e8d7; 0x45c31dc43cf4e27f; 0x608e306819f2767d; 0x63caad45ba5556f3; 0x7b901a395edf0c2a; 0x39df1b32c9d9f71f; 0x1780ce6c59c38b3c; 0x12815f88f6647e4d; 0x455cd3b1c36f587d; 0x538460fe35ed7466; 0x76cf31cc832681e1; 0x73ed1179200fbd32; 0x79a054ac547182ba; 0x6a1c961dc985912a; 0x564998c850add6b3; 0x20cb229b4fa9b334; 0x1519415e06aef804; 0x3b8b9129d5d52c87; 0x5e74199b12142ca6; 0x22ec257a68a8144c; 0x192f8c6666f74a13; 0x499d97529bd5085f; 0xcf3b9ba1ae78b9d; 0x37ced2b92b4ba0d2; 0x2fa7cd84d6539d08; 0x7ae07f94bc6eb356; 0x47f8cc1b0657df9d; 0x3715627cd8f0844b; 0x35662b6345affc62; 0x6bf7b9829fe2c6df; 0x3a10aad1e935d672; 0x20fb5659fab18f2e; 0x11d94c085acd633d; 0x76c01cce7668df05; 0x46b46bd94fed91b5; 0x87763879f3aa695; 0xac34c8a19880ba7; 0xee60953b6318f9e; 0x297c36599ad486e0; 0x2d876f2683474924; 0x597ddb8d2a1ebd3c; 0x58256d645fe0b048; 0x178aa6f725e43ca6; 0x4df6338b98511526; 0x63f89276c0735c45; 0x46365b95740f152a; 0x2bbf3317201580ee; 0x29e9f5bdae6e05e1; 0x108ac0563d7b52d4; 0x71e3759a16f70e8f; 0xd1094963aedb634; 0x68e4f781e0477bfc; 0x5691842158acc731; 0x78c1d2db7a2f77c1; 0x7736761b777b0c78; 0x1d46f9ec4f6d3fbd; 0x24a72afc8e2120b0; 0x32d3a233634c3cbf; 0x73aa4eba6f334a5; 0x637ddf3b8936c2da; 0x715775b24387c7c1; 0x7020898a577bfcd4; 0xf8ddf340291a464; 0x41364dc6781ec717; 0x36ef41ca82939445; 0x634ea6e5be2913b2; 0x5a0cf3f55c783263; 0x5cf1938aaeb15ebd; 0x48a675b09f3467b9; 0x45778d3fda99301f; 0x6d0e503b879423ad; 0x17fbdf6e3ea2d4e1; 0x570ed3fbd7a5f6b8; 0x298c95eabfe745bc; 0x49754cbf1355a248; 0xc90cae26c04deb7; 0x7bddac70f248192d; 0x42ad2962b2514eef; 0x4b47dc7597de08b3; 0x3aac483f222df74c; 0x68d5fbe2eabf903; 0x20e0bac985aed9dc; 0x5081b7397b145f0; 0x103bf29639b4e3e8; 0x4a421dcfef52b54d; 0x3b397ed84a9ba76; 0x64b5e53f511deaf5; 0x544bb936200e74c7; 0x18ef53db011e71cf; 0x71724d7ceafbd2c; 0x704ac0c43d79094f; 0xa2e93c1e7969439; 0xdbdba9dd36d7772; 0x4ee3b6729f78f043; 0x192f81b5370a86c8; 0x3c01c414b5bddf60; 0xbda345df0e70fba; 0x6c9fc99010f983a7; 0x3c63a28e6cfcedb8; 0x3bed83d10c6bd3b3; 0x66de3611ab0c1b41; 0x324352ac14efdd6f; 0x706dfcaec0bfcc30; 0x68f41b4e52bc4340; 0x5261c111017670b1; 0xf5bdcf1ac8e303; 0x5d019408cd1bbaf3; 0xb976e69995ea763; 0x4c99046c501d42a9; 0x19c364eb0c2dee4e; 0x16149e9db6288db9; 0x279ebca72504e944; 0x378eb4c70da9a2c3; 0xa1b80f75a926336; 0x1385d948c50074c2; 0x66b41665bc60f94a; 0x3c34e34ec465a971; 0x1cf4f99836e4fcd0; 0x228f18105f720a83; 0x2251a4e268921977; 0x52ce4b3f5dfb799b; 0x1d58fa050170c24; 0x2dd6590502ab70c5; 0x1b8137bd951cde7e; 0x25aff5bf085f7617; 0x421b1d8d29c74730; 0x531ca7eb2c9156de; 0x6fd70b067b310300; 0x5c28ffc396ef2ef8; 0x41bfe994f6d7edd7; 0x74e5f085d858d4aa; 0x365f036745195d82; 0x307b32b0a510e136; 0x3e54a36de188cb9c; 0x7a08a8bc8d6a2252; 0x5bb2c9c0a89c1d37; 0x4c755d06bab5aa39; 0x625915ae407eaa98; 0x52ce73c71a9ef917; 0x78287f6129a3d163; 0x3ccdc7436ef463ce; 0x8abb92e1bf1098f; 0x7dada51f90231b0b; 0x79b2fe0c2078616f; 0x239c9ba3b8fa6033; 0x4a1346f674cb3968; 0x75b697eec7b5a71e; 0x312997f39374059; 0x5b31b0bd829bde1f; 0x63c309a2e990ac7e; 0x5b2c45f8c3ffc121; 0x17fdf903c20c9375; 0x20c35e802cedaac6; 0x689a05f0fb13601f; 0x262524d93f3ddc04; 0x391a14e831fa0dfb; 0x2b9311056fa08b70; 0x7ca1fe661d28db38; 0x4fad57acd93716ac; 0x77336906c7fb9465; 0x55ddafd961c47d29; 0x6835b5cf085dd96c; 0xcc1cab62979df97; 0x2a713c570f5ebffe; 0x59f0fcbdaf3fb276; 0x672c71890f394d02; 0x15fdde4dcf13041; 0x66efc54654ecb807; 0x7b574de81e75db51; 0x45bc8dceca8cbf39; 0x7dd6efacb06b5554; 0x31a7f2be2290fcc; 0x3d85fba0f3654dd6; 0x63145be8e2606a0c; 0x391e916045755ec6; 0x669a5159760eff26; 0x14f318163e0d4a1f; 0x47e8cd59ffddf84e; 0x20e1b0623f44581f; 0x1331027a1db09198; 0xfc1b07fc3ff1896; 0x66773f737f48d95a; 0x71aef8b0c4a5f9f8; 0x77895fe90892bfbf; 0x43fc73a029d80c77; 0x5c69051bfcb443e9; 0x34249e2d80ec1cb2; 0x343b0a656289f55c; 0x5d11f711898484a; 0x7ab943833e1d2e28; 0x4042c89336bab47e; 0x1a2e8c4fa34f1f5c; 0x513478f44f175797; 0x3712a0d84e3c19e9; 0x7f253b2afcdc13a1; 0x2ade16ab6ace5a2c; 0x6fbae68590d2c2cb; 0x22dc0186367fedd8; 0x718a65b6ea884c4; 0x7654ee891ec41990; 0x640aa2054fe2c15b; 0x7e18e3aa08daef23; 0x59034e9e2f8b379; 0x201a8f7eb4cb2c55; 0x64d5a754b59845b6; 0x6e8edb84d58c8e3e; 0x38445471815af4ed; 0x1481035360b39f63; 0x3d354c0f4811801f; 0x58e83313c4b4d81f; 0x14e89d5cb3cc0327; 0x581786c664e626bc; 0x4a9e725132b72256; 0x6a1a7888f07951d5; 0x20d3ba513d387dc3; 0x5e42055cd9f4b9fe; 0x502edbbecaea2cbf; 0x20b8e84e1407efb0; 0x47bb9ab40dddf17a; 0x92622f26dc52016; 0x44b2b8ba852bd409; 0x55a6808b7041c3fc; 0x1fabaa0796953003; 0x390bf4cd18ddab5; 0x51c3353b0a5b8aba; 0xffe1289968c98f; 0x2621e18e3b5418ee; 0x1e46a812c830a52f; 0x47f063375c910586; 0x4e4e23fca93a4c79; 0x6851165f5af63e7c; 0xe8b5b62c594739f; 0x4aad32a1e7418cfe; 0x2cd6ff1d400b33e0; 0x7564fe4c20d11afe; 0x44f5c8ab79b37885; 0x59cfd787ffc293dc; 0x990a51bec873d47; 0x761f2a288d28ee65; 0x5e2034675686cb40; 0x2a7659229428e52d; 0x3448b9f24c6cba96; 0x27a7f4d5938bf22b; 0x2ad3745ee8de8bac; 0x788c03c50b054df8; 0x5cc09d3f54acc286; 0x5be086144663237; 0xf4afb3f753f88b0; 0x1180865dcf8aada1; 0x421894e9b3beed74; 0x3702623b28eb9906; 0x7231fe0a522ecd21; 0x342b2c822caa237; 0x1251f302aabb5f54; 0x17338c812f2721b5; 0x2a8313dbfb96ba3; 0x6a11db86ac0dcbe; 0x228cbd9e64ca3f3b; 0x663bc697ab1da997; 0xf4623a0e9e7d43c; 0x216063f730b5fe90; 0x58cfdaa65af2176f; 0x4f4e953566986c1c; 0x57e23a72b7013d89; 0x161cafdb8a05f2d9; 0xfd203001eb4271; 0x66e1be083e458f5a; 0x1eceae9af8633aaa; 0x4e1b82506215ecdd; 0x3764ab5e740d3d2; 0x7baf2366caaf008b; 0x965406a570c1cb3; 0xd7a37e0bc7ea469; 0x54ba221129d3cfc7; 0x5d4bc2b8a24c950; 0x5008f45ba1d3b0f1; 0x2354857afba2928; 0x2b581119006faacb; 0x6a22e03e745489b9; 0x217819b03ce94974; 0x2adefefea02484cd; 0x66e017bd142a69d3; 0xeebde63efb09a8b; 0x77ea4db9304b5dde; 0x4031b24005dbbe; 0x58c0459e1c15604c; 0x28740a7971be9e7f; 0x233f4228ce99d9fa; 0x34b857299326f6df; 0x63b6dddc90cd22fd; 0x7b2f31fe105f7fbe; 0x7c7acf31ba958629; 0x26e089e855c798f7; 0x7e1981987ff98751; 0xfc30fcfffc3cff0; 0x181e61e787e61e66; 0xcf3cff0cfc0c3fc; 0x1f9fe6];
   [0x6fd4e6acb5be6d2f; 0x37778c3907ae3ffd; 0x78723755d8254159; 0x19916a7bfb22529e; 0x2322eb5db3360780; 0x5c167c3f085e9c4f; 0x389f45b296120d5; 0x153dbe9b86b2d16e; 0x778f74d1c765f2b7; 0x3427c55462301c7; 0x32762db3a63cd240; 0x4e38b9403486fee4; 0xcfc87c9943514d5; 0x4b632e32a654de10; 0x15fc5b7048c10a8f; 0x1e715d79a7e27e6c; 0x3f413acb4ff70ddb; 0x67aea3442e979799; 0x326c38009a676815; 0x705071833272bc81; 0x7f756940ed04c9fa; 0x28a3a0b4293ce69; 0x2570fdba14c730fc; 0x6116ad0a1c7b085a; 0x33a06f5854082f4e; 0x4444e8b2fd823f3; 0x36295a31817d8eb; 0x2e8c89d1b571b455; 0x22cdf5e53fe1fa65; 0x1ec8ad7f41833020; 0x3a1a83414facf857; 0x7ca0b14fb2ec65de; 0x2028d83c36bfb153; 0x610d2bb62785cec7; 0xd8bea7166fadc64; 0x77ef920e2b96c45b; 0x35fbbfda4e4f7cc8; 0x403f70a9e7244e36; 0x20d12c9ddfe7dd92; 0x5db2791fc57ded64; 0x5b5ce92d7cac0202; 0x1033c7c39e060f10; 0x5c0314d7fb35ef67; 0x2ab230d0392020f6; 0x294ee979f0d30ecb; 0x3292229d0819960d; 0xc7e04dec68703a9; 0x2c2ba908d14100f0; 0x2987eea823bd76d; 0x5cd7b0218e81ac4c; 0x424f96267858c001; 0x540ad205522285a7; 0x602fc099d3f11395; 0x1789048bbe06215e; 0x5114af6be5fab411; 0x466e8dbca0dcc2b7; 0x433ac81ef5336654; 0x2142f51c3a4bf66e; 0xcf173a659133d36; 0x1d2d23dbe8c56ad3; 0x75d886b01ba8b96b; 0x9e6ecc13bc146f1; 0x23f755da68f7a57; 0x6eb7cc2bec0168ba; 0x10067c560b3300f7; 0x2b6d9efd0f464128; 0x7255057182f4a02e; 0x6cedd2a8d2fc0014; 0x3b5f4708cc2c7a93; 0x790b43f4baa26316; 0x7a4566f7ddc52e56; 0x4439678bbb52f6ca; 0x1f46186bd2e2a9e2; 0x4ea2206b469465c0; 0x8a1515fc98a588d; 0x2f18c47f011d8171; 0x218800de240635c1; 0x70313f506ededa83; 0x43e14fa46b353c61; 0x618cc1adc48d802; 0x692287a52bea6df6; 0x39c6397b910b2381; 0x56baa300a89dc1c7; 0x9e5cb8a22d9bb25; 0x53c669d6288296e0; 0x3be41450ec0b678c; 0x77f1415ead25d09d; 0x66322590209beb0e; 0x326bdf8f1c7c1bf0; 0x6f58dbc45c52c253; 0x672ccb56b792d9a4; 0x5a9e1fac71b4f2e; 0x56d6526daf042b04; 0x4813b7ced28b56eb; 0x42118f4fd864cc6; 0x287cb5eeb51b0b82; 0x218df36e7176709d; 0x56718d92befaaa1; 0x24ce1e1e32590493; 0x464e5a630882af8e; 0x63482ae18d47f0f0; 0x4ea3f3491a717268; 0x3f021f0db428fbf8; 0x3e1d66bd4698410b; 0x78abab2225102fcc; 0x2037679201b37dc1; 0x346be85681c21e2b; 0x28a735b0592ab2d7; 0x288400fa11cbbdd3; 0x4c667c2dab078d17; 0x7400ba1d3af91229; 0x423b7ecfa11a2eb3; 0x20cbf28abccf519e; 0x6855ac79cc5d88dd; 0x2fbaf667b881f72f; 0x6cbd2e4ef6c9e4a0; 0x42ffb567e6f184ce; 0x575879107c9ef71f; 0x715da82a06db593; 0x49cdb58335ca26e2; 0x3e827e870529e217; 0x3df468b39706577b; 0x14c8a6814354f7ec; 0x112c781776c3e75b; 0x53107d823ba302f1; 0x66e025100161d12b; 0x60eece9a0b1a7569; 0x321debee87b21304; 0x885880df7d01967; 0x7631fb11bb11d23a; 0x1df5329a40b110a3; 0x71c91864ff72ebb4; 0x7d0318f482b11045; 0x4249db5f069910b6; 0x36a5decb8c433cf8; 0x619edc76587d57cf; 0x1bdc424ac52a2578; 0x17cc4f8a8279b77e; 0x6d4966886b0988db; 0x3d1278dbb7240fee; 0x158442163347fd52; 0x3740955fd6d685f; 0x701de083cb54b4c5; 0x187807ed2e6dd7df; 0x5da6b661b695b35b; 0x434852a45c369556; 0x39699151be6a0ffb; 0x2032f43fc0bae07c; 0x1de5d38365a88584; 0x523105e6cc776df; 0x100a5392b23e8a5b; 0x2faa3f1bc88c95d2; 0x11e84591a120451b; 0x24dedc75bff96c90; 0x4032290c5abead7f; 0x3762975316d19ae0; 0x643aa69d56c7301; 0x110661e0087725af; 0x7c1ca1602c96af09; 0x50c918127e25e129; 0x7d1f9e8c6bf93253; 0x3961516c863a6748; 0x4b4784fd3facd375; 0x13d1236f8c67d449; 0x5ef9ae1173e27aca; 0x3f6d314756359ca8; 0x681e31fc9e04b3df; 0x357d6c5bb54f362a; 0x241bd4b672a8d02c; 0x1991176951859f54; 0x676ba2e49ea4e1e; 0x72ebdc0ea25d3d92; 0x738ae3248fd22c9f; 0x3ea974ccdc8ff1cd; 0x4dd91c22804d1995; 0x6cb99d78297b44bb; 0x5316a2844009c796; 0x2447199f713e7e6c; 0x615c42137e62efa7; 0x2103a03e29ca751; 0x2792d252a1877ad7; 0x63ddbee6c95dc2af; 0x693c6bedcc6ff071; 0x53f773ff3fca052d; 0x1ed8f880d6335746; 0x18e27885535a3f87; 0x12fc739ca74dc6f9; 0x422931660009ae8; 0x35282a9fe08d335c; 0x5e3b51ff99e55d71; 0x41d850e7fe9cd2b7; 0x5598f71410e3f9be; 0x44e5703d006f522f; 0x16667e46fc905525; 0x6ac8f1cbb1a1e288; 0x7694528574b05330; 0x2cc59f9b22c8070; 0xf35d7a5a05dcff; 0x6201fb177e6dd518; 0x1239dd3665a70473; 0x2f65edf79826a871; 0xc172dad4f5f2765; 0x1dd8c418c7092ca6; 0x2ba136cf650a01fe; 0x9eff5739e94fdc7; 0x756d7059f3a4d26e; 0x3f9032a117b3ab48; 0x426d22bc5ec069d5; 0x74f9e2df0210ba63; 0x5a479c86cea35e1c; 0x474d6d7327a928b1; 0x1abb567f18b679e2; 0x36f78b1f06f68a7d; 0x1efffc96f0d54f36; 0x7c797b04dfb0d3e8; 0x377f8be66fe97de9; 0x708dd4f19e53faf2; 0x646c6a864aba0365; 0x5639a21fd2f697e9; 0x2fa0a3e2ee8aeb6; 0x72b2234c2f15d772; 0x744e981b81fff4d8; 0x1e5201222970e53d; 0x31ed28fc8cdf1f5; 0x6870728b0c6d41f9; 0x545aa92fc3b5ef2e; 0x434fbe19bffe262f; 0x19f0fab9b82909fd; 0x23598693644818ce; 0xc78285139cb2d39; 0x3cd4daa9c4b45396; 0x3726a4e7f82122b8; 0x67d8b78fe17891c5; 0x422494bdb6ff4fc9; 0x75fef2cc59787154; 0x55bb87f16ba48475; 0x7fef79ec60037fde; 0x7b78f462033b195b; 0x1278230ce3a1ad8b; 0x14dae970996533a6; 0x719f167188af3221; 0x224c9db5771a81ca; 0x5a7ec0f9aae4a41e; 0x144fce28039405df; 0x7bb13da25e0c6c57; 0x6faa50cdae69d81f; 0x52b71b2cf096c157; 0x5b0c7b7934d7927f; 0x5d4418290bb00eb9; 0x636b255377cf73f; 0x2ab800fd88a7fa6d; 0x78ebb84a0f0c625c; 0x25ed7ec2f0feb363; 0x146d322bd6f9bd35; 0x4a282c00b7009f5b; 0x4d16480bcee23562; 0x2f554594926960f2; 0x3fe447ac2db11bf1; 0x7c73ef7d11ec16ad; 0x39721dcbe3dcbe55; 0x6b44f7d6d0b5c6a7; 0x1560a46bbcb628e3; 0x1c49d840e46957d7; 0x37a5cb796097f56c; 0x3930a31d0178c95c; 0x46a97f9112bedfd1; 0x2c0260e455e0c743; 0x54b32e079524552c; 0x6edd3384f3c82592; 0x50fd7a70372c2656; 0x2fe72be5ac8c689c; 0x78584a886074e904; 0x20cfb90948a3d205; 0x226b147cfada9fc5; 0x4413704e9368827f; 0x678338585f0597bf; 0x73640de65799027b; 0x510aac99b980e3ca; 0x2ce8020fb92f752f; 0x6aedc95ed5e1c96c; 0x3c7e1fcb9173fb67; 0x2c50b1069e7b4265; 0x703cd152f388a31f; 0x7be642049aa412fa; 0x619d5faabbda3716; 0x2a2bb8c2f29c6d50; 0x4e243af23cdf3dab; 0x5a392701c4f07770; 0x2560df95c2be3033; 0x10bf9fcc406f4b03; 0x4182a9ae2a560ccd; 0x404dfecf66e84223; 0x6ada71d5d414daf8; 0x3bc285561c8251e0; 0x400ed25c48dc5e78; 0x687133253bcaa7d9; 0x1a854289763e98c4; 0x2d46a61c68703fab; 0x624801ac88e3abb0; 0x2489db4a795120d8; 0x3647d558a7ef202; 0x5cffc6c4d4371027; 0x7fb09c8253b9b309; 0x4645d5155f0c85ba; 0x5784e276412a8fce; 0x4619161e598fe8ea; 0x66c243d65d97361; 0x4df8d722b280bf9e; 0x55a0f5e367a4cb33; 0x4f4e0bdf924bcccf; 0x20f5ffd010c26844; 0xa2d67758fafb7ff; 0x43cb46ce1070ba87; 0x1fe019867f9e623; 0x40cf00cfff0c0f3c; 0x7807f980067e07e1; 0x4cf0330c0cfcc33f; 0x66001];
   [0x21d1e5e673f24e03; 0x27d66834e1490c9a; 0x141efe65f43742fe; 0x36a8bcf76d64ec2e; 0x5df6ae8f0e72e87f; 0x601f884be24c9259; 0x622daa450b6f8f71; 0x681ca794a2030d72; 0x59bea9af70c9903f; 0x5378ae966ca794a7; 0x4b0ce416bc601fca; 0x770985b887cbd5bb; 0x29e8dbbc80c1728; 0x35961fe48c7c218d; 0x43aead4907aed05c; 0x2b5c79260d322f59; 0x4755ee2fd16711ed; 0x14f9d978bae34aa8; 0x6e57d704541196d2; 0x4b87a8ad05c7ef50; 0x3b98635b49345d53; 0x6d4c2e06761db703; 0x5bfacebe3a5618b9; 0x2d31284434f036c0; 0x6e264964b28cbc98; 0x2d6af909d395359c; 0xeed15d44573868a; 0x26dbb229c6d722bc; 0x640645b93e465356; 0x41aa21033acc1456; 0x36826d09c8c306e; 0x3b718bbbdb520d45; 0x38cae333649c1b1a; 0x1e17c9d2a93aa1d4; 0x27d0d56a4ffed60d; 0x7a985372a5b46e7c; 0x1fd7c3f26a0be77a; 0x32283e3b35f5e7b6; 0x4e52e26f178b5933; 0x7a7df31a3a8ad7aa; 0x7b9d254c97a1a242; 0x4a6ed9f17a1c8305; 0x660989000165e885; 0x40669deb77565f29; 0x475519c804cc5257; 0x1b5d7d165885b78b; 0x3b85445d61968aa9; 0x39afeec58a961f99; 0x27f85c5dfd878a0; 0x748f6f0cbbce35fe; 0xe166dbf82da9071; 0x52d1da00a2bbe443; 0x32b76008e8bff600; 0x61284e96f7f57b5f; 0x4a39b60ea250fcf4; 0x4cd41de704a350fd; 0x3431231dc5763a40; 0x4af3458bcbb45050; 0xc09d90deddddb49; 0x10bf970403e7014d; 0x76240d6f7a770fcd; 0x71d002736d868dba; 0x1f0faa04f21eb413; 0x1c612efbcac0f553; 0x3b8a4f19c86b7ffe; 0xe583c39f9787868; 0x702a20120e66d3aa; 0x130c80ebe6395e5f; 0x413d9fd32f0627d2; 0x760a1a9874a1cf3a; 0x22131b685d09cef4; 0x7d30a86319ee38fa; 0xbbcbdd4d3fbed3a; 0x4e8d7f05cdd579ad; 0x63369a6fb6a24518; 0x62e434a972b1d473; 0x4434c6cb60941a62; 0x7445763d77f420ba; 0x23694248c9bc6dbf; 0x3c83009ad025e1eb; 0x6297cc39a49cf8f5; 0x58490757b08497cb; 0x50f348841631189; 0x4f1bfc00a05088e0; 0x2894e589fc2ce9e2; 0x16b79bcd90c76574; 0x1db5814198420df1; 0x1212ca61e95c5687; 0x7e062f96054af9e8; 0x435f72a1b1df9688; 0x13ec48e8738e20b0; 0x6acb517d0d6ceced; 0x5383fec105848f3d; 0x7b87643fce8d088e; 0x1988faa6d29545d0; 0xa38392fb447051; 0x3366d3f740a6d6d2; 0x4e1120a3352bb53f; 0x13cd18cea0446aa3; 0xbd44cfe91132cb8; 0x3c483a8b3c87563e; 0x1c62edd08c351da0; 0x6bfb462c3426727b; 0x7b1db495fc480ab8; 0x971b3853e51d3e2; 0x7e1bbe69466e6bfc; 0x425fecbdd2f6c3bf; 0x1e924059027f4cf9; 0x37fb25d244412f9b; 0xd6d9363e2d9f3f9; 0x611a4d1c19097c49; 0x5831a971c0bdc1e4; 0x4bd7e3dc38e65a5d; 0x2a18baff9d717444; 0x6f379265a5c9ce7e; 0x484df0f36d0aa855; 0x41692cb67f78c30b; 0x1a4f05d5c17b87a0; 0xce241ac52d9be67; 0x1cb38d38b7962ebd; 0x2c6376618d1aee66; 0x1207466cc39dacd8; 0xbf062246f3dc8b5; 0x775fac2cb04d7d33; 0x35d94751dfe20078; 0x1b16f72115626a18; 0x771dc455d6cc957a; 0xd70659c1cf1c41d; 0x28f5bdf7f56b0358; 0x5fbdf2c631ad1ace; 0x654b91ad1fdf9f13; 0x5a4d436358b0b067; 0x11ee6b44e7722d83; 0xf9bac6e81246f6d; 0x7eafca3d76af7618; 0x56e29127b5e1112; 0x323a05b80e7d0fad; 0x38ae650db8cbe812; 0x64b76146be509; 0x473e46af236ecb67; 0x29b5b46b7a72fe5c; 0xfa07e914661ff8; 0x380c5c1f1821e09; 0x6b70dff901be3219; 0x49f45d6d067a2500; 0x392f9eba3a008931; 0x57bc7725d2e1cccc; 0x6ab8020032286a50; 0x5daa984807e3f7be; 0x42a6703bc0c24223; 0x6aa4837a7579e46e; 0x3206b6ff572f9f05; 0x6f016f28979560b8; 0x5f52330bc52600b2; 0x1be0e646e9f910a1; 0x5d1501f9c8aa81b4; 0x693b9ae83fa409e3; 0x79d5e33a2cf90d0e; 0x21409303f281bb3; 0x683f4df4dbed2ab6; 0x21332157baf16321; 0x15b4778155c6e62b; 0x363da45e6c43b697; 0x5a378ca2f82b1294; 0x9077064b640f1d6; 0x73ce0c0172dd2c3; 0x62cae7e97ccf3ae1; 0x4d00fbee35717019; 0x59bfbc0ac24aaedd; 0x4b79c070e3c92fc0; 0x5e3aae33cb58488d; 0x3ef76179a0ec2391; 0x692da94da3b4e6a5; 0x2c021ce89ab1219f; 0x1757c06661c249a6; 0x17a1723ce17834e5; 0x36c1883f0a653e15; 0x1f2187ed37ad8c88; 0x188b5468055c4b4c; 0x4df9f970b965962e; 0x794a1ffb6c2e84d6; 0x4f476beb9495ff85; 0x4ea19b57add17918; 0x1ac406404021f413; 0x5bdd9cafda6b42ca; 0x4a8d8f46afd4b234; 0x58300b9838fd9e5f; 0x3654012a43a977a4; 0x59a68dbbf1848d96; 0x1d7692a15b422d7b; 0x289f05662fd0da19; 0x7b0ec236a82bbaef; 0x21fdb2f7ee56ca4f; 0x4da4f0b2d0a31285; 0x331b3bd65860ee3; 0x3f0aa5a4cb1bdc7e; 0xd786dbb37ee4c6e; 0x7400c8510529f6ce; 0x56abf515c6e1452a; 0x338ded03a4d4484a; 0x1bb631f7a0a05438; 0xd2efdca3766d10d; 0x794cc13ef7c8114a; 0x6bd573e47a5b07ca; 0x2397acb6839f2618; 0x5b70be854a7352b4; 0x1afb230718ca21f7; 0x7d81b05ff50f4991; 0x3736db73ba957df5; 0x4292b3dfd8b2f38; 0x51f9ce4a3da08848; 0x5db0684acab78db9; 0x5003e8f04a65b3e0; 0x6727f247c99d74d6; 0x513e6668683bcb5f; 0x4fd0c2bfb7163dd4; 0x63e0f5bc42d30065; 0x4f500642ae59990a; 0x74376470dd49e95d; 0x69cd346365e04778; 0x6af8d232220d1fb; 0x1606049e8b5180f5; 0x7f1ed08c0130ae69; 0x5f43842ae7c9e935; 0x14c6fcc385bea66a; 0x7473ca98a7b68cf0; 0x1d5f1d9506af9945; 0x553197ef1e2a0b9c; 0x4804c284ee94439c; 0x393abb184dae31fd; 0x50f470df484ee8b7; 0x7435240cdc7ccfb4; 0x2ea672bc1305abe3; 0x4355371fd98d6cd1; 0x1a408f73e3c8502b; 0x4a2f435989448afe; 0x4336a5fdff74e36e; 0x216aec1ac66e7e14; 0x46a9c37866830263; 0x3eea5ebc7ac53d97; 0x5ffb3c45d698e964; 0x1f894723f9ca9aa1; 0x7a2756633e7a1f1; 0x3bcc4000ef00d537; 0x1fc630d401b6dab9; 0x52a80c54fe295c12; 0x71d9009d37a996e5; 0x5e7a2e4a68d60103; 0x1875aef258166f40; 0x7306fa3a20dd1b48; 0x750a0e58f9e1fe4f; 0x4831a41c32a8073f; 0x6de305c09733fdd9; 0x7cdb7017303bd6f1; 0x21ae5917ac11b952; 0x4993d711270ad6d1; 0x42c1a1277a28c164; 0x2fff07b8f9ba44b7; 0x74dcbe192d543da6; 0x5a0b9f691b268762; 0x37eb24c32b56c2c7; 0x78e8bb467744b465; 0x621f43f84eed1b0; 0x5bdc03a52ac88e80; 0x6de61865e138f020; 0xbda5a103f26c0ae; 0xdd1f46a34a4149a; 0x315e6462fc96e719; 0x36437de400e07d26; 0x60b33a5b3f0d93a0; 0x60767cce20d75f37; 0x2ea04157a3efed9c; 0x2a48708ffe06e5ae; 0x3e9be73f61171035; 0x6574dd7dda52a6ba; 0x7adef2aa91d92d80; 0xfe7c4c0e63df8b; 0x58d2adc01ac7e773; 0x60bfd7a921e5eda4; 0xb87a90ec31d9f08; 0x4cc4f792d7e92c1f; 0x59c5c4498ada78c2; 0x7e721d84647f3ca5; 0xf28703d800ace3b; 0x646ace604d77c5b2; 0x38509f2693163ef2; 0x1feab15b4a1bec18; 0x4e5b0cb1aed20fa; 0x505d8ca8801c8f33; 0x1ca22bdf7c32a232; 0x523c37e595190ae4; 0x58c16142dfecde05; 0x553d122a998d96a; 0x984f22ebe3d20c4; 0x208aa018e4d0bcc7; 0x2ec148c8858bf811; 0x15b659c456f1ef90; 0x6899c118bee22dce; 0x6a6437980de09ace; 0x45f4bfbf2bce9c7d; 0x1934a1b63c53f434; 0x52ab61a4aba6cae4; 0x77e79cefe73ca9; 0x359fad81eeb6b4a3; 0x5520ae15ed00cb76; 0x46931b562c4e3de1; 0x6ed345b3932bb211; 0x4a07aed0ace79091; 0x793e3e09233a5933; 0x7c42420f91afef2e; 0x59f4254330c88679; 0x509854df8e8fdea7; 0x40c1fac6c149cd65; 0x181e78781818007; 0x33300f0c3f3cc; 0x7f9e67e7ff9fe78; 0x30f0f03cf03fff30];
   [0x70b3449e96de7002; 0x396bb52de319e1e4; 0x3b3430cbc35cbd3c; 0x7ab21c0058517226; 0x115b789bc3118247; 0x24ccf0a1805c8b16; 0x5e55640f118a8e57; 0x11054de52f0868ff; 0x72dbfe1b2f76f790; 0x74745a25c56e0e12; 0x1e6e706a09a7d1dc; 0x74a21c77fb50bb86; 0x1bdd4e5d0f8d49be; 0x790e8b444aab0777; 0x7484424a083573a4; 0x6c7c562dc4d6b490; 0x5bcec5cab63e862a; 0x27e603c69e4bd329; 0x67971c32949c2f17; 0x1613308dbb3b903c; 0x4df3869fbaba8ddf; 0x195b357c6aa38037; 0x4687a66c4bfeca74; 0x70c7fd997a8c266c; 0x25b4c6cbf3b4b089; 0x3e3b2c7794ea88a; 0x7aa8e5304dec068b; 0xdb414b004a95357; 0xe34f0aa92381e0e; 0x6ec21ce2d5846715; 0x300c9521f5f822ac; 0x29d3305d67b213e; 0x6799fa88fb1888a4; 0x6f2a528368d836c2; 0x48fe5a6b90f7827e; 0x36e4ac45b9883c79; 0x3f42793a2f8a00b1; 0x2bffdcea454ee8e2; 0x3a0f3d651664c64c; 0x64ff8740b7d65493; 0x76c749c1439fcffc; 0x1c3cc4492b2b104c; 0x1e5161d3ed330515; 0xfbb9a7b86fb7888; 0x42ddc8d61c4a00a6; 0x28444cfda86590f6; 0x2e7fbd2815ca689f; 0x222105ed7aea69e9; 0x78ecb870d854b924; 0x24ef79422a4abe6a; 0x214012de32d54e43; 0x2bd42fc9e821adc5; 0x6e47ad29d003b457; 0x1e4446da57d70064; 0x5654f07b1d3cec20; 0x138959258d139f82; 0x3679f8b9ba089a82; 0x4364ae7b7d99491a; 0x1abc9158da061267; 0x3993009980d4360a; 0x231d07e33a16f60b; 0x3081b755106a7f6e; 0x1c48f708e54f0e47; 0x44876c6c19f19367; 0x34d7f7fbe76e7fb0; 0x23e16d191e332a12; 0x4a9ac82da33b6084; 0x263ce51a5b24a370; 0x1b09a0de4e52ef0f; 0x5498c81322abc60e; 0x372f3b21b250fdd2; 0x65abbab9e260fb12; 0x4a29f37664498a13; 0x1dd659e6d3e09aab; 0x3e44ff8681464d91; 0x5527842436d116bd; 0x41fe7103b997dd2d; 0x777476d5c7ebacb8; 0x33327e7502aad491; 0x3807bc6f10aaea58; 0x22f8383deb75f34d; 0x1b49bcf8edbfa3b0; 0x2f4b059ee5c54fbb; 0x3108f1ca2e0bf82b; 0x18bde02cf85e2187; 0x7a888840463d8c30; 0x38d962ebb5bfa316; 0x64d5a3ee9ded6f53; 0x5b4b71d9c14a01d4; 0x28e3ea40b025a410; 0x50ad086f98165a08; 0x14e5478f80f468d7; 0x5523695bd54de8f3; 0x7c5059ea376df98; 0x65ec2489ce1b6131; 0x83f69b71998d0b3; 0x2559feb7dd3abd2f; 0x56381abff59385b1; 0x6ab61da0cdd2c55f; 0x7067bff8a551f089; 0x33e36179a489736b; 0x6a709a1d4aafb96a; 0x12177e6d94a2c1a6; 0x5244f4460a6361d7; 0x6c22a5185c007e50; 0x418c53c51b178143; 0x1a4ecc75b00bfbaa; 0x39663fb5b8484774; 0x42a3559531235d1c; 0x6f3f66b1bdd74ced; 0x169964a55698baff; 0x681419174fd4c5e1; 0x419425b8b9d11595; 0x39f2ce71af0f4fed; 0x1dbb21cdc5724583; 0x66f6921257da511e; 0x549bfe5688e1edff; 0x1f782827f55a6655; 0x45fe373f7719c6cf; 0x5874c9f2b898cfb1; 0x59bbd6da6d546f67; 0x557355ee3763e8c5; 0x64ae02059fee6504; 0x50527f029c8e2fb8; 0x5fedd6f0ea93abfc; 0x1987548013ce9e62; 0x2ac4d5c2c15c4026; 0x1de30b1abbf0e681; 0x5d6868f45acd1e31; 0x5d4963bf434d5f97; 0x3d4ed6de39fa82f6; 0x69e74e285caea97d; 0x511cbaef4072155a; 0x443b1e474cf253b6; 0x4ca8dfa34b73273f; 0x305eecc7501d50eb; 0x3f5cf7a9d6b9e94a; 0x5659645e1155f62f; 0x2b0bac751ef9d78b; 0x39bb450b988ab404; 0x696a4dbefc866d63; 0x46a3a17169dfee9e; 0x28ccbde17c2ca245; 0x43d415aa7c683a81; 0x6a6992fcf8a890e9; 0x38b1531384540d0; 0x137642f379bfa9ea; 0x703bb12cef9fe4ff; 0x3dc64c53d5f83e12; 0x3c0af7fd9aaab5f; 0x232dd70c8bbeb31e; 0x1900bdf7001c7f14; 0x23a5d7fd38cb5e64; 0x486e3d0349b573f0; 0x6978b7d78d58b8b1; 0x174fde1b04ff265f; 0x75d10ccc7e1ac0f8; 0x2333d174997f7a80; 0x37e21f81cf9a584d; 0x6aed326db5163253; 0x548e97b4857815eb; 0x79855342c1fafc6c; 0x182c8d2e58c49264; 0xc79927ecb21cc7e; 0x368e236e47e97ec6; 0x28866b3e951108f2; 0x16604695a4c541be; 0x4595bc767557e3e0; 0xfddc6c1600d19dd; 0x10bd47030cbd8ed3; 0x6dbe5a64a3d3d2db; 0x3b4c7a60d0464b80; 0x6e014ffb2f5ac0b6; 0x3bd7bb3e42416487; 0x1329588165f5d00c; 0x5f7fd82e85dd283a; 0x403c4cc279e2b6e4; 0x38f83390c5c9f04c; 0x799722f75a12928a; 0x3223e9681a7b1ff0; 0x3835e617ec1f08b6; 0x7ec8b072c318c79f; 0x44753df730b878da; 0x78f18e9e4563eabe; 0xd9c664cd26513dc; 0x938cb65b9af1934; 0x29817e0e4a64714f; 0x3a5dc100c1ddc8ba; 0x3088fe5f9a2bd454; 0x5fc12a007b80d100; 0x57dbeab82f1da9cc; 0x51f531fb2bd0d14e; 0x4891b36a47277cb5; 0x2e321b2fb6fe7a59; 0x3756b8bceb0de98c; 0x2e99a5661e3074b3; 0x5db83e4a05eae9c7; 0x712482c0f474d31e; 0x1402be8aa33cf440; 0xe05a0067c6b014a; 0x6d8fcf6d8037b0; 0x19381d80ac192049; 0xb4eae9786b9448f; 0x3a092884e5d34e5f; 0x41f93ffcdbbac47b; 0x7b8ca6a959a6b64b; 0x42a35cc346b2740b; 0x799001203ecdfd03; 0x6428ba8638c17f10; 0x1ea4da813a6a276f; 0x2d92d564086da018; 0x7b2305149be87e1; 0x3d62c372aa15ddc6; 0x75c986bc0138ecd; 0x63faec17d68497f; 0x1ef076cadca869c9; 0x4b94e6f3ba34e4ea; 0x3031880f24aaa836; 0x2bffe6004f01251f; 0x21a698b72b345309; 0x4f5112744bd02e01; 0x237b49676030ff65; 0x694d758c46797bdb; 0x3c1a0a72522ceff1; 0x2c469e2833543402; 0x18f08905fe4e4384; 0x3cd5d448491327b1; 0x3959e945a259f9da; 0x563005535fe873d4; 0x1f0bd9bbe49016f; 0x6cd0b564919fbe96; 0x4cb7fab04da97b9e; 0xbb6f3823b7aa926; 0x25c7f2a2d2774511; 0x156af16fc658b17a; 0x5b901fbe1f7394b; 0x236fc1e781052a50; 0x11263bb2d3a097e6; 0x204c53ec5fa5a257; 0x4894c4f58c28a1a1; 0x79dfdd6afcfc2a2b; 0x7ff939c338fcecb5; 0x2f6da160df8ee489; 0x2ff698eb76002c7b; 0x4fdf4b33c913cba0; 0x448f7163df7887fc; 0x42d2fd2cf94cc841; 0x167ae1df8a5ab1d5; 0x193aa88e0d007af9; 0x98b35908fb32583; 0x3ed5b5ed731f7e44; 0x66c5994524360705; 0x2a3dca919c37f6bf; 0x23e8f09584baad7c; 0x6ad077174918f568; 0x5574c946b62e6f89; 0x3a6d7beaeddf6abd; 0x1f5dd5e080c7a7e7; 0x66a915f0225c4d5a; 0x44e7a98f5e6544a6; 0x562989bb956835c7; 0x3e9828b7b5bcec4e; 0x72f23dbcd040626e; 0x4408c8fa56e7a07b; 0x24594f163a06e649; 0x142a1d227a7d54ed; 0x32c115f43bb4d151; 0x426d051d94b92517; 0x7cc9ca87c3fd0025; 0x6f55e488e0ebc678; 0x27765d66d8cb6db2; 0x3411deb510a04795; 0x7afc539eda0ca4fe; 0x70d9249a40b914f; 0x4907a1454479b8d0; 0x7a37327edd72f044; 0x642fe602fd146a0; 0x5c5d518474bb0ddb; 0x5a61501bab8faa22; 0x23beb5c96c296ebd; 0x2d6fcd610fe76802; 0x6bcf6b8cd86f9c1e; 0x69ddfd701dd31159; 0x4ab1e86d9c72ff53; 0x411df9de31310367; 0x77bbbd5c313e7165; 0x749cbaa14601a47; 0x420fa540a5c43c8f; 0x448f46d63520ff83; 0x777679c16ad41431; 0x178736828c279d06; 0x1353facebbae8a87; 0x4daa8828bad99e7b; 0x6783a2c9c6ede910; 0x3f98d80362168cb5; 0x528ffbf7e5f1800; 0x359711bfba0dc437; 0x44fdc523502cf0e1; 0x364eeb3ba282393c; 0x4f7971920a08f234; 0x332abcae73a4b2df; 0x6de955cd6daca13e; 0x2f220fb432e75108; 0x133ba227171168f7; 0x30436e64fec9a592; 0x3928b855d319c4e1; 0x18ab093dd60d8ab6; 0x988e5783f3a5c55; 0x78c28a269d81f361; 0x54c6d9cef96bcf09; 0x15d2ab84075a948; 0x388e21441f6e6f2c; 0x71969f9e2c5996bd; 0x187ffe07e67fe76d; 0x4fc3cf0303c30ccc; 0x7f87e19e00067987; 0x7f0f330ffffc3ffc; 0x19e07f];
   [0x6c6a5f593e8c5365; 0x2f444c820365b59a; 0x512807b2944955e7; 0x3eee86e4cfeec7a0; 0x1b2dfb8c0247fe00; 0x299cf911033bc92f; 0x5b3b68ad3d5e814a; 0x5945b4d061f78fe5; 0x107d95104c748954; 0x1baac8875dc79428; 0x30c88a27ec4fc215; 0x313694a0f5622221; 0xa2ee40b760537e6; 0x32d3e13c4644c113; 0x4adbf9c53aacb8fd; 0x2895a62c8adb8170; 0xb8d8dce744a61c7; 0x3c326e6977ed3fad; 0xdf6834e1eeaa501; 0x27b7f9512f36b689; 0x778059fbbedaf242; 0xf23cf7b51360422; 0x38e5b63e59fc5b10; 0x78272c7d1a942ad1; 0x16556a81f68e8fb6; 0x72a940ee7f1938fb; 0x4d00ae7739f11386; 0xace5779e5bdacb7; 0x5b5e5f02c1b1756d; 0x23bf9a60432f95f0; 0x47765f845ea24849; 0x2cff6aca642f34b7; 0x7aaf695d8fe8325e; 0x1214c681bac8c6d4; 0x1f0d485d4397728e; 0x22a20765d3fc614e; 0x4568509ea136aa01; 0x7db8f8f9ff0db1ae; 0x222660d116e56223; 0xd407e073f95efd4; 0x576b1733fd07a7e1; 0x66a57a478015ca57; 0x384734e29cbc8a2f; 0x27460cfecc133728; 0x6a74f4278f16d7e5; 0x6e328407ca693ec9; 0x2aebc02618d201a; 0x53369dff0a3060c1; 0x70597b9b24b25934; 0x35aa2afd72a9ef47; 0x152e29f8c2786804; 0x4ca68e6bcf73803a; 0x5af61ebee34d755; 0x44d2e2033f9eb4dd; 0x6cbbed72b131bf9a; 0x49a106eb3cad5012; 0x33fe7765af099e8c; 0xaa60955ba8ef104; 0x50bbb00e4f6ccedd; 0x769951bb9c50592f; 0xea97384a448ef45; 0x5fee49c3f600010; 0x36b800f7bd616414; 0x71117f75609434c6; 0x16576806faa71fda; 0x654d321709c07aa6; 0x45b9b212247c69d3; 0x3939eb2bee887ba7; 0x44a34a1ac48e8010; 0x6236b39ba0ed6bd; 0x636f8ea53a43526b; 0x474588278ce6a9b8; 0x5c71a9d6612c8df5; 0x2aab2a13be415da3; 0x4835594ec434aa3e; 0x2237f176e7b7160c; 0x2f64b170dd7881da; 0x3a351e34c5f07db5; 0x51899be371a91b6c; 0x57c8f64f70ac3478; 0xc96023e9a81c10c; 0xee2a2e0a7a1e9ed; 0x2f329ebcda9efbdf; 0x70d41c9e17956dee; 0x62b1b57e70a32db1; 0x2da514fd5ffa680c; 0x3dfac87c202e4b47; 0xdea9cc0b1e5065e; 0x59d75d72895ee944; 0x6422f43657d11a3d; 0x4826b5f984f344aa; 0x2eee88b302a9c30; 0x1bdda42a5a65cdaa; 0x1688b90d629deb4a; 0x91d046ab8e48602; 0xdb7a295b767b48b; 0x4e396f3988d24b46; 0x1edc93096143b11f; 0x7c6de6401716a431; 0x1ee9e2f0ae8a3632; 0x47c00c136368aebe; 0x67a419dfcb358b49; 0x1200b4c9e6e3e762; 0x18bb7c4ef244d5f0; 0x19e0393c19dd57d7; 0xe3693099ef4c4d8; 0x4462a7d9c7eec89b; 0x2fd665b266c93f50; 0x6e9c2881dd854671; 0x5717b723081022ec; 0x42fd34f7ef13a723; 0x674925e7967597c2; 0x51578ec075af1893; 0x3580488e89ac5f9; 0x5d8a13aceed58b03; 0x40526ec9eb0bd6b0; 0x66aeaa75d8779250; 0x676ab7bdff9b0a3f; 0x175840e2b64979ee; 0x12803d2fbe98cc72; 0x10d3f1ecefdfac33; 0x1b28e6e268f0a33d; 0x3d9dcb96fd0b895d; 0x389c13fa17e6cedb; 0x21836932cbe94f11; 0x212c088b4d1b1520; 0x76c6c9eeff1775c7; 0x46f01f5803177266; 0x12dfe8b33dda6cfc; 0x47ae31f6e0520b37; 0x1836528bafb9d243; 0x4ec1427324a42395; 0x4d08612a2d485ba0; 0x3d3308c6b57bba0e; 0x39888bc4eb881eb9; 0x55ae6846cf1075ae; 0x33acdbb6056d4ab6; 0x71f9a9d5ca5ae8c8; 0x50108f3a8a4717fc; 0x18ce59313f78c7bb; 0x12a4cdb3a8d08b72; 0x7916aeaf6c89aac0; 0x79927a4435bf7a9f; 0x1d55ffda269f9015; 0x2667b179a5896b61; 0x422b19e02ca3b4f5; 0x4fa15501ec46b831; 0x5c5c48fc85e4077b; 0x1fa39c4e1ab6c263; 0x58de8dc1ecaf78b4; 0x5616fbf408ff0f70; 0x56e9eb584c8358aa; 0x60c6abab93c3339a; 0x60ce7813b7c964e5; 0x73ab1954ba493297; 0x5dcc2357197aa47f; 0x248a2994c846efdd; 0x33ee6772e1dfe785; 0x3966013ca81f7454; 0x131c5400764395b0; 0x6487c5d97043fa26; 0xf5550d29c191b34; 0x6408d1aff0b22380; 0x306ca397c93110ea; 0x749f3c2ec751544f; 0x1ea21f29aafe4895; 0x16ff69951098e9ce; 0x23fed9178e513121; 0x6a8b744bafa17d9a; 0x2f9e0caf52fa6714; 0x5bc336953644258d; 0x4244c7ad1204e7c1; 0x3ed3ef54de455be6; 0x5d1e93af8d18eedf; 0x62fe8dbf12c6dbf9; 0x7c54a2650e9a9eae; 0x19dc9699967b8ce3; 0x4a356d16ace23c8; 0x48c816c82757d37b; 0x527066c27ff023a8; 0x499cb059047f0830; 0x30e0270d7bc48e4a; 0x6eaabeabf0711c9b; 0x7756fd92a3cf0cf1; 0x5f484b09814dbc0a; 0x4a87d884634e4805; 0x7f010ce43f7ee9e3; 0x2ee4937ee4a1796f; 0x77e83aa921ed37e0; 0x37bd0ae22a29d8a4; 0x1a5c77165d0a73f4; 0x368634b49776793e; 0x6706bc9639e49d74; 0x416b6ed542c3db49; 0x19b60256042c1178; 0x134ff80e1963a21e; 0xfd47773b0512495; 0x2d968d79d65c5f5f; 0x56f9d4e137b1f190; 0x6f352d93134bf7fd; 0x621de6aa0ad8660e; 0x9506d2002ad9194; 0x1d628582303def41; 0x7590b98581629171; 0xdb03e9542f5c58d; 0x33997698b8dbfc2f; 0x3166e7efd9b118c6; 0xd0d7e1b2d850207; 0x68920e59f538963; 0x8b0f09fc685a33e; 0x336907502d2c34ad; 0x18ed09a371581920; 0x7c745e0bdc9ffd18; 0x288c75512eddc0b4; 0x65ddf9112af24a3f; 0x342d5c71c01968dd; 0x745a075592359d4d; 0x1341fc5478149b26; 0x19df284c0c5218fc; 0x1d22651858416de5; 0x1ed46a14729cf9a7; 0x1c458516a239f543; 0x38b162c6175ef880; 0x1ea8b15d0356e7e5; 0x376ec3d84f608dff; 0x4dd2e6bb26ac23fb; 0x5b87adf60671176e; 0x3225aabc8d43f32e; 0x1ff71ab025d12669; 0x5bae4591db4f913c; 0xa518542e7bb1faa; 0x641753fe4b332a2b; 0x675b4603e820ff70; 0x70b04d13904d6819; 0xe55b5a5a2b92d5; 0x64dea9b2c30b8cf; 0x1bfb72e2f2d2cac1; 0x11ec80930c89a6f; 0x67313d919a818a24; 0x74c8f64edde892bd; 0x9e6e2da22207b9f; 0x3824be5d0faa66d2; 0x53283ef461938e2b; 0x408882d25d747653; 0x737c92058492885; 0x7d4765637e31c541; 0x4d57ce9dcc43ecc7; 0x4a2ea3043f41cf95; 0x6b68169ebaae0583; 0x574fe8ab91f80f1; 0x1783db81fffc6b6f; 0x5dca65b4f79023e; 0x4cf2f9cd660f5093; 0x7c8a97ce5afb4492; 0x7225bdfce913dc61; 0x66241eb61745b0b3; 0x2b66a753a1eef272; 0x39c48a1683e69e08; 0x19d979de78ac71a4; 0x5fd8d45567140581; 0x47142404b43d78a6; 0x522b73d77be89ad7; 0x919dffd4c3e3d00; 0x4e88f5b98cde83f4; 0x66c9ccb5696173c7; 0x2749132aa1e26216; 0x1d5695549b8343bb; 0x2f83fa71365cc31; 0x431f77bddd4be85b; 0x3f8d3d908c29e55e; 0x3f2360aa34be44a0; 0x6481034e51bf9a0a; 0x78b51eca2dd9159; 0x77d1ebcb614c60d2; 0x71f946677d5a302c; 0x75c3f104c5de9d58; 0x688b2d385101ebfb; 0xcbace52c09e4f79; 0x250c07014cf7656a; 0x3250f1b931c60c5; 0x274839074d6bf661; 0x285e6d0f521096a6; 0x15b9e49460ebef82; 0x6f35a9c0c6fa461c; 0x56c42f9e73b3c9d9; 0x5d649e7d76ab9f0a; 0x279c6d2bcf1d744b; 0x17167fdd096c541a; 0x2c675a43da0597d6; 0x1b0d9ba85229024f; 0x19bad390fbd0b289; 0x578bf144161ac189; 0x1582a7cd9e758cc5; 0x9d0ccfa76c72fb7; 0x3343df078a5c638a; 0xfb5e5e9a28cdaa6; 0x669396fa83a11dd0; 0xa513a9b10f33d4c; 0x286c173e79510eec; 0x3c7856e67b57c2e5; 0xd1348146156fd73; 0x7fd05d6cd926514c; 0x4ade5ac3bbf49930; 0x2bde272e88ba896d; 0x70b35e8aefb0a420; 0x71e81d5799b65a19; 0x55548a98cfc20808; 0x7072dd637d67500b; 0x6f2b18f10d41e678; 0x111b72aa089c1feb; 0x6016865927a8dbcf; 0x11b28bcd5b41d2c; 0x66521b127794a2d5; 0x66607fffe6186f4; 0xf330c30cf00ffc; 0x19e61f9e01e18660; 0x33c33ccfcf33f3fc; 0x19fffe];
   [0x273bc245bf760835; 0x5d5dc0b7733a477c; 0x4af04e026eff6543; 0x12f968605be160bf; 0x3b7d4e4032e65e06; 0x5f9f77d121baf3fb; 0x15a78dafe3e89d7a; 0x193d14addf4b49d; 0xf2956dd6c9f188f; 0x3bed9c6d66921d6a; 0xa0e401a6ce99e6; 0x3535f3a4c180a4ed; 0x43d770f2d6fc221c; 0x7189d7cbb7ee48ed; 0x428535e3aa9d4c4d; 0x5c5a66f499629723; 0x19b2b47bafff0c05; 0x701c737755995596; 0x4bb069b5ac595123; 0x4986793933fbb4a; 0x77947c0c305a4f05; 0x69e8f384954027ff; 0x20fe72769f7d70f3; 0x6f77b94c5848064a; 0x7af211eb456bf872; 0x5f99c1263e24a5d7; 0x4c014810e3e6ceb0; 0x36d9dd066022905f; 0x2ebf8fae6fbbbc4b; 0x19b31ea3a5639742; 0x6c79ec5ffd03aa72; 0x4ff25e6c2a073771; 0x4bdfa502d03409f6; 0x5d16ecc14a225854; 0x542d66f825d1ef4b; 0x3d54b9d29f7885c4; 0x4d7171b2ac062eac; 0x7ed65c2da518101f; 0x27a5a4a82021eefc; 0x164e530b7c533673; 0x6f550c8144fef4b; 0x7b9fd97c832ac555; 0x1789e066889d0737; 0x4e93ff2d92563922; 0x30d8303aea7b78b; 0x5fc5c9f716ae41f; 0x519e2c44fefe0f26; 0x3d0f7f9cd9e64132; 0x1b2871559d294a9b; 0x5f10751babca73ba; 0x60f78bc725bff56d; 0x3a5087382e3429b1; 0x3ac94e3cd2540763; 0x6d8f32484bce3bd0; 0x318dc43fe6059106; 0x1050f56fe1e91456; 0x2463de901c480b94; 0x5d09171f428fdd46; 0x26b3ec7d19038e2a; 0x7240398c53a18223; 0x34749dcd7e8d404f; 0x20ddb130a515ecdc; 0x576d72e25110ae0f; 0x4925348b30d261a9; 0x4a4b961deb7ae550; 0x7d425d897060f310; 0x44f46e99d57943f7; 0x6590f3bd973e9786; 0x1421c0e6ed452420; 0x275a8aeda4362413; 0x1646e8a8680c870e; 0x44a2f354026e12d0; 0xa5510bb9b1d7cd; 0x50bd17af1651bac1; 0x4dd92e86ecff63f3; 0x4225b94c37f54195; 0x76b315c25ae19e0b; 0x2010fb95078c6604; 0xd42af3c342de30d; 0x35fdd3fceecddb93; 0x97fba9dae1deb78; 0x2766d0faf67b5c48; 0x35366ea31249bc19; 0x19f08d8ea2a17ad5; 0x526bc106f664550b; 0x792057785accf739; 0x23125053a199f2f; 0x3a78a1519f298197; 0x4915dd592635e4d4; 0x6cc16a84f5bee334; 0x139dd5178fd7290f; 0x1dbb23f76581350e; 0x1edb0188ee4ceab6; 0x639226d7b4c5f8d0; 0x672d19b73938c5e2; 0x66db4c25bb252b1f; 0x768b98d00bdd57a6; 0x4b7ca38b4d017533; 0x5750af088935d323; 0xf58beeba4f24118; 0x2ec088611d9c41dd; 0x24a33659280194ce; 0x437398a75fb8273d; 0x3589cb932618d592; 0x5cc990fce530cbb1; 0x750d67045e4f91bf; 0x6687232c25db4777; 0x65ed6bd96e201454; 0x1fdcf1d74bbb8189; 0x5b163e2a41b1a702; 0x7e91922055d834cb; 0x417677987eb8a94e; 0x53381c9d6cc792ff; 0x308e744d1a26ed8a; 0x2e5551688099beed; 0x69283ad1c4b848bb; 0x9095bb1f19c1ac8; 0x3719727539360dfb; 0x5f0801a7494eb594; 0x6feaaa605f9b4345; 0x3c0807eb02f9e5e7; 0x1230eabd67e49bb; 0x34715c137a63ddf6; 0x5d7ca4b93133e9b4; 0x4421d56ff770aef9; 0x61113f37b27dcf76; 0x43d25ff7f0199d2a; 0x5bde727a5f8574d3; 0x7378f47023e3ed7d; 0x4ca2d4b7c550bc0; 0x39f671d74ad543fe; 0x2a334f8c6af6fb48; 0x17d0073e2652c9c6; 0x7f9834a566d4f2ed; 0x43596a12067ba0d5; 0x42c9bab2b36964f2; 0x488d7b8e6d95776f; 0x7f5811f54d6cea8b; 0x4596c66e0db3fe1b; 0x4b779995261726a7; 0x41ed04d2ace25885; 0x7cd3674b92139f8e; 0x666de6c5a2f935cb; 0x31969990cde725ed; 0xadd9bab9a3abf45; 0x60e009713ca61080; 0x42eebebfb45ed574; 0x2b0ff6952e4fff16; 0xeaec921597fe47c; 0x5a400366faa34126; 0x41c253f849c6c872; 0x4077013d84d5a7b; 0x4f84f515ae7463ae; 0x2036b69f8f387e12; 0x3e190f5a872ddf63; 0x72b4975c7ddbe9f4; 0x353028c736f551d1; 0x23239d93bf5e3724; 0x6a60051454a47e35; 0x677702d984f72f14; 0x38f80f2e56d3da9b; 0x16f52bf739a130d2; 0x3ff2e2906e820f8a; 0x1b2ee10bf14bebba; 0xce2ad4cdc5a9ee0; 0x7afcc02ff1475dc2; 0x74a2340bbb435302; 0x40c9c8af4cf945f3; 0x2377aa6f0bcfbda7; 0x54063b881ae88a2e; 0x32542e72ce8e2b71; 0x5e51043cff9156f8; 0x7c68202a3a0df72a; 0x4451cdff318d6d35; 0x154ffd6577b03229; 0x1b658dd13a550326; 0x2a33b9744c2b9ba0; 0x6adb87ed2779d392; 0x39915dc9c1d4c564; 0x134bcf0f8ab85f52; 0x5ca6844034113ef6; 0x5d60f8ef0fd66d96; 0x224d8695fc30450a; 0x1867a7651beb1a2b; 0x17f742b178e26135; 0x18abcb676bf561ff; 0x3fe1a4befe426552; 0x491a3ba6db54ea05; 0x70fa5b110e39db77; 0x5433cde65f96993c; 0x1d5f58cfa7f3dbdf; 0x6bfd5aa09b875e14; 0x36a85546eed6ad03; 0x5a544d3ecf7fe4be; 0x565ac6e9b2e745b8; 0x5bc6e51b380d1094; 0x66e47b8c12263f38; 0x560f114f57aad30f; 0x113596c10fbea246; 0x24c4a0e45a951f7; 0x4c9a26c85e8abf66; 0x1bf5158af63a3660; 0x61d20d9273079129; 0x6000bd0f1f97bbb7; 0x160944746da61c6c; 0x47701ce8984e63f3; 0x1f310ef661ea64b; 0x1979fcc0774654bc; 0x21d0bc0683ded4ee; 0x324797afb28a6757; 0x20f4663e3d05095; 0x222fcdcbe56ae4ab; 0x248c8883950b4372; 0x435ce5480ee03088; 0x1cecfe709a16a254; 0x124c5ee85e948097; 0x484a1966eb5ba6f5; 0x17a4d787d267ea8a; 0x691527afced9f7b9; 0x1d372feef49474b; 0x5c1f7e020a21a2ab; 0x2e3ce011289e184f; 0x233946a1adedd10; 0x38b235484d71fc83; 0x45ae1dd703c4b27; 0x6140bffbca2a9785; 0x445e609dd6dc9bf2; 0x48ecc276400f48ec; 0x54659df5555782ef; 0x4d804ce534fd10d0; 0x435d628d98dc873f; 0x675c66d09d318f6f; 0x2f1c28a965b6f86; 0x29bcdd1ecb6af736; 0x62dde05edb939b4a; 0x30758b65f97c8b78; 0x69d7edd2e03c5763; 0x434f4936b9e7431a; 0x2c7dbfacc856344b; 0x9f303ad38641bf4; 0x11b51581f56591d6; 0x4ef6b78a1645e0cb; 0xc03143df784f552; 0x5a63065a2a87cf6; 0x737896431161a3f0; 0x552b34a63e1a1e1a; 0x48bbb694973a758c; 0x57be8e9bb40ff28d; 0x7e8f60ad6e886946; 0x427eaf16006e7eef; 0x7f9cda42bfaec1a6; 0x11678d3479fc7702; 0x559c6b22ea091b6f; 0x5ca96b7f3e34ceb0; 0x7ca739d748b3b3d9; 0x36ed620685d7222a; 0x78e5dbeff4dadd2e; 0x316850920977adb5; 0x798d8809af3ab9ea; 0x1699e38368ed92d5; 0x7f43ff2342e5051c; 0x7b68a10f52406649; 0x45d85bb81166fdbd; 0x7d33e98a911908b8; 0x784fb2410fc55c29; 0x56ff58612838be17; 0x7507e94243b2c6fb; 0x2b9e4cca8d913de0; 0x655a0bd41cce1b4d; 0x5795f99fe27c1ec; 0x7a2bfba1ba4fb9fe; 0x44256a52004735c4; 0x30434a06bb3ced88; 0x566da7ed930cd486; 0x2a9608109912dbe4; 0x52824abcc9740b46; 0x5c32628de0eb2dcb; 0x6ebabbad2e50d237; 0x2d59e0cff4830c75; 0x4ed544141f8fbc81; 0x3439f6d5f059dbb; 0x339edb29369ddd26; 0x3faf49928b741076; 0x5c4e8976ed3b4001; 0x29b86c5e99025709; 0x717dc9405273d377; 0x1bf2896679de4147; 0x1eea7a678f8100ac; 0x38be72aa9bc94796; 0x323ca8170db48f51; 0x4354d91e04d9dea8; 0x127c71a8488b36f4; 0x5cfcdf26c43cabdc; 0x49146ce85480892b; 0x30ea8dd1a72839b2; 0x2914e23cfcbad443; 0x2653dc6af1e0ca3b; 0x26aa9d913bfb62ab; 0x6f0d1ae3a40b64d5; 0x12a93dbdc75c6125; 0x626325b8cc4c0547; 0xcf8327d63d00145; 0x2e9eb5cbc6f4b482; 0x2053ba1ee667c2bf; 0x232ce89f63128968; 0x32a828fc14857c54; 0x46cb89009938ba49; 0xbe67f029b1e2f51; 0x2a02fb1a62773bfd; 0xa0c639db2d93bee; 0x549e1f0904649a; 0x27109bee8e4114d0; 0x10de8ad94233c19; 0x1e01e07e067fe684; 0x330f0f330f33c0fc; 0x1f99f80079807f86; 0x33cf3fc30003ffc3; 0x186060];
   [0x4b9925faf70b5a9d; 0x5a85e87bec0242be; 0x75787a05da45e6fd; 0x3f58e150acb0948; 0x4f1131be3d136970; 0x5aaf90ec8ea7aa4b; 0x114f5b3a4cb46279; 0x664a6856e3b85bcf; 0x4d1f89b31add21dc; 0x69cf9761c0c1fb24; 0x29e73321fc786a2d; 0x7013452e84130618; 0x181266b66afd6099; 0xa45e7ab20f25056; 0x4243de69678cab30; 0x5f83cb0691d43d1f; 0x2b5241b1374d64c4; 0x7f81a0b211f33535; 0x957f496687c1b15; 0x2e710413552db99a; 0x5c690b4c67dd642f; 0x3ae8e970302afbb9; 0x75f2c72fdb57251a; 0x78b399e34993d4af; 0x5d9f2245e14ad33a; 0x4085934d5bd3a680; 0x4c3bd1fceec8570a; 0x2460791dca33f6aa; 0x1e46820c46e7e5f3; 0x26389f98af3e98ca; 0x322c5fcb3087de20; 0x3a07ca8ba356d41f; 0x851774da5843033; 0x954e033a672abae; 0x486e7f8769f6e087; 0x175eb207ef9330fe; 0x1a10737a5edb71c7; 0x6a62258534a82a31; 0x6b58aebf1d4a22; 0x69ab9488fc6c78a6; 0x55a77ed03114c889; 0x63ebb30413e21b66; 0x715fa944ea5f6005; 0x133ea3958e8d0cc7; 0x38a221f1fd094a6; 0x1cce6b090a06be2b; 0x7b631ef6dba2581c; 0x7c4feee669bdcdbd; 0x3fb71dd462e69ab; 0x20032f267b799f55; 0x3e0660a7997ea23f; 0xc6393d5e3108b44; 0xbc85a6ba77636ed; 0x5b2f1c7fbbc224b0; 0x13ca1a928fbe073d; 0x21a15c168d818476; 0x283162ed520e90f3; 0xbac7d07201699bc; 0x750b3fd1de6b5f3f; 0x60730adab631d39c; 0x65598d1e9f2f0aa7; 0x5f9bce0ac62f04c2; 0xf8f44de5f9db95b; 0x28de8bfce8ff1e51; 0x2c4a4f4e2ad1729d; 0x791c7cd9301e9ddc; 0x5cceb9288bb45d67; 0x2861cd4d12374704; 0x4de7f16a3a8950ee; 0x38d1125694072d5c; 0x2b84de85723951c2; 0x2db374bb68a2145c; 0x7671b1b276ae905; 0xd0b246211bc80b1; 0x68e7fe9341164a01; 0x2fcfc3c7d8687445; 0xc678dfd473be500; 0x3c51e9ecebf772c9; 0x13c23f35b533f0a0; 0x795741583c5dc88b; 0x1b1888e93dd76d25; 0x9d6adf9a01d8d90; 0x30880251b6917833; 0x59f51ab1d441e70a; 0x31628ca3d5c033a4; 0x3bff51d5a09310f1; 0x5939d749a9e5ab80; 0x49398b4031d22afd; 0x298fe052e486fb32; 0x2dcfa511028ebf56; 0x374386350c9c7e28; 0x3343879a4134de31; 0x9d4755a98cf3a16; 0x2500312b5261a911; 0x26244b7b4d83a7da; 0x6ae64bffc2cebaa6; 0x4e0c04cdf04fe5f8; 0x1b35eea17b5059a3; 0x14eb16648aa125a8; 0x6fdcfb71bc9edf55; 0x2f20719064dd64b9; 0xf24211dcb2031ee; 0x2e2061c8f5b97761; 0x5829581b95beb80b; 0x5aa9149bfec82ecd; 0x5ee7102f9df0fdac; 0x1b38bf139507c19e; 0x6760835d44889544; 0x59e28b002016459b; 0x7784b0f9393c2a19; 0x303de4f62a33f9d8; 0x71c99104023ec64a; 0x513446114c2ba7b5; 0x2b60fbb490e06004; 0x10828a4ced04882e; 0x2dace162078cb927; 0x35cd528ced93412e; 0x67170e9d4283c0ad; 0x1969420e6a40f94; 0x78e79deb168a21e1; 0x42c209d84cfda23c; 0x1ac101b4be4a3fba; 0x1486054124cd1107; 0x2c267dc2520d7f48; 0x715723d2312c5e7c; 0x37e9d5f247007ffc; 0x51ebeb4f1f22766c; 0x2b8884b283d183ea; 0x1910ce12500fcece; 0x1c6fb03e411938bc; 0x5af97541e68b20d7; 0x2c4a761c199a2a2a; 0x1f9274f1227946dc; 0x64b18704059e5479; 0x5a1ae271cdaddf2f; 0x18edfaf48b49f03e; 0x56e2394601e98f18; 0x6878fe74b05ff9a9; 0x7d47b5cf659ee477; 0x2c31898d100eed16; 0x166448eb2ec3af8c; 0x760da536812c55f1; 0x5f27f8e9c83a3201; 0x449eb8a696c3fe1d; 0x342c0083a3cc9a19; 0x292cc0bfce9fd21c; 0xe62af24a6b3333d; 0x3bb8fbe53cdf9767; 0x1eaaba36d410e311; 0x499b1056e07e323a; 0x5d55fa99103d9430; 0x5eb77898e7008207; 0x35dd3ae0742cfecb; 0x191da891f8d012b2; 0x315b9df03827732; 0x422261d88d0670bc; 0x2d4b3b21f3931bff; 0x502f8e2c11796369; 0x665c58ead02f2066; 0x7c703154a5db417e; 0x397fc30b359359f6; 0x5db90a7b2b8d670e; 0x7d265a2633466b53; 0x1659e39822feb7ed; 0x41a2217a7c1f5520; 0x95c5be4a2d5810f; 0x3df117e2207213cd; 0x574e810b2d1555e4; 0x3b414a6ac3d9bb3b; 0x6fa6d5b978792ab7; 0x2b54667c66becf71; 0x64edbe7b73d33902; 0x621ccb58ca111ad5; 0x316d1031818101d3; 0x19a1718e2ce81bb4; 0x4ff10ad8acb14703; 0x6ad66a5c8411b9aa; 0x7db254b6b3a8f79a; 0xbb21f631dc1d19d; 0x49b08ee37bf59e07; 0x240a1cc7553aace0; 0x453f7f6a2c10c4e0; 0x783eb2cc0b9ee5ee; 0x7097743c5b3b9a7d; 0x7ce456e17a412117; 0x6c7e1b24996b7f2e; 0x441144169d8f10bb; 0x249e861a3877272b; 0x4141c565b61ee4da; 0x2d8f41b2bd7b2903; 0x3993ccf7b7e01cd1; 0x792b2e328e14df9d; 0xa1c93deafabfbda; 0xc8282ff1e5f8dc6; 0xae5583722bc6832; 0x58991dff0e804186; 0x523d4c71368e2e46; 0x7d56b132cce8989f; 0x2b49058e931cbbee; 0x6fbaea91809f3f8d; 0x4f1f1dee6b85c4f; 0x745fe2c7bc910d25; 0x405dbcafb8f17cbe; 0x2e5342859de60047; 0x68f345f6c0879643; 0x49c3194577caa6d; 0x377ce47d86e71959; 0x6a5ea167ecb55602; 0x68b279515aa5f3c1; 0x6825f2c641dc3c; 0x6968857498cb4f9c; 0x2a1080ad871eec03; 0x71d4588f2ee69541; 0x47b7d8c93b822a8d; 0x5130a5d70d6ff50a; 0x5330aa96b93754e8; 0x2161cf2cda74eda8; 0x153c24f1bc4d84c7; 0x3380775e19331f73; 0x1602376c19f1b26c; 0x345a941a47f717e1; 0xc74c5d34d2749e9; 0x18e33b84988ba57a; 0x7eea1427e44f032c; 0x6cb0885f2a8829eb; 0x5612245bb958c9e7; 0x43dffb00520b829d; 0x5fb77467f0828462; 0x4f94e741b8e3bb32; 0x16ff301df437cbf; 0x249db3b8cd963467; 0x3c5710689ef87ed0; 0x6278fcf082434b5; 0xebf12d4d17d7d16; 0x60e25753d91b446d; 0x1606c8ee6a375fae; 0x6afd534f8e849c05; 0x23eb6c4a314e1dcd; 0x3904fbda8a41a40a; 0x2c6f76bd6b902cf2; 0x22d2ef2c44d8d3d6; 0x17404e3451c9cafb; 0x48b9b2a7ded794b6; 0x3424d3af02158bb1; 0x34e98f15ba849cb7; 0x410a3a16edff2d3e; 0x4e472514c10b4204; 0x625324bd59163c76; 0x5e6b0c1a5b866309; 0x61b9bc5b1799f667; 0x2ee92a0b7dd91b5a; 0x5b112262f0bd5606; 0x37e04e90a64cfcfe; 0x537e8dfc374822b9; 0xbc043625568d6fd; 0x2349517d5d3711fd; 0x1d45f12c38c292e; 0x5e102afaefc79bbc; 0x1decb7c0af93672; 0x623cb44300441f85; 0xfa01ffe8043e945; 0x592f5ebae7177062; 0x29cd2ed2cc814b0a; 0x5055a4b07c31d297; 0x286d13797fea7c36; 0x2fccfd0dd131d57e; 0x1ae6735614bf0ecb; 0x66f2d348c8362393; 0x1ee660dff8ed158c; 0x222204aa079662bd; 0xed792ce16fe3a7e; 0x7ec6c60ec6417390; 0x6a21a1c9ec39ee5c; 0x22f47b4e58387011; 0x391e4c1d99fc8f91; 0x195d1100cc7362c5; 0x75f3e56c7d06f5c6; 0xc71b6af11d96bf3; 0x58fdb2e9e35b06ce; 0x44fe96d0a91ad94f; 0x2ebc348326922c69; 0x1eb91849d8ff5f6a; 0x18260eaebfff04fe; 0x601198333800f83d; 0x7afb0b3e416c9b8d; 0x1c1c79e5c786085f; 0xf3e575fd558e4d1; 0x5b212f520e2ef8ae; 0x28a9705feee3b865; 0x4247d554996889f; 0x2a5f484f231169e5; 0x150dbdd919b25fca; 0x28bc68a896f76d1d; 0x57cad49207545672; 0xc1db732a627664; 0x460f21e786408ba9; 0x4cfa7a13e64ee472; 0x12573098ae4598e2; 0x365eb1883b5d85f6; 0x47b5325cb9f5786b; 0x7173797ec006d380; 0x78ec1d269f6f9c88; 0x7abca0bab879dab; 0x177ace2e8864999c; 0x7abd1872d2a225fd; 0x77c1744591d518a6; 0x7f5ea0b2f581601b; 0x6acf262853ab7eb6; 0x6357db8a71a87470; 0xb8654c70d75f562; 0x5baf30d58131c8db; 0x1c5816fd02be5912; 0x15b5a95a06fa300a; 0x1981e66019ff9e73; 0x70fc3fc3c3c33ff3; 0x187e1e19e1fe0079; 0x7ffff0f0f000f0ff; 0x1fff9];
   [0x77a564d2822bde2c; 0x45eef19d4121aabc; 0x331ab1a8367baf86; 0x1469074f3ec4756; 0x218479c45de28d84; 0x67835b1730ddfa84; 0x1774618dfc8ae7b6; 0x28522e59f5717ded; 0x4e16842159ea7ba6; 0x2fcd285a3ed4c6a9; 0x6cf1d38e2499f14b; 0x3840c15e5ffd256a; 0x206523b342d04137; 0x18c142c3c4a59584; 0x7bc0da53746a0d65; 0x15ece4b5e6c37b0; 0x591d1e03097dc993; 0x10c139a92b509452; 0x1aacca3f5c3b6523; 0x18208c0e867355f4; 0x7962409a190d92d0; 0x290bf25e0252541d; 0x7e8529da76ff6f1d; 0x1f1f197be8c6c652; 0x7e7bc2b3e4ff4316; 0x34ae0b2373f15106; 0x16d9616cfddfc131; 0x1615380a540a2c13; 0x1c33399335b38838; 0x1f1bf35608d3e1fe; 0x41e062bf4160449e; 0x67f33ef0ed3116d4; 0x233bb7b4f51648fb; 0x6d6d487b07d9a2e; 0x4548baaf80414e96; 0x5464f82fd772410; 0x11f2466af4d4a77f; 0x2e2988f87245f035; 0x6234bcb048a9dd9d; 0x247f186d72044e2a; 0x13254647da13f7f; 0x43c17ccec5ae0550; 0x7eeed1c466c92f3f; 0x4c7f8cf4b6d99113; 0x70e059636598d1c0; 0x61ad56c7fd19050; 0x45c3e5ea56045ed9; 0x4d2b717b49353fcc; 0x383cfc6f4895931a; 0x2e54811b3f6824c; 0x40c558c3953a5ec9; 0x5e4c0279962c52ee; 0x46ec7cedfa91e1e0; 0x6318683eae43b08f; 0x3799a2940f1354; 0x1398180644ea956; 0x6740a4f9f0597eb5; 0x7d9b1901e999368b; 0x11ae9c782009995b; 0x181c4b46a0e95a7b; 0x29639fc514a8fbe; 0x72fdf4efec92950a; 0xd0d9d0aa8b3e08f; 0x10c2537287b2623d; 0x76ee44650325f21b; 0x70ef12e58d446e02; 0x79dc50ffe9feae8b; 0x6343629628c0e63f; 0x7d45587e694d5143; 0xe5667175bce45f2; 0x3ce0d76f1921c252; 0x710bfaf6617f94e; 0x32808d51874e243b; 0x570e72a06d572c61; 0x5932f1d54b523cb0; 0x218db69030910753; 0x6d762effa2eeaf9c; 0x33923f0fd4b4d3df; 0x5e520e2f61457a1f; 0x42a31130ba2b129b; 0xce1f6fce47fe217; 0x3c2e720f2e0961de; 0x404657fbee7f2446; 0xd82a14612d5a222; 0xa551dd3ab6f2041; 0x692f8b48523cc209; 0x146b02b43956e5ad; 0x654a25344a3701; 0x161b7e1f0220f17e; 0x1ac92f5d750af487; 0xd5b9a7606cac008; 0x601862af3249197b; 0xb3af11aa8a0d45b; 0x1cf57e7456cc8192; 0x6be5d03cbcdc4a42; 0x79684bbb67fa2cd5; 0x3d6c86936e00fcbf; 0x3a6b4bbc3266088c; 0x1b08afeb26a4f030; 0x353fde06df62595e; 0x402013eafd2c3197; 0x4c2aa3779025f461; 0x8dc5c433467528a; 0x5403d8a676903b7; 0x6c3293865b3a869f; 0x61eb7a7abd62e3a4; 0x588dc33dbd2bec57; 0x78f73b753f60fbbc; 0x739f9204eb6b06c; 0x3137b94ff727bb52; 0x6f96f1cfae66a20a; 0x6b71257d87cbc899; 0x5bcf2d250e85455; 0x40b69e13888df4e1; 0x1932e8fe29ba3fa2; 0x57d3018ea40f22e7; 0x5d144b56e061f8d7; 0x1e0bc33e9ddb002; 0x67d79417310c5e72; 0x12fdc3f16bac275f; 0x57eb218d3f3fc70b; 0x31a24c5a8fbc28ec; 0x25cdf6bb58eeb0ec; 0x63cd045bfef46e49; 0x452d045879daafd2; 0x1347251f131a8272; 0x66cfe6aa903c9f7d; 0x196b384b79de4cd1; 0x445962ecb5f3b36; 0x30f2a2578a53918d; 0x7bfeab16abae5a43; 0x581037bbac468aaa; 0x84ca07b71cf8b5c; 0x712635ef3a7f1903; 0x7eea10c43ccc8cf0; 0x360661bdbc3be96f; 0x3635bba29a7c1175; 0x5ed919c459fe24f3; 0x1663b4fe74216e6b; 0x58fc25e91c37be2f; 0x757477ba87c9ce27; 0x4b6e363648bb712f; 0x6c82d4f58722bfb4; 0x18f8af8cb55ef783; 0x3485451e8ebcce94; 0x55435d6c18b25bc9; 0x4cc78811bda4a661; 0x592a70351a94c8b6; 0x2effc8dff11fdbb9; 0x372431fdf4e55276; 0x791c467bfa9dfaca; 0x5462b3050a41cc0e; 0x2e3158aacd86e40a; 0x4dad67c79a34bc40; 0x4b6bfc38269d7f34; 0x7a94d5d5eb433e83; 0x17d6bef671ab57e5; 0x317e275fa9a197a2; 0x43cdb2c40e277573; 0x12cbc8772f18a5ee; 0x6ca4bc4c5dfa071; 0x5841d9f22f8d8318; 0x7ca20883044205d8; 0x4d3efb7ea94210e9; 0x715601b2e29603a4; 0x827dfec5f806110; 0x54759e836d29b428; 0xf0754ef2bdcff2; 0x32d721cb664e0f41; 0x45f11fa0372bb3eb; 0x2f83fc58ea4c7ea7; 0x45b1e51bba99d034; 0x432cd28758462aae; 0x278ca709cbbe0d73; 0x5b5f91d23b029e4; 0x616e886e23f074da; 0xd3a209a1c9b81aa; 0x1bc391e867f8a72; 0x1c960601d258c038; 0x2432a9d51feb535a; 0x6a235e0832cb23ff; 0x64456596943232dc; 0x4f714d5aff2662ff; 0x7beaa9a31f997ffb; 0x66b310e60cd8411e; 0x5e110b3dbc5ab42; 0x3372e4162185cf04; 0x330093b468aa0881; 0x427a21af7d37a46c; 0x19bfa937f2a070b7; 0x7ecc9fabcfc26484; 0x317e09d31e15342d; 0x67094a42be5c7452; 0x796c51409d80b923; 0x6f38b716f1a4fb8d; 0xf62796b37d92b7a; 0x4d8ac3e8669109d8; 0x76691466bb3ff9cc; 0x10661f0621a1548d; 0x5c46c80764e255ec; 0x191817a1cbf8c3d8; 0x7ebdbf8bf4b5c0fa; 0xf07eb0adc012db9; 0x408b18a3914933ca; 0x69060ef5076f199b; 0x3e6960937fb8f2a9; 0x4b0033069100239e; 0xc59dde7542198e0; 0x21c4c7f415d9d1c5; 0x52610e68beda09c9; 0x7aca03ff93ec574f; 0xb4fce98ea499519; 0x3322228d4ab91bfb; 0xc713f21eca6adc2; 0x60c2ac475ee3dee9; 0x1e54150af4c61a9c; 0x571c4a0c498776c; 0x52dc46240ea981b8; 0x2f2cad3344673377; 0x207979861cbe491e; 0x14b495d96ae874db; 0x755803fefc9401eb; 0x63ffac38707f12d9; 0x68e8f4898dfd4b89; 0x6ea1b78e60d2779c; 0x53d888428f041bf6; 0x4f9fba6ca5fdb460; 0x21770b2c43cb521e; 0x5de0fdc20bc553f; 0x7fc1fa412e2a6e68; 0x608bc22b45f6b729; 0x3232535fef3df630; 0x7dae203e37db17c7; 0x4ac2592528eecd01; 0x4532c10eab2ed473; 0x610be47d68397851; 0xb4cc7a7c43c4599; 0x17b55e2e57bd6571; 0x36dcfbd32e5e6e32; 0x40865f9a2f5f1e8f; 0x4c94dfc5e18ed810; 0x455bd0c6560ddc18; 0x4f7c172a2650c3cf; 0x1c2f380318e98c87; 0x619670358a6fb8bf; 0x2b3985d14f1e771c; 0x46edcb76bddda8a7; 0x798ed2f93049aa9a; 0x77a3ab24a05d68c4; 0xc0f5306b5a20412; 0x28d1a310d4c4ca84; 0x74ffa31db9b7b778; 0x607398d265cf424f; 0x3bc0ba09a93d9352; 0x7be1fe418f5dca67; 0x16e7ac468df12957; 0x2cbd84f644054be0; 0x76f873ad92837de6; 0x445b4b4b5d50dc44; 0x3b66d976a2a79c88; 0x7069e16ecb1efd9a; 0x272e3691d66db0e7; 0x67d69e3327394c5b; 0x2d88c320465b4ac; 0x1e6328627db595e; 0x7132739fa2bf392c; 0x1f6df7e90d17b10f; 0x605fecbb7c824389; 0x32180738a54a9356; 0x34fc4f5140a16191; 0xbcad62b8a80ab6b; 0x7510441baf0b8271; 0x158ce2cb227e5911; 0x52e7b251a289a6fe; 0x605f37e8963ca04d; 0x34d277813b9d282c; 0x11a56a08e25a7bc1; 0x768e01b71def6a81; 0x910b9d5f104a57c; 0x2a2cef02c4b795eb; 0x7c4baa368ac9ff5c; 0x4212777c84ef2cf5; 0x37130618f956a957; 0x5e10ac26951ccc7c; 0x262b5fea90f77f16; 0x31c50f6537e588bb; 0x44b8260f2ab031bc; 0x1b74e648944f13db; 0x5fb7c9e8a0f66103; 0x2bc8baf8daa23671; 0x27bdf2463ec38af6; 0x68849301c186f868; 0x7b9ffdcf2d86d778; 0x7dc7db61deb20db6; 0x554da0bb4826c13f; 0xe385e53154ed834; 0x48173c56e2864128; 0x7c4c466ef6a65077; 0x1023e47e9875c61d; 0x75ce040fe725afad; 0x7c53f48faf8a1837; 0x4b39c013d9311c38; 0x489ca98c0f7e4564; 0x79076e51c2fd8bc4; 0x1367cb579502f4bf; 0x1c560f3578db6c09; 0xd1912e738c16583; 0x4e9aa5ccc4122841; 0x3569334bee9fdc9b; 0x485c4a06a47ed286; 0x75859d5ac1b4c38; 0x28cc3cb162ca25e9; 0x2f1c0ca3eaf28551; 0x67e79f99f99fe2d; 0xcc30c3fc0cfc0cf; 0x19ff99ff81987fe6; 0xf03f03cff3ff3; 0x7fe06];
   [0x53c475a51f6b4618; 0xb9a0bb7c1d9f893; 0x10e69dff5d469325; 0x3beefc9bab6395fd; 0x14de6795191c8ef0; 0x25df1b5d74be8630; 0x1e2961b428a3c94; 0x346a82ea354e1de5; 0x13da14b4aebf3295; 0x3d1ed981817d5c12; 0x1d27e937da09fc2d; 0x31e18b8fac233560; 0x2347145030de4c0b; 0x585befad3827b290; 0x60afd715a9528e2d; 0x68b8905aa2e78249; 0x7f1ecc6674e8ab49; 0x5324bba3b5582008; 0x2b07708f7e065f54; 0x41b163e1daca09be; 0x60f13bda6a0c7143; 0x7ec4617d0f499328; 0x5620d052d5277bcd; 0x6c041100c83f7de8; 0x4681c4793e95ca0b; 0x53b9d9f8ad64d5f7; 0x4147a57cc949066b; 0x48424e4d7267f707; 0x4d2d3779fa0214d7; 0x312d1bfe44c74be; 0x50f1b242b36b4f38; 0x5ef8179f302b5d57; 0x370eaa04409bb124; 0x6606a793cbede1e8; 0x16c3da499d464557; 0x23b932b7cbcd1022; 0x54877f8a38fcd7db; 0x59bebcd988e4ade3; 0x2c7628fe58d8a392; 0x68a82c7827c99a85; 0x7dc482bbd8e6a5e8; 0x56e4fdf3612cdbd4; 0x77dfad93050af9cd; 0x5f7f3ff6f3bf861; 0x560ad7161abb911e; 0x3261f5d6adf2164c; 0x1b5745325c77b8ad; 0x2abd8807f08791c2; 0x678b24aee676e1e1; 0x4e441358b49204c; 0x5f2fe4696b523415; 0x345a95e40b93a203; 0x6c134e78104aecc6; 0x63abfeeffa05c6b0; 0x4a02e3a96e75d9b4; 0x54881e9d8299a2db; 0x3c4ee05bdae850d7; 0x33b863ebfd14f91; 0x213fbad9f1334ed; 0x61285384beb070e7; 0x7341f50d2f736af1; 0x5f2792e21310f2d2; 0x6f066fcefa31543; 0x5229aeea97744330; 0x2b2d0a6c236ce0d5; 0x5f543c883fbe8f94; 0x4996eecc10eef4d6; 0x6e93fcaf8069b466; 0x2b704241d2810cc1; 0x1762eb3e60b6d326; 0x396235c9e6432553; 0xf876c9241a9a623; 0x5269da6234b6b4c6; 0x708e23ed58b4ab2f; 0x7d110cb000fd344e; 0x48f594980aa3cd1c; 0x7f1b59d45975fcbf; 0x2ead251b36e3c972; 0x518373da17f3e9ee; 0x58c0dd4382642e8d; 0x5d41d946060bfbe0; 0x790451091e24ad16; 0x59dac38160bd1c16; 0x6a752ac511009dbf; 0x4ed97e419095108f; 0x2b9e3f456db36673; 0x323830d0167bde8d; 0x19f6b1fd6c3391ca; 0x560ebcb727235ee4; 0x20556503fb6e0bf0; 0x7c4fd497f5f4c256; 0x37d26c537085c94e; 0x17f6fe84e49ce150; 0x2045e05b019c7465; 0x5dba562c087ec36b; 0x56c6cc7f51a79d8b; 0x5f777d2ca893b126; 0x65d1b2f21bce05b8; 0x2cf0633818b280cd; 0xc5613f18528d0bc; 0x50cd18b375b1f830; 0x7a0769c40b4326ad; 0x397432d04ab93bcc; 0x211c480f85e96a1f; 0x88a3b0771685959; 0x2bc6a4f8b36fd9ba; 0x3c9ff2d7937d3b31; 0x4b33462549d9231e; 0x125e333ba2121311; 0x459c58d35614e06e; 0x7411400a49f2a19; 0x8cbe60d816dd276; 0x5164cf9e9cea51fb; 0x687c55823b83d666; 0x58da9fd9d84d9ab4; 0x58ae7108dbcc6f73; 0x21cd33787fe7421d; 0x10ef2c64ea6b6144; 0xa5583188a78809d; 0x6959cc4327fad2be; 0x68a2937440892c0a; 0x58caa717c4ee927a; 0x6a1a785261fba517; 0x5ad5fbd5e79a6b88; 0x5368f064b8a50940; 0x1486b6a2c4626f7f; 0x5dc7e9e69f3d33bb; 0xe8b35c12311e552; 0x64e09255218255a2; 0x4e3bf84233f166d; 0x7cc8e83261a7344f; 0x27fd138d2bb0592d; 0x41e56ca7b1983ee4; 0x5901d43ca32a6ea; 0x351c4aca5dcbc22a; 0x3e88a2cf79bf4c79; 0x73f9a99ff7e754de; 0x28f04c35ed8df1f3; 0x4182ae75d47b41cf; 0x62ed39ee0c2f072c; 0x8be6c0c048b8484; 0x2528c7aa3303e689; 0x36b0dfce97f09a83; 0x3caf88335fce407a; 0x13d18bc892baea64; 0x5f07b413f3396721; 0x327ba82e3229d254; 0x12f44b4a8e58e84c; 0xa4bade3eb2e92de; 0x6416f53ca19a3735; 0x57e5931c22dd67ac; 0x5f199224f983c3d4; 0x4f27799c332a40af; 0x68e4a8bfae3c03b7; 0x59d508521783a02c; 0x35ffa2103d061712; 0x7b571c0be70c230a; 0x32f26c00a42998d1; 0x6cbb71a3bbdfdac3; 0x2533eac5bc6a6a0b; 0x1e5f7322fa60eb28; 0x9f5a81c987569fb; 0x3b467b6e45b83422; 0x6bdd846b51abd7d4; 0x21fb5d94f7cefe2a; 0x41a7e8d63488ccb4; 0x7f34894c44a2fe42; 0x234444069ba5383d; 0x595fa06e674f2cf4; 0x1c6b16fa69d636ac; 0x5f4f40b95c3e6753; 0x4a48fedb25ff2a9e; 0x64e86a8adc3ce33e; 0x56e9b39b3717f991; 0x4da0c0937cb77fed; 0x2e30a4773d5f2f01; 0x11d6e13cb07216f6; 0x7e9b71246b543a00; 0x3358fa83383d0ca; 0x5bd53666e4d25eef; 0x1cb3be3025370a39; 0x5b26bea0e7c6b6cc; 0x701cccd75092318d; 0x6ffc82022b9f0b0d; 0x7bf000fe98240b50; 0x310806ab54d0e7e; 0x5552e80d6900ee2f; 0x522b1d5dac60d831; 0x2cc7c0892ec3d4c0; 0x4ae45c78046b2831; 0x324970824e4f0922; 0xffae66cbde0bed1; 0x6de2779b3dee4590; 0x183d00b64c0e957; 0x548b5f061813e553; 0x1b65da3dc3bf5ecc; 0x2d3c5dfdcdf52ae9; 0x3f51185de3e401a2; 0x436c49b48462d01b; 0x34d5ff60d76f711e; 0x520f025a6d53b913; 0x652ea3b9420cd8dc; 0x1f9949a655e5f99d; 0x7a3cb4d81f2a74d0; 0x8286c0ad81b0113; 0x7dfa78658a8e80da; 0xa8de60128942ffb; 0x7d6a004edf184b29; 0x6194c3d024fcc3bd; 0x3163ec1d95ca9626; 0x4f7ec120ccbca27f; 0x772e108a2b4b143b; 0x1ef08324639dfbec; 0x2699c17aa3d5a4f6; 0x687679fc5cd57cd6; 0x7a4e195a7ba6b208; 0x2d08ba6734681d28; 0x345bdc144cc98054; 0x2ba603c2d2c488c2; 0x53c009d59bbc6d87; 0x24371cfc508e136e; 0x14312f6a3afb39f; 0x169cac0a8e1f1b06; 0x3b848e4ec5380ca1; 0x78b7f3cf89cf9ad4; 0x68ffb9df5e5222fb; 0x2a72a9cb5383bfe4; 0x7942aadaa5c0789b; 0x5a7afcbf50f8e427; 0x405bd7a6c3376b75; 0x538d518c0053d841; 0x732f422d81dbabf0; 0x31e831015f30076b; 0x48fcc30d2014498c; 0x721fbbb3b36a6c7b; 0x382d51328643f710; 0x282363cd9f54b393; 0x6f4660ece0473163; 0x1754f20fbdfc1b61; 0x718ed648ec2c9c0a; 0x5d7b3c463bdc1bbb; 0x339a442dba478051; 0x17f253f752aeec7e; 0x3d7e6e5bfb9c5974; 0x5869c8b96c312bc1; 0x2705f856e5174a2e; 0x5e2de7e07411bcfa; 0x7d92a6aef2f4702e; 0x1983acca7197a466; 0x3a5df6c94ee61141; 0x229f2550dc37c693; 0x3a3c0f94b0bee385; 0x4abb20251d7d1147; 0x4a7ab06ca3d213a4; 0x508a56400487790a; 0x40fe2067d6966e90; 0x5383469991b43d0f; 0x78dbde21be7493c2; 0x7b136e88e86e7db2; 0x39b14ed36dd2198b; 0x6e525f3c4e3298f0; 0x227fe24dcac4de1d; 0x68cb96b74ced01fd; 0x2b7225027e62dac9; 0x30ca7ca960ff58e1; 0x5869b81bdf999211; 0x576859c0a3b60f00; 0xbf58c019c5ac68f; 0x2ac0496adf818459; 0x112dfdb34293fa55; 0x1f7c2d342740e524; 0x532e95b25213bcf; 0x2a8a061bef043fa2; 0x4ba7c5567644cda2; 0x565a19ed93b06789; 0xd3498086d5b805a; 0x21414c4ec1fd1b2a; 0x1a3181a984c9d995; 0x167a2b7eab14cdb2; 0x5843bfa45f419709; 0x356ddfa6f12dc099; 0x2428ae5d419bca91; 0x4fdd806e2dee6671; 0x356f19b7e08fd1be; 0x7206cd965e0f5f80; 0x27c4c758ffcb1aab; 0x1b2206a3f38a8727; 0x540e6be1b23f4f55; 0x421cb2753ef94971; 0x7d1b2f0e4d7b229a; 0x1803169f58226e76; 0x5438e631989a6189; 0x154cd04274dcbb1d; 0xa4c7cf43cf2469e; 0x297c42017f7b9f5a; 0x25f31f4c3028f6dc; 0x45dbc41c29b67ad9; 0x3b342531788752bd; 0x1b6220f212598f47; 0x4dcd33f2b336f3ec; 0x3fd9c376bb89f5fd; 0x71e7cd16adb9f94f; 0x612741067aaac4db; 0x23760be7c1cd160c; 0x2198acf390e2c4a5; 0x71b981e5810582dc; 0x54faa2fd68ec5ef3; 0x1366c6a40e88541b; 0x4b62c7c598f3a817; 0x5109f7d36c282bd7; 0x2d723e237512b7ea; 0x4f99418cd4218ffa; 0xb00d90dc6830d57; 0x78001999f9e61c8; 0x70300cc00c3c3f3c; 0x1fe67e1e7806019; 0x3f030fc003fcfc0; 0x78180];
   [0x66d1d008f3c10ba3; 0x3e0f24f02bd0abe2; 0x570633ad282b9581; 0xa49e199e837e546; 0x37ff2a43a437db3c; 0x6af681126d018548; 0x69464dac4d74af4; 0x595e791dbc2d146e; 0x72b4be63553a4b7c; 0x2010246e18717635; 0xcb3f70b14605fef; 0x32eba38c8c1b1992; 0x209754337e2789ec; 0x17e004f2efd9ab0f; 0x1d86de9ea21b2fcf; 0x41ff87508a9dc07d; 0x128c33e04454364; 0x154184aca0ebdf6e; 0x53f8feb3b71771e2; 0x70db8e301a267e42; 0x763b6d430aa48027; 0x60a60c888903a881; 0x518613498fe4ba57; 0x60ceaef857ee5608; 0x2535e91683f33f25; 0x5fd6a810ce5060c4; 0x2bb4274d2be2645e; 0x2d0cc191fb24499a; 0x41496b6ab8b1950c; 0x765f9c8d29b7e994; 0x31ed162888d78cf9; 0x20c3548946c044d4; 0x171ef8de08e9eb48; 0x436550fbcbf610d1; 0x47863dfec49250d6; 0x1465e76c69536bb9; 0x5eb99ea6e174702d; 0x66393990ce1563a4; 0x6a960f1e2647f665; 0x6af22c58d5953367; 0x40a4d2084669b841; 0x41139794a64adfcf; 0x3b012b299de1482b; 0x655e0d48150d79fe; 0x6812eefeef6a8e0b; 0x3230fb884381f1b2; 0x51385cbc2d6b893f; 0x4d3c6000379ca184; 0x6b494e0e51ad5926; 0x72ad3e18669b61ed; 0x1a87db57b2779daa; 0x45e197b4ee9f3b3d; 0x671b88c38dfb0834; 0xa031d532cd93e1b; 0xc459b63e678c6ff; 0x371f4de50a215019; 0x73be2102f898bb63; 0x306d9ec8eaaaa998; 0x4897f9b4463f8048; 0x4b731ed444e05ea7; 0x7494d6e7ef61f187; 0x7d3d21de5bd1d49c; 0x6b6d0404e8c65de5; 0x687fa20134d0c501; 0x570934bc94907811; 0x6be1a0125fb297a5; 0x78c93b7eb6aaab2e; 0x1465df14c81f4558; 0x7b5f328770c7858; 0x56a9278cb9936aca; 0x3aee0fd4c38308b9; 0x56f76cbdb549e94; 0x4f169d981758259f; 0x39bbbd1054519cea; 0x37d5d45ba04aded6; 0x6612728ebecb6405; 0x52d516051a73f65a; 0x1f71dede78445a23; 0x6d59113630be5f2b; 0x45bda2d022c69010; 0x2261dcdaa2223578; 0x3a076bca23307698; 0x274c538d67181e7d; 0x31f851b2c4a92996; 0x2bfb6d645433557f; 0x51120b57819de63; 0x621f99bd4a7dc874; 0x57a2920961fecf62; 0x183782f84116ebfb; 0x2005bdacc4c9f695; 0x1f15a10d855e83a5; 0x29c23201b06e6e4f; 0xfdb561b21923af4; 0x293ab7163521da18; 0x465154e945f826d3; 0x4935092067bf6e6d; 0x5c3a543d022abb0e; 0x1bc4567f6d164181; 0x611441f4cffed2bf; 0x20315c51118b37c1; 0x49a4bbc1953aaa79; 0x1c54b2f7627a4f98; 0x7741fb9d9a4dde7b; 0x30ef3c90086b48cc; 0x2e1c40bf656c1548; 0x21b3fccc9e9576ea; 0x35639b8bb317cddf; 0x4342499435f89ff0; 0x371cc97d7a478562; 0x2341b73e8e34f2be; 0x63d10075c6f9c310; 0x6ea86254a3eaaf1c; 0x19b1d498ef4a0af8; 0x1a505c9ce72d80cb; 0x2a21acad3ab29744; 0x4d1eaa1d01b14868; 0xf2477070397781a; 0x17e7faad7cd7f099; 0x5e1030a2f43929df; 0x396d3b4677be4a89; 0x3afa6db94fa16188; 0x1e79455b658dbd9e; 0x1312e834af921c2; 0x52de85bb498e2579; 0x73549ed778dcff22; 0x17d9322fe284dc1d; 0xeb47eb4e9c501b9; 0x4e97320093c4ca21; 0x4b37244cd9a3d2ba; 0x72a42301ae7147f5; 0x18ac1fee1ee6fa2; 0xfebb21f39fbbe1f; 0x8b291c3183d42aa; 0x43557aee3bfd635c; 0x586df2503278ae93; 0x9dc2c2b1e724a4e; 0x1c4478c8fb8ade98; 0x446c4f1e6917d947; 0xbf62a2b4cbd81f4; 0x1ec75acdb48b12fb; 0x1d1aabe591630050; 0x2ae1ccb63ceb70a9; 0x1135b9be56ac7318; 0x3da2f2776bc7ac6c; 0x334d2f8affbbb7a8; 0x1bd9625b246eb277; 0x3b566f61d3f395cb; 0x627add2f9cb608dd; 0x282e839eb9f2656a; 0x10ee37cef06b60ca; 0x1c234c2ddd72864f; 0x7aa4c20b1243f2b6; 0x5651ee07dff294b1; 0x7d989a2121ddc59f; 0x5a4568113fa11b08; 0x244f2d2ec3be8293; 0x3046f09a15b055b7; 0x2583b4635100e107; 0x6face15bc4b65017; 0x25ceb1b8076f51e5; 0x262abfba80f483d1; 0x2ec07b2b46899e0b; 0x3b9054126326346e; 0x58eddbb43062f10a; 0x1d7a8f3072740e01; 0x5a88e3a58d2ba8b2; 0x1236a68ca6c5bade; 0x647c43d0b2de634b; 0x92f3133bdf5d2c7; 0x2df4f9c1f618d876; 0x4719db9e6394446a; 0x14555e27f4b31435; 0x6acb53d2e4ed8b30; 0x522843e9112059f2; 0x2d8e9c393421eccb; 0x551be648928c5f9c; 0xc22831799409ee9; 0x53c69459ccce3bd3; 0x50f1730170c60507; 0x2c52773977ff277b; 0x4a7f9f2a453f3ed1; 0x52671ff20779655a; 0x140fcd2985324633; 0x4b1eb3e79c584f60; 0x3226dbb74e84b2bb; 0x343e6607abcce380; 0x6955187a0be013fe; 0x758e7d3415fc5062; 0x6d52051c080f93f7; 0x2d8b31f67e4ab154; 0x777a00702124737e; 0x2d2e751d8109fd71; 0x5402dcba58a159f7; 0x2013a22bcd13d355; 0x5ffafc5d9436591f; 0x7dfb6845264a4776; 0x785cd8b8e811e314; 0x882b9bdc1cc803e; 0x50213345da84b56c; 0x57983f4f53e32089; 0x2467d657a7721d7f; 0x6ba28bf9eaebadba; 0x25f234f1db7d3c5d; 0x29634eee0a1fb4c4; 0x4a6a8c5de014dafb; 0x5d1097dcd7c99ac4; 0x7285feaaaaf39ec3; 0x60c881751a792ec3; 0x15486bac728c746d; 0x579e4c2ffe336850; 0x5f8d3a828f2d0719; 0x5528689a8508fac7; 0x59d61fb92049a9c; 0x5b2fb6a232d9d2f6; 0x3c811df061d90ed6; 0x1c90c1aaa225d9c; 0x7c1ebc214f494f3d; 0x20772d273752e1a9; 0x103c10f180b975a7; 0x5edf13ed7985216c; 0x6557d8ca1cef5972; 0x1e19497b40591217; 0x6ed6492d23d58212; 0x95c8f58af203706; 0x6ae6fa6782dd20ad; 0x74ab0f988124012c; 0x1fbc6a08e9e26e1a; 0x10e191c35e8b0338; 0x2b80e80211bfdf49; 0x512a446e0cd4ae08; 0x74c14f7fb681d74; 0x47a9f8e3e6682d4c; 0x40fa8aaef8c9715e; 0x3ea80ca06fe15a89; 0x59d573b2cda06a56; 0x5663bb3e9bec9b96; 0x1a569829dd9275c2; 0x3ba27ddb53341e3c; 0x3f01aaf8dbe19014; 0x2a5af8a150a43972; 0x8b821e401e66532; 0x2061a5d967253364; 0x5ced1e0b0725cc9e; 0x37db319d929cf9f4; 0x76407c2ceb9ee7e; 0xd973fa922e684f5; 0x383a682102a27959; 0x4f0e1e35f667821; 0x25baeb83327ee43a; 0x44f9a31fbb60ae85; 0x46045f4c03e357c2; 0x291211f804d75884; 0x60dacea28d761284; 0x17b51eb8e516d007; 0x2cb924e2ebc88c46; 0x23197e2395d83274; 0x36819e3b785a31ef; 0x10e97912ebebdf83; 0x304ed19d31e992e6; 0x7c64828abd78fb06; 0x5a23f7455b56779e; 0x2414805931da6861; 0x76fc72f4c067bb10; 0x29902aae8cf92fe; 0x2934eb8713606936; 0x540761a31a90032c; 0x7cc0acd73ce161d; 0x1c7f385a43be87de; 0x7229252fcaa506a8; 0x486aaa52ce967b8; 0x10c38d06192e7d5d; 0x29abf6fefef8383a; 0x184b813300c97130; 0x6b42e1992acb87; 0x1b8e303c83a813ed; 0x2e42addc66c9e581; 0x578256cee8b51c3a; 0x4523e46c1cbea31a; 0x2b9460a5aa47f29e; 0xb0504f0c5356b25; 0x16202afffb2cffa3; 0x7957adf81efd5a3c; 0x30db2e8cabd32bd0; 0x7db6acded88e2321; 0x65e7be436d1175f1; 0x3e94f40de160612c; 0x43a7e1e0c6065c17; 0xea6ff0c474c29e9; 0x215a18965c28efc1; 0x223e919cd3f0297b; 0x388a0a6f757731dc; 0x2e79b473647fbe2e; 0x589f8b276d6aa952; 0x32c41606dfdbf962; 0x537bd1abc4c673ec; 0x4a9bc64fcedefc89; 0x6a631091afc6109b; 0x1a85321add15296; 0x2f07c7e6e9a10efc; 0x167cef8f46932334; 0x6de0d74a01713cf6; 0x3e0d017f998aee8e; 0x3c7be5931e620f0; 0x3de9b35f67b1da7f; 0x22c23560ede71816; 0x227f97d4ebc79c1e; 0x184f7d2ae47248dc; 0x738ee25e9ec21bcc; 0x7428e32698a3121d; 0x59fe501522381f0c; 0x63778980bc5d56ff; 0x48369b743d185f56; 0x2483599dec54c988; 0x6601867fe606186; 0xc3fffc033f0f0c3; 0x79878000787f87f8; 0xfff330fc0fccf0f; 0x798];
   [0x4092583b7644af1b; 0x5846acab17e9f371; 0x7f59713f71c5aa6f; 0x440123e69f11f1f8; 0x499566af70fd28c1; 0xc41cb88c5832a64; 0x18013fa929acd7a3; 0x6617643f1f6a7b4a; 0x36b5ea60953898a0; 0x21b6c45dfe306e0b; 0x6a5e8f03de6d370b; 0x45bf47cf5822fd6e; 0xc34a3e7fec4b118; 0x234f705e763e852a; 0x3962bb4320e0272a; 0x59eed0ca8b4aca67; 0x45d902f50472c9e0; 0x6b75b28ff7f9930b; 0x116efdab27b2b4e7; 0x73ddec031f73acdb; 0x28331713f13d71e8; 0x3de73ae998be6647; 0x1378153a9236e9e7; 0x1566a4afb7dad5c; 0x4a03abb08e25a6db; 0x2192d4037c7ed214; 0x2ef76397c4453c4a; 0x23892164355d4615; 0x6af6076e9c0cee92; 0x7a4f6ca826f19394; 0x89e1f4c2a44fe76; 0x3c830b9d001efb9; 0x41c3f5042c9cd05d; 0x1a9f9b5c00ef9b4b; 0x433315c63c5b9bb0; 0x3dec749b07c0434e; 0x5d3efe2e61db714b; 0x1e322445b7109cd8; 0x166228e31f2e78fa; 0x14bd4dd2d94882a3; 0x4e73ee32c80f84ed; 0x48c8a96c6085b266; 0x7fe19feb87225330; 0x547bb544f35638e4; 0x1347ae36e3462dc8; 0x105fbe74d9a13d70; 0x9ac6fdf90276e03; 0x66f283b8eb3c139; 0x352707a063c46ea1; 0x5f90ac0a6997a5de; 0x54ea9977c3a05e7f; 0x3a36b26d6e74033e; 0x6415278d7b40bb7a; 0x437e219963212101; 0x1b2585f8f72f1c77; 0x2dd3672a34e4e9da; 0x17561f94b58aab6d; 0x4b91ef7cb3af36f; 0x5b4836d4fed48bf8; 0x6626a135a57b1034; 0x5977527962d2c965; 0x1e5f3c66cd9ca0d; 0x2c18830477fdeac9; 0x2efca9e55406a3a0; 0x668df8340a075797; 0x292aa1eb0f76a816; 0x594d6f9d6bd463eb; 0x93ead343508cdb7; 0x1a5262803e1f200a; 0x7f97326a8330e061; 0x42db5ac7619c246e; 0x22a665da474820bc; 0x549a42e2bf193835; 0x7f57e63e3f18527d; 0x431844a00429242a; 0xa511d94b52e09a8; 0x589ad96759fbfc85; 0x7916375a8ee1e8fb; 0x1f424384a990b209; 0x4d8c5dfb38290215; 0x2f62746dd09b3a11; 0xab07a458313d372; 0x185c8f005df14df6; 0x6962631fe458ffee; 0x750c707a0593e7a5; 0x773b5a39ca17eb8a; 0x30d57d5bef019dba; 0x7f424238fe1663e2; 0x248256a6206ff2aa; 0x189f9611632a31bf; 0x596a2d650613cbb; 0x29aece3963977b68; 0x3e3b0b2c2512a0fb; 0x18325badbf2444c4; 0x1215e94d496a8701; 0x66da952c94ec217d; 0x4de5ca77f2dbf85c; 0x6c423bde8570d5ea; 0x6a6537ced8709f3a; 0x6b2c096c7e47a08; 0x452f0fe641affd88; 0x2f636c7e71ab238b; 0x7731f5b74347cc07; 0x10fee7c96129ca0d; 0x65599cfbe02f8752; 0x176c4e10a99e958f; 0x2676a4f8d16fdadc; 0x3f2b7bb14a5cd4aa; 0x12d570e1cb79cee9; 0x729a0753e583ca35; 0x44568c70714e4df8; 0x4acec6191c4e4dfa; 0x7a5a9e63dca36969; 0x73c7841b40d22aaa; 0x6062dfa8225f42c; 0xa1bd3624fc087fa; 0x55ef53590deb892; 0x50bb599ddbccd8ea; 0x2da32dac51606748; 0x46e7a2bb22f88d93; 0x1368945efdc727b9; 0x46ad74e76854e589; 0x5100f90c7ea11ec0; 0x6b7ec59f1216a8ec; 0x7df651da0e7c1367; 0x228b3065298fb564; 0x1c71d0629491f1c5; 0x44c1831a8c01f416; 0x4296de154f8d3945; 0x26bb3070d30df53b; 0xc6de26ab552d991; 0x7927e09da4cf3719; 0x776a4bbeeb497808; 0x4e90920eba2cda6; 0x7c95bcb6c5225267; 0x7d4fc9391c61ef5f; 0x11e2b1864920f5e7; 0x4a13698efe34ab24; 0x201a9e6e1934400e; 0x53af8dc4440b5c2c; 0x32f8bf02ad8ef436; 0x732cfd78f5728b60; 0x6cbe5267db4befdc; 0x6de33b2fd9940099; 0x2267f72163e2045e; 0x1f1de2aa9da7fe71; 0x11d397fca71aae4c; 0x1477950b51a060f5; 0x7592b9b79f632f37; 0x5e573690fa9d57; 0x39efbd2b128aebae; 0x1cc99a2fa06c9729; 0x44d5c87b81dafa9; 0x7e679688d83bfaa4; 0x18bd7342dfd48f4c; 0x4ecf480991a21ea9; 0x626f2950935917cb; 0x529f06288b6da6e6; 0x789f4ef2a4e820ee; 0x65d4cf0d5a14c24b; 0x1cbf05329e9108b; 0x3f4324cf93f52d90; 0x7c63e99edaa3d2e3; 0x66afd9521451e01e; 0x5f5564ce2c7bf2a1; 0x1d4a394d185a460c; 0x70bfdfb040da907a; 0x108eae48f1b92861; 0x43ead6fe8d37b132; 0x2c72401bff93cfb9; 0x67697df254c53f2e; 0x54d5687c504b42de; 0x76f36c18ea4122a7; 0x2b349e465f3def69; 0x6ef197c45840a6b1; 0x172640307dfe1d06; 0x17dca025fa3ce94a; 0x33651bbfb1dba1c4; 0x52b21288dc45bec4; 0x32c9d3b452cff571; 0x6785509d5825ff83; 0x1f64cee9bc823097; 0x11829c7ca3176fdc; 0x67d9bf40c1878bd2; 0x2c813e80f1f32fa6; 0x3e86e343cd5ba648; 0x58a9006c302d25bd; 0xf63e00f3039aa6e; 0x744df5111ebe6901; 0x26fba1ecdaa23df0; 0x767792eb1592ae17; 0x33242e0115f060f5; 0x3f286ca0f7cf68bb; 0x4744e98cb224d242; 0x4bdee329b268e289; 0x89232791b2dc58a; 0x74ab10733700ebe9; 0x2dfc5e836e036a6e; 0x3d4b08f4fa2547d5; 0x5aa9a9cc1a19ff8f; 0x41ecfc8e3496f64d; 0x1404824c0b3bf79d; 0x3b9cc50ca8d4ec36; 0xe07c45a896bcff2; 0x10f1065a0bb33924; 0x7dbd05c2e82ec8f8; 0x52771f3a5ed9423; 0x4210bcde141d5efa; 0x4acf076063215275; 0x7a429f828d325125; 0x4aac215ef43a290e; 0x23e5df0b3e822ef7; 0x1053cc3d18ba2cc; 0x1ab0c3a2c0ceb29b; 0x6c29e8ff561a68a8; 0x3ae555a6aa356f55; 0x256ad2b3298c079c; 0xd116865eb7163d1; 0x6cbab9fd69b804cc; 0x3797fefec73b70a0; 0x1449ae32b70cd7c4; 0x393f9d7abbc30c86; 0x43a52503c2707408; 0x49fdb558c47d4ad0; 0x77c1ed62f459bbd3; 0x2e019f8d387cd2a1; 0x33ea2dcc19a495ea; 0x7277c8138286f5ac; 0x4af9d6aaa8d4ccea; 0x327e06bafcaf6041; 0x226eb9b8eb874bd; 0x5169941e8a007fc; 0x1993c095afcf560b; 0x437b5f8f52c77ecb; 0x5f9ef47a21662c67; 0x66da57091125a0ee; 0x2e958c521adb21a6; 0x6054a499032b8a83; 0x5af5df950ebaf1e4; 0x3ee5f277d50edb96; 0x58f48e2d604d1d79; 0x72ebee061432b6f3; 0x18f0466312022782; 0x6f9aafdd7556784b; 0x5f485fd3d9916e95; 0x76695211437e4adc; 0xedd6f781db6b07e; 0x18dd2fe87656913f; 0x6cfeb787d0c604d0; 0x71c126775b069c8f; 0x1286bab198d08bd0; 0x247b5335740d2528; 0x58988a3055aa7e76; 0x206b071c13291816; 0xa244a34a0e67afd; 0x7636450cebe3deba; 0x21a72a6c766d4a91; 0x6b835e899de10e16; 0x4cfb010e4b8dee9a; 0x25ebf9112f61ee1; 0x44650ab3461ac77; 0x5602402e5a511af9; 0x25e1c9f173ff8217; 0x4fe72fd68d362098; 0x7d3e6dacfdee913f; 0x36b9dab078b79e19; 0x3dbe9a6fa2e4a525; 0xd0b492a0c6cf5b9; 0x78b9d0869f6fc0a8; 0x16cddfe05deaa05d; 0x4d1c97c48e8068a5; 0x51eef32d52a3ea44; 0x502a667281c45ac7; 0x12ead03759805581; 0x67ea880994e5c954; 0x6f489ddf967c5831; 0x44b7d65b82979f53; 0x741c130178e81201; 0x68159c04bdc64e61; 0x73cf8dff5624aabb; 0x2ae812b43a32924; 0x7bf6db3ad72915ea; 0x170f79eb0ed6349c; 0x66de270d18e3330; 0x37293481934c7cd0; 0x73635f5174776649; 0x6809b1363c4543de; 0x3ec31e3a8e3e7219; 0x563984fe52fb3b94; 0xfb67e25d7580ee1; 0x122a4bd35ade516e; 0x668de55aa832bed9; 0x4bae8628dc8fd1e2; 0x60bcddd741a84ddb; 0x568a14c4e8c85c69; 0x31ff057ab2e18751; 0x23608ae7bc297505; 0x678cbade46e0107c; 0x5663e95b3bed700; 0x389609c4da9e7d64; 0x553e97eacd8a861c; 0x4391ee97455581a1; 0x5984f910246c2bd9; 0x76f92b42cc963f08; 0x32e29c0bd2ae89d3; 0x18a83fbc130c857; 0x39c2fc79ae7df8f2; 0x4713329562b1a20; 0x1deb84878d959a00; 0x63ed4ed3330f1a94; 0x14811ad01cd18ebf; 0x58ad7d96c20efe41; 0x237876ecb5cb8d75; 0x6198678618001f68; 0x4f3f0cc033ffffc0; 0x67f861f80181981; 0x4cf30cf0cc3cffff; 0x198619];
   [0x440148eae4377089; 0x48a2291ac21993de; 0x61246a6cb59ede38; 0x6329b8c36461586b; 0x226cd07c08650be9; 0x2f680243b9b45a2a; 0x37dcf8737a3b0bc8; 0x29b787b455d7359c; 0x3bc2bda773209c2c; 0x28b388215c8273b8; 0x3146a9fd559489df; 0x60778f3c7db7c217; 0x784857993b7ea7eb; 0x4cbd9cbd798e30d0; 0x5b6314341a33c802; 0x348c0c48dce727fa; 0x63eb97b4eb56a667; 0xf0cad5eb2b9915a; 0x2fa79bfe187bacd6; 0x4ddb4b3bad17b10f; 0x5db155bbbf8b7368; 0x31ba3ab9f88180f; 0x3837d566630a4259; 0x46c877bf2dad7869; 0x62a433479fe41b8f; 0x43fb9cdf01926409; 0x70a426e019fe7905; 0x2df7b9ecc6ab341a; 0x19dda08432463e57; 0x62b4e02fde8bccc6; 0x6b83de1d49888a91; 0x326b7b793372524b; 0x3fa2dde921dda38e; 0x7a14d71102e79c38; 0x7f0042e32cba445d; 0x4290fa18a6472156; 0x2fa2dee50fb1f72a; 0x264a9339f04ad093; 0x59863919e172ff0e; 0x540e8f8ebedc84c9; 0x36fb19f07266069e; 0x5ea44786753d7d97; 0x5da82a42a68a0525; 0x577c9867637e4739; 0x68ed07a02e5b178d; 0x57c9073268e6ba51; 0x5eeb847cff8f7c8b; 0x4919c61309f9423f; 0x1edf6d0e0fe10ca2; 0x25f127782801ab9b; 0x5a8525c0c71991b3; 0x7fb44d7ba80e12a7; 0x1427a2d5d8ad658f; 0x675b3b87a72bfdb5; 0x1d7a1fad3956eeb8; 0x2ba970ceeb760eae; 0x1b8de86bc3144339; 0x7e340e6c3ce5862a; 0x2687a94183ddaa3f; 0x7e64070f1b0b48ef; 0x50f3d2c80086b424; 0x6ca9ab7a79c354fc; 0x7f96af5a68fda54f; 0x7a426933277cf362; 0x341335591dda19ae; 0x1e53f909b9f42e4e; 0x5052761b976f2145; 0x4a11e2b52a1218ac; 0x39320de5ddb9622a; 0x50eeebcd0578a67e; 0x47613a3bc535cacd; 0x6d0383110cced578; 0x3bcd247345a1719f; 0x6dc12866e7d4cefa; 0x334b8af149604456; 0x3f8346a307b8a616; 0x5f117a62597ae998; 0x2ab4a8ab4b895a25; 0x5b27ff47887f731c; 0x5a9a035ee19e5bae; 0x7ac55be4ff848b88; 0x5fa0a233da287e6c; 0x733385d5a8afaf71; 0x51c0e41919dbd44a; 0x4cac289bfcb6c07e; 0x677e782c89dc057e; 0x23581bfb7c73d43d; 0x57ec026c793f4d42; 0x6187cf84dfcb75de; 0x47b4998d1d7d607; 0x32bf349e10f06223; 0x22d0be988d3eb82a; 0x7af312a9cd48f662; 0x2ad45a9e8f6cef38; 0x412bebca9414f8f8; 0x249df6b98b3f3e44; 0x5dfdb5f9864447ae; 0x302fd56bdc2d260d; 0x37c5c18d61358de9; 0xd6094e209af3dc3; 0x40ebca31fe531221; 0x70ea6ea6d788524e; 0x1903c2b1fe3cf41c; 0x68a45bcafb0898f1; 0x13598ee39fe92083; 0x2166dd004369a7b3; 0x5185bc03c102088b; 0x6ed5e153123db7c1; 0x98059aea9d340b6; 0x777b915f07111a6e; 0x157e2a3b7f24f52e; 0x264d3b23e93e8fa4; 0x38ff3139145bda0d; 0x4cf487ca61a5a65c; 0x78dcd71a7d3ecf21; 0x6f3ccb2a0f340ed4; 0x1e033f22b8b75c45; 0x57876929a8ca2eab; 0x32d2a3207fd34ea6; 0x24b0ea5c83f91936; 0x21c5eaefb0c26a7a; 0x59e83b865ce86913; 0x21f1a2de84ef26bd; 0x511a31a033134671; 0x4e9c3a083231c9d1; 0x75896347e92c18f9; 0x6ffa363380d0e1fb; 0x27f99ce01ed97725; 0x3f9e5ca794f9e1b9; 0x75aa97e750879b43; 0x14952f8f0eb92037; 0x46eed9da4109837d; 0x3801bf1a83034638; 0x7b49209eb1cb49dc; 0x906ae8fcd9b1329; 0x5e0e6e67e57d6bd7; 0x2abb5e181b00dd7b; 0x74ca6a144539742c; 0x3cc4bfc1a960c25c; 0x34bd545fea61f1a; 0x69b8be19591a9203; 0x19b2b33793c5ead5; 0x72f16a5ffbf97c27; 0x29ea8c77263bd6c; 0x31b4c966524fc85a; 0x2af4c9939e27058a; 0x3c03dbc1d8d42b8; 0x6798c7394ff3d198; 0x127e641d66f96fe3; 0x4f9b4f62a5546d29; 0x6671aa9e4a43ef9; 0x150613e7ba55cfc5; 0x71b5ba809cf83840; 0x2df8ceacf7dc89c9; 0x18752d24901e7b58; 0x35aa53745900d9fd; 0x28a0aeecaea875; 0x1d5182572784c78f; 0x1b4293e0eda34a1; 0x60769b8f2ed51014; 0x5efe94462e2c5c01; 0x5e36360891fbd02c; 0x2695cbec6061a3e8; 0x4206979f5e3d3538; 0x772a0d2b3a4b44a; 0x60a1df81be942d34; 0x6ccbf915f48274d6; 0x7a19e55ed617fa72; 0x77cf29ac257ba4c2; 0xd074c19f4212a11; 0x44401bb91b82c8d0; 0xc4c6fbdad9c21f3; 0x373386eb2b17f1f; 0x3738eb62df029a2a; 0x2eac9ac1bd09418; 0x51a1955c52ae39d5; 0x1e72ecdc38dae176; 0x4a148a0404ec7cdd; 0x1f9778532527cadb; 0x619d4bcd1d59cd9b; 0x7463727ae83de133; 0x22a855bd8053ec24; 0x79a16039394c4169; 0x3772b631a0f0439d; 0x4046824f9ba455d7; 0xb17d5236cf46302; 0x5b68bc8e50e8dc58; 0xfd5967508944a65; 0x25a5d3adfc10ee9c; 0xab4eceac6ac2414; 0x2830653deb7281c5; 0x607e29b795b45953; 0x6bf9a9b2c73bd28; 0x3a05e350b3e7ae65; 0x61f22b12930c36a4; 0x7faeb823e26a0f93; 0x2b6fbdf8bcb840ec; 0xb629bc95582fc3c; 0x3968acf071b03085; 0x450182f0ddd44557; 0x36d258da6e99feb7; 0x7b57c76401e8e8cb; 0x69968744783a8972; 0x61743ce5e8a8076a; 0x41f1844904d584d; 0x2eb6f0717988231a; 0x40d033bc99a6cf6f; 0x5405ea50b94893c6; 0x301613865f947a01; 0x7d9032fb71c1a15e; 0x6b266c4234bd5985; 0x3960c46076f8a130; 0x7fa4898412f698c0; 0x23d3926562738e42; 0x1f8696082ee8dde2; 0x288ca22c173d7f4a; 0x12bb443db823c8d1; 0x42a30b0a87d7ddb0; 0x205a1f0e83a70ebd; 0x7f1cada3d957d9d6; 0x59936e9f8a26f74c; 0x5d991865bbb24802; 0x265c0d0c39fe7e31; 0x454ef9852516b054; 0x4315076d01df4c64; 0x5b03d4a54a9e6873; 0x2aceb59a6767c7d8; 0x5b9c7006e82a4471; 0x4504baa8d90113b0; 0x2f84d040dec7cef4; 0x1478127846a16126; 0x529951116f1eb847; 0x77d003e3ffa1602c; 0x6cdcaba022dd9cf6; 0x367de795d73d001; 0x79ce42b81f26b23; 0x757e78c44e9f909f; 0x5b22d9a2a0c47e18; 0x7630758e2f8f1722; 0x37685d0975619c96; 0x58ee1e2eb4312dfa; 0x3a9d68b5b7d9de31; 0x354cabb4e94df9ae; 0x6f3965c5f5b1ec7e; 0x507e14875083a983; 0x59750a1fe7c0c1c6; 0x34fd3b49ff1c5be3; 0x5223a0c6c07027a5; 0x17ce154e1818f099; 0x7885637db70c1efe; 0x5749db60ba9db97c; 0x1108dc676c1a391a; 0x191368f4b48418c3; 0x21a4ae6e05585362; 0x752f6c9cc7e859ad; 0x1194e7dd875fb397; 0x7b0c76b61f4ffb12; 0x64a971d4a419f330; 0x30c6ec5eb73adf65; 0x5661dcea8c5bfbaa; 0x6216421f020fe34; 0x52425500df5eaeba; 0x54a34a19f96403ae; 0x622b19067f91c4d5; 0x15a9eae4c07f81cf; 0x12407e67e19acec5; 0x1d74e83496431c5d; 0x72b203746df5fd79; 0x4f1739f4f230f56e; 0x773050cf428042aa; 0xa76f02867c7cd08; 0x5556c29e76a775e; 0x3d5236a4dd2b85e5; 0x6c98db338cd32eb; 0x2948e2f58a99738b; 0x338d51a155970189; 0x4ad1a4a6cf43f324; 0x6b64f8b8df3e854b; 0x71cf702082a54606; 0x80385272b27fa40; 0x46be532035765dc0; 0x5913899cc4eee969; 0x28235e8584ea241a; 0x6d455716cb82feda; 0x1c33fc86672ccfb3; 0x4571a38207a6d084; 0x522b7c41b60baca5; 0x199c53736e887641; 0x71e583d1f29fde2f; 0x10f8a02e4c59a716; 0x4293df14fd91390b; 0x202fc6c80b1a0fb9; 0x68f0f33a8087b956; 0x1183e8d2b905c9b3; 0x565a08767b030794; 0x60480c3714586b65; 0x2987bd681f644f80; 0x5cc9875c00728a4a; 0x140bdf46081acde4; 0x7be8714b3f213ab; 0x698125e49f62aef0; 0x6260267c3620d0dd; 0x28d750a9ad0e9dcc; 0x67ea4a5ee8958f6f; 0x4907b937741e2552; 0x6fef500a74360329; 0x6075ec97a04edc0; 0x5ec91f7a76de20de; 0x2c4926ac946af2dc; 0x2c8c18c0d230786f; 0x6925cd1e43c6eeb6; 0x5a3cc7d3988421ab; 0x58288ad2a6eb0a63; 0x78618618019e73c; 0x7f3fc330f0cc00c3; 0x1e66079e01980199; 0x4cf33ff3c0ff0fc0; 0x1e7f87];
   [0x566250559d8d7a76; 0x18a7c0a2b5ff187e; 0x733f72964970c7d4; 0x6cf191052fda088e; 0x387c929a9126a8e7; 0x2a60ecd3971d855e; 0x502c84eb66740cb; 0x2b8ce05133c275b5; 0x63818e80d9ee1428; 0x73e05f5bcd4afb27; 0x57b8818645c14501; 0x3f0e38ae57bb5b48; 0x54adc7f0e3d39cd2; 0x774b9aeb1467f943; 0x4b85796767d874e0; 0x17f3d59a3cf0c0b2; 0x2d5b10c1ebc9b5e6; 0x3095205d9dce8085; 0x1ecd87ed8d96a43c; 0x2bfdaab8f9ea3fe1; 0x2c0ab830717f7ef4; 0x5de84a0d032059d1; 0x4f128a3fbed531c5; 0x43dd677126445977; 0x163c1f89698d0950; 0x6e95ba005a826477; 0x316e02207cbfba73; 0x66c5aa1650ce4f52; 0x6c36d8c00a244e65; 0x2d0ce6f23ecab30c; 0x664f6aa061b8728a; 0x368beccb939ed70f; 0x6d1d1ee91b8d96ff; 0x58b766d2b2af2f04; 0x102fcf9cd353d9e9; 0x5c3356c912b6275e; 0x7b17ab94a36e041a; 0x5c7b74ecb5be7d9d; 0x300d8cf96374d230; 0x294f681860b22a0a; 0x452e0f22e6796895; 0x4706af43ec5b888c; 0x3983362b61233973; 0x75d2ae32bcb863cc; 0x2a8a63f5a9eacfb6; 0x38ce8714c867ff7f; 0x4ac56d56173fa21d; 0x3db99d8a3be0ce8e; 0x3dbfe5beeeb74c96; 0x524c5653c55788da; 0x685bac8baf4596e5; 0x23fe5eeefabdd55c; 0x36be63478047367d; 0x6feb037ef561d31c; 0x3c3eb0722cea8b63; 0x1c08a6f466194b20; 0x38b3ddc7d4b1f693; 0x41a1d8abb377a401; 0xb894b8c169cf23e; 0x442d4355fb54cab4; 0x647dc61a23f475bb; 0x36ae75fcc1453eea; 0x3eb4f6e395a9369; 0xf21aa8e83d793cc; 0x8f857de4dba79; 0x348cb9383e2bb3ab; 0x63daf757620d1789; 0xd684256c2af37d9; 0x60a67c9abe414d5d; 0x1b68c0ca2866c22c; 0x543b75b5d224a145; 0x46759443e15ad333; 0xe45f1774d64fb7; 0xa8c36c020d3bc21; 0x58265d5981b04d96; 0x2b986c60c7cf04ab; 0x5cafe5164ef1fe2d; 0x692958f6c6f6a4b0; 0x5532cf876e7e2a1; 0x5077a97dbb4701b3; 0x2ae5c23559eb22c; 0x573d11ae76eea74c; 0x7fefb6374162246d; 0x2c140204420a7a20; 0x22a48f9b2f1b94b2; 0x767ddeaedf9696f8; 0x5766d88307ef0e49; 0x3c78054635e72a50; 0x3a20c26bfaa1f922; 0x7afbabe7e4b1158f; 0x3e8d3b1530d3625c; 0x2f5dd49169ae3985; 0x6957e79bb94eba07; 0x398e265bb99368f4; 0x45d86291a192441d; 0x5cbc470573e5379c; 0x595d1523525ff942; 0x1668c708016ea003; 0x4395d0a45e2ac179; 0x5b4f1698f07e84b; 0x49337bfc809e18a7; 0x1643d79f3db9d697; 0x7e4d9a4afc15f29a; 0xf62f1b9e20899e2; 0x144eb26b7860b6a; 0x1e77a42500add68f; 0x375f4255b82e1ce3; 0x5425b8dd9f01ca7e; 0x46aaba5bd7317e80; 0x1a83fa7fa97588f5; 0x21e68c54a07e10ed; 0x3acb31243b36e3e3; 0x2884876f0683a1e4; 0x279457c016507879; 0x1c95206c85d3128c; 0x326c87a1c352f67b; 0x66ccbe397bbaa51b; 0x11d7f596bc47665b; 0x4c3f2949734673e2; 0x1c33d0d157fa3c00; 0x3fba220d8f3c0367; 0x642c6fbd45d1e48d; 0x4e25f4cd2ee68a66; 0x6e4a6ae65c970118; 0x71d8d89923cda1c5; 0x2065b0a93d3103d3; 0x484641d4f64866e4; 0x5c5ec2d7f41171b3; 0x25d7ba820f370292; 0x288dd2ffb57cf4c6; 0x12914f8624f823cf; 0x4a006e75eb87f5a7; 0x2996dfd863c35478; 0x7d0d451668b4a488; 0x12b902be759a64fd; 0x5a0ecedb9d004825; 0x5695cc6a1c38c8f6; 0xc967614d223afd1; 0x4755cad54c93d53a; 0x6e21a207c1f2bc68; 0x15a79ec4595bfb9d; 0x44ae446cccd13d84; 0x134f0471b60fafd0; 0xb4bde83c3669556; 0x845cd1c67afbd88; 0x4a09a7314fc17058; 0x1f202f3e0db9466f; 0x25cd329fbc5a449d; 0x6f6b6e7a4b7f3292; 0x5dbcf900bed02317; 0x4bb9d34617fc69d8; 0x64b3b5ea0de2d045; 0x2cbcce9707ac7592; 0x7f33af66bc84382; 0x7e12ffe6996ae3b0; 0xcce44edc20164a; 0x5fc2164c6ec77dfe; 0x2b3245112762d879; 0x309541e2918082f; 0x520a1d8e7cdc6b4b; 0x643054ae7c72fe1c; 0x654933af46105237; 0x3f012722f39b8e6b; 0x70737e2f95113083; 0x2d265033aa9104f; 0x51e19a15068af1fd; 0x6047e26489573928; 0x4aa21364311bd7d0; 0x1fcfa7811ef5c564; 0x31a18596bc6724d0; 0x3b13bac3f6121596; 0x75eae9395336ab09; 0x6fba201d3fc69c02; 0x246956c3b65069; 0x6500e0906ac1fae3; 0x79965e04892000ba; 0x6a027290dabd07a0; 0x66aca047c503fa8; 0x361ade2be4c5a73b; 0x38759bada4c17b2a; 0x682d68ee3e79ab42; 0x6777c3c737683978; 0x4687725539fa5e8f; 0x753d0827f6120657; 0x1b3de2424ce2d6df; 0x3f692a7a839c500b; 0x630948e90c062fdf; 0x91263861c479233; 0x47e2c153e684c210; 0x7b3036a32a4af682; 0x6608a94aff3fdc2d; 0x4627185a816ec503; 0x49c08fadf5fbddd3; 0x2761e03a3bd1fed1; 0x44e9ecf0766a3b6a; 0x227815e6ddcb7512; 0x5028f7b4d6ea4d7b; 0x19be9d13afd71101; 0x6ad990e3451612d7; 0x9f1b36c1cf13136; 0x42ce4ccc4725305d; 0x680ecf3665a33213; 0x2a93a8c9e66ad4; 0x5c90a885c8127a1d; 0x33bd837a8947d46; 0x1d6237a56de98e47; 0x35028b7a1b0dac93; 0x4cc0943e5172ab6; 0x295afe624bc493e6; 0x7ef5792db6072794; 0xc02fef77edaf3e3; 0x30e4244b4f8a6a5c; 0x3b8b3430751e08d; 0x7ea857e0b3331764; 0x7cb598843109cde3; 0x1a5371d0fee9cfcb; 0x4265a31ba5dea257; 0x61f57b8fe8dacc15; 0x1c6db3ee43d21802; 0x61a8cf07bd3f82e0; 0x652f5559ecbed657; 0x1f1aff21cbd8b13e; 0x54edadc66ef9365e; 0x3caafac4a9363aba; 0x70c5ee9a3ef83df8; 0x4798a9b4f70f56c6; 0x2df4b9c27b3ec2db; 0x18eee498be6c0e58; 0x37c82d5dab5cd570; 0x5cf6e2b11f869e5; 0x19bd93de5a4ac64a; 0x42311b3bf173a1b9; 0x55736cfcee6452f3; 0x996c58ca44b6327; 0x51a819ef5f4f8d79; 0x71eb8cb91a32f9c1; 0x5684ab6ac7295a97; 0x56eb8a9ffedc3e80; 0x4ed02608023a6baa; 0x4b1fd24403989ec2; 0x2c785af4e17e57ff; 0x1684a0b2197a0ec2; 0x66cd490aac78ed5c; 0x706471fdb7e4809b; 0x4d4d98df7ffd06d9; 0x2baa288ebcb5650a; 0x445f131063a1771; 0x3d9c214909acce0d; 0x5268a1a0761eec; 0x71c3e6d48d83f341; 0x7b66561ad8afeca5; 0x35b90e9c2c99a0a0; 0x2dd997a5fb167071; 0x6c2440b65bee7f59; 0x3876cb9a7114261e; 0x5707ea89e76cda71; 0x1287f55a53d71348; 0x4f11549fce80a5e; 0x5c5ebdca102b0a43; 0x19fcdc1bc34e0fe7; 0x6a2ff14518b90a7; 0x4b605ea89acb8cb0; 0x5f6e955e7abb101; 0x412cb089287ff92c; 0x7844bafaee45539c; 0x138a8bd82e2a4186; 0x79d62bc0110da9cd; 0x7f6647a7dc77fc9f; 0x64a6a421716d67f0; 0x751cc7c072f57424; 0x79c21e46fa43efa3; 0x7d19c7025f6a3a8b; 0x4b28b7f294bebe54; 0x14ef57e88f81f7fa; 0x2c50ce7523257c12; 0x16cd2e26b752e04e; 0x4ae148f69ea63140; 0x2a941048716469d0; 0x5c52e82f0abe88dc; 0x581ffae77c712c1b; 0x48dff95d5c5782a3; 0x320cf0a46a242e48; 0x6d890cd5058c48f4; 0xa321f748234394a; 0x9b9d97fd5e3255d; 0x2d8b89b2c543ca50; 0x5e785bd964ba29a5; 0x1fdb698c32d24209; 0x34d6099d7842d2c2; 0x39e09bd100c0fed6; 0x59779573cccdee10; 0x5f1b153255a6f3a8; 0x22490c7672983ff6; 0x11e4094b9919ea8; 0x35de4a141407e67c; 0x29c835f79e78a8a5; 0x3706977a600b9138; 0x6fe4b42877b8f299; 0x6bea51f5983a4ada; 0x2c75267120d14d24; 0x2232f29e3fc8f733; 0x210fb08aae0d9adb; 0x5e79d8792c4cb8ee; 0x3c3f77780d0364c5; 0x4fc5f7d91bf52ce2; 0x245748a192f58d9c; 0x3e0d4257089864b5; 0x31a5915bfb32e38b; 0x24db7e5ddb4a8611; 0x11c4ba34b0728e64; 0x7ce88db6020e695d; 0x3e03a6345979e1c2; 0xb33daf9a326f902; 0x1f9f999fe79fecc; 0x33cc0f00c3ff33ff; 0x79f87e0180619ffe; 0x3f0ff03f0f03f30; 0x1fe180];
   [0x3ed7ccb1bc1aa9fe; 0x46803cc1366c9e29; 0x41a08b967e858b83; 0x696ec68e0c229990; 0x5e4302a094e2dc9a; 0xec52d3989242cbf; 0x4812e95816362853; 0x62f3cf71a8091eda; 0x36275788fdced178; 0x280046385d9d7f5e; 0x2ed6c5244595fc16; 0x7c4f58477b3bae88; 0x40aaf94c98cea811; 0x3e2fa71b7c3795e9; 0x71b7fadbb24fae17; 0x2375b461392c2799; 0x138b543730417154; 0x13b530cf44880c66; 0x74cfde07d67427ab; 0x6133a1e6d2744f67; 0x732d93db2677bfb3; 0x17dd9bcc3877956b; 0x10902540ca365df6; 0x28f7ef327b74d64a; 0x682ea73876f62797; 0x157ddf1b2a4c3917; 0x7a09aa268b782df1; 0x583ff9addcdba503; 0x6c23447a23147759; 0xd474b047a3a4cf2; 0x2a6d9a61b27de74; 0x114627906081e81; 0x4932416b8b63d77; 0x6686965eacd9adc5; 0x7d51e8621fd8b119; 0x5a0d5f79d43477df; 0x5badf722bb540df9; 0x4aab3b26caf3e699; 0x4f2fef39bd4dbbce; 0x598979f13611d387; 0x6d8f0fd69dfb98a3; 0x567bcf9598f796e8; 0x364784ed0086e31f; 0x7c8add3a738da52; 0x27b8a7914ff9435b; 0x642bcf364eb701f9; 0x5492b326766508fd; 0x3b2357c44eb7a09b; 0x2f95fb799d10449e; 0x7f80019d6c9483b1; 0x6f497c2ade127e61; 0x5932a014234647ce; 0x7682aeabfb8e2f46; 0xec2a25718b354ae; 0x7b20d55b340f72e6; 0x6ce3b15e0f4e06ef; 0x6cc465a4d3269242; 0x540d32bf76da24a; 0x1f02938cc1329740; 0x12ac4e0855cf3fc5; 0x3eeda63665eb4bab; 0x74334a27d45330f5; 0x1e5946d2e50c65df; 0xbf7233490635fc9; 0x59e6327d9eb23012; 0x146a62576d8a7855; 0x42559176b0ac9a35; 0x3721f4136b2686dd; 0x56c0b7e9ee5b593a; 0x27cbc1929b47d8f2; 0xb911a5a80e755f7; 0x1511fce9db275e98; 0x5225e5df49b54697; 0x1dcf95c8bcbb9e82; 0x6d02e2ca09518dbb; 0x24f249dc2cbcb985; 0x2897f80eac7d8168; 0x4a7528b7835c275f; 0x2646372088305ed7; 0x42ac6361e75944f0; 0xd795ce416a6f9e3; 0x679f598e271dedfa; 0x72c4651ca5c86d7e; 0x7e672f5e59fb1aff; 0x76b89032db5864f6; 0x326731d1285ac5a5; 0x44cde0c8e9a59715; 0x405f237d222c09bd; 0x4ac649b7d654c4c5; 0x20e7267b59bcba34; 0x288660e4eaaeff96; 0x8c7b00c86e3d547; 0x76e044b19127a4c7; 0x6dc4f262bc23adb9; 0x6b39bea81e424b00; 0x203c1fe3739e0d02; 0xe29f287a8560582; 0xfa641f4bfd8653b; 0x4dcd74cb0a01a32; 0x4489b9579f8c178e; 0x7337603c520bcfba; 0x5f215b3e363bdbac; 0x1f3838c52b653017; 0x700083a68c9e14ba; 0x1cc556c982d337; 0xfc404f26871b1d2; 0x1ff523bab280729; 0x2b3567286a828409; 0xf92d47e08a0a77a; 0x4311fd0b140dec56; 0x1323b1236216b7c8; 0x60e6b8d0cd86c9dc; 0x7ef4ce4aade671a3; 0x39b24b378243a483; 0x5e94909cafbf6f4e; 0x2bd0da47ae343a50; 0xbcbc43f857de748; 0x2aa72a8e8e2cbcbe; 0x691c7253282c70d9; 0x188c691812eed3c5; 0x677006d1b490a01a; 0x48ab13e69bd780df; 0x17705f9223603397; 0x142e8f5fc86f595; 0x69d8f6b4d4377ac7; 0x110ce6afcdbc14da; 0x1e813118f1518a36; 0x229c2d9b74da55df; 0x684faf21e0554ad3; 0x7fa0cd6b525cd870; 0x450c6d7a47a60f5; 0x4c0aeba8ac45987d; 0x3c040c7f6ae00f88; 0x1b0ec385d90a6ae7; 0x23ad4e89e09d4c81; 0x1d9bd0a342ae7d45; 0x6125d6100d4f475; 0x672047f462e78a09; 0x46792a1114179ce2; 0x7336d1a1db835754; 0x71f1d30a46bc376c; 0x3b3b5ca522bfdb4b; 0x5a8cee0981e916e5; 0x578aef0debce921e; 0x3108ef0a459dcb59; 0x655e74c1ce0142c0; 0x285ef463070a24ae; 0xc9d02a7d452b92a; 0x2bb14c7536a8e5cb; 0x771521b5cb588c32; 0xf7cc9e7ec874aaa; 0x7e55bdb9a6d0a52d; 0x31662bd3b439f8f6; 0x68bbe3ded0dc77b7; 0x5c0da7f4fc1e65fb; 0x17d43b8b395fbd38; 0x73256c186bdc8dca; 0x2a973e1575df9e99; 0x4f6abebbdc0278ec; 0x4fe9e9f2906bb3f6; 0x211569ba9dbde91; 0x38491b9fe5d1285; 0x4566c24682778ee3; 0x12dc723d0c6b0d33; 0x7ae19979aaa24d2d; 0x635619f45ed06471; 0xd2dea8468303169; 0x5ebacf522035d500; 0x676580e495e48870; 0x75b99f8ab3b6fd64; 0x2479c9184bff6e57; 0x58028ed32db54252; 0x312edacc6cc87fa2; 0x47e8f58006a69bde; 0x54c066c7cb68ae82; 0x6756da713782a694; 0x1826235380bb166; 0x4cc45768a941f56a; 0x3ace83ac48240c8e; 0x7b3c580095bc9490; 0x6836e3d2aab459a4; 0x35d4bb9a606bf041; 0x4602d7babc34024a; 0xa350f0bd182b3f8; 0x7cb2d5f810985e07; 0x4af5775627d12a6a; 0x2d59e65241e7edb4; 0x7bb955ac4c6c7bdd; 0x4f0f9c4523e83895; 0x262d0c7fc8d961a2; 0x13040a11c38ea2ee; 0x5fd893d54a7d63df; 0x4ef04d5c1b2ca15d; 0x5a5bd05000d73896; 0x6e36510a37e179c2; 0x7522b6aa3ccd8e15; 0x632a4a3e7ae6bfd; 0x5cd12c9daa66825a; 0x95c6fb3fab7875; 0x77cfad0d5563e905; 0x2facf680bf7ff739; 0xd387f5ab00c7a22; 0x7e8ff082c9e312c2; 0x7b622bd30eebe778; 0x2834d7783600074f; 0x390e7ae97361818c; 0x5bd3f76b1f6d954f; 0x3080477dd5e56a4a; 0x6518eee5d8cd4f4a; 0x3a4884b7036969f5; 0x30821a15a96393; 0x49895891159c426a; 0x419c486696ffe6d0; 0x67c37bf892cde132; 0x2a07553aacedde85; 0x1dd1628ef1e5de8; 0xbd66762d2c9fc6e; 0x1a4b709c0867aa33; 0x789b04cedf52b3ab; 0x6daaaf0639b91583; 0x7e7fa0b8247399e3; 0x191df38856ef6945; 0x22fb6e4e09d12719; 0x749603394888ee77; 0x5e29d9ac303fae62; 0x1c4bf8c2a39ef1be; 0x529cf27a35fb41f8; 0x5a50b3b0764302ab; 0x7ba815607bd9c13e; 0x3da4fc18bb0407df; 0x206638ec5ad882fe; 0x2872062647fcf8be; 0x455b73cf722c6585; 0x3a22855524915416; 0x5901908c19fe104e; 0x16a65ff35900f530; 0x7876d7c47938b772; 0x6f1ad274bd2ace81; 0x245fd299055c6474; 0x335c118cfed78e08; 0x43ef67c3a08a26e8; 0x226789b3347a04d8; 0x73298f944b0b60d4; 0x4b6dcceade33933; 0x24ad2e3f4fc16240; 0x7cb0d4d8c91be15; 0x25b077c6a27fa20e; 0x7b369217489b7dd7; 0x4d309b72d3c09c95; 0x1c8353909fc18964; 0x7505f49253e26a2e; 0x2bed114be21edd17; 0x1c4efc6d36d09af9; 0x33592eee7ada7890; 0x68421b4572c23446; 0x40fe963932bc8ee1; 0x336ade874d170080; 0x143f6fc7df1871b3; 0x3117cffd34837f5d; 0xe65dcb178053870; 0x5c98d45e9adc672c; 0x53b8ef4f143d00a1; 0x6416ac1d6454711f; 0x71180645cf23b2; 0x7d8b7092d012c463; 0xc1ece4e5725e215; 0x8d1a85e8401bbd3; 0xd3be9c4271029c1; 0x3630382dda1af110; 0x23d33abf9aeebde2; 0x11c79d8f7e3ef504; 0x111102436bf2721b; 0x670a57c6dfde50b7; 0x4338145b4d9a632d; 0x342aae817a948dad; 0x1daebf15452744f9; 0x1ba0529806c056a4; 0x6453a2f591edee2e; 0x487f8816af5932dc; 0xe4294ad2d2806ae; 0x7cff8094ba52ab2d; 0x3876b7d09989569b; 0x737f5e54b55f692e; 0x264b2a21fb07cdd6; 0x66876b295d844f6e; 0x304d089ce5ee9ce4; 0x2515a81a6247ba5d; 0x2a4579d255db37d3; 0x6230bf5e406c6ea7; 0x3248970ba604eee5; 0x3027a7e87ee9f138; 0x365276d84d61cac; 0x222079512705a704; 0x686eb9abf41ec490; 0x27b52a8eb8642e19; 0x48e22ba365acd788; 0x34dc000a0fd9cf37; 0x44b46aa2fbecd69c; 0x15272688f34eedac; 0x1b014b0361d0f134; 0x4f667a324d363fe9; 0x2ad3670cd990c4f6; 0x157d69e6919eba43; 0x30469d83aed1b4a7; 0x4728a43b79eee57d; 0x684124d454783bc7; 0x49faecd836c1f03; 0x2d05d90101b2e51c; 0x79fd60d55401efb2; 0x72bb9b3907c0b7a1; 0x48ac70b053baa78c; 0x4e2da8ae6b4cc263; 0xd926d23b210f910; 0x7e0019f8619f9fec; 0x4cc333ccccff0c0c; 0x61e6067e061f861f; 0x3f330c3300f30f3f; 0x1e07e];
   [0x6c75628eafc5943e; 0x18527270ca3b75; 0x50d2571945a4093b; 0x4ac192d678dd30a9; 0x59f38e5a7174e428; 0x95168f5d20d910e; 0x10f552045bf1239e; 0x3cf36b19d6c539f9; 0x799e42e7b4c7e468; 0x341981591a6bf31; 0x6d77d411eb9f3907; 0x1e57e82277b20e3; 0x3913a8aef381ae1a; 0x7fdffef933381ec2; 0x1938f5baf942ac22; 0x51746e7c53bf6c94; 0xd8b516a7288fc9c; 0x15e9fdcb6a6abb30; 0x10ba59f95a0a3e98; 0x3d63213ddf4d4ae3; 0x375a2b9768379c08; 0x6c3117dc00089dc6; 0x684134f33da53018; 0x69e701f06059cbea; 0x2c8a5be07253b9b8; 0x71a98e8f8cbff85b; 0x392725149f2d50be; 0x44e6cde4c65a80aa; 0x68df943c4bd16b29; 0x4b526b3f2f4ed889; 0x22e66fa9b42f8dc3; 0x55ff9bfad25faddf; 0x7dc20ec8f331a968; 0x471259e93586c908; 0x2fe16759f879c18f; 0x52b5dee9730fa797; 0x4b1baea39c9ee89a; 0x79f0cc84b301aba9; 0x6b89fc676c029cbb; 0xe84765cd60c1194; 0x4dc745ad03091586; 0x703397065fa16e36; 0x57b7591c94976237; 0x140329d9d06fcf0f; 0x65722c8e1ffce24; 0x40fd6ddb4926c12d; 0x53f64d4a1b70b4bb; 0x5c4fba2d1cafd310; 0x53f94f00447f753c; 0x7ed7100b0b2eb2d2; 0x1f4675463a6da0ea; 0x25174e3136a04ea1; 0x40900aed469169ba; 0x5a9a5b99dbe4fe80; 0x114054145d135885; 0x742bec7cc505820c; 0x3907c3b2fe063b1f; 0x4c26a4d921bf8ff4; 0x23732cf4cdc282ff; 0x470c78b2ba07efa0; 0x73228e6368fb4425; 0x3220da6258c6c943; 0x43d5aea1ab1b5dd2; 0x11215fe5c1852ded; 0x327953e274da5e6b; 0x48bb8f3eaa668ad0; 0x721282efad92f014; 0x697a9733cbd1659b; 0xee7c47e58571c51; 0x30ef24088121c445; 0x263a2c47fd95ca0d; 0x5f74e57d7f95e292; 0x197c056042045804; 0x405d8e469e06817c; 0x401c7eaac1e88486; 0x126d801df3e687c6; 0xd1fe1dbefe74d23; 0x49f0fa895e0471f9; 0x4631aa8c186709e2; 0x6997b63bb11d3d7; 0x280abe20fdaa3b51; 0x236e073ad826498d; 0x56b6b411731f8664; 0xfd5843b7f3564f3; 0x6373dbc303359345; 0x4bd0e42d75ce9a2f; 0x11b0c7ea2c451dfd; 0x274db6b86cdf6303; 0x4538f1bb5ddd78e3; 0x54ce03348fe07950; 0x750a671d194b9f56; 0x220e22c75cc10e83; 0x2406d4bb76ef2efb; 0x675ed65d6ecd0f7c; 0xfbdd91825816e39; 0x36264403559bd2fb; 0x350adafdca8b9c2b; 0x6f4b06a1f3916fc9; 0x62082426bc0b3eeb; 0x1ff75ca0f3fdf64c; 0x453094d483c4a9ec; 0x8b2d228de71e2fe; 0x783963ee500af99a; 0x5bd3ce53e4f5d5cb; 0x2afa7c083ee2302d; 0x2c5e1c3007722ead; 0x71fd84753029902f; 0x2d7bb3559c07d884; 0x2dd1dc8f23a8c141; 0x6764e984b6c97238; 0x2475e73d66fb76a8; 0x4c5b5937a0fab219; 0x6b5e733e4c1f964c; 0x7698e027151980b7; 0x2d5b3a575016e6a0; 0x7d570a341c3a9a8a; 0x6e286fb0af24288a; 0x500ed7b9c05736ce; 0x39dc37da24fd33c1; 0x72cc17c46c15ddca; 0x4630b3e785886a06; 0xb1be1033265304; 0x750eca05e5c11179; 0x642ea7916f87e808; 0x13836b94d249ae52; 0x17db54957135e97c; 0x4bb607aa7bfb4dec; 0x256e79cab9992373; 0x78df1ead5a578108; 0x422b9cb5caf801c7; 0xa2cafe8dfca4ced; 0x264241ef64e57a5c; 0x5660fa71046beba2; 0x356beda72fbed47f; 0x581ebe76571ddbb7; 0x7786c0f1357ca136; 0x59ba75dbeb60e118; 0x4dfa56daff723a65; 0x2c5291a58769bfbb; 0x250d8f3eff8cc506; 0x36acfecfa2d24e13; 0x74ded3bde01a9ba6; 0x5121691750ced5b5; 0x1baf0d902d2337cc; 0x346df6d98b6d06b2; 0x3dd60457409740b7; 0x15badd5140ab6d7d; 0x5bda441515d7c649; 0x516e267d35bde35d; 0x7c4808798f14178c; 0x4e0dd9eaddc9b2b9; 0x2a835f0ab7618469; 0x62965cfcc9b3e535; 0x54e0bd0a0e72557; 0x7317f46eec65c5fe; 0x6d3d63a63ac6f3bd; 0x462db6cde6447601; 0x2abf323a9aab3308; 0x7318e4cd0c3a750d; 0x7aa0c9c9d58a88cf; 0x62223e9ca9a88c03; 0x4e044eb22fe97762; 0xf172973cd5e076b; 0x3c59bc3272b39f72; 0x7d199d8584a314d3; 0x4daf12b0cdc901db; 0x492e4149686dbb57; 0x101f76e9ccbf6b11; 0x1c73f821f88784; 0x14842377ef2a2bd4; 0x5b558587ef07c1ab; 0x43a073e65d4adeb9; 0x62caa33044938a3c; 0x36db86392f08377b; 0xe6bed2c2b2eefa6; 0x5272d20dab7266ff; 0x471ef3868a678a82; 0x306f3a2f45892fb6; 0x1caa18d2921bb3b3; 0x6fb4f9468208f640; 0x4cb80de7fd26e2fa; 0x7de33ea153b212bf; 0x4b2980991e0f4fe4; 0x29c9cfc27af4500d; 0x5b6bd772f9dd90a4; 0x39bd5048186ed653; 0xb1e2a0a2013add; 0x1b4dedbc50508be8; 0x3720193fa6f634c3; 0x5b82bb5bccf95161; 0x325e38e74dc7a0d1; 0x786b9a7fecd0e1ac; 0x6bc4d137cf66dc63; 0x32180de27f888d54; 0x2514bbea261a668f; 0x58fe7c90e95c494d; 0x7af5337b324e88e5; 0x43d13e0f60f2b28a; 0x74d5cefacabe9e7b; 0x21736f16098f1001; 0x3f396b549d1cb098; 0x794ada3ab8707dc8; 0xa0ce577e8bcd366; 0x7c445c26f08ce46a; 0x4796af0974f4afd3; 0x4a68aa76efdcbeba; 0x191444d0e20d5cab; 0x48e173ef5c57bf1a; 0x346bbdc09b10cfdc; 0x134fd3e2898e8de; 0x2a78a0911c6d30e5; 0x1b902ebec2905949; 0x30d5984c9b099d72; 0xd32ad791694f00e; 0x63a04b64f310356c; 0x6fe80430f03dc3d9; 0x1aeaeab8985ba381; 0x56c1a5ca4432ddec; 0x7e03f70cf14c51e5; 0x27794ae562473f22; 0x22d13dadbddde56; 0x5b487b716682aaae; 0x5db6b178f552ccbf; 0x1bc5cebda4680326; 0x495a757b93c45b64; 0x30a9b21e323c99d1; 0x13d05908fdaa12d4; 0x1dbadde1da513eb9; 0x24bee8dd1118b090; 0x66852a4336e5bd42; 0x964cf4f057c5923; 0x199415d0bdf2c9a6; 0x3c759c76a86a10ca; 0x6cd27601ab8beb3d; 0xc5a65e20c4f6c6a; 0x56684ea385f68e2; 0x7b26603faa7cacb8; 0x37f28884c3a51fe3; 0x62d7094466eb15b9; 0x779799eb9701e037; 0x627e150f19ff4bf2; 0x17a9cbde01c3109a; 0x3ee7950ff86e20b7; 0x6c751841dc83f1ce; 0x52036c534c54808e; 0x75bbc88e0048f9d6; 0x545b6ca268dd738; 0x79e353ef197c0193; 0x7916b31a2ca014fd; 0x7dce281d5cb6c1be; 0x4053ddabf3781ed2; 0x4e6be574db9ff463; 0x182f09533ca8babb; 0x360999d9ec3dd0d; 0x853c1b169ede451; 0x4a1269d914d85926; 0x1407e86b959d4fcb; 0x7eb2215bfe5c4356; 0x75c44b8775315f14; 0x3c4e0b1267901af4; 0x6077f217f18957b6; 0x4699431c9ee8721e; 0x4981129372ab3797; 0x6b74fadce452c8b8; 0x6aa237cf387993bc; 0x24d304bab13eccf0; 0x71298f581599e804; 0x31a5c4eb9fe38c8d; 0x6eb14bd477d0948e; 0x141433564d42feaf; 0x785c198e3cf9ff7e; 0x44f4669982761c52; 0xd711e683efecb6f; 0x7c9774d9b12587cd; 0x4e7e77975333f448; 0x7a39b3f294358441; 0x290eaf9a6b0f4bfd; 0x27647ab07d45ffad; 0x16d58e57f21f0821; 0x7f9027f16f43e679; 0x2aede5bf52ea8601; 0x68e2f2fd9a638ca3; 0x13c7bcbd2a66fe54; 0x52a59fb0e7e724d9; 0x6a32d192a0dcfb1; 0x150c46e2b9d59c29; 0x3d06be4a4e8c4044; 0x79daabdadddc5042; 0x242232a034ee0307; 0x3a77cc676cf36fd4; 0x2137324ef7df89ff; 0x3b08e6d6f7eebd40; 0x3ce81388b5fbace6; 0x72425a994b459e8c; 0x3637fe68bfbff970; 0x2f0462e518e03966; 0x6c2e71ccb68be794; 0x43c395420195f041; 0x1682313d2c6a1844; 0x39d3c5fa5c2bb24e; 0x25a1b2bab682ac0f; 0x35f59553f8db5cbd; 0x56e8ae9b85ddfbe7; 0x1e543bb0174c48e8; 0x35cfc15c5df1cd8a; 0x4e40e0f07945be86; 0x51e94dfaf6a69844; 0x7404df63d4c02b40; 0x30ccffc549988438; 0xe2eeae9d3b65f7f; 0x1af993c484674790; 0x32eba7141292b066; 0x20bad73f7be047bd; 0x1e007f99879f97f; 0x4ccfcf0000fc3cf0; 0x180181f81ffe19e7; 0x73c00cc30ccc3c0f; 0x181e19];
   [0x77b59aa3c3a0c102; 0x5a8bbeb1636d30f1; 0x1361e0c58ae6b4b6; 0xa66a736a0c9a7bb; 0x494f67209a6c6015; 0x32736f11c311931c; 0x1b23a66e27801fbe; 0x4d2f5ed3164ad458; 0x236703571e2e72b3; 0x3087bde296e2e287; 0x5de09f5d1e80e91d; 0x5be35014f4d29af; 0x41abd70b48c61e7; 0x64b2585867d6f73c; 0x4bdf3f6c9dea5002; 0x5ba9182b2599bb1e; 0x5f18dea55e391703; 0x55db0dbb32e6a6e9; 0x6802b77cb21db8de; 0x5d53a35c4f956eb3; 0x4fc252b107acc0cc; 0x1774e8b83413dac9; 0x68a4a8da645aded2; 0x39e458504fb9315e; 0x49316844aa0d9400; 0x6630b76da13a073d; 0x614a235b916a3e29; 0x2a14dbecd46976d1; 0x83760a5373953c6; 0x37985cba7f258dd8; 0x7c991718549e0013; 0x6363d84d51059257; 0x2ff1c7de62d598c0; 0x770b6c55c5fe9283; 0x41e9b859e698a6d1; 0x493b2c39987208c; 0x834e66b4698d8db; 0x46d550bcd35974e9; 0x6b4939e1a7d8989a; 0x1a8b9fa3ff7f2360; 0xc49c73b8df6e4b; 0x6dae0acc26905e17; 0x6d884d1cd0f4e0b2; 0x4b802c85be1ac20a; 0x49e9612a5e561873; 0x378fda64a9c916a9; 0x2ee16cb81ae380c4; 0x505598c81ae0d0ba; 0x1c4d76ed8ac752f5; 0x2ac3dfd4655ce8ea; 0x7dc737eaefae6; 0x6dc20d0f9683d23d; 0x535e694ad9094daa; 0x2b6010ad003d1b17; 0x325d264b14a1dcd1; 0x29333c7b1ac82d83; 0x2a0d8ae56a5010fb; 0x191f2a668cb23784; 0x233ef0feb2b684ed; 0x684245a3e3038cf7; 0xf60d42e5ea85cec; 0x3e4135d0e1eaad9e; 0x280e2c47a8dff540; 0x255eb576bad2decf; 0x1157bb214c71b34d; 0x30036afb024e2288; 0x40bfe8e5e82d17a9; 0x54238852ddeb7557; 0x5b3d94977b41ac84; 0x7dc53e4fc9720252; 0x4215072dee49ce61; 0x1365540ea0efdf77; 0x44683076cb275a81; 0x4d7c3bee5a23ceaa; 0x46a31eedbb6cd15d; 0x1624f79b47b98e36; 0x2356bcb439f8633d; 0x63ae7521cfe6f6e0; 0x7648fe02dee57397; 0x3a180b605e2b8bd2; 0x58ffd4861a16f93d; 0x67bf0abadc01b350; 0x174a8a5f6582b789; 0x1a6cac3444ff4c0e; 0x5e2a6a914e74d6b3; 0x4dbe5a0e473e49a4; 0x7d8cbe22f4fbb837; 0x6f024161d63adf26; 0x5fe7cd8f952968be; 0x3b0dc8b7c7eb4bbe; 0x270fff37eafc90d7; 0x2714aa5e87b99c18; 0x46df05be16d40a62; 0x7944d7b2ec3de72c; 0x52f532a3bfac266; 0x22904950dfd9e48b; 0x2ee34685423cef57; 0x2b646d1c5aee533f; 0x41ce00ae2783f2c8; 0x4642a0730f475de1; 0x4a06febe2fb45120; 0x270d4cbc7d7a8a09; 0x6c3f6a3aa161be36; 0x3906150df8f4513d; 0x65b9882833f68c8a; 0x78dbffa17d41be03; 0x2b32690ccc635641; 0x3922d39a301963d7; 0x131bf9203ec836c0; 0x42de723eeddd1034; 0x6ff65c861b8795da; 0x217dbc2c1a51a24c; 0x290feff5d6381d7b; 0x14d179b16e78cba7; 0x690143c5b7cf3b8f; 0x7c7df58badf932ae; 0x1e660e9da77b6aaa; 0x5a8d827f6a79e883; 0x71164a01628da6aa; 0x485d582465fc527a; 0x836ce1744e65fd2; 0x45207b36f33c7f2e; 0x3d706fdf705ec50c; 0x4f6c9245ed3e1e; 0xf1106d9a652390d; 0x5322d592ddc30fc5; 0x22137f0bfe4f3717; 0x2ab74c6662f86148; 0x173a57195162a7d5; 0x7aa9d045d210dcc5; 0x1754a7340b55c212; 0x325f5512c2628d5c; 0x6c3d59fd87b9efd2; 0x7e27c7ebbb08323f; 0x21b7c2707d7e11e7; 0xa236f194a8f0617; 0x548d202b3d03cc8b; 0x1d6f9a0930c33e46; 0x26058dbf33806bb4; 0x2007df2f9630f052; 0x280c7fea586211a8; 0x6132f17384748d51; 0x6f9f5bc1e8331b83; 0xc97132878e4802b; 0x650f9f57df7e8695; 0x2a2253f2e616ae16; 0x518627b8943a81a3; 0x47f2aa51861960fa; 0xd8f6a81d32d5290; 0x10b0197d378bcb11; 0x1a6988c482d58923; 0x41a29e26c189c558; 0x408e95a8cdf6968d; 0x30419eb43a626dea; 0x366ecc9fc70d8f7e; 0x57674e5cf82b411b; 0x250e7c9f5d25127e; 0x2c146587bc77100e; 0x7df2026537bdc4b; 0xfffce6bb4176450; 0x47027574f610cd19; 0x497edecc41c4164b; 0x663c9dd05d1081b6; 0x1074eccb06365002; 0x7f97849242d471b3; 0x7064de8d2383a167; 0x1bc54c05814f3f7d; 0x6ef995d14e7661b5; 0x64f7cfa9fb098cd0; 0x12df13b5cffe77f1; 0x153e67c694f71328; 0x2df66c01a2ceeace; 0x54c853b93ad7960c; 0x1182cc230fc6dd75; 0x4c016a20890a2bce; 0x1c01840afc5cdfc3; 0x76dd179f6c5c84f4; 0xc7a41101d24021f; 0x1e87e90271caff7d; 0x6943000d87ccc1bd; 0x1b775f5a40720088; 0x2fdcb1b49d5c733d; 0x56f154e31f1c851c; 0x69d0a1efd558a3e8; 0x16b329a012ad35de; 0x3b74cf054c919679; 0x59a88868c000980f; 0x3f59b1c3dd360839; 0x27bb802a09703d33; 0x280a2e7d7a673d11; 0xbb760192541b44a; 0xc6b29d87b458262; 0x130876fa6bb5f010; 0x28c57a7c813d73c3; 0x17c2cc2ca220fe80; 0x12b12560c41ffbf1; 0x56e105f582b262cf; 0x3b2fc653b6920eca; 0x3ec96b8a157d4638; 0x6a932e1885e0bbe8; 0x3a114c370b1bb574; 0x11e889026f97f802; 0x77044e76c10d41b7; 0x7f225ba872bdf3b6; 0x7bc3ccb1aaf55814; 0x57a4ec1914021245; 0x4cf2eb90bb9b92dc; 0x4dc7db075c9afbfd; 0x28c4b170c330dab3; 0x2811a78b721b293; 0x3dc293da13dc7acf; 0x4d1d0fdb262c1400; 0x62a8d00c32a3db88; 0xfb0466c00d6372; 0x6209f05c209eb0f5; 0x704bb7fa3852525c; 0x3135d6761685ea47; 0x7dbd2ade67be9e2e; 0x508132f12fbd3d33; 0x3a4e5306e09e6b67; 0x3822e92af12b273b; 0x500cde5fc25ef469; 0x623a3cbf436fddfa; 0x7e99bf02d075cd2e; 0x78dfdbcea83f914e; 0x1da68f5cd08c4e63; 0xf6c785663cffb6c; 0x7c665d215486a21a; 0x3579a6cd27f106f5; 0x6496794554ef593a; 0x5d566a8a64d98c3b; 0x2180f246177051a0; 0x3d8c2af36628bc3d; 0x1494b981415db8e3; 0x60d186e033dcfb20; 0x40e8204635cb456; 0x2e62940133c337ef; 0xa7077e20341afef; 0x7b6f3ca44f9c0c5; 0x1e906984bd1866cc; 0x62d40d29aac610ea; 0xdfe35e31620d637; 0x10cfbab9231d167a; 0x6e9e627a1426bf43; 0x4215a4b1f61823de; 0x499e940e04eacd9; 0x5e7635cc6825bbc2; 0x11491df214482427; 0x416c8b37af3cb944; 0x34ba99b41ef16f84; 0x4a5c64750eb03341; 0x26f0362ca269127c; 0x3f1807c506f0e930; 0x3a8ca57a14e2bb94; 0x6158fa61f48d50eb; 0x129a251cbf338bfc; 0x72316fa426136c45; 0x6f27e1b31d3841ed; 0x23ade62181ae0647; 0x19942ab00e679498; 0x4e06c06f0ea137f1; 0x77d762edd550c629; 0x156169ddfda41f25; 0xe6a0fa11ee8eda2; 0x3364c86f5819dbde; 0x24ee45b29e21111b; 0x14e5da11df95e3ed; 0x1983371afb5ec0ac; 0x37db9f562df0b201; 0x2c8af81512ce9caf; 0x3b74ee53da770850; 0x24a461c54d883cfd; 0x6d40c67bc1084172; 0xb2df51b84c46932; 0xa42af10c46ec901; 0x227c05bcfbf9453c; 0x35720169a6178fa1; 0x59d1c91f6ff3c66d; 0x2e3280dc9765f52; 0x7af5d398ef39bb8f; 0x44a90e1cb4dd3c72; 0x36b68d168bd4cbaa; 0x3b1edbc965d06c9d; 0x4c29a65efc19c01; 0x5d836a79b0bee79a; 0x20115104826d084c; 0x254c5d1203922931; 0x16bdb4a15d51aee0; 0x43214eabecebece9; 0x7f7a02d7ca894f3a; 0x75e9240f7bddf9a6; 0x607a8c8cab932d90; 0x3ff9f00139d28323; 0x235cfcc6a882c7; 0x2c05ee9be9e966f3; 0x40679a5e44f170ca; 0x11048b26843da36; 0x268fe5b1ba592e6d; 0x31b7927b5e853e9b; 0x267610e10d363242; 0x28ac20c5cb4ac2fe; 0x268d71add83fc81e; 0x7b032234924c795e; 0x3b3d09b66c3a9687; 0x4e4bffc3a7b7d774; 0x367610f36de38535; 0x5e0661cd68af3b7; 0x4dc1f89ebd3e40e8; 0x646ebec556cb9a51; 0x3435c5c882424f5f; 0x4e542c6e2728a07d; 0x219215a491c8116b; 0x729f8f4b397182cb; 0x1ff819e1f800799b; 0x3cc0fccff033fc00; 0x18678798679fe79e; 0xc0cc0fc3c30cc0c; 0x607e];
   [0x5993188034323365; 0x7bd49c92b36f842b; 0x181a3a21c47cd54e; 0x45c69a1031c7902a; 0x64c7dc800f61f5f9; 0x14a545c8d9d8ba66; 0x525b38d64e9faa68; 0x212a989645713e37; 0x7ac869a53b4dabaf; 0x22e4f143e5c8a4bb; 0x125dfe8f7d6e1489; 0x75f9dab422111117; 0xca03aa77d232dfc; 0x18f029769edf5b73; 0x1abf076f630abcc; 0x74dd0ffbb34831f; 0x79c81cfa7e37ca49; 0x45c683b26847093a; 0x2d924c0d53d217b1; 0x4fa8fa7c1ff0c27; 0x41bae36dc711b65; 0x4edf8e8dc4eb29a2; 0x7fc6951f88872d9c; 0x7e53fb9a37cff3b5; 0x77ec0835bfbc5eeb; 0x10875cc134cb2775; 0x2988b395139ff7c4; 0x1b101e6895268358; 0x63fe289e4b800ddd; 0x429323c69431d8b7; 0x67d9714dfcc4e08a; 0xd1e0626f46fff4d; 0x3a8fd011d7722275; 0x31956fba7fba9e32; 0x49f9a6840de5b3de; 0x7bc3a7a226afa4a5; 0x5ea426ba4b819bc3; 0x6d362b6d4d4b89ad; 0x1f9ba1e8258387a4; 0x5e91309e668e4a1; 0x2837a39b1da9bdd1; 0x4bc6edeaffc0be79; 0x5c5c3c0aed42b432; 0x6689219705542de7; 0x14e2562776256f73; 0x6971b4d4fc2ac6ed; 0x723e874ac7d031cf; 0x1a8b6f846911584a; 0x45acf3e2586ef3b4; 0x8c9e2ebec5f5f73; 0x5159971318d2599; 0x2b52086a24546d37; 0x5cd44932f4f5badb; 0x765bf5af662e2143; 0x4088fd2097996fb4; 0x24f4acefc5a46d3b; 0x45dc0f7f8effb0d7; 0xec0e46f84a5754c; 0x77ecd103400f2364; 0x66ac531b14c6d3b9; 0x690213564d09171c; 0x3974ba3b8a3ba858; 0x48bb98770da0ab48; 0x707556f63e4eb934; 0x7d84b01a7d523c9d; 0x62936cc24c8d767e; 0x3ca3614619dd5731; 0x78faf8a6d439d593; 0x5165c25e3eb2166; 0x4c3b14c1c6f7f28b; 0x29915cf3ede562b4; 0x40c3d21f7fdc8adb; 0x5ef2afeb4f629477; 0x3748f341af518f36; 0x17e1923d8817ac74; 0x82057efcee8b4ac; 0x469e20b960f2b78d; 0x3c6f31e0a5530211; 0x3e0b12eacb6e7a0e; 0x2e7a7fbde87771fc; 0x4817f71af7f4eb2; 0x72706ba13e455ba7; 0x786b68538d06f9ba; 0x1371ef768e473d81; 0x339f73413f2915e; 0x21dc4161b6644b0e; 0x6b658cb44e6a4d31; 0x74a93251c2a0a6d0; 0x4183d6a11e6c6e8e; 0x9a06beeb6a19aa8; 0x323f1eebd3d39501; 0x8357d4e6d4b5ba8; 0x246f9c5c4e13fb55; 0x45663223073e48e6; 0x4cb90ef548b28169; 0x71aa6fdaa7e2e9bc; 0x372da98e814d8987; 0x2a690f5f305d5607; 0x36d9329dba64681d; 0x440e15856aa21709; 0x224fad0327d6b9c7; 0x1cea7959ed323422; 0x709596b8578ba21b; 0x4893be381b84b66f; 0x3c2d33e3094b5882; 0x51b1b13179114fdb; 0x5887eb0812fc18f3; 0x5111ad8fec6a5fed; 0x2f26eb2a09a8ae2e; 0x398e22c48692d409; 0x45b72b4fc650fc91; 0x60bcc2cee0af114a; 0x59752a333e40746b; 0x4f3ad00ff7f5ea2e; 0x42521bf74e6dd022; 0x3ebdd33a47d87f4d; 0x7eb696d9350914c8; 0x7d6a2f0b333a894a; 0x2420923d5367410; 0x251763dd1afc52c9; 0x55b5bed8fdb7c981; 0x1dc164ac2c47bae; 0x45d11e28a085257f; 0x4883d595190531b6; 0x54d19922f8afb232; 0x4ce35d95b7c8a2d3; 0x1ca7142b24ee58df; 0x2519a7f72881f01b; 0x7ceecee6e2afdec6; 0x7f95285c288fc9a8; 0x3420ad87418758e6; 0xacfadf94661bed3; 0x5a16398d807401f5; 0x2c925d6b6737f6ff; 0x44567a5ef8997c36; 0x3fd0d9473d7b118b; 0x1c34da589e90ed0e; 0x7bb4ccf361e071e0; 0x64b86461cb6291a7; 0x20e9d8a534bda08f; 0x709dc799abad35ca; 0x5330cd8e80305642; 0x40ed029b6b9bd5b9; 0x2b99ee207b210b82; 0xf718b9583d4eea5; 0x31c32d97a8b419b8; 0x46b8753cab69d1bb; 0x761d3a51128c3448; 0x3f89b22463b1f8d1; 0x4b4aca417197e1f; 0xd699daca021e8aa; 0x2b6fadac1846621e; 0x73142fdb7452ae39; 0x40c582f05acedea6; 0x1fb24bb0a4b94cb7; 0x74837d4985490206; 0x5b0c7882da7909f1; 0x41e219010b95ec6c; 0x7ad209f822ded3ea; 0x53db6c28514e5722; 0x47fb3e4f7b7d05c1; 0x71c27823efa7d0b7; 0x6a24e0d21bdaf083; 0x742ccbe5418114cc; 0xf5520dad73fd69e; 0x945d24db2c0ede; 0xec6c766bcc17b52; 0x55bfb4ad902e82b9; 0x1a1add746b504c7; 0x6aba1817dc9c9270; 0x1c5a82374ce9ff0c; 0x214a05b9380496b; 0x6464e8228c4df28e; 0x274d8124af35ef6c; 0x6b93f03129c5d838; 0x4dedf98d24ad1cf6; 0x129a508f6236dc76; 0x1e6694e6d21656fa; 0x6a7ecb7536678d63; 0x32bfc1d33dc25f69; 0x41abd5a8ffb61a85; 0x2c87502f58dd072f; 0x53624e2c86bd16d7; 0x78fcfee1f79a60ea; 0x5c4aad602b3da1c9; 0x418b4caa0a6039da; 0x909dfe62e6253ea; 0x73b81a6a37870537; 0x671ca8c42f8d0dbb; 0x669a2e2767d279e9; 0x4fd9e71471024c0d; 0x4ddf4926e8f4c1c8; 0x55bf0443ac0f9367; 0x1f50f26862771d3b; 0x2b2ccb23689b80e6; 0x33afaccc9ccb787; 0x25f914bedafc07ab; 0x666d4751e1b1c3e1; 0x5fa057a0fd64b550; 0x6e4410f3380f582a; 0x35e9e07c885e6b48; 0x368114361ac0fbc4; 0x9307bcefc5b7801; 0x4d787d2e0999a762; 0x5d80f8a2c8952abc; 0x19cf82fe6c55332b; 0x79fc7ec283946517; 0xc477554960eff80; 0x1229ddbb8577510a; 0xa6a11a88bcf6381; 0x11c8e41e79c76339; 0x51a93435ff90eaab; 0x5d070d2261e4c8e8; 0x3adb75da1111c451; 0x753d0ef1c73ee6b5; 0xe724e4f98ccbf10; 0x33735e262c2d6123; 0x3f6c747e0a1a8ffe; 0x375b3291a8bf24a0; 0x515f4b4a63084cfa; 0x2c64661d268e0aa6; 0x327d3f276522c58d; 0x74cf3c5c189b1040; 0x4c74443d4fc9145a; 0x45f1d450f622f7df; 0x1f86b6e1d2f96def; 0x62038f90e6603418; 0x40174a319bc524f7; 0x50e76b79a8438603; 0x7db29868caa94927; 0x7df7495d9e7f6bfa; 0x2b27f149b4878bb6; 0x18315ef80916af0f; 0x14b84159ddf1890b; 0x741bdb91590a8774; 0x73d5805536ff7ee; 0x35cc4daaa441876a; 0x3878f75ec41d501a; 0x4390becf6f7ce9f8; 0x1301d79ddc399167; 0x5af718d9034d88dd; 0x1499262dc8d3a66; 0x20992c46136cf9c3; 0x745a71b2143ab9c5; 0x4c76f857aa78969e; 0x2abfa2ed17449565; 0x3bf17e66aca8a6df; 0x1877c7b2cae8df01; 0x49cf101c67df1b69; 0x60c0f308f4a90cb3; 0x741c81b46496051e; 0x4c5eb651eaca400d; 0x6e9f53c40b63e15d; 0x6f97f4a180328487; 0xad5e1b7b1507f99; 0x18e7774439feb0fc; 0x8a0e9b3201c264; 0x21998d58f512fa0c; 0x50f8c76bb42345e9; 0x4c4b16ee755659f5; 0x2e9484a408421e2b; 0x156b7977328ad51c; 0x4a3dbaa9abf6a8a5; 0x1dfbf3c3eb781410; 0x3eb548f193a7f995; 0x3936536e3165b20f; 0x1e6f556fa89ea808; 0x781c4f297a61027d; 0x379861826a22bc57; 0x7eb7d45459c6ee44; 0x268323d93675d9d9; 0x3e26f4121de8a796; 0x20744a383432fa8a; 0x38e81646a720ec6e; 0x45662bf36599ad7d; 0x5c4ca1cb6171162; 0x688fe08fe363a2bd; 0x471fd66da4fc79a9; 0x60dd7f8001ded49; 0x6926dcf051751ee2; 0x4c16220f2f3bea60; 0x2f0eb8680096e68b; 0x58b1bdad5a4e9fa1; 0x2db4a3b37a28204; 0x3001cd7814c47b33; 0x5ddb875090c53e12; 0x2606df32b4bbdad4; 0x4b9c9cb35872c413; 0x7c915834967bfda8; 0x272f7b014ced9b46; 0x4cbfda1cadc85ec0; 0x5a2125cb9cb2f527; 0x649fac23ebba7085; 0x20b8b7e06706b3e1; 0x5e320d6b692bb1e2; 0x1ee366fc45703a56; 0x3158b10a5f222983; 0x5d5bf74bc3bcb355; 0x49eda25e0bfd7e91; 0x530bd0a9dc7a3f6a; 0x46c4509449172141; 0x5e551c918045b2ea; 0x55dad8729b353cf8; 0x5cfa9637019bebe5; 0x42e5e895d27b0847; 0x6072fcf205d53eef; 0x9ad1ab6bcf5796b; 0x517fa0739eca1cd6; 0x233552c27822f194; 0x3f59c7c38fcf48e9; 0x45d349dd85df2883; 0x39d897d5cc35800d; 0x63b723b4f764f50d; 0x6187860187e600cf; 0x73f0fc3c3303f3f3; 0x186799f8019e061f; 0x430cc0cfc0f03f33; 0x1f8619];
   [0x493eefd03819e2e9; 0x462eaa82e05af855; 0x64ebf3713cc6c962; 0x3d4fdfc30361f7b4; 0x23f5a574923665ae; 0x3a3ba768aee9ebc9; 0x743f1915a42533cc; 0x73d58e97dc6b9b8; 0x2d0d2e9f8e655d6d; 0x6a004ad7827ba058; 0x32f4497a0849bd03; 0x4d6ea23bce209a5f; 0x5acd9d322ffea407; 0xc4dfbef4be78556; 0x2d5b7560ac99088f; 0x5fe92a2d2f00295b; 0x71c27cf3494fd526; 0x1c39cdf45c60c7a8; 0x4eb3594cb4d795eb; 0x34956fa07d13325; 0x38fe95a7f6843b06; 0x172140c4a606c739; 0x557301ce61f29978; 0x353cfe8601c2bee2; 0x76b8e00acfd5e080; 0x14e2ec719003b422; 0x119875e5944cb2b; 0x509e9f1799bf0c41; 0x42123aa766133009; 0x18a4c581708ad9b7; 0x7be595616c66274; 0x1f013e344515df13; 0x6bc385a0f971e7b6; 0x775709c5b5829763; 0x3ee3e467a114bed6; 0x2a66176816de9c75; 0x5cf6d68769065311; 0x77031c47313c8be8; 0x6429f2a081ceae9b; 0x4f11e3209dbcd91c; 0x1cbd7f9d884da6ff; 0x52ef5cb8aa2a3bbe; 0x1cabccb52e556998; 0x5996d844e38fd15b; 0x8c668d8f20375d5; 0x4aef276d24cfb481; 0x68054ef959c92e49; 0x3d50cbb9fd7aaa8f; 0x70a86ea9d8270394; 0x5b19aa0e620006b0; 0x1790da815114c1ce; 0x583f0b31670bda1; 0x15ba209ec4d51964; 0x6a0b52664b2758ed; 0x38593374c5880958; 0x75774e418a7b980a; 0x358a599fe46228e; 0x41f5750ce1be10b0; 0x60906ae2e8eda238; 0x465928aaae935641; 0x6dd51cfd10538ff9; 0x6b98229b9bad0974; 0x7bc2d42290dc0bb1; 0x5dca6af53bcaa2e5; 0x45135e448aa5ec9b; 0x61ba5c9cce926e50; 0x717d86b73264759; 0x3d2d89a29773e33e; 0x595b8aaa061b678e; 0x1f09b8d991b801eb; 0xd28a07eb99871b5; 0x775295d3baedaf8; 0xb29359699f53554; 0x45680d6463cce7f7; 0x4446ca28aca1cde6; 0x69371e351ae82686; 0x7e3c7957a5c10861; 0x7d288191addc79ed; 0x44def382fe8a33e3; 0x43aae8760763e36; 0x4414534d1abd7c57; 0x7d284791d3b0805d; 0x6ccccb7c77cf953a; 0x67c55e44d000164c; 0x4c15aabcfe7304c0; 0x18b6ca95fe74b441; 0x2648296e42745f8; 0x5ee532df4502c6c3; 0x19b118fd2bc905b9; 0x3b3dd1539d004832; 0x3bb48e185885bb19; 0x6044359647a56b5f; 0x2596adf8631ca3e5; 0x773deebf9fc52849; 0x1963516d0e5ec7d9; 0x4b8673593b249798; 0x36a4409641f11758; 0x35c71ac7d33f0225; 0x16ba4f60e4f9015c; 0x5e1e576fa217f972; 0x75bb9ab524172d7b; 0x6a78e0a04fcd32cf; 0x727dbecb74f3b56d; 0x26c88e31cc108b22; 0x4faff2cb60b81ed1; 0x43c984ddf7d54d2e; 0x1b4d7932f75d74b6; 0x283323e48491ebf6; 0x505cff20744445ce; 0x5d923f7822bb0ab1; 0x40c51be50682fca8; 0x3b5a68cfb0855203; 0x4129fa991c8df576; 0x280b37546a0a0dc5; 0x11276b96945d4266; 0x4f715d4c5531fc3b; 0x301fb0cf7d096a6a; 0x1293122c0daaa8c3; 0x346d379adf297b8; 0x152789c3e9a2222f; 0x72e344c3e0f6e945; 0x49e33f4f54ac2c7c; 0x3225a8de8ea2c5ea; 0x6ddc22e625a9dc64; 0x554996dddafa6880; 0x6ae919acc0506e67; 0x311ef77db5886e55; 0xef5b8e01fdcc34f; 0x3912164a40c8912c; 0x78976bcad4c4615b; 0x7ed2596fbf753f64; 0x5d1bfe9a5281a5eb; 0x7aa5cf0846dfe8c9; 0x246abc4379b7f3ed; 0x5d59b55b5ec1c85b; 0x4adf68bbe90c7444; 0x6ce6a9613071e587; 0x15fb2fa4342d7b40; 0x2a0233990a37ff4c; 0x4d362939c85b0e4b; 0x35a9ff1a3ef8de3e; 0x7c230d11996cccb3; 0x1f29d93c05b93ccc; 0x47506ece9cb15e1c; 0x58e798b005628200; 0x2455a9dcc4fe3def; 0x598f4be531a5fe5; 0x2dc85c6ecb7e07d4; 0x3f1fcad343586c62; 0x19b3e20efab4f01b; 0x13b2c99b62f45dee; 0xda0cdccef837828; 0x744f264965ad01cb; 0x46e0f336c5fb61f3; 0x75a7e7d9af03f43d; 0xaa89634507a4281; 0x26cb956a14a1e119; 0xbf1b1b8fb59883c; 0x5096bb1ed3a715e1; 0x43e01b69f5321e3f; 0x3f4887597978532; 0x6a340f57d54b3fd4; 0x3c599178c7bee264; 0x2cd988757dccaf1; 0x66286a7ac80c1a8b; 0x142f02d8142e8316; 0x468e157d2854aa62; 0x67d9f59b1b22de37; 0x9864d6fc48f4502; 0x73d07751d970a4a; 0x6bdcca2d5ada05de; 0x59ae0679fa8a8b16; 0x1a93f8c891a749d8; 0x18ca5ce24c09cde1; 0x50d236e86ca8f6e4; 0x42b1d1fe8979dd57; 0x9b849187445e85d; 0x5854cce3b5c3c05b; 0x41951d921a07b7ec; 0x16dcb099197b6067; 0xbdae31975bc7880; 0x3836cd047d88a8; 0x79f958bae0b60ef0; 0x65fa32e2ea9d913c; 0x29d4d695a37e4b22; 0x6435bf64592e6745; 0x8ffd7a7aa392a66; 0xbb69d6162bc1279; 0x6ae8648fe375d504; 0x37b04f0af80b450d; 0x716faed43241e148; 0x46cffd601fc2d805; 0x1615303ab6f61903; 0x555e7e6b1691b4ae; 0x33947816412df694; 0x2919bedb84171594; 0x6d4e2324dbd86859; 0x350149830ce83ff2; 0x77b48b2eed0d1ff6; 0x29aa64cff0aa2404; 0x2d59d53a4fe86d50; 0x443fa45cc58f380b; 0x101ca022c320c96a; 0x4fe1e4fcc8af1a82; 0x175bee9f77d6f0ec; 0x46884c45a1b19630; 0x3b38aedec3bcb83c; 0x611614e45ab17a93; 0x50d9a8832684831f; 0xefc3a954fdfc7b8; 0x6996b61ebaf17326; 0x7771b78b5914efa9; 0x423b1e4907d81dd0; 0x5180a6826fffabfc; 0x7bad4cb7b1a867fb; 0x204219f9e94b8902; 0x516e2462ffa1f330; 0x7bf77e20e5fdad1d; 0x42e04ef31924512d; 0x5cf9de6f5c8b3c42; 0x7bbffd424ef0155; 0x1a51b144d418819d; 0x355299a3d8ce8427; 0x6041321f564d84b6; 0x5a84bbf629340489; 0x6fa1ea4ea15a7721; 0x147eb02f0777f21; 0x13b1f5c367cb479c; 0x456f47fd61c413d1; 0x37c9f979c9a73854; 0x73964917b4e83e0e; 0x5a944f7e65bf3f1f; 0x572f9dd88832d9d6; 0x5a6187a53e1a44e1; 0x33a20c7cca5e7ede; 0x5d74cb98c3696dec; 0x1665d45590a5183a; 0x6123d43146d2cfbb; 0x3c6a8315fc129bd7; 0x68e898a5b2385f66; 0x14a7b3e7b2569566; 0x131ea2a616196df3; 0x379a4798173c6862; 0x27c8f2170c52ffa9; 0x3fd8c2817a867cbb; 0x784724423c66478a; 0x2f9fcf2d71b615d1; 0x85046a338febf2a; 0x1120395df1f3161d; 0x1f8f83304023b86f; 0x71cd044fa2530b22; 0x5b533f20a4f76ecf; 0x6eb79bcf746876af; 0x6307b5365a590fd5; 0x57c67e15a98cebb7; 0x43ac072d97281eb2; 0x3e95454fa25cc924; 0x59c1b6900eef8f84; 0x451b288838f9f2b2; 0x3c7213a005a4772d; 0x1935345a2f88fb5d; 0x6687e839ded1ab9a; 0x26d92b0d3279333e; 0x5fb2219b097e72d4; 0x779dc20f5194d055; 0x792ceaebdd68de2c; 0x5f8beaf0b6fb9e55; 0x56c7cc7d82ee9966; 0xf491ef927415c7d; 0x7d4559734601a67; 0x280e049c4d41c774; 0x160c8e84c08d6dfb; 0x51ed098a92276bd1; 0x6524e3ff8396b796; 0x62598700deeb4ca8; 0x3baa480c752392d4; 0x2857e5a6351e514d; 0x2577e6cfbb4ab0e4; 0x33a509510b837aad; 0x3c1f6fdae016fffc; 0x179dcf155873741e; 0x6fa1835fbbd0cafb; 0x50fcda4fc186819d; 0x2e45d0638e63cd7; 0x4f3b6fab97596351; 0x1bf16a4f579ff910; 0x41df0367ba1eef17; 0x2340ab403ce2bc2b; 0x3ec16bfde0c19a17; 0x78b461c333f3fbcb; 0x86d56de1a356e5a; 0x737f9759a04e849e; 0x75d135782807ea8e; 0x3145e49e6f490e80; 0x376af40bf4674fa5; 0x54ddd66098fa0a32; 0x4e09f70e675c0003; 0x1ce2fe5875753c90; 0x3a5758e830112270; 0x5f0896f49d056fb9; 0x7e2c676a2a36a7c5; 0x77ab3df6e031d0e5; 0x3e24d98cdbf389c4; 0x455a30745e3b2d73; 0x78928b624c1fe74d; 0x2e5d1e8ee85497ba; 0x167a933920749ab3; 0x49c50ca656acb475; 0x8e6094a10e1a052; 0x46ab4c7abc68c46c; 0x7cf87edcad21a671; 0x5aa511bb8f567989; 0xdd7a2e9d0b3c93c; 0x7ffe79e019e7874e; 0x3f3f303cfcc3c3ff; 0x1e7e607fe019800; 0x4f33f30c00f00fc3; 0x1f8067];
   [0x7f9ea26e969cb0e6; 0x416a169e781455b4; 0x7998c27d8cca44c2; 0x6394193edfb6fabc; 0x31cf3f8e4bb467b5; 0x143c5c93164892; 0x4d2859a68c68ce8; 0x4d81e00865276c66; 0x37bca6eb617a495; 0x5ed9400d791f9752; 0x7c774eaf7c93821b; 0x54148d7426edbfbe; 0x3b2b1c655f505f4d; 0x32525380543ef781; 0x75b84d8ec0afbb01; 0x788df9252b500d2f; 0x5af3f81bcfc152ae; 0x56cedc1099b0a5bb; 0x21b4aa006361f416; 0x7dfdb659594a8f3; 0x5eb5a416858c7a00; 0x507006784ca38b26; 0xd9c1b032f4d19cc; 0x35f1284d101c0fa8; 0x78cf8b84e33881e; 0x176935b7b50c8dee; 0x770bb973c5325782; 0x4690c196151d31c; 0x62d27635bbda3b0; 0x2aeedef9065a6674; 0x3d4a505f7d1b99b9; 0x3fcfeacb5050e866; 0x1a79b3a07133a988; 0x7b1313b3e1130c92; 0x7055f68f4fe2cd06; 0x5a1e5f657fb15300; 0x16e5111256b5d22c; 0x185a171aeb677f96; 0x3cf6c63f768785de; 0x5a26c8d84bddaeac; 0x563f97cd31b1fcc7; 0x59d2c7484e93ceda; 0x76d18d410bae513d; 0x377b551f64795821; 0x34551fc5c807c163; 0x6c0fd3a0e5f70d91; 0x3c7adc494a6bc775; 0x47445f97df498e7c; 0x1e9dc260a7221faa; 0x3157be3cc1ca5eee; 0x45f2e797f2102ed8; 0x5ba76042306bb21b; 0x394c207547068542; 0x4d85a8e78f075655; 0xf80ba25a5f8d25f; 0x7857daa27724b10; 0x7aedcbac4b84afc7; 0x1284caa7c9f281e1; 0x7f00728eeda6c59; 0x15a1d125b6ef92a2; 0x4ea78bb874aa39d8; 0x102ecf2463a00080; 0x191cbfb86dea4a03; 0x6b784ccac99a1040; 0x7a58ed30395d4d36; 0x768219497a5e55de; 0x7d0fef3cdfaa8cc6; 0x7227c5bcec9bc793; 0x592f3b1c554a60d; 0x1e46db97a170a772; 0x5267c774ad62be57; 0x245882d1c09503fa; 0x33c67525ca3e28bf; 0x5927079a1c72120; 0x6f9d457811806699; 0x5980a9971c7859f; 0x52cfd938fc9ea2e0; 0x4d4dd28f2792201e; 0x59c400518c9cf1fa; 0x590e1ed2d74464eb; 0x1ec3ff348bc0ef3d; 0x3dce6a3b3590bbb0; 0x593a48c77dbbf73a; 0x4cae9d0abf89baec; 0x5bcb252dcafc5d26; 0x120636790792cf5f; 0xcd9f67e3e8330ed; 0x1e05f81b2bc02857; 0x1c0555891d4ebe41; 0x34694ff9c2460bd3; 0x3f61d33f8e521455; 0x3709c9c48777ffa8; 0x47ada63914702389; 0x940bde70218ba5; 0x52953c6ae9946225; 0x7154d86db54a56a6; 0x59f73e52a47034bc; 0x2c30485355801fcf; 0x6e29f106e6d0d926; 0x1ed037ba2dc56a2a; 0x553d05e9c7641d63; 0x544571840d061ea7; 0x78d7c6060d8afb6; 0x145a472a5bcf9fa5; 0x6052b04dabf0cd84; 0x19780ee211d0259; 0x32010e6e21c97560; 0x7ca882a9ff041915; 0x1b0983bec08d6b0a; 0x7c0921fa6eecb07b; 0x387e424e7c7b2326; 0x7f44a4230abbcc38; 0x42170661092049a6; 0x7edf02aa9db67bbc; 0x1d4e563aa7b52f; 0x3c4e4110ad1b4698; 0x4101153dfe6b11c3; 0x6bd538b6679378e5; 0x404c1b7e5b053113; 0xe2da5d7cf8e4761; 0x70f4f0d810fb9493; 0x4e592e816d40a439; 0x65b681548a1aea3e; 0x510f64155edbfcde; 0x583cd8b5bbb290ee; 0x136c567e87f52d02; 0x5e63ea818d89a89c; 0x11a0b865e3da756f; 0x63d17521c180f62e; 0x709fcb5581c858e6; 0x505b8de787165182; 0x7129b96f7b3b9008; 0x55cf1eefbb39495; 0x2f9fd5a4476e1841; 0x6462d2773fa4712e; 0x138ec1b056ce8957; 0x2866fbffdb97be92; 0x7d6edbd544804b99; 0x43d639fb8d6533f7; 0x4af366fb84fe404; 0x6c04ac19b943edea; 0x185c1cb227b57ba3; 0x153a526e23ad56a4; 0x5278258c390099e0; 0x50ab658ce1c12a4; 0x7809e9caaded5064; 0x2b09ead92785b536; 0x4dfcecef7d270674; 0x2e6cf734706effdc; 0x2aff5b8a50fa67f3; 0x174d6708661c6805; 0xeb1a969fc09e058; 0x14c519d82cffedd9; 0x422b0a033ab6e145; 0x105b5e44c1c8ca97; 0x9df0c4204a1a9c5; 0x12a78b70533497dc; 0x74d12c46fd3572c5; 0x3a7919e794173274; 0x508d20c082f0cbfd; 0x28a201b2bfff7a13; 0x77abe63ba1b3d89f; 0x3645d151e5789346; 0x2647801a72b658e2; 0x4bb7dfbdd08ea2f2; 0x475d1c48b8c0133d; 0x40cfe81addf41588; 0x670bf762d234de6; 0x555aa285e35e3734; 0x1f55975989976f96; 0x4168ea8eb89d405c; 0x4d2bcc37e2feea87; 0xda624347f2cf2ff; 0x2f1bbf0b6c91f2fb; 0x4067d28d33880159; 0x7484ccd58ebaafd1; 0x25a929529baf724f; 0x7164143f735ad9e7; 0xf5ffa271b455295; 0x46c25cb0a0bd6232; 0x7d6747987298ca4e; 0x4c78978a85cdca60; 0x7e94f46e021d2fe0; 0x571cfadce8f65bea; 0x8d83f78cf351b3e; 0x1d19b9670a9325e5; 0x2c34c866da78960d; 0x323433df41ea0ffa; 0x74cf8ede41f63e9b; 0x63232ced68ffff88; 0x4830932e1e1c011; 0x3ece451200997259; 0x4b5675c2c6dacd29; 0x34f5908719dc78c9; 0x78e85ab52ce8fb81; 0x2a47cb111ccc1f39; 0x7e1ecd6e1a0f738f; 0x396d25d13f22a3a9; 0x17e477841d5b9912; 0x3330331c53527f35; 0x2b9f7a915ccf61c2; 0x3c8bbf7d0270a743; 0x511c3c8c0198f7df; 0x2b4635fb656a026e; 0x296717fda50a4dfd; 0x6588b117a8f5a83c; 0x7e087482a96018; 0x2241ac7cc38d3e81; 0x4260963fc04d183c; 0x1f95bb95707a9995; 0x35e72aa189ec424; 0x12ba5f2c8ae6733b; 0x4ed20b95a7b5a04f; 0x7cdd6ed7dd4d4ab; 0x4fd24b5f1250a8ca; 0x52edc384cf6f516a; 0x6e6b57211c4f3354; 0x53e13000afd033e7; 0x6c77466caf227aee; 0x393107e474f6250d; 0x4648fc7f89c1eeb7; 0x70f2abaafa5c2c9a; 0x4092fb9d204a0bc3; 0x767e0330803cf159; 0x7327144149766396; 0x596049a90205eb1c; 0x3b56b709dc78bd9b; 0x35f5d98215bd0975; 0x30dd45c99cf2105e; 0x3141eef170d44fa6; 0x7b58573f8b66be3; 0x6262221650529476; 0x1ee9cdc348c9779b; 0x5d06f374692d1a89; 0x4a3509a5f556b50f; 0x6d9ac21ecb4da5b9; 0x3b300544f6fcf2a5; 0x6f0d63b2b4458c54; 0x19ebde951fc83856; 0x253cb38a2a7e2bdd; 0x20bff98cbcb70a53; 0x4fadef52183d6b99; 0x3515372bb9efc2a2; 0x221845e960ce1549; 0xf52c3e27a47c5c0; 0x273d1fbc1060ef46; 0x18d4dca76831246f; 0x6685cdbb294beb24; 0xc1927666ed2c29b; 0x646818a5d5fe0ee6; 0x7ee9abfc2459585; 0x507a0cf4144b160; 0x16ac33d79bc5971d; 0x3a9acc331c482302; 0x2ac85eb983e7e4de; 0x6c17722c3106c2b9; 0x23ba3ace2bfe8c33; 0x58e9b9a4aa2dd382; 0x238aab43e4526834; 0x1da1447ff162a5b6; 0x5c8a4cb9b1de00ec; 0x49e7d4f1d9dd7320; 0x2a0b40dda99b2e8b; 0x92414a9e00f88ba; 0x379d087fb87e9673; 0x2b5b519f0903fa51; 0x3edd0d8dffc4f2ea; 0x688f451335d2ed2e; 0x7e01e26449189cf; 0x53cf4b80c011da35; 0x571c9fee6dea2632; 0x6919d2b8ec459167; 0x11e01935d61b0c8a; 0x33578df6e1f5bb3e; 0x5a5b6d4fe17e4691; 0x201d2b050d10ee; 0x4adbfe913286d8a1; 0x1dc763a8a46933ea; 0x5345c67d3c40228; 0x1f494f0386e3a905; 0x3e92e114c4f3e2ef; 0x3d0fd7fefd29dbeb; 0x2911b06d17db438a; 0x64398839cf5077d6; 0x39c7ad53c10068e2; 0x3bd6ca39623ce63d; 0x7c15bd1b824fc87e; 0x7ba6e04fe8ca8515; 0x4fe74ff3b76f745a; 0x5b0d71b80484eb7b; 0x15b5d92535b6138a; 0x6b04bd65c4543e9d; 0x6d9e399d688dbd34; 0x4da1d16400b490c7; 0x3149758fe78f3c37; 0x72e1cafef95225f3; 0x6b88f4b6d41fcbd7; 0x17442afbe20fa388; 0x56d4d594ca07ab52; 0x4e80507699a43f9a; 0x2c837393cf992f53; 0x64899c1c7830d32d; 0x583f0262824dc20e; 0x367960caab59ce0a; 0x4683ee4ca0ceaf9f; 0xad56b77861e0aa; 0x71d5ee301e22c107; 0x6d6cabe01a15da10; 0x5389637ae5fdc423; 0x7ab8335f21c68dbc; 0x7ee6a8629d8912c; 0x3d06818a8d68f22b; 0x73ea388cd1c6b37f; 0x678787e18187f965; 0x33ff0c3ffcf0cfcf; 0x186618061e01f878; 0x70cc0330fc0c0f00; 0x186007];
   [0x27b3a99fe8da8dfb; 0x79734a773dc82994; 0x12c30848ed019012; 0x477f53aabfd4e74c; 0x41e2106f6f90e69f; 0x195b808b7a127adf; 0x468ffb4bbbf6732e; 0x4c82190835276649; 0x69385cc2fe774b7c; 0x503c853ae73b0e83; 0x2d8bdf2002432e0; 0x76c483c22a969a04; 0x77f548555f146145; 0x16848bc988ed81ef; 0x68dfd15b725e7e7b; 0x57532213d140b39; 0x6ab4ae8a90d0d889; 0xdf14297a8edf76f; 0x168ccbdad696784d; 0x43bcf99a523faa23; 0x722c31093b32ce0a; 0x6b5fe445d042550e; 0x1190bd53ae4647ca; 0x3e8a278c45b0058f; 0x5ff13541e3b7428a; 0x1d69dde28134b19a; 0x4de49d587215b74c; 0x288b4b0f0f1c9f44; 0x4e5d2a60b5c3cea0; 0x5e708d4d1ba85868; 0x7e8b99f2ba04f35b; 0x5eb13acc6824dec6; 0x56b7d60c45fdd89a; 0x285e0118c4e0067; 0x1afc264ff8a0127c; 0x5ef75bb230637216; 0x7f3d32e45ffa3e4f; 0x3f125426d3cd5ebb; 0x7f62494f201f0fcf; 0x9921adaa2449994; 0x48d6ac1ba451ed70; 0x738f58b0dbc677f6; 0xa1325007aa903d8; 0x548d0bab32a7d602; 0x6cd0823e0b8deb55; 0x5587c599a050718c; 0x729397c0e841cba5; 0x73f09ff2f4358480; 0x2a9b04b79d4e7091; 0x176b3b767064372f; 0x1cc996e6f1f0208e; 0x6ced4ee5157dc04f; 0x7cc25c4a2b4c85a0; 0x64c6a62d512157ea; 0x4cfa54975a8e35fc; 0x5cbc0f8b80c06a8a; 0x3d15d629585aa271; 0x8b9b5da9f273f1; 0x4d69ddad3eecab5d; 0x3fd9e7be8050c81c; 0x6e4492d2306ce744; 0x6f05760915bcd7e6; 0x50706664055d2132; 0x466504416fd1a1ee; 0x5ca2bc1b70a1f3bb; 0x6ee94a610892aa4d; 0x2fbdccef5b61ede5; 0x3650bc6cfa6767ec; 0x2e9669976462972b; 0x5894079813e91ca5; 0x38b17ccd03d0f3cc; 0x45fcfe16fb70a5c5; 0x79a2c45db2cfb1e3; 0x168dcd2fe7bb283d; 0x36f48eb63804831c; 0x9d1d46e89b89d2c; 0x107c975ce04a70fd; 0x59f2a09e2a05c77e; 0x562cb7e2ae0e3117; 0x5f83b4d519682c78; 0x49764e519b4b04a7; 0x402e3476a3fda85e; 0x7c5e2c1734a168a7; 0x504bcb0b0c7bed5b; 0x2f73845b75919e28; 0x1b5504620618e9d0; 0x23ba353c6262b1ab; 0x2ded3652b802d293; 0x341a54a7a2659331; 0x7cdaa3cfac44f975; 0x13567209d466eb26; 0x19db3239164196a8; 0x7121c117706ef4f9; 0x7f0f3d31abe9a201; 0x2407e60e37858c07; 0x68897f9107d440c2; 0x43e90f8522b108ae; 0x458216acef1949d9; 0x9bd33e3fc90fd9; 0x5ee0c5429f707e0b; 0x36e93866d5fa8fa3; 0x45aed54f7ee65d56; 0x69f3d8e68b322b07; 0x5487d5dbb7b9a0ab; 0x7438f3911dd0e9da; 0x9bbcf146cb6508a; 0x4d64097f230a0ba; 0xeb258fc7d4d0e9a; 0x787c025f1cd17b89; 0x184bd4b7eb5ec087; 0x4628379d0e43fff4; 0x57f700c8a5c43f62; 0x37be53b4c6ff52f4; 0x1f0e991dc72f7df2; 0xbf3f4e3b462f700; 0x1332f99ac6edc7a1; 0x13c4c5b2771f0c55; 0xcee46b7c1018544; 0x54f1d5c00dd88268; 0x398563bde40cdbce; 0x55d77c91330d836d; 0x241c40bb36c3df91; 0x4ba80cb6daefa5c1; 0x4b053898a766aaf5; 0x399fac1fbdd95de1; 0x1f9eaef1b526794f; 0x2311b2ce03ca8426; 0x6821d62ec78f6177; 0x6fcd82c9e4717698; 0x745a7efe6cd4e26; 0x1adde453854df8d5; 0x2465c5d75f7bcd2f; 0x6931b4b1078941f5; 0x2f183f6b83955df0; 0x3a61c8654c6304e2; 0x5eef3ecc6068f626; 0x36f5b97fb7d7a600; 0x3780076aa837ebb8; 0x71324fd91473e412; 0x6f68c0287ffcaa51; 0x1a521e9f828bd0c4; 0x6238aa3286fd381c; 0x6bfbbc40bc8da6c3; 0x31ea099efec39cf1; 0x70562cb96a91c6a4; 0x37e927f6bd0ca0bb; 0x2ce78605dfc99fe9; 0x13591bff7ba279ac; 0x7c3c6360488b5a23; 0x5fe9bca7d3c6010; 0x6729cc70b255d793; 0x627f3978cad55eae; 0x5517a3ec9edbdfeb; 0x27e4df4bcca56931; 0x3fc7a2dc101b6d5a; 0x2ada2d824904b67; 0x693c2e39ee608ab3; 0x6887ad6f6125b02d; 0x7b9c1e2f1e55c130; 0xbd83226b3b843b0; 0x505b415a9ef31909; 0x5054daccbd7accac; 0x31c85a31c7f7fc01; 0x44650b15295c6b4; 0x57c58a5883d88bc1; 0x479372fb8946de44; 0x21d6d5b0760736cb; 0x37579324b2b2084a; 0x641a8194c9bb9839; 0x42c16831bc8fc761; 0x6e4f863a3d04f8a9; 0x183a69300c9a68f; 0x315a40ac2a6129cd; 0x4a50292d093a8c95; 0x3e7e3e3c0fe74ef; 0x3d485186af7d11e8; 0x71da70efd82d4164; 0x3cfccf194e404cd3; 0x2581f8c250c8fb5e; 0x31b04c90c96eb73c; 0xff902fb0d10403a; 0x41788571dc6ab650; 0x40568e4abe8c1f62; 0x2447fa6e82bc372a; 0x5aa2dc50241b97a1; 0x6d23b5f10b1f4f6c; 0x63de3915e4b1ce33; 0x5f33469db092f502; 0x388c13b2ced39329; 0x1db99fac4386d0e9; 0x24c276caa3a4092f; 0x28d0b194253da24e; 0x3af1092f677cab05; 0x1f55bb03b45a054d; 0x300bd63903488e5a; 0x6d403fa4c5ff3322; 0x689d407ff62b3b94; 0x15079f4a8b1b5ce6; 0xa89a591b3eee526; 0x420e9e7fe03ac300; 0x4dfddd9992b8844c; 0x2c0ac84fc24b8c75; 0x5846105358cedb68; 0x4e0eda61e9ad58c7; 0x439aaac43a3ac061; 0x69d9c0e2764e9aad; 0x2c400e606b447ed6; 0x78560db0af92d45f; 0x185eb0e2b82b76f2; 0x143bbee7eea00426; 0x632969471254427; 0x367f10f3f6071b31; 0x1cf8a1e22fd028d; 0x59fcddb699bb14a0; 0x6bd1893174b894f5; 0x4b6a9f1fc8717ef5; 0x3e77d1dc399cf7ea; 0x6a740b354afb2dee; 0x3b6d48d241c78534; 0x62f53f92f7fb9ac6; 0x4f0806bc2de90d2; 0x7a91e1c95a5129df; 0x75a8a17ba969270c; 0x68a1245170eadb3e; 0x11e9c27eb29cba6e; 0x6c6aaaa5c1f36fa4; 0x1fc90d0737a84b14; 0x165676e34f9e2e39; 0x4eaa12461f9a9203; 0x1f98e76ff08c75e5; 0xaa14910e838e309; 0x33b6739aec42b107; 0x930de9e539e96eb; 0x5bab4fca26060757; 0x3a28097714f7c50; 0x3b3e8cd799045ffc; 0x5ad754f98e0204b8; 0x65df48a8f70248e5; 0x6887c60cf9243ab7; 0x6f1b661d90343476; 0xf139c934f0247f4; 0x2029520b453e1b13; 0x7af9d959424b75bf; 0x66f1f2ceac6baad4; 0x9aef5c599ed956c; 0x7c9c50e3738e7071; 0x654e737e099644ad; 0x772100fa30e93d21; 0x6a1d42906cf0b311; 0x1f5a0eb5d2f208c8; 0x3533d885486f9556; 0x6d24f837cc70430b; 0xe6c148cc9085083; 0x2a983bc0502c1a78; 0x7759b237f46d0378; 0x55e47dfbe3cd98a1; 0x57412f90ba821bf0; 0x1c40fc7801ac775a; 0x796840043887e733; 0x8bcca7eec864b48; 0x4e4ab7831348e477; 0x5d5b8f34185e2755; 0x118924c31ca9351a; 0x2d827db56ae2a652; 0x22b84669393cf817; 0x7de87eac2f648f83; 0x20ed44485860b175; 0x5072d11cf0ff8df2; 0x6748b14dd1a5357d; 0x5552384f6709cf1e; 0x19e220476dd215be; 0x758c020cb85f0118; 0x5df30bfb3a3eb5e2; 0x2ab8abbf03d91243; 0x20c9b6b7e051ffdb; 0x743bc4f4ec95b29c; 0x3264975287e97ebc; 0x68eeb09dacea6a92; 0x636a1da445d0836b; 0x7e95a2b986adae8; 0x20602817f4e6c7c1; 0x3d81c13d2a33af75; 0x1b29af2e01691466; 0x30db35aaa65bb9eb; 0xcd72d6999f030cf; 0x30d7b897ace38a77; 0x7d1e7f7323a87cad; 0x10d5ebcb4d74535d; 0x122d2b6537bd3a39; 0x3983fe67c08b608a; 0x57ed017e7c979ed0; 0x4748945648684a6e; 0x6ce0fa8767e91e76; 0x2dfb6e9b88cb04b4; 0x4c3d64201a94e612; 0x77aa2c4665141f51; 0x7fbf7260a4705e70; 0x618b53472fba5cc6; 0x72a72c6994fdcbae; 0x73fe1495189f548f; 0x4950844e43fc7466; 0x53098d9f9eec633d; 0x4ab3ccbe99ad0725; 0x43a39ac587c3031d; 0x2b431d6dd2c09209; 0x6b24a319f1c2c9bf; 0x34cbd3935e7e8c51; 0x442b2e20b0e537a8; 0x14827aaa0ea32096; 0x39a96f2e2107c60c; 0x10e7b64d64d9ff94; 0x228ff93f893afca5; 0x43bdd4fff8f11b07; 0x66019fe19999e6ca; 0x3f3c3cc3ccfc3f03; 0x7e199e619879e1e6; 0x33c000c033c0cfc0; 0x1ff818];
   [0x421c0ad4e695ba02; 0x5b75c39db0bf54af; 0x14cdcca66f413e17; 0x3c1c1a06580fb3b; 0x62edc860676724fa; 0x1b2b1342564f4184; 0x39ba09f4b4bfdbe1; 0x1ec0d1d1dade4e0e; 0x162bfe6897573400; 0xce96815675b8d63; 0x735997be105cdd90; 0x6423200df9414d; 0x1277cd1b2724747e; 0xceb93a18963305; 0x478556a5457ef216; 0x705c7075175e5251; 0x3250abbd23306db2; 0x1783647b40eef48b; 0x16c1b5676b1c896d; 0x129ca9580f47415f; 0x402573d66a0bc2dd; 0x5eb08f1dca6fc578; 0x504f9dabc02f4926; 0xa798bb369861ea; 0x72819a2026ca6180; 0x4367bc5e642e0bd7; 0x36cf816cca6b61fe; 0x28d8b1fbb59c9cd2; 0x68e3d09729689849; 0x15ca60e254317ba1; 0x6a4ff1f093415965; 0x3af8628163864a14; 0x61d1d2b2ebd2b48e; 0x2469b1af6f9f0275; 0x5113640c73743dd7; 0x7306aee04e087236; 0x277c99b91fa709b0; 0x275b6255ca65154e; 0x5f3cad495ef9ee7f; 0x4ce169dc064b639d; 0x664981a77af9c1f; 0x4b3e4cf14002ecdd; 0x43bd92457dc2b33e; 0x26a1e2b9bdf19ea9; 0xac2931d108e392f; 0x4dcb15dbb6bc08a4; 0x66ffb5d828eb2232; 0x7a59cedef1fc953f; 0x5d220f6f584ebf60; 0x7891235dd55adfa7; 0x6a719d34c88ec3b2; 0x1f95f4b9854be759; 0x70d078ca80314bc; 0x2dca62ccad37e313; 0x1b160207af8b5d66; 0x53916bbcdf52080a; 0x73cee2c40250a509; 0x5f11cc65950ff7; 0x1d3d1176c99bcf76; 0xec0592b99539002; 0x4c113e989879cc29; 0x45f29fe1a5143b8c; 0xd59a36c9577ea1e; 0x30e00c7514bb0890; 0x5f15013ca1850750; 0xa2a47660f5e070f; 0xbd6bd878c5fb3b3; 0x19cb4f692cac9431; 0x65953b45cf96946; 0x379ac063bb534a9e; 0x5a84a84ecce411fe; 0x7bc33c404ce1675a; 0x1b37136a154db0eb; 0x5d227498012b2be7; 0x26e1f940ceb2c8c0; 0x2f51f64e252bab2a; 0x2e88075eb13720b1; 0x6d7a639d1cbf1766; 0x547f64e8e4ac97dd; 0x31255a58cae6fca6; 0x3e755904de2905aa; 0xb6d9f0d0fe3810e; 0x5f69a53166ffa3b3; 0x78e55dda151808e3; 0xb0e86222cef5dd2; 0x6d70d0f7687f7c80; 0x464174e937984aa7; 0x7b224966679ed62; 0x2e5e409baaffbb9c; 0x178320370cc2f6d1; 0x6400d320d8bd6035; 0x563ca2a7f86385bd; 0x9f34c7423394936; 0x39786b0564170973; 0x3a6e9524449cd750; 0x2c30b7eaea164f77; 0x4c3818a8992d08a9; 0x5a1907523c35034a; 0x2198f354611f561; 0x3987f341e0150cd0; 0x4c4489747b514b75; 0x1ac048265a94d56e; 0x6f477a889e8af225; 0x1123c8723cfea7a9; 0x369d11a66947aabe; 0x1f675a64c3d02dd2; 0x79ab1652c96be149; 0x202307cfa02e86db; 0x55590bf284a92fa; 0x4f29a108fe317c11; 0x23eaded1b04658ce; 0x736d5e907c909e6; 0x72c6b12ce1bd6039; 0xfa1bcb3b44d53e5; 0x4ab832f57fa12387; 0x750fc0b6ae572742; 0x7e26da8e0b639d04; 0x51b54d5842f5d0a0; 0x6c5d5d9328c3406e; 0x2481ee1dc95df307; 0x78809281f086f5bd; 0x609cf52248056cb7; 0x348ecf01e4bf3751; 0xb8a225838f24d00; 0x3485b615466e82bd; 0x5037b31546b65a69; 0x3f3280ebe6c75378; 0x11ba373803fe2a40; 0x3c0e1d80dc99e4e9; 0x2a53e7ec44809ade; 0x766da381f4ed53e5; 0x7ad68c9b660e30d9; 0x21f43eb50fd78297; 0x413a3f6e33e67f59; 0x71de598f33928b50; 0x3b2c241fa84b4dff; 0x67ff0404478849aa; 0x62b9889d7417f1a; 0x221315d0424089d3; 0x28f93c3c61638297; 0x55abca0741065683; 0x663b29df54364267; 0x1485a16d76665d36; 0x2e3e6931eb35edff; 0xc0d426a8f851a14; 0x503004b79f7bd3ce; 0x3d5bf55f41077d10; 0x44e471d3136b1857; 0x7a313385f9324de; 0x6340d49f09130e66; 0x761a6a8a3eae75ed; 0x4bc9b946e28f5420; 0x748cc1a5f1b84a2a; 0x265ca4eeabbac9a2; 0x140b05c49102aa82; 0x38dc9debd954c90f; 0x152508edbe86ec21; 0x8dea85e44e4a6eb; 0x38b89394d745d8a3; 0x6f0ecfdbcf15b0a0; 0x5b1adc0026bf8750; 0x298d064eff979bac; 0x787b05a2672d3ea; 0x7ce9d76250f4a6f5; 0xb789ced1a177ef5; 0x742e61318d4595; 0x18d559b14ad3a5a7; 0x326d18f6b787dede; 0x27fe28dd85687544; 0x1f7ee156a947862f; 0x2d7e3a42b6d10df5; 0x16c4a67282558f12; 0x2a259b3eecd508c6; 0x5d93000562ff0233; 0x6db30bfdb601e60b; 0x760de20767e97c64; 0x2c2ac1430dc68f2a; 0x544732dd67085ca9; 0x5deecf4cede07672; 0x252fdcbaabbfdf6f; 0x690b8d0b5b87eca1; 0x714281c32229ff; 0x6544fe5b2592abf6; 0x375ebe4954c2f533; 0x1d6d859c78fd49e3; 0x3471f5de13dc20b8; 0x25f0e2e5ab8f3122; 0x1056fa1aeaaedea7; 0x6fb545ad6bcc11e9; 0x5343acffc398e224; 0x1014aacc3038f8cb; 0x291808e500a68153; 0x3fddf0782777a5b0; 0x8d2f8eb660de214; 0x5fa3516ad287254c; 0x502304e493ed20b1; 0x57b0f418e59fc455; 0x3ccdc912f757045d; 0x6b4f80227dd9ea24; 0x20bae65744137a1a; 0x51c022c8920b23e5; 0x6fddb1ced13c040b; 0x412ef65b240071b1; 0x3f6249aed54607f9; 0x776740935584562; 0x2b74f7ff931e46c0; 0x2173a0fee80083a9; 0x262ba79515d77e; 0x637d53b3c4b318b3; 0x7c20c75e4ff5dbb2; 0x6a25c95ee78dc748; 0x103f9d112d64b392; 0x439b07b35c0cbc28; 0x4a31022c81c7487c; 0x1ebc1091b492faae; 0x4f1bdcbcd166dfe3; 0x6d7329806c0f179e; 0x7a53b3f140da7bc3; 0x79a61897a69de0f5; 0x498cde387ad9cab3; 0x159f9024ae313900; 0x4a2c387e633fdf7; 0x6832d2b90fd17ac9; 0x6a8276ef9cba806c; 0x6ee90bb8bb497744; 0x641dde32bc1c6c56; 0x10901f9a1d55a7f4; 0x72e962ede1865881; 0x4fc0c09711ad8787; 0x64b89f039d3747dd; 0xec4c274d336ffad; 0x77dc5fc535286984; 0x7ef23de5f4a372c7; 0x4cf1458a67739f13; 0x4aafe08de27bd1a2; 0x628dd991cd58d471; 0x1bda552e6c6e4a09; 0x26bbbe6db9201812; 0x4309b823e82de510; 0x4517f54914af048b; 0x5e3d16b96c545cb8; 0x396b366fd4cb93bc; 0x4d02110a2350ee58; 0x16cb702ddd176b9d; 0x4e6019e2d62f0ccc; 0x58967d0573d73c06; 0x1a6c2772245bde88; 0x325717d136431b52; 0x2bc8d947d271de25; 0x68b0004943398ea6; 0x1283321538a61b87; 0x370b4292ba553ff8; 0xb3095bf10e07224; 0x494e1c8936c6dee7; 0x23e6b9dc56e6a0b1; 0x15e044362ad2a09d; 0x26a29df6f543573; 0x2b0664d887dce3f4; 0x77a95ac6dca21386; 0x61784179c7742311; 0x381851a52268c492; 0x27c30bd2932956b1; 0x64d1c0d4e969b9ec; 0xc1a2555fc57e87a; 0x36002bbd043c42dd; 0x5b5d62ad9929fcb1; 0x3915d8370830255e; 0x2f42c1f6f1ab0846; 0x639799e636196887; 0x2a7e9e136f910374; 0x1a507a5e4443f1d2; 0x7e3bc9dc8c9ee5b9; 0x5f0b45d6339fad25; 0x5bf58c92e1d936ae; 0x7c333d85d474eeca; 0x4b858f2a5a61914f; 0x25a98c11b7686cd8; 0x53b672abe6e29422; 0x5efba0f3e593ef6b; 0x20d637727e0cdb0e; 0x7159ef98929fc404; 0x79fa535f579752e5; 0x5ac5638d0afda127; 0x6e042767d1af5c40; 0x74cc418ee30bebae; 0x410318a2320c937c; 0x171c898f79b08fb9; 0x4f8ded3ccc55e45c; 0x2770341bef2b4511; 0x499fa7e22f29c566; 0x73d92aa8244b79e2; 0x5597497b2d0f06f4; 0x35c52c5b4591e6e4; 0xe0d4f0d01e5c6b7; 0x1d494563708b4fe0; 0x1de02efadcbc8af; 0x10d95e983308381f; 0x705052f26976265; 0x24d108feccdf7206; 0x32b2dfe96b1eee1e; 0x358695b35900056a; 0x2219d5626ff74444; 0x43ee99193e5b5dee; 0x2e2eaac800ad26b3; 0x231a64f28ce6a933; 0x26847dc26178d936; 0x57486a26077be8ea; 0x741311d45497981; 0x5486692f4321c249; 0x5517f7f5851accd3; 0x7f75dce41473b475; 0x3ebd15329bb73be8; 0x522d545324285d75; 0x6660181e01f983; 0xff00f0003f00fcf; 0x7e7999e7fe001e00; 0x3fcf03c3cf3cfc33; 0x6666];
   [0x2e1a49da562cebdd; 0xc8e4f023adf7f35; 0x4fb8aa536401b862; 0x707c91cab85525e5; 0x3121c069c5cd299; 0x1fab64195b08bda6; 0x8fbf30567d95f1a; 0x17d80a5e9c098daf; 0x4de121f11f442906; 0x5ca8556c4700506; 0x413d676289f80ae6; 0x15caab32fd7658b3; 0x5d7550157aa82517; 0x658ce56276e399be; 0x10c7939c32142234; 0x598593c30bc7ea20; 0x56b3b76f3081f025; 0x7ba4611842b381cc; 0x12f3bff2a7a9de0a; 0x29e583ae729d005e; 0x2dabc453dcb55d1; 0x19adfdcc2729f812; 0x5168561a17a0ac1f; 0x44be8616505990ca; 0x6a5f067eb7b1f1b3; 0x43e59fc67d6a6813; 0x566e5008cfdc2dc2; 0x74962a6d6a71c995; 0xe62f434e2a45f4a; 0x5bb49122b3771271; 0x1028b7a46fb06c31; 0x6ed7eeed1a9bd4be; 0x413d041e02b2a44b; 0x18e3e05943324b04; 0x6e3c7090fa44477e; 0x2881efc479077763; 0x6c6612f78ccc817; 0x6acdd3eb7ae32c80; 0x1def862c5f0c61eb; 0x542326fb78c8d909; 0x53e6a25e257febb2; 0x6ea0fbbbd433e686; 0x39032171aea3a0be; 0x2477032a12eb52c5; 0x59ee1f7e0e373f06; 0x269799160b290a90; 0x7a1038785b4f4bec; 0x5ff5c9df81638d1f; 0x9a108880ca64a29; 0x2c5011ec1b147972; 0xa543c3aeb7fefbb; 0x3e5f1f5429e5e053; 0x20a5714a6037b7aa; 0x4bc09d4961ce1a0d; 0xbebcac85a133305; 0x20bd2fb25ad2420f; 0x74706a8f5fb05828; 0x4d9504a49a5acca5; 0x44fc3fcf87b8dc64; 0x751263686b112dd3; 0x232869764e8b32dd; 0x13eada4c687295b; 0x6fa79e57601dba35; 0x4a3522421866126f; 0x7cc893e7bf9db69a; 0x7865df3fef12b0aa; 0x531087fd38a5869a; 0x687ab0303310bf5a; 0x461ad0215c0575c3; 0x2866ac499e769704; 0x3776c6be3eb73f58; 0x333db3c44ded0a1e; 0x2a0032ea320f1e8b; 0x1364f89abbaf6717; 0x4c6f356229df0547; 0xf8fd3e751c47734; 0x22875b8ae0b31266; 0x546f0f8e9bfdfe5; 0x333ea84e138bfa51; 0x3a0a6cf0547216d2; 0x3cb2ab60f5eb1914; 0x63140b515c7c4751; 0x56c841d8d2fb9497; 0x26f50f26f96ed26d; 0x7afee69b4958011c; 0x7a25ac816e2f3a07; 0x2bed0645b9d9910d; 0x489df33963f88a28; 0x5731b96fd02975e; 0x7b926451dc01c34; 0x30dea36852f02945; 0x4f14613c5e77cce6; 0x4a1b459f86c716f0; 0x111ecdd3893b5627; 0x57c835c34a0f427a; 0x6e58935ae654b36d; 0xbcf2e6994d87ae4; 0x49125a712e90e7bb; 0x216e2b5903303ac7; 0x20cdf8b30bbe7b0a; 0x2062593573f801eb; 0x75c5371182634ff7; 0x7f0436ce8c5f5576; 0x5420581ea6329289; 0x616fbc4ce3838bdd; 0x7b3aee060509baf2; 0x23f7f9da9df79295; 0x1fa99e51c92cdbf1; 0x38e8f0d3eb94a5f3; 0x2b49c0741ce55273; 0x68bfd628a97b672b; 0x263c92a1dc31094; 0xb2499ece3844022; 0x299e3300bb6a1deb; 0x26ebacd447763800; 0x57580eab0f4135bf; 0x58fef524be998e45; 0x79e91b92b2857313; 0x507480a90cc270d0; 0x35928b06cc64aed; 0x6ab8c1413f7d08b3; 0x3db4b11c5127933c; 0x6a9ec1b5bce628e9; 0x4b3bffdb85e31061; 0x6e63766ec2685a8b; 0x30ba134a297961cd; 0x56be2f631ff5f013; 0x594bed85e697aa77; 0x7a81bc713bf734d9; 0x74072c6000a41797; 0x3967a9640a91352d; 0x49e7ba02db8bea9a; 0x7f6d3da699ff050a; 0x553140f8a4b87e01; 0x756216575391807d; 0x448ca02ff6a2487f; 0x22782915417dc2eb; 0x5a80f12c2f171b7b; 0x2ed9e88d9c1aa505; 0xe80b1dae25f8e50; 0x5aa301a56067fef7; 0x79b9d46a378ae0d3; 0x6a404a9f49b9e9b5; 0x298447e65e68d50e; 0x48f50be285b3e92e; 0x5c274c448dfb54e5; 0x22aeb65290d1736f; 0xde0341bbf21a437; 0x3467ee6c6562dc53; 0x6796fe83b73d6ddb; 0x4f2b50aac6d227ad; 0x1e6723f8740698a1; 0x11242bdffc061529; 0x744c9299e5f87156; 0x672892743093a377; 0x7cc500a3e94ed854; 0x4d98da137a56f405; 0x6d62c259f5e29843; 0xfc06a25fcac87ec; 0x2ca0c2721f617ee0; 0x640552b3a90d5501; 0x53ad9e984c070ff6; 0x5451114381779bb2; 0x5319a5ad0212279a; 0x1b81ca8c1f55cc64; 0x105f16dcd39c3b39; 0x7da293e65e212def; 0x50d4b7177b17975a; 0x49d4210fba407833; 0x6ec93126ef3e455f; 0xf7050774cd8bf2f; 0x6192ebd7228c95b2; 0x3f7117f21b9c9d99; 0x4cd51b854d6faff3; 0x18b1c616537c0eb1; 0x7f0939b82ca07efd; 0x472bf2e784320f86; 0x487233896f7cb822; 0x137cab82cd6776b2; 0x50947ec6bb71f473; 0x407e3489577a6492; 0x7aa21ac6a2c9e9c3; 0x70d53e31426a4e2f; 0x6c85d76f22fb9ee6; 0x125fefead65d0290; 0x45c7de883e7f4647; 0x43bc4ec61144f9ee; 0x512d6d7920cc2ab9; 0x3d114bdc148c55ac; 0x4b94adcbda9ceb4f; 0x4d08053d4f95f72; 0x8babc47ca03a3f8; 0x16f08e6150f4a17d; 0x3e4471ced2a8ecc0; 0x698edff44e653a0f; 0x57d69d8d7836b8a3; 0x34311903d62b6933; 0x158a2eee9e87eae3; 0x5ad15b9bf6ae3757; 0x4ca29c21b1026c8; 0x440834b96b500a25; 0x6a7553fc8b116e9; 0x31ec0d7f5e898b53; 0x5cb7ece2367cc33; 0x3c50e5d6ae59f819; 0x2adb7a45324eacbd; 0x4fdb003a444c5848; 0xd2232089a333dac; 0xa220d6fecd20444; 0x359386ca07ffd892; 0xba77fe614737ced; 0x51024fe7b704767b; 0x61d9324f25f3cee2; 0x5e6732a12b07dc1d; 0x25aba27f9f46f0e9; 0x788a1b4a772cf3a8; 0x3b101e341b581b38; 0x4a694b169cf1ad77; 0x7d617ef7a9e0b987; 0x195a1515db798517; 0x78c3d305cb50f7cd; 0x2e16a32711415a89; 0x16eeecc358891acb; 0x322ba43e40e908ba; 0x755e0bdae1481007; 0x13e8f224df56662c; 0x2d7c04e923346194; 0x1128818b1f2d27cd; 0x75bc82f48a4afe2c; 0x3429780f8391e53a; 0x4ab10ab97ffff70d; 0x7c382d30a18ac416; 0x64c182b42b5d11f1; 0x6e95e5ba16e2b980; 0x5603bc1b381e582c; 0x78a3feef673cf9f1; 0x3c093c4f88fec306; 0xd0a358a72ed7dff; 0x782af0cc2cf6c20b; 0x3925053023e51375; 0x6a366f007fced107; 0x106692ebb05748eb; 0x3cf3ae8a7f3756d5; 0x6112103373ca35eb; 0x59544a7d2297f3b1; 0x73cdba72433bf824; 0x601788a41834295f; 0x7c112a58ad0a9f02; 0x1a3b7624affb257; 0x594a0b0a2c7d5d65; 0x5994225f68e47097; 0x39134b84ad3697c2; 0x700a10cc13b44de7; 0x26dad145308fd5d; 0x28fd80434b206335; 0x1d0bc3d9f2385e7e; 0x4af825fd586bd415; 0x735e84d4a0701f92; 0x2e39eaf98d2a1812; 0x7dcf45ec9b30c05f; 0x6c1eeb6ff51b56fa; 0x1b7d9cfcf6b5d63f; 0x7c26e9a480cd02c3; 0x50e4c0c5594361f9; 0xcf712608daf20e1; 0x5345ff476a450c99; 0x4a2af9b69dc483e9; 0x3e6f46fbeda059e8; 0x3c9ab590683508e0; 0x340eb53765366111; 0x307ff500d365be81; 0x2f4ef752639da550; 0x2614e7057a5d35c0; 0x7e6e3a468deedb74; 0x3db17aabf332d78; 0x3dc5705ab28ec6f0; 0xc0c0299322ac2e9; 0x1a795f87c3287a9f; 0x1e2ecc070515707a; 0x3048f00a37963597; 0x4227e7ef155dc728; 0x441ba2b9e938e076; 0xa93a569d0f11a6e; 0x1c643e771a90a2f2; 0x1aeeb04ec8cc671b; 0x661306dcdd3ba08e; 0x256c2755db2aeb33; 0x5ea6e2219e648aae; 0x8d358b6767e5b74; 0xc985e5544b14227; 0x37268cf76e025207; 0x18d91dc3d03b9786; 0x7cd51bd1af8b4d82; 0x6392f3c783b91bb; 0x7992171d29aa9690; 0x5613fb4fe52ab665; 0x277c965a72220c41; 0x48e90b104c57a8d4; 0xbb74089ad84c659; 0x459ded70551bef16; 0x2e81281c0d9d3728; 0x10588af358c17cce; 0x995d6ada187df6c; 0x6143298f2fbae4f5; 0x7f8b0148d506862a; 0x7163aa615029c285; 0x391edb7bdcf7fbc; 0x66ff4b98a8ac5149; 0x63a102a2102978c9; 0x1917d8deabc98034; 0x5c665df6d0e25431; 0x1267d5189b3bd35e; 0x5261d67f2bff16fb; 0x787867ffff819ee9; 0x30cfc0ff3330fccf; 0x7e7f8181f8018600; 0x33fc03c003f0c000; 0x19867e];
   [0x30ee5d10411a0fe3; 0x11863c8068bbcb1b; 0x74de1ecece3e1784; 0x44eda9737d6b6e30; 0x294b7353d5ffef89; 0x4b32245587683f09; 0x640873a4e4128801; 0x569c58d15049a987; 0x1eb9f65f46fd9c0b; 0x2b2f0b143b523a1f; 0x7b3a9c8ac0b460a; 0x2a98c2453ff9d024; 0x72fffc194a13cce; 0x2f323fdfc7960410; 0x7e782e8589cd89eb; 0x6a9c910a951230f5; 0x610e268118e22822; 0xdbb64eb7130609d; 0x2fb2817ab7ef22ba; 0x2cc3802d4c7d3c22; 0x2aa55e3c31541f37; 0x4e0ee6d0eb79630f; 0x510969531f110307; 0x40c388ceb01e0dc6; 0x556d6ad30e27c9e2; 0x69968f9357c7706c; 0x1d1b8bb59fdf78c; 0x57c0ca7d7e68ea1; 0x6ad5b51193d1b937; 0x90c8d7f2d3334bf; 0x7b51c05cc9fe630c; 0x78c67bc6863d8bcd; 0x3163efd8372d6301; 0x6747abb70bb44ae7; 0x1c1efd281d0d5cb2; 0x303d30c47cb80e2b; 0x7dd4e1893b3e8462; 0xc8556870c6f7c35; 0x57d68a21abc588f5; 0x5455d5df5c0bfdc0; 0x1cd6abf291e3e49d; 0x4749f70dc72b5403; 0x6a4da73b0566acc9; 0x5552afba35bbdbce; 0x4fa0b6ea6fbb3437; 0x2a3088f3b10b4e32; 0x2326d319786c5afe; 0xca3a0856489cdf; 0x5e7fee0f2277356f; 0x38e40a8ba315860e; 0x23f230f0fab7fd29; 0x28c4e0a888c859e0; 0x6467a02324a143e1; 0x2332c2bd1c6af285; 0x3cdcec06b7f37e51; 0x1b1e772816b523c5; 0x5809fceb6c5a03ed; 0x3615a7a79aa2a623; 0x2ef0256373bd6ee5; 0x27c91d998848f525; 0x324f7745615debc7; 0x1d42eab0d9a6c763; 0x775057c2130b2dfe; 0x607057e42324d206; 0x30899f7ee3728bc6; 0x178141651f52bd1b; 0x4bc65ca01f45bac1; 0x4c54a0b540d59b97; 0x22ec6da592180e00; 0x540d1635e4d8ad80; 0x3afd28850e22ee3e; 0x47049e131b6ffd6; 0x363f6d587461b177; 0x22905a3b33d93b66; 0x3d21a232b26bc72c; 0x50f5bead980502e4; 0x740edb84166b9868; 0x689e93e9f4fcda86; 0xe7b54ffe0ec0f64; 0x6fa3d94dcb5a6e3f; 0x5d2d7ac5554de88; 0x7d885787db3b8b85; 0x2a059b19005ee70f; 0x71f91fb00b79fcc6; 0x6e43ec0ac4f482ae; 0xe8a1b092094f738; 0x2b40d8a78632ce68; 0x189622566ff1979; 0x7a4229e04b99293a; 0x3be1f6f9d844441d; 0x515294eab53590cb; 0x336696803a119952; 0x48fe036e5a09671c; 0x33be526d07d7edbc; 0x69b77b1f0de1e2d3; 0x606d48b53678d10b; 0x61c5ee6bcd3b0721; 0x2a9c0043e21b8485; 0x3913e019cda0f3dc; 0x3b65e9918837047a; 0x4a19ee7935afdf8c; 0x6b1f4185032d16b1; 0x132e315a8cac8b17; 0x3c179ce35322ef7f; 0x219de45e956db06c; 0x75adb58811b8ab4c; 0x4eba3e2da23d736a; 0x6d1bdfa6c7b04474; 0x21a192d50b299f10; 0x243feff6996fe94c; 0x737fecf0341739de; 0x1578a50879348402; 0x3e3344eeea4402be; 0x26f91aa0b6b2fef4; 0x60267fff4f22efbc; 0x515c51ea217559a7; 0x7f0bd1ba17f7c228; 0x494de294bb57e88c; 0xec2bb98bf5856ca; 0x2168ea8c84d90663; 0x4004eb34d5a3a539; 0x75445d1b8efd4bc1; 0x49f42af0bfe7832; 0x7dc5329592e7f9af; 0x3db2a53da5610e08; 0x7f3be48a92333093; 0x6e663d50f9a68608; 0x1f644a3966f84765; 0x636b5b9814fa982b; 0x22fe4d8a46b92601; 0x5ae80b32633e6fbf; 0x68cd5f4a983946a7; 0x3752dc6d6821e35f; 0x765941f0e25428ab; 0x396383b4ad0a7936; 0x4bd631766b55e686; 0x5c0fe4583e1a133f; 0x468910d743e95bf6; 0x545fd17cd4927d3f; 0x12649dc0bfc57d12; 0x67c863ef2f89734c; 0xfd1696a30532351; 0x31b8147bac56dc24; 0x6d2f568b50d6199a; 0xe2359c764026dd2; 0x37cdb9210e5c2fe5; 0x55a09b9b89918dc3; 0x1a5c45f0301c1c52; 0x1cbc025c47fdf274; 0x145683da3885b81b; 0x14cc8228f2bbeb38; 0x532cc99bc48908c3; 0x1688f390d419c5f0; 0x3e262bcd4ff40e; 0x3e70705d8a9fb1; 0x3d69c8ac650127b7; 0x5c0c6bc27f46111f; 0x62f9b5f65b884f0f; 0x6328fd103968a66f; 0x7aa2d21b25345a60; 0x2c5dc984bf8feb94; 0x1a21a10201570251; 0xf655a1cf03c8bdd; 0x3a20da496e6eb1fa; 0x3ada42933fce95e7; 0x59f4ad4792bb9068; 0x50bcb90ee205343e; 0x1831f7e4afa2ef7c; 0x2d3cde5e628f91fa; 0x72c91d98abda866b; 0x136ff3bf97ee2490; 0xee6a8b64794765b; 0x37d396cf6eaf2c54; 0x1fa464f42d9c61b9; 0x52858fdf9ca42180; 0xed6d5322eea61d4; 0x6d4ea361d6416829; 0x8fb0779187e22cf; 0xa39a85da95029f8; 0x2a1837904711db0f; 0x60dac867e9401fab; 0x3c40464d4c1a40ad; 0x710730bd95090fa9; 0x1c82bf26ecd8cd74; 0x714f6c71a6ba7b18; 0x2ef60d2aca0b99b2; 0x785343b9812e92dc; 0x5e8b200dde4faf46; 0x7443aa6662648ecb; 0x3419fca6ddb02674; 0x143829467a8c09f8; 0x15190e9c3f0cac93; 0x1df77effaf9b584c; 0x659b57b1b9ac2b6f; 0x67b5f9c9d32b4961; 0xd1c6fca63b4bb65; 0x74a263ca46a0f5a6; 0xbfb50ac398e6752; 0x5ba0c155b562616b; 0x22af47bad90b811; 0x7b604673d1d7430d; 0x6def5b0138dabed8; 0x4828eaa01e6c181f; 0x15f312e1effdf9a3; 0x7ea4bfdfa4b4d4a3; 0x46c9671fb8f46be; 0x430a271a1908a0d9; 0x50a3bdf3e2915a9b; 0x2a7634fc8381f272; 0x78ced28ba6285a15; 0x9767d1f41876ce0; 0x4530f7a3335980d5; 0xd68bbd200d81e62; 0x3b760376e178b070; 0x6e06e76dcd562d66; 0x459ba3ac6873c37d; 0x2ee6e3c3995a21dc; 0x448fc4121b750aff; 0xfaf9fe8ccfa3814; 0x76609aadd389aff0; 0x312c08eb41fa9e08; 0x263703a5506758a0; 0x265866344282e399; 0x7810225fd47e88ef; 0x2fbde53283d1be2f; 0x5aaf555c857879a0; 0x114faa9053ca7d01; 0x29eb1f98a23dc5aa; 0x7e5272774508d9be; 0x3376710c5546dc9f; 0x276262d498b6ba4c; 0x72f1e8f252a06bd2; 0x61c6306e997a3573; 0x5bb38b5f228d7b72; 0x55da422dae64effb; 0x17c9bf2850850e49; 0x56c9c32588a9548e; 0x3204613a5abd6f71; 0x67542b95e426252d; 0x781584e5b53e7121; 0x731ca82fe9e99b32; 0x6f82d4c5dc174a96; 0x1d0a95d7044bdb53; 0x6cb65220ad47ad4a; 0x4acc36ef1d7ed849; 0x7f4ed3c2f94b2a1; 0x54e7e2d2cb4f3ef4; 0x7519c29e941da08e; 0x57de8d54a6a796bf; 0x2b72326d39f2dd1c; 0x2d6f73966a8aaf51; 0x19aa3ca1d958e416; 0x4f2fda638a2130db; 0x768fe72387e0d379; 0x220911118605de02; 0x552c805dbbf41a22; 0x14811e3ab7854ed6; 0x64cb413a515737dc; 0x7ab0cf24b0f7ef69; 0x555ad7a649037bba; 0x347816a8b06a2a6e; 0x41b9146073e3fb1e; 0x73ea90e68d4bc815; 0x3343615499507f57; 0x42a88b170a32fd1e; 0x4df6dd920679a1b9; 0x5c05083ab389e10b; 0x7d347d5cae33d393; 0x79b2e62ef31b4a9e; 0x4b533ae77ffc630d; 0x3aaa70c8a05145d1; 0x5cd8672d8c8e1be6; 0x6e7e83a863c5ed7; 0x756d4b8b12169356; 0x60302cb937079c1b; 0x7a58d2a096f8db43; 0x3dc7fcbfb51a4c48; 0x4a5bbb4d870dc5c5; 0x401cfd713c84390f; 0x3271d40c6db5bf89; 0x10f06ad1957a5280; 0x11e82e73dd92fa8d; 0x6aff759b19330e45; 0x5130503c8b4dbb4; 0x19b35b6603ec38d7; 0x70017aa9600099f1; 0x327002f8d54c7c32; 0x195ea710b5fd969b; 0x433e7a09afbf812e; 0xc80a7086e39e221; 0x10e274c8bc7582be; 0x5c20270f796a75c4; 0x3fe85a2159f324a9; 0x2421a061421ead10; 0xd2b0617036f58f2; 0x200443598af4036a; 0x5e5ad89dfd0ffb25; 0x5f1feb99c7527434; 0x7802a1977ee157bb; 0x631c7c42b78a7473; 0x179335dcf0b97f04; 0x5c1fc85f955c46c1; 0xba2e63c89cdedb1; 0x4dd8acb71c55cb2a; 0x2b739785a36ab180; 0x7bb2d264847826dc; 0xdbe994539fbce07; 0x65477e483b2f0dad; 0x7f6374ea09c2608c; 0x6f8e28e2c8f3a945; 0x3ca6a47193c1a6f8; 0x668969e44210b5e4; 0x35632a84e5434475; 0x601e19f9867f8cd; 0x3f000f0cfcc0cf3; 0x7fffff81f9e181f8; 0x3fcc3fc0cccf300; 0x1ff9fe];
   [0x8756a65f67d803d; 0x4bbb652e0252d94e; 0x21e1b9ada5124d2b; 0x75f0358adc5fb69e; 0x111ed5b2dc7dcb6b; 0x471bca0fc91a629f; 0x69be18931ac36ec7; 0x436a1eea0cb21f23; 0x45295b6f0534d7ea; 0x4ffec3a48154d89b; 0x243b3f313c1e571b; 0x4d8af2d9abe7d537; 0x24885d623b678ca4; 0x2764aaa26d4bf0fb; 0x6c23b75182ae08fe; 0x8230c2f0cff6fa; 0x65cd2452063388d7; 0x461200bd38ab70ae; 0x59f422475e901690; 0x7d7f60567940bd2a; 0x368ab3eb24c46d30; 0xc3329c0a5694790; 0x157bb569b7fcd2b1; 0x627c03eaa5d399a0; 0x15d3d764107fa73d; 0x10ba6b50a3326a5f; 0x4e6d453cc275cdde; 0x20206e968f1b41f9; 0x51a0cbbcc3c832a1; 0x55cee4d94b5272d1; 0x19d6393eb6fac152; 0x49228b6b84848354; 0x72395b6a0f705bf0; 0x60cff8ddca91cce6; 0x2d256363b333bbc9; 0x3e9bbf63929c59d9; 0xa9b1351bf0bac3c; 0x2e941e5d5c51d508; 0x6f07f75d62bdddc; 0x4a14f57885d7d5c; 0x4f2209b674a7977a; 0x4b19b093e7d48118; 0x6c81d9a855615fab; 0xac41c50e0201f03; 0x70c512ed8b242c3f; 0x1f8242e947751f2b; 0x6fc47f360d8d874c; 0x7667b9d52756e493; 0x208cf1a4e1d2ad5a; 0x3379e9558ee58ea; 0x5b841ac6b65f268; 0xd37e9b68447ed79; 0x1b538ef87355eda0; 0x424576dd328b20e6; 0x4f492afc1b51fe29; 0x786244e0f3a271f5; 0x4f7e239b32a746f7; 0x6eb797f1cd588971; 0x5654332b9b0b7a3b; 0x34b7a76b1a487bf4; 0x2dd6d46361fc4f21; 0x68908a3dfb1f4f39; 0x578d4ff34bb7890d; 0xe446a3684260c62; 0x4b77dd106459b4e9; 0x6f2ba0ce0bb18359; 0x4cd09f347b545241; 0x5ac967837c2d6b20; 0x57b87c12747c04a; 0x39532ecc82531048; 0x5bfa4d4240e9b32f; 0x1b8f3927eacd83ea; 0x40292b111ec38c31; 0x50d4a66c9dbdfdca; 0x403d04fff889137a; 0x125f6612c1c06a88; 0x426e4813c336ee9f; 0x3a13ba1e80aabc57; 0x1d5b2b6e3ec3f6a9; 0x1aa58cc1b5260bad; 0x23fa0180d1538e01; 0x10c09e9112abff90; 0x4f5fd29c51302d0; 0x2edbf47979245cae; 0x4e2101a3b8bfcd57; 0x3fe1c1225044060e; 0x274189f78a64af5; 0x19225177a5bb7090; 0x77d5bb530ef9da63; 0x6b0de6ccdaaf3793; 0x6ed47a08d12e0cfd; 0x74e0674a8f94be0b; 0x1fb1764cd5544e60; 0x71d3486eca0eb4b4; 0x116700bd88e3963; 0x42246fdfed8257ab; 0x1e152bc4e1f17af7; 0x1780a7bfc3c02eb; 0x411d6784dbee0dc5; 0x30175b65c28ebe09; 0x3386b11946158fe6; 0x70bab7e8ff36553a; 0x268d0ad1a330840c; 0xbcc0823f0933846; 0xcc7a7acc1cbf367; 0x455252eda7942c35; 0x115ee0061fc8661a; 0x3abe042ead0ac282; 0xc60b330b73a4321; 0x70057c9b477c3b0e; 0xd1c7e25ab17db20; 0x5fa20b2461374283; 0x74b3aacfe9acd0e5; 0x24b129edd93073a6; 0x6edb9aca6cee1df5; 0x3883b6e3026e75c3; 0x7c9564d8374fb852; 0x52a87e0b71b73eaf; 0x6655dfba396fa216; 0x459b75bf31702714; 0x1eaa591ca1be57f0; 0x64f6419b9a6fefc1; 0x7e781c204f0f489; 0x3720b06dcdfecaf8; 0x35b652c65f968f97; 0x1f421e153b59bbf9; 0x474c5fc61687187; 0x2cdea689eb3fd623; 0x458b2df6500954e6; 0x5b83580ee454476d; 0x4396f78491d171d7; 0x56fff718c73bfea5; 0x1f7c44ba2afaaf9f; 0x7d6393d4dcbaa5a9; 0x5f25dad50ed1caad; 0x661b8112fb17a907; 0x39722a5f05866c5e; 0x7fc5b6d7dc84a853; 0x5b4b8367b85a7fac; 0x3e4e18d1ee45c9bc; 0x2ba9e197b8ee7385; 0x5a1964b70fd6394e; 0x5b4a3d10ab9b64b7; 0x48fc162c9e9ef062; 0x7ad47e1e1ea2f3ea; 0x577ce97fbd22d604; 0x5561be4bc246d65f; 0x2fc400fbab437834; 0xbe52945152105f8; 0x470f1a8156b04b06; 0x3cb2e70b9ef6fb7f; 0xe77be494867562; 0x26f10914768f1b56; 0x26b44f601d9be211; 0xac398dabe536bd8; 0x590ee0315781ff32; 0x2c16b5f64239e61d; 0xc1d49e1a1f53177; 0x3a46d8e913fe7536; 0x44d6a3c5f2785943; 0x51316d52932d8059; 0x12c6ca6c8cf9e77e; 0x52f500cc29a10187; 0x321e4eebad4eaba; 0x274a885344c04f08; 0x244c2a5a072ac16; 0x18fac3b977bacb2; 0x2756292b0a81c8db; 0x71070d822adaccaf; 0x7b72300f99bdd6dc; 0x6fa42ba2a2d74eb7; 0x6f85b1912265914c; 0x300bb90803eea935; 0x10b0e0ddd0b95372; 0x72764e18e0d2c0a3; 0x4169ff10b80b8383; 0x17aa62df8cab5109; 0x1b84ca917eeef54; 0x13f1aad6f6715fc4; 0x514c4b6b89125718; 0x24983479139ac1f7; 0x58450f0366713714; 0x188333351669018f; 0x66d9b62213d3546e; 0x943e278905df283; 0x4a76b5eb163f8095; 0x66b4f36d13503dd4; 0x16c36e5c902dfd1; 0x61634abe33ab270e; 0xdecf3350791e154; 0x264e307942b5fbfe; 0xe2f3a33e6cd833a; 0x56ed53f9b47eb417; 0x2d420e4ad83ad3d2; 0x38b854dc117749a5; 0x7b5db404f9997630; 0x23f88ad214305aaa; 0x5340d126d1500ebd; 0x29618b91e3ba85ee; 0x6b5ec5d609783019; 0x79ca1028ca899610; 0x6fd26d9b71599190; 0x6a5537168722169f; 0xdfbe80f33549987; 0x70972fbefdcc609e; 0x55b3363e7dde253d; 0x35bf1f47834a31e9; 0x5c4820f881b44a40; 0x267446472324a67; 0x2e6f596387ff95ae; 0x376be06c3b568020; 0x57c6c4c01061d2b1; 0x7a3de13058ca0c8b; 0x4792a1b820dd779f; 0x40e9b92d26a69806; 0x5cd00d6f4038a176; 0x13d7b962b8a32c36; 0xde219101a91bf91; 0x2a651fe4856375fa; 0x7c51ed82fe2481d4; 0x32e90c9fe99a0264; 0x3689b743f6791ef0; 0x1f1d72636c062cc1; 0x6745c51458e43615; 0x4cb1746177ed3f2; 0xc6f2f830a6ccc01; 0x23ce7d2d50bcb897; 0x75aec200cbfe4fff; 0x5862e95373470be8; 0x44a70c2ca2c6c988; 0x62c535d76b3c16ed; 0x58f536cf9567ad9; 0x4f5242059276fcfe; 0x3921c6e5249a9559; 0x4bca8bba311e5995; 0x190eb393d1f1487f; 0x7ab86d024504b85d; 0x1adc349f4060ea35; 0x499d8f7d92cad3f2; 0x746a2f83e02ec6cf; 0x67c6c12e0be65128; 0x38a14d0a884b0f1c; 0x3b68daa8236c5262; 0x32e55b6101c2de04; 0x3e3c36ba201ca06b; 0x24f62455f007acf2; 0x124db318ab40f54c; 0x56380dd3c00a475b; 0x47cf3a35d0cd4b18; 0x22ad11b07c32a029; 0x581e216f5bd2e2d5; 0x16cab59f447190d4; 0x1564a58258f71158; 0x164a5b725dec1b17; 0x7517c1fdd87c2f39; 0x15c03368c83d9dc0; 0x36b0deba2cb5c24e; 0x4b6af68e1407ac2f; 0x4f4aa1123103f7d; 0x148b4b72bf5b5e49; 0x7096c14478547510; 0x6bd16d60e83d090b; 0x1de73d1e1e8300f4; 0x41e1ceab859f27c0; 0x6efbbeb50f1d978b; 0x3d851c2940e9da30; 0x1b523eff104e601f; 0x584eef2d4b9b742b; 0x1c96dda8606b7a40; 0x4844accdedc0dc66; 0x36cf669ec0e33ada; 0x1177a2411cec6ebc; 0x53189165abe7121f; 0xea4d575dbac2dbf; 0x5f93007e2f9c1ca3; 0x2a8a2ff32359561d; 0x603f3fa3c5b90e9; 0xe7542f0ac36fc3; 0x559940a9a06b1767; 0x2846db8e81a26d78; 0x49520f4790791cd0; 0x3617885c93fe0361; 0xcf56b8e2f19b243; 0xc38d28cbb071421; 0x56b030d66448dc19; 0x2b7a86ee07e669fd; 0x29026389747d30e4; 0x63f1a5ff62f5277d; 0x7feeb165981f5e55; 0x7609c964540596e5; 0x224a57af0b7188d8; 0x27589ed5aa3bdec; 0x69817324dc80cd94; 0x71410489aa434b22; 0x40fa633c54cac747; 0x4bf0422a18b2c23b; 0x1b6215460f192b64; 0x35462316976f79c; 0x6902850898c94652; 0x6ce6a553cfe97691; 0xb20cd87f4ad1bb5; 0x427ce33acda2c2be; 0x776558029e46ff55; 0x5fcd415c03fd522; 0x38555a3eb4ac9840; 0x434980622e319200; 0x79ba67caa7b65d30; 0x1ec45e9366dc5d13; 0x5a6339cae9e043a1; 0x187caa7b9ad0d7d; 0xa752ecdcb8cad5d; 0x4f5aec06cef6ee56; 0x78f6277474ba842d; 0x61e67e0018061eb5; 0x303c00cf33030f3f; 0x66078187879e6180; 0x73ccccccfcc33c0c; 0x1fe181];
   [0x5adf39ab5b6bf9ee; 0x686a1c33112fc8da; 0x1c430bd3b2b5ee02; 0x25b6c9beed0e4c97; 0x5ceb9e15b2e711d; 0x7269f513cad6dae7; 0x47fb4547b831fd10; 0x451b025408b41cd; 0x2bd473e415d06c06; 0x2f40a3ab5c43187; 0x7be42321d63bdffa; 0x19dad5ed4f4ec9df; 0x7a8906de1f0e5c5e; 0x3a78dba8d670bd35; 0x3ddedecc88e74aee; 0x45a2e0df0392fa04; 0x2ddc3b30592f5caa; 0x30051d5db615b314; 0x614a2f56dd0d8419; 0x11e7149806bd6a2f; 0x10dbd393d5a0df86; 0x54bc921f716ee3aa; 0x1fc55c65e13aae3; 0x3e9b90a234864c3f; 0x46e0fbe8e4cdfadb; 0x8c2e9293375c000; 0x1d57decc7de09ef8; 0x6c9a8fb6d0efb48; 0x694263d8c9346305; 0x1fd19d051f4eb659; 0x7be4248e6909c045; 0x46ab45ad246168ff; 0x6f4c330bcd8a8287; 0x699830ef7acb09d7; 0x48402d5e347fafe8; 0x3fc92ac79143ff4c; 0x7d9f9be0373ecba9; 0x521d061af8c790e5; 0x217ee5b50b2f3418; 0x2d6003922d68d3b; 0x7668a5c4d197817f; 0x52b380c6617d7afd; 0x5da2fdf48a91b4ef; 0x7fab2bd1c7ef542b; 0x14366a29de1e4308; 0x7a3c243b86e70b28; 0x5036884418a61913; 0x3cc309f63ae354d4; 0x23a583755166ec71; 0x4986e9706b3da0f0; 0x5baa3888b22fae98; 0x9c995f830843e72; 0x5ddb8db7d65e51ef; 0x7e09521e4f84bfeb; 0x7444f32cb84c4145; 0xe29aa9f15d0e424; 0x2aef7bf0d06e8d35; 0x4639087ba2f2ef60; 0x44aa481850784f62; 0xc9f091ab5d52c26; 0x4a8d22a7f46426; 0x2f8953594b722b6; 0x2a23ea6ae21bfb33; 0x40b402a3264c7061; 0x134fe1be36224af9; 0x663e54d70ba090aa; 0x590f3d4f65db5499; 0x63c9ae449b6c1a4c; 0x395a7a391fd2f02f; 0x406cd2c5695301da; 0x464ec923d15ca960; 0x2e2e7d7c6c2a422c; 0x34cee9f45387fac; 0x4b46205dd6365c0a; 0x5d94da9c0be51d35; 0x6240a9d1367b8e68; 0x62f7f06f97059a6c; 0x4112ed19d4390b73; 0x3370572b8ad71392; 0x69b6f72f09d543ec; 0x29c1e084f123ebc5; 0x5b4df09635a53983; 0x8c55b8f15c39de7; 0x4826ee16fc9141cc; 0x5f4383384994ad9b; 0x1f5b999e2ef485a0; 0x68bbeef8dfde19c; 0x4a98a07bca13be5d; 0x6aebda1b63686c65; 0x2cb9bef22b20c5a0; 0x1b585715d5f8efc5; 0x222009a6ae1252df; 0x4457d2c3b47f944a; 0x1fca2399464e0014; 0x6d9edcce963a7b8; 0xbacdfdf749cb408; 0x51a73e249ce6238d; 0x45cafada3f053a5e; 0x19d128df1bf13025; 0x69f24d361506d1b2; 0x401a0c9048e0b0b1; 0x773a02b7f456e0f6; 0x52d9fd4f5df254e0; 0x4b51f5a88da5d34b; 0x3c1138dc093fcb83; 0x494acb6dce2b2d8c; 0x6cfddcd39df14d93; 0x6addbabede092a27; 0x138b2dae6b86212e; 0x2856dbffd64dd9fa; 0x67a8e1a2bddccbc3; 0x49b66b9d9e210081; 0x36eb14ae775e65b9; 0x29149ba06a5551c0; 0x77d5d18c1eb3cb9f; 0x6d063012a0d15175; 0x2b64cbb8ae543917; 0x531d5d04196075f9; 0x668613296f1489dd; 0x708419bf699895c6; 0x2f62062cacb53822; 0x5b757bc0f9f55a4e; 0x2eee342aff8bcd6b; 0x760541fb1af2b27d; 0x33cbbaf910426926; 0x56b215f709d40909; 0x278b5c863772a7e2; 0x79005f90ae25856d; 0x7dcb596c355075e2; 0x603145762bb54652; 0x1caa9aeb5168f968; 0x68df6efbf34b8adb; 0x70b3f22a1708b293; 0x5badb874b9a6accf; 0x45a937e376e50b06; 0x1936e22d688bf2b4; 0x475eb2c0e308f9f1; 0x2a95bbaca2ec6a7c; 0x2c2b937e37a7b7d5; 0x23215146e4e63cf1; 0x2fd973c7c99258ed; 0x3c73441cbeb26d17; 0x88fefd86945420f; 0x71bd43a981f78d7d; 0x59f45cea243280f6; 0x50980c47b8b952c; 0x5b8171dbe54c1d0a; 0x65f02600087309b4; 0x68b7722f8e5651da; 0x6b4dd782ce95e77; 0x26e2a2268bb6ba12; 0x137969df2cec5dc1; 0xf3cfc18d56ac3b6; 0x7656c876562b3d80; 0x50f828f7eb6d472d; 0x21453fdd340dfc94; 0x17a8f2710e8fbd; 0x1e791c433e3a173b; 0x73efeee8d663f6c2; 0x50ed06ca3e948d89; 0x71938f3ef56c3261; 0x641d2ec234cf5aad; 0x272e59c1b33394ae; 0x1a54cb1ce6854348; 0x53ec2bb32e1f1321; 0x3a11db6da0a727e7; 0x2d385e4286ef0e12; 0x2077c0ae34695f5f; 0x17b0bfb71fa135e; 0x2a82210a515d6994; 0x13aea6177f867330; 0x46876ea38bcb361d; 0x16b68ba7205e21b2; 0x12866f8e2bc2d03f; 0x1243f47a32cca56c; 0x53fde4d9d6e79c4c; 0x5c0d3a196edc51c2; 0x1fdf558421179871; 0x2bea6f841c74e55d; 0x62e9ade3433d689; 0x7f47a205627f14e1; 0x5a16bd8c101a2b20; 0x2239dcedbe280ce3; 0x4a481d8cefa6dcfc; 0x10592e96d5423081; 0x3a3a4e1796b90a01; 0x61c1c1246b918ac8; 0x1a4a62ed890a7157; 0x755835d444543f11; 0x10d96f709dbd7623; 0x6ef74b6142cda29b; 0x1c6b3f949679aeab; 0x7d00b3dfa23e77fe; 0x70587677f77cb535; 0x349b7834129b6159; 0x184ed01f92b56587; 0x2a440c13ee0a471c; 0x365a0866c2558553; 0x4e3e22403b31436d; 0x46530073c04a1dee; 0x66e59cc4fc6a1d49; 0xd9f690397854301; 0x5bdcd449323a7704; 0x7fbf0f50a0c6b7f5; 0x3aa91e6c6a28835e; 0x7e67e897d8ad1694; 0x66261583cee4d5ee; 0x7155974962eb9d5a; 0x1922be8dcf6e5c67; 0x3e5b01bec9b977a6; 0x40ec501c4aa9f665; 0x13dcc052b539de57; 0x48a9952f406391ed; 0xa0f428426f13b8d; 0x6c1d5093ffc518ff; 0x651ae036c106e8a6; 0x694f81011bed6476; 0x53c2976f0dc79e26; 0x2485d72fa92401ec; 0x5dbf2d77460412c6; 0x2ac37ad379422768; 0x11d90731b4767d60; 0x5528d73a195671b9; 0x10fd2795ac3c828e; 0x56f166148a0740a4; 0x5106345a78128ec7; 0x23cd64b3b1775515; 0x3737f0909950f46c; 0xc8c7186ae9b1da5; 0x7cc1f1751bea8bb6; 0x63f6f48bab8314fc; 0x5113b3ae8a896785; 0x6676a433c6c70425; 0x20abd64e25e23e16; 0x25037fcc868ee2e5; 0x4fcbd4842e0a0361; 0x84e85e31c7fc575; 0x1e52668b9fc9a92b; 0x3b9535f283e2fa57; 0x71b6e7c642c0e24e; 0x22ac616ab2eb4b1; 0x47006d22626e5172; 0x785183046aceda38; 0x292fdfa8948dfc91; 0x12c0b2b96140a7c9; 0x55dc649687d06a95; 0x9812c256e04d94b; 0x292f8dfc7916302b; 0x960f89d2eb4b0f; 0x159825940508c255; 0x18116175fa79d6a8; 0x1782f6806e1e3884; 0xd890f29d9ff2f1a; 0x2ce2b73cf9100580; 0x238ded4076408060; 0x152d02280cfed916; 0x632ebcb4126d64c; 0x1369b38c8e6cbcfd; 0x6c051f7eb76baf05; 0x56d971311b7de9f1; 0x3e7ca87560fab225; 0x5ffa7d81a650fc7; 0x2a99c0a370a010f4; 0x41b6e7b39a0fa447; 0x576197ae29ae7874; 0x42371799b06d3571; 0x4ebfc9e90a82962e; 0x3e81edd86fda48c4; 0x7e033f4a3ab7f753; 0x11b1acd5b34f0fc5; 0x7365532f1aa88edc; 0x3c872a7f95ca8795; 0x4cf10442cdbd9339; 0x3fef3e5791ab4495; 0x37670367bcad4f05; 0x5690d213330f26c; 0x1a53b65146a2ea8; 0x2bfeb36df0e9a2b8; 0x17d8eb99c3975c8a; 0x53c2c3ad1c4ce3a9; 0x74821be34f60cc9; 0x71b2cbcfe6d0cd7f; 0x245e3beb8c980cbc; 0x3dd74b881c445377; 0x3e8a870a09f4df66; 0x59c3e52337c0abd9; 0x1817b28946504f3; 0x4d6ad3ac44041b16; 0x4bc631f6f7811c54; 0x68b871fe70d48d49; 0x6772ec7bdb94ccf; 0x3a5606106e1c2f98; 0x1d196b3e9dd2fb74; 0xd39b16e986a5d22; 0x7740cf1af42b0266; 0x6de77cb25b3e8d1; 0x3edccab836f99d29; 0xee7d6680d746899; 0x12ed3f3e39bccd40; 0xe7006e76aaf8bb6; 0x1e66ede5418404d5; 0x1ce964dd24a6e170; 0x4f019e090b10c28; 0x2a315ee5cd0d59bb; 0x710481547cc6a52c; 0x307378d4e02f30d2; 0x253652f994205922; 0x142e068df7ced257; 0x6135557fc1f56356; 0x5dcc68435c6273e7; 0x40c77fa7e1d51b86; 0x3800b744943faac7; 0xf53b95beee05bae; 0x61987fffe678677b; 0x33f3003fc333cfcf; 0x61e06079807f9e78; 0xcffc3330fcf3ff3; 0x18781e];
   [0x3facabdcfc11e044; 0x5c25935c01965d21; 0xe8004c27a3ab076; 0x5e5e3fa2e19fbf4; 0x520cd836b0961441; 0x43eb3b6516f0880d; 0x7b8852f02ffc94b8; 0x3f82c9879e41cfc6; 0x158289be5548c221; 0x94e19f503c35cbd; 0x3879afad029e1da4; 0x1775ef9eb7442f01; 0x62ff3c40b9bf9bd4; 0x551c50d99990fee7; 0x792ae10efef62c76; 0x64908d40d8f31451; 0x4eb5cf5f1031c62e; 0x56a261482c323724; 0x11d305d124b984fb; 0x6c687f7f92f00662; 0x2db6127c157b9ba8; 0x2f34e551c8f4531f; 0x2b06f12e7959579c; 0x64c351e7814f549e; 0x664f9cb287c2007d; 0x74674cdba705bced; 0x49adb7420209c670; 0xa453172510d3daf; 0x4e2392af269d190d; 0x3f2cbabeba4d2d92; 0x1be4afa088ccb887; 0x78e94621953bf7c1; 0x1da27555d0e6d2bc; 0x38463db6b88f533b; 0x8ea683147fed4f5; 0x44d2a94d409dbbff; 0x30d41f1ddf48ddab; 0x442339f87a52ddd9; 0x5bc845bd8ddf08a4; 0xc0dc779b9307384; 0x245e8fa52535484; 0x684d04f58db7e4b1; 0x43391e9471ec2773; 0x4a8a8b096b669bbb; 0x6ed93048e88acaeb; 0x438b33773e3580ca; 0x2a4a6e0c4d876b92; 0x3af66646ce2d4092; 0x75b188f48ecb3ce9; 0x4456849a9a1df43f; 0x794ec71dbec3bac9; 0x6ee4bcdd4918042; 0x5176579f7f179e84; 0x4aabc93c1210c122; 0x31620d59e73a69f2; 0xd6ec02fa63f04e9; 0xc23a2b19c64f352; 0x4b901f73d66b3a0e; 0x15f833ce9121b6eb; 0x2c63be4c5774624f; 0x6f0a4d29fd5ede0f; 0x6724e5b55f0ff248; 0x67f21a133bb5a80b; 0x42bcd00bcce1076d; 0x5876a54c07c29166; 0x57cb1a0aa7ec0056; 0x87e72d41dfc1dec; 0x700e86c5a60d5f24; 0x7b9d317005179bda; 0x642f6ada2091bea9; 0x19d9bde9ed212136; 0x7dfc3e2638d1569f; 0x9aa74bccd9a006e; 0x49d083f2ba04cafd; 0x6d6827fbd6c0ca21; 0x693fbfd44013cc13; 0x68b9f76936881304; 0x555deb365b8f39b4; 0x2c2817d221a8fd89; 0x2f3158ea633f736; 0x34dd767a5b517a68; 0x114fab5393b053ec; 0x7eb4b00b56da8272; 0x4f0c16a9e259e94f; 0x43d0f82b876a96f4; 0x97602a1698c696d; 0x5c95df78344b9dd1; 0x78b48c6490dd050d; 0x656cde6bcfa39e47; 0x2c2ece860951574; 0x3a87164217469ab3; 0x43b7813ed2652529; 0x3255bf3ff3c061b1; 0x4153c5e062450; 0x62d68feddf20f87f; 0x3076ad9e20edbf48; 0x7ab7e65effdf29f7; 0xe086686ba4bab1; 0x1fb25f97eb01f683; 0x4b813ae292535915; 0x756251a7021e6f78; 0x5f931b209ea9be5f; 0x45c5d4dd3cc54fb5; 0x70469c9fbbbb1f90; 0x5b2b7395bd6c1af9; 0x245faf676666d71; 0x1a1da7db2c0cd5ef; 0x6a522216c2e7cd04; 0x24966900214d87bf; 0x171f86b1befe09bf; 0x6413506e6b9bfe7f; 0x4b0daa4ef2bdf505; 0x645b1b911d4281f6; 0x7683beb1d4734651; 0x147c552a04e1641e; 0x420a4b76ea464b80; 0x642dc7182e6b238f; 0x77e98ed3f1300962; 0x6da68307c0851b1d; 0x53921ddb9418ab16; 0x139d6b5cd9e57923; 0x49a46872c042f156; 0x42301306eb120824; 0x541d79e681d0f754; 0xe03869540b26e6a; 0x513f6043bc4cb389; 0x195b6849b785f5f8; 0x6d2901ad525c4556; 0x49a75e61a619720a; 0x26f0d6b2be7f4c8; 0x1ef915e3f6379e36; 0x6b5c3910debb20b1; 0x5f7481a02ae8182; 0x17668b27d917c15f; 0x2067f5235d72332c; 0x32d73f4157787d96; 0x399cca6dc04946f; 0x2da95c6b653c61b1; 0x234bafd28cdf691f; 0x13d7fc754576768c; 0x221f5a92d1e050ce; 0x3ed2c94faf51a541; 0x42d611eba152af9b; 0x78d5b091ac8bed79; 0x774663f4a348b531; 0x5ebf82d06d3026f1; 0x7955177d7790664a; 0x202f2e24ea1051df; 0x61bf9c6c32d3f809; 0x25d4104240f5d64; 0x1212c8dc2dbd12db; 0x32f1cb921646ff84; 0x7ff4f128bbf18fb6; 0x21962042cb6ce955; 0x53ca7be79d90d558; 0x5360d04868edc0fa; 0x5e1d93bba7c49496; 0x48aba8d0db4a26cd; 0x8300d2e287dec7a; 0x73369d609d46746f; 0x5e05a835311cbef6; 0x765490f287557be; 0x32dc8c2b0668be4b; 0x7fddae9ed95ba535; 0x323eba1fb65764cf; 0x465475dfa0fdf3ea; 0x2b2dd85312c7ff8a; 0x6f5d58621c4f171c; 0x2290cb23376fd81d; 0x2c7955050fc06b32; 0x6846ed550ecdf326; 0x7dfe593a1b27024e; 0x225ded0ede980756; 0x38da0c5f4da2fa8e; 0x65f48c7a57a8c1c4; 0x12391dfc35bc106c; 0x6c35bcf35001b462; 0x63c800176b054d22; 0x3b540e7608667bde; 0x3ab10c1cae521f26; 0x36a2db90d178fd06; 0x7b9a804851737a62; 0x3326ec38eb02183f; 0x61fbc3919b3680b6; 0x1677db7b87d0ee5b; 0x175c8e8a5ac96aa2; 0x4b2f4de2bdabecc8; 0x3202e322d7479113; 0x4e5b1402412d2e07; 0x76714f452af9dcb3; 0x76ae4fcbb554dd70; 0x6a19c6cbfceea5a4; 0x5bde1c3f4ccaa81f; 0x2ba7cd68b78404a5; 0x6750c1a37fdeb8aa; 0x292afffc0ac8912; 0x2dfd0cb97d29a0a; 0x2ddc1dd9226f4389; 0x35b64b2ed93f50f6; 0x4fd0633f0fe295b; 0x5bb1be8e3d120ddc; 0x2d6ed1a2d3050001; 0x26daa5d5bdd73b86; 0x46567da30a97ddf3; 0x4d2c03a72c85c43c; 0x250096eb594d3a6b; 0x21ab34419d3ea534; 0x50049978e0ce728f; 0x1ac60131e2944282; 0x5ba189b46028eaa3; 0x431b3ff7d2bfc849; 0x397fa32452f52687; 0x30fb19dfe849cc35; 0x3680f8eaa22c5034; 0x41ab508e626c6ccc; 0x1a4da669141daad8; 0x70daa42b1ff3ca4; 0xe0440daa7d3b122; 0x4a8ec86e66fb225e; 0x1b81b0d211049c1f; 0x634907aff373e8e9; 0x11ecfd65f63e8aef; 0x4cfb5c09c5b66e3e; 0x314c9345709bc98; 0x1a41771446c84be; 0x3f3a030530c89f3e; 0x6e3169afbfd6d370; 0x3948f98a75a03bb1; 0x17dbd5d8eebc782c; 0x1aec136ba40af6d5; 0x41f9f80f05ff8beb; 0x3a8002b9bcfbb7de; 0x9353bd829d05ec9; 0xacebfd1d296f92c; 0x3c080cf9124d7732; 0x41dadfb8af714614; 0x1e91c115340c78ae; 0x5df6862bf0bedb44; 0xb9987c742eed439; 0x73b332d6bf799eff; 0x48e10cc6d1c34d07; 0x10285fb872236120; 0x7772450d74514b00; 0x70a1a504b3d4caa8; 0x2f23214abc2963f8; 0x4c54202727851373; 0x336ef028eea4b262; 0x7c6f25691ed08941; 0xe638a67eb4d0bfa; 0x510b7b761817b5a2; 0xe944f78bf82ed36; 0x5c576f36fd80ebed; 0x106c5dd8e281ec6; 0x8a37df156333291; 0x159c98e39653b6d7; 0x93ed72482cd4cf9; 0x4418320d5afdf0da; 0x651a1bdcea58e291; 0x5483d36463842abf; 0x66ea1c9a0041aacd; 0x6559bfe8e4cb49ea; 0x182d0283237c2073; 0x201e887ac3243b1e; 0xd07dcae11cdf40a; 0x2f7b65cf41b6bc8f; 0x1dc849a56d259ae0; 0x649fd4e27faa1a30; 0x686d9931558b0e07; 0x6c5a08ce4ecacea5; 0x47f3ecb82dd8e45c; 0x3e06ef456f5367c4; 0x3d7ed63fc17902cf; 0x8cb04ab52120332; 0x77ee3c15cc761921; 0x36788fb068496d0a; 0x3c7ade0b177ee193; 0x2efcb47389f57e9e; 0x2f35bb26bad6b07; 0x42124c7c1142d717; 0x25b711760a2144f9; 0x5efb574176635f07; 0x3ed44646a7c26ace; 0x264e7f86e6e3a5e3; 0x334af8e9606f6d1a; 0x219b70009445c293; 0x296c8c53927da6ae; 0x3e1c3a4b0363afc0; 0x74fbdee9aba1bdf8; 0xe4e5eea250940ce; 0x72a1f333734a4e91; 0x66e785d944e39bac; 0x14c4c4ea779af26a; 0x7f2e9e450a80a63d; 0x58f6eb78f7422935; 0x5bb93e2163360bdf; 0x77e47fdacd004330; 0x268d3cc9d6f5bd9c; 0x588f7f365fa3f4a7; 0x438e2fb46078f5d8; 0x2a1d2ab0fd681607; 0xd6e44396555ad82; 0x3482d44c8b019d10; 0x17251ab20cd149d3; 0x4918b095f06c34dd; 0x155e8d55ce6078e8; 0x4e61c72e7d91a899; 0x3464074199a88e84; 0x67d8b96e6dd5bf2b; 0xfa40d376d31048b; 0xb12037429d48940; 0x355158a6b9ac2e6c; 0x5f8a8a395e1b3893; 0x6c075a989618830d; 0x79ff861e1fe1866c; 0x4003cc03fccc003f; 0x79f87861e6780607; 0x4fffcff3cc003c30; 0x1fe01];
   [0x65dfd0a1d5725eed; 0x41cb739ab69e4a48; 0x497b1cdb7f7c2ca5; 0x771622b9550cb4aa; 0x55ab0d1998ff2fb; 0x79e3d5604cf4a2dc; 0x77d58ebe5d3a550f; 0x6554927846e17257; 0xbc2fab4bc75e459; 0x5cd379f2b79a6db3; 0x8acc54d58021924; 0x1ff78428fe113edd; 0x62865c4338c9a950; 0x392b42d36ea8c17e; 0x5e33f374452e460b; 0x756b1b6fad3893cc; 0x274462f35b39d8cc; 0x2e203bfdf398164e; 0x56a7adabb8e10a7c; 0x7f83db472d4f940; 0x657120a13f45a7f4; 0x50bead7166589b2f; 0x762bd8e4e17448fa; 0x52f937617ab38a0c; 0x2f2d0801cccdf23b; 0x26c881f8cee0068e; 0x700552f589417271; 0x7ab5bf00c2caeeb1; 0x7cee26b2d894bd71; 0x36d2f7325d224db9; 0x3f278458953a7dff; 0x2bb0d77dff05c141; 0x33fc13877000456; 0x7b7628aabfe5ff18; 0x3ab83c7987bd5d5e; 0x61442147febf6bd1; 0x1ea525cca8141042; 0x9e50c38c8d8ac50; 0x678743542e3449da; 0x17f78f17d01de2a5; 0x4b933ce62152bb90; 0x1429111fdd8549b4; 0x3ca7f3e59299f29c; 0x5410e14f5dafcecd; 0x5f5895423cd2e0c2; 0x5ec2661e969d7d7; 0x71b5c15b58caa63a; 0xfa3c241c3baa4c6; 0x39833d456566c20b; 0x44644d241a65895e; 0x38c1d097a428d27d; 0x1e4698340ba3914f; 0x5307442cd584754e; 0x5c24f12b8383c38c; 0x62444e7bc5444fc7; 0x484fbc9cc579b1bb; 0x468bc9dafd06f5b4; 0x5d80b441a7afbd46; 0x6612e1c6cb16986; 0xe474e769cf58e5; 0x747de1c9e5c34a7; 0x30465e7ae567d1f; 0x28482d14fc8ec034; 0x929c89ad8d58958; 0x61e458118365705b; 0x3c87fadfde7d8b2f; 0x7c8fb8dd14475ce; 0x5e152d793d3fde7e; 0x79961d2127b5b8ca; 0x9a5933283e0a0ba; 0x32ece3a28f1cb970; 0x7b0509f4c9ef5831; 0x153ce9b427a283ce; 0x462487a8ea15005c; 0x4182923e4aec9c17; 0x300993fdcc04cb9; 0x7491741f53e744c9; 0x4cfba1d218e1ea82; 0x1c758e3496c70eab; 0x274b1da199cabcfc; 0x5505564ae5b5cbef; 0x3c1176a5aba1b885; 0x2f1be4de9e8ddcae; 0x709a1b6be5763d70; 0x20c97effb7b33e0c; 0x6a269102d5460b42; 0x7eb774ba2aa58658; 0x6cb7888614ad0155; 0x66ec5f8b2464c7ca; 0x1979b4bbc6340ca8; 0x5343360312cf1a49; 0x5a395cb85f2caf23; 0x280ece967b335bb5; 0x582b19271c495c37; 0x20288e7c594bc545; 0x17de98d4c4588fc8; 0x8b07b281e91761; 0x7f0d8ba5ba025e69; 0x3c29e39d22667130; 0x727cb6bf7556a3c0; 0x1740a68d53984d9a; 0x6bf64e3a2fedc67c; 0x59be2cc160045d1f; 0x2894340009387701; 0x1829efb6d53b2624; 0x5759392ae869a315; 0x2d541ff51389a789; 0x44dbf2f019872f3a; 0x5f4ebcc382ac5ed7; 0x41cce4a2bde11994; 0x700cf07375a308e9; 0x24cbeeacd6919aa4; 0x7b68ef99e292eb5a; 0x450866d620bf5604; 0x4bd6d0838402895a; 0x2925a287a51a4e52; 0x206af962958a19c7; 0x4c1f5be27447a11e; 0x50a09c50ebc0d27e; 0x15f95a9e0a2425a7; 0x58f322d957754d32; 0x2fb22391e25fbf99; 0x54a2e21171405e27; 0x74702c5fd5e4da93; 0x437ff388bedaf10c; 0x2e0496cbf23021e8; 0xbe4e5b3ef842e2e; 0x328a0c0866f8a57e; 0x6324c4b78c331774; 0x62256d443326a42e; 0x7b1129529216efdd; 0x670d8f8eb55202f5; 0x5f0a8d1ba746e6fd; 0x58d4a58a025c6454; 0x44fde340c9a801e6; 0x34dfa7079ee717ed; 0x722af6dbe5d7069b; 0x647fe93d36fd560d; 0x275aa57a5c24e490; 0x485f1bcf8e198a3e; 0x43f2899dcc7b9069; 0x4817562266d3db91; 0x546c6f16de6d8c06; 0x3f0d184ee79982b; 0x4ecbbdb43b8834b1; 0x39b1e37dd349806e; 0x554bc128b777c0c6; 0x377afa9e572de73f; 0x1091677520189512; 0x274b8c60d64eac90; 0x31956159d9b1ac29; 0x48804d6c71a23d0b; 0x28205e6b4733f1cf; 0x4e38d62adfdb61f7; 0x14cb0c2109eaac8d; 0x75626e61cae59992; 0xd0462ce9b88db62; 0x51da63eac48a5355; 0x706f2deebd11aecc; 0x4ba9d193e03fdec6; 0x186ea7f90b68e619; 0x4cb3de3bfeb63b53; 0x7ae2083a2c81d7e6; 0x92038620d72e925; 0x1bfc9ee5c4345ad5; 0xadfda2bc13992b8; 0x33d9f8546539bde0; 0x784c9e0ee9b57fd6; 0x6eb665fa50b69eca; 0x4ff6d8af2766c2c8; 0x9595e0f8afcf38e; 0x1888524fc90bc195; 0x6a68ebbe176befe7; 0x358ad721d8ae8672; 0x5217a5d9c2a73909; 0x340ebfc4912b6eeb; 0xfddcf7d9b67bb1a; 0x3c6fc7266dd53ea9; 0x276bdef8b24aefa8; 0x4b550abe9706c0e3; 0x7903998e094f46b7; 0x64b7b90051c6f72f; 0x7b4226cae28d89c2; 0x7df4f0f34a2efff0; 0x3f52c8aac1c1eb0e; 0x5433ec92f9088507; 0x58357bb725e454eb; 0x7dadb200a1df8f49; 0x5553164c4560bb43; 0x15319e18c00d5e6; 0x1522a62144d8a80c; 0x1eef3c77714d2793; 0xe6f65a519ea78f3; 0x196cf58c0876a2d6; 0x4b8ac01209611ab2; 0x67cdda4d3f70e8e1; 0x5bc85fe0eae6f0bd; 0x723fef24be8e3e38; 0xd45fa70a420865c; 0x46197ff6f311a0f4; 0x4e0559dde0f095b6; 0x28875f45a40361b4; 0x14cbe019f92f8f66; 0x41aefa7c21ceb2c4; 0x68d35c25aadb26a2; 0x2a59c322b7c1368b; 0x12087b8eefbd8162; 0x62531ab07b0de04a; 0x24fbf7da7a95fd34; 0x4f0875bd592b058b; 0x3da800c4c3147119; 0x2ab6f1222d93aac9; 0x2b882601c13a4d5a; 0x43780f2c84481f1a; 0x38f4b63256912224; 0x829211f7fd58560; 0x6557ca3a5bf2216a; 0x48e6b69304d51051; 0x18edf7be066621f4; 0x16febb1177b54c3b; 0x79fbc396a72d3025; 0x6679fca5a3071d66; 0x27a561ce7780563d; 0x67b04efc8b822f56; 0x56104da794a83058; 0x41a471f5b6c6dbd7; 0x6f5fad7387c2e5a6; 0x5ac366638b9252ef; 0x89487b794926875; 0x5443fb1245dff4c0; 0x2557dbe3c56c748d; 0x19e6e522a964d513; 0xe19f832ac87be0f; 0x1216dba46d450968; 0x331b702cc952ef4a; 0x7e5183ac43109b76; 0x245c95432c7195b9; 0x32668c994d7abfe3; 0x14d6bb17c018a045; 0x2e2c40239772e334; 0x59f148f84d5074fe; 0x2f702a3caaf438a4; 0x62b3aa97d38b242; 0x527a6d03b46dfdbe; 0xc2f156fb0b22712; 0x72e2b805f12ca35c; 0x5b5f7ff4b5e20d6c; 0x4f6634a21ca3a237; 0x781ea81ac3cf3df6; 0xcdb0ac8334c4bf7; 0x18f7256d853bb903; 0x7098d7860bc4d05; 0x66328a0e0a0c2878; 0x2f628c9ddbceff6c; 0x26e07b7e9caa484e; 0x7b182be67d68c124; 0x34206cd9e747b582; 0x20d17cb2bebf98ab; 0x675bd00296d1a4a9; 0x115d2f73f5c2d584; 0x67b0938264c311d3; 0x79f340744c12dd28; 0x39bb9b2fdd66ad7e; 0x59b3bbaca354585b; 0x5e63d69830bf1793; 0x60bd13bf061a4a34; 0x25c797311a9c8f9; 0x5e373df1085003a2; 0x15d66a115335e9b3; 0x666c3a9e1f1b9594; 0x5c4ad1796e5e76d9; 0x743aa6abb142ed6a; 0x72d8bd2339dcfd99; 0x7af974681c438f8; 0xa43ed1bba92fc2a; 0x76bcf250936028a2; 0x1d0366be7342ae3c; 0x5014373391b0ead4; 0x6c1be4dc9a98ee07; 0x2c13ad9b946dc90c; 0x52499d670931e20b; 0x635adb8a36912ec6; 0x4f1c848ce7f5dad5; 0x6103e17b58546611; 0x4daba7803d9f61ce; 0x6d6c67f26aebf1db; 0x33821eac5283940; 0x511537995ae9214; 0x78fb77270e593d95; 0x61c20a82f0d44ed7; 0x47bc9bb0eb0b7ac9; 0x66e79d9eaaf9ad5a; 0xdf231a7b2fc0d89; 0x180ff4e41e61d2a1; 0x7fddd3555bf48d31; 0x2845e5bc5e3fd642; 0x26db205390ab1467; 0x1b362f7f6a278fa3; 0x7b27901f17e380f3; 0x6c34ebfaa4ef004b; 0x4a203bd514c3cdb6; 0x2c69718c53c10a24; 0x5d9d6af8c7038b3b; 0x682c960bf27685bb; 0x22814f58062aacb2; 0x4fd11ffb3a622ba7; 0x6a1a9f2ec8937c6; 0x7ddf9172ad87c881; 0x25564490ed308ca; 0x6cb3a360ad411cd8; 0x2fc96d775964552; 0x380c62373029acd9; 0x557bfba9ac4485aa; 0x1e79879ffe181908; 0x703c3c3cc3c000fc; 0x798781e1f9e001f9; 0x40cfff0cccffffc0; 0x199ff9];
   [0xbad038ecaaf0555; 0x344b81ac6041ca04; 0x37e3b3a9c36e36be; 0x7ff59221b9d003f4; 0x71b07fdd98659d22; 0x59f166c944194e0; 0x30ca076a24067ab6; 0x6298051e640ce0e9; 0x75c71b988eba0724; 0x61ee0937d8e79a71; 0xbbc05713bf463dd; 0x7b8a7ae1757f9bfa; 0x73224ab9eee874a; 0x7d28422deaf2f6b5; 0x764bfd5f0f43fe05; 0x6cab337b409ac1b4; 0x66ab4c55bdc6e59a; 0x47ade808db0954cf; 0x44c5cd8d47db5ef; 0x4f9c39c6fb3daa55; 0x1cfb0e5eb8b2b508; 0xb79220895124641; 0x498d84e5c254106c; 0x8011b2aafab05e3; 0xa62f08a3097a09d; 0x43b263be501b6667; 0x40a3a55641a62e30; 0x636aafdec6542803; 0x6d17555fba5a92df; 0x2cfbd35b51cf50d2; 0x10faa975f947d028; 0x5d1ee16f9cc2b3c4; 0x552ae3d9fcaf63ac; 0x2cf19d5684386edb; 0x37b986aed6c0e18e; 0x5994b1682b6ea9c3; 0x1c8b1065a51ab618; 0x26439c9db4c13789; 0x3e2f60423f35099a; 0x16e30ed41425b73d; 0x33bc8ed2f2f24e3; 0x5589a4e90237a8d2; 0x6ac738ea53a3637d; 0x5b1dd54975989708; 0x73046adc6bfffc07; 0x354052b49b1b7bd7; 0x1ac9826a84851485; 0x85b25765e9a9a39; 0x33343aead4d23ce1; 0x5becd7a111746310; 0x487961ada2f678b5; 0x7a48ec566d9f073f; 0x13a9397366db7d13; 0x67b563005d237be1; 0x469dc9c897d82f9a; 0x6b4ade646bb5d663; 0x35574d471ec42393; 0x760909cfeb09607f; 0x34059e61ed77b673; 0x3827406a8d429450; 0x565bf44b9e1988e6; 0x52d198ca887a8b1b; 0x588fdde46b0dc33c; 0x221ecd092ad1f662; 0x4fe0a3924bdb0bbd; 0x41c5d2f4eebb013e; 0x3cc6ae5aec531eb5; 0x37f1aadabdc8cf91; 0x10efd516bae39fa0; 0x4819d719361a9f47; 0x6e6e22ee1a4b730f; 0x7c216b9eee5c672a; 0x2656da69995eff78; 0x7306baf7c8043040; 0x5b83863c63acf453; 0x3b38e6f1957f58a9; 0x1c140f522ecb6406; 0x1156addb01569e36; 0x176d5881c435eec; 0x2dca7f6afe7e60ee; 0x67e71f7d1da161bc; 0x49412dc9d6ace1f1; 0x7c24d65e9067f45b; 0x75f0b76d79b91626; 0x4c0716c210085d19; 0x3969d619b8d51e3b; 0xf4b2bf5c315788c; 0x219e119ba603ba0c; 0x19d0efbae6a2bf8e; 0x1c30eb71154d32ba; 0x52258ef0861db17a; 0x26fa28afa4d428c5; 0x6b15c269b2b0db8a; 0x11d9611664c0214f; 0x6052aba63b5be723; 0x429384d4c14d2b52; 0x3750234c28946ccf; 0x55970a1438174f62; 0x38ba227e44ca0317; 0x591dd9b10ee2e0d8; 0xa6d86b4ee0e80d4; 0xeb08af8ef93a896; 0x341ed6f56332a12; 0xe4c210ac48a2547; 0x5c30a74481e2cf78; 0x24773538a0abba55; 0x6689169e2b6baf6b; 0x4d2d7083b2ff78; 0x718213defb904999; 0x79d1cc92813c0781; 0x60fec92b8e9a76b5; 0x6574f4edb8961a6e; 0x6e440e0eb6635e7c; 0x513b354a256f23bf; 0x76a2dfe807d52688; 0x599983b13e1af59; 0x6b37ef8b95527795; 0x7d9a9b0f4508c399; 0x1b9efb51b2c2716b; 0x439a6b53979ae01f; 0x53ff85b5c384b633; 0xca1d5822b84911; 0x5ff8b71a0c7405ce; 0x678678e989769794; 0x207dfc58694b260c; 0x411d50bbd480bf6; 0x500c10fef9d5eaa1; 0x1b1dfaa4ae779eb6; 0x686a309452b59b10; 0x4564eed3f9edf8e3; 0x667b6013f341b330; 0x915b187205c6eed; 0x4cb36f98fcf9d29; 0x40fd30fa52af2fdf; 0x3bc0bfed60213aff; 0x6e81036cd47b543b; 0x1d05cfbde21d3e1d; 0x1442572015db1b27; 0x7b60d7cf2b3aba80; 0x5e196c71722ddb8; 0x6dca8dbe74b58588; 0x46ca41b01b303561; 0x622c15e04f19b6c1; 0x78057d4d7ecb87e9; 0x1fbd5f914ef126f7; 0x484d2bbfec442f26; 0x69a36383909b5fb9; 0x1492bbaa35f2ae24; 0x608d22fe80340189; 0x6c521f11c8ec7210; 0x959021cdb24a96c; 0x2ab6fd89ba0e3e7d; 0x6e928e7770e2eb72; 0x4b3164bfea5f514f; 0x2299856f56be165d; 0x5384eb5294716571; 0x2751de19b8ad701; 0x191d1bc8035bfebd; 0x48594d014cfd9518; 0x5376979b3ce467c1; 0x3ff7fd01dba68c0e; 0x1dc6ce05ad2860ca; 0x62c3e9f9aa8897b7; 0x323fb3731c544b63; 0x7287af7001377cba; 0x5a535dad180e2c85; 0x6b39dccb38568ad1; 0x1fed386b3027677a; 0x4ca998021b4b5d65; 0x619f9f9b12612964; 0x4315339926d5443; 0x1695289b7291fc50; 0x79c3e3f617e34b16; 0x6913c763a704a134; 0x641c90257a990ede; 0x181602535b28e72c; 0x14e302e5ecd94a1a; 0x4e749f795a5cefb5; 0x1db0ebf51710a8bf; 0x31031c6e95266dfa; 0x7b31fa042b454ae0; 0x6470648ca417e2ff; 0x32807b5ed1d698a0; 0x1822ba7f0be48fbb; 0x77b04de42c683d62; 0x7462d8c345b240c4; 0x45ce918a2aab7016; 0x3d50c9d14bc9dc45; 0x3423d56c406fd48c; 0x3ef016f17242012a; 0x24fdc2f8d7d26ba5; 0x20251c8e28a4228b; 0x2818b60c12a6d4df; 0x1f421cf5644e94a; 0x2e3dfc8bbc7ef890; 0x708bd861ea482444; 0x5c245ae9e5fc01f6; 0x14e2ab6d35c79aa5; 0x62c7f3c91147039c; 0x1081902174500e81; 0x6b54025accc4a6aa; 0x137acce5a19ac0ed; 0x1cfc0f567648dca1; 0x3214146022b0462d; 0x641b67bb45f13d2d; 0x3176ed634695957c; 0x44eae0de751ebf9d; 0x7b45fff986790cd; 0x4ef1eef216e0faa2; 0x271eba5e1cde4c09; 0x6f321cefbbb15e1d; 0x2ba982482003443d; 0x3f7de3ec08ec8163; 0x73e5374f020a0852; 0x7988256b47219881; 0x64213f65c8ee0623; 0x26a47d8fc69f209c; 0x4ee44cca13534e45; 0xd4da9c78ec53c0; 0x355457c54ea4024c; 0x4695b95c825fad08; 0x1e2bd77d6564d348; 0x5497131b5e2f8d5f; 0x256ced735400eb4a; 0x1d18225dea613b4e; 0x5eb6ec0155f863be; 0x5a28e37114b7c5c6; 0x7379e68943be52ab; 0x4cc87937e0ebc755; 0x3a2df70a1593b421; 0x4c1af3160f442d89; 0x474fc117fd53cd9b; 0x6e16b5d7b266ba7c; 0xe402049fd202b0f; 0x14c6281054bd3436; 0x15126bcce470d53b; 0x6214c9a668f5b765; 0x7f85ba48e3edaa62; 0x5f088e90cbe1be4e; 0x566b92c4992ade33; 0x11584d459561320b; 0x5b97ddab2bfc51ca; 0x1424a62e1c3e94f5; 0x2aff4083737fca95; 0x3c59c5f1342cee9c; 0x3ac8ed40b756fc35; 0x247a81d48a8f54bf; 0x70fa131424876097; 0x19964f2da244f7c1; 0x138335549a8cbab; 0x61ddf6f8843fa6ee; 0x4552d98fd97b081d; 0x443309cd99c01772; 0x479dd6ed45d46a0d; 0x5925b73ed404fc26; 0x272e18cebc0ee076; 0x776c59fc80874100; 0x7ea698c82fb7ba37; 0x5ece2675e7647dbf; 0x685b242b4a97d2ad; 0x55570d8612c58c75; 0x5b2b7951e35c8bdc; 0x6d7ce8fc2d2d5b05; 0x7060b9c30f30c0d7; 0x40f1de7889f6f18a; 0x529cfe7f6e5e26d5; 0x7e955a53beb0a5a0; 0x7a8e2553fba236fe; 0x2ebec1f8771e7f4; 0x80af8f32a5dbbb0; 0x61872c5ba74446e3; 0x61fd28d460df3f73; 0x7a92a5fbdd3b0a07; 0x364bd6a498e49498; 0x497e5c67dd449a70; 0x184b9815d42766a; 0x304560a99fb32804; 0x59cc45111ca65a05; 0x23b5c4904bac938f; 0x34f6c2c0fd94c600; 0x4878222ade873c64; 0x1dfe1d6a45bb89fd; 0x28f1f194a4edd522; 0x484e137a0a6374f6; 0x76261dcf2d104123; 0xfb62e9334951af1; 0x6e79c1220e427a05; 0x558c868cbfd6190a; 0x1aa8547d1135dda0; 0x6b5a4f8db2b5584d; 0x459ca5da9b4c7b48; 0x3bec95f79faf686b; 0x20907d282c1de390; 0x4e90b93e04ee7147; 0xa943f2c0cb70e39; 0x74558f8152d17233; 0x705b88c7358a9a5d; 0x51ff3ec3c5ef44e5; 0x7da723f48ba976fb; 0x6b24dcacf721ced1; 0x479b8f783ebd10ef; 0x140f4ef3235c27fc; 0x762c3310b802cc9f; 0x16bcb444845b53b6; 0x676a747a468774f5; 0xd175b4d08419c7; 0x3b021b3a51fcaef6; 0x7c9d49d649ba548a; 0x4296a28ca0363067; 0x6a0bea15715fd4c0; 0x272b669c821caa17; 0x621f1b717dc4510; 0x5695c0b35288eb93; 0x180601fff807f10; 0x4f00ccf0cf033003; 0x181f98781f99e607; 0x700c0f3cc3cf03cf; 0x199fff];
   [0x5293a10ea71a68f9; 0x4ab8a5165fd8262b; 0x6d9354474974df79; 0x7ea054b17f2e2994; 0x3785b8a7a9fe21ab; 0x667d8ec07b07f1b8; 0x6fb55dc6b914189e; 0x4dd418b67213e14d; 0x265928cad0bd49cb; 0x56c23bf21d3465e0; 0x141cb635f236b7a7; 0x155d2c496b17c9cd; 0x4d247c9fdc74f73c; 0x76803545f2059fa1; 0x76c4f078f7cef54f; 0x75afb2cf6fea816a; 0x5288cd582881b902; 0x25a4c8c6a911be5e; 0x408db6c6b8154712; 0x7f70865a37168021; 0x37d3e4519750d777; 0x4327c4787a74a16c; 0x3809f8c99be851b4; 0x672aadffbcc8c62c; 0x6ad99dca811f1894; 0x7abfb328d6229908; 0x153301aa06ce51a3; 0x2d22b2c86191b6ad; 0x671bceaff4348546; 0x575f2cb010dfd850; 0x6a9e055b63a25782; 0x3962b4c440eaca1a; 0x263ac3a4754aadea; 0x242305fc0cf2ef87; 0x57561695bc677bae; 0x51d75da65e1fd709; 0x462db8599b7d891c; 0x776db4578f24c11c; 0x61bfe81dde21b7fd; 0x51ce6f5594a4205b; 0x1b3891f9567eebbd; 0x7efd764e12552f79; 0x7db832e37564573b; 0x185abff840c20d79; 0x3784bc8368fc2422; 0x49f65a9fa1b9435f; 0x556b22caaff5a7cd; 0x1326f14de187986e; 0x412ef957f742712a; 0xbfc4c49a0eac24c; 0x6ca57911a64a5862; 0x5957fcc2df945649; 0x5974154373d92ec1; 0x54f56236f922e71b; 0x7f89e922b4038e2d; 0x5afe72730ced50c2; 0x6bf6bfeb3884a1e7; 0x42c6ffabc95c8e54; 0x1e4660618a47dc2c; 0x4c9dcac7d5be6b0f; 0x300847793624a1e4; 0x2ea797e2128600c8; 0x393490b795ed6cfe; 0x73472809ba790dd1; 0x7b5708659121df74; 0x4c40aae35e1dce17; 0x3933e0c7ee88d970; 0x3eff73242e95fff8; 0x1bae46088b968a89; 0x352b724ccb3eb063; 0x51f98a9efae9c3db; 0x4cef3501d48f6bf7; 0x47757ed59224409b; 0x2947fdeef1b980ca; 0x3b685f62a60f2e1c; 0x1eda5de1b561184a; 0x37a57db03dc43aa6; 0xbb01f296c445399; 0x52fe2ddd082843bf; 0x3d2109ee55ba289e; 0x2b2589bd60e22564; 0x14a61986328e3398; 0x40e9dd96fd56df5f; 0x49416b477d9aaa7b; 0x2c7ca556ec3b1ee2; 0x625964f9b1dfe1ba; 0x41d9e2b177db6672; 0xf3f1fd42fc47e15; 0x6e88bb3cbab8f684; 0x2890f595a6637d4b; 0x76438e99aa2941bf; 0x7d960a52119b8575; 0x317962a50fcd9309; 0xee3db7a58537d0b; 0x307a4cf2a024c051; 0x4830f552dc33f815; 0x96aa103ed341729; 0x7909a9b9d233e6ac; 0x55f5f3c0634b3614; 0x25b33b91a462ffd0; 0x3031aec03afefc3; 0x18ced44c53d0d09b; 0x74e0ec7f5fc96855; 0x5cd7ca7288a80e48; 0x4dc086c163e7bd30; 0x4805ecb275b378d0; 0x3da3cd3c7502bcae; 0x356e04ce2ee4bddc; 0x329cbddcf3ab54c6; 0x51ff19bbeab358d1; 0x1dcf61ac5d392082; 0xe0a6c15f817a73a; 0x6253b0d89021fd2a; 0x2f9e31cc696483d1; 0x3635f448bd47bc18; 0x479881d18cb42c78; 0x1e61a95f71b860ad; 0x5a8f286a5713ce81; 0x374af8fd466ee9b; 0x5e5e50c6561e5ff; 0x3c6963443a248434; 0x700283886ce40d05; 0x318d74ddd166b998; 0x1d0c235582be0f25; 0x74943c522629a632; 0x56c72816640f8dae; 0x838c6f840152a08; 0x6bf2cabc35428e92; 0x153195647f7b0015; 0x65abbc606f3387f1; 0x314f971369418ab1; 0x738e6ad1ee00ba41; 0x6fa68d970c934975; 0x4e3359491c79db15; 0x339c43a93e53200a; 0x6c4436f6e1f42a9b; 0x54bd45651f1e0bb6; 0x424df12bfbdb8728; 0x3e634c60b5eab4cd; 0x6e13cb5698643e5c; 0x73c8db4eb472e8e7; 0x57ba0ebf3b0a1f1b; 0x4cccb6491092f8c9; 0x1ac0cde925aa4dbb; 0x5c4f5891f40e6de4; 0x412567a97aafaf7e; 0x312d490f3a4b50b9; 0x48846f803ad66cb8; 0x4717c4f29ec9b14c; 0x7471502757d6627e; 0x4e0cbb2d7b154753; 0x70551d3d445b615; 0x248a081219a55feb; 0x4e968992af8b127d; 0xe8c23a5b9dd9e50; 0x178a9a595c0650d6; 0x7bef1de1b5361b75; 0x115d491a1ad7f9fb; 0x60d0db96e6d8ace9; 0x10f5a50a15de3018; 0x2ae626ea9781a753; 0x249c47e42a4ff942; 0x57cc9a8daf52d4e0; 0x1ceae5f77206e863; 0x6b94a1d61b5da466; 0x3b36d6cf0e527efe; 0x777ac939c5a0cb2; 0x272b2c7d5d663fea; 0x104b27d48039fead; 0x22293021ead0fd77; 0x152b30cae2d56c64; 0x3dd22aa7203a47f5; 0x7a578d101f910366; 0x12d6b4e6d64ab543; 0x78c17a40bc48662c; 0x72ddcdafc7cb24ac; 0x2b37194e9aef0156; 0x4ea0569f88dd7032; 0x104bca909b59cbd0; 0x619b1b0ac8aedf9d; 0x796aa75999b2f6ef; 0x48848149f9147af3; 0x676be7761f06c379; 0xea207881bf2ecff; 0x3f338451c27f5050; 0x743eac52320ce33a; 0x256dd8b03a6b9cec; 0x2061d78461f416d5; 0x46d10cd17567e666; 0x355d5b6f4204abae; 0x6e766933d1a4d437; 0x2e4a73d1803f57c0; 0x4f432c1eedefc1ee; 0x7d4b69118f32d29f; 0x25d1c2bdb7b34626; 0x1e768e408efa8762; 0x6036e61451c4209d; 0x5f62629359129ad0; 0x5a11ae62a41d23d5; 0x3f2a898c9ad0fcb4; 0x3e407b7e47216f6d; 0x53e0e411f29069bf; 0x1027d340c7d4b3ad; 0x7ba5045a88ff5d76; 0x6f92d571c9d967c2; 0x374c76d06dad32c1; 0x18172ce614d0f953; 0x6ec1a171c1200081; 0x7a4376e5bbd1511c; 0x3c4ea5a718a3ff45; 0x4df01c48d71db789; 0x5699d5c8e8f4825b; 0x4acfedbc95c3db73; 0x3c906f1b8a8d1aa0; 0x5c4ac2a8ccccc8c1; 0x38c1c993d0c5ab26; 0x62fb0cbf4325b5b3; 0x7a383d23866444fa; 0x577c736d84d5ebb6; 0x109125ddd54348f; 0x358f2c088112178; 0x4cee4fd6f0593e07; 0x66d521f54e5f71c; 0x6a45656e33c841ed; 0x64479dea3894b482; 0x1d48a5e79177cde3; 0xfa9ab0386172a2b; 0x283d64fdc78c9da9; 0x2aebb97b635d8f83; 0xa4e75a2a0dee6af; 0x11b35ae1840a13b8; 0x188302776416706f; 0x549390a8a77b3457; 0x6249ff74257bc35f; 0x721574816ba2b0a0; 0x64ff743835386c61; 0x373aecc073cde0bd; 0x2e38c16a46a8e171; 0x593e793078736a58; 0x636920553360f680; 0x58166e79ab95d34e; 0x20693ba1e149a473; 0x7f77085877665cc4; 0x4c9618ac54ec5540; 0x4928f5c89a8002fb; 0x61ab85e765c5e212; 0x589bf042087dcbb7; 0x49d62f866916c50b; 0x4c30d46c951e8bcc; 0x5482af0184474a36; 0x56c6cfb048ed11ec; 0x13966f8a6e86189b; 0x4f2f8e4633388d01; 0x1ad64ee3ba593c2d; 0x57f623b8bd4403b4; 0x2fdfe950e20d7c76; 0x33c3e19c7e6e20f0; 0x5e36bccb08b97f3e; 0x67c1efb592845643; 0x2e9a3ae40bda4771; 0x7047c394af45e3b8; 0xa8d81393b89a557; 0xd1e7be18e045b1; 0x14ff7bc7c48b34e3; 0x3d049362173b4462; 0xa05ce41084c55cb; 0x133514765002ea05; 0x77f5f0672205b437; 0x679e640d3b4db719; 0x508304447f572c63; 0x7d0432956dce351a; 0x563a987efff19647; 0x4b13a29d69df701c; 0x517d6c9179d49a82; 0x453f65be4f3a2a10; 0x35e28ea3be0700ff; 0x52109130e66d3b21; 0x381c28ebbcf1be3c; 0x66aa5a446426f925; 0x6fd6e1743cc892d; 0x6c1873b02533eef0; 0x15c5bdd971ac54e4; 0x646ff8e45d125e67; 0x5d9ef509737fbf2e; 0x7736b40a49cd2b89; 0x624d4db0beab1708; 0x1f84148d8be63e52; 0x35d65cf1fb8626cc; 0x4d64d784c241d499; 0x15cffbf98f42e2ea; 0x208cbb6f3daedb0a; 0x34ab10607a0020bf; 0x2c901e5dd906303; 0x3c9176000e08b4c8; 0x41fe3a04ffde4355; 0x11506a89e2e35bc8; 0x4fb8f0c7c8e843ee; 0x733818cf36c3d9f5; 0x67a9a3866ff8b044; 0x52c7d0a54fa8f70a; 0x50dce2a88259bf0b; 0x242be92485712500; 0x14d6d340c79bc69b; 0x74184b6a0a08a163; 0x634f78a62271fb0d; 0x4f01822c357729be; 0x1dca2af95e4bde8c; 0x11ff2e364428f321; 0x10bf8096a91f6c6f; 0x8c32febcaeb565e; 0x24e6afcef244cd56; 0x6179b4f2ce729f2c; 0x2905385c22da4206; 0x601867fe066600b3; 0x7cff03f0000c0ff3; 0x1fe1e1fe7f861f9f; 0x70cf0333fc30f303; 0x1fffe1];
   [0x460d2fe1a0a589c5; 0x4e77e52eca601c77; 0x6fce0d4d16b2bdcf; 0x455d0a9bf371fc3e; 0x42fed7cafa99e52c; 0x149ce4a00b766897; 0x5e0e0a90d6929ec5; 0x3120b5844c56044; 0x268bdb440a61e9da; 0x4cad72b42d1e90b9; 0x46f59076b84db9d2; 0x188cdc6265b0763b; 0x7ed500f731105864; 0x74677aa0a1e18788; 0x2116d04c7795a8fc; 0x786a49e50f83543f; 0x52bffbe2e06bc063; 0x4695308cdccf154d; 0x683d9f1cec5120f4; 0x2aa9736b61cd46c1; 0x3b1620695b014c58; 0x538016eb300396ab; 0x26b9a3ff90b0524e; 0x1ca7c2b6fae36d51; 0x3755feafad5eefc6; 0x3aaa6240cceafed9; 0x2d8d300fe7fb10a8; 0x5fb57d0eacf48a02; 0xbb278cfb8662e37; 0x183423d4a93d3828; 0x33e426545ac04a48; 0x43b9928d7a5ba9c9; 0x56532d3481d8bc8d; 0x1a3e345ec23bc6ed; 0x5ac334ed413f439f; 0x73260f8e08189c0a; 0x7deffc3da0cd6fd0; 0x24fc68328294a4da; 0x2a3deab5838a0f4b; 0x76f730407bfec640; 0x5536a032da20c853; 0x1fe0814bf01a3208; 0x29814c3cca7d1732; 0x706e1716e941abc5; 0x6dbda3c4624ec10c; 0x70d41b82024757e6; 0x4bcb58f69a25c9b7; 0x73d5fb6a5b4175fa; 0x11a58de1dc105331; 0x4abad5319ecbd777; 0x190e2e51ae61bb4b; 0x33489f82fafcbdd2; 0x38b63a493001995d; 0x4a824c9e816adbb3; 0x21fa0a70aee4fb7e; 0x161fa7fdb3f3515b; 0x432a54ae4e1decb4; 0x532a155852f8548f; 0x743bc716603d406f; 0x3c9224537410ec97; 0x3ee1517888ec904c; 0x336f33aa1d4a6cfb; 0x28cb8a60534135d8; 0x4e4980d29abf533; 0x85d17d95e139ac9; 0x5b6406a7ad97e9d1; 0x880df0dcb422801; 0x20e969e4a7aeb581; 0x6c22c6c079853b98; 0x50a33f31ce0f6df2; 0x41aa0f11268c7c8e; 0x1c89acd8874ed3c7; 0x121fffe7c380d41f; 0x3e69c2a31ca1d784; 0x266a23b6008fd3b; 0x31b589908a85e571; 0x65415ec3e27625ec; 0x6522868fce5f1d54; 0x6631117332b12652; 0xaa71d42d0ded205; 0x7ccf5496152641ba; 0x53f5277153ef5f07; 0x2e6a9cae33849d05; 0x1110ae9afe125664; 0x4d036646593d5407; 0xa0270ada5c87aaa; 0x3b47efa540a381a6; 0x603c1ea7215c628f; 0x57519ff56bc9570d; 0x3e9d3d80f82418e8; 0x65d9a0f1db1fcd28; 0x14b02dadefd43b32; 0xaa244c3d1b49ea0; 0x2a047c2802a02773; 0x220a706517338289; 0x8c39e79331bb532; 0x670b7c9dce701a43; 0x22998373e93428ff; 0xa9b28728ae1a368; 0x543cca04b84be1b2; 0x56a4a099540e39a6; 0x49506332207647c2; 0x93bbf92b78d9fea; 0x752eee1f9ed39339; 0x6234cf6769ca86e1; 0x6d8d7b9f5e1ba6b0; 0x332852856cb2afd7; 0x321f56f55fe1b442; 0x2f9c1cc5fda5f43b; 0x1604ef57e99c4f5a; 0x6ddeedeb708cdfe6; 0x50562b885185d71d; 0x7a1d24618d2957f9; 0x12f3a96c67aa9272; 0x683dee6f04b022c; 0x6cd3ca44c429e6cc; 0x351c8cf1da00fac2; 0x2ebbccf6ddb4fdd2; 0x288be5e8cf9e7aed; 0x413a8d737dd29198; 0x1f3ab83c7b5937d4; 0x39bf32f41dafc805; 0x59c14437c95d1d5b; 0x25d30a5bf401a8c; 0x2ab1ba2a374d53c6; 0x68c01b3ed61b5593; 0x7fca2d78cd8334be; 0x7d64ecb30f202472; 0x5c250f9fd9e50be0; 0x50b34b5b24a4ea00; 0x3319f373afc1e187; 0x1a57d78eb458eafd; 0x416cdff001168e46; 0x65ad478cfada000f; 0x24146267fe657284; 0x365236960cb483aa; 0xb3bcd7291e9ddaf; 0x19bf53cbc0efa8e; 0x59def71bc61bbf64; 0x26e55ea98722ffd7; 0xe797a5b536c8445; 0x4b70f22a2e4a20a5; 0x4bee3b5aaea64bfd; 0x586781a1c3f77a57; 0x6edb10fcc135fcc3; 0x5d61c378a9f71a00; 0x4fe51614490df0e; 0x3d5748e4d8b84acf; 0x1e0a04b75304f280; 0x5b8811a3a0299017; 0x10eafd1ba405f3bd; 0x4c33757a967e4759; 0x3ba2a762bfb53482; 0x757990fb5fed1c38; 0x6d803eaf988278ab; 0x798b361400976117; 0x2bb57e737cc1db58; 0x33a269b0b512f341; 0x194cd078dbbec40a; 0x8340279c4a7451; 0x62331c6f0ca60be8; 0x55f8e18fbfd90c5c; 0x13649f94f5c385ec; 0x266e4059887ebd80; 0x7b2dfe76333eaf69; 0x2066d3eeefb68c25; 0x38c688b376920e6b; 0x1ac5ced16044690e; 0x4578380cf0f38a0; 0xef5a8b0b172324d; 0x2a046c14a60fc012; 0x7d7b45cd2394bbb0; 0x193065af53d344ab; 0xbfaedd6c794b6e; 0x18e0a19b4e6e442a; 0x4241f8cc07bd73ef; 0x4115ea2727627fb0; 0x53fde02f37a79eb2; 0x464e8475de7c61c9; 0x12956f2407e752d6; 0x1642f42a58c92891; 0x4dd5578edfdea218; 0x5098846aad2801ee; 0x34f2bc039edec08f; 0x3624fb6c26ea34e; 0x441b47a97ead04c0; 0x15e0b4d0375c5267; 0x9b7827cc5c662c6; 0x1a464e420ade8be9; 0x248a4efaca31f262; 0x7e0d8aa291c9ebaa; 0xb7846665a689c34; 0x224a074d31873665; 0x323c9efca88213c8; 0x2f3717f0b4d9d335; 0x3a3bf24f4cf45b37; 0xc098e1dd0047fd5; 0x7b17b4fc79d25793; 0x9f4722f49cf6c4c; 0xc76d22e3913c573; 0x23c00a7501dfccb0; 0xac0db8899d38e6d; 0x491b607b5a29b980; 0x30e5136baecfb47a; 0x7b5a734ce88fffda; 0x278d504902113059; 0x7e52e3cb6694265e; 0x23486948967e07bb; 0x5072cc182160d51b; 0x258b95a2d401d3f; 0x41f66b57066c2eb4; 0x4b1c55fbd339877b; 0x1b1523817bd52822; 0x1afdfe7e92a6d8c9; 0x22fb964c39495612; 0x651f2daff7af1d66; 0x45cf8a3572d6754c; 0xd29ca6621e4c618; 0x28ba4c2ef5bfc565; 0x7f83720b2ebfc22d; 0x57d5e4c5ff6752b9; 0x14ec70cbbc73947b; 0x62b5479a452a4628; 0x679b0609348cd344; 0x267748f05ee9a21a; 0x433fde10c92e1c39; 0x34d29cc26ef9d70a; 0x1f0a0e112cf58a25; 0x2c8f77a8607c7fed; 0x3c57b6193a5d7726; 0x69c28318d6562b13; 0x2785eeb8e75c02fe; 0x71f99fe3c0c4015c; 0x31711e5374b02c36; 0x2e0a23810a4a67c5; 0x78983f31d3cf5df; 0xd834bb2de9e8daf; 0x420c7172f4558a04; 0x3c92b04cb2f59533; 0x5146c5047194749c; 0x59783312e65c3e06; 0x6612b6f156a1ea98; 0x16bcb83c4de0e8f8; 0x745124690c2c0b0f; 0x59df96d3250044cd; 0x51152253d618eb03; 0x748d7682075c4955; 0x50091f1521d2aec2; 0x68d945bdfbb86abe; 0x1601bec7eb7076bf; 0x64c30982801967b0; 0x5fe0248c0f5e5892; 0x13b816e648d3384f; 0x8b9436bed8bfcca; 0x46ec77e0fe8a7efe; 0x3ac3c5851512293d; 0x4042ece96b0851ea; 0x290e7fa45fa45882; 0x34a3480a44ef73ce; 0x8c8ae4fd5e6c484; 0x453dffeab230822a; 0x23f1144c941e68d2; 0x2ca4434441bbc5de; 0x7feb606230fd5153; 0x135a5e02302eedf; 0x27cad1a5cd6a353c; 0x76157600bd1ea211; 0x1619c4b3e97541a1; 0x1ffe8ae660ba1e8e; 0xc428a99a3811979; 0x4aee79e8928b83a9; 0x415018894c5529d6; 0x24cf6cdbe22b7cb2; 0x7a9a368f9f901cbb; 0x506c9451638b5a2e; 0x4ec21be2ff4edb8a; 0x4a94567fcd19d326; 0x4b5e8f33429859ed; 0x212c3249e6d85337; 0x3b94402ee1450466; 0x7c31f0506ef88d54; 0x7665152770a2829c; 0x5f67a0a0b646dbb; 0x11029e9bba26d1a; 0x1259e09060026b49; 0x162261b236997a1; 0x7c85d2ddfa98815b; 0x241ea507728bbdd1; 0x4d30924262ed562a; 0x15f8a7f8da23bd54; 0x3e1d462463d96209; 0x3200547c5f45a258; 0x55d6489c1ab7eb02; 0x6571fdeec8bc83a8; 0x6dcfd655583bddd5; 0x6f653e0758c5f58b; 0x7c732d24c6e9cd88; 0x7fc10f7e6d46528a; 0x652c93571e70ebd9; 0x6bce4324efa2bdb0; 0xb38ef29dd8ff218; 0x731a305caa1b5663; 0x395b6ceec0a10133; 0x152974d78d45f70; 0x246a0c2307ab29ad; 0x1aa4d30c5e348003; 0x7c7b9619914aae77; 0x40684ab85cbfe1fe; 0x247a4798b2dbe185; 0x77bd13072368627c; 0x431637f4aa603a20; 0x6ad71713c45ee117; 0x443b81ceb6e5720d; 0x660019819e07f19; 0x3c030c300ff0ff33; 0x7987e19fff807800; 0x4c303cf3fc303000; 0x180181];
   [0x5ccb371910f49578; 0x262f209a998e7ff7; 0x7ecad856ca224515; 0x367dfb751228192f; 0x6d9018c4df2ccc40; 0x4f5484ba7d448ec6; 0x1f39057a0ca16770; 0x25280c72c900fe36; 0x5d5de6e9c4f40cd1; 0x6c4710c9f537caba; 0x7e277714bb1c3f76; 0x2b035f19af09629d; 0x440566c3613e99ac; 0x281a6d495ed4af97; 0x6c304d48ab97f128; 0x3ac96e92fa1e0130; 0x7b1166c1cb8f7822; 0x5cfd0d0922560f27; 0x10af84b1c84a4183; 0x5f8d50419253df5e; 0x74487a8bf8a1e656; 0x643066649bd29837; 0x577ee08deff39c2e; 0x18a234ee7a188b23; 0x2a9f7506e4da7299; 0x59a5203f16ad149c; 0x6f0c36e003f4d12a; 0x55c2ddad65f67797; 0x75233bf6bbf8333b; 0xf1a80c08bd9d850; 0x16c0ab0ae1273796; 0x4bb9940bdc18b184; 0x7101b3043ca72e19; 0x383674305a522c01; 0x425222a57a0c925d; 0x518f8a68704a2435; 0x5d8e1d0c93395041; 0xfc2b46b8c217208; 0x465f316dcb93bf32; 0x7ab005b095c649b9; 0x64e4d3be9185fb27; 0x6437683189616bf2; 0x2a25d55eda7bcdbb; 0x2516a6b6247adb05; 0x10e2d223c57cb0c3; 0x5d177323c59a2761; 0x1976724fcb5ed44f; 0x760197b894bef445; 0x2bba449824ea7373; 0x3456436c1ec68b4d; 0x2ad2a2796f79e067; 0x7c313dd343c0e44c; 0x4b0a0c2c04ae77df; 0x60f00877fb0c9fb4; 0x7c7e1d670b81cf43; 0x45b5ff55ae19fe5; 0x601a11f353a9fe75; 0x411ef32f7a4a55a8; 0x41f46007bfe82e37; 0x23cc8bf0bf66bc02; 0x22380b88acafb75; 0x719483862c2747d8; 0x55e04976df5abab2; 0x1b7afdc1ed29afe7; 0x734c07232e6ea9d0; 0x6eaade140611c05a; 0x3aca35cd2c83c3b4; 0x760bc803536ed082; 0xda67de9ab33a4ba; 0x4f966635d004796b; 0x56d2840bad3e1edd; 0x3bff3aa271e0864c; 0x365cb19f4a7ad525; 0x6594de6e0fc29cdb; 0x16826bbe3f67381e; 0x711dac6fc248179f; 0x739f78f77209383a; 0x54009da696c07ec9; 0xee690ef4138b7af; 0xc99c746aededc6e; 0x38c8002696b33e73; 0xb6ec0063f3b3bd8; 0x4e4d6bcbd3158292; 0x5b168d7edf6603b3; 0x5523ed741d25ee41; 0x4414af20bbe13469; 0x108b93c01f4b4f6a; 0x64ad21fb91a21e58; 0x5ffc6da60495f65f; 0x2bfaf3db471e89e0; 0x6a466417393634b; 0x31210155eb9eec13; 0x6722686934d9bc02; 0x46e045a321131938; 0xa815f62abac591b; 0xffa13222e4737af; 0xc66c918f96ec47e; 0x1203efad2426ddc0; 0x4cd24546dab2e36d; 0x5600cdebbbdc7411; 0x6bb7223060504f21; 0x7d4becdfdce5dbac; 0x195f9e2025e6aa16; 0x52901526bd3df8d1; 0x6c2caadeac8aee27; 0x2f9f73592aee2680; 0x6162e14f46d6c60c; 0x12eb2e21fe796f3f; 0x61444fd60d5b6ac1; 0x1c05d17ff74e61bc; 0x39495d95a06ed64f; 0x6f1c23655011b55b; 0xa00bff9c8e4b6bb; 0x7b03692d9151bb83; 0x28396f5ca6ee1914; 0x4ca5fcfede8c875b; 0x1765451753f8eee0; 0x27f69deaba07fe96; 0x4e3a929fc7f949c4; 0x76359c207e6c0742; 0x34da2b6e93b1076f; 0xabe71d92d48d800; 0x3592e1389325ec0; 0x2cf061d34f4136b5; 0x4c6808f80e0dc25a; 0x15f2ac0f4ae670af; 0x3f593ad0c0c1df6c; 0x4a0e460ae2d3a373; 0x6f34420d9ebbe523; 0x20acfe8262984ddb; 0x5d63a2a3a865007; 0x5b989d294ce8c160; 0x41bb30b706567fd2; 0x40631b07ba7a9f7; 0xb5445a71aad7307; 0x698003703902142a; 0x39cca67fd4159be2; 0x16591d02caf7b0c1; 0x403e8cdd4e4c61d0; 0xe8d2a29c489be2e; 0x704c301775089873; 0x1ac3bf897dbdfa80; 0xa8b59abd62c9e6a; 0x3068c725a74eaca0; 0xf4bbc72e9865896; 0x146f15ec33df8dd3; 0x5997d94cccbb8dcb; 0x79679828b9bf3e4f; 0x34a08e97193239f1; 0x40a56eb208c40c7a; 0x29cdc5f8b03a056d; 0x62c36c23f36b41cb; 0x7b35bc7d207c1a01; 0xfb09dd259f1bd8d; 0x57ad8a07d1818772; 0x358a44d5f510ac0; 0x76dd2df30a3cf260; 0x78f73f70f3e78c11; 0x6cf857d691ef36f9; 0x462f206b27eeee8; 0x206ca78bb37070b0; 0x52c952fe89a4d75d; 0x5b4d2ae12a1b93f7; 0x520d36eec6a55799; 0x59e1c775936a777e; 0x5411e6f0c2900854; 0x1bd314d110b79131; 0x3b895efb3b1c074b; 0x68ce306646b063c1; 0x680fc40cdeb0edad; 0x4e99eb3e82a5a3c5; 0x64e99221ecdd91d0; 0x55c55798fce414b5; 0x2f27b2ea63bc24e9; 0x270465cb43e45510; 0x2afd6df5e7c603de; 0x56b78f0ad02dc90d; 0x674250857ef4519; 0x31e5de30379bb806; 0x50841a2dd9ff3fe3; 0x5fe2c59dec8b9ea0; 0x72243fb4ea22ff39; 0x68ba7fcc12d273fc; 0x6b3f34e73e21b6b1; 0xff44a08c45c94f7; 0x1891ed251741e19d; 0x522f70aaa1286232; 0x67548479754e2bcc; 0x279970786df6034a; 0x67ab5516280b5c5f; 0xceb67260cb6c8ce; 0x2447eb7b027a3a9d; 0x3134c730ac7fa5e6; 0x3bc333dc8f66140b; 0x500e2de91602010f; 0x49ca904cf5f1cc72; 0x419ca3ae51cfc70b; 0x221e8757346460e5; 0x43cb501d95e02947; 0x6691de9cdd333198; 0x106140e3ffcef278; 0x29274549066b2633; 0x70715d9b50a60986; 0x10a91673ff15c679; 0x769c53fbcc593e67; 0x545bb81d59072196; 0x6275921ad3f060f9; 0x2d02a5fafce84976; 0x7edefec992bdcebe; 0x2a1564f4fae8c04f; 0x140731403dddd4c8; 0x2e696ba92e8d3408; 0x37e7929c8367ed66; 0x29ebad50394c0f2c; 0x73106f32ece35ec9; 0x2db4fa8de0d873be; 0x197b26ae6dbee625; 0x4796028830b4c01a; 0x412dea41f126bdfd; 0x1567e0e296307310; 0x53e0e1cc144889d0; 0x7ff66ae7a8248566; 0x550ac5236320ab82; 0x6b33f5b6cf34eb26; 0x5d0ad05b1c517aa8; 0x14735c85f3ddd8e7; 0x7ee340fc0d8fddeb; 0xcb7f29db0ecbcae; 0x2fc880be88782e15; 0x3ea8c06869150c9; 0x1f945f443fd2f137; 0x6426cd4756b3a666; 0x12af507c13afd166; 0x68f175593421a01b; 0x5afa906f3ef018f5; 0x1dd4f08ebd0ca6c3; 0x2014733b13b4b9f; 0x3fa0ec40cf9237c6; 0xb9a5894b7d99869; 0x10650c42b05d0554; 0x2f27ebf155e8ec45; 0x387181acb9c9a4b9; 0x55b027ca8f45905a; 0x7b7a67ef826c2d73; 0x72113d917e339c50; 0x21b40ec9116634bb; 0x310050aba70c50d8; 0x49d25fb346a3036d; 0x5598adc5d0fd4557; 0x128cd63fad068c56; 0xc65d68b5e538c41; 0x158d4e172efefdc0; 0x7a91a0c1140b4087; 0x1a29a617d9f50ef8; 0x7b9073ea27575811; 0x408c6aea502d8040; 0x7d71a0cf957fc519; 0x73420daba56b988b; 0xa7926300bf1dfe3; 0x7f3687aec106631e; 0x467b40421513e42b; 0x663e213355fa64e9; 0x4acb7987811a1d6a; 0x61ba748c43449cfd; 0x8e1798ab112acec; 0x49cf42c135891de1; 0x5a1474febe294786; 0x64ccd67170118f5f; 0x54d270460d4b1a70; 0x24b3070d09805844; 0x247010908bbdee12; 0x39f9ef2f220c9bc0; 0x91561d547a425d7; 0x6d3fe9b7d52b3016; 0x2bf9a64ccc3862a3; 0x58e7f454460ad0b; 0xba5dc54e120e40a; 0x2e782d02204ba793; 0x3621b28770138947; 0x6f4d100478fac143; 0x7f7c12a0facdce8e; 0x59f5cbaa6078056f; 0x7a15ca97180f9580; 0x351b57b480c01617; 0x22539c53356ca18b; 0x6355a312fd92b479; 0x3ce1d651cca93c08; 0x396e6a09b0ac619; 0x1923e0476d4de9dd; 0x471b46e1986a6564; 0x7f996c84ff3c665e; 0x496f7be8dc674868; 0xc6f5222ed7518e1; 0xbb692fd3193854b; 0x1d137567ab344e4a; 0x528f72d55ff8e7f4; 0x75ed5f8259accec1; 0x3004b64cce266ebd; 0x76a863e95550d7e2; 0xb5b05444871edc0; 0x669ba3cc5bd7c5f0; 0x3ac5a8e0a7bb092; 0x38a65f6f1714ad71; 0x6682f4172b5d42f0; 0x66be26fc722b7c46; 0x62e30bf4f79a764a; 0x152a0ad8655bb824; 0x7716b531dd530a00; 0x2b3579e915339d02; 0x7fc5549ed5a49b7a; 0x206d108e93592c7b; 0x7c15ad1bad20989d; 0x39ed80b202220bd; 0x7e7f9e1ff9e0195d; 0x3cc30cff3ff0c3ff; 0x667ff81e679fffe6; 0x33c0c303330c33cf; 0x1e781e];
   [0x2e84124e00bcda9d; 0x968d4e119227f3; 0x6dbedf872d50fcf2; 0xaf043d21e21c875; 0x566724cdad43213; 0x669cb20fcd871fab; 0x69b4a36cc0d73be7; 0x47d81d8cb0e35ce0; 0x2ed4ea8cb5ef2bd3; 0x37721932abbed321; 0x1f78617a1889972d; 0x48daacf3ebded1da; 0x4a6dd613bd6032e5; 0x435723db75d0209f; 0x6395f0a641dd380a; 0x3f67e4b2d71be845; 0x61392f181f0cfc31; 0x64c938b4e05930b5; 0x19122a317566f8ae; 0x8bbd610bcc41850; 0x3a03615aa91374c4; 0x5574aa21bbc9e5f7; 0x6d5b5dab769e7a81; 0x2a634bf6f9ab47eb; 0x1f7d07a5bbd666e7; 0x4212ef2a229f21d4; 0x28bce59eda2aef7b; 0x304f7b0c22802291; 0x14495edb3962e5a4; 0x360220d1b720e600; 0x31aa7fcdc47c082d; 0x30dea74964c28747; 0x2737f7534a64b3ec; 0x561ebf3826e43878; 0x2c8c8593eac24681; 0x19374cec46b52ec4; 0x17abd2837d7fde95; 0x62b251d25ab74ce2; 0x58ac22030b01b673; 0x5933fe69f353a004; 0x6c2c840b1a81b725; 0x234f35d5969bb6d6; 0x1038fb4299860370; 0x65c657f7deb2888e; 0x21c16ec67ca74415; 0x6892e3a459811ef6; 0x7abd8581cc636248; 0x66b114bc3ebc43f8; 0xa6b58b99f7bae9; 0x70ef12b52b9b4916; 0x61c9b6b3a2dd2126; 0x4f55279e7bb229aa; 0x28711a83bddced25; 0x1a2f62fa257c7dae; 0x5beb706704ef7bfe; 0x1deb2bdbf9e8a014; 0x5fa3395c8d813a70; 0x62359e0793526f62; 0x4e3c58914cc41192; 0x64f7e4df965b6007; 0x78fdf5aadecc7c39; 0x3357d01e84d50616; 0x156a78f6ac16368; 0x31210ead6bdff6e1; 0x75e57d1ec83d407e; 0x451bae2d270b17d1; 0x4a45e52ed56c0590; 0x2d58b4f64e9ad84b; 0x35438970e0a316b9; 0x5d6ae18cff407f1e; 0x7897926d834d21e7; 0xdb67ce6db1443a0; 0x1ee5dd8f6a263053; 0x7bb862e64578c3; 0x64305e06bd5deab6; 0x6a5839c7953bffa9; 0x48797164ec369477; 0x61b1d8d72e28e7c8; 0x7208a0a3225ca2d; 0x23f35eff38078d2c; 0x40211383851712b7; 0x314e0752bfb57ed1; 0x6a87dd09be332fb5; 0x2f22b899ebdf76d4; 0x7a4ea5972f7ebbca; 0x39461c98f3380782; 0x7e28fcb35f2b6103; 0x1ae436c5af02cb62; 0x2297866d0d4ef413; 0xfb354b0b10dfdb8; 0x63c122a931c3e4b6; 0x56cf17441fb2dbed; 0x2afb7865859e15b6; 0x6ec58a92e9f5ed6c; 0x3d7ed0447a9a7e8a; 0x7d62cb599892e743; 0x7a3b3c19fc8995c7; 0x294960c7905c611c; 0x3692e79f0855f615; 0x3628bdfd6f8dde09; 0x392dde4e6872323e; 0x6f8d05f3dae0b448; 0x17321f558bd6fd09; 0x75c45e50f09f7253; 0x371fea58c97bc89; 0x6b0cc9cb54e17fca; 0x2bd50f6d63e7c82f; 0x15421f16d3a02f62; 0x9ab389cc20ced12; 0x4b1244b0ff4e5c64; 0x6568158449facf27; 0x61fdd0a919fa1dd4; 0x40ca161ad7f5fb9c; 0x56e61e50b77e5e85; 0x413bad19872b513b; 0x49f916e2f8c074a9; 0x3e8ec74cedb641c6; 0x514c3968c48043e3; 0x35df38fa1e0018db; 0x3b82acd68a2d43c6; 0x334b64c7b58982ba; 0x2a980438d4ef13bc; 0x6592a6a74897cc01; 0x7d9b7d45c814b77c; 0x3129ea6160bca342; 0x3bef192c723a94eb; 0x55bd58126e053045; 0x578a5a51e692a940; 0x220c8398d86f766c; 0x6959dca69982fdc7; 0x6a85ba268457e4b2; 0x5f13f78fa0aa3e78; 0x7b51284a620d32b4; 0x1f0728db73a4f554; 0x6ecb1780e48009fd; 0x525e768d6fdce2a3; 0x691fd8213f3dee84; 0x6682362518d36743; 0x199a598b9968325c; 0x1bee21b1e7aa42af; 0x3d110d19af2f8703; 0x142fad85cc1fb03a; 0x11cd3e6ddea4b1fc; 0x47aa24f8ba44fa58; 0x43f31219150636f6; 0x296cb8b500314089; 0x55b5edc12860a620; 0x4f65ff01396fcb67; 0xdac1f65d9d8a5a6; 0x7e209c4b315cb5ae; 0x25caeba4b01c65cc; 0x29f5e1e6d2f8ca8; 0x2842780eac7f410c; 0x2308c16f8628b44; 0x28b98edaa7695c17; 0x1dc5b6441aad6824; 0x51187b48ac017ea9; 0x1c6b4f313a51d53e; 0x2ef35dc11d293d8e; 0x3507c9a693a8d60b; 0x5000fe4928ee8cd3; 0x203a5ed21248a1cb; 0x750bae2a336ca54d; 0x6f90f8da8604a1ee; 0x48aad963b82f6f56; 0x69773c2d1a15a85a; 0x1cf6fe04f74bbdbf; 0x30bb072c2658b247; 0x6f5efb0a6c59602c; 0x603f54e94cee8621; 0x617c4cbc5283c528; 0x7f94011ad32465cd; 0x4f2e0e83425c0194; 0x513d7007c2dad2c1; 0x4b4193bb172b4e78; 0x2a8fab862c62068a; 0x71aa226010f102c4; 0x7377664adf43d4d2; 0x5328e942cb1e0594; 0x596b9b330dabf16a; 0x2d8ce5e303d7c8f8; 0x39c74cd06f84ad9b; 0x7c066545a33c8f7b; 0x397c678d43a68ca7; 0x1e57927665472358; 0x7d842da2af8548d2; 0x7458217383fa77dc; 0x791196b9e53e61c1; 0x62c7402ef3daac21; 0x252b2c0cb1772527; 0x39f6d1de40c8d659; 0x164403d50cf08c82; 0x352dbe476980f0e7; 0x25c3670b4285d301; 0x5057898763dfcb5a; 0x10d7c48e10dc6ace; 0x2a33a5f056a066e0; 0x67738d2086d31928; 0x3c04cbca6ee10422; 0x41aafe0ca146acdf; 0x5a0d539816f8548a; 0x169e89a1368bd5dc; 0xea8e615f0d7ac1f; 0x38d660f28a9eb068; 0x4eead99a380e6cb8; 0x9d1fa2cda5bce82; 0x166e2021af7b356c; 0x497f0e8abde08f71; 0x4df34557a52c49a; 0xf0843ce1b8429d0; 0x1a3ef39eec44498b; 0x5de76510529a1c72; 0x1ead507cc9c2ab18; 0x5a9a26ea2f67200d; 0x33368c848f343645; 0x2e660e0ffae9b525; 0x50e3597ba54cb6d1; 0x3fcf39c5e925cc7b; 0x3c928ac5cb8f5f61; 0x7c23ebd428c18a9b; 0x7fe317fb6192b398; 0x192f9846bdb129b3; 0x385d83597ce3eb91; 0x597f549d82dc163e; 0x2cc838e3283f4967; 0x5125ca7f02361b50; 0x51202ab781a386ee; 0x105890de0cbf842a; 0x731343aab9591a4; 0xeee459b598ce597; 0x49ca6da378764d7a; 0x3e916e64eff6ca80; 0xbbfe1b9293691d4; 0x17e2ec162899db17; 0x45774c1104fe2b6b; 0x5c7a22d4573c77b6; 0x29686c12846aed8; 0x291b45b1500fcf27; 0x73ce0fe5c2083f7; 0x74f1a6dffdf845e0; 0x621b1e1211090067; 0x65cd90f20ac9a19c; 0x5c9ab5680280ef23; 0x7ca41af319c6a711; 0x1a87b2eb54fe7ade; 0x73856b90fff35558; 0x4b77644a476daecb; 0x681a9befa5f691bc; 0x108ba0156b169a69; 0x3c84ecd9084b6058; 0x2b0c6867f9e967a; 0x3f16b1671dc72d42; 0x5c09244d5263d0d3; 0xdcab9b673a6e863; 0x199e42e6c49a74ea; 0x77b837dd8d4029ba; 0x2916075d8225a357; 0x78370285a32fc7d6; 0x2d5a6d0ae8436172; 0x1535761dd1e5912e; 0x2e0178920b41b323; 0x10a7502933955570; 0x3acd1612c2ec316b; 0x3dd98315b8498ae5; 0x4bd92d91056edc2; 0x24bb93af8172620d; 0x1832e960ff0db16e; 0x37d2b1b7bf2a9b82; 0x528bbaa89764ec83; 0x517f16590cf9ff11; 0x714d703e36ad71d8; 0x1c5dfd884eea6dbe; 0x74bd9c841bfa8778; 0x599a833122770ef; 0x445d230b29efeb4e; 0x1d0d3545854ff883; 0x6cf2fd86e2742fe8; 0x376e1f9a627a310b; 0x769e030e88fd8b7a; 0x1b65b04cd3ba4c90; 0x15215ef18b6f10a8; 0x1a5eb456c6e8fbc3; 0x3febc27e6bc99771; 0x2df6cadd4d170757; 0x2d58f51043f7090d; 0x45083b33ec4f87cb; 0x2cfb68e483c6b869; 0xe7a008afde2d1ee; 0x59349cab5aaa0182; 0x355b53283faa0ab7; 0x47a1fffaa53cda88; 0xb74da865b765889; 0x2247713e226f63d7; 0x36f23642704a9402; 0x6901a17d904943be; 0x21344b4a0e5e473e; 0x2c6e8d8486bf3a94; 0x15ab0c0441f1e5e9; 0x42e580d13c0c41e0; 0x2b1c434ae456a79e; 0x44bc51fa0298e1ba; 0x64e4c71b073bab97; 0x5c998219ae143940; 0x28287943dcb99a10; 0x49046ca644edaf12; 0x469376aeaa9b5a04; 0x6f12b3f0ae5bbf3f; 0x5e58a038f026eb3; 0x4788c04a87c17fd3; 0x100a0895f0467681; 0x45f888994461ec75; 0x7cc39371be657d32; 0x7e5cc6efe37b3abe; 0x678001fe01f8042; 0x403fcf0fccff0030; 0x18799e7ff99fe019; 0xf3030cc0fc300f; 0x6787e];
   [0x42cdbe3c4a0be90e; 0x3f62b135ce2de649; 0x15dc5e61bd0d9092; 0x41223387d84c6782; 0xa63ce65baf3ab37; 0xd7c30461d740ecb; 0x3fd3f6fdd4bb9647; 0x4b8243c0a13da011; 0x4eb7b6c0b86e977f; 0x3416ed02040b7b8a; 0x5e0f654576ea2f4c; 0x3c6a7506345b44e9; 0x4ea95d3d2bc9bfa7; 0x3cc0014a1d46cbb; 0x5ea59d10e994c5ab; 0x24e39cab3beee5ad; 0x4b2fb96186520005; 0x7cb062377550f6cf; 0x1c2c52f939fdd3f3; 0x4f4ae4fb829f3aa8; 0x4dd07e0c969cc7ca; 0x1b56cd8e3ad171b1; 0x16a72239012de495; 0x3c9e33649a011036; 0x349c93e419596eff; 0x5f7f14677f06385e; 0x6a537e0e672f83a6; 0x68c219b7ea2bd64; 0x7163df00f98647de; 0x11af570b3b890015; 0x3b1e57bac5c739be; 0x63cf786d3ec43069; 0x3a139a8c647e6593; 0x7093aed849b369eb; 0x366d2a8b4baeb8e2; 0x4e6a6be52f489f41; 0x349bf46185db03be; 0x43849afabb0811f2; 0x9080266d5300e6d; 0x506cf87da5490790; 0x5e505eae54c0c08d; 0x3334c6897b2a84e3; 0x1184a3ce3aaeb196; 0x5b2affe81c775f9d; 0x62a8ae2356815efe; 0x7ebc7eb1f3e7db90; 0x2fdec91e5d4d211e; 0x655384c552efa284; 0x114b6b7989cb75ba; 0x1ce82314101dae4a; 0x5879d49a162c718; 0x603382f99a29b470; 0x461b76f117077bbc; 0x3e4a9aaa5a89e3b4; 0x2ac0c91cff56391b; 0x351d3145a3e55ac9; 0x3882ae79eb381b11; 0x16e4ce2d5ee730f4; 0x34944673972c5952; 0x1f5331c196b4969b; 0x49159c299718c3be; 0xd15ea582d74f5eb; 0x2b4beede6d2514f3; 0x71e8df17055be82b; 0x77ca9a8db020c399; 0x36df3f723a6758a8; 0x26505382147fe3c1; 0x132320b62b1643ec; 0x267cbd8c74e975bb; 0x555538df0d1fd125; 0x3b512e8aa07fc72b; 0x62dbb376cf46ef35; 0x611e1fc2189a6467; 0x6dcc065e9cb587cc; 0x2bd7db9d1589f9c9; 0x4557b79c7081ff6d; 0x6066f9f33b78fb3f; 0x11e5515b05854b41; 0x335f8c73b661614f; 0x1e6555ac2fb33647; 0xced3478771aaa83; 0xe47081355b6d226; 0x5ad107614f60be72; 0x46ebfb55e3b55dd8; 0x2f11b7300176f168; 0x3e5e792ba8272a58; 0x726849e064b344c7; 0xb3bb3a4b3a8805c; 0x7322ad3ca2d06fe5; 0x3ab9dd754743ac7e; 0x2cbb11894d4daeb5; 0xa5c235677ab41b2; 0x729b1d3135f44c59; 0x2b5e467f909e70e7; 0x55268d1156017621; 0x6e30e42c94f69183; 0x5862d4bd8fdc11a8; 0x6b441cbd229505a7; 0x53b5958d4ff6bdd; 0xef26da8bc3c3d84; 0x770d78913cb72838; 0x6d3d7ab344c82ef2; 0x79fd870b95734282; 0x1293825d5d88020c; 0x33a1dcdb5ec817ba; 0x120f727baba440ca; 0x2591de6a95f28b70; 0x31e0434ab26f6125; 0x32e3ca371d9eeb07; 0x60283614d656d53d; 0x5660735763278ca2; 0x46dc6902ab69f6c1; 0x1d6f2f3048e92af3; 0x7e4c6f8f8af7b69d; 0x56ca7cff9fc2789a; 0x3756d2bdc70b0f2d; 0x43d4e12441b06f1d; 0xc5abe41719d7116; 0x7fea1b5ae884bb58; 0x72b88090676cb4ef; 0x1034219a09c654d5; 0x42fc62c60560ea83; 0x8c23efb9e2920de; 0x74bc80720cdbe794; 0x5b03ea0858ead382; 0x6c6620a9d56d1ad7; 0x50f3dffc8fdcc62e; 0x5563b2d18f98c624; 0xe90b7f611753b26; 0x127d3c6d97c13707; 0x2db4f5296452878c; 0x423f6442da149ec0; 0x492aaee7949ac23f; 0x325efabe131f6db3; 0x4340a58ab0e57d5d; 0x7d27443b28cb0ae; 0x23c5b4837d4e8ab5; 0x2ce25f1f9d71e1f9; 0x3044325eba6f213; 0x38b5bdbf2333bd24; 0x6213b3649a70d750; 0x25cd0f80706cebf1; 0x213eb226f0294e85; 0x172e69a5ad5365f5; 0x4c5b3edf008237e9; 0x63700d3d192565b6; 0x19f3a251a0ec0267; 0xe2529037990ce37; 0x7e4b5de2a6fdf33a; 0x24b8152e4205bc63; 0x2f31b583d948447f; 0x3b1b69c0628e99b; 0x3a8d872bf5c95954; 0x64a82640d342b4be; 0x4c7298dc543487c8; 0x64240531c88ce10f; 0x6a89e152ecb86703; 0x2d5626635229914a; 0x599cdc1880c164a4; 0x11ea149ee3560120; 0x5fb96a4797a83c6c; 0x7d96c7b9ce90cc62; 0x4be610cd8e85b70a; 0x373717e4aa4411e2; 0x2eaf1771f842e4ba; 0x23806c3e4f745add; 0x5ef5a3060224bd95; 0x35516a71050a47a1; 0x7a23ae0ab3a0784; 0x2901bf80d6cc845; 0x45acec3b841384bc; 0x44f7c048213815a3; 0x53da9bb9929f49c; 0x633b8684f9219b3d; 0x61828facdc3c48ba; 0x72dfe5c5092aa7f0; 0x27190cdc7a19282b; 0x19e6d9c4e11df980; 0x18cd615d10fdaba9; 0x1cbb34813b33f55c; 0x3f9e0d8f7fd358e9; 0x6269121379a6a39d; 0x3f14941c6ea2f9ba; 0x1f35fd04d222d4fc; 0x4de234d555262154; 0x57b0799a485979c6; 0x7337b93ee18a6325; 0x7d758cbe1dcc49cd; 0x7b5ffb6d3bdaf2ed; 0x7d74eb5d6234dd3a; 0x5c0e02f38a4f9133; 0x3dfb08d78fa7148c; 0x2cf2172a36f95390; 0x86975aff74f83ea; 0x7ab77fe42dfa423e; 0x2658b7faa97d63f; 0x26c15c26ed737068; 0x1baeb0a6f4414626; 0x5052c78ba607e267; 0x3c88647eed374beb; 0x148ce25bbb328e67; 0x5ddd7889ae28555d; 0x2656f912daefda66; 0x41f2918aa49c6d24; 0x5e9ee9a20b49eb4c; 0x1638ed5605ed410c; 0x12da385653568137; 0x225c04772812d0f1; 0x26a9df0f8d08d2b4; 0x69a174c58efb4e27; 0x9be0f73a0865f40; 0x70f0a3af09019b30; 0x7e8fc344a121a5e2; 0x71edb87467a93c24; 0x74a2566b90a260bb; 0x454d32bfb6f3e71a; 0x196ee8c692e3cb5c; 0x29691e9fdf5d3231; 0x43496a1b308c37ef; 0x72b4d170c84c378; 0x7a2d9dd6ec4d5bae; 0xc559bc20c710761; 0x72ebffca74ec3502; 0x497d83056e7ec4b2; 0x4a638b74211e04d7; 0x37368353e6d59f; 0x6cc22eedbef550b; 0x724b53fdf05fedf2; 0x49d6e7019fe1440; 0x32668da53d64d166; 0x1aa7525ec77d55f9; 0x1e86e466ae484654; 0x138da09ed2eeffff; 0x360961d1226f6fd9; 0x59186cad75a3a1c9; 0x3678666b933f3565; 0x7a8c703a881dc7e3; 0x6714d9ebd9759ba1; 0x6f932c0357bb8e17; 0x21ef46d6e805bc75; 0x432d04b647b8b258; 0x656209b904fa3262; 0xa10aa93ab333956; 0x77f2f53b83ded9f6; 0x44bc427742ef7985; 0x552aa9606fdcf3a; 0x694f26ac1be00ff4; 0x56b738d27488f18c; 0x3846a357b42d99ed; 0x3b85513a49dcadc6; 0x23f17237739ac5f2; 0x3f55aad8843cb379; 0x387da6bd2f538337; 0x48de2e77970abbf3; 0x718aa0bd8bcdec51; 0x71b59de18493c6b1; 0x88a0e0f6e8b1e8b; 0x7baeda2ef9779992; 0x6b9a653a95a961cf; 0x5068f61c0165c67a; 0x53a755b158f4807c; 0x5c4c0f7098262200; 0x5b11775e93292ad9; 0x3b61e231f22268d3; 0x5a53241c7b618350; 0x676a20ab886b5b8a; 0x2b7dab7b1705b846; 0x67a11e5b69b35c01; 0x7560cbfeaf9e50fa; 0x3d02892fa7d0c89d; 0x20bcc0fc1bb86bd7; 0x2faef56d835a5396; 0x7fdc3bbef6a1f369; 0x58e6fa20794875d7; 0x2250f21fe6b78aff; 0x51e75c76e3992276; 0x10cf84c6d5e2fee5; 0x26d89358d5039f60; 0x2740be5a9fd43e98; 0x69e5693ccb013fd3; 0x55a9da9401981207; 0x4e9649818a6c07be; 0x4f49bb51f6401a; 0x2ecb6d5340d3cf45; 0x519bd6d06109a23a; 0x4f942dc6033afadf; 0x1072aaf4631b6575; 0xee32160c311de3b; 0x18e2919fb73121d0; 0x365707f062fbe19d; 0x65c11fb9afe79106; 0x39179a8abe8349d4; 0x669f1ec97347e8e5; 0x28ad09c35f3901d9; 0x14029f40ae423f24; 0x6cb71eadbb2d0b95; 0x7a12d1b0ef77fb7d; 0x1288a357fccc0062; 0x6b817357a42a1451; 0x4a8dd2b05a273b1d; 0x49ed018f6e833b66; 0x34bf734095f789d1; 0x7e4ae464b3170e8e; 0x3ce15cb7659f0329; 0x216c0db9e9db8e44; 0x64aa8f380cb26857; 0x17177203016e189; 0x76b7b4b62e2bbded; 0x7e008e86a59576d1; 0x4c58e55df96a03e4; 0x153b6ce95ee76597; 0x73fe7e62bf3ae40e; 0x435eeae9873b5d32; 0x7f9fe07f9801e131; 0xfc00c0ccf3c00c; 0x7e781987987fffe6; 0x33f3fcc0cf3030ff; 0x1f801e];
   [0x31fa880f02219697; 0x2208e9b0f86a0088; 0x17b4064b284b8349; 0x1b701249ccd7505c; 0x244cd2030101a92f; 0xe6eda9dc19e981c; 0x4d32be7ce8cccbdd; 0x1d696b96cfca9a72; 0x3f35db65e5e88783; 0x1e367f310b4d4181; 0x5e5d4dc15f470d9c; 0x1bb6e3deb41ca4cd; 0x4060cad6452d1fa2; 0x325255149b7d5611; 0x7ae5f10f14d5067e; 0x452335581aa59a97; 0xfb6efecc8414d3b; 0x41c638b28cc67e35; 0x332eb9dcbb8a5679; 0x4641e44aca25e026; 0x563f92aee300b296; 0x2768ac35d4a96b55; 0x5650d3f2ac00cfee; 0x6a373da369786afd; 0x779aff8b0730c22a; 0x66c5459725f96b5e; 0x7df8c86a44591de0; 0x7fc9f3ebfb92da5f; 0x32a538471dde83e6; 0x30cdfa1b7c069cb2; 0x59efda6d3a9061d3; 0x5461daef53c0c118; 0x53983e6a07664c6e; 0x24d09badab03caa7; 0x31b8ae6f6f276ba2; 0x7de3c0962b4ade79; 0x7eaea073d977c95b; 0x754fd728a142218a; 0x33390cbe9ac7fe1e; 0x19f8af0bf9aa5c6d; 0xe438e374bd7ebfd; 0x15f9b00e4dc960d1; 0x1f5c6b1ed919ea0f; 0x6bd0aedd8c81d2c4; 0x18c319c459553c6c; 0x3cf2e37e5972e155; 0x1d402d1dfa5ad65e; 0x64eeb73c70c95029; 0x70433f703ed1e47c; 0x5787818752fd0bc; 0x5a42ac91985b1f61; 0x79023b560030d7c1; 0x64f5e3f4c7896857; 0x245c92fd46f9d2db; 0x1537001858a40b6e; 0x76d9f34eba87a9fc; 0x6b7ded540f14ea01; 0x36a5d1954d223f75; 0x618faf066f5e59bc; 0x69975ba72d29238c; 0x6542bfdd15f25845; 0x1b812aae2204ed1f; 0x6e315719ad88c034; 0x4a4fabb22d590db9; 0x246204c55444999c; 0x11ff40deaff0509c; 0x27eaf643ef9afbd9; 0x55df35383ae6eaf; 0x75235f6b2825de88; 0x277f4cdab98194e6; 0x269e970fe2fe1d19; 0x17c8f00e101af582; 0x256af677626733c7; 0x5b78b7ccb3c369fc; 0x7db4a30fcae022e; 0x60a6fcc7944eb6be; 0x3d27092ab87ed4f4; 0xe526ae43bb08821; 0x67aa6e01eda44c71; 0x56f78a245b2db38a; 0x52db91f0be6d31d5; 0x3d46a31c31d325b2; 0x1a2ea6ef3294f2a6; 0x156dd82ea09445ec; 0xbef8db97c6ed4f9; 0x7642effdeac7f04d; 0x44f4830e4b63a4f7; 0x48c92879c18552c1; 0x7d5dc3c1abba3c2; 0x40844624958f47b2; 0x24df7dac98b3d7bf; 0x4ac1d15fcce98d8f; 0x7add32307f7fb176; 0x4cfd70db5ab148bd; 0x54de5d819dd26494; 0x7a8e7e2471e42a75; 0x393a4d3af0435821; 0x3c515cf09df9f815; 0x51464b021898e5fe; 0x5afc3eb64226c7d7; 0x60b39acabddef931; 0x4544eed91e1a7fb0; 0x73e79c36979104bd; 0x6d922f3ce155bb1f; 0x31fce554b2aa2dc7; 0x559e9f303b0f8495; 0x7c627e15134d048c; 0x36e42b643b5a1530; 0x288120a71c515682; 0x2a792730ecefede4; 0x13a173edf0a4b291; 0x3c9ab0235e03fac1; 0x8ecc02c06384635; 0xf54d1ec5e293554; 0x24e0af83caeaa6a2; 0x3194d736525a67ab; 0xbf75cdec4d74354; 0x2076b848f7617c5c; 0x523aae205f2964ac; 0x684c8c30bae84334; 0x3b6a37bea50fa66d; 0x33683cfe8cc51cb7; 0x3b9855d8c868ecc9; 0x5bade9e1e4609109; 0x6dac5abda8a56e7c; 0x45ab7c450d95e933; 0x3654c45b952d56c7; 0x7c27ad7e5033302c; 0x44c215b5b3f6d90; 0x4732021957f1b84b; 0x7ab6cc5aa782b08f; 0x711978018d989e10; 0xbb2b8f5001db6bb; 0x65bff0b059cb6b67; 0x47effd2740e55a31; 0x70742fe54cacca34; 0x22f6f99a473f4ecd; 0x6db6cb8013addeda; 0x4d338875c82c0a45; 0x6099fa6c7083e409; 0x7b25e210164418e9; 0x4e78b82d67e00c24; 0x56bd50b926308cfe; 0x32c76fc80cf5d2ab; 0x30d0c029bdd9690d; 0x38142865650038d0; 0x427f96d33fe69310; 0x583466a4848b33a6; 0x63c56c9e4380d591; 0x748c89cbb677e3d6; 0x1db0c32c5d2f926c; 0x62457ba4d5e5428c; 0x14228aa87c90b54f; 0x2ef34026e7ce2160; 0x7c583ef13d5d3f75; 0x14ef48367ec8d6dd; 0x7740b8beb7d0ffd7; 0x16999eb905f6fb44; 0x6cc0b8e14eec525b; 0x3bdbffcb148eed9d; 0x641f2fb99821edd9; 0x7335d0807659d6c8; 0x158e14bd2b219de1; 0x2c56d0a50e861d21; 0x41139852db52f367; 0x74914f424567ee9b; 0x6f65e00103808b48; 0x124e32308961defd; 0xb97680362cf7eab; 0x7559fef7afd49394; 0x368a9f6281f775a7; 0x38be7cfc0842c40e; 0x7b3bc0f259ad44ad; 0x51293c104b2a2504; 0x128cddfdf0065906; 0x802e794e84bac78; 0x462392c237c059a9; 0xf181889208da69; 0x7e981c13bc3eedac; 0x6ef57807a2400a03; 0x270c193502489a3a; 0x4c6ec0ad74f84ff1; 0x59bd567afd390889; 0x3e369811d8708696; 0x5e4366d22b07cb76; 0x3ba3913076b03892; 0x3edd9d3de8a45df0; 0x2e432f52d937bd22; 0x3bff10c038fa06bc; 0x49697dd99f56a94b; 0x68d863f1c819a911; 0x7db58cd79fbe6a95; 0x2e26efda4d6d1c94; 0x54227875fdbb3de1; 0x5786ecf03191b6e; 0xf7f38e6af9ee587; 0x7ce807df3c8b6ee9; 0x2dc44f462f1afd35; 0x658479449b527144; 0x4f3c59718bc89e45; 0x76cb4b9f62f446a; 0x44473e9f87e79317; 0x721fa3d32b26f715; 0x758827ee01c3a424; 0x2b81e277df451858; 0x6862c845bfd80e73; 0x375d7efe22c56162; 0x89aa4b83a80e350; 0x2fe8ef9abe1c1399; 0x7b514861de94979; 0x344cdeb4e6edae0f; 0x1ab7c2512c735b3b; 0x15ba36e707f8741c; 0x6e7f129632a9a720; 0x43b2d24cd38e83cd; 0x9379f8cce125eca; 0x605ad0172bb3b2d8; 0x7d2e0042345228f0; 0x55bfef0b2b533720; 0x46f0b2e983ffdf9; 0x636c9ced0c3a87d4; 0x6cf6fcbd7259519a; 0x5857c54920def6e3; 0x3dc4a2aaf63bae29; 0x409b8c49717839; 0x7506cdedc8cc3c4e; 0x2aa8f960eb1ca8f2; 0x6665032f0efff791; 0x72a18f8726b51f3d; 0x3c40b6d81ed706a1; 0x21f76f083ba81ff4; 0x66ef145e48a4b7dd; 0x34cf9467f89b9494; 0x727804bce8b5e832; 0x5b5670e660ea105a; 0x1a530bf9eeaf46dd; 0x454d6c78b775ba51; 0x24ea6d9b60b02094; 0x33776fbc519313b8; 0x344139924eb41f18; 0xd9afa134482595e; 0x6cffcc4c45087e3b; 0x656403a547bb6ba4; 0x71693081e0ce8e0c; 0x543cd2bd1bd0d941; 0x2062b37e2917d3ae; 0x1f6a0f47f416c3e9; 0x1d71cb8298807d31; 0x61b3461b85e0aaac; 0x445e6746c3eff9c0; 0xf912e91927f2989; 0x6ea1b81b673be2ac; 0x20ddbb3ce5ac6b6b; 0x2d37c308177d88e3; 0x7bb71d4e2f249096; 0x5805b345d5f39d04; 0x7cea2de966609a40; 0x5e055c29f3eb7eca; 0x1d57d458cb15756f; 0x5bc23f9cc6bb7b6d; 0x2d9debf5167140e; 0x53784449130e1d4d; 0x42256ccda1a984de; 0x90ad530eedf2c89; 0x14ec19c42896f4a0; 0x4e6714819bb2ef8b; 0xea12b638290b060; 0x42edc85772d23450; 0x73593d24f2f9810d; 0x5107435c223d9e3c; 0x56ca573be285b764; 0x650ce966fb6e0a1b; 0x6fdb495f0d8ab513; 0x69af80b15ad9a70f; 0x4701e2d59cdac1e; 0x28ca5f866add6647; 0xbeb51519f9fe1bf; 0x3fd44e32285f3a3b; 0x4a5915384bd701b7; 0x5b4dcf8bf4b7859d; 0x6931922891e08c48; 0x2523957c4b393c68; 0x5500e0f8a0054f16; 0x2d2fb5559908db3c; 0x28c5ae8feecd3f25; 0x106ef8efbe0a2823; 0x6ed0f7f53878edbe; 0x6e7d2cb282782bdf; 0x69c5045178b70799; 0x5b620c252e1b101f; 0x63fe378f18f42e13; 0x56888237ae6a1c11; 0x2858d7009de47f35; 0x3490f1dbe84f84d9; 0x6439d1e08aa55a13; 0x51d2be2764bf4dc8; 0x7e46eb8fccbff971; 0x59d9217e063053d3; 0x2c647522f759fbf0; 0x138fd5d12b5d2216; 0x5f17b71411a82fd1; 0x368a409a5a49024e; 0x76f353120094f626; 0x1d72be941091f8a2; 0xdf4d3ef484348b1; 0x22ef3061373d14b2; 0x55b5561daa70e5d; 0x796aaedc2bc14914; 0x5a956e33bf199d37; 0x50ab74cd304f5f38; 0x50cb1d2ba7a083c3; 0x663bd0d4100d47b6; 0x3b9ba6c8d875c2ce; 0x79e07819ff9fe0c1; 0x3c3cf300cc330ffc; 0x60186619fe06606; 0x4ff0c3ccf030330f; 0x1e199f];
   [0x3806e1f4f08a685d; 0x13b5078f2d853603; 0x75c67b632d874813; 0x5b15f6f92ceccd90; 0x27771fe935f17a6b; 0xf9c69d4dec7869c; 0x82ad9353cc2e62f; 0x5040feb2bc9d60ed; 0x6ed9c6ea882d28c7; 0x79f5b2174a829136; 0x1aae1482a8d93faa; 0x28f8d6a05c465d60; 0x18ccb916f16f339e; 0x17a7d4a62a4a5b9e; 0x2f1e367cef2badf9; 0x3fb31651b6e88bcf; 0x12b772ec2ca77c91; 0x41c0201dc8a19f7e; 0x54e21793b6b68251; 0x1a1b98d16b8a72a; 0x3f17a5990d5257e3; 0x5a34976babfb4a7c; 0x380a5d339132f6e6; 0xa400b40935e3bbf; 0x20279898c0c91fe3; 0x98b2f9daeded590; 0x1211aa213f298401; 0x55f95837ec19aa7f; 0x259baa4934b52fff; 0x47eadfc18543c1af; 0x64b519f052015bfd; 0x56b5db8b3ecbe61d; 0xedd183882bb934c; 0x3ed541a7f79c4945; 0x5322d8e2d081342d; 0x737bcd736180c91f; 0x47bb372e683108a9; 0x7e3ae35f633ce08; 0x7416b8e13721d41e; 0xd676c5858d47b0; 0x52e0d56c890f7f94; 0x2e6c848cf0711432; 0xd047b4913b473b7; 0x595833236f7bab4a; 0x57e8691bb65b10f4; 0x151699e73d3b2cc5; 0x7171fb2ce6e2e73a; 0x4dbe1468e8c8f5bb; 0x2762a3e07d793028; 0x554ad1158c603a6e; 0x44c38ca4bdec0c59; 0x54d9e0c8209e8ced; 0x54f976284742274e; 0x1add3b1e951da100; 0x5a1343e58f2997e5; 0x6e2dc75533ac7a74; 0x3fc024871b5629ac; 0x68d7edde78b23f73; 0x3855fd8dc4fa284; 0x622fcd09ade9a384; 0x2f22e0a0739b58b2; 0x2f6080dd9e7bbbf; 0x2dd29b529a282ac2; 0x6bb929ef56d396d6; 0x90cd5446e11e0e0; 0x46aecf8ba08132ad; 0x237f841d8f7d87c6; 0x633410672bbcebf1; 0x2f074f5d830ef6c1; 0x1cdfd4ebce915919; 0x9346b512128e0dc; 0x5b48fed57b8b71fb; 0x77941c46a5e9dfc6; 0x612d85dee2ffa4ef; 0x1f7d0f1e30707e99; 0x6c723cca690ed61c; 0x330cc087403b8630; 0x2da439e8a71fa72e; 0x649484b1b0de5c33; 0x3b02ce7dda2921e4; 0x7564bc7fac546942; 0x291ac607e61e6c51; 0x75c423cea8318f83; 0x109e335eacb1a125; 0x29acd8c89a3a325; 0x29b4ea03d900ac21; 0x7dd8e3f4a3cb2604; 0xaaa145e7fbc2a83; 0x550ad77276bdf1f; 0x43e25489302dc514; 0x190da3e68d37dc0a; 0x137148451481f0b7; 0x51b154fe22a2ca78; 0x5a511ef1d1ff7072; 0x57b5ba81d2128492; 0xa4af5a4e9d1d54d; 0x11759e88f8645867; 0x6c959a362d52a910; 0x631613ce63b2b8b2; 0x23bd8e8dcf2596c8; 0x7ae17e745961365b; 0x30a031e281a3a821; 0x66ae693294231aac; 0x748b26a23f542bd4; 0x50cb65153169d62e; 0x36001c330df958ff; 0xcd934e602cd4d24; 0x41b45d92ada908a9; 0x12bf0cf53b4a942e; 0x66a178597cf0cbba; 0x76651b08e81e1c03; 0x7d21627cdcbdf789; 0x2162290ea8af669d; 0x25045e202a6b19d6; 0x38827564617af476; 0xdf357fab9344351; 0x2f21893915378ffa; 0x79990b75d51d941b; 0x45c02babb8c2c8b0; 0x6c3b8ccab85edc63; 0x7ee56244ea599941; 0x5ab7c029eadb182b; 0x5e04534246c571cf; 0x1d0db1737045cf57; 0x4ccaed90ecd5539f; 0x5aec94b703f949f6; 0x7a72ef37bf5e3b8e; 0x654503a809c81af1; 0x4d90240929a4865f; 0x7809e81f07f98685; 0x5d0d0410da657ada; 0x563b916264c891ce; 0x65a42bc0c88ee4f6; 0x712746d494cc4f85; 0x2e38a36070d9bdcf; 0x1156cb95c75e07a0; 0x4e794657c74a3ebb; 0x3cf9d668fcc8388e; 0x603a0ab252c19c8; 0x7d2c7507a1980b1a; 0x75fa502b742a6811; 0x5a3e066b91c2a12f; 0xe40c3f8e61516f6; 0x15009aa5dd749456; 0x54451ef0916b10c8; 0x2d9b2d25f754a400; 0x4228c6fa0451e963; 0x7c92635e2a73faf3; 0x309c482cc4aa3ce2; 0x63d0256f87c9828e; 0x29e5e0032055be3d; 0x78ed568134c31443; 0x4c666efa2d5fa0; 0x5d7908397c94ff4b; 0x2bf26c72a679a618; 0x236bbdb221142266; 0x34d8789dcdb20c76; 0x3b8fac7976b799a8; 0x60578f68970a7f3d; 0x498dbda4fa074739; 0x164e7f52f55fe8b2; 0x5755aa1ecb7c2a40; 0x1440a6eaf5e09e34; 0x3d5fdaad11f4c900; 0x1ae4c2b0f4b48a55; 0x69b014c69da45f8b; 0x5a97f52988022370; 0x7ea5ed54191600e8; 0x7470be99bc938eb1; 0x284cb97edace26b5; 0x2b4c4f5448cb2b46; 0x66f0e3084ad9cd; 0x5ce2e155d050b936; 0x7aecfe5ed0588115; 0x6daa079f99128e10; 0x10ce2ce6e27476e2; 0x557b7df326a205a9; 0x30bdf46720df1b09; 0x26d517cc1511380c; 0x45d49d7828c0ca96; 0x2e3c77029446ff08; 0x373747539bb2638; 0x61c8ee6397778d6f; 0x70b492028c00d6cd; 0x174668bf75c78985; 0x6c20b5ca97e0efb2; 0x265b81a950ff5259; 0x6304b39d9cec0925; 0x308b6fc5c50bc87c; 0xab0345496c7d1eb; 0x5bf69d7782cabe6d; 0x356eea73e21ea561; 0x5669cd9bb1da2528; 0x18749393e4644895; 0x309d664442e123bc; 0x79722ca9f80e75ad; 0x570674628ac80a48; 0x7334495856a73e1d; 0x28fbe7497788c350; 0x434420266a921ee5; 0x5ec126a853e250f9; 0x1cacd3e55da1f9ac; 0x74b278ef503177d8; 0x1b654ef05fd1ee80; 0x5ddec1679c02619; 0x2dc1beb019067ddc; 0x3d7ae6cf3496c894; 0x57eecb6f264457cf; 0x2ae0537f6ced3343; 0x380b157897de1f94; 0x4eec256487ffcc5f; 0x63d547fba204ebc8; 0x47bdffde9344fed0; 0xe279856f2c4fa1f; 0x5910a02d3ca8ac0d; 0x6b77885d5212a7cf; 0x6134d5038a5dab68; 0x5ed397ae3c494077; 0xb4e1872f7f9e416; 0x39f9ab61a9320a2d; 0x79d40251ffe9120d; 0xdbaac0ee809d7e; 0x78e6a3225e77cc16; 0x7a77b3978ef0ce7f; 0x16c97740d28c608b; 0x6fb72d323ebd3676; 0x53498decaadb6c0e; 0x637ecedd0aa7103b; 0x35cd2fbb00ef222d; 0x431f4608f7de222; 0x5e9b81ef774ebb47; 0x756a090bb888fd96; 0x23168ba9dd4b4466; 0x43e6433f794fc5dc; 0x2008ef40dfa809fc; 0x1ba1c9a311655f74; 0x4dc667274ba1d4fb; 0x66ded3b5645ea059; 0x1bfc19b88a16e364; 0x4dea0f246ba3cb36; 0x400ec07540d1fe89; 0x3a494dde07042429; 0x5d7d77d9503b1885; 0xb4a3db861dfa220; 0x649e1f8539453371; 0x2e4edb7b2a56fbf8; 0x7c72a4cba99188c; 0x1bae8934370e6a2b; 0x391cf1eade7cfeac; 0x1887527c61d6bf00; 0xbfd59c68007fe48; 0x33545ec13ac09a9a; 0x2dd032917d110ffb; 0x583f66d0e545f17b; 0x6ec0ca28af39e66; 0x67eb12095a307cf9; 0x72c561233a65c4c3; 0x2a47d0ad691a3a4f; 0x55661bde5930cb0; 0x3f1c74647b63474b; 0x6a0041bbab4d79b; 0xefbaeb89f06e385; 0x1ffd011b5f1823b8; 0x128ec7ac42a71483; 0x25fe7e618a7d62a1; 0x4c2c03b1fc150663; 0x24f380664f94e0f4; 0x7e55a3b87e623adf; 0x4d01644145bd54e5; 0x2d4dede89ed7b234; 0x12a1cc628600a5be; 0x12c58d45bba9ca5; 0x5412097874872920; 0x43aea00fa396faf0; 0x2c9d39757a4444c0; 0x1b43ea4c0998b354; 0xbf0533b43596e82; 0x6846f51dbdac2349; 0x5a54430de2b6a207; 0x32f47c8ed26091ae; 0x5699364dea6274f8; 0x57b28043cf5e97ae; 0x3cd080a0cd4effea; 0x2d73083ceae0ec4b; 0x6506ae07fd5c7d0d; 0x2e634723a268c21c; 0x45ee13f989bbd355; 0x572e527d840e88f7; 0x45502ceacc8b04f; 0x6412131d7e39fa14; 0x14d13cd477fb0eb; 0x15319f02874c629e; 0x1793360e2d951cdf; 0x5e436720fc81d51d; 0x1746fe23edca2c70; 0x37adf0776dbb207a; 0xf3c9c712b25d5fa; 0x68539aa523f4cbe6; 0xdcf00d5f4815f76; 0x134060ad18b56df8; 0x7d60f54f54d5214c; 0x36d9a2c77a3aaceb; 0x8cb19aaaadad58f; 0xd79c1c10b30314f; 0x50e4e4cca34b9964; 0x700325f2c7c6e304; 0x15d00c03b80a48a; 0x7ba3be8ff939c297; 0x310a2bc02cfd2bfa; 0x7f956d1cbe1a9f9; 0x377483875a973067; 0x5ecd2022bab3a49c; 0x6ba33e5904464ed0; 0x18186019e1fe6f2; 0x30c030f3333f33f0; 0x1f867818079e6618; 0x3ff0ccfc330ff3; 0x19ff9e];
   [0x5dd5b480f3d2139; 0x2c3fe1f707c9a317; 0x7f2f4840f7f419fd; 0x4699eb381166e654; 0x13a76f42a8106e2a; 0x2f82453f6343ac0a; 0x1f69ee0e2b8f103a; 0x514e1bd1cf5b20e; 0x229a426578d64083; 0xf97e518d56fdd7d; 0x33a54d765c0c2785; 0x721791a14e0457e9; 0x69241e34c81eb08f; 0x44ae6c0aef9d55af; 0x7885ac60c76a0225; 0x39f2cd57cf8631f9; 0x581ece4da4035459; 0x9b7318f15d276ab; 0x6571fce40c399de8; 0x534b94ca65b404ed; 0x23a5395edd87c2c1; 0x7c5de64151eceb9b; 0x54c56e78bab5c4cf; 0x12e12df883d2577f; 0x25b489faaea7c81f; 0x3043a452747a9b66; 0x549512899461217e; 0x4119557b0dfd3360; 0x6e767fba1098b94d; 0x63ff6c44bceef380; 0x73f503ac0ebcfae3; 0x1faa17fc02c19c53; 0x7d4ab3a70375c950; 0xc1adfc8a621b4fe; 0x1f727c92a37add1; 0x39e625d8edc47b27; 0x5bd63b05379b117c; 0xfafc6ae64356d2c; 0x3fcca18895de0bff; 0x578e33f66971224d; 0x4716a65afc6f0087; 0x283e0a936013edab; 0x39230c95a5d6569b; 0x79cd8c76b2da0f78; 0x3533a3391947e8a0; 0x359ebd3531c66e36; 0x1c7f2c0e67db37fe; 0x39d24d3906ce25a8; 0x7bd2d9dcb731b8c0; 0x1d73c3c8f9b541d3; 0x20197ca201b214a4; 0x78ae31671e2def6f; 0x4606e635610aed7d; 0x2d7b0c3d5bec26ad; 0x4c65210643744768; 0x38316947bdbbc3bd; 0x6cde75239126d497; 0x4730cfbece0141e8; 0x5b8122f6d9fe1ddd; 0x7a882e05999747d2; 0x6e5ef9511b0591dd; 0x2207b487a5dcc50f; 0x7402b0f2402d44a3; 0x4ae54fdfd5a0b2eb; 0x3a7a1f334c601aa8; 0x3b70abc2532b8c6d; 0x5256b7262356183d; 0xd933bb7ae47ce8c; 0x7655da79d227bdd6; 0x381364f7266a0ebf; 0x38ad29cf33435cdd; 0x5bba03c97e730661; 0x432d4274c7829485; 0x76cc418d07591c08; 0x33e2600ca8a8eabc; 0x2ff16e110a5eed29; 0x2be307e9de87c180; 0x27269d601856a583; 0x4775c140556e8f23; 0x24e94c733a668724; 0x67db33249fcc4617; 0x7f5f7a45e2c78362; 0x6a3e93168e065994; 0x292a5626a5dd466a; 0x3652e7286b9bd12b; 0x1ad5aae81cb99a84; 0x401c2b616d1e160c; 0x2432052db9d7e297; 0x618894c5f76d2fa7; 0x667410f8e4923023; 0x4883f16deadd997f; 0x61106407c4af8b5e; 0x483a6b713ccdda0f; 0x3274374dd1f1b321; 0x34ae8c71821f773b; 0x1a35a2cd755a382f; 0x21dc950fade9d68; 0x2b66286773c56bf; 0x595fcd10da81005e; 0x6a43723b1f472541; 0xc0a4cd19868efb4; 0x33a17ae1ac0d0836; 0x4efe0cc2c6d04a49; 0x6035766e1f82fd93; 0x2de9b30e76715d35; 0x1c4e2a3f06d462e9; 0x32e013ef3cd80a04; 0x3a265811935eea88; 0x1e042249de173db0; 0x7c283294a0c367d6; 0x6057a871c6fe4cd1; 0x779a8a6e9ba704ff; 0x743b7599f730308a; 0x752aa6bf619409e1; 0x32b5145c9eb41b2f; 0x76e0e2d61199db2c; 0x600bd186f3c3d4d5; 0x52533a07e1644387; 0x764679924bc03461; 0x68432f0c31b945e7; 0x2748c6af8cc88061; 0x625dce5bd5b3a3bb; 0x4759cf2b0b404e66; 0x5e83f48073926e6a; 0x7d8dd3ab79a90a24; 0x40048cbced24e5b1; 0x48175e3d3faa0ad1; 0x66272287e4927584; 0x46461f6bb5dfcd36; 0x4d044ed6eb7ea22a; 0x6af6c86f4ab2826d; 0x3064507aafc78b10; 0x6055abaef7383acc; 0x5f261dad8b909bff; 0x76816419e0070708; 0x58af795be97620f8; 0xcd9e76defc9c8d2; 0x7b6ba965079d1290; 0x6ecfafa115e6cf5b; 0x4ea15274da13178b; 0x709e898d26f9e2a3; 0x6c17eaf7043bf929; 0x6ced54e117a25a44; 0x130602ccbeb14c49; 0x63cd2f14dc570b7; 0x86e0af5693edd85; 0x475202bc863a8999; 0xd7fe15e8f0e5c07; 0x504cc34cf279ef40; 0xfa71fc3a651c80c; 0x323a0b48e33d001a; 0x416d1cc3456ac395; 0x546d0870ea9667d1; 0x443f4a3d07e766f8; 0x9617c471428a05f; 0xbcad44ec0032f20; 0x7d1d8d21ecc42f72; 0x1049fd7ec014a590; 0x7cccc75c401fddc; 0x5b50273320c71ce7; 0x5223ffa14bcaf30c; 0x5d02ed0612c2bad4; 0x1f7e9cc41bc315c6; 0x7063849561939f6b; 0x118c1f14b84a6b66; 0x7f5c867b2ecd8d32; 0x740e139ae2e6dc55; 0x3121649398d0c7d4; 0x114d71de62c54012; 0x6be0ace304e0a4a4; 0x62b45ac3b91916e7; 0x43f4b67cb5111be3; 0x593a300dfde286ef; 0x5fb499aefb66e565; 0x727f9f22c037cf68; 0x2fd0a062ebd91342; 0x2bc087edc298dd92; 0x5f0822b6ac6624b5; 0x13b309741a101315; 0x49d13726acba2258; 0x692bfa01d9b55e43; 0x64fd1a5647830f08; 0x77decb587a4cea3a; 0x56084f77f662147f; 0x7e0886276be99f52; 0x6f539b0a41d38ae9; 0x52b651281d1267c; 0xc11a5d1c0b2492c; 0x30b944be3621c2df; 0x15b7caa93af0da97; 0x210dcf87144525f9; 0x293fee7db796fbd9; 0x1a304e3b4d2ca730; 0x6ddba62367c217ae; 0x679de0956fb50011; 0x3622633668267255; 0x7973f1668d8aaf43; 0x150e79574568ad40; 0x3332d40c7c60e51f; 0x4c8b5588662d42b0; 0x3c761e6f3dfbcc8b; 0x288eedf1e99e98f2; 0x78f270a00d9a2115; 0x1b4e10280a1d8db3; 0x713459ebb75666fe; 0x2ef0f2c67d49b9e2; 0x1127a197caa1edc1; 0x361f9009cf9f912a; 0x7b865c9618b2542a; 0x725b836b3916d127; 0x6d481138ec04e7f6; 0x5e1d3bfa38f54769; 0x7d0eabcd937cd8; 0x54ef83abf55c340e; 0x3f70a2c2b0019c93; 0x5428d62d1f4d348d; 0x526d5ea156c87b7c; 0x608f988488843fdd; 0x74a08059c1e34ca9; 0x179c9e54bedf4240; 0x320f88e01152ef60; 0x44863ad5aea8212c; 0x40f230baee560c59; 0x651f29552adb889b; 0x17670e6dc19ddea0; 0x5c21a448e0b82ebb; 0x3d5cceb362cf8b7b; 0x1a73c3bb4b334247; 0x7c61163a11030144; 0x76386220fd668266; 0x2a4469e408462392; 0xb4fd41740628fe6; 0x45579abbf12a75b1; 0x61401a787a9eae8b; 0x13b1f9aaec1b69f7; 0x2e5e4aecdbe6d38b; 0x18a8b4727333d9c1; 0x57c2a671bcd6597f; 0x3a90cd9cc634490a; 0xc181177f22f77f5; 0x520df98db5f5ca33; 0x6b5c660eb79e8d8e; 0x482ef38535ffd9be; 0x73ec34f47aa38ad; 0x27975afbd199e06d; 0x2d47b507e4f6e076; 0x23460d91fea21395; 0x4bf9a1dac4acf072; 0x3d44899391f49f94; 0x7a71a3b5d3735443; 0x29df2ee41e5dc6e0; 0x17425c54249f433f; 0x6af182eb8e24496f; 0x6caf0f3bdfa98bf1; 0x7d0288204e9c81af; 0x48ef5667f0543942; 0x2cb854007c6bb934; 0x5fd073fa15d3cd10; 0x5411d1f1d7461ed1; 0x2282485039d88f1a; 0x6cbbce86e645b0a9; 0x34ece6d2736a6437; 0x369f3e357451924b; 0x590feb2a4b1ab335; 0x51d09cbac0b1cbb4; 0x564c7baaf1aa5d67; 0x12231e721737549c; 0x73948413b54b53c7; 0x24a368563f82798a; 0x4a55c7ce74d15883; 0x4fcee37504c6b205; 0x4a8b307677800748; 0x9fbb0c086a54b2a; 0x576c70e2ed60fc84; 0x138e6405ebb9a6e9; 0x5fd73c83d8d0690; 0x3f0c33aa8b1cca48; 0x750188f09dca8f0c; 0x45ba0884d423aa18; 0x4653d94c3ae18289; 0xa5e03c172d2c915; 0x75700a2e0b6d1b31; 0x149bf7604974df4c; 0x42fa3eaac201243b; 0x243627bb8eb28dbe; 0x55a85c63e8e7f6b1; 0x5a11454d6a2cb273; 0x80f99eb44d8eeb1; 0x611fbd2207347d90; 0x1412927ab9cedd27; 0x6bc1b337c7576b3; 0x7e90740c940f14e4; 0x1d1789ae26622ca9; 0x525bb2489fc3407c; 0x52c16d617870857c; 0x6fc2103493c5510a; 0x385a90d92dde0354; 0x4a375ccff6593db7; 0x1252c5b2f16de195; 0x2ca8e8ef5ce975d; 0x1067a066cc388e2c; 0x76535f2b9316894c; 0x306e258385880b20; 0x723f1363a705459c; 0x3508d93b86338c11; 0x6afc6537ecb5d6cd; 0x2c82e2440765b21c; 0x54243b58cd0d2ede; 0x3d75647de017e2bc; 0x3ef6ccd174237299; 0x572107271d80b1a1; 0x5c94813180fea454; 0x65eef84792483c50; 0x78798600061e0f; 0x430fc003f03c3300; 0x60679e066787fe07; 0x30cccf3cc00f0ccc; 0x187e6];
   [0x9a18d271f6e7765; 0x3778a5e3efc0fcd6; 0x1b315794ef07d4b; 0x37f02307abf70eb2; 0x474526a3124c48f; 0x4223fb3e433a9a; 0x6a1d59a057d978ed; 0x1e5bc2ed0e03e6e4; 0x4541815256b39c60; 0x3a1efb49b6120265; 0x169c1ed860815a7a; 0x64bfc135cf43dfa4; 0x5d9345ad3d8a360f; 0x71f0c55deeb1678b; 0x74d6331d996a0ef6; 0x5917d6e251fd0e69; 0x25568ce504f5072; 0x6224bbaba5b45d44; 0x53438a7d8c041993; 0x6f80bdae0639bc12; 0x79625576f22d9a92; 0x77f8802e49cccebc; 0x3f81755c45421010; 0x38c8c7f4a6632f6e; 0x7fed1363fa8cb8cc; 0xd67ae1564b4d97d; 0x2ae6fdd6b4e1519e; 0x3b166a28b9690b2d; 0x15f2eeb36b819907; 0x4a5bd527c2791089; 0x15844ab53b095411; 0x7c9468532c57cd5c; 0x45032f399276a67e; 0x4ca111bd8000300; 0x1c1e9d2f68a1e256; 0x29450751a5af200f; 0x107edbc3b5a78062; 0x4f11d54849c85623; 0x4dec7848709d2ec9; 0x1a74554df1f8bdfd; 0x6f7d4da2bd0c38c8; 0x4fa85eb3e2265dea; 0x45942cd8a36f45fb; 0x6703576b2beaa841; 0x7647ab216bc1d4a1; 0x2785f0f945b5da5c; 0x3aac73c66e1290c2; 0x247a78ffe17b97bb; 0x788f791d594fc627; 0x4d4a1631288cebcc; 0x2ef915dfa9770c4; 0x1ce7c0346e0a1e12; 0x754a4a699d606b84; 0xcfd576f4debd66; 0x517d2b83d9311c90; 0x1d397c650c0500eb; 0x5e49268615c76007; 0x6f81677f742b8eca; 0x29cc39948e5ce5db; 0x4632890c53348897; 0x4dce8da124875c3d; 0x4c73c1d37ffc3018; 0x25b49a7358fcb5d1; 0x3cb76808b5f0a992; 0x66b75e68eb27d858; 0x5bcce85b3215ff98; 0x4b6a4fea5b552581; 0x36c9191c2a078cfa; 0x445af6d7f7988a09; 0x3215d230d752d22e; 0x2857fcca4afb8fe1; 0x2e97ad32add28abe; 0x6d58c6e7eb0d685e; 0x485e0ae3cf803ae7; 0x3b9d44a95f6a5fed; 0x724d5fbf9c1c6439; 0x57c2fa6c493b12fd; 0x5e06f5140d0f32; 0x7ba00472ea2f5212; 0x291ea58a0ebc28b3; 0x6bcf7fe7622669f3; 0x5098b940b38e92a8; 0x40585ab0b0a014c4; 0x5996ec27aca87c6b; 0x2304b594e70e2ed1; 0x53a111a9999cbd56; 0x286a2ec0294d35ab; 0x1fddd45832416de1; 0x47c860a41126578c; 0x3efd9fd3a2f8d1f0; 0x46df1eb9c6af6abd; 0x55a945f2e7f94066; 0x1042c4af71d9f9bc; 0x6273b8916a69aa76; 0x56fb26e48deeb02d; 0x4f15a98f7bc60bb6; 0x79015ddeb267fd8d; 0xd12d7bf489b061f; 0x17f088eb5958d839; 0x35c16174aa43dc77; 0x45b3351ad40ed5aa; 0x306d898837dec96d; 0x57a447c4e4548d89; 0x4d2230bef3ef799c; 0x5da6764f109ed317; 0x4a5b2ad7a44b027c; 0x980d8e0ba2e7d1b; 0x1c4ad99008da3e03; 0x329baa642b8fc1f6; 0x4f16cec811da0486; 0x6f390f9b80977549; 0x3767841cb0869a85; 0x5f199316827e8a76; 0x7c1bf0b1b8aff9f9; 0x42d1ae185c846777; 0x145bf58ee6539379; 0x6f344c8aab99a90b; 0x3b1bb7841bbb9e34; 0x6e846a59164b7373; 0x24f9d8d5d7e7cce8; 0x38d08cb180bbf5c8; 0x4bb531eac833f6ad; 0x72d5d80389e1ccbb; 0x5c71432d96d1c548; 0x4a7d1c42b40b1a01; 0x25d3a4ba2366e31a; 0x534544cdfb3624c0; 0x42972141d6bd8287; 0x2172b956180506d3; 0x7616d1f24e855a0f; 0x36c4a7638c47aea2; 0x453db1d5bdb7794; 0x52a2db8dee6b3a6b; 0x178f0897901bd407; 0x252bf9ea3e855a56; 0x72c7f47062027b9b; 0x3ef101954b5c392a; 0x7248243cc9ad7a53; 0x39c1fbbe022b9605; 0x4f86bfbb0267cd2e; 0x40e8be662a2dc1f8; 0x96c0dff2c014504; 0x50fb317670888b58; 0x7cc7e30466b15836; 0x5751a4352ffd15be; 0xf8be6a006ea8c1a; 0x17d5a1c61a805343; 0x2131ee97257fc83f; 0x507739d4b8ebf5a5; 0x3a644d1d9387f7fe; 0x6ba587904bb5dec9; 0x771a8008424ce43e; 0x640fbf2d3f667fb6; 0x1d57d85155cb4a51; 0x106330e86a9b947d; 0x59626f95e71c47b8; 0x3e4a4f25dbc3e619; 0x6dc2309246381bc7; 0x6855003cba10a552; 0x65094680c5249f55; 0x565f9a1de0843fc2; 0x5cab2d1f633aeb4; 0x33450020285d44ae; 0x9a428844fb80d3a; 0x13e058691f669ed6; 0x437950a8f364edd7; 0x306142248eb7314a; 0x329879a1597e3692; 0x15016bd8a681f30c; 0x4e60708d0afee4be; 0x19cf6db37e7f8bb5; 0x3c7209f8d53d2d90; 0x5841a72c6d71aa14; 0x150a37863ce29d54; 0x169025b3e2bc4289; 0x3082d8a886fcc9fb; 0x50f99fc8c6ae5a40; 0x785ed4d458b2e734; 0x69b8cfc543446d02; 0x209ec5b103c756d8; 0x1faaa7895cd3279a; 0x40648fa8d67f3f79; 0x103612788170c68b; 0x599d29bdde6496d4; 0x797486dc63fde20b; 0x4df5b13e4852fffa; 0x1a7e4dfd27c631fe; 0x6565b34b8456a041; 0xa0073c7491b4961; 0x2a670a9cf0f77740; 0x20a1b80512458702; 0x20811202eff9ba1; 0x30c90c6625ec0c0d; 0x423ca09cae6167f4; 0x741da37f5347dfba; 0x4c0a74cdacdd57e8; 0x3b04e62c35e69249; 0x7e32085b217d1ac2; 0x54be31ab9383e010; 0x1dbc475e82f384e0; 0x1fec88304d16bf57; 0x1121c842dda8bd77; 0x32f70dc4820d58be; 0x167874399bb2a1a6; 0x1e95f815810836f3; 0x15a9dbf7949f01d3; 0x4d668bfddacc623f; 0x2ad19fd10ac7576b; 0x50a8b450b9b7f075; 0xa309b40b361111a; 0x8bf064430140db5; 0x4a4127d52c5bf76e; 0x42fb612a687b260b; 0x57614d2396dfa328; 0x4294672073366c82; 0x2594c3c78fcf2d62; 0x60a1f7e270808891; 0x571d7803ba767da7; 0x74d974538e6e21ee; 0x35e6c4837eac548d; 0x409068184c0be9a9; 0x3b1de720e10ae7e5; 0x55c259b7123bf152; 0x1cd6dd298df9e3bd; 0x4020b2fe4b66125c; 0x326e8727786326e0; 0x4b9d0bf2cc4d8123; 0x65f3561aaef4713; 0x284d9f21d989e187; 0x29a7d7a8889d77d6; 0xc1c9be93a9d6a02; 0x21a3cd8d813a9e7a; 0x16acc60002940744; 0x248dd5d59508f1f3; 0xd6a50ee49e11b82; 0x491ade1dee13247a; 0x291183e02098c063; 0x752e9a7e1abafc7f; 0x2601ccf15367f0d2; 0x47accbe316e4b2cf; 0x1fc2afaa277f83a0; 0x1dd9cd091ec265fc; 0x15a58e29d2c1bb8; 0x1bb0c725e48ca9b9; 0x57ae47a8d50feae6; 0x2fae991d8899fbe8; 0x721f2d6f300d49b; 0x2d90558d709c901e; 0x2408dfb6710b29af; 0x27bde66936511579; 0x6355a51526616ceb; 0x513b85eafd59bd2b; 0x40a7dedd21450621; 0x2ec346ebcbddc20c; 0x6714866ccd8d4b28; 0xc17886afd450758; 0x5f26c6d5d6028484; 0xbcf48a7c2dd43b4; 0x72a26c0a602b547b; 0x7f179d8b597589ad; 0x5585848d6b03dd4b; 0x75e86ed84facb201; 0x6a645d52c81b6b8f; 0x44a69865cf243615; 0x25b1cde3dd7b63b2; 0x419effb51bcf416d; 0x508dab1665d8eb5a; 0x6ee24284d5f66fd5; 0x2d2b353b7ea1bd70; 0x2c0411d4e32d7f97; 0xff9497f0077e007; 0x6ddc16b55bf3f24f; 0x13aa21182c3f739e; 0x6dac4f8d4d41ab9f; 0x8c20b139367baea; 0x1f0e15a738f217ab; 0x51602066e0e80df4; 0x2fccc27cd6f160a3; 0xf3a538a848b86c0; 0x3f0e0534da875ebb; 0x4d31a8177554c995; 0x3e05be8f12384643; 0x7469e807a48e1d9b; 0x1961cd1ea4e90434; 0x3c5ee889a94c583f; 0x410c26168e4ebbb4; 0x2dbb9e09961d793c; 0x7458426981689938; 0x1902c1c1f1132c80; 0x6b33b1fd6a261ebd; 0x2092f71485d2d15b; 0x12a0aac9a3e508c9; 0x43097dc1cc09ab7e; 0x10eba738ff1b71d7; 0x43dcace635a1baa9; 0x46fa5e90ca10d141; 0x3489129cdb849201; 0x5d66b775f6f1d284; 0x1530af18461ed1cc; 0x110749c78121f170; 0x3743ff64112f6d3a; 0x71bcb0218144a60; 0xcc1e7ef7ef70188; 0x42445766c8c2579b; 0x457312b31f8d6a88; 0x6d79f88f2286bc24; 0x49705e54f5a09113; 0x11d6841cab542e82; 0x765e8d6f039f5e3a; 0x1f0cff5906f92732; 0x247f6b5d401fc3a7; 0x3ee5898fd5e7593c; 0x466d648d7532683d; 0x661f8661e19ff891; 0x73c0fc3c300cc33c; 0x7807e619f9e7f861; 0x3fcc3cf03fc03ff0; 0x1981fe];
   [0x2305965d02ac6b51; 0x6b2113d1efd5a663; 0x18153a6175867d42; 0x3875f89e79290cc6; 0x5441e6085df9353f; 0x148152401e0a168e; 0x3c40e78547682d41; 0x6806afea94e2f331; 0x61ea467524010fd7; 0x7d7deec435ffefee; 0x4bbb0151b7dbcadb; 0x5706f3eaa66fbbc9; 0x218e7a4697ca4f23; 0x30e8e9ca7df399af; 0x4693ec8d4cfff45d; 0x36743ebd1a738310; 0x100dcdd8c8725e8a; 0x38beb607301775c2; 0x7c7d1eb4c41a2409; 0x7645e1396bf3f089; 0x6b5b0a47b9fbb743; 0x340c37cb803a12be; 0x4e847a2fa2a0a8cb; 0x4b115a592c98ecf3; 0x2c0945ceece539af; 0x5d4fd0800dc267ac; 0x3cb53152d5f52eda; 0x65e1d45bfde70c4c; 0x310ba4b6ef0637eb; 0x5c965d4ea8660d17; 0x37944a09c0929e2d; 0x5cc562c8b1e6cfdc; 0x54ec2abbe96fd63b; 0x294eb550a27ee156; 0x77cbc9482da91d32; 0x1a9189be6e99eb2d; 0x524e47619a12050e; 0x2afdf40460e28c02; 0x1004b16ae647c32f; 0x11399066115dfca0; 0x1816e55125d9800; 0x5dfb4aff42553c95; 0x465a35b9baaa45f5; 0x368bc2089e75d896; 0x37d032f7e2145b3f; 0x6539e4719b531fa8; 0x54df7409707a3e26; 0x606853be1b02afe9; 0x11ba50caf3c78dee; 0x3a34a441c042e3a; 0x73deeacc4e3ff8b9; 0x386dc316a49e8dca; 0x5feaf3f1f1d03b94; 0x269695df017210fa; 0x55b3d8c8b8c57923; 0x44455c5833331fe; 0x2ed05222fd73e062; 0x7ae03dda68df8c74; 0x70c22ade84985614; 0x3ed86f2c26b9efa6; 0x5cca78adc29e593d; 0x537e6c35a9d37e62; 0x6a9154158c7eee99; 0x2a4306e00b32321; 0x75ca08b1df41f0a2; 0x357d7f2d7f3773e7; 0x7f66345b23924500; 0x7b7f18f095311914; 0x3ba78c5d476c87b5; 0x50e4a700ee5f6c64; 0x7dbe8d4354598e1c; 0x55601f967d88e370; 0x62ab5ac62a1a53b3; 0x2bbedc3c9716d671; 0x1c5a117c271cf1b5; 0x55fd9c3166b46629; 0xe58add89fd07990; 0x5816b6d151ebe445; 0x3e9cac86455499db; 0x3d3a9b79d59659a7; 0x5bfd955793b7e8fc; 0x3c493da59a05cb4b; 0x1108d84471656798; 0x17e98d9481c28b4a; 0x466f2818812dbb1; 0x42d2a571481e77c0; 0x594c3dece3292bee; 0x32a63e8dcaec1e84; 0x1dc96a91f71805e8; 0x2332951099d79b68; 0x255b8076dfe20551; 0x72f958cbd965072a; 0x5a76558457412624; 0x37e102d443fca5f8; 0x3c67b732f0844ce; 0x1d5fcb1664b322ca; 0x5c6fec059a05fe4f; 0xb6efcf2d4f5d46b; 0x25af9cbb7278a8cb; 0x3db5f4fe8161ecfe; 0xb57084d78bcbc61; 0x53dfc037e6f909b0; 0x5e518c159fe4040; 0x233ae93515835057; 0x2f3c9fc12d565d95; 0x182b5c6ceb1bc1c; 0x777cba76ee90bb49; 0x3575e327d1d42be6; 0x31c7e6136d72789d; 0x2b2610fca4006f8d; 0xada8173a42d835; 0x23548c2a92cf4407; 0x448939a0bddc411a; 0x3e4f1cac2cf93f29; 0x7f3a6ea4926520b5; 0x421a7d896bd74176; 0x73abd1c9bb7a08da; 0x2efa9368d75dd1c; 0x6c004ca59cfc3ec7; 0x296eac9e27ce171f; 0x4a39407fa639c899; 0x733c54561910e159; 0x349c9b6a2c54feb; 0x395e5da82e7ae65d; 0x476ab24f8bc9c917; 0x2b78246d365023d0; 0x3ae3280cf3432532; 0xf5cf94ca7159b45; 0x5a6517d78841f898; 0xdd93742256effaf; 0x635370cb963ee07a; 0x538de97051182d6d; 0x134aafea03671d4; 0x9a0fa310c1189f2; 0x19a5ded4d136f9e8; 0x713d6c243939b688; 0x1bf598d96b411387; 0x6ae3ad06f3738925; 0x472c03021ba1985b; 0x5824584c69e661ff; 0x79e9c44c612a2aa9; 0x4ac50286764bd9f6; 0x784b92dfcca932af; 0x2b4d795e5cc3c232; 0x684e1aa8ca25b53d; 0x228e164eb38af41f; 0x1b3478b53fbd7dce; 0x2d3f0d8e5d0ce657; 0x54153bc57eff6ecc; 0x48c5de92e5701049; 0x397a1e738e5b1cbd; 0x6a52e22787855222; 0x6b8986c0f9076929; 0x4b23aedd523af8d9; 0x7ff9efdee4515537; 0x6c3fabf44b4f8374; 0x63006b11b6fd0f23; 0x2667a7978dec1132; 0x1d9471a7969f0add; 0x286fa0e79093f67a; 0x6c2444dd1481f2f7; 0x10d57dd468167db8; 0x69448b36a7cfb25d; 0x1dd6f3e9ee91be5c; 0x7bd1d44ea442acc6; 0x21f67bb2aa20a842; 0x5120c40a4d0f5d0d; 0x36e209f95a216d90; 0xf62f37845d84f0e; 0x7f7928494970b59b; 0x2d356b18e5152871; 0x41bcc0852ba30d18; 0x1fe9b419395f59a8; 0x33d23895ad6060dd; 0x2c5772ace2d00ce2; 0x2af030b14213ae24; 0x55a7ada973738a16; 0x2ecc9a06ed2442df; 0x369b300bb35e2586; 0x54ecf260ed273ec; 0x2b05dea91c8b87ff; 0x513b2e568374f68d; 0x56d144507b267d1f; 0x5258b75041b7475f; 0x209d34c95b96b9; 0x293c1e29589d77a0; 0x483a3c6900f51e0f; 0x717719d19f9cc5a7; 0x53107fded957bd47; 0x44fb76694bc15aa1; 0x2c938013eb396f62; 0x1eff499516b25e47; 0x51e664eb1e33f773; 0x5d963bd7a8c61119; 0x4e180e99b6e71b9a; 0xad0aac676e2bab3; 0x8dca8a9c635ddc7; 0x1ba669dffd655b56; 0x5ba2d66033c6da46; 0x305c2e986567ad71; 0x70637b2309ce207; 0xa2a648b26ed7209; 0x708315e12869b874; 0x523dadf58444005b; 0x5461152b5d155c88; 0x1e3d1f4bf4c0d0ca; 0x3916a3a1b612209f; 0x36f683feb7860cc3; 0x14a4427ec2e50eae; 0x3553f1dab5287eb0; 0xbf2e487469e9e39; 0x4158daaa28d4bec; 0xa1f132e82e164fa; 0x4a5523a3359b5b1a; 0x6ae47e664c603237; 0x52fea7d0209a0ef5; 0x7548f4a83ff0ef70; 0x783095a984a0bf05; 0x1aca68d4d02bbc6f; 0x26599cfc31c153af; 0x7ecfa085395eaaea; 0x3e6e6a6673227d4d; 0x398784e6dcfe01bd; 0x695dc2d4723d0559; 0x5a267f6a31d3f860; 0x705ae15fe391dbc5; 0x11f9faa5c0a0856c; 0x724709bd8ff0fcd3; 0x7d570110deaadb6; 0x59941e9ca5c2c9f1; 0xd9b33f650e6609d; 0x136bbdc7ff64e3b0; 0x357f52186ecdc3ff; 0x50c45b435f1674ed; 0x234c1710db624fbf; 0x4c365b563d00a1e6; 0x5612b2be5ec75bdb; 0x2531072aae86ddad; 0x374508fea1de3d51; 0x32710438666a592d; 0x37538cbde3188d15; 0x4c676f33e2dc9ed9; 0x3952398acd131f7e; 0x3f4442819dc69ec2; 0x36c4aabc7a1c8e8c; 0x3b09a99199716293; 0x510f9a05a3461bf9; 0x51e64d7acd4581aa; 0x6c9bf742c0de0261; 0x46c5981f830347cd; 0x191f3238fa1205d9; 0x7ac5cb5d12313a06; 0x4b738d84f8481267; 0x17bfb026d52aa373; 0x715fdf44bb24165d; 0x67cc94ccc4bdaa4b; 0x367f2dacdb6d14; 0x12f23449e675400b; 0x27f50d12fb5b6a90; 0x3e33d72d24cba6c9; 0x205eafa90bfe165b; 0x4bc31c4070fb4eac; 0x58d359cebbfd4bc1; 0x4a0de1187fc88f77; 0x1557394d077f7d4; 0x3a9129de7fe2517d; 0xf8ee75f7c2c2579; 0x4b9408751062723a; 0x1c2c01cc8f1606ef; 0x48f19c1c6baa73f4; 0x6c20fdb05125188e; 0x1bb575c2820b9f73; 0x27f67f7033d7c92b; 0x1decdff8923a5f6d; 0x4e3adf105f715928; 0x77ab5d88ce02845a; 0x3ff801c59473a351; 0x5e739a72dd7dc5e6; 0x9e5168855ddca24; 0x27a416a17fb38a2d; 0x4bc5543cae842c0; 0x2e1d48601c00bbff; 0x66fa4b76f05db4af; 0x488435daa0592ba0; 0x249dff7a73cd7517; 0x6ff71ec29a11a282; 0x28907b7a35fbfca0; 0x3dda104d08a61d4e; 0x6526234a17a25447; 0x69ea0d3e9c84aee4; 0x32f02b567d2c0011; 0x6f7892404ec7b5be; 0x598e511bb95c2b77; 0x6b4058e363c7b288; 0x185b47e367e01bcc; 0x46116833400955ea; 0x74575e33efffb0af; 0x3d625c0db4983a19; 0xff392f7071ea3; 0x29801d785386bf25; 0x30b57c56fc6c076e; 0x5f4eb7ffdbd09e02; 0x4e18363eb59d208f; 0xf079a2e76188d42; 0x7d503357992b42c6; 0x7607776cf6e8e3f1; 0x120257abbcca15a7; 0x220c4f0d25659f9; 0xd36fb3192d3171d; 0x371ca82e14207be9; 0x5712db9c5ffd256d; 0x29917fe1f17e4226; 0x2acce66b2aa4be96; 0x1fffe0678066012b; 0x73f30f000fffcfcc; 0x67f86007e61f; 0x3ffc3ffcc3ffc30; 0x1fffe0];
   [0x36f6cdfe4ccace07; 0xff07d9ae97ee36; 0x4558645dfcb4ca07; 0x509771e58fdfba03; 0x2313a84940eeaf5b; 0xca34ae649b8242a; 0x8507720660aeb56; 0x692eb1c5f99dec8e; 0x7d7dcad748133d17; 0x7e53fd7e308d023b; 0x2ac31efa6eae4696; 0x50246a25e4307064; 0x79845bc4a80156f2; 0x2db271290d3e728f; 0x54e26cdf94fa228b; 0x81dc5d2940c17fc; 0xb88b2bf99398f07; 0x1cc60e3fdd9ee33d; 0x7dd0f752ed964ca; 0x304f08e4253de736; 0x5bf35b4cac2e860c; 0x11771d6b23361e05; 0x6a1f56b48eb61409; 0x5c5e76e77a65ad40; 0x33db5843dce59830; 0x74204936d9be32d; 0x52c15bf290c56add; 0x1809ade041e60ebc; 0x718479a3b4967972; 0x74897af2d7875470; 0x2c8dcda01914f1f5; 0x5677163494a099fb; 0x22a07a24072f55d3; 0x334b4b123d1c911e; 0x20649353b27914b0; 0x564b653677dbda25; 0x2266db3d6185a43b; 0x5ed9d709b496797a; 0x2e6f50f0befca40f; 0x400b300190073a0d; 0x2eeef745eae06bc; 0x2e9572f49a407d11; 0xf847bd55aac9cdd; 0x4e859967a10aa003; 0x2b3181800a6e2090; 0x325fd15a5195d609; 0x198b809b93a6ac49; 0x5dfdaef53ea03775; 0x56cf2a73d034a4b; 0xbc5d873e359d52f; 0x53b541ec072907e8; 0x36081529f71c12a0; 0x3130efcf52909e85; 0x84736b81df508a6; 0x5d7db115ab4e01d4; 0x62c874784fadac18; 0x5970b649338bea6e; 0x54f055adeb3959d; 0x57b177746f463f23; 0x76efb4466d61a788; 0x7885e92d81440f48; 0x48a3b12a51b537c8; 0x12ca18f129b8dd0c; 0x57fdf8ce6a5cfe6c; 0x109fa6ca975f2526; 0x12950f2cc7d06aa2; 0x16d9269808b741f0; 0x2c4b18eec3fe5e6a; 0x79c14e950c27b421; 0x7d09210e68636914; 0x304060908e340574; 0x2b24b0dc8ba49d79; 0x40d562dbb7de250a; 0x36c38d2dd78a4c14; 0x4ecc0322629dd79f; 0x1f5f8a34218598bb; 0x1acc1c66c700f60c; 0x41b2cc65b235b81; 0x38d0cbf2df5b28a9; 0x6b0646a1a4fe4d5e; 0x34c411b55fbbbd31; 0x1045151bce045fea; 0x1427d50d32f74f44; 0x611978a9854ef788; 0x596884fb30e9294e; 0x7b87241c2f2e16d5; 0x2c0f5c00d48a5323; 0x1bf63ce76ed0df53; 0x588e1f3258b94dee; 0x66822bf85335e693; 0x451d0b884f371cf3; 0x2bdcf0bae76bbeb; 0x29604d5af1fb6049; 0x7ddfd620e390001e; 0x5b97c2e86868faad; 0x4b54e552342e3b85; 0x4396fcf817f27846; 0x6ace0bbc75cd8ca7; 0x691072791ba64965; 0x10f1a776ac7af322; 0xb81b6ad85d0a880; 0x264c422c8febfcdc; 0x3b6fd8f383fd99ad; 0x75fd98922c5c541; 0x7ba9d766924c63df; 0x111b466e8b7cddea; 0x6782f2d1fdc3c2c; 0x25b95b5d66a8448b; 0x6bac4c99ed9525cc; 0x5336a0e1e959a0ff; 0x689aadb788a72c56; 0x4bd84b0511af0743; 0x3f2650be6d1d7704; 0x1858cc836d888b6; 0x3392b253f3f7815d; 0x3fe8e117fb280c0d; 0x36881092a9fe6209; 0x33c170c8b0deabac; 0x724babb7def5cb2b; 0x1469944fdd5f8ef8; 0x177339a3397f718c; 0x1e6a44cf62e9afae; 0x41c41420991ed597; 0x25a010d7a74260f0; 0x63c2585f0c02165e; 0x108011dfeaf7b424; 0x95879cf2e1ad06; 0x7519c9f997696f8e; 0x4b3332dc3d7dc3bd; 0x3a4cbfc90ef60328; 0x2724a36e3badcf75; 0x4e0ca0353ca5118a; 0x1cf0579ff0dcb08; 0x2b7f01c4b34ffd07; 0x3fe5a0ed1490a504; 0x6a701b92237d9148; 0x21e68946e8ea8627; 0x636534e4c64905df; 0x2fb4b6bec24b560f; 0x49b75bb4686f3b89; 0x5639b4673580b750; 0x76051716b3dadcae; 0x695629759be54ab3; 0x8a8110f65edccf4; 0x2b6830514c7328a6; 0x79196d26e2c887b5; 0x6133cab2c7a5f393; 0x27f2da38fdac1a0a; 0x6570c2f7aba0645b; 0x1ae32c9ae5f94251; 0x1cd396008f98d3a6; 0x34bbb94d25ce779f; 0x8f7822c08454828; 0x417de183cf8ab36b; 0x3ba1ef05b59f4110; 0x334ba3e4a33dda09; 0x3e711613ed3d395d; 0x3bdc1ea36ca35e6c; 0x2b1feb44db6decd; 0x684088135b2bb65; 0x301294b8f57354fb; 0x69326425347b1310; 0x5c13db47e4b43926; 0x3b4e875cd9072ad; 0x51872fbb599e9db2; 0x452eff696d626b9a; 0x630797f17309c761; 0x60456092d6e9a3e5; 0x4efe85f15ad49dc8; 0x5b194228a919afbd; 0x1b1086edd02541fa; 0x2d35b969960cb7bc; 0x41802e6c382c0de1; 0x5f90e55e669a0386; 0x612ff0041ea4d6f8; 0x1e3563152dff0ab0; 0x6f17054069764ee0; 0x72b71eff9b325296; 0x2539fd84f092fd54; 0x2c10fdede169d6f9; 0x4bb9895e8e5b96b6; 0x39c98cad9571ffff; 0x1ca18b46c20646; 0x182663d9cbeeaf0; 0x30d9199e8d75a1d0; 0x5c2d16ec18d04305; 0x47b7ef99e8ae784b; 0x6215b0e47aca62b0; 0x7dee0f6e42f78424; 0x783a7cf3f6bf03e7; 0x43da6236c35a72ba; 0x117bf711a0669cef; 0x365c5d5257c53e10; 0x374c86ada4025633; 0x2b9c7278d2800110; 0x6cc62403caacb00d; 0x6147c220339ccfb; 0x5a50027f044010b5; 0x55fc3be28b06f359; 0x149f842fb450fee6; 0x67605da194bb6d72; 0xa63b2fa672e0aef; 0xa376b0008413204; 0x246eabbc6b03156b; 0x71b3a69b3dc16813; 0x2fed3b7d8f5d8659; 0x51bebaffe6eaa6e3; 0x14715b78034378a4; 0x6cd29f0ff5dbb57b; 0x46c172e4ca04b4fa; 0x46864de23a1ae98d; 0x79b1c3d76aad25dd; 0x6cc457824a5460b9; 0x7dbee8019e33bdd9; 0x116875bfc91f2cd; 0x20e4d8ef7d7f9d95; 0x53eafa12b6d89665; 0x69578364c4a9c0e2; 0xe106decd62c95c2; 0x6e5f6d72d971a306; 0x6cb3bddaa3a31cc0; 0x59b52b701207c439; 0x5758c48a4747e86b; 0x443cf9969489f0f4; 0x3f1f03144198e3a5; 0x664fc38f17543191; 0x75544aabffa860ee; 0x7d731a469d9d4bed; 0x1bfb28fdfa2b36cf; 0xb1d44e5ac1bd54c; 0x4fb3ced8efebbf53; 0x4c44da808bad3f17; 0x596e641446c6848e; 0x1f742101ec5c0a6f; 0x506694307ac83e8e; 0x19f1fa9c10e75847; 0x56c6bac79ad36966; 0x15f2b304a03bd0af; 0x3fdd67e476a3d0f6; 0x7a36ec122e6f5a87; 0x168f61d6aaebe2e3; 0x35ec7dfe281cbbf3; 0x528d4b535dc06ef5; 0x6aebf07d30e1859; 0x65ce7202ae6294ed; 0xeecfa5315010b28; 0x48e7645f6714e711; 0x17446e2d43fa5d11; 0x3f264708e27fdbf6; 0x57293ae18bdcef72; 0x5f996543c8f67d3c; 0x4cc41a35759bb68; 0x506f93b22731f422; 0x34f64c32ad4f258b; 0x3fd8d13756f33904; 0x6834e68b941c2ab2; 0x4da08a253c58b494; 0x2a3b7ea6d32f4d96; 0x13f77bdc62a993ed; 0x48aacaf36c2ca4c9; 0x267146e0e991d177; 0x6528ccf5c6f4dea6; 0x775e7fc21f312201; 0x12757a6aad06f2b0; 0x726be67be27fd955; 0x64792333055f0f19; 0x1040810b208d2a8b; 0x3fea5e51757fda23; 0x610b7e246a4aff53; 0x6dc1b17154748a93; 0x3119e9df581cca2a; 0x2f8d60d101b12f97; 0x578f782156ad8c5; 0x78ce6e1c1672d076; 0x3c38750a3965d880; 0x664e171d0c7778f8; 0x740f89718bad6d48; 0x722fbfebd97146de; 0x2505520446ca326c; 0x6b86c7c2c6ab9889; 0x1ac5efbd8f598fea; 0x14f1080a4a8198df; 0x7ecc6146bf7c0473; 0x3a8dade00590c8a6; 0x32171e8ec1f4e47c; 0x330f1e34ce932473; 0x701fd98b67cd5e4; 0x1d6f5cf951ec699d; 0x3a4ee39e8ceb1497; 0x73806fad2814049f; 0x2eec725832b1c7cc; 0x3c6670e358e7568a; 0x3133812bbf688005; 0x1b0da58a3aa85105; 0x1a3a7ddd6df76676; 0x4044b2177e81fd3a; 0x4ad60955d46d35c0; 0x383e511d816961da; 0x38398f2ae294e73e; 0x4c1f87b87fa0d630; 0x2498d88d50b85310; 0xcfd5a7e6a2d0244; 0x32d55f03d5aa85c8; 0x484ac5c18ca52d27; 0x615526e815eb92da; 0x5893842cdebf812; 0x46c9c8caab614ec7; 0x16b560288ef52484; 0x4e00578174946740; 0x6113d7e5d117697c; 0x10e18ac85a5d933f; 0x7cf6076320eb14f3; 0x1382fb5e8de826b3; 0x67f98078001e0753; 0x30cf33f3c333cc00; 0x1e0606001999806; 0x30cf3c33c3fc03c0; 0x1ffe18];
   [0x5a0729f489115793; 0x40249098d8eaf626; 0x7fe7986e571b4849; 0xcfb24a53bbee68d; 0x3eb052172e7d77e8; 0x3b7f10efeaf8bd2d; 0x40fe03202b0be78b; 0x1e237101a133218f; 0x74fedee448cef66a; 0x2d7205d6d5b44682; 0x7661f80dd59b7d57; 0x53fd1bcd52423ccc; 0x79b010b1faef3f8f; 0x37c5843711b97091; 0x6d4bb1f21641fdd4; 0x19445ff6416f9a20; 0x5270d298c0f1a583; 0x21fdbe53f5082051; 0x2925c1754db58108; 0x156b23e6eb17177; 0x21217a6bc8538aa6; 0x28414d35df28741e; 0x6d122c515ae5e70d; 0x3b4d84e1712384cd; 0x776690e1aef4b951; 0x456ca2a63b533c6f; 0x6be6dad05b3d6983; 0x6f96f6b5af31980f; 0x4682669226504be3; 0x6798626910e9d7d8; 0x21b18f2ca36fe493; 0x787d60aa1aed61f5; 0x4015efce496b1ddd; 0x2f0c86111d232d87; 0x7b185a824820700d; 0x6927e9500e7d23ba; 0x2d762227897123f1; 0x2a53967811b2f3a8; 0x3fa5f38bbd878e61; 0x18f4307dec1d5412; 0x7b0dd04e51cf3caf; 0x5ad2d01bf577b098; 0x30394df784edbe94; 0x73ea8174390c48b1; 0x4db3952bd23d7511; 0x42ea0f2b0eae2142; 0x12f831a90265b775; 0x3bdd5edda574632a; 0x43f85827f23c4074; 0x5923925349d3eaf0; 0x15c91ccddc4aa637; 0xec968b7714e9fc3; 0x112318bc4a22a3b7; 0x35d40d8da7750fae; 0x1e9e20670f93bfbf; 0x21865ba752451592; 0x13bee68f392eb91e; 0x1452ce2621131fc2; 0x16ffc32cd27a0756; 0x4a385aaffd38f37a; 0x2c93b640d4fcf7c7; 0x787c76f886eab4d; 0x38205ba68d380045; 0x27e63e0af1a1c129; 0x78604ddb3c7542e2; 0x1958ddc32d53a73; 0x66d16f3eacd225fe; 0x4edb9607d4f22318; 0x7f669bcdbeea8897; 0x4b7b72f3ec50b7de; 0x64a9d4da12426a3d; 0x655410722c9c371c; 0x38984eb765f79580; 0x3de76e9a4d0b2dec; 0x51d7ac7bffa15236; 0x44195f93fbf17a38; 0x5424c13c2d7140f5; 0x8fe0255bdcb5db; 0x171a9b36dd9880ed; 0x8fb57cecf245a0f; 0x232eea30d2665326; 0x515df10e5a522cba; 0x2ab67ce0a0b22968; 0x45435e8878b6539f; 0x7d04c80ed9dfe7fe; 0x632425042bcf8f62; 0x785e5fec3f207e91; 0x2ddc3f0bebc03d40; 0x399c2f8cf5900ad9; 0x74b5b797e5ac6c31; 0x595f384fefd310af; 0x76cce2e0c485551c; 0x6b894a737943e0dd; 0x3348c8c2d186c416; 0x35df468c56ad424; 0x39038d24d7cbf772; 0x794794d1ca9a8616; 0x2edeb954f10057c3; 0x7b911382e3c27020; 0x3c7030de5d02d728; 0x5bc6892865e02500; 0x440b29969f37ebc3; 0xbd5285fea4779d6; 0xfd3111ecd4e9adc; 0x254bd3df39664dae; 0x722f34d6dec6d97; 0x1cb300008e0fa6c1; 0x1500dd9003c76b7; 0x75fc29301052ea22; 0x691dbf9faae25417; 0x1eaa2e35c7c6f02e; 0x3ae1160acd603b9f; 0x2a1f9f3ac792f75; 0x79482e99dc29fd7e; 0x530d4130932ce1fd; 0x61a63eda05cdc5e; 0x11777b039e9a9de2; 0x5c349dc2fe0ac085; 0x6277199b511acd68; 0x29ca476b9e003fe4; 0x6a54e685a5a9a60b; 0x12ca4fe24344846b; 0x2de6a6de7b03f80d; 0x5ab383e9e1a2e9a4; 0x735dd9364df8c8e1; 0x388b2cc5b150dc5c; 0x14a5922588709c9c; 0x4053461a46e75402; 0x4cec5c7ab3311415; 0x3147abd961739244; 0x307f0e2db9ab645; 0x69837bcbb807f833; 0x2608304b165565ff; 0x3fa760849e25f084; 0x1c4eba205ac58e9e; 0x7ca65bd6e5447369; 0x245599769210a53e; 0x2632069a64f432b2; 0x784802f1796729b7; 0xb74d83e43f5b47b; 0x65c7e33279811a1b; 0x409fa9035f24e1f2; 0xeca2669bdf74126; 0x13cdcbfa766154a3; 0x6bd91a4013be7d19; 0x1621ff92ef3cb288; 0x333280007557101b; 0x3bf695001218368a; 0x3a3ee0a3b18d100e; 0x5b0b350fb510c38; 0x6be38f9f8967b47a; 0x6d7f2de9e1245f0d; 0x78d5bc88fb0424eb; 0x4c41302cf7590f44; 0x60e21f4f23066514; 0x5049ab071c303217; 0x43f9a6378b87495c; 0x143b364b646bbf02; 0x5ee5f80e89302f1f; 0x266b2199c43200b0; 0x47cad67e4a45d806; 0x1a465ad7f6f926e4; 0x32570a32230a2d0b; 0xc9e20625f45e160; 0x5b147d3c3ef4c9e7; 0x23a05f6c4d655c6c; 0x2cf3915b3be15853; 0x212ba54e95774200; 0x7b9acf211bc5a08e; 0x374134944b47267f; 0x5cbb587a85c07acf; 0x271de9b4b8ede986; 0xa6c7f1f8edbf2e9; 0x3adb6e6f8fb2e149; 0x5e67c4c40a89b402; 0x7d04c3824ee364d0; 0x1e429aa570394320; 0x27148e40e6f5aa03; 0x7f6c4156f8f99492; 0x694b20a5b603b44a; 0x2c7f725ed6986528; 0x1fa42ccc936f9b5a; 0x67e37fea6a5e9c8b; 0x616979249f6a9d1e; 0x7b1a33085dcbc24b; 0x76ae5ff31a919b14; 0x8757b158114fcc1; 0x3e5185366e6e6642; 0x6bc63d10217d608a; 0x7c839e7c4cf2550d; 0x1be6e1ce16eeb2d6; 0x2bfc500a95f2cedc; 0x1d615532c14ae1c9; 0x1e10dc692685562a; 0x1be2763824ecd459; 0x52c9db56149bbe05; 0x183b020aedcfedd3; 0x9c60b818714429c; 0x68a7c2c8e1d0f511; 0x7cf62de34357c01b; 0xc167e5e8df175dc; 0x198bce610bbeab2a; 0x1b69ccd63cd8f31b; 0x5de92fd4bc41280a; 0x1a2c59836938d23d; 0x54693109cbfa4ac6; 0x5e8afe78f3b1b9c6; 0x2aa48194667d17ba; 0x4cdd02d5a05294c9; 0x7a8add3c451bfb0e; 0x2c1e63005b447afd; 0x2f3cecd2d4125b6c; 0x62c70574bc374756; 0x4929440412650746; 0x345bc9b933f38b30; 0x246300b140502e8d; 0x382b77c220718c50; 0x5253d76dd5d822b7; 0x2045f625187c46b2; 0x19003d85e53d0c55; 0x3f0b3c74d4d0669f; 0x55525c3ea4465d63; 0x1cf2e9ffbffb7968; 0x666f8de2d385c52e; 0x68d0a9aa960d1318; 0x162fbae0b780ca71; 0x7e86ece08a1746d8; 0x66ece5b6bafe45a6; 0x31900afdfd9d7ba3; 0x2df8f01434d9a5b8; 0x71f68b143d9b9409; 0x3d7238f8b19b37cf; 0x7013e515252ab0e7; 0x5f4da7ed6c4793e4; 0x7d1cf42ad8fef4d0; 0x12c71b009fe99eb5; 0x49d2bd5595058718; 0x725b066fd55ecd65; 0x256e2f294ef9da6f; 0x5e8f29013c674443; 0x93e8ee959fe8e6a; 0x28608da8592dbe3e; 0x11b85bd825e70130; 0x7ac3683200e04af3; 0x4d7e3d7a20b50a0c; 0x137375a2390b61e8; 0x559a177df15a97cb; 0x6d308885eb29d688; 0x2d87c86081a749c0; 0x57fa9dcc72e94e1; 0x690c38936cff452b; 0x50d3b300e8c46150; 0xb928c83e65fa775; 0x37229a77d03e7ff9; 0x1f3dbbfd9b561f9a; 0x4dd330c3946790f; 0x6d45d9ca196aec1f; 0x4b3735d8c6f6f465; 0x3b8e0548712e582a; 0x3c51610f4e7c9c07; 0x6f2d1fa87c5b36b2; 0x2940654bbc450a34; 0x5408813678cd9cf3; 0x4c12e380450c25cf; 0x32ccdbb72aadcd49; 0x5ecb7a6e72d95ad7; 0x43ade641142886af; 0x65be521cece3d9d; 0x5a009d1fa8d268f; 0x74aa15f8d25bcbe1; 0x445d615b73332229; 0x29977b166d14a95b; 0x20aae0b8999e9766; 0x67279c205c3dded4; 0x158827d36311bd6; 0x2a19a9e14bd3525e; 0x77b7dfe2f592e9e9; 0x1ef5c07e0f8e0032; 0x4e178c6cd55ab8bd; 0x7dcbe0888da7d74f; 0x168c6d6e4fb35e1e; 0x3212f345415cd7ab; 0x557e9f2976a9f7a; 0x1420558d321abf49; 0x63f0e9b6ec8cf09e; 0x14b2cf9844d75dcb; 0x3f4125ebbe01daa8; 0x2e67433da5bbf0c; 0x18561b4e84f71a2a; 0x72678e7f51eea075; 0x7b32ac40e9a5a196; 0x2d14be65a46fe9fd; 0x52ad397667387185; 0x4f7a613b0c53770f; 0x36e2d57fa01b970c; 0x675ba3bfd7e95e8b; 0x46ce3652230b1da7; 0x66a41fbfa475559f; 0x6b19c2865bc9d66; 0x4f28ef640689fc07; 0xd66efa8d71d41df; 0x735d3aac9d63e607; 0x25cf832fb238fb32; 0x7e7e1e8e8836acb1; 0x57e56cbece7a590e; 0x3a122c1e0516729e; 0x5105694e7a558f86; 0x46156b25236a0456; 0x19279596e497139f; 0x76968e1c44f19fe; 0x3aa3020bd1afbca3; 0x6d9027e172380a7d; 0x4a2451c8cc4cf47a; 0x7fe7fe781e7e0668; 0x4ff03cc33cf0cfc0; 0x1e619e06001f9819; 0x4f30c00c00ccf3ff; 0x199e7];
   [0xd92bf2645d3d439; 0x75c2cefde7a9dbf1; 0x532cd58e8b75125c; 0x2ac81f999cdfe92c; 0x49d6e56acbf2c4dd; 0x11e88531c3d38ea3; 0x3a5bc982f1aee666; 0x152c80b1d126a2d8; 0x5984524b5b117bd8; 0x29d37f8f575e4cc2; 0x17d1bb41a4b30c5a; 0x395d6bd05a768f3b; 0x6cfa1ce99519c163; 0x401067ca3aedf61d; 0x5b54468cc5f06ea9; 0x4eeae706252c99a7; 0x87d05a7e44413e6; 0x2888d9489a45193; 0x57488094bf931814; 0x7dc0c77a504dddbf; 0x2224a1b8e1bec1e3; 0x1626b4768d914279; 0x364db9b719fc7cb1; 0x5aaf03179d81c22c; 0x1df699a63f6a94ff; 0x4c25a26e898860ae; 0x5cdd1110548b0573; 0x75e9796782c10145; 0x6d54dc68b56da27; 0x79b58e5fa88ba2c3; 0x199efa27502b44b7; 0x72df6c19c8b6501a; 0x26e6066c8a9ef3d1; 0x53f487bac09dbbea; 0x52fa26341e411c4c; 0x11bbadcb549033d5; 0x622a81febb713f31; 0x2407e64a8c857d09; 0x6f21067caed80f7d; 0x2819b83ee3dfe916; 0x18f84dd65b486c74; 0x2507e9aa37c09e49; 0x51c83e623d22686d; 0x4a04ebce18dccb0d; 0x36b34ab003ad4f95; 0x103200470b3edd8; 0x22ae427b1538f780; 0x2318bd18d48535ea; 0x39ce2346eb206e1; 0x7a38e6b26ae33bfd; 0x54ff137bdb2c4362; 0x548a82714d2888c; 0x7c026613e0e3f08b; 0xef0fc79ab32c85c; 0x72acbaf1d52bd3f; 0x23eb029136271d18; 0x687cb879a2abdffd; 0x32a1158546795435; 0x56d4b413f00656e2; 0x50489672251adb0; 0x354a493422c1af69; 0x522a79bf9919cad2; 0x4c5c91f9f913a207; 0x782a3e8a1da629e1; 0x6a8ced0fc5dc1632; 0x158842dc4ee04ddd; 0x55fe08b6d91c8afa; 0x1cd866479d1aa32f; 0x3ae7dcb31b9466e1; 0x3fc7311aa8ce4f3b; 0x1930fe537aafbca2; 0x381410dc706a2d10; 0x42e24c0e12037a41; 0x716eca86c22982ed; 0x727ea5477e2fa4b; 0x4814aed845fcff25; 0x1b85e2bd30a1cb03; 0x560d179e7c1eb43; 0x690b2e4ef851018; 0x36bb8f371d1fdf42; 0x48a66f324db2e999; 0x13f47071e651b27d; 0x3d74b871654e2398; 0x2e5f1909e8a552d7; 0x6012b5af68acd53b; 0x2340693a4b959b9b; 0x1f92423d44c3ddb3; 0x1db3ec87b6227e98; 0x72b22675893b83b9; 0x3dc899b1561ff360; 0x53fc8ae4e4c1e8c2; 0x80e434afad1948e; 0x24818b98ae925cff; 0x10727f22b5412faa; 0xa1c73138a48f416; 0x5781b14ad6451316; 0x4dbf7b01b85ebc1b; 0x7ed99ff25559cbf; 0x707de49629ae0f1d; 0xde9ac3c73bd8131; 0x14d395af05876874; 0x4ec47257d458b656; 0x1f47df78f0004635; 0x5956b751da749059; 0x31eee4f4959e52b; 0x40faf7ee70f18ad7; 0x36f750196c6e7e54; 0x2ba22bbc46d837bb; 0x7aedfe0a9abcbc8e; 0x667daf6f44c20f72; 0x4725c7e04ca257cf; 0xdcc0826672d8eac; 0x6c06e70f209f8958; 0x5cd204e7ec9eb3c; 0x5ba785781159c906; 0x5205ccfea94df88d; 0x3df1696947703a6; 0x5c800ce1fd7eb474; 0x634a97f0a034be6; 0x72640dafde37435c; 0x132cdda2a2a9fd24; 0x669cf120a6c0e126; 0x2ec8cba77b7b6f08; 0x759a968e6d6ce80f; 0x450ce9a3aa1082f4; 0x9d8cb8080ffc644; 0x6bdc5b5384ed0bd7; 0x46b6fb8133c373d0; 0x7189b2644d4b1bb8; 0x92b41fc2bb9d5d0; 0x76863b3796569ed2; 0x231a5883eb752b15; 0x46b28e0540c87ca5; 0x5bc4d16702a7b10f; 0x1dc21c4809363f5e; 0x2655f4e46997f921; 0x195f2be776022057; 0x3d785031ce162d5a; 0x75cb649b3506a95a; 0x33a66636c4240b14; 0x6a7c9d01331c2450; 0x60a1a47c5454f877; 0x59c5aa72822189fc; 0x17a3a8d35bec45ba; 0x1e87edb2746767e5; 0x1d0a7a2608edc694; 0x2d7c0c289909033e; 0x27de8a7ce241908; 0x1ab901772ed72a8f; 0x2b09dc697f6946fe; 0x3d4986a247effeea; 0x4449cd87774cb2b5; 0x2824aab0106714ab; 0x6deb4878d2bf55de; 0x6a816442c16c2157; 0xda9172cc9bbbd7c; 0x455e606c673e8ec2; 0x41a7013c3c92c8d; 0x4858c1f114f23c66; 0x20daa0f351ef5ed; 0x78328077a457ff3f; 0x52c5c9fcedb22248; 0x32194f1d097844b5; 0x6a5f0ee581e64b4b; 0x185e28a2a12d5bac; 0x2ea5fe16fd2f4a47; 0x29455ce8e55d2ef8; 0x255bacd3a32ccc9d; 0x321684436ab8657c; 0x36c36f48bb6ce133; 0x1d28fe1535ce9a76; 0xd78e89ce1b406ab; 0x68538f9d741754bb; 0x42f5d2446230373d; 0xb37c3ee7bb2f0ba; 0x56f7f8059c34c710; 0x55015e4b996192f2; 0xff051c8eaebf4fd; 0x4a40bb6959c74f7c; 0x39a76c50fe1e7475; 0x7439a87e72af9048; 0x7d329646ececbdee; 0x59a4aa047ac22897; 0x562ac79e56ed43e0; 0x3cf49bf1c48d9d30; 0x3ee9268a5e16073c; 0x3167cecc50a763bd; 0x524520526276bbb4; 0x5e3c317976f950c3; 0x389855c6bcaddb3d; 0x2d3f7070a55a5eeb; 0x428cb1cd1d0ed231; 0x25b4d59fa76e9f36; 0x4460716b27d5f04a; 0x6d8a734672ffbef5; 0x416495073d71a5d6; 0x44012be27e34f1de; 0x49d77d453b0f6be6; 0x7d974e47b2d92386; 0x64d0f12b64b97afc; 0x19b0503441b3d1e2; 0x417c5c436ae4d767; 0x16da61eee119a27c; 0x4b96f13b807fc783; 0x4b07370f9401f2c7; 0x2b0b8fa48b34453b; 0xd0fa20dd291177a; 0x12d97d86f4ab774e; 0x538009e4b18ebdd6; 0x773d05a9ef2fe36d; 0x7f4ad1a383086439; 0x5e158b5ec919fd4d; 0x7a09263db9bf3989; 0x467587476f3c7369; 0x3b4f189c304fab5b; 0x66ce25d82ae6abf9; 0x48bf7bf73432b945; 0x2c3e92dfd689c3c1; 0xd4b094364506ded; 0x3b7b7f662375e57f; 0x7d2983e085455e7b; 0x2cc2a5f78d7fa165; 0x2212bd88cd11c311; 0xc4619becd3f2ae5; 0x23263ed7c02d8758; 0x60246662bdb706e0; 0x12ecab74f6c89e; 0x5c0b79bb86f1946; 0x193dad85262d75e5; 0x7a6f5a276a51d7c4; 0x6a1747fbbf8134ca; 0x40490607d2b94b42; 0xc1fbc8f22e2df0f; 0x52c80864d912d93e; 0x2f968cc5ac3e89fb; 0x75a77fefda303a8d; 0xe3159940e437775; 0x44225a966a379cf1; 0x6bc86e73f68c57c1; 0x216112f594a3c5b1; 0x86e4d1c1991aee1; 0x64a4c9597fcc5ea9; 0x13c2133306a33268; 0x733f7c26e74477c1; 0x4e5e68986bc93bc4; 0x15af97ec9152fb67; 0x29c6502eb41a23c5; 0x61f047a320b655bc; 0x361eee05532dad59; 0x55aff8f5a08b02be; 0x37a5c4b8eb694f79; 0xf1f1f79d3b496bc; 0x2e3a95a252a39336; 0x514d49cfdf2fc857; 0x47496634bb162fdd; 0x26a27fb8a0e2bdb8; 0x58243de94f47a3a1; 0x61e8b5c781551328; 0x6a4a27f691a5a830; 0x700f20282d4516da; 0x649ac5004159ad44; 0x1a5aa4b02d47ff5a; 0x645cd57f25dc3785; 0x7b5993678aa52ddc; 0x39b5f2aa7d34974b; 0x74b50bd28bce5728; 0x3f0b8b4c7039a296; 0x314d3d096075a4c1; 0x3d1706d8333df740; 0x6d186e17cb033b4f; 0x1d990365f7931edd; 0x24b3cbe39e432c8e; 0x53b5dbc8d180af69; 0x6912e24efcbb4338; 0x69c165b5e80aead9; 0x5b85b14637fefd3; 0x63b5e4d27f8802a3; 0x6cd2590c3faa04a; 0x4217b34505ac1293; 0x4f17f665558e013a; 0x7eec19b447f2787a; 0x1c022cc24a8d2eb4; 0xf41201c4ee43bf6; 0x1f1c08ba870f701; 0x568e5cd7974ca600; 0x4492f50bdf62b3e4; 0x3badc483489a5476; 0x536dc98be1324a76; 0x462f47e9084ca032; 0x4f11c0bcc29799f7; 0x700f9baad3ef4d45; 0x188e0d112c2883e6; 0x25972ee61f8adf23; 0x4d397d69cb1a78e0; 0x7e5358bc536f44c7; 0x4a2ca439fbcf52a7; 0x16a5497dd1a7b896; 0x7c743aa288c1d5cc; 0x23addb39fe1299d6; 0x7736614c71adb505; 0x35ee5ebb69635753; 0x154eaf37b61cef9; 0x7dde4332ea86ef6a; 0x596e87a2f3bd84ef; 0x19077d44f19ca0be; 0x3599280b51b21d08; 0x647df9563a52885a; 0x41360921cf8678fb; 0x2d4d731240a9485d; 0x42d4743722ee9962; 0x374ac8510335cb66; 0x779838f5f18e15f8; 0x375492cd76f33e49; 0x7ffe67ff87de; 0x4f3033cf30f03300; 0x6787998799e00781; 0x4f303cf0003cf3ff; 0x6019f];
   [0x3ca40d329cc1e5a1; 0x256e9d217bf76495; 0x75a9da2c8d058b09; 0x65f9ef8d5c9a02d5; 0x7923d2841bd47a4a; 0x43942c4bc71728ae; 0x6d4697945afb0319; 0x13732694832661a; 0x20f52e560a2c86f9; 0x43dba61b4f90a6ca; 0x414b4be708d762; 0xdba79044ac7d069; 0x325bc8b20a8baacd; 0x7611d6468137b0c2; 0x6ee90c3c13c1c509; 0x515bff8dcb7ba86f; 0x40233a5e59137aff; 0x749eeb5c9dcd7330; 0x398caf4703bcddec; 0xac7242d1ee8caac; 0x1d910df10f6f8b38; 0x6fc518cb778f2a45; 0x3669191d251dcff2; 0x344e4e8360c9d326; 0x7492d08a0591e422; 0x3064721e4d136202; 0x603fefccaa1548ae; 0x619538b1b774ae1b; 0x7f9350f211731814; 0x68b844b9b66fe4cb; 0xbc906f53970bea6; 0x73246aa3ff4db400; 0x4eb9b25c880f6074; 0x789e73559ef2d84e; 0x3ff256bec4d7eb26; 0x498f0f746663786f; 0x7651dac81d14d503; 0x6b600284ebc28c7b; 0x548abcf121586c1d; 0xcd1fcb5ace59720; 0x310a8c312b7c32e1; 0x255f10391ca1691b; 0x20d2ba8bec2db23c; 0x364e97fe2a353213; 0x4ab9bf7167e6308d; 0x2cfdb75be9e8bb0b; 0xaaea4faa1b911eb; 0x599b47e24d6d923d; 0x3ea590ba349207f1; 0x5ccafeb136b18203; 0x3ed6888287721d55; 0x3f3fae170b267739; 0x6ab17c826a7d8c35; 0x50837e56830fed0f; 0x7d5e5eb02fa4a9ea; 0x57cc321935a979f4; 0x69d00e7dc2bb7e70; 0x2124b2f04cf328d; 0x56d159c4a5ef27f8; 0x708e42e7ebd7b329; 0x317e5a01e6bc7516; 0x827be9dafe8efb2; 0x142871604322a891; 0x1398928115fc13ad; 0x1973ccb731561d3; 0x53d6d04e1c4624d3; 0x2668975a5acb8fdf; 0xa0cd96a1a08e224; 0x199387ec335f7d7; 0x463c434d2379aaf5; 0x23d4cb9237d12c12; 0x20fcf351dd6e000b; 0x3cf04e738aaf8483; 0x75ed36734b82ad11; 0x593eac006f7a37ad; 0x3c9678e09a2af560; 0x77b0a423edfb9fe0; 0x7ab7d5b1402b0974; 0x1727f57802698c0f; 0x3fa5e5519184210d; 0x5d8a1846b46ba5f3; 0x2b85d0a57d1e8091; 0x5b79e501bfa0ef9d; 0x5bc8690cb92dde3a; 0x300e03a0c34be563; 0x35e3041e0a3c3204; 0xd8e2ab2565dbc72; 0x42ce59d0ee119ca; 0x2cc34ee34b13926c; 0x56d0f8fafe3c1b31; 0x10a43659f49354c4; 0x4109a04d3a383ad9; 0x5a023c215343431d; 0x1926cf390e78f483; 0x6d9df36c8ec78cc5; 0x56742d865798d332; 0x615ca105880b5d63; 0x2b56274e98c3c949; 0x5f738e7ab4539091; 0x3fbfaf072efb2f55; 0x30ab962f7c837420; 0x762675cc33102bf; 0xc04bd7418abe775; 0xcba40222c013a6c; 0x6bb10549695425fb; 0x3f0462912786e90; 0x1511ea45573a65ee; 0xa1c32860599ae2b; 0x3a1a1901df05699d; 0x1d85c2133eb7f36a; 0x2901afdcb0c7cb3e; 0x5af8d3a01dd8e89f; 0xb9014badbb94e58; 0x7c35f9973739d8a6; 0x2b3dce65d2a8ed96; 0x3b5a4abf6d4270dd; 0x70022ed6994dfc36; 0x5eb67e73f0b62900; 0x28998d338d977b34; 0x6034e0efdf6ce7fe; 0x26693c6ca2f19589; 0x55828c7b45b62b9b; 0x65778ce534e6fc14; 0x4784963f652b6ee2; 0x7e29abb3190f3bb9; 0x9a53ad1df263105; 0x607a1bdea82ab446; 0x5213df6a8d9d21cf; 0x7d90480d15baa1a8; 0x386654b2ccefe4b0; 0x7a40721aed7c6954; 0x26d49795d3f4dd1; 0x239a1e625f6eb2fd; 0x3f8c2ca718928921; 0x77d5e1afa10bb622; 0x4648559955721efd; 0xfddcbe525b60ef9; 0x62f4d9a2cb7521f9; 0x458ae7bad2aaa0d9; 0x13bc1bacc349685a; 0x4355341a06f85462; 0x74db5d0abfe0222; 0x4f86aa95e19d7ed9; 0x6de9b7d5f1b7368d; 0x28ae2a9badb2f62d; 0x10bdf43a265362e0; 0x78b9bab40b3c013f; 0x1fa31a0c2fbb3bf6; 0x7d7e52ba0194e256; 0x28afed8608b6394a; 0x6d94ce1b53f59fa6; 0x22b4a281918e4163; 0x1e2413c5bf4104bc; 0x457cfc27d740484e; 0x734316ff11ed50fa; 0x57424b6f5356944d; 0x6636009f28b6c7c5; 0x14c73229ecdfaa58; 0x6524a173c7cd3d33; 0x146d947cb2793068; 0x57dbbecc7be272f2; 0x31ed67817af5cb43; 0x3b9b242f1045365f; 0x735bc794f3e9d2a5; 0x646c0d6577bda10d; 0x6f1ae83f4209514b; 0x7bd39c12903dbe96; 0x2dacc4df16c0f922; 0x3ebe5a7405af4e0e; 0x1c9e1ff76e44ee82; 0x155a24d70d079651; 0x23c811caba44ba8c; 0x2aac5a2c8bf6b75c; 0x2cbe2325fe657bf9; 0x6d8cb24519276e0e; 0x27ec8be490391609; 0x3044e7fc532ba4be; 0x1847ee9c810bbe0f; 0x755421627b5ab1a1; 0x3771b3ca8dcf54b9; 0x8b48ece6f7ab594; 0x4c7d8a9977cae4cd; 0x531baf7844c6a216; 0x5acee1e6fd36fd91; 0x2e04f6a177c6513; 0x76856a157337a461; 0x43d0a7182b98cd00; 0x1f20004ea0679570; 0x50c1d64d365802a0; 0x3dbb8e41bd333552; 0x2aacdd39f2313510; 0x1fda4c91facca4b5; 0x3efb096b5ff3c708; 0x4f562a33f15792a9; 0x51626b0f548d81e2; 0xf8e9f9f2f0e6330; 0x1b08503030c0fa39; 0x3ffa3c019fe24afa; 0x76a275a9ce31adb3; 0x10a066c5482e1e18; 0x35beb303fc268242; 0x3015bc81594cd8f9; 0x27d5042ccbf49f4d; 0x1aa24116fc29363a; 0x75889709236fff57; 0x465abdbe645ade41; 0x36f6ffa3a3349076; 0x7169e8170caf3c49; 0x631ea8ca42aaa88a; 0x556c4f1c337a454b; 0x4a6cca9df18d9cf8; 0x3c747a4f60737cdf; 0x3783cc08559b6288; 0x8ff9e7c6d74dc72; 0x1ff8378ab7ea6e86; 0x2ac9b5a327b39599; 0x2865d8ef472520be; 0x531c99daaa0dab31; 0x6997fe399ec3ff7a; 0x6be38e6b0420bd1d; 0x55a9d9033a6bf477; 0x6e94fdf8ef8e8a61; 0x5f65be052b484629; 0x5506f8170cc80329; 0x33171fb48dd6d2c; 0x728b187ab538dd62; 0x216fd0715d330021; 0x64c4c0a8222c0d72; 0x7fe5ce8e6dee49bd; 0x1d2666667f3a101c; 0x1bbce41398796f1a; 0x72927e05097952fc; 0x260c14a00893d4e9; 0x6a0faa8ebede2e20; 0x35b3cfc088814d2a; 0x5bb23dd559f5b04f; 0x375390d8b48c4fcd; 0x31741b18b4fcaa35; 0x475ab7eb7fd00813; 0x36376486ff16b86a; 0x552d64e3e8c05732; 0x69ca47d8328e35f4; 0x2ec0b76739eed0f9; 0x255d6e7a2083ba02; 0x535afdda912d377; 0x460dca7fb81c834e; 0x63ce4dd6e3c5f786; 0x338ac6b47ce0fb1b; 0x1da4e34a46600430; 0x1f767cdbd8e97333; 0x122fd59b98b5221a; 0x166639b23a84a553; 0x58b4e94a56ffb4d; 0x139c95420e038a5; 0x3e3375c297f0d815; 0x359249d7be765170; 0x77e4613da7935d8c; 0x6fc1fffa9e5efff5; 0x462ceca2b97ac287; 0x2f1457d4c4c32001; 0x4b45ff1bdeea645b; 0x691f29cc087c9259; 0x2910378b15597202; 0x29ca7068962b8171; 0x93c881758e67861; 0x38acf91dd5dc82c4; 0x1fb5455c2e210682; 0x37e90e3ea7582ce0; 0x726577967b2d72d2; 0x6db48f78b6792814; 0x63f313a8b237cf20; 0x26ac31cd74b061c9; 0x620fbc96e33d582; 0x3bd87f5f792ea7dc; 0x79fbf39cf55419bb; 0x78d6038fc7c35a4b; 0x7bfb85eb7824c667; 0x24b755c0ad06341c; 0xd0a862c73a7ee0f; 0x6c445eda395fea7d; 0x7e9123cd25507469; 0x609188407b5fb964; 0x52fa4039717fc4bf; 0x5bbd7d1c58755e00; 0x6489183d88697c18; 0x33476e11edcf3fcf; 0x60c5c3ead8e0ddf3; 0x3c7eede3e2ad0fce; 0x63782977c1584720; 0x7ca46715b6adb4f5; 0x7bafe642cc953db4; 0x66771dbe0151cb8e; 0x7efb27a4fe621d80; 0x6b865e5ef69947db; 0x36e41a459cbbdd33; 0x4fb99a2f7b609687; 0x7a3e2599864c3859; 0x150677354b5fa9b1; 0x459bdf5392bfdaf3; 0x4164115d082932de; 0x28f7c829f9cd8831; 0x1516d5e0e58622c5; 0x3b25c7552f639fbe; 0x3e457be6632c3169; 0x45982555d6c9bfda; 0x4aacb06c7c0f8f84; 0x1a1f95feb332639f; 0x5ce3efc916633561; 0x1962b25f5f13605d; 0x271ea636b89759c6; 0x7e60d33c3ce2e37d; 0x4b32a0c10c7a0c46; 0x21c269dff32bc38f; 0x18781e199e7e79c7; 0x30330300fcfc0ccc; 0x6187e6061861980; 0x3ff30003c00c0f03; 0x61e60]]%uint63.
(* the powers x^(2^128), x^(2^132), x^(2^136), x^(2^140), x^(2^144) reduced *)
Definition ds_pow : list (list int) :=
  [[0x6bfc783f10b6d4d8; 0x3160c360c98a30f7; 0x2824a92722cde042; 0x4d64eb38f9cd2111; 0x60d19f3cf886d57e; 0x447f83c38d1782f4; 0xf7e91974066b6eb; 0x40d86aae9a804f25; 0x22b8f39e69fb7566; 0x15ed5af78fd07aae; 0x711115bf0a6233a; 0x16ec3a2a6c92a2; 0x6aad9267f4ffa628; 0x513d873ac647e2ce; 0x4a5b424206b3bc38; 0x16c90cb8b26dc458; 0x5313b3a1d514f995; 0x2a5f337e298efb0b; 0x13b066f629a7840e; 0x52c7fee01c9b2e88; 0x33f289c100f450d6; 0x237111c51931c00d; 0x1b7379e41432f2d9; 0xefb6b8d9cdee2ce; 0xbe962cfc10484c1; 0x18031e27d66ffc8e; 0x14202315e3a5a8e6; 0x41e83c8da3d94a23; 0x4b023b9621883bee; 0x43f300abce80fd6b; 0x5b87a0c470cf8fe1; 0x5a7facc51621ded0; 0x5d334a2e120dd623; 0x3b4ec332961a0f7b; 0x7bf7f234c4849f22; 0x1b4bba591be6fd7a; 0x119f7f4e67959a16; 0x6d2cda09747be3d0; 0x47024671a5b18e08; 0x2d7bf6b4b9b82b77; 0x6fe25868b37ae291; 0x133be81c4a36db42; 0x7358ede13d05384a; 0x564a782618870296; 0x729dd870f71a5933; 0x7003bb6521951ad2; 0x570bc0bc79ff3e5b; 0x260933ff0475ce58; 0x287bedc90366cd4; 0x3a64e6773f675bbf; 0x5bf03c8e97f81e0f; 0xc1f31da0ac56c0e; 0x2a0bc6332aa947b5; 0x26b7b7fb29972064; 0x28d4b7edf7a069f3; 0x5734f400d95699d3; 0x57862275c59d869c; 0x48a4f4eb53b5146c; 0x4e986c33e07be36b; 0x212a74b725488246; 0x481e39a17efa8fc5; 0x64f9e0e378a0a243; 0x67c6c6b813af5cb3; 0x30ab5a8dd26b19b8; 0x6e8c53e34460a38c; 0x3ce02039bfad1731; 0x1739dd55dd944226; 0x6d3d32c16cf2eb69; 0x2308a6dacbe72a0d; 0xddc486226a1129f; 0x35e0b933ae8a09d4; 0x7c552f32d7bc62db; 0x37c6e94e3438ef47; 0x7a714c89019328b2; 0x3f15fb999ee910e0; 0x2849b24f2d356347; 0x3f84bb991fec8122; 0x17cd0ed75006a4f7; 0x67fa0e1eceb3cb2b; 0x6523facc5ae9cda; 0x5339592902fe70a2; 0x63ae0e47eb54b6fc; 0x9db71d56205fb5c; 0x3fd2ee9fe6a17f; 0x488d75d0648df09c; 0x356e795915801889; 0x1ac728fffd96d0e2; 0x516cb9cc19ae6352; 0xc7d2abe714a50ee; 0x62d31c10a1c5f87a; 0x6030d83d1fcd5374; 0xbc32197b826fca7; 0x4d1d3dc7fb73f961; 0x1a493b2b1dc29945; 0x36be8bfde56b0c6f; 0x46802e3b13b232de; 0x4eaccf2940eeb97b; 0x14f11d5cf38ba05e; 0x9179581c51059ae; 0x675272bea7c14773; 0xab37637d061dbd4; 0x653c7f234fcaf771; 0x3d3ea77de02e1143; 0x60c77d3a71879ac4; 0x29457ff12f9c0141; 0x1a6f6e397470d0b1; 0x17979f7dfeb1a1d7; 0x565cb1de9a755924; 0x70ba3f382c7f8fa0; 0x7cff6e77e7a2f2c9; 0x54c0a49c67528ce3; 0x6f8c98b5095589f7; 0x7440a5815bb37c2b; 0x459eda168ca6424f; 0x67260b7ce56d80da; 0x66654f318a3a0fd4; 0x60240b01565c34b9; 0xf286536539dc61e; 0x7e605784c067749e; 0x79a7f99ad20d7ae3; 0x79aecc294aed8ec3; 0x3c8dfc542eeb8356; 0x215f4de8b680b68; 0x135e87ec8e5f5e3e; 0x66e43860a262d1a2; 0x3230b66f5b67cfa5; 0x27eff66345c518ff; 0x5cbf62ff7fd21aa6; 0x5c6821cf38163fad; 0x2eeac36700c484ca; 0x16dcb46e574d68a0; 0x3009cd431ff8fe5f; 0x5c00364a92059c5f; 0x6ff9dbc8e8cda202; 0x5fde971254168482; 0x417702416e4edeb7; 0x7e72fd3d4ad71a70; 0x1417a6c02ba3d7b8; 0x1a589c550c4013d; 0x30e34bdbb42dcc53; 0x1a25d154d1d9dc99; 0xa98a3cc485b2cfd; 0xe039f80b305c86; 0x508cf05c2639c861; 0x202f2a3757eeb9c8; 0xdeadaefe646ea7f; 0x74bf8144f31c0c63; 0x263d3d334b623cad; 0x41408e852f472306; 0x7e9ba2f15df24a45; 0xdad493f5e3495c9; 0x55e1db39fb18b11a; 0x644c9e41a1d8fd47; 0x5b2698df8dd56f8e; 0x6b4c03df6c5b335d; 0x2b1fdbb078029d07; 0x5f28ef59a1ee8c61; 0x5651b3289c5a92e7; 0x53026618995455f1; 0x2e2b9f5dae0e8ea5; 0x4acd01f8bd3ce601; 0xf657a3969af5155; 0x720ebf9f25d978a8; 0x5657c1aed53a7d4b; 0x3f88115c416b7426; 0x409b1b26e3bd455; 0x2a33619f5b97f9e5; 0x3746c6db61f71f3; 0x5f462b2fecaaa2cd; 0x6c1c9bd53e67fa5b; 0x109cf85370fd31b9; 0x2f380c5ca3724f9e; 0x4a5d3efb9a13550c; 0x524f37a2b71f604a; 0x548ff2a8da498208; 0x565c240a4bdfd6bc; 0x1622c84cf29d47d4; 0x375ef1ce3a0c0887; 0x6c697d9c2af8f0fc; 0x618cc5981fd7c545; 0x4d32e4fa2f895b00; 0x51fc9275191e931; 0x19d7c08678a147b6; 0x4c25d142c04ecb2d; 0x788fdbb2fed7d029; 0x2e98f9507d90b787; 0x60ff7809116f025b; 0x3437ddb71d7391a5; 0x18797b462c7262c3; 0x14d0d6e1587aa222; 0x96e196b3a1e4bed; 0x7e39b3c03f6086aa; 0x2c2f69e72b4e5974; 0x1603f2511d3dc849; 0x6633d4e44016ced0; 0x2c7a224fd8fc31ef; 0x788a07386b9c5a21; 0x36baac3a214c8f1; 0x3bee9106e42be95b; 0x678bbfd480260cb; 0x5299b8785d340874; 0x4666ffb80638da46; 0x4c7e47471cf77c03; 0x79d944bcd96223e5; 0x1baa145a8e463603; 0x6801f7927e08c48a; 0x4316edfa44c5e226; 0x47a678f8f1aad357; 0x50d93793b339e6f5; 0x2c060ac3421b6b04; 0x39a694d0c1dfb3c7; 0x651dadc5e18dc90d; 0x2f33bf93f382a8f4; 0x7e7738ea1aa8ed32; 0x68acac66e5437295; 0x10034313f41f9afa; 0x1e69869bf90065a; 0x721e288204beee7a; 0x1bd60783199e40c4; 0x120a10d89898380f; 0x42b22b35d49c3575; 0x4df11f672934d3b8; 0x3672465060bc7d97; 0x4d2ce1ec62d8cd3; 0x5b5d4bd779c4d6bd; 0x24b607491ac1da9f; 0x559d1bd68df75b6c; 0x17c80ada5c025343; 0x5886bfbc5a90d315; 0xf2c0f80af0fb30a; 0x1f648f7e3d820102; 0x6ae95fdd19e3e3c6; 0x3a97def8e1c9ec51; 0x7975caf008b4e5de; 0x4d2a785181c4a851; 0x75a765058198c0ae; 0x14c1003ed42b19f0; 0x631c186122b5a456; 0x69b077da563d0b09; 0x65ec3fca7a502c29; 0x2ce362c2f64da8b6; 0x415c3f6411747123; 0x234bf42b5f76fac3; 0x49fb4fabbf1d71d2; 0x6dc1193982ddc9f8; 0x3c0e647f90025871; 0x689586462056bd95; 0x1035d193dbfc91a7; 0x6b981a2694f02bd6; 0xdb8b91687dc4098; 0x38c8ea93ca0c2f97; 0x7d663bdb2df8881d; 0x5d3074e669a882b0; 0x9650b08695d9727; 0x2beee85ee80e34fe; 0x64e2e144b8434fb6; 0x7914bbd920d14a02; 0x546db143c99ad764; 0x52cd8cfc7b7acab9; 0xec360bb9a197b15; 0x74bb1e0a3e259324; 0x70a3a534012201c1; 0x36324400e2fdbb92; 0x3a2172708b1b34c; 0x6fa33223347da16a; 0x29b59544144747dc; 0x29fac527953d8365; 0x5ceb442eb4446d60; 0x4e2bd1e9c214527b; 0x220fc5e5329894f7; 0x3b5dd20c48966331; 0x7d2d08951bb6a82e; 0x604774a0461f8d5c; 0x6d86175622af894f; 0x30f2efe91d9c54b2; 0x237ca26cbe2298d7; 0x70839983380607b6; 0x4a71d71f9c807566; 0x6058f09e669913ac; 0x510169deaf2aad4e; 0x202a5ae6b7151abe; 0x7191b5476f4e0dfc; 0x384b47c232669b08; 0x79978d08e427dc18; 0x3e4478e3f5373915; 0x9173a3118548a43; 0x45a1bc8da563b13d; 0xd2a215454257f2e; 0x37aef28bd13fcba9; 0x4a65ae2380133ce0; 0x18fa959cb8237e01; 0x27125686426f2372; 0xf728bd87815801a; 0x76f241dea13811e5; 0x1c243444f6143f1c; 0x2b051d3072fffccd; 0x69d325e375ea63a; 0x7f8282fd6d79d2cd; 0x4a98c162bc582993; 0x50c0098c9ef01e86; 0x53829ba0c450920b; 0x662b495e057ea89f; 0x6a91ff137560ad4d; 0x3d68b8a116534e42; 0x6e47594464cfd76d; 0x533527d54f6f9f24; 0x3a10dce154596f94; 0x42a7b29b2fc08a53; 0x11564fe47a0e3af7; 0x461d6c7da2842b9f; 0x63eae209ca27ad59; 0x3d7c6ef89154057f; 0x4c10468ad9f7abbc; 0x30b43680a1011b7f; 0x245001be4d1ffa09; 0x64d56908aabecd97; 0x5fc08a765514693a; 0x3e1ce0];
   [0x46a9d6114932861a; 0x2db05562c8797ad6; 0x7f210d381903469d; 0x73528043da6c18db; 0x6377870fae242dc; 0xd1b96950b2265d1; 0x3019ad577ad42ae2; 0x44460951e0a28bbf; 0x5144f931df65d36d; 0x7cdee1f94de43e8b; 0x1126e8233661f89c; 0x389ab9eed0279cbf; 0x5b321817a4bf5f64; 0xbd5d239f8e4fe59; 0x7f623406ee00adb2; 0x8ae7158d0181157; 0x626352f6faf63d0d; 0x65ca41fcf6008fc4; 0x39c724587f866e3e; 0x10deb55118eeb4b6; 0x3f8087028c9bc24e; 0x6058ad0ffb2fe6e7; 0x71a9910564b3d53a; 0x677dd2eb5823fd69; 0x23b66c72f0a51477; 0x63c98684fac831b5; 0x7cbb595f0445107a; 0x27bc5b50f7ff78ea; 0x2e9b3223f230a933; 0x3e13e2cdad8c3d2f; 0x65e63ad4f043176b; 0x248174da120edb35; 0x3d536b23b2232d49; 0x18f0238a3af44b32; 0x5fcd3240e4da0691; 0x2ac5a3fef0492298; 0x2e573fbfedf7523e; 0x5384b7b425d16b3f; 0x66cc72170e976dc1; 0x4e8c3a1de8ad59b4; 0x46a37a1d8ed58998; 0x72a9c3c68d4e8ffe; 0x692299ca421186; 0xe58099f007061bc; 0x6b8c667704c52f7c; 0x2100dc67432f33b6; 0x1c8e290119ac04a4; 0x6b1ac5d1b34368e7; 0x43776c7edddbaacd; 0x2e6d5e7d5a1bf8d0; 0x2fa1da2a3f0e35b6; 0x13cf294a4d963fd1; 0xecff67c6d7ecdb9; 0x2164345b524035f2; 0x179ff649a882a3b7; 0x25b600a15adb14e8; 0x804446023680045; 0x413334661f9a385e; 0x7107d8f250f6e22a; 0x2f64623ab1f71c21; 0x4e8b1dc3651a226b; 0x2431bc684fdc1c69; 0x27b3c2c517057bb; 0x450ceed83c1d0250; 0x7bcaa06687a24381; 0x837b0765a09e7fb; 0x5ed60d1e875f15eb; 0x132bc74f185ec3b1; 0x7185872ccdc6f8ed; 0x62224d81da39891e; 0x7f4b74753c9d0a9a; 0x5518e4bae9b2b0fe; 0x5d335bc93db68ad3; 0x1336987ebedde7e3; 0x2ccaa0ec2cfdf657; 0x4d3ad9c2f3e8a9e0; 0x4f20dcddbefc9d9a; 0x3991f8d66b95e901; 0x55e347e4b39575fc; 0xd454c177472c033; 0x6ea952ce06079774; 0x5f0beb4473257719; 0x7c5b2dcbf665ba85; 0x4b31844585be3fc3; 0x2faa1d9991f56f29; 0x615742e0b81eae17; 0x2af13937b464d05a; 0x6b391af5e4565050; 0x6710817e839143ea; 0x117db378dede918e; 0x53ef082b081891fd; 0x8a1aa1f3c43c2d; 0x323ce508a163174e; 0x6879351877e7710; 0x7e6d3b59f86898e3; 0x4956a83f5766b976; 0x3730b95b9ff8307a; 0x3d855be697f478e; 0x55ca30ef76d1458; 0x72c93b9dd4c7e42c; 0x19185ba6f5dd9aa7; 0x7c5bc011ef92031; 0x7e34f06876a04214; 0x640170a210819e7f; 0x3a167a4b6a3e7495; 0xce67bb98c2bee23; 0x293b279a241d6b63; 0x66197e518585d19; 0x58176595a37f3c6c; 0x2a605a91ab5f953e; 0x7f4237da76bd6ad9; 0x26aaa646533bc5df; 0x47c7f16c60314fe2; 0x485076b4e0738e1a; 0x4f51ac9489a54193; 0x6edf82d4c32e474a; 0x6dbbd96388940254; 0x6e9a9ddf86572f59; 0x6e05eb7619957c05; 0x606ed7efc10e72f7; 0xc221f651c2f6642; 0x3e919ca4e436743f; 0x719b10550f2fd198; 0x76d07687144b9ad4; 0x4d3e7730f0c459dc; 0x5ee3451dd0f9f017; 0x33f7add7af798cb9; 0x1bafc82c7138c291; 0x70528f5072aaa059; 0x16a92fe4e57c7b57; 0x6d528de334c66cd1; 0x26a36f3c7a4ba9db; 0x5901a6642540040a; 0x2d9a8860012cc373; 0x355980f886b5302c; 0xf7cc89ff0ce941d; 0x73f4496b9c3c8568; 0x2f688697830f00a2; 0x140a897e9756a83a; 0x7af19570895fb1a5; 0x26c69b0b42ffdcf8; 0x5a5833e19d435551; 0x772bc1cf8a84e60f; 0x6d1313fe6160dfa7; 0x4c1b0e8495ebc002; 0xa7c6b57368b913e; 0x7994b009694d23dd; 0x1760abe2f4327e5b; 0x2aa8c3eabbb74c48; 0x216822cbeaf6ce57; 0x7ae80394784c6a46; 0x42c156116c4cab97; 0x2d9fd190c9667a07; 0x201161d1081b0941; 0x498dae16f88f172c; 0x6c2fb956d3f0be72; 0x5b9946ee19d77d73; 0x67810328165bbb65; 0xf900558e60d7654; 0x6805e26fbd9ea6b; 0x7aca7bd9e2a56037; 0x24e243aa86c61593; 0x432fd5a6f0fea88; 0x6b41e9fd312c1393; 0x2462e5f152864e0d; 0x6875381f6c3dd67e; 0x336e2b36ec664a8c; 0x7c8959ca1d98f7e4; 0x49a3c900b1ee3547; 0x2583630b59dc6fab; 0x52d8ae9349fd1cef; 0x26df96e65840f5ad; 0x12332ba4d08bdad0; 0x28cf9e72424092e6; 0x5debb4d80156c02d; 0x7f5eca914a824952; 0x42e9755f41ecc8b1; 0x497a8ff8c302afd5; 0x732e3a1cf6891f31; 0x1dc6e8c97d84ea33; 0x5d4e2eccbca5fdea; 0x46ffa5c08690253f; 0x1503b967c382a883; 0x1bdd07459da1f57a; 0x5e3530bc3bbc28b9; 0x4d0f76cf10e87ee6; 0x21ed1c8c9f3bcd20; 0xf2f8f017210f5d5; 0x16f1e7b9165182a8; 0x4e4b3832fe543f3b; 0x1a2724c904a2df8f; 0x69986858f3d639a2; 0x6c96fa076bf3ed4e; 0xa71f0d4e6c13f45; 0x3dacf35e3d49ee66; 0x6260abf72d3220d4; 0x5b438ef1198f3a22; 0x4ca564b19a6b3949; 0x11f4c89a8785b01b; 0x1a1f425f23e44e88; 0x778233f321b105ab; 0x15d1c5a7605f6ae0; 0x84b4ff4198a0471; 0x290b8a5f0970f98f; 0x25793f49fb850111; 0x3f30139b3500e504; 0x4136a62623549cdb; 0x6ba2b50203675e48; 0x4fa5ac576a0d6ab4; 0x2198a8b83742745b; 0x36255d09bf7b9da6; 0x1060ca7196a90d11; 0x72a2b30de253fa68; 0x12cf52119ce7bd47; 0x4e9f9eda59226182; 0xb21b1ddb7d47925; 0x7e8d0953f6b2dfe2; 0x51fe405e79387fe; 0x2403508be727ca79; 0x1c959ee33132a1f3; 0x5c962e557d5c5205; 0x64c72210418631d0; 0x62b41293ccea31f6; 0x6cdfb03d6bfca31; 0x504af26eeef2643; 0x5b682c13f0234eb6; 0x5189f67c88ac3e91; 0x2a44da109466274d; 0x2dbbf120a77aeff; 0x4eb3552bc69d4b01; 0x1649681502d2c2d6; 0x74eff75de36653d6; 0x5732928e77738080; 0x2f921023dd1d6753; 0x10bd7778315eaca7; 0x25e1d77c47f03b23; 0x2b3c663d50c1fbda; 0x11f14e7f7a0394f3; 0x690f52b505f3bfa6; 0x47c3ba27f651801e; 0x21ba2093cdd1b158; 0x5c48390d7840d7f8; 0x6b3a9f17a95d99dd; 0x685e259f50e4447c; 0x2b6b667efe341e06; 0x232edbb9dc2529a8; 0x45b8bbf371ae7369; 0x6670ba687fe8cb69; 0x9a7a09fbad67f11; 0x398912045081a170; 0x10b6224b9618527f; 0xd7960f1c1613c62; 0x40e64d56ad821da1; 0x7173958e4a6891b3; 0x254bead2283bd532; 0x7fbb0e7cf2ac847; 0x5a0e67307bd58175; 0x65503795e7aaf12f; 0x563191e0e924da86; 0x5c1554a92b33847b; 0x1c512ee8cc3f67cc; 0x6f63cc80db2dc4eb; 0x68137c5285b8325e; 0x48883181bb250f84; 0x138a207e8d06496f; 0x7a2d429888d12391; 0x6a3420cfbfc1511c; 0x1a7b6ff2d9126c37; 0x3aa99cd78ac8bf29; 0x72b0a55173399370; 0x1e4c0ccaeb055a7c; 0x197a425d3d53b315; 0x75e106e730fb07a; 0x5af6a9dc0497bdfa; 0x3316bff521f570b1; 0x393552769b8f98fe; 0x48c4a178deb77d74; 0x633b57d0c82fba00; 0x6a49c9cd3ad358e0; 0x34f9ec6bbdc0f07a; 0x8f433f408dcea38; 0x6c7373c8b7bf6230; 0x42960d4b1c973880; 0x436549e1be0fa242; 0x3988cca706c820f4; 0x1232555b848817dd; 0x516f4c924d0d0a52; 0x6b15386a9824b786; 0x6b8d31140d55b486; 0x3f02a1e3a55309c2; 0x154435d24481f1b8; 0x2e923aabd24e8a9e; 0x16caa5a55632ccf6; 0x7f8e32dbb9ff65a9; 0x702b57eb5126f377; 0x2d9ba309d9e1188e; 0x48b1e34fca9c99d9; 0x78c01f22d4a5a762; 0x424e3c9bd81c6983; 0x779c7ef94cf83093; 0x55b736b801e1c534; 0x3ea355533941d34d; 0x1321b8a282806a58; 0x3bcd9cd6614f1483; 0xb5a6c4f0f7c2a09; 0x2fc0be29234ef6d7; 0x6394f4af543b2d8; 0x46a1de8c54357727; 0x52a95ae03b778828; 0x1197e625edd051e9; 0x65e7457d2b8ef64b; 0xc65220bcb66d789; 0x4cb547c47499b845; 0x3c40ad7ae5dabe1f; 0x47a78baafd24337e; 0x6ea2fbd0047359ec; 0x4fdb6b170b223ed4; 0x2d2f4d];
   [0x36694cd71e008fac; 0x4b03c9238aa71650; 0x505aa504863a4037; 0x7067b4899a194d36; 0x15b22ca26f8496c7; 0x77f71eeaf45ede03; 0x7527801bef95e8d1; 0x4dd9751cccb0df62; 0x24540820c64718ca; 0x9a1771aef5165fc; 0x29b0d50f3c27ae03; 0x6d0469cbf32069db; 0x5793ce72dd6a6074; 0x4ba56b18a42ada28; 0x16e3a37a21e91538; 0x7a037efbafbafc62; 0x571831dea54d9358; 0x7efd0869dd306db4; 0x29ae3c39e23ea7e9; 0x126865f16b69bf55; 0x2eae1fb8c1e3cc44; 0x1ae947a760befb12; 0x5ac6b4f6a9627efe; 0x3f0ffd4cc3e65a0f; 0x7c88e4fba4722c27; 0x74f6a4cadf96ce8e; 0xaffcec5d14e918a; 0x6aa3909722f4a42b; 0xf5c54d63c87f6e9; 0x5f995fe4ed7302ab; 0x1b8a363bbe616ab4; 0x6b8f2643b056a759; 0x5a0b511b747ea9f9; 0x2755b5ae9d3b7ee4; 0x4855f106f687b310; 0x1778074865b27663; 0x37d431fd6478fdbe; 0x20c5240ec98268a5; 0x4ba422559a684f04; 0x12f014bee7a206f2; 0x76d16e6d727e582f; 0x385b081575f7957b; 0xfb624a379f228e4; 0x16587a7ff478c2ee; 0x73a12b0f2f21b542; 0x4aba487000dd95ae; 0x11789fa32b4506e; 0x596493c968ab882a; 0x1285d73f84309226; 0x2aabf4db4b9aaa63; 0x18337233379c5bc7; 0x37841d36927bfb7; 0x5561e5edfbd240ac; 0x1e7b6c530b937d25; 0x156fdbd387035548; 0x753c7c2b71e066c1; 0x6425f580ffdc8bae; 0x7c67f53a008b0cbd; 0x34cd37cdbacc5481; 0x2c8c24de95b551b5; 0x339a5c25c6933a26; 0x7dc375df1160557; 0x4a57e2455b7c5bdb; 0x28fda5dae2c9653c; 0x341307caf7b39418; 0x7b71be162a1d7fe4; 0x6b59867613d0762b; 0x5ec47b6de5d24be6; 0x7e6e5ff72bfa19c1; 0x3584c5cf903b838a; 0x705ad4c8a9e5c6fc; 0x3d71b84e1406a7ce; 0x22e443280f4cebad; 0x682a13b9ebfe1411; 0x64907e27d64291c8; 0x32219f6974a63293; 0x1102aece7a83c36d; 0x5fd320fa3a158b43; 0x5d76a9fb584f7960; 0x62de58931795430f; 0x4d32c4071d04dfe; 0x416d4f16ea502613; 0x3032fdcac6c286b4; 0x7ca8852c825802aa; 0x1bf6f921b1206da0; 0x13b13e310aac2142; 0x774e46a1a55a67d9; 0x63ec49441ea399ba; 0x25b4cc8e05e0eebf; 0x55f0c0e607b1764; 0x70fcca364b00067d; 0x65406116fbfc7ef1; 0x507961b521c56649; 0x18fb50559274f075; 0x2e8bb46ab45a80b0; 0x25f77029d223dc4d; 0xc2c453788e932a8; 0xa23c6215b0e3ec1; 0x58f20137a84e2a59; 0x3fb219d526191eeb; 0x5a061e9a9c308e1f; 0x19afcb655c5894e0; 0x1a3b8c3003e41e9c; 0x2349c524c66fdee8; 0x20a969994c2c1d4d; 0x3a416bde771c3801; 0x7f939e830c3241cf; 0x7be3f308f9dea406; 0x723bfdb4b7e74679; 0x68d0f7e57a50a31f; 0xf051d8cf4d913a5; 0x707c4d3fd27e6c2a; 0xc344071e5832b44; 0x3a76b7e7cbabca6b; 0x48c90abcf4bb99c7; 0x64dc8e9c436f39a4; 0x366e37ee58a9957a; 0x4edccc36209fe9b9; 0x31cccac455b8efee; 0x11aa87e2bba5304a; 0x5c653694808ec89e; 0x119501777148ebb4; 0x612386efe5cc37ea; 0x330020117fc9c1c6; 0x726f75174c622626; 0x3a28818cae97d5f1; 0x27ef4c89da4c169d; 0x57b35eded30d4598; 0x160632039308bcf8; 0x417fcf9cb3cf3ca3; 0x55e8cb7e11fc06bd; 0x1dbb34512cad2aad; 0x51c8a041f58bfefe; 0x2445b813f1da869f; 0x3f3c0a3f726e8ca8; 0x1a6d5c1f6645b1ea; 0x70767d9066656505; 0x5e5fdffd5cb6e8fa; 0x3e361556fdd0f449; 0x46dc072763a5001a; 0x23262912a711397f; 0x30101451adfd5a48; 0x12d31c8c90a15da7; 0x2502537f722dae61; 0x13ce1c810be5da61; 0x5de102244ac73c99; 0x29ad9de1efdf4710; 0x1807807bb0418ec6; 0x34e55d2787fec5d2; 0x7b18e8dd93f7b04b; 0x83ac04923e3bf8f; 0x45bccc5835f8dcb6; 0x5a20e30615079209; 0x17a0faca42102e81; 0x134d9f8ad06e59d1; 0x7758574f23924770; 0x6dafd528544b91c4; 0x600561e2a45fe562; 0x21482495af802d88; 0x148d650082d0123c; 0x3438f4816f9b57e1; 0x4b668ba0cc69d111; 0x1c73916b9a2d7b3c; 0x50f00e30cd37cd1c; 0x4ceda653ddf3258f; 0x1898499fe051ea1b; 0x6c39fab753c9471b; 0x3e149c5d38faefa8; 0x4d44137157d2e386; 0x605d3a0b11964c3f; 0x4c9d1726443f5477; 0x6f612ab39ab2c356; 0x47753ec08c8f862b; 0x2c696ce79193690c; 0x65efcc145a24569a; 0x5da65d37195e1e3c; 0x45a926cbf904614e; 0x2cc747b1e3414f11; 0x630092b103b2f700; 0x79cdeedb78b5fe2d; 0x565f97c42de8e1d1; 0x747168b27374a99d; 0x34dc46c35454f0fb; 0x3be014f4cca557; 0x546450436ac15da4; 0x2e7e25349ab4b4d3; 0x285e633a6de9427a; 0x455e7394c4f812c2; 0x649495a6e249a37a; 0x48ce413538d847eb; 0x72a4c41bc13721d; 0x1267a13cf866faef; 0x57eda22322e9e72f; 0x5ea6a31b50126dbf; 0x4edcb71518a23688; 0x210748925b9852ca; 0x6dd7212a1e937e14; 0x5049900bd5a66787; 0x645be23729f61b02; 0x2ddb3d1217ca2ae3; 0x244f38804c2929ad; 0x3e88a8078aae4c0d; 0x6364672410ec5fd5; 0x75c66e1df12093e3; 0x16bffc96b78febd; 0x2f452cad4ff6abc8; 0x5edd23f55be82816; 0x8baee7f514f2cd7; 0x18de0c7c88615800; 0x711af9011022cacb; 0x6cb56c033da1a5f7; 0x5e0ff87fcd190983; 0x7bbbc753268694a2; 0x76137e6726819b62; 0x36211efc19e92ed; 0x66b8da0a67670ab4; 0x613d57b32f325787; 0x2b86fb15348056b2; 0x3a4f3c951e6efecd; 0x34c0af4b0ef4749c; 0x1620727328e17442; 0x38177afd458e18f6; 0x357108fd89b4ba9; 0x10bcac22acd6c5bf; 0x5b56aa8b79f7bbfc; 0x53011a610feebec3; 0x3edb5dd8f5bd1a18; 0x655c09fba81435a0; 0x4f29f51b27f4e8c4; 0x5d89ff433e1f7cb8; 0x43e0061eb5b4e4c; 0x1b3b853102668ec2; 0x24d255b508bd2f5a; 0x9fe3b195147c9d7; 0x368c9f539b74419d; 0x1967f3dc21f6f49e; 0x7b8a40f4bf96948; 0x53778b2937e42271; 0x6531cf5243bf926e; 0x1ecc769fb9f8d9de; 0x508f9c359225b284; 0xbc55849274852c2; 0x8b0c309dfe671e5; 0x799618cdf74145cd; 0x5168d31c0e851a20; 0x7bae809b28296e12; 0x3715840c83cd7e7b; 0x2a17d8c0e91be3b1; 0x1f08ad669ea582d7; 0x6c580961ebd72609; 0x796ba36f3e9e2a07; 0x4e0f97fcac574c1d; 0x39884acd80ab5531; 0x543325d2c9fac7e8; 0x24feb8eeb8c8b918; 0x7fdf4a36f0e45feb; 0x2bb6797cc3a46f6; 0x7502e9e62cf01ba2; 0x224d9cd19909a6c2; 0x5910964c24fcc94b; 0x6f271b2e4c980745; 0x5469587d08204ebc; 0x5dd75fc7aba88c52; 0x653d4f834781e754; 0x5b0c204d2d412024; 0xb93d021be52e46f; 0x6f06ded214cd1e5b; 0x25b75d9dcaf40cff; 0x1d8d3a1c7cb58aef; 0x65f481a2bc898fb5; 0x4559bbbb44dc24f8; 0x65ea7e821727969c; 0x25f61f6f400ca7b; 0x4879b1149a6be072; 0x13b00ad167eec6b7; 0x3a73bfa5276a32d2; 0x78f5110f30ba7df8; 0x1126b71a7b9bbcb; 0x36ec9d5322c58a5; 0x5490e16b2e1fe0f3; 0x5ef749396c3b90d0; 0x31e9082b8c07baba; 0x1188176250f98eb6; 0x3d80bbed120e29c4; 0x49681f37d355b87f; 0x7e7427397d575f6c; 0x477a4d15c1007a8e; 0x1e2ab6e62a27d553; 0xde68ec7b4b9acd4; 0x4eccd52eed3ddc59; 0x1a060c49819c286f; 0x4c82c64d8f3a5960; 0x58f8582b6be924c6; 0x505a0c8e3303ff07; 0x6bd300a98b7de882; 0x27f61fd76e1a448b; 0x4ddea95190dc1730; 0x68f509602c29822b; 0x471398c6fbf30041; 0x18d3a9f9028d8b80; 0x458ef7180e53aedc; 0x460b15d0179a6ed3; 0x57d085f97e8726b9; 0x6b528c11403771eb; 0xe35b5ab3746699b; 0x12bde41f353efe31; 0x5fd09ef4b9053775; 0x2bd19023343e3cd0; 0x240034393e37908d; 0x446acc059dabafde; 0x3c5c8f03f902962b; 0x2d4f384641603a04; 0x208d500e0b18f19c; 0x4e8f8a1b21d3b5ef; 0x63f68f9d3f3f07b3; 0x3b86370ca247bab0; 0x7cbda09cc3cacee9; 0x386842];
   [0x7a254e51d7bfd4b6; 0x2af66419d68b3cf7; 0x5e1821a037cad60d; 0x587d7e81e17bea82; 0x156c2745a09f5835; 0x1e441fac67efea5e; 0x1abbd6c301763478; 0x50455dc4f595bec; 0x7054fa04d9b21b18; 0x73b2d9333144002a; 0x4afe28b2b7bd27e2; 0x27f1d1eff667c6c1; 0x26725106b903efb5; 0x6361d503efb9382d; 0x2f33c68dce05e001; 0x484b1b55c09d8b95; 0x3823957c51c77a87; 0x6b376762400b7892; 0x518da933cbdcd4e3; 0x331376455d00baaa; 0x26705c1d25343354; 0xc209375e44fac2c; 0x41d6721e88a1ace7; 0x1e2e4ca8f850c50c; 0x6c4d7314fb23cda6; 0x19a66ea725126bb; 0x1ae48527eb3b2dcd; 0x67a7701434bfc941; 0x1bdf5ba42ffce66e; 0x1839dd1b0775aee3; 0x66131ce1d2d17289; 0x123dcc5f4290982a; 0x7ccc2e727e09668c; 0x5b7eb9fb18ad0e50; 0x3256374132c9260c; 0x37ee904b896f129a; 0x491e491957571ac2; 0x580027ddc9a8b8e5; 0x15df1e2e73d758ad; 0x16df1387aabc4a3; 0x1aea8fd9ce5f13b9; 0x5d2bdaac9c7414b9; 0x4121ddce4d82fc6c; 0x38fe3096ae740f1a; 0x17e77333fd9e2551; 0x36adb01cb4bd37f1; 0x167aeef3402b0e13; 0x22c316514e4b07a3; 0x3a8f2ed0baef9227; 0x73f28625b8f4dfc3; 0x141aa002a89b885; 0x1d48b997ff738a67; 0x675558e99c594692; 0x4ef730d939fea11f; 0x6c548c64383040a4; 0x7745b08ebc60c862; 0x1ed866100de0adb6; 0x4bfbd75736dc51a9; 0x1fecdf9ad624e26c; 0x6cc6e9b9b3c3b826; 0x2965ecfe395d8022; 0x42756e32dd0d2bc; 0x35a75a45af68e7b2; 0x466d64677ee07bcd; 0x7b313ad130ea0c; 0x145a233a77aff299; 0x4fbe5e49c2af3f0e; 0x348ea48a1aa0b16e; 0x444aefb4321f434e; 0x419d6e76e41245b8; 0x5323b212bd855e11; 0x707cea9016c23926; 0x1bd8c14dfbca18ff; 0x575f0c87b651f29a; 0x62bd6c2ce88ba60c; 0x71b0f093e4d09152; 0x710368f83db24d44; 0x3ae12c4dcdde0664; 0x493082705124a7dc; 0x289700f09cef1eb0; 0x3d818bd72c18f63c; 0x1ed7cb5c4050c7d1; 0x5175059198e0ab8a; 0x372dc8c3bdf8e95e; 0x519187590cc0cec8; 0x35d7360e273c5710; 0x7b98d4e1447a74c5; 0x4c7c6337c6a68bf2; 0x3d45759ec76f7ef9; 0x71d2b5f3722e7d86; 0x57847d3b1fc61bec; 0x9fb7e113deff830; 0x1c42df2d90b3573f; 0x6f18c8d5adbca346; 0x6ceee443c1da0acd; 0x4d71f9d9751c4c06; 0x1769f42100e874a0; 0x1de53e17f2cd48a; 0x200883f1f850c281; 0x4dddcf778862707b; 0x5c357ca0fcefd242; 0x17fde992736d2da8; 0x2b8793f40b7e5e53; 0x489707619f6d19cb; 0x32257685b797b867; 0x5f5c200c6810117f; 0x184367e7c5e9fc3b; 0x594fb71357353d20; 0x42f5149d41517425; 0x2f8ec22a49f00294; 0xe00e3387a808daa; 0x52efa0d8fe7eb75b; 0x1aba018af1ab3ff0; 0x8fcd71ef698082d; 0x773fe46910010a; 0x7f186579f9779ccb; 0x1c51d7bd11cf988f; 0x77ba96c3614d81ea; 0x28d6751e9370c0c3; 0x7e29d5aa21d8d671; 0x3d7c585145d75ade; 0x41b9bbcbf20ab0fd; 0x7af32692ce2fb0c; 0x7d88d8088cc8a10e; 0x3d413462780451f8; 0xd0aa36cb20c9df6; 0x70879b13552232a8; 0x2b7229aac16c4950; 0x1e59d43b31c08abe; 0x746a3336c6d220ce; 0x29ce4d44995dd05f; 0x794e199ef5fbf657; 0x65143b8a7d1c3dae; 0x2cf95fa1b7df0db4; 0x4d32ecab47158a7e; 0x7095fa26e70b5008; 0x2a37af30a3f6b783; 0x723519ad8b0b7947; 0x4b01536fe30b1eb0; 0x29351befdf16183d; 0x5f017c7434a77b29; 0x1cc503faf6af90c2; 0xbd0d7dbddf594a7; 0x26f995dea23d4335; 0x37977c1038211b03; 0x92fdc34e55a5717; 0x7bc7812c82439dba; 0x36fb2f70864957d7; 0x5c33fb45931140dd; 0x6e1e9c62e3baaeaf; 0x7b3ee0e4c5f65754; 0x6259f8550671970d; 0x5264d3d90846018; 0x4e6c5fec06f2597; 0x1a351f69af5b688; 0xc3303e98e338371; 0x28b2a1cea1badb07; 0x3d7af4cdbceb08cd; 0x4de9cbf431f7c16d; 0x60cc87ddd4d7fb14; 0x5407a9ddc2cb4dba; 0x21cb875d420f722b; 0x7fbf537a697d6af5; 0x145243b94f66fcc7; 0x30cb2da84bdb51b9; 0xa7f6f670b752933; 0x13f6a63e10800da6; 0x2769aaf15ecee38b; 0x3a748a9ec0ccc05d; 0x16f7ca558c69a9f8; 0xa28e291f3a5d494; 0x2c65e7fb85de87de; 0x3aaeb6885ade46ee; 0x6deb9f9e6fcac18f; 0x5042fd7545cb804d; 0x75102dc1d8823af5; 0x22a696a82a7bdef6; 0x33044b6b00e4dea4; 0x1dd5da2950bb9105; 0x710b6a79c53eb384; 0x34b5b8aa5060c1d1; 0x3bd038f9940b7755; 0x3e4894f7d189c611; 0x186f978b8300f130; 0x1326c846ffab0167; 0x28d55408f9ccf274; 0x2e9358904cd5aa9f; 0x71a7a4165ac5e9d3; 0x6cee1a5e4d69e609; 0x5b2da242dfae3509; 0x5bb7356b19d6a294; 0x1f9dd35a296693e6; 0x54ff49dcbe4b32b8; 0x25ddb2eaf184dd97; 0x382719348ed42c26; 0x35b1611ef66f83e5; 0x4ae93f64e22150f0; 0x7db522752cf7a6ec; 0x5fe03106274e86ca; 0x6a2497e22ea89148; 0x30f8d018800ae231; 0x50e456d366fac6ae; 0x2f34574f804baae9; 0x2097cba1355fde48; 0x5bf3fefe38ec4bda; 0x2110c9f25d6c23f2; 0x53acd62c91cbf9c1; 0x66c5dd419aee7846; 0x164fb1864e4a565; 0x1f444cdf87b4bdaf; 0x1774d3264f04ed6; 0x1b66a664ecdeeee9; 0x1f5b3ff8852526f6; 0x7a1ec316464aac0b; 0x4033aec191a36f92; 0x4dc1ec94f43f9b36; 0x7ec325114a9c989c; 0x7c551f33ac12722e; 0x2ecfc4c0f8d6631d; 0x247093c919e26fc0; 0x12e984604cedaac2; 0x3d99548277c2a627; 0x4c63acee192f0a45; 0x5edfdcfc9e7f4a14; 0x226d5eab4521d3bf; 0x185a7b2411cce175; 0x21cef79890fa704f; 0x4a44584aec7570c8; 0x101f5f85217c2b60; 0x26b753c0b5a62fe; 0x25ba6cbfe273ed30; 0x6c33a5a1a9991924; 0x68e8fa6eee5b6fd8; 0x768f8c12f33b73ec; 0x6e78dd085dc7aaf4; 0x72fafcae2182952d; 0x702036d7422a07e2; 0x37da376588ff49a4; 0x522f97271fa6d3ce; 0x2c7c848553d51e5f; 0x1e30dc2f92d28fcf; 0x6aab2ac25065b242; 0x4280e0d63cc1391b; 0x1c019e227bac114c; 0x5e351f8ea6a7e8c3; 0x716306df4f21d94; 0x6d825e6c9298bf60; 0x13beaa07c06fd574; 0x452bd06e68582ae0; 0x726197047381b923; 0x3a2ae3cd51a359e9; 0x65d51a6282a439a6; 0x7a30d3cbf29ce43f; 0x306d84bd28c00457; 0x6a8a906316c5f8b5; 0x15c924570e9c5969; 0x1e92710cbe4a5680; 0x1debc04dc29acd0f; 0x341c2e8bb3496381; 0x212127b9f11c2e0b; 0x60acbc61c08bc342; 0xcf762c60692d9; 0x7e99d9fcc4fd697a; 0x2ccc0a69bd60f727; 0x114832c977d9ccea; 0x193803422996ecc1; 0x250208debbf2c9a7; 0x2eb189313900e80f; 0x12d7b2fb3b6a7f3b; 0x197a71b9f23482d1; 0xc08d20e42e34fb9; 0x26fe4fe12cc4d609; 0x484b29eb4de15179; 0x4163723b24eb68e5; 0x48fdfde76c54d698; 0x3b97b44ec6a04ed; 0x9f163d6a964a55e; 0x2a111ef0877da409; 0x712ad84c18e1b64b; 0x3f1cd6879f176d9e; 0x4528cc6eec0e245f; 0x3292ce337d35120a; 0x36ec2f0c216dba4c; 0x3be6179b18ab6f61; 0x35ce7227254a568a; 0x18fb7d4121c029ef; 0x21378e4ba1c91c55; 0x3e40daf731ffe68d; 0x2ce7aa5d5ebcb4d1; 0x2d2772fff98eb2e4; 0x629fc9509799bb8e; 0x23ed271651df6d5c; 0x6c068fd60d4ad50e; 0x79e4e6f385acea0b; 0x608f13829ef59b6b; 0x1968a10db8ac596d; 0x4e360e0e1fa1e8bb; 0x2322b0eeb3db5d19; 0x5ce6e7b4b63d174; 0x342c2a7d07ff93e4; 0x40d20d1b8f96d529; 0x348334e6fdf8267; 0x213c98c15b670e71; 0x489dd8300993e2e9; 0x38b5766814cdb9f1; 0x7205585cefb19fbc; 0x145e80537c025d7; 0x2e36e98e0f49da2f; 0x287ca6fef23a2827; 0x70da512c884f4ef; 0x3e78b3e92720a437; 0x1a0199994b5aba92; 0x432cda77aa77da4a; 0x6dbc0b0fe30f615a; 0x391543b775e08c70; 0x10618b5027dcf2b2; 0x3a885c34b988c13c; 0x20b6ed];
   [0x438fc3e89e043a6; 0x6a5f71ff03cde3d1; 0x4f4d774f7201ba24; 0x1e360bf3e74183fd; 0x7c5029ed680d535; 0x18c01c7012c89001; 0x3fe414106424b734; 0x5f418e835dbcd356; 0x551288cae4b29ba6; 0x38570e7e02857791; 0x25030feb85a172ff; 0x66b0f6937419929b; 0x3a1dea17340f433; 0x44109f93cfafcb17; 0x47e14b28bff3686e; 0x177e15a92df88ff; 0x551e38d70391085f; 0x64a36ed88af45242; 0x26a6b693947a40db; 0x7531a3904a622ff2; 0x506f9854c71a5be5; 0x578c426d514554e2; 0x104c1107fe0bb265; 0x4ed361bdbd80b050; 0x5a790fac7ce0978d; 0x353bc80e2f8d1c2b; 0x615b82f67989b2a5; 0x2a1708f9b58efab; 0x70353da972d0b1bf; 0x74d369fb18e363c2; 0x7dd7d664205f9152; 0x7b38d2251b12bce5; 0x545066bdec22e8a1; 0x3be00ac28e7684f7; 0x1ebe19e19f2ac2a7; 0x7834b71dad3cfdf6; 0x7331333b835cbbde; 0x2e0d4922d0e57123; 0x7a3490c4adbc114; 0xfebc0742271e3fa; 0x7abdf71a936e7a8c; 0x3a2f2c3e65b5aee3; 0x3ad015ac91073949; 0x2d73137cc627ca6c; 0x6adf077fa0513b45; 0x74584ed60447754d; 0x5094171c8ca69241; 0x3da7910a61645c29; 0x777a7dc23e1e73e4; 0x30d1a0fd421a5bd5; 0x1ed5ef45c361721; 0x2a0706a7508248c4; 0x42ec1df0782458f5; 0x544a1ddc79f34113; 0x272d1036706125c0; 0x783bb0b081b4086f; 0x77af24e1f95abb91; 0x241b32ad3dfc3a33; 0x24daa0c2b72a3f75; 0x1d25e8dff6069a8f; 0x37da2a7643223595; 0x2c69e9b03690ded6; 0x55178dff68b92b6; 0x4fad0352a4d30bb0; 0x44bc6e0e74623f12; 0x10007d2987a41dd3; 0x6a84a8fff814cb34; 0x35fcfcb44305433c; 0x266550c76d7a9284; 0x10e44a50b5604e0a; 0x4c194cdb5ec622d1; 0x3b8b24cfcacaf099; 0x480a9188c354377e; 0x4d4239bb4c8a481a; 0x794da9111aacdef4; 0x11a16e3c159e9db4; 0x40c31e665918eda0; 0x9b789be7f298a0e; 0x4b74785d0abf1d85; 0x4e52c339942500a4; 0x5bda586d3966b0bd; 0x66185d1e969695cc; 0x2ee8b11b552853be; 0xb52986ebe1e077d; 0x32ee00e6049613e9; 0x53c8768d46df0d11; 0x8f5b6e3973b1b3a; 0x211709fd97167e0c; 0x55447cd1c43a8590; 0x7f6be7a696203212; 0x5b93f02851652547; 0x3742f7a7fcd3ff54; 0x6fb31708d1363005; 0x7b16b1bbd3c872c5; 0x4f730f4c87555526; 0x2ec2a07a7f1611d; 0x17cedc41264b7c64; 0x7a931f11dd3ccff5; 0x5c4e403048577aae; 0x747b1ebbd2eb827d; 0x1345170aba8e004a; 0x58641a4d32b906fa; 0x71329209a064ed2f; 0x591bc07a5f095e57; 0x743ce4d4e3e83770; 0x6245efc74c5462ce; 0x176fdbfe616e37a9; 0x1218db5272d64331; 0x5b807cce11f36884; 0x422138bde3968a06; 0x9a72c51f43e555; 0x160b7321703f5811; 0x1fddab78dbb1e113; 0x602e895e4c826bc9; 0x3201a204f45e46f1; 0x4b16e9e604cfa0a2; 0x16fbf190a591e07d; 0x881aae40cfd59c6; 0x291a30611c582a81; 0x1aeda20740cce404; 0x2b07c6b4639f5226; 0x62c48289391d1339; 0x495ec4d0f2b90f2d; 0x507568d0507dd9c8; 0x52001877d32d79fa; 0x649de8b7ca1804a2; 0x28d5ce4f7a1fa06a; 0x6163ce02e01bdfd7; 0x3c85b89ccda36ce4; 0x1d7f9f551c751bbb; 0x262832f06472b801; 0x13839383dc872a36; 0x709ec6502366ce6; 0x3c47e76a46212e38; 0x1c62fb696660697b; 0x29562a33df4a05e5; 0x72111e97c48e028e; 0x75a137c141ba2b3d; 0x1de52c036619b152; 0x310f8a97e373cae3; 0x3fc2419fb567d62e; 0x1325a221309fb3ea; 0x678197117adc80c; 0x165a94bd8473579d; 0xbb9856a98a042d9; 0x7ee8ce31be97008f; 0x67a1c88220c755e7; 0x190145fca30a82fe; 0x631d98c89f13b7cd; 0x5a5e095cdeaba86c; 0x306b254a4d4645d8; 0x291d930903149466; 0x384c496b533621af; 0x8ea3813c3d91784; 0x6dde9e36bca9de64; 0x693a1985c7d27eba; 0x52520c56f1265076; 0x70d9406975482c9c; 0x6813f4945ce66b97; 0x1f1ba8a8d1ab9509; 0x345170ce32327a0e; 0x332e56a90b14fbb9; 0xcce233cf27a8857; 0x30b918a0ecd2dccd; 0x478837a8b38f4bae; 0x246642d910cf90b9; 0x4a0717bb0c064842; 0x5f70165b422e7a6c; 0x4091e4c8b9b7b561; 0x43a500ddc3046a49; 0x70e8024a17d4c701; 0x640329c9b07f46b3; 0x5d0dc93a8dca0f29; 0xabbd3426274c0bd; 0x4590ce422664955e; 0x3f387e01ae8cc4e6; 0x7717ae0d68f01c9a; 0x5cd77c90f61be47; 0x1aa14953ac9da0f3; 0x1cba7672bdf9ff35; 0x45b9d4db6bc26169; 0x303e2b84c2a1763b; 0x34c9807fe671cbe4; 0x30c706ecd36d85ae; 0x5ad32c8226337d65; 0x52faf1086f5a8; 0x3628c3cf0e188ff7; 0x16b1d21724052641; 0x2fe02c3ad70af5de; 0x5ed3ea5533049f22; 0x4cf7932791177e2f; 0x2a97ade7d8c5cb78; 0x8beec8d5a47cdef; 0x1d8e85cdef357a8d; 0x1daae2f3b2f92f01; 0x77a8347a997191c4; 0xb3e75aa708b7ff; 0x25c1aea36ad4b435; 0x2380d4d973b07550; 0x340d8ede18e51724; 0x5e47dc4a6e1ec337; 0x4022c1d966062d4a; 0xadabf20442f15fe; 0x79ef0d987b17540f; 0x415111265b0ec324; 0x255d7e2a43d17b4a; 0x3fd8859e69720b5a; 0x609e9e7ac00b8299; 0x4a3f53ea60b92a70; 0x3df95998a2dbef96; 0x4df3249596f0c91f; 0x77e1a6815dc05dd5; 0x5c4972073049a966; 0x3bca77b90b47ad00; 0x4aca3747f2427ad3; 0x45a415992d74d210; 0x4bd25bf93ceee26e; 0x5802737b1164d5ac; 0x51a38af310a4e0a; 0x665beecf27968b86; 0x1ce38245d1deb9af; 0xaa05f4cdad64523; 0x322d3b8c61ce7c74; 0x64c3b148ac020bfe; 0x59b45f8d9ee2a686; 0x70927ec415bb62bf; 0x258877c5e7f2a920; 0x6001047810abd8be; 0x1206c57809e74faf; 0x4006b49925331eb6; 0x23c9f5adbe477009; 0x61cc74972170ccd4; 0x31e677332aeb9a0e; 0x47a51e77a63b91c; 0x2f00a576b7996353; 0x68d2a9a86761bda7; 0xafcdf7c05e689c3; 0x6e612583651c3e25; 0x6e6a7fed98830ccf; 0x83ede6c60b3b2df; 0x5359164ce25f5aa; 0x2749b77b303879ca; 0xa50bffa31ecc2b; 0x17ebceac006ca832; 0x4cb6ebae434d6606; 0x708dfb2f1d819ebc; 0x9dad707c394765d; 0x4986c023cc5f772b; 0x63bf79836f18a52c; 0x3c77299e1318c4b4; 0x70d700db158df0e8; 0x10a8855fba725635; 0x1c820e987eb65939; 0x543659a7b8a607fe; 0x136ce054ebb5b41a; 0x766ed0b5ced04e16; 0x481c9bc064f0e8b4; 0x5c16f63a31a7f132; 0x34e16adaf956d8ac; 0x42e9d3f159b936e6; 0x2435e7c9c7fb6abf; 0x715c966012524ff8; 0x6764e8fdb2472862; 0x5b3467f009df3ed4; 0x4678d4a81414f552; 0x46544af3dcb8a542; 0x6bb405bd574557d3; 0x19b40527c045605; 0x113ddfb2949d9062; 0x7a9249617738a2c8; 0x2f22ec7eda7c3164; 0x641ee5a68b2ccb1f; 0x348b20f232f976e5; 0x55ce09f6ec899f34; 0x1bbf0ea82f86935b; 0x7b2c93648239faa8; 0x18a1c0fe3d890979; 0x30afba6f3598aa4e; 0x39cec1a411374889; 0x504551fc3bf37e66; 0x659d1a2f33348019; 0x1b6c46ea76098f2f; 0x5dc5ba2be54af539; 0x4ac23e95d268a5e0; 0x7966d0a05d361356; 0x7b2e32d36869f655; 0x22971b738e0d01a7; 0x553e0db7f833c19b; 0x5097049e61db98a1; 0x214cde9910418641; 0xbcac2dbae612f5e; 0x2733a66307211b2; 0x20e28ac9ff446fce; 0x1cbcb5876cf37cf3; 0x75d4778eef802dea; 0x78b6e487f66f93d3; 0x2171826281e26501; 0x5b8e8bb3f76612b4; 0x3871eb56bb852c6d; 0x2a6a2de4c122bef6; 0x5cdbb1555022deb7; 0x727180d06d629580; 0x50e132f1def1caad; 0x233a61366fec5655; 0x587c13db4ec41b06; 0x151d0e659ce26143; 0x21b80ac5fa357307; 0x50a4caec9a840dac; 0x2a0d575ca1129d8c; 0x9411df3077a5d8c; 0x222dec0800048dfa; 0x7db5f021dec99149; 0x2de2cbc543717303; 0x1f256a8fd3febf3; 0x41ed505b044970ed; 0x57bad60c03d80c5; 0x5052901a2655cc0e; 0x31dafe]]%uint63.
(* the multiples of the characteristic polynomial by which the stored polynomials differ from them *)
Definition ds_cof : list (list int) :=
  [[0x667de2b556c4bc8d; 0x5bf02806ac3c3af5; 0x4ec8e5d6f9db584c; 1];
   [0x51627f0f69c77da2; 0x5303c383403c26ab; 0x1d6527cb4bfeb01c; 1];
   [0x6e8d88ffa138ebc8; 0x48be44b2b0df4881; 0x4072ba7e76a4eb8b];
   [0x9c64701eda69b47; 0x11699454c6efac01; 0xec35d367ebaa42a];
   [0x7314ba7523491c65; 0x11d719e328b574c5; 0x632669cafea8fd7f; 1]]%uint63.
