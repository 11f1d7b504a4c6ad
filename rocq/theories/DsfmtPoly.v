(* The jump polynomials of dSFMT-poly.h, line by line *)
From Coq Require Import List String.
Import ListNotations.
From Verif Require Import PolyText JumpN.
Open Scope string_scope.

(* dSFMT-poly.h:1-70 *)
Definition dsfmt_poly_128 : string := pieces [
  "f4dfa6c62049d0776e0bf6f1e953f3aa38abb113df86be024eab3773ad5f2b82ead936022e";
  "656dff7e562691c59dd5f7d2566b78d9669002503c4ddb1888a49f32333f515e6c60c4ecd2";
  "21078ec6f26f0a90f4875067ca1f399a99775037adf905566e2c7e6b42131420f8f04f112c";
  "92621c9b1502f2a8aefad6c667904af62f0d55e02d396902d3b89450103c5ce5fe0408d97c";
  "bb864861b49e4e42048ff3310b48faac55095a7f422eea4aade752f947f947c6be0a0c665b";
  "dea099246ab9eff658ea8ca468bf49d0227748367878de06d7bd86ea6708fcac6e252f5f00";
  "f04309b2aac3036b64afb39d990427c6c9f03477cc7e935c43c0e61bc161db8eb15516eee8";
  "cb377ecbc1849207990fb6778721b29bfe0d89bfda1b3772fa5b0b1f7ec3daf36052032285";
  "898c6f6396f55010c31f8201b7e2e51d94f920bfe57684c5415cc342cb39a0045d9793d13c";
  "f8646096daeb8bb9bfc20a90de8f2426da8733267a9b9674f32154e8f84a9932223a2ca3c7";
  "87d0b66df6675febbdfcba2f9cef09c621c57e11098b3289c77397aaae8b104642ffe0c4b7";
  "5598efbc53745984d68b4d6656cae299ae2be55217a9a02b009ca7be32f47fbe434bce4914";
  "a34d0c9b0085bede9b8a99319c34660d66f0124b5a7714c4bf3cbfec3ee43ed817087168ba";
  "d80133bebaeeb68cf7929a24d1bb3de831a8340d220906ab04159cf94b21d5ee813bd7c80f";
  "10f01b43052af530917513b169254c25d6fcfe6cb420d6ce92f54886ef6eaf9a5ba35e893f";
  "f593834d05ddf28899e42d729c7df3d21ef036020789739366f0c11ec52ff92a0bfd8ba695";
  "08e27b20fabb8217bd36b90e5aa918159ac87913bc7b46c04e366c23c92807fbe9c6a407e6";
  "a4db0b4fc23c3b6c706b5ca058fe8c190f849f18d16d6b48b5ed760eb202fd566291a79942";
  "0b9654e08b8118bcbfead8e9dd2fdb9b053e9bdfb665285c78718f726d0b3d6c37e116428e";
  "c9ac9db2637259e4e8d6402bbada46c6bdb03985e19a82e9b4e57de1b025a3cb1f850beae7";
  "e8da9941655825bce0e89d536b6ee9064865b1a85c185e9fc9cb7f435de13d44773c00eed4";
  "42a286e4ab807e3cab4dc3441d1b7d2af693812ae8b39652bb8c835fc895d13d6da93541af";
  "eadeee450475c29f3b2dfa8ef1c1e2547463b2cc2f0ff7a42ac4dd35e25c4fa030d2d2766f";
  "be9f2d04c1304671747bace2f7dd55142bfa60f8cbc968bfc3d7a342152dc684a0fb5a32c0";
  "962a62b5220ac0f72add9d8b84d6cc76b97d03245e01fc8da3414a49bb4075d3488f29b56d";
  "c42ba69e3b58529448c943ecfd98b3784a39d0b8609a8fb945e757f4569f53bd2cf80f7f63";
  "8acf5b67fe9c560a3b7b0cf7e0398f31aa8b03cf9c62b24296b6d8596b694469a02686c38d";
  "aa16a1ef86e012d61a2f7de1693a5c00b3685175caec3c67146477eba54830f1d546cb18a5";
  "53779aa46adb4f2010e33f3def847c7d89b51a8462b227605f6c920fd558a6daf64bc98682";
  "e508ae960c0c571870e603ba1fce0c13d53176f353fd319959e13db93eae1359f06e3dd476";
  "7c04f824cf34ec7bf8f60161ba1a615db82852eca9e3869afa711ab9a090660b0dc6cfbea3";
  "10dda77e02310fbaeacd2636f975838c2dbcdbe9ac2cd85cee28f5e3f0c73abf62f9fa02cd";
  "79a7606b7ba855db68a07848b057c3aaf38f1a70086e14616f6f88305a1f9ce6b41378a620";
  "d4db3e0e7e1d421590dccaeff86212e232eeb5eb8a8d33a8c9b25ae88f3a7bd5032b4efa68";
  "f8af3186a02ffcbf5456f12beccace94c81c360cc4a0dcc642b59f991eec68c59af78139ca";
  "60b96d6a18e9535f8995e89bd2cf6a0aef3acffd33d1c0c1b79b66414a91d9f65b2b4ec658";
  "44b96f725d2b4b0c309f3eb9d714e9dd939bbdfd85ce8fb43679aeab13f6c29549949503c9";
  "466dbd337c4cdde46d6eacd15f21f4d8fdeaa627a47884c88a9c85f0b731d271a8ea7cb9e0";
  "4a4a149c23c10f56b3a0476dc77a999d6e4f813e4b0f805e2a693e2ae4ae0ecc423c9ba5d1";
  "7b42e691abf83784a582f2b1fd85d1e0a27ba38a500963568b2450363d2c5e3f7b8ba3e5b5";
  "6e4e9f745a3a710bf2ae233c303068c532ce78ff031e6ab28b705dd94d7db4500909edb562";
  "6b8c9bd5ff4f0b4741388f0b91563ee516934c013e901572cba005ac5c535f4f107903be9a";
  "f7b2793dfb61b5070facbe71eefe1b5600f975c8c38c3a2350d78beadfecb78e981164ae8b";
  "c866e732972d3ceef4aac68e15861f9b881d9b51b4edece150bc124b07645defb4202ef5d0";
  "e0962db98cae6ed459561c93c74c20bd64362e4f4fffc389a6cd80514604ff22eecc10c9cb";
  "c7981d19a8102b24146354c463107c9dc070e29e70df3578022acf72289ef071ab9f9402a5";
  "44d0399f1b1e5f206b6d46d445f6d612a490e72918e00c853eda8493bef511149e80c9ab56";
  "e8b4b8cba3987249f77d060e61760e5792ac321c987c03c2606e9393a7970212992cdbd164";
  "48078d5039d4c2c3199714f53278f4f7b1d2e514cf95bdfc078b8bb0db659cb2c3f5cc0289";
  "0ea84f05d414c88d2db9e9f8455659b9fa6254405317245fa070d6970cafb4dadb2522b490";
  "a5c8e02fe973a8cdbfbfbdbfb01535099ffba3d3896bc4d1189fc570c3e6fdc6469265b8da";
  "912772e75dd62ab71be507f700d56cac5e68fd6b57ec166168ab5258a69625c142a5b1b351";
  "9f94be1bde5e51d3bd8ea0c12d5af2fe4615b1b7bd4a96628a4fabc65925ff09718f63bbeb";
  "aad98f89bd9543a27b3ff3b5d8bfa89f941a5eb8cc005ccd4a705190e1c9dc6a9f4264e5ee";
  "658520a4438e92de854bffc39f8dc7dfbb5de4f14ba63ea16a37d14a7b4610f95b6cffd55e";
  "4679b29cedbdf20e7bd16da822fad910c359ee3a68e48aae6e769b0e291d5d3aa3e2ca9d8d";
  "23abe8a1d5349f4991e9300852cc0befb20c2fc0d169306b260763344024f8092cbcc24c68";
  "07363e9fc548a30d5faab3a94b2af0782a2942be80c45d8b0587efd587394ef33c33022436";
  "e285806ddffdd32fe36345c3c38ed8d680abeb7a028b44ee6f94d060a14c7019bb6af1f1b5";
  "f0a562957d19826d8cc216f9b908c989ccd5415e3525dfe9422ffb5b50b7cc3083dc325544";
  "751e5683535d7439d3da2b0bb73bea551dd99e04e0e793804f4774eb6b1daf781d9caa5128";
  "274e599e847862fe309027813d3e4eda0bbeb7201856a5c5d8370e44dabff0bb229c723ba0";
  "a6bcf29c44536147de11b7835991018100105bd4329217f7386903fe8e7363cd7b3e893244";
  "e245e0a187467664c05b0be1fd429722b9b9a5e3198147fad72776e8a63aab9054fa9d259a";
  "f0198d088d71d132e6068676a8e9ebb0f616b51ee34aac39c2c2221c71124017270d75ff4a";
  "048363c389e04e9b440ad2032a381ac2cfc54f409caa791e65ee4f5d6cd035008f219b88a8";
  "03a7382ae447bf65a3df2176b25b3b7b67dabe34decd9a1384dc7a003916ca8fbcb29b3ad6";
  "fd8eac5bbbaa3bdfa6c6a3ad9427c4f3ed79fea26e14c8ce5fa3b4f82c5f7b6d2125916753";
  "a7b92ce9b46d45"].
(* dSFMT-poly.h:72-141 *)
Definition dsfmt_poly_132 : string := pieces [
  "cf879a930568cec00556a5a867ff2ad06bb6765beffe82c5e534c59021624d5182c01fa64c";
  "af167598366426befbc1e971855601637c55e08dc3a9d1e0846486dd1dacc2fbd911752a06";
  "d22773657a2393550b9e8d8364eabf3d7aa87f68adb245333fab4cf74774beb0df5003636f";
  "06acc54fc4f30e2ca516f6a189cd6e045ccc7adcb6827b5deb21d2a0b2e160edb44b85ef4e";
  "902c7ff23cd5ac4c380ea322fb7acef73e73e16ad15e03e230a0bab95ef053093d5870edb8";
  "ec522754129b49992628b3b836c74ba0a42e931089b5f00ee3d6b1b9792b0744866650cf30";
  "6ace15ac7075258c06a3df7ddcb3a8b81f16423c8317ad7b0160d4c67d92002a15e8a3ca67";
  "8ee77c4721ce792462f68b9c135893bb1bda4881173a75b63f078ff8b45acbd111acf458df";
  "af36de9515d7574346e2e488a16e86bed07fd957758c41065163ff7c3dd4bfca40cbe27946";
  "4cf670db1496c148e0bd987401e4b5dad42663fc9165f574f4be049b19cd298c07d2a33703";
  "3fcc4111522801fb5f9cb4b74ba1bbc43842fabd7dd16d97e333df566ee20d684c267302f0";
  "d78d772cc6e55227d63aa3e8f3f3673e1f66271954bda2c66394418ad2ae98660f2d481d28";
  "fbcc967bf6594dd8d37f3b8370e2a756a5911d2c2fefc9a4fd00905befaafbe84467cf1757";
  "2c173ed7b6694127b431404de537efd79978b087ac2fba0a589f26358b5f63b71b7f31e256";
  "6e410c9efae68ec3337656b72387479b080aef8f75c917c7e066b034a63f48156a0bcba550";
  "6687d902677121414d19f285a591bbe1459bbd78704152d536862654d55ef3ac188e09561e";
  "9ffef26303061a653ba3e70d69d6db66da4a79f6921a661028ca013d569f7b4829ad002417";
  "46f4b285d6e19878eadc685c1e712f124842691390440bc3056446d2fa3eb75dcbf9b0013f";
  "14d9205478824b42bb24a5a22b6114bf75e7e6bcefe18dd462dc8b9098fd3bfefb49e31150";
  "d583b477b8ac37b4d73f16d244a2c432d7818b4aa6cf223b0dc11aa2ec25451445a3739008";
  "b73f8cb93e50414471fe48ffd0592487166a785c3d7c5068a37ef79b8148d0007323dcc8c1";
  "3d81f1803938b7360e92bdc783afdc1b278504ad01cf67b33d85579537633e200aed171c93";
  "f3c937efa5d44e035a49820875df20bc15d32a5b806887476721422231d232664ae93c289d";
  "b6aabab894c279a8e45e3d552798c502edb2bab817e4dcbbc8aa2138ce7daa412556dfb1e7";
  "f70cfaf0bde1c767bc499e47abe57a407963108e887f5c52f4c864a2bde8716a49d9767cf0";
  "6d38ef12b1c2a5c0393e5a8bbe421a39d2386427160699d20e959cc4160520da6219fbe4ff";
  "d7df471414994ace9382217e21577b363a41a5e9c10f47b0bf5c5b80980754ffd291d68e69";
  "9a80a4b7ee2b1342bb94c486329b423ac72d4718342d580a67ae77572b07ba2f8f6ee387ca";
  "2cb6ae08fd0c545740902bde84d7ae1c8ae56ec9ece2734665f56b39ed501f90f24344fd57";
  "3c24e0516a3d4b6cee6568c627cab52552133b22a7e248fae36841a649215b056f9eecaaca";
  "0c64d724af305693f882166cd9da834a26684b006feb653b23ab36bc9132d4fe98c8776c99";
  "033723c52ec38ba15a5df3d13bcd027deb660d87843ec049ba187d43fab24be58d7b96936a";
  "c472c7581af8c842b41eafaf9ef24b8d3ccf447d8a19fd1f878d79cc4fb2ba39a6861a1c3f";
  "2f3aa37b17e7371569b1e06b5d5cf3b09cf075581f863b154d346c388468d9d27f064648f8";
  "3e5d350d25d8009658c500352565e715b48ea59fc51a5d4d0ac2bf22a3462b4d63cbeb99cb";
  "f605ce94dfd333699f1b57d6d39f12bd26d178d15d0f1639ca51f8c3163570a01fd2b6145c";
  "45075f58d279e64158808fe4bbdf036a3d160d57a8a31e6f9854651c2df7fbac2c8e351780";
  "23bb797c629c882f1ac4652b7e147cbde40de6c3508ea0d9a8ff2266581057b01c9a01a2e1";
  "8b667206f373f1505cfc78eb9ea0fde1b7376876e7700f4980a10732d1ab6e92241d8760de";
  "2d9f5d3c4af7882ef38c1c436a2b4cf3f753fb11092d84c2133b60ef72de03f9496b93e020";
  "77a53981b155d5160af40fb879ddefebce44c87ec7f4965ad394c615c32aec2f4d91750cfa";
  "9f0c81606bce6b99fe65b43755509217a3757765b64f185873e07e7fc20793c4022bdf5c2a";
  "b094e68726a7e0710b26bbf4ff2b3ff672f6b386094d9e2cdfb84b2d1d5b390c2515a8c20a";
  "4c514d21acbe968ecd1542cfff1ed5cb5becff4d8bc8eb154bb1d5f56955efbd09a2984af8";
  "23d525f00daac80067dea64289daf0323f5ec798cc6385c400abb2006e471c7c1accae8212";
  "4ce451463cd325ad453c9333117a1ba93bcb9231d15326aa036e15d6fdb6026ce7aa342a39";
  "3bc0ae5d64a98bcee914dbe9971d4d44c2484ba26a710ba4bfa7a94e8c2a4a5ce58e16e47c";
  "9349873c5c05ef3b23b174b93cafb2985f120a1fbfc5acbaca6e5c768ee58a3d7303a9adbe";
  "fd91755658ca64330073a4e7dd109bee4ff18c272f46e675dd14c7785f829c38337dd623f2";
  "1c84ce6b00206e7665a591cd47fc305ca224920938b655f879d4dccdd7d111b95c0e9e9db5";
  "1a64400ea525ac589b50dafa4f39836a704aab501a2b5a371781fd41766c75ccffbbd26402";
  "ffc78ff8f17dc8cabdb122e9c712d23dbd25e46fda52326393c7f27f87e59eac76996b63a2";
  "79b3b26095f17a8c2d24b0065407354294aa3c2cc474f957f8418269f273627fd0f47b8559";
  "7881a5c0a71e44c5e2570627f7eb23b9916fa5fe2e342517c8b2663ccd22d1a4b11258b8dd";
  "6eeebf3f7051b8b3c4caee0cf3050b25f44d6487604334f21bf8ed7aeb50954b3c934928ad";
  "ce98c3d6d7c07118a2c9a15d27892033100ae5183b07adb0f8dda0e8537c24f98984d88caf";
  "896ecd895b13bf3ba3791f148965791d57efcb7bbcc2cef860bfe8f7e08fd617f50953727b";
  "d34a2224de320ce7c3aac5142135a22fc965f39afdd407276e1f53700038f9cc9f0f466376";
  "d7b340f64ef187e391cc1ecf3109f4a40151e26b0007a0e5546ca2f38663f36f244a081016";
  "4053ce8734f5f866551a754aae9d120964385d96d818e6fa6f6bbc323803911ce7da15c37e";
  "c84e9115d59c19cdcc74cf2db0b379172500dc7f97b9ac295416b7f7de1409078d76d98ffd";
  "abdfd76e9878f54105121cbb758ad009ea2ae5f918b19686e5b481085373b80b0cf96ae066";
  "2150a3c0bf4f24bcb86e8392a63443772a7f63fa89145847bca55838ab94b1fe71048ed5b8";
  "98864fd2d8b8ad9a56dc28e870334d2765d45c324bc06cfc0da507eb2f67ecde20f1d30e97";
  "9c1be748de6578a759f2d2069ff99e40ffed35b5bdde6ca9fb579664eb5b620286808add0a";
  "b1cc334c51293a3c48b5f8255afe7b19eea40df04119b8e0d6334d3384dc7b02a5f507af40";
  "cdbd0a3dffeda4bb88557655ca443f98e0ce61e16de00924a43ba937e33d58e73280b5e8b9";
  "94d018006ac8f64a436e3e3293d3225b1cf7aadc138a124e5e52aa81a906c6e4a751f9a790";
  "4f007771adbe96"].
(* dSFMT-poly.h:142-211 *)
Definition dsfmt_poly_136 : string := pieces [
  "4f353d55648cd702ac391876ad7ef77453ed596c39bd1f9bdb670cf12e5eb9dd4bf16707ad";
  "a03b253da703861740a56e0a329e1b26ffa78b89ec13bdbc78d4ba9323c66135408fb23eff";
  "347ecbac17634a38e8690e04e27bca7bba4e192a880b6af0694c14093c8737ab8674c804c8";
  "71596f24dd93d980d3966d1921b183691fb2c4dfd099a9b4e0cd8ef2fc6aae5d6b1e972a99";
  "cfc31abc543bb65fdf18909a4c5e7aedd22cb9823241f036ce4dc819280510a8dce20a670a";
  "de09edc591d6dd961c80fb08c21ed6893614e8622a020e7ffdff135df66159edffc98b9cc3";
  "303982562e48e51e4b162f45b5223b1dcffc4387b3781f69cedd6fcd840d4297476927f6b5";
  "209a3e4a465dd6c37d1a485d81973834b5ad801a7094fb173eec1dffc5635599064fa4cc8a";
  "e2f8382b84f4d0eadbe156ec213b08406128e4c173b5fe5ae91cf7a92bc2eef8445c6bbe3c";
  "7acc16938748ddd6ac339503a6c08ff2056a76b559d637c1640242e72ed094d7c0cba846b0";
  "9436ed13873e776597b32939f7da9ccc6ae8c604e226b7126ad4e7df3c4d7287c284dfeeda";
  "ed6ce69258dca7b32044ed0d6b5da5277de783fb864bd087b2ea6880c104a228fe7e474b2c";
  "c3a3c45f97bb014f3f31ebec47e141eb44eff7dadfd3fed99104eaffe24f5839bbabf9b4f5";
  "d99805993012009b279d0bb16526857a06a8b4534e690bb6625eefa71bed516a3a47596ae0";
  "184721f15237ba1aba649253059d68de569fcaaa828dfae00dbf37bddd035f9799ab41e075";
  "beabc69f3d58d0e1b94e46aeb69a21a039ad05588690c4a8f99a60a085c87e2175d6294cc9";
  "235da0d22e24c698295f292d780c487529fdf35a85e84cbe668890aa8fc72bfb55f304dff4";
  "42d440a6092d9692edb5c4e208af01ffdc787113daa75e709cf31eddb687a195b7e67506e5";
  "27d0fec5a3d1d65131e1ea4aadeb04ab907f010429615657e406e2a6ede49fa23f8437d406";
  "66273b8535e32e78ca858a963ebed3efbbb8f36cc56f4f14cf3b3a395892405de7c888e56d";
  "bf7a3e62206ed0d76c48f4d649a289084be20eb7c3413ee9137b43b838b81485675e06222a";
  "88c8df9dbef050ba65cbc63e2ec8c3223fcd3065dc3b24cc5aa8154ef1d531c781cb6a0851";
  "bdd6d844fd01d9dea3754673c961f8534343c9f96b528471ed06aa68a98db2ba7255883804";
  "bca94aec5a81d297cd9611e5fec502fedbcc41ed34066abc9945377c1c23fa7d9de076f060";
  "295739d99d169470d4a0a993473bc499c1d7fdc54da852cdcdfa3077a9ee65ba109261d5ca";
  "3c2ffa850cf6eea0f8c058ac5d1a64bbbb4962052da1254f7c9c570fbacb197c5bec186113";
  "adec2349849d6cb916d1dccbdb11709e4db9f8bf5e5e6c6895a4a33def8eca1aa5ddc60f92";
  "9f449f12947dddf0c1228b33a8760b4e27dd334fb9dbd6d5e289fc68f2f8a3a0790c616e65";
  "0437ab3f045c4cbf5d9a2126f34749e8129939c5b0e8138f3276fb5b773a208b8d302e4fbf";
  "3cdb9fba8e9d1486d71961f4bc5681e989b86ff2ddf1a8f0c3738c2fcc24249a6889e34411";
  "f82bdc257465b9d27b7b885449a848f9e7d3931361965b6d38c20af3d094493ad7eb34deda";
  "c0b7870db7a4b70fe4b215c4d4c18a72b09fc0042de80efc506fbcf4ed920d501f3cd36d25";
  "c51b4ff04b9c0f3ccbcb34861db95f71e384a78f4f36cd06d6c675a71c4623d834e94a3908";
  "03320002351c719de8717fc563df4af8eec0ff54faca61c25dc500914c0bb81a7f9286a213";
  "309966a2a80e2753b38db11af127e06aeed2d76e0ada050eb2634189a285f4cc1a8612ff20";
  "f0e85db32ee3be89961fefc863f0a20c8826d48005daa934201735afb471f99733ca30ff15";
  "56adbd16ae119d39955a7339cdada41a93a96bd64f19ac223c15a3130006a4759fea61d6fd";
  "f7006decea139ab7e497f6428de675614254078dcd644daac82040d667dd7ae7c704371928";
  "2f7de64851e5ab4f4d94a2159ccf48858d7ffb00fbd436d1ff7e66863fe1a098ed8f430e3e";
  "fda52e8d044c0bc079cd64a31668ef3e8c235e4f2d84ce51a266ff9c097a4187d0102444bc";
  "37f0aa3264075dd0b755214566d34be58a7cccabe27011e9ed0baac11d8f4d686bca5cdef3";
  "7ac7eb86925705d1ce44d3300ad996b618f422480d7920eae1fd91db834a075df267fb3009";
  "428ace77f921cfe9cae74021790769af30e9da1e965cc75f27ca94d8800197f605cd45d991";
  "92570cfd7513210b9ec406ce95bfcc91f8e939b525de94821ef6c88c38bf364d5a06eb490b";
  "982104db5a7914f3fe2fcd842b7906150bd41f9aa2cdaf1b04b92ac4c4148cc7bb66f3168b";
  "c863da3410c95f55c44b90c79aab71ba0fc0cf7b38d813648d2f1a2401b571b6329a69daf3";
  "28718ea7b2112ac26a2d72851ecff851d0215e150d15d481ab53090ed11ea17c47a67dd500";
  "49aecc8c34adc815c8bbee03cce20071128d4bd4326f83c14269f4e9656b426fd65db25c57";
  "bae13905f30de79ff2871df661ac081fc74b85bed7b3bb87e260db309fbe85ed5770798876";
  "cf1cfa07fb250830814e91dd730f210ac9793ff3ee3dc95a9a49307b507b3750a10a68fd59";
  "2d5314e7426e09649af02135b52db3452d34b00df308c6ac88648ae2a101e6eb3e85305ece";
  "b4f4798c920015e1cc8d062e81ffc482cb10ed8b0d4cba064c1af3ccd88f98bd242147b7a3";
  "64674d9dde13c3a4574c2d878258f7f68f658db70209d7edf8a4768b86ee195b57f4ff9af4";
  "95233b921c98dc797e50a0d4c97caf03ab442a0d51cc24e7cee81768dbac93e434b852e9b0";
  "abb3cb0e2e6f4194798ac50a9fdeb54b147896d43569f9211b24955a88dcfa99aa8b41f582";
  "99c336b7909852af898dc82bd25c88616bfa6a102e395c50b9faad441e44cb6448a6519a2b";
  "1b3895ff65296bf0da31a664dd1a8bd15bc3ffd51fc6885ff6a2d692b90fe3f15813937d39";
  "d1eadd564b32a0c3fd973946d111b5beb3e25fa41f45e293af913f35c0d4cd52fb20975ae1";
  "0129a13581c8f003f5f50de3285cfbe69589a813b7d2ce049e84bd70cef1514c0174590526";
  "760c540842d08a84551699017b9c925b665632654b0d5767dd3c3f7a91b7887327ca6acaba";
  "5c59ac8a87949e31e17332020c7e9bec89b1e90062d8d754310ef90600196fea10e662d6a4";
  "0e048bb869ee01f16a1902fea6a122b1345716b42ffb0249ad30f1ac7745c1bf36c0d6b1fc";
  "4f2ecec44d3c17b76ad847c5c2e38b402a159d7f8900ca8f2394b6cb1b3e55edd2d479e519";
  "52f19f7a205037db818d0a9f76c13299927462ae4e62c2875c2ed6fe97b7fa661c4b03720f";
  "546acac0554d71f78be1a51b82b33ec658f1e91ee18aeea44edf688d00a989d09132529050";
  "317ac5177daed2a3e4631c6642480aec738bc889bcec2a1e492e903bce72e4e6dd38839977";
  "bfd9d7b437b7aa3575a61956ed269e9f15a07aed8eb2bd9686f24793c0fda91710e4602644";
  "258bf449f1923082c4a9ad5510c0b6a3b60dd8bbad32560227f5fed57db8b326e829eec272";
  "f4bf6a0a3f5203"].
(* dSFMT-poly.h:212-281 *)
Definition dsfmt_poly_140 : string := pieces [
  "f7d803113a5da67991c8d0838bcfc755399e1fb766daa2a52d539db9a967ccb64fc0c3440e";
  "d9e4200a04512a3c5b3bd5f30b874b78f1a8c89df9811858e8f2b7791e167095e672060c69";
  "7f993e537552145b141f24f61099fd50b266009a43c2f2f6121de1a729f6b3f5142bf942d2";
  "f4c49d01b3a817e1f136ea467907981328d6211db86018ecedf786535077ef816d0db30411";
  "31181f9b13f77bb210e4fee3d8b0beaddbee2120b6f9eb65cd15ee85d940146d9eb2af931f";
  "a717410f442651e515501d3a70fe4a572df2f78181d37f6cff9a16bf78217fd62b67d04603";
  "da0455b1a092d993ea257457b7bbfb2cb0055f9746f92830671e30d2c90714e70002229cbf";
  "f7e7c9af82984bfcc5852c112b28e4d73df9e16e74cd329947ddec56173d4c9c343e404eb7";
  "0002977dc7484f71948c44c630028ad81661ee53d83dca1409174df10604466c0fedb06544";
  "aac29b7340034c8c8957dc3830001460a97e225f0e3369a75fea0115aa4f7e280477ab835f";
  "51939ac6741d5d3d2fd9fe44d7cd8b78f2b06d45686da8293b545d95cd81f4db4db7694620";
  "438af7f5d5cce32ef5203d1af678ec8c09f4e333d8379d2703a4d1b6056635bc9bbadb7df0";
  "46c22ac93ced23630c1e4efc6607118824b8796015ca355661de33338ccfa123cd6019c49b";
  "d9d94f1a24d9d9c61f37eace372b9f575b958de5273c4660c48fe45d5ff715003ea29aa3e3";
  "2751a10935e4938db597ae610a36cca38b0b0a6824791f3cb45e2af7dcf3a99e5f4d4134fa";
  "0a61e0a1c297830d221ab7105851f882f8106562c8db4a304c3d0126a69475bc314918997c";
  "e5714c3aba3cfea9af290736f0fc4eb602e33d833a8698cc8798876166e6772f85e25f7e67";
  "ab199ff1a6dbbaca43ad286b694b5553249fee0b81a35e81508e6a6c40df935a2ac3688fce";
  "a9f88cca4b444e7c48bd27f3113e7f407de6765029c2f8dd94b019acc44e5ea1e81c5c46b3";
  "512ac45f8a0feb5172639be9d7b170517390c71106430bfa9f341a14e74c9a7c5b10e94b3c";
  "0744ff819790fce2edfa0a37dd5c995205028280b7470fbba6a2b5d123a7ce29018c8082f9";
  "6beb37e72ce2a1b9f3643f0299dd0ac95d2ecacd9a61ab5e6b39b2328d6deb2134c493b1ea";
  "8fc25bbb48aeae908f8536718d605daa68eaa14456027b1d9db47cb4447ac49fde7b5164f5";
  "7be79a113ee1231faabe1bb5ef209c2d4011445437abd5657d5064339268b6f72d93623a52";
  "607cd06c9bfb2cfadddc8c016e326d47ecaade43401f7491f294bbd6a05a5bca18790478dd";
  "24a5a5a107badef251a232fc5cb045eccf22a1b0ba0edd2ef381a91939dc8a424ae1a9ac7f";
  "ca0ef1e551234ee85ac96e260909ae01c0240fa0fa8953b886a1fdf07d59ad818401f835e8";
  "9b606ad7e0714575f60523e5b1f98c0abd4a99cc4d1628128f9196fdbac90fe855c9e8650e";
  "7825b256f61d022bed9d0b82b2b27ff888139425693183a062e8d8c6e9ce79e231695b7166";
  "6acb37319659347d23f87c5e4df61648b63521c17d52d1fab69a9494761dd93d52b75c9bb0";
  "8414f4493b10f3f9b663a271b33a3ab7cd179771e6530d948c0c2e3748c6f64a9652b52a93";
  "8d9954f722ef8eed9735cf7865aec05dd98bdd1aefd928b6391d187a17270086a44a16e702";
  "d014dd796d35f52acb570a6269842f371d37f30d93f275bee3543e94715ec6a8b07836a94a";
  "152405a29dab77e389aa565ca5b6f6f5ad0ef4d9ff0f376fe4edb1a1e2eaf5288ae3358d3c";
  "3c3310cdf9b91e94539bb7b0388821eaa79fce6a6a92aed1b5d13639a46d6529f11b69fafe";
  "2d933372d518adb5a17f0a39d6434550fac5810e61a2378a1190bbcd89dc86738e919a5a40";
  "094132f37f7dfa454d2869831c8b85d22ffbcadd6cfb638cc7634dc3294e53acebfa6b4b14";
  "eba9d26e4864aba01c95c27a091b363d4baf31525eed57b0e75967d88517e926126203803e";
  "444e4612c0a1cf6f9fe79e139902059d7245a4122c11290c11fcbf51369c1b915d5c26bea2";
  "f43b3ede5fb3ffb8a9ec194dfb8522987c50a6520a1e330d5d6d4efc4e7f1b1d70db232bde";
  "be8e06b62fc98998d1ebdeb0cc4eedecd725268c12977918b0f66d627bca9466989838a09c";
  "84119ed2f36587c30b56f89c5097161e35d3383f076e841aa336dfc8e8b49c25c30142cc2c";
  "396d54cd9266e13b97a6c90608fc04dbcb682d635719147deeed51660cf11a32bf626b0c3c";
  "9960d04f5ecde243903ab69ed094e91752e539827d894570f6bc032b75f592b949643bce7e";
  "4eae6c5b5e2870e633fb59240e31f1ae47fe3c3f605e9e7b3de23c9d3721785f713f24f4dc";
  "02d1c9a0285490d3c95ada2c51045d7f2c243181a52468d9e76e7fd5264dc30505ea5fdb16";
  "21634d55e12aa692ca0e655ff0083c82c267d452ac289ab649075c999c19bb8c15f991c099";
  "f6d03987a7e001422e870510469a2cd92af11b97e9b4fce0f249d5723c58a8e2874fa45933";
  "444f263d854d6bf1955c456081e09bdf290d6890d5e971ac9f7f40d40db2b15a556f41fb39";
  "e8cc679115eb493f28fd49d8e861ea5f1fea8029801743808a3a9a155977c6fa693a815c28";
  "fbaf0fafa8f883268fc9ea14644234214260a3e338d2fef432b0b6b4c659cce087320ec52f";
  "2c6152ac00776b9bd9bb4d656137a46f7d19690e59e1da26cc897bf74c6e5887d6982e452c";
  "e24aa7132b37796d5d724ef93e8d451dd63596167e3a94104093a3431e368f64e56916ec7f";
  "0e7cbd8615138e888aaa66f3bc1171fb4e5cd5d9e6ad3b2a490e8af3d8959a170e7bee50ff";
  "3488558da09b0ca947624bf614442e6e5ed436437e0f1c8aeab90fda22aa32e2e2cc8239a5";
  "80bf6f5fb9ecaf35eb67bcb48092d256f17e25dcdb306dc2a45a7d25f296d9313de4a2c89c";
  "d6b0d19541cde890352a537078ddb453106d064f0e0dfa57a3390d5020f07faad28a7d11d6";
  "c36854cb6ebcfec28c3adecc85aebe0c5a438a126c8cadfe7a61525c50f63016761111585c";
  "966e128d71f954887609ac93a6faa646056cc0ced91f4d694e698234e39784ef8a706c60d3";
  "682f28b08f996ba6a770913f3dc75ca90d381e76c747ce0fedba8d6682376b754ec93d4a83";
  "03ff07bf71a39d099dae82fe1ea9061834801e7c8cb7232cade7a4c512f94593ce2b0bac59";
  "8a19faf6d33afbf51d8ff3ec2468d57ce1c5b8717fa4c337a55ca0c644b9e64b05bf3e6174";
  "8400208ae245fa562c2b9e9cbb3479d72efe2c08393b20fa23627d70123cbac9ec0f2551d5";
  "b99c957de57e16918d3321a926dafd0de6a79171f9e254857b34b8ef41cade8005c183e538";
  "5f92a696e105e873766979ca13611ae17e5a26db3da395b699fbcf8b64d94747eef05ce1aa";
  "d673038389cc71ea48f8f3ec8177d6233535368452e8b1858e625df56682fae0fb03f784c8";
  "fc895f8dccc1c7a45bd68cabc7da5d7a43ed21aa63269066406a5061018c0bc4dc1832c7e1";
  "5bb296d3f7cb3eab7b7eff8cd90414b11a16c21bbb17c1ce08cd3e89660e2116cc13cd99f1";
  "bf3f0a6d971d4"].
(* dSFMT-poly.h:282-351 *)
Definition dsfmt_poly_144 : string := pieces [
  "90beb28afe502dac435e8b35ae92fca28041507f5ba7e07b13b1ea5779acefd5339fcab8ca";
  "c0c0ac07eafbfc56f6c92a10ceb274ca400166ee4e73dcdaaa6621ba0c8ee993db0a9528f6";
  "2e36ae692f4bb27d520e395b0327eeab534a2a117d4c24cf4e25efdc873f86f21e2c96a128";
  "0f40ee5f41da7a51cd02c6b6d9641da9188468fb1ea5614078b892c161f15df1a8a98c4f5e";
  "7f90b979442c4c18e196749814eb8fec6a1da4cb0c9bf71388ace6052513869d410d4bf960";
  "81ee867aff6b6695e64dd2a22a705ef10f97b70b0974bbd7cfc7cd613db9012e83ce45d9ac";
  "bd6ba585067962a9c99ebe7bdf94752a8487807289849eda1bd09c288b6e402dcd4461b65a";
  "52266e2e8738b10ad1c01b3de6de2f2b6de79fa779939f0735b90794030d586f722eaf02c4";
  "bce38de683464f5ec88b4acb887e8f6a6e39704975dc8ac7304f56ffee3d2749a8c68a5f21";
  "0f8119ec3bd5620e6927f76b52a608e408397e40762e77db32f053a1ad7e8752367debf48e";
  "0e6bd329a79a2672b0d4d14cdce29b43520e2649051e1986f3c2c66f3324732dbd59ae5559";
  "c1e1ba72cd76d6bb494044830e23c88299bd847ddebf87fefb3183171be287df4198ff30f5";
  "d3c3ae30763326c88191ff10c0aa0bb2344bb4d85aeb34bc06ac40bd00c5b36d6eeeeb76d3";
  "e3dedebf0aab5b8631303dd7326a5e7b7d8481ebe8e02d031b320b530dc451ac27951b8e2b";
  "1e6ea210611460213e58e54a1e2d7384d306d6ba6a287fe4d0c7f6969f220baa869bd4b18e";
  "a1de05981c1f16faeec1c3fb264a2ef9a6c5614872a4dd4cb9aa8256847658be91ad81fb85";
  "5d06f2100efea672a52c0fcb10238d7d420bdbb14fc32d16cb178755221a22a35f00a4671e";
  "706c08a6bdfcfca2a75b928e0aacbcebc6ff6a1b2301b97ae2a7965a6cf02b5638d858d70a";
  "921378f50654a4d8b74256cbd1eb436b3d92cf1d32cccfff49218cb6919f4b58625254e0d0";
  "73285ee10f540f59ad760e46a57bae30374966171ba5bfcf07e56e8d8c1747abe7f45835f5";
  "81cf8c4b0c2124295bab6ab169b23bae5122158f2d2d28c0f563ecc274376c7ce5672db2ba";
  "c36ed3e7948f33f71e1e3bdec018f5255eff237b78c6f5e0b865b24300a3d3f6a026d78ac5";
  "1016140c34831792391fb01a8a5697cf5960d607971f96fa3725e99b6322f1abc7d187c47e";
  "6ff937a4b0ced8c38518f53f603707f241c109e61e0714e78a2925b056b3935b181e4e57c9";
  "5b2778975a51fe29c8fc5008a8ea5d42dee16fdd752f2f9d18024465be005725fd87aa7242";
  "79afac102ffd2808a9a11d0aebaee3eee787370489c0acea89828a4d0541b2f4db60a48879";
  "458152b6d992ffe6ebd3a8fcc34ec90962a3b0c2ef8becd62f5245e73a55754715e622a6be";
  "f4c8520bd08d9b1a84509f73091d8ded40413d35c0683a20517259fe054aad78530ae3a5d2";
  "28917bbb04dc30748f39df261879499386de42bb1412cc9eb034eb472a4e740f60d06b134e";
  "8a45e7090b1bbf93f394818d26e1ec473848e0b328f4d740aff60740c65198d831152675bf";
  "02e9cdc6e84c1e6a36c5a556b4a5426a0301e66e0d970b27a92f4ae91e29dd5d5fe54f4dfb";
  "062726a4e4683f89d9ae2cf1ca0175e54e07dc6892f1d188c2855df3984bac5927b292fcc9";
  "9fcc7e5f27ba98979f7e27ebd7676a7c30a49eaeb6642943685571baa08efb2f568286368a";
  "22ec04b3a99615aeb8488cac6d9f3bdfb475ef6d4b0abdd0c101e1a45e6956f82871d2b3f6";
  "1835f6f275bcef022cc4dfb3da09d4a48fa559080923db44fb5b71f76e825dcedb569ee562";
  "828f74e7822c411010c5e41fd6d2180cb28d6ca15c4f9840a689adb847f7fffb2cd91fc9ac";
  "352cd81ac511c91eab8ba59985a66e31104629b9e2769cad207a765f8dbccf82dd422baeb8";
  "993e402ad0c21ed728c1ead88c6e0868a3bb2f4c73bfe18939307df1376469a19e583c249b";
  "7ad0b476ea1b8d846038eeef512653d43e062c3d14fc0d8ee0deeb9cdde2dccff022ff90a0";
  "bb564084530f4012cd22389686af1dddd3ee044bdf4ad173cb19b689f716098fa7ee0ffbf8";
  "56a72d4d844c098b70994ee137a02743cf14c9b2d86635eb3e4f7c20256834488ecb0ec716";
  "cf564de23274d9514112c93d9219e8026f8cd6a5b57b13428d26ed619f6db984bbb6a8d8da";
  "0d61b0ac5fa43c8a031932ff38840cbb82b8a03c4a870faacd1ec49cb42aa747182ac302b1";
  "16b72e7159d42c456fba21f3b462b48e769632a93ee00a8c0d8f5feb8dcd07fc74d65b8521";
  "d1948898238074892be1bc0e40b08f2f4ddcf5cddb012529d5930e7741ce9411c643addb57";
  "77921d70af4e9b316919e02d6f91a5c058dbd2905b5db306046b08a9838d58c21dbd96e664";
  "4493eb1db7844584dcbc2aedd7dc1ef9649bcfc6b28c5d0a24bb6c9ecb2796ac72e24a0ba3";
  "17a780daf4d2480e93f8e50eb4f9c963610c54e12394f3d8a8de7b737a8e91d071e273f22f";
  "dae409a2d4c77a932f31434cfa65aeb4399ed8dae58a8700110ae4fc4ff2727eba17d5d5f8";
  "400f38dda2c08971fc090b8ee089e2fb87b5f188294ca1824f2b78ef2c47a7dcf62c950daf";
  "1929c4876b3b951416dab0f8a31e7c7fecffc29a00f3736fd9f53ed33ed83408e0ab7d21e7";
  "7ca3c1a6c4c217761598afca09b7e47ab86083733603e46f571a65451532b2fa8602b02e91";
  "089a8eb8cf471585a07a038ad6802905ba56b536dd47c572373b8da9313f9c56c3512b7492";
  "7d93d7a6c3467f8c93b26b552bebd2f2b86329af38fa83a5512e954d0b5c7a5bf450631d13";
  "6f542d8ca5bf8f5fdfe7f8ed77104937b146df93e3e242ee211e312d40fb25a80c659efe39";
  "65376115de9c4303dad682e1a0625fd6d12070a95514816b2adeabed18e5a92d1681461c99";
  "981106aa7127a467ed2aa6d78f2572c46a0986a5363b3e21e4bfef58ced24e23b4d5e36241";
  "4df2ec466bb9da414aa569a291befb44d4eae3e4e91d51f7e88568f4df83a9c241a271bda8";
  "4ee309d3e340a207cc7299df427438cc8a752cf6bb7728536f535e2642bf998b334c54a11a";
  "13906c64b3095b29198459b2bd7f7251d04ff9922b5e248c11473e3671c2d1f7c5159ed2e7";
  "70c321b77a876048dea755bf3d0a521fa42714e2b7f421872ea4fca2eb6e3548283f3ebda8";
  "76e2aae18ba6f7c118478c4fefa2b39d7d2ea3b25b744d2dd8d6c0dbddb9a4b44dbbd375c3";
  "6b09fb354f30263e3af0b5952890c412c389c39bdf487cf21f985d1f36ab2c4912c9ea1e5a";
  "77d5111f0598750dfebd6fb8838fbef0ca1c31047591de3c97a468b5b716aa3bacbb55f5d2";
  "e3942268c88dedc97cf3753a1c24a3fd5c500f2a3d5c0692d189b1274d03a9ae027dc12c15";
  "222234175d186b6904e79ac96b579b311e7d502d7789925f09acad097c626a89efa98ae5e3";
  "d70b9d5a83199bd7f2005ca575402dd4c6fa84733770381db1260b7e2388fb77c74e9df507";
  "205ce94b13c5d86890960e22ae59639bf3e6eedd532b2bffab7c02962b8aa7d6b9d2b2950e";
  "14ef0c79eaa594"].
(* the polynomials that the jump functions of dsfmt read *)
Definition dsfmt_polys : polys := Polys (text_bits dsfmt_poly_144) (text_bits dsfmt_poly_140) (text_bits dsfmt_poly_136) (text_bits dsfmt_poly_132) (text_bits dsfmt_poly_128).
