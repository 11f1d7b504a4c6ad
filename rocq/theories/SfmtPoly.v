(* The jump polynomials of sfmt-poly.h, line by line *)
From Coq Require Import List String.
Import ListNotations.
From Verif Require Import PolyText JumpN.
Open Scope string_scope.

(* sfmt-poly.h:1-69 *)
Definition sfmt_poly_128 : string := pieces [
  "c5ecf0b605bcbebf05a6ae430dc3cd1777acaff2b99fe5221eaa2a2c8acf0ea0b9617d0b4a";
  "5e8f94828b6710c0f365e69b690be81b206e04f64a9994b013dc1e046fb5e182b3d794fdd3";
  "d01d73d1c2aaaa03ce4398cce92cc67ed20c031a607fdca6dce456b8268481c80bcf740a81";
  "0c5d73dcab943e05e8a2adfe5f81d9f118435ceef77fbe3d9d58baa17378e24001fea40b87";
  "181de63568f4342c05ddd174a617d1452cfcb4fd1df0dc94802ce7b8c04f21ced8cd34d297";
  "71f5cb25471704d2bfc8abc2acc47f10d9f72f781556c62e4a089f44c63d4a2d7b3541fe07";
  "c197c0bd10178c2a81fa7888d0ddc777502f8dda122e3bf335e365f0e70be77f0383bf2d0b";
  "5ba5c1ab9cd94288e59f086262c42bde8f832819e9fa1467661d68ff8ed3edd81c8aa6c268";
  "a72bcafbc3ab20c1ecb1799988abf25a6b9b4262bf93fbd2ef44fe16e6a2702e57b8d1f046";
  "8a58a85cc74f2a75d18b3373cfc47cfd028f70ea8e6a5ef2e871b929b47f4fd1ffe3be9c4c";
  "89ac6c2c135fd1f410c8e0e9e55e4a75891f00e3a48f6a4a48b1e12f9032675e4942c50224";
  "1e3d75b34fe803d6cd4e33709cb2632a4fe42c7a94d1a57b166f1a9d19e58bc7d904740df1";
  "bca2481a01e6f390d647353dd18dc1ba77ac5334e3e0037413f2f41d33941ecfdd1cbdf0cb";
  "e4ad3c08ac47ec03c440971327b1631a8742ef3fa2d2fa7e76af3de0216f52d7f44d0efcaf";
  "927f54b673a0ade6910f7fb86da9ef4f3715d84fcd2159b3133371bdbf6e888276e238e3b0";
  "3ee0c255000ae8914736f597f7222c1764eb1b13a9447c406257b23e707576b0456b76fc41";
  "4a75620093e8f7017ac980a867f1221c1eb0979d14032c0838d976cf5d139b1c5a610ab09f";
  "117776c2167b201056b7f0cc246232d183c207ae38dd8d0fccc302b034bcdeb4976b2b8864";
  "cc5fc2f162b72b55f3ee9cd28fd4f271063d4a58e3a66698d56487651dbf7a135b383adb71";
  "661d188f6c39521381dbc3b2bd01041f2ebd396f9f76511cffc7ef7897903bdee6c086e193";
  "c541ebb401dca2d28d779000a2d69740e8f6560477c23b01920175c38604150200ecce4d4c";
  "cfd0a6cb6f4f2bf2ab37a3072d4e613356307338ee2e6767b6a83ec6cda267bb1994e099af";
  "4067d67d95341a1ca150f7196db5e2209969b3d432179a3d8da93f71825bc7b385d960f4b8";
  "81b30aa6a4cf16a2672eda09b3efea2ed7cbcf77ed405f1aa175c59f5f619a54cc0a437ba9";
  "7cd8d041a5ca0e75534b2e9c61d5ee2e1570945fe276921e18308db9f3a9805d798611f7f4";
  "96d2b958b6eb4e946d572c471c619565832d20d0e82eae1eef9e1a2472c6c851250c08aae4";
  "d403558e1fde9c399e324a5e8dede8ca57b4492afda60cea0996508a3567a01a5e6e822bca";
  "9ec8ac223bc0534c311ed07eae4bcaed013776ba0bbdb22b8bc038b61cb431c8079201e0f8";
  "304a439fb8dc1d71050e4d6c93b154a152def253ad808a11dea33c6d797c94ac0eac9b5180";
  "96ccb85081c2c02a89e32624e700cd1ccfa7eb90592afaf886d4f61f1a378ab44f29dd73df";
  "e5ab7a23a8f31a9b6f12639c81d3db851abff93938a60f61b659a481f286ba10339e0409f3";
  "9885f58b42e255ad89d0484763459e03a04097d2427444f59e3d49206f784ef676914f4a4e";
  "11b66635881ab05accd0020559a780ebd53999974dae64cfedc4ee856ae2d3b3cd5d40337d";
  "33115dea8376f07da698f20c11dc86d8203d0d12bf3ae973bfec0700d2337961e1c4c9448c";
  "b5730d9457afb1d8891301f3264fd30cba095db3f527907c80fca305ea8b9ca2adcdb0e2b2";
  "781839a1ebcb7ff5b627ddfcf72170118606e5742be995af9d5e0f31798640f32d6e09438c";
  "c75737d6876daa5c0eea191c6aceff45d66b5beceda17833b2968b1e9454612f85a93c239c";
  "96a96eead57a36da005c661e1ac83427e5724b06b7423e99731bd126719998e17ab3be9d2c";
  "141002533c84cd27ff029cea709f5c585dc1194bcb6df9663a7b1c6adca72895bc2f42bf80";
  "19f52975398d8d68e64b76796e93187ebb1d92a10387c5d41687d8bacebf2705904783edd7";
  "1b1b652f4acf1185289441b21ddb079de827dad3adfc68a1832a2ef50d9b4b324392267dd3";
  "ed9094eb442c4306758ba07225268026010bf582ce2563dc4de2b6ad0c8b0aac39003f4b0e";
  "c473854125038a77be70ec8d41301c56e970d8aef57ce13f0619f882edc582d78248178adf";
  "5576466b0215ae8b899d95df9b6753c87fdc3a54ed8a90923dce88b89f371235ca1d0f4c0d";
  "6737ee8db168f7ef4aea9c3bdf06d9e96236333b7ee207bdf4c3603c55be04a890837a041f";
  "3a8e6ec6e3f91e57a94504098e341ec44a3236608d439cd0b5840d7f1f2c589fb356f378c6";
  "6439dc97ee5b176050a208bc813a2db4b023dbc5298a013aefc56792d62c245ff9d18228d5";
  "3ae155918d0a6ccf61131cc5cdf34deb4545eb48a0f5b7e486b146af6699a756fac06e9a33";
  "1a8fa944a5b0046321a40635a709bf2b9bbff44d907d83924dc0d908ee1d21c60100ddb448";
  "687928ed760783568ec89d65fdbd077d5312683ca526d413f4bee45e814a160854b7329c83";
  "fe490a242595fbf3b85f32b4715f1034c9737d7fab25b4b29b4c90c9919df8377c5111cfdb";
  "b43e6ad9e467ff48d0d85de6457131a4b4ca6a69e3de7d09691a9b5da24dda54f3fdc5f5c3";
  "16ddcc99842cce8af4440034f4bf6236fae7092d41a027880b8e29371a476451997d52ec9b";
  "c428308e171499e29fd008f7a9dceff044deb0e7164e774b248e472ef5f38893e7f71bfbfb";
  "4728e6063ba1111df7b978e81313388f5b6bc1111ca35885810ed57cc6fce9a8f53c7cf40c";
  "c360ef836bc73a937a1979117466b2e1ab4a11cbc0be9c0741d12d5d1f7c7333f7d34ec9d8";
  "734541f0544a7242895a40eec2d46e606d751b275ac6b7d208bb5cd112dedea4652a38b134";
  "ad061771b9ba842108e77ad0149d3fb265a277a770d9083825b7876e8c30a1f83dec6d54da";
  "4da61dbeadf706e6a8d18d4e00fcd19985cb61c3e25439cfa68ba1f007b43a4d79c1f2ae85";
  "66318e0d0c0ac6e312fd9af2760258a16c1c2e864ec053ce4970520e1780c9ffa218fcbeeb";
  "803e553f29ed66da093b8498ca20e030c9dab6d2ab214837468cc65c3a122222d482917c2e";
  "f4aae56e8b0f7625997cc5e726ae9b110ab111b123e71e123ba0b2847481d324d6f5568878";
  "613ab22aa7fe23ac40b04c82d9c118803804aa014d7b60d1d05c5bd4ff07e44cdedf09f8db";
  "d3738366d87301460db172acba11fcdba924ed7bc0debeabc4ea9ed658d12abc8d529f8b9b";
  "c736b07968db946a80c9a6e0d5ba9b412742aaa0675b09844685059cd00ff7ab088813ed6d";
  "b4460004d48f61f905c373d223a7363bcc5bbcb6d02bc711ac954b0a694c7bc40dbbb9eeef";
  "50282e63c56088786a70b1fc8720aeb993451c33a533e3703ce76e2eb8450796109cff8c2d";
  "4ba3f2e1dcd6d9397608ac967baa41b564"].
(* sfmt-poly.h:71-139 *)
Definition sfmt_poly_132 : string := pieces [
  "9900e02e3086113249340a0626f53c2e87b18f2728b72f8802242222f7a5b7d2cf5b579c6d";
  "78ffddec9cb37846bf11c8be5268f5cf81331feb7bdc8f5ee4b22b5e02c2b8be16b7eb7e0b";
  "ba0808b359ee2224d30ebbe4d757f4ab8d531714c8460ce97816c9a90a4c18193b5ad0d795";
  "36bd014a5a237826a3f7d422dd57d60a084f447f4817611a85c403c3297ef26bb26abe8e37";
  "6be114b1d58ceca4bfba2584e5a682126418132a8ad265fbd33dc7fadc1ad80aa8e3b6a05b";
  "8cf451b2d45640730b4998ef9cea450a48f0ecf6a8b672692a48a7779826f14ebbf3ab2281";
  "cf14d340883ad9430ef37c85c3fc2c00eb36674c10c51a4a07cfec888b86ba5167bb7cc282";
  "c632525ca94f916e1cea02ef4248501156ef2c77483f6ef28801d4d22c435f0a7345fdb09c";
  "feb505c812cfe9e59aef1e90dc50df12dc8b1f45c92db4ed169513b9f836516ae15efcba7c";
  "0f9c86ef7871adc649ccf3e26b1000058a37b3b3b6c701c0f9f80cf38988f70a44e2f217be";
  "4e83ab39d55ebf093ad34af05bb7be4d96d12a10667b891e167844e40887c812bd03f1b567";
  "1f5f39c8b045da0e992207e1289282209231ef1293c929c1a129448ee811b116640b1c3546";
  "da647bfeae747d1cf07621e4999d314d8fd1c6212c9d7932e7ae39854ee9f9ab60814f08d0";
  "8dfdcff76735e1a44ebf1c3a4a53b6aa8c11f8c46edc528040050b6f634cd97357c2628492";
  "66272bda57159f89464d6ee70664145b71c08a473681a7385af6fc320d552c31c6b8cade59";
  "251db7a1aaa9e86c99041e12c5354786d00e36cbada89d2080f423dea6be6d39bc2ede6677";
  "bcd3cf87d0541428fc74221d2d0b30a928ec36106d00039c32d4566841b5376fe093864cb5";
  "5607fe3c4d0291008508fcdba4a7b6ade48b322d981fd151dd3f95e98c3e7ca4dd22e8dfc4";
  "a3451b42780e7be5252662c081011c11b48a707288b6b0e958415ce6090162a531151a4e17";
  "ead05a0a286f44fe2aadfbd77826cb91064723edad1ba98a7714c33cd04aa929133abfedb8";
  "e6124fd554a2f24bc39dedb9d3c7a84b36309945b7ce55e1ad2c61aa148922d88f60215a44";
  "591e1f6d5c970fa1796a873d226aff5a0ec6f3f57bd146c4953b84352e84fd04a356817e9a";
  "9c8d757d5a20bffe7f65be77d178048e8bdb162b6c0e505e71dcdd1e1ccf1c28818fe48272";
  "70988603a38464b08a6f68c84cf90e7eadcbffcb629c45252034591a9b399ad0909d254d18";
  "fcafa63b78f706de1375104947c572f5c7b2c0918686cd1a4f27b1f4d9a88d23ba4488862b";
  "dc39ff627040784fb594186a6278ce1f99a07c24c2cbd456d125774d6f74f47b95343239c0";
  "b62563d9c1eb135ea6dc0ad3c729fe594c4acc2f974276a4529e2c3a87c758ffdbdab4456b";
  "dcdcd445ec70603fceaf5983f2a47a6aa21ab8e3f6b9c7544ad67bea96c0015b7c9893e4dd";
  "42a389513014d71a6ab22d04d15218d33ab201a24344f4ec3431a1779b9b8bee557fd0bbd7";
  "48107f46b2653d6c4c4b56eb67ed514441b3885756b82889679557156acfb53b6b622f1f1c";
  "a727753c9f524d630815a77b7d3e962ca023bce207d3bfa0b18196e3f3c2a5e5590ba25ae1";
  "1d4d9c2b67217d6ffd827fae53f883fb94917be3eb6c05df979a3d9a1f3b8959f34966b030";
  "d30e1618f300a40f8523d8c253c4273534d335e81e6bf463a4765ac5893f0f865120819e9e";
  "a1034c5c1446c28b5ceb37afdc42701b93e136274fc7eadd4df9100ff7b7478bd415b95f22";
  "6d403be1266391f64be43a08c5295f55a0b3c05f7e6eb556441b3bf56d4a9ea6c2700ab76b";
  "c33d590afef5182b17083fe6a9262786c69c1d7d52683f990e19e990f15192f1b7ceb5577a";
  "737b1b6deb6e539c3c61968dc59e45b00a5aa3bc6fe3d7cb810762a6e77d7dd8125e4785f1";
  "a2a4003bc7746d5e6fb4fb3ffbf155fd8707ad89c5e8f47540faa298c9a7a3dc7f33273204";
  "0ed54a69d312278a45f14e442ca61cfc33800747b6673905436d531eb588f6a90a6b8360f4";
  "82ed8585f441efc30fff3ad499d90728fbaefc38529924b415d21c9b91c420c86f6d9cab55";
  "2da0d39c6b3e33fbbcb02d71129af66120309e15b3e63be8f63abc5a1b19ece659ac2e679a";
  "c4197b09975a473e40880a943a29e13d3a9d65421c9423108aacb894686d65762068b2ff50";
  "00bb2d7b86001850047bbce293df298b09f722471b827ff42796e9f9cada7424fc003fb552";
  "22128adc52ea35b4ad9136035e1a8a1e769bd99f352819e69fc2a35d476baf367ccce4aa7e";
  "9937545688478676a9fc8ab538d5fc776b2ca7dcbd07926cd38687dcf1f590cb7e244b83e5";
  "c8cdedc07f320d26dc1825ebedb578e97e61341008198f5d391b961246df36c9081ff1ed13";
  "5ad6f69fefe6b82fef21a2c3fc54046a909c13ef46eab51cf92bd9578321875806b1da919b";
  "4a5b043bb95fb87503eeafa6d0c31e658c39f3a277582cb54fdd08459700b1812f5199236b";
  "d82899d6e6807e5b4cbdb4323a7089ac2968922c15da5ac465ac9a22057764545d0b65c2bb";
  "ae67a20601e49498f763807852a1b2bd2073464b9ef53481598767d31b02712dc1b670f3b7";
  "c290b7372c53ecafe94712ec8ab20beb6133da362b6978b725a1420920b225aa6c615793e9";
  "39d79c320ee2763438ef1aaadc6003e1651931b669cc881b63d30176f78887c3f65364ac8f";
  "d16a5c4ba66c38843d7894583840c80165a141374a853330a15e078a80ce78942f615ef6c9";
  "63e9799d9ea364de69f23d09c34060f0f0e9fb7ac6b734cf1495bfa36a3fb4cae17de6d9fb";
  "1dbfa4becf5b5de7c5dd7d2846be34779ddc73075e821b54929d7cd8b3142d3cc8bbfa4bf9";
  "705d1c2845fc88fe45700fb976c8a0ead128c014caa27178bc502916657ac3a3e21cfb644a";
  "ded45c29ac8a4553e79e74c0945163da65800cb54f9d478560fb20c6895aca34fbc125fc60";
  "397449a594e54a244bbc926ebcb90d4b1dd91f9931935ff235044563c8a657e4167ee7b0e2";
  "13a961c0bb7349618373eace8f9795998409ddd5c998f69f90d6b9542d787553963cc30ac2";
  "bda42fac904265e3e83ff29ee559bc03594e1e8007c9acb22b9609a3ebb08b6551ac0f2caa";
  "8c0a1e965802b5cd95221ac0b13463d70e5cdc9d553b9fe9808544be06720908eb2264fca4";
  "174b689a89b2f2f2da26f8ff37d775070e4999a31aecbccd13ca4af47a4a8eb10b9b81423d";
  "b37ce60eb6234079fa21bb1b639cadbb6dba441c30056aa1946d463a5c5ec093edb8bd87eb";
  "6887cc1ca4690ee6186fbd0f64d4598462c42a94dca8c452239893e5bcf5d6bbf330402eff";
  "3813fb3aef5af476124c1665bb4e93f8056acc751b6aa5fd474583a541dc3110012b7c6926";
  "214998de92c9f75f529aabc479dcc42d2acd8f1e3d28de16a2010077227a022a89be8e30cb";
  "dcce90ce88d621deb7736523f01b50f28f458b239311fe4bdeb1e62d0906d4ac4232579d0c";
  "b8192e40ba45df09105c745bbae52d0d7f"].
(* sfmt-poly.h:141-209 *)
Definition sfmt_poly_136 : string := pieces [
  "7273c4211381e504394d1519c4dd54afd35a61ae428c5e14c4470d72592a86367f13935f12";
  "d6a55e538c3d1650002b5414303614933495cb83d62689dcf9fcb7bde57a2805d582588f6f";
  "4c1f945713d460dd12242c9ff8c72ef58c1d365de755175aa1e8d09811e983f0d6f4254aaf";
  "dc0d6c405478693f084d9990cd7a35e985a365dc39dcb1eeabe8af45837f626f5b6c298b0d";
  "d9938c2841aead52029f37569af3f18b560e50ee43d9d91da474771e788087d9ef1e0dec70";
  "eef5cf316f0e9b8f38b9d59e12bfc8a571c1e9baebd128facb166781e83b513bb20171c8b1";
  "7612d1316b8d108eeb999e179984a21fe0df4c7ec405b22cd429d5c00b9f1c181fc4de59a0";
  "d163cd480a8e9b47530098dda787d10f0c7c06708fa4c91e3f60785d1b560182d7d04cd6ea";
  "3d7f47b50c5dbfc54f40f2629b1081c1b6175b81e98c7239ee607d6fabe6a3f0aaa8413bb6";
  "1dccdde76554846c2549c37374a6a40b328adcfbce376a0a5f0ef6237755e364b49fa19329";
  "c2f835dede557aa436bb616b9d972e3f6579db3cfd50ee2343b9beac281a4d2bc07d4d21f1";
  "04bd0119aec550842fa5742c2bf256c2a34bb69e1f6f82221d46f1b99147f7c18531d677dc";
  "ff250709f3ce424da5ac8f650f2637bf9429f6e1a67e1c16562ae7b51895ac9a9f1a779eac";
  "a0acf6bf4263519e40338a246772441073442a7d6d4fbc9adbb881f7a4a6d71d04d4ce1776";
  "aaf5b5200203c14d5f0fd03417f013efb8353b4e3bb2650fffbbd51ba01f39558d872900ba";
  "760d147df7d704e650452f5189da0158f262e0574cd41ab84a78014b6a7c6676cf43474e8f";
  "73694a0086457024a106dbd8f5e5a41506c5df5f6575803e2da35f8ef816dc6b51ee5288cd";
  "0eee8ae8c08e4cdac52b17fddc5464ad5e3343c77bb3c0c0e7afa99864639304a7b4ef772b";
  "e9a428c3130e106fb5095622e4047df440752ec1e65d97b3cc3f86dbf33acf88ab45799166";
  "fd3dd1ac086f0e91d636a602549ce09387b08c0fb85972eedf63207f6771f46f22cd0b65e4";
  "829e78cb2f2395cc29d87faf5a450ad3a28cefc709c83260937f366852abc14ff4fb788950";
  "fdf39b96b5d8163008f1490e080ee04e7bb4acdcb35770d34335a98901a931ea525955de2f";
  "1bb0075e436698b987d5638623fb753e5e8b393a0982997a9a080035b20071972d828f2dfd";
  "0337d65a1dcda6df4e0e93fe4b669d9e90716f5635b2c76ac087f3e5635db3177167da7927";
  "8110276d7a82af41929558330235d48abe4953d4d52d7b6c1a51b091f05c99aa10b4ad5ba3";
  "6ea8a0d679491eaad29cf1a56d648264130293f0d6cbfdaec57c4dbb47d204454bd2864108";
  "3bed3dc6858a46d1b52518dc05b83884ab48090bb7b84e76038cbd4c195d053e564d11f211";
  "3c35c4f623d7cab1ac74ceabf07595353e475dd4627450151ebacf0ffda2915de2e937a90c";
  "a231a43e7747ff5d94eb25090396a039e31865a6ad482d1a53548a8b99fb9863f61763c485";
  "54d3b502e607aea10ffb253767c729314464866641f2340b7c76c2cf53434e48f52499cefa";
  "bc454cc28b9be734168ff9deec8f6a2b540e1281c17bcbac2f12ab99464dfda80b2c46e466";
  "6a2a150b463f397612f5fe78aed885656bc74de096a8ebb7df39d30fe009b69eebe3bb4de1";
  "0c54dba19b92e61df1055416eacc15a798a5833591a7b3dbee9cfe477c3db9ab8d8806f4f1";
  "1ffe7852f4a4a8fca7ef45b405ecd5ede36269a6e17fbada50f9252b88c743010d12c99cb7";
  "43bb9c6d09950f99ec5f35150733afc9c52f37c72b8d1040994febdf2900f3fb6948c845ce";
  "2bdf3876cdae27ee2bbb9bef4a09de8471049956b081b1cfec4b4844d0c5033ab8555ae8cb";
  "803106e4ccc56f2ca4ca49c5004d423004be6d926c66057dbf3790d4d65e2fb848d9fa9e5a";
  "b5dc89cc5779454fb2067fa6af0ce3aae7111a4cc199c4f143ab8eb02f9aaad00ea5e99dd4";
  "330238703747163cc938778a2701ebcbf27f2858365e7add6774d055b2816243747f620026";
  "a13fe7863465fda698fdaca2108c6d0d2ce3afa9b8ebbcd7122cebbdb11e4f58e00f6e52e7";
  "34930fdd6c9602f7c6c74805ed846947e2187454cf058577101f017e6103914e4df4c27839";
  "da85fb785869f8983e8606e22dac39c1b956ebe4739fe132b598224f7bd20f6c359912e6c6";
  "9fd0f761712c68448eca315d1d1759480e885ca3a187a6796c2459dfac53dacc2798ea168c";
  "5cd728703f6e5ff967297a0da1398a8c849a0f98d9dc57b145b45c2758baf1812145ba3dcd";
  "c194e618a995f66d3af7e820fcbdcbdc68dc73988984045f0409493b36804e9b7625d68515";
  "3a1d6d063f0534747f19f514e63822ac43fca7d07c0f008df9cd5f8c24051772f177b0aa8b";
  "4c6fd31bcab786eb5bf98f5fbee47bba40f1782188d045f7248c65b4b363427087078ba3dd";
  "8cb66b0c8ec883ab49426ea0964f93d6e6cecbeee4aa551b289445d167a8c045938efb0ca4";
  "535e29dc261b25f985b6b218d0ee54d6f1b8d5feb7b1dc14b06d5f8e8eaaa48da01f4d95c8";
  "4b45750ab09be3dbcd43b94ba89d573b9e29e8424c26fa71975a10d44bebe5caa2afc738ee";
  "18f8b1f8cade0293f6c072135d8aeb9dab0642afef26d8c3c65080de8d7d02c8301e04e904";
  "c7943305c29c1b40f00247ccaf0e3267af5feb24dab124698adc796d20edce5a2540671bff";
  "40b599974eb3107879290a93754135823aa7ae0a181951a062ece3405a054be245894c72c5";
  "ad1c614cece3e99e52c7fbc80b7381b53f1f117830d48066378d52609473000f019bfe1094";
  "05f74b59d19e60e81e8dc2e92e0526104da65739d5b0bd3d4b5fdf62f8cddbf78b0e756e01";
  "1b59b8791ef1260e2be44c8e1f9e09b2dcf41ba2c20e26508046c7a2d09808423493943583";
  "99127a3f4e4f6f3993d251fdbca595cd756ee6daad59619cebf76112909450f34f6ea88108";
  "5f4692fc29e978d8949b53f56bf1257f95f2980aab1ac01ee85607094fa98ed75757d0b66f";
  "e4933c3356c569c9211704ff17059153eb2542c6648a67ac332fce55b4356cae734e270e85";
  "ed1851d83f284edabac318ef1ad4a7060482107beead78235b3a6a137c5a8ab502218be6f3";
  "471d793306786b00f34fc741a9163dff3da0406ceee806d62df67a3344b363478b71d248c0";
  "1c65af560621bdb0febcc2e3058cc7c012cedbe3292a4a3e300747a79298699e074cf469d1";
  "103a3e8c63fcb6c562233d079420eb934e092f2d60fc6cee22353fd8a29a6475fe1c88a69e";
  "322b76d0fe97d25b8349d0123aca0c4c341af74d70d55aa836e7bbf3ab1188de4918ffab19";
  "23526c9c52fc63c901b33a9eee34e09ad3afa09a8dd30743e38682b4d0001d34f070b3f4e6";
  "420c21e0c876b3f5b1ebbaffed5921801b2e48b7569f5c6018830af0e3457e752d422a15dd";
  "ecce8820c47ecf2f0fc0b0aaef5eac36e4b9c4a5237e9ffa2578c2960fef381854d843ed83";
  "b3ea7f07e240feab99b8c93fe94e8e1f13"].
(* sfmt-poly.h:211-279 *)
Definition sfmt_poly_140 : string := pieces [
  "cdae3b8ec0a66922158d754a3d2cbbae645fc5ebdbb8fc75aba8043c29d89d693d7f4ebd2b";
  "2a42c445dcaf1e47d3608aaa6e97f1ee9baa4b3a4f05dc7ac6a802fb8555d22c64327348bd";
  "891f362d3b1e60baa0852aa198a70012116b59f738e50e59dd5a31b19a222e70d0499e802a";
  "a5758a21822dd11126df311216c34dc1aeae06a9e3a42e1b7fc9db74f416c18b5eeff8653f";
  "8e1641ffebc21a1df0c7ffb94cbf5220b5e868c6d46e13c60baf6df09dfc3d91340d3c720f";
  "1b45e75055105bfec8fac6e7a28f9e795a673c728dad14e2db5e61106ac0d45ea8eb1a96f8";
  "c8520a69f74ac97e4ac9a1f8af7cdf68ce0335d85b0e8606260690434da75968c0e6181649";
  "c5ee8d0848c0041dd6e86e295e7c971e9cbe6a088adabe9736882b9534fdfb0b9a9807ae61";
  "0b914bd4ee1e1fb7c432d4e33bb2e8b9aa0f2d652f570e3c5cd1bdc637579b669c279ac73d";
  "51b771b0234a9568ab3c4a07c3fa945e95d272426676148ae04d83d59ad0359daebef1a615";
  "e7255e3096ca8dca5dc8d64cf852ecc4d88c72bf4aade3f264fd47c8518172fd23d31af3c0";
  "02244da319ba35f7faf82b59cd968d6921c595a3479b4aa47335d91a3ca7103ce14c5bb015";
  "f8a792b99c4821800b0b7032c99e3a1690ccb957dc63cdee7c03b443a67e424b871d1b3fd8";
  "fe9a3cfb1c2509d2c2b1a2b0fb687084994e3a85d3da0e9a72a7e030052d9aeed653cb6168";
  "328d3531fbb89d1468857356b004274d0c6a17553977b6a22b66ae50aff08cf327be8f81d0";
  "502ad3929d00ffcdcda5bf0c1becd4c4dee82511112f79fe4acc58f644df0a9058901d3082";
  "b82848adb5f88c0887d33a3339f9a35d778dbf2e9d6bcebe7d889f5f89e6d9b286f8e9d76b";
  "ff96c6eae0e4a6a9de6eaf5110fe31579881b0d1c678a21ba212c965131b8cfdd54a8a6de1";
  "bf0089b633145cea0e4756cdd60242ee66a1bdddfa9e14f1acbaca0b10b589fde6c8c116ec";
  "f3c805172380796657df7872e1fd8204776b4a0288118d77e18acf83df0920909d3e42f372";
  "be3dd086348f2b04d68e8e5b69a82bfe9511e026eeb1cca9315d12af78fa9923a687ea75cd";
  "ca29b5c8c5c548c161c0d872c0527f174ae1cec4994e6c4481d737c18230a9876756911f0f";
  "9dda793dae0d6c5a4864dba43fc34b8adba3439e7ad33c03d7a584aa682fa0976343d36126";
  "ddb05ac41724694b25ba2f1e7c5c0287f56d2593204804c919cf7ffaa822a9d121abc7dae2";
  "24cfc6fe88e7e524e06405d510627f3aa1d585ec961caeed5cb96b72dbd78cead01da78ad6";
  "4de51c896b055b1e33c364a52af58216678ac2157b8c92b323aa5aec3dbb4a20f52ba93def";
  "985fe319ab0983385fccc5b515be4cd90e5aa26119f1a883904383fb45608f76978e28cc2b";
  "f9f6463f7aace7653c1a8103a000cbb9adf84420e111dfd361002b3bcf4e28a758fee813d4";
  "ba8f07c2afe930663ebcc14fdee4fe7b97590dc9b1030626b45c25e58c4e6fa2b4010a12eb";
  "aa95d3a0740155b8ce786064a50065da09e0c050345f4418ded4af21f3293690ae4f7f1a63";
  "89ef93f8065feae12033b5cf13b8a05f1dd105e373513a4820f21a0d188e62c2643ddcbf85";
  "cf73bb901ebf5b82393c8e652fc4a8fcc0011d510cba510f32026756a76aa40b97619e450b";
  "39783dea08f7d1621f9a5ec8085c59c39745d432be1137434a66a6f40035e9ab7d6c3a8dca";
  "312fe63ef755e6aef06015ecd5cde61ac5b4213408845559830285c24173e5f0dd797adec7";
  "b2cb1ebc794f65195cbca0ce0415361cfdaccf5c880acb9b7daf12219fee9912583059f261";
  "46d1f3650bd96bd170b1fd7d69ae1844a621aeaf26d6e11f62b2028607bd1ddf6a296cdba7";
  "e87e43b69f36b8b68b60862641ab9e40d63f5f48c3a10100d51f7bf889c8e73899d459a6ed";
  "3660c69d89e141a5f0ccd1bdf7cb879f71fe094e4bd99f745d31d688d1c0f52a6ae111bf48";
  "344dbd1ca048c3e981dec52ca23401a5eb5a070947c799ab0e05b07b04d599df69b946e263";
  "015b83684bb97308b88c63ce49084d28796bbb38944dc193f45197b876400f188cb872037d";
  "3342cf3c3f9fbde6248a79652ca3b04429b91147a6d46ed3610c90193b371831ceb06dc6c0";
  "d1ea6a72d844f86b19473b5958330134f6742b1ed93289bb5c0f16c050551a9859829bda2d";
  "1a40167b975cb7b985d669600e41b23befe08463ec0541f42332d8f1f2235cc51c0fa7a863";
  "db78fec54ca50e264826cdc34cc6cf35054772f36ee31bf2985c4bb7a88ac7380578825b38";
  "0bc799bccee2775cb185097595a7a3b27983f31b7dcec82359f9f674cfda4a6156fe44787a";
  "b687ca3931a662e2f1fb09d1d327df56ba3d0b92b152e081e3f0b40560da06f7e41e4c1121";
  "63a8d90d22cbaae2558110065688f7c786cd3acf41b02873fff2b94280fcc187229430e62e";
  "8cb76719d788fdeb1b09ce9f0e18077d6195d54b32a3d9953cf0ac4868854de059c1d41e81";
  "8e8933bf550d9f8e3e5850a49da7185c2a806c52ae16ef277f23b7f33c4624190c758bb2e0";
  "532794483eaf0ecc056baaa7c111c5b873c7b7b7a4692bcdb73f4c8650107df7a1c2086121";
  "82c627753ce42fe1f8a6c6c92dabf346d2122a0170c3ffed2c95de44a065fcfaa5a9b1f8b1";
  "ffdef4727866d5162c5e99d172edb1d6f7ff613ff8d2614b4b4763a44a2d2704739b141868";
  "18cb46ac6f03eb4d6df5fb0d28df9e8d7e56fde8584fa1f484263eae70cabafca229359bc0";
  "63340fae848fde71db16414480237c1ab2173ac55f4731d66a6d9334e8c7d417bc51374485";
  "e5925da20af7b2d992c5805d5659780bc2b955b1e4c56613028de5719bcec7db82ea020275";
  "f1b91b9898c65ce8c778da761c955a1d101977e90fe90b93680f0bfe008e2d0b8ffaf5a174";
  "67302b80bffc71b43f90e72f4269d1de88fba1f0987a1b984b0f16055616edf21a9d677cac";
  "95bf5d0266df02c761dcce668089d89ff7217d65e45521ae8b8e4db84941125ab7bc5c5763";
  "709853b8c2507f594ec660e2f3b7cb74f50cd5276289b30dda6b8fed337d34f1170d6dab3e";
  "32a12a8364bd28dc740a5adeeea5f8876fc579cc89ac7cc48d49ed91d13c76535a2f360ed1";
  "820ad42df2fc5602770a737016d32581b6ae3b9f0c4b20ada3cdc838a623996aa014927a13";
  "f996a9c01d8f198985ec4148800ebcfccc0f582e407b546bfab7db5c090adb038a8b035118";
  "1533a50e99aa514e4bbc6bdd58da63d61e6c556e66c60290388e79e39a21b8707b2ffce28d";
  "396892f77f239cee627b882459052c755b552f1851ab443552b330bac92e42b58d04b28080";
  "b4b6eab8af45cd293c696c7f2d643f775023649b5f30ffdcb8ac14901436d535b15b770996";
  "4f9ca8466464fd30a94a03dbae17b133186ba3391ba0f954850bdf76c0d4b998f2e18356b0";
  "ab9091b73d88040132bd9b936d2714ac3e82303ae39461964e15d086b871857bdd31ea9fb6";
  "007844222f1a9cf84312f1bd4b467aae12"].
(* sfmt-poly.h:281-349 *)
Definition sfmt_poly_144 : string := pieces [
  "95c6a93a575423aded02b31599a4d9db5a7db638556a00c83a3f0d93f5e2e0006bd8af4b02";
  "c713301eba143b31c2c74179f3f69980366409b6d36e9544f05f789742d27ffc4763ca2e42";
  "24bf60ce42493199be24abd6ac4143a79bae60126b784d3a1ea0d23740b941833f61ad14e2";
  "a0f93219995b47ff3dbcee78779dbb7198b9a2683985a972d8596454d0fe88ec0c8176d4f5";
  "935b621dccce3c50f8ae4013c8afc32786da0a41940e35a501cfb8a2e232f15c135ba56d8d";
  "e247a12a9e643f8efbd3c5bae85c46eed81f2cdaff7b140c61be4d23da6cc48eec5bf8eebc";
  "a2c1092a124c45f402657dbef63d6aef07240bf6b779cf0dd55db1fe39094908b74fbb33f5";
  "8bcc5c5b5aeb39dc5609ac095dfba5c74880b1c849823d44118f9553d68da017b4c14d56ca";
  "08452d81f98d21d2cd1e646887dfe0056832798170e9ba24b7568e65668b0ea111e94a1811";
  "02fc1e8697acd130f9ec56e47f76780fe21bad53d3b679e87aaf359ef736caf302e324b748";
  "84612786b50b2407e86f787ab4e63c87826c82340389833ab4d58c2290ba14d19786506d99";
  "dafd6834097973e2668ab0611b9919681aeb8989d61eac590202c159c2fa8c9a9643cf3d7a";
  "6c08f2b7eb89d1b76978e314e899e0378bc65d08f12cbc66e6436706ef9b0a1c4271954407";
  "9233bc1abf341e7773d5096b6d76209f102d70d90679735e00d227cbb1dc4d7a3b3858d9a2";
  "0c375daf5760fbf4692c954d076143d1f4637180a146f8ed3568760da586a7e8d624479726";
  "9a86b1938b13dd2b0dedf7c0a68fa3ac18575610b17f2d5d13053404e0bed6ba2af8545852";
  "3c7b8ec42b663f7e876dfad74565962a06c6a1b464494e3ba46bcf3ad127e3f2a6c413f511";
  "654231876105d9dde66def0448e7f9688e0312e357a26fe9f64825e88802da165f7790f7d6";
  "d6ada0f63da1dd319c75d84a75eb903fe24f212ac66c9b2a34d25b46c38c5ad2ce6a8dd137";
  "939aca169f93347020d79dd6f1377bceb06bcd803ebd2b7e1601ab2e2b93f342785290ecfa";
  "047ab2c8231bf5659816a20c2e989c54677e572104e8407b9ab9f16465afaa172fa4247e6b";
  "f40ba08490f4b7dcb659451cde853fa9caba0323732150dd2048c151039f302d0f5284276f";
  "9195a01cf1d9193fc75767146bbd3a4a02d159e2f85bb18694219f478c10b7cffd542b4732";
  "4b9a212b4ff6d5542537634426a37914957453b6c5ea98a578be473c2d0b3f86b45b2bccbf";
  "22984eb52448922a4e3535c9520682cb7ce75afe31dd7672d1fd7a27dfd239e9df527d0cad";
  "0befc5ec9b544be9fc7357f906b60f9f391efb55764ff8eb20c47727e5bfe525af3abc03b6";
  "13a4740f864caffe9533e048e1fedd5a20eb4c869ccace82c08ea2057deb499c0b0bcdaf57";
  "3f066e6e885224a18cb3120650c3bd358a917e4d1a7b74c069753032b552779b8de390fab2";
  "5d3309bbc08b8e726bfcebca6c2fc0cf9a61755a5eab8804cedb54d07e65fb9d1bc56e6d51";
  "ee1f662c7e770465b79c2ec38c6857a47bd4f6a8ad3cc3179f3a13ca7262debd15296a2fde";
  "aa11598a982f1576bfa1e2667c692de4625681d393a7efa8eeea43ce65c4eca6dd6c5cbc76";
  "3a54266ead3a54c7d2b1bcea3fa62cd344bed94180ee2dba3360cd2378a41d814a32165e13";
  "6dd3a646f0c3abb999fb788ed0382e6a1b3f2297ad013b9d87ac4b19c605a232ed697ea7b9";
  "3e56344ff248044a9a748d0f69b298384c87197544b04200e9b8f8870561eb78b3ea815424";
  "b7ceafa9a4ec53272bcfbfadb8d5fc4c8a0e5b7e7bfb3f69dfbc6f4b31ddfa89dfe687417d";
  "26e32d4d14cb366f5c6111ec3e752625bbdd3d3d89f9659c9a62ac290172ce7daf2921419e";
  "113e067734517b950be2758f85367009d3ef5cb6d4db1a63a8cdebc0b2112270043551a86a";
  "d5cda1594b1abb972a26602ebbfcc672d1c1d1d8049875d8bb1b32fad82ae98e09b3f75137";
  "8e21d330a5eed334426591f9c67c9182b3a8f925e0e7badbde54881c4a12ab0ef6ce2512b8";
  "8cd2d3a5d60f41e635fb770f501d4bc40ac80617b4eef8af85840d1beee91a9595ab3f8d9a";
  "13c057b1ea24e1ea027a5723e86fea685b5729ca5ee2644e75eb0bf3cdb6de1d4068911580";
  "3a56c2ea1e6b4eb31cde45e3b83e2aacb36fa9d3c719073890b6ea0332aa49cb52acefb508";
  "93317122cf5b37a1bc4455d254517de0c91d9dd3516a1d95385794ff639933c5af1866908c";
  "2db1cabf1149bf28f267449422c1c8f5c45496d986664d519e7c1ff0412c53ea72821558b2";
  "44714dea4e5a78ab098034b6fd615a695ae6897d9b94625d908848fc19ebae8c169cf318b2";
  "136a628e1dba4cbf6d8aea3ad379f0cde55267e40c7d43f99f973f4b8f3b350a194df2bbf9";
  "9fa924c1ce703161e624cf446bb45f64a45e6610f8f5c46bce6b58b6a28abb512c7f142188";
  "c293e08575c532bd3b213ea239a17665f147538dff5c78521776f6c05603f4ff472bc896f8";
  "2d55052f9cfddc3a3c7c95c771e27fb8c3bb3576e948b6dfdb3c017e8dedfab97db00fccad";
  "92c040411d86bf4d7fee0d74650bc1a07959dcc6a062b94afc1f3f5218c96cb2b156f0680e";
  "9f476fe82729ab00d24b100208fc15ed33d6190d8b606e25cbc67bb60186866ba878355e08";
  "e52a27feeaa0c5771c8bc8d659f7b6bf8c0a679ed55125e50e074b474be087ada7f931840b";
  "f7be233963294b49d62b6c184c952ca6f03d5d01f812bdac4c51f8638878ddc0b299bc8d11";
  "c308101e3b2c7a8ba3034fc4fa334f152ab46ea861e27281b01ef973b2ee034339d9877c40";
  "d7aaec3346f59049c4b1f02f209eeca04fe707cf169e2f874acf466ec1415cba9dd882532e";
  "56f8e983ded63a958810c5be5570e968b81ade4d0f373174bac9871b2400e1f5d714209ece";
  "8ae0411cc9d718bb777df542cc398fb7685d49e8154036f5cd2d663070bb56674f17e6456e";
  "21decee4df0fcc8aa68db1b2cd85a2f383b30bf917ec10779c7ef42460755eba509491ab11";
  "752eb956e3fc08b40ab0ca64f5350e376f618e8bdc83563e1678a1a2cff89746ac106a267b";
  "40aa762e94281b33c20336910a1cbbe9c0c61cf42bbbc405d0b984b6a9950ed1f12a629290";
  "024b3cfa2f3b25820c0705b1d2afc1d730a3616bee06a23af5d062ab761545447f941ee09a";
  "a8ac2c624be5815f1af7a6c7131450240ff76cd20245fa64cfe12c31ad8574a8e1122d9443";
  "5afc7605e137dfd7184aefc168012395397145be4346694860b0a8eb5398133bc812faf11a";
  "4699d22e3630f0836271c2df562f96e5fea71aece284bfe8268f99253aa983cc560d29e385";
  "27616840c47d5b688d5f28e85bc91b4403d779ec215b37b97567c0ed689f01787d09129fdd";
  "65cf0cd0a80f507c3528945254061bc25d6bbdbdf7db1e62ae89ebf458af4503b33b26d2d9";
  "4579d1d7ab4d437afb9c082b1396cb74a2af6cbdd2e04e2de6b041491b3674afb08764393c";
  "e8c0fa891e625303893c19b361c5bce782"].
(* the polynomials that the jump functions of sfmt read *)
Definition sfmt_polys : polys := Polys (text_bits sfmt_poly_144) (text_bits sfmt_poly_140) (text_bits sfmt_poly_136) (text_bits sfmt_poly_132) (text_bits sfmt_poly_128).
