(* Generated: Xorshift1024. Exact periods; the numbers are certificates that
   the proofs check. *)
From Verif Require Import Word Gf2 Order Primes Limb Period Xoshiro XoshiroLin Xorshift1024Lin.
From Coq Require Import ZArith Znumtheory List.
Import ListNotations.
Open Scope N_scope.

Lemma xs1024_z10 : pw N.lxor 0 xs_T (wf 1024) 0x2 1.
Proof. exact (pw_x N.lxor 0 xs_T (wf 1024)). Qed.
Lemma xs1024_a9_c : sq_check 32 phi1024 512 0x2 0x284600e3f30e38c3b99181f2d8f685ca047f7684e9fc949d0b5fc64563b3e2a87910c41d10a1e6a5691548c86c1bd5405ee975283d71c93bc4cb815590989b13aac17d8efa43cab83659132bb12fea70dc2d9891fe68c0222ffeeb0a48316f404489affce4f31a1e5b34a39f070b5837a3c65b8776f9685584242f96eca9c41d = true.
Proof. vm_cast_no_check (eq_refl true). Qed.
Lemma xs1024_a9 : pw N.lxor 0 xs_T (wf 1024) 0x284600e3f30e38c3b99181f2d8f685ca047f7684e9fc949d0b5fc64563b3e2a87910c41d10a1e6a5691548c86c1bd5405ee975283d71c93bc4cb815590989b13aac17d8efa43cab83659132bb12fea70dc2d9891fe68c0222ffeeb0a48316f404489affce4f31a1e5b34a39f070b5837a3c65b8776f9685584242f96eca9c41d 13407807929942597099574024998205846127479365820592393377723561443721764030073546976801874298166903427690031858186486050853753882811946569946433649006084096.
Proof. refine (pw_sq N.lxor 0 xs_T (wf 1024) xs_linear 32 phi1024 phi1024_annihilates 512 _ _ _ _ xs1024_z10 xs1024_a9_c _). vm_cast_no_check (eq_refl 13407807929942597099574024998205846127479365820592393377723561443721764030073546976801874298166903427690031858186486050853753882811946569946433649006084096). Qed.
Lemma xs1024_z9_c : mul_check 32 phi1024 0x284600e3f30e38c3b99181f2d8f685ca047f7684e9fc949d0b5fc64563b3e2a87910c41d10a1e6a5691548c86c1bd5405ee975283d71c93bc4cb815590989b13aac17d8efa43cab83659132bb12fea70dc2d9891fe68c0222ffeeb0a48316f404489affce4f31a1e5b34a39f070b5837a3c65b8776f9685584242f96eca9c41d 0x2 0x508c01c7e61c7187732303e5b1ed0b9408feed09d3f9293a16bf8c8ac767c550f221883a2143cd4ad22a9190d837aa80bdd2ea507ae39277899702ab213136275582fb1df48795706cb22657625fd4e1b85b3123fcd180445ffdd6149062de8089135ff9c9e6343cb669473e0e16b06f478cb70eedf2d0ab08485f2dd953883a = true.
Proof. vm_cast_no_check (eq_refl true). Qed.
Lemma xs1024_z9 : pw N.lxor 0 xs_T (wf 1024) 0x508c01c7e61c7187732303e5b1ed0b9408feed09d3f9293a16bf8c8ac767c550f221883a2143cd4ad22a9190d837aa80bdd2ea507ae39277899702ab213136275582fb1df48795706cb22657625fd4e1b85b3123fcd180445ffdd6149062de8089135ff9c9e6343cb669473e0e16b06f478cb70eedf2d0ab08485f2dd953883a 13407807929942597099574024998205846127479365820592393377723561443721764030073546976801874298166903427690031858186486050853753882811946569946433649006084097.
Proof. refine (pw_mul N.lxor 0 xs_T (wf 1024) xs_linear 32 phi1024 phi1024_annihilates _ _ _ _ _ _ xs1024_a9 xs1024_z10 xs1024_z9_c _). vm_cast_no_check (eq_refl 13407807929942597099574024998205846127479365820592393377723561443721764030073546976801874298166903427690031858186486050853753882811946569946433649006084097). Qed.
Lemma xs1024_i9_c : mul_check 32 phi1024 0x8000000000003c3cbc3c3c3c369c0aa00220012001803d942988b604302e402fd0a1165bc0a7ae34002078723742440066a053f129bbb8f55d5d59a0f12aa5acefb53e56dd195e54f4307841eb80ac631a5990b22bebd81425196822014d847b8186a9a900aab0980088f0e015e0c0c0110055000a0078000800000000000000 0x2 1 = true.
Proof. vm_cast_no_check (eq_refl true). Qed.
Lemma xs1024_w9_c : mul_check 32 phi1024 0x8000000000003c3cbc3c3c3c369c0aa00220012001803d942988b604302e402fd0a1165bc0a7ae34002078723742440066a053f129bbb8f55d5d59a0f12aa5acefb53e56dd195e54f4307841eb80ac631a5990b22bebd81425196822014d847b8186a9a900aab0980088f0e015e0c0c0110055000a0078000800000000000000 0x284600e3f30e38c3b99181f2d8f685ca047f7684e9fc949d0b5fc64563b3e2a87910c41d10a1e6a5691548c86c1bd5405ee975283d71c93bc4cb815590989b13aac17d8efa43cab83659132bb12fea70dc2d9891fe68c0222ffeeb0a48316f404489affce4f31a1e5b34a39f070b5837a3c65b8776f9685584242f96eca9c41d 0x94230071f987205d60f4fcc55ae74845001fba62757e77daac27552681f7b17bec29745548f75d66b4aadc16014faea049d4e96537035c68bf38990a3966e8253ad58091a038bb08ef1cf1d43317595b744f5cfad4dfb80532e61da7255533dba3c27e5772d33d972d12a12f96656cdbc0e378c3b17ccc2aca1217cb7654e20e = true.
Proof. vm_cast_no_check (eq_refl true). Qed.
Lemma xs1024_w9 : pw N.lxor 0 xs_T (wf 1024) 0x94230071f987205d60f4fcc55ae74845001fba62757e77daac27552681f7b17bec29745548f75d66b4aadc16014faea049d4e96537035c68bf38990a3966e8253ad58091a038bb08ef1cf1d43317595b744f5cfad4dfb80532e61da7255533dba3c27e5772d33d972d12a12f96656cdbc0e378c3b17ccc2aca1217cb7654e20e 13407807929942597099574024998205846127479365820592393377723561443721764030073546976801874298166903427690031858186486050853753882811946569946433649006084095.
Proof. refine (pw_div N.lxor 0 xs_T (wf 1024) xs_linear 32 phi1024 phi1024_annihilates _ _ _ _ _ _ _ xs1024_z10 xs1024_a9 xs1024_i9_c xs1024_w9_c _). vm_cast_no_check (eq_refl 13407807929942597099574024998205846127479365820592393377723561443721764030073546976801874298166903427690031858186486050853753882811946569946433649006084096). Qed.
Lemma xs1024_y2424833_c : pow_check 32 phi1024 5529373746539492451469451709955220061537996975706118061624681552800446063738635599565773930892108210210778168305399196915314944498011438291393118209 0x94230071f987205d60f4fcc55ae74845001fba62757e77daac27552681f7b17bec29745548f75d66b4aadc16014faea049d4e96537035c68bf38990a3966e8253ad58091a038bb08ef1cf1d43317595b744f5cfad4dfb80532e61da7255533dba3c27e5772d33d972d12a12f96656cdbc0e378c3b17ccc2aca1217cb7654e20e 0xf10bed15bec121979f0a221a1479727edecb207b3f341aaef6c01c5d589cb30906c365b16ef7b24f9b43c29a9b336eddb6c15b06fc223d46c87555c1a65b00ffb5e1c4f82a0ccc79a32819f56c1820c9287b53f6a7b790b647b27004d4feadcccde8cd77a915d7d8939e0a836bff33ff6fe658962f67ca467459f0c9ba7124db = true.
Proof. vm_cast_no_check (eq_refl true). Qed.
Lemma xs1024_u2424833_c : mul_check 32 phi1024 (N.lxor 0xf10bed15bec121979f0a221a1479727edecb207b3f341aaef6c01c5d589cb30906c365b16ef7b24f9b43c29a9b336eddb6c15b06fc223d46c87555c1a65b00ffb5e1c4f82a0ccc79a32819f56c1820c9287b53f6a7b790b647b27004d4feadcccde8cd77a915d7d8939e0a836bff33ff6fe658962f67ca467459f0c9ba7124db 1) 0x5b8a98b6279f4bcb8be5fd7a77190d03135686502c49dfd5ee65a7f76c1f3f65a418a11ef78a92d7a3f1dfafe55a2a7ee9545e13ac977d7d8aa2fb4164721a23bae9565c51b155d47c26dcdd002de0729359c5ace84823545a8584b6325c4e2810b7cc42394864675eb49c0e4cd399b78a5f09bede0db8efc91c85d19ed96474 1 = true.
Proof. vm_cast_no_check (eq_refl true). Qed.
Lemma xs1024_y2424833 : pw N.lxor 0 xs_T (wf 1024) 0xf10bed15bec121979f0a221a1479727edecb207b3f341aaef6c01c5d589cb30906c365b16ef7b24f9b43c29a9b336eddb6c15b06fc223d46c87555c1a65b00ffb5e1c4f82a0ccc79a32819f56c1820c9287b53f6a7b790b647b27004d4feadcccde8cd77a915d7d8939e0a836bff33ff6fe658962f67ca467459f0c9ba7124db 74136781166468614858396647966644496079440397707483631769045571863189207588935387770089106063142301354823245097650598353642823967182241672928753209247595246508839121467278565276991124585176007634114630967198568218445621072602716509332359428686770279505166133372725584912423761116117982683688054529785855.
Proof. refine (pw_pow N.lxor 0 xs_T (wf 1024) xs_linear 32 phi1024 phi1024_annihilates 5529373746539492451469451709955220061537996975706118061624681552800446063738635599565773930892108210210778168305399196915314944498011438291393118209 _ _ _ _ xs1024_w9 xs1024_y2424833_c _). vm_cast_no_check (eq_refl 74136781166468614858396647966644496079440397707483631769045571863189207588935387770089106063142301354823245097650598353642823967182241672928753209247595246508839121467278565276991124585176007634114630967198568218445621072602716509332359428686770279505166133372725584912423761116117982683688054529785855). Qed.
Lemma xs1024_cert2424833 : exists p u, pw N.lxor 0 xs_T (wf 1024) p ((2 ^ 1024 - 1) / Z.to_N 2424833) /\ mul_check 32 phi1024 (N.lxor p 1) u 1 = true.
Proof.
  assert (E : 74136781166468614858396647966644496079440397707483631769045571863189207588935387770089106063142301354823245097650598353642823967182241672928753209247595246508839121467278565276991124585176007634114630967198568218445621072602716509332359428686770279505166133372725584912423761116117982683688054529785855 = (2 ^ 1024 - 1) / Z.to_N 2424833) by (vm_cast_no_check (eq_refl 74136781166468614858396647966644496079440397707483631769045571863189207588935387770089106063142301354823245097650598353642823967182241672928753209247595246508839121467278565276991124585176007634114630967198568218445621072602716509332359428686770279505166133372725584912423761116117982683688054529785855)).
  exists 0xf10bed15bec121979f0a221a1479727edecb207b3f341aaef6c01c5d589cb30906c365b16ef7b24f9b43c29a9b336eddb6c15b06fc223d46c87555c1a65b00ffb5e1c4f82a0ccc79a32819f56c1820c9287b53f6a7b790b647b27004d4feadcccde8cd77a915d7d8939e0a836bff33ff6fe658962f67ca467459f0c9ba7124db, 0x5b8a98b6279f4bcb8be5fd7a77190d03135686502c49dfd5ee65a7f76c1f3f65a418a11ef78a92d7a3f1dfafe55a2a7ee9545e13ac977d7d8aa2fb4164721a23bae9565c51b155d47c26dcdd002de0729359c5ace84823545a8584b6325c4e2810b7cc42394864675eb49c0e4cd399b78a5f09bede0db8efc91c85d19ed96474. rewrite <- E. exact (conj xs1024_y2424833 xs1024_u2424833_c).
Qed.
Lemma xs1024_y7455602825647884208337395736200454918783366342657_c : pow_check 32 phi1024 1798353297981303396053754179659500751037188384051040347294624419490412099367072358888733875132953399121921 0x94230071f987205d60f4fcc55ae74845001fba62757e77daac27552681f7b17bec29745548f75d66b4aadc16014faea049d4e96537035c68bf38990a3966e8253ad58091a038bb08ef1cf1d43317595b744f5cfad4dfb80532e61da7255533dba3c27e5772d33d972d12a12f96656cdbc0e378c3b17ccc2aca1217cb7654e20e 0x3adb1df8de248f34bfb1248403913f541fb7d04a9dcf7da0dc4f4e5ac32d5bb8e07c2d770a3213d4cb610fb9c20e9ad8174d49f3eaab6c2f526edb183fe5afbd32edcbf78fe4b6b6226a6626d2c7f6e0782fd1c3cd1400de87f4bb1a7f80f88adcb1862392463a052f20164ae9b025631884cc80a0ca92486fa43df751b716a2 = true.
Proof. vm_cast_no_check (eq_refl true). Qed.
Lemma xs1024_u7455602825647884208337395736200454918783366342657_c : mul_check 32 phi1024 (N.lxor 0x3adb1df8de248f34bfb1248403913f541fb7d04a9dcf7da0dc4f4e5ac32d5bb8e07c2d770a3213d4cb610fb9c20e9ad8174d49f3eaab6c2f526edb183fe5afbd32edcbf78fe4b6b6226a6626d2c7f6e0782fd1c3cd1400de87f4bb1a7f80f88adcb1862392463a052f20164ae9b025631884cc80a0ca92486fa43df751b716a2 1) 0x19c97937bd74fd43e4b9d85138a66ea76a60ff327befcc46032ffcbbc23b5f82f8633513c982953ccfc09a2b6b11bd2b9593942a26087e0c66ae9b583919df0842201052d65b05aeb8a4365073a3396f5918ea7f647200552abd91a4dd1d29828a03849ab91815fa5ee848b59561b0c62d4acdfcba09a8c8d92fbe4886dfb346 1 = true.
Proof. vm_cast_no_check (eq_refl true). Qed.
Lemma xs1024_y7455602825647884208337395736200454918783366342657 : pw N.lxor 0 xs_T (wf 1024) 0x3adb1df8de248f34bfb1248403913f541fb7d04a9dcf7da0dc4f4e5ac32d5bb8e07c2d770a3213d4cb610fb9c20e9ad8174d49f3eaab6c2f526edb183fe5afbd32edcbf78fe4b6b6226a6626d2c7f6e0782fd1c3cd1400de87f4bb1a7f80f88adcb1862392463a052f20164ae9b025631884cc80a0ca92486fa43df751b716a2 24111975609512141970050711486261856575930386383025204293716421805117456497002010223957486693180956057432643214966526959530774795268679099652293757668742789581893318101716516315152666984884538591085890219445577404873270867562070836597965642989114030559683946495.
Proof. refine (pw_pow N.lxor 0 xs_T (wf 1024) xs_linear 32 phi1024 phi1024_annihilates 1798353297981303396053754179659500751037188384051040347294624419490412099367072358888733875132953399121921 _ _ _ _ xs1024_w9 xs1024_y7455602825647884208337395736200454918783366342657_c _). vm_cast_no_check (eq_refl 24111975609512141970050711486261856575930386383025204293716421805117456497002010223957486693180956057432643214966526959530774795268679099652293757668742789581893318101716516315152666984884538591085890219445577404873270867562070836597965642989114030559683946495). Qed.
Lemma xs1024_cert7455602825647884208337395736200454918783366342657 : exists p u, pw N.lxor 0 xs_T (wf 1024) p ((2 ^ 1024 - 1) / Z.to_N 7455602825647884208337395736200454918783366342657) /\ mul_check 32 phi1024 (N.lxor p 1) u 1 = true.
Proof.
  assert (E : 24111975609512141970050711486261856575930386383025204293716421805117456497002010223957486693180956057432643214966526959530774795268679099652293757668742789581893318101716516315152666984884538591085890219445577404873270867562070836597965642989114030559683946495 = (2 ^ 1024 - 1) / Z.to_N 7455602825647884208337395736200454918783366342657) by (vm_cast_no_check (eq_refl 24111975609512141970050711486261856575930386383025204293716421805117456497002010223957486693180956057432643214966526959530774795268679099652293757668742789581893318101716516315152666984884538591085890219445577404873270867562070836597965642989114030559683946495)).
  exists 0x3adb1df8de248f34bfb1248403913f541fb7d04a9dcf7da0dc4f4e5ac32d5bb8e07c2d770a3213d4cb610fb9c20e9ad8174d49f3eaab6c2f526edb183fe5afbd32edcbf78fe4b6b6226a6626d2c7f6e0782fd1c3cd1400de87f4bb1a7f80f88adcb1862392463a052f20164ae9b025631884cc80a0ca92486fa43df751b716a2, 0x19c97937bd74fd43e4b9d85138a66ea76a60ff327befcc46032ffcbbc23b5f82f8633513c982953ccfc09a2b6b11bd2b9593942a26087e0c66ae9b583919df0842201052d65b05aeb8a4365073a3396f5918ea7f647200552abd91a4dd1d29828a03849ab91815fa5ee848b59561b0c62d4acdfcba09a8c8d92fbe4886dfb346. rewrite <- E. exact (conj xs1024_y7455602825647884208337395736200454918783366342657 xs1024_u7455602825647884208337395736200454918783366342657_c).
Qed.
Lemma xs1024_y741640062627530801524787141901937474059940781097519023905821316144415759504705008092818711693940737_c : pow_check 32 phi1024 18078591766524236008555392315198157702078226558764001281 0x94230071f987205d60f4fcc55ae74845001fba62757e77daac27552681f7b17bec29745548f75d66b4aadc16014faea049d4e96537035c68bf38990a3966e8253ad58091a038bb08ef1cf1d43317595b744f5cfad4dfb80532e61da7255533dba3c27e5772d33d972d12a12f96656cdbc0e378c3b17ccc2aca1217cb7654e20e 0x638fe5ccf5f76817ab6f154e3b563d49ed89c6a278a3039ecb8e55f8d4a4cc46d1bb2aab615d018c9e54a3d8904e50f08156c6817909b685d20cc38241826856d565d12587399d0b58682f929e63a5e8a14db07f7124498ca4c2324e76b181f2057ae9683bec31d870dcb43c3dc0836524e42a8fb498d1ada6dde5fd658a0cc8 = true.
Proof. vm_cast_no_check (eq_refl true). Qed.
Lemma xs1024_u741640062627530801524787141901937474059940781097519023905821316144415759504705008092818711693940737_c : mul_check 32 phi1024 (N.lxor 0x638fe5ccf5f76817ab6f154e3b563d49ed89c6a278a3039ecb8e55f8d4a4cc46d1bb2aab615d018c9e54a3d8904e50f08156c6817909b685d20cc38241826856d565d12587399d0b58682f929e63a5e8a14db07f7124498ca4c2324e76b181f2057ae9683bec31d870dcb43c3dc0836524e42a8fb498d1ada6dde5fd658a0cc8 1) 0x58062cabbce10fd562443620a82beabdae55e0263681d585a698626bc68f7ed194fc766c702c44d7be700b5367e6eea1fec4838720bb76b1fc0acec8e0c01aa4cc5f8be886be19969ba6fb4e8b858e16def4b5960c3970a660c5d7d079979751a17a8591d9775ee6475a4b979952982cd639f12beed1527afdc59ff279bf1baf 1 = true.
Proof. vm_cast_no_check (eq_refl true). Qed.
Lemma xs1024_y741640062627530801524787141901937474059940781097519023905821316144415759504705008092818711693940737 : pw N.lxor 0 xs_T (wf 1024) 0x638fe5ccf5f76817ab6f154e3b563d49ed89c6a278a3039ecb8e55f8d4a4cc46d1bb2aab615d018c9e54a3d8904e50f08156c6817909b685d20cc38241826856d565d12587399d0b58682f929e63a5e8a14db07f7124498ca4c2324e76b181f2057ae9683bec31d870dcb43c3dc0836524e42a8fb498d1ada6dde5fd658a0cc8 242394286049398596489684894700618477168411441160908484643273242611941424951738137305002310824137789160516464861698148038873284963455338995696354424966886012851424111810259861163116943563707179032547635373725695.
Proof. refine (pw_pow N.lxor 0 xs_T (wf 1024) xs_linear 32 phi1024 phi1024_annihilates 18078591766524236008555392315198157702078226558764001281 _ _ _ _ xs1024_w9 xs1024_y741640062627530801524787141901937474059940781097519023905821316144415759504705008092818711693940737_c _). vm_cast_no_check (eq_refl 242394286049398596489684894700618477168411441160908484643273242611941424951738137305002310824137789160516464861698148038873284963455338995696354424966886012851424111810259861163116943563707179032547635373725695). Qed.
Lemma xs1024_cert741640062627530801524787141901937474059940781097519023905821316144415759504705008092818711693940737 : exists p u, pw N.lxor 0 xs_T (wf 1024) p ((2 ^ 1024 - 1) / Z.to_N 741640062627530801524787141901937474059940781097519023905821316144415759504705008092818711693940737) /\ mul_check 32 phi1024 (N.lxor p 1) u 1 = true.
Proof.
  assert (E : 242394286049398596489684894700618477168411441160908484643273242611941424951738137305002310824137789160516464861698148038873284963455338995696354424966886012851424111810259861163116943563707179032547635373725695 = (2 ^ 1024 - 1) / Z.to_N 741640062627530801524787141901937474059940781097519023905821316144415759504705008092818711693940737) by (vm_cast_no_check (eq_refl 242394286049398596489684894700618477168411441160908484643273242611941424951738137305002310824137789160516464861698148038873284963455338995696354424966886012851424111810259861163116943563707179032547635373725695)).
  exists 0x638fe5ccf5f76817ab6f154e3b563d49ed89c6a278a3039ecb8e55f8d4a4cc46d1bb2aab615d018c9e54a3d8904e50f08156c6817909b685d20cc38241826856d565d12587399d0b58682f929e63a5e8a14db07f7124498ca4c2324e76b181f2057ae9683bec31d870dcb43c3dc0836524e42a8fb498d1ada6dde5fd658a0cc8, 0x58062cabbce10fd562443620a82beabdae55e0263681d585a698626bc68f7ed194fc766c702c44d7be700b5367e6eea1fec4838720bb76b1fc0acec8e0c01aa4cc5f8be886be19969ba6fb4e8b858e16def4b5960c3970a660c5d7d079979751a17a8591d9775ee6475a4b979952982cd639f12beed1527afdc59ff279bf1baf. rewrite <- E. exact (conj xs1024_y741640062627530801524787141901937474059940781097519023905821316144415759504705008092818711693940737 xs1024_u741640062627530801524787141901937474059940781097519023905821316144415759504705008092818711693940737_c).
Qed.
Lemma xs1024_a8_c : sq_check 32 phi1024 256 0x508c01c7e61c7187732303e5b1ed0b9408feed09d3f9293a16bf8c8ac767c550f221883a2143cd4ad22a9190d837aa80bdd2ea507ae39277899702ab213136275582fb1df48795706cb22657625fd4e1b85b3123fcd180445ffdd6149062de8089135ff9c9e6343cb669473e0e16b06f478cb70eedf2d0ab08485f2dd953883a 0xc362bef76000fe608ea94c5814e48f48d28779380199191a06e34616c38349790af98e3214c72153e0e3ebdd608ee4702283d6c3db1ed36f8c70f54b1f05dfb61e7bec50bbe448cca53508ff2576e9f20a86800da911f12c4992ad7c2f5f5f41fa75a4db020d6251ebe71b162a705c6456ec5071b48da522d817250d45bb37c2 = true.
Proof. vm_cast_no_check (eq_refl true). Qed.
Lemma xs1024_a8 : pw N.lxor 0 xs_T (wf 1024) 0xc362bef76000fe608ea94c5814e48f48d28779380199191a06e34616c38349790af98e3214c72153e0e3ebdd608ee4702283d6c3db1ed36f8c70f54b1f05dfb61e7bec50bbe448cca53508ff2576e9f20a86800da911f12c4992ad7c2f5f5f41fa75a4db020d6251ebe71b162a705c6456ec5071b48da522d817250d45bb37c2 1552518092300708935148979488462502555256886017116696611139052038026050952686376886330878408828646477950487730697131073206171580044114814391444287275041181254996544213337045329121250294319506298095247664834280508208476854766945697792.
Proof. refine (pw_sq N.lxor 0 xs_T (wf 1024) xs_linear 32 phi1024 phi1024_annihilates 256 _ _ _ _ xs1024_z9 xs1024_a8_c _). vm_cast_no_check (eq_refl 1552518092300708935148979488462502555256886017116696611139052038026050952686376886330878408828646477950487730697131073206171580044114814391444287275041181254996544213337045329121250294319506298095247664834280508208476854766945697792). Qed.
Lemma xs1024_z8_c : mul_check 32 phi1024 0xc362bef76000fe608ea94c5814e48f48d28779380199191a06e34616c38349790af98e3214c72153e0e3ebdd608ee4702283d6c3db1ed36f8c70f54b1f05dfb61e7bec50bbe448cca53508ff2576e9f20a86800da911f12c4992ad7c2f5f5f41fa75a4db020d6251ebe71b162a705c6456ec5071b48da522d817250d45bb37c2 0x508c01c7e61c7187732303e5b1ed0b9408feed09d3f9293a16bf8c8ac767c550f221883a2143cd4ad22a9190d837aa80bdd2ea507ae39277899702ab213136275582fb1df48795706cb22657625fd4e1b85b3123fcd180445ffdd6149062de8089135ff9c9e6343cb669473e0e16b06f478cb70eedf2d0ab08485f2dd953883a 0x46d12629f25a5f961c165b0c4a20f6348902d5c6156b72ee63fc95a2c0faf151a668b99cec73d48d5a8c27f05b5f19e8cd309e6133de512b460f06cc1232eeb604e3a517502b711292d448114194393e8744541e5199d288cd3e33f16a1eae36bb11dbe0895d1f9a538a37963f4a4d4072e053a61388330d4cabcbefd52791f5 = true.
Proof. vm_cast_no_check (eq_refl true). Qed.
Lemma xs1024_z8 : pw N.lxor 0 xs_T (wf 1024) 0x46d12629f25a5f961c165b0c4a20f6348902d5c6156b72ee63fc95a2c0faf151a668b99cec73d48d5a8c27f05b5f19e8cd309e6133de512b460f06cc1232eeb604e3a517502b711292d448114194393e8744541e5199d288cd3e33f16a1eae36bb11dbe0895d1f9a538a37963f4a4d4072e053a61388330d4cabcbefd52791f5 1552518092300708935148979488462502555256886017116696611139052038026050952686390294138808351425746051975485936543258552571992172437492537952888009039071254801973346087635212232548940326177692784146101418717092454778423288415951781889.
Proof. refine (pw_mul N.lxor 0 xs_T (wf 1024) xs_linear 32 phi1024 phi1024_annihilates _ _ _ _ _ _ xs1024_a8 xs1024_z9 xs1024_z8_c _). vm_cast_no_check (eq_refl 1552518092300708935148979488462502555256886017116696611139052038026050952686390294138808351425746051975485936543258552571992172437492537952888009039071254801973346087635212232548940326177692784146101418717092454778423288415951781889). Qed.
Lemma xs1024_i8_c : mul_check 32 phi1024 0xf5e96dda5465c0bc299f3c33470a241265115eb37edbad42e8be4b381f6a645e96d111eedda8bce02e4c28a39200678a2df43d5e0a6c12b2a8da430473eebe005776e7c3a9a5ae5e2428cca88314fb625fa619f48371921352a35d1d2a73c4ff53fa8ffd59776a00bdfd5dba8160b134aa47b39bf64b590c164bdc2bf3705e40 0x508c01c7e61c7187732303e5b1ed0b9408feed09d3f9293a16bf8c8ac767c550f221883a2143cd4ad22a9190d837aa80bdd2ea507ae39277899702ab213136275582fb1df48795706cb22657625fd4e1b85b3123fcd180445ffdd6149062de8089135ff9c9e6343cb669473e0e16b06f478cb70eedf2d0ab08485f2dd953883a 1 = true.
Proof. vm_cast_no_check (eq_refl true). Qed.
Lemma xs1024_w8_c : mul_check 32 phi1024 0xf5e96dda5465c0bc299f3c33470a241265115eb37edbad42e8be4b381f6a645e96d111eedda8bce02e4c28a39200678a2df43d5e0a6c12b2a8da430473eebe005776e7c3a9a5ae5e2428cca88314fb625fa619f48371921352a35d1d2a73c4ff53fa8ffd59776a00bdfd5dba8160b134aa47b39bf64b590c164bdc2bf3705e40 0xc362bef76000fe608ea94c5814e48f48d28779380199191a06e34616c38349790af98e3214c72153e0e3ebdd608ee4702283d6c3db1ed36f8c70f54b1f05dfb61e7bec50bbe448cca53508ff2576e9f20a86800da911f12c4992ad7c2f5f5f41fa75a4db020d6251ebe71b162a705c6456ec5071b48da522d817250d45bb37c2 0x47d470a2b0fd6ce70bb2dce5c5e3ff524d55a5b2d238c03e7fda4582bb6c4ef9976f7226c00c7b2b215c8350e2423b9fda58b397da3e38e4df75e8897da18ea622a2ab5b5596358de23eca5f7ca99fa28c726e97442491e266ded1bd055e82783daacabdd932d48fa970234d42631f576b73e0563843ccb2e81be9f857de0d52 = true.
Proof. vm_cast_no_check (eq_refl true). Qed.
Lemma xs1024_w8 : pw N.lxor 0 xs_T (wf 1024) 0x47d470a2b0fd6ce70bb2dce5c5e3ff524d55a5b2d238c03e7fda4582bb6c4ef9976f7226c00c7b2b215c8350e2423b9fda58b397da3e38e4df75e8897da18ea622a2ab5b5596358de23eca5f7ca99fa28c726e97442491e266ded1bd055e82783daacabdd932d48fa970234d42631f576b73e0563843ccb2e81be9f857de0d52 1552518092300708935148979488462502555256886017116696611139052038026050952686363478522948466231546903925489524851003593840350987650737090830000565511011107708019742339038878425693560262461319812044393910951468561638530421117939613695.
Proof. refine (pw_div N.lxor 0 xs_T (wf 1024) xs_linear 32 phi1024 phi1024_annihilates _ _ _ _ _ _ _ xs1024_z9 xs1024_a8 xs1024_i8_c xs1024_w8_c _). vm_cast_no_check (eq_refl 1552518092300708935148979488462502555256886017116696611139052038026050952686376886330878408828646477950487730697131073206171580044114814391444287275041181254996544213337045329121250294319506298095247664834280508208476854766945697792). Qed.
Lemma xs1024_y1238926361552897_c : pow_check 32 phi1024 93461639715357977769163558199606896584051237541638188580280321 0x47d470a2b0fd6ce70bb2dce5c5e3ff524d55a5b2d238c03e7fda4582bb6c4ef9976f7226c00c7b2b215c8350e2423b9fda58b397da3e38e4df75e8897da18ea622a2ab5b5596358de23eca5f7ca99fa28c726e97442491e266ded1bd055e82783daacabdd932d48fa970234d42631f576b73e0563843ccb2e81be9f857de0d52 0xd8360311d7a0334f44f575b096669bc9eb370c025855fd01297039fd03d93493c6fe95be5d31cb51f8b121a8628a9246a7acdb49693fba73331a081d7b3fe78d3b70a02bca62116cd34a8747c3f33e23ffed15284a450cbdd3555f2e7384d737a3cce3748e89d06e0bbdefe1b5a821a49b2b6a71c8d105656c627815ea457399 = true.
Proof. vm_cast_no_check (eq_refl true). Qed.
Lemma xs1024_u1238926361552897_c : mul_check 32 phi1024 (N.lxor 0xd8360311d7a0334f44f575b096669bc9eb370c025855fd01297039fd03d93493c6fe95be5d31cb51f8b121a8628a9246a7acdb49693fba73331a081d7b3fe78d3b70a02bca62116cd34a8747c3f33e23ffed15284a450cbdd3555f2e7384d737a3cce3748e89d06e0bbdefe1b5a821a49b2b6a71c8d105656c627815ea457399 1) 0x281ef9df7f4587768834898dfdbb80b4c4a2e5a5ccfd76577c1bb5cfbfa56c8f05dba482816d3a6053b9b3f352bfbebfda6e7f9f702872d9bbe96c0e69e9bd1c9ea0fe504d13de83c64606d164e0cfad53639d500186eb16f0e16492d6f7d6a919be3f8e940d365c2bbaa49b7a95c601fe2953efa37085e13f8559c3ebe5a8f 1 = true.
Proof. vm_cast_no_check (eq_refl true). Qed.
Lemma xs1024_y1238926361552897 : pw N.lxor 0 xs_T (wf 1024) 0xd8360311d7a0334f44f575b096669bc9eb370c025855fd01297039fd03d93493c6fe95be5d31cb51f8b121a8628a9246a7acdb49693fba73331a081d7b3fe78d3b70a02bca62116cd34a8747c3f33e23ffed15284a450cbdd3555f2e7384d737a3cce3748e89d06e0bbdefe1b5a821a49b2b6a71c8d105656c627815ea457399 145100886594183740899243091726364248113343747155209041114717606652433360597604166530745830550664793342910557082703138220095934141107547976111638710455429090900659684448479862253726837281128193677387697502094218481983501492635711911129563819179261769078294893385115636079356104762962553550596095.
Proof. refine (pw_pow N.lxor 0 xs_T (wf 1024) xs_linear 32 phi1024 phi1024_annihilates 93461639715357977769163558199606896584051237541638188580280321 _ _ _ _ xs1024_w8 xs1024_y1238926361552897_c _). vm_cast_no_check (eq_refl 145100886594183740899243091726364248113343747155209041114717606652433360597604166530745830550664793342910557082703138220095934141107547976111638710455429090900659684448479862253726837281128193677387697502094218481983501492635711911129563819179261769078294893385115636079356104762962553550596095). Qed.
Lemma xs1024_cert1238926361552897 : exists p u, pw N.lxor 0 xs_T (wf 1024) p ((2 ^ 1024 - 1) / Z.to_N 1238926361552897) /\ mul_check 32 phi1024 (N.lxor p 1) u 1 = true.
Proof.
  assert (E : 145100886594183740899243091726364248113343747155209041114717606652433360597604166530745830550664793342910557082703138220095934141107547976111638710455429090900659684448479862253726837281128193677387697502094218481983501492635711911129563819179261769078294893385115636079356104762962553550596095 = (2 ^ 1024 - 1) / Z.to_N 1238926361552897) by (vm_cast_no_check (eq_refl 145100886594183740899243091726364248113343747155209041114717606652433360597604166530745830550664793342910557082703138220095934141107547976111638710455429090900659684448479862253726837281128193677387697502094218481983501492635711911129563819179261769078294893385115636079356104762962553550596095)).
  exists 0xd8360311d7a0334f44f575b096669bc9eb370c025855fd01297039fd03d93493c6fe95be5d31cb51f8b121a8628a9246a7acdb49693fba73331a081d7b3fe78d3b70a02bca62116cd34a8747c3f33e23ffed15284a450cbdd3555f2e7384d737a3cce3748e89d06e0bbdefe1b5a821a49b2b6a71c8d105656c627815ea457399, 0x281ef9df7f4587768834898dfdbb80b4c4a2e5a5ccfd76577c1bb5cfbfa56c8f05dba482816d3a6053b9b3f352bfbebfda6e7f9f702872d9bbe96c0e69e9bd1c9ea0fe504d13de83c64606d164e0cfad53639d500186eb16f0e16492d6f7d6a919be3f8e940d365c2bbaa49b7a95c601fe2953efa37085e13f8559c3ebe5a8f. rewrite <- E. exact (conj xs1024_y1238926361552897 xs1024_u1238926361552897_c).
Qed.
Lemma xs1024_y93461639715357977769163558199606896584051237541638188580280321_c : pow_check 32 phi1024 1238926361552897 0x47d470a2b0fd6ce70bb2dce5c5e3ff524d55a5b2d238c03e7fda4582bb6c4ef9976f7226c00c7b2b215c8350e2423b9fda58b397da3e38e4df75e8897da18ea622a2ab5b5596358de23eca5f7ca99fa28c726e97442491e266ded1bd055e82783daacabdd932d48fa970234d42631f576b73e0563843ccb2e81be9f857de0d52 0xfc7a86acd95a90a558c28bebc8268294383eeb73fc8dadb462033bbb58356cdf81f230b691439611b35f2a48c1bd3d57931b1be5b225d41c0439e72e2832ac4b4e9af252abfd1d2a31177c4d559e38bd74cd2b4f573a04980d1e5d8013ad477c469ac50fde133d895f532075db6e7aa188bbfaa7e2a9fa22a3595381cecabb60 = true.
Proof. vm_cast_no_check (eq_refl true). Qed.
Lemma xs1024_u93461639715357977769163558199606896584051237541638188580280321_c : mul_check 32 phi1024 (N.lxor 0xfc7a86acd95a90a558c28bebc8268294383eeb73fc8dadb462033bbb58356cdf81f230b691439611b35f2a48c1bd3d57931b1be5b225d41c0439e72e2832ac4b4e9af252abfd1d2a31177c4d559e38bd74cd2b4f573a04980d1e5d8013ad477c469ac50fde133d895f532075db6e7aa188bbfaa7e2a9fa22a3595381cecabb60 1) 0xcb3e36663c5d469aa8ff8017b3331e3c987c1dffb23c07e5df55825c82d049d481197a9638b1ef655f3b094121b6ff86b5487e4a992cf98a42efa3a34d7c8247d119109516972af600bf94fdc81657f5806a8532bd444d61c105bdbe52f7161f80c46f660eae1c477cef4c2ad9cb220d5f53e4e6a2c2db35b74f8b86b42e300a 1 = true.
Proof. vm_cast_no_check (eq_refl true). Qed.
Lemma xs1024_y93461639715357977769163558199606896584051237541638188580280321 : pw N.lxor 0 xs_T (wf 1024) 0xfc7a86acd95a90a558c28bebc8268294383eeb73fc8dadb462033bbb58356cdf81f230b691439611b35f2a48c1bd3d57931b1be5b225d41c0439e72e2832ac4b4e9af252abfd1d2a31177c4d559e38bd74cd2b4f573a04980d1e5d8013ad477c469ac50fde133d895f532075db6e7aa188bbfaa7e2a9fa22a3595381cecabb60 1923455591339162034423095218621555087970067488672039152985308012670197384680788972357170506443684427215246940706964331536093398116432182928868655565133919772617458310704057365493510282036100246427441258665570252860062805347705031657737572488124415.
Proof. refine (pw_pow N.lxor 0 xs_T (wf 1024) xs_linear 32 phi1024 phi1024_annihilates 1238926361552897 _ _ _ _ xs1024_w8 xs1024_y93461639715357977769163558199606896584051237541638188580280321_c _). vm_cast_no_check (eq_refl 1923455591339162034423095218621555087970067488672039152985308012670197384680788972357170506443684427215246940706964331536093398116432182928868655565133919772617458310704057365493510282036100246427441258665570252860062805347705031657737572488124415). Qed.
Lemma xs1024_cert93461639715357977769163558199606896584051237541638188580280321 : exists p u, pw N.lxor 0 xs_T (wf 1024) p ((2 ^ 1024 - 1) / Z.to_N 93461639715357977769163558199606896584051237541638188580280321) /\ mul_check 32 phi1024 (N.lxor p 1) u 1 = true.
Proof.
  assert (E : 1923455591339162034423095218621555087970067488672039152985308012670197384680788972357170506443684427215246940706964331536093398116432182928868655565133919772617458310704057365493510282036100246427441258665570252860062805347705031657737572488124415 = (2 ^ 1024 - 1) / Z.to_N 93461639715357977769163558199606896584051237541638188580280321) by (vm_cast_no_check (eq_refl 1923455591339162034423095218621555087970067488672039152985308012670197384680788972357170506443684427215246940706964331536093398116432182928868655565133919772617458310704057365493510282036100246427441258665570252860062805347705031657737572488124415)).
  exists 0xfc7a86acd95a90a558c28bebc8268294383eeb73fc8dadb462033bbb58356cdf81f230b691439611b35f2a48c1bd3d57931b1be5b225d41c0439e72e2832ac4b4e9af252abfd1d2a31177c4d559e38bd74cd2b4f573a04980d1e5d8013ad477c469ac50fde133d895f532075db6e7aa188bbfaa7e2a9fa22a3595381cecabb60, 0xcb3e36663c5d469aa8ff8017b3331e3c987c1dffb23c07e5df55825c82d049d481197a9638b1ef655f3b094121b6ff86b5487e4a992cf98a42efa3a34d7c8247d119109516972af600bf94fdc81657f5806a8532bd444d61c105bdbe52f7161f80c46f660eae1c477cef4c2ad9cb220d5f53e4e6a2c2db35b74f8b86b42e300a. rewrite <- E. exact (conj xs1024_y93461639715357977769163558199606896584051237541638188580280321 xs1024_u93461639715357977769163558199606896584051237541638188580280321_c).
Qed.
Lemma xs1024_a7_c : sq_check 32 phi1024 128 0x46d12629f25a5f961c165b0c4a20f6348902d5c6156b72ee63fc95a2c0faf151a668b99cec73d48d5a8c27f05b5f19e8cd309e6133de512b460f06cc1232eeb604e3a517502b711292d448114194393e8744541e5199d288cd3e33f16a1eae36bb11dbe0895d1f9a538a37963f4a4d4072e053a61388330d4cabcbefd52791f5 0xe99a22084f8d65c0f18c9c27bf3688bd087d8f47879125ce9725625a628e7d354adab80b3b9a4b5e17c35f2804d27a257a79e53eaf10b922621c54603e8fc3f838e95ef31671d60f72f623366d2cef6484be2c68a447e3d27c80edb1bbb7452e7e40322057eb5f39f918d98656c9a91137fe118126ae7684d62367314deaf0c8 = true.
Proof. vm_cast_no_check (eq_refl true). Qed.
Lemma xs1024_a7 : pw N.lxor 0 xs_T (wf 1024) 0xe99a22084f8d65c0f18c9c27bf3688bd087d8f47879125ce9725625a628e7d354adab80b3b9a4b5e17c35f2804d27a257a79e53eaf10b922621c54603e8fc3f838e95ef31671d60f72f623366d2cef6484be2c68a447e3d27c80edb1bbb7452e7e40322057eb5f39f918d98656c9a91137fe118126ae7684d62367314deaf0c8 528294531135665246352339784916516606518847326036121522127960709026673902556729421915034878082875829066280095284582021907389596119433264729768438253630148293696898793204801667847550260129613840540074192078379231790439685199793055450577542674628590089818636869149743120384.
Proof. refine (pw_sq N.lxor 0 xs_T (wf 1024) xs_linear 32 phi1024 phi1024_annihilates 128 _ _ _ _ xs1024_z8 xs1024_a7_c _). vm_cast_no_check (eq_refl 528294531135665246352339784916516606518847326036121522127960709026673902556729421915034878082875829066280095284582021907389596119433264729768438253630148293696898793204801667847550260129613840540074192078379231790439685199793055450577542674628590089818636869149743120384). Qed.
Lemma xs1024_z7_c : mul_check 32 phi1024 0xe99a22084f8d65c0f18c9c27bf3688bd087d8f47879125ce9725625a628e7d354adab80b3b9a4b5e17c35f2804d27a257a79e53eaf10b922621c54603e8fc3f838e95ef31671d60f72f623366d2cef6484be2c68a447e3d27c80edb1bbb7452e7e40322057eb5f39f918d98656c9a91137fe118126ae7684d62367314deaf0c8 0x46d12629f25a5f961c165b0c4a20f6348902d5c6156b72ee63fc95a2c0faf151a668b99cec73d48d5a8c27f05b5f19e8cd309e6133de512b460f06cc1232eeb604e3a517502b711292d448114194393e8744541e5199d288cd3e33f16a1eae36bb11dbe0895d1f9a538a37963f4a4d4072e053a61388330d4cabcbefd52791f5 0xae90a5fadc88974f520c7e33898b8eb24cdf3c20909544643037534930d51d79edd7888a9f05e889a64f6c5aa4158912d41f66607a577e9d8fdd18baaeef8ff29f98a55d56b751b38487a50521be007514565ef75606d2b14a4d7966d1f6489a692e918893ae1b203ca70c54f6b95b869b638f75cb82ade298a95173461107b0 = true.
Proof. vm_cast_no_check (eq_refl true). Qed.
Lemma xs1024_z7 : pw N.lxor 0 xs_T (wf 1024) 0xae90a5fadc88974f520c7e33898b8eb24cdf3c20909544643037534930d51d79edd7888a9f05e889a64f6c5aa4158912d41f66607a577e9d8fdd18baaeef8ff29f98a55d56b751b38487a50521be007514565ef75606d2b14a4d7966d1f6489a692e918893ae1b203ca70c54f6b95b869b638f75cb82ade298a95173461107b0 528294531135665246352339784916516606520399844128422231063109688515136405111986307932151574694014881104306146237268412201528404470859010781743924190173406846268890965642294205800438269168685095342047538166014444022988625525970748234723644093345682544597060157565694902273.
Proof. refine (pw_mul N.lxor 0 xs_T (wf 1024) xs_linear 32 phi1024 phi1024_annihilates _ _ _ _ _ _ xs1024_a7 xs1024_z8 xs1024_z7_c _). vm_cast_no_check (eq_refl 528294531135665246352339784916516606520399844128422231063109688515136405111986307932151574694014881104306146237268412201528404470859010781743924190173406846268890965642294205800438269168685095342047538166014444022988625525970748234723644093345682544597060157565694902273). Qed.
Lemma xs1024_i7_c : mul_check 32 phi1024 0x84caaa4f3296aa46091dd3c194fc9fe963f29bb8817675fa2a2d8d58901109fa6f35730eb63f2ca7dc24c0cb98d72619351ba385472b86d15e4d5d07b629a99769df1e501b1d88611c73499c6f48cbf3a5ef1cc1a4a0deda43bdbb8992dd0141255039dacbec03fd52e8f83b85d1ca26e99a24cddf4b515b38a30238d982749b 0x46d12629f25a5f961c165b0c4a20f6348902d5c6156b72ee63fc95a2c0faf151a668b99cec73d48d5a8c27f05b5f19e8cd309e6133de512b460f06cc1232eeb604e3a517502b711292d448114194393e8744541e5199d288cd3e33f16a1eae36bb11dbe0895d1f9a538a37963f4a4d4072e053a61388330d4cabcbefd52791f5 1 = true.
Proof. vm_cast_no_check (eq_refl true). Qed.
Lemma xs1024_w7_c : mul_check 32 phi1024 0x84caaa4f3296aa46091dd3c194fc9fe963f29bb8817675fa2a2d8d58901109fa6f35730eb63f2ca7dc24c0cb98d72619351ba385472b86d15e4d5d07b629a99769df1e501b1d88611c73499c6f48cbf3a5ef1cc1a4a0deda43bdbb8992dd0141255039dacbec03fd52e8f83b85d1ca26e99a24cddf4b515b38a30238d982749b 0xe99a22084f8d65c0f18c9c27bf3688bd087d8f47879125ce9725625a628e7d354adab80b3b9a4b5e17c35f2804d27a257a79e53eaf10b922621c54603e8fc3f838e95ef31671d60f72f623366d2cef6484be2c68a447e3d27c80edb1bbb7452e7e40322057eb5f39f918d98656c9a91137fe118126ae7684d62367314deaf0c8 0x714ac8cd38a3dc938bdaff8cf1a482536a22a2fb9b285ea970fbb6489894980073bd8a818cd57dc4baa8300a6d866a863e74de781af9a5cdd043489a77f22ff9d18449c8afbdfb588f9a6239df1e068ce0513facfb820163e4f8de16e429feeec9cf2edf9e40f0df9385e4903fc50717bc6d3bbedc582d3ec1ccd57998b255f9 = true.
Proof. vm_cast_no_check (eq_refl true). Qed.
Lemma xs1024_w7 : pw N.lxor 0 xs_T (wf 1024) 0x714ac8cd38a3dc938bdaff8cf1a482536a22a2fb9b285ea970fbb6489894980073bd8a818cd57dc4baa8300a6d866a863e74de781af9a5cdd043489a77f22ff9d18449c8afbdfb588f9a6239df1e068ce0513facfb820163e4f8de16e429feeec9cf2edf9e40f0df9385e4903fc50717bc6d3bbedc582d3ec1ccd57998b255f9 528294531135665246352339784916516606517294807943820813192811729538211400001472535897918181471736777028254044331895631613250787768007518677792952317086889741124906620767309129894662251090542585738100845990744019557890744873615362666431441255911497635040213580733791338495.
Proof. refine (pw_div N.lxor 0 xs_T (wf 1024) xs_linear 32 phi1024 phi1024_annihilates _ _ _ _ _ _ _ xs1024_z8 xs1024_a7 xs1024_i7_c xs1024_w7_c _). vm_cast_no_check (eq_refl 528294531135665246352339784916516606518847326036121522127960709026673902556729421915034878082875829066280095284582021907389596119433264729768438253630148293696898793204801667847550260129613840540074192078379231790439685199793055450577542674628590089818636869149743120384). Qed.
Lemma xs1024_y59649589127497217_c : pow_check 32 phi1024 5704689200685129054721 0x714ac8cd38a3dc938bdaff8cf1a482536a22a2fb9b285ea970fbb6489894980073bd8a818cd57dc4baa8300a6d866a863e74de781af9a5cdd043489a77f22ff9d18449c8afbdfb588f9a6239df1e068ce0513facfb820163e4f8de16e429feeec9cf2edf9e40f0df9385e4903fc50717bc6d3bbedc582d3ec1ccd57998b255f9 0x2249d73cac1225735a1648b703dc36fdbeb18ae9039b6dae9493001dc18e292524e3d7b8dfd19fd3a3d93f22b8c7f3cbb753cde8cad3668c7e910461e76386470268643d23051f7ead3a07c9c18339492a877d79c2b929a2363f9484325cafa53bcaa72a9010876a32374168ac3f9becd367d0dcbc580680b9160ce24ed9715f = true.
Proof. vm_cast_no_check (eq_refl true). Qed.
Lemma xs1024_u59649589127497217_c : mul_check 32 phi1024 (N.lxor 0x2249d73cac1225735a1648b703dc36fdbeb18ae9039b6dae9493001dc18e292524e3d7b8dfd19fd3a3d93f22b8c7f3cbb753cde8cad3668c7e910461e76386470268643d23051f7ead3a07c9c18339492a877d79c2b929a2363f9484325cafa53bcaa72a9010876a32374168ac3f9becd367d0dcbc580680b9160ce24ed9715f 1) 0xc0181703ae364f640524ef2364c3d51655860da9e4123f0b36258dafb761b2af05c46a501ca5839252238b7c0afefdb20de840187fa29c032fd3409f237ded1162476ade37b3d5f6b65daeeb20478ddbc95dc1ce4d01f0285ba4e422eadbde9bb969b21d347282b792a8572093e642d6e05e6c0b08e41c7aea5d89e606a40951 1 = true.
Proof. vm_cast_no_check (eq_refl true). Qed.
Lemma xs1024_y59649589127497217 : pw N.lxor 0 xs_T (wf 1024) 0x2249d73cac1225735a1648b703dc36fdbeb18ae9039b6dae9493001dc18e292524e3d7b8dfd19fd3a3d93f22b8c7f3cbb753cde8cad3668c7e910461e76386470268643d23051f7ead3a07c9c18339492a877d79c2b929a2363f9484325cafa53bcaa72a9010876a32374168ac3f9becd367d0dcbc580680b9160ce24ed9715f 3013756106550643198412784398586445336966314780616481699460881786545752187075916249965541048853240319779419296179985066093447227948860353801407315636737592563347618075258623778647177813307429461393443317784000837023896959895650546729129315510428524100455733407635916101156059831285536688784895.
Proof. refine (pw_pow N.lxor 0 xs_T (wf 1024) xs_linear 32 phi1024 phi1024_annihilates 5704689200685129054721 _ _ _ _ xs1024_w7 xs1024_y59649589127497217_c _). vm_cast_no_check (eq_refl 3013756106550643198412784398586445336966314780616481699460881786545752187075916249965541048853240319779419296179985066093447227948860353801407315636737592563347618075258623778647177813307429461393443317784000837023896959895650546729129315510428524100455733407635916101156059831285536688784895). Qed.
Lemma xs1024_cert59649589127497217 : exists p u, pw N.lxor 0 xs_T (wf 1024) p ((2 ^ 1024 - 1) / Z.to_N 59649589127497217) /\ mul_check 32 phi1024 (N.lxor p 1) u 1 = true.
Proof.
  assert (E : 3013756106550643198412784398586445336966314780616481699460881786545752187075916249965541048853240319779419296179985066093447227948860353801407315636737592563347618075258623778647177813307429461393443317784000837023896959895650546729129315510428524100455733407635916101156059831285536688784895 = (2 ^ 1024 - 1) / Z.to_N 59649589127497217) by (vm_cast_no_check (eq_refl 3013756106550643198412784398586445336966314780616481699460881786545752187075916249965541048853240319779419296179985066093447227948860353801407315636737592563347618075258623778647177813307429461393443317784000837023896959895650546729129315510428524100455733407635916101156059831285536688784895)).
  exists 0x2249d73cac1225735a1648b703dc36fdbeb18ae9039b6dae9493001dc18e292524e3d7b8dfd19fd3a3d93f22b8c7f3cbb753cde8cad3668c7e910461e76386470268643d23051f7ead3a07c9c18339492a877d79c2b929a2363f9484325cafa53bcaa72a9010876a32374168ac3f9becd367d0dcbc580680b9160ce24ed9715f, 0xc0181703ae364f640524ef2364c3d51655860da9e4123f0b36258dafb761b2af05c46a501ca5839252238b7c0afefdb20de840187fa29c032fd3409f237ded1162476ade37b3d5f6b65daeeb20478ddbc95dc1ce4d01f0285ba4e422eadbde9bb969b21d347282b792a8572093e642d6e05e6c0b08e41c7aea5d89e606a40951. rewrite <- E. exact (conj xs1024_y59649589127497217 xs1024_u59649589127497217_c).
Qed.
Lemma xs1024_y5704689200685129054721_c : pow_check 32 phi1024 59649589127497217 0x714ac8cd38a3dc938bdaff8cf1a482536a22a2fb9b285ea970fbb6489894980073bd8a818cd57dc4baa8300a6d866a863e74de781af9a5cdd043489a77f22ff9d18449c8afbdfb588f9a6239df1e068ce0513facfb820163e4f8de16e429feeec9cf2edf9e40f0df9385e4903fc50717bc6d3bbedc582d3ec1ccd57998b255f9 0x9c1fac7f17cdee861e9995f077c9134930d7b74908dfd2d129e9183ebda2f430a32f8224e8afdca9ab26619e274ff8c3d6e15b221e529f36967546fbf1bea2b428b4bf4a68c7450a0e53ff701e82ac90e7f2b23d263a8fae9d6a22bae4e938b10206f2bb09689b6744723c4cc49f28d44826b3077a30e7d46c868e571003272f = true.
Proof. vm_cast_no_check (eq_refl true). Qed.
Lemma xs1024_u5704689200685129054721_c : mul_check 32 phi1024 (N.lxor 0x9c1fac7f17cdee861e9995f077c9134930d7b74908dfd2d129e9183ebda2f430a32f8224e8afdca9ab26619e274ff8c3d6e15b221e529f36967546fbf1bea2b428b4bf4a68c7450a0e53ff701e82ac90e7f2b23d263a8fae9d6a22bae4e938b10206f2bb09689b6744723c4cc49f28d44826b3077a30e7d46c868e571003272f 1) 0xdacb78119ea53996b1182dffab2aff68ac973ddffbc6907ee7962e330f77c33f61c83ea3606bade0bed1fa7f072134624a63e3e25a62651452450f4effc25036bf82f6616c6f819ab92cd36fe8e99067a06717da79bdff3e26e2b80cf9f368af96f1c83c306902913508242b536dd1208910d1fe71070b7b913336d17ad149ac 1 = true.
Proof. vm_cast_no_check (eq_refl true). Qed.
Lemma xs1024_y5704689200685129054721 : pw N.lxor 0 xs_T (wf 1024) 0x9c1fac7f17cdee861e9995f077c9134930d7b74908dfd2d129e9183ebda2f430a32f8224e8afdca9ab26619e274ff8c3d6e15b221e529f36967546fbf1bea2b428b4bf4a68c7450a0e53ff701e82ac90e7f2b23d263a8fae9d6a22bae4e938b10206f2bb09689b6744723c4cc49f28d44826b3077a30e7d46c868e571003272f 31512551720546217662617985712161338905665801350921996977983643450093849726281084818960109709333678097267398359637275037937133809434571601518773299304951772988697066771424897766870535211626607195274371805491927300001614891639653688581555036008472735732321485332697886382149842071817468415.
Proof. refine (pw_pow N.lxor 0 xs_T (wf 1024) xs_linear 32 phi1024 phi1024_annihilates 59649589127497217 _ _ _ _ xs1024_w7 xs1024_y5704689200685129054721_c _). vm_cast_no_check (eq_refl 31512551720546217662617985712161338905665801350921996977983643450093849726281084818960109709333678097267398359637275037937133809434571601518773299304951772988697066771424897766870535211626607195274371805491927300001614891639653688581555036008472735732321485332697886382149842071817468415). Qed.
Lemma xs1024_cert5704689200685129054721 : exists p u, pw N.lxor 0 xs_T (wf 1024) p ((2 ^ 1024 - 1) / Z.to_N 5704689200685129054721) /\ mul_check 32 phi1024 (N.lxor p 1) u 1 = true.
Proof.
  assert (E : 31512551720546217662617985712161338905665801350921996977983643450093849726281084818960109709333678097267398359637275037937133809434571601518773299304951772988697066771424897766870535211626607195274371805491927300001614891639653688581555036008472735732321485332697886382149842071817468415 = (2 ^ 1024 - 1) / Z.to_N 5704689200685129054721) by (vm_cast_no_check (eq_refl 31512551720546217662617985712161338905665801350921996977983643450093849726281084818960109709333678097267398359637275037937133809434571601518773299304951772988697066771424897766870535211626607195274371805491927300001614891639653688581555036008472735732321485332697886382149842071817468415)).
  exists 0x9c1fac7f17cdee861e9995f077c9134930d7b74908dfd2d129e9183ebda2f430a32f8224e8afdca9ab26619e274ff8c3d6e15b221e529f36967546fbf1bea2b428b4bf4a68c7450a0e53ff701e82ac90e7f2b23d263a8fae9d6a22bae4e938b10206f2bb09689b6744723c4cc49f28d44826b3077a30e7d46c868e571003272f, 0xdacb78119ea53996b1182dffab2aff68ac973ddffbc6907ee7962e330f77c33f61c83ea3606bade0bed1fa7f072134624a63e3e25a62651452450f4effc25036bf82f6616c6f819ab92cd36fe8e99067a06717da79bdff3e26e2b80cf9f368af96f1c83c306902913508242b536dd1208910d1fe71070b7b913336d17ad149ac. rewrite <- E. exact (conj xs1024_y5704689200685129054721 xs1024_u5704689200685129054721_c).
Qed.
Lemma xs1024_a6_c : sq_check 32 phi1024 64 0xae90a5fadc88974f520c7e33898b8eb24cdf3c20909544643037534930d51d79edd7888a9f05e889a64f6c5aa4158912d41f66607a577e9d8fdd18baaeef8ff29f98a55d56b751b38487a50521be007514565ef75606d2b14a4d7966d1f6489a692e918893ae1b203ca70c54f6b95b869b638f75cb82ade298a95173461107b0 0xb993f8a92cbd92c04da8d4a856f63f60fa17a7c79b7b6cf65ad25e24c869b5e95d35648e2da920be987d155361455684a6f537e1711a879c24e62a378882659f6ba4c0f3e18f9344bf385b063e0bd2eedd448c29a6fe0ec4c70f973c4b23795b8d6062ebdd76ee5fbad47f9fa1b5400552849446cd450037e149849755d88475 = true.
Proof. vm_cast_no_check (eq_refl true). Qed.
Lemma xs1024_a6 : pw N.lxor 0 xs_T (wf 1024) 0xb993f8a92cbd92c04da8d4a856f63f60fa17a7c79b7b6cf65ad25e24c869b5e95d35648e2da920be987d155361455684a6f537e1711a879c24e62a378882659f6ba4c0f3e18f9344bf385b063e0bd2eedd448c29a6fe0ec4c70f973c4b23795b8d6062ebdd76ee5fbad47f9fa1b5400552849446cd450037e149849755d88475 9745314011399999080353382387875188310904865761513482488072325241146623529257232003812210492387567564765742062295410625110051098017313755418977466167190442290947318732740792434170767194262957967101238818343232138767972928703470527961834988850563237199527661530941264650280730421999769223168.
Proof. refine (pw_sq N.lxor 0 xs_T (wf 1024) xs_linear 32 phi1024 phi1024_annihilates 64 _ _ _ _ xs1024_z7 xs1024_a6_c _). vm_cast_no_check (eq_refl 9745314011399999080353382387875188310904865761513482488072325241146623529257232003812210492387567564765742062295410625110051098017313755418977466167190442290947318732740792434170767194262957967101238818343232138767972928703470527961834988850563237199527661530941264650280730421999769223168). Qed.
Lemma xs1024_z6_c : mul_check 32 phi1024 0xb993f8a92cbd92c04da8d4a856f63f60fa17a7c79b7b6cf65ad25e24c869b5e95d35648e2da920be987d155361455684a6f537e1711a879c24e62a378882659f6ba4c0f3e18f9344bf385b063e0bd2eedd448c29a6fe0ec4c70f973c4b23795b8d6062ebdd76ee5fbad47f9fa1b5400552849446cd450037e149849755d88475 0xae90a5fadc88974f520c7e33898b8eb24cdf3c20909544643037534930d51d79edd7888a9f05e889a64f6c5aa4158912d41f66607a577e9d8fdd18baaeef8ff29f98a55d56b751b38487a50521be007514565ef75606d2b14a4d7966d1f6489a692e918893ae1b203ca70c54f6b95b869b638f75cb82ade298a95173461107b0 0xfef2f535d9d72c2b6d61d760bbc39b371da0f82de38ffa28dd62e544d0cbaa52ffde0539fcc6cfbb4cb4dea4aa94b61456c5d0643fa2f6be625833f28eb85babcfeb27b248e7052a90592ef9c4fef898e93acc80214fef812dd4aa064f345f36e3739d4534cb79624778d4f74a99ee89bc60414338973428eacbef10eabc5717 = true.
Proof. vm_cast_no_check (eq_refl true). Qed.
Lemma xs1024_z6 : pw N.lxor 0 xs_T (wf 1024) 0xfef2f535d9d72c2b6d61d760bbc39b371da0f82de38ffa28dd62e544d0cbaa52ffde0539fcc6cfbb4cb4dea4aa94b61456c5d0643fa2f6be625833f28eb85babcfeb27b248e7052a90592ef9c4fef898e93acc80214fef812dd4aa064f345f36e3739d4534cb79624778d4f74a99ee89bc60414338973428eacbef10eabc5717 9745314011399999080881676919010853557257205546429999094592725085275045760320341692327346897499553872697893636989425506214357244254582167620505870638049453072691242922914199280439658159905252172901677087511917234110020466869484971984823614376533985434251305624286947194877790579565464125441.
Proof. refine (pw_mul N.lxor 0 xs_T (wf 1024) xs_linear 32 phi1024 phi1024_annihilates _ _ _ _ _ _ xs1024_a6 xs1024_z7 xs1024_z6_c _). vm_cast_no_check (eq_refl 9745314011399999080881676919010853557257205546429999094592725085275045760320341692327346897499553872697893636989425506214357244254582167620505870638049453072691242922914199280439658159905252172901677087511917234110020466869484971984823614376533985434251305624286947194877790579565464125441). Qed.
Lemma xs1024_i6_c : mul_check 32 phi1024 0xd7e65622433b52c54004cd02cc613bfccac2856742ee345117c1562257768222c5744a07945705282d2a8680c24339311092b3f741acb1e5683ea97131d38ce8e7a2390e3a1e29f05141232937ad2a9b77d1900bedc3572f901d51ba953771695870c60d97cda57e0a249161b02b1f6a1623f6b26d3c1189166392d8dcd5faca 0xae90a5fadc88974f520c7e33898b8eb24cdf3c20909544643037534930d51d79edd7888a9f05e889a64f6c5aa4158912d41f66607a577e9d8fdd18baaeef8ff29f98a55d56b751b38487a50521be007514565ef75606d2b14a4d7966d1f6489a692e918893ae1b203ca70c54f6b95b869b638f75cb82ade298a95173461107b0 1 = true.
Proof. vm_cast_no_check (eq_refl true). Qed.
Lemma xs1024_w6_c : mul_check 32 phi1024 0xd7e65622433b52c54004cd02cc613bfccac2856742ee345117c1562257768222c5744a07945705282d2a8680c24339311092b3f741acb1e5683ea97131d38ce8e7a2390e3a1e29f05141232937ad2a9b77d1900bedc3572f901d51ba953771695870c60d97cda57e0a249161b02b1f6a1623f6b26d3c1189166392d8dcd5faca 0xb993f8a92cbd92c04da8d4a856f63f60fa17a7c79b7b6cf65ad25e24c869b5e95d35648e2da920be987d155361455684a6f537e1711a879c24e62a378882659f6ba4c0f3e18f9344bf385b063e0bd2eedd448c29a6fe0ec4c70f973c4b23795b8d6062ebdd76ee5fbad47f9fa1b5400552849446cd450037e149849755d88475 0xfd7088eb2434f5969497ee2893486cdbf0172c147de6ce087f257476de470eaca26f78d889d08829e67dd832784fcbbc7229a0e023e5a892a2138914560730771c69d78afd79514fc9e0f1e6ab204641818e40d1eac670dced914b67e903509c02504bc517f651286418f561d402d0faae24ec7d5e1c2c209d6b420f0f679d63 = true.
Proof. vm_cast_no_check (eq_refl true). Qed.
Lemma xs1024_w6 : pw N.lxor 0 xs_T (wf 1024) 0xfd7088eb2434f5969497ee2893486cdbf0172c147de6ce087f257476de470eaca26f78d889d08829e67dd832784fcbbc7229a0e023e5a892a2138914560730771c69d78afd79514fc9e0f1e6ab204641818e40d1eac670dced914b67e903509c02504bc517f651286418f561d402d0faae24ec7d5e1c2c209d6b420f0f679d63 9745314011399999079825087856739523064552525976596965881551925397018201298194122315297074087275581256833590487601395744005744951780045343217449061696331431509203394542567385587901876228620663761300800549174547043425925390537456083938846363324592488964804017437595582105683670264434074320895.
Proof. refine (pw_div N.lxor 0 xs_T (wf 1024) xs_linear 32 phi1024 phi1024_annihilates _ _ _ _ _ _ _ xs1024_z7 xs1024_a6 xs1024_i6_c xs1024_w6_c _). vm_cast_no_check (eq_refl 9745314011399999080353382387875188310904865761513482488072325241146623529257232003812210492387567564765742062295410625110051098017313755418977466167190442290947318732740792434170767194262957967101238818343232138767972928703470527961834988850563237199527661530941264650280730421999769223168). Qed.
Lemma xs1024_y274177_c : pow_check 32 phi1024 67280421310721 0xfd7088eb2434f5969497ee2893486cdbf0172c147de6ce087f257476de470eaca26f78d889d08829e67dd832784fcbbc7229a0e023e5a892a2138914560730771c69d78afd79514fc9e0f1e6ab204641818e40d1eac670dced914b67e903509c02504bc517f651286418f561d402d0faae24ec7d5e1c2c209d6b420f0f679d63 0xa5cef5db95c630f19646e2deba6ea3a05b99f8e89d6e27f0f4b4aa361f6ae03e5908b657e3500190b7faac4f6f925a78450a8ad90d63627eb3a486eae94e6549736f33c6d1b9a41e6bdaeb20228f4c8de7bfc9f9fad7c644a20ba0190420694431d02cffa19fae5d3ee97f65c23ea38ea29884fccef06b13a0b2083687318af = true.
Proof. vm_cast_no_check (eq_refl true). Qed.
Lemma xs1024_u274177_c : mul_check 32 phi1024 (N.lxor 0xa5cef5db95c630f19646e2deba6ea3a05b99f8e89d6e27f0f4b4aa361f6ae03e5908b657e3500190b7faac4f6f925a78450a8ad90d63627eb3a486eae94e6549736f33c6d1b9a41e6bdaeb20228f4c8de7bfc9f9fad7c644a20ba0190420694431d02cffa19fae5d3ee97f65c23ea38ea29884fccef06b13a0b2083687318af 1) 0x26d8bec01059e2e899b6ab955afb154110f5304f7f72499208f04cf35df5e91627f36cf06a36ec669eee17bdced2f6a7a4bb3dcae9df0f5a3c54b1726aeaaf5fbcf60269dc2fb4ae3054a734b73c96fbf1344b41f57c46ef5fe119a8586d518ce9774d223717304610c4521c182a05bd485abb2e4b7ad66c493619dfabe4ce01 1 = true.
Proof. vm_cast_no_check (eq_refl true). Qed.
Lemma xs1024_y274177 : pw N.lxor 0 xs_T (wf 1024) 0xa5cef5db95c630f19646e2deba6ea3a05b99f8e89d6e27f0f4b4aa361f6ae03e5908b657e3500190b7faac4f6f925a78450a8ad90d63627eb3a486eae94e6549736f33c6d1b9a41e6bdaeb20228f4c8de7bfc9f9fad7c644a20ba0190420694431d02cffa19fae5d3ee97f65c23ea38ea29884fccef06b13a0b2083687318af 655668832492264452426463631445753923056265470459705435807635509753672539292139614674857764591514007451828978652007255742308033747595227252806936506853142766817668489424224078884451356609949390793002633160640775006065974470296424869605813436359823169570571239325641094037600695676441555290324703857815295.
Proof. refine (pw_pow N.lxor 0 xs_T (wf 1024) xs_linear 32 phi1024 phi1024_annihilates 67280421310721 _ _ _ _ xs1024_w6 xs1024_y274177_c _). vm_cast_no_check (eq_refl 655668832492264452426463631445753923056265470459705435807635509753672539292139614674857764591514007451828978652007255742308033747595227252806936506853142766817668489424224078884451356609949390793002633160640775006065974470296424869605813436359823169570571239325641094037600695676441555290324703857815295). Qed.
Lemma xs1024_cert274177 : exists p u, pw N.lxor 0 xs_T (wf 1024) p ((2 ^ 1024 - 1) / Z.to_N 274177) /\ mul_check 32 phi1024 (N.lxor p 1) u 1 = true.
Proof.
  assert (E : 655668832492264452426463631445753923056265470459705435807635509753672539292139614674857764591514007451828978652007255742308033747595227252806936506853142766817668489424224078884451356609949390793002633160640775006065974470296424869605813436359823169570571239325641094037600695676441555290324703857815295 = (2 ^ 1024 - 1) / Z.to_N 274177) by (vm_cast_no_check (eq_refl 655668832492264452426463631445753923056265470459705435807635509753672539292139614674857764591514007451828978652007255742308033747595227252806936506853142766817668489424224078884451356609949390793002633160640775006065974470296424869605813436359823169570571239325641094037600695676441555290324703857815295)).
  exists 0xa5cef5db95c630f19646e2deba6ea3a05b99f8e89d6e27f0f4b4aa361f6ae03e5908b657e3500190b7faac4f6f925a78450a8ad90d63627eb3a486eae94e6549736f33c6d1b9a41e6bdaeb20228f4c8de7bfc9f9fad7c644a20ba0190420694431d02cffa19fae5d3ee97f65c23ea38ea29884fccef06b13a0b2083687318af, 0x26d8bec01059e2e899b6ab955afb154110f5304f7f72499208f04cf35df5e91627f36cf06a36ec669eee17bdced2f6a7a4bb3dcae9df0f5a3c54b1726aeaaf5fbcf60269dc2fb4ae3054a734b73c96fbf1344b41f57c46ef5fe119a8586d518ce9774d223717304610c4521c182a05bd485abb2e4b7ad66c493619dfabe4ce01. rewrite <- E. exact (conj xs1024_y274177 xs1024_u274177_c).
Qed.
Lemma xs1024_y67280421310721_c : pow_check 32 phi1024 274177 0xfd7088eb2434f5969497ee2893486cdbf0172c147de6ce087f257476de470eaca26f78d889d08829e67dd832784fcbbc7229a0e023e5a892a2138914560730771c69d78afd79514fc9e0f1e6ab204641818e40d1eac670dced914b67e903509c02504bc517f651286418f561d402d0faae24ec7d5e1c2c209d6b420f0f679d63 0x8af1e072a2b2c79aa05ca39eaab5a217dfc8d65d28702b36e711f10833c44585fbe4204c7f4cadb32a8bc286a6679818a3e344801f5527ec7ddea388dacbd7f87bb3f8a05f7301773e2f2783e6db33214ba1629871e5600984a887e53db2fedcc43d5d2dc842fc5a97766e9a6f92e5645a250ec45b57b0623d35373a6f1fff24 = true.
Proof. vm_cast_no_check (eq_refl true). Qed.
Lemma xs1024_u67280421310721_c : mul_check 32 phi1024 (N.lxor 0x8af1e072a2b2c79aa05ca39eaab5a217dfc8d65d28702b36e711f10833c44585fbe4204c7f4cadb32a8bc286a6679818a3e344801f5527ec7ddea388dacbd7f87bb3f8a05f7301773e2f2783e6db33214ba1629871e5600984a887e53db2fedcc43d5d2dc842fc5a97766e9a6f92e5645a250ec45b57b0623d35373a6f1fff24 1) 0xd0b87bbdf72f72b49f9aefa875d1600189c3362dd2b50a6e14195c966215a546003e5780c33a0c258c10cc443c50e01829f034d321e3327aa7adac1996bee5ba0e5e6cfab17e722babc2745b0e8141ad0b68445e965aa9e26c75a8d332f773947a9cf0ba9c1958ae149bb7c8bd4ff4b81ef64db0858e884c7a7eae1053268789 1 = true.
Proof. vm_cast_no_check (eq_refl true). Qed.
Lemma xs1024_y67280421310721 : pw N.lxor 0 xs_T (wf 1024) 0x8af1e072a2b2c79aa05ca39eaab5a217dfc8d65d28702b36e711f10833c44585fbe4204c7f4cadb32a8bc286a6679818a3e344801f5527ec7ddea388dacbd7f87bb3f8a05f7301773e2f2783e6db33214ba1629871e5600984a887e53db2fedcc43d5d2dc842fc5a97766e9a6f92e5645a250ec45b57b0623d35373a6f1fff24 2671940959703617547709203113297272215269817914685426314506262249578259377334969874041205882026957042254863339119087880904263133644197492067330531388715062896898859105497498078334172718734527728082169592171029784725389945801388096726101079357246794846903071088987643914990031662091741195080028415.
Proof. refine (pw_pow N.lxor 0 xs_T (wf 1024) xs_linear 32 phi1024 phi1024_annihilates 274177 _ _ _ _ xs1024_w6 xs1024_y67280421310721_c _). vm_cast_no_check (eq_refl 2671940959703617547709203113297272215269817914685426314506262249578259377334969874041205882026957042254863339119087880904263133644197492067330531388715062896898859105497498078334172718734527728082169592171029784725389945801388096726101079357246794846903071088987643914990031662091741195080028415). Qed.
Lemma xs1024_cert67280421310721 : exists p u, pw N.lxor 0 xs_T (wf 1024) p ((2 ^ 1024 - 1) / Z.to_N 67280421310721) /\ mul_check 32 phi1024 (N.lxor p 1) u 1 = true.
Proof.
  assert (E : 2671940959703617547709203113297272215269817914685426314506262249578259377334969874041205882026957042254863339119087880904263133644197492067330531388715062896898859105497498078334172718734527728082169592171029784725389945801388096726101079357246794846903071088987643914990031662091741195080028415 = (2 ^ 1024 - 1) / Z.to_N 67280421310721) by (vm_cast_no_check (eq_refl 2671940959703617547709203113297272215269817914685426314506262249578259377334969874041205882026957042254863339119087880904263133644197492067330531388715062896898859105497498078334172718734527728082169592171029784725389945801388096726101079357246794846903071088987643914990031662091741195080028415)).
  exists 0x8af1e072a2b2c79aa05ca39eaab5a217dfc8d65d28702b36e711f10833c44585fbe4204c7f4cadb32a8bc286a6679818a3e344801f5527ec7ddea388dacbd7f87bb3f8a05f7301773e2f2783e6db33214ba1629871e5600984a887e53db2fedcc43d5d2dc842fc5a97766e9a6f92e5645a250ec45b57b0623d35373a6f1fff24, 0xd0b87bbdf72f72b49f9aefa875d1600189c3362dd2b50a6e14195c966215a546003e5780c33a0c258c10cc443c50e01829f034d321e3327aa7adac1996bee5ba0e5e6cfab17e722babc2745b0e8141ad0b68445e965aa9e26c75a8d332f773947a9cf0ba9c1958ae149bb7c8bd4ff4b81ef64db0858e884c7a7eae1053268789. rewrite <- E. exact (conj xs1024_y67280421310721 xs1024_u67280421310721_c).
Qed.
Lemma xs1024_a5_c : sq_check 32 phi1024 32 0xfef2f535d9d72c2b6d61d760bbc39b371da0f82de38ffa28dd62e544d0cbaa52ffde0539fcc6cfbb4cb4dea4aa94b61456c5d0643fa2f6be625833f28eb85babcfeb27b248e7052a90592ef9c4fef898e93acc80214fef812dd4aa064f345f36e3739d4534cb79624778d4f74a99ee89bc60414338973428eacbef10eabc5717 0x6151a5c04d59f47996755d3ad2cd2f26f1beae5bb022445267b34d13a9c406bdd51fc0328004e7d7470f2f8b3b25479969b27e2f5f24b6d94c6e4820540e588413ed094c96040f6cbf4c060f3eb13936b15e875c6aaa9362353e0b53c8ea58d92f996d4e99e8898b186f71dbe98ab2a7b0c516499576d145f35df35849970b95 = true.
Proof. vm_cast_no_check (eq_refl true). Qed.
Lemma xs1024_a5 : pw N.lxor 0 xs_T (wf 1024) 0x6151a5c04d59f47996755d3ad2cd2f26f1beae5bb022445267b34d13a9c406bdd51fc0328004e7d7470f2f8b3b25479969b27e2f5f24b6d94c6e4820540e588413ed094c96040f6cbf4c060f3eb13936b15e875c6aaa9362353e0b53c8ea58d92f996d4e99e8898b186f71dbe98ab2a7b0c516499576d145f35df35849970b95 41855804968213567226816861212789656697464961282266655664585364680775132705479322052091249051207648057827600458956078447018909129734114308074862853366429054177895599059507934923515064298212596541245640514416214530761313571095089455038293632075728897272649715901613301521679049255970554309830336577536.
Proof. refine (pw_sq N.lxor 0 xs_T (wf 1024) xs_linear 32 phi1024 phi1024_annihilates 32 _ _ _ _ xs1024_z6 xs1024_a5_c _). vm_cast_no_check (eq_refl 41855804968213567226816861212789656697464961282266655664585364680775132705479322052091249051207648057827600458956078447018909129734114308074862853366429054177895599059507934923515064298212596541245640514416214530761313571095089455038293632075728897272649715901613301521679049255970554309830336577536). Qed.
Lemma xs1024_z5_c : mul_check 32 phi1024 0x6151a5c04d59f47996755d3ad2cd2f26f1beae5bb022445267b34d13a9c406bdd51fc0328004e7d7470f2f8b3b25479969b27e2f5f24b6d94c6e4820540e588413ed094c96040f6cbf4c060f3eb13936b15e875c6aaa9362353e0b53c8ea58d92f996d4e99e8898b186f71dbe98ab2a7b0c516499576d145f35df35849970b95 0xfef2f535d9d72c2b6d61d760bbc39b371da0f82de38ffa28dd62e544d0cbaa52ffde0539fcc6cfbb4cb4dea4aa94b61456c5d0643fa2f6be625833f28eb85babcfeb27b248e7052a90592ef9c4fef898e93acc80214fef812dd4aa064f345f36e3739d4534cb79624778d4f74a99ee89bc60414338973428eacbef10eabc5717 0xe385366b9d94e27355b6fd3a495acf7e827caa7fb2fe766ccdb8f2dfbfe5d4f30aa47893c9c0d3e6f2b86666517c516ec42a37cbd21b7491862ba736652ab083e7cc50d7a436b31aee9cdf054f58af238fc6df29a96acf02801b8bbfcd23ce46d74274c6963c2a4754195f87ce084aa14c2f56e0e8cdcc1d5b0b33ed3dad7f78 = true.
Proof. vm_cast_no_check (eq_refl true). Qed.
Lemma xs1024_z5 : pw N.lxor 0 xs_T (wf 1024) 0xe385366b9d94e27355b6fd3a495acf7e827caa7fb2fe766ccdb8f2dfbfe5d4f30aa47893c9c0d3e6f2b86666517c516ec42a37cbd21b7491862ba736652ab083e7cc50d7a436b31aee9cdf054f58af238fc6df29a96acf02801b8bbfcd23ce46d74274c6963c2a4754195f87ce084aa14c2f56e0e8cdcc1d5b0b33ed3dad7f78 41855804977958881238216860293671333616475814839523861211015363775367857790754367812411590743534994955327154331653972084008334635948471552329445020986934924815945052132199177846429263578652254701150892687317891618273230805205109921907778604060552511649183701335864607145965996450848344889395800702977.
Proof. refine (pw_mul N.lxor 0 xs_T (wf 1024) xs_linear 32 phi1024 phi1024_annihilates _ _ _ _ _ _ xs1024_a5 xs1024_z6 xs1024_z5_c _). vm_cast_no_check (eq_refl 41855804977958881238216860293671333616475814839523861211015363775367857790754367812411590743534994955327154331653972084008334635948471552329445020986934924815945052132199177846429263578652254701150892687317891618273230805205109921907778604060552511649183701335864607145965996450848344889395800702977). Qed.
Lemma xs1024_i5_c : mul_check 32 phi1024 0xec53f31edc445481182c57dcf83c097bd918e9a45b23ed62130701ce4320bbea98a60d4ac50a1b1d1179d062cf2c4f96bdb2f799758f7b3f64553810639a20da1d1198c1fc1f06f0f1e5706df72b161599ac346b83261d37f32073e1b2e2ac5808b3f5680c12b58cc0440170205b2cb01805f1f7e486a49d7556d9ab4965ed1d 0xfef2f535d9d72c2b6d61d760bbc39b371da0f82de38ffa28dd62e544d0cbaa52ffde0539fcc6cfbb4cb4dea4aa94b61456c5d0643fa2f6be625833f28eb85babcfeb27b248e7052a90592ef9c4fef898e93acc80214fef812dd4aa064f345f36e3739d4534cb79624778d4f74a99ee89bc60414338973428eacbef10eabc5717 1 = true.
Proof. vm_cast_no_check (eq_refl true). Qed.
Lemma xs1024_w5_c : mul_check 32 phi1024 0xec53f31edc445481182c57dcf83c097bd918e9a45b23ed62130701ce4320bbea98a60d4ac50a1b1d1179d062cf2c4f96bdb2f799758f7b3f64553810639a20da1d1198c1fc1f06f0f1e5706df72b161599ac346b83261d37f32073e1b2e2ac5808b3f5680c12b58cc0440170205b2cb01805f1f7e486a49d7556d9ab4965ed1d 0x6151a5c04d59f47996755d3ad2cd2f26f1beae5bb022445267b34d13a9c406bdd51fc0328004e7d7470f2f8b3b25479969b27e2f5f24b6d94c6e4820540e588413ed094c96040f6cbf4c060f3eb13936b15e875c6aaa9362353e0b53c8ea58d92f996d4e99e8898b186f71dbe98ab2a7b0c516499576d145f35df35849970b95 0x724102eb7d8e604452e6300478e3974e5d4acf48e93060cb7e171401387d21418310fa24cfa2113327509c112848f60d003b41733c11312a62c12dee0bd7c8f294bd3919cae7fc345bee7102d70f8f81df598b856c6bcdd0a84cab5a5fda847f53ea489f272c7829907b588e8ee14730dc2e70c0dd9d1fc2a1449536099b9486 = true.
Proof. vm_cast_no_check (eq_refl true). Qed.
Lemma xs1024_w5 : pw N.lxor 0 xs_T (wf 1024) 0x724102eb7d8e604452e6300478e3974e5d4acf48e93060cb7e171401387d21418310fa24cfa2113327509c112848f60d003b41733c11312a62c12dee0bd7c8f294bd3919cae7fc345bee7102d70f8f81df598b856c6bcdd0a84cab5a5fda847f53ea489f272c7829907b588e8ee14730dc2e70c0dd9d1fc2a1449536099b9486 41855804958468253215416862131907979778454107725009450118155365586182407620204276291770907358880301160328046586258184810029483623519757063820280685745923183539846145986816692000600865017772938381340388341514537443249396336985068988168808660090905282896115730467361995897392102061092763730264872452095.
Proof. refine (pw_div N.lxor 0 xs_T (wf 1024) xs_linear 32 phi1024 phi1024_annihilates _ _ _ _ _ _ _ xs1024_z6 xs1024_a5 xs1024_i5_c xs1024_w5_c _). vm_cast_no_check (eq_refl 41855804968213567226816861212789656697464961282266655664585364680775132705479322052091249051207648057827600458956078447018909129734114308074862853366429054177895599059507934923515064298212596541245640514416214530761313571095089455038293632075728897272649715901613301521679049255970554309830336577536). Qed.
Lemma xs1024_y641_c : pow_check 32 phi1024 6700417 0x724102eb7d8e604452e6300478e3974e5d4acf48e93060cb7e171401387d21418310fa24cfa2113327509c112848f60d003b41733c11312a62c12dee0bd7c8f294bd3919cae7fc345bee7102d70f8f81df598b856c6bcdd0a84cab5a5fda847f53ea489f272c7829907b588e8ee14730dc2e70c0dd9d1fc2a1449536099b9486 0x3189e17027184a2748bc54687a6b159d020b1f19839c6fbf9c786a3276be4cdb5060be0a1bde9f03444985a95fb49432f3cc853c06a4cbcf70fa887aa25cf9088add50ab83d6991932459ea05cdb147e8a03dcf2113237b5f7aa3f1bfcac0bab2f87879a323e9ce1b6142bcbe93c5b0ba7a6e6943bd394cdfca658c0e41d9fe2 = true.
Proof. vm_cast_no_check (eq_refl true). Qed.
Lemma xs1024_u641_c : mul_check 32 phi1024 (N.lxor 0x3189e17027184a2748bc54687a6b159d020b1f19839c6fbf9c786a3276be4cdb5060be0a1bde9f03444985a95fb49432f3cc853c06a4cbcf70fa887aa25cf9088add50ab83d6991932459ea05cdb147e8a03dcf2113237b5f7aa3f1bfcac0bab2f87879a323e9ce1b6142bcbe93c5b0ba7a6e6943bd394cdfca658c0e41d9fe2 1) 0x8cb8eab30610311da5b2b8c03f6429d21889bb4d10112321391854445d0eb69fa2fa55903ff7bb97b5c5f1d14a8e2339b7104fb93a79355c658e1db4ee301e289a9d23663d5542a6445aefbbb67c1e34a2735b5676edc7b3f07b39410364d8036b7ee30d6692077c546df54e02e4026dd96bd6f97f3eb04ce97f7733c87b41d2 1 = true.
Proof. vm_cast_no_check (eq_refl true). Qed.
Lemma xs1024_y641 : pw N.lxor 0 xs_T (wf 1024) 0x3189e17027184a2748bc54687a6b159d020b1f19839c6fbf9c786a3276be4cdb5060be0a1bde9f03444985a95fb49432f3cc853c06a4cbcf70fa887aa25cf9088add50ab83d6991932459ea05cdb147e8a03dcf2113237b5f7aa3f1bfcac0bab2f87879a323e9ce1b6142bcbe93c5b0ba7a6e6943bd394cdfca658c0e41d9fe2 280451347092404977804883805115292470143210137120484644732340220214871569119346276338078747772866670859781768923356307890263322572253380066291493651543641379684505293954548338964590046179791098470285620830085812431884790456072484994499084415820323302906943074390930262464816296315880992675250165880849023615.
Proof. refine (pw_pow N.lxor 0 xs_T (wf 1024) xs_linear 32 phi1024 phi1024_annihilates 6700417 _ _ _ _ xs1024_w5 xs1024_y641_c _). vm_cast_no_check (eq_refl 280451347092404977804883805115292470143210137120484644732340220214871569119346276338078747772866670859781768923356307890263322572253380066291493651543641379684505293954548338964590046179791098470285620830085812431884790456072484994499084415820323302906943074390930262464816296315880992675250165880849023615). Qed.
Lemma xs1024_cert641 : exists p u, pw N.lxor 0 xs_T (wf 1024) p ((2 ^ 1024 - 1) / Z.to_N 641) /\ mul_check 32 phi1024 (N.lxor p 1) u 1 = true.
Proof.
  assert (E : 280451347092404977804883805115292470143210137120484644732340220214871569119346276338078747772866670859781768923356307890263322572253380066291493651543641379684505293954548338964590046179791098470285620830085812431884790456072484994499084415820323302906943074390930262464816296315880992675250165880849023615 = (2 ^ 1024 - 1) / Z.to_N 641) by (vm_cast_no_check (eq_refl 280451347092404977804883805115292470143210137120484644732340220214871569119346276338078747772866670859781768923356307890263322572253380066291493651543641379684505293954548338964590046179791098470285620830085812431884790456072484994499084415820323302906943074390930262464816296315880992675250165880849023615)).
  exists 0x3189e17027184a2748bc54687a6b159d020b1f19839c6fbf9c786a3276be4cdb5060be0a1bde9f03444985a95fb49432f3cc853c06a4cbcf70fa887aa25cf9088add50ab83d6991932459ea05cdb147e8a03dcf2113237b5f7aa3f1bfcac0bab2f87879a323e9ce1b6142bcbe93c5b0ba7a6e6943bd394cdfca658c0e41d9fe2, 0x8cb8eab30610311da5b2b8c03f6429d21889bb4d10112321391854445d0eb69fa2fa55903ff7bb97b5c5f1d14a8e2339b7104fb93a79355c658e1db4ee301e289a9d23663d5542a6445aefbbb67c1e34a2735b5676edc7b3f07b39410364d8036b7ee30d6692077c546df54e02e4026dd96bd6f97f3eb04ce97f7733c87b41d2. rewrite <- E. exact (conj xs1024_y641 xs1024_u641_c).
Qed.
Lemma xs1024_y6700417_c : pow_check 32 phi1024 641 0x724102eb7d8e604452e6300478e3974e5d4acf48e93060cb7e171401387d21418310fa24cfa2113327509c112848f60d003b41733c11312a62c12dee0bd7c8f294bd3919cae7fc345bee7102d70f8f81df598b856c6bcdd0a84cab5a5fda847f53ea489f272c7829907b588e8ee14730dc2e70c0dd9d1fc2a1449536099b9486 0xe6a49d3c5e9e77aadc8383aff9377f7bb81187af70b1a3aa3a303f84380edd776d2f6df3d36e9f871d70a096c9209ceb371bda9a2b4368ef701c1bcd0caf350647029409d32b620d15e4fd43751fcea4788c8cf3b7c2b35b514fe33830611b162bf174610d191840eb05996f2f0a09ae687b2b2446d0836007e8d438254a867d = true.
Proof. vm_cast_no_check (eq_refl true). Qed.
Lemma xs1024_u6700417_c : mul_check 32 phi1024 (N.lxor 0xe6a49d3c5e9e77aadc8383aff9377f7bb81187af70b1a3aa3a303f84380edd776d2f6df3d36e9f871d70a096c9209ceb371bda9a2b4368ef701c1bcd0caf350647029409d32b620d15e4fd43751fcea4788c8cf3b7c2b35b514fe33830611b162bf174610d191840eb05996f2f0a09ae687b2b2446d0836007e8d438254a867d 1) 0x3446daa860e5a5c567f659b4523e73f524ce9edb0383e3ce81779cf60e52b159bb9a0491b259027a8acf97b34efe28543519fad8b329499f43f8cd838e2f1c21c2c7a9c8f2a7cfcd6d742e36dfc599d1ed10f9b1ddbceb944336224ba8418c5b5fc5cae5c9f52088e63385da2985e5e5d93ddd67ec138fd167b8e941b65bbc82 1 = true.
Proof. vm_cast_no_check (eq_refl true). Qed.
Lemma xs1024_y6700417 : pw N.lxor 0 xs_T (wf 1024) 0xe6a49d3c5e9e77aadc8383aff9377f7bb81187af70b1a3aa3a303f84380edd776d2f6df3d36e9f871d70a096c9209ceb371bda9a2b4368ef701c1bcd0caf350647029409d32b620d15e4fd43751fcea4788c8cf3b7c2b35b514fe33830611b162bf174610d191840eb05996f2f0a09ae687b2b2446d0836007e8d438254a867d 26829570978378150311082208626553015037989083051731057525737589340742923284550941103025151617042273043770277861791496463228899002676164277908799919563136760649041379577549499572385154476392453502439188926910818501122863052007429221416206351118270286336410183229579039370228337421160461551099783241792895.
Proof. refine (pw_pow N.lxor 0 xs_T (wf 1024) xs_linear 32 phi1024 phi1024_annihilates 641 _ _ _ _ xs1024_w5 xs1024_y6700417_c _). vm_cast_no_check (eq_refl 26829570978378150311082208626553015037989083051731057525737589340742923284550941103025151617042273043770277861791496463228899002676164277908799919563136760649041379577549499572385154476392453502439188926910818501122863052007429221416206351118270286336410183229579039370228337421160461551099783241792895). Qed.
Lemma xs1024_cert6700417 : exists p u, pw N.lxor 0 xs_T (wf 1024) p ((2 ^ 1024 - 1) / Z.to_N 6700417) /\ mul_check 32 phi1024 (N.lxor p 1) u 1 = true.
Proof.
  assert (E : 26829570978378150311082208626553015037989083051731057525737589340742923284550941103025151617042273043770277861791496463228899002676164277908799919563136760649041379577549499572385154476392453502439188926910818501122863052007429221416206351118270286336410183229579039370228337421160461551099783241792895 = (2 ^ 1024 - 1) / Z.to_N 6700417) by (vm_cast_no_check (eq_refl 26829570978378150311082208626553015037989083051731057525737589340742923284550941103025151617042273043770277861791496463228899002676164277908799919563136760649041379577549499572385154476392453502439188926910818501122863052007429221416206351118270286336410183229579039370228337421160461551099783241792895)).
  exists 0xe6a49d3c5e9e77aadc8383aff9377f7bb81187af70b1a3aa3a303f84380edd776d2f6df3d36e9f871d70a096c9209ceb371bda9a2b4368ef701c1bcd0caf350647029409d32b620d15e4fd43751fcea4788c8cf3b7c2b35b514fe33830611b162bf174610d191840eb05996f2f0a09ae687b2b2446d0836007e8d438254a867d, 0x3446daa860e5a5c567f659b4523e73f524ce9edb0383e3ce81779cf60e52b159bb9a0491b259027a8acf97b34efe28543519fad8b329499f43f8cd838e2f1c21c2c7a9c8f2a7cfcd6d742e36dfc599d1ed10f9b1ddbceb944336224ba8418c5b5fc5cae5c9f52088e63385da2985e5e5d93ddd67ec138fd167b8e941b65bbc82. rewrite <- E. exact (conj xs1024_y6700417 xs1024_u6700417_c).
Qed.
Lemma xs1024_a4_c : sq_check 32 phi1024 16 0xe385366b9d94e27355b6fd3a495acf7e827caa7fb2fe766ccdb8f2dfbfe5d4f30aa47893c9c0d3e6f2b86666517c516ec42a37cbd21b7491862ba736652ab083e7cc50d7a436b31aee9cdf054f58af238fc6df29a96acf02801b8bbfcd23ce46d74274c6963c2a4754195f87ce084aa14c2f56e0e8cdcc1d5b0b33ed3dad7f78 0x77b3d489e4e12e37c4bb10ae2c8ff244dcbc93498a6328b66f10553b4f4426a07557c7e3d5406e007ae987d16900ea675d04a874f2ba29398c031731f15331915a3ea5f17980138ae0c3d44236fd032eab965663212e17f12754ec7f29ace69d9cd173989fcea63ad4e11d766f781c382e43661342ccf648a85ee2c3e5e8463d = true.
Proof. vm_cast_no_check (eq_refl true). Qed.
Lemma xs1024_a4 : pw N.lxor 0 xs_T (wf 1024) 0x77b3d489e4e12e37c4bb10ae2c8ff244dcbc93498a6328b66f10553b4f4426a07557c7e3d5406e007ae987d16900ea675d04a874f2ba29398c031731f15331915a3ea5f17980138ae0c3d44236fd032eab965663212e17f12754ec7f29ace69d9cd173989fcea63ad4e11d766f781c382e43661342ccf648a85ee2c3e5e8463d 2743062035035513240827780156206044519889359001323035768325102880382507928174878248954206010968309429392320386279274714497570218701519031653462508895399767232737774936535805319343588217890554164094624903156065345095154454049922083842148178595712369403440903050747222893918027543402797130671443194870300672.
Proof. refine (pw_sq N.lxor 0 xs_T (wf 1024) xs_linear 32 phi1024 phi1024_annihilates 16 _ _ _ _ xs1024_z5 xs1024_a4_c _). vm_cast_no_check (eq_refl 2743062035035513240827780156206044519889359001323035768325102880382507928174878248954206010968309429392320386279274714497570218701519031653462508895399767232737774936535805319343588217890554164094624903156065345095154454049922083842148178595712369403440903050747222893918027543402797130671443194870300672). Qed.
Lemma xs1024_z4_c : mul_check 32 phi1024 0x77b3d489e4e12e37c4bb10ae2c8ff244dcbc93498a6328b66f10553b4f4426a07557c7e3d5406e007ae987d16900ea675d04a874f2ba29398c031731f15331915a3ea5f17980138ae0c3d44236fd032eab965663212e17f12754ec7f29ace69d9cd173989fcea63ad4e11d766f781c382e43661342ccf648a85ee2c3e5e8463d 0xe385366b9d94e27355b6fd3a495acf7e827caa7fb2fe766ccdb8f2dfbfe5d4f30aa47893c9c0d3e6f2b86666517c516ec42a37cbd21b7491862ba736652ab083e7cc50d7a436b31aee9cdf054f58af238fc6df29a96acf02801b8bbfcd23ce46d74274c6963c2a4754195f87ce084aa14c2f56e0e8cdcc1d5b0b33ed3dad7f78 0xab85ab062d043e7a3a28af4700d4cdbf3f9f07ec3d40bb73d1b9f853fa52c83a22320f27fcf4ddfd9acd4e68484329d91140ad27e65dff53d08840c6be286921144861ebcc179aebc83641abb57da32ff631bd205359a8dfa718e8ceaf9113c469c93c2f78ef254dadc344e02340172f794557fca2a089b8d7f663e30454dcb2 = true.
Proof. vm_cast_no_check (eq_refl true). Qed.
Lemma xs1024_z4 : pw N.lxor 0 xs_T (wf 1024) 0xab85ab062d043e7a3a28af4700d4cdbf3f9f07ec3d40bb73d1b9f853fa52c83a22320f27fcf4ddfd9acd4e68484329d91140ad27e65dff53d08840c6be286921144861ebcc179aebc83641abb57da32ff631bd205359a8dfa718e8ceaf9113c469c93c2f78ef254dadc344e02340172f794557fca2a089b8d7f663e30454dcb2 2743103890840491199709018373066338191222975477137875292186313895746283296032669003322018422559052964387275713433606368469654227036154980125014838340420754167662590881587937518521434647154132816349326054048752662986772727280727288952070086374316429955952552234448558758525173509399247979016332590671003649.
Proof. refine (pw_mul N.lxor 0 xs_T (wf 1024) xs_linear 32 phi1024 phi1024_annihilates _ _ _ _ _ _ xs1024_a4 xs1024_z5 xs1024_z4_c _). vm_cast_no_check (eq_refl 2743103890840491199709018373066338191222975477137875292186313895746283296032669003322018422559052964387275713433606368469654227036154980125014838340420754167662590881587937518521434647154132816349326054048752662986772727280727288952070086374316429955952552234448558758525173509399247979016332590671003649). Qed.
Lemma xs1024_i4_c : mul_check 32 phi1024 0x62415662783aed5969488c29042007560e78b093e65824bf3664f7694bf9b791700a5b44139be9256a4137ec8d0984dd233d93bf8a0d5677723874e3b4f8c4a7f57ad15ddf9e5e3ca724b105f6fd6f0c034e26ec7b1c946b2139159fe35d0257d51a9fb11d5c2705d9861d594f5a1982882342b0828e99eaf2d972dee601796 0xe385366b9d94e27355b6fd3a495acf7e827caa7fb2fe766ccdb8f2dfbfe5d4f30aa47893c9c0d3e6f2b86666517c516ec42a37cbd21b7491862ba736652ab083e7cc50d7a436b31aee9cdf054f58af238fc6df29a96acf02801b8bbfcd23ce46d74274c6963c2a4754195f87ce084aa14c2f56e0e8cdcc1d5b0b33ed3dad7f78 1 = true.
Proof. vm_cast_no_check (eq_refl true). Qed.
Lemma xs1024_w4_c : mul_check 32 phi1024 0x62415662783aed5969488c29042007560e78b093e65824bf3664f7694bf9b791700a5b44139be9256a4137ec8d0984dd233d93bf8a0d5677723874e3b4f8c4a7f57ad15ddf9e5e3ca724b105f6fd6f0c034e26ec7b1c946b2139159fe35d0257d51a9fb11d5c2705d9861d594f5a1982882342b0828e99eaf2d972dee601796 0x77b3d489e4e12e37c4bb10ae2c8ff244dcbc93498a6328b66f10553b4f4426a07557c7e3d5406e007ae987d16900ea675d04a874f2ba29398c031731f15331915a3ea5f17980138ae0c3d44236fd032eab965663212e17f12754ec7f29ace69d9cd173989fcea63ad4e11d766f781c382e43661342ccf648a85ee2c3e5e8463d 0x3e6f1bbc46298e66025be07a9f4ad2fc47fbc87228d08cc43e0695a69ca7e89538eabd41998505e29e16ccb397b4382f29532851482dbbbc26302af590477ab729228d5792da434f1235885b1e415829defcb78085512a0eafd93e79e21f8038daab2292534346e68c69a67831cbed87b301da27f542a04823d200439101b3ec = true.
Proof. vm_cast_no_check (eq_refl true). Qed.
Lemma xs1024_w4 : pw N.lxor 0 xs_T (wf 1024) 0x3e6f1bbc46298e66025be07a9f4ad2fc47fbc87228d08cc43e0695a69ca7e89538eabd41998505e29e16ccb397b4382f29532851482dbbbc26302af590477ab729228d5792da434f1235885b1e415829defcb78085512a0eafd93e79e21f8038daab2292534346e68c69a67831cbed87b301da27f542a04823d200439101b3ec 2743020179230535281946541939345750848555742525508196244463891865018732560317087494586393599377565894397365059124943060525486210366883083181910179450378780297812958991483673120165741788626975511839923752263378027203536180819116878732226270817108308850929253867045887029310881577406346282326553799069597695.
Proof. refine (pw_div N.lxor 0 xs_T (wf 1024) xs_linear 32 phi1024 phi1024_annihilates _ _ _ _ _ _ _ xs1024_z5 xs1024_a4 xs1024_i4_c xs1024_w4_c _). vm_cast_no_check (eq_refl 2743062035035513240827780156206044519889359001323035768325102880382507928174878248954206010968309429392320386279274714497570218701519031653462508895399767232737774936535805319343588217890554164094624903156065345095154454049922083842148178595712369403440903050747222893918027543402797130671443194870300672). Qed.
Lemma xs1024_y65537_c : pow_check 32 phi1024 1 0x3e6f1bbc46298e66025be07a9f4ad2fc47fbc87228d08cc43e0695a69ca7e89538eabd41998505e29e16ccb397b4382f29532851482dbbbc26302af590477ab729228d5792da434f1235885b1e415829defcb78085512a0eafd93e79e21f8038daab2292534346e68c69a67831cbed87b301da27f542a04823d200439101b3ec 0x3e6f1bbc46298e66025be07a9f4ad2fc47fbc87228d08cc43e0695a69ca7e89538eabd41998505e29e16ccb397b4382f29532851482dbbbc26302af590477ab729228d5792da434f1235885b1e415829defcb78085512a0eafd93e79e21f8038daab2292534346e68c69a67831cbed87b301da27f542a04823d200439101b3ec = true.
Proof. vm_cast_no_check (eq_refl true). Qed.
Lemma xs1024_u65537_c : mul_check 32 phi1024 (N.lxor 0x3e6f1bbc46298e66025be07a9f4ad2fc47fbc87228d08cc43e0695a69ca7e89538eabd41998505e29e16ccb397b4382f29532851482dbbbc26302af590477ab729228d5792da434f1235885b1e415829defcb78085512a0eafd93e79e21f8038daab2292534346e68c69a67831cbed87b301da27f542a04823d200439101b3ec 1) 0x85825dcc5b1a1734eee438d3523c6e27ade84a4b602745747b37224bc18d7800f9ec0f2c8879774ab4333ba4297b858f903eb0ccff22ba281f969b1328dbb0ce20ac0bcb731411b161262f8521eed7d45916dc3b8ef7c7ac6435fb57b0c2b995df923065cba239630ec2c0feca4f0a82d4140ea19d7413bf8323a8467450f2e 1 = true.
Proof. vm_cast_no_check (eq_refl true). Qed.
Lemma xs1024_y65537 : pw N.lxor 0 xs_T (wf 1024) 0x3e6f1bbc46298e66025be07a9f4ad2fc47fbc87228d08cc43e0695a69ca7e89538eabd41998505e29e16ccb397b4382f29532851482dbbbc26302af590477ab729228d5792da434f1235885b1e415829defcb78085512a0eafd93e79e21f8038daab2292534346e68c69a67831cbed87b301da27f542a04823d200439101b3ec 2743020179230535281946541939345750848555742525508196244463891865018732560317087494586393599377565894397365059124943060525486210366883083181910179450378780297812958991483673120165741788626975511839923752263378027203536180819116878732226270817108308850929253867045887029310881577406346282326553799069597695.
Proof. refine (pw_pow N.lxor 0 xs_T (wf 1024) xs_linear 32 phi1024 phi1024_annihilates 1 _ _ _ _ xs1024_w4 xs1024_y65537_c _). vm_cast_no_check (eq_refl 2743020179230535281946541939345750848555742525508196244463891865018732560317087494586393599377565894397365059124943060525486210366883083181910179450378780297812958991483673120165741788626975511839923752263378027203536180819116878732226270817108308850929253867045887029310881577406346282326553799069597695). Qed.
Lemma xs1024_cert65537 : exists p u, pw N.lxor 0 xs_T (wf 1024) p ((2 ^ 1024 - 1) / Z.to_N 65537) /\ mul_check 32 phi1024 (N.lxor p 1) u 1 = true.
Proof.
  assert (E : 2743020179230535281946541939345750848555742525508196244463891865018732560317087494586393599377565894397365059124943060525486210366883083181910179450378780297812958991483673120165741788626975511839923752263378027203536180819116878732226270817108308850929253867045887029310881577406346282326553799069597695 = (2 ^ 1024 - 1) / Z.to_N 65537) by (vm_cast_no_check (eq_refl 2743020179230535281946541939345750848555742525508196244463891865018732560317087494586393599377565894397365059124943060525486210366883083181910179450378780297812958991483673120165741788626975511839923752263378027203536180819116878732226270817108308850929253867045887029310881577406346282326553799069597695)).
  exists 0x3e6f1bbc46298e66025be07a9f4ad2fc47fbc87228d08cc43e0695a69ca7e89538eabd41998505e29e16ccb397b4382f29532851482dbbbc26302af590477ab729228d5792da434f1235885b1e415829defcb78085512a0eafd93e79e21f8038daab2292534346e68c69a67831cbed87b301da27f542a04823d200439101b3ec, 0x85825dcc5b1a1734eee438d3523c6e27ade84a4b602745747b37224bc18d7800f9ec0f2c8879774ab4333ba4297b858f903eb0ccff22ba281f969b1328dbb0ce20ac0bcb731411b161262f8521eed7d45916dc3b8ef7c7ac6435fb57b0c2b995df923065cba239630ec2c0feca4f0a82d4140ea19d7413bf8323a8467450f2e. rewrite <- E. exact (conj xs1024_y65537 xs1024_u65537_c).
Qed.
Lemma xs1024_a3_c : sq_check 32 phi1024 8 0xab85ab062d043e7a3a28af4700d4cdbf3f9f07ec3d40bb73d1b9f853fa52c83a22320f27fcf4ddfd9acd4e68484329d91140ad27e65dff53d08840c6be286921144861ebcc179aebc83641abb57da32ff631bd205359a8dfa718e8ceaf9113c469c93c2f78ef254dadc344e02340172f794557fca2a089b8d7f663e30454dcb2 0x46da1aa6d2b7b9ee2cd9719502bb9ea3f8dd0693367464d7812a53c80e146ddaad6915d8c61ed5f7918035ead000caec0ccb683eef0e67bb0e1ced252cb72ff38ba3f33860efa0c975e1f9f569f6e4cf326abee5d642fddf5f1c04f234c3b9ee2c51199cc79dc46120667df2df19c1184248ba004d88b9b4e52ebc8c285646c0 = true.
Proof. vm_cast_no_check (eq_refl true). Qed.
Lemma xs1024_a3 : pw N.lxor 0 xs_T (wf 1024) 0x46da1aa6d2b7b9ee2cd9719502bb9ea3f8dd0693367464d7812a53c80e146ddaad6915d8c61ed5f7918035ead000caec0ccb683eef0e67bb0e1ced252cb72ff38ba3f33860efa0c975e1f9f569f6e4cf326abee5d642fddf5f1c04f234c3b9ee2c51199cc79dc46120667df2df19c1184248ba004d88b9b4e52ebc8c285646c0 702234596055165747125508703504982576953081722147296074799696357311048523784363264850436716175117558883142582639003230328231482121255674912003798615147713066921623265686512004741487269671458000985427469836480681724613818183866185971729942111825006068723853372018831042182444418406207482628181143211776934144.
Proof. refine (pw_sq N.lxor 0 xs_T (wf 1024) xs_linear 32 phi1024 phi1024_annihilates 8 _ _ _ _ xs1024_z4 xs1024_a3_c _). vm_cast_no_check (eq_refl 702234596055165747125508703504982576953081722147296074799696357311048523784363264850436716175117558883142582639003230328231482121255674912003798615147713066921623265686512004741487269671458000985427469836480681724613818183866185971729942111825006068723853372018831042182444418406207482628181143211776934144). Qed.
Lemma xs1024_z3_c : mul_check 32 phi1024 0x46da1aa6d2b7b9ee2cd9719502bb9ea3f8dd0693367464d7812a53c80e146ddaad6915d8c61ed5f7918035ead000caec0ccb683eef0e67bb0e1ced252cb72ff38ba3f33860efa0c975e1f9f569f6e4cf326abee5d642fddf5f1c04f234c3b9ee2c51199cc79dc46120667df2df19c1184248ba004d88b9b4e52ebc8c285646c0 0xab85ab062d043e7a3a28af4700d4cdbf3f9f07ec3d40bb73d1b9f853fa52c83a22320f27fcf4ddfd9acd4e68484329d91140ad27e65dff53d08840c6be286921144861ebcc179aebc83641abb57da32ff631bd205359a8dfa718e8ceaf9113c469c93c2f78ef254dadc344e02340172f794557fca2a089b8d7f663e30454dcb2 0x1e04294d96d9d494708c442727a76f047027e9706758743890e4b56b876002f093971503ce2ccdfcb7476ad7112052bdb8c07869eae2e1565a487ba921f26e7087940e192a9f670ba2fd0844e357917f4232a9b503d645cbeffcaf725ae93bd728f51e7a93590462e75bb8e72c05337cb1dcc411b5d32fa253c1cb9c11c6c94 = true.
Proof. vm_cast_no_check (eq_refl true). Qed.
Lemma xs1024_z3 : pw N.lxor 0 xs_T (wf 1024) 0x1e04294d96d9d494708c442727a76f047027e9706758743890e4b56b876002f093971503ce2ccdfcb7476ad7112052bdb8c07869eae2e1565a487ba921f26e7087940e192a9f670ba2fd0844e357917f4232a9b503d645cbeffcaf725ae93bd728f51e7a93590462e75bb8e72c05337cb1dcc411b5d32fa253c1cb9c11c6c94 704977699946006238325217721878048915144304697624433950091882671206794807080395933853758734597676611847529858352436836696701136348291829892128813453488133821089285856568099942260008704318612133801776795890529434387600590911146913260682012198199322498679805924253279600940969591915606730607197475802447937793.
Proof. refine (pw_mul N.lxor 0 xs_T (wf 1024) xs_linear 32 phi1024 phi1024_annihilates _ _ _ _ _ _ xs1024_a3 xs1024_z4 xs1024_z3_c _). vm_cast_no_check (eq_refl 704977699946006238325217721878048915144304697624433950091882671206794807080395933853758734597676611847529858352436836696701136348291829892128813453488133821089285856568099942260008704318612133801776795890529434387600590911146913260682012198199322498679805924253279600940969591915606730607197475802447937793). Qed.
Lemma xs1024_i3_c : mul_check 32 phi1024 0x6125202815562e809472e4114ee1c0cf7416bca288546d5b703c28fe204fa477ca7ae083105271c14b822e370a500af7796791da8abf4abafd95d3803ffac15b95684906574cf9bbf949bc3cbf6b3a6bf7dc729b71d1b70a0d039247ea505caca946651ec9f053f30c8e4909275cb4cc73b9b788b5505b2333f6270680bea3eb 0xab85ab062d043e7a3a28af4700d4cdbf3f9f07ec3d40bb73d1b9f853fa52c83a22320f27fcf4ddfd9acd4e68484329d91140ad27e65dff53d08840c6be286921144861ebcc179aebc83641abb57da32ff631bd205359a8dfa718e8ceaf9113c469c93c2f78ef254dadc344e02340172f794557fca2a089b8d7f663e30454dcb2 1 = true.
Proof. vm_cast_no_check (eq_refl true). Qed.
Lemma xs1024_w3_c : mul_check 32 phi1024 0x6125202815562e809472e4114ee1c0cf7416bca288546d5b703c28fe204fa477ca7ae083105271c14b822e370a500af7796791da8abf4abafd95d3803ffac15b95684906574cf9bbf949bc3cbf6b3a6bf7dc729b71d1b70a0d039247ea505caca946651ec9f053f30c8e4909275cb4cc73b9b788b5505b2333f6270680bea3eb 0x46da1aa6d2b7b9ee2cd9719502bb9ea3f8dd0693367464d7812a53c80e146ddaad6915d8c61ed5f7918035ead000caec0ccb683eef0e67bb0e1ced252cb72ff38ba3f33860efa0c975e1f9f569f6e4cf326abee5d642fddf5f1c04f234c3b9ee2c51199cc79dc46120667df2df19c1184248ba004d88b9b4e52ebc8c285646c0 0x3743a9f2be722825b758661a655f293303d5d5837a8b6503482219458b58297d9fa0d52fca4381e6987bdd586332d20583ba27a7cce3cb84f1d2eccacbab67c8cc0100e77983c0c9c118e2042cccb78869cc1e3062e7080c4af5c0a220d5f44ed269d8afa50ebef90c8ca87e7d5240bdc3ffb16ddc449f1aa53e7a1ec175b591 = true.
Proof. vm_cast_no_check (eq_refl true). Qed.
Lemma xs1024_w3 : pw N.lxor 0 xs_T (wf 1024) 0x3743a9f2be722825b758661a655f293303d5d5837a8b6503482219458b58297d9fa0d52fca4381e6987bdd586332d20583ba27a7cce3cb84f1d2eccacbab67c8cc0100e77983c0c9c118e2042cccb78869cc1e3062e7080c4af5c0a220d5f44ed269d8afa50ebef90c8ca87e7d5240bdc3ffb16ddc449f1aa53e7a1ec175b591 699491492164325255925799685131916238761858746670158199507510043415302240488330595847114697752558505918755306925569623959761827894219519931878783776807292312753960674804924067222965835024303868169078143782431929061627045456585458682777872025450689638767900819784382483423919244896808234649164810621105930495.
Proof. refine (pw_div N.lxor 0 xs_T (wf 1024) xs_linear 32 phi1024 phi1024_annihilates _ _ _ _ _ _ _ xs1024_z4 xs1024_a3 xs1024_i3_c xs1024_w3_c _). vm_cast_no_check (eq_refl 702234596055165747125508703504982576953081722147296074799696357311048523784363264850436716175117558883142582639003230328231482121255674912003798615147713066921623265686512004741487269671458000985427469836480681724613818183866185971729942111825006068723853372018831042182444418406207482628181143211776934144). Qed.
Lemma xs1024_y257_c : pow_check 32 phi1024 1 0x3743a9f2be722825b758661a655f293303d5d5837a8b6503482219458b58297d9fa0d52fca4381e6987bdd586332d20583ba27a7cce3cb84f1d2eccacbab67c8cc0100e77983c0c9c118e2042cccb78869cc1e3062e7080c4af5c0a220d5f44ed269d8afa50ebef90c8ca87e7d5240bdc3ffb16ddc449f1aa53e7a1ec175b591 0x3743a9f2be722825b758661a655f293303d5d5837a8b6503482219458b58297d9fa0d52fca4381e6987bdd586332d20583ba27a7cce3cb84f1d2eccacbab67c8cc0100e77983c0c9c118e2042cccb78869cc1e3062e7080c4af5c0a220d5f44ed269d8afa50ebef90c8ca87e7d5240bdc3ffb16ddc449f1aa53e7a1ec175b591 = true.
Proof. vm_cast_no_check (eq_refl true). Qed.
Lemma xs1024_u257_c : mul_check 32 phi1024 (N.lxor 0x3743a9f2be722825b758661a655f293303d5d5837a8b6503482219458b58297d9fa0d52fca4381e6987bdd586332d20583ba27a7cce3cb84f1d2eccacbab67c8cc0100e77983c0c9c118e2042cccb78869cc1e3062e7080c4af5c0a220d5f44ed269d8afa50ebef90c8ca87e7d5240bdc3ffb16ddc449f1aa53e7a1ec175b591 1) 0x974e4d2d6f9b85b567a1a6097f6aac6eabd023ead31e6c99119c33290ce62c8a2742087a54914c6c9d9f82438ca606a622ff95e5451b57752885a41e79da35b578b9355cb8abb8b7d8e853f264b776ac35a3b5707cf4d1589f4161e726e1678581debee4b4b2cee8391fccdacd3dd5d8df41c17d83b37b0552071ce4f44713 1 = true.
Proof. vm_cast_no_check (eq_refl true). Qed.
Lemma xs1024_y257 : pw N.lxor 0 xs_T (wf 1024) 0x3743a9f2be722825b758661a655f293303d5d5837a8b6503482219458b58297d9fa0d52fca4381e6987bdd586332d20583ba27a7cce3cb84f1d2eccacbab67c8cc0100e77983c0c9c118e2042cccb78869cc1e3062e7080c4af5c0a220d5f44ed269d8afa50ebef90c8ca87e7d5240bdc3ffb16ddc449f1aa53e7a1ec175b591 699491492164325255925799685131916238761858746670158199507510043415302240488330595847114697752558505918755306925569623959761827894219519931878783776807292312753960674804924067222965835024303868169078143782431929061627045456585458682777872025450689638767900819784382483423919244896808234649164810621105930495.
Proof. refine (pw_pow N.lxor 0 xs_T (wf 1024) xs_linear 32 phi1024 phi1024_annihilates 1 _ _ _ _ xs1024_w3 xs1024_y257_c _). vm_cast_no_check (eq_refl 699491492164325255925799685131916238761858746670158199507510043415302240488330595847114697752558505918755306925569623959761827894219519931878783776807292312753960674804924067222965835024303868169078143782431929061627045456585458682777872025450689638767900819784382483423919244896808234649164810621105930495). Qed.
Lemma xs1024_cert257 : exists p u, pw N.lxor 0 xs_T (wf 1024) p ((2 ^ 1024 - 1) / Z.to_N 257) /\ mul_check 32 phi1024 (N.lxor p 1) u 1 = true.
Proof.
  assert (E : 699491492164325255925799685131916238761858746670158199507510043415302240488330595847114697752558505918755306925569623959761827894219519931878783776807292312753960674804924067222965835024303868169078143782431929061627045456585458682777872025450689638767900819784382483423919244896808234649164810621105930495 = (2 ^ 1024 - 1) / Z.to_N 257) by (vm_cast_no_check (eq_refl 699491492164325255925799685131916238761858746670158199507510043415302240488330595847114697752558505918755306925569623959761827894219519931878783776807292312753960674804924067222965835024303868169078143782431929061627045456585458682777872025450689638767900819784382483423919244896808234649164810621105930495)).
  exists 0x3743a9f2be722825b758661a655f293303d5d5837a8b6503482219458b58297d9fa0d52fca4381e6987bdd586332d20583ba27a7cce3cb84f1d2eccacbab67c8cc0100e77983c0c9c118e2042cccb78869cc1e3062e7080c4af5c0a220d5f44ed269d8afa50ebef90c8ca87e7d5240bdc3ffb16ddc449f1aa53e7a1ec175b591, 0x974e4d2d6f9b85b567a1a6097f6aac6eabd023ead31e6c99119c33290ce62c8a2742087a54914c6c9d9f82438ca606a622ff95e5451b57752885a41e79da35b578b9355cb8abb8b7d8e853f264b776ac35a3b5707cf4d1589f4161e726e1678581debee4b4b2cee8391fccdacd3dd5d8df41c17d83b37b0552071ce4f44713. rewrite <- E. exact (conj xs1024_y257 xs1024_u257_c).
Qed.
Lemma xs1024_a2_c : sq_check 32 phi1024 4 0x1e04294d96d9d494708c442727a76f047027e9706758743890e4b56b876002f093971503ce2ccdfcb7476ad7112052bdb8c07869eae2e1565a487ba921f26e7087940e192a9f670ba2fd0844e357917f4232a9b503d645cbeffcaf725ae93bd728f51e7a93590462e75bb8e72c05337cb1dcc411b5d32fa253c1cb9c11c6c94 0xe7f5cf9d138ff5e84e7a36de7aaee3f4db374985707c4e22e72cf6e0cef55ca471486786925848f1a70938b6c552b8c053901d2bf7190d557b663e908cd18ae08ea2d27c78cfb58cacc36fc5c226edf1235478c4ba1ae225f62aeed5e55edb3a7457be3d161a1fdaf3c8c9d97655db861a7a27163d1730d56e30ee606e87318a = true.
Proof. vm_cast_no_check (eq_refl true). Qed.
Lemma xs1024_a2 : pw N.lxor 0 xs_T (wf 1024) 0xe7f5cf9d138ff5e84e7a36de7aaee3f4db374985707c4e22e72cf6e0cef55ca471486786925848f1a70938b6c552b8c053901d2bf7190d557b663e908cd18ae08ea2d27c78cfb58cacc36fc5c226edf1235478c4ba1ae225f62aeed5e55edb3a7457be3d161a1fdaf3c8c9d97655db861a7a27163d1730d56e30ee606e87318a 11279643199136099813203483550048782642308875161990943201470122739308716913286334941660139753562825789560477733638989387147218181572669278274061015255810141137428573705089599076160139269097794140828428734248470950201609454578350612170912195171189159978876894788052473615055513470649707689715159612839167004688.
Proof. refine (pw_sq N.lxor 0 xs_T (wf 1024) xs_linear 32 phi1024 phi1024_annihilates 4 _ _ _ _ xs1024_z3 xs1024_a2_c _). vm_cast_no_check (eq_refl 11279643199136099813203483550048782642308875161990943201470122739308716913286334941660139753562825789560477733638989387147218181572669278274061015255810141137428573705089599076160139269097794140828428734248470950201609454578350612170912195171189159978876894788052473615055513470649707689715159612839167004688). Qed.
Lemma xs1024_z2_c : mul_check 32 phi1024 0xe7f5cf9d138ff5e84e7a36de7aaee3f4db374985707c4e22e72cf6e0cef55ca471486786925848f1a70938b6c552b8c053901d2bf7190d557b663e908cd18ae08ea2d27c78cfb58cacc36fc5c226edf1235478c4ba1ae225f62aeed5e55edb3a7457be3d161a1fdaf3c8c9d97655db861a7a27163d1730d56e30ee606e87318a 0x1e04294d96d9d494708c442727a76f047027e9706758743890e4b56b876002f093971503ce2ccdfcb7476ad7112052bdb8c07869eae2e1565a487ba921f26e7087940e192a9f670ba2fd0844e357917f4232a9b503d645cbeffcaf725ae93bd728f51e7a93590462e75bb8e72c05337cb1dcc411b5d32fa253c1cb9c11c6c94 0x991f537a73388b04c8476a0063609b024b66aa087226d94db588c423fd597d504319e29ac29611e5ba96f1a09944a9aeee0832d2bdc0f31c1e7533f42895620af6ac65668454ba0d51fc5d6dd43515d3c2d7efdd4939d7e74be8623d62a7cb0ea169eac4e038f33073e0850defb58a776f201fbdf468173d25596437f13a54d9 = true.
Proof. vm_cast_no_check (eq_refl true). Qed.
Lemma xs1024_z2 : pw N.lxor 0 xs_T (wf 1024) 0x991f537a73388b04c8476a0063609b024b66aa087226d94db588c423fd597d504319e29ac29611e5ba96f1a09944a9aeee0832d2bdc0f31c1e7533f42895620af6ac65668454ba0d51fc5d6dd43515d3c2d7efdd4939d7e74be8623d62a7cb0ea169eac4e038f33073e0850defb58a776f201fbdf468173d25596437f13a54d9 11984620899082106051528701271926831557453179859615377151562005410515511720366730875513898488160502401408007591991426223843919317920961108166189828709298274958517859561657699018420147973416406274630205530139000384589210045489497525431594207369388482477556700712305753215996483062565314420322357088641614942481.
Proof. refine (pw_mul N.lxor 0 xs_T (wf 1024) xs_linear 32 phi1024 phi1024_annihilates _ _ _ _ _ _ xs1024_a2 xs1024_z3 xs1024_z2_c _). vm_cast_no_check (eq_refl 11984620899082106051528701271926831557453179859615377151562005410515511720366730875513898488160502401408007591991426223843919317920961108166189828709298274958517859561657699018420147973416406274630205530139000384589210045489497525431594207369388482477556700712305753215996483062565314420322357088641614942481). Qed.
Lemma xs1024_i2_c : mul_check 32 phi1024 0xf922ca9255aba94022a1ea7402ea4992c7b239cda7d6dfd11b09c88ad2c2b94db6e750e2b8b1474c7d4ef53e0fbb8a7edb8ae9aac6817decaa52f73e63e745914af3eef91c5d898a347320cd85c8291bdc26708c859b2deb0ec0c7d37ec8d09a91db71cf40cd070ab1ddd49dd3da2e381bffadf129013299e35904b26b1ee1bd 0x1e04294d96d9d494708c442727a76f047027e9706758743890e4b56b876002f093971503ce2ccdfcb7476ad7112052bdb8c07869eae2e1565a487ba921f26e7087940e192a9f670ba2fd0844e357917f4232a9b503d645cbeffcaf725ae93bd728f51e7a93590462e75bb8e72c05337cb1dcc411b5d32fa253c1cb9c11c6c94 1 = true.
Proof. vm_cast_no_check (eq_refl true). Qed.
Lemma xs1024_w2_c : mul_check 32 phi1024 0xf922ca9255aba94022a1ea7402ea4992c7b239cda7d6dfd11b09c88ad2c2b94db6e750e2b8b1474c7d4ef53e0fbb8a7edb8ae9aac6817decaa52f73e63e745914af3eef91c5d898a347320cd85c8291bdc26708c859b2deb0ec0c7d37ec8d09a91db71cf40cd070ab1ddd49dd3da2e381bffadf129013299e35904b26b1ee1bd 0xe7f5cf9d138ff5e84e7a36de7aaee3f4db374985707c4e22e72cf6e0cef55ca471486786925848f1a70938b6c552b8c053901d2bf7190d557b663e908cd18ae08ea2d27c78cfb58cacc36fc5c226edf1235478c4ba1ae225f62aeed5e55edb3a7457be3d161a1fdaf3c8c9d97655db861a7a27163d1730d56e30ee606e87318a 0x4733b43baeb2d73e7a33e1c8ca38a3ee7d3968c2bc9b97474d535b4c920e2168ffb2c7c19fd1624045442160317d2544d1aed627e721bded46168af1dbfa67ce37608efda6a8a077052153a2147b0e014eb7c0e23b478f061343ae304f1ca06002a4f9fa704bd97a7e49391faa967b172a22107d46f40205c700dab885a0e396 = true.
Proof. vm_cast_no_check (eq_refl true). Qed.
Lemma xs1024_w2 : pw N.lxor 0 xs_T (wf 1024) 0x4733b43baeb2d73e7a33e1c8ca38a3ee7d3968c2bc9b97474d535b4c920e2168ffb2c7c19fd1624045442160317d2544d1aed627e721bded46168af1dbfa67ce37608efda6a8a077052153a2147b0e014eb7c0e23b478f061343ae304f1ca06002a4f9fa704bd97a7e49391faa967b172a22107d46f40205c700dab885a0e396 10574665499190093574878265828170733727164570464366509251378240068101922106205939007806381018965149177712947875286552550450517045224377448381932201802322007316339287848521499133900130564779182007026651938357941515814008863667203698910230182972989837480197088863799194014114543878734100959107962137036719066895.
Proof. refine (pw_div N.lxor 0 xs_T (wf 1024) xs_linear 32 phi1024 phi1024_annihilates _ _ _ _ _ _ _ xs1024_z3 xs1024_a2 xs1024_i2_c xs1024_w2_c _). vm_cast_no_check (eq_refl 11279643199136099813203483550048782642308875161990943201470122739308716913286334941660139753562825789560477733638989387147218181572669278274061015255810141137428573705089599076160139269097794140828428734248470950201609454578350612170912195171189159978876894788052473615055513470649707689715159612839167004688). Qed.
Lemma xs1024_y17_c : pow_check 32 phi1024 1 0x4733b43baeb2d73e7a33e1c8ca38a3ee7d3968c2bc9b97474d535b4c920e2168ffb2c7c19fd1624045442160317d2544d1aed627e721bded46168af1dbfa67ce37608efda6a8a077052153a2147b0e014eb7c0e23b478f061343ae304f1ca06002a4f9fa704bd97a7e49391faa967b172a22107d46f40205c700dab885a0e396 0x4733b43baeb2d73e7a33e1c8ca38a3ee7d3968c2bc9b97474d535b4c920e2168ffb2c7c19fd1624045442160317d2544d1aed627e721bded46168af1dbfa67ce37608efda6a8a077052153a2147b0e014eb7c0e23b478f061343ae304f1ca06002a4f9fa704bd97a7e49391faa967b172a22107d46f40205c700dab885a0e396 = true.
Proof. vm_cast_no_check (eq_refl true). Qed.
Lemma xs1024_u17_c : mul_check 32 phi1024 (N.lxor 0x4733b43baeb2d73e7a33e1c8ca38a3ee7d3968c2bc9b97474d535b4c920e2168ffb2c7c19fd1624045442160317d2544d1aed627e721bded46168af1dbfa67ce37608efda6a8a077052153a2147b0e014eb7c0e23b478f061343ae304f1ca06002a4f9fa704bd97a7e49391faa967b172a22107d46f40205c700dab885a0e396 1) 0xebab72dcedc0b464e55fd4ae071e5990e738740fd661509ae0134242527735a4cebc09340af8b9613227c18e56f4094a59184855119396a37fb7bf7dbc5b952a78fdbbe8ef3cf2d9fe970138d3e79a4e9dc5977d5b267dbcfced60bea1fe4a3569a3dcfeb251421fc69caa67909d698a04f485d805a09c3c985240dc62107791 1 = true.
Proof. vm_cast_no_check (eq_refl true). Qed.
Lemma xs1024_y17 : pw N.lxor 0 xs_T (wf 1024) 0x4733b43baeb2d73e7a33e1c8ca38a3ee7d3968c2bc9b97474d535b4c920e2168ffb2c7c19fd1624045442160317d2544d1aed627e721bded46168af1dbfa67ce37608efda6a8a077052153a2147b0e014eb7c0e23b478f061343ae304f1ca06002a4f9fa704bd97a7e49391faa967b172a22107d46f40205c700dab885a0e396 10574665499190093574878265828170733727164570464366509251378240068101922106205939007806381018965149177712947875286552550450517045224377448381932201802322007316339287848521499133900130564779182007026651938357941515814008863667203698910230182972989837480197088863799194014114543878734100959107962137036719066895.
Proof. refine (pw_pow N.lxor 0 xs_T (wf 1024) xs_linear 32 phi1024 phi1024_annihilates 1 _ _ _ _ xs1024_w2 xs1024_y17_c _). vm_cast_no_check (eq_refl 10574665499190093574878265828170733727164570464366509251378240068101922106205939007806381018965149177712947875286552550450517045224377448381932201802322007316339287848521499133900130564779182007026651938357941515814008863667203698910230182972989837480197088863799194014114543878734100959107962137036719066895). Qed.
Lemma xs1024_cert17 : exists p u, pw N.lxor 0 xs_T (wf 1024) p ((2 ^ 1024 - 1) / Z.to_N 17) /\ mul_check 32 phi1024 (N.lxor p 1) u 1 = true.
Proof.
  assert (E : 10574665499190093574878265828170733727164570464366509251378240068101922106205939007806381018965149177712947875286552550450517045224377448381932201802322007316339287848521499133900130564779182007026651938357941515814008863667203698910230182972989837480197088863799194014114543878734100959107962137036719066895 = (2 ^ 1024 - 1) / Z.to_N 17) by (vm_cast_no_check (eq_refl 10574665499190093574878265828170733727164570464366509251378240068101922106205939007806381018965149177712947875286552550450517045224377448381932201802322007316339287848521499133900130564779182007026651938357941515814008863667203698910230182972989837480197088863799194014114543878734100959107962137036719066895)).
  exists 0x4733b43baeb2d73e7a33e1c8ca38a3ee7d3968c2bc9b97474d535b4c920e2168ffb2c7c19fd1624045442160317d2544d1aed627e721bded46168af1dbfa67ce37608efda6a8a077052153a2147b0e014eb7c0e23b478f061343ae304f1ca06002a4f9fa704bd97a7e49391faa967b172a22107d46f40205c700dab885a0e396, 0xebab72dcedc0b464e55fd4ae071e5990e738740fd661509ae0134242527735a4cebc09340af8b9613227c18e56f4094a59184855119396a37fb7bf7dbc5b952a78fdbbe8ef3cf2d9fe970138d3e79a4e9dc5977d5b267dbcfced60bea1fe4a3569a3dcfeb251421fc69caa67909d698a04f485d805a09c3c985240dc62107791. rewrite <- E. exact (conj xs1024_y17 xs1024_u17_c).
Qed.
Lemma xs1024_a1_c : sq_check 32 phi1024 2 0x991f537a73388b04c8476a0063609b024b66aa087226d94db588c423fd597d504319e29ac29611e5ba96f1a09944a9aeee0832d2bdc0f31c1e7533f42895620af6ac65668454ba0d51fc5d6dd43515d3c2d7efdd4939d7e74be8623d62a7cb0ea169eac4e038f33073e0850defb58a776f201fbdf468173d25596437f13a54d9 0xab8c470f886ccde32bcafb58ba2d8602fd79172ab1dacfa094cebb81de3e84a779d0ac6e99d9a695857d2c4fd82cc35a17a914b870dc0b10fd26a0a8db7a07fba0f25ccf98f96c2502d93b7886c530f67ecfe9bcee61be5a55b888fbf1e099f735b38dae660ca810dd99bb83240ffe17da3231c0b28100f3d0e4196e68be1571 = true.
Proof. vm_cast_no_check (eq_refl true). Qed.
Lemma xs1024_a1 : pw N.lxor 0 xs_T (wf 1024) 0xab8c470f886ccde32bcafb58ba2d8602fd79172ab1dacfa094cebb81de3e84a779d0ac6e99d9a695857d2c4fd82cc35a17a914b870dc0b10fd26a0a8db7a07fba0f25ccf98f96c2502d93b7886c530f67ecfe9bcee61be5a55b888fbf1e099f735b38dae660ca810dd99bb83240ffe17da3231c0b28100f3d0e4196e68be1571 47938483596328424206114805087707326229812719438461508606248021642062046881466923502055593952642009605632030367965704895375677271683844432664759314837193099834071438246630796073680591893665625098520822120556001538356840181957990101726376829477553929910226802849223012863985932250261257681289428354566459769924.
Proof. refine (pw_sq N.lxor 0 xs_T (wf 1024) xs_linear 32 phi1024 phi1024_annihilates 2 _ _ _ _ xs1024_z2 xs1024_a1_c _). vm_cast_no_check (eq_refl 47938483596328424206114805087707326229812719438461508606248021642062046881466923502055593952642009605632030367965704895375677271683844432664759314837193099834071438246630796073680591893665625098520822120556001538356840181957990101726376829477553929910226802849223012863985932250261257681289428354566459769924). Qed.
Lemma xs1024_z1_c : mul_check 32 phi1024 0xab8c470f886ccde32bcafb58ba2d8602fd79172ab1dacfa094cebb81de3e84a779d0ac6e99d9a695857d2c4fd82cc35a17a914b870dc0b10fd26a0a8db7a07fba0f25ccf98f96c2502d93b7886c530f67ecfe9bcee61be5a55b888fbf1e099f735b38dae660ca810dd99bb83240ffe17da3231c0b28100f3d0e4196e68be1571 0x991f537a73388b04c8476a0063609b024b66aa087226d94db588c423fd597d504319e29ac29611e5ba96f1a09944a9aeee0832d2bdc0f31c1e7533f42895620af6ac65668454ba0d51fc5d6dd43515d3c2d7efdd4939d7e74be8623d62a7cb0ea169eac4e038f33073e0850defb58a776f201fbdf468173d25596437f13a54d9 0x32931475fb5446e7e38d9158d94d1d00b61fbd22c3fc16ed21467fa22367f9f73ac94ef45b4fb7703febddef41686af4f9a1266acd1cf80ce353935cf3ef65f1565e39a91cadd6285325661552f02525bc180661a75869bd1e50eac6934752f994da676a86345b20ae793e8ecbba7460b5122e7d46e917cef5bd7d59998441a8 = true.
Proof. vm_cast_no_check (eq_refl true). Qed.
Lemma xs1024_z1 : pw N.lxor 0 xs_T (wf 1024) 0x32931475fb5446e7e38d9158d94d1d00b61fbd22c3fc16ed21467fa22367f9f73ac94ef45b4fb7703febddef41686af4f9a1266acd1cf80ce353935cf3ef65f1565e39a91cadd6285325661552f02525bc180661a75869bd1e50eac6934752f994da676a86345b20ae793e8ecbba7460b5122e7d46e917cef5bd7d59998441a8 59923104495410530257643506359634157787265899298076885757810027052577558601833654377569492440802512007040037959957131119219596589604805540830949143546491374792589297808288495092100739867082031373151027650695001922946050227447487627157971036846942412387783503561528766079982415312826572101611785443208074712405.
Proof. refine (pw_mul N.lxor 0 xs_T (wf 1024) xs_linear 32 phi1024 phi1024_annihilates _ _ _ _ _ _ xs1024_a1 xs1024_z2 xs1024_z1_c _). vm_cast_no_check (eq_refl 59923104495410530257643506359634157787265899298076885757810027052577558601833654377569492440802512007040037959957131119219596589604805540830949143546491374792589297808288495092100739867082031373151027650695001922946050227447487627157971036846942412387783503561528766079982415312826572101611785443208074712405). Qed.
Lemma xs1024_i1_c : mul_check 32 phi1024 0x4d99ca06428ea54222b809c4b2f91306614c2038c7d306c1faec0637a8bdd82c01a1bab8376322bbe90062546c6c7eb19fb50e15196b2850e3e41982c5b4abfc2629ce52729f2fd9143584390ad6a410a9b8bbe3044638231d6dacd93110d170336b6274d923278c0024c9d4209a76a60b55da9794cb02dc9be8ebb7c725486e 0x991f537a73388b04c8476a0063609b024b66aa087226d94db588c423fd597d504319e29ac29611e5ba96f1a09944a9aeee0832d2bdc0f31c1e7533f42895620af6ac65668454ba0d51fc5d6dd43515d3c2d7efdd4939d7e74be8623d62a7cb0ea169eac4e038f33073e0850defb58a776f201fbdf468173d25596437f13a54d9 1 = true.
Proof. vm_cast_no_check (eq_refl true). Qed.
Lemma xs1024_w1_c : mul_check 32 phi1024 0x4d99ca06428ea54222b809c4b2f91306614c2038c7d306c1faec0637a8bdd82c01a1bab8376322bbe90062546c6c7eb19fb50e15196b2850e3e41982c5b4abfc2629ce52729f2fd9143584390ad6a410a9b8bbe3044638231d6dacd93110d170336b6274d923278c0024c9d4209a76a60b55da9794cb02dc9be8ebb7c725486e 0xab8c470f886ccde32bcafb58ba2d8602fd79172ab1dacfa094cebb81de3e84a779d0ac6e99d9a695857d2c4fd82cc35a17a914b870dc0b10fd26a0a8db7a07fba0f25ccf98f96c2502d93b7886c530f67ecfe9bcee61be5a55b888fbf1e099f735b38dae660ca810dd99bb83240ffe17da3231c0b28100f3d0e4196e68be1571 0xab8c470f886ccde32bcafb58ba2d8602fd79172ab1dacfa094cebb81de3e84a779d0ac6e99d9a695857d2c4fd82cc35a17a914b870dc0b10fd26a0a8db7a07fba0f25ccf98f96c2502d93b7886c530f67ecfe9bcee61be5a55b888fbf1e099f735b38dae660ca810dd99bb83240ffe17da3231c0b28100f3d0e4196e68be1570 = true.
Proof. vm_cast_no_check (eq_refl true). Qed.
Lemma xs1024_w1 : pw N.lxor 0 xs_T (wf 1024) 0xab8c470f886ccde32bcafb58ba2d8602fd79172ab1dacfa094cebb81de3e84a779d0ac6e99d9a695857d2c4fd82cc35a17a914b870dc0b10fd26a0a8db7a07fba0f25ccf98f96c2502d93b7886c530f67ecfe9bcee61be5a55b888fbf1e099f735b38dae660ca810dd99bb83240ffe17da3231c0b28100f3d0e4196e68be1570 35953862697246318154586103815780494672359539578846131454686016231546535161100192626541695464481507204224022775974278671531757953762883324498569486127894824875553578684973097055260443920249218823890616590417001153767630136468492576294782622108165447432670102136917259647989449187695943260967071265924844827443.
Proof. refine (pw_div N.lxor 0 xs_T (wf 1024) xs_linear 32 phi1024 phi1024_annihilates _ _ _ _ _ _ _ xs1024_z2 xs1024_a1 xs1024_i1_c xs1024_w1_c _). vm_cast_no_check (eq_refl 47938483596328424206114805087707326229812719438461508606248021642062046881466923502055593952642009605632030367965704895375677271683844432664759314837193099834071438246630796073680591893665625098520822120556001538356840181957990101726376829477553929910226802849223012863985932250261257681289428354566459769924). Qed.
Lemma xs1024_y5_c : pow_check 32 phi1024 1 0xab8c470f886ccde32bcafb58ba2d8602fd79172ab1dacfa094cebb81de3e84a779d0ac6e99d9a695857d2c4fd82cc35a17a914b870dc0b10fd26a0a8db7a07fba0f25ccf98f96c2502d93b7886c530f67ecfe9bcee61be5a55b888fbf1e099f735b38dae660ca810dd99bb83240ffe17da3231c0b28100f3d0e4196e68be1570 0xab8c470f886ccde32bcafb58ba2d8602fd79172ab1dacfa094cebb81de3e84a779d0ac6e99d9a695857d2c4fd82cc35a17a914b870dc0b10fd26a0a8db7a07fba0f25ccf98f96c2502d93b7886c530f67ecfe9bcee61be5a55b888fbf1e099f735b38dae660ca810dd99bb83240ffe17da3231c0b28100f3d0e4196e68be1570 = true.
Proof. vm_cast_no_check (eq_refl true). Qed.
Lemma xs1024_u5_c : mul_check 32 phi1024 (N.lxor 0xab8c470f886ccde32bcafb58ba2d8602fd79172ab1dacfa094cebb81de3e84a779d0ac6e99d9a695857d2c4fd82cc35a17a914b870dc0b10fd26a0a8db7a07fba0f25ccf98f96c2502d93b7886c530f67ecfe9bcee61be5a55b888fbf1e099f735b38dae660ca810dd99bb83240ffe17da3231c0b28100f3d0e4196e68be1570 1) 0x4d99ca06428ea54222b809c4b2f91306614c2038c7d306c1faec0637a8bdd82c01a1bab8376322bbe90062546c6c7eb19fb50e15196b2850e3e41982c5b4abfc2629ce52729f2fd9143584390ad6a410a9b8bbe3044638231d6dacd93110d170336b6274d923278c0024c9d4209a76a60b55da9794cb02dc9be8ebb7c725486f 1 = true.
Proof. vm_cast_no_check (eq_refl true). Qed.
Lemma xs1024_y5 : pw N.lxor 0 xs_T (wf 1024) 0xab8c470f886ccde32bcafb58ba2d8602fd79172ab1dacfa094cebb81de3e84a779d0ac6e99d9a695857d2c4fd82cc35a17a914b870dc0b10fd26a0a8db7a07fba0f25ccf98f96c2502d93b7886c530f67ecfe9bcee61be5a55b888fbf1e099f735b38dae660ca810dd99bb83240ffe17da3231c0b28100f3d0e4196e68be1570 35953862697246318154586103815780494672359539578846131454686016231546535161100192626541695464481507204224022775974278671531757953762883324498569486127894824875553578684973097055260443920249218823890616590417001153767630136468492576294782622108165447432670102136917259647989449187695943260967071265924844827443.
Proof. refine (pw_pow N.lxor 0 xs_T (wf 1024) xs_linear 32 phi1024 phi1024_annihilates 1 _ _ _ _ xs1024_w1 xs1024_y5_c _). vm_cast_no_check (eq_refl 35953862697246318154586103815780494672359539578846131454686016231546535161100192626541695464481507204224022775974278671531757953762883324498569486127894824875553578684973097055260443920249218823890616590417001153767630136468492576294782622108165447432670102136917259647989449187695943260967071265924844827443). Qed.
Lemma xs1024_cert5 : exists p u, pw N.lxor 0 xs_T (wf 1024) p ((2 ^ 1024 - 1) / Z.to_N 5) /\ mul_check 32 phi1024 (N.lxor p 1) u 1 = true.
Proof.
  assert (E : 35953862697246318154586103815780494672359539578846131454686016231546535161100192626541695464481507204224022775974278671531757953762883324498569486127894824875553578684973097055260443920249218823890616590417001153767630136468492576294782622108165447432670102136917259647989449187695943260967071265924844827443 = (2 ^ 1024 - 1) / Z.to_N 5) by (vm_cast_no_check (eq_refl 35953862697246318154586103815780494672359539578846131454686016231546535161100192626541695464481507204224022775974278671531757953762883324498569486127894824875553578684973097055260443920249218823890616590417001153767630136468492576294782622108165447432670102136917259647989449187695943260967071265924844827443)).
  exists 0xab8c470f886ccde32bcafb58ba2d8602fd79172ab1dacfa094cebb81de3e84a779d0ac6e99d9a695857d2c4fd82cc35a17a914b870dc0b10fd26a0a8db7a07fba0f25ccf98f96c2502d93b7886c530f67ecfe9bcee61be5a55b888fbf1e099f735b38dae660ca810dd99bb83240ffe17da3231c0b28100f3d0e4196e68be1570, 0x4d99ca06428ea54222b809c4b2f91306614c2038c7d306c1faec0637a8bdd82c01a1bab8376322bbe90062546c6c7eb19fb50e15196b2850e3e41982c5b4abfc2629ce52729f2fd9143584390ad6a410a9b8bbe3044638231d6dacd93110d170336b6274d923278c0024c9d4209a76a60b55da9794cb02dc9be8ebb7c725486f. rewrite <- E. exact (conj xs1024_y5 xs1024_u5_c).
Qed.
Lemma xs1024_a0_c : sq_check 32 phi1024 1 0x32931475fb5446e7e38d9158d94d1d00b61fbd22c3fc16ed21467fa22367f9f73ac94ef45b4fb7703febddef41686af4f9a1266acd1cf80ce353935cf3ef65f1565e39a91cadd6285325661552f02525bc180661a75869bd1e50eac6934752f994da676a86345b20ae793e8ecbba7460b5122e7d46e917cef5bd7d59998441a8 0x32931475fb5446e7e38d9158d94d1d00b61fbd22c3fc16ed21467fa22367f9f73ac94ef45b4fb7703febddef41686af4f9a1266acd1cf80ce353935cf3ef65f1565e39a91cadd6285325661552f02525bc180661a75869bd1e50eac6934752f994da676a86345b20ae793e8ecbba7460b5122e7d46e917cef5bd7d59998441a9 = true.
Proof. vm_cast_no_check (eq_refl true). Qed.
Lemma xs1024_a0 : pw N.lxor 0 xs_T (wf 1024) 0x32931475fb5446e7e38d9158d94d1d00b61fbd22c3fc16ed21467fa22367f9f73ac94ef45b4fb7703febddef41686af4f9a1266acd1cf80ce353935cf3ef65f1565e39a91cadd6285325661552f02525bc180661a75869bd1e50eac6934752f994da676a86345b20ae793e8ecbba7460b5122e7d46e917cef5bd7d59998441a9 119846208990821060515287012719268315574531798596153771515620054105155117203667308755138984881605024014080075919914262238439193179209611081661898287092982749585178595616576990184201479734164062746302055301390003845892100454894975254315942073693884824775567007123057532159964830625653144203223570886416149424810.
Proof. refine (pw_sq N.lxor 0 xs_T (wf 1024) xs_linear 32 phi1024 phi1024_annihilates 1 _ _ _ _ xs1024_z1 xs1024_a0_c _). vm_cast_no_check (eq_refl 119846208990821060515287012719268315574531798596153771515620054105155117203667308755138984881605024014080075919914262238439193179209611081661898287092982749585178595616576990184201479734164062746302055301390003845892100454894975254315942073693884824775567007123057532159964830625653144203223570886416149424810). Qed.
Lemma xs1024_z0_c : mul_check 32 phi1024 0x32931475fb5446e7e38d9158d94d1d00b61fbd22c3fc16ed21467fa22367f9f73ac94ef45b4fb7703febddef41686af4f9a1266acd1cf80ce353935cf3ef65f1565e39a91cadd6285325661552f02525bc180661a75869bd1e50eac6934752f994da676a86345b20ae793e8ecbba7460b5122e7d46e917cef5bd7d59998441a9 0x32931475fb5446e7e38d9158d94d1d00b61fbd22c3fc16ed21467fa22367f9f73ac94ef45b4fb7703febddef41686af4f9a1266acd1cf80ce353935cf3ef65f1565e39a91cadd6285325661552f02525bc180661a75869bd1e50eac6934752f994da676a86345b20ae793e8ecbba7460b5122e7d46e917cef5bd7d59998441a8 0x1 = true.
Proof. vm_cast_no_check (eq_refl true). Qed.
Lemma xs1024_z0 : pw N.lxor 0 xs_T (wf 1024) 0x1 179769313486231590772930519078902473361797697894230657273430081157732675805500963132708477322407536021120113879871393357658789768814416622492847430639474124377767893424865485276302219601246094119453082952085005768838150682342462881473913110540827237163350510684586298239947245938479716304835356329624224137215.
Proof. refine (pw_mul N.lxor 0 xs_T (wf 1024) xs_linear 32 phi1024 phi1024_annihilates _ _ _ _ _ _ xs1024_a0 xs1024_z1 xs1024_z0_c _). vm_cast_no_check (eq_refl 179769313486231590772930519078902473361797697894230657273430081157732675805500963132708477322407536021120113879871393357658789768814416622492847430639474124377767893424865485276302219601246094119453082952085005768838150682342462881473913110540827237163350510684586298239947245938479716304835356329624224137215). Qed.
Lemma xs1024_i0_c : mul_check 32 phi1024 0x32931475fb5446e7e38d9158d94d1d00b61fbd22c3fc16ed21467fa22367f9f73ac94ef45b4fb7703febddef41686af4f9a1266acd1cf80ce353935cf3ef65f1565e39a91cadd6285325661552f02525bc180661a75869bd1e50eac6934752f994da676a86345b20ae793e8ecbba7460b5122e7d46e917cef5bd7d59998441a9 0x32931475fb5446e7e38d9158d94d1d00b61fbd22c3fc16ed21467fa22367f9f73ac94ef45b4fb7703febddef41686af4f9a1266acd1cf80ce353935cf3ef65f1565e39a91cadd6285325661552f02525bc180661a75869bd1e50eac6934752f994da676a86345b20ae793e8ecbba7460b5122e7d46e917cef5bd7d59998441a8 1 = true.
Proof. vm_cast_no_check (eq_refl true). Qed.
Lemma xs1024_w0_c : mul_check 32 phi1024 0x32931475fb5446e7e38d9158d94d1d00b61fbd22c3fc16ed21467fa22367f9f73ac94ef45b4fb7703febddef41686af4f9a1266acd1cf80ce353935cf3ef65f1565e39a91cadd6285325661552f02525bc180661a75869bd1e50eac6934752f994da676a86345b20ae793e8ecbba7460b5122e7d46e917cef5bd7d59998441a9 0x32931475fb5446e7e38d9158d94d1d00b61fbd22c3fc16ed21467fa22367f9f73ac94ef45b4fb7703febddef41686af4f9a1266acd1cf80ce353935cf3ef65f1565e39a91cadd6285325661552f02525bc180661a75869bd1e50eac6934752f994da676a86345b20ae793e8ecbba7460b5122e7d46e917cef5bd7d59998441a9 0x32931475fb5446e7e38d9158d94d1d00b61fbd22c3fc16ed21467fa22367f9f73ac94ef45b4fb7703febddef41686af4f9a1266acd1cf80ce353935cf3ef65f1565e39a91cadd6285325661552f02525bc180661a75869bd1e50eac6934752f994da676a86345b20ae793e8ecbba7460b5122e7d46e917cef5bd7d59998441a8 = true.
Proof. vm_cast_no_check (eq_refl true). Qed.
Lemma xs1024_w0 : pw N.lxor 0 xs_T (wf 1024) 0x32931475fb5446e7e38d9158d94d1d00b61fbd22c3fc16ed21467fa22367f9f73ac94ef45b4fb7703febddef41686af4f9a1266acd1cf80ce353935cf3ef65f1565e39a91cadd6285325661552f02525bc180661a75869bd1e50eac6934752f994da676a86345b20ae793e8ecbba7460b5122e7d46e917cef5bd7d59998441a8 59923104495410530257643506359634157787265899298076885757810027052577558601833654377569492440802512007040037959957131119219596589604805540830949143546491374792589297808288495092100739867082031373151027650695001922946050227447487627157971036846942412387783503561528766079982415312826572101611785443208074712405.
Proof. refine (pw_div N.lxor 0 xs_T (wf 1024) xs_linear 32 phi1024 phi1024_annihilates _ _ _ _ _ _ _ xs1024_z1 xs1024_a0 xs1024_i0_c xs1024_w0_c _). vm_cast_no_check (eq_refl 119846208990821060515287012719268315574531798596153771515620054105155117203667308755138984881605024014080075919914262238439193179209611081661898287092982749585178595616576990184201479734164062746302055301390003845892100454894975254315942073693884824775567007123057532159964830625653144203223570886416149424810). Qed.
Lemma xs1024_y3_c : pow_check 32 phi1024 1 0x32931475fb5446e7e38d9158d94d1d00b61fbd22c3fc16ed21467fa22367f9f73ac94ef45b4fb7703febddef41686af4f9a1266acd1cf80ce353935cf3ef65f1565e39a91cadd6285325661552f02525bc180661a75869bd1e50eac6934752f994da676a86345b20ae793e8ecbba7460b5122e7d46e917cef5bd7d59998441a8 0x32931475fb5446e7e38d9158d94d1d00b61fbd22c3fc16ed21467fa22367f9f73ac94ef45b4fb7703febddef41686af4f9a1266acd1cf80ce353935cf3ef65f1565e39a91cadd6285325661552f02525bc180661a75869bd1e50eac6934752f994da676a86345b20ae793e8ecbba7460b5122e7d46e917cef5bd7d59998441a8 = true.
Proof. vm_cast_no_check (eq_refl true). Qed.
Lemma xs1024_u3_c : mul_check 32 phi1024 (N.lxor 0x32931475fb5446e7e38d9158d94d1d00b61fbd22c3fc16ed21467fa22367f9f73ac94ef45b4fb7703febddef41686af4f9a1266acd1cf80ce353935cf3ef65f1565e39a91cadd6285325661552f02525bc180661a75869bd1e50eac6934752f994da676a86345b20ae793e8ecbba7460b5122e7d46e917cef5bd7d59998441a8 1) 0x32931475fb5446e7e38d9158d94d1d00b61fbd22c3fc16ed21467fa22367f9f73ac94ef45b4fb7703febddef41686af4f9a1266acd1cf80ce353935cf3ef65f1565e39a91cadd6285325661552f02525bc180661a75869bd1e50eac6934752f994da676a86345b20ae793e8ecbba7460b5122e7d46e917cef5bd7d59998441a8 1 = true.
Proof. vm_cast_no_check (eq_refl true). Qed.
Lemma xs1024_y3 : pw N.lxor 0 xs_T (wf 1024) 0x32931475fb5446e7e38d9158d94d1d00b61fbd22c3fc16ed21467fa22367f9f73ac94ef45b4fb7703febddef41686af4f9a1266acd1cf80ce353935cf3ef65f1565e39a91cadd6285325661552f02525bc180661a75869bd1e50eac6934752f994da676a86345b20ae793e8ecbba7460b5122e7d46e917cef5bd7d59998441a8 59923104495410530257643506359634157787265899298076885757810027052577558601833654377569492440802512007040037959957131119219596589604805540830949143546491374792589297808288495092100739867082031373151027650695001922946050227447487627157971036846942412387783503561528766079982415312826572101611785443208074712405.
Proof. refine (pw_pow N.lxor 0 xs_T (wf 1024) xs_linear 32 phi1024 phi1024_annihilates 1 _ _ _ _ xs1024_w0 xs1024_y3_c _). vm_cast_no_check (eq_refl 59923104495410530257643506359634157787265899298076885757810027052577558601833654377569492440802512007040037959957131119219596589604805540830949143546491374792589297808288495092100739867082031373151027650695001922946050227447487627157971036846942412387783503561528766079982415312826572101611785443208074712405). Qed.
Lemma xs1024_cert3 : exists p u, pw N.lxor 0 xs_T (wf 1024) p ((2 ^ 1024 - 1) / Z.to_N 3) /\ mul_check 32 phi1024 (N.lxor p 1) u 1 = true.
Proof.
  assert (E : 59923104495410530257643506359634157787265899298076885757810027052577558601833654377569492440802512007040037959957131119219596589604805540830949143546491374792589297808288495092100739867082031373151027650695001922946050227447487627157971036846942412387783503561528766079982415312826572101611785443208074712405 = (2 ^ 1024 - 1) / Z.to_N 3) by (vm_cast_no_check (eq_refl 59923104495410530257643506359634157787265899298076885757810027052577558601833654377569492440802512007040037959957131119219596589604805540830949143546491374792589297808288495092100739867082031373151027650695001922946050227447487627157971036846942412387783503561528766079982415312826572101611785443208074712405)).
  exists 0x32931475fb5446e7e38d9158d94d1d00b61fbd22c3fc16ed21467fa22367f9f73ac94ef45b4fb7703febddef41686af4f9a1266acd1cf80ce353935cf3ef65f1565e39a91cadd6285325661552f02525bc180661a75869bd1e50eac6934752f994da676a86345b20ae793e8ecbba7460b5122e7d46e917cef5bd7d59998441a8, 0x32931475fb5446e7e38d9158d94d1d00b61fbd22c3fc16ed21467fa22367f9f73ac94ef45b4fb7703febddef41686af4f9a1266acd1cf80ce353935cf3ef65f1565e39a91cadd6285325661552f02525bc180661a75869bd1e50eac6934752f994da676a86345b20ae793e8ecbba7460b5122e7d46e917cef5bd7d59998441a8. rewrite <- E. exact (conj xs1024_y3 xs1024_u3_c).
Qed.
Lemma xs1024_one : pw N.lxor 0 xs_T (wf 1024) 1 (2 ^ 1024 - 1).
Proof.
  assert (E : 179769313486231590772930519078902473361797697894230657273430081157732675805500963132708477322407536021120113879871393357658789768814416622492847430639474124377767893424865485276302219601246094119453082952085005768838150682342462881473913110540827237163350510684586298239947245938479716304835356329624224137215 = 2 ^ 1024 - 1) by (vm_cast_no_check (eq_refl 179769313486231590772930519078902473361797697894230657273430081157732675805500963132708477322407536021120113879871393357658789768814416622492847430639474124377767893424865485276302219601246094119453082952085005768838150682342462881473913110540827237163350510684586298239947245938479716304835356329624224137215)).
  rewrite <- E. exact xs1024_z0.
Qed.
Lemma xs1024_cert q : In q factors1024 -> exists p u, pw N.lxor 0 xs_T (wf 1024) p ((2 ^ 1024 - 1) / Z.to_N q) /\ mul_check 32 phi1024 (N.lxor p 1) u 1 = true.
Proof.
  intros H. repeat (destruct H as [<-|H]); [exact xs1024_cert3 |exact xs1024_cert5 |exact xs1024_cert17 |exact xs1024_cert257 |exact xs1024_cert641 |exact xs1024_cert65537 |exact xs1024_cert274177 |exact xs1024_cert2424833 |exact xs1024_cert6700417 |exact xs1024_cert67280421310721 |exact xs1024_cert1238926361552897 |exact xs1024_cert59649589127497217 |exact xs1024_cert5704689200685129054721 |exact xs1024_cert7455602825647884208337395736200454918783366342657 |exact xs1024_cert93461639715357977769163558199606896584051237541638188580280321 |exact xs1024_cert741640062627530801524787141901937474059940781097519023905821316144415759504705008092818711693940737 |destruct H].
Qed.
Lemma xs1024_prod : prodl factors1024 = Z.of_N (2 ^ 1024 - 1).
Proof. vm_cast_no_check (eq_refl 179769313486231590772930519078902473361797697894230657273430081157732675805500963132708477322407536021120113879871393357658789768814416622492847430639474124377767893424865485276302219601246094119453082952085005768838150682342462881473913110540827237163350510684586298239947245938479716304835356329624224137215%Z). Qed.
Lemma xs1024_pos : 0 < 2 ^ 1024 - 1.
Proof. vm_cast_no_check (eq_refl Lt). Qed.
Lemma xs1024_odd : N.odd phi1024 = true.
Proof. vm_cast_no_check (eq_refl true). Qed.
Theorem xs1024_period v k : (wf 1024) v -> v <> 0 ->
  (N.iter k xs_T v = v <-> k mod (2 ^ 1024 - 1) = 0).
Proof. exact (period_exact N.lxor 0 xs_T (wf 1024) xs_linear 32 phi1024 phi1024_annihilates (2 ^ 1024 - 1) factors1024 factors1024_prime xs1024_prod xs1024_pos xs1024_one xs1024_cert v k). Qed.
Theorem xs1024_distinct v i j : (wf 1024) v -> v <> 0 ->
  (N.iter i xs_T v = N.iter j xs_T v <-> i mod (2 ^ 1024 - 1) = j mod (2 ^ 1024 - 1)).
Proof. exact (period_distinct N.lxor 0 xs_T (wf 1024) xs_linear 32 phi1024 phi1024_annihilates (2 ^ 1024 - 1) factors1024 factors1024_prime xs1024_prod xs1024_pos xs1024_one xs1024_cert v i j xs1024_odd). Qed.
