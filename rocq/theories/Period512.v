(* Generated: Xoshiro512. Exact periods; the numbers are certificates that
   the proofs check. *)
From Verif Require Import Word Gf2 Order Primes Limb Period Xoshiro XoshiroLin.
From Coq Require Import ZArith Znumtheory List.
Import ListNotations.
Open Scope N_scope.

Lemma xo512_z9 : pw v8_add v8_zero xoshiro512_step v8_wf 0x2 1.
Proof. exact (pw_x v8_add v8_zero xoshiro512_step v8_wf). Qed.
Lemma xo512_a8_c : sq_check 16 phi512 256 0x2 0x1ebbc8b23eaf25db53851efdb6df0aaff1be7667092bcc1cb11ac47a7ba28c254b8c5674d309511c2837f2fbb5f22fae760083d7955323be33ed89b6e7a353f9 = true.
Proof. vm_cast_no_check (eq_refl true). Qed.
Lemma xo512_a8 : pw v8_add v8_zero xoshiro512_step v8_wf 0x1ebbc8b23eaf25db53851efdb6df0aaff1be7667092bcc1cb11ac47a7ba28c254b8c5674d309511c2837f2fbb5f22fae760083d7955323be33ed89b6e7a353f9 115792089237316195423570985008687907853269984665640564039457584007913129639936.
Proof. refine (pw_sq v8_add v8_zero xoshiro512_step v8_wf xoshiro512_step_linear 16 phi512 phi512_annihilates 256 _ _ _ _ xo512_z9 xo512_a8_c _). vm_cast_no_check (eq_refl 115792089237316195423570985008687907853269984665640564039457584007913129639936). Qed.
Lemma xo512_z8_c : mul_check 16 phi512 0x1ebbc8b23eaf25db53851efdb6df0aaff1be7667092bcc1cb11ac47a7ba28c254b8c5674d309511c2837f2fbb5f22fae760083d7955323be33ed89b6e7a353f9 0x2 0x3d7791647d5e4bb6a70a3dfb6dbe155fe37cecce12579839623588f4f745184a9718ace9a612a238506fe5f76be45f5cec0107af2aa6477c67db136dcf46a7f2 = true.
Proof. vm_cast_no_check (eq_refl true). Qed.
Lemma xo512_z8 : pw v8_add v8_zero xoshiro512_step v8_wf 0x3d7791647d5e4bb6a70a3dfb6dbe155fe37cecce12579839623588f4f745184a9718ace9a612a238506fe5f76be45f5cec0107af2aa6477c67db136dcf46a7f2 115792089237316195423570985008687907853269984665640564039457584007913129639937.
Proof. refine (pw_mul v8_add v8_zero xoshiro512_step v8_wf xoshiro512_step_linear 16 phi512 phi512_annihilates _ _ _ _ _ _ xo512_a8 xo512_z9 xo512_z8_c _). vm_cast_no_check (eq_refl 115792089237316195423570985008687907853269984665640564039457584007913129639937). Qed.
Lemma xo512_i8_c : mul_check 16 phi512 0x800028002aec5bbfc796939346725905a8dd3e23f6e3ac56f88f77c1971928c7bd3382c73ddd5b78782f31fe536bdbc0bfee3c6c43780631e79e7f8600000000 0x2 1 = true.
Proof. vm_cast_no_check (eq_refl true). Qed.
Lemma xo512_w8_c : mul_check 16 phi512 0x800028002aec5bbfc796939346725905a8dd3e23f6e3ac56f88f77c1971928c7bd3382c73ddd5b78782f31fe536bdbc0bfee3c6c43780631e79e7f8600000000 0x1ebbc8b23eaf25db53851efdb6df0aaff1be7667092bcc1cb11ac47a7ba28c254b8c5674d309511c2837f2fbb5f22fae760083d7955323be33ed89b6e7a353f9 0x8f5dcc5935bbc9526e541ced9d1ddc525002051072764a58a00215fcaac86ed518f5a9fd5459f3f66c34c8838992cc1784ee7d8789d197eefe68bb5d73d1a9fc = true.
Proof. vm_cast_no_check (eq_refl true). Qed.
Lemma xo512_w8 : pw v8_add v8_zero xoshiro512_step v8_wf 0x8f5dcc5935bbc9526e541ced9d1ddc525002051072764a58a00215fcaac86ed518f5a9fd5459f3f66c34c8838992cc1784ee7d8789d197eefe68bb5d73d1a9fc 115792089237316195423570985008687907853269984665640564039457584007913129639935.
Proof. refine (pw_div v8_add v8_zero xoshiro512_step v8_wf xoshiro512_step_linear 16 phi512 phi512_annihilates _ _ _ _ _ _ _ xo512_z9 xo512_a8 xo512_i8_c xo512_w8_c _). vm_cast_no_check (eq_refl 115792089237316195423570985008687907853269984665640564039457584007913129639936). Qed.
Lemma xo512_y1238926361552897_c : pow_check 16 phi512 93461639715357977769163558199606896584051237541638188580280321 0x8f5dcc5935bbc9526e541ced9d1ddc525002051072764a58a00215fcaac86ed518f5a9fd5459f3f66c34c8838992cc1784ee7d8789d197eefe68bb5d73d1a9fc 0x686233d9945ff6ae9dade0ff2319e9280b039ae1fdbd541842cd70fc07d8abd6809c6603d705420a816fc3606ac343b44a43e488f38e57b789a974de4495d08b = true.
Proof. vm_cast_no_check (eq_refl true). Qed.
Lemma xo512_u1238926361552897_c : mul_check 16 phi512 (N.lxor 0x686233d9945ff6ae9dade0ff2319e9280b039ae1fdbd541842cd70fc07d8abd6809c6603d705420a816fc3606ac343b44a43e488f38e57b789a974de4495d08b 1) 0x3989b3603665426ab3eecc5f1a9357c5ee74cf44d3019f8df40c4acffe651324ab4f420bcb42c3c6c8b24ee3c31520cf87187233da2ebd8904976b0c34cb2360 1 = true.
Proof. vm_cast_no_check (eq_refl true). Qed.
Lemma xo512_y1238926361552897 : pw v8_add v8_zero xoshiro512_step v8_wf 0x686233d9945ff6ae9dade0ff2319e9280b039ae1fdbd541842cd70fc07d8abd6809c6603d705420a816fc3606ac343b44a43e488f38e57b789a974de4495d08b 10822118526186626384004285328439329883821275513095052798186320967919853410781985762865486979363630049728854622846750063174783245356096219135.
Proof. refine (pw_pow v8_add v8_zero xoshiro512_step v8_wf xoshiro512_step_linear 16 phi512 phi512_annihilates 93461639715357977769163558199606896584051237541638188580280321 _ _ _ _ xo512_w8 xo512_y1238926361552897_c _). vm_cast_no_check (eq_refl 10822118526186626384004285328439329883821275513095052798186320967919853410781985762865486979363630049728854622846750063174783245356096219135). Qed.
Lemma xo512_cert1238926361552897 : exists p u, pw v8_add v8_zero xoshiro512_step v8_wf p ((2 ^ 512 - 1) / Z.to_N 1238926361552897) /\ mul_check 16 phi512 (N.lxor p 1) u 1 = true.
Proof.
  assert (E : 10822118526186626384004285328439329883821275513095052798186320967919853410781985762865486979363630049728854622846750063174783245356096219135 = (2 ^ 512 - 1) / Z.to_N 1238926361552897) by (vm_cast_no_check (eq_refl 10822118526186626384004285328439329883821275513095052798186320967919853410781985762865486979363630049728854622846750063174783245356096219135)).
  exists 0x686233d9945ff6ae9dade0ff2319e9280b039ae1fdbd541842cd70fc07d8abd6809c6603d705420a816fc3606ac343b44a43e488f38e57b789a974de4495d08b, 0x3989b3603665426ab3eecc5f1a9357c5ee74cf44d3019f8df40c4acffe651324ab4f420bcb42c3c6c8b24ee3c31520cf87187233da2ebd8904976b0c34cb2360. rewrite <- E. exact (conj xo512_y1238926361552897 xo512_u1238926361552897_c).
Qed.
Lemma xo512_y93461639715357977769163558199606896584051237541638188580280321_c : pow_check 16 phi512 1238926361552897 0x8f5dcc5935bbc9526e541ced9d1ddc525002051072764a58a00215fcaac86ed518f5a9fd5459f3f66c34c8838992cc1784ee7d8789d197eefe68bb5d73d1a9fc 0xf22a3a45ca760065213c58bd428502a52649a4ac7c717e5410ac9b98c37dccf48e38f2b070f88f5a85cd5678163294719b90d2640bbb19cc3fad15a7f95ab7e = true.
Proof. vm_cast_no_check (eq_refl true). Qed.
Lemma xo512_u93461639715357977769163558199606896584051237541638188580280321_c : mul_check 16 phi512 (N.lxor 0xf22a3a45ca760065213c58bd428502a52649a4ac7c717e5410ac9b98c37dccf48e38f2b070f88f5a85cd5678163294719b90d2640bbb19cc3fad15a7f95ab7e 1) 0x92794aa0294c66d2d81b0d80b681418e7c20a7f012cbb2bef564f6a6ef74a461a193b668452fad8b3eab302bf7096fbd0bbb02327755d58060d0e8c850f83052 1 = true.
Proof. vm_cast_no_check (eq_refl true). Qed.
Lemma xo512_y93461639715357977769163558199606896584051237541638188580280321 : pw v8_add v8_zero xoshiro512_step v8_wf 0xf22a3a45ca760065213c58bd428502a52649a4ac7c717e5410ac9b98c37dccf48e38f2b070f88f5a85cd5678163294719b90d2640bbb19cc3fad15a7f95ab7e 143457871815396518165534066583105389959703622240677280451071315904499588734149055465066141695.
Proof. refine (pw_pow v8_add v8_zero xoshiro512_step v8_wf xoshiro512_step_linear 16 phi512 phi512_annihilates 1238926361552897 _ _ _ _ xo512_w8 xo512_y93461639715357977769163558199606896584051237541638188580280321_c _). vm_cast_no_check (eq_refl 143457871815396518165534066583105389959703622240677280451071315904499588734149055465066141695). Qed.
Lemma xo512_cert93461639715357977769163558199606896584051237541638188580280321 : exists p u, pw v8_add v8_zero xoshiro512_step v8_wf p ((2 ^ 512 - 1) / Z.to_N 93461639715357977769163558199606896584051237541638188580280321) /\ mul_check 16 phi512 (N.lxor p 1) u 1 = true.
Proof.
  assert (E : 143457871815396518165534066583105389959703622240677280451071315904499588734149055465066141695 = (2 ^ 512 - 1) / Z.to_N 93461639715357977769163558199606896584051237541638188580280321) by (vm_cast_no_check (eq_refl 143457871815396518165534066583105389959703622240677280451071315904499588734149055465066141695)).
  exists 0xf22a3a45ca760065213c58bd428502a52649a4ac7c717e5410ac9b98c37dccf48e38f2b070f88f5a85cd5678163294719b90d2640bbb19cc3fad15a7f95ab7e, 0x92794aa0294c66d2d81b0d80b681418e7c20a7f012cbb2bef564f6a6ef74a461a193b668452fad8b3eab302bf7096fbd0bbb02327755d58060d0e8c850f83052. rewrite <- E. exact (conj xo512_y93461639715357977769163558199606896584051237541638188580280321 xo512_u93461639715357977769163558199606896584051237541638188580280321_c).
Qed.
Lemma xo512_a7_c : sq_check 16 phi512 128 0x3d7791647d5e4bb6a70a3dfb6dbe155fe37cecce12579839623588f4f745184a9718ace9a612a238506fe5f76be45f5cec0107af2aa6477c67db136dcf46a7f2 0xdab5e34eb684bcefbee36ef8c8964440b70dcfe4fff0f6b1c2093ff57ec3133756754ac57dc31d46a20bf16df6731be783e2cbbd51789524d2f223bfc677f9b7 = true.
Proof. vm_cast_no_check (eq_refl true). Qed.
Lemma xo512_a7 : pw v8_add v8_zero xoshiro512_step v8_wf 0xdab5e34eb684bcefbee36ef8c8964440b70dcfe4fff0f6b1c2093ff57ec3133756754ac57dc31d46a20bf16df6731be783e2cbbd51789524d2f223bfc677f9b7 39402006196394479212279040100143613805079739270465446667948293404245721771497550893781187193348379015414059758518272.
Proof. refine (pw_sq v8_add v8_zero xoshiro512_step v8_wf xoshiro512_step_linear 16 phi512 phi512_annihilates 128 _ _ _ _ xo512_z8 xo512_a7_c _). vm_cast_no_check (eq_refl 39402006196394479212279040100143613805079739270465446667948293404245721771497550893781187193348379015414059758518272). Qed.
Lemma xo512_z7_c : mul_check 16 phi512 0xdab5e34eb684bcefbee36ef8c8964440b70dcfe4fff0f6b1c2093ff57ec3133756754ac57dc31d46a20bf16df6731be783e2cbbd51789524d2f223bfc677f9b7 0x3d7791647d5e4bb6a70a3dfb6dbe155fe37cecce12579839623588f4f745184a9718ace9a612a238506fe5f76be45f5cec0107af2aa6477c67db136dcf46a7f2 0x3517af9cc54ff1e8e2b45a4d9e600b6b86961c72f9a5fb218cc9d7e6ac93bbc4687844448030713cd9b6465382b5bcc6b23d8eb7c6b15c035a771572b6cfeb75 = true.
Proof. vm_cast_no_check (eq_refl true). Qed.
Lemma xo512_z7 : pw v8_add v8_zero xoshiro512_step v8_wf 0x3517af9cc54ff1e8e2b45a4d9e600b6b86961c72f9a5fb218cc9d7e6ac93bbc4687844448030713cd9b6465382b5bcc6b23d8eb7c6b15c035a771572b6cfeb75 39402006196394479212279040100143613805195531359702762863371864389254409679350820878446827757387836599421972888158209.
Proof. refine (pw_mul v8_add v8_zero xoshiro512_step v8_wf xoshiro512_step_linear 16 phi512 phi512_annihilates _ _ _ _ _ _ xo512_a7 xo512_z8 xo512_z7_c _). vm_cast_no_check (eq_refl 39402006196394479212279040100143613805195531359702762863371864389254409679350820878446827757387836599421972888158209). Qed.
Lemma xo512_i7_c : mul_check 16 phi512 0x2cca13a27ac843f3e275a4d84de9ea3b7a264b43674fa660b50483cbf1942b7e437a6e7306ba29726f7281ab4d10a83b83b062e071078d3c860cdf2c784dfde5 0x3d7791647d5e4bb6a70a3dfb6dbe155fe37cecce12579839623588f4f745184a9718ace9a612a238506fe5f76be45f5cec0107af2aa6477c67db136dcf46a7f2 1 = true.
Proof. vm_cast_no_check (eq_refl true). Qed.
Lemma xo512_w7_c : mul_check 16 phi512 0x2cca13a27ac843f3e275a4d84de9ea3b7a264b43674fa660b50483cbf1942b7e437a6e7306ba29726f7281ab4d10a83b83b062e071078d3c860cdf2c784dfde5 0xdab5e34eb684bcefbee36ef8c8964440b70dcfe4fff0f6b1c2093ff57ec3133756754ac57dc31d46a20bf16df6731be783e2cbbd51789524d2f223bfc677f9b7 0x8a38b9db611d9dca2649c42d42c973f44a6a3c8a50a8cae132d9fb2960d0dc05c7e1507fa4445670346e2393f969984e57520a15f7919551a992dea9bd0a97e9 = true.
Proof. vm_cast_no_check (eq_refl true). Qed.
Lemma xo512_w7 : pw v8_add v8_zero xoshiro512_step v8_wf 0x8a38b9db611d9dca2649c42d42c973f44a6a3c8a50a8cae132d9fb2960d0dc05c7e1507fa4445670346e2393f969984e57520a15f7919551a992dea9bd0a97e9 39402006196394479212279040100143613804963947181228130472524722419237033863644280909115546629308921431406146628878335.
Proof. refine (pw_div v8_add v8_zero xoshiro512_step v8_wf xoshiro512_step_linear 16 phi512 phi512_annihilates _ _ _ _ _ _ _ xo512_z8 xo512_a7 xo512_i7_c xo512_w7_c _). vm_cast_no_check (eq_refl 39402006196394479212279040100143613805079739270465446667948293404245721771497550893781187193348379015414059758518272). Qed.
Lemma xo512_y59649589127497217_c : pow_check 16 phi512 5704689200685129054721 0x8a38b9db611d9dca2649c42d42c973f44a6a3c8a50a8cae132d9fb2960d0dc05c7e1507fa4445670346e2393f969984e57520a15f7919551a992dea9bd0a97e9 0xcffa6b7163554603aef53dc62c2edd5e7fd77106477bdd43607183b238aa1f87e7f178cf449594f7c0cc419efc5b51aa36cbeb725a17b5b598b70f00338f9f6 = true.
Proof. vm_cast_no_check (eq_refl true). Qed.
Lemma xo512_u59649589127497217_c : mul_check 16 phi512 (N.lxor 0xcffa6b7163554603aef53dc62c2edd5e7fd77106477bdd43607183b238aa1f87e7f178cf449594f7c0cc419efc5b51aa36cbeb725a17b5b598b70f00338f9f6 1) 0x5a0fdeb85924fd54b34d91fbe2e7d9411a511ba86c97aad057a949fa37849062bc761effa06cce38f88968b47c7f3692923d3eac5881b6e3d0bf754e189eb960 1 = true.
Proof. vm_cast_no_check (eq_refl true). Qed.
Lemma xo512_y59649589127497217 : pw v8_add v8_zero xoshiro512_step v8_wf 0xcffa6b7163554603aef53dc62c2edd5e7fd77106477bdd43607183b238aa1f87e7f178cf449594f7c0cc419efc5b51aa36cbeb725a17b5b598b70f00338f9f6 224776199233900123761359481666788015562041383176662393832562482224514297455360587221032112995775128527694804621169997270154534459066369535.
Proof. refine (pw_pow v8_add v8_zero xoshiro512_step v8_wf xoshiro512_step_linear 16 phi512 phi512_annihilates 5704689200685129054721 _ _ _ _ xo512_w7 xo512_y59649589127497217_c _). vm_cast_no_check (eq_refl 224776199233900123761359481666788015562041383176662393832562482224514297455360587221032112995775128527694804621169997270154534459066369535). Qed.
Lemma xo512_cert59649589127497217 : exists p u, pw v8_add v8_zero xoshiro512_step v8_wf p ((2 ^ 512 - 1) / Z.to_N 59649589127497217) /\ mul_check 16 phi512 (N.lxor p 1) u 1 = true.
Proof.
  assert (E : 224776199233900123761359481666788015562041383176662393832562482224514297455360587221032112995775128527694804621169997270154534459066369535 = (2 ^ 512 - 1) / Z.to_N 59649589127497217) by (vm_cast_no_check (eq_refl 224776199233900123761359481666788015562041383176662393832562482224514297455360587221032112995775128527694804621169997270154534459066369535)).
  exists 0xcffa6b7163554603aef53dc62c2edd5e7fd77106477bdd43607183b238aa1f87e7f178cf449594f7c0cc419efc5b51aa36cbeb725a17b5b598b70f00338f9f6, 0x5a0fdeb85924fd54b34d91fbe2e7d9411a511ba86c97aad057a949fa37849062bc761effa06cce38f88968b47c7f3692923d3eac5881b6e3d0bf754e189eb960. rewrite <- E. exact (conj xo512_y59649589127497217 xo512_u59649589127497217_c).
Qed.
Lemma xo512_y5704689200685129054721_c : pow_check 16 phi512 59649589127497217 0x8a38b9db611d9dca2649c42d42c973f44a6a3c8a50a8cae132d9fb2960d0dc05c7e1507fa4445670346e2393f969984e57520a15f7919551a992dea9bd0a97e9 0x5690975003fac7f567287d5058b5d081645338e03f08eeeb6c590e7f631b8176498158e9f59b96eadf2b10dbdfb8cc418e1d00fc6e0b27bf0f4cfce84043b83f = true.
Proof. vm_cast_no_check (eq_refl true). Qed.
Lemma xo512_u5704689200685129054721_c : mul_check 16 phi512 (N.lxor 0x5690975003fac7f567287d5058b5d081645338e03f08eeeb6c590e7f631b8176498158e9f59b96eadf2b10dbdfb8cc418e1d00fc6e0b27bf0f4cfce84043b83f 1) 0x6c3e89c60de0e2cd3cffabb7ec285c013ab09bd1e6ee69fc4770fb8d3ede72daf006c82dc975bb714dcfcdf4d2e07f74c65c12318c0a3b1d2fbac382701eaa46 1 = true.
Proof. vm_cast_no_check (eq_refl true). Qed.
Lemma xo512_y5704689200685129054721 : pw v8_add v8_zero xoshiro512_step v8_wf 0x5690975003fac7f567287d5058b5d081645338e03f08eeeb6c590e7f631b8176498158e9f59b96eadf2b10dbdfb8cc418e1d00fc6e0b27bf0f4cfce84043b83f 2350313480414030101138540029018015244640537669633650548866056762006371835695692479378692003827074644087286454262268305630234544093695.
Proof. refine (pw_pow v8_add v8_zero xoshiro512_step v8_wf xoshiro512_step_linear 16 phi512 phi512_annihilates 59649589127497217 _ _ _ _ xo512_w7 xo512_y5704689200685129054721_c _). vm_cast_no_check (eq_refl 2350313480414030101138540029018015244640537669633650548866056762006371835695692479378692003827074644087286454262268305630234544093695). Qed.
Lemma xo512_cert5704689200685129054721 : exists p u, pw v8_add v8_zero xoshiro512_step v8_wf p ((2 ^ 512 - 1) / Z.to_N 5704689200685129054721) /\ mul_check 16 phi512 (N.lxor p 1) u 1 = true.
Proof.
  assert (E : 2350313480414030101138540029018015244640537669633650548866056762006371835695692479378692003827074644087286454262268305630234544093695 = (2 ^ 512 - 1) / Z.to_N 5704689200685129054721) by (vm_cast_no_check (eq_refl 2350313480414030101138540029018015244640537669633650548866056762006371835695692479378692003827074644087286454262268305630234544093695)).
  exists 0x5690975003fac7f567287d5058b5d081645338e03f08eeeb6c590e7f631b8176498158e9f59b96eadf2b10dbdfb8cc418e1d00fc6e0b27bf0f4cfce84043b83f, 0x6c3e89c60de0e2cd3cffabb7ec285c013ab09bd1e6ee69fc4770fb8d3ede72daf006c82dc975bb714dcfcdf4d2e07f74c65c12318c0a3b1d2fbac382701eaa46. rewrite <- E. exact (conj xo512_y5704689200685129054721 xo512_u5704689200685129054721_c).
Qed.
Lemma xo512_a6_c : sq_check 16 phi512 64 0x3517af9cc54ff1e8e2b45a4d9e600b6b86961c72f9a5fb218cc9d7e6ac93bbc4687844448030713cd9b6465382b5bcc6b23d8eb7c6b15c035a771572b6cfeb75 0x87e71f266e0d7d25aa2ad819d666d7e8bd91e8359186602b0bfed43c6c32ed735c6e8c74d4a726c8a8fc37f3fa9fd5c8986350bf9bd9e3c583de4fcc36d1383c = true.
Proof. vm_cast_no_check (eq_refl true). Qed.
Lemma xo512_a6 : pw v8_add v8_zero xoshiro512_step v8_wf 0x87e71f266e0d7d25aa2ad819d666d7e8bd91e8359186602b0bfed43c6c32ed735c6e8c74d4a726c8a8fc37f3fa9fd5c8986350bf9bd9e3c583de4fcc36d1383c 726838724295606890549323807888004534355777347723238970363885220886808840228006904950283090164474442958007948998462939285746101459615744.
Proof. refine (pw_sq v8_add v8_zero xoshiro512_step v8_wf xoshiro512_step_linear 16 phi512 phi512_annihilates 64 _ _ _ _ xo512_z7 xo512_a6_c _). vm_cast_no_check (eq_refl 726838724295606890549323807888004534355777347723238970363885220886808840228006904950283090164474442958007948998462939285746101459615744). Qed.
Lemma xo512_z6_c : mul_check 16 phi512 0x87e71f266e0d7d25aa2ad819d666d7e8bd91e8359186602b0bfed43c6c32ed735c6e8c74d4a726c8a8fc37f3fa9fd5c8986350bf9bd9e3c583de4fcc36d1383c 0x3517af9cc54ff1e8e2b45a4d9e600b6b86961c72f9a5fb218cc9d7e6ac93bbc4687844448030713cd9b6465382b5bcc6b23d8eb7c6b15c035a771572b6cfeb75 0x61352034eceac2b130f99682dd060357d3a10035555ddabd02625dd2f690a078200f08d31c943746fee42cc5f2a047d51a77058418aefd34166b4fa4e29c1c3a = true.
Proof. vm_cast_no_check (eq_refl true). Qed.
Lemma xo512_z6 : pw v8_add v8_zero xoshiro512_step v8_wf 0x61352034eceac2b130f99682dd060357d3a10035555ddabd02625dd2f690a078200f08d31c943746fee42cc5f2a047d51a77058418aefd34166b4fa4e29c1c3a 726838724295606890588725814084399013568056387823382584169080752246511603091378769339537499843825263836454776755850775885168074347773953.
Proof. refine (pw_mul v8_add v8_zero xoshiro512_step v8_wf xoshiro512_step_linear 16 phi512 phi512_annihilates _ _ _ _ _ _ xo512_a6 xo512_z7 xo512_z6_c _). vm_cast_no_check (eq_refl 726838724295606890588725814084399013568056387823382584169080752246511603091378769339537499843825263836454776755850775885168074347773953). Qed.
Lemma xo512_i6_c : mul_check 16 phi512 0xd73adc1abb47315653d36037138034380659fc1bf670df168b7c132e2e9a54caa19bce5b0ac1efff3aa09430f5b11e5fdaaa4e1b248e6982e679964d8671676b 0x3517af9cc54ff1e8e2b45a4d9e600b6b86961c72f9a5fb218cc9d7e6ac93bbc4687844448030713cd9b6465382b5bcc6b23d8eb7c6b15c035a771572b6cfeb75 1 = true.
Proof. vm_cast_no_check (eq_refl true). Qed.
Lemma xo512_w6_c : mul_check 16 phi512 0xd73adc1abb47315653d36037138034380659fc1bf670df168b7c132e2e9a54caa19bce5b0ac1efff3aa09430f5b11e5fdaaa4e1b248e6982e679964d8671676b 0x87e71f266e0d7d25aa2ad819d666d7e8bd91e8359186602b0bfed43c6c32ed735c6e8c74d4a726c8a8fc37f3fa9fd5c8986350bf9bd9e3c583de4fcc36d1383c 0x2ec8c0173ec62ad5c125ba0614c54fec14981d74b0d99410a068609ab07bdfca8565d89360555a4353c0f2023ecfd4635b8f46eebd43e77beec3c0db25f38d4 = true.
Proof. vm_cast_no_check (eq_refl true). Qed.
Lemma xo512_w6 : pw v8_add v8_zero xoshiro512_step v8_wf 0x2ec8c0173ec62ad5c125ba0614c54fec14981d74b0d99410a068609ab07bdfca8565d89360555a4353c0f2023ecfd4635b8f46eebd43e77beec3c0db25f38d4 726838724295606890509921801691610055143498307623095356558689689527106077364635040561028680485123622079561121241075102686324128571457535.
Proof. refine (pw_div v8_add v8_zero xoshiro512_step v8_wf xoshiro512_step_linear 16 phi512 phi512_annihilates _ _ _ _ _ _ _ xo512_z7 xo512_a6 xo512_i6_c xo512_w6_c _). vm_cast_no_check (eq_refl 726838724295606890549323807888004534355777347723238970363885220886808840228006904950283090164474442958007948998462939285746101459615744). Qed.
Lemma xo512_y274177_c : pow_check 16 phi512 67280421310721 0x2ec8c0173ec62ad5c125ba0614c54fec14981d74b0d99410a068609ab07bdfca8565d89360555a4353c0f2023ecfd4635b8f46eebd43e77beec3c0db25f38d4 0x6c1d7c630f05f71ad0f6d5d355a511191c2e717dd36ae7cb4a51ab4923e955b9f7bef979e2e0771253ab48058e43fd3b3bc706cd5f4c15137f6e2515f67e9aae = true.
Proof. vm_cast_no_check (eq_refl true). Qed.
Lemma xo512_u274177_c : mul_check 16 phi512 (N.lxor 0x6c1d7c630f05f71ad0f6d5d355a511191c2e717dd36ae7cb4a51ab4923e955b9f7bef979e2e0771253ab48058e43fd3b3bc706cd5f4c15137f6e2515f67e9aae 1) 0x55a63add2b132d6f3a37c8c5885a6dbe4405e39629560ae65cf0ff0e51019b388cdbff693a6b7a4e8f6d0a274eca148eaced458919c5faa5615e7c15794159c8 1 = true.
Proof. vm_cast_no_check (eq_refl true). Qed.
Lemma xo512_y274177 : pw v8_add v8_zero xoshiro512_step v8_wf 0x6c1d7c630f05f71ad0f6d5d355a511191c2e717dd36ae7cb4a51ab4923e955b9f7bef979e2e0771253ab48058e43fd3b3bc706cd5f4c15137f6e2515f67e9aae 48902015595555415295863712121023448821306549493912302555369565805015606816303143505114850254276994159575864708514886554502215294543111092274091732735.
Proof. refine (pw_pow v8_add v8_zero xoshiro512_step v8_wf xoshiro512_step_linear 16 phi512 phi512_annihilates 67280421310721 _ _ _ _ xo512_w6 xo512_y274177_c _). vm_cast_no_check (eq_refl 48902015595555415295863712121023448821306549493912302555369565805015606816303143505114850254276994159575864708514886554502215294543111092274091732735). Qed.
Lemma xo512_cert274177 : exists p u, pw v8_add v8_zero xoshiro512_step v8_wf p ((2 ^ 512 - 1) / Z.to_N 274177) /\ mul_check 16 phi512 (N.lxor p 1) u 1 = true.
Proof.
  assert (E : 48902015595555415295863712121023448821306549493912302555369565805015606816303143505114850254276994159575864708514886554502215294543111092274091732735 = (2 ^ 512 - 1) / Z.to_N 274177) by (vm_cast_no_check (eq_refl 48902015595555415295863712121023448821306549493912302555369565805015606816303143505114850254276994159575864708514886554502215294543111092274091732735)).
  exists 0x6c1d7c630f05f71ad0f6d5d355a511191c2e717dd36ae7cb4a51ab4923e955b9f7bef979e2e0771253ab48058e43fd3b3bc706cd5f4c15137f6e2515f67e9aae, 0x55a63add2b132d6f3a37c8c5885a6dbe4405e39629560ae65cf0ff0e51019b388cdbff693a6b7a4e8f6d0a274eca148eaced458919c5faa5615e7c15794159c8. rewrite <- E. exact (conj xo512_y274177 xo512_u274177_c).
Qed.
Lemma xo512_y67280421310721_c : pow_check 16 phi512 274177 0x2ec8c0173ec62ad5c125ba0614c54fec14981d74b0d99410a068609ab07bdfca8565d89360555a4353c0f2023ecfd4635b8f46eebd43e77beec3c0db25f38d4 0xab7af8db17341b808892a5006e6bb7ff5b8ec436115dd8bcd135920b1f5f6fb2a9ec35234dc9c5efacb11561485f3c4d984c35ebb2950969cbe7d256d80a6346 = true.
Proof. vm_cast_no_check (eq_refl true). Qed.
Lemma xo512_u67280421310721_c : mul_check 16 phi512 (N.lxor 0xab7af8db17341b808892a5006e6bb7ff5b8ec436115dd8bcd135920b1f5f6fb2a9ec35234dc9c5efacb11561485f3c4d984c35ebb2950969cbe7d256d80a6346 1) 0x4b346a608bbd501e294174e57b9c83efd26d937fc3f3c88a5d9023c65eae30e0c5a0de4bf275e7b2d99a3723a4255048542eca26baaec9d938b23aa7aa369cab 1 = true.
Proof. vm_cast_no_check (eq_refl true). Qed.
Lemma xo512_y67280421310721 : pw v8_add v8_zero xoshiro512_step v8_wf 0xab7af8db17341b808892a5006e6bb7ff5b8ec436115dd8bcd135920b1f5f6fb2a9ec35234dc9c5efacb11561485f3c4d984c35ebb2950969cbe7d256d80a6346 199282460911196610419338829822400570089078935489177415575191863005473362973603541515901160529369739330907829538514248429228290599336512573695.
Proof. refine (pw_pow v8_add v8_zero xoshiro512_step v8_wf xoshiro512_step_linear 16 phi512 phi512_annihilates 274177 _ _ _ _ xo512_w6 xo512_y67280421310721_c _). vm_cast_no_check (eq_refl 199282460911196610419338829822400570089078935489177415575191863005473362973603541515901160529369739330907829538514248429228290599336512573695). Qed.
Lemma xo512_cert67280421310721 : exists p u, pw v8_add v8_zero xoshiro512_step v8_wf p ((2 ^ 512 - 1) / Z.to_N 67280421310721) /\ mul_check 16 phi512 (N.lxor p 1) u 1 = true.
Proof.
  assert (E : 199282460911196610419338829822400570089078935489177415575191863005473362973603541515901160529369739330907829538514248429228290599336512573695 = (2 ^ 512 - 1) / Z.to_N 67280421310721) by (vm_cast_no_check (eq_refl 199282460911196610419338829822400570089078935489177415575191863005473362973603541515901160529369739330907829538514248429228290599336512573695)).
  exists 0xab7af8db17341b808892a5006e6bb7ff5b8ec436115dd8bcd135920b1f5f6fb2a9ec35234dc9c5efacb11561485f3c4d984c35ebb2950969cbe7d256d80a6346, 0x4b346a608bbd501e294174e57b9c83efd26d937fc3f3c88a5d9023c65eae30e0c5a0de4bf275e7b2d99a3723a4255048542eca26baaec9d938b23aa7aa369cab. rewrite <- E. exact (conj xo512_y67280421310721 xo512_u67280421310721_c).
Qed.
Lemma xo512_a5_c : sq_check 16 phi512 32 0x61352034eceac2b130f99682dd060357d3a10035555ddabd02625dd2f690a078200f08d31c943746fee42cc5f2a047d51a77058418aefd34166b4fa4e29c1c3a 0x8cb379fb7861698ce87f9a278bcf24f83e21270c6630419c68ad7757eb717e7a418ef570c5ec2a702a7f4aece8992d33f3e7e1135a3a77957cd759c951b8b34d = true.
Proof. vm_cast_no_check (eq_refl true). Qed.
Lemma xo512_a5 : pw v8_add v8_zero xoshiro512_step v8_wf 0x8cb379fb7861698ce87f9a278bcf24f83e21270c6630419c68ad7757eb717e7a418ef570c5ec2a702a7f4aece8992d33f3e7e1135a3a77957cd759c951b8b34d 3121748550315992231550827557803469947089462455985320823102169165281845865362004313862041081594834615716144758749360059083022330786985658535641088.
Proof. refine (pw_sq v8_add v8_zero xoshiro512_step v8_wf xoshiro512_step_linear 16 phi512 phi512_annihilates 32 _ _ _ _ xo512_z6 xo512_a5_c _). vm_cast_no_check (eq_refl 3121748550315992231550827557803469947089462455985320823102169165281845865362004313862041081594834615716144758749360059083022330786985658535641088). Qed.
Lemma xo512_z5_c : mul_check 16 phi512 0x8cb379fb7861698ce87f9a278bcf24f83e21270c6630419c68ad7757eb717e7a418ef570c5ec2a702a7f4aece8992d33f3e7e1135a3a77957cd759c951b8b34d 0x61352034eceac2b130f99682dd060357d3a10035555ddabd02625dd2f690a078200f08d31c943746fee42cc5f2a047d51a77058418aefd34166b4fa4e29c1c3a 0x7a7637aaf89890531bc7082cb25a32c2dab2d9472e1ee5c7119ece4d01254efcf7b4910633a3a65e65357af90ec3140431ac570cf5bb01a0ca57b8e4d2e9be48 = true.
Proof. vm_cast_no_check (eq_refl true). Qed.
Lemma xo512_z5 : pw v8_add v8_zero xoshiro512_step v8_wf 0x7a7637aaf89890531bc7082cb25a32c2dab2d9472e1ee5c7119ece4d01254efcf7b4910633a3a65e65357af90ec3140431ac570cf5bb01a0ca57b8e4d2e9be48 3121748551042830955846434448392195761173861469553377210925551749450926617608515916953419850934372115559970022585814835838873106672153732883415041.
Proof. refine (pw_mul v8_add v8_zero xoshiro512_step v8_wf xoshiro512_step_linear 16 phi512 phi512_annihilates _ _ _ _ _ _ xo512_a5 xo512_z6 xo512_z5_c _). vm_cast_no_check (eq_refl 3121748551042830955846434448392195761173861469553377210925551749450926617608515916953419850934372115559970022585814835838873106672153732883415041). Qed.
Lemma xo512_i5_c : mul_check 16 phi512 0xcad5f6e1ca244ad57394ed044dcbbb90fad219fea7970819af81815f053eb9f6e743a1bb30485a5e81e99990102435b4a236773bf8e787838dc581f4cd8af93f 0x61352034eceac2b130f99682dd060357d3a10035555ddabd02625dd2f690a078200f08d31c943746fee42cc5f2a047d51a77058418aefd34166b4fa4e29c1c3a 1 = true.
Proof. vm_cast_no_check (eq_refl true). Qed.
Lemma xo512_w5_c : mul_check 16 phi512 0xcad5f6e1ca244ad57394ed044dcbbb90fad219fea7970819af81815f053eb9f6e743a1bb30485a5e81e99990102435b4a236773bf8e787838dc581f4cd8af93f 0x8cb379fb7861698ce87f9a278bcf24f83e21270c6630419c68ad7757eb717e7a418ef570c5ec2a702a7f4aece8992d33f3e7e1135a3a77957cd759c951b8b34d 0x1f7328f2afde18fc7d743a16c68ff76b6803d6af8775b705bcfcbc5e095f67b8fadea186438feadc85c1b0a98c3065dca71c132d87d3c0af754a7e1741747b4 = true.
Proof. vm_cast_no_check (eq_refl true). Qed.
Lemma xo512_w5 : pw v8_add v8_zero xoshiro512_step v8_wf 0x1f7328f2afde18fc7d743a16c68ff76b6803d6af8775b705bcfcbc5e095f67b8fadea186438feadc85c1b0a98c3065dca71c132d87d3c0af754a7e1741747b4 3121748549589153507255220667214744133005063442417264435278786581112765113115492710770662312255297115872319494912905282327171554901817584187867135.
Proof. refine (pw_div v8_add v8_zero xoshiro512_step v8_wf xoshiro512_step_linear 16 phi512 phi512_annihilates _ _ _ _ _ _ _ xo512_z6 xo512_a5 xo512_i5_c xo512_w5_c _). vm_cast_no_check (eq_refl 3121748550315992231550827557803469947089462455985320823102169165281845865362004313862041081594834615716144758749360059083022330786985658535641088). Qed.
Lemma xo512_y641_c : pow_check 16 phi512 6700417 0x1f7328f2afde18fc7d743a16c68ff76b6803d6af8775b705bcfcbc5e095f67b8fadea186438feadc85c1b0a98c3065dca71c132d87d3c0af754a7e1741747b4 0x3f11e5554f7d11d9e422f32a35f8c8c5ecc507b7a900a7bc37f1421ca73d020820f2db28669fd54c79d9ab0126a8b49e4167bd27a090b94df8220975194d3ed5 = true.
Proof. vm_cast_no_check (eq_refl true). Qed.
Lemma xo512_u641_c : mul_check 16 phi512 (N.lxor 0x3f11e5554f7d11d9e422f32a35f8c8c5ecc507b7a900a7bc37f1421ca73d020820f2db28669fd54c79d9ab0126a8b49e4167bd27a090b94df8220975194d3ed5 1) 0x10be4c8950f0b1a74352c247e3e941e46ed58a51498a07de9cf5dac219e7e33cff7b7cd2af8c57fab239b61381930685c9ed5da3e9d8130c22631de7f894d1bb 1 = true.
Proof. vm_cast_no_check (eq_refl true). Qed.
Lemma xo512_y641 : pw v8_add v8_zero xoshiro512_step v8_wf 0x3f11e5554f7d11d9e422f32a35f8c8c5ecc507b7a900a7bc37f1421ca73d020820f2db28669fd54c79d9ab0126a8b49e4167bd27a090b94df8220975194d3ed5 20917017051392507175622503897357014239437388175651159715637381347459850280925970322623828858294701135241859373145844073094779848380571871991316145095295.
Proof. refine (pw_pow v8_add v8_zero xoshiro512_step v8_wf xoshiro512_step_linear 16 phi512 phi512_annihilates 6700417 _ _ _ _ xo512_w5 xo512_y641_c _). vm_cast_no_check (eq_refl 20917017051392507175622503897357014239437388175651159715637381347459850280925970322623828858294701135241859373145844073094779848380571871991316145095295). Qed.
Lemma xo512_cert641 : exists p u, pw v8_add v8_zero xoshiro512_step v8_wf p ((2 ^ 512 - 1) / Z.to_N 641) /\ mul_check 16 phi512 (N.lxor p 1) u 1 = true.
Proof.
  assert (E : 20917017051392507175622503897357014239437388175651159715637381347459850280925970322623828858294701135241859373145844073094779848380571871991316145095295 = (2 ^ 512 - 1) / Z.to_N 641) by (vm_cast_no_check (eq_refl 20917017051392507175622503897357014239437388175651159715637381347459850280925970322623828858294701135241859373145844073094779848380571871991316145095295)).
  exists 0x3f11e5554f7d11d9e422f32a35f8c8c5ecc507b7a900a7bc37f1421ca73d020820f2db28669fd54c79d9ab0126a8b49e4167bd27a090b94df8220975194d3ed5, 0x10be4c8950f0b1a74352c247e3e941e46ed58a51498a07de9cf5dac219e7e33cff7b7cd2af8c57fab239b61381930685c9ed5da3e9d8130c22631de7f894d1bb. rewrite <- E. exact (conj xo512_y641 xo512_u641_c).
Qed.
Lemma xo512_y6700417_c : pow_check 16 phi512 641 0x1f7328f2afde18fc7d743a16c68ff76b6803d6af8775b705bcfcbc5e095f67b8fadea186438feadc85c1b0a98c3065dca71c132d87d3c0af754a7e1741747b4 0xbf89549bfab98a37114d83ad04e9fb57f47bb5f4e911c4a507efdc6074652d176aba8621e7e1d0fd1e5e0c4affd802f3fd29f0a6dfb5c5407d1bb929c371767a = true.
Proof. vm_cast_no_check (eq_refl true). Qed.
Lemma xo512_u6700417_c : mul_check 16 phi512 (N.lxor 0xbf89549bfab98a37114d83ad04e9fb57f47bb5f4e911c4a507efdc6074652d176aba8621e7e1d0fd1e5e0c4affd802f3fd29f0a6dfb5c5407d1bb929c371767a 1) 0x4f35060f7554687f6e42f445131368c2b0a631c958e54110449dd7b41a70c7c79040b2d08cc081fad7b6efba6e2a9bccb47453ea872c09556a6f07704308c3df 1 = true.
Proof. vm_cast_no_check (eq_refl true). Qed.
Lemma xo512_y6700417 : pw v8_add v8_zero xoshiro512_step v8_wf 0xbf89549bfab98a37114d83ad04e9fb57f47bb5f4e911c4a507efdc6074652d176aba8621e7e1d0fd1e5e0c4affd802f3fd29f0a6dfb5c5407d1bb929c371767a 2001040820286647398150596447684650989256245666589466503013702198493282437507030827603994542155645451274156796239172285971716966692065071464422833535.
Proof. refine (pw_pow v8_add v8_zero xoshiro512_step v8_wf xoshiro512_step_linear 16 phi512 phi512_annihilates 641 _ _ _ _ xo512_w5 xo512_y6700417_c _). vm_cast_no_check (eq_refl 2001040820286647398150596447684650989256245666589466503013702198493282437507030827603994542155645451274156796239172285971716966692065071464422833535). Qed.
Lemma xo512_cert6700417 : exists p u, pw v8_add v8_zero xoshiro512_step v8_wf p ((2 ^ 512 - 1) / Z.to_N 6700417) /\ mul_check 16 phi512 (N.lxor p 1) u 1 = true.
Proof.
  assert (E : 2001040820286647398150596447684650989256245666589466503013702198493282437507030827603994542155645451274156796239172285971716966692065071464422833535 = (2 ^ 512 - 1) / Z.to_N 6700417) by (vm_cast_no_check (eq_refl 2001040820286647398150596447684650989256245666589466503013702198493282437507030827603994542155645451274156796239172285971716966692065071464422833535)).
  exists 0xbf89549bfab98a37114d83ad04e9fb57f47bb5f4e911c4a507efdc6074652d176aba8621e7e1d0fd1e5e0c4affd802f3fd29f0a6dfb5c5407d1bb929c371767a, 0x4f35060f7554687f6e42f445131368c2b0a631c958e54110449dd7b41a70c7c79040b2d08cc081fad7b6efba6e2a9bccb47453ea872c09556a6f07704308c3df. rewrite <- E. exact (conj xo512_y6700417 xo512_u6700417_c).
Qed.
Lemma xo512_a4_c : sq_check 16 phi512 16 0x7a7637aaf89890531bc7082cb25a32c2dab2d9472e1ee5c7119ece4d01254efcf7b4910633a3a65e65357af90ec3140431ac570cf5bb01a0ca57b8e4d2e9be48 0xd4e07118aea9b7521eb59f60000ebe6e3053705b52d9ef91026406fb8d1e5a8305899ca7b14f6507ec2afbe9cbf2cb7c32e4176b05f0fdb4e190f1ced47f9db7 = true.
Proof. vm_cast_no_check (eq_refl true). Qed.
Lemma xo512_a4 : pw v8_add v8_zero xoshiro512_step v8_wf 0xd4e07118aea9b7521eb59f60000ebe6e3053705b52d9ef91026406fb8d1e5a8305899ca7b14f6507ec2afbe9cbf2cb7c32e4176b05f0fdb4e190f1ced47f9db7 204586913041142969522351928009830941404290185268650128895216959452015926811591699133459323350835010965338195400183961081536387918866267038247488126976.
Proof. refine (pw_sq v8_add v8_zero xoshiro512_step v8_wf xoshiro512_step_linear 16 phi512 phi512_annihilates 16 _ _ _ _ xo512_z5 xo512_a4_c _). vm_cast_no_check (eq_refl 204586913041142969522351928009830941404290185268650128895216959452015926811591699133459323350835010965338195400183961081536387918866267038247488126976). Qed.
Lemma xo512_z4_c : mul_check 16 phi512 0xd4e07118aea9b7521eb59f60000ebe6e3053705b52d9ef91026406fb8d1e5a8305899ca7b14f6507ec2afbe9cbf2cb7c32e4176b05f0fdb4e190f1ced47f9db7 0x7a7637aaf89890531bc7082cb25a32c2dab2d9472e1ee5c7119ece4d01254efcf7b4910633a3a65e65357af90ec3140431ac570cf5bb01a0ca57b8e4d2e9be48 0xc1b8b497a00bb0ee4101a8c5e5de98ec3d0b712c293215b80214deadd454f406853b914bce05154af0b6a95a8b9770cbf697031c80c0051c32eff5c65785e70 = true.
Proof. vm_cast_no_check (eq_refl true). Qed.
Lemma xo512_z4 : pw v8_add v8_zero xoshiro512_step v8_wf 0xc1b8b497a00bb0ee4101a8c5e5de98ec3d0b712c293215b80214deadd454f406853b914bce05154af0b6a95a8b9770cbf697031c80c0051c32eff5c65785e70 204590034789694012353307774444279333600051359130119682272427885003765377738209307649376276770685945337453755370206546896372226791972939191980371542017.
Proof. refine (pw_mul v8_add v8_zero xoshiro512_step v8_wf xoshiro512_step_linear 16 phi512 phi512_annihilates _ _ _ _ _ _ xo512_a4 xo512_z5 xo512_z4_c _). vm_cast_no_check (eq_refl 204590034789694012353307774444279333600051359130119682272427885003765377738209307649376276770685945337453755370206546896372226791972939191980371542017). Qed.
Lemma xo512_i4_c : mul_check 16 phi512 0x33120ed16456d6f9fd64fa79019c424fa3e54e235c995a961a41a1067b0e4552abffd842529a7272e1f100016bac0d0bcb2e7fb2afc025107b6ee003e704a38c 0x7a7637aaf89890531bc7082cb25a32c2dab2d9472e1ee5c7119ece4d01254efcf7b4910633a3a65e65357af90ec3140431ac570cf5bb01a0ca57b8e4d2e9be48 1 = true.
Proof. vm_cast_no_check (eq_refl true). Qed.
Lemma xo512_w4_c : mul_check 16 phi512 0x33120ed16456d6f9fd64fa79019c424fa3e54e235c995a961a41a1067b0e4552abffd842529a7272e1f100016bac0d0bcb2e7fb2afc025107b6ee003e704a38c 0xd4e07118aea9b7521eb59f60000ebe6e3053705b52d9ef91026406fb8d1e5a8305899ca7b14f6507ec2afbe9cbf2cb7c32e4176b05f0fdb4e190f1ced47f9db7 0x70b4e6b3991187c4819046dde242364e8697d5258ee80b04e9788b97d7d9274acae0aad864bfd07dcdb45e0675592dae29816a894a6d5ae5b97d5ef24d1adc0a = true.
Proof. vm_cast_no_check (eq_refl true). Qed.
Lemma xo512_w4 : pw v8_add v8_zero xoshiro512_step v8_wf 0x70b4e6b3991187c4819046dde242364e8697d5258ee80b04e9788b97d7d9274acae0aad864bfd07dcdb45e0675592dae29816a894a6d5ae5b97d5ef24d1adc0a 204583791292591926691396081575382549208529011407180575518006033900266475884974090617542369930984076593222635430161375266700549045759594884514604711935.
Proof. refine (pw_div v8_add v8_zero xoshiro512_step v8_wf xoshiro512_step_linear 16 phi512 phi512_annihilates _ _ _ _ _ _ _ xo512_z5 xo512_a4 xo512_i4_c xo512_w4_c _). vm_cast_no_check (eq_refl 204586913041142969522351928009830941404290185268650128895216959452015926811591699133459323350835010965338195400183961081536387918866267038247488126976). Qed.
Lemma xo512_y65537_c : pow_check 16 phi512 1 0x70b4e6b3991187c4819046dde242364e8697d5258ee80b04e9788b97d7d9274acae0aad864bfd07dcdb45e0675592dae29816a894a6d5ae5b97d5ef24d1adc0a 0x70b4e6b3991187c4819046dde242364e8697d5258ee80b04e9788b97d7d9274acae0aad864bfd07dcdb45e0675592dae29816a894a6d5ae5b97d5ef24d1adc0a = true.
Proof. vm_cast_no_check (eq_refl true). Qed.
Lemma xo512_u65537_c : mul_check 16 phi512 (N.lxor 0x70b4e6b3991187c4819046dde242364e8697d5258ee80b04e9788b97d7d9274acae0aad864bfd07dcdb45e0675592dae29816a894a6d5ae5b97d5ef24d1adc0a 1) 0x854c943acd8587903b9133eb22200051743934e55e67efc8a2866aea4c0f0dd25da5a71064f4d8692c2d7f846964b3a75e7ac8f06d02572b45fab5c40ac526e9 1 = true.
Proof. vm_cast_no_check (eq_refl true). Qed.
Lemma xo512_y65537 : pw v8_add v8_zero xoshiro512_step v8_wf 0x70b4e6b3991187c4819046dde242364e8697d5258ee80b04e9788b97d7d9274acae0aad864bfd07dcdb45e0675592dae29816a894a6d5ae5b97d5ef24d1adc0a 204583791292591926691396081575382549208529011407180575518006033900266475884974090617542369930984076593222635430161375266700549045759594884514604711935.
Proof. refine (pw_pow v8_add v8_zero xoshiro512_step v8_wf xoshiro512_step_linear 16 phi512 phi512_annihilates 1 _ _ _ _ xo512_w4 xo512_y65537_c _). vm_cast_no_check (eq_refl 204583791292591926691396081575382549208529011407180575518006033900266475884974090617542369930984076593222635430161375266700549045759594884514604711935). Qed.
Lemma xo512_cert65537 : exists p u, pw v8_add v8_zero xoshiro512_step v8_wf p ((2 ^ 512 - 1) / Z.to_N 65537) /\ mul_check 16 phi512 (N.lxor p 1) u 1 = true.
Proof.
  assert (E : 204583791292591926691396081575382549208529011407180575518006033900266475884974090617542369930984076593222635430161375266700549045759594884514604711935 = (2 ^ 512 - 1) / Z.to_N 65537) by (vm_cast_no_check (eq_refl 204583791292591926691396081575382549208529011407180575518006033900266475884974090617542369930984076593222635430161375266700549045759594884514604711935)).
  exists 0x70b4e6b3991187c4819046dde242364e8697d5258ee80b04e9788b97d7d9274acae0aad864bfd07dcdb45e0675592dae29816a894a6d5ae5b97d5ef24d1adc0a, 0x854c943acd8587903b9133eb22200051743934e55e67efc8a2866aea4c0f0dd25da5a71064f4d8692c2d7f846964b3a75e7ac8f06d02572b45fab5c40ac526e9. rewrite <- E. exact (conj xo512_y65537 xo512_u65537_c).
Qed.
Lemma xo512_a3_c : sq_check 16 phi512 8 0xc1b8b497a00bb0ee4101a8c5e5de98ec3d0b712c293215b80214deadd454f406853b914bce05154af0b6a95a8b9770cbf697031c80c0051c32eff5c65785e70 0x648d1d142e59a07ae79853b4d71b9ec26fcd29ccef632cdb10a219c0d81b2ac04896bab65e72de913bd634752e8ca38f2f81e2bb11678451786543457d22bd23 = true.
Proof. vm_cast_no_check (eq_refl true). Qed.
Lemma xo512_a3 : pw v8_add v8_zero xoshiro512_step v8_wf 0x648d1d142e59a07ae79853b4d71b9ec26fcd29ccef632cdb10a219c0d81b2ac04896bab65e72de913bd634752e8ca38f2f81e2bb11678451786543457d22bd23 52375048906161667162446790257735509401613147937310638661741538560963936700981582758240326853295602006388161374772876005471290058745072433146975114756352.
Proof. refine (pw_sq v8_add v8_zero xoshiro512_step v8_wf xoshiro512_step_linear 16 phi512 phi512_annihilates 8 _ _ _ _ xo512_z4 xo512_a3_c _). vm_cast_no_check (eq_refl 52375048906161667162446790257735509401613147937310638661741538560963936700981582758240326853295602006388161374772876005471290058745072433146975114756352). Qed.
Lemma xo512_z3_c : mul_check 16 phi512 0x648d1d142e59a07ae79853b4d71b9ec26fcd29ccef632cdb10a219c0d81b2ac04896bab65e72de913bd634752e8ca38f2f81e2bb11678451786543457d22bd23 0xc1b8b497a00bb0ee4101a8c5e5de98ec3d0b712c293215b80214deadd454f406853b914bce05154af0b6a95a8b9770cbf697031c80c0051c32eff5c65785e70 0x64c1beb743d9e71c0746d35ee9f74c3fcd41d9459955e89fadecaa3c6dfd11bed6f216c04c796c595c2927e54960c5a37155c052e000a2ec6d3bbac7dac5c89 = true.
Proof. vm_cast_no_check (eq_refl true). Qed.
Lemma xo512_z3 : pw v8_add v8_zero xoshiro512_step v8_wf 0x64c1beb743d9e71c0746d35ee9f74c3fcd41d9459955e89fadecaa3c6dfd11bed6f216c04c796c595c2927e54960c5a37155c052e000a2ec6d3bbac7dac5c89 52579638940951361174800098032179788735213199296440758344013966445967702078719792065889703130066287951725615130143082552367662285537045372338955486298369.
Proof. refine (pw_mul v8_add v8_zero xoshiro512_step v8_wf xoshiro512_step_linear 16 phi512 phi512_annihilates _ _ _ _ _ _ xo512_a3 xo512_z4 xo512_z3_c _). vm_cast_no_check (eq_refl 52579638940951361174800098032179788735213199296440758344013966445967702078719792065889703130066287951725615130143082552367662285537045372338955486298369). Qed.
Lemma xo512_i3_c : mul_check 16 phi512 0xd7ed711a4c94578389ff4502dacefc68034c6a81694a9c86c3ef0ee3e4f21222c46c27dc46c9d459d0b8c9237ae9a58671271f3a9d616c0053c7a3dbf494fd8 0xc1b8b497a00bb0ee4101a8c5e5de98ec3d0b712c293215b80214deadd454f406853b914bce05154af0b6a95a8b9770cbf697031c80c0051c32eff5c65785e70 1 = true.
Proof. vm_cast_no_check (eq_refl true). Qed.
Lemma xo512_w3_c : mul_check 16 phi512 0xd7ed711a4c94578389ff4502dacefc68034c6a81694a9c86c3ef0ee3e4f21222c46c27dc46c9d459d0b8c9237ae9a58671271f3a9d616c0053c7a3dbf494fd8 0x648d1d142e59a07ae79853b4d71b9ec26fcd29ccef632cdb10a219c0d81b2ac04896bab65e72de913bd634752e8ca38f2f81e2bb11678451786543457d22bd23 0x80f6af4863a23bc897b72761f58d89db40e347b42611ebd6eeb26dfa8626d2b0da4dab387b7803ab3dd71e74da453557fbe6b8dd54ffded5c34920b57518d150 = true.
Proof. vm_cast_no_check (eq_refl true). Qed.
Lemma xo512_w3 : pw v8_add v8_zero xoshiro512_step v8_wf 0x80f6af4863a23bc897b72761f58d89db40e347b42611ebd6eeb26dfa8626d2b0da4dab387b7803ab3dd71e74da453557fbe6b8dd54ffded5c34920b57518d150 52170458871371973150093482483291230068013096578180518979469110675960171323243373450590950576524916061050707619402669458574917831953099493954994743214335.
Proof. refine (pw_div v8_add v8_zero xoshiro512_step v8_wf xoshiro512_step_linear 16 phi512 phi512_annihilates _ _ _ _ _ _ _ xo512_z4 xo512_a3 xo512_i3_c xo512_w3_c _). vm_cast_no_check (eq_refl 52375048906161667162446790257735509401613147937310638661741538560963936700981582758240326853295602006388161374772876005471290058745072433146975114756352). Qed.
Lemma xo512_y257_c : pow_check 16 phi512 1 0x80f6af4863a23bc897b72761f58d89db40e347b42611ebd6eeb26dfa8626d2b0da4dab387b7803ab3dd71e74da453557fbe6b8dd54ffded5c34920b57518d150 0x80f6af4863a23bc897b72761f58d89db40e347b42611ebd6eeb26dfa8626d2b0da4dab387b7803ab3dd71e74da453557fbe6b8dd54ffded5c34920b57518d150 = true.
Proof. vm_cast_no_check (eq_refl true). Qed.
Lemma xo512_u257_c : mul_check 16 phi512 (N.lxor 0x80f6af4863a23bc897b72761f58d89db40e347b42611ebd6eeb26dfa8626d2b0da4dab387b7803ab3dd71e74da453557fbe6b8dd54ffded5c34920b57518d150 1) 0x7ee9f5c378ee364248f9f0db666f1af23ceac94a658081d9de7dfdde195fc6121fb4844ea01851f32f9cdef6f6992d7af4ad7e11bc666b1eb57844648e6033a4 1 = true.
Proof. vm_cast_no_check (eq_refl true). Qed.
Lemma xo512_y257 : pw v8_add v8_zero xoshiro512_step v8_wf 0x80f6af4863a23bc897b72761f58d89db40e347b42611ebd6eeb26dfa8626d2b0da4dab387b7803ab3dd71e74da453557fbe6b8dd54ffded5c34920b57518d150 52170458871371973150093482483291230068013096578180518979469110675960171323243373450590950576524916061050707619402669458574917831953099493954994743214335.
Proof. refine (pw_pow v8_add v8_zero xoshiro512_step v8_wf xoshiro512_step_linear 16 phi512 phi512_annihilates 1 _ _ _ _ xo512_w3 xo512_y257_c _). vm_cast_no_check (eq_refl 52170458871371973150093482483291230068013096578180518979469110675960171323243373450590950576524916061050707619402669458574917831953099493954994743214335). Qed.
Lemma xo512_cert257 : exists p u, pw v8_add v8_zero xoshiro512_step v8_wf p ((2 ^ 512 - 1) / Z.to_N 257) /\ mul_check 16 phi512 (N.lxor p 1) u 1 = true.
Proof.
  assert (E : 52170458871371973150093482483291230068013096578180518979469110675960171323243373450590950576524916061050707619402669458574917831953099493954994743214335 = (2 ^ 512 - 1) / Z.to_N 257) by (vm_cast_no_check (eq_refl 52170458871371973150093482483291230068013096578180518979469110675960171323243373450590950576524916061050707619402669458574917831953099493954994743214335)).
  exists 0x80f6af4863a23bc897b72761f58d89db40e347b42611ebd6eeb26dfa8626d2b0da4dab387b7803ab3dd71e74da453557fbe6b8dd54ffded5c34920b57518d150, 0x7ee9f5c378ee364248f9f0db666f1af23ceac94a658081d9de7dfdde195fc6121fb4844ea01851f32f9cdef6f6992d7af4ad7e11bc666b1eb57844648e6033a4. rewrite <- E. exact (conj xo512_y257 xo512_u257_c).
Qed.
Lemma xo512_a2_c : sq_check 16 phi512 4 0x64c1beb743d9e71c0746d35ee9f74c3fcd41d9459955e89fadecaa3c6dfd11bed6f216c04c796c595c2927e54960c5a37155c052e000a2ec6d3bbac7dac5c89 0x800c4505a0b37096f0bf56b11ab946bcd8c5e67650bcab9430fa09e2f3cd0f3e678e76ec62d503b425b447f519968094a0de51f2839dd11015e9cfa4442a9861 = true.
Proof. vm_cast_no_check (eq_refl true). Qed.
Lemma xo512_a2 : pw v8_add v8_zero xoshiro512_step v8_wf 0x800c4505a0b37096f0bf56b11ab946bcd8c5e67650bcab9430fa09e2f3cd0f3e678e76ec62d503b425b447f519968094a0de51f2839dd11015e9cfa4442a9861 841274223055221778796801568514876619763411188743052133504223463135483233259516673054235250081060607227609842082289320837882596568592725957423287780773904.
Proof. refine (pw_sq v8_add v8_zero xoshiro512_step v8_wf xoshiro512_step_linear 16 phi512 phi512_annihilates 4 _ _ _ _ xo512_z3 xo512_a2_c _). vm_cast_no_check (eq_refl 841274223055221778796801568514876619763411188743052133504223463135483233259516673054235250081060607227609842082289320837882596568592725957423287780773904). Qed.
Lemma xo512_z2_c : mul_check 16 phi512 0x800c4505a0b37096f0bf56b11ab946bcd8c5e67650bcab9430fa09e2f3cd0f3e678e76ec62d503b425b447f519968094a0de51f2839dd11015e9cfa4442a9861 0x64c1beb743d9e71c0746d35ee9f74c3fcd41d9459955e89fadecaa3c6dfd11bed6f216c04c796c595c2927e54960c5a37155c052e000a2ec6d3bbac7dac5c89 0x61f4573a4dc5725a727b77c10a6d5906f58bb03346bea5c763f8e73368be29e86df5576a3217bc9179869417c0630637bc8ba49c267f70e49ef39013a4bb1256 = true.
Proof. vm_cast_no_check (eq_refl true). Qed.
Lemma xo512_z2 : pw v8_add v8_zero xoshiro512_step v8_wf 0x61f4573a4dc5725a727b77c10a6d5906f58bb03346bea5c763f8e73368be29e86df5576a3217bc9179869417c0630637bc8ba49c267f70e49ef39013a4bb1256 893853861996173139971601666547056408498624388039492891848237429581450935338236465120124953211126895179335457212432403390250258854129771329762243267072273.
Proof. refine (pw_mul v8_add v8_zero xoshiro512_step v8_wf xoshiro512_step_linear 16 phi512 phi512_annihilates _ _ _ _ _ _ xo512_a2 xo512_z3 xo512_z2_c _). vm_cast_no_check (eq_refl 893853861996173139971601666547056408498624388039492891848237429581450935338236465120124953211126895179335457212432403390250258854129771329762243267072273). Qed.
Lemma xo512_i2_c : mul_check 16 phi512 0x8b628da60b423155db773f743e146f4628bd1c5d7f42ff0570b3e1a96d0beeb3c63fb4f495cad91c32f1ef486b23730d57961bb9d7b7542992c53d2dbf9e45cc 0x64c1beb743d9e71c0746d35ee9f74c3fcd41d9459955e89fadecaa3c6dfd11bed6f216c04c796c595c2927e54960c5a37155c052e000a2ec6d3bbac7dac5c89 1 = true.
Proof. vm_cast_no_check (eq_refl true). Qed.
Lemma xo512_w2_c : mul_check 16 phi512 0x8b628da60b423155db773f743e146f4628bd1c5d7f42ff0570b3e1a96d0beeb3c63fb4f495cad91c32f1ef486b23730d57961bb9d7b7542992c53d2dbf9e45cc 0x800c4505a0b37096f0bf56b11ab946bcd8c5e67650bcab9430fa09e2f3cd0f3e678e76ec62d503b425b447f519968094a0de51f2839dd11015e9cfa4442a9861 0xb36e00bd7fac79d0383419a997bf1d32e533395b8f2db79d6f076bd64711678cba9304e9f6718ff327a896f8f81476f37d9814abe523ebfc38cbef5988946dc4 = true.
Proof. vm_cast_no_check (eq_refl true). Qed.
Lemma xo512_w2 : pw v8_add v8_zero xoshiro512_step v8_wf 0xb36e00bd7fac79d0383419a997bf1d32e533395b8f2db79d6f076bd64711678cba9304e9f6718ff327a896f8f81476f37d9814abe523ebfc38cbef5988946dc4 788694584114270417622001470482696831028197989446611375160209496689515531180796880988345546950994319275884226952146238285514934283055680585084332294475535.
Proof. refine (pw_div v8_add v8_zero xoshiro512_step v8_wf xoshiro512_step_linear 16 phi512 phi512_annihilates _ _ _ _ _ _ _ xo512_z3 xo512_a2 xo512_i2_c xo512_w2_c _). vm_cast_no_check (eq_refl 841274223055221778796801568514876619763411188743052133504223463135483233259516673054235250081060607227609842082289320837882596568592725957423287780773904). Qed.
Lemma xo512_y17_c : pow_check 16 phi512 1 0xb36e00bd7fac79d0383419a997bf1d32e533395b8f2db79d6f076bd64711678cba9304e9f6718ff327a896f8f81476f37d9814abe523ebfc38cbef5988946dc4 0xb36e00bd7fac79d0383419a997bf1d32e533395b8f2db79d6f076bd64711678cba9304e9f6718ff327a896f8f81476f37d9814abe523ebfc38cbef5988946dc4 = true.
Proof. vm_cast_no_check (eq_refl true). Qed.
Lemma xo512_u17_c : mul_check 16 phi512 (N.lxor 0xb36e00bd7fac79d0383419a997bf1d32e533395b8f2db79d6f076bd64711678cba9304e9f6718ff327a896f8f81476f37d9814abe523ebfc38cbef5988946dc4 1) 0xf0f7d190f1886fa563015dd750063b505702b37b6a70356f136c5b63dd335da26d988885ff153e12ebbd18dec81e9fc1bb9a1119b166a82e00ef6372880c572 1 = true.
Proof. vm_cast_no_check (eq_refl true). Qed.
Lemma xo512_y17 : pw v8_add v8_zero xoshiro512_step v8_wf 0xb36e00bd7fac79d0383419a997bf1d32e533395b8f2db79d6f076bd64711678cba9304e9f6718ff327a896f8f81476f37d9814abe523ebfc38cbef5988946dc4 788694584114270417622001470482696831028197989446611375160209496689515531180796880988345546950994319275884226952146238285514934283055680585084332294475535.
Proof. refine (pw_pow v8_add v8_zero xoshiro512_step v8_wf xoshiro512_step_linear 16 phi512 phi512_annihilates 1 _ _ _ _ xo512_w2 xo512_y17_c _). vm_cast_no_check (eq_refl 788694584114270417622001470482696831028197989446611375160209496689515531180796880988345546950994319275884226952146238285514934283055680585084332294475535). Qed.
Lemma xo512_cert17 : exists p u, pw v8_add v8_zero xoshiro512_step v8_wf p ((2 ^ 512 - 1) / Z.to_N 17) /\ mul_check 16 phi512 (N.lxor p 1) u 1 = true.
Proof.
  assert (E : 788694584114270417622001470482696831028197989446611375160209496689515531180796880988345546950994319275884226952146238285514934283055680585084332294475535 = (2 ^ 512 - 1) / Z.to_N 17) by (vm_cast_no_check (eq_refl 788694584114270417622001470482696831028197989446611375160209496689515531180796880988345546950994319275884226952146238285514934283055680585084332294475535)).
  exists 0xb36e00bd7fac79d0383419a997bf1d32e533395b8f2db79d6f076bd64711678cba9304e9f6718ff327a896f8f81476f37d9814abe523ebfc38cbef5988946dc4, 0xf0f7d190f1886fa563015dd750063b505702b37b6a70356f136c5b63dd335da26d988885ff153e12ebbd18dec81e9fc1bb9a1119b166a82e00ef6372880c572. rewrite <- E. exact (conj xo512_y17 xo512_u17_c).
Qed.
Lemma xo512_a1_c : sq_check 16 phi512 2 0x61f4573a4dc5725a727b77c10a6d5906f58bb03346bea5c763f8e73368be29e86df5576a3217bc9179869417c0630637bc8ba49c267f70e49ef39013a4bb1256 0x8b432a3369fb40f03cc0796526a0567a888f0413fb3e0a9d88205da5fbe7461a40b949d81e792f6c64d3664c9562441f5759d0bb9db5c06191a05cbc56532d33 = true.
Proof. vm_cast_no_check (eq_refl true). Qed.
Lemma xo512_a1 : pw v8_add v8_zero xoshiro512_step v8_wf 0x8b432a3369fb40f03cc0796526a0567a888f0413fb3e0a9d88205da5fbe7461a40b949d81e792f6c64d3664c9562441f5759d0bb9db5c06191a05cbc56532d33 3575415447984692559886406666188225633994497552157971567392949718325803741352945860480499812844507580717341828849729613561001035416519085319048973068289092.
Proof. refine (pw_sq v8_add v8_zero xoshiro512_step v8_wf xoshiro512_step_linear 16 phi512 phi512_annihilates 2 _ _ _ _ xo512_z2 xo512_a1_c _). vm_cast_no_check (eq_refl 3575415447984692559886406666188225633994497552157971567392949718325803741352945860480499812844507580717341828849729613561001035416519085319048973068289092). Qed.
Lemma xo512_z1_c : mul_check 16 phi512 0x8b432a3369fb40f03cc0796526a0567a888f0413fb3e0a9d88205da5fbe7461a40b949d81e792f6c64d3664c9562441f5759d0bb9db5c06191a05cbc56532d33 0x61f4573a4dc5725a727b77c10a6d5906f58bb03346bea5c763f8e73368be29e86df5576a3217bc9179869417c0630637bc8ba49c267f70e49ef39013a4bb1256 0xeab77d09243e32aa4ebb0ea42ccd0f7c7d04b420bd80af5aebd8ba9693596ff22d4c1eb22c6e93fd1d55f25b55014228ebd27427bbcab0850f53ccaff2e83f65 = true.
Proof. vm_cast_no_check (eq_refl true). Qed.
Lemma xo512_z1 : pw v8_add v8_zero xoshiro512_step v8_wf 0xeab77d09243e32aa4ebb0ea42ccd0f7c7d04b420bd80af5aebd8ba9693596ff22d4c1eb22c6e93fd1d55f25b55014228ebd27427bbcab0850f53ccaff2e83f65 4469269309980865699858008332735282042493121940197464459241187147907254676691182325600624766055634475896677286062162016951251294270648856648811216335361365.
Proof. refine (pw_mul v8_add v8_zero xoshiro512_step v8_wf xoshiro512_step_linear 16 phi512 phi512_annihilates _ _ _ _ _ _ xo512_a1 xo512_z2 xo512_z1_c _). vm_cast_no_check (eq_refl 4469269309980865699858008332735282042493121940197464459241187147907254676691182325600624766055634475896677286062162016951251294270648856648811216335361365). Qed.
Lemma xo512_i1_c : mul_check 16 phi512 0x86405eeed48eeee730cb3b84f426327f2411fbe20929f51dca24c3413512de258ae1578066129571b076d58b4d008cce97cb0df7ad9ddb3ed33a74083986c4e9 0x61f4573a4dc5725a727b77c10a6d5906f58bb03346bea5c763f8e73368be29e86df5576a3217bc9179869417c0630637bc8ba49c267f70e49ef39013a4bb1256 1 = true.
Proof. vm_cast_no_check (eq_refl true). Qed.
Lemma xo512_w1_c : mul_check 16 phi512 0x86405eeed48eeee730cb3b84f426327f2411fbe20929f51dca24c3413512de258ae1578066129571b076d58b4d008cce97cb0df7ad9ddb3ed33a74083986c4e9 0x8b432a3369fb40f03cc0796526a0567a888f0413fb3e0a9d88205da5fbe7461a40b949d81e792f6c64d3664c9562441f5759d0bb9db5c06191a05cbc56532d33 0x8b432a3369fb40f03cc0796526a0567a888f0413fb3e0a9d88205da5fbe7461a40b949d81e792f6c64d3664c9562441f5759d0bb9db5c06191a05cbc56532d32 = true.
Proof. vm_cast_no_check (eq_refl true). Qed.
Lemma xo512_w1 : pw v8_add v8_zero xoshiro512_step v8_wf 0x8b432a3369fb40f03cc0796526a0567a888f0413fb3e0a9d88205da5fbe7461a40b949d81e792f6c64d3664c9562441f5759d0bb9db5c06191a05cbc56532d32 2681561585988519419914804999641169225495873164118478675544712288744352806014709395360374859633380685538006371637297210170750776562389313989286729801216819.
Proof. refine (pw_div v8_add v8_zero xoshiro512_step v8_wf xoshiro512_step_linear 16 phi512 phi512_annihilates _ _ _ _ _ _ _ xo512_z2 xo512_a1 xo512_i1_c xo512_w1_c _). vm_cast_no_check (eq_refl 3575415447984692559886406666188225633994497552157971567392949718325803741352945860480499812844507580717341828849729613561001035416519085319048973068289092). Qed.
Lemma xo512_y5_c : pow_check 16 phi512 1 0x8b432a3369fb40f03cc0796526a0567a888f0413fb3e0a9d88205da5fbe7461a40b949d81e792f6c64d3664c9562441f5759d0bb9db5c06191a05cbc56532d32 0x8b432a3369fb40f03cc0796526a0567a888f0413fb3e0a9d88205da5fbe7461a40b949d81e792f6c64d3664c9562441f5759d0bb9db5c06191a05cbc56532d32 = true.
Proof. vm_cast_no_check (eq_refl true). Qed.
Lemma xo512_u5_c : mul_check 16 phi512 (N.lxor 0x8b432a3369fb40f03cc0796526a0567a888f0413fb3e0a9d88205da5fbe7461a40b949d81e792f6c64d3664c9562441f5759d0bb9db5c06191a05cbc56532d32 1) 0x86405eeed48eeee730cb3b84f426327f2411fbe20929f51dca24c3413512de258ae1578066129571b076d58b4d008cce97cb0df7ad9ddb3ed33a74083986c4e8 1 = true.
Proof. vm_cast_no_check (eq_refl true). Qed.
Lemma xo512_y5 : pw v8_add v8_zero xoshiro512_step v8_wf 0x8b432a3369fb40f03cc0796526a0567a888f0413fb3e0a9d88205da5fbe7461a40b949d81e792f6c64d3664c9562441f5759d0bb9db5c06191a05cbc56532d32 2681561585988519419914804999641169225495873164118478675544712288744352806014709395360374859633380685538006371637297210170750776562389313989286729801216819.
Proof. refine (pw_pow v8_add v8_zero xoshiro512_step v8_wf xoshiro512_step_linear 16 phi512 phi512_annihilates 1 _ _ _ _ xo512_w1 xo512_y5_c _). vm_cast_no_check (eq_refl 2681561585988519419914804999641169225495873164118478675544712288744352806014709395360374859633380685538006371637297210170750776562389313989286729801216819). Qed.
Lemma xo512_cert5 : exists p u, pw v8_add v8_zero xoshiro512_step v8_wf p ((2 ^ 512 - 1) / Z.to_N 5) /\ mul_check 16 phi512 (N.lxor p 1) u 1 = true.
Proof.
  assert (E : 2681561585988519419914804999641169225495873164118478675544712288744352806014709395360374859633380685538006371637297210170750776562389313989286729801216819 = (2 ^ 512 - 1) / Z.to_N 5) by (vm_cast_no_check (eq_refl 2681561585988519419914804999641169225495873164118478675544712288744352806014709395360374859633380685538006371637297210170750776562389313989286729801216819)).
  exists 0x8b432a3369fb40f03cc0796526a0567a888f0413fb3e0a9d88205da5fbe7461a40b949d81e792f6c64d3664c9562441f5759d0bb9db5c06191a05cbc56532d32, 0x86405eeed48eeee730cb3b84f426327f2411fbe20929f51dca24c3413512de258ae1578066129571b076d58b4d008cce97cb0df7ad9ddb3ed33a74083986c4e8. rewrite <- E. exact (conj xo512_y5 xo512_u5_c).
Qed.
Lemma xo512_a0_c : sq_check 16 phi512 1 0xeab77d09243e32aa4ebb0ea42ccd0f7c7d04b420bd80af5aebd8ba9693596ff22d4c1eb22c6e93fd1d55f25b55014228ebd27427bbcab0850f53ccaff2e83f65 0xeab77d09243e32aa4ebb0ea42ccd0f7c7d04b420bd80af5aebd8ba9693596ff22d4c1eb22c6e93fd1d55f25b55014228ebd27427bbcab0850f53ccaff2e83f64 = true.
Proof. vm_cast_no_check (eq_refl true). Qed.
Lemma xo512_a0 : pw v8_add v8_zero xoshiro512_step v8_wf 0xeab77d09243e32aa4ebb0ea42ccd0f7c7d04b420bd80af5aebd8ba9693596ff22d4c1eb22c6e93fd1d55f25b55014228ebd27427bbcab0850f53ccaff2e83f64 8938538619961731399716016665470564084986243880394928918482374295814509353382364651201249532111268951793354572124324033902502588541297713297622432670722730.
Proof. refine (pw_sq v8_add v8_zero xoshiro512_step v8_wf xoshiro512_step_linear 16 phi512 phi512_annihilates 1 _ _ _ _ xo512_z1 xo512_a0_c _). vm_cast_no_check (eq_refl 8938538619961731399716016665470564084986243880394928918482374295814509353382364651201249532111268951793354572124324033902502588541297713297622432670722730). Qed.
Lemma xo512_z0_c : mul_check 16 phi512 0xeab77d09243e32aa4ebb0ea42ccd0f7c7d04b420bd80af5aebd8ba9693596ff22d4c1eb22c6e93fd1d55f25b55014228ebd27427bbcab0850f53ccaff2e83f64 0xeab77d09243e32aa4ebb0ea42ccd0f7c7d04b420bd80af5aebd8ba9693596ff22d4c1eb22c6e93fd1d55f25b55014228ebd27427bbcab0850f53ccaff2e83f65 0x1 = true.
Proof. vm_cast_no_check (eq_refl true). Qed.
Lemma xo512_z0 : pw v8_add v8_zero xoshiro512_step v8_wf 0x1 13407807929942597099574024998205846127479365820592393377723561443721764030073546976801874298166903427690031858186486050853753882811946569946433649006084095.
Proof. refine (pw_mul v8_add v8_zero xoshiro512_step v8_wf xoshiro512_step_linear 16 phi512 phi512_annihilates _ _ _ _ _ _ xo512_a0 xo512_z1 xo512_z0_c _). vm_cast_no_check (eq_refl 13407807929942597099574024998205846127479365820592393377723561443721764030073546976801874298166903427690031858186486050853753882811946569946433649006084095). Qed.
Lemma xo512_i0_c : mul_check 16 phi512 0xeab77d09243e32aa4ebb0ea42ccd0f7c7d04b420bd80af5aebd8ba9693596ff22d4c1eb22c6e93fd1d55f25b55014228ebd27427bbcab0850f53ccaff2e83f64 0xeab77d09243e32aa4ebb0ea42ccd0f7c7d04b420bd80af5aebd8ba9693596ff22d4c1eb22c6e93fd1d55f25b55014228ebd27427bbcab0850f53ccaff2e83f65 1 = true.
Proof. vm_cast_no_check (eq_refl true). Qed.
Lemma xo512_w0_c : mul_check 16 phi512 0xeab77d09243e32aa4ebb0ea42ccd0f7c7d04b420bd80af5aebd8ba9693596ff22d4c1eb22c6e93fd1d55f25b55014228ebd27427bbcab0850f53ccaff2e83f64 0xeab77d09243e32aa4ebb0ea42ccd0f7c7d04b420bd80af5aebd8ba9693596ff22d4c1eb22c6e93fd1d55f25b55014228ebd27427bbcab0850f53ccaff2e83f64 0xeab77d09243e32aa4ebb0ea42ccd0f7c7d04b420bd80af5aebd8ba9693596ff22d4c1eb22c6e93fd1d55f25b55014228ebd27427bbcab0850f53ccaff2e83f65 = true.
Proof. vm_cast_no_check (eq_refl true). Qed.
Lemma xo512_w0 : pw v8_add v8_zero xoshiro512_step v8_wf 0xeab77d09243e32aa4ebb0ea42ccd0f7c7d04b420bd80af5aebd8ba9693596ff22d4c1eb22c6e93fd1d55f25b55014228ebd27427bbcab0850f53ccaff2e83f65 4469269309980865699858008332735282042493121940197464459241187147907254676691182325600624766055634475896677286062162016951251294270648856648811216335361365.
Proof. refine (pw_div v8_add v8_zero xoshiro512_step v8_wf xoshiro512_step_linear 16 phi512 phi512_annihilates _ _ _ _ _ _ _ xo512_z1 xo512_a0 xo512_i0_c xo512_w0_c _). vm_cast_no_check (eq_refl 8938538619961731399716016665470564084986243880394928918482374295814509353382364651201249532111268951793354572124324033902502588541297713297622432670722730). Qed.
Lemma xo512_y3_c : pow_check 16 phi512 1 0xeab77d09243e32aa4ebb0ea42ccd0f7c7d04b420bd80af5aebd8ba9693596ff22d4c1eb22c6e93fd1d55f25b55014228ebd27427bbcab0850f53ccaff2e83f65 0xeab77d09243e32aa4ebb0ea42ccd0f7c7d04b420bd80af5aebd8ba9693596ff22d4c1eb22c6e93fd1d55f25b55014228ebd27427bbcab0850f53ccaff2e83f65 = true.
Proof. vm_cast_no_check (eq_refl true). Qed.
Lemma xo512_u3_c : mul_check 16 phi512 (N.lxor 0xeab77d09243e32aa4ebb0ea42ccd0f7c7d04b420bd80af5aebd8ba9693596ff22d4c1eb22c6e93fd1d55f25b55014228ebd27427bbcab0850f53ccaff2e83f65 1) 0xeab77d09243e32aa4ebb0ea42ccd0f7c7d04b420bd80af5aebd8ba9693596ff22d4c1eb22c6e93fd1d55f25b55014228ebd27427bbcab0850f53ccaff2e83f65 1 = true.
Proof. vm_cast_no_check (eq_refl true). Qed.
Lemma xo512_y3 : pw v8_add v8_zero xoshiro512_step v8_wf 0xeab77d09243e32aa4ebb0ea42ccd0f7c7d04b420bd80af5aebd8ba9693596ff22d4c1eb22c6e93fd1d55f25b55014228ebd27427bbcab0850f53ccaff2e83f65 4469269309980865699858008332735282042493121940197464459241187147907254676691182325600624766055634475896677286062162016951251294270648856648811216335361365.
Proof. refine (pw_pow v8_add v8_zero xoshiro512_step v8_wf xoshiro512_step_linear 16 phi512 phi512_annihilates 1 _ _ _ _ xo512_w0 xo512_y3_c _). vm_cast_no_check (eq_refl 4469269309980865699858008332735282042493121940197464459241187147907254676691182325600624766055634475896677286062162016951251294270648856648811216335361365). Qed.
Lemma xo512_cert3 : exists p u, pw v8_add v8_zero xoshiro512_step v8_wf p ((2 ^ 512 - 1) / Z.to_N 3) /\ mul_check 16 phi512 (N.lxor p 1) u 1 = true.
Proof.
  assert (E : 4469269309980865699858008332735282042493121940197464459241187147907254676691182325600624766055634475896677286062162016951251294270648856648811216335361365 = (2 ^ 512 - 1) / Z.to_N 3) by (vm_cast_no_check (eq_refl 4469269309980865699858008332735282042493121940197464459241187147907254676691182325600624766055634475896677286062162016951251294270648856648811216335361365)).
  exists 0xeab77d09243e32aa4ebb0ea42ccd0f7c7d04b420bd80af5aebd8ba9693596ff22d4c1eb22c6e93fd1d55f25b55014228ebd27427bbcab0850f53ccaff2e83f65, 0xeab77d09243e32aa4ebb0ea42ccd0f7c7d04b420bd80af5aebd8ba9693596ff22d4c1eb22c6e93fd1d55f25b55014228ebd27427bbcab0850f53ccaff2e83f65. rewrite <- E. exact (conj xo512_y3 xo512_u3_c).
Qed.
Lemma xo512_one : pw v8_add v8_zero xoshiro512_step v8_wf 1 (2 ^ 512 - 1).
Proof.
  assert (E : 13407807929942597099574024998205846127479365820592393377723561443721764030073546976801874298166903427690031858186486050853753882811946569946433649006084095 = 2 ^ 512 - 1) by (vm_cast_no_check (eq_refl 13407807929942597099574024998205846127479365820592393377723561443721764030073546976801874298166903427690031858186486050853753882811946569946433649006084095)).
  rewrite <- E. exact xo512_z0.
Qed.
Lemma xo512_cert q : In q factors512 -> exists p u, pw v8_add v8_zero xoshiro512_step v8_wf p ((2 ^ 512 - 1) / Z.to_N q) /\ mul_check 16 phi512 (N.lxor p 1) u 1 = true.
Proof.
  intros H. repeat (destruct H as [<-|H]); [exact xo512_cert3 |exact xo512_cert5 |exact xo512_cert17 |exact xo512_cert257 |exact xo512_cert641 |exact xo512_cert65537 |exact xo512_cert274177 |exact xo512_cert6700417 |exact xo512_cert67280421310721 |exact xo512_cert1238926361552897 |exact xo512_cert59649589127497217 |exact xo512_cert5704689200685129054721 |exact xo512_cert93461639715357977769163558199606896584051237541638188580280321 |destruct H].
Qed.
Lemma xo512_prod : prodl factors512 = Z.of_N (2 ^ 512 - 1).
Proof. vm_cast_no_check (eq_refl 13407807929942597099574024998205846127479365820592393377723561443721764030073546976801874298166903427690031858186486050853753882811946569946433649006084095%Z). Qed.
Lemma xo512_pos : 0 < 2 ^ 512 - 1.
Proof. vm_cast_no_check (eq_refl Lt). Qed.
Lemma xo512_odd : N.odd phi512 = true.
Proof. vm_cast_no_check (eq_refl true). Qed.
Theorem xo512_period v k : v8_wf v -> v <> v8_zero ->
  (N.iter k xoshiro512_step v = v <-> k mod (2 ^ 512 - 1) = 0).
Proof. exact (period_exact v8_add v8_zero xoshiro512_step v8_wf xoshiro512_step_linear 16 phi512 phi512_annihilates (2 ^ 512 - 1) factors512 factors512_prime xo512_prod xo512_pos xo512_one xo512_cert v k). Qed.
Theorem xo512_distinct v i j : v8_wf v -> v <> v8_zero ->
  (N.iter i xoshiro512_step v = N.iter j xoshiro512_step v <-> i mod (2 ^ 512 - 1) = j mod (2 ^ 512 - 1)).
Proof. exact (period_distinct v8_add v8_zero xoshiro512_step v8_wf xoshiro512_step_linear 16 phi512 phi512_annihilates (2 ^ 512 - 1) factors512 factors512_prime xo512_prod xo512_pos xo512_one xo512_cert v i j xo512_odd). Qed.
