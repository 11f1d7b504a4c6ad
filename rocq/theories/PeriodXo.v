(* Generated: Xoroshiro128 (both variants) and Xoshiro256. Exact periods; the numbers are certificates that
   the proofs check. *)
From Verif Require Import Word Gf2 Order Primes Limb Period Xoshiro XoshiroLin.
From Coq Require Import ZArith Znumtheory List.
Import ListNotations.
Open Scope N_scope.

Lemma xo128_z7 : pw v2_add v2_zero (xoroshiro_step false) v2_wf 0x2 1.
Proof. exact (pw_x v2_add v2_zero (xoroshiro_step false) v2_wf). Qed.
Lemma xo128_a6_c : sq_check 4 phi128 64 0x2 0x170865df4b3201fcdf900294d8f554a5 = true.
Proof. vm_cast_no_check (eq_refl true). Qed.
Lemma xo128_a6 : pw v2_add v2_zero (xoroshiro_step false) v2_wf 0x170865df4b3201fcdf900294d8f554a5 18446744073709551616.
Proof. refine (pw_sq v2_add v2_zero (xoroshiro_step false) v2_wf xoroshiro_step_false_linear 4 phi128 phi128_annihilates 64 _ _ _ _ xo128_z7 xo128_a6_c _). vm_cast_no_check (eq_refl 18446744073709551616). Qed.
Lemma xo128_z6_c : mul_check 4 phi128 0x170865df4b3201fcdf900294d8f554a5 0x2 0x2e10cbbe966403f9bf200529b1eaa94a = true.
Proof. vm_cast_no_check (eq_refl true). Qed.
Lemma xo128_z6 : pw v2_add v2_zero (xoroshiro_step false) v2_wf 0x2e10cbbe966403f9bf200529b1eaa94a 18446744073709551617.
Proof. refine (pw_mul v2_add v2_zero (xoroshiro_step false) v2_wf xoroshiro_step_false_linear 4 phi128 phi128_annihilates _ _ _ _ _ _ xo128_a6 xo128_z7 xo128_z6_c _). vm_cast_no_check (eq_refl 18446744073709551617). Qed.
Lemma xo128_i6_c : mul_check 4 phi128 0x80044147289da1ea84adc7bb2bcd5000 0x2 1 = true.
Proof. vm_cast_no_check (eq_refl true). Qed.
Lemma xo128_w6_c : mul_check 4 phi128 0x80044147289da1ea84adc7bb2bcd5000 0x170865df4b3201fcdf900294d8f554a5 0x8b8073a88d04a114eb65c6f147b7fa52 = true.
Proof. vm_cast_no_check (eq_refl true). Qed.
Lemma xo128_w6 : pw v2_add v2_zero (xoroshiro_step false) v2_wf 0x8b8073a88d04a114eb65c6f147b7fa52 18446744073709551615.
Proof. refine (pw_div v2_add v2_zero (xoroshiro_step false) v2_wf xoroshiro_step_false_linear 4 phi128 phi128_annihilates _ _ _ _ _ _ _ xo128_z7 xo128_a6 xo128_i6_c xo128_w6_c _). vm_cast_no_check (eq_refl 18446744073709551616). Qed.
Lemma xo128_y274177_c : pow_check 4 phi128 67280421310721 0x8b8073a88d04a114eb65c6f147b7fa52 0x9d0890e7cf21827696f55af18b26ce36 = true.
Proof. vm_cast_no_check (eq_refl true). Qed.
Lemma xo128_u274177_c : mul_check 4 phi128 (N.lxor 0x9d0890e7cf21827696f55af18b26ce36 1) 0x37430ca27c542004fe3ea4c3ea9f5ebc 1 = true.
Proof. vm_cast_no_check (eq_refl true). Qed.
Lemma xo128_y274177 : pw v2_add v2_zero (xoroshiro_step false) v2_wf 0x9d0890e7cf21827696f55af18b26ce36 1241104713090224429705535502364415.
Proof. refine (pw_pow v2_add v2_zero (xoroshiro_step false) v2_wf xoroshiro_step_false_linear 4 phi128 phi128_annihilates 67280421310721 _ _ _ _ xo128_w6 xo128_y274177_c _). vm_cast_no_check (eq_refl 1241104713090224429705535502364415). Qed.
Lemma xo128_cert274177 : exists p u, pw v2_add v2_zero (xoroshiro_step false) v2_wf p ((2 ^ 128 - 1) / Z.to_N 274177) /\ mul_check 4 phi128 (N.lxor p 1) u 1 = true.
Proof.
  assert (E : 1241104713090224429705535502364415 = (2 ^ 128 - 1) / Z.to_N 274177) by (vm_cast_no_check (eq_refl 1241104713090224429705535502364415)).
  exists 0x9d0890e7cf21827696f55af18b26ce36, 0x37430ca27c542004fe3ea4c3ea9f5ebc. rewrite <- E. exact (conj xo128_y274177 xo128_u274177_c).
Qed.
Lemma xo128_y67280421310721_c : pow_check 4 phi128 274177 0x8b8073a88d04a114eb65c6f147b7fa52 0x678353df70781cecdd047b2a9386217d = true.
Proof. vm_cast_no_check (eq_refl true). Qed.
Lemma xo128_u67280421310721_c : mul_check 4 phi128 (N.lxor 0x678353df70781cecdd047b2a9386217d 1) 0x55db575fb05489582681f5f2a0a72912 1 = true.
Proof. vm_cast_no_check (eq_refl true). Qed.
Lemma xo128_y67280421310721 : pw v2_add v2_zero (xoroshiro_step false) v2_wf 0x678353df70781cecdd047b2a9386217d 5057672949897463733145855.
Proof. refine (pw_pow v2_add v2_zero (xoroshiro_step false) v2_wf xoroshiro_step_false_linear 4 phi128 phi128_annihilates 274177 _ _ _ _ xo128_w6 xo128_y67280421310721_c _). vm_cast_no_check (eq_refl 5057672949897463733145855). Qed.
Lemma xo128_cert67280421310721 : exists p u, pw v2_add v2_zero (xoroshiro_step false) v2_wf p ((2 ^ 128 - 1) / Z.to_N 67280421310721) /\ mul_check 4 phi128 (N.lxor p 1) u 1 = true.
Proof.
  assert (E : 5057672949897463733145855 = (2 ^ 128 - 1) / Z.to_N 67280421310721) by (vm_cast_no_check (eq_refl 5057672949897463733145855)).
  exists 0x678353df70781cecdd047b2a9386217d, 0x55db575fb05489582681f5f2a0a72912. rewrite <- E. exact (conj xo128_y67280421310721 xo128_u67280421310721_c).
Qed.
Lemma xo128_a5_c : sq_check 4 phi128 32 0x2e10cbbe966403f9bf200529b1eaa94a 0xaf49adeeb4b15afd5082abd1afc41cbf = true.
Proof. vm_cast_no_check (eq_refl true). Qed.
Lemma xo128_a5 : pw v2_add v2_zero (xoroshiro_step false) v2_wf 0xaf49adeeb4b15afd5082abd1afc41cbf 79228162514264337597838917632.
Proof. refine (pw_sq v2_add v2_zero (xoroshiro_step false) v2_wf xoroshiro_step_false_linear 4 phi128 phi128_annihilates 32 _ _ _ _ xo128_z6 xo128_a5_c _). vm_cast_no_check (eq_refl 79228162514264337597838917632). Qed.
Lemma xo128_z5_c : mul_check 4 phi128 0xaf49adeeb4b15afd5082abd1afc41cbf 0x2e10cbbe966403f9bf200529b1eaa94a 0x9e82bab17ffd0910c0294ba5dd55ed85 = true.
Proof. vm_cast_no_check (eq_refl true). Qed.
Lemma xo128_z5 : pw v2_add v2_zero (xoroshiro_step false) v2_wf 0x9e82bab17ffd0910c0294ba5dd55ed85 79228162532711081671548469249.
Proof. refine (pw_mul v2_add v2_zero (xoroshiro_step false) v2_wf xoroshiro_step_false_linear 4 phi128 phi128_annihilates _ _ _ _ _ _ xo128_a5 xo128_z6 xo128_z5_c _). vm_cast_no_check (eq_refl 79228162532711081671548469249). Qed.
Lemma xo128_i5_c : mul_check 4 phi128 0x8ba9ef2d8091f96f1891412432bc3e19 0x2e10cbbe966403f9bf200529b1eaa94a 1 = true.
Proof. vm_cast_no_check (eq_refl true). Qed.
Lemma xo128_w5_c : mul_check 4 phi128 0x8ba9ef2d8091f96f1891412432bc3e19 0xaf49adeeb4b15afd5082abd1afc41cbf 0x6c811d077281eb32c16517240af371b3 = true.
Proof. vm_cast_no_check (eq_refl true). Qed.
Lemma xo128_w5 : pw v2_add v2_zero (xoroshiro_step false) v2_wf 0x6c811d077281eb32c16517240af371b3 79228162495817593524129366015.
Proof. refine (pw_div v2_add v2_zero (xoroshiro_step false) v2_wf xoroshiro_step_false_linear 4 phi128 phi128_annihilates _ _ _ _ _ _ _ xo128_z6 xo128_a5 xo128_i5_c xo128_w5_c _). vm_cast_no_check (eq_refl 79228162514264337597838917632). Qed.
Lemma xo128_y641_c : pow_check 4 phi128 6700417 0x6c811d077281eb32c16517240af371b3 0xb2475f58fdcce169014677765d790218 = true.
Proof. vm_cast_no_check (eq_refl true). Qed.
Lemma xo128_u641_c : mul_check 4 phi128 (N.lxor 0xb2475f58fdcce169014677765d790218 1) 0x6ec2b2abc5012855a81493c7e42b2476 1 = true.
Proof. vm_cast_no_check (eq_refl true). Qed.
Lemma xo128_y641 : pw v2_add v2_zero (xoroshiro_step false) v2_wf 0xb2475f58fdcce169014677765d790218 530861726865738632548166314246128255.
Proof. refine (pw_pow v2_add v2_zero (xoroshiro_step false) v2_wf xoroshiro_step_false_linear 4 phi128 phi128_annihilates 6700417 _ _ _ _ xo128_w5 xo128_y641_c _). vm_cast_no_check (eq_refl 530861726865738632548166314246128255). Qed.
Lemma xo128_cert641 : exists p u, pw v2_add v2_zero (xoroshiro_step false) v2_wf p ((2 ^ 128 - 1) / Z.to_N 641) /\ mul_check 4 phi128 (N.lxor p 1) u 1 = true.
Proof.
  assert (E : 530861726865738632548166314246128255 = (2 ^ 128 - 1) / Z.to_N 641) by (vm_cast_no_check (eq_refl 530861726865738632548166314246128255)).
  exists 0xb2475f58fdcce169014677765d790218, 0x6ec2b2abc5012855a81493c7e42b2476. rewrite <- E. exact (conj xo128_y641 xo128_u641_c).
Qed.
Lemma xo128_y6700417_c : pow_check 4 phi128 641 0x6c811d077281eb32c16517240af371b3 0x840c877ece31bcfd2634145bac44cc62 = true.
Proof. vm_cast_no_check (eq_refl true). Qed.
Lemma xo128_u6700417_c : mul_check 4 phi128 (N.lxor 0x840c877ece31bcfd2634145bac44cc62 1) 0xfbf5d1e791cb791fc6077daa37669ed5 1 = true.
Proof. vm_cast_no_check (eq_refl true). Qed.
Lemma xo128_y6700417 : pw v2_add v2_zero (xoroshiro_step false) v2_wf 0x840c877ece31bcfd2634145bac44cc62 50785252159819077448966923615615.
Proof. refine (pw_pow v2_add v2_zero (xoroshiro_step false) v2_wf xoroshiro_step_false_linear 4 phi128 phi128_annihilates 641 _ _ _ _ xo128_w5 xo128_y6700417_c _). vm_cast_no_check (eq_refl 50785252159819077448966923615615). Qed.
Lemma xo128_cert6700417 : exists p u, pw v2_add v2_zero (xoroshiro_step false) v2_wf p ((2 ^ 128 - 1) / Z.to_N 6700417) /\ mul_check 4 phi128 (N.lxor p 1) u 1 = true.
Proof.
  assert (E : 50785252159819077448966923615615 = (2 ^ 128 - 1) / Z.to_N 6700417) by (vm_cast_no_check (eq_refl 50785252159819077448966923615615)).
  exists 0x840c877ece31bcfd2634145bac44cc62, 0xfbf5d1e791cb791fc6077daa37669ed5. rewrite <- E. exact (conj xo128_y6700417 xo128_u6700417_c).
Qed.
Lemma xo128_a4_c : sq_check 4 phi128 16 0x9e82bab17ffd0910c0294ba5dd55ed85 0x2beda3ad3fdf02ebad015e03d43dd64f = true.
Proof. vm_cast_no_check (eq_refl true). Qed.
Lemma xo128_a4 : pw v2_add v2_zero (xoroshiro_step false) v2_wf 0x2beda3ad3fdf02ebad015e03d43dd64f 5192296859743753448426600480702464.
Proof. refine (pw_sq v2_add v2_zero (xoroshiro_step false) v2_wf xoroshiro_step_false_linear 4 phi128 phi128_annihilates 16 _ _ _ _ xo128_z5 xo128_a4_c _). vm_cast_no_check (eq_refl 5192296859743753448426600480702464). Qed.
Lemma xo128_z4_c : mul_check 4 phi128 0x2beda3ad3fdf02ebad015e03d43dd64f 0x9e82bab17ffd0910c0294ba5dd55ed85 0x4b83ed5974e9f80fa625a55c50e48799 = true.
Proof. vm_cast_no_check (eq_refl true). Qed.
Lemma xo128_z4 : pw v2_add v2_zero (xoroshiro_step false) v2_wf 0x4b83ed5974e9f80fa625a55c50e48799 5192376087906286159508272029171713.
Proof. refine (pw_mul v2_add v2_zero (xoroshiro_step false) v2_wf xoroshiro_step_false_linear 4 phi128 phi128_annihilates _ _ _ _ _ _ xo128_a4 xo128_z5 xo128_z4_c _). vm_cast_no_check (eq_refl 5192376087906286159508272029171713). Qed.
Lemma xo128_i4_c : mul_check 4 phi128 0x482ae1510293e6fee72ccb3e68dc435d 0x9e82bab17ffd0910c0294ba5dd55ed85 1 = true.
Proof. vm_cast_no_check (eq_refl true). Qed.
Lemma xo128_w4_c : mul_check 4 phi128 0x482ae1510293e6fee72ccb3e68dc435d 0x2beda3ad3fdf02ebad015e03d43dd64f 0x816817918ff1939964c4348b1da92c47 = true.
Proof. vm_cast_no_check (eq_refl true). Qed.
Lemma xo128_w4 : pw v2_add v2_zero (xoroshiro_step false) v2_wf 0x816817918ff1939964c4348b1da92c47 5192217631581220737344928932233215.
Proof. refine (pw_div v2_add v2_zero (xoroshiro_step false) v2_wf xoroshiro_step_false_linear 4 phi128 phi128_annihilates _ _ _ _ _ _ _ xo128_z5 xo128_a4 xo128_i4_c xo128_w4_c _). vm_cast_no_check (eq_refl 5192296859743753448426600480702464). Qed.
Lemma xo128_y65537_c : pow_check 4 phi128 1 0x816817918ff1939964c4348b1da92c47 0x816817918ff1939964c4348b1da92c47 = true.
Proof. vm_cast_no_check (eq_refl true). Qed.
Lemma xo128_u65537_c : mul_check 4 phi128 (N.lxor 0x816817918ff1939964c4348b1da92c47 1) 0x3c13da96bdf060b8b178dd43e7c56a9e 1 = true.
Proof. vm_cast_no_check (eq_refl true). Qed.
Lemma xo128_y65537 : pw v2_add v2_zero (xoroshiro_step false) v2_wf 0x816817918ff1939964c4348b1da92c47 5192217631581220737344928932233215.
Proof. refine (pw_pow v2_add v2_zero (xoroshiro_step false) v2_wf xoroshiro_step_false_linear 4 phi128 phi128_annihilates 1 _ _ _ _ xo128_w4 xo128_y65537_c _). vm_cast_no_check (eq_refl 5192217631581220737344928932233215). Qed.
Lemma xo128_cert65537 : exists p u, pw v2_add v2_zero (xoroshiro_step false) v2_wf p ((2 ^ 128 - 1) / Z.to_N 65537) /\ mul_check 4 phi128 (N.lxor p 1) u 1 = true.
Proof.
  assert (E : 5192217631581220737344928932233215 = (2 ^ 128 - 1) / Z.to_N 65537) by (vm_cast_no_check (eq_refl 5192217631581220737344928932233215)).
  exists 0x816817918ff1939964c4348b1da92c47, 0x3c13da96bdf060b8b178dd43e7c56a9e. rewrite <- E. exact (conj xo128_y65537 xo128_u65537_c).
Qed.
Lemma xo128_a3_c : sq_check 4 phi128 8 0x4b83ed5974e9f80fa625a55c50e48799 0xb7fd5ec9e1bcc8495cf8ba3de08e9a2c = true.
Proof. vm_cast_no_check (eq_refl true). Qed.
Lemma xo128_a3 : pw v2_add v2_zero (xoroshiro_step false) v2_wf 0xb7fd5ec9e1bcc8495cf8ba3de08e9a2c 1329248278504009256834117639467958528.
Proof. refine (pw_sq v2_add v2_zero (xoroshiro_step false) v2_wf xoroshiro_step_false_linear 4 phi128 phi128_annihilates 8 _ _ _ _ xo128_z4 xo128_a3_c _). vm_cast_no_check (eq_refl 1329248278504009256834117639467958528). Qed.
Lemma xo128_z3_c : mul_check 4 phi128 0xb7fd5ec9e1bcc8495cf8ba3de08e9a2c 0x4b83ed5974e9f80fa625a55c50e48799 0xbce39248afe091e5c60e0f9e8dcc6156 = true.
Proof. vm_cast_no_check (eq_refl true). Qed.
Lemma xo128_z3 : pw v2_add v2_zero (xoroshiro_step false) v2_wf 0xbce39248afe091e5c60e0f9e8dcc6156 1334440654591915542993625911497130241.
Proof. refine (pw_mul v2_add v2_zero (xoroshiro_step false) v2_wf xoroshiro_step_false_linear 4 phi128 phi128_annihilates _ _ _ _ _ _ xo128_a3 xo128_z4 xo128_z3_c _). vm_cast_no_check (eq_refl 1334440654591915542993625911497130241). Qed.
Lemma xo128_i3_c : mul_check 4 phi128 0x99ad3c8284893ea6d7e90eec29c460d9 0x4b83ed5974e9f80fa625a55c50e48799 1 = true.
Proof. vm_cast_no_check (eq_refl true). Qed.
Lemma xo128_w3_c : mul_check 4 phi128 0x99ad3c8284893ea6d7e90eec29c460d9 0xb7fd5ec9e1bcc8495cf8ba3de08e9a2c 0x283147f5d2b54bb7aee2e146157266d6 = true.
Proof. vm_cast_no_check (eq_refl true). Qed.
Lemma xo128_w3 : pw v2_add v2_zero (xoroshiro_step false) v2_wf 0x283147f5d2b54bb7aee2e146157266d6 1324055902416102970674609367438786815.
Proof. refine (pw_div v2_add v2_zero (xoroshiro_step false) v2_wf xoroshiro_step_false_linear 4 phi128 phi128_annihilates _ _ _ _ _ _ _ xo128_z4 xo128_a3 xo128_i3_c xo128_w3_c _). vm_cast_no_check (eq_refl 1329248278504009256834117639467958528). Qed.
Lemma xo128_y257_c : pow_check 4 phi128 1 0x283147f5d2b54bb7aee2e146157266d6 0x283147f5d2b54bb7aee2e146157266d6 = true.
Proof. vm_cast_no_check (eq_refl true). Qed.
Lemma xo128_u257_c : mul_check 4 phi128 (N.lxor 0x283147f5d2b54bb7aee2e146157266d6 1) 0x30e5aaf1d16d836bb08347f6b98df9d6 1 = true.
Proof. vm_cast_no_check (eq_refl true). Qed.
Lemma xo128_y257 : pw v2_add v2_zero (xoroshiro_step false) v2_wf 0x283147f5d2b54bb7aee2e146157266d6 1324055902416102970674609367438786815.
Proof. refine (pw_pow v2_add v2_zero (xoroshiro_step false) v2_wf xoroshiro_step_false_linear 4 phi128 phi128_annihilates 1 _ _ _ _ xo128_w3 xo128_y257_c _). vm_cast_no_check (eq_refl 1324055902416102970674609367438786815). Qed.
Lemma xo128_cert257 : exists p u, pw v2_add v2_zero (xoroshiro_step false) v2_wf p ((2 ^ 128 - 1) / Z.to_N 257) /\ mul_check 4 phi128 (N.lxor p 1) u 1 = true.
Proof.
  assert (E : 1324055902416102970674609367438786815 = (2 ^ 128 - 1) / Z.to_N 257) by (vm_cast_no_check (eq_refl 1324055902416102970674609367438786815)).
  exists 0x283147f5d2b54bb7aee2e146157266d6, 0x30e5aaf1d16d836bb08347f6b98df9d6. rewrite <- E. exact (conj xo128_y257 xo128_u257_c).
Qed.
Lemma xo128_a2_c : sq_check 4 phi128 4 0xbce39248afe091e5c60e0f9e8dcc6156 0x944ebebb4f7d14151a4efbff5f0ea68e = true.
Proof. vm_cast_no_check (eq_refl true). Qed.
Lemma xo128_a2 : pw v2_add v2_zero (xoroshiro_step false) v2_wf 0x944ebebb4f7d14151a4efbff5f0ea68e 21351050473470648687898014583954083856.
Proof. refine (pw_sq v2_add v2_zero (xoroshiro_step false) v2_wf xoroshiro_step_false_linear 4 phi128 phi128_annihilates 4 _ _ _ _ xo128_z3 xo128_a2_c _). vm_cast_no_check (eq_refl 21351050473470648687898014583954083856). Qed.
Lemma xo128_z2_c : mul_check 4 phi128 0x944ebebb4f7d14151a4efbff5f0ea68e 0xbce39248afe091e5c60e0f9e8dcc6156 0xbe5308ec69514dc2ca8939e8bb7cc7f3 = true.
Proof. vm_cast_no_check (eq_refl true). Qed.
Lemma xo128_z2 : pw v2_add v2_zero (xoroshiro_step false) v2_wf 0xbe5308ec69514dc2ca8939e8bb7cc7f3 22685491128062564230891640495451214097.
Proof. refine (pw_mul v2_add v2_zero (xoroshiro_step false) v2_wf xoroshiro_step_false_linear 4 phi128 phi128_annihilates _ _ _ _ _ _ xo128_a2 xo128_z3 xo128_z2_c _). vm_cast_no_check (eq_refl 22685491128062564230891640495451214097). Qed.
Lemma xo128_i2_c : mul_check 4 phi128 0xd36d5ea33678b418b13fa5b8edd7b431 0xbce39248afe091e5c60e0f9e8dcc6156 1 = true.
Proof. vm_cast_no_check (eq_refl true). Qed.
Lemma xo128_w2_c : mul_check 4 phi128 0xd36d5ea33678b418b13fa5b8edd7b431 0x944ebebb4f7d14151a4efbff5f0ea68e 0xc8f010ecc25abc843dd34d7c8d68d1f2 = true.
Proof. vm_cast_no_check (eq_refl true). Qed.
Lemma xo128_w2 : pw v2_add v2_zero (xoroshiro_step false) v2_wf 0xc8f010ecc25abc843dd34d7c8d68d1f2 20016609818878733144904388672456953615.
Proof. refine (pw_div v2_add v2_zero (xoroshiro_step false) v2_wf xoroshiro_step_false_linear 4 phi128 phi128_annihilates _ _ _ _ _ _ _ xo128_z3 xo128_a2 xo128_i2_c xo128_w2_c _). vm_cast_no_check (eq_refl 21351050473470648687898014583954083856). Qed.
Lemma xo128_y17_c : pow_check 4 phi128 1 0xc8f010ecc25abc843dd34d7c8d68d1f2 0xc8f010ecc25abc843dd34d7c8d68d1f2 = true.
Proof. vm_cast_no_check (eq_refl true). Qed.
Lemma xo128_u17_c : mul_check 4 phi128 (N.lxor 0xc8f010ecc25abc843dd34d7c8d68d1f2 1) 0xb033aadb8e620d5380760c3edaa7db8 1 = true.
Proof. vm_cast_no_check (eq_refl true). Qed.
Lemma xo128_y17 : pw v2_add v2_zero (xoroshiro_step false) v2_wf 0xc8f010ecc25abc843dd34d7c8d68d1f2 20016609818878733144904388672456953615.
Proof. refine (pw_pow v2_add v2_zero (xoroshiro_step false) v2_wf xoroshiro_step_false_linear 4 phi128 phi128_annihilates 1 _ _ _ _ xo128_w2 xo128_y17_c _). vm_cast_no_check (eq_refl 20016609818878733144904388672456953615). Qed.
Lemma xo128_cert17 : exists p u, pw v2_add v2_zero (xoroshiro_step false) v2_wf p ((2 ^ 128 - 1) / Z.to_N 17) /\ mul_check 4 phi128 (N.lxor p 1) u 1 = true.
Proof.
  assert (E : 20016609818878733144904388672456953615 = (2 ^ 128 - 1) / Z.to_N 17) by (vm_cast_no_check (eq_refl 20016609818878733144904388672456953615)).
  exists 0xc8f010ecc25abc843dd34d7c8d68d1f2, 0xb033aadb8e620d5380760c3edaa7db8. rewrite <- E. exact (conj xo128_y17 xo128_u17_c).
Qed.
Lemma xo128_a1_c : sq_check 4 phi128 2 0xbe5308ec69514dc2ca8939e8bb7cc7f3 0xbe5308ec69514dc2ca8939e8bb7cc7f2 = true.
Proof. vm_cast_no_check (eq_refl true). Qed.
Lemma xo128_a1 : pw v2_add v2_zero (xoroshiro_step false) v2_wf 0xbe5308ec69514dc2ca8939e8bb7cc7f2 90741964512250256923566561981804856388.
Proof. refine (pw_sq v2_add v2_zero (xoroshiro_step false) v2_wf xoroshiro_step_false_linear 4 phi128 phi128_annihilates 2 _ _ _ _ xo128_z2 xo128_a1_c _). vm_cast_no_check (eq_refl 90741964512250256923566561981804856388). Qed.
Lemma xo128_z1_c : mul_check 4 phi128 0xbe5308ec69514dc2ca8939e8bb7cc7f2 0xbe5308ec69514dc2ca8939e8bb7cc7f3 0x28ad2cf3e09d85f0dc40f461d2c2c7d8 = true.
Proof. vm_cast_no_check (eq_refl true). Qed.
Lemma xo128_z1 : pw v2_add v2_zero (xoroshiro_step false) v2_wf 0x28ad2cf3e09d85f0dc40f461d2c2c7d8 113427455640312821154458202477256070485.
Proof. refine (pw_mul v2_add v2_zero (xoroshiro_step false) v2_wf xoroshiro_step_false_linear 4 phi128 phi128_annihilates _ _ _ _ _ _ xo128_a1 xo128_z2 xo128_z1_c _). vm_cast_no_check (eq_refl 113427455640312821154458202477256070485). Qed.
Lemma xo128_i1_c : mul_check 4 phi128 0x98f345d6b42b356eb5ebd5843ddbb56b 0xbe5308ec69514dc2ca8939e8bb7cc7f3 1 = true.
Proof. vm_cast_no_check (eq_refl true). Qed.
Lemma xo128_w1_c : mul_check 4 phi128 0x98f345d6b42b356eb5ebd5843ddbb56b 0xbe5308ec69514dc2ca8939e8bb7cc7f2 0x98f345d6b42b356eb5ebd5843ddbb56a = true.
Proof. vm_cast_no_check (eq_refl true). Qed.
Lemma xo128_w1 : pw v2_add v2_zero (xoroshiro_step false) v2_wf 0x98f345d6b42b356eb5ebd5843ddbb56a 68056473384187692692674921486353642291.
Proof. refine (pw_div v2_add v2_zero (xoroshiro_step false) v2_wf xoroshiro_step_false_linear 4 phi128 phi128_annihilates _ _ _ _ _ _ _ xo128_z2 xo128_a1 xo128_i1_c xo128_w1_c _). vm_cast_no_check (eq_refl 90741964512250256923566561981804856388). Qed.
Lemma xo128_y5_c : pow_check 4 phi128 1 0x98f345d6b42b356eb5ebd5843ddbb56a 0x98f345d6b42b356eb5ebd5843ddbb56a = true.
Proof. vm_cast_no_check (eq_refl true). Qed.
Lemma xo128_u5_c : mul_check 4 phi128 (N.lxor 0x98f345d6b42b356eb5ebd5843ddbb56a 1) 0xbe5308ec69514dc2ca8939e8bb7cc7f3 1 = true.
Proof. vm_cast_no_check (eq_refl true). Qed.
Lemma xo128_y5 : pw v2_add v2_zero (xoroshiro_step false) v2_wf 0x98f345d6b42b356eb5ebd5843ddbb56a 68056473384187692692674921486353642291.
Proof. refine (pw_pow v2_add v2_zero (xoroshiro_step false) v2_wf xoroshiro_step_false_linear 4 phi128 phi128_annihilates 1 _ _ _ _ xo128_w1 xo128_y5_c _). vm_cast_no_check (eq_refl 68056473384187692692674921486353642291). Qed.
Lemma xo128_cert5 : exists p u, pw v2_add v2_zero (xoroshiro_step false) v2_wf p ((2 ^ 128 - 1) / Z.to_N 5) /\ mul_check 4 phi128 (N.lxor p 1) u 1 = true.
Proof.
  assert (E : 68056473384187692692674921486353642291 = (2 ^ 128 - 1) / Z.to_N 5) by (vm_cast_no_check (eq_refl 68056473384187692692674921486353642291)).
  exists 0x98f345d6b42b356eb5ebd5843ddbb56a, 0xbe5308ec69514dc2ca8939e8bb7cc7f3. rewrite <- E. exact (conj xo128_y5 xo128_u5_c).
Qed.
Lemma xo128_a0_c : sq_check 4 phi128 1 0x28ad2cf3e09d85f0dc40f461d2c2c7d8 0x28ad2cf3e09d85f0dc40f461d2c2c7d9 = true.
Proof. vm_cast_no_check (eq_refl true). Qed.
Lemma xo128_a0 : pw v2_add v2_zero (xoroshiro_step false) v2_wf 0x28ad2cf3e09d85f0dc40f461d2c2c7d9 226854911280625642308916404954512140970.
Proof. refine (pw_sq v2_add v2_zero (xoroshiro_step false) v2_wf xoroshiro_step_false_linear 4 phi128 phi128_annihilates 1 _ _ _ _ xo128_z1 xo128_a0_c _). vm_cast_no_check (eq_refl 226854911280625642308916404954512140970). Qed.
Lemma xo128_z0_c : mul_check 4 phi128 0x28ad2cf3e09d85f0dc40f461d2c2c7d9 0x28ad2cf3e09d85f0dc40f461d2c2c7d8 0x1 = true.
Proof. vm_cast_no_check (eq_refl true). Qed.
Lemma xo128_z0 : pw v2_add v2_zero (xoroshiro_step false) v2_wf 0x1 340282366920938463463374607431768211455.
Proof. refine (pw_mul v2_add v2_zero (xoroshiro_step false) v2_wf xoroshiro_step_false_linear 4 phi128 phi128_annihilates _ _ _ _ _ _ xo128_a0 xo128_z1 xo128_z0_c _). vm_cast_no_check (eq_refl 340282366920938463463374607431768211455). Qed.
Lemma xo128_i0_c : mul_check 4 phi128 0x28ad2cf3e09d85f0dc40f461d2c2c7d9 0x28ad2cf3e09d85f0dc40f461d2c2c7d8 1 = true.
Proof. vm_cast_no_check (eq_refl true). Qed.
Lemma xo128_w0_c : mul_check 4 phi128 0x28ad2cf3e09d85f0dc40f461d2c2c7d9 0x28ad2cf3e09d85f0dc40f461d2c2c7d9 0x28ad2cf3e09d85f0dc40f461d2c2c7d8 = true.
Proof. vm_cast_no_check (eq_refl true). Qed.
Lemma xo128_w0 : pw v2_add v2_zero (xoroshiro_step false) v2_wf 0x28ad2cf3e09d85f0dc40f461d2c2c7d8 113427455640312821154458202477256070485.
Proof. refine (pw_div v2_add v2_zero (xoroshiro_step false) v2_wf xoroshiro_step_false_linear 4 phi128 phi128_annihilates _ _ _ _ _ _ _ xo128_z1 xo128_a0 xo128_i0_c xo128_w0_c _). vm_cast_no_check (eq_refl 226854911280625642308916404954512140970). Qed.
Lemma xo128_y3_c : pow_check 4 phi128 1 0x28ad2cf3e09d85f0dc40f461d2c2c7d8 0x28ad2cf3e09d85f0dc40f461d2c2c7d8 = true.
Proof. vm_cast_no_check (eq_refl true). Qed.
Lemma xo128_u3_c : mul_check 4 phi128 (N.lxor 0x28ad2cf3e09d85f0dc40f461d2c2c7d8 1) 0x28ad2cf3e09d85f0dc40f461d2c2c7d8 1 = true.
Proof. vm_cast_no_check (eq_refl true). Qed.
Lemma xo128_y3 : pw v2_add v2_zero (xoroshiro_step false) v2_wf 0x28ad2cf3e09d85f0dc40f461d2c2c7d8 113427455640312821154458202477256070485.
Proof. refine (pw_pow v2_add v2_zero (xoroshiro_step false) v2_wf xoroshiro_step_false_linear 4 phi128 phi128_annihilates 1 _ _ _ _ xo128_w0 xo128_y3_c _). vm_cast_no_check (eq_refl 113427455640312821154458202477256070485). Qed.
Lemma xo128_cert3 : exists p u, pw v2_add v2_zero (xoroshiro_step false) v2_wf p ((2 ^ 128 - 1) / Z.to_N 3) /\ mul_check 4 phi128 (N.lxor p 1) u 1 = true.
Proof.
  assert (E : 113427455640312821154458202477256070485 = (2 ^ 128 - 1) / Z.to_N 3) by (vm_cast_no_check (eq_refl 113427455640312821154458202477256070485)).
  exists 0x28ad2cf3e09d85f0dc40f461d2c2c7d8, 0x28ad2cf3e09d85f0dc40f461d2c2c7d8. rewrite <- E. exact (conj xo128_y3 xo128_u3_c).
Qed.
Lemma xo128_one : pw v2_add v2_zero (xoroshiro_step false) v2_wf 1 (2 ^ 128 - 1).
Proof.
  assert (E : 340282366920938463463374607431768211455 = 2 ^ 128 - 1) by (vm_cast_no_check (eq_refl 340282366920938463463374607431768211455)).
  rewrite <- E. exact xo128_z0.
Qed.
Lemma xo128_cert q : In q factors128 -> exists p u, pw v2_add v2_zero (xoroshiro_step false) v2_wf p ((2 ^ 128 - 1) / Z.to_N q) /\ mul_check 4 phi128 (N.lxor p 1) u 1 = true.
Proof.
  intros H. repeat (destruct H as [<-|H]); [exact xo128_cert3 |exact xo128_cert5 |exact xo128_cert17 |exact xo128_cert257 |exact xo128_cert641 |exact xo128_cert65537 |exact xo128_cert274177 |exact xo128_cert6700417 |exact xo128_cert67280421310721 |destruct H].
Qed.
Lemma xo128_prod : prodl factors128 = Z.of_N (2 ^ 128 - 1).
Proof. vm_cast_no_check (eq_refl 340282366920938463463374607431768211455%Z). Qed.
Lemma xo128_pos : 0 < 2 ^ 128 - 1.
Proof. vm_cast_no_check (eq_refl Lt). Qed.
Lemma xo128_odd : N.odd phi128 = true.
Proof. vm_cast_no_check (eq_refl true). Qed.
Theorem xo128_period v k : v2_wf v -> v <> v2_zero ->
  (N.iter k (xoroshiro_step false) v = v <-> k mod (2 ^ 128 - 1) = 0).
Proof. exact (period_exact v2_add v2_zero (xoroshiro_step false) v2_wf xoroshiro_step_false_linear 4 phi128 phi128_annihilates (2 ^ 128 - 1) factors128 factors128_prime xo128_prod xo128_pos xo128_one xo128_cert v k). Qed.
Theorem xo128_distinct v i j : v2_wf v -> v <> v2_zero ->
  (N.iter i (xoroshiro_step false) v = N.iter j (xoroshiro_step false) v <-> i mod (2 ^ 128 - 1) = j mod (2 ^ 128 - 1)).
Proof. exact (period_distinct v2_add v2_zero (xoroshiro_step false) v2_wf xoroshiro_step_false_linear 4 phi128 phi128_annihilates (2 ^ 128 - 1) factors128 factors128_prime xo128_prod xo128_pos xo128_one xo128_cert v i j xo128_odd). Qed.
Lemma xo128pp_z7 : pw v2_add v2_zero (xoroshiro_step true) v2_wf 0x2 1.
Proof. exact (pw_x v2_add v2_zero (xoroshiro_step true) v2_wf). Qed.
Lemma xo128pp_a6_c : sq_check 4 phi128pp 64 0x2 0x992ccaf6a6fca052bd7a6a6e99c2ddc = true.
Proof. vm_cast_no_check (eq_refl true). Qed.
Lemma xo128pp_a6 : pw v2_add v2_zero (xoroshiro_step true) v2_wf 0x992ccaf6a6fca052bd7a6a6e99c2ddc 18446744073709551616.
Proof. refine (pw_sq v2_add v2_zero (xoroshiro_step true) v2_wf xoroshiro_step_true_linear 4 phi128pp phi128pp_annihilates 64 _ _ _ _ xo128pp_z7 xo128pp_a6_c _). vm_cast_no_check (eq_refl 18446744073709551616). Qed.
Lemma xo128pp_z6_c : mul_check 4 phi128pp 0x992ccaf6a6fca052bd7a6a6e99c2ddc 0x2 0x1325995ed4df940a57af4d4dd3385bb8 = true.
Proof. vm_cast_no_check (eq_refl true). Qed.
Lemma xo128pp_z6 : pw v2_add v2_zero (xoroshiro_step true) v2_wf 0x1325995ed4df940a57af4d4dd3385bb8 18446744073709551617.
Proof. refine (pw_mul v2_add v2_zero (xoroshiro_step true) v2_wf xoroshiro_step_true_linear 4 phi128pp phi128pp_annihilates _ _ _ _ _ _ xo128pp_a6 xo128pp_z7 xo128pp_z6_c _). vm_cast_no_check (eq_refl 18446744073709551617). Qed.
Lemma xo128pp_i6_c : mul_check 4 phi128pp 0x8018de797c2aeb72c6d7383bcbb05840 0x2 1 = true.
Proof. vm_cast_no_check (eq_refl true). Qed.
Lemma xo128pp_w6_c : mul_check 4 phi128pp 0x8018de797c2aeb72c6d7383bcbb05840 0x992ccaf6a6fca052bd7a6a6e99c2ddc 0x4c96657b537e50295ebd35374ce16ee = true.
Proof. vm_cast_no_check (eq_refl true). Qed.
Lemma xo128pp_w6 : pw v2_add v2_zero (xoroshiro_step true) v2_wf 0x4c96657b537e50295ebd35374ce16ee 18446744073709551615.
Proof. refine (pw_div v2_add v2_zero (xoroshiro_step true) v2_wf xoroshiro_step_true_linear 4 phi128pp phi128pp_annihilates _ _ _ _ _ _ _ xo128pp_z7 xo128pp_a6 xo128pp_i6_c xo128pp_w6_c _). vm_cast_no_check (eq_refl 18446744073709551616). Qed.
Lemma xo128pp_y274177_c : pow_check 4 phi128pp 67280421310721 0x4c96657b537e50295ebd35374ce16ee 0x865a05869c8ab02eb7547d085e7a0062 = true.
Proof. vm_cast_no_check (eq_refl true). Qed.
Lemma xo128pp_u274177_c : mul_check 4 phi128pp (N.lxor 0x865a05869c8ab02eb7547d085e7a0062 1) 0xa238ed9445e7266942cd43c8150b5365 1 = true.
Proof. vm_cast_no_check (eq_refl true). Qed.
Lemma xo128pp_y274177 : pw v2_add v2_zero (xoroshiro_step true) v2_wf 0x865a05869c8ab02eb7547d085e7a0062 1241104713090224429705535502364415.
Proof. refine (pw_pow v2_add v2_zero (xoroshiro_step true) v2_wf xoroshiro_step_true_linear 4 phi128pp phi128pp_annihilates 67280421310721 _ _ _ _ xo128pp_w6 xo128pp_y274177_c _). vm_cast_no_check (eq_refl 1241104713090224429705535502364415). Qed.
Lemma xo128pp_cert274177 : exists p u, pw v2_add v2_zero (xoroshiro_step true) v2_wf p ((2 ^ 128 - 1) / Z.to_N 274177) /\ mul_check 4 phi128pp (N.lxor p 1) u 1 = true.
Proof.
  assert (E : 1241104713090224429705535502364415 = (2 ^ 128 - 1) / Z.to_N 274177) by (vm_cast_no_check (eq_refl 1241104713090224429705535502364415)).
  exists 0x865a05869c8ab02eb7547d085e7a0062, 0xa238ed9445e7266942cd43c8150b5365. rewrite <- E. exact (conj xo128pp_y274177 xo128pp_u274177_c).
Qed.
Lemma xo128pp_y67280421310721_c : pow_check 4 phi128pp 274177 0x4c96657b537e50295ebd35374ce16ee 0xa6a53783de12d0e6f4fc7174565365da = true.
Proof. vm_cast_no_check (eq_refl true). Qed.
Lemma xo128pp_u67280421310721_c : mul_check 4 phi128pp (N.lxor 0xa6a53783de12d0e6f4fc7174565365da 1) 0xff14f9fc7bbc9e719668fec350454046 1 = true.
Proof. vm_cast_no_check (eq_refl true). Qed.
Lemma xo128pp_y67280421310721 : pw v2_add v2_zero (xoroshiro_step true) v2_wf 0xa6a53783de12d0e6f4fc7174565365da 5057672949897463733145855.
Proof. refine (pw_pow v2_add v2_zero (xoroshiro_step true) v2_wf xoroshiro_step_true_linear 4 phi128pp phi128pp_annihilates 274177 _ _ _ _ xo128pp_w6 xo128pp_y67280421310721_c _). vm_cast_no_check (eq_refl 5057672949897463733145855). Qed.
Lemma xo128pp_cert67280421310721 : exists p u, pw v2_add v2_zero (xoroshiro_step true) v2_wf p ((2 ^ 128 - 1) / Z.to_N 67280421310721) /\ mul_check 4 phi128pp (N.lxor p 1) u 1 = true.
Proof.
  assert (E : 5057672949897463733145855 = (2 ^ 128 - 1) / Z.to_N 67280421310721) by (vm_cast_no_check (eq_refl 5057672949897463733145855)).
  exists 0xa6a53783de12d0e6f4fc7174565365da, 0xff14f9fc7bbc9e719668fec350454046. rewrite <- E. exact (conj xo128pp_y67280421310721 xo128pp_u67280421310721_c).
Qed.
Lemma xo128pp_a5_c : sq_check 4 phi128pp 32 0x1325995ed4df940a57af4d4dd3385bb8 0x3bd25b819839b0971c440e1629dc08c8 = true.
Proof. vm_cast_no_check (eq_refl true). Qed.
Lemma xo128pp_a5 : pw v2_add v2_zero (xoroshiro_step true) v2_wf 0x3bd25b819839b0971c440e1629dc08c8 79228162514264337597838917632.
Proof. refine (pw_sq v2_add v2_zero (xoroshiro_step true) v2_wf xoroshiro_step_true_linear 4 phi128pp phi128pp_annihilates 32 _ _ _ _ xo128pp_z6 xo128pp_a5_c _). vm_cast_no_check (eq_refl 79228162514264337597838917632). Qed.
Lemma xo128pp_z5_c : mul_check 4 phi128pp 0x3bd25b819839b0971c440e1629dc08c8 0x1325995ed4df940a57af4d4dd3385bb8 0xfde711e723cc4db7cca68f430f882639 = true.
Proof. vm_cast_no_check (eq_refl true). Qed.
Lemma xo128pp_z5 : pw v2_add v2_zero (xoroshiro_step true) v2_wf 0xfde711e723cc4db7cca68f430f882639 79228162532711081671548469249.
Proof. refine (pw_mul v2_add v2_zero (xoroshiro_step true) v2_wf xoroshiro_step_true_linear 4 phi128pp phi128pp_annihilates _ _ _ _ _ _ xo128pp_a5 xo128pp_z6 xo128pp_z5_c _). vm_cast_no_check (eq_refl 79228162532711081671548469249). Qed.
Lemma xo128pp_i5_c : mul_check 4 phi128pp 0xa83a341e12acec0fb3a831f280510774 0x1325995ed4df940a57af4d4dd3385bb8 1 = true.
Proof. vm_cast_no_check (eq_refl true). Qed.
Lemma xo128pp_w5_c : mul_check 4 phi128pp 0xa83a341e12acec0fb3a831f280510774 0x3bd25b819839b0971c440e1629dc08c8 0xf7449e92e5de1d7ff14fc5c39d2e1cc1 = true.
Proof. vm_cast_no_check (eq_refl true). Qed.
Lemma xo128pp_w5 : pw v2_add v2_zero (xoroshiro_step true) v2_wf 0xf7449e92e5de1d7ff14fc5c39d2e1cc1 79228162495817593524129366015.
Proof. refine (pw_div v2_add v2_zero (xoroshiro_step true) v2_wf xoroshiro_step_true_linear 4 phi128pp phi128pp_annihilates _ _ _ _ _ _ _ xo128pp_z6 xo128pp_a5 xo128pp_i5_c xo128pp_w5_c _). vm_cast_no_check (eq_refl 79228162514264337597838917632). Qed.
Lemma xo128pp_y641_c : pow_check 4 phi128pp 6700417 0xf7449e92e5de1d7ff14fc5c39d2e1cc1 0x71b78ce367672939d25b476c2cd59cac = true.
Proof. vm_cast_no_check (eq_refl true). Qed.
Lemma xo128pp_u641_c : mul_check 4 phi128pp (N.lxor 0x71b78ce367672939d25b476c2cd59cac 1) 0xb49a0762877d17bfc746c27cce7b37eb 1 = true.
Proof. vm_cast_no_check (eq_refl true). Qed.
Lemma xo128pp_y641 : pw v2_add v2_zero (xoroshiro_step true) v2_wf 0x71b78ce367672939d25b476c2cd59cac 530861726865738632548166314246128255.
Proof. refine (pw_pow v2_add v2_zero (xoroshiro_step true) v2_wf xoroshiro_step_true_linear 4 phi128pp phi128pp_annihilates 6700417 _ _ _ _ xo128pp_w5 xo128pp_y641_c _). vm_cast_no_check (eq_refl 530861726865738632548166314246128255). Qed.
Lemma xo128pp_cert641 : exists p u, pw v2_add v2_zero (xoroshiro_step true) v2_wf p ((2 ^ 128 - 1) / Z.to_N 641) /\ mul_check 4 phi128pp (N.lxor p 1) u 1 = true.
Proof.
  assert (E : 530861726865738632548166314246128255 = (2 ^ 128 - 1) / Z.to_N 641) by (vm_cast_no_check (eq_refl 530861726865738632548166314246128255)).
  exists 0x71b78ce367672939d25b476c2cd59cac, 0xb49a0762877d17bfc746c27cce7b37eb. rewrite <- E. exact (conj xo128pp_y641 xo128pp_u641_c).
Qed.
Lemma xo128pp_y6700417_c : pow_check 4 phi128pp 641 0xf7449e92e5de1d7ff14fc5c39d2e1cc1 0x5576fe648813c090b48204b545594523 = true.
Proof. vm_cast_no_check (eq_refl true). Qed.
Lemma xo128pp_u6700417_c : mul_check 4 phi128pp (N.lxor 0x5576fe648813c090b48204b545594523 1) 0xa00b4629afcbeb8a2d223bc0ae262b23 1 = true.
Proof. vm_cast_no_check (eq_refl true). Qed.
Lemma xo128pp_y6700417 : pw v2_add v2_zero (xoroshiro_step true) v2_wf 0x5576fe648813c090b48204b545594523 50785252159819077448966923615615.
Proof. refine (pw_pow v2_add v2_zero (xoroshiro_step true) v2_wf xoroshiro_step_true_linear 4 phi128pp phi128pp_annihilates 641 _ _ _ _ xo128pp_w5 xo128pp_y6700417_c _). vm_cast_no_check (eq_refl 50785252159819077448966923615615). Qed.
Lemma xo128pp_cert6700417 : exists p u, pw v2_add v2_zero (xoroshiro_step true) v2_wf p ((2 ^ 128 - 1) / Z.to_N 6700417) /\ mul_check 4 phi128pp (N.lxor p 1) u 1 = true.
Proof.
  assert (E : 50785252159819077448966923615615 = (2 ^ 128 - 1) / Z.to_N 6700417) by (vm_cast_no_check (eq_refl 50785252159819077448966923615615)).
  exists 0x5576fe648813c090b48204b545594523, 0xa00b4629afcbeb8a2d223bc0ae262b23. rewrite <- E. exact (conj xo128pp_y6700417 xo128pp_u6700417_c).
Qed.
Lemma xo128pp_a4_c : sq_check 4 phi128pp 16 0xfde711e723cc4db7cca68f430f882639 0xd42f5c284f4c0bd722f4087a4deee46b = true.
Proof. vm_cast_no_check (eq_refl true). Qed.
Lemma xo128pp_a4 : pw v2_add v2_zero (xoroshiro_step true) v2_wf 0xd42f5c284f4c0bd722f4087a4deee46b 5192296859743753448426600480702464.
Proof. refine (pw_sq v2_add v2_zero (xoroshiro_step true) v2_wf xoroshiro_step_true_linear 4 phi128pp phi128pp_annihilates 16 _ _ _ _ xo128pp_z5 xo128pp_a4_c _). vm_cast_no_check (eq_refl 5192296859743753448426600480702464). Qed.
Lemma xo128pp_z4_c : mul_check 4 phi128pp 0xd42f5c284f4c0bd722f4087a4deee46b 0xfde711e723cc4db7cca68f430f882639 0xfd7492a05734db4300ed0bd092827ff3 = true.
Proof. vm_cast_no_check (eq_refl true). Qed.
Lemma xo128pp_z4 : pw v2_add v2_zero (xoroshiro_step true) v2_wf 0xfd7492a05734db4300ed0bd092827ff3 5192376087906286159508272029171713.
Proof. refine (pw_mul v2_add v2_zero (xoroshiro_step true) v2_wf xoroshiro_step_true_linear 4 phi128pp phi128pp_annihilates _ _ _ _ _ _ xo128pp_a4 xo128pp_z5 xo128pp_z4_c _). vm_cast_no_check (eq_refl 5192376087906286159508272029171713). Qed.
Lemma xo128pp_i4_c : mul_check 4 phi128pp 0x8ae9eddb4b844a6e56552c9b7441520a 0xfde711e723cc4db7cca68f430f882639 1 = true.
Proof. vm_cast_no_check (eq_refl true). Qed.
Lemma xo128pp_w4_c : mul_check 4 phi128pp 0x8ae9eddb4b844a6e56552c9b7441520a 0xd42f5c284f4c0bd722f4087a4deee46b 0x96caa01e7fada81a29f7dac76ab81fa7 = true.
Proof. vm_cast_no_check (eq_refl true). Qed.
Lemma xo128pp_w4 : pw v2_add v2_zero (xoroshiro_step true) v2_wf 0x96caa01e7fada81a29f7dac76ab81fa7 5192217631581220737344928932233215.
Proof. refine (pw_div v2_add v2_zero (xoroshiro_step true) v2_wf xoroshiro_step_true_linear 4 phi128pp phi128pp_annihilates _ _ _ _ _ _ _ xo128pp_z5 xo128pp_a4 xo128pp_i4_c xo128pp_w4_c _). vm_cast_no_check (eq_refl 5192296859743753448426600480702464). Qed.
Lemma xo128pp_y65537_c : pow_check 4 phi128pp 1 0x96caa01e7fada81a29f7dac76ab81fa7 0x96caa01e7fada81a29f7dac76ab81fa7 = true.
Proof. vm_cast_no_check (eq_refl true). Qed.
Lemma xo128pp_u65537_c : mul_check 4 phi128pp (N.lxor 0x96caa01e7fada81a29f7dac76ab81fa7 1) 0xdb13661077af59e00dd681384f51c049 1 = true.
Proof. vm_cast_no_check (eq_refl true). Qed.
Lemma xo128pp_y65537 : pw v2_add v2_zero (xoroshiro_step true) v2_wf 0x96caa01e7fada81a29f7dac76ab81fa7 5192217631581220737344928932233215.
Proof. refine (pw_pow v2_add v2_zero (xoroshiro_step true) v2_wf xoroshiro_step_true_linear 4 phi128pp phi128pp_annihilates 1 _ _ _ _ xo128pp_w4 xo128pp_y65537_c _). vm_cast_no_check (eq_refl 5192217631581220737344928932233215). Qed.
Lemma xo128pp_cert65537 : exists p u, pw v2_add v2_zero (xoroshiro_step true) v2_wf p ((2 ^ 128 - 1) / Z.to_N 65537) /\ mul_check 4 phi128pp (N.lxor p 1) u 1 = true.
Proof.
  assert (E : 5192217631581220737344928932233215 = (2 ^ 128 - 1) / Z.to_N 65537) by (vm_cast_no_check (eq_refl 5192217631581220737344928932233215)).
  exists 0x96caa01e7fada81a29f7dac76ab81fa7, 0xdb13661077af59e00dd681384f51c049. rewrite <- E. exact (conj xo128pp_y65537 xo128pp_u65537_c).
Qed.
Lemma xo128pp_a3_c : sq_check 4 phi128pp 8 0xfd7492a05734db4300ed0bd092827ff3 0x1907f82d3a7d7abcb672d4e3a46459be = true.
Proof. vm_cast_no_check (eq_refl true). Qed.
Lemma xo128pp_a3 : pw v2_add v2_zero (xoroshiro_step true) v2_wf 0x1907f82d3a7d7abcb672d4e3a46459be 1329248278504009256834117639467958528.
Proof. refine (pw_sq v2_add v2_zero (xoroshiro_step true) v2_wf xoroshiro_step_true_linear 4 phi128pp phi128pp_annihilates 8 _ _ _ _ xo128pp_z4 xo128pp_a3_c _). vm_cast_no_check (eq_refl 1329248278504009256834117639467958528). Qed.
Lemma xo128pp_z3_c : mul_check 4 phi128pp 0x1907f82d3a7d7abcb672d4e3a46459be 0xfd7492a05734db4300ed0bd092827ff3 0x5ced9a5dbe1915dc8c19ca389f51e489 = true.
Proof. vm_cast_no_check (eq_refl true). Qed.
Lemma xo128pp_z3 : pw v2_add v2_zero (xoroshiro_step true) v2_wf 0x5ced9a5dbe1915dc8c19ca389f51e489 1334440654591915542993625911497130241.
Proof. refine (pw_mul v2_add v2_zero (xoroshiro_step true) v2_wf xoroshiro_step_true_linear 4 phi128pp phi128pp_annihilates _ _ _ _ _ _ xo128pp_a3 xo128pp_z4 xo128pp_z3_c _). vm_cast_no_check (eq_refl 1334440654591915542993625911497130241). Qed.
Lemma xo128pp_i3_c : mul_check 4 phi128pp 0xeb279e5177627fb47bf60aefe45c928 0xfd7492a05734db4300ed0bd092827ff3 1 = true.
Proof. vm_cast_no_check (eq_refl true). Qed.
Lemma xo128pp_w3_c : mul_check 4 phi128pp 0xeb279e5177627fb47bf60aefe45c928 0x1907f82d3a7d7abcb672d4e3a46459be 0x59b76136d0fae487cac9c7974700c7af = true.
Proof. vm_cast_no_check (eq_refl true). Qed.
Lemma xo128pp_w3 : pw v2_add v2_zero (xoroshiro_step true) v2_wf 0x59b76136d0fae487cac9c7974700c7af 1324055902416102970674609367438786815.
Proof. refine (pw_div v2_add v2_zero (xoroshiro_step true) v2_wf xoroshiro_step_true_linear 4 phi128pp phi128pp_annihilates _ _ _ _ _ _ _ xo128pp_z4 xo128pp_a3 xo128pp_i3_c xo128pp_w3_c _). vm_cast_no_check (eq_refl 1329248278504009256834117639467958528). Qed.
Lemma xo128pp_y257_c : pow_check 4 phi128pp 1 0x59b76136d0fae487cac9c7974700c7af 0x59b76136d0fae487cac9c7974700c7af = true.
Proof. vm_cast_no_check (eq_refl true). Qed.
Lemma xo128pp_u257_c : mul_check 4 phi128pp (N.lxor 0x59b76136d0fae487cac9c7974700c7af 1) 0x16af9c4a631a2f363a7db75f4eb26890 1 = true.
Proof. vm_cast_no_check (eq_refl true). Qed.
Lemma xo128pp_y257 : pw v2_add v2_zero (xoroshiro_step true) v2_wf 0x59b76136d0fae487cac9c7974700c7af 1324055902416102970674609367438786815.
Proof. refine (pw_pow v2_add v2_zero (xoroshiro_step true) v2_wf xoroshiro_step_true_linear 4 phi128pp phi128pp_annihilates 1 _ _ _ _ xo128pp_w3 xo128pp_y257_c _). vm_cast_no_check (eq_refl 1324055902416102970674609367438786815). Qed.
Lemma xo128pp_cert257 : exists p u, pw v2_add v2_zero (xoroshiro_step true) v2_wf p ((2 ^ 128 - 1) / Z.to_N 257) /\ mul_check 4 phi128pp (N.lxor p 1) u 1 = true.
Proof.
  assert (E : 1324055902416102970674609367438786815 = (2 ^ 128 - 1) / Z.to_N 257) by (vm_cast_no_check (eq_refl 1324055902416102970674609367438786815)).
  exists 0x59b76136d0fae487cac9c7974700c7af, 0x16af9c4a631a2f363a7db75f4eb26890. rewrite <- E. exact (conj xo128pp_y257 xo128pp_u257_c).
Qed.
Lemma xo128pp_a2_c : sq_check 4 phi128pp 4 0x5ced9a5dbe1915dc8c19ca389f51e489 0x8d6776398017669e4fb86db86b1bcac7 = true.
Proof. vm_cast_no_check (eq_refl true). Qed.
Lemma xo128pp_a2 : pw v2_add v2_zero (xoroshiro_step true) v2_wf 0x8d6776398017669e4fb86db86b1bcac7 21351050473470648687898014583954083856.
Proof. refine (pw_sq v2_add v2_zero (xoroshiro_step true) v2_wf xoroshiro_step_true_linear 4 phi128pp phi128pp_annihilates 4 _ _ _ _ xo128pp_z3 xo128pp_a2_c _). vm_cast_no_check (eq_refl 21351050473470648687898014583954083856). Qed.
Lemma xo128pp_z2_c : mul_check 4 phi128pp 0x8d6776398017669e4fb86db86b1bcac7 0x5ced9a5dbe1915dc8c19ca389f51e489 0x7a213d864dff9b12be48da6b44fb107c = true.
Proof. vm_cast_no_check (eq_refl true). Qed.
Lemma xo128pp_z2 : pw v2_add v2_zero (xoroshiro_step true) v2_wf 0x7a213d864dff9b12be48da6b44fb107c 22685491128062564230891640495451214097.
Proof. refine (pw_mul v2_add v2_zero (xoroshiro_step true) v2_wf xoroshiro_step_true_linear 4 phi128pp phi128pp_annihilates _ _ _ _ _ _ xo128pp_a2 xo128pp_z3 xo128pp_z2_c _). vm_cast_no_check (eq_refl 22685491128062564230891640495451214097). Qed.
Lemma xo128pp_i2_c : mul_check 4 phi128pp 0x78b0d07e32480e499870a2c6357f115f 0x5ced9a5dbe1915dc8c19ca389f51e489 1 = true.
Proof. vm_cast_no_check (eq_refl true). Qed.
Lemma xo128pp_w2_c : mul_check 4 phi128pp 0x78b0d07e32480e499870a2c6357f115f 0x8d6776398017669e4fb86db86b1bcac7 0x37307a1c6a1f98c87aa407b5ae91ac66 = true.
Proof. vm_cast_no_check (eq_refl true). Qed.
Lemma xo128pp_w2 : pw v2_add v2_zero (xoroshiro_step true) v2_wf 0x37307a1c6a1f98c87aa407b5ae91ac66 20016609818878733144904388672456953615.
Proof. refine (pw_div v2_add v2_zero (xoroshiro_step true) v2_wf xoroshiro_step_true_linear 4 phi128pp phi128pp_annihilates _ _ _ _ _ _ _ xo128pp_z3 xo128pp_a2 xo128pp_i2_c xo128pp_w2_c _). vm_cast_no_check (eq_refl 21351050473470648687898014583954083856). Qed.
Lemma xo128pp_y17_c : pow_check 4 phi128pp 1 0x37307a1c6a1f98c87aa407b5ae91ac66 0x37307a1c6a1f98c87aa407b5ae91ac66 = true.
Proof. vm_cast_no_check (eq_refl true). Qed.
Lemma xo128pp_u17_c : mul_check 4 phi128pp (N.lxor 0x37307a1c6a1f98c87aa407b5ae91ac66 1) 0x11a4cccadf16c9286157104d6882fdd5 1 = true.
Proof. vm_cast_no_check (eq_refl true). Qed.
Lemma xo128pp_y17 : pw v2_add v2_zero (xoroshiro_step true) v2_wf 0x37307a1c6a1f98c87aa407b5ae91ac66 20016609818878733144904388672456953615.
Proof. refine (pw_pow v2_add v2_zero (xoroshiro_step true) v2_wf xoroshiro_step_true_linear 4 phi128pp phi128pp_annihilates 1 _ _ _ _ xo128pp_w2 xo128pp_y17_c _). vm_cast_no_check (eq_refl 20016609818878733144904388672456953615). Qed.
Lemma xo128pp_cert17 : exists p u, pw v2_add v2_zero (xoroshiro_step true) v2_wf p ((2 ^ 128 - 1) / Z.to_N 17) /\ mul_check 4 phi128pp (N.lxor p 1) u 1 = true.
Proof.
  assert (E : 20016609818878733144904388672456953615 = (2 ^ 128 - 1) / Z.to_N 17) by (vm_cast_no_check (eq_refl 20016609818878733144904388672456953615)).
  exists 0x37307a1c6a1f98c87aa407b5ae91ac66, 0x11a4cccadf16c9286157104d6882fdd5. rewrite <- E. exact (conj xo128pp_y17 xo128pp_u17_c).
Qed.
Lemma xo128pp_a1_c : sq_check 4 phi128pp 2 0x7a213d864dff9b12be48da6b44fb107c 0x7a213d864dff9b12be48da6b44fb107d = true.
Proof. vm_cast_no_check (eq_refl true). Qed.
Lemma xo128pp_a1 : pw v2_add v2_zero (xoroshiro_step true) v2_wf 0x7a213d864dff9b12be48da6b44fb107d 90741964512250256923566561981804856388.
Proof. refine (pw_sq v2_add v2_zero (xoroshiro_step true) v2_wf xoroshiro_step_true_linear 4 phi128pp phi128pp_annihilates 2 _ _ _ _ xo128pp_z2 xo128pp_a1_c _). vm_cast_no_check (eq_refl 90741964512250256923566561981804856388). Qed.
Lemma xo128pp_z1_c : mul_check 4 phi128pp 0x7a213d864dff9b12be48da6b44fb107d 0x7a213d864dff9b12be48da6b44fb107c 0xd18aec643e0e7342c3a1a780f44a2e4f = true.
Proof. vm_cast_no_check (eq_refl true). Qed.
Lemma xo128pp_z1 : pw v2_add v2_zero (xoroshiro_step true) v2_wf 0xd18aec643e0e7342c3a1a780f44a2e4f 113427455640312821154458202477256070485.
Proof. refine (pw_mul v2_add v2_zero (xoroshiro_step true) v2_wf xoroshiro_step_true_linear 4 phi128pp phi128pp_annihilates _ _ _ _ _ _ xo128pp_a1 xo128pp_z2 xo128pp_z1_c _). vm_cast_no_check (eq_refl 113427455640312821154458202477256070485). Qed.
Lemma xo128pp_i1_c : mul_check 4 phi128pp 0x22ca3c9be1042cf5449f7a31826e8e8e 0x7a213d864dff9b12be48da6b44fb107c 1 = true.
Proof. vm_cast_no_check (eq_refl true). Qed.
Lemma xo128pp_w1_c : mul_check 4 phi128pp 0x22ca3c9be1042cf5449f7a31826e8e8e 0x7a213d864dff9b12be48da6b44fb107d 0x22ca3c9be1042cf5449f7a31826e8e8f = true.
Proof. vm_cast_no_check (eq_refl true). Qed.
Lemma xo128pp_w1 : pw v2_add v2_zero (xoroshiro_step true) v2_wf 0x22ca3c9be1042cf5449f7a31826e8e8f 68056473384187692692674921486353642291.
Proof. refine (pw_div v2_add v2_zero (xoroshiro_step true) v2_wf xoroshiro_step_true_linear 4 phi128pp phi128pp_annihilates _ _ _ _ _ _ _ xo128pp_z2 xo128pp_a1 xo128pp_i1_c xo128pp_w1_c _). vm_cast_no_check (eq_refl 90741964512250256923566561981804856388). Qed.
Lemma xo128pp_y5_c : pow_check 4 phi128pp 1 0x22ca3c9be1042cf5449f7a31826e8e8f 0x22ca3c9be1042cf5449f7a31826e8e8f = true.
Proof. vm_cast_no_check (eq_refl true). Qed.
Lemma xo128pp_u5_c : mul_check 4 phi128pp (N.lxor 0x22ca3c9be1042cf5449f7a31826e8e8f 1) 0x7a213d864dff9b12be48da6b44fb107c 1 = true.
Proof. vm_cast_no_check (eq_refl true). Qed.
Lemma xo128pp_y5 : pw v2_add v2_zero (xoroshiro_step true) v2_wf 0x22ca3c9be1042cf5449f7a31826e8e8f 68056473384187692692674921486353642291.
Proof. refine (pw_pow v2_add v2_zero (xoroshiro_step true) v2_wf xoroshiro_step_true_linear 4 phi128pp phi128pp_annihilates 1 _ _ _ _ xo128pp_w1 xo128pp_y5_c _). vm_cast_no_check (eq_refl 68056473384187692692674921486353642291). Qed.
Lemma xo128pp_cert5 : exists p u, pw v2_add v2_zero (xoroshiro_step true) v2_wf p ((2 ^ 128 - 1) / Z.to_N 5) /\ mul_check 4 phi128pp (N.lxor p 1) u 1 = true.
Proof.
  assert (E : 68056473384187692692674921486353642291 = (2 ^ 128 - 1) / Z.to_N 5) by (vm_cast_no_check (eq_refl 68056473384187692692674921486353642291)).
  exists 0x22ca3c9be1042cf5449f7a31826e8e8f, 0x7a213d864dff9b12be48da6b44fb107c. rewrite <- E. exact (conj xo128pp_y5 xo128pp_u5_c).
Qed.
Lemma xo128pp_a0_c : sq_check 4 phi128pp 1 0xd18aec643e0e7342c3a1a780f44a2e4f 0xd18aec643e0e7342c3a1a780f44a2e4e = true.
Proof. vm_cast_no_check (eq_refl true). Qed.
Lemma xo128pp_a0 : pw v2_add v2_zero (xoroshiro_step true) v2_wf 0xd18aec643e0e7342c3a1a780f44a2e4e 226854911280625642308916404954512140970.
Proof. refine (pw_sq v2_add v2_zero (xoroshiro_step true) v2_wf xoroshiro_step_true_linear 4 phi128pp phi128pp_annihilates 1 _ _ _ _ xo128pp_z1 xo128pp_a0_c _). vm_cast_no_check (eq_refl 226854911280625642308916404954512140970). Qed.
Lemma xo128pp_z0_c : mul_check 4 phi128pp 0xd18aec643e0e7342c3a1a780f44a2e4e 0xd18aec643e0e7342c3a1a780f44a2e4f 0x1 = true.
Proof. vm_cast_no_check (eq_refl true). Qed.
Lemma xo128pp_z0 : pw v2_add v2_zero (xoroshiro_step true) v2_wf 0x1 340282366920938463463374607431768211455.
Proof. refine (pw_mul v2_add v2_zero (xoroshiro_step true) v2_wf xoroshiro_step_true_linear 4 phi128pp phi128pp_annihilates _ _ _ _ _ _ xo128pp_a0 xo128pp_z1 xo128pp_z0_c _). vm_cast_no_check (eq_refl 340282366920938463463374607431768211455). Qed.
Lemma xo128pp_i0_c : mul_check 4 phi128pp 0xd18aec643e0e7342c3a1a780f44a2e4e 0xd18aec643e0e7342c3a1a780f44a2e4f 1 = true.
Proof. vm_cast_no_check (eq_refl true). Qed.
Lemma xo128pp_w0_c : mul_check 4 phi128pp 0xd18aec643e0e7342c3a1a780f44a2e4e 0xd18aec643e0e7342c3a1a780f44a2e4e 0xd18aec643e0e7342c3a1a780f44a2e4f = true.
Proof. vm_cast_no_check (eq_refl true). Qed.
Lemma xo128pp_w0 : pw v2_add v2_zero (xoroshiro_step true) v2_wf 0xd18aec643e0e7342c3a1a780f44a2e4f 113427455640312821154458202477256070485.
Proof. refine (pw_div v2_add v2_zero (xoroshiro_step true) v2_wf xoroshiro_step_true_linear 4 phi128pp phi128pp_annihilates _ _ _ _ _ _ _ xo128pp_z1 xo128pp_a0 xo128pp_i0_c xo128pp_w0_c _). vm_cast_no_check (eq_refl 226854911280625642308916404954512140970). Qed.
Lemma xo128pp_y3_c : pow_check 4 phi128pp 1 0xd18aec643e0e7342c3a1a780f44a2e4f 0xd18aec643e0e7342c3a1a780f44a2e4f = true.
Proof. vm_cast_no_check (eq_refl true). Qed.
Lemma xo128pp_u3_c : mul_check 4 phi128pp (N.lxor 0xd18aec643e0e7342c3a1a780f44a2e4f 1) 0xd18aec643e0e7342c3a1a780f44a2e4f 1 = true.
Proof. vm_cast_no_check (eq_refl true). Qed.
Lemma xo128pp_y3 : pw v2_add v2_zero (xoroshiro_step true) v2_wf 0xd18aec643e0e7342c3a1a780f44a2e4f 113427455640312821154458202477256070485.
Proof. refine (pw_pow v2_add v2_zero (xoroshiro_step true) v2_wf xoroshiro_step_true_linear 4 phi128pp phi128pp_annihilates 1 _ _ _ _ xo128pp_w0 xo128pp_y3_c _). vm_cast_no_check (eq_refl 113427455640312821154458202477256070485). Qed.
Lemma xo128pp_cert3 : exists p u, pw v2_add v2_zero (xoroshiro_step true) v2_wf p ((2 ^ 128 - 1) / Z.to_N 3) /\ mul_check 4 phi128pp (N.lxor p 1) u 1 = true.
Proof.
  assert (E : 113427455640312821154458202477256070485 = (2 ^ 128 - 1) / Z.to_N 3) by (vm_cast_no_check (eq_refl 113427455640312821154458202477256070485)).
  exists 0xd18aec643e0e7342c3a1a780f44a2e4f, 0xd18aec643e0e7342c3a1a780f44a2e4f. rewrite <- E. exact (conj xo128pp_y3 xo128pp_u3_c).
Qed.
Lemma xo128pp_one : pw v2_add v2_zero (xoroshiro_step true) v2_wf 1 (2 ^ 128 - 1).
Proof.
  assert (E : 340282366920938463463374607431768211455 = 2 ^ 128 - 1) by (vm_cast_no_check (eq_refl 340282366920938463463374607431768211455)).
  rewrite <- E. exact xo128pp_z0.
Qed.
Lemma xo128pp_cert q : In q factors128 -> exists p u, pw v2_add v2_zero (xoroshiro_step true) v2_wf p ((2 ^ 128 - 1) / Z.to_N q) /\ mul_check 4 phi128pp (N.lxor p 1) u 1 = true.
Proof.
  intros H. repeat (destruct H as [<-|H]); [exact xo128pp_cert3 |exact xo128pp_cert5 |exact xo128pp_cert17 |exact xo128pp_cert257 |exact xo128pp_cert641 |exact xo128pp_cert65537 |exact xo128pp_cert274177 |exact xo128pp_cert6700417 |exact xo128pp_cert67280421310721 |destruct H].
Qed.
Lemma xo128pp_prod : prodl factors128 = Z.of_N (2 ^ 128 - 1).
Proof. vm_cast_no_check (eq_refl 340282366920938463463374607431768211455%Z). Qed.
Lemma xo128pp_pos : 0 < 2 ^ 128 - 1.
Proof. vm_cast_no_check (eq_refl Lt). Qed.
Lemma xo128pp_odd : N.odd phi128pp = true.
Proof. vm_cast_no_check (eq_refl true). Qed.
Theorem xo128pp_period v k : v2_wf v -> v <> v2_zero ->
  (N.iter k (xoroshiro_step true) v = v <-> k mod (2 ^ 128 - 1) = 0).
Proof. exact (period_exact v2_add v2_zero (xoroshiro_step true) v2_wf xoroshiro_step_true_linear 4 phi128pp phi128pp_annihilates (2 ^ 128 - 1) factors128 factors128_prime xo128pp_prod xo128pp_pos xo128pp_one xo128pp_cert v k). Qed.
Theorem xo128pp_distinct v i j : v2_wf v -> v <> v2_zero ->
  (N.iter i (xoroshiro_step true) v = N.iter j (xoroshiro_step true) v <-> i mod (2 ^ 128 - 1) = j mod (2 ^ 128 - 1)).
Proof. exact (period_distinct v2_add v2_zero (xoroshiro_step true) v2_wf xoroshiro_step_true_linear 4 phi128pp phi128pp_annihilates (2 ^ 128 - 1) factors128 factors128_prime xo128pp_prod xo128pp_pos xo128pp_one xo128pp_cert v i j xo128pp_odd). Qed.
Lemma xo256_z8 : pw v4_add v4_zero xoshiro256_step v4_wf 0x2 1.
Proof. exact (pw_x v4_add v4_zero xoshiro256_step v4_wf). Qed.
Lemma xo256_a7_c : sq_check 8 phi256 128 0x2 0x39abdc4529b1661ca9582618e03fc9aad5a61266f0c9392c180ec6d33cfd0aba = true.
Proof. vm_cast_no_check (eq_refl true). Qed.
Lemma xo256_a7 : pw v4_add v4_zero xoshiro256_step v4_wf 0x39abdc4529b1661ca9582618e03fc9aad5a61266f0c9392c180ec6d33cfd0aba 340282366920938463463374607431768211456.
Proof. refine (pw_sq v4_add v4_zero xoshiro256_step v4_wf xoshiro256_step_linear 8 phi256 phi256_annihilates 128 _ _ _ _ xo256_z8 xo256_a7_c _). vm_cast_no_check (eq_refl 340282366920938463463374607431768211456). Qed.
Lemma xo256_z7_c : mul_check 8 phi256 0x39abdc4529b1661ca9582618e03fc9aad5a61266f0c9392c180ec6d33cfd0aba 0x2 0x7357b88a5362cc3952b04c31c07f9355ab4c24cde1927258301d8da679fa1574 = true.
Proof. vm_cast_no_check (eq_refl true). Qed.
Lemma xo256_z7 : pw v4_add v4_zero xoshiro256_step v4_wf 0x7357b88a5362cc3952b04c31c07f9355ab4c24cde1927258301d8da679fa1574 340282366920938463463374607431768211457.
Proof. refine (pw_mul v4_add v4_zero xoshiro256_step v4_wf xoshiro256_step_linear 8 phi256 phi256_annihilates _ _ _ _ _ _ xo256_a7 xo256_z8 xo256_z7_c _). vm_cast_no_check (eq_refl 340282366920938463463374607431768211457). Qed.
Lemma xo256_i7_c : mul_check 8 phi256 0x8001e01e1f9f658c825a76e79312cfc281400015e77e8d2f4e88b795d8787800 0x2 1 = true.
Proof. vm_cast_no_check (eq_refl true). Qed.
Lemma xo256_w7_c : mul_check 8 phi256 0x8001e01e1f9f658c825a76e79312cfc281400015e77e8d2f4e88b795d8787800 0x39abdc4529b1661ca9582618e03fc9aad5a61266f0c9392c180ec6d33cfd0aba 0x1cd5ee2294d8b30e54ac130c701fe4d56ad3093378649c960c0763699e7e855d = true.
Proof. vm_cast_no_check (eq_refl true). Qed.
Lemma xo256_w7 : pw v4_add v4_zero xoshiro256_step v4_wf 0x1cd5ee2294d8b30e54ac130c701fe4d56ad3093378649c960c0763699e7e855d 340282366920938463463374607431768211455.
Proof. refine (pw_div v4_add v4_zero xoshiro256_step v4_wf xoshiro256_step_linear 8 phi256 phi256_annihilates _ _ _ _ _ _ _ xo256_z8 xo256_a7 xo256_i7_c xo256_w7_c _). vm_cast_no_check (eq_refl 340282366920938463463374607431768211456). Qed.
Lemma xo256_y59649589127497217_c : pow_check 8 phi256 5704689200685129054721 0x1cd5ee2294d8b30e54ac130c701fe4d56ad3093378649c960c0763699e7e855d 0x9ca884016a9ae0ccc7d474a8d84519140837e437505a90a217cc3ecd3bb53a6 = true.
Proof. vm_cast_no_check (eq_refl true). Qed.
Lemma xo256_u59649589127497217_c : mul_check 8 phi256 (N.lxor 0x9ca884016a9ae0ccc7d474a8d84519140837e437505a90a217cc3ecd3bb53a6 1) 0x2b0b5d0e0d5dcbfd343a0c7c13920e58856efc82f8b6f3e99a6368bb225afce6 1 = true.
Proof. vm_cast_no_check (eq_refl true). Qed.
Lemma xo256_y59649589127497217 : pw v4_add v4_zero xoshiro256_step v4_wf 0x9ca884016a9ae0ccc7d474a8d84519140837e437505a90a217cc3ecd3bb53a6 1941205143757452242770874767385119893385096602219740994029055.
Proof. refine (pw_pow v4_add v4_zero xoshiro256_step v4_wf xoshiro256_step_linear 8 phi256 phi256_annihilates 5704689200685129054721 _ _ _ _ xo256_w7 xo256_y59649589127497217_c _). vm_cast_no_check (eq_refl 1941205143757452242770874767385119893385096602219740994029055). Qed.
Lemma xo256_cert59649589127497217 : exists p u, pw v4_add v4_zero xoshiro256_step v4_wf p ((2 ^ 256 - 1) / Z.to_N 59649589127497217) /\ mul_check 8 phi256 (N.lxor p 1) u 1 = true.
Proof.
  assert (E : 1941205143757452242770874767385119893385096602219740994029055 = (2 ^ 256 - 1) / Z.to_N 59649589127497217) by (vm_cast_no_check (eq_refl 1941205143757452242770874767385119893385096602219740994029055)).
  exists 0x9ca884016a9ae0ccc7d474a8d84519140837e437505a90a217cc3ecd3bb53a6, 0x2b0b5d0e0d5dcbfd343a0c7c13920e58856efc82f8b6f3e99a6368bb225afce6. rewrite <- E. exact (conj xo256_y59649589127497217 xo256_u59649589127497217_c).
Qed.
Lemma xo256_y5704689200685129054721_c : pow_check 8 phi256 59649589127497217 0x1cd5ee2294d8b30e54ac130c701fe4d56ad3093378649c960c0763699e7e855d 0x3d5cb71a110f671392e965f9e4b713e93b04d92f3f0eaf518cdb42c9fdb2914c = true.
Proof. vm_cast_no_check (eq_refl true). Qed.
Lemma xo256_u5704689200685129054721_c : mul_check 8 phi256 (N.lxor 0x3d5cb71a110f671392e965f9e4b713e93b04d92f3f0eaf518cdb42c9fdb2914c 1) 0xca8fcba3c0dd08871d4e3f7290e3e7fb8436109b90a55fd4bc6fe9d31b611e5 1 = true.
Proof. vm_cast_no_check (eq_refl true). Qed.
Lemma xo256_y5704689200685129054721 : pw v4_add v4_zero xoshiro256_step v4_wf 0x3d5cb71a110f671392e965f9e4b713e93b04d92f3f0eaf518cdb42c9fdb2914c 20297703374166229616474325006177763232573806344580020735.
Proof. refine (pw_pow v4_add v4_zero xoshiro256_step v4_wf xoshiro256_step_linear 8 phi256 phi256_annihilates 59649589127497217 _ _ _ _ xo256_w7 xo256_y5704689200685129054721_c _). vm_cast_no_check (eq_refl 20297703374166229616474325006177763232573806344580020735). Qed.
Lemma xo256_cert5704689200685129054721 : exists p u, pw v4_add v4_zero xoshiro256_step v4_wf p ((2 ^ 256 - 1) / Z.to_N 5704689200685129054721) /\ mul_check 8 phi256 (N.lxor p 1) u 1 = true.
Proof.
  assert (E : 20297703374166229616474325006177763232573806344580020735 = (2 ^ 256 - 1) / Z.to_N 5704689200685129054721) by (vm_cast_no_check (eq_refl 20297703374166229616474325006177763232573806344580020735)).
  exists 0x3d5cb71a110f671392e965f9e4b713e93b04d92f3f0eaf518cdb42c9fdb2914c, 0xca8fcba3c0dd08871d4e3f7290e3e7fb8436109b90a55fd4bc6fe9d31b611e5. rewrite <- E. exact (conj xo256_y5704689200685129054721 xo256_u5704689200685129054721_c).
Qed.
Lemma xo256_a6_c : sq_check 8 phi256 64 0x7357b88a5362cc3952b04c31c07f9355ab4c24cde1927258301d8da679fa1574 0x158c6a3fcdb1b9ddb01b0802f640bd421310f9a324bffeb16b5f0de6ed5adbcf = true.
Proof. vm_cast_no_check (eq_refl true). Qed.
Lemma xo256_a6 : pw v4_add v4_zero xoshiro256_step v4_wf 0x158c6a3fcdb1b9ddb01b0802f640bd421310f9a324bffeb16b5f0de6ed5adbcf 6277101735386680763835789423207666416120802188537744064512.
Proof. refine (pw_sq v4_add v4_zero xoshiro256_step v4_wf xoshiro256_step_linear 8 phi256 phi256_annihilates 64 _ _ _ _ xo256_z7 xo256_a6_c _). vm_cast_no_check (eq_refl 6277101735386680763835789423207666416120802188537744064512). Qed.
Lemma xo256_z6_c : mul_check 8 phi256 0x158c6a3fcdb1b9ddb01b0802f640bd421310f9a324bffeb16b5f0de6ed5adbcf 0x7357b88a5362cc3952b04c31c07f9355ab4c24cde1927258301d8da679fa1574 0x2ccb0c39650b443263c054f9fe32fbaac792b030bd6c5d645687d3d06e01eedc = true.
Proof. vm_cast_no_check (eq_refl true). Qed.
Lemma xo256_z6 : pw v4_add v4_zero xoshiro256_step v4_wf 0x2ccb0c39650b443263c054f9fe32fbaac792b030bd6c5d645687d3d06e01eedc 6277101735386680764176071790128604879584176795969512275969.
Proof. refine (pw_mul v4_add v4_zero xoshiro256_step v4_wf xoshiro256_step_linear 8 phi256 phi256_annihilates _ _ _ _ _ _ xo256_a6 xo256_z7 xo256_z6_c _). vm_cast_no_check (eq_refl 6277101735386680764176071790128604879584176795969512275969). Qed.
Lemma xo256_i6_c : mul_check 8 phi256 0xed47828352a53cbd1365c123da73560a68792159c4199258bcf0057165d2bbf6 0x7357b88a5362cc3952b04c31c07f9355ab4c24cde1927258301d8da679fa1574 1 = true.
Proof. vm_cast_no_check (eq_refl true). Qed.
Lemma xo256_w6_c : mul_check 8 phi256 0xed47828352a53cbd1365c123da73560a68792159c4199258bcf0057165d2bbf6 0x158c6a3fcdb1b9ddb01b0802f640bd421310f9a324bffeb16b5f0de6ed5adbcf 0xea589bac321fb9a794f89aadd3a130f660161370fcd087627a75d0283f485e6e = true.
Proof. vm_cast_no_check (eq_refl true). Qed.
Lemma xo256_w6 : pw v4_add v4_zero xoshiro256_step v4_wf 0xea589bac321fb9a794f89aadd3a130f660161370fcd087627a75d0283f485e6e 6277101735386680763495507056286727952657427581105975853055.
Proof. refine (pw_div v4_add v4_zero xoshiro256_step v4_wf xoshiro256_step_linear 8 phi256 phi256_annihilates _ _ _ _ _ _ _ xo256_z7 xo256_a6 xo256_i6_c xo256_w6_c _). vm_cast_no_check (eq_refl 6277101735386680763835789423207666416120802188537744064512). Qed.
Lemma xo256_y274177_c : pow_check 8 phi256 67280421310721 0xea589bac321fb9a794f89aadd3a130f660161370fcd087627a75d0283f485e6e 0xe5a556c3c9e400e198126a39102fcc20f4c3663facb3240e1d771075d04e50d8 = true.
Proof. vm_cast_no_check (eq_refl true). Qed.
Lemma xo256_u274177_c : mul_check 8 phi256 (N.lxor 0xe5a556c3c9e400e198126a39102fcc20f4c3663facb3240e1d771075d04e50d8 1) 0x24d5461cfd63732f63b6b60adc840b312db07c0c8c7b46872d3955d70f9e6ac5 1 = true.
Proof. vm_cast_no_check (eq_refl true). Qed.
Lemma xo256_y274177 : pw v4_add v4_zero xoshiro256_step v4_wf 0xe5a556c3c9e400e198126a39102fcc20f4c3663facb3240e1d771075d04e50d8 422326049367073807881663979869529201403728192611490256438204459192102655.
Proof. refine (pw_pow v4_add v4_zero xoshiro256_step v4_wf xoshiro256_step_linear 8 phi256 phi256_annihilates 67280421310721 _ _ _ _ xo256_w6 xo256_y274177_c _). vm_cast_no_check (eq_refl 422326049367073807881663979869529201403728192611490256438204459192102655). Qed.
Lemma xo256_cert274177 : exists p u, pw v4_add v4_zero xoshiro256_step v4_wf p ((2 ^ 256 - 1) / Z.to_N 274177) /\ mul_check 8 phi256 (N.lxor p 1) u 1 = true.
Proof.
  assert (E : 422326049367073807881663979869529201403728192611490256438204459192102655 = (2 ^ 256 - 1) / Z.to_N 274177) by (vm_cast_no_check (eq_refl 422326049367073807881663979869529201403728192611490256438204459192102655)).
  exists 0xe5a556c3c9e400e198126a39102fcc20f4c3663facb3240e1d771075d04e50d8, 0x24d5461cfd63732f63b6b60adc840b312db07c0c8c7b46872d3955d70f9e6ac5. rewrite <- E. exact (conj xo256_y274177 xo256_u274177_c).
Qed.
Lemma xo256_y67280421310721_c : pow_check 8 phi256 274177 0xea589bac321fb9a794f89aadd3a130f660161370fcd087627a75d0283f485e6e 0x2fbf5d361feea8bd9fc94ae35bf3f6a76338c186cf6f576a067bea15d2a4c5d4 = true.
Proof. vm_cast_no_check (eq_refl true). Qed.
Lemma xo256_u67280421310721_c : mul_check 8 phi256 (N.lxor 0x2fbf5d361feea8bd9fc94ae35bf3f6a76338c186cf6f576a067bea15d2a4c5d4 1) 0xc3bc6f4888606c0bfb4a6ce96aa43d28506b49c1c962aba2928641dd24af8cf8 1 = true.
Proof. vm_cast_no_check (eq_refl true). Qed.
Lemma xo256_y67280421310721 : pw v4_add v4_zero xoshiro256_step v4_wf 0x2fbf5d361feea8bd9fc94ae35bf3f6a76338c186cf6f576a067bea15d2a4c5d4 1721036922503113971692907638171526209875755521904893141463060735.
Proof. refine (pw_pow v4_add v4_zero xoshiro256_step v4_wf xoshiro256_step_linear 8 phi256 phi256_annihilates 274177 _ _ _ _ xo256_w6 xo256_y67280421310721_c _). vm_cast_no_check (eq_refl 1721036922503113971692907638171526209875755521904893141463060735). Qed.
Lemma xo256_cert67280421310721 : exists p u, pw v4_add v4_zero xoshiro256_step v4_wf p ((2 ^ 256 - 1) / Z.to_N 67280421310721) /\ mul_check 8 phi256 (N.lxor p 1) u 1 = true.
Proof.
  assert (E : 1721036922503113971692907638171526209875755521904893141463060735 = (2 ^ 256 - 1) / Z.to_N 67280421310721) by (vm_cast_no_check (eq_refl 1721036922503113971692907638171526209875755521904893141463060735)).
  exists 0x2fbf5d361feea8bd9fc94ae35bf3f6a76338c186cf6f576a067bea15d2a4c5d4, 0xc3bc6f4888606c0bfb4a6ce96aa43d28506b49c1c962aba2928641dd24af8cf8. rewrite <- E. exact (conj xo256_y67280421310721 xo256_u67280421310721_c).
Qed.
Lemma xo256_a5_c : sq_check 8 phi256 32 0x2ccb0c39650b443263c054f9fe32fbaac792b030bd6c5d645687d3d06e01eedc 0x8ea8074a611f4ced1fd456af7679380bf31155617e0f638bf27c5f463e4dbfc1 = true.
Proof. vm_cast_no_check (eq_refl true). Qed.
Lemma xo256_a5 : pw v4_add v4_zero xoshiro256_step v4_wf 0x8ea8074a611f4ced1fd456af7679380bf31155617e0f638bf27c5f463e4dbfc1 26959946667150639796128516724350533591920057417771119838357381709824.
Proof. refine (pw_sq v4_add v4_zero xoshiro256_step v4_wf xoshiro256_step_linear 8 phi256 phi256_annihilates 32 _ _ _ _ xo256_z6 xo256_a5_c _). vm_cast_no_check (eq_refl 26959946667150639796128516724350533591920057417771119838357381709824). Qed.
Lemma xo256_z5_c : mul_check 8 phi256 0x8ea8074a611f4ced1fd456af7679380bf31155617e0f638bf27c5f463e4dbfc1 0x2ccb0c39650b443263c054f9fe32fbaac792b030bd6c5d645687d3d06e01eedc 0x2a98965e9cc7a32e9b3c6895a0d4409bd3f0f32ff0795458fcf2f5e3c2e8de96 = true.
Proof. vm_cast_no_check (eq_refl true). Qed.
Lemma xo256_z5 : pw v4_add v4_zero xoshiro256_step v4_wf 0x2a98965e9cc7a32e9b3c6895a0d4409bd3f0f32ff0795458fcf2f5e3c2e8de96 26959946673427741531515197488526605382048662297355296634326893985793.
Proof. refine (pw_mul v4_add v4_zero xoshiro256_step v4_wf xoshiro256_step_linear 8 phi256 phi256_annihilates _ _ _ _ _ _ xo256_a5 xo256_z6 xo256_z5_c _). vm_cast_no_check (eq_refl 26959946673427741531515197488526605382048662297355296634326893985793). Qed.
Lemma xo256_i5_c : mul_check 8 phi256 0x36d03f132e70f7e9971d426a1b0b80ecc93ac7be41cf93cd2afe01097ad16156 0x2ccb0c39650b443263c054f9fe32fbaac792b030bd6c5d645687d3d06e01eedc 1 = true.
Proof. vm_cast_no_check (eq_refl true). Qed.
Lemma xo256_w5_c : mul_check 8 phi256 0x36d03f132e70f7e9971d426a1b0b80ecc93ac7be41cf93cd2afe01097ad16156 0x8ea8074a611f4ced1fd456af7679380bf31155617e0f638bf27c5f463e4dbfc1 0x37fe0ecb0317f607575a66162420831f3d8c828694542642752abdbad5939599 = true.
Proof. vm_cast_no_check (eq_refl true). Qed.
Lemma xo256_w5 : pw v4_add v4_zero xoshiro256_step v4_wf 0x37fe0ecb0317f607575a66162420831f3d8c828694542642752abdbad5939599 26959946660873538060741835960174461801791452538186943042387869433855.
Proof. refine (pw_div v4_add v4_zero xoshiro256_step v4_wf xoshiro256_step_linear 8 phi256 phi256_annihilates _ _ _ _ _ _ _ xo256_z6 xo256_a5 xo256_i5_c xo256_w5_c _). vm_cast_no_check (eq_refl 26959946667150639796128516724350533591920057417771119838357381709824). Qed.
Lemma xo256_y641_c : pow_check 8 phi256 6700417 0x37fe0ecb0317f607575a66162420831f3d8c828694542642752abdbad5939599 0x581da52f86332ea661bcbb2b555ce0f02e9815440881e2bf78b880b86010e91c = true.
Proof. vm_cast_no_check (eq_refl true). Qed.
Lemma xo256_u641_c : mul_check 8 phi256 (N.lxor 0x581da52f86332ea661bcbb2b555ce0f02e9815440881e2bf78b880b86010e91c 1) 0x56ced9120f236c15fdd49ed161d46abc0269afa58693de573c5dcc0645c4b0ff 1 = true.
Proof. vm_cast_no_check (eq_refl true). Qed.
Lemma xo256_y641 : pw v4_add v4_zero xoshiro256_step v4_wf 0x581da52f86332ea661bcbb2b555ce0f02e9815440881e2bf78b880b86010e91c 180642884925610289272341630278764286822574079041560942339247400948382417535.
Proof. refine (pw_pow v4_add v4_zero xoshiro256_step v4_wf xoshiro256_step_linear 8 phi256 phi256_annihilates 6700417 _ _ _ _ xo256_w5 xo256_y641_c _). vm_cast_no_check (eq_refl 180642884925610289272341630278764286822574079041560942339247400948382417535). Qed.
Lemma xo256_cert641 : exists p u, pw v4_add v4_zero xoshiro256_step v4_wf p ((2 ^ 256 - 1) / Z.to_N 641) /\ mul_check 8 phi256 (N.lxor p 1) u 1 = true.
Proof.
  assert (E : 180642884925610289272341630278764286822574079041560942339247400948382417535 = (2 ^ 256 - 1) / Z.to_N 641) by (vm_cast_no_check (eq_refl 180642884925610289272341630278764286822574079041560942339247400948382417535)).
  exists 0x581da52f86332ea661bcbb2b555ce0f02e9815440881e2bf78b880b86010e91c, 0x56ced9120f236c15fdd49ed161d46abc0269afa58693de573c5dcc0645c4b0ff. rewrite <- E. exact (conj xo256_y641 xo256_u641_c).
Qed.
Lemma xo256_y6700417_c : pow_check 8 phi256 641 0x37fe0ecb0317f607575a66162420831f3d8c828694542642752abdbad5939599 0xc6450b829be1a76226abe4270fff410101352a4c92d48efe19b67cdd3c86a7ed = true.
Proof. vm_cast_no_check (eq_refl true). Qed.
Lemma xo256_u6700417_c : mul_check 8 phi256 (N.lxor 0xc6450b829be1a76226abe4270fff410101352a4c92d48efe19b67cdd3c86a7ed 1) 0x1c10854fe79f6066b6b1fe5c68be2282e701b5777ef01c8fd5b0ea5458d18c36 1 = true.
Proof. vm_cast_no_check (eq_refl true). Qed.
Lemma xo256_y6700417 : pw v4_add v4_zero xoshiro256_step v4_wf 0xc6450b829be1a76226abe4270fff410101352a4c92d48efe19b67cdd3c86a7ed 17281325809619937896935516850471830014948321076977830490170624307101055.
Proof. refine (pw_pow v4_add v4_zero xoshiro256_step v4_wf xoshiro256_step_linear 8 phi256 phi256_annihilates 641 _ _ _ _ xo256_w5 xo256_y6700417_c _). vm_cast_no_check (eq_refl 17281325809619937896935516850471830014948321076977830490170624307101055). Qed.
Lemma xo256_cert6700417 : exists p u, pw v4_add v4_zero xoshiro256_step v4_wf p ((2 ^ 256 - 1) / Z.to_N 6700417) /\ mul_check 8 phi256 (N.lxor p 1) u 1 = true.
Proof.
  assert (E : 17281325809619937896935516850471830014948321076977830490170624307101055 = (2 ^ 256 - 1) / Z.to_N 6700417) by (vm_cast_no_check (eq_refl 17281325809619937896935516850471830014948321076977830490170624307101055)).
  exists 0xc6450b829be1a76226abe4270fff410101352a4c92d48efe19b67cdd3c86a7ed, 0x1c10854fe79f6066b6b1fe5c68be2282e701b5777ef01c8fd5b0ea5458d18c36. rewrite <- E. exact (conj xo256_y6700417 xo256_u6700417_c).
Qed.
Lemma xo256_a4_c : sq_check 8 phi256 16 0x2a98965e9cc7a32e9b3c6895a0d4409bd3f0f32ff0795458fcf2f5e3c2e8de96 0xdb8349df0a525530f958cda0017f4991f9438a91014f8a3c470fb9e02e7fa255 = true.
Proof. vm_cast_no_check (eq_refl true). Qed.
Lemma xo256_a4 : pw v4_add v4_zero xoshiro256_step v4_wf 0xdb8349df0a525530f958cda0017f4991f9438a91014f8a3c470fb9e02e7fa255 1766847065189760469009379982608079610317941132319476720227247324252930048.
Proof. refine (pw_sq v4_add v4_zero xoshiro256_step v4_wf xoshiro256_step_linear 8 phi256 phi256_annihilates 16 _ _ _ _ xo256_z5 xo256_a4_c _). vm_cast_no_check (eq_refl 1766847065189760469009379982608079610317941132319476720227247324252930048). Qed.
Lemma xo256_z4_c : mul_check 8 phi256 0xdb8349df0a525530f958cda0017f4991f9438a91014f8a3c470fb9e02e7fa255 0x2a98965e9cc7a32e9b3c6895a0d4409bd3f0f32ff0795458fcf2f5e3c2e8de96 0x64af5832851e53068eb1596206fe8aa365bb30e5c4a617734bed7cfdeeb096a1 = true.
Proof. vm_cast_no_check (eq_refl true). Qed.
Lemma xo256_z4 : pw v4_add v4_zero xoshiro256_step v4_wf 0x64af5832851e53068eb1596206fe8aa365bb30e5c4a617734bed7cfdeeb096a1 1766874025136433896750911497805568136923323180981774075523881651146915841.
Proof. refine (pw_mul v4_add v4_zero xoshiro256_step v4_wf xoshiro256_step_linear 8 phi256 phi256_annihilates _ _ _ _ _ _ xo256_a4 xo256_z5 xo256_z4_c _). vm_cast_no_check (eq_refl 1766874025136433896750911497805568136923323180981774075523881651146915841). Qed.
Lemma xo256_i4_c : mul_check 8 phi256 0x1f773b0b104eebacb02a5f296be6a3d7155d61e53e8368413c9dcc78c1e9d8b5 0x2a98965e9cc7a32e9b3c6895a0d4409bd3f0f32ff0795458fcf2f5e3c2e8de96 1 = true.
Proof. vm_cast_no_check (eq_refl true). Qed.
Lemma xo256_w4_c : mul_check 8 phi256 0x1f773b0b104eebacb02a5f296be6a3d7155d61e53e8368413c9dcc78c1e9d8b5 0xdb8349df0a525530f958cda0017f4991f9438a91014f8a3c470fb9e02e7fa255 0xb676779c1ec18ee71ca799db6f5623d0f6f65e508c7029e05dafe16943ddddf8 = true.
Proof. vm_cast_no_check (eq_refl true). Qed.
Lemma xo256_w4 : pw v4_add v4_zero xoshiro256_step v4_wf 0xb676779c1ec18ee71ca799db6f5623d0f6f65e508c7029e05dafe16943ddddf8 1766820105243087041267848467410591083712559083657179364930612997358944255.
Proof. refine (pw_div v4_add v4_zero xoshiro256_step v4_wf xoshiro256_step_linear 8 phi256 phi256_annihilates _ _ _ _ _ _ _ xo256_z5 xo256_a4 xo256_i4_c xo256_w4_c _). vm_cast_no_check (eq_refl 1766847065189760469009379982608079610317941132319476720227247324252930048). Qed.
Lemma xo256_y65537_c : pow_check 8 phi256 1 0xb676779c1ec18ee71ca799db6f5623d0f6f65e508c7029e05dafe16943ddddf8 0xb676779c1ec18ee71ca799db6f5623d0f6f65e508c7029e05dafe16943ddddf8 = true.
Proof. vm_cast_no_check (eq_refl true). Qed.
Lemma xo256_u65537_c : mul_check 8 phi256 (N.lxor 0xb676779c1ec18ee71ca799db6f5623d0f6f65e508c7029e05dafe16943ddddf8 1) 0x5b7382b05dc5a20686e618650a39fab806017ce589bb2d98cf9b5a05139e793f 1 = true.
Proof. vm_cast_no_check (eq_refl true). Qed.
Lemma xo256_y65537 : pw v4_add v4_zero xoshiro256_step v4_wf 0xb676779c1ec18ee71ca799db6f5623d0f6f65e508c7029e05dafe16943ddddf8 1766820105243087041267848467410591083712559083657179364930612997358944255.
Proof. refine (pw_pow v4_add v4_zero xoshiro256_step v4_wf xoshiro256_step_linear 8 phi256 phi256_annihilates 1 _ _ _ _ xo256_w4 xo256_y65537_c _). vm_cast_no_check (eq_refl 1766820105243087041267848467410591083712559083657179364930612997358944255). Qed.
Lemma xo256_cert65537 : exists p u, pw v4_add v4_zero xoshiro256_step v4_wf p ((2 ^ 256 - 1) / Z.to_N 65537) /\ mul_check 8 phi256 (N.lxor p 1) u 1 = true.
Proof.
  assert (E : 1766820105243087041267848467410591083712559083657179364930612997358944255 = (2 ^ 256 - 1) / Z.to_N 65537) by (vm_cast_no_check (eq_refl 1766820105243087041267848467410591083712559083657179364930612997358944255)).
  exists 0xb676779c1ec18ee71ca799db6f5623d0f6f65e508c7029e05dafe16943ddddf8, 0x5b7382b05dc5a20686e618650a39fab806017ce589bb2d98cf9b5a05139e793f. rewrite <- E. exact (conj xo256_y65537 xo256_u65537_c).
Qed.
Lemma xo256_a3_c : sq_check 8 phi256 8 0x64af5832851e53068eb1596206fe8aa365bb30e5c4a617734bed7cfdeeb096a1 0x543b010a5f38e0838d7c371fab914c527df0c6de6fa15516649c982e0bc2b105 = true.
Proof. vm_cast_no_check (eq_refl true). Qed.
Lemma xo256_a3 : pw v4_add v4_zero xoshiro256_step v4_wf 0x543b010a5f38e0838d7c371fab914c527df0c6de6fa15516649c982e0bc2b105 452319750434927077568233343438225443052370734331334163334113702693610455296.
Proof. refine (pw_sq v4_add v4_zero xoshiro256_step v4_wf xoshiro256_step_linear 8 phi256 phi256_annihilates 8 _ _ _ _ xo256_z4 xo256_a3_c _). vm_cast_no_check (eq_refl 452319750434927077568233343438225443052370734331334163334113702693610455296). Qed.
Lemma xo256_z3_c : mul_check 8 phi256 0x543b010a5f38e0838d7c371fab914c527df0c6de6fa15516649c982e0bc2b105 0x64af5832851e53068eb1596206fe8aa365bb30e5c4a617734bed7cfdeeb096a1 0x4f83e15a82b45412bc447bed397f61060e5d146095fc7d792adbde268be952b4 = true.
Proof. vm_cast_no_check (eq_refl true). Qed.
Lemma xo256_z3 : pw v4_add v4_zero xoshiro256_step v4_wf 0x4f83e15a82b45412bc447bed397f61060e5d146095fc7d792adbde268be952b4 454086624460063511464984254936031011189294057512315937409637584344757371137.
Proof. refine (pw_mul v4_add v4_zero xoshiro256_step v4_wf xoshiro256_step_linear 8 phi256 phi256_annihilates _ _ _ _ _ _ xo256_a3 xo256_z4 xo256_z3_c _). vm_cast_no_check (eq_refl 454086624460063511464984254936031011189294057512315937409637584344757371137). Qed.
Lemma xo256_i3_c : mul_check 8 phi256 0xaa3c102d54f9e772171e880ee5a23cbfd508edea5f61397f6c971ad0e4c7dceb 0x64af5832851e53068eb1596206fe8aa365bb30e5c4a617734bed7cfdeeb096a1 1 = true.
Proof. vm_cast_no_check (eq_refl true). Qed.
Lemma xo256_w3_c : mul_check 8 phi256 0xaa3c102d54f9e772171e880ee5a23cbfd508edea5f61397f6c971ad0e4c7dceb 0x543b010a5f38e0838d7c371fab914c527df0c6de6fa15516649c982e0bc2b105 0xfdb7756e6ac858fd6732aab4918d7df125c6c922eca444e8a2a0bb43afdb4f25 = true.
Proof. vm_cast_no_check (eq_refl true). Qed.
Lemma xo256_w3 : pw v4_add v4_zero xoshiro256_step v4_wf 0xfdb7756e6ac858fd6732aab4918d7df125c6c922eca444e8a2a0bb43afdb4f25 450552876409790643671482431940419874915447411150352389258589821042463539455.
Proof. refine (pw_div v4_add v4_zero xoshiro256_step v4_wf xoshiro256_step_linear 8 phi256 phi256_annihilates _ _ _ _ _ _ _ xo256_z4 xo256_a3 xo256_i3_c xo256_w3_c _). vm_cast_no_check (eq_refl 452319750434927077568233343438225443052370734331334163334113702693610455296). Qed.
Lemma xo256_y257_c : pow_check 8 phi256 1 0xfdb7756e6ac858fd6732aab4918d7df125c6c922eca444e8a2a0bb43afdb4f25 0xfdb7756e6ac858fd6732aab4918d7df125c6c922eca444e8a2a0bb43afdb4f25 = true.
Proof. vm_cast_no_check (eq_refl true). Qed.
Lemma xo256_u257_c : mul_check 8 phi256 (N.lxor 0xfdb7756e6ac858fd6732aab4918d7df125c6c922eca444e8a2a0bb43afdb4f25 1) 0x618e9a9a97b4105e9870464ee696824b10a336ec58f59159b1165cabfe23cd76 1 = true.
Proof. vm_cast_no_check (eq_refl true). Qed.
Lemma xo256_y257 : pw v4_add v4_zero xoshiro256_step v4_wf 0xfdb7756e6ac858fd6732aab4918d7df125c6c922eca444e8a2a0bb43afdb4f25 450552876409790643671482431940419874915447411150352389258589821042463539455.
Proof. refine (pw_pow v4_add v4_zero xoshiro256_step v4_wf xoshiro256_step_linear 8 phi256 phi256_annihilates 1 _ _ _ _ xo256_w3 xo256_y257_c _). vm_cast_no_check (eq_refl 450552876409790643671482431940419874915447411150352389258589821042463539455). Qed.
Lemma xo256_cert257 : exists p u, pw v4_add v4_zero xoshiro256_step v4_wf p ((2 ^ 256 - 1) / Z.to_N 257) /\ mul_check 8 phi256 (N.lxor p 1) u 1 = true.
Proof.
  assert (E : 450552876409790643671482431940419874915447411150352389258589821042463539455 = (2 ^ 256 - 1) / Z.to_N 257) by (vm_cast_no_check (eq_refl 450552876409790643671482431940419874915447411150352389258589821042463539455)).
  exists 0xfdb7756e6ac858fd6732aab4918d7df125c6c922eca444e8a2a0bb43afdb4f25, 0x618e9a9a97b4105e9870464ee696824b10a336ec58f59159b1165cabfe23cd76. rewrite <- E. exact (conj xo256_y257 xo256_u257_c).
Qed.
Lemma xo256_a2_c : sq_check 8 phi256 4 0x4f83e15a82b45412bc447bed397f61060e5d146095fc7d792adbde268be952b4 0x12e43a874b6b05be0b5c556f614e185082a88b105afa0ce7a054e5faf8b4fd28 = true.
Proof. vm_cast_no_check (eq_refl true). Qed.
Lemma xo256_a2 : pw v4_add v4_zero xoshiro256_step v4_wf 0x12e43a874b6b05be0b5c556f614e185082a88b105afa0ce7a054e5faf8b4fd28 7265385991361016183439748078976496179028704920197054998554201349516117938192.
Proof. refine (pw_sq v4_add v4_zero xoshiro256_step v4_wf xoshiro256_step_linear 8 phi256 phi256_annihilates 4 _ _ _ _ xo256_z3 xo256_a2_c _). vm_cast_no_check (eq_refl 7265385991361016183439748078976496179028704920197054998554201349516117938192). Qed.
Lemma xo256_z2_c : mul_check 8 phi256 0x12e43a874b6b05be0b5c556f614e185082a88b105afa0ce7a054e5faf8b4fd28 0x4f83e15a82b45412bc447bed397f61060e5d146095fc7d792adbde268be952b4 0x9b17f5767b72e1a3c673d4c3e369b20235e972559753b37fdedc95dc103781f = true.
Proof. vm_cast_no_check (eq_refl true). Qed.
Lemma xo256_z2 : pw v4_add v4_zero xoshiro256_step v4_wf 0x9b17f5767b72e1a3c673d4c3e369b20235e972559753b37fdedc95dc103781f 7719472615821079694904732333912527190217998977709370935963838933860875309329.
Proof. refine (pw_mul v4_add v4_zero xoshiro256_step v4_wf xoshiro256_step_linear 8 phi256 phi256_annihilates _ _ _ _ _ _ xo256_a2 xo256_z3 xo256_z2_c _). vm_cast_no_check (eq_refl 7719472615821079694904732333912527190217998977709370935963838933860875309329). Qed.
Lemma xo256_i2_c : mul_check 8 phi256 0x5ec64d2a5624a67913074093594081437dbf3af1b6edf27c731ce743fc511db8 0x4f83e15a82b45412bc447bed397f61060e5d146095fc7d792adbde268be952b4 1 = true.
Proof. vm_cast_no_check (eq_refl true). Qed.
Lemma xo256_w2_c : mul_check 8 phi256 0x5ec64d2a5624a67913074093594081437dbf3af1b6edf27c731ce743fc511db8 0x12e43a874b6b05be0b5c556f614e185082a88b105afa0ce7a054e5faf8b4fd28 0x90269340057d7ee7eb21d977cf20f3dc38da22c5375471f2a0a830a7ef328ee9 = true.
Proof. vm_cast_no_check (eq_refl true). Qed.
Lemma xo256_w2 : pw v4_add v4_zero xoshiro256_step v4_wf 0x90269340057d7ee7eb21d977cf20f3dc38da22c5375471f2a0a830a7ef328ee9 6811299366900952671974763824040465167839410862684739061144563765171360567055.
Proof. refine (pw_div v4_add v4_zero xoshiro256_step v4_wf xoshiro256_step_linear 8 phi256 phi256_annihilates _ _ _ _ _ _ _ xo256_z3 xo256_a2 xo256_i2_c xo256_w2_c _). vm_cast_no_check (eq_refl 7265385991361016183439748078976496179028704920197054998554201349516117938192). Qed.
Lemma xo256_y17_c : pow_check 8 phi256 1 0x90269340057d7ee7eb21d977cf20f3dc38da22c5375471f2a0a830a7ef328ee9 0x90269340057d7ee7eb21d977cf20f3dc38da22c5375471f2a0a830a7ef328ee9 = true.
Proof. vm_cast_no_check (eq_refl true). Qed.
Lemma xo256_u17_c : mul_check 8 phi256 (N.lxor 0x90269340057d7ee7eb21d977cf20f3dc38da22c5375471f2a0a830a7ef328ee9 1) 0xf4646ef27133b2d46393a4c40448d75b8f3adcab0a20793ef8bb26f5b81e7ecf 1 = true.
Proof. vm_cast_no_check (eq_refl true). Qed.
Lemma xo256_y17 : pw v4_add v4_zero xoshiro256_step v4_wf 0x90269340057d7ee7eb21d977cf20f3dc38da22c5375471f2a0a830a7ef328ee9 6811299366900952671974763824040465167839410862684739061144563765171360567055.
Proof. refine (pw_pow v4_add v4_zero xoshiro256_step v4_wf xoshiro256_step_linear 8 phi256 phi256_annihilates 1 _ _ _ _ xo256_w2 xo256_y17_c _). vm_cast_no_check (eq_refl 6811299366900952671974763824040465167839410862684739061144563765171360567055). Qed.
Lemma xo256_cert17 : exists p u, pw v4_add v4_zero xoshiro256_step v4_wf p ((2 ^ 256 - 1) / Z.to_N 17) /\ mul_check 8 phi256 (N.lxor p 1) u 1 = true.
Proof.
  assert (E : 6811299366900952671974763824040465167839410862684739061144563765171360567055 = (2 ^ 256 - 1) / Z.to_N 17) by (vm_cast_no_check (eq_refl 6811299366900952671974763824040465167839410862684739061144563765171360567055)).
  exists 0x90269340057d7ee7eb21d977cf20f3dc38da22c5375471f2a0a830a7ef328ee9, 0xf4646ef27133b2d46393a4c40448d75b8f3adcab0a20793ef8bb26f5b81e7ecf. rewrite <- E. exact (conj xo256_y17 xo256_u17_c).
Qed.
Lemma xo256_a1_c : sq_check 8 phi256 2 0x9b17f5767b72e1a3c673d4c3e369b20235e972559753b37fdedc95dc103781f 0x9b17f5767b72e1a3c673d4c3e369b20235e972559753b37fdedc95dc103781e = true.
Proof. vm_cast_no_check (eq_refl true). Qed.
Lemma xo256_a1 : pw v4_add v4_zero xoshiro256_step v4_wf 0x9b17f5767b72e1a3c673d4c3e369b20235e972559753b37fdedc95dc103781e 30877890463284318779618929335650108760871995910837483743855355735443501237316.
Proof. refine (pw_sq v4_add v4_zero xoshiro256_step v4_wf xoshiro256_step_linear 8 phi256 phi256_annihilates 2 _ _ _ _ xo256_z2 xo256_a1_c _). vm_cast_no_check (eq_refl 30877890463284318779618929335650108760871995910837483743855355735443501237316). Qed.
Lemma xo256_z1_c : mul_check 8 phi256 0x9b17f5767b72e1a3c673d4c3e369b20235e972559753b37fdedc95dc103781e 0x9b17f5767b72e1a3c673d4c3e369b20235e972559753b37fdedc95dc103781f 0x54d6a48aae687fb68b7f13ce6607e276afab085596734aa97762f281b25ed783 = true.
Proof. vm_cast_no_check (eq_refl true). Qed.
Lemma xo256_z1 : pw v4_add v4_zero xoshiro256_step v4_wf 0x54d6a48aae687fb68b7f13ce6607e276afab085596734aa97762f281b25ed783 38597363079105398474523661669562635951089994888546854679819194669304376546645.
Proof. refine (pw_mul v4_add v4_zero xoshiro256_step v4_wf xoshiro256_step_linear 8 phi256 phi256_annihilates _ _ _ _ _ _ xo256_a1 xo256_z2 xo256_z1_c _). vm_cast_no_check (eq_refl 38597363079105398474523661669562635951089994888546854679819194669304376546645). Qed.
Lemma xo256_i1_c : mul_check 8 phi256 0x6ec9cd129895d052616a564f042be5956a2075f39c3d432635ad7e8b44cbcdcc 0x9b17f5767b72e1a3c673d4c3e369b20235e972559753b37fdedc95dc103781f 1 = true.
Proof. vm_cast_no_check (eq_refl true). Qed.
Lemma xo256_w1_c : mul_check 8 phi256 0x6ec9cd129895d052616a564f042be5956a2075f39c3d432635ad7e8b44cbcdcc 0x9b17f5767b72e1a3c673d4c3e369b20235e972559753b37fdedc95dc103781e 0x6ec9cd129895d052616a564f042be5956a2075f39c3d432635ad7e8b44cbcdcd = true.
Proof. vm_cast_no_check (eq_refl true). Qed.
Lemma xo256_w1 : pw v4_add v4_zero xoshiro256_step v4_wf 0x6ec9cd129895d052616a564f042be5956a2075f39c3d432635ad7e8b44cbcdcd 23158417847463239084714197001737581570653996933128112807891516801582625927987.
Proof. refine (pw_div v4_add v4_zero xoshiro256_step v4_wf xoshiro256_step_linear 8 phi256 phi256_annihilates _ _ _ _ _ _ _ xo256_z2 xo256_a1 xo256_i1_c xo256_w1_c _). vm_cast_no_check (eq_refl 30877890463284318779618929335650108760871995910837483743855355735443501237316). Qed.
Lemma xo256_y5_c : pow_check 8 phi256 1 0x6ec9cd129895d052616a564f042be5956a2075f39c3d432635ad7e8b44cbcdcd 0x6ec9cd129895d052616a564f042be5956a2075f39c3d432635ad7e8b44cbcdcd = true.
Proof. vm_cast_no_check (eq_refl true). Qed.
Lemma xo256_u5_c : mul_check 8 phi256 (N.lxor 0x6ec9cd129895d052616a564f042be5956a2075f39c3d432635ad7e8b44cbcdcd 1) 0x9b17f5767b72e1a3c673d4c3e369b20235e972559753b37fdedc95dc103781f 1 = true.
Proof. vm_cast_no_check (eq_refl true). Qed.
Lemma xo256_y5 : pw v4_add v4_zero xoshiro256_step v4_wf 0x6ec9cd129895d052616a564f042be5956a2075f39c3d432635ad7e8b44cbcdcd 23158417847463239084714197001737581570653996933128112807891516801582625927987.
Proof. refine (pw_pow v4_add v4_zero xoshiro256_step v4_wf xoshiro256_step_linear 8 phi256 phi256_annihilates 1 _ _ _ _ xo256_w1 xo256_y5_c _). vm_cast_no_check (eq_refl 23158417847463239084714197001737581570653996933128112807891516801582625927987). Qed.
Lemma xo256_cert5 : exists p u, pw v4_add v4_zero xoshiro256_step v4_wf p ((2 ^ 256 - 1) / Z.to_N 5) /\ mul_check 8 phi256 (N.lxor p 1) u 1 = true.
Proof.
  assert (E : 23158417847463239084714197001737581570653996933128112807891516801582625927987 = (2 ^ 256 - 1) / Z.to_N 5) by (vm_cast_no_check (eq_refl 23158417847463239084714197001737581570653996933128112807891516801582625927987)).
  exists 0x6ec9cd129895d052616a564f042be5956a2075f39c3d432635ad7e8b44cbcdcd, 0x9b17f5767b72e1a3c673d4c3e369b20235e972559753b37fdedc95dc103781f. rewrite <- E. exact (conj xo256_y5 xo256_u5_c).
Qed.
Lemma xo256_a0_c : sq_check 8 phi256 1 0x54d6a48aae687fb68b7f13ce6607e276afab085596734aa97762f281b25ed783 0x54d6a48aae687fb68b7f13ce6607e276afab085596734aa97762f281b25ed782 = true.
Proof. vm_cast_no_check (eq_refl true). Qed.
Lemma xo256_a0 : pw v4_add v4_zero xoshiro256_step v4_wf 0x54d6a48aae687fb68b7f13ce6607e276afab085596734aa97762f281b25ed782 77194726158210796949047323339125271902179989777093709359638389338608753093290.
Proof. refine (pw_sq v4_add v4_zero xoshiro256_step v4_wf xoshiro256_step_linear 8 phi256 phi256_annihilates 1 _ _ _ _ xo256_z1 xo256_a0_c _). vm_cast_no_check (eq_refl 77194726158210796949047323339125271902179989777093709359638389338608753093290). Qed.
Lemma xo256_z0_c : mul_check 8 phi256 0x54d6a48aae687fb68b7f13ce6607e276afab085596734aa97762f281b25ed782 0x54d6a48aae687fb68b7f13ce6607e276afab085596734aa97762f281b25ed783 0x1 = true.
Proof. vm_cast_no_check (eq_refl true). Qed.
Lemma xo256_z0 : pw v4_add v4_zero xoshiro256_step v4_wf 0x1 115792089237316195423570985008687907853269984665640564039457584007913129639935.
Proof. refine (pw_mul v4_add v4_zero xoshiro256_step v4_wf xoshiro256_step_linear 8 phi256 phi256_annihilates _ _ _ _ _ _ xo256_a0 xo256_z1 xo256_z0_c _). vm_cast_no_check (eq_refl 115792089237316195423570985008687907853269984665640564039457584007913129639935). Qed.
Lemma xo256_i0_c : mul_check 8 phi256 0x54d6a48aae687fb68b7f13ce6607e276afab085596734aa97762f281b25ed782 0x54d6a48aae687fb68b7f13ce6607e276afab085596734aa97762f281b25ed783 1 = true.
Proof. vm_cast_no_check (eq_refl true). Qed.
Lemma xo256_w0_c : mul_check 8 phi256 0x54d6a48aae687fb68b7f13ce6607e276afab085596734aa97762f281b25ed782 0x54d6a48aae687fb68b7f13ce6607e276afab085596734aa97762f281b25ed782 0x54d6a48aae687fb68b7f13ce6607e276afab085596734aa97762f281b25ed783 = true.
Proof. vm_cast_no_check (eq_refl true). Qed.
Lemma xo256_w0 : pw v4_add v4_zero xoshiro256_step v4_wf 0x54d6a48aae687fb68b7f13ce6607e276afab085596734aa97762f281b25ed783 38597363079105398474523661669562635951089994888546854679819194669304376546645.
Proof. refine (pw_div v4_add v4_zero xoshiro256_step v4_wf xoshiro256_step_linear 8 phi256 phi256_annihilates _ _ _ _ _ _ _ xo256_z1 xo256_a0 xo256_i0_c xo256_w0_c _). vm_cast_no_check (eq_refl 77194726158210796949047323339125271902179989777093709359638389338608753093290). Qed.
Lemma xo256_y3_c : pow_check 8 phi256 1 0x54d6a48aae687fb68b7f13ce6607e276afab085596734aa97762f281b25ed783 0x54d6a48aae687fb68b7f13ce6607e276afab085596734aa97762f281b25ed783 = true.
Proof. vm_cast_no_check (eq_refl true). Qed.
Lemma xo256_u3_c : mul_check 8 phi256 (N.lxor 0x54d6a48aae687fb68b7f13ce6607e276afab085596734aa97762f281b25ed783 1) 0x54d6a48aae687fb68b7f13ce6607e276afab085596734aa97762f281b25ed783 1 = true.
Proof. vm_cast_no_check (eq_refl true). Qed.
Lemma xo256_y3 : pw v4_add v4_zero xoshiro256_step v4_wf 0x54d6a48aae687fb68b7f13ce6607e276afab085596734aa97762f281b25ed783 38597363079105398474523661669562635951089994888546854679819194669304376546645.
Proof. refine (pw_pow v4_add v4_zero xoshiro256_step v4_wf xoshiro256_step_linear 8 phi256 phi256_annihilates 1 _ _ _ _ xo256_w0 xo256_y3_c _). vm_cast_no_check (eq_refl 38597363079105398474523661669562635951089994888546854679819194669304376546645). Qed.
Lemma xo256_cert3 : exists p u, pw v4_add v4_zero xoshiro256_step v4_wf p ((2 ^ 256 - 1) / Z.to_N 3) /\ mul_check 8 phi256 (N.lxor p 1) u 1 = true.
Proof.
  assert (E : 38597363079105398474523661669562635951089994888546854679819194669304376546645 = (2 ^ 256 - 1) / Z.to_N 3) by (vm_cast_no_check (eq_refl 38597363079105398474523661669562635951089994888546854679819194669304376546645)).
  exists 0x54d6a48aae687fb68b7f13ce6607e276afab085596734aa97762f281b25ed783, 0x54d6a48aae687fb68b7f13ce6607e276afab085596734aa97762f281b25ed783. rewrite <- E. exact (conj xo256_y3 xo256_u3_c).
Qed.
Lemma xo256_one : pw v4_add v4_zero xoshiro256_step v4_wf 1 (2 ^ 256 - 1).
Proof.
  assert (E : 115792089237316195423570985008687907853269984665640564039457584007913129639935 = 2 ^ 256 - 1) by (vm_cast_no_check (eq_refl 115792089237316195423570985008687907853269984665640564039457584007913129639935)).
  rewrite <- E. exact xo256_z0.
Qed.
Lemma xo256_cert q : In q factors256 -> exists p u, pw v4_add v4_zero xoshiro256_step v4_wf p ((2 ^ 256 - 1) / Z.to_N q) /\ mul_check 8 phi256 (N.lxor p 1) u 1 = true.
Proof.
  intros H. repeat (destruct H as [<-|H]); [exact xo256_cert3 |exact xo256_cert5 |exact xo256_cert17 |exact xo256_cert257 |exact xo256_cert641 |exact xo256_cert65537 |exact xo256_cert274177 |exact xo256_cert6700417 |exact xo256_cert67280421310721 |exact xo256_cert59649589127497217 |exact xo256_cert5704689200685129054721 |destruct H].
Qed.
Lemma xo256_prod : prodl factors256 = Z.of_N (2 ^ 256 - 1).
Proof. vm_cast_no_check (eq_refl 115792089237316195423570985008687907853269984665640564039457584007913129639935%Z). Qed.
Lemma xo256_pos : 0 < 2 ^ 256 - 1.
Proof. vm_cast_no_check (eq_refl Lt). Qed.
Lemma xo256_odd : N.odd phi256 = true.
Proof. vm_cast_no_check (eq_refl true). Qed.
Theorem xo256_period v k : v4_wf v -> v <> v4_zero ->
  (N.iter k xoshiro256_step v = v <-> k mod (2 ^ 256 - 1) = 0).
Proof. exact (period_exact v4_add v4_zero xoshiro256_step v4_wf xoshiro256_step_linear 8 phi256 phi256_annihilates (2 ^ 256 - 1) factors256 factors256_prime xo256_prod xo256_pos xo256_one xo256_cert v k). Qed.
Theorem xo256_distinct v i j : v4_wf v -> v <> v4_zero ->
  (N.iter i xoshiro256_step v = N.iter j xoshiro256_step v <-> i mod (2 ^ 256 - 1) = j mod (2 ^ 256 - 1)).
Proof. exact (period_distinct v4_add v4_zero xoshiro256_step v4_wf xoshiro256_step_linear 8 phi256 phi256_annihilates (2 ^ 256 - 1) factors256 factors256_prime xo256_prod xo256_pos xo256_one xo256_cert v i j xo256_odd). Qed.
