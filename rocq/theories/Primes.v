(* The prime factors of 2^1024 - 1 (the Fermat numbers F0 .. F9), each proved
   prime by a checked certificate. Generated numbers; the proofs are the
   checks. *)
From Verif Require Import Word Order.
From Coq Require Import ZArith Znumtheory List.
Import ListNotations.
Open Scope Z_scope.

Lemma prime_3 : prime 3.
Proof. apply (trial_prime 3); vm_compute; reflexivity. Qed.
Lemma prime_5 : prime 5.
Proof. apply (trial_prime 4); vm_compute; reflexivity. Qed.
Lemma prime_17 : prime 17.
Proof. apply (trial_prime 6); vm_compute; reflexivity. Qed.
Lemma prime_257 : prime 257.
Proof. apply (trial_prime 18); vm_compute; reflexivity. Qed.
Lemma prime_65537 : prime 65537.
Proof. apply (trial_prime 258); vm_compute; reflexivity. Qed.
Lemma prime_641 : prime 641.
Proof. apply (trial_prime 27); vm_compute; reflexivity. Qed.
Lemma prime_17449 : prime 17449.
Proof. apply (trial_prime 134); vm_compute; reflexivity. Qed.
Lemma prime_6700417 : prime 6700417.
Proof.
  apply (cert_prime 6700417 3 384 [17449] (Forall_cons _ prime_17449 (Forall_nil _))).
  vm_cast_no_check (eq_refl true).
Qed.
Lemma prime_274177 : prime 274177.
Proof. apply (trial_prime 525); vm_compute; reflexivity. Qed.
Lemma prime_373 : prime 373.
Proof. apply (trial_prime 21); vm_compute; reflexivity. Qed.
Lemma prime_2998279 : prime 2998279.
Proof. apply (trial_prime 1733); vm_compute; reflexivity. Qed.
Lemma prime_67280421310721 : prime 67280421310721.
Proof.
  apply (cert_prime 67280421310721 3 60160 [2998279; 373] (Forall_cons _ prime_2998279 (Forall_cons _ prime_373 (Forall_nil _)))).
  vm_cast_no_check (eq_refl true).
Qed.
Lemma prime_1896229 : prime 1896229.
Proof. apply (trial_prime 1379); vm_compute; reflexivity. Qed.
Lemma prime_18533742247 : prime 18533742247.
Proof.
  apply (cert_prime 18533742247 2 9774 [1896229] (Forall_cons _ prime_1896229 (Forall_nil _))).
  vm_cast_no_check (eq_refl true).
Qed.
Lemma prime_116503103764643 : prime 116503103764643.
Proof.
  apply (cert_prime 116503103764643 2 6286 [18533742247] (Forall_cons _ prime_18533742247 (Forall_nil _))).
  vm_cast_no_check (eq_refl true).
Qed.
Lemma prime_59649589127497217 : prime 59649589127497217.
Proof.
  apply (cert_prime 59649589127497217 3 512 [116503103764643] (Forall_cons _ prime_116503103764643 (Forall_nil _))).
  vm_cast_no_check (eq_refl true).
Qed.
Lemma prime_139 : prime 139.
Proof. apply (trial_prime 13); vm_compute; reflexivity. Qed.
Lemma prime_1783 : prime 1783.
Proof. apply (trial_prime 44); vm_compute; reflexivity. Qed.
Lemma prime_6939437 : prime 6939437.
Proof.
  apply (cert_prime 6939437 2 28 [1783; 139] (Forall_cons _ prime_1783 (Forall_cons _ prime_139 (Forall_nil _)))).
  vm_cast_no_check (eq_refl true).
Qed.
Lemma prime_55515497 : prime 55515497.
Proof.
  apply (cert_prime 55515497 2 8 [6939437] (Forall_cons _ prime_6939437 (Forall_nil _))).
  vm_cast_no_check (eq_refl true).
Qed.
Lemma prime_733803839347 : prime 733803839347.
Proof.
  apply (cert_prime 733803839347 2 13218 [55515497] (Forall_cons _ prime_55515497 (Forall_nil _))).
  vm_cast_no_check (eq_refl true).
Qed.
Lemma prime_5704689200685129054721 : prime 5704689200685129054721.
Proof.
  apply (cert_prime 5704689200685129054721 3 7774133760 [733803839347] (Forall_cons _ prime_733803839347 (Forall_nil _))).
  vm_cast_no_check (eq_refl true).
Qed.
Lemma prime_16747 : prime 16747.
Proof. apply (trial_prime 131); vm_compute; reflexivity. Qed.
Lemma prime_719 : prime 719.
Proof. apply (trial_prime 28); vm_compute; reflexivity. Qed.
Lemma prime_3853149761 : prime 3853149761.
Proof.
  apply (cert_prime 3853149761 2 320 [16747; 719] (Forall_cons _ prime_16747 (Forall_cons _ prime_719 (Forall_nil _)))).
  vm_cast_no_check (eq_refl true).
Qed.
Lemma prime_1238926361552897 : prime 1238926361552897.
Proof.
  apply (cert_prime 1238926361552897 3 321536 [3853149761] (Forall_cons _ prime_3853149761 (Forall_nil _))).
  vm_cast_no_check (eq_refl true).
Qed.
Lemma prime_1604753 : prime 1604753.
Proof. apply (trial_prime 1268); vm_compute; reflexivity. Qed.
Lemma prime_41723579 : prime 41723579.
Proof.
  apply (cert_prime 41723579 2 26 [1604753] (Forall_cons _ prime_1604753 (Forall_nil _))).
  vm_cast_no_check (eq_refl true).
Qed.
Lemma prime_83447159 : prime 83447159.
Proof.
  apply (cert_prime 83447159 2 2 [41723579] (Forall_cons _ prime_41723579 (Forall_nil _))).
  vm_cast_no_check (eq_refl true).
Qed.
Lemma prime_25353082741699 : prime 25353082741699.
Proof.
  apply (cert_prime 25353082741699 2 303822 [83447159] (Forall_cons _ prime_83447159 (Forall_nil _))).
  vm_cast_no_check (eq_refl true).
Qed.
Lemma prime_283 : prime 283.
Proof. apply (trial_prime 18); vm_compute; reflexivity. Qed.
Lemma prime_29 : prime 29.
Proof. apply (trial_prime 7); vm_compute; reflexivity. Qed.
Lemma prime_10948139 : prime 10948139.
Proof.
  apply (cert_prime 10948139 2 1334 [283; 29] (Forall_cons _ prime_283 (Forall_cons _ prime_29 (Forall_nil _)))).
  vm_cast_no_check (eq_refl true).
Qed.
Lemma prime_6130957841 : prime 6130957841.
Proof.
  apply (cert_prime 6130957841 2 560 [10948139] (Forall_cons _ prime_10948139 (Forall_nil _))).
  vm_cast_no_check (eq_refl true).
Qed.
Lemma prime_220714482277 : prime 220714482277.
Proof.
  apply (cert_prime 220714482277 2 36 [6130957841] (Forall_cons _ prime_6130957841 (Forall_nil _))).
  vm_cast_no_check (eq_refl true).
Qed.
Lemma prime_9243081088796207 : prime 9243081088796207.
Proof.
  apply (cert_prime 9243081088796207 2 41878 [220714482277] (Forall_cons _ prime_220714482277 (Forall_nil _))).
  vm_cast_no_check (eq_refl true).
Qed.
Lemma prime_1057372046781162536274034354686893329625329 : prime 1057372046781162536274034354686893329625329.
Proof.
  apply (cert_prime 1057372046781162536274034354686893329625329 2 4512116331696 [9243081088796207; 25353082741699] (Forall_cons _ prime_9243081088796207 (Forall_cons _ prime_25353082741699 (Forall_nil _)))).
  vm_cast_no_check (eq_refl true).
Qed.
Lemma prime_93461639715357977769163558199606896584051237541638188580280321 : prime 93461639715357977769163558199606896584051237541638188580280321.
Proof.
  apply (cert_prime 93461639715357977769163558199606896584051237541638188580280321 3 88390496041457326080 [1057372046781162536274034354686893329625329] (Forall_cons _ prime_1057372046781162536274034354686893329625329 (Forall_nil _))).
  vm_cast_no_check (eq_refl true).
Qed.
Lemma prime_2424833 : prime 2424833.
Proof. apply (trial_prime 1559); vm_compute; reflexivity. Qed.
Lemma prime_68659 : prime 68659.
Proof. apply (trial_prime 264); vm_compute; reflexivity. Qed.
Lemma prime_45177623 : prime 45177623.
Proof.
  apply (cert_prime 45177623 2 658 [68659] (Forall_cons _ prime_68659 (Forall_nil _))).
  vm_cast_no_check (eq_refl true).
Qed.
Lemma prime_1084262953 : prime 1084262953.
Proof.
  apply (cert_prime 1084262953 2 24 [45177623] (Forall_cons _ prime_45177623 (Forall_nil _))).
  vm_cast_no_check (eq_refl true).
Qed.
Lemma prime_1143290228161321 : prime 1143290228161321.
Proof.
  apply (cert_prime 1143290228161321 2 1054440 [1084262953] (Forall_cons _ prime_1084262953 (Forall_nil _))).
  vm_cast_no_check (eq_refl true).
Qed.
Lemma prime_11299 : prime 11299.
Proof. apply (trial_prime 108); vm_compute; reflexivity. Qed.
Lemma prime_212923 : prime 212923.
Proof. apply (trial_prime 463); vm_compute; reflexivity. Qed.
Lemma prime_72174509311 : prime 72174509311.
Proof.
  apply (cert_prime 72174509311 2 30 [212923; 11299] (Forall_cons _ prime_212923 (Forall_cons _ prime_11299 (Forall_nil _)))).
  vm_cast_no_check (eq_refl true).
Qed.
Lemma prime_514601075709020317 : prime 514601075709020317.
Proof.
  apply (cert_prime 514601075709020317 2 7129956 [72174509311] (Forall_cons _ prime_72174509311 (Forall_nil _))).
  vm_cast_no_check (eq_refl true).
Qed.
Lemma prime_43226490359557706629 : prime 43226490359557706629.
Proof.
  apply (cert_prime 43226490359557706629 2 84 [514601075709020317] (Forall_cons _ prime_514601075709020317 (Forall_nil _))).
  vm_cast_no_check (eq_refl true).
Qed.
Lemma prime_7455602825647884208337395736200454918783366342657 : prime 7455602825647884208337395736200454918783366342657.
Proof.
  apply (cert_prime 7455602825647884208337395736200454918783366342657 3 150860761974784 [43226490359557706629; 1143290228161321] (Forall_cons _ prime_43226490359557706629 (Forall_cons _ prime_1143290228161321 (Forall_nil _)))).
  vm_cast_no_check (eq_refl true).
Qed.
Lemma prime_433 : prime 433.
Proof. apply (trial_prime 22); vm_compute; reflexivity. Qed.
Lemma prime_101 : prime 101.
Proof. apply (trial_prime 12); vm_compute; reflexivity. Qed.
Lemma prime_9446329 : prime 9446329.
Proof.
  apply (cert_prime 9446329 2 216 [433; 101] (Forall_cons _ prime_433 (Forall_cons _ prime_101 (Forall_nil _)))).
  vm_cast_no_check (eq_refl true).
Qed.
Lemma prime_37785317 : prime 37785317.
Proof.
  apply (cert_prime 37785317 2 4 [9446329] (Forall_cons _ prime_9446329 (Forall_nil _))).
  vm_cast_no_check (eq_refl true).
Qed.
Lemma prime_7871739519977 : prime 7871739519977.
Proof.
  apply (cert_prime 7871739519977 2 208328 [37785317] (Forall_cons _ prime_37785317 (Forall_nil _))).
  vm_cast_no_check (eq_refl true).
Qed.
Lemma prime_1392542208042011209 : prime 1392542208042011209.
Proof.
  apply (cert_prime 1392542208042011209 2 176904 [7871739519977] (Forall_cons _ prime_7871739519977 (Forall_nil _))).
  vm_cast_no_check (eq_refl true).
Qed.
Lemma prime_15661 : prime 15661.
Proof. apply (trial_prime 127); vm_compute; reflexivity. Qed.
Lemma prime_487 : prime 487.
Proof. apply (trial_prime 24); vm_compute; reflexivity. Qed.
Lemma prime_41856465617 : prime 41856465617.
Proof.
  apply (cert_prime 41856465617 2 5488 [15661; 487] (Forall_cons _ prime_15661 (Forall_cons _ prime_487 (Forall_nil _)))).
  vm_cast_no_check (eq_refl true).
Qed.
Lemma prime_47967509597083 : prime 47967509597083.
Proof.
  apply (cert_prime 47967509597083 2 1146 [41856465617] (Forall_cons _ prime_41856465617 (Forall_nil _))).
  vm_cast_no_check (eq_refl true).
Qed.
Lemma prime_53531740710344629 : prime 53531740710344629.
Proof.
  apply (cert_prime 53531740710344629 2 1116 [47967509597083] (Forall_cons _ prime_47967509597083 (Forall_nil _))).
  vm_cast_no_check (eq_refl true).
Qed.
Lemma prime_3088888502468305782559 : prime 3088888502468305782559.
Proof.
  apply (cert_prime 3088888502468305782559 2 57702 [53531740710344629] (Forall_cons _ prime_53531740710344629 (Forall_nil _))).
  vm_cast_no_check (eq_refl true).
Qed.
Lemma prime_16975143302271505426897585653131126520182328037821729720833840187223 : prime 16975143302271505426897585653131126520182328037821729720833840187223.
Proof.
  apply (cert_prime 16975143302271505426897585653131126520182328037821729720833840187223 2 3946415875728088536770628762 [3088888502468305782559; 1392542208042011209] (Forall_cons _ prime_3088888502468305782559 (Forall_cons _ prime_1392542208042011209 (Forall_nil _)))).
  vm_cast_no_check (eq_refl true).
Qed.
Lemma prime_741640062627530801524787141901937474059940781097519023905821316144415759504705008092818711693940737 : prime 741640062627530801524787141901937474059940781097519023905821316144415759504705008092818711693940737.
Proof.
  apply (cert_prime 741640062627530801524787141901937474059940781097519023905821316144415759504705008092818711693940737 3 43689767409992306677793779935232 [16975143302271505426897585653131126520182328037821729720833840187223] (Forall_cons _ prime_16975143302271505426897585653131126520182328037821729720833840187223 (Forall_nil _))).
  vm_cast_no_check (eq_refl true).
Qed.

Definition factors128 : list Z :=
  [3;
   5;
   17;
   257;
   641;
   65537;
   274177;
   6700417;
   67280421310721].
Lemma factors128_prime : Forall prime factors128.
Proof. exact (Forall_cons _ prime_3 (Forall_cons _ prime_5 (Forall_cons _ prime_17 (Forall_cons _ prime_257 (Forall_cons _ prime_641 (Forall_cons _ prime_65537 (Forall_cons _ prime_274177 (Forall_cons _ prime_6700417 (Forall_cons _ prime_67280421310721 (Forall_nil _)))))))))). Qed.
Lemma factors128_prod : prodl factors128 = 2 ^ 128 - 1.
Proof. vm_compute. reflexivity. Qed.
Definition factors256 : list Z :=
  [3;
   5;
   17;
   257;
   641;
   65537;
   274177;
   6700417;
   67280421310721;
   59649589127497217;
   5704689200685129054721].
Lemma factors256_prime : Forall prime factors256.
Proof. exact (Forall_cons _ prime_3 (Forall_cons _ prime_5 (Forall_cons _ prime_17 (Forall_cons _ prime_257 (Forall_cons _ prime_641 (Forall_cons _ prime_65537 (Forall_cons _ prime_274177 (Forall_cons _ prime_6700417 (Forall_cons _ prime_67280421310721 (Forall_cons _ prime_59649589127497217 (Forall_cons _ prime_5704689200685129054721 (Forall_nil _)))))))))))). Qed.
Lemma factors256_prod : prodl factors256 = 2 ^ 256 - 1.
Proof. vm_compute. reflexivity. Qed.
Definition factors512 : list Z :=
  [3;
   5;
   17;
   257;
   641;
   65537;
   274177;
   6700417;
   67280421310721;
   1238926361552897;
   59649589127497217;
   5704689200685129054721;
   93461639715357977769163558199606896584051237541638188580280321].
Lemma factors512_prime : Forall prime factors512.
Proof. exact (Forall_cons _ prime_3 (Forall_cons _ prime_5 (Forall_cons _ prime_17 (Forall_cons _ prime_257 (Forall_cons _ prime_641 (Forall_cons _ prime_65537 (Forall_cons _ prime_274177 (Forall_cons _ prime_6700417 (Forall_cons _ prime_67280421310721 (Forall_cons _ prime_1238926361552897 (Forall_cons _ prime_59649589127497217 (Forall_cons _ prime_5704689200685129054721 (Forall_cons _ prime_93461639715357977769163558199606896584051237541638188580280321 (Forall_nil _)))))))))))))). Qed.
Lemma factors512_prod : prodl factors512 = 2 ^ 512 - 1.
Proof. vm_compute. reflexivity. Qed.
Definition factors1024 : list Z :=
  [3;
   5;
   17;
   257;
   641;
   65537;
   274177;
   2424833;
   6700417;
   67280421310721;
   1238926361552897;
   59649589127497217;
   5704689200685129054721;
   7455602825647884208337395736200454918783366342657;
   93461639715357977769163558199606896584051237541638188580280321;
   741640062627530801524787141901937474059940781097519023905821316144415759504705008092818711693940737].
Lemma factors1024_prime : Forall prime factors1024.
Proof. exact (Forall_cons _ prime_3 (Forall_cons _ prime_5 (Forall_cons _ prime_17 (Forall_cons _ prime_257 (Forall_cons _ prime_641 (Forall_cons _ prime_65537 (Forall_cons _ prime_274177 (Forall_cons _ prime_2424833 (Forall_cons _ prime_6700417 (Forall_cons _ prime_67280421310721 (Forall_cons _ prime_1238926361552897 (Forall_cons _ prime_59649589127497217 (Forall_cons _ prime_5704689200685129054721 (Forall_cons _ prime_7455602825647884208337395736200454918783366342657 (Forall_cons _ prime_93461639715357977769163558199606896584051237541638188580280321 (Forall_cons _ prime_741640062627530801524787141901937474059940781097519023905821316144415759504705008092818711693940737 (Forall_nil _))))))))))))))))). Qed.
Lemma factors1024_prod : prodl factors1024 = 2 ^ 1024 - 1.
Proof. vm_compute. reflexivity. Qed.
