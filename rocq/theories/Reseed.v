(* Seeding an object that has already been used: the writes that seed() makes into the memory of the
   old object, for the classes whose seeding models make a new object. *)
From Verif Require Import Word Arr Buffer32 Py MultiWord Ctr CtrPy Mt19937 Mt64 Pcg Xoshiro.
From Coq Require Import String ZifyBool ZifyNat ZifyN.
Open Scope N_scope.
Notation length := List.length.
Ltac Zify.zify_post_hook ::= idtac.

(* for i in range(n): a[i] = f(i, a); n iterations from i on; a holds the memory *)
Fixpoint wr_loop (n i : nat) (f : nat -> list N -> N) (a : list N) : list N :=
  match n with O => a | S n => wr_loop n (S i) f (upd a i (f i a)) end.
(* for i in range(n): a[i] = ws[i] *)
Definition wr_words (n : nat) (ws a : list N) : list N := wr_loop n 0 (fun i _ => nth i ws 0) a.

(* philox.pyx:292-319 and 223-228; threefry.pyx:281-310 and 221-226: seed(key, counter) of the object o,
   after object_to_int. The key and the counter that are written are those of the member of the union
   that n and w name; if n has changed since the last seeding (a rejected state assignment) what that member
   held before is unknown, here the list old. None: n and w are not those of a variant. *)
Definition c_reseed (c : cls) (key counter : N) (old : list N * list N) (o : cobj) : option cobj :=
  let n := Z.to_nat (o_n o) in
  let kn := Z.to_nat (key_words c (o_n o)) in
  let w := Z.to_N (o_w o) in
  let mem := if Nat.eqb (length (c_ctr (o_st o))) n then (c_ctr (o_st o), c_key (o_st o)) else old in
  if existsb (fun v => (Z.of_N (fst v) =? o_n o)%Z && (Z.of_N (snd v) =? o_w o)%Z) variants then
    Some (Cobj (o_n o) (o_w o) (o_fn o)
      (Cst (wr_words n (to_words w n counter) (fst mem)) (wr_words kn (to_words w kn key) (snd mem)) 4
           (wr_words 4 [0; 0; 0; 0] (c_buf (o_st o))) false 0))
  else None.

(* mt19937.c:20-40 init_genrand in place *)
Definition mt_genrand_on (s : N) (key : list N) : list N :=
  wr_loop 623 1 (fun i a => let p := nth (i - 1) a 0 in wadd 32 (wmul 32 1812433253 (N.lxor p (N.shiftr p 30))) (N.of_nat i)) (upd key 0 s).
(* mt19937.c:47-91 in place; pos is set by init_genrand *)
Definition mt_reseed (words : list N) (o : mt) : mt :=
  let '(m, i) := mt_loop1 (Nat.max 624 (length words)) words (mt_genrand_on 19650218 (mt_key o)) 1 0 in
  MT (upd (mt_loop2 623 m i) 0 0x80000000) 624.
(* mt19937.pyx:138-145 in place; i is 623 when the loop ends *)
Definition mt_reseed_numpy (words : list N) (o : mt) : mt :=
  MT (wr_loop 623 1 (fun i _ => nth i words 0) (upd (mt_key o) 0 0x80000000)) 623.
(* mt64.c:60-67 mt64_seed and 72-105 mt64_init_by_array in place; mt64.pyx:104-113 *)
Definition m64_genrand_on (s : N) (key : list N) : list N :=
  wr_loop 311 1 (fun i a => let p := nth (i - 1) a 0 in wadd 64 (wmul 64 6364136223846793005 (N.lxor p (N.shiftr p 62))) (N.of_nat i)) (upd key 0 s).
Definition m64_reseed (words : list N) (o : m64py) : m64py :=
  let '(m, i) := m64_loop1 (Nat.max 312 (length words)) words (m64_genrand_on 19650218 (m64_key (core o))) 1 0 in
  Buf (M64 (upd (m64_loop2 311 m i) 0 0x8000000000000000) 312) false 0.

(* pcg32.h:38-46 in place *)
Definition pcg32_reseed (initstate initseq : N) (o : pcg32) : pcg32 :=
  let o := P32 0 (p32_inc o) in
  let o := P32 (p32_state o) (N.lor (wshl 64 initseq 1) 1) in
  let o := pcg32_step o in
  let o := P32 (wadd 64 (p32_state o) initstate) (p32_inc o) in
  pcg32_step o.
(* pcg64-v2.h:62-83 in place, with the variant of the object; pcg64.pyx:235-254 *)
Definition pcg64_reseed (initstate initseq : N) (o : pcg64) : pcg64 :=
  let s := core o in
  let s := P64 0 (p_inc s) (p_var s) in
  let s := P64 (p_state s) (N.lor (wshl 128 initseq 1) 1) (p_var s) in
  let s := p64_step s in
  let s := P64 (wadd 128 (p_state s) initstate) (p_inc s) (p_var s) in
  Buf (p64_step s) false 0.

(* xoshiro256.pyx:128-138, xoshiro512.pyx:125-135, xoroshiro128.pyx:150-160: the words of s one by one, then the half is dropped *)
Definition x256_reseed (words : list N) (o : xoshiro256) : xoshiro256 :=
  let s := core o in Buf (v4_of (wr_words 4 words [v4_0 s; v4_1 s; v4_2 s; v4_3 s])) false 0.
Definition x512_reseed (words : list N) (o : xoshiro512) : xoshiro512 :=
  let s := core o in Buf (v8_of (wr_words 8 words [v8_0 s; v8_1 s; v8_2 s; v8_3 s; v8_4 s; v8_5 s; v8_6 s; v8_7 s])) false 0.
Definition x128_reseed (words : list N) (o : xoroshiro128) : xoroshiro128 :=
  let s := xo_s (core o) in Buf (XC (v2_of (wr_words 2 words [v2_0 s; v2_1 s])) (xo_pp (core o))) false 0.

(* ------------------------------------------------------------------ facts *)
Lemma upd_app (l r : list N) x y : upd (l ++ x :: r) (length l) y = l ++ y :: r.
Proof. induction l as [|h l IH]; cbn; [reflexivity|now rewrite IH]. Qed.
Lemma wr_words_app n : forall (pre ws : list N) rest, length rest = n ->
  wr_loop n (length pre) (fun i _ => nth i ws 0) (pre ++ rest) = pre ++ map (fun i => nth i ws 0) (seq (length pre) n).
Proof.
  induction n as [|n IH]; intros pre ws rest L.
  - destruct rest; [|discriminate]. reflexivity.
  - destruct rest as [|x rest]; [discriminate|]. injection L as L. cbn [wr_loop seq map].
    rewrite upd_app. specialize (IH (pre ++ [nth (length pre) ws 0]) ws rest L).
    rewrite app_length, <- !app_assoc, Nat.add_1_r in IH. exact IH.
Qed.
Lemma map_nth_seq (ws : list N) : map (fun i => nth i ws 0) (seq 0 (length ws)) = ws.
Proof.
  induction ws as [|x ws IH]; [reflexivity|]. cbn [length seq map nth]. f_equal.
  rewrite <- seq_shift, map_map. exact IH.
Qed.
Lemma wr_words_all n ws a : length ws = n -> length a = n -> wr_words n ws a = ws.
Proof.
  intros Lw La. pose proof (wr_words_app n [] ws a La) as E. cbn [app length] in E.
  unfold wr_words. rewrite E, <- Lw. apply map_nth_seq.
Qed.
Lemma mt_genrand_on_app n : forall pre prev rest, length rest = n ->
  wr_loop n (S (length pre)) (fun i a => let p := nth (i - 1) a 0 in wadd 32 (wmul 32 1812433253 (N.lxor p (N.shiftr p 30))) (N.of_nat i)) (pre ++ prev :: rest)
  = pre ++ prev :: mt_genrand n prev (N.of_nat (S (length pre))).
Proof.
  induction n as [|n IH]; intros pre prev rest L.
  - destruct rest; [reflexivity|discriminate].
  - destruct rest as [|x rest]; [discriminate|]. injection L as L. cbn [wr_loop mt_genrand].
    replace (S (length pre) - 1)%nat with (length pre) by lia. cbn zeta.
    rewrite app_nth2, Nat.sub_diag by lia. cbn [nth].
    set (v := wadd 32 _ _).
    assert (E : upd (pre ++ prev :: x :: rest) (S (length pre)) v = (pre ++ [prev]) ++ v :: rest).
    { replace (S (length pre)) with (length (pre ++ [prev])) by (rewrite app_length; cbn; lia).
      replace (pre ++ prev :: x :: rest) with ((pre ++ [prev]) ++ x :: rest) by (rewrite <- app_assoc; reflexivity).
      apply upd_app. }
    rewrite E. specialize (IH (pre ++ [prev]) v rest L). rewrite app_length in IH. cbn [length] in IH. rewrite Nat.add_1_r in IH.
    rewrite IH, <- app_assoc. cbn [app]. do 4 f_equal. lia.
Qed.
Lemma mt_genrand_on_init s key : length key = 624%nat -> mt_genrand_on s key = mt_init_genrand s.
Proof.
  intros L. destruct key as [|x rest]; [discriminate|]. injection L as L. exact (mt_genrand_on_app 623 [] s rest L).
Qed.
Lemma m64_genrand_on_app n : forall pre prev rest, length rest = n ->
  wr_loop n (S (length pre)) (fun i a => let p := nth (i - 1) a 0 in wadd 64 (wmul 64 6364136223846793005 (N.lxor p (N.shiftr p 62))) (N.of_nat i)) (pre ++ prev :: rest)
  = pre ++ prev :: m64_genrand n prev (N.of_nat (S (length pre))).
Proof.
  induction n as [|n IH]; intros pre prev rest L.
  - destruct rest; [reflexivity|discriminate].
  - destruct rest as [|x rest]; [discriminate|]. injection L as L. cbn [wr_loop m64_genrand].
    replace (S (length pre) - 1)%nat with (length pre) by lia. cbn zeta.
    rewrite app_nth2, Nat.sub_diag by lia. cbn [nth].
    set (v := wadd 64 _ _).
    assert (E : upd (pre ++ prev :: x :: rest) (S (length pre)) v = (pre ++ [prev]) ++ v :: rest).
    { replace (S (length pre)) with (length (pre ++ [prev])) by (rewrite app_length; cbn; lia).
      replace (pre ++ prev :: x :: rest) with ((pre ++ [prev]) ++ x :: rest) by (rewrite <- app_assoc; reflexivity).
      apply upd_app. }
    rewrite E. specialize (IH (pre ++ [prev]) v rest L). rewrite app_length in IH. cbn [length] in IH. rewrite Nat.add_1_r in IH.
    rewrite IH, <- app_assoc. cbn [app]. do 4 f_equal. lia.
Qed.
Lemma m64_genrand_on_init s key : length key = 312%nat -> m64_genrand_on s key = m64_init s.
Proof.
  intros L. destruct key as [|x rest]; [discriminate|]. injection L as L. exact (m64_genrand_on_app 311 [] s rest L).
Qed.
