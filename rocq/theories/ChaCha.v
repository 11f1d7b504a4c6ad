(* ChaCha: the generator and its Python class.
   Model of src/chacha/chacha.h, chacha.c and chacha.pyx. *)
From Verif Require Import Word Arr Common MultiWord Blocks Py PyLoop.
From Coq Require Import String ZifyBool ZifyNat ZifyN.
Open Scope N_scope.

(* chacha.h:144-150 CHACHA_QUARTERROUND on four words *)
Definition quarter (a b c d : N) : N * N * N * N :=
  let a := wadd 32 a b in let d := rotl 32 (N.lxor d a) 16 in
  let c := wadd 32 c d in let b := rotl 32 (N.lxor b c) 12 in
  let a := wadd 32 a b in let d := rotl 32 (N.lxor d a) 8 in
  let c := wadd 32 c d in let b := rotl 32 (N.lxor b c) 7 in
  (a, b, c, d).
Definition QR (a b c d : nat) (x : list N) : list N :=
  let '(p, q, r, s) := quarter (nth a x 0) (nth b x 0) (nth c x 0) (nth d x 0) in
  upd (upd (upd (upd x a p) b q) c r) d s.
(* chacha.h:152-161 *)
Definition double_round (x : list N) : list N :=
  QR 3 4 9 14 (QR 2 7 8 13 (QR 1 6 11 12 (QR 0 5 10 15
    (QR 3 7 11 15 (QR 2 6 10 14 (QR 1 5 9 13 (QR 0 4 8 12 x))))))).
(* for (i = 0; i < rounds; i += 2): the number of iterations *)
Definition iters (rounds : Z) : N := Z.to_N ((rounds + 1) / 2).
Definition core_scalar (rounds : Z) (x : list N) : list N := N.iter (iters rounds) double_round x.

(* ---- the SSSE3 core, chacha.h:82-139; a vector is a list of four words ---- *)
Fixpoint map2 (f : N -> N -> N) (l m : list N) : list N :=
  match l, m with x :: l, y :: m => f x y :: map2 f l m | _, _ => [] end.
Definition vadd := map2 (wadd 32).
Definition vxor := map2 N.lxor.
(* _mm_shuffle_epi8 on the 16 bytes, with the mask given from byte 0 up *)
Definition vshuffle8 (mask : list N) (x : list N) : list N :=
  let src := flat_map (to_words 8 4) x in
  let b := map (fun m => nth (N.to_nat m) src 0) mask in
  [lv 8 (firstn 4 b); lv 8 (firstn 4 (skipn 4 b)); lv 8 (firstn 4 (skipn 8 b)); lv 8 (firstn 4 (skipn 12 b))].
(* chacha.h:47-80 _mm_roti_epi32(r, c) *)
Definition vroti (ssse3 : bool) (x : list N) (c : N) : list N :=
  if ssse3 && (c =? 8) then vshuffle8 [3; 0; 1; 2; 7; 4; 5; 6; 11; 8; 9; 10; 15; 12; 13; 14] x
  else if ssse3 && (c =? 16) then vshuffle8 [2; 3; 0; 1; 6; 7; 4; 5; 10; 11; 8; 9; 14; 15; 12; 13] x
  else if ssse3 && (c =? 24) then vshuffle8 [1; 2; 3; 0; 5; 6; 7; 4; 9; 10; 11; 8; 13; 14; 15; 12] x
  else vxor (map (fun a => wshl 32 a c) x) (map (fun a => N.shiftr a (32 - c)) x).
(* _mm_shuffle_epi32(x, imm): result[i] = x[(imm >> 2i) & 3] *)
Definition vshuffle32 (x : list N) (imm : N) : list N :=
  map (fun i => nth (N.to_nat (N.land (N.shiftr imm (2 * i)) 3)) x 0) [0; 1; 2; 3].
Definition ROTV1 x := vshuffle32 x 0x39.
Definition ROTV2 x := vshuffle32 x 0x4e.
Definition ROTV3 x := vshuffle32 x 0x93.
Definition vquarter (ssse3 : bool) (a b c d : list N) : list N * list N * list N * list N :=
  let a := vadd a b in let d := vroti ssse3 (vxor d a) 16 in
  let c := vadd c d in let b := vroti ssse3 (vxor b c) 12 in
  let a := vadd a b in let d := vroti ssse3 (vxor d a) 8 in
  let c := vadd c d in let b := vroti ssse3 (vxor b c) 7 in
  (a, b, c, d).
Definition vdouble (ssse3 : bool) (st : list N * list N * list N * list N) : list N * list N * list N * list N :=
  let '(a, b, c, d) := st in
  let '(a, b, c, d) := vquarter ssse3 a b c d in
  let '(a, b, c, d) := vquarter ssse3 a (ROTV1 b) (ROTV2 c) (ROTV3 d) in
  (a, ROTV3 b, ROTV2 c, ROTV1 d).
Definition vload (x : list N) := (firstn 4 x, firstn 4 (skipn 4 x), firstn 4 (skipn 8 x), firstn 4 (skipn 12 x)).
Definition vstore (st : list N * list N * list N * list N) : list N := let '(a, b, c, d) := st in a ++ b ++ c ++ d.
Definition core_simd (ssse3 : bool) (rounds : Z) (x : list N) : list N := vstore (N.iter (iters rounds) (vdouble ssse3) (vload x)).

(* ---------------------------------------------------------------- state *)
Record chacha := CC { cc_block : list N; cc_key : list N; cc_ctr0 : N; cc_ctr1 : N; cc_rounds : Z }.
(* which code path is compiled and selected: scalar, SSE2 only, SSSE3 *)
Inductive path := Scalar | Sse2 | Ssse3.
Definition run_core (p : path) : Z -> list N -> list N :=
  match p with Scalar => core_scalar | Sse2 => core_simd false | Ssse3 => core_simd true end.
(* chacha.h:169-179 *)
Definition cc_input (key : list N) (c0 c1 : N) : list N :=
  [0x61707865; 0x3320646e; 0x79622d32; 0x6b206574] ++ key ++
  [N.land (c0 / 16) 0xffffffff;
   N.lor (wshl 32 (trunc 32 c1 mod 16) 28) (trunc 32 (N.shiftr (c0 / 16) 32));
   N.land (c1 / 16) 0xffffffff;
   trunc 32 (N.shiftr (c1 / 16) 32)].
(* chacha.h:167-192 generate_block *)
Definition cc_generate (p : path) (s : chacha) : chacha :=
  let input := cc_input (cc_key s) (cc_ctr0 s) (cc_ctr1 s) in
  CC (map2 (wadd 32) (run_core p (cc_rounds s) input) input) (cc_key s) (cc_ctr0 s) (cc_ctr1 s) (cc_rounds s).
(* chacha.h:194-201; None: block[idx] outside the array *)
Definition cc_next32 (p : path) (s : chacha) : option (chacha * N) :=
  let idx := cc_ctr0 s mod 16 in
  let s := if idx =? 0 then cc_generate p s else s in
  let c0 := wadd 64 (cc_ctr0 s) 1 in
  let s := CC (cc_block s) (cc_key s) c0 (if c0 =? 0 then wadd 64 (cc_ctr1 s) 1 else cc_ctr1 s) (cc_rounds s) in
  match rd (cc_block s) (Z.of_N idx) with Some v => Some (s, v) | None => None end.
(* chacha.h:203-206: two calls in one expression, in either order (lr: left
   operand first). The left call gives the low half. *)
Definition cc_next64 (p : path) (lr : bool) (s : chacha) : option (chacha * N) :=
  match cc_next32 p s with
  | Some (s1, u) => match cc_next32 p s1 with
                    | Some (s2, v) => Some (s2, if lr then N.lor u (wshl 64 v 32) else N.lor v (wshl 64 u 32))
                    | None => None end
  | None => None
  end.
(* a run with the code path chosen anew for each draw (use_simd can be
   switched at any time) *)
Fixpoint cc_draws (ps : list path) (s : chacha) : option (chacha * list N) :=
  match ps with
  | [] => Some (s, [])
  | p :: ps => match cc_next32 p s with
               | Some (s1, v) => match cc_draws ps s1 with Some (s2, vs) => Some (s2, v :: vs) | None => None end
               | None => None end
  end.
(* chacha.c:36-56 chacha_seed and chacha.pyx:233-247; b: the object before *)
Definition cc_seed (p : path) (key counter : N) (b : chacha) : chacha :=
  let k := to_words 32 8 key in
  let c0 := counter mod 2 ^ 64 in let c1 := counter / 2 ^ 64 mod 2 ^ 64 in
  let s := cc_generate p (CC (cc_block b) k (wshl 64 (N.shiftr c0 4) 4) c1 (cc_rounds b)) in
  CC (cc_block s) (cc_key s) c0 (cc_ctr1 s) (cc_rounds s).
(* chacha.c:58-68; not called from chacha.pyx *)
Definition cc_advance_c (p : path) (d0 d1 : N) (s : chacha) : chacha :=
  let idx := cc_ctr0 s mod 16 in
  let c0 := wadd 64 (cc_ctr0 s) d0 in
  let c1 := wadd 64 (cc_ctr1 s) (wadd 64 d1 (N.b2n (c0 <? cc_ctr0 s))) in
  let s := CC (cc_block s) (cc_key s) c0 c1 (cc_rounds s) in
  if ((16 <=? wadd 64 idx d0) || negb (d1 =? 0)) && negb (c0 mod 16 =? 0) then cc_generate p s else s.

(* chacha.pyx:249-273 *)
Definition cc_get (s : chacha) : pyval :=
  PDict [("bit_generator", PStr "randomgen.chacha.ChaCha");
         ("state", PDict [("block", PArr 32 (cc_block s)); ("keysetup", PArr 32 (cc_key s)); ("ctr", PArr 64 [cc_ctr0 s; cc_ctr1 s]);
                          ("rounds", PInt (cc_rounds s))])]%string.
Definition set_block (l : list N) (s : chacha) : chacha := CC l (cc_key s) (cc_ctr0 s) (cc_ctr1 s) (cc_rounds s).
Definition set_key (l : list N) (s : chacha) : chacha := CC (cc_block s) l (cc_ctr0 s) (cc_ctr1 s) (cc_rounds s).
(* chacha.pyx:275-294 *)
Definition cc_set (v : pyval) : M chacha unit := (
  lift (preamble "ChaCha" "randomgen.chacha.ChaCha" v);;
  st <- lift (getitem v "state");;
  block <- lift (getitem st "block");;
  wr_loop 32 cc_block set_block block 16 0;;
  key <- lift (getitem st "keysetup");;
  wr_loop 32 cc_key set_key key 8 0;;
  ctr <- lift (getitem st "ctr");;
  c0 <- lift (elem 64 ctr 0);;
  modify (fun s => CC (cc_block s) (cc_key s) c0 (cc_ctr1 s) (cc_rounds s));;
  c1 <- lift (elem 64 ctr 1);;
  modify (fun s => CC (cc_block s) (cc_key s) (cc_ctr0 s) c1 (cc_rounds s));;
  r <- lift (obind (getitem st "rounds") to_cint);;
  modify (fun s => CC (cc_block s) (cc_key s) (cc_ctr0 s) (cc_ctr1 s) r))%py.

(* --------------------------------------------------------- specification *)
(* RFC 7539-style block with a 128-bit block counter (here below 2^124): input
   words = constants, key, counter; output = core(input) + input *)
Definition blk (rounds : Z) (key : list N) (c : N) : list N :=
  let input := [0x61707865; 0x3320646e; 0x79622d32; 0x6b206574] ++ key ++ to_words 32 4 c in
  map2 (wadd 32) (core_scalar rounds input) input.
Definition cc_stream (rounds : Z) (key : list N) (i : N) : N := nth (N.to_nat (i mod 16)) (blk rounds key (i mod 2 ^ 128 / 16)) 0.
Definition cc_pos (s : chacha) : N := cc_ctr0 s + 2 ^ 64 * cc_ctr1 s.
Definition cc_ok (s : chacha) : Prop := words 32 16 (cc_block s) /\ words 32 8 (cc_key s) /\ wf 64 (cc_ctr0 s) /\ wf 64 (cc_ctr1 s).
Definition cc_inv (s : chacha) : Prop :=
  cc_ok s /\ (cc_ctr0 s mod 16 <> 0 -> cc_block s = blk (cc_rounds s) (cc_key s) (cc_pos s / 16)).

(* ---------------------------------------------------------------- proofs *)
Lemma quarter_wf a b c d : let '(p, q, r, s) := quarter a b c d in wf 32 b -> wf 32 d -> wf 32 p /\ wf 32 q /\ wf 32 r /\ wf 32 s.
Proof.
  unfold quarter. intros Hb Hd.
  assert (D1 : wf 32 (rotl 32 (N.lxor d (wadd 32 a b)) 16)) by (apply wf_rotl, wf_lxor; auto using wf_wadd).
  assert (B1 : wf 32 (rotl 32 (N.lxor b (wadd 32 c (rotl 32 (N.lxor d (wadd 32 a b)) 16))) 12)) by (apply wf_rotl, wf_lxor; auto using wf_wadd).
  repeat split; try apply wf_wadd; apply wf_rotl, wf_lxor; auto using wf_wadd.
Qed.
Lemma QR_words a b c d x : (b < 16)%nat -> (d < 16)%nat -> words 32 16 x -> words 32 16 (QR a b c d x).
Proof.
  intros Hb Hd [L W]. unfold QR. pose proof (quarter_wf (nth a x 0) (nth b x 0) (nth c x 0) (nth d x 0)) as H.
  destruct (quarter _ _ _ _) as [[[p q] r] s].
  assert (N1 : forall i, (i < 16)%nat -> wf 32 (nth i x 0)) by (intros i Hi; rewrite Forall_forall in W; apply W, nth_In; now rewrite L).
  destruct (H (N1 b Hb) (N1 d Hd)) as (P1 & Q1 & R1 & S1).
  split; [now rewrite !upd_length|]. repeat apply upd_Forall; assumption.
Qed.
Lemma double_round_words x : words 32 16 x -> words 32 16 (double_round x).
Proof. intros H. unfold double_round. do 8 (apply QR_words; [clear; lia|clear; lia|]). exact H. Qed.
Lemma core_words r x : words 32 16 x -> words 32 16 (core_scalar r x).
Proof. intros H. unfold core_scalar. apply N.iter_invariant; [exact double_round_words|exact H]. Qed.
Lemma map2_length f l : forall m, List.length m = List.length l -> List.length (map2 f l m) = List.length l.
Proof. induction l as [|a l IH]; intros [|b m] H; try discriminate; [reflexivity|]. cbn in *. rewrite IH; congruence. Qed.
Lemma map2_wadd_wf l : forall m, Forall (wf 32) (map2 (wadd 32) l m).
Proof. induction l as [|a l IH]; intros [|b m]; constructor; auto using wf_wadd. Qed.

(* ---- SIMD = scalar ---- *)
Lemma rotl_split w a A B : a <= w -> A < 2 ^ a -> B < 2 ^ (w - a) -> rotl w (A + 2 ^ a * B) (w - a) = B + 2 ^ (w - a) * A.
Proof.
  intros Ha HA HB. unfold rotl, wshl. replace (w - (w - a)) with a by (clear - Ha; lia).
  rewrite N.shiftr_div_pow2, N.shiftl_mul_pow2. rewrite (N.mul_comm (2 ^ a) B) at 2. rewrite N.div_add, N.div_small, N.add_0_l by (apply pow2_nz || exact HA).
  assert (E : 2 ^ w = 2 ^ a * 2 ^ (w - a)) by (rewrite <- N.pow_add_r; f_equal; clear - Ha; lia).
  replace ((A + 2 ^ a * B) * 2 ^ (w - a)) with (A * 2 ^ (w - a) + B * 2 ^ w) by (rewrite E; generalize (2 ^ a) (2 ^ (w - a)); clear; intros; lia).
  rewrite N.mod_add by apply pow2_nz. rewrite N.mod_small by (rewrite E; revert HA; generalize (2 ^ a) (2 ^ (w - a)) (pow2_pos (w - a)); clear; intros; nia).
  rewrite N.lor_comm, <- N.shiftl_mul_pow2. rewrite N.lor_comm.
  rewrite <- (N.lxor_lor (N.shiftl A (w - a)) B).
  2:{ apply N.bits_inj. intros i. rewrite N.land_spec, N.bits_0. destruct (N.lt_ge_cases i (w - a)); [now rewrite N.shiftl_spec_low by assumption|].
      replace (N.testbit B i) with false; [apply andb_false_r|]. symmetry. apply (proj1 (wf_testbit (w - a) B)); assumption. }
  rewrite <- N.add_nocarry_lxor.
  2:{ apply N.bits_inj. intros i. rewrite N.land_spec, N.bits_0. destruct (N.lt_ge_cases i (w - a)); [now rewrite N.shiftl_spec_low by assumption|].
      replace (N.testbit B i) with false; [apply andb_false_r|]. symmetry. apply (proj1 (wf_testbit (w - a) B)); assumption. }
  rewrite N.shiftl_mul_pow2. generalize (2 ^ (w - a)). clear. intros; lia.
Qed.
Lemma bytes_rot l1 l2 : (List.length l1 + List.length l2 = 4)%nat -> Forall (wf 8) l1 -> Forall (wf 8) l2 ->
  lv 8 (l2 ++ l1) = rotl 32 (lv 8 (l1 ++ l2)) (8 * N.of_nat (List.length l2)).
Proof.
  intros L W1 W2. rewrite !lv_app. replace (8 * N.of_nat (List.length l2)) with (32 - 8 * N.of_nat (List.length l1)) by (clear - L; lia).
  symmetry. apply rotl_split; [clear - L; lia|now apply lv_lt|].
  replace (32 - 8 * N.of_nat (List.length l1)) with (8 * N.of_nat (List.length l2)) by (clear - L; lia). now apply lv_lt.
Qed.
Lemma word_bytes x : wf 32 x -> exists b0 b1 b2 b3, to_words 8 4 x = [b0; b1; b2; b3] /\ x = lv 8 [b0; b1; b2; b3] /\ Forall (wf 8) [b0; b1; b2; b3].
Proof.
  intros H. pose proof (to_words_length 8 4 x) as L. pose proof (to_words_wf 8 4 x) as W. pose proof (to_words_val 8 4 x) as V.
  change (8 * N.of_nat 4) with 32 in V. rewrite N.mod_small in V by exact H.
  destruct (to_words 8 4 x) as [|b0 [|b1 [|b2 [|b3 [|? ?]]]]]; try discriminate. exists b0, b1, b2, b3. auto.
Qed.
Lemma rot8_bytes b0 b1 b2 b3 : Forall (wf 8) [b0; b1; b2; b3] -> lv 8 [b3; b0; b1; b2] = rotl 32 (lv 8 [b0; b1; b2; b3]) 8.
Proof.
  intros W. apply (bytes_rot [b0; b1; b2] [b3]); [reflexivity| |].
  - repeat (constructor; [exact (Forall_inv W)|apply Forall_inv_tail in W]). constructor.
  - do 3 apply Forall_inv_tail in W. exact W.
Qed.
Lemma rot16_bytes b0 b1 b2 b3 : Forall (wf 8) [b0; b1; b2; b3] -> lv 8 [b2; b3; b0; b1] = rotl 32 (lv 8 [b0; b1; b2; b3]) 16.
Proof.
  intros W. apply (bytes_rot [b0; b1] [b2; b3]); [reflexivity| |].
  - repeat (constructor; [exact (Forall_inv W)|apply Forall_inv_tail in W]). constructor.
  - do 2 apply Forall_inv_tail in W. exact W.
Qed.
Ltac four W := let L := fresh in pose proof (proj1 W) as L;
  match type of L with List.length ?x = _ => do 4 (destruct x as [|? x]; [discriminate L|]); destruct x; [|discriminate L] end; clear L.
Lemma Forall4 a b c d : words 32 4 [a; b; c; d] -> wf 32 a /\ wf 32 b /\ wf 32 c /\ wf 32 d.
Proof.
  intros [_ W]. pose proof (Forall_inv W) as A. apply Forall_inv_tail in W. pose proof (Forall_inv W) as B. apply Forall_inv_tail in W.
  pose proof (Forall_inv W) as C. apply Forall_inv_tail in W. exact (conj A (conj B (conj C (Forall_inv W)))).
Qed.
Lemma words4 a b c d : wf 32 a -> wf 32 b -> wf 32 c -> wf 32 d -> words 32 4 [a; b; c; d].
Proof. intros. split; [reflexivity|]. repeat (constructor; [assumption|]). constructor. Qed.
Lemma vroti_rotl ss c x : In c [16; 12; 8; 7] -> words 32 4 x -> vroti ss x c = map (fun a => rotl 32 a c) x.
Proof.
  intros Hc W. four W. destruct (Forall4 _ _ _ _ W) as (W0 & W1 & W2 & W3).
  assert (G : forall c, c < 32 -> vxor (map (fun a => wshl 32 a c) [n; n0; n1; n2]) (map (fun a => N.shiftr a (32 - c)) [n; n0; n1; n2])
    = map (fun a => rotl 32 a c) [n; n0; n1; n2]).
  { intros e He. unfold vxor. cbn [map map2]. now rewrite !(rotl_xor 32) by assumption. }
  destruct (word_bytes n W0) as (p0 & p1 & p2 & p3 & E0 & V0 & B0). destruct (word_bytes n0 W1) as (q0 & q1 & q2 & q3 & E1 & V1 & B1).
  destruct (word_bytes n1 W2) as (r0 & r1 & r2 & r3 & E2 & V2 & B2). destruct (word_bytes n2 W3) as (s0 & s1 & s2 & s3 & E3 & V3 & B3).
  destruct Hc as [<-|[<-|[<-|[<-|[]]]]]; unfold vroti; (destruct ss; [|apply G; reflexivity]).
  - cbn [andb N.eqb Pos.eqb]. cbn [map]. unfold vshuffle8. cbn [flat_map]. rewrite E0, E1, E2, E3. rewrite V0, V1, V2, V3.
    rewrite <- !rot16_bytes by assumption. reflexivity.
  - apply G. reflexivity.
  - cbn [andb N.eqb Pos.eqb]. cbn [map]. unfold vshuffle8. cbn [flat_map]. rewrite E0, E1, E2, E3. rewrite V0, V1, V2, V3.
    rewrite <- !rot8_bytes by assumption. reflexivity.
  - apply G. reflexivity.
Qed.
Definition qa a b c d := fst (fst (fst (quarter a b c d))).
Definition qb a b c d := snd (fst (fst (quarter a b c d))).
Definition qc a b c d := snd (fst (quarter a b c d)).
Definition qd a b c d := snd (quarter a b c d).
Lemma quarter_eq a b c d : quarter a b c d = (qa a b c d, qb a b c d, qc a b c d, qd a b c d).
Proof. reflexivity. Qed.
Lemma q_wf a b c d : wf 32 b -> wf 32 d -> wf 32 (qa a b c d) /\ wf 32 (qb a b c d) /\ wf 32 (qc a b c d) /\ wf 32 (qd a b c d).
Proof. intros Hb Hd. pose proof (quarter_wf a b c d) as H. rewrite quarter_eq in H. exact (H Hb Hd). Qed.
Lemma words_vadd l m : words 32 4 l -> words 32 4 m -> words 32 4 (vadd l m).
Proof. intros [L _] [M _]. split; [unfold vadd; rewrite map2_length; congruence|apply map2_wadd_wf]. Qed.
Lemma words_vxor l m : words 32 4 l -> words 32 4 m -> words 32 4 (vxor l m).
Proof.
  intros Wl Wm. four Wl. four Wm. destruct (Forall4 _ _ _ _ Wl) as (? & ? & ? & ?). destruct (Forall4 _ _ _ _ Wm) as (? & ? & ? & ?).
  unfold vxor. cbn [map2]. apply words4; now apply wf_lxor.
Qed.
Lemma words_rot l c : words 32 4 l -> words 32 4 (map (fun a => rotl 32 a c) l).
Proof. intros W. four W. destruct (Forall4 _ _ _ _ W) as (? & ? & ? & ?). cbn [map]. apply words4; now apply wf_rotl. Qed.
Definition four_q (q : N -> N -> N -> N -> N) (a0 a1 a2 a3 b0 b1 b2 b3 c0 c1 c2 c3 d0 d1 d2 d3 : N) : list N :=
  [q a0 b0 c0 d0; q a1 b1 c1 d1; q a2 b2 c2 d2; q a3 b3 c3 d3].
(* the vector quarter round is the scalar one in each of the four lanes *)
Lemma vquarter_lanes ss a0 a1 a2 a3 b0 b1 b2 b3 c0 c1 c2 c3 d0 d1 d2 d3 :
  words 32 4 [a0; a1; a2; a3] -> words 32 4 [b0; b1; b2; b3] -> words 32 4 [c0; c1; c2; c3] -> words 32 4 [d0; d1; d2; d3] ->
  vquarter ss [a0; a1; a2; a3] [b0; b1; b2; b3] [c0; c1; c2; c3] [d0; d1; d2; d3]
  = (four_q qa a0 a1 a2 a3 b0 b1 b2 b3 c0 c1 c2 c3 d0 d1 d2 d3, four_q qb a0 a1 a2 a3 b0 b1 b2 b3 c0 c1 c2 c3 d0 d1 d2 d3,
     four_q qc a0 a1 a2 a3 b0 b1 b2 b3 c0 c1 c2 c3 d0 d1 d2 d3, four_q qd a0 a1 a2 a3 b0 b1 b2 b3 c0 c1 c2 c3 d0 d1 d2 d3).
Proof.
  intros A B C D. unfold vquarter.
  assert (A1 : words 32 4 (vadd [a0; a1; a2; a3] [b0; b1; b2; b3])) by now apply words_vadd.
  rewrite (vroti_rotl ss 16 (vxor [d0; d1; d2; d3] _)) by (now left || now apply words_vxor).
  assert (D1 := words_rot _ 16 (words_vxor _ _ D A1)). assert (C1 := words_vadd _ _ C D1).
  rewrite (vroti_rotl ss 12 (vxor [b0; b1; b2; b3] _)) by ((now right; left) || now apply words_vxor).
  assert (B1 := words_rot _ 12 (words_vxor _ _ B C1)). assert (A2 := words_vadd _ _ A1 B1).
  rewrite (vroti_rotl ss 8) by ((now right; right; left) || now apply words_vxor).
  assert (D2 := words_rot _ 8 (words_vxor _ _ D1 A2)). assert (C2 := words_vadd _ _ C1 D2).
  rewrite (vroti_rotl ss 7) by ((now right; right; right; left) || now apply words_vxor).
  reflexivity.
Qed.
Lemma words16_4 x : words 32 16 x -> exists a0 a1 a2 a3 b0 b1 b2 b3 c0 c1 c2 c3 d0 d1 d2 d3,
  x = [a0; a1; a2; a3; b0; b1; b2; b3; c0; c1; c2; c3; d0; d1; d2; d3] /\
  words 32 4 [a0; a1; a2; a3] /\ words 32 4 [b0; b1; b2; b3] /\ words 32 4 [c0; c1; c2; c3] /\ words 32 4 [d0; d1; d2; d3].
Proof.
  intros [L W]. do 16 (destruct x as [|? x]; [discriminate L|]). destruct x; [|discriminate L].
  do 16 eexists. split; [reflexivity|].
  refine (conj _ (conj _ (conj _ _))); (split; [reflexivity|]); rewrite Forall_forall in W; apply Forall_forall; intros y Hy; apply W; cbn in Hy |- *; tauto.
Qed.
Lemma QR_eq a b c d x : QR a b c d x = upd (upd (upd (upd x a (qa (nth a x 0) (nth b x 0) (nth c x 0) (nth d x 0))) b (qb (nth a x 0) (nth b x 0) (nth c x 0) (nth d x 0)))
  c (qc (nth a x 0) (nth b x 0) (nth c x 0) (nth d x 0))) d (qd (nth a x 0) (nth b x 0) (nth c x 0) (nth d x 0)).
Proof. unfold QR. now rewrite quarter_eq. Qed.
Lemma cols_eq a0 a1 a2 a3 b0 b1 b2 b3 c0 c1 c2 c3 d0 d1 d2 d3 :
  QR 3 7 11 15 (QR 2 6 10 14 (QR 1 5 9 13 (QR 0 4 8 12 [a0; a1; a2; a3; b0; b1; b2; b3; c0; c1; c2; c3; d0; d1; d2; d3])))
  = [qa a0 b0 c0 d0; qa a1 b1 c1 d1; qa a2 b2 c2 d2; qa a3 b3 c3 d3; qb a0 b0 c0 d0; qb a1 b1 c1 d1; qb a2 b2 c2 d2; qb a3 b3 c3 d3; qc a0 b0 c0 d0; qc a1 b1 c1 d1; qc a2 b2 c2 d2; qc a3 b3 c3 d3; qd a0 b0 c0 d0; qd a1 b1 c1 d1; qd a2 b2 c2 d2; qd a3 b3 c3 d3].
Proof.
  rewrite (QR_eq 0 4 8 12). cbn [nth upd]. rewrite (QR_eq 1 5 9 13). cbn [nth upd]. rewrite (QR_eq 2 6 10 14). cbn [nth upd]. rewrite (QR_eq 3 7 11 15). cbn [nth upd]. reflexivity.
Qed.
Lemma diags_eq a0 a1 a2 a3 b0 b1 b2 b3 c0 c1 c2 c3 d0 d1 d2 d3 :
  QR 3 4 9 14 (QR 2 7 8 13 (QR 1 6 11 12 (QR 0 5 10 15 [a0; a1; a2; a3; b0; b1; b2; b3; c0; c1; c2; c3; d0; d1; d2; d3])))
  = [qa a0 b1 c2 d3; qa a1 b2 c3 d0; qa a2 b3 c0 d1; qa a3 b0 c1 d2; qb a3 b0 c1 d2; qb a0 b1 c2 d3; qb a1 b2 c3 d0; qb a2 b3 c0 d1; qc a2 b3 c0 d1; qc a3 b0 c1 d2; qc a0 b1 c2 d3; qc a1 b2 c3 d0; qd a1 b2 c3 d0; qd a2 b3 c0 d1; qd a3 b0 c1 d2; qd a0 b1 c2 d3].
Proof.
  rewrite (QR_eq 0 5 10 15). cbn [nth upd]. rewrite (QR_eq 1 6 11 12). cbn [nth upd]. rewrite (QR_eq 2 7 8 13). cbn [nth upd]. rewrite (QR_eq 3 4 9 14). cbn [nth upd]. reflexivity.
Qed.
Lemma vdouble_eq ss x : words 32 16 x -> vdouble ss (vload x) = vload (double_round x).
Proof.
  intros W. destruct (words16_4 x W) as (a0 & a1 & a2 & a3 & b0 & b1 & b2 & b3 & c0 & c1 & c2 & c3 & d0 & d1 & d2 & d3 & -> & A & B & C & D).
  unfold vload. cbn [firstn skipn]. unfold vdouble. rewrite vquarter_lanes by assumption. unfold four_q.
  destruct (Forall4 _ _ _ _ B) as (B0 & B1 & B2 & B3). destruct (Forall4 _ _ _ _ D) as (D0 & D1 & D2 & D3).
  destruct (q_wf a0 b0 c0 d0 B0 D0) as (P0 & Q0 & R0 & S0). destruct (q_wf a1 b1 c1 d1 B1 D1) as (P1 & Q1 & R1 & S1).
  destruct (q_wf a2 b2 c2 d2 B2 D2) as (P2 & Q2 & R2 & S2). destruct (q_wf a3 b3 c3 d3 B3 D3) as (P3 & Q3 & R3 & S3).
  unfold double_round. rewrite cols_eq, diags_eq. cbn [firstn skipn].
  change (ROTV1 [qb a0 b0 c0 d0; qb a1 b1 c1 d1; qb a2 b2 c2 d2; qb a3 b3 c3 d3]) with [qb a1 b1 c1 d1; qb a2 b2 c2 d2; qb a3 b3 c3 d3; qb a0 b0 c0 d0].
  change (ROTV2 [qc a0 b0 c0 d0; qc a1 b1 c1 d1; qc a2 b2 c2 d2; qc a3 b3 c3 d3]) with [qc a2 b2 c2 d2; qc a3 b3 c3 d3; qc a0 b0 c0 d0; qc a1 b1 c1 d1].
  change (ROTV3 [qd a0 b0 c0 d0; qd a1 b1 c1 d1; qd a2 b2 c2 d2; qd a3 b3 c3 d3]) with [qd a3 b3 c3 d3; qd a0 b0 c0 d0; qd a1 b1 c1 d1; qd a2 b2 c2 d2].
  rewrite vquarter_lanes by (apply words4; assumption). reflexivity.
Qed.
Lemma vstore_vload x : List.length x = 16%nat -> vstore (vload x) = x.
Proof. intros L. do 16 (destruct x as [|? x]; [discriminate L|]). destruct x; [|discriminate L]. reflexivity. Qed.
Lemma iter_vdouble ss n x : words 32 16 x -> N.iter n (vdouble ss) (vload x) = vload (N.iter n double_round x) /\ words 32 16 (N.iter n double_round x).
Proof.
  intros W. induction n as [|n [IH IW]] using N.peano_ind; [exact (conj eq_refl W)|].
  rewrite !N.iter_succ. rewrite IH, vdouble_eq by exact IW. exact (conj eq_refl (double_round_words _ IW)).
Qed.
Theorem core_simd_eq ss r x : words 32 16 x -> core_simd ss r x = core_scalar r x.
Proof.
  intros W. unfold core_simd, core_scalar. destruct (iter_vdouble ss (iters r) x W) as [E Wi]. rewrite E. apply vstore_vload, Wi.
Qed.
Lemma run_core_eq p r x : words 32 16 x -> run_core p r x = core_scalar r x.
Proof. intros W. destruct p; [reflexivity|now apply core_simd_eq|now apply core_simd_eq]. Qed.

(* ---- the stream ---- *)
Lemma cc_input_words key c0 c1 : wf 64 c0 -> wf 64 c1 ->
  cc_input key c0 c1 = [0x61707865; 0x3320646e; 0x79622d32; 0x6b206574] ++ key ++ to_words 32 4 ((c0 + 2 ^ 64 * c1) / 16).
Proof.
  intros H0 H1. unfold cc_input. do 2 f_equal. unfold wf in *. change (2 ^ 64) with 18446744073709551616 in *.
  assert (M : forall a, N.land a 0xffffffff = a mod 2 ^ 32) by (intros a; change 0xffffffff with (N.ones 32); apply N.land_ones).
  rewrite !M. unfold trunc, wshl. rewrite !N.shiftr_div_pow2. change (2 ^ 32) with 4294967296. rewrite N.shiftl_mul_pow2. change (2 ^ 28) with 268435456.
  set (c := (c0 + 18446744073709551616 * c1) / 16).
  assert (Ec : c = c0 / 16 + 1152921504606846976 * c1).
  { unfold c. replace (18446744073709551616 * c1) with (1152921504606846976 * c1 * 16) by (clear; lia). apply N.div_add. discriminate. }
  assert (X0 : c0 / 16 < 1152921504606846976) by (apply N.div_lt_upper_bound; [discriminate|exact H0]).
  change (to_words 32 4 c) with [c mod 2 ^ 32; c / 2 ^ 32 mod 2 ^ 32; c / 2 ^ 32 / 2 ^ 32 mod 2 ^ 32; c / 2 ^ 32 / 2 ^ 32 / 2 ^ 32 mod 2 ^ 32].
  change (2 ^ 32) with 4294967296. clearbody c. subst c. revert X0. generalize (c0 / 16). clear H0 c0. intros x X0.
  assert (Q1 : (x + 1152921504606846976 * c1) / 4294967296 = x / 4294967296 + 268435456 * c1).
  { replace (1152921504606846976 * c1) with (268435456 * c1 * 4294967296) by (clear; lia). apply N.div_add. discriminate. }
  assert (X1 : x / 4294967296 < 268435456) by (apply N.div_lt_upper_bound; [discriminate|exact X0]).
  assert (Q2 : (x / 4294967296 + 268435456 * c1) / 4294967296 = c1 / 16).
  { clear - X1. replace 4294967296 with (268435456 * 16) at 2 by reflexivity. rewrite <- N.div_div by discriminate.
    rewrite (N.mul_comm 268435456 c1), N.div_add by discriminate. rewrite (N.div_small _ _ X1). now rewrite N.add_0_l. }
  rewrite Q1, Q2. refine (f_equal2 (@cons N) _ (f_equal2 (@cons N) _ eq_refl)).
  - replace (1152921504606846976 * c1) with (268435456 * c1 * 4294967296) by (clear; lia). now rewrite N.mod_add by discriminate.
  - rewrite (N.mod_small (x / 4294967296)) by (clear - X1; lia).
    assert (E16 : c1 mod 4294967296 mod 16 = c1 mod 16).
    { change 4294967296 with (16 * 268435456). rewrite N.mod_mul_r by discriminate. rewrite (N.mul_comm 16 (_ mod _)), N.mod_add, N.mod_mod by discriminate. reflexivity. }
    rewrite E16. assert (Y : c1 mod 16 < 16) by (now apply N.mod_lt).
    rewrite (N.mod_small (c1 mod 16 * 268435456)) by (revert Y; generalize (c1 mod 16); clear; lia).
    rewrite N.lor_comm. change 268435456 with (2 ^ 28) at 1. rewrite <- (N.shiftl_mul_pow2 (c1 mod 16) 28).
    replace (x / 4294967296 + 268435456 * c1) with (x / 4294967296 + c1 mod 16 * 268435456 + c1 / 16 * 4294967296).
    2:{ rewrite (N.div_mod c1 16) at 3 by discriminate. generalize (c1 / 16) (c1 mod 16) (x / 4294967296). clear. intros; lia. }
    rewrite N.mod_add by discriminate. rewrite (N.mod_small (x / 4294967296 + c1 mod 16 * 268435456)).
    2:{ revert X1 Y. generalize (c1 mod 16) (x / 4294967296). clear. intros; lia. }
    assert (Z0 : N.land (x / 4294967296) (N.shiftl (c1 mod 16) 28) = 0).
    { apply N.bits_inj. intros i. rewrite N.land_spec, N.bits_0. destruct (N.lt_ge_cases i 28); [rewrite N.shiftl_spec_low by assumption; apply andb_false_r|].
      replace (N.testbit (x / 4294967296) i) with false; [reflexivity|]. symmetry. apply (proj1 (wf_testbit 28 (x / 4294967296))); assumption. }
    rewrite <- N.lxor_lor, <- N.add_nocarry_lxor by exact Z0. now rewrite N.shiftl_mul_pow2.
Qed.

Lemma blk_words r key c : words 32 8 key -> words 32 16 (blk r key c).
Proof.
  intros [L W]. unfold blk. set (i := _ ++ _).
  assert (Wi : words 32 16 i).
  { split; [unfold i; rewrite !app_length, L, to_words_length; reflexivity|]. unfold i. apply Forall_app. split; [repeat constructor|]. apply Forall_app. split; [exact W|apply to_words_wf]. }
  split; [|apply map2_wadd_wf]. rewrite map2_length; [apply (core_words r i Wi)|]. rewrite (proj1 Wi). symmetry. apply (core_words r i Wi).
Qed.
Lemma cc_input_16 key c0 c1 : words 32 8 key -> wf 64 c0 -> wf 64 c1 -> words 32 16 (cc_input key c0 c1).
Proof.
  intros [L W] H0 H1. rewrite cc_input_words by assumption.
  split; [rewrite !app_length, L, to_words_length; reflexivity|]. apply Forall_app. split; [repeat constructor|]. apply Forall_app. split; [exact W|apply to_words_wf].
Qed.
Lemma cc_generate_blk p s : words 32 8 (cc_key s) -> wf 64 (cc_ctr0 s) -> wf 64 (cc_ctr1 s) ->
  cc_generate p s = CC (blk (cc_rounds s) (cc_key s) (cc_pos s / 16)) (cc_key s) (cc_ctr0 s) (cc_ctr1 s) (cc_rounds s).
Proof.
  intros Hk H0 H1. unfold cc_generate. rewrite run_core_eq by now apply cc_input_16. rewrite cc_input_words by assumption. reflexivity.
Qed.
Lemma cc_pos_lt s : wf 64 (cc_ctr0 s) -> wf 64 (cc_ctr1 s) -> cc_pos s < 2 ^ 128.
Proof. unfold wf, cc_pos. intros H0 H1. change (2 ^ 128) with (2 ^ 64 * 2 ^ 64). revert H0 H1. generalize (2 ^ 64). clear. intros; nia. Qed.
(* one draw *)
Theorem cc_next32_spec p s : cc_inv s -> exists s', cc_next32 p s = Some (s', cc_stream (cc_rounds s) (cc_key s) (cc_pos s)) /\ cc_inv s'
  /\ cc_key s' = cc_key s /\ cc_rounds s' = cc_rounds s /\ cc_pos s' = (cc_pos s + 1) mod 2 ^ 128.
Proof.
  intros [(Hb & Hk & H0 & H1) Hblk]. pose proof (cc_pos_lt s H0 H1) as Pl.
  set (B := blk (cc_rounds s) (cc_key s) (cc_pos s / 16)).
  assert (WB : words 32 16 B) by now apply blk_words.
  set (c0' := wadd 64 (cc_ctr0 s) 1). set (c1' := if c0' =? 0 then wadd 64 (cc_ctr1 s) 1 else cc_ctr1 s).
  assert (G : (if cc_ctr0 s mod 16 =? 0 then cc_generate p s else s) = CC B (cc_key s) (cc_ctr0 s) (cc_ctr1 s) (cc_rounds s)).
  { destruct (N.eqb_spec (cc_ctr0 s mod 16) 0) as [E|E]; [now apply cc_generate_blk|]. rewrite <- (Hblk E) at 1 || idtac.
    subst B. rewrite <- (Hblk E). now destruct s. }
  assert (M16 : cc_pos s mod 16 = cc_ctr0 s mod 16).
  { unfold cc_pos. change (2 ^ 64) with (1152921504606846976 * 16). rewrite <- N.mul_assoc, (N.mul_comm 16), N.mul_assoc. apply N.mod_add. discriminate. }
  assert (Hpos : c0' + 2 ^ 64 * c1' = (cc_pos s + 1) mod 2 ^ 128 /\ wf 64 c0' /\ wf 64 c1').
  { subst c0' c1'. unfold cc_pos, wadd, wf in *. change (2 ^ 128) with (2 ^ 64 * 2 ^ 64).
    destruct (N.eq_dec (cc_ctr0 s) (2 ^ 64 - 1)) as [E|E].
    - rewrite E. change ((2 ^ 64 - 1 + 1) mod 2 ^ 64) with 0. cbn [N.eqb].
      destruct (N.eq_dec (cc_ctr1 s) (2 ^ 64 - 1)) as [F|F].
      + rewrite F. refine (conj _ (conj _ _)); reflexivity.
      + rewrite (N.mod_small (cc_ctr1 s + 1)) by (revert H1 F; generalize (2 ^ 64); clear; lia).
        refine (conj _ (conj _ _)); [|reflexivity|revert H1 F; generalize (2 ^ 64); clear; lia].
        rewrite N.mod_small; [clear; change (2 ^ 64) with 18446744073709551616; lia|].
        revert H1 F. change (2 ^ 64) with 18446744073709551616. clear. intros; lia.
    - rewrite (N.mod_small (cc_ctr0 s + 1)) by (revert H0 E; generalize (2 ^ 64); clear; lia).
      replace (cc_ctr0 s + 1 =? 0) with false by (symmetry; apply N.eqb_neq; clear; lia).
      refine (conj _ (conj _ H1)); [|revert H0 E; generalize (2 ^ 64); clear; lia].
      rewrite N.mod_small; [clear; lia|]. revert H0 H1 E. change (2 ^ 64) with 18446744073709551616. clear. intros; lia. }
  destruct Hpos as (P' & W0 & W1).
  exists (CC B (cc_key s) c0' c1' (cc_rounds s)).
  assert (Hi : cc_ctr0 s mod 16 < 16) by now apply N.mod_lt.
  split.
  - unfold cc_next32. rewrite G. cbn [cc_ctr0 cc_ctr1 cc_block cc_key cc_rounds]. fold c0' c1'.
    rewrite (rd_nth B _ 0) by (rewrite (proj1 WB); clear - Hi; lia).
    unfold cc_stream. rewrite (N.mod_small (cc_pos s) (2 ^ 128)) by exact Pl. fold B. rewrite M16. do 3 f_equal. clear. lia.
  - refine (conj (conj (conj WB (conj Hk (conj W0 W1))) _) (conj eq_refl (conj eq_refl P'))).
    cbn [cc_block cc_rounds cc_key cc_ctr0]. intros Hn. change (B = blk (cc_rounds s) (cc_key s) ((c0' + 2 ^ 64 * c1') / 16)). rewrite P'. unfold B. f_equal.
    assert (Mod : c0' mod 16 = (cc_pos s + 1) mod 16).
    { assert (X : (c0' + 2 ^ 64 * c1') mod 16 = c0' mod 16).
      { change (2 ^ 64) with (1152921504606846976 * 16). rewrite <- N.mul_assoc, (N.mul_comm 16), N.mul_assoc. apply N.mod_add. discriminate. }
      rewrite <- X, P'. change (2 ^ 128) with (16 * 2 ^ 124). rewrite N.mod_mul_r by discriminate. rewrite (N.mul_comm 16 (_ mod _)), N.mod_add, N.mod_mod by discriminate. reflexivity. }
    rewrite Mod in Hn. revert Pl Hn. change (2 ^ 128) with 340282366920938463463374607431768211456. generalize (cc_pos s). clear. intros x Pl Hn.
    destruct (N.eq_dec x 340282366920938463463374607431768211455) as [->|Ne]; [exfalso; apply Hn; reflexivity|].
    rewrite N.mod_small by (clear - Pl Ne; lia).
    assert (Hx : x = 16 * (x / 16) + x mod 16) by (now apply N.div_mod).
    assert (Hm : x mod 16 < 16) by now apply N.mod_lt. assert (Hm15 : x mod 16 <> 15).
    { intros E. apply Hn. rewrite <- N.add_mod_idemp_l, E by discriminate. reflexivity. }
    apply (N.div_unique (x + 1) 16 (x / 16) (x mod 16 + 1)); [clear - Hm Hm15; lia|clear - Hx; lia].
Qed.
Theorem cc_draws_spec ps : forall s, cc_inv s -> exists s',
  cc_draws ps s = Some (s', map (fun i => cc_stream (cc_rounds s) (cc_key s) (cc_pos s + N.of_nat i)) (seq 0 (List.length ps)))
  /\ cc_inv s' /\ cc_key s' = cc_key s /\ cc_rounds s' = cc_rounds s /\ cc_pos s' = (cc_pos s + N.of_nat (List.length ps)) mod 2 ^ 128.
Proof.
  induction ps as [|p ps IH]; intros s Hs.
  - exists s. refine (conj eq_refl (conj Hs (conj eq_refl (conj eq_refl _)))). cbn [List.length N.of_nat]. rewrite N.add_0_r. symmetry. apply N.mod_small.
    destruct Hs as [(_ & _ & H0 & H1) _]. now apply cc_pos_lt.
  - destruct (cc_next32_spec p s Hs) as (s1 & E1 & I1 & K1 & R1 & P1). destruct (IH s1 I1) as (s2 & E2 & I2 & K2 & R2 & P2).
    exists s2. cbn [cc_draws]. rewrite E1, E2. refine (conj _ (conj I2 (conj _ (conj _ _)))); [| congruence | congruence |].
    + cbn [List.length seq map]. rewrite N.add_0_r. do 3 f_equal. rewrite <- seq_shift, map_map. apply map_ext. intros i. rewrite K1, R1, P1.
      unfold cc_stream. replace ((((cc_pos s + 1) mod 2 ^ 128 + N.of_nat i) mod 2 ^ 128)) with ((cc_pos s + N.of_nat (S i)) mod 2 ^ 128).
      2:{ rewrite N.add_mod_idemp_l by apply pow2_nz. f_equal. clear. lia. }
      f_equal. f_equal. change (2 ^ 128) with (16 * 2 ^ 124).
      rewrite <- (N.add_mod_idemp_l ((cc_pos s + 1) mod (16 * 2 ^ 124))) by discriminate.
      rewrite N.mod_mul_r by discriminate. rewrite (N.mul_comm 16 (_ mod _)), N.mod_add, N.mod_mod by discriminate. rewrite N.add_mod_idemp_l by discriminate. f_equal. clear. lia.
    + rewrite P2, P1. rewrite N.add_mod_idemp_l by apply pow2_nz. f_equal. cbn [List.length]. clear. lia.
Qed.
(* seeding *)
Theorem cc_seed_inv p key counter b : counter < 2 ^ 128 -> cc_inv (cc_seed p key counter b) /\ cc_pos (cc_seed p key counter b) = counter
  /\ cc_key (cc_seed p key counter b) = to_words 32 8 key /\ cc_rounds (cc_seed p key counter b) = cc_rounds b.
Proof.
  intros Hc. unfold cc_seed. set (c0 := counter mod 2 ^ 64). set (c1 := counter / 2 ^ 64 mod 2 ^ 64).
  assert (H0 : wf 64 c0) by (apply N.mod_lt, pow2_nz). assert (H1 : wf 64 c1) by (apply N.mod_lt, pow2_nz).
  assert (Hk : words 32 8 (to_words 32 8 key)) by (split; [apply to_words_length|apply to_words_wf]).
  set (m := wshl 64 (N.shiftr c0 4) 4).
  assert (Hm : wf 64 m) by apply wf_wshl.
  assert (Em : m = 16 * (c0 / 16)).
  { unfold m, wshl. rewrite N.shiftr_div_pow2, N.shiftl_mul_pow2. change (2 ^ 4) with 16. rewrite N.mul_comm. apply N.mod_small.
    apply (N.le_lt_trans _ c0); [apply N.mul_div_le; discriminate|exact H0]. }
  rewrite cc_generate_blk by assumption. cbn [cc_block cc_key cc_ctr0 cc_ctr1 cc_rounds].
  assert (P : c0 + 2 ^ 64 * c1 = counter).
  { unfold c0, c1. rewrite (N.mod_small (counter / 2 ^ 64)) by (apply N.div_lt_upper_bound; [apply pow2_nz|exact Hc]). rewrite N.add_comm. symmetry. apply N.div_mod, pow2_nz. }
  assert (D : (m + 2 ^ 64 * c1) / 16 = (c0 + 2 ^ 64 * c1) / 16).
  { change (2 ^ 64) with (1152921504606846976 * 16). rewrite <- N.mul_assoc, (N.mul_comm 16), N.mul_assoc. rewrite !N.div_add by discriminate.
    f_equal. rewrite Em, N.mul_comm. now apply N.div_mul. }
  unfold cc_pos. cbn [cc_ctr0 cc_ctr1]. rewrite D.
  refine (conj (conj (conj (blk_words _ _ _ Hk) (conj Hk (conj H0 H1))) (fun _ => eq_refl)) (conj P (conj eq_refl eq_refl))).
Qed.
(* 64-bit draws are two 32-bit draws *)
Theorem cc_next64_spec p lr s : cc_inv s -> exists s' , cc_next64 p lr s =
    Some (s', let u := cc_stream (cc_rounds s) (cc_key s) (cc_pos s) in let v := cc_stream (cc_rounds s) (cc_key s) ((cc_pos s + 1) mod 2 ^ 128) in
              if lr then N.lor u (wshl 64 v 32) else N.lor v (wshl 64 u 32))
    /\ cc_inv s' /\ cc_key s' = cc_key s /\ cc_rounds s' = cc_rounds s /\ cc_pos s' = (cc_pos s + 2) mod 2 ^ 128.
Proof.
  intros Hs. destruct (cc_next32_spec p s Hs) as (s1 & E1 & I1 & K1 & R1 & P1). destruct (cc_next32_spec p s1 I1) as (s2 & E2 & I2 & K2 & R2 & P2).
  exists s2. unfold cc_next64. rewrite E1, E2, K1, R1, P1. refine (conj eq_refl (conj I2 (conj _ (conj _ _)))); try congruence.
  rewrite P2, P1, N.add_mod_idemp_l by apply pow2_nz. f_equal. clear. lia.
Qed.
(* saved states *)
Theorem cc_set_get s t : cc_ok s -> (- 2 ^ 31 <= cc_rounds s < 2 ^ 31)%Z -> cc_ok t -> cc_set (cc_get s) t = (s, Ok tt).
Proof.
  intros ((Lb & Wb) & (Lk & Wk) & H0 & H1) Hr ((Lt & _) & (Lu & _) & _).
  destruct s as [blk0 key c0 c1 r], t as [tb tk t0 t1 tr]. cbn [cc_block cc_key cc_ctr0 cc_ctr1 cc_rounds] in *.
  unfold cc_set, cc_get. cbn [cc_block cc_key cc_ctr0 cc_ctr1 cc_rounds].
  rewrite bind_lift. cbn [preamble get_default assoc String.eqb Ascii.eqb Bool.eqb orb].
  rewrite bind_lift. cbn [getitem assoc String.eqb Ascii.eqb Bool.eqb obind]. rewrite bind_lift.
  unfold bind at 1. rewrite <- Lb at 1. rewrite wr_loop_all; auto; try reflexivity; [|now intros []|cbn [cc_block]; congruence].
  rewrite bind_lift. unfold bind at 1. rewrite <- Lk at 1. rewrite wr_loop_all; auto; try reflexivity; [|now intros []|cbn [cc_key set_block]; congruence].
  rewrite bind_lift, bind_lift. cbn [elem nth_error]. rewrite (to_uint_ok 64 c0 H0), bind_modify, bind_lift.
  rewrite (to_uint_ok 64 c1 H1), bind_modify, bind_lift. unfold to_cint.
  replace ((- 2 ^ 31 <=? r) && (r <? 2 ^ 31))%Z with true by (symmetry; apply andb_true_intro; split; [apply Z.leb_le|apply Z.ltb_lt]; apply Hr).
  reflexivity.
Qed.
(* the C function chacha_advance, inside a generated block and when
   ctr[0] % 16 + delta[0] fits in 64 bits *)
Theorem cc_advance_c_spec p d0 d1 s : cc_inv s -> wf 64 d0 -> wf 64 d1 -> cc_ctr0 s mod 16 <> 0 -> cc_ctr0 s mod 16 + d0 < 2 ^ 64 ->
  cc_inv (cc_advance_c p d0 d1 s) /\ cc_pos (cc_advance_c p d0 d1 s) = (cc_pos s + (d0 + 2 ^ 64 * d1)) mod 2 ^ 128
  /\ cc_key (cc_advance_c p d0 d1 s) = cc_key s /\ cc_rounds (cc_advance_c p d0 d1 s) = cc_rounds s.
Proof.
  intros [(Hb & Hk & H0 & H1) Hblk] W0 W1 NZ Hov. unfold cc_advance_c.
  set (c0 := wadd 64 (cc_ctr0 s) d0). set (c1 := wadd 64 (cc_ctr1 s) (wadd 64 d1 (N.b2n (c0 <? cc_ctr0 s)))).
  assert (WC0 : wf 64 c0) by apply wf_wadd. assert (WC1 : wf 64 c1) by apply wf_wadd.
  assert (C0 : c0 = if c0 <? cc_ctr0 s then cc_ctr0 s + d0 - 2 ^ 64 else cc_ctr0 s + d0).
  { unfold c0, wadd, wf in *. destruct (N.lt_ge_cases (cc_ctr0 s + d0) (2 ^ 64)) as [L|L].
    - rewrite N.mod_small by exact L. replace (cc_ctr0 s + d0 <? cc_ctr0 s) with false; [reflexivity|]. symmetry. apply N.ltb_ge. clear. lia.
    - replace ((cc_ctr0 s + d0) mod 2 ^ 64) with (cc_ctr0 s + d0 - 2 ^ 64).
      + replace (cc_ctr0 s + d0 - 2 ^ 64 <? cc_ctr0 s) with true; [reflexivity|]. symmetry. apply N.ltb_lt. revert W0 L. generalize (2 ^ 64). clear. intros; lia.
      + replace (cc_ctr0 s + d0) with (cc_ctr0 s + d0 - 2 ^ 64 + 1 * 2 ^ 64) at 2 by (revert L; generalize (2 ^ 64); clear; lia).
        rewrite N.mod_add by apply pow2_nz. symmetry. apply N.mod_small. revert W0 H0 L. generalize (2 ^ 64). clear. intros; lia. }
  assert (P : c0 + 2 ^ 64 * c1 = (cc_pos s + (d0 + 2 ^ 64 * d1)) mod 2 ^ 128).
  { change (2 ^ 128) with (2 ^ 64 * 2 ^ 64). unfold cc_pos.
    assert (E1 : c1 = (cc_ctr1 s + d1 + N.b2n (c0 <? cc_ctr0 s)) mod 2 ^ 64).
    { unfold c1, wadd. rewrite N.add_mod_idemp_r by apply pow2_nz. f_equal. clear. lia. }
    assert (E0 : cc_ctr0 s + d0 = c0 + 2 ^ 64 * N.b2n (c0 <? cc_ctr0 s)).
    { destruct (c0 <? cc_ctr0 s) eqn:E; cbn [N.b2n]; [|rewrite N.mul_0_r, N.add_0_r; now symmetry].
      rewrite C0. unfold c0, wadd, wf in *. apply N.ltb_lt in E. assert (2 ^ 64 <= cc_ctr0 s + d0).
      { destruct (N.lt_ge_cases (cc_ctr0 s + d0) (2 ^ 64)) as [L|L]; [|exact L]. rewrite N.mod_small in E by exact L. exfalso. clear - E. lia. }
      revert H. generalize (2 ^ 64). clear. intros; lia. }
    replace (cc_ctr0 s + 2 ^ 64 * cc_ctr1 s + (d0 + 2 ^ 64 * d1)) with (c0 + 2 ^ 64 * (cc_ctr1 s + d1 + N.b2n (c0 <? cc_ctr0 s))).
    2:{ revert E0. generalize (2 ^ 64) (N.b2n (c0 <? cc_ctr0 s)). clear. intros n m E. nia. }
    rewrite E1. apply mod_mul_tail; [apply pow2_nz|apply pow2_nz|exact WC0]. }
  set (g := ((16 <=? wadd 64 (cc_ctr0 s mod 16) d0) || negb (d1 =? 0)) && negb (c0 mod 16 =? 0)).
  assert (Hinv : g = false -> c0 mod 16 <> 0 -> blk (cc_rounds s) (cc_key s) ((c0 + 2 ^ 64 * c1) / 16) = cc_block s).
  { unfold g. intros G Hn. apply N.eqb_neq in Hn as Hn'. rewrite Hn', andb_true_r in G. apply orb_false_iff in G as [G1 G2].
    apply negb_false_iff, N.eqb_eq in G2. apply N.leb_gt in G1. unfold wadd in G1. rewrite N.mod_small in G1 by exact Hov.
    assert (D : cc_ctr0 s = 16 * (cc_ctr0 s / 16) + cc_ctr0 s mod 16) by now apply N.div_mod.
    assert (Lt : cc_ctr0 s + d0 < 2 ^ 64).
    { assert (cc_ctr0 s / 16 < 1152921504606846976) by (apply N.div_lt_upper_bound; [discriminate|exact H0]). change (2 ^ 64) with 18446744073709551616. clear - D G1 H. lia. }
    assert (Ec : c0 = cc_ctr0 s + d0) by (unfold c0, wadd; now apply N.mod_small).
    assert (Ec1 : c1 = cc_ctr1 s).
    { unfold c1. rewrite Ec, G2. replace (cc_ctr0 s + d0 <? cc_ctr0 s) with false by (symmetry; apply N.ltb_ge; clear; lia).
      cbn [N.b2n]. change (wadd 64 0 0) with 0. now apply wadd_0_r. }
    rewrite (Hblk NZ). f_equal. unfold cc_pos. rewrite Ec1, Ec. change (2 ^ 64) with (1152921504606846976 * 16). rewrite <- !N.mul_assoc, !(N.mul_comm 16), !N.mul_assoc. rewrite !N.div_add by discriminate.
      f_equal. symmetry. apply (N.div_unique _ 16 (cc_ctr0 s / 16) (cc_ctr0 s mod 16 + d0)); [exact G1|clear - D; lia]. }
  assert (R : forall b, words 32 16 b -> (c0 mod 16 <> 0 -> b = blk (cc_rounds s) (cc_key s) ((c0 + 2 ^ 64 * c1) / 16)) ->
    let t := CC b (cc_key s) c0 c1 (cc_rounds s) in
    cc_inv t /\ cc_pos t = (cc_pos s + (d0 + 2 ^ 64 * d1)) mod 2 ^ 128 /\ cc_key t = cc_key s /\ cc_rounds t = cc_rounds s).
  { intros b Wb Eb t. refine (conj (conj (conj Wb (conj Hk (conj WC0 WC1))) Eb) (conj P (conj eq_refl eq_refl))). }
  destruct g.
  - rewrite cc_generate_blk by assumption. apply R; [now apply blk_words|]. intros _. reflexivity.
  - apply R; [exact Hb|]. intros Hn. symmetry. exact (Hinv eq_refl Hn).
Qed.
