(* Properties of HC128.

   hc_draws n s: the values of n 32-bit draws from s and the state after them
   (None: a table or the buffer is read out of bounds). wu_next: one step of the
   HC-128 cipher as published (tables P and Q, step counter), wu_start W: its
   tables after initialisation with the array W. hc_ok: the states that
   construction, seeding and drawing produce. *)
From Verif Require Import Word MultiWord Arr Speck Buffer32 Py SeedSeq Hc128 Hc128Facts.
From Coq Require Import String ZifyBool ZifyNat ZifyN.
Open Scope N_scope.
Ltac Zify.zify_post_hook ::= idtac.

Definition ex_hc (i b : Z) : hc := HC (map N.of_nat (seq 1 512)) (map N.of_nat (seq 2000 512)) (map N.of_nat (seq 9 16)) i b.
Lemma forallb_wf w l : forallb (fun x => x <? 2 ^ w) l = true -> Forall (wf w) l.
Proof. intros H. rewrite forallb_forall in H. apply Forall_forall. intros x Hx. apply N.ltb_lt. now apply H. Qed.
Lemma ex_hc_ok i b : (0 <= i < 1024)%Z -> (i mod 16 = 0)%Z -> (0 <= b <= 16)%Z -> hc_ok (ex_hc i b).
Proof.
  intros I M B. refine (conj _ (conj _ (conj _ (conj _ (conj I (conj M B)))))); [split; [reflexivity|]|split; [reflexivity|]|reflexivity|]; apply forallb_wf; vm_compute; reflexivity.
Qed.
Lemma hc_zero_buf : buf_ok hc_zero.
Proof. split; [reflexivity|]. split; [apply forallb_wf; vm_compute; reflexivity|]. split; discriminate. Qed.
Lemma ex_hc_buf i b : (0 <= b <= 16)%Z -> buf_ok (ex_hc i b).
Proof. intros B. split; [reflexivity|]. split; [apply forallb_wf; vm_compute; reflexivity|exact B]. Qed.

(* ------------------------------------------------------------------- C50 *)
(* n draws from a new object seeded with a key are the first n words of the
   published keystream for that key (low 128 bits) and initialisation vector
   (high 128 bits) *)
Theorem C50_hc128_is_published_cipher :
  forall key n W, wu_array (fun i => nth (N.to_nat i) (to_words 32 8 key) 0) (fun i => nth (4 + N.to_nat i) (to_words 32 8 key) 0) W ->
  exists s, hc_seed key hc_zero = Some s /\ option_map snd (hc_draws n s) = Some (snd (raws wu_next n (wu_start W))).
Proof.
  intros key n W H. destruct (key_words key) as [L F]. destruct (hc_init_spec _ hc_zero W L F) as (s & E & Ws & _ & _ & _ & _ & B).
  { destruct H as (H1 & H2 & H3). split; [exact H1|]. split; [|exact H3]. intros i Hi. rewrite H2 by exact Hi. unfold tbl. f_equal. rewrite N2Nat.inj_add. reflexivity. }
  exists s. split; [exact E|]. destruct (hc_draws_fresh n s) as (s' & D & _).
  - exact (hc_seed_ok key hc_zero s hc_zero_buf E).
  - unfold unread. now rewrite B.
  - rewrite D, Ws. reflexivity.
Qed.
(* such an array exists for every key, and its 1280 words are determined *)
Theorem C50_hc128_array_exists :
  forall key, exists W, wu_array (fun i => nth (N.to_nat i) (to_words 32 8 key) 0) (fun i => nth (4 + N.to_nat i) (to_words 32 8 key) 0) W.
Proof.
  intros key. exists (wu_arr (to_words 32 8 key)). destruct (wu_arr_ok (to_words 32 8 key) (proj1 (key_words key))) as (H1 & H2 & H3). split; [exact H1|]. split; [|exact H3].
  intros i Hi. rewrite H2 by exact Hi. unfold tbl. f_equal. rewrite N2Nat.inj_add. reflexivity.
Qed.
(* from any state reached: the words not yet read, then the published stream *)
Theorem C50_hc128_in_bounds :
  forall n s, hc_ok s -> exists s' vs b, hc_draws n s = Some (s', vs) /\ hc_ok s' /\ List.length vs = n /\ Forall (wf 32) vs
  /\ (unread s ++ snd (raws wu_next (16 * b) (wu_of s)))%list = (vs ++ unread s')%list /\ wu_of s' = fst (raws wu_next (16 * b) (wu_of s)).
Proof. exact hc_draws_spec. Qed.
(* a 16-word block is n = 16 steps; each step can be undone *)
Theorem C50_hc128_steps_reversible :
  forall n s t, wu_ok s -> wu_ok t -> N.iter n (cstep wu_next) s = N.iter n (cstep wu_next) t -> s = t.
Proof. exact wu_iter_inj. Qed.
Theorem C50_hc128_draws_concatenate :
  forall m n s, hc_draws (m + n) s =
  match hc_draws m s with
  | None => None
  | Some (s1, vs) => match hc_draws n s1 with None => None | Some (s2, ws) => Some (s2, (vs ++ ws)%list) end
  end.
Proof. exact hc_draws_app. Qed.
Example C50_case : hc_ok (ex_hc 496 16) /\ hc_ok (ex_hc 1008 3) /\ wu_ok (wu_of (ex_hc 1008 3))
  /\ option_map (fun r => hc_idx (fst r)) (hc_draws 1 (ex_hc 1008 16)) = Some 0%Z.
Proof.
  assert (A : hc_ok (ex_hc 496 16)) by (apply ex_hc_ok; [split; [discriminate|reflexivity]|reflexivity|split; discriminate]).
  assert (B : hc_ok (ex_hc 1008 3)) by (apply ex_hc_ok; [split; [discriminate|reflexivity]|reflexivity|split; discriminate]).
  refine (conj A (conj B (conj (wu_of_ok _ B) _))). vm_compute. reflexivity.
Qed.

(* tests/data/hc128-testset-1.csv: seed 0xdeadbeaf. hc_kat: the first draws *)
Definition kat_key : N := match ss_pool (SS (SInt 0xdeadbeaf) [] 4 0) with Some p => lv 64 (generate64 4 p) | None => 0 end.
Definition seed_draws (n : nat) (key : N) : option (list N) :=
  match hc_seed key hc_zero with Some s => option_map snd (hc_draws n s) | None => None end.
Lemma hc_kat : seed_draws 4 kat_key = Some [0x738c99a7; 0x3fe1d0ff; 0x6081d26e; 0x02447294].
Proof. vm_compute. reflexivity. Qed.

(* ------------------------------------------------------------------- C22 *)
Theorem C22_hc128_64_from_32 :
  forall lr s, hc_ok s -> exists u v s', hc_draws 2 s = Some (s', [u; v]) /\ hc_ok s'
  /\ hc_next64 lr s = Some (s', if lr then u + 2 ^ 32 * v else v + 2 ^ 32 * u).
Proof.
  intros lr s H. destruct (hc_next32_spec s H) as (s1 & u & E1 & O1 & U & _). destruct (hc_next32_spec s1 O1) as (s2 & v & E2 & O2 & V & _).
  exists u, v, s2. cbn [hc_draws]. rewrite E1, E2. split; [reflexivity|]. split; [exact O2|]. unfold hc_next64. rewrite E1, E2.
  assert (A : forall x y, wf 32 x -> wf 32 y -> N.lor x (wshl 64 y 32) = x + 2 ^ 32 * y).
  { intros x y X Y. unfold wshl. rewrite N.shiftl_mul_pow2, N.mod_small.
    - rewrite (N.mul_comm (2 ^ 32)). now apply lor_disjoint.
    - unfold wf in Y. change (2 ^ 64) with (2 ^ 32 * 2 ^ 32). apply N.mul_lt_mono_pos_r; [reflexivity|exact Y]. }
  destruct lr; rewrite A by assumption; reflexivity.
Qed.
Example C22_hc128_case : hc_ok (ex_hc 496 15).
Proof. apply ex_hc_ok; [split; [discriminate|reflexivity]|reflexivity|split; discriminate]. Qed.

(* ------------------------------------------------------------------- C54 *)
Lemma next64_of key u v w x a b : seed_draws 4 key = Some [u; v; w; x] -> N.lor u (wshl 64 v 32) = a -> N.lor v (wshl 64 u 32) = b ->
  exists s, hc_seed key hc_zero = Some s /\ option_map snd (hc_next64 true s) = Some a /\ option_map snd (hc_next64 false s) = Some b.
Proof.
  unfold seed_draws. destruct (hc_seed key hc_zero) as [s|]; [|discriminate]. intros K <- <-. exists s. split; [reflexivity|]. unfold hc_next64. cbn [hc_draws] in K.
  destruct (hc_next32 s) as [[s1 u']|]; [|discriminate]. destruct (hc_next32 s1) as [[s2 v']|]; [|discriminate].
  destruct (hc_next32 s2) as [[s3 w']|]; [|discriminate]. destruct (hc_next32 s3) as [[s4 x']|]; [|discriminate].
  cbn [option_map snd] in K |- *. injection K as -> -> _ _. split; reflexivity.
Qed.
Theorem C54_hc128_order_dependent_refuted :
  exists key s, hc_seed key hc_zero = Some s /\ option_map snd (hc_next64 true s) = Some 0x3fe1d0ff738c99a7 /\ option_map snd (hc_next64 false s) = Some 0x738c99a73fe1d0ff.
Proof. exists kat_key. exact (next64_of kat_key _ _ _ _ _ _ hc_kat eq_refl eq_refl). Qed.
Theorem C54_hc128_order_same_state :
  forall s, option_map fst (hc_next64 true s) = option_map fst (hc_next64 false s).
Proof. intros s. unfold hc_next64. destruct (hc_next32 s) as [[s1 u]|]; [|reflexivity]. now destruct (hc_next32 s1) as [[s2 v]|]. Qed.

(* ------------------------------------------------------------------- C24 *)
(* the cipher state (tables and step counter) after n draws determines the one
   before; stale words of the buffer are of course forgotten at a refill *)
Theorem C24_hc128_never_merges :
  forall n s t s' t' vs ws, hc_ok s -> hc_ok t -> hc_bidx s = hc_bidx t ->
  hc_draws n s = Some (s', vs) -> hc_draws n t = Some (t', ws) -> wu_of s <> wu_of t -> wu_of s' <> wu_of t'.
Proof. intros n s t s' t' vs ws Hs Ht B E F D Q. apply D. exact (hc_draws_inj n s t s' t' vs ws Hs Ht B E F Q). Qed.
Example C24_hc128_case : hc_ok (ex_hc 16 3) /\ hc_ok (ex_hc 32 3) /\ hc_bidx (ex_hc 16 3) = hc_bidx (ex_hc 32 3) /\ wu_of (ex_hc 16 3) <> wu_of (ex_hc 32 3).
Proof.
  refine (conj _ (conj _ (conj eq_refl _))).
  - apply ex_hc_ok; [split; [discriminate|reflexivity]|reflexivity|split; discriminate].
  - apply ex_hc_ok; [split; [discriminate|reflexivity]|reflexivity|split; discriminate].
  - intros E. apply (f_equal wu_i) in E. discriminate E.
Qed.

(* ------------------------------------------------------------------- C25 *)
Lemma hc_seed_eq key s : hc_seed key s = hc_init (to_words 32 8 key) s. Proof. reflexivity. Qed.
(* two keys that give the same tables are the same key *)
Theorem C25_hc128_distinct_keys :
  forall k1 k2 s1 s2 t1 t2, k1 < 2 ^ 256 -> k2 < 2 ^ 256 -> hc_seed k1 s1 = Some t1 -> hc_seed k2 s2 = Some t2 ->
  hc_p t1 = hc_p t2 -> hc_q t1 = hc_q t2 -> k1 = k2.
Proof.
  intros k1 k2 s1 s2 t1 t2 H1 H2 E1 E2 P Q. rewrite hc_seed_eq in E1, E2. destruct (key_words k1) as [L1 F1]. destruct (key_words k2) as [L2 F2].
  pose proof (hc_init_inj _ _ s1 s2 t1 t2 L1 F1 L2 F2 E1 E2 P Q) as E. apply (f_equal (lv 32)) in E. rewrite !to_words_val in E.
  change (32 * N.of_nat 8) with 256 in E. rewrite !N.mod_small in E by assumption. exact E.
Qed.
Example C25_hc128_case : 5 < 2 ^ 256 /\ (exists t, hc_seed 5 hc_zero = Some t) /\ (exists t, hc_seed (2 ^ 255) (ex_hc 16 3) = Some t).
Proof.
  split; [reflexivity|]. split.
  - destruct (hc_seed_spec 5 hc_zero) as (t & E & _). exists t. exact E.
  - destruct (hc_seed_spec (2 ^ 255) (ex_hc 16 3)) as (t & E & _). exists t. exact E.
Qed.

(* ------------------------------------------------------------------- C18 *)
Theorem C18_hc128_restores : forall s t, hc_ok s -> hc_set (hc_get s) t = (s, Ok tt).
Proof.
  intros s t (P & Q & L & F & I & _ & B). apply hc_set_get; [exact P|exact Q|exact L|exact F| |].
  - destruct I as [I1 I2]. split; [apply (Z.le_trans _ 0); [discriminate|exact I1]|apply (Z.lt_trans _ 1024); [exact I2|reflexivity]].
  - destruct B as [B1 B2]. split; [apply (Z.le_trans _ 0); [discriminate|exact B1]|apply (Z.le_lt_trans _ 16); [exact B2|reflexivity]].
Qed.
Example C18_hc128_case : hc_ok (ex_hc 1008 3).
Proof. apply ex_hc_ok; [split; [discriminate|reflexivity]|reflexivity|split; discriminate]. Qed.

(* ------------------------------------------------------------------- C19 *)
(* the tables and the buffer are overwritten before hc_idx is looked at *)
Theorem C19_hc128_not_atomic_refuted : ~ atomic hc_set.
Proof.
  intros A. specialize (A (PDict [("bit_generator", PStr "HC128");
    ("state", PDict [("p", PArr 32 (repeat 1 512)); ("q", PArr 32 (repeat 2 512)); ("buffer", PArr 32 (repeat 3 16)); ("hc_idx", PNone)])]%string) hc_zero).
  assert (E : hc_set (PDict [("bit_generator", PStr "HC128");
    ("state", PDict [("p", PArr 32 (repeat 1 512)); ("q", PArr 32 (repeat 2 512)); ("buffer", PArr 32 (repeat 3 16)); ("hc_idx", PNone)])]%string) hc_zero
    = (HC (repeat 1 512) (repeat 2 512) (repeat 3 16) 0 0, Raise TypeError)) by (vm_compute; reflexivity).
  specialize (A _ _ E). apply (f_equal (fun s => hd 0 (hc_p s))) in A. discriminate A.
Qed.

(* ------------------------------------------------------------------- C20 *)
Theorem C20_hc128_draws_safe : forall n s, hc_ok s -> hc_draws n s <> None.
Proof. intros n s H. destruct (hc_draws_spec n s H) as (s' & vs & b & E & _). now rewrite E. Qed.
(* the state after seeding a generator with a sound buffer *)
Theorem C20_hc128_seeded : forall key s, buf_ok s -> exists s', hc_seed key s = Some s' /\ hc_ok s'.
Proof. intros key s B. destruct (hc_seed_spec key s) as (s' & E & _). exists s'. split; [exact E|]. exact (hc_seed_ok key s s' B E). Qed.
(* exactly which of the states the setter accepts are safe to draw from *)
Theorem C20_hc128_accepted_states_partial :
  forall s, List.length (hc_p s) = 512%nat /\ Forall (wf 32) (hc_p s) -> List.length (hc_q s) = 512%nat /\ Forall (wf 32) (hc_q s) -> List.length (hc_buf s) = 16%nat ->
  hc_next32 s <> None <-> (if Z.rem (hc_bidx s) 16 =? 0 then ~ (497 <= hc_idx s mod 65536 <= 511) else 0 <= hc_bidx s < 16)%Z.
Proof. intros s P Q L. exact (hc_next32_safe s (conj P (conj Q L))). Qed.
(* the setter does not check the two indices: table p is then written past its
   end, the buffer read before or after its ends *)
Theorem C20_hc128_setter_unchecked_refuted :
  forall i j, In (i, j) [(500, 16); (0, 17); (0, -1); (0, 1000001)]%Z ->
  exists v s, hc_set v hc_zero = (s, Ok tt) /\ hc_next32 s = None.
Proof.
  intros i j H. exists (hc_get (ex_hc i j)), (ex_hc i j).
  assert (A : hc_next32 (ex_hc i j) = None -> cint_ok i -> cint_ok j -> hc_set (hc_get (ex_hc i j)) hc_zero = (ex_hc i j, Ok tt) /\ hc_next32 (ex_hc i j) = None).
  { intros X I J. refine (conj _ X). apply hc_set_get; try assumption; try (split; [reflexivity|apply forallb_wf; vm_compute; reflexivity]); [reflexivity|apply forallb_wf; vm_compute; reflexivity]. }
  destruct H as [E|[E|[E|[E|[]]]]]; injection E as <- <-; apply A; try (split; [discriminate|reflexivity]); vm_compute; reflexivity.
Qed.
Example C20_hc128_case : hc_ok (ex_hc 1008 3) /\ buf_ok hc_zero /\ hc_next32 (ex_hc 1008 32) <> None /\ hc_next32 (ex_hc 1000 7) <> None.
Proof. refine (conj _ (conj hc_zero_buf (conj _ _))); [apply ex_hc_ok; [split; [discriminate|reflexivity]|reflexivity|split; discriminate]|vm_compute; discriminate|vm_compute; discriminate]. Qed.

(* ------------------------------------------------------------------- C21 *)
(* seeding does not reset the buffer: a generator that has consumed j of the 16
   buffered words gives the other 16 - j, made from its old seed, first *)
Theorem C21_hc128_reseed_stale_words :
  forall key s s' n, buf_ok s -> (0 < hc_bidx s < 16)%Z -> hc_seed key s = Some s' -> (n <= 16 - Z.to_nat (hc_bidx s))%nat ->
  option_map snd (hc_draws n s') = Some (firstn n (skipn (Z.to_nat (hc_bidx s)) (hc_buf s))).
Proof.
  intros key s s' n Hb B E Hn. pose proof (hc_seed_ok key s s' Hb E) as O. destruct (hc_seed_spec key s) as (s1 & E1 & _ & _ & _ & _ & U & V). rewrite E in E1. injection E1 as <-.
  destruct (hc_draws_spec n s' O) as (s2 & vs & b & D & _ & L & _ & Q & _). rewrite D. cbn [option_map snd]. f_equal.
  assert (R : unread s' = skipn (Z.to_nat (hc_bidx s)) (hc_buf s)).
  { unfold unread. rewrite V, U. rewrite rem16 by (split; [apply Z.lt_le_incl, B|apply Z.lt_le_incl, B]).
    assert (X : ((hc_bidx s =? 0) || (hc_bidx s =? 16))%Z = false) by (clear - B; lia). rewrite X. reflexivity. }
  rewrite <- R. apply (f_equal (firstn n)) in Q. rewrite !firstn_app, L, Nat.sub_diag in Q. cbn [firstn] in Q. rewrite app_nil_r in Q. rewrite (firstn_all2 (n := n) vs) in Q by (rewrite L; apply Nat.le_refl).
  rewrite <- Q. replace (n - List.length (unread s'))%nat with 0%nat; [cbn [firstn]; now rewrite app_nil_r|].
  rewrite R, skipn_length, (proj1 Hb). clear - Hn. lia.
Qed.
Theorem C21_hc128_reseed_refuted :
  exists key s t s' t', buf_ok s /\ buf_ok t /\ hc_seed key s = Some s' /\ hc_seed key t = Some t' /\ option_map snd (hc_draws 1 s') <> option_map snd (hc_draws 1 t').
Proof.
  pose proof (ex_hc_buf 0 3 ltac:(split; discriminate)) as B3. pose proof (ex_hc_buf 0 4 ltac:(split; discriminate)) as B4.
  destruct (hc_seed_spec 7 (ex_hc 0 3)) as (s' & E & _). destruct (hc_seed_spec 7 (ex_hc 0 4)) as (t' & F & _).
  exists 7, (ex_hc 0 3), (ex_hc 0 4), s', t'. refine (conj B3 (conj B4 (conj E (conj F _)))).
  rewrite (C21_hc128_reseed_stale_words 7 (ex_hc 0 3) s' 1 B3 (conj eq_refl eq_refl) E), (C21_hc128_reseed_stale_words 7 (ex_hc 0 4) t' 1 B4 (conj eq_refl eq_refl) F) by (apply Nat.leb_le; reflexivity).
  vm_compute. discriminate.
Qed.
(* with the buffer fully consumed (or never filled) reseeding is reproducible *)
Theorem C21_hc128_reseed_partial :
  forall key s t s' t' n, buf_ok s -> buf_ok t -> (hc_bidx s = 0 \/ hc_bidx s = 16)%Z -> (hc_bidx t = 0 \/ hc_bidx t = 16)%Z ->
  hc_seed key s = Some s' -> hc_seed key t = Some t' -> option_map snd (hc_draws n s') = option_map snd (hc_draws n t').
Proof.
  intros key s t s' t' n Hs Ht Bs Bt E F. pose proof (hc_seed_ok key s s' Hs E) as Os. pose proof (hc_seed_ok key t t' Ht F) as Ot.
  destruct (hc_seed_spec key s) as (s1 & E1 & Ws & _ & _ & _ & _ & Vs). rewrite E in E1. injection E1 as <-.
  destruct (hc_seed_spec key t) as (t1 & F1 & Wt & _ & _ & _ & _ & Vt). rewrite F in F1. injection F1 as <-.
  assert (A : forall u : hc, (hc_bidx u = 0 \/ hc_bidx u = 16)%Z -> unread u = []) by (intros u [X|X]; unfold unread; rewrite X; reflexivity).
  destruct (hc_draws_fresh n s' Os) as (s2 & D1 & _); [apply A; now rewrite Vs|]. destruct (hc_draws_fresh n t' Ot) as (t2 & D2 & _); [apply A; now rewrite Vt|].
  rewrite D1, D2, Ws, Wt. reflexivity.
Qed.
Example C21_hc128_case : buf_ok hc_zero /\ buf_ok (ex_hc 16 16) /\ hc_bidx hc_zero = 0%Z /\ hc_bidx (ex_hc 16 16) = 16%Z.
Proof. refine (conj hc_zero_buf (conj _ (conj eq_refl eq_refl))). apply ex_hc_buf. split; discriminate. Qed.

(* ------------------------------------------------------------------- C27 *)
Lemma wu_iter_i n s : wu_i s < 1024 -> wu_i (N.iter n (cstep wu_next) s) = (wu_i s + n) mod 1024.
Proof.
  intros H. induction n as [|n IH] using N.peano_ind; [rewrite N.add_0_r; symmetry; now apply N.mod_small|]. rewrite N.iter_succ.
  assert (A : forall x, wu_i (cstep wu_next x) = (wu_i x + 1) mod 1024).
  { intros x. unfold cstep, wu_next. destruct (_ <? 512); destruct (wu_round _ _ _ _); reflexivity. }
  rewrite A, IH, N.add_mod_idemp_l by discriminate. f_equal. rewrite <- N.add_1_r, N.add_assoc. reflexivity.
Qed.
Theorem C27_hc128_cycles :
  forall n s, wu_ok s -> N.iter n (cstep wu_next) s = s -> n mod 1024 = 0.
Proof.
  intros n s (_ & _ & H) E. apply (f_equal wu_i) in E. rewrite (wu_iter_i n s H) in E.
  rewrite <- N.add_mod_idemp_r in E by discriminate. pose proof (N.mod_lt n 1024 ltac:(discriminate)) as B. revert B E. generalize (n mod 1024). clear n. intros m B E.
  destruct (N.ltb_spec (wu_i s + m) 1024) as [C|C]; [rewrite N.mod_small in E by exact C; clear - E; lia|].
  replace (wu_i s + m) with (wu_i s + m - 1024 + 1 * 1024) in E by (clear - C; lia). rewrite N.mod_add, N.mod_small in E by (try discriminate; clear - H B C; lia). clear - E B C H. lia.
Qed.
Example C27_hc128_case : wu_ok (wu_of (ex_hc 1008 3)).
Proof. apply wu_of_ok, ex_hc_ok; [split; [discriminate|reflexivity]|reflexivity|split; discriminate]. Qed.

Print Assumptions C50_hc128_is_published_cipher.
Print Assumptions C50_hc128_array_exists.
Print Assumptions C50_hc128_in_bounds.
Print Assumptions C50_hc128_steps_reversible.
Print Assumptions C50_hc128_draws_concatenate.
Print Assumptions C22_hc128_64_from_32.
Print Assumptions C54_hc128_order_dependent_refuted.
Print Assumptions C54_hc128_order_same_state.
Print Assumptions C24_hc128_never_merges.
Print Assumptions C25_hc128_distinct_keys.
Print Assumptions C18_hc128_restores.
Print Assumptions C19_hc128_not_atomic_refuted.
Print Assumptions C20_hc128_draws_safe.
Print Assumptions C20_hc128_seeded.
Print Assumptions C20_hc128_accepted_states_partial.
Print Assumptions C20_hc128_setter_unchecked_refuted.
Print Assumptions C21_hc128_reseed_stale_words.
Print Assumptions C21_hc128_reseed_refuted.
Print Assumptions C21_hc128_reseed_partial.
Print Assumptions C27_hc128_cycles.
