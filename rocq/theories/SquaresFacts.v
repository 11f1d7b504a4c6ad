(* Facts about Squares: advance, jumped, state, key generation *)
From Verif Require Import Word Arr Buffer32 Py Half MultiWord Squares.
From Coq Require Import String ZifyBool ZifyNat ZifyN Permutation.
Open Scope N_scope.
Ltac Zify.zify_post_hook ::= idtac.

(* ------------------------------------------------------------------ words *)
Lemma half_swap_wf x : wf 64 x -> wf 64 (half_swap x).
Proof. intros H. apply wf_lor; [now apply wf_shr|apply wf_wshl]. Qed.
Lemma sqr_wf x y : wf 64 (sqr x y).
Proof. apply wf_wadd. Qed.
Lemma shr32_wf x : wf 64 x -> wf 32 (N.shiftr x 32).
Proof. unfold wf. intros H. rewrite N.shiftr_div_pow2. apply N.div_lt_upper_bound; [apply pow2_nz|exact H]. Qed.
Lemma squares32_wf k c : wf 32 (squares32_out k c).
Proof. apply shr32_wf, sqr_wf. Qed.
Lemma squares64_wf k c : wf 64 (squares64_out k c).
Proof. unfold squares64_out. apply wf_lxor; [apply sqr_wf|]. apply (wf_mono 32); [discriminate|]. apply shr32_wf, sqr_wf. Qed.

(* ---------------------------------------------------------------- advance *)
Definition sq_at (b : squares) (c : N) : squares := SQ (sq_key b) c (sq_v64 b).
Lemma iter_incr n : forall s, wf 64 (sq_ctr s) -> N.iter n sq_incr s = sq_at s (wadd 64 (sq_ctr s) n).
Proof.
  induction n as [|n IH] using N.peano_ind; intros s H.
  - cbn [N.iter]. rewrite wadd_0_r by exact H. now destruct s.
  - rewrite N.iter_succ, IH by exact H. unfold sq_incr, sq_at. cbn [sq_key sq_ctr sq_v64]. f_equal.
    unfold wadd. rewrite N.add_mod_idemp_l by apply pow2_nz. f_equal. lia.
Qed.
(* the counter after n raw draws *)
Lemma sq_raw_step lr s : cstep (sq_raw_core lr) s = sq_at s (wadd 64 (sq_ctr s) (if sq_v64 s then 1 else 2)).
Proof.
  unfold cstep, sq_raw_core. destruct (sq_v64 s) eqn:E.
  - cbn [squares64 fst]. unfold sq_incr, sq_at. reflexivity.
  - cbn. unfold sq_incr, sq_at. cbn [sq_key sq_ctr sq_v64]. f_equal. unfold wadd. rewrite N.add_mod_idemp_l by apply pow2_nz. f_equal. lia.
Qed.
Lemma sq_raws_ctr lr n : forall s, wf 64 (sq_ctr s) ->
  N.iter n (cstep (sq_raw_core lr)) s = sq_at s (wadd 64 (sq_ctr s) (n * (if sq_v64 s then 1 else 2))).
Proof.
  induction n as [|n IH] using N.peano_ind; intros s H.
  - cbn [N.iter]. rewrite wadd_0_r by exact H. now destruct s.
  - rewrite N.iter_succ, IH by exact H. rewrite sq_raw_step. cbn [sq_at sq_ctr sq_v64]. unfold sq_at. cbn [sq_key sq_v64 sq_ctr]. f_equal.
    unfold wadd. rewrite N.add_mod_idemp_l by apply pow2_nz. f_equal. destruct (sq_v64 s); lia.
Qed.

(* ------------------------------------------------------------------ state *)
Definition sq_wf (b : sqpy) : Prop := wf 64 (sq_key (core b)) /\ wf 64 (sq_ctr (core b)).
Lemma sq_set_get s t : sq_wf s -> sq_set (sq_get s) t = (Buf (core s) (has32 t) (u32 t), Ok tt).
Proof.
  intros [Hk Hc]. destruct s as [[k c v] h u], t as [[k' c' v'] h' u']. cbn [core sq_key sq_ctr] in *. unfold sq_set, sq_get. cbn [core sq_key sq_ctr sq_v64 has32 u32].
  rewrite bind_lift. cbn [preamble get_default assoc String.eqb Ascii.eqb Bool.eqb orb].
  rewrite bind_lift. cbn [getitem assoc String.eqb Ascii.eqb Bool.eqb obind].
  rewrite bind_lift, (to_uint_ok 64 k Hk), bind_modify. rewrite bind_lift, (to_uint_ok 64 c Hc), bind_modify, bind_lift.
  destruct v; reflexivity.
Qed.

(* ----------------------------------------------------------------- jumped *)
Definition sq_jump1 (r : sqpy) : sqpy := set_core (SQ (sq_key (core r)) (wadd 64 (sq_ctr (core r)) sq_step) (sq_v64 (core r))) r.
Lemma iter_jump1 n : forall r, wf 64 (sq_ctr (core r)) -> N.iter n sq_jump1 r = set_core (sq_at (core r) (wadd 64 (sq_ctr (core r)) (n * sq_step))) r.
Proof.
  induction n as [|n IH] using N.peano_ind; intros r H.
  - cbn [N.iter N.mul]. rewrite wadd_0_r by exact H. now destruct r as [[] ? ?].
  - rewrite N.iter_succ, IH by exact H. unfold sq_jump1, set_core, sq_at. cbn [core has32 u32 sq_key sq_ctr sq_v64]. f_equal. f_equal.
    unfold wadd. rewrite N.add_mod_idemp_l by apply pow2_nz. f_equal. lia.
Qed.
Lemma sq_jumped_spec fresh n b : sq_wf b -> (0 < n)%Z ->
  sq_jumped fresh n b = Some (Buf (sq_at (core b) (wadd 64 (sq_ctr (core b)) (Z.to_N n * sq_step))) false 0).
Proof.
  intros H Hn. unfold sq_jumped. replace (n <=? 0)%Z with false by lia. rewrite sq_set_get by exact H. cbn [fst].
  change (fun r : sqpy => set_core {| sq_key := sq_key (core r); sq_ctr := wadd 64 (sq_ctr (core r)) sq_step; sq_v64 := sq_v64 (core r) |} r) with sq_jump1.
  rewrite iter_jump1 by exact (proj2 H). reflexivity.
Qed.
Lemma sq_jumped_wf b c n : sq_wf b -> sq_wf (Buf (sq_at (core b) (wadd 64 c n)) false 0).
Proof. intros [H _]. split; [exact H|apply wf_wadd]. Qed.

(* --------------------------------------------------------- key generation *)
Lemma land_ones_lt a n : N.land a (N.ones n) < 2 ^ n.
Proof. rewrite N.land_ones. apply N.mod_lt, pow2_nz. Qed.
Section Keys.
  Variable gs : N -> list N.
  Lemma gen_bits_lt n st v st' : gen_bits gs n st = Val (v, st') -> v < 2 ^ n.
  Proof.
    unfold gen_bits. destruct st as [[|fuel] s]; [discriminate|]. destruct (if 64 <? loc s + n then refill gs s else Some s); [|discriminate]. intros [= <- _]. apply land_ones_lt.
  Qed.
  Lemma until_ok k n ok : forall st v st', until gs k n ok st = Val (v, st') -> ok v = true /\ v < 2 ^ n.
  Proof.
    induction k as [|k IH]; intros st v st'; [discriminate|]. cbn [until]. unfold sbind. destruct (gen_bits gs n st) as [[u st1]| |] eqn:E; try discriminate.
    destruct (ok u) eqn:O; [|apply IH]. intros [= <- _]. split; [exact O|]. revert E; apply gen_bits_lt.
  Qed.
  Lemma interval_lt m st v st' : 1 <= m <= 16 -> random_interval gs m st = Val (v, st') -> v < m.
  Proof.
    intros Hm. unfold random_interval. destruct (N.eqb_spec m 1) as [->|].
    - unfold sret. intros [= <- _]. reflexivity.
    - destruct (N.eqb_spec m 2) as [->|].
      + intros E. revert E; apply gen_bits_lt.
      + intros E. apply until_ok in E as [E _]. now apply N.ltb_lt.
  Qed.
  Definition perm16 (l : list N) : Prop := List.length l = 16%nat /\ NoDup l /\ Forall (fun x => x < 16) l.
  Lemma swap_nth l i j k : (i < List.length l)%nat -> (j < List.length l)%nat ->
    nth k (swap l i j) 0 = nth (if Nat.eqb k j then i else if Nat.eqb k i then j else k) l 0.
  Proof.
    intros Hi Hj. unfold swap. rewrite upd_nth by now rewrite upd_length. rewrite upd_nth by exact Hi.
    rewrite (Nat.eqb_sym j k), (Nat.eqb_sym i k). destruct (Nat.eqb_spec k j); [reflexivity|]. destruct (Nat.eqb_spec k i); reflexivity.
  Qed.
  Lemma swap_perm l i j : (i < 16)%nat -> (j < 16)%nat -> perm16 l -> perm16 (swap l i j).
  Proof.
    intros Hi Hj (L & D & F). unfold perm16.
    assert (L' : List.length (swap l i j) = 16%nat) by (unfold swap; now rewrite !upd_length).
    refine (conj L' (conj _ _)).
    - rewrite NoDup_nth with (d := 0) in D |- *. rewrite L' in *. rewrite L in D. intros a b Ha Hb E.
      rewrite !swap_nth in E by now rewrite L. apply D in E.
      + destruct (Nat.eqb_spec a j), (Nat.eqb_spec a i), (Nat.eqb_spec b j), (Nat.eqb_spec b i); lia.
      + destruct (Nat.eqb_spec a j), (Nat.eqb_spec a i); lia.
      + destruct (Nat.eqb_spec b j), (Nat.eqb_spec b i); lia.
    - unfold swap. apply upd_Forall; [apply upd_Forall; [exact F|]|].
      + rewrite Forall_forall in F. apply F, nth_In. now rewrite L.
      + rewrite Forall_forall in F. apply F, nth_In. now rewrite L.
  Qed.
  Lemma shuffle_from_perm k : forall i l st l' st', (i + k = 15)%nat -> perm16 l -> shuffle_from gs k i l st = Val (l', st') -> perm16 l'.
  Proof.
    induction k as [|k IH]; intros i l st l' st' Hik P; cbn [shuffle_from].
    - unfold sret. intros [= <- _]. exact P.
    - unfold sbind. destruct (random_interval gs _ st) as [[r st1]| |] eqn:E; try discriminate.
      apply interval_lt in E; [|lia]. apply IH; [lia|]. apply swap_perm; [lia|lia|exact P].
  Qed.
  Lemma words16_perm : perm16 words16.
  Proof.
    refine (conj eq_refl (conj _ _)).
    - repeat (constructor; [cbn; intros H; repeat (destruct H as [H|H]; [discriminate H|]); exact H|]). constructor.
    - repeat constructor.
  Qed.
  (* the first eight digits *)
  Definition low8 (l : list N) : Prop := List.length l = 8%nat /\ NoDup l /\ Forall (fun x => x < 16) l.
  Lemma NoDup_app_l {A} (a b : list A) : NoDup (a ++ b) -> NoDup a.
  Proof. induction a as [|x a IH]; intros H; [constructor|]. inversion H; subst. constructor; [|now apply IH]. intros I. apply H2, in_or_app. now left. Qed.
  Lemma firstn_low8 l : perm16 l -> low8 (firstn 8 l).
  Proof.
    intros (L & D & F). refine (conj _ (conj _ _)).
    - rewrite firstn_length, L. reflexivity.
    - rewrite <- (firstn_skipn 8 l) in D. exact (NoDup_app_l _ _ D).
    - rewrite <- (firstn_skipn 8 l) in F. apply Forall_app in F. apply F.
  Qed.
  Lemma even_succ_lt16 x : N.odd x = false -> x < 16 -> x + 1 < 16 /\ N.odd (x + 1) = true.
  Proof.
    intros E H. split; [|now rewrite N.add_1_r, N.odd_succ, <- N.negb_odd, E].
    destruct (N.eq_dec x 15) as [->|]; [discriminate E|lia].
  Qed.
  Lemma NoDup_map_replace a b l : NoDup l -> ~ In b l -> NoDup (map (fun x => if x =? a then b else x) l).
  Proof.
    induction l as [|x l IH]; intros D Nb; cbn [map]; [constructor|]. inversion D as [|? ? Nx Dl]; subst.
    constructor; [|apply IH; [exact Dl|intros I; apply Nb; now right]].
    rewrite in_map_iff. intros (y & Ey & Iy). destruct (N.eqb_spec y a) as [Ya|Ya], (N.eqb_spec x a) as [Xa|Xa].
    - apply Nx. congruence.
    - apply Nb. left. congruence.
    - apply Nb. right. congruence.
    - apply Nx. congruence.
  Qed.
  Lemma fix_even_ok l : low8 l -> low8 (fix_even l) /\ N.odd (nth 0 (fix_even l) 0) = true.
  Proof.
    intros (L & D & F). destruct l as [|t0 rest]; [discriminate L|]. cbn [fix_even]. destruct (N.odd t0) eqn:E.
    - refine (conj (conj L (conj D F)) _). exact E.
    - inversion D as [|? ? N0 Dr]; subst. inversion F as [|? ? F0 Fr]; subst. destruct (even_succ_lt16 t0 E F0) as [B O].
      refine (conj (conj _ (conj _ _)) O).
      + cbn [List.length]. rewrite map_length. exact L.
      + constructor; [|now apply NoDup_map_replace]. rewrite in_map_iff. intros (y & Ey & Iy). destruct (N.eqb_spec y (t0 + 1)); lia.
      + constructor; [exact B|]. rewrite Forall_map. eapply Forall_impl; [|exact Fr]. cbv beta. intros y Hy. destruct (y =? t0 + 1); assumption.
  Qed.
  (* digits to numbers *)
  Lemma lor_add n a b : a < 2 ^ n -> N.lor a (b * 2 ^ n) = a + 2 ^ n * b.
  Proof.
    intros H. rewrite (N.mul_comm (2 ^ n)). rewrite <- N.lxor_lor, N.add_nocarry_lxor; [reflexivity| |].
    all: apply N.bits_inj; intros i; rewrite N.land_spec, N.bits_0; destruct (N.lt_ge_cases i n);
      [rewrite N.mul_pow2_bits_low by assumption; apply andb_false_r|rewrite (proj1 (wf_testbit n a) H i) by assumption; reflexivity].
  Qed.
  Lemma or_step out i d : out < 2 ^ (4 * i) -> d < 16 -> i < 16 ->
    N.lor out (wshl 64 d (4 * i)) = out + 2 ^ (4 * i) * d /\ out + 2 ^ (4 * i) * d < 2 ^ (4 * (i + 1)).
  Proof.
    intros Ho Hd Hi. replace (2 ^ (4 * (i + 1))) with (2 ^ (4 * i) * 16) by (change 16 with (2 ^ 4); rewrite <- N.pow_add_r; f_equal; lia).
    split; [|revert Ho; generalize (2 ^ (4 * i)); intros; nia].
    unfold wshl. rewrite N.shiftl_mul_pow2, N.mod_small.
    - now apply lor_add.
    - apply (N.lt_le_trans _ (16 * 2 ^ (4 * i))).
      + apply N.mul_lt_mono_pos_r; [apply pow2_pos|exact Hd].
      + change 16 with (2 ^ 4). rewrite <- N.pow_add_r. apply N.pow_le_mono_r; [discriminate|lia].
  Qed.
  Lemma or_digits_lv l : forall i out, out < 2 ^ (4 * i) -> Forall (fun x => x < 16) l -> i + N.of_nat (List.length l) <= 16 ->
    or_digits out i l = out + 2 ^ (4 * i) * lv 4 l.
  Proof.
    induction l as [|d l IH]; intros i out Ho F Hl; cbn [or_digits lv]; [lia|]. inversion F; subst. cbn [List.length] in Hl.
    destruct (or_step out i d Ho) as [E B]; [assumption|lia|]. rewrite E. rewrite IH by (assumption || lia).
    replace (2 ^ (4 * (i + 1))) with (2 ^ (4 * i) * 16) by (change 16 with (2 ^ 4); rewrite <- N.pow_add_r; f_equal; lia).
    change (2 ^ 4) with 16. lia.
  Qed.
  (* the last eight digits: nonzero, and each differs from the one before *)
  Fixpoint chain (last : N) (l : list N) : Prop :=
    match l with [] => True | d :: l => 0 < d < 16 /\ d <> last /\ chain d l end.
  Lemma upper_spec k : forall i last out st key st', out < 2 ^ (4 * i) -> i + N.of_nat k = 16 ->
    upper gs k i last out st = Val (key, st') ->
    exists ds, List.length ds = k /\ chain last ds /\ key = out + 2 ^ (4 * i) * lv 4 ds.
  Proof.
    induction k as [|k IH]; intros i last out st key st' Ho Hi; cbn [upper].
    - unfold sret. intros [= <- _]. exists []. refine (conj eq_refl (conj I _)). cbn [lv]. lia.
    - unfold sbind. destruct (draw_until gs 4 _ st) as [[d st1]| |] eqn:E; try discriminate. apply until_ok in E as [E Hd].
      change (2 ^ 4) with 16 in Hd. assert (d <> last /\ d <> 0) as [D1 D2] by lia.
      destruct (or_step out i d Ho Hd) as [Eo B]; [lia|]. rewrite Eo. intros U. apply IH in U as (ds & L & C & ->); [|exact B|lia].
      exists (d :: ds). refine (conj _ (conj _ _)); [cbn; lia| |].
      + cbn [chain]. refine (conj _ (conj D1 C)). lia.
      + cbn [lv]. replace (2 ^ (4 * (i + 1))) with (2 ^ (4 * i) * 16) by (change 16 with (2 ^ 4); rewrite <- N.pow_add_r; f_equal; lia).
        change (2 ^ 4) with 16. lia.
  Qed.
  Lemma chain_wf last ds : chain last ds -> Forall (wf 4) ds.
  Proof. revert last. induction ds as [|d ds IH]; intros last; [constructor|]. intros (H & _ & C). constructor; [unfold wf; change (2 ^ 4) with 16; lia|now apply (IH d)]. Qed.
  Lemma chain_nth last ds : chain last ds -> forall j, (j < List.length ds)%nat -> nth j ds 0 <> 0 /\ nth j ds 0 <> nth j (last :: ds) 0.
  Proof.
    revert last. induction ds as [|d ds IH]; intros last; cbn [List.length]; [lia|]. intros (H & N & C) [|j] Hj.
    - cbn [nth]. lia.
    - change (nth j ds 0 <> 0 /\ nth j ds 0 <> nth j (d :: ds) 0). apply IH; [exact C|lia].
  Qed.

  (* what a generated key looks like, digit 0 the least significant *)
  Definition valid_key (key : N) : Prop :=
    key < 2 ^ 64 /\ N.odd key = true
    /\ NoDup (firstn 8 (to_words 4 16 key))
    /\ forall j, (8 <= j < 16)%nat -> nth j (to_words 4 16 key) 0 <> 0 /\ nth j (to_words 4 16 key) 0 <> nth (j - 1) (to_words 4 16 key) 0.
  Theorem generate_key_valid st key st' : generate_key gs st = Val (key, st') -> valid_key key.
  Proof.
    unfold generate_key, sbind. destruct (shuffle gs st) as [[l st1]| |] eqn:E; try discriminate.
    apply shuffle_from_perm in E; [|reflexivity|exact words16_perm]. apply firstn_low8 in E. apply fix_even_ok in E as [(L & D & F) O].
    set (tmp := fix_even (firstn 8 l)) in *. clearbody tmp. clear l.
    rewrite or_digits_lv; [|reflexivity|exact F|rewrite L; discriminate]. intros U.
    assert (F4 : Forall (wf 4) tmp) by (eapply Forall_impl; [|exact F]; intros x Hx; exact Hx).
    apply upper_spec in U as (ds & Ld & C & ->); [| |reflexivity].
    2:{ change (0 + 2 ^ (4 * 0) * lv 4 tmp) with (0 + 1 * lv 4 tmp). rewrite N.add_0_l, N.mul_1_l. pose proof (lv_lt 4 tmp F4) as B. rewrite L in B. exact B. }
    assert (K : 0 + 2 ^ (4 * 0) * lv 4 tmp + 2 ^ (4 * 8) * lv 4 ds = lv 4 (tmp ++ ds)).
    { rewrite lv_app, L. change (2 ^ (4 * 0)) with 1. change (4 * 8) with (4 * N.of_nat 8). lia. }
    rewrite K. clear K. pose proof (chain_wf _ _ C) as Fd.
    assert (W : Forall (wf 4) (tmp ++ ds)) by (apply Forall_app; now split).
    assert (LL : List.length (tmp ++ ds) = 16%nat) by (rewrite app_length, L, Ld; reflexivity).
    unfold valid_key. rewrite (to_words_lv 4 (tmp ++ ds) 16 LL W).
    refine (conj _ (conj _ (conj _ _))).
    - pose proof (lv_lt 4 _ W) as B. rewrite LL in B. exact B.
    - destruct tmp as [|t0 tmp]; [discriminate L|]. cbn [app lv]. cbn [nth] in O. rewrite N.odd_add, O, N.odd_mul. change (2 ^ 4) with 16. reflexivity.
    - rewrite <- L at 1. rewrite firstn_app, Nat.sub_diag, firstn_all, firstn_O, app_nil_r. exact D.
    - intros j Hj. rewrite (app_nth2 tmp ds) by lia. rewrite L. destruct (chain_nth _ _ C (j - 8)%nat) as [N1 N2]; [lia|]. refine (conj N1 _).
      intros Eq. apply N2. rewrite Eq. destruct (Nat.eq_dec j 8) as [->|].
      + change (8 - 8)%nat with 0%nat. cbn [nth]. rewrite app_nth1 by lia. reflexivity.
      + rewrite app_nth2 by lia. rewrite L. replace (j - 8)%nat with (Datatypes.S (j - 1 - 8)) by lia. reflexivity.
  Qed.
  Lemma gen_n_valid n : forall st l st', gen_n gs n st = Val (l, st') -> List.length l = n /\ Forall valid_key l.
  Proof.
    induction n as [|n IH]; intros st l st'; cbn [gen_n].
    - unfold sret. intros [= <- _]. split; constructor.
    - unfold sbind. destruct (generate_key gs st) as [[k st1]| |] eqn:E; try discriminate.
      destruct (gen_n gs n st1) as [[ks st2]| |] eqn:E2; try discriminate. unfold sret. intros [= <- _].
      apply IH in E2 as [L F]. apply generate_key_valid in E. split; [cbn; lia|now constructor].
  Qed.
  Lemma firsts_spec l : forall seen, NoDup (firsts seen l) /\ (forall x, In x (firsts seen l) -> In x l /\ ~ In x seen).
  Proof.
    induction l as [|x l IH]; intros seen; cbn [firsts]; [split; [constructor|intros ? []]|].
    destruct (existsb (N.eqb x) seen) eqn:E.
    - destruct (IH seen) as [D I]. split; [exact D|]. intros y Hy. destruct (I y Hy). split; [now right|assumption].
    - destruct (IH (x :: seen)) as [D I]. split.
      + constructor; [|exact D]. intros Hx. apply I in Hx as [_ Hx]. apply Hx. now left.
      + intros y [<-|Hy].
        * split; [now left|]. intros Hs. assert (existsb (N.eqb x) seen = true); [|congruence]. apply existsb_exists. exists x. split; [exact Hs|apply N.eqb_refl].
        * destruct (I y Hy) as [H1 H2]. split; [now right|]. intros Hs. apply H2. now right.
  Qed.
  Lemma firsts_length l : forall seen, (List.length (firsts seen l) <= List.length l)%nat.
  Proof. induction l as [|x l IH]; intros seen; cbn [firsts List.length]; [lia|]. destruct (existsb _ _); [specialize (IH seen)|specialize (IH (x :: seen)); cbn [List.length]]; lia. Qed.
  Lemma firsts_full l : forall seen, List.length (firsts seen l) = List.length l -> firsts seen l = l.
  Proof.
    induction l as [|x l IH]; intros seen; cbn [firsts List.length]; [reflexivity|]. destruct (existsb _ _).
    - pose proof (firsts_length l seen). lia.
    - cbn [List.length]. intros E. f_equal. apply IH. lia.
  Qed.
  Lemma fill_valid k n : forall keep st l st', (List.length keep <= n)%nat -> Forall valid_key keep -> fill gs k n keep st = Val (l, st') ->
    List.length l = n /\ Forall valid_key l /\ NoDup l.
  Proof.
    induction k as [|k IH]; intros keep st l st' Hl F; [discriminate|]. cbn [fill]. unfold sbind.
    destruct (gen_n gs (n - List.length keep) st) as [[new st1]| |] eqn:E; try discriminate. apply gen_n_valid in E as [L Fn].
    assert (LL : List.length (keep ++ new) = n) by (rewrite app_length; lia).
    assert (FF : Forall valid_key (keep ++ new)) by (apply Forall_app; now split).
    destruct (firsts_spec (keep ++ new) []) as [D In_].
    destruct (Nat.eqb_spec (List.length (firsts [] (keep ++ new))) n) as [En|].
    - unfold sret. intros [= <- _]. refine (conj LL (conj FF _)). rewrite <- (firsts_full (keep ++ new) []) by congruence. exact D.
    - apply IH; [rewrite <- LL; apply firsts_length|]. rewrite Forall_forall in FF |- *. intros x Hx. apply FF, In_. exact Hx.
  Qed.
  Theorem generate_keys_valid fuel n unique l : generate_keys gs fuel n unique = Some (Val l) ->
    Z.of_nat (List.length l) = n /\ Forall valid_key l /\ (unique = true -> NoDup l).
  Proof.
    unfold generate_keys. destruct (n <? 1)%Z eqn:E; [discriminate|]. destruct (sampler_new gs _) as [s|]; [|discriminate].
    destruct unique.
    - destruct (fill gs fuel (Z.to_nat n) [] (fuel, s)) as [[l' st]| |] eqn:Ef; intros [= <-].
      apply fill_valid in Ef as (L & F & D); [|cbn; lia|constructor]. refine (conj _ (conj F (fun _ => D))). lia.
    - destruct (gen_n gs (Z.to_nat n) (fuel, s)) as [[l' st]| |] eqn:Ef; intros [= <-].
      apply gen_n_valid in Ef as (L & F). refine (conj _ (conj F _)); [lia|discriminate].
  Qed.

  (* ---- memory safety: the words drawn at the start serve 16 calls of
     gen_bits each ---- *)
  Definition sam_ok (s : sampler) : Prop := N.of_nat (List.length (well s)) = drawn s /\ widx s <= drawn s /\ loc s <= 64.
  Definition serves (s : sampler) : N := 16 * (drawn s - widx s) + (64 - loc s) / 4.
  Definition safe {A} (m : S A) : Prop := forall fuel s, sam_ok s -> N.of_nat fuel <= serves s ->
    match m (fuel, s) with Val (_, (fuel', s')) => sam_ok s' /\ N.of_nat fuel' <= serves s' | Oob => False | Stuck => True end.
  Lemma gen_bits_safe n : n <= 4 -> safe (gen_bits gs n).
  Proof.
    intros Hn fuel s (Hw & Hi & Hl) Hf. unfold gen_bits. destruct fuel as [|fuel]; [exact I|]. unfold serves in *.
    destruct (N.ltb_spec 64 (loc s + n)) as [B|B].
    - assert (Z : (64 - loc s) / 4 = 0) by (apply N.div_small; lia). rewrite Z in Hf. unfold refill.
      rewrite (rd_nth _ _ 0) by lia. replace (drawn s <? widx s + 1) with false by lia. cbn [drawn widx well loc].
      refine (conj (conj Hw (conj _ _)) _); cbn [loc widx drawn]; [lia|lia|].
      assert (15 <= (64 - (0 + n)) / 4) by (apply N.div_le_lower_bound; lia). lia.
    - refine (conj (conj Hw (conj Hi _)) _); cbn [loc widx drawn]; [lia|].
      assert ((64 - loc s) / 4 <= (64 - (loc s + n)) / 4 + 1).
      { rewrite <- N.div_add by discriminate. apply N.div_le_mono; [discriminate|lia]. }
      lia.
  Qed.
  Lemma sret_safe {A} (a : A) : safe (sret a).
  Proof. intros fuel s H Hf. now split. Qed.
  Lemma sbind_safe {A B} (m : S A) (f : A -> S B) : safe m -> (forall a, safe (f a)) -> safe (sbind m f).
  Proof.
    intros Hm Hf fuel s H Hl. unfold sbind. specialize (Hm fuel s H Hl). destruct (m (fuel, s)) as [[a [fuel' s']]| |]; [|destruct Hm|exact I].
    apply Hf; apply Hm.
  Qed.
  Lemma until_safe k n ok : n <= 4 -> safe (until gs k n ok).
  Proof.
    intros Hn. induction k as [|k IH]; [intros ? ? ? ?; exact I|]. cbn [until]. apply sbind_safe; [now apply gen_bits_safe|].
    intros v. destruct (ok v); [apply sret_safe|exact IH].
  Qed.
  Lemma draw_until_safe n ok : n <= 4 -> safe (draw_until gs n ok).
  Proof. intros Hn fuel s H Hl. unfold draw_until. now apply until_safe. Qed.
  Lemma interval_safe m : safe (random_interval gs m).
  Proof.
    unfold random_interval. destruct (m =? 1); [apply sret_safe|]. destruct (m =? 2); [apply gen_bits_safe; discriminate|].
    apply draw_until_safe. destruct (m <? 4); [discriminate|]. destruct (m <? 8); discriminate.
  Qed.
  Lemma shuffle_from_safe k : forall i l, safe (shuffle_from gs k i l).
  Proof. induction k as [|k IH]; intros i l; cbn [shuffle_from]; [apply sret_safe|]. apply sbind_safe; [apply interval_safe|]. intros r. apply IH. Qed.
  Lemma upper_safe k : forall i last out, safe (upper gs k i last out).
  Proof. induction k as [|k IH]; intros i last out; cbn [upper]; [apply sret_safe|]. apply sbind_safe; [apply draw_until_safe; discriminate|]. intros r. apply IH. Qed.
  Lemma generate_key_safe : safe (generate_key gs).
  Proof. apply sbind_safe; [apply shuffle_from_safe|]. intros l. apply upper_safe. Qed.
  Lemma gen_n_safe n : safe (gen_n gs n).
  Proof. induction n as [|n IH]; cbn [gen_n]; [apply sret_safe|]. apply sbind_safe; [apply generate_key_safe|]. intros k. apply sbind_safe; [exact IH|]. intros ks. apply sret_safe. Qed.
  Lemma fill_safe k n : forall keep, safe (fill gs k n keep).
  Proof.
    induction k as [|k IH]; intros keep; cbn [fill]; [intros ? ? ? ?; exact I|]. apply sbind_safe; [apply gen_n_safe|]. intros new. cbv zeta.
    destruct (Nat.eqb _ _); [apply sret_safe|apply IH].
  Qed.
  Lemma sampler_new_ok n : 0 < n -> N.of_nat (List.length (gs n)) = n -> exists s, sampler_new gs n = Some s /\ sam_ok s /\ serves s = 16 * n.
  Proof.
    intros Hn Hg. unfold sampler_new, refill. cbn [well widx drawn]. rewrite (rd_nth _ _ 0) by lia. replace (n <? 0 + 1) with false by lia.
    eexists. split; [reflexivity|]. unfold sam_ok, serves. cbn [well widx drawn loc]. refine (conj (conj Hg (conj _ _)) _); [lia|discriminate|].
    change ((64 - 0) / 4) with 16. lia.
  Qed.
  Theorem generate_keys_safe fuel n unique : (forall k, N.of_nat (List.length (gs k)) = k) -> (Z.of_nat fuel <= 160 * n)%Z ->
    generate_keys gs fuel n unique <> Some Oob.
  Proof.
    intros Hg Hf. unfold generate_keys. destruct (n <? 1)%Z eqn:E; [discriminate|].
    destruct (sampler_new_ok (Z.to_N (10 * n))) as (s & -> & Hs & Hv); [lia|apply Hg|].
    assert (Hl : N.of_nat fuel <= serves s) by lia.
    destruct unique.
    - pose proof (fill_safe fuel (Z.to_nat n) [] fuel s Hs Hl) as X. destruct (fill gs fuel _ [] (fuel, s)) as [[]| |]; [discriminate|destruct X|discriminate].
    - pose proof (gen_n_safe (Z.to_nat n) fuel s Hs Hl) as X. destruct (gen_n gs _ (fuel, s)) as [[]| |]; [discriminate|destruct X|discriminate].
  Qed.
  Theorem key_from_seq_safe fuel : N.of_nat (List.length (gs 10)) = 10 -> (fuel <= 160)%nat -> key_from_seq gs fuel <> Oob.
  Proof.
    intros Hg Hf. unfold key_from_seq. destruct (sampler_new_ok 10) as (s & -> & Hs & Hv); [reflexivity|exact Hg|].
    pose proof (generate_key_safe fuel s Hs) as X. destruct (generate_key gs (fuel, s)) as [[]| |]; [discriminate| |discriminate]. destruct X. lia.
  Qed.
End Keys.
