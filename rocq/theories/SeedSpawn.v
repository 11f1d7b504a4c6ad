(* Spawning from a SeedSequence: keys never repeat, siblings never share a pool. *)
From Verif Require Import Word Arr Lcg SeedSeq SeedSeqFacts.
From Coq Require Import ZifyBool ZifyNat ZifyN.
Open Scope N_scope.

(* ---- histories of spawn calls over a whole tree ---- *)
(* every SeedSequence object reachable from one root, in order of creation *)
Definition forest := list seedseq.
Fixpoint setn {A} (l : list A) (i : nat) (x : A) : list A :=
  match l, i with
  | [], _ => []
  | _ :: l, O => x :: l
  | y :: l, S i => y :: setn l i x
  end.
(* forest[i].spawn(n), the children being kept; an exception changes nothing *)
Definition fstep (f : forest) (c : nat * Z) : forest :=
  match nth_error f (fst c) with
  | None => f
  | Some s => match spawn (snd c) s with
              | None => f
              | Some (s', kids) => setn f (fst c) s' ++ kids
              end
  end.
Definition frun (root : seedseq) (cs : list (nat * Z)) : forest := fold_left fstep cs [root].

Definition keys (f : forest) : list (list Z) := map ss_key f.
Record finv (root : seedseq) (f : forest) : Prop := {
  fi_nodup : NoDup (keys f);
  fi_fresh : forall s c, In s f -> (ss_children s <= c)%Z -> ~ In (ss_key s ++ [c]) (keys f);
  fi_len : forall k, In k (keys f) -> (List.length (ss_key root) <= List.length k)%nat;
  fi_parent : forall k c, In (k ++ [c]) (keys f) -> (List.length (ss_key root) < List.length (k ++ [c]))%nat -> In k (keys f) }.

Lemma app1_inj {A} (a b : list A) x y : a ++ [x] = b ++ [y] -> a = b /\ x = y.
Proof. apply app_inj_tail. Qed.
Lemma finv_root root : finv root [root].
Proof.
  constructor; cbn.
  - repeat constructor. intros [].
  - intros s c [<-|[]] _ [E|[]]. apply (f_equal (@List.length Z)) in E. rewrite app_length in E. cbn in E. lia.
  - intros k [<-|[]]. lia.
  - intros k c [E|[]] H. rewrite <- E in H. lia.
Qed.
Lemma spawn_ok n s s' kids : (0 <= n)%Z -> spawn n s = Some (s', kids) ->
  s' = SS (ss_entropy s) (ss_key s) (ss_pool_size s) (ss_children s + n)%Z /\
  kids = map (fun j => SS (ss_entropy s) (ss_key s ++ [ss_children s + Z.of_nat j])%Z (ss_pool_size s) 0) (seq 0 (Z.to_nat n)).
Proof.
  intros _. unfold spawn. destruct (_ || _)%bool; [|discriminate]. destruct (_ && _)%bool; [|discriminate].
  intros [= <- <-]. auto.
Qed.
Lemma keys_setn f i s s' : nth_error f i = Some s -> ss_key s' = ss_key s -> keys (setn f i s') = keys f.
Proof.
  unfold keys. revert i. induction f as [|x f IH]; intros [|i] H E; try discriminate; cbn in *.
  - injection H as ->. now rewrite E.
  - now rewrite (IH i).
Qed.
Lemma In_setn {A} (f : list A) i y : forall x, In x (setn f i y) -> x = y \/ exists j, j <> i /\ nth_error f j = Some x.
Proof.
  revert i. induction f as [|a f IH]; intros [|i] x H; cbn in H; try tauto.
  - destruct H as [<-|H]; [now left|]. right. apply In_nth_error in H as [j Hj]. exists (S j). split; [lia|exact Hj].
  - destruct H as [<-|H]; [right; exists 0%nat; split; [lia|reflexivity]|].
    destruct (IH _ _ H) as [->|(j & Hne & Hj)]; [now left|]. right. exists (S j). split; [lia|exact Hj].
Qed.
Lemma NoDup_app' {A} (a b : list A) : NoDup a -> NoDup b -> (forall x, In x a -> ~ In x b) -> NoDup (a ++ b).
Proof.
  induction a as [|x a IH]; intros Ha Hb Hd; [exact Hb|]. inversion Ha; subst. cbn. constructor.
  - rewrite in_app_iff. intros [H|H]; [contradiction|]. apply (Hd x (or_introl eq_refl) H).
  - apply IH; auto. intros y Hy. apply Hd. now right.
Qed.
Lemma NoDup_map_inj {A B} (g : A -> B) l : (forall x y, g x = g y -> x = y) -> NoDup l -> NoDup (map g l).
Proof.
  intros Hg. induction 1 as [|x l Hx Hl IH]; cbn; constructor; [|exact IH].
  intros H. apply in_map_iff in H as (y & E & Hy). apply Hg in E. now subst.
Qed.
Lemma finv_step root f i n : (0 <= n)%Z -> finv root f -> finv root (fstep f (i, n)).
Proof.
  intros Hn [Nd Fr Le Pa]. unfold fstep. cbn [fst snd].
  destruct (nth_error f i) as [s|] eqn:Es; [|now constructor].
  destruct (spawn n s) as [[s' kids]|] eqn:Esp; [|now constructor].
  apply spawn_ok in Esp as [-> ->]; [|exact Hn].
  assert (Hin : In s f) by (eapply nth_error_In; eassumption).
  set (s' := SS _ _ _ _). set (kids := map _ _).
  assert (Ek : keys (setn f i s' ++ kids) = keys f ++ keys kids).
  { unfold keys. rewrite map_app. f_equal. apply (keys_setn f i s s' Es eq_refl). }
  assert (Hk : forall k, In k (keys kids) <-> exists c, (ss_children s <= c < ss_children s + n)%Z /\ k = ss_key s ++ [c]).
  { intros k. unfold keys, kids. rewrite map_map. cbn [ss_key]. rewrite in_map_iff. split.
    - intros (j & <- & Hj). apply in_seq in Hj. eexists; split; [|reflexivity]. lia.
    - intros (c & Hc & ->). exists (Z.to_nat (c - ss_children s)). split; [f_equal; f_equal; lia|].
      apply in_seq. lia. }
  assert (Hsk : In (ss_key s) (keys f)) by (apply in_map; exact Hin).
  constructor; rewrite ?Ek.
  - apply NoDup_app'; [exact Nd| |].
    + unfold keys, kids. rewrite map_map. cbn [ss_key]. apply NoDup_map_inj; [|apply seq_NoDup].
      intros x y E. apply app1_inj in E. lia.
    + intros k H H'. apply Hk in H' as (c & Hc & ->). now apply (Fr s c Hin) in H; [|lia].
  - intros q c Hq Hc. rewrite in_app_iff.
    assert (Q : (q = s' \/ exists j, j <> i /\ nth_error f j = Some q) \/ In q kids).
    { apply in_app_iff in Hq as [Hq|Hq]; [left; now apply In_setn|now right]. }
    destruct Q as [[->|(j & Hne & Hj)]|Hq'].
    + cbn [ss_key ss_children] in *. subst s'. cbn [ss_key ss_children] in *. intros [H|H].
      * apply (Fr s c Hin) in H; [contradiction|lia].
      * apply Hk in H as (c' & Hc' & E). apply app1_inj in E. lia.
    + assert (Hqf : In q f) by (eapply nth_error_In; eassumption). intros [H|H].
      * now apply (Fr q c Hqf Hc) in H.
      * apply Hk in H as (c' & Hc' & E). apply app1_inj in E as [E _].
        assert (A1 : nth_error (keys f) j = Some (ss_key q)) by (unfold keys; rewrite nth_error_map, Hj; reflexivity).
        assert (A2 : nth_error (keys f) i = Some (ss_key q)) by (unfold keys; rewrite nth_error_map, Es; cbn; now rewrite E).
        apply Hne. eapply (proj1 (NoDup_nth_error (keys f)) Nd); [|congruence].
        apply nth_error_Some. congruence.
    + assert (Hqk : In (ss_key q) (keys kids)) by (apply in_map; exact Hq').
      apply Hk in Hqk as (d & Hd & Eq). rewrite Eq. intros [H|H].
      * apply Pa in H.
        -- now apply (Fr s d Hin) in H; [|lia].
        -- specialize (Le _ Hsk). rewrite !app_length. cbn. lia.
      * apply Hk in H as (c' & Hc' & E). apply app1_inj in E as [E _].
        apply (f_equal (@List.length Z)) in E. rewrite app_length in E. cbn in E. lia.
  - intros k H. apply in_app_iff in H as [H|H]; [now apply Le|].
    apply Hk in H as (c & _ & ->). specialize (Le _ Hsk). rewrite app_length. lia.
  - intros k c H Hl. apply in_app_iff. left. apply in_app_iff in H as [H|H]; [eapply Pa; eassumption|].
    apply Hk in H as (c' & _ & E). apply app1_inj in E as [-> _]. exact Hsk.
Qed.
Lemma frun_inv root cs : Forall (fun c => (0 <= snd c)%Z) cs -> finv root (frun root cs).
Proof.
  unfold frun. intros H. assert (G : forall f, finv root f -> finv root (fold_left fstep cs f)).
  { induction H as [|[i n] cs Hc _ IH]; intros f Hf; [exact Hf|]. cbn [fold_left]. apply IH. now apply finv_step. }
  apply G, finv_root.
Qed.
Lemma seq_shift_any n a : map (fun j => (a + j)%nat) (seq 0 n) = seq a n.
Proof.
  revert a. induction n as [|n IH]; intros a; [reflexivity|]. cbn [seq map]. f_equal; [lia|].
  rewrite <- (IH (S a)), <- seq_shift, map_map. apply map_ext. intros j. lia.
Qed.
Lemma spawn_add a b s s1 k1 s2 k2 : (0 <= a)%Z -> (0 <= b)%Z ->
  spawn a s = Some (s1, k1) -> spawn b s1 = Some (s2, k2) -> spawn (a + b) s = Some (s2, k1 ++ k2).
Proof.
  intros Ha Hb E1 E2. assert (F1 := E1). assert (F2 := E2).
  apply spawn_ok in F1 as [-> ->]; [|exact Ha]. apply spawn_ok in F2 as [-> ->]; [|exact Hb].
  unfold spawn in *. cbn [ss_children ss_entropy ss_key ss_pool_size] in *.
  destruct ((a <=? 0) || _)%Z%bool eqn:G1; [|discriminate].
  destruct ((0 <=? ss_children s + a) && _)%Z%bool eqn:G2; [|discriminate].
  destruct ((b <=? 0) || _)%Z%bool eqn:G3; [|discriminate].
  destruct ((0 <=? ss_children s + a + b) && _)%Z%bool eqn:G4; [|discriminate].
  replace ((a + b <=? 0) || (ss_children s + (a + b) <=? 2 ^ 31))%Z%bool with true
    by (change (2 ^ 31)%Z with 2147483648%Z in *; lia).
  replace ((0 <=? ss_children s + (a + b)) && (ss_children s + (a + b) <? 2 ^ 32))%Z%bool with true
    by (change (2 ^ 32)%Z with 4294967296%Z in *; lia).
  f_equal. f_equal; [f_equal; lia|].
  replace (Z.to_nat (a + b)) with (Z.to_nat a + Z.to_nat b)%nat by lia. rewrite seq_app, map_app. f_equal.
  rewrite <- (seq_shift_any (Z.to_nat b) (0 + Z.to_nat a)), map_map. apply map_ext. intros j. f_equal. f_equal. f_equal. lia.
Qed.

(* ---- one different word of entropy beyond the pool ---- *)
Lemma wsub_comm_inj x y y' : wf 32 y -> wf 32 y' -> mix x y = mix x y' -> y = y'.
Proof.
  intros Hy Hy' E. unfold mix in E.
  apply (lxor_shr_inj 32) in E; [|reflexivity|apply wf_wsub..].
  apply wsub_inj_r in E; [|apply wf_wmul..].
  apply (odd_mul_inj 32 MIX_MULT_R) in E; auto.
Qed.
Lemma mix_into_snd e e' dst m m' hc : snd (mix_into e dst (m, hc)) = snd (mix_into e' dst (m', hc)).
Proof. reflexivity. Qed.
Lemma extra_snd dsts e e' : forall m m' hc,
  snd (fold_left (fun st dst => mix_into e dst st) dsts (m, hc)) =
  snd (fold_left (fun st dst => mix_into e' dst st) dsts (m', hc)).
Proof.
  induction dsts as [|d dsts IH]; intros m m' hc; [reflexivity|]. cbn [fold_left].
  unfold mix_into at 2 4. rewrite !hashmix_eq. apply IH.
Qed.
(* later destinations do not touch word 0 *)
Lemma extra_nth0 e dsts : forall m hc, ~ In 0%nat dsts ->
  nth 0 (fst (fold_left (fun st dst => mix_into e dst st) dsts (m, hc))) 0 = nth 0 m 0.
Proof.
  induction dsts as [|d dsts IH]; intros m hc H; [reflexivity|]. cbn [fold_left].
  unfold mix_into at 2. rewrite hashmix_eq. rewrite IH by (intros C; apply H; now right).
  apply upd_nth_other. intros ->. apply H. now left.
Qed.
Lemma odd_iff hc : N.odd (wmul 32 hc MULT_A) = N.odd hc.
Proof.
  unfold wmul. rewrite <- N.bit0_odd, N.mod_pow2_bits_low, N.bit0_odd, N.odd_mul by reflexivity.
  now rewrite andb_comm.
Qed.
Lemma extra_word_inj n e e' m hc : (0 < n)%nat -> okm n m -> N.odd hc = true -> wf 32 hc ->
  wf 32 e -> wf 32 e' -> fst (mix_extra n (m, hc) e) = fst (mix_extra n (m, hc) e') -> e = e'.
Proof.
  intros Hn Om Ho Hc He He' E. unfold mix_extra in E. destruct n as [|n]; [lia|]. cbn [seq fold_left] in E.
  apply (f_equal (fun l => nth 0 l 0)) in E. unfold mix_into at 2 4 in E. rewrite !hashmix_eq in E.
  rewrite !extra_nth0 in E by (intros C; apply in_seq in C; lia).
  rewrite !upd_nth_same in E by (rewrite (proj1 Om); lia).
  apply wsub_comm_inj in E; [|apply scramble_wf..]. revert E. apply scramble_inj; auto.
  now rewrite odd_iff.
Qed.
(* the hash constant stays odd *)
Definition oddc (st : list N * N) : Prop := N.odd (snd st) = true /\ wf 32 (snd st).
Lemma mix_into_odd e dst st : oddc st -> oddc (mix_into e dst st).
Proof. destruct st as [m hc]. intros [H W]. unfold mix_into. rewrite hashmix_eq. split; cbn [snd] in *; [now rewrite odd_iff|apply wf_wmul]. Qed.
Lemma fold_inv {S X} (P : S -> Prop) (f : S -> X -> S) l : (forall s x, P s -> P (f s x)) -> forall s, P s -> P (fold_left f l s).
Proof. intros Hf. induction l as [|x l IH]; intros s Hs; [exact Hs|]. cbn. apply IH, Hf, Hs. Qed.
Lemma mix_extra_odd n st e : oddc st -> oddc (mix_extra n st e).
Proof. intros H. unfold mix_extra. apply fold_inv; [|exact H]. intros s x. apply mix_into_odd. Qed.
Lemma mix_all_odd n st : oddc st -> oddc (mix_all n st).
Proof.
  intros H. unfold mix_all. apply fold_inv; [|exact H]. intros s x Hs. unfold mix_src. apply fold_inv; [|exact Hs].
  intros t d Ht. destruct (Nat.eqb x d); [exact Ht|now apply mix_into_odd].
Qed.
Lemma fill_odd n : forall e hc, N.odd hc = true -> wf 32 hc -> oddc (fill_pool n e hc).
Proof.
  induction n as [|n IH]; intros e hc H W; [now split|]. cbn [fill_pool]. rewrite hashmix_eq.
  specialize (IH (tl e) (wmul 32 hc MULT_A)). rewrite odd_iff in IH. specialize (IH H (wf_wmul 32 hc MULT_A)).
  destruct (fill_pool n (tl e) _) as [r h]. exact IH.
Qed.
Lemma fold_extra_ok n l st : okm n (fst st) -> okm n (fst (fold_left (mix_extra n) l st)).
Proof.
  destruct st as [m hc]. intros H.
  apply (good_fold n (mix_extra n) l (fun e _ => good_mix_extra n e) m m hc H H).
Qed.
(* two lists of more than n words that differ in exactly one word past the pool *)
Lemma mix_entropy_tail n a x y b : (0 < n)%nat -> (n <= List.length a)%nat -> wf 32 x -> wf 32 y ->
  mix_entropy n (a ++ x :: b) = mix_entropy n (a ++ y :: b) -> x = y.
Proof.
  intros Hn Ha Hx Hy E. unfold mix_entropy in E.
  rewrite !skipn_app in E. replace (n - List.length a)%nat with 0%nat in E by lia. cbn [skipn] in E.
  rewrite !fold_left_app in E. cbn [fold_left] in E.
  assert (Ef : forall t, fill_pool n (a ++ t) INIT_A = fill_pool n a INIT_A).
  { intros t. rewrite <- (firstn_skipn n a), <- app_assoc. rewrite !fill_app by (rewrite firstn_length; lia). reflexivity. }
  rewrite !Ef in E.
  pose proof (fill_ok n a INIT_A) as O. pose proof (fill_odd n a INIT_A eq_refl eq_refl) as Q.
  set (st := fill_pool n a INIT_A) in *. clearbody st.
  assert (O1 : okm n (fst (mix_all n st))) by (destruct st as [m hc]; apply (good_mix_all n m m hc O O)).
  assert (Q1 : oddc (mix_all n st)) by now apply mix_all_odd.
  set (st1 := mix_all n st) in *. clearbody st1.
  assert (O2 : okm n (fst (fold_left (mix_extra n) (skipn n a) st1))) by now apply fold_extra_ok.
  assert (Q2 : oddc (fold_left (mix_extra n) (skipn n a) st1)) by (apply fold_inv; [intros; now apply mix_extra_odd|exact Q1]).
  set (st2 := fold_left (mix_extra n) (skipn n a) st1) in *. clearbody st2. destruct st2 as [m hc].
  apply (extra_word_inj n x y m hc Hn O2 (proj1 Q2) (proj2 Q2) Hx Hy).
  destruct (good_mix_extra n x m m hc O2 O2) as (X1 & _). destruct (good_mix_extra n y m m hc O2 O2) as (Y1 & _).
  assert (S : snd (mix_extra n (m, hc) x) = snd (mix_extra n (m, hc) y)) by apply extra_snd.
  destruct (mix_extra n (m, hc) x) as [p1 h1], (mix_extra n (m, hc) y) as [p2 h2]. cbn [fst snd] in *. subst h2.
  apply (good_fold n (mix_extra n) b (fun e _ => good_mix_extra n e) p1 p2 h1 X1 Y1). exact E.
Qed.

(* keys of one-word integers *)
Definition key_ok (k : list Z) : Prop := Forall (fun c => (0 <= c < 2 ^ 32)%Z) k.
Lemma coerce_key k : key_ok k -> coerce (SSeq (map SInt k)) = Some (map Z.to_N k).
Proof.
  induction 1 as [|c k Hc Hk IH]; [reflexivity|]. cbn [coerce map fold_right] in *. rewrite IH.
  unfold int_to_words. replace (c <? 0)%Z with false by lia.
  destruct (Z.eqb_spec c 0) as [->|Hz]; [reflexivity|].
  replace (int_words _ _) with [Z.to_N c]; [reflexivity|].
  set (x := Z.to_N c). assert (Hx : x < 2 ^ 32) by (unfold x; change (2 ^ 32) with 4294967296; change (2 ^ 32)%Z with 4294967296%Z in Hc; lia).
  assert (Hx0 : x <> 0) by (unfold x; lia). clearbody x.
  destruct x as [|p]; [lia|]. assert (Hs : exists f, N.to_nat (N.size (N.pos p)) = S f).
  { destruct (N.to_nat (N.size (N.pos p))) eqn:E; [|eauto]. assert (N.size (N.pos p) = 0) by lia. discriminate. }
  destruct Hs as [f ->]. cbn [int_words]. replace (N.pos p =? 0) with false by reflexivity.
  rewrite N.div_small by exact Hx. replace (int_words f 0) with (@nil N) by (destruct f; reflexivity).
  change 0xffffffff with (N.ones 32). now rewrite N.land_ones, N.mod_small by exact Hx.
Qed.
Lemma assemble_key n run key : key <> [] -> assemble n run key = (run ++ repeat 0 (n - List.length run)) ++ key.
Proof. intros H. unfold assemble. destruct key; [congruence|reflexivity]. Qed.
Lemma ss_pool_key_inj e P k x y l ch ch' p :
  key_ok k -> (0 <= x < 2 ^ 32)%Z -> (0 <= y < 2 ^ 32)%Z -> key_ok l ->
  ss_pool (SS e (k ++ x :: l) P ch) = Some p -> ss_pool (SS e (k ++ y :: l) P ch') = Some p -> x = y.
Proof.
  intros Hk Hx Hy Hl. unfold ss_pool. cbn [ss_pool_size ss_entropy ss_key].
  destruct (Nat.ltb_spec P 4) as [|HP]; [discriminate|].
  assert (K : forall z, (0 <= z < 2 ^ 32)%Z -> coerce (SSeq (map SInt (k ++ z :: l))) = Some (map Z.to_N (k ++ z :: l))).
  { intros z Hz. apply coerce_key. apply Forall_app. split; [exact Hk|]. constructor; [exact Hz|exact Hl]. }
  rewrite (K x Hx), (K y Hy). destruct (coerce e) as [run|]; [|discriminate].
  intros E1 E2. injection E1 as E1. injection E2 as E2. rewrite <- E2 in E1. clear E2.
  rewrite !assemble_key in E1 by (destruct k; discriminate).
  rewrite !map_app in E1. cbn [map] in E1. rewrite !(app_assoc _ (map Z.to_N k)) in E1.
  assert (B : forall z, (0 <= z < 2 ^ 32)%Z -> wf 32 (Z.to_N z)).
  { intros z Hz. unfold wf. change (2 ^ 32) with 4294967296. change (2 ^ 32)%Z with 4294967296%Z in Hz. lia. }
  apply mix_entropy_tail in E1; auto; try lia.
  rewrite !app_length, repeat_length. lia.
Qed.
