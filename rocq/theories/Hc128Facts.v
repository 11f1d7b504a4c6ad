(* Facts about HC128 *)
From Verif Require Import Word Arr Buffer32 Py MultiWord Hc128.
From Coq Require Import String ZifyBool ZifyNat ZifyN.
Open Scope N_scope.
Ltac Zify.zify_post_hook ::= idtac.

Definition tok (t : list N) : Prop := List.length t = 512%nat /\ Forall (wf 32) t.
Definition wu_ok (s : wu) : Prop := tok (wu_P s) /\ tok (wu_Q s) /\ wu_i s < 1024.

(* ------------------------------------------------ one round, in bounds *)
Lemma rdN_tbl t i : List.length t = 512%nat -> i < 512 -> rdN t i = Some (tbl t i).
Proof.
  intros L H. unfold rdN, tbl. rewrite (rd_nth t _ 0) by (rewrite L; lia). do 2 f_equal. lia.
Qed.
Lemma m512_mod x : m512 x = x mod 512.
Proof. unfold m512. change 0x1ff with (N.ones 9). now rewrite N.land_ones. Qed.
Lemma m512_lt x : m512 x < 512.
Proof. rewrite m512_mod. now apply N.mod_lt. Qed.
Lemma m512_sub i b : i < 512 -> b <= 512 -> m512 (wsub 32 i b) = boxminus i b.
Proof.
  intros H B. rewrite m512_mod. unfold boxminus, wsub. rewrite (N.mod_small b) by (change (2 ^ 32) with 4294967296; lia).
  change (2 ^ 32) with (512 * 8388608). rewrite N.mod_mul_r by discriminate. rewrite (N.mul_comm 512 (_ mod _)), N.mod_add by discriminate.
  rewrite N.mod_mod by discriminate.
  replace (i + (512 * 8388608 - b)) with (i + 512 - b + 8388607 * 512) by lia. now apply N.mod_add.
Qed.
Lemma m512_add1 i : i < 512 -> m512 (wadd 32 i 1) = boxminus i 511.
Proof.
  intros H. rewrite m512_mod. unfold boxminus, wadd. rewrite (N.mod_small (i + 1)) by (change (2 ^ 32) with 4294967296; lia). f_equal. lia.
Qed.
Lemma boxminus_lt a b : boxminus a b < 512. Proof. now apply N.mod_lt. Qed.
Lemma boxminus_ne i b : i < 512 -> 0 < b -> b < 512 -> boxminus i b <> i.
Proof.
  intros H B B'. unfold boxminus. destruct (N.ltb_spec i b) as [L|L].
  - rewrite N.mod_small by lia. lia.
  - replace (i + 512 - b) with (i - b + 1 * 512) by lia. rewrite N.mod_add by discriminate. rewrite N.mod_small by lia. lia.
Qed.
Lemma Hm_hh t x : List.length t = 512%nat -> Hm t x = Some (hh t x).
Proof.
  intros L. unfold Hm, hh. change 0xff with (N.ones 8). rewrite !N.land_ones, N.shiftr_div_pow2. change (2 ^ 8) with 256.
  pose proof (N.mod_lt x 256 ltac:(discriminate)). pose proof (N.mod_lt (x / 2 ^ 16) 256 ltac:(discriminate)).
  rewrite !rdN_tbl by (exact L || lia). reflexivity.
Qed.
Definition geq (g g' : N -> N -> N -> N) : Prop := forall x y z, g x y z = g' x y z.
Lemma geq1 : geq G1 g1.
Proof. intros x y z. unfold G1, g1. rewrite !rotr_rotl by discriminate. reflexivity. Qed.
Lemma geq2 : geq G2 g2. Proof. intros x y z. reflexivity. Qed.
Lemma rnd_ok g g' pq qp i : geq g g' -> List.length pq = 512%nat -> List.length qp = 512%nat -> i < 512 ->
  rnd g pq qp i = Some (wu_round g' pq qp i).
Proof.
  intros E L L' H. unfold rnd, wu_round. rewrite !m512_sub by (exact H || discriminate). rewrite m512_add1 by exact H.
  rewrite !rdN_tbl by (exact L || exact H || apply boxminus_lt). rewrite E.
  rewrite !rdN_tbl by (rewrite ?upd_length; exact L || exact H || apply boxminus_lt). rewrite Hm_hh by exact L'. rewrite N.lxor_comm. reflexivity.
Qed.
Lemma rnd_oob g pq qp i : List.length pq = 512%nat -> 512 <= i -> rnd g pq qp i = None.
Proof. intros L H. unfold rnd. assert (rdN pq i = None) as ->; [|reflexivity]. unfold rdN. apply rd_none. rewrite L. lia. Qed.
Lemma tbl_wf t i : tok t -> wf 32 (tbl t i).
Proof.
  intros [L F]. unfold tbl. destruct (Nat.ltb_spec (N.to_nat i) (List.length t)) as [H|H].
  - rewrite Forall_forall in F. now apply F, nth_In.
  - rewrite nth_overflow by exact H. apply wf_0.
Qed.
Lemma tok_upd t i x : tok t -> wf 32 x -> tok (upd t i x).
Proof. intros [L F] H. split; [now rewrite upd_length|now apply upd_Forall]. Qed.
Lemma wu_round_ok g P Q j : tok P -> tok Q -> tok (fst (wu_round g P Q j)) /\ wf 32 (snd (wu_round g P Q j)).
Proof.
  intros HP HQ. unfold wu_round. cbn [fst snd]. assert (T := tok_upd P (N.to_nat j) _ HP (wf_wadd 32 (tbl P j) (g (tbl P (boxminus j 3)) (tbl P (boxminus j 10)) (tbl P (boxminus j 511))))).
  split; [exact T|]. apply wf_lxor; [apply wf_wadd|]. apply tbl_wf. exact T.
Qed.
Lemma wu_next_ok s : wu_ok s -> wu_ok (fst (wu_next s)) /\ wf 32 (snd (wu_next s)).
Proof.
  intros (HP & HQ & Hi). unfold wu_next.
  pose proof (wu_round_ok g1 (wu_P s) (wu_Q s) (wu_i s mod 512) HP HQ) as A. pose proof (wu_round_ok g2 (wu_Q s) (wu_P s) (wu_i s mod 512) HQ HP) as B.
  assert (C : (wu_i s + 1) mod 1024 < 1024) by now apply N.mod_lt.
  destruct (wu_i s mod 1024 <? 512).
  - destruct (wu_round g1 _ _ _) as [P v]. cbn [fst snd] in *. destruct A as [A1 A2]. split; [exact (conj A1 (conj HQ C))|exact A2].
  - destruct (wu_round g2 _ _ _) as [P v]. cbn [fst snd] in *. destruct B as [A1 A2]. split; [exact (conj HP (conj A1 C))|exact A2].
Qed.

(* ------------------------------------------------------ reversibility *)
Lemma upd_same_nth (P P' : list N) j v v' : List.length P = 512%nat -> List.length P' = 512%nat -> j < 512 ->
  upd P (N.to_nat j) v = upd P' (N.to_nat j) v' -> v = v' /\ forall k, k <> j -> tbl P k = tbl P' k.
Proof.
  intros L L' H E. split.
  - assert (A : nth (N.to_nat j) (upd P (N.to_nat j) v) 0 = nth (N.to_nat j) (upd P' (N.to_nat j) v') 0) by now rewrite E.
    rewrite !upd_nth_same in A by (rewrite ?L, ?L'; lia). exact A.
  - intros k Hk. unfold tbl. assert (A : nth (N.to_nat k) (upd P (N.to_nat j) v) 0 = nth (N.to_nat k) (upd P' (N.to_nat j) v') 0) by now rewrite E.
    rewrite !upd_nth_other in A by lia. exact A.
Qed.
Lemma tbl_ext (P P' : list N) : List.length P = 512%nat -> List.length P' = 512%nat -> (forall k, tbl P k = tbl P' k) -> P = P'.
Proof.
  intros L L' H. apply (nth_ext P P' 0 0); [congruence|]. intros n Hn. specialize (H (N.of_nat n)). unfold tbl in H. now rewrite !Nat2N.id in H.
Qed.
Lemma wu_round_inj g P P' Q Q' j : tok P -> tok P' -> j < 512 ->
  fst (wu_round g P Q j) = fst (wu_round g P' Q' j) -> P = P'.
Proof.
  intros [L F] [L' F'] H E. unfold wu_round in E. cbn [fst] in E. apply upd_same_nth in E; [|assumption|assumption|assumption]. destruct E as [E D].
  rewrite (D (boxminus j 3)), (D (boxminus j 10)), (D (boxminus j 511)) in E by (apply boxminus_ne; [exact H|reflexivity|reflexivity]). apply wadd_inj_r in E; [|apply tbl_wf; now split|apply tbl_wf; now split].
  apply tbl_ext; [exact L|exact L'|]. intros k. destruct (N.eq_dec k j) as [->|Hk]; [exact E|now apply D].
Qed.
Lemma wu_next_inj s t : wu_ok s -> wu_ok t -> fst (wu_next s) = fst (wu_next t) -> s = t.
Proof.
  destruct s as [P Q i], t as [P' Q' i']. intros (HP & HQ & Hi) (HP' & HQ' & Hi'). unfold wu_next. cbn [wu_P wu_Q wu_i] in *.
  rewrite !(N.mod_small i 1024), !(N.mod_small i' 1024) by assumption.
  pose proof (fun E => wu_round_inj g1 P P' Q Q' (i mod 512) HP HP' (N.mod_lt i 512 ltac:(discriminate)) E) as I1.
  pose proof (fun E => wu_round_inj g2 Q Q' P P' (i mod 512) HQ HQ' (N.mod_lt i 512 ltac:(discriminate)) E) as I2.
  assert (K : (i + 1) mod 1024 = (i' + 1) mod 1024 -> i = i').
  { intros E. destruct (N.eq_dec i 1023) as [->|A], (N.eq_dec i' 1023) as [->|B]; [reflexivity| | |].
    - rewrite (N.mod_small (i' + 1)) in E by lia. rewrite N.mod_same in E by discriminate. lia.
    - rewrite (N.mod_small (i + 1)) in E by lia. rewrite N.mod_same in E by discriminate. lia.
    - rewrite !N.mod_small in E by lia. lia. }
  assert (Ki : forall P1 Q1 P2 Q2 n1 n2, WU P1 Q1 n1 = WU P2 Q2 n2 -> P1 = P2 /\ Q1 = Q2 /\ n1 = n2) by (intros; split; [congruence|split; congruence]).
  destruct (wu_round g1 P Q (i mod 512)) as [R1 v1] eqn:E1. destruct (wu_round g2 Q P (i mod 512)) as [R2 v2] eqn:E2.
  destruct (N.eq_dec i i') as [<-|D].
  - destruct (wu_round g1 P' Q' (i mod 512)) as [R3 v3] eqn:E3. destruct (wu_round g2 Q' P' (i mod 512)) as [R4 v4] eqn:E4. cbn [fst] in I1, I2.
    destruct (i <? 512); cbn [fst]; intros E; apply Ki in E; destruct E as (A & B & _).
    + rewrite (I1 A), B. reflexivity.
    + rewrite A, (I2 B). reflexivity.
  - intros E. exfalso. apply D, K.
    destruct (wu_round g1 P' Q' (i' mod 512)) as [R3 v3]. destruct (wu_round g2 Q' P' (i' mod 512)) as [R4 v4].
    destruct (i <? 512), (i' <? 512); cbn [fst] in E; apply Ki in E; apply E.
Qed.
Lemma wu_iter_ok n s : wu_ok s -> wu_ok (N.iter n (cstep wu_next) s).
Proof. intros H. apply Niter_inv; [|exact H]. intros x Hx. now apply wu_next_ok. Qed.
Lemma wu_iter_inj n s t : wu_ok s -> wu_ok t -> N.iter n (cstep wu_next) s = N.iter n (cstep wu_next) t -> s = t.
Proof. apply (Niter_inj wu_ok); [|exact wu_next_inj]. intros x Hx. now apply wu_next_ok. Qed.

(* ------------------------------------------- sixteen rounds at a time *)
Definition wu_of (s : hc) : wu := WU (hc_p s) (hc_q s) (Z.to_N (hc_idx s)).
Lemma wu_next1 P Q i : i < 512 -> wu_next (WU P Q i) = (WU (fst (wu_round g1 P Q i)) Q (i + 1), snd (wu_round g1 P Q i)).
Proof.
  intros H. unfold wu_next. cbn [wu_P wu_Q wu_i]. rewrite !(N.mod_small i), (N.mod_small (i + 1)) by lia. replace (i <? 512) with true by lia.
  destruct (wu_round g1 P Q i). reflexivity.
Qed.
Lemma wu_next2 P Q i : 512 <= i -> i < 1024 ->
  wu_next (WU P Q i) = (WU P (fst (wu_round g2 Q P (i mod 512))) ((i + 1) mod 1024), snd (wu_round g2 Q P (i mod 512))).
Proof.
  intros H H'. unfold wu_next. cbn [wu_P wu_Q wu_i]. rewrite (N.mod_small i 1024) by lia. replace (i <? 512) with false by lia.
  destruct (wu_round g2 Q P (i mod 512)). reflexivity.
Qed.
Lemma rounds1 k : forall P Q i, tok P -> tok Q -> i + N.of_nat k <= 512 ->
  rounds G1 false k P Q i = Some (wu_P (fst (raws wu_next k (WU P Q i))), snd (raws wu_next k (WU P Q i)))
  /\ wu_Q (fst (raws wu_next k (WU P Q i))) = Q /\ wu_i (fst (raws wu_next k (WU P Q i))) = i + N.of_nat k.
Proof.
  induction k as [|k IH]; intros P Q i HP HQ H; [cbn; repeat split; lia|]. cbn [rounds raws].
  assert (E : trunc 16 i = i) by (apply trunc_small; unfold wf; change (2 ^ 16) with 65536; lia). rewrite E.
  rewrite (rnd_ok G1 g1 _ _ _ geq1 (proj1 HP) (proj1 HQ)) by lia.
  pose proof (wu_round_ok g1 P Q i HP HQ) as W. rewrite wu_next1 by lia.
  destruct (wu_round g1 P Q i) as [P1 v]. cbn [fst snd] in W |- *. destruct (IH P1 Q (i + 1) (proj1 W) HQ ltac:(lia)) as (A & B & C).
  rewrite A. destruct (raws wu_next k (WU P1 Q (i + 1))) as [s2 vs]. cbn [fst snd] in *. split; [reflexivity|]. split; [exact B|]. lia.
Qed.
Lemma rounds2 k : forall P Q i, tok P -> tok Q -> 512 <= i -> i + N.of_nat k <= 1024 ->
  rounds G2 true k Q P i = Some (wu_Q (fst (raws wu_next k (WU P Q (i mod 1024)))), snd (raws wu_next k (WU P Q (i mod 1024))))
  /\ wu_P (fst (raws wu_next k (WU P Q (i mod 1024)))) = P /\ wu_i (fst (raws wu_next k (WU P Q (i mod 1024)))) = (i + N.of_nat k) mod 1024.
Proof.
  induction k as [|k IH]; intros P Q i HP HQ H1 H; [cbn; rewrite N.add_0_r; repeat split|]. cbn [rounds raws].
  rewrite m512_mod. assert (L : i mod 512 < 512) by now apply N.mod_lt.
  rewrite (rnd_ok G2 g2 _ _ _ geq2 (proj1 HQ) (proj1 HP)) by exact L.
  pose proof (wu_round_ok g2 Q P (i mod 512) HQ HP) as W. rewrite (N.mod_small i 1024) by lia. rewrite wu_next2 by lia.
  destruct (wu_round g2 Q P (i mod 512)) as [Q1 v]. cbn [fst snd] in W |- *. destruct (IH P Q1 (i + 1) HP (proj1 W) ltac:(lia) ltac:(lia)) as (A & B & C).
  rewrite A. destruct (raws wu_next k (WU P Q1 ((i + 1) mod 1024))) as [s2 vs]. cbn [fst snd] in *. split; [reflexivity|]. split; [exact B|]. rewrite C. f_equal. lia.
Qed.
(* a live generator: indices in range, hc_idx at a block boundary *)
Definition hc_ok (s : hc) : Prop :=
  tok (hc_p s) /\ tok (hc_q s) /\ List.length (hc_buf s) = 16%nat /\ Forall (wf 32) (hc_buf s)
  /\ (0 <= hc_idx s < 1024)%Z /\ (hc_idx s mod 16 = 0)%Z /\ (0 <= hc_bidx s <= 16)%Z.
Lemma raws_length {A} (f : A -> A * N) k : forall s, List.length (snd (raws f k s)) = k.
Proof.
  induction k as [|k IH]; intros s; [reflexivity|]. cbn [raws]. destruct (f s) as [a v]. specialize (IH a). destruct (raws f k a). cbn [snd] in *. cbn. now rewrite IH.
Qed.
Lemma raws_inv {A} (f : A -> A * N) (Inv : A -> Prop) w : (forall a, Inv a -> Inv (fst (f a)) /\ wf w (snd (f a))) ->
  forall k s, Inv s -> Inv (fst (raws f k s)) /\ Forall (wf w) (snd (raws f k s)).
Proof.
  intros H. induction k as [|k IH]; intros s Hs; [split; [exact Hs|constructor]|]. cbn [raws].
  destruct (H s Hs) as [A1 A2]. destruct (f s) as [a v]. cbn [fst snd] in *. destruct (IH a A1) as [B1 B2]. destruct (raws f k a). cbn [fst snd] in *. split; [exact B1|now constructor].
Qed.
Lemma wu_of_ok s : hc_ok s -> wu_ok (wu_of s).
Proof. intros (P & Q & _ & _ & I & _). refine (conj P (conj Q _)). cbn [wu_of wu_i]. lia. Qed.
Lemma mod16_room (z : Z) : (0 <= z < 1024)%Z -> (z mod 16 = 0)%Z -> ((z < 512 -> z + 16 <= 512) /\ z + 16 <= 1024)%Z.
Proof. intros H M. pose proof (Z.div_mod z 16 ltac:(lia)). lia. Qed.
Lemma hc_extract_ok s : hc_ok s ->
  exists s', hc_extract s = Some s' /\ hc_ok s' /\ hc_bidx s' = 0%Z /\ wu_of s' = fst (raws wu_next 16 (wu_of s)) /\ hc_buf s' = snd (raws wu_next 16 (wu_of s)).
Proof.
  intros H. pose proof (wu_of_ok s H) as W. destruct (raws_inv wu_next wu_ok 32 wu_next_ok 16 (wu_of s) W) as [W1 W2].
  pose proof (raws_length wu_next 16 (wu_of s)) as WL.
  destruct H as (HP & HQ & L & F & I & M & B). pose proof (mod16_room _ I M) as [R1 R2].
  unfold hc_extract. rewrite !Z.mod_small by lia.
  assert (E : N.land (wadd 32 (Z.to_N (hc_idx s)) 16) 1023 = (Z.to_N (hc_idx s) + 16) mod 1024).
  { change 1023 with (N.ones 10). rewrite N.land_ones. unfold wadd. rewrite (N.mod_small (_ + 16) (2 ^ 32)) by (change (2 ^ 32) with 4294967296; lia). reflexivity. }
  rewrite E. assert (L1 : (Z.to_N (hc_idx s) + 16) mod 1024 < 1024) by now apply N.mod_lt.
  assert (L2 : (Z.of_N ((Z.to_N (hc_idx s) + 16) mod 1024) mod 16 = 0)%Z).
  { rewrite N2Z.inj_mod, N2Z.inj_add, Z2N.id by lia. change (Z.of_N 1024) with (16 * 64)%Z. change (Z.of_N 16) with 16%Z.
    rewrite Z.rem_mul_r by lia. rewrite (Z.mul_comm 16), Z.mod_add, Z.mod_mod by lia. rewrite <- Z.add_mod_idemp_l, M by lia. reflexivity. }
  destruct (N.ltb_spec (Z.to_N (hc_idx s)) 512) as [C|C].
  - destruct (rounds1 16 (hc_p s) (hc_q s) (Z.to_N (hc_idx s)) HP HQ ltac:(lia)) as (A1 & A2 & A3).
    change (WU (hc_p s) (hc_q s) (Z.to_N (hc_idx s))) with (wu_of s) in *. rewrite A1. eexists. split; [reflexivity|].
    destruct (raws wu_next 16 (wu_of s)) as [[P1 Q1 i1] vs]. cbn [fst snd wu_P wu_Q wu_i] in *. subst Q1.
    cbn [hc_bidx hc_buf]. unfold wu_of, hc_ok. cbn [hc_p hc_q hc_buf hc_idx hc_bidx]. destruct W1 as (W3 & W4 & W5). cbn [wu_P wu_Q wu_i] in *.
    refine (conj (conj W3 (conj HQ (conj WL (conj W2 (conj _ (conj L2 _)))))) (conj eq_refl (conj _ eq_refl))); [lia|lia|].
    f_equal. rewrite N2Z.id, A3. change (N.of_nat 16) with 16.  apply N.mod_small. lia.
  - destruct (rounds2 16 (hc_p s) (hc_q s) (Z.to_N (hc_idx s)) HP HQ ltac:(lia) ltac:(lia)) as (A1 & A2 & A3).
    rewrite (N.mod_small (Z.to_N (hc_idx s))) in A1, A2, A3 by lia.
    change (WU (hc_p s) (hc_q s) (Z.to_N (hc_idx s))) with (wu_of s) in *. rewrite A1. eexists. split; [reflexivity|].
    destruct (raws wu_next 16 (wu_of s)) as [[P1 Q1 i1] vs]. cbn [fst snd wu_P wu_Q wu_i] in *. subst P1.
    cbn [hc_bidx hc_buf]. unfold wu_of, hc_ok. cbn [hc_p hc_q hc_buf hc_idx hc_bidx]. destruct W1 as (W3 & W4 & W5). cbn [wu_P wu_Q wu_i] in *.
    refine (conj (conj HP (conj W4 (conj WL (conj W2 (conj _ (conj L2 _)))))) (conj eq_refl (conj _ eq_refl))); [lia|lia|].
    f_equal. rewrite N2Z.id, A3. reflexivity.
Qed.

(* ------------------------------------- the stream of 32-bit draws *)
(* what is left of the buffer (nothing when a refill is due) *)
Definition unread (s : hc) : list N := if (Z.rem (hc_bidx s) 16 =? 0)%Z then [] else skipn (Z.to_nat (hc_bidx s)) (hc_buf s).
Fixpoint hc_draws (n : nat) (s : hc) : option (hc * list N) :=
  match n with
  | O => Some (s, [])
  | S n => match hc_next32 s with
           | None => None
           | Some (s1, v) => match hc_draws n s1 with None => None | Some (s2, vs) => Some (s2, v :: vs) end
           end
  end.
Lemma raws_app {A} (f : A -> A * N) m n s :
  raws f (m + n) s = (fst (raws f n (fst (raws f m s))), (snd (raws f m s) ++ snd (raws f n (fst (raws f m s))))%list).
Proof.
  revert s. induction m as [|m IH]; intros s; cbn [raws Nat.add]; [cbn [fst snd app]; destruct (raws f n s); reflexivity|].
  destruct (f s) as [a v]. rewrite IH. destruct (raws f m a) as [b vs]. cbn [fst snd]. destruct (raws f n b). reflexivity.
Qed.
Lemma rem16 (b : Z) : (0 <= b <= 16)%Z -> (Z.rem b 16 =? 0)%Z = ((b =? 0) || (b =? 16))%Z.
Proof.
  intros H. rewrite Z.rem_mod_nonneg by lia. destruct (Z.eq_dec b 16) as [->|N]; [reflexivity|]. rewrite Z.mod_small by lia. lia.
Qed.
(* one draw: take the next unread word, after a refill by 16 steps if there is none *)
Lemma skipn_cons_nth (l : list N) k : (k < List.length l)%nat -> skipn k l = nth k l 0 :: skipn (S k) l.
Proof. revert k. induction l as [|x l IH]; intros [|k] H; cbn in *; try lia; [reflexivity|]. apply IH. lia. Qed.
Lemma take_one s : hc_ok s -> (0 <= hc_bidx s < 16)%Z ->
  exists s' v, rd (hc_buf s) (hc_bidx s) = Some v /\ skipn (Z.to_nat (hc_bidx s)) (hc_buf s) = v :: unread s'
  /\ s' = HC (hc_p s) (hc_q s) (hc_buf s) (hc_idx s) (hc_bidx s + 1) /\ hc_ok s' /\ wu_of s' = wu_of s /\ wf 32 v.
Proof.
  intros (HP & HQ & L & F & I & M & B) H. exists (HC (hc_p s) (hc_q s) (hc_buf s) (hc_idx s) (hc_bidx s + 1)), (nth (Z.to_nat (hc_bidx s)) (hc_buf s) 0).
  split; [apply rd_nth; rewrite L; lia|]. split.
  - rewrite skipn_cons_nth by (rewrite L; lia). f_equal. unfold unread. cbn [hc_bidx hc_buf]. rewrite rem16 by lia.
    destruct (Z.eqb_spec (hc_bidx s + 1) 16) as [E|E].
    + rewrite orb_true_r. apply skipn_all2. rewrite L. lia.
    + replace (hc_bidx s + 1 =? 0)%Z with false by lia. cbn [orb]. f_equal. lia.
  - split; [reflexivity|]. split; [|split; [reflexivity|]].
    + refine (conj HP (conj HQ (conj L (conj F (conj I (conj M _)))))). cbn [hc_bidx]. lia.
    + rewrite Forall_forall in F. apply F, nth_In. rewrite L. lia.
Qed.
Lemma hc_next32_spec s : hc_ok s -> exists s' v, hc_next32 s = Some (s', v) /\ hc_ok s' /\ wf 32 v /\
  ((unread s = v :: unread s' /\ wu_of s' = wu_of s) \/
   (unread s = [] /\ snd (raws wu_next 16 (wu_of s)) = v :: unread s' /\ wu_of s' = fst (raws wu_next 16 (wu_of s)))).
Proof.
  intros H. unfold hc_next32. assert (B := proj2 (proj2 (proj2 (proj2 (proj2 (proj2 H)))))). rewrite rem16 by exact B.
  assert (U : unread s = if ((hc_bidx s =? 0) || (hc_bidx s =? 16))%Z then [] else skipn (Z.to_nat (hc_bidx s)) (hc_buf s)) by (unfold unread; now rewrite rem16 by exact B).
  destruct ((hc_bidx s =? 0) || (hc_bidx s =? 16))%Z eqn:E.
  - destruct (hc_extract_ok s H) as (s1 & E1 & O1 & B1 & W1 & F1). rewrite E1.
    destruct (take_one s1 O1 ltac:(lia)) as (s2 & v & R & K & S2 & O2 & W2 & V). rewrite R. exists s2, v. subst s2. split; [reflexivity|]. split; [exact O2|]. split; [exact V|]. right.
    rewrite B1 in K. cbn [Z.to_nat skipn] in K. split; [exact U|]. split; [rewrite <- F1, B1; exact K|rewrite W2; exact W1].
  - destruct (take_one s H ltac:(lia)) as (s2 & v & R & K & S2 & O2 & W2 & V). rewrite R. exists s2, v. subst s2. split; [reflexivity|]. split; [exact O2|]. split; [exact V|]. left.
    split; [rewrite U; exact K|exact W2].
Qed.
(* every sequence of draws succeeds and gives the unread words followed by the
   words of the published generator: for some number of blocks b the words
   unread before and those 16 b words are the words drawn and those left *)
Lemma hc_draws_spec n : forall s, hc_ok s -> exists s' vs b, hc_draws n s = Some (s', vs) /\ hc_ok s' /\ List.length vs = n /\ Forall (wf 32) vs
  /\ (unread s ++ snd (raws wu_next (16 * b) (wu_of s)))%list = (vs ++ unread s')%list /\ wu_of s' = fst (raws wu_next (16 * b) (wu_of s)).
Proof.
  induction n as [|n IH]; intros s H; cbn [hc_draws].
  - exists s, [], 0%nat. cbn [Nat.mul raws fst snd]. rewrite app_nil_r. repeat split; try reflexivity; try apply H. constructor.
  - destruct (hc_next32_spec s H) as (s1 & v & E1 & O1 & V & C). rewrite E1. destruct (IH s1 O1) as (s2 & vs & b & E2 & O2 & L & F & Q & W). rewrite E2.
    destruct C as [[U1 W1]|(U1 & R1 & W1)].
    + exists s2, (v :: vs), b. split; [reflexivity|]. split; [exact O2|]. split; [cbn; now rewrite L|]. split; [now constructor|].
      rewrite U1, <- W1. cbn [app]. split; [now rewrite Q|exact W].
    + exists s2, (v :: vs), (S b). split; [reflexivity|]. split; [exact O2|]. split; [cbn; now rewrite L|]. split; [now constructor|].
      replace (16 * S b)%nat with (16 + 16 * b)%nat by lia. rewrite raws_app. cbn [fst snd]. rewrite <- W1, U1, R1. cbn [app]. split; [now rewrite Q|exact W].
Qed.

(* ------------------------------------------------------------ seeding *)
Lemma mixin_ok g g' n : geq g g' -> forall P Q i, tok P -> tok Q -> i + N.of_nat n <= 512 ->
  exists P', mixin g n P Q i = Some P' /\ tok P'.
Proof.
  intros E. induction n as [|n IH]; intros P Q i HP HQ H; cbn [mixin]; [exists P; now split|].
  rewrite (rnd_ok g g' P Q i E (proj1 HP) (proj1 HQ)) by lia. destruct (wu_round_ok g' P Q i HP HQ) as [A B]. destruct (wu_round g' P Q i) as [P1 v]. cbn [fst snd] in *.
  apply IH; [now apply tok_upd|exact HQ|lia].
Qed.
Lemma mixin_inj g g' n : geq g g' -> forall P P' Q i, tok P -> tok P' -> tok Q -> i + N.of_nat n <= 512 ->
  mixin g n P Q i = mixin g n P' Q i -> P = P'.
Proof.
  intros E. induction n as [|n IH]; intros P P' Q i HP HP' HQ H; cbn [mixin]; [now intros [= ->]|].
  rewrite !(rnd_ok g g') by (exact E || apply HP || apply HP' || apply HQ || lia).
  pose proof (wu_round_ok g' P Q i HP HQ) as A. pose proof (wu_round_ok g' P' Q i HP' HQ) as A'.
  destruct (wu_round g' P Q i) as [P1 v] eqn:E1. destruct (wu_round g' P' Q i) as [P1' v'] eqn:E2. cbn [fst snd] in *.
  intros K. apply IH in K; [|apply tok_upd; apply A|apply tok_upd; apply A'|exact HQ|lia].
  apply upd_same_nth in K; [|apply A|apply A'|lia]. destruct K as [K D].
  unfold wu_round in E1, E2. injection E1 as E1 E1v. injection E2 as E2 E2v.
  assert (T : forall k, k <> i -> tbl P k = tbl P' k).
  { intros k Hk. specialize (D k Hk). rewrite <- E1, <- E2 in D. unfold tbl in D. rewrite !upd_nth_other in D by lia. exact D. }
  rewrite E1 in E1v. rewrite E2 in E2v. rewrite <- E1v, <- E2v in K. rewrite (D (boxminus i 12)) in K by (apply boxminus_ne; lia). apply lxor_inj_l in K.
  rewrite <- E1, <- E2 in K. unfold tbl at 1 6 in K. rewrite !upd_nth_same in K by (rewrite ?(proj1 HP), ?(proj1 HP'); lia).
  rewrite (T (boxminus i 3)), (T (boxminus i 10)), (T (boxminus i 511)) in K by (apply boxminus_ne; lia). apply wadd_inj_r in K; [|now apply tbl_wf|now apply tbl_wf].
  apply tbl_ext; [apply HP|apply HP'|]. intros k. destruct (N.eq_dec k i) as [->|Hk]; [exact K|now apply T].
Qed.
Lemma expand_ok n : forall w i, Forall (wf 32) w -> Forall (wf 32) (expand n w i) /\ List.length (expand n w i) = (n + List.length w)%nat.
Proof.
  induction n as [|n IH]; intros w i H; cbn [expand]; [now split|]. 
  match goal with |- Forall _ (expand n (?x :: w) _) /\ _ => destruct (IH (x :: w) (i + 1) (Forall_cons _ (wf_wadd 32 _ _) H)) as [A B] end.
  split; [exact A|]. rewrite B. cbn. lia.
Qed.
Lemma firstn_S_nth (l m : list N) n : (n < List.length l)%nat -> (n < List.length m)%nat -> firstn n l = firstn n m -> nth n l 0 = nth n m 0 -> firstn (S n) l = firstn (S n) m.
Proof.
  revert l m. induction n as [|n IH]; intros [|x l] [|y m] H H' E N; cbn in *; try lia; [now rewrite N|]. injection E as -> E. f_equal. apply (IH l m); try lia; assumption.
Qed.
Lemma firstn_nth_eq (l m : list N) n k : (k < n)%nat -> firstn n l = firstn n m -> nth k l 0 = nth k m 0.
Proof. revert l m k. induction n as [|n IH]; intros [|x l] [|y m] [|k] H E; cbn in *; try lia; try discriminate; try reflexivity; injection E; intros; subst; auto. apply (IH l m); [lia|assumption]. Qed.
(* the last sixteen words of the expansion determine the first sixteen *)
Lemma expand_inj n : forall w w' i, Forall (wf 32) w -> Forall (wf 32) w' -> (16 <= List.length w)%nat -> (16 <= List.length w')%nat ->
  firstn 16 (expand n w i) = firstn 16 (expand n w' i) -> firstn 16 w = firstn 16 w'.
Proof.
  induction n as [|n IH]; intros w w' i F F' L L'; cbn [expand]; [trivial|].
  intros E. apply IH in E; [|constructor; [apply wf_wadd|exact F]|constructor; [apply wf_wadd|exact F']|cbn; lia|cbn; lia].
  change (firstn 16 (?x :: ?l)) with (x :: firstn 15 l) in E. injection E as E1 E2.
  assert (E15 : firstn 15 w = firstn 15 w').
  { destruct w as [|? w]; [cbn in L; lia|]. destruct w' as [|? w']; [cbn in L'; lia|]. cbn [firstn]. exact E2. }
  apply firstn_S_nth; [lia|lia|exact E15|].
  rewrite (firstn_nth_eq w w' 15 1) in E1 by (lia || exact E15). rewrite (firstn_nth_eq w w' 15 6) in E1 by (lia || exact E15). rewrite (firstn_nth_eq w w' 15 14) in E1 by (lia || exact E15).
  apply wadd_inj_r in E1; [|apply wf_wadd|apply wf_wadd]. apply wadd_inj_l in E1; [exact E1| |].
  - rewrite Forall_forall in F. apply F, nth_In. lia.
  - rewrite Forall_forall in F'. apply F', nth_In. lia.
Qed.
Lemma first16_ok k : List.length k = 8%nat -> Forall (wf 32) k -> List.length (first16 k) = 16%nat /\ Forall (wf 32) (first16 k).
Proof.
  intros L F. do 8 (destruct k as [|? k]; [discriminate|]). destruct k; [|discriminate]. split; [reflexivity|].
  rewrite Forall_forall in *. intros x Hx. apply F. cbn in *. tauto.
Qed.
Lemma first16_inj k k' : List.length k = 8%nat -> List.length k' = 8%nat -> first16 k = first16 k' -> k = k'.
Proof.
  intros L L'. do 8 (destruct k as [|? k]; [discriminate|]). destruct k; [|discriminate].
  do 8 (destruct k' as [|? k']; [discriminate|]). destruct k'; [|discriminate]. cbn. congruence.
Qed.
Lemma mixin_spec g g' n : geq g g' -> forall P Q k, tok P -> tok Q -> (k + n <= 512)%nat ->
  mixin g n P Q (N.of_nat k) = Some (fold_left (fun P j => wu_mix g' P Q j) (map N.of_nat (seq k n)) P).
Proof.
  intros E. induction n as [|n IH]; intros P Q k HP HQ H; [reflexivity|]. cbn [mixin seq map fold_left].
  rewrite (rnd_ok g g' P Q (N.of_nat k) E (proj1 HP) (proj1 HQ)) by lia. destruct (wu_round_ok g' P Q (N.of_nat k) HP HQ) as [A B]. unfold wu_mix at 2.
  destruct (wu_round g' P Q (N.of_nat k)) as [P1 v]. cbn [fst snd] in *. replace (N.of_nat k + 1) with (N.of_nat (S k)) by lia.
  apply IH; [now apply tok_upd|exact HQ|lia].
Qed.
Lemma hf1_f1 x : hf1 x = f1 x.
Proof. unfold hf1, f1. rewrite !rotr_rotl by discriminate. reflexivity. Qed.
Lemma hf2_f2 x : hf2 x = f2 x.
Proof. unfold hf2, f2. rewrite !rotr_rotl by discriminate. reflexivity. Qed.
Definition sofar (W : N -> N) (n : nat) : list N := rev (map (fun j => W (N.of_nat j)) (seq 0 n)).
Lemma sofar_S W n : sofar W (S n) = W (N.of_nat n) :: sofar W n.
Proof. unfold sofar. rewrite seq_S, map_app, rev_app_distr. reflexivity. Qed.
Lemma sofar_length W n : List.length (sofar W n) = n.
Proof. unfold sofar. now rewrite rev_length, map_length, seq_length. Qed.
Lemma sofar_nth W n k : (k < n)%nat -> nth k (sofar W n) 0 = W (N.of_nat n - 1 - N.of_nat k).
Proof.
  revert k. induction n as [|n IH]; intros k H; [lia|]. rewrite sofar_S. destruct k as [|k]; cbn [nth]; [f_equal; lia|].
  rewrite IH by lia. f_equal. lia.
Qed.
Lemma wadd4 a b c d e : wadd 32 (wadd 32 (wadd 32 (wadd 32 a b) c) d) e = (a + b + c + d + e) mod 2 ^ 32.
Proof.
  unfold wadd. rewrite (N.add_mod_idemp_l (a + b) c), (N.add_mod_idemp_l (a + b + c) d), (N.add_mod_idemp_l (a + b + c + d) e) by discriminate. reflexivity.
Qed.
Lemma expand_spec K V W : wu_array K V W -> forall n k, (16 <= k)%nat -> (k + n <= 1280)%nat ->
  expand n (sofar W k) (N.of_nat k) = sofar W (k + n).
Proof.
  intros (_ & _ & H). induction n as [|n IH]; intros k L L'; cbn [expand]; [now rewrite Nat.add_0_r|].
  rewrite wadd4, !sofar_nth by lia. rewrite hf1_f1, hf2_f2.
  replace (N.of_nat k - 1 - N.of_nat 1) with (N.of_nat k - 2) by lia. replace (N.of_nat k - 1 - N.of_nat 6) with (N.of_nat k - 7) by lia.
  replace (N.of_nat k - 1 - N.of_nat 14) with (N.of_nat k - 15) by lia. replace (N.of_nat k - 1 - N.of_nat 15) with (N.of_nat k - 16) by lia.
  rewrite <- H by lia. rewrite <- sofar_S. replace (N.of_nat k + 1) with (N.of_nat (S k)) by lia. rewrite IH by lia. f_equal. lia.
Qed.
Lemma first16_spec k W : List.length k = 8%nat -> wu_array (fun i => tbl k i) (fun i => tbl k (4 + i)) W -> first16 k = sofar W 16.
Proof.
  intros L (H1 & H2 & _). do 8 (destruct k as [|? k]; [discriminate|]). destruct k; [|discriminate]. cbn [first16]. unfold sofar. f_equal. cbn [map seq].
  pose proof (H1 0 eq_refl) as E0. pose proof (H1 1 eq_refl) as E1. pose proof (H1 2 eq_refl) as E2. pose proof (H1 3 eq_refl) as E3.
  pose proof (H1 4 eq_refl) as E4. pose proof (H1 5 eq_refl) as E5. pose proof (H1 6 eq_refl) as E6. pose proof (H1 7 eq_refl) as E7.
  pose proof (H2 8 ltac:(lia)) as E8. pose proof (H2 9 ltac:(lia)) as E9. pose proof (H2 10 ltac:(lia)) as E10. pose proof (H2 11 ltac:(lia)) as E11.
  pose proof (H2 12 ltac:(lia)) as E12. pose proof (H2 13 ltac:(lia)) as E13. pose proof (H2 14 ltac:(lia)) as E14. pose proof (H2 15 ltac:(lia)) as E15.
  cbn -[N.of_nat] in *. 
  change (N.of_nat 0) with 0. change (N.of_nat 1) with 1. change (N.of_nat 2) with 2. change (N.of_nat 3) with 3. change (N.of_nat 4) with 4. change (N.of_nat 5) with 5.
  change (N.of_nat 6) with 6. change (N.of_nat 7) with 7. change (N.of_nat 8) with 8. change (N.of_nat 9) with 9. change (N.of_nat 10) with 10. change (N.of_nat 11) with 11.
  change (N.of_nat 12) with 12. change (N.of_nat 13) with 13. change (N.of_nat 14) with 14. change (N.of_nat 15) with 15.
  rewrite E0, E1, E2, E3, E4, E5, E6, E7, E8, E9, E10, E11, E12, E13, E14, E15. reflexivity.
Qed.
Lemma skipn_sofar W n k : skipn k (sofar W (k + n)) = sofar W n.
Proof. induction k as [|k IH]; [reflexivity|]. cbn [Nat.add]. rewrite sofar_S. exact IH. Qed.
Lemma firstn_sofar W n k : rev (firstn k (sofar W (n + k))) = map (fun j => W (N.of_nat n + N.of_nat j)) (seq 0 k).
Proof.
  unfold sofar. replace (firstn k (rev _)) with (rev (map (fun j => W (N.of_nat j)) (seq n k))).
  - rewrite rev_involutive. rewrite <- (Nat.add_0_r n) at 1. generalize 0%nat at 1 2. revert n. induction k as [|k IH]; intros n m; [reflexivity|]. cbn [seq map]. f_equal; [f_equal; lia|]. rewrite <- IH. do 2 f_equal. lia.
  - rewrite seq_app, map_app, rev_app_distr. cbn [Nat.add]. rewrite firstn_app, rev_length, map_length, seq_length, Nat.sub_diag. cbn [firstn]. rewrite app_nil_r.
    rewrite firstn_all2; [reflexivity|]. now rewrite rev_length, map_length, seq_length.
Qed.
(* for every key there is such an array *)
Lemma expand_app n m : forall w i, expand (n + m) w i = expand m (expand n w i) (i + N.of_nat n).
Proof.
  induction n as [|n IH]; intros w i; cbn [expand Nat.add]; [now rewrite N.add_0_r|]. rewrite IH. f_equal. lia.
Qed.
Lemma expand_nth m : forall w i k, nth (m + k) (expand m w i) 0 = nth k w 0.
Proof. induction m as [|m IH]; intros w i k; [reflexivity|]. cbn [expand]. replace (S m + k)%nat with (m + S k)%nat by lia. rewrite IH. reflexivity. Qed.
Definition wu_arr (k : list N) (i : N) : N := nth (1279 - N.to_nat i)%nat (expand 1264 (first16 k) 16) 0.
Lemma wu_arr_ok k : List.length k = 8%nat -> wu_array (fun i => tbl k i) (fun i => tbl k (4 + i)) (wu_arr k).
Proof.
  intros L. assert (H16 : forall i, i < 16 -> wu_arr k i = nth (15 - N.to_nat i)%nat (first16 k) 0).
  { intros i Hi. unfold wu_arr. replace (1279 - N.to_nat i)%nat with (1264 + (15 - N.to_nat i))%nat by lia. apply expand_nth. }
  split; [|split].
  - intros i Hi. rewrite H16 by lia. do 8 (destruct k as [|? k]; [discriminate|]). destruct k; [|discriminate]. unfold tbl.
    assert (C : i = 0 \/ i = 1 \/ i = 2 \/ i = 3 \/ i = 4 \/ i = 5 \/ i = 6 \/ i = 7) by lia. repeat destruct C as [->|C]; [reflexivity..|]. subst i. reflexivity.
  - intros i Hi. rewrite H16 by lia. do 8 (destruct k as [|? k]; [discriminate|]). destruct k; [|discriminate]. unfold tbl.
    assert (C : i = 8 \/ i = 9 \/ i = 10 \/ i = 11 \/ i = 12 \/ i = 13 \/ i = 14 \/ i = 15) by lia. repeat destruct C as [->|C]; [reflexivity..|]. subst i. reflexivity.
  - intros i Hi. set (j := N.to_nat (i - 16)).
    assert (E : expand 1264 (first16 k) 16 = expand (1263 - j) (expand 1 (expand j (first16 k) 16) i) (i + 1)).
    { replace 1264%nat with (j + (1 + (1263 - j)))%nat by lia. rewrite expand_app, (expand_app 1). f_equal; [f_equal; lia|lia]. }
    unfold wu_arr. rewrite E.
    replace (1279 - N.to_nat i)%nat with (1263 - j + 0)%nat by lia. replace (1279 - N.to_nat (i - 2))%nat with (1263 - j + 2)%nat by lia.
    replace (1279 - N.to_nat (i - 7))%nat with (1263 - j + 7)%nat by lia. replace (1279 - N.to_nat (i - 15))%nat with (1263 - j + 15)%nat by lia.
    replace (1279 - N.to_nat (i - 16))%nat with (1263 - j + 16)%nat by lia. rewrite !expand_nth. generalize (expand j (first16 k) 16). intros w.
    cbn [expand]. change (nth 0 (?x :: w) 0) with x. change (nth 2 (?x :: w) 0) with (nth 1 w 0). change (nth 7 (?x :: w) 0) with (nth 6 w 0).
    change (nth 15 (?x :: w) 0) with (nth 14 w 0). change (nth 16 (?x :: w) 0) with (nth 15 w 0). rewrite wadd4, hf1_f1, hf2_f2. reflexivity.
Qed.
Lemma wu_arr_wf k i : List.length k = 8%nat -> Forall (wf 32) k -> wf 32 (wu_arr k i).
Proof.
  intros L F. destruct (first16_ok k L F) as [L1 F1]. destruct (expand_ok 1264 (first16 k) 16 F1) as [F2 L2]. unfold wu_arr. rewrite Forall_forall in F2. apply F2, nth_In.
  rewrite L2, L1. lia.
Qed.
Lemma wu_array_unique k W : List.length k = 8%nat -> wu_array (fun i => tbl k i) (fun i => tbl k (4 + i)) W -> forall i, i < 1280 -> W i = wu_arr k i.
Proof.
  intros L H. assert (E : expand 1264 (first16 k) 16 = sofar W 1280).
  { rewrite (first16_spec k W L H). change 16 with (N.of_nat 16). rewrite (expand_spec _ _ W H) by lia. reflexivity. }
  intros i Hi. unfold wu_arr. rewrite E, sofar_nth by lia. f_equal. lia.
Qed.
Lemma tok_W W n : (forall i, i < 1280 -> wf 32 (W i)) -> n + 512 <= 1280 -> tok (map (fun j => W (n + j)) upto512).
Proof.
  intros H L. unfold upto512. split; [now rewrite !map_length, seq_length|]. apply Forall_forall. intros x Hx. apply in_map_iff in Hx as (j & <- & Hj).
  apply in_map_iff in Hj as (m & <- & Hm). apply in_seq in Hm. apply H. lia.
Qed.
Lemma hc_init_spec k s W : List.length k = 8%nat -> Forall (wf 32) k -> wu_array (fun i => tbl k i) (fun i => tbl k (4 + i)) W ->
  exists s', hc_init k s = Some s' /\ wu_of s' = wu_start W /\ tok (hc_p s') /\ tok (hc_q s') /\ hc_idx s' = 0%Z /\ hc_buf s' = hc_buf s /\ hc_bidx s' = hc_bidx s.
Proof.
  intros L F H. assert (Ww : forall i, i < 1280 -> wf 32 (W i)) by (intros i Hi; rewrite (wu_array_unique k W L H i Hi); now apply wu_arr_wf).
  pose proof (tok_W W 256 Ww ltac:(lia)) as T1. pose proof (tok_W W 768 Ww ltac:(lia)) as T2.
  assert (E : expand 1264 (first16 k) 16 = sofar W 1280).
  { rewrite (first16_spec k W L H). change 16 with (N.of_nat 16). rewrite (expand_spec _ _ W H) by lia. reflexivity. }
  assert (EP : rev (firstn 512 (skipn 512 (expand 1264 (first16 k) 16))) = map (fun j => W (256 + j)) upto512).
  { rewrite E. change 1280%nat with (512 + (256 + 512))%nat. rewrite skipn_sofar, firstn_sofar. unfold upto512. rewrite map_map. reflexivity. }
  assert (EQ : rev (firstn 512 (expand 1264 (first16 k) 16)) = map (fun j => W (768 + j)) upto512).
  { rewrite E. change 1280%nat with (768 + 512)%nat. rewrite firstn_sofar. unfold upto512. rewrite map_map. reflexivity. }
  unfold hc_init. rewrite EP, EQ. clear E EP EQ. unfold wu_start. revert T1 T2. generalize (map (fun j => W (256 + j)) upto512), (map (fun j => W (768 + j)) upto512). intros P Q T1 T2.
  destruct (mixin_ok G1 g1 512 geq1 P Q 0 T1 T2 ltac:(lia)) as (P' & E1 & T1').
  pose proof (mixin_spec G1 g1 512 geq1 P Q 0 T1 T2 ltac:(lia)) as S1. change (N.of_nat 0) with 0 in S1. rewrite E1 in S1 |- *. change (map N.of_nat (seq 0 512)) with upto512 in S1.
  apply (f_equal (fun o => match o with Some x => x | None => [] end)) in S1. cbv beta iota in S1. rewrite <- S1. cbv zeta.
  destruct (mixin_ok G2 g2 512 geq2 Q P' 0 T2 T1' ltac:(lia)) as (Q' & E2 & T2').
  pose proof (mixin_spec G2 g2 512 geq2 Q P' 0 T2 T1' ltac:(lia)) as S2. change (N.of_nat 0) with 0 in S2. rewrite E2 in S2 |- *. change (map N.of_nat (seq 0 512)) with upto512 in S2.
  apply (f_equal (fun o => match o with Some x => x | None => [] end)) in S2. cbv beta iota in S2. rewrite <- S2.
  eexists. split; [reflexivity|]. cbn [hc_p hc_q hc_buf hc_idx hc_bidx]. unfold wu_of. cbn [hc_p hc_q hc_idx]. refine (conj eq_refl (conj T1' (conj T2' (conj eq_refl (conj eq_refl eq_refl))))).
Qed.
(* different keys: different tables *)
Lemma some_hc s t : Some s = Some t -> hc_p s = hc_p t /\ hc_q s = hc_q t. Proof. now intros [= ->]. Qed.
Lemma rev_firstn_eq (l m : list N) n : rev (firstn n l) = rev (firstn n m) -> firstn n l = firstn n m.
Proof. intros H. apply (f_equal (@rev N)) in H. now rewrite !rev_involutive in H. Qed.
Lemma hc_init_inj k k' s s' t t' : List.length k = 8%nat -> Forall (wf 32) k -> List.length k' = 8%nat -> Forall (wf 32) k' ->
  hc_init k s = Some t -> hc_init k' s' = Some t' -> hc_p t = hc_p t' -> hc_q t = hc_q t' -> k = k'.
Proof.
  intros L F L' F'. destruct (first16_ok k L F) as [L1 F1]. destruct (first16_ok k' L' F') as [L1' F1'].
  destruct (expand_ok 1264 (first16 k) 16 F1) as [F2 L2]. destruct (expand_ok 1264 (first16 k') 16 F1') as [F2' L2'].
  pose proof (expand_inj 1264 (first16 k) (first16 k') 16 F1 F1' ltac:(lia) ltac:(lia)) as I.
  unfold hc_init. revert F2 L2 F2' L2' I. generalize (expand 1264 (first16 k) 16), (expand 1264 (first16 k') 16). intros w w' F2 L2 F2' L2' I. cbv zeta.
  assert (TF : forall l : list N, Forall (wf 32) l -> (512 <= List.length l)%nat -> tok (rev (firstn 512 l))).
  { intros l Fl Ll. split; [rewrite rev_length, firstn_length; lia|]. apply Forall_rev. rewrite Forall_forall in *. intros x Hx. apply Fl. rewrite <- (firstn_skipn 512 l). apply in_or_app. now left. }
  assert (SF : forall l : list N, Forall (wf 32) l -> Forall (wf 32) (skipn 512 l)).
  { intros l Fl. rewrite Forall_forall in *. intros x Hx. apply Fl. rewrite <- (firstn_skipn 512 l). apply in_or_app. now right. }
  rewrite L1 in L2. rewrite L1' in L2'.
  pose proof (TF _ (SF w F2) ltac:(rewrite skipn_length; lia)) as TP. pose proof (TF _ (SF w' F2') ltac:(rewrite skipn_length; lia)) as TP'.
  pose proof (TF w F2 ltac:(lia)) as TQ. pose proof (TF w' F2' ltac:(lia)) as TQ'. pose proof (rev_firstn_eq w w' 512) as RQ.
  revert TP TP' TQ TQ' RQ. generalize (rev (firstn 512 (skipn 512 w))), (rev (firstn 512 (skipn 512 w'))), (rev (firstn 512 w)), (rev (firstn 512 w')). intros P P' Q Q' TP TP' TQ TQ' RQ.
  destruct (mixin_ok G1 g1 512 geq1 P Q 0 TP TQ ltac:(lia)) as (P1 & E1 & T1). destruct (mixin_ok G1 g1 512 geq1 P' Q' 0 TP' TQ' ltac:(lia)) as (P1' & E1' & T1').
  rewrite E1, E1'. destruct (mixin_ok G2 g2 512 geq2 Q P1 0 TQ T1 ltac:(lia)) as (Q1 & E2 & T2). destruct (mixin_ok G2 g2 512 geq2 Q' P1' 0 TQ' T1' ltac:(lia)) as (Q1' & E2' & T2').
  rewrite E2, E2'. intros A A'. apply some_hc in A as [<- <-]. apply some_hc in A' as [<- <-]. cbn [hc_p hc_q]. intros <- <-.
  assert (EQ : Q = Q') by (apply (mixin_inj G2 g2 512 geq2 Q Q' P1 0 TQ TQ' T1 ltac:(lia)); congruence).
  apply first16_inj; [exact L|exact L'|]. rewrite <- (firstn_all2 (n := 16) (first16 k)), <- (firstn_all2 (n := 16) (first16 k')) by lia. apply I.
  rewrite <- (Nat.min_l 16 512) by lia. rewrite <- !firstn_firstn. f_equal. apply RQ. exact EQ.
Qed.
(* ------------------------------------------- any state the setter accepts *)
Lemma rounds_mask_ok k : forall P Q i, tok P -> tok Q -> exists Q' vs, rounds G2 true k Q P i = Some (Q', vs) /\ tok Q' /\ List.length vs = k.
Proof.
  induction k as [|k IH]; intros P Q i HP HQ; cbn [rounds]; [now exists Q, []|].
  rewrite (rnd_ok G2 g2 _ _ _ geq2 (proj1 HQ) (proj1 HP)) by apply m512_lt. pose proof (wu_round_ok g2 Q P (m512 i) HQ HP) as W. destruct (wu_round g2 Q P (m512 i)) as [Q1 v].
  destruct (IH P Q1 (i + 1) HP (proj1 W)) as (Q2 & vs & E & T & L). rewrite E. exists Q2, (v :: vs). split; [reflexivity|]. split; [exact T|]. cbn. now rewrite L.
Qed.
Lemma rounds_oob k : forall P Q i, tok P -> tok Q -> i <= 512 -> 512 < i + N.of_nat k -> i + N.of_nat k < 65536 -> rounds G1 false k P Q i = None.
Proof.
  induction k as [|k IH]; intros P Q i HP HQ H1 H2 H3; [lia|]. cbn [rounds].
  assert (E : trunc 16 i = i) by (apply trunc_small; unfold wf; change (2 ^ 16) with 65536; lia). rewrite E.
  destruct (N.eq_dec i 512) as [->|D]; [now rewrite (rnd_oob G1 P Q 512 (proj1 HP) ltac:(discriminate))|].
  rewrite (rnd_ok G1 g1 _ _ _ geq1 (proj1 HP) (proj1 HQ)) by lia. pose proof (wu_round_ok g1 P Q i HP HQ) as W. destruct (wu_round g1 P Q i) as [P1 v].
  rewrite (IH P1 Q (i + 1) (proj1 W) HQ) by lia. reflexivity.
Qed.
Definition hc_sized (s : hc) : Prop := tok (hc_p s) /\ tok (hc_q s) /\ List.length (hc_buf s) = 16%nat.
Lemma hc_extract_safe s : hc_sized s -> (exists s', hc_extract s = Some s' /\ hc_bidx s' = 0%Z /\ List.length (hc_buf s') = 16%nat) <-> ~ (497 <= hc_idx s mod 65536 <= 511)%Z.
Proof.
  intros (HP & HQ & L). unfold hc_extract. change (2 ^ 16)%Z with 65536%Z. pose proof (Z.mod_pos_bound (hc_idx s) 65536 ltac:(lia)) as B.
  set (i := Z.to_N (hc_idx s mod 65536)). assert (Ei : Z.of_N i = (hc_idx s mod 65536)%Z) by (unfold i; lia). revert B. rewrite <- Ei. clearbody i. clear Ei. intros B.
  destruct (N.ltb_spec i 512) as [C|C].
  - destruct (N.leb_spec (i + 16) 512) as [D|D].
    + destruct (rounds1 16 (hc_p s) (hc_q s) i HP HQ D) as (A1 & _). rewrite A1. split; [lia|]. intros _. eexists. split; [reflexivity|]. cbn [hc_bidx hc_buf]. split; [reflexivity|]. apply raws_length.
    + rewrite (rounds_oob 16 (hc_p s) (hc_q s) i HP HQ) by lia. split; [intros (s' & E & _); discriminate|]. intros X. exfalso. apply X. lia.
  - destruct (rounds_mask_ok 16 (hc_p s) (hc_q s) i HP HQ) as (Q' & vs & E & T & Lv). rewrite E. split; [lia|]. intros _. eexists. split; [reflexivity|]. split; [reflexivity|exact Lv].
Qed.
Lemma hc_next32_safe s : hc_sized s ->
  hc_next32 s <> None <-> (if Z.rem (hc_bidx s) 16 =? 0 then ~ (497 <= hc_idx s mod 65536 <= 511) else 0 <= hc_bidx s < 16)%Z.
Proof.
  intros H. unfold hc_next32. destruct (Z.rem (hc_bidx s) 16 =? 0)%Z.
  - rewrite <- (hc_extract_safe s H). split.
    + intros X. destruct (hc_extract s) as [s'|] eqn:E; [|congruence]. exists s'. split; [reflexivity|].
      unfold hc_extract in E. destruct (_ <? 512).
      * destruct (rounds G1 _ _ _ _ _) as [[p b]|] eqn:R; [|discriminate]. injection E as <-. cbn [hc_bidx hc_buf] in *. split; [reflexivity|].
        clear - R. revert R. generalize 16%nat at 1 2 as k. intros k. generalize (hc_p s), (Z.to_N (hc_idx s mod 2 ^ 16)). revert p b. induction k as [|k IH]; intros p b P i R; cbn [rounds] in R; [now injection R as _ <-|].
        destruct (rnd _ _ _ _) as [[p1 v]|]; [|discriminate]. destruct (rounds G1 false k p1 (hc_q s) (i + 1)) as [[p2 vs]|] eqn:R2; [|discriminate]. injection R as _ <-. cbn. f_equal. exact (IH _ _ _ _ R2).
      * destruct (rounds_mask_ok 16 (hc_p s) (hc_q s) (Z.to_N (hc_idx s mod 2 ^ 16)) (proj1 H) (proj1 (proj2 H))) as (Q' & vs & E' & _ & Lv). rewrite E' in E. injection E as <-. split; [reflexivity|exact Lv].
    + intros (s' & -> & B & L). rewrite B, (rd_nth _ _ 0) by (rewrite L; lia). discriminate.
  - destruct H as (_ & _ & L). split.
    + intros X. destruct (Z.ltb_spec (hc_bidx s) 0) as [A|A]; [exfalso; apply X; now rewrite rd_none by lia|]. split; [exact A|].
      destruct (Z.ltb_spec (hc_bidx s) 16) as [A'|A']; [exact A'|exfalso; apply X; now rewrite rd_none by (rewrite L; lia)].
    + intros B. rewrite (rd_nth _ _ 0) by (rewrite L; lia). discriminate.
Qed.
(* --------------------------------------------------------------- setter *)
Definition cint_ok (z : Z) : Prop := (- 2 ^ 31 <= z < 2 ^ 31)%Z.
Lemma to_cint_ok z : cint_ok z -> to_cint (PInt z) = Ok z.
Proof. intros [A B]. unfold to_cint. replace ((- 2 ^ 31 <=? z)%Z && (z <? 2 ^ 31)%Z)%bool with true; [reflexivity|]. symmetry. apply andb_true_iff. split; [now apply Z.leb_le|now apply Z.ltb_lt]. Qed.
Lemma hc_set_get s t : tok (hc_p s) -> tok (hc_q s) -> List.length (hc_buf s) = 16%nat -> Forall (wf 32) (hc_buf s) -> cint_ok (hc_idx s) -> cint_ok (hc_bidx s) ->
  hc_set (hc_get s) t = (s, Ok tt).
Proof.
  destruct s as [p q b i j], t as [p' q' b' i' j']. cbn [hc_p hc_q hc_buf hc_idx hc_bidx]. intros [L1 F1] [L2 F2] L3 F3 Hi Hj.
  assert (M1 : N.of_nat (List.length p) = 512) by now rewrite L1. assert (M2 : N.of_nat (List.length q) = 512) by now rewrite L2. assert (M3 : N.of_nat (List.length b) = 16) by now rewrite L3.
  unfold hc_set, hc_get. cbn [hc_p hc_q hc_buf hc_idx hc_bidx].
  do 8 (repeat (rewrite bind_lift; cbn; rewrite ?check_arr_ok, ?to_cint_ok by assumption); try (rewrite bind_modify; cbn [hc_p hc_q hc_buf hc_idx hc_bidx])).
  reflexivity.
Qed.
(* -------------------------------------------------- consequences for draws *)
Lemma raws_prefix {A} (f : A -> A * N) m n s : (n <= m)%nat -> firstn n (snd (raws f m s)) = snd (raws f n s).
Proof.
  intros H. replace m with (n + (m - n))%nat by lia. rewrite raws_app. cbn [snd]. rewrite firstn_app, raws_length, Nat.sub_diag. cbn [firstn]. rewrite app_nil_r. apply firstn_all2. now rewrite raws_length.
Qed.
Lemma hc_draws_fresh n s : hc_ok s -> unread s = [] -> exists s', hc_draws n s = Some (s', snd (raws wu_next n (wu_of s))) /\ hc_ok s'.
Proof.
  intros H U. destruct (hc_draws_spec n s H) as (s' & vs & b & E & O & L & _ & Q & _). rewrite U in Q. cbn [app] in Q.
  exists s'. split; [|exact O]. rewrite E. do 2 f_equal. rewrite <- (raws_prefix wu_next (16 * b) n).
  - rewrite Q, firstn_app, L, Nat.sub_diag. cbn [firstn]. rewrite app_nil_r. symmetry. apply firstn_all2. lia.
  - rewrite <- (raws_length wu_next (16 * b) (wu_of s)), Q, app_length. lia.
Qed.
Lemma hc_draws_app m n s : hc_draws (m + n) s =
  match hc_draws m s with
  | None => None
  | Some (s1, vs) => match hc_draws n s1 with None => None | Some (s2, ws) => Some (s2, (vs ++ ws)%list) end
  end.
Proof.
  revert s. induction m as [|m IH]; intros s; cbn [hc_draws Nat.add]; [destruct (hc_draws n s) as [[? ?]|]; reflexivity|].
  destruct (hc_next32 s) as [[s1 v]|]; [|reflexivity]. rewrite IH. destruct (hc_draws m s1) as [[s2 vs]|]; [|reflexivity]. destruct (hc_draws n s2) as [[? ?]|]; reflexivity.
Qed.
Lemma raws_fst {A} (f : A -> A * N) k : forall s, fst (raws f k s) = N.iter (N.of_nat k) (cstep f) s.
Proof.
  induction k as [|k IH]; intros s; [reflexivity|]. cbn [raws]. rewrite Nat2N.inj_succ, <- N.add_1_l, Niter_add. change (N.iter 1 (cstep f) s) with (cstep f s). unfold cstep at 2.
  destruct (f s) as [a v]. cbn [fst]. rewrite <- IH. now destruct (raws f k a).
Qed.
Lemma hc_next32_bidx s s' v : hc_next32 s = Some (s', v) -> hc_bidx s' = if (Z.rem (hc_bidx s) 16 =? 0)%Z then 1%Z else (hc_bidx s + 1)%Z.
Proof.
  unfold hc_next32. destruct (_ =? 0)%Z.
  - destruct (hc_extract s) as [s1|] eqn:E; [|discriminate]. assert (B : hc_bidx s1 = 0%Z).
    { unfold hc_extract in E. destruct (_ <? 512); destruct (rounds _ _ _ _ _ _) as [[? ?]|]; try discriminate; injection E as <-; reflexivity. }
    destruct (rd _ _); [|discriminate]. intros [= <- _]. cbn [hc_bidx]. rewrite B. reflexivity.
  - destruct (rd _ _); [|discriminate]. intros [= <- _]. reflexivity.
Qed.
Lemma hc_next32_inj s t s' t' v w : hc_ok s -> hc_ok t -> hc_bidx s = hc_bidx t -> hc_next32 s = Some (s', v) -> hc_next32 t = Some (t', w) ->
  hc_bidx s' = hc_bidx t' /\ (wu_of s' = wu_of t' -> wu_of s = wu_of t).
Proof.
  intros Hs Ht B E F. rewrite (hc_next32_bidx _ _ _ E), (hc_next32_bidx _ _ _ F), B. split; [reflexivity|].
  assert (U : unread s = [] <-> unread t = []).
  { unfold unread. rewrite B. destruct (_ =? 0)%Z eqn:R; [tauto|]. rewrite rem16 in R by apply Ht.
    assert (X : forall l : list N, List.length l = 16%nat -> skipn (Z.to_nat (hc_bidx t)) l <> []).
    { intros l L Q. apply (f_equal (@List.length N)) in Q. rewrite skipn_length, L in Q. change (List.length (@nil N)) with 0%nat in Q. destruct Ht as (_ & _ & _ & _ & _ & _ & Ht). lia. }
    split; intros Q; exfalso; revert Q; apply X; [apply Hs|apply Ht]. }
  destruct (hc_next32_spec s Hs) as (s1 & v1 & E1 & _ & _ & C1). destruct (hc_next32_spec t Ht) as (t1 & w1 & F1 & _ & _ & C2).
  rewrite E in E1. rewrite F in F1. assert (s1 = s') by congruence. assert (t1 = t') by congruence. subst s1 t1. clear E1 F1.
  destruct C1 as [[U1 W1]|(U1 & _ & W1)], C2 as [[U2 W2]|(U2 & _ & W2)].
  - congruence.
  - apply U in U2. congruence.
  - apply U in U1. congruence.
  - rewrite W1, W2, !raws_fst. intros Q. exact (wu_iter_inj _ _ _ (wu_of_ok s Hs) (wu_of_ok t Ht) Q).
Qed.
Lemma hc_draws_inj n : forall s t s' t' vs ws, hc_ok s -> hc_ok t -> hc_bidx s = hc_bidx t -> hc_draws n s = Some (s', vs) -> hc_draws n t = Some (t', ws) ->
  wu_of s' = wu_of t' -> wu_of s = wu_of t.
Proof.
  induction n as [|n IH]; intros s t s' t' vs ws Hs Ht B E F; cbn [hc_draws] in E, F; [now injection E as -> _; injection F as -> _|].
  destruct (hc_next32_spec s Hs) as (s1 & v1 & E1 & O1 & _). destruct (hc_next32_spec t Ht) as (t1 & w1 & F1 & O2 & _). rewrite E1 in E. rewrite F1 in F.
  destruct (hc_draws n s1) as [[s2 vs2]|] eqn:E2; [|discriminate]. destruct (hc_draws n t1) as [[t2 ws2]|] eqn:F2; [|discriminate]. injection E as -> _. injection F as -> _.
  destruct (hc_next32_inj s t s1 t1 v1 w1 Hs Ht B E1 F1) as [B1 I]. intros Q. apply I. exact (IH s1 t1 s' t' vs2 ws2 O1 O2 B1 E2 F2 Q).
Qed.
(* seeding *)
Lemma key_words key : List.length (to_words 32 8 key) = 8%nat /\ Forall (wf 32) (to_words 32 8 key).
Proof. split; [apply to_words_length|apply to_words_wf]. Qed.
Lemma hc_seed_spec key s : 
  exists s', hc_seed key s = Some s' /\ wu_of s' = wu_start (wu_arr (to_words 32 8 key)) /\ tok (hc_p s') /\ tok (hc_q s') /\ hc_idx s' = 0%Z /\ hc_buf s' = hc_buf s /\ hc_bidx s' = hc_bidx s.
Proof. destruct (key_words key) as [L F]. apply hc_init_spec; [exact L|exact F|]. now apply wu_arr_ok. Qed.
Definition buf_ok (s : hc) : Prop := List.length (hc_buf s) = 16%nat /\ Forall (wf 32) (hc_buf s) /\ (0 <= hc_bidx s <= 16)%Z.
Lemma hc_seed_ok key s s' : buf_ok s -> hc_seed key s = Some s' -> hc_ok s'.
Proof.
  intros (L & F & B) E. destruct (hc_seed_spec key s) as (s1 & E1 & _ & P & Q & I & U & V). rewrite E in E1. injection E1 as <-.
  refine (conj P (conj Q _)). rewrite I, U, V. refine (conj L (conj F (conj _ (conj eq_refl B)))). lia.
Qed.
