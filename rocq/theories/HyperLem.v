(* Lemmas about hypergeometric_sample and random_multinomial of Bounded.v *)
From Verif Require Import Word Bounded.
From Coq Require Import ZifyBool ZifyNat ZifyN.
Ltac Zify.zify_post_hook ::= idtac.
Open Scope Z_scope.

(* binomial coefficients and factorials *)
Fixpoint choose (n k : nat) : Z :=
  match n, k with
  | _, O => 1
  | O, S _ => 0
  | S n, S k => choose n k + choose n (S k)
  end.
Fixpoint fac (n : nat) : Z := match n with O => 1 | S m => Z.of_nat n * fac m end.
Lemma choose_0 n : choose n 0 = 1.
Proof. now destruct n. Qed.
Lemma choose_absorb n : forall k, Z.of_nat (S n) * choose n k = Z.of_nat (S k) * choose (S n) (S k).
Proof.
  induction n as [|n IH]; intros k.
  - destruct k as [|k]; [reflexivity|]. cbn [choose]. lia.
  - destruct k as [|k].
    + cbn [choose]. rewrite !choose_0. specialize (IH 0%nat). cbn [choose] in IH. rewrite !choose_0 in IH. lia.
    + pose proof (IH k) as A. pose proof (IH (S k)) as B. cbn [choose] in *. lia.
Qed.
Lemma choose_small n : forall k, (n < k)%nat -> choose n k = 0.
Proof. induction n as [|n IH]; intros [|k] H; try lia; [reflexivity|]. cbn [choose]. rewrite !IH by lia. reflexivity. Qed.
Lemma choose_n n : choose n n = 1.
Proof. induction n as [|n IH]; [reflexivity|]. cbn [choose]. rewrite IH, choose_small by lia. reflexivity. Qed.
Lemma choose_sym a : forall b, choose (a + b) a = choose (a + b) b.
Proof.
  induction a as [|a IH]; intros b; [cbn [Nat.add]; now rewrite choose_0, choose_n|].
  induction b as [|b IHb]; [now rewrite Nat.add_0_r, choose_0, choose_n|].
  cbn [Nat.add choose]. replace (a + S b)%nat with (S a + b)%nat in * by lia. rewrite IHb. pose proof (IH (S b)) as E. replace (a + S b)%nat with (S a + b)%nat in E by lia. lia.
Qed.

(* the integers below n, and every sequence x0, x1, … of c integers with x(i) below t - i *)
Fixpoint below (n : nat) : list Z := match n with O => [] | S n => below n ++ [Z.of_nat n] end.
Fixpoint draws (c t : nat) : list (list Z) := match c with O => [[]] | S c => flat_map (fun x => map (cons x) (draws c (pred t))) (below t) end.
Definition count {A} (p : A -> bool) (l : list A) : Z := Z.of_nat (length (filter p l)).
Lemma count_app {A} (p : A -> bool) l m : count p (l ++ m) = count p l + count p m.
Proof. unfold count. rewrite filter_app, app_length. lia. Qed.
Lemma count_map {A B} (f : A -> B) p l : count p (map f l) = count (fun x => p (f x)) l.
Proof. unfold count. f_equal. induction l as [|a l IH]; cbn [map filter]; [reflexivity|]. destruct (p (f a)); cbn [length]; now rewrite IH. Qed.
Lemma count_ext {A} (p q : A -> bool) l : (forall x, In x l -> p x = q x) -> count p l = count q l.
Proof. intros H. unfold count. do 2 f_equal. now apply filter_ext_in. Qed.
Lemma in_below n x : In x (below n) <-> 0 <= x < Z.of_nat n.
Proof. induction n as [|n IH]; cbn [below]; [cbn; lia|]. rewrite in_app_iff, IH. cbn [In]. lia. Qed.
Lemma count_below {A} (p : A -> bool) (f : Z -> list A) a n (cl ch : Z) : (a <= n)%nat ->
  (forall x, 0 <= x < Z.of_nat a -> count p (f x) = cl) -> (forall x, Z.of_nat a <= x < Z.of_nat n -> count p (f x) = ch) ->
  count p (flat_map f (below n)) = Z.of_nat a * cl + Z.of_nat (n - a) * ch.
Proof.
  intros H L. revert H. induction n as [|n IH]; intros H Hh.
  - replace a with 0%nat by lia. cbn. lia.
  - cbn [below]. rewrite flat_map_app, count_app. cbn [flat_map]. rewrite app_nil_r. destruct (Nat.eq_dec a (S n)) as [E|E].
    + assert (G : forall m, (m <= a)%nat -> count p (flat_map f (below m)) = Z.of_nat m * cl).
      { clear - L. induction m as [|m IH]; intros H; [reflexivity|]. cbn [below]. rewrite flat_map_app, count_app. cbn [flat_map]. rewrite app_nil_r, IH, L by lia. lia. }
      rewrite G, L by lia. subst a. replace (S n - S n)%nat with 0%nat by lia. lia.
    + rewrite IH by (try lia; intros; apply Hh; lia). rewrite Hh by lia. replace (Z.of_nat (S n - a)) with (Z.of_nat (n - a) + 1) by lia. lia.
Qed.
Lemma draws_length c : forall t, (c <= t)%nat -> Z.of_nat (length (draws c t)) * fac (t - c) = fac t.
Proof.
  induction c as [|c IH]; intros t H; [cbn [draws length]; rewrite Nat.sub_0_r; lia|]. destruct t as [|t]; [lia|]. cbn [draws pred].
  assert (E : forall n, Z.of_nat (length (flat_map (fun x => map (cons x) (draws c t)) (below n))) = Z.of_nat n * Z.of_nat (length (draws c t))).
  { induction n as [|n IHn]; [reflexivity|]. cbn [below]. rewrite flat_map_app, app_length. cbn [flat_map]. rewrite app_nil_r, map_length. lia. }
  rewrite E. change (fac (S t)) with (Z.of_nat (S t) * fac t). rewrite <- (IH t) by lia. replace (S t - S c)%nat with (t - c)%nat by lia. lia.
Qed.

(* how many good ones the loop takes *)
Definition taken (r : list Z) (c : nat) (g t : Z) : option Z :=
  match hyper_loop r c g t with
  | None => None
  | Some (c', g', t') => Some (g - (if t' =? g' then g' - Z.of_nat c' else g'))
  end.
Definition is_some_z (k : Z) (o : option Z) : bool := match o with Some v => v =? k | None => false end.
Lemma loop_eq r c g t : hyper_loop r c g t =
  if (0 <? c)%nat && (0 <? g) && (g <? t) then
    match r, c with x :: r, S c => hyper_loop r c (if x <? g then g - 1 else g) (t - 1) | _, _ => None end
  else Some (c, g, t).
Proof. destruct r; reflexivity. Qed.
Lemma loop_stop r c g t : (0 <? c)%nat && (0 <? g) && (g <? t) = false -> hyper_loop r c g t = Some (c, g, t).
Proof. intros H. rewrite loop_eq, H. reflexivity. Qed.
Lemma loop_go x r c g t : 0 < g -> g < t -> hyper_loop (x :: r) (S c) g t = hyper_loop r c (if x <? g then g - 1 else g) (t - 1).
Proof. intros G T. rewrite loop_eq. replace (0 <? S c)%nat with true by lia. replace (0 <? g) with true by lia. replace (g <? t) with true by lia. reflexivity. Qed.
Lemma taken_go x r c g t : 0 < g -> g < t -> taken (x :: r) (S c) g t = option_map (fun v => (if x <? g then 1 else 0) + v) (taken r c (if x <? g then g - 1 else g) (t - 1)).
Proof.
  intros G T. unfold taken. rewrite loop_go by assumption. destruct (hyper_loop r c _ _) as [[[c' g'] t']|]; [|reflexivity]. cbn [option_map]. f_equal. destruct (x <? g); lia.
Qed.
Lemma fac_choose t : forall c, (c <= t)%nat -> fac c * choose t c * fac (t - c) = fac t.
Proof.
  induction t as [|t IH]; intros [|c] H; try lia; [reflexivity| |].
  - rewrite choose_0, Nat.sub_0_r. cbn [fac]. lia.
  - pose proof (choose_absorb t c) as A. pose proof (IH c ltac:(lia)) as I. change (fac (S t)) with (Z.of_nat (S t) * fac t). change (fac (S c)) with (Z.of_nat (S c) * fac c). rewrite <- I. replace (S t - S c)%nat with (t - c)%nat by lia.
    replace (Z.of_nat (S c) * fac c * choose (S t) (S c) * fac (t - c)) with (Z.of_nat (S c) * choose (S t) (S c) * (fac c * fac (t - c))) by lia. rewrite <- A. lia.
Qed.
Lemma fac_pos n : 0 < fac n.
Proof. induction n as [|n IH]; cbn [fac]; lia. Qed.
Lemma draws_count c t : (c <= t)%nat -> Z.of_nat (length (draws c t)) = fac c * choose t c.
Proof. intros H. pose proof (draws_length c t H) as A. pose proof (fac_choose t c H) as B. pose proof (fac_pos (t - c)) as P. nia. Qed.
Lemma count_true {A} (l : list A) : count (fun _ => true) l = Z.of_nat (length l).
Proof. unfold count. f_equal. induction l as [|a l IH]; cbn [filter length]; now rewrite ?IH. Qed.
Lemma count_false {A} (l : list A) : count (fun _ => false) l = 0.
Proof. unfold count. now induction l. Qed.

(* the exact law of the loop *)
Lemma taken_law c : forall g t j, (g <= t)%nat -> (c <= t)%nat -> (j <= c)%nat ->
  count (fun r => is_some_z (Z.of_nat j) (taken r c (Z.of_nat g) (Z.of_nat t))) (draws c t) = fac c * choose g j * choose (t - g) (c - j).
Proof.
  induction c as [|c IH]; intros g t j G C J.
  - replace j with 0%nat by lia. cbn [draws fac]. rewrite !choose_0. unfold count. cbn [filter]. unfold taken. rewrite loop_stop by reflexivity. cbn [is_some_z].
    replace (Z.of_nat g - (if Z.of_nat t =? Z.of_nat g then Z.of_nat g - Z.of_nat 0 else Z.of_nat g) =? Z.of_nat 0) with true by (destruct (Z.of_nat t =? Z.of_nat g); lia). reflexivity.
  - destruct g as [|g].
    + (* no good ones *)
      rewrite (count_ext _ (fun _ => (j =? 0)%nat)).
      2:{ intros r _. unfold taken. rewrite loop_stop by (destruct (0 <? S c)%nat; reflexivity). cbn [is_some_z]. replace (Z.of_nat t =? Z.of_nat 0) with false by lia. lia. }
      rewrite Nat.sub_0_r. destruct j as [|j]; cbn [Nat.eqb]; [rewrite count_true, draws_count by lia; rewrite choose_0, Nat.sub_0_r; lia|rewrite count_false; cbn [choose]; lia].
    + destruct (Nat.eq_dec (S g) t) as [E|E].
      * (* only good ones *)
        rewrite (count_ext _ (fun _ => (j =? S c)%nat)).
        2:{ intros r _. unfold taken. rewrite loop_stop by (rewrite E, Z.ltb_irrefl, Bool.andb_false_r; reflexivity). cbn [is_some_z]. rewrite E, Z.eqb_refl. lia. }
        rewrite E. replace (t - t)%nat with 0%nat by lia. destruct (Nat.eq_dec j (S c)) as [->|N0].
        -- rewrite Nat.eqb_refl, count_true, draws_count by lia. rewrite Nat.sub_diag. cbn [choose]. lia.
        -- replace (j =? S c)%nat with false by lia. rewrite count_false. destruct (S c - j)%nat eqn:F; [lia|]. cbn [choose]. lia.
      * (* both kinds *)
        assert (Gt : Z.of_nat (S g) < Z.of_nat t) by lia. cbn [draws].
        set (p := fun r => is_some_z (Z.of_nat j) (taken r (S c) (Z.of_nat (S g)) (Z.of_nat t))).
        assert (Sh : forall v k o, is_some_z k (option_map (fun z => v + z) o) = is_some_z (k - v) o) by (intros v k [z|]; cbn [option_map is_some_z]; lia).
        rewrite (count_below p _ (S g) t (match j with O => 0 | S j => fac c * choose g j * choose (pred t - g) (c - j) end)
                   (if (j =? S c)%nat then 0 else fac c * choose (S g) j * choose (pred t - S g) (c - j))).
        -- assert (Pt : (pred t - g)%nat = (t - S g)%nat) by lia. rewrite Pt. destruct (t - S g)%nat as [|b] eqn:Eb; [lia|]. replace (pred t - S g)%nat with b by lia.
           change (fac (S c)) with (Z.of_nat (S c) * fac c).
           destruct j as [|j].
           ++ replace (0 =? S c)%nat with false by lia. rewrite !choose_0, !Nat.sub_0_r. pose proof (choose_absorb b c) as A.
              transitivity (fac c * (Z.of_nat (S b) * choose b c)); [lia|rewrite A; lia].
           ++ replace (S c - S j)%nat with (c - j)%nat by lia. pose proof (choose_absorb g j) as A1. destruct (Nat.eq_dec j c) as [->|Nj].
              ** rewrite Nat.eqb_refl, Nat.sub_diag, choose_0. transitivity (fac c * (Z.of_nat (S g) * choose g c)); [lia|rewrite A1; lia].
              ** replace (S j =? S c)%nat with false by lia. destruct (c - j)%nat as [|k] eqn:Ek; [lia|]. replace (c - S j)%nat with k by lia. pose proof (choose_absorb b k) as A2.
                 replace (Z.of_nat (S g) * (fac c * choose g j * choose (S b) (S k))) with (fac c * choose (S b) (S k) * (Z.of_nat (S g) * choose g j)) by lia. rewrite A1.
                 replace (Z.of_nat (S b) * (fac c * choose (S g) (S j) * choose b k)) with (fac c * choose (S g) (S j) * (Z.of_nat (S b) * choose b k)) by lia. rewrite A2.
                 replace (Z.of_nat (S c)) with (Z.of_nat (S j) + Z.of_nat (S k)) by lia. lia.
        -- lia.
        -- intros x X. rewrite count_map. unfold p.
           rewrite (count_ext _ (fun r => is_some_z (Z.of_nat j - 1) (taken r c (Z.of_nat g) (Z.of_nat (pred t))))).
           2:{ intros r _. rewrite taken_go by lia. rewrite Sh. replace (x <? Z.of_nat (S g)) with true by lia. do 2 f_equal; lia. }
           destruct j as [|j].
           ++ rewrite (count_ext _ (fun _ => false)); [apply count_false|]. intros r Hr.
              enough (H : forall c r g t, g <= t -> 0 <= g -> match taken r c g t with Some v => 0 <= v | None => True end).
              { specialize (H c r (Z.of_nat g) (Z.of_nat (pred t)) ltac:(lia) ltac:(lia)). destruct (taken r c _ _); cbn [is_some_z]; lia. }
              clear. induction c as [|c IH]; intros r g t T0 G0.
              ** unfold taken. rewrite loop_stop by reflexivity. destruct (t =? g); lia.
              ** destruct ((0 <? g) && (g <? t)) eqn:B; [|unfold taken; rewrite loop_stop by (rewrite <- Bool.andb_assoc, B; now destruct (0 <? S c)%nat); destruct (t =? g); lia].
                 destruct r as [|y r]; [unfold taken; rewrite loop_eq; replace ((0 <? S c)%nat && (0 <? g) && (g <? t)) with true by lia; exact I|].
                 rewrite taken_go by lia. specialize (IH r (if y <? g then g - 1 else g) (t - 1) ltac:(destruct (y <? g); lia) ltac:(destruct (y <? g); lia)).
                 destruct (taken r c _ _); cbn [option_map]; [destruct (y <? g); lia|exact I].
           ++ rewrite (count_ext _ (fun r => is_some_z (Z.of_nat j) (taken r c (Z.of_nat g) (Z.of_nat (pred t))))) by (intros r _; f_equal; lia). rewrite IH by lia. reflexivity.
        -- intros x X. rewrite count_map. unfold p.
           rewrite (count_ext _ (fun r => is_some_z (Z.of_nat j) (taken r c (Z.of_nat (S g)) (Z.of_nat (pred t))))).
           2:{ intros r _. rewrite taken_go by lia. rewrite Sh. replace (x <? Z.of_nat (S g)) with false by lia. do 2 f_equal; lia. }
           destruct (Nat.eq_dec j (S c)) as [->|Nj]; [|replace (j =? S c)%nat with false by lia; rewrite IH by lia; reflexivity].
           rewrite Nat.eqb_refl. rewrite (count_ext _ (fun _ => false)); [apply count_false|]. intros r Hr.
           enough (H : forall c r g t, match taken r c g t with Some v => v <= Z.of_nat c | None => True end).
           { specialize (H c r (Z.of_nat (S g)) (Z.of_nat (pred t))). destruct (taken r c _ _); cbn [is_some_z]; lia. }
           clear. induction c as [|c IH]; intros r g t.
           ++ unfold taken. rewrite loop_stop by reflexivity. destruct (t =? g); lia.
           ++ destruct ((0 <? g) && (g <? t)) eqn:B; [|unfold taken; rewrite loop_stop by (rewrite <- Bool.andb_assoc, B; now destruct (0 <? S c)%nat); destruct (t =? g); lia].
              destruct r as [|y r]; [unfold taken; rewrite loop_eq; replace ((0 <? S c)%nat && (0 <? g) && (g <? t)) with true by lia; exact I|].
              rewrite taken_go by lia. specialize (IH r (if y <? g then g - 1 else g) (t - 1)). destruct (taken r c _ _); cbn [option_map]; [destruct (y <? g); lia|exact I].
Qed.

(* the result of any one run *)
Lemma taken_bounds c : forall r g t, length r = c -> 0 <= g -> g <= t -> Z.of_nat c <= t -> exists v, taken r c g t = Some v /\ 0 <= v <= g /\ v <= Z.of_nat c /\ Z.of_nat c - v <= t - g.
Proof.
  induction c as [|c IH]; intros r g t L G T C.
  - exists 0. unfold taken. rewrite loop_stop by reflexivity. split; [f_equal; destruct (t =? g); lia|lia].
  - destruct ((0 <? g) && (g <? t)) eqn:B.
    + destruct r as [|y r]; [discriminate|]. rewrite taken_go by lia.
      destruct (IH r (if y <? g then g - 1 else g) (t - 1)) as (v & -> & V); [now injection L|destruct (y <? g); lia..|].
      cbn [option_map]. eexists. split; [reflexivity|]. destruct (y <? g); lia.
    + unfold taken. rewrite loop_stop by (rewrite <- Bool.andb_assoc, B; now destruct (0 <? S c)%nat). destruct (t =? g) eqn:E; eexists; (split; [reflexivity|lia]).
Qed.
Lemma hyper_taken r good bad sample :
  hypergeometric r good bad sample =
  option_map (fun v => if (good + bad) / 2 <? sample then good - v else v)
    (taken r (Z.to_nat (if (good + bad) / 2 <? sample then good + bad - sample else sample)) good (good + bad)).
Proof.
  unfold hypergeometric, taken. cbn zeta. destruct (hyper_loop _ _ _ _) as [[[c g] t]|]; [|reflexivity]. cbn [option_map]. f_equal. destruct ((good + bad) / 2 <? sample); lia.
Qed.

(* the multinomial loop *)
Definition zsum (l : list Z) : Z := fold_right Z.add 0 l.
Lemma set_nth_length l : forall i v, length (set_nth l i v) = length l.
Proof. induction l as [|a l IH]; intros [|i] v; cbn; auto. Qed.
Lemma set_nth_sum l : forall i v, (i < length l)%nat -> zsum (set_nth l i v) = zsum l - nth i l 0 + v.
Proof. induction l as [|a l IH]; intros [|i] v H; cbn [length] in H; try lia; cbn [set_nth zsum fold_right nth]; [lia|]. specialize (IH i v ltac:(lia)). unfold zsum in *. lia. Qed.
Lemma set_nth_nth l : forall i j v, j <> i -> nth j (set_nth l i v) 0 = nth j l 0.
Proof. induction l as [|a l IH]; intros [|i] [|j] v H; cbn; auto; lia. Qed.
Lemma set_nth_pos l : forall i v, 0 <= v -> Forall (Z.le 0) l -> Forall (Z.le 0) (set_nth l i v).
Proof. induction l as [|a l IH]; intros [|i] v V F; cbn [set_nth]; auto; inversion F; subst; constructor; auto. Qed.
Lemma multi_loop_spec binom : (forall j m, 0 <= m -> 0 <= binom j m <= m) -> forall todo j l n, 0 <= n -> (j + todo < length l)%nat -> Forall (Z.le 0) l ->
  (forall i, (j <= i)%nat -> nth i l 0 = 0) ->
  let '(l', n') := multi_loop binom j todo l n in
  length l' = length l /\ 0 <= n' /\ zsum l' + n' = zsum l + n /\ Forall (Z.le 0) l' /\ (forall i, (j + todo <= i)%nat -> nth i l' 0 = 0).
Proof.
  intros B. induction todo as [|k IH]; intros j l n N0 L F Z.
  - cbn [multi_loop]. repeat split; auto. intros i I. apply Z. lia.
  - cbn [multi_loop]. pose proof (B j n N0) as V. set (v := binom j n) in *.
    assert (S1 : zsum (set_nth l j v) = zsum l + v) by (rewrite set_nth_sum by lia; rewrite Z by lia; lia).
    assert (Z1 : forall i, (S j <= i)%nat -> nth i (set_nth l j v) 0 = 0) by (intros i I; rewrite set_nth_nth by lia; apply Z; lia).
    assert (F1 : Forall (Z.le 0) (set_nth l j v)) by (apply set_nth_pos; [lia|exact F]).
    destruct (n - v <=? 0) eqn:E.
    + rewrite set_nth_length. repeat split; auto; try lia. intros i I. apply Z1. lia.
    + specialize (IH (S j) (set_nth l j v) (n - v) ltac:(lia) ltac:(rewrite set_nth_length; lia) F1 Z1).
      destruct (multi_loop binom (S j) k (set_nth l j v) (n - v)) as [l' n']. rewrite set_nth_length in IH. destruct IH as (A1 & A2 & A3 & A4 & A5).
      repeat split; auto; try lia. intros i I. apply A5. lia.
Qed.
