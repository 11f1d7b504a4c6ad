(* Sequences annihilated by a polynomial, checks on polynomials modulo it, and the
   counting argument that lets one such sequence generate all states of a linear
   recurrence. Used for the characteristic polynomials of SFMT and dSFMT. *)
From Coq Require Import Uint63.
From Verif Require Import Word Gf2 Limb MtChar Poly63 PolyK.
From Coq Require Import ZifyBool ZifyNat ZifyN Btauto.
Open Scope N_scope.
Ltac Zify.zify_post_hook ::= idtac.

Definition ann (chi : row) (u : bseq) : Prop := forall i, ract chi u i = false.

(* ------------------------------------------- checks *)
Definition xsum (ls : list row) : row := fold_right lx [] ls.
Definition rel_ok (t : tab) (ls : list row) (q : row) : bool := rzero (lx (xsum ls) (mulw t q)).
Lemma xsum_act ls z i : ract (xsum ls) z i = fold_right xorb false (map (fun l => ract l z i) ls).
Proof. induction ls as [|l ls IH]; [reflexivity|]. cbn [xsum fold_right map]. now rewrite ract_lx, <- IH. Qed.
Lemma rel_sound chi ls q u i : ann chi u -> rel_ok (table chi) ls q = true -> fold_right xorb false (map (fun l => ract l u i) ls) = false.
Proof.
  intros A H. rewrite <- xsum_act. rewrite (lx_zero _ _ H), mulw_act, (ract_ext q _ (fun _ => false)) by exact A. apply ract_zero.
Qed.
Definition rplant n d (l : row) : ptree d * cells := plant n d (to4 l).
Lemma rplant_act n d l z i : ract l z i = xorb (tact n d (fst (rplant n d l)) z i) (ract (flat (snd (rplant n d l))) z (i + wd n d)).
Proof. rewrite <- (to4_act l z i). apply plant_act. Qed.
Section Chain.
Variables (n d : nat).
(* squarings modulo chi with given quotients *)
Fixpoint squarings (t : ttab d) (qs : list row) (r : ptree d) : option (ptree d) :=
  match qs with
  | [] => Some r
  | q :: qs =>
      let p := tsq n d r in
      let q' := rplant n d q in
      let m := tmul n d t (fst q') in
      if tzero d (tadd d (snd p) (snd m)) && zero4 (snd q') then squarings t qs (tadd d (fst p) (fst m)) else None
  end.
Definition is_row (r : ptree d) (l : row) : bool := let p := rplant n d l in tzero d (tadd d r (fst p)) && zero4 (snd p).
(* groups of squarings, each ending at a given polynomial *)
Fixpoint stages (t : ttab d) (gs : list (list row * row)) (r : ptree d) : bool :=
  match gs with
  | [] => true
  | (qs, l) :: gs => match squarings t qs r with Some r => is_row r l && stages t gs r | None => false end
  end.
Variables (chi : row).
Definition chi_tree : ptree d := fst (rplant n d chi).
Definition start (l : row) : ptree d := fst (rplant n d l).
Definition stages_ok (gs : list (list row * row)) (l : row) : bool :=
  zero4 (snd (rplant n d chi)) && zero4 (snd (rplant n d l)) && stages (ttable d chi_tree) gs (start l).
Variable u : bseq.
Hypothesis A : ann chi u.
Hypothesis C : zero4 (snd (rplant n d chi)) = true.
Lemma chi_tree_act i : tact n d chi_tree u i = false.
Proof. pose proof (rplant_act n d chi u i) as E. rewrite (zero4_act _ C), xorb_false_r in E. unfold chi_tree. now rewrite <- E. Qed.
Lemma squarings_sound qs : forall r r' J, (forall i, tact n d r u i = u (i + J)) -> squarings (ttable d chi_tree) qs r = Some r' ->
  forall i, tact n d r' u i = u (i + J * 2 ^ N.of_nat (List.length qs)).
Proof.
  induction qs as [|q qs IH]; intros r r' J H E i; cbn [squarings] in E.
  - injection E as <-. rewrite H. f_equal. cbn. lia.
  - cbv zeta in E. match type of E with (if ?b then _ else _) = _ => destruct b eqn:Z; [|discriminate E] end. apply andb_prop in Z. destruct Z as [Z _].
    replace (J * 2 ^ N.of_nat (List.length (q :: qs))) with (2 * J * 2 ^ N.of_nat (List.length qs))
      by (cbn [List.length]; replace (N.of_nat (S (List.length qs))) with (N.succ (N.of_nat (List.length qs))) by lia; rewrite N.pow_succ_r'; lia).
    revert i. refine (IH _ r' (2 * J) _ E). intros i. rewrite tadd_act.
    pose proof (tsq_act n d r u i) as P. pose proof (tmul_act n d chi_tree (fst (rplant n d q)) u i) as M. unfold pact in P, M.
    pose proof (tzero_act n d _ Z u (i + wd n d)) as H0. rewrite tadd_act in H0.
    rewrite (tact_ext n d _ (tact n d chi_tree u) (fun _ => false)), tact_zero in M by exact chi_tree_act.
    rewrite (tact_ext n d r (tact n d r u) (sh J u)), tact_sh, H in P by exact H. replace (i + 2 * J) with (i + J + J) by lia. rewrite <- P.
    apply Bool.xorb_eq in M. apply Bool.xorb_eq in H0. rewrite M, <- H0. reflexivity.
Qed.
Lemma is_row_sound r l i : is_row r l = true -> ract l u i = tact n d r u i.
Proof.
  unfold is_row. cbv zeta. intros H. apply andb_prop in H. destruct H as [H1 H2]. pose proof (tzero_act n d _ H1 u i) as E. rewrite tadd_act in E. apply Bool.xorb_eq in E.
  rewrite E, (rplant_act n d l u i), (zero4_act _ H2). apply xorb_false_r.
Qed.
(* the k-th polynomial is the power of the shift with the exponent so far *)
Fixpoint reach (J : N) (gs : list (list row * row)) : Prop :=
  match gs with
  | [] => True
  | (qs, l) :: gs => let J' := J * 2 ^ N.of_nat (List.length qs) in (forall i, ract l u i = u (i + J')) /\ reach J' gs
  end.
Lemma stages_sound gs : forall r J, (forall i, tact n d r u i = u (i + J)) -> stages (ttable d chi_tree) gs r = true -> reach J gs.
Proof.
  induction gs as [|[qs l] gs IH]; intros r J H E; [exact I|]. cbn [stages reach] in *. destruct (squarings _ qs r) as [r'|] eqn:Q; [|discriminate E].
  apply andb_prop in E. destruct E as [E1 E2]. pose proof (squarings_sound qs r r' J H Q) as S'. split; [|exact (IH r' _ S' E2)].
  intros i. rewrite (is_row_sound r' l i E1). apply S'.
Qed.
End Chain.
Theorem stages_reach n d chi gs l J u : ann chi u -> (forall i, ract l u i = u (i + J)) -> stages_ok n d chi gs l = true -> reach u J gs.
Proof.
  intros A H E. unfold stages_ok in E. apply andb_prop in E. destruct E as [E E3]. apply andb_prop in E. destruct E as [E1 E2].
  apply (stages_sound n d chi u A E1 gs (start n d l) J); [|exact E3].
  intros i. unfold start. pose proof (rplant_act n d l u i) as P. rewrite (zero4_act _ E2), xorb_false_r in P. now rewrite <- P.
Qed.

(* ------------------------------------------- lists of n bits *)
Fixpoint words (n : nat) : list (list bool) :=
  match n with O => [[]] | S n => map (cons false) (words n) ++ map (cons true) (words n) end.
Lemma words_in n : forall l, In l (words n) <-> List.length l = n.
Proof.
  induction n as [|n IH]; intros l; cbn [words].
  - cbn [In]. split; [intros [<-|[]]; reflexivity|]. destruct l; [now left|discriminate].
  - rewrite in_app_iff, !in_map_iff. split.
    + intros [(x & <- & H)|(x & <- & H)]; apply IH in H; cbn [List.length]; now rewrite H.
    + destruct l as [|b l]; [discriminate|]. cbn [List.length]. intros H. injection H as H. apply IH in H. destruct b; [right|left]; now exists l.
Qed.
Lemma NoDup_map_inj {X Y} (f : X -> Y) l : (forall x y, In x l -> In y l -> f x = f y -> x = y) -> NoDup l -> NoDup (map f l).
Proof.
  intros H D. induction D as [|x l N D IH]; cbn [map]; constructor.
  - intros I. apply in_map_iff in I. destruct I as (y & E & I). apply N. rewrite <- (H y x); [exact I|now right|now left|exact E].
  - apply IH. intros a b Ia Ib. apply H; now right.
Qed.
Lemma words_nodup n : NoDup (words n).
Proof.
  induction n as [|n IH]; cbn [words]; [constructor; [easy|constructor]|].
  assert (C : forall b, NoDup (map (cons b) (words n))) by (intros b; apply NoDup_map_inj; [intros x y _ _ E; now injection E|exact IH]).
  pose proof (C false) as C0. revert C0. generalize (words n) at 1 2. intros l. induction l as [|x l IHl]; intros D; cbn [map app]; [apply C|].
  cbn [map] in D. inversion D; subst. constructor; [|now apply IHl]. intros I. apply in_app_iff in I. destruct I as [I|I]; [contradiction|]. apply in_map_iff in I. now destruct I as (y & E & _).
Qed.
Lemma words_onto n (f : list bool -> list bool) : (forall l, List.length l = n -> List.length (f l) = n) ->
  (forall a b, List.length a = n -> List.length b = n -> f a = f b -> a = b) -> forall c, List.length c = n -> exists l, List.length l = n /\ f l = c.
Proof.
  intros L I c H. assert (Q : incl (words n) (map f (words n))).
  { apply NoDup_length_incl.
    - apply NoDup_map_inj; [|apply words_nodup]. intros a b Ha Hb. apply I; now apply words_in.
    - now rewrite map_length.
    - intros x Hx. apply in_map_iff in Hx. destruct Hx as (y & <- & Hy). apply words_in, L, words_in, Hy. }
  apply words_in in H. apply Q in H. apply in_map_iff in H. destruct H as (l & E & Hl). exists l. split; [now apply words_in|exact E].
Qed.

(* ------------------------------------------- annihilated sequences from their first bits *)
Section Seqs.
Variables (chi : row) (low : list bool).
Let n := List.length low.
Hypothesis monic : forall z i, ract chi z i = xorb (bact low z i) (z (i + N.of_nat n)).
Hypothesis pos : (0 < n)%nat.
Fixpoint bdot (cs l : list bool) : bool := match cs, l with c :: cs, b :: l => xorb (c && b) (bdot cs l) | _, _ => false end.
Definition lstep (l : list bool) : list bool := tl l ++ [bdot low l].
Definition seq_of (l : list bool) : bseq := fun i => hd false (N.iter i lstep l).
Lemma lstep_length l : List.length l = n -> List.length (lstep l) = n.
Proof. intros H. unfold lstep. rewrite app_length. destruct l; cbn [tl List.length] in *; lia. Qed.
Lemma iter_length i l : List.length l = n -> List.length (N.iter i lstep l) = n.
Proof. intros H. induction i as [|i IH] using N.peano_ind; [exact H|]. rewrite N.iter_succ. now apply lstep_length. Qed.
Lemma iter_nth j : forall i l, List.length l = n -> (j < n)%nat -> nth j (N.iter i lstep l) false = seq_of l (i + N.of_nat j).
Proof.
  induction j as [|j IH]; intros i l H Hj.
  - unfold seq_of. rewrite N.add_0_r. now destruct (N.iter i lstep l).
  - replace (i + N.of_nat (S j)) with (N.succ i + N.of_nat j) by lia. rewrite <- (IH (N.succ i) l H) by lia. rewrite N.iter_succ.
    pose proof (iter_length i l H) as L. set (w := N.iter i lstep l) in *. unfold lstep. destruct w as [|b m]; [cbn [List.length] in L; lia|]. cbn [tl nth]. cbn [List.length] in L. now rewrite app_nth1 by lia.
Qed.
Lemma bdot_bact cs : forall l z i, (List.length cs <= List.length l)%nat -> (forall j, (j < List.length cs)%nat -> nth j l false = z (i + N.of_nat j)) -> bdot cs l = bact cs z i.
Proof.
  induction cs as [|c cs IH]; intros l z i L H; [destruct l; reflexivity|]. destruct l as [|b l]; [cbn [List.length] in L; lia|]. cbn [bdot bact List.length] in *.
  pose proof (H O ltac:(lia)) as H0. cbn [nth] in H0. rewrite N.add_0_r in H0. rewrite H0. f_equal. apply IH; [lia|]. intros j Hj. specialize (H (S j) ltac:(lia)). cbn [nth] in H. rewrite H. f_equal. lia.
Qed.
Lemma seq_of_ann l : List.length l = n -> ann chi (seq_of l).
Proof.
  intros H i. rewrite monic. rewrite <- (bdot_bact low (N.iter i lstep l) (seq_of l) i).
  - pose proof (iter_length i l H) as L. replace (i + N.of_nat n) with (N.succ i + N.of_nat (n - 1)) by lia. rewrite <- (iter_nth (n - 1) (N.succ i) l H) by lia. rewrite N.iter_succ.
    set (w := N.iter i lstep l) in *. unfold lstep.
    assert (T : List.length (tl w) = (n - 1)%nat) by (destruct w; cbn [tl List.length] in *; lia).
    rewrite app_nth2 by lia. rewrite T, Nat.sub_diag. cbn [nth]. apply xorb_nilpotent.
  - rewrite iter_length by exact H. unfold n. lia.
  - intros j Hj. now apply iter_nth.
Qed.
Lemma seq_of_nth l j : List.length l = n -> (j < n)%nat -> seq_of l (N.of_nat j) = nth j l false.
Proof. intros H Hj. symmetry. exact (iter_nth j 0 l H Hj). Qed.
(* a map from annihilated sequences to lists of n bits that separates them reaches
   every list *)
Theorem ann_onto (Phi : bseq -> list bool) : (forall u, ann chi u -> List.length (Phi u) = n) ->
  (forall u v, ann chi u -> ann chi v -> Phi u = Phi v -> forall i, u i = v i) -> forall c, List.length c = n -> exists u, ann chi u /\ Phi u = c.
Proof.
  intros L I c H. destruct (words_onto n (fun l => Phi (seq_of l))) with (c := c) as (l & Hl & E).
  - intros l Hl. apply L. now apply seq_of_ann.
  - intros a b Ha Hb E. apply (nth_ext _ _ false false); [congruence|]. intros j Hj. rewrite Ha in Hj. rewrite <- !seq_of_nth by assumption.
    apply I; [now apply seq_of_ann|now apply seq_of_ann|exact E].
  - exact H.
  - exists (seq_of l). split; [now apply seq_of_ann|exact E].
Qed.
End Seqs.

(* ------------------------------------------- for the certificates *)
Lemma monic_of chi low : bsame (rbits chi) (low ++ [true]) = true -> forall z i, ract chi z i = xorb (bact low z i) (z (i + N.of_nat (List.length low))).
Proof. intros H z i. rewrite <- rbits_act, (bsame_act _ _ H), bact_app. cbn [bact andb]. now rewrite xorb_false_r. Qed.
Lemma bact_row l cs z i : bsame (rbits l) cs = true -> bact cs z i = ract l z i.
Proof. intros H. now rewrite <- rbits_act, (bsame_act _ _ H). Qed.
Lemma start_act m z i : ract (zeros m [16%uint63]) z i = z (i + 63 * N.of_nat m + 4).
Proof. rewrite zeros_act. cbn [ract]. change (lN 16%uint63) with (N.shiftl 1 4). rewrite act_pow. apply xorb_false_r. Qed.
(* five groups *)
Lemma reach_five u J J0 J1 J2 J3 J4 q0 l0 q1 l1 q2 l2 q3 l3 q4 l4 : reach u J [(q0, l0); (q1, l1); (q2, l2); (q3, l3); (q4, l4)] ->
  J0 = J * 2 ^ N.of_nat (List.length q0) -> J1 = J0 * 2 ^ N.of_nat (List.length q1) -> J2 = J1 * 2 ^ N.of_nat (List.length q2) ->
  J3 = J2 * 2 ^ N.of_nat (List.length q3) -> J4 = J3 * 2 ^ N.of_nat (List.length q4) ->
  (forall i, ract l0 u i = u (i + J0)) /\ (forall i, ract l1 u i = u (i + J1)) /\ (forall i, ract l2 u i = u (i + J2)) /\
  (forall i, ract l3 u i = u (i + J3)) /\ (forall i, ract l4 u i = u (i + J4)).
Proof. cbn [reach]. cbv zeta. intros (A & B & C & D & E & _) -> -> -> -> ->. repeat (split; [assumption|]). assumption. Qed.
(* the word with given bits, and its polynomials *)
Fixpoint mkw (w : nat) (f : nat -> bool) : N := match w with O => 0 | S w => 2 * mkw w (fun j => f (S j)) + N.b2n (f O) end.
Lemma mkw_spec w : forall f k, N.testbit (mkw w f) k = (k <? N.of_nat w) && f (N.to_nat k).
Proof.
  induction w as [|w IH]; intros f k; cbn [mkw]; [rewrite N.bits_0; replace (k <? N.of_nat 0) with false by lia; reflexivity|].
  destruct k as [|k] using N.peano_ind; [rewrite N.testbit_0_r; replace (0 <? N.of_nat (S w)) with true by lia; reflexivity|].
  rewrite N.testbit_succ_r, IH, N2Nat.inj_succ. f_equal. lia.
Qed.
Lemma flat_map_length {X Y} (f : X -> list Y) m l : (forall x, List.length (f x) = m) -> List.length (flat_map f l) = (List.length l * m)%nat.
Proof. intros H. induction l as [|x l IH]; [reflexivity|]. cbn [flat_map List.length Nat.mul]. now rewrite app_length, IH, H. Qed.
Lemma app_inj {X} (a b c d : list X) : List.length a = List.length c -> a ++ b = c ++ d -> a = c /\ b = d.
Proof.
  revert c. induction a as [|x a IH]; intros [|y c] L E; try discriminate L; [split; [reflexivity|exact E]|]. cbn [app] in E. injection E as -> E.
  destruct (IH c) as [A B]; [now injection L|exact E|]. split; [now rewrite A|exact B].
Qed.
Lemma flat_map_inj {X Y} (f g : X -> list Y) l : (forall x, List.length (f x) = List.length (g x)) -> flat_map f l = flat_map g l -> forall x, In x l -> f x = g x.
Proof.
  intros H. induction l as [|y l IH]; intros E x I; [destruct I|]. cbn [flat_map] in E. apply app_inj in E; [|apply H]. destruct E as [E1 E2]. destruct I as [<-|I]; [exact E1|now apply IH].
Qed.
Lemma map_inj_on {X Y} (f g : X -> Y) l : map f l = map g l -> forall x, In x l -> f x = g x.
Proof. induction l as [|y l IH]; intros E x I; [destruct I|]. cbn [map] in E. injection E as E1 E2. destruct I as [<-|I]; [exact E1|now apply IH]. Qed.
Definition grid (a b : nat) (f : nat -> nat -> bool) : list bool := flat_map (fun n => map (f n) (seq 0 b)) (seq 0 a).
Lemma grid_length a b f : List.length (grid a b f) = (a * b)%nat.
Proof. unfold grid. rewrite (flat_map_length _ b); [now rewrite seq_length|]. intros n. now rewrite map_length, seq_length. Qed.
Lemma grid_inj a b f g : grid a b f = grid a b g -> forall n j, (n < a)%nat -> (j < b)%nat -> f n j = g n j.
Proof.
  intros E n j Hn Hj. assert (E1 : map (f n) (seq 0 b) = map (g n) (seq 0 b)).
  { apply (flat_map_inj (fun n => map (f n) (seq 0 b)) (fun n => map (g n) (seq 0 b)) (seq 0 a)); [intros m; now rewrite !map_length|exact E|]. apply in_seq. lia. }
  apply (map_inj_on _ _ _ E1). apply in_seq. lia.
Qed.
Lemma grid_ext a b f g : (forall n j, (j < b)%nat -> f n j = g n j) -> grid a b f = grid a b g.
Proof. intros H. unfold grid. apply flat_map_ext. intros n. apply map_ext_in. intros j Hj. apply in_seq in Hj. apply H. lia. Qed.
