(* C43, C65, C66: shapes in generator.pyx *)
From Coq Require Import Arith NArith List Lia Bool ZifyBool ZifyNat ZifyN.
From Verif Require Import Shape Mcn.
Import ListNotations.
Open Scope N_scope.

(* C43: shapes without empty dimensions, the only ones that reach broadcast_shape from
   gamma, relation and loc, which must be non-empty: the NumPy rule exactly *)
Theorem C43_broadcast_shape_is_numpy_partial x y : Forall (fun d => d <> 0) x -> Forall (fun d => d <> 0) y ->
  match np_broadcast x y with
  | Some z => broadcast_shape x y false = (true, z)
  | None => fst (broadcast_shape x y false) = false
  end.
Proof.
  intros X Y. pose proof (broadcast_false x y) as H. destruct (np_broadcast x y); [|exact H].
  rewrite zo_free_pos in H by (apply Forall_skipn; assumption). exact H.
Qed.
(* with empty dimensions too: what it accepts NumPy accepts, with the same result *)
Theorem C43_broadcast_shape_sound x y : fst (broadcast_shape x y false) = true -> np_broadcast x y = Some (snd (broadcast_shape x y false)).
Proof.
  intros T. pose proof (broadcast_false x y) as H. destruct (np_broadcast x y) as [z|]; [|congruence].
  destruct (zo_free _ _); [rewrite H; reflexivity|congruence].
Qed.
Theorem C43_broadcast_shape_commutes x y : Forall (fun d => d <> 0) x -> Forall (fun d => d <> 0) y ->
  fst (broadcast_shape x y false) = fst (broadcast_shape y x false)
  /\ (fst (broadcast_shape x y false) = true -> broadcast_shape x y false = broadcast_shape y x false).
Proof.
  intros X Y. pose proof (C43_broadcast_shape_is_numpy_partial x y X Y) as H. pose proof (C43_broadcast_shape_is_numpy_partial y x Y X) as K.
  rewrite np_broadcast_comm in K. destruct (np_broadcast x y) as [z|]; [rewrite H, K; split; reflexivity|]. rewrite H, K. split; [reflexivity|discriminate].
Qed.
(* but it turns down a pair of dimensions 0 and 1, which NumPy broadcasts to 0 *)
Theorem C43_empty_dimension_refuted : exists x y z, np_broadcast x y = Some z /\ fst (broadcast_shape x y false) = false.
Proof. exists [0], [1], [0]. split; reflexivity. Qed.
Theorem C43_strict_is_equal_tails x y :
  x <> [] -> y <> [] ->
  (fst (broadcast_shape x y true) = true <-> tail_of x (length y) = tail_of y (length x)).
Proof.
  intros X Y. unfold broadcast_shape.
  replace (length x =? 0)%nat with false by (destruct x; [congruence|reflexivity]). replace (length y =? 0)%nat with false by (destruct y; [congruence|reflexivity]).
  cbn [orb]. destruct (length y <? length x)%nat eqn:C.
  - rewrite (tail_full y) by lia. apply bs_loop_true. apply tail_length. lia.
  - rewrite (tail_full x) by lia. apply bs_loop_true. symmetry. apply tail_length. lia.
Qed.
Example C43_case : broadcast_shape [5; 1; 3] [4; 1] false = (true, [5; 4; 3]) /\ broadcast_shape [5; 2; 3] [4; 1] false = (false, [5])
  /\ Forall (fun d => d <> 0) [5; 1; 3] /\ broadcast_shape [5; 2; 3] [2; 3] true = (true, [5; 2; 3]).
Proof. repeat split; repeat constructor; discriminate. Qed.

(* C65: the shape multivariate_normal returns. mb and cb are the leading dimensions of
   mean and cov, which broadcast to os; the size given ends in dimensions that os
   broadcasts to, all of them positive; and it does not start with 1 when mean is a
   single vector and cov a single matrix *)
Theorem C65_mvn_shape_is_size_partial mb cb n os pre sz :
  np_broadcast (at_least_1d mb) (at_least_1d cb) = Some os ->
  Forall2 fits sz os ->
  (mb = [] -> cb = [] -> hd 0 (pre ++ sz) <> 1) ->
  mvn_shape mb cb n (Some (pre ++ sz)) = Some (pre ++ sz ++ [n]).
Proof.
  intros H F D. unfold mvn_shape, mvn_draw. rewrite H, (mvn_size_ok pre sz os F).
  destruct (mvn_result mb cb (pre ++ sz) os H (fits_bto pre sz os F)) as [P Q]. rewrite P, Q, app_assoc.
  destruct mb as [|m mb], cb as [|c cb]; try reflexivity. destruct (pre ++ sz) as [|d l]; [reflexivity|]. specialize (D eq_refl eq_refl). cbn [hd] in D.
  destruct d as [|[p|p|]]; try reflexivity. congruence.
Qed.
(* one mean vector, one matrix *)
Theorem C65_mvn_simple_shape_partial n pre s : 1 <= s -> hd 0 (pre ++ [s]) <> 1 -> mvn_shape [] [] n (Some (pre ++ [s])) = Some (pre ++ [s; n]).
Proof.
  intros P H. rewrite (C65_mvn_shape_is_size_partial [] [] n [1] pre [s]); [reflexivity|reflexivity| |intros; exact H].
  repeat constructor; lia.
Qed.
Theorem C65_mvn_no_size mb cb n os : np_broadcast (at_least_1d mb) (at_least_1d cb) = Some os ->
  mvn_shape mb cb n None = Some ((match mb, cb with [], [] => [] | _, _ => os end) ++ [n]).
Proof.
  intros H. assert (B : bto os os). { exists [], os. split; [reflexivity|]. clear. induction os; constructor; [now left|assumption]. }
  destruct (mvn_result mb cb os os H B) as [P Q]. unfold mvn_shape, mvn_draw. rewrite H. cbn [mvn_size]. rewrite P, Q.
  destruct mb as [|m mb], cb as [|c cb]; try reflexivity. cbn in H. injection H as <-. reflexivity.
Qed.
(* a leading dimension 1 that was asked for is dropped, and an empty dimension becomes 1 *)
Theorem C65_mvn_drops_leading_one_refuted : exists n sz, mvn_shape [] [] n (Some sz) <> Some (sz ++ [n]) /\ Forall (fun d => 1 <= d) sz
  /\ prod sz * n = 10 /\ mvn_shape [] [] n (Some sz) = Some (tl sz ++ [n]).
Proof. exists 2, [1; 5]. split; [discriminate|]. split; [repeat constructor; discriminate|split; reflexivity]. Qed.
Theorem C65_mvn_empty_size_refuted n : mvn_shape [] [] n (Some [0]) = Some [n] /\ mvn_shape [] [] n (Some [3; 0]) = Some [3; 1; n].
Proof. split; reflexivity. Qed.
Example C65_case : mvn_shape [] [] 2 (Some [4; 5]) = Some [4; 5; 2] /\ mvn_shape [3] [4; 1] 2 (Some [7; 4; 3]) = Some [7; 4; 3; 2]
  /\ np_broadcast (at_least_1d [3]) (at_least_1d [4; 1]) = Some [4; 3] /\ Forall2 fits [4; 3] [4; 3] /\ mvn_shape [3] [4] 2 None = None.
Proof. repeat split; repeat constructor; lia. Qed.

(* multivariate_complex_normal: for loc, gamma and relation of shapes lb + (n,), gb + (n, n) and rb + (n, n),
   none of them empty, the shape is that of multivariate_normal for the broadcast of gb and rb, so that the
   theorems above hold for it; what does not broadcast is rejected *)
Lemma mvn_shape_last mb cb n m size : match mvn_shape mb cb n size with
  | None => mvn_shape mb cb m size = None
  | Some sh => exists x, sh = x ++ [n] /\ mvn_shape mb cb m size = Some (x ++ [m])
  end.
Proof.
  unfold mvn_shape. destruct (mvn_draw mb cb size) as [out|]; [|reflexivity]. destruct (np_broadcast out _) as [p|]; [|reflexivity]. destruct (np_broadcast (at_least_1d mb) p) as [f|]; [|reflexivity].
  destruct mb; [destruct cb; [destruct f as [|[|[| |]] f]|]|]; eexists; (split; reflexivity).
Qed.
Lemma prod_app a b : prod (a ++ b) = prod a * prod b.
Proof. induction a as [|x a IH]; cbn [prod app]; [lia|]. rewrite IH. lia. Qed.
Lemma prod_pos l : prod l <> 0 -> Forall (fun d => d <> 0) l.
Proof. induction l as [|x l IH]; intros H; [constructor|]. cbn [prod] in H. constructor; [intros ->; lia|apply IH; intros E; rewrite E in H; lia]. Qed.
Lemma np_broadcast_app gb rb s : np_broadcast (gb ++ s) (rb ++ s) = option_map (fun c => c ++ s) (np_broadcast gb rb).
Proof.
  unfold np_broadcast. rewrite !app_length. replace (Nat.max (length gb + length s) (length rb + length s))%nat with (Nat.max (length gb) (length rb) + length s)%nat by lia.
  unfold padded. rewrite !app_length. set (m := Nat.max _ _). replace (m + length s - (length gb + length s))%nat with (m - length gb)%nat by lia. replace (m + length s - (length rb + length s))%nat with (m - length rb)%nat by lia.
  rewrite !app_assoc. set (x := repeat 1 (m - length gb) ++ gb). set (y := repeat 1 (m - length rb) ++ rb). assert (L : length x = length y) by (unfold x, y; rewrite !app_length, !repeat_length; lia).
  assert (S : np_zip s s = Some s) by (clear; induction s as [|d s IH]; [reflexivity|]; cbn [np_zip]; now rewrite np_dim_same, IH).
  clearbody x y. revert y L. induction x as [|a x IH]; intros [|b y] L; try discriminate L; [exact S|]. cbn [app np_zip]. rewrite IH by (cbn [length] in L; lia). destruct (np_dim a b); [|reflexivity]. destruct (np_zip x y); reflexivity.
Qed.
Lemma square_ok b n : prod b <> 0 -> n <> 0 -> mcn_square (b ++ [n; n]) n = true.
Proof.
  intros B D. unfold mcn_square. rewrite app_length. cbn [length]. replace (length b + 2 - 1)%nat with (length b + 1)%nat by lia. replace (length b + 2 - 2)%nat with (length b + 0)%nat by lia.
  rewrite !app_nth2_plus. cbn [nth]. rewrite N.eqb_refl. replace (length b + 2 <? 2)%nat with false by lia. rewrite prod_app. cbn [prod]. rewrite (proj2 (N.eqb_neq _ 0)) by (rewrite !N.mul_eq_0; lia). reflexivity.
Qed.
Theorem C65_mcn_shape lb gb rb n size : prod lb <> 0 -> prod gb <> 0 -> prod rb <> 0 -> n <> 0 ->
  mcn_shape (lb ++ [n]) (Some (gb ++ [n; n])) (Some (rb ++ [n; n])) size = match np_broadcast gb rb with Some common => mvn_shape lb common n size | None => None end.
Proof.
  intros L G R D. unfold mcn_shape. rewrite !app_length. cbn [length]. replace (length lb + 1 <? 1)%nat with false by lia. rewrite prod_app. cbn [prod]. rewrite (proj2 (N.eqb_neq _ 0)) by (rewrite !N.mul_eq_0; lia). cbn [orb].
  replace (length lb + 1 - 1)%nat with (length lb + 0)%nat by lia. rewrite app_nth2_plus. cbn [nth]. rewrite !square_ok by assumption. cbn [negb].
  rewrite Nat.add_0_r, firstn_app, firstn_all, Nat.sub_diag. cbn [firstn]. rewrite app_nil_r.
  assert (F : forall b, prod b <> 0 -> Forall (fun d => d <> 0) (b ++ [n; n])) by (intros b B; apply Forall_app; split; [now apply prod_pos|repeat constructor; exact D]).
  pose proof (C43_broadcast_shape_is_numpy_partial (gb ++ [n; n]) (rb ++ [n; n]) (F _ G) (F _ R)) as B. rewrite np_broadcast_app in B. revert B.
  destruct (broadcast_shape (gb ++ [n; n]) (rb ++ [n; n]) false) as [ok cov]. cbn [fst snd].
  destruct (np_broadcast gb rb) as [common|]; cbn [option_map]; intros B; [|destruct ok; [congruence|reflexivity]].
  destruct ok; [|congruence]. assert (cov = common ++ [n; n]) as -> by congruence.
  rewrite app_length. cbn [length]. replace (length common + 2 - 2)%nat with (length common) by lia. rewrite firstn_app, firstn_all, Nat.sub_diag. cbn [firstn]. rewrite app_nil_r.
  pose proof (mvn_shape_last lb common (2 * n) n size) as M. destruct (mvn_shape lb common (2 * n) size) as [sh|]; [|now rewrite M].
  destruct M as (x & -> & ->). rewrite app_length. cbn [length]. replace (length x + 1 - 1)%nat with (length x + 0)%nat by lia. rewrite app_nth2_plus. cbn [nth]. rewrite Nat.add_0_r, firstn_app, firstn_all, Nat.sub_diag. cbn [firstn].
  rewrite app_nil_r. now rewrite (N.mul_comm 2), N.div_mul.
Qed.
(* gamma and relation left out count as one matrix each *)
Theorem C65_mcn_defaults lb n gs rs size : mcn_shape (lb ++ [n]) gs rs size =
  mcn_shape (lb ++ [n]) (Some (match gs with Some g => g | None => [n; n] end)) (Some (match rs with Some r => r | None => [n; n] end)) size.
Proof.
  unfold mcn_shape. destruct (_ || _); [reflexivity|]. rewrite app_length. cbn [length]. replace (length lb + 1 - 1)%nat with (length lb + 0)%nat by lia. rewrite app_nth2_plus. cbn [nth]. now destruct gs, rs.
Qed.
(* every factor that multivariate_normal is given was computed, and none was written outside *)
Theorem C65_mcn_factors gb rb common : np_broadcast gb rb = Some common -> mcn_loops gb rb = Some (mcn_room common).
Proof.
  intros B. unfold mcn_loops, mcn_room.
  assert (H1 : forall d, d <> [] -> np_broadcast d [1] = Some d).
  { intros d H. rewrite np_broadcast_comm. apply bto_broadcast. destruct (exists_last H) as (p & x & ->). exists p, [x]. split; [reflexivity|]. constructor; [now right|constructor]. }
  assert (H0 : forall d, np_broadcast [] d = Some d) by (intros d; apply bto_broadcast; exists d, []; split; [now rewrite app_nil_r|constructor]).
  destruct gb as [|g gb]; destruct rb as [|r rb]; cbn [at_least_1d].
  - rewrite H0 in B. injection B as <-. reflexivity.
  - rewrite H0 in B. injection B as <-. rewrite np_broadcast_comm, H1 by discriminate. reflexivity.
  - rewrite np_broadcast_comm, H0 in B. injection B as <-. rewrite H1 by discriminate. reflexivity.
  - rewrite B. reflexivity.
Qed.
Theorem C65_mcn_leading_one_refuted n : mcn_shape [2] None None (Some [1; 5]) = Some [5; 2] /\ mcn_shape [n] (Some []) None None = None.
Proof. split; [reflexivity|]. unfold mcn_shape. cbn [length nth Nat.sub Nat.ltb Nat.leb orb]. now destruct (prod [n] =? 0). Qed.
Example C65_mcn_case : mcn_shape [3; 2] (Some [4; 1; 2; 2]) (Some [2; 2]) (Some [7; 4; 3]) = Some [7; 4; 3; 2] /\ np_broadcast [4; 1] [] = Some [4; 1] /\ mcn_loops [4; 1] [] = Some 4.
Proof. repeat split. Qed.

(* C66: as many normals are drawn as the result has elements, so that no two vectors
   are made from the same normals *)
Theorem C66_mvn_draws_partial mb cb n os size out res :
  np_broadcast (at_least_1d mb) (at_least_1d cb) = Some os ->
  match size with None => True | Some s => exists pre sz, s = pre ++ sz /\ Forall2 fits sz os end ->
  mvn_draw mb cb size = Some out -> mvn_shape mb cb n size = Some res ->
  prod res = prod out * n.
Proof.
  intros H S D R.
  assert (B : bto os out /\ mvn_draw mb cb size = Some out).
  { split; [|exact D]. unfold mvn_draw in D. rewrite H in D. destruct size as [s|].
    - destruct S as (pre & sz & -> & F). rewrite (mvn_size_ok pre sz os F) in D. injection D as <-. now apply fits_bto.
    - injection D as <-. exists [], os. split; [reflexivity|]. clear. induction os; constructor; [now left|assumption]. }
  destruct B as [B _]. destruct (mvn_result mb cb out os H B) as [P Q]. unfold mvn_shape in R. rewrite D, P, Q in R.
  assert (A : forall l, prod (l ++ [n]) = prod l * n). { induction l as [|a l IH]; cbn [app prod]; [lia|rewrite IH; lia]. }
  destruct mb as [|m mb], cb as [|c cb]; try (injection R as <-; apply A). destruct out as [|d l]; [injection R as <-; apply (A [])|].
  destruct d as [|[p|p|]]; injection R as <-; try apply (A (_ :: l)). rewrite A. cbn [prod]. lia.
Qed.
(* size=() with three means: one vector of normals is drawn and used for all three *)
Theorem C66_mvn_shared_normals_refuted n : mvn_draw [3] [] (Some []) = Some [] /\ mvn_shape [3] [] n (Some []) = Some [3; n].
Proof. split; reflexivity. Qed.
Example C66_case : mvn_draw [3] [4; 1] (Some [7; 4; 3]) = Some [7; 4; 3] /\ mvn_shape [3] [4; 1] 2 (Some [7; 4; 3]) = Some [7; 4; 3; 2]
  /\ (exists pre sz, [7; 4; 3] = pre ++ sz /\ Forall2 fits sz [4; 3]).
Proof. split; [reflexivity|]. split; [reflexivity|]. exists [7], [4; 3]. split; [reflexivity|]. repeat constructor; lia. Qed.

Print Assumptions C43_broadcast_shape_is_numpy_partial.
Print Assumptions C43_broadcast_shape_sound.
Print Assumptions C43_broadcast_shape_commutes.
Print Assumptions C43_empty_dimension_refuted.
Print Assumptions C43_strict_is_equal_tails.
Print Assumptions C65_mvn_shape_is_size_partial.
Print Assumptions C65_mvn_simple_shape_partial.
Print Assumptions C65_mvn_no_size.
Print Assumptions C65_mvn_drops_leading_one_refuted.
Print Assumptions C65_mvn_empty_size_refuted.
Print Assumptions C65_mcn_shape.
Print Assumptions C65_mcn_defaults.
Print Assumptions C65_mcn_factors.
Print Assumptions C65_mcn_leading_one_refuted.
Print Assumptions C66_mvn_draws_partial.
Print Assumptions C66_mvn_shared_normals_refuted.
