(* C82: each element of the result of wishart has its own degrees of freedom, matrix and variate, and the
   result has the shape asked for. *)
From Coq Require Import Arith NArith ZArith List Lia Bool ZifyBool ZifyNat ZifyN.
From Verif Require Import Shape Complex PropComplex WishPy.
Import ListNotations.
Ltac Zify.zify_post_hook ::= idtac.
Open Scope N_scope.

Lemma prod_app a b : prod (a ++ b) = prod a * prod b.
Proof. induction a as [|x a IH]; cbn [prod app]; [lia|]. rewrite IH. lia. Qed.
Lemma unravel_app pre its : forall k, k < prod (pre ++ its) -> unravel (pre ++ its) k = unravel pre (k / prod its) ++ unravel its (k mod prod its).
Proof.
  induction pre as [|d pre IH]; intros k K; cbn [app unravel] in *; [now rewrite N.mod_small|].
  assert (NZ : prod (pre ++ its) <> 0) by (cbn [prod] in K; intros E; rewrite E in K; lia).
  rewrite IH by now apply N.mod_lt. rewrite prod_app in *. assert (A : prod pre <> 0) by lia. assert (B : prod its <> 0) by lia.
  rewrite (N.mul_comm (prod pre)). rewrite <- N.div_div by assumption.
  rewrite N.mod_mul_r by assumption. rewrite (N.mul_comm (prod its)).
  rewrite (N.add_comm (k mod prod its)), N.div_add_l by assumption. rewrite (N.div_small (k mod prod its)) by now apply N.mod_lt. rewrite N.add_0_r.
  rewrite (N.add_comm _ (k mod prod its)), N.mod_add by assumption. now rewrite N.mod_mod.
Qed.
Lemma pick_app sh pre its k : bto sh its -> k < prod (pre ++ its) -> pick sh (unravel (pre ++ its) k) = pick sh (unravel its (k mod prod its)).
Proof.
  intros B K. pose proof (bto_length _ _ B) as L. unfold pick. rewrite !unravel_length, unravel_app by exact K. f_equal.
  rewrite app_length, skipn_app, unravel_length. rewrite (skipn_all2 (unravel pre _)) by (rewrite unravel_length; lia). cbn [app]. f_equal. lia.
Qed.
Lemma pick_1d ss ix : pick (at_least_1d ss) ix = pick ss ix.
Proof.
  destruct ss as [|d ss]; [|reflexivity]. unfold pick. cbn [at_least_1d length ravel].
  destruct (skipn _ ix) as [|x l]; [reflexivity|]. cbn [ravel prod N.eqb Pos.eqb]. reflexivity.
Qed.
Lemma broadcast_1d d ss : d <> [] \/ ss <> [] -> np_broadcast d (at_least_1d ss) = np_broadcast d ss.
Proof.
  intros H. destruct ss as [|e ss]; [|reflexivity]. destruct H as [H|H]; [|congruence]. cbn [at_least_1d].
  rewrite (np_broadcast_comm d [1]), (np_broadcast_comm d []). rewrite !bto_broadcast; [reflexivity| |].
  - exists d, []. split; [now rewrite app_nil_r|constructor].
  - destruct (exists_last H) as (p & x & ->). exists p, [x]. split; [reflexivity|]. constructor; [now right|constructor].
Qed.
Lemma bto_1d ss its : bto (at_least_1d ss) its -> bto ss its.
Proof. destruct ss; [|tauto]. intros _. exists its, []. split; [now rewrite app_nil_r|constructor]. Qed.

(* the loop writes each element once *)
Lemma w_fold block cnt df mat : cnt <> 0 -> forall n, (n <= N.to_nat cnt)%nat ->
  let st := fold_left (w_step block cnt df mat) (seq 0 n) (0, fun _ => None) in
  fst st = N.of_nat n * block /\
  forall j, snd st j = if (j mod cnt <? N.of_nat n) && (j / cnt <? block)
                       then Some {| e_df := df (j mod cnt); e_mat := mat (j mod cnt); e_var := (j mod cnt) * block + j / cnt |} else None.
Proof.
  intros C n. induction n as [|n IH]; intros L.
  - cbn. split; [reflexivity|]. intros j. destruct (j mod cnt <? 0) eqn:E; [lia|reflexivity].
  - specialize (IH ltac:(lia)). cbv zeta in *. rewrite seq_S, fold_left_app. cbn [fold_left Nat.add].
    destruct (fold_left _ _ _) as [v m]. cbn [fst snd] in IH. destruct IH as [-> M]. unfold w_step. cbn [fst snd]. split; [lia|].
    intros j. destruct (N.eqb_spec (j mod cnt) (N.of_nat n)) as [->|NE]; cbn [andb].
    + replace (N.of_nat n <? N.of_nat (S n)) with true by lia. cbn [andb]. destruct (j / cnt <? block) eqn:E; [reflexivity|]. rewrite M, E. now rewrite andb_false_r.
    + rewrite M. destruct (j mod cnt <? N.of_nat n) eqn:E.
      * replace (j mod cnt <? N.of_nat (S n)) with true by lia. reflexivity.
      * replace (j mod cnt <? N.of_nat (S n)) with false by lia. reflexivity.
Qed.
Lemma w_loop_at block cnt df mat k : k < block * cnt ->
  w_loop block cnt df mat k = Some {| e_df := df (k mod cnt); e_mat := mat (k mod cnt); e_var := (k mod cnt) * block + k / cnt |}.
Proof.
  intros K. assert (C : cnt <> 0) by (intros ->; lia). unfold w_loop. destruct (w_fold block cnt df mat C (N.to_nat cnt) (Nat.le_refl _)) as [_ M]. cbv zeta in M. rewrite M, N2Nat.id.
  pose proof (N.mod_lt k cnt C). assert (D : k / cnt < block) by (apply N.div_lt_upper_bound; lia).
  replace (k mod cnt <? cnt) with true by lia. replace (k / cnt <? block) with true by lia. reflexivity.
Qed.

(* arguments that the documentation allows: positive degrees of freedom, non-empty square matrices *)
Definition good_df (df : darg) : Prop := prod (d_shape df) <> 0 /\ forall i, i < prod (d_shape df) -> (0 < d_at df i)%Z.
Lemma good_forallb df : (forall i, i < prod (d_shape df) -> (0 < d_at df i)%Z) <-> forallb (fun i => (0 <? d_at df (N.of_nat i))%Z) (seq 0 (N.to_nat (prod (d_shape df)))) = true.
Proof.
  rewrite forallb_forall. split; intros H.
  - intros i I. apply in_seq in I. specialize (H (N.of_nat i) ltac:(lia)). lia.
  - intros i I. specialize (H (N.to_nat i)). rewrite in_seq, N2Nat.id in H. specialize (H ltac:(lia)). lia.
Qed.
(* the leading shape of the result that a size asks for *)
Definition asked (size : sizearg) (its : list N) : list N :=
  match size with SNone => its | SInt n => [n] | STuple l | SList l => l end.

Lemma wishart_unfold df ss dim arr val size : good_df df -> prod ss <> 0 -> dim <> 0 -> d_shape df <> [] \/ ss <> [] ->
  wishart df {| s_shape := ss ++ [dim; dim]; s_array := arr; s_valid := val |} size =
  match np_broadcast (d_shape df) ss with
  | None => Fails WValueError 0
  | Some its =>
      match w_size size its with
      | None => Fails WValueError 0
      | Some (lead, block) =>
          if negb (prod (lead ++ [dim; dim]) / (prod its * dim * dim) =? block) then Fails WValueError 0
          else if negb arr then Fails WAttributeError 0
          else if negb val then Fails WValueError 0
          else Done {| w_shape := lead ++ [dim; dim];
                       w_at := w_loop block (prod its) (fun i => d_at df (pick (d_shape df) (unravel its i))) (fun i => pick (at_least_1d ss) (unravel its i)) |}
      end
  end.
Proof.
  intros [P Q] S D E. unfold wishart. cbn [s_shape s_array s_valid]. rewrite (proj2 (N.eqb_neq _ _) P). apply good_forallb in Q. rewrite Q. cbn [negb].
  rewrite !app_length. cbn [length]. replace ((length ss + 2 <? 2)%nat) with false by lia.
  rewrite !prod_app. cbn [prod]. rewrite N.mul_1_r. rewrite (proj2 (N.eqb_neq (prod ss * (dim * dim)) 0)) by (rewrite !N.mul_eq_0; tauto). cbn [orb].
  replace (length ss + 2 - 1)%nat with (length ss + 1)%nat by lia. replace (length ss + 2 - 2)%nat with (length ss + 0)%nat by lia.
  rewrite !app_nth2_plus. cbn [nth]. rewrite N.eqb_refl. cbn [negb]. rewrite Nat.add_0_r. rewrite firstn_app, firstn_all, Nat.sub_diag. cbn [firstn]. rewrite app_nil_r.
  rewrite <- (broadcast_1d (d_shape df) ss E).
  destruct (d_shape df) as [|x ds]; destruct ss as [|y ss]; [destruct E; congruence| | |]; reflexivity.
Qed.

Lemma tup_fits l its : ((length l <? length its)%nat || negb (if list_eq_dec N.eq_dec (skipn (length l - length its) l) its then true else false)) = false <-> exists pre, l = pre ++ its.
Proof.
  split.
  - intros H. apply orb_false_iff in H. destruct H as [L H]. destruct (list_eq_dec _ _ _) as [E|]; [|discriminate H]. exists (firstn (length l - length its) l). rewrite <- E at 2. now rewrite firstn_skipn.
  - intros [pre ->]. rewrite app_length. replace (length pre + length its - length its)%nat with (length pre) by lia. rewrite skipn_app, skipn_all, Nat.sub_diag. cbn [skipn app].
    destruct (list_eq_dec _ _ _); [|congruence]. replace (length pre + length its <? length its)%nat with false by lia. reflexivity.
Qed.
Lemma tup_block pre its : prod its <> 0 -> (if list_eq_dec N.eq_dec (pre ++ its) its then 1 else prod (firstn (length (pre ++ its) - length its) (pre ++ its))) = prod pre.
Proof.
  intros NZ. destruct (list_eq_dec _ _ _) as [E|].
  - apply (f_equal (@length N)) in E. rewrite app_length in E. destruct pre; [reflexivity|cbn [length] in E; lia].
  - rewrite app_length. replace (length pre + length its - length its)%nat with (length pre) by lia. rewrite firstn_app, firstn_all, Nat.sub_diag. cbn [firstn]. now rewrite app_nil_r.
Qed.
(* a size is accepted exactly if it ends with the broadcast shape of df and scale *)
Lemma w_size_ok size its pre : prod its <> 0 -> (forall l, size <> SList l) -> asked size its = pre ++ its -> w_size size its = Some (pre ++ its, prod pre).
Proof.
  intros NZ SL A.
  assert (T : (length (pre ++ its) <? length its)%nat || negb (if list_eq_dec N.eq_dec (skipn (length (pre ++ its) - length its) (pre ++ its)) its then true else false) = false) by (apply tup_fits; now exists pre).
  destruct size as [|n|l|l]; cbn [asked] in A; cbn [w_size].
  - assert (pre = []) as ->; [|reflexivity]. apply (f_equal (@length N)) in A. rewrite app_length in A. destruct pre; [reflexivity|cbn [length] in A; lia].
  - rewrite A, T, tup_block by exact NZ. reflexivity.
  - rewrite A, T, tup_block by exact NZ. reflexivity.
  - now destruct (SL l).
Qed.
Lemma w_size_none size its : (forall pre, asked size its <> pre ++ its) -> w_size size its = None.
Proof.
  intros H. assert (T : forall l, (forall pre, l <> pre ++ its) -> (length l <? length its)%nat || negb (if list_eq_dec N.eq_dec (skipn (length l - length its) l) its then true else false) = true).
  { intros l L. destruct (_ || _) eqn:E; [reflexivity|]. apply tup_fits in E. destruct E as [pre E]. now destruct (L pre). }
  destruct size as [|n|l|l]; cbn [asked] in H; cbn [w_size]; [now destruct (H [])|now rewrite T|now rewrite T|reflexivity].
Qed.
Lemma bcast_nz a b c : np_broadcast a b = Some c -> prod a <> 0 -> prod b <> 0 -> prod c <> 0.
Proof.
  unfold np_broadcast. generalize (Nat.max (length a) (length b)) as n. intros n H A B.
  assert (P : forall l, prod (padded n l) = prod l).
  { intros l. unfold padded. rewrite prod_app. replace (prod (repeat 1 (n - length l))) with 1; [lia|]. induction (n - length l)%nat as [|m IH]; [reflexivity|]. cbn [repeat prod]. lia. }
  rewrite <- P in A, B. revert H A B. generalize (padded n a) as x, (padded n b) as y. clear. intros x. revert c. induction x as [|d x IH]; intros c [|e y] H A B; cbn [np_zip] in H; try discriminate H.
  - injection H as <-. exact A.
  - destruct (np_dim d e) as [f|] eqn:D; [|discriminate H]. destruct (np_zip x y) as [z|] eqn:Z; [|discriminate H]. injection H as <-. cbn [prod] in *.
    assert (prod x <> 0) by (intros E; rewrite E in A; lia). assert (prod y <> 0) by (intros E; rewrite E in B; lia). assert (d <> 0) by (intros ->; lia). assert (e <> 0) by (intros ->; lia).
    specialize (IH z y Z ltac:(assumption) ltac:(assumption)). unfold np_dim in D. assert (f <> 0) by (destruct (d =? e), (d =? 1), (e =? 1); congruence). rewrite N.mul_eq_0. tauto.
Qed.

(* ------------------------------------------------------------------- C82 *)
(* One N by N matrix and one number of degrees of freedom: the result has the shape asked for, and element
   k is variate number k *)
Theorem C82_scalar : forall d dim arr size, (0 < d)%Z -> dim <> 0 ->
  exists r, wishart {| d_shape := []; d_at := fun _ => d |} {| s_shape := [dim; dim]; s_array := arr; s_valid := true |} size = Done r /\
  w_shape r = asked size [] ++ [dim; dim] /\ forall k, k < prod (asked size []) -> w_at r k = Some {| e_df := d; e_mat := 0; e_var := k |}.
Proof.
  intros d dim arr size D M. unfold wishart. cbn [d_shape d_at s_shape s_valid length Nat.ltb Nat.leb orb nth Nat.sub firstn]. change (prod [] =? 0) with false. cbv beta iota.
  change (N.to_nat (prod [])) with 1%nat. cbn [seq forallb]. rewrite (proj2 (Z.ltb_lt _ _) D). cbn [andb negb]. cbn [prod]. rewrite (proj2 (N.eqb_neq (dim * (dim * 1)) 0)) by lia. rewrite N.eqb_refl. cbn [negb].
  unfold standard_wishart. replace (Z.of_N dim <? 0)%Z with false by lia. replace (d <? 0)%Z with false by lia. cbn [orb]. rewrite N2Z.id.
  replace (std_lead size) with (asked size []) by (destruct size as [| |[]|]; reflexivity).
  eexists. split; [destruct (d <? Z.of_N dim)%Z; reflexivity|]. cbn [w_shape w_at]. split; [reflexivity|]. intros k K.
  replace (prod (std_size size)) with (prod (asked size [])) by (destruct size as [| |[]|]; reflexivity). now rewrite (proj2 (N.ltb_lt _ _) K).
Qed.
(* df and scale arrays of shapes ds and ss + (N, N) which broadcast to its, and a size that ends with its
   (an int or a tuple, or none at all): the result has the shape asked for, followed by (N, N). Every
   element is written; the element at index ix has the degrees of freedom and the matrix that broadcast to
   ix (pick: C71_broadcast_element), and a variate of its own (C82_own_variate). *)
Theorem C82_arrays_partial : forall df ss dim its pre size, good_df df -> prod ss <> 0 -> dim <> 0 -> d_shape df <> [] \/ ss <> [] ->
  np_broadcast (d_shape df) ss = Some its -> (forall l, size <> SList l) -> asked size its = pre ++ its ->
  exists r, wishart df {| s_shape := ss ++ [dim; dim]; s_array := true; s_valid := true |} size = Done r /\
  w_shape r = asked size its ++ [dim; dim] /\
  forall k, k < prod (asked size its) -> let ix := unravel (asked size its) k in
    w_at r k = Some {| e_df := d_at df (pick (d_shape df) ix); e_mat := pick ss ix; e_var := (k mod prod its) * prod pre + k / prod its |}.
Proof.
  intros df ss dim its pre size G S D E B SL A. assert (NZ : prod its <> 0) by (apply (bcast_nz _ _ _ B); [apply G|exact S]).
  rewrite wishart_unfold by assumption. rewrite B, (w_size_ok size its pre NZ SL A). rewrite A.
  assert (R : prod ((pre ++ its) ++ [dim; dim]) / (prod its * dim * dim) = prod pre).
  { rewrite !prod_app. cbn [prod]. replace (prod pre * prod its * (dim * (dim * 1))) with (prod pre * (prod its * dim * dim)) by lia. apply N.div_mul. rewrite !N.mul_eq_0. tauto. }
  rewrite R, N.eqb_refl. cbn [negb]. eexists. split; [reflexivity|]. cbn [w_shape w_at]. split; [reflexivity|].
  intros k K. set (ix := unravel _ k). pose proof K as K'. rewrite prod_app in K. rewrite w_loop_at by exact K. rewrite pick_1d.
  destruct (np_broadcast_to _ _ _ B) as [B1 B2]. unfold ix. now rewrite !pick_app.
Qed.
(* element k of a result of rows times cnt matrices has variate number (k mod cnt) * rows + k / cnt: each
   of the rows * cnt variates that are drawn is used for exactly one element *)
Theorem C82_own_variate : forall rows cnt, let v k := (k mod cnt) * rows + k / cnt in
  (forall k, k < rows * cnt -> v k < rows * cnt) /\
  (forall j k, j < rows * cnt -> k < rows * cnt -> v j = v k -> j = k) /\
  (forall x, x < rows * cnt -> exists k, k < rows * cnt /\ v k = x).
Proof.
  intros rows cnt v.
  assert (DM : forall k, k < rows * cnt -> k = cnt * (k / cnt) + k mod cnt /\ k mod cnt < cnt /\ k / cnt < rows).
  { intros k K. assert (cnt <> 0) by (intros ->; lia). split; [now apply N.div_mod|]. split; [now apply N.mod_lt|]. apply N.div_lt_upper_bound; lia. }
  unfold v. split; [|split].
  - intros k K. destruct (DM k K) as (_ & A & B). nia.
  - intros j k J K H. destruct (DM j J) as (EJ & A & B). destruct (DM k K) as (EK & C & D).
    rewrite (N.mul_comm (j mod cnt)), (N.mul_comm (k mod cnt)) in H. destruct (N.div_mod_unique rows _ _ _ _ B D H) as [X Y]. rewrite EJ, EK. now rewrite X, Y.
  - intros x X. assert (R : rows <> 0) by (intros ->; lia). pose proof (N.mod_lt x rows R) as M. assert (Q : x / rows < cnt) by (apply N.div_lt_upper_bound; lia).
    exists ((x mod rows) * cnt + x / rows). split; [nia|]. assert (C : cnt <> 0) by lia.
    rewrite N.div_add_l by exact C. rewrite (N.div_small (x / rows)) by exact Q. rewrite (N.add_comm (x mod rows * cnt) (x / rows)), N.mod_add by exact C. rewrite (N.mod_small (x / rows)) by exact Q.
    rewrite N.add_0_r. pose proof (N.div_mod x rows R). lia.
Qed.
(* any other size, shapes that do not broadcast, an empty df and one that is not positive: ValueError, and
   nothing is drawn *)
Theorem C82_rejected_size : forall df ss dim its size arr val, good_df df -> prod ss <> 0 -> dim <> 0 -> d_shape df <> [] \/ ss <> [] ->
  np_broadcast (d_shape df) ss = Some its -> (forall pre, asked size its <> pre ++ its) ->
  wishart df {| s_shape := ss ++ [dim; dim]; s_array := arr; s_valid := val |} size = Fails WValueError 0.
Proof. intros. rewrite wishart_unfold by assumption. rewrite H3. now rewrite w_size_none. Qed.
Theorem C82_rejected_shapes : forall df ss dim size arr val, good_df df -> prod ss <> 0 -> dim <> 0 -> np_broadcast (d_shape df) ss = None ->
  wishart df {| s_shape := ss ++ [dim; dim]; s_array := arr; s_valid := val |} size = Fails WValueError 0.
Proof.
  intros df ss dim size arr val G S D H. rewrite wishart_unfold; [now rewrite H|assumption..|]. destruct (d_shape df); [|left; discriminate]. destruct ss; [|right; discriminate]. discriminate H.
Qed.
Theorem C82_rejected_df : forall df scale size, ~ good_df df -> wishart df scale size = Fails WValueError 0.
Proof.
  intros df scale size G. unfold wishart. destruct (N.eqb_spec (prod (d_shape df)) 0) as [|P]; [reflexivity|]. destruct (forallb _ _) eqn:F; [|reflexivity].
  destruct G. split; [exact P|]. now apply good_forallb.
Qed.
Theorem C82_rejected_scale : forall df scale size, (length (s_shape scale) < 2)%nat \/ prod (s_shape scale) = 0 \/ (exists ss a b, s_shape scale = ss ++ [a; b] /\ a <> b) ->
  wishart df scale size = Fails WValueError 0.
Proof.
  intros df scale size H. unfold wishart. destruct (_ =? 0); [reflexivity|]. destruct (negb _); [reflexivity|]. destruct ((length (s_shape scale) <? 2)%nat || (prod (s_shape scale) =? 0)) eqn:E; [reflexivity|].
  destruct H as [H|[H|(ss & a & b & H & NE)]]; [lia|lia|]. rewrite H. rewrite app_length. cbn [length].
  replace (length ss + 2 - 1)%nat with (length ss + 1)%nat by lia. replace (length ss + 2 - 2)%nat with (length ss + 0)%nat by lia.
  rewrite !app_nth2_plus. cbn [nth]. now rewrite (proj2 (N.eqb_neq _ _) NE).
Qed.
(* Matrices that _factorize rejects (check_valid="raise"): with an array of either nothing is drawn, but
   with one matrix and one df the whole sample is drawn before the matrix is looked at *)
Theorem C82_invalid_scale_array : forall df ss dim size, good_df df -> prod ss <> 0 -> dim <> 0 -> d_shape df <> [] \/ ss <> [] ->
  wishart df {| s_shape := ss ++ [dim; dim]; s_array := true; s_valid := false |} size = Fails WValueError 0.
Proof.
  intros df ss dim size G S D E. rewrite wishart_unfold by assumption. destruct (np_broadcast _ _); [|reflexivity]. destruct (w_size _ _) as [[lead block]|]; [|reflexivity]. now destruct (negb _).
Qed.
Theorem C82_invalid_scale_draws_refuted : forall d dim arr size, (0 < d)%Z -> dim <> 0 ->
  wishart {| d_shape := []; d_at := fun _ => d |} {| s_shape := [dim; dim]; s_array := arr; s_valid := false |} size = Fails WValueError (prod (asked size [])).
Proof.
  intros d dim arr size D M. unfold wishart. cbn [d_shape d_at s_shape s_valid length Nat.ltb Nat.leb orb nth Nat.sub firstn]. change (prod [] =? 0) with false. cbv beta iota.
  change (N.to_nat (prod [])) with 1%nat. cbn [seq forallb]. rewrite (proj2 (Z.ltb_lt _ _) D). cbn [andb negb]. cbn [prod]. rewrite (proj2 (N.eqb_neq (dim * (dim * 1)) 0)) by lia. rewrite N.eqb_refl. cbn [negb].
  unfold standard_wishart. replace (Z.of_N dim <? 0)%Z with false by lia. replace (d <? 0)%Z with false by lia. cbn [orb].
  replace (prod (std_size size)) with (prod (asked size [])) by (destruct size as [| |[]|]; reflexivity). now destruct (d <? Z.of_N dim)%Z.
Qed.
(* A size given as a list is turned down whenever df or scale is an array, even where the tuple is taken;
   with one df and one matrix it is taken (C82_scalar) *)
Theorem C82_list_size_refuted : forall df ss dim l arr val, good_df df -> prod ss <> 0 -> dim <> 0 -> d_shape df <> [] \/ ss <> [] ->
  wishart df {| s_shape := ss ++ [dim; dim]; s_array := arr; s_valid := val |} (SList l) = Fails WValueError 0.
Proof. intros df ss dim l arr val G S D E. rewrite wishart_unfold by assumption. now destruct (np_broadcast _ _). Qed.
(* A scale that is not an ndarray (nested lists) is documented, and taken with one df and one matrix, but
   raises AttributeError with an array *)
Theorem C82_list_scale_refuted : forall df ss dim its pre size val, good_df df -> prod ss <> 0 -> dim <> 0 -> d_shape df <> [] \/ ss <> [] ->
  np_broadcast (d_shape df) ss = Some its -> (forall l, size <> SList l) -> asked size its = pre ++ its ->
  wishart df {| s_shape := ss ++ [dim; dim]; s_array := false; s_valid := val |} size = Fails WAttributeError 0.
Proof.
  intros df ss dim its pre size val G S D E B SL A. assert (NZ : prod its <> 0) by (apply (bcast_nz _ _ _ B); [apply G|exact S]).
  rewrite wishart_unfold by assumption. rewrite B, (w_size_ok size its pre NZ SL A).
  assert (R : prod ((pre ++ its) ++ [dim; dim]) / (prod its * dim * dim) = prod pre).
  { rewrite !prod_app. cbn [prod]. replace (prod pre * prod its * (dim * (dim * 1))) with (prod pre * (prod its * dim * dim)) by lia. apply N.div_mul. rewrite !N.mul_eq_0. tauto. }
  rewrite R, N.eqb_refl. reflexivity.
Qed.
(* The first row of a sample of several rows is not what a call without the rows returns: the variates go
   down the columns *)
Theorem C82_rows_refuted : exists df scale r1 r2, wishart df scale SNone = Done r1 /\ wishart df scale (STuple [2; 3]) = Done r2 /\
  w_shape r1 = [3; 2; 2] /\ w_shape r2 = [2; 3; 2; 2] /\
  option_map e_var (w_at r1 1) = Some 1 /\ option_map e_var (w_at r2 1) = Some 2.
Proof.
  exists {| d_shape := [3]; d_at := fun _ => 5%Z |}, {| s_shape := [2; 2]; s_array := true; s_valid := true |}.
  eexists. eexists. split; [reflexivity|]. split; [reflexivity|]. repeat split.
Qed.
(* standard_wishart: zero degrees of freedom are taken, where wishart turns them down; negative ones and
   negative dimensions are turned down *)
Theorem C82_standard_zero_df_refuted : forall dim size, (0 <= dim)%Z -> exists r, standard_wishart 0 dim size = Done r.
Proof. intros dim size D. unfold standard_wishart. replace (dim <? 0)%Z with false by lia. cbn [orb Z.ltb Z.compare]. destruct (0 <? dim)%Z; eexists; reflexivity. Qed.
Theorem C82_standard_rejected : forall df dim size, (df < 0)%Z \/ (dim < 0)%Z -> standard_wishart df dim size = Fails WValueError 0.
Proof.
  intros df dim size H. unfold standard_wishart. destruct (df <? dim)%Z eqn:E.
  - replace ((df <? 0)%Z || (dim <? 0)%Z) with true by lia. reflexivity.
  - replace (dim <? 0)%Z with true by lia. reflexivity.
Qed.
Example C82_case : let df := {| d_shape := [2; 1]; d_at := fun k => (Z.of_N k + 4)%Z |} in
  good_df df /\ np_broadcast [2; 1] [3] = Some [2; 3] /\
  exists r, wishart df {| s_shape := [3; 2; 2]; s_array := true; s_valid := true |} (STuple [7; 2; 3]) = Done r /\ w_shape r = [7; 2; 3; 2; 2]
  /\ w_at r 10 = Some {| e_df := 5; e_mat := 1; e_var := 29 |}.
Proof.
  split; [split; [discriminate|]|split; [reflexivity|eexists; split; [reflexivity|split; reflexivity]]].
  intros i _. cbn [d_at]. lia.
Qed.

Print Assumptions C82_scalar.
Print Assumptions C82_arrays_partial.
Print Assumptions C82_own_variate.
Print Assumptions C82_rejected_size.
Print Assumptions C82_rejected_shapes.
Print Assumptions C82_rejected_df.
Print Assumptions C82_rejected_scale.
Print Assumptions C82_invalid_scale_array.
Print Assumptions C82_invalid_scale_draws_refuted.
Print Assumptions C82_list_size_refuted.
Print Assumptions C82_list_scale_refuted.
Print Assumptions C82_rows_refuted.
Print Assumptions C82_standard_zero_df_refuted.
Print Assumptions C82_standard_rejected.
