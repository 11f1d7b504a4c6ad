(* EFIIX64: model of src/efiix64/efiix64.h, src/efiix64/efiix64.c and efiix64.pyx *)
From Verif Require Import Word Arr Buffer32 Py Half Lcg.
From Coq Require Import String ZifyBool ZifyNat ZifyN.
Open Scope N_scope.

(* efiix64.h:19-25 without has_uint32, uinteger *)
Record efiix := EF { ef_ind : list N; ef_iter : list N; ef_i : N; ef_a : N; ef_b : N; ef_c : N }.
Notation efpy := (buffered efiix).
(* efiix64.h:31-42; None: an index outside a table *)
Definition efiix_raw (s : efiix) : option (efiix * N) :=
  match rd (ef_iter s) (Z.of_N (ef_i s mod 32)), rd (ef_ind s) (Z.of_N (ef_c s mod 16)) with
  | Some iterated, Some indirect =>
      let ind := upd (ef_ind s) (N.to_nat (ef_c s mod 16)) (wadd 64 iterated (ef_a s)) in
      let iter := upd (ef_iter s) (N.to_nat (ef_i s mod 32)) indirect in
      let old := N.lxor (ef_a s) (ef_b s) in
      let a := wadd 64 (ef_b s) (ef_i s) in
      let b := wadd 64 (ef_c s) indirect in
      let c := wadd 64 old (rotl 64 (ef_c s) 25) in
      Some (EF ind iter (wadd 64 (ef_i s) 1) a b c, N.lxor b iterated)
  | _, _ => None
  end.
(* the same without the index checks (they succeed, see efiix_raw_ok) *)
Definition efiix_next (s : efiix) : efiix * N :=
  let iterated := nth (N.to_nat (ef_i s mod 32)) (ef_iter s) 0 in
  let indirect := nth (N.to_nat (ef_c s mod 16)) (ef_ind s) 0 in
  let b := wadd 64 (ef_c s) indirect in
  (EF (upd (ef_ind s) (N.to_nat (ef_c s mod 16)) (wadd 64 iterated (ef_a s)))
      (upd (ef_iter s) (N.to_nat (ef_i s mod 32)) indirect)
      (wadd 64 (ef_i s) 1) (wadd 64 (ef_b s) (ef_i s)) b
      (wadd 64 (N.lxor (ef_a s) (ef_b s)) (rotl 64 (ef_c s) 25)),
   N.lxor b iterated).

(* efiix64.c:6-29 *)
Record arbee := AB { ab_a : N; ab_b : N; ab_c : N; ab_d : N; ab_i : N }.
Definition arbee_next (s : arbee) : arbee * N :=
  let e := wadd 64 (ab_a s) (rotl 64 (ab_b s) 45) in
  let a := N.lxor (ab_b s) (rotl 64 (ab_c s) 13) in
  let b := wadd 64 (ab_c s) (rotl 64 (ab_d s) 37) in
  let c := wadd 64 (wadd 64 e (ab_d s)) (ab_i s) in
  let d := wadd 64 e a in
  (AB a b c d (wadd 64 (ab_i s) 1), d).
Definition arbee_seed (s1 s2 s3 s4 : N) : arbee := N.iter 12 (fun s => fst (arbee_next s)) (AB s1 s2 s3 s4 1).
Definition arbees (n : nat) (s : arbee) : arbee * list N := raws arbee_next n s.
(* efiix64.c:39-41: iteration_table[(w + i) % 32] = value, w = 0, 1, ... *)
Fixpoint place (i w : N) (vs tbl : list N) : list N :=
  match vs with [] => tbl | v :: vs => place i (w + 1) vs (upd tbl (N.to_nat (wadd 64 w i mod 32)) v) end.
(* efiix64.c:35-44: the tables, i, a, b, c from the seeder. The old contents of
   the iteration table are all overwritten. *)
Definition ef_fill (old_iter : list N) (se : arbee) : efiix * arbee :=
  let '(se, ind) := arbees 16 se in
  let '(se, i) := arbee_next se in
  let '(se, its) := arbees 32 se in
  let iter := place i 0 its old_iter in
  let '(se, a) := arbee_next se in
  let '(se, b) := arbee_next se in
  let '(se, c) := arbee_next se in
  (EF ind iter i a b c, se).
(* efiix64.c:48-52: one value is thrown away, the next three are used *)
Definition ef_reseed (s1 s2 s3 s4 : N) (st : efiix) (se : arbee) : arbee :=
  let '(se, _) := arbee_next se in
  let '(se, v1) := arbee_next se in
  let '(se, v2) := arbee_next se in
  let '(se, v3) := arbee_next se in
  arbee_seed (N.lxor (wadd 64 s1 v1) (ef_a st)) (N.lxor (wadd 64 s2 v2) (ef_b st)) (N.lxor (wadd 64 s3 v3) (ef_c st)) (wnot 64 s4).
(* efiix64.c:53-56 *)
Definition ef_xor (st : efiix) (se : arbee) : efiix :=
  EF (map (fun '(x, y) => N.lxor x y) (combine (ef_ind st) (snd (arbees 16 se)))) (ef_iter st) (ef_i st) (ef_a st) (ef_b st) (ef_c st).
(* efiix64.c:31-60; seed: four words *)
Definition efiix_seed (old_iter : list N) (s1 s2 s3 s4 : N) : efiix :=
  let '(st, se) := ef_fill old_iter (arbee_seed s1 s2 s3 s4) in
  let st := N.iter 64 (cstep efiix_next) st in
  N.iter 48 (cstep efiix_next) (ef_xor st (ef_reseed s1 s2 s3 s4 st se)).
(* efiix64.pyx:117-123 *)
Definition ef_seed_from (s1 s2 s3 s4 : N) (b : efpy) : efpy := Buf (efiix_seed (ef_iter (core b)) s1 s2 s3 s4) false 0.

(* efiix64.pyx:151-183 *)
Definition ef_get (b : efpy) : pyval :=
  let s := core b in
  PDict [("bit_generator", PStr "randomgen.efiix64.EFIIX64");
         ("state", PDict [("indirection_table", PArr 64 (ef_ind s)); ("iteration_table", PArr 64 (ef_iter s));
                          ("i", PInt (Z.of_N (ef_i s))); ("a", PInt (Z.of_N (ef_a s))); ("b", PInt (Z.of_N (ef_b s))); ("c", PInt (Z.of_N (ef_c s)))]);
         ("has_uint32", bool_int (has32 b));
         ("uinteger", PInt (Z.of_N (u32 b)))]%string.
(* efiix64.pyx:185-219, with contiguous arrays (the elements are taken from the
   data pointer; see Layout.v for other arrays) *)
Definition ef_set (v : pyval) : M efpy unit := (
  lift (preamble "EFIIX64" "randomgen.efiix64.EFIIX64" v);;
  st <- lift (getitem v "state");;
  l <- lift (obind (getitem st "indirection_table") (check_arr 16 64));;
  modify (fun b => let s := core b in set_core (EF l (ef_iter s) (ef_i s) (ef_a s) (ef_b s) (ef_c s)) b);;
  l <- lift (obind (getitem st "iteration_table") (check_arr 32 64));;
  modify (fun b => let s := core b in set_core (EF (ef_ind s) l (ef_i s) (ef_a s) (ef_b s) (ef_c s)) b);;
  n <- lift (obind (getitem st "i") (to_uint 64));;
  modify (fun b => let s := core b in set_core (EF (ef_ind s) (ef_iter s) n (ef_a s) (ef_b s) (ef_c s)) b);;
  n <- lift (obind (getitem st "a") (to_uint 64));;
  modify (fun b => let s := core b in set_core (EF (ef_ind s) (ef_iter s) (ef_i s) n (ef_b s) (ef_c s)) b);;
  n <- lift (obind (getitem st "b") (to_uint 64));;
  modify (fun b => let s := core b in set_core (EF (ef_ind s) (ef_iter s) (ef_i s) (ef_a s) n (ef_c s)) b);;
  n <- lift (obind (getitem st "c") (to_uint 64));;
  modify (fun b => let s := core b in set_core (EF (ef_ind s) (ef_iter s) (ef_i s) (ef_a s) (ef_b s) n) b);;
  set_half v)%py.

(* ------------------------------------------------------------------- facts *)
Ltac Zify.zify_post_hook ::= idtac.
Definition ef_ok (s : efiix) : Prop :=
  List.length (ef_ind s) = 16%nat /\ Forall (wf 64) (ef_ind s) /\ List.length (ef_iter s) = 32%nat /\ Forall (wf 64) (ef_iter s)
  /\ wf 64 (ef_i s) /\ wf 64 (ef_a s) /\ wf 64 (ef_b s) /\ wf 64 (ef_c s).
Definition efpy_ok (b : efpy) : Prop := ef_ok (core b) /\ wf 32 (u32 b).
Lemma mod_idx x n : n <> 0 -> (N.to_nat (x mod n) < N.to_nat n)%nat.
Proof. intros H. pose proof (N.mod_lt x n H). lia. Qed.
Lemma nth_wf i l : Forall (wf 64) l -> (i < List.length l)%nat -> wf 64 (nth i l 0).
Proof. intros F H. rewrite Forall_forall in F. now apply F, nth_In. Qed.
Lemma ef_i_lt s : ef_ok s -> (N.to_nat (ef_i s mod 32) < List.length (ef_iter s))%nat.
Proof. intros (_ & _ & L & _). rewrite L. apply (mod_idx (ef_i s) 32). discriminate. Qed.
Lemma ef_c_lt s : ef_ok s -> (N.to_nat (ef_c s mod 16) < List.length (ef_ind s))%nat.
Proof. intros (L & _). rewrite L. apply (mod_idx (ef_c s) 16). discriminate. Qed.
Lemma efiix_raw_ok s : ef_ok s -> efiix_raw s = Some (efiix_next s).
Proof.
  intros H. pose proof (ef_i_lt s H). pose proof (ef_c_lt s H). unfold efiix_raw.
  rewrite (rd_nth (ef_iter s) _ 0), (rd_nth (ef_ind s) _ 0) by lia.
  assert (E : forall n, Z.to_nat (Z.of_N n) = N.to_nat n) by (intros n; lia). rewrite !E. reflexivity.
Qed.
Lemma efiix_next_ok s : ef_ok s -> ef_ok (fst (efiix_next s)) /\ wf 64 (snd (efiix_next s)).
Proof.
  intros H. pose proof (ef_i_lt s H) as I. pose proof (ef_c_lt s H) as J. destruct H as (L & F & L' & F' & Hi & Ha & Hb & Hc).
  unfold efiix_next, ef_ok. cbn [fst snd ef_ind ef_iter ef_i ef_a ef_b ef_c]. rewrite !upd_length.
  refine (conj (conj L (conj _ (conj L' (conj _ (conj _ (conj _ (conj _ _))))))) _); try apply wf_wadd.
  - apply upd_Forall; [exact F|apply wf_wadd].
  - apply upd_Forall; [exact F'|now apply nth_wf].
  - apply wf_lxor; [apply wf_wadd|now apply nth_wf].
Qed.
Lemma upd_inj l m i x y : List.length l = List.length m -> (i < List.length l)%nat -> upd l i x = upd m i y -> nth i l 0 = nth i m 0 -> l = m /\ x = y.
Proof.
  intros L Hi H E. assert (A : forall j, nth j (upd l i x) 0 = nth j (upd m i y) 0) by (intros; now rewrite H). split.
  - apply (nth_ext _ _ 0 0); [exact L|]. intros j Hj. specialize (A j). rewrite !upd_nth in A by (rewrite <- ?L; exact Hi).
    destruct (Nat.eqb_spec i j) as [Q|Q]; [rewrite <- Q; exact E|exact A].
  - specialize (A i). rewrite !upd_nth in A by (rewrite <- ?L; exact Hi). now rewrite Nat.eqb_refl in A.
Qed.
Lemma upd_val l m i x y : List.length l = List.length m -> (i < List.length l)%nat -> upd l i x = upd m i y -> x = y.
Proof.
  intros L Hi H. assert (A : nth i (upd l i x) 0 = nth i (upd m i y) 0) by now rewrite H.
  rewrite !upd_nth in A by (rewrite <- ?L; exact Hi). now rewrite Nat.eqb_refl in A.
Qed.
Lemma efiix_step_inj s t : ef_ok s -> ef_ok t -> cstep efiix_next s = cstep efiix_next t -> s = t.
Proof.
  intros Hs Ht. pose proof (ef_i_lt s Hs) as I. pose proof (ef_c_lt s Hs) as J. pose proof (ef_i_lt t Ht) as I'. pose proof (ef_c_lt t Ht) as J'.
  destruct s as [ind iter i a b c], t as [ind' iter' i' a' b' c'].
  destruct Hs as (L & F & M & G & Hi & Ha & Hb & Hc), Ht as (L' & F' & M' & G' & Hi' & Ha' & Hb' & Hc').
  cbn [ef_ind ef_iter ef_i ef_a ef_b ef_c] in *. unfold cstep, efiix_next. cbn [fst ef_ind ef_iter ef_i ef_a ef_b ef_c].
  intros H. injection H as H1 H2 H3 H4 H5 H6.
  apply wadd_inj_r in H3; [|assumption|assumption]. subst i'. apply wadd_inj_r in H4; [|assumption|assumption]. subst b'.
  pose proof (upd_val _ _ _ _ _ (eq_trans M (eq_sym M')) I H2) as E1. rewrite <- E1 in H5. apply wadd_inj_r in H5; [|assumption|assumption]. subst c'.
  apply wadd_inj_r in H6; [|now apply wf_lxor|now apply wf_lxor]. apply lxor_inj_r in H6. subst a'.
  pose proof (upd_val _ _ _ _ _ (eq_trans L (eq_sym L')) J H1) as E2. apply wadd_inj_r in E2; [|now apply nth_wf|now apply nth_wf].
  apply upd_inj in H1; [|congruence|exact J|exact E1]. destruct H1 as [-> _].
  apply upd_inj in H2; [|congruence|exact I|exact E2]. destruct H2 as [-> _]. reflexivity.
Qed.
Lemma efiix_step_ok s : ef_ok s -> ef_ok (cstep efiix_next s).
Proof. intros H. apply efiix_next_ok, H. Qed.
Lemma efiix_iter_ok n s : ef_ok s -> ef_ok (N.iter n (cstep efiix_next) s).
Proof. intros H. apply Niter_inv; [exact efiix_step_ok|exact H]. Qed.
Lemma efiix_iter_inj n s t : ef_ok s -> ef_ok t -> N.iter n (cstep efiix_next) s = N.iter n (cstep efiix_next) t -> s = t.
Proof. apply (Niter_inj ef_ok); [exact efiix_step_ok|exact efiix_step_inj]. Qed.
Lemma efiix_iter_i n s : ef_i (N.iter n (cstep efiix_next) s) = N.iter n (lcg_step 64 1 1) (ef_i s).
Proof.
  induction n as [|n IH] using N.peano_ind; [reflexivity|]. rewrite !N.iter_succ, <- IH. unfold lcg_step. rewrite N.mul_1_r. reflexivity.
Qed.
Lemma efiix_return n s : ef_ok s -> N.iter n (cstep efiix_next) s = s -> n mod 2 ^ 64 = 0.
Proof.
  intros (_ & _ & _ & _ & W & _) H. apply (lcg_period 64 1 1 (ef_i s) n); [reflexivity|reflexivity|exact W|]. now rewrite <- efiix_iter_i, H.
Qed.
Lemma ef_set_get s t : efpy_ok s -> ef_set (ef_get s) t = (s, Ok tt).
Proof.
  intros [(L & F & M & G & I & A & B & C) U]. destruct s as [[ind iter i a b c] h u], t as [[ind' iter' i' a' b' c'] h' u']. cbn [core ef_ind ef_iter ef_i ef_a ef_b ef_c u32] in *.
  assert (L' : N.of_nat (List.length ind) = 16) by now rewrite L. assert (M' : N.of_nat (List.length iter) = 32) by now rewrite M.
  unfold ef_set, ef_get. cbn [core has32 u32 ef_ind ef_iter ef_i ef_a ef_b ef_c].
  do 12 (repeat (rewrite bind_lift; cbn; rewrite ?check_arr_ok, ?to_uint_ok by assumption);
    try (rewrite bind_modify; unfold set_core; cbn [core has32 u32 ef_ind ef_iter ef_i ef_a ef_b ef_c])).
  rewrite (set_half_run _ h u) by (try reflexivity; exact U). reflexivity.
Qed.
(* seeding: the table is overwritten, so the result does not depend on it *)
Lemma place_length i vs : forall w tbl, List.length (place i w vs tbl) = List.length tbl.
Proof. induction vs as [|v vs IH]; intros w tbl; cbn [place]; [reflexivity|]. now rewrite IH, upd_length. Qed.
Lemma place_agree i vs : forall w t1 t2, List.length t1 = 32%nat -> List.length t2 = 32%nat ->
  (forall j, (j < 32)%nat -> (forall k, (k < List.length vs)%nat -> N.to_nat (wadd 64 (w + N.of_nat k) i mod 32) <> j) -> nth j t1 0 = nth j t2 0) ->
  place i w vs t1 = place i w vs t2.
Proof.
  induction vs as [|v vs IH]; intros w t1 t2 L1 L2 H; cbn [place].
  - apply (nth_ext _ _ 0 0); [congruence|]. intros j Hj. apply H; [congruence|]. intros k Hk. exfalso. cbn in Hk. lia.
  - pose proof (mod_idx (wadd 64 w i) 32 ltac:(discriminate)) as P. change (N.to_nat 32) with 32%nat in P.
    apply IH; [now rewrite upd_length|now rewrite upd_length|]. intros j Hj Hk. rewrite !upd_nth by (rewrite ?L1, ?L2; exact P).
    destruct (Nat.eqb_spec (N.to_nat (wadd 64 w i mod 32)) j) as [Q|Q]; [reflexivity|]. apply H; [exact Hj|].
    intros [|k] Hlt; [rewrite N.add_0_r; exact Q|]. replace (w + N.of_nat (S k)) with (w + 1 + N.of_nat k) by lia. apply Hk. cbn in Hlt. lia.
Qed.
Lemma wadd_mod32 w i : wadd 64 w i mod 32 = (w + i) mod 32.
Proof.
  unfold wadd. replace (2 ^ 64) with (32 * 2 ^ 59) by reflexivity. rewrite N.mod_mul_r by discriminate.
  rewrite (N.mul_comm 32), N.mod_add by discriminate. apply N.mod_mod. discriminate.
Qed.
Lemma place_all i vs t1 t2 : List.length vs = 32%nat -> List.length t1 = 32%nat -> List.length t2 = 32%nat -> place i 0 vs t1 = place i 0 vs t2.
Proof.
  intros L L1 L2. apply place_agree; [exact L1|exact L2|]. intros j Hj H. exfalso. rewrite L in H.
  pose proof (N.mod_lt i 32 ltac:(discriminate)) as B.
  pose (x := (N.of_nat j + (32 - i mod 32)) mod 32). assert (X : x < 32) by (apply N.mod_lt; discriminate).
  apply (H (N.to_nat x)); [lia|]. rewrite N2Nat.id, wadd_mod32, N.add_0_l. unfold x.
  rewrite N.add_mod_idemp_l by discriminate. rewrite (N.div_mod i 32) at 2 by discriminate.
  replace (N.of_nat j + (32 - i mod 32) + (32 * (i / 32) + i mod 32)) with (N.of_nat j + (1 + i / 32) * 32) by lia.
  rewrite N.mod_add, N.mod_small by (discriminate || lia). lia.
Qed.
Lemma arbee_next_wf s : wf 64 (snd (arbee_next s)).
Proof. apply wf_wadd. Qed.
Lemma arbees_spec n : forall s, List.length (snd (arbees n s)) = n /\ Forall (wf 64) (snd (arbees n s)).
Proof.
  unfold arbees. induction n as [|n IH]; intros s; cbn [raws]; [split; [reflexivity|constructor]|].
  pose proof (arbee_next_wf s) as W. destruct (arbee_next s) as [s1 v]. specialize (IH s1). destruct (raws arbee_next n s1) as [s2 vs]. cbn [snd] in *.
  destruct IH as [L F]. split; [cbn; now rewrite L|now constructor].
Qed.
Lemma place_Forall i vs : Forall (wf 64) vs -> forall w tbl, Forall (wf 64) tbl -> Forall (wf 64) (place i w vs tbl).
Proof. induction 1 as [|v vs Hv H IH]; intros w tbl T; cbn [place]; [exact T|]. apply IH. now apply upd_Forall. Qed.
Lemma xor_tables l m : List.length l = List.length m -> Forall (wf 64) l -> Forall (wf 64) m ->
  List.length (map (fun '(x, y) => N.lxor x y) (combine l m)) = List.length l /\ Forall (wf 64) (map (fun '(x, y) => N.lxor x y) (combine l m)).
Proof.
  revert m. induction l as [|x l IH]; intros [|y m] L F G; cbn in *; try discriminate; [split; [reflexivity|constructor]|].
  inversion F; inversion G; subst. injection L as L. destruct (IH m L ltac:(assumption) ltac:(assumption)) as [E H]. split; [now rewrite E|constructor; [now apply wf_lxor|exact H]].
Qed.
Lemma ef_fill_spec se old old' : List.length old = 32%nat -> List.length old' = 32%nat -> Forall (wf 64) old ->
  ef_fill old se = ef_fill old' se /\ ef_ok (fst (ef_fill old se)).
Proof.
  intros L L' F. unfold ef_fill.
  destruct (arbees_spec 16 se) as [A1 A2]. destruct (arbees 16 se) as [se0 ind]. cbn [snd] in *.
  pose proof (arbee_next_wf se0) as Wi. destruct (arbee_next se0) as [se1 i]. cbn [snd] in *.
  destruct (arbees_spec 32 se1) as [B1 B2]. destruct (arbees 32 se1) as [se2 its]. cbn [snd] in *.
  pose proof (arbee_next_wf se2) as Wa. destruct (arbee_next se2) as [se3 a].
  pose proof (arbee_next_wf se3) as Wb. destruct (arbee_next se3) as [se4 b].
  pose proof (arbee_next_wf se4) as Wc. destruct (arbee_next se4) as [se5 c]. cbn [fst snd] in *. split.
  - now rewrite (place_all i its old old' B1 L L').
  - refine (conj A1 (conj A2 (conj _ (conj _ (conj Wi (conj Wa (conj Wb Wc))))))); cbn [ef_iter]; [now rewrite place_length|now apply place_Forall].
Qed.
Lemma ef_xor_ok st se : ef_ok st -> ef_ok (ef_xor st se).
Proof.
  intros (P1 & P2 & P3). destruct (arbees_spec 16 se) as [C1 C2]. destruct (xor_tables (ef_ind st) _ (eq_trans P1 (eq_sym C1)) P2 C2) as [D1 D2].
  refine (conj _ (conj D2 P3)). unfold ef_xor. cbn [ef_ind]. now rewrite D1.
Qed.
Lemma efiix_seed_spec s1 s2 s3 s4 old old' : List.length old = 32%nat -> List.length old' = 32%nat -> Forall (wf 64) old ->
  efiix_seed old s1 s2 s3 s4 = efiix_seed old' s1 s2 s3 s4 /\ ef_ok (efiix_seed old s1 s2 s3 s4).
Proof.
  intros L L' F. unfold efiix_seed. generalize (arbee_seed s1 s2 s3 s4). intros se.
  destruct (ef_fill_spec se old old' L L' F) as [E O]. rewrite <- E. split; [reflexivity|].
  destruct (ef_fill old se) as [st se1]. cbn [fst] in O. apply efiix_iter_ok, ef_xor_ok, efiix_iter_ok, O.
Qed.
